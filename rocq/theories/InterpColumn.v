(** One column of [interp_with]: value at each requested level, linear and log. *)
From Coq Require Import Reals List Bool Arith ZArith Lra Lia String Permutation.
From Verif Require Import PyBase PyFacts Num NumFacts Arr ArrFacts Spec Interp1d Interp1dFacts ChunkFacts.
Import ListNotations.
Local Open Scope R_scope.

(** the vertical coordinate of each method *)
Definition vcoord (m : imethod) (p : R) : R := match m with MLinear => p | MLog => ln p end.

Lemma blend_fin a b w : blend (Fin a) (Fin b) w = Fin (a + (b - a) * w).
Proof. reflexivity. Qed.

Lemma interp_at_value l var x : List.length var = List.length l -> (2 <= List.length l)%nat -> NoDup l ->
  column_value (fun r => r) (fun k => nth k l 0) (fun k => nth k var NaN) (List.length l) x
    (okval NaN (interp_at (isort (combine (map Fin l) var)) (Fin x))).
Proof.
  intros H1 H2 H3. destruct (range_cases l var H1 H2 H3 x) as [H|(i & j & Hi & Hj & H)].
  - left. split; auto. rewrite (interp_at_out l var H1 H2 H3 x H). reflexivity.
  - right. destruct (interp_at_in l var H1 H2 H3 x i j Hi Hj H) as (a & b & Hc & E).
    exists a, b. split; auto. rewrite E. reflexivity.
Qed.

Lemma ln_inj_iff a b : 0 < a -> 0 < b -> (ln a < ln b <-> a < b).
Proof. intros. split; [apply ln_lt_inv; auto|apply ln_increasing; auto]. Qed.
Lemma ln_le_iff a b : 0 < a -> 0 < b -> (ln a <= ln b <-> a <= b).
Proof.
  intros Ha Hb. split; intros H.
  - destruct (Rle_lt_dec a b) as [|Hlt]; auto. apply ln_inj_iff in Hlt; auto. lra.
  - destruct (Rle_lt_dec (ln a) (ln b)) as [|Hlt]; auto. apply ln_lt_inv in Hlt; auto. lra.
Qed.

Lemma nth_map_R (f : R -> R) l k : (k < List.length l)%nat -> nth k (map f l) 0 = f (nth k l 0).
Proof. intros H. rewrite (nth_indep _ 0 (f 0)) by (rewrite map_length; auto). apply map_nth. Qed.
Lemma Forall_nth_R (P : R -> Prop) l k : Forall P l -> (k < List.length l)%nat -> P (nth k l 0).
Proof. intros H Hk. rewrite Forall_forall in H. apply H. apply nth_In. auto. Qed.

Lemma sorted_le_ln l : Forall (Rlt 0) l -> sorted_le l -> sorted_le (map ln l).
Proof.
  intros Hp Hs i j Hij. rewrite map_length in Hij. rewrite !nth_map_R by lia.
  apply ln_le_iff; [apply (Forall_nth_R _ l i); auto; lia|apply (Forall_nth_R _ l j); auto; lia|apply Hs; auto].
Qed.
Lemma one_direction_ln l : Forall (Rlt 0) l -> one_direction l -> one_direction (map ln l).
Proof.
  intros Hp [H|H]; [left; apply sorted_le_ln; auto|right].
  rewrite <- map_rev. apply sorted_le_ln; auto. apply Forall_rev. auto.
Qed.
Lemma map_nln l : Forall (Rlt 0) l -> map nln (map Fin l) = map Fin (map ln l).
Proof.
  intros H. rewrite !map_map. apply map_ext_in. intros x Hx. rewrite Forall_forall in H.
  apply (fln_fin x). apply H. auto.
Qed.
Lemma NoDup_ln l : Forall (Rlt 0) l -> NoDup l -> NoDup (map ln l).
Proof.
  intros Hp Hn. induction l as [|x l IH]; cbn; [constructor|]. inversion Hn; inversion Hp; subst.
  constructor; auto. rewrite in_map_iff. intros (y & Hy & Hin). rewrite Forall_forall in H6.
  apply ln_inv in Hy; auto. subst. contradiction.
Qed.

Lemma column_value_ln p v n x y : (forall k, (k < n)%nat -> 0 < p k) -> 0 < x ->
  column_value (fun r => r) (fun k => ln (p k)) v n (ln x) y -> column_value ln p v n x y.
Proof.
  intros Hp Hx [[H ->]|(i & j & [(Hi & Hj & Hij & Hk) [Hx2 Hx3]] & ->)].
  - left. split; auto. destruct H as [H|H]; [left|right]; intros k Hk; apply ln_inj_iff; auto.
  - right. exists i, j. split; auto. split; [|split].
    + split; auto. split; auto. split; [apply ln_inj_iff; auto|].
      intros k Hkn. destruct (Hk k Hkn) as [H|H]; [left|right]; apply ln_le_iff; auto.
    + destruct Hx2. split; apply ln_le_iff; auto.
    + destruct Hx3 as [H|H]; [left; apply ln_inj_iff; auto|right]. intros k Hkn. apply ln_le_iff; auto.
Qed.

Lemma column_value_ext f p p' v v' n x y : (forall k, (k < n)%nat -> p k = p' k) -> (forall k, (k < n)%nat -> v k = v' k) ->
  column_value f p v n x y -> column_value f p' v' n x y.
Proof.
  intros Hp Hv [[H ->]|(i & j & [(Hi & Hj & Hij & Hk) [Hx2 Hx3]] & ->)].
  - left. split; auto. destruct H as [H|H]; [left|right]; intros k Hk; specialize (H k Hk); rewrite <- Hp; auto.
  - right. exists i, j. rewrite <- !Hp, <- !Hv by auto. split; auto. split; [|split].
    + split; auto. split; auto. rewrite <- !Hp by auto. split; auto. intros k Hkn. rewrite <- Hp by auto. auto.
    + rewrite <- !Hp by auto. auto.
    + rewrite <- !Hp by auto. destruct Hx3 as [H|H]; auto. right. intros k Hkn. rewrite <- Hp by auto. auto.
Qed.

Lemma col_list m x l var :
  List.length var = List.length l -> (2 <= List.length l)%nat -> NoDup l -> x <> [] ->
  (m = MLog -> Forall (Rlt 0) l /\ Forall (Rlt 0) x) ->
  exists x' g, served_order (map (vcoord m) x) x' /\
    interp_with m (map Fin x) (map Fin l) var = Ok (map g x') /\
    forall y, column_value (fun r => r) (fun k => vcoord m (nth k l 0)) (fun k => nth k var NaN) (List.length l) y (g y).
Proof.
  intros H1 H2 H3 Hx Hm. destruct m; cbn [vcoord interp_with].
  - rewrite map_id. destruct (interp_col_served x l var) as (x' & S & E); auto. exists x'; eexists. split; [|split]; [exact S|exact E|].
    intros y. apply interp_at_value; auto.
  - destruct (Hm eq_refl) as [Hl Hxp]. unfold log_interp_col. rewrite !map_nln by auto.
    destruct (interp_col_served (map ln x) (map ln l) var) as (x' & S & E); rewrite ?map_length; auto using NoDup_ln.
    { destruct x; [congruence|discriminate]. }
    exists x'; eexists. split; [|split]; [exact S|exact E|]. intros y.
    pose proof (interp_at_value (map ln l) var y) as V. rewrite map_length in V.
    specialize (V H1 H2 (NoDup_ln _ Hl H3)). eapply column_value_ext; [| |exact V]; cbn; auto.
    intros k Hk. apply nth_map_R. auto.
Qed.

Lemma col_value m x l var :
  List.length var = List.length l -> (2 <= List.length l)%nat -> NoDup l -> x <> [] -> one_direction x ->
  (m = MLog -> Forall (Rlt 0) l /\ Forall (Rlt 0) x) ->
  exists r, interp_with m (map Fin x) (map Fin l) var = Ok r /\ List.length r = List.length x /\
    forall j, (j < List.length x)%nat ->
      column_value (vcoord m) (fun k => nth k l 0) (fun k => nth k var NaN) (List.length l) (nth j x 0) (nth j r NaN) /\
      interp_with m [Fin (nth j x 0)] (map Fin l) var = Ok [nth j r NaN].
Proof.
  intros H1 H2 H3 Hx Hd Hm. destruct m.
  - cbn [interp_with vcoord]. destruct (interp_col_served x l var) as (x' & S & E); auto.
    assert (x' = x) by (eapply served_order_sorted; eauto). subst. eexists. split; [exact E|].
    rewrite map_length. split; auto. intros j Hj.
    rewrite (nth_indep _ NaN (okval NaN (interp_at (isort (combine (map Fin l) var)) (Fin 0)))) by (rewrite map_length; auto).
    rewrite (map_nth (fun y => okval NaN (interp_at (isort (combine (map Fin l) var)) (Fin y)))).
    split; [apply interp_at_value; auto|].
    destruct (interp_col_served [nth j x 0] l var) as (x1 & S1 & E1); auto; [discriminate|].
    assert (x1 = [nth j x 0]).
    { destruct S1 as [P _]. apply Permutation_sym in P. apply Permutation_length_1_inv in P. auto. }
    subst. exact E1.
  - destruct (Hm eq_refl) as [Hl Hxp]. cbn [interp_with]. unfold log_interp_col. rewrite !map_nln by auto.
    assert (Hx' : map ln x <> []) by (destruct x; [congruence|discriminate]).
    destruct (interp_col_served (map ln x) (map ln l) var) as (x' & S & E); rewrite ?map_length; auto using NoDup_ln.
    assert (x' = map ln x) by (eapply served_order_sorted; [eauto|apply one_direction_ln; auto]). subst. eexists. split; [exact E|].
    rewrite !map_length. split; auto. intros j Hj.
    set (g := fun y => okval NaN (interp_at (isort (combine (map Fin (map ln l)) var)) (Fin y))).
    assert (En : nth j (map g (map ln x)) NaN = g (ln (nth j x 0))).
    { rewrite map_map. rewrite (nth_indep _ NaN (g (ln 0))) by (rewrite map_length; auto). apply (map_nth (fun y => g (ln y))). }
    rewrite En.
    pose proof (Forall_nth_R _ x j Hxp Hj) as Hxj. cbn beta in Hxj. split.
    + apply column_value_ln; auto.
      { intros k Hk. apply Forall_nth_R; auto. }
      pose proof (interp_at_value (map ln l) var (ln (nth j x 0))) as V. rewrite map_length in V.
      specialize (V H1 H2 (NoDup_ln _ Hl H3)). eapply column_value_ext; [| |exact V]; cbn; auto.
      intros k Hk. apply nth_map_R. auto.
    + destruct (interp_col_served [ln (nth j x 0)] (map ln l) var) as (x1 & S1 & E1); rewrite ?map_length; auto using NoDup_ln; [discriminate|].
      assert (x1 = [ln (nth j x 0)]).
      { destruct S1 as [P _]. apply Permutation_sym in P. apply Permutation_length_1_inv in P. auto. }
      subst. cbn [map] in E1 |- *. etransitivity; [|exact E1]. f_equal. f_equal. apply (fln_fin (nth j x 0)). auto.
Qed.

(** ** consequences for finite data *)
Section Value.
  Variables (m : imethod) (p : nat -> R) (n : nat) (x : R).
  Hypothesis Hpos : m = MLog -> (forall k, (k < n)%nat -> 0 < p k) /\ 0 < x.
  Let f := vcoord m.
  Lemma vcoord_le a b : (m = MLog -> 0 < a /\ 0 < b) -> (f a <= f b <-> a <= b).
  Proof. unfold f. destruct m; cbn; intros H; [tauto|]. destruct (H eq_refl). apply ln_le_iff; auto. Qed.
  Lemma vcoord_lt a b : (m = MLog -> 0 < a /\ 0 < b) -> (f a < f b <-> a < b).
  Proof. unfold f. destruct m; cbn; intros H; [tauto|]. destruct (H eq_refl). apply ln_inj_iff; auto. Qed.

  Lemma bracket_weight i j : code_bracket p n i j x ->
    let w := (f x - f (p i)) / (f (p j) - f (p i)) in 0 <= w <= 1 /\ 0 < f (p j) - f (p i).
  Proof.
    intros [(Hi & Hj & Hij & _) [[H1 H2] _]] w.
    assert (A : f (p i) < f (p j)) by (apply vcoord_lt; auto; intros E; destruct (Hpos E); auto).
    assert (B : f (p i) <= f x) by (apply vcoord_le; auto; intros E; destruct (Hpos E); auto).
    assert (C : f x <= f (p j)) by (apply vcoord_le; auto; intros E; destruct (Hpos E); auto).
    split; [|lra]. unfold w. split.
    - apply Rmult_le_pos; [lra|]. apply Rlt_le, Rinv_0_lt_compat. lra.
    - apply Rmult_le_reg_r with (f (p j) - f (p i)); [lra|]. unfold Rdiv. rewrite Rmult_assoc, Rinv_l by lra. lra.
  Qed.

  Variables (V : nat -> R) (y : fl).
  Hypothesis Hy : column_value f p (fun k => Fin (V k)) n x y.

  Lemma value_node k : distinct_levels p n -> (k < n)%nat -> x = p k -> y = Fin (V k).
  Proof.
    intros Hd Hk Ex. destruct Hy as [[[H|H] _]|(i & j & Hc & Ey)]; try (specialize (H k Hk); lra).
    destruct (bracket_weight i j Hc) as [_ Hpos2]. destruct Hc as [(Hi & Hj & Hij & Hno) [Hx Hlo]].
    rewrite Ey, blend_fin. f_equal. rewrite Ex in *.
    destruct (Hno k Hk) as [Hle|Hge].
    - assert (E : k = i) by (apply Hd; auto; lra). subst k. replace (f (p i) - f (p i)) with 0 by ring. unfold Rdiv. ring.
    - assert (E : k = j) by (apply Hd; auto; lra). subst k. field. lra.
  Qed.

  Lemma value_between : ~ out_of_range p n x ->
    exists i j r, neighbours p n i j /\ p i <= x <= p j /\ y = Fin r /\ Rmin (V i) (V j) <= r <= Rmax (V i) (V j).
  Proof.
    intros Hr. destruct Hy as [[H _]|(i & j & Hc & Ey)]; [contradiction|].
    destruct (bracket_weight i j Hc) as [Hw _]. destruct Hc as [Hn [Hx _]].
    exists i, j, (V i + (V j - V i) * ((f x - f (p i)) / (f (p j) - f (p i)))). split; auto. split; auto. split; [rewrite Ey; auto|].
    set (w := (f x - f (p i)) / (f (p j) - f (p i))) in *.
    unfold Rmin, Rmax. destruct (Rle_dec (V i) (V j)) as [H|H].
    - assert (0 <= (V j - V i) * w) by (apply Rmult_le_pos; lra).
      assert ((V j - V i) * w <= (V j - V i) * 1) by (apply Rmult_le_compat_l; lra). lra.
    - assert (0 <= (V i - V j) * w) by (apply Rmult_le_pos; lra).
      assert ((V i - V j) * w <= (V i - V j) * 1) by (apply Rmult_le_compat_l; lra). lra.
  Qed.

  Lemma value_nan : y = NaN <-> out_of_range p n x.
  Proof.
    split.
    - intros E. destruct Hy as [[H _]|(i & j & Hc & E2)]; auto. rewrite blend_fin in E2. congruence.
    - intros H. destruct Hy as [[_ E]|(i & j & [(Hi & Hj & _) [Hx _]] & E)]; auto.
      exfalso. destruct H as [H|H]; [specialize (H j Hj)|specialize (H i Hi)]; lra.
  Qed.

  Lemma value_exact a b : (forall k, (k < n)%nat -> V k = a + b * f (p k)) -> ~ out_of_range p n x -> y = Fin (a + b * f x).
  Proof.
    intros HV Hr. destruct Hy as [[H _]|(i & j & Hc & Ey)]; [contradiction|].
    destruct (bracket_weight i j Hc) as [_ Hd]. destruct Hc as [(Hi & Hj & _) _]. rewrite Ey, blend_fin, !HV by auto.
    f_equal. field. lra.
  Qed.
End Value.
