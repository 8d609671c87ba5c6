(** Facts about interp_multidim. *)
From Coq Require Import Reals List Bool Arith ZArith Lra Lia String Permutation.
From Verif Require Import PyBase PyFacts Num NumFacts Arr ArrFacts Spec Hybrid Interp1d Interp1dFacts InterpMulti.
Import ListNotations.
Local Open Scope R_scope.

Lemma line_through_fin x0 x1 v0 v1 x : x0 <> x1 -> line_through x0 x1 (Fin v0) (Fin v1) x = Fin (lin x0 x1 v0 v1 x).
Proof.
  intros H. unfold line_through, lin. cbn [nsub NumFl fl_sub]. change (@ndiv fl NumFl) with fl_div.
  rewrite fdiv_fin by lra. cbn [nmul NumFl fl_mul nadd fl_add]. f_equal. field. lra.
Qed.
Lemma line_through_nan0 x0 x1 v1 x : line_through x0 x1 NaN v1 x = NaN.
Proof. unfold line_through. destruct v1; reflexivity. Qed.
Lemma line_through_nan1 x0 x1 v0 x : line_through x0 x1 v0 NaN x = NaN.
Proof. unfold line_through. destruct v0; reflexivity. Qed.

Section Dim.
  Variables (l : list R) (var : list fl).
  Hypothesis Hlen : List.length var = List.length l.
  Hypothesis Hn : (2 <= List.length l)%nat.
  Hypothesis Hnd : NoDup l.
  Let n := List.length l.
  Let p (k : nat) := nth k l 0.
  Let s := isort (combine (map Fin l) var).
  Let L : List.length s = n := s_length l var Hlen Hn.
  Let So : sorted_lt (map keyr s) := s_sorted l var Hlen Hn Hnd.

  Definition line_at (i j : nat) (x : R) : fl := line_through (nth i l 0) (nth j l 0) (nth i var NaN) (nth j var NaN) x.

  Lemma interp1d_seg x b : (S b < n)%nat ->
    Nat.min (Nat.max (searchsorted (map fst s) (Fin x)) 1) (n - 1) = S b ->
    exists i j, neighbours p n i j /\ nth b (map keyr s) 0 = p i /\ nth (S b) (map keyr s) 0 = p j /\
      interp1d None s (Fin x) = line_at i j x.
  Proof.
    intros Hb E. destruct (s_nth l var Hlen Hn b ltac:(fold n; lia)) as (i & Hi & Ei & Ki).
    destruct (s_nth l var Hlen Hn (S b) Hb) as (j & Hj & Ej & Kj).
    exists i, j. split; [eapply s_neighbours; eauto|]. split; auto. split; auto.
    unfold interp1d. rewrite L, E. replace (Nat.eqb (S b) 0) with false by reflexivity.
    replace (S b - 1)%nat with b by lia. fold s in Ei, Ej. cbn [nnan NumFl]. rewrite Ei, Ej. reflexivity.
  Qed.

  Lemma first_last x f : interp1d (Some f) s (Fin x) =
    if rltb x (nth 0 (map keyr s) 0) || rltb (nth (n - 1) (map keyr s) 0) x then f else interp1d None s (Fin x).
  Proof.
    unfold interp1d. rewrite L.
    destruct (s_nth l var Hlen Hn 0 ltac:(lia)) as (i & Hi & Ei & Ki).
    destruct (s_nth l var Hlen Hn (n - 1) ltac:(fold n; lia)) as (j & Hj & Ej & Kj).
    fold s in Ei, Ej, Ki, Kj. cbn [nnan NumFl]. rewrite Ei, Ej, Ki, Kj. reflexivity.
  Qed.

  Lemma first_low k : (k < n)%nat -> nth 0 (map keyr s) 0 <= p k.
  Proof.
    intros Hk. destruct (s_pos l var Hlen Hn k Hk) as (q & Hq & Eq). fold s in Eq. unfold p. rewrite <- Eq.
    destruct (Nat.eq_dec q 0) as [->|]; [lra|]. apply Rlt_le, So. rewrite map_length, L. lia.
  Qed.
  Lemma last_high k : (k < n)%nat -> p k <= nth (n - 1) (map keyr s) 0.
  Proof.
    intros Hk. destruct (s_pos l var Hlen Hn k Hk) as (q & Hq & Eq). fold s in Eq. unfold p. rewrite <- Eq.
    destruct (Nat.eq_dec q (n - 1)) as [->|]; [lra|]. apply Rlt_le, So. rewrite map_length, L. fold n in Hq. lia.
  Qed.
  Lemma first_is : exists i, (i < n)%nat /\ nth 0 (map keyr s) 0 = p i.
  Proof. destruct (s_nth l var Hlen Hn 0 ltac:(lia)) as (i & Hi & _ & Ki). eauto. Qed.
  Lemma last_is : exists i, (i < n)%nat /\ nth (n - 1) (map keyr s) 0 = p i.
  Proof. destruct (s_nth l var Hlen Hn (n - 1) ltac:(fold n; lia)) as (i & Hi & _ & Ki). eauto. Qed.

  Lemma interp_dim_in fill x i0 j0 : (i0 < n)%nat -> (j0 < n)%nat -> p i0 <= x <= p j0 ->
    exists i j, code_bracket p n i j x /\ interp_dim MdLinear fill (map Fin l) var (Fin x) = line_at i j x.
  Proof.
    intros Hi0 Hj0 Hx. unfold interp_dim. fold s.
    assert (Ef : interp1d fill s (Fin x) = interp1d None s (Fin x)).
    { destruct fill as [f|]; auto. rewrite first_last. pose proof (first_low i0 Hi0). pose proof (last_high j0 Hj0).
      rewrite !rltb_false by lra. reflexivity. }
    rewrite Ef. clear Ef fill.
    pose proof (s_fst l var Hlen Hn) as F. fold s in F.
    destruct (searchsorted_spec (map keyr s) x So) as (M1 & M2 & M3). rewrite <- F in M1, M2, M3.
    pose proof (interp1d_seg x) as C.
    set (m := searchsorted _ _) in *. rewrite map_length, L in M1, M3.
    assert (Hmn : (m < n)%nat).
    { destruct (s_pos l var Hlen Hn j0 Hj0) as (j & Hj & E). fold s in E. destruct (Nat.lt_ge_cases m n); auto.
      specialize (M2 j ltac:(fold n in Hj; lia)). rewrite E in M2. fold (p j0) in M2. lra. }
    destruct (C (Nat.max m 1 - 1)%nat ltac:(fold n in Hn; lia) ltac:(fold n in Hn; lia)) as (i & j & Nb & Ki & Kj & E). clear C.
    exists i, j. split; auto. split; auto.
    destruct (Nat.eq_dec m 0) as [Z|Z].
    - rewrite Z in Ki, Kj. cbn [Nat.max Nat.sub] in Ki, Kj. split.
      + split; [rewrite <- Ki; pose proof (first_low i0 Hi0); lra|]. rewrite <- Kj. apply M3. fold n in Hn. lia.
      + right. intros k Hk. rewrite <- Ki. apply first_low; auto.
    - replace (S (Nat.max m 1 - 1)) with m in Kj by lia. replace (Nat.max m 1 - 1)%nat with (m - 1)%nat in Ki by lia.
      assert (p i < x) by (rewrite <- Ki; apply M2; lia). split; auto. split; [lra|]. rewrite <- Kj. apply M3. lia.
  Qed.

  Lemma interp_dim_out f x : out_of_range p n x -> interp_dim MdLinear (Some f) (map Fin l) var (Fin x) = f.
  Proof.
    intros Hx. unfold interp_dim. fold s. rewrite first_last. destruct Hx as [Hx|Hx].
    - destruct last_is as (i & Hi & E). rewrite E, (rltb_true (p i)), orb_true_r by (apply Hx; auto). reflexivity.
    - destruct first_is as (i & Hi & E). rewrite E, rltb_true by (apply Hx; auto). reflexivity.
  Qed.

  (** extrapolation continues the outermost segment *)
  Lemma interp_dim_extrap x : out_of_range p n x ->
    exists i j, neighbours p n i j /\
      ((x < p i /\ forall k, (k < n)%nat -> p i <= p k) \/ (p j < x /\ forall k, (k < n)%nat -> p k <= p j)) /\
      interp_dim MdLinear None (map Fin l) var (Fin x) = line_at i j x.
  Proof.
    intros Hx. unfold interp_dim. fold s. pose proof (s_fst l var Hlen Hn) as F. fold s in F.
    destruct (searchsorted_spec (map keyr s) x So) as (M1 & M2 & M3). rewrite <- F in M1, M2, M3.
    pose proof (interp1d_seg x) as C.
    set (m := searchsorted _ _) in *. rewrite map_length, L in M1, M3. destruct Hx as [Hx|Hx].
    - assert (m = n) as ->.
      { destruct (Nat.lt_ge_cases m n) as [H|]; [|lia]. destruct last_is as (i & Hi & E). specialize (Hx i Hi).
        specialize (M3 (n - 1)%nat ltac:(lia)). rewrite E in M3. lra. }
      destruct (C (n - 2)%nat ltac:(fold n in Hn; lia) ltac:(fold n in Hn; lia)) as (i & j & Nb & Ki & Kj & E). exists i, j. split; auto. split; auto.
      right. replace (S (n - 2)) with (n - 1)%nat in Kj by (fold n in Hn; lia). split.
      + destruct Nb as (_ & Hj & _). apply Hx; auto.
      + intros k Hk. rewrite <- Kj. apply last_high; auto.
    - assert (m = 0%nat) as ->.
      { destruct (Nat.eq_dec m 0); auto. destruct first_is as (i & Hi & E). specialize (Hx i Hi).
        specialize (M2 0%nat ltac:(lia)). rewrite E in M2. lra. }
      destruct (C 0%nat ltac:(fold n in Hn; lia) ltac:(fold n in Hn; lia)) as (i & j & Nb & Ki & Kj & E). exists i, j. split; auto. split; auto.
      left. split.
      + destruct Nb as (Hi & _). apply Hx; auto.
      + intros k Hk. rewrite <- Ki. apply first_low; auto.
  Qed.
End Dim.

(** ** finite values *)
Lemma lin_node0 x0 x1 v0 v1 : lin x0 x1 v0 v1 x0 = v0.
Proof. unfold lin. replace (x0 - x0) with 0 by lra. unfold Rdiv. rewrite Rmult_0_l. lra. Qed.
Lemma lin_node1 x0 x1 v0 v1 : x0 <> x1 -> lin x0 x1 v0 v1 x1 = v1.
Proof. intros H. unfold lin. field. lra. Qed.
Lemma lin_affine x0 x1 a b x : x0 <> x1 -> lin x0 x1 (a + b * x0) (a + b * x1) x = a + b * x.
Proof. intros H. unfold lin. field. lra. Qed.
Lemma lin_between x0 x1 v0 v1 x : x0 < x1 -> x0 <= x <= x1 -> Rmin v0 v1 <= lin x0 x1 v0 v1 x <= Rmax v0 v1.
Proof.
  intros H Hx. unfold lin. set (w := (x - x0) / (x1 - x0)).
  assert (0 <= w) by (unfold w; apply Rmult_le_pos; [lra|apply Rlt_le, Rinv_0_lt_compat; lra]).
  assert (w <= 1).
  { unfold w. apply Rmult_le_reg_r with (x1 - x0); [lra|]. unfold Rdiv. rewrite Rmult_assoc, Rinv_l by lra. lra. }
  unfold Rmin, Rmax. destruct (Rle_dec v0 v1); split; nra.
Qed.

(** two brackets of the same point give the same value *)
Lemma lin_bracket_indep p (v : nat -> R) n i j i' j' x : distinct_levels p n ->
  neighbours p n i j -> neighbours p n i' j' -> p i <= x <= p j -> p i' <= x <= p j' ->
  lin (p i) (p j) (v i) (v j) x = lin (p i') (p j') (v i') (v j') x.
Proof.
  intros Hd (Hi & Hj & Hij & K) (Hi' & Hj' & Hij' & K') Hx Hx'.
  destruct (K i' Hi') as [A|A]; [destruct (K' i Hi) as [B|B]|].
  - assert (i' = i) by (apply Hd; auto; lra). subst i'.
    destruct (K j' Hj') as [C|C]; [exfalso; lra|]. destruct (K' j Hj) as [D|D]; [lra|].
    assert (j' = j) by (apply Hd; auto; lra). subst. reflexivity.
  - assert (x = p i) by lra. assert (j' = i) by (apply Hd; auto; lra). subst.
    rewrite lin_node0, lin_node1 by lra. reflexivity.
  - assert (x = p j) by lra. assert (i' = j) by (apply Hd; auto; lra). subst.
    rewrite lin_node0, lin_node1 by lra. reflexivity.
Qed.

Lemma nodup_distinct (l : list R) : NoDup l -> distinct_levels (fun k => nth k l 0) (List.length l).
Proof. intros H j k Hj Hk E. eapply NoDup_nth; eauto. Qed.

(** a row of finite values *)
Lemma interp_dim_fin fill (l : list R) (v : nat -> R) var x i j : NoDup l -> List.length var = List.length l ->
  (forall k, (k < List.length l)%nat -> nth k var NaN = Fin (v k)) ->
  neighbours (fun k => nth k l 0) (List.length l) i j -> nth i l 0 <= x <= nth j l 0 ->
  interp_dim MdLinear fill (map Fin l) var (Fin x) = Fin (lin (nth i l 0) (nth j l 0) (v i) (v j) x).
Proof.
  intros Hnd Hlen Hv Nb Hx. pose proof Nb as (Hi & Hj & Hij & _).
  assert (Hn : (2 <= List.length l)%nat).
  { destruct (Nat.lt_ge_cases (List.length l) 2); auto. assert (i = j) by lia. subst. lra. }
  destruct (interp_dim_in l var Hlen Hn Hnd fill x i j Hi Hj Hx) as (i' & j' & (Nb' & Hx' & _) & ->).
  pose proof Nb' as (Hi' & Hj' & Hij' & _).
  unfold line_at. rewrite !Hv by auto. rewrite line_through_fin by lra. f_equal. symmetry.
  exact (lin_bracket_indep _ v _ i j i' j' x (nodup_distinct l Hnd) Nb Nb' Hx Hx').
Qed.
