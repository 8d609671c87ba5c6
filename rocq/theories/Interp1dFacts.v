(** Proofs about [Interp1d]: one column. *)
From Coq Require Import Reals List Bool Arith ZArith Lra Lia String Permutation Sorted.
From Verif Require Import PyBase PyFacts Num NumFacts Arr ArrFacts Spec Interp1d.
Import ListNotations.
Local Open Scope R_scope.

Definition keyr {A} (p : fl * A) : R := match fst p with Fin r => r | _ => 0 end.
Definition finkey {A} (p : fl * A) : Prop := exists r, fst p = Fin r.
Lemma keyr_fst {A} (p : fl * A) : finkey p -> fst p = Fin (keyr p).
Proof. intros [r H]. unfold keyr. rewrite H. reflexivity. Qed.

Lemma key_lt_fin a b : key_lt (Fin a) (Fin b) = rltb a b.
Proof. reflexivity. Qed.

Section Sort.
  Context {A : Type}.
  Implicit Types p q : fl * A.
  Implicit Types l : list (fl * A).
  Lemma insert_perm p l : Permutation (insert p l) (p :: l).
  Proof.
    induction l as [|q l IH]; cbn; auto. destruct (key_lt _ _); auto.
    etransitivity; [apply perm_skip, IH|]. apply perm_swap.
  Qed.
  Lemma isort_perm l : Permutation (isort l) l.
  Proof.
    induction l as [|p l IH]; cbn; auto. etransitivity; [apply insert_perm|]. auto.
  Qed.
  Definition kle p q := keyr p <= keyr q.
  Lemma insert_sorted p l : finkey p -> Forall finkey l -> StronglySorted kle l -> StronglySorted kle (insert p l).
  Proof.
    intros Hp Hl Hs. induction Hs as [|q l Hs IH Hf]; cbn.
    - constructor; constructor.
    - inversion Hl as [|? ? Hq Hl']; subst. rewrite (keyr_fst q), (keyr_fst p), key_lt_fin by auto.
      destruct (rltb_spec (keyr q) (keyr p)).
      + constructor; auto. apply Forall_forall. intros z Hz.
        apply (Permutation_in _ (insert_perm p l)) in Hz. destruct Hz as [<-|Hz]; [unfold kle; lra|].
        rewrite Forall_forall in Hf. auto.
      + constructor; [constructor; auto|]. constructor; [unfold kle; lra|].
        eapply Forall_impl; [|exact Hf]. unfold kle. cbn. intros; lra.
  Qed.
  Lemma isort_finkey l : Forall finkey l -> Forall finkey (isort l).
  Proof.
    intros H. apply Forall_forall. intros z Hz. apply (Permutation_in _ (isort_perm l)) in Hz.
    rewrite Forall_forall in H. auto.
  Qed.
  Lemma isort_sorted l : Forall finkey l -> StronglySorted kle (isort l).
  Proof.
    intros H. induction H as [|p l Hp Hl IH]; cbn; [constructor|].
    apply insert_sorted; auto. apply isort_finkey; auto.
  Qed.
End Sort.

(** strictly sorted lists of reals *)
Definition sorted_lt (l : list R) : Prop := forall i j, (i < j < List.length l)%nat -> nth i l 0 < nth j l 0.

Lemma ss_nth {A} (R0 : A -> A -> Prop) l d : StronglySorted R0 l ->
  forall i j, (i < j < List.length l)%nat -> R0 (nth i l d) (nth j l d).
Proof.
  intros Hs. induction Hs as [|x l Hs IH Hf]; intros i j Hij; cbn in Hij; [lia|].
  destruct j as [|j]; [lia|]. destruct i as [|i]; cbn.
  - rewrite Forall_forall in Hf. apply Hf. apply nth_In. lia.
  - apply IH. lia.
Qed.

Lemma nth_map_keyr {A} (s : list (fl * A)) d j : (j < List.length s)%nat -> nth j (map keyr s) 0 = keyr (nth j s d).
Proof.
  intros H. rewrite (nth_indep _ 0 (keyr d)) by (rewrite map_length; auto). apply map_nth.
Qed.

Lemma isort_keys_lt {A} (l : list (fl * A)) : Forall finkey l -> NoDup (map keyr l) -> sorted_lt (map keyr (isort l)).
Proof.
  intros Hf Hn i j Hij. rewrite map_length in Hij.
  destruct (isort l) as [|d t] eqn:E; [cbn in Hij; lia|]. rewrite <- E in *.
  pose proof (ss_nth kle (isort l) d (isort_sorted l Hf) i j Hij) as H. unfold kle in H.
  rewrite !(nth_map_keyr _ d) by lia.
  assert (Hd : NoDup (map keyr (isort l))).
  { eapply Permutation_NoDup; [|exact Hn]. apply Permutation_map. symmetry. apply isort_perm. }
  rewrite NoDup_nth with (d := 0) in Hd.
  assert (keyr (nth i (isort l) d) <> keyr (nth j (isort l) d)); [|lra].
  intros Heq. rewrite <- !(nth_map_keyr _ d) in Heq by lia.
  apply Hd in Heq; rewrite ?map_length; lia.
Qed.

Lemma searchsorted_spec (l : list R) x : sorted_lt l ->
  let j := searchsorted (map Fin l) (Fin x) in
  (j <= List.length l)%nat /\ (forall i, (i < j)%nat -> nth i l 0 < x) /\
  (forall i, (j <= i < List.length l)%nat -> x <= nth i l 0).
Proof.
  induction l as [|y l IH]; intros Hs; cbn -[key_lt].
  - split; auto. split; intros; lia.
  - rewrite key_lt_fin. assert (Hs' : sorted_lt l).
    { intros i j Hij. apply (Hs (S i) (S j)). cbn. lia. }
    destruct (IH Hs') as (H1 & H2 & H3). destruct (rltb_spec y x).
    + split; [lia|]. split.
      * intros [|i] Hi; auto. apply H2. lia.
      * intros [|i] Hi; [lia|]. apply H3. lia.
    + split; [lia|]. split; [intros; lia|].
      intros [|i] Hi; cbn; [lra|]. assert (y < nth i l 0) by (apply (Hs 0%nat (S i)); cbn; lia). lra.
Qed.

(** position j of the sorted column comes from some original position *)
Lemma isort_origin {A} (l : list (fl * A)) d j : (j < List.length l)%nat ->
  exists i, (i < List.length l)%nat /\ nth j (isort l) d = nth i l d.
Proof.
  intros Hj. assert (Hin : In (nth j (isort l) d) l).
  { eapply Permutation_in; [apply isort_perm|]. apply nth_In. rewrite (Permutation_length (isort_perm l)). auto. }
  apply In_nth with (d := d) in Hin. destruct Hin as (i & Hi & E). eauto.
Qed.
Lemma isort_position {A} (l : list (fl * A)) d i : (i < List.length l)%nat ->
  exists j, (j < List.length l)%nat /\ nth j (isort l) d = nth i l d.
Proof.
  intros Hi. assert (Hin : In (nth i l d) (isort l)).
  { eapply Permutation_in; [symmetry; apply isort_perm|]. apply nth_In. auto. }
  apply In_nth with (d := d) in Hin. destruct Hin as (j & Hj & E).
  rewrite (Permutation_length (isort_perm l)) in Hj. eauto.
Qed.

Section Column.
  Variables (l : list R) (var : list fl).
  Hypothesis Hlen : List.length var = List.length l.
  Hypothesis Hn : (2 <= List.length l)%nat.
  Hypothesis Hnd : NoDup l.
  Let n := List.length l.
  Let p (k : nat) := nth k l 0.
  Let c := combine (map Fin l) var.
  Let s := isort c.

  Lemma c_length : List.length c = n.
  Proof. unfold c. rewrite combine_length, map_length. unfold n. lia. Qed.
  Lemma c_nth k : (k < n)%nat -> nth k c (NaN, NaN) = (Fin (p k), nth k var NaN).
  Proof.
    intros Hk. unfold c. rewrite combine_nth by (rewrite map_length; auto). f_equal.
    rewrite (nth_indep _ NaN (Fin 0)) by (rewrite map_length; auto). apply map_nth.
  Qed.
  Lemma c_fin : Forall finkey c.
  Proof.
    apply Forall_forall. intros z Hz. apply In_nth with (d := (NaN, NaN)) in Hz.
    destruct Hz as (k & Hk & <-). rewrite c_length in Hk. rewrite c_nth by auto. eexists; reflexivity.
  Qed.
  Lemma c_keys : map keyr c = l.
  Proof.
    unfold c. clear - Hlen. revert var Hlen. induction l as [|x t IH]; intros [|v vs] H; cbn in *; try discriminate; auto.
    f_equal. apply IH. lia.
  Qed.
  Lemma s_length : List.length s = n.
  Proof. unfold s. rewrite (Permutation_length (isort_perm c)). apply c_length. Qed.
  Lemma s_sorted : sorted_lt (map keyr s).
  Proof. apply isort_keys_lt; [apply c_fin|rewrite c_keys; auto]. Qed.
  Lemma s_fst : map fst s = map Fin (map keyr s).
  Proof.
    rewrite map_map. apply map_ext_in. intros z Hz. apply keyr_fst.
    pose proof (isort_finkey c c_fin) as H. rewrite Forall_forall in H. auto.
  Qed.
  Lemma s_nth j : (j < n)%nat -> exists i, (i < n)%nat /\ nth j s (NaN, NaN) = (Fin (p i), nth i var NaN) /\ nth j (map keyr s) 0 = p i.
  Proof.
    intros Hj. destruct (isort_origin c (NaN, NaN) j) as (i & Hi & E); [rewrite c_length; auto|].
    rewrite c_length in Hi. exists i. split; auto. fold s in E. rewrite c_nth in E by auto. split; auto.
    rewrite (nth_map_keyr s (NaN, NaN)) by (rewrite s_length; auto). rewrite E. reflexivity.
  Qed.
  Lemma s_pos i : (i < n)%nat -> exists j, (j < n)%nat /\ nth j (map keyr s) 0 = p i.
  Proof.
    intros Hi. destruct (isort_position c (NaN, NaN) i) as (j & Hj & E); [rewrite c_length; auto|].
    rewrite c_length in Hj. exists j. split; auto. fold s in E. rewrite c_nth in E by auto.
    rewrite (nth_map_keyr s (NaN, NaN)) by (rewrite s_length; auto). rewrite E. reflexivity.
  Qed.

  Lemma s_neighbours j i0 i1 : (S j < n)%nat -> nth j (map keyr s) 0 = p i0 -> nth (S j) (map keyr s) 0 = p i1 ->
    (i0 < n)%nat -> (i1 < n)%nat -> neighbours p n i0 i1.
  Proof.
    intros Hj E0 E1 H0 H1. split; auto. split; auto. split.
    - rewrite <- E0, <- E1. apply s_sorted. rewrite map_length, s_length. lia.
    - intros k Hk. destruct (s_pos k Hk) as (m & Hm & Em). rewrite <- E0, <- E1, <- Em.
      destruct (Nat.lt_trichotomy m j) as [H|[->|H]].
      + left. apply Rlt_le, s_sorted. rewrite map_length, s_length. lia.
      + left. lra.
      + right. destruct (Nat.eq_dec m (S j)) as [->|]; [lra|]. apply Rlt_le, s_sorted.
        rewrite map_length, s_length. lia.
  Qed.

  (** the interpolation formula of the code for bracket (i, j) *)
  Definition lin_formula (i j : nat) (x : R) : fl :=
    nadd (nth i var NaN)
         (nmul (nsub (nth j var NaN) (nth i var NaN)) (Fin ((x - nth i l 0) / (nth j l 0 - nth i l 0)))).

  Lemma interp_at_in x i0 j0 : (i0 < n)%nat -> (j0 < n)%nat -> p i0 <= x <= p j0 ->
    exists i j, code_bracket p n i j x /\ interp_at s (Fin x) = Ok (lin_formula i j x).
  Proof.
    intros Hi0 Hj0 Hx. unfold interp_at. rewrite s_length, s_fst.
    destruct (searchsorted_spec (map keyr s) x s_sorted) as (M1 & M2 & M3).
    set (m := searchsorted _ _) in *. rewrite map_length, s_length in M1, M3.
    assert (Hmn : (m < n)%nat).
    { destruct (s_pos j0 Hj0) as (j & Hj & E). destruct (Nat.lt_ge_cases m n); auto.
      specialize (M2 j ltac:(lia)). rewrite E in M2. lra. }
    assert (Core : forall b, (S b < n)%nat -> nth b (map keyr s) 0 <= x <= nth (S b) (map keyr s) 0 ->
      (nth b (map keyr s) 0 < x \/ b = 0%nat) ->
      exists i j, code_bracket p n i j x /\
       (do above <- pyget s (Z.of_nat (S b)) ;;
        do below <- pyget s (Z.of_nat (S b) - 1)%Z ;;
        Ok (if Nat.eqb m n then nnan else if nlt (Fin x) (fst below) then nnan else
            nadd (snd below) (nmul (nsub (snd above) (snd below)) (ndiv (nsub (Fin x) (fst below)) (nsub (fst above) (fst below))))))
       = Ok (lin_formula i j x)).
    { intros b Hb Hxb Hlow. destruct (s_nth b ltac:(lia)) as (i & Hi & Ei & Ki).
      destruct (s_nth (S b) Hb) as (j & Hj & Ej & Kj).
      assert (Nb : neighbours p n i j) by (eapply s_neighbours; eauto).
      exists i, j. split.
      - split; auto. rewrite Ki, Kj in Hxb. split; auto. rewrite Ki in Hlow. destruct Hlow as [H| ->]; auto.
        right. intros k Hk. destruct (s_pos k Hk) as (q & Hq & Eq). rewrite <- Ki, <- Eq.
        destruct q; [lra|]. apply Rlt_le, s_sorted. rewrite map_length, s_length. lia.
      - rewrite (pyget_nat s (S b) (NaN, NaN)) by (rewrite s_length; auto). cbn [bind].
        replace (Z.of_nat (S b) - 1)%Z with (Z.of_nat b) by lia.
        rewrite (pyget_nat s b (NaN, NaN)) by (rewrite s_length; lia). cbn [bind]. rewrite Ei, Ej. cbn [fst snd].
        destruct (Nat.eqb_spec m n); [lia|]. cbn [nlt NumFl fl_lt]. rewrite Ki in Hxb.
        rewrite rltb_false by lra. unfold lin_formula. fold (p i) (p j).
        cbn [nsub NumFl fl_sub ndiv]. rewrite fdiv_fin; auto.
        destruct Nb as (_ & _ & H & _). lra. }
    destruct (Nat.eqb_spec m 0) as [E|E].
    - destruct (Core 0%nat ltac:(lia)) as (i & j & H & H2); [|auto|].
      + split; [|apply M3; lia]. destruct (s_pos i0 Hi0) as (q & Hq & Eq).
        destruct (Nat.eq_dec q 0) as [->|]; [rewrite Eq; lra|].
        apply Rle_trans with (p i0); [|lra]. rewrite <- Eq. apply Rlt_le, s_sorted. rewrite map_length, s_length. lia.
      + exists i, j. split; auto.
    - destruct (Nat.eqb_spec m n); [lia|].
      destruct (Core (m - 1)%nat ltac:(lia)) as (i & j & H & H2).
      + replace (S (m - 1)) with m by lia. split; [apply Rlt_le, M2; lia|apply M3; lia].
      + left. apply M2. lia.
      + exists i, j. split; auto. replace (S (m - 1)) with m in H2 by lia. exact H2.
  Qed.

  Lemma interp_at_out x : out_of_range p n x -> interp_at s (Fin x) = Ok NaN.
  Proof.
    intros Hx. unfold interp_at. rewrite s_length, s_fst.
    destruct (searchsorted_spec (map keyr s) x s_sorted) as (M1 & M2 & M3).
    set (m := searchsorted _ _) in *. rewrite map_length, s_length in M1, M3.
    destruct Hx as [Hx|Hx].
    - assert (m = n).
      { destruct (Nat.lt_ge_cases m n) as [H|]; [|lia]. destruct (s_nth m H) as (i & Hi & _ & Ki).
        specialize (M3 m ltac:(lia)). rewrite Ki in M3. specialize (Hx i Hi). lra. }
      destruct (Nat.eqb_spec m 0); [unfold n in *; lia|].
      destruct (Nat.eqb_spec m n); [|lia].
      rewrite (pyget_Z s (Z.of_nat n - 1) (NaN, NaN)) by (rewrite s_length; lia). cbn [bind].
      rewrite (pyget_Z s (Z.of_nat n - 1 - 1) (NaN, NaN)) by (rewrite s_length; unfold n; lia). reflexivity.
    - assert (m = 0%nat).
      { destruct (Nat.eq_dec m 0); auto. destruct (s_nth 0 ltac:(unfold n; lia)) as (i & Hi & _ & Ki).
        specialize (M2 0%nat ltac:(lia)). rewrite Ki in M2. specialize (Hx i Hi). lra. }
      destruct (Nat.eqb_spec m 0); [|lia].
      destruct (s_nth 0 ltac:(unfold n; lia)) as (i & Hi & Ei & Ki).
      rewrite (pyget_Z s 1 (NaN, NaN)) by (rewrite s_length; unfold n; lia). cbn [bind].
      rewrite (pyget_Z s (1 - 1) (NaN, NaN)) by (rewrite s_length; unfold n; lia). cbn [bind].
      replace (Z.to_nat (1 - 1)) with 0%nat by reflexivity. rewrite Ei. cbn [fst snd nlt NumFl fl_lt].
      rewrite rltb_true by (specialize (Hx i Hi); auto). destruct (Nat.eqb m n); reflexivity.
  Qed.

  Lemma range_cases x : out_of_range p n x \/ exists i j, (i < n)%nat /\ (j < n)%nat /\ p i <= x <= p j.
  Proof.
    destruct (s_nth 0 ltac:(unfold n; lia)) as (i & Hi & _ & Ki).
    destruct (s_nth (n - 1) ltac:(unfold n; lia)) as (j & Hj & _ & Kj).
    destruct (Rlt_le_dec x (p i)) as [H|H].
    - left. right. intros k Hk. destruct (s_pos k Hk) as (q & Hq & Eq).
      destruct (Nat.eq_dec q 0) as [->|]; [lra|]. rewrite <- Eq. apply Rlt_trans with (p i); auto.
      rewrite <- Ki. apply s_sorted. rewrite map_length, s_length. lia.
    - destruct (Rlt_le_dec (p j) x) as [H2|H2].
      + left. left. intros k Hk. destruct (s_pos k Hk) as (q & Hq & Eq).
        destruct (Nat.eq_dec q (n - 1)) as [->|]; [lra|]. rewrite <- Eq. apply Rlt_trans with (p j); auto.
        rewrite <- Kj. apply s_sorted. rewrite map_length, s_length. lia.
      + right. exists i, j. auto.
  Qed.
  Lemma range_excl x i j : (i < n)%nat -> (j < n)%nat -> p i <= x <= p j -> ~ out_of_range p n x.
  Proof. intros Hi Hj Hx [H|H]; [specialize (H j Hj)|specialize (H i Hi)]; lra. Qed.

  Lemma interp_at_total x : exists v, interp_at s (Fin x) = Ok v.
  Proof.
    destruct (range_cases x) as [H|(i & j & Hi & Hj & H)].
    - rewrite interp_at_out; eauto.
    - destruct (interp_at_in x i j Hi Hj H) as (a & b & _ & E). eauto.
  Qed.
End Column.

(** ** the list of requested levels *)
Lemma sorted_perm_eq (l1 l2 : list R) : Permutation l1 l2 -> sorted_le l1 -> sorted_le l2 -> l1 = l2.
Proof.
  revert l2. induction l1 as [|x l1 IH]; intros l2 Hp H1 H2.
  - apply Permutation_nil in Hp. auto.
  - destruct l2 as [|y l2]; [apply Permutation_sym, Permutation_nil in Hp; discriminate|].
    assert (Min : forall (z : R) t, sorted_le (z :: t) -> forall w, In w (z :: t) -> z <= w).
    { intros z t Hs w [->|Hw]; [lra|]. apply In_nth with (d := 0) in Hw. destruct Hw as (k & Hk & <-).
      apply (Hs 0%nat (S k)). cbn. lia. }
    assert (x = y).
    { apply Rle_antisym.
      - apply (Min x l1); auto. eapply Permutation_in; [apply Permutation_sym, Hp|cbn; auto].
      - apply (Min y l2); auto. eapply Permutation_in; [apply Hp|cbn; auto]. }
    subst. f_equal. apply IH.
    + eapply Permutation_cons_inv; eauto.
    + intros i j Hij. apply (H1 (S i) (S j)). cbn. lia.
    + intros i j Hij. apply (H2 (S i) (S j)). cbn. lia.
Qed.

Lemma keys_of_sorted (x : list R) :
  exists x', map fst (isort (combine (map Fin x) (map Fin x))) = map Fin x' /\ Permutation x' x /\ sorted_le x'.
Proof.
  set (c := combine (map Fin x) (map Fin x)).
  assert (Hf : Forall finkey c).
  { apply Forall_forall. intros [a b] H. apply in_combine_l in H. apply in_map_iff in H.
    destruct H as (r & <- & _). eexists; reflexivity. }
  exists (map keyr (isort c)). split; [|split].
  - rewrite map_map. apply map_ext_in. intros z Hz. apply keyr_fst.
    pose proof (isort_finkey c Hf) as H. rewrite Forall_forall in H. auto.
  - etransitivity; [apply Permutation_map, isort_perm|]. unfold c.
    replace (map keyr (combine (map Fin x) (map Fin x))) with x; auto.
    clear. induction x as [|a x IH]; cbn; auto. f_equal; auto.
  - intros i j Hij. rewrite map_length in Hij. destruct (isort c) as [|d t] eqn:E; [cbn in Hij; lia|].
    rewrite <- E in *. rewrite !(nth_map_keyr _ d) by lia. apply (ss_nth kle); auto. apply isort_sorted; auto.
Qed.

Lemma mapM_app {A B} (f : A -> res B) l1 l2 :
  mapM f (l1 ++ l2) = do r1 <- mapM f l1 ;; do r2 <- mapM f l2 ;; Ok (r1 ++ r2).
Proof.
  induction l1 as [|x l1 IH]; cbn.
  - destruct (mapM f l2); reflexivity.
  - destruct (f x); cbn; auto. rewrite IH. destruct (mapM f l1); cbn; auto. destruct (mapM f l2); reflexivity.
Qed.
Lemma mapM_map_ok {A B} (f : A -> res B) (g : A -> B) l : (forall x, In x l -> f x = Ok (g x)) -> mapM f l = Ok (map g l).
Proof.
  induction l as [|x l IH]; cbn; auto. intros H. rewrite H, IH; auto.
Qed.

(** the value of a successful computation; only used where success is known *)
Definition okval {A} (d : A) (r : res A) : A := match r with Ok a => a | Err _ => d end.

Lemma last_map_Fin x d : last (map Fin x) (Fin d) = Fin (last x d).
Proof. induction x as [|a [|b x] IH]; cbn in *; auto. Qed.
Lemma last_indep {A} (l : list A) d d' : l <> [] -> last l d = last l d'.
Proof. induction l as [|a [|b l] IH]; cbn in *; intros; try congruence; auto. apply IH. discriminate. Qed.

Lemma interp_col_served (x l : list R) (var : list fl) :
  List.length var = List.length l -> (2 <= List.length l)%nat -> NoDup l -> x <> [] ->
  exists x', served_order x x' /\
    interp_col (map Fin x) (map Fin l) var
    = Ok (map (fun y => okval NaN (interp_at (isort (combine (map Fin l) var)) (Fin y))) x').
Proof.
  intros Hlen Hn Hnd Hx. destruct x as [|x0 xt]; [congruence|]. set (x := x0 :: xt) in *.
  destruct (keys_of_sorted x) as (y & Ey & Py & Sy).
  unfold interp_col. change (map Fin x) with (Fin x0 :: map Fin xt) at 1. cbn [map].
  rewrite Ey.
  assert (Em : mapM (interp_at (isort (combine (map Fin l) var))) (map Fin y)
    = Ok (map (fun y => okval NaN (interp_at (isort (combine (map Fin l) var)) (Fin y))) y)).
  { rewrite (mapM_map_ok _ (fun f => okval NaN (interp_at (isort (combine (map Fin l) var)) f))).
    - rewrite map_map. reflexivity.
    - intros f Hf. apply in_map_iff in Hf. destruct Hf as (r & <- & _).
      destruct (interp_at_total l var Hlen Hn Hnd r) as (v & E). rewrite E. reflexivity. }
  rewrite Em. cbn [bind].
  change (Fin x0 :: map Fin xt) with (map Fin x). rewrite last_map_Fin. cbn [nlt NumFl fl_lt].
  assert (El : last x x0 = last x 0) by (apply last_indep; discriminate). rewrite El.
  destruct (rltb_spec (last x 0) x0).
  - exists (rev y). split; [split|].
    + etransitivity; [symmetry; apply Permutation_rev|auto].
    + right. cbn [nth x]. split; [auto|rewrite rev_involutive; auto].
    + rewrite map_rev. reflexivity.
  - exists y. split; [split; auto|reflexivity]. left. split; auto. change (nth 0 x 0) with x0. lra.
Qed.

Lemma sorted_le_head_last (x : list R) : sorted_le x -> nth 0 x 0 <= last x 0.
Proof.
  intros H. destruct x as [|a [|b x]]; [cbn; lra|cbn; lra|].
  assert (E : last (a :: b :: x) 0 = nth (S (List.length x)) (a :: b :: x) 0).
  { clear. revert a b. induction x as [|c x IH]; intros a b; auto. apply (IH b c). }
  rewrite E. apply (H 0%nat). cbn. lia.
Qed.
Lemma last_rev0 (x : list R) : last (rev x) 0 = nth 0 x 0.
Proof. destruct x; cbn; auto. rewrite last_last. reflexivity. Qed.

Lemma served_order_sorted x x' : served_order x x' -> sorted_le x \/ sorted_le (rev x) -> x' = x.
Proof.
  intros [Hp H] [Hs|Hs].
  - destruct H as [[_ H]|[H _]]; [apply sorted_perm_eq; auto|]. apply sorted_le_head_last in Hs. lra.
  - destruct H as [[Hle H]|[Hlt H]].
    + apply sorted_le_head_last in Hs as Hs2. rewrite last_rev0 in Hs2.
      assert (E0 : nth 0 (rev x) 0 = last x 0) by (rewrite <- (rev_involutive x) at 2; rewrite last_rev0; auto).
      assert (Heq : nth 0 x 0 = last x 0) by lra.
      (* all entries equal, so x itself is ascending *)
      apply sorted_perm_eq; auto. intros i j Hij.
      assert (Hall : forall k, (k < List.length x)%nat -> nth k x 0 = nth 0 x 0).
      { intros k Hk.
        assert (Hr : forall q, (q < List.length x)%nat -> nth q (rev x) 0 = nth (List.length x - S q) x 0)
          by (intros; apply rev_nth; auto).
        assert (nth k x 0 <= nth 0 x 0).
        { destruct k; [lra|]. replace (S k) with (List.length x - S (List.length x - S (S k)))%nat by lia.
          rewrite <- Hr by lia.
          replace (nth 0 x 0) with (nth (List.length x - 1) (rev x) 0) by (rewrite Hr by lia; f_equal; lia).
          apply Hs. rewrite rev_length. lia. }
        assert (last x 0 <= nth k x 0).
        { rewrite <- E0. destruct (Nat.eq_dec k (List.length x - 1)) as [->|].
          - rewrite Hr by lia. replace (List.length x - 1)%nat with (List.length x - 1)%nat by lia. lra.
          - replace k with (List.length x - S (List.length x - S k))%nat by lia.
            rewrite <- Hr by lia. apply Hs. rewrite rev_length. lia. }
        lra. }
      rewrite (Hall i), (Hall j) by lia. lra.
    + assert (E : rev x' = rev x).
      { apply sorted_perm_eq; auto. etransitivity; [symmetry; apply Permutation_rev|].
        etransitivity; [exact Hp|apply Permutation_rev]. }
      rewrite <- (rev_involutive x'), E. apply rev_involutive.
Qed.
