(** Column interpolation on n-d arrays, whole and chunk by chunk. *)
From Coq Require Import List Bool Arith ZArith Lia String.
From Verif Require Import PyBase PyFacts Num Arr ArrFacts Interp1d InterpHyb.
Import ListNotations.

Lemma upd_upd {A} (l : list A) j v w : upd (upd l j v) j w = upd l j w.
Proof. revert j; induction l as [|x l IH]; intros [|j]; cbn; auto. rewrite IH; auto. Qed.
Lemma upd_same {A} (l : list A) j d : upd l j (nth j l d) = l.
Proof. revert j; induction l as [|x l IH]; intros [|j]; cbn; auto. rewrite IH; auto. Qed.
Lemma map_upd {A B} (f : A -> B) l j v : map f (upd l j v) = upd (map f l) j (f v).
Proof. revert j; induction l as [|x l IH]; intros [|j]; cbn; auto. rewrite IH; auto. Qed.

Lemma Forall2_length {A B} (P : A -> B -> Prop) l1 l2 : Forall2 P l1 l2 -> List.length l1 = List.length l2.
Proof. induction 1; cbn; congruence. Qed.
Arguments Forall2_length {A B P l1 l2} _.
Lemma Forall2_nth_intro {A B} (P : A -> B -> Prop) l1 l2 a b : List.length l1 = List.length l2 ->
  (forall k, (k < List.length l1)%nat -> P (nth k l1 a) (nth k l2 b)) -> Forall2 P l1 l2.
Proof.
  revert l2; induction l1 as [|x l1 IH]; intros [|y l2] Hl H; cbn in *; try discriminate; constructor.
  - apply (H 0). lia.
  - apply IH; auto. intros k Hk. apply (H (S k)). lia.
Qed.
Lemma Forall2_nth_elim {A B} (P : A -> B -> Prop) l1 l2 a b : Forall2 P l1 l2 ->
  forall k, (k < List.length l1)%nat -> P (nth k l1 a) (nth k l2 b).
Proof.
  intros H. induction H as [|x y l1 l2 Hxy H IH]; intros k Hk; cbn in Hk; [lia|].
  destruct k; cbn; auto. apply IH. lia.
Qed.
Lemma inb_nth s i : inb s i <-> List.length i = List.length s /\ forall k, k < List.length s -> nth k i 0 < nth k s 0.
Proof.
  split.
  - intros H. split; [apply inb_length; auto|]. intros k Hk. apply (Forall2_nth_elim _ _ _ 0 0 H).
    rewrite (inb_length _ _ H). auto.
  - intros [Hl H]. apply (Forall2_nth_intro _ _ _ 0 0); auto. intros k Hk. apply H. lia.
Qed.
Lemma inb_upd s i ax n k : inb s i -> k < n -> inb (upd s ax n) (upd i ax k).
Proof.
  rewrite !inb_nth, !upd_length. intros [Hl H] Hk. split; auto. intros j Hj. rewrite !nth_upd.
  rewrite Hl. destruct (Nat.eqb j ax && Nat.ltb ax (List.length s)); auto.
Qed.

Section Facts.
  Context {T : Type} {N : Num T}.

  (** with at least two levels the column routine never fails *)
  Lemma searchsorted_le (l : list T) x : searchsorted l x <= List.length l.
  Proof. induction l as [|y l IH]; cbn; auto. destruct (key_lt y x); lia. Qed.
  Lemma interp_at_ok (s : list (T * T)) x : 2 <= List.length s -> exists v, interp_at s x = Ok v.
  Proof.
    intros H. unfold interp_at. pose proof (searchsorted_le (map fst s) x) as Hm. rewrite map_length in Hm.
    set (m := searchsorted _ _) in *. set (z := if Nat.eqb m 0 then _ else _).
    assert (Hz : (1 <= z < Z.of_nat (List.length s))%Z).
    { unfold z. destruct (Nat.eqb_spec m 0); [lia|]. destruct (Nat.eqb_spec m (List.length s)); lia. }
    rewrite (pyget_Z s z (nnan, nnan)) by lia. cbn [bind].
    rewrite (pyget_Z s (z - 1) (nnan, nnan)) by lia. cbn [bind]. eauto.
  Qed.
  Lemma insert_length {A} (p : T * A) l : List.length (insert p l) = S (List.length l).
  Proof. induction l as [|q l IH]; cbn; auto. destruct (key_lt _ _); cbn; auto. Qed.
  Lemma isort_length {A} (l : list (T * A)) : List.length (isort l) = List.length l.
  Proof. induction l as [|q l IH]; cbn; auto. rewrite insert_length. auto. Qed.
  Lemma mapM_total {A B} (f : A -> res B) l : (forall x, In x l -> exists y, f x = Ok y) -> exists ys, mapM f l = Ok ys.
  Proof.
    induction l as [|x l IH]; intros H; cbn; [eauto|]. destruct (H x) as [y E]; [cbn; auto|]. rewrite E. cbn.
    destruct IH as [ys E2]; [intros; apply H; cbn; auto|]. rewrite E2. cbn. eauto.
  Qed.
  Lemma interp_col_ok x xp var : x <> [] -> 2 <= List.length xp -> List.length var = List.length xp ->
    exists r, interp_col x xp var = Ok r.
  Proof.
    intros Hx Hn Hl. destruct x as [|x0 xt]; [congruence|]. unfold interp_col.
    destruct (mapM_total (interp_at (isort (combine xp var))) (map fst (isort (combine (x0 :: xt) (x0 :: xt))))) as [ys E].
    - intros y _. apply interp_at_ok. rewrite isort_length, combine_length. lia.
    - rewrite E. cbn [bind]. eauto.
  Qed.
  Lemma interp_with_ok m x xp var : x <> [] -> 2 <= List.length xp -> List.length var = List.length xp ->
    exists r, interp_with m x xp var = Ok r.
  Proof.
    intros Hx Hn Hl. destruct m; cbn; [apply interp_col_ok; auto|].
    apply interp_col_ok; rewrite ?map_length; auto. destruct x; cbn; congruence.
  Qed.

  (** every failure of the column routine is of one kind *)
  Lemma pyget_err {A} (l : list A) z e : pyget l z = Err e -> e = IndexError.
  Proof.
    unfold pyget. destruct (pyidx _ _); [|congruence]. unfold oget. destruct (nth_error _ _); congruence.
  Qed.
  Lemma interp_at_err (s : list (T * T)) x e : interp_at s x = Err e -> e = IndexError.
  Proof.
    unfold interp_at. set (z := if Nat.eqb _ 0 then _ else _).
    destruct (pyget s z) as [a|e1] eqn:E1; cbn [bind].
    - destruct (pyget s (z - 1)) as [b|e2] eqn:E2; cbn [bind]; intros H; [discriminate|].
      injection H as <-. eapply pyget_err; eauto.
    - intros H. injection H as <-. eapply pyget_err; eauto.
  Qed.
  Definition col_err (x : list T) : exc := match x with [] => ValueError | _ => IndexError end.
  Lemma interp_col_err x xp var e : interp_col x xp var = Err e -> e = col_err x.
  Proof.
    destruct x as [|x0 xt]; unfold interp_col, col_err; [congruence|].
    destruct (mapM _ _) as [r|e'] eqn:E; cbn [bind]; intros H; [discriminate|]. injection H as <-.
    apply mapM_Err_iff in E. destruct E as (? & ? & ? & _ & E & _). eapply interp_at_err; eauto.
  Qed.
  Lemma interp_with_err m x xp var e : interp_with m x xp var = Err e -> e = col_err x.
  Proof.
    destruct m; cbn; [apply interp_col_err|]. intros H. apply interp_col_err in H. destruct x; auto.
  Qed.

  Lemma col_at_length (a : arr T) ax i n : List.length (col_at a ax i n) = n.
  Proof. unfold col_at. rewrite map_length, seq_length. reflexivity. Qed.
  Lemma col_at_upd (a : arr T) ax i k n : col_at a ax (upd i ax k) n = col_at a ax i n.
  Proof. unfold col_at. apply map_ext. intros j. rewrite upd_upd. reflexivity. Qed.

  Section Whole.
    Variables (m : imethod) (x : list T) (xp var : arr T) (ax n : nat).
    Hypothesis Hsh : shp var = shp xp.
    Hypothesis Hax : nth_error (shp xp) ax = Some n.
    Hypothesis Hpos : Forall (fun d => 0 < d) (shp xp).

    Definition colres (i : list nat) : res (list T) := interp_with m x (col_at xp ax i n) (col_at var ax i n).

    Lemma guard_leb : forallb (fun p => Nat.leb (fst p) (snd p)) (combine (shp xp) (shp var)) = true.
    Proof.
      rewrite Hsh. clear. induction (shp xp) as [|d s IH]; cbn; auto. rewrite Nat.leb_refl. auto.
    Qed.
    Lemma upd_pos s j : Forall (fun d => 0 < d) s -> existsb (Nat.eqb 0) (upd s j 1) = false.
    Proof.
      intros H. revert j. induction H as [|d s Hd H IH]; intros [|j]; cbn; auto.
      - clear -H. induction H as [|d s Hd H IH]; cbn; auto. destruct d; [lia|]. auto.
      - rewrite IH. destruct d; [lia|]. reflexivity.
    Qed.
    Lemma ax_lt : ax < List.length (shp xp).
    Proof. apply nth_error_Some. congruence. Qed.
    Lemma ax_n : nth ax (shp xp) 0 = n.
    Proof. apply nth_error_nth. auto. Qed.

    Lemma interp_nd_unfold :
      interp_nd m x xp var ax =
      do _ <- mapM colres (all_idx (upd (shp xp) ax 1)) ;;
      Ok (mkArr (upd (shp xp) ax (List.length x))
           (fun i => match colres i with Ok r => nth (nth ax i 0) r nnan | Err _ => nnan end)).
    Proof.
      unfold interp_nd. rewrite guard_leb, ax_n. cbn [negb].
      rewrite upd_pos by auto. reflexivity.
    Qed.

    Lemma interp_nd_err e : interp_nd m x xp var ax = Err e <->
      e = col_err x /\ exists i, inb (shp xp) i /\ exists e', colres i = Err e'.
    Proof.
      rewrite interp_nd_unfold. split.
      - destruct (mapM _ _) as [r|e'] eqn:E; cbn [bind]; intros H; [discriminate|]. injection H as <-.
        apply mapM_Err_iff in E. destruct E as (l1 & i & l2 & El & E & _). split; [eapply interp_with_err; eauto|].
        exists (upd i ax 0). split.
        + assert (Hi : inb (upd (shp xp) ax 1) i) by (apply all_idx_inb; rewrite El; apply in_or_app; cbn; auto).
          apply (inb_upd _ _ ax n 0) in Hi; [|pose proof ax_n; apply Forall_nth with (i := ax) (d := 0) in Hpos; [lia|apply ax_lt]].
          rewrite upd_upd in Hi. pose proof (upd_same (shp xp) ax 0) as U. rewrite ax_n in U. rewrite U in Hi. auto.
        + exists e'. unfold colres in *. rewrite !col_at_upd. auto.
      - intros (-> & i & Hi & e' & E).
        destruct (mapM colres (all_idx (upd (shp xp) ax 1))) as [r|e2] eqn:Em.
        + exfalso. apply mapM_Ok_iff in Em.
          assert (Hin : In (upd i ax 0) (all_idx (upd (shp xp) ax 1))) by (apply all_idx_inb, inb_upd; auto; lia).
          assert (C : forall l r, Forall2 (fun x y => colres x = Ok y) l r -> In (upd i ax 0) l -> False).
          { intros l r0 HF. induction HF as [|a b l r' Hab HF IH]; intros []; auto. subst.
            unfold colres in *. rewrite !col_at_upd in Hab. congruence. }
          eapply C; eauto.
        + cbn [bind]. f_equal. apply mapM_Err_iff in Em. destruct Em as (? & ? & ? & _ & E2 & _).
          eapply interp_with_err; eauto.
    Qed.

    Lemma interp_nd_ok : (forall i, inb (shp xp) i -> exists r, colres i = Ok r) ->
      exists a, interp_nd m x xp var ax = Ok a /\ shp a = upd (shp xp) ax (List.length x) /\
        forall i, get a i = match colres i with Ok r => nth (nth ax i 0) r nnan | Err _ => nnan end.
    Proof.
      intros H. destruct (interp_nd m x xp var ax) as [a|e] eqn:E.
      - exists a. split; auto. rewrite interp_nd_unfold in E. destruct (mapM _ _); cbn [bind] in E; [|discriminate].
        injection E as <-. auto.
      - apply interp_nd_err in E. destruct E as (_ & i & Hi & e' & E). destruct (H i Hi). congruence.
    Qed.
  End Whole.

  (** ** chunk grid *)
  Definition nsumn (l : list nat) : nat := fold_right Nat.add 0 l.

  Lemma chunk_of_spec cs start i : start <= i < start + nsumn cs ->
    let b := chunk_of cs start i in
    In b (chunk_starts cs start) /\ fst b <= i < fst b + snd b.
  Proof.
    revert start; induction cs as [|c cs IH]; intros start Hi; [cbn in *; lia|]. cbn [nsumn fold_right] in *. fold (nsumn cs) in *.
    cbn [chunk_of chunk_starts]. destruct (Nat.ltb_spec i (start + c)).
    - cbn. split; auto. lia.
    - destruct (IH (start + c)) as [H1 H2]; [lia|]. split; cbn; auto.
  Qed.
  Lemma chunk_starts_bound cs start b : In b (chunk_starts cs start) ->
    start <= fst b /\ fst b + snd b <= start + nsumn cs /\ In (snd b) cs.
  Proof.
    revert start; induction cs as [|c cs IH]; intros start; cbn [chunk_starts nsumn fold_right]; [cbn; tauto|].
    fold (nsumn cs). intros [<-|H]; cbn [fst snd In].
    - repeat split; auto; lia.
    - destruct (IH _ H) as (H1 & H2 & H3). repeat split; auto; lia.
  Qed.
  Lemma product_In {A} (l : list (list A)) b : In b (product l) <-> Forall2 (fun x y => In x y) b l.
  Proof.
    revert b; induction l as [|x l IH]; intros b; cbn.
    - split; [intros [<-|[]]; constructor|intros H; inversion H; auto].
    - rewrite in_flat_map. split.
      + intros (a & Ha & Hb). apply in_map_iff in Hb. destruct Hb as (b' & <- & Hb'). constructor; auto. apply IH; auto.
      + intros H. inversion H as [|a y b' l' Ha Hb]; subst. exists a. split; auto. apply in_map. apply IH; auto.
  Qed.

  (** chunks [cs] of an array of shape [s] *)
  Definition chunks_of (cs : list (list nat)) (s : list nat) : Prop :=
    Forall2 (fun c d => nsumn c = d /\ Forall (fun k => 0 < k) c) cs s.

  Section Chunked.
    Variables (m : imethod) (x : list T) (xp var : arr T) (ax n : nat) (cs : list (list nat)).
    Hypothesis Hsh : shp var = shp xp.
    Hypothesis Hax : nth_error (shp xp) ax = Some n.
    Hypothesis Hpos : Forall (fun d => 0 < d) (shp xp).
    Hypothesis Hcs : chunks_of cs (shp xp).

    Let g := join_axis ax cs.
    Let f := fun a b : arr T => interp_nd m x a b ax.

    (** a block of the joined grid *)
    Definition good_block (b : list (nat * nat)) : Prop :=
      List.length b = List.length (shp xp) /\ nth ax b (0, 0) = (0, n) /\
      forall k, k < List.length (shp xp) -> fst (nth k b (0, 0)) + snd (nth k b (0, 0)) <= nth k (shp xp) 0 /\ 0 < snd (nth k b (0, 0)).

    Lemma Hax_lt : ax < List.length (shp xp).
    Proof. apply nth_error_Some. congruence. Qed.
    Lemma Hax_n : nth ax (shp xp) 0 = n.
    Proof. apply nth_error_nth. auto. Qed.
    Lemma n_pos : 0 < n.
    Proof. rewrite <- Hax_n. apply Forall_nth with (i := ax) (d := 0) in Hpos; auto. apply Hax_lt. Qed.
    Lemma g_length : List.length g = List.length (shp xp).
    Proof. unfold g, join_axis. rewrite upd_length. eapply Forall2_length; eauto. Qed.
    Lemma cs_nth k : k < List.length (shp xp) ->
      nsumn (nth k cs []) = nth k (shp xp) 0 /\ Forall (fun k => 0 < k) (nth k cs []).
    Proof.
      intros Hk. apply (Forall2_nth_elim _ _ _ [] 0 Hcs). rewrite (Forall2_length Hcs). auto.
    Qed.
    Lemma g_nth k : k < List.length (shp xp) ->
      nsumn (nth k g []) = nth k (shp xp) 0 /\ Forall (fun k => 0 < k) (nth k g []) /\
      (k = ax -> nth k g [] = [n]).
    Proof.
      intros Hk. unfold g, join_axis. rewrite nth_upd. rewrite (Forall2_length Hcs).
      destruct (cs_nth k Hk) as [H1 H2]. destruct (Nat.eqb_spec k ax) as [->|].
      - replace (Nat.ltb ax (List.length (shp xp))) with true by (symmetry; apply Nat.ltb_lt; auto). cbn [andb].
        fold (nsumn (nth ax cs [])). rewrite H1, Hax_n. pose proof n_pos. repeat split; cbn; auto.
      - cbn [andb]. repeat split; auto. congruence.
    Qed.

    Lemma product_good b : In b (product (map (fun c => chunk_starts c 0) g)) -> good_block b.
    Proof.
      intros H. apply product_In in H. assert (Hl : List.length b = List.length (shp xp)).
      { rewrite (Forall2_length H), map_length. apply g_length. }
      assert (Hk : forall k, k < List.length (shp xp) -> In (nth k b (0, 0)) (chunk_starts (nth k g []) 0)).
      { intros k Hk. pose proof (Forall2_nth_elim _ _ _ (0, 0) (chunk_starts [] 0) H k ltac:(lia)) as H1.
        rewrite (map_nth (fun c => chunk_starts c 0)) in H1. exact H1. }
      split; auto. split.
      - specialize (Hk ax Hax_lt). destruct (g_nth ax Hax_lt) as (_ & _ & E). rewrite E in Hk by auto.
        cbn in Hk. destruct Hk as [H1|[]]. auto.
      - intros k Hk'. specialize (Hk k Hk'). destruct (g_nth k Hk') as (E1 & E2 & _).
        apply chunk_starts_bound in Hk. destruct Hk as (_ & H2 & H3). rewrite E1 in H2. split; [lia|].
        rewrite Forall_forall in E2. auto.
    Qed.

    (** the block containing a position *)
    Definition block_at (i : list nat) : list (nat * nat) :=
      map (fun p => chunk_of (fst p) 0 (snd p)) (combine g i).
    Lemma block_at_nth i k : inb (shp xp) i -> k < List.length (shp xp) ->
      nth k (block_at i) (0, 0) = chunk_of (nth k g []) 0 (nth k i 0).
    Proof.
      intros Hi Hk. unfold block_at.
      rewrite (nth_indep _ (0, 0) (chunk_of (fst (@nil nat, 0)) 0 (snd (@nil nat, 0))))
        by (rewrite map_length, combine_length, g_length, (inb_length _ _ Hi); lia).
      rewrite (map_nth (fun p : list nat * nat => chunk_of (fst p) 0 (snd p))).
      rewrite combine_nth by (rewrite g_length, (inb_length _ _ Hi); auto). reflexivity.
    Qed.
    Lemma block_at_length i : inb (shp xp) i -> List.length (block_at i) = List.length (shp xp).
    Proof. intros Hi. unfold block_at. rewrite map_length, combine_length, g_length, (inb_length _ _ Hi). lia. Qed.
    Lemma block_at_in i : inb (shp xp) i -> In (block_at i) (product (map (fun c => chunk_starts c 0) g)).
    Proof.
      intros Hi. apply product_In. apply (Forall2_nth_intro _ _ _ (0, 0) (chunk_starts [] 0)).
      - rewrite map_length, block_at_length, g_length; auto.
      - intros k Hk. rewrite block_at_length in Hk by auto. rewrite block_at_nth by auto.
        rewrite (map_nth (fun c => chunk_starts c 0)). apply chunk_of_spec.
        destruct (g_nth k Hk) as (E & _). rewrite E. split; [lia|]. apply inb_nth in Hi. apply Hi. auto.
    Qed.
    Lemma block_at_bounds i k : inb (shp xp) i -> k < List.length (shp xp) ->
      fst (nth k (block_at i) (0, 0)) <= nth k i 0 < fst (nth k (block_at i) (0, 0)) + snd (nth k (block_at i) (0, 0)).
    Proof.
      intros Hi Hk. rewrite block_at_nth by auto. apply chunk_of_spec.
      destruct (g_nth k Hk) as (E & _). rewrite E. split; [lia|]. apply inb_nth in Hi. apply Hi. auto.
    Qed.

    (** position [off] of block [b], in the whole array *)
    Definition shift (b : list (nat * nat)) (off : list nat) : list nat :=
      map (fun p => fst (fst p) + snd p) (combine b off).
    Lemma shift_nth b off k : List.length b = List.length off -> k < List.length b ->
      nth k (shift b off) 0 = fst (nth k b (0, 0)) + nth k off 0.
    Proof.
      intros Hl Hk. unfold shift.
      rewrite (nth_indep _ 0 (fst (fst ((0, 0), 0)) + snd ((0, 0), 0)))
        by (rewrite map_length, combine_length; lia).
      rewrite (map_nth (fun p : nat * nat * nat => fst (fst p) + snd p)).
      rewrite combine_nth by auto. reflexivity.
    Qed.
    Lemma shift_length b off : List.length b = List.length off -> List.length (shift b off) = List.length b.
    Proof. intros H. unfold shift. rewrite map_length, combine_length. lia. Qed.
    Lemma shift_upd b off k : good_block b -> List.length off = List.length b ->
      shift b (upd off ax k) = upd (shift b off) ax k.
    Proof.
      intros (Hl & H0 & _) Ho. apply nth_ext with (d := 0) (d' := 0).
      - rewrite shift_length, upd_length, shift_length; rewrite ?upd_length; auto.
      - intros j Hj. rewrite shift_length in Hj by (rewrite upd_length; auto).
        rewrite shift_nth by (rewrite ?upd_length; auto). rewrite !nth_upd, shift_length by auto.
        rewrite Ho. destruct (Nat.eqb_spec j ax) as [->|]; cbn [andb].
        + replace (Nat.ltb ax (List.length b)) with true by (symmetry; apply Nat.ltb_lt; auto).
          rewrite H0. reflexivity.
        + rewrite shift_nth by auto. reflexivity.
    Qed.
    Lemma shift_inb b off : good_block b -> inb (map snd b) off -> inb (shp xp) (shift b off).
    Proof.
      intros (Hl & H0 & Hk) Ho. apply inb_nth in Ho. rewrite map_length in Ho. destruct Ho as [Lo Ho]. apply inb_nth.
      rewrite shift_length by auto. split; auto. intros k Hk'. rewrite shift_nth by lia.
      specialize (Ho k ltac:(lia)). specialize (Hk k Hk').
      rewrite (nth_indep (map snd b) 0 (snd (0, 0))) in Ho by (rewrite map_length; lia).
      rewrite (map_nth snd) in Ho. lia.
    Qed.

    Lemma block_shp b (a : arr T) : shp (block b a) = map snd b.
    Proof. reflexivity. Qed.
    Lemma block_col b (a : arr T) off : good_block b -> List.length off = List.length b ->
      col_at (block b a) ax off n = col_at a ax (shift b off) n.
    Proof.
      intros Hb Ho. unfold col_at. apply map_ext. intros k. cbn [get block].
      fold (shift b (upd off ax k)). rewrite shift_upd by auto. reflexivity.
    Qed.
    Lemma block_ax b (a : arr T) : good_block b -> nth_error (shp (block b a)) ax = Some n.
    Proof.
      intros (Hl & H0 & _). rewrite block_shp. rewrite nth_error_map.
      rewrite (nth_error_nth' b (0, 0)) by (rewrite Hl; apply Hax_lt). cbn. rewrite H0. reflexivity.
    Qed.
    Lemma block_pos b (a : arr T) : good_block b -> Forall (fun d => 0 < d) (shp (block b a)).
    Proof.
      intros (Hl & _ & Hk). apply Forall_forall. intros d Hd. rewrite block_shp in Hd. apply in_map_iff in Hd.
      destruct Hd as (p & <- & Hp). apply In_nth with (d := (0, 0)) in Hp. destruct Hp as (k & Hk' & <-).
      apply Hk. lia.
    Qed.
    Lemma block_colres b off : good_block b -> List.length off = List.length b ->
      colres m x (block b xp) (block b var) ax n off = colres m x xp var ax n (shift b off).
    Proof. intros Hb Ho. unfold colres. rewrite !block_col by auto. reflexivity. Qed.

    Lemma map_blocks_ok : (forall i, inb (shp xp) i -> exists r, colres m x xp var ax n i = Ok r) ->
      exists a, map_blocks f cs ax (List.length x) xp var = Ok a /\ shp a = upd (shp xp) ax (List.length x) /\
        forall i, inb (upd (shp xp) ax (List.length x)) i ->
          get a i = match colres m x xp var ax n i with Ok r => nth (nth ax i 0) r nnan | Err _ => nnan end.
    Proof.
      intros H. assert (HB : forall b, good_block b ->
        exists a, f (block b xp) (block b var) = Ok a /\ shp a = upd (map snd b) ax (List.length x) /\
          forall off, List.length off = List.length b ->
            get a off = match colres m x xp var ax n (shift b off) with Ok r => nth (nth ax off 0) r nnan | Err _ => nnan end).
      { intros b Hb. unfold f. destruct (interp_nd_ok m x (block b xp) (block b var) ax n) as (a & E & Sa & Ga).
        - reflexivity.
        - apply block_ax; auto.
        - apply block_pos; auto.
        - intros off Ho. rewrite block_shp in Ho.
          assert (Lo : List.length off = List.length b) by (rewrite (inb_length _ _ Ho), map_length; auto).
          rewrite block_colres by auto. apply H. apply shift_inb; auto.
        - exists a. split; auto. split; auto. intros off Ho. rewrite Ga, block_colres by auto. reflexivity. }
      unfold map_blocks. fold g.
      destruct (mapM_total (fun b => f (block b xp) (block b var)) (product (map (fun c => chunk_starts c 0) g))) as [bs E].
      { intros b Hb. apply product_good in Hb. destruct (HB b Hb) as (a & E & _). eauto. }
      rewrite E. cbn [bind]. eexists. split; [reflexivity|]. cbn [shp get]. rewrite Hsh. split; auto.
      intros i Hi.
      assert (Hi0 : inb (shp xp) (upd i ax 0)).
      { apply (inb_upd _ _ ax n 0) in Hi; [|apply n_pos]. rewrite upd_upd in Hi.
        pose proof (upd_same (shp xp) ax 0) as U. rewrite Hax_n in U. rewrite U in Hi. auto. }
      fold (block_at (upd i ax 0)). set (b := block_at (upd i ax 0)).
      assert (Hb : good_block b) by (apply product_good, block_at_in; auto).
      destruct (HB b Hb) as (a & Ea & Sa & Ga). rewrite Ea.
      assert (Lb : List.length b = List.length (shp xp)) by (apply block_at_length; auto).
      assert (Li : List.length i = List.length (shp xp)) by (apply inb_length in Hi; rewrite upd_length in Hi; auto).
      set (off0 := map (fun p => snd p - fst (fst p)) (combine b (upd i ax 0))).
      assert (Lo : List.length off0 = List.length b).
      { unfold off0. rewrite map_length, combine_length, upd_length. lia. }
      rewrite Ga by (rewrite upd_length; auto).
      rewrite shift_upd by auto.
      assert (Es : shift b off0 = upd i ax 0).
      { apply nth_ext with (d := 0) (d' := 0).
        - rewrite shift_length, upd_length; auto; lia.
        - intros k Hk. rewrite shift_length in Hk by auto. rewrite shift_nth by auto.
          assert (En : nth k off0 0 = nth k (upd i ax 0) 0 - fst (nth k b (0, 0))).
          { unfold off0. rewrite (nth_indep _ 0 (snd ((0, 0), 0) - fst (fst ((0, 0), 0))))
              by (rewrite map_length, combine_length, upd_length; lia).
            rewrite (map_nth (fun p : nat * nat * nat => snd p - fst (fst p))).
            rewrite combine_nth by (rewrite upd_length; lia). reflexivity. }
          rewrite En. pose proof (block_at_bounds (upd i ax 0) k Hi0 ltac:(lia)). fold b in H0. lia. }
      rewrite Es, upd_upd.
      replace (nth ax (upd off0 ax (nth ax i 0)) 0) with (nth ax i 0).
      2:{ rewrite nth_upd, Nat.eqb_refl. replace (Nat.ltb ax (List.length off0)) with true; auto.
          symmetry. apply Nat.ltb_lt. rewrite Lo, Lb. apply Hax_lt. }
      rewrite upd_same. reflexivity.
    Qed.

    Lemma map_blocks_err e : (exists i e', inb (shp xp) i /\ colres m x xp var ax n i = Err e') -> e = col_err x ->
      map_blocks f cs ax (List.length x) xp var = Err e.
    Proof.
      intros (i & e' & Hi & E) ->. unfold map_blocks. fold g.
      destruct (mapM _ (product _)) as [bs|e2] eqn:Em; cbn [bind].
      - exfalso. apply mapM_Ok_iff in Em. pose proof (block_at_in i Hi) as Hin.
        assert (C : forall l r, Forall2 (fun b y => f (block b xp) (block b var) = Ok y) l r ->
                  In (block_at i) l -> exists y, f (block (block_at i) xp) (block (block_at i) var) = Ok y).
        { intros l r HF. induction HF as [|a b l r' Hab HF IH]; intros []; auto. subst. eauto. }
        destruct (C _ _ Em Hin) as [y Hy].
        assert (Hb : good_block (block_at i)) by (apply product_good, block_at_in; auto).
        set (b := block_at i) in *. set (off := map (fun p => snd p - fst (fst p)) (combine b i)).
        assert (Lb : List.length b = List.length (shp xp)) by (apply block_at_length; auto).
        assert (Li : List.length i = List.length (shp xp)) by (apply inb_length; auto).
        assert (Lo : List.length off = List.length b) by (unfold off; rewrite map_length, combine_length; lia).
        assert (En : forall k, k < List.length b -> nth k off 0 = nth k i 0 - fst (nth k b (0, 0))).
        { intros k Hk. unfold off. rewrite (nth_indep _ 0 (snd ((0, 0), 0) - fst (fst ((0, 0), 0))))
            by (rewrite map_length, combine_length; lia).
          rewrite (map_nth (fun p : nat * nat * nat => snd p - fst (fst p))).
          rewrite combine_nth by lia. reflexivity. }
        assert (Es : shift b off = i).
        { apply nth_ext with (d := 0) (d' := 0).
          - rewrite shift_length; auto; lia.
          - intros k Hk. rewrite shift_length in Hk by auto. rewrite shift_nth, En by auto.
            pose proof (block_at_bounds i k Hi ltac:(lia)) as HB. fold b in HB. lia. }
        assert (Hoff : inb (map snd b) off).
        { apply inb_nth. rewrite map_length. split; auto. intros k Hk. rewrite En by auto.
          rewrite (nth_indep (map snd b) 0 (snd (0, 0))) by (rewrite map_length; lia). rewrite (map_nth snd).
          pose proof (block_at_bounds i k Hi ltac:(lia)) as HB. fold b in HB. lia. }
        assert (X : f (block b xp) (block b var) = Err (col_err x)).
        { unfold f. apply (interp_nd_err m x (block b xp) (block b var) ax n); auto.
          - apply block_ax; auto.
          - apply block_pos; auto.
          - split; auto. exists off. split; auto. exists e'. rewrite block_colres by auto. rewrite Es. auto. }
        congruence.
      - f_equal. apply mapM_Err_iff in Em. destruct Em as (l1 & b & l2 & El & Eb & _).
        assert (Hb : good_block b) by (apply product_good; rewrite El; apply in_or_app; cbn; auto).
        unfold f in Eb. apply (interp_nd_err m x (block b xp) (block b var) ax n) in Eb; [tauto| | |].
        + reflexivity.
        + apply block_ax; auto.
        + apply block_pos; auto.
    Qed.
  End Chunked.
End Facts.
