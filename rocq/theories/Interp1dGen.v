(** The column routine over any number type whose comparisons are those of the real values [h] gives its numbers. *)
From Coq Require Import Reals List Bool Arith ZArith Lra Lia Permutation Sorted.
From Verif Require Import PyBase PyFacts Num NumFacts Arr Spec Interp1d Interp1dFacts.
Import ListNotations.
Local Open Scope R_scope.

Section Gen.
  Context {T : Type} {N : Num T}.
  Variable h : T -> fl.
  Hypothesis h_key : forall x y, key_lt x y = key_lt (h x) (h y).
  Hypothesis h_lt : forall x y a b, h x = Fin a -> h y = Fin b -> nlt x y = rltb a b.

  Definition hk {A} (p : T * A) : fl * A := (h (fst p), snd p).
  Lemma insert_hk {A} (p : T * A) l : map hk (insert p l) = insert (hk p) (map hk l).
  Proof. induction l as [|q l IH]; cbn [insert map]; auto. cbn [hk fst]. rewrite h_key. destruct (key_lt (h (fst q)) (h (fst p))); cbn [map]; rewrite ?IH; reflexivity. Qed.
  Lemma isort_hk {A} (l : list (T * A)) : map hk (isort l) = isort (map hk l).
  Proof. induction l as [|p l IH]; cbn [isort fold_right map]; auto. rewrite insert_hk. fold (isort l). rewrite IH. reflexivity. Qed.
  Lemma insert_permT {A} (p : T * A) l : Permutation (insert p l) (p :: l).
  Proof. induction l as [|q l IH]; cbn [insert]; auto. destruct (key_lt _ _); auto. rewrite IH. apply perm_swap. Qed.
  Lemma isort_permT {A} (l : list (T * A)) : Permutation (isort l) l.
  Proof. induction l as [|p l IH]; cbn [isort fold_right]; auto. rewrite insert_permT. constructor. exact IH. Qed.
  Lemma searchsorted_h l x : searchsorted l x = searchsorted (map h l) (h x).
  Proof. induction l as [|y l IH]; cbn [searchsorted map]; auto. rewrite h_key. destruct (key_lt _ _); auto. Qed.

  Section Column.
    Variables (l var : list T) (lr : list R).
    Hypothesis Hl : map h l = map Fin lr.
    Hypothesis Hlen : List.length var = List.length lr.
    Hypothesis Hn : (2 <= List.length lr)%nat.
    Hypothesis Hnd : NoDup lr.
    Let n := List.length lr.
    Let p (k : nat) := nth k lr 0.
    Let c := combine l var.
    Let s := isort c.
    Let d : T * T := (nnan, nnan).
    Let K := map (fun q => keyr (hk q)) s.

    Lemma g_llen : List.length l = n.
    Proof. apply (f_equal (@List.length fl)) in Hl. rewrite !map_length in Hl. exact Hl. Qed.
    Lemma g_clen : List.length c = n.
    Proof. unfold c. rewrite combine_length, g_llen. unfold n. lia. Qed.
    Lemma g_slen : List.length s = n.
    Proof. unfold s. rewrite (Permutation_length (isort_permT c)). apply g_clen. Qed.
    Lemma g_h k : (k < n)%nat -> h (nth k l nnan) = Fin (p k).
    Proof.
      intros Hk. rewrite <- (map_nth h). rewrite (nth_indep _ (h nnan) (Fin 0)) by (rewrite map_length, g_llen; auto).
      rewrite Hl. apply map_nth.
    Qed.
    Lemma g_cnth k : (k < n)%nat -> nth k c d = (nth k l nnan, nth k var nnan).
    Proof. intros Hk. unfold c, d. apply combine_nth. rewrite g_llen. symmetry. exact Hlen. Qed.
    Lemma g_K : K = map keyr (map hk s). Proof. unfold K. rewrite map_map. reflexivity. Qed.
    Lemma g_sorted : sorted_lt K.
    Proof.
      rewrite g_K. unfold s. rewrite isort_hk. apply isort_keys_lt.
      - apply Forall_forall. intros z Hz. apply in_map_iff in Hz. destruct Hz as (q & <- & Hq). apply In_nth with (d := d) in Hq.
        destruct Hq as (k & Hk & <-). rewrite g_clen in Hk. rewrite g_cnth by auto. unfold finkey, hk. cbn [fst]. rewrite g_h by auto. eauto.
      - replace (map keyr (map hk c)) with lr; auto. apply (nth_ext _ _ 0 0).
        + rewrite !map_length, g_clen. reflexivity.
        + intros k Hk. rewrite (nth_map_keyr _ (hk d)) by (rewrite map_length, g_clen; auto). rewrite map_nth, g_cnth by auto. unfold hk, keyr. cbn [fst]. rewrite g_h by auto. reflexivity.
    Qed.
    Lemma g_Klen : List.length K = n. Proof. unfold K. rewrite map_length. apply g_slen. Qed.
    Lemma g_snth j : (j < n)%nat -> exists i, (i < n)%nat /\ nth j s d = (nth i l nnan, nth i var nnan) /\ nth j K 0 = p i.
    Proof.
      intros Hj. assert (Hin : In (nth j s d) c) by (apply (Permutation_in _ (isort_permT c)); fold s; apply nth_In; rewrite g_slen; auto).
      apply In_nth with (d := d) in Hin. destruct Hin as (i & Hi & E). rewrite g_clen in Hi. exists i. split; auto. rewrite g_cnth in E by auto. split; [symmetry; exact E|].
      rewrite g_K, (nth_map_keyr _ (hk d)) by (rewrite map_length, g_slen; auto). rewrite map_nth, <- E. unfold hk, keyr. cbn [fst]. rewrite g_h by auto. reflexivity.
    Qed.
    Lemma g_spos i : (i < n)%nat -> exists j, (j < n)%nat /\ nth j K 0 = p i.
    Proof.
      intros Hi. assert (Hin : In (nth i c d) s) by (apply (Permutation_in _ (Permutation_sym (isort_permT c))); apply nth_In; rewrite g_clen; auto).
      apply In_nth with (d := d) in Hin. destruct Hin as (j & Hj & E). rewrite g_slen in Hj. exists j. split; auto.
      rewrite g_K, (nth_map_keyr _ (hk d)) by (rewrite map_length, g_slen; auto). rewrite map_nth, E, g_cnth by auto. unfold hk, keyr. cbn [fst]. rewrite g_h by auto. reflexivity.
    Qed.
    Lemma g_search x xr : h x = Fin xr -> searchsorted (map fst s) x = searchsorted (map Fin K) (Fin xr).
    Proof.
      intros Hx. rewrite searchsorted_h, Hx. f_equal. apply (nth_ext _ _ NaN NaN).
      - rewrite !map_length, g_Klen. apply g_slen.
      - intros j Hj. rewrite !map_length, g_slen in Hj. destruct (g_snth j Hj) as (i & Hi & E1 & E2).
        rewrite (nth_indep _ NaN (h nnan)) by (rewrite !map_length, g_slen; auto).
        rewrite (nth_indep (map Fin K) NaN (Fin 0)) by (rewrite !map_length, g_Klen; auto).
        rewrite !map_nth. rewrite (map_nth fst s d j : nth j (map fst s) nnan = fst (nth j s d)). rewrite E1, E2. cbn [fst]. apply g_h; auto.
    Qed.
    Lemma g_neighbours j i0 i1 : (S j < n)%nat -> nth j K 0 = p i0 -> nth (S j) K 0 = p i1 ->
      (i0 < n)%nat -> (i1 < n)%nat -> neighbours p n i0 i1.
    Proof.
      intros Hj E0 E1 H0 H1. pose proof g_sorted as Ss. pose proof g_Klen as KL. split; auto. split; auto. split.
      - rewrite <- E0, <- E1. apply Ss. lia.
      - intros k Hk. destruct (g_spos k Hk) as (m & Hm & Em). rewrite <- E0, <- E1, <- Em.
        destruct (Nat.lt_trichotomy m j) as [H|[->|H]].
        + left. apply Rlt_le, Ss. lia.
        + left. lra.
        + right. destruct (Nat.eq_dec m (S j)) as [->|]; [lra|]. apply Rlt_le, Ss. lia.
    Qed.

    (** the code's formula for bracket (i, j) *)
    Definition g_formula (i j : nat) (x : T) : T :=
      nadd (nth i var nnan)
           (nmul (nsub (nth j var nnan) (nth i var nnan)) (ndiv (nsub x (nth i l nnan)) (nsub (nth j l nnan) (nth i l nnan)))).

    Lemma g_at_in x xr i0 j0 : h x = Fin xr -> (i0 < n)%nat -> (j0 < n)%nat -> p i0 <= xr <= p j0 ->
      exists i j, code_bracket p n i j xr /\ interp_at s x = Ok (g_formula i j x).
    Proof.
      intros Hx Hi0 Hj0 Hr. unfold interp_at. rewrite g_slen, (g_search x xr Hx). pose proof g_sorted as Ss. pose proof g_Klen as KL.
      destruct (searchsorted_spec K xr Ss) as (M1 & M2 & M3).
      set (m := searchsorted _ _) in *. rewrite KL in M1, M3.
      assert (Hmn : (m < n)%nat).
      { destruct (g_spos j0 Hj0) as (j & Hj & E). destruct (Nat.lt_ge_cases m n); auto.
        specialize (M2 j ltac:(lia)). rewrite E in M2. lra. }
      assert (Core : forall b, (S b < n)%nat -> nth b K 0 <= xr <= nth (S b) K 0 ->
        (nth b K 0 < xr \/ b = 0%nat) ->
        exists i j, code_bracket p n i j xr /\
         (do above <- pyget s (Z.of_nat (S b)) ;;
          do below <- pyget s (Z.of_nat (S b) - 1)%Z ;;
          Ok (if Nat.eqb m n then nnan else if nlt x (fst below) then nnan else
              nadd (snd below) (nmul (nsub (snd above) (snd below)) (ndiv (nsub x (fst below)) (nsub (fst above) (fst below))))))
         = Ok (g_formula i j x)).
      { intros b Hb Hxb Hlow. destruct (g_snth b ltac:(lia)) as (i & Hi & Ei & Ki).
        destruct (g_snth (S b) Hb) as (j & Hj & Ej & Kj).
        assert (Nb : neighbours p n i j) by (eapply g_neighbours; eauto).
        exists i, j. split.
        - split; auto. rewrite Ki, Kj in Hxb. split; auto. rewrite Ki in Hlow. destruct Hlow as [H| ->]; auto.
          right. intros k Hk. destruct (g_spos k Hk) as (q & Hq & Eq). rewrite <- Ki, <- Eq.
          destruct q; [lra|]. apply Rlt_le, Ss. lia.
        - rewrite (pyget_nat s (S b) d) by (rewrite g_slen; auto). cbn [bind].
          replace (Z.of_nat (S b) - 1)%Z with (Z.of_nat b) by lia.
          rewrite (pyget_nat s b d) by (rewrite g_slen; lia). cbn [bind]. rewrite Ei, Ej. cbn [fst snd].
          destruct (Nat.eqb_spec m n); [lia|]. rewrite (h_lt _ _ _ _ Hx (g_h i Hi)). rewrite Ki in Hxb.
          rewrite rltb_false by lra. reflexivity. }
      destruct (Nat.eqb_spec m 0) as [E|E].
      - destruct (Core 0%nat ltac:(lia)) as (i & j & H & H2); [|auto|].
        + split; [|apply M3; lia]. destruct (g_spos i0 Hi0) as (q & Hq & Eq).
          destruct (Nat.eq_dec q 0) as [->|]; [rewrite Eq; lra|].
          apply Rle_trans with (p i0); [|lra]. rewrite <- Eq. apply Rlt_le, Ss. lia.
        + exists i, j. split; auto.
      - destruct (Nat.eqb_spec m n); [lia|].
        destruct (Core (m - 1)%nat ltac:(lia)) as (i & j & H & H2).
        + replace (S (m - 1)) with m by lia. split; [apply Rlt_le, M2; lia|apply M3; lia].
        + left. apply M2. lia.
        + exists i, j. split; auto. replace (S (m - 1)) with m in H2 by lia. exact H2.
    Qed.

    Lemma g_at_out x xr : h x = Fin xr -> out_of_range p n xr -> interp_at s x = Ok nnan.
    Proof.
      intros Hxr Hx. unfold interp_at. rewrite g_slen, (g_search x xr Hxr). pose proof g_sorted as Ss. pose proof g_Klen as KL.
      destruct (searchsorted_spec K xr Ss) as (M1 & M2 & M3).
      set (m := searchsorted _ _) in *. rewrite KL in M1, M3.
      destruct Hx as [Hx|Hx].
      - assert (m = n).
        { destruct (Nat.lt_ge_cases m n) as [H|]; [|lia]. destruct (g_snth m H) as (i & Hi & _ & Ki).
          specialize (M3 m ltac:(lia)). rewrite Ki in M3. specialize (Hx i Hi). lra. }
        destruct (Nat.eqb_spec m 0); [unfold n in *; lia|].
        destruct (Nat.eqb_spec m n); [|lia].
        rewrite (pyget_Z s (Z.of_nat n - 1) d) by (rewrite g_slen; lia). cbn [bind].
        rewrite (pyget_Z s (Z.of_nat n - 1 - 1) d) by (rewrite g_slen; unfold n; lia). reflexivity.
      - assert (m = 0%nat).
        { destruct (Nat.eq_dec m 0); auto. destruct (g_snth 0 ltac:(unfold n; lia)) as (i & Hi & _ & Ki).
          specialize (M2 0%nat ltac:(lia)). rewrite Ki in M2. specialize (Hx i Hi). lra. }
        destruct (Nat.eqb_spec m 0); [|lia].
        destruct (g_snth 0 ltac:(unfold n; lia)) as (i & Hi & Ei & Ki).
        rewrite (pyget_Z s 1 d) by (rewrite g_slen; unfold n; lia). cbn [bind].
        rewrite (pyget_Z s (1 - 1) d) by (rewrite g_slen; unfold n; lia). cbn [bind].
        replace (Z.to_nat (1 - 1)) with 0%nat by reflexivity. rewrite Ei. cbn [fst snd].
        rewrite (h_lt _ _ _ _ Hxr (g_h i Hi)).
        rewrite rltb_true by (specialize (Hx i Hi); auto). destruct (Nat.eqb m n); reflexivity.
    Qed.
    Lemma g_range x : out_of_range p n x \/ exists i j, (i < n)%nat /\ (j < n)%nat /\ p i <= x <= p j.
    Proof. apply (range_cases lr (map (fun _ => NaN) lr)); auto. apply map_length. Qed.

    (** what the column routine returns at level x *)
    Definition g_value (x : T) (xr : R) (y : T) : Prop :=
      (out_of_range p n xr /\ y = nnan) \/ exists i j, code_bracket p n i j xr /\ y = g_formula i j x.
    Lemma g_at x xr : h x = Fin xr -> exists y, interp_at s x = Ok y /\ g_value x xr y.
    Proof.
      intros Hx. destruct (g_range xr) as [H|(i & j & Hi & Hj & H)].
      - exists nnan. split; [eapply g_at_out; eauto|left; auto].
      - destruct (g_at_in x xr i j Hx Hi Hj H) as (a & b & Hc & E). eexists. split; [exact E|]. right. exists a, b. auto.
    Qed.

    Lemma g_keys (x : list T) xr : map h x = map Fin xr ->
      exists xs ys, map fst (isort (combine x x)) = xs /\ map h xs = map Fin ys /\ Permutation ys xr /\ sorted_le ys.
    Proof.
      intros Hx. destruct (keys_of_sorted xr) as (ys & E & P & Sy). exists (map fst (isort (combine x x))), ys. split; auto. split; [|auto].
      rewrite <- E. rewrite map_map.
      transitivity (map fst (isort (map hk (combine x x)))).
      - rewrite <- isort_hk, map_map. reflexivity.
      - (* keys of the sort do not depend on the payload *)
        assert (G : forall (A B : Type) (u : list (fl * A)) (w : list (fl * B)), map fst u = map fst w -> map fst (isort u) = map fst (isort w)).
        { clear. intros A B.
          assert (I : forall (pu : fl * A) (pw : fl * B) u w, fst pu = fst pw -> map fst u = map fst w -> map fst (insert pu u) = map fst (insert pw w)).
          { intros pu pw u. induction u as [|q u IH]; intros [|q' w] Hp Hm; cbn in Hm; try discriminate; cbn [insert map].
            - rewrite Hp. reflexivity.
            - injection Hm as H1 H2. rewrite H1, Hp. destruct (key_lt (fst q') (fst pw)); cbn [map]; f_equal; auto. f_equal; auto. }
          induction u as [|q u IH]; intros [|q' w] Hm; cbn in Hm; try discriminate; auto. injection Hm as H1 H2.
          cbn [isort fold_right]. apply I; auto. apply IH; auto. }
        apply G. rewrite map_map. cbn [hk fst].
        rewrite <- Hx. clear. induction x as [|a x IH]; cbn; auto. f_equal. exact IH.
    Qed.

    Lemma last_h (x : list T) xr t t0 : map h x = map Fin xr -> h t = Fin t0 -> h (last x t) = Fin (last xr t0).
    Proof. revert xr. induction x as [|a x IH]; intros [|b xr] H Ht; cbn in H; try discriminate; auto. injection H as H1 H2. destruct x, xr; cbn in H2; try discriminate; auto. apply (IH (r :: xr) H2 Ht). Qed.

    Lemma g_col (x : list T) xr : map h x = map Fin xr -> x <> [] -> one_direction xr ->
      exists r, interp_col x l var = Ok r /\ List.length r = List.length x /\
        forall j, (j < List.length x)%nat -> exists xj, h xj = Fin (nth j xr 0) /\ g_value xj (nth j xr 0) (nth j r nnan).
    Proof.
      intros Hx Hne Hd. assert (Lx : List.length x = List.length xr) by (apply (f_equal (@List.length fl)) in Hx; rewrite !map_length in Hx; exact Hx).
      destruct x as [|x0 xt]; [congruence|]. destruct xr as [|r0 rt]; [cbn in Lx; lia|].
      unfold interp_col. destruct (g_keys (x0 :: xt) (r0 :: rt) Hx) as (xs & ys & -> & Hxs & P & Sy). fold c. fold s.
      set (f := fun z => okval nnan (interp_at s z)).
      assert (Fz : forall k, (k < List.length ys)%nat -> interp_at s (nth k xs nnan) = Ok (f (nth k xs nnan)) /\ h (nth k xs nnan) = Fin (nth k ys 0) /\ g_value (nth k xs nnan) (nth k ys 0) (f (nth k xs nnan))).
      { intros k Hk. assert (Lxs : List.length xs = List.length ys) by (apply (f_equal (@List.length fl)) in Hxs; rewrite !map_length in Hxs; exact Hxs).
        assert (Hh : h (nth k xs nnan) = Fin (nth k ys 0)).
        { rewrite <- (map_nth h). rewrite (nth_indep _ (h nnan) (Fin 0)) by (rewrite map_length; lia). rewrite Hxs. apply map_nth. }
        destruct (g_at _ _ Hh) as (y & E & G). unfold f. rewrite E. cbn [okval]. auto. }
      assert (Lxs : List.length xs = List.length ys) by (apply (f_equal (@List.length fl)) in Hxs; rewrite !map_length in Hxs; exact Hxs).
      assert (Em : mapM (interp_at s) xs = Ok (map f xs)).
      { apply mapM_map_ok. intros z Hz. apply In_nth with (d := nnan) in Hz. destruct Hz as (k & Hk & <-). apply Fz. lia. }
      rewrite Em. cbn [bind].
      assert (Hlast : nlt (last (x0 :: xt) x0) x0 = rltb (last (r0 :: rt) r0) r0).
      { apply h_lt; [apply last_h; auto|]; cbn in Hx; injection Hx; auto. }
      rewrite Hlast. assert (El : last (r0 :: rt) r0 = last (r0 :: rt) 0) by (apply last_indep; discriminate). rewrite El.
      assert (Lys : List.length ys = List.length (r0 :: rt)) by (apply Permutation_length; auto).
      destruct (rltb_spec (last (r0 :: rt) 0) r0) as [Q|Q].
      - assert (Sv : rev ys = r0 :: rt).
        { apply (served_order_sorted (r0 :: rt)); auto. split; [etransitivity; [symmetry; apply Permutation_rev|auto]|]. right. cbn [nth]. split; [auto|rewrite rev_involutive; auto]. }
        eexists. split; [reflexivity|]. rewrite rev_length, map_length. split; [lia|]. intros j Hj.
        destruct (Fz (List.length ys - S j)%nat ltac:(lia)) as (_ & F2 & F3).
        assert (Ej : nth j (r0 :: rt) 0 = nth (List.length ys - S j) ys 0) by (rewrite <- Sv; rewrite rev_nth by lia; reflexivity).
        rewrite Ej. exists (nth (List.length ys - S j) xs nnan). split; [exact F2|].
        rewrite rev_nth by (rewrite map_length; lia). rewrite map_length, Lxs.
        rewrite (nth_indep (map f xs) nnan (f nnan)) by (rewrite map_length; lia). rewrite map_nth. exact F3.
      - assert (Sv : ys = r0 :: rt).
        { apply (served_order_sorted (r0 :: rt)); auto. split; auto. left. cbn [nth]. split; [lra|auto]. }
        eexists. split; [reflexivity|]. rewrite map_length. split; [lia|]. intros j Hj.
        destruct (Fz j ltac:(lia)) as (_ & F2 & F3). rewrite <- Sv. exists (nth j xs nnan). split; [exact F2|].
        rewrite (nth_indep (map f xs) nnan (f nnan)) by (rewrite map_length; lia). rewrite map_nth. exact F3.
    Qed.
  End Column.
End Gen.
