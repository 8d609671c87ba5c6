From Coq Require Import Reals List Bool Arith ZArith Lra Lia String.
From Verif Require Import PyBase Num NumFacts Arr ArrFacts PyFacts XrFacts CellFacts ChunkFacts ListFacts Spec SpecPsi Hybrid HybridFacts
  DeltaP DeltaPFacts DeltaPApi Interp1d Interp1dFacts InterpHyb InterpExtrap InterpHybFacts StrFn GcUtil SpecVar GcUtilFacts Psi.
Import ListNotations.
Local Open Scope R_scope.

Lemma at_pos_same e d k : at_pos e d k d = k.
Proof. unfold at_pos. rewrite String.eqb_refl. auto. Qed.
Lemma at_pos_other e d k d' : d' <> d -> at_pos e d k d' = e d'.
Proof. unfold at_pos. destruct (String.eqb_spec d' d); congruence. Qed.
Lemma at_pos_at_pos e d k k' d' : at_pos (at_pos e d k) d k' d' = at_pos e d k' d'.
Proof. unfold at_pos. destruct (String.eqb_spec d' d); auto. Qed.

Lemma upd_map_env ds j d (e : env) k : NoDup ds -> sindex d ds = Some j -> upd (map e ds) j k = map (at_pos e d k) ds.
Proof.
  revert j. induction ds as [|x ds IH]; intros j Hn H; [discriminate|]. inversion Hn as [|? ? Hni Hn']; subst. simpl in H.
  destruct (String.eqb_spec d x) as [<-|Hne].
  - injection H as <-. change (upd (map e (d :: ds)) 0 k) with (k :: map e ds). cbn [map]. rewrite at_pos_same. f_equal. apply map_ext_in. intros y Hy. rewrite at_pos_other; auto. congruence.
  - destruct (sindex d ds) as [j'|] eqn:E; [|discriminate]. simpl in H. injection H as <-.
    cbn [map]. rewrite at_pos_other by auto. rewrite <- (IH j') by auto. reflexivity.
Qed.

Section Gen.
  Context {T : Type} {N : Num T}.
  Lemma cumsum_ok (a : da T) d : wf_da a -> In d (dims a) ->
    exists r, xr_cumsum d a = Ok r /\ dims r = dims a /\ coords r = coords a /\ shp (dat r) = shp (dat a) /\
      forall e, getn r e = nansum (map (fun k => getn a (at_pos e d k)) (seq 0 (S (e d)))).
  Proof.
    intros [Hl Hn] Hi. destruct (sindex_In _ _ Hi) as (j & E & Hj & Hx). unfold xr_cumsum. rewrite E. cbn [oget bind].
    eexists. split; [reflexivity|]. cbn [dims coords dat shp]. split; [auto|]. split; [auto|]. split; [auto|].
    intros e. unfold getn at 1. cbn [dims dat get].
    rewrite (nth_indep _ 0%nat (e d)) by (rewrite map_length; auto). rewrite map_nth.
    rewrite Hx. f_equal. apply map_ext. intros k. unfold getn.
    rewrite (upd_map_env _ _ d) by auto. reflexivity.
  Qed.
  Lemma flip_ok (a : da T) d n : wf_da a -> In d (dims a) -> dsize a d = Some n ->
    exists r, xr_flip d a = Ok r /\ dims r = dims a /\ shp (dat r) = shp (dat a) /\
      coords r = map (fun p => (fst p, xr_take_coord d (rev (seq 0 n)) (snd p))) (coords a) /\
      forall e, (e d < n)%nat -> getn r e = getn a (at_pos e d (n - 1 - e d)%nat).
  Proof.
    intros [Hl Hn] Hi Hd. destruct (sindex_In _ _ Hi) as (j & E & Hj & Hx). unfold xr_flip. rewrite Hd. cbn [oget bind].
    unfold dsize in Hd. rewrite E in Hd.
    unfold xr_take. rewrite E. eexists. split; [reflexivity|]. cbn [dims coords dat shp take_axis]. split; [auto|].
    split; [|split; [auto|]].
    - rewrite rev_length, seq_length. apply nth_error_nth with (d := 0%nat) in Hd. rewrite <- Hd. apply upd_same.
    - intros e He. unfold getn at 1. cbn [dims dat get take_axis].
      rewrite (nth_indep (map e (dims a)) 0%nat (e d)) by (rewrite map_length; auto). rewrite map_nth.
      rewrite Hx. unfold getn. rewrite (upd_map_env _ _ d) by auto. f_equal. apply map_ext. intros y. unfold at_pos.
      destruct (String.eqb y d); auto. rewrite rev_nth by (rewrite seq_length; lia). rewrite seq_length, seq_nth by lia. lia.
  Qed.
End Gen.

Lemma nansum_winds (l : list fl) : (forall x, In x l -> x = NaN \/ exists r, x = Fin r) ->
  nansum l = Fin (rsum (map wind_or_zero l)).
Proof.
  intros H. unfold nansum. rewrite (map_ext_in _ (fun x => Fin (wind_or_zero x))).
  - rewrite <- (map_map wind_or_zero Fin). apply nsum_fin.
  - intros x Hx. destruct (H x Hx) as [->|(r & ->)]; reflexivity.
Qed.
Lemma sum_to_rsum k f : rsum (map f (seq 0 (S k))) = sum_to k f.
Proof.
  induction k as [|k IH]; [simpl; lra|]. rewrite seq_S, map_app, rsum_app, IH. simpl. lra.
Qed.
Lemma sum_to_ext k f g : (forall i, (i <= k)%nat -> f i = g i) -> sum_to k f = sum_to k g.
Proof. induction k as [|k IH]; simpl; intros H; [auto|]. rewrite IH, H; auto. Qed.

Lemma labels_eqb_fin l : labels_eqb (map Fin l) (map Fin l) = true.
Proof. induction l as [|x l IH]; simpl; auto. cbn. rewrite reqb_true by auto. exact IH. Qed.

Lemma layer_air top ps l k (v : fl) : increasing l -> (2 <= List.length l)%nat -> top <= at_ l 0 -> interface top l 1 < ps ->
  (k < List.length l)%nat -> v = NaN \/ (exists r, v = Fin r) ->
  (fl_mul v (layer_val top ps l k) = NaN \/ exists r, fl_mul v (layer_val top ps l k) = Fin r) /\
  wind_or_zero (fl_mul v (layer_val top ps l k)) = wind_or_zero v * air top ps l k.
Proof.
  intros Hinc Hn Ht Hps Hk Hv. unfold layer_val.
  destruct ((1 <=? k)%nat && rleb ps (interface top l k)) eqn:E.
  - apply andb_true_iff in E. destruct E as [E1 E2]. apply Nat.leb_le in E1. apply rleb_iff in E2.
    assert (air top ps l k = 0) as ->.
    { unfold air. apply Rmax_left. unfold lower_interface.
      destruct (Nat.ltb_spec (S k) (List.length l)).
      - pose proof (Rmin_r (interface top l (S k)) ps). lra.
      - lra. }
    destruct Hv as [->|(r & ->)]; simpl; split; auto; lra.
  - assert (0 < lower_interface top ps l k - interface top l k).
    { destruct (layer_val_pos top ps l k) as (r & Hr & Hp & Hq); auto; try lra.
      unfold underground. intros [H1 H2]. apply Nat.leb_le in H1. rewrite H1 in E. simpl in E. rewrite rleb_true in E by auto. discriminate. }
    unfold air. rewrite Rmax_right by lra. destruct Hv as [->|(r & ->)]; simpl; split; eauto; lra.
Qed.
