(** Lemmas about labelled arrays: alignment, broadcasting by name, renaming, positional selection. *)
From Coq Require Import List Bool Arith ZArith Lia String.
From Verif Require Import PyBase Num Arr ArrFacts.
Import ListNotations.

Lemma smem_In d l : smem d l = true <-> In d l.
Proof.
  unfold smem. rewrite existsb_exists. split.
  - intros [x [H1 H2]]. apply String.eqb_eq in H2. subst; auto.
  - intros H. exists d. split; auto. apply String.eqb_refl.
Qed.
Lemma smem_false d l : smem d l = false <-> ~ In d l.
Proof. rewrite <- smem_In. destruct (smem d l); split; try congruence; tauto. Qed.

Lemma sindex_In d l : In d l -> exists j, sindex d l = Some j /\ j < List.length l /\ nth j l d = d.
Proof.
  induction l as [|x l IH]; intros H; [destruct H|]. cbn. destruct (String.eqb_spec d x) as [->|Hne].
  - exists 0. cbn. repeat split; auto. lia.
  - destruct H as [H|H]; [congruence|]. destruct (IH H) as (j & E & Hj & Hn). rewrite E. exists (S j).
    cbn. repeat split; auto. lia.
Qed.
Lemma sindex_None d l : ~ In d l -> sindex d l = None.
Proof.
  induction l as [|x l IH]; intros H; cbn; auto. destruct (String.eqb_spec d x) as [->|].
  - exfalso. apply H. cbn; auto.
  - rewrite IH; auto. intros C. apply H. cbn; auto.
Qed.
Lemma sindex_Some d l j : sindex d l = Some j -> nth_error l j = Some d.
Proof.
  revert j; induction l as [|x l IH]; intros j H; cbn in H; [discriminate|].
  destruct (String.eqb_spec d x) as [->|].
  - injection H as <-. reflexivity.
  - destruct (sindex d l) as [k|]; [|discriminate]. injection H as <-. cbn. apply IH; auto.
Qed.

Lemma env_of_In ds (e : env) d : In d ds -> env_of ds (map e ds) d = e d.
Proof.
  intros H. unfold env_of. destruct (sindex_In _ _ H) as (j & E & Hj & Hn). rewrite E.
  rewrite (nth_indep _ 0 (e d)) by (rewrite map_length; auto). rewrite map_nth. congruence.
Qed.

Lemma getn_ext {T} (a : da T) e1 e2 : (forall d, In d (dims a) -> e1 d = e2 d) -> getn a e1 = getn a e2.
Proof. intros H. unfold getn. f_equal. apply map_ext_in. auto. Qed.

Lemma getn_env_of {T} (a : da T) ds (e : env) :
  (forall d, In d (dims a) -> In d ds) -> getn a (env_of ds (map e ds)) = getn a e.
Proof. intros H. apply getn_ext. intros d Hd. apply env_of_In. auto. Qed.

Lemma join_dims_In d1 d2 d : In d (join_dims d1 d2) <-> In d d1 \/ In d d2.
Proof.
  unfold join_dims. rewrite in_app_iff, filter_In, negb_true_iff. split.
  - tauto.
  - intros [H|H]; auto. destruct (smem d d1) eqn:E; auto. apply smem_In in E. auto.
Qed.
Lemma join_dims_new d1 d2 : (forall d, In d d2 -> ~ In d d1) -> join_dims d1 d2 = d1 ++ d2.
Proof.
  intros H. unfold join_dims. f_equal. induction d2 as [|x d2 IH]; cbn; auto.
  rewrite (proj2 (smem_false x d1)) by (apply H; cbn; auto). cbn. f_equal. apply IH.
  intros d Hd. apply H. cbn; auto.
Qed.
Lemma join_dims_sub d1 d2 : (forall d, In d d2 -> In d d1) -> join_dims d1 d2 = d1.
Proof.
  intros H. unfold join_dims. rewrite <- (app_nil_r d1) at 2. f_equal.
  induction d2 as [|x d2 IH]; cbn; auto.
  rewrite (proj2 (smem_In x d1)) by (apply H; cbn; auto). cbn. apply IH. intros d Hd. apply H. cbn; auto.
Qed.

Section Facts.
  Context {T : Type} {N : Num T}.

  Lemma xr_align_id (a b : da T) : labels_agree a b = true -> xr_align a b = (a, b).
  Proof.
    unfold labels_agree, xr_align. generalize (filter (fun d => smem d (dims b)) (dims a)) as l.
    induction l as [|d l IH]; cbn [forallb fold_left]; auto.
    intros H. apply andb_true_iff in H. destruct H as [H1 H2].
    assert (E : align1 d (a, b) = (a, b)).
    { unfold align1. cbn [fst snd].
      destruct (index_labels a d) as [la|]; auto. destruct (index_labels b d) as [lb|]; auto.
      rewrite H1. reflexivity. }
    rewrite E. auto.
  Qed.

  (** [wf a]: one size per dimension name *)
  Definition wf_da (a : da T) : Prop := List.length (dims a) = List.length (shp (dat a)) /\ NoDup (dims a).

  Lemma dsize_In (a : da T) d : wf_da a -> In d (dims a) -> exists n, dsize a d = Some n.
  Proof.
    intros [Hl _] H. unfold dsize. destruct (sindex_In _ _ H) as (j & E & Hj & _). rewrite E.
    destruct (nth_error (shp (dat a)) j) eqn:En; eauto. apply nth_error_None in En. lia.
  Qed.
  Lemma dsize_notIn (a : da T) d : ~ In d (dims a) -> dsize a d = None.
  Proof. intros H. unfold dsize. rewrite sindex_None; auto. Qed.

  Lemma xr_map2_aligned (f : T -> T -> T) (a0 b0 a b : da T) :
    xr_align a0 b0 = (a, b) -> sizes_agree a b = true ->
    exists r, xr_map2 f a0 b0 = Ok r /\ dims r = join_dims (dims a) (dims b) /\
      coords r = join_coords (coords a) (coords b) /\
      (forall e, getn r e = f (getn a e) (getn b e)) /\
      shp (dat r) = map (fun d => match dsize a d with
                                 | Some n => n
                                 | None => match dsize b d with Some n => n | None => 0 end end)
                        (join_dims (dims a) (dims b)).
  Proof.
    intros Hl Hs. unfold xr_map2. rewrite Hl. rewrite Hs.
    eexists. split; [reflexivity|]. cbn [dims coords dat shp]. repeat split.
    intros e. unfold getn at 1. cbn [dims dat get].
    rewrite !getn_env_of; auto; intros d Hd; apply join_dims_In; auto.
  Qed.

  Lemma xr_map2_ok (f : T -> T -> T) (a b : da T) :
    labels_agree a b = true -> sizes_agree a b = true ->
    exists r, xr_map2 f a b = Ok r /\ dims r = join_dims (dims a) (dims b) /\
      coords r = join_coords (coords a) (coords b) /\
      (forall e, getn r e = f (getn a e) (getn b e)) /\
      shp (dat r) = map (fun d => match dsize a d with
                                 | Some n => n
                                 | None => match dsize b d with Some n => n | None => 0 end end)
                        (join_dims (dims a) (dims b)).
  Proof.
    intros Hl Hs. apply xr_map2_aligned; auto. apply xr_align_id; auto.
  Qed.

  Lemma sizes_agree_disjoint (a b : da T) : (forall d, In d (dims a) -> ~ In d (dims b)) -> sizes_agree a b = true.
  Proof.
    intros H. unfold sizes_agree. apply forallb_forall. intros d Hd.
    rewrite (dsize_notIn b d) by auto. destruct (dsize a d); auto.
  Qed.
  Lemma labels_agree_disjoint (a b : da T) : (forall d, In d (dims a) -> ~ In d (dims b)) -> labels_agree a b = true.
  Proof.
    intros H. unfold labels_agree. apply forallb_forall. intros d Hd. apply filter_In in Hd.
    destruct Hd as [H1 H2]. apply smem_In in H2. exfalso. eapply H; eauto.
  Qed.
End Facts.
