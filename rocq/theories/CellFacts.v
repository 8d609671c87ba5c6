(** Elementwise operations between arrays of the same shape. *)
From Coq Require Import List Bool Arith ZArith Lia String.
From Verif Require Import PyBase PyFacts Num Arr ArrFacts XrFacts ListFacts Hybrid HybridFacts Interp1dFacts Meteo.
Import ListNotations.

Lemma bdim_refl n : bdim n n = Some n.
Proof. unfold bdim. rewrite Nat.eqb_refl. reflexivity. Qed.
Lemma bshape_rev_refl s : bshape_rev s s = Some s.
Proof. induction s as [|n s IH]; cbn; auto. rewrite bdim_refl, IH. reflexivity. Qed.
Lemma bshape_refl s : bshape s s = Some s.
Proof. unfold bshape. rewrite bshape_rev_refl. cbn. rewrite rev_involutive. reflexivity. Qed.
Lemma bidx_refl s i : inb s i -> bidx s i = i.
Proof.
  intros H. unfold bidx. rewrite (inb_length _ _ H), Nat.sub_diag. cbn [skipn].
  induction H as [|a b i s Hab H IH]; cbn; auto. rewrite IH. f_equal. destruct (Nat.eqb_spec b 1); lia.
Qed.
Lemma np_map2_same {A B C} (f : A -> B -> C) (a : arr A) (b : arr B) : shp a = shp b ->
  exists r, np_map2 f a b = Ok r /\ shp r = shp a /\ forall i, inb (shp a) i -> get r i = f (get a i) (get b i).
Proof.
  intros H. unfold np_map2. rewrite <- H, bshape_refl. eexists. split; [reflexivity|]. cbn. split; auto.
  intros i Hi. rewrite !bidx_refl by auto. reflexivity.
Qed.

Section Xr.
  Context {T : Type} {N : Num T}.
  (** same dimensions, same sizes, no conflicting labels *)
  Definition same_frame (a b : da T) : Prop :=
    wf_da a /\ wf_da b /\ dims a = dims b /\ shp (dat a) = shp (dat b) /\ labels_agree a b = true.

  Lemma get_getn (a : da T) i : wf_da a -> inb (shp (dat a)) i -> get (dat a) i = getn a (env_of (dims a) i).
  Proof. intros [Hl Hn] Hi. unfold getn. rewrite map_env_of; auto. rewrite (inb_length _ _ Hi). auto. Qed.

  Lemma sizes_agree_same (a b : da T) : dims a = dims b -> shp (dat a) = shp (dat b) -> sizes_agree a b = true.
  Proof.
    intros Hd Hs. unfold sizes_agree. apply forallb_forall. intros d _. unfold dsize. rewrite Hd, Hs.
    destruct (sindex d (dims b)) as [j|]; auto. destruct (nth_error (shp (dat b)) j); auto. apply Nat.eqb_refl.
  Qed.

  Lemma xr_map2_same (f : T -> T -> T) (a b : da T) : same_frame a b ->
    exists r, xr_map2 f a b = Ok r /\ dims r = dims a /\ coords r = join_coords (coords a) (coords b) /\ shp (dat r) = shp (dat a) /\ attrs r = [] /\
      wf_da r /\ forall i, inb (shp (dat a)) i -> get (dat r) i = f (get (dat a) i) (get (dat b) i).
  Proof.
    intros (Wa & Wb & Hd & Hs & Hl).
    destruct (xr_map2_ok f a b Hl (sizes_agree_same a b Hd Hs)) as (r & E & Dr & Cr & Gr & Sr).
    exists r. split; auto. rewrite join_dims_sub in Dr, Sr by (rewrite Hd; auto).
    assert (S : shp (dat r) = shp (dat a)).
    { rewrite Sr. destruct Wa as [Wl Wn]. etransitivity; [|apply (map_dsize a); auto]. apply map_ext_in. intros d Hdd.
      destruct (dsize_In a d) as [n En]; [split; auto|auto|]. rewrite En. reflexivity. }
    assert (Wr : wf_da r) by (split; [rewrite Dr, S; apply Wa|rewrite Dr; apply Wa]).
    split; auto. split; auto. split; auto. split.
    { unfold xr_map2 in E. destruct (xr_align a b). destruct (sizes_agree _ _); [|discriminate]. injection E as <-. reflexivity. }
    split; auto.
    intros i Hi. rewrite (get_getn r), Gr by (rewrite ?S; auto). rewrite (get_getn a i), (get_getn b i) by (rewrite <- ?Hs; auto).
    rewrite Dr, Hd. reflexivity.
  Qed.
End Xr.

Lemma arr_mapM_ok {A B} (d : B) (f : A -> res B) (a : arr A) (g : list nat -> B) :
  (forall i, inb (shp a) i -> f (get a i) = Ok (g i)) ->
  exists r, arr_mapM d f a = Ok r /\ shp r = shp a /\ forall i, inb (shp a) i -> get r i = g i.
Proof.
  intros H. unfold arr_mapM.
  assert (E : mapM (fun i => f (get a i)) (all_idx (shp a)) = Ok (map g (all_idx (shp a)))).
  { apply mapM_map_ok. intros i Hi. apply H. apply all_idx_inb. auto. }
  rewrite E. cbn [bind]. eexists. split; [reflexivity|]. cbn [of_flat shp get]. split; auto.
  intros i Hi. rewrite (nth_map_in g _ _ []) by (rewrite all_idx_length; apply flat_bound; auto). rewrite nth_flat; auto.
Qed.

(** ** chains of operations *)
Lemma join_lookup {T} (a b : list (string * coordv T)) d :
  slookup d (join_coords a b) = match slookup d a with Some c => Some c | None => slookup d b end.
Proof.
  unfold join_coords. induction a as [|[k c] a IH]; cbn [slookup map fst app filter].
  - cbn. induction b as [|[k c] b IHb]; cbn; auto. rewrite IHb. reflexivity.
  - cbn [app slookup]. destruct (String.eqb_spec d k); auto. rewrite <- IH. clear IH.
    rewrite !slookup_app. destruct (slookup d a); auto.
    induction b as [|[k' c'] b IHb]; cbn [filter fst]; auto.
    cbn [smem existsb]. fold (smem k' (map fst a)). destruct (String.eqb_spec k' k) as [->|Hn]; cbn [orb negb].
    + destruct (smem k (map fst a)); cbn [negb slookup]; [exact IHb|]. destruct (String.eqb_spec d k); [contradiction|exact IHb].
    + destruct (smem k' (map fst a)); cbn [negb slookup]; [exact IHb|]. destruct (String.eqb d k'); [reflexivity|exact IHb].
Qed.
Section Chain.
  Context {T : Type} {N : Num T}.
  Lemma join_labels (a b r : da T) d : coords r = join_coords (coords a) (coords b) ->
    index_labels r d = index_labels a d \/ index_labels r d = index_labels b d.
  Proof. intros H. unfold index_labels. rewrite H, join_lookup. destruct (slookup d (coords a)); auto. Qed.
  Lemma labels_agree_spec (a b : da T) : dims a = dims b ->
    labels_agree a b = true <-> forall d la lb, In d (dims a) -> index_labels a d = Some la -> index_labels b d = Some lb -> labels_eqb la lb = true.
  Proof.
    intros Hd. unfold labels_agree. rewrite forallb_forall. split.
    - intros H d la lb Hi Ea Eb. assert (J : In d (filter (fun d => smem d (dims b)) (dims a))) by (apply filter_In; split; auto; apply smem_In; rewrite <- Hd; auto).
      specialize (H d J). rewrite Ea, Eb in H. auto.
    - intros H d Hi. apply filter_In in Hi. destruct (index_labels a d) eqn:Ea; auto. destruct (index_labels b d) eqn:Eb; auto. apply (H d); tauto.
  Qed.
  Lemma same_frame_join_l (a b c r : da T) : same_frame a c -> same_frame b c -> wf_da r -> dims r = dims a -> shp (dat r) = shp (dat a) ->
    coords r = join_coords (coords a) (coords b) -> same_frame r c.
  Proof.
    intros (Wa & Wc & Dac & Sac & Lac) (Wb & _ & Dbc & Sbc & Lbc) Wr Dr Sr Cr.
    split; [auto|]. split; [auto|]. split; [congruence|]. split; [congruence|].
    rewrite labels_agree_spec in * by congruence. intros d la lb Hi Ea Eb.
    destruct (join_labels a b r d Cr) as [E|E]; rewrite E in Ea; [apply (Lac d)|apply (Lbc d)]; auto; congruence.
  Qed.
  Lemma same_frame_join_r (a b c r : da T) : same_frame c a -> same_frame c b -> wf_da r -> dims r = dims a -> shp (dat r) = shp (dat a) ->
    coords r = join_coords (coords a) (coords b) -> same_frame c r.
  Proof.
    intros (Wc & Wa & Dac & Sac & Lac) (_ & Wb & Dbc & Sbc & Lbc) Wr Dr Sr Cr.
    split; [auto|]. split; [auto|]. split; [congruence|]. split; [congruence|].
    rewrite labels_agree_spec in * by congruence. intros d la lb Hi Ea Eb.
    destruct (join_labels a b r d Cr) as [E|E]; rewrite E in Eb; [apply (Lac d)|apply (Lbc d)]; auto; congruence.
  Qed.
  (** replacing the values keeps the frame *)
  Lemma same_frame_values (a b a' b' : da T) : same_frame a b -> dims a' = dims a -> dims b' = dims b -> shp (dat a') = shp (dat a) ->
    shp (dat b') = shp (dat b) -> coords a' = coords a -> coords b' = coords b -> same_frame a' b'.
  Proof.
    intros (Wa & Wb & D & S & L) Da Db Sa Sb Ca Cb. unfold same_frame, wf_da in *. rewrite Da, Db, Sa, Sb. intuition.
    unfold labels_agree, index_labels in *. rewrite Da, Db, Ca, Cb. auto.
  Qed.
End Chain.

(** two arguments that can be combined cell by cell: DataArrays on the same grid, or other
    containers of the same shape *)
Definition compat {T} {N : Num T} (a b : inp T) : Prop :=
  match a, b with
  | IDa x, IDa y => same_frame x y
  | IDa _, _ | _, IDa _ => False
  | _, _ => shp (as_arr a) = shp (as_arr b)
  end.
(** coordinates sized like the dimensions they lie on *)
Definition coords_fit {T} (d : da T) : Prop :=
  forall n c, In (n, c) (coords d) -> shp (cdat c) = map (fun x => match dsize d x with Some n => n | None => 0 end) (cdims c).
