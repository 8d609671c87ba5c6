(** EOF wrappers: axis order, labels, coordinates, attributes. *)
From Coq Require Import List Bool Arith ZArith Lia String DecimalString Decimal DecimalNat.
From Verif Require Import PyBase PyFacts Num Arr ArrFacts XrFacts ListFacts Hybrid HybridFacts InterpExtrap Pearson PearsonApi Eof.
Import ListNotations.
Local Open Scope string_scope.
Local Open Scope list_scope.

(** ** names *)
Lemma dimname_inj i j : dimname i = dimname j -> i = j.
Proof.
  unfold dimname. intros H. assert (E : NilEmpty.string_of_uint (Nat.to_uint i) = NilEmpty.string_of_uint (Nat.to_uint j)).
  { revert H. generalize (NilEmpty.string_of_uint (Nat.to_uint i)), (NilEmpty.string_of_uint (Nat.to_uint j)). intros a b H. cbn in H. inversion H. reflexivity. }
  apply (f_equal NilEmpty.uint_of_string) in E. rewrite !NilEmpty.usu in E. inversion E as [E1].
  apply (f_equal Nat.of_uint) in E1. rewrite !Unsigned.of_to in E1. exact E1.
Qed.
Lemma dimname_time i : dimname i <> "time". Proof. unfold dimname. cbn. discriminate. Qed.
Lemma dimname_pc i : dimname i <> "pc". Proof. unfold dimname. cbn. discriminate. Qed.
Lemma dimname_eof i : dimname i <> "eof". Proof. unfold dimname. cbn. discriminate. Qed.

(** ** moving one axis to the front *)
Lemma filter_all {A} (p : A -> bool) l : (forall x, In x l -> p x = true) -> filter p l = l.
Proof. induction l as [|x l IH]; intros H; cbn; auto. rewrite H by (left; auto). f_equal. apply IH. intros; apply H; right; auto. Qed.
Lemma others n k : (k < n)%nat -> filter (fun i => negb (Nat.eqb i k)) (seq 0 n) = seq 0 k ++ seq (S k) (n - S k).
Proof.
  intros H. replace n with (k + (1 + (n - S k)))%nat at 1 by lia. rewrite seq_app, filter_app. cbn [seq plus]. cbn [filter]. rewrite Nat.eqb_refl. cbn [negb].
  rewrite !filter_all; auto; intros x Hx; apply in_seq in Hx; apply negb_true_iff, Nat.eqb_neq; lia.
Qed.
Lemma index_of_seq x a n : (a <= x < a + n)%nat -> index_of x (seq a n) = Some (x - a)%nat.
Proof.
  revert a; induction n as [|n IH]; intros a H; [lia|]. cbn [seq index_of]. destruct (Nat.eqb_spec x a) as [->|E]; [f_equal; lia|].
  rewrite IH by lia. cbn [option_map]. f_equal. lia.
Qed.
Lemma index_of_notin x l : ~ In x l -> index_of x l = None.
Proof. induction l as [|y l IH]; intros H; cbn; auto. destruct (Nat.eqb_spec x y) as [->|]; [exfalso; apply H; left; auto|]. rewrite IH; auto. intros Q; apply H; right; auto. Qed.
Lemma index_of_app x l m : index_of x (l ++ m) = match index_of x l with Some j => Some j | None => option_map (fun j => List.length l + j)%nat (index_of x m) end.
Proof. induction l as [|y l IH]; cbn; [destruct (index_of x m); auto|]. destruct (Nat.eqb x y); auto. rewrite IH. destruct (index_of x l); cbn; auto. destruct (index_of x m); auto. Qed.
Lemma map_nth_firstn {A} (d : A) l k : (k <= List.length l)%nat -> map (fun i => nth i l d) (seq 0 k) = firstn k l.
Proof. revert l; induction k as [|k IH]; intros l H; auto. destruct l as [|x l]; [cbn in H; lia|]. cbn [seq map firstn nth]. f_equal. rewrite <- seq_shift, map_map. apply IH. cbn in H. lia. Qed.
Lemma map_nth_skipn {A} (d : A) l k m : (k + m = List.length l)%nat -> map (fun i => nth i l d) (seq k m) = skipn k l.
Proof.
  revert l m; induction k as [|k IH]; intros l m H.
  - cbn [skipn]. replace m with (List.length l) by lia. rewrite map_nth_firstn by lia. apply firstn_all.
  - destruct l as [|x l]; [cbn in H; lia|]. cbn [skipn]. rewrite <- seq_shift, map_map. cbn [nth]. apply IH. cbn in H. lia.
Qed.
Lemma del_others {A} (d : A) s k : (k < List.length s)%nat -> map (fun i => nth i s d) (filter (fun i => negb (Nat.eqb i k)) (seq 0 (List.length s))) = del k s.
Proof. intros H. rewrite others by auto. rewrite map_app, map_nth_firstn by lia. rewrite map_nth_skipn by lia. reflexivity. Qed.
Lemma del_length {A} (s : list A) k : (k < List.length s)%nat -> List.length (del k s) = (List.length s - 1)%nat.
Proof. intros H. unfold del. rewrite app_length, firstn_length, skipn_length. lia. Qed.
Lemma front_index n k t (i : list nat) : (k < n)%nat -> List.length i = (n - 1)%nat ->
  map (fun ax => match index_of ax (k :: filter (fun j => negb (Nat.eqb j k)) (seq 0 n)) with Some j => nth j (t :: i) 0 | None => 0 end)%nat (seq 0 n) = ins k t i.
Proof.
  intros Hk Hi. rewrite others by auto. unfold ins.
  assert (Es : seq 0 n = seq 0 k ++ k :: seq (S k) (n - S k)).
  { replace n with (k + (1 + (n - S k)))%nat at 1 by lia. rewrite seq_app. reflexivity. }
  rewrite Es, map_app. cbn [map]. f_equal; [|f_equal].
  - rewrite <- (map_nth_firstn 0%nat i k) by lia. apply map_ext_in. intros x Hx. apply in_seq in Hx. cbn [index_of].
    rewrite (proj2 (Nat.eqb_neq x k)) by lia. rewrite index_of_app, index_of_seq by lia. cbn [option_map nth]. f_equal. lia.
  - cbn [index_of]. rewrite Nat.eqb_refl. reflexivity.
  - rewrite <- (map_nth_skipn 0%nat i k (n - S k)) by lia. rewrite <- seq_shift, map_map. apply map_ext_in. intros x Hx. apply in_seq in Hx. cbn [index_of].
    rewrite (proj2 (Nat.eqb_neq (S x) k)) by lia. rewrite index_of_app, index_of_notin by (intros Q; apply in_seq in Q; lia).
    rewrite seq_shift, index_of_seq by lia. cbn [option_map nth]. rewrite seq_length. f_equal. lia.
Qed.

Section Api.
  Context {T : Type} {N : Num T}.
  Variables (Sv W : Type) (mk : da T -> option W -> bool -> Z -> res Sv)
    (s_eofs s_pcs : Sv -> Z -> Z -> res (arr T))
    (s_eig : Sv -> Z -> arr T) (s_north : Sv -> Z -> bool -> arr T) (s_total : Sv -> arr T) (s_frac : Sv -> Z -> arr T).
  Notation gen := (generate Sv W mk).
  Notation eofs := (eofunc_eofs Sv W mk s_eofs s_eig s_north s_total s_frac).
  Notation pcs := (eofunc_pcs Sv W mk s_pcs).
  Notation old_eofs := (eofunc Sv W mk s_eofs s_eig s_north s_total s_frac).
  Notation old_pcs := (eofunc_ts Sv W mk s_pcs).

  (** the labelled array built from an array with time on axis k *)
  Definition prepared (a : arr T) (k : nat) (d : da T) : Prop :=
    dims d = "time" :: map dimname (seq 1 (ndim a - 1)) /\ coords d = [] /\ attrs d = [] /\
    shp (dat d) = nth k (shp a) 0%nat :: del k (shp a) /\
    forall t i, (t < nth k (shp a) 0)%nat -> inb (del k (shp a)) i -> get (dat d) (t :: i) = get a (ins k t i).

  Lemma generate_array a k : (k < ndim a)%nat -> exists d, prepared a k d /\
    forall w c dd, gen (ENd a) (Z.of_nat k) w c dd = (do s <- mk d w c dd ;; Ok (d, s)).
  Proof.
    intros Hk. unfold ndim in Hk. eexists. split.
    2:{ intros w c dd. unfold generate, front_axes. unfold ndim at 1 2.
        replace ((Z.of_nat (List.length (shp a)) <=? Z.of_nat k) || (Z.of_nat k <? - Z.of_nat (List.length (shp a))))%Z with false.
        2:{ symmetry. apply orb_false_iff. split; [apply Z.leb_gt; lia|apply Z.ltb_ge; lia]. }
        cbn [bind]. unfold ndim at 1.
        replace ((0 <=? Z.of_nat k) && (Z.of_nat k <? Z.of_nat (List.length (shp a))))%Z with true.
        2:{ symmetry. apply andb_true_iff. split; [apply Z.leb_le; lia|apply Z.ltb_lt; lia]. }
        cbn [bind]. reflexivity. }
    rewrite Nat2Z.id. unfold prepared. cbn [dims coords attrs dat]. unfold ndim.
    assert (L : List.length (filter (fun i => negb (Nat.eqb i k)) (seq 0 (List.length (shp a)))) = (List.length (shp a) - 1)%nat).
    { rewrite <- (map_length (fun i => nth i (shp a) 0%nat)), del_others by auto. apply del_length; auto. }
    split.
    { unfold transpose. cbn [shp map List.length]. rewrite map_length, L. do 3 f_equal. lia. }
    split; [reflexivity|]. split; [reflexivity|]. split.
    { unfold transpose. cbn [shp map]. f_equal. apply del_others; auto. }
    intros t i Ht Hi. cbn [transpose get]. unfold ndim. rewrite front_index; auto. rewrite (inb_length _ _ Hi). apply del_length; auto.
  Qed.
  Lemma generate_out_of_range a k w c dd : (k < 0 \/ Z.of_nat (ndim a) <= k)%Z -> gen (ENd a) k w c dd = Err ValueError.
  Proof.
    intros H. unfold generate, front_axes. destruct ((_ <=? _) || _)%Z; cbn [bind]; auto.
    replace ((0 <=? k) && (k <? Z.of_nat (ndim a)))%Z with false; [reflexivity|]. symmetry. apply andb_false_iff. destruct H; [left; apply Z.leb_gt; lia|right; apply Z.ltb_ge; lia].
  Qed.

  (** *** C56, C57 *)
  Lemma eofs_out_of_range a neofs k sc w c dd vf meta : (k < 0 \/ Z.of_nat (ndim a) <= k)%Z -> fst (eofs (ENd a) neofs k sc w c dd vf meta) = Err ValueError.
  Proof. intros H. unfold eofunc_eofs. rewrite generate_out_of_range by auto. reflexivity. Qed.
  Lemma pcs_out_of_range a npcs k sc w c dd meta : (k < 0 \/ Z.of_nat (ndim a) <= k)%Z -> pcs (ENd a) npcs k sc w c dd meta = Err ValueError.
  Proof. intros H. unfold eofunc_pcs. rewrite generate_out_of_range by auto. reflexivity. Qed.
  Lemma eofs_count data neofs k sc w c dd vf meta p : gen data k w c dd = Ok p -> (neofs <= 0)%Z -> fst (eofs data neofs k sc w c dd vf meta) = Err ValueError.
  Proof. intros H Hn. unfold eofunc_eofs. rewrite H. destruct p. rewrite (proj2 (Z.leb_le _ _) Hn). reflexivity. Qed.
  Lemma pcs_count data npcs k sc w c dd meta p : gen data k w c dd = Ok p -> (npcs <= 0)%Z -> pcs data npcs k sc w c dd meta = Err ValueError.
  Proof. intros H Hn. unfold eofunc_pcs. rewrite H. destruct p. cbn [bind]. rewrite (proj2 (Z.leb_le _ _) Hn). reflexivity. Qed.

  Lemma keep_filter k n : filter (fun i => negb (Z.of_nat i =? Z.of_nat k)%Z) (seq 0 n) = filter (fun i => negb (Nat.eqb i k)) (seq 0 n).
  Proof. apply filter_ext. intros i. f_equal. destruct (Z.eqb_spec (Z.of_nat i) (Z.of_nat k)), (Nat.eqb_spec i k); auto; lia. Qed.

  (** the EOFs of an array, without metadata: axis i keeps the name dim_i *)
  Lemma eofs_array a k neofs sc w c dd vf d s e m : (k < ndim a)%nat -> prepared a k d -> gen (ENd a) (Z.of_nat k) w c dd = Ok (d, s) ->
    (0 < neofs)%Z -> s_eofs s neofs sc = Ok e -> shp e = m :: tl (shp (dat d)) ->
    exists out, fst (eofs (ENd a) neofs (Z.of_nat k) sc w c dd vf false) = Ok out /\
      odat out = e /\ odims out = "eof" :: map dimname (del k (seq 0 (ndim a))) /\ shp e = m :: del k (shp a) /\
      map fst (oattrs out) = ["eigenvalues"; "northTest"; "totalAnomalyVariance"; "varianceFraction"].
  Proof.
    intros Hk (P1 & P2 & P3 & P4 & P5) G Hn E Se. rewrite P4 in Se. cbn [tl] in Se. unfold eofunc_eofs. rewrite G.
    rewrite (proj2 (Z.leb_gt _ _)) by lia. rewrite E. cbn [fst]. unfold mk_dataarray.
    assert (Nd : ndim (dat d) = ndim a) by (unfold ndim in *; rewrite P4; cbn [List.length]; rewrite del_length; lia).
    rewrite Nd, keep_filter.
    assert (Q : filter (fun i => negb (Nat.eqb i k)) (seq 0 (ndim a)) = del k (seq 0 (ndim a))).
    { rewrite <- (del_others 0%nat (seq 0 (ndim a)) k) by (rewrite seq_length; auto). rewrite seq_length. rewrite <- (map_id (filter _ _)) at 1. apply map_ext_in.
      intros i Hi. apply filter_In in Hi. destruct Hi as [Hi _]. apply in_seq in Hi. rewrite seq_nth by lia. reflexivity. }
    rewrite Q.
    assert (L : List.length ("eof" :: map dimname (del k (seq 0 (ndim a)))) = ndim e).
    { cbn [List.length]. rewrite map_length, del_length by (rewrite seq_length; auto). rewrite seq_length. unfold ndim in *. rewrite Se. cbn [List.length]. rewrite del_length; auto. }
    rewrite L, Nat.eqb_refl. cbn [negb bind forallb]. eexists. split; [reflexivity|]. cbn [odat odims oattrs]. repeat split; auto.
  Qed.
  (** the principal components of an array: rows are components, columns times *)
  Lemma pcs_array a k npcs sc w c dd d s p m nt : (k < ndim a)%nat -> prepared a k d -> gen (ENd a) (Z.of_nat k) w c dd = Ok (d, s) ->
    mk d w c dd = Ok s -> (0 < npcs)%Z -> s_pcs s npcs sc = Ok p -> shp p = [nt; m] ->
    exists out, pcs (ENd a) npcs (Z.of_nat k) sc w c dd false = Ok out /\ odims out = ["pc"; "time"] /\ ocoords out = [] /\ oattrs out = [] /\
      shp (odat out) = [m; nt] /\ forall t j, get (odat out) [j; t] = get p [t; j].
  Proof.
    intros Hk Pr G Mk Hn E Sp. unfold eofunc_pcs. rewrite G. cbn [bind]. rewrite (proj2 (Z.leb_gt _ _)) by lia. rewrite Mk. cbn [bind]. rewrite E. cbn [bind].
    unfold mk_dataarray, ndim. rewrite Sp. cbn [List.length seq rev app].
    cbn [transpose shp map nth]. rewrite Sp. cbn. eexists. split; [reflexivity|]. cbn [odims ocoords oattrs odat]. repeat split; auto.
    - unfold transpose. cbn [shp map]. rewrite Sp. reflexivity.
    - intros t j. cbn [transpose get]. unfold ndim. rewrite Sp. reflexivity.
  Qed.

  (** *** principal components with metadata *)
  Lemma sindex_in_none (x : string) l : ~ In x l -> sindex x l = None.
  Proof. apply sindex_None. Qed.
  Lemma pcs_array_meta_fails a k npcs sc w c dd : (0 < k < ndim a)%nat -> (forall out, pcs (ENd a) npcs (Z.of_nat k) sc w c dd true <> Ok out).
  Proof.
    intros Hk out. destruct (generate_array a k ltac:(lia)) as (d & (P1 & P2 & P3 & P4 & P5) & G). unfold eofunc_pcs. rewrite G.
    destruct (mk d w c dd) as [s|] eqn:Mk; cbn [bind]; [|discriminate]. destruct (npcs <=? 0)%Z; cbn [bind]; [discriminate|]. rewrite Mk. cbn [bind].
    destruct (s_pcs s npcs sc) as [p|]; cbn [bind]; [|discriminate].
    assert (L : List.length (dims d) = ndim a) by (rewrite P1; cbn [List.length]; rewrite map_length, seq_length; lia).
    unfold pyget, pyidx. rewrite L. replace (Z.of_nat k <? 0)%Z with false by (symmetry; apply Z.ltb_ge; lia).
    replace ((0 <=? Z.of_nat k) && (Z.of_nat k <? Z.of_nat (ndim a)))%Z with true by (symmetry; apply andb_true_iff; split; [apply Z.leb_le|apply Z.ltb_lt]; lia).
    rewrite Nat2Z.id.
    assert (E : nth_error (dims d) k = Some (dimname k)).
    { rewrite P1. destruct k as [|j]; [lia|]. cbn [nth_error]. rewrite (map_nth_error dimname j (seq 1 (ndim a - 1)) (d := S j)); auto.
      rewrite (nth_error_nth' _ 0%nat) by (rewrite seq_length; lia). rewrite seq_nth by lia. reflexivity. }
    rewrite E. cbn [oget bind].
    unfold get_coord. rewrite P2. cbn [slookup]. unfold dsize. destruct (sindex (dimname k) (dims d)) as [j|]; [|discriminate].
    destruct (nth_error (shp (dat d)) j) as [n|]; cbn [bind]; [|discriminate].
    unfold mk_dataarray. destruct (negb _); cbn [bind]; [discriminate|]. cbn [forallb snd]. unfold coord_fits at 1. cbn [cdims cdat shp combine forallb fst snd].
    rewrite sindex_in_none; [cbn; discriminate|]. intros [Q|[Q|[]]]; [apply (dimname_pc k); auto|apply (dimname_time k); auto].
  Qed.
  Lemma old_pcs_meta_fails data evec0 : (2 <= ndim (asarr data))%nat -> (forall out, old_pcs data evec0 None true <> Ok out).
  Proof.
    intros H out. unfold eofunc_ts. replace (Z.of_nat (ndim (asarr data)) - 1)%Z with (Z.of_nat (ndim (asarr data) - 1)) by lia.
    apply pcs_array_meta_fails. lia.
  Qed.
  Lemma pcs_array_meta_ok a npcs sc w c dd d s p m nt : (0 < ndim a)%nat -> prepared a 0 d -> gen (ENd a) 0%Z w c dd = Ok (d, s) ->
    mk d w c dd = Ok s -> (0 < npcs)%Z -> s_pcs s npcs sc = Ok p -> shp p = [nt; m] -> nt = nth 0 (shp a) 0%nat ->
    exists out, pcs (ENd a) npcs 0%Z sc w c dd true = Ok out /\ odims out = ["pc"; "time"] /\ exists cv, ocoords out = [("time", cv)] /\ shp (cdat cv) = [nt] /\ forall t, get (cdat cv) [t] = ofZ (Z.of_nat t).
  Proof.
    intros Hk (P1 & P2 & P3 & P4 & P5) G Mk Hn E Sp Ent. unfold eofunc_pcs. rewrite G. cbn [bind]. rewrite (proj2 (Z.leb_gt _ _)) by lia. rewrite Mk. cbn [bind]. rewrite E. cbn [bind].
    unfold pyget, pyidx. rewrite P1. cbn [List.length Z.ltb Z.compare]. rewrite map_length, seq_length.
    replace ((0 <=? 0) && (0 <? Z.of_nat (S (ndim a - 1))))%Z with true by (symmetry; apply andb_true_iff; split; [reflexivity|apply Z.ltb_lt; lia]).
    change (Z.to_nat 0) with 0%nat. cbn [nth_error oget bind]. unfold get_coord. rewrite P2. cbn [slookup]. unfold dsize. rewrite P1. cbn [sindex String.eqb Ascii.eqb Bool.eqb]. rewrite P4. cbn [nth_error bind].
    unfold mk_dataarray, ndim. rewrite Sp. cbn [List.length seq rev app transpose shp map nth]. rewrite Sp. cbn [nth].
    cbn [Nat.eqb negb bind forallb snd coord_fits]. unfold coord_fits. cbn. rewrite <- Ent. rewrite Nat.eqb_refl. cbn.
    eexists. split; [reflexivity|]. split; [reflexivity|]. eexists. split; [reflexivity|]. split; [reflexivity|]. intros t. reflexivity.
  Qed.

  (** *** EOFs with metadata *)
  Lemma eofs_array_meta a k neofs sc w c dd vf d s e m : (0 < k < ndim a)%nat -> prepared a k d -> gen (ENd a) (Z.of_nat k) w c dd = Ok (d, s) ->
    (0 < neofs)%Z -> s_eofs s neofs sc = Ok e -> shp e = m :: tl (shp (dat d)) ->
    exists out, fst (eofs (ENd a) neofs (Z.of_nat k) sc w c dd vf true) = Ok out /\
      nth_error (odims out) 1 = Some "time" /\ nth_error (shp (odat out)) 1 = nth_error (shp a) 0.
  Proof.
    intros Hk (P1 & P2 & P3 & P4 & P5) G Hn E Se. rewrite P4 in Se. cbn [tl] in Se. unfold eofunc_eofs. rewrite G.
    rewrite (proj2 (Z.leb_gt _ _)) by lia. rewrite E. cbn [fst]. rewrite P2. cbn [bind]. unfold mk_dataarray.
    assert (Nd : ndim (dat d) = ndim a) by (unfold ndim in *; rewrite P4; cbn [List.length]; rewrite del_length; lia).
    rewrite Nd, keep_filter.
    assert (L : List.length ("eof" :: map (fun i => nth i (dims d) "") (filter (fun i => negb (Nat.eqb i k)) (seq 0 (ndim a)))) = ndim e).
    { cbn [List.length]. rewrite map_length. unfold ndim in *. rewrite Se. cbn [List.length]. f_equal.
      rewrite <- (map_length (fun i => nth i (shp a) 0%nat)), del_others by lia. reflexivity. }
    rewrite L, Nat.eqb_refl. cbn [negb bind forallb]. eexists. split; [reflexivity|]. cbn [odat odims].
    rewrite others by lia. destruct k as [|k]; [lia|]. cbn [seq app map nth_error]. rewrite P1. split; [reflexivity|].
    rewrite Se. unfold del. unfold ndim in Hk. destruct (shp a); [cbn in Hk; lia|]. reflexivity.
  Qed.
  (** labelled input: time_dim is not ignored *)
  Lemma eofs_labelled_position d k neofs sc w c dd vf s e m : List.length (dims d) = ndim (dat d) -> (0 < k < ndim (dat d))%nat -> mk d w c dd = Ok s ->
    (0 < neofs)%Z -> s_eofs s neofs sc = Ok e -> shp e = m :: tl (shp (dat d)) ->
    exists out, fst (eofs (EDa d) neofs (Z.of_nat k) sc w c dd vf false) = Ok out /\
      forall j, (1 <= j <= k)%nat -> nth_error (odims out) j = Some (dimname (j - 1)) /\ nth_error (shp (odat out)) j = nth_error (shp (dat d)) j.
  Proof.
    intros Wd Hk Mk Hn E Se. unfold eofunc_eofs, generate. cbn [bind]. rewrite Mk. cbn [bind]. rewrite (proj2 (Z.leb_gt _ _)) by lia. rewrite E. cbn [fst]. unfold mk_dataarray. rewrite keep_filter.
    assert (L : List.length ("eof" :: map dimname (filter (fun i => negb (Nat.eqb i k)) (seq 0 (ndim (dat d))))) = ndim e).
    { cbn [List.length]. rewrite map_length, others by lia. rewrite app_length, !seq_length. unfold ndim in *. rewrite Se. cbn [List.length]. destruct (shp (dat d)); cbn in *; lia. }
    rewrite L, Nat.eqb_refl. cbn [negb bind forallb]. eexists. split; [reflexivity|]. cbn [odat odims]. intros j Hj. split.
    - destruct j as [|j]; [lia|]. cbn [nth_error]. rewrite others by lia. rewrite map_app, nth_error_app1 by (rewrite map_length, seq_length; lia).
      rewrite (map_nth_error dimname j (seq 0 k) (d := j)); [f_equal; f_equal; lia|]. rewrite (nth_error_nth' _ 0%nat) by (rewrite seq_length; lia). rewrite seq_nth by lia. reflexivity.
    - rewrite Se. destruct j as [|j]; [lia|]. cbn [nth_error]. destruct (shp (dat d)); [destruct j; reflexivity|]. reflexivity.
  Qed.
  Lemma eofs_labelled_fails d k neofs sc w c dd vf meta s e m : (k < 0 \/ Z.of_nat (ndim (dat d)) <= k)%Z -> (0 < ndim (dat d))%nat -> mk d w c dd = Ok s ->
    s_eofs s neofs sc = Ok e -> shp e = m :: tl (shp (dat d)) -> forall out, fst (eofs (EDa d) neofs k sc w c dd vf meta) <> Ok out.
  Proof.
    intros Hk H0 Mk E Se out. unfold eofunc_eofs, generate. cbn [bind]. rewrite Mk. cbn [bind]. destruct (neofs <=? 0)%Z; [discriminate|]. rewrite E. cbn [fst].
    assert (F : filter (fun i => negb (Z.of_nat i =? k)%Z) (seq 0 (ndim (dat d))) = seq 0 (ndim (dat d))).
    { apply filter_all. intros x Hx. apply in_seq in Hx. apply negb_true_iff, Z.eqb_neq. lia. }
    rewrite F.
    assert (Nq : Nat.eqb (S (ndim (dat d))) (ndim e) = false).
    { apply Nat.eqb_neq. unfold ndim in *. rewrite Se. destruct (shp (dat d)); cbn in *; lia. }
    destruct meta.
    - destruct (match coords d with [] => Ok [] | _ :: _ => _ end) as [cs|]; cbn [bind]; [|discriminate]. unfold mk_dataarray. cbn [List.length]. rewrite map_length, seq_length, Nq. cbn. discriminate.
    - unfold mk_dataarray. cbn [List.length]. rewrite map_length, seq_length, Nq. cbn. discriminate.
  Qed.

  (** *** attributes of the input *)
  Lemma eofs_attrs_untouched data neofs k sc w c dd vf : snd (eofs data neofs k sc w c dd vf false) = in_attrs data.
  Proof.
    unfold eofunc_eofs. destruct (generate _ _ _ _ _ _ _ _) as [[d s]|]; auto. destruct (neofs <=? 0)%Z; auto. destruct (s_eofs s neofs sc); auto. cbn [snd]. destruct data; reflexivity.
  Qed.
  Lemma slookup_sset_same {A} x (v : A) l : slookup x (sset x v l) = Some v.
  Proof. rewrite slookup_sset, String.eqb_refl. reflexivity. Qed.
  Lemma slookup_sset_other {A} x y (v : A) l : x <> y -> slookup x (sset y v l) = slookup x l.
  Proof. intros H. rewrite slookup_sset. destruct (String.eqb_spec x y); [contradiction|reflexivity]. Qed.
  Lemma eofs_attrs_changed d neofs k sc w c dd vf s e : mk d w c dd = Ok s -> (0 < neofs)%Z -> s_eofs s neofs sc = Ok e ->
    let after := snd (eofs (EDa d) neofs k sc w c dd vf true) in
    slookup "eigenvalues" after = Some (AArr (s_eig s neofs)) /\ slookup "northTest" after = Some (AArr (s_north s neofs vf)) /\
    slookup "totalAnomalyVariance" after = Some (AArr (s_total s)) /\ slookup "varianceFraction" after = Some (AArr (s_frac s neofs)).
  Proof.
    intros Mk Hn E after. subst after. unfold eofunc_eofs, generate. cbn [bind]. rewrite Mk. cbn [bind]. rewrite (proj2 (Z.leb_gt _ _)) by lia. rewrite E. cbn [snd].
    rewrite !slookup_sset. cbn. auto.
  Qed.

  (** *** the old entry points drop all labels *)
  Lemma old_eofs_labels data neval td meta : old_eofs data neval td meta = old_eofs (ENd (asarr data)) neval td meta.
  Proof. reflexivity. Qed.
End Api.
