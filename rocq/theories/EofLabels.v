(** EOFs of labelled data whose time is the first dimension, and the default time axis of eofunc. *)
From Coq Require Import List Bool Arith ZArith Lia String.
From Verif Require Import PyBase PyFacts Num Arr ArrFacts XrFacts ListFacts Hybrid HybridFacts InterpExtrap Pearson Eof EofFacts.
Import ListNotations.
Local Open Scope string_scope.
Local Open Scope list_scope.

Section Api.
  Context {T : Type} {N : Num T}.
  Variables (Sv W : Type) (mk : da T -> option W -> bool -> Z -> res Sv)
    (s_eofs : Sv -> Z -> Z -> res (arr T))
    (s_eig : Sv -> Z -> arr T) (s_north : Sv -> Z -> bool -> arr T) (s_total : Sv -> arr T) (s_frac : Sv -> Z -> arr T).
  Notation gen := (generate Sv W mk).
  Notation eofs := (eofunc_eofs Sv W mk s_eofs s_eig s_north s_total s_frac).
  Notation old_eofs := (eofunc Sv W mk s_eofs s_eig s_north s_total s_frac).

  (** the coordinate lives on the named dimensions, with their sizes *)
  Definition lives_on (names : list string) (sizes : list nat) (cv : coordv T) : Prop :=
    forall y sz, In (y, sz) (combine (cdims cv) (shp (cdat cv))) ->
      exists j, nth_error names j = Some y /\ nth_error sizes j = Some sz.

  Lemma keep_tail n : filter (fun i => negb (Z.of_nat i =? 0)%Z) (seq 0 (S n)) = seq 1 n.
  Proof.
    cbn [seq filter Z.of_nat Z.eqb negb]. apply filter_all. intros x Hx. apply in_seq in Hx. apply negb_true_iff, Z.eqb_neq. lia.
  Qed.
  Lemma nth_tail (x : string) rest n : List.length rest = n -> map (fun i => nth i (x :: rest) "") (seq 1 n) = rest.
  Proof. intros H. rewrite (map_nth_skipn "" (x :: rest) 1 n) by (cbn [List.length]; lia). reflexivity. Qed.
  Lemma sindex_nodup names j y : NoDup names -> nth_error names j = Some y -> sindex y names = Some j.
  Proof.
    intros Nd H. destruct (sindex_In y names) as (i & E & Hi & _); [eapply nth_error_In; eauto|]. rewrite E. f_equal.
    apply sindex_Some in E. apply (proj1 (NoDup_nth_error names) Nd); [auto|congruence].
  Qed.
  Lemma fits_on names sizes m cv : NoDup ("eof" :: names) -> lives_on names sizes cv -> coord_fits ("eof" :: names) (m :: sizes) cv = true.
  Proof.
    intros Nd H. unfold coord_fits. apply forallb_forall. intros [y sz] Hin. cbn [fst snd].
    destruct (H y sz Hin) as (j & Hj & Hs). rewrite (sindex_nodup _ (S j) y Nd) by exact Hj. cbn [nth_error]. rewrite Hs. apply Nat.eqb_refl.
  Qed.

  Lemma sdel_in {A} x (l : list (string * A)) nm v : In (nm, v) (sdel x l) <-> In (nm, v) l /\ nm <> x.
  Proof.
    unfold sdel. rewrite filter_In. cbn [fst]. split; intros [H1 H2]; split; auto.
    - intros ->. rewrite String.eqb_refl in H2. discriminate.
    - destruct (String.eqb_spec x nm); [congruence|reflexivity].
  Qed.

  Section Labelled.
    Variables (d : da T) (x : string) (rest : list string) (n : nat) (srest : list nat).
    Hypotheses (Hd : dims d = x :: rest) (Hs : shp (dat d) = n :: srest) (Hl : List.length rest = List.length srest)
               (Hnd : NoDup ("eof" :: rest)).
    Variables (neofs sc : Z) (w : option W) (c : bool) (dd : Z) (vf : bool) (s : Sv) (e : arr T) (m : nat).
    Hypotheses (Mk : mk d w c dd = Ok s) (Hn : (0 < neofs)%Z) (He : s_eofs s neofs sc = Ok e) (Se : shp e = m :: srest).

    Lemma labelled_open : exists ats,
      fst (eofs (EDa d) neofs 0%Z sc w c dd vf true) = mk_dataarray e ("eof" :: rest) (sdel x (coords d)) ats /\
      forall k v, slookup k (attrs d) = Some v -> k <> "eigenvalues" -> k <> "northTest" -> k <> "totalAnomalyVariance" -> k <> "varianceFraction" ->
        slookup k ats = Some (AStr v).
    Proof.
      unfold eofunc_eofs, generate. cbn [bind]. rewrite Mk. cbn [bind]. rewrite (proj2 (Z.leb_gt _ _)) by lia. rewrite He. cbn [fst].
      eexists. split.
      - unfold ndim. rewrite Hs. cbn [List.length]. rewrite <- Hl. rewrite keep_tail. rewrite Hd. rewrite nth_tail by reflexivity.
        assert (E : match coords d with [] => Ok [] | _ :: _ => do td <- pyget (x :: rest) 0 ;; Ok (sdel td (coords d)) end = Ok (sdel x (coords d))).
        { rewrite (pyget_Z (x :: rest) 0 "") by (cbn [List.length]; lia). cbn [bind]. destruct (coords d); reflexivity. }
        rewrite E. cbn [bind]. reflexivity.
      - intros k v Hk N1 N2 N3 N4. rewrite !slookup_sset.
        repeat match goal with |- context [String.eqb ?a ?b] => destruct (String.eqb_spec a b); [congruence|] end.
        unfold in_attrs. revert Hk. clear. induction (attrs d) as [|[a b] l IH]; cbn; [discriminate|]. destruct (String.eqb k a); intros H; [inversion H; reflexivity|auto].
    Qed.

    Lemma labelled_ok : (forall nm cv, In (nm, cv) (coords d) -> nm <> x -> lives_on rest srest cv) ->
      exists out, fst (eofs (EDa d) neofs 0%Z sc w c dd vf true) = Ok out /\
        odat out = e /\ odims out = "eof" :: rest /\
        (forall nm cv, In (nm, cv) (ocoords out) <-> In (nm, cv) (coords d) /\ nm <> x) /\
        (forall k v, slookup k (attrs d) = Some v -> k <> "eigenvalues" -> k <> "northTest" -> k <> "totalAnomalyVariance" -> k <> "varianceFraction" ->
          slookup k (oattrs out) = Some (AStr v)).
    Proof.
      intros Hc. destruct labelled_open as (ats & E & Ha). rewrite E. unfold mk_dataarray.
      unfold ndim. rewrite Se. cbn [List.length]. rewrite Hl, Nat.eqb_refl. cbn [negb bind].
      replace (forallb _ (sdel x (coords d))) with true.
      2:{ symmetry. apply forallb_forall. intros [nm cv] Hin. apply sdel_in in Hin. destruct Hin as [H1 H2]. cbn [snd]. apply fits_on; [exact Hnd|]. eapply Hc; eauto. }
      cbn [negb bind]. eexists. split; [reflexivity|]. cbn [odat odims ocoords oattrs]. repeat split; auto.
      - eapply sdel_in; eauto.
      - eapply sdel_in; eauto.
      - intros [H1 H2]. apply sdel_in. auto.
    Qed.

    Lemma labelled_auxiliary nm cv : In (nm, cv) (coords d) -> nm <> x -> x <> "eof" -> ~ In x rest ->
      In x (cdims cv) -> List.length (cdims cv) = List.length (shp (cdat cv)) ->
      fst (eofs (EDa d) neofs 0%Z sc w c dd vf true) = Err ValueError.
    Proof.
      intros Hin Hne Hx Hr Hc Hlc. destruct labelled_open as (ats & E & Ha). rewrite E. unfold mk_dataarray.
      unfold ndim. rewrite Se. cbn [List.length]. rewrite Hl, Nat.eqb_refl. cbn [negb bind].
      replace (forallb _ (sdel x (coords d))) with false; [reflexivity|]. symmetry.
      apply not_true_iff_false. intros F. rewrite forallb_forall in F. specialize (F (nm, cv) (proj2 (sdel_in _ _ _ _) (conj Hin Hne))).
      cbn [snd] in F. unfold coord_fits in F. rewrite forallb_forall in F.
      destruct (In_nth _ _ "" Hc) as (j & Hj & Hnj).
      specialize (F (x, nth j (shp (cdat cv)) 0)). cbn [fst snd] in F. rewrite sindex_None in F.
      - discriminate F. rewrite <- Hnj at 1. rewrite <- combine_nth by auto. apply nth_In. rewrite combine_length. lia.
      - intros [Q|Q]; [congruence|auto].
    Qed.
  End Labelled.

  (** eofunc takes the last axis as time *)
  Lemma old_eofs_last a : (1 <= ndim a)%nat -> exists d, prepared a (ndim a - 1) d /\
    forall data neval s e m, asarr data = a -> mk d None true 1%Z = Ok s -> (0 < neval)%Z -> s_eofs s neval 0%Z = Ok e -> shp e = m :: tl (shp (dat d)) ->
    exists out, old_eofs data neval None false = Ok out /\ odat out = e /\
      odims out = "eof" :: map dimname (seq 0 (ndim a - 1)) /\ shp e = m :: firstn (ndim a - 1) (shp a).
  Proof.
    intros Hk. set (k := (ndim a - 1)%nat). assert (Hkn : (k < ndim a)%nat) by (unfold k; lia).
    destruct (generate_array Sv W mk a k Hkn) as (d & Pr & G). exists d. split; [exact Pr|].
    intros data neval s e m Ha Mk Hn He Se. unfold eofunc. rewrite Ha.
    replace (Z.of_nat (ndim a) - 1)%Z with (Z.of_nat k) by (unfold k; lia).
    specialize (G None true 1%Z). rewrite Mk in G. cbn [bind] in G.
    destruct (eofs_array Sv W mk s_eofs s_eig s_north s_total s_frac a k neval 0%Z None true 1%Z false d s e m Hkn Pr G Hn He Se) as (out & E & H1 & H2 & H3 & _).
    exists out. split; [exact E|]. split; [exact H1|].
    assert (D : forall A (l : list A), List.length l = ndim a -> del k l = firstn k l).
    { intros A l Hl. unfold del. rewrite (skipn_all2 l) by (unfold k; lia). apply app_nil_r. }
    rewrite D in H2 by apply seq_length. rewrite D in H3 by reflexivity. split; [|exact H3]. rewrite H2. do 2 f_equal.
    rewrite <- (map_nth_firstn 0%nat (seq 0 (ndim a)) k) by (rewrite seq_length; lia).
    rewrite <- (map_id (seq 0 k)) at 2. apply map_ext_in. intros i Hi. apply in_seq in Hi. rewrite seq_nth by lia. reflexivity.
  Qed.

  (** eofunc_ts takes the last axis as time and computes one component per row of evec *)
  Lemma old_pcs_last (s_pcs : Sv -> Z -> Z -> res (arr T)) a : (1 <= ndim a)%nat -> exists d, prepared a (ndim a - 1) d /\
    forall data evec0 s p m nt, asarr data = a -> mk d None true 1%Z = Ok s -> (0 < evec0)%Z -> s_pcs s evec0 0%Z = Ok p -> shp p = [nt; m] ->
    exists out, eofunc_ts Sv W mk s_pcs data evec0 None false = Ok out /\ odims out = ["pc"; "time"] /\
      shp (odat out) = [m; nt] /\ forall t j, get (odat out) [j; t] = get p [t; j].
  Proof.
    intros Hk. set (k := (ndim a - 1)%nat). assert (Hkn : (k < ndim a)%nat) by (unfold k; lia).
    destruct (generate_array Sv W mk a k Hkn) as (d & Pr & G). exists d. split; [exact Pr|].
    intros data evec0 s p m nt Ha Mk Hn He Se. unfold eofunc_ts. rewrite Ha.
    replace (Z.of_nat (ndim a) - 1)%Z with (Z.of_nat k) by (unfold k; lia).
    specialize (G None true 1%Z). rewrite Mk in G. cbn [bind] in G.
    destruct (pcs_array Sv W mk s_pcs a k evec0 0%Z None true 1%Z d s p m nt Hkn Pr G Mk Hn He Se) as (out & E & H1 & _ & _ & H2 & H3).
    exists out. auto.
  Qed.
End Api.
