(** interp_sigma_to_hybrid: the stored numbers and the coordinates. *)
From Coq Require Import Reals List Bool Arith ZArith Lia Lra String.
From Verif Require Import PyBase PyFacts Num NumFacts Arr ArrFacts XrFacts Spec Hybrid HybridFacts Interp1d Interp1dFacts InterpHyb InterpHybFacts InterpColumn InterpApi InterpProps
  InterpSigma InterpSigmaFacts InterpSigmaFull ClimAttrsFacts.
Import ListNotations.

(** the coordinates of a labelled array: distinct names, each along some of the array's dimensions *)
Definition coords_ok {T} (d : da T) : Prop :=
  NoDup (map fst (coords d)) /\ forall k c, In (k, c) (coords d) -> NoDup (cdims c) /\ incl (cdims c) (dims d).

Lemma slookup_first {A} k (v : A) l1 l2 : slookup k l1 = Some v -> slookup k (l1 ++ l2) = Some v.
Proof. intros H. rewrite slookup_app, H. reflexivity. Qed.
Lemma slookup_later {A} k (l1 l2 : list (string * A)) : ~ In k (map fst l1) -> slookup k (l1 ++ l2) = slookup k l2.
Proof. intros H. rewrite slookup_app, slookup_notin; auto. Qed.
Lemma env_of_map (f : string -> nat) ds d : In d ds -> env_of ds (map f ds) d = f d.
Proof.
  intros H. unfold env_of. destruct (sindex_In _ _ H) as (j & E & Hj & Ej). rewrite E. rewrite (nth_indep _ 0%nat (f d)) by (rewrite map_length; auto).
  rewrite map_nth, Ej. reflexivity.
Qed.

Section Full.
  Context {T : Type} {N : Num T}.
  Lemma sigma_meta (data ps hyam hybm out : da T) sig p0 lev_dim cf_name m :
    interp_sigma_to_hybrid data sig ps hyam hybm p0 lev_dim cf_name m = Ok out -> attrs out = attrs data /\ daname out = daname data.
  Proof.
    unfold interp_sigma_to_hybrid. intros H.
    destruct (match lev_dim with Some l => Ok l | None => oget ValueError cf_name end); [cbn [bind] in H|discriminate].
    destruct (func_interpolate m); [cbn [bind] in H|discriminate]. destruct (sigma_from_hybrid ps hyam hybm p0); [cbn [bind] in H|discriminate].
    destruct (oget ValueError (sindex _ _)); [cbn [bind] in H|discriminate]. destruct (negb _); [discriminate|].
    destruct (match filter _ _ with [h] => Ok h | _ => Err ValueError end); [cbn [bind] in H|discriminate].
    destruct (oget TypeError _); [cbn [bind] in H|discriminate]. destruct (oget IndexError _); [cbn [bind] in H|discriminate].
    destruct (mapM _ _); [cbn [bind] in H|discriminate]. destruct (_ && _); [discriminate|]. destruct (negb _); [discriminate|].
    injection H as <-. auto.
  Qed.
  Definition conflict (data : da T) (l : string) : Prop := In l (map fst (coords data)) /\ In "hlev"%string (map fst (coords data)) /\ l <> "hlev"%string.
  Lemma conflict_dec data l : smem l (map fst (coords data)) && smem "hlev" (map fst (coords data)) && negb (String.eqb l "hlev") = true <-> conflict data l.
  Proof. rewrite !andb_true_iff, !smem_In, negb_true_iff, String.eqb_neq. unfold conflict. tauto. Qed.
  Lemma to_hlev_env ds ax l i d : NoDup ds -> sindex l ds = Some ax -> ~ In "hlev"%string ds \/ l = "hlev"%string -> In d ds ->
    env_of (upd ds ax "hlev"%string) i (to_hlev l d) = env_of ds i d.
  Proof.
    intros Hn Hs Hl Hd. unfold to_hlev. destruct (String.eqb_spec d l) as [->|Hne].
    - unfold env_of. rewrite (sindex_upd_new ds ax l), Hs by auto. reflexivity.
    - unfold env_of. rewrite (sindex_upd_neq ds ax l) by (auto; intros ->; destruct Hl; congruence). reflexivity.
  Qed.
  Lemma nonlevel ds ax l d : NoDup ds -> sindex l ds = Some ax -> (In d (remove_at ax ds) <-> In d ds /\ d <> l).
  Proof.
    intros Hn Hs. assert (Hlt : (ax < List.length ds)%nat) by (apply nth_error_Some; rewrite (sindex_Some _ _ _ Hs); discriminate).
    destruct (split_nth ds ax Hlt) as (d1 & x & d2 & E & L & Ex). apply sindex_Some in Hs. assert (x = l) by congruence. subst x.
    subst ds. rewrite <- L, remove_at_app. apply NoDup_remove in Hn. destruct Hn as [_ Hn]. rewrite !in_app_iff in *. cbn [In].
    split; [intros H; split; [tauto|intros ->; tauto]|intros [[H|[H|H]] Q]; auto; congruence].
  Qed.

  Lemma c101_lemma store (data ps hyam hybm : da T) sig l h ax n nh p0 lev_dim cf_name m :
    sig_wf data ps hyam hybm sig l h ax n nh -> lev_dim = Some l \/ (lev_dim = None /\ cf_name = Some l) ->
    (2 <= n)%nat -> (0 < nh <= n)%nat -> coords_ok data ->
    (conflict data l -> interp_sigma_stored store data sig ps hyam hybm p0 lev_dim cf_name (meth_name m) = Err ValueError) /\
    (~ conflict data l -> exists out, interp_sigma_stored store data sig ps hyam hybm p0 lev_dim cf_name (meth_name m) = Ok out /\
      dims out = upd (dims data) ax "hlev"%string /\ shp (dat out) = upd (shp (dat data)) ax nh /\
      attrs out = attrs data /\ daname out = daname data /\
      (forall k c, In (k, c) (coords data) -> k <> l -> k <> "hlev"%string -> exists c', slookup k (coords out) = Some c' /\
         (forall i, inb (shp (dat out)) i -> getc c' (env_of (dims out) i) = getc c (env_of (dims data) i)) /\
         (cdims c = [k] -> c' = c) /\
         (incl (cdims c) [l] -> forall d, In d (cdims c') <-> In l (cdims c) /\ d = "hlev"%string) /\
         (~ incl (cdims c) [l] -> cdims c <> [k] -> forall d, In d (cdims c') <-> In d (dims data) /\ d <> l \/ In l (cdims c) /\ d = "hlev"%string)) /\
      (forall d, In d (dims data) -> d <> l -> ~ In d (map fst (coords data)) -> exists c', slookup d (coords out) = Some c' /\ cdims c' = [d] /\
         forall i, inb (shp (dat out)) i -> getc c' (env_of (dims out) i) = ofZ (Z.of_nat (env_of (dims data) i d))) /\
      (exists c, slookup "hlev" (coords out) = Some c /\ cdims c = ["hlev"%string] /\ shp (cdat c) = [nh] /\
         forall k, (k < nh)%nat -> get (cdat c) [k] = nadd (ndiv (nmul (get (dat hyam) [k]) p0) (getn ps (fun _ => 0%nat))) (get (dat hybm) [k])) /\
      (forall k, In k (map fst (coords out)) -> k = "hlev"%string \/ k <> l /\ (In k (map fst (coords data)) \/ In k (dims data)))).
  Proof.
    intros W Hlev Hn Hnh [Ck Cc]. destruct (sigma_core data ps hyam hybm sig l h ax n nh p0 lev_dim cf_name m W Hlev Hn ltac:(lia)) as [C _].
    destruct (C ltac:(lia)) as (o & hc & E & Do & So & Co & Hcd & Hcs & Hcv & _). clear C. destruct (sigma_meta _ _ _ _ _ _ _ _ _ _ E) as [Ao No].
    pose proof (s_data _ _ _ _ _ _ _ _ _ _ W) as [Wl Wn]. pose proof (s_ax _ _ _ _ _ _ _ _ _ _ W) as Wax. pose proof (s_n _ _ _ _ _ _ _ _ _ _ W) as Wsn.
    assert (Whl : ~ In "hlev"%string (dims data) \/ l = "hlev"%string) by (apply (s_hlev _ _ _ _ _ _ _ _ _ _ W)).
    assert (Pre : interp_sigma_stored store data sig ps hyam hybm p0 lev_dim cf_name (meth_name m) =
      guard smem l (map fst (coords data)) && smem "hlev" (map fst (coords data)) && negb (String.eqb l "hlev") raise ValueError ;;
      Ok (mkDa (dims o) (amap store (dat o))
          (map (sigma_coord data l (remove_at ax (dims data)) nh) (filter (fun kc => negb (String.eqb (fst kc) l || String.eqb (fst kc) "hlev")) (coords data))
           ++ default_labels data (remove_at ax (dims data)) ++ coords o) (attrs o) (daname o))).
    { unfold interp_sigma_stored. replace (match lev_dim with Some l0 => Ok l0 | None => oget ValueError cf_name end) with (Ok l : res string)
        by (destruct Hlev as [->|[-> ->]]; reflexivity).
      cbn [bind]. rewrite E. cbn [bind]. rewrite Wax. cbn [oget bind]. cbv zeta. rewrite So.
      replace (nth ax (upd (shp (dat data)) ax nh) 0%nat) with nh; [reflexivity|]. symmetry. apply nth_error_nth. rewrite upd_nth_error, Nat.eqb_refl.
      assert (ax < List.length (shp (dat data)))%nat by (apply nth_error_Some; congruence). destruct (Nat.ltb_spec ax (List.length (shp (dat data)))); auto; lia. }
    rewrite Pre. clear Pre. destruct (smem l _ && _ && _) eqn:B.
    { split; [reflexivity|]. intros Q. exfalso. apply Q, conflict_dec, B. }
    split; [intros Q; apply conflict_dec in Q; congruence|]. intros _. eexists. split; [reflexivity|]. cbn [dims dat amap shp attrs daname coords].
    set (nd := remove_at ax (dims data)). set (F := filter _ (coords data)).
    assert (Nd : forall d, In d nd <-> In d (dims data) /\ d <> l) by (intros d; apply nonlevel; auto).
    assert (Keys : map fst (map (sigma_coord data l nd nh) F) = map fst F).
    { rewrite map_map. apply map_ext. intros [k c]. unfold sigma_coord. destruct (smem k nd && is_index k c); reflexivity. }
    assert (KF : forall k, In k (map fst F) <-> In k (map fst (coords data)) /\ k <> l /\ k <> "hlev"%string).
    { intros k. unfold F. rewrite !in_map_iff. split.
      - intros ([k' c] & <- & H). apply filter_In in H. destruct H as [H Q]. cbn in Q. apply negb_true_iff, orb_false_iff in Q. rewrite !String.eqb_neq in Q. cbn. split; [exists (k', c); auto|auto].
      - intros (([k' c] & <- & H) & Q1 & Q2). exists (k', c). split; auto. apply filter_In. split; auto. cbn in *. apply negb_true_iff, orb_false_iff. rewrite !String.eqb_neq. auto. }
    assert (KD : forall k, In k (map fst (default_labels data nd)) <-> In k nd /\ ~ In k (map fst (coords data))).
    { intros k. unfold default_labels. rewrite map_map. cbn [fst]. rewrite map_id, filter_In, negb_true_iff, smem_false. reflexivity. }
    assert (NF : NoDup (map fst F)). { unfold F. clear -Ck. induction (coords data) as [|[k c] cs IH]; cbn; [constructor|]. inversion Ck; subst. destruct (negb _); [|auto]. cbn. constructor; auto.
      intros H. apply in_map_iff in H. destruct H as (x & Ex & H). apply filter_In in H. apply H1. apply in_map_iff. exists x. tauto. }
    split; [auto|]. split; [auto|]. split; [auto|]. split; [auto|]. split; [|split; [|split]].
    - intros k c Hc Hk1 Hk2. destruct (Cc k c Hc) as [Cn Ci].
      assert (HF : In (k, c) F) by (apply filter_In; split; auto; cbn; apply negb_true_iff, orb_false_iff; rewrite !String.eqb_neq; auto).
      exists (snd (sigma_coord data l nd nh (k, c))).
      assert (Lk : slookup k (map (sigma_coord data l nd nh) F) = Some (snd (sigma_coord data l nd nh (k, c)))).
      { clear -HF NF. induction F as [|[k' c'] F IH]; [destruct HF|]. cbn [map] in *. inversion NF; subst.
        assert (Ef : fst (sigma_coord data l nd nh (k', c')) = k') by (unfold sigma_coord; destruct (smem k' nd && is_index k' c'); reflexivity).
        destruct (sigma_coord data l nd nh (k', c')) as [k'' c''] eqn:Es. cbn in Ef. subst k''. cbn [slookup].
        destruct HF as [HF|HF]; [injection HF as -> ->; rewrite String.eqb_refl, Es; reflexivity|].
        destruct (String.eqb_spec k k') as [->|]; [|auto]. exfalso. apply H1. apply in_map_iff. exists (k', c). auto. }
      split; [apply slookup_first; auto|].
      unfold sigma_coord. destruct (smem k nd && is_index k c) eqn:Ei.
      + apply andb_true_iff in Ei. destruct Ei as [Ek Ei]. apply smem_In in Ek. assert (Ec : cdims c = [k]).
        { unfold is_index in Ei. destruct (cdims c) as [|d [|? ?]]; try discriminate. apply String.eqb_eq in Ei. congruence. }
        cbn [snd]. split; [|split; [auto|split; [|congruence]]].
        * intros i Hi. unfold getc. rewrite Ec. cbn [map]. rewrite Do. f_equal. f_equal.
          rewrite <- (to_hlev_env (dims data) ax l i k) by (auto; apply Nd; auto). unfold to_hlev. destruct (String.eqb_spec k l); [contradiction|reflexivity].
        * intros Hi. exfalso. apply Hk1. specialize (Hi k). rewrite Ec in Hi. destruct (Hi (or_introl eq_refl)) as [->|[]]. reflexivity.
      + cbn [snd cdims cdat]. set (sp := existsb (fun d => smem d (cdims c)) nd). set (ds := filter _ (dims data)).
        assert (Ds : forall d, In d ds <-> In d (dims data) /\ (In d (cdims c) \/ sp = true /\ In d nd)).
        { intros d. unfold ds. rewrite filter_In, orb_true_iff, andb_true_iff, !smem_In. reflexivity. }
        assert (Sp : sp = true <-> ~ incl (cdims c) [l]).
        { unfold sp. rewrite existsb_exists. split.
          - intros (d & Hd & Hm) Q. apply smem_In in Hm. apply Nd in Hd. destruct (Q d Hm) as [->|[]]. tauto.
          - intros Q. destruct (existsb (fun d => negb (String.eqb d l)) (cdims c)) eqn:X.
            + apply existsb_exists in X. destruct X as (d & Hd & X). apply negb_true_iff, String.eqb_neq in X. exists d. split; [apply Nd; auto|apply smem_In; auto].
            + exfalso. apply Q. intros d Hd. destruct (String.eqb_spec d l) as [->|Hne]; [left; auto|]. exfalso.
              assert (existsb (fun d => negb (String.eqb d l)) (cdims c) = true); [|congruence]. apply existsb_exists. exists d. split; auto. apply negb_true_iff, String.eqb_neq. auto. }
        split; [|split; [|split]].
        * intros i Hi. unfold getc at 1. cbn [cdims cdat get]. unfold getc. f_equal. apply map_ext_in. intros d Hd. rewrite map_map.
          rewrite env_of_map by (apply Ds; auto). rewrite Do. apply to_hlev_env; auto.
        * intros Ec. exfalso. assert (smem k nd && is_index k c = true); [|congruence]. apply andb_true_iff. split.
          -- apply smem_In, Nd. split; auto. apply Ci. rewrite Ec. left. auto.
          -- unfold is_index. rewrite Ec. apply String.eqb_refl.
        * intros Hi d. rewrite in_map_iff. assert (sp <> true) by (rewrite Sp; tauto). split.
          -- intros (d0 & <- & H0). apply Ds in H0. destruct H0 as [H0 [H1|[H1 _]]]; [|contradiction]. destruct (Hi d0 H1) as [<-|[]]. split; auto. unfold to_hlev. rewrite String.eqb_refl. reflexivity.
          -- intros [H1 ->]. exists l. split; [unfold to_hlev; rewrite String.eqb_refl; reflexivity|apply Ds; auto].
        * intros Hi _ d. rewrite in_map_iff. apply Sp in Hi. split.
          -- intros (d0 & <- & H0). apply Ds in H0. unfold to_hlev. destruct (String.eqb_spec d0 l) as [->|Hne].
             ++ right. split; auto. destruct H0 as [_ [H0|[_ H0]]]; auto. apply Nd in H0. tauto.
             ++ left. tauto.
          -- intros [[H1 H2]|[H1 ->]].
             ++ exists d. split; [unfold to_hlev; destruct (String.eqb_spec d l); congruence|]. apply Ds. split; auto. right. split; auto. apply Nd. auto.
             ++ exists l. split; [unfold to_hlev; rewrite String.eqb_refl; reflexivity|apply Ds; auto].
    - intros d Hd Hdl Hk. assert (Kn : ~ In d (map fst F)) by (rewrite KF; tauto).
      assert (HN : In d nd) by (apply Nd; auto).
      set (c' := mkCoord [d] (vec nnan (map (fun j => ofZ (Z.of_nat j)) (seq 0 (hd 0%nat (sizes_of data [d])))))).
      exists c'. split.
      { rewrite slookup_later by (rewrite Keys; auto). apply slookup_first. unfold default_labels.
        assert (Hin : In d (filter (fun d => negb (smem d (map fst (coords data)))) nd)) by (apply filter_In; split; auto; apply negb_true_iff, smem_false; auto).
        clear -Hin. induction (filter _ nd) as [|x xs IH]; [destruct Hin|]. cbn [map slookup]. destruct (String.eqb_spec d x) as [->|Hne]; [reflexivity|]. apply IH. destruct Hin; [congruence|auto]. }
      split; [reflexivity|]. intros i Hi. unfold getc. cbn [cdims cdat c' map]. rewrite Do.
      assert (Ee : env_of (upd (dims data) ax "hlev"%string) i d = env_of (dims data) i d).
      { rewrite <- (to_hlev_env (dims data) ax l i d) by auto. unfold to_hlev. destruct (String.eqb_spec d l); [contradiction|reflexivity]. }
      rewrite Ee. cbn [vec get hd]. destruct (sindex_In _ _ Hd) as (j & Ej & Hj & _).
      assert (Hjx : j <> ax). { intros ->. apply sindex_Some in Ej. apply sindex_Some in Wax. congruence. }
      assert (Hs : (env_of (dims data) i d < hd 0 (sizes_of data [d]))%nat).
      { unfold env_of, sizes_of, dsize. cbn [map hd]. rewrite Ej. rewrite So in Hi.
        assert (Hj2 : nth_error (upd (shp (dat data)) ax nh) j = nth_error (shp (dat data)) j).
        { rewrite upd_nth_error. destruct (Nat.eqb_spec j ax); [congruence|reflexivity]. }
        destruct (nth_error (shp (dat data)) j) as [z|] eqn:Ez; [|apply nth_error_None in Ez; lia].
        pose proof (inb_length _ _ Hi) as Li. rewrite upd_length in Li. assert (Hji : (j < List.length i)%nat) by (rewrite Li; lia).
        unfold inb in Hi. destruct (nth_error i j) as [y|] eqn:Ey; [|apply nth_error_None in Ey; lia].
        destruct (Forall2_nth_error _ _ _ Hi _ _ Ey) as (z' & Hz & Hlt). rewrite Hj2 in Hz. injection Hz as <-. rewrite (nth_error_nth _ _ 0%nat Ey). exact Hlt. }
      rewrite (nth_indep _ nnan (ofZ (Z.of_nat 0))) by (rewrite map_length, seq_length; auto).
      rewrite (map_nth (fun j => ofZ (Z.of_nat j))), seq_nth by auto. reflexivity.
    - exists hc. split; [|auto]. rewrite slookup_later, slookup_later.
      + rewrite Co. cbn. reflexivity.
      + rewrite KD, Nd. intros [[Q1 Q2] _]. destruct Whl; congruence.
      + rewrite Keys, KF. tauto.
    - intros k Hk. rewrite !map_app, !in_app_iff, Keys, KF, KD, Nd, Co in Hk. cbn in Hk. destruct Hk as [Hk|[Hk|[Hk|[]]]]; [tauto|tauto|auto].
  Qed.
  Lemma out_size (data : da T) (a : arr T) cs at_ nm ax l nh d : NoDup (dims data) -> sindex l (dims data) = Some ax -> ~ In "hlev"%string (dims data) \/ l = "hlev"%string ->
    (ax < List.length (shp (dat data)))%nat -> shp a = upd (shp (dat data)) ax nh -> In d (dims data) ->
    dsize (mkDa (upd (dims data) ax "hlev"%string) a cs at_ nm) (to_hlev l d) = if String.eqb d l then Some nh else dsize data d.
  Proof.
    intros Hn Hs Hh Hax Sa Hd. unfold dsize, to_hlev. cbn [dims dat]. destruct (String.eqb_spec d l) as [->|Hne].
    - rewrite (sindex_upd_new (dims data) ax l) by auto. rewrite Sa, upd_nth_error, Nat.eqb_refl. destruct (Nat.ltb_spec ax (List.length (shp (dat data)))); auto; lia.
    - rewrite (sindex_upd_neq (dims data) ax l) by (auto; intros ->; destruct Hh; congruence).
      destruct (sindex_In _ _ Hd) as (j & Ej & _). rewrite Ej, Sa, upd_nth_error. destruct (Nat.eqb_spec j ax) as [->|]; [|reflexivity].
      exfalso. apply sindex_Some in Ej. apply sindex_Some in Hs. congruence.
  Qed.
  Lemma c101_shapes store (data ps hyam hybm : da T) sig l h ax n nh p0 lev_dim cf_name m :
    sig_wf data ps hyam hybm sig l h ax n nh -> lev_dim = Some l \/ (lev_dim = None /\ cf_name = Some l) ->
    (2 <= n)%nat -> (0 < nh <= n)%nat -> coords_ok data ->
    (forall k c, In (k, c) (coords data) -> shp (cdat c) = sizes_of data (cdims c)) ->
    ~ conflict data l -> exists out, interp_sigma_stored store data sig ps hyam hybm p0 lev_dim cf_name (meth_name m) = Ok out /\
      forall k c, In (k, c) (coords out) -> incl (cdims c) (dims out) /\ shp (cdat c) = sizes_of out (cdims c).
  Proof.
    intros W Hlev Hn Hnh [Ck Cc] Csz Cf. destruct (sigma_core data ps hyam hybm sig l h ax n nh p0 lev_dim cf_name m W Hlev Hn ltac:(lia)) as [C _].
    destruct (C ltac:(lia)) as (o & hc & E & Do & So & Co & Hcd & Hcs & Hcv & _). clear C.
    pose proof (s_data _ _ _ _ _ _ _ _ _ _ W) as [Wl Wn]. pose proof (s_ax _ _ _ _ _ _ _ _ _ _ W) as Wax. pose proof (s_n _ _ _ _ _ _ _ _ _ _ W) as Wsn.
    assert (Whl : ~ In "hlev"%string (dims data) \/ l = "hlev"%string) by (apply (s_hlev _ _ _ _ _ _ _ _ _ _ W)).
    assert (Hax : (ax < List.length (shp (dat data)))%nat) by (apply nth_error_Some; congruence).
    unfold interp_sigma_stored. replace (match lev_dim with Some l0 => Ok l0 | None => oget ValueError cf_name end) with (Ok l : res string)
      by (destruct Hlev as [->|[-> ->]]; reflexivity).
    cbn [bind]. rewrite E. cbn [bind]. rewrite Wax. cbn [oget bind]. cbv zeta. rewrite So.
    replace (nth ax (upd (shp (dat data)) ax nh) 0%nat) with nh
      by (symmetry; apply nth_error_nth; rewrite upd_nth_error, Nat.eqb_refl; destruct (Nat.ltb_spec ax (List.length (shp (dat data)))); auto; lia).
    destruct (smem l _ && _ && _) eqn:B; [exfalso; apply Cf, conflict_dec, B|].
    eexists. split; [reflexivity|]. cbn [coords dims]. set (out := mkDa _ _ _ _ _).
    assert (Sz : forall d, In d (dims data) -> dsize out (to_hlev l d) = if String.eqb d l then Some nh else dsize data d).
    { intros d Hd. unfold out. rewrite Do. apply out_size; auto. }
    assert (Hin : forall d, In d (dims data) -> In (to_hlev l d) (dims o)).
    { intros d Hd. rewrite Do. unfold to_hlev. destruct (String.eqb_spec d l) as [->|Hne].
      - pose proof (sindex_upd_new (dims data) ax l "hlev"%string Wn Wax Whl) as Q. apply sindex_Some, nth_error_In in Q. exact Q.
      - destruct (sindex_In _ _ Hd) as (j & Ej & _). rewrite <- (sindex_upd_neq (dims data) ax l d "hlev"%string) in Ej by (auto; intros ->; destruct Whl; congruence).
        apply sindex_Some, nth_error_In in Ej. exact Ej. }
    assert (Ne : forall d, d <> l -> to_hlev l d = d) by (intros d Hd; unfold to_hlev; destruct (String.eqb_spec d l); congruence).
    assert (Nd : forall d, In d (remove_at ax (dims data)) <-> In d (dims data) /\ d <> l) by (intros d; apply nonlevel; auto).
    intros k c Hk. apply in_app_or in Hk. destruct Hk as [Hk|Hk]; [|apply in_app_or in Hk; destruct Hk as [Hk|Hk]].
    - apply in_map_iff in Hk. destruct Hk as ([k0 c0] & Es & Hk). apply filter_In in Hk. destruct Hk as [Hk _].
      destruct (Cc _ _ Hk) as [Cn Ci]. unfold sigma_coord in Es. destruct (smem k0 _ && is_index k0 c0) eqn:Ei.
      + injection Es as <- <-. apply andb_true_iff in Ei. destruct Ei as [Ek Ei]. apply smem_In, Nd in Ek. destruct Ek as [Ek1 Ek2].
        assert (Ec : cdims c0 = [k0]) by (unfold is_index in Ei; destruct (cdims c0) as [|d [|? ?]]; try discriminate; apply String.eqb_eq in Ei; congruence).
        rewrite (Csz _ _ Hk), Ec. split.
        * intros d [<-|[]]. rewrite <- (Ne k0 Ek2). auto.
        * unfold sizes_of. cbn [map]. specialize (Sz k0 Ek1). rewrite (Ne _ Ek2) in Sz. rewrite Sz. destruct (String.eqb_spec k0 l); [contradiction|reflexivity].
      + injection Es as <- <-. cbn [cdims cdat shp]. set (ds := filter _ (dims data)).
        assert (Hds : forall d, In d ds -> In d (dims data)) by (intros d Hd; apply filter_In in Hd; tauto). split.
        * intros d Hd. apply in_map_iff in Hd. destruct Hd as (d0 & <- & Hd). auto.
        * unfold sizes_of. rewrite map_map. apply map_ext_in. intros d Hd. rewrite Sz by auto. destruct (String.eqb d l); reflexivity.
    - unfold default_labels in Hk. apply in_map_iff in Hk. destruct Hk as (d & Es & Hd). injection Es as <- <-. apply filter_In in Hd. destruct Hd as [Hd _]. apply Nd in Hd.
      destruct Hd as [Hd1 Hd2]. cbn [cdims cdat]. split.
      + intros x [<-|[]]. rewrite <- (Ne d Hd2). auto.
      + cbn [shp vec]. rewrite map_length, seq_length. unfold sizes_of. cbn [map hd]. specialize (Sz d Hd1). rewrite (Ne _ Hd2) in Sz. rewrite Sz. destruct (String.eqb_spec d l); [contradiction|reflexivity].
    - rewrite Co in Hk. destruct Hk as [Hk|[]]. injection Hk as <- <-. rewrite Hcd, Hcs.
      assert (Hl : In l (dims data)) by (apply sindex_Some, nth_error_In in Wax; exact Wax).
      specialize (Sz l Hl). specialize (Hin l Hl). unfold to_hlev in Sz, Hin. rewrite String.eqb_refl in Sz, Hin. split; [intros x [<-|[]]; exact Hin|].
      unfold sizes_of. cbn [map]. rewrite Sz. reflexivity.
  Qed.
End Full.

Local Open Scope R_scope.
Lemma Rtruncz_spec x : Rabs (IZR (Rtruncz x)) <= Rabs x < Rabs (IZR (Rtruncz x)) + 1 /\ 0 <= x * IZR (Rtruncz x).
Proof.
  unfold Rtruncz, Rfloor, Rceil. destruct (Rlt_dec x 0) as [H|H].
  - rewrite opp_IZR. destruct (base_Int_part (- x)) as [H1 H2]. assert (0 <= IZR (Int_part (- x))).
    { assert (-1 < IZR (Int_part (- x))) by lra. assert (-1 < Int_part (-x))%Z by (apply lt_IZR; lra). apply IZR_le. lia. }
    rewrite Rabs_Ropp, (Rabs_right (IZR _)), (Rabs_left x) by lra. split; [lra|]. apply Rmult_le_compat_neg_l with (r := x) in H0; lra || nra.
  - destruct (base_Int_part x) as [H1 H2]. assert (0 <= IZR (Int_part x)).
    { assert (-1 < Int_part x)%Z by (apply lt_IZR; lra). apply IZR_le. lia. }
    rewrite !Rabs_right by lra. split; [lra|]. nra.
Qed.
Lemma c100_lemma (data ps hyam hybm : da fl) (sig : list R) l h ax n nh (A B : nat -> R) p0 lev_dim cf_name m store :
  sig_wf data ps hyam hybm (map Fin sig) l h ax n nh ->
  lev_dim = Some l \/ (lev_dim = None /\ cf_name = Some l) ->
  (2 <= n)%nat -> (0 < nh <= n)%nat -> NoDup sig -> coords_ok data -> ~ conflict data l ->
  (forall k, (k < nh)%nat -> get (dat hyam) [k] = Fin (A k)) ->
  (forall k, (k < nh)%nat -> get (dat hybm) [k] = Fin (B k)) ->
  exists out,
    interp_sigma_stored store data (map Fin sig) ps hyam hybm (Fin p0) lev_dim cf_name (meth_name m) = Ok out /\
    dims out = upd (dims data) ax "hlev"%string /\ shp (dat out) = upd (shp (dat data)) ax nh /\
    forall i s, inb (shp (dat out)) i -> getn ps (env_of (dims data) i) = Fin s -> s <> 0 ->
      let want := map (hyb_sigma A B p0 s) (seq 0 nh) in
      (m = MLog -> Forall (Rlt 0) sig /\ Forall (Rlt 0) want) ->
      exists served v, served_order want served /\ (one_direction want -> served = want) /\
        column_value (vcoord m) (fun k => nth k sig 0) (fun k => get (dat data) (upd i ax k)) n (nth (nth ax i 0%nat) served 0) v /\
        get (dat out) i = store v.
Proof.
  intros W Hlev Hn Hnh Hsig Cok Cf HA HB.
  destruct (c22_lemma data ps hyam hybm sig l h ax n nh A B p0 lev_dim cf_name m W Hlev Hn Hnh Hsig HA HB) as (o & c & E & Do & So & Co & _ & _ & _ & G).
  destruct (c101_lemma store data ps hyam hybm (map Fin sig) l h ax n nh (Fin p0) lev_dim cf_name m W Hlev Hn Hnh Cok) as [_ C].
  destruct (C Cf) as (out & Eo & D & S & _). exists out. split; [auto|]. split; [auto|]. split; [auto|].
  intros i s Hi Hs Hs0 want Hm. assert (Hi' : inb (shp (dat o)) i) by congruence.
  destruct (G i s Hi' Hs Hs0 Hm) as (served & V1 & V2 & V3). exists served, (get (dat o) i). split; [auto|]. split; [auto|]. split; [auto|].
  unfold interp_sigma_stored in Eo. destruct (match lev_dim with Some l => Ok l | None => oget ValueError cf_name end); [cbn [bind] in Eo|discriminate].
  rewrite E in Eo. cbn [bind] in Eo. destruct (oget ValueError _); [cbn [bind] in Eo|discriminate]. cbv zeta in Eo. destruct (_ && _ && _); [discriminate|].
  injection Eo as <-. reflexivity.
Qed.
Lemma c100_int (data ps hyam hybm : da fl) (sig : list R) l h ax n nh (A B : nat -> R) p0 lev_dim cf_name m junk :
  sig_wf data ps hyam hybm (map Fin sig) l h ax n nh ->
  lev_dim = Some l \/ (lev_dim = None /\ cf_name = Some l) ->
  (2 <= n)%nat -> (0 < nh <= n)%nat -> NoDup sig -> coords_ok data -> ~ conflict data l ->
  (forall k, (k < nh)%nat -> get (dat hyam) [k] = Fin (A k)) ->
  (forall k, (k < nh)%nat -> get (dat hybm) [k] = Fin (B k)) ->
  exists out,
    interp_sigma_stored (store_int junk) data (map Fin sig) ps hyam hybm (Fin p0) lev_dim cf_name (meth_name m) = Ok out /\
    dims out = upd (dims data) ax "hlev"%string /\ shp (dat out) = upd (shp (dat data)) ax nh /\
    forall i s, inb (shp (dat out)) i -> getn ps (env_of (dims data) i) = Fin s -> s <> 0 ->
      let want := map (hyb_sigma A B p0 s) (seq 0 nh) in
      (m = MLog -> Forall (Rlt 0) sig /\ Forall (Rlt 0) want) ->
      exists served v, served_order want served /\ (one_direction want -> served = want) /\
        column_value (vcoord m) (fun k => nth k sig 0) (fun k => get (dat data) (upd i ax k)) n (nth (nth ax i 0%nat) served 0) v /\
        forall x, v = Fin x -> exists z, get (dat out) i = Fin (IZR z) /\ Rabs (IZR z) <= Rabs x < Rabs (IZR z) + 1 /\ 0 <= x * IZR z.
Proof.
  intros W Hlev Hn Hnh Hsig Cok Cf HA HB.
  destruct (c100_lemma data ps hyam hybm sig l h ax n nh A B p0 lev_dim cf_name m (store_int junk) W Hlev Hn Hnh Hsig Cok Cf HA HB) as (out & E & D & S & G).
  exists out. split; [auto|]. split; [auto|]. split; [auto|]. intros i s Hi Hs Hs0 want Hm.
  destruct (G i s Hi Hs Hs0 Hm) as (served & v & V1 & V2 & V3 & V4). exists served, v. split; [auto|]. split; [auto|]. split; [auto|].
  intros x ->. exists (Rtruncz x). split; [exact V4|]. apply Rtruncz_spec.
Qed.
Lemma c100_float (data ps hyam hybm : da fl) (sig : list R) l h ax n nh (A B : nat -> R) p0 lev_dim cf_name m :
  sig_wf data ps hyam hybm (map Fin sig) l h ax n nh ->
  lev_dim = Some l \/ (lev_dim = None /\ cf_name = Some l) ->
  (2 <= n)%nat -> (0 < nh <= n)%nat -> NoDup sig -> coords_ok data -> ~ conflict data l ->
  (forall k, (k < nh)%nat -> get (dat hyam) [k] = Fin (A k)) ->
  (forall k, (k < nh)%nat -> get (dat hybm) [k] = Fin (B k)) ->
  exists out,
    interp_sigma_stored (fun v => v) data (map Fin sig) ps hyam hybm (Fin p0) lev_dim cf_name (meth_name m) = Ok out /\
    dims out = upd (dims data) ax "hlev"%string /\ shp (dat out) = upd (shp (dat data)) ax nh /\
    forall i s, inb (shp (dat out)) i -> getn ps (env_of (dims data) i) = Fin s -> s <> 0 ->
      let want := map (hyb_sigma A B p0 s) (seq 0 nh) in
      (m = MLog -> Forall (Rlt 0) sig /\ Forall (Rlt 0) want) ->
      exists served, served_order want served /\ (one_direction want -> served = want) /\
        column_value (vcoord m) (fun k => nth k sig 0) (fun k => get (dat data) (upd i ax k)) n (nth (nth ax i 0%nat) served 0) (get (dat out) i).
Proof.
  intros W Hlev Hn Hnh Hsig Cok Cf HA HB.
  destruct (c100_lemma data ps hyam hybm sig l h ax n nh A B p0 lev_dim cf_name m (fun v => v) W Hlev Hn Hnh Hsig Cok Cf HA HB) as (out & E & D & S & G).
  exists out. split; [auto|]. split; [auto|]. split; [auto|]. intros i s Hi Hs Hs0 want Hm.
  destruct (G i s Hi Hs Hs0 Hm) as (served & v & V1 & V2 & V3 & V4). exists served. rewrite V4. auto.
Qed.
Lemma one_sorted x : sorted_le [x].
Proof. intros i j H. cbn in H. assert (i = 0%nat) by lia. assert (j = 0%nat) by lia. subst. cbn. lra. Qed.
