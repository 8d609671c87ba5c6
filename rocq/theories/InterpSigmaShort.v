(** Facts behind C92: interp_sigma_to_hybrid with a surface pressure that covers fewer columns than the data. *)
From Coq Require Import Reals List Bool Arith ZArith Lra Lia String Permutation.
From Verif Require Import PyBase PyFacts Num NumFacts Arr ArrFacts XrFacts Spec Hybrid HybridFacts Interp1d Interp1dFacts InterpHyb ChunkFacts
  InterpHybFacts InterpColumn InterpApi InterpProps ExtrapFacts InterpExtrap InterpFinal InterpSigma InterpSigmaFacts.
Import ListNotations.

Section Short.
  Context {T : Type} {N : Num T}.

  (** data on sigma levels [l] and one other dimension [x]; [ps] along [x], of another length *)
  Record sig_short (data ps hyam hybm : da T) (sig : list T) (l h x : string) (n nh nc mc : nat) : Prop := {
    h_dims : dims data = [l; x]; h_ne : l <> x; h_shp : shp (dat data) = [n; nc];
    h_pd : dims ps = [x]; h_ps : shp (dat ps) = [mc];
    h_da : dims hyam = [h]; h_db : dims hybm = [h];
    h_sa : shp (dat hyam) = [nh]; h_sb : shp (dat hybm) = [nh];
    h_h : h <> x;
    h_c1 : slookup h (coords ps) = None;
    h_lab : same_labels (index_labels hyam h) (index_labels hybm h);
    h_sig : List.length sig = n;
    h_hlev : x <> "hlev"%string }.

  Lemma all_idx_1 n : all_idx [n] = map (fun k => [k]) (seq 0 n).
  Proof. cbn. induction (seq 0 n); cbn; congruence. Qed.

  Lemma combine_seq nc mc q : (q < mc)%nat -> (mc <= nc)%nat ->
    nth_error (combine (map (fun k => [k]) (seq 0 nc)) (map (fun k => [k]) (seq 0 mc))) q = Some ([q], [q]).
  Proof.
    intros Hq Hm. rewrite (nth_error_nth' _ ([0%nat], [0%nat])) by (rewrite combine_length, !map_length, !seq_length; lia).
    replace nc with (mc + (nc - mc))%nat by lia. rewrite seq_app, map_app.
    assert (E : forall (l1 l2 l3 : list (list nat)), List.length l1 = List.length l3 -> combine (l1 ++ l2) l3 = combine l1 l3).
    { clear. induction l1 as [|y l1 IH]; intros l2 [|z l3] H; cbn in *; try discriminate; auto.
      - destruct l2; reflexivity.
      - rewrite IH; auto. }
    rewrite E by (rewrite !map_length; reflexivity). rewrite combine_nth by (rewrite !map_length; reflexivity).
    assert (E2 : nth q (map (fun k => [k]) (seq 0 mc)) [0%nat] = [q]).
    { transitivity ((fun k : nat => [k]) (nth q (seq 0 mc) 0%nat)); [apply (map_nth (fun k : nat => [k]))|]. cbv beta. rewrite seq_nth by auto. reflexivity. }
    rewrite !E2. reflexivity.
  Qed.

  Lemma sigma_short data ps hyam hybm sig l h x n nh nc mc p0 lev_dim cf_name m :
    sig_short data ps hyam hybm sig l h x n nh nc mc ->
    lev_dim = Some l \/ (lev_dim = None /\ cf_name = Some l) ->
    (2 <= n)%nat -> (0 < nh <= n)%nat -> (0 < mc <= nc)%nat ->
    exists out, interp_sigma_to_hybrid data sig ps hyam hybm p0 lev_dim cf_name (meth_name m) = Ok out /\
      dims out = ["hlev"%string; x] /\ shp (dat out) = [nh; nc] /\
      (forall k c, (mc <= c)%nat -> get (dat out) [k; c] = get (dat data) [k; c]) /\
      (forall k c, (c < mc)%nat ->
         exists r, interp_with m (map (fun j => nadd (ndiv (nmul (get (dat hyam) [j]) p0) (get (dat ps) [c])) (get (dat hybm) [j])) (seq 0 nh))
                     sig (map (fun j => get (dat data) [j; c]) (seq 0 n)) = Ok r /\
           get (dat out) [k; c] = nth k r nnan).
  Proof.
    intros [Hd Hne Hs Pd Ps Da Db Sa Sb Hh Hc1 Hlab Hsig Hhl] Hlev Hn Hnh Hmc.
    assert (Wps : wf_da ps). { split; [rewrite Pd, Ps; reflexivity|rewrite Pd; repeat constructor; intros []]. }
    destruct (sigma_spec ps hyam hybm p0 h nh Da Db Sa Sb Wps ltac:(rewrite Pd; intros [E|[]]; auto) Hc1 Hlab)
      as (sigma & Es & Dsig & Sh & Sd & Gs).
    assert (Sx : dsize sigma x = Some mc).
    { rewrite Sd by (rewrite Pd; cbn; auto). unfold dsize. rewrite Pd, Ps. cbn. rewrite String.eqb_refl. reflexivity. }
    assert (Exl : String.eqb x l = false) by (apply String.eqb_neq; auto).
    assert (Ehx : String.eqb h x = false) by (apply String.eqb_neq; auto).
    assert (Exh : String.eqb x h = false) by (apply String.eqb_neq; auto).
    assert (Szd : sizes_of data [x] = [nc]).
    { unfold sizes_of, dsize. rewrite Hd, Hs. cbn. rewrite Exl, String.eqb_refl. reflexivity. }
    assert (Szs : sizes_of sigma [x] = [mc]) by (unfold sizes_of; cbn; rewrite Sx; reflexivity).
    assert (Szh : sizes_of sigma [h] = [nh]) by (unfold sizes_of; cbn; rewrite Sh; reflexivity).
    assert (Col1 : forall c, col_by_name data [x] [c] l n = map (fun j => get (dat data) [j; c]) (seq 0 n)).
    { intros c. unfold col_by_name. apply map_ext. intros j. unfold getn. rewrite Hd. cbn [map]. unfold set_env, env_of.
      cbn [sindex]. rewrite Exl, !String.eqb_refl. reflexivity. }
    assert (Col2 : forall c, col_by_name sigma [x] [c] h nh =
      map (fun j => nadd (ndiv (nmul (get (dat hyam) [j]) p0) (get (dat ps) [c])) (get (dat hybm) [j])) (seq 0 nh)).
    { intros c. unfold col_by_name. apply map_ext. intros j. rewrite Gs. unfold getn. rewrite Pd. cbn [map]. unfold set_env, env_of.
      cbn [sindex]. rewrite Exh, !String.eqb_refl. reflexivity. }
    assert (Col : forall c, exists r a, interp_nd m (col_by_name sigma [x] [c] h nh) (vec nnan sig) (vec nnan (col_by_name data [x] [c] l n)) 0 = Ok a /\
        shp a = [nh] /\ interp_with m (col_by_name sigma [x] [c] h nh) sig (col_by_name data [x] [c] l n) = Ok r /\
        forall k, get a [k] = nth k r nnan).
    { intros c. destruct (interp_nd_1d m (col_by_name sigma [x] [c] h nh) sig (col_by_name data [x] [c] l n)) as (r & a & E1 & E2 & E3 & E4).
      - unfold col_by_name. destruct nh; [lia|]. discriminate.
      - lia.
      - unfold col_by_name. rewrite map_length, seq_length. auto.
      - exists r, a. split; auto. split; auto. rewrite E3. unfold col_by_name. rewrite map_length, seq_length. reflexivity. }
    unfold interp_sigma_to_hybrid.
    replace (match lev_dim with Some l0 => Ok l0 | None => oget ValueError cf_name end) with (Ok l : res string)
        by (destruct Hlev as [->|[-> ->]]; reflexivity).
    cbn [bind]. replace (func_interpolate (meth_name m)) with (Ok m : res imethod) by (destruct m; reflexivity).
    cbn [bind]. rewrite Es. cbn [bind]. rewrite Hd. cbn [sindex]. rewrite String.eqb_refl. cbn [oget bind].
    change (remove_at 0 [l; x]) with [x]. rewrite Dsig, Pd. cbn [forallb smem existsb]. rewrite Exh, String.eqb_refl. cbn [orb andb negb].
    cbn [filter smem existsb]. rewrite Ehx, String.eqb_refl. cbn [orb negb]. cbn [bind]. rewrite Sa. cbn [hd_error oget bind].
    rewrite Szd, Szs, Szh, Hs. cbn [nth hd]. rewrite !all_idx_1.
    replace (hd_error (map (fun k => [k]) (seq 0 mc))) with (Some [0%nat]) by (destruct mc; [lia|reflexivity]).
    cbn [oget bind]. replace (Nat.min n nh) with nh by lia.
    set (F := fun c : list nat * list nat => _).
    destruct (mapM_total F (combine (map (fun k => [k]) (seq 0 nc)) (map (fun k => [k]) (seq 0 mc)))) as [results Er].
    { intros c Hc. destruct c as [c1 c2].
      apply (In_nth _ _ ([0%nat], [0%nat])) in Hc. destruct Hc as (q & Lq & Eq).
      rewrite combine_length, !map_length, !seq_length in Lq.
      assert (Nq : nth_error (combine (map (fun k => [k]) (seq 0 nc)) (map (fun k => [k]) (seq 0 mc))) q = Some ([q], [q])).
      { apply combine_seq; lia. }
      rewrite (nth_error_nth _ _ _ Nq) in Eq. injection Eq as <- <-. unfold F. cbn [fst snd].
      destruct (Col q) as (r & a & E1 & E2 & _). rewrite E1. cbn [bind]. rewrite E2. destruct (shape_eqb_spec [nh] [nh]); [|congruence]. cbn. eauto. }
    rewrite Er. cbn [bind existsb]. replace (String.eqb "hlev" x) with false by (symmetry; apply String.eqb_neq; auto).
    replace ((String.eqb "hlev" l || (false || false)) && negb (String.eqb l "hlev")) with false.
    2:{ rewrite (String.eqb_sym "hlev" l). destruct (String.eqb l "hlev"); reflexivity. }
    rewrite Nat.eqb_refl. cbn [negb]. eexists. split; [reflexivity|]. cbn [dims dat shp get upd nth].
    split; auto. split; auto.
    assert (Lr : List.length results = mc).
    { apply mapM_Ok_iff in Er. apply Forall2_length in Er. rewrite <- Er, combine_length, !map_length, !seq_length. lia. }
    assert (Efl : forall k c, flat [nc] (remove_at 0 [k; c]) = c) by (intros k c; cbn; lia).
    split; intros k c Hc; rewrite Efl.
    - rewrite (proj2 (nth_error_None results c)) by lia. reflexivity.
    - destruct (Col c) as (r & a & E1 & E2 & E3 & E4). exists r. rewrite <- Col1, <- Col2. split; auto.
      apply mapM_Ok_iff in Er. destruct (Forall2_nth_error _ _ _ Er _ _ (combine_seq nc mc c Hc ltac:(lia))) as (y & Hy & Ey).
      rewrite Hy. unfold F in Ey. cbn [fst snd] in Ey. rewrite E1 in Ey. cbn [bind] in Ey. rewrite E2 in Ey.
      destruct (shape_eqb_spec [nh] [nh]); [|congruence]. cbn in Ey. injection Ey as <-. apply E4.
  Qed.
End Short.

Lemma c91_uncovered (T : Type) (N : Num T) (data ps hyam hybm : da T) sig l h x n nh nc mc p0 lev_dim cf_name m :
  sig_short data ps hyam hybm sig l h x n nh nc mc ->
  lev_dim = Some l \/ (lev_dim = None /\ cf_name = Some l) ->
  (2 <= n)%nat -> (0 < nh <= n)%nat -> (0 < mc < nc)%nat ->
  exists out, interp_sigma_to_hybrid data sig ps hyam hybm p0 lev_dim cf_name (meth_name m) = Ok out /\
    dims out = ["hlev"%string; x] /\ shp (dat out) = [nh; nc] /\
    forall k c, (mc <= c < nc)%nat -> get (dat out) [k; c] = get (dat data) [k; c].
Proof.
  intros W Hl Hn Hh Hm. destruct (sigma_short _ _ _ _ _ _ _ _ _ _ _ _ p0 lev_dim cf_name m W Hl Hn Hh ltac:(lia)) as (out & E & D & Sh & G & _).
  exists out. repeat (split; [assumption|]). intros k c Hc. apply G. lia.
Qed.

Lemma c91_covered (T : Type) (N : Num T) (data data' ps hyam hybm : da T) sig l h x n nh nc mc p0 lev_dim cf_name m out out' :
  sig_short data ps hyam hybm sig l h x n nh nc mc ->
  sig_short data' ps hyam hybm sig l h x n nh mc mc ->
  (forall k c, (k < n)%nat -> (c < mc)%nat -> get (dat data') [k; c] = get (dat data) [k; c]) ->
  lev_dim = Some l \/ (lev_dim = None /\ cf_name = Some l) ->
  (2 <= n)%nat -> (0 < nh <= n)%nat -> (0 < mc <= nc)%nat ->
  interp_sigma_to_hybrid data sig ps hyam hybm p0 lev_dim cf_name (meth_name m) = Ok out ->
  interp_sigma_to_hybrid data' sig ps hyam hybm p0 lev_dim cf_name (meth_name m) = Ok out' ->
  forall k c, (c < mc)%nat -> get (dat out) [k; c] = get (dat out') [k; c].
Proof.
  intros W W' Hd Hl Hn Hh Hm E E' k c Hc.
  destruct (sigma_short _ _ _ _ _ _ _ _ _ _ _ _ p0 lev_dim cf_name m W Hl Hn Hh ltac:(lia)) as (o & Eo & _ & _ & _ & G).
  destruct (sigma_short _ _ _ _ _ _ _ _ _ _ _ _ p0 lev_dim cf_name m W' Hl Hn Hh ltac:(lia)) as (o' & Eo' & _ & _ & _ & G').
  assert (o = out) by congruence. assert (o' = out') by congruence. subst o o'.
  destruct (G k c Hc) as (r & Er & ->). destruct (G' k c Hc) as (r' & Er' & ->).
  rewrite (map_ext_in (fun j => get (dat data') [j; c]) (fun j => get (dat data) [j; c])) in Er'.
  - congruence.
  - intros j Hj. apply in_seq in Hj. apply Hd; lia.
Qed.
