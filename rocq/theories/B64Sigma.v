(** interp_sigma_to_hybrid in binary64 (C131). *)
From Coq Require Import Reals List Bool Arith ZArith Lra Lia String Permutation.
From Flocq Require Import Core BinarySingleNaN.
From Verif Require Import PyBase PyFacts Num NumFacts NumB64 Arr ArrFacts XrFacts Spec SpecSum SpecB64 B64Facts B64DeltaP B64Hybrid B64Blend
  Hybrid HybridFacts Interp1d Interp1dFacts Interp1dGen InterpHyb ChunkFacts InterpHybFacts InterpApi InterpSigma InterpSigmaFacts B64Interp SpecB64Sigma.
Import ListNotations.
Local Open Scope R_scope.

Section B.
  Variable M : libm.
  Local Instance NB : Num b64 := B64Interp.NB M.

  Lemma c131_lemma (data ps hyam hybm : da b64) sig l h ax n nh p0 lev_dim cf_name m sr :
    sig_wf data ps hyam hybm sig l h ax n nh -> lev_dim = Some l \/ (lev_dim = None /\ cf_name = Some l) -> (2 <= n)%nat -> (0 < nh <= n)%nat ->
    Forall2 is (map (vkey M m) sig) sr -> NoDup sr -> Forall (fun z => Rabs z <= 2 * hi900) sr ->
    exists out, interp_sigma_to_hybrid data sig ps hyam hybm p0 lev_dim cf_name (meth_name m) = Ok out /\
      dims out = upd (dims data) ax "hlev"%string /\ shp (dat out) = upd (shp (dat data)) ax nh /\
      forall i want, inb (shp (dat out)) i ->
        (forall k, (k < nh)%nat -> is (vkey M m (Bplus mode_NE (Bdiv mode_NE (Bmult mode_NE (get (dat hyam) [k]) p0) (getn ps (env_of (dims data) i))) (get (dat hybm) [k]))) (want k)) ->
        one_direction (map want (seq 0 nh)) ->
        let q k := nth k sr 0 in let x := want (nth ax i 0%nat) in let y := get (dat out) i in
        (out_of_range q n x -> y = B754_nan) /\
        (~ out_of_range q n x -> exists lo hi, code_bracket q n lo hi x /\
           forall va vb, is (get (dat data) (upd i ax lo)) va -> is (get (dat data) (upd i ax hi)) vb -> Rabs va <= hi900 -> Rabs vb <= hi900 ->
             exists r, is y r /\ good_value va vb (q lo) (q hi) x r).
  Proof.
    intros W Hl Hn Hh Hs Hd Hb.
    destruct (proj1 (sigma_core data ps hyam hybm sig l h ax n nh p0 lev_dim cf_name m W Hl Hn (proj1 Hh)) (proj2 Hh)) as (out & c & E & Do & So & _ & _ & _ & _ & G).
    exists out. split; [exact E|]. split; [exact Do|]. split; [exact So|]. intros i want Hi Hw Ho q x y.
    destruct (G i Hi) as (r & Er & Ey). unfold NB in Er. rewrite vkey_with in Er.
    assert (Ls : List.length sr = n). { rewrite <- (Forall2_length Hs), map_length. exact (s_sig _ _ _ _ _ _ _ _ _ _ W). }
    assert (Hin : (nth ax i 0 < nh)%nat).
    { clear - So Hi W. rewrite So in Hi. apply inb_nth in Hi. destruct Hi as [_ Hi].
      assert (Lax : (ax < List.length (shp (dat data)))%nat) by (apply nth_error_Some; rewrite (s_n _ _ _ _ _ _ _ _ _ _ W); discriminate).
      specialize (Hi ax). rewrite upd_length in Hi. specialize (Hi Lax). rewrite nth_upd, Nat.eqb_refl in Hi.
      replace (Nat.ltb ax (List.length (shp (dat data)))) with true in Hi by (symmetry; apply Nat.ltb_lt; auto). exact Hi. }
    rewrite map_map in Er.
    assert (Hx : Forall2 is (map (fun k => vkey M m (nadd (ndiv (nmul (get (dat hyam) [k]) p0) (getn ps (env_of (dims data) i))) (get (dat hybm) [k]))) (seq 0 nh)) (map want (seq 0 nh))).
    { apply map_seq_is. exact Hw. }
    destruct (b64_interp_col M _ _ _ sr (col_at (dat data) ax i n) Hx Hs) as (r' & Er' & Lr & G').
    - unfold col_at. rewrite map_length, seq_length, Ls. reflexivity.
    - rewrite Ls. exact Hn.
    - exact Hd.
    - destruct nh; [lia|discriminate].
    - exact Ho.
    - intros k Hk. rewrite Forall_forall in Hb. apply Hb, nth_In, Hk.
    - assert (Rr : Ok r' = Ok r) by exact (eq_trans (eq_sym Er') Er). assert (r' = r) by congruence. subst r'. specialize (G' (nth ax i 0%nat)). rewrite map_length, seq_length, Ls in G'. specialize (G' Hin). cbv zeta in G'.
      rewrite nth_seq in G' by exact Hin. fold x in G'. assert (Ey2 : y = nth (nth ax i 0%nat) r (@nnan _ (B64Interp.NB M))) by exact Ey. rewrite <- Ey2 in G'. destruct G' as [G1 G2]. split; [exact G1|]. intros Q.
      destruct (G2 Q) as (lo & hi & Hc & Gv). exists lo, hi. split; [exact Hc|].
      destruct Hc as ((Hlo & Hhi & _) & _).
      intros va vb Ia Ib. apply Gv; unfold col_at; rewrite (nth_indep _ (@nnan _ (B64Interp.NB M)) (get (dat data) (upd i ax 0%nat))) by (rewrite map_length, seq_length; auto);
        rewrite (map_nth (fun k => get (dat data) (upd i ax k))), seq_nth by auto; auto.
  Qed.

  Lemma rsig_is x y p s a b p0 ps : is x a -> is y b -> is p p0 -> is s ps -> ps <> 0 -> Rabs (a * p0) <= hi900 -> Rabs (rn (a * p0) / ps) <= hi900 -> Rabs b <= hi900 ->
    is (Bplus mode_NE (Bdiv mode_NE (Bmult mode_NE x p) s) y) (rsig a b p0 ps).
  Proof.
    intros Hx Hy Hp Hs Hz H1 H2 H3. pose proof hi_big2 as HB. assert (0 < hi900) by apply bpow_gt_0. unfold rsig.
    apply add_is; auto; [apply div_is; auto; [apply mul_is; auto; lra|lra]|].
    eapply Rle_trans; [apply Rabs_triang|]. pose proof (rn_abs_le _ _ fmt_hi H2). lra.
  Qed.

  Lemma c131_linear (data ps hyam hybm : da b64) sig l h ax n nh p0 lev_dim cf_name sr a b p0r :
    sig_wf data ps hyam hybm sig l h ax n nh -> lev_dim = Some l \/ (lev_dim = None /\ cf_name = Some l) -> (2 <= n)%nat -> (0 < nh <= n)%nat ->
    Forall2 is sig sr -> NoDup sr -> Forall (fun z => Rabs z <= 2 * hi900) sr ->
    (forall k, (k < nh)%nat -> is (get (dat hyam) [k]) (a k) /\ is (get (dat hybm) [k]) (b k)) -> is p0 p0r ->
    exists out, interp_sigma_to_hybrid data sig ps hyam hybm p0 lev_dim cf_name "linear" = Ok out /\
      dims out = upd (dims data) ax "hlev"%string /\ shp (dat out) = upd (shp (dat data)) ax nh /\
      forall i s, inb (shp (dat out)) i -> is (getn ps (env_of (dims data) i)) s -> s <> 0 -> sig_in_range a b p0r s nh ->
        one_direction (map (fun k => rsig (a k) (b k) p0r s) (seq 0 nh)) ->
        let q k := nth k sr 0 in let j := nth ax i 0%nat in let x := rsig (a j) (b j) p0r s in let y := get (dat out) i in
        (out_of_range q n x -> y = B754_nan) /\
        (~ out_of_range q n x -> exists lo hi, code_bracket q n lo hi x /\
           forall va vb, is (get (dat data) (upd i ax lo)) va -> is (get (dat data) (upd i ax hi)) vb -> Rabs va <= hi900 -> Rabs vb <= hi900 ->
             exists r, is y r /\ good_value va vb (q lo) (q hi) x r).
  Proof.
    intros W Hl Hn Hh Hs Hd Hb Hc Hp.
    assert (Hs' : Forall2 is (map (vkey M MLinear) sig) sr) by (change (vkey M MLinear) with (fun x : b64 => x); rewrite map_id; exact Hs).
    destruct (c131_lemma data ps hyam hybm sig l h ax n nh p0 lev_dim cf_name MLinear sr W Hl Hn Hh Hs' Hd Hb) as (out & E & Do & So & G).
    exists out. split; [exact E|]. split; [exact Do|]. split; [exact So|]. intros i s Hi Is Hz Hr Ho.
    apply (G i (fun k => rsig (a k) (b k) p0r s) Hi); [|exact Ho].
    intros k Hk. destruct (Hc k Hk). destruct (Hr k Hk) as (R1 & R2 & R3). apply rsig_is; auto.
  Qed.
End B.
