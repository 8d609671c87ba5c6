(** C22: interp_sigma_to_hybrid. *)
From Coq Require Import Reals List Bool Arith ZArith Lra Lia String Permutation.
From Verif Require Import PyBase PyFacts Num NumFacts Arr ArrFacts XrFacts Spec Hybrid HybridFacts Interp1d Interp1dFacts InterpHyb ChunkFacts
  InterpHybFacts InterpColumn InterpApi InterpProps InterpSigma InterpSigmaFacts InterpSigmaShort.
Import ListNotations.
Local Open Scope R_scope.

(** C22.  [sig_wf] (InterpSigmaFacts.v): data, of any rank, has the level dimension [l] on axis [ax]
    with [n] entries; ps has data's other dimensions in any order with the same sizes; hyam and hybm
    are one-dimensional with [nh] entries.  The wanted sigma values come out in the order asked for
    whenever they are monotone in the column. *)
Theorem C22_sigma_to_hybrid_columns :
  forall (data ps hyam hybm : da fl) (sig : list R) l h ax n nh (A B : nat -> R) p0 lev_dim cf_name m,
  sig_wf data ps hyam hybm (map Fin sig) l h ax n nh ->
  lev_dim = Some l \/ (lev_dim = None /\ cf_name = Some l) ->
  (2 <= n)%nat -> (0 < nh <= n)%nat -> NoDup sig ->
  (forall k, (k < nh)%nat -> get (dat hyam) [k] = Fin (A k)) ->
  (forall k, (k < nh)%nat -> get (dat hybm) [k] = Fin (B k)) ->
  exists out c,
    interp_sigma_to_hybrid data (map Fin sig) ps hyam hybm (Fin p0) lev_dim cf_name (meth_name m) = Ok out /\
    dims out = upd (dims data) ax "hlev"%string /\ shp (dat out) = upd (shp (dat data)) ax nh /\
    coords out = [("hlev"%string, c)] /\ cdims c = ["hlev"%string] /\ shp (cdat c) = [nh] /\
    (forall s0 k, getn ps (fun _ => 0%nat) = Fin s0 -> s0 <> 0 -> (k < nh)%nat -> get (cdat c) [k] = Fin (hyb_sigma A B p0 s0 k)) /\
    forall i s, inb (shp (dat out)) i -> getn ps (env_of (dims data) i) = Fin s -> s <> 0 ->
      let want := map (hyb_sigma A B p0 s) (seq 0 nh) in
      (m = MLog -> Forall (Rlt 0) sig /\ Forall (Rlt 0) want) ->
      exists served, served_order want served /\ (one_direction want -> served = want) /\
        column_value (vcoord m) (fun k => nth k sig 0) (fun k => get (dat data) (upd i ax k)) n
          (nth (nth ax i 0%nat) served 0) (get (dat out) i).
Proof. exact c22_lemma. Qed.
Print Assumptions C22_sigma_to_hybrid_columns.

(** more hybrid levels than sigma levels is always an error *)
Theorem C22_sigma_to_hybrid_needs_enough_levels :
  forall (T : Type) (N : Num T) (data ps hyam hybm : da T) sig l h ax n nh p0 lev_dim cf_name m,
  sig_wf data ps hyam hybm sig l h ax n nh ->
  lev_dim = Some l \/ (lev_dim = None /\ cf_name = Some l) ->
  (2 <= n)%nat -> (n < nh)%nat ->
  interp_sigma_to_hybrid data sig ps hyam hybm p0 lev_dim cf_name (meth_name m) = Err ValueError.
Proof. exact c22_too_many. Qed.
Print Assumptions C22_sigma_to_hybrid_needs_enough_levels.

Definition ex_sig_data : da fl :=
  mkDa ["time"; "lev"; "lat"]%string (mkArr [2; 3; 4]%nat (fun i => Fin (INR (flat [2; 3; 4]%nat i)))) [] [] None.
Definition ex_sig_ps : da fl :=
  mkDa ["lat"; "time"]%string (mkArr [4; 2]%nat (fun i => Fin (900 + INR (flat [4; 2]%nat i)))) [] [] None.
Definition ex_sig_hy (nh : nat) : da fl := mkDa ["hlev0"%string] (mkArr [nh] (fun i => Fin (INR (1 + hd 0%nat i) / 10))) [] [] None.
Example C22_example nh sig : List.length sig = 3%nat ->
  sig_wf ex_sig_data ex_sig_ps (ex_sig_hy nh) (ex_sig_hy nh) sig "lev" "hlev0" 1%nat 3%nat nh.
Proof.
  intros Hs. constructor; try reflexivity; auto.
  - split; [reflexivity|]. repeat constructor; cbn; intuition discriminate.
  - repeat constructor; lia.
  - split; [reflexivity|]. repeat constructor; cbn; intuition discriminate.
  - change (Permutation ["lev"; "lat"; "time"]%string ["time"; "lev"; "lat"]%string).
    apply Permutation_trans with ["lev"; "time"; "lat"]%string; [apply perm_skip, perm_swap|apply perm_swap].
  - intros d [<-|[<-|[]]]; reflexivity.
  - cbn. intuition discriminate.
  - left. cbn. intuition discriminate.
Qed.
Example C22_example_value :
  NoDup [1 / 10; 1 / 2; 9 / 10] /\ one_direction (map (hyb_sigma (fun k => INR (1 + k) / 10) (fun k => INR (1 + k) / 10) 1000 900) (seq 0 2)).
Proof.
  split; [repeat constructor; cbn; intuition lra|]. left. intros i j H. cbn in H.
  destruct i as [|[|i]], j as [|[|j]]; try lia. unfold hyb_sigma. cbn. lra.
Qed.

(** C91.  Intended: a surface pressure that does not cover every column of the data is rejected.  Refuted:
    for every two-dimensional data [l; x] and every ps along x with fewer entries ([sig_short],
    InterpSigmaShort.v), the call succeeds, and the columns beyond the last surface pressure hold the
    uninterpolated data of the sigma levels, labelled as hybrid levels. *)
Theorem C91_uncovered_columns_refuted :
  forall (T : Type) (N : Num T) (data ps hyam hybm : da T) sig l h x n nh nc mc p0 lev_dim cf_name m,
  sig_short data ps hyam hybm sig l h x n nh nc mc ->
  lev_dim = Some l \/ (lev_dim = None /\ cf_name = Some l) ->
  (2 <= n)%nat -> (0 < nh <= n)%nat -> (0 < mc < nc)%nat ->
  exists out, interp_sigma_to_hybrid data sig ps hyam hybm p0 lev_dim cf_name (meth_name m) = Ok out /\
    dims out = ["hlev"%string; x] /\ shp (dat out) = [nh; nc] /\
    forall k c, (mc <= c < nc)%nat -> get (dat out) [k; c] = get (dat data) [k; c].
Proof. exact @c91_uncovered. Qed.
Print Assumptions C91_uncovered_columns_refuted.

(** C91.  The columns that ps does cover are the ones of the call on those columns alone. *)
Theorem C91_covered_columns :
  forall (T : Type) (N : Num T) (data data' ps hyam hybm : da T) sig l h x n nh nc mc p0 lev_dim cf_name m out out',
  sig_short data ps hyam hybm sig l h x n nh nc mc ->
  sig_short data' ps hyam hybm sig l h x n nh mc mc ->
  (forall k c, (k < n)%nat -> (c < mc)%nat -> get (dat data') [k; c] = get (dat data) [k; c]) ->
  lev_dim = Some l \/ (lev_dim = None /\ cf_name = Some l) ->
  (2 <= n)%nat -> (0 < nh <= n)%nat -> (0 < mc <= nc)%nat ->
  interp_sigma_to_hybrid data sig ps hyam hybm p0 lev_dim cf_name (meth_name m) = Ok out ->
  interp_sigma_to_hybrid data' sig ps hyam hybm p0 lev_dim cf_name (meth_name m) = Ok out' ->
  forall k c, (c < mc)%nat -> get (dat out) [k; c] = get (dat out') [k; c].
Proof. exact @c91_covered. Qed.
Print Assumptions C91_covered_columns.

Definition ex_short_data (nc : nat) : da fl :=
  mkDa ["lev"; "lat"]%string (mkArr [3; nc]%nat (fun i => Fin (INR (flat [3; nc]%nat i)))) [] [] None.
Definition ex_short_ps : da fl := mkDa ["lat"]%string (mkArr [2]%nat (fun i => Fin (900 + INR (hd 0%nat i)))) [] [] None.
Example C91_example nc sig : List.length sig = 3%nat ->
  sig_short (ex_short_data nc) ex_short_ps (ex_sig_hy 2) (ex_sig_hy 2) sig "lev" "hlev0" "lat" 3 2 nc 2.
Proof. intros Hs. constructor; try reflexivity; try discriminate; auto. Qed.
