(** C100 and C101: what interp_sigma_to_hybrid stores and how it labels it. *)
From Coq Require Import Reals List Bool Arith ZArith Lra Lia String Permutation.
From Verif Require Import PyBase PyFacts Num NumFacts Arr ArrFacts XrFacts Spec Hybrid HybridFacts Interp1d Interp1dFacts InterpHyb
  InterpHybFacts InterpColumn InterpApi InterpProps InterpSigma InterpSigmaFacts InterpSigmaFull InterpSigmaFullFacts PropertiesInterp2.
Import ListNotations.
Local Open Scope R_scope.

(** C100.  Whole-number data: the call of C22 on data stored as integers.  The result has the same dimensions and shape, but every
    number is the interpolated one ([v]) cut off towards zero: up to one unit is lost. *)
Theorem C100_integer_data :
  forall (data ps hyam hybm : da fl) (sig : list R) l h ax n nh (A B : nat -> R) p0 lev_dim cf_name m junk,
  sig_wf data ps hyam hybm (map Fin sig) l h ax n nh ->
  lev_dim = Some l \/ (lev_dim = None /\ cf_name = Some l) ->
  (2 <= n)%nat -> (0 < nh <= n)%nat -> NoDup sig -> coords_ok data -> ~ conflict data l ->
  (forall k, (k < nh)%nat -> get (dat hyam) [k] = Fin (A k)) ->
  (forall k, (k < nh)%nat -> get (dat hybm) [k] = Fin (B k)) ->
  exists out,
    interp_sigma_stored (store_int junk) data (map Fin sig) ps hyam hybm (Fin p0) lev_dim cf_name (meth_name m) = Ok out /\
    dims out = upd (dims data) ax "hlev"%string /\ shp (dat out) = upd (shp (dat data)) ax nh /\
    forall i s, inb (shp (dat out)) i -> getn ps (env_of (dims data) i) = Fin s -> s <> 0 ->
      let want := map (hyb_sigma A B p0 s) (seq 0 nh) in
      (m = MLog -> Forall (Rlt 0) sig /\ Forall (Rlt 0) want) ->
      exists served v, served_order want served /\ (one_direction want -> served = want) /\
        column_value (vcoord m) (fun k => nth k sig 0) (fun k => get (dat data) (upd i ax k)) n (nth (nth ax i 0%nat) served 0) v /\
        forall x, v = Fin x -> exists z, get (dat out) i = Fin (IZR z) /\ Rabs (IZR z) <= Rabs x < Rabs (IZR z) + 1 /\ 0 <= x * IZR z.
Proof. exact c100_int. Qed.
Print Assumptions C100_integer_data.

(** C100.  Data stored as floating point numbers: nothing is lost *)
Theorem C100_float_data :
  forall (data ps hyam hybm : da fl) (sig : list R) l h ax n nh (A B : nat -> R) p0 lev_dim cf_name m,
  sig_wf data ps hyam hybm (map Fin sig) l h ax n nh ->
  lev_dim = Some l \/ (lev_dim = None /\ cf_name = Some l) ->
  (2 <= n)%nat -> (0 < nh <= n)%nat -> NoDup sig -> coords_ok data -> ~ conflict data l ->
  (forall k, (k < nh)%nat -> get (dat hyam) [k] = Fin (A k)) ->
  (forall k, (k < nh)%nat -> get (dat hybm) [k] = Fin (B k)) ->
  exists out,
    interp_sigma_stored (fun v => v) data (map Fin sig) ps hyam hybm (Fin p0) lev_dim cf_name (meth_name m) = Ok out /\
    dims out = upd (dims data) ax "hlev"%string /\ shp (dat out) = upd (shp (dat data)) ax nh /\
    forall i s, inb (shp (dat out)) i -> getn ps (env_of (dims data) i) = Fin s -> s <> 0 ->
      let want := map (hyb_sigma A B p0 s) (seq 0 nh) in
      (m = MLog -> Forall (Rlt 0) sig /\ Forall (Rlt 0) want) ->
      exists served, served_order want served /\ (one_direction want -> served = want) /\
        column_value (vcoord m) (fun k => nth k sig 0) (fun k => get (dat data) (upd i ax k)) n (nth (nth ax i 0%nat) served 0) (get (dat out) i).
Proof. exact c100_float. Qed.
Print Assumptions C100_float_data.

(** a profile of two whole numbers, 10 at sigma 1 and 11 at sigma 3, wanted at sigma 2 *)
Definition exs_data : da fl := mkDa ["lev"%string] (vec NaN [Fin 10; Fin 11]) [] [] None.
Definition exs_ps : da fl := mkDa [] (scalar (Fin 1000)) [] [] None.
Definition exs_a : da fl := mkDa ["k"%string] (vec NaN [Fin 0]) [] [] None.
Definition exs_b : da fl := mkDa ["k"%string] (vec NaN [Fin 2]) [] [] None.
Lemma exs_wf : sig_wf exs_data exs_ps exs_a exs_b (map Fin [1; 3]) "lev" "k" 0%nat 2%nat 1%nat.
Proof.
  constructor; try reflexivity.
  - split; [reflexivity|]. repeat constructor; cbn; intuition discriminate.
  - repeat constructor; lia.
  - split; [reflexivity|constructor].
  - intros d [].
  - intros [].
  - left. cbn. intuition discriminate.
Qed.

(** C100.  Intended: the result does not depend on whether whole numbers are stored as integers or as floating point numbers.
    Refuted: halfway between 10 and 11 the one call returns 10.5, the other 10. *)
Theorem C100_storage_refuted :
  exists (data ps hyam hybm : da fl) sig,
  (forall i, inb (shp (dat data)) i -> exists z, get (dat data) i = Fin (IZR z)) /\
  (exists out, interp_sigma_stored (fun v => v) data sig ps hyam hybm (Fin 100000) (Some "lev"%string) None "linear" = Ok out /\ get (dat out) [0%nat] = Fin 10.5) /\
  exists out, interp_sigma_stored (store_int NaN) data sig ps hyam hybm (Fin 100000) (Some "lev"%string) None "linear" = Ok out /\ get (dat out) [0%nat] = Fin 10.
Proof.
  exists exs_data, exs_ps, exs_a, exs_b, (map Fin [1; 3]). split.
  { intros i Hi. inversion Hi as [|k ? r ? Hk Hr]; subst. inversion Hr; subst. destruct k as [|[|k]]; [exists 10%Z; reflexivity|exists 11%Z; reflexivity|lia]. }
  assert (R : forall store, exists out, interp_sigma_stored store exs_data (map Fin [1; 3]) exs_ps exs_a exs_b (Fin 100000) (Some "lev"%string) None "linear" = Ok out /\
    get (dat out) [0%nat] = store (Fin 10.5)).
  { intros store. destruct (c100_lemma exs_data exs_ps exs_a exs_b [1; 3] "lev" "k" 0 2 1 (fun _ => 0) (fun _ => 2) 100000 (Some "lev"%string) None MLinear store exs_wf) as (out & E & D & S & G); auto.
    - repeat constructor; cbn; intuition lra.
    - split; [constructor|intros k c []].
    - intros [[] _].
    - intros k Hk. assert (k = 0%nat) by lia. subst. reflexivity.
    - intros k Hk. assert (k = 0%nat) by lia. subst. reflexivity.
    - exists out. split; [exact E|]. destruct (G [0%nat] 1000) as (served & v & O & Sv & Cv & ->); [rewrite S; repeat constructor|reflexivity|lra|discriminate|]. f_equal.
      cbn [map seq] in Sv. rewrite Sv in Cv by (left; apply one_sorted). cbn [nth] in Cv. unfold hyb_sigma in Cv. replace (0 * 100000 / 1000 + 2) with 2 in Cv by field.
      destruct Cv as [[Ro _]|(i & j & ((Hi & Hj & Ne) & Bt & _) & ->)].
      + exfalso. destruct Ro as [Ro|Ro]; [specialize (Ro 1%nat ltac:(lia))|specialize (Ro 0%nat ltac:(lia))]; cbn in Ro; lra.
      + destruct i as [|[|i]]; [| |lia]; (destruct j as [|[|j]]; [| |lia]); cbn [nth] in *; try lra.
        cbn. f_equal. unfold vcoord. lra. }
  split; [exact (R (fun v => v))|]. destruct (R (store_int NaN)) as (out & E & G). exists out. split; [exact E|]. rewrite G. unfold store_int. cbn [ntrunc NumFl fl_toZ].
  replace (Rtruncz 10.5) with 10%Z; [reflexivity|]. symmetry. unfold Rtruncz, Rfloor. destruct (Rlt_dec 10.5 0); [lra|]. destruct (base_Int_part 10.5) as [H1 H2].
  assert (9 < Int_part 10.5)%Z by (apply lt_IZR; lra). assert (Int_part 10.5 < 11)%Z by (apply lt_IZR; lra). lia.
Qed.
Print Assumptions C100_storage_refuted.

(** C101.  The labels of the result.  Under the hypotheses of C22, whatever the storage type: attributes and name are the data's;
    every coordinate of the data except the level's has the same value at every cell of the result; a dimension coordinate is
    unchanged; a coordinate along the level only (or scalar) is cut and renamed along; any other one is spread over all dimensions but
    the level (and keeps the level if it had it); a dimension without labels gets 0, 1, ...; the level coordinate is replaced by
    hlev, the hybrid levels' sigma at the first column, and there are no other coordinates.  When the data has both a level coordinate
    and a coordinate called hlev, the call fails. *)
Theorem C101_labels :
  forall (T : Type) (N : Num T) store (data ps hyam hybm : da T) sig l h ax n nh p0 lev_dim cf_name m,
  sig_wf data ps hyam hybm sig l h ax n nh -> lev_dim = Some l \/ (lev_dim = None /\ cf_name = Some l) ->
  (2 <= n)%nat -> (0 < nh <= n)%nat -> coords_ok data ->
  (conflict data l -> interp_sigma_stored store data sig ps hyam hybm p0 lev_dim cf_name (meth_name m) = Err ValueError) /\
  (~ conflict data l -> exists out, interp_sigma_stored store data sig ps hyam hybm p0 lev_dim cf_name (meth_name m) = Ok out /\
    dims out = upd (dims data) ax "hlev"%string /\ shp (dat out) = upd (shp (dat data)) ax nh /\
    attrs out = attrs data /\ daname out = daname data /\
    (forall k c, In (k, c) (coords data) -> k <> l -> k <> "hlev"%string -> exists c', slookup k (coords out) = Some c' /\
       (forall i, inb (shp (dat out)) i -> getc c' (env_of (dims out) i) = getc c (env_of (dims data) i)) /\
       (cdims c = [k] -> c' = c) /\
       (incl (cdims c) [l] -> forall d, In d (cdims c') <-> In l (cdims c) /\ d = "hlev"%string) /\
       (~ incl (cdims c) [l] -> cdims c <> [k] -> forall d, In d (cdims c') <-> In d (dims data) /\ d <> l \/ In l (cdims c) /\ d = "hlev"%string)) /\
    (forall d, In d (dims data) -> d <> l -> ~ In d (map fst (coords data)) -> exists c', slookup d (coords out) = Some c' /\ cdims c' = [d] /\
       forall i, inb (shp (dat out)) i -> getc c' (env_of (dims out) i) = ofZ (Z.of_nat (env_of (dims data) i d))) /\
    (exists c, slookup "hlev" (coords out) = Some c /\ cdims c = ["hlev"%string] /\ shp (cdat c) = [nh] /\
       forall k, (k < nh)%nat -> get (cdat c) [k] = nadd (ndiv (nmul (get (dat hyam) [k]) p0) (getn ps (fun _ => 0%nat))) (get (dat hybm) [k])) /\
    (forall k, In k (map fst (coords out)) -> k = "hlev"%string \/ k <> l /\ (In k (map fst (coords data)) \/ In k (dims data)))).
Proof. exact @c101_lemma. Qed.
Print Assumptions C101_labels.

(** data of rank three with a level coordinate, a labelled latitude, an unlabelled time, and an area for every latitude *)
Definition exl_data : da fl :=
  mkDa ["time"; "lev"; "lat"]%string (mkArr [2; 3; 4]%nat (fun i => Fin (INR (flat [2; 3; 4]%nat i))))
    [("lev"%string, mkCoord ["lev"%string] (vec NaN [Fin 0.1; Fin 0.5; Fin 0.9]));
     ("lat"%string, mkCoord ["lat"%string] (vec NaN [Fin 10; Fin 20; Fin 30; Fin 40]));
     ("area"%string, mkCoord ["lat"%string] (vec NaN [Fin 4; Fin 3; Fin 2; Fin 1]))] [("units", "K")]%string (Some "t"%string).
Example C100_example nh sig : List.length sig = 3%nat ->
  sig_wf exl_data ex_sig_ps (ex_sig_hy nh) (ex_sig_hy nh) sig "lev" "hlev0" 1%nat 3%nat nh /\ coords_ok exl_data /\ ~ conflict exl_data "lev".
Proof.
  intros Hs. split; [|split].
  - destruct (C22_example nh sig Hs). constructor; assumption.
  - split; [repeat constructor; cbn; intuition discriminate|].
    intros k c [H|[H|[H|[]]]]; injection H as <- <-; (split; [repeat constructor; cbn; intuition discriminate|]); intros d [<-|[]]; cbn; auto.
  - intros (_ & H & _). cbn in H. intuition discriminate.
Qed.
Example C101_example store : exists out area, interp_sigma_stored store exl_data (map Fin [0.1; 0.5; 0.9]) ex_sig_ps (ex_sig_hy 2) (ex_sig_hy 2) (Fin 1000) (Some "lev"%string) None "linear" = Ok out /\
  dims out = ["time"; "hlev"; "lat"]%string /\ slookup "area" (coords out) = Some area /\ In "time"%string (cdims area) /\ getc area (env_of (dims out) [1; 0; 2]%nat) = Fin 2.
Proof.
  destruct (C100_example 2 (map Fin [0.1; 0.5; 0.9]) eq_refl) as (W & Ok & Cf).
  destruct (C101_labels _ _ store _ _ _ _ _ _ _ _ _ _ (Fin 1000) (Some "lev"%string) None MLinear W (or_introl eq_refl) ltac:(lia) ltac:(lia) Ok) as [_ G].
  destruct (G Cf) as (out & E & D & S & _ & _ & Cc & _). destruct (Cc "area"%string _ (or_intror (or_intror (or_introl eq_refl))) ltac:(discriminate) ltac:(discriminate)) as (c' & Lk & V & _ & _ & Sp).
  exists out, c'. split; [exact E|]. split; [exact D|]. split; [exact Lk|]. split.
  - apply Sp; [|discriminate|].
    + intros Q. destruct (Q "lat"%string (or_introl eq_refl)) as [Q'|[]]. discriminate.
    + left. cbn. split; [auto|discriminate].
  - rewrite V by (rewrite S; repeat constructor). reflexivity.
Qed.

(** C101.  Every coordinate of the result lies along dimensions of the result and has their sizes ([sizes_of d ds]: the sizes of d
    along ds), if those of the data do. *)
Theorem C101_label_sizes :
  forall (T : Type) (N : Num T) store (data ps hyam hybm : da T) sig l h ax n nh p0 lev_dim cf_name m,
  sig_wf data ps hyam hybm sig l h ax n nh -> lev_dim = Some l \/ (lev_dim = None /\ cf_name = Some l) ->
  (2 <= n)%nat -> (0 < nh <= n)%nat -> coords_ok data ->
  (forall k c, In (k, c) (coords data) -> shp (cdat c) = sizes_of data (cdims c)) ->
  ~ conflict data l -> exists out, interp_sigma_stored store data sig ps hyam hybm p0 lev_dim cf_name (meth_name m) = Ok out /\
    forall k c, In (k, c) (coords out) -> incl (cdims c) (dims out) /\ shp (cdat c) = sizes_of out (cdims c).
Proof. exact @c101_shapes. Qed.
Print Assumptions C101_label_sizes.
Example C101_example_sizes : forall k c, In (k, c) (coords exl_data) -> shp (cdat c) = sizes_of exl_data (cdims c).
Proof. intros k c [H|[H|[H|[]]]]; injection H as <- <-; reflexivity. Qed.
