(** The order of rows and columns of the input of interp_multidim (C112). *)
From Coq Require Import Reals List Bool Arith ZArith Lra Lia String Permutation.
From Verif Require Import PyBase PyFacts Num NumFacts Arr ArrFacts XrFacts Hybrid Spec Interp1d Interp1dFacts InterpMulti InterpMultiFacts InterpGrid InterpCyclic LevelOrder.
Import ListNotations.
Local Open Scope R_scope.

Lemma isort_unique {A} (l l' : list (fl * A)) : Forall finkey l -> NoDup (map keyr l) -> Permutation l l' -> isort l = isort l'.
Proof.
  intros Hf Hn P.
  assert (Hf' : Forall finkey l') by (rewrite Forall_forall in *; intros z Hz; apply Hf; eapply Permutation_in; [symmetry; exact P|auto]).
  assert (Hn' : NoDup (map keyr l')) by (eapply Permutation_NoDup; [apply Permutation_map; exact P|auto]).
  pose proof (isort_keys_lt l Hf Hn) as S1. pose proof (isort_keys_lt l' Hf' Hn') as S2.
  assert (P2 : Permutation (isort l) (isort l')).
  { etransitivity; [apply isort_perm|]. etransitivity; [exact P|]. symmetry. apply isort_perm. }
  assert (Ek : map keyr (isort l) = map keyr (isort l')).
  { apply sorted_perm_eq; [apply Permutation_map; auto| |]; intros i j Hij; apply Rlt_le; [apply S1|apply S2]; auto. }
  revert S1 S2 P2 Ek. generalize (isort l) (isort l'). clear.
  intros s s' S1 S2 P2 Ek.
  assert (Len : List.length s = List.length s') by (apply Permutation_length; auto).
  destruct s as [|d s0]; [apply Permutation_nil in P2; auto|]. set (s := d :: s0) in *.
  apply nth_ext with (d := d) (d' := d); auto. intros i Hi.
  assert (Hin : In (nth i s d) s') by (eapply Permutation_in; [exact P2|apply nth_In; auto]).
  apply In_nth with (d := d) in Hin. destruct Hin as (j & Hj & E).
  assert (Ki : nth i (map keyr s) 0 = keyr (nth i s d)) by (apply nth_map_keyr; auto).
  assert (Kj : nth j (map keyr s') 0 = keyr (nth j s' d)) by (apply nth_map_keyr; auto).
  rewrite E, <- Ki, Ek in Kj.
  destruct (Nat.lt_trichotomy i j) as [L|[->|L]]; auto.
  - specialize (S2 i j). rewrite map_length in S2. specialize (S2 ltac:(lia)). lra.
  - specialize (S2 j i). rewrite map_length in S2. specialize (S2 ltac:(lia)). lra.
Qed.

Lemma combine_seq {A} (d : A) L (f : nat -> A) : combine (map Fin L) (map f (seq 0 (List.length L))) = map (fun k => (Fin (nth k L 0), f k)) (seq 0 (List.length L)).
Proof.
  apply nth_ext with (d := (Fin 0, d)) (d' := (Fin 0, d)).
  - rewrite combine_length, !map_length, seq_length. lia.
  - rewrite combine_length, !map_length, seq_length, Nat.min_id. intros k Hk.
    rewrite combine_nth by (rewrite !map_length, seq_length; auto).
    rewrite (map_nth Fin).
    rewrite (nth_indep (map f _) d (f 0%nat)), map_nth, seq_nth by (rewrite ?map_length, ?seq_length; auto).
    rewrite (nth_indep _ (Fin 0, d) (Fin (nth 0 L 0), f 0%nat)) by (rewrite map_length, seq_length; auto).
    rewrite (map_nth (fun k => (Fin (nth k L 0), f k))), seq_nth by auto. reflexivity.
Qed.
Lemma rearranged_seq n sg : rearranges n sg -> Permutation (map sg (seq 0 n)) (seq 0 n).
Proof.
  intros (R1 & R2 & R3). apply NoDup_Permutation.
  - assert (T : forall l, NoDup l -> (forall x, In x l -> (x < n)%nat) -> NoDup (map sg l)).
    { induction l as [|x l IH]; intros Nl Hl; cbn [map]; constructor; inversion Nl; subst.
      - intros Hin. apply in_map_iff in Hin. destruct Hin as (y & E & Hy). apply R2 in E; [subst; contradiction| |]; apply Hl; cbn; auto.
      - apply IH; auto. intros y Hy. apply Hl. cbn; auto. }
    apply T; [apply seq_NoDup|]. intros x Hx. apply in_seq in Hx. lia.
  - apply seq_NoDup.
  - intros x. rewrite in_map_iff. split.
    + intros (k & <- & Hk). apply in_seq in Hk. apply in_seq. specialize (R1 k). lia.
    + intros Hx. apply in_seq in Hx. destruct (R3 x ltac:(lia)) as (k & Hk & E). exists k. split; auto. apply in_seq. lia.
Qed.

Lemma interp_dim_perm md fill (L L' : list R) (f f' : nat -> fl) sg x : rearranges (List.length L) sg -> List.length L' = List.length L -> NoDup L ->
  (forall k, (k < List.length L)%nat -> nth k L' 0 = nth (sg k) L 0 /\ f' k = f (sg k)) ->
  interp_dim md fill (map Fin L') (map f' (seq 0 (List.length L'))) x = interp_dim md fill (map Fin L) (map f (seq 0 (List.length L))) x.
Proof.
  intros R Len Nd H. unfold interp_dim. f_equal. symmetry. rewrite !(combine_seq NaN). rewrite Len. apply isort_unique.
  - apply Forall_forall. intros z Hz. apply in_map_iff in Hz. destruct Hz as (k & <- & _). eexists. reflexivity.
  - rewrite map_map. replace (map (fun k => keyr (Fin (nth k L 0), f k)) (seq 0 (List.length L))) with L; auto.
    apply nth_ext with (d := 0) (d' := 0); [rewrite map_length, seq_length; auto|]. intros k Hk.
    rewrite (nth_indep (map _ _) 0 (keyr (Fin (nth 0 L 0), f 0%nat))) by (rewrite map_length, seq_length; auto).
    rewrite (map_nth (fun k => keyr (Fin (nth k L 0), f k))), seq_nth by auto. reflexivity.
  - symmetry. etransitivity; [|apply Permutation_map; apply rearranged_seq; exact R]. rewrite map_map.
    replace (map (fun k => (Fin (nth k L' 0), f' k)) (seq 0 (List.length L))) with (map (fun k => (Fin (nth (sg k) L 0), f (sg k))) (seq 0 (List.length L))); [apply Permutation_refl|].
    apply map_ext_in. intros k Hk. apply in_seq in Hk. destruct (H k ltac:(lia)) as [-> ->]. reflexivity.
Qed.

Lemma c112_lemma md data data' la lo la' lo' ds (a a' : arr fl) s LAT LON LAT' LON' yo xo missing fill sy sx :
  grid_input data la lo ds a s LAT LON -> grid_input data' la' lo' ds a' s LAT' LON' ->
  LAT <> [] -> LON <> [] -> NoDup LAT -> NoDup LON ->
  List.length LAT' = List.length LAT -> List.length LON' = List.length LON ->
  rearranges (List.length LAT) sy -> rearranges (List.length LON) sx ->
  (forall k, (k < List.length LAT)%nat -> nth k LAT' 0 = nth (sy k) LAT 0) ->
  (forall c, (c < List.length LON)%nat -> nth c LON' 0 = nth (sx c) LON 0) ->
  (forall q k c, inb s q -> (k < List.length LAT)%nat -> (c < List.length LON)%nat -> get a' (q ++ [k; c]) = get a (q ++ [sy k; sx c])) ->
  exists out out', interp_multidim md data yo xo la lo false missing fill = Ok out /\
    interp_multidim md data' yo xo la' lo' false missing fill = Ok out' /\
    dims out' = dims out /\ shp (dat out') = shp (dat out) /\
    forall q jy jx, inb s q -> (jy < List.length yo)%nat -> (jx < List.length xo)%nat ->
      get (dat out') (q ++ [jy; jx]) = get (dat out) (q ++ [jy; jx]).
Proof.
  intros G G' Ny Nx Dy Dx Ly Lx Ry Rx Hy Hx Hc.
  assert (Ny' : LAT' <> []) by (intros ->; destruct LAT; [contradiction|discriminate]).
  assert (Nx' : LON' <> []) by (intros ->; destruct LON; [contradiction|discriminate]).
  destruct (grid_core md data la lo ds a s LAT LON yo xo missing fill G Ny Nx) as (out & E & D & Sh & _ & V).
  destruct (grid_core md data' la' lo' ds a' s LAT' LON' yo xo missing fill G' Ny' Nx') as (out' & E' & D' & Sh' & _ & V').
  exists out, out'. split; auto. split; auto. split; [congruence|]. split; [congruence|].
  intros q jy jx Hq Hjy Hjx. rewrite V, V' by (apply inb_length; auto). f_equal. unfold surf_at.
  apply (interp_dim_perm md fill LAT LAT' (fun k => row_at md fill (fun i => pre_value missing (get a i)) q LON k (nth jx xo NaN))
           (fun k => row_at md fill (fun i => pre_value missing (get a' i)) q LON' k (nth jx xo NaN)) sy); auto.
  intros k Hk. split; auto. unfold row_at.
  apply (interp_dim_perm md fill LON LON' (fun c => pre_value missing (get a (q ++ [sy k; c]))) (fun c => pre_value missing (get a' (q ++ [k; c]))) sx); auto.
  intros c Hc'. split; auto. rewrite Hc; auto.
Qed.

(** ** cyclic=True with longitudes listed from east to west *)
Definition decreasing (l : list R) : Prop := forall i j, (i < j)%nat -> (j < List.length l)%nat -> nth j l 0 < nth i l 0.

Lemma c112_descending data la lo ds (a : arr fl) LAT LON yo xo fill (V : nat -> nat -> R) :
  grid_input data la lo ds a [] LAT LON -> NoDup ds -> (2 <= List.length LAT)%nat -> NoDup LAT -> LON <> [] -> decreasing LON ->
  let n := List.length LON in let e := nth 0 LON 0 in let w := nth (n - 1) LON 0 in
  (forall k c, (k < List.length LAT)%nat -> (c < n)%nat -> get a [k; c] = Fin (V k c)) ->
  exists out, interp_multidim MdLinear data (map Fin yo) (map Fin xo) la lo true None fill = Ok out /\ dims out = ds /\
    shp (dat out) = [List.length yo; List.length xo] /\
    forall jy jx, (jy < List.length yo)%nat -> (jx < List.length xo)%nat ->
      let y := nth jy yo 0 in let x := nth jx xo 0 in let v := get (dat out) [jy; jx] in
      forall k b, neighbours (fun k => nth k LAT 0) (List.length LAT) k b -> nth k LAT 0 <= y <= nth b LAT 0 ->
        (e <= x <= e + 360 -> v = Fin (lin (nth k LAT 0) (nth b LAT 0) (V k 0%nat) (V b 0%nat) y)) /\
        (w - 360 <= x <= w -> v = Fin (lin (nth k LAT 0) (nth b LAT 0) (V k (n - 1)%nat) (V b (n - 1)%nat) y)).
Proof.
  intros G Hnd Ny Hy Hne Hdec n e w HV.
  destruct (cyclic_core MdLinear data la lo ds a LAT LON (map Fin yo) (map Fin xo) None fill G) as (out & E & Do & So & Go); auto.
  { intros ->; cbn in *; lia. }
  exists out. split; auto. split; auto. split; [rewrite So, !map_length; reflexivity|].
  intros jy jx Hjy Hjx y x v k b Nb Hk.
  assert (Ev : v = surf_at MdLinear fill (pad_field (get a) n) [] LAT (wrap_lons LON) (Fin y) (Fin x)).
  { unfold v. rewrite Go. cbn [post_value pre_value]. rewrite (nth_indep (map Fin yo) NaN (Fin 0)), (nth_indep (map Fin xo) NaN (Fin 0)), !(map_nth Fin) by (rewrite map_length; auto). reflexivity. }
  assert (Hn : (0 < n)%nat) by (unfold n; destruct LON; [contradiction|cbn; lia]).
  assert (Hle : forall c, (c < n)%nat -> w <= nth c LON 0 <= e).
  { intros c Hc. split.
    - destruct (Nat.eq_dec c (n - 1)) as [->|]; [fold w; lra|]. apply Rlt_le, Hdec; fold n; lia.
    - destruct c as [|c]; [fold e; lra|]. apply Rlt_le, Hdec; fold n; lia. }
  assert (Hwe : w <= e) by (destruct (Hle 0%nat Hn); lra).
  assert (W0 : nth 0 (wrap_lons LON) 0 = w - 360) by apply wrap_first.
  assert (W1 : nth 1 (wrap_lons LON) 0 = e) by (apply (wrap_nth LON 0); auto).
  assert (Wn : nth n (wrap_lons LON) 0 = w) by (unfold w; replace n with (S (n - 1)) at 1 by lia; apply wrap_nth; fold n; lia).
  assert (We : nth (S n) (wrap_lons LON) 0 = e + 360) by apply wrap_last.
  assert (Wm : forall c, (c < n)%nat -> nth (S c) (wrap_lons LON) 0 = nth c LON 0) by (intros; apply wrap_nth; auto).
  assert (Lw : List.length (wrap_lons LON) = (n + 2)%nat) by apply wrap_length.
  assert (Nw : NoDup (wrap_lons LON)).
  { apply (NoDup_nth _ 0). rewrite Lw.
    assert (T : forall i j, (i < j)%nat -> (j < n + 2)%nat -> nth i (wrap_lons LON) 0 <> nth j (wrap_lons LON) 0).
    { intros [|i] [|j] Hij Hj Q; try lia.
      - rewrite W0 in Q. destruct (Nat.eq_dec j n) as [->|]; [rewrite We in Q; lra|]. rewrite Wm in Q by lia. destruct (Hle j ltac:(lia)). lra.
      - rewrite (Wm i) in Q by lia. destruct (Hle i ltac:(lia)). destruct (Nat.eq_dec j n) as [->|]; [rewrite We in Q; lra|]. rewrite Wm in Q by lia.
        assert (nth j LON 0 < nth i LON 0) by (apply Hdec; fold n; lia). lra. }
    intros i j Hi Hj Q. destruct (Nat.lt_trichotomy i j) as [L|[L|L]]; auto; exfalso; [apply (T i j)|apply (T j i)]; auto. }
  assert (HP : forall k c, (k < List.length LAT)%nat -> (c < List.length (wrap_lons LON))%nat -> pad_field (get a) n ([] ++ [k; c]) = Fin (V k (pad_src n c))).
  { intros k' c Hk' Hc. unfold pad_field. cbn [app nth]. apply HV; auto. rewrite Lw in Hc. unfold pad_src.
    destruct (Nat.eqb_spec c 0); [lia|]. destruct (Nat.eqb_spec c (S n)); lia. }
  rewrite Ev. split; intros Hx.
  - apply surf_rows with (v := fun m => V m 0%nat); auto. intros m Hm.
    rewrite (row_fin fill (pad_field (get a) n) [] LAT (wrap_lons LON) (fun k c => V k (pad_src n c)) Nw HP m 1%nat (S n) x); auto.
    + rewrite pad_src_end, pad_src_S by auto. f_equal. unfold lin. lra.
    + split; [lia|]. split; [lia|]. rewrite W1, We. split; [lra|]. intros c Hc. rewrite Lw in Hc.
      destruct c as [|c]; [left; lra|]. destruct (Nat.eq_dec c n) as [->|]; [right; lra|]. left. rewrite Wm by lia. apply Hle. lia.
    + rewrite W1, We. auto.
  - apply surf_rows with (v := fun m => V m (n - 1)%nat); auto. intros m Hm.
    rewrite (row_fin fill (pad_field (get a) n) [] LAT (wrap_lons LON) (fun k c => V k (pad_src n c)) Nw HP m 0%nat n x); auto.
    + rewrite pad_src_0. replace (pad_src n n) with (n - 1)%nat by (replace n with (S (n - 1)) at 3 by lia; rewrite pad_src_S; lia). f_equal. unfold lin. lra.
    + split; [lia|]. split; [lia|]. rewrite W0, Wn. split; [lra|]. intros c Hc. rewrite Lw in Hc.
      destruct c as [|c]; [left; lra|]. right. destruct (Nat.eq_dec c n) as [->|]; [lra|]. rewrite Wm by lia. apply Hle. lia.
    + rewrite W0, Wn. auto.
Qed.
