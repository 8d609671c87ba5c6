(** interp_multidim: published lemmas, missing values, cyclic longitudes. *)
From Coq Require Import Reals List Bool Arith ZArith Lra Lia String Permutation.
From Verif Require Import PyBase PyFacts Num NumFacts Arr ArrFacts ListFacts Spec Hybrid HybridFacts Interp1d Interp1dFacts InterpMulti InterpMultiFacts InterpSigmaFacts InterpGrid.
Import ListNotations.
Local Open Scope R_scope.

Lemma inb_grid (s : list nat) q k c ny nx : inb s q -> (k < ny)%nat -> (c < nx)%nat -> inb (s ++ [ny; nx]) (q ++ [k; c]).
Proof. intros H Hk Hc. apply inb_app; auto. repeat constructor; auto. Qed.

Lemma c23_lemma data la lo ds (a : arr fl) s LAT LON yo xo fill (V : list nat -> R) :
  grid_input data la lo ds a s LAT LON -> (2 <= List.length LAT)%nat -> (2 <= List.length LON)%nat -> NoDup LAT -> NoDup LON ->
  (forall i, inb (shp a) i -> get a i = Fin (V i)) ->
  exists out, interp_multidim MdLinear data (map Fin yo) (map Fin xo) la lo false None fill = Ok out /\ dims out = ds /\
    shp (dat out) = s ++ [List.length yo; List.length xo] /\
    forall q jy jx, inb s q -> (jy < List.length yo)%nat -> (jx < List.length xo)%nat ->
      let y := nth jy yo 0 in let x := nth jx xo 0 in let v := get (dat out) (q ++ [jy; jx]) in
      (forall k c, (k < List.length LAT)%nat -> (c < List.length LON)%nat -> y = nth k LAT 0 -> x = nth c LON 0 -> v = Fin (V (q ++ [k; c]))) /\
      (forall k b c d, neighbours (fun k => nth k LAT 0) (List.length LAT) k b -> nth k LAT 0 <= y <= nth b LAT 0 ->
         neighbours (fun k => nth k LON 0) (List.length LON) c d -> nth c LON 0 <= x <= nth d LON 0 ->
         exists r, v = Fin r /\
           r = bilin (nth k LAT 0) (nth b LAT 0) (nth c LON 0) (nth d LON 0)
                 (V (q ++ [k; c])) (V (q ++ [k; d])) (V (q ++ [b; c])) (V (q ++ [b; d])) y x /\
           min4 (V (q ++ [k; c])) (V (q ++ [k; d])) (V (q ++ [b; c])) (V (q ++ [b; d])) <= r
             <= max4 (V (q ++ [k; c])) (V (q ++ [k; d])) (V (q ++ [b; c])) (V (q ++ [b; d]))) /\
      (forall a0 b0 c0 d0,
         (forall k c, (k < List.length LAT)%nat -> (c < List.length LON)%nat ->
            V (q ++ [k; c]) = a0 + b0 * nth k LAT 0 + c0 * nth c LON 0 + d0 * nth k LAT 0 * nth c LON 0) ->
         fill = None \/ (~ out_of_range (fun k => nth k LAT 0) (List.length LAT) y /\ ~ out_of_range (fun k => nth k LON 0) (List.length LON) x) ->
         v = Fin (a0 + b0 * y + c0 * x + d0 * y * x)) /\
      (forall f, fill = Some f -> f = NaN \/ finite f ->
         out_of_range (fun k => nth k LAT 0) (List.length LAT) y \/ out_of_range (fun k => nth k LON 0) (List.length LON) x -> v = f).
Proof.
  intros G Ny Nx Hy Hx HV.
  assert (Sa : shp a = s ++ [List.length LAT; List.length LON]) by (destruct G; auto).
  destruct (grid_core MdLinear data la lo ds a s LAT LON (map Fin yo) (map Fin xo) None fill G) as (out & E & Do & So & _ & Go);
    try (intros ->; cbn in *; lia).
  exists out. split; auto. split; auto. split; [rewrite So, !map_length; reflexivity|].
  intros q jy jx Hq Hjy Hjx y x v.
  assert (Ev : v = surf_at MdLinear fill (get a) q LAT LON (Fin y) (Fin x)).
  { unfold v. rewrite Go by (apply inb_length; auto). cbn [post_value pre_value].
    rewrite (nth_map_in Fin yo jy 0), (nth_map_in Fin xo jx 0) by auto. reflexivity. }
  clearbody v. subst v.
  assert (HV' : forall k c, (k < List.length LAT)%nat -> (c < List.length LON)%nat -> get a (q ++ [k; c]) = Fin (V (q ++ [k; c]))).
  { intros k c Hk Hc. apply HV. rewrite Sa. apply inb_grid; auto. }
  split; [|split; [|split]].
  - intros k c Hk Hc -> ->. apply (surf_node fill (get a) q LAT LON (fun k c => V (q ++ [k; c]))); auto.
  - intros k b c d Nb Hk Nc Hc. eexists. split; [apply (surf_fin fill (get a) q LAT LON (fun k c => V (q ++ [k; c]))); eauto|].
    split; [reflexivity|]. apply (surf_between LAT LON (fun k c => V (q ++ [k; c]))); auto.
  - intros a0 b0 c0 d0 HW Hf. apply (surf_affine fill (get a) q LAT LON (fun k c => V (q ++ [k; c]))); auto.
  - intros f -> Hf Ho. apply surf_out; auto.
Qed.

(** ** missing values *)
Definition map_values (f : fl -> fl) (v : val fl) : val fl :=
  match v with
  | VNd a => VNd (amap f a)
  | VDa d => VDa (mkDa (dims d) (amap f (dat d)) (coords d) (attrs d) (daname d))
  | VSubDa d => VSubDa (mkDa (dims d) (amap f (dat d)) (coords d) (attrs d) (daname d))
  | VOther => VOther
  end.
Definition as_nan (m v : fl) : fl := if neqb v m then NaN else v.

Definition same_grid (d1 d2 : da fl) : Prop := dims d1 = dims d2 /\ dat d1 = dat d2 /\ coords d1 = coords d2.
Lemma same_labels_grid d1 d2 x : same_grid d1 d2 -> index_labels d1 x = index_labels d2 x.
Proof. intros (_ & _ & H). unfold index_labels. rewrite H. reflexivity. Qed.
Definition same_outcome (r1 r2 : res (da fl)) (f : fl -> fl) : Prop :=
  match r1, r2 with
  | Ok o1, Ok o2 => dims o1 = dims o2 /\ shp (dat o1) = shp (dat o2) /\ coords o1 = coords o2 /\ forall i, get (dat o1) i = f (get (dat o2) i)
  | Err e1, Err e2 => e1 = e2
  | _, _ => False
  end.
Lemma interp_last2_same md fill d1 d2 yo xo : same_grid d1 d2 ->
  same_outcome (interp_last2 md fill d1 yo xo) (interp_last2 md fill d2 yo xo) (fun v => v).
Proof.
  intros S. pose proof S as (H1 & H2 & H3). unfold interp_last2. rewrite H1, H2. unfold dim_values.
  rewrite !(same_labels_grid d1 d2), H3 by auto. destruct (_ || _); cbn; auto.
Qed.
Lemma add_cyclic_same d1 d2 : same_grid d1 d2 -> add_cyclic d1 = add_cyclic d2.
Proof.
  intros S. pose proof S as (H1 & H2 & H3). unfold add_cyclic. rewrite H1, H2.
  destruct (dims d2) as [|? [|? [|]]]; auto. unfold dim_values. rewrite !(same_labels_grid d1 d2) by auto. reflexivity.
Qed.

Lemma c24_equiv md data yo xo la lo cyclic m fill :
  same_outcome (interp_multidim md data yo xo la lo cyclic (Some m) fill)
               (interp_multidim md (map_values (as_nan m) data) yo xo la lo cyclic None fill)
               (fun v => if isnan v then m else v).
Proof.
  assert (Core : forall d1 d2, dims d1 = dims d2 -> amap (as_nan m) (dat d1) = dat d2 -> coords d1 = coords d2 ->
    same_outcome
     (guard Nat.ltb (List.length (dims d1)) 2 raise IndexError ;;
      let d := mask_missing (Some m) d1 in
      do d <- (if cyclic then add_cyclic d else Ok d) ;; do out <- interp_last2 md fill d yo xo ;; Ok (fill_missing (Some m) out))
     (guard Nat.ltb (List.length (dims d2)) 2 raise IndexError ;;
      let d := mask_missing None d2 in
      do d <- (if cyclic then add_cyclic d else Ok d) ;; do out <- interp_last2 md fill d yo xo ;; Ok (fill_missing None out))
     (fun v => if isnan v then m else v)).
  { intros d1 d2 H1 H2 H3. rewrite H1. destruct (Nat.ltb (List.length (dims d2)) 2); [cbn; auto|]. cbv zeta.
    assert (S : same_grid (mask_missing (Some m) d1) (mask_missing None d2)) by (split; [|split]; auto).
    assert (Post : forall e1 e2, same_grid e1 e2 -> same_outcome (do out <- interp_last2 md fill e1 yo xo ;; Ok (fill_missing (Some m) out))
      (do out <- interp_last2 md fill e2 yo xo ;; Ok (fill_missing None out)) (fun v => if isnan v then m else v)).
    { intros e1 e2 Se. pose proof (interp_last2_same md fill e1 e2 yo xo Se) as O.
      destruct (interp_last2 md fill e1 yo xo) as [o1|], (interp_last2 md fill e2 yo xo) as [o2|]; cbn in O |- *; auto; try contradiction.
      destruct O as (O1 & O2 & O3 & O4). split; auto. split; auto. split; auto. intros i. rewrite O4. reflexivity. }
    destruct cyclic.
    - rewrite (add_cyclic_same _ _ S). destruct (add_cyclic (mask_missing None d2)) as [e|e]; cbn [bind]; [|cbn; auto].
      apply Post. split; [|split]; auto.
    - cbn [bind]. apply Post, S. }
  destruct data as [a|d|d|]; cbn [map_values]; unfold interp_multidim.
  - destruct la as [la|], lo as [lo|]; try (cbn; auto). cbn [amap shp].
    destruct (negb (shape_eqb (shp a) [List.length la; List.length lo])); [cbn; auto|]. cbn [bind]. apply Core; reflexivity.
  - cbn [bind]. apply Core; reflexivity.
  - cbn [bind]. apply Core; reflexivity.
  - cbn. reflexivity.
Qed.

Lemma c24_no_nan md data yo xo la lo cyclic m fill out : m <> NaN ->
  interp_multidim md data yo xo la lo cyclic (Some m) fill = Ok out -> forall i, get (dat out) i <> NaN.
Proof.
  intros Hm E i. pose proof (c24_equiv md data yo xo la lo cyclic m fill) as H. rewrite E in H.
  destruct (interp_multidim md (map_values (as_nan m) data) yo xo la lo cyclic None fill) as [o|]; cbn in H; [|contradiction].
  destruct H as (_ & _ & _ & H). rewrite H. destruct (get (dat o) i); cbn; congruence.
Qed.

Lemma code_bracket_unique p n x i j i' j' : distinct_levels p n -> code_bracket p n i j x -> code_bracket p n i' j' x -> i = i' /\ j = j'.
Proof.
  intros D ((Hi & Hj & Hij & K) & Hx & L) ((Hi' & Hj' & Hij' & K') & Hx' & L').
  assert (Ei : p i = p i').
  { destruct (K i' Hi') as [A|A]; [destruct (K' i Hi) as [B|B]|]; try lra.
    - assert (p i = p j') by lra. destruct L as [L|L]; [lra|]. specialize (L i' Hi'). lra.
    - assert (p i' = p j) by lra. destruct L' as [L'|L']; [lra|]. specialize (L' i Hi). lra. }
  assert (i = i') by (apply D; auto). subst i'. split; auto. apply D; auto.
  destruct (K j' Hj') as [A|A]; [lra|]. destruct (K' j Hj) as [B|B]; lra.
Qed.

(** the value is built from the four corners of the bracketing cell, whatever they hold *)
Lemma surf_corners fill a q LAT LON y x i j c d : NoDup LAT -> NoDup LON ->
  code_bracket (fun k => nth k LAT 0) (List.length LAT) i j y -> code_bracket (fun k => nth k LON 0) (List.length LON) c d x ->
  surf_at MdLinear fill a q LAT LON (Fin y) (Fin x) =
  line_through (nth i LAT 0) (nth j LAT 0)
    (line_through (nth c LON 0) (nth d LON 0) (a (q ++ [i; c])) (a (q ++ [i; d])) x)
    (line_through (nth c LON 0) (nth d LON 0) (a (q ++ [j; c])) (a (q ++ [j; d])) x) y.
Proof.
  intros Hy Hx By Bx.
  assert (two : forall (l : list R) i j z, code_bracket (fun k => nth k l 0) (List.length l) i j z -> (2 <= List.length l)%nat).
  { intros l i0 j0 z ((Hi & Hj & Hij & _) & _). destruct (Nat.lt_ge_cases (List.length l) 2); auto. assert (i0 = j0) by lia. subst. lra. }
  assert (One : forall l var i j z, NoDup l -> List.length var = List.length l -> code_bracket (fun k => nth k l 0) (List.length l) i j z ->
    interp_dim MdLinear fill (map Fin l) var (Fin z) = line_at l var i j z).
  { intros l var i0 j0 z Hl Hv B. pose proof B as ((Hi & Hj & _) & Hz & _).
    destruct (interp_dim_in l var Hv (two _ _ _ _ B) Hl fill z i0 j0 Hi Hj Hz) as (i' & j' & B' & ->).
    destruct (code_bracket_unique _ _ _ _ _ _ _ (nodup_distinct l Hl) B B') as [-> ->]. reflexivity. }
  unfold surf_at. rewrite (One LAT _ i j y Hy) by (auto using row_length). unfold line_at.
  pose proof By as ((Hi & Hj & _) & _). pose proof Bx as ((Hc & Hd & _) & _). rewrite !nth_map_seq by auto.
  unfold row_at. rewrite !(One LON _ c d x Hx) by (auto using row_length). unfold line_at. rewrite !nth_map_seq by auto. reflexivity.
Qed.

Lemma c24_corners data la lo ds (a : arr fl) s LAT LON yo xo m fill :
  grid_input data la lo ds a s LAT LON -> NoDup LAT -> NoDup LON -> m <> NaN ->
  forall out, interp_multidim MdLinear data (map Fin yo) (map Fin xo) la lo false (Some m) fill = Ok out ->
  forall q jy jx i j c d, inb s q -> (jy < List.length yo)%nat -> (jx < List.length xo)%nat ->
    code_bracket (fun k => nth k LAT 0) (List.length LAT) i j (nth jy yo 0) ->
    code_bracket (fun k => nth k LON 0) (List.length LON) c d (nth jx xo 0) ->
    let corners := map (fun p => get a (q ++ [fst p; snd p])) [(i, c); (i, d); (j, c); (j, d)] in
    ((exists v, In v corners /\ (v = NaN \/ neqb v m = true)) -> get (dat out) (q ++ [jy; jx]) = m) /\
    (forall v00 v01 v10 v11, corners = [Fin v00; Fin v01; Fin v10; Fin v11] -> ~ In m corners ->
       get (dat out) (q ++ [jy; jx]) =
       Fin (bilin (nth i LAT 0) (nth j LAT 0) (nth c LON 0) (nth d LON 0) v00 v01 v10 v11 (nth jy yo 0) (nth jx xo 0))).
Proof.
  intros G Hy Hx Hm out E q jy jx i j c d Hq Hjy Hjx By Bx corners.
  assert (Ny : LAT <> []) by (intros ->; destruct By as ((Hi & _) & _); cbn in Hi; lia).
  assert (Nx : LON <> []) by (intros ->; destruct Bx as ((Hi & _) & _); cbn in Hi; lia).
  destruct (grid_core MdLinear data la lo ds a s LAT LON (map Fin yo) (map Fin xo) (Some m) fill G Ny Nx) as (out' & E' & _ & _ & _ & Go).
  assert (out' = out) by congruence. subst out'. rewrite Go by (apply inb_length; auto).
  rewrite (nth_map_in Fin yo jy 0), (nth_map_in Fin xo jx 0) by auto.
  rewrite (surf_corners fill _ q LAT LON _ _ i j c d Hy Hx By Bx).
  assert (Pm : forall v, v = NaN \/ neqb v m = true -> pre_value (Some m) v = NaN).
  { intros v [->|H]; cbn [pre_value]; unfold nwhere; [destruct (neqb NaN m); auto|rewrite H; auto]. }
  split.
  - intros (v & Hv & Hn). apply Pm in Hn. unfold corners in Hv. cbn [map fst snd In] in Hv.
    assert (K : forall u, u = NaN -> post_value (Some m) u = m) by (intros u ->; reflexivity). apply K.
    destruct Hv as [<-|[<-|[<-|[<-|[]]]]]; rewrite Hn;
      rewrite ?line_through_nan0, ?line_through_nan1; rewrite ?line_through_nan0, ?line_through_nan1; reflexivity.
  - intros v00 v01 v10 v11 Ec Hin. unfold corners in Ec. cbn [map fst snd] in Ec. injection Ec as E1 E2 E3 E4.
    unfold corners in Hin. cbn [map fst snd] in Hin. rewrite E1, E2, E3, E4 in Hin |- *.
    assert (Pf : forall r, Fin r <> m -> pre_value (Some m) (Fin r) = Fin r).
    { intros r Hr. cbn [pre_value]. unfold nwhere. destruct m; auto; cbn. rewrite reqb_false; auto. congruence. }
    cbn [In] in Hin. rewrite !Pf by tauto. destruct By as ((_ & _ & Hij & _) & _). destruct Bx as ((_ & _ & Hcd & _) & _).
    rewrite !line_through_fin by lra. reflexivity.
Qed.

(** ** cyclic longitudes *)
Definition wrap_lons (LON : list R) : list R := (last LON 0 - 360) :: LON ++ [hd 0 LON + 360].

Lemma increasing_nodup l : increasing l -> NoDup l.
Proof.
  intros H. apply (NoDup_nth l 0). intros i j Hi Hj E. unfold increasing, at_ in H.
  destruct (Nat.lt_trichotomy i j) as [A|[A|A]]; auto; [pose proof (H i j A Hj)|pose proof (H j i A Hi)]; lra.
Qed.
Lemma increasing_neighbours l c : increasing l -> (S c < List.length l)%nat -> neighbours (fun k => nth k l 0) (List.length l) c (S c).
Proof.
  intros H Hc. unfold increasing, at_ in H. split; [lia|]. split; [lia|]. split; [apply H; lia|]. intros k Hk.
  destruct (Nat.lt_trichotomy k c) as [A|[->|A]]; [left; apply Rlt_le, H; lia|left; lra|].
  destruct (Nat.eq_dec k (S c)) as [->|]; [right; lra|]. right. apply Rlt_le, H; lia.
Qed.
Lemma last_nth {A} (l : list A) d : last l d = nth (List.length l - 1) l d.
Proof.
  induction l as [|x l IH]; auto. destruct l as [|y l]; auto. change (last (x :: y :: l) d) with (last (y :: l) d). rewrite IH.
  cbn [List.length]. replace (S (S (List.length l)) - 1)%nat with (S (S (List.length l) - 1)) by lia. reflexivity.
Qed.
Lemma hd_nth {A} (l : list A) d : hd d l = nth 0 l d.
Proof. destruct l; reflexivity. Qed.
Lemma wrap_length LON : List.length (wrap_lons LON) = (List.length LON + 2)%nat.
Proof. unfold wrap_lons. cbn. rewrite app_length. cbn. lia. Qed.
Lemma wrap_nth LON k : (k < List.length LON)%nat -> nth (S k) (wrap_lons LON) 0 = nth k LON 0.
Proof. intros H. unfold wrap_lons. cbn [nth]. apply app_nth1. auto. Qed.
Lemma wrap_last LON : nth (S (List.length LON)) (wrap_lons LON) 0 = nth 0 LON 0 + 360.
Proof. unfold wrap_lons. cbn [nth]. rewrite app_nth2, Nat.sub_diag, <- (hd_nth LON) by lia. reflexivity. Qed.
Lemma wrap_first LON : nth 0 (wrap_lons LON) 0 = nth (List.length LON - 1) LON 0 - 360.
Proof. unfold wrap_lons. cbn [nth]. rewrite last_nth. reflexivity. Qed.

(** padded index of a longitude, and the column it is taken from *)
Lemma wrap_increasing LON : LON <> [] -> increasing LON -> nth (List.length LON - 1) LON 0 - nth 0 LON 0 < 360 -> increasing (wrap_lons LON).
Proof.
  intros Hne H Hs i j Hij Hj. unfold at_ in *. rewrite wrap_length in Hj.
  assert (Hn : (0 < List.length LON)%nat) by (destruct LON; [contradiction|cbn; lia]).
  set (n := List.length LON) in *.
  assert (Lo : forall k, (k < n)%nat -> nth 0 LON 0 <= nth k LON 0).
  { intros [|k] Hk; [lra|]. apply Rlt_le, H; [lia|auto]. }
  assert (Hi : forall k, (k < n)%nat -> nth k LON 0 <= nth (n - 1) LON 0).
  { intros k Hk. destruct (Nat.eq_dec k (n - 1)) as [->|]; [lra|]. apply Rlt_le, H; fold n; lia. }
  assert (Ej : (exists k, j = S k /\ (k < n)%nat) \/ j = S n).
  { destruct (Nat.eq_dec j (S n)); auto. left. exists (j - 1)%nat. lia. }
  destruct i as [|i].
  - rewrite wrap_first. fold n. destruct Ej as [(k & -> & Hk)| ->].
    + rewrite wrap_nth by auto. specialize (Lo k Hk). specialize (Hi k Hk). lra.
    + unfold n at 2. rewrite wrap_last. lra.
  - assert (Hin : (i < n)%nat) by lia. rewrite wrap_nth by auto. destruct Ej as [(k & -> & Hk)| ->].
    + rewrite wrap_nth by auto. apply H; auto; lia.
    + unfold n. rewrite wrap_last. specialize (Hi i Hin). lra.
Qed.

Lemma upd_0 {A} (x : A) l v : upd (x :: l) 0 v = v :: l.
Proof. reflexivity. Qed.
Lemma wrap_fl (LON : list R) : LON <> [] ->
  (let p := pad_wrap NaN (map Fin LON) in
   let p := upd p 0 (nsub (nth 0 p NaN) (ofZ 360)) in
   upd p (S (List.length LON)) (nadd (nth (S (List.length LON)) p NaN) (ofZ 360))) = map Fin (wrap_lons LON).
Proof.
  intros Hne. cbv zeta. unfold pad_wrap. rewrite upd_0. cbn [nth].
  rewrite app_nth2 by (rewrite map_length; lia). rewrite map_length, Nat.sub_diag. cbn [nth].
  unfold wrap_lons. cbn [map]. rewrite map_app. cbn [map].
  assert (Eh : hd NaN (map Fin LON) = Fin (hd 0 LON)) by (destruct LON; [contradiction|reflexivity]).
  assert (El : last (map Fin LON) NaN = Fin (last LON 0)).
  { rewrite (last_nth LON), (last_nth (map Fin LON)), map_length. apply nth_map_in. destruct LON; [contradiction|cbn; lia]. }
  rewrite Eh, El. cbn [upd]. f_equal. rewrite <- (map_length Fin LON) at 1. rewrite upd_app. reflexivity.
Qed.

Definition pad_field (a : list nat -> fl) (nx : nat) (i : list nat) : fl := a [nth 0 i 0%nat; pad_src nx (nth 1 i 0%nat)].

Lemma cyclic_core md data la lo ds a LAT LON yo xo missing fill :
  grid_input data la lo ds a [] LAT LON -> LAT <> [] -> LON <> [] -> NoDup ds ->
  exists out, interp_multidim md data yo xo la lo true missing fill = Ok out /\ dims out = ds /\
    shp (dat out) = [List.length yo; List.length xo] /\
    forall jy jx,
      get (dat out) [jy; jx] =
      post_value missing (surf_at md fill (pad_field (fun i => pre_value missing (get a i)) (List.length LON)) [] LAT (wrap_lons LON) (nth jy yo NaN) (nth jx xo NaN)).
Proof.
  intros G Ny Nx Hnd.
  assert (Core : forall d dy dx, ds = [dy; dx] -> dat d = a -> dims d = ds -> shp a = [List.length LAT; List.length LON] ->
    has_values d dy LAT -> has_values d dx LON ->
    exists out,
    (guard Nat.ltb (List.length (dims d)) 2 raise IndexError ;;
     let d := mask_missing missing d in
     do d <- add_cyclic d ;; do out <- interp_last2 md fill d yo xo ;; Ok (fill_missing missing out)) = Ok out /\ dims out = ds /\
    shp (dat out) = [List.length yo; List.length xo] /\
    forall jy jx,
      get (dat out) [jy; jx] =
      post_value missing (surf_at md fill (pad_field (fun i => pre_value missing (get a i)) (List.length LON)) [] LAT (wrap_lons LON) (nth jy yo NaN) (nth jx xo NaN))).
  { intros d dy dx -> <- Hd Hs Ly Lx. rewrite Hd. cbn [List.length Nat.ltb Nat.leb]. cbv zeta.
    set (dm := mask_missing missing d).
    assert (Ed : dims dm = [dy; dx]) by (unfold dm; destruct missing; auto).
    assert (Es : shp (dat dm) = [List.length LAT; List.length LON]) by (unfold dm; destruct missing; auto).
    assert (Eg : forall i, get (dat dm) i = pre_value missing (get (dat d) i)) by (unfold dm; destruct missing; auto).
    assert (Ely : has_values dm dy LAT) by (unfold dm; destruct missing; auto).
    assert (Elx : has_values dm dx LON) by (unfold dm; destruct missing; auto).
    clearbody dm. unfold add_cyclic. rewrite Ed, Es.
    destruct (Nat.eqb_spec (List.length LON) 0) as [Z|_]; [apply length_zero_iff_nil in Z; contradiction|].
    rewrite (dim_values_has _ _ _ Elx), (dim_values_has _ _ _ Ely). cbn [bind]. cbn [nnan NumFl]. pose proof (wrap_fl LON Nx) as W. cbv zeta in W. cbn [nnan NumFl] in W. rewrite W.
    assert (Hyx : dy <> dx) by (inversion Hnd; subst; cbn in *; intuition).
    match goal with |- context [interp_last2 md fill ?D yo xo] => set (pd := D) end.
    destruct (interp_last2_ok md fill pd [] dy dx [] LAT (wrap_lons LON) yo xo) as (out & -> & Do & So & _ & _ & _ & Go); auto.
    - unfold pd; cbn [dat shp app]. rewrite wrap_length. reflexivity.
    - left. unfold pd, index_labels. cbn [coords slookup]. rewrite String.eqb_refl. cbn [cdims cdat]. rewrite String.eqb_refl, ravel_vec. reflexivity.
    - left. unfold pd, index_labels. cbn [coords slookup]. destruct (String.eqb_spec dx dy); [congruence|].
      rewrite String.eqb_refl. cbn [cdims cdat]. rewrite String.eqb_refl, ravel_vec. reflexivity.
    - discriminate.
    - cbn [bind]. eexists. split; [reflexivity|].
      assert (E : forall jy jx, get (dat out) [jy; jx] = surf_at md fill (pad_field (fun i => pre_value missing (get (dat d) i)) (List.length LON)) [] LAT (wrap_lons LON) (nth jy yo NaN) (nth jx xo NaN)).
      { intros jy jx. specialize (Go [] jy jx eq_refl). cbn [app] in Go. rewrite Go. unfold surf_at. f_equal. apply map_ext. intros k.
        unfold row_at. f_equal. apply map_ext. intros c. unfold pd, pad_field. cbn [get dat app nth]. apply Eg. }
      destruct missing as [m|]; cbn [fill_missing dims dat shp amap get] in *; (split; [auto|split; [auto|]]).
      + intros jy jx. rewrite E. reflexivity.
      + intros jy jx. rewrite E. reflexivity. }
  remember (@nil nat) as s eqn:Es.
  destruct G as [d la lo ds' dy dx s LAT LON Hd Hs Hl Ly Lx|a LAT LON Hs].
  - subst s. destruct ds'; [|discriminate Hl]. unfold interp_multidim. cbn [bind]. apply (Core d dy dx); auto.
  - unfold interp_multidim. rewrite Hs, !map_length.
    destruct (shape_eqb_spec [List.length LAT; List.length LON] [List.length LAT; List.length LON]) as [_|]; [|contradiction]. cbn [negb bind].
    apply (Core _ "lat"%string "lon"%string); auto; left;
    unfold index_labels; cbn [coords slookup String.eqb Ascii.eqb Bool.eqb cdims cdat]; rewrite ravel_vec; reflexivity.
Qed.

Lemma bracket_two (l : list R) i j z : code_bracket (fun k => nth k l 0) (List.length l) i j z -> (2 <= List.length l)%nat.
Proof.
  intros ((Hi & Hj & Hij & _) & _). destruct (Nat.lt_ge_cases (List.length l) 2); auto. assert (i = j) by lia. subst. lra.
Qed.
Lemma interp_dim_code fill l var i j z : NoDup l -> List.length var = List.length l -> code_bracket (fun k => nth k l 0) (List.length l) i j z ->
  interp_dim MdLinear fill (map Fin l) var (Fin z) = line_at l var i j z.
Proof.
  intros Hl Hv B. pose proof B as ((Hi & Hj & _) & Hz & _).
  destruct (interp_dim_in l var Hv (bracket_two _ _ _ _ B) Hl fill z i j Hi Hj Hz) as (i' & j' & B' & ->).
  destruct (code_bracket_unique _ _ _ _ _ _ _ (nodup_distinct l Hl) B B') as [-> ->]. reflexivity.
Qed.
Lemma pad_src_S n k : (k < n)%nat -> pad_src n (S k) = k.
Proof. intros H. unfold pad_src. destruct (Nat.eqb_spec (S k) 0); [lia|]. destruct (Nat.eqb_spec (S k) (S n)); lia. Qed.
Lemma pad_src_0 n : pad_src n 0 = (n - 1)%nat.
Proof. reflexivity. Qed.
Lemma pad_src_end n : pad_src n (S n) = 0%nat.
Proof. unfold pad_src. cbn [Nat.eqb]. rewrite Nat.eqb_refl. reflexivity. Qed.

Section Cyclic.
  Variables (fill : option fl) (a : list nat -> fl) (LON : list R).
  Hypothesis Hne : LON <> [].
  Hypothesis Hinc : increasing LON.
  Let n := List.length LON.
  Let w := nth 0 LON 0.
  Let e := nth (n - 1) LON 0.
  Hypothesis Hspan : e - w < 360.
  Let W := wrap_increasing LON Hne Hinc Hspan.
  Let pos : (0 < n)%nat.
  Proof. unfold n. destruct LON; [contradiction|cbn; lia]. Qed.

  (** strictly inside the original range the padding is not used *)
  Lemma cyclic_row_inside k x : w < x <= e ->
    row_at MdLinear fill (pad_field a n) [] (wrap_lons LON) k (Fin x) = row_at MdLinear fill a [] LON k (Fin x).
  Proof.
    intros Hx.
    assert (Hn : (2 <= n)%nat).
    { destruct (Nat.lt_ge_cases n 2) as [H|]; auto. assert (E : n = 1%nat) by lia. unfold e in Hx. rewrite E in Hx. cbn in Hx. fold w in Hx. lra. }
    pose proof (increasing_nodup _ Hinc) as Nd.
    assert (Lr : List.length (map (fun c => a ([] ++ [k; c])) (seq 0 n)) = List.length LON) by (rewrite map_length, seq_length; auto).
    destruct (interp_dim_in LON _ Lr Hn Nd fill x 0%nat (n - 1)%nat pos ltac:(fold n; lia) (conj (Rlt_le _ _ (proj1 Hx)) (proj2 Hx))) as (i & j & B & E).
    unfold row_at at 2. fold n. rewrite E. clear E.
    assert (B' : code_bracket (fun k => nth k (wrap_lons LON) 0) (List.length (wrap_lons LON)) (S i) (S j) x).
    { destruct B as ((Hi & Hj & Hij & K) & Hx' & L). fold n in Hi, Hj, K, L. split; [split; [|split; [|split]]|split].
      - rewrite wrap_length. fold n. lia.
      - rewrite wrap_length. fold n. lia.
      - rewrite !wrap_nth by auto. auto.
      - intros m Hm. rewrite wrap_length in Hm. fold n in Hm. rewrite !wrap_nth by auto.
        destruct m as [|m].
        + left. rewrite wrap_first. fold n e. destruct i as [|i]; [fold w; lra|]. assert (w < nth (S i) LON 0) by (apply Hinc; auto; lia). lra.
        + destruct (Nat.eq_dec m n) as [->|Hmn].
          * right. unfold n. rewrite wrap_last. fold w. destruct (Nat.eq_dec j (n - 1)) as [->|]; [fold e; lra|].
            assert (nth j LON 0 < e) by (apply Hinc; fold n; lia). lra.
          * rewrite wrap_nth by (fold n; lia). apply K. lia.
      - rewrite !wrap_nth by auto. auto.
      - left. rewrite wrap_nth by auto. destruct L as [L|L]; auto. specialize (L 0%nat pos). fold w in L. lra. }
    unfold row_at. rewrite (interp_dim_code fill (wrap_lons LON) _ (S i) (S j) x); auto using row_length, increasing_nodup.
    destruct B as ((Hi & Hj & _) & _). unfold line_at. rewrite !wrap_nth by auto.
    rewrite !nth_map_seq by (rewrite ?wrap_length; unfold n in *; lia). unfold pad_field. cbn [app nth].
    rewrite !pad_src_S by auto. reflexivity.
  Qed.

  Variables (LAT : list R) (V : nat -> nat -> R).
  Hypothesis HV : forall k c, (k < List.length LAT)%nat -> (c < n)%nat -> a [k; c] = Fin (V k c).
  Let V' k c := V k (pad_src n c).
  Lemma pad_V k c : (k < List.length LAT)%nat -> (c < List.length (wrap_lons LON))%nat -> pad_field a n ([] ++ [k; c]) = Fin (V' k c).
  Proof.
    intros Hk Hc. unfold pad_field, V'. cbn [app nth]. apply HV; auto. rewrite wrap_length in Hc. fold n in Hc. unfold pad_src.
    destruct (Nat.eqb_spec c 0); [lia|]. destruct (Nat.eqb_spec c (S n)); lia.
  Qed.
  Lemma wrap_neighbours c : (c <= n)%nat -> neighbours (fun k => nth k (wrap_lons LON) 0) (List.length (wrap_lons LON)) c (S c).
  Proof. intros H. apply increasing_neighbours; auto. rewrite wrap_length. fold n. lia. Qed.

  Lemma cyclic_row_seg k c x : (k < List.length LAT)%nat -> (c <= n)%nat ->
    nth c (wrap_lons LON) 0 <= x <= nth (S c) (wrap_lons LON) 0 ->
    row_at MdLinear fill (pad_field a n) [] (wrap_lons LON) k (Fin x) =
    Fin (lin (nth c (wrap_lons LON) 0) (nth (S c) (wrap_lons LON) 0) (V' k c) (V' k (S c)) x).
  Proof.
    intros Hk Hc Hx. apply (row_fin fill (pad_field a n) [] LAT (wrap_lons LON) V'); auto using increasing_nodup, wrap_neighbours, pad_V.
  Qed.
  Lemma cyclic_row_east k x : (k < List.length LAT)%nat -> e <= x <= w + 360 ->
    row_at MdLinear fill (pad_field a n) [] (wrap_lons LON) k (Fin x) = Fin (lin e (w + 360) (V k (n - 1)%nat) (V k 0%nat) x).
  Proof.
    intros Hk Hx. rewrite (cyclic_row_seg k n); auto; unfold V'; rewrite ?pad_src_end; unfold n; rewrite wrap_last; fold n;
      replace n with (S (n - 1)) by lia; rewrite wrap_nth, ?pad_src_S by (unfold n in *; lia);
      replace (S (n - 1)) with n by lia; fold n e w; auto.
  Qed.
  Lemma cyclic_row_west k x : (k < List.length LAT)%nat -> e - 360 <= x <= w ->
    row_at MdLinear fill (pad_field a n) [] (wrap_lons LON) k (Fin x) = Fin (lin (e - 360) w (V k (n - 1)%nat) (V k 0%nat) x).
  Proof.
    intros Hk Hx. pose proof (cyclic_row_seg k 0%nat x Hk ltac:(lia)) as H. unfold V' in H.
    rewrite pad_src_0, pad_src_S, wrap_first, wrap_nth in H by auto. exact (H Hx).
  Qed.
  Lemma cyclic_row_mid k c x : (k < List.length LAT)%nat -> (S c < n)%nat -> nth c LON 0 <= x <= nth (S c) LON 0 ->
    row_at MdLinear fill (pad_field a n) [] (wrap_lons LON) k (Fin x) = Fin (lin (nth c LON 0) (nth (S c) LON 0) (V k c) (V k (S c)) x).
  Proof.
    intros Hk Hc Hx. pose proof (cyclic_row_seg k (S c) x Hk ltac:(lia)) as H. unfold V' in H.
    rewrite !pad_src_S, (wrap_nth LON c), (wrap_nth LON (S c)) in H by (unfold n in *; lia). exact (H Hx).
  Qed.
  Lemma cyclic_row_first k : (k < List.length LAT)%nat -> (2 <= n)%nat ->
    row_at MdLinear fill (pad_field a n) [] (wrap_lons LON) k (Fin w) = row_at MdLinear fill a [] LON k (Fin w).
  Proof.
    intros Hk Hn. rewrite (cyclic_row_mid k 0%nat); auto.
    - rewrite (row_fin fill a [] LAT LON V (increasing_nodup _ Hinc) HV k 0%nat 1%nat); auto.
      + apply increasing_neighbours; auto.
      + fold w. assert (w < nth 1 LON 0) by (apply Hinc; fold n; lia). lra.
    - fold w. assert (w < nth 1 LON 0) by (apply Hinc; fold n; lia). lra.
  Qed.
End Cyclic.

Lemma surf_ext md fill a a' q q' LAT LON LON' y x x' :
  (forall k, (k < List.length LAT)%nat -> row_at md fill a q LON k x = row_at md fill a' q' LON' k x') ->
  surf_at md fill a q LAT LON y x = surf_at md fill a' q' LAT LON' y x'.
Proof. intros H. unfold surf_at. f_equal. apply map_ext_in. intros k Hk. apply H. apply in_seq in Hk. lia. Qed.
Lemma surf_rows fill a q LAT LON (v : nat -> R) k b y x : NoDup LAT ->
  neighbours (fun k => nth k LAT 0) (List.length LAT) k b -> nth k LAT 0 <= y <= nth b LAT 0 ->
  (forall m, (m < List.length LAT)%nat -> row_at MdLinear fill a q LON m x = Fin (v m)) ->
  surf_at MdLinear fill a q LAT LON (Fin y) x = Fin (lin (nth k LAT 0) (nth b LAT 0) (v k) (v b) y).
Proof.
  intros Hy Nb Hk H. unfold surf_at. apply (interp_dim_fin fill LAT v); auto using row_length.
  intros m Hm. rewrite nth_map_seq by auto. auto.
Qed.

(** ** published forms *)
Lemma c25_seam data la lo ds (a : arr fl) LAT LON yo xo fill (V : nat -> nat -> R) :
  grid_input data la lo ds a [] LAT LON -> NoDup ds -> (2 <= List.length LAT)%nat -> NoDup LAT -> LON <> [] -> increasing LON ->
  let n := List.length LON in let w := nth 0 LON 0 in let e := nth (n - 1) LON 0 in
  e - w < 360 ->
  (forall k c, (k < List.length LAT)%nat -> (c < n)%nat -> get a [k; c] = Fin (V k c)) ->
  exists out, interp_multidim MdLinear data (map Fin yo) (map Fin xo) la lo true None fill = Ok out /\ dims out = ds /\
    shp (dat out) = [List.length yo; List.length xo] /\
    forall jy jx, (jy < List.length yo)%nat -> (jx < List.length xo)%nat ->
      let y := nth jy yo 0 in let x := nth jx xo 0 in let v := get (dat out) [jy; jx] in
      (forall k b, neighbours (fun k => nth k LAT 0) (List.length LAT) k b -> nth k LAT 0 <= y <= nth b LAT 0 ->
         (e <= x <= w + 360 ->
            v = Fin (bilin (nth k LAT 0) (nth b LAT 0) e (w + 360) (V k (n - 1)%nat) (V k 0%nat) (V b (n - 1)%nat) (V b 0%nat) y x)) /\
         (e - 360 <= x <= w ->
            v = Fin (bilin (nth k LAT 0) (nth b LAT 0) (e - 360) w (V k (n - 1)%nat) (V k 0%nat) (V b (n - 1)%nat) (V b 0%nat) y x)) /\
         (forall c, (S c < n)%nat -> nth c LON 0 <= x <= nth (S c) LON 0 ->
            v = Fin (bilin (nth k LAT 0) (nth b LAT 0) (nth c LON 0) (nth (S c) LON 0) (V k c) (V k (S c)) (V b c) (V b (S c)) y x))) /\
      (forall f, fill = Some f -> f = NaN \/ finite f -> x < e - 360 \/ w + 360 < x -> v = f) /\
      (forall jx', (jx' < List.length xo)%nat -> e - 360 <= x <= w -> nth jx' xo 0 = x + 360 -> get (dat out) [jy; jx'] = v).
Proof.
  intros G Hnd Ny Hy Hne Hinc n w e Hspan HV.
  destruct (cyclic_core MdLinear data la lo ds a LAT LON (map Fin yo) (map Fin xo) None fill G) as (out & E & Do & So & Go); auto.
  { intros ->; cbn in *; lia. }
  exists out. split; auto. split; auto. split; [rewrite So, !map_length; reflexivity|].
  intros jy jx Hjy Hjx y x v.
  assert (Gv : forall jx, (jx < List.length xo)%nat -> get (dat out) [jy; jx] = surf_at MdLinear fill (pad_field (get a) n) [] LAT (wrap_lons LON) (Fin y) (Fin (nth jx xo 0))).
  { intros j Hj. rewrite Go. cbn [post_value pre_value]. rewrite (nth_map_in Fin yo jy 0), (nth_map_in Fin xo j 0) by auto. reflexivity. }
  assert (Ev : v = surf_at MdLinear fill (pad_field (get a) n) [] LAT (wrap_lons LON) (Fin y) (Fin x)) by (apply Gv; auto).
  split; [|split].
  - intros k b Nb Hk. split; [|split].
    + intros Hx. rewrite Ev. unfold bilin. apply surf_rows with (v := fun m => lin e (w + 360) (V m (n - 1)%nat) (V m 0%nat) x); auto.
      intros m Hm. apply (cyclic_row_east fill (get a) LON Hne Hinc Hspan LAT V HV); auto.
    + intros Hx. rewrite Ev. unfold bilin. apply surf_rows with (v := fun m => lin (e - 360) w (V m (n - 1)%nat) (V m 0%nat) x); auto.
      intros m Hm. apply (cyclic_row_west fill (get a) LON Hne Hinc Hspan LAT V HV); auto.
    + intros c Hc Hx. rewrite Ev. unfold bilin. apply surf_rows with (v := fun m => lin (nth c LON 0) (nth (S c) LON 0) (V m c) (V m (S c)) x); auto.
      intros m Hm. apply (cyclic_row_mid fill (get a) LON Hne Hinc Hspan LAT V HV); auto.
  - intros f -> Hf Hx. rewrite Ev. apply surf_out; auto.
    + rewrite wrap_length. lia.
    + apply increasing_nodup, wrap_increasing; auto.
    + right. pose proof (wrap_increasing LON Hne Hinc Hspan) as W. unfold increasing, at_ in W. rewrite wrap_length in W |- *. fold n in W |- *.
      destruct Hx as [Hx|Hx].
      * right. intros k Hk. destruct k as [|k]; [rewrite wrap_first; fold n e; auto|].
        apply Rlt_trans with (e - 360); auto. specialize (W 0%nat (S k) ltac:(lia) Hk). rewrite wrap_first in W. exact W.
      * left. intros k Hk. destruct (Nat.eq_dec k (S n)) as [->|]; [unfold n; rewrite wrap_last; fold w; auto|].
        apply Rlt_trans with (w + 360); auto. specialize (W k (S n) ltac:(lia) ltac:(lia)). unfold n in W at 1. rewrite wrap_last in W. exact W.
  - intros jx' Hj' Hx Ex. rewrite (Gv jx' Hj'), Ev, Ex. apply surf_ext. intros k Hk.
    rewrite (cyclic_row_east fill (get a) LON Hne Hinc Hspan LAT V HV) by (auto; fold n e w; lra).
    rewrite (cyclic_row_west fill (get a) LON Hne Hinc Hspan LAT V HV) by (auto; fold n e w; lra).
    fold n e w. f_equal. unfold lin. replace (x + 360 - e) with (x - (e - 360)) by lra. replace (w + 360 - e) with (w - (e - 360)) by lra. reflexivity.
Qed.

Lemma c25_inside data la lo ds (a : arr fl) LAT LON yo xo missing fill out out' :
  grid_input data la lo ds a [] LAT LON -> NoDup ds -> LAT <> [] -> (2 <= List.length LON)%nat -> increasing LON ->
  let n := List.length LON in let w := nth 0 LON 0 in let e := nth (n - 1) LON 0 in
  e - w < 360 ->
  interp_multidim MdLinear data (map Fin yo) (map Fin xo) la lo true missing fill = Ok out ->
  interp_multidim MdLinear data (map Fin yo) (map Fin xo) la lo false missing fill = Ok out' ->
  forall jy jx, (jy < List.length yo)%nat -> (jx < List.length xo)%nat ->
    w < nth jx xo 0 <= e \/
    (nth jx xo 0 = w /\ missing = None /\ forall k c, (k < List.length LAT)%nat -> (c < n)%nat -> finite (get a [k; c])) ->
    get (dat out) [jy; jx] = get (dat out') [jy; jx].
Proof.
  intros G Hnd Ny Hn Hinc n w e Hspan E E' jy jx Hjy Hjx Hx.
  assert (Hne : LON <> []) by (intros ->; cbn in *; lia).
  destruct (cyclic_core MdLinear data la lo ds a LAT LON (map Fin yo) (map Fin xo) missing fill G Ny Hne Hnd) as (o & E1 & _ & _ & Go).
  destruct (grid_core MdLinear data la lo ds a [] LAT LON (map Fin yo) (map Fin xo) missing fill G Ny Hne) as (o' & E1' & _ & _ & _ & Go').
  assert (o = out) by congruence. assert (o' = out') by congruence. subst o o'.
  rewrite Go. specialize (Go' [] jy jx eq_refl). cbn [app] in Go'. rewrite Go'. f_equal.
  rewrite (nth_map_in Fin yo jy 0), (nth_map_in Fin xo jx 0) by auto. apply surf_ext. intros k Hk.
  destruct Hx as [Hx|(-> & -> & HF)].
  - apply (cyclic_row_inside fill _ LON Hne Hinc Hspan); auto.
  - cbn [pre_value].
    set (V := fun k c => match get a [k; c] with Fin r => r | _ => 0 end).
    apply (cyclic_row_first fill (get a) LON Hne Hinc Hspan LAT V); auto.
    intros k0 c0 Hk0 Hc0. destruct (HF k0 c0 Hk0 Hc0) as [r Er]. unfold V. rewrite Er. reflexivity.
Qed.
