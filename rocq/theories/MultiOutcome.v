(** Which calls of interp_multidim fail, and how (C119). *)
From Coq Require Import List Bool Arith ZArith Lia String.
From Verif Require Import PyBase PyFacts Num Arr ArrFacts Hybrid HybridFacts InterpMulti.
Import ListNotations.

(** a DataArray with as many dimension names as axes *)
Definition ranked {T} (d : da T) : Prop := List.length (dims d) = List.length (shp (dat d)).
(** no row or no column *)
Definition empty_grid (s : list nat) : Prop := nth (List.length s - 2) s 0 = 0 \/ nth (List.length s - 1) s 0 = 0.

Section Outcome.
  Context {T : Type} {N : Num T}.
  Lemma mask_dims m (d : da T) : dims (mask_missing m d) = dims d /\ shp (dat (mask_missing m d)) = shp (dat d).
  Proof. destruct m; split; reflexivity. Qed.
  Lemma c119_labelled md (v : val T) (d : da T) lat_out lon_out lat_in lon_in cyclic missing fill :
    v = VDa d \/ v = VSubDa d -> ranked d ->
    (List.length (dims d) < 2 -> interp_multidim md v lat_out lon_out lat_in lon_in cyclic missing fill = Err IndexError) /\
    (2 <= List.length (dims d) -> empty_grid (shp (dat d)) -> interp_multidim md v lat_out lon_out lat_in lon_in cyclic missing fill = Err ValueError) /\
    (2 < List.length (dims d) -> cyclic = true -> interp_multidim md v lat_out lon_out lat_in lon_in cyclic missing fill = Err ValueError) /\
    (2 <= List.length (dims d) -> ~ empty_grid (shp (dat d)) -> (cyclic = true -> List.length (dims d) = 2) ->
       exists out, interp_multidim md v lat_out lon_out lat_in lon_in cyclic missing fill = Ok out /\ dims out = dims d /\
         shp (dat out) = firstn (List.length (dims d) - 2) (shp (dat d)) ++ [List.length lat_out; List.length lon_out]).
  Proof.
    intros Hv Hr. unfold ranked in Hr. destruct (mask_dims missing d) as [MD MS].
    assert (E : interp_multidim md v lat_out lon_out lat_in lon_in cyclic missing fill =
      (guard Nat.ltb (List.length (dims d)) 2 raise IndexError ;; do d <- (if cyclic then add_cyclic (mask_missing missing d) else Ok (mask_missing missing d)) ;;
       do out <- interp_last2 md fill d lat_out lon_out ;; Ok (fill_missing missing out))) by (destruct Hv as [-> | ->]; reflexivity).
    rewrite E. clear E. set (m := mask_missing missing d) in *. clearbody m.
    assert (CY : 2 < List.length (dims d) -> add_cyclic m = Err ValueError).
    { intros L. unfold add_cyclic. rewrite MD, MS. destruct (dims d) as [|a [|b [|e l]]]; cbn in L; try lia. reflexivity. }
    repeat apply conj.
    - intros L. apply Nat.ltb_lt in L. rewrite L. reflexivity.
    - intros L Em. assert (Q : Nat.ltb (List.length (dims d)) 2 = false) by (apply Nat.ltb_ge; auto). rewrite Q.
      assert (F : forall x, List.length (dims x) = List.length (shp (dat x)) -> empty_grid (shp (dat x)) -> interp_last2 md fill x lat_out lon_out = Err ValueError).
      { intros x Lx [Z|Z]; unfold interp_last2; rewrite Lx, Z; cbn [Nat.eqb]; rewrite ?orb_true_r; reflexivity. }
      destruct cyclic; cbn [bind].
      + destruct (Nat.eq_dec (List.length (dims d)) 2) as [L2|L2]; [|rewrite CY by lia; reflexivity].
        destruct (shp (dat d)) as [|ny [|nx [|? ?]]] eqn:Sh; cbn in Hr; try lia. destruct (dims d) as [|dy [|dx [|? ?]]] eqn:Ds; cbn in L2; try lia.
        unfold add_cyclic. rewrite MD, MS. destruct Em as [Z|Z]; cbn in Z.
        * subst ny. destruct (Nat.eqb nx 0); [reflexivity|]. cbn [bind]. rewrite F; [reflexivity|reflexivity|left; reflexivity].
        * subst nx. reflexivity.
      + rewrite F; [reflexivity|congruence|]. rewrite MS. exact Em.
    - intros L ->. assert (Q : Nat.ltb (List.length (dims d)) 2 = false) by (apply Nat.ltb_ge; lia). rewrite Q, CY by auto. reflexivity.
    - intros L Ne Hc. assert (Q : Nat.ltb (List.length (dims d)) 2 = false) by (apply Nat.ltb_ge; lia). rewrite Q.
      assert (G : forall x, List.length (dims x) = List.length (shp (dat x)) -> ~ empty_grid (shp (dat x)) ->
        exists out, (do out <- interp_last2 md fill x lat_out lon_out ;; Ok (fill_missing missing out)) = Ok out /\ dims out = dims x /\
          shp (dat out) = firstn (List.length (dims x) - 2) (shp (dat x)) ++ [List.length lat_out; List.length lon_out]).
      { intros x Lx Nx. unfold interp_last2. destruct (Nat.eqb_spec (nth (List.length (dims x) - 2) (shp (dat x)) 0) 0) as [Z|_]; [exfalso; apply Nx; left; congruence|].
        destruct (Nat.eqb_spec (nth (List.length (dims x) - 1) (shp (dat x)) 0) 0) as [Z|_]; [exfalso; apply Nx; right; congruence|].
        cbn [orb bind]. eexists. split; [reflexivity|]. destruct missing; split; reflexivity. }
      destruct cyclic; cbn [bind].
      + specialize (Hc eq_refl). destruct (shp (dat d)) as [|ny [|nx [|? ?]]] eqn:Sh; cbn in Hr; try lia. destruct (dims d) as [|dy [|dx [|? ?]]] eqn:Ds; cbn in Hc; try lia.
        unfold add_cyclic. rewrite MD, MS. destruct (Nat.eqb_spec nx 0) as [Z|Z]; [exfalso; apply Ne; right; exact Z|]. cbn [bind].
        destruct (G (mkDa [dy; dx] (mkArr [ny; nx + 2] (fun i => get (dat m) [nth 0 i 0; pad_src nx (nth 1 i 0)]))
           [(dy, mkCoord [dy] (vec nnan (dim_values m dy ny))); (dx, mkCoord [dx] (vec nnan (upd (upd (pad_wrap nnan (dim_values m dx nx)) 0 (nsub (nth 0 (pad_wrap nnan (dim_values m dx nx)) nnan) (ofZ 360)))
              (S nx) (nadd (nth (S nx) (upd (pad_wrap nnan (dim_values m dx nx)) 0 (nsub (nth 0 (pad_wrap nnan (dim_values m dx nx)) nnan) (ofZ 360))) nnan) (ofZ 360)))))] [] None)) as (out & Eo & Do & So).
        * reflexivity.
        * intros [Q'|Q']; cbn in Q'; [apply Ne; left; exact Q'|lia].
        * exists out. split; [exact Eo|]. split; [exact Do|]. exact So.
      + destruct (G m) as (out & Eo & Do & So); [congruence|rewrite MS; exact Ne|]. exists out. rewrite MD in Do, So. rewrite MS in So. auto.
  Qed.
  Lemma c119_numpy md (a : arr T) lat_out lon_out lat_in lon_in cyclic missing fill :
    (lat_in = None \/ lon_in = None -> interp_multidim md (VNd a) lat_out lon_out lat_in lon_in cyclic missing fill = Err ValueError) /\
    forall la lo, lat_in = Some la -> lon_in = Some lo ->
      (shp a <> [List.length la; List.length lo] \/ la = [] \/ lo = [] -> interp_multidim md (VNd a) lat_out lon_out lat_in lon_in cyclic missing fill = Err ValueError) /\
      (shp a = [List.length la; List.length lo] -> la <> [] -> lo <> [] ->
         exists out, interp_multidim md (VNd a) lat_out lon_out lat_in lon_in cyclic missing fill = Ok out /\ dims out = ["lat"; "lon"]%string /\ shp (dat out) = [List.length lat_out; List.length lon_out]).
  Proof.
    split.
    - intros H. unfold interp_multidim. destruct lat_in, lon_in; try reflexivity. destruct H; discriminate.
    - intros la lo -> ->. set (d := mkDa ["lat"; "lon"]%string a [("lat"%string, mkCoord ["lat"%string] (vec nnan la)); ("lon"%string, mkCoord ["lon"%string] (vec nnan lo))] [] None).
      assert (E : shp a = [List.length la; List.length lo] -> interp_multidim md (VNd a) lat_out lon_out (Some la) (Some lo) cyclic missing fill = interp_multidim md (VDa d) lat_out lon_out (Some la) (Some lo) cyclic missing fill).
      { intros S. unfold interp_multidim. destruct (shape_eqb_spec (shp a) [List.length la; List.length lo]); [|contradiction]. reflexivity. }
      split.
      + intros H. destruct (shape_eqb_spec (shp a) [List.length la; List.length lo]) as [S|S].
        * destruct H as [H|H]; [contradiction|]. rewrite E by auto. destruct (c119_labelled md (VDa d) d lat_out lon_out (Some la) (Some lo) cyclic missing fill) as (_ & K & _ & _); [left; reflexivity|unfold ranked, d; cbn [dims dat]; rewrite S; reflexivity|]. apply K; [unfold d; cbn; lia|].
          unfold d. cbn [dat]. rewrite S. destruct H as [-> | ->]; [left|right]; reflexivity.
        * unfold interp_multidim. destruct (shape_eqb_spec (shp a) [List.length la; List.length lo]); [contradiction|]. reflexivity.
      + intros S Ha Ho. rewrite E by auto. destruct (c119_labelled md (VDa d) d lat_out lon_out (Some la) (Some lo) cyclic missing fill) as (_ & _ & _ & H); [left; reflexivity|unfold ranked, d; cbn [dims dat]; rewrite S; reflexivity|].
        destruct H as (out & Eo & Do & So); [unfold d; cbn; lia| |reflexivity|].
        * unfold d. cbn [dat]. rewrite S. intros [Z|Z]; cbn in Z; apply length_zero_iff_nil in Z; contradiction.
        * exists out. auto.
  Qed.
End Outcome.
