(** Proofs about [Hybrid]. *)
From Coq Require Import Reals List Bool Arith ZArith Lra Lia String.
From Verif Require Import PyBase Num NumFacts Arr ArrFacts XrFacts Hybrid.
Import ListNotations.

Lemma map_env_of ds i : NoDup ds -> List.length i = List.length ds -> map (env_of ds i) ds = i.
Proof.
  revert i; induction ds as [|d ds IH]; intros [|k i] Hnd Hl; cbn in *; try discriminate; auto.
  inversion Hnd as [|x l Hx Hnd']; subst. f_equal.
  - unfold env_of. cbn. rewrite String.eqb_refl. reflexivity.
  - rewrite <- (IH i) at 2 by (auto; lia). apply map_ext_in. intros d' Hd'.
    unfold env_of. cbn. destruct (String.eqb_spec d' d) as [->|]; [contradiction|].
    destruct (sindex_In _ _ Hd') as (j & E & _). rewrite E. reflexivity.
Qed.

Lemma map_dsize {T} (a : da T) : NoDup (dims a) -> List.length (dims a) = List.length (shp (dat a)) ->
  map (fun d => match dsize a d with Some n => n | None => 0 end) (dims a) = shp (dat a).
Proof.
  intros Hnd Hl. unfold dsize. revert Hnd Hl. generalize (dims a) as ds, (shp (dat a)) as s.
  induction ds as [|d ds IH]; intros [|n s] Hnd Hl; cbn in *; try discriminate; auto.
  inversion Hnd as [|x l Hx Hnd']; subst. f_equal.
  - rewrite String.eqb_refl. reflexivity.
  - etransitivity; [|apply (IH s); auto; lia]. apply map_ext_in. intros d' Hd'.
    destruct (String.eqb_spec d' d) as [->|]; [contradiction|].
    destruct (sindex_In _ _ Hd') as (j & E & _). rewrite E. reflexivity.
Qed.

Section Facts.
  Context {T : Type} {N : Num T}.
  Local Open Scope num_scope.

  Lemma slookup_app {A} x (l1 l2 : list (string * A)) :
    slookup x (l1 ++ l2) = match slookup x l1 with Some v => Some v | None => slookup x l2 end.
  Proof.
    induction l1 as [|[k v] l1 IH]; cbn; auto. destruct (String.eqb x k); auto.
  Qed.
  Lemma slookup_filter_none {A} x (p : string * A -> bool) l : slookup x l = None -> slookup x (filter p l) = None.
  Proof.
    induction l as [|[k v] l IH]; cbn; auto. destruct (String.eqb_spec x k) as [->|]; [discriminate|].
    intros H. destruct (p (k, v)); cbn; auto. destruct (String.eqb_spec x k); [contradiction|auto].
  Qed.
  Lemma slookup_join x (c1 c2 : list (string * coordv T)) :
    slookup x c2 = None -> slookup x (join_coords c1 c2) = slookup x c1.
  Proof.
    intros H. unfold join_coords. rewrite slookup_app. rewrite slookup_filter_none by auto.
    destruct (slookup x c1); auto.
  Qed.

  (** coordinates only use the array's own dimensions *)
  Definition wf_coords (a : da T) : Prop := forall c, In c (coords a) -> incl (cdims (snd c)) (dims a).

  Lemma slookup_rename (la lb : string) (cs : list (string * coordv T)) :
    la <> lb -> slookup la cs = None ->
    slookup la (map (fun p => (ren [(lb, la)] (fst p),
                               mkCoord (map (ren [(lb, la)]) (cdims (snd p))) (cdat (snd p)))) cs)
    = option_map (fun c => mkCoord (map (ren [(lb, la)]) (cdims c)) (cdat c)) (slookup lb cs).
  Proof.
    intros Hne. induction cs as [|[k c] cs IH]; cbn; auto.
    destruct (String.eqb_spec la k) as [->|Hk]; [discriminate|]. intros H.
    unfold ren at 1. cbn. destruct (String.eqb_spec k lb) as [->|Hk2].
    - rewrite !String.eqb_refl. reflexivity.
    - destruct (String.eqb_spec la k); [contradiction|]. destruct (String.eqb_spec lb k); [congruence|].
      apply IH; auto.
  Qed.

  Lemma slookup_In {A} x (l : list (string * A)) v : slookup x l = Some v -> In (x, v) l.
  Proof.
    induction l as [|[k w] l IH]; cbn; [discriminate|]. destruct (String.eqb_spec x k) as [->|].
    - intros H; injection H as ->. auto.
    - auto.
  Qed.

  Lemma index_labels_rename (a : da T) la lb :
    la <> lb -> slookup la (coords a) = None -> wf_coords a -> dims a = [lb] ->
    index_labels (xr_rename [(lb, la)] a) la = index_labels a lb.
  Proof.
    intros Hne Hs Hw Hd. unfold index_labels, xr_rename. cbn [coords].
    rewrite slookup_rename by auto. destruct (slookup lb (coords a)) as [c|] eqn:E; cbn; auto.
    apply slookup_In in E. specialize (Hw _ E). cbn in Hw. rewrite Hd in Hw.
    destruct (cdims c) as [|d1 [|d2 ds]]; cbn; auto.
    - assert (d1 = lb) by (destruct (Hw d1 ltac:(cbn; auto)) as [->|[]]; auto). subst.
      unfold ren. cbn. rewrite !String.eqb_refl. cbn. reflexivity.
  Qed.

  Definition same_labels (o1 o2 : option (list T)) : Prop :=
    match o1, o2 with Some l1, Some l2 => labels_eqb l1 l2 = true | _, _ => True end.

  Lemma dims_eqb_spec d1 d2 : reflect (d1 = d2) (dims_eqb d1 d2).
  Proof. unfold dims_eqb. destruct (list_eq_dec string_dec d1 d2); constructor; auto. Qed.
  Lemma shape_eqb_spec s1 s2 : reflect (s1 = s2) (shape_eqb s1 s2).
  Proof. unfold shape_eqb. destruct (list_eq_dec Nat.eq_dec s1 s2); constructor; auto. Qed.

  (** core of the two labelled formulas: coefficient arrays a(l), b(l) with the same level name
      and a field p without that dimension: f(a) + b*p *)
  Lemma level_combine (g : T -> T) (a b p : da T) l n :
    dims a = [l] -> dims b = [l] -> shp (dat a) = [n] -> shp (dat b) = [n] ->
    wf_da p -> ~ In l (dims p) -> slookup l (coords p) = None ->
    same_labels (index_labels a l) (index_labels b l) ->
    exists t r, xr_map2 nmul b p = Ok t /\ xr_map2 nadd (xr_map g a) t = Ok r /\
      dims r = l :: dims p /\ shp (dat r) = n :: shp (dat p) /\
      coords r = join_coords (coords a) (join_coords (coords b) (coords p)) /\
      forall k idx, List.length idx = List.length (dims p) ->
        get (dat r) (k :: idx) = g (get (dat a) [k]) + get (dat b) [k] * get (dat p) idx.
  Proof.
    intros Da Db Sa Sb [Wl Wn] Hl Hc Hlab.
    destruct (xr_map2_ok nmul b p) as (t & Et & Dt & Ct & Gt & St).
    { apply labels_agree_disjoint. rewrite Db. intros d [<-|[]]; auto. }
    { apply sizes_agree_disjoint. rewrite Db. intros d [<-|[]]; auto. }
    assert (Dt' : dims t = l :: dims p).
    { rewrite Dt, Db, join_dims_new; auto. intros d Hd [->|[]]; auto. }
    assert (Hsb : dsize b l = Some n).
    { unfold dsize. rewrite Db, Sb. cbn. rewrite String.eqb_refl. reflexivity. }
    assert (St' : shp (dat t) = n :: shp (dat p)).
    { rewrite St, Db. rewrite join_dims_new by (intros d Hd [->|[]]; auto). cbn [app map].
      rewrite Hsb. f_equal.
      etransitivity; [|apply (map_dsize p); auto]. apply map_ext_in. intros d Hd.
      rewrite (dsize_notIn b d); auto. rewrite Db. intros [->|[]]; auto. }
    assert (Hst : dsize t l = Some n).
    { unfold dsize. rewrite Dt', St'. cbn. rewrite String.eqb_refl. reflexivity. }
    assert (Hsa : dsize (xr_map g a) l = Some n).
    { unfold dsize, xr_map. cbn. rewrite Da, Sa. cbn. rewrite String.eqb_refl. reflexivity. }
    destruct (xr_map2_ok nadd (xr_map g a) t) as (r & Er & Dr & Cr & Gr & Sr).
    { unfold labels_agree. cbn [dims xr_map]. rewrite Da, Dt'. cbn. rewrite String.eqb_refl. cbn.
      rewrite andb_true_r. unfold index_labels in *. cbn [coords xr_map]. rewrite Ct.
      rewrite slookup_join by auto.
      destruct (slookup l (coords a)) as [c|]; auto.
      destruct (cdims c) as [|d1 [|d2 ds]]; auto. destruct (String.eqb l d1); auto.
      destruct (slookup l (coords b)) as [c'|]; auto.
      destruct (cdims c') as [|d1' [|d2' ds']]; auto. destruct (String.eqb l d1'); auto. }
    { unfold sizes_agree. cbn [dims xr_map]. rewrite Da. cbn [forallb]. rewrite Hsa, Hst.
      rewrite Nat.eqb_refl. reflexivity. }
    assert (Dr' : dims r = l :: dims p).
    { rewrite Dr. cbn [dims xr_map]. rewrite Da, Dt'. unfold join_dims. cbn. rewrite String.eqb_refl. cbn.
      f_equal. apply (f_equal (@tl string)) in Dt'. clear -Hl.
      induction (dims p) as [|d ds IH]; cbn; auto. destruct (String.eqb_spec d l) as [->|].
      - exfalso. apply Hl. cbn; auto.
      - cbn. f_equal. apply IH. intros H. apply Hl. cbn; auto. }
    exists t, r. repeat split; auto.
    - rewrite Sr. rewrite <- Dr, Dr'. cbn [map]. rewrite Hsa. f_equal.
      transitivity (map (fun d => match dsize t d with Some m => m | None => 0 end) (dims p)).
      + apply map_ext_in. intros d Hd. rewrite (dsize_notIn (xr_map g a) d); auto.
        cbn. rewrite Da. intros [->|[]]; auto.
      + pose proof (map_dsize t) as M. rewrite Dt', St' in M. cbn [map] in M.
        assert (M' : NoDup (l :: dims p)) by (constructor; auto).
        specialize (M M'). cbn in M. rewrite Wl in M. specialize (M eq_refl). injection M as _ M. exact M.
    - cbn [coords xr_map] in Cr. rewrite Cr, Ct. reflexivity.
    - intros k idx Hidx.
      assert (Hnd : NoDup (l :: dims p)) by (constructor; auto).
      pose proof (map_env_of (l :: dims p) (k :: idx) Hnd ltac:(cbn; lia)) as E.
      specialize (Gr (env_of (l :: dims p) (k :: idx))).
      unfold getn at 1 in Gr. rewrite Dr', E in Gr. rewrite Gr, Gt.
      cbn [map] in E. injection E as E1 E2.
      unfold getn. cbn [dims dat xr_map get amap]. rewrite Da, Db. cbn [map].
      rewrite E1, E2. reflexivity.
  Qed.

  Lemma pressure_xr_spec (psfc hya hyb : da T) (p0 : T) la lb n :
    dims hya = [la] -> dims hyb = [lb] -> shp (dat hya) = [n] -> shp (dat hyb) = [n] ->
    wf_da psfc -> ~ In la (dims psfc) -> slookup la (coords psfc) = None ->
    wf_coords hyb -> (la <> lb -> slookup la (coords hyb) = None) ->
    same_labels (index_labels hya la) (index_labels hyb lb) ->
    exists r, pressure_xr psfc hya hyb p0 = Ok (negb (String.eqb la lb), r) /\
      dims r = la :: dims psfc /\ shp (dat r) = n :: shp (dat psfc) /\
      forall k idx, List.length idx = List.length (dims psfc) ->
        get (dat r) (k :: idx) = get (dat hya) [k] * p0 + get (dat hyb) [k] * get (dat psfc) idx.
  Proof.
    intros Da Db Sa Sb Wp Hl Hc Hwb Hcb Hlab. unfold pressure_xr.
    assert (E : dims_eqb (dims hya) (dims hyb) = String.eqb la lb).
    { rewrite Da, Db. destruct (dims_eqb_spec [la] [lb]) as [E|E], (String.eqb_spec la lb); congruence. }
    rewrite E. rewrite Da, Db. cbn [combine].
    destruct (String.eqb_spec la lb) as [->|Hne]; cbn [negb].
    - destruct (level_combine (fun x => x * p0) hya hyb psfc lb n) as (t & r & Et & Er & Dr & Sr & _ & Gr); auto.
      rewrite Et. cbn [bind]. rewrite Er. cbn [bind]. eauto 6.
    - destruct (level_combine (fun x => x * p0) hya (xr_rename [(lb, la)] hyb) psfc la n)
        as (t & r & Et & Er & Dr & Sr & _ & Gr); auto.
      + cbn. rewrite Db. cbn. unfold ren. cbn. rewrite String.eqb_refl. reflexivity.
      + rewrite index_labels_rename; auto.
      + rewrite Et. cbn [bind]. rewrite Er. cbn [bind]. eauto 6.
  Qed.

  (** level labels of the pressure: those of hya, if any *)
  Lemma pressure_xr_labels (psfc hya hyb r : da T) (p0 : T) la lb n w :
    dims hya = [la] -> dims hyb = [lb] -> shp (dat hya) = [n] -> shp (dat hyb) = [n] ->
    wf_da psfc -> ~ In la (dims psfc) -> slookup la (coords psfc) = None ->
    wf_coords hyb -> (la <> lb -> slookup la (coords hyb) = None) ->
    same_labels (index_labels hya la) (index_labels hyb lb) ->
    pressure_xr psfc hya hyb p0 = Ok (w, r) ->
    (forall L, index_labels hya la = Some L -> index_labels r la = Some L) /\
    (slookup la (coords hya) = None -> slookup lb (coords hyb) = None -> index_labels r la = None).
  Proof.
    intros Da Db Sa Sb Wp Hl Hc Hwb Hcb Hlab H. unfold pressure_xr in H.
    assert (E : dims_eqb (dims hya) (dims hyb) = String.eqb la lb).
    { rewrite Da, Db. destruct (dims_eqb_spec [la] [lb]) as [E|E], (String.eqb_spec la lb); congruence. }
    assert (J : forall cb, slookup la (join_coords (coords hya) (join_coords cb (coords psfc)))
                = match slookup la (coords hya) with Some c => Some c | None =>
                    if smem la (map fst (coords hya)) then None else slookup la cb end).
    { intros cb. unfold join_coords at 1. rewrite slookup_app. destruct (slookup la (coords hya)); auto.
      destruct (smem la (map fst (coords hya))) eqn:Sm.
      - induction (join_coords cb (coords psfc)) as [|[k c] cs IH]; cbn; auto.
        destruct (smem k (map fst (coords hya))) eqn:Sk; cbn; auto.
        destruct (String.eqb_spec la k) as [<-|]; [congruence|auto].
      - rewrite <- (slookup_join la cb (coords psfc)) by auto.
        induction (join_coords cb (coords psfc)) as [|[k c] cs IH]; cbn; auto.
        destruct (String.eqb_spec la k) as [<-|Hk].
        + rewrite Sm. cbn. rewrite String.eqb_refl. reflexivity.
        + destruct (smem k (map fst (coords hya))); cbn; auto. destruct (String.eqb_spec la k); [contradiction|auto]. }
    rewrite E in H. rewrite Da, Db in H. cbn [combine] in H.
    destruct (String.eqb_spec la lb) as [Hab|Hne]; cbn [negb] in H.
    - subst lb. destruct (level_combine (fun x => x * p0) hya hyb psfc la n) as (t & r' & Et & Er & Dr & Sr & Cr & Gr); auto.
      rewrite Et in H. cbn [bind] in H. rewrite Er in H. cbn [bind] in H. injection H as _ <-.
      unfold index_labels. rewrite Cr, J. split.
      + intros L. destruct (slookup la (coords hya)); [auto|discriminate].
      + intros -> ->. destruct (smem la _); reflexivity.
    - destruct (level_combine (fun x => x * p0) hya (xr_rename [(lb, la)] hyb) psfc la n)
        as (t & r' & Et & Er & Dr & Sr & Cr & Gr); auto.
      + cbn. rewrite Db. cbn. unfold ren. cbn. rewrite String.eqb_refl. reflexivity.
      + rewrite index_labels_rename; auto.
      + rewrite Et in H. cbn [bind] in H. rewrite Er in H. cbn [bind] in H. injection H as _ <-.
        unfold index_labels. rewrite Cr, J. split.
        * intros L. destruct (slookup la (coords hya)); [auto|discriminate].
        * intros -> Hb. cbn [coords xr_rename]. rewrite slookup_rename by auto. rewrite Hb. cbn.
          destruct (smem la _); reflexivity.
  Qed.
End Facts.

Section NumpyFacts.
  Context {T : Type} {N : Num T}.
  Local Open Scope num_scope.

  Lemma bdim_1_l m : bdim 1 m = Some m.
  Proof. unfold bdim. destruct (Nat.eqb_spec 1 m) as [<-|]; reflexivity. Qed.
  Lemma bdim_refl m : bdim m m = Some m.
  Proof. unfold bdim. rewrite Nat.eqb_refl. reflexivity. Qed.

  (** numpy surface field of rank at most two seen as (i, j) *)
  Definition np_cell (p : arr T) (i j : nat) : T := get p (skipn (2 - ndim p) [i; j]).
  Definition np_shape2 (p : arr T) : list nat := repeat 1 (2 - ndim p) ++ shp p.

  Lemma shape1 {A} (a : arr A) : ndim a = 1 -> exists n, shp a = [n].
  Proof. unfold ndim. destruct (shp a) as [|n [|m s]]; cbn; intros; try discriminate. eauto. Qed.

  Lemma expand12_spec (a : arr T) n : shp a = [n] ->
    shp (expand12 a) = [n; 1; 1] /\ forall k i j, get (expand12 a) [k; i; j] = get a [k].
  Proof. intros H. unfold expand12. rewrite H. cbn. auto. Qed.

  (** shape and value of the product of an (n,1,1) array with a field of rank <= 2 *)
  Lemma np_level_mul (f : T -> T -> T) (b p : arr T) n :
    shp b = [n; 1; 1] -> ndim p <= 2 ->
    exists t, np_map2 f b p = Ok t /\ shp t = n :: np_shape2 p /\
      forall k i j, inb (n :: np_shape2 p) [k; i; j] ->
        get t [k; i; j] = f (get b [k; 0; 0]) (np_cell p i j).
  Proof.
    intros Hb Hp. unfold np_map2. rewrite Hb. unfold np_shape2, np_cell, ndim in *.
    destruct (shp p) as [|x [|y [|z s]]] eqn:Es; cbn in Hp; try lia.
    - cbn. eexists; split; [reflexivity|]. split; [reflexivity|]. intros k i j H. cbn [get].
      assert (Hk : k < n) by (inversion H; auto).
      f_equal. f_equal. unfold bidx. cbn. destruct (Nat.eqb_spec n 1); auto. repeat f_equal. lia.
    - unfold bshape. cbn. rewrite bdim_1_l. cbn. eexists; split; [reflexivity|]. split; [reflexivity|].
      intros k i j H. cbn [get].
      assert (Hk : k < n) by (inversion H; auto).
      assert (Hj : j < x) by (do 2 (inversion H as [|? ? ? ? _ H']; subst; clear H; rename H' into H); inversion H; auto).
      unfold bidx. cbn. f_equal.
      + f_equal. destruct (Nat.eqb_spec n 1); auto. repeat f_equal. lia.
      + f_equal. destruct (Nat.eqb_spec x 1); auto. repeat f_equal. lia.
    - unfold bshape. cbn. rewrite !bdim_1_l. cbn. eexists; split; [reflexivity|]. split; [reflexivity|].
      intros k i j H. cbn [get]. apply inb_cons in H. destruct H as [Hk H]. apply inb_cons in H.
      destruct H as [Hi H]. apply inb_cons in H. destruct H as [Hj _].
      unfold bidx. cbn. f_equal.
      + f_equal. destruct (Nat.eqb_spec n 1); auto. repeat f_equal. lia.
      + f_equal. destruct (Nat.eqb_spec x 1), (Nat.eqb_spec y 1); repeat f_equal; lia.
  Qed.

  (** adding an (n,1,1) array to an (n,a,b) array *)
  Lemma np_level_add (f : T -> T -> T) (a t : arr T) n x y :
    shp a = [n; 1; 1] -> shp t = [n; x; y] ->
    exists r, np_map2 f a t = Ok r /\ shp r = [n; x; y] /\
      forall k i j, inb [n; x; y] [k; i; j] -> get r [k; i; j] = f (get a [k; 0; 0]) (get t [k; i; j]).
  Proof.
    intros Ha Ht. unfold np_map2. rewrite Ha, Ht. unfold bshape. cbn. rewrite !bdim_1_l, bdim_refl. cbn.
    eexists; split; [reflexivity|]. split; [reflexivity|].
    intros k i j H. cbn [get]. apply inb_cons in H. destruct H as [Hk H]. apply inb_cons in H.
    destruct H as [Hi H]. apply inb_cons in H. destruct H as [Hj _]. unfold bidx. cbn. f_equal.
    - f_equal. destruct (Nat.eqb_spec n 1); auto. repeat f_equal. lia.
    - f_equal. destruct (Nat.eqb_spec n 1), (Nat.eqb_spec x 1), (Nat.eqb_spec y 1); repeat f_equal; lia.
  Qed.

  Lemma np_shape2_pair (p : arr T) : ndim p <= 2 -> exists x y, np_shape2 p = [x; y].
  Proof.
    unfold np_shape2, ndim. destruct (shp p) as [|x [|y [|z s]]]; cbn; intros; try lia; eauto.
  Qed.

  Lemma pressure_np_spec (psfc hya hyb : arr T) (p0 : T) n :
    shp hya = [n] -> shp hyb = [n] -> ndim psfc <= 2 ->
    exists r, pressure_np psfc hya hyb p0 = Ok r /\ shp r = n :: np_shape2 psfc /\
      forall k i j, inb (n :: np_shape2 psfc) [k; i; j] ->
        get r [k; i; j] = get hya [k] * p0 + get hyb [k] * np_cell psfc i j.
  Proof.
    intros Sa Sb Hp. unfold pressure_np. unfold ndim at 1. rewrite Sa. cbn [List.length Nat.eqb].
    destruct (expand12_spec hya n Sa) as [Ea Ga]. destruct (expand12_spec hyb n Sb) as [Eb Gb].
    destruct (np_level_mul nmul (expand12 hyb) psfc n Eb Hp) as (t & Et & St & Gt).
    rewrite Et. cbn [bind]. destruct (np_shape2_pair psfc Hp) as (x & y & Exy). rewrite Exy in *.
    destruct (np_level_add nadd (amap (fun v => v * p0) (expand12 hya)) t n x y) as (r & Er & Sr & Gr); auto.
    exists r. repeat split; auto. intros k i j H. rewrite Gr, Gt by auto. cbn [get amap].
    rewrite Ga, Gb. reflexivity.
  Qed.

  Lemma pressure_np_rank3 (psfc hya hyb : arr T) (p0 : T) n nt x y :
    shp hya = [n] -> shp hyb = [n] -> shp psfc = [nt; x; y] ->
    (n <> nt -> n <> 1 -> nt <> 1 -> pressure_np psfc hya hyb p0 = Err ValueError) /\
    (n = nt \/ n = 1 \/ nt = 1 ->
     exists r, pressure_np psfc hya hyb p0 = Ok r /\
       shp r = [if Nat.eqb n 1 then nt else n; x; y] /\
       forall k i j, inb (shp r) [k; i; j] ->
         get r [k; i; j] = get hya [if Nat.eqb n 1 then 0 else k] * p0
                           + get hyb [if Nat.eqb n 1 then 0 else k]
                             * get psfc [if Nat.eqb nt 1 then 0 else k; i; j]).
  Proof.
    intros Sa Sb Sp. unfold pressure_np. unfold ndim. rewrite Sa. cbn [List.length Nat.eqb].
    destruct (expand12_spec hya n Sa) as [Ea Ga]. destruct (expand12_spec hyb n Sb) as [Eb Gb].
    unfold np_map2 at 1 3. rewrite Eb, Sp. unfold bshape. cbn. rewrite !bdim_1_l. split.
    - intros H1 H2 H3. unfold bdim.
      destruct (Nat.eqb_spec n nt); [contradiction|]. destruct (Nat.eqb_spec n 1); [contradiction|].
      destruct (Nat.eqb_spec nt 1); [contradiction|]. reflexivity.
    - intros H.
      assert (E : bdim n nt = Some (if Nat.eqb n 1 then nt else n)).
      { unfold bdim. destruct (Nat.eqb_spec n nt), (Nat.eqb_spec n 1), (Nat.eqb_spec nt 1); subst; auto; lia. }
      rewrite E. cbn. set (m := if Nat.eqb n 1 then nt else n) in *.
      unfold np_map2. cbn [shp amap]. rewrite Ea. unfold bshape. cbn. rewrite !bdim_1_l.
      assert (E2 : bdim n m = Some m).
      { unfold bdim, m. destruct (Nat.eqb_spec n 1); subst; cbn.
        - destruct nt as [|[|nt]]; auto.
        - rewrite Nat.eqb_refl. reflexivity. }
      rewrite E2. cbn. eexists; split; [reflexivity|]. split; [reflexivity|]. intros k i j Hk. cbn [get].
      apply inb_cons in Hk. destruct Hk as [Hk Hk2]. apply inb_cons in Hk2.
      destruct Hk2 as [Hi Hk2]. apply inb_cons in Hk2. destruct Hk2 as [Hj _].
      unfold bidx at 1 2. cbn. rewrite Ga. f_equal. f_equal.
      + rewrite Gb. f_equal. f_equal. destruct (Nat.eqb_spec n 1); auto. destruct (Nat.eqb_spec m 1); auto. lia.
      + f_equal. unfold m in *.
        destruct (Nat.eqb_spec nt 1), (Nat.eqb_spec x 1), (Nat.eqb_spec y 1); subst;
          repeat match goal with |- context [Nat.eqb ?u ?v] => destruct (Nat.eqb_spec u v) end;
          repeat f_equal; lia.
  Qed.
End NumpyFacts.

Section DphFacts.
  Context {T : Type} {N : Num T}.
  Local Open Scope num_scope.

  Lemma slice_bound_m1 n : slice_bound n (-1) = (n - 1)%nat.
  Proof. unfold slice_bound. cbn [Z.ltb Z.compare]. lia. Qed.
  Lemma slice_bound_1 n : slice_bound n 1 = Nat.min 1 n.
  Proof. unfold slice_bound. cbn [Z.ltb Z.compare]. lia. Qed.

  Lemma np_init_spec (a : arr T) n : shp a = [n; 1; 1] ->
    shp (np_init a) = [(n - 1)%nat; 1; 1] /\ forall k i j, get (np_init a) [k; i; j] = get a [k; i; j].
  Proof.
    intros H. unfold np_init, slice0. rewrite H. cbn [hd]. rewrite slice_bound_m1. cbn [shp get].
    rewrite Nat.sub_0_r. split; auto.
  Qed.
  Lemma np_tail_spec (a : arr T) n : shp a = [n; 1; 1] ->
    shp (np_tail a) = [(n - 1)%nat; 1; 1] /\
    forall k i j, (1 <= n)%nat -> get (np_tail a) [k; i; j] = get a [S k; i; j].
  Proof.
    intros H. unfold np_tail, slice0. rewrite H. cbn [hd]. rewrite slice_bound_1. cbn [shp get].
    split.
    - f_equal. lia.
    - intros k i j Hn. replace (Nat.min 1 n) with 1 by lia. reflexivity.
  Qed.

  Lemma np_same (f : T -> T -> T) (a b : arr T) x y z : shp a = [x; y; z] -> shp b = [x; y; z] ->
    exists r, np_map2 f a b = Ok r /\ shp r = [x; y; z] /\
      forall k i j, inb [x; y; z] [k; i; j] -> get r [k; i; j] = f (get a [k; i; j]) (get b [k; i; j]).
  Proof.
    intros Ha Hb. unfold np_map2. rewrite Ha, Hb. unfold bshape. cbn. rewrite !bdim_refl. cbn.
    eexists; split; [reflexivity|]. split; [reflexivity|].
    intros k i j H. cbn [get]. apply inb_cons in H. destruct H as [Hk H]. apply inb_cons in H.
    destruct H as [Hi H]. apply inb_cons in H. destruct H as [Hj _]. unfold bidx. cbn.
    f_equal; f_equal; destruct (Nat.eqb_spec x 1), (Nat.eqb_spec y 1), (Nat.eqb_spec z 1); repeat f_equal; lia.
  Qed.

  (** hybrid pressure of coefficient index k over a surface value *)
  Definition hybp (a b : arr T) (p0 : T) (k : nat) (ps : T) : T := p0 * get a [k] + get b [k] * ps.

  Lemma dph_np_spec (ps hya hyb : arr T) (p0 : T) n :
    shp hya = [n] -> shp hyb = [n] -> ndim ps <= 2 ->
    exists r, dph_np ps hya hyb p0 = Ok r /\ shp r = (n - 1)%nat :: np_shape2 ps /\
      forall k i j, inb ((n - 1)%nat :: np_shape2 ps) [k; i; j] ->
        get r [k; i; j] = nabs (hybp hya hyb p0 k (np_cell ps i j) - hybp hya hyb p0 (S k) (np_cell ps i j)).
  Proof.
    intros Sa Sb Hp. unfold dph_np. unfold ndim at 1. rewrite Sa. cbn [List.length Nat.eqb].
    destruct (expand12_spec hya n Sa) as [Ea Ga]. destruct (expand12_spec hyb n Sb) as [Eb Gb].
    destruct (np_init_spec _ _ Ea) as [Eia Gia]. destruct (np_init_spec _ _ Eb) as [Eib Gib].
    destruct (np_tail_spec _ _ Ea) as [Eta Gta]. destruct (np_tail_spec _ _ Eb) as [Etb Gtb].
    destruct (np_shape2_pair ps Hp) as (x & y & Exy).
    destruct (np_level_mul nmul (np_init (expand12 hyb)) ps _ Eib Hp) as (ta & Et1 & St1 & Gt1).
    rewrite Et1. cbn [bind]. rewrite Exy in *.
    destruct (np_level_add nadd (amap (fun v => p0 * v) (np_init (expand12 hya))) ta _ x y Eia St1)
      as (pa & Ea1 & Sa1 & Ga1). rewrite Ea1. cbn [bind].
    destruct (np_level_mul nmul (np_tail (expand12 hyb)) ps _ Etb Hp) as (tb & Et2 & St2 & Gt2).
    rewrite Et2. cbn [bind]. rewrite Exy in *.
    destruct (np_level_add nadd (amap (fun v => p0 * v) (np_tail (expand12 hya))) tb _ x y Eta St2)
      as (pb & Ea2 & Sa2 & Ga2). rewrite Ea2. cbn [bind].
    destruct (np_same nsub pa pb _ _ _ Sa1 Sa2) as (d & Ed & Sd & Gd). rewrite Ed. cbn [bind].
    eexists; split; [reflexivity|]. split; [exact Sd|]. intros k i j H. cbn [get amap].
    rewrite Gd, Ga1, Ga2, Gt1, Gt2 by auto. cbn [get amap].
    assert (Hn : 1 <= n) by (inversion H; lia).
    rewrite Gia, Gib, Gta, Gtb by auto. rewrite !Ga, !Gb. reflexivity.
  Qed.

  Lemma xr_slice_spec (a : da T) l n lo hi : dims a = [l] -> shp (dat a) = [n] -> coords a = [] ->
    dims (xr_slice lo hi a) = [l] /\ shp (dat (xr_slice lo hi a)) = [(hi - lo)%nat] /\ coords (xr_slice lo hi a) = [] /\
    forall k, (k < hi - lo)%nat -> get (dat (xr_slice lo hi a)) [k] = get (dat a) [(lo + k)%nat].
  Proof.
    intros Da Sa Ca. unfold xr_slice. rewrite Da. unfold xr_take. rewrite Da. cbn [sindex].
    rewrite String.eqb_refl. cbn [dims dat coords]. rewrite Ca. unfold take_axis. cbn [shp get].
    rewrite Sa. cbn. rewrite seq_length. repeat split. intros k Hk. rewrite seq_nth by auto. reflexivity.
  Qed.

  Definition labels_refl (a : da T) : Prop :=
    forall d l, index_labels a d = Some l -> labels_eqb l l = true.

  Lemma labels_agree_same_coords (a b : da T) : coords a = coords b -> labels_refl a -> labels_agree a b = true.
  Proof.
    intros H Hr. unfold labels_agree. apply forallb_forall. intros d _.
    assert (E : index_labels b d = index_labels a d) by (unfold index_labels; rewrite H; auto). rewrite E.
    destruct (index_labels a d) as [l|] eqn:El; auto. apply (Hr d l El).
  Qed.
  Lemma sizes_agree_same (a b : da T) : dims a = dims b -> shp (dat a) = shp (dat b) -> sizes_agree a b = true.
  Proof.
    intros Hd Hs. unfold sizes_agree. apply forallb_forall. intros d _.
    assert (E : dsize b d = dsize a d) by (unfold dsize; rewrite Hd, Hs; auto). rewrite E.
    destruct (dsize a d); auto. apply Nat.eqb_refl.
  Qed.

  Lemma dph_xr_spec (ps hya hyb : da T) (p0 : T) la lb n :
    dims hya = [la] -> dims hyb = [lb] -> shp (dat hya) = [n] -> shp (dat hyb) = [n] ->
    List.length (coords hya) <= 1 -> List.length (coords hyb) <= 1 ->
    wf_da ps -> ~ In la (dims ps) -> slookup la (coords ps) = None -> labels_refl ps ->
    exists r, dph_xr ps hya hyb p0 = Ok r /\
      dims r = la :: dims ps /\ shp (dat r) = (n - 1)%nat :: shp (dat ps) /\ coords r = coords ps /\
      (attrs r = [("long_name", "pressure layer thickness"); ("units", "Pa")] /\ daname r = Some "dph")%string /\
      forall k idx, (k < n - 1)%nat -> List.length idx = List.length (dims ps) ->
        get (dat r) (k :: idx)
        = nabs (hybp (dat hya) (dat hyb) p0 k (get (dat ps) idx)
                - hybp (dat hya) (dat hyb) p0 (S k) (get (dat ps) idx)).
  Proof.
    intros Da Db Sa Sb Ca Cb Wp Hl Hc Hr. unfold dph_xr.
    set (ha := drop_first_coord hya).
    assert (Hhb : exists hb, (match dims (drop_first_coord hyb), dims ha with
               | b :: _, a :: _ => if dims_eqb (dims ha) (dims (drop_first_coord hyb)) then drop_first_coord hyb
                                   else xr_rename [(b, a)] (drop_first_coord hyb)
               | _, _ => drop_first_coord hyb end) = hb /\ dims hb = [la] /\ shp (dat hb) = [n] /\ coords hb = [] /\
               dat hb = dat hyb).
    { eexists. split; [reflexivity|]. unfold ha, drop_first_coord. cbn [dims dat coords]. rewrite Da, Db.
      assert (Ec : tl (coords hyb) = []) by (destruct (coords hyb) as [|c [|c' cs]]; cbn in *; auto; lia).
      destruct (dims_eqb_spec [la] [lb]) as [E|E]; cbn [dims dat coords xr_rename].
      - injection E as ->. rewrite Ec. auto.
      - rewrite Ec. cbn. unfold ren. cbn. rewrite String.eqb_refl. auto. }
    destruct Hhb as (hb & -> & Dhb & Shb & Chb & Ghb).
    assert (Dha : dims ha = [la]) by exact Da.
    assert (Sha : shp (dat ha) = [n]) by exact Sa.
    assert (Cha : coords ha = []) by (unfold ha, drop_first_coord; cbn; destruct (coords hya) as [|c [|c' cs]]; cbn in *; auto; lia).
    assert (Gha : dat ha = dat hya) by reflexivity. clearbody ha.
    unfold ndim. rewrite Sha. cbn [List.length Nat.eqb].
    unfold xr_init, xr_tail. rewrite Sha, Shb. cbn [hd]. rewrite slice_bound_m1, slice_bound_1.
    destruct (xr_slice_spec ha la n 0 (n - 1) Dha Sha Cha) as (D1 & S1 & C1 & G1).
    destruct (xr_slice_spec hb la n 0 (n - 1) Dhb Shb Chb) as (D2 & S2 & C2 & G2).
    destruct (xr_slice_spec ha la n (Nat.min 1 n) n Dha Sha Cha) as (D3 & S3 & C3 & G3).
    destruct (xr_slice_spec hb la n (Nat.min 1 n) n Dhb Shb Chb) as (D4 & S4 & C4 & G4).
    set (a1 := xr_slice 0 (n - 1) ha) in *. set (b1 := xr_slice 0 (n - 1) hb) in *.
    set (a2 := xr_slice (Nat.min 1 n) n ha) in *. set (b2 := xr_slice (Nat.min 1 n) n hb) in *.
    rewrite Nat.sub_0_r in S1, S2. replace (n - Nat.min 1 n)%nat with (n - 1)%nat in S3, S4 by lia.
    assert (L0 : forall a b : da T, coords a = [] -> same_labels (index_labels a la) (index_labels b la)).
    { intros a b H. unfold index_labels. rewrite H. cbn. exact I. }
    destruct (level_combine (fun x => p0 * x) a1 b1 ps la (n - 1)%nat) as (ta & pa & Et1 & Ep1 & Dp1 & Sp1 & Cp1 & Gp1); auto.
    destruct (level_combine (fun x => p0 * x) a2 b2 ps la (n - 1)%nat) as (tb & pb & Et2 & Ep2 & Dp2 & Sp2 & Cp2 & Gp2); auto.
    rewrite Et1. cbn [bind]. rewrite Ep1. cbn [bind]. rewrite Et2. cbn [bind]. rewrite Ep2. cbn [bind].
    assert (Cj : forall a b : da T, coords a = [] -> coords b = [] ->
              join_coords (coords a) (join_coords (coords b) (coords ps)) = coords ps).
    { intros a b Ha Hb. rewrite Ha, Hb. unfold join_coords. cbn.
      assert (F : forall A (l : list A), filter (fun _ => true) l = l) by (induction l; cbn; congruence).
      rewrite !F. reflexivity. }
    rewrite Cj in Cp1, Cp2 by auto.
    destruct (xr_map2_ok nsub pa pb) as (d & Ed & Dd & Cd & Gd & Sd).
    { apply labels_agree_same_coords; [congruence|]. intros dd l Hdd. apply (Hr dd l).
      unfold index_labels in *. rewrite Cp1 in Hdd. exact Hdd. }
    { apply sizes_agree_same; congruence. }
    rewrite Ed. cbn [bind]. eexists. split; [reflexivity|]. cbn [dims dat coords].
    assert (Dd' : dims d = la :: dims ps).
    { rewrite Dd, Dp1, Dp2. apply join_dims_sub. auto. }
    assert (Hnd : NoDup (la :: dims ps)) by (destruct Wp; constructor; auto).
    split; [exact Dd'|]. split; [|split; [|split; [split; reflexivity|]]].
    - cbn [shp amap]. rewrite Sd, <- Dd, Dd', <- Dp1, <- Sp1.
      etransitivity; [|apply (map_dsize pa); [rewrite Dp1; auto|rewrite Dp1, Sp1; destruct Wp as [W _]; cbn; congruence]].
      apply map_ext_in. intros x Hx. destruct (dsize_In pa x) as [m Hm]; auto.
      { split; [rewrite Dp1, Sp1; destruct Wp as [W _]; cbn; congruence|rewrite Dp1; auto]. }
      rewrite Hm. reflexivity.
    - rewrite Cd, Cp1, Cp2. unfold join_coords. rewrite <- app_nil_r. f_equal.
      assert (F : forall l : list (string * coordv T), incl l (coords ps) ->
                filter (fun p => negb (smem (fst p) (map fst (coords ps)))) l = []).
      { induction l as [|c l IH]; intros Hi; cbn; auto.
        rewrite (proj2 (smem_In (fst c) (map fst (coords ps)))).
        - cbn. apply IH. intros z Hz. apply Hi. cbn; auto.
        - apply in_map. apply Hi. cbn; auto. }
      apply F. intros z; auto.
    - intros k idx Hk Hidx. cbn [get amap]. f_equal.
      pose proof (map_env_of (la :: dims ps) (k :: idx) Hnd ltac:(cbn; lia)) as E.
      specialize (Gd (env_of (la :: dims ps) (k :: idx))). unfold getn in Gd.
      rewrite Dd', Dp1, Dp2, E in Gd. rewrite Gd, Gp1, Gp2 by auto.
      unfold hybp. rewrite G1, G2, G3, G4 by lia. rewrite Gha, Ghb.
      replace (Nat.min 1 n + k)%nat with (S k) by lia. reflexivity.
  Qed.
End DphFacts.
