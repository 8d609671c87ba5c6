(** relhum on mixtures of argument kinds. *)
From Coq Require Import List Bool Arith ZArith Lia String.
From Verif Require Import PyBase PyFacts Num Arr ArrFacts XrFacts ListFacts Hybrid HybridFacts Interp1dFacts Meteo CellFacts RelhumMix.
Import ListNotations.

Lemma bshape_nil_r s : bshape s [] = Some s.
Proof. unfold bshape. cbn [rev]. destruct (rev s) eqn:E; cbn; [apply (f_equal (@rev nat)) in E; rewrite rev_involutive in E; cbn in E; rewrite E; reflexivity|]. rewrite <- (rev_involutive s), E. reflexivity. Qed.
Lemma bshape_nil_l s : bshape [] s = Some s.
Proof. unfold bshape. cbn [rev bshape_rev]. cbn. rewrite rev_involutive. reflexivity. Qed.
Lemma bidx_nil i : bidx [] i = [].
Proof. unfold bidx. destruct (skipn _ i); reflexivity. Qed.

Section Mix.
  Context {T : Type} {N : Num T}.
  Definition is_da (x : inp T) : bool := match x with IDa _ => true | _ => false end.
  (** the number at a cell; a number given once counts for every cell *)
  Definition cell (x : inp T) (i : list nat) : T := get (as_arr x) (match shp (as_arr x) with [] => [] | _ => i end).
  (** the values of an argument over a grid *)
  Definition spread (s : list nat) (x : inp T) : arr T := mkArr s (cell x).
  (** arguments for a grid of shape s: DataArrays on the same grid, arrays of that shape, single numbers *)
  Definition mixable (s : list nat) (l : list (inp T)) : Prop :=
    (forall x, In x l -> match x with IDa d => shp (dat d) = s | _ => shp (as_arr x) = s \/ shp (as_arr x) = [] end) /\
    (forall d e, In (IDa d) l -> In (IDa e) l -> same_frame d e) /\
    exists x, In x l /\ shp (as_arr x) = s.

  Definition sized (s : list nat) (x : inp T) : Prop := match x with IDa d => shp (dat d) = s | _ => shp (as_arr x) = s \/ shp (as_arr x) = [] end.
  Lemma cell_s s x i : shp (as_arr x) = s -> inb s i -> cell x i = get (as_arr x) i.
  Proof. intros H Hi. unfold cell. rewrite H. destruct s; [inversion Hi; reflexivity|reflexivity]. Qed.
  Lemma np_mix (f : T -> T -> T) s (x y : inp T) : (shp (as_arr x) = s \/ shp (as_arr x) = []) -> (shp (as_arr y) = s \/ shp (as_arr y) = []) ->
    exists r, np_map2 f (as_arr x) (as_arr y) = Ok r /\ (shp r = s \/ shp r = []) /\ (shp (as_arr x) = s \/ shp (as_arr y) = s -> shp r = s) /\
      forall i, inb s i -> get r (match shp r with [] => [] | _ => i end) = f (cell x i) (cell y i).
  Proof.
    intros Hx Hy. unfold np_map2.
    assert (B : forall i, inb s i -> forall z : inp T, shp (as_arr z) = s \/ shp (as_arr z) = [] -> get (as_arr z) (bidx (shp (as_arr z)) i) = cell z i).
    { intros i Hi z [E|E]; unfold cell; rewrite E; [|rewrite bidx_nil; reflexivity]. rewrite bidx_refl by auto. destruct s; [inversion Hi; reflexivity|reflexivity]. }
    destruct Hx as [Ex|Ex]; destruct Hy as [Ey|Ey].
    - rewrite Ex, Ey, bshape_refl. eexists. split; [reflexivity|]. cbn [shp get]. split; [auto|]. split; [auto|]. intros i Hi.
      rewrite <- (B i Hi x), <- (B i Hi y) by auto. rewrite Ex, Ey. destruct s; [inversion Hi; reflexivity|reflexivity].
    - rewrite Ex, Ey, bshape_nil_r. eexists. split; [reflexivity|]. cbn [shp get]. split; [auto|]. split; [auto|]. intros i Hi.
      rewrite <- (B i Hi x), <- (B i Hi y) by auto. rewrite Ex, Ey. destruct s; [inversion Hi; reflexivity|reflexivity].
    - rewrite Ex, Ey, bshape_nil_l. eexists. split; [reflexivity|]. cbn [shp get]. split; [auto|]. split; [auto|]. intros i Hi.
      rewrite <- (B i Hi x), <- (B i Hi y) by auto. rewrite Ex, Ey. destruct s; [inversion Hi; reflexivity|reflexivity].
    - rewrite Ex, Ey. cbn [bshape rev bshape_rev option_map]. eexists. split; [reflexivity|]. cbn [shp get]. split; [auto|]. split; [intros [E|E]; congruence|]. intros i Hi.
      rewrite !bidx_nil. unfold cell. rewrite Ex, Ey. reflexivity.
  Qed.
  (** on the grid of the DataArrays L *)
  Definition fitted (s : list nat) (L : list (da T)) (x : inp T) : Prop :=
    sized s x /\ match x with IDa d => forall e, In e L -> same_frame d e /\ same_frame e d | _ => True end.
  Definition no_attrs (x : inp T) : Prop := match x with IDa d => attrs d = [] | _ => True end.
  Lemma sized_arr s x : sized s x -> shp (as_arr x) = s \/ shp (as_arr x) = [].
  Proof. destruct x; cbn; auto. Qed.
  Lemma arith2_ok (f : T -> T -> T) s L x y : fitted s L x -> fitted s L y -> (forall d e, x = IDa d -> y = IDa e -> same_frame d e) ->
    exists r, arith2 f x y = Ok r /\ fitted s L r /\ no_attrs r /\ is_da r = is_da x || is_da y /\ (shp (as_arr x) = s \/ shp (as_arr y) = s -> shp (as_arr r) = s) /\
      forall i, inb s i -> cell r i = f (cell x i) (cell y i).
  Proof.
    intros [Sx Fx] [Sy Fy] Hxy. pose proof (np_mix f s x y (sized_arr _ _ Sx) (sized_arr _ _ Sy)) as (r & E & S1 & S2 & G).
    assert (DD : forall a b, x = IDa a -> y = IDa b -> exists r, arith2 f x y = Ok r /\ fitted s L r /\ no_attrs r /\ is_da r = true /\ shp (as_arr r) = s /\
      forall i, inb s i -> cell r i = f (cell x i) (cell y i)).
    { intros a b -> ->. clear E S1 S2 G r. destruct (xr_map2_same f a b (Hxy a b eq_refl eq_refl)) as (r & E & Dr & Cr & Sr & Ar & Wr & G). cbn [sized as_arr] in *.
      exists (IDa r). cbn [arith2]. rewrite E. split; [reflexivity|]. split; [split; [cbn; congruence|]|].
      { intros e He. split; [eapply same_frame_join_l; eauto; [apply Fx|apply Fy]; auto|eapply same_frame_join_r; eauto; [apply Fx|apply Fy]; auto]. }
      split; [exact Ar|]. split; [reflexivity|]. split; [cbn; congruence|]. intros i Hi. rewrite (cell_s s), !(cell_s s) by (cbn; congruence || auto). cbn [as_arr]. apply G. congruence. }
    assert (DN : forall a, x = IDa a \/ y = IDa a -> is_da x && is_da y = false -> exists r, arith2 f x y = Ok r /\ fitted s L r /\ no_attrs r /\ is_da r = true /\ shp (as_arr r) = s /\
      forall i, inb s i -> cell r i = f (cell x i) (cell y i)).
    { intros a Ha Hb. assert (Sa : shp (dat a) = s) by (destruct Ha as [-> | ->]; auto). assert (Sr : shp r = s) by (apply S2; destruct Ha as [-> | ->]; cbn; auto).
      assert (EE : arith2 f x y = Ok (IDa (mkDa (dims a) r (coords a) [] None))).
      { assert (Q : shape_eqb (shp r) (shp (dat a)) = true) by (destruct (shape_eqb_spec (shp r) (shp (dat a))); congruence).
        destruct Ha as [-> | ->]; [destruct y; try discriminate|destruct x; try discriminate]; cbn [arith2 as_arr] in *; rewrite E; cbn [bind]; rewrite Q; reflexivity. }
      assert (Fa : forall e, In e L -> same_frame a e /\ same_frame e a) by (destruct Ha as [-> | ->]; auto).
      eexists. split; [exact EE|]. split; [split; [exact Sr|]|].
      { intros e He. destruct (Fa e He) as [F1 F2]. split; [eapply same_frame_values; [exact F1|..]; cbn; congruence|eapply same_frame_values; [exact F2|..]; cbn; congruence]. }
      split; [reflexivity|]. split; [reflexivity|]. split; [exact Sr|]. intros i Hi. rewrite <- (G i Hi). reflexivity. }
    destruct (is_da x) eqn:Dx; destruct (is_da y) eqn:Dy.
    - destruct x as [a| | | |]; try discriminate. destruct y as [b| | | |]; try discriminate. destruct (DD a b eq_refl eq_refl) as (r' & H1 & H2 & H3 & H4 & H5 & H6). exists r'. repeat split; auto; apply H2.
    - destruct x as [a| | | |]; try discriminate. destruct (DN a (or_introl eq_refl) eq_refl) as (r' & H1 & H2 & H3 & H4 & H5 & H6). exists r'. repeat split; auto; apply H2.
    - destruct y as [a| | | |]; try discriminate. destruct (DN a (or_intror eq_refl) eq_refl) as (r' & H1 & H2 & H3 & H4 & H5 & H6). exists r'. repeat split; auto; apply H2.
    - exists (INd r). split; [destruct x; try discriminate; destruct y; try discriminate; cbn [arith2]; rewrite E; reflexivity|]. split; [split; [exact S1|exact I]|].
      split; [exact I|]. split; [reflexivity|]. split; [exact S2|]. exact G.
  Qed.
  Lemma imap_ok (f : T -> T) s L x : fitted s L x -> fitted s L (imap f x) /\ no_attrs (imap f x) /\ is_da (imap f x) = is_da x /\ shp (as_arr (imap f x)) = shp (as_arr x) /\
    forall i, cell (imap f x) i = f (cell x i).
  Proof.
    intros [S F]. destruct x as [d|a|a|v|v]; (split; [split; [exact S|]|]); try (split; [reflexivity|split; [reflexivity|split; [reflexivity|intros i; reflexivity]]]); try (split; [exact I|split; [reflexivity|split; [reflexivity|intros i; reflexivity]]]); try exact I.
    intros e He. destruct (F e He) as [F1 F2]. split; [eapply same_frame_values; [exact F1|..]; reflexivity|eapply same_frame_values; [exact F2|..]; reflexivity].
  Qed.
  Definition dasof (l : list (inp T)) : list (da T) := flat_map (fun x => match x with IDa d => [d] | _ => [] end) l.
  Lemma dasof_In l d : In d (dasof l) <-> In (IDa d) l.
  Proof. unfold dasof. rewrite in_flat_map. split; [intros (x & Hx & Hd); destruct x; cbn in Hd; try contradiction; destruct Hd as [->|[]]; auto|intros H; exists (IDa d); cbn; auto]. Qed.
  Lemma fitted_in s l x : mixable s l -> In x l -> fitted s (dasof l) x.
  Proof. intros (A & B & _) H. split; [exact (A x H)|]. destruct x; auto. intros e He. apply dasof_In in He. split; apply B; auto. Qed.
  Definition rh_value (w p e : T) : T := rh_clip (ndiv (nmul w (nsub p (nmul (dec 378 3) e))) (nmul (dec 622 3) e)).
  Definition rh_attrs : list (string * string) := [("long_name", "relative humidity"); ("units", "percentage");
    ("info", "https://journals.ametsoc.org/view/journals/apme/35/4/1520-0450_1996_035_0601_imfaos_2_0_co_2.xml")]%string.
  Lemma relhum_mix s t w p e : mixable s [t; w; p] -> (forall i, inb s i -> es_cell (cell t i) = Ok (e i)) -> (shp (as_arr t) = [] -> exists i, inb s i) ->
    exists r, relhum t w p = Ok r /\ shp (as_arr r) = s /\ is_da r = is_da t || is_da w || is_da p /\
      (forall d, r = IDa d -> attrs d = rh_attrs /\ forall x, In (IDa x) [t; w; p] -> same_frame d x) /\
      forall i, inb s i -> get (as_arr r) i = rh_value (cell w i) (cell p i) (e i).
  Proof.
    intros Mx He Hne. set (L := dasof [t; w; p]).
    assert (Ft : fitted s L t) by (apply fitted_in; cbn; auto). assert (Fw : fitted s L w) by (apply fitted_in; cbn; auto). assert (Fp : fitted s L p) by (apply fitted_in; cbn; auto).
    assert (ES : exists es, es_of_input t = Ok es /\ fitted s L es /\ is_da es = is_da t /\ shp (as_arr es) = shp (as_arr t) /\ (forall i, inb s i -> cell es i = e i) /\
      (forall d, es = IDa d -> exists d0, t = IDa d0 /\ dims d = dims d0 /\ coords d = coords d0)).
    { destruct (arr_mapM_ok nnan es_cell (as_arr t) (fun i => match es_cell (get (as_arr t) i) with Ok v => v | Err _ => nnan end)) as (es & E & Se & Ge).
      { intros i Hi. destruct Ft as [St _]. apply sized_arr in St. destruct St as [St|St].
        - rewrite St in Hi. specialize (He i Hi). rewrite (cell_s s) in He by auto. rewrite He. reflexivity.
        - rewrite St in Hi. inversion Hi; subst. destruct (Hne St) as [j Hj]. specialize (He j Hj). unfold cell in He. rewrite St in He. rewrite He. reflexivity. }
      unfold es_of_input. rewrite E. cbn [bind]. eexists. split; [reflexivity|].
      assert (C : forall i, inb s i -> get es (match shp es with [] => [] | _ => i end) = e i).
      { intros i Hi. destruct Ft as [St _]. apply sized_arr in St. rewrite Se. specialize (He i Hi). unfold cell in He. rewrite Ge.
        - rewrite He. reflexivity.
        - destruct St as [St|St]; rewrite St; [destruct s; [constructor|auto]|constructor]. }
      destruct Ft as [St Fr]. destruct t as [d|a|a|v|v]; cbn [as_arr] in *; split; try (split; [cbn; rewrite Se; exact St|exact I]); try (split; [reflexivity|split; [exact Se|split; [exact C|intros d0; discriminate]]]).
      - split; [cbn; rewrite Se; exact St|]. intros x Hx. destruct (Fr x Hx) as [F1 F2].
        split; [eapply same_frame_values; [exact F1|..]; cbn; congruence|eapply same_frame_values; [exact F2|..]; cbn; congruence].
      - split; [reflexivity|]. split; [exact Se|]. split; [exact C|]. intros d0 E0. injection E0 as <-. exists d. cbn. auto. }
    destruct ES as (es & Ees & Fes & Des & Ses & Ces & Les). unfold relhum. rewrite Ees. cbn [bind].
    pose proof (imap_ok (fun e => nmul (dec 378 3) e) s L es Fes) as (F3 & _ & D3 & S3 & C3). pose proof (imap_ok (fun e => nmul (dec 622 3) e) s L es Fes) as (F6 & _ & D6 & S6 & C6).
    set (e3 := imap (fun e => nmul (dec 378 3) e) es) in *. set (e6 := imap (fun e => nmul (dec 622 3) e) es) in *.
    assert (Lk : forall q x d, (q = e3 \/ q = e6) -> q = IDa d -> fitted s L x -> forall d', x = IDa d' -> same_frame d' d).
    { intros q x d Hq Ed [_ Fx] d' ->. destruct es as [des| | | |]; [|destruct Hq as [-> | ->]; discriminate..]. destruct (Les des eq_refl) as (d0 & -> & Dd & Cd).
      assert (I0 : In d0 L) by (apply dasof_In; cbn; auto). destruct (Fx d0 I0) as [F1 F2].
      assert (Sd : shp (dat d) = shp (dat d0)). { destruct Hq as [-> | ->]; injection Ed as <-; cbn [xr_map dat amap shp]; exact Ses. }
      eapply same_frame_values; [exact F1|..]; try reflexivity; auto; destruct Hq as [-> | ->]; injection Ed as <-; cbn; congruence. }
    destruct (arith2_ok nsub s L p e3 Fp F3 ltac:(intros d d' H1 H2; exact (Lk e3 p d' (or_introl eq_refl) H2 Fp d H1))) as (a & Ea & Fa & _ & Da & Sa & Ca). rewrite Ea. cbn [bind].
    assert (Hwa : forall d d', w = IDa d -> a = IDa d' -> same_frame d d').
    { intros d d' H1 H2. subst a. apply Fa. apply dasof_In. subst w. cbn. auto. }
    destruct (arith2_ok nmul s L w a Fw Fa Hwa) as (b & Eb & Fb & _ & Db & Sb & Cb). rewrite Eb. cbn [bind].
    destruct (arith2_ok ndiv s L b e6 Fb F6 ltac:(intros d d' H1 H2; exact (Lk e6 b d' (or_intror eq_refl) H2 Fb d H1))) as (c & Ec & Fc & _ & Dc & Sc & Cc). rewrite Ec. cbn [bind].
    pose proof (imap_ok rh_clip s L c Fc) as (Fr & Ar & Dr & Sr & Cr). set (r := imap rh_clip c) in *.
    assert (Shp : shp (as_arr r) = s).
    { rewrite Sr. apply Sc. destruct Mx as (_ & _ & x & Hx & Ex). cbn in Hx. destruct Hx as [<-|[<-|[<-|[]]]].
      - right. rewrite S6, Ses. exact Ex.
      - left. apply Sb. auto.
      - left. apply Sb. right. apply Sa. auto. }
    assert (DA : is_da r = is_da t || is_da w || is_da p). { rewrite Dr, Dc, Db, Da, D3, D6, Des. destruct (is_da t), (is_da w), (is_da p); reflexivity. }
    assert (Val : forall i, inb s i -> get (as_arr r) i = rh_value (cell w i) (cell p i) (e i)).
    { intros i Hi. rewrite <- (cell_s s) by auto. rewrite Cr, Cc, Cb, Ca by auto. rewrite C3, C6, Ces by auto. reflexivity. }
    destruct r as [d|q|q|v|v] eqn:Er.
    - exists (IDa (with_attrs rh_attrs d)). split; [reflexivity|]. split; [exact Shp|]. split; [exact DA|]. split; [|exact Val].
      intros d' Ed. injection Ed as <-. split; [cbn in Ar |- *; rewrite Ar; reflexivity|]. intros x Hx. destruct Fr as [_ Fr].
      eapply same_frame_values; [exact (proj1 (Fr x (proj2 (dasof_In _ x) Hx)))|..]; reflexivity.
    - exists (INd q). repeat split; auto; discriminate.
    - exists (IList q). repeat split; auto; discriminate.
    - exists (IFloat v). repeat split; auto; discriminate.
    - exists (IInt v). repeat split; auto; discriminate.
  Qed.
  (** the special cases *)
  Lemma relhum_da (t w p : da T) : relhum (IDa t) (IDa w) (IDa p) = rmap IDa (relhum_xr t w p).
  Proof.
    unfold relhum, es_of_input, relhum_xr. cbn [as_arr]. destruct (arr_mapM nnan es_cell (dat t)); [|reflexivity]. cbn [bind imap as_arr arith2]. cbv zeta.
    destruct (xr_map2 nsub p _); [|reflexivity]. cbn [rmap bind arith2 as_arr]. destruct (xr_map2 nmul w _); [|reflexivity]. cbn [rmap bind arith2 as_arr].
    destruct (xr_map2 ndiv _ _); reflexivity.
  Qed.
End Mix.
