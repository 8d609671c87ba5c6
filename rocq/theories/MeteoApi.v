(** The meteorology functions on whole arguments. *)
From Coq Require Import Reals List Bool Arith ZArith Lra Lia String.
From Verif Require Import PyBase PyFacts Num NumFacts Arr ArrFacts Spec SpecMeteo Hybrid HybridFacts Meteo ListFacts ExtrapFacts CellFacts MeteoFacts RelhumFacts MeteoCells.
Import ListNotations.
Local Open Scope R_scope.

Lemma with_attrs_dat {T} l (d : da T) : dat (with_attrs l d) = dat d. Proof. reflexivity. Qed.

(** ** C26 dewtemp *)
Lemma dewtemp_ok (t rh : inp fl) : compat t rh -> exists out, dewtemp t rh = Ok out /\
  kind_of out = (match t with IDa _ => KDa | _ => KNd end) /\ shp (as_arr out) = shp (as_arr t) /\
  forall i, inb (shp (as_arr t)) i -> get (as_arr out) i = dewtemp_cell (get (as_arr t) i) (get (as_arr rh) i).
Proof.
  intros C. destruct t as [t|t|t|t|t], rh as [h|h|h|h|h]; cbn [compat as_arr] in C; try tauto.
  1: { destruct (xr_map2_same dewtemp_cell t h C) as (r & E & _ & _ & S & _ & _ & G). unfold dewtemp. rewrite E. cbn [bind].
    eexists. split; [reflexivity|]. cbn [kind_of as_arr with_attrs dat]. auto. }
  all: unfold dewtemp; cbn [as_arr]; match goal with |- context [np_map2 ?f ?a ?b] => destruct (np_map2_same f a b C) as (r & E & S & G) end;
      rewrite E; cbn [bind]; eexists; (split; [reflexivity|]); cbn [kind_of as_arr]; auto.
Qed.

Lemma c26_lemma (t rh : inp fl) : compat t rh -> exists out, dewtemp t rh = Ok out /\ shp (as_arr out) = shp (as_arr t) /\
  forall i tk h, inb (shp (as_arr t)) i -> get (as_arr t) i = Fin tk -> get (as_arr rh) i = Fin h -> 0 < tk < 1320 ->
    (0 < h <= 100 -> exists d, get (as_arr out) i = Fin d /\ 0 < d <= tk /\ (d = tk <-> h = 100) /\
       / d = / tk - ln (h * 0.01) / lhv_over_gc tk) /\
    (h = 0 -> get (as_arr out) i = Fin 0) /\ (h < 0 -> get (as_arr out) i = NaN).
Proof.
  intros C. destruct (dewtemp_ok t rh C) as (out & E & _ & S & G). exists out. split; auto. split; auto.
  intros i tk h Hi Et Eh Ht. rewrite (G i Hi), Et, Eh. split; [|split].
  - intros Hh. apply dew_bounds; auto.
  - intros ->. apply dewtemp_cell_zero; [lra|]. apply lhv_pos. lra.
  - intros Hh. apply dewtemp_cell_neg. auto.
Qed.
Lemma c26_monotone (t rh rh' out out' : inp fl) : compat t rh -> compat t rh' -> dewtemp t rh = Ok out -> dewtemp t rh' = Ok out' ->
  forall i tk h h', inb (shp (as_arr t)) i -> get (as_arr t) i = Fin tk -> get (as_arr rh) i = Fin h -> get (as_arr rh') i = Fin h' ->
    0 < tk < 1320 -> 0 < h < h' -> h' <= 100 ->
    exists d d', get (as_arr out) i = Fin d /\ get (as_arr out') i = Fin d' /\ d < d'.
Proof.
  intros C C' E E' i tk h h' Hi Et Eh Eh' Ht Hh Hh'.
  destruct (dewtemp_ok t rh C) as (o & Eo & _ & _ & G). destruct (dewtemp_ok t rh' C') as (o' & Eo' & _ & _ & G').
  rewrite Eo in E. injection E as ->. rewrite Eo' in E'. injection E' as ->. rewrite (G i Hi), (G' i Hi), Et, Eh, Eh'.
  destruct (dew_bounds tk h Ht ltac:(lra)) as (d & Ed & _). destruct (dew_bounds tk h' Ht ltac:(lra)) as (d' & Ed' & _).
  exists d, d'. split; auto. split; auto. eapply (dew_increasing tk h h'); eauto.
Qed.
Lemma c26_types (t rh : inp fl) : (kind_of t = KDa <-> kind_of rh <> KDa) -> dewtemp t rh = Err TypeError.
Proof. intros H. destruct t, rh; cbn in *; try reflexivity; exfalso; intuition congruence. Qed.

(** ** C27, C28 heat_index *)
(** humidity outside 0..100 *)
Definition out_of_percent (x : fl) : Prop := nlt x (Fin 0) = true \/ nlt (Fin 100) x = true.
(** the range check sees an offending value: always in a DataArray, in the other containers only if
    there is no NaN *)
Definition range_rejects (rh : inp fl) : Prop :=
  (exists x, In x (ravel (as_arr rh)) /\ out_of_percent x) /\ (kind_of rh = KDa \/ ~ In NaN (ravel (as_arr rh))).
Definition looks_fractional (rh : inp fl) : Prop :=
  (exists x, In x (ravel (as_arr rh)) /\ x <> NaN) /\ (forall x, In x (ravel (as_arr rh)) -> x = NaN \/ nle x (Fin 1) = true) /\
  (kind_of rh = KDa \/ ~ In NaN (ravel (as_arr rh))).

Ltac flcase := unfold rleb, rltb; repeat match goal with
  | |- context [Rle_dec ?a ?b] => destruct (Rle_dec a b)
  | |- context [Rlt_dec ?a ?b] => destruct (Rlt_dec a b)
  | H : context [Rle_dec ?a ?b] |- _ => destruct (Rle_dec a b)
  | H : context [Rlt_dec ?a ?b] |- _ => destruct (Rlt_dec a b)
  end; cbn in *; try discriminate; try lra; auto.

Lemma nmin_cases x y : x <> NaN -> y <> NaN -> nmin x y <> NaN /\ (nmin x y = x \/ nmin x y = y) /\
  forall c, nlt (nmin x y) c = nlt x c || nlt y c.
Proof.
  intros Hx Hy. unfold nmin. destruct x, y; try congruence; cbn;
    try (split; [congruence|]; split; [auto|]; intros c; destruct c; cbn; unfold rltb; try destruct (Rlt_dec _ _); reflexivity).
  unfold rleb. destruct (Rle_dec r r0); (split; [congruence|]; split; [auto|]; intros c; destruct c; cbn; auto; unfold rltb;
    repeat match goal with |- context [Rlt_dec ?a ?b] => destruct (Rlt_dec a b) end; auto; lra).
Qed.
Lemma nmax_cases x y : x <> NaN -> y <> NaN -> nmax x y <> NaN /\ (nmax x y = x \/ nmax x y = y) /\
  (forall c, nlt c (nmax x y) = nlt c x || nlt c y) /\ (forall c, nle (nmax x y) c = nle x c && nle y c).
Proof.
  intros Hx Hy. unfold nmax. destruct x, y; try congruence; cbn;
    try (split; [congruence|]; split; [auto|]; split; intros c; destruct c; cbn; unfold rltb, rleb; try destruct (Rlt_dec _ _); try destruct (Rle_dec _ _); reflexivity).
  unfold rleb. destruct (Rle_dec r0 r); (split; [congruence|]; split; [auto|]; split; intros c; destruct c; cbn; auto; unfold rltb, rleb;
    repeat match goal with |- context [Rlt_dec ?a ?b] => destruct (Rlt_dec a b) | |- context [Rle_dec ?a ?b] => destruct (Rle_dec a b) end; auto; lra).
Qed.
Lemma nminl_spec l : forall x, x <> NaN -> ~ In NaN l -> forall c, nlt (nminl x l) c = existsb (fun y => nlt y c) (x :: l).
Proof.
  unfold nminl. induction l as [|y l IH]; intros x Hx Hl c; cbn [fold_left existsb]; [rewrite orb_false_r; reflexivity|].
  destruct (nmin_cases x y Hx) as (A & _ & B); [intros ->; apply Hl; left; auto|].
  rewrite IH by (auto; intros H; apply Hl; right; auto). cbn [existsb]. rewrite B, orb_assoc. reflexivity.
Qed.
Lemma nmaxl_spec l : forall x, x <> NaN -> ~ In NaN l -> (forall c, nlt c (nmaxl x l) = existsb (fun y => nlt c y) (x :: l)) /\
  forall c, nle (nmaxl x l) c = forallb (fun y => nle y c) (x :: l).
Proof.
  unfold nmaxl. induction l as [|y l IH]; intros x Hx Hl; cbn [fold_left existsb forallb].
  - split; intros c; [rewrite orb_false_r|rewrite andb_true_r]; reflexivity.
  - destruct (nmax_cases x y Hx) as (A & _ & B & D); [intros ->; apply Hl; left; auto|].
    destruct (IH (nmax x y) A ltac:(intros H; apply Hl; right; auto)) as [I1 I2]. split; intros c.
    + rewrite I1. cbn [existsb]. rewrite B, orb_assoc. reflexivity.
    + rewrite I2. cbn [forallb]. rewrite D, andb_assoc. reflexivity.
Qed.
Lemma nmin_nan_fold l : fold_left (@nmin fl NumFl) l NaN = NaN.
Proof. induction l; cbn; auto. Qed.
Lemma nmax_nan_fold l : fold_left (@nmax fl NumFl) l NaN = NaN.
Proof. induction l; cbn; auto. Qed.
Lemma nmin_nan_r x : nmin x NaN = NaN. Proof. destruct x; reflexivity. Qed.
Lemma nmax_nan_r x : nmax x NaN = NaN. Proof. destruct x; reflexivity. Qed.
Lemma nan_in_fold l : forall x, In NaN (x :: l) -> nminl x l = NaN /\ nmaxl x l = NaN.
Proof.
  unfold nminl, nmaxl. induction l as [|y l IH]; intros x [->|H]; cbn [fold_left]; auto.
  - destruct H.
  - cbn [nmin nmax isnan NumFl fl_isnan]. rewrite nmin_nan_fold, nmax_nan_fold. auto.
  - destruct H as [->|H]; [rewrite nmin_nan_r, nmax_nan_r, nmin_nan_fold, nmax_nan_fold; auto|]. split; apply IH; right; auto.
Qed.
Lemma fl_nan_dec (l : list fl) : In NaN l \/ ~ In NaN l.
Proof. induction l as [|x l [IH|IH]]; [right; auto|left; right; auto|]. destruct x; [right|right|right|left; left; auto]; intros [H|H]; congruence || auto. Qed.

Lemma min_max_nonan x l : ~ In NaN (x :: l) ->
  (nlt (nminl x l) (Fin 0) || nlt (Fin 100) (nmaxl x l) = true <-> exists y, In y (x :: l) /\ out_of_percent y) /\
  (nle (nmaxl x l) (Fin 1) = true <-> forall y, In y (x :: l) -> nle y (Fin 1) = true).
Proof.
  intros H. assert (Hx : x <> NaN) by (intros ->; apply H; left; auto). assert (Hl : ~ In NaN l) by (intros A; apply H; right; auto).
  destruct (nmaxl_spec l x Hx Hl) as [M1 M2]. rewrite nminl_spec, M1, M2 by auto. split.
  - rewrite orb_true_iff, !existsb_exists. unfold out_of_percent. split.
    + intros [(y & A & B)|(y & A & B)]; exists y; auto.
    + intros (y & A & [B|B]); [left|right]; exists y; auto.
  - apply forallb_forall.
Qed.
Lemma min_max_gen (sk : bool) (l : list fl) : l <> [] -> exists mm, min_max sk l = Ok mm /\
  (nlt (fst mm) (Fin 0) || nlt (Fin 100) (snd mm) = true <-> (exists x, In x l /\ out_of_percent x) /\ (sk = true \/ ~ In NaN l)) /\
  (nle (snd mm) (Fin 1) = true <-> (exists x, In x l /\ x <> NaN) /\ (forall x, In x l -> x = NaN \/ nle x (Fin 1) = true) /\ (sk = true \/ ~ In NaN l)).
Proof.
  intros Hne. assert (E : min_max sk l = let v := if sk then filter (fun x => negb (isnan x)) l else l in
           Ok (match v with [] => (NaN, NaN) | x :: r => (nminl x r, nmaxl x r) end)) by (destruct l; [congruence|reflexivity]).
  rewrite E. cbv zeta. clear E. destruct sk.
  - set (v := filter (fun x => negb (isnan x)) l). assert (Nv : ~ In NaN v) by (unfold v; rewrite filter_In; cbn; intuition discriminate).
    assert (Iv : forall y, In y v <-> In y l /\ y <> NaN).
    { intros y. unfold v. rewrite filter_In. destruct y; cbn; intuition congruence. }
    destruct v as [|x r].
    + eexists. split; [reflexivity|]. cbn [fst snd]. split.
      * split; [discriminate|]. intros [(y & A & B) _]. exfalso. apply (Iv y). split; auto. intros ->. destruct B; discriminate.
      * split; [discriminate|]. intros [(y & A & B) _]. exfalso. apply (Iv y). split; auto.
    + eexists. split; [reflexivity|]. cbn [fst snd]. destruct (min_max_nonan x r Nv) as [A B]. rewrite A, B. split.
      * split.
        { intros (y & C & D). split; [exists y; split; auto; apply Iv; auto|auto]. }
        { intros [(y & C & D) _]. exists y. split; auto. apply Iv. split; auto. intros ->. destruct D; discriminate. }
      * split.
        { intros C. split; [exists x; apply Iv; left; auto|]. split; [|auto]. intros y Hy. destruct (fl_isnan y) eqn:En; [left; destruct y; cbn in En; congruence|].
          right. apply C. apply Iv. split; auto. intros ->. discriminate. }
        { intros (_ & C & _) y Hy. apply Iv in Hy. destruct (C y); tauto. }
  - destruct l as [|x r]; [congruence|]. eexists. split; [reflexivity|]. cbn [fst snd]. destruct (fl_nan_dec (x :: r)) as [Hn|Hn].
    + destruct (nan_in_fold r x Hn) as [A B]. rewrite A, B. split; (split; [discriminate|]); intros H; exfalso; intuition discriminate.
    + destruct (min_max_nonan x r Hn) as [A B]. rewrite A, B. split.
      * intuition.
      * split; [intros C; split; [exists x; split; [left; auto|intros ->; apply Hn; left; auto]|auto]|].
        intros (_ & C & _) y Hy. destruct (C y Hy); auto. subst. contradiction.
Qed.
Lemma min_max_range (rh : inp fl) : ravel (as_arr rh) <> [] -> exists mm, min_max (kind_beq (kind_of rh) KDa) (ravel (as_arr rh)) = Ok mm /\
  (nlt (fst mm) (ofZ 0) || ngt (snd mm) (ofZ 100) = true <-> range_rejects rh) /\ (nle (snd mm) (ofZ 1) = true <-> looks_fractional rh).
Proof.
  intros Hne. destruct (min_max_gen (kind_beq (kind_of rh) KDa) (ravel (as_arr rh)) Hne) as (mm & E & A & B). exists mm. split; auto.
  unfold ngt. change (@ofZ fl NumFl 0) with (Fin 0). change (@ofZ fl NumFl 1) with (Fin 1). change (@ofZ fl NumFl 100) with (Fin 100).
  rewrite A, B. unfold range_rejects, looks_fractional.
  assert (K : kind_beq (kind_of rh) KDa = true <-> kind_of rh = KDa) by (destruct rh; cbn; intuition congruence). rewrite K. tauto.
Qed.

(** the container the result comes in *)
Definition same_container (k k' : kind) : Prop := k' = match k with KInt => KFloat | _ => k end.
Lemma kind_beq_refl k : kind_beq k k = true. Proof. destruct k; reflexivity. Qed.
Lemma heat_index_run (t rh : inp fl) alt : kind_of t = kind_of rh -> compat rh t -> ravel (as_arr rh) <> [] ->
  (range_rejects rh -> heat_index t rh alt = Err ValueError) /\
  (~ range_rejects rh -> exists w out, heat_index t rh alt = Ok (w, out) /\ (w = true <-> looks_fractional rh) /\
     same_container (kind_of t) (kind_of out) /\ shp (as_arr out) = shp (as_arr t) /\
     forall i, inb (shp (as_arr t)) i -> get (as_arr out) i = hi_cell alt (get (as_arr t) i) (get (as_arr rh) i)).
Proof.
  intros K C Hne. destruct (min_max_range rh Hne) as (mm & E & A & B).
  assert (S : shp (as_arr t) = shp (as_arr rh)).
  { destruct t, rh; cbn in K; try discriminate; cbn [compat as_arr] in *; auto. destruct C as (_ & _ & _ & C & _). auto. }
  assert (R : heat_index t rh alt = (guard (nlt (fst mm) (ofZ 0) || ngt (snd mm) (ofZ 100)) raise ValueError ;;
    let warn := nle (snd mm) (ofZ 1) in
    let cells := mkArr (shp (as_arr t)) (fun i => hi_cell alt (get (as_arr t) i) (get (as_arr rh) i)) in
    match t, rh with
    | IDa t, IDa rh =>
        guard negb (labels_agree rh t) raise ValueError ;;
        do d <- xr_map2 (fun r v => hi_cell alt v r) rh t ;;
        Ok (warn, IDa (with_attrs hi_attrs d))
    | IList _, _ => Ok (warn, IList cells)
    | IFloat _, _ | IInt _, _ => Ok (warn, IFloat (get cells []))
    | _, _ => Ok (warn, INd cells)
    end)).
  { unfold heat_index. rewrite K, kind_beq_refl. cbn [negb]. destruct (shape_eqb_spec (shp (as_arr t)) (shp (as_arr rh))); [|contradiction].
    cbn [negb]. rewrite E. reflexivity. }
  rewrite R. clear R. split; intros H.
  - apply A in H. rewrite H. reflexivity.
  - destruct (nlt (fst mm) (ofZ 0) || ngt (snd mm) (ofZ 100)); [exfalso; apply H, A; auto|]. cbv zeta. exists (nle (snd mm) (ofZ 1)).
    destruct t as [t|t|t|t|t], rh as [h|h|h|h|h]; cbn in K; try discriminate; cbn [compat as_arr] in *.
    + pose proof C as (_ & _ & _ & _ & L). rewrite L. cbn [negb].
      destruct (xr_map2_same (fun r v => hi_cell alt v r) h t C) as (r & Er & _ & _ & Sr & _ & _ & G). rewrite Er. cbn [bind].
      eexists. split; [reflexivity|]. split; [auto|]. cbn [kind_of as_arr with_attrs dat]. split; [reflexivity|]. split; [congruence|].
      intros i Hi. rewrite G by congruence. reflexivity.
    + eexists. split; [reflexivity|]. split; [auto|]. split; [reflexivity|]. split; auto.
    + eexists. split; [reflexivity|]. split; [auto|]. split; [reflexivity|]. split; auto.
    + eexists. split; [reflexivity|]. split; [auto|]. split; [reflexivity|]. split; auto.
    + eexists. split; [reflexivity|]. split; [auto|]. split; [reflexivity|]. split; auto.
Qed.
Lemma c27_types (t rh : inp fl) alt : kind_of t <> kind_of rh -> heat_index t rh alt = Err TypeError.
Proof. intros H. unfold heat_index. destruct t, rh; cbn in H; try congruence; reflexivity. Qed.
Lemma c27_shapes (t rh : inp fl) alt : kind_of t = kind_of rh -> shp (as_arr t) <> shp (as_arr rh) -> heat_index t rh alt = Err ValueError.
Proof.
  intros K H. unfold heat_index. rewrite K, kind_beq_refl. cbn [negb].
  destruct (shape_eqb_spec (shp (as_arr t)) (shp (as_arr rh))); [contradiction|]. reflexivity.
Qed.
Lemma c27_checks (t rh : inp fl) alt : kind_of t = kind_of rh -> compat rh t -> ravel (as_arr rh) <> [] ->
  (range_rejects rh -> heat_index t rh alt = Err ValueError) /\
  (~ range_rejects rh -> exists w out, heat_index t rh alt = Ok (w, out) /\ (w = true <-> looks_fractional rh) /\
     same_container (kind_of t) (kind_of out) /\ shp (as_arr out) = shp (as_arr t)).
Proof.
  intros K C Hne. destruct (heat_index_run t rh alt K C Hne) as [A B]. split; auto. intros H. destruct (B H) as (w & out & E & W & S1 & S2 & _).
  exists w, out. auto.
Qed.
Lemma c28_lemma (t rh : inp fl) alt w out : kind_of t = kind_of rh -> compat rh t -> ravel (as_arr rh) <> [] -> heat_index t rh alt = Ok (w, out) ->
  forall i x h, inb (shp (as_arr t)) i -> get (as_arr t) i = Fin x -> get (as_arr rh) i = Fin h ->
    exists v, get (as_arr out) i = Fin v /\ index_value alt x h v.
Proof.
  intros K C Hne E i x h Hi Et Eh. destruct (heat_index_run t rh alt K C Hne) as [A B].
  assert (H : ~ range_rejects rh) by (intros H; rewrite (A H) in E; discriminate).
  destruct (B H) as (w' & out' & E' & _ & _ & _ & G). rewrite E' in E. injection E as <- <-. rewrite (G i Hi), Et, Eh. apply hi_cell_fin.
Qed.
