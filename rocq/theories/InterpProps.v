(** interp_hybrid_to_pressure on real-valued columns: values, level independence, extrapolation. *)
From Coq Require Import Reals List Bool Arith ZArith Lra Lia String Permutation.
From Verif Require Import PyBase PyFacts Num NumFacts Arr ArrFacts XrFacts Spec Hybrid HybridFacts Interp1d Interp1dFacts InterpHyb ChunkFacts
  InterpHybFacts InterpColumn InterpApi.
Import ListNotations.
Local Open Scope R_scope.

(** a well-formed call with real coefficients A, B, reference pressure p0 and requested levels *)
Record hyb_call (data ps hyam hybm : da fl) (l lb : string) (ax n : nat) (A B : nat -> R) (levels : list R)
    (a : ihp_args fl) (m : imethod) : Prop := {
  h_wf : ihp_wf data ps hyam hybm l lb ax n;
  h_n : (2 <= n)%nat;
  h_A : forall k, (k < n)%nat -> get (dat hyam) [k] = Fin (A k);
  h_B : forall k, (k < n)%nat -> get (dat hybm) [k] = Fin (B k);
  h_levels : levels <> [];
  h_args : args_ok a l m;
  h_chunks : chunks_ok a (shp (dat data)) }.

(** [P] relates, at every output position with surface pressure s, the column's pressures (distinct;
    positive for the log method), its data, the requested level and the returned value *)
Definition in_every_column (data ps : da fl) (A B : nat -> R) (p0 : R) (ax n : nat) (m : imethod) (levels : list R)
    (out : da fl) (P : (nat -> R) -> (nat -> fl) -> R -> fl -> Prop) : Prop :=
  forall i s, inb (shp (dat out)) i -> getn ps (env_of (dims data) i) = Fin s ->
  let p := hyb_pressure A B p0 s in
  distinct_levels p n -> (m = MLog -> (forall k, (k < n)%nat -> 0 < p k) /\ Forall (Rlt 0) levels) ->
  P p (fun k => get (dat data) (upd i ax k)) (nth (nth ax i 0%nat) levels 0) (get (dat out) i).

Definition the_call data ps hyam hybm levels p0 a : res (da fl) :=
  interp_hybrid_to_pressure (VDa data) (VDa ps) (VDa hyam) (VDa hybm) (map Fin levels) (Fin p0) a.

Lemma hyb_col_real (hyam hybm : da fl) A B p0 s n : (forall k, (k < n)%nat -> get (dat hyam) [k] = Fin (A k)) ->
  (forall k, (k < n)%nat -> get (dat hybm) [k] = Fin (B k)) ->
  hyb_col hyam hybm (Fin p0) (Fin s) n = map Fin (map (hyb_pressure A B p0 s) (seq 0 n)).
Proof.
  intros HA HB. unfold hyb_col. rewrite map_map. apply map_ext_in. intros k Hk. apply in_seq in Hk.
  rewrite HA, HB by lia. reflexivity.
Qed.
Lemma NoDup_levels p n : distinct_levels p n -> NoDup (map p (seq 0 n)).
Proof.
  intros H. apply NoDup_nth with (d := 0). rewrite map_length, seq_length. intros i j Hi Hj E.
  rewrite !(nth_indep _ 0 (p 0%nat)), !map_nth, !seq_nth in E by (rewrite ?map_length, ?seq_length; auto). auto.
Qed.
Lemma nth_levels p n k : (k < n)%nat -> nth k (map p (seq 0 n)) 0 = p k.
Proof.
  intros H. rewrite (nth_indep _ 0 (p 0%nat)), map_nth, seq_nth by (rewrite ?map_length, ?seq_length; auto). auto.
Qed.
Lemma nth_col (a : arr fl) ax i n k : (k < n)%nat -> nth k (col_at a ax i n) NaN = get a (upd i ax k).
Proof.
  intros H. unfold col_at. rewrite (nth_indep _ NaN (get a (upd i ax 0%nat))) by (rewrite map_length, seq_length; auto).
  rewrite (map_nth (fun k => get a (upd i ax k))), seq_nth by auto. reflexivity.
Qed.
Lemma Forall_levels p n : (forall k, (k < n)%nat -> 0 < p k) -> Forall (Rlt 0) (map p (seq 0 n)).
Proof.
  intros H. apply Forall_forall. intros y Hy. apply in_map_iff in Hy. destruct Hy as (k & <- & Hk).
  apply in_seq in Hk. apply H. lia.
Qed.
Lemma map_nonempty {A B} (f : A -> B) l : l <> [] -> map f l <> [].
Proof. destruct l; [congruence|discriminate]. Qed.

Section Values.
  Variables (data ps hyam hybm : da fl) (l lb : string) (ax n : nat) (A B : nat -> R) (levels : list R) (p0 : R)
    (a : ihp_args fl) (m : imethod).
  Hypothesis H : hyb_call data ps hyam hybm l lb ax n A B levels a m.

  Lemma call_values : a_extrapolate a = false ->
    exists out, the_call data ps hyam hybm levels p0 a = Ok out /\
      dims out = upd (dims data) ax "plev"%string /\ shp (dat out) = upd (shp (dat data)) ax (List.length levels) /\
      coords out = out_coords l (map Fin levels) (coords data) /\ attrs out = attrs data /\ daname out = daname data /\
      forall i s, inb (shp (dat out)) i -> getn ps (env_of (dims data) i) = Fin s ->
        exists r, interp_with m (map Fin levels) (map Fin (map (hyb_pressure A B p0 s) (seq 0 n))) (col_at (dat data) ax i n) = Ok r /\
          get (dat out) i = nth (nth ax i 0%nat) r NaN.
  Proof.
    destruct H as [W Hn HA HB Hl Ha Hc]. intros Hex.
    destruct (ihp_core data ps hyam hybm l lb ax n (map Fin levels) (Fin p0) a m W (map_nonempty _ _ Hl) Hn Hc)
      as (pr & out & _ & _ & _ & _ & _ & Do & So & Co & Ao & No & Go & E).
    exists out. unfold the_call. rewrite (call_unfold _ _ _ _ _ _ _ _ _ Ha), (E a eq_refl eq_refl eq_refl), Hex. rewrite map_length in So.
    repeat split; auto. intros i s Hi Hs. destruct (Go i Hi) as (r & Er & Gr).
    unfold surf in Er. rewrite Hs, (hyb_col_real _ _ A B) in Er by auto. eauto.
  Qed.

  Lemma in_axis (out : da fl) i : shp (dat out) = upd (shp (dat data)) ax (List.length levels) -> inb (shp (dat out)) i ->
    (nth ax i 0%nat < List.length levels)%nat.
  Proof.
    intros So Hi. rewrite So in Hi. apply inb_nth in Hi. destruct Hi as [_ Hi].
    assert (Lax : (ax < List.length (shp (dat data)))%nat).
    { apply nth_error_Some. rewrite (w_n _ _ _ _ _ _ _ _ (h_wf _ _ _ _ _ _ _ _ _ _ _ _ _ H)). discriminate. }
    specialize (Hi ax). rewrite upd_length in Hi. specialize (Hi Lax). rewrite nth_upd, Nat.eqb_refl in Hi.
    replace (Nat.ltb ax (List.length (shp (dat data)))) with true in Hi by (symmetry; apply Nat.ltb_lt; auto). exact Hi.
  Qed.

  (** every value comes from the column routine, for levels listed in one direction *)
  Lemma call_columns : a_extrapolate a = false -> one_direction levels ->
    exists out, the_call data ps hyam hybm levels p0 a = Ok out /\
      dims out = upd (dims data) ax "plev"%string /\ shp (dat out) = upd (shp (dat data)) ax (List.length levels) /\
      in_every_column data ps A B p0 ax n m levels out (fun p v x y => column_value (vcoord m) p v n x y).
  Proof.
    intros Hex Hd. destruct (call_values Hex) as (out & E & Do & So & _ & _ & _ & G).
    exists out. split; auto. split; auto. split; auto. intros i s Hi Hs p Hp Hm.
    destruct (G i s Hi Hs) as (r & Er & ->). fold p in Er.
    destruct (col_value m levels (map p (seq 0 n)) (col_at (dat data) ax i n)) as (r' & Er' & Lr & V).
    - rewrite col_at_length, map_length, seq_length. auto.
    - rewrite map_length, seq_length. apply (h_n _ _ _ _ _ _ _ _ _ _ _ _ _ H).
    - apply NoDup_levels. auto.
    - apply (h_levels _ _ _ _ _ _ _ _ _ _ _ _ _ H).
    - auto.
    - intros Em. destruct (Hm Em). split; auto. apply Forall_levels. auto.
    - assert (r' = r) by congruence. subst r'. destruct (V (nth ax i 0%nat)) as [V1 _]; [eapply in_axis; eauto|].
      rewrite map_length, seq_length in V1. eapply column_value_ext; [| |exact V1].
      + intros k Hk. apply nth_levels. auto.
      + intros k Hk. apply nth_col. auto.
  Qed.
End Values.

Lemma columns_weaken data ps A B p0 ax n m levels out (P Q : (nat -> R) -> (nat -> fl) -> R -> fl -> Prop) :
  in_every_column data ps A B p0 ax n m levels out P ->
  (forall p v x y, distinct_levels p n -> (m = MLog -> (forall k, (k < n)%nat -> 0 < p k) /\ (In x levels -> 0 < x)) ->
     (In x levels) -> P p v x y -> Q p v x y) ->
  (forall i, inb (shp (dat out)) i -> (nth ax i 0 < List.length levels)%nat) ->
  in_every_column data ps A B p0 ax n m levels out Q.
Proof.
  intros HP HPQ Hax i s Hi Hs p Hd Hm. apply HPQ; auto.
  - intros E. destruct (Hm E) as [H1 H2]. split; auto. intros Hx. rewrite Forall_forall in H2. auto.
  - apply nth_In. auto.
  - apply (HP i s); auto.
Qed.

(** ** C17: one level at a time *)
Lemma upd_inb_single (s i : list nat) ax k : (ax < List.length s)%nat -> inb (upd s ax k) i -> inb (upd s ax 1%nat) (upd i ax 0%nat).
Proof.
  intros Hax Hi. apply inb_nth in Hi. destruct Hi as [L Hi]. apply inb_nth. rewrite upd_length in *.
  rewrite upd_length. split; auto. intros q Hq. specialize (Hi q Hq). rewrite nth_upd in Hi. rewrite !nth_upd.
  destruct (Nat.eqb_spec q ax) as [Eq|Eq]; cbn [andb] in *; auto.
  rewrite L. destruct (Nat.ltb_spec q (List.length s)); destruct (Nat.ltb_spec ax (List.length s)); lia.
Qed.

Lemma c17_lemma data ps hyam hybm l lb ax n A B levels p0 a m :
  hyb_call data ps hyam hybm l lb ax n A B levels a m -> a_extrapolate a = false -> one_direction levels ->
  exists out, the_call data ps hyam hybm levels p0 a = Ok out /\
    forall j, (j < List.length levels)%nat ->
    exists out1, the_call data ps hyam hybm [nth j levels 0] p0 a = Ok out1 /\
      forall i s, inb (shp (dat out)) i -> nth ax i 0%nat = j -> getn ps (env_of (dims data) i) = Fin s ->
      let p := hyb_pressure A B p0 s in
      distinct_levels p n -> (m = MLog -> (forall k, (k < n)%nat -> 0 < p k) /\ Forall (Rlt 0) levels) ->
      get (dat out) i = get (dat out1) (upd i ax 0%nat).
Proof.
  intros H Hex Hd. destruct (call_values _ _ _ _ _ _ _ _ _ _ _ p0 _ _ H Hex) as (out & E & Do & So & _ & _ & _ & G).
  exists out. split; auto. intros j Hj.
  assert (H1 : hyb_call data ps hyam hybm l lb ax n A B [nth j levels 0] a m).
  { destruct H. constructor; auto. discriminate. }
  destruct (call_values _ _ _ _ _ _ _ _ _ _ _ p0 _ _ H1 Hex) as (out1 & E1 & Do1 & So1 & _ & _ & _ & G1).
  exists out1. split; auto. intros i s Hi Hij Hs p Hp Hm.
  pose proof (h_wf _ _ _ _ _ _ _ _ _ _ _ _ _ H) as W.
  assert (Lax : (ax < List.length (shp (dat data)))%nat).
  { apply nth_error_Some. rewrite (w_n _ _ _ _ _ _ _ _ W). discriminate. }
  pose proof (w_data _ _ _ _ _ _ _ _ W) as [Wl Wn].
  destruct (G i s Hi Hs) as (r & Er & ->). fold p in Er.
  assert (Li : List.length i = List.length (dims data)).
  { apply inb_length in Hi. rewrite So, upd_length in Hi. congruence. }
  assert (Hi1 : inb (shp (dat out1)) (upd i ax 0%nat)).
  { rewrite So1. cbn [List.length]. rewrite So in Hi. eapply upd_inb_single; eauto. }
  assert (Hs1 : getn ps (env_of (dims data) (upd i ax 0%nat)) = Fin s).
  { rewrite <- Hs. apply (surf_upd _ _ _ _ _ _ _ _ i 0%nat W Li). }
  destruct (G1 _ s Hi1 Hs1) as (r1 & Er1 & ->). fold p in Er1. rewrite col_at_upd in Er1.
  rewrite nth_upd, Nat.eqb_refl, Li. replace (Nat.ltb ax (List.length (dims data))) with true by (symmetry; apply Nat.ltb_lt; lia).
  cbn [andb].
  destruct (col_value m levels (map p (seq 0 n)) (col_at (dat data) ax i n)) as (r' & Er' & Lr & V).
  - rewrite col_at_length, map_length, seq_length. auto.
  - rewrite map_length, seq_length. apply (h_n _ _ _ _ _ _ _ _ _ _ _ _ _ H).
  - apply NoDup_levels. auto.
  - apply (h_levels _ _ _ _ _ _ _ _ _ _ _ _ _ H).
  - auto.
  - intros Em. destruct (Hm Em). split; auto. apply Forall_levels. auto.
  - assert (r' = r) by congruence. subst r'. destruct (V j Hj) as [_ V2]. cbn [map] in Er1. rewrite Er1 in V2.
    injection V2 as ->. cbn. rewrite Hij. reflexivity.
Qed.
