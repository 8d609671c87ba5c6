(** Facts about calendars: months tile time, periods partition it, dates and instants are in bijection. *)
From Coq Require Import ZArith List Bool Lia.
From Verif Require Import Calendar.
Import ListNotations.
Local Open Scope Z_scope.
Ltac Zify.zify_post_hook ::= Z.to_euclidean_division_equations.

Lemma mlen_bounds c y m : 28 <= mlen c y m <= 31.
Proof. unfold mlen. destruct c; try lia; repeat match goal with |- context [if ?b then _ else _] => destruct b end; lia. Qed.
Lemma qlen_bounds c q : 28 <= qlen c q <= 31. Proof. apply mlen_bounds. Qed.

(** length of year y *)
Definition ylen (c : cal) (y : Z) : Z := match c with D360 => 360 | _ => if leap c y then 366 else 365 end.
Lemma ystart_next c y : ystart c (y + 1) = ystart c y + ylen c y.
Proof.
  unfold ystart, ylen, leap. destruct c; try lia.
  - destruct (Z.eqb_spec (y mod 4) 0), (Z.eqb_spec (y mod 100) 0), (Z.eqb_spec (y mod 400) 0); cbn [andb orb negb]; lia.
  - destruct (Z.eqb_spec (y mod 4) 0); lia.
Qed.
Lemma ylen_sum c y : fold_left Z.add (map (fun j => mlen c y (Z.of_nat j + 1)) (seq 0 12)) 0 = ylen c y.
Proof. unfold ylen, mlen. destruct c; cbn; repeat match goal with |- context [if ?b then _ else _] => destruct b end; reflexivity. Qed.
Lemma fold_add_app l x a : fold_left Z.add (l ++ [x]) a = fold_left Z.add l a + x.
Proof. rewrite fold_left_app. reflexivity. Qed.
Lemma mstart_next c q : mstart c (q + 1) = mstart c q + qlen c q.
Proof.
  unfold mstart, qlen. assert (H : (q + 1) / 12 = q / 12 /\ (q + 1) mod 12 = q mod 12 + 1 /\ q mod 12 < 11 \/ (q + 1) / 12 = q / 12 + 1 /\ (q + 1) mod 12 = 0 /\ q mod 12 = 11) by lia.
  destruct H as [(-> & -> & H)|(-> & -> & ->)].
  - replace (Z.to_nat (q mod 12 + 1)) with (S (Z.to_nat (q mod 12))) by lia. rewrite seq_S, map_app. cbn [map]. rewrite fold_add_app.
    replace (Z.of_nat (0 + Z.to_nat (q mod 12)) + 1) with (q mod 12 + 1) by lia. lia.
  - rewrite ystart_next, <- ylen_sum. change (Z.to_nat 0) with 0%nat. change (Z.to_nat 11) with 11%nat. rewrite (seq_S 11 0), map_app. cbn [map]. rewrite fold_add_app. cbn [seq map fold_left].
    change (Z.of_nat (0 + 11) + 1) with 12. change (11 + 1) with 12. lia.
Qed.
Lemma mstart_lt_nat c q n : (0 < n)%nat -> mstart c q + 28 * Z.of_nat n <= mstart c (q + Z.of_nat n).
Proof.
  intros H. destruct n; [lia|]. clear H. induction n as [|n IH].
  - replace (q + Z.of_nat 1) with (q + 1) by lia. rewrite mstart_next. pose proof (qlen_bounds c q). lia.
  - replace (q + Z.of_nat (S (S n))) with (q + Z.of_nat (S n) + 1) by lia. rewrite mstart_next. pose proof (qlen_bounds c (q + Z.of_nat (S n))). lia.
Qed.
Lemma mstart_lt c q q' : q < q' -> mstart c q < mstart c q'.
Proof. intros H. pose proof (mstart_lt_nat c q (Z.to_nat (q' - q)) ltac:(lia)) as Q. replace (q + Z.of_nat (Z.to_nat (q' - q))) with q' in Q by lia. lia. Qed.
Lemma mstart_le c q q' : q <= q' -> mstart c q <= mstart c q'.
Proof. intros H. destruct (Z.eq_dec q q') as [->|]; [lia|]. pose proof (mstart_lt c q q' ltac:(lia)). lia. Qed.
Lemma mstart_between c q q' n : mstart c q <= n < mstart c (q + 1) -> mstart c q' <= n < mstart c (q' + 1) -> q = q'.
Proof.
  intros H1 H2. destruct (Z.lt_trichotomy q q') as [H|[H|H]]; auto; exfalso.
  - pose proof (mstart_le c (q + 1) q' ltac:(lia)). lia.
  - pose proof (mstart_le c (q' + 1) q ltac:(lia)). lia.
Qed.

(** ** timestamps *)
Lemma tmonth_div c t : valid c t -> tmonth t / 12 = yr t /\ tmonth t mod 12 = mo t - 1.
Proof. intros (H & _). unfold tmonth, mnum. lia. Qed.
Lemma qlen_tmonth c t : valid c t -> qlen c (tmonth t) = mlen c (yr t) (mo t).
Proof. intros H. unfold qlen. destruct (tmonth_div c t H) as [-> ->]. f_equal. lia. Qed.
Lemma day_in_month c t : valid c t -> mstart c (tmonth t) <= instant c t / 86400 < mstart c (tmonth t + 1).
Proof. intros H. pose proof (qlen_tmonth c t H). destruct H as (H1 & H2 & H3). rewrite mstart_next. unfold instant. lia. Qed.
(** in a period exactly when the instant lies between its bounds *)
Lemma period_iff c f t p : valid c t -> (pnum c f t = p <-> pstart c f p <= instant c t < pstart c f (p + 1)).
Proof.
  intros V. assert (M : forall q q', q < q' -> (q <= tmonth t < q' <-> 86400 * mstart c q <= instant c t < 86400 * mstart c q')).
  { intros q q' Hq. pose proof (day_in_month c t V) as D. split.
    - intros [H1 H2]. pose proof (mstart_le c q (tmonth t) H1). pose proof (mstart_le c (tmonth t + 1) q' ltac:(lia)). lia.
    - intros [H1 H2]. split.
      + destruct (Z_le_gt_dec q (tmonth t)); auto. exfalso. pose proof (mstart_le c (tmonth t + 1) q ltac:(lia)). lia.
      + destruct (Z_lt_le_dec (tmonth t) q'); auto. exfalso. pose proof (mstart_le c q' (tmonth t) l). lia. }
  destruct f; cbn [pnum pstart pmonth].
  - lia.
  - lia.
  - rewrite <- M by lia. lia.
  - rewrite <- M by lia. lia.
  - rewrite <- M by lia. lia.
Qed.
Lemma pstart_lt c f p : pstart c f p < pstart c f (p + 1).
Proof.
  destruct f as [ | | |a| ]; cbn [pstart pmonth]; try lia.
  - pose proof (mstart_lt c p (p + 1) ltac:(lia)). lia.
  - pose proof (mstart_lt c (3 * p + (a - 1)) (3 * (p + 1) + (a - 1)) ltac:(lia)). lia.
  - pose proof (mstart_lt c (12 * p) (12 * (p + 1)) ltac:(lia)). lia.
Qed.
Lemma pstart_mono c f p p' : p < p' -> pstart c f p < pstart c f p'.
Proof.
  intros H. assert (Q : forall n, (0 < n)%nat -> pstart c f p < pstart c f (p + Z.of_nat n)).
  { intros n Hn. destruct n; [lia|]. clear Hn. induction n as [|n IH]; [apply pstart_lt|].
    replace (p + Z.of_nat (S (S n))) with (p + Z.of_nat (S n) + 1) by lia. pose proof (pstart_lt c f (p + Z.of_nat (S n))). lia. }
  specialize (Q (Z.to_nat (p' - p)) ltac:(lia)). replace (p + Z.of_nat (Z.to_nat (p' - p))) with p' in Q by lia. auto.
Qed.

Lemma instant_inj c t t' : valid c t -> valid c t' -> instant c t = instant c t' -> t = t'.
Proof.
  intros V V' E. assert (Q : tmonth t = tmonth t').
  { apply (mstart_between c _ _ (instant c t / 86400)); [apply day_in_month; auto|rewrite E; apply day_in_month; auto]. }
  destruct (tmonth_div c t V) as [A B]. destruct (tmonth_div c t' V') as [A' B']. rewrite Q in A, B.
  unfold instant in E. rewrite Q in E. destruct V as (_ & _ & V). destruct V' as (_ & _ & V').
  destruct t as [y m d s], t' as [y' m' d' s']. cbn [yr mo dy sec] in *. assert (d = d') by lia. assert (s = s') by lia. subst. f_equal; lia.
Qed.
(** chronological order of fields and of instants agree *)
Lemma instant_lt c t t' : valid c t -> valid c t' -> tmonth t < tmonth t' -> instant c t < instant c t'.
Proof.
  intros V V' H. pose proof (day_in_month c t V). pose proof (day_in_month c t' V'). pose proof (mstart_le c (tmonth t + 1) (tmonth t') ltac:(lia)). lia.
Qed.

(** ** the timestamp of an instant *)
Fixpoint span (c : cal) (n : nat) (q : Z) : Z := match n with O => 0 | S n => qlen c q + span c n (q + 1) end.
Lemma advance_spec c n q r : 0 <= r < span c n q -> let '(q', r') := advance c n q r in 0 <= r' < qlen c q' /\ mstart c q' + r' = mstart c q + r.
Proof.
  revert q r. induction n as [|n IH]; intros q r H; cbn [span] in H; [lia|]. cbn [advance]. destruct (Z.ltb_spec r (qlen c q)) as [L|L].
  - lia.
  - specialize (IH (q + 1) (r - qlen c q) ltac:(lia)). destruct (advance c n (q + 1) (r - qlen c q)) as [q' r']. rewrite mstart_next in IH. lia.
Qed.
Lemma span_mstart c n q : span c n q = mstart c (q + Z.of_nat n) - mstart c q.
Proof.
  revert q. induction n as [|n IH]; intros q; cbn [span].
  - replace (q + Z.of_nat 0) with q by lia. lia.
  - rewrite IH, mstart_next. replace (q + 1 + Z.of_nat n) with (q + Z.of_nat (S n)) by lia. lia.
Qed.
Lemma mstart_year c y : mstart c (mnum y 1) = ystart c y.
Proof. unfold mstart, mnum. replace ((12 * y + (1 - 1)) / 12) with y by lia. replace ((12 * y + (1 - 1)) mod 12) with 0 by lia. cbn. lia. Qed.
Lemma guess_spec c n : ystart c (year_guess c n) <= n < ystart c (year_guess c n + 3).
Proof.
  unfold year_guess, ystart. destruct c.
  - set (k := n / 146097). set (j := (n mod 146097) / 366). set (r := n mod 146097). assert (Hn : n = 146097 * k + r) by (unfold k, r; lia).
    assert (Hr : 0 <= r < 146097) by (unfold r; lia). assert (Hj : 366 * j <= r < 366 * (j + 1)) by (unfold j, r; lia). assert (Hj' : 0 <= j < 400) by lia. clearbody k j r. subst n.
    replace (1 + (400 * k + j) - 1) with (400 * k + j) by lia. replace (1 + (400 * k + j) + 3 - 1) with (400 * k + (j + 3)) by lia.
    assert (E : forall i, (400 * k + i) / 4 = 100 * k + i / 4 /\ (400 * k + i) / 100 = 4 * k + i / 100 /\ (400 * k + i) / 400 = k + i / 400) by (intros; lia).
    destruct (E j) as (-> & -> & ->). destruct (E (j + 3)) as (-> & -> & ->). clear E. lia.
  - lia.
  - lia.
  - lia.
  - lia.
Qed.
Lemma date_of_spec c z : valid c (date_of c z) /\ instant c (date_of c z) = z.
Proof.
  unfold date_of. set (n := z / 86400). set (y := year_guess c n). destruct (guess_spec c n) as [G1 G2]. fold y in G1, G2.
  assert (S : 0 <= n - ystart c y < span c 36 (mnum y 1)).
  { rewrite span_mstart. replace (mnum y 1 + Z.of_nat 36) with (mnum (y + 3) 1) by (unfold mnum; lia). rewrite !mstart_year. lia. }
  pose proof (advance_spec c 36 (mnum y 1) (n - ystart c y) S) as A. destruct (advance c 36 (mnum y 1) (n - ystart c y)) as [q r]. destruct A as [A1 A2]. rewrite mstart_year in A2.
  unfold valid, instant, tmonth. cbn [yr mo dy sec]. replace (mnum (q / 12) (q mod 12 + 1)) with q by (unfold mnum; lia). unfold qlen in A1.
  split; [repeat split; lia|]. unfold n in A2. lia.
Qed.
Lemma date_of_instant c t : valid c t -> date_of c (instant c t) = t.
Proof. intros V. destruct (date_of_spec c (instant c t)) as [V' E]. apply (instant_inj c); auto. Qed.
(** midpoints of periods are whole seconds inside them *)
Lemma pstart_even c f p : (pstart c f p + pstart c f (p + 1)) mod 2 = 0.
Proof. destruct f; cbn [pstart pmonth]; lia. Qed.
