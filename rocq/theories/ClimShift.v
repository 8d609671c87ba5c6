(** Moving a record by whole cycles of the calendar moves the labels and leaves the values. *)
From Coq Require Import List Bool Arith ZArith Lia String FunctionalExtensionality Permutation.
From Verif Require Import PyBase PyFacts Num Calendar CalendarFacts Climat ClimKeys SpecClim SpecClimShift.
Import ListNotations.
Local Open Scope Z_scope.

(** ** calendars *)
(** days in n years *)
Definition cdays (c : cal) (n : Z) : Z :=
  match c with Greg => 146097 * (n / 400) | Julian => 1461 * (n / 4) | NoLeap => 365 * n | AllLeap => 366 * n | D360 => 360 * n end.

Section Cal.
  Variables (c : cal) (n : Z).
  Hypothesis R : repeats c n.
  Notation D := (cdays c n).

  Lemma leap_later y : leap c (y + n) = leap c y.
  Proof using R.
    destruct R as [k E]. destruct c; cbn [leap cycle] in *; try reflexivity.
    - replace ((y + n) mod 4) with (y mod 4) by (rewrite E; replace (y + k * 400) with (y + k * 100 * 4) by lia; now rewrite Z_mod_plus_full).
      replace ((y + n) mod 100) with (y mod 100) by (rewrite E; replace (y + k * 400) with (y + k * 4 * 100) by lia; now rewrite Z_mod_plus_full).
      replace ((y + n) mod 400) with (y mod 400) by (rewrite E; now rewrite Z_mod_plus_full). reflexivity.
    - rewrite E. now rewrite Z_mod_plus_full.
  Qed.
  Lemma mlen_later y m : mlen c (y + n) m = mlen c y m.
  Proof using R. pose proof (leap_later y) as L. destruct c; cbn [mlen] in *; rewrite ?L; reflexivity. Qed.
  Lemma ystart_later y : ystart c (y + n) = ystart c y + D.
  Proof using R.
    destruct R as [k E]. destruct c; cbn [ystart cdays cycle] in *; try lia.
  Qed.
  Lemma q_div q : (q + 12 * n) / 12 = q / 12 + n.
  Proof. replace (q + 12 * n) with (q + n * 12) by lia. now rewrite Z_div_plus_full by lia. Qed.
  Lemma q_mod q : (q + 12 * n) mod 12 = q mod 12.
  Proof. replace (q + 12 * n) with (q + n * 12) by lia. now rewrite Z_mod_plus_full. Qed.
  Lemma qlen_later q : qlen c (q + 12 * n) = qlen c q.
  Proof using R. unfold qlen. rewrite q_div, q_mod. apply mlen_later. Qed.
  Lemma mstart_later q : mstart c (q + 12 * n) = mstart c q + D.
  Proof using R.
    unfold mstart. rewrite q_div, q_mod, ystart_later.
    rewrite (map_ext (fun j => mlen c (q / 12 + n) (Z.of_nat j + 1)) (fun j => mlen c (q / 12) (Z.of_nat j + 1))) by (intros; apply mlen_later). lia.
  Qed.
  Lemma tmonth_later t : tmonth (later n t) = tmonth t + 12 * n.
  Proof. unfold tmonth, mnum, later. cbn [yr mo]. lia. Qed.
  Lemma instant_later t : instant c (later n t) = instant c t + 86400 * D.
  Proof using R. unfold instant. rewrite tmonth_later, mstart_later. unfold later. cbn [dy sec]. lia. Qed.

  (** periods in n years *)
  Definition cper (f : per) : Z := match f with Hour => 24 * D | Day => D | Month => 12 * n | Quarter _ => 4 * n | Year => n end.
  Lemma pmonth_later f p : (match f with Hour | Day => False | _ => True end) -> pmonth f (p + cper f) = pmonth f p + 12 * n.
  Proof. destruct f; cbn [pmonth cper]; intros; try contradiction; lia. Qed.
  Lemma pstart_later f p : pstart c f (p + cper f) = pstart c f p + 86400 * D.
  Proof using R.
    destruct f; cbn [pstart]; try (rewrite pmonth_later by exact I; rewrite mstart_later; lia); cbn [cper]; lia.
  Qed.
  Lemma pnum_later f t : pnum c f (later n t) = pnum c f t + cper f.
  Proof using R.
    destruct f; cbn [pnum cper]; rewrite ?instant_later, ?tmonth_later.
    - replace (instant c t + 86400 * D) with (instant c t + 24 * D * 3600) by lia. now rewrite Z_div_plus_full by lia.
    - replace (instant c t + 86400 * D) with (instant c t + D * 86400) by lia. now rewrite Z_div_plus_full by lia.
    - reflexivity.
    - replace (tmonth t + 12 * n - (anchor - 1)) with (tmonth t - (anchor - 1) + 4 * n * 3) by lia. now rewrite Z_div_plus_full by lia.
    - apply q_div.
  Qed.
  Lemma year_guess_later d : year_guess c (d + D) = year_guess c d + n.
  Proof using R.
    destruct R as [k E]. unfold year_guess. destruct c; cbn [cdays cycle] in *; try lia.
  Qed.
  Lemma advance_later k : forall q r, advance c k (q + 12 * n) r = (fst (advance c k q r) + 12 * n, snd (advance c k q r)).
  Proof using R.
    induction k as [|k IH]; intros q r; cbn [advance]; [reflexivity|]. rewrite qlen_later. destruct (r <? qlen c q); [reflexivity|].
    replace (q + 12 * n + 1) with (q + 1 + 12 * n) by lia. apply IH.
  Qed.
  Lemma date_of_later z : date_of c (z + 86400 * D) = later n (date_of c z).
  Proof using R.
    unfold date_of. cbv zeta. replace (z + 86400 * D) with (z + D * 86400) by lia. rewrite Z_div_plus_full, Z_mod_plus_full by lia.
    rewrite year_guess_later, ystart_later. set (y := year_guess c (z / 86400)).
    replace (mnum (y + n) 1) with (mnum y 1 + 12 * n) by (unfold mnum; lia).
    replace (z / 86400 + D - (ystart c y + D)) with (z / 86400 - ystart c y) by lia.
    rewrite advance_later. destruct (advance c 36 (mnum y 1) (z / 86400 - ystart c y)) as [q r]. cbn [fst snd].
    unfold later. cbn [yr mo dy sec]. rewrite q_div, q_mod. reflexivity.
  Qed.
  Lemma midpoint_later f p : midpoint c f (p + cper f) = later n (midpoint c f p).
  Proof using R.
    unfold midpoint. replace (p + cper f + 1) with (p + 1 + cper f) by lia. rewrite !pstart_later.
    replace (pstart c f p + 86400 * D + (pstart c f (p + 1) + 86400 * D)) with (pstart c f p + pstart c f (p + 1) + 86400 * D * 2) by lia.
    rewrite Z_div_plus_full by lia. apply date_of_later.
  Qed.
End Cal.

(** ** lists *)
Lemma filter_map_comm {A B} (g : A -> B) (p : B -> bool) l : filter p (map g l) = map g (filter (fun a => p (g a)) l).
Proof. induction l as [|a l IH]; cbn; [reflexivity|]. rewrite IH. destruct (p (g a)); reflexivity. Qed.
Lemma zrange_shift lo k n : zrange (lo + n) k = map (fun p => p + n) (zrange lo k).
Proof. unfold zrange. rewrite map_map. apply map_ext. intros. lia. Qed.
Lemma between_shift a b n : between (a + n) (b + n) = map (fun p => p + n) (between a b).
Proof. unfold between. replace (b + n - (a + n) + 1) with (b - a + 1) by lia. apply zrange_shift. Qed.
Lemma fold_shift (op : Z -> Z -> Z) n : (forall x y, op (x + n) (y + n) = op x y + n) ->
  forall l a, fold_left op (map (fun p => p + n) l) (a + n) = fold_left op l a + n.
Proof. intros H. induction l as [|x l IH]; intros a; cbn; [reflexivity|]. rewrite H. apply IH. Qed.
Lemma combine_map_l {A B C} (g : A -> B) (l : list A) (m : list C) : combine (map g l) m = map (fun p => (g (fst p), snd p)) (combine l m).
Proof. revert m. induction l as [|a l IH]; intros [|b m]; cbn; try reflexivity. now rewrite IH. Qed.
Lemma tl_map {A B} (g : A -> B) l : tl (map g l) = map g (tl l).
Proof. destruct l; reflexivity. Qed.
Lemma removelast_map {A B} (g : A -> B) l : removelast (map g l) = map g (removelast l).
Proof. induction l as [|a [|b l] IH]; try reflexivity. cbn [map removelast] in *. now rewrite IH. Qed.
Lemma last_map {A B} (g : A -> B) l d : last (map g l) (g d) = g (last l d).
Proof. induction l as [|a [|b l] IH]; try reflexivity. exact IH. Qed.
Lemma mapM_map {A B C} (g : A -> B) (f : B -> res C) l : mapM f (map g l) = mapM (fun a => f (g a)) l.
Proof. induction l as [|a l IH]; cbn; [reflexivity|]. destruct (f (g a)); cbn; [|reflexivity]. now rewrite IH. Qed.
Lemma mapM_rmap {A B C} (g : B -> C) (f : A -> res B) l : mapM (fun a => rmap g (f a)) l = rmap (map g) (mapM f l).
Proof. induction l as [|a l IH]; cbn; [reflexivity|]. destruct (f a); cbn; [|reflexivity]. rewrite IH. destruct (mapM f l); reflexivity. Qed.
Lemma mapM_ext' {A B} (f g : A -> res B) l : (forall a, f a = g a) -> mapM f l = mapM g l.
Proof. intros H. induction l as [|a l IH]; cbn; [reflexivity|]. rewrite H, IH. reflexivity. Qed.

Section Climat.
  Context {T : Type} {N : Num T}.
  Variables (c : cal) (infer_freq : list time -> bool) (empty_exc : exc) (n : Z).
  Hypothesis R : repeats c n.
  Hypothesis I : forall ts, infer_freq (map (later n) ts) = infer_freq ts.
  Notation smp := (list (time * frame T)).
  Notation D := (cdays c n).
  Notation P := (cper c n).

  Lemma moved_fst (xs : smp) : map fst (moved n xs) = map (later n) (map fst xs).
  Proof. unfold moved. rewrite !map_map. reflexivity. Qed.
  Lemma moved_snd (xs : smp) : map snd (moved n xs) = map snd xs.
  Proof. unfold moved. rewrite !map_map. reflexivity. Qed.
  Lemma moved_filter (p : time * frame T -> bool) (xs : smp) :
    filter p (moved n xs) = moved n (filter (fun s => p (later n (fst s), snd s)) xs).
  Proof. apply filter_map_comm. Qed.
  Lemma moved_map {A} (g : time * frame T -> A) (xs : smp) : map g (moved n xs) = map (fun s => g (later n (fst s), snd s)) xs.
  Proof. unfold moved. now rewrite map_map. Qed.
  Lemma in_bin f p t : (pstart c f (p + P f) <=? instant c (later n t)) && (instant c (later n t) <? pstart c f (p + P f + 1)) =
                       (pstart c f p <=? instant c t) && (instant c t <? pstart c f (p + 1)).
  Proof using R.
    replace (p + P f + 1) with (p + 1 + P f) by lia. rewrite !pstart_later, instant_later by exact R.
    f_equal; [destruct (Z.leb_spec (pstart c f p) (instant c t))|destruct (Z.ltb_spec (instant c t) (pstart c f (p + 1)))];
      [apply Z.leb_le|apply Z.leb_gt|apply Z.ltb_lt|apply Z.ltb_ge]; lia.
  Qed.
  Lemma members_later f p (xs : smp) : members c f (p + P f) (moved n xs) = moved n (members c f p xs).
  Proof using R. unfold members. rewrite moved_filter. f_equal. apply filter_ext. intros s. apply in_bin. Qed.
  Lemma bins_later f ts : bins c f (map (later n) ts) = map (fun p => p + P f) (bins c f ts).
  Proof using R.
    clear I infer_freq. unfold bins. replace (map (pnum c f) (map (later n) ts)) with (map (fun p => p + P f) (map (pnum c f) ts))
      by (rewrite !map_map; apply map_ext; intros; symmetry; apply pnum_later; exact R).
    destruct (map (pnum c f) ts) as [|p ps]; [reflexivity|]. cbn [map].
    rewrite (fold_shift Z.min), (fold_shift Z.max) by (intros; lia). apply between_shift.
  Qed.
  Lemma mean_later (l : smp) : mean_of (moved n l) = mean_of l.
  Proof. apply functional_extensionality. intros k. unfold mean_of. now rewrite moved_map. Qed.
  Lemma sum_later (l : smp) : sum_of (moved n l) = sum_of l.
  Proof.
    apply functional_extensionality. intros k. unfold sum_of. destruct l as [|a l]; [reflexivity|].
    change (nansum (map (fun s => snd s k) (moved n (a :: l))) = nansum (map (fun s => snd s k) (a :: l))). now rewrite moved_map.
  Qed.
  Lemma resampled_later red f (xs : smp) : (forall l, red (moved n l) = red l) ->
    resampled c red f (moved n xs) = moved n (resampled c red f xs).
  Proof using R.
    intros H. unfold resampled. rewrite moved_fst, bins_later. unfold moved at 2. rewrite !map_map. apply map_ext. intros p. cbn [fst snd].
    rewrite members_later, H, pstart_later, date_of_later by exact R. reflexivity.
  Qed.
  Lemma dropna_later w (xs : smp) : dropna w (moved n xs) = moved n (dropna w xs).
  Proof. unfold dropna. apply moved_filter. Qed.
  Lemma check_uniform_later ts : check_uniform c infer_freq (map (later n) ts) = check_uniform c infer_freq ts.
  Proof using R I.
    unfold check_uniform. rewrite map_length, I. destruct (Nat.ltb (List.length ts) 3); [reflexivity|]. destruct (infer_freq ts); [reflexivity|].
    rewrite bins_later. set (b := bins c Month ts).
    replace (forallb _ (map (fun p => p + P Month) b)) with
      (forallb (fun q => Nat.eqb (List.length (filter (fun t => (pstart c Month q <=? instant c t) && (instant c t <? pstart c Month (q + 1))) ts)) 1) b); [reflexivity|].
    clearbody b. induction b as [|q b IH]; cbn [map forallb]; [reflexivity|]. rewrite IH. f_equal. f_equal.
    rewrite filter_map_comm, map_length. f_equal. apply filter_ext. intros t. symmetry. apply in_bin.
  Qed.
  Lemma center_later f a b (fr : list (frame T)) : center c f (a + P f) (b + P f) fr = rmap (moved n) (center c f a b fr).
  Proof using R.
    unfold center. cbv zeta. rewrite between_shift, map_length. destruct (Nat.eqb (List.length (between a b)) (List.length fr)); cbn [negb rmap]; [|reflexivity].
    f_equal. rewrite map_map. replace (map (fun x => midpoint c f (x + P f)) (between a b)) with (map (later n) (map (midpoint c f) (between a b))).
    - apply combine_map_l.
    - rewrite map_map. apply map_ext. intros. symmetry. apply midpoint_later. exact R.
  Qed.
  Lemma month_length_later t : month_length c (later n t) = month_length c t.
  Proof using R. unfold month_length, later. cbn [yr mo]. apply mlen_later. exact R. Qed.
  Lemma weighted_later f (ms : smp) : weighted c f (moved n ms) = moved n (weighted c f ms).
  Proof using R.
    unfold weighted. rewrite moved_map. unfold moved at 2. rewrite map_map. apply map_ext. intros s. cbn [fst snd].
    rewrite pnum_later by exact R. rewrite members_later, moved_map. cbv zeta. cbn [fst].
    rewrite (map_ext (fun s0 : time * frame T => month_length c (later n (fst s0))) (fun s0 => month_length c (fst s0))) by (intros; apply month_length_later).
    rewrite month_length_later. reflexivity.
  Qed.
  Lemma time_info_later (x : input T) td : time_info (moved_input n x) td = time_info x td.
  Proof. reflexivity. Qed.

  Lemma calendar_later (x : input T) freq td :
    calendar_average c infer_freq (moved_input n x) freq td = rmap (moved n) (calendar_average c infer_freq x freq td).
  Proof using R I.
    unfold calendar_average. destruct (cal_freq freq) as [f|]; [|reflexivity]. cbn [oget bind]. cbv zeta. rewrite time_info_later.
    destruct (time_info x td) as [nm|]; [|reflexivity]. cbn [bind moved_input inp samples width]. rewrite moved_fst, check_uniform_later.
    destruct (check_uniform c infer_freq (map fst (samples (inp x)))) as [u|]; [|reflexivity]. cbn [bind].
    rewrite (resampled_later mean_of _ _ mean_later), dropna_later.
    set (d := dropna (width (inp x)) _).
    replace (if String.eqb freq "season" || String.eqb freq "year" then resampled c sum_of f (weighted c f (moved n d)) else moved n d)
      with (moved n (if String.eqb freq "season" || String.eqb freq "year" then resampled c sum_of f (weighted c f d) else d)).
    2: { destruct (String.eqb freq "season" || String.eqb freq "year"); [|reflexivity]. rewrite weighted_later, (resampled_later sum_of _ _ sum_later). reflexivity. }
    clearbody d. generalize (if String.eqb freq "season" || String.eqb freq "year" then resampled c sum_of f (weighted c f d) else d).
    intros e. destruct e as [|s e]; [reflexivity|].
    rewrite moved_snd. change (moved n (s :: e)) with ((later n (fst s), snd s) :: moved n e) at 1. cbv iota.
    replace (last (moved n (s :: e)) (later n (fst s), snd s)) with ((fun s => (later n (fst s), snd s)) (last (s :: e) s))
      by (symmetry; apply (last_map (fun s => (later n (fst s), snd s)))).
    cbn [fst]. rewrite !pnum_later by exact R. apply center_later.
  Qed.

  (** ** climatologies *)
  Lemma key_later f t : key f (later n t) = key f t.
  Proof. destruct f; reflexivity. Qed.
  Lemma having_later k k' z z' (xs : smp) : (forall t, (k' (later n t) =? z') = (k t =? z)) -> having k' z' (moved n xs) = moved n (having k z xs).
  Proof. intros H. unfold having. rewrite moved_filter. f_equal. apply filter_ext. intros s. cbn [fst]. apply H. Qed.
  Lemma keys_later f ts : keys (key f) (map (later n) ts) = keys (key f) ts.
  Proof. unfold keys. rewrite map_map. reflexivity. Qed.
  Lemma season_mean_later f w ms (xs : smp) : season_mean c empty_exc f w ms (moved n xs) = season_mean c empty_exc f w ms xs.
  Proof using R.
    unfold season_mean. cbv zeta. rewrite moved_filter.
    change (fun s : time * frame T => in_months ms (fst (later n (fst s), snd s))) with (fun s : time * frame T => in_months ms (fst s)).
    set (sel := filter _ xs). unfold moved at 1. rewrite map_length. fold (@moved (frame T)).
    destruct (Nat.eqb (List.length sel) 0); [reflexivity|]. rewrite (resampled_later mean_of _ _ mean_later), dropna_later.
    set (d := dropna w _). f_equal. apply functional_extensionality. intros k. rewrite !moved_map. cbn [fst snd].
    rewrite (map_ext (fun s : time * frame T => month_length c (later n (fst s))) (fun s => month_length c (fst s))) by (intros; apply month_length_later).
    f_equal. apply map_ext. intros s. rewrite month_length_later. reflexivity.
  Qed.

  (** ** month_to_season *)
  Lemma m2s_later (x : input T) season td :
    month_to_season c empty_exc (moved_input n x) season td = rmap (moved n) (month_to_season c empty_exc x season td).
  Proof using R.
    unfold month_to_season. rewrite time_info_later. destruct (time_info x td); [|reflexivity]. cbn [bind moved_input inp samples]. cbv zeta.
    unfold moved at 1. rewrite map_length. fold (@moved (frame T)).
    destruct (Nat.eqb (List.length (samples (inp x)) mod 12) 0); cbn [negb]; [|reflexivity].
    destruct (find_season season) as [ms|]; [|reflexivity]. cbn [oget bind]. rewrite moved_filter.
    change (fun s : time * frame T => in_months ms (fst (later n (fst s), snd s))) with (fun s : time * frame T => in_months ms (fst s)).
    set (sel := filter _ (samples (inp x))).
    replace (if String.eqb season "DJF" then removelast (moved n sel) else if String.eqb season "NDJ" then tl (moved n sel) else moved n sel)
      with (moved n (if String.eqb season "DJF" then removelast sel else if String.eqb season "NDJ" then tl sel else sel)).
    2: { destruct (String.eqb season "DJF"); [symmetry; apply removelast_map|]. destruct (String.eqb season "NDJ"); [symmetry; apply tl_map|reflexivity]. }
    generalize (if String.eqb season "DJF" then removelast sel else if String.eqb season "NDJ" then tl sel else sel). clear sel. intros sel.
    unfold moved at 1. rewrite map_length. fold (@moved (frame T)). destruct (Nat.eqb (List.length sel) 0); [reflexivity|]. cbn [rmap]. f_equal.
    rewrite moved_fst, bins_later, map_map. destruct ms as [[a1 b1] d1]. cbn [quarter middle].
    rewrite (map_ext _ (fun p => (later n (date_of c (86400 * mstart c (pmonth (Quarter a1) p + 1))), mean_of (members c (Quarter a1) p sel)))).
    - set (g := fun p => (date_of c (86400 * mstart c (pmonth (Quarter a1) p + 1)), mean_of (members c (Quarter a1) p sel))).
      transitivity (filter (fun s : time * frame T => mo (fst s) =? b1) (moved n (map g (bins c (Quarter a1) (map fst sel))))).
      + f_equal. unfold moved. now rewrite map_map.
      + apply moved_filter.
    - intros p. rewrite members_later, mean_later. rewrite pmonth_later by exact Logic.I.
      replace (pmonth (Quarter a1) p + 12 * n + 1) with (pmonth (Quarter a1) p + 1 + 12 * n) by lia.
      rewrite mstart_later by exact R. rewrite Z.mul_add_distr_l, date_of_later by exact R. reflexivity.
  Qed.
End Climat.

(** ** the year of the labels *)
Lemma zsort_shift n l : zsort (map (fun p => p + n) l) = map (fun p => p + n) (zsort l).
Proof.
  induction l as [|a l IH]; [reflexivity|]. change (zsort (map (fun p => p + n) (a :: l))) with (zinsert (a + n) (zsort (map (fun p => p + n) l))).
  change (zsort (a :: l)) with (zinsert a (zsort l)). rewrite IH. generalize (zsort l). intros m.
  induction m as [|b m IHm]; [reflexivity|]. cbn [map zinsert]. destruct (Z.leb_spec a b), (Z.leb_spec (a + n) (b + n)); try lia; [reflexivity|].
  cbn [map]. now rewrite IHm.
Qed.
Lemma zsort_length l : List.length (zsort l) = List.length l.
Proof. symmetry. apply Permutation_length, zsort_perm. Qed.
Lemma nth_shift n l k : (k < List.length l)%nat -> nth k (map (fun p => p + n) l) 0 = nth k l 0 + n.
Proof. intros H. rewrite (nth_indep _ 0 (0 + n)) by (rewrite map_length; auto). apply (map_nth (fun p => p + n)). Qed.
Lemma median2_shift n l : l <> [] -> median2 (map (fun p => p + n) l) = median2 l + 2 * n.
Proof.
  intros H. unfold median2. cbv zeta. rewrite zsort_shift, map_length.
  assert (L : (0 < List.length (zsort l))%nat) by (rewrite zsort_length; destruct l; [congruence|cbn; lia]).
  assert (L1 : (List.length (zsort l) / 2 < List.length (zsort l))%nat) by (apply Nat.div_lt; lia).
  destruct (Nat.even (List.length (zsort l))); rewrite !nth_shift by lia; lia.
Qed.
Lemma round_half_shift m n : exists n', n - 1 <= n' <= n + 1 /\ (Z.even n = true -> n' = n) /\ round_half (m + 2 * n) = round_half m + n'.
Proof.
  unfold round_half. replace (Z.even (m + 2 * n)) with (Z.even m) by (rewrite Z.even_add, Z.even_mul; cbn; now destruct (Z.even m)).
  replace (m + 2 * n) with (m + n * 2) by lia. rewrite Z_div_plus_full by lia.
  destruct (Z.even m); [exists n; lia|]. rewrite Z.even_add. destruct (Z.even (m / 2)), (Z.even n) eqn:En; cbn [Bool.eqb].
  - exists n. lia.
  - exists (n + 1). split; [lia|]. split; [discriminate|lia].
  - exists n. lia.
  - exists (n - 1). split; [lia|]. split; [discriminate|lia].
Qed.
Lemma repeats_near c n n' : repeats c n -> (Z.even n = true -> n' = n) -> repeats c n'.
Proof.
  intros [k E] H. destruct c; cbn [cycle] in E; try (exists n'; cbn; lia).
  - rewrite H; [exists k; exact E|]. rewrite E. rewrite Z.even_mul. cbn. now destruct (Z.even k).
  - rewrite H; [exists k; exact E|]. rewrite E. rewrite Z.even_mul. cbn. now destruct (Z.even k).
Qed.
Lemma median2_low l b : l <> [] -> (forall y, In y l -> b <= y) -> 2 * b <= median2 l.
Proof.
  intros H B. assert (Q : forall k, (k < List.length l)%nat -> b <= nth k (zsort l) 0).
  { intros k Hk. apply B. apply (Permutation_in _ (Permutation_sym (zsort_perm l))). apply nth_In. rewrite zsort_length. auto. }
  assert (L : (0 < List.length l)%nat) by (destruct l; [congruence|cbn; lia]).
  assert (L1 : (List.length l / 2 < List.length l)%nat) by (apply Nat.div_lt; lia).
  unfold median2. cbv zeta. rewrite zsort_length. pose proof (Q _ L1). pose proof (Q (List.length l / 2 - 1)%nat ltac:(lia)).
  destruct (Nat.even (List.length l)); lia.
Qed.
Lemma round_half_low m b : 2 * b <= m -> b <= round_half m.
Proof. intros H. unfold round_half. destruct (Z.even m); [lia|]. destruct (Z.even (m / 2)); lia. Qed.

Section Clim.
  Context {T : Type} {N : Num T}.
  Variables (c : cal) (infer_freq : list time -> bool) (empty_exc : exc) (n : Z).
  Hypothesis R : repeats c n.
  Hypothesis I : forall ts, infer_freq (map (later n) ts) = infer_freq ts.
  Notation smp := (list (time * frame T)).

  Lemma parse_shift f y k n' : match f with Quarter _ | Year => False | _ => True end -> repeats c n' -> 1000 <= y -> 1000 <= y + n' ->
    parse c f (y + n') k = rmap (fun p => p + cper c n' f) (parse c f y k).
  Proof.
    intros F R' H H'. assert (Q : forall m, mnum (y + n') m = mnum y m + 12 * n') by (intros; unfold mnum; lia).
    unfold parse. destruct (Z.ltb_spec (y + n') 1000), (Z.ltb_spec y 1000); try lia.
    destruct f; try contradiction; cbv zeta; rewrite ?mlen_later by exact R'; cbn [cper].
    - destruct (mlen c y (k / 10000) <? k / 100 mod 100); [reflexivity|]. cbn [rmap]. rewrite Q, mstart_later by exact R'. f_equal. lia.
    - destruct (mlen c y (k / 100) <? k mod 100); [reflexivity|]. cbn [rmap]. rewrite Q, mstart_later by exact R'. f_equal. lia.
    - cbn [rmap]. now rewrite Q.
  Qed.

  Lemma clim_later (x : input T) : four_digits (samples (inp x)) -> four_digits (moved n (samples (inp x))) ->
    exists n', n - 1 <= n' <= n + 1 /\ (Z.even n = true -> n' = n) /\ forall freq custom td,
      climatology_average c infer_freq empty_exc (moved_input n x) freq custom td =
      rmap (moved_out n') (climatology_average c infer_freq empty_exc x freq custom td).
  Proof using R I.
    intros H4 H4'. set (xs := samples (inp x)) in *.
    destruct (round_half_shift (median2 (map yr (map fst xs))) n) as (n' & B & Ev & RH).
    exists n'. split; [exact B|]. split; [exact Ev|]. intros freq custom td. pose proof (repeats_near c n n' R Ev) as R'.
    unfold climatology_average. destruct (clim_freq freq) as [f|] eqn:Ef; [|reflexivity]. cbn [oget bind]. rewrite time_info_later.
    destruct (time_info x td) as [nm|]; [|reflexivity]. cbn [bind moved_input inp samples width]. cbv zeta. fold xs.
    rewrite moved_fst, check_uniform_later by auto.
    destruct (check_uniform c infer_freq (map fst xs)) as [u|] eqn:Eu; [|reflexivity]. cbn [bind].
    destruct (String.eqb freq "season").
    - destruct (negb _); [reflexivity|].
      rewrite (mapM_ext' _ (fun s => do ms <- oget KeyError (find_season s) ;; do fr <- season_mean c empty_exc f (width (inp x)) ms xs ;; Ok (s, fr))).
      + destruct (mapM _ _); reflexivity.
      + intros s. destruct (find_season s); [|reflexivity]. cbn [oget bind]. now rewrite season_mean_later.
    - assert (NE : xs <> []) by (intros Q; rewrite Q in Eu; discriminate).
      replace (map (fun s : time * frame T => yr (fst s)) (moved n xs)) with (map (fun p => p + n) (map yr (map fst xs)))
        by (unfold moved; rewrite !map_map; reflexivity).
      replace (map (fun s : time * frame T => yr (fst s)) xs) with (map yr (map fst xs)) by (now rewrite map_map).
      assert (NE' : map yr (map fst xs) <> []) by (intros Q; apply NE; apply map_eq_nil in Q; apply map_eq_nil in Q; exact Q).
      rewrite keys_later, median2_shift, RH by exact NE'.
      assert (Y : 1000 <= round_half (median2 (map yr (map fst xs)))).
      { apply round_half_low. apply (median2_low _ 1000 NE'). intros y Hy. rewrite map_map in Hy. apply in_map_iff in Hy. destruct Hy as (s & <- & Hs). apply H4. exact Hs. }
      assert (Y' : 1000 <= round_half (median2 (map yr (map fst xs))) + n').
      { rewrite <- RH, <- median2_shift by exact NE'. apply round_half_low. apply median2_low.
        - intros Q. apply NE'. apply map_eq_nil in Q. exact Q.
        - intros y Hy. rewrite !map_map in Hy. apply in_map_iff in Hy. destruct Hy as (s & <- & Hs).
          apply (H4' (later n (fst s), snd s)). apply in_map_iff. exists s. auto. }
      revert Y Y'. generalize (round_half (median2 (map yr (map fst xs)))). intros y Y Y'.
      rewrite (map_ext (fun k => mean_of (having (key f) k (moved n xs))) (fun k => mean_of (having (key f) k xs))).
      2: { intros k. rewrite (having_later n (key f) (key f) k k) by (intros; now rewrite key_later). apply mean_later. }
      assert (F : match f with Quarter _ | Year => False | _ => True end).
      { unfold clim_freq in Ef. repeat (destruct (String.eqb freq _); [injection Ef as <-; exact Logic.I|]). discriminate. }
      destruct (keys (key f) (map fst xs)) as [|k ks]; [reflexivity|].
      rewrite !(parse_shift f y _ n' F R' Y Y'). destruct (parse c f y k) as [a|]; [|reflexivity]. cbn [rmap bind].
      destruct (parse c f y (last (k :: ks) k)) as [b|]; [|reflexivity]. cbn [rmap bind].
      rewrite center_later by exact R'. destruct (center c f a b _); reflexivity.
  Qed.

  Lemma sums_later n' (g : smp) k : map (fun r => snd r k) (moved n' g) = map (fun r => snd r k) g.
  Proof. unfold moved. now rewrite map_map. Qed.
  Lemma group_later n' (g : smp) (t : time) (v : frame T) :
    match moved n' g with [] => Err KeyError | e :: g' => Ok (later n t, subtract v (fun k => nansum (map (fun r => snd r k) (e :: g')))) end =
    rmap (fun s => (later n (fst s), snd s)) (match g with [] => Err KeyError | e :: g' => Ok (t, subtract v (fun k => nansum (map (fun r => snd r k) (e :: g')))) end).
  Proof.
    destruct g as [|a g]; [reflexivity|].
    change (Ok (later n t, subtract v (fun k => nansum (map (fun r => snd r k) (moved n' (a :: g))))) =
            Ok (later n t, subtract v (fun k => nansum (map (fun r => snd r k) (a :: g))))).
    do 2 f_equal. apply functional_extensionality. intros j. unfold subtract. now rewrite sums_later.
  Qed.
  Lemma season_not_times (x : input T) custom td l : climatology_average c infer_freq empty_exc x "season" custom td <> Ok (Times l).
  Proof.
    unfold climatology_average. cbn [clim_freq String.eqb Ascii.eqb Bool.eqb andb oget bind]. destruct (time_info x td); [|discriminate]. cbn [bind]. cbv zeta.
    destruct (check_uniform _ _ _); [|discriminate]. cbn [bind]. destruct (negb _); [discriminate|]. destruct (mapM _ _); discriminate.
  Qed.
  Lemma anom_later (x : input T) freq td : four_digits (samples (inp x)) -> four_digits (moved n (samples (inp x))) ->
    climate_anomaly c infer_freq empty_exc (moved_input n x) freq td = rmap (moved n) (climate_anomaly c infer_freq empty_exc x freq td).
  Proof using R I.
    intros H4 H4'. destruct (clim_later x H4 H4') as (n' & _ & _ & E).
    unfold climate_anomaly. rewrite time_info_later. destruct (time_info x td) as [nm|]; [|reflexivity]. cbn [bind].
    destruct (negb (String.eqb freq "day" || _ || _ || _)) eqn:Eg; [reflexivity|]. cbv zeta. cbn [moved_input inp samples].
    change (mkIn (mkSer (width (inp x)) (moved n (samples (inp x)))) (lookup x) (cf_time x)) with (moved_input n x).
    destruct (String.eqb freq "year") eqn:Ey.
    - apply String.eqb_eq in Ey. subst freq. rewrite (calendar_later c infer_freq n R I). destruct (calendar_average c infer_freq x "year" (Some nm)) as [l|]; [|reflexivity]. cbn [rmap bind].
      unfold moved at 2. rewrite mapM_map. cbn [fst snd].
      rewrite (mapM_ext' _ (fun s => rmap (fun s => (later n (fst s), snd s))
          (match having (anom_key "year") (anom_key "year" (fst s)) l with [] => Err KeyError | g => Ok (fst s, subtract (snd s) (fun k => nansum (map (fun r => snd r k) g))) end))).
      + apply mapM_rmap.
      + intros s. rewrite (having_later n (anom_key "year") (anom_key "year") (anom_key "year" (fst s)) (anom_key "year" (later n (fst s)))).
        * exact (group_later n (having (anom_key "year") (anom_key "year" (fst s)) l) (fst s) (snd s)).
        * intros t. unfold anom_key. cbn [String.eqb Ascii.eqb Bool.eqb andb yr later].
          destruct (Z.eqb_spec (yr t mod 100) (yr (fst s) mod 100)), (Z.eqb_spec ((yr t + n) mod 100) ((yr (fst s) + n) mod 100)); try reflexivity; exfalso; lia.
    - rewrite E. destruct (climatology_average c infer_freq empty_exc x freq [] (Some nm)) as [[l|l]|] eqn:Ec; [| |reflexivity]; cbn [rmap bind moved_out].
      + unfold moved at 2. rewrite mapM_map. cbn [fst snd].
        rewrite (mapM_ext' _ (fun s => rmap (fun s => (later n (fst s), snd s))
          (match having (anom_key freq) (anom_key freq (fst s)) l with [] => Err KeyError | g => Ok (fst s, subtract (snd s) (fun k => nansum (map (fun r => snd r k) g))) end))).
        * apply mapM_rmap.
        * assert (K : forall m t, anom_key freq (later m t) = anom_key freq t).
          { intros m t. unfold anom_key. destruct (String.eqb freq "day"); [reflexivity|]. destruct (String.eqb freq "month"); [reflexivity|].
            destruct (String.eqb freq "season") eqn:Es; [|discriminate].
            apply String.eqb_eq in Es. subst freq. exfalso. exact (season_not_times _ _ _ _ Ec). }
          intros s. rewrite K. rewrite (having_later n' (anom_key freq) (anom_key freq) (anom_key freq (fst s)) (anom_key freq (fst s))) by (intros; now rewrite K).
          exact (group_later n' (having (anom_key freq) (anom_key freq (fst s)) l) (fst s) (snd s)).
      + unfold moved at 1. rewrite mapM_map. cbn [fst snd].
        rewrite (mapM_ext' _ (fun s => rmap (fun s => (later n (fst s), snd s))
          (do fr <- oget KeyError (option_map snd (find (fun p => String.eqb (fst p) (season_name (fst s))) l)) ;; Ok (fst s, subtract (snd s) fr)))).
        * apply mapM_rmap.
        * intros s. change (season_name (later n (fst s))) with (season_name (fst s)).
          destruct (find _ l); reflexivity.
  Qed.
End Clim.

Lemma four_all {A} (l : list (time * A)) : Forall (fun s => 1000 <= yr (fst s)) l -> four_digits l.
Proof. intros H s Hs. exact (proj1 (Forall_forall _ _) H s Hs). Qed.
