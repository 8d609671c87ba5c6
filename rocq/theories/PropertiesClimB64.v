(** C139: climatologies in double precision.  [sized], [off], [under], [mean_error], [season_error], [moderate], [records], [rows] and [crows] are in
    SpecClimB64.v.  The binary64 runs use numpy's double arithmetic (NumB64.v), the exact runs real numbers (Num.v). *)
From Coq Require Import Reals List Bool Arith ZArith Lra Lia String.
From Flocq Require Import Core BinarySingleNaN.
From Verif Require Import PyBase Num NumFacts NumB64 SpecB64 B64Facts Calendar Climat SpecUnits SpecClimB64 ClimRel B64Clim SpecClim CalendarFacts ClimFacts ClimApi ClimLong ClimDemo PropertiesClimat PropertiesClimSuper.
Import ListNotations.
Local Open Scope R_scope.

Lemma off_isnan L e M (a : b64) v : off e M a v -> isnan v = @isnan _ (NumB L) a.
Proof. change (@isnan _ (NumB L) a) with (is_nan a). intros [[H ->]|(r & s & H & -> & _)]; [rewrite H; reflexivity|rewrite (nan_is _ _ H); reflexivity]. Qed.
Lemma under_isnan L M (a b : b64) : under M a b -> @isnan _ (NumB L) b = @isnan _ (NumB L) a.
Proof. change (under M a b -> is_nan b = is_nan a). intros [[H ->]|(r & s & H & H' & _)]; [auto|rewrite (nan_is _ _ H), (nan_is _ _ H'); reflexivity]. Qed.

(** C139.  x is a record of at most n binary64 samples of size at most M, y the same record in real numbers.  Both calls raise the same exception or
    return the same dates with gaps at the same places, and every binary64 average is within [mean_error n M] (hours, days, months, month_to_season, daily and monthly
    climatologies) or [season_error n M] (seasons and years) of the exact one. *)
Theorem C139_error :
  forall L c infer_freq empty_exc n M (x : input b64) (y : input fl), moderate n M -> records (sized M) x y -> (List.length (samples (inp x)) <= n)%nat ->
  (forall freq td, freq <> "season"%string -> freq <> "year"%string ->
     outcomes (rows (width (inp x)) (off (mean_error n M) M)) (@calendar_average _ (NumB L) c infer_freq x freq td) (calendar_average c infer_freq y freq td)) /\
  (forall freq td, freq = "season"%string \/ freq = "year"%string ->
     outcomes (rows (width (inp x)) (off (season_error n M) M)) (@calendar_average _ (NumB L) c infer_freq x freq td) (calendar_average c infer_freq y freq td)) /\
  (forall freq custom td, freq <> "season"%string ->
     outcomes (crows (width (inp x)) (off (mean_error n M) M)) (@climatology_average _ (NumB L) c infer_freq empty_exc x freq custom td) (climatology_average c infer_freq empty_exc y freq custom td)) /\
  (forall custom td,
     outcomes (crows (width (inp x)) (off (season_error n M) M)) (@climatology_average _ (NumB L) c infer_freq empty_exc x "season" custom td) (climatology_average c infer_freq empty_exc y "season" custom td)) /\
  (forall season td,
     outcomes (rows (width (inp x)) (off (mean_error n M) M)) (@month_to_season _ (NumB L) c empty_exc x season td) (month_to_season c empty_exc y season td)).
Proof.
  intros L c i e n M x y HM R Hn.
  exact (conj (fun f td H1 H2 => cal_short c i n _ _ (mean_off L n M HM) (off_isnan L _ _) x y R Hn f td H1 H2)
        (conj (fun f td H => cal_long c i n _ _ _ (mean_off L n M HM) (off_isnan L _ _) eq_refl (or_introl (conj eq_refl eq_refl)) (days_off L n M HM) x y R Hn f td H)
        (conj (fun f cu td H => clim_short c i e n _ _ _ (mean_off L n M HM) (days_off L n M HM) x y R Hn f cu td H)
        (conj (fun cu td => clim_long c i e n _ _ _ (mean_off L n M HM) (off_isnan L _ _) eq_refl (days_off L n M HM) x y R Hn cu td)
              (fun s td => m2s_rows c e n _ _ (mean_off L n M HM) x y R Hn s td))))).
Qed.
Print Assumptions C139_error.

(** C139.  The order of records survives rounding: if no value of x exceeds the value of y at the same place and date (same gaps), no binary64 average of x
    exceeds that of y, not even in the last digit. *)
Theorem C139_order :
  forall L c infer_freq empty_exc n M (x y : input b64), moderate n M -> records (under M) x y -> (List.length (samples (inp x)) <= n)%nat ->
  (forall freq td, freq <> "season"%string -> freq <> "year"%string ->
     outcomes (rows (width (inp x)) (under (M + mean_error n M))) (@calendar_average _ (NumB L) c infer_freq x freq td) (@calendar_average _ (NumB L) c infer_freq y freq td)) /\
  (forall freq td, freq = "season"%string \/ freq = "year"%string ->
     outcomes (rows (width (inp x)) (under (M + season_error n M))) (@calendar_average _ (NumB L) c infer_freq x freq td) (@calendar_average _ (NumB L) c infer_freq y freq td)) /\
  (forall freq custom td, freq <> "season"%string ->
     outcomes (crows (width (inp x)) (under (M + mean_error n M))) (@climatology_average _ (NumB L) c infer_freq empty_exc x freq custom td) (@climatology_average _ (NumB L) c infer_freq empty_exc y freq custom td)) /\
  (forall custom td,
     outcomes (crows (width (inp x)) (under (M + season_error n M))) (@climatology_average _ (NumB L) c infer_freq empty_exc x "season" custom td) (@climatology_average _ (NumB L) c infer_freq empty_exc y "season" custom td)) /\
  (forall season td,
     outcomes (rows (width (inp x)) (under (M + mean_error n M))) (@month_to_season _ (NumB L) c empty_exc x season td) (@month_to_season _ (NumB L) c empty_exc y season td)).
Proof.
  intros L c i e n M x y HM R Hn.
  exact (conj (fun f td H1 H2 => cal_short c i n _ _ (mean_under L n M HM) (under_isnan L _) x y R Hn f td H1 H2)
        (conj (fun f td H => cal_long c i n _ _ _ (mean_under L n M HM) (under_isnan L _) eq_refl (or_introl (conj eq_refl eq_refl)) (days_under L n M HM) x y R Hn f td H)
        (conj (fun f cu td H => clim_short c i e n _ _ _ (mean_under L n M HM) (days_under L n M HM) x y R Hn f cu td H)
        (conj (fun cu td => clim_long c i e n _ _ _ (mean_under L n M HM) (under_isnan L _) eq_refl (days_under L n M HM) x y R Hn cu td)
              (fun s td => m2s_rows c e n _ _ (mean_under L n M HM) x y R Hn s td))))).
Qed.
Print Assumptions C139_order.

(** ** constants *)
Definition as_input64 (w : nat) (xs : list (time * (nat -> b64))) : input b64 := mkIn (mkSer w xs) (fun n => if String.eqb n "time" then Some true else None) (Some "time"%string).
Definition tenth : b64 := b64_dec 1 1.
Definition tenths : input b64 := as_input64 1 [(gap_at 0, fun _ => tenth); (gap_at 6, fun _ => tenth); (gap_at 12, fun _ => tenth)].
Section Tenths.
  Variable L : libm.
  Definition thirds (a : b64) (v : fl) : Prop := a = tenth /\ (v = Fin 0 \/ v = Fin 1).
  Definition third (a : b64) (v : fl) : Prop := isnan v = @isnan _ (NumB L) a /\ (v = Fin (1 / 3) -> a = @nanmean _ (NumB L) (repeat tenth 3)).
  Lemma mean_third l l' : Forall2 thirds l l' -> (List.length l <= 3)%nat -> third (@nanmean _ (NumB L) l) (nanmean l').
  Proof.
    intros H Hn. assert (E : l = repeat tenth (List.length l)) by (clear Hn; induction H as [|a v l l' [-> _] _ IH]; cbn [List.length repeat]; congruence).
    assert (E' : exists bs : list bool, l' = map Fin (map (fun b : bool => if b then 1 else 0) bs) /\ List.length bs = List.length l).
    { clear E Hn. induction H as [|a v l l' [_ V] _ (bs & -> & IH)]; [exists []; auto|]. destruct V as [->| ->]; [exists (false :: bs)|exists (true :: bs)]; cbn [map List.length]; auto. }
    destruct E' as (bs & -> & Lb). rewrite E. clear E H. revert Lb Hn. generalize (List.length l). clear l. intros k Lb Hn.
    assert (NM : forall rs, rs <> [] -> nanmean (map Fin rs) = Fin (rsum rs / INR (List.length rs))).
    { intros [|r rs] N0; [congruence|]. rewrite nanmean_present by (apply Forall_forall; intros v Hv; apply in_map_iff in Hv; destruct Hv as (u & <- & _); right; eexists; reflexivity).
      unfold mean_present. assert (V : vals (map Fin (r :: rs)) = r :: rs) by (generalize (r :: rs); induction l as [|u l IH]; [reflexivity|]; cbn [map vals flat_map app]; f_equal; exact IH). rewrite V. reflexivity. }
    destruct bs as [|b1 [|b2 [|b3 [|b4 bs]]]]; cbn [List.length] in Lb; subst k; [split; [reflexivity|discriminate]| | | |cbn in Hn; lia].
    - rewrite NM by discriminate. split; [transitivity false; [reflexivity|vm_compute; reflexivity]|]. intros [= Q]. exfalso. cbn [map rsum List.length INR] in Q. destruct b1; lra.
    - rewrite NM by discriminate. split; [transitivity false; [reflexivity|vm_compute; reflexivity]|]. intros [= Q]. exfalso. cbn [map rsum List.length INR] in Q. destruct b1, b2; lra.
    - rewrite NM by discriminate. split; [transitivity false; [reflexivity|vm_compute; reflexivity]|]. intros _. reflexivity.
  Qed.
  Lemma third_isnan a v : third a v -> isnan v = @isnan _ (NumB L) a. Proof. intros H. apply H. Qed.
End Tenths.
(** C139.  A constant is not reproduced: the mean of 0.1, 0.1 and 0.1 over a day is above 0.1. *)
Theorem C139_constant_refuted :
  forall L, exists out e, (forall s k, In s (samples (inp tenths)) -> snd s k = tenth) /\
    @calendar_average _ (NumB L) Greg regular tenths "day" None = Ok out /\ In e out /\ Bltb tenth (snd e 0%nat) = true.
Proof.
  intros L. destruct (gap_day 1 (Fin 0) (Fin 0) (or_intror (ex_intro _ 0 eq_refl)) (or_intror (ex_intro _ 0 eq_refl))) as (out & e & E & I & _ & V).
  assert (R : records thirds tenths (gap_record (Fin 1) (Fin 0) (Fin 0))).
  { unfold records. split; [reflexivity|]. split; [reflexivity|]. split; [reflexivity|]. unfold rows. cbn [samples inp tenths as_input64 gap_record as_input].
    constructor; [split; [reflexivity|]; intros k _; split; [reflexivity|right; reflexivity]|]. constructor; [split; [reflexivity|]; intros k _; split; [reflexivity|left; reflexivity]|].
    constructor; [split; [reflexivity|]; intros k _; split; [reflexivity|left; reflexivity]|]. constructor. }
  pose proof (cal_short Greg regular 3 thirds (third L) (mean_third L) (third_isnan L) tenths _ R ltac:(cbn; lia) "day" None ltac:(discriminate) ltac:(discriminate)) as H.
  rewrite E in H. destruct (@calendar_average b64 (NumB L) Greg regular tenths "day" None) as [out'|]; [|contradiction]. cbn [outcomes] in H.
  assert (G : exists e', In e' out' /\ third L (snd e' 0%nat) (snd e 0%nat)).
  { clear -H I. unfold rows in H. induction H as [|a b l l' [_ K] _ IH]; [destruct I|]. destruct I as [->|I]; [exists a; split; [left; reflexivity|apply K; cbn; lia]|]. destruct (IH I) as (e' & ? & ?). exists e'. split; [right|]; auto. }
  destruct G as (e' & I' & (_ & T)). exists out', e'. split; [|split; [reflexivity|split; [exact I'|]]].
  - intros s k. cbn [samples inp tenths as_input64 In]. intros [<-|[<-|[<-|[]]]]; reflexivity.
  - rewrite T; [vm_compute; reflexivity|]. rewrite V. unfold mean_present. cbn. f_equal. unfold avg. cbn. field.
Qed.
Print Assumptions C139_constant_refuted.

(** ** the hypotheses are met: 24 months, two elements, values up to 24 *)
Definition monthly64 (v : Z -> nat -> b64) : input b64 := as_input64 2 (map (fun q => (first_of q, v q)) (between (12 * 2020) (12 * (2020 + Z.of_nat 2) - 1))).
Definition ex_z (d q : Z) (k : nat) : Z := (q mod 12 + Z.of_nat (Nat.min k 2) + d)%Z.
Lemma ex_z_size d q k : (0 <= d <= 2)%Z -> (0 <= ex_z d q k <= 16)%Z.
Proof. intros H. unfold ex_z. pose proof (Z.mod_pos_bound q 12 ltac:(lia)). lia. Qed.
Lemma ex_z_is d q k : (0 <= d <= 2)%Z -> is (b64_ofZ (ex_z d q k)) (IZR (ex_z d q k)).
Proof. intros H. apply ofZ_exact. pose proof (ex_z_size d q k H). lia. Qed.
Lemma ex_z_abs d q k : (0 <= d <= 2)%Z -> Rabs (IZR (ex_z d q k)) <= 16.
Proof. intros H. pose proof (ex_z_size d q k H). rewrite <- abs_IZR. apply IZR_le. lia. Qed.
Lemma ex_moderate : moderate 24 16.
Proof.
  unfold moderate. split; [lra|]. replace (INR 24) with 24 by (cbn; lra). pose proof ulp1_inv as E. split.
  - assert (K : 2048 <= bpow radix2 53) by (replace 2048 with (bpow radix2 11) by (cbn; lra); apply bpow_le; lia). pose proof ulp1_pos. nra.
  - apply Rle_trans with (bpow radix2 16); [cbn; lra|apply bpow_le; lia].
Qed.
Lemma rows_map {L A B X} (w : nat) (Q : A -> B -> Prop) (t : X -> L) (f : X -> nat -> A) (g : X -> nat -> B) l : (forall a k, Q (f a k) (g a k)) -> rows w Q (map (fun a => (t a, f a)) l) (map (fun a => (t a, g a)) l).
Proof. intros H. unfold rows. induction l as [|a l IH]; cbn [map]; [constructor|]. apply Forall2_cons; [split; [reflexivity|intros k _; apply H]|exact IH]. Qed.
Lemma ex_len v : (List.length (samples (inp (monthly64 v))) <= 24)%nat.
Proof. unfold monthly64, as_input64. cbn [samples inp]. rewrite map_length. vm_compute. lia. Qed.
Definition ex_y : input fl := as_input 2 (monthly 2020 2 (fun q k => Fin (IZR (ex_z 0 q k)))).
Lemma ex_records : records (sized 16) (monthly64 (fun q k => b64_ofZ (ex_z 0 q k))) ex_y.
Proof.
  unfold records. split; [reflexivity|]. split; [reflexivity|]. split; [reflexivity|]. apply rows_map. intros q k. right. exists (IZR (ex_z 0 q k)). split; [apply ex_z_is; lia|]. split; [reflexivity|]. apply ex_z_abs; lia.
Qed.
Lemma ex_y_ok : exists out, calendar_average Greg regular ex_y "season" None = Ok out.
Proof.
  assert (F : forall q k, exists r, (fun q k => Fin (IZR (ex_z 0 q k))) q k = Fin r) by (intros; eexists; reflexivity).
  assert (V : all_valid Greg (samples (inp ex_y))) by apply monthly_valid.
  assert (T : all_tidy (width (inp ex_y)) (samples (inp ex_y))) by (apply monthly_tidy; intros; right; apply F).
  assert (A : accepted Greg regular ex_y None) by (apply as_input_accepted; [rewrite monthly_length; lia|left; reflexivity]).
  destruct (C59_outcome Greg regular ex_y "season" (Quarter 12) None (or_introl (conj eq_refl eq_refl)) V T ltac:(cbn; lia) A) as (_ & Q).
  apply (Q (first_of 24240, fun k => Fin (IZR (ex_z 0 24240 k)))); [apply (monthly_In 2020 2 (fun q k => Fin (IZR (ex_z 0 q k)))); lia|].
  apply (monthly_complete Greg); [exact F|apply first_valid|]. cbn [fst]. rewrite first_month. lia.
Qed.
Example C139_example_error : forall L, exists out out',
  @calendar_average _ (NumB L) Greg regular (monthly64 (fun q k => b64_ofZ (ex_z 0 q k))) "season" None = Ok out /\ calendar_average Greg regular ex_y "season" None = Ok out' /\ rows 2 (off (season_error 24 16) 16) out out'.
Proof.
  intros L. destruct ex_y_ok as [out' E]. pose proof (proj1 (proj2 (C139_error L Greg regular KeyError 24 16 _ _ ex_moderate ex_records (ex_len _))) "season"%string None (or_introl eq_refl)) as H.
  rewrite E in H. destruct (@calendar_average _ (NumB L) Greg regular (monthly64 (fun q k => b64_ofZ (ex_z 0 q k))) "season" None) as [out|]; [|contradiction]. exists out, out'. auto.
Qed.
(** the bound of the example: seasonal means of two years of months of size 16 are good to eleven decimals *)
Example C139_example_size : season_error 24 16 <= 3 * / 10 ^ 12.
Proof.
  unfold season_error, mean_error. replace (INR 24) with 24 by (cbn; lra). pose proof ulp1_pos. pose proof tiny_pos. pose proof tiny_le. pose proof ulp1_small. pose proof ulp1_inv as E.
  assert (K : ulp1 <= / 10 ^ 15). { apply (Rmult_le_reg_r (bpow radix2 53)); [apply bpow_gt_0|]. rewrite E. change (bpow radix2 53) with (IZR (2 ^ 53)). lra. }
  replace (4 * (24 + 1) * ulp1 * (16 + (2 * (24 + 1) * ulp1 * 16 + tiny))) with (1600 * ulp1 + 80000 * (ulp1 * ulp1) + 100 * (ulp1 * tiny)) by ring.
  assert (U2 : ulp1 * ulp1 <= ulp1 * / 10 ^ 15) by (apply Rmult_le_compat_l; lra). assert (U3 : ulp1 * tiny <= ulp1 * ulp1) by (apply Rmult_le_compat_l; lra). lra.
Qed.
Example C139_example_order : forall L, exists out out',
  @calendar_average _ (NumB L) Greg regular (monthly64 (fun q k => b64_ofZ (ex_z 0 q k))) "season" None = Ok out /\
  @calendar_average _ (NumB L) Greg regular (monthly64 (fun q k => b64_ofZ (ex_z (if Nat.even k then 1 else 0) q k))) "season" None = Ok out' /\ rows 2 (under (16 + season_error 24 16)) out out'.
Proof.
  intros L. destruct (C139_example_error L) as (out & _ & E & _).
  assert (R : records (under 16) (monthly64 (fun q k => b64_ofZ (ex_z 0 q k))) (monthly64 (fun q k => b64_ofZ (ex_z (if Nat.even k then 1 else 0) q k)))).
  { unfold records. split; [reflexivity|]. split; [reflexivity|]. split; [reflexivity|]. apply rows_map. intros q k. right. set (d := if Nat.even k then 1%Z else 0%Z). assert (Hd : (0 <= d <= 2)%Z) by (unfold d; destruct (Nat.even k); lia).
    exists (IZR (ex_z 0 q k)), (IZR (ex_z d q k)). split; [apply ex_z_is; lia|]. split; [apply ex_z_is; lia|]. split; [apply IZR_le; unfold ex_z; lia|]. split; apply ex_z_abs; lia. }
  pose proof (proj1 (proj2 (C139_order L Greg regular KeyError 24 16 _ _ ex_moderate R (ex_len _))) "season"%string None (or_introl eq_refl)) as H.
  rewrite E in H. destruct (@calendar_average _ (NumB L) Greg regular (monthly64 (fun q k => b64_ofZ (ex_z (if Nat.even k then 1 else 0) q k))) "season" None) as [out'|]; [|contradiction]. exists out, out'. auto.
Qed.
