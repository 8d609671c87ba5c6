(** Public theorems on meteorology in binary64 arithmetic: the same model, instantiated with IEEE 754 numbers (numpy float64). *)
From Coq Require Import Reals List Bool Arith ZArith Lra Lia String.
From Flocq Require Import Core BinarySingleNaN.
From Verif Require Import PyBase Num NumFacts NumB64 Arr ArrFacts XrFacts Spec SpecMeteo SpecB64 B64Facts RelhumFacts Meteo MeteoApi2 B64Relhum.
Import ListNotations.
Local Open Scope R_scope.

Ltac lit := apply ofZ_exact; apply Z.leb_le; reflexivity.

(** C98.  relhum in double precision.  [E] is the function the table stands for (C30).  For temperatures other than NaN, infinities
    included, the call never fails; where mixing ratio and pressure are below 2^500 in magnitude the result is a number, at least the
    double 0.0001; and where the mixing ratio is not negative and the pressure not below the saturation vapour pressure it is within
    a factor 1 +- 2^-41 of the exact humidity. *)
Theorem C98_binary64_humidity :
  forall (M : libm) (E : R -> R) (t w p : arr b64) r,
  table_function E -> @relhum_call b64 (NumB M) t w p r -> (forall i, inb (shp t) i -> is_nan (get t i) = false) ->
  exists out, r = Ok out /\ shp out = shp t /\
    forall i a b, inb (shp t) i -> is (get w i) a -> is (get p i) b -> Rabs a <= bpow radix2 500 -> Rabs b <= bpow radix2 500 ->
      exists v, is (get out i) v /\ rn 0.0001 <= v /\
        forall x, temperature_is (get t i) x -> 0 <= a -> E x <= b ->
          Rabs (v - humidity (E x) a b) <= bpow radix2 (-41) * humidity (E x) a b.
Proof. exact b64_relhum. Qed.
Print Assumptions C98_binary64_humidity.

(** C98.  At the same temperature, moister or at higher pressure is at least as humid, to the last bit *)
Theorem C98_binary64_monotone :
  forall (M : libm) (t t' w w' p p' : arr b64) r r',
  @relhum_call b64 (NumB M) t w p r -> @relhum_call b64 (NumB M) t' w' p' r' -> shp t' = shp t ->
  (forall i, inb (shp t) i -> get t' i = get t i /\ is_nan (get t i) = false) ->
  exists out out', r = Ok out /\ r' = Ok out' /\
    forall i a a' b b', inb (shp t) i -> is (get w i) a -> is (get w' i) a' -> is (get p i) b -> is (get p' i) b' ->
      0 <= a <= a' -> a' <= bpow radix2 500 -> - bpow radix2 500 <= b <= b' -> b' <= bpow radix2 500 ->
      exists v v', is (get out i) v /\ is (get out' i) v' /\ v <= v'.
Proof. exact b64_relhum_mono. Qed.
Print Assumptions C98_binary64_monotone.

(** C98.  One NaN temperature makes the whole call fail *)
Theorem C98_binary64_nan :
  forall (M : libm) (t w p : arr b64) i,
  inb (shp t) i -> is_nan (get t i) = true -> @relhum_np b64 (NumB M) t w p = Err IndexError.
Proof. exact b64_relhum_nan. Qed.
Print Assumptions C98_binary64_nan.

(** two temperatures next to each other: 255.15999999999997 and 255.16 *)
Definition exm_t (warm : bool) : arr b64 := mkArr [1%nat] (fun _ => if warm then b64_dec 25516 2 else binary_normalize 53 1024 _ _ mode_NE 8977644382186372 (-45) false).
Definition exm_w : arr b64 := mkArr [1%nat] (fun _ => b64_dec 1 2).
Definition exm_p : arr b64 := mkArr [1%nat] (fun _ => b64_ofZ 100000).
Lemma exm_w_is : is (get exm_w [0%nat]) (rn (1 / 100)) /\ 0 <= rn (1 / 100) <= 1.
Proof.
  split; [apply (dec_is (mkLibm (fun x => x) (fun x => x) (fun x => x) (fun x => x) (fun x => x) (fun x => x)) 1 2); [apply Z.leb_le; reflexivity|lia]|].
  split; [apply rn_ge_fmt; [apply fmt_0|lra]|apply rn_le_fmt; [apply (fmt_Z 1); apply Z.leb_le; reflexivity|lra]].
Qed.
Lemma p500 : 1000000 <= bpow radix2 500.
Proof. apply Rle_trans with (bpow radix2 30); [change (bpow radix2 30) with 1073741824; lra|apply bpow_le; lia]. Qed.
Example C98_example (M : libm) (warm : bool) :
  table_function Esat /\ @relhum_call b64 (NumB M) (exm_t warm) exm_w exm_p (@relhum_np b64 (NumB M) (exm_t warm) exm_w exm_p) /\
  (forall i, inb (shp (exm_t warm)) i -> is_nan (get (exm_t warm) i) = false) /\ inb (shp (exm_t warm)) [0%nat] /\
  is (get exm_w [0%nat]) (rn (1 / 100)) /\ is (get exm_p [0%nat]) 100000 /\ Rabs (rn (1 / 100)) <= bpow radix2 500 /\ Rabs 100000 <= bpow radix2 500 /\
  temperature_is (get (exm_t warm) [0%nat]) (B2R (get (exm_t warm) [0%nat])) /\ 0 <= rn (1 / 100) /\ Esat (B2R (get (exm_t warm) [0%nat])) <= 100000.
Proof.
  destruct exm_w_is as [W R]. pose proof p500 as P.
  split; [apply Esat_table|]. split; [constructor; reflexivity|]. split; [intros i _; destruct warm; reflexivity|]. split; [repeat constructor|].
  split; [exact W|]. split; [lit|]. split; [rewrite Rabs_pos_eq; lra|]. split; [rewrite Rabs_pos_eq; lra|].
  split; [left; split; [destruct warm; reflexivity|reflexivity]|]. split; [lra|].
  set (y := get (exm_t warm) [0%nat]). assert (Iy : is y (B2R y)) by (split; [destruct warm; reflexivity|reflexivity]).
  assert (L : Bleb y (b64_ofZ 256) = true) by (destruct warm; reflexivity). rewrite (le_is _ _ _ 256 Iy ltac:(lit)) in L. destruct (Rle_bool_spec (B2R y) 256) as [Hy|]; [|discriminate].
  assert (H : B2R y <= 173.16 + INR 100) by (rewrite INR_IZR_INZ; cbn [Z.of_nat Pos.of_succ_nat Pos.succ]; lra).
  pose proof (Esat_mono _ _ H) as Q. rewrite Esat_node in Q by lia. cbn [nth vapour_table] in Q. lra.
Qed.
(** C31's order in temperature fails in double precision: 255.15999999999997 K gives less than the warmer 255.16 K *)
Theorem C98_temperature_order_refuted :
  forall M : libm, exists x x' out out' v v',
  is (get (exm_t false) [0%nat]) x /\ is (get (exm_t true) [0%nat]) x' /\ x < x' /\
  @relhum_np b64 (NumB M) (exm_t false) exm_w exm_p = Ok out /\ @relhum_np b64 (NumB M) (exm_t true) exm_w exm_p = Ok out' /\
  is (get out [0%nat]) v /\ is (get out' [0%nat]) v' /\ v < v'.
Proof.
  intros M. set (y := get (exm_t false) [0%nat]). set (y' := get (exm_t true) [0%nat]).
  assert (Iy : is y (B2R y)) by (split; reflexivity). assert (Iy' : is y' (B2R y')) by (split; reflexivity).
  destruct (@relhum_call_gen b64 (NumB M) (exm_t false) exm_w exm_p _ (fun _ => es_of M y) (call_np (exm_t false) exm_w exm_p eq_refl eq_refl)) as (out & Eo & _ & Go); [intros i _; exact (proj1 (es_of_ok M y eq_refl))|].
  destruct (@relhum_call_gen b64 (NumB M) (exm_t true) exm_w exm_p _ (fun _ => es_of M y') (call_np (exm_t true) exm_w exm_p eq_refl eq_refl)) as (out' & Eo' & _ & Go'); [intros i _; exact (proj1 (es_of_ok M y' eq_refl))|].
  assert (Hi : inb [1%nat] [0%nat]) by repeat constructor. specialize (Go _ Hi). specialize (Go' _ Hi).
  assert (I : is (get out [0%nat]) (B2R (get out [0%nat]))) by (split; [rewrite Go; reflexivity|reflexivity]).
  assert (I' : is (get out' [0%nat]) (B2R (get out' [0%nat]))) by (split; [rewrite Go'; reflexivity|reflexivity]).
  exists (B2R y), (B2R y'), out, out', (B2R (get out [0%nat])), (B2R (get out' [0%nat])).
  split; [exact Iy|]. split; [exact Iy'|]. split.
  { assert (L : Bltb y y' = true) by reflexivity. rewrite (lt_is _ _ _ _ Iy Iy') in L. destruct (Rlt_bool_spec (B2R y) (B2R y')); [auto|discriminate]. }
  split; [exact Eo|]. split; [exact Eo'|]. split; [exact I|]. split; [exact I'|].
  assert (L : Bltb (get out [0%nat]) (get out' [0%nat]) = true) by (rewrite Go, Go'; reflexivity).
  rewrite (lt_is _ _ _ _ I I') in L. destruct (Rlt_bool_spec (B2R (get out [0%nat])) (B2R (get out' [0%nat]))); [auto|discriminate].
Qed.
Print Assumptions C98_temperature_order_refuted.
