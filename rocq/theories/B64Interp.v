(** interp_hybrid_to_pressure in binary64. *)
From Coq Require Import Reals List Bool Arith ZArith Lra Lia String Permutation.
From Flocq Require Import Core BinarySingleNaN.
From Verif Require Import PyBase PyFacts Num NumFacts NumB64 Arr ArrFacts XrFacts Spec SpecSum SpecB64 B64Facts B64DeltaP B64Hybrid B64Blend
  Hybrid HybridFacts Interp1d Interp1dFacts Interp1dGen InterpHyb ChunkFacts InterpHybFacts InterpApi.
Import ListNotations.
Local Open Scope R_scope.

(** the value of a binary64 number *)
Definition toFl (x : b64) : fl :=
  match x with B754_nan => NaN | B754_infinity true => NInf | B754_infinity false => PInf | _ => Fin (B2R x) end.
Lemma toFl_is x r : is x r -> toFl x = Fin r.
Proof. intros [H <-]. destruct x as [| | |]; try discriminate; reflexivity. Qed.
Lemma toFl_Fin x r : toFl x = Fin r -> is x r.
Proof. destruct x as [s|[]| |]; cbn; intros H; try discriminate; injection H as <-; split; reflexivity. Qed.
Lemma rltb_bool a b : Rlt_bool a b = rltb a b.
Proof. destruct (Rlt_bool_spec a b), (rltb_spec a b); auto; lra. Qed.
Lemma toFl_lt x y : is_nan x = false -> is_nan y = false -> Bltb x y = nlt (toFl x) (toFl y).
Proof.
  intros Hx Hy. destruct (is_finite x) eqn:Fx, (is_finite y) eqn:Fy.
  - assert (Ix : is x (B2R x)) by (split; auto). assert (Iy : is y (B2R y)) by (split; auto).
    rewrite (toFl_is _ _ Ix), (toFl_is _ _ Iy), (lt_is _ _ _ _ Ix Iy), rltb_bool. reflexivity.
  - destruct y as [|[]| |]; try discriminate; destruct x as [sx| | |sx]; try discriminate; cbn; try destruct sx; reflexivity.
  - destruct x as [|[]| |]; try discriminate; destruct y as [sx| | |sx]; try discriminate; cbn; try destruct sx; reflexivity.
  - destruct x as [|[]| |]; try discriminate; destruct y as [|[]| |]; try discriminate; reflexivity.
Qed.
Section B.
  Variable M : libm.
  Local Instance NB : Num b64 := NumB M.
  Lemma toFl_nan x : isnan x = isnan (toFl x).
  Proof. destruct x as [|[]| |]; reflexivity. Qed.
  Lemma toFl_key x y : key_lt x y = key_lt (toFl x) (toFl y).
  Proof.
    unfold key_lt. rewrite <- !toFl_nan. destruct (isnan x) eqn:Ex; auto. destruct (isnan y) eqn:Ey; auto. cbn [orb]. exact (toFl_lt x y Ex Ey).
  Qed.
  Lemma toFl_nlt x y a b : toFl x = Fin a -> toFl y = Fin b -> nlt x y = rltb a b.
  Proof. intros H1 H2. apply toFl_Fin in H1, H2. etransitivity; [exact (lt_is _ _ _ _ H1 H2)|]. apply rltb_bool. Qed.

  Lemma Forall2_toFl l r : Forall2 is l r -> map toFl l = map Fin r.
  Proof. induction 1; cbn; auto. f_equal; auto. apply toFl_is. auto. Qed.

  Lemma formula_is l var i j x xr pa pb a b : is x xr -> is (nth i l nnan) pa -> is (nth j l nnan) pb ->
    is (nth i var nnan) a -> is (nth j var nnan) b -> pa < pb -> pa <= xr <= pb ->
    Rabs pa <= 2 * hi900 -> Rabs pb <= 2 * hi900 -> Rabs a <= hi900 -> Rabs b <= hi900 ->
    is (g_formula l var i j x) (rblend a b pa pb xr).
  Proof.
    intros Ix Ia Ib Va Vb Hp Hx Ba Bb Wa Wb. unfold g_formula, rblend.
    assert (HB : 4 * hi900 <= big) by apply hi_big.
    pose proof (is_fmt _ _ Ix). pose proof (is_fmt _ _ Ia). pose proof (is_fmt _ _ Ib). pose proof (is_fmt _ _ Va). pose proof (is_fmt _ _ Vb).
    apply Rabs_le_inv in Ba, Bb, Wa, Wb.
    assert (Hh : 1 <= hi900) by (change 1 with (bpow radix2 0); apply bpow_le; lia).
    pose proof (quot_range pa pb xr ltac:(auto) ltac:(auto) Hp Hx) as Q. pose proof (w_range pa pb xr ltac:(auto) ltac:(auto) Hp Hx) as Hw.
    pose proof (D_pos pa pb ltac:(auto) ltac:(auto) Hp) as HD.
    assert (F2 : fmt (2 * hi900)). { replace (2 * hi900) with (bpow radix2 901). apply fmt_bpow; lia. change 901%Z with (1 + 900)%Z. rewrite bpow_plus. reflexivity. }
    assert (Ee : Rabs (rn (b - a)) <= 2 * hi900) by (apply rn_abs_le; auto; apply Rabs_le; lra).
    pose proof (t_range a b pa pb xr ltac:(auto) ltac:(auto) Hp Hx) as Ht. apply Rabs_le_inv in Ee.
    assert (I1 : is (nsub (nth j var nnan) (nth i var nnan)) (rn (b - a))) by (apply sub_is; auto; apply Rabs_le; lra).
    assert (I2 : is (nsub x (nth i l nnan)) (rn (xr - pa))) by (apply sub_is; auto; apply Rabs_le; lra).
    assert (I3 : is (nsub (nth j l nnan) (nth i l nnan)) (rn (pb - pa))) by (apply sub_is; auto; apply Rabs_le; lra).
    assert (I4 : is (ndiv (nsub x (nth i l nnan)) (nsub (nth j l nnan) (nth i l nnan))) (rn (rn (xr - pa) / rn (pb - pa)))).
    { apply div_is; auto; [lra|]. rewrite Rabs_pos_eq; lra. }
    apply add_is; auto; [apply mul_is; auto|]; apply Rabs_le; [|destruct Ht; lra].
    assert (- (2 * hi900) <= rn (b - a) * rn (rn (xr - pa) / rn (pb - pa)) <= 2 * hi900) by nra. lra.
  Qed.

  (** one column; P the keys of its levels, X the keys of the requested levels *)
  Lemma b64_interp_col x xr l lr var : Forall2 is x xr -> Forall2 is l lr -> List.length var = List.length lr -> (2 <= List.length lr)%nat -> NoDup lr ->
    x <> [] -> one_direction xr -> (forall k, (k < List.length lr)%nat -> Rabs (nth k lr 0) <= 2 * hi900) ->
    exists r, interp_col x l var = Ok r /\ List.length r = List.length x /\
      forall j, (j < List.length x)%nat -> let p k := nth k lr 0 in let n := List.length lr in let xj := nth j xr 0 in let y := nth j r nnan in
        (out_of_range p n xj -> y = B754_nan) /\
        (~ out_of_range p n xj -> exists i k, code_bracket p n i k xj /\
           forall a b, is (nth i var nnan) a -> is (nth k var nnan) b -> Rabs a <= hi900 -> Rabs b <= hi900 ->
             exists v, is y v /\ good_value a b (p i) (p k) xj v).
  Proof.
    intros Hx Hl Lv Hn Hd Hne Ho Hb.
    destruct (g_col toFl toFl_key toFl_nlt l var lr (Forall2_toFl _ _ Hl) Lv Hn Hd x xr (Forall2_toFl _ _ Hx) Hne Ho) as (r & E & Lr & G).
    exists r. split; auto. split; auto. intros j Hj p n xj y. destruct (G j Hj) as (x0 & H0 & [[Oo Ey]|(i & k & Hc & Ey)]).
    - split; [intros _; exact Ey|]. intros Q. exfalso. apply Q. exact Oo.
    - destruct Hc as ((Hi & Hk & Hik & Hnb) & Hrng & Hlow). split.
      + intros [Q|Q]; [specialize (Q k Hk)|specialize (Q i Hi)]; unfold p in *; fold xj in Hrng; lra.
      + intros _. exists i, k. split; [split; [split; auto|split; auto]|]. intros a b Ia Ib Wa Wb.
        exists (rblend a b (p i) (p k) xj).
        assert (Is : forall q, (q < List.length lr)%nat -> is (nth q l nnan) (nth q lr 0)).
        { intros q Hq. assert (Lq : (q < List.length l)%nat) by (rewrite (Forall2_length Hl); auto).
          clear - Hl Lq. revert q Lq. induction Hl; intros [|q] Lq; cbn in Lq |- *; try lia; auto. apply IHHl. lia. }
        assert (Ii := Is i Hi). assert (Ik := Is k Hk). apply toFl_Fin in H0.
        split; [unfold y; rewrite Ey; apply formula_is; auto; apply Hb; auto|].
        apply blend_good; auto; try (eapply is_fmt; eassumption).
  Qed.

  Lemma vkey_with m x l var : interp_with m x l var = interp_col (map (vkey M m) x) (map (vkey M m) l) var.
  Proof. destruct m; cbn [interp_with vkey]; [rewrite !map_id; reflexivity|reflexivity]. Qed.

  (** the pressure of model level k over a surface pressure, as the code computes it *)
  Definition code_pressure (hyam hybm : da b64) (p0 ps : b64) (k : nat) : b64 :=
    nadd (nmul (get (dat hyam) [k]) p0) (nmul (get (dat hybm) [k]) ps).

  Lemma map_seq_is (f : nat -> b64) (q : nat -> R) n : (forall k, (k < n)%nat -> is (f k) (q k)) -> Forall2 is (map f (seq 0 n)) (map q (seq 0 n)).
  Proof.
    intros H. assert (G : forall s, (forall k, (s <= k < s + n)%nat -> is (f k) (q k)) -> Forall2 is (map f (seq s n)) (map q (seq s n))).
    { clear. induction n as [|n IH]; intros s H; cbn; constructor; [apply H; lia|]. apply IH. intros k Hk. apply H. lia. }
    apply G. intros k Hk. apply H. lia.
  Qed.
  Lemma nth_seq (q : nat -> R) n k : (k < n)%nat -> nth k (map q (seq 0 n)) 0 = q k.
  Proof. intros H. rewrite (nth_indep _ 0 (q 0%nat)) by (rewrite map_length, seq_length; auto). rewrite map_nth, seq_nth by auto. reflexivity. Qed.
  Lemma NoDup_seq (q : nat -> R) n : distinct_levels q n -> NoDup (map q (seq 0 n)).
  Proof.
    intros H. apply (NoDup_nth _ 0). rewrite map_length, seq_length. intros i j Hi Hj E. rewrite !nth_seq in E by auto. apply H; auto.
  Qed.

  Lemma b64_interp data ps hyam hybm l lb ax n levels p0 a m lv : ihp_wf data ps hyam hybm l lb ax n -> (2 <= n)%nat ->
    args_ok a l m -> chunks_ok a (shp (dat data)) -> a_extrapolate a = false -> levels <> [] ->
    Forall2 is (map (vkey M m) levels) lv -> one_direction lv ->
    exists out, interp_hybrid_to_pressure (VDa data) (VDa ps) (VDa hyam) (VDa hybm) levels p0 a = Ok out /\
      dims out = upd (dims data) ax "plev"%string /\ shp (dat out) = upd (shp (dat data)) ax (List.length levels) /\
      forall i, inb (shp (dat out)) i -> forall q, distinct_levels q n ->
        (forall k, (k < n)%nat -> is (vkey M m (code_pressure hyam hybm p0 (surf ps (dims data) i) k)) (q k) /\ Rabs (q k) <= 2 * hi900) ->
        let x := nth (nth ax i 0%nat) lv 0 in let y := get (dat out) i in
        (out_of_range q n x -> y = B754_nan) /\
      (~ out_of_range q n x -> exists lo hi, code_bracket q n lo hi x /\
      forall va vb, is (get (dat data) (upd i ax lo)) va -> is (get (dat data) (upd i ax hi)) vb -> Rabs va <= hi900 -> Rabs vb <= hi900 ->
             exists r, is y r /\ good_value va vb (q lo) (q hi) x r).
  Proof.
    intros W Hn Ha Hck Hex Hlv Hk Hd. destruct (ihp_core data ps hyam hybm l lb ax n levels p0 a m W Hlv Hn Hck) as (pr & out & _ & _ & _ & _ & _ & Do & So & _ & _ & _ & Hv & Ec).
    exists out. split; [rewrite (call_unfold _ _ _ _ _ _ _ _ _ Ha), Ec, Hex by auto; reflexivity|]. split; auto. split; auto.
    intros i Hi q Hq Hkey x y. destruct (Hv i Hi) as (r & Er & Ey). rewrite vkey_with in Er.
    assert (Hin : (nth ax i 0 < List.length levels)%nat).
    { clear - So Hi W. rewrite So in Hi. apply inb_nth in Hi. destruct Hi as [_ Hi].
      assert (Lax : (ax < List.length (shp (dat data)))%nat) by (apply nth_error_Some; rewrite (w_n _ _ _ _ _ _ _ _ W); discriminate).
      specialize (Hi ax). rewrite upd_length in Hi. specialize (Hi Lax). rewrite nth_upd, Nat.eqb_refl in Hi.
      replace (Nat.ltb ax (List.length (shp (dat data)))) with true in Hi by (symmetry; apply Nat.ltb_lt; auto). exact Hi. }
    assert (Hcol : Forall2 is (map (vkey M m) (hyb_col hyam hybm p0 (surf ps (dims data) i) n)) (map q (seq 0 n))).
    { unfold hyb_col. rewrite map_map. apply map_seq_is. intros k Hkn. apply (Hkey k Hkn). }
    destruct (b64_interp_col _ lv _ (map q (seq 0 n)) (col_at (dat data) ax i n) Hk Hcol) as (r' & Er' & Lr & G).
    - unfold col_at. rewrite !map_length. reflexivity.
    - rewrite map_length, seq_length. auto.
    - apply NoDup_seq. auto.
    - intros E. apply map_eq_nil in E. auto.
    - auto.
    - rewrite map_length, seq_length. intros k Hkn. rewrite nth_seq by auto. apply (Hkey k Hkn).
    - rewrite Er' in Er. injection Er as ->. rewrite map_length in Lr, G. specialize (G (nth ax i 0%nat) Hin). cbv zeta in G. rewrite map_length, seq_length in G.
      fold x in G. rewrite <- Ey in G. fold y in G. destruct G as [G1 G2].
      assert (Or : out_of_range (fun k => nth k (map q (seq 0 n)) 0) n x <-> out_of_range q n x).
      { unfold out_of_range. split; (intros [Q|Q]; [left|right]; intros k Hkn; specialize (Q k Hkn); rewrite nth_seq in *; auto). }
      split; [intros Q; apply G1, Or, Q|]. intros Q. destruct G2 as (lo & hi & ((Hlo & Hhi & Hlt & Hnb) & Hr & Hl) & Gv); [intros Z; apply Q, Or, Z|].
      rewrite !nth_seq in * by auto. exists lo, hi. split.
      + split; [split; [auto|split; [auto|split; [auto|]]]|split; auto].
        * intros k Hkn. specialize (Hnb k Hkn). rewrite nth_seq in Hnb; auto.
        * destruct Hl as [Hl|Hl]; auto. right. intros k Hkn. specialize (Hl k Hkn). rewrite nth_seq in Hl; auto.
      + intros va vb Ia Ib. apply Gv; unfold col_at; rewrite (nth_indep _ nnan (get (dat data) (upd i ax 0%nat))) by (rewrite map_length, seq_length; auto);
        rewrite (map_nth (fun k => get (dat data) (upd i ax k))), seq_nth by auto; auto.
  Qed.

  (** the linear method, from the coefficients *)
  Lemma b64_interp_linear data ps hyam hybm l lb ax n levels p0b p0 a lv A B : ihp_wf data ps hyam hybm l lb ax n -> (2 <= n)%nat ->
    args_ok a l MLinear -> chunks_ok a (shp (dat data)) -> a_extrapolate a = false -> levels <> [] ->
    coeffs_are (dat hyam) (dat hybm) A B n -> is p0b p0 ->
    Forall2 is levels lv -> one_direction lv ->
    exists out, interp_hybrid_to_pressure (VDa data) (VDa ps) (VDa hyam) (VDa hybm) levels p0b a = Ok out /\
      dims out = upd (dims data) ax "plev"%string /\ shp (dat out) = upd (shp (dat data)) ax (List.length levels) /\
      forall i s, inb (shp (dat out)) i -> is (surf ps (dims data) i) s -> in_range A B p0 s n ->
        let q k := rhyb (A k) (B k) p0 s in distinct_levels q n ->
        let x := nth (nth ax i 0%nat) lv 0 in let y := get (dat out) i in
        (out_of_range q n x -> y = B754_nan) /\
        (~ out_of_range q n x -> exists lo hi, code_bracket q n lo hi x /\
           forall va vb, is (get (dat data) (upd i ax lo)) va -> is (get (dat data) (upd i ax hi)) vb -> Rabs va <= hi900 -> Rabs vb <= hi900 ->
             exists r, is y r /\ good_value va vb (q lo) (q hi) x r).
  Proof.
    intros W Hn Ha Hck Hex Hlv Hc Hp Hk Hd.
    destruct (b64_interp data ps hyam hybm l lb ax n levels p0b a MLinear lv W Hn Ha Hck Hex Hlv) as (out & E & D & Sh & G); auto.
    { cbn [vkey]. rewrite map_id. auto. }
    exists out. split; auto. split; auto. split; auto. intros i s Hi Hs Hr q Hq. apply G; auto.
    intros k Hkn. destruct (Hc k Hkn) as [H1 H2]. destruct (Hr k Hkn) as [R1 R2]. split; [|apply rhyb_abs; auto].
    cbn [vkey]. apply hyb_is; auto.
  Qed.
End B.
