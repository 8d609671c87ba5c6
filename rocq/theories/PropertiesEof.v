(** C56, C57, C80-C83: the EOF functions.  The solver class (constructor [mk] and methods) is arbitrary throughout.
    [del k s] is the list s without its k-th entry, [ins k t i] the list i with t inserted at position k.
    [prepared a k d] (EofFacts.v) says that d is the array a with axis k moved to the front and named time. *)
From Coq Require Import Reals List Bool Arith ZArith Lia String.
From Verif Require Import PyBase Num Arr ArrFacts Hybrid Pearson Eof EofFacts EofLabels.
Import ListNotations.
Local Open Scope string_scope.
Local Open Scope list_scope.
Local Open Scope nat_scope.

(** C56.  For every array and every axis 0 <= k < ndim the solver receives the array with time first: entry (t, rest) is
    the original entry with t inserted at position k.  Weights and options are passed on unchanged. *)
Theorem C56_time_first :
  forall (T : Type) (N : Num T) (Sv W : Type) (mk : da T -> option W -> bool -> Z -> res Sv),
  let gen := generate Sv W mk in
  forall a k,
  (k < ndim a)%nat -> exists d, prepared a k d /\
    forall w c dd, gen (ENd a) (Z.of_nat k) w c dd = (do s <- mk d w c dd ;; Ok (d, s)).
Proof. intros. eapply generate_array; eauto. Qed.
Print Assumptions C56_time_first.


(** C56.  The EOFs come back as the solver computed them and axis i of the input keeps the name dim_i. *)
Theorem C56_eofs_labels :
  forall (T : Type) (N : Num T) (Sv W : Type) (mk : da T -> option W -> bool -> Z -> res Sv) (s_eofs : Sv -> Z -> Z -> res (arr T)) (s_eig : Sv -> Z -> arr T) (s_north : Sv -> Z -> bool -> arr T) (s_total : Sv -> arr T) (s_frac : Sv -> Z -> arr T),
  let gen := generate Sv W mk in let eofs := eofunc_eofs Sv W mk s_eofs s_eig s_north s_total s_frac in
  forall a k neofs sc w c dd vf d s e m,
  (k < ndim a)%nat -> prepared a k d -> gen (ENd a) (Z.of_nat k) w c dd = Ok (d, s) ->
    (0 < neofs)%Z -> s_eofs s neofs sc = Ok e -> shp e = m :: tl (shp (dat d)) ->
    exists out, fst (eofs (ENd a) neofs (Z.of_nat k) sc w c dd vf false) = Ok out /\
      odat out = e /\ odims out = "eof" :: map dimname (del k (seq 0 (ndim a))) /\ shp e = m :: del k (shp a) /\
      map fst (oattrs out) = ["eigenvalues"; "northTest"; "totalAnomalyVariance"; "varianceFraction"].
Proof. intros. eapply eofs_array; eauto. Qed.
Print Assumptions C56_eofs_labels.


(** C56.  The principal components come back transposed: rows are components, columns are times. *)
Theorem C56_pcs :
  forall (T : Type) (N : Num T) (Sv W : Type) (mk : da T -> option W -> bool -> Z -> res Sv) (s_pcs : Sv -> Z -> Z -> res (arr T)),
  let gen := generate Sv W mk in let pcs := eofunc_pcs Sv W mk s_pcs in
  forall a k npcs sc w c dd d s p m nt,
  (k < ndim a)%nat -> prepared a k d -> gen (ENd a) (Z.of_nat k) w c dd = Ok (d, s) ->
    mk d w c dd = Ok s -> (0 < npcs)%Z -> s_pcs s npcs sc = Ok p -> shp p = [nt; m] ->
    exists out, pcs (ENd a) npcs (Z.of_nat k) sc w c dd false = Ok out /\ odims out = ["pc"; "time"] /\ ocoords out = [] /\ oattrs out = [] /\
      shp (odat out) = [m; nt] /\ forall t j, get (odat out) [j; t] = get p [t; j].
Proof. intros. eapply pcs_array; eauto. Qed.
Print Assumptions C56_pcs.


(** C56.  A time_dim outside [0, ndim) raises ValueError (in particular outside [-ndim, ndim)) ... *)
Theorem C56_eofs_time_dim_range :
  forall (T : Type) (N : Num T) (Sv W : Type) (mk : da T -> option W -> bool -> Z -> res Sv) (s_eofs : Sv -> Z -> Z -> res (arr T)) (s_eig : Sv -> Z -> arr T) (s_north : Sv -> Z -> bool -> arr T) (s_total : Sv -> arr T) (s_frac : Sv -> Z -> arr T),
  let eofs := eofunc_eofs Sv W mk s_eofs s_eig s_north s_total s_frac in
  forall a neofs k sc w c dd vf meta,
  (k < 0 \/ Z.of_nat (ndim a) <= k)%Z -> fst (eofs (ENd a) neofs k sc w c dd vf meta) = Err ValueError.
Proof. intros. eapply eofs_out_of_range; eauto. Qed.
Print Assumptions C56_eofs_time_dim_range.


(** C56.  ... in both functions. *)
Theorem C56_pcs_time_dim_range :
  forall (T : Type) (N : Num T) (Sv W : Type) (mk : da T -> option W -> bool -> Z -> res Sv) (s_pcs : Sv -> Z -> Z -> res (arr T)),
  let pcs := eofunc_pcs Sv W mk s_pcs in
  forall a npcs k sc w c dd meta,
  (k < 0 \/ Z.of_nat (ndim a) <= k)%Z -> pcs (ENd a) npcs k sc w c dd meta = Err ValueError.
Proof. intros. eapply pcs_out_of_range; eauto. Qed.
Print Assumptions C56_pcs_time_dim_range.


(** C56.  A mode count that is not positive raises ValueError ... *)
Theorem C56_eofs_count :
  forall (T : Type) (N : Num T) (Sv W : Type) (mk : da T -> option W -> bool -> Z -> res Sv) (s_eofs : Sv -> Z -> Z -> res (arr T)) (s_eig : Sv -> Z -> arr T) (s_north : Sv -> Z -> bool -> arr T) (s_total : Sv -> arr T) (s_frac : Sv -> Z -> arr T),
  let gen := generate Sv W mk in let eofs := eofunc_eofs Sv W mk s_eofs s_eig s_north s_total s_frac in
  forall data neofs k sc w c dd vf meta p,
  gen data k w c dd = Ok p -> (neofs <= 0)%Z -> fst (eofs data neofs k sc w c dd vf meta) = Err ValueError.
Proof. intros. eapply eofs_count; eauto. Qed.
Print Assumptions C56_eofs_count.


(** C56.  ... in both functions. *)
Theorem C56_pcs_count :
  forall (T : Type) (N : Num T) (Sv W : Type) (mk : da T -> option W -> bool -> Z -> res Sv) (s_pcs : Sv -> Z -> Z -> res (arr T)),
  let gen := generate Sv W mk in let pcs := eofunc_pcs Sv W mk s_pcs in
  forall data npcs k sc w c dd meta p,
  gen data k w c dd = Ok p -> (npcs <= 0)%Z -> pcs data npcs k sc w c dd meta = Err ValueError.
Proof. intros. eapply pcs_count; eauto. Qed.
Print Assumptions C56_pcs_count.

(** a solver that accepts everything and returns the data it was given *)
Definition ex_solver (d : da Z) (w : option unit) (c : bool) (dd : Z) : res (da Z) := Ok d.
Definition ex_eofs (s : da Z) (n sc : Z) : res (arr Z) := Ok (mkArr (Z.to_nat n :: tl (shp (dat s))) (fun i => get (dat s) i)).
Definition ex_a : arr Z := mkArr [3; 4; 5] (fun i => Z.of_nat (nth 0 i 0 * 100 + nth 1 i 0 * 10 + nth 2 i 0)).
Example C56_example : exists d, prepared ex_a 1 d /\ shp (dat d) = [4; 3; 5] /\ get (dat d) [2; 1; 4] = 124%Z /\ dims d = ["time"; "dim_1"; "dim_2"].
Proof.
  exists (mkDa ["time"; "dim_1"; "dim_2"] (mkArr [4; 3; 5] (fun i => match i with t :: r => get ex_a (ins 1 t r) | [] => 0%Z end)) [] [] None).
  split; [|split; [|split]]; [|reflexivity|reflexivity|reflexivity].
  unfold prepared. split; [reflexivity|]. split; [reflexivity|]. split; [reflexivity|]. split; [reflexivity|]. reflexivity.
Qed.


(** C57.  The bound check admits -ndim <= time_dim < 0, but every negative time_dim raises ValueError: the documented -1
    is never accepted. *)
Theorem C57_negative_time_dim_refuted :
  forall (T : Type) (N : Num T) (Sv W : Type) (mk : da T -> option W -> bool -> Z -> res Sv)
    (s_eofs : Sv -> Z -> Z -> res (arr T)) (s_pcs : Sv -> Z -> Z -> res (arr T)) (s_eig : Sv -> Z -> arr T) (s_north : Sv -> Z -> bool -> arr T) (s_total : Sv -> arr T) (s_frac : Sv -> Z -> arr T)
    (a : arr T) (n k sc : Z) (w : option W) (c : bool) (dd : Z) (vf meta : bool), (k < 0)%Z ->
  fst (eofunc_eofs Sv W mk s_eofs s_eig s_north s_total s_frac (ENd a) n k sc w c dd vf meta) = Err ValueError /\
  eofunc_pcs Sv W mk s_pcs (ENd a) n k sc w c dd meta = Err ValueError.
Proof. intros. split; [apply eofs_out_of_range|apply pcs_out_of_range]; auto. Qed.
Print Assumptions C57_negative_time_dim_refuted.
Example C57_example : (-1 < 0)%Z /\ (- Z.of_nat (ndim ex_a) <= -1)%Z.
Proof. cbn. lia. Qed.


(** C56.  eofunc without time_dim takes the last axis as time, whatever container the data came in: the solver receives the
    data with that axis first, and the EOFs carry the other axes in their order under the names dim_0, dim_1, ... *)
Theorem C56_eofunc_time_last :
  forall (T : Type) (N : Num T) (Sv W : Type) (mk : da T -> option W -> bool -> Z -> res Sv) (s_eofs : Sv -> Z -> Z -> res (arr T)) (s_eig : Sv -> Z -> arr T) (s_north : Sv -> Z -> bool -> arr T) (s_total : Sv -> arr T) (s_frac : Sv -> Z -> arr T),
  let old_eofs := eofunc Sv W mk s_eofs s_eig s_north s_total s_frac in
  forall a, (1 <= ndim a)%nat -> exists d, prepared a (ndim a - 1) d /\
    forall data neval s e m,
    asarr data = a -> mk d None true 1%Z = Ok s -> (0 < neval)%Z -> s_eofs s neval 0%Z = Ok e -> shp e = m :: tl (shp (dat d)) ->
    exists out, old_eofs data neval None false = Ok out /\ odat out = e /\
      odims out = "eof" :: map dimname (seq 0 (ndim a - 1)) /\ shp e = m :: firstn (ndim a - 1) (shp a).
Proof. intros. eapply old_eofs_last; eauto. Qed.
Print Assumptions C56_eofunc_time_last.
Example C56_eofunc_example : exists out,
  eofunc (da Z) unit ex_solver ex_eofs (fun _ _ => ex_a) (fun _ _ _ => ex_a) (fun _ => ex_a) (fun _ _ => ex_a) (EDa (mkDa ["time"; "x"; "y"] ex_a [] [] None)) 2 None false = Ok out /\
  odims out = ["eof"; "dim_0"; "dim_1"].
Proof. eexists. split; reflexivity. Qed.


(** C56.  ... and so does eofunc_ts, which computes as many components as evec has rows. *)
Theorem C56_eofunc_ts_time_last :
  forall (T : Type) (N : Num T) (Sv W : Type) (mk : da T -> option W -> bool -> Z -> res Sv) (s_pcs : Sv -> Z -> Z -> res (arr T)),
  let old_pcs := eofunc_ts Sv W mk s_pcs in
  forall a, (1 <= ndim a)%nat -> exists d, prepared a (ndim a - 1) d /\
    forall data evec0 s p m nt,
    asarr data = a -> mk d None true 1%Z = Ok s -> (0 < evec0)%Z -> s_pcs s evec0 0%Z = Ok p -> shp p = [nt; m] ->
    exists out, old_pcs data evec0 None false = Ok out /\ odims out = ["pc"; "time"] /\
      shp (odat out) = [m; nt] /\ forall t j, get (odat out) [j; t] = get p [t; j].
Proof. intros. eapply old_pcs_last; eauto. Qed.
Print Assumptions C56_eofunc_ts_time_last.
Example C56_eofunc_ts_example : exists out,
  eofunc_ts (da fl) unit (fun d _ _ _ => Ok d) (fun s n _ => Ok (mkArr [hd 0 (shp (dat s)); Z.to_nat n] (fun i => get (dat s) i)))
    (ENd (mkArr [3; 4; 5] (fun i => Fin (INR (nth 0 i 0))))) 2 None false = Ok out /\
  shp (odat out) = [2; 5].
Proof. eexists. split; reflexivity. Qed.


(** C80.  With meta=True and an array whose time axis is not the first, eofunc_pcs never returns ... *)
Theorem C80_pcs_meta_fails :
  forall (T : Type) (N : Num T) (Sv W : Type) (mk : da T -> option W -> bool -> Z -> res Sv) (s_pcs : Sv -> Z -> Z -> res (arr T)),
  let pcs := eofunc_pcs Sv W mk s_pcs in
  forall a k npcs sc w c dd,
  (0 < k < ndim a)%nat -> (forall out, pcs (ENd a) npcs (Z.of_nat k) sc w c dd true <> Ok out).
Proof. intros. eapply pcs_array_meta_fails; eauto. Qed.
Print Assumptions C80_pcs_meta_fails.


(** C80.  ... so eofunc_ts with meta=True and its default time_dim never returns for data of rank two or more. *)
Theorem C80_eofunc_ts_meta_fails :
  forall (T : Type) (N : Num T) (Sv W : Type) (mk : da T -> option W -> bool -> Z -> res Sv) (s_pcs : Sv -> Z -> Z -> res (arr T)),
  let old_pcs := eofunc_ts Sv W mk s_pcs in
  forall data evec0,
  (2 <= ndim (asarr data))%nat -> (forall out, old_pcs data evec0 None true <> Ok out).
Proof. intros. eapply old_pcs_meta_fails; eauto. Qed.
Print Assumptions C80_eofunc_ts_meta_fails.


(** C80.  With the time axis first it does, with times numbered from zero. *)
Theorem C80_pcs_meta_leftmost :
  forall (T : Type) (N : Num T) (Sv W : Type) (mk : da T -> option W -> bool -> Z -> res Sv) (s_pcs : Sv -> Z -> Z -> res (arr T)),
  let gen := generate Sv W mk in let pcs := eofunc_pcs Sv W mk s_pcs in
  forall a npcs sc w c dd d s p m nt,
  (0 < ndim a)%nat -> prepared a 0 d -> gen (ENd a) 0%Z w c dd = Ok (d, s) ->
    mk d w c dd = Ok s -> (0 < npcs)%Z -> s_pcs s npcs sc = Ok p -> shp p = [nt; m] -> nt = nth 0 (shp a) 0%nat ->
    exists out, pcs (ENd a) npcs 0%Z sc w c dd true = Ok out /\ odims out = ["pc"; "time"] /\ exists cv, ocoords out = [("time", cv)] /\ shp (cdat cv) = [nt] /\ forall t, get (cdat cv) [t] = ofZ (Z.of_nat t).
Proof. intros. eapply pcs_array_meta_ok; eauto. Qed.
Print Assumptions C80_pcs_meta_leftmost.

Example C80_example : 2 <= ndim (asarr (ENd ex_a)) /\ (0 < 2 < ndim ex_a). Proof. cbn. lia. Qed.


(** C81.  With meta=True and time on axis k > 0 of an array, the first remaining axis, which is axis 0 of the input and not
    time, comes out named time. *)
Theorem C81_meta_time_label_refuted :
  forall (T : Type) (N : Num T) (Sv W : Type) (mk : da T -> option W -> bool -> Z -> res Sv) (s_eofs : Sv -> Z -> Z -> res (arr T)) (s_eig : Sv -> Z -> arr T) (s_north : Sv -> Z -> bool -> arr T) (s_total : Sv -> arr T) (s_frac : Sv -> Z -> arr T),
  let gen := generate Sv W mk in let eofs := eofunc_eofs Sv W mk s_eofs s_eig s_north s_total s_frac in
  forall a k neofs sc w c dd vf d s e m,
  (0 < k < ndim a)%nat -> prepared a k d -> gen (ENd a) (Z.of_nat k) w c dd = Ok (d, s) ->
    (0 < neofs)%Z -> s_eofs s neofs sc = Ok e -> shp e = m :: tl (shp (dat d)) ->
    exists out, fst (eofs (ENd a) neofs (Z.of_nat k) sc w c dd vf true) = Ok out /\
      nth_error (odims out) 1 = Some "time" /\ nth_error (shp (odat out)) 1 = nth_error (shp a) 0.
Proof. intros. eapply eofs_array_meta; eauto. Qed.
Print Assumptions C81_meta_time_label_refuted.

Example C81_example : (0 < 1 < ndim ex_a) /\ exists out, fst (eofunc_eofs (da Z) unit ex_solver ex_eofs (fun _ _ => ex_a) (fun _ _ _ => ex_a) (fun _ => ex_a) (fun _ _ => ex_a) (ENd ex_a) 2 1 0 None true 1 false true) = Ok out /\ odims out = ["eof"; "time"; "dim_2"].
Proof. split; [cbn; lia|]. eexists. split; reflexivity. Qed.


(** C82.  For a DataArray the documented claim that time_dim is ignored is false: with time_dim = k > 0 the axes 1..k of the
    data are returned under the names of the axes before them. *)
Theorem C82_labelled_time_dim_refuted :
  forall (T : Type) (N : Num T) (Sv W : Type) (mk : da T -> option W -> bool -> Z -> res Sv) (s_eofs : Sv -> Z -> Z -> res (arr T)) (s_eig : Sv -> Z -> arr T) (s_north : Sv -> Z -> bool -> arr T) (s_total : Sv -> arr T) (s_frac : Sv -> Z -> arr T),
  let eofs := eofunc_eofs Sv W mk s_eofs s_eig s_north s_total s_frac in
  forall d k neofs sc w c dd vf s e m,
  List.length (dims d) = ndim (dat d) -> (0 < k < ndim (dat d))%nat -> mk d w c dd = Ok s ->
    (0 < neofs)%Z -> s_eofs s neofs sc = Ok e -> shp e = m :: tl (shp (dat d)) ->
    exists out, fst (eofs (EDa d) neofs (Z.of_nat k) sc w c dd vf false) = Ok out /\
      forall j, (1 <= j <= k)%nat -> nth_error (odims out) j = Some (dimname (j - 1)) /\ nth_error (shp (odat out)) j = nth_error (shp (dat d)) j.
Proof. intros. eapply eofs_labelled_position; eauto. Qed.
Print Assumptions C82_labelled_time_dim_refuted.


(** C82.  Any other time_dim outside [0, ndim), for example -1, makes the call fail. *)
Theorem C82_labelled_time_dim_out_of_range :
  forall (T : Type) (N : Num T) (Sv W : Type) (mk : da T -> option W -> bool -> Z -> res Sv) (s_eofs : Sv -> Z -> Z -> res (arr T)) (s_eig : Sv -> Z -> arr T) (s_north : Sv -> Z -> bool -> arr T) (s_total : Sv -> arr T) (s_frac : Sv -> Z -> arr T),
  let eofs := eofunc_eofs Sv W mk s_eofs s_eig s_north s_total s_frac in
  forall d k neofs sc w c dd vf meta s e m,
  (k < 0 \/ Z.of_nat (ndim (dat d)) <= k)%Z -> (0 < ndim (dat d))%nat -> mk d w c dd = Ok s ->
    s_eofs s neofs sc = Ok e -> shp e = m :: tl (shp (dat d)) -> forall out, fst (eofs (EDa d) neofs k sc w c dd vf meta) <> Ok out.
Proof. intros. eapply eofs_labelled_fails; eauto. Qed.
Print Assumptions C82_labelled_time_dim_out_of_range.


(** C94.  With meta=True and a DataArray whose time is the first dimension the EOFs carry the dimensions of the data with time
    replaced by eof, exactly the coordinates other than that of time, and the attributes of the data.  The other coordinates must
    live on the other dimensions (lives_on, EofLabels.v). *)
Theorem C94_labelled_meta :
  forall (T : Type) (N : Num T) (Sv W : Type) (mk : da T -> option W -> bool -> Z -> res Sv) (s_eofs : Sv -> Z -> Z -> res (arr T)) (s_eig : Sv -> Z -> arr T) (s_north : Sv -> Z -> bool -> arr T) (s_total : Sv -> arr T) (s_frac : Sv -> Z -> arr T),
  let eofs := eofunc_eofs Sv W mk s_eofs s_eig s_north s_total s_frac in
  forall (d : da T) x rest n srest,
  dims d = x :: rest -> shp (dat d) = n :: srest -> List.length rest = List.length srest -> NoDup ("eof" :: rest) ->
  forall neofs sc w c dd vf s e m,
  mk d w c dd = Ok s -> (0 < neofs)%Z -> s_eofs s neofs sc = Ok e -> shp e = m :: srest ->
  (forall nm cv, In (nm, cv) (coords d) -> nm <> x -> lives_on rest srest cv) ->
  exists out, fst (eofs (EDa d) neofs 0%Z sc w c dd vf true) = Ok out /\
    odat out = e /\ odims out = "eof" :: rest /\
    (forall nm cv, In (nm, cv) (ocoords out) <-> In (nm, cv) (coords d) /\ nm <> x) /\
    (forall k v, slookup k (attrs d) = Some v -> k <> "eigenvalues" -> k <> "northTest" -> k <> "totalAnomalyVariance" -> k <> "varianceFraction" ->
      slookup k (oattrs out) = Some (AStr v)).
Proof. intros. eapply labelled_ok; eauto. Qed.
Print Assumptions C94_labelled_meta.


(** C94.  If any other coordinate lives on the time dimension (a month or day-of-year coordinate, say) the call fails. *)
Theorem C94_auxiliary_time_coordinate_refuted :
  forall (T : Type) (N : Num T) (Sv W : Type) (mk : da T -> option W -> bool -> Z -> res Sv) (s_eofs : Sv -> Z -> Z -> res (arr T)) (s_eig : Sv -> Z -> arr T) (s_north : Sv -> Z -> bool -> arr T) (s_total : Sv -> arr T) (s_frac : Sv -> Z -> arr T),
  let eofs := eofunc_eofs Sv W mk s_eofs s_eig s_north s_total s_frac in
  forall (d : da T) x rest n srest,
  dims d = x :: rest -> shp (dat d) = n :: srest -> List.length rest = List.length srest ->
  forall neofs sc w c dd vf s e m,
  mk d w c dd = Ok s -> (0 < neofs)%Z -> s_eofs s neofs sc = Ok e -> shp e = m :: srest ->
  forall nm cv,
  In (nm, cv) (coords d) -> nm <> x -> x <> "eof" -> ~ In x rest -> In x (cdims cv) -> List.length (cdims cv) = List.length (shp (cdat cv)) ->
  fst (eofs (EDa d) neofs 0%Z sc w c dd vf true) = Err ValueError.
Proof. intros. eapply labelled_auxiliary; eauto. Qed.
Print Assumptions C94_auxiliary_time_coordinate_refuted.

(** data with coordinates time(time) and lat(x): returned with lat only; with month(time) added: ValueError *)
Definition ex_time : coordv Z := mkCoord ["time"] (mkArr [3] (fun _ => 7%Z)).
Definition ex_lat : coordv Z := mkCoord ["x"] (mkArr [4] (fun _ => 8%Z)).
Definition ex_da (cs : list (string * coordv Z)) : da Z := mkDa ["time"; "x"; "y"] (mkArr [3; 4; 5] (fun _ => 0%Z)) cs [("units", "m")] None.
Definition ex_call (cs : list (string * coordv Z)) :=
  fst (eofunc_eofs (da Z) unit ex_solver ex_eofs (fun _ _ => ex_a) (fun _ _ _ => ex_a) (fun _ => ex_a) (fun _ _ => ex_a) (EDa (ex_da cs)) 2 0 0 None true 1 false true).
Example C94_example :
  (exists out, ex_call [("time", ex_time); ("lat", ex_lat)] = Ok out /\ odims out = ["eof"; "x"; "y"] /\ ocoords out = [("lat", ex_lat)]) /\
  ex_call [("time", ex_time); ("month", ex_time); ("lat", ex_lat)] = Err ValueError.
Proof. split; [eexists; split; [reflexivity|split; reflexivity]|reflexivity]. Qed.


(** C83.  Without meta the attributes of the caller's DataArray are untouched. *)
Theorem C83_attributes_kept :
  forall (T : Type) (N : Num T) (Sv W : Type) (mk : da T -> option W -> bool -> Z -> res Sv) (s_eofs : Sv -> Z -> Z -> res (arr T)) (s_eig : Sv -> Z -> arr T) (s_north : Sv -> Z -> bool -> arr T) (s_total : Sv -> arr T) (s_frac : Sv -> Z -> arr T),
  let eofs := eofunc_eofs Sv W mk s_eofs s_eig s_north s_total s_frac in
  forall data neofs k sc w c dd vf,
  snd (eofs data neofs k sc w c dd vf false) = in_attrs data.
Proof. intros. eapply eofs_attrs_untouched; eauto. Qed.
Print Assumptions C83_attributes_kept.


(** C83.  With meta=True the four result attributes are written into the caller's own DataArray. *)
Theorem C83_attributes_changed_refuted :
  forall (T : Type) (N : Num T) (Sv W : Type) (mk : da T -> option W -> bool -> Z -> res Sv) (s_eofs : Sv -> Z -> Z -> res (arr T)) (s_eig : Sv -> Z -> arr T) (s_north : Sv -> Z -> bool -> arr T) (s_total : Sv -> arr T) (s_frac : Sv -> Z -> arr T),
  let eofs := eofunc_eofs Sv W mk s_eofs s_eig s_north s_total s_frac in
  forall d neofs k sc w c dd vf s e,
  mk d w c dd = Ok s -> (0 < neofs)%Z -> s_eofs s neofs sc = Ok e ->
    let after := snd (eofs (EDa d) neofs k sc w c dd vf true) in
    slookup "eigenvalues" after = Some (AArr (s_eig s neofs)) /\ slookup "northTest" after = Some (AArr (s_north s neofs vf)) /\
    slookup "totalAnomalyVariance" after = Some (AArr (s_total s)) /\ slookup "varianceFraction" after = Some (AArr (s_frac s neofs)).
Proof. intros. eapply eofs_attrs_changed; eauto. Qed.
Print Assumptions C83_attributes_changed_refuted.

Definition ex_d : da R := mkDa ["time"; "x"; "y"] (mkArr [3; 4; 5] (fun _ => 0%R)) [] [("units", "m")] None.
Definition ex_mk (d : da R) (w : option unit) (c : bool) (dd : Z) : res (da R) := Ok d.
Example C82_example : (0 < 2 < ndim (dat ex_d)) /\ ex_mk ex_d None true 1 = Ok ex_d. Proof. cbn. split; [lia|reflexivity]. Qed.

