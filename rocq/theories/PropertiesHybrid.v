(** C07-C11, C67: hybrid-level pressures and layer thicknesses. *)
From Coq Require Import Reals List Bool Arith ZArith Lra Lia String.
From Verif Require Import PyBase Num NumFacts Arr ArrFacts XrFacts Spec Hybrid HybridFacts HybridProps HybridCoord.
Import ListNotations.
Local Open Scope R_scope.

(** C07.  DataArray inputs (also subclass instances).  [psfc] of any rank with distinct dimension
    names not including the level name; level labels, when both coefficient arrays carry them, must
    agree (xarray would otherwise intersect them).  The flag is the renaming warning. *)
Theorem C07_hybrid_pressure_formula :
  forall (vp va vb : val fl) psfc hya hyb p0 la lb n,
  as_da vp = Some psfc -> as_da va = Some hya -> as_da vb = Some hyb ->
  dims hya = [la] -> dims hyb = [lb] -> shp (dat hya) = [n] -> shp (dat hyb) = [n] ->
  wf_da psfc -> ~ In la (dims psfc) -> slookup la (coords psfc) = None ->
  wf_coords hyb -> (la <> lb -> slookup la (coords hyb) = None) ->
  same_labels (index_labels hya la) (index_labels hyb lb) ->
  exists r, pressure_at_hybrid_levels vp va vb p0 = Ok (negb (String.eqb la lb), VDa r) /\
    dims r = la :: dims psfc /\ shp (dat r) = n :: shp (dat psfc) /\
    forall k idx, List.length idx = List.length (dims psfc) ->
      get (dat r) (k :: idx) = nadd (nmul (get (dat hya) [k]) p0) (nmul (get (dat hyb) [k]) (get (dat psfc) idx)).
Proof. exact (@c07_lemma fl NumFl). Qed.
Print Assumptions C07_hybrid_pressure_formula.

(** a (time, lat) surface field, two levels with differently named level dimensions *)
Definition ex_ps : da fl :=
  mkDa ["time"; "lat"]%string (mkArr [2; 3]%nat (fun i => Fin (INR (900 + 10 * hd 0%nat i + nth 1 i 0%nat)))) [] [] None.
Definition ex_co (d : string) (f : nat -> R) : da fl := mkDa [d] (mkArr [2]%nat (fun i => Fin (f (hd 0%nat i)))) [] [] None.
Example C07_example :
  let a := ex_co "lev" INR in let b := ex_co "ilev" INR in
  dims a = ["lev"%string] /\ wf_da ex_ps /\ ~ In "lev"%string (dims ex_ps) /\ wf_coords b /\
  same_labels (index_labels a "lev") (index_labels b "ilev").
Proof.
  cbn. repeat split; auto.
  - repeat constructor; cbn; intuition discriminate.
  - intuition discriminate.
  - intros c [].
Qed.

(** C08.  Which argument combinations are rejected, and how. *)
Theorem C08_hybrid_pressure_type_error :
  forall psfc hya hyb p0,
  pressure_at_hybrid_levels psfc hya hyb p0 = Err TypeError <->
  ~ all_of numpy_arg psfc hya hyb /\ ~ all_of xarray_arg psfc hya hyb.
Proof. exact c08_type. Qed.
Print Assumptions C08_hybrid_pressure_type_error.

Theorem C08_hybrid_pressure_value_error :
  forall psfc hya hyb p0,
  all_of numpy_arg psfc hya hyb \/ all_of xarray_arg psfc hya hyb ->
  vshape hya <> vshape hyb \/ (numpy_arg hya /\ (1 < List.length (vshape hya))%nat) ->
  pressure_at_hybrid_levels psfc hya hyb p0 = Err ValueError.
Proof. exact c08_shape. Qed.
Print Assumptions C08_hybrid_pressure_value_error.

Theorem C08_hybrid_pressure_no_other_error :
  forall psfc hya hyb p0 e,
  pressure_at_hybrid_levels psfc hya hyb p0 = Err e -> e = TypeError \/ e = ValueError.
Proof. exact c08_value. Qed.
Print Assumptions C08_hybrid_pressure_no_other_error.

Example C08_example :
  let a := vec NaN [Fin 0; Fin 1] in
  pressure_at_hybrid_levels (VDa ex_ps) (VNd a) (VNd a) (Fin 1000) = Err TypeError /\
  all_of numpy_arg (VNd (scalar (Fin 1))) (VNd a) (VNd (vec NaN [Fin 0])) /\
  vshape (VNd a) <> vshape (VNd (vec NaN [Fin 0])).
Proof. cbn. repeat split; auto. discriminate. Qed.

(** C09.  numpy, surface field of rank at most 2 ([np_shape2]/[np_cell] pad the missing leading
    axes): right.  Rank 3: either a broadcasting failure, or time step k is paired with level k. *)
Theorem C09_numpy_hybrid_pressure_rank2 :
  forall (psfc hya hyb : arr fl) p0 n,
  shp hya = [n] -> shp hyb = [n] -> (ndim psfc <= 2)%nat ->
  exists r, pressure_at_hybrid_levels (VNd psfc) (VNd hya) (VNd hyb) p0 = Ok (false, VNd r) /\
    shp r = n :: np_shape2 psfc /\
    forall k i j, inb (n :: np_shape2 psfc) [k; i; j] ->
      get r [k; i; j] = nadd (nmul (get hya [k]) p0) (nmul (get hyb [k]) (np_cell psfc i j)).
Proof. exact (@c09_lemma fl NumFl). Qed.
Print Assumptions C09_numpy_hybrid_pressure_rank2.

Theorem C09_numpy_hybrid_pressure_rank3_mispaired :
  forall psfc hya hyb p0 n nt x y,
  shp hya = [n] -> shp hyb = [n] -> shp psfc = [nt; x; y] ->
  (n <> nt -> n <> 1%nat -> nt <> 1%nat ->
     pressure_at_hybrid_levels (VNd psfc) (VNd hya) (VNd hyb) p0 = Err ValueError) /\
  (n = nt -> exists r, pressure_at_hybrid_levels (VNd psfc) (VNd hya) (VNd hyb) p0 = Ok (false, VNd r) /\
     shp r = [n; x; y] /\
     forall k i j, inb [n; x; y] [k; i; j] ->
       get r [k; i; j] = nadd (nmul (get hya [k]) p0) (nmul (get hyb [k]) (get psfc [k; i; j]))).
Proof. exact c09_rank3. Qed.
Print Assumptions C09_numpy_hybrid_pressure_rank3_mispaired.

Example C09_example :
  let a := vec NaN [Fin 0; Fin 1] in let p := mkArr [3; 4]%nat (fun _ => Fin 1000) in
  shp a = [2%nat] /\ (ndim p <= 2)%nat /\ np_shape2 p = [3; 4]%nat /\
  shp (mkArr [2; 3; 4]%nat (fun _ => Fin 1000)) = [2; 3; 4]%nat.
Proof. cbn. auto. Qed.

(** C10.  numpy surface pressure (coefficients numpy or DataArray) *)
Theorem C10_numpy_layer_thickness :
  forall (ps : arr fl) va vb hya hyb p0 n,
  vvalues va = hya -> vvalues vb = hyb -> exact_type va = true -> exact_type vb = true -> is_nd va = is_nd vb ->
  shp hya = [n] -> shp hyb = [n] -> (ndim ps <= 2)%nat ->
  exists r, delta_pressure_hybrid (VNd ps) va vb true p0 = Ok (VNd r) /\
    shp r = (n - 1)%nat :: np_shape2 ps /\
    forall k i j, inb ((n - 1)%nat :: np_shape2 ps) [k; i; j] ->
      get r [k; i; j] = nabs (nsub (hybp hya hyb p0 k (np_cell ps i j)) (hybp hya hyb p0 (S k) (np_cell ps i j))).
Proof. exact (@c10_np fl NumFl). Qed.
Print Assumptions C10_numpy_layer_thickness.

(** DataArray surface pressure of any rank; coefficients carry at most their level coordinate *)
Theorem C10_labelled_layer_thickness :
  forall (ps : da fl) va vb hya hyb p0 la lb n,
  vda va = hya -> vda vb = hyb -> exact_type va = true -> exact_type vb = true -> is_nd va = is_nd vb ->
  dims hya = [la] -> dims hyb = [lb] -> shp (dat hya) = [n] -> shp (dat hyb) = [n] ->
  (List.length (coords hya) <= 1)%nat -> (List.length (coords hyb) <= 1)%nat ->
  wf_da ps -> ~ In la (dims ps) -> slookup la (coords ps) = None -> labels_refl ps ->
  exists r, delta_pressure_hybrid (VDa ps) va vb true p0 = Ok (VDa r) /\
    dims r = la :: dims ps /\ shp (dat r) = (n - 1)%nat :: shp (dat ps) /\ coords r = coords ps /\
    (attrs r = [("long_name", "pressure layer thickness"); ("units", "Pa")] /\ daname r = Some "dph")%string /\
    forall k idx, (k < n - 1)%nat -> List.length idx = List.length (dims ps) ->
      get (dat r) (k :: idx)
      = nabs (nsub (hybp (dat hya) (dat hyb) p0 k (get (dat ps) idx))
                   (hybp (dat hya) (dat hyb) p0 (S k) (get (dat ps) idx))).
Proof. exact (@c10_xr fl NumFl). Qed.
Print Assumptions C10_labelled_layer_thickness.

(** one column with finite hybrid pressures P: non-negative, and a monotone column telescopes *)
Theorem C10_column_telescopes :
  forall ps va vb hya hyb p0 la lb n idx (P : nat -> R),
  vda va = hya -> vda vb = hyb -> exact_type va = true -> exact_type vb = true -> is_nd va = is_nd vb ->
  dims hya = [la] -> dims hyb = [lb] -> shp (dat hya) = [n] -> shp (dat hyb) = [n] ->
  (List.length (coords hya) <= 1)%nat -> (List.length (coords hyb) <= 1)%nat ->
  wf_da ps -> ~ In la (dims ps) -> slookup la (coords ps) = None -> labels_refl ps ->
  List.length idx = List.length (dims ps) -> (1 <= n)%nat ->
  (forall k, (k < n)%nat ->
     nadd (nmul p0 (get (dat hya) [k])) (nmul (get (dat hyb) [k]) (get (dat ps) idx)) = Fin (P k)) ->
  exists r, delta_pressure_hybrid (VDa ps) va vb true p0 = Ok (VDa r) /\
    (forall k, (k < n - 1)%nat -> exists d, get (dat r) (k :: idx) = Fin d /\ 0 <= d /\ d = Rabs (P (S k) - P k)) /\
    ((forall k, (k < n - 1)%nat -> P k <= P (S k)) \/ (forall k, (k < n - 1)%nat -> P (S k) <= P k) ->
     sum_finite (map (fun k => get (dat r) (k :: idx)) (seq 0 (n - 1))) = Rabs (P (n - 1)%nat - P 0%nat)).
Proof. exact c10_column. Qed.
Print Assumptions C10_column_telescopes.

Example C10_example :
  let a := ex_co "lev" (fun k => INR k) in let b := ex_co "lev" (fun k => INR k) in
  vda (VDa a) = a /\ exact_type (VDa a) = true /\ (List.length (coords a) <= 1)%nat /\
  slookup "lev"%string (coords ex_ps) = None /\ labels_refl ex_ps /\
  (forall k, (k < 2)%nat ->
     nadd (nmul (Fin 1000) (get (dat a) [k])) (nmul (get (dat b) [k]) (get (dat ex_ps) [1; 2]%nat))
     = Fin (INR k * (1000 + INR 912))).
Proof.
  cbv zeta. split; [reflexivity|]. split; [reflexivity|]. split; [cbn; lia|]. split; [reflexivity|]. split.
  - intros d l H. discriminate.
  - intros k Hk. cbn [get dat ex_co ex_ps hd nth nadd nmul NumFl fl_add fl_mul Nat.add Nat.mul].
    f_equal. ring.
Qed.

(** C11.  [exact_nd_or_da] excludes subclasses: the code compares types exactly. *)
Theorem C11_layer_thickness_type_error :
  forall ps hya hyb p0_ok p0,
  delta_pressure_hybrid ps hya hyb p0_ok p0 = Err TypeError <->
  ~ (exact_nd_or_da ps /\ p0_ok = true /\ same_kind hya hyb).
Proof. exact c11_type. Qed.
Print Assumptions C11_layer_thickness_type_error.

Theorem C11_layer_thickness_value_error :
  forall ps hya hyb p0,
  exact_nd_or_da ps -> same_kind hya hyb ->
  vshape hya <> vshape hyb \/ (1 < List.length (vshape hya))%nat ->
  delta_pressure_hybrid ps hya hyb true p0 = Err ValueError.
Proof. exact c11_shape. Qed.
Print Assumptions C11_layer_thickness_value_error.

Example C11_example :
  let a := vec NaN [Fin 0; Fin 1] in
  exact_nd_or_da (VDa ex_ps) /\ same_kind (VNd a) (VNd a) /\
  ~ (exact_nd_or_da (VSubDa ex_ps) /\ true = true /\ same_kind (VNd a) (VNd a)) /\
  vshape (VNd a) <> vshape (VNd (vec NaN [Fin 0])).
Proof. cbn. repeat split; auto; [tauto|discriminate]. Qed.

(** C67.  The code removes only the first listed coordinate of hya and hyb.  When the labelled level
    coordinate comes second (a scalar time coordinate before it, say), the two shifted slices are
    aligned by label: the result has n-2 instead of n-1 levels, and every entry is |x - x|. *)
Theorem C67_level_coordinate_not_first_refuted :
  forall ps hya hyb p0 l n L ca cb,
  dims hya = [l] -> dims hyb = [l] -> shp (dat hya) = [n] -> shp (dat hyb) = [n] -> (2 <= n)%nat ->
  coords hya = [ca; lev_coord l n L] -> coords hyb = [cb; lev_coord l n L] ->
  (forall i j, (i < n)%nat -> (j < n)%nat -> L i = L j -> i = j) ->
  wf_da ps -> ~ In l (dims ps) -> coords ps = [] ->
  exists r, delta_pressure_hybrid (VDa ps) (VDa hya) (VDa hyb) true p0 = Ok (VDa r) /\
    dims r = l :: dims ps /\ shp (dat r) = (n - 2)%nat :: shp (dat ps) /\
    forall k idx, (k < n - 2)%nat -> List.length idx = List.length (dims ps) ->
      let p := hybp (dat hya) (dat hyb) p0 (S k) (get (dat ps) idx) in
      get (dat r) (k :: idx) = nabs (nsub p p).
Proof. exact c67_lemma. Qed.
Print Assumptions C67_level_coordinate_not_first_refuted.

Example C67_example :
  let t := ("time"%string, mkCoord [] (scalar (Fin 0))) in
  let a := mkDa ["lev"%string] (mkArr [3]%nat (fun i => Fin (INR (hd 0%nat i)))) [t; lev_coord "lev" 3 INR] [] None in
  dims a = ["lev"%string] /\ coords a = [t; lev_coord "lev" 3 INR] /\
  (forall i j, (i < 3)%nat -> (j < 3)%nat -> INR i = INR j -> i = j) /\ wf_da ex_ps.
Proof.
  cbv zeta. split; [reflexivity|]. split; [reflexivity|]. split.
  - intros i j _ _. apply INR_eq.
  - repeat constructor; cbn; intuition discriminate.
Qed.
