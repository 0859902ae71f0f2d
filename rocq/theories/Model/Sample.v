(** Model of /repo/droplets/sample.py (without angles) and /repo/strata/sample_average.py.

    A FlowData object is its records (bins) and its information; fields are functions of a bin.
    An unknown label raises ValueError, as numpy does for unknown fields. *)
From Coq Require Import String.
From Verif.Base Require Import QcX Res Np Sort Sums.
From Verif.Model Require Import Bins Flow.
Local Open Scope list_scope.

(** ** droplets/sample.py *)
(** flow.py:355-364 [sort], called at sample.py:154: by Y, then X, then the other fields in the order of
    sample_average.py:115 (they do not matter for bins at different places). *)
Definition pos_key (b : bin) : list Qc := [bY b; bX b; bU b; bV b; bM b; bN b; bT b].
Definition pos_le (a b : bin) : bool := lexle (pos_key a) (pos_key b).
Definition sort_bins (data : list bin) : list bin := isort pos_le data.

(** [np.gradient(f, h, edge_order=2)] along one axis of length n, for three or more points and h not 0. *)
Definition gradient2 (f : nat -> Qc) (n : nat) (h : Qc) (k : nat) : Qc :=
  if Nat.eqb k 0 then (Q2Qc (- 3 # 2) * f 0%nat + Q2Qc 2 * f 1%nat - Q2Qc (1 # 2) * f 2%nat) / h
  else if Nat.eqb k (n - 1) then (Q2Qc (1 # 2) * f (n - 3)%nat - Q2Qc 2 * f (n - 2)%nat + Q2Qc (3 # 2) * f (n - 1)%nat) / h
  else (f (k + 1)%nat - f (k - 1)%nat) / (Q2Qc 2 * h).

(** sample.py:163-164. *)
Definition dissipation (mu dudx dudy dvdx dvdy : Qc) : Qc :=
  Q2Qc 2 * mu * (dudx * dudx + dvdy * dvdy - (dudx + dvdy) * (dudx + dvdy) / Q2Qc 3) + mu * ((dvdx + dudy) * (dvdx + dudy)).
(** sample.py:111-166 [sample_viscous_dissipation]: the records of the object after the call, and the
    flattened result.  [w] is the field [weight_label] or 1 for None; it must not be 0.
    Negative numbers in the shape are taken as an error (numpy allows one -1). *)
Definition sample_viscous_dissipation (data : list bin) (fi : finfo) (mu : Qc) (w : bin -> Qc) : list bin * res (list Qc) :=
  match f_shape fi, f_spacing fi with
  | Some (nx, ny), Some (dx, dy) =>
    let s := sort_bins data in
    let nx := Z.to_nat nx in let ny := Z.to_nat ny in
    (s, if negb (Nat.eqb (length s) (ny * nx)) then Err ValueErr
        else if (Nat.ltb nx 3 || Nat.ltb ny 3)%bool then Err ValueErr
        else
          let at_ j i := nth (j * nx + i) s bin0 in
          let ddx (F : bin -> Qc) j i := gradient2 (fun k => F (at_ j k) * w (at_ j k)) nx dx i in
          let ddy (F : bin -> Qc) j i := gradient2 (fun k => F (at_ k i) * w (at_ k i)) ny dy j in
          Ok (grid ny nx (fun j i =>
            dissipation mu (ddx bU j i) (ddy bU j i) (ddx bV j i) (ddy bV j i) / (w (at_ j i) * w (at_ j i)))))
  | _, _ => (data, Err ValueErr)
  end.

(** sample.py:169-187 [sample_center_of_mass]. *)
Definition sample_center_of_mass (data : list bin) : res (Qc * Qc) :=
  do x <- np_average (map bX data) (map bM data);
  do y <- np_average (map bY data) (map bM data);
  Ok (x, y).
(** sample.py:190-205 [sample_inertial_energy]. *)
Definition sample_inertial_energy (data : list bin) : list Qc :=
  map (fun b => Q2Qc (1 # 2) * bM b * (bU b * bU b + bV b * bV b)) data.

(** ** strata/sample_average.py *)
Inductive label := LField (f : bin -> Qc) | LInertial | LVisc | LAngle | LSlip | LUnknown.
(** A sampled value: [Number v var] with the variance ([np.std] squared) if given; [AngleOf u v] is
    [np.degrees(np.arctan2(v, u))] (sample.py:208-262) of the sums of the weighted flow. *)
Inductive sampled := Number (v : ext) (var : option ext) | AngleOf (u v : Qc).

(** [np.mean] and [np.std] squared; nan for no values. *)
Definition mean_of (l : list Qc) : ext := match l with [] => NaN | _ => Fin (qmean l) end.
Definition variance (l : list Qc) : Qc := qmean (map (fun x => (x - qmean l) * (x - qmean l)) l).
Definition var_of (l : list Qc) : ext := match l with [] => NaN | _ => Fin (variance l) end.

(** The cutoff label: none, a field, or one which does not exist. *)
Inductive clabel := CNone | CField (f : bin -> Qc) | CUnknown.
(** sample_average.py:189-198: which records are used.  An unknown label raises ValueError at 191 or 194:
    the except clause for KeyError is never reached. *)
Definition selection (data : list bin) (cutoff : option Qc) (cl : clabel) : res (bin -> bool) :=
  match cl with
  | CNone => Ok (fun _ => true)
  | CUnknown => Err ValueErr
  | CField f =>
    do c <- match cutoff with
            | Some c => Ok c
            | None => match list_max (map f data), list_min (map f data) with
                      | Some hi, Some lo => Ok (Q2Qc (1 # 2) * (hi + lo))
                      | _, _ => Err ValueErr
                      end
            end;
    Ok (fun b => qle c (f b))
  end.
(** Elements of [l] for which the record at the same place is selected: [sample_data[inds]]. *)
Definition pick {A} (sel : bin -> bool) (data : list bin) (l : list A) : list A :=
  map snd (filter (fun p => sel (fst p)) (combine data l)).
(** sample_average.py:173-219 [sample_value]: records afterwards, result. *)
Definition sample_value (data : list bin) (fi : finfo) (l : label) (cutoff : option Qc) (cl : clabel) (sum : bool) (mu : Qc) : list bin * res sampled :=
  let (data', values) := match l with
    | LInertial => (data, Ok (sample_inertial_energy data))
    | LVisc => sample_viscous_dissipation data fi mu (fun _ => 1)
    | LField f => (data, Ok (map f data))
    | LAngle => (data, Ok (map (fun _ => 0) data))
    | LSlip | LUnknown => (data, Err ValueErr)
    end in
  (data', do vs <- values;
          do sel <- selection data' cutoff cl;
          match l with
          | LAngle =>
            if sum then Err ValueErr
            else let bs := filter sel data' in
                 Ok (AngleOf (qsum (map (fun b => bU b * bM b) bs)) (qsum (map (fun b => bV b * bM b) bs)))
          | _ =>
            let used := pick sel data' vs in
            if sum then Ok (Number (Fin (qsum used)) None)
            else Ok (Number (mean_of used) (Some (var_of used)))
          end).

(** [scipy.stats.linregress(us, ys)]: the intercept.  If all [us] are the same newer versions raise
    ValueError (older ones give nan). *)
Definition intercept (us ys : list Qc) : res Qc :=
  let um := qmean us in let ym := qmean ys in
  let suu := qsum (map (fun u => (u - um) * (u - um)) us) in
  let suy := qsum (map (fun p => (fst p - um) * (snd p - ym)) (combine us ys)) in
  if qeq suu 0 then Err ValueErr else Ok (ym - suy / suu * um).
(** sample_average.py:222-244 [sample_slip_length]: the records in columns of [ny]. *)
Definition columns (data : list bin) (nx ny : nat) : list (list bin) :=
  map (fun i => map (fun j => nth (i * ny + j) data bin0) (seq 0 ny)) (seq 0 nx).
Definition sample_slip_length (data : list bin) (fi : finfo) (floor : Qc) : res sampled :=
  match f_shape fi with
  | None => Err TypeErr
  | Some (nx, ny) =>
    let nx := Z.to_nat nx in let ny := Z.to_nat ny in
    if negb (Nat.eqb (length data) (nx * ny)) then Err ValueErr
    else
      do slips <- rmapM (fun c => do b <- intercept (map bU c) (map bY c); Ok (- (b - floor))) (columns data nx ny);
      Ok (Number (mean_of slips) (Some (var_of slips)))
  end.

(** sample_average.py:120-136: all labels for one file, in order; any exception ends the sampling and
    None is returned ([Err] here). *)
Fixpoint sample_labels (data : list bin) (fi : finfo) (ls : list label) (cutoff : option Qc) (cl : clabel) (sum : bool) (mu floor : Qc) : res (list sampled) :=
  match ls with
  | [] => Ok []
  | l :: ls =>
    let (data', v) := match l with
      | LSlip => (data, sample_slip_length data fi floor)
      | _ => sample_value data fi l cutoff cl sum mu
      end in
    do v <- v;
    do vs <- sample_labels data' fi ls cutoff cl sum mu floor;
    Ok (v :: vs)
  end.
(** sample_average.py:115: the record of the FlowData object, as a table. *)
Definition fields : list string := ["X"; "Y"; "U"; "V"; "M"; "N"; "T"]%string.
Definition row_of (b : bin) : list Qc := [bX b; bY b; bU b; bV b; bM b; bN b; bT b].
Definition bin_of (r : list Qc) : bin := mkBin (col 0 r) (col 1 r) (col 5 r) (col 6 r) (col 4 r) (col 2 r) (col 3 r).
Definition flow_of (data : list bin) (fi : finfo) : flow := mkFlow (mkTable fields (map row_of data)) fi.
(** sample_average.py:93-95,117-118: [flow.cut] if any limit is set. *)
Definition no_limit (l : option Qc * option Qc) : bool := match l with (None, None) => true | _ => false end.
Definition limited (xlim ylim : option Qc * option Qc) (data : list bin) (fi : finfo) : res (list bin * finfo) :=
  if (no_limit xlim && no_limit ylim)%bool then Ok (data, fi)
  else do f <- cut xlim ylim (flow_of data fi); Ok (map bin_of (rows (Flow.data f)), info f).
(** sample_average.py:114-136: a failing cut is an exception, a failing label ends the sampling with None. *)
Fixpoint sample_files (files : list (list bin * finfo)) (xlim ylim : option Qc * option Qc) (ls : list label) (cutoff : option Qc) (cl : clabel) (sum : bool) (mu floor : Qc)
    : res (option (list (list sampled))) :=
  match files with
  | [] => Ok (Some [])
  | f :: fs =>
    do g <- limited xlim ylim (fst f) (snd f);
    match sample_labels (fst g) (snd g) ls cutoff cl sum mu floor with
    | Err _ => Ok None
    | Ok v => do r <- sample_files fs xlim ylim ls cutoff cl sum mu floor; Ok (option_map (cons v) r)
    end
  end.
(** sample_average.py:13-170 [sample_average_files] for files which are read as the given maps: times and
    the values of each label.  The output file and printing are not modelled.
    Without labels [sampled_values[0]] (line 157) raises IndexError. *)
Definition sample_average_files (files : list (list bin * finfo)) (ls : list label) (dt : Qc) (xlim ylim : option Qc * option Qc) (cutoff : option Qc) (cl : clabel) (sum : bool) (mu floor : Qc)
    : res (option (list Qc * list (list sampled))) :=
  do r <- sample_files files xlim ylim ls cutoff cl sum mu floor;
  match r with
  | None => Ok None
  | Some vs =>
    match ls with
    | [] => Err IndexErr
    | _ => Ok (Some (map (fun i => NQ i * dt) (seq 0 (length files)),
                     map (fun j => map (fun v => nth j v (AngleOf 0 0)) vs) (seq 0 (length ls))))
    end
  end.
