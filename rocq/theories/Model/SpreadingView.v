(** Model of /repo/strata/spreading/view.py (scaling, synchronisation) and the selection of points
    in /repo/strata/spreading/fit.py. *)
From Verif.Base Require Import QcX Res Np.
Local Open Scope list_scope.

(** A spreading curve: a pandas Series of radii indexed by time.  Missing values are dropped when
    it is read (view.py:248), names are not modelled. *)
Definition curve := list (Qc * Qc). (* time, radius *)

(** view.py:113-114 [calc_closest_time]: the index of the first smallest element. *)
Definition closest_time (r : Qc) (s : curve) : res Qc :=
  do k <- of_option ValueErr (argmin (map (fun p => qabs (snd p - r)) s));
  Ok (fst (nth k s (0, 0))).
(** view.py:100-121 [sync_time_at_radius]. *)
Definition sync_time_at_radius (data : list curve) (r : Qc) : res (list curve) :=
  do ts <- rmapM (closest_time r) data;
  do t0 <- of_option ValueErr (list_min ts);
  rmapM (fun s => do t <- closest_time r s; Ok (map (fun p => (fst p - (t - t0), snd p)) s)) data.

(** view.py:150-155; for a factor 0 the values are infinite (theorems require nonzero factors). *)
Definition scale_series (tau R : Qc) (s : curve) : curve := map (fun p => (fst p / tau, snd p / R)) s.
(** [np.broadcast] of a list of data with two factors: a number or a list of one element is
    repeated. *)
Definition factor := list Qc. (* a number is the list with this element *)
Definition bc_length (ns : list nat) : res nat :=
  let others := filter (fun n => negb (Nat.eqb n 1)) ns in
  match others with
  | [] => Ok 1%nat
  | n :: rest => if forallb (Nat.eqb n) rest then Ok n else Err TypeErr
  end.
Definition bc_nth {A} (l : list A) (d : A) (k : nat) : A := if Nat.eqb (length l) 1 then nth 0 l d else nth k l d.
(** view.py:124-167 [scale_spreading_data]. *)
Definition scale_spreading_data (data : list curve) (tau R : factor) : res (list curve) :=
  do n <- bc_length [length data; length tau; length R];
  Ok (map (fun k => scale_series (bc_nth tau 1 k) (bc_nth R 1 k) (bc_nth data [] k)) (seq 0 n)).
(** view.py:68-97 [combine_spreading_data]. *)
Definition combine_spreading_data (data : list curve) (sync : option Qc) (tau R : factor) : res (list curve) :=
  do scaled <- scale_spreading_data data tau R;
  match sync with None => Ok scaled | Some r => sync_time_at_radius scaled r end.

(** fit.py:139-159 [get_inds_in_limits]; [None] in place of the limits stands for a value which is not
    a pair of comparable numbers, and an empty series has no smallest time: all elements in both
    cases, as when no time is within the limits. *)
Definition get_inds_in_limits (s : curve) (lims : option (option Qc * option Qc)) : list bool :=
  let all := map (fun _ => true) s in
  match lims with
  | None => all
  | Some (lo, hi) =>
    match match lo with Some x => Some x | None => list_min (map fst s) end,
          match hi with Some x => Some x | None => list_max (map fst s) end with
    | Some xmin, Some xmax =>
      let inds := map (fun p => (qle xmin (fst p) && qle (fst p) xmax)%bool) s in
      if existsb (fun b => b) inds then inds else all
    | _, _ => all
    end
  end.
Definition chosen {A} (mask : list bool) (l : list A) : list A := map snd (filter fst (combine mask l)).
(** fit.py:83-88: the points used by the fit, of which the logarithms are taken. *)
Definition fit_points (s : curve) (lims : option (option Qc * option Qc)) : curve :=
  chosen (map (fun p => (fst p && qlt 0 (fst (snd p)))%bool) (combine (get_inds_in_limits s lims) s)) s.
(** fit.py:125-131: the times for which the fitted curve is given. *)
Definition fitted_times (s : curve) (lims : option (option Qc * option Qc)) : list Qc :=
  map fst (chosen (get_inds_in_limits s lims) s).
