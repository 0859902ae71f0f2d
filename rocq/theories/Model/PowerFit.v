(** Model of /repo/strata/spreading/fit.py: parameters of the power law. *)
From Coq Require Import Reals.
From Verif.Base Require Import QcX QcR.
From Verif.Model Require Import SpreadingView.
Local Open Scope R_scope.
Local Open Scope list_scope.

(** fit.py:86-87: [np.log10]. *)
Definition log10 (x : R) : R := ln x / ln 10.
(** fit.py:75-81 [func_minimise]: the differences of the logarithms to the line, of which
    [opt.leastsq] minimises the sum of the squares. *)
Definition squares (loga k : R) (pts : curve) : R :=
  fold_right Rplus 0 (map (fun p => Rsqr (log10 (QR (snd p)) - (loga + k * log10 (QR (fst p))))) pts).
(** fit.py:72-97 [fit_series]: [opt.leastsq] is modelled by its purpose, as a relation: its result is a
    point where the sum is smallest (its numerical method, tolerance and failure are not modelled). *)
Definition fit_series (s : curve) (lims : option (option Qc * option Qc)) (a k : R) : Prop :=
  exists loga, (forall loga' k', squares loga k (fit_points s lims) <= squares loga' k' (fit_points s lims)) /\ a = Rpower 10 loga.
(** fit.py:121-133 [get_series]: the fitted values. *)
Definition fitted_series (s : curve) (lims : option (option Qc * option Qc)) (a k : R) : list (R * R) :=
  map (fun t => (QR t, a * Rpower (QR t) k)) (fitted_times s lims).
