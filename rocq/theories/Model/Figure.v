(** Model of /repo/strata/utils.py:291-409 [decorate_graph] and of /repo/strata/view_flowmap.py:287-300 [create_figure]: which options reach the drawing library, and when. *)
From Coq Require Import String Ascii.
From Verif.Base Require Import QcX Res Np Bytes.
From Verif.Model Require Import Click.
From Verif.Model Require Cli.
Import Cli(truthy).
Local Open Scope string_scope.
Local Open Scope list_scope.

(** [dict.pop(k, default)]. *)
Definition get_or (k : string) (v : val) (kw : kwargs) : val := if has k kw then get k kw else v.
(** utils.py:329-335. *)
Definition key_defaults : list (list string * val) :=
  [(["title"; "xlabel"; "ylabel"], VText "");
   (["xlim"; "ylim"; "save_fig"; "axis"; "colormap"; "cbarlabel"; "cbarticks"; "cbarticklabels"], VNone);
   (["show"; "clf"], VBool true);
   (["loglog"; "colorbar"; "legend"; "noaxis"; "transparent"], VBool false);
   (["dpi"], VInt 150)].
(** utils.py:328-342 [pop_figure_kwargs]: the options of the figure, and the other keywords. *)
Definition pop_figure_kwargs (kw : kwargs) : kwargs * kwargs :=
  fold_left (fun acc kd => fold_left (fun '(fargs, kw) k => (fargs ++ [(k, get_or k (snd kd) kw)], del k kw)) (fst kd) acc) key_defaults ([], kw).

(** What is asked of the drawing library.  [Draw]: the decorated function with its keywords. *)
Inductive call :=
| Draw (kw : kwargs) | Title (v : val) | XLabel (v : val) | YLabel (v : val) | LogX | LogY | Axis (v : val) | XLim (v : val) | YLim (v : val) | SetCmap (v : val)
| Colorbar | BarLabel (v : val) | BarTicks (v : val) | BarTickLabels (v : val) | Legend | AxisOff | Tight | Save (path dpi transparent : val) | Show | Clear.
Definition is_none (v : val) : bool := match v with VNone => true | _ => false end.
Definition when (b : bool) (l : list call) : list call := if b then l else [].
(** utils.py:344-405: the calls in their order, if none fails. *)
Definition figure_calls (kw : kwargs) : list call :=
  let '(f, kw) := pop_figure_kwargs kw in
  [Draw kw; Title (get "title" f); XLabel (get "xlabel" f); YLabel (get "ylabel" f)]
  ++ when (truthy (get "loglog" f)) [LogX; LogY]
  ++ when (truthy (get "axis" f)) [Axis (get "axis" f)]
  ++ [XLim (get "xlim" f); YLim (get "ylim" f)]
  ++ when (negb (is_none (get "colormap" f))) [SetCmap (get "colormap" f)]
  ++ when (truthy (get "colorbar" f)) ([Colorbar] ++ when (truthy (get "cbarlabel" f)) [BarLabel (get "cbarlabel" f)]
       ++ when (truthy (get "cbarticks" f)) [BarTicks (get "cbarticks" f)] ++ when (truthy (get "cbarticklabels" f)) [BarTickLabels (get "cbarticklabels" f)])
  ++ when (truthy (get "legend" f)) [Legend]
  ++ when (truthy (get "noaxis" f)) [AxisOff]
  ++ [Tight]
  ++ when (negb (is_none (get "save_fig" f))) [Save (get "save_fig" f) (get "dpi" f) (get "transparent" f)]
  ++ when (truthy (get "show" f)) [Show]
  ++ when (truthy (get "clf" f)) [Clear].
(** The calls are made until one fails; a ValueError of [plt.set_cmap] is caught (361-365).  [lib]: whether a call fails after the ones before it; the result: the calls which were
    made, with the one that failed last, and the exception.  None is returned in the end, whatever the decorated function returns. *)
Fixpoint make_calls (lib : list call -> call -> option exn) (past todo : list call) : list call * option exn :=
  match todo with
  | [] => (past, None)
  | c :: todo =>
    match lib past c with
    | None => make_calls lib (past ++ [c]) todo
    | Some e => match c, e with SetCmap _, ValueErr => make_calls lib (past ++ [c]) todo | _, _ => (past ++ [c], Some e) end
    end
  end.
Definition graph (lib : list call -> call -> option exn) (kw : kwargs) : list call * option exn := make_calls lib [] (figure_calls kw).

(** view_flowmap.py:287-300 [create_figure], called by the decorated functions with their keywords: size in inches and dots per inch.  [kwargs.get('dims')] must be
    two values; numbers which are not finite are not modelled. *)
Definition as_q (v : val) : option Qc := match v with VNum (Fin q) => Some q | VInt z => Some (ZQ z) | _ => None end.
Definition create_figure (kw : kwargs) : res (option (Qc * Qc) * Qc) :=
  match as_q (get_or "dpi" (VInt 300) kw) with
  | None => Err TypeErr
  | Some dpi =>
    match get_or "dims" VNone kw with
    | VTuple [w; h] =>
      match as_q w, as_q h with
      | Some w, Some h => if qeq dpi 0 then Err ZeroDivErr else Ok (Some (w / dpi, h / dpi), dpi)
      | _, _ => Err TypeErr
      end
    | _ => Ok (None, dpi)
    end
  end.
(** A figure of this size saved with [dpi] dots per inch has so many pixels. *)
Definition pixels (size : Qc * Qc) (dpi : Qc) : Qc * Qc := (fst size * dpi, snd size * dpi).
