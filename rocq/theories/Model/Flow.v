(** Model of /repo/droplets/flow.py (class FlowData).

    A numpy record array is a list of field names and a list of records; a
    record is modelled as the list of its values in field order.
    Simplifications: all values are exact rational numbers (dtypes and
    rounding are not modelled); infinite limits are [None]. *)
From Coq Require Import String.
From Verif.Base Require Import QcX Res Np Sort.
Local Open Scope list_scope.

Record table := mkTable { labels : list string; rows : list (list Qc) }.

Fixpoint index_of (l : string) (ls : list string) : option nat :=
  match ls with
  | [] => None
  | l' :: ls' => if String.eqb l l' then Some 0%nat else option_map S (index_of l ls')
  end.
(* the value of column number k in a record *)
Definition col (k : nat) (r : list Qc) : Qc := nth k r 0.

(** Python values assigned to the grid information: None, numbers, tuples
    ([tuple = true]) and lists, numpy arrays, and other objects which are
    neither indexable nor numbers. *)
Inductive pyv := PNone | PNum (q : Qc) | PSeq (tuple : bool) (l : list pyv) | PArr (l : list Qc) | POther.

(** The four properties; [None] stands for [(None, None)] and [None]. *)
Record finfo := mkFinfo {
  f_shape : option (Z * Z); f_origin : option (Qc * Qc); f_spacing : option (Qc * Qc); f_num : option Z }.
Definition finfo0 := mkFinfo None None None None.

Record flow := mkFlow { data : table; info : finfo }.

(** flow.py:79-87 and 115-123: origin and spacing setters.  For a numpy array
    [value not in [None, (None, None)]] compares elementwise, whose truth
    value raises ValueError. *)
Definition float_pair (v : pyv) : res (option (Qc * Qc)) :=
  match v with
  | PNone => Ok None
  | PSeq true [PNone; PNone] => Ok None
  | PSeq _ (PNum a :: PNum b :: _) => Ok (Some (a, b))
  | _ => Err ValueErr
  end.
(** flow.py:97-105: shape setter; [int] truncates. *)
Definition int_pair (v : pyv) : res (option (Z * Z)) :=
  rmap (option_map (fun p => (qtrunc (fst p), qtrunc (snd p)))) (float_pair v).
(** flow.py:61-69: num_bins setter. *)
Definition int_single (v : pyv) : res (option Z) :=
  match v with
  | PNone => Ok None
  | PNum q => Ok (Some (qtrunc q))
  | _ => Err ValueErr
  end.

(** Assignment to one of the properties; the object keeps the previous value if the assignment raises. *)
Inductive prop := Shape | Origin | Spacing | NumBins.
Definition assign (p : prop) (v : pyv) (i : finfo) : res finfo :=
  match p with
  | Shape => do s <- int_pair v; Ok (mkFinfo s (f_origin i) (f_spacing i) (f_num i))
  | Origin => do o <- float_pair v; Ok (mkFinfo (f_shape i) o (f_spacing i) (f_num i))
  | Spacing => do s <- float_pair v; Ok (mkFinfo (f_shape i) (f_origin i) s (f_num i))
  | NumBins => do n <- int_single v; Ok (mkFinfo (f_shape i) (f_origin i) (f_spacing i) n)
  end.

(** dict.pop(key, None) on a dict with distinct keys. *)
Definition dict := list (string * pyv).
Definition dget (k : string) (d : dict) : pyv :=
  match find (fun e => String.eqb k (fst e)) d with Some e => snd e | None => PNone end.
Definition known (k : string) : bool :=
  (String.eqb k "shape" || String.eqb k "origin" || String.eqb k "spacing" || String.eqb k "num_bins")%bool.

(** Run statements until one raises: the state reached and the exception, if any. *)
Fixpoint run_assigns (l : list (prop * pyv)) (i : finfo) : finfo * option exn :=
  match l with
  | [] => (i, None)
  | (p, v) :: l' => match assign p v i with Ok i' => run_assigns l' i' | Err e => (i, Some e) end
  end.
(** flow.py:304-328. *)
Definition set_info (d : dict) (i : finfo) : finfo * option exn :=
  match run_assigns [(Shape, dget "shape" d); (Origin, dget "origin" d);
                     (Spacing, dget "spacing" d); (NumBins, dget "num_bins" d)] i with
  | (i', Some e) => (i', Some e)
  | (i', None) => if forallb (fun e => known (fst e)) d then (i', None) else (i', Some KeyErr)
  end.

(** flow.py:331-352; [None] if shape or spacing are unset. *)
Definition size (f : finfo) : option (Qc * Qc) :=
  match f_shape f, f_spacing f with
  | Some (nx, ny), Some (dx, dy) => Some (ZQ nx * dx, ZQ ny * dy)
  | _, _ => None
  end.

(** flow.py:220-301 [set_data] with named columns.  The number of records is
    that of the first column.  numpy broadcasts a column of a single value
    and raises ValueError for any other length, and for repeated names. *)
Fixpoint nodupb (l : list string) : bool :=
  match l with [] => true | x :: l' => (negb (existsb (String.eqb x) l') && nodupb l')%bool end.
Definition fit (n : nat) (c : list Qc) : res (list Qc) :=
  if Nat.eqb (List.length c) n then Ok c
  else match c with [x] => Ok (repeat x n) | _ => Err ValueErr end.
Definition set_data (cols : list (string * list Qc)) : res table :=
  match cols with
  | [] => Err IndexErr
  | (_, c0) :: _ =>
    if nodupb (map fst cols) then
      let n := List.length c0 in
      do cs <- rmapM (fit n) (map snd cols);
      Ok (mkTable (map fst cols) (map (fun i => map (fun c => nth i c 0) cs) (seq 0 n)))
    else Err ValueErr
  end.

(** flow.py:139-142: the column, or None. *)
Definition get_data (l : string) (t : table) : option (list Qc) :=
  match index_of l (labels t) with Some k => Some (map (col k) (rows t)) | None => None end.

(** flow.py:196-200. *)
Definition within (vmin vmax : option Qc) (x : Qc) : bool :=
  (match vmin with Some a => qle a x | None => true end &&
   match vmax with Some b => qle x b | None => true end)%bool.

(** flow.py:172-217. *)
Definition lims (l : string) (vmin vmax : option Qc) (f : flow) : res flow :=
  match index_of l (labels (data f)) with
  | None => Err KeyErr
  | Some k =>
    let r := filter (fun r => within vmin vmax (col k r)) (rows (data f)) in
    Ok (mkFlow (mkTable (labels (data f)) r)
               (mkFinfo None None (f_spacing (info f)) (Some (Z.of_nat (List.length r)))))
  end.

(** flow.py:145-169; a TypeError if the grid information is unset. *)
Definition default (a : option Qc) (b : Qc) : Qc := match a with Some x => x | None => b end.
Definition cut (xlim ylim : option Qc * option Qc) (f : flow) : res flow :=
  match f_origin (info f), f_shape (info f), f_spacing (info f) with
  | Some (ox, oy), Some (nx, ny), Some (dx, dy) =>
    let xmin := default (fst xlim) ox in
    let xmax := default (snd xlim) (ox + ZQ nx * dx) in
    do f1 <- lims "X" (Some xmin) (Some xmax) f;
    let ymin := default (fst ylim) oy in
    let ymax := default (snd ylim) (oy + ZQ ny * dy) in
    do f2 <- lims "Y" (Some ymin) (Some ymax) f1;
    match get_data "X" (data f2), get_data "Y" (data f2) with
    | Some xs, Some ys =>
      let sx := Z.of_nat (List.length (unique xs)) in let sy := Z.of_nat (List.length (unique ys)) in
      Ok (mkFlow (data f2) (mkFinfo (Some (sx, sy)) (Some (xmin, ymin)) (Some (dx, dy)) (Some (sx * sy)%Z)))
    | _, _ => Err KeyErr
    end
  | _, _, _ => Err TypeErr
  end.

(** flow.py:355-364 [sort]: numpy sorts records by the given fields and breaks
    ties by the remaining ones in field order. *)
Definition sort_key (ky kx : nat) (r : list Qc) : list Qc := col ky r :: col kx r :: r.
Definition sort_table (t : table) : res table :=
  match index_of "Y" (labels t), index_of "X" (labels t) with
  | Some ky, Some kx =>
    Ok (mkTable (labels t) (isort (fun a b => lexle (sort_key ky kx a) (sort_key ky kx b)) (rows t)))
  | _, _ => Err ValueErr
  end.

(** flow.py:367-391 [translate] by a number ([inl]) or an array ([inr]). *)
Fixpoint set_col (k : nat) (x : Qc) (r : list Qc) : list Qc :=
  match k, r with
  | _, [] => []
  | O, _ :: r' => x :: r'
  | S k', y :: r' => y :: set_col k' x r'
  end.
Definition broadcast (n : nat) (v : Qc + list Qc) : res (list Qc) :=
  match v with
  | inl q => Ok (repeat q n)
  | inr l => fit n l
  end.
Definition translate (l : string) (v : Qc + list Qc) (f : flow) : res flow :=
  match index_of l (labels (data f)) with
  | None => Err KeyErr
  | Some k =>
    do d <- broadcast (List.length (rows (data f))) v;
    Ok (mkFlow (mkTable (labels (data f))
                        (map (fun p => set_col k (col k (fst p) + snd p) (fst p)) (combine (rows (data f)) d)))
               (info f))
  end.

(** *** Objects in memory
    A FlowData object refers to an array in memory; [copy] (132-136),
    [translate], [lims] and [cut] build a new array with np.zeros (295),
    [sort] (364) changes the array of the object. *)
Record fobj := mkObj { addr : nat; oinfo : finfo }.
Definition heap := list table.
Definition deref (h : heap) (o : fobj) : option flow :=
  match nth_error h (addr o) with Some t => Some (mkFlow t (oinfo o)) | None => None end.
Definition alloc (h : heap) (f : flow) : heap * fobj := (h ++ [data f], mkObj (length h) (info f)).

Inductive derive :=
| DCopy | DTranslate (l : string) (v : Qc + list Qc)
| DLims (l : string) (vmin vmax : option Qc) | DCut (xlim ylim : option Qc * option Qc).
Definition derive_value (d : derive) (f : flow) : res flow :=
  match d with
  | DCopy => Ok f
  | DTranslate l v => translate l v f
  | DLims l a b => lims l a b f
  | DCut x y => cut x y f
  end.
Definition h_derive (d : derive) (h : heap) (o : fobj) : res (heap * fobj) :=
  match deref h o with
  | None => Err RuntimeErr (* dangling: does not occur *)
  | Some f => do f' <- derive_value d f; Ok (alloc h f')
  end.
(* in-place change of the array of an object *)
Fixpoint hset (h : heap) (a : nat) (t : table) : heap :=
  match h, a with
  | [], _ => []
  | _ :: h', O => t :: h'
  | x :: h', S a' => x :: hset h' a' t
  end.
Definition h_sort (h : heap) (o : fobj) : res heap :=
  match nth_error h (addr o) with
  | None => Err RuntimeErr
  | Some t => do t' <- sort_table t; Ok (hset h (addr o) t')
  end.
