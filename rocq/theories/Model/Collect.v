(** Model of /repo/strata/interface/collect.py: collecting the interface of every map. *)
From Coq Require Import String.
From Verif.Base Require Import QcX Res Np Sort.
From Verif.Model Require Import Bins Flow Interface Spreading.
Local Open Scope list_scope.

(** collect.py:137. *)
Record yindex := mkY { ymin : Qc; ymax : Qc; dy : Qc; num : nat }.
(** collect.py:139-154 [get_yindex_data]: the smallest difference is the spacing; less than two
    values have none (IndexError). *)
Definition get_yindex_data (ys : list Qc) : res yindex :=
  match unique (qdiff ys) with
  | [] => Err IndexErr
  | d :: _ =>
    do lo <- of_option ValueErr (list_min ys); do hi <- of_option ValueErr (list_max ys);
    Ok (mkY lo hi d (length ys))
  end.
(** collect.py:156-164 [get_yindex_for_value].  The spacing is not negative here since
    layers are in increasing order; if it is 0 the result is not a number. *)
Definition get_yindex_for_value (y : Qc) (d : yindex) : res nat :=
  if qeq (dy d) 0 then Err ValueErr else
  Ok (Z.to_nat (qtrunc ((qmin (qmax y (ymin d)) (ymax d) - ymin d) / dy d))).

(** np.isclose with default tolerances. *)
Definition close (a b : Qc) : bool := isclose (Q2Qc (1 # 100000000)) (Q2Qc (1 # 100000)) a b.

Section Transfer.
Context {A : Type}.
(** [a[i:j]]. *)
Definition slice (i j : nat) (l : list A) : list A := firstn (j - i) (skipn i l).
(** [a[i:j] = v]: [v] has the length of the slice or one element. *)
Definition set_slice (i j : nat) (v l : list A) : res (list A) :=
  let n := length (slice i j l) in
  if Nat.eqb (length v) n then Ok (firstn i l ++ v ++ skipn (i + n) l)
  else match v with [x] => Ok (firstn i l ++ repeat x n ++ skipn (i + n) l) | _ => Err ValueErr end.
End Transfer.

(** collect.py:166-222 [transfer_values]; [None] in place of the old values and their
    indexing for the first frame. *)
Definition transfer_values {A} (old : option (list (option A) * yindex)) (new : yindex) : res (list (option A)) :=
  let empty := repeat None (num new) in
  match old with
  | None => Ok empty
  | Some (xs, o) =>
    if (close (ymin o) (ymin new) && close (ymax o) (ymax new) && close (dy o) (dy new) && Nat.eqb (num o) (num new))%bool then Ok xs
    else if negb (close (dy o) (dy new)) then Err ValueErr else
    do imin <- get_yindex_for_value (ymin o) new; do imax <- get_yindex_for_value (ymax o) new;
    do jmin <- get_yindex_for_value (ymin new) o; do jmax <- get_yindex_for_value (ymax new) o;
    set_slice imin (imax + 1) (slice jmin (jmax + 1) xs) empty
  end.

(** collect.py:224-236 [create_interface_array]: rows (X, Y).  Arrays of different lengths are a
    ValueError (numpy's broadcasting of length one is not modelled; the callers' arrays
    have equal lengths). *)
Definition create_interface_array (ys xl xr : list Qc) : res (list (Qc * Qc)) :=
  if (Nat.eqb (length xl) (length ys) && Nat.eqb (length xr) (length ys))%bool
  then Ok (combine (xl ++ rev xr) (ys ++ rev ys)) else Err ValueErr.

(** collect.py:238-268 [fill_pbc_info_for_empty_y_values]: the first and last values found. *)
Fixpoint first_some {A} (l : list (option A)) : option (nat * A) :=
  match l with
  | [] => None
  | Some a :: _ => Some (0%nat, a)
  | None :: l => option_map (fun p => (S (fst p), snd p)) (first_some l)
  end.
Definition fill_pbc (l : list (option pinfo)) : list (option pinfo) :=
  match first_some l with
  | None => repeat (Some init_periodic_info) (length l)
  | Some (k, p) =>
    let l1 := repeat (Some p) k ++ skipn k l in
    match first_some (rev l1) with
    | None => l1
    | Some (k', p') => firstn (length l1 - k') l1 ++ repeat (Some p') k'
    end
  end.

(** collect.py:270-304 [update_interface_with_pbc_info].  [zip] stops at the shortest. *)
Definition layer := (Qc * Qc * Qc)%type. (* y, left, right *)
Definition update_layer (box : Qc) (p : option pinfo) (l r : Qc) : pinfo :=
  match p with
  | Some p => check_and_update p box l r
  | None => mkP (Some (l, r)) 0 0
  end.
Definition update_interface (layers : list layer) (box : Qc) (old : option (list (option pinfo) * yindex))
  : res (list (Qc * Qc) * (list (option pinfo) * yindex)) :=
  let ys := map (fun p => fst (fst p)) layers in
  do new <- get_yindex_data ys;
  do t <- transfer_values old new;
  let infos := map (fun p => update_layer box (fst p) (snd (fst (snd p))) (snd (snd p))) (combine (fill_pbc t) layers) in
  let edges := map (fun p => add_multipliers (fst p) box (snd (fst (snd p))) (snd (snd p))) (combine infos layers) in
  do a <- create_interface_array ys (map fst edges) (map snd edges);
  Ok (a, (map Some infos, new)).

(** collect.py:126-131: y is measured from the first layer, x from where the option says. *)
Inductive recentre := Zero | Com | OtherOption.
Definition recenter (o : recentre) (com : res Qc) (a : list (Qc * Qc)) : res (list (Qc * Qc)) :=
  let y0 := snd (nth 0 a (0, 0)) in
  do c <- match o with
          | Zero => Ok (qmean [fst (nth 0 a (0, 0)); fst (nth (length a - 1) a (0, 0))])
          | Com => com
          | OtherOption => Ok 0
          end;
  Ok (map (fun p => (fst p - c, snd p - y0)) a).

(** collect.py:78-133 [get_interface_coordinates] for the field [V]; [lims] are the keyword 'ylims' of [get_interface].  No interface at all
    cannot be unpacked into left and right: ValueError. *)
Definition get_interface_coordinates (V : bin -> Qc) (data : list bin) (fi : finfo) (cutoff radius : option Qc) (nb : Z) (lims : option Qc * option Qc)
    (old : option (list (option pinfo) * yindex)) (o : recentre)
  : res (list (Qc * Qc) * (list (option pinfo) * yindex)) :=
  do pairs <- get_interface V data fi (mkIopts cutoff radius nb true lims);
  match pairs with
  | [] => Err ValueErr
  | _ =>
    let at_ i := nth i data bin0 in
    let layers := map (fun p => (bY (at_ (fst p)), bX (at_ (fst p)), bX (at_ (snd p)))) pairs in
    do (bx, _) <- of_option TypeErr (size fi);
    do (a, st) <- update_interface layers bx old;
    do a' <- recenter o (np_average (map bX data) (map V data)) a;
    Ok (a', st)
  end.
(** collect.py:62-67: the loop over the maps; one interface for each. *)
Fixpoint collect_interfaces (V : bin -> Qc) (maps : list (list bin * finfo)) (cutoff radius : option Qc) (nb : Z) (lims : option Qc * option Qc)
    (old : option (list (option pinfo) * yindex)) (o : recentre) : res (list (list (Qc * Qc))) :=
  match maps with
  | [] => Ok []
  | (data, fi) :: maps =>
    do (a, st) <- get_interface_coordinates V data fi cutoff radius nb lims old o;
    do rest <- collect_interfaces V maps cutoff radius nb lims (Some st) o;
    Ok (a :: rest)
  end.
