(** C92: reordered and mirrored maps. *)
From Coq Require Import Reals Permutation Lia.
From Verif.Base Require Import QcX QcR Res Np Sort.
From Verif.Model Require Import Bins Flow Interface ContactLine ContactAngle Spreading.
From Verif.Spec Require Import InterfaceSpec SymmetrySpec.
From Verif.Proofs Require Import InterfaceP GridP UnitsP SymmetryP.
From Verif.Proofs Require ContactLineP.
From Verif.Model Require Sample.
Local Open Scope list_scope.
Local Open Scope Qc_scope.

(** ** Everything is found from the places of the layers *)
Definition place_of (data : list bin) (p : nat * nat) : Qc * Qc * Qc := (cx data (fst p), cx data (snd p), cy data (fst p)).
Lemma places_map data pairs : places data pairs = map (place_of data) pairs. Proof. reflexivity. Qed.
Fixpoint low_places (ymax : Qc) (ls : list (Qc * Qc * Qc)) : list (Qc * Qc * Qc) :=
  match ls with [] => [] | l :: ls => if qlt ymax (snd l) then [] else l :: low_places ymax ls end.
Definition places_of_height (ls : list (Qc * Qc * Qc)) (h : Qc) : list (Qc * Qc * Qc) := match ls with [] => [] | l :: rest => l :: low_places (snd l + h) rest end.
Lemma low_eq data y pairs : places data (up_to data y pairs) = low_places y (places data pairs).
Proof. induction pairs as [|p pairs IH]; [reflexivity|]. cbn [up_to places map low_places]. fold (cy data (fst p)). cbn [snd]. destruct (qlt y (cy data (fst p))); [reflexivity|]. cbn [map]. unfold places in IH. rewrite IH. reflexivity. Qed.
Lemma height_eq data h pairs : places data (interface_of_height data pairs h) = places_of_height (places data pairs) h.
Proof. destruct pairs as [|p pairs]; [reflexivity|]. cbn [interface_of_height places map places_of_height snd]. f_equal. apply low_eq. Qed.
(** The bins at an edge with places [e] (position, height). *)
Fixpoint box_at (limit : Qc) (x : Qc) (rest : list (Qc * Qc)) : Qc := match rest with [] => x | e :: rest => if qle (snd e) limit then box_at limit (fst e) rest else x end.
Definition at_edge (e : list (Qc * Qc)) (w eh : Qc) (b : bin) : bool :=
  match e with
  | [] => false
  | e0 :: rest =>
    let xi := box_at (snd e0 + eh) (fst e0) rest + w in
    match list_min (map fst e), list_max (map fst e) with
    | Some lo, Some hi => (qle (qmin lo xi) (bX b) && qle (bX b) (qmax hi xi) && qle (snd e0) (bY b) && qle (bY b) (snd (last e (0, 0))))%bool
    | _, _ => false
    end
  end.
Lemma place_eq data limit rest : forall pre i, cx data (nth (place data limit (length pre) rest) (pre ++ i :: rest) 0%nat) = box_at limit (cx data (nth (length pre) (pre ++ i :: rest) 0%nat)) (map (fun j => (cx data j, cy data j)) rest).
Proof.
  induction rest as [|j rest IH]; intros pre i; [reflexivity|]. cbn [place map box_at fst snd]. destruct (qle (cy data j) limit); [|reflexivity].
  specialize (IH (pre ++ [i]) j). rewrite app_length in IH. cbn [length] in IH. rewrite Nat.add_1_r, <- app_assoc in IH. cbn [app] in IH. rewrite IH. f_equal. rewrite app_nth2 by lia. replace (S (length pre) - length pre)%nat with 1%nat by lia. reflexivity.
Qed.
Lemma last_map {A B} (f : A -> B) l a b : l <> [] -> last (map f l) b = f (last l a).
Proof. intros H. destruct (exists_last H) as (k & x & ->). rewrite map_app. cbn [map]. rewrite !last_last. reflexivity. Qed.
Lemma cells_eq data inds w eh : cells_of_edge data inds w eh = filter (at_edge (map (fun i => (cx data i, cy data i)) inds) w eh) data.
Proof.
  destruct inds as [|i0 rest]; [cbn; induction data; [reflexivity|assumption]|]. unfold cells_of_edge, at_edge. pose proof (place_eq data (cy data i0 + eh) rest [] i0) as E. cbn [app length] in E. rewrite E. cbn [nth]. clear E.
  cbn [map fst snd]. rewrite map_map. cbn [fst]. destruct (list_min _); [|induction data; [reflexivity|assumption]]. destruct (list_max _); [|induction data; [reflexivity|assumption]].
  apply filter_ext. intros b. change ((cx data i0, cy data i0) :: map (fun i => (cx data i, cy data i)) rest) with (map (fun i => (cx data i, cy data i)) (i0 :: rest)). rewrite (last_map _ (i0 :: rest) 0%nat) by discriminate. reflexivity.
Qed.
Definition left_edge (ls : list (Qc * Qc * Qc)) : list (Qc * Qc) := map (fun l => (fst (fst l), snd l)) ls.
Definition right_edge (ls : list (Qc * Qc * Qc)) : list (Qc * Qc) := map (fun l => (snd (fst l), snd l)) ls.
(** The two cells of a layer are at the same height. *)
Definition level (data : list bin) (pairs : list (nat * nat)) : Prop := forall p, In p pairs -> cy data (snd p) = cy data (fst p).
Lemma level_pairs V data fi o pairs : get_interface V data fi o = Ok pairs -> level data pairs.
Proof.
  intros H p Hp. destruct (ContactLineP.interface_has_layers V data fi o pairs H) as (ys & (_ & HF) & _). clear H. induction HF as [|y q ys pairs [(b & Hb & Yb) (c & Hc & Yc)] HF IH]; [destruct Hp|].
  destruct Hp as [-> |Hp]; [|apply IH, Hp]. unfold cy. rewrite (nth_error_nth _ _ bin0 Hb), (nth_error_nth _ _ bin0 Hc). congruence.
Qed.
Lemma left_eq data pairs : map (fun i => (cx data i, cy data i)) (map fst pairs) = left_edge (places data pairs).
Proof. unfold left_edge, places. rewrite !map_map. reflexivity. Qed.
Lemma right_eq data pairs : level data pairs -> map (fun i => (cx data i, cy data i)) (map snd pairs) = right_edge (places data pairs).
Proof. intros H. unfold right_edge, places. rewrite !map_map. apply map_ext_in. intros p Hp. cbn [fst snd]. rewrite (H p Hp). reflexivity. Qed.
Lemma height_incl data pairs h p : In p (interface_of_height data pairs h) -> In p pairs.
Proof.
  destruct pairs as [|p0 pairs]; [intros []|]. intros [<- |H]; [left; reflexivity|right]. revert H. generalize (cy data (fst p0) + h). intros y. induction pairs as [|q pairs IH]; [intros []|]. cbn [up_to].
  destruct (qlt _ _); [intros []|]. intros [<- |H]; [left; reflexivity|right; apply IH; exact H].
Qed.
Lemma contact_eq V data fi o w h eh : get_contact_line_cells V data fi o (w, h) eh =
  do pairs <- get_interface V data fi o; let ls := places_of_height (places data pairs) h in Ok (filter (at_edge (left_edge ls) w eh) data, filter (at_edge (right_edge ls) (- w) eh) data).
Proof.
  unfold get_contact_line_cells. cbn [fst snd]. destruct (get_interface V data fi o) as [pairs|] eqn:E; [|reflexivity]. cbn [rbind]. rewrite !cells_eq, left_eq, right_eq, height_eq; [reflexivity|].
  intros p Hp. apply (level_pairs _ _ _ _ _ E). eapply height_incl. exact Hp.
Qed.
Fixpoint places_loop (y0 xl xr h : Qc) (ls : list (Qc * Qc * Qc)) (acc : option (Qc * Qc * Qc)) : option (Qc * Qc * Qc) :=
  match ls with [] => acc | (l, r, y) :: ls => if qle (y - y0) h then places_loop y0 xl xr h ls (Some (y - y0, l - xl, - (r - xr))) else acc end.
Lemma loop_eq data y0 xl xr h pairs : forall acc, angle_loop data y0 xl xr h pairs acc = places_loop y0 xl xr h (places data pairs) acc.
Proof. induction pairs as [|[l r] pairs IH]; intros acc; [reflexivity|]. cbn [angle_loop places map places_loop fst snd]. fold (cx data l) (cx data r) (cy data l). destruct (qle _ _); [apply IH|reflexivity]. Qed.
Definition places_triangle (yf : option Qc) (h : Qc) (ls : list (Qc * Qc * Qc)) : res (option (Qc * Qc * Qc)) :=
  match ls with
  | [] => Err StopIter
  | (l, r, y) :: rest => if match yf with Some f => negb (qeq y f) | None => false end then Ok None else do a <- of_option UnboundErr (places_loop y l r h rest None); Ok (Some a)
  end.
Lemma triangle_eq V data fi o h floor : contact_triangle V data fi o h floor =
  do yf <- floor_height data floor; do pairs <- get_interface V data fi (mkIopts (cutoff_opt o) (radius_opt o) (bins_opt o) (longest_opt o) (yf, None)); places_triangle yf h (places data pairs).
Proof.
  unfold contact_triangle. destruct (floor_height data floor) as [yf|]; [|reflexivity]. cbn [rbind]. destruct (get_interface _ _ _ _) as [pairs|]; [|reflexivity]. cbn [rbind]. destruct pairs as [|[l r] pairs]; [reflexivity|].
  cbn [places map places_triangle fst snd]. fold (cx data l) (cx data r) (cy data l). rewrite loop_eq. reflexivity.
Qed.
Definition in_floor (yf : option Qc) (l : Qc * Qc * Qc) : bool := match yf with None => true | Some y => qeq (snd l) y end.
Lemma edges_eq V data fi c r nb lg floor : get_spreading_edges V data fi c r nb lg floor =
  do yf <- get_floor_height floor (map bY data); do pairs <- get_interface V data fi (mkIopts c r nb lg (yf, yf)); Ok (option_map fst (find (in_floor yf) (places data pairs))).
Proof.
  unfold get_spreading_edges. destruct (get_floor_height floor (map bY data)) as [yf|]; [|reflexivity]. cbn [rbind]. destruct (get_interface _ _ _ _) as [pairs|]; [|reflexivity]. cbn [rbind].
  induction pairs as [|[l r0] pairs IH]; [reflexivity|]. cbn [find places map fst snd]. change (in_floor yf (_, _, bY (nth l data bin0))) with (match yf with Some y => qeq (bY (nth l data bin0)) y | None => true end).
  destruct (match yf with Some y => qeq (bY (nth l data bin0)) y | None => true end); [reflexivity|exact IH].
Qed.

(** ** Moved maps *)
Section Moved.
Variables (V V' : bin -> Qc) (m : bool) (t : Qc) (g : bin -> bin).
Hypotheses (HX : forall b, bX (g b) = pos m t (bX b)) (HY : forall b, bY (g b) = bY b) (HV : forall b, V' (g b) = V b).
Variables (data data' : list bin) (fi fi' : finfo).
Hypothesis HP : Permutation data' (map g data).
Let M := moved m t.
Definition turn {A} (p : A * A) : A * A := if m then (snd p, fst p) else p.
Let IM o : longest_opt o = false -> rmap (places data') (get_interface V' data' fi' o) = rmap (fun pairs => M (places data pairs)) (get_interface V data fi o).
Proof. exact (interface_moved V V' m t g HX HY HV data data' HP fi fi' o). Qed.
Lemma bind_moved {A} (F : list (Qc * Qc * Qc) -> res A) o : longest_opt o = false ->
  (do pairs <- get_interface V' data' fi' o; F (places data' pairs)) = (do pairs <- get_interface V data fi o; F (M (places data pairs))).
Proof.
  intros Ho. specialize (IM o Ho). destruct (get_interface V' data' fi' o) as [p'|], (get_interface V data fi o) as [p|]; cbn [rmap rbind] in *; [injection IM as ->; reflexivity|discriminate|discriminate|congruence].
Qed.
Lemma low_moved y ls : low_places y (M ls) = M (low_places y ls).
Proof.
  unfold M, moved. destruct m; [|reflexivity]. unfold mirrored. induction ls as [|l ls IH]; [reflexivity|]. cbn [map low_places snd]. destruct (qlt y (snd l)); [reflexivity|]. cbn [map]. rewrite IH. reflexivity.
Qed.
Lemma height_moved h ls : places_of_height (M ls) h = M (places_of_height ls h).
Proof.
  pose proof low_moved as L. unfold M, moved in *. destruct m; [|reflexivity]. unfold mirrored in *. destruct ls as [|l ls]; [reflexivity|]. cbn [map places_of_height snd]. rewrite L. reflexivity.
Qed.
Lemma find_moved yf ls : option_map fst (find (in_floor yf) (M ls)) = option_map (fun p => (pos m t (fst (turn p)), pos m t (snd (turn p)))) (option_map fst (find (in_floor yf) ls)).
Proof.
  unfold M, moved, turn, pos. destruct m.
  - induction ls as [|[[l r] y] ls IH]; [reflexivity|]. cbn [mirrored map find fst snd]. change (in_floor yf (_, _, y)) with (match yf with Some f => qeq y f | None => true end).
    destruct (match yf with Some f => qeq y f | None => true end); [reflexivity|exact IH].
  - destruct (find _ ls) as [[[l r] y]|]; reflexivity.
Qed.
Lemma spread_moved c r nb floor : get_floor_height floor (map bY data') = get_floor_height floor (map bY data) ->
  get_spreading_edges V' data' fi' c r nb false floor = rmap (option_map (fun p => (pos m t (fst (turn p)), pos m t (snd (turn p))))) (get_spreading_edges V data fi c r nb false floor).
Proof.
  intros HF. rewrite !edges_eq, HF. destruct (get_floor_height floor (map bY data)) as [yf|]; [|reflexivity]. cbn [rbind]. rewrite (bind_moved (fun ls => Ok (option_map fst (find (in_floor yf) ls)))) by reflexivity.
  destruct (get_interface V _ _ _) as [p|]; [|reflexivity]. cbn [rmap rbind]. rewrite find_moved. reflexivity.
Qed.
Definition turned (a : Qc * Qc * Qc) : Qc * Qc * Qc := let '(y, l, r) := a in if m then (y, r, l) else a.
Lemma places_loop_moved y0 xl xr h ls : forall acc,
  places_loop y0 (pos m t (fst (turn (xl, xr)))) (pos m t (snd (turn (xl, xr)))) h (M ls) (option_map turned acc) = option_map turned (places_loop y0 xl xr h ls acc).
Proof.
  unfold M, moved, turned, turn, pos. destruct m.
  - induction ls as [|[[l r] y] ls IH]; intros acc; [reflexivity|]. cbn [mirrored map fst snd places_loop]. destruct (qle _ _); [|reflexivity]. unfold mirrored in IH. rewrite <- IH. cbn [option_map]. f_equal. do 2 f_equal; [f_equal; ring|ring].
  - intros acc. replace (option_map _ acc) with acc by (destruct acc as [[[a b] c]|]; reflexivity). cbn [fst snd]. destruct (places_loop _ _ _ _ _ _) as [[[a b] c]|]; reflexivity.
Qed.
Lemma triangle_moved o h floor : longest_opt o = false -> floor_height data' floor = floor_height data floor ->
  contact_triangle V' data' fi' o h floor = rmap (option_map turned) (contact_triangle V data fi o h floor).
Proof.
  intros Ho HF. rewrite !triangle_eq, HF. destruct (floor_height data floor) as [yf|]; [|reflexivity]. cbn [rbind]. rewrite bind_moved by exact Ho. destruct (get_interface V _ _ _) as [p|]; [|reflexivity]. cbn [rbind].
  destruct (places data p) as [|[[l r] y] ls]; [unfold M, moved; destruct m; reflexivity|].
  assert (M ((l, r, y) :: ls) = (pos m t (fst (turn (l, r))), pos m t (snd (turn (l, r))), y) :: M ls) as -> by (unfold M, moved, turn, pos; destruct m; reflexivity).
  cbn [places_triangle]. destruct (match yf with Some f => _ | None => _ end); [reflexivity|]. pose proof (places_loop_moved y l r h ls None) as E. cbn [option_map] in E. rewrite E. clear E. destruct (places_loop y l r h ls None); reflexivity.
Qed.
Lemma angle_moved o h floor : longest_opt o = false -> floor_height data' floor = floor_height data floor ->
  get_contact_angle V' data' fi' o h floor = rmap (option_map turn) (get_contact_angle V data fi o h floor).
Proof.
  intros Ho HF. unfold get_contact_angle. rewrite triangle_moved by assumption. destruct (contact_triangle V data fi o h floor) as [[[[y l] r]|]|]; [|reflexivity|reflexivity]. cbn [rmap rbind option_map]. unfold angles, turned, turn. destruct m; reflexivity.
Qed.
Definition pt (e : Qc * Qc) : Qc * Qc := (pos m t (fst e), snd e).
Definition sign (w : Qc) : Qc := if m then - w else w.
Lemma box_moved limit x rest : box_at limit (pos m t x) (map pt rest) = pos m t (box_at limit x rest).
Proof. revert x. induction rest as [|e rest IH]; intros x; [reflexivity|]. cbn [map box_at pt fst snd]. destruct (qle (snd e) limit); [apply IH|reflexivity]. Qed.
Lemma at_edge_moved e w eh b : at_edge (map pt e) (sign w) eh (g b) = at_edge e w eh b.
Proof.
  destruct e as [|e0 rest]; [reflexivity|]. unfold at_edge. cbn [map]. change (fst (pt e0)) with (pos m t (fst e0)). change (snd (pt e0)) with (snd e0). rewrite box_moved. set (x := box_at _ _ _).
  change (pt e0 :: map pt rest) with (map pt (e0 :: rest)). rewrite (last_map pt (e0 :: rest) (0, 0)) by discriminate. change (snd (pt (last (e0 :: rest) (0, 0)))) with (snd (last (e0 :: rest) (0, 0))).
  change (pos m t (fst e0) :: map fst (map pt rest)) with (map fst (map pt (e0 :: rest))). change (fst e0 :: map fst rest) with (map fst (e0 :: rest)). set (e := e0 :: rest). rewrite map_map. cbn [pt fst].
  rewrite !HX, !HY. unfold pos, sign. destruct m; [|reflexivity].
  assert (forall l : list Qc, list_min (map (fun x => t - x) l) = option_map (fun x => t - x) (list_max l) /\ list_max (map (fun x => t - x) l) = option_map (fun x => t - x) (list_min l)) as Q.
  { intros l. destruct (list_max l) as [hi|] eqn:E1; [|apply list_max_none in E1; subst; split; reflexivity]. destruct (list_min l) as [lo|] eqn:E2; [|apply list_min_none in E2; subst; discriminate].
    apply list_max_spec in E1 as [I1 L1]. apply list_min_spec in E2 as [I2 L2]. split; cbn [option_map]; [apply list_min_spec|apply list_max_spec].
    - split; [apply (in_map (fun x => t - x)); exact I1|]. intros y Hy. apply in_map_iff in Hy as (z & <- & Hz). specialize (L1 z Hz). qlra'.
    - split; [apply (in_map (fun x => t - x)); exact I2|]. intros y Hy. apply in_map_iff in Hy as (z & <- & Hz). specialize (L2 z Hz). qlra'. }
  rewrite <- (map_map fst (fun x => t - x) e). destruct (Q (map fst e)) as [-> ->]. destruct (list_min (map fst e)) as [lo|]; [|destruct (list_max _); reflexivity]. destruct (list_max (map fst e)) as [hi|]; [|reflexivity]. cbn [option_map].
  clearbody x. clear -x. apply eq_true_iff_eq. rewrite !Bool.andb_true_iff, !qle_true. unfold qmin, qmax. generalize (bX b). intros z.
  destruct (qle (t - hi) (t - x + - w)) eqn:A, (qle (t - lo) (t - x + - w)) eqn:B, (qle lo (x + w)) eqn:C, (qle hi (x + w)) eqn:D;
    rewrite ?qle_true, ?qle_false in *;
    (split; intros (((A1 & A2) & A3) & A4); repeat split; try assumption; qlra').
Qed.
Lemma edge_moved ls : left_edge (M ls) = map pt (if m then right_edge ls else left_edge ls) /\ right_edge (M ls) = map pt (if m then left_edge ls else right_edge ls).
Proof. unfold M, moved, left_edge, right_edge, pt, pos, mirrored. destruct m; rewrite !map_map; split; reflexivity. Qed.
Lemma filter_moved e e' w w' eh : e' = map pt e -> w' = sign w -> Permutation (filter (at_edge e' w' eh) data') (map g (filter (at_edge e w eh) data)).
Proof.
  intros -> ->. etransitivity; [apply Permutation_filter; exact HP|]. rewrite filter_map. apply Permutation_map. erewrite filter_ext; [reflexivity|]. intros b. apply at_edge_moved.
Qed.
Lemma contact_moved o w h eh : longest_opt o = false ->
  match get_contact_line_cells V data fi o (w, h) eh, get_contact_line_cells V' data' fi' o (w, h) eh with
  | Ok c, Ok c' => Permutation (fst c') (map g (fst (turn c))) /\ Permutation (snd c') (map g (snd (turn c)))
  | Err e, Err e' => e' = e
  | _, _ => False
  end.
Proof.
  intros Ho. rewrite !contact_eq.
  pose proof (bind_moved (fun ls => Ok ls) o Ho) as B. destruct (get_interface V' _ _ _) as [p'|], (get_interface V _ _ _) as [p|]; cbn [rbind] in *; try discriminate; [|congruence]. injection B as ->. cbv zeta. rewrite height_moved.
  destruct (edge_moved (places_of_height (places data p) h)) as [E1 E2]. cbn [fst snd]. unfold turn. pose proof filter_moved as FM. unfold sign in FM. destruct m; cbn [fst snd] in *.
  - split; apply FM; [exact E1|ring|exact E2|reflexivity].
  - split; apply FM; first [assumption|reflexivity].
Qed.
End Moved.

(** ** C92: the order of the records *)
Lemma same_order (data data' : list bin) : Permutation data data' -> Permutation data' (map (fun b => b) data).
Proof. intros H. rewrite map_id. symmetry. exact H. Qed.
(** The layers of the interface are at the same places, in the same order, or the same error is raised. *)
Theorem C92_interface : forall V data data' fi o, Permutation data data' -> longest_opt o = false ->
  rmap (places data') (get_interface V data' fi o) = rmap (places data) (get_interface V data fi o).
Proof. intros V data data' fi o HP Ho. exact (interface_moved V V false 0 (fun b => b) (fun _ => eq_refl) (fun _ => eq_refl) (fun _ => eq_refl) data data' (same_order _ _ HP) fi fi o Ho). Qed.
Print Assumptions C92_interface.
(** The same cells are extracted on both sides. *)
Theorem C92_contact_line : forall V data data' fi o w h eh, Permutation data data' -> longest_opt o = false ->
  match get_contact_line_cells V data fi o (w, h) eh, get_contact_line_cells V data' fi o (w, h) eh with
  | Ok (l, r), Ok (l', r') => Permutation l' l /\ Permutation r' r
  | Err e, Err e' => e' = e
  | _, _ => False
  end.
Proof.
  intros V data data' fi o w h eh HP Ho. pose proof (contact_moved V V false 0 (fun b => b) (fun _ => eq_refl) (fun _ => eq_refl) (fun _ => eq_refl) data data' fi fi (same_order _ _ HP) o w h eh Ho) as H.
  destruct (get_contact_line_cells V data fi o (w, h) eh) as [[l r]|], (get_contact_line_cells V data' fi o (w, h) eh) as [[l' r']|]; try exact H. unfold turn in H. cbn [fst snd] in H. rewrite !map_id in H. exact H.
Qed.
Print Assumptions C92_contact_line.
(** The layers are not at equal distances below and above the floor. *)
Definition one_nearest (data : list bin) (floor : option Qc) : Prop := forall f b c, floor = Some f -> In b data -> In c data -> qabs (bY b - f) = qabs (bY c - f) -> bY b = bY c.
Lemma floor_order data data' floor : Permutation data data' -> one_nearest data floor -> floor_height data' floor = floor_height data floor.
Proof.
  intros HP HN. destruct floor as [f|]; [|reflexivity]. cbn [floor_height]. set (F := fun b => qabs (bY b - f)).
  destruct (argmin (map F data)) as [i|] eqn:E1, (argmin (map F data')) as [j|] eqn:E2; cbn [of_option rbind].
  - f_equal. f_equal. unfold cy. apply argmin_spec in E1 as (y & N1 & L1 & _). apply argmin_spec in E2 as (z & N2 & L2 & _). rewrite nth_error_map in N1, N2.
    destruct (nth_error data i) as [b|] eqn:B; [|discriminate]. destruct (nth_error data' j) as [c|] eqn:C; [|discriminate]. cbn [option_map] in N1, N2. injection N1 as N1. injection N2 as N2.
    rewrite (nth_error_nth _ _ bin0 B), (nth_error_nth _ _ bin0 C). apply nth_error_In in B, C. assert (In c data) as C' by (eapply Permutation_in; [symmetry; exact HP|exact C]). apply (HN f); auto.
    change (F c = F b). apply Qcle_antisym; [rewrite N2; apply L2, in_map; eapply Permutation_in; eassumption|rewrite N1; apply L1, in_map; exact C'].
  - destruct data' as [|c data']; [symmetry in HP; apply Permutation_nil in HP; subst; discriminate|discriminate].
  - destruct data as [|c data]; [apply Permutation_nil in HP; subst; discriminate|discriminate].
  - reflexivity.
Qed.
(** The contact angles are the same. *)
Theorem C92_contact_angle : forall V data data' fi o h floor, Permutation data data' -> longest_opt o = false -> one_nearest data floor ->
  get_contact_angle V data' fi o h floor = get_contact_angle V data fi o h floor.
Proof.
  intros V data data' fi o h floor HP Ho HN. rewrite (angle_moved V V false 0 (fun b => b) (fun _ => eq_refl) (fun _ => eq_refl) (fun _ => eq_refl) data data' fi fi (same_order _ _ HP) o h floor Ho (floor_order _ _ _ HP HN)).
  destruct (get_contact_angle _ _ _ _ _ _) as [[a|]|]; reflexivity.
Qed.
Print Assumptions C92_contact_angle.
Theorem C92_spreading_edges : forall V data data' fi c r nb, Permutation data data' -> get_spreading_edges V data' fi c r nb false None = get_spreading_edges V data fi c r nb false None.
Proof.
  intros V data data' fi c r nb HP. rewrite (spread_moved V V false 0 (fun b => b) (fun _ => eq_refl) (fun _ => eq_refl) (fun _ => eq_refl) data data' fi fi (same_order _ _ HP) c r nb None eq_refl).
  destruct (get_spreading_edges _ _ _ _ _ _ _ _) as [[[a b]|]|]; reflexivity.
Qed.
Print Assumptions C92_spreading_edges.
(** The search for the longest stretch takes the records of a layer as they are stored: the edges depend on the order. *)
Definition sm (x y : Z) (m : Z) : bin := mkBin (ZQ x) (ZQ y) 1 1 (ZQ m) 0 0.
Definition s_map : list bin := [sm 0 0 0; sm 1 0 5; sm 2 0 7; sm 3 0 6; sm 0 1 0; sm 1 1 0; sm 2 1 8; sm 3 1 7].
Definition s_shuffled : list bin := [sm 1 0 5; sm 0 0 0; sm 2 0 7; sm 3 0 6; sm 0 1 0; sm 1 1 0; sm 2 1 8; sm 3 1 7].
Definition s_info : finfo := mkFinfo (Some (4, 2)%Z) (Some (0, 0)) (Some (1, 1)) None.
Definition s_opts (longest : bool) : iopts := mkIopts (Some (ZQ 4)) (Some 1) 1 longest (None, None).
Lemma s_perm : Permutation s_map s_shuffled. Proof. apply perm_swap. Qed.
Theorem C92_longest_refuted : exists data data' fi o, Permutation data data' /\ longest_opt o = true /\
  rmap (places data') (get_interface bM data' fi o) <> rmap (places data) (get_interface bM data fi o).
Proof.
  exists s_map, s_shuffled, s_info, (s_opts true). split; [exact s_perm|]. split; [reflexivity|]. intros E.
  apply (f_equal (fun r => match r with Ok ((l, _, _) :: _) => qeq l 1 | _ => false end)) in E. vm_compute in E. discriminate.
Qed.
Print Assumptions C92_longest_refuted.
(** With a floor below several layers within one unit of length, the first of them in the file counts. *)
Definition half (x y : Z) (m : Z) : bin := mkBin (ZQ x) (Q2Qc (y # 2)) 1 1 (ZQ m) 0 0.
Definition h_map : list bin := [half 0 1 6; half 1 1 8; half 2 1 6; half 0 2 0; half 1 2 8; half 2 2 6].
Definition h_shuffled : list bin := [half 0 2 0; half 1 2 8; half 2 2 6; half 0 1 6; half 1 1 8; half 2 1 6].
Theorem C92_floor_refuted : exists data data' fi c r floor, Permutation data data' /\
  get_spreading_edges bM data' fi c r 1 false (Some floor) <> get_spreading_edges bM data fi c r 1 false (Some floor).
Proof.
  exists h_map, h_shuffled, s_info, (Some (ZQ 4)), (Some 1), 0. split; [exact (Permutation_app_comm [half 0 1 6; half 1 1 8; half 2 1 6] [half 0 2 0; half 1 2 8; half 2 2 6])|]. intros E.
  apply (f_equal (fun r => match r with Ok (Some (l, _)) => qeq l 0 | _ => false end)) in E. vm_compute in E. discriminate.
Qed.
Print Assumptions C92_floor_refuted.
Example C92_ex : rmap (places s_shuffled) (get_interface bM s_shuffled s_info (s_opts false)) = Ok [(ZQ 1, ZQ 3, ZQ 0); (ZQ 2, ZQ 3, ZQ 1)].
Proof. rewrite (C92_interface bM s_map s_shuffled s_info (s_opts false) s_perm eq_refl). vm_compute. reflexivity. Qed.
Example C92_ex_floor : one_nearest s_map (Some (Q2Qc (1 # 3))).
Proof.
  set (f := Q2Qc (1 # 3)). assert (forallb (fun b => forallb (fun c => implb (qeq (qabs (bY b - f)) (qabs (bY c - f))) (qeq (bY b) (bY c))) s_map) s_map = true) as H by (vm_compute; reflexivity).
  intros g b c Eg Hb Hc E. assert (f = g) as <- by congruence. rewrite forallb_forall in H. specialize (H b Hb). rewrite forallb_forall in H. specialize (H c Hc). rewrite E in H.
  assert (qeq (qabs (bY c - f)) (qabs (bY c - f)) = true) as T by (apply qeq_true; reflexivity). rewrite T in H. apply qeq_true. exact H.
Qed.

(** ** C93: left and right *)
(** The interface of the mirrored map is the mirrored interface. *)
Theorem C93_interface : forall t V V' data fi o, (forall b, V' (mirror t b) = V b) -> longest_opt o = false ->
  rmap (places (map (mirror t) data)) (get_interface V' (map (mirror t) data) fi o) = rmap (fun pairs => mirrored t (places data pairs)) (get_interface V data fi o).
Proof. intros t V V' data fi o HV Ho. exact (interface_moved V V' true t (mirror t) (fun _ => eq_refl) (fun _ => eq_refl) HV data _ (Permutation_refl _) fi fi o Ho). Qed.
Print Assumptions C93_interface.
(** The cells at the left are the mirror images of those at the right, and the other way around. *)
Theorem C93_contact_line : forall t V V' data fi o w h eh, (forall b, V' (mirror t b) = V b) -> longest_opt o = false ->
  match get_contact_line_cells V data fi o (w, h) eh, get_contact_line_cells V' (map (mirror t) data) fi o (w, h) eh with
  | Ok (l, r), Ok (l', r') => Permutation l' (map (mirror t) r) /\ Permutation r' (map (mirror t) l)
  | Err e, Err e' => e' = e
  | _, _ => False
  end.
Proof.
  intros t V V' data fi o w h eh HV Ho. pose proof (contact_moved V V' true t (mirror t) (fun _ => eq_refl) (fun _ => eq_refl) HV data _ fi fi (Permutation_refl _) o w h eh Ho) as H.
  destruct (get_contact_line_cells V data fi o (w, h) eh) as [[l r]|], (get_contact_line_cells V' _ fi o (w, h) eh) as [[l' r']|]; exact H.
Qed.
Print Assumptions C93_contact_line.
(** The angles change places, also with a floor. *)
Theorem C93_contact_angle : forall t V V' data fi o h floor, (forall b, V' (mirror t b) = V b) -> longest_opt o = false ->
  get_contact_angle V' (map (mirror t) data) fi o h floor = rmap (option_map (fun a => (snd a, fst a))) (get_contact_angle V data fi o h floor).
Proof.
  intros t V V' data fi o h floor HV Ho. apply (angle_moved V V' true t (mirror t) (fun _ => eq_refl) (fun _ => eq_refl) HV data _ fi fi (Permutation_refl _) o h floor Ho).
  destruct floor as [f|]; [|reflexivity]. cbn [floor_height]. rewrite map_map. cbn [mirror bY]. destruct (argmin _) as [k|] eqn:E; [|reflexivity]. cbn [of_option rbind]. do 2 f_equal.
  apply argmin_lt in E. rewrite map_length in E. unfold cy. rewrite nth_in by exact E. reflexivity.
Qed.
Print Assumptions C93_contact_angle.
(** The edges change places, also with a floor; the distance between them is the same. *)
Theorem C93_spreading_edges : forall t V V' data fi c r nb floor, (forall b, V' (mirror t b) = V b) ->
  get_spreading_edges V' (map (mirror t) data) fi c r nb false floor = rmap (option_map (fun e => (t - snd e, t - fst e))) (get_spreading_edges V data fi c r nb false floor).
Proof.
  intros t V V' data fi c r nb floor HV. apply (spread_moved V V' true t (mirror t) (fun _ => eq_refl) (fun _ => eq_refl) HV data _ fi fi (Permutation_refl _) c r nb floor).
  f_equal. rewrite map_map. reflexivity.
Qed.
Print Assumptions C93_spreading_edges.
Example C93_fields t : (forall b, bM (mirror t b) = bM b) /\ (forall b, (fun c => - bU c) (mirror t b) = bU b).
Proof. split; [reflexivity|]. intros b. cbn [mirror bU]. ring. Qed.
Example C93_ex : rmap (places (map (mirror (ZQ 3)) s_map)) (get_interface bM (map (mirror (ZQ 3)) s_map) s_info (s_opts false)) = Ok [(ZQ 0, ZQ 2, ZQ 0); (ZQ 0, ZQ 1, ZQ 1)].
Proof. rewrite (C93_interface (ZQ 3) bM bM) by reflexivity. vm_compute. reflexivity. Qed.

(** ** The center of mass *)
Lemma average_perm (f w : bin -> Qc) data data' : Permutation data data' -> np_average (map f data') (map w data') = np_average (map f data) (map w data).
Proof.
  intros HP. unfold np_average. assert (forall d : list bin, combine (map f d) (map w d) = map (fun b => (f b, w b)) d) as C by (intros d; induction d as [|b d IH]; [reflexivity|]; cbn [map combine]; rewrite IH; reflexivity).
  rewrite !C, !map_map. cbn [fst snd]. rewrite (qsum_perm (map w data') (map w data)) by (apply Permutation_map; symmetry; exact HP).
  rewrite (qsum_perm (map (fun b => f b * w b) data') (map (fun b => f b * w b) data)) by (apply Permutation_map; symmetry; exact HP). reflexivity.
Qed.
Theorem C92_center_of_mass : forall data data', Permutation data data' -> Sample.sample_center_of_mass data' = Sample.sample_center_of_mass data.
Proof. intros data data' HP. unfold Sample.sample_center_of_mass. rewrite !(average_perm _ bM data data' HP). reflexivity. Qed.
Print Assumptions C92_center_of_mass.
Theorem C93_center_of_mass : forall t data, Sample.sample_center_of_mass (map (mirror t) data) = rmap (fun p => (t - fst p, snd p)) (Sample.sample_center_of_mass data).
Proof.
  intros t data. unfold Sample.sample_center_of_mass. assert (forall F : bin -> Qc, map F (map (mirror t) data) = map (fun b => F (mirror t b)) data) as MM by (intros; apply map_map). rewrite !MM. cbn [mirror bX bY bM]. change (map (fun b => bM b) data) with (map bM data). change (map (fun b => bY b) data) with (map bY data).
  unfold np_average. assert (forall g : bin -> Qc, combine (map g data) (map bM data) = map (fun b => (g b, bM b)) data) as C by (intros g; clear; induction data as [|b d IH]; [reflexivity|]; cbn [map combine]; rewrite IH; reflexivity).
  rewrite !C, !map_map. cbn [fst snd]. destruct (qeq (qsum (map bM data)) 0) eqn:E; [reflexivity|]. cbn [rbind rmap fst snd]. do 2 f_equal.
  assert (qsum (map (fun b => (t - bX b) * bM b) data) = t * qsum (map bM data) - qsum (map (fun b => bX b * bM b) data)) as ->.
  { clear. induction data as [|b d IH]; cbn [map]; [rewrite !qsum_nil; ring|]. rewrite !qsum_cons, IH. ring. }
  assert (qsum (map bM data) <> 0) as N by (intros Z; rewrite Z in E; vm_compute in E; discriminate). set (W := qsum (map bM data)) in *. set (S := qsum _). field. exact N.
Qed.
Print Assumptions C93_center_of_mass.
