(** Properties C29 and C60: cells at the contact line and contact angles. *)
From Coq Require Import Reals.
From Verif.Base Require Import QcX QcR Res Np ListX.
From Verif.Model Require Import Bins Flow Interface ContactLine ContactAngle.
From Verif.Spec Require Import FlowSpec InterfaceSpec ContactLineSpec AngleSpec.
From Verif.Proofs Require Import InterfaceP ContactLineP AngleP.
Local Open Scope Qc_scope.
Local Open Scope list_scope.

(** The layers of an interface with the position of one edge. *)
Definition left_layers (data : list bin) (ys : list Qc) (pairs : list (nat * nat)) : list layer := combine ys (map (fun p => x_of data (fst p)) pairs).
Definition right_layers (data : list bin) (ys : list Qc) (pairs : list (nat * nat)) : list layer := combine ys (map (fun p => x_of data (snd p)) pairs).

Lemma x_of_cx data i : x_of data i = cx data i.
Proof. unfold x_of, cx. destruct (nth_error data i) as [b|] eqn:E; [rewrite (nth_error_nth _ _ _ E); reflexivity|]. apply nth_error_None in E. rewrite nth_overflow by exact E. reflexivity. Qed.
Lemma left_edge data ys pairs : left_layers data ys pairs = edge_layers data ys (map fst pairs).
Proof. unfold left_layers, edge_layers. rewrite map_map. f_equal. apply map_ext. intros p. apply x_of_cx. Qed.
Lemma right_edge data ys pairs : right_layers data ys pairs = edge_layers data ys (map snd pairs).
Proof. unfold right_layers, edge_layers. rewrite map_map. f_equal. apply map_ext. intros p. apply x_of_cx. Qed.
Lemma layers_fst data ys pairs : Forall2 (fun y p => in_layer data y (fst p) /\ in_layer data y (snd p)) ys pairs -> Forall2 (fun y j => cy data j = y) ys (map fst pairs).
Proof. induction 1 as [|y p ys pairs [H1 H2] HF IH]; simpl; constructor; [apply layer_y; exact H1|exact IH]. Qed.
Lemma layers_snd data ys pairs : Forall2 (fun y p => in_layer data y (fst p) /\ in_layer data y (snd p)) ys pairs -> Forall2 (fun y j => cy data j = y) ys (map snd pairs).
Proof. induction 1 as [|y p ys pairs [H1 H2] HF IH]; simpl; constructor; [apply layer_y; exact H2|exact IH]. Qed.

(** ** C29: cells *)
(** An interface (of either search) has layers from below. *)
Theorem C29_interface : forall V data fi o pairs, get_interface V data fi o = Ok pairs -> exists ys, interface_layers data ys pairs.
Proof. intros V data fi o pairs H. destruct (interface_has_layers V data fi o pairs H) as (ys & HL & _). eauto. Qed.
Print Assumptions C29_interface.
(** The extracted cells, in their order in the map: without an interface none; else exactly those of
    the region at the edge: w inwards, up to height h, placed at height eh. *)
Theorem C29_cells : forall V data fi o w h eh pairs ys, get_interface V data fi o = Ok pairs -> interface_layers data ys pairs ->
  exists L R, get_contact_line_cells V data fi o (w, h) eh = Ok (L, R) /\
    (exists f, L = filter f data) /\ (exists f, R = filter f data) /\
    match ys with
    | [] => L = [] /\ R = []
    | y0 :: _ => forall b, (In b L <-> In b data /\ contact_cell w eh h y0 (left_layers data ys pairs) b) /\
                           (In b R <-> In b data /\ contact_cell (- w) eh h y0 (right_layers data ys pairs) b)
    end.
Proof.
  intros V data fi o w h eh pairs ys HG [Hi HF]. unfold get_contact_line_cells. rewrite HG. cbn [rbind fst snd].
  eexists _, _. split; [reflexivity|]. split; [apply cells_of_edge_filter|]. split; [apply cells_of_edge_filter|].
  destruct HF as [|y0 p0 ys pairs H0 HF]; [split; reflexivity|]. pose proof Hi as Hi0. inversion Hi as [|? ? Hy Hi']; subst.
  destruct (up_to_prefix data (cy data (fst p0) + h) pairs ys (conj Hi' HF)) as (n & E & Hn & H1 & H2).
  cbn [interface_of_height]. rewrite E. cbn [map]. rewrite <- !firstn_map.
  assert (cy data (fst p0) = y0) as E0 by (apply layer_y, H0). rewrite E0 in H1, H2.
  intros b. split.
  - rewrite left_edge. apply cells_of_edge_spec; auto; [|rewrite map_length; exact Hn]. apply (layers_fst data (y0 :: ys) (p0 :: pairs)). constructor; assumption.
  - rewrite right_edge. apply cells_of_edge_spec; auto; [|rewrite map_length; exact Hn]. apply (layers_snd data (y0 :: ys) (p0 :: pairs)). constructor; assumption.
Qed.
Print Assumptions C29_cells.
(** Errors are those of the interface search. *)
Theorem C29_errors : forall V data fi o area eh e, get_interface V data fi o = Err e -> get_contact_line_cells V data fi o area eh = Err e.
Proof. intros V data fi o area eh e H. unfold get_contact_line_cells. rewrite H. reflexivity. Qed.
(** By default only the edge cells of the lowest layer. *)
Theorem C29_default_area : forall V data fi o pairs p0 rest, get_interface V data fi o = Ok pairs -> pairs = p0 :: rest ->
  exists L R b c, get_contact_line_cells V data fi o (0, 0) 0 = Ok (L, R) /\ nth_error data (fst p0) = Some b /\ nth_error data (snd p0) = Some c /\
    (forall d, In d L <-> In d data /\ bX d = bX b /\ bY d = bY b) /\
    (forall d, In d R <-> In d data /\ bX d = bX c /\ bY d = bY c).
Proof.
  intros V data fi o pairs p0 rest HG ->. destruct (C29_interface _ _ _ _ _ HG) as (ys & HI & HF). pose proof HF as HF0.
  destruct (C29_cells V data fi o 0 0 0 _ ys HG (conj HI HF)) as (L & R & E & _ & _ & HC). destruct ys as [|y0 ys]; [inversion HF|].
  inversion HF as [|? ? ? ? [(b & Hb & Yb) (c & Hc & Yc)] HF']; subst. exists L, R, b, c. split; [exact E|]. split; [exact Hb|]. split; [exact Hc|].
  inversion HI as [|? ? Hy HI']; subst.
  assert (forall (g : nat * nat -> nat) e, nth_error data (g p0) = Some e ->
     forall d, contact_cell 0 0 0 (bY b) (combine (bY b :: ys) (map (fun p => x_of data (g p)) (p0 :: rest))) d <-> bX d = bX e /\ bY d = bY b) as G.
  { intros g e He d. set (ls := combine _ _).
    assert (forall l, low 0 (bY b) ls l <-> l = (bY b, bX e)) as HL.
    { intros [y x]. unfold low, ls. cbn [map combine fst]. assert (x_of data (g p0) = bX e) as -> by (unfold x_of; rewrite He; reflexivity). split.
      - intros [[H|H] HO]; [congruence|]. exfalso. apply in_combine_l in H. specialize (Hy y H). destruct HO as [-> | HO]; qlra.
      - intros [= -> ->]. split; [left; reflexivity|left; reflexivity]. }
    assert (forall rf, reference 0 0 (bY b) ls rf <-> rf = (bY b, bX e)) as HR.
    { intros rf. unfold reference. rewrite HL. split; [tauto|]. intros ->. split; [reflexivity|]. split; [left; reflexivity|]. intros l' Hl _. apply HL in Hl. subst. apply Qcle_refl. }
    unfold contact_cell. split.
    - intros (A1 & (l & Hl & A2) & rf & Hrf & A3 & A4). apply HL in Hl. apply HR in Hrf. subst. cbn [fst snd] in *.
      assert (bX e <= bX d) by (destruct A3 as [(l & Hl & A3)|A3]; [apply HL in Hl; subst; exact A3|qlra']).
      assert (bX d <= bX e) by (destruct A4 as [(l & Hl & A4)|A4]; [apply HL in Hl; subst; exact A4|qlra']).
      split; apply Qcle_antisym; assumption.
    - intros [X Y]. split; [rewrite Y; apply Qcle_refl|]. split; [exists (bY b, bX e); split; [apply HL; reflexivity|cbn [fst]; rewrite Y; apply Qcle_refl]|].
      exists (bY b, bX e). split; [apply HR; reflexivity|]. cbn [snd]. split; left; exists (bY b, bX e); (split; [apply HL; reflexivity|]); cbn [snd]; rewrite X; apply Qcle_refl. }
  split; intros d.
  - destruct (HC d) as [-> _]. unfold left_layers. rewrite (G fst b Hb). reflexivity.
  - destruct (HC d) as [_ ->]. unfold right_layers. replace (- 0) with 0 by ring. rewrite (G snd c Hc). rewrite Yc. reflexivity.
Qed.
Print Assumptions C29_default_area.

(** ** C29: adjusted coordinates *)
Definition moved_by (x y : Qc) (b c : bin) : Prop :=
  bX c = bX b - x /\ bY c = bY b - y /\ bN c = bN b /\ bT c = bT b /\ bM c = bM b /\ bU c = bU b /\ bV c = bV b.
Theorem C29_adjust : forall cells d adj out, d <> SOther -> adjust_cell_coordinates cells d = Ok (adj, out) ->
  Forall2 (moved_by (fst adj) (snd adj)) cells out /\
  (cells = [] -> adj = (0, 0)) /\
  (cells <> [] -> (exists c, In c out /\ bY c = 0) /\ (forall c, In c out -> 0 <= bY c) /\
                  (exists c, In c out /\ bX c = 0) /\ (forall c, In c out -> match d with SLeft => bX c <= 0 | _ => 0 <= bX c end)).
Proof.
  intros cells d adj out Hd H. unfold adjust_cell_coordinates in H. destruct (edge_x d (map bX cells)) as [x0|] eqn:EX; [|discriminate]. cbn [rbind] in H. cbv zeta in H.
  injection H as EA EO. rewrite EA in EO. subst out. split; [|split].
  - clear. induction cells as [|b cells IH]; simpl; constructor; [|exact IH]. unfold moved_by. cbn. auto 8.
  - intros ->. cbn in EX. rewrite <- EA. destruct d; [| |congruence]; injection EX as <-; reflexivity.
  - intros Hne. destruct (list_min (map bY cells)) as [y|] eqn:EY; [|apply list_min_none in EY; destruct cells; [congruence|discriminate]].
    assert (exists x, x0 = Some x /\ In x (map bX cells) /\ forall z, In z (map bX cells) -> match d with SLeft => z <= x | _ => x <= z end) as (x & -> & HX1 & HX2).
    { destruct d; cbn [edge_x] in EX; [| |discriminate]; injection EX as <-.
      - destruct (list_max (unique (map bX cells))) as [x|] eqn:E.
        + apply list_max_spec in E as [E1 E2]. exists x. split; [reflexivity|]. split; [apply (proj1 (unique_in _ _)); exact E1|]. intros z Hz. apply E2, unique_in, Hz.
        + exfalso. apply list_max_none in E. destruct cells as [|b cells]; [congruence|]. assert (In (bX b) (unique (map bX (b :: cells)))) as HI by (apply unique_in; left; reflexivity). rewrite E in HI. destruct HI.
      - destruct (list_min (unique (map bX cells))) as [x|] eqn:E.
        + apply list_min_spec in E as [E1 E2]. exists x. split; [reflexivity|]. split; [apply (proj1 (unique_in _ _)); exact E1|]. intros z Hz. apply E2, unique_in, Hz.
        + exfalso. apply list_min_none in E. destruct cells as [|b cells]; [congruence|]. assert (In (bX b) (unique (map bX (b :: cells)))) as HI by (apply unique_in; left; reflexivity). rewrite E in HI. destruct HI. }
    rewrite <- EA. cbn [fst snd]. apply list_min_spec in EY as [EY1 EY2]. split; [|split; [|split]].
    + apply in_map_iff in EY1 as (b & Eb & Hb). eexists. split; [apply in_map; exact Hb|]. cbn. rewrite Eb. ring.
    + intros c Hc. apply in_map_iff in Hc as (b & <- & Hb). cbn. assert (y <= bY b) by (apply EY2, in_map, Hb). qlra'.
    + apply in_map_iff in HX1 as (b & Eb & Hb). eexists. split; [apply in_map; exact Hb|]. cbn. rewrite Eb. ring.
    + intros c Hc. apply in_map_iff in Hc as (b & <- & Hb). specialize (HX2 (bX b) (in_map _ _ _ Hb)). cbn [bX]. destruct d; qlra'.
Qed.
Print Assumptions C29_adjust.
Theorem C29_adjust_total : forall cells d, match d with SOther => adjust_cell_coordinates cells d = Err KeyErr | _ => exists r, adjust_cell_coordinates cells d = Ok r end.
Proof. intros cells [| |]; [eexists; reflexivity|eexists; reflexivity|reflexivity]. Qed.
Print Assumptions C29_adjust_total.

(** ** C60: contact angle *)
(** The layer number [k] is the highest one at most [h] above the lowest. *)
Definition top_layer (ys : list Qc) (h : Qc) (k : nat) : Prop :=
  exists y0 y, nth_error ys 0 = Some y0 /\ nth_error ys k = Some y /\ y - y0 <= h /\
    forall j z, nth_error ys j = Some z -> (k < j)%nat -> h < z - y0.
Lemma angle_loop_spec data ymin xl xr h pairs ys : interface_layers data ys pairs -> forall acc,
  (exists k l r, nth_error pairs k = Some (l, r) /\ angle_loop data ymin xl xr h pairs acc = Some (cy data l - ymin, cx data l - xl, xr - cx data r) /\
     cy data l - ymin <= h /\ forall j z, nth_error ys j = Some z -> (k < j)%nat -> h < z - ymin) \/
  (angle_loop data ymin xl xr h pairs acc = acc /\ forall z, In z ys -> h < z - ymin).
Proof.
  intros [Hi HF]. revert Hi. induction HF as [|y [l r] ys pairs [HL HR] HF IH]; intros Hi acc; [right; split; [reflexivity|intros ? []]|].
  inversion Hi as [|? ? Hy Hi']; subst. cbn [angle_loop]. cbn [fst] in HL. pose proof (layer_y data y l HL) as EY.
  destruct (qle_spec (cy data l - ymin) h) as [A|A].
  - left. destruct (IH Hi' (Some (cy data l - ymin, cx data l - xl, - (cx data r - xr)))) as [(k & l' & r' & Hk & E & B & C)|(E & B)].
    + exists (S k), l', r'. split; [exact Hk|]. split; [exact E|]. split; [exact B|]. intros [|j] z Hz Hj; [lia|]. eapply C; [exact Hz|lia].
    + exists 0%nat, l, r. split; [reflexivity|]. split; [rewrite E; f_equal; f_equal; ring|]. split; [exact A|].
      intros [|j] z Hz Hj; [lia|]. apply B. eapply nth_error_In. exact Hz.
  - right. split; [reflexivity|]. apply Qcnot_le_lt in A. rewrite EY in A. intros z [<- | Hz]; [exact A|]. specialize (Hy z Hz). qlra'.
Qed.
(** Between the lowest layer and the highest one within the height: (dy, left, right) are the height
    and how far the edges are inwards. *)
Theorem C60_triangle : forall V data fi o h pairs ys,
  get_interface V data fi (mkIopts (cutoff_opt o) (radius_opt o) (bins_opt o) (longest_opt o) (None, None)) = Ok pairs -> interface_layers data ys pairs ->
  (pairs = [] -> contact_triangle V data fi o h None = Err StopIter) /\
  (forall k l0 r0 l r, k <> 0%nat -> top_layer ys h k -> nth_error pairs 0 = Some (l0, r0) -> nth_error pairs k = Some (l, r) ->
     exists y0 y, nth_error ys 0 = Some y0 /\ nth_error ys k = Some y /\ y0 < y /\
       contact_triangle V data fi o h None = Ok (Some (y - y0, x_of data l - x_of data l0, x_of data r0 - x_of data r))) /\
  (pairs <> [] -> (forall k, k <> 0%nat -> ~ top_layer ys h k) -> contact_triangle V data fi o h None = Err UnboundErr).
Proof.
  intros V data fi o h pairs ys HG [Hi HF]. unfold contact_triangle. cbn [floor_height rbind]. rewrite HG. cbn [rbind]. clear HG.
  destruct HF as [|y0 [l0 r0] ys pairs [HL0 HR0] HF].
  { split; [reflexivity|]. split; [|intros N; congruence]. intros k l1 r1 l r Hk _ E. discriminate. }
  inversion Hi as [|? ? Hy Hi']; subst. cbn [fst snd] in HL0, HR0. pose proof (layer_y _ _ _ HL0) as EY.
  split; [discriminate|].
  destruct (angle_loop_spec data (cy data l0) (cx data l0) (cx data r0) h pairs ys (conj Hi' HF) None) as [(k & l & r & Hk & E & A & B)|(E & B)].
  - assert (nth_error ys k = Some (cy data l)) as Hyk.
    { clear - HF Hk. revert k Hk. induction HF as [|y p ys pairs [H1 H2] HF IH]; intros [|k] Hk; try discriminate; [|apply IH; exact Hk].
      injection Hk as ->. cbn [fst] in H1. rewrite (layer_y _ _ _ H1). reflexivity. }
    rewrite E. cbn [of_option rbind]. split.
    + intros k' l1 r1 l' r' Hk' (u & v & U1 & U2 & U3 & U4) E0 E1. injection E0 as <- <-. destruct k' as [|k']; [congruence|]. cbn [nth_error] in U1, U2, E1.
      assert (u = y0) as -> by congruence. 
      assert (k' = k) as ->.
      { destruct (Nat.lt_trichotomy k' k) as [C|[C|C]]; [|exact C|].
        - exfalso. assert (h < cy data l - y0) as D by (apply (U4 (S k)); [exact Hyk|lia]). rewrite EY in A. qlra.
        - exfalso. assert (h < v - cy data l0) as D by (apply (B k'); [exact U2|exact C]). rewrite EY in D. qlra. }
      rewrite Hk in E1. injection E1 as <- <-. exists y0, (cy data l). split; [reflexivity|]. split; [exact Hyk|]. split; [apply Hy; eapply nth_error_In; exact Hyk|].
      rewrite !x_of_cx, EY. reflexivity.
    + intros _ HN. exfalso. apply (HN (S k)); [discriminate|]. exists y0, (cy data l). split; [reflexivity|]. split; [exact Hyk|]. split; [rewrite <- EY; exact A|].
      intros [|j] z Hz Hj; [lia|]. rewrite <- EY. apply (B j); [exact Hz|lia].
  - rewrite E. cbn [of_option rbind]. split; [|reflexivity].
    intros k' l1 r1 l' r' Hk' (u & v & U1 & U2 & U3 & U4) E0 E1. exfalso. destruct k' as [|k']; [congruence|]. cbn [nth_error] in U1, U2.
    assert (u = y0) as -> by congruence. apply nth_error_In in U2. specialize (B v U2). rewrite EY in B. qlra.
Qed.
Print Assumptions C60_triangle.
(** With a floor: the same for the layers from the height [f] of the cell nearest to the floor, but
    (None, None) if the lowest of them is not at this height. *)
Theorem C60_floor : forall V data fi o h floor, data <> [] -> exists f,
  (exists b, In b data /\ bY b = f /\ forall c, In c data -> qabs (f - floor) <= qabs (bY c - floor)) /\
  forall pairs ys, get_interface V data fi (mkIopts (cutoff_opt o) (radius_opt o) (bins_opt o) (longest_opt o) (Some f, None)) = Ok pairs ->
    interface_layers data ys pairs ->
    match ys with
    | [] => contact_triangle V data fi o h (Some floor) = Err StopIter
    | y0 :: _ =>
      (y0 <> f -> contact_triangle V data fi o h (Some floor) = Ok None) /\
      (y0 = f ->
        (forall k l0 r0 l r, k <> 0%nat -> top_layer ys h k -> nth_error pairs 0 = Some (l0, r0) -> nth_error pairs k = Some (l, r) ->
          exists y, nth_error ys k = Some y /\ f < y /\
          contact_triangle V data fi o h (Some floor) = Ok (Some (y - f, x_of data l - x_of data l0, x_of data r0 - x_of data r))) /\
        ((forall k, k <> 0%nat -> ~ top_layer ys h k) -> contact_triangle V data fi o h (Some floor) = Err UnboundErr))
    end.
Proof.
  intros V data fi o h floor Hne. destruct (argmin_some (map (fun b => qabs (bY b - floor)) data)) as (k0 & EK); [destruct data; [congruence|discriminate]|].
  exists (cy data k0). split.
  - apply argmin_spec in EK as (v & E1 & E2 & _). rewrite nth_error_map in E1. destruct (nth_error data k0) as [b|] eqn:Eb; [|discriminate]. injection E1 as <-.
    assert (cy data k0 = bY b) as -> by (unfold cy; rewrite (nth_error_nth _ _ _ Eb); reflexivity).
    exists b. split; [eapply nth_error_In; exact Eb|]. split; [reflexivity|]. intros c Hc. apply E2. apply in_map_iff. eauto.
  - intros pairs ys HG [Hi HF].
    assert (contact_triangle V data fi o h (Some floor) = match pairs with [] => Err StopIter
      | (l, r) :: rest => if negb (qeq (cy data l) (cy data k0)) then Ok None else do a <- of_option UnboundErr (angle_loop data (cy data l) (cx data l) (cx data r) h rest None); Ok (Some a) end) as HC.
    { unfold contact_triangle, floor_height. rewrite EK. cbn [of_option rbind]. rewrite HG. reflexivity. }
    rewrite HC. clear HC HG. set (f := cy data k0). clearbody f.
    destruct HF as [|y0 [l0 r0] ys pairs [HL0 HR0] HF]; [reflexivity|].
    inversion Hi as [|? ? Hy Hi']; subst. cbn [fst snd] in HL0, HR0. pose proof (layer_y _ _ _ HL0) as EY. rewrite !EY.
    split; [intros N; destruct (qeq_spec y0 f); [congruence|reflexivity]|]. intros ->. rewrite qeq_refl. cbn [negb].
    destruct (angle_loop_spec data f (cx data l0) (cx data r0) h pairs ys (conj Hi' HF) None) as [(k & l & r & Hk & E & A & B)|(E & B)].
    + assert (nth_error ys k = Some (cy data l)) as Hyk.
      { clear - HF Hk. revert k Hk. induction HF as [|y p ys pairs [H1 H2] HF IH]; intros [|k] Hk; try discriminate; [|apply IH; exact Hk].
        injection Hk as ->. cbn [fst] in H1. rewrite (layer_y _ _ _ H1). reflexivity. }
      rewrite E. cbn [of_option rbind]. split.
      * intros k' l1 r1 l' r' Hk' (u & v & U1 & U2 & U3 & U4) E0 E1. injection E0 as <- <-. destruct k' as [|k']; [congruence|]. cbn [nth_error] in U1, U2, E1.
        assert (u = f) as -> by congruence.
        assert (k' = k) as ->.
        { destruct (Nat.lt_trichotomy k' k) as [C|[C|C]]; [|exact C|].
          - exfalso. assert (h < cy data l - f) as D by (apply (U4 (S k)); [exact Hyk|lia]). qlra.
          - exfalso. assert (h < v - f) as D by (apply (B k'); [exact U2|exact C]). qlra. }
        rewrite Hk in E1. injection E1 as <- <-. exists (cy data l). split; [exact Hyk|]. split; [apply Hy; eapply nth_error_In; exact Hyk|].
        rewrite !x_of_cx. reflexivity.
      * intros HN. exfalso. apply (HN (S k)); [discriminate|]. exists f, (cy data l). split; [reflexivity|]. split; [exact Hyk|]. split; [exact A|].
        intros [|j] z Hz Hj; [lia|]. apply (B j); [exact Hz|lia].
    + rewrite E. cbn [of_option rbind]. split; [|reflexivity].
      intros k' l1 r1 l' r' Hk' (u & v & U1 & U2 & U3 & U4) E0 E1. exfalso. destruct k' as [|k']; [congruence|]. cbn [nth_error] in U1, U2.
      assert (u = f) as -> by congruence. apply nth_error_In in U2. specialize (B v U2). qlra.
Qed.
Print Assumptions C60_floor.

(** The angles of a triangle: between the horizontal towards the inside and the line from the lower to
    the upper edge point. *)
Theorem C60_angles : forall V data fi o h floor dy dl dr, contact_triangle V data fi o h floor = Ok (Some (dy, dl, dr)) -> 0 < dy ->
  exists al ar, get_contact_angle V data fi o h floor = Ok (Some (al, ar)) /\
    direction_angle (QR dl) (QR dy) al /\ direction_angle (QR dr) (QR dy) ar.
Proof.
  intros V data fi o h floor dy dl dr H Hdy. unfold get_contact_angle. rewrite H. cbn [rmap rbind option_map angles]. eexists _, _. split; [reflexivity|].
  apply QR_pos in Hdy. split; apply atan2_angle; exact Hdy.
Qed.
Print Assumptions C60_angles.
(** This angle is unique, and acute if and only if the droplet narrows upwards. *)
Theorem C60_angle_meaning : forall x y a, (0 < y)%R -> direction_angle x y a ->
  (forall b, direction_angle x y b -> a = b) /\ ((a < 90)%R <-> (0 < x)%R) /\ (a = 90%R <-> x = 0%R).
Proof.
  intros x y a Hy H. split; [intros b Hb; eapply direction_unique; eassumption|]. apply angle_right_angle with y; assumption.
Qed.
Print Assumptions C60_angle_meaning.

(** A droplet of three layers: 1-6, 2-5, 3-4. *)
Definition drop : list bin := map (fun p => mkBin (ZQ (fst p)) (ZQ (snd p)) 0 0 1 0 0)
  [(1, 0); (2, 0); (3, 0); (4, 0); (5, 0); (6, 0); (2, 1); (3, 1); (4, 1); (5, 1); (3, 2); (4, 2)]%Z.
Definition drop_opts := mkIopts (Some 1) (Some 1) 1 false (None, None).
Example C29_case : exists L R, get_contact_line_cells bM drop finfo0 drop_opts (1, 1) 0 = Ok (L, R) /\
  map (fun b => (bX b, bY b)) L = [(ZQ 1, ZQ 0); (ZQ 2, ZQ 0); (ZQ 2, ZQ 1)] /\ map (fun b => (bX b, bY b)) R = [(ZQ 5, ZQ 0); (ZQ 6, ZQ 0); (ZQ 5, ZQ 1)].
Proof.
  eexists _, _. split; [vm_compute; reflexivity|]. split; cbn [map bX bY]; repeat (apply (f_equal2 cons); [apply (f_equal2 pair); apply Qc_is_canon; reflexivity|]); reflexivity.
Qed.
Example C60_case : exists a b c, contact_triangle bM drop finfo0 drop_opts (ZQ 2) None = Ok (Some (a, b, c)) /\ a = ZQ 2 /\ b = ZQ 2 /\ c = ZQ 2.
Proof. eexists _, _, _. split; [vm_compute; reflexivity|]. split; [|split]; apply Qc_is_canon; reflexivity. Qed.
