(** Properties C48-C49: the simple file formats. *)
From Coq Require Import String Ascii Permutation.
From Verif.Base Require Import QcX Res Np Bytes Sums.
From Verif.Model Require Import Text Gmx Simple.
From Verif.Proofs Require Import TextP GmxP GmxRoundP SimpleP FormatsP.
Local Open Scope list_scope.

(** ** C49 *)
(** The positions ([X], [Y]) are those of an [nx] by [ny] grid, in any order. *)
Definition grid_positions (x0 y0 dx dy : Qc) (nx ny : nat) (X Y : list Qc) : Prop :=
  List.length X = List.length Y /\
  Permutation (combine X Y) (grid nx ny (fun a b => (x0 + NQ a * dx, y0 + NQ b * dy))).
Theorem C49_information_recovered_partial : forall x0 y0 dx dy nx ny X Y, 0 < dx -> Q2Qc (1 # 10000) <= dy -> (2 <= nx)%nat -> (2 <= ny)%nat ->
  grid_positions x0 y0 dx dy nx ny X Y ->
  calc_information X Y = Ok (mkMinfo (nx, ny) (Fin dx, Fin dy) (x0, y0)).
Proof.
  intros x0 y0 dx dy nx ny X Y Hdx Hdy Hnx Hny [HL HP].
  rewrite (calc_information_grid x0 y0 dx dy nx ny X Y Hdx Hdy ltac:(lia) ltac:(lia) HL HP).
  unfold spacing_of. destruct (Nat.eqb_spec nx 1); [lia|]. destruct (Nat.eqb_spec ny 1); [lia|]. reflexivity.
Qed.
Print Assumptions C49_information_recovered_partial.
(** Refuted: along an axis with a single bin the spacing is not a number. *)
Theorem C49_single_row_refuted : forall x0 y0 dx dy nx X Y, 0 < dx -> Q2Qc (1 # 10000) <= dy -> (2 <= nx)%nat -> grid_positions x0 y0 dx dy nx 1 X Y ->
  calc_information X Y = Ok (mkMinfo (nx, 1%nat) (Fin dx, NaN) (x0, y0)).
Proof.
  intros x0 y0 dx dy nx X Y Hdx Hdy Hnx [HL HP].
  rewrite (calc_information_grid x0 y0 dx dy nx 1 X Y Hdx Hdy ltac:(lia) ltac:(lia) HL HP).
  unfold spacing_of. destruct (Nat.eqb_spec nx 1); [lia|]. reflexivity.
Qed.
Print Assumptions C49_single_row_refuted.
(** Refuted: rows closer than 0.0001 are taken for one. *)
Theorem C49_close_rows_refuted : exists X Y, grid_positions 0 0 1 (Q2Qc (1 # 20000)) 2 2 X Y /\
  calc_information X Y = Ok (mkMinfo (4, 1)%nat (Fin (Q2Qc (1 # 3)), PInf) (0, 0)).
Proof.
  exists (grid 2 2 (fun a _ => 0 + NQ a * 1)), (grid 2 2 (fun _ b => 0 + NQ b * Q2Qc (1 # 20000))). split.
  - split; [reflexivity|]. vm_compute. reflexivity.
  - vm_compute. reflexivity.
Qed.
Print Assumptions C49_close_rows_refuted.
(** Different lengths and empty arrays are errors. *)
Theorem C49_bad_arrays : forall X Y, (List.length X <> List.length Y -> calc_information X Y = Err ValueErr) /\ calc_information [] [] = Err IndexErr.
Proof.
  intros X Y. split; [|reflexivity]. intros H. unfold calc_information. destruct (Nat.eqb_spec (List.length X) (List.length Y)); [contradiction|reflexivity].
Qed.
Print Assumptions C49_bad_arrays.
Lemma shuffled {A} (a b c d e f : A) : Permutation [f; a; d; c; b; e] [a; b; c; d; e; f].
Proof.
  apply (Permutation_cons_app [a; b; c; d; e] []). apply perm_skip. apply (Permutation_cons_app [b; c] [e]). apply (Permutation_cons_app [b] [e]). reflexivity.
Qed.
Example C49_nonvacuous : grid_positions (Q2Qc (1 # 8)) 0 (Q2Qc (1 # 4)) 1 2 3
  [Q2Qc (3 # 8); Q2Qc (1 # 8); Q2Qc (3 # 8); Q2Qc (1 # 8); Q2Qc (1 # 8); Q2Qc (3 # 8)] [ZQ 2; 0; 0; ZQ 2; 1; 1].
Proof.
  split; [reflexivity|].
  assert (combine [Q2Qc (3 # 8); Q2Qc (1 # 8); Q2Qc (3 # 8); Q2Qc (1 # 8); Q2Qc (1 # 8); Q2Qc (3 # 8)] [ZQ 2; 0; 0; ZQ 2; 1; 1] =
    [(Q2Qc (3 # 8), ZQ 2); (Q2Qc (1 # 8), 0); (Q2Qc (3 # 8), 0); (Q2Qc (1 # 8), ZQ 2); (Q2Qc (1 # 8), 1); (Q2Qc (3 # 8), 1)]) as -> by reflexivity.
  assert (grid 2 3 (fun a b => (Q2Qc (1 # 8) + NQ a * Q2Qc (1 # 4), 0 + NQ b * 1)) =
    [(Q2Qc (1 # 8), 0); (Q2Qc (1 # 8), 1); (Q2Qc (1 # 8), ZQ 2); (Q2Qc (3 # 8), 0); (Q2Qc (3 # 8), 1); (Q2Qc (3 # 8), ZQ 2)]) as ->.
  { unfold grid. cbn [seq flat_map map app]. repeat (apply (f_equal2 cons); [apply (f_equal2 pair); apply Qc_is_canon; reflexivity|]). reflexivity. }
  exact (shuffled _ _ _ _ _ _).
Qed.

(** ** C48 *)
(** A table with the seven fields, whose positions are those of a regular grid written with
    y varying fastest and have at most five decimals. *)
Definition simple_table (d : dict (list Qc)) (nx ny : nat) (x0 y0 dx dy : Qc) (F : string -> list Qc) : Prop :=
  (forall l, In l ["X"; "Y"; "N"; "T"; "M"; "U"; "V"]%string -> get d l = Some (F l) /\ List.length (F l) = (nx * ny)%nat /\ forall v, In v (F l) -> qabs v <= single_max) /\
  (2 <= nx)%nat /\ (2 <= ny)%nat /\ 0 < dx /\ Q2Qc (1 # 10000) <= dy /\
  F "X"%string = grid nx ny (fun a _ => x0 + NQ a * dx) /\ F "Y"%string = grid nx ny (fun _ b => y0 + NQ b * dy) /\
  (forall c, In c (F "X"%string) \/ In c (F "Y"%string) -> exists n, c = ZQ n / ZQ (10 ^ 5) /\ (is_single c \/ qabs c <= ZQ 64)).
(** The map read: same positions and grid, values related by [R]. *)
Definition same_table (R : Qc -> Qc -> Prop) (nx ny : nat) (x0 y0 dx dy : Qc) (F : string -> list Qc) (out : dict (list ext)) (i : minfo) : Prop :=
  i = mkMinfo (nx, ny) (Fin dx, Fin dy) (x0, y0) /\ map fst out = ["X"; "Y"; "N"; "T"; "M"; "U"; "V"]%string /\
  get out "X" = Some (map Fin (F "X"%string)) /\ get out "Y" = Some (map Fin (F "Y"%string)) /\
  forall l, In l ["N"; "T"; "M"; "U"; "V"]%string -> exists vs, get out l = Some (map Fin vs) /\ Forall2 R (F l) vs.
Definition as_single (x y : Qc) : Prop := single_near x y /\ (is_single x -> y = x).
Definition as_text (x y : Qc) : Prop := exists s, as_single x s /\ qabs (y - s) <= Q2Qc (1 # 2000000) /\ (forall n, s = ZQ n / ZQ (10 ^ 6) -> y = s).

Lemma after_same (S : Qc -> Qc) (R : Qc -> Qc -> Prop) nx ny x0 y0 dx dy F : (forall l x, In l ["N"; "T"; "M"; "U"; "V"]%string -> In x (F l) -> R x (S x)) ->
  same_table R nx ny x0 y0 dx dy F (after F S) (mkMinfo (nx, ny) (Fin dx, Fin dy) (x0, y0)).
Proof.
  intros H. split; [reflexivity|]. split; [reflexivity|]. split; [reflexivity|]. split; [reflexivity|].
  intros l Hl. exists (map S (F l)). split.
  - cbn [In] in Hl. destruct Hl as [<- | [<- | [<- | [<- | [<- | []]]]]]; cbn; rewrite map_map; reflexivity.
  - specialize (H l). revert H. generalize (F l). intros vs H. induction vs as [|v vs IH]; [constructor|]. cbn [map]. constructor; [apply H; [exact Hl|left; reflexivity]|].
    apply IH. intros x _ Hx. apply H; [exact Hl|right; exact Hx].
Qed.

Theorem C48_plain_files_read_back : forall d nx ny x0 y0 dx dy F, simple_table d nx ny x0 y0 dx dy F ->
  exists file out i, simple_write false d = Ok file /\ is_binary file = false /\ simple_read file = Ok (out, i) /\ same_table as_text nx ny x0 y0 dx dy F out i.
Proof.
  intros d nx ny x0 y0 dx dy F (HF & Hnx & Hny & Hdx & Hdy & HX & HY & HK).
  exists (plainsimple (trows nx ny F)). eexists _, _. split; [apply (simple_written d nx ny F HF false)|].
  split; [apply ascii_not_binary, plain_ascii; intros r x; apply (trows_bound d nx ny x0 F HF)|].
  split; [apply (plain_round d nx ny x0 y0 dx dy F HF); assumption|].
  apply after_same. intros l x Hl Hx. exists (single_of x). destruct (f32_single x) as (_ & N & E). { apply (HF l); [cbn in *; tauto|exact Hx]. }
  split; [split; assumption|]. split; [apply round6_near|]. intros n ->. apply round6_exact.
Qed.
Print Assumptions C48_plain_files_read_back.
Theorem C48_binary_files_read_back_partial : forall d nx ny x0 y0 dx dy F, simple_table d nx ny x0 y0 dx dy F ->
  exists file, simple_write true d = Ok file /\
    (is_binary file = true -> exists out i, simple_read file = Ok (out, i) /\ same_table as_single nx ny x0 y0 dx dy F out i).
Proof.
  intros d nx ny x0 y0 dx dy F (HF & Hnx & Hny & Hdx & Hdy & HX & HY & HK).
  exists (binsimple (trows nx ny F)). split; [apply (simple_written d nx ny F HF true)|]. intros HB. eexists _, _.
  split; [apply (bin_round d nx ny x0 y0 dx dy F HF); assumption|].
  apply after_same. intros l x Hl Hx. destruct (f32_single x) as (_ & N & E). { apply (HF l); [cbn in *; tauto|exact Hx]. } split; assumption.
Qed.
Print Assumptions C48_binary_files_read_back_partial.
(** When are binary files recognised?  Text is UTF-8, so: a byte which is not part of it, ... *)
Theorem C48_not_text : forall s u b t, firstn (8 * 1024) s = u ++ b :: t ->
  (192 <= code b <= 193 \/ 245 <= code b)%Z \/ ((128 <= code b < 194)%Z /\ exists u' x, u = u' ++ [x] /\ (code x < 128)%Z) -> is_binary s = true.
Proof.
  intros s u b t E [H|[H (u' & x & -> & Hx)]].
  - eapply never_binary; [exact E|exact H].
  - rewrite <- app_assoc in E. eapply stray_binary; [exact E|exact Hx|exact H].
Qed.
Print Assumptions C48_not_text.
(** ... for example one value between -16 and -2 among the first 2048 numbers. *)
Theorem C48_detected_by_value : forall rows q x, nth_error (concat rows) q = Some x -> (q < 2048)%nat -> ZQ (-16) < x -> x <= ZQ (-2) ->
  is_binary (binsimple rows) = true.
Proof. exact negative_detected. Qed.
Print Assumptions C48_detected_by_value.
(** Any ASCII text is taken for a plain file. *)
Theorem C48_text_is_plain : forall s, Forall (fun b => (code b < 128)%Z) s -> is_binary s = false.
Proof. intros s H. apply ascii_not_binary. eapply Forall_impl; [|exact H]. intros b Hb. apply Z.ltb_lt. exact Hb. Qed.
Print Assumptions C48_text_is_plain.

(** *** Refuted: a binary file need not be recognised as such. *)
Definition quiet_F (l : string) : list Qc := if String.eqb l "X" then [0; 0; ZQ 2; ZQ 2] else if String.eqb l "Y" then [0; ZQ 2; 0; ZQ 2] else [0; ZQ 2; ZQ 32; 0].
Definition quiet : dict (list Qc) := map (fun l => (l, quiet_F l)) ["X"; "Y"; "N"; "T"; "M"; "U"; "V"]%string.
Theorem C48_detection_refuted : simple_table quiet 2 2 0 0 (ZQ 2) (ZQ 2) quiet_F /\
  exists file, simple_write true quiet = Ok file /\ is_binary file = false /\ simple_read file = Err KeyErr.
Proof.
  split.
  - split; [|split; [lia|split; [lia|split; [reflexivity|split; [apply qle_true; reflexivity|]]]]].
    + intros l Hl. split; [|split].
      * cbn [In] in Hl. repeat (destruct Hl as [<-|Hl]; [reflexivity|]). destruct Hl.
      * cbn [In] in Hl. repeat (destruct Hl as [<-|Hl]; [reflexivity|]). destruct Hl.
      * intros v Hv. apply qle_true. unfold quiet_F in Hv. destruct (String.eqb l "X"), (String.eqb l "Y"); cbn [In] in Hv;
          repeat (destruct Hv as [<-|Hv]; [vm_compute; reflexivity|]); destruct Hv.
    + split; [unfold grid; cbn [seq flat_map map app]; unfold quiet_F; cbn; repeat (apply (f_equal2 cons); [apply Qc_is_canon; reflexivity|]); reflexivity|].
      split; [unfold grid; cbn [seq flat_map map app]; unfold quiet_F; cbn; repeat (apply (f_equal2 cons); [apply Qc_is_canon; reflexivity|]); reflexivity|].
      intros c Hc. assert (c = 0 \/ c = ZQ 2) as [-> | ->].
      { cbn in Hc. repeat destruct Hc as [Hc|Hc]; subst; try (left; reflexivity); try (right; reflexivity); destruct Hc. }
      * exists 0%Z. split; [apply Qc_is_canon; reflexivity|]. right. apply qle_true. reflexivity.
      * exists 200000%Z. split; [apply Qc_is_canon; reflexivity|]. right. apply qle_true. reflexivity.
  - eexists. split; [vm_compute; reflexivity|]. split; vm_compute; reflexivity.
Qed.
Print Assumptions C48_detection_refuted.
(** *** Refuted: rows in another order get wrong positions (here x varies fastest: the last
    value written at (0, 2) is read at (2, 0)). *)
Definition yx_F (l : string) : list Qc := if String.eqb l "X" then [0; ZQ 2; 0; ZQ 2] else if String.eqb l "Y" then [0; 0; ZQ 2; ZQ 2] else [1; ZQ (-3); ZQ 5; ZQ 7].
Definition yx : dict (list Qc) := map (fun l => (l, yx_F l)) ["X"; "Y"; "N"; "T"; "M"; "U"; "V"]%string.
Theorem C48_row_order_refuted : exists file out i, simple_write true yx = Ok file /\ simple_read file = Ok (out, i) /\
  get out "N" = Some [Fin 1; Fin (ZQ (-3)); Fin (ZQ 5); Fin (ZQ 7)] /\ get out "X" = Some [Fin 0; Fin 0; Fin (ZQ 2); Fin (ZQ 2)].
Proof.
  eexists _, _, _. split; [vm_compute; reflexivity|]. split; [vm_compute; reflexivity|].
  split; vm_compute; apply f_equal; repeat (apply (f_equal2 cons); [apply f_equal; apply Qc_is_canon; reflexivity|]); reflexivity.
Qed.
Print Assumptions C48_row_order_refuted.
(** *** Refuted: a plain file with one row cannot be read. *)
Theorem C48_one_row_refuted : exists file, simple_write false (map (fun l => (l, [1])) ["X"; "Y"; "N"; "T"; "M"; "U"; "V"]%string) = Ok file /\ simple_read file = Err TypeErr.
Proof. eexists. split; [vm_compute; reflexivity|]. vm_compute. reflexivity. Qed.
Print Assumptions C48_one_row_refuted.
(** A missing field is a KeyError and nothing is written. *)
Theorem C48_missing_field : forall b d l, In l ["X"; "Y"; "N"; "T"; "M"; "U"; "V"]%string -> get d l = None -> simple_write b d = Err KeyErr.
Proof.
  intros b d l Hl G. unfold simple_write. assert (rmapM (key d) simple_fields = Err KeyErr) as ->; [|reflexivity].
  change (In l simple_fields) in Hl. revert Hl. generalize simple_fields. intros ls. induction ls as [|k ls IH]; [intros []|].
  intros Hl. cbn [rmapM]. destruct (key d k) as [v|e] eqn:E.
  - cbn [rbind]. destruct Hl as [<-|Hl]; [unfold key in E; rewrite G in E; discriminate|]. rewrite (IH Hl). reflexivity.
  - unfold key in E. destruct (get d k); [discriminate|]. inversion E. reflexivity.
Qed.
Print Assumptions C48_missing_field.
