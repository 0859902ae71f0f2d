(** Properties C46-C47: gmx_flow files on disk. *)
From Coq Require Import String Ascii.
From Verif.Base Require Import QcX Res Np Bytes Sums.
From Verif.Model Require Import Text Gmx.
From Verif.Proofs Require Import TextP GmxP GmxRoundP.
Local Open Scope list_scope.

(** A map with the five stored fields on an [nx] by [ny] grid; [F] names its columns.
    Values are indexed with y varying fastest. *)
Definition storable (d : dict (list Qc)) (i : ginfo) (nx ny : nat) (F : string -> list Qc) : Prop :=
  g_shape i = (Z.of_nat nx, Z.of_nat ny) /\ (Z.of_nat nx < 2 ^ 64)%Z /\ (Z.of_nat ny < 2 ^ 64)%Z /\
  forall l, In l ["N"; "T"; "M"; "U"; "V"]%string -> get d l = Some (F l) /\ List.length (F l) = (nx * ny)%nat /\
    forall v, In v (F l) -> qabs v <= single_max.
Definition filled (M : list Qc) : nat := List.length (filter (fun v => negb (qeq v 0)) M).
(** A number printed with six decimals and read again. *)
Definition six_decimals (x y : Qc) : Prop := qabs (y - x) <= Q2Qc (1 # 2000000) /\ (forall n, x = ZQ n / ZQ 1000000 -> y = x).

Lemma six_decimals_round6 x : six_decimals x (round6 x).
Proof. split; [apply round6_near|]. intros n ->. apply round6_exact. Qed.
Lemma filled_chosen M : filled M = List.length (chosen (map (fun v => negb (qeq v 0)) M)).
Proof.
  rewrite <- count_chosen. unfold filled. induction M as [|v M IH]; [reflexivity|]. cbn [filter map].
  destruct (negb (qeq v 0)); cbn [List.length]; rewrite IH; reflexivity.
Qed.

(** ** C46 *)
(** What a map read from a file [out], [info'] must have to do with the one written. *)
Definition read_back_of (F : string -> list Qc) (i : ginfo) (nx ny : nat) (out : dict (list ext)) (i' : ginfo) : Prop :=
  map fst out = ["X"; "Y"; "N"; "T"; "M"; "U"; "V"]%string /\
  (* the grid information *)
  g_shape i' = g_shape i /\
  six_decimals (fst (g_spacing i)) (fst (g_spacing i')) /\ six_decimals (snd (g_spacing i)) (snd (g_spacing i')) /\
  six_decimals (fst (g_origin i)) (fst (g_origin i')) /\ six_decimals (snd (g_origin i)) (snd (g_origin i')) /\
  (* positions are the centres of the bins *)
  (exists X Y, get out "X" = Some X /\ get out "Y" = Some Y /\ List.length X = (nx * ny)%nat /\ List.length Y = (nx * ny)%nat /\
     forall a b, (a < nx)%nat -> (b < ny)%nat ->
       nth (a * ny + b) X NaN = Fin (fst (g_origin i') + fst (g_spacing i') * (NQ a + Q2Qc (1 # 2))) /\
       nth (a * ny + b) Y NaN = Fin (snd (g_origin i') + snd (g_spacing i') * (NQ b + Q2Qc (1 # 2)))) /\
  (* values: those of bins with mass, 0 elsewhere *)
  (forall l, In l ["N"; "T"; "M"; "U"; "V"]%string -> exists r, get out l = Some r /\ List.length r = (nx * ny)%nat /\
     forall p, (p < nx * ny)%nat ->
       (nth p (F "M"%string) 0 = 0 -> nth p r NaN = Fin 0) /\
       (nth p (F "M"%string) 0 <> 0 -> exists y, nth p r NaN = Fin y /\ single_near (nth p (F l) 0) y /\ is_single y /\
          (is_single (nth p (F l) 0) -> y = nth p (F l) 0))).

(** The bytes of the header are followed by those of the data: 36 for every filled bin. *)
Lemma content_length d i nx ny F : storable d i nx ny F ->
  List.length (content i ny F) = (List.length (header i (Z.of_nat (filled (F "M"%string)))) + 1 + 36 * filled (F "M"%string))%nat.
Proof.
  intros (Hs & Hx & Hy & HF). unfold content. rewrite app_length. cbn [List.length]. rewrite !app_length.
  rewrite !(flat_length put_u64 8 put_u64_length), !(flat_length put_f32 4 put_f32_length).
  unfold ixs, iys, vals. rewrite !map_length. rewrite filled_chosen. fold (mmask F). fold (sel F). lia.
Qed.

Lemma round_general d i nx ny F : storable d i nx ny F -> exists file, gmx_write d i = Ok file /\
  (let n := filled (F "M"%string) in let h := List.length (header i (Z.of_nat n)) in
   (n = 0%nat \/ 1024 * (h / 1024 + 1) <= h + 1 + 36 * n)%nat ->
   forall fuel, (List.length file < fuel)%nat -> exists out i', gmx_read fuel file = Ok (out, i') /\ read_back_of F i nx ny out i').
Proof.
  intros HS. pose proof (content_length _ _ _ _ _ HS) as CL. destruct HS as (Hs & Hx & Hy & HF).
  assert (forall l, In l stored_fields -> get d l = Some (F l) /\ List.length (F l) = (nx * ny)%nat) as HF'.
  { intros l Hl. destruct (HF l Hl) as (G & L & _). split; assumption. }
  exists (content i ny F). split; [apply (gmx_written d i nx ny Hs F HF')|]. cbv zeta. intros HL fuel Hfuel.
  assert (Z.of_nat (List.length (sel F)) = Z.of_nat (filled (F "M"%string))) as EN by (rewrite filled_chosen; reflexivity).
  edestruct (read_back d i nx ny Hs Hx Hy F HF') with (fuel := fuel) as (out & R & K & X & Y & V).
  - rewrite EN. unfold chunk_end. rewrite CL. destruct HL as [HL|HL]; [left; rewrite HL; reflexivity|right; exact HL].
  - rewrite EN. rewrite CL in Hfuel. pose proof (Nat.div_le_upper_bound (List.length (header i (Z.of_nat (filled (F "M"%string))))) 1024 (List.length (header i (Z.of_nat (filled (F "M"%string))))) ltac:(lia)). lia.
  - eexists out, _. split; [exact R|]. unfold read_back_of. cbn [g_shape g_spacing g_origin fst snd].
    repeat (split; [first [exact K | reflexivity | apply six_decimals_round6]|]). split.
    + eexists _, _. split; [exact X|]. split; [exact Y|]. rewrite !grid_length. repeat split.
      * apply grid_nth with (f := fun a _ => _); assumption.
      * apply grid_nth with (f := fun _ b => _); assumption.
    + intros l Hl. destruct (V l Hl) as (r & G & L & N). exists r. split; [exact G|]. split; [exact L|]. intros p Hp. rewrite (N p Hp). split.
      * intros ->. rewrite qeq_refl. reflexivity.
      * intros NZ. destruct (qeq _ 0) eqn:E; [exfalso; apply NZ; apply qeq_true; exact E|].
        destruct (HF l Hl) as (_ & LF & B). destruct (f32_near (nth p (F l) 0)) as (y & Ey & Ny).
        { apply B. apply nth_In. rewrite LF. exact Hp. }
        exists y. split; [exact Ey|]. split; [exact Ny|]. split; [eapply f32_is_single; exact Ey|].
        intros HI. apply f32_exact in HI. rewrite Ey in HI. injection HI. auto.
Qed.

(** Any map with at least 29 filled bins (or none) survives writing and reading. *)
Theorem C46_files_read_back_partial : forall d i nx ny F, storable d i nx ny F ->
  (29 <= filled (F "M"%string) \/ filled (F "M"%string) = 0)%nat ->
  exists file, gmx_write d i = Ok file /\
    forall fuel, (List.length file < fuel)%nat -> exists out i', gmx_read fuel file = Ok (out, i') /\ read_back_of F i nx ny out i'.
Proof.
  intros d i nx ny F HS Hn. destruct (round_general d i nx ny F HS) as (file & W & R). exists file. split; [exact W|].
  cbv zeta in R. apply R. set (h := List.length _). destruct Hn as [Hn|Hn]; [right|left; exact Hn].
  pose proof (Nat.mul_div_le h 1024 ltac:(lia)). lia.
Qed.
Print Assumptions C46_files_read_back_partial.

(** The condition is sharp in terms of the file: it must reach the end of the 1024 byte
    block in which the header ends.  Headers of usual maps have less than 1024 bytes: three bins suffice. *)
Theorem C46_usual_files_read_back_partial : forall d i nx ny F, storable d i nx ny F ->
  (List.length (header i (Z.of_nat (filled (F "M"%string)))) < 1024)%nat -> (3 <= filled (F "M"%string))%nat ->
  exists file, gmx_write d i = Ok file /\
    forall fuel, (List.length file < fuel)%nat -> exists out i', gmx_read fuel file = Ok (out, i') /\ read_back_of F i nx ny out i'.
Proof.
  intros d i nx ny F HS Hh Hn. destruct (round_general d i nx ny F HS) as (file & W & R). exists file. split; [exact W|].
  cbv zeta in R. apply R. right. rewrite Nat.div_small by exact Hh.
  assert (922 <= List.length (header i (Z.of_nat (filled (F "M"%string)))))%nat; [|lia].
  unfold header. rewrite !app_length.
  assert (forall x, 12 <= List.length (fmt12f x))%nat as L12.
  { intros x. unfold fmt12f, pad_left. rewrite app_length, repeat_length. lia. }
  assert (forall z, 1 <= List.length (fmt_int z))%nat as L1.
  { intros z. pose proof (proj2 (fmt_int_plain z)). destruct (fmt_int z); [contradiction|]. cbn [List.length]. lia. }
  pose proof (L12 (fst (g_origin i))). pose proof (L12 (snd (g_origin i))). pose proof (L12 (fst (g_spacing i))). pose proof (L12 (snd (g_spacing i))).
  pose proof (L1 (fst (g_shape i))). pose proof (L1 (snd (g_shape i))). pose proof (L1 (Z.of_nat (filled (F "M"%string)))).
  assert (List.length comments = 794)%nat as -> by (vm_compute; reflexivity).
  repeat match goal with |- context [List.length (txt ?s)] => let v := eval vm_compute in (List.length (txt s)) in change (List.length (txt s)) with v end.
  change (List.length nl) with 1%nat. change (List.length sp) with 1%nat. lia.
Qed.
Print Assumptions C46_usual_files_read_back_partial.

(** *** Refuted: the smallest maps cannot be read again. *)
Definition one_bin : dict (list Qc) := [("N", [1]); ("T", [ZQ 300]); ("M", [ZQ 18]); ("U", [0]); ("V", [0])]%string.
Definition one_info : ginfo := mkGinfo (1, 1)%Z (Q2Qc (1 # 4), Q2Qc (1 # 4)) (0, 0).
Theorem C46_one_bin_refuted : exists file, gmx_write one_bin one_info = Ok file /\ forall fuel, gmx_read (S fuel) file = Err IndexErr.
Proof. eexists. split; [vm_compute; reflexivity|]. intros fuel. vm_compute. reflexivity. Qed.
Print Assumptions C46_one_bin_refuted.
(** *** Refuted: a bin without mass loses its other values. *)
Definition no_mass : dict (list Qc) := [("N", [1]); ("T", [ZQ 300]); ("M", [0]); ("U", [1]); ("V", [0])]%string.
Theorem C46_massless_values_refuted : exists file, gmx_write no_mass one_info = Ok file /\
  forall fuel, exists out i, gmx_read (S fuel) file = Ok (out, i) /\ get out "T" = Some [Fin 0].
Proof. eexists. split; [vm_compute; reflexivity|]. intros fuel. eexists _, _. split; [vm_compute; reflexivity|]. vm_compute. reflexivity. Qed.
Print Assumptions C46_massless_values_refuted.

(** Missing fields and columns of another size than the grid are errors. *)
Theorem C46_missing_field : forall d i l, In l ["N"; "T"; "M"; "U"; "V"]%string -> get d l = None -> forall file, gmx_write d i <> Ok file.
Proof.
  intros d i l Hl G file. unfold gmx_write, key. destruct (get d "M") as [m|]; [|discriminate]. cbn [of_option rbind].
  destruct (masked _ _) as [ix|e]; [|discriminate]. cbn [rbind]. destruct (masked _ (grid _ _ (fun _ b => b))) as [iy|e]; [|discriminate]. cbn [rbind].
  destruct (rmapM _ stored_fields) as [vs|e] eqn:E; [|discriminate]. exfalso. apply rmapM_Forall2 in E.
  change (In l stored_fields) in Hl. revert Hl. induction E as [|a b la lb Hab _ IH]; [intros []|]. intros [-> | Hl]; [|exact (IH Hl)]. rewrite G in Hab. discriminate.
Qed.
Print Assumptions C46_missing_field.
Theorem C46_wrong_size : forall d i l v, In l ["N"; "T"; "M"; "U"; "V"]%string -> get d l = Some v ->
  List.length v <> (Z.to_nat (fst (g_shape i)) * Z.to_nat (snd (g_shape i)))%nat -> forall file, gmx_write d i <> Ok file.
Proof.
  intros d i l v Hl G HL file. unfold gmx_write, key. destruct (get d "M") as [m|] eqn:GM; [|discriminate]. cbn [of_option rbind]. cbv zeta.
  unfold masked at 1. rewrite grid_length, map_length. destruct (Nat.eqb_spec (Z.to_nat (fst (g_shape i)) * Z.to_nat (snd (g_shape i))) (List.length m)) as [E|]; [|discriminate]. cbn [rbind].
  unfold masked at 1. rewrite grid_length, map_length. rewrite E, Nat.eqb_refl. cbn [rbind].
  destruct (rmapM _ stored_fields) as [vs|e] eqn:E2; [|discriminate]. exfalso. apply rmapM_Forall2 in E2.
  change (In l stored_fields) in Hl. revert Hl. induction E2 as [|a b la lb Hab _ IH]; [intros []|]. intros [-> | Hl]; [|exact (IH Hl)].
  rewrite G in Hab. cbn [of_option rbind] in Hab. unfold masked in Hab. rewrite map_length in Hab. destruct (Nat.eqb_spec (List.length v) (List.length m)); [congruence|discriminate].
Qed.
Print Assumptions C46_wrong_size.

(** Non-vacuity: a 3 by 2 map with three filled bins. *)
Definition ex_cols (l : string) : list Qc :=
  if String.eqb l "M" then [ZQ 18; 0; ZQ 36; ZQ 18; 0; 0] else if String.eqb l "T" then [ZQ 300; 0; ZQ 301; ZQ 299; 0; 0]
  else if String.eqb l "U" then [Q2Qc (-1 # 3); 0; Q2Qc (1 # 8); 0; 0; 0] else [1; 0; ZQ 2; 1; 0; 0].
Definition ex_map : dict (list Qc) := map (fun l => (l, ex_cols l)) ["N"; "T"; "M"; "U"; "V"]%string.
Definition ex_info : ginfo := mkGinfo (3, 2)%Z (Q2Qc (1 # 4), Q2Qc (1 # 5)) (ZQ (-2), Q2Qc (1 # 3)).
Example C46_nonvacuous : storable ex_map ex_info 3 2 ex_cols /\
  (List.length (header ex_info (Z.of_nat (filled (ex_cols "M")))) < 1024)%nat /\ filled (ex_cols "M") = 3%nat.
Proof.
  split; [|split; [apply Nat.ltb_lt; vm_compute; reflexivity|vm_compute; reflexivity]].
  split; [reflexivity|]. split; [reflexivity|]. split; [reflexivity|].
  intros l Hl. cbn [In] in Hl. destruct Hl as [<- | [<- | [<- | [<- | [<- | []]]]]]; (split; [reflexivity|]; split; [reflexivity|]);
    intros v Hv; apply qle_true; cbn in Hv; repeat (destruct Hv as [<-|Hv]; [vm_compute; reflexivity|]); destruct Hv.
Qed.

(** ** C47 *)
(** Headers are ASCII text without NUL. *)
Definition header_text (h : bytes) : Prop := Forall (fun b => (0 < code b < 128)%Z) h.
(** If the file reaches the end of the 1024 byte block with the terminator, header and position are right
    whatever follows. *)
Theorem C47_header_found_partial : forall h d fuel, header_text h -> (1024 * (List.length h / 1024 + 1) <= List.length h + 1 + List.length d)%nat ->
  (List.length h / 1024 < fuel)%nat -> read_header_string fuel (h ++ chr 0 :: d) 0 [] = Ok (h, (List.length h + 1)%nat).
Proof.
  intros h d fuel Hh Hd Hf. change (chr 0) with nul. rewrite header_end by (try exact Hf; first [apply clean_no_nul|apply clean_ascii]; exact Hh).
  cbv zeta. unfold chunk_end. set (n := List.length h) in *.
  match goal with |- context [(?t <? 0)%Z] => assert (t = Z.of_nat (n + 1)) as -> by lia end.
  replace (Z.of_nat (n + 1) <? 0)%Z with false by (symmetry; apply Z.ltb_ge; lia). rewrite Nat2Z.id. reflexivity.
Qed.
Print Assumptions C47_header_found_partial.
(** Refuted for every shorter file: reading fails or starts too early. *)
Theorem C47_short_files_refuted : forall h d fuel, header_text h -> (List.length h + 1 + List.length d < 1024 * (List.length h / 1024 + 1))%nat ->
  (List.length h / 1024 < fuel)%nat ->
  read_header_string fuel (h ++ chr 0 :: d) 0 [] = Err OSErr \/
  exists pos, (pos < List.length h + 1)%nat /\ read_header_string fuel (h ++ chr 0 :: d) 0 [] = Ok (h, pos).
Proof.
  intros h d fuel Hh Hd Hf. change (chr 0) with nul. rewrite header_end by (try exact Hf; first [apply clean_no_nul|apply clean_ascii]; exact Hh).
  cbv zeta. unfold chunk_end. set (n := List.length h) in *.
  match goal with |- context [(?t <? 0)%Z] => destruct (Z.ltb_spec t 0) end; [left; reflexivity|]. right. eexists. split; [|reflexivity]. lia.
Qed.
Print Assumptions C47_short_files_refuted.
(** A file without terminator is read for ever. *)
Theorem C47_no_terminator_refuted : forall file fuel, header_text file -> read_header_string fuel file 0 [] = Err OutOfFuel.
Proof. intros file fuel H. apply no_end; [apply clean_no_nul|apply clean_ascii]; exact H. Qed.
Print Assumptions C47_no_terminator_refuted.
Example C47_nonvacuous : let h := repeat (chr 65) 1500 in let d := repeat (chr 0) 600 in
  header_text h /\ (1024 * (List.length h / 1024 + 1) <= List.length h + 1 + List.length d)%nat.
Proof.
  cbv zeta. split; [apply Forall_forall; intros b Hb; apply repeat_spec in Hb; subst; vm_compute; split; reflexivity|].
  rewrite !repeat_length. apply Nat.leb_le. vm_compute. reflexivity.
Qed.
(** A file of 40 bytes in all: an OSError. *)
Example C47_short_example : read_header_string 9 (txt "FORMAT GMX_FLOW_1" ++ chr 0 :: repeat (chr 7) 20) 0 [] = Err OSErr.
Proof. vm_compute. reflexivity. Qed.
