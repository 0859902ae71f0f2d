(** Proofs: what is written to a gmx_flow file is read back. *)
From Coq Require Import String Ascii.
From Verif.Base Require Import QcX Res Np Bytes Sums ListX.
From Verif.Model Require Import Text Gmx.
From Verif.Proofs Require Import TextP GridAverageP GmxP.
Local Open Scope list_scope.

(** ** Selecting with a mask *)
Definition chosen (mask : list bool) : list nat := filter (fun p => nth p mask false) (seq 0 (length mask)).
Lemma chosen_cons b mask : chosen (b :: mask) = (if b then [0%nat] else []) ++ map S (chosen mask).
Proof.
  unfold chosen. cbn [length seq filter]. rewrite <- seq_shift.
  assert (filter (fun p => nth p (b :: mask) false) (map S (seq 0 (length mask))) = map S (filter (fun p => nth p mask false) (seq 0 (length mask)))) as E.
  { generalize (seq 0 (length mask)). intros l. set (F := fun p => nth p (b :: mask) false). induction l as [|x l IH]; [reflexivity|]. cbn [map filter]. change (F (S x)) with (nth x mask false). destruct (nth x mask false); cbn [map]; rewrite IH; reflexivity. }
  rewrite E. destruct b; reflexivity.
Qed.
Lemma in_chosen mask p : In p (chosen mask) <-> nth p mask false = true.
Proof.
  unfold chosen. rewrite filter_In, in_seq. split; [intros [_ H]; exact H|]. intros H. split; [|exact H].
  destruct (Nat.lt_ge_cases p (length mask)); [lia|]. rewrite nth_overflow in H by assumption. discriminate.
Qed.
Lemma masked_eq {A} (d : A) : forall mask a, length a = length mask -> masked mask a = Ok (map (fun p => nth p a d) (chosen mask)).
Proof.
  intros mask a H. unfold masked. rewrite H, Nat.eqb_refl. f_equal. revert a H.
  induction mask as [|b mask IH]; intros [|x a] H; try discriminate; [reflexivity|].
  rewrite chosen_cons. cbn [combine filter fst]. rewrite map_app, map_map. cbn [nth].
  rewrite <- IH by (simpl in H; lia). destruct b; reflexivity.
Qed.
Lemma count_chosen mask : length (filter (fun b : bool => b) mask) = length (chosen mask).
Proof.
  induction mask as [|b mask IH]; [reflexivity|]. rewrite chosen_cons, app_length, map_length, <- IH. destruct b; reflexivity.
Qed.

(** ** Reading arrays *)
Lemma chunk_0 size x r : length x = size -> chunk size (x ++ r) 0 = x.
Proof. intros H. unfold chunk. rewrite Nat.mul_0_l. cbn [skipn]. rewrite <- H, firstn_app, Nat.sub_diag, firstn_O, app_nil_r. apply firstn_all. Qed.
Lemma chunk_S size x r k : length x = size -> chunk size (x ++ r) (S k) = chunk size r k.
Proof. intros H. unfold chunk. f_equal. rewrite skipn_app, H. rewrite skipn_all2 by lia. cbn [app]. f_equal. lia. Qed.
Lemma chunks {A} (enc : A -> bytes) size post : (forall x, length (enc x) = size) -> forall items,
  map (chunk size (flat_map enc items ++ post)) (seq 0 (length items)) = map enc items.
Proof.
  intros He. induction items as [|x items IH]; [reflexivity|]. cbn [flat_map length seq map]. rewrite <- app_assoc.
  rewrite chunk_0 by apply He. f_equal. rewrite <- seq_shift, map_map. rewrite <- IH. apply map_ext. intros k. apply chunk_S, He.
Qed.
Lemma flat_length {A} (enc : A -> bytes) size : (forall x, length (enc x) = size) -> forall items, length (flat_map enc items) = (length items * size)%nat.
Proof. intros He. induction items as [|x items IH]; [reflexivity|]. cbn [flat_map length]. rewrite app_length, He, IH. lia. Qed.
Lemma fromfile_enc {A} (enc : A -> bytes) size pre items post : (0 < size)%nat -> (forall x, length (enc x) = size) ->
  fromfile size (Z.of_nat (length items)) (pre ++ flat_map enc items ++ post) (length pre) =
  (map enc items, length (pre ++ flat_map enc items)).
Proof.
  intros Hs He. unfold fromfile. rewrite skipn_app, skipn_all, Nat.sub_diag. cbn [app skipn].
  replace (Z.of_nat (length items) <? 0)%Z with false by (symmetry; apply Z.ltb_ge; lia). rewrite Nat2Z.id.
  assert (length items <= length (flat_map enc items ++ post) / size)%nat as L.
  { apply Nat.div_le_lower_bound; [lia|]. rewrite app_length, (flat_length enc size He). lia. }
  rewrite Nat.min_l by exact L. rewrite Z.eqb_refl. cbn [orb]. rewrite chunks by exact He.
  rewrite app_length, (flat_length enc size He). reflexivity.
Qed.
Lemma read_values_cons {A} (enc : A -> bytes) size num l fields pre items post acc :
  (0 < size)%nat -> (forall x, length (enc x) = size) -> item_size (txt l) = Some size -> num = Z.of_nat (length items) ->
  read_values num (txt l :: fields) (pre ++ flat_map enc items ++ post) (length pre) acc =
  read_values num fields ((pre ++ flat_map enc items) ++ post) (length (pre ++ flat_map enc items)) (put acc l (map enc items)).
Proof.
  intros Hs He Hl ->. cbn [read_values]. rewrite Hl. cbn [of_option rbind]. rewrite (fromfile_enc enc size) by assumption.
  rewrite <- app_assoc. unfold txt at 1. rewrite string_of_list_ascii_of_string. reflexivity.
Qed.

(** ** Scattering over the grid *)
Lemma set_nth_length {A} k (v : A) l : length (set_nth k v l) = length l.
Proof.
  unfold set_nth. destruct (Nat.ltb_spec k (length l)); [|reflexivity]. rewrite app_length, firstn_length. cbn [length]. rewrite skipn_length. lia.
Qed.
Lemma nth_set_nth {A} k (v : A) l q d : (k < length l)%nat -> nth q (set_nth k v l) d = if Nat.eqb q k then v else nth q l d.
Proof.
  intros H. unfold set_nth. destruct (Nat.ltb_spec k (length l)); [|lia].
  destruct (Nat.eqb_spec q k) as [->|N].
  - rewrite app_nth2; rewrite firstn_length, Nat.min_l by lia; [|lia]. rewrite Nat.sub_diag. reflexivity.
  - destruct (Nat.lt_ge_cases q k).
    + rewrite app_nth1 by (rewrite firstn_length; lia). rewrite <- (firstn_skipn k l) at 2. rewrite app_nth1 by (rewrite firstn_length; lia). reflexivity.
    + rewrite app_nth2; rewrite firstn_length, Nat.min_l by lia; [|lia].
      destruct (q - k)%nat as [|r] eqn:E; [lia|]. cbn [nth]. rewrite <- (firstn_skipn (S k) l) at 2.
      rewrite app_nth2; rewrite firstn_length, Nat.min_l by lia; [|lia]. f_equal. lia.
Qed.
Lemma fold_set {A} (g : nat -> A) d : forall P init, (forall p, In p P -> (p < length init)%nat) ->
  let r := fold_left (fun l p => set_nth p (g p) l) P init in
  length r = length init /\ forall q, nth q r d = if existsb (Nat.eqb q) P then g q else nth q init d.
Proof.
  induction P as [|p P IH]; intros init HP; [split; reflexivity|].
  cbn [fold_left existsb]. destruct (IH (set_nth p (g p) init)) as [L N].
  { intros q Hq. rewrite set_nth_length. apply HP. right. assumption. }
  split; [rewrite L; apply set_nth_length|]. intros q. rewrite N.
  rewrite nth_set_nth by (apply HP; left; reflexivity). destruct (Nat.eqb_spec q p) as [->|Nq]; cbn [orb]; [|reflexivity]. destruct (existsb (Nat.eqb p) P); reflexivity.
Qed.
Lemma fold_left_map {A B C} (f : C -> B -> C) (h : A -> B) l : forall init, fold_left f (map h l) init = fold_left (fun c a => f c (h a)) l init.
Proof. induction l as [|a l IH]; intros init; [reflexivity|apply IH]. Qed.
Lemma fold_left_ext_in {A B} (f g : B -> A -> B) l : (forall b a, In a l -> f b a = g b a) -> forall init, fold_left f l init = fold_left g l init.
Proof. induction l as [|a l IH]; intros H init; [reflexivity|]. cbn [fold_left]. rewrite H by (left; reflexivity). apply IH. intros. apply H. right. assumption. Qed.
Lemma combine_map {A B C} (f : A -> B) (g : A -> C) l : combine (map f l) (map g l) = map (fun a => (f a, g a)) l.
Proof. induction l as [|a l IH]; [reflexivity|]. cbn [map combine]. rewrite IH. reflexivity. Qed.
Lemma scatter_chosen nx ny (mask : list bool) (g : nat -> ext) : length mask = (nx * ny)%nat ->
  exists r, scatter nx ny (map (fun p => Z.of_nat (p / ny)) (chosen mask)) (map (fun p => Z.of_nat (p mod ny)) (chosen mask)) (map g (chosen mask)) = Ok r /\
    length r = (nx * ny)%nat /\ forall q, (q < nx * ny)%nat -> nth q r NaN = if nth q mask false then g q else Fin 0.
Proof.
  intros Hm.
  assert (forall p, In p (chosen mask) -> (p < nx * ny)%nat) as HP.
  { intros p Hp. apply in_chosen in Hp. rewrite <- Hm. destruct (Nat.lt_ge_cases p (length mask)); [assumption|]. rewrite nth_overflow in Hp by assumption. discriminate. }
  assert (forall p, In p (chosen mask) -> (p / ny < nx)%nat /\ (p mod ny < ny)%nat) as HB.
  { intros p Hp. apply HP in Hp. assert (ny <> 0)%nat by (intros ->; lia). split; [apply Nat.div_lt_upper_bound; lia|apply Nat.mod_upper_bound; assumption]. }
  unfold scatter. rewrite !map_length, !Nat.eqb_refl. cbn [negb]. rewrite !combine_map.
  match goal with |- context [forallb ?F ?L] => assert (forallb F L = true) as E end.
  { apply forallb_forall. intros x Hx. apply in_map_iff in Hx. destruct Hx as (p & <- & Hp). apply HB in Hp. cbn [fst snd]. apply andb_true_iff. split; apply Z.ltb_lt; lia. }
  rewrite E. cbn [negb]. eexists. split; [reflexivity|].
  rewrite fold_left_map. rewrite (fold_left_ext_in _ (fun l p => set_nth p (g p) l)).
  - destruct (fold_set g NaN (chosen mask) (repeat (Fin 0) (nx * ny))) as [L N]; [intros p Hp; rewrite repeat_length; apply HP; assumption|].
    split; [rewrite L; apply repeat_length|]. intros q Hq. rewrite N. rewrite (nth_indep _ NaN (Fin 0)) by (rewrite repeat_length; assumption).
    rewrite nth_repeat. assert (existsb (Nat.eqb q) (chosen mask) = nth q mask false) as ->; [|reflexivity].
    apply eq_true_iff_eq. rewrite existsb_exists, <- in_chosen. split.
    + intros (x & Hx & Ex). apply Nat.eqb_eq in Ex. subst. assumption.
    + intros Hx. exists q. split; [assumption|apply Nat.eqb_refl].
  - intros b p Hp. cbn [fst snd]. rewrite !Nat2Z.id. f_equal. assert (ny <> 0)%nat by (apply HP in Hp; intros ->; lia).
    rewrite Nat.mul_comm. symmetry. apply Nat.div_mod. assumption.
Qed.
Lemma grid_at {A} nx ny (f : nat -> nat -> A) p d : (p < nx * ny)%nat -> nth p (grid nx ny f) d = f (p / ny)%nat (p mod ny)%nat.
Proof.
  intros H. assert (ny <> 0)%nat by (intros ->; lia).
  assert (p = p / ny * ny + p mod ny)%nat as E by (rewrite Nat.mul_comm; apply Nat.div_mod; assumption).
  rewrite E at 1. apply grid_nth; [apply Nat.div_lt_upper_bound; lia|apply Nat.mod_upper_bound; assumption].
Qed.

(** ** The file *)
Lemma put_u64_length z : length (put_u64 z) = 8%nat. Proof. apply le_bytes_length. Qed.
Lemma put_f32_length z : length (put_f32 z) = 4%nat. Proof. apply le_bytes_length. Qed.
Lemma u64_back z : (Z.of_nat z < 2 ^ 64)%Z -> le_value (put_u64 z) = Z.of_nat z.
Proof. intros H. apply le_value_bytes. split; [lia|]. exact H. Qed.
Lemma f32_back x : le_value (put_f32 x) = f32_bits x.
Proof. apply le_value_bytes. exact (f32_bits_range x). Qed.

Section Round.
  Variables (d : dict (list Qc)) (i : ginfo) (nx ny : nat).
  Hypothesis Hshape : g_shape i = (Z.of_nat nx, Z.of_nat ny).
  Hypothesis Hnx : (Z.of_nat nx < 2 ^ 64)%Z.
  Hypothesis Hny : (Z.of_nat ny < 2 ^ 64)%Z.
  Variable F : string -> list Qc.
  Hypothesis HF : forall l, In l stored_fields -> get d l = Some (F l) /\ length (F l) = (nx * ny)%nat.
  Definition mmask := map (fun v => negb (qeq v 0)) (F "M"%string).
  Definition sel := chosen mmask.
  Let num := Z.of_nat (length sel).
  Lemma mask_length : length mmask = (nx * ny)%nat.
  Proof. unfold mmask. rewrite map_length. apply HF. unfold stored_fields. simpl. tauto. Qed.
  Lemma sel_lt p : In p sel -> (p < nx * ny)%nat.
  Proof.
    intros Hp. apply in_chosen in Hp. rewrite <- mask_length. destruct (Nat.lt_ge_cases p (length mmask)); [assumption|]. rewrite nth_overflow in Hp by assumption. discriminate.
  Qed.
  Lemma sel_small p : In p sel -> (Z.of_nat (p / ny) < 2 ^ 64)%Z /\ (Z.of_nat (p mod ny) < 2 ^ 64)%Z.
  Proof.
    intros Hp. apply sel_lt in Hp. assert (ny <> 0)%nat by (intros ->; lia).
    pose proof (Nat.mod_upper_bound p ny H). assert (p / ny < nx)%nat by (apply Nat.div_lt_upper_bound; lia). clear - H0 H1 Hnx Hny. lia.
  Qed.
  Definition ixs := map (fun p => p / ny)%nat sel.
  Definition iys := map (fun p => p mod ny)%nat sel.
  Definition vals l := map (fun p => nth p (F l) 0) sel.
  Definition content : bytes := header i num ++ nul :: flat_map put_u64 ixs ++ flat_map put_u64 iys ++
    flat_map put_f32 (vals "N") ++ flat_map put_f32 (vals "T") ++ flat_map put_f32 (vals "M") ++ flat_map put_f32 (vals "U") ++ flat_map put_f32 (vals "V").
  Lemma gmx_written : gmx_write d i = Ok content.
  Proof.
    unfold gmx_write. rewrite Hshape. cbn [fst snd]. rewrite !Nat2Z.id. unfold key.
    destruct (HF "M"%string) as [GM LM]; [simpl; tauto|]. rewrite GM. cbn [of_option rbind]. fold mmask.
    rewrite !(masked_eq 0%nat) by (rewrite grid_length, mask_length; reflexivity). cbn [rbind].
    assert (forall l, In l stored_fields -> (do v <- of_option KeyErr (get d l); masked mmask v) = Ok (vals l)) as V.
    { intros l Hl. destruct (HF l Hl) as [G L]. rewrite G. cbn [of_option rbind]. apply masked_eq. rewrite L, mask_length. reflexivity. }
    rewrite (rmapM_ok_map _ vals) by exact V. cbn [rbind]. unfold content. f_equal.
    rewrite count_chosen. fold sel. fold num. f_equal. f_equal.
    f_equal; [|f_equal].
    - f_equal. apply map_ext_in. intros p Hp. apply (grid_at nx ny (fun a _ => a)). apply sel_lt. assumption.
    - f_equal. apply map_ext_in. intros p Hp. apply (grid_at nx ny (fun _ b => b)). apply sel_lt. assumption.
    - unfold stored_fields. cbn [map flat_map]. rewrite app_nil_r. reflexivity.
  Qed.

  Hypothesis Hlong : num = 0%Z \/ (chunk_end (header i num) <= length content)%nat.
  Variable fuel : nat.
  Hypothesis Hfuel : (length (header i num) / 1024 < fuel)%nat.
  Definition rawdata : dict (list bytes) :=
    [("IX", map put_u64 ixs); ("IY", map put_u64 iys); ("N", map put_f32 (vals "N")); ("T", map put_f32 (vals "T"));
     ("M", map put_f32 (vals "M")); ("U", map put_f32 (vals "U")); ("V", map put_f32 (vals "V"))]%string.
  Lemma lens : length ixs = length sel /\ length iys = length sel /\ forall l, length (vals l) = length sel.
  Proof. unfold ixs, iys, vals. rewrite !map_length. repeat split. intros. apply map_length. Qed.
  Lemma values_read pos : pos = length (header i num ++ [nul]) \/ num = 0%Z ->
    read_values num (map txt ["IX"; "IY"; "N"; "T"; "M"; "U"; "V"]%string) content pos [] = Ok rawdata.
  Proof.
    destruct lens as (L1 & L2 & L3).
    intros [-> | H0].
    - unfold content. change (nul :: flat_map put_u64 ixs ++ ?r) with ([nul] ++ flat_map put_u64 ixs ++ r). rewrite app_assoc. cbn [map].
      rewrite (read_values_cons put_u64 8) by (try apply put_u64_length; try reflexivity; try lia; unfold num; rewrite ?L1; reflexivity).
      rewrite (read_values_cons put_u64 8) by (try apply put_u64_length; try reflexivity; try lia; unfold num; rewrite ?L2; reflexivity).
      do 4 (rewrite (read_values_cons put_f32 4) by (try apply put_f32_length; try reflexivity; try lia; unfold num; rewrite ?L3; reflexivity)).
      rewrite <- (app_nil_r (flat_map put_f32 (vals "V"))).
      rewrite (read_values_cons put_f32 4) by (try apply put_f32_length; try reflexivity; try lia; unfold num; rewrite ?L3; reflexivity).
      reflexivity.
    - assert (sel = []) as E by (apply length_zero_iff_nil; unfold num in H0; lia).
      assert (rawdata = map (fun l => (l, [])) ["IX"; "IY"; "N"; "T"; "M"; "U"; "V"]%string) as ->.
      { unfold rawdata, ixs, iys, vals. rewrite E. reflexivity. }
      rewrite H0. clear Hlong Hfuel H0. set (c := content). clearbody c.
      assert (forall size, fromfile size 0 c pos = ([], (pos + 0)%nat)) as FF. { intros size. unfold fromfile. cbn. reflexivity. }
      cbn [map read_values]. rewrite Nat.add_0_r in FF.
      repeat (match goal with |- context [item_size (txt ?l)] => let v := eval vm_compute in (item_size (txt l)) in change (item_size (txt l)) with v end; cbn [of_option rbind]; rewrite FF).
      reflexivity.
  Qed.
  Lemma min_header : (790 <= length (header i num))%nat.
  Proof.
    unfold header. rewrite !app_length. replace (length comments) with (length comments + 0)%nat by lia.
    assert (Z.of_nat (length comments) >= 790)%Z by (vm_compute; discriminate). lia.
  Qed.
  Lemma pos_read : exists pos, read_header_string fuel content 0 [] = Ok (header i num, pos) /\ (pos = length (header i num ++ [nul]) \/ num = 0%Z).
  Proof.
    unfold content. rewrite header_end by (try exact Hfuel; try apply clean_no_nul; try apply clean_ascii; apply header_clean). cbv zeta.
    set (D := flat_map put_u64 ixs ++ _). pose proof min_header as MH.
    assert (chunk_end (header i num) <= length (header i num) + 1024 /\ (chunk_end (header i num) = 1024 \/ 1024 <= length (header i num)))%nat as CE.
    { unfold chunk_end. pose proof (Nat.mul_div_le (length (header i num)) 1024 ltac:(lia)). split; [lia|].
      destruct (Nat.lt_ge_cases (length (header i num)) 1024); [left; rewrite Nat.div_small by assumption; reflexivity|right; assumption]. }
    destruct Hlong as [H0|HL].
    - match goal with |- context [(?a <? 0)%Z] => assert (0 <= a)%Z by lia; replace (a <? 0)%Z with false by (symmetry; apply Z.ltb_ge; assumption) end.
      eexists. split; [reflexivity|]. right. assumption.
    - unfold content in HL. fold D in HL. rewrite app_length in HL. cbn [length] in HL.
      assert (forall t, t = Z.of_nat (length (header i num) + 1) -> (if (t <? 0)%Z then Err OSErr else Ok (header i num, Z.to_nat t)) = Ok (header i num, (length (header i num) + 1)%nat)) as T.
      { intros t ->. replace (Z.of_nat (length (header i num) + 1) <? 0)%Z with false by (symmetry; apply Z.ltb_ge; lia). rewrite Nat2Z.id. reflexivity. }
      eexists. split; [apply T; lia|]. left. rewrite app_length. reflexivity.
  Qed.

  Theorem read_back : exists out, gmx_read fuel content = Ok (out, mkGinfo (g_shape i) (round6 (fst (g_spacing i)), round6 (snd (g_spacing i))) (round6 (fst (g_origin i)), round6 (snd (g_origin i)))) /\
    map fst out = ["X"; "Y"; "N"; "T"; "M"; "U"; "V"]%string /\
    get out "X" = Some (grid nx ny (fun a _ => Fin (round6 (fst (g_origin i)) + round6 (fst (g_spacing i)) * (NQ a + Q2Qc (1 # 2))))) /\
    get out "Y" = Some (grid nx ny (fun _ b => Fin (round6 (snd (g_origin i)) + round6 (snd (g_spacing i)) * (NQ b + Q2Qc (1 # 2))))) /\
    forall l, In l stored_fields -> exists r, get out l = Some r /\ length r = (nx * ny)%nat /\
      forall p, (p < nx * ny)%nat -> nth p r NaN = if qeq (nth p (F "M"%string) 0) 0 then Fin 0 else f32_value (f32_bits (nth p (F l) 0)).
  Proof.
    destruct pos_read as (pos & HP & Hpos).
    assert (forall l, In l stored_fields -> { r | scatter nx ny (map le_value (map put_u64 ixs)) (map le_value (map put_u64 iys)) (map (fun b => f32_value (le_value b)) (map put_f32 (vals l))) = Ok r /\ length r = (nx * ny)%nat /\
      forall p, (p < nx * ny)%nat -> nth p r NaN = if qeq (nth p (F "M"%string) 0) 0 then Fin 0 else f32_value (f32_bits (nth p (F l) 0)) }) as SC.
    { intros l Hl.
      assert (map le_value (map put_u64 ixs) = map (fun p => Z.of_nat (p / ny)) sel) as E1.
      { unfold ixs. rewrite !map_map. apply map_ext_in. intros p Hp. apply u64_back. apply sel_small. assumption. }
      assert (map le_value (map put_u64 iys) = map (fun p => Z.of_nat (p mod ny)) sel) as E2.
      { unfold iys. rewrite !map_map. apply map_ext_in. intros p Hp. apply u64_back. apply sel_small. assumption. }
      assert (map (fun b => f32_value (le_value b)) (map put_f32 (vals l)) = map (fun p => f32_value (f32_bits (nth p (F l) 0))) sel) as E3.
      { unfold vals. rewrite !map_map. apply map_ext_in. intros p Hp. rewrite f32_back. reflexivity. }
      rewrite E1, E2, E3.
      destruct (scatter nx ny _ _ _) as [r|e] eqn:E.
      - exists r. destruct (scatter_chosen nx ny mmask (fun p => f32_value (f32_bits (nth p (F l) 0))) mask_length) as (r' & E' & L & N).
        fold sel in E'. rewrite E in E'. inversion E'; subst r'. repeat split; [exact L|]. intros p Hp. rewrite (N p Hp).
        assert (nth p mmask false = negb (qeq (nth p (F "M"%string) 0) 0)) as ->.
        { unfold mmask. destruct (HF "M"%string) as [_ LM]; [simpl; tauto|]. rewrite (nth_indep _ false (negb (qeq 0 0))) by (rewrite map_length, LM; assumption).
          apply (map_nth (fun v => negb (qeq v 0))). }
        destruct (qeq _ 0); reflexivity.
      - exfalso. destruct (scatter_chosen nx ny mmask (fun p => f32_value (f32_bits (nth p (F l) 0))) mask_length) as (r' & E' & _). fold sel in E'. rewrite E in E'. discriminate. }
    set (R := fun l (Hl : In l stored_fields) => proj1_sig (SC l Hl)).
    assert (In "N"%string stored_fields) as IN by (simpl; tauto). assert (In "T"%string stored_fields) as IT by (simpl; tauto).
    assert (In "M"%string stored_fields) as IM by (simpl; tauto). assert (In "U"%string stored_fields) as IU by (simpl; tauto).
    assert (In "V"%string stored_fields) as IV by (simpl; tauto).
    destruct (SC _ IN) as (rN & EN & SN). destruct (SC _ IT) as (rT & ET & ST). destruct (SC _ IM) as (rM & EM & SM). destruct (SC _ IU) as (rU & EU & SU). destruct (SC _ IV) as (rV & EV & SV).
    clear R.
    unfold gmx_read. rewrite HP. cbn [rbind]. rewrite header_lines. cbn [rbind written_state h_shape h_spacing h_origin h_fields h_num of_option].
    rewrite (values_read pos Hpos). cbn [rbind pair_of]. rewrite Hshape. cbn [fst snd].
    replace (Z.of_nat nx <? 0)%Z with false by (symmetry; apply Z.ltb_ge; lia). replace (Z.of_nat ny <? 0)%Z with false by (symmetry; apply Z.ltb_ge; lia). cbn [orb].
    rewrite !Nat2Z.id.
    rewrite (rmapM_ok_map _ (fun l => (l, if String.eqb l "N" then rN else if String.eqb l "T" then rT else if String.eqb l "M" then rM else if String.eqb l "U" then rU else rV))).
    - cbn [rbind]. eexists. split; [reflexivity|]. split; [reflexivity|]. split; [reflexivity|]. split; [reflexivity|].
      intros l Hl. cbn [stored_fields In] in Hl.
      destruct Hl as [<- | [<- | [<- | [<- | [<- | []]]]]]; eexists; (split; [reflexivity|]); assumption.
    - intros l Hl. cbn [stored_fields In] in Hl.
      destruct Hl as [<- | [<- | [<- | [<- | [<- | []]]]]]; cbn [key get rawdata String.eqb Ascii.eqb Bool.eqb of_option rbind];
        [rewrite EN|rewrite ET|rewrite EM|rewrite EU|rewrite EV]; reflexivity.
  Qed.
End Round.
