(** Proofs about recognising, dispatching and converting formats. *)
From Coq Require Import String Ascii Permutation DecimalString.
From Verif.Base Require Import QcX Res Np Bytes Sums ListX.
From Verif.Model Require Import Utils Text Gmx Simple Formats.
From Verif.Spec Require Import FilesSpec DiskSpec.
From Verif.Proofs Require Import UtilsFiles UtilsDisk UtilsTop TextP GridAverageP GmxP GmxRoundP SimpleP.
Local Open Scope list_scope.

Lemma starts_with_true p : forall s, starts_with p s = true <-> exists r, s = p ++ r.
Proof.
  induction p as [|a p IH]; intros s; [split; [intros _; exists s; reflexivity|reflexivity]|]. destruct s as [|b s].
  - split; [discriminate|intros (r & H); discriminate].
  - cbn [starts_with app]. destruct (ascii_dec a b) as [->|N].
    + rewrite IH. split; intros (r & H); exists r; congruence.
    + split; [discriminate|]. intros (r & H). inversion H. congruence.
Qed.
Lemma starts_with_firstn p s k : (length p <= k)%nat -> starts_with p (firstn k s) = starts_with p s.
Proof.
  revert s k. induction p as [|a p IH]; intros s k H; [reflexivity|]. destruct k as [|k]; [cbn in H; lia|]. destruct s as [|b s]; [reflexivity|].
  cbn [firstn starts_with]. destruct (ascii_dec a b); [|reflexivity]. apply IH. cbn in H. lia.
Qed.
Lemma guess_gmx b : guess_read_module (Some b) = GmxModule <-> exists r, b = txt "FORMAT GMX_FLOW_1" ++ r \/ b = txt "FORMAT GMX_FLOW_2" ++ r.
Proof.
  unfold guess_read_module. cbv zeta. rewrite !starts_with_firstn by (vm_compute; lia).
  destruct (starts_with (txt "FORMAT GMX_FLOW_1") b) eqn:E1; [|destruct (starts_with (txt "FORMAT GMX_FLOW_2") b) eqn:E2].
  - apply starts_with_true in E1. destruct E1 as (r & ->). split; [intros _; exists r; left; reflexivity|reflexivity].
  - apply starts_with_true in E2. destruct E2 as (r & ->). split; [intros _; exists r; right; reflexivity|reflexivity].
  - cbn [orb]. split; [discriminate|]. intros (r & H).
    assert (forall p, starts_with p (p ++ r) = true) as S by (intros p; apply starts_with_true; exists r; reflexivity).
    destruct H as [-> | ->]; rewrite S in *; discriminate.
Qed.
Lemma gmx_file_recognised d i file : gmx_write d i = Ok file -> guess_read_module (Some file) = GmxModule.
Proof.
  unfold gmx_write. destruct (key d "M"); [|discriminate]. cbn [rbind]. destruct (masked _ _); [|discriminate]. cbn [rbind].
  destruct (masked _ (grid _ _ (fun _ b => b))); [|discriminate]. cbn [rbind]. destruct (rmapM _ _); [|discriminate]. cbn [rbind].
  intros E. inversion E. apply guess_gmx. unfold header. rewrite <- !app_assoc. eexists. left. reflexivity.
Qed.

(** ** The most significant byte of a float32 number *)
Definition top (x : Qc) : Z := (f32_bits x / 2 ^ 24)%Z.
Lemma put_f32_bytes x : exists b0 b1 b2, put_f32 x = [b0; b1; b2; chr (top x)].
Proof.
  unfold put_f32, top. generalize (f32_bits_range x). set (z := f32_bits x). intros R.
  cbn [le_bytes]. eexists _, _, _. do 3 f_equal. f_equal.
  rewrite !Z.div_div by lia. change (256 * 256 * 256)%Z with (2 ^ 24)%Z. rewrite Z.mod_small; [reflexivity|].
  split; [apply Z.div_pos; lia|apply Z.div_lt_upper_bound; [lia|]]. change (2 ^ 24 * 256)%Z with (2 ^ 32)%Z. lia.
Qed.
Lemma top_range x : (0 <= top x < 256)%Z.
Proof.
  unfold top. pose proof (f32_bits_range x). split; [apply Z.div_pos; lia|apply Z.div_lt_upper_bound; [lia|]]. change (2 ^ 24 * 256)%Z with (2 ^ 32)%Z. lia.
Qed.
Lemma mag_bounds a lo hi : (-126 < lo)%Z -> pow2 lo <= a -> a < pow2 hi -> ((lo + 127) * 2 ^ 23 <= f32_mag a <= (hi + 127) * 2 ^ 23)%Z.
Proof.
  intros Hlo H1 H2. assert (0 < a) as Ha by (eapply Qclt_le_trans; [apply pow2_pos|exact H1]).
  destruct (flog2_spec a Ha) as [L1 L2].
  assert (lo < flog2 a + 1)%Z as A by (apply pow2_inj_lt; eapply Qcle_lt_trans; eassumption).
  assert (flog2 a < hi)%Z as B by (apply pow2_inj_lt; eapply Qcle_lt_trans; eassumption).
  destruct (f32_mag_value a Ha) as (M & _ & E & _). destruct (f32_e_spec a Ha) as (_ & _ & _ & Q).
  unfold f32_e in *. rewrite Z.max_r in * by lia. rewrite E.
  assert (2 ^ 23 <= qround (a / pow2 (flog2 a - 23)))%Z as M2. { apply qround_ge. apply Q. lia. }
  lia.
Qed.
Lemma mag_small a hi : 0 <= a -> (-126 < hi)%Z -> a < pow2 hi -> (0 <= f32_mag a <= (hi + 127) * 2 ^ 23)%Z.
Proof.
  intros H0 Hh H. destruct (qlt 0 a) eqn:E; [apply qlt_true in E|].
  - destruct (flog2_spec a E) as [L1 L2]. assert (flog2 a < hi)%Z as B by (apply pow2_inj_lt; eapply Qcle_lt_trans; eassumption).
    destruct (f32_mag_value a E) as (M & M0 & Em & _). unfold f32_e in *. lia.
  - apply qlt_false in E. assert (a = 0) as -> by (apply Qcle_antisym; assumption). change (f32_mag 0) with 0%Z. lia.
Qed.
Lemma qabs_neg x : x < 0 -> qabs x = - x.
Proof.
  intros H. pose proof (proj1 (qabs_le x (qabs x)) (Qcle_refl _)) as [A B]. apply Qcle_antisym; [apply qabs_le; split; qlra'|qlra'].
Qed.
Lemma top_negative x : ZQ (-16) < x -> x <= ZQ (-2) -> (192 <= top x <= 193)%Z.
Proof.
  intros H1 H2. assert (x < 0) as N by (eapply Qcle_lt_trans; [exact H2|reflexivity]).
  unfold top, f32_bits. rewrite (proj2 (qlt_true x 0) N). rewrite (qabs_neg x N).
  assert (pow2 1 <= - x) as A. { rewrite pow2_ZQ by lia. change (2 ^ 1)%Z with 2%Z. change (ZQ (-2)) with (- ZQ 2) in H2. generalize dependent (ZQ 2). intros. qlra'. }
  assert (- x < pow2 4) as B. { rewrite pow2_ZQ by lia. change (2 ^ 4)%Z with 16%Z. change (ZQ (-16)) with (- ZQ 16) in H1. generalize dependent (ZQ 16). intros. qlra'. }
  pose proof (mag_bounds (- x) 1 4 ltac:(lia) A B) as M. rewrite Z.min_l by lia.
  split; [apply Z.div_le_lower_bound; lia|]. apply Z.lt_succ_r. apply Z.div_lt_upper_bound; lia.
Qed.
Lemma top_first x : qabs x < ZQ (2 ^ 26) -> top x <> 77%Z.
Proof.
  intros H. rewrite <- pow2_ZQ in H by lia. pose proof (mag_small (qabs x) 26 (qabs_nonneg x) ltac:(lia) H) as M.
  unfold top, f32_bits. rewrite Z.min_l by lia. destruct (qlt x 0).
  - enough (128 <= (2 ^ 31 + f32_mag (qabs x)) / 2 ^ 24)%Z by lia. apply Z.div_le_lower_bound; lia.
  - enough ((0 + f32_mag (qabs x)) / 2 ^ 24 < 77)%Z by lia. apply Z.div_lt_upper_bound; lia.
Qed.

Lemma firstn_nth {A} k p (s : list A) b : (p < k)%nat -> nth_error s p = Some b -> exists u t, firstn k s = u ++ b :: t.
Proof.
  intros Hp H. assert (nth_error (firstn k s) p = Some b) as H2.
  { assert (p < length s)%nat by (apply nth_error_Some; congruence). rewrite <- (firstn_skipn k s) in H. rewrite nth_error_app1 in H by (rewrite firstn_length; lia). exact H. }
  apply nth_error_split in H2. destruct H2 as (u & t & E & _). exists u, t. exact E.
Qed.
Lemma flat_nth q x : forall items, nth_error items q = Some x -> nth_error (flat_map put_f32 items) (4 * q + 3) = Some (chr (top x)).
Proof.
  induction q as [|q IH]; intros [|y items] H; try discriminate.
  - inversion H; subst. cbn [flat_map]. destruct (put_f32_bytes x) as (b0 & b1 & b2 & ->). reflexivity.
  - cbn [flat_map]. rewrite nth_error_app2 by (rewrite put_f32_length; lia). rewrite put_f32_length.
    replace (4 * S q + 3 - 4)%nat with (4 * q + 3)%nat by lia. apply IH. exact H.
Qed.
Lemma negative_detected rows q x : nth_error (concat rows) q = Some x -> (q < 2048)%nat -> ZQ (-16) < x -> x <= ZQ (-2) -> is_binary (binsimple rows) = true.
Proof.
  intros H Hq H1 H2. rewrite bin_flat. apply flat_nth in H. pose proof (top_negative x H1 H2) as T.
  destruct (firstn_nth (8 * 1024) (4 * q + 3) _ _ ltac:(lia) H) as (u & t & E).
  apply (never_binary _ u (chr (top x)) t E). left. rewrite code_chr by (pose proof (top_range x); lia). exact T.
Qed.
Lemma simple_recognised b rows : (forall r, In r rows -> length r = 7%nat) -> (forall r, hd_error rows = Some r -> qabs (nth 0 r 0) < ZQ (2 ^ 26)) ->
  guess_read_module (Some (if b : bool then binsimple rows else plainsimple rows)) = SimpleModule.
Proof.
  intros HL HX. destruct (guess_read_module _) eqn:E; [|reflexivity]. exfalso. apply guess_gmx in E. destruct E as (r & E). destruct b.
  - destruct rows as [|[|x row] rows].
    + cbn in E. destruct E; discriminate.
    + specialize (HL [] (or_introl eq_refl)). discriminate.
    + specialize (HX _ eq_refl). cbn [nth] in HX. pose proof (top_first x HX) as T.
      assert (chr (top x) = chr 77) as C.
      { unfold binsimple in E. cbn [flat_map] in E. destruct (put_f32_bytes x) as (b0 & b1 & b2 & Eb). rewrite Eb in E.
        destruct E as [E|E]; cbn in E; injection E; intros _ C _ _ _; rewrite C; reflexivity. }
      apply (f_equal code) in C. rewrite !code_chr in C by (pose proof (top_range x); lia). contradiction.
  - unfold plainsimple in E. destruct E as [E|E]; cbn in E; discriminate.
Qed.

(** ** Converting a sequence of files *)
Lemma lookup_conv fuel ft oth : forall pairs d, wf d ->
  NoDup (map snd pairs) -> (forall p, In p (map fst pairs) -> exists c out, lookup (files d) p = Some c /\ convert_file fuel ft oth (Some (bytes_of c)) = Ok out) ->
  ForallOrdPairs (fun a b => snd a <> fst b) pairs ->
  exists d', convert fuel ft oth d pairs = Ok d' /\
  wf d' /\ (forall fi fo, In (fi, fo) pairs -> exists c, lookup (files d) fi = Some c /\
     exists out, convert_file fuel ft oth (Some (bytes_of c)) = Ok out /\ lookup (files d') fo = Some (string_of out)) /\
  (forall q, In q (keys d) -> ~ In q (map snd pairs) -> lookup (files d') q = lookup (files d) q) /\
  exists written, length written = length pairs /\ Permutation (contents d') (contents d ++ written).
Proof.
  induction pairs as [|[fi fo] pairs IH]; intros d Hw Hnd Hin Hord.
  - exists d. split; [reflexivity|]. split; [exact Hw|]. split; [intros ? ? []|]. split; [auto|]. exists []. split; [reflexivity|]. rewrite app_nil_r. reflexivity.
  - cbn [convert]. inversion Hnd as [|? ? Hfo Hnd']; subst.
    destruct (Hin fi (or_introl eq_refl)) as (c & out & Ec & Eo).
    assert (forall p, In p (map fst pairs) -> In p (keys d)) as Kin.
    { intros p Hp. destruct (Hin p (or_intror Hp)) as (c' & _ & L & _). destruct (in_dec (fun x y : path => ltac:(decide equality; apply string_dec)) p (keys d)) as [H|H]; [exact H|].
      exfalso. apply lookup_none in H. congruence. }
    inversion Hord as [|? ? Hlater Hord']; subst.
    assert (forall q, In q (map fst pairs) -> q <> fo) as Hneq.
    { intros q Hq ->. apply in_map_iff in Hq. destruct Hq as (b & Eb & Hb). rewrite Forall_forall in Hlater. specialize (Hlater b Hb). cbn in Hlater. congruence. }
    rewrite Ec. cbn [option_map]. rewrite Eo. cbn [rbind].
    destruct (do_call_spec d fo [string_of out] Hw) as (d1 & E1 & Hw1 & P1 & L1 & O1). rewrite E1. cbn [rbind].
    assert (forall q, In q (keys d) -> q <> fo -> lookup (files d1) q = lookup (files d) q) as O2. { intros q Hq Nq. apply O1; [exact Nq|apply exists_path_iff; exact Hq]. }
    assert (forall q, In q (keys d) -> q <> fo -> In q (keys d1)) as K2.
    { intros q Hq Nq. destruct (in_dec (fun x y : path => ltac:(decide equality; apply string_dec)) q (keys d1)) as [H|H]; [exact H|].
      exfalso. apply lookup_none in H. rewrite (O2 q Hq Nq) in H. apply lookup_none in H. contradiction. }
    destruct (IH d1 Hw1 Hnd') as (d' & E & Hw' & R & O & W & LW & PW).
    { intros p Hp. destruct (Hin p (or_intror Hp)) as (c' & out' & A & B). exists c', out'. split; [|exact B]. rewrite O2; [exact A|apply Kin; exact Hp|apply Hneq; exact Hp]. }
    { exact Hord'. }
    exists d'. split; [exact E|].
    assert (In fo (keys d1)) as Kfo. { destruct (in_dec (fun x y : path => ltac:(decide equality; apply string_dec)) fo (keys d1)) as [H|H]; [exact H|]. exfalso. apply lookup_none in H. rewrite L1 in H. discriminate. }
    split; [exact Hw'|]. split; [|split].
    + intros fi' fo' [H|H].
      * inversion H; subst fi' fo'. exists c. split; [exact Ec|]. exists out. split; [exact Eo|]. rewrite (O fo Kfo Hfo), L1.
        cbn [String.concat]. reflexivity.
      * destruct (R fi' fo' H) as (c' & Lc' & out' & A & B). exists c'. split; [|exists out'; split; assumption].
        rewrite <- Lc'. symmetry. assert (In fi' (map fst pairs)) as I. { apply in_map_iff. exists (fi', fo'). auto. }
        apply O2; [apply Kin; exact I|apply Hneq; exact I].
    + intros q Hq Nq. cbn [map snd In] in Nq. rewrite O; [apply O2; [exact Hq|intros ->; apply Nq; left; reflexivity]|apply K2; [exact Hq|intros ->; apply Nq; left; reflexivity]|intros H; apply Nq; right; exact H].
    + exists (string_of out :: W). split; [cbn; rewrite LW; reflexivity|]. etransitivity; [exact PW|]. rewrite P1, <- app_assoc. reflexivity.
Qed.

(** ** Paths *)
Fixpoint no_slash (s : string) : Prop := match s with EmptyString => True | String c t => c <> "/"%char /\ no_slash t end.
Lemma no_slash_app a b : no_slash (a ++ b)%string <-> no_slash a /\ no_slash b.
Proof. induction a as [|c a IH]; cbn; tauto. Qed.
Lemma split_slash_no t : no_slash t -> split_slash t = (EmptyString, t).
Proof.
  induction t as [|c t IH]; [reflexivity|]. cbn [no_slash split_slash]. intros [Hc Ht]. rewrite (IH Ht). apply Ascii.eqb_neq in Hc. rewrite Hc. reflexivity.
Qed.
Lemma split_slash_app b t : no_slash t -> split_slash (b ++ t)%string = (fst (split_slash b), (snd (split_slash b) ++ t)%string).
Proof.
  intros Ht. induction b as [|c b IH]; [apply split_slash_no; exact Ht|]. cbn [split_slash String.append]. rewrite IH.
  destruct (split_slash b) as [h r]. cbn [fst snd]. destruct (Ascii.eqb c "/"); [reflexivity|]. destruct h; reflexivity.
Qed.
Lemma os_path_app b t : no_slash t -> os_path (b ++ t)%string = (fst (os_path b), (snd (os_path b) ++ t)%string).
Proof. intros Ht. unfold os_path. rewrite (split_slash_app b t Ht). destruct (split_slash b) as [h r]. reflexivity. Qed.
Lemma uint_no_slash u : no_slash (NilEmpty.string_of_uint u).
Proof. induction u; cbn; auto; (split; [discriminate|assumption]). Qed.
Lemma zeros_no_slash k : no_slash (zeros k).
Proof. induction k; cbn; [exact I|]. split; [discriminate|assumption]. Qed.
Lemma fmt05d_no_slash z : no_slash (fmt05d z).
Proof.
  unfold fmt05d, dec. destruct (z <? 0)%Z.
  - apply no_slash_app. split; [cbn; split; [discriminate|exact I]|]. apply no_slash_app. split; [apply zeros_no_slash|apply uint_no_slash].
  - apply no_slash_app. split; [apply zeros_no_slash|apply uint_no_slash].
Qed.
Lemma os_path_fname base k ext : no_slash ext -> os_path (fname base k ext) = (fst (os_path base), fname (snd (os_path base)) k ext).
Proof. intros H. unfold fname. rewrite os_path_app by (apply no_slash_app; split; [apply fmt05d_no_slash|exact H]). reflexivity. Qed.
Lemma os_path_fname_inj base ext j k : no_slash ext -> os_path (fname base j ext) = os_path (fname base k ext) -> j = k.
Proof. intros H. rewrite !os_path_fname by exact H. intros E. injection E as E. exact (fname_inj _ _ _ _ E). Qed.

Lemma singles_run fs base output begin e ext outext n : run_length (good fs base e ext) begin n ->
  forall fuel, (n < fuel)%nat ->
  find_singles_to_singles fuel fs base output {| o_begin := Some begin; o_end := Some e; o_ext := Some ext; o_outext := Some outext |} =
  Ok (map (fun k => (fname base k ext, fname output k outext)) (numbers begin n)).
Proof.
  intros Hr fuel Hf. unfold find_singles_to_singles, find_datamap_singles. cbn [o_begin o_end o_ext o_outext dflt].
  rewrite (yield_singles_run _ _ _ _ n) by assumption. cbn [rbind]. rewrite zip_next_ok.
  - rewrite map_length, numbers_length, combine_map_same. reflexivity.
  - intros k Hk. rewrite map_length, numbers_length in Hk. apply le_bound_iff. destruct Hr as [R _]. apply (R (Z.of_nat k)). lia.
Qed.
Lemma convert_frames ffuel fuel ft d base output o n : wf d ->
  let begin := match o_begin o with Some b => b | None => 1%Z end in
  let e := match o_end o with Some e => e | None => Inf end in
  let ext := match o_ext o with Some x => x | None => ".dat"%string end in
  let outext := match o_outext o with Some x => x | None => ext end in
  let oth := match o_outext o with Some _ => true | None => false end in
  let src k := os_path (fname base k ext) in let dst k := os_path (fname output k outext) in
  no_slash outext -> (n < ffuel)%nat ->
  run_length (fun z => match e with Upto m => (z <= m)%Z | Inf => True end /\ exists_path d (src z) = true) begin n ->
  (forall j k, (begin <= j < k)%Z -> (k < begin + Z.of_nat n)%Z -> dst j <> src k) ->
  (forall k, (begin <= k < begin + Z.of_nat n)%Z -> exists c out, lookup (files d) (src k) = Some c /\ convert_file fuel ft oth (Some (bytes_of c)) = Ok out) ->
  exists d', convert_all ffuel fuel ft d base output o = Ok d' /\ wf d' /\
    (forall k, (begin <= k < begin + Z.of_nat n)%Z -> exists c out, lookup (files d) (src k) = Some c /\
       convert_file fuel ft oth (Some (bytes_of c)) = Ok out /\ lookup (files d') (dst k) = Some (string_of out)) /\
    (forall q, exists_path d q = true -> (forall k, (begin <= k < begin + Z.of_nat n)%Z -> q <> dst k) -> lookup (files d') q = lookup (files d) q) /\
    exists written, length written = n /\ Permutation (contents d') (contents d ++ written).
Proof.
  intros Hw begin e ext outext oth src dst Hs Hf Hr Hov Hok. unfold convert_all, pop_fileopts. cbv zeta. cbn [f_begin f_end f_ext f_outext].
  change (dflt 1%Z (o_begin o)) with begin. change (dflt Inf (o_end o)) with e. change (dflt ".dat"%string (o_ext o)) with ext. change (dflt ext (o_outext o)) with outext.
  fold oth. rewrite (singles_run _ base output begin e ext outext n Hr ffuel Hf). cbn [rbind]. rewrite map_map. cbn [fst snd].
  change (fun k => (os_path (fname base k ext), os_path (fname output k outext))) with (fun k => (src k, dst k)).
  assert (map fst (map (fun k => (src k, dst k)) (numbers begin n)) = map src (numbers begin n)) as Ef by (rewrite map_map; reflexivity).
  assert (map snd (map (fun k => (src k, dst k)) (numbers begin n)) = map dst (numbers begin n)) as Es by (rewrite map_map; reflexivity).
  destruct (lookup_conv fuel ft oth (map (fun k => (src k, dst k)) (numbers begin n)) d Hw) as (d' & E & Hw' & R & O & W & LW & PW).
  - rewrite Es. apply FinFun.Injective_map_NoDup; [|apply numbers_nodup]. intros j k H. exact (os_path_fname_inj output outext j k Hs H).
  - rewrite Ef. intros p Hp. apply in_map_iff in Hp. destruct Hp as (k & <- & Hk). apply in_numbers in Hk. apply Hok. exact Hk.
  - clear -Hov. assert (forall m b, (begin <= b)%Z -> (b + Z.of_nat m <= begin + Z.of_nat n)%Z -> ForallOrdPairs (fun a b => snd a <> fst b) (map (fun k => (src k, dst k)) (numbers b m))) as H.
    { induction m as [|m IH]; intros b Hb Hm; [constructor|]. cbn [numbers map]. constructor; [|apply IH; lia].
      apply Forall_forall. intros p Hp. apply in_map_iff in Hp. destruct Hp as (k & <- & Hk). apply in_numbers in Hk. cbn [fst snd]. apply Hov; lia. }
    apply H; lia.
  - exists d'. split; [exact E|]. split; [exact Hw'|]. split; [|split].
    + intros k Hk. destruct (R (src k) (dst k)) as (c & Lc & out & Co & Lo).
      { apply in_map_iff. exists k. split; [reflexivity|]. apply in_numbers. exact Hk. }
      exists c, out. auto.
    + intros q Hq Nq. apply O; [apply exists_path_iff; exact Hq|]. rewrite Es. intros H. apply in_map_iff in H. destruct H as (k & E' & Hk). apply in_numbers in Hk. apply (Nq k Hk). auto.
    + exists W. split; [|exact PW]. rewrite LW, map_length, numbers_length. reflexivity.
Qed.

(** ** What is read *)
Lemma set_nth_in {A} k (v : A) l x : In x (set_nth k v l) -> x = v \/ In x l.
Proof.
  unfold set_nth. destruct (k <? length l)%nat; [|auto]. rewrite in_app_iff. cbn [In]. intros [H|[H|H]]; [|left; auto|].
  - right. rewrite <- (firstn_skipn k l), in_app_iff. left. exact H.
  - right. rewrite <- (firstn_skipn (S k) l), in_app_iff. right. exact H.
Qed.
Lemma fold_set_in {A B} (ix : B -> nat) (val : B -> A) : forall l init x, In x (fold_left (fun g p => set_nth (ix p) (val p) g) l init) -> In x init \/ exists p, In p l /\ x = val p.
Proof.
  induction l as [|p l IH]; intros init x H; [left; exact H|]. cbn [fold_left] in H. apply IH in H. destruct H as [H|(q & Hq & ->)].
  - apply set_nth_in in H. destruct H as [-> |H]; [right; exists p; split; [left|]; reflexivity|left; exact H].
  - right. exists q. split; [right; exact Hq|reflexivity].
Qed.
Lemma scatter_in nx ny ix iy vs r x : scatter nx ny ix iy vs = Ok r -> In x r -> x = Fin 0 \/ In x vs.
Proof.
  unfold scatter. destruct (negb _); [discriminate|]. destruct (negb _); [discriminate|]. destruct (negb _); [discriminate|]. intros E. injection E as <-. intros H.
  apply (fold_set_in (fun p => (Z.to_nat (fst (fst p)) * ny + Z.to_nat (snd (fst p)))%nat) (fun p : Z * Z * ext => snd p)) in H.
  destruct H as [H|((p & v) & Hp & ->)]; [left; apply repeat_spec in H; exact H|]. right. apply in_combine_r in Hp. exact Hp.
Qed.
Lemma single_0 : is_single 0.
Proof. exists 0%Z, 0%Z. split; [reflexivity|]. split; [lia|]. apply Qc_is_canon. reflexivity. Qed.
(** A map read from a gmx file: positions are the centres of bins, values single precision. *)
Lemma gmx_read_facts fuel b out i : gmx_read fuel b = Ok (out, i) ->
  let nx := Z.to_nat (fst (g_shape i)) in let ny := Z.to_nat (snd (g_shape i)) in
  map fst out = simple_fields /\
  get out "X" = Some (grid nx ny (fun a _ => Fin (fst (g_origin i) + fst (g_spacing i) * (NQ a + Q2Qc (1 # 2))))) /\
  get out "Y" = Some (grid nx ny (fun _ c => Fin (snd (g_origin i) + snd (g_spacing i) * (NQ c + Q2Qc (1 # 2))))) /\
  (forall l r y, In l stored_fields -> get out l = Some r -> In (Fin y) r -> is_single y) /\
  (0 <= fst (g_shape i))%Z /\ (0 <= snd (g_shape i))%Z.
Proof.
  intros E. unfold gmx_read in E. destruct (read_header_string _ _ _ _) as [[text pos]|]; [|discriminate]. cbn [rbind] in E.
  destruct (read_lines _ _) as [st|]; [|discriminate]. cbn [rbind] in E. destruct (h_shape st) as [shape|]; [|discriminate]. cbn [of_option rbind] in E.
  destruct shape as [|sx [|sy [|]]]; try discriminate. destruct (h_fields st) as [fields|]; [|discriminate]. cbn [of_option rbind] in E.
  destruct (h_num st) as [num|]; [|discriminate]. cbn [of_option rbind] in E. destruct (read_values _ _ _ _ _) as [raw|]; [|discriminate]. cbn [rbind] in E.
  destruct (h_origin st) as [origin|]; [|discriminate]. cbn [of_option rbind] in E. destruct (pair_of origin) as [[x0 y0]|]; [|discriminate]. cbn [rbind] in E.
  destruct (h_spacing st) as [spacing|]; [|discriminate]. cbn [of_option rbind] in E. destruct (pair_of spacing) as [[dx dy]|]; [|discriminate]. cbn [rbind] in E.
  destruct (Z.ltb_spec sx 0); [discriminate|]. destruct (Z.ltb_spec sy 0); [discriminate|]. cbn [orb] in E. cbv zeta in E.
  match type of E with context [rmapM ?F stored_fields] => set (f := F) in E end.
  destruct (rmapM f stored_fields) as [vs|] eqn:V; [|discriminate]. cbn [rbind] in E. injection E as <- <-. cbn [g_shape g_origin g_spacing fst snd]. cbv zeta.
  apply rmapM_Forall2 in V.
  assert (forall l r, In (l, r) vs -> forall y, In (Fin y) r -> is_single y) as S.
  { intros l r Hv y Hy. revert Hv. clear -V Hy. induction V as [|k [k' r'] ks vs Hk _ IH]; [intros []|]. intros [E|Hv]; [|exact (IH Hv)]. injection E as -> ->.
    unfold f in Hk. destruct (key raw "IX") as [ix|]; [|discriminate]. cbn [rbind] in Hk. destruct (key raw "IY") as [iy|]; [|discriminate]. cbn [rbind] in Hk.
    destruct (key raw k) as [v|]; [|discriminate]. cbn [rbind] in Hk. destruct (scatter _ _ _ _ _) as [g|] eqn:G; [|discriminate]. cbn [rbind] in Hk. injection Hk as _ ->.
    destruct (scatter_in _ _ _ _ _ _ _ G Hy) as [H|H]; [injection H as ->; apply single_0|]. apply in_map_iff in H. destruct H as (b & Hb & _). eapply bits_single. exact Hb. }
  assert (map fst vs = stored_fields) as K.
  { clear -V. assert (forall k p, f k = Ok p -> fst p = k) as Hf.
    { intros k p Hk. unfold f in Hk. destruct (key raw "IX"); [|discriminate]. cbn [rbind] in Hk. destruct (key raw "IY"); [|discriminate]. cbn [rbind] in Hk.
      destruct (key raw k); [|discriminate]. cbn [rbind] in Hk. destruct (scatter _ _ _ _ _); [|discriminate]. cbn [rbind] in Hk. injection Hk as <-. reflexivity. }
    revert V. generalize stored_fields. intros fs V. induction V as [|k p ks vs Hk _ IH]; [reflexivity|]. cbn [map]. rewrite (Hf k p Hk), IH. reflexivity. }
  split; [cbn [map fst]; rewrite K; reflexivity|]. split; [reflexivity|]. split; [reflexivity|]. split; [|split; assumption].
  intros l r y Hl G Hy. apply (S l r); [|exact Hy].
  assert (forall (vs : dict (list ext)) l r, get vs l = Some r -> In (l, r) vs) as GI.
  { clear. induction vs as [|[k v] vs IH]; [discriminate|]. intros l r. cbn [get]. destruct (String.eqb_spec k l) as [->|]; [intros E; injection E as ->; left; reflexivity|intros E; right; apply IH; exact E]. }
  apply GI. cbn [get] in G. destruct (String.eqb_spec "X" l) as [<-|]; [cbn in Hl; repeat (destruct Hl as [Hl|Hl]; [discriminate|]); destruct Hl|].
  destruct (String.eqb_spec "Y" l) as [<-|]; [cbn in Hl; repeat (destruct Hl as [Hl|Hl]; [discriminate|]); destruct Hl|]. exact G.
Qed.

(** A map of finite values. *)
Definition frame (out : dict (list ext)) (i : minfo) (nx ny : nat) (x0 y0 dx dy : Qc) (G : string -> list Qc) : Prop :=
  map fst out = simple_fields /\ (forall l, In l simple_fields -> get out l = Some (map Fin (G l)) /\ length (G l) = (nx * ny)%nat) /\
  i = mkMinfo (nx, ny) (Fin dx, Fin dy) (x0, y0).
Lemma frame_out out i nx ny x0 y0 dx dy G : frame out i nx ny x0 y0 dx dy G -> out = map (fun l => (l, map Fin (G l))) simple_fields.
Proof.
  intros (K & F & _). assert (forall l, In l simple_fields -> get out l = Some (map Fin (G l))) as F' by (intros l Hl; apply (F l Hl)). clear F.
  do 7 (destruct out as [|[? ?] out]; [discriminate|]). destruct out; [|discriminate]. cbn [map fst] in K. injection K. intros; subst.
  pose proof (F' "X"%string ltac:(cbn; tauto)) as A1. pose proof (F' "Y"%string ltac:(cbn; tauto)) as A2. pose proof (F' "N"%string ltac:(cbn; tauto)) as A3.
  pose proof (F' "T"%string ltac:(cbn; tauto)) as A4. pose proof (F' "M"%string ltac:(cbn; tauto)) as A5. pose proof (F' "U"%string ltac:(cbn; tauto)) as A6. pose proof (F' "V"%string ltac:(cbn; tauto)) as A7.
  cbn in A1, A2, A3, A4, A5, A6, A7. injection A1 as ->. injection A2 as ->. injection A3 as ->. injection A4 as ->. injection A5 as ->. injection A6 as ->. injection A7 as ->. reflexivity.
Qed.
Definition plain_dict (G : string -> list Qc) : dict (list Qc) := map (fun l => (l, G l)) simple_fields.
Lemma rmapM_finite (v : list Qc) : rmapM finite (map Fin v) = Ok v.
Proof. induction v as [|x v IH]; [reflexivity|]. cbn [map rmapM finite rbind]. rewrite IH. reflexivity. Qed.
Lemma frame_finite out i nx ny x0 y0 dx dy G : frame out i nx ny x0 y0 dx dy G -> finite_dict out = Ok (plain_dict G).
Proof.
  intros HF. rewrite (frame_out _ _ _ _ _ _ _ _ _ HF). unfold finite_dict, plain_dict. induction simple_fields as [|l ls IH]; [reflexivity|].
  cbn [map rmapM fst snd]. rewrite rmapM_finite. cbn [rbind]. rewrite IH. reflexivity.
Qed.
Lemma get_plain G l : In l simple_fields -> get (plain_dict G) l = Some (G l).
Proof. intros Hl. cbn in Hl. repeat (destruct Hl as [<-|Hl]; [reflexivity|]). destruct Hl. Qed.
Lemma frame_convert fuel ft oth file out i nx ny x0 y0 dx dy G : read_data_file fuel file = Ok (out, i) -> frame out i nx ny x0 y0 dx dy G ->
  convert_file fuel (Some ft) oth file = write (Some ft) true oth (plain_dict G) (Some (mkGinfo (Z.of_nat nx, Z.of_nat ny) (dx, dy) (x0, y0))).
Proof.
  intros R HF. unfold convert_file. rewrite R. cbn [rbind]. rewrite (frame_finite _ _ _ _ _ _ _ _ _ HF). cbn [rbind]. destruct HF as (_ & _ & ->). reflexivity.
Qed.
(** The map read from a simple file. *)
Lemma simple_read_positions b out i : simple_read b = Ok (out, i) ->
  let '(nx, ny) := m_shape i in
  get out "X" = Some (grid nx ny (fun a _ => along (fst (m_origin i)) (fst (m_spacing i)) a)) /\
  get out "Y" = Some (grid nx ny (fun _ c => along (snd (m_origin i)) (snd (m_spacing i)) c)).
Proof.
  unfold simple_read. destruct (if is_binary b then _ else _) as [[d scalar]|]; [|discriminate]. cbn [rbind].
  destruct (key d "X") as [X|]; [|discriminate]. cbn [rbind]. destruct (key d "Y") as [Y|]; [|discriminate]. cbn [rbind]. destruct scalar; [discriminate|].
  destruct (rmapM finite X) as [xs|]; [|discriminate]. cbn [rbind]. destruct (rmapM finite Y) as [ys|]; [|discriminate]. cbn [rbind].
  destruct (calc_information _ _) as [i'|]; [|discriminate]. cbn [rbind]. destruct (m_shape i') as [nx ny] eqn:Es. intros E. injection E as <- <-. rewrite Es.
  assert (forall (d : dict (list ext)) l v, get (put d l v) l = Some v) as GP.
  { clear. induction d as [|[k w] d IH]; intros l v; cbn [put get]; [rewrite String.eqb_refl; reflexivity|]. destruct (String.eqb_spec k l) as [->|N]; cbn [get]; [rewrite String.eqb_refl; reflexivity|].
    apply String.eqb_neq in N. rewrite N. apply IH. }
  assert (forall (d : dict (list ext)) l l' v, l <> l' -> get (put d l v) l' = get d l') as GN.
  { clear. induction d as [|[k w] d IH]; intros l l' v N; cbn [put get]; [apply String.eqb_neq in N; rewrite N; reflexivity|]. destruct (String.eqb_spec k l) as [->|N2]; cbn [get].
    - apply String.eqb_neq in N. rewrite N. reflexivity.
    - destruct (String.eqb k l'); [reflexivity|apply IH; exact N]. }
  split; [rewrite GN by discriminate; apply GP|apply GP].
Qed.
