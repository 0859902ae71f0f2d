(** Contact line cells. *)
From Verif.Base Require Import QcX Res Np ListX Sort.
From Verif.Model Require Import Bins Flow Interface ContactLine.
From Verif.Spec Require Import FlowSpec InterfaceSpec ContactLineSpec.
From Verif.Proofs Require Import InterfaceP LongestRunP.
Local Open Scope list_scope.

Lemma rmapM_rising (data : list bin) (f : Qc -> res (list (nat * nat))) l out : increasing l ->
  (forall y ps, In y l -> f y = Ok ps -> ps = [] \/ exists p, ps = [p] /\ in_layer data y (fst p) /\ in_layer data y (snd p)) ->
  rmap (@concat _) (rmapM f l) = Ok out ->
  exists ys, interface_layers data ys out /\ forall y, In y ys -> In y l.
Proof.
  intros Hl. revert out. induction Hl as [|y l Hy Hl IH]; intros out HF H.
  - cbn in H. injection H as <-. exists []. split; [split; constructor|intros ? []].
  - cbn [rmapM] in H. destruct (f y) as [ps|] eqn:E; [|discriminate]. cbn [rbind] in H. destruct (rmapM f l) as [pss|] eqn:EL; [|discriminate].
    cbn in H. injection H as <-. destruct (IH (concat pss)) as (ys & [Hi HFF] & Hin); [intros; eapply HF; [right|]; eassumption|reflexivity|].
    destruct (HF y ps (or_introl eq_refl) E) as [-> | (p & -> & Hp)].
    + exists ys. split; [split; assumption|intros; right; auto].
    + exists (y :: ys). split; [split|].
      * constructor; [|exact Hi]. intros z Hz. apply Hy. auto.
      * simpl. constructor; assumption.
      * intros z [-> | Hz]; [left; reflexivity|right; auto].
Qed.
Lemma longest_layers V data box r cutoff nb lo hi pairs : interface_longest V data box r cutoff nb lo hi = Ok pairs ->
  exists ys, interface_layers data ys pairs /\ forall y, In y ys -> In y (map bY data) /\ inside lo hi y.
Proof.
  unfold interface_longest. intros H. apply (rmapM_rising data) in H as (ys & H1 & H2).
  - exists ys. split; [exact H1|]. intros y Hy. apply (proj1 (yvalues_spec _ _ _ _)). auto.
  - apply yvalues_inc.
  - intros y ps Hy E. set (indices := filter _ _) in E. set (layer := map _ indices) in E.
    destruct (filled_cells V (isort bin_le layer) (yslice_data data box y r) r cutoff nb) as [flags|] eqn:EF; [|discriminate]. cbn [rbind] in E.
    unfold filled_cells in EF. apply rmapM_length in EF. rewrite isort_length in EF. unfold layer in EF. rewrite map_length in EF.
    pose proof (find_edges_spec flags) as HS. destruct (find_edges flags) as [[a b]|]; [|injection E as <-; auto]. injection E as <-. right. eexists. split; [reflexivity|]. cbn [fst snd].
    assert (forall k, (k < length flags)%nat -> in_layer data y (nth k indices 0%nat)) as HI.
    { intros k Hk. rewrite EF in Hk. pose proof (nth_In indices 0%nat Hk) as Hin. apply (proj1 (layer_cells_spec data y _)). exact Hin. }
    destruct flags as [|f0 flags]; [|].
    + exfalso. destruct HS as [(_ & _ & HB)|(len & HL & _)]; [|simpl in HL; lia]. clear HI.
      assert (indices = []) as EN by (destruct indices; [reflexivity|discriminate]).
      apply (proj1 (yvalues_spec _ _ _ _)) in Hy as [Hy _]. apply in_map_iff in Hy as (c & Ec & Hc). apply In_nth_error in Hc as (i & Hi).
      assert (In i indices) as HIi. { apply (proj2 (layer_cells_spec data y i)). exists c. auto. } rewrite EN in HIi. destruct HIi.
    + destruct (longest_run_bound (f0 :: flags) a b) as [Ha Hb]; [discriminate|exact HS|]. split; apply HI; assumption.
Qed.
Lemma walls_layers V data r cutoff nb lo hi pairs : interface_walls V data r cutoff nb lo hi = Ok pairs ->
  exists ys, interface_layers data ys pairs /\ forall y, In y ys -> In y (map bY data) /\ inside lo hi y.
Proof.
  intros H. destruct (walls_spec V cutoff r data nb lo hi) as (ps & ys & E & HI & HIN & HF). rewrite H in E. injection E as <-.
  exists ys. split.
  - split; [exact HI|]. revert HF. apply Forall2_impl. intros y p [(_ & HL & _) (_ & HR & _)]. auto.
  - intros y Hy. apply HIN in Hy as [Hin (i & (b & Hb & <-) & _)]. split; [|exact Hin]. apply in_map. eapply nth_error_In. exact Hb.
Qed.
Lemma interface_has_layers V data fi o pairs : get_interface V data fi o = Ok pairs ->
  exists ys, interface_layers data ys pairs /\ forall y, In y ys -> In y (map bY data) /\ inside (fst (ylims_opt o)) (snd (ylims_opt o)) y.
Proof.
  unfold get_interface. destruct (get_cutoff V (cutoff_opt o) data) as [[cutoff|]|]; [|cbn [rbind]; intros [= <-]|discriminate].
  2:{ exists []. split; [split; constructor|intros ? []]. }
  cbn [rbind]. destruct (get_radius (radius_opt o) data) as [radius|]; [|discriminate]. cbn [rbind].
  destruct (longest_opt o).
  - destruct (size fi) as [[bx by']|]; [|discriminate]. apply longest_layers.
  - apply walls_layers.
Qed.

(** ** Choosing layers *)
Section Layers.
Variable data : list bin.
Notation cx := (cx data). Notation cy := (cy data).
Lemma layer_y y i : in_layer data y i -> cy i = y.
Proof. intros (b & Hb & <-). unfold ContactLine.cy. rewrite (nth_error_nth _ _ _ Hb). reflexivity. Qed.

Definition edge_layers (ys : list Qc) (inds : list nat) : list layer := combine ys (map cx inds).
Lemma up_to_prefix ymax pairs ys : interface_layers data ys pairs ->
  exists n, up_to data ymax pairs = firstn n pairs /\ (n <= length pairs)%nat /\ (forall y, In y (firstn n ys) -> y <= ymax) /\ (forall y, In y (skipn n ys) -> ymax < y).
Proof.
  intros [Hi HF]. revert Hi. induction HF as [|y p ys pairs [HL HR] HF IH]; intros Hi.
  - exists 0%nat. simpl. repeat split; auto; intros ? [].
  - inversion Hi as [|? ? Hy Hi']; subst. cbn [up_to]. rewrite (layer_y _ _ HL). destruct (qlt_spec ymax y) as [A|A].
    + exists 0%nat. split; [reflexivity|]. split; [apply Nat.le_0_l|]. split; [intros ? []|]. intros z [<- | Hz]; [exact A|]. specialize (Hy z Hz). qlra'.
    + destruct (IH Hi') as (n & E & Hn & H1 & H2). exists (S n). split; [simpl; rewrite E; reflexivity|]. split; [simpl; lia|]. split; [|exact H2].
      intros z [<- | Hz]; [apply Qcnot_lt_le; exact A|auto].
Qed.
Lemma place_spec limit i rest ys : increasing ys -> Forall2 (fun y j => cy j = y) ys rest ->
  exists n, place data limit i rest = (i + n)%nat /\ (n <= length rest)%nat /\ (forall y, In y (firstn n ys) -> y <= limit) /\ (forall y, In y (skipn n ys) -> limit < y).
Proof.
  intros Hi HF. revert i Hi. induction HF as [|y j ys rest E HF IH]; intros i Hi.
  - exists 0%nat. simpl. rewrite Nat.add_0_r. repeat split; auto; intros ? [].
  - inversion Hi as [|? ? Hy Hi']; subst. cbn [place]. destruct (qle_spec (cy j) limit) as [A|A].
    + destruct (IH (S i) Hi') as (n & E & Hn & H1 & H2). exists (S n). split; [rewrite E; lia|]. split; [simpl; lia|]. split; [|exact H2]. intros z [<- | Hz]; auto.
    + exists 0%nat. split; [lia|]. split; [apply Nat.le_0_l|]. split; [intros ? []|]. apply Qcnot_le_lt in A. intros z [<- | Hz]; [exact A|]. specialize (Hy z Hz). qlra'.
Qed.
Lemma increasing_skip n ys : increasing ys -> increasing (firstn n ys).
Proof.
  intros H. revert n. induction H as [|y ys Hy Hi IH]; intros [|n]; simpl; constructor; [|apply IH]. intros z Hz. apply Hy. revert Hz. clear. revert n.
  induction ys as [|a ys IH]; intros [|n]; simpl; try tauto. intros [H|H]; eauto.
Qed.
Lemma firstn_in {A} n (l : list A) x : In x (firstn n l) -> In x l.
Proof. revert l. induction n as [|n IH]; intros [|a l]; simpl; try tauto. intros [H|H]; auto. Qed.
Lemma increasing_last y ys : increasing (y :: ys) -> forall z, In z (y :: ys) -> z <= last (y :: ys) 0.
Proof.
  revert y. induction ys as [|a ys IH]; intros y H z Hz.
  - destruct Hz as [<- | []]. apply Qcle_refl.
  - change (last (y :: a :: ys) 0) with (last (a :: ys) 0). inversion H as [|? ? Hy Hi]; subst. destruct Hz as [<- | Hz].
    + assert (y < a) by (apply Hy; left; reflexivity). pose proof (IH a Hi a (or_introl eq_refl)). qlra'.
    + apply IH; assumption.
Qed.
Lemma last_in {A} (x : A) l d : In (last (x :: l) d) (x :: l).
Proof. revert x. induction l as [|y l IH]; intros x; [left; reflexivity|]. right. apply (IH y). Qed.
Lemma Forall2_firstn' {A B} (R : A -> B -> Prop) n l m : Forall2 R l m -> Forall2 R (firstn n l) (firstn n m).
Proof. intros H. revert n. induction H; intros [|n]; simpl; constructor; auto. Qed.
Lemma Forall2_last {A B} (R : A -> B -> Prop) l m d e : l <> [] -> Forall2 R l m -> R (last l d) (last m e).
Proof.
  intros Hne H. induction H as [|a b l m H HF IH]; [congruence|]. destruct HF as [|a' b' l m H' HF]; [exact H|]. apply IH. discriminate.
Qed.
Lemma in_edge_layers ys inds y x : Forall2 (fun y j => cy j = y) ys inds -> In (y, x) (edge_layers ys inds) -> exists j, In j inds /\ cx j = x /\ cy j = y.
Proof.
  unfold edge_layers. induction 1 as [|y0 j ys inds E HF IH]; simpl; [intros []|]. intros [[= <- <-]|H]; [exists j; auto|].
  destruct (IH H) as (j' & ? & ? & ?). exists j'. auto.
Qed.
Lemma in_edge_layers' ys inds j : Forall2 (fun y j => cy j = y) ys inds -> In j inds -> In (cy j, cx j) (edge_layers ys inds).
Proof.
  unfold edge_layers. induction 1 as [|y0 j0 ys inds E HF IH]; simpl; [intros []|]. intros [-> | H]; [left; congruence|right; auto].
Qed.

(** The cells of one edge, for the layers up to a height. *)
Lemma cells_of_edge_spec y0 ys i0 inds h inner eh n b :
  increasing (y0 :: ys) -> Forall2 (fun y j => cy j = y) (y0 :: ys) (i0 :: inds) ->
  (n <= length inds)%nat -> (forall y, In y (firstn n ys) -> y <= y0 + h) -> (forall y, In y (skipn n ys) -> y0 + h < y) ->
  In b (cells_of_edge data (i0 :: firstn n inds) inner eh) <-> In b data /\ contact_cell inner eh h y0 (edge_layers (y0 :: ys) (i0 :: inds)) b.
Proof.
  intros Hi HF Hn H1 H2. set (ls := edge_layers (y0 :: ys) (i0 :: inds)).
  inversion HF as [|? ? ? ? E0 HF']; subst. inversion Hi as [|? ? Hy Hi']; subst.
  set (used := i0 :: firstn n inds). set (uy := cy i0 :: firstn n ys).
  assert (Forall2 (fun y j => cy j = y) uy used) as HU by (constructor; [reflexivity|apply Forall2_firstn'; exact HF']).
  assert (forall j, In j used -> low h (cy i0) ls (cy j, cx j)) as HL.
  { intros j Hj. split.
    - apply in_edge_layers'; [exact HF|]. destruct Hj as [<- | Hj]; [left; reflexivity|right; eapply firstn_in; exact Hj].
    - cbn [fst]. destruct Hj as [<- | Hj]; [left; reflexivity|right]. apply H1.
      assert (Forall2 (fun y j => cy j = y) (firstn n ys) (firstn n inds)) as HX by (apply Forall2_firstn'; exact HF').
      clear - HX Hj. induction HX as [|a c l m Q HX IH]; [destruct Hj|]. destruct Hj as [-> | Hj]; [left; congruence|right; auto]. }
  assert (forall l, low h (cy i0) ls l -> exists j, In j used /\ l = (cy j, cx j)) as HL'.
  { intros [y x] [Hin Hlow]. cbn [fst] in Hlow. unfold ls, edge_layers in Hin. cbn [map combine] in Hin. destruct Hin as [[= <- <-]|Hin]; [exists i0; split; [left; reflexivity|reflexivity]|].
    assert (In (y, x) (edge_layers (firstn n ys) (firstn n inds)) \/ In (y, x) (edge_layers (skipn n ys) (skipn n inds))) as [A|A].
    { unfold edge_layers. rewrite <- (firstn_skipn n ys), <- (firstn_skipn n inds) in Hin. rewrite map_app in Hin.
      assert (forall (l1 : list Qc) (m1 : list Qc) l2 m2, length l1 = length m1 -> combine (l1 ++ l2) (m1 ++ m2) = combine l1 m1 ++ combine l2 m2) as CA.
      { induction l1 as [|u l1 IHl]; intros [|v m1] l2 m2 HLen; simpl in *; try discriminate; [reflexivity|]. f_equal. apply IHl. lia. }
      rewrite CA in Hin; [apply in_app_or; exact Hin|]. rewrite map_length, !firstn_length, (Forall2_length HF'). reflexivity. }
    - apply in_edge_layers in A; [|apply Forall2_firstn'; exact HF']. destruct A as (j & Hj & Ex & Ey). exists j. split; [right; exact Hj|congruence].
    - exfalso. unfold edge_layers in A. apply in_combine_l in A. specialize (H2 y A). destruct Hlow as [-> | Hlow]; [|qlra].
      assert (cy i0 < cy i0); [|qlra]. apply Hy. rewrite <- (firstn_skipn n ys). apply in_or_app. right. exact A. }
  destruct (place_spec (cy i0 + eh) 0 (firstn n inds) (firstn n ys)) as (m & EP & Hm & P1 & P2).
  { apply increasing_skip. exact Hi'. } { apply Forall2_firstn'. exact HF'. }
  cbn [Nat.add] in EP. set (ri := nth m used 0%nat).
  assert (m < length used)%nat as Hmu by (unfold used; simpl; lia).
  assert (In ri used) as Hri by (apply nth_In; exact Hmu).
  assert (nth_error uy m = Some (cy ri)) as Hrm.
  { assert (forall k j, nth_error used k = Some j -> nth_error uy k = Some (cy j)) as HX.
    { clear - HU. induction HU as [|a c l l' Q HU IH]; intros [|k] j Hk; try discriminate; [cbn in *; congruence|]. apply IH. exact Hk. }
    apply HX. unfold ri. apply nth_error_nth'. exact Hmu. }
  assert (reference eh h (cy i0) ls (cy ri, cx ri)) as HR.
  { split; [apply HL; exact Hri|]. cbn [fst]. destruct m as [|m].
    - clear Hrm. change (cy ri) with (cy i0). split; [left; reflexivity|]. intros l' Hl' Hle. apply HL' in Hl' as (j & Hj & ->). cbn [fst] in *.
      destruct Hj as [<- | Hj]; [apply Qcle_refl|]. exfalso.
      assert (In (cy j) (firstn n ys)) as Hin.
      { assert (Forall2 (fun y j => cy j = y) (firstn n ys) (firstn n inds)) as HX by (apply Forall2_firstn'; exact HF').
        clear - HX Hj. induction HX as [|a c l m Q HX IH]; [destruct Hj|]. destruct Hj as [-> | Hj]; [left; congruence|right; auto]. }
      specialize (P2 (cy j) Hin). qlra.
    - cbn [nth_error uy] in Hrm. split; [right; apply P1|].
      + assert (forall (l : list Qc) k v, nth_error l k = Some v -> In v (firstn (S k) l)) as HX.
        { induction l as [|a l IH]; intros [|k] v Hk; try discriminate; [cbn in *; left; congruence|]. simpl. right. apply (IH k v). exact Hk. }
        apply HX. exact Hrm.
      + intros l' Hl' Hle. apply HL' in Hl' as (j & Hj & ->). cbn [fst] in *.
        assert (forall z, In z (cy i0 :: firstn n ys) -> z <= cy i0 + eh -> z <= cy ri) as HZ.
        { intros z Hz Hle'. destruct Hz as [<- | Hz].
          - assert (cy i0 < cy ri); [|qlra']. apply Hy. apply (firstn_in n). eapply nth_error_In. exact Hrm.
          - assert (In z (firstn (S m) (firstn n ys)) \/ In z (skipn (S m) (firstn n ys))) as [A|A] by (apply in_app_or; rewrite firstn_skipn; exact Hz).
            + assert (increasing (firstn n ys)) as HIn by (apply increasing_skip; exact Hi'). clearbody ri. clear - A Hrm HIn.
              revert m Hrm A. induction HIn as [|a l Ha Hl IH]; intros m Hrm A; [destruct A|]. cbn [firstn] in A. destruct A as [<- | A].
              * destruct m; cbn in Hrm; [injection Hrm as ->; apply Qcle_refl|]. apply nth_error_In in Hrm. specialize (Ha _ Hrm). qlra'.
              * destruct m; [destruct A|]. eapply IH; [exact Hrm|exact A].
            + specialize (P2 z A). exfalso. qlra. }
        apply HZ; [|exact Hle]. clear - HU Hj. fold uy. induction HU as [|a c l l' Q HU IH]; [destruct Hj|]. destruct Hj as [-> | Hj]; [left; congruence|right; auto]. }
  assert (forall rf, reference eh h (cy i0) ls rf -> snd rf = cx ri) as HRU.
  { intros rf (R1 & R2 & R3). assert (fst rf = cy ri) as EY.
    { destruct HR as (S1 & S2 & S3). cbn [fst] in S2.
      assert (forall l, low h (cy i0) ls l -> cy i0 <= fst l) as Hlo.
      { intros l Hl. apply HL' in Hl as (j & Hj & ->). cbn [fst]. destruct Hj as [<- | Hj]; [apply Qcle_refl|]. apply qc_lt_le, Hy. apply (firstn_in n).
        assert (Forall2 (fun y j => cy j = y) (firstn n ys) (firstn n inds)) as HX by (apply Forall2_firstn'; exact HF').
        clear - HX Hj. induction HX as [|a c l m Q HX IH]; [destruct Hj|]. destruct Hj as [-> | Hj]; [left; congruence|right; auto]. }
      pose proof (Hlo _ R1) as A1. pose proof (Hlo _ S1) as A2. cbn [fst] in A2. apply Qcle_antisym.
      - destruct R2 as [R2|R2]; [qlra'|]. apply (S3 _ R1 R2).
      - destruct S2 as [S2|S2]; [qlra'|]. apply (R3 _ S1 S2). }
    apply HL' in R1 as (j & Hj & ->). cbn [fst snd] in *.
    assert (NoDup uy) as ND. { apply increasing_nodup. constructor; [|apply increasing_skip; exact Hi']. intros z Hz. apply Hy. eapply firstn_in. exact Hz. }
    assert (j = ri) as ->; [|reflexivity]. clearbody ri. clear - HU ND Hj Hri EY. clearbody used uy. induction HU as [|a c l l' Q HU IH]; [destruct Hj|].
    assert (forall k, In k l' -> In (cy k) l) as HI. { clear - HU. induction HU as [|a c l l' Q HU IH]; intros k Hk; [destruct Hk|]. destruct Hk as [-> | Hk]; [left; congruence|right; auto]. }
    inversion ND as [|? ? N1 N2]; subst. destruct Hj as [-> | Hj], Hri as [<- | Hri].
    - reflexivity.
    - exfalso. apply N1. rewrite EY. auto.
    - exfalso. apply N1. rewrite <- EY. auto.
    - apply IH; assumption. }
  unfold used at 1. unfold cells_of_edge. rewrite EP. fold used. fold ri.
  destruct (list_min (map cx used)) as [lo|] eqn:ELo; [|apply list_min_none in ELo; discriminate].
  destruct (list_max (map cx used)) as [hi|] eqn:EHi; [|apply list_max_none in EHi; discriminate].
  apply list_min_spec in ELo as [Lo1 Lo2]. apply list_max_spec in EHi as [Hi1 Hi2]. cbv zeta. rewrite filter_In, !Bool.andb_true_iff, !qle_true.
  assert (cy (last used 0%nat) = last uy 0) as ELast by (apply (Forall2_last (fun y j => cy j = y)); [discriminate|exact HU]).
  assert (increasing uy) as HIu. { constructor; [|apply increasing_skip; exact Hi']. intros z Hz. apply Hy. eapply firstn_in. exact Hz. }
  assert (forall j, In j used -> In (cy j) uy) as HIy. { clear - HU. induction HU as [|a c l l' Q HU IH]; intros k Hk; [destruct Hk|]. destruct Hk as [-> | Hk]; [left; congruence|right; auto]. }
  assert (forall x y z : Qc, qmin x y <= z <-> x <= z \/ y <= z) as Hmin.
  { intros x y z. unfold qmin. destruct (qle_spec x y) as [A|A]; [|apply Qcnot_le_lt in A]; (split; [auto|intros [B|B]; qlra']). }
  assert (forall x y z : Qc, z <= qmax x y <-> z <= x \/ z <= y) as Hmax.
  { intros x y z. unfold qmax. destruct (qle_spec x y) as [A|A]; [|apply Qcnot_le_lt in A]; (split; [auto|intros [B|B]; qlra']). }
  rewrite Hmin, Hmax. unfold contact_cell. split.
  - intros (Hb & ((A1 & A2) & A3) & A4). split; [exact Hb|]. split; [exact A3|]. split.
    + exists (cy (last used 0%nat), cx (last used 0%nat)). split; [apply HL; apply last_in|exact A4].
    + exists (cy ri, cx ri). split; [exact HR|]. cbn [snd]. split.
      * destruct A1 as [A1|A1]; [left|right; exact A1]. apply in_map_iff in Lo1 as (j & <- & Hj). exists (cy j, cx j). split; [apply HL; exact Hj|exact A1].
      * destruct A2 as [A2|A2]; [left|right; exact A2]. apply in_map_iff in Hi1 as (j & <- & Hj). exists (cy j, cx j). split; [apply HL; exact Hj|exact A2].
  - intros (Hb & A1 & (l & Hl & A2) & rf & Hrf & A3 & A4). rewrite (HRU rf Hrf) in A3, A4. split; [exact Hb|]. split; [split; [split|]|].
    + destruct A3 as [(l' & Hl' & A3)|A3]; [left|right; exact A3]. apply HL' in Hl' as (j & Hj & ->). cbn [snd] in A3.
      assert (lo <= cx j) by (apply Lo2, in_map, Hj). qlra'.
    + destruct A4 as [(l' & Hl' & A4)|A4]; [left|right; exact A4]. apply HL' in Hl' as (j & Hj & ->). cbn [snd] in A4.
      assert (cx j <= hi) by (apply Hi2, in_map, Hj). qlra'.
    + exact A1.
    + apply HL' in Hl as (j & Hj & ->). cbn [fst] in A2. rewrite ELast. pose proof (increasing_last _ _ HIu (cy j) (HIy j Hj)). fold uy in H. qlra'.
Qed.
Lemma cells_of_edge_filter inds inner eh : exists f, cells_of_edge data inds inner eh = filter f data.
Proof.
  unfold cells_of_edge. destruct inds as [|i0 rest]; [exists (fun _ => false); induction data; [reflexivity|assumption]|].
  destruct (list_min _); [|exists (fun _ => false); induction data; [reflexivity|assumption]].
  destruct (list_max _); [|exists (fun _ => false); induction data; [reflexivity|assumption]]. eauto.
Qed.
End Layers.
