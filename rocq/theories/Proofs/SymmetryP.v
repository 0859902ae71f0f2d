(** Interfaces of reordered and mirrored maps. *)
From Coq Require Import Permutation Lia.
From Verif.Base Require Import QcX Res Np Sort.
From Verif.Model Require Import Bins Flow Interface ContactLine.
From Verif.Spec Require Import InterfaceSpec SymmetrySpec.
From Verif.Proofs Require Import InterfaceP GridP.
Local Open Scope list_scope.
Local Open Scope Qc_scope.

(** ** Lists *)
Lemma list_min_ext l m : (forall x, In x l <-> In x m) -> list_min l = list_min m.
Proof.
  intros H. destruct (list_min l) as [a|] eqn:E1.
  - symmetry. apply list_min_spec in E1 as [I L]. apply list_min_spec. split; [apply H, I|]. intros y Hy. apply L, H, Hy.
  - apply list_min_none in E1. subst. symmetry. apply list_min_none. destruct m as [|x m]; [reflexivity|]. destruct (proj2 (H x) (or_introl eq_refl)).
Qed.
Lemma list_max_ext l m : (forall x, In x l <-> In x m) -> list_max l = list_max m.
Proof.
  intros H. destruct (list_max l) as [a|] eqn:E1.
  - symmetry. apply list_max_spec in E1 as [I L]. apply list_max_spec. split; [apply H, I|]. intros y Hy. apply L, H, Hy.
  - apply list_max_none in E1. subst. symmetry. apply list_max_none. destruct m as [|x m]; [reflexivity|]. destruct (proj2 (H x) (or_introl eq_refl)).
Qed.
Lemma perm_in {A} (l m : list A) : Permutation l m -> forall x, In x l <-> In x m.
Proof. intros H x. split; apply Permutation_in; [exact H|symmetry; exact H]. Qed.
Lemma qdiff_snoc l x y : qdiff (l ++ [x; y]) = qdiff (l ++ [x]) ++ [y - x].
Proof. induction l as [|a l IH]; [reflexivity|]. destruct l as [|b l]; [reflexivity|]. cbn [app qdiff] in *. rewrite IH. reflexivity. Qed.
Lemma qdiff_mirror t l : qdiff (rev (map (fun x => t - x) l)) = rev (qdiff l).
Proof.
  induction l as [|x l IH]; [reflexivity|]. destruct l as [|y l]; [reflexivity|]. cbn [map rev] in *. rewrite <- app_assoc. cbn [app]. rewrite qdiff_snoc, IH. cbn [qdiff rev]. do 2 f_equal. ring.
Qed.
Lemma increasing_snoc l x : increasing l -> (forall y, In y l -> y < x) -> increasing (l ++ [x]).
Proof.
  induction 1 as [|a l Ha Hl IH]; intros H; [constructor; [intros ? []|constructor]|]. cbn [app]. constructor.
  - intros y Hy. apply in_app_or in Hy as [Hy|[<-|[]]]; [apply Ha, Hy|apply H; left; reflexivity].
  - apply IH. intros y Hy. apply H. right. exact Hy.
Qed.
Lemma increasing_mirror t l : increasing l -> increasing (rev (map (fun x => t - x) l)).
Proof.
  induction 1 as [|a l Ha Hl IH]; [constructor|]. cbn [map rev]. apply increasing_snoc; [exact IH|]. intros y Hy. apply in_rev in Hy. apply in_map_iff in Hy as (x & <- & Hx). specialize (Ha x Hx). qlra'.
Qed.
Lemma unique_ext l m : (forall x, In x l <-> In x m) -> unique l = unique m.
Proof. intros H. apply increasing_ext; [apply unique_inc|apply unique_inc|]. intros x. rewrite !unique_in. apply H. Qed.
Lemma unique_mirror t l : unique (map (fun x => t - x) l) = rev (map (fun x => t - x) (unique l)).
Proof.
  apply increasing_ext; [apply unique_inc|apply increasing_mirror, unique_inc|]. intros x. rewrite unique_in, <- in_rev, !in_map_iff. split; intros (y & E & Hy); exists y; (split; [exact E|apply unique_in; exact Hy]).
Qed.

(** ** Moved maps: [data'] has the bins of [data], mirrored or not, in any order. *)
Section Moved.
Variables (V V' : bin -> Qc) (m : bool) (t : Qc).
Definition pos (x : Qc) : Qc := if m then t - x else x.
Definition moved (ls : list (Qc * Qc * Qc)) : list (Qc * Qc * Qc) := if m then mirrored t ls else ls.
Variable g : bin -> bin.
Hypotheses (HX : forall b, bX (g b) = pos (bX b)) (HY : forall b, bY (g b) = bY b) (HV : forall b, V' (g b) = V b).
Variables data data' : list bin.
Hypothesis HP : Permutation data' (map g data).

Lemma dist_moved b c : dist2 (g b) (g c) 0 = dist2 b c 0.
Proof. unfold dist2. rewrite !HX, !HY. unfold pos. destruct m; ring. Qed.
Lemma moved_in b : In b data' <-> exists c, In c data /\ g c = b.
Proof. rewrite (perm_in _ _ HP), in_map_iff. split; intros (c & A & B); exists c; auto. Qed.
Lemma length_filter_map {A B} (f : A -> B) (p : B -> bool) l : length (filter p (map f l)) = length (filter (fun x => p (f x)) l).
Proof. induction l as [|x l IH]; [reflexivity|]. cbn [map filter]. destruct (p (f x)); cbn [length]; rewrite IH; reflexivity. Qed.
Lemma good_moved cutoff r nb b : good V' cutoff r nb data' (g b) = good V cutoff r nb data b.
Proof.
  unfold good, InterfaceP.incl. rewrite HV. rewrite (Permutation_length (Permutation_filter _ _ _ HP)), length_filter_map.
  assert (forall c, counts V' cutoff r (g b) 0 (g c) = counts V cutoff r b 0 c) as E by (intros c; unfold counts; rewrite HV, dist_moved; reflexivity).
  rewrite (filter_ext _ _ E). reflexivity.
Qed.
(** Wet bins of a layer. *)
Definition wet (U : bin -> Qc) (d : list bin) cutoff r nb y (b : bin) : Prop := In b d /\ bY b = y /\ good U cutoff r nb d b = true.
Lemma wet_moved cutoff r nb y b : wet V' data' cutoff r nb y b <-> exists c, wet V data cutoff r nb y c /\ g c = b.
Proof.
  unfold wet. rewrite moved_in. split.
  - intros ((c & Hc & <-) & Yc & G). rewrite HY in Yc. rewrite good_moved in G. eauto.
  - intros (c & (Hc & Yc & G) & <-). rewrite HY, good_moved. eauto.
Qed.
Lemma wet_index U d cutoff r nb y : (exists i, in_layer d y i /\ droplet_cell U d cutoff r nb i) <-> exists b, wet U d cutoff r nb y b.
Proof.
  split.
  - intros (i & (b & Hb & Yb) & D). exists b. split; [eapply nth_error_In; exact Hb|]. split; [exact Yb|]. apply (droplet_cell_good _ _ _ _ _ _ _ Hb). exact D.
  - intros (b & Hb & Yb & G). apply In_nth_error in Hb as (i & Hi). exists i. split; [exists b; auto|]. apply (droplet_cell_good _ _ _ _ _ _ _ Hi). exact G.
Qed.
Lemma left_wet U d cutoff r nb y i : leftmost d (droplet_cell U d cutoff r nb) y i -> exists b, nth i d bin0 = b /\ wet U d cutoff r nb y b /\ forall c, wet U d cutoff r nb y c -> bX b <= bX c.
Proof.
  intros (D & (b & Hb & Yb) & L). exists b. split; [apply nth_error_nth, Hb|]. split.
  - split; [eapply nth_error_In; exact Hb|]. split; [exact Yb|]. apply (droplet_cell_good _ _ _ _ _ _ _ Hb). exact D.
  - intros c (Hc & Yc & G). apply In_nth_error in Hc as (j & Hj). specialize (L j). unfold x_of in L. rewrite Hb, Hj in L. apply L; [apply (droplet_cell_good _ _ _ _ _ _ _ Hj); exact G|exists c; auto].
Qed.
Lemma right_wet U d cutoff r nb y i : rightmost d (droplet_cell U d cutoff r nb) y i -> exists b, nth i d bin0 = b /\ wet U d cutoff r nb y b /\ forall c, wet U d cutoff r nb y c -> bX c <= bX b.
Proof.
  intros (D & (b & Hb & Yb) & L). exists b. split; [apply nth_error_nth, Hb|]. split.
  - split; [eapply nth_error_In; exact Hb|]. split; [exact Yb|]. apply (droplet_cell_good _ _ _ _ _ _ _ Hb). exact D.
  - intros c (Hc & Yc & G). apply In_nth_error in Hc as (j & Hj). specialize (L j). unfold x_of in L. rewrite Hb, Hj in L. apply L; [apply (droplet_cell_good _ _ _ _ _ _ _ Hj); exact G|exists c; auto].
Qed.
Lemma moved_cons l ls : moved (l :: ls) = moved [l] ++ moved ls.
Proof. unfold moved. destruct m; reflexivity. Qed.
Lemma walls_moved cutoff r nb lo hi : exists pairs pairs', interface_walls V data r cutoff nb lo hi = Ok pairs /\ interface_walls V' data' r cutoff nb lo hi = Ok pairs' /\ places data' pairs' = moved (places data pairs).
Proof.
  destruct (walls_spec V cutoff r data nb lo hi) as (pairs & ys & E & Hi & HIn & HF). destruct (walls_spec V' cutoff r data' nb lo hi) as (pairs' & ys' & E' & Hi' & HIn' & HF').
  exists pairs, pairs'. split; [exact E|]. split; [exact E'|].
  assert (ys' = ys) as ->.
  { apply increasing_ext; [exact Hi'|exact Hi|]. intros y. rewrite HIn, HIn', !wet_index. split; intros (A & b & Hb); (split; [exact A|]).
    - apply wet_moved in Hb as (c & Hc & _). eauto.
    - exists (g b). apply wet_moved. eauto. }
  clear -HF HF' HX HY HV HP. revert pairs' HF'. induction HF as [|y p ys pairs [HL HR] HF IH]; intros pairs' HF'; inversion HF' as [|? p' ? ps' [HL' HR'] HF'']; subst; [unfold moved; destruct m; reflexivity|].
  cbn [places map]. rewrite moved_cons. unfold places in IH. rewrite <- (IH ps' HF''). cbn [app].
  apply left_wet in HL as (a & -> & Wa & La). apply right_wet in HR as (b & -> & Wb & Lb). apply left_wet in HL' as (a' & -> & Wa' & La'). apply right_wet in HR' as (b' & -> & Wb' & Lb').
  apply wet_moved in Wa' as (c & Wc & <-). apply wet_moved in Wb' as (e & We & <-).
  assert (forall k, wet V data cutoff r nb y k -> bX (g c) <= bX (g k) /\ bX (g k) <= bX (g e)) as K by (intros k Wk; split; [apply La'|apply Lb']; apply wet_moved; eauto).
  destruct (K a Wa) as [K1 K2]. destruct (K b Wb) as [K3 K4]. rewrite !HX in K1, K2, K3, K4. rewrite !HX, !HY. pose proof (La c Wc). pose proof (La e We). pose proof (Lb c Wc). pose proof (Lb e We).
  assert (bY c = bY a) as -> by (destruct Wc as (_ & -> & _), Wa as (_ & -> & _); reflexivity).
  unfold pos, moved, mirrored in *. destruct m; cbn [map app fst snd]; f_equal.
  - assert (bX c = bX b) as -> by (apply Qcle_antisym; qlra'). assert (bX e = bX a) as -> by (apply Qcle_antisym; qlra'). reflexivity.
  - assert (bX c = bX a) as -> by (apply Qcle_antisym; qlra'). assert (bX e = bX b) as -> by (apply Qcle_antisym; qlra'). reflexivity.
Qed.
Lemma values_moved x : In x (map V' data') <-> In x (map V data).
Proof.
  rewrite !in_map_iff. split.
  - intros (b & <- & Hb). apply moved_in in Hb as (c & Hc & <-). exists c. rewrite HV. auto.
  - intros (c & <- & Hc). exists (g c). rewrite HV. split; [reflexivity|]. apply moved_in. eauto.
Qed.
Lemma cutoff_moved o : get_cutoff V' o data' = get_cutoff V o data.
Proof. unfold get_cutoff. rewrite (list_min_ext _ _ values_moved), (list_max_ext _ _ values_moved). reflexivity. Qed.
Lemma radius_moved o : get_radius o data' = get_radius o data.
Proof.
  unfold get_radius. destruct o as [r|]; [reflexivity|]. f_equal.
  assert (unique (map bX data') = unique (map pos (map bX data))) as ->.
  { apply unique_ext. intros x. rewrite map_map, !in_map_iff. split.
    - intros (b & <- & Hb). apply moved_in in Hb as (c & Hc & <-). exists c. rewrite HX. auto.
    - intros (c & <- & Hc). exists (g c). rewrite HX. split; [reflexivity|]. apply moved_in. eauto. }
  unfold pos. destruct m; [|rewrite map_id; reflexivity]. rewrite unique_mirror, qdiff_mirror. apply list_min_ext. intros x. symmetry. apply in_rev.
Qed.
Lemma interface_moved fi fi' o : longest_opt o = false ->
  rmap (places data') (get_interface V' data' fi' o) = rmap (fun pairs => moved (places data pairs)) (get_interface V data fi o).
Proof.
  intros Ho. unfold get_interface. rewrite cutoff_moved, radius_moved, Ho. destruct (get_cutoff V (cutoff_opt o) data) as [[c|]|]; [|unfold moved; destruct m; reflexivity|reflexivity].
  cbn [rbind]. destruct (get_radius (radius_opt o) data) as [r|]; [|reflexivity]. cbn [rbind].
  destruct (walls_moved c r (bins_opt o) (fst (ylims_opt o)) (snd (ylims_opt o))) as (p & p' & -> & -> & E). cbn [rmap rbind]. rewrite E. reflexivity.
Qed.
End Moved.
