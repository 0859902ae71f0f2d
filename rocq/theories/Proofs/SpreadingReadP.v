(** Proofs about reading spreading files. *)
From Coq Require Import String Ascii.
From Verif.Base Require Import QcX Res Np Bytes.
From Verif.Model Require Import Text Gmx Simple Formats Table InterfaceFiles SpreadingFiles.
From Verif.Spec Require Import TableSpec.
From Verif.Proofs Require Import TextP SimpleP TableP.
Local Open Scope list_scope.
Local Notation length := List.length.

Lemma rmapM_all {A B} (f : A -> res B) (g : A -> B) l : (forall x, In x l -> f x = Ok (g x)) -> rmapM f l = Ok (map g l).
Proof.
  induction l as [|x l IH]; intros H; [reflexivity|]. cbn [rmapM map]. rewrite (H x) by (left; reflexivity). cbn [rbind]. rewrite IH; [reflexivity|]. intros y Hy. apply H. right. exact Hy.
Qed.
Lemma float_word_fixed x : float_word (fmt_fixed 3 x) = Ok (Fin (round_dec 3 x)).
Proof. unfold float_word. rewrite to_ext_fixed. reflexivity. Qed.
Lemma load_rows header rows c : Forall comment_line header -> (0 < c)%nat -> (forall r, In r rows -> length r = c) ->
  loadtxt (savetxt header rows) = Ok (map (map (fun x => Fin (round_dec 3 x))) rows).
Proof.
  intros Hh Hc Hr. unfold loadtxt. rewrite table_words by exact Hh.
  assert (filter (fun ws : list bytes => negb (Nat.eqb (length ws) 0)) (map (fun _ => []) header ++ map (map (fmt_fixed 3)) rows) = map (map (fmt_fixed 3)) rows) as ->.
  { rewrite filter_app. assert (forall h : list bytes, filter (fun ws : list bytes => negb (Nat.eqb (length ws) 0)) (map (fun _ => []) h) = []) as -> by (induction h; [reflexivity|assumption]).
    cbn [app]. clear Hh. induction rows as [|r rows IH]; [reflexivity|]. cbn [map filter]. rewrite map_length, (Hr r) by (left; reflexivity).
    destruct c; [lia|]. cbn [Nat.eqb negb]. f_equal. apply IH. intros r' H'. apply Hr. right. exact H'. }
  assert (rmapM (rmapM float_word) (map (map (fmt_fixed 3)) rows) = Ok (map (map (fun x => Fin (round_dec 3 x))) rows)) as ->.
  { clear Hh Hr. induction rows as [|r rows IH]; [reflexivity|]. cbn [map rmapM].
    assert (rmapM float_word (map (fmt_fixed 3) r) = Ok (map (fun x => Fin (round_dec 3 x)) r)) as ->.
    { induction r as [|x r IHr]; [reflexivity|]. cbn [map rmapM]. rewrite float_word_fixed. cbn [rbind]. rewrite IHr. reflexivity. }
    cbn [rbind]. rewrite IH. reflexivity. }
  cbn [rbind]. destruct rows as [|r rows]; [reflexivity|]. cbn [map]. 
  match goal with |- (if ?b then _ else _) = _ => assert (b = true) as -> end; [|reflexivity].
  apply forallb_forall. intros v Hv. apply Nat.eqb_eq. rewrite map_length, (Hr r) by (left; reflexivity).
  destruct Hv as [<- | Hv]; [rewrite map_length; apply Hr; left; reflexivity|]. apply in_map_iff in Hv. destruct Hv as (r' & <- & H'). rewrite map_length. apply Hr. right. exact H'.
Qed.

(** The curve of a column. *)
Definition curve (name : string) (num : nat) (ts rs : list Qc) : series :=
  mkSeries (name ++ "." ++ Utils.dec (N.of_nat num)) (combine (map Fin ts) (map Fin rs)).
Lemma get_series_fin ts rs name num : get_series (map Fin rs) (map Fin ts) name num = curve name num ts rs.
Proof.
  unfold get_series, curve. f_equal. revert rs. induction ts as [|t ts IH]; intros [|r rs]; cbn [map combine filter]; try reflexivity. cbn [snd is_nan negb]. rewrite IH. reflexivity.
Qed.
Lemma column_round rows j (f : list Qc -> Qc) : (forall r, In r rows -> nth_error r j = Some (f r)) ->
  column (map (map (fun x => Fin (round_dec 3 x))) rows) j = map Fin (map (round_dec 3) (map f rows)).
Proof.
  intros H. unfold column. rewrite !map_map. apply map_ext_in. intros r Hr. apply nth_error_nth. rewrite nth_error_map, (H r Hr). reflexivity.
Qed.
Lemma read_table name header rows c : Forall comment_line header -> (2 <= length rows)%nat -> (forall r, In r rows -> length r = S (S c)) ->
  read_plain_file name (savetxt header rows) =
  Ok (map (fun j => curve name j (map (round_dec 3) (map (fun r => nth 0 r 0) rows)) (map (round_dec 3) (map (fun r => nth j r 0) rows))) (seq 1 (S c))).
Proof.
  intros Hh Hl Hr. unfold read_plain_file. rewrite (load_rows _ _ (S (S c)) Hh) by (try lia; exact Hr). cbn [rbind].
  assert (forall j, (j < S (S c))%nat -> column (map (map (fun x => Fin (round_dec 3 x))) rows) j = map Fin (map (round_dec 3) (map (fun r => nth j r 0) rows))) as HC.
  { intros j Hj. apply column_round. intros r Hr'. apply nth_error_nth'. rewrite Hr by exact Hr'. exact Hj. }
  destruct rows as [|r1 [|r2 rows]]; cbn [length] in Hl; try lia.
  set (R := map _ (r1 :: r2 :: rows)) in *. assert (exists v1 v2 vs, R = v1 :: v2 :: vs /\ length v1 = S (S c)) as (v1 & v2 & vs & E & L).
  { eexists _, _, _. split; [reflexivity|]. rewrite map_length. apply Hr. left. reflexivity. }
  clearbody R. subst R. destruct v1 as [|e1 [|e2 v1]]; cbn [length] in L; try lia. cbn [length Nat.eqb Nat.sub]. injection L as L. rewrite L. 
  apply f_equal. apply map_ext_in. intros j Hj. apply in_seq in Hj. rewrite !HC by lia. apply get_series_fin.
Qed.

(** ** Texts with '@' *)
Definition at_free (t : bytes) : Prop := Forall (fun b => code b <> 64)%Z t.
Lemma at_free_app a b : at_free (a ++ b) <-> at_free a /\ at_free b. Proof. apply Forall_app. Qed.
Lemma digits_at_free s : Forall is_digit s -> at_free s.
Proof. intros H. eapply Forall_impl; [|exact H]. unfold is_digit. cbn. lia. Qed.
Lemma fixed_at_free d x : (0 < d)%nat -> at_free (fmt_fixed d x).
Proof.
  intros Hd. unfold fmt_fixed. set (n := qround _). destruct (fixed_eq d n Hd) as (i & f & E & Di & Df & _). rewrite E.
  assert (at_free (i ++ chr 46 :: f)) as H.
  { apply at_free_app. split; [apply digits_at_free; assumption|]. constructor; [vm_compute; discriminate|apply digits_at_free; assumption]. }
  destruct (qlt x 0); [constructor; [vm_compute; discriminate|]|]; assumption.
Qed.
Lemma starts_at b s : (code b <> 64)%Z -> starts_with target (b :: s) = false.
Proof.
  intros H. change target with (chr 64 :: txt "target "). cbn [starts_with]. destruct (ascii_dec (chr 64) b) as [E|_]; [|reflexivity]. subst b. exfalso. apply H. reflexivity.
Qed.
Lemma split_step part b s : starts_with target (b :: s) = false -> split_text target part 0 (b :: s) = split_text target (part ++ [b]) 0 s.
Proof. intros H. cbn [split_text]. rewrite H. reflexivity. Qed.
Lemma split_free t : at_free t -> forall part s, split_text target part 0 (t ++ s) = split_text target (part ++ t) 0 s.
Proof.
  induction 1 as [|b t Hb Ht IH]; intros part s; [rewrite app_nil_r; reflexivity|]. cbn [app]. rewrite split_step by (apply starts_at; exact Hb). rewrite IH, <- app_assoc. reflexivity.
Qed.
Lemma split_end t part : at_free t -> split_text target part 0 t = [part ++ t].
Proof. intros H. rewrite <- (app_nil_r t) at 1. rewrite split_free by exact H. reflexivity. Qed.
Lemma split_target part s : split_text target part 0 (target ++ s) = part :: split_text target [] 0 s.
Proof. reflexivity. Qed.
(** A line which starts with '@', but not with '@t'. *)
Lemma split_other c t : (code c <> 116)%Z -> at_free (c :: t) -> forall part s, split_text target part 0 (chr 64 :: c :: t ++ s) = split_text target (part ++ chr 64 :: c :: t) 0 s.
Proof.
  intros Hc Ht part s. rewrite split_step.
  - change (c :: t ++ s) with ((c :: t) ++ s). rewrite split_free by exact Ht. rewrite <- app_assoc. reflexivity.
  - change target with (chr 64 :: chr 116 :: txt "arget "). cbn [starts_with]. destruct (ascii_dec (chr 64) (chr 64)) as [_|N]; [|contradiction].
    destruct (ascii_dec (chr 116) c) as [E|_]; [|reflexivity]. subst c. exfalso. apply Hc. reflexivity.
Qed.
Definition quiet (l : bytes) : Prop := at_free l \/ exists c t, l = chr 64 :: c :: t /\ (code c <> 116)%Z /\ at_free (c :: t).
Lemma nl_free : at_free nl. Proof. constructor; [vm_compute; discriminate|constructor]. Qed.
Lemma split_lines ls : Forall quiet ls -> forall part s, split_text target part 0 (flat_map (fun l => l ++ nl) ls ++ s) = split_text target (part ++ flat_map (fun l => l ++ nl) ls) 0 s.
Proof.
  induction 1 as [|l ls Hl Hls IH]; intros part s; [rewrite app_nil_r; reflexivity|]. cbn [flat_map]. rewrite <- !app_assoc.
  transitivity (split_text target (part ++ l) 0 (nl ++ flat_map (fun l => l ++ nl) ls ++ s)).
  - destruct Hl as [Hl|(c & t & -> & Hc & Ht)]; [apply split_free; exact Hl|]. exact (split_other c t Hc Ht part _).
  - rewrite split_free by apply nl_free. rewrite IH. rewrite <- !app_assoc. reflexivity.
Qed.

(** ** Files without '@' have no graphs. *)
Lemma table_free header rows : Forall at_free header -> at_free (savetxt header rows).
Proof.
  intros Hh. unfold savetxt. apply at_free_app. split.
  - induction Hh as [|l ls Hl Hls IH]; [constructor|]. cbn [flat_map]. apply at_free_app. split; [|exact IH]. apply at_free_app. split; [exact Hl|apply nl_free].
  - induction rows as [|r rows IH]; [constructor|]. cbn [flat_map]. apply at_free_app. split; [|exact IH]. apply at_free_app. split; [|apply nl_free].
    induction r as [|x [|y r] IHr]; [constructor|apply fixed_at_free; lia|].
    change (join sp (map (fmt_fixed 3) (x :: y :: r))) with (fmt_fixed 3 x ++ sp ++ join sp (map (fmt_fixed 3) (y :: r))).
    apply at_free_app. split; [apply fixed_at_free; lia|]. apply at_free_app. split; [constructor; [vm_compute; discriminate|constructor]|exact IHr].
Qed.
Lemma free_xvg name f : at_free f -> read_xvg_file name f = Ok [].
Proof. intros H. unfold read_xvg_file, graphs_of. rewrite split_end by exact H. reflexivity. Qed.
Lemma read_one_row name header r : Forall comment_line header -> Forall at_free header -> r <> [] -> read_spreading_file name (Some (savetxt header [r])) = Ok [].
Proof.
  intros Hh Ha Hr. unfold read_spreading_file. rewrite free_xvg by (apply table_free; exact Ha). unfold read_plain_file.
  rewrite (load_rows header [r] (length r)); [|exact Hh|destruct r; [contradiction|cbn; lia]|intros r' [<- | []]; reflexivity].
  cbn [rbind map]. destruct r as [|x [|y r]]; reflexivity.
Qed.
Lemma read_no_rows name header : Forall comment_line header -> Forall at_free header -> read_spreading_file name (Some (savetxt header [])) = Ok [].
Proof.
  intros Hh Ha. unfold read_spreading_file. rewrite free_xvg by (apply table_free; exact Ha). unfold read_plain_file.
  rewrite (load_rows header [] 1); [reflexivity|exact Hh|lia|intros r' []].
Qed.

(** ** Combined files *)
Lemma lines_nl w s : Forall unbroken w -> lines (w ++ nl ++ s) = w :: lines s.
Proof. intros H. exact (lines_newline w s H). Qed.
Lemma lines_flat ls s : Forall (Forall unbroken) ls -> lines (flat_map (fun l => l ++ nl) ls ++ s) = ls ++ lines s.
Proof. induction 1 as [|l ls Hl Hls IH]; [reflexivity|]. cbn [flat_map app]. rewrite <- !app_assoc. rewrite lines_nl by exact Hl. rewrite IH. reflexivity. Qed.
(** One line of two numbers. *)
Definition shown_point (l : bytes) (p : Qc * Qc) : Prop :=
  Forall unbroken l /\ at_free l /\ exists a b, words l = [a; b] /\ float_word a = Ok (Fin (fst p)) /\ float_word b = Ok (Fin (snd p)).
Definition graph_part (i : nat) (ls : list bytes) (last : bool) : bytes :=
  txt "G0.S" ++ fmt_int (Z.of_nat i) ++ nl ++ txt "@type xy" ++ nl ++ flat_map (fun l => l ++ nl) ls ++ (if last then [] else txt "&" ++ nl).
Fixpoint parts_from (i : nat) (lss : list (list bytes)) : list bytes :=
  match lss with
  | [] => []
  | ls :: lss => graph_part i ls (match lss with [] => true | _ => false end) :: parts_from (S i) lss
  end.
Lemma flat_free ls : Forall at_free ls -> at_free (flat_map (fun l => l ++ nl) ls).
Proof. induction 1 as [|l ls Hl Hls IH]; [constructor|]. cbn [flat_map]. apply at_free_app. split; [|exact IH]. apply at_free_app. split; [exact Hl|apply nl_free]. Qed.
Lemma int_digits n : at_free (fmt_int (Z.of_nat n)) /\ Forall unbroken (fmt_int (Z.of_nat n)).
Proof.
  unfold fmt_int. destruct (Z.ltb_spec (Z.of_nat n) 0) as [H|_]; [lia|]. pose proof (dec_digits (Z.to_N (Z.of_nat n))) as D. split; [apply digits_at_free; exact D|].
  eapply Forall_impl; [|exact D]. apply digit_unbroken.
Qed.
Lemma split_part i ls last part s : Forall at_free ls ->
  split_text target part 0 (graph_part i ls last ++ s) = split_text target (part ++ graph_part i ls last) 0 s.
Proof.
  intros H. unfold graph_part. rewrite <- !app_assoc.
  rewrite (split_free (txt "G0.S")) by (repeat constructor; vm_compute; discriminate). rewrite (split_free (fmt_int _)) by apply int_digits. rewrite (split_free nl) by apply nl_free.
  change (txt "@type xy" ++ nl ++ ?r) with (chr 64 :: chr 116 :: (txt "ype xy" ++ nl) ++ r).
  rewrite split_step; [|reflexivity]. change (chr 116 :: (txt "ype xy" ++ nl) ++ ?r) with ((chr 116 :: txt "ype xy" ++ nl) ++ r).
  rewrite split_free by (repeat constructor; vm_compute; discriminate).
  rewrite split_free by (apply flat_free; exact H).
  rewrite (split_free (if last then [] else txt "&" ++ nl)) by (destruct last; repeat constructor; vm_compute; discriminate).
  rewrite <- !app_assoc. reflexivity.
Qed.
Lemma split_graphs lss : Forall (Forall at_free) lss -> forall texts, Forall2 (fun t ls => t ++ nl = flat_map (fun l => l ++ nl) ls) texts lss ->
  forall i part, split_text target part 0 (graphs_text i texts) = part :: parts_from i lss.
Proof.
  intros HA texts HT. induction HT as [|t ls texts lss E HT IH]; intros i part; [reflexivity|]. inversion HA as [|? ? HL HA']; subst. cbn [graphs_text parts_from].
  change (txt "@target G0.S") with (target ++ txt "G0.S"). rewrite <- !app_assoc. rewrite split_target. f_equal.
  transitivity (split_text target [] 0 (graph_part i ls (match lss with [] => true | _ => false end) ++ graphs_text (S i) texts)).
  { f_equal. unfold graph_part. rewrite <- !app_assoc. do 5 f_equal. rewrite (app_assoc t nl), E, <- ?app_assoc. f_equal. inversion HT; subst; reflexivity. }
  rewrite split_part by exact HL. cbn [app]. apply (IH HA').
Qed.
Lemma part_lines i ls last : Forall (Forall unbroken) ls -> lines (graph_part i ls last) = (txt "G0.S" ++ fmt_int (Z.of_nat i)) :: txt "@type xy" :: ls ++ (if last then [] else [txt "&"]).
Proof.
  intros H. unfold graph_part. rewrite app_assoc. rewrite lines_nl; [|apply Forall_app; split; [repeat constructor|apply int_digits]]. f_equal.
  rewrite lines_nl by (repeat constructor). f_equal. rewrite lines_flat by exact H. f_equal. destruct last; reflexivity.
Qed.
Lemma shown_rows (last : bool) ls pts : Forall2 shown_point ls pts -> ls <> [] ->
  graph_rows (txt "@type xy" :: ls ++ (if last:bool then [] else [txt "&"])) = Ok (map (fun p => [Fin (fst p); Fin (snd p)]) pts).
Proof.
  intros HF Hne. unfold graph_rows. cbn [filter]. change (starts_with (txt "@") (txt "@type xy")) with true. cbn [orb negb].
  rewrite filter_app. assert (filter (fun l => negb (starts_with (txt "@") l || bytes_eqb l (txt "&"))) (if last then [] else [txt "&"]) = []) as -> by (destruct last; reflexivity).
  rewrite app_nil_r.
  assert (filter (fun l => negb (starts_with (txt "@") l || bytes_eqb l (txt "&"))) ls = ls /\ rmapM (fun l => rmapM float_word (words l)) ls = Ok (map (fun p => [Fin (fst p); Fin (snd p)]) pts)) as [-> ->].
  { clear Hne. induction HF as [|l p ls pts (HU & HA & a & b & HW & Ha & Hb) HF [IH1 IH2]]; [split; reflexivity|]. cbn [filter rmapM map]. rewrite HW. cbn [rmapM rbind]. rewrite Ha. cbn [rbind]. rewrite Hb. cbn [rbind]. rewrite IH2. split; [|reflexivity].
    assert (starts_with (txt "@") l = false) as ->.
    { destruct l as [|c l]; [reflexivity|]. inversion HA; subst. change (txt "@") with [chr 64]. cbn [starts_with]. destruct (ascii_dec (chr 64) c) as [E|_]; [|reflexivity]. exfalso. subst c. apply H1. reflexivity. }
    assert (bytes_eqb l (txt "&") = false) as ->. { unfold bytes_eqb. destruct (list_eq_dec ascii_dec l (txt "&")) as [-> |_]; [discriminate|reflexivity]. }
    cbn [orb negb]. rewrite IH1. reflexivity. }
  cbn [rbind]. destruct HF as [|l p ls pts HP HF]; [contradiction|]. cbn [map length Nat.eqb negb andb].
  match goal with |- (if ?b then _ else _) = _ => assert (b = true) as -> end; [|reflexivity]. cbn [forallb length Nat.eqb andb].
  apply forallb_forall. intros v Hv. apply in_map_iff in Hv. destruct Hv as (q & <- & _). reflexivity.
Qed.
Lemma graphs_series name : forall lss ptss, Forall2 (Forall2 shown_point) lss ptss -> Forall (fun ls => ls <> []) lss -> forall i num,
  get_series_data name num (map (fun g => tl (lines g)) (parts_from i lss)) =
  Ok (map (fun p => curve name (num + fst p + 1) (map fst (snd p)) (map snd (snd p))) (combine (seq 0 (length ptss)) ptss)).
Proof.
  induction 1 as [|ls pts lss ptss HS HF IH]; intros HN i num; [reflexivity|]. inversion HN as [|? ? Hne HN']; subst. cbn [parts_from map get_series_data].
  rewrite part_lines by (clear -HS; induction HS as [|? ? ? ? (HU & _) ? IH]; constructor; [exact HU|exact IH]). cbn [tl]. rewrite (shown_rows _ ls pts HS Hne). cbn [rbind].
  assert (hd [] (map (fun p => [Fin (fst p); Fin (snd p)]) pts) = [Fin (fst (hd (0, 0) pts)); Fin (snd (hd (0, 0) pts))]) as -> by (destruct HS; [contradiction|reflexivity]).
  cbn [length Nat.sub]. rewrite (IH HN' (S i) (num + 1)%nat). cbn [rbind seq map combine app length fst snd]. apply f_equal. f_equal.
  - assert (forall (f : Qc * Qc -> Qc) j, (forall p, nth j [Fin (fst p); Fin (snd p)] NaN = Fin (f p)) -> column (map (fun p => [Fin (fst p); Fin (snd p)]) pts) j = map Fin (map f pts)) as C.
    { intros f j Hj. unfold column. rewrite !map_map. apply map_ext. exact Hj. }
    rewrite (C snd (0 + 1)%nat) by reflexivity. rewrite (C fst 0%nat) by reflexivity. rewrite get_series_fin. reflexivity.
  - rewrite <- (seq_shift (length ptss) 0). assert (forall A (g h : nat -> A -> series) (l : list nat) (m : list A), (forall a b, g a b = h (S a) b) ->
      map (fun p => g (fst p) (snd p)) (combine l m) = map (fun p => h (fst p) (snd p)) (combine (map S l) m)) as G.
    { intros A g h l. induction l as [|a l IHl]; intros [|b m] Hgh; cbn; try reflexivity. rewrite Hgh. f_equal. apply IHl. exact Hgh. }
    apply (G _ (fun k pts => curve name (num + 1 + k + 1) (map fst pts) (map snd pts)) (fun k pts => curve name (num + k + 1) (map fst pts) (map snd pts))).
    intros a b. do 2 f_equal. lia.
Qed.
Lemma plain_fails name header names s : Forall comment_line header -> exists e, read_plain_file name (flat_map (fun l => l ++ nl) (header ++ comment_lines names) ++ s) = Err e.
Proof.
  intros Hh. exists ValueErr. unfold read_plain_file, loadtxt.
  assert (exists rest, filter (fun ws => negb (Nat.eqb (length ws) 0)) (map split_line (flines (flat_map (fun l => l ++ nl) (header ++ comment_lines names) ++ s))) = [txt "@with"; txt "g0"] :: rest) as [rest ->].
  { induction Hh as [|l ls Hl Hls IH].
    - unfold comment_lines. cbn [flat_map app]. rewrite <- !app_assoc. rewrite flines_nl by (repeat constructor; vm_compute; discriminate). cbn [map filter]. eexists. reflexivity.
    - cbn [flat_map app]. rewrite <- !app_assoc. rewrite comment_flines by exact Hl. cbn [map filter]. rewrite comment_words by exact Hl. cbn [length Nat.eqb negb]. exact IH. }
  reflexivity.
Qed.
Lemma comment_quiet header names : Forall at_free header -> Forall at_free names -> Forall quiet (header ++ comment_lines names).
Proof.
  intros Hh Hn. apply Forall_app. split; [eapply Forall_impl; [|exact Hh]; intros l Hl; left; exact Hl|]. unfold comment_lines. constructor.
  - right. exists (chr 119), (txt "ith g0"). split; [reflexivity|]. split; [vm_compute; discriminate|repeat constructor; vm_compute; discriminate].
  - generalize 0%nat. induction Hn as [|n names Hn' Hns IH]; intros k; [constructor|]. cbn [length seq combine map]. constructor; [|apply IH]. right.
    exists (chr 32), (txt "   s" ++ fmt_int (Z.of_nat k) ++ txt " comment """ ++ n ++ txt """"). split; [reflexivity|]. split; [vm_compute; discriminate|].
    constructor; [vm_compute; discriminate|]. repeat (apply at_free_app; split); try (repeat constructor; vm_compute; discriminate); [apply int_digits|exact Hn'].
Qed.
Lemma read_combined name header names texts lss ptss : Forall comment_line header -> Forall at_free header -> Forall at_free names ->
  Forall2 (fun t ls => t ++ nl = flat_map (fun l => l ++ nl) ls) texts lss -> Forall2 (Forall2 shown_point) lss ptss ->
  read_spreading_file name (Some (flat_map (fun l => l ++ nl) (header ++ comment_lines names) ++ graphs_text 0 texts)) =
  Ok (map (fun p => curve name (fst p + 1) (map fst (snd p)) (map snd (snd p))) (combine (seq 0 (length ptss)) ptss)).
Proof.
  intros Hh Ha Hn HT HS. unfold read_spreading_file. destruct (plain_fails name header names (graphs_text 0 texts) Hh) as [e ->].
  unfold read_xvg_file, graphs_of. rewrite split_lines by (apply comment_quiet; assumption).
  rewrite (split_graphs lss); [|clear -HS; induction HS as [|? ? ? ? HP ? IH]; constructor; [induction HP as [|? ? ? ? (_ & HA & _) ? IHP]; constructor; assumption|exact IH]|exact HT].
  cbn [tl]. rewrite (graphs_series name lss ptss HS); [reflexivity|].
  clear -HT. induction HT as [|t ls texts lss E HT IH]; constructor; [|exact IH]. intros ->. destruct t; discriminate.
Qed.
