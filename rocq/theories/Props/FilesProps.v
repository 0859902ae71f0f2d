(** Properties C01-C08: file names, file search, output preparation. *)
From Coq Require Import List ZArith String Ascii Bool Lia Permutation.
From Verif.Base Require Import Res.
From Verif.Model Require Import Utils.
From Verif.Spec Require Import FilesSpec DiskSpec.
From Verif.Proofs Require Import UtilsFiles UtilsDisk UtilsTop.
Import ListNotations.
Local Open Scope string_scope.
Local Open Scope Z_scope.

(** ** C01 *)
(** The k-th yielded name: base + decimal number padded to five digits + extension. *)
Theorem C01_gen_filenames_nth : forall fuel base b e ext k,
  0 <= b -> (k < fuel)%nat ->
  (match e with Upto m => b + Z.of_nat k <= m | Inf => True end ->
     exists s, nth_error (gen_filenames fuel base b e ext) k = Some (base ++ s ++ ext) /\
               five_digit_text s (b + Z.of_nat k)) /\
  (match e with Upto m => m < b + Z.of_nat k | Inf => False end ->
     nth_error (gen_filenames fuel base b e ext) k = None).
Proof. exact gen_filenames_nth. Qed.
Print Assumptions C01_gen_filenames_nth.

(** No name is yielded twice, whatever the range (also for negative numbers). *)
Theorem C01_gen_filenames_distinct : forall fuel base b e ext,
  NoDup (gen_filenames fuel base b e ext).
Proof. exact gen_filenames_nodup. Qed.
Print Assumptions C01_gen_filenames_distinct.

(** Two sequences with the same base and extension agree only on the same number. *)
Theorem C01_names_identify_numbers : forall base ext m n,
  fname base m ext = fname base n ext -> m = n.
Proof. exact (fun base ext m n => fname_inj base ext m n). Qed.
Print Assumptions C01_names_identify_numbers.

Example C01_example : gen_filenames 9 "map_" 99998 (Upto 100001) ".dat"
  = ["map_99998.dat"; "map_99999.dat"; "map_100000.dat"; "map_100001.dat"].
Proof. vm_compute. reflexivity. Qed.

(** ** C02 *)
Theorem C02_singles_are_the_run : forall names base begin e ext,
  exists n, (n <= List.length names)%nat /\
    run_length (fun z => match e with Upto m => z <= m | Inf => True end
                         /\ In (fname base z ext) names) begin n /\
    forall fuel, (List.length names < fuel)%nat ->
      find_datamap_singles fuel (fun s => existsb (String.eqb s) names) base begin e ext =
      Ok (map (fun k => fname base k ext) (numbers begin n),
          Nat.eqb n 0 && le_bound begin e).
Proof. exact find_singles_finite. Qed.
Print Assumptions C02_singles_are_the_run.

Theorem C02_run_unique : forall (good : Z -> Prop) b n m, run_length good b n -> run_length good b m -> n = m.
Proof. exact run_length_unique. Qed.

(** Same for any (possibly infinite) set of files when [end] is given: the
    search ends after the range. *)
Theorem C02_singles_bounded_range : forall fs base begin m ext,
  exists n, run_length (fun z => z <= m /\ fs (fname base z ext) = true) begin n /\
    forall fuel, (Z.to_nat (m - begin + 1) < fuel)%nat ->
      find_datamap_singles fuel fs base begin (Upto m) ext =
      Ok (map (fun k => fname base k ext) (numbers begin n), Nat.eqb n 0 && (begin <=? m)).
Proof. exact find_singles_bounded. Qed.
Print Assumptions C02_singles_bounded_range.

Definition ex_names := ["a00001.dat"; "a00002.dat"; "a00003.dat"; "a00005.dat"; "b00001.dat"; "a00004.txt"].
Definition ex_fs (s : string) := existsb (String.eqb s) ex_names.
Example C02_example : find_datamap_singles 10 ex_fs "a" 1 Inf ".dat"
  = Ok (["a00001.dat"; "a00002.dat"; "a00003.dat"], false).
Proof. vm_compute. reflexivity. Qed.
Example C02_example_warns : find_datamap_singles 10 ex_fs "a" 4 Inf ".dat" = Ok ([], true).
Proof. vm_compute. reflexivity. Qed.

(** ** C03, C04 *)
Theorem C03_groups_partition_the_run : forall names base begin e ext (g : nat), (0 < g)%nat ->
  let fs := fun s => existsb (String.eqb s) names in
  exists l w,
    (forall fuel, (List.length names < fuel)%nat -> find_datamap_singles fuel fs base begin e ext = Ok (l, w)) /\
    exists groups,
    (forall fuel, (List.length names + 1 < fuel)%nat ->
      find_datamap_groups fuel fs base begin e ext (Z.of_nat g) false = Ok groups) /\
    (forall gr, In gr groups -> List.length gr = g) /\
    List.length groups = (List.length l / g)%nat /\
    List.concat groups = firstn (List.length l / g * g) l.
Proof. exact groups_partition. Qed.
Print Assumptions C03_groups_partition_the_run.

(** With [group=0] and no end the generator yields empty lists for ever
    (contrary to what a user may expect of a degenerate group size). *)
Theorem C03_group_zero_never_ends : forall fs base begin ext fuel,
  find_datamap_groups fuel fs base begin Inf ext 0 false = Err OutOfFuel.
Proof. exact (fun fs base begin ext fuel => groups_zero_forever fs base begin ext fuel). Qed.
Print Assumptions C03_group_zero_never_ends.

Theorem C04_rolling_groups_are_windows : forall names base begin e ext (g : nat), (0 < g)%nat ->
  let fs := fun s => existsb (String.eqb s) names in
  exists l w,
    (forall fuel, (List.length names < fuel)%nat -> find_datamap_singles fuel fs base begin e ext = Ok (l, w)) /\
    forall fuel, (List.length names + 1 < fuel)%nat ->
      find_datamap_groups fuel fs base begin e ext (Z.of_nat g) true =
      Ok (map (fun k => window g k l) (seq 0 (List.length l + 1 - g))).
Proof. exact (fun names base begin e ext g Hg => groups_of_singles names base begin e ext g true Hg). Qed.
Print Assumptions C04_rolling_groups_are_windows.

Example C03_example : find_datamap_groups 10 ex_fs "a" 1 Inf ".dat" 2 false
  = Ok [["a00001.dat"; "a00002.dat"]].
Proof. vm_compute. reflexivity. Qed.
Example C04_example : find_datamap_groups 10 ex_fs "a" 1 Inf ".dat" 2 true
  = Ok [["a00001.dat"; "a00002.dat"]; ["a00002.dat"; "a00003.dat"]].
Proof. vm_compute. reflexivity. Qed.

(** ** C05 *)
Theorem C05_singles_keep_number : forall names base output o,
  let begin := match o_begin o with Some b => b | None => 1 end in
  let e := match o_end o with Some e => e | None => Inf end in
  let ext := match o_ext o with Some x => x | None => ".dat" end in
  let outext := match o_outext o with Some x => x | None => ext end in
  exists n,
    run_length (fun z => match e with Upto m => z <= m | Inf => True end
                         /\ In (fname base z ext) names) begin n /\
    forall fuel, (List.length names < fuel)%nat ->
      find_singles_to_singles fuel (fun s => existsb (String.eqb s) names) base output o =
      Ok (map (fun k => (fname base k ext, fname output k outext)) (numbers begin n)).
Proof. exact singles_to_singles. Qed.
Print Assumptions C05_singles_keep_number.

Theorem C05_outputs_distinct : forall fuel fs base output o pairs,
  find_singles_to_singles fuel fs base output o = Ok pairs -> NoDup (map snd pairs).
Proof. exact singles_outputs_distinct. Qed.
Print Assumptions C05_outputs_distinct.

Example C05_example : find_singles_to_singles 10 ex_fs "a" "out/"
    {| o_begin := Some 2; o_end := None; o_ext := None; o_outext := Some ".gro" |}
  = Ok [("a00002.dat", "out/00002.gro"); ("a00003.dat", "out/00003.gro")].
Proof. vm_compute. reflexivity. Qed.

(** ** C06 *)
(** The i-th bundle starts at number N = begin + i*M and is paired with
    output number K where K is the ceiling of N/M: M*(K-1) < N <= M*K. *)
Theorem C06_group_output_numbers : forall names base output (M : nat) o, (0 < M)%nat ->
  let begin := match o_begin o with Some b => b | None => 1 end in
  let e := match o_end o with Some e => e | None => Inf end in
  let ext := match o_ext o with Some x => x | None => ".dat" end in
  let outext := match o_outext o with Some x => x | None => ext end in
  exists n cnt,
    run_length (fun z => match e with Upto m => z <= m | Inf => True end
                         /\ In (fname base z ext) names) begin n /\
    cnt = (n / M)%nat /\
    exists pairs,
    (forall fuel, (List.length names + 1 < fuel)%nat ->
      find_groups_to_singles fuel (fun s => existsb (String.eqb s) names) base output (Z.of_nat M) false o = Ok pairs) /\
    List.length pairs = cnt /\
    forall i, (i < cnt)%nat ->
      let N := begin + Z.of_nat (i * M) in
      exists K, Z.of_nat M * (K - 1) < N <= Z.of_nat M * K /\
      nth_error pairs i = Some (map (fun k => fname base k ext) (numbers N M), fname output K outext).
Proof. exact groups_to_singles_plain. Qed.
Print Assumptions C06_group_output_numbers.

Theorem C06_rolling_output_numbers : forall names base output (M : nat) o, (0 < M)%nat ->
  let begin := match o_begin o with Some b => b | None => 1 end in
  let e := match o_end o with Some e => e | None => Inf end in
  let ext := match o_ext o with Some x => x | None => ".dat" end in
  let outext := match o_outext o with Some x => x | None => ext end in
  exists n cnt,
    run_length (fun z => match e with Upto m => z <= m | Inf => True end
                         /\ In (fname base z ext) names) begin n /\
    cnt = (n + 1 - M)%nat /\
    exists pairs,
    (forall fuel, (List.length names + 1 < fuel)%nat ->
      find_groups_to_singles fuel (fun s => existsb (String.eqb s) names) base output (Z.of_nat M) true o = Ok pairs) /\
    List.length pairs = cnt /\
    forall i, (i < cnt)%nat ->
      let N := begin + Z.of_nat i in
      nth_error pairs i = Some (map (fun k => fname base k ext) (numbers N M), fname output N outext).
Proof. exact groups_to_singles_rolling. Qed.
Print Assumptions C06_rolling_output_numbers.

Theorem C06_outputs_distinct : forall fuel fs base output g rolling o pairs,
  find_groups_to_singles fuel fs base output g rolling o = Ok pairs -> NoDup (map snd pairs).
Proof. exact groups_outputs_distinct. Qed.
Print Assumptions C06_outputs_distinct.

Example C06_example : find_groups_to_singles 10 ex_fs "a" "out" 2 false
    {| o_begin := Some 2; o_end := None; o_ext := None; o_outext := None |}
  = Ok [(["a00002.dat"; "a00003.dat"], "out00001.dat")].
Proof. vm_compute. reflexivity. Qed.

(** ** C07 *)
(** Any history of writes: it succeeds, the contents on the disk afterwards
    are exactly the earlier ones and the written ones (with multiplicity), and
    every path that existed or was written holds its newest content. *)
Theorem C07_no_content_lost : forall cs d, wf d ->
  exists d', do_calls d cs = Ok d' /\ wf d' /\
    Permutation (contents d') (contents d ++ map text_of cs) /\
    (forall p, (exists_path d p = true \/ In p (map fst cs)) ->
       lookup (files d') p = newest p cs (lookup (files d) p)).
Proof. exact do_calls_spec. Qed.
Print Assumptions C07_no_content_lost.

(** A single write of an existing path moves the old file to the backup name
    with the smallest unused index and touches no other existing file. *)
Theorem C07_backup_is_smallest_free : forall d p chunks c, wf d -> lookup (files d) p = Some c ->
  exists j d', (1 <= j)%N /\ do_call d (p, chunks) = Ok d' /\
    exists_path d (backup_path p j) = false /\
    (forall k, (1 <= k < j)%N -> exists_path d (backup_path p k) = true) /\
    lookup (files d') (backup_path p j) = Some c /\
    lookup (files d') p = Some (String.concat "" chunks) /\
    (forall q, q <> p -> q <> backup_path p j -> lookup (files d') q = lookup (files d) q).
Proof. exact backup_smallest. Qed.
Print Assumptions C07_backup_is_smallest_free.

Definition ex_disk := {| files := [(("out", "a.dat"), "one"); (("out", "#a.dat.1#"), "zero"); (("out", "b"), "B")];
                         dirs := ["out"] |}.
Example C07_example_wf : wf ex_disk.
Proof. unfold wf. simpl. repeat constructor; simpl; intuition discriminate. Qed.
Example C07_example : do_calls ex_disk [(("out", "a.dat"), ["two"]); (("new", "c"), ["x"; "y"]); (("out", "a.dat"), ["three"])]
  = Ok {| files := [(("out", "a.dat"), "three"); (("out", "#a.dat.3#"), "two"); (("new", "c"), "xy");
                    (("out", "#a.dat.2#"), "one"); (("out", "#a.dat.1#"), "zero"); (("out", "b"), "B")];
          dirs := ["new"; "out"] |}.
Proof. vm_compute. reflexivity. Qed.

(** ** C08 *)
(** Crash after any number of file system operations of any call in any
    history: nothing of what was on the disk before the call is lost, and no
    other existing file is changed. *)
Theorem C08_crash_safe : forall cs d p chunks, wf d ->
  exists d0 ops, do_calls d cs = Ok d0 /\ write_ops d0 p chunks = Ok ops /\
    forall k, let d1 := exec_ops d0 (firstn k ops) in
      sub_multiset (contents d ++ map text_of cs) (contents d1) /\
      (forall q, q <> p -> exists_path d0 q = true -> lookup (files d1) q = lookup (files d0) q).
Proof. exact crash_safe. Qed.
Print Assumptions C08_crash_safe.

(** Two processes writing the same path at the same time: a schedule exists in
    which the original content is lost -- the second half of C08 is false. *)
Theorem C08_concurrent_writers_refuted :
  exists (d : disk) (c1 c2 : call) (sched : list bool),
    wf d /\ fst c1 = fst c2 /\
    let '(d', a, b) := run_two sched d (Start c1) (Start c2) in
    a = Running [] /\ b = Running [] /\
    exists old, In old (contents d) /\ ~ In old (contents d').
Proof. exact concurrent_loss. Qed.
Print Assumptions C08_concurrent_writers_refuted.
