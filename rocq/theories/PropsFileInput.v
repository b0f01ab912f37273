(** C102: files in memory (FileInput) in a batch. *)
From Coq Require Import String.
From Coq Require Import List ZArith Bool Lia Permutation.
From Verif Require Import Base ModelBytes ModelSur ModelFormats ModelDispatch ModelFileInput ProofFileInput ProofBytes PropsDispatch.
Import ListNotations.
Local Open Scope list_scope.

(** *** Specification *)
Section Spec.
Variables (X Y : Type).
Variable readers : format -> prog X.
Variable work : file_input -> X -> res Y.
(** the threads of a batch of in-memory files *)
Definition threads (fs : list file_input) : list (nat * prog Y) := map (fun f => (fi_data f, task_prog readers work f)) fs.
(** the state of the pool before anything has happened *)
Definition fresh (mem : list (bytes * nat)) (fs : list file_input) :
    list (bytes * nat) * list (nat * option (prog Y)) * list (nat * res Y) :=
  (mem, map (fun f => (fi_data f, Some (task_prog readers work f))) fs, []).
(** every FileInput refers to an existing buffer *)
Definition allocated (mem : list (bytes * nat)) (fs : list file_input) : Prop := forall f, In f fs -> (fi_data f < length mem)%nat.
(** no two FileInputs share a buffer *)
Definition unshared (fs : list file_input) : Prop := NoDup (map fi_data fs).
(** what one thread alone makes of a file: Surface.load of the buffer (the model of C55) and the steps of the batch *)
Definition result_alone (b : bytes) (p : nat) (f : file_input) : res Y :=
  match fst (fst (load X (fun g c q => exec (readers g) c q) Buffer (fi_format f) (mkWorld (fun _ => None) b p))) with
  | Ok x => work f x
  | Err e => Err e
  end.

Lemma begin_threads fs : begin Y (threads fs) = map (fun f => (fi_data f, Some (task_prog readers work f))) fs.
Proof. unfold begin, threads. rewrite map_map. reflexivity. Qed.
Lemma threads_valid mem fs : allocated mem fs -> forall t, In t (threads fs) -> (fst t < length mem)%nat.
Proof. intros V t Ht. apply in_map_iff in Ht. destruct Ht as (f & <- & Hf). cbn. apply V. exact Hf. Qed.
Lemma task_exec b p f : fst (exec (task_prog readers work f) b p) = result_alone b p f.
Proof.
  unfold task_prog, result_alone. rewrite exec_ok_then. pose proof (load_exec X readers (fi_format f) (mkWorld (fun _ => None) b p)) as H.
  cbn [buf bpos] in H. rewrite H. destruct (fst (fst (load X _ Buffer (fi_format f) (mkWorld (fun _ => None) b p)))); reflexivity.
Qed.

(** *** A thread that is not disturbed does what Surface.load does (C55) *)
Theorem C102_load_is_dispatch : forall fmt b p files,
  exec (load_prog readers fmt) b p =
    let z := load X (fun g c q => exec (readers g) c q) Buffer fmt (mkWorld files b p) in (fst (fst z), bpos (snd z)).
Proof. intros fmt b p files. apply (load_exec X readers fmt (mkWorld files b p)). Qed.

(** *** Different buffers: whatever the threads do in whatever order, the outcome is that of the sequential batch *)
Theorem C102_distinct_buffers : forall mem fs, allocated mem fs -> unshared fs ->
  forall schedule mem' ts q, pool schedule (fresh mem fs) = (mem', ts, q) -> done ts ->
  Permutation q (snd (one_by_one 0 mem (threads fs))) /\ mem' = fst (one_by_one 0 mem (threads fs)).
Proof.
  intros mem fs V U sch mem' ts q E D. unfold fresh in E. rewrite <- begin_threads in E.
  eapply pool_is_sequential; eauto. - unfold threads. rewrite map_map. exact U. - apply threads_valid; exact V.
Qed.

(** ... and each result is what loading that buffer alone gives *)
Theorem C102_each_result : forall mem fs, allocated mem fs -> unshared fs ->
  forall schedule mem' ts q, pool schedule (fresh mem fs) = (mem', ts, q) -> done ts ->
  forall i r, In (i, r) q <-> exists f b p, nth_error fs i = Some f /\ nth_error mem (fi_data f) = Some (b, p) /\ r = result_alone b p f.
Proof.
  intros mem fs V U sch mem' ts q E D i r. unfold fresh in E. rewrite <- begin_threads in E.
  assert (ND : NoDup (map fst (threads fs))) by (unfold threads; rewrite map_map; exact U).
  pose proof (inv_pool Y mem (threads fs) ND (threads_valid mem fs V) sch _ (inv_begin Y mem (threads fs))) as I. rewrite E in I.
  destruct (inv_done _ _ _ _ _ _ I D) as (Q & _). rewrite Q. unfold alone, threads. split.
  - intros (p' & a & pr & b & p & Hi & Ha & Ex). rewrite nth_error_map in Hi. destruct (nth_error fs i) as [f|] eqn:Ef; [|discriminate].
    injection Hi as <- <-. exists f, b, p. repeat split; auto. rewrite <- task_exec, Ex. reflexivity.
  - intros (f & b & p & Hf & Ha & ->). exists (snd (exec (task_prog readers work f) b p)), (fi_data f), (task_prog readers work f), b, p.
    rewrite nth_error_map, Hf. repeat split; auto. rewrite <- task_exec. apply surjective_pairing.
Qed.

(** *** With or without sharing: the sequential batch is one of the schedules, the pool never gets stuck, and every file is answered once *)
Theorem C102_sequential_is_a_schedule : forall mem fs, allocated mem fs ->
  exists schedule ts, pool schedule (fresh mem fs) = (fst (one_by_one 0 mem (threads fs)), ts, snd (one_by_one 0 mem (threads fs))) /\ done ts.
Proof.
  intros mem fs V. destruct (sequential_schedule Y (threads fs) mem [] [] (threads_valid mem fs V)) as (s & ts & E & D).
  exists s, ts. unfold fresh. rewrite <- begin_threads. split; [exact E | exact D].
Qed.
Theorem C102_no_deadlock : forall mem fs, allocated mem fs -> forall schedule,
  exists rest mem' ts q, pool (schedule ++ rest) (fresh mem fs) = (mem', ts, q) /\ done ts.
Proof.
  intros mem fs V sch. pose proof (sound_pool Y _ sch _ (sound_begin Y mem (threads fs) (threads_valid mem fs V))) as S0.
  rewrite begin_threads in S0. change (mem, _, []) with (fresh mem fs) in S0.
  destruct (pool sch (fresh mem fs)) as [[m t] q] eqn:E. destruct S0 as (_ & V' & _).
  destruct (finish Y t m [] q V') as (s2 & m' & t' & q' & E' & D); [intros x []|].
  exists s2, m', t', q'. rewrite pool_app, E. split; [exact E' | exact D].
Qed.
Theorem C102_one_result_each : forall mem fs, allocated mem fs ->
  forall schedule mem' ts q, pool schedule (fresh mem fs) = (mem', ts, q) -> done ts -> Permutation (map fst q) (seq 0 (length fs)).
Proof.
  intros mem fs V sch mem' ts q E D. pose proof (sound_pool Y _ sch _ (sound_begin Y mem (threads fs) (threads_valid mem fs V))) as S0.
  rewrite begin_threads in S0. change (mem, _, []) with (fresh mem fs) in S0. rewrite E in S0.
  unfold threads in S0. rewrite map_length in S0. eapply sound_done; eauto.
Qed.

(** *** Sequentially, buffers may be shared and used again if every declared reader succeeds: nothing has moved afterwards *)
Definition readable (mem : list (bytes * nat)) (f : file_input) : Prop :=
  exists fmt g b p x, fi_format f = Some fmt /\ registered (lower_ascii fmt) g /\ nth_error mem (fi_data f) = Some (b, p) /\
    fst (exec (readers g) b p) = Ok x.
Lemma readable_exec mem f : readable mem f -> exists b p, nth_error mem (fi_data f) = Some (b, p) /\
  exec (task_prog readers work f) b p = (result_alone b p f, p).
Proof.
  intros (fmt & g & b & p & x & F & R & M & E). exists b, p. split; [exact M|].
  pose proof (task_exec b p f) as T. destruct (exec (task_prog readers work f) b p) as [r p'] eqn:Ex. cbn in T. subst r. f_equal.
  unfold task_prog in Ex. rewrite exec_ok_then in Ex. pose proof (load_exec X readers (fi_format f) (mkWorld (fun _ => None) b p)) as H.
  rewrite F in H, Ex. rewrite (C55_declared_restores X (fun g c q => exec (readers g) c q) fmt g x) in H by assumption.
  cbn [fst snd bpos buf] in H. rewrite H in Ex. cbn [exec] in Ex. congruence.
Qed.
Theorem C102_sequential_sharing : forall mem fs, (forall f, In f fs -> readable mem f) ->
  fst (one_by_one 0 mem (threads fs)) = mem /\
  forall i r, In (i, r) (snd (one_by_one 0 mem (threads fs))) <->
    exists f b p, nth_error fs i = Some f /\ nth_error mem (fi_data f) = Some (b, p) /\ r = result_alone b p f.
Proof.
  intros mem fs H.
  assert (G : forall k, fst (one_by_one k mem (threads fs)) = mem /\
    forall i r, In (i, r) (snd (one_by_one k mem (threads fs))) <->
      exists j f b p, i = (k + j)%nat /\ nth_error fs j = Some f /\ nth_error mem (fi_data f) = Some (b, p) /\ r = result_alone b p f).
  { induction fs as [|f fs IH]; intros k.
    - cbn. split; [reflexivity|]. intros i r. split; [intros []|]. intros (j & f & b & p & _ & C & _). destruct j; discriminate.
    - destruct (readable_exec mem f (H f (or_introl eq_refl))) as (b & p & M & Ex).
      destruct (IH (fun g Hg => H g (or_intror Hg)) (S k)) as [IH1 IH2].
      cbn [threads map one_by_one]. rewrite M, Ex. rewrite (put_id _ _ _ M).
      destruct (one_by_one (S k) mem (map (fun f0 => (fi_data f0, task_prog readers work f0)) fs)) as [m q] eqn:Eo.
      change (map (fun f0 => (fi_data f0, task_prog readers work f0)) fs) with (threads fs) in Eo. rewrite Eo in IH1, IH2. cbn [fst snd] in *.
      split; [exact IH1|]. intros i r. cbn [In]. rewrite IH2. split.
      + intros [E|(j & g & c & s & -> & J & K & ->)].
        * injection E as <- <-. exists O, f, b, p. rewrite Nat.add_0_r. repeat split; auto.
        * exists (S j), g, c, s. repeat split; auto. lia.
      + intros ([|j] & g & c & s & -> & J & K & ->).
        * left. cbn in J. injection J as <-. assert (c = b) by congruence. assert (s = p) by congruence. subst. rewrite Nat.add_0_r. reflexivity.
        * right. exists j, g, c, s. repeat split; auto. lia. }
  destruct (G O) as [G1 G2]. split; [exact G1|]. intros i r. rewrite G2. split.
  - intros (j & f & b & p & -> & J & K & ->). exists f, b, p. auto.
  - intros (f & b & p & J & K & ->). exists i, f, b, p. auto.
Qed.
Theorem C102_again : forall mem fs, (forall f, In f fs -> readable mem f) ->
  one_by_one 0 (fst (one_by_one 0 mem (threads fs))) (threads fs) = one_by_one 0 mem (threads fs).
Proof. intros mem fs H. destruct (C102_sequential_sharing mem fs H) as [E _]. rewrite E. reflexivity. Qed.
End Spec.

Lemma turn_call {Y} i a (pr pr' : prog Y) b p p' mem ts q :
  nth_error ts i = Some (a, Some pr) -> nth_error mem a = Some (b, p) -> call b p pr = Some (p', pr') ->
  turn i (mem, ts, q) = (put a (b, p') mem, put i (a, Some pr') ts, q).
Proof. intros Hi Ha C. unfold turn. rewrite Hi. destruct pr; try discriminate; rewrite Ha, C; reflexivity. Qed.
Lemma tmd_registered : registered (lower_ascii (str ".tmd")) Tmd.
Proof. apply registered_assoc. reflexivity. Qed.

(** *** Two files that share a buffer, in a pool.  The reader of TMD files is the one of tmd.py (it is the function of the format theorems: *)
Theorem C102_tmd_reader : forall b p, fst (exec tmd_prog b p) = read_tmd {| contents := b; pos := p |}.
Proof. exact tmd_prog_exec. Qed.

(** ... ), the other readers are arbitrary.  Whatever TMD file is in the buffer: one schedule gives both results, another one an exception.  The conditions
    on the file say that bytes 29-57 are not the magic again, and that no format's magic stands behind them. *)
Theorem C102_shared_buffer_refuted : forall (Y : Type) (readers : format -> prog raw) (work : file_input -> raw -> res Y) b s n1 n2,
  readers Tmd = tmd_prog -> read_tmd (open_rb b) = Ok s ->
  zs_eqb (firstn (length tmd_magic) (skipn (length tmd_magic) b)) tmd_magic = false ->
  (forall m g, In (m, g) readers_by_magic -> ~ starts_with m (skipn (length tmd_magic + length (firstn (length tmd_magic) (skipn (length tmd_magic) b))) b)) ->
  let f1 := mkFI n1 0 (Some (str ".tmd")) in let f2 := mkFI n2 0 (Some (str ".tmd")) in let mem := [(b, O)] in
  snd (one_by_one 0 mem (threads raw Y readers work [f1; f2])) = [(O, work f1 s); (1%nat, work f2 s)] /\
  exists schedule ts mem', pool schedule (fresh raw Y readers work mem [f1; f2]) = (mem', ts, [(1%nat, Err CorruptedFileError); (O, work f1 s)]) /\ done ts.
Proof.
  intros Y readers work b s n1 n2 RT OK N29 NM f1 f2 mem.
  set (d1 := firstn (length tmd_magic) (skipn (length tmd_magic) b)) in *.
  assert (R0 : fst (exec (readers Tmd) b 0) = Ok s) by (rewrite RT, tmd_prog_exec; exact OK).
  assert (A : forall n, exec (task_prog readers work (mkFI n 0 (Some (str ".tmd")))) b 0 = (work (mkFI n 0 (Some (str ".tmd"))) s, O)).
  { intros n. unfold task_prog. rewrite exec_ok_then. cbn [fi_format].
    rewrite (C102_load_is_dispatch raw readers (Some (str ".tmd")) b 0 (fun _ => None)).
    rewrite (C55_declared_restores raw (fun g c q => exec (readers g) c q) (str ".tmd") Tmd s); [reflexivity | exact tmd_registered | exact R0]. }
  split.
  - pose proof (A n1) as A1. pose proof (A n2) as A2. fold f1 in A1. fold f2 in A2.
    change (threads raw Y readers work [f1; f2]) with [(O, task_prog readers work f1); (O, task_prog readers work f2)].
    unfold mem. cbn [one_by_one nth_error]. rewrite A1. cbn [put nth_error]. rewrite A2. reflexivity.
  - (* thread 0 up to the read of the magic *)
    assert (M0 : zs_eqb (firstn (length tmd_magic) b) tmd_magic = true).
    { unfold read_tmd in OK. cbn [fread open_rb contents pos skipn] in OK. destruct (zs_eqb (firstn (length tmd_magic) b) tmd_magic); [reflexivity | discriminate]. }
    assert (L0 : length (firstn (length tmd_magic) b) = length tmd_magic).
    { apply zs_eqb_eq in M0. rewrite M0. reflexivity. }
    assert (F0 : exists pr1 rest, call b 0 (task_prog readers work f1) = Some (O, pr1) /\
               call b 0 pr1 = Some (length tmd_magic, SeekTo 0 rest)).
    { unfold task_prog, load_prog, ok_then. cbn [fi_format f1].
      change (assoc (lower_ascii (str ".tmd")) readers_by_suffix) with (Some Tmd). cbv beta iota. rewrite RT. unfold with_buffer.
      cbn [andthen call]. eexists. eexists. split; [reflexivity|]. unfold tmd_prog at 1. cbn [andthen call]. unfold read_at. cbn [skipn].
      rewrite L0, M0. cbn [negb andthen]. reflexivity. }
    destruct F0 as (pr1 & rest & C1 & C2).
    assert (E0 : exec rest b 0 = (work f1 s, O)).
    { pose proof (A n1) as A1. fold f1 in A1. rewrite (exec_call b 0 _ _ _ C1), (exec_call b 0 _ _ _ C2) in A1. exact A1. }
    (* thread 1 in between *)
    assert (E1 : fst (exec (task_prog readers work f2) b (length tmd_magic)) = Err CorruptedFileError).
    { rewrite task_exec. unfold result_alone. cbn [fi_format f2].
      rewrite (C55_failure_refuted raw (fun g c q => exec (readers g) c q) (str ".tmd") Tmd CorruptedFileError (length tmd_magic + length d1)); [reflexivity | exact tmd_registered | | exact NM].
      cbn [buf bpos]. rewrite RT. unfold tmd_prog. cbn [exec]. unfold read_at. fold d1. rewrite N29. reflexivity. }
    set (pr2 := task_prog readers work f2) in *.
    destruct (solo Y pr2 1 0 b (length tmd_magic) [(b, length tmd_magic)] [(O, Some (SeekTo 0 rest)); (O, Some pr2)] []) as (s1 & H1); [reflexivity..|].
    destruct (solo Y (SeekTo 0 rest) 0 0 b (snd (exec pr2 b (length tmd_magic))) [(b, snd (exec pr2 b (length tmd_magic)))]
                [(O, Some (SeekTo 0 rest)); (O, None)] [(1%nat, Err CorruptedFileError)]) as (s2 & H2); [reflexivity..|].
    exists ([0; 0] ++ s1 ++ s2)%nat. eexists. eexists. rewrite !pool_app. split.
    + unfold fresh. cbn [map fi_data f1 f2]. change (task_prog readers work (mkFI n1 0 (Some (str ".tmd")))) with (task_prog readers work f1).
      fold pr2. cbn [pool fold_left].
      rewrite (turn_call 0 0 (task_prog readers work f1) pr1 b 0 0 mem); [|reflexivity | reflexivity | exact C1]. cbn [put mem].
      rewrite (turn_call 0 0 pr1 (SeekTo 0 rest) b 0 (length tmd_magic)); [|reflexivity | reflexivity | exact C2]. cbn [put].
      rewrite H1. cbn [put app]. rewrite E1. rewrite H2. cbn [exec]. rewrite E0. cbn [put fst snd app]. reflexivity.
    + intros t [<-|[<-|[]]]; reflexivity.
Qed.

(** *** Examples *)
(** a file of 2 x 1 points, as write_tmd writes it *)
Definition tmd_file : bytes :=
  match write_tmd Utf8 {| rdata := [[f64_of_Z 1; f64_of_Z (-7)]]; rstep_x := f64_of_Z 1; rstep_y := f64_of_Z 2 |} (str "Exported by surfalize") with
  | Ok b => b | Err _ => [] end.
Lemma tmd_file_ok : (match read_tmd (open_rb tmd_file) with Ok _ => true | _ => false end) = true.
Proof. vm_compute. reflexivity. Qed.
Lemma tmd_file_29 : zs_eqb (firstn (length tmd_magic) (skipn (length tmd_magic) tmd_file)) tmd_magic = false.
Proof. vm_compute. reflexivity. Qed.
Lemma tmd_file_58 : forallb (fun mg => negb (prefixb (fst mg) (skipn (length tmd_magic + length (firstn (length tmd_magic) (skipn (length tmd_magic) tmd_file))) tmd_file))) readers_by_magic = true.
Proof. vm_compute. reflexivity. Qed.
(** the hypotheses of the refutation hold of it ... *)
Theorem C102_shared_example : exists s, read_tmd (open_rb tmd_file) = Ok s /\
  (forall m g, In (m, g) readers_by_magic -> ~ starts_with m (skipn (length tmd_magic + length (firstn (length tmd_magic) (skipn (length tmd_magic) tmd_file))) tmd_file)) /\
  forall (Y : Type) (readers : format -> prog raw) (work : file_input -> raw -> res Y), readers Tmd = tmd_prog ->
  let f := mkFI (str "a.tmd") 0 (Some (str ".tmd")) in let mem := [(tmd_file, O)] in
  exists schedule ts mem', pool schedule (fresh raw Y readers work mem [f; f]) = (mem', ts, [(1%nat, Err CorruptedFileError); (O, work f s)]) /\ done ts.
Proof.
  pose proof tmd_file_ok as H. destruct (read_tmd (open_rb tmd_file)) as [s|] eqn:E; [|discriminate]. exists s. split; [reflexivity|].
  assert (N : forall m g, In (m, g) readers_by_magic -> ~ starts_with m (skipn (length tmd_magic + length (firstn (length tmd_magic) (skipn (length tmd_magic) tmd_file))) tmd_file)).
  { intros m g I. pose proof tmd_file_58 as F. rewrite forallb_forall in F. specialize (F _ I). cbn [fst] in F.
    intros P. apply prefixb_ok in P. rewrite P in F. discriminate. }
  split; [exact N|]. intros Y readers work RT f mem.
  apply (C102_shared_buffer_refuted Y readers work tmd_file s (str "a.tmd") (str "a.tmd") RT E tmd_file_29 N).
Qed.
(** ... and with a buffer for each file both succeed in every schedule *)
Theorem C102_distinct_example : forall (Y : Type) (readers : format -> prog raw) (work : file_input -> raw -> res Y), readers Tmd = tmd_prog ->
  let f n := mkFI (str "a.tmd") n (Some (str ".tmd")) in let mem := [(tmd_file, O); (tmd_file, O)] in
  allocated mem [f O; f 1%nat] /\ unshared [f O; f 1%nat] /\
  forall schedule mem' ts q, pool schedule (fresh raw Y readers work mem [f O; f 1%nat]) = (mem', ts, q) -> done ts ->
  exists s, read_tmd (open_rb tmd_file) = Ok s /\ Permutation q [(O, work (f O) s); (1%nat, work (f 1%nat) s)] /\ mem' = mem.
Proof.
  intros Y readers work RT f mem.
  assert (V : allocated mem [f O; f 1%nat]) by (intros g [<-|[<-|[]]]; cbn; lia).
  assert (U : unshared [f O; f 1%nat]) by (unfold unshared; cbn; repeat constructor; cbn; intuition lia).
  split; [exact V|]. split; [exact U|]. intros sch mem' ts q E D.
  destruct (C102_distinct_buffers _ _ _ _ _ _ V U _ _ _ _ E D) as [P M].
  pose proof tmd_file_ok as H. destruct (read_tmd (open_rb tmd_file)) as [s|] eqn:R; [|discriminate]. exists s. split; [reflexivity|].
  assert (A : forall n, exec (task_prog readers work (f n)) tmd_file 0 = (work (f n) s, O)).
  { intros n. unfold task_prog. rewrite exec_ok_then. cbn [fi_format f].
    rewrite (C102_load_is_dispatch raw readers (Some (str ".tmd")) tmd_file 0 (fun _ => None)).
    rewrite (C55_declared_restores raw (fun g c q => exec (readers g) c q) (str ".tmd") Tmd s); [reflexivity | exact tmd_registered |].
    cbn [buf bpos]. rewrite RT, tmd_prog_exec. exact R. }
  change (threads raw Y readers work [f O; f 1%nat]) with [(O, task_prog readers work (f O)); (1%nat, task_prog readers work (f 1%nat))] in P, M.
  unfold mem in P, M. cbn [one_by_one nth_error] in P, M. rewrite A in P, M. cbn [put nth_error] in P, M. rewrite A in P, M. cbn [fst snd put] in P, M.
  split; [exact P | exact M].
Qed.
