(** Lemmas about ModelFileInput.v. *)
From Coq Require Import String.
From Coq Require Import List ZArith Bool Lia Permutation.
From Verif Require Import Base ModelBytes ModelSur ModelFormats ModelDispatch ModelFileInput.
Import ListNotations.
Local Open Scope list_scope.

Lemma exec_andthen {Y Z} (pr : prog Y) (g : res Y -> prog Z) : forall b p,
  exec (andthen pr g) b p = exec (g (fst (exec pr b p))) b (snd (exec pr b p)).
Proof. induction pr as [r|n k IH|k IH|s k IH|s k IH]; intros b p; cbn; auto. Qed.

Lemma exec_ok_then {Y Z} (pr : prog Y) (g : Y -> prog Z) b p :
  exec (ok_then pr g) b p = match exec pr b p with (Ok y, p') => exec (g y) b p' | (Err e, p') => (Err e, p') end.
Proof. unfold ok_then. rewrite exec_andthen. destruct (exec pr b p) as [[y|e] p']; reflexivity. Qed.

Lemma exec_with_buffer {Y} (body : prog Y) b p :
  exec (with_buffer body) b p = match exec body b p with (Ok y, _) => (Ok y, p) | (Err e, p') => (Err e, p') end.
Proof. unfold with_buffer. cbn [exec]. rewrite exec_andthen. destruct (exec body b p) as [[y|e] p']; reflexivity. Qed.

(** ** The program is the model of ModelDispatch.v *)
Section Load.
Variable X : Type.
Variable readers : format -> prog X.
Let rd (f : format) : reader X := fun b p => exec (readers f) b p.

Lemma all_loop_exec pending rs : forall w,
  exec (all_loop readers rs pending) (buf w) (bpos w) =
    (Err (match pending with Some e => e | None => UnsupportedFileFormatError end), bpos (snd (try_all X rd Buffer rs w))) /\
  fst (try_all X rd Buffer rs w) = None.
Proof.
  induction rs as [|[s f] rs IH]; intros w; [split; reflexivity|].
  cbn [all_loop try_all]. rewrite exec_andthen, exec_with_buffer. unfold with_file, rd.
  destruct (exec (readers f) (buf w) (bpos w)) as [[x|e] p'] eqn:E; cbn [fst snd].
  - apply (IH w).
  - specialize (IH (set_pos w p')). cbn [set_pos buf bpos] in IH. apply IH.
Qed.

Lemma magic_loop_exec pending ms : forall w,
  let '(o, w') := try_magic X rd Buffer None ms w in
  exec (magic_loop readers ms pending) (buf w) (bpos w) =
    match o with
    | Some (r, _) => (r, bpos w')
    | None => (Err (match pending with Some e => e | None => UnsupportedFileFormatError end),
               bpos (snd (try_all X rd Buffer readers_by_suffix w')))
    end /\ buf w' = buf w.
Proof.
  induction ms as [|[m f] ms IH]; intros w.
  - cbn [try_magic magic_loop]. split; [|reflexivity]. apply all_loop_exec.
  - cbn [try_magic magic_loop]. rewrite exec_andthen, exec_with_buffer. cbn [exec].
    unfold with_file, probe_magic, read_at.
    set (d := firstn (length m) (skipn (bpos w) (buf w))).
    destruct (zs_eqb d m) eqn:Em.
    + cbn [exec]. rewrite exec_andthen. unfold rd.
      destruct (exec (readers f) (buf w) 0) as [[x|e] p'] eqn:E; cbn [fst snd exec rmap]; split; reflexivity.
    + cbn [exec fst snd]. specialize (IH w). exact IH.
Qed.

Lemma try_magic_fmt ms : forall fmt w, 
  match try_magic X rd Buffer fmt ms w, try_magic X rd Buffer None ms w with
  | (Some (r, _), w1), (Some (r', _), w2) => r = r' /\ w1 = w2
  | (None, w1), (None, w2) => w1 = w2
  | _, _ => False
  end.
Proof.
  induction ms as [|[m f] ms IH]; intros fmt w; cbn [try_magic]; [reflexivity|].
  destruct (with_file Buffer w (probe_magic X rd m f)) as [[[x|]|e] w1]; [split; reflexivity | apply IH | split; reflexivity].
Qed.

Lemma load_exec fmt w :
  exec (load_prog readers fmt) (buf w) (bpos w) =
    (fst (fst (load X rd Buffer fmt w)), bpos (snd (load X rd Buffer fmt w))).
Proof.
  unfold load_prog, load, try_declared, declared_suffix.
  assert (M : forall pending w, exec (magic_loop readers readers_by_magic pending) (buf w) (bpos w) =
     let z := match try_magic X rd Buffer fmt readers_by_magic w with
       | (Some r, w2) => (r, w2)
       | (None, w2) => match try_all X rd Buffer readers_by_suffix w2 with
           | (Some (x, ws), w3) => ((Ok x, ws), w3)
           | (None, w3) => ((Err (match pending with Some e => e | None => UnsupportedFileFormatError end), []), w3) end end in
     (fst (fst z), bpos (snd z))).
  { intros pending v. pose proof (magic_loop_exec pending readers_by_magic v) as H. pose proof (try_magic_fmt readers_by_magic fmt v) as F.
    destruct (try_magic X rd Buffer fmt readers_by_magic v) as [[[r1 ws1]|] w1];
    destruct (try_magic X rd Buffer None readers_by_magic v) as [[[r2 ws2]|] w2]; try contradiction.
    - destruct F as [-> ->]. destruct H as [H _]. rewrite H. reflexivity.
    - subst w1. destruct H as [H _]. rewrite H. pose proof (all_loop_exec pending readers_by_suffix w2) as [_ N].
      destruct (try_all X rd Buffer readers_by_suffix w2) as [[[x ws]|] w3]; cbn in N; [discriminate|]. reflexivity. }
  destruct fmt as [f|].
  - destruct (assoc (lower_ascii f) readers_by_suffix) as [r|] eqn:A.
    + rewrite exec_andthen, exec_with_buffer. unfold with_file. change (rd r (buf w) (bpos w)) with (exec (readers r) (buf w) (bpos w)).
      destruct (exec (readers r) (buf w) (bpos w)) as [[x|e] p'] eqn:E; cbn [fst snd exec].
      * reflexivity.
      * exact (M (Some e) (set_pos w p')).
    + exact (M (Some UnsupportedFileFormatError) w).
  - exact (M None w).
Qed.
End Load.

(** ** The pool *)
Lemma put_length {A} (x : A) l : forall n, length (put n x l) = length l.
Proof. induction l; intros [|n]; cbn; auto. Qed.
Lemma put_same {A} (x : A) l : forall n, (n < length l)%nat -> nth_error (put n x l) n = Some x.
Proof. induction l; intros [|n] H; cbn in *; try lia; auto. apply IHl. lia. Qed.
Lemma put_other {A} (x : A) l : forall n m, n <> m -> nth_error (put n x l) m = nth_error l m.
Proof. induction l; intros [|n] [|m] H; cbn; auto; try congruence. Qed.
Lemma put_put {A} (x y : A) l : forall n, put n y (put n x l) = put n y l.
Proof. induction l; intros [|n]; cbn; auto; f_equal; auto. Qed.
Lemma put_id {A} (x : A) l : forall n, nth_error l n = Some x -> put n x l = l.
Proof. induction l; intros [|n] H; cbn in *; try discriminate; [injection H as ->; reflexivity | f_equal; auto]. Qed.
Lemma put_app {A} (x : A) l l' : forall n, (n < length l)%nat -> put n x (l ++ l') = put n x l ++ l'.
Proof. induction l; intros [|n] H; cbn in *; try lia; auto. f_equal. apply IHl. lia. Qed.
Lemma put_end {A} (x y : A) l l' : put (length l) x (l ++ y :: l') = l ++ x :: l'.
Proof. induction l; cbn; auto. f_equal; auto. Qed.
Lemma put_In {A} (x : A) l : forall n y, In y (put n x l) -> y = x \/ In y l.
Proof. induction l; intros [|n] y H; cbn in *; auto; destruct H as [<-|H]; auto. destruct (IHl _ _ H); auto. Qed.

Lemma nth_error_eq {A} (l : list A) : forall l', (forall n, nth_error l n = nth_error l' n) -> l = l'.
Proof.
  induction l as [|x l IH]; intros [|y l'] H; auto; try (specialize (H O); discriminate).
  f_equal; [specialize (H O); cbn in H; congruence | apply IH; intros n; apply (H (S n))].
Qed.
Lemma exec_call {Y} b p (pr : prog Y) p' pr' : call b p pr = Some (p', pr') -> exec pr b p = exec pr' b p'.
Proof. destruct pr; cbn; intros H; try discriminate; injection H as <- <-; reflexivity. Qed.
Lemma call_total {Y} b p (pr : prog Y) : (exists r, pr = Ret r) \/ exists p' pr', call b p pr = Some (p', pr').
Proof. destruct pr; cbn; eauto. Qed.

Section PoolProofs.
Variable Y : Type.
Implicit Types (ts : list (nat * option (prog Y))) (q : list (nat * res Y)) (mem : list (bytes * nat)).

(** one thread runs to its end *)
Lemma solo (pr : prog Y) : forall i a b p mem ts q,
  nth_error ts i = Some (a, Some pr) -> nth_error mem a = Some (b, p) ->
  exists sch, pool sch (mem, ts, q) = (put a (b, snd (exec pr b p)) mem, put i (a, None) ts, q ++ [(i, fst (exec pr b p))]).
Proof.
  assert (L : forall A (l : list A) n x, nth_error l n = Some x -> (n < length l)%nat)
    by (intros A l n x H; apply nth_error_Some; congruence).
  induction pr as [r|n k IH|k IH|s k IH|s k IH]; intros i a b p mem ts q Hi Ha.
  - exists [i]. cbn. rewrite Hi. rewrite (put_id _ _ _ Ha). reflexivity.
  - set (d := read_at b p n).
    destruct (IH d i a b (p + length d)%nat (put a (b, (p + length d)%nat) mem) (put i (a, Some (k d)) ts) q) as (sch & E).
    + apply put_same. eauto. + apply put_same; eauto.
    + exists (i :: sch). cbn [pool fold_left]. change (fold_left (fun st i0 => turn i0 st) sch) with (@pool Y sch).
      cbn [turn]. rewrite Hi. rewrite Ha. cbn [call]. fold d. refine (eq_trans E _). rewrite !put_put. reflexivity.
  - destruct (IH p i a b p (put a (b, p) mem) (put i (a, Some (k p)) ts) q) as (sch & E).
    + apply put_same. eauto. + apply put_same; eauto.
    + exists (i :: sch). cbn [pool fold_left]. change (fold_left (fun st i0 => turn i0 st) sch) with (@pool Y sch).
      cbn [turn]. rewrite Hi. rewrite Ha. cbn [call]. refine (eq_trans E _). rewrite !put_put. reflexivity.
  - destruct (IH i a b s (put a (b, s) mem) (put i (a, Some k) ts) q) as (sch & E).
    + apply put_same. eauto. + apply put_same; eauto.
    + exists (i :: sch). cbn [pool fold_left]. change (fold_left (fun st i0 => turn i0 st) sch) with (@pool Y sch).
      cbn [turn]. rewrite Hi. rewrite Ha. cbn [call]. refine (eq_trans E _). rewrite !put_put. reflexivity.
  - destruct (IH i a b (p + s)%nat (put a (b, (p + s)%nat) mem) (put i (a, Some k) ts) q) as (sch & E).
    + apply put_same. eauto. + apply put_same; eauto.
    + exists (i :: sch). cbn [pool fold_left]. change (fold_left (fun st i0 => turn i0 st) sch) with (@pool Y sch).
      cbn [turn]. rewrite Hi. rewrite Ha. cbn [call]. refine (eq_trans E _). rewrite !put_put. reflexivity.
Qed.

Definition begin (ts : list (nat * prog Y)) : list (nat * option (prog Y)) := map (fun t => (fst t, Some (snd t))) ts.

(** running the threads one after the other is one of the schedules, whether or not they share buffers *)
Lemma sequential_schedule : forall (todo : list (nat * prog Y)) mem (fin : list (nat * option (prog Y))) q,
  (forall t, In t todo -> (fst t < length mem)%nat) ->
  exists sch ts', pool sch (mem, fin ++ begin todo, q) =
     (fst (one_by_one (length fin) mem todo), fin ++ ts', q ++ snd (one_by_one (length fin) mem todo)) /\ done ts'.
Proof.
  induction todo as [|[a pr] todo IH]; intros mem fin q V.
  - exists [], []. split; [cbn; rewrite ?app_nil_r; reflexivity | intros t []].
  - assert (Va : (a < length mem)%nat) by (apply (V (a, pr)); left; reflexivity).
    destruct (nth_error mem a) as [[b p]|] eqn:Ea; [|apply nth_error_None in Ea; lia].
    destruct (solo pr (length fin) a b p mem (fin ++ begin ((a, pr) :: todo)) q) as (s1 & E1).
    { cbn. rewrite nth_error_app2, Nat.sub_diag by lia. reflexivity. } { exact Ea. }
    cbn [begin map fst snd] in E1. rewrite put_end in E1.
    destruct (IH (put a (b, snd (exec pr b p)) mem) (fin ++ [(a, None)]) (q ++ [(length fin, fst (exec pr b p))])) as (s2 & ts2 & E2 & D2).
    { intros t Ht. rewrite put_length. apply V. right. exact Ht. }
    exists (s1 ++ s2), ((a, None) :: ts2).
    assert (PA : forall st, @pool Y (s1 ++ s2) st = pool s2 (pool s1 st)) by (intros st; unfold pool; apply fold_left_app).
    rewrite PA. refine (_ : pool s2 (pool s1 (mem, fin ++ (a, Some pr) :: begin todo, q)) = _ /\ _).
    unfold begin. rewrite E1. rewrite <- !app_assoc in E2. cbn [app] in E2. unfold begin in E2. rewrite E2.
    cbn [one_by_one]. rewrite Ea. rewrite app_length. cbn [length]. rewrite Nat.add_1_r.
    destruct (exec pr b p) as [r p'] eqn:Ex. cbn [fst snd].
    destruct (one_by_one (S (length fin)) (put a (b, p') mem) todo) as [m2 q2]. cbn [fst snd].
    split; [reflexivity|]. intros t [<-|Ht]; [reflexivity|]. apply D2. exact Ht.
Qed.

(** the invariant of a pool whose threads have different buffers *)
Section Distinct.
Variables (mem0 : list (bytes * nat)) (ts0 : list (nat * prog Y)).
Hypothesis ND : NoDup (map fst ts0).
Hypothesis VAL : forall t, In t ts0 -> (fst t < length mem0)%nat.

(** what thread i returns, and where it leaves its buffer, when it runs alone *)
Definition alone (i : nat) (o : res Y * nat) : Prop :=
  exists a pr b p, nth_error ts0 i = Some (a, pr) /\ nth_error mem0 a = Some (b, p) /\ exec pr b p = o.

Definition inv (st : list (bytes * nat) * list (nat * option (prog Y)) * list (nat * res Y)) : Prop :=
  let '(mem, ts, q) := st in
  length ts = length ts0 /\ length mem = length mem0 /\
  (forall a, ~ In a (map fst ts0) -> nth_error mem a = nth_error mem0 a) /\
  (forall i a pr b p, nth_error ts0 i = Some (a, pr) -> nth_error mem0 a = Some (b, p) ->
     exists o p', nth_error ts i = Some (a, o) /\ nth_error mem a = Some (b, p') /\
       match o with
       | Some pr' => exec pr' b p' = exec pr b p /\ forall r, ~ In (i, r) q
       | None => p' = snd (exec pr b p) /\ In (i, fst (exec pr b p)) q
       end) /\
  NoDup (map fst q) /\ (forall i r, In (i, r) q -> exists p', alone i (r, p')).

Lemma distinct_addr i j a pr pr' : nth_error ts0 i = Some (a, pr) -> nth_error ts0 j = Some (a, pr') -> i = j.
Proof.
  intros Hi Hj. assert (Mi : nth_error (map fst ts0) i = Some a) by (rewrite nth_error_map, Hi; reflexivity).
  assert (Mj : nth_error (map fst ts0) j = Some a) by (rewrite nth_error_map, Hj; reflexivity).
  rewrite NoDup_nth_error in ND. apply ND; [|congruence]. apply nth_error_Some. congruence.
Qed.

Lemma inv_begin : inv (mem0, begin ts0, []).
Proof.
  unfold inv, begin. rewrite map_length. repeat split; auto; try constructor; try contradiction.
  intros i a pr b p Hi Ha. exists (Some pr), p. rewrite nth_error_map, Hi. repeat split; auto.
Qed.

Lemma inv_turn i st : inv st -> inv (turn i st).
Proof.
  destruct st as [[mem ts] q]. intros (L1 & L2 & O & T & NQ & Q). unfold turn.
  destruct (nth_error ts i) as [[a o]|] eqn:Hi; [|unfold inv; auto 10].
  assert (I0 : exists pr0, nth_error ts0 i = Some (a, pr0)).
  { destruct (nth_error ts0 i) as [[a0 pr0]|] eqn:E.
    - assert (V0 : (a0 < length mem0)%nat) by (apply (VAL (a0, pr0)); eapply nth_error_In; eauto).
      destruct (nth_error mem0 a0) as [[b p]|] eqn:E0; [|apply nth_error_None in E0; lia].
      destruct (T _ _ _ _ _ E E0) as (o' & p' & H1 & _). assert (a = a0) by congruence. subst. eauto.
    - apply nth_error_None in E. assert (i < length ts)%nat by (apply nth_error_Some; congruence). lia. }
  destruct I0 as [pr0 I0]. assert (V0 : (a < length mem0)%nat) by (apply (VAL (a, pr0)); eapply nth_error_In; eauto).
  destruct (nth_error mem0 a) as [[b p0]|] eqn:M0; [|apply nth_error_None in M0; lia].
  destruct (T _ _ _ _ _ I0 M0) as (o' & p & H1 & H2 & H3). assert (o' = o) by congruence. subst o'.
  assert (Li : (i < length ts)%nat) by (apply nth_error_Some; congruence).
  assert (La : (a < length mem)%nat) by (apply nth_error_Some; congruence).
  destruct o as [pr|]; [|unfold inv; auto 10].
  destruct H3 as [H3 H4].
  (* the case of a call *)
  assert (STEP : forall p' pr', call b p pr = Some (p', pr') -> inv (put a (b, p') mem, put i (a, Some pr') ts, q)).
  { intros p' pr' C. unfold inv. rewrite !put_length. repeat split; auto.
    - intros c Hc. rewrite put_other; auto. intros ->. apply Hc. apply in_map_iff. exists (c, pr0). split; auto. eapply nth_error_In; eauto.
    - intros j c prj bj pj Hj Hc. destruct (Nat.eq_dec i j) as [<-|Nij].
      + assert (c = a) by congruence. subst c. assert (prj = pr0) by congruence. assert (bj = b) by congruence. assert (pj = p0) by congruence. subst.
        exists (Some pr'), p'. rewrite (put_same (a, Some pr') ts i Li), (put_same (b, p') mem a La).
        repeat split; auto. rewrite <- H3. symmetry. apply exec_call. exact C.
      + assert (Nac : a <> c) by (intros <-; apply Nij; eapply distinct_addr; eauto).
        destruct (T _ _ _ _ _ Hj Hc) as (o & p1 & K1 & K2 & K3). exists o, p1. rewrite !put_other by assumption. auto. }
  destruct pr as [r|n k|k|s k|s k].
  - (* the result *)
    cbn in H3. unfold inv. rewrite put_length. repeat split; auto.
    + intros j c prj bj pj Hj Hc. destruct (Nat.eq_dec i j) as [<-|Nij].
      * assert (c = a) by congruence. subst c. assert (prj = pr0) by congruence. assert (bj = b) by congruence. assert (pj = p0) by congruence. subst.
        exists None, p. rewrite (put_same (a, @None (prog Y)) ts i Li). repeat split; auto.
        -- rewrite <- H3. reflexivity.
        -- apply in_or_app. right. rewrite <- H3. left. reflexivity.
      * destruct (T _ _ _ _ _ Hj Hc) as (o & p1 & K1 & K2 & K3). exists o, p1. rewrite put_other by assumption.
        repeat split; auto. destruct o; [|destruct K3; split; auto; apply in_or_app; auto].
        destruct K3 as [K3 K4]. split; auto. intros r' Hr. apply in_app_or in Hr. destruct Hr as [Hr|[Hr|[]]]; [eapply K4; eauto|congruence].
    + rewrite map_app. cbn. 
      assert (NI : ~ In i (map fst q)). { intros Hq. apply in_map_iff in Hq. destruct Hq as ([i' r'] & E & Hq). cbn in E. subst. eapply H4; eauto. }
      clear -NQ NI. induction (map fst q) as [|x l IH]; cbn; [repeat constructor; auto|]. inversion NQ; subst.
      constructor; [|apply IH; auto; intros C; apply NI; right; exact C]. intros C. apply in_app_or in C. destruct C as [C|[<-|[]]]; auto. apply NI. left. reflexivity.
    + intros j r' Hr. apply in_app_or in Hr. destruct Hr as [Hr|[Hr|[]]]; [apply Q; exact Hr|]. injection Hr as <- <-.
      exists p. exists a, pr0, b, p0. repeat split; auto.
  - rewrite H2. destruct (call b p (Read n k)) as [[p' pr']|] eqn:C; [apply STEP; reflexivity | unfold inv; auto 10].
  - rewrite H2. destruct (call b p (Tell k)) as [[p' pr']|] eqn:C; [apply STEP; reflexivity | unfold inv; auto 10].
  - rewrite H2. destruct (call b p (SeekTo s k)) as [[p' pr']|] eqn:C; [apply STEP; reflexivity | unfold inv; auto 10].
  - rewrite H2. destruct (call b p (Skip s k)) as [[p' pr']|] eqn:C; [apply STEP; reflexivity | unfold inv; auto 10].
Qed.

Lemma inv_pool sch : forall st, inv st -> inv (pool sch st).
Proof. unfold pool. induction sch as [|i sch IH]; intros st H; cbn; auto. apply IH. apply inv_turn. exact H. Qed.

(** the end of the pool *)
Lemma inv_done mem ts q : inv (mem, ts, q) -> done ts ->
  (forall i r, In (i, r) q <-> exists p', alone i (r, p')) /\ NoDup q /\
  (forall i a pr b p, nth_error ts0 i = Some (a, pr) -> nth_error mem0 a = Some (b, p) -> nth_error mem a = Some (b, snd (exec pr b p))) /\
  (forall a, ~ In a (map fst ts0) -> nth_error mem a = nth_error mem0 a) /\ length mem = length mem0.
Proof.
  intros (L1 & L2 & O & T & NQ & Q) D. split; [|split; [|split; [|split; auto]]].
  - intros i r. split; [apply Q|]. intros (p' & a & pr & b & p & Hi & Ha & E).
    destruct (T _ _ _ _ _ Hi Ha) as (o & p1 & K1 & K2 & K3). apply nth_error_In in K1. apply D in K1. cbn in K1. subst o.
    destruct K3 as [_ K3]. rewrite E in K3. exact K3.
  - eapply NoDup_map_inv. exact NQ.
  - intros i a pr b p Hi Ha. destruct (T _ _ _ _ _ Hi Ha) as (o & p1 & K1 & K2 & K3).
    apply nth_error_In in K1. apply D in K1. cbn in K1. subst o. destruct K3 as [-> _]. exact K2.
Qed.
End Distinct.

Lemma pool_is_sequential mem0 (ts0 : list (nat * prog Y)) : NoDup (map fst ts0) -> (forall t, In t ts0 -> (fst t < length mem0)%nat) ->
  forall sch mem ts q, pool sch (mem0, begin ts0, []) = (mem, ts, q) -> done ts ->
  Permutation q (snd (one_by_one 0 mem0 ts0)) /\ mem = fst (one_by_one 0 mem0 ts0).
Proof.
  intros ND V sch mem ts q E D.
  destruct (sequential_schedule ts0 mem0 [] [] V) as (s2 & ts2 & E2 & D2). cbn [app length] in E2.
  pose proof (inv_pool mem0 ts0 ND V sch _ (inv_begin mem0 ts0)) as I1. rewrite E in I1.
  pose proof (inv_pool mem0 ts0 ND V s2 _ (inv_begin mem0 ts0)) as I2. rewrite E2 in I2.
  destruct (inv_done _ _ _ _ _ I1 D) as (Q1 & N1 & M1 & O1 & L1).
  destruct (inv_done _ _ _ _ _ I2 D2) as (Q2 & N2 & M2 & O2 & L2).
  split.
  - apply NoDup_Permutation; auto. intros [i r]. rewrite Q1, Q2. reflexivity.
  - apply nth_error_eq. intros a. destruct (in_dec Nat.eq_dec a (map fst ts0)) as [Hin|Hout].
    + apply in_map_iff in Hin. destruct Hin as ([a' pr] & Ea & Hin). cbn in Ea. subst a'.
      pose proof (V _ Hin) as Va. cbn in Va. apply In_nth_error in Hin. destruct Hin as [i Hi].
      destruct (nth_error mem0 a) as [[b p]|] eqn:Ha; [|apply nth_error_None in Ha; lia].
      rewrite (M1 _ _ _ _ _ Hi Ha), (M2 _ _ _ _ _ Hi Ha). reflexivity.
    + rewrite O1, O2 by exact Hout. reflexivity.
Qed.
End PoolProofs.

(** ** Buffers that may be shared *)
Section Shared.
Variable Y : Type.

Lemma pool_app (s1 s2 : list nat) st : @pool Y (s1 ++ s2) st = pool s2 (pool s1 st).
Proof. unfold pool. apply fold_left_app. Qed.

(** every thread holds an existing buffer, and the queue holds exactly the finished threads *)
Definition sound (n : nat) (st : list (bytes * nat) * list (nat * option (prog Y)) * list (nat * res Y)) : Prop :=
  let '(mem, ts, q) := st in
  length ts = n /\ (forall t, In t ts -> (fst t < length mem)%nat) /\
  NoDup (map fst q) /\ (forall i, In i (map fst q) <-> exists a, nth_error ts i = Some (a, None)).

Lemma sound_begin mem (ts : list (nat * prog Y)) : (forall t, In t ts -> (fst t < length mem)%nat) -> sound (length ts) (mem, begin Y ts, []).
Proof.
  intros V. unfold sound, begin. rewrite map_length. repeat split; auto; try constructor.
  - intros t Ht. apply in_map_iff in Ht. destruct Ht as (u & <- & Hu). cbn. auto.
  - intros [].
  - intros (a & Ha). rewrite nth_error_map in Ha. destruct (nth_error ts i); discriminate.
Qed.

Lemma sound_turn n i st : sound n st -> sound n (turn i st).
Proof.
  destruct st as [[mem ts] q]. intros (L & V & NQ & Q). unfold turn.
  destruct (nth_error ts i) as [[a o]|] eqn:Hi; [|unfold sound; auto].
  assert (Li : (i < length ts)%nat) by (apply nth_error_Some; congruence).
  assert (Va : (a < length mem)%nat) by (apply (V (a, o)); eapply nth_error_In; eauto).
  destruct o as [pr|]; [|unfold sound; auto].
  assert (STEP : forall x pr', sound n (put a x mem, put i (a, Some pr') ts, q)).
  { intros x pr'. unfold sound. rewrite !put_length. split; [exact L|]. split; [|split; [exact NQ|]].
    - intros t Ht. apply put_In in Ht. destruct Ht as [->|Ht]; auto.
    - intros j. rewrite Q. destruct (Nat.eq_dec i j) as [<-|Nij].
      + rewrite put_same by exact Li. split; intros (c & Hc); [congruence|discriminate].
      + rewrite put_other by exact Nij. reflexivity. }
  destruct pr as [r|m k|k|s k|s k];
    [|destruct (nth_error mem a) as [[b p]|]; [apply STEP | unfold sound; auto] ..].
  unfold sound. rewrite put_length. split; [exact L|]. split; [|split].
  - intros t Ht. apply put_In in Ht. destruct Ht as [->|Ht]; auto.
  - assert (NI : ~ In i (map fst q)). { rewrite Q. intros (c & Hc). congruence. }
    rewrite map_app. cbn. clear -NQ NI. induction (map fst q) as [|x l IH]; cbn; [repeat constructor; auto|]. inversion NQ; subst.
    constructor; [|apply IH; auto; intros C; apply NI; right; exact C]. intros C. apply in_app_or in C.
    destruct C as [C|[<-|[]]]; auto. apply NI. left. reflexivity.
  - intros j. rewrite map_app, in_app_iff, Q. cbn. destruct (Nat.eq_dec i j) as [<-|Nij].
    + rewrite put_same by exact Li. split; [eauto|]. auto.
    + rewrite put_other by exact Nij. split; [intros [H|[H|[]]]; [exact H | congruence] | auto].
Qed.
Lemma sound_pool n sch : forall st, sound n st -> sound n (pool sch st).
Proof. unfold pool. induction sch as [|i sch IH]; intros st H; cbn; auto. apply IH. apply sound_turn. exact H. Qed.

Lemma sound_done n mem ts q : sound n (mem, ts, q) -> done ts -> Permutation (map fst q) (seq 0 n).
Proof.
  intros (L & V & NQ & Q) D. apply NoDup_Permutation; [exact NQ | apply seq_NoDup|]. intros i. rewrite Q, in_seq, <- L. cbn. split.
  - intros (a & Ha). assert (i < length ts)%nat by (apply nth_error_Some; congruence). lia.
  - intros [_ Hi]. apply nth_error_Some in Hi. destruct (nth_error ts i) as [[a o]|] eqn:E; [|congruence].
    exists a. f_equal. f_equal. apply (D (a, o)). eapply nth_error_In; eauto.
Qed.

(** from every state of the pool its work can be finished *)
Lemma finish : forall (todo : list (nat * option (prog Y))) mem fin q,
  (forall t, In t todo -> (fst t < length mem)%nat) -> done fin ->
  exists sch mem' ts' q', pool sch (mem, fin ++ todo, q) = (mem', ts', q') /\ done ts'.
Proof.
  induction todo as [|[a [pr|]] todo IH]; intros mem fin q V D.
  - exists [], mem, fin, q. rewrite app_nil_r. split; auto.
  - assert (Va : (a < length mem)%nat) by (apply (V (a, Some pr)); left; reflexivity).
    destruct (nth_error mem a) as [[b p]|] eqn:Ea; [|apply nth_error_None in Ea; lia].
    destruct (solo Y pr (length fin) a b p mem (fin ++ (a, Some pr) :: todo) q) as (s1 & E1).
    { rewrite nth_error_app2, Nat.sub_diag by lia. reflexivity. } { exact Ea. }
    rewrite put_end in E1.
    destruct (IH (put a (b, snd (exec pr b p)) mem) (fin ++ [(a, None)]) (q ++ [(length fin, fst (exec pr b p))])) as (s2 & m & t & q' & E2 & D2).
    { intros t Ht. rewrite put_length. apply V. right. exact Ht. }
    { intros t Ht. apply in_app_or in Ht. destruct Ht as [Ht|[<-|[]]]; [apply D; exact Ht | reflexivity]. }
    exists (s1 ++ s2), m, t, q'. split; [|exact D2]. rewrite pool_app, E1. rewrite <- app_assoc in E2. exact E2.
  - destruct (IH mem (fin ++ [(a, None)]) q) as (s2 & m & t & q' & E2 & D2).
    { intros t Ht. apply V. right. exact Ht. }
    { intros t Ht. apply in_app_or in Ht. destruct Ht as [Ht|[<-|[]]]; [apply D; exact Ht | reflexivity]. }
    exists s2, m, t, q'. split; [|exact D2]. rewrite <- app_assoc in E2. exact E2.
Qed.
End Shared.

(** ** The reader of TMD files as a program is the reader of ModelFormats.v *)
Definition fh_of (b : bytes) (p : nat) : fh := {| contents := b; pos := p |}.
Lemma read_at_fread n b p : fread n (fh_of b p) = (read_at b p (Some n), fh_of b (p + length (read_at b p (Some n)))).
Proof. reflexivity. Qed.
Definition agree {A} (r : res (A * fh)) (b : bytes) (x : res A * nat) : Prop :=
  r = match x with (Ok y, p') => Ok (y, fh_of b p') | (Err e, _) => Err e end.
Lemma value_prog_exec en f b p : agree (read_value en f (fh_of b p)) b (exec (value_prog en f) b p).
Proof.
  unfold agree, read_value, value_prog. rewrite read_at_fread. cbn [exec].
  destruct (unpack f (read_at b p (Some (calcsize f)))) as [v|e]; cbn [rbind]; [|reflexivity].
  destruct v; try reflexivity. destruct (decode en _); reflexivity.
Qed.
Lemma entry_prog_exec en e d b p : agree (read_entry en e d (fh_of b p)) b (exec (entry_prog en e d) b p).
Proof.
  unfold agree, read_entry, entry_prog. destruct e as [n|name ef]; [reflexivity|].
  assert (G : forall f, rmap (fun '(v, h') => (dset d name v, h')) (read_value en f (fh_of b p)) =
     match exec (ok_then (value_prog en f) (fun v => Ret (Ok (dset d name v)))) b p with
     | (Ok y, p') => Ok (y, fh_of b p') | (Err e, _) => Err e end).
  { intros f. rewrite exec_ok_then. pose proof (value_prog_exec en f b p) as V. unfold agree in V. rewrite V.
    destruct (exec (value_prog en f) b p) as [[v|e] p']; reflexivity. }
  destruct ef as [f|prev|f rd wr].
  - cbn [rbind]. apply G.
  - destruct (get_format d prev) as [f|e]; [cbn [rbind]; apply G | reflexivity].
  - rewrite read_at_fread. cbn [exec]. destruct (unpack f _) as [v|e]; cbn [rbind]; [|reflexivity]. destruct (rd v); reflexivity.
Qed.
Lemma layout_prog_exec en l : forall d b p, agree (read_layout_from en l d (fh_of b p)) b (exec (layout_prog en l d) b p).
Proof.
  induction l as [|e l IH]; intros d b p; [reflexivity|]. cbn [layout_prog read_layout_from].
  unfold agree. rewrite exec_ok_then. pose proof (entry_prog_exec en e d b p) as V. unfold agree in V. rewrite V.
  destruct (exec (entry_prog en e d) b p) as [[d'|e'] p']; cbn [rbind]; [|reflexivity]. apply IH.
Qed.
Lemma tmd_prog_exec b p : fst (exec tmd_prog b p) = read_tmd (fh_of b p).
Proof.
  unfold tmd_prog, read_tmd. rewrite read_at_fread. cbn [exec]. destruct (negb (zs_eqb _ tmd_magic)); [reflexivity|].
  cbn [exec]. rewrite exec_ok_then. unfold read_layout. change {| contents := contents _; pos := 0 |} with (fh_of b 0).
  pose proof (layout_prog_exec Utf8 tmd_layout [] b 0) as V. unfold agree in V. rewrite V.
  destruct (exec (layout_prog Utf8 tmd_layout []) b 0) as [[d|e] p']; [|reflexivity]. cbn [rbind exec fst]. reflexivity.
Qed.
