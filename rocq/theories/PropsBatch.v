(** C60-C64: batch processing (surfalize/batch.py:275-960). *)
From Coq Require Import String ZArith Bool Lia Arith Permutation.
From Coq Require Import List.
From Verif Require Import Base ModelBatch.
Import ListNotations.
Local Open Scope string_scope.
Local Open Scope list_scope.

(** *** Dictionaries *)
Lemma dget_dset {V} k k' (v : V) d : dget k (dset k' v d) = if String.eqb k k' then Some v else dget k d.
Proof.
  induction d as [|[a b] d IH]; cbn [dset dget]; [reflexivity|].
  destruct (String.eqb_spec k' a) as [<-|N]; cbn [dget].
  - destruct (String.eqb_spec k k'); reflexivity.
  - destruct (String.eqb_spec k a) as [->|N2]; [|exact IH]. destruct (String.eqb_spec a k'); [congruence|reflexivity].
Qed.
Lemma dget_dupdate {V} (e : dict V) : forall d k, dget k (dupdate d e) = match dget k (rev e) with Some v => Some v | None => dget k d end.
Proof.
  unfold dupdate. induction e as [|[a b] e IH] using rev_ind; intros d k; [reflexivity|].
  rewrite fold_left_app, rev_app_distr. cbn [fold_left rev app dget fst snd]. rewrite dget_dset. destruct (String.eqb k a); [reflexivity|apply IH].
Qed.
Lemma dupdate_app {V} (d a b : dict V) : dupdate d (a ++ b) = dupdate (dupdate d a) b.
Proof. unfold dupdate. apply fold_left_app. Qed.
Lemma dget_in {V} k (v : V) d : dget k d = Some v -> In (k, v) d.
Proof.
  induction d as [|[a b] d IH]; cbn [dget]; [discriminate|]. destruct (String.eqb_spec k a) as [->|]; [intros E; left; congruence|right; auto].
Qed.
Lemma dget_none {V} k (d : dict V) : dget k d = None <-> ~ In k (map fst d).
Proof.
  induction d as [|[a b] d IH]; cbn [dget map fst In]; [tauto|]. destruct (String.eqb_spec k a) as [->|N].
  - split; [discriminate|intros H; destruct H; left; reflexivity].
  - rewrite IH. split; intros H; [intros [E|Hi]; [congruence|tauto]|tauto].
Qed.
Lemma dget_nodup {V} k (v : V) d : NoDup (map fst d) -> In (k, v) d -> dget k d = Some v.
Proof.
  induction d as [|[a b] d IH]; cbn [dget map fst]; intros Hd Hi; [destruct Hi|]. apply NoDup_cons_iff in Hd. destruct Hd as [Ha Hd].
  destruct Hi as [E|Hi].
  - assert (a = k /\ b = v) as [-> ->] by (split; congruence). rewrite String.eqb_refl. reflexivity.
  - destruct (String.eqb_spec k a) as [->|]; [|apply IH; assumption]. exfalso. apply Ha. apply in_map_iff. exists (a, v). auto.
Qed.
Lemma dget_rev {V} k (d : dict V) : NoDup (map fst d) -> dget k (rev d) = dget k d.
Proof.
  intros Hd. destruct (dget k d) as [v|] eqn:E.
  - apply dget_nodup; [rewrite map_rev; apply NoDup_rev; exact Hd|]. apply -> in_rev. apply dget_in. exact E.
  - apply dget_none. apply dget_none in E. rewrite map_rev. intros H. apply E. apply in_rev. exact H.
Qed.
Lemma keys_dset {V} k (v : V) d : map fst (dset k v d) = if existsb (String.eqb k) (map fst d) then map fst d else map fst d ++ [k].
Proof.
  induction d as [|[a b] d IH]; cbn [dset map fst existsb]; [reflexivity|]. destruct (String.eqb_spec k a) as [->|N]; cbn [orb map fst]; [reflexivity|].
  rewrite IH. destruct (existsb (String.eqb k) (map fst d)); reflexivity.
Qed.

Lemma NoDup_snoc {A} (l : list A) x : NoDup l -> ~ In x l -> NoDup (l ++ [x]).
Proof.
  intros H Hx. apply (Permutation_NoDup (l := x :: l)); [apply Permutation_cons_append|]. constructor; assumption.
Qed.
Lemma NoDup_app_l {A} (l r : list A) : NoDup (l ++ r) -> NoDup l.
Proof. induction l as [|x l IH]; intros H; [constructor|]. cbn [app] in H. apply NoDup_cons_iff in H. destruct H as [H1 H2]. constructor; [|auto]. intros Hx. apply H1. apply in_or_app. auto. Qed.

Section Props.
Context {St V Arg File : Type}.
Notation step := (step St V Arg).
Notation env := (env St V Arg File).
Notation call := (call St V Arg).

(** *** C60: registration *)
(** the names of the parameters registered so far *)
Definition registered (steps : list step) : list pname := flat_map (fun s => match step_name s with Some n => [n] | None => [] end) steps.
Lemma pname_eqb_eq a b : pname_eqb a b = true <-> a = b.
Proof.
  destruct a, b; cbn [pname_eqb]; try (split; congruence).
  - rewrite String.eqb_eq. split; congruence.
  - rewrite Z.eqb_eq. split; congruence.
Qed.
Lemma exists_registered n (steps : list step) :
  existsb (fun t => match step_name t with Some m => pname_eqb n m | None => false end) steps = true <-> In n (registered steps).
Proof.
  rewrite existsb_exists. unfold registered. rewrite in_flat_map. split; intros (s & H1 & H2); exists s; (split; [exact H1|]).
  - destruct (step_name s) as [m|]; [|discriminate]. apply pname_eqb_eq in H2. subst m. left. reflexivity.
  - destruct (step_name s) as [m|]; [|destruct H2]. destruct H2 as [->|[]]. apply pname_eqb_eq. reflexivity.
Qed.
Lemma registered_app a b : registered (a ++ b) = registered a ++ registered b.
Proof. apply flat_map_app. Qed.
Lemma add_step_spec (steps : list step) s :
  (exists n, step_name s = Some n /\ In n (registered steps) /\ add_step steps s = (Err (match s with SCustomPar _ => AttributeError | _ => BatchError end), steps)) \/
  ((forall n, step_name s = Some n -> ~ In n (registered steps)) /\ add_step steps s = (Ok tt, steps ++ [s])).
Proof.
  unfold add_step. destruct (step_name s) as [n|]; [|right; split; [discriminate|reflexivity]].
  pose proof (exists_registered n steps) as H. destruct (existsb _ steps).
  - left. exists n. repeat split. apply H. reflexivity.
  - right. split; [|reflexivity]. intros m E Hm. assert (m = n) by congruence. subst m. apply H in Hm. discriminate.
Qed.
(** the keyword arguments a call is registered with: the fixed ones win, all others stay *)
Definition forced (fixed given final : dict Arg) : Prop :=
  forall k, dget k final = match dget k (rev fixed) with Some v => Some v | None => dget k given end.
Theorem C60_operation (E : env) (steps : list step) name args kwargs cn fixed labels f :
  e_methods E name = Some (mkMethod (Some TOperation) fixed labels f) ->
  exists kw, forced fixed kwargs kw /\ register E steps (CallMethod name args kwargs cn) = (Ok tt, steps ++ [SOp name args kw]).
Proof.
  intros H. exists (dupdate kwargs fixed). split; [intros k; apply dget_dupdate|]. cbn [register]. rewrite H. reflexivity.
Qed.
Theorem C60_parameter (E : env) (steps : list step) name args kwargs cn fixed labels f :
  e_methods E name = Some (mkMethod (Some TParameter) fixed labels f) ->
  let n := match cn with Some n => n | None => name end in
  (In (NStr n) (registered steps) -> register E steps (CallMethod name args kwargs cn) = (Err BatchError, steps)) /\
  (~ In (NStr n) (registered steps) -> exists kw, forced fixed kwargs kw /\
     register E steps (CallMethod name args kwargs cn) = (Ok tt, steps ++ [SPar name n args kw])).
Proof.
  intros H n. cbn [register]. rewrite H. fold n.
  change (fold_left (fun a p => dset (fst p) (snd p) a) fixed kwargs) with (dupdate kwargs fixed).
  destruct (add_step_spec steps (SPar name n args (dupdate kwargs fixed))) as [(m & E1 & H1 & ->)|(H1 & ->)].
  - assert (m = NStr n) by (cbn in E1; congruence). subst m. split; [reflexivity|contradiction].
  - specialize (H1 (NStr n) eq_refl). split; [contradiction|]. intros _. exists (dupdate kwargs fixed). split; [intros k; apply dget_dupdate|reflexivity].
Qed.
(** what a call asks for *)
Definition wanted (E : env) (c : call) : option (list step) :=
  match c with
  | CallMethod name args kwargs cn =>
    match e_methods E name with
    | Some (mkMethod (Some TOperation) fixed _ _) => Some [SOp name args (dupdate kwargs fixed)]
    | Some (mkMethod (Some TParameter) fixed _ _) => Some [SPar name (match cn with Some n => n | None => name end) args (dupdate kwargs fixed)]
    | _ => None
    end
  | CallCustomPar f => Some [SCustomPar f]
  | CallCustomOp f => Some [SCustomOp f]
  | CallRoughness None => Some (map (fun n => SPar n n [] []) (e_iso E))
  | CallRoughness (Some l) => Some (map request_step l)
  end.
Lemma add_steps_spec l : forall (steps : list step), NoDup (registered steps) ->
  exists part, snd (add_steps steps l) = steps ++ part /\ NoDup (registered (steps ++ part)) /\
    match fst (add_steps steps l) with
    | Ok _ => part = l
    | Err e => exists s rest n, l = part ++ s :: rest /\ step_name s = Some n /\ In n (registered (steps ++ part)) /\
                 e = match s with SCustomPar _ => AttributeError | _ => BatchError end
    end.
Proof.
  induction l as [|s l IH]; intros steps Hn; cbn [add_steps].
  - exists []. rewrite app_nil_r. repeat split. exact Hn.
  - destruct (add_step_spec steps s) as [(n & E1 & H1 & ->)|(H1 & ->)].
    + exists []. rewrite app_nil_r. cbn [fst snd]. split; [reflexivity|]. split; [exact Hn|]. exists s, l, n. auto.
    + destruct (IH (steps ++ [s])) as (part & E & Hd & Hr).
      { rewrite registered_app. cbn [registered flat_map]. destruct (step_name s) as [n|]; cbn [app]; [|rewrite app_nil_r; exact Hn].
        apply NoDup_snoc; [exact Hn|apply (H1 n eq_refl)]. }
      exists (s :: part). rewrite <- app_assoc in E, Hd. cbn [app] in E, Hd. split; [exact E|]. split; [exact Hd|].
      destruct (fst (add_steps (steps ++ [s]) l)) as [u|e]; [congruence|].
      destruct Hr as (s1 & rest & n & -> & Hr2 & Hr3 & Hr4). exists s1, rest, n. rewrite <- app_assoc in Hr3. auto.
Qed.
Lemma register_spec (E : env) (steps : list step) c : NoDup (registered steps) ->
  exists part, snd (register E steps c) = steps ++ part /\ NoDup (registered (steps ++ part)) /\
    match fst (register E steps c), wanted E c with
    | Ok _, Some l => part = l
    | Err e, Some l => exists s rest n, l = part ++ s :: rest /\ step_name s = Some n /\ In n (registered (steps ++ part)) /\
                 e = match s with SCustomPar _ => AttributeError | _ => BatchError end
    | Err e, None => part = [] /\ e = AttributeError
    | Ok _, None => False
    end.
Proof.
  intros Hn.
  assert (One : forall s, exists part, snd (add_step steps s) = steps ++ part /\ NoDup (registered (steps ++ part)) /\
    match fst (add_step steps s) with
    | Ok _ => part = [s]
    | Err e => exists s1 rest n, [s] = part ++ s1 :: rest /\ step_name s1 = Some n /\ In n (registered (steps ++ part)) /\
                 e = match s1 with SCustomPar _ => AttributeError | _ => BatchError end
    end).
  { intros s. destruct (add_steps_spec [s] steps Hn) as (part & H). exists part. cbn [add_steps] in H.
    destruct (add_step steps s) as [[u|e] st']; exact H. }
  destruct c as [name args kwargs cn|f|f|l]; cbn [register wanted].
  - destruct (e_methods E name) as [[[[]|] fixed labels f]|]; try (exact (One _));
      exists []; rewrite app_nil_r; cbn [fst snd]; auto.
  - exact (One _).
  - exact (One _).
  - destruct l as [l|]; exact (add_steps_spec _ steps Hn).
Qed.
(** Every history of calls: the recorded steps are those of the accepted calls, in call order; parameter names are always distinct; a
    call is rejected only when the next step it asks for repeats a name (or the method does not exist). *)
Definition outcome_of (E : env) (before : list step) (c : call) (r : res unit) (part : list step) : Prop :=
  match r, wanted E c with
  | Ok _, Some l => part = l
  | Err e, Some l => exists s rest n, l = part ++ s :: rest /\ step_name s = Some n /\ In n (registered (before ++ part)) /\
               e = match s with SCustomPar _ => AttributeError | _ => BatchError end
  | Err e, None => part = [] /\ e = AttributeError
  | Ok _, None => False
  end.
Inductive trace (E : env) : list step -> list call -> list (res unit) -> list step -> Prop :=
  | tr_nil before : trace E before [] [] []
  | tr_cons before c cs r rs part steps : outcome_of E before c r part -> trace E (before ++ part) cs rs steps -> trace E before (c :: cs) (r :: rs) (part ++ steps).
Theorem C60_history (E : env) (cs : list call) :
  let '(rs, steps) := history E [] cs in trace E [] cs rs steps /\ NoDup (registered steps).
Proof.
  assert (G : forall before, NoDup (registered before) -> exists steps, trace E before cs (fst (history E before cs)) steps /\
     snd (history E before cs) = before ++ steps /\ NoDup (registered (before ++ steps))).
  { induction cs as [|c cs IH]; intros before Hn; cbn [history].
    - exists []. rewrite app_nil_r. repeat split; [constructor|exact Hn].
    - destruct (register_spec E before c Hn) as (part & E1 & Hd & Hr). destruct (register E before c) as [r st1]. cbn [fst snd] in E1, Hr. subst st1.
      destruct (IH (before ++ part) Hd) as (steps & T & E2 & H2). destruct (history E (before ++ part) cs) as [rs st2]. cbn [fst snd] in T, E2.
      exists (part ++ steps). cbn [fst snd]. split; [constructor; [exact Hr|exact T]|]. rewrite app_assoc. split; assumption. }
  destruct (G [] (NoDup_nil _)) as (steps & T & E2 & H2). destruct (history E [] cs) as [rs st]. cbn [fst snd app] in T, E2, H2. subst st. split; assumption.
Qed.
(** Everything is accepted as long as no parameter name repeats (operations may repeat). *)
Theorem C60_accepted (E : env) (cs : list call) (want : list (list step)) :
  map (wanted E) cs = map Some want -> NoDup (registered (concat want)) ->
  history E [] cs = (map (fun _ => Ok tt) cs, concat want).
Proof.
  assert (G : forall before, NoDup (registered (before ++ concat want)) -> map (wanted E) cs = map Some want ->
    history E before cs = (map (fun _ => Ok tt) cs, before ++ concat want)).
  { revert want. induction cs as [|c cs IH]; intros [|w want] before Hn Hw; try discriminate Hw; cbn [history map concat].
    - rewrite app_nil_r. reflexivity.
    - cbn [map] in Hw. assert (Hc : wanted E c = Some w) by congruence. assert (Hw' : map (wanted E) cs = map Some want) by congruence.
      cbn [concat] in Hn. rewrite app_assoc in Hn.
      assert (Hb : NoDup (registered (before ++ w))).
      { rewrite registered_app in Hn. eapply NoDup_app_l; exact Hn. }
      assert (Hb0 : NoDup (registered before)) by (rewrite registered_app in Hb; eapply NoDup_app_l; exact Hb).
      destruct (register_spec E before c Hb0) as (part & E1 & Hd & Hr). destruct (register E before c) as [r st1]. cbn [fst snd] in E1, Hr.
      rewrite Hc in Hr. destruct r as [[]|e].
      + subst part st1. rewrite (IH want (before ++ w) Hn Hw'), <- app_assoc. reflexivity.
      + exfalso. destruct Hr as (s & rest & n & -> & Hs & Hi & _). rewrite app_assoc, registered_app in Hb. cbn [registered flat_map] in Hb. rewrite Hs in Hb.
        cbn [app] in Hb. apply NoDup_remove_2 in Hb. apply Hb. apply in_or_app. left. exact Hi. }
  intros Hw Hn. exact (G [] Hn Hw).
Qed.

(** *** C61: execution of the steps on one surface.  The steps only add to the results: *)
Definition step_writes (E : env) (ig : bool) (st : step) (s : St) : res (St * dict V) :=
  match st with
  | SPar ident name args kwargs => match calculate_from E ident name args kwargs ig s with (Ok d, s') => Ok (s', d) | (Err e, _) => Err e end
  | SCustomPar f => match calculate_custom f ig s with (Ok d, s') => Ok (s', d) | (Err e, _) => Err e end
  | _ => match execute_on E st s with (Ok _, s') => Ok (s', []) | (Err e, _) => Err e end
  end.
Fixpoint writes (E : env) (ig : bool) (l : list step) (s : St) : res (St * dict V) :=
  match l with
  | [] => Ok (s, [])
  | st :: l' => rbind (step_writes E ig st s) (fun p => rmap (fun q => (fst q, snd p ++ snd q)) (writes E ig l' (fst p)))
  end.
Lemma exec_step_writes (E : env) ig (st : step) s r : exec_step E ig st s r = rmap (fun p => (fst p, dupdate r (snd p))) (step_writes E ig st s).
Proof.
  destruct st as [i a k|i n a k|f|f]; cbn [exec_step step_writes].
  - destruct (execute_on E (SOp i a k) s) as [[u|e] s']; reflexivity.
  - destruct (calculate_from E i n a k ig s) as [[u|e] s']; reflexivity.
  - destruct (calculate_custom f ig s) as [[u|e] s']; reflexivity.
  - destruct (execute_on E (SCustomOp f) s) as [[u|e] s']; reflexivity.
Qed.
Lemma exec_steps_writes (E : env) ig (l : list step) : forall s r, exec_steps E ig l s r = rmap (fun p => (fst p, dupdate r (snd p))) (writes E ig l s).
Proof.
  induction l as [|st l IH]; intros s r; cbn [exec_steps writes]; [reflexivity|]. rewrite exec_step_writes.
  destruct (step_writes E ig st s) as [[s1 d1]|e]; [|reflexivity]. cbn [rmap rbind fst snd]. rewrite IH.
  destruct (writes E ig l s1) as [[s2 d2]|e]; [|reflexivity]. cbn [rmap fst snd]. rewrite dupdate_app. reflexivity.
Qed.
Lemma exec_steps_app (E : env) ig (a : list step) : forall (b : list step) s r, exec_steps E ig (a ++ b) s r = rbind (exec_steps E ig a s r) (fun p => exec_steps E ig b (fst p) (snd p)).
Proof.
  induction a as [|x a IH]; intros b s r; cbn [app exec_steps]; [reflexivity|].
  destruct (exec_step E ig x s r) as [[s1 r1]|e]; [|reflexivity]. cbn [rbind]. apply IH.
Qed.
Lemma writes_app (E : env) ig (a : list step) : forall (b : list step) s, writes E ig (a ++ b) s = rbind (writes E ig a s) (fun p => rmap (fun q => (fst q, snd p ++ snd q)) (writes E ig b (fst p))).
Proof.
  induction a as [|x a IH]; intros b s; cbn [app writes]; [cbn [rbind fst snd app]; destruct (writes E ig b s) as [[]|]; reflexivity|].
  destruct (step_writes E ig x s) as [[s1 d1]|e]; [|reflexivity]. cbn [rbind fst snd]. rewrite IH.
  destruct (writes E ig a s1) as [[s2 d2]|e]; [|reflexivity]. cbn [rbind rmap fst snd].
  destruct (writes E ig b s2) as [[s3 d3]|e]; [|reflexivity]. cbn [rmap fst snd]. rewrite app_assoc. reflexivity.
Qed.
Lemma task_plan (E : env) (steps : list step) ig ch f :
  task E steps ig ch f = rbind (e_load E f) (fun s => rmap snd (exec_steps E ig (plan steps ch) s [("file", e_name E f)])).
Proof.
  unfold task, plan. destruct (e_load E f) as [s|e]; [|reflexivity]. cbn [rbind]. destruct ch; [reflexivity|]. rewrite exec_steps_app.
  destruct (exec_steps E ig (filter is_operation steps) s _) as [[s1 r1]|e]; reflexivity.
Qed.
(** preserve_chaining_order=False is the same as registering the operations first *)
Theorem C61_unchained (E : env) (steps : list step) ig f :
  task E steps ig false f = task E (filter is_operation steps ++ filter is_parameter steps) ig true f.
Proof. rewrite !task_plan. reflexivity. Qed.

(** *** C61: the pool *)
Definition pending (E : env) (ig : bool) (p : list step) (t : thread St V Arg File) : queue V File :=
  match t with
  | Waiting f => [(f, rbind (e_load E f) (fun s => rmap snd (exec_steps E ig p s [("file", e_name E f)])))]
  | Running f todo s r => [(f, rmap snd (exec_steps E ig todo s r))]
  | Finished => []
  end.
Lemma advance_pending (E : env) ig p t : snd (advance E ig p t) ++ pending E ig p (fst (advance E ig p t)) = pending E ig p t.
Proof.
  destruct t as [f|f [|st todo] s r|]; cbn [advance pending].
  - destruct (e_load E f) as [s|e]; reflexivity.
  - reflexivity.
  - cbn [exec_steps]. destruct (exec_step E ig st s r) as [[s1 r1]|e]; reflexivity.
  - reflexivity.
Qed.
Lemma pool_invariant (E : env) ig p schedule : forall ts q,
  Permutation (snd (run_pool E ig p schedule ts q) ++ flat_map (pending E ig p) (fst (run_pool E ig p schedule ts q))) (q ++ flat_map (pending E ig p) ts).
Proof.
  induction schedule as [|i rest IH]; intros ts q; cbn [run_pool]; [reflexivity|].
  destruct (nth_error ts i) as [t|] eqn:Et; [|apply IH].
  pose proof (advance_pending E ig p t) as A. destruct (advance E ig p t) as [t' out]. cbn [fst snd] in A. rewrite IH, <- app_assoc.
  apply Permutation_app_head. clear IH. revert i Et. induction ts as [|t0 ts IHt]; intros [|i] Et; try discriminate Et; cbn [update_at flat_map].
  - assert (t0 = t) by (cbn in Et; congruence). subst t0. rewrite <- A, <- app_assoc. reflexivity.
  - rewrite <- (IHt i Et). rewrite !app_assoc. apply Permutation_app_tail. apply Permutation_app_comm.
Qed.
Lemma collect_sequential (E : env) (steps : list step) ig ch files :
  collect (map (fun f => (f, task E steps ig ch f)) files) = sequential E steps ig ch files.
Proof.
  induction files as [|f files IH]; cbn [map collect sequential]; [reflexivity|]. rewrite IH. destruct (task E steps ig ch f); reflexivity.
Qed.
(** Whatever the schedule of the threads, the outcome is that of a sequential run over the files in some order. *)
Theorem C61_pool (E : env) (steps : list step) ig ch files out :
  executes E steps ig ch files true out ->
  (steps = [] /\ out = (Err BatchError, [])) \/ exists order, Permutation order files /\ out = sequential E steps ig ch order.
Proof.
  intros H. inversion H as [mp Hs|Hs|schedule ts q Hs Hr Hf]; subst.
  - left. split; [reflexivity|reflexivity].
  - right. pose proof (pool_invariant E ig (plan steps ch) schedule (map Waiting files) []) as P. rewrite Hr in P. cbn [fst snd app] in P.
    assert (Z : flat_map (pending E ig (plan steps ch)) ts = []).
    { clear -Hf. induction ts as [|t ts IH]; [reflexivity|]. cbn [flat_map]. rewrite (Hf t (or_introl eq_refl)). cbn [pending app]. apply IH. intros x Hx. apply Hf. right. exact Hx. }
    rewrite Z, app_nil_r in P.
    assert (M : flat_map (pending E ig (plan steps ch)) (map Waiting files) = map (fun f => (f, task E steps ig ch f)) files).
    { clear. induction files as [|f files IH]; [reflexivity|]. cbn [map flat_map pending app]. rewrite task_plan, IH. reflexivity. }
    rewrite M in P. apply Permutation_map_inv in P. destruct P as (order & -> & P).
    exists order. split; [apply Permutation_sym; exact P|]. apply collect_sequential.
Qed.
(** No schedule gets stuck: every partial run can be completed. *)
Definition left_ (t : thread St V Arg File) (n : nat) : nat := match t with Waiting _ => S (S n) | Running _ todo _ _ => S (length todo) | Finished => 0 end.
Theorem C61_pool_completes (E : env) ig (p : list step) (ts : list (thread St V Arg File)) q :
  exists schedule, all_finished (fst (run_pool E ig p schedule ts q)).
Proof.
  assert (One : forall n t rest q pre, (left_ t (length p) <= n)%nat -> exists schedule t' q', t' = Finished /\
     run_pool E ig p schedule (pre ++ t :: rest) q = (pre ++ t' :: rest, q')).
  { induction n as [|n IH]; intros t rest q0 pre Hn.
    - destruct t; cbn [left_] in Hn; try lia. exists [], Finished, q0. split; reflexivity.
    - destruct t as [f|f todo s r|]; [| |exists [], Finished, q0; split; reflexivity].
      + destruct (IH (fst (advance E ig p (Waiting f))) rest (q0 ++ snd (advance E ig p (Waiting f))) pre) as (sc & t' & q' & Ht & Hr).
        { cbn [advance]. destruct (e_load E f); cbn [fst left_]; cbn [left_] in Hn; lia. }
        exists (length pre :: sc), t', q'. split; [exact Ht|]. cbn [run_pool]. rewrite nth_error_app2, Nat.sub_diag by lia. cbn [nth_error].
        destruct (advance E ig p (Waiting f)) as [t1 o1]. cbn [fst snd] in Hr. rewrite <- Hr. f_equal.
        clear. induction pre as [|x pre IHp]; [reflexivity|]. cbn [length app update_at]. f_equal. exact IHp.
      + destruct (IH (fst (advance E ig p (Running f todo s r))) rest (q0 ++ snd (advance E ig p (Running f todo s r))) pre) as (sc & t' & q' & Ht & Hr).
        { cbn [advance left_] in *. destruct todo as [|st todo]; cbn [fst left_ length] in *; [lia|].
          destruct (exec_step E ig st s r) as [[s1 r1]|e]; cbn [fst left_]; lia. }
        exists (length pre :: sc), t', q'. split; [exact Ht|]. cbn [run_pool]. rewrite nth_error_app2, Nat.sub_diag by lia. cbn [nth_error].
        destruct (advance E ig p (Running f todo s r)) as [t1 o1]. cbn [fst snd] in Hr. rewrite <- Hr. f_equal.
        clear. induction pre as [|x pre IHp]; [reflexivity|]. cbn [length app update_at]. f_equal. exact IHp. }
  assert (Runs : forall a b ts q, run_pool E ig p (a ++ b) ts q = run_pool E ig p b (fst (run_pool E ig p a ts q)) (snd (run_pool E ig p a ts q))).
  { clear. induction a as [|i a IH]; intros b ts q; [reflexivity|]. cbn [app run_pool]. destruct (nth_error ts i); [|apply IH].
    destruct (advance E ig p t). apply IH. }
  assert (G : forall rest pre q, all_finished pre -> exists schedule, all_finished (fst (run_pool E ig p schedule (pre ++ rest) q))).
  { induction rest as [|t rest IH]; intros pre q0 Hp.
    - exists []. rewrite app_nil_r. exact Hp.
    - destruct (One _ t rest q0 pre (le_n _)) as (sc & t' & q' & -> & Hr).
      destruct (IH (pre ++ [Finished]) q') as (sc2 & H2).
      { intros x Hx. apply in_app_or in Hx. destruct Hx as [Hx|[<-|[]]]; [apply Hp; exact Hx|reflexivity]. }
      exists (sc ++ sc2). rewrite Runs, Hr. cbn [fst snd]. rewrite <- app_assoc in H2. exact H2. }
  apply (G ts [] q). intros t [].
Qed.
(** If every file can be processed: one row per file, on_file_complete once per row, rows independent of schedule and of other files. *)
Theorem C61_rows (E : env) (steps : list step) ig ch files mp out (row : File -> dict V) :
  steps <> [] -> (forall f, In f files -> task E steps ig ch f = Ok (row f)) ->
  executes E steps ig ch files mp out ->
  exists order, Permutation order files /\ out = (Ok (map row order), map row order) /\ (mp = false -> order = files).
Proof.
  intros Hs Hr H.
  assert (S1 : forall order, (forall f, In f order -> In f files) -> sequential E steps ig ch order = (Ok (map row order), map row order)).
  { induction order as [|f order IH]; intros Hin; cbn [sequential map]; [reflexivity|]. rewrite (Hr f) by (apply Hin; left; reflexivity).
    rewrite IH by (intros x Hx; apply Hin; right; exact Hx). reflexivity. }
  destruct mp.
  - destruct (C61_pool _ _ _ _ _ _ H) as [[E0 _]|(order & P & ->)]; [contradiction|]. exists order. split; [exact P|].
    split; [apply S1; intros f Hf; eapply Permutation_in; eassumption|discriminate].
  - inversion H as [mp0 Hs0|Hs0|]; subst; [contradiction|]. exists files. split; [apply Permutation_refl|]. split; [apply S1; auto|reflexivity].
Qed.
(** If something fails, execute raises the error of one of the files; on_file_complete has been called only with finished rows. *)
Theorem C61_failure (E : env) (steps : list step) ig ch files mp e calls :
  steps <> [] -> executes E steps ig ch files mp (Err e, calls) ->
  (exists f, In f files /\ task E steps ig ch f = Err e) /\ (forall d, In d calls -> exists f, In f files /\ task E steps ig ch f = Ok d) /\ (length calls < length files)%nat.
Proof.
  intros Hs H.
  assert (S1 : forall order calls, sequential E steps ig ch order = (Err e, calls) -> (exists f, In f order /\ task E steps ig ch f = Err e) /\
     (forall d, In d calls -> exists f, In f order /\ task E steps ig ch f = Ok d) /\ (length calls < length order)%nat).
  { clear H. induction order as [|f order IH]; intros c0 H0; cbn [sequential] in H0; [discriminate|].
    destruct (task E steps ig ch f) as [d|e1] eqn:Et.
    - destruct (sequential E steps ig ch order) as [r c1]. destruct r as [l|e1]; cbn [rmap] in H0; [discriminate|].
      assert (e1 = e /\ c0 = d :: c1) as [-> ->] by (split; congruence). destruct (IH c1 eq_refl) as ((g & Hg & Eg) & Hc & L).
      split; [exists g; split; [right|]; assumption|]. split; [|cbn [length]; lia].
      intros x [<-|Hx]; [exists f; split; [left; reflexivity|exact Et]|]. destruct (Hc x Hx) as (h & Hh & Eh). exists h. split; [right|]; assumption.
    - assert (e1 = e /\ c0 = []) as [-> ->] by (split; congruence). split; [exists f; split; [left; reflexivity|exact Et]|]. split; [intros d []|cbn; lia]. }
  destruct mp.
  - destruct (C61_pool _ _ _ _ _ _ H) as [[E0 _]|(order & P & E1)]; [contradiction|]. symmetry in E1.
    destruct (S1 order calls E1) as ((g & Hg & Eg) & Hc & L). split; [exists g; split; [eapply Permutation_in; eassumption|exact Eg]|].
    split; [|rewrite <- (Permutation_length P); exact L]. intros d Hd. destruct (Hc d Hd) as (h & Hh & Eh). exists h. split; [eapply Permutation_in; eassumption|exact Eh].
  - inversion H; subst; [contradiction|]. apply S1. assumption.
Qed.

(** *** C61: the values in a row are those obtained by hand.  [by_hand pre s s']: calling the methods of the steps one after another
    on a surface [s] leaves the surface [s']; parameters whose calculation fails are skipped. *)
Inductive by_hand (E : env) : list step -> St -> St -> Prop :=
  | bh_nil s : by_hand E [] s s
  | bh_op ident args kwargs l m v s s1 s2 : e_methods E ident = Some m -> m_call m args kwargs s = (Ok v, s1) -> by_hand E l s1 s2 ->
      by_hand E (SOp ident args kwargs :: l) s s2
  | bh_cop f l s s1 s2 : co_run f s = (Ok tt, s1) -> by_hand E l s1 s2 -> by_hand E (SCustomOp f :: l) s s2
  | bh_par ident name args kwargs l m r s s1 s2 : e_methods E ident = Some m -> m_call m args kwargs s = (r, s1) ->
      (exists v, r = Ok v) \/ r = Err CalculationError -> by_hand E l s1 s2 -> by_hand E (SPar ident name args kwargs :: l) s s2
  | bh_cpar f l d s s1 s2 : cp_run f s = (Ok d, s1) -> by_hand E l s1 s2 -> by_hand E (SCustomPar f :: l) s s2.
(** the columns a step can write *)
Definition may_write (E : env) (st : step) (c : string) : Prop :=
  match st with
  | SPar ident name _ _ => c = name \/ exists m ls l, e_methods E ident = Some m /\ m_labels m = Some ls /\ In l ls /\ c = (name ++ "_" ++ l)%string
  | SCustomPar f => exists s d s', cp_run f s = (Ok d, s') /\ In c (map fst d)
  | _ => False
  end.
Lemma keys_dupdate {A} (e : dict A) : forall d c, In c (map fst (dupdate d e)) -> In c (map fst d) \/ In c (map fst e).
Proof.
  unfold dupdate. induction e as [|[a b] e IH]; intros d c H; cbn [fold_left map fst snd] in *; [left; exact H|].
  destruct (IH _ _ H) as [H1|H1]; [|right; right; exact H1]. rewrite keys_dset in H1. destruct (existsb (String.eqb a) (map fst d)); [left; exact H1|].
  apply in_app_or in H1. destruct H1 as [H1|[<-|[]]]; [left; exact H1|right; left; reflexivity].
Qed.
Lemma fst_combine_in {A B} (a : list A) (b : list B) x : In x (map fst (combine a b)) -> In x a.
Proof. intros H. apply in_map_iff in H. destruct H as ([u w] & <- & H). apply in_combine_l in H. exact H. Qed.
Lemma label_keys name labels v (d : dict V) : label name labels v = Ok d -> forall c, In c (map fst d) ->
  c = name \/ exists ls l, labels = Some ls /\ In l ls /\ c = (name ++ "_" ++ l)%string.
Proof.
  destruct v as [x|xs]; cbn [label]; intros H c Hc.
  - assert (d = [(name, x)]) by congruence. subst d. destruct Hc as [<-|[]]. left. reflexivity.
  - destruct labels as [ls|]; [|discriminate]. destruct (Nat.eqb (length xs) (length ls)); [|discriminate].
    assert (E : d = dupdate [] (combine (map (fun l => (name ++ "_" ++ l)%string) ls) xs)) by congruence. rewrite E in Hc.
    apply keys_dupdate in Hc. destruct Hc as [[]|Hc]. apply fst_combine_in in Hc. apply in_map_iff in Hc. destruct Hc as (l & <- & Hl).
    right. exists ls, l. auto.
Qed.
Lemma step_writes_keys (E : env) ig st s s' d : step_writes E ig st s = Ok (s', d) -> forall c, In c (map fst d) -> may_write E st c.
Proof.
  destruct st as [i a k|i n a k|f|f]; cbn [step_writes may_write]; intros H c Hc.
  - destruct (execute_on E (SOp i a k) s) as [[u|e] s1]; [|discriminate]. assert (d = []) by congruence. subst d. destruct Hc.
  - unfold calculate_from in H. destruct (e_methods E i) as [m|] eqn:Em; [|discriminate].
    assert (K : forall v, label n (m_labels m) v = Ok d -> c = n \/ exists m0 ls l, Some m = Some m0 /\ m_labels m0 = Some ls /\ In l ls /\ c = (n ++ "_" ++ l)%string).
    { intros v Hl. destruct (label_keys _ _ _ _ Hl c Hc) as [->|(ls & l & H1 & H2 & H3)]; [left; reflexivity|right; exists m, ls, l; auto]. }
    destruct (m_call m a k s) as [[v|e] s1].
    + destruct (label n (m_labels m) v) as [d1|] eqn:El; [|discriminate]. apply (K v). congruence.
    + destruct e; try discriminate H. destruct ig; [|discriminate].
      destruct (label n (m_labels m) _) as [d1|] eqn:El in H; [|discriminate]. eapply K. rewrite El. congruence.
  - unfold calculate_custom in H. destruct (cp_run f s) as [[d1|e] s1] eqn:Ef.
    + exists s, d1, s1. assert (d1 = d) by congruence. subst d1. auto.
    + destruct e; discriminate.
  - destruct (execute_on E (SCustomOp f) s) as [[u|e] s1]; [|discriminate]. assert (d = []) by congruence. subst d. destruct Hc.
Qed.
Lemma writes_keys (E : env) ig l : forall s s' d, writes E ig l s = Ok (s', d) -> forall c, In c (map fst d) -> exists st, In st l /\ may_write E st c.
Proof.
  induction l as [|st l IH]; intros s s' d H c Hc; cbn [writes] in H.
  - assert (d = []) by congruence. subst d. destruct Hc.
  - destruct (step_writes E ig st s) as [[s1 d1]|e] eqn:E1; [|discriminate]. cbn [rbind fst snd] in H.
    destruct (writes E ig l s1) as [[s2 d2]|e] eqn:E2; [|discriminate]. cbn [rmap fst snd] in H. assert (Ed : d = d1 ++ d2) by congruence. rewrite Ed, map_app in Hc.
    apply in_app_or in Hc. destruct Hc as [Hc|Hc].
    + exists st. split; [left; reflexivity|]. eapply step_writes_keys; eassumption.
    + destruct (IH _ _ _ E2 c Hc) as (x & Hx & Hw). exists x. split; [right|]; assumption.
Qed.
Lemma writes_by_hand (E : env) ig l : forall s s' d, writes E ig l s = Ok (s', d) -> by_hand E l s s'.
Proof.
  induction l as [|st l IH]; intros s s' d H; cbn [writes] in H.
  - assert (s' = s) by congruence. subst s'. constructor.
  - destruct (step_writes E ig st s) as [[s1 d1]|e] eqn:E1; [|discriminate]. cbn [rbind fst snd] in H.
    destruct (writes E ig l s1) as [[s2 d2]|e] eqn:E2; [|discriminate]. cbn [rmap fst snd] in H. assert (s2 = s') by congruence. subst s2.
    specialize (IH _ _ _ E2). destruct st as [i a k|i n a k|f|f]; cbn [step_writes execute_on] in E1.
    + destruct (e_methods E i) as [m|] eqn:Em; [|discriminate]. destruct (m_call m a k s) as [[v|e] s0] eqn:Ec; [|discriminate].
      assert (s0 = s1) by congruence. subst s0. eapply bh_op; eassumption.
    + unfold calculate_from in E1. destruct (e_methods E i) as [m|] eqn:Em; [|discriminate]. destruct (m_call m a k s) as [[v|e] s0] eqn:Ec.
      * destruct (label n (m_labels m) v) as [d0|]; [|discriminate]. assert (s0 = s1) by congruence. subst s0.
        eapply bh_par; [eassumption|eassumption|left; exists v; reflexivity|eassumption].
      * destruct e; try discriminate E1. destruct ig; [|discriminate].
        destruct (label n (m_labels m) _) as [d0|] in E1; [|discriminate]. assert (s0 = s1) by congruence. subst s0.
        eapply bh_par; [eassumption|eassumption|right; reflexivity|eassumption].
    + unfold calculate_custom in E1. destruct (cp_run f s) as [[d0|e] s0] eqn:Ef.
      * assert (s0 = s1) by congruence. subst s0. eapply bh_cpar; eassumption.
      * destruct e; discriminate.
    + destruct (co_run f s) as [[[]|e] s0] eqn:Ef; [|discriminate]. assert (s0 = s1) by congruence. subst s0. eapply bh_cop; eassumption.
Qed.
Lemma task_inv (E : env) (steps : list step) ig ch f row : task E steps ig ch f = Ok row ->
  exists s s' d, e_load E f = Ok s /\ writes E ig (plan steps ch) s = Ok (s', d) /\ row = dupdate [("file", e_name E f)] d.
Proof.
  rewrite task_plan. destruct (e_load E f) as [s|e]; [|discriminate]. cbn [rbind]. rewrite exec_steps_writes.
  destruct (writes E ig (plan steps ch) s) as [[s' d]|e] eqn:Ew; [|discriminate]. cbn [rmap fst snd]. intros H. exists s, s', d. repeat split; congruence.
Qed.
Lemma dget_update_last (r a x b : dict V) c : NoDup (map fst x) -> ~ In c (map fst b) -> In c (map fst x) -> dget c (dupdate r (a ++ x ++ b)) = dget c x.
Proof.
  intros Hn Hb Hx. rewrite dget_dupdate, !rev_app_distr.
  assert (A : forall u w : dict V, dget c (u ++ w) = match dget c u with Some v => Some v | None => dget c w end).
  { clear. induction u as [|[k v] u IH]; intros w; cbn [app dget]; [reflexivity|]. destruct (String.eqb c k); [reflexivity|apply IH]. }
  assert (Zb : dget c (rev b) = None) by (apply dget_none; rewrite map_rev; intros H; apply Hb; apply in_rev; exact H).
  rewrite !A, Zb, (dget_rev c x Hn). destruct (dget c x) eqn:Ed; [reflexivity|]. apply dget_none in Ed. contradiction.
Qed.
Lemma NoDup_dset {A} k (v : A) d : NoDup (map fst d) -> NoDup (map fst (dset k v d)).
Proof.
  intros H. rewrite keys_dset. destruct (existsb (String.eqb k) (map fst d)) eqn:Ex; [exact H|]. apply NoDup_snoc; [exact H|]. intros Hi.
  assert (existsb (String.eqb k) (map fst d) = true) by (apply existsb_exists; exists k; split; [exact Hi|apply String.eqb_refl]). congruence.
Qed.
Lemma NoDup_dupdate {A} (e : dict A) : forall d, NoDup (map fst d) -> NoDup (map fst (dupdate d e)).
Proof. unfold dupdate. induction e as [|[a b] e IH]; intros d H; cbn [fold_left]; [exact H|]. apply IH. apply NoDup_dset. exact H. Qed.
Lemma label_nodup name labels v (d : dict V) : label name labels v = Ok d -> NoDup (map fst d).
Proof.
  destruct v as [x|xs]; cbn [label]; intros H.
  - assert (d = [(name, x)]) by congruence. subst d. repeat constructor. intros [].
  - destruct labels as [ls|]; [|discriminate]. destruct (Nat.eqb (length xs) (length ls)); [|discriminate].
    assert (Ed : d = dupdate [] (combine (map (fun l => (name ++ "_" ++ l)%string) ls) xs)) by congruence. rewrite Ed. apply NoDup_dupdate. constructor.
Qed.
(** the entry of a parameter: the surface is the one the earlier steps leave, the value is that of the direct call *)
Lemma task_split (E : env) (steps : list step) ig ch f row pre ident name args kwargs post :
  task E steps ig ch f = Ok row -> plan steps ch = pre ++ SPar ident name args kwargs :: post ->
  exists s s1 s2 d, e_load E f = Ok s /\ by_hand E pre s s1 /\ calculate_from E ident name args kwargs ig s1 = (Ok d, s2) /\
    (forall c, (forall st, In st post -> ~ may_write E st c) -> In c (map fst d) -> dget c row = dget c d).
Proof.
  intros H Hp. destruct (task_inv _ _ _ _ _ _ H) as (s & s' & d & Hl & Hw & ->). rewrite Hp, writes_app in Hw.
  destruct (writes E ig pre s) as [[s1 d1]|e] eqn:E1; [|discriminate]. cbn [rbind fst snd] in Hw.
  cbn [writes step_writes] in Hw. destruct (calculate_from E ident name args kwargs ig s1) as [[d2|e] s2] eqn:E2; [|discriminate].
  cbn [rbind fst snd] in Hw. destruct (writes E ig post s2) as [[s3 d3]|e] eqn:E3; [|discriminate]. cbn [rmap fst snd] in Hw.
  assert (Ed : d = d1 ++ d2 ++ d3) by congruence. exists s, s1, s2, d2. split; [exact Hl|]. split; [eapply writes_by_hand; exact E1|]. split; [exact E2|].
  intros c Hc Hi. rewrite Ed. apply dget_update_last; [| |exact Hi].
  - unfold calculate_from in E2. destruct (e_methods E ident) as [m|]; [|discriminate]. destruct (m_call m args kwargs s1) as [[v|e] s0].
    + eapply label_nodup. assert (El : label name (m_labels m) v = Ok d2) by congruence. exact El.
    + destruct e; try discriminate E2. destruct ig; [|discriminate]. eapply label_nodup. apply (f_equal fst) in E2. cbn [fst] in E2. exact E2.
  - intros Hj. destruct (writes_keys _ _ _ _ _ _ E3 c Hj) as (st & Hs & Hw2). exact (Hc st Hs Hw2).
Qed.
Theorem C61_value (E : env) (steps : list step) ig ch f row pre ident name args kwargs post :
  task E steps ig ch f = Ok row -> plan steps ch = pre ++ SPar ident name args kwargs :: post ->
  (forall st, In st post -> ~ may_write E st name) ->
  exists s s1 m r s2, e_load E f = Ok s /\ by_hand E pre s s1 /\ e_methods E ident = Some m /\ m_call m args kwargs s1 = (r, s2) /\
    (forall v, r = Ok (Scalar v) -> dget name row = Some v).
Proof.
  intros H Hp Hn. destruct (task_split _ _ _ _ _ _ _ _ _ _ _ _ H Hp) as (s & s1 & s2 & d & Hl & Hb & Hc & Hv).
  unfold calculate_from in Hc. destruct (e_methods E ident) as [m|]; [|discriminate]. destruct (m_call m args kwargs s1) as [r s3] eqn:Em.
  exists s, s1, m, r, s3. repeat split; try assumption. intros v ->. cbn [label] in Hc. assert (d = [(name, v)]) by congruence. subst d.
  rewrite (Hv name Hn (or_introl eq_refl)). cbn [dget]. rewrite String.eqb_refl. reflexivity.
Qed.
(** methods with several return values: one column per label *)
Lemma append_inj_l a : forall b c, (a ++ b)%string = (a ++ c)%string -> b = c.
Proof. induction a as [|x a IH]; intros b c H; [exact H|]. apply IH. cbn [String.append] in H. congruence. Qed.
Lemma labelled_keys (name : string) ls : NoDup ls -> NoDup (map (fun l => (name ++ "_" ++ l)%string) ls).
Proof.
  induction 1 as [|l ls Hl H IH]; [constructor|]. cbn [map]. constructor; [|exact IH]. intros Hi. apply in_map_iff in Hi. destruct Hi as (l2 & E & H2).
  apply append_inj_l in E. apply append_inj_l in E. subst l2. contradiction.
Qed.
Lemma dupdate_fresh {A} (e : dict A) : forall d, NoDup (map fst d ++ map fst e) -> dupdate d e = d ++ e.
Proof.
  unfold dupdate. induction e as [|[a b] e IH]; intros d H; cbn [fold_left fst snd]; [symmetry; apply app_nil_r|].
  cbn [map fst] in H.
  assert (Hd : dset a b d = d ++ [(a, b)]).
  { assert (Ha : ~ In a (map fst d)) by (apply NoDup_remove_2 in H; intros Hi; apply H; apply in_or_app; left; exact Hi). clear -Ha.
    induction d as [|[k v] d IHd]; [reflexivity|]. cbn [dset app]. cbn [map fst In] in Ha. destruct (String.eqb_spec a k) as [->|N]; [destruct Ha; left; reflexivity|].
    rewrite IHd by (intros Hi; apply Ha; right; exact Hi). reflexivity. }
  rewrite Hd, IH; [rewrite <- app_assoc; reflexivity|]. rewrite map_app, <- app_assoc. exact H.
Qed.
Lemma combine_fst {A B} (a : list A) (b : list B) : length a = length b -> map fst (combine a b) = a.
Proof. revert b. induction a as [|x a IH]; intros [|y b] H; try discriminate H; [reflexivity|]. cbn [combine map fst]. f_equal. apply IH. cbn in H. lia. Qed.
Lemma label_many name ls (xs : list V) : NoDup ls -> length xs = length ls ->
  label name (Some ls) (Many xs) = Ok (combine (map (fun l => (name ++ "_" ++ l)%string) ls) xs).
Proof.
  intros Hn Hl. cbn [label]. rewrite Hl, Nat.eqb_refl. rewrite dupdate_fresh; [reflexivity|]. cbn [map app]. rewrite combine_fst by (rewrite map_length; lia).
  apply labelled_keys. exact Hn.
Qed.
Theorem C61_values (E : env) (steps : list step) ig ch f row pre ident name args kwargs post m ls :
  task E steps ig ch f = Ok row -> plan steps ch = pre ++ SPar ident name args kwargs :: post ->
  e_methods E ident = Some m -> m_labels m = Some ls -> NoDup ls ->
  (forall st l, In st post -> In l ls -> ~ may_write E st (name ++ "_" ++ l)%string) ->
  exists s s1 r s2, e_load E f = Ok s /\ by_hand E pre s s1 /\ m_call m args kwargs s1 = (r, s2) /\
    (forall xs, r = Ok (Many xs) -> length xs = length ls /\ forall i l x, nth_error ls i = Some l -> nth_error xs i = Some x -> dget (name ++ "_" ++ l)%string row = Some x).
Proof.
  intros H Hp Hm Hls Hnd Hn. destruct (task_split _ _ _ _ _ _ _ _ _ _ _ _ H Hp) as (s & s1 & s2 & d & Hl & Hb & Hc & Hv).
  unfold calculate_from in Hc. rewrite Hm in Hc. destruct (m_call m args kwargs s1) as [r s3] eqn:Em.
  exists s, s1, r, s3. repeat split; try assumption.
  - subst r. rewrite Hls in Hc. cbn [label] in Hc. destruct (Nat.eqb_spec (length xs) (length ls)); [assumption|discriminate].
  - subst r. rewrite Hls in Hc. intros i l x Hi Hx.
    assert (L : length xs = length ls) by (cbn [label] in Hc; destruct (Nat.eqb_spec (length xs) (length ls)); [assumption|discriminate]).
    rewrite (label_many _ _ _ Hnd L) in Hc. assert (Ed : d = combine (map (fun l => (name ++ "_" ++ l)%string) ls) xs) by congruence.
    assert (Hk : map fst d = map (fun l => (name ++ "_" ++ l)%string) ls) by (rewrite Ed; apply combine_fst; rewrite map_length; lia).
    rewrite Hv.
    + apply dget_nodup; [rewrite Hk; apply labelled_keys; exact Hnd|]. rewrite Ed. clear -Hi Hx. revert xs i Hi Hx.
      induction ls as [|l0 ls IH]; intros [|x0 xs] [|i] Hi Hx; try discriminate; cbn [map combine].
      * left. cbn in Hi, Hx. congruence.
      * right. apply (IH xs i); assumption.
    + intros st Hs. apply Hn; [exact Hs|]. eapply nth_error_In; exact Hi.
    + rewrite Hk. apply (in_map (fun l => (name ++ "_" ++ l)%string)). eapply nth_error_In; exact Hi.
Qed.
Theorem C61_file_column (E : env) (steps : list step) ig ch f row : task E steps ig ch f = Ok row ->
  (forall st, In st steps -> ~ may_write E st "file") -> dget "file" row = Some (e_name E f).
Proof.
  intros H Hn. destruct (task_inv _ _ _ _ _ _ H) as (s & s' & d & Hl & Hw & ->). rewrite dget_dupdate.
  assert (Z0 : dget "file" (rev d) = None).
  { apply dget_none. rewrite map_rev. intros Hi. apply in_rev in Hi. destruct (writes_keys _ _ _ _ _ _ Hw _ Hi) as (st & Hs & Hw2). apply (Hn st); [|exact Hw2].
    unfold plan in Hs. destruct ch; [exact Hs|]. apply in_app_or in Hs. destruct Hs as [Hs|Hs]; apply filter_In in Hs; apply Hs. }
  rewrite Z0. reflexivity.
Qed.

Lemma by_hand_det (E : env) l a b b' : by_hand E l a b -> by_hand E l a b' -> b = b'.
Proof.
  intros H. revert b'. induction H; intros b' H'; inversion H'; subst; try reflexivity; apply IHby_hand; congruence || (match goal with X : _ = (_, ?u), Y : _ = (_, ?w) |- by_hand E _ ?u _ => assert (w = u) by congruence; subst; assumption end).
Qed.

(** *** C62: the error policy *)
(** a failing calculation yields NaN in the columns of that parameter *)
Theorem C62_nan (E : env) (steps : list step) ch f row pre ident name args kwargs post m s s1 s2 :
  task E steps true ch f = Ok row -> plan steps ch = pre ++ SPar ident name args kwargs :: post ->
  e_methods E ident = Some m -> e_load E f = Ok s -> by_hand E pre s s1 -> m_call m args kwargs s1 = (Err CalculationError, s2) ->
  forall c, (match m_labels m with None => c = name | Some ls => exists l, In l ls /\ c = (name ++ "_" ++ l)%string end) ->
  (forall st, In st post -> ~ may_write E st c) -> dget c row = Some (e_nan E).
Proof.
  intros H Hp Hm Hl Hb Hc c Hcol Hn. destruct (task_split _ _ _ _ _ _ _ _ _ _ _ _ H Hp) as (s0 & s10 & s20 & d & Hl0 & Hb0 & Hc0 & Hv).
  assert (s0 = s) by congruence. subst s0.
  assert (s10 = s1) by (eapply by_hand_det; eassumption). subst s10. unfold calculate_from in Hc0. rewrite Hm, Hc in Hc0.
  destruct (m_labels m) as [ls|] eqn:Els.
  - destruct Hcol as (l & Hil & ->). cbn [label] in Hc0. rewrite repeat_length, Nat.eqb_refl in Hc0.
    assert (Ed : d = dupdate [] (combine (map (fun l => (name ++ "_" ++ l)%string) ls) (repeat (e_nan E) (length ls)))) by congruence.
    assert (Hk : dget (name ++ "_" ++ l)%string d = Some (e_nan E)).
    { rewrite Ed, dget_dupdate. cbn [dget]. set (x := combine _ _).
      assert (X1 : In (name ++ "_" ++ l)%string (map fst (rev x))).
      { rewrite map_rev. apply -> in_rev. unfold x. rewrite combine_fst by (rewrite map_length, repeat_length; reflexivity). apply (in_map (fun l => (name ++ "_" ++ l)%string)). exact Hil. }
      destruct (dget (name ++ "_" ++ l)%string (rev x)) as [v|] eqn:Eg; [|apply dget_none in Eg; contradiction].
      apply dget_in in Eg. apply in_rev in Eg. apply in_combine_r in Eg. apply repeat_spec in Eg. subst v. reflexivity. }
    rewrite Hv; [exact Hk|exact Hn|]. apply dget_in in Hk. apply in_map_iff. exists ((name ++ "_" ++ l)%string, e_nan E). auto.
  - subst c. cbn [label] in Hc0. assert (Ed : d = [(name, e_nan E)]) by congruence. rewrite Hv; [|exact Hn|rewrite Ed; left; reflexivity].
    rewrite Ed. cbn [dget]. rewrite String.eqb_refl. reflexivity.
Qed.
(** nothing else changes: the other columns are those of the batch without that parameter *)
Theorem C62_rest (E : env) (steps : list step) f row pre ident name args kwargs post m s s1 :
  task E steps true true f = Ok row -> steps = pre ++ SPar ident name args kwargs :: post ->
  e_methods E ident = Some m -> e_load E f = Ok s -> by_hand E pre s s1 -> m_call m args kwargs s1 = (Err CalculationError, s1) ->
  exists row', task E (pre ++ post) true true f = Ok row' /\ forall c, ~ may_write E (SPar ident name args kwargs) c -> dget c row = dget c row'.
Proof.
  intros H -> Hm Hl Hb Hc. destruct (task_inv _ _ _ _ _ _ H) as (s0 & s' & d & Hl0 & Hw & ->). assert (s0 = s) by congruence. subst s0.
  cbn [plan] in Hw. rewrite writes_app in Hw. destruct (writes E true pre s) as [[s10 d1]|e] eqn:E1; [|discriminate]. cbn [rbind fst snd] in Hw.
  assert (s10 = s1) by (eapply by_hand_det; [eapply writes_by_hand; exact E1|exact Hb]). subst s10.
  cbn [writes] in Hw. destruct (step_writes E true (SPar ident name args kwargs) s1) as [[s2 d2]|e] eqn:E2; [|discriminate]. cbn [rbind fst snd] in Hw.
  assert (s2 = s1). { cbn [step_writes] in E2. unfold calculate_from in E2. rewrite Hm, Hc in E2. destruct (label name (m_labels m) _) as [x|] in E2; [congruence|discriminate]. }
  subst s2. destruct (writes E true post s1) as [[s3 d3]|e] eqn:E3; [|discriminate]. cbn [rmap fst snd] in Hw. assert (Ed : d = d1 ++ d2 ++ d3) by congruence.
  exists (dupdate [("file", e_name E f)] (d1 ++ d3)). split.
  - rewrite task_plan, Hl. cbn [rbind plan]. rewrite exec_steps_writes, writes_app, E1. cbn [rbind fst snd]. rewrite E3. reflexivity.
  - intros c Hcw. rewrite Ed, !dget_dupdate, !rev_app_distr.
    assert (A : forall u w : dict V, dget c (u ++ w) = match dget c u with Some v => Some v | None => dget c w end).
    { clear. induction u as [|[k v] u IH]; intros w; cbn [app dget]; [reflexivity|]. destruct (String.eqb c k); [reflexivity|apply IH]. }
    assert (Z2 : dget c (rev d2) = None).
    { apply dget_none. rewrite map_rev. intros Hi. apply in_rev in Hi. apply Hcw. eapply step_writes_keys; eassumption. }
    rewrite !A, Z2. destruct (dget c (rev d3)); reflexivity.
Qed.
(** ignore_errors=False: if the earlier steps succeed, the first failing calculation is raised *)
Theorem C62_raise (E : env) f pre ident name args kwargs post m s s1 s2 row0 :
  task E pre false true f = Ok row0 ->
  e_methods E ident = Some m -> e_load E f = Ok s -> by_hand E pre s s1 -> m_call m args kwargs s1 = (Err CalculationError, s2) ->
  task E (pre ++ SPar ident name args kwargs :: post) false true f = Err CalculationError.
Proof.
  intros H0 Hm Hl Hb Hc. destruct (task_inv _ _ _ _ _ _ H0) as (s0 & s10 & d & Hl0 & Hw & _). assert (s0 = s) by congruence. subst s0. cbn [plan] in Hw.
  assert (s10 = s1) by (eapply by_hand_det; [eapply writes_by_hand; exact Hw|exact Hb]). subst s10.
  rewrite task_plan, Hl. cbn [rbind plan]. rewrite exec_steps_writes, writes_app, Hw. cbn [rbind writes step_writes fst snd].
  unfold calculate_from. rewrite Hm, Hc. reflexivity.
Qed.
(** conversely, when nothing fails both policies agree *)
Theorem C62_policies_agree (E : env) (steps : list step) ch f row : task E steps false ch f = Ok row -> task E steps true ch f = Ok row.
Proof.
  rewrite !task_plan. destruct (e_load E f) as [s|e]; [|discriminate]. cbn [rbind]. rewrite !exec_steps_writes.
  assert (G : forall l s p, writes E false l s = Ok p -> writes E true l s = Ok p).
  { clear. induction l as [|st l IH]; intros s p H; cbn [writes] in *; [exact H|].
    assert (S1 : forall q, step_writes E false st s = Ok q -> step_writes E true st s = Ok q).
    { clear. intros q H. destruct st as [i a k|i n a k|f|f]; cbn [step_writes] in *; try exact H.
      - unfold calculate_from in *. destruct (e_methods E i) as [m|]; [|exact H]. destruct (m_call m a k s) as [[v|[]] s1]; try exact H. discriminate.
      - unfold calculate_custom in *. destruct (cp_run f s) as [[v|[]] s1]; try exact H. discriminate. }
    destruct (step_writes E false st s) as [q|e]; [|discriminate]. rewrite (S1 q eq_refl). cbn [rbind] in *.
    destruct (writes E false l (fst q)) as [x|e] eqn:Ex; [|discriminate]. rewrite (IH _ _ Ex). exact H. }
  destruct (writes E false (plan steps ch) s) as [p|e] eqn:Ew; [|discriminate]. rewrite (G _ _ _ Ew). auto.
Qed.

(** *** C63: columns *)
(** parameters with a single return value and no custom functions; no parameter is called "file" *)
Definition plain_step (E : env) (st : step) : Prop :=
  match st with
  | SPar ident name _ _ => name <> "file" /\ forall m, e_methods E ident = Some m -> m_labels m = None
  | SCustomPar _ => False
  | _ => True
  end.
Theorem C63_plain_partial (E : env) (cs : list call) rs steps :
  history E [] cs = (rs, steps) -> (forall st, In st steps -> plain_step E st) ->
  (forall st, In st steps -> ~ may_write E st "file") /\
  (forall i j si sj c, nth_error steps i = Some si -> nth_error steps j = Some sj -> may_write E si c -> may_write E sj c -> i = j).
Proof.
  intros Hh Hp. pose proof (C60_history E cs) as H0. rewrite Hh in H0. destruct H0 as [_ Hn]. clear Hh.
  assert (W : forall st c, In st steps -> may_write E st c -> step_name st = Some (NStr c) /\ c <> "file").
  { intros st c Hs Hw. specialize (Hp st Hs). destruct st as [i a k|i n a k|f|f]; cbn [may_write plain_step] in *; try contradiction.
    destruct Hp as [N Hm]. destruct Hw as [->|(m & ls & l & H1 & H2 & _)]; [split; [reflexivity|exact N]|]. rewrite (Hm m H1) in H2. discriminate. }
  split.
  - intros st Hs Hw. destruct (W st _ Hs Hw) as [_ N]. apply N. reflexivity.
  - intros i j si sj c Hi Hj Wi Wj.
    destruct (W si c (nth_error_In _ _ Hi) Wi) as [Ni _]. destruct (W sj c (nth_error_In _ _ Hj) Wj) as [Nj _].
    clear W Hp Wi Wj. revert i j Hi Hj. induction steps as [|st steps IH]; intros i j Hi Hj; [destruct i; discriminate|].
    assert (In1 : forall k x, nth_error steps k = Some x -> step_name x = Some (NStr c) -> In (NStr c) (registered steps)).
    { intros k x Hk Hx. unfold registered. apply in_flat_map. exists x. split; [eapply nth_error_In; exact Hk|rewrite Hx; left; reflexivity]. }
    change (registered (st :: steps)) with (match step_name st with Some n => [n] | None => [] end ++ registered steps) in Hn.
    destruct i as [|i], j as [|j]; cbn [nth_error] in Hi, Hj.
    + reflexivity.
    + exfalso. assert (st = si) by congruence. subst st. rewrite Ni in Hn. cbn [app] in Hn. apply NoDup_cons_iff in Hn. apply (proj1 Hn). eapply In1; eassumption.
    + exfalso. assert (st = sj) by congruence. subst st. rewrite Nj in Hn. cbn [app] in Hn. apply NoDup_cons_iff in Hn. apply (proj1 Hn). eapply In1; eassumption.
    + f_equal. apply IH; [|assumption|assumption]. destruct (step_name st); cbn [app] in Hn; [apply NoDup_cons_iff in Hn; apply Hn|exact Hn].
Qed.

(** *** C64: the table and additional data *)
Lemma columns_acc (rows : list (dict V)) : forall cs, let f := fold_left (fun cs r => fold_left (fun cs p => if existsb (String.eqb (fst p)) cs then cs else cs ++ [fst p]) r cs) in
  (forall c, In c (f rows cs) <-> In c cs \/ exists r, In r rows /\ In c (map fst r)) /\ (NoDup cs -> NoDup (f rows cs)).
Proof.
  assert (R : forall (r : dict V) cs, let g := fold_left (fun cs p => if existsb (String.eqb (fst p)) cs then cs else cs ++ [fst p]) in
     (forall c, In c (g r cs) <-> In c cs \/ In c (map fst r)) /\ (NoDup cs -> NoDup (g r cs))).
  { induction r as [|[k v] r IH]; intros cs; cbn [fold_left map fst In]; [split; [tauto|auto]|].
    destruct (IH (if existsb (String.eqb k) cs then cs else cs ++ [k])) as [I1 I2]. cbn zeta in *.
    assert (Ex : existsb (String.eqb k) cs = true <-> In k cs).
    { rewrite existsb_exists. split; [intros (x & Hx & E0); apply String.eqb_eq in E0; subst x; exact Hx|intros Hk; exists k; split; [exact Hk|apply String.eqb_refl]]. }
    split.
    - intros c. rewrite I1. destruct (existsb (String.eqb k) cs) eqn:Eb.
      + assert (In k cs) by (apply Ex; reflexivity). split; [tauto|]. intros [X|[<-|X]]; tauto.
      + rewrite in_app_iff. cbn [In]. tauto.
    - intros Hn. apply I2. destruct (existsb (String.eqb k) cs) eqn:Eb; [exact Hn|]. apply NoDup_snoc; [exact Hn|]. intros Hk. apply Ex in Hk. congruence. }
  induction rows as [|r rows IH]; intros cs; cbn [fold_left].
  - split; [|auto]. intros c. split; [tauto|]. intros [H|(r & [] & _)]. exact H.
  - destruct (R r cs) as [R1 R2]. cbn zeta in R1, R2. destruct (IH (fold_left (fun cs p => if existsb (String.eqb (fst p)) cs then cs else cs ++ [fst p]) r cs)) as [I1 I2].
    cbn zeta in I1, I2. split; [|auto]. intros c. rewrite I1, R1. split.
    + intros [[H|H]|(r' & H1 & H2)]; [tauto|right; exists r; split; [left; reflexivity|exact H]|right; exists r'; split; [right; exact H1|exact H2]].
    + intros [H|(r' & [<-|H1] & H2)]; [tauto|tauto|right; exists r'; auto].
Qed.
Lemma dget_tabulate (g : string -> V) cols c : dget c (map (fun c => (c, g c)) cols) = if existsb (String.eqb c) cols then Some (g c) else None.
Proof.
  induction cols as [|k cols IH]; cbn [map dget existsb]; [reflexivity|]. destruct (String.eqb_spec c k) as [->|]; [reflexivity|exact IH].
Qed.
Lemma existsb_eqb c cols : existsb (String.eqb c) cols = true <-> In c cols.
Proof. rewrite existsb_exists. split; [intros (x & Hx & E0); apply String.eqb_eq in E0; subst x; exact Hx|intros Hk; exists c; split; [exact Hk|apply String.eqb_refl]]. Qed.
(** The table without additional data: one row per result, every value in its column, NaN where a row has no such key. *)
Theorem C64_table (nan : V) (veqb : V -> V -> bool) (results : list (dict V)) :
  exists rows, construct_dataframe veqb nan None results = Ok rows /\ length rows = length results /\
  forall i r t, nth_error results i = Some r -> nth_error rows i = Some t ->
    forall c, (exists r', In r' results /\ In c (map fst r')) -> dget c t = Some (match dget c r with Some v => v | None => nan end).
Proof.
  eexists. split; [reflexivity|]. cbn [dataframe snd]. split; [apply map_length|]. intros i r t Hr Ht c Hc.
  rewrite nth_error_map, Hr in Ht. cbn [option_map] in Ht. assert (Et : t = map (fun c => (c, cell nan r c)) (columns results)) by congruence. rewrite Et, dget_tabulate.
  assert (Hin : In c (columns results)) by (unfold columns; apply (proj1 (columns_acc results [])); right; exact Hc).
  apply existsb_eqb in Hin. rewrite Hin. reflexivity.
Qed.
Section Merge.
Context (veqb : V -> V -> bool) (veqb_ok : forall a b, veqb a b = true <-> a = b) (nan : V).
(** additional data whose columns (other than "file") are not measured ones *)
Definition disjoint_columns (a m : list string) : Prop := forall c, In c a -> In c m -> c = "file".
Lemma in_others c l : In c (others l) <-> In c l /\ c <> "file".
Proof. unfold others. rewrite filter_In, negb_true_iff, String.eqb_neq. tauto. Qed.
Lemma renamed_disjoint other suffix c : (In c other -> c = "file") -> c <> "file" -> renamed (others other) suffix c = c.
Proof.
  intros H N. unfold renamed. destruct (existsb (String.eqb c) (others other)) eqn:Eb; [|reflexivity]. apply existsb_eqb in Eb. apply in_others in Eb. destruct Eb as [E1 E2]. elim N. apply H. exact E1.
Qed.
Definition merged (cl cr : list string) (l r : dict V) : dict V := map (fun c => (c, cell nan l c)) cl ++ map (fun c => (c, cell nan r c)) (others cr).
Lemma merge_rows_eq cl cr L R : disjoint_columns cl cr ->
  merge_rows veqb nan (cl, L) (cr, R) = flat_map (fun l => map (merged cl cr l) (filter (fun r => veqb (cell nan l "file") (cell nan r "file")) R)) L.
Proof.
  intros Hd. unfold merge_rows. cbn [fst snd]. apply flat_map_ext. intros l. induction R as [|r R IH]; [reflexivity|]. cbn [flat_map filter].
  destruct (veqb (cell nan l "file") (cell nan r "file")); cbn [app map]; rewrite IH; [|reflexivity]. f_equal. unfold merged. f_equal.
  - apply map_ext_in. intros c Hc. f_equal. destruct (String.eqb_spec c "file") as [->|N]; [reflexivity|]. apply renamed_disjoint; [intros H; apply Hd; assumption|exact N].
  - apply map_ext_in. intros c Hc. apply in_others in Hc. f_equal. apply renamed_disjoint; [intros H; apply Hd; tauto|apply Hc].
Qed.
(** Exactly the pairs of an additional row and a measured row of the same file appear; all values are kept. *)
Theorem C64_join (cols : list string) (data : list (dict V)) (results : list (dict V)) :
  results <> [] -> In "file" cols -> disjoint_columns cols (columns results) ->
  exists rows, construct_dataframe veqb nan (Some (cols, data)) results = Ok rows /\
  (forall t, In t rows -> exists l r, In l data /\ In r results /\ cell nan l "file" = cell nan r "file" /\
     (forall c, In c cols -> dget c t = Some (cell nan l c)) /\ (forall c, In c (columns results) -> dget c t = Some (cell nan r c))) /\
  (forall l r, In l data -> In r results -> In "file" (map fst r) -> cell nan l "file" = cell nan r "file" -> exists t, In t rows /\
     (forall c, In c cols -> dget c t = Some (cell nan l c)) /\ (forall c, In c (columns results) -> dget c t = Some (cell nan r c))).
Proof.
  intros Hne Hf Hd. destruct results as [|r0 results0]; [contradiction|]. set (results := r0 :: results0) in *.
  exists (merge_rows veqb nan (cols, data) (dataframe nan results)). split; [reflexivity|]. unfold dataframe. rewrite merge_rows_eq by exact Hd.
  set (tab := fun r => map (fun c => (c, cell nan r c)) (columns results)).
  assert (T : forall r c, In c (columns results) -> cell nan (tab r) c = cell nan r c).
  { intros r c Hc. unfold cell at 1, tab. rewrite dget_tabulate. apply existsb_eqb in Hc. rewrite Hc. reflexivity. }
  assert (A : forall c (u w : dict V), dget c (u ++ w) = match dget c u with Some v => Some v | None => dget c w end).
  { clear. induction u as [|[k v] u IH]; intros w; cbn [app dget]; [reflexivity|]. destruct (String.eqb c k); [reflexivity|apply IH]. }
  assert (M : forall l r, cell nan l "file" = cell nan (tab r) "file" -> (forall c, In c cols -> dget c (merged cols (columns results) l (tab r)) = Some (cell nan l c)) /\
     (forall c, In c (columns results) -> dget c (merged cols (columns results) l (tab r)) = Some (cell nan r c))).
  { intros l r E. unfold merged. split; intros c Hc; rewrite A, !dget_tabulate.
    - apply existsb_eqb in Hc. rewrite Hc. reflexivity.
    - destruct (existsb (String.eqb c) cols) eqn:Eb.
      + apply existsb_eqb in Eb. assert (c = "file") by (apply Hd; assumption). subst c. rewrite E, T by exact Hc. reflexivity.
      + assert (N : c <> "file"). { intros ->. apply existsb_eqb in Hf. congruence. }
        assert (Ho : existsb (String.eqb c) (others (columns results)) = true) by (apply existsb_eqb; apply in_others; auto). rewrite Ho, T by exact Hc. reflexivity. }
  split.
  - intros t Ht. apply in_flat_map in Ht. destruct Ht as (l & Hl & Ht). apply in_map_iff in Ht. destruct Ht as (r' & <- & Hr'). apply filter_In in Hr'. destruct Hr' as [Hr' E].
    apply veqb_ok in E. apply in_map_iff in Hr'. destruct Hr' as (r & <- & Hr). change (map (fun c => (c, cell nan r c)) (columns results)) with (tab r) in *.
    exists l, r. split; [exact Hl|]. split; [exact Hr|]. split; [|exact (M l r E)].
    rewrite E. destruct (in_dec string_dec "file" (columns results)) as [Hi|Hi]; [apply T; exact Hi|].
    unfold cell, tab. rewrite dget_tabulate. destruct (existsb (String.eqb "file") (columns results)) eqn:Eb; [apply existsb_eqb in Eb; contradiction|].
    destruct (dget "file" r) as [v|] eqn:Eg; [|reflexivity]. exfalso. apply Hi. unfold columns. apply (proj1 (columns_acc results [])). right. exists r. split; [exact Hr|].
    apply dget_in in Eg. apply in_map_iff. exists ("file", v). auto.
  - intros l r Hl Hr Hfr E. assert (Hi : In "file" (columns results)) by (unfold columns; apply (proj1 (columns_acc results [])); right; exists r; auto).
    assert (E' : cell nan l "file" = cell nan (tab r) "file") by (rewrite T by exact Hi; exact E).
    exists (merged cols (columns results) l (tab r)). split; [|exact (M l r E')]. apply in_flat_map. exists l. split; [exact Hl|]. apply in_map. apply filter_In. split; [|apply veqb_ok; exact E'].
    change (tab r) with ((fun r => map (fun c => (c, cell nan r c)) (columns results)) r). apply in_map. exact Hr.
Qed.
(** If the additional data lists every file at most once, each measured row appears at most once: as many rows as measured files listed. *)
Theorem C64_count (cols : list string) (data : list (dict V)) (results : list (dict V)) :
  results <> [] -> disjoint_columns cols (columns results) -> (forall r, In r results -> In "file" (map fst r)) ->
  NoDup (map (fun l => cell nan l "file") data) ->
  exists rows, construct_dataframe veqb nan (Some (cols, data)) results = Ok rows /\
    length rows = length (filter (fun r => existsb (fun l => veqb (cell nan l "file") (cell nan r "file")) data) results).
Proof.
  intros Hne Hd Hf Hn. destruct results as [|r0 results0]; [contradiction|]. set (results := r0 :: results0) in *.
  eexists. split; [reflexivity|]. unfold dataframe. rewrite merge_rows_eq by exact Hd.
  set (tab := fun r => map (fun c => (c, cell nan r c)) (columns results)).
  assert (T : forall r, In r results -> cell nan (tab r) "file" = cell nan r "file").
  { intros r Hr. unfold cell at 1, tab. rewrite dget_tabulate.
    assert (Hc : existsb (String.eqb "file") (columns results) = true).
    { apply existsb_eqb. unfold columns. apply (proj1 (columns_acc results [])). right. exists r. split; [exact Hr|apply Hf; exact Hr]. }
    rewrite Hc. reflexivity. }
  clear Hd Hne. induction data as [|l data IH].
  - cbn [flat_map existsb length]. clearbody results. clear. induction results; [reflexivity|exact IHresults].
  - cbn [flat_map map] in *. apply NoDup_cons_iff in Hn. destruct Hn as [Hl Hn]. rewrite app_length, map_length, (IH Hn). clear IH.
    clearbody tab. clearbody results. clear Hf. induction results as [|r results IHr]; [reflexivity|].
    assert (Hr : cell nan (tab r) "file" = cell nan r "file") by (apply T; left; reflexivity).
    specialize (IHr (fun x Hx => T x (or_intror Hx))). cbn [existsb] in IHr. cbn [map filter existsb]. rewrite Hr.
    destruct (veqb (cell nan l "file") (cell nan r "file")) eqn:E1; cbn [orb].
    + assert (E2 : existsb (fun l0 => veqb (cell nan l0 "file") (cell nan r "file")) data = false).
      { destruct (existsb _ data) eqn:Eb; [|reflexivity]. exfalso. apply existsb_exists in Eb. destruct Eb as (l2 & H2 & E2). apply veqb_ok in E1. apply veqb_ok in E2.
        apply Hl. apply in_map_iff. exists l2. split; [congruence|exact H2]. }
      rewrite E2. cbn [length]. cbn [Nat.add]. f_equal. exact IHr.
    + destruct (existsb (fun l0 => veqb (cell nan l0 "file") (cell nan r "file")) data); cbn [length]; lia.
Qed.
End Merge.
End Props.

(** *** A concrete Surface class *)
Inductive xv := XNaN | XNum (z : Z) | XText (s : string).
Definition xv_eqb (a b : xv) : bool := match a, b with XNaN, XNaN => true | XNum x, XNum y => Z.eqb x y | XText x, XText y => String.eqb x y | _, _ => false end.
Definition ex_method (n : string) : option (method Z xv xv) :=
  if String.eqb n "level" then Some (mkMethod (Some TOperation) [("inplace", XNum 1)] None (fun _ _ s => (Ok (Scalar XNaN), (s * 2)%Z)))
  else if String.eqb n "Sa" then Some (mkMethod (Some TParameter) [] None (fun _ _ s => (Ok (Scalar (XNum s)), s)))
  else if String.eqb n "Sq" then Some (mkMethod (Some TParameter) [] None (fun _ _ s => (Ok (Scalar (XNum (s * s)%Z)), s)))
  else if String.eqb n "depth" then Some (mkMethod (Some TParameter) [] (Some ["mean"; "std"]) (fun _ _ s => (Ok (Many [XNum s; XNum 0]), s)))
  else if String.eqb n "period" then Some (mkMethod (Some TParameter) [] None (fun _ _ s => (Err CalculationError, s)))
  else if String.eqb n "Sdr" then Some (mkMethod (Some TParameter) [] None (fun _ _ s => (Err ValueError, s)))
  else None.
Definition ex_env : env Z xv xv string :=
  mkEnv ex_method (fun f => if String.eqb f "a.sur" then Ok 3%Z else if String.eqb f "b.sur" then Ok 5%Z else Err CorruptedFileError) XText XNaN ["Sa"; "Sq"].
Definition ex_calls : list (call Z xv xv) :=
  [CallMethod "Sa" [] [] None; CallMethod "level" [] [("inplace", XNum 0)] None; CallMethod "Sa" [] [] (Some "Sa2"); CallMethod "depth" [] [] None;
   CallMethod "period" [] [] None; CallMethod "level" [] [] None; CallMethod "Sa" [] [] None].
(** order of the steps, repetition, forced inplace, rejection *)
Theorem C60_example :
  fst (history ex_env [] ex_calls) = [Ok tt; Ok tt; Ok tt; Ok tt; Ok tt; Ok tt; Err BatchError] /\
  snd (history ex_env [] ex_calls) = [SPar "Sa" "Sa" [] []; SOp "level" [] [("inplace", XNum 1)]; SPar "Sa" "Sa2" [] []; SPar "depth" "depth" [] [];
    SPar "period" "period" [] []; SOp "level" [] [("inplace", XNum 1)]].
Proof. split; reflexivity. Qed.
(** the same custom function twice: AttributeError instead of BatchError *)
Theorem C60_custom_refuted : exists f : cpar Z xv, fst (history ex_env [] [CallCustomPar f; CallCustomPar f]) = [Ok tt; Err AttributeError].
Proof. exists (mkCpar 7 (fun s => (Ok [], s))). reflexivity. Qed.
(** a rejected roughness_parameters call leaves the names before the repeated one registered; unknown names are accepted *)
Theorem C60_roughness_refuted :
  history ex_env [] [CallMethod "Sq" [] [] None; CallRoughness None] = ([Ok tt; Err BatchError], [SPar "Sq" "Sq" [] []; SPar "Sa" "Sa" [] []]) /\
  fst (history ex_env [] [CallRoughness (Some [RName "nonsense"])]) = [Ok tt].
Proof. split; reflexivity. Qed.
(** execution: values before and after the operation, NaN for the failing parameter, both files, any order of threads *)
Definition ex_steps := snd (history ex_env [] ex_calls).
Theorem C61_example :
  task ex_env ex_steps true true "a.sur" = Ok [("file", XText "a.sur"); ("Sa", XNum 3); ("Sa2", XNum 6); ("depth_mean", XNum 6); ("depth_std", XNum 0); ("period", XNaN)] /\
  task ex_env ex_steps true false "a.sur" = Ok [("file", XText "a.sur"); ("Sa", XNum 12); ("Sa2", XNum 12); ("depth_mean", XNum 12); ("depth_std", XNum 0); ("period", XNaN)] /\
  task ex_env ex_steps false true "a.sur" = Err CalculationError /\
  (exists schedule, let (ts, q) := run_pool ex_env true ex_steps schedule (map Waiting ["a.sur"; "b.sur"]) [] in
     ts = [Finished; Finished] /\ map fst q = ["b.sur"; "a.sur"]).
Proof.
  split; [reflexivity|]. split; [reflexivity|]. split; [reflexivity|].
  exists ([0; 1; 0; 1; 1; 1; 1; 1; 1; 1; 0; 0; 0; 0; 0; 0; 0])%nat. vm_compute. auto.
Qed.
(** C62: an ignored error of a custom parameter becomes UnboundLocalError; errors other than CalculationError are not ignored, and one
    such file ends the whole batch *)
Theorem C62_custom_refuted : exists f : cpar Z xv, task ex_env [SCustomPar f] true true "a.sur" = Err UnboundLocalError.
Proof. exists (mkCpar 7 (fun s => (Err CalculationError, s))). reflexivity. Qed.
Theorem C62_other_errors_refuted :
  task ex_env [SPar "Sdr" "Sdr" [] []] true true "a.sur" = Err ValueError /\
  sequential ex_env [SPar "Sa" "Sa" [] []] true true ["broken.sur"; "a.sur"] = (Err CorruptedFileError, []).
Proof. split; reflexivity. Qed.
(** C63: accepted steps that write the same column: a label, a custom name "file", two custom functions *)
Theorem C63_refuted :
  (exists cs, fst (history ex_env [] cs) = [Ok tt; Ok tt] /\
     task ex_env (snd (history ex_env [] cs)) true true "a.sur" = Ok [("file", XText "a.sur"); ("depth_mean", XNum 9); ("depth_std", XNum 0)]) /\
  (exists cs, fst (history ex_env [] cs) = [Ok tt] /\ task ex_env (snd (history ex_env [] cs)) true true "a.sur" = Ok [("file", XNum 3)]).
Proof.
  split.
  - exists [CallMethod "depth" [] [] None; CallMethod "Sq" [] [] (Some "depth_mean")]. split; reflexivity.
  - exists [CallMethod "Sa" [] [] (Some "file")]. split; reflexivity.
Qed.
(** C64: the join, and what happens to a column that occurs on both sides *)
Definition ex_results : list (dict xv) := [[("file", XText "a.sur"); ("Sa", XNum 3)]; [("file", XText "b.sur"); ("Sa", XNum 5)]].
Theorem C64_example :
  construct_dataframe xv_eqb XNaN (Some (["file"; "power"], [[("file", XText "b.sur"); ("power", XNum 90)]; [("file", XText "z.sur"); ("power", XNum 10)]])) ex_results =
    Ok [[("file", XText "b.sur"); ("power", XNum 90); ("Sa", XNum 5)]] /\
  (forall a b, xv_eqb a b = true <-> a = b) /\ disjoint_columns ["file"; "power"] (columns ex_results).
Proof.
  split; [reflexivity|]. split.
  - intros [|x|x] [|y|y]; cbn [xv_eqb]; try (split; congruence); [rewrite Z.eqb_eq|rewrite String.eqb_eq]; split; congruence.
  - intros c [<-|[<-|[]]] H; [reflexivity|]. destruct H as [H|[H|[]]]; discriminate.
Qed.
Theorem C64_shared_column_refuted :
  construct_dataframe xv_eqb XNaN (Some (["file"; "Sa"], [[("file", XText "b.sur"); ("Sa", XNum 1)]])) ex_results =
    Ok [[("file", XText "b.sur"); ("Sa_x", XNum 1); ("Sa_y", XNum 5)]] /\
  construct_dataframe xv_eqb XNaN (Some (["file"; "n"], [[("file", XText "b.sur"); ("n", XNum 1)]; [("file", XText "b.sur"); ("n", XNum 2)]])) ex_results =
    Ok [[("file", XText "b.sur"); ("n", XNum 1); ("Sa", XNum 5)]; [("file", XText "b.sur"); ("n", XNum 2); ("Sa", XNum 5)]].
Proof. split; reflexivity. Qed.
