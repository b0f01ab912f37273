(** Proofs about ModelCache against SpecCache. *)
From Coq Require Import String List Bool ZArith Lia.
From Verif Require Import Base ModelCache SpecCache.
Import ListNotations.

Section Proofs.
Variables (H T V A : Type).
Variable str_args : list A -> string.
Variable str_kwargs : list (string * A) -> string.
Variables (rows cols : H -> Z).
Variable missing : H -> bool.
Variable scale : Z -> T -> T.
Variable methods : call A -> option (meth H T V A).

Notation obs := (obs H T).
Notation cache := (cache V).
Notation key_of := (key_of A str_args str_kwargs).
Notation call_plain := (call_plain H T V A missing methods).
Notation run_plain := (run_plain H T V A).
Notation decos_plain := (decos_plain H T V missing).
Notation call_memo := (call_memo H T V A str_args str_kwargs missing methods).
Notation run_memo := (run_memo H T V A).
Notation decos_memo := (decos_memo H T V missing).
Notation step := (step H T V A str_args str_kwargs rows cols missing scale methods).
Notation run := (run H T V A str_args str_kwargs rows cols missing scale methods).
Notation ref_step := (ref_step H T V A rows cols missing scale methods).
Notation ref_run := (ref_run H T V A rows cols missing scale methods).

Lemma key_eqb_spec (k k' : key) : key_eqb k k' = true <-> k = k'.
Proof.
  destruct k as [[a b] c], k' as [[a' b'] c']; cbn.
  rewrite !andb_true_iff, !String.eqb_eq. split.
  - intros [[-> ->] ->]; reflexivity.
  - intros E; injection E; auto.
Qed.

Lemma lookup_insert k k' (v : V) (ca : cache) :
  lookup k (insert k' v ca) = if key_eqb k k' then Some v else lookup k ca.
Proof. reflexivity. Qed.

(** Two calls with the same key are the same call (up to what they execute). *)
Definition key_faithful : Prop :=
  forall c c', key_of c = key_of c' -> methods c = methods c'.

Definition coherent (o : obs) (ca : cache) : Prop :=
  forall c v, lookup (key_of c) ca = Some v -> exists n, call_plain o n c = Some (Ok v).

Lemma coherent_nil o : coherent o [].
Proof. intros c v E; discriminate E. Qed.

Lemma run_plain_mono {X} o (h h' : call A -> option (res V)) (p : prog H T V A X) r :
  (forall c r, h c = Some r -> h' c = Some r) ->
  run_plain o h p = Some r -> run_plain o h' p = Some r.
Proof.
  intros Hh. revert r. induction p as [x|e|k IH|c k IH]; intros r E; cbn in *; auto.
  destruct (h c) as [[v|e]|] eqn:Ec; [| |discriminate].
  - rewrite (Hh _ _ Ec). auto.
  - rewrite (Hh _ _ Ec). auto.
Qed.

Lemma decos_plain_spec o ds b :
  decos_plain o ds b =
  if existsb (fun d => match d with Guarded => true | Cached => false end) ds && missing (o_data o)
  then Some (Err ValueError) else b.
Proof.
  induction ds as [|[|] ds IH]; cbn; auto.
  destruct (missing (o_data o)) eqn:E; auto.
  rewrite IH. rewrite andb_false_r. reflexivity.
Qed.

Lemma decos_plain_mono o ds b b' r :
  (forall r, b = Some r -> b' = Some r) -> decos_plain o ds b = Some r -> decos_plain o ds b' = Some r.
Proof. rewrite !decos_plain_spec. destruct (_ && _); auto. Qed.

Lemma call_plain_S o n c r : call_plain o n c = Some r -> call_plain o (S n) c = Some r.
Proof.
  revert c r. induction n as [|n IH]; intros c r E; [discriminate E|].
  change (call_plain o (S (S n)) c) with
    (match methods c with
     | None => Some (Err AttributeError)
     | Some m => decos_plain o (m_decos m) (run_plain o (call_plain o (S n)) (m_body m)) end).
  cbn [ModelCache.call_plain] in E.
  destruct (methods c) as [m|]; [|exact E].
  revert E. apply decos_plain_mono. intros r'. apply run_plain_mono. exact IH.
Qed.

Lemma call_plain_mono o n m c r : n <= m -> call_plain o n c = Some r -> call_plain o m c = Some r.
Proof. intros L; induction L; auto using call_plain_S. Qed.

Lemma call_plain_det o n m c r r' :
  call_plain o n c = Some r -> call_plain o m c = Some r' -> r = r'.
Proof.
  intros E E'.
  apply (call_plain_mono o n (max n m)) in E; [|lia].
  apply (call_plain_mono o m (max n m)) in E'; [|lia]. congruence.
Qed.

Lemma run_memo_ok {X} o (h : call A -> option (res V)) (hm : cache -> call A -> option (res V) * cache)
      (p : prog H T V A X) ca r :
  (forall ca c r, coherent o ca -> h c = Some r -> exists ca', hm ca c = (Some r, ca') /\ coherent o ca') ->
  coherent o ca -> run_plain o h p = Some r ->
  exists ca', run_memo o hm ca p = (Some r, ca') /\ coherent o ca'.
Proof.
  intros Hh. revert ca r. induction p as [x|e|k IH|c k IH]; intros ca r Hca E; cbn in *.
  - injection E as <-. eauto.
  - injection E as <-. eauto.
  - eauto.
  - destruct (h c) as [r1|] eqn:Ec; [|discriminate].
    destruct (Hh ca c r1 Hca Ec) as (ca1 & E1 & Hca1). rewrite E1.
    destruct r1 as [v|e].
    + eauto.
    + injection E as <-. eauto.
Qed.

Lemma call_memo_ok o n ca c r :
  key_faithful -> coherent o ca -> call_plain o n c = Some r ->
  exists ca', call_memo o n ca c = (Some r, ca') /\ coherent o ca'.
Proof.
  intros HK. revert ca c r. induction n as [|n IH]; intros ca c r Hca E; [discriminate E|].
  assert (E0 := E).
  cbn [ModelCache.call_plain] in E. cbn [ModelCache.call_memo].
  destruct (methods c) as [m|] eqn:Em.
  2:{ injection E as <-. eauto. }
  assert (Hbody : forall ca r, coherent o ca -> run_plain o (call_plain o n) (m_body m) = Some r ->
            exists ca', run_memo o (fun ca2 c2 => call_memo o n ca2 c2) ca (m_body m) = (Some r, ca')
                        /\ coherent o ca').
  { intros ca1 r1 H1. apply run_memo_ok; auto. }
  set (body := fun ca1 => run_memo o (fun ca2 c2 => call_memo o n ca2 c2) ca1 (m_body m)) in *.
  set (pb := run_plain o (call_plain o n) (m_body m)) in *.
  assert (Hsuf : forall ds ca r, coherent o ca -> decos_plain o ds pb = Some r ->
      (forall v, r = Ok v -> call_plain o (S n) c = Some (Ok v)) ->
      (missing (o_data o) = true -> forall v, call_plain o (S n) c = Some (Ok v) ->
                decos_plain o ds pb = Some (Ok v)) ->
      (missing (o_data o) = false -> call_plain o (S n) c = pb) ->
      exists ca', decos_memo o (key_of c) ds body ca = (Some r, ca') /\ coherent o ca').
  { induction ds as [|d ds IHds]; intros ca1 r1 Hca1 E1 Hr Hm Hnm.
    - cbn in *. apply Hbody; auto.
    - destruct d; cbn [ModelCache.decos_memo ModelCache.decos_plain] in *.
      + destruct (lookup (key_of c) ca1) as [v|] eqn:El.
        * exists ca1. split; [|exact Hca1].
          destruct (Hca1 c v El) as (k & Ek).
          assert (X := call_plain_det o (S n) k c _ _ E0 Ek). subst r.
          assert (r1 = Ok v); [|subst; reflexivity].
          destruct (missing (o_data o)) eqn:Emiss.
          -- assert (Y := Hm eq_refl v E0). congruence.
          -- rewrite decos_plain_spec, Emiss, andb_false_r in E1.
             rewrite <- Hnm in E1 by reflexivity. congruence.
        * destruct (IHds ca1 r1 Hca1 E1 Hr Hm Hnm) as (ca2 & E2 & H2). rewrite E2.
          destruct r1 as [v|e]; [|eauto].
          exists (insert (key_of c) v ca2). split; [reflexivity|].
          intros c' v' E'. rewrite lookup_insert in E'.
          destruct (key_eqb (key_of c') (key_of c)) eqn:Ek; [|eauto].
          injection E' as <-. apply key_eqb_spec in Ek.
          exists (S n). rewrite <- (Hr v eq_refl).
          cbn [ModelCache.call_plain]. rewrite (HK _ _ Ek). reflexivity.
      + destruct (missing (o_data o)) eqn:Emiss.
        * injection E1 as <-. eauto.
        * apply IHds; auto. }
  apply Hsuf; auto.
  - intros v ->. exact E0.
  - intros _ v E1. rewrite <- E1. cbn [ModelCache.call_plain]. rewrite Em. reflexivity.
  - intros Emiss. cbn [ModelCache.call_plain]. rewrite Em, decos_plain_spec, Emiss, andb_false_r. reflexivity.
Qed.

Lemma step_refines n b a o' out :
  key_faithful -> coherent (b_obs b) (b_cache b) ->
  ref_step n (b_obs b) a = (o', out) -> out <> ODepth ->
  exists b', step n b a = (b', out) /\ b_obs b' = o' /\ coherent (b_obs b') (b_cache b').
Proof.
  intros HK Hco E Hd.
  assert (Hop : forall p r, run_oper_ref H T V A missing methods n (b_obs b) p = Some r ->
      exists ca, run_oper H T V A str_args str_kwargs missing methods n b p = (Some r, ca)
                 /\ coherent (b_obs b) ca).
  { intros p r. unfold run_oper_ref, run_oper.
    destruct (op_guarded p && missing (o_data (b_obs b))).
    - intros Er; injection Er as <-. eauto.
    - intros Er. eapply run_memo_ok; eauto. intros ca c r0 H1 H2. apply call_memo_ok; auto. }
  destruct a as [c|d|edit|p|p|]; cbn [SpecCache.ref_step ModelCache.step] in *.
  - destruct (call_plain (b_obs b) n c) as [r|] eqn:Ec.
    2:{ injection E as <- <-. congruence. }
    destruct (call_memo_ok (b_obs b) n (b_cache b) c r HK Hco Ec) as (ca & E1 & Hca). rewrite E1.
    destruct r as [v|e]; injection E as <- <-; eexists; (split; [reflexivity|]); cbn; auto.
  - injection E as <- <-. eexists. split; [reflexivity|]. cbn. split; [reflexivity|apply coherent_nil].
  - destruct (edit (o_data (b_obs b))) as [d|e].
    + injection E as <- <-. eexists. split; [reflexivity|]. cbn. split; [reflexivity|apply coherent_nil].
    + injection E as <- <-. eauto.
  - destruct (run_oper_ref H T V A missing methods n (b_obs b) p) as [r|] eqn:Er.
    2:{ injection E as <- <-. congruence. }
    destruct (Hop p r Er) as (ca & E1 & Hca). rewrite E1.
    destruct r as [[[[d sx] sy]|]|e]; injection E as <- <-;
      eexists; (split; [reflexivity|]); cbn; auto.
    split; [|apply coherent_nil]. destruct sx, sy; reflexivity.
  - destruct (run_oper_ref H T V A missing methods n (b_obs b) p) as [r|] eqn:Er.
    2:{ injection E as <- <-. congruence. }
    destruct (Hop p r Er) as (ca & E1 & Hca). rewrite E1.
    destruct r as [[[[d sx] sy]|]|e]; injection E as <- <-;
      eexists; (split; [reflexivity|]); cbn; auto.
  - injection E as <- <-. eexists. split; [reflexivity|]. cbn. split; [reflexivity|apply coherent_nil].
Qed.

Theorem run_refines n h : forall b o' outs,
  key_faithful -> coherent (b_obs b) (b_cache b) ->
  ref_run n (b_obs b) h = (o', outs) -> ~ In ODepth outs ->
  exists b', run n b h = (b', outs) /\ b_obs b' = o' /\ coherent (b_obs b') (b_cache b').
Proof.
  induction h as [|a h IH]; intros b o' outs HK Hco E Hd; cbn in *.
  - injection E as <- <-. eauto.
  - destruct (ref_step n (b_obs b) a) as [o1 out] eqn:E1.
    destruct (ref_run n o1 h) as [o2 outs'] eqn:E2. injection E as <- <-.
    destruct (step_refines n b a o1 out HK Hco E1) as (b1 & Es & <- & Hco1).
    { intros ->. apply Hd. left; reflexivity. }
    destruct (IH b1 o2 outs' HK Hco1 E2) as (b2 & Er & <- & Hco2).
    { intros Hin. apply Hd. right; exact Hin. }
    rewrite Es, Er. eauto.
Qed.

Lemma new_obj_obs d sx sy :
  b_obs (new_obj H T V rows cols scale d sx sy) = fresh H T rows cols scale d sx sy.
Proof. reflexivity. Qed.

Lemma new_obj_cache d sx sy : b_cache (new_obj H T V rows cols scale d sx sy) = [].
Proof. reflexivity. Qed.

(** C05: extents. [edit] of an item keeps the shape (numpy item assignment never reshapes). *)
Definition extents_ok (o : obs) : Prop :=
  o_w o = scale (cols (o_data o) - 1) (o_sx o) /\ o_h o = scale (rows (o_data o) - 1) (o_sy o).

Definition shape_preserving (a : action H T V A) : Prop :=
  match a with
  | ASetItem edit => forall d d', edit d = Ok d' -> rows d' = rows d /\ cols d' = cols d
  | _ => True
  end.

Lemma step_extents n b a :
  shape_preserving a -> extents_ok (b_obs b) -> extents_ok (b_obs (fst (step n b a))) /\
  forall o, snd (step n b a) = OObj o -> extents_ok o.
Proof.
  intros Hs Hx. destruct a as [c|d|edit|p|p|]; cbn [ModelCache.step].
  - destruct (call_memo _ _ _ _) as [[[v|e]|] ca]; cbn; (split; [exact Hx|discriminate]).
  - cbn. split; [split; reflexivity|discriminate].
  - destruct (edit (o_data (b_obs b))) as [d|e] eqn:Ed; cbn; [|split; [exact Hx|discriminate]].
    destruct (Hs _ _ Ed) as [Er Ec]. unfold extents_ok in *. cbn. rewrite Er, Ec. split; [exact Hx|discriminate].
  - destruct (run_oper _ _ _ _ _ _ _ _ _ _ _) as [[[[[[d sx] sy]|]|e]|] ca]; cbn; (split; [|discriminate]);
      try exact Hx. unfold extents_ok. cbn. split; reflexivity.
  - destruct (run_oper _ _ _ _ _ _ _ _ _ _ _) as [[[[[[d sx] sy]|]|e]|] ca]; cbn; (split; [exact Hx|]);
      try discriminate. intros o E; injection E as <-. unfold extents_ok; cbn. split; reflexivity.
  - split; [exact Hx|discriminate].
Qed.

Lemma run_extents n h : forall b, Forall shape_preserving h -> extents_ok (b_obs b) ->
  extents_ok (b_obs (fst (run n b h))) /\ forall o, In (OObj o) (snd (run n b h)) -> extents_ok o.
Proof.
  induction h as [|a h IH]; intros b Hs Hx; cbn; [split; [exact Hx|intros o []]|].
  inversion Hs as [|? ? Ha Hh]; subst.
  destruct (step_extents n b a Ha Hx) as [X1 X2].
  destruct (step n b a) as [b1 out]. destruct (run n b1 h) as [b2 outs] eqn:E.
  specialize (IH b1 Hh X1). rewrite E in IH. cbn in *. destruct IH as [Y1 Y2].
  split; [exact Y1|]. intros o [->|Hin]; auto.
Qed.

End Proofs.
