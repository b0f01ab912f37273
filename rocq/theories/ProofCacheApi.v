(** The generic cache theorems instantiated with the method tables of Surface and Profile. *)
From Coq Require Import String List Bool ZArith Lia Eqdep_dec.
From Verif Require Import Base ModelCache SpecCache ProofCache ModelApi ProofApi ModelPyRepr ProofPyRepr.
Import ListNotations.

(** Python argument values of the modelled kinds (None, bool, int, float, str, nested tuples/lists). *)
Definition pyarg : Type := { v : pyval | wf v = true }.
Definition str_args (l : list pyarg) : string := py_str_args (map (@proj1_sig _ _) l).
Definition str_kwargs (l : list (string * pyarg)) : string :=
  py_str_kwargs (map (fun kv => (fst kv, proj1_sig (snd kv))) l).

Lemma pyarg_eq (a b : pyarg) : proj1_sig a = proj1_sig b -> a = b.
Proof.
  destruct a as [a Ha], b as [b Hb]; cbn. intros ->. f_equal. apply UIP_dec. apply Bool.bool_dec.
Qed.
Lemma map_proj_inj (l l' : list pyarg) : map (@proj1_sig _ _) l = map (@proj1_sig _ _) l' -> l = l'.
Proof.
  revert l'; induction l as [|a l IH]; intros [|b l'] E; cbn in E; try discriminate; auto.
  injection E as E1 E2. apply pyarg_eq in E1. subst. f_equal. auto.
Qed.
Lemma forallb_wf (l : list pyarg) : forallb wf (map (@proj1_sig _ _) l) = true.
Proof. induction l as [|[a Ha] l IH]; cbn; auto. now rewrite Ha. Qed.

Lemma str_args_inj l l' : str_args l = str_args l' -> l = l'.
Proof. intros E. apply py_str_args_inj in E; auto using forallb_wf. now apply map_proj_inj. Qed.
Lemma str_kwargs_inj l l' : str_kwargs l = str_kwargs l' -> l = l'.
Proof.
  intros E. apply py_str_kwargs_inj in E.
  - revert l' E. induction l as [|[k a] l IH]; intros [|[k' b] l'] E; cbn in E; try discriminate; auto.
    injection E as E1 E2 E3. apply pyarg_eq in E2. subst. f_equal. auto.
  - clear. induction l as [|[k [a Ha]] l IH]; cbn; auto. now rewrite Ha.
  - clear. induction l' as [|[k [a Ha]] l IH]; cbn; auto. now rewrite Ha.
Qed.

Lemma key_of_inj c c' : key_of pyarg str_args str_kwargs c = key_of pyarg str_args str_kwargs c' -> c = c'.
Proof.
  destruct c as [n a k], c' as [n' a' k']. unfold key_of; cbn [c_name c_args c_kwargs]. intros E.
  apply pair_equal_spec in E as [E E3]. apply pair_equal_spec in E as [-> E2].
  apply str_args_inj in E2. apply str_kwargs_inj in E3. congruence.
Qed.
Lemma faithful {H T V} (methods : call pyarg -> option (meth H T V pyarg)) :
  key_faithful H T V pyarg str_args str_kwargs methods.
Proof. intros c c' E. now rewrite (key_of_inj _ _ E). Qed.

Section Inst.
Variables (H T V : Type).
Variables (rows cols : H -> Z).
Variable missing : H -> bool.
Variable scale : Z -> T -> T.
Variable methods : call pyarg -> option (meth H T V pyarg).
Hypothesis deep : forall o c, call_plain H T V pyarg missing methods o 6 c <> None.

Notation run := (run H T V pyarg str_args str_kwargs rows cols missing scale methods 6).
Notation step := (step H T V pyarg str_args str_kwargs rows cols missing scale methods 6).
Notation ref_run := (ref_run H T V pyarg rows cols missing scale methods 6).
Notation ref_step := (ref_step H T V pyarg rows cols missing scale methods 6).
Notation new_obj := (new_obj H T V rows cols scale).
Notation fresh := (fresh H T rows cols scale).
Notation coh o ca := (coherent H T V pyarg str_args str_kwargs missing methods o ca).

Lemma run_plain_some {X} o (p : prog H T V pyarg X) :
  run_plain H T V pyarg o (call_plain H T V pyarg missing methods o 6) p <> None.
Proof.
  induction p as [x|e|k IH|c k IH]; cbn [run_plain]; try discriminate; auto.
  generalize (deep o c). destruct (call_plain H T V pyarg missing methods o 6 c) as [[v|e]|]; [auto|discriminate|congruence].
Qed.

Lemma ref_step_total o a : snd (ref_step o a) <> ODepth.
Proof.
  assert (Hop : forall p, run_oper_ref H T V pyarg missing methods 6 o p <> None).
  { intros p. unfold run_oper_ref. destruct (op_guarded p && missing (o_data o)); [discriminate|apply run_plain_some]. }
  destruct a as [c|d|edit|p|p|]; cbn [SpecCache.ref_step]; try discriminate.
  - generalize (deep o c). destruct (call_plain H T V pyarg missing methods o 6 c) as [[v|e]|]; cbn; congruence.
  - destruct (edit (o_data o)); discriminate.
  - generalize (Hop p). destruct (run_oper_ref H T V pyarg missing methods 6 o p) as [[[[[d sx] sy]|]|e]|]; cbn; congruence.
  - generalize (Hop p). destruct (run_oper_ref H T V pyarg missing methods 6 o p) as [[[[[d sx] sy]|]|e]|]; cbn; congruence.
Qed.

Lemma ref_run_total h : forall o, ~ In ODepth (snd (ref_run o h)).
Proof.
  induction h as [|a h IH]; intros o; cbn; auto.
  assert (X := ref_step_total o a). destruct (ref_step o a) as [o1 out].
  specialize (IH o1). destruct (ref_run o1 h) as [o2 outs]. cbn in *. intros [E|E]; auto.
Qed.

Lemma run_equals_reference d sx sy h :
  b_obs (fst (run (new_obj d sx sy) h)) = fst (ref_run (fresh d sx sy) h) /\
  snd (run (new_obj d sx sy) h) = snd (ref_run (fresh d sx sy) h).
Proof.
  destruct (ref_run (fresh d sx sy) h) as [o' outs] eqn:E.
  destruct (run_refines H T V pyarg str_args str_kwargs rows cols missing scale methods 6 h (new_obj d sx sy) o' outs)
    as (b' & E1 & E2 & _).
  - apply faithful.
  - apply coherent_nil.
  - exact E.
  - generalize (ref_run_total h (fresh d sx sy)). rewrite E. auto.
  - rewrite E1. auto.
Qed.

Lemma run_coherent h b : coh (b_obs b) (b_cache b) ->
  coh (b_obs (fst (run b h))) (b_cache (fst (run b h))).
Proof.
  intros Hb.
  destruct (ref_run (b_obs b) h) as [o' outs] eqn:E.
  destruct (run_refines H T V pyarg str_args str_kwargs rows cols missing scale methods 6 h b o' outs)
    as (b' & E1 & E2 & E3).
  - apply faithful.
  - exact Hb.
  - exact E.
  - generalize (ref_run_total h (b_obs b)). rewrite E. auto.
  - rewrite E1. exact E3.
Qed.

Lemma step_value b c : coh (b_obs b) (b_cache b) ->
  snd (step b (ACall c)) = match call_plain H T V pyarg missing methods (b_obs b) 6 c with
                           | Some (Ok v) => OVal v | Some (Err e) => OErr e | None => ODepth end.
Proof.
  intros Hb. generalize (deep (b_obs b) c).
  destruct (call_plain H T V pyarg missing methods (b_obs b) 6 c) as [r|] eqn:E; [intros _|congruence].
  destruct (call_memo_ok H T V pyarg str_args str_kwargs missing methods (b_obs b) 6 (b_cache b) c r (faithful _) Hb E)
    as (ca & E1 & _).
  cbn [ModelCache.step]. rewrite E1. destruct r; reflexivity.
Qed.

Lemma never_stale d sx sy h c :
  Forall (shape_preserving H T V pyarg rows cols) h ->
  let b := fst (run (new_obj d sx sy) h) in
  snd (step b (ACall c)) =
  snd (step (new_obj (o_data (b_obs b)) (o_sx (b_obs b)) (o_sy (b_obs b))) (ACall c)).
Proof.
  intros Hs b. unfold b.
  rewrite !step_value by (apply coherent_nil || (apply run_coherent; apply coherent_nil)).
  assert (E : b_obs (new_obj (o_data (b_obs (fst (run (new_obj d sx sy) h)))) (o_sx (b_obs (fst (run (new_obj d sx sy) h))))
              (o_sy (b_obs (fst (run (new_obj d sx sy) h))))) = b_obs (fst (run (new_obj d sx sy) h))).
  { destruct (run_extents H T V pyarg str_args str_kwargs rows cols missing scale methods 6 h (new_obj d sx sy) Hs) as [X _].
    - split; reflexivity.
    - unfold extents_ok in X. destruct (b_obs (fst (run (new_obj d sx sy) h))) as [dd xx yy ww hh].
      cbn in *. destruct X as [-> ->]. reflexivity. }
  rewrite E. reflexivity.
Qed.

(** An uncached operation repeated k times, and its copying variant. *)
Lemma inplace_copy_agree b p :
  match snd (step b (ACopy p)) with
  | OObj o => b_obs (fst (step b (AInplace p))) = o /\ snd (step b (AInplace p)) = OSelf
  | OSelf => b_obs (fst (step b (AInplace p))) = b_obs b /\ snd (step b (AInplace p)) = OSelf
  | out => snd (step b (AInplace p)) = out /\ b_obs (fst (step b (AInplace p))) = b_obs b
  end /\ b_obs (fst (step b (ACopy p))) = b_obs b.
Proof.
  cbn [ModelCache.step].
  destruct (run_oper H T V pyarg str_args str_kwargs missing methods 6 b p) as [[[[[[d sx] sy]|]|e]|] ca]; cbn; auto.
Qed.
End Inst.

Section Complete.
Variables (H T V : Type).
Variable missing : H -> bool.
Variable num0 : string -> obs H T -> call pyarg -> list V -> V.
Variable arg : string -> call pyarg -> pyarg.
Variable flag : string -> call pyarg -> bool.
Variable oflag : string -> obs H T -> call pyarg -> bool.
Variable v_fft : pyarg.
Local Open Scope string_scope.
Definition num_ok := fun n o c vs => Ok (num0 n o c vs).
Notation smeth := (surface_methods H T V pyarg missing num_ok arg flag oflag v_fft).
Notation pmeth := (profile_methods H T V pyarg missing num_ok arg).
Hypothesis Hor : forall c, flag "orientation:method == fft_refined" c = false ->
                           flag "orientation:method == fft" c = true.
Hypothesis Hho : forall c, flag "homogeneity:disallowed" c = false.
Hypothesis Hde : forall o c, oflag "depth:nprofiles exceeds size" o c = false.

Lemma surface_accepts o c : missing (o_data o) = false -> In (c_name c) surface_complete ->
  exists v, call_plain H T V pyarg missing smeth o 6 c = Some (Ok v).
Proof.
  intros Hm Hin. destruct c as [n args kw]. cbn [c_name] in Hin. unfold surface_complete, base_complete in Hin.
  cbn [app In] in Hin. cbn [call_plain].
  repeat (destruct Hin as [<-|Hin]; [
    cbn; rewrite ?Hm; cbn; rewrite ?Hho; cbn; rewrite ?Hm; cbn; rewrite ?Hde; cbn; rewrite ?Hm; cbn;
    repeat (match goal with |- context[if flag "orientation:method == fft_refined" ?b then _ else _] =>
               let E := fresh in destruct (flag "orientation:method == fft_refined" b) eqn:E; [|rewrite (Hor _ E)]
             | |- context[if flag ?a ?b then _ else _] => destruct (flag a b) end;
            cbn; rewrite ?Hm; cbn; rewrite ?Hde; cbn; rewrite ?Hm; cbn); eauto |]).
  destruct Hin.
Qed.
Lemma profile_accepts o c : missing (o_data o) = false -> In (c_name c) profile_complete ->
  exists v, call_plain H T V pyarg missing pmeth o 6 c = Some (Ok v).
Proof.
  intros Hm Hin. destruct c as [n args kw]. cbn [c_name] in Hin. unfold profile_complete, base_complete in Hin.
  cbn [app In] in Hin. cbn [call_plain].
  repeat (destruct Hin as [<-|Hin]; [ cbn; rewrite ?Hm; cbn; rewrite ?Hm; cbn; eauto |]).
  destruct Hin.
Qed.
End Complete.

(** The cached mutator: a second inplace call with the same arguments does nothing. *)
Section Mutator.
Variables (H T V : Type).
Variables (rows cols : H -> Z).
Variable missing : H -> bool.
Variable scale : Z -> T -> T.
Variable methods : call pyarg -> option (meth H T V pyarg).
Notation sci := (step_cached_inplace H T V pyarg str_args str_kwargs rows cols missing scale methods 6).
Lemma cached_inplace_noop b c sv p b' : sci b c sv p = (b', OSelf) -> sci b' c sv p = (b', OSelf).
Proof.
  unfold step_cached_inplace at 1. destruct (lookup (key_of pyarg str_args str_kwargs c) (b_cache b)) as [v|] eqn:E.
  - intros X; injection X as <-. unfold step_cached_inplace. rewrite E. reflexivity.
  - destruct (step _ _ _ _ _ _ _ _ _ _ _ 6 b (AInplace p)) as [b1 [ | | | | | ]]; try discriminate.
    intros X; injection X as <-. unfold step_cached_inplace. cbn [b_cache].
    rewrite lookup_insert. replace (key_eqb _ _) with true; [reflexivity|].
    symmetry. apply key_eqb_spec. reflexivity.
Qed.
End Mutator.
