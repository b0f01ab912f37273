(** Property theorems C01-C06 (caching, aliasing, inplace variants, extents, completeness guard). *)
From Coq Require Import String Ascii List Bool ZArith Lia.
From Verif Require Import Base ModelCache SpecCache ProofCache ModelApi ProofApi ModelPyRepr ProofPyRepr
  ProofCacheApi ModelHeap ProofHeap.
Import ListNotations.
Local Open Scope string_scope.

Lemma iter_succ_r {X} (f : X -> X) k x : Nat.iter (S k) f x = Nat.iter k f (f x).
Proof. induction k as [|k IH]; [reflexivity|]. cbn in *. now rewrite IH. Qed.

Section Statements.
(** Everything numerical is arbitrary: heights [H], numbers [T], results [V], the bodies [num]. *)
Context {H T V : Type} (rows cols : H -> Z) (missing : H -> bool) (scale : Z -> T -> T).
Context (num : string -> obs H T -> call pyarg -> list V -> res V).
Context (arg : string -> call pyarg -> pyarg) (flag : string -> call pyarg -> bool).
Context (oflag : string -> obs H T -> call pyarg -> bool) (v_fft : pyarg).

Definition SM := surface_methods H T V pyarg missing num arg flag oflag v_fft.
Definition PM := profile_methods H T V pyarg missing num arg.
(** A history of user actions on one object of the class with method table [M]; first a new object. *)
Definition history M := run H T V pyarg str_args str_kwargs rows cols missing scale M 6.
Definition act M := step H T V pyarg str_args str_kwargs rows cols missing scale M 6.
Definition construct := new_obj H T V rows cols scale.
(** The same, for a class without any cache (SpecCache). *)
Definition history_uncached M := ref_run H T V pyarg rows cols missing scale M 6.
Definition act_uncached M := ref_step H T V pyarg rows cols missing scale M 6.
Definition constructed := fresh H T rows cols scale.
(** Item assignments keep the shape (numpy). *)
Definition numpy_edits := Forall (shape_preserving H T V pyarg rows cols).

(** C01: whatever was read and edited before, a call returns what a new object with the current heights
    and steps returns. *)
Theorem C01_surface_never_stale : forall d sx sy h c, numpy_edits h ->
  let b := fst (history SM (construct d sx sy) h) in
  snd (act SM b (ACall c)) =
  snd (act SM (construct (o_data (b_obs b)) (o_sx (b_obs b)) (o_sy (b_obs b))) (ACall c)).
Proof. intros. apply never_stale; auto. intros o c'. apply surface_depth. Qed.

Theorem C01_profile_never_stale : forall d sx sy h c, numpy_edits h ->
  let b := fst (history PM (construct d sx sy) h) in
  snd (act PM b (ACall c)) =
  snd (act PM (construct (o_data (b_obs b)) (o_sx (b_obs b)) (o_sy (b_obs b))) (ACall c)).
Proof. intros. apply never_stale; auto. intros o c'. apply profile_depth. Qed.

(** C01, whole histories: all outcomes and the final visible state are those of the cache-free class. *)
Theorem C01_surface_history : forall d sx sy h,
  b_obs (fst (history SM (construct d sx sy) h)) = fst (history_uncached SM (constructed d sx sy) h) /\
  snd (history SM (construct d sx sy) h) = snd (history_uncached SM (constructed d sx sy) h).
Proof. intros. apply run_equals_reference. intros o c'. apply surface_depth. Qed.

Theorem C01_profile_history : forall d sx sy h,
  b_obs (fst (history PM (construct d sx sy) h)) = fst (history_uncached PM (constructed d sx sy) h) /\
  snd (history PM (construct d sx sy) h) = snd (history_uncached PM (constructed d sx sy) h).
Proof. intros. apply run_equals_reference. intros o c'. apply profile_depth. Qed.

(** C01 ingredient: the textual cache key identifies the call (method, positional and keyword arguments). *)
Theorem C01_key_identifies_call : forall c c' : call pyarg,
  key_of pyarg str_args str_kwargs c = key_of pyarg str_args str_kwargs c' -> c = c'.
Proof. exact key_of_inj. Qed.

(** C03 for the operations without a cache decorator: k calls = k applications. *)
Theorem C03_uncached_inplace_repeats : forall d sx sy p k,
  b_obs (fst (history SM (construct d sx sy) (repeat (AInplace p) k))) =
  Nat.iter k (fun o => fst (act_uncached SM o (AInplace p))) (constructed d sx sy).
Proof.
  intros. rewrite (proj1 (C01_surface_history d sx sy _)). unfold history_uncached, act_uncached.
  generalize (constructed d sx sy). induction k as [|k IH]; intros o; [reflexivity|].
  cbn [repeat]. rewrite iter_succ_r, <- IH. cbn [ref_run].
  destruct (ref_step _ _ _ _ _ _ _ _ _ _ _ _) as [o1 out]. cbn [fst].
  destruct (ref_run _ _ _ _ _ _ _ _ _ _ _ _) as [o2 outs]. reflexivity.
Qed.

(** C03, the cached mutator stepheight_level(inplace=True): once it has run, calling it again never does
    anything, whatever the operation [p] is. *)
Theorem C03_cached_inplace_never_repeats : forall b c sv p b',
  step_cached_inplace H T V pyarg str_args str_kwargs rows cols missing scale SM 6 b c sv p = (b', OSelf) ->
  step_cached_inplace H T V pyarg str_args str_kwargs rows cols missing scale SM 6 b' c sv p = (b', OSelf).
Proof. intros. eapply cached_inplace_noop; eauto. Qed.

(** C04: for every (uncached) operation, inplace=True leaves the receiver exactly as the copy returned by
    inplace=False; inplace=False never changes the receiver; errors agree and change nothing. *)
Theorem C04_inplace_agrees_with_copy : forall M b p,
  b_obs (fst (act M b (ACopy p))) = b_obs b /\
  match snd (act M b (ACopy p)) with
  | OObj o => b_obs (fst (act M b (AInplace p))) = o /\ snd (act M b (AInplace p)) = OSelf
  | OSelf => b_obs (fst (act M b (AInplace p))) = b_obs b /\ snd (act M b (AInplace p)) = OSelf
  | out => snd (act M b (AInplace p)) = out /\ b_obs (fst (act M b (AInplace p))) = b_obs b
  end.
Proof. intros M b p. apply and_comm. apply inplace_copy_agree. Qed.

(** C05: extents match shape and step after every history, also for every surface an operation returned. *)
Theorem C05_extent_matches_shape : forall M d sx sy h, numpy_edits h ->
  let b := b_obs (fst (history M (construct d sx sy) h)) in
  (o_w b = scale (cols (o_data b) - 1) (o_sx b) /\ o_h b = scale (rows (o_data b) - 1) (o_sy b)) /\
  forall o, In (OObj o) (snd (history M (construct d sx sy) h)) ->
    o_w o = scale (cols (o_data o) - 1) (o_sx o) /\ o_h o = scale (rows (o_data o) - 1) (o_sy o).
Proof. intros. apply run_extents; auto. split; reflexivity. Qed.

(** C06: with a non-measured point, every method that needs complete data raises, whatever was cached. *)
Theorem C06_surface_rejects_incomplete : forall d sx sy h c,
  let b := fst (history SM (construct d sx sy) h) in
  missing (o_data (b_obs b)) = true -> In (c_name c) surface_complete ->
  snd (act SM b (ACall c)) = OErr ValueError /\ b_obs (fst (act SM b (ACall c))) = b_obs b.
Proof.
  intros d sx sy h c b Hm Hin.
  assert (E : snd (act SM b (ACall c)) = OErr ValueError).
  { unfold act, b. rewrite step_value.
    - unfold SM at 1. rewrite surface_incomplete; auto.
    - intros o c'. apply surface_depth.
    - apply run_coherent; [intros o c'; apply surface_depth|apply coherent_nil]. }
  split; [exact E|]. unfold act in *. cbn [step] in *.
  destruct (call_memo _ _ _ _ _ _ _ _ _ _ _ _) as [[[v|e]|] ca]; try discriminate; reflexivity.
Qed.
Theorem C06_profile_rejects_incomplete : forall d sx sy h c,
  let b := fst (history PM (construct d sx sy) h) in
  missing (o_data (b_obs b)) = true -> In (c_name c) profile_complete ->
  snd (act PM b (ACall c)) = OErr ValueError /\ b_obs (fst (act PM b (ACall c))) = b_obs b.
Proof.
  intros d sx sy h c b Hm Hin.
  assert (E : snd (act PM b (ACall c)) = OErr ValueError).
  { unfold act, b. rewrite step_value.
    - unfold PM at 1. rewrite profile_incomplete; auto.
    - intros o c'. apply profile_depth.
    - apply run_coherent; [intros o c'; apply profile_depth|apply coherent_nil]. }
  split; [exact E|]. unfold act in *. cbn [step] in *.
  destruct (call_memo _ _ _ _ _ _ _ _ _ _ _ _) as [[[v|e]|] ca]; try discriminate; reflexivity.
Qed.
End Statements.

(** C06, converse: if the numerics do not raise and the arguments are acceptable, complete data is accepted
    after every history (so an object that becomes complete again is usable again). *)
Theorem C06_surface_accepts_complete :
  forall (H T V : Type) (rows cols : H -> Z) (missing : H -> bool) (scale : Z -> T -> T)
    (num0 : string -> obs H T -> call pyarg -> list V -> V) arg flag oflag v_fft,
  (forall c, flag "orientation:method == fft_refined" c = false -> flag "orientation:method == fft" c = true) ->
  (forall c, flag "homogeneity:disallowed" c = false) ->
  (forall o c, oflag "depth:nprofiles exceeds size" o c = false) ->
  let M := SM missing (fun n o c vs => Ok (num0 n o c vs)) arg flag oflag v_fft in
  forall d sx sy h c,
  let b := fst (history rows cols missing scale M (construct rows cols scale d sx sy) h) in
  missing (o_data (b_obs b)) = false -> In (c_name c) surface_complete ->
  exists v, snd (act rows cols missing scale M b (ACall c)) = OVal v.
Proof.
  intros H T V rows cols missing scale num0 arg flag oflag v_fft Ho Hh Hd M d sx sy h c b Hm Hin.
  destruct (surface_accepts H T V missing num0 arg flag oflag v_fft Ho Hh Hd (b_obs b) c Hm Hin) as [v Ev].
  exists v. unfold act. rewrite step_value.
  - unfold M, SM. change (fun n o c vs => Ok (num0 n o c vs)) with (num_ok H T V num0). rewrite Ev. reflexivity.
  - intros o c'. apply surface_depth.
  - apply run_coherent; [intros o c'; apply surface_depth|apply coherent_nil].
Qed.
Theorem C06_profile_accepts_complete :
  forall (H T V : Type) (rows cols : H -> Z) (missing : H -> bool) (scale : Z -> T -> T)
    (num0 : string -> obs H T -> call pyarg -> list V -> V) arg,
  let M := PM missing (fun n o c vs => Ok (num0 n o c vs)) arg in
  forall d sx sy h c,
  let b := fst (history rows cols missing scale M (construct rows cols scale d sx sy) h) in
  missing (o_data (b_obs b)) = false -> In (c_name c) profile_complete ->
  exists v, snd (act rows cols missing scale M b (ACall c)) = OVal v.
Proof.
  intros H T V rows cols missing scale num0 arg M d sx sy h c b Hm Hin.
  destruct (profile_accepts H T V missing num0 arg (b_obs b) c Hm Hin) as [v Ev].
  exists v. unfold act. rewrite step_value.
  - unfold M, PM. change (fun n o c vs => Ok (num0 n o c vs)) with (num_ok H T V num0). rewrite Ev. reflexivity.
  - intros o c'. apply profile_depth.
  - apply run_coherent; [intros o c'; apply profile_depth|apply coherent_nil].
Qed.

(** *** C02: several surfaces *)
(** Partial: true as long as every item assignment goes to a surface whose memory nobody else shares and
    stepheight_level (which caches an object) is not used.  Missing: the general claim is false, see below. *)
Theorem C02_calls_current_when_unshared_partial :
  forall (X V K : Type) (keqb : K -> K -> bool) (f : K -> list X -> V) (dflt : X),
  (forall a b, keqb a b = true <-> a = b) ->
  forall l, safe_history X V K keqb f dflt (hinit X V K) l ->
  forall n i k v, nth_error l n = Some (HCall i k) ->
    nth_error (snd (hrun X V K keqb f dflt (hinit X V K) l)) n = Some (HVal v) ->
    heights X V K dflt (fst (hrun X V K keqb f dflt (hinit X V K) (firstn n l))) i <> None /\
    forall d, heights X V K dflt (fst (hrun X V K keqb f dflt (hinit X V K) (firstn n l))) i = Some d -> v = f k d.
Proof.
  intros X V K keqb f dflt Hk l Hs n i k v En Ev.
  destruct (hinit_ok X V K keqb f dflt) as [W C].
  destruct (hrun_correct X V K keqb Hk f dflt l _ W C Hs n i k v En Ev) as (s & Es & Hv).
  unfold heights. rewrite Es. cbn. split; [discriminate|]. intros d E; injection E as <-. exact Hv.
Qed.

(** An item assignment on a cropped or zoomed surface raises ValueError and changes nothing. *)
Theorem C02_view_is_readonly :
  forall (X V K : Type) (keqb : K -> K -> bool) (f : K -> list X -> V) (dflt : X) h i s p x,
  nth_error (surfs h) i = Some s -> s_writable s = false ->
  hstep X V K keqb f dflt h (HSet i p x) = (h, HErr ValueError).
Proof. exact hset_readonly. Qed.

(** ... whichever surface was cropped or zoomed, and in whichever state: the surface returned by the crop (or the surface
    itself after an in-place crop) refuses item assignment, and nothing changes. *)
Theorem C02_crop_refuses_assignment :
  forall (X V K : Type) (keqb : K -> K -> bool) (f : K -> list X -> V) (dflt : X) h h1 i j sel p x,
  (hstep X V K keqb f dflt h (HView i sel) = (h1, HNewSurf j) ->
     hstep X V K keqb f dflt h1 (HSet j p x) = (h1, HErr ValueError)) /\
  (hstep X V K keqb f dflt h (HViewIn i sel) = (h1, HDone) ->
     hstep X V K keqb f dflt h1 (HSet i p x) = (h1, HErr ValueError)).
Proof.
  intros X V K keqb f dflt h h1 i j sel p x. split; intros H; cbn [hstep] in H;
    destruct (nth_error (surfs h) i) as [s|] eqn:E; try discriminate; injection H as <-.
  - subst j. eapply hset_readonly; [cbn [surfs]; rewrite nth_error_app2, Nat.sub_diag by auto; reflexivity|reflexivity].
  - eapply hset_readonly; [cbn [surfs]; rewrite nth_error_upd, Nat.eqb_refl, E; reflexivity|reflexivity].
Qed.

Definition zsum (l : list Z) : Z := fold_right Z.add 0%Z l.
Definition toy_run := hrun Z Z unit (fun _ _ => true) (fun _ => zsum) 0%Z (hinit Z Z unit).
Definition toy_heights l i := heights Z Z unit 0%Z (fst (toy_run l)) i.

(** C02 refuted, 1: b = a[...]; a.Sum(); b[0] = 9; a.Sum() returns the old value although a changed. *)
Definition hist_slice : list (haction Z unit) :=
  [HNew [1; 2; 3]%Z; HSlice 0 [0; 1]; HCall 0 tt; HSet 1 0 9%Z; HCall 0 tt].
Theorem C02_slice_edit_refuted :
  exists v d, nth_error (snd (toy_run hist_slice)) 4 = Some (HVal v) /\
              toy_heights (firstn 4 hist_slice) 0 = Some d /\ v <> zsum d.
Proof. exists 6%Z, [9; 2; 3]%Z. repeat split; try reflexivity. discriminate. Qed.

(** C02 refuted, 2: b = a.crop(...); b.Sum(); a[0] = 9; b.Sum() is stale although b's heights changed. *)
Definition hist_crop : list (haction Z unit) :=
  [HNew [1; 2; 3]%Z; HView 0 [0; 1]; HCall 1 tt; HSet 0 0 9%Z; HCall 1 tt].
Theorem C02_crop_parent_edit_refuted :
  exists v d, nth_error (snd (toy_run hist_crop)) 4 = Some (HVal v) /\
              toy_heights (firstn 4 hist_crop) 1 = Some d /\ v <> zsum d.
Proof. exists 3%Z, [9; 2]%Z. repeat split; try reflexivity. discriminate. Qed.

(** C03 refuted: s.stepheight_level() twice returns the same object; editing the first result changes what the
    second call returns although s itself was not touched. *)
Definition hist_level : list (haction Z unit) :=
  [HNew [1; 2; 3]%Z; HCachedOp 0 tt (map (fun z => z - 1)%Z); HOpIn 1 (map (fun z => z + 7)%Z);
   HCachedOp 0 tt (map (fun z => z - 1)%Z)].
Theorem C03_stepheight_level_copy_refuted :
  nth_error (snd (toy_run hist_level)) 1 = Some (HNewSurf 1) /\
  nth_error (snd (toy_run hist_level)) 3 = Some (HNewSurf 1) /\
  toy_heights hist_level 0 = Some [1; 2; 3]%Z /\
  toy_heights hist_level 1 = Some [7; 8; 9]%Z.
Proof. repeat split; reflexivity. Qed.

(** *** Concrete cases *)
Definition tyH := list (list (option Z)).
Definition trows (d : tyH) := Z.of_nat (length d).
Definition tcols (d : tyH) := match d with [] => 0%Z | r :: _ => Z.of_nat (length r) end.
Definition tmissing (d : tyH) := existsb (existsb (fun c => match c with None => true | _ => false end)) d.
Definition tsum (d : tyH) : Z := fold_right Z.add 0%Z (map (fun c => match c with Some z => z | None => 0%Z end) (concat d)).
Definition tnum (n : string) (o : obs tyH Z) (c : call pyarg) (vs : list Z) : res Z :=
  Ok (tsum (o_data o) + 10 * Z.of_nat (String.length n) + zsum vs + o_w o)%Z.
Definition pnone : pyarg := exist _ PNone eq_refl.
Definition ptrue : pyarg := exist _ (PBool true) eq_refl.
Definition pstr1 : pyarg := exist _ (PStr ["1"%char]) eq_refl.
Definition pint (z : Z) : pyarg := exist _ (PInt z) eq_refl.
Definition tM := SM tmissing tnum (fun _ _ => pnone) (fun _ _ => false) (fun _ _ _ => false) pnone.
Definition thist := history trows tcols tmissing Z.mul tM.
Definition tnew := construct (V := Z) trows tcols Z.mul [[Some 1; Some 2]; [Some 3; Some 4]]%Z 2%Z 3%Z.
Definition tset (v : option Z) : action tyH Z Z pyarg :=
  ASetItem (fun d => match d with (_ :: r) :: rs => Ok ((v :: r) :: rs) | _ => Err IndexError end).
Definition tcenter : oper tyH Z Z pyarg :=
  simple_op tyH Z Z pyarg (fun _ o _ _ => Ok (map (map (option_map (fun z => z - 1)%Z)) (o_data o), None, None)) "center" (mkCall "center" [] []).
Definition ex_hist : list (action tyH Z Z pyarg) :=
  [ACall (mkCall "Sa" [] []); ACall (mkCall "Sa" [] []); tset (Some 50%Z); ACall (mkCall "Sa" [] []);
   tset None; ACall (mkCall "Sa" [] []); ACall (mkCall "stepheight" [] []); tset (Some 1%Z); AInplace tcenter;
   ACall (mkCall "Sa" [] []); ACopy tcenter; ACall (mkCall "Sdr" [pint 3] [])].
Example ex_hist_edits : numpy_edits trows tcols ex_hist.
Proof.
  unfold numpy_edits, ex_hist. repeat (apply Forall_cons; [|]); try apply Forall_nil; cbn; try exact I;
  intros d d' E; destruct d as [|[|x r] rs]; try discriminate; injection E as <-; split; reflexivity.
Qed.
(** The history really reads through the cache (second call) and really changes the answer afterwards. *)
Example ex_hist_run : snd (thist tnew ex_hist) =
  [OVal 214; OVal 214; OUnit; OVal 312; OUnit; OErr ValueError; OVal 673; OUnit; OSelf; OVal 206;
   OObj (mkObs [[Some (-1); Some 0]; [Some 1; Some 2]]%Z 2 3 2 3); OVal 314]%Z.
Proof. vm_compute. reflexivity. Qed.
Example ex_cache_filled : b_cache (fst (thist tnew (firstn 1 ex_hist))) <> [].
Proof. vm_compute. discriminate. Qed.
(** The reported mutator refutation: two calls differ from two applications. *)
Example ex_mutator :
  let sci b := step_cached_inplace tyH Z Z pyarg str_args str_kwargs trows tcols tmissing Z.mul tM 6 b
                 (mkCall "stepheight_level" [] [("inplace", ptrue)]) 0%Z tcenter in
  o_data (b_obs (fst (sci (fst (sci tnew))))) = [[Some 0; Some 1]; [Some 2; Some 3]]%Z /\
  o_data (fst (act_uncached trows tcols tmissing Z.mul tM
      (fst (act_uncached trows tcols tmissing Z.mul tM (b_obs tnew) (AInplace tcenter))) (AInplace tcenter)))
    = [[Some (-1); Some 0]; [Some 1; Some 2]]%Z.
Proof. split; vm_compute; reflexivity. Qed.
Theorem C03_stepheight_level_inplace_refuted : exists b c (p : oper tyH Z Z pyarg),
  let sci b := fst (step_cached_inplace tyH Z Z pyarg str_args str_kwargs trows tcols tmissing Z.mul tM 6 b c 0%Z p) in
  b_obs (sci (sci b)) <>
  fst (act_uncached trows tcols tmissing Z.mul tM
      (fst (act_uncached trows tcols tmissing Z.mul tM (b_obs b) (AInplace p))) (AInplace p)).
Proof.
  exists tnew, (mkCall "stepheight_level" [] [("inplace", ptrue)]), tcenter.
  vm_compute. discriminate.
Qed.
Example ex_safe : safe_history Z Z unit (fun _ _ => true) (fun _ => zsum) 0%Z (hinit Z Z unit)
  [HNew [1; 2; 3]%Z; HCall 0 tt; HSet 0 0 9%Z; HCall 0 tt; HOp 0 (map Z.opp); HSet 1 1 5%Z; HCall 1 tt].
Proof.
  repeat split.
  - intros s j s' E1 E2 _. cbn in *. destruct j as [|[|j]]; [reflexivity|discriminate|discriminate].
  - intros s j s' E1 E2 E3. cbn in *. injection E1 as <-.
    destruct j as [|[|[|j]]]; cbn in E2; try discriminate; [|reflexivity].
    injection E2 as <-. discriminate E3.
Qed.
(** Keys: 1 (int) and '1' (str), p=1 and q=1, (1, 2) and ((1, 2),) are all told apart. *)
Example ex_keys :
  key_of pyarg str_args str_kwargs (mkCall "Smc" [pint 1] []) <>
  key_of pyarg str_args str_kwargs (mkCall "Smc" [pstr1] []).
Proof. vm_compute. discriminate. Qed.

Print Assumptions C01_surface_never_stale.
Print Assumptions C01_profile_never_stale.
Print Assumptions C01_surface_history.
Print Assumptions C01_profile_history.
Print Assumptions C01_key_identifies_call.
Print Assumptions C02_calls_current_when_unshared_partial.
Print Assumptions C02_view_is_readonly.
Print Assumptions C02_slice_edit_refuted.
Print Assumptions C02_crop_parent_edit_refuted.
Print Assumptions C03_uncached_inplace_repeats.
Print Assumptions C03_cached_inplace_never_repeats.
Print Assumptions C03_stepheight_level_copy_refuted.
Print Assumptions C03_stepheight_level_inplace_refuted.
Print Assumptions C04_inplace_agrees_with_copy.
Print Assumptions C05_extent_matches_shape.
Print Assumptions C06_surface_rejects_incomplete.
Print Assumptions C06_profile_rejects_incomplete.
Print Assumptions C06_surface_accepts_complete.
Print Assumptions C06_profile_accepts_complete.
