(** Property theorems C09, C17, C18, C19, C27, C31, C67, C68 (slicing, crop, zoom, profiles, rotate). *)
From Coq Require Import String Reals List Bool Arith ZArith Lia Lra.
From Verif Require Import Base RList ModelMath ProofMath ModelHeights ProofHeights ModelGeom SpecGeom ProofGeom.
Import ListNotations.
Local Open Scope Z_scope.

(** ** C09.  Specification of Python slice selection: position k of a sequence of length n is selected by start:stop:p. *)
Definition from_end (n i : Z) : Z := if i <? 0 then i + n else i.
Definition selected (n : Z) (start stop : option Z) (p k : Z) : Prop :=
  0 <= k < n /\
  if 0 <? p then
    let lo := match start with None => 0 | Some i => Z.max 0 (from_end n i) end in
    let hi := match stop with None => n | Some i => from_end n i end in
    lo <= k < hi /\ (k - lo) mod p = 0
  else
    let lo := match start with None => n - 1 | Some i => Z.min (n - 1) (from_end n i) end in
    let hi := match stop with None => -1 | Some i => from_end n i end in
    hi < k <= lo /\ (lo - k) mod (- p) = 0.
Definition slice_step (s : pslice) : Z := match sl_step s with None => 1 | Some p => p end.

Theorem C09_selection : forall n s is, 0 <= n -> slice_indices n s = Ok is ->
  (forall k, In k is <-> selected n (sl_start s) (sl_stop s) (slice_step s) k) /\
  (forall t k k', nth_error is t = Some k -> nth_error is (S t) = Some k' -> k' = k + slice_step s).
Proof.
  intros n s is Hn E. split.
  2:{ intros t k k' H1 H2. apply (slice_indices_nth n s is _ _ E) in H1. apply (slice_indices_nth n s is _ _ E) in H2.
      change (slice_step s) with (stepval s). lia. }
  intros k. assert (E' := E). rewrite slice_indices_eq in E'. change (slice_step s) with (stepval s).
  destruct (Z.eqb_spec (stepval s) 0) as [H0|H0]; [discriminate|]. injection E' as E'.
  assert (Hin : In k is <-> exists t, (t < slice_count (startval n s) (stopval n s) (stepval s))%nat /\
                                      k = startval n s + Z.of_nat t * stepval s).
  { rewrite <- E', in_map_iff. split; intros (t & A & B); exists t.
    - apply in_seq in B. split; [lia|auto].
    - split; [auto|apply in_seq; lia]. }
  unfold selected. split.
  - intros Hk. assert (Rg := slice_indices_range n s is k Hn E Hk). split; [exact Rg|].
    apply Hin in Hk as (t & Ht & Ek).
    destruct (Z.ltb_spec 0 (stepval s)) as [Hp|Hp].
    + apply count_pos in Ht; [|exact Hp]. rewrite <- Ek in Ht.
      unfold startval, stopval in *. destruct (Z.ltb_spec 0 (stepval s)); [|lia].
      set (lo := match sl_start s with None => 0 | Some i => Z.max 0 (from_end n i) end).
      assert (Hlo : lo = match sl_start s with None => 0 | Some i => clampZ 0 n (wrap n i) end).
      { unfold lo. destruct (sl_start s) as [i|]; auto. unfold clampZ, wrap, from_end in *. destruct (i <? 0); nia. }
      split; [split|].
      * rewrite Hlo. nia.
      * destruct (sl_stop s) as [i|]; [|lia]. unfold clampZ, wrap, from_end in *. destruct (i <? 0); lia.
      * rewrite Ek, <- Hlo. replace (lo + Z.of_nat t * stepval s - lo) with (Z.of_nat t * stepval s) by lia.
        apply Z.mod_mul. exact H0.
    + assert (Hp' : stepval s < 0) by lia. apply count_neg in Ht; [|exact Hp']. rewrite <- Ek in Ht.
      unfold startval, stopval in *. destruct (Z.ltb_spec 0 (stepval s)); [lia|].
      set (lo := match sl_start s with None => n - 1 | Some i => Z.min (n - 1) (from_end n i) end).
      assert (Hlo : lo = match sl_start s with None => n - 1 | Some i => clampZ (-1) (n - 1) (wrap n i) end).
      { unfold lo. destruct (sl_start s) as [i|]; auto. unfold clampZ, wrap, from_end in *. destruct (i <? 0); nia. }
      split; [split|].
      * destruct (sl_stop s) as [i|]; [|lia]. unfold clampZ, wrap, from_end in *. destruct (i <? 0); lia.
      * rewrite Hlo. nia.
      * rewrite Ek, <- Hlo. replace (lo - (lo + Z.of_nat t * stepval s)) with (Z.of_nat t * - stepval s) by lia.
        apply Z.mod_mul. lia.
  - intros [Rg H]. apply Hin. destruct (Z.ltb_spec 0 (stepval s)) as [Hp|Hp].
    + set (lo := match sl_start s with None => 0 | Some i => Z.max 0 (from_end n i) end) in *.
      destruct H as [[H1 H2] H3].
      assert (Hlo : lo = startval n s).
      { unfold lo, startval. destruct (Z.ltb_spec 0 (stepval s)); [|lia]. destruct (sl_start s) as [i|]; auto.
        unfold clampZ, wrap, from_end in *. destruct (i <? 0); lia. }
      assert (Hhi : k < stopval n s).
      { unfold stopval. destruct (Z.ltb_spec 0 (stepval s)); [|lia]. destruct (sl_stop s) as [i|]; [|lia].
        unfold clampZ, wrap, from_end in *. destruct (i <? 0); lia. }
      exists (Z.to_nat ((k - lo) / stepval s)).
      assert (D := Z.div_mod (k - lo) (stepval s) H0). rewrite H3 in D.
      assert (0 <= (k - lo) / stepval s) by (apply Z.div_pos; lia).
      rewrite count_pos by exact Hp. rewrite Z2Nat.id by assumption. rewrite <- Hlo. nia.
    + set (lo := match sl_start s with None => n - 1 | Some i => Z.min (n - 1) (from_end n i) end) in *.
      destruct H as [[H1 H2] H3]. assert (Hp' : stepval s < 0) by lia.
      assert (Hlo : lo = startval n s).
      { unfold lo, startval. destruct (Z.ltb_spec 0 (stepval s)); [lia|]. destruct (sl_start s) as [i|]; auto.
        unfold clampZ, wrap, from_end in *. destruct (i <? 0); lia. }
      assert (Hhi : stopval n s < k).
      { unfold stopval. destruct (Z.ltb_spec 0 (stepval s)); [lia|]. destruct (sl_stop s) as [i|]; [|lia].
        unfold clampZ, wrap, from_end in *. destruct (i <? 0); lia. }
      exists (Z.to_nat ((lo - k) / - stepval s)).
      assert (D := Z.div_mod (lo - k) (- stepval s) ltac:(lia)). rewrite H3 in D.
      assert (0 <= (lo - k) / - stepval s) by (apply Z.div_pos; lia).
      rewrite count_neg by exact Hp'. rewrite Z2Nat.id by assumption. rewrite <- Hlo. nia.
Qed.

(** surface[rows, cols]: the heights are those of the selected rows and columns, in order. *)
Theorem C09_heights : forall r c s s', rect (s_data s) ->
  getitem (XTwo (ISlice r) (ISlice c)) s = Ok s' ->
  exists ri ci,
    slice_indices (Z.of_nat (nrows (s_data s))) r = Ok ri /\ slice_indices (Z.of_nat (ncols (s_data s))) c = Ok ci /\
    nrows (s_data s') = length ri /\ (ri <> [] -> ncols (s_data s') = length ci) /\
    (forall i j, cell (s_data s') i j =
       match nth_error ri i, nth_error ci j with
       | Some a, Some b => cell (s_data s) (Z.to_nat a) (Z.to_nat b) | _, _ => None end) /\
    s_sy s' = (IZR (slice_step r) * s_sy s)%R /\ s_sx s' = (IZR (slice_step c) * s_sx s)%R.
Proof.
  intros r c s s' R. unfold getitem. destruct (gslice r c (s_data s)) as [g|] eqn:E; [|discriminate]. cbn [rbind].
  intros X. injection X as <-. apply gslice_inv in E as (ri & ci & E1 & E2 & ->). exists ri, ci.
  assert (H1 : forall i, In i ri -> 0 <= i < Z.of_nat (nrows (s_data s))) by (intros i; eapply slice_indices_range; eauto; lia).
  assert (H2 : forall i, In i ci -> 0 <= i < Z.of_nat (ncols (s_data s))) by (intros i; eapply slice_indices_range; eauto; lia).
  split; [exact E1|]. split; [exact E2|]. cbn [s_data s_sx s_sy].
  split; [apply gs_nrows; auto|]. split; [apply gs_ncols; auto|]. split; [apply gs_cell; auto|].
  unfold step_of, slice_step. destruct (sl_step r), (sl_step c); split; try reflexivity; lra.
Qed.
(** For positive steps the stored step is the physical distance of neighbouring points. *)
Theorem C09_distance_partial : forall r s s' ri, rect (s_data s) -> (0 < s_sy s)%R -> (0 < slice_step r) ->
  getitem (XOne (ISlice r)) s = Ok s' -> slice_indices (Z.of_nat (nrows (s_data s))) r = Ok ri ->
  (0 < s_sy s')%R /\ s_sx s' = s_sx s /\
  forall t a b, nth_error ri t = Some a -> nth_error ri (S t) = Some b ->
    s_sy s' = Rabs (IZR b * s_sy s - IZR a * s_sy s).
Proof.
  intros r s s' ri R Hs Hp E Er. unfold getitem in E.
  destruct (gslice r full (s_data s)) as [g|] eqn:Eg; [|discriminate]. cbn [rbind] in E. injection E as <-.
  assert (S : step_of r (s_sy s) = (IZR (slice_step r) * s_sy s)%R).
  { unfold step_of, slice_step. destruct (sl_step r); [reflexivity|lra]. }
  assert (P : (0 < IZR (slice_step r) * s_sy s)%R) by (apply Rmult_lt_0_compat; [apply IZR_lt, Hp|exact Hs]).
  cbn. rewrite S. split; [exact P|]. split; [reflexivity|]. intros t a b Ha Hb.
  destruct (C09_selection _ _ _ (Nat2Z.is_nonneg _) Er) as [_ N]. rewrite (N t a b Ha Hb), plus_IZR.
  replace ((IZR a + IZR (slice_step r)) * s_sy s - IZR a * s_sy s)%R with (IZR (slice_step r) * s_sy s)%R by lra.
  rewrite Rabs_right; lra.
Qed.
(** A negative step makes the step size negative: the positivity part of the claim is false. *)
Theorem C09_negative_step_refuted : exists s', 
  getitem (XOne (ISlice (mkSlice None None (Some (-1))))) (mkSurf [[Some 0%R]; [Some 1%R]] 1 1) = Ok s' /\
  s_data s' = [[Some 1%R]; [Some 0%R]] /\ (s_sy s' < 0)%R.
Proof. eexists. split; [reflexivity|]. split; [reflexivity|]. cbn. lra. Qed.
Theorem C09_int_index_rejected : forall i j s, getitem (XOne (IInt i)) s = Err IndexError /\
  getitem (XTwo (IInt i) j) s = Err IndexError /\ getitem (XTwo j (IInt i)) s = Err IndexError.
Proof. intros i [k|k] s; auto. Qed.
Example ex_C09 : exists s', getitem (XTwo (ISlice (mkSlice None None (Some 2))) (ISlice (mkSlice (Some (-2)) None None)))
  (mkSurf [[Some 0; Some 1; Some 2]; [Some 3; Some 4; Some 5]; [Some 6; None; Some 8]]%R 1 1) = Ok s' /\
  s_data s' = [[Some 1; Some 2]; [None; Some 8]]%R.
Proof. eexists. split; reflexivity. Qed.

(** ** C17.  [window g r0 c0 nr nc g'] : g' consists of nr rows from r0 and nc columns from c0 (SpecGeom). *)
Definition inside (s : surf) (x0 x1 y0 y1 : Z) : Prop :=
  0 <= x0 <= x1 /\ x1 <= Z.of_nat (ncols (s_data s)) - 1 /\ 0 <= y0 <= y1 /\ y1 <= Z.of_nat (nrows (s_data s)) - 1.
Lemma crop_px_window s b x0 x1 y0 y1 : rect (s_data s) -> box_px b s = (x0, x1, y0, y1) -> inside s x0 x1 y0 y1 ->
  exists s', crop b s = Ok s' /\ s_sx s' = s_sx s /\ s_sy s' = s_sy s /\
    window (s_data s) (Z.to_nat y0) (Z.to_nat x0) (Z.to_nat (y1 - y0 + 1)) (Z.to_nat (x1 - x0 + 1)) (s_data s').
Proof.
  intros R B (H1 & H2 & H3 & H4). unfold crop. rewrite B.
  destruct (Z.ltb_spec x0 0); [lia|]. destruct (Z.ltb_spec y0 0); [lia|].
  destruct (Z.ltb_spec (Z.of_nat (ncols (s_data s)) - 1) x1); [lia|].
  destruct (Z.ltb_spec (Z.of_nat (nrows (s_data s)) - 1) y1); [lia|]. cbn [orb].
  destruct (gslice_window (s_data s) y0 (y1 + 1) x0 (x1 + 1) R) as (g & E & W); try lia.
  rewrite E. cbn [rbind]. eexists. split; [reflexivity|]. split; [reflexivity|]. split; [reflexivity|]. cbn [s_data].
  replace (y1 - y0 + 1) with (Z.min (y1 + 1) (Z.of_nat (nrows (s_data s))) - y0) by lia.
  replace (x1 - x0 + 1) with (Z.min (x1 + 1) (Z.of_nat (ncols (s_data s))) - x0) by lia. exact W.
Qed.
Theorem C17_pixels : forall s x0 x1 y0 y1, rect (s_data s) -> inside s x0 x1 y0 y1 ->
  exists s', crop (BPixels x0 x1 y0 y1) s = Ok s' /\ s_sx s' = s_sx s /\ s_sy s' = s_sy s /\
    window (s_data s) (Z.to_nat y0) (Z.to_nat x0) (Z.to_nat (y1 - y0 + 1)) (Z.to_nat (x1 - x0 + 1)) (s_data s').
Proof. intros. now apply crop_px_window. Qed.
(** In units: x positions are rounded to the nearest column; y is measured upwards from the bottom row, so the point
    at height y lies in row ny - 1 - y / step_y. *)
Theorem C17_units : forall s b0 b1 b2 b3 x0 x1 d u, rect (s_data s) ->
  (Rabs (b0 / s_sx s - IZR x0) < 1 / 2)%R -> (Rabs (b1 / s_sx s - IZR x1) < 1 / 2)%R ->
  (Rabs (b2 / s_sy s - IZR d) < 1 / 2)%R -> (Rabs (b3 / s_sy s - IZR u) < 1 / 2)%R ->
  0 <= x0 <= x1 -> x1 <= Z.of_nat (ncols (s_data s)) - 1 -> 0 <= d <= u -> u <= Z.of_nat (nrows (s_data s)) - 1 ->
  exists s', crop (BUnits b0 b1 b2 b3) s = Ok s' /\ s_sx s' = s_sx s /\ s_sy s' = s_sy s /\
    window (s_data s) (Z.to_nat (Z.of_nat (nrows (s_data s)) - 1 - u)) (Z.to_nat x0)
           (Z.to_nat (u - d + 1)) (Z.to_nat (x1 - x0 + 1)) (s_data s').
Proof.
  intros s b0 b1 b2 b3 x0 x1 d u R B0 B1 B2 B3 Hx Hx1 Hd Hu.
  set (N := Z.of_nat (nrows (s_data s))) in *.
  destruct (crop_px_window s (BUnits b0 b1 b2 b3) x0 x1 (N - u - 1) (N - d - 1) R) as (s' & E & E1 & E2 & W).
  - unfold box_px. rewrite (pyround_near _ _ B0), (pyround_near _ _ B1), (pyround_near _ _ B2), (pyround_near _ _ B3). reflexivity.
  - unfold inside. fold N. lia.
  - exists s'. split; [exact E|]. split; [exact E1|]. split; [exact E2|].
    replace (N - 1 - u) with (N - u - 1) by lia. replace (u - d + 1) with (N - d - 1 - (N - u - 1) + 1) by lia. exact W.
Qed.
Theorem C17_full_extent : forall s, rect (s_data s) -> (0 < nrows (s_data s))%nat -> (0 < ncols (s_data s))%nat ->
  (0 < s_sx s)%R -> (0 < s_sy s)%R ->
  crop (BUnits 0 ((INR (ncols (s_data s)) - 1) * s_sx s) 0 ((INR (nrows (s_data s)) - 1) * s_sy s)) s = Ok s.
Proof.
  intros s R Hn Hm Hx Hy. set (N := nrows (s_data s)) in *. set (M := ncols (s_data s)) in *.
  assert (Q : forall (k : nat) st, (0 < k)%nat -> (0 < st)%R -> (Rabs ((INR k - 1) * st / st - IZR (Z.of_nat k - 1)) < 1 / 2)%R).
  { intros k st Hk Hst. rewrite minus_IZR, <- INR_IZR_INZ.
    replace ((INR k - 1) * st / st - (INR k - 1))%R with 0%R by (field; lra). rewrite Rabs_R0. lra. }
  assert (Z0 : forall st, (0 < st)%R -> (Rabs (0 / st - IZR 0) < 1 / 2)%R).
  { intros st Hst. replace (0 / st - 0)%R with 0%R by (field; lra). rewrite Rabs_R0. lra. }
  destruct (C17_units s _ _ _ _ 0 (Z.of_nat M - 1) 0 (Z.of_nat N - 1) R (Z0 _ Hx) (Q M _ Hm Hx) (Z0 _ Hy) (Q N _ Hn Hy))
    as (s' & E & E1 & E2 & W); fold M N; try lia.
  rewrite E. f_equal. destruct s' as [g sx sy], s as [g0 sx0 sy0]. cbn in *. subst sx0 sy0. f_equal.
  eapply window_unique; [exact W|]. fold N.
  replace (Z.to_nat (Z.of_nat N - 1 - (Z.of_nat N - 1))) with 0%nat by lia.
  replace (Z.to_nat (Z.of_nat N - 1 - 0 + 1)) with N by lia.
  replace (Z.to_nat (Z.of_nat M - 1 - 0 + 1)) with M by lia. apply window_full, R.
Qed.
Theorem C17_nested : forall s s1 s2 x0 x1 y0 y1 a0 a1 c0 c1, rect (s_data s) -> inside s x0 x1 y0 y1 ->
  crop (BPixels x0 x1 y0 y1) s = Ok s1 -> inside s1 a0 a1 c0 c1 -> crop (BPixels a0 a1 c0 c1) s1 = Ok s2 ->
  crop (BPixels (x0 + a0) (x0 + a1) (y0 + c0) (y0 + c1)) s = Ok s2.
Proof.
  intros s s1 s2 x0 x1 y0 y1 a0 a1 c0 c1 R I E I1 E2.
  destruct (C17_pixels s x0 x1 y0 y1 R I) as (s1' & E' & X1 & Y1 & W). rewrite E in E'. injection E' as <-.
  assert (Hdim : nrows (s_data s1) = Z.to_nat (y1 - y0 + 1) /\ ncols (s_data s1) = Z.to_nat (x1 - x0 + 1)).
  { destruct W as (W1 & _ & W3 & _). split; [exact W1|]. apply W3. destruct I as (_ & _ & I & _). lia. }
  destruct Hdim as [D1 D2]. unfold inside in I, I1. rewrite D1, D2 in I1.
  destruct (C17_pixels s1 a0 a1 c0 c1) as (s2' & E2' & X2 & Y2 & W2);
    [apply W|unfold inside; rewrite D1, D2; lia|]. rewrite E2 in E2'. injection E2' as <-.
  destruct (C17_pixels s (x0 + a0) (x0 + a1) (y0 + c0) (y0 + c1) R) as (s3 & E3 & X3 & Y3 & W3); [unfold inside; lia|].
  rewrite E3. f_equal.
  assert (Eg : s_data s3 = s_data s2).
  { eapply window_unique; [exact W3|].
    replace (y0 + c1 - (y0 + c0) + 1) with (c1 - c0 + 1) by lia. replace (x0 + a1 - (x0 + a0) + 1) with (a1 - a0 + 1) by lia.
    rewrite (Z2Nat.inj_add y0 c0), (Z2Nat.inj_add x0 a0) by lia. eapply window_compose; [exact W| | |exact W2]; lia. }
  destruct s3, s2. cbn in *. congruence.
Qed.
(** Which boxes are rejected, exactly: *)
Theorem C17_errors_partial : forall s x0 x1 y0 y1,
  crop (BPixels x0 x1 y0 y1) s = Err ValueError <->
  x0 < 0 \/ y0 < 0 \/ Z.of_nat (ncols (s_data s)) <= x1 \/ Z.of_nat (nrows (s_data s)) <= y1.
Proof.
  intros s x0 x1 y0 y1. unfold crop, box_px. split.
  - destruct (Z.ltb_spec x0 0), (Z.ltb_spec y0 0), (Z.ltb_spec (Z.of_nat (ncols (s_data s)) - 1) x1),
      (Z.ltb_spec (Z.of_nat (nrows (s_data s)) - 1) y1); try lia. cbn [orb].
    unfold gslice. rewrite !slice_indices_eq. cbn. discriminate.
  - intros H. destruct (Z.ltb_spec x0 0), (Z.ltb_spec y0 0), (Z.ltb_spec (Z.of_nat (ncols (s_data s)) - 1) x1),
      (Z.ltb_spec (Z.of_nat (nrows (s_data s)) - 1) y1); try lia; reflexivity.
Qed.
(** A box with a negative end, outside the surface, is accepted and silently interpreted from the far side. *)
Theorem C17_negative_end_refuted : exists s', 
  crop (BPixels 0 (-2) 0 0) (mkSurf [[Some 0; Some 1; Some 2; Some 3]]%R 1 1) = Ok s' /\
  s_data s' = [[Some 0; Some 1; Some 2]]%R.
Proof. eexists. split; reflexivity. Qed.
Example ex_C17 : exists s', crop (BPixels 1 2 0 0) (mkSurf [[Some 0; Some 1; Some 2; Some 3]; [None; None; None; None]]%R 1 1) = Ok s' /\
  s_data s' = [[Some 1; Some 2]]%R.
Proof. eexists. split; reflexivity. Qed.

(** ** C18 *)
Lemma zoom_axis n f : (1 <= f)%R -> (0 < n)%nat ->
  exists xn h : Z, zoom_slice n f = sl h (xn + h + 1) /\
    0 <= h <= Z.of_nat n /\ 0 <= xn <= Z.of_nat n /\ 2 * h <= Z.of_nat n - xn <= 2 * h + 1 /\
    (IZR xn <= INR n / f < IZR xn + 1)%R.
Proof.
  intros Hf Hn. unfold zoom_slice. set (xn := pytrunc (INR n / f)).
  assert (P : (0 <= INR n / f)%R).
  { apply Rmult_le_pos; [apply pos_INR|]. left. apply Rinv_0_lt_compat. lra. }
  destruct (pytrunc_bounds _ P) as [B B0]. fold xn in B, B0.
  assert (Hle : (INR n / f <= INR n)%R).
  { unfold Rdiv. rewrite <- (Rmult_1_r (INR n)) at 2. apply Rmult_le_compat_l; [apply pos_INR|].
    rewrite <- Rinv_1. apply Rinv_le_contravar; lra. }
  assert (Hxn : xn <= Z.of_nat n) by (apply le_IZR; rewrite <- INR_IZR_INZ; lra).
  exists xn, (Z.quot (Z.of_nat n - xn) 2). split; [reflexivity|].
  rewrite Z.quot_div_nonneg by lia.
  assert (D := Z.div_mod (Z.of_nat n - xn) 2 ltac:(lia)). assert (M := Z.mod_pos_bound (Z.of_nat n - xn) 2 ltac:(lia)).
  repeat split; try lia; try lra.
Qed.
(** In each direction: the kept window has int(n/f) + 1 points, or n if that is fewer; it is never empty; the numbers
    of dropped points on both sides differ by at most one. *)
Theorem C18_zoom : forall s f, rect (s_data s) -> (0 < nrows (s_data s))%nat -> (0 < ncols (s_data s))%nat -> (1 <= f)%R ->
  exists s' r0 c0 kr kc, zoom f s = Ok s' /\ s_sx s' = s_sx s /\ s_sy s' = s_sy s /\
    (let nr := Nat.min (nrows (s_data s)) (kr + 1) in let nc := Nat.min (ncols (s_data s)) (kc + 1) in
     window (s_data s) r0 c0 nr nc (s_data s') /\ (0 < nr)%nat /\ (0 < nc)%nat /\
     (r0 + nr <= nrows (s_data s))%nat /\ (c0 + nc <= ncols (s_data s))%nat /\
     (let below := nrows (s_data s) - (r0 + nr) in r0 <= below + 1 /\ below <= r0 + 1)%nat /\
     (let right := ncols (s_data s) - (c0 + nc) in c0 <= right + 1 /\ right <= c0 + 1)%nat) /\
    (INR kr <= INR (nrows (s_data s)) / f < INR kr + 1)%R /\ (INR kc <= INR (ncols (s_data s)) / f < INR kc + 1)%R.
Proof.
  intros s f R Hr Hc Hf. set (N := nrows (s_data s)) in *. set (M := ncols (s_data s)) in *.
  destruct (zoom_axis N f Hf Hr) as (xn & h & E1 & A1 & A2 & A3 & A4).
  destruct (zoom_axis M f Hf Hc) as (xm & k & E2 & B1 & B2 & B3 & B4).
  unfold zoom. destruct (Req_EM_T f 0); [lra|]. fold N M. rewrite E1, E2.
  destruct (gslice_window (s_data s) h (xn + h + 1) k (xm + k + 1) R) as (g & E & W); fold N M; try lia.
  rewrite E. cbn [rbind]. eexists. exists (Z.to_nat h), (Z.to_nat k), (Z.to_nat xn), (Z.to_nat xm).
  split; [reflexivity|]. split; [reflexivity|]. split; [reflexivity|]. cbn [s_data]. cbv zeta.
  fold N M in W.
  replace (Z.to_nat (Z.min (xn + h + 1) (Z.of_nat N) - h)) with (Nat.min N (Z.to_nat xn + 1)) in W by lia.
  replace (Z.to_nat (Z.min (xm + k + 1) (Z.of_nat M) - k)) with (Nat.min M (Z.to_nat xm + 1)) in W by lia.
  split; [|rewrite !INR_IZR_INZ, !Z2Nat.id by lia; rewrite INR_IZR_INZ in A4, B4; auto].
  split; [exact W|]. lia.
Qed.
Theorem C18_zoom_one : forall s, rect (s_data s) -> (0 < nrows (s_data s))%nat -> (0 < ncols (s_data s))%nat -> zoom 1 s = Ok s.
Proof.
  intros s R Hr Hc. destruct (C18_zoom s 1 R Hr Hc) as (s' & r0 & c0 & kr & kc & E & X & Y & (W & _ & _ & W1 & W2 & _) & K1 & K2); [lra|].
  rewrite E. f_equal. destruct s' as [g sx sy], s as [g0 sx0 sy0]. cbn [s_data s_sx s_sy] in *. subst sx sy. f_equal.
  assert (Hk : forall k n, (INR k <= INR n / 1 < INR k + 1)%R -> k = n).
  { intros k n [H1 H2]. replace (INR n / 1)%R with (INR n) in * by field. apply INR_le in H1.
    rewrite <- S_INR in H2. apply INR_lt in H2. lia. }
  apply Hk in K1, K2. subst kr kc. rewrite !Nat.min_l in * by lia.
  assert (r0 = 0%nat /\ c0 = 0%nat) as [-> ->] by lia.
  eapply window_unique; [exact W|apply window_full, R].
Qed.
(** Profile.zoom uses the same window. *)
Theorem C18_profile_zoom : forall p f, (0 < length (p_data p))%nat -> (1 <= f)%R ->
  exists p' c0 kc, prof_zoom f p = Ok p' /\ p_step p' = p_step p /\
    (let n := length (p_data p) in let nc := Nat.min n (kc + 1) in
     length (p_data p') = nc /\ (0 < nc)%nat /\ (c0 + nc <= n)%nat /\
     (forall j, nth_error (p_data p') j = if (j <? nc)%nat then nth_error (p_data p) (c0 + j) else None) /\
     (c0 <= n - (c0 + nc) + 1 /\ n - (c0 + nc) <= c0 + 1)%nat) /\
    (INR kc <= INR (length (p_data p)) / f < INR kc + 1)%R.
Proof.
  intros p f Hn Hf. set (N := length (p_data p)) in *.
  destruct (zoom_axis N f Hf Hn) as (xn & h & E1 & A1 & A2 & A3 & A4).
  unfold prof_zoom. destruct (Req_EM_T f 0); [lra|]. fold N. rewrite E1. unfold pyslice. fold N.
  assert (E := sl_indices (Z.of_nat N) h (xn + h + 1) ltac:(lia) ltac:(lia) ltac:(lia)). rewrite E. cbn [rbind].
  eexists. exists (Z.to_nat h), (Z.to_nat xn). split; [reflexivity|]. split; [reflexivity|]. cbn [p_data]. cbv zeta.
  assert (Rg := fun i => slice_indices_range _ _ _ i (Nat2Z.is_nonneg N) E).
  split; [|rewrite !INR_IZR_INZ, !Z2Nat.id by lia; rewrite INR_IZR_INZ in A4; auto].
  split; [rewrite pick_length by exact Rg; rewrite map_length, seq_length; lia|]. split; [lia|]. split; [lia|]. split; [|lia].
  intros j. rewrite pick_nth by exact Rg. rewrite nth_error_shift.
  replace (Z.to_nat (Z.min (xn + h + 1) (Z.of_nat N) - h)) with (Nat.min N (Z.to_nat xn + 1)) by lia.
  destruct (j <? Nat.min N (Z.to_nat xn + 1))%nat; [|reflexivity]. f_equal. lia.
Qed.
Example ex_C18 : exists s', zoom 2 (mkSurf [[Some 0; Some 1; Some 2; Some 3]]%R 1 1) = Ok s'.
Proof.
  destruct (C18_zoom (mkSurf [[Some 0; Some 1; Some 2; Some 3]]%R 1 1) 2) as (s' & _ & _ & _ & _ & E & _); eauto; cbn; try lia; try lra.
  intros r [<-|[]]; reflexivity.
Qed.

(** ** C31 *)
Theorem C31_profile_crop : forall p x0 x1,
  (0 <= x0 < x1 /\ x1 <= Z.of_nat (length (p_data p)) - 1 ->
    exists p', prof_crop false 0 0 x0 x1 p = Ok p' /\ p_step p' = p_step p /\
      length (p_data p') = Z.to_nat (x1 - x0 + 1) /\
      forall j, (j < Z.to_nat (x1 - x0 + 1))%nat -> nth_error (p_data p') j = nth_error (p_data p) (Z.to_nat x0 + j)) /\
  (prof_crop false 0 0 x0 x1 p = Err ValueError <-> ~ (0 <= x0 < x1 /\ x1 <= Z.of_nat (length (p_data p)) - 1)).
Proof.
  intros p x0 x1. set (N := length (p_data p)).
  assert (K : 0 <= x0 < x1 /\ x1 <= Z.of_nat N - 1 ->
    exists p', prof_crop false 0 0 x0 x1 p = Ok p' /\ p_step p' = p_step p /\
      length (p_data p') = Z.to_nat (x1 - x0 + 1) /\
      forall j, (j < Z.to_nat (x1 - x0 + 1))%nat -> nth_error (p_data p') j = nth_error (p_data p) (Z.to_nat x0 + j)).
  { intros [H1 H2]. unfold prof_crop. fold N.
    destruct (Z.ltb_spec x0 0); [lia|]. destruct (Z.ltb_spec (Z.of_nat N - 1) x1); [lia|]. destruct (Z.leb_spec x1 x0); [lia|].
    cbn [orb]. unfold pyslice. fold N.
    assert (E := sl_indices (Z.of_nat N) x0 (x1 + 1) ltac:(lia) ltac:(lia) ltac:(lia)). rewrite E. cbn [rbind].
    eexists. split; [reflexivity|]. split; [reflexivity|]. cbn [p_data].
    assert (Rg := fun i => slice_indices_range _ _ _ i (Nat2Z.is_nonneg N) E).
    split; [rewrite pick_length by exact Rg; rewrite map_length, seq_length; lia|].
    intros j Hj. rewrite pick_nth by exact Rg. rewrite nth_error_shift.
    destruct (Nat.ltb_spec j (Z.to_nat (Z.min (x1 + 1) (Z.of_nat N) - x0))); [f_equal; lia|lia]. }
  split; [exact K|]. split.
  - intros E H. destruct (K H) as (p' & E' & _). congruence.
  - intros H. unfold prof_crop. fold N.
    destruct (Z.ltb_spec x0 0), (Z.ltb_spec (Z.of_nat N - 1) x1), (Z.leb_spec x1 x0); try reflexivity. exfalso. apply H. lia.
Qed.
(** In units: the interval ends are rounded to the nearest sample. *)
Theorem C31_profile_crop_units : forall p a b x0 x1,
  (Rabs (a / p_step p - IZR x0) < 1 / 2)%R -> (Rabs (b / p_step p - IZR x1) < 1 / 2)%R ->
  prof_crop true a b 0 0 p = prof_crop false 0 0 x0 x1 p.
Proof.
  intros p a b x0 x1 Ha Hb. unfold prof_crop. now rewrite (pyround_near _ _ Ha), (pyround_near _ _ Hb).
Qed.
Example ex_C31 : exists p', prof_crop false 0 0 1 2 (mkProf [Some 0; Some 1; None; Some 3]%R 1) = Ok p' /\ p_data p' = [Some 1%R; None].
Proof. eexists. split; reflexivity. Qed.

(** ** C27 *)
Theorem C27_fails_exactly_when_dividing : forall n np, (2 <= np <= n)%nat ->
  (depth_indices n np = Err IndexError <-> Nat.divide (np - 1) n).
Proof.
  intros n np H. unfold depth_indices. destruct (Nat.ltb_spec n np); [lia|]. destruct (Nat.eqb_spec np 1); [lia|].
  set (d := (n / (np - 1))%nat).
  assert (D := Nat.div_mod n (np - 1) ltac:(lia)). fold d in D.
  assert (M := Nat.mod_upper_bound n (np - 1) ltac:(lia)).
  split.
  - destruct (forallb _ _) eqn:F; [discriminate|]. intros _.
    destruct (Nat.eq_dec (n mod (np - 1)) 0) as [Z|Z]; [exists d; nia|exfalso].
    rewrite <- not_true_iff_false in F. apply F. apply forallb_forall. intros i Hi.
    apply in_map_iff in Hi as (k & <- & Hk). apply in_seq in Hk. apply Nat.ltb_lt. nia.
  - intros [q Hq]. assert (d = q) by (unfold d; rewrite Hq; apply Nat.div_mul; lia).
    replace (forallb _ _) with false; [reflexivity|]. symmetry. apply not_true_iff_false. intros F.
    rewrite forallb_forall in F. specialize (F (d * (np - 1))%nat).
    assert (In (d * (np - 1))%nat (map (fun i => (d * i)%nat) (seq 0 np))).
    { apply in_map_iff. exists (np - 1)%nat. split; [reflexivity|]. apply in_seq. lia. }
    specialize (F H2). apply Nat.ltb_lt in F. nia.
Qed.
Theorem C27_otherwise_distinct_rows_partial : forall n np is, (2 <= np <= n)%nat -> depth_indices n np = Ok is ->
  length is = np /\ NoDup is /\ forall i, In i is -> (i < n)%nat.
Proof.
  intros n np is H. unfold depth_indices. destruct (Nat.ltb_spec n np); [lia|]. destruct (Nat.eqb_spec np 1); [lia|].
  set (d := (n / (np - 1))%nat). destruct (forallb _ _) eqn:F; [|discriminate]. intros E. injection E as <-.
  assert (0 < d)%nat by (apply Nat.div_str_pos; lia).
  split; [now rewrite map_length, seq_length|]. split.
  - apply FinFun.Injective_map_NoDup; [|apply seq_NoDup]. intros a b. nia.
  - intros i Hi. rewrite forallb_forall in F. apply Nat.ltb_lt, F, Hi.
Qed.
(** e.g. 5 profiles of a surface with 8 rows: the general claim is false. *)
Theorem C27_refuted : depth_indices 8 5 = Err IndexError /\ depth_indices 29 30 = Err ValueError /\ depth_indices 58 30 = Err IndexError.
Proof. auto. Qed.
Example ex_C27 : depth_indices 9 5 = Ok [0; 2; 4; 6; 8]%nat. Proof. reflexivity. Qed.

(** ** C19 *)
Lemma slice_step1 n a b : slice_indices n (mkSlice (Some a) (Some b) (Some 1)) = slice_indices n (sl a b).
Proof. rewrite !slice_indices_eq. reflexivity. Qed.
Lemma full_indices n : 0 <= n -> slice_indices n full = slice_indices n (sl 0 n).
Proof.
  intros H. rewrite !slice_indices_eq. cbn [stepval full sl sl_step Z.eqb].
  replace (startval n (sl 0 n)) with 0; [replace (stopval n (sl 0 n)) with n; [reflexivity|]|].
  - unfold stopval, sl, stepval, wrap, clampZ; cbn. destruct (Z.ltb_spec n 0); lia.
  - unfold startval, sl, stepval, wrap, clampZ; cbn. lia.
Qed.
Lemma gslice_step1_rows a b c g : gslice (mkSlice (Some a) (Some b) (Some 1)) c g = gslice (sl a b) c g.
Proof. unfold gslice. now rewrite slice_step1. Qed.
Lemma gslice_step1_cols r a b g : gslice r (mkSlice (Some a) (Some b) (Some 1)) g = gslice r (sl a b) g.
Proof. unfold gslice. now rewrite slice_step1. Qed.
Lemma gslice_full_cols r g : gslice r full g = gslice r (sl 0 (Z.of_nat (ncols g))) g.
Proof. unfold gslice. now rewrite (full_indices (Z.of_nat (ncols g))) by lia. Qed.
Lemma gslice_full_rows c g : gslice full c g = gslice (sl 0 (Z.of_nat (nrows g))) c g.
Proof. unfold gslice. now rewrite (full_indices (Z.of_nat (nrows g))) by lia. Qed.

(** The line taken: index k with k = floor(pos / extent * n). *)
Lemma profile_index n step pos : (2 <= n)%nat -> (0 < step)%R -> (0 <= pos < extent n step)%R ->
  let k := pytrunc (pos / extent n step * INR n) in
  0 <= k < Z.of_nat n /\ (Rabs (IZR k * step - pos) <= step)%R.
Proof.
  intros Hn Hs [Hp0 Hp1] k. unfold extent in *.
  assert (N2 : (2 <= INR n)%R) by (change 2%R with (INR 2); apply le_INR, Hn).
  set (e := ((INR n - 1) * step)%R) in *. assert (He : (0 < e)%R) by (apply Rmult_lt_0_compat; lra).
  assert (Q : (0 <= pos / e < 1)%R).
  { split; [apply Rmult_le_pos; [exact Hp0|left; apply Rinv_0_lt_compat, He]|].
    apply Rmult_lt_reg_r with e; [exact He|]. unfold Rdiv. rewrite Rmult_assoc, Rinv_l; lra. }
  assert (P : (0 <= pos / e * INR n)%R) by (apply Rmult_le_pos; lra).
  destruct (pytrunc_bounds _ P) as [B B0]. fold k in B, B0.
  assert (Hlt : (pos / e * INR n < INR n)%R).
  { rewrite <- (Rmult_1_l (INR n)) at 2. apply Rmult_lt_compat_r; lra. }
  split; [split; [exact B0|apply lt_IZR; rewrite <- INR_IZR_INZ; lra]|].
  assert (E : (pos = pos / e * (INR n - 1) * step)%R) by (unfold e; field; split; lra).
  set (q := (pos / e)%R) in *. rewrite E.
  replace (IZR k * step - q * (INR n - 1) * step)%R with ((IZR k - q * (INR n - 1)) * step)%R by lra.
  rewrite Rabs_mult, (Rabs_right step) by lra.
  rewrite <- (Rmult_1_l step) at 2. apply Rmult_le_compat_r; [lra|].
  unfold Rabs; destruct Rcase_abs; nra.
Qed.
Lemma profile_slice_ok n step pos average : (2 <= n)%nat -> (0 < step)%R -> (0 <= pos < extent n step)%R ->
  let k := pytrunc (pos / extent n step * INR n) in
  profile_slice n step pos average None =
  Ok (mkSlice (Some (Z.max 0 (k - Z.quot average 2))) (Some (Z.min (Z.of_nat n) (k + Z.quot average 2) + 1)) (Some 1)).
Proof.
  intros Hn Hs Hp k. unfold profile_slice. destruct (Rlt_dec (extent n step) pos); [lra|].
  destruct (Req_EM_T (extent n step) 0); [lra|]. fold k. rewrite !Z.mul_1_r. do 3 f_equal.
  - f_equal. destruct (Z.ltb_spec (k - Z.quot average 2) 0); lia.
  - f_equal. destruct (Z.ltb_spec (Z.of_nat n) (k + Z.quot average 2)); lia.
Qed.
(** Averaging [average] lines at distance one: line k and average/2 lines on both sides, as far as they exist.
    Each value is the mean of these lines' heights (NaN if one of them is non-measured). *)
Theorem C19_horizontal_partial : forall s y average, rect (s_data s) -> (2 <= nrows (s_data s))%nat ->
  (0 < s_sy s)%R -> (0 <= y < (INR (nrows (s_data s)) - 1) * s_sy s)%R -> 0 <= average ->
  exists p k lo len, get_horizontal_profile y average None s = Ok p /\ p_step p = s_sx s /\
    length (p_data p) = ncols (s_data s) /\
    0 <= k < Z.of_nat (nrows (s_data s)) /\ (Rabs (IZR k * s_sy s - y) <= s_sy s)%R /\
    Z.of_nat lo = Z.max 0 (k - average / 2) /\
    Z.of_nat lo + Z.of_nat len = Z.min (Z.of_nat (nrows (s_data s))) (k + average / 2 + 1) /\
    forall j, (j < ncols (s_data s))%nat -> exists hs, length hs = len /\
      (forall t, (t < len)%nat -> cell (s_data s) (lo + t) j = nth_error hs t) /\
      nth_error (p_data p) j = Some (if existsb is_nan hs then None else Some (meanR (measured hs))).
Proof.
  intros s y average R Hn Hs Hy Ha. set (N := nrows (s_data s)) in *. set (M := ncols (s_data s)) in *.
  destruct (profile_index N (s_sy s) y Hn Hs Hy) as [K1 K2]. set (k := pytrunc (y / extent N (s_sy s) * INR N)) in *.
  rewrite <- (Z.quot_div_nonneg average 2) by lia. assert (Q := Z.quot_pos average 2 Ha ltac:(lia)).
  set (h := Z.quot average 2) in *.
  unfold get_horizontal_profile. fold N M. rewrite (profile_slice_ok N (s_sy s) y average Hn Hs Hy). fold k h. cbn [rbind].
  rewrite gslice_step1_rows, gslice_full_cols. fold M.
  set (lo := Z.max 0 (k - h)). set (hi := Z.min (Z.of_nat N) (k + h) + 1).
  destruct (gslice_window (s_data s) lo hi 0 (Z.of_nat M) R) as (g & E & W); fold N M; try (unfold lo, hi; lia).
  rewrite E. cbn [rbind]. fold N M in W.
  set (len := Z.to_nat (Z.min hi (Z.of_nat N) - lo)) in *.
  exists (mkProf (mean_axis0 M g) (s_sx s)), k, (Z.to_nat lo), len.
  split; [reflexivity|]. split; [reflexivity|].
  split; [cbn; unfold mean_axis0; now rewrite map_length, seq_length|].
  split; [exact K1|]. split; [exact K2|]. split; [unfold lo; lia|]. split; [unfold len, lo, hi; lia|].
  intros j Hj. destruct W as (W1 & W2 & W3 & W4).
  assert (Lpos : (0 < len)%nat) by (unfold len, lo, hi; lia).
  assert (W3' : ncols g = M) by (rewrite W3; lia).
  exists (column g j).
  assert (C : forall (g0 : grid), (forall r, In r g0 -> (j < length r)%nat) ->
     length (column g0 j) = length g0 /\ forall t, nth_error (column g0 j) t = match nth_error g0 t with Some r => nth_error r j | None => None end).
  { induction g0 as [|r g0 IH]; intros H.
    - split; auto. intros [|t]; reflexivity.
    - destruct IH as [I1 I2]; [intros; apply H; right; auto|].
      destruct (nth_error r j) as [x|] eqn:Er.
      2:{ apply nth_error_None in Er. specialize (H r (or_introl eq_refl)). lia. }
      unfold column in *. cbn. rewrite Er. cbn. split; [f_equal; exact I1|]. intros [|t]; cbn; auto. }
  destruct (C g) as [C1 C2]. { intros r Hr. rewrite (W2 r Hr), W3'. exact Hj. }
  split; [rewrite C1; exact W1|]. split.
  - intros t Ht. rewrite C2. change (match nth_error g t with Some r => nth_error r j | None => None end) with (cell g t j).
    rewrite W4. destruct (Nat.ltb_spec t len), (Nat.ltb_spec j (Z.to_nat (Z.min (Z.of_nat M) (Z.of_nat M) - 0))); try lia.
    cbn. reflexivity.
  - cbn. unfold mean_axis0. rewrite nth_error_map, (nth_error_nth' _ 0%nat) by now rewrite seq_length.
    rewrite seq_nth by exact Hj. cbn. f_equal. unfold npmean, nanmean.
    destruct (existsb is_nan (column g j)) eqn:En; [reflexivity|].
    assert (Hm : length (measured (column g j)) = len).
    { rewrite <- (map_length Some), measured_all by exact En. transitivity (length g); [exact C1|exact W1]. }
    destruct (measured (column g j)); [cbn in Hm; lia|reflexivity].
Qed.
(** With average = 1 the profile is exactly row k. *)
Theorem C19_single_row_partial : forall s y, rect (s_data s) -> (2 <= nrows (s_data s))%nat ->
  (0 < s_sy s)%R -> (0 <= y < (INR (nrows (s_data s)) - 1) * s_sy s)%R ->
  exists k, (k < nrows (s_data s))%nat /\ (Rabs (INR k * s_sy s - y) <= s_sy s)%R /\
    exists row, nth_error (s_data s) k = Some row /\ get_horizontal_profile y 1 None s = Ok (mkProf row (s_sx s)).
Proof.
  intros s y R Hn Hs Hy. destruct (C19_horizontal_partial s y 1 R Hn Hs Hy ltac:(lia)) as (p & k & lo & len & E & E1 & E2 & K1 & K2 & L1 & L2 & C).
  change (1 / 2) with 0 in *. assert (lo = Z.to_nat k) by lia. assert (len = 1%nat) by lia. subst lo len.
  exists (Z.to_nat k). split; [lia|]. split; [rewrite INR_IZR_INZ, Z2Nat.id by lia; exact K2|].
  destruct (nth_error (s_data s) (Z.to_nat k)) as [row|] eqn:Er; [|apply nth_error_None in Er; unfold nrows in *; lia].
  exists row. split; [reflexivity|]. rewrite E. f_equal. destruct p as [d st]. cbn [p_data p_step] in *. subst st. f_equal.
  assert (Lr := rect_row _ _ _ R Er). apply nth_error_ext'. intros j.
  destruct (Nat.ltb_spec j (ncols (s_data s))) as [Hj|Hj].
  - destruct (C j Hj) as (hs & H1 & H2 & H3). rewrite H3. destruct hs as [|h [|h' hs]]; try discriminate H1.
    specialize (H2 0%nat ltac:(lia)). rewrite Nat.add_0_r in H2. unfold cell in H2. rewrite Er in H2. cbn in H2. rewrite H2.
    destruct h as [x|]; cbn; [|reflexivity]. do 2 f_equal. unfold meanR. cbn. field.
  - replace (nth_error row j) with (@None height); [|symmetry; apply nth_error_None; lia].
    apply nth_error_None. lia.
Qed.
Theorem C19_vertical_partial : forall s x average, rect (s_data s) -> (2 <= ncols (s_data s))%nat ->
  (0 < s_sx s)%R -> (0 <= x < (INR (ncols (s_data s)) - 1) * s_sx s)%R -> 0 <= average ->
  exists p k lo len, get_vertical_profile x average None s = Ok p /\ p_step p = s_sy s /\
    length (p_data p) = nrows (s_data s) /\
    0 <= k < Z.of_nat (ncols (s_data s)) /\ (Rabs (IZR k * s_sx s - x) <= s_sx s)%R /\
    Z.of_nat lo = Z.max 0 (k - average / 2) /\
    Z.of_nat lo + Z.of_nat len = Z.min (Z.of_nat (ncols (s_data s))) (k + average / 2 + 1) /\
    forall i, (i < nrows (s_data s))%nat -> exists hs, length hs = len /\
      (forall t, (t < len)%nat -> cell (s_data s) i (lo + t) = nth_error hs t) /\
      nth_error (p_data p) i = Some (if existsb is_nan hs then None else Some (meanR (measured hs))).
Proof.
  intros s x average R Hn Hs Hy Ha. set (N := nrows (s_data s)) in *. set (M := ncols (s_data s)) in *.
  destruct (profile_index M (s_sx s) x Hn Hs Hy) as [K1 K2]. set (k := pytrunc (x / extent M (s_sx s) * INR M)) in *.
  rewrite <- (Z.quot_div_nonneg average 2) by lia. assert (Q := Z.quot_pos average 2 Ha ltac:(lia)).
  set (h := Z.quot average 2) in *.
  unfold get_vertical_profile. fold N M. rewrite (profile_slice_ok M (s_sx s) x average Hn Hs Hy). fold k h. cbn [rbind].
  rewrite gslice_step1_cols, gslice_full_rows. fold N.
  set (lo := Z.max 0 (k - h)). set (hi := Z.min (Z.of_nat M) (k + h) + 1).
  destruct (gslice_window (s_data s) 0 (Z.of_nat N) lo hi R) as (g & E & W); fold N M; try (unfold lo, hi; lia).
  rewrite E. cbn [rbind]. fold N M in W.
  set (len := Z.to_nat (Z.min hi (Z.of_nat M) - lo)) in *.
  replace (Z.to_nat (Z.min (Z.of_nat N) (Z.of_nat N) - 0)) with N in W by lia.
  destruct W as (W1 & W2 & W3 & W4).
  exists (mkProf (mean_axis1 g) (s_sy s)), k, (Z.to_nat lo), len.
  split; [reflexivity|]. split; [reflexivity|].
  split; [cbn; unfold mean_axis1; rewrite map_length; exact W1|].
  split; [exact K1|]. split; [exact K2|]. split; [unfold lo; lia|]. split; [unfold len, lo, hi; lia|].
  intros i Hi. assert (Lpos : (0 < len)%nat) by (unfold len, lo, hi; lia).
  assert (W3' : ncols g = len) by (apply W3; lia).
  destruct (nth_error g i) as [r|] eqn:Er; [|apply nth_error_None in Er; unfold nrows in W1; lia].
  exists r. split; [rewrite <- W3'; apply (rect_row _ _ _ W2 Er)|]. split.
  - intros t Ht. specialize (W4 i t). unfold cell at 1 in W4. rewrite Er in W4. rewrite W4.
    destruct (Nat.ltb_spec i N), (Nat.ltb_spec t len); try lia. cbn. reflexivity.
  - cbn. unfold mean_axis1. rewrite nth_error_map, Er. cbn. f_equal. unfold npmean, nanmean.
    destruct (existsb is_nan r) eqn:En; [reflexivity|].
    assert (Hm : length (measured r) = len).
    { rewrite <- (map_length Some), measured_all by exact En. rewrite <- W3'. apply (rect_row _ _ _ W2 Er). }
    destruct (measured r); [cbn in Hm; lia|reflexivity].
Qed.
Theorem C19_beyond_rejected : forall s y a st, ((INR (nrows (s_data s)) - 1) * s_sy s < y)%R ->
  get_horizontal_profile y a st s = Err ValueError.
Proof.
  intros s y a st H. unfold get_horizontal_profile, profile_slice, extent.
  destruct (Rlt_dec _ y); [reflexivity|contradiction].
Qed.
(** What is false of the code.  (a) At y = height_um no row is averaged and every value is NaN; *)
Theorem C19_upper_edge_refuted : forall s, rect (s_data s) -> (2 <= nrows (s_data s))%nat -> (0 < s_sy s)%R ->
  exists p, get_horizontal_profile ((INR (nrows (s_data s)) - 1) * s_sy s) 1 None s = Ok p /\
    forall h, In h (p_data p) -> h = None.
Proof.
  intros s R Hn Hs. set (N := nrows (s_data s)) in *. unfold get_horizontal_profile, profile_slice, extent. fold N.
  assert (N2 : (2 <= INR N)%R) by (change 2%R with (INR 2); apply le_INR, Hn).
  assert (He : (0 < (INR N - 1) * s_sy s)%R) by (apply Rmult_lt_0_compat; lra).
  destruct (Rlt_dec _ _); [lra|]. destruct (Req_EM_T _ 0); [lra|].
  replace ((INR N - 1) * s_sy s / ((INR N - 1) * s_sy s) * INR N)%R with (INR N) by (field; lra).
  rewrite INR_IZR_INZ, pytrunc_IZR. cbn [rbind Z.quot Z.mul]. change (Z.quot 1 2) with 0.
  rewrite !Z.mul_0_l, Z.sub_0_r, Z.add_0_r. destruct (Z.ltb_spec (Z.of_nat N) 0); [lia|].
  rewrite Z.ltb_irrefl, gslice_step1_rows, gslice_full_cols.
  destruct (gslice_window (s_data s) (Z.of_nat N) (Z.of_nat N + 1) 0 (Z.of_nat (ncols (s_data s))) R) as (g & E & W); fold N; try lia.
  rewrite E. cbn [rbind]. eexists. split; [reflexivity|]. cbn. destruct W as (W1 & _).
  replace (Z.to_nat _) with 0%nat in W1 by lia.
  unfold nrows in W1. destruct g; [|discriminate W1]. intros h Hh. apply in_map_iff in Hh as (j & <- & _). reflexivity.
Qed.
(** (b) the row is not always the closest one; *)
Theorem C19_closest_refuted : let g := [[Some 10]; [Some 20]; [Some 30]]%R in
  get_horizontal_profile (6 / 10) 1 None (mkSurf g 1 1) = Ok (mkProf [Some 10%R] 1) /\
  (Rabs (1 * 1 - 6 / 10) < Rabs (0 * 1 - 6 / 10))%R.
Proof.
  cbv zeta. split; [|unfold Rabs; repeat destruct Rcase_abs; lra].
  unfold get_horizontal_profile, profile_slice, extent. cbn [nrows ncols s_data s_sx s_sy length hd].
  change (INR 3) with (1 + 1 + 1)%R.
  destruct (Rlt_dec _ _); [lra|]. destruct (Req_EM_T _ 0); [lra|].
  rewrite (pytrunc_unique _ 0) by lra. transitivity (Ok (mkProf [Some ((10 + 0) / 1)%R] 1)); [reflexivity|].
  replace ((10 + 0) / 1)%R with 10%R by lra. reflexivity.
Qed.
(** (c) negative positions are not rejected. *)
Theorem C19_negative_refuted : exists p,
  get_horizontal_profile (-2) 1 None (mkSurf [[Some 10]; [Some 20]; [Some 30]]%R 1 1) = Ok p.
Proof.
  unfold get_horizontal_profile, profile_slice, extent. cbn [nrows ncols s_data s_sx s_sy length hd].
  change (INR 3) with (1 + 1 + 1)%R.
  destruct (Rlt_dec _ _); [lra|]. destruct (Req_EM_T _ 0); [lra|].
  replace (-2 / ((1 + 1 + 1 - 1) * 1) * (1 + 1 + 1))%R with (IZR (-3)) by (cbn; field). rewrite pytrunc_IZR. eexists. reflexivity.
Qed.
Example ex_C19 : rect [[Some 10; None]; [Some 20; Some 1]; [Some 30; Some 2]]%R /\ (0 <= 1 < (INR 3 - 1) * 1)%R.
Proof. split; [intros r [<-|[<-|[<-|[]]]]; reflexivity|cbn; lra]. Qed.

(** ** C67 *)
(** Every sampled point lies on the line through the origin with the requested slope ... *)
Theorem C67_sampled_line : forall x0 y0 x1 y1 s pts, oblique_points x0 y0 x1 y1 s = Ok pts ->
  exists m, forall p, In p pts -> snd p = (m * fst p)%R.
Proof.
  intros x0 y0 x1 y1 s pts. unfold oblique_points. destruct (Req_EM_T _ 0); [discriminate|]. destruct (Req_EM_T _ 0); [discriminate|].
  destruct (negb _); [discriminate|]. destruct (_ =? 0); [discriminate|]. intros E. injection E as <-. eexists.
  intros p Hp. apply in_map_iff in Hp as (x & <- & _). reflexivity.
Qed.
(** ... so a segment that does not point at the origin is not followed: from (5,0) to (10,5) on an 11 x 11 surface
    with unit step, no sample is on the segment's start (5,0). *)
Definition flat11 : surf := mkSurf (repeat (repeat (Some 0%R) 11) 11) 1 1.
Lemma INR11 : INR 11 = 11%R. Proof. cbn; lra. Qed.
Theorem C67_refuted : exists pts, oblique_points 5 0 10 5 flat11 = Ok pts /\
  (exists q, nth_error pts 0 = Some (5, q)%R /\ q = (25 / 6)%R) /\ forall p, In p pts -> p <> (5, 0)%R.
Proof.
  unfold oblique_points, oblique_px, extent. cbn [flat11 nrows ncols s_data s_sx s_sy].
  change (length (hd [] (repeat (repeat (Some 0%R) 11) 11))) with 11%nat.
  change (nrows (repeat (repeat (Some 0%R) 11) 11)) with 11%nat. change (ncols (repeat (repeat (Some 0%R) 11) 11)) with 11%nat.
  rewrite INR11. destruct (Req_EM_T _ 0); [lra|].
  rewrite (pytrunc_unique (5 / ((11 - 1) * 1) * 11) 5) by lra.
  rewrite (pytrunc_unique (0 / ((11 - 1) * 1) * 11) 0) by lra.
  rewrite (pytrunc_unique (10 / ((11 - 1) * 1) * 11) 11) by lra. cbn [Z.leb Z.compare Z.of_nat andb negb Z.sub Z.eqb].
  change (0 <=? 5) with true. change (5 <=? Z.of_nat 11) with true. change (0 <=? 11) with true. change (11 <=? Z.of_nat 11) with true.
  cbn [andb negb]. change (11 - 5) with 6. change (5 - 0) with 5.
  assert (Sz : pytrunc (sqrt (IZR 6 * IZR 6 + IZR 5 * IZR 5)) = 7).
  { assert (A : (7 <= sqrt (6 * 6 + 5 * 5))%R). { rewrite <- (sqrt_square 7) by lra. apply sqrt_le_1; lra. }
    assert (B : (sqrt (6 * 6 + 5 * 5) < 8)%R). { rewrite <- (sqrt_square 8) by lra. apply sqrt_lt_1; lra. }
    apply pytrunc_unique; lra. }
  rewrite Sz. change (Z.pos_sub 11 5 =? 0) with false. cbn [Z.eqb]. eexists. split; [reflexivity|]. split.
  - assert (Hx : (IZR 5 + 0 * ((IZR 11 - IZR 5) / (INR 7 - 1)) = 5)%R) by lra.
    exists (25 / 6)%R. split; [|reflexivity]. cbn [linspace Nat.eqb map seq nth_error Z.to_nat Pos.to_nat].
    transitivity (Some (IZR 5 + 0 * ((IZR 11 - IZR 5) / (INR 7 - 1)), IZR 5 / IZR 6 * (IZR 5 + 0 * ((IZR 11 - IZR 5) / (INR 7 - 1))))%R); [reflexivity|].
    rewrite Hx. f_equal. f_equal. lra.
  - intros p Hp. apply in_map_iff in Hp as (x & <- & Hx). intros E. apply pair_equal_spec in E as [-> E]. lra.
Qed.
Lemma linspace_hd a b n : exists tl, linspace a b (S n) = a :: tl.
Proof.
  unfold linspace. cbn [seq map]. eexists. apply f_equal2; [|reflexivity]. cbn [INR]. destruct (S n =? 1)%nat; lra.
Qed.
(** Partial claim that holds: the first sample is the requested start point iff the segment points at the origin. *)
Theorem C67_start_partial : forall x0 y0 x1 y1 s p pts, oblique_points x0 y0 x1 y1 s = Ok (p :: pts) ->
  let a := oblique_px x0 (extent (ncols (s_data s)) (s_sx s)) (ncols (s_data s)) in
  let b := oblique_px y0 (extent (nrows (s_data s)) (s_sy s)) (nrows (s_data s)) in
  let c := oblique_px x1 (extent (ncols (s_data s)) (s_sx s)) (ncols (s_data s)) in
  let d := oblique_px y1 (extent (nrows (s_data s)) (s_sy s)) (nrows (s_data s)) in
  fst p = IZR a /\ (snd p = IZR b <-> (d - b) * a = (c - a) * b).
Proof.
  intros x0 y0 x1 y1 s p pts E a b c d. unfold oblique_points in E. fold a b c d in E.
  destruct (Req_EM_T _ 0); [discriminate|]. destruct (Req_EM_T _ 0); [discriminate|].
  destruct (negb _); [discriminate|]. destruct (Z.eqb_spec (c - a) 0) as [|Hdx]; [discriminate|].
  set (sz := Z.to_nat _) in E. destruct sz as [|sz]; [discriminate E|]. destruct (linspace_hd (IZR a) (IZR c) sz) as [tl El].
  rewrite El in E. cbn [map] in E. injection E as <- _. cbn [fst snd].
  split; [reflexivity|]. assert (Hr : IZR (c - a) <> 0%R) by (intros X; apply eq_IZR in X; lia).
  split; intros H.
  - apply eq_IZR. rewrite !mult_IZR, <- H. field. exact Hr.
  - apply Rmult_eq_reg_l with (IZR (c - a)); [|exact Hr]. rewrite <- mult_IZR, <- H, mult_IZR. field. exact Hr.
Qed.
(** Vertical segments always fail. *)
Theorem C67_vertical_fails : forall x y0 y1 s pts, oblique_points x y0 x y1 s <> Ok pts.
Proof.
  intros x y0 y1 s pts. unfold oblique_points. destruct (Req_EM_T _ 0); [discriminate|]. destruct (Req_EM_T _ 0); [discriminate|].
  destruct (negb _); [discriminate|]. rewrite Z.sub_diag. discriminate.
Qed.

(** ** C68 *)
Theorem C68_rotate_zero_refuted : forall s, rect (s_data s) -> (1 <= nrows (s_data s))%nat -> (1 <= ncols (s_data s))%nat ->
  exists g', rotate_data (s_data s) 0 s = Ok g' /\
    window (s_data s) 1 1 (nrows (s_data s) - 1) (ncols (s_data s) - 1) g'.
Proof.
  intros s R Hr Hc. set (N := nrows (s_data s)) in *. set (M := ncols (s_data s)) in *.
  unfold rotate_data, rotate_window. fold N M.
  replace (0 * PI / 180)%R with 0%R by lra. rewrite sin_0, cos_0, Rabs_R0, Rabs_R1.
  assert (HN : (0 < INR N)%R) by (apply lt_0_INR; lia). assert (HM : (0 < INR M)%R) by (apply lt_0_INR; lia).
  set (total := if Rlt_dec (INR N / INR M) 1 then (INR N / (INR N / INR M))%R else INR M).
  assert (T : total = INR M) by (unfold total; destruct (Rlt_dec _ 1); [field; lra|reflexivity]).
  rewrite T. replace (INR M / (INR N / INR M * 0 + 1))%R with (INR M) by (field; lra).
  replace (INR M * (INR N / INR M))%R with (INR N) by (field; lra).
  replace ((INR N - INR N) / 2)%R with (IZR 0) by (cbn; field). replace ((INR M - INR M) / 2)%R with (IZR 0) by (cbn; field).
  replace (INR N - IZR 0)%R with (IZR (Z.of_nat N)) by (rewrite <- INR_IZR_INZ; cbn; lra).
  replace (INR M - IZR 0)%R with (IZR (Z.of_nat M)) by (rewrite <- INR_IZR_INZ; cbn; lra).
  rewrite !pytrunc_IZR.
  destruct (gslice_window (s_data s) 1 (Z.of_nat N - 1 + 1) 1 (Z.of_nat M - 1 + 1) R) as (g & E & W); fold N M; try lia.
  exists g. split; [exact E|]. fold N M in W.
  replace (Z.to_nat (Z.min (Z.of_nat N - 1 + 1) (Z.of_nat N) - 1)) with (N - 1)%nat in W by lia.
  replace (Z.to_nat (Z.min (Z.of_nat M - 1 + 1) (Z.of_nat M) - 1)) with (M - 1)%nat in W by lia. exact W.
Qed.
(** Hence rotate(0) is never the identity, and a surface with one row or column has no rotation at all. *)
Theorem C68_not_identity : forall s g', rect (s_data s) -> (1 <= nrows (s_data s))%nat -> (1 <= ncols (s_data s))%nat ->
  rotate_data (s_data s) 0 s = Ok g' -> nrows g' = (nrows (s_data s) - 1)%nat.
Proof.
  intros s g' R Hr Hc E. destruct (C68_rotate_zero_refuted s R Hr Hc) as (g & E' & W). rewrite E in E'. injection E' as <-. apply W.
Qed.
Lemma win_axis (n : nat) w : (3 <= w <= INR n)%R ->
  let lo := pytrunc ((INR n - w) / 2) + 1 in let hi := pytrunc (INR n - (INR n - w) / 2) - 1 in
  1 <= lo <= hi /\ hi <= Z.of_nat n - 1.
Proof.
  intros H lo hi. destruct (pytrunc_bounds ((INR n - w) / 2)) as [A A0]; [lra|].
  destruct (pytrunc_bounds (INR n - (INR n - w) / 2)) as [B B0]; [lra|].
  fold lo hi. unfold lo, hi. set (p := pytrunc ((INR n - w) / 2)) in *. set (q := pytrunc (INR n - (INR n - w) / 2)) in *.
  assert (p + 1 < q). { apply lt_IZR. rewrite plus_IZR. lra. }
  assert (q <= Z.of_nat n). { apply le_IZR. rewrite <- INR_IZR_INZ. lra. } lia.
Qed.
(** The kept rectangle is a non-empty contiguous part of the rotated image, provided the computed width and height
    are at least 3 and do not exceed the rotated image (the latter is not proved here for every angle). *)
Theorem C68_inside_partial : forall s rot angle, rect rot ->
  let aspect := (INR (nrows (s_data s)) / INR (ncols (s_data s)))%R in
  let total := if Rlt_dec aspect 1 then (INR (nrows (s_data s)) / (INR (nrows rot) / INR (ncols rot)))%R else INR (ncols (s_data s)) in
  let w := (total / (aspect * Rabs (sin (angle * PI / 180)) + Rabs (cos (angle * PI / 180))))%R in
  (3 <= w <= INR (ncols rot))%R -> (3 <= w * aspect <= INR (nrows rot))%R ->
  exists g' r0 c0 nr nc, rotate_data rot angle s = Ok g' /\ window rot r0 c0 nr nc g' /\
    (1 <= nr)%nat /\ (1 <= nc)%nat /\ (r0 + nr <= nrows rot)%nat /\ (c0 + nc <= ncols rot)%nat.
Proof.
  intros s rot angle R aspect total w Hw Hh. unfold rotate_data, rotate_window. fold aspect total w.
  destruct (win_axis (nrows rot) (w * aspect) Hh) as [A1 A2]. destruct (win_axis (ncols rot) w Hw) as [B1 B2].
  set (ymin := pytrunc ((INR (nrows rot) - w * aspect) / 2) + 1) in *.
  set (ymax := pytrunc (INR (nrows rot) - (INR (nrows rot) - w * aspect) / 2) - 1) in *.
  set (xmin := pytrunc ((INR (ncols rot) - w) / 2) + 1) in *.
  set (xmax := pytrunc (INR (ncols rot) - (INR (ncols rot) - w) / 2) - 1) in *.
  destruct (gslice_window rot ymin (ymax + 1) xmin (xmax + 1) R) as (g & E & W); try lia.
  exists g. do 4 eexists. split; [exact E|]. split; [exact W|]. lia.
Qed.

Print Assumptions C09_selection.
Print Assumptions C09_heights.
Print Assumptions C17_nested.
Print Assumptions C18_zoom.
Print Assumptions C19_horizontal_partial.
Print Assumptions C27_fails_exactly_when_dividing.
Print Assumptions C31_profile_crop.
Print Assumptions C67_refuted.
Print Assumptions C68_inside_partial.
