From Coq Require Import String Reals List Bool Arith ZArith Lia Lra.
From Verif Require Import Base RList ModelMath ProofMath ModelHeights ProofHeights ModelGeom SpecGeom.
Import ListNotations.
Local Open Scope Z_scope.

(** ** Integer parts *)
Lemma Int_part_bounds x : (IZR (Int_part x) <= x < IZR (Int_part x) + 1)%R.
Proof. destruct (base_Int_part x). split; lra. Qed.
Lemma pytrunc_nonneg x : (0 <= x)%R -> pytrunc x = Int_part x.
Proof. intros H. unfold pytrunc. destruct (Rle_dec 0 x); [reflexivity|contradiction]. Qed.
Lemma pytrunc_bounds x : (0 <= x)%R -> (IZR (pytrunc x) <= x < IZR (pytrunc x) + 1)%R /\ 0 <= pytrunc x.
Proof.
  intros H. rewrite pytrunc_nonneg by exact H. assert (B := Int_part_bounds x). split; [exact B|].
  assert (-1 < Int_part x); [|lia]. apply lt_IZR. lra.
Qed.
Lemma Int_part_IZR k : Int_part (IZR k) = k.
Proof.
  assert (B := Int_part_bounds (IZR k)). assert (k - 1 < Int_part (IZR k) <= k); [|lia].
  split; [apply lt_IZR; rewrite minus_IZR; lra|apply le_IZR; lra].
Qed.
Lemma pytrunc_IZR k : pytrunc (IZR k) = k.
Proof.
  unfold pytrunc. destruct (Rle_dec 0 (IZR k)); [apply Int_part_IZR|].
  rewrite <- opp_IZR, Int_part_IZR. lia.
Qed.
Lemma pytrunc_unique x k : (0 <= x)%R -> (IZR k <= x < IZR k + 1)%R -> pytrunc x = k.
Proof.
  intros H B. destruct (pytrunc_bounds x H) as [B' _].
  assert (pytrunc x < k + 1) by (apply lt_IZR; rewrite plus_IZR; lra).
  assert (k < pytrunc x + 1) by (apply lt_IZR; rewrite plus_IZR; lra). lia.
Qed.
(** round: never further than 1/2, exact on integers *)
Lemma pyround_close x : (Rabs (IZR (pyround x) - x) <= 1 / 2)%R.
Proof.
  unfold pyround. assert (B := Int_part_bounds x). set (k := Int_part x) in *.
  destruct (Rlt_dec (x - IZR k) (1 / 2)) as [H1|H1]; [unfold Rabs; destruct Rcase_abs; lra|].
  destruct (Rlt_dec (1 / 2) (x - IZR k)) as [H2|H2].
  - rewrite plus_IZR. unfold Rabs; destruct Rcase_abs; lra.
  - destruct (Z.even k); [|rewrite plus_IZR]; unfold Rabs; destruct Rcase_abs; lra.
Qed.
Lemma pyround_near x k : (Rabs (x - IZR k) < 1 / 2)%R -> pyround x = k.
Proof.
  intros H. assert (C := pyround_close x).
  assert (D : (Rabs (IZR (pyround x) - IZR k) < 1)%R).
  { replace (IZR (pyround x) - IZR k)%R with ((IZR (pyround x) - x) + (x - IZR k))%R by lra.
    eapply Rle_lt_trans; [apply Rabs_triang|]. lra. }
  rewrite <- minus_IZR in D. apply Rabs_def2 in D as [D1 D2].
  assert (pyround x - k < 1) by (apply lt_IZR; exact D1). assert (-1 < pyround x - k) by (apply lt_IZR; lra). lia.
Qed.
Lemma pyround_IZR k : pyround (IZR k) = k.
Proof. apply pyround_near. replace (IZR k - IZR k)%R with 0%R by lra. rewrite Rabs_R0. lra. Qed.

(** ** Slices *)
Lemma slice_bounds_ok n s : 0 <= n -> slice_bounds n s = match sl_step s with Some 0 => Err ValueError | _ => slice_bounds n s end.
Proof.
  intros _. unfold slice_bounds. destruct (sl_step s) as [[|p|p]|]; reflexivity.
Qed.
Definition stepval (s : pslice) : Z := match sl_step s with Some k => k | None => 1 end.
Definition startval (n : Z) (s : pslice) : Z :=
  if 0 <? stepval s then match sl_start s with None => 0 | Some i => clampZ 0 n (wrap n i) end
  else match sl_start s with None => n - 1 | Some i => clampZ (-1) (n - 1) (wrap n i) end.
Definition stopval (n : Z) (s : pslice) : Z :=
  if 0 <? stepval s then match sl_stop s with None => n | Some i => clampZ 0 n (wrap n i) end
  else match sl_stop s with None => -1 | Some i => clampZ (-1) (n - 1) (wrap n i) end.
Lemma slice_indices_eq n s : slice_indices n s =
  if stepval s =? 0 then Err ValueError else
  Ok (map (fun k => startval n s + Z.of_nat k * stepval s) (seq 0 (slice_count (startval n s) (stopval n s) (stepval s)))).
Proof.
  unfold slice_indices, slice_bounds, startval, stopval. fold (stepval s).
  destruct (stepval s =? 0); [reflexivity|]. destruct (0 <? stepval s); reflexivity.
Qed.
Lemma clamp_range lo hi i : lo <= hi -> lo <= clampZ lo hi i <= hi.
Proof. unfold clampZ. lia. Qed.
Lemma startval_range n s : 0 <= n -> (0 < stepval s -> 0 <= startval n s <= n) /\ (stepval s < 0 -> -1 <= startval n s <= n - 1).
Proof.
  intros Hn. unfold startval. split; intros H.
  - destruct (Z.ltb_spec 0 (stepval s)); [|lia]. destruct (sl_start s); [apply clamp_range|]; lia.
  - destruct (Z.ltb_spec 0 (stepval s)); [lia|]. destruct (sl_start s); [apply clamp_range|]; lia.
Qed.
Lemma stopval_range n s : 0 <= n -> (0 < stepval s -> 0 <= stopval n s <= n) /\ (stepval s < 0 -> -1 <= stopval n s <= n - 1).
Proof.
  intros Hn. unfold stopval. split; intros H.
  - destruct (Z.ltb_spec 0 (stepval s)); [|lia]. destruct (sl_stop s); [apply clamp_range|]; lia.
  - destruct (Z.ltb_spec 0 (stepval s)); [lia|]. destruct (sl_stop s); [apply clamp_range|]; lia.
Qed.
Lemma count_pos start stop step k : 0 < step ->
  ((k < slice_count start stop step)%nat <-> start + Z.of_nat k * step < stop).
Proof.
  intros Hs. unfold slice_count. destruct (Z.ltb_spec 0 step); [|lia].
  destruct (Z.ltb_spec start stop).
  - assert (0 <= (stop - start - 1) / step) by (apply Z.div_pos; lia). split; intros H2.
    + assert (Z.of_nat k <= (stop - start - 1) / step) by lia.
      assert (Z.of_nat k * step <= stop - start - 1).
      { eapply Z.le_trans; [apply Z.mul_le_mono_nonneg_r; [lia|eassumption]|].
        rewrite Z.mul_comm. apply Z.mul_div_le. lia. }
      lia.
    + assert (Z.of_nat k <= (stop - start - 1) / step); [|lia]. apply Z.div_le_lower_bound; lia.
  - cbn. split; intros; [lia|]. nia.
Qed.
Lemma count_neg start stop step k : step < 0 ->
  ((k < slice_count start stop step)%nat <-> stop < start + Z.of_nat k * step).
Proof.
  intros Hs. unfold slice_count. destruct (Z.ltb_spec 0 step); [lia|].
  destruct (Z.ltb_spec stop start).
  - assert (0 <= (start - stop - 1) / - step) by (apply Z.div_pos; lia). split; intros H2.
    + assert (Z.of_nat k <= (start - stop - 1) / - step) by lia.
      assert (Z.of_nat k * - step <= start - stop - 1).
      { eapply Z.le_trans; [apply Z.mul_le_mono_nonneg_r; [lia|eassumption]|].
        rewrite Z.mul_comm. apply Z.mul_div_le. lia. }
      lia.
    + assert (Z.of_nat k <= (start - stop - 1) / - step); [|lia]. apply Z.div_le_lower_bound; lia.
  - cbn. split; intros; [lia|]. nia.
Qed.
Lemma slice_indices_range n s is i : 0 <= n -> slice_indices n s = Ok is -> In i is -> 0 <= i < n.
Proof.
  intros Hn E Hi. rewrite slice_indices_eq in E. destruct (Z.eqb_spec (stepval s) 0); [discriminate|].
  injection E as <-. apply in_map_iff in Hi as (k & <- & Hk). apply in_seq in Hk as [_ Hk]. cbn in Hk.
  destruct (startval_range n s Hn) as [A1 A2]. destruct (stopval_range n s Hn) as [B1 B2].
  destruct (Z_lt_ge_dec 0 (stepval s)) as [H|H].
  - apply count_pos in Hk; [|lia]. specialize (A1 H). specialize (B1 H). nia.
  - assert (H' : stepval s < 0) by lia. apply count_neg in Hk; [|lia]. specialize (A2 H'). specialize (B2 H'). nia.
Qed.
Lemma slice_indices_nth n s is k i : slice_indices n s = Ok is -> nth_error is k = Some i ->
  i = startval n s + Z.of_nat k * stepval s.
Proof.
  intros E Hk. rewrite slice_indices_eq in E. destruct (stepval s =? 0); [discriminate|]. injection E as <-.
  rewrite nth_error_map in Hk. destruct (nth_error (seq 0 _) k) eqn:En; [|discriminate].
  assert (k < slice_count (startval n s) (stopval n s) (stepval s))%nat.
  { rewrite <- (seq_length (slice_count (startval n s) (stopval n s) (stepval s)) 0). apply nth_error_Some. congruence. }
  rewrite (nth_error_nth' _ 0%nat) in En by now rewrite seq_length. rewrite seq_nth in En by assumption.
  injection En as <-. injection Hk as <-. lia.
Qed.
Lemma pick_length {A} (l : list A) is : (forall i, In i is -> 0 <= i < Z.of_nat (length l)) -> length (pick l is) = length is.
Proof.
  unfold pick. induction is as [|i is IH]; intros H; cbn; auto.
  destruct (nth_error l (Z.to_nat i)) eqn:E.
  - cbn. f_equal. apply IH. intros; apply H; right; auto.
  - apply nth_error_None in E. specialize (H i (or_introl eq_refl)). lia.
Qed.
Lemma pick_nth {A} (l : list A) is : (forall i, In i is -> 0 <= i < Z.of_nat (length l)) ->
  forall k, nth_error (pick l is) k = match nth_error is k with Some i => nth_error l (Z.to_nat i) | None => None end.
Proof.
  unfold pick. induction is as [|i is IH]; intros H k; cbn; [now destruct k|].
  destruct (nth_error l (Z.to_nat i)) as [x|] eqn:E.
  - destruct k as [|k]; cbn; [now rewrite E|]. apply IH. intros; apply H; right; auto.
  - apply nth_error_None in E. specialize (H i (or_introl eq_refl)). lia.
Qed.
Lemma pick_In {A} (l : list A) is x : In x (pick l is) -> In x l.
Proof.
  unfold pick. intros H. apply in_flat_map in H as (i & _ & Hx). destruct (nth_error l (Z.to_nat i)) eqn:E; [|destruct Hx].
  destruct Hx as [<-|[]]. eapply nth_error_In; eauto.
Qed.

Lemma rect_row g i r : rect g -> nth_error g i = Some r -> length r = ncols g.
Proof. intros H E. apply H. eapply nth_error_In; eauto. Qed.
Lemma gslice_inv rows cols g g' : gslice rows cols g = Ok g' ->
  exists ri ci, slice_indices (Z.of_nat (nrows g)) rows = Ok ri /\ slice_indices (Z.of_nat (ncols g)) cols = Ok ci /\
    g' = map (fun r => pick r ci) (pick g ri).
Proof.
  unfold gslice. destruct (slice_indices (Z.of_nat (nrows g)) rows) as [ri|]; [|discriminate]. cbn [rbind].
  destruct (slice_indices (Z.of_nat (ncols g)) cols) as [ci|]; [|discriminate]. cbn [rbind].
  intros E. injection E as <-. eauto.
Qed.
Section GS.
Variables (g : grid) (ri ci : list Z).
Hypothesis R : rect g.
Hypothesis Hr : forall i, In i ri -> 0 <= i < Z.of_nat (nrows g).
Hypothesis Hc : forall i, In i ci -> 0 <= i < Z.of_nat (ncols g).
Let g' := map (fun r => pick r ci) (pick g ri).
Lemma gs_nrows : nrows g' = length ri.
Proof. unfold nrows, g'. rewrite map_length. now apply pick_length. Qed.
Lemma gs_row_len r : In r g' -> length r = length ci.
Proof.
  intros H. apply in_map_iff in H as (r0 & <- & Hin). apply pick_In in Hin. apply pick_length. rewrite (R _ Hin). exact Hc.
Qed.
Lemma gs_rect : rect g'.
Proof.
  intros r H. rewrite (gs_row_len r H). unfold ncols. destruct g' as [|r0 g0] eqn:E; [destruct H|]. cbn.
  symmetry. apply gs_row_len. rewrite E. left; auto.
Qed.
Lemma gs_ncols : ri <> [] -> ncols g' = length ci.
Proof.
  intros H. unfold ncols. destruct g' as [|r0 g0] eqn:E.
  - assert (L := gs_nrows). unfold nrows in L. rewrite E in L. destruct ri; [congruence|discriminate].
  - cbn. apply gs_row_len. rewrite E. left; auto.
Qed.
Lemma gs_cell i j : cell g' i j =
  match nth_error ri i, nth_error ci j with
  | Some a, Some b => cell g (Z.to_nat a) (Z.to_nat b) | _, _ => None end.
Proof.
  unfold cell, g'. rewrite nth_error_map, pick_nth by exact Hr.
  destruct (nth_error ri i) as [a|] eqn:Ea; cbn; [|reflexivity].
  destruct (nth_error g (Z.to_nat a)) as [r|] eqn:Er; cbn.
  - rewrite pick_nth. + reflexivity. + rewrite (rect_row _ _ _ R Er). exact Hc.
  - destruct (nth_error ci j); reflexivity.
Qed.
End GS.
Lemma cell_some g i j : rect g -> (i < nrows g)%nat -> (j < ncols g)%nat -> exists h, cell g i j = Some h.
Proof.
  intros R Hi Hj. unfold cell. destruct (nth_error g i) as [r|] eqn:E.
  - destruct (nth_error r j) eqn:E'; eauto. apply nth_error_None in E'. rewrite (rect_row _ _ _ R E) in E'. lia.
  - apply nth_error_None in E. unfold nrows in Hi. lia.
Qed.
Lemma cell_some_inv g i j h : rect g -> cell g i j = Some h -> (i < nrows g)%nat /\ (j < ncols g)%nat.
Proof.
  intros R. unfold cell. destruct (nth_error g i) as [r|] eqn:E; [|discriminate]. intros E'.
  split; [apply nth_error_Some; unfold nrows; congruence|]. rewrite <- (rect_row _ _ _ R E). apply nth_error_Some. congruence.
Qed.

(** ** Contiguous slices [a:b] with 0 <= a *)
Lemma sl_indices n a b : 0 <= a <= n -> a <= b -> 0 <= n ->
  slice_indices n (sl a b) = Ok (map (fun k => a + Z.of_nat k) (seq 0 (Z.to_nat (Z.min b n - a)))).
Proof.
  intros Ha Hb Hn. rewrite slice_indices_eq. cbn [stepval sl sl_step]. cbn [Z.eqb].
  assert (S1 : startval n (sl a b) = a).
  { unfold startval, sl, stepval, wrap; cbn. destruct (Z.ltb_spec a 0); [lia|]. unfold clampZ. lia. }
  assert (S2 : stopval n (sl a b) = Z.min b n).
  { unfold stopval, sl, stepval, wrap; cbn. destruct (Z.ltb_spec b 0); [lia|]. unfold clampZ. lia. }
  rewrite S1, S2. f_equal. unfold slice_count. cbn [Z.ltb Z.compare]. 
  replace (Z.to_nat (if a <? Z.min b n then (Z.min b n - a - 1) / 1 + 1 else 0)) with (Z.to_nat (Z.min b n - a)).
  - apply map_ext. intros k. lia.
  - destruct (Z.ltb_spec a (Z.min b n)); [rewrite Z.div_1_r; lia|lia].
Qed.
Lemma nth_error_shift a c k : nth_error (map (fun k => a + Z.of_nat k) (seq 0 c)) k =
  if (k <? c)%nat then Some (a + Z.of_nat k) else None.
Proof.
  rewrite nth_error_map. destruct (Nat.ltb_spec k c).
  - rewrite (nth_error_nth' _ 0%nat) by now rewrite seq_length. rewrite seq_nth by assumption. reflexivity.
  - replace (nth_error (seq 0 c) k) with (@None nat); [reflexivity|]. symmetry. apply nth_error_None. now rewrite seq_length.
Qed.
Lemma gslice_window g a b c d : rect g ->
  0 <= a <= Z.of_nat (nrows g) -> a <= b -> 0 <= c <= Z.of_nat (ncols g) -> c <= d ->
  exists g', gslice (sl a b) (sl c d) g = Ok g' /\
    window g (Z.to_nat a) (Z.to_nat c) (Z.to_nat (Z.min b (Z.of_nat (nrows g)) - a)) (Z.to_nat (Z.min d (Z.of_nat (ncols g)) - c)) g'.
Proof.
  intros R Ha Hb Hc Hd. set (N := Z.of_nat (nrows g)) in *. set (M := Z.of_nat (ncols g)) in *.
  set (nr := Z.to_nat (Z.min b N - a)). set (nc := Z.to_nat (Z.min d M - c)).
  set (ri := map (fun k => a + Z.of_nat k) (seq 0 nr)). set (ci := map (fun k => c + Z.of_nat k) (seq 0 nc)).
  assert (E1 : slice_indices N (sl a b) = Ok ri) by (apply sl_indices; lia).
  assert (E2 : slice_indices M (sl c d) = Ok ci) by (apply sl_indices; lia).
  exists (map (fun r => pick r ci) (pick g ri)). split.
  - unfold gslice. fold N M. now rewrite E1, E2.
  - assert (Hr : forall i, In i ri -> 0 <= i < N) by (intros i; apply (slice_indices_range N _ _ i ltac:(lia) E1)).
    assert (Hcc : forall i, In i ci -> 0 <= i < M) by (intros i; apply (slice_indices_range M _ _ i ltac:(lia) E2)).
    assert (L1 : length ri = nr) by (unfold ri; now rewrite map_length, seq_length).
    assert (L2 : length ci = nc) by (unfold ci; now rewrite map_length, seq_length).
    split; [rewrite gs_nrows; auto|]. split; [apply gs_rect; auto|].
    split; [intros H; rewrite gs_ncols; auto; intros X; rewrite X in L1; cbn in L1; congruence|].
    intros i j. rewrite gs_cell by auto. unfold ri, ci. rewrite !nth_error_shift.
    destruct (i <? nr)%nat, (j <? nc)%nat; cbn; auto.
    f_equal; lia.
Qed.
Lemma window_unique g r0 c0 nr nc g1 g2 : window g r0 c0 nr nc g1 -> window g r0 c0 nr nc g2 -> g1 = g2.
Proof.
  intros (A1 & A2 & A3 & A4) (B1 & B2 & B3 & B4). apply grid_ext.
  - destruct nr as [|nr].
    + unfold nrows in *. destruct g1; [|discriminate]. destruct g2; [reflexivity|discriminate].
    + apply rect_same_shape; auto; [congruence|]. rewrite A3, B3; auto.
  - intros i j. now rewrite A4, B4.
Qed.
Lemma window_full g : rect g -> window g 0 0 (nrows g) (ncols g) g.
Proof.
  intros R. unfold window. repeat split; auto. intros i j. rewrite !Nat.add_0_l.
  destruct (Nat.ltb_spec i (nrows g)), (Nat.ltb_spec j (ncols g)); cbn [andb]; auto;
    unfold cell; destruct (nth_error g i) as [r|] eqn:E; auto.
  - apply nth_error_None. rewrite (rect_row _ _ _ R E). lia.
  - assert (i < nrows g)%nat by (apply nth_error_Some; congruence). lia.
  - assert (i < nrows g)%nat by (apply nth_error_Some; congruence). lia.
Qed.
Lemma window_compose g r0 c0 nr nc g1 r1 c1 nr1 nc1 g2 :
  window g r0 c0 nr nc g1 -> (r1 + nr1 <= nr)%nat -> (c1 + nc1 <= nc)%nat -> window g1 r1 c1 nr1 nc1 g2 ->
  window g (r0 + r1) (c0 + c1) nr1 nc1 g2.
Proof.
  intros (A1 & A2 & A3 & A4) H1 H2 (B1 & B2 & B3 & B4). unfold window. repeat split; auto.
  intros i j. rewrite B4. destruct (Nat.ltb_spec i nr1), (Nat.ltb_spec j nc1); cbn; auto.
  rewrite A4. destruct (Nat.ltb_spec (r1 + i) nr), (Nat.ltb_spec (c1 + j) nc); try lia. cbn. f_equal; lia.
Qed.
