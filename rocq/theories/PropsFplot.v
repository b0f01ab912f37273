(** C88: the plot of the Fourier transform. *)
From Coq Require Import String Reals List Bool Arith ZArith Lia Lra.
From Verif Require Import Base RList ModelMath ModelHeights ModelDetrend ModelGeom ModelAcf ModelFourier ModelPlot SpecPlot ProofMath ProofHeights ProofGeom PropsAcf ProofFourier PropsFourier PropsDecay PropsPlot.
Import ListNotations.
Local Open Scope R_scope.

Lemma unshift_two n k : (k < n)%nat -> unshift n k = if Nat.ltb k (n / 2) then (k + (n + 1) / 2)%nat else (k - n / 2)%nat.
Proof.
  intros H. unfold unshift. pose proof (Nat.div_mod n 2 ltac:(lia)) as D. pose proof (Nat.div_mod (n + 1) 2 ltac:(lia)) as D'. pose proof (Nat.mod_upper_bound n 2 ltac:(lia)). pose proof (Nat.mod_upper_bound (n + 1) 2 ltac:(lia)).
  assert ((n + 1) / 2 + n / 2 = n)%nat by lia. destruct (Nat.ltb_spec k (n / 2)).
  - apply Nat.mod_small. lia.
  - symmetry. apply (Nat.mod_unique _ _ 1); lia.
Qed.
Lemma bin_freq n k : (k < n)%nat -> freq_int n (unshift n k) = bin n k.
Proof.
  intros H. rewrite unshift_two by exact H. unfold freq_int, bin. pose proof (Nat.div_mod n 2 ltac:(lia)) as D. pose proof (Nat.div_mod (n + 1) 2 ltac:(lia)) as D'. pose proof (Nat.div_mod (n - 1) 2 ltac:(lia)) as D''.
  pose proof (Nat.mod_upper_bound n 2 ltac:(lia)). pose proof (Nat.mod_upper_bound (n + 1) 2 ltac:(lia)). pose proof (Nat.mod_upper_bound (n - 1) 2 ltac:(lia)).
  destruct (Nat.ltb_spec k (n / 2)).
  - destruct (Nat.ltb_spec (k + (n + 1) / 2) ((n - 1) / 2 + 1)); lia.
  - destruct (Nat.ltb_spec (k - n / 2) ((n - 1) / 2 + 1)); lia.
Qed.
Lemma bin_shift n k : (k < n)%nat -> exists c : Z, Z.of_nat (unshift n k) = (bin n k + c * Z.of_nat n)%Z.
Proof.
  intros H. rewrite unshift_two by exact H. unfold bin. pose proof (Nat.div_mod n 2 ltac:(lia)) as D. pose proof (Nat.div_mod (n + 1) 2 ltac:(lia)) as D'.
  pose proof (Nat.mod_upper_bound n 2 ltac:(lia)). pose proof (Nat.mod_upper_bound (n + 1) 2 ltac:(lia)).
  destruct (Nat.ltb_spec k (n / 2)); [exists 1%Z|exists 0%Z]; lia.
Qed.
Lemma sin_Zperiod x (k : Z) : sin (x + 2 * PI * IZR k) = sin x.
Proof. rewrite !sin_as_cos. replace (x + 2 * PI * IZR k - PI / 2) with (x - PI / 2 + 2 * PI * IZR k) by ring. apply cos_Zperiod. Qed.
Lemma amplitude_dft z N M i j : (i < N)%nat -> (j < M)%nat -> amplitude z N M (unshift N i) (unshift M j) = dft z N M (bin N i) (bin M j).
Proof.
  intros Hi Hj. destruct (bin_shift N i Hi) as [c Hc]. destruct (bin_shift M j Hj) as [c' Hc'].
  assert (P : forall a b, dft_phase N M (unshift N i) (unshift M j) a b = 2 * PI * (IZR (bin N i) * INR a / INR N + IZR (bin M j) * INR b / INR M) + 2 * PI * IZR (c * Z.of_nat a + c' * Z.of_nat b)).
  { intros a b. unfold dft_phase. rewrite (INR_IZR_INZ (unshift N i)), (INR_IZR_INZ (unshift M j)), Hc, Hc'. rewrite !plus_IZR, !mult_IZR, <- !INR_IZR_INZ.
    assert (INR N <> 0) by (apply not_0_INR; lia). assert (INR M <> 0) by (apply not_0_INR; lia). field. split; assumption. }
  unfold amplitude, dft, dft_re, dft_im. f_equal. f_equal.
  - f_equal. apply sum2_ext. intros a b _ _. rewrite P, cos_Zperiod. reflexivity.
  - replace ((- sum2 N M (fun a b => z a b * sin (dft_phase N M (unshift N i) (unshift M j) a b))) ^ 2) with (sum2 N M (fun a b => z a b * sin (dft_phase N M (unshift N i) (unshift M j) a b)) ^ 2) by ring.
    f_equal. apply sum2_ext. intros a b _ _. rewrite P, sin_Zperiod. reflexivity.
Qed.
Lemma dft_ext z w N M p q : (forall i j, (i < N)%nat -> (j < M)%nat -> z i j = w i j) -> dft z N M p q = dft w N M p q.
Proof. intros H. unfold dft. f_equal. f_equal; f_equal; apply sum2_ext; intros i j Hi Hj; rewrite H by assumption; reflexivity. Qed.
Lemma zdata_heights g i j : zdata g i j = heights_of g i j.
Proof.
  unfold zdata, heights_of, at2, matrix_of. set (f := fun h : option R => match h with Some x => x | None => 0 end). change (@nil R) with (map f []). rewrite map_nth. change 0 with (f None) at 1. rewrite map_nth. reflexivity.
Qed.
Lemma hanning_hann n i : hanning n i = hann n i.
Proof. unfold hanning, hann. destruct n as [|[|n]]; cbn [Nat.eqb]; [|reflexivity|]; lra. Qed.
(** one value of the picture *)
Lemma plot_values_at g sm w log i j : (i < nrows g)%nat -> (j < ncols g)%nat ->
  pixel (plot_values g sm w log) i j = Some (shade log (dft (prepared g sm w) (nrows g) (ncols g) (bin (nrows g) i) (bin (ncols g) j))).
Proof.
  intros Hi Hj. unfold pixel, plot_values. cbv zeta. unfold tabulate. rewrite nth_error_map. rewrite (nth_error_nth' _ 0%nat) by (rewrite seq_length; exact Hi). rewrite seq_nth by exact Hi. cbn [option_map Nat.add].
  rewrite nth_error_map. rewrite (nth_error_nth' _ 0%nat) by (rewrite seq_length; exact Hj). rewrite seq_nth by exact Hj. cbn [option_map Nat.add]. f_equal. rewrite amplitude_dft by assumption.
  set (A := dft _ _ _ _ _). set (B := dft (prepared g sm w) _ _ _ _). assert (E : A = B).
  { unfold A, B. apply dft_ext. intros a b _ _. unfold prepared, average. cbv zeta.
    assert (Z : (if sm then centred (zdata g) (nrows g) (ncols g) else zdata g) a b = heights_of g a b - (if sm then sum2 (nrows g) (ncols g) (heights_of g) / (INR (nrows g) * INR (ncols g)) else 0)).
    { destruct sm; [unfold centred, mean2|]; rewrite zdata_heights; [|ring]. f_equal. f_equal. apply sum2_ext. intros u v _ _. apply zdata_heights. }
    destruct w; [rewrite Z, !hanning_hann; ring|rewrite Z; ring]. }
  rewrite E. unfold shade. destruct log; [|reflexivity]. f_equal. f_equal. f_equal. lra.
Qed.
Lemma plot_values_rows g sm w log : length (plot_values g sm w log) = nrows g /\ forall r, In r (plot_values g sm w log) -> length r = ncols g.
Proof.
  unfold plot_values, tabulate. cbv zeta. split; [rewrite map_length, seq_length; reflexivity|]. intros r H. apply in_map_iff in H. destruct H as (i & <- & _). rewrite map_length, seq_length. reflexivity.
Qed.
Lemma fx_bin g sx k : (2 <= ncols g)%nat -> 0 < sx -> (k < ncols g)%nat -> freq_x g sx k = IZR (bin (ncols g) k) / width g sx.
Proof.
  intros H Hs Hk. unfold freq_x, fftfreq, extent. unfold MM. rewrite bin_freq by exact Hk. fold (width g sx). assert (2 <= INR (ncols g)) by (apply (le_INR 2); exact H).
  assert (0 < width g sx) by (unfold width; apply Rmult_lt_0_compat; lra). field. split; lra.
Qed.
Lemma fy_bin g sy k : (2 <= nrows g)%nat -> 0 < sy -> (k < nrows g)%nat -> freq_y g sy k = IZR (bin (nrows g) k) / height_ g sy.
Proof.
  intros H Hs Hk. unfold freq_y, fftfreq, extent. unfold NN. rewrite bin_freq by exact Hk. fold (height_ g sy). assert (2 <= INR (nrows g)) by (apply (le_INR 2); exact H).
  assert (0 < height_ g sy) by (unfold height_; apply Rmult_lt_0_compat; lra). field. split; lra.
Qed.

(** *** One axis *)
Section Axis.
Variables (n : nat) (W : R).
Hypothesis (Hn : (2 <= n)%nat) (HW : 0 < W).
Variable F : nat -> R.
Hypothesis HF : forall k, (k < n)%nat -> F k = IZR (bin n k) / W.
Let fs := map F (seq 0 n).
Lemma fs_nth k : (k < n)%nat -> nth k fs 0 = IZR (bin n k) / W.
Proof. intros H. unfold fs. rewrite nth_map_seq by exact H. apply HF. exact H. Qed.
Lemma axis_cell lo hi k : (lo <= hi < n)%nat -> (k <= hi - lo)%nat ->
  between (nth lo fs 0 + (nth hi fs 0 - nth lo fs 0) * INR k / INR (hi - lo + 1)) (nth lo fs 0 + (nth hi fs 0 - nth lo fs 0) * (INR k + 1) / INR (hi - lo + 1)) (IZR (bin n (lo + k)) / W).
Proof.
  intros H Hk. left. assert (0 < / W) by (apply Rinv_0_lt_compat; exact HW). pose proof (cell_holds (nth lo fs 0) (/ W) (hi - lo + 1) k ltac:(lia) ltac:(lra)) as C. cbv zeta in C. rewrite !fs_nth in * by lia.
  assert (E : IZR (bin n hi) / W - IZR (bin n lo) / W = (INR (hi - lo + 1) - 1) * / W).
  { unfold bin. rewrite !minus_IZR, <- !INR_IZR_INZ. rewrite plus_INR, minus_INR by lia. cbn [INR]. field. lra. }
  assert (E' : IZR (bin n (lo + k)) / W = IZR (bin n lo) / W + INR k * / W).
  { unfold bin. rewrite !minus_IZR, <- !INR_IZR_INZ. rewrite plus_INR. field. lra. }
  rewrite E, E'. exact C.
Qed.
Lemma fs_ne : fs <> []. Proof. unfold fs. destruct n; [lia|discriminate]. Qed.
(** the closest frequency to a positive limit is not negative *)
Lemma closest_right f i : 0 <= f -> argclosest f fs = Ok i -> (n / 2 <= i < n)%nat /\ forall k, (k < n)%nat -> Rabs (IZR (bin n i) / W - f) <= Rabs (IZR (bin n k) / W - f).
Proof.
  intros Hf E. apply argclosest_spec in E. destruct E as (L & Hmin & _). assert (Ln : length fs = n) by (unfold fs; rewrite map_length, seq_length; reflexivity). rewrite Ln in *.
  assert (Hh : (n / 2 < n)%nat) by (apply Nat.div_lt; lia). split.
  - split; [|exact L]. destruct (Nat.le_gt_cases (n / 2) i) as [G|G]; [exact G|]. exfalso. specialize (Hmin (n / 2)%nat Hh). rewrite !fs_nth in Hmin by lia.
    replace (bin n (n / 2)) with 0%Z in Hmin by (unfold bin; lia). replace (0 / W - f) with (- f) in Hmin by (unfold Rdiv; ring). rewrite Rabs_Ropp, (Rabs_pos_eq f) in Hmin by exact Hf.
    assert (N : IZR (bin n i) / W < 0). { unfold Rdiv. rewrite <- (Rmult_0_l (/ W)). apply Rmult_lt_compat_r; [apply Rinv_0_lt_compat; exact HW|]. apply IZR_lt. unfold bin. lia. }
    rewrite Rabs_left in Hmin by lra. lra.
  - intros k Hk. specialize (Hmin k Hk). rewrite !fs_nth in Hmin by lia. exact Hmin.
Qed.
Lemma shown_even fmax : (forall f, fmax = Some f -> 0 <= f /\ Nat.Even n) -> exists lo hi, shown n fs fmax = Ok (lo, hi) /\ shows n W fmax lo hi /\ (lo <= hi < n)%nat.
Proof.
  intros H. destruct fmax as [f|]; [|exists 0%nat, (n - 1)%nat; split; [reflexivity|split; [split; reflexivity|lia]]].
  destruct (H f eq_refl) as [Hf [h Hh]]. destruct (argclosest_ok f fs fs_ne) as [i E]. destruct (closest_right f i Hf E) as [B Hmin]. assert (D : (n / 2 = h)%nat) by (rewrite Hh, Nat.mul_comm; apply Nat.div_mul; lia).
  exists (n - i)%nat, i. unfold shown. rewrite E. split; [reflexivity|]. rewrite D in *. split; [|lia]. cbn [shows]. split; [unfold bin; rewrite D; lia|]. split; [lia|exact Hmin].
Qed.
End Axis.
Lemma nth_error_skipn' {A} (l : list A) i k : nth_error (skipn i l) k = nth_error l (i + k).
Proof. revert l. induction i as [|i IH]; intros l; [reflexivity|]. destruct l; [destruct k; reflexivity|]. apply IH. Qed.
Lemma nth_error_firstn' {A} (l : list A) i k : (k < i)%nat -> nth_error (firstn i l) k = nth_error l k.
Proof. revert l k. induction i as [|i IH]; intros l k H; [lia|]. destruct l; [reflexivity|]. destruct k; [reflexivity|]. cbn. apply IH. lia. Qed.
Lemma cut_nth {A} a b (l : list A) k : (k < b - a)%nat -> nth_error (cut a b l) k = nth_error l (a + k).
Proof.
  intros H. unfold cut. rewrite nth_error_firstn' by exact H. apply nth_error_skipn'.
Qed.
Lemma cut_length {A} a b (l : list A) : (b <= length l)%nat -> length (cut a b l) = (b - a)%nat.
Proof. intros H. unfold cut. rewrite firstn_length, skipn_length. lia. Qed.
(** the part of the picture that is shown *)
Lemma crop_at (v : list (list R)) N M (fx fy : option R) (lox hix loy hiy : nat) (Wx Wy : R) : length v = N -> (forall r, In r v -> length r = M) -> (lox <= hix < M)%nat -> (loy <= hiy < N)%nat ->
  shows M Wx fx lox hix -> shows N Wy fy loy hiy ->
  let v1 := match fx with Some _ => map (cut lox (hix + 1)) v | None => v end in
  let v2 := match fy with Some _ => cut loy (hiy + 1) v1 | None => v1 end in
  length v2 = (hiy - loy + 1)%nat /\ (forall r, In r v2 -> length r = (hix - lox + 1)%nat) /\
  forall i j, (i <= hiy - loy)%nat -> (j <= hix - lox)%nat -> pixel v2 i j = pixel v (loy + i) (lox + j).
Proof.
  intros L C Hx Hy Sx Sy v1 v2.
  assert (V1 : length v1 = N /\ (forall r, In r v1 -> length r = (hix - lox + 1)%nat) /\ forall i j, (j <= hix - lox)%nat -> pixel v1 i j = pixel v i (lox + j)).
  { unfold v1. destruct fx as [f|].
    - split; [rewrite map_length; exact L|]. split.
      + intros r Hr. apply in_map_iff in Hr. destruct Hr as (r' & <- & Hr). rewrite cut_length by (rewrite (C _ Hr); lia). lia.
      + intros i j Hj. unfold pixel. rewrite nth_error_map. destruct (nth_error v i) as [r|]; [|reflexivity]. cbn [option_map]. apply cut_nth. lia.
    - destruct Sx as [-> ->]. split; [exact L|]. split; [intros r Hr; rewrite (C _ Hr); lia|]. intros i j _. reflexivity. }
  destruct V1 as (L1 & C1 & P1). unfold v2. destruct fy as [f|].
  - split; [rewrite cut_length by lia; lia|]. split.
    + intros r Hr. apply C1. unfold cut in Hr. apply In_nth_error in Hr. destruct Hr as [k Hk]. assert (Hk' : nth_error (cut loy (hiy + 1) v1) k = Some r) by exact Hk.
      assert ((k < hiy + 1 - loy)%nat). { assert (k < length (cut loy (hiy + 1) v1))%nat by (apply nth_error_Some; congruence). rewrite cut_length in H by lia. exact H. }
      rewrite cut_nth in Hk' by exact H. apply nth_error_In in Hk'. exact Hk'.
    + intros i j Hi Hj. rewrite <- P1 by exact Hj. unfold pixel. rewrite cut_nth by lia. reflexivity.
  - destruct Sy as [-> ->]. split; [lia|]. split; [exact C1|]. intros i j Hi Hj. rewrite P1 by exact Hj. reflexivity.
Qed.

(** The picture shows the strength of every wave at its frequency: columns from the lowest to the highest frequency along x, rows along
    y; cropped on request to the frequencies between -fmax and fmax when the number of points is even. *)
Theorem C88_plot (g : grid) (sx sy : R) (sm w log adjust : bool) (fx fy : option R) : (2 <= nrows g)%nat -> (2 <= ncols g)%nat -> 0 < sx -> 0 < sy ->
  (forall f, fx = Some f -> 0 <= f /\ Nat.Even (ncols g)) -> (forall f, fy = Some f -> 0 <= f /\ Nat.Even (nrows g)) ->
  exists v e lox hix loy hiy, plot_fourier g sx sy sm w log adjust fx fy = Ok (v, e) /\
    shows (ncols g) (width g sx) fx lox hix /\ shows (nrows g) (height_ g sy) fy loy hiy /\ (lox <= hix < ncols g)%nat /\ (loy <= hiy < nrows g)%nat /\
    length v = (hiy - loy + 1)%nat /\ (forall r, In r v -> length r = (hix - lox + 1)%nat) /\
    forall i j, (i <= hiy - loy)%nat -> (j <= hix - lox)%nat ->
      pixel v i j = Some (shade log (dft (prepared g sm w) (nrows g) (ncols g) (bin (nrows g) (loy + i)) (bin (ncols g) (lox + j)))) /\
      in_cell e (hiy - loy + 1) (hix - lox + 1) i j (IZR (bin (ncols g) (lox + j)) / width g sx) (IZR (bin (nrows g) (loy + i)) / height_ g sy).
Proof.
  intros HN HM Hsx Hsy Ex Ey. assert (Wx : 0 < width g sx) by (unfold width; assert (2 <= INR (ncols g)) by (apply (le_INR 2); exact HM); apply Rmult_lt_0_compat; lra).
  assert (Wy : 0 < height_ g sy) by (unfold height_; assert (2 <= INR (nrows g)) by (apply (le_INR 2); exact HN); apply Rmult_lt_0_compat; lra).
  pose proof (fun k => fx_bin g sx k HM Hsx) as Bx. pose proof (fun k => fy_bin g sy k HN Hsy) as By.
  destruct (shown_even (ncols g) (width g sx) HM Wx (freq_x g sx) Bx fx Ex) as (lox & hix & Qx & Sx & Lx). destruct (shown_even (nrows g) (height_ g sy) HN Wy (freq_y g sy) By fy Ey) as (loy & hiy & Qy & Sy & Ly).
  destruct (plot_values_rows g sm w log) as [L C]. destruct (crop_at _ _ _ fx fy lox hix loy hiy _ _ L C Lx Ly Sx Sy) as (L2 & C2 & P2). cbv zeta in L2, C2, P2.
  unfold plot_fourier. cbv zeta. rewrite Qx. cbn [rbind fst snd]. rewrite Qy. cbn [rbind fst snd].
  set (v1 := match fx with Some _ => _ | None => _ end) in *. set (v2 := match fy with Some _ => _ | None => _ end) in *.
  assert (NE : forallb (fun r : list R => Nat.eqb (length r) 0) v2 = false).
  { destruct v2 as [|r v']; [cbn [length] in L2; lia|]. cbn [forallb]. rewrite (C2 r (or_introl eq_refl)). destruct (Nat.eqb_spec (hix - lox + 1) 0); [lia|]. reflexivity. }
  rewrite NE, andb_false_r. destruct (Nat.ltb_spec lox (ncols g)); [|lia]. destruct (Nat.ltb_spec loy (nrows g)); [|lia]. cbn [andb].
  do 6 eexists. split; [reflexivity|]. split; [exact Sx|]. split; [exact Sy|]. split; [exact Lx|]. split; [exact Ly|]. split; [exact L2|]. split; [exact C2|].
  intros i j Hi Hj. split; [rewrite P2 by assumption; apply plot_values_at; lia|]. unfold in_cell. cbn [e_left e_right e_top e_bottom]. split.
  - apply (axis_cell (ncols g) (width g sx) HM Wx (freq_x g sx) Bx); assumption.
  - apply (axis_cell (nrows g) (height_ g sy) HN Wy (freq_y g sy) By); assumption.
Qed.

(** FALSE for an odd number of points: the frequency opposite to the last one shown is cut off ... *)
Lemma width_pos g sx : (2 <= ncols g)%nat -> 0 < sx -> 0 < width g sx.
Proof. intros HM Hsx. unfold width. assert (2 <= INR (ncols g)) by (apply (le_INR 2); exact HM). apply Rmult_lt_0_compat; lra. Qed.
Theorem C88_crop_refuted (g : grid) (sx sy f : R) (sm w log adjust : bool) : (2 <= nrows g)%nat -> (3 <= ncols g)%nat -> Nat.Odd (ncols g) -> 0 < sx -> 0 < sy -> 1 / (2 * width g sx) < f ->
  exists v e, plot_fourier g sx sy sm w log adjust (Some f) None = Ok (v, e) /\ e_left e = - e_right e + 1 / width g sx /\ e_left e <> - e_right e.
Proof.
  intros HN HM [h Hh] Hsx Hsy Hf. assert (HM' : (2 <= ncols g)%nat) by lia. pose proof (width_pos g sx HM' Hsx) as Wx. set (W := width g sx) in *. pose proof (fun k => fx_bin g sx k HM' Hsx) as Bx. fold W in Bx.
  assert (P : 0 < 1 / (2 * W)) by (unfold Rdiv; rewrite Rmult_1_l; apply Rinv_0_lt_compat; lra).
  destruct (argclosest_ok f _ (fs_ne (ncols g) W HM' (freq_x g sx) Bx)) as [i E]. destruct (closest_right (ncols g) W HM' Wx (freq_x g sx) Bx f i ltac:(lra) E) as [B Hmin].
  assert (D : (ncols g / 2 = h)%nat) by (rewrite Hh; rewrite Nat.add_comm, Nat.mul_comm, Nat.div_add by lia; reflexivity). rewrite D in B.
  assert (E2 : 1 / (2 * W) = / W / 2) by (field; lra).
  assert (I : (i <> h)%nat). { intros ->. specialize (Hmin (h + 1)%nat ltac:(lia)). unfold bin in Hmin. rewrite D in Hmin. replace (Z.of_nat h - Z.of_nat h)%Z with 0%Z in Hmin by lia. replace (Z.of_nat (h + 1) - Z.of_nat h)%Z with 1%Z in Hmin by lia.
    replace (0 / W - f) with (- f) in Hmin by (unfold Rdiv; ring). rewrite Rabs_Ropp, (Rabs_pos_eq f) in Hmin by lra. replace (1 / W) with (/ W) in Hmin by (unfold Rdiv; ring). unfold Rabs in Hmin. destruct (Rcase_abs (/ W - f)); lra. }
  unfold plot_fourier. cbv zeta. unfold shown at 1. rewrite E. cbn [rbind fst snd shown]. destruct (plot_values_rows g sm w log) as [L C].
  assert (NE : forallb (fun r : list R => Nat.eqb (length r) 0) (map (cut (ncols g - i) (i + 1)) (plot_values g sm w log)) = false).
  { destruct (plot_values g sm w log) as [|r v']; [cbn [length] in L; lia|]. cbn [map forallb]. rewrite cut_length by (rewrite (C r (or_introl eq_refl)); lia). destruct (Nat.eqb_spec (i + 1 - (ncols g - i)) 0); [lia|]. reflexivity. }
  rewrite NE, andb_false_r. destruct (Nat.ltb_spec (ncols g - i) (ncols g)); [|lia]. destruct (Nat.ltb_spec 0 (nrows g)); [|lia]. cbn [andb].
  do 2 eexists. split; [reflexivity|]. cbn [e_left e_right]. pose proof (fs_nth (ncols g) W (freq_x g sx) Bx) as Hfs. cbv zeta in Hfs. rewrite !Hfs by lia.
  assert (Q : IZR (bin (ncols g) (ncols g - i)) / W = - (IZR (bin (ncols g) i) / W) + 1 / W).
  { unfold bin. rewrite D. replace (Z.of_nat (ncols g - i) - Z.of_nat h)%Z with (- (Z.of_nat i - Z.of_nat h) + 1)%Z by lia. rewrite plus_IZR, opp_IZR. field. lra. }
  rewrite Q. split; [reflexivity|]. assert (0 < / W) by (apply Rinv_0_lt_compat; exact Wx). unfold Rdiv at 2. lra.
Qed.
(** ... and a limit below half the distance of two frequencies leaves nothing to plot: an exception instead of the zero frequency. *)
Theorem C88_small_refuted (g : grid) (sx sy f : R) (sm w log : bool) : (2 <= nrows g)%nat -> (3 <= ncols g)%nat -> Nat.Odd (ncols g) -> 0 < sx -> 0 < sy -> 0 <= f < 1 / (2 * width g sx) ->
  plot_fourier g sx sy sm w log true (Some f) None = Err ValueError.
Proof.
  intros HN HM [h Hh] Hsx Hsy Hf. assert (HM' : (2 <= ncols g)%nat) by lia. pose proof (width_pos g sx HM' Hsx) as Wx. set (W := width g sx) in *. pose proof (fun k => fx_bin g sx k HM' Hsx) as Bx. fold W in Bx.
  destruct (argclosest_ok f _ (fs_ne (ncols g) W HM' (freq_x g sx) Bx)) as [i E]. destruct (closest_right (ncols g) W HM' Wx (freq_x g sx) Bx f i ltac:(lra) E) as [B Hmin].
  assert (D : (ncols g / 2 = h)%nat) by (rewrite Hh; rewrite Nat.add_comm, Nat.mul_comm, Nat.div_add by lia; reflexivity). rewrite D in B.
  assert (E2 : 1 / (2 * W) = / W / 2) by (field; lra). assert (P : 0 < / W) by (apply Rinv_0_lt_compat; exact Wx).
  assert (I : i = h).
  { destruct (Nat.eq_dec i h) as [|N]; [assumption|]. exfalso. specialize (Hmin h ltac:(lia)). unfold bin in Hmin. rewrite D in Hmin. replace (Z.of_nat h - Z.of_nat h)%Z with 0%Z in Hmin by lia.
    replace (0 / W - f) with (- f) in Hmin by (unfold Rdiv; ring). rewrite Rabs_Ropp, (Rabs_pos_eq f) in Hmin by lra.
    assert (K : / W <= IZR (Z.of_nat i - Z.of_nat h) / W). { unfold Rdiv. rewrite <- (Rmult_1_l (/ W)) at 1. apply Rmult_le_compat_r; [lra|]. apply IZR_le. lia. }
    rewrite Rabs_pos_eq in Hmin by lra. lra. }
  subst i. unfold plot_fourier. cbv zeta. unfold shown at 1. rewrite E. cbn [rbind fst snd shown].
  assert (NE : forallb (fun r : list R => Nat.eqb (length r) 0) (map (cut (ncols g - h) (h + 1)) (plot_values g sm w log)) = true).
  { apply forallb_forall. intros r Hr. apply in_map_iff in Hr. destruct Hr as (r' & <- & _). unfold cut. replace (h + 1 - (ncols g - h))%nat with 0%nat by lia. reflexivity. }
  rewrite NE. reflexivity.
Qed.
