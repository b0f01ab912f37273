(** Property theorems C110 (rotate keeps only points of the surface) and C111 (rotate keeps the lateral scale), and the
    rectangle of C68 for every angle. *)
From Coq Require Import String Reals List Bool Arith ZArith Lia Lra Psatz.
From Verif Require Import Base RList ModelMath ModelHeights ProofHeights ModelGeom SpecGeom ProofGeom PropsGeom ModelRotate.
Import ListNotations.
Local Open Scope R_scope.

(** *** Arithmetic *)
Lemma sc_unit angle : let s := abs_sin angle in let c := abs_cos angle in
  0 <= s /\ 0 <= c /\ s * s + c * c = 1 /\ s <= 1 /\ c <= 1 /\ 1 <= s + c.
Proof.
  intros s c. unfold s, c, abs_sin, abs_cos. set (t := angle * PI / 180).
  assert (E : sin t * sin t + cos t * cos t = 1) by (assert (X := sin2_cos2 t); unfold Rsqr in X; exact X).
  assert (A := Rabs_pos (sin t)). assert (B := Rabs_pos (cos t)).
  assert (EA : Rabs (sin t) * Rabs (sin t) = sin t * sin t) by (rewrite <- Rabs_mult; apply Rabs_pos_eq; nra).
  assert (EB : Rabs (cos t) * Rabs (cos t) = cos t * cos t) by (rewrite <- Rabs_mult; apply Rabs_pos_eq; nra).
  repeat split; nra.
Qed.
(** the longer side n, the shorter m: n m / (n s + m c) fits into floor (n c + m s + 1/2) *)
Lemma fit_height (n m K : Z) (s c : R) : (1 <= m <= n)%Z -> 0 <= s -> 0 <= c -> s * s + c * c = 1 ->
  IZR K <= IZR n * c + IZR m * s + 1 / 2 < IZR K + 1 -> IZR n * IZR m / (IZR n * s + IZR m * c) <= IZR K.
Proof.
  intros Z0 S0 C0 E HK.
  assert (M1 : 1 <= IZR m) by (apply (IZR_le 1); lia). assert (NM : IZR m <= IZR n) by (apply IZR_le; lia).
  assert (SC : 1 <= s + c) by nra. assert (S1 : s <= 1) by nra. assert (C1 : c <= 1) by nra.
  set (N := IZR n) in *. set (M := IZR m) in *. set (P := N * s + M * c).
  assert (PM : M <= P) by (unfold P; nra).
  assert (HD : forall x, N * M <= x * P -> N * M / P <= x).
  { intros x Hx. apply (Rmult_le_reg_r P); [lra|]. unfold Rdiv. rewrite Rmult_assoc, Rinv_l by lra. lra. }
  destruct (Z_le_gt_dec n K) as [Hn|Hn].
  { apply HD. apply IZR_le in Hn. fold N in Hn. apply Rle_trans with (N * P); [nra|]. apply Rmult_le_compat_r; lra. }
  assert (Hn' : IZR K + 1 <= N) by (unfold N; rewrite <- (plus_IZR K 1); apply IZR_le; lia).
  assert (Q : P / 2 <= c * s * (N * N + M * M) -> N * M / P <= IZR K).
  { intros Hq. apply HD. assert (X : (N * c + M * s - 1 / 2) * P <= IZR K * P) by (apply Rmult_le_compat_r; lra).
    apply Rle_trans with (2 := X). replace ((N * c + M * s - 1 / 2) * P) with (N * M * (s * s + c * c) + c * s * (N * N + M * M) - P / 2)
      by (unfold P; field). rewrite E. lra. }
  destruct (Rle_lt_dec (1 / 2) c) as [Hc|Hc].
  - assert (A : M * s + 1 / 2 < N * (1 - c)) by lra.
    assert (B : 1 - c <= s * s) by nra.
    assert (D : M * s + 1 / 2 < N * s * s) by nra.
    assert (S2 : 0 < s) by nra.
    assert (F : M < N * s) by nra.
    assert (N2 : 2 <= N). { apply (IZR_le 2). assert (1 < N) by nra. assert (1 < n)%Z by (apply lt_IZR; exact H). lia. }
    apply Q. assert (G : P <= 2 * (N * s)) by (unfold P; nra).
    assert (G2 : 0 <= N * s * (N - 2)) by (apply Rmult_le_pos; nra).
    assert (G3 : 0 <= (c - 1 / 2) * (s * N * N)) by (apply Rmult_le_pos; [lra|]; apply Rmult_le_pos; nra).
    assert (G4 : 0 <= c * s * (M * M)) by (apply Rmult_le_pos; nra).
    nra.
  - destruct (Rle_lt_dec N P) as [HP|HP].
    + assert (MK : M <= IZR K).
      { apply IZR_le. assert (M - 1 < IZR K) by nra. unfold M in H. rewrite <- minus_IZR in H. apply lt_IZR in H. lia. }
      apply HD. apply Rle_trans with (M * P); [nra|]. apply Rmult_le_compat_r; lra.
    + assert (A : M * c < N * (1 - s)) by (unfold P in HP; lra).
      assert (B : 1 - s <= c * c) by nra.
      assert (C2 : 0 < c) by nra.
      assert (D : M < N * c) by nra.
      assert (S2 : 3 / 4 < s * s) by nra. assert (S3 : 1 / 4 < s) by nra.
      apply Q. assert (G : P <= N * s + N * (c * c)) by (unfold P; nra).
      assert (G1 : 0 <= s * N * (N * c - 1)) by (apply Rmult_le_pos; nra).
      assert (G4 : 0 <= c * s * (M * M)) by (apply Rmult_le_pos; nra).
      assert (G5 : c * c <= s) by nra. assert (G6 : 0 <= N * (s - c * c)) by (apply Rmult_le_pos; lra).
      nra.
Qed.
Lemma rot_dims ny nx angle : (1 <= ny)%nat -> (1 <= nx)%nat ->
  let s := abs_sin angle in let c := abs_cos angle in
  INR (rot_rows ny nx angle) <= INR ny * c + INR nx * s + 1 / 2 < INR (rot_rows ny nx angle) + 1 /\
  INR (rot_cols ny nx angle) <= INR ny * s + INR nx * c + 1 / 2 < INR (rot_cols ny nx angle) + 1.
Proof.
  intros Hy Hx s c. destruct (sc_unit angle) as (S0 & C0 & _). fold s c in S0, C0.
  assert (Y : 0 <= INR ny) by apply pos_INR. assert (X : 0 <= INR nx) by apply pos_INR.
  assert (A1 : 0 <= INR ny * c) by nra. assert (A2 : 0 <= INR nx * s) by nra.
  assert (A3 : 0 <= INR ny * s) by nra. assert (A4 : 0 <= INR nx * c) by nra.
  unfold rot_rows, rot_cols. fold s c. split.
  - destruct (pytrunc_bounds (INR ny * c + INR nx * s + 1 / 2)) as [B B0]; [lra|].
    rewrite INR_IZR_INZ, Z2Nat.id by exact B0. exact B.
  - destruct (pytrunc_bounds (INR ny * s + INR nx * c + 1 / 2)) as [B B0]; [lra|].
    rewrite INR_IZR_INZ, Z2Nat.id by exact B0. exact B.
Qed.
Lemma INR_1 n : (1 <= n)%nat -> 1 <= INR n.
Proof. intros H. apply (le_INR 1) in H. exact H. Qed.
Lemma rot_dims_ge ny nx angle : (1 <= ny)%nat -> (1 <= nx)%nat ->
  INR (Nat.min ny nx) <= INR (rot_rows ny nx angle) /\ INR (Nat.min ny nx) <= INR (rot_cols ny nx angle).
Proof.
  intros Hy Hx. destruct (rot_dims ny nx angle Hy Hx) as [A B]. destruct (sc_unit angle) as (S0 & C0 & E & S1 & C1 & SC).
  set (s := abs_sin angle) in *. set (c := abs_cos angle) in *. set (k := Nat.min ny nx).
  assert (K1 : INR k <= INR ny) by (apply le_INR; lia). assert (K2 : INR k <= INR nx) by (apply le_INR; lia).
  assert (K0 : 0 <= INR k) by apply pos_INR.
  split; apply le_INR; assert (X : (k < S (rot_rows ny nx angle))%nat /\ (k < S (rot_cols ny nx angle))%nat);
    try lia; split; apply INR_lt; rewrite S_INR; nra.
Qed.
(** the size of the kept rectangle against the rotated image *)
Lemma rot_fit ny nx angle : (1 <= ny)%nat -> (1 <= nx)%nat ->
  let w := kept_width ny nx angle in let h := kept_height ny nx angle in
  0 < w <= INR (rot_cols ny nx angle) /\ 0 < h <= INR (rot_rows ny nx angle) + 1 / 2 /\
  h * INR nx = w * INR ny /\
  ((nx <= ny)%nat -> h <= INR (rot_rows ny nx angle) /\ w * (INR ny * abs_sin angle + INR nx * abs_cos angle) = INR nx * INR nx) /\
  ((ny < nx)%nat -> w * (INR ny * abs_sin angle + INR nx * abs_cos angle) * INR (rot_rows ny nx angle)
                    = INR ny * INR nx * INR (rot_cols ny nx angle)).
Proof.
  intros Hy Hx w h. destruct (rot_dims ny nx angle Hy Hx) as [DH DW]. destruct (rot_dims_ge ny nx angle Hy Hx) as [GH GW].
  destruct (sc_unit angle) as (S0 & C0 & E & S1 & C1 & SC).
  unfold h, w, kept_height, kept_width. clear h w.
  set (s := abs_sin angle) in *. set (c := abs_cos angle) in *.
  assert (Y1 := INR_1 ny Hy). assert (X1 := INR_1 nx Hx).
  set (H := rot_rows ny nx angle) in *. set (W := rot_cols ny nx angle) in *.
  assert (M1 : 1 <= INR (Nat.min ny nx)) by (apply INR_1; lia).
  set (P := INR ny * s + INR nx * c) in *.
  assert (P0 : INR (Nat.min ny nx) <= P).
  { assert (INR (Nat.min ny nx) <= INR ny) by (apply le_INR; lia). assert (INR (Nat.min ny nx) <= INR nx) by (apply le_INR; lia). unfold P. nra. }
  assert (Fit := fun n m K => fit_height (Z.of_nat n) (Z.of_nat m) (Z.of_nat K)).
  destruct (Rlt_dec (INR ny / INR nx) 1) as [L|L].
  - assert (LL : (ny < nx)%nat). { apply INR_lt. apply (Rmult_lt_reg_r (/ INR nx)); [apply Rinv_0_lt_compat; lra|]. rewrite Rinv_r by lra. exact L. }
    rewrite Nat.min_l in * by lia.
    replace (INR ny / (INR H / INR W) / (INR ny / INR nx * s + c)) with (INR ny * INR nx * INR W / (INR H * P))
      by (unfold P; field; unfold P in P0; repeat split; nra).
    assert (NM : INR ny * INR nx <= INR H * P).
    { assert (X := Fit nx ny H c s ltac:(lia) C0 S0 ltac:(lra)). rewrite <- !INR_IZR_INZ in X.
      specialize (X ltac:(lra)). replace (INR nx * c + INR ny * s) with P in X by (unfold P; ring).
      apply (Rmult_le_compat_r P) in X; [|lra]. unfold Rdiv in X. rewrite Rmult_assoc, Rinv_l in X by lra. lra. }
    assert (HP : 0 < INR H * P) by nra.
    assert (D : forall a b, a <= b * (INR H * P) -> a / (INR H * P) <= b).
    { intros a b Q. apply (Rmult_le_reg_r (INR H * P)); [exact HP|]. unfold Rdiv. rewrite Rmult_assoc, Rinv_l by lra. lra. }
    assert (D0 : forall a, 0 < a -> 0 < a / (INR H * P)) by (intros a Q; apply Rdiv_lt_0_compat; lra).
    assert (W1 : 1 <= INR W) by lra. assert (H1 : 1 <= INR H) by lra.
    assert (YX : 1 <= INR ny * INR nx) by nra. assert (YY : 1 <= INR ny * INR ny) by nra.
    split; [split; [apply D0; apply Rmult_lt_0_compat; lra|apply D; rewrite (Rmult_comm (INR W)); apply Rmult_le_compat_r; lra]|].
    replace (INR ny * INR nx * INR W / (INR H * P) * (INR ny / INR nx)) with (INR ny * INR ny * INR W / (INR H * P)) by (field; nra).
    split; [split; [apply D0; apply Rmult_lt_0_compat; lra|apply D]|].
    + assert (INR W <= P + 1 / 2) by lra.
      apply Rle_trans with (INR ny * INR ny * (P + 1 / 2)); [apply Rmult_le_compat_l; nra|].
      assert (INR ny * INR ny * P <= INR H * INR H * P) by (apply Rmult_le_compat_r; nra).
      assert (INR ny * INR ny <= INR H * P) by nra. nra.
    + split; [field; nra|]. split; [intros; exfalso; lia|]. intros _. field. nra.
  - assert (LL : (nx <= ny)%nat).
    { apply INR_le. apply Rnot_lt_le in L. apply (Rmult_le_compat_r (INR nx)) in L; [|lra]. unfold Rdiv in L.
      rewrite Rmult_assoc, Rinv_l in L by lra. lra. }
    rewrite Nat.min_r in * by lia.
    replace (INR nx / (INR ny / INR nx * s + c)) with (INR nx * INR nx / P) by (unfold P; field; unfold P in P0; split; nra).
    assert (D : forall a b, a <= b * P -> a / P <= b).
    { intros a b Q. apply (Rmult_le_reg_r P); [lra|]. unfold Rdiv. rewrite Rmult_assoc, Rinv_l by lra. lra. }
    assert (D0 : forall a, 0 < a -> 0 < a / P) by (intros a Q; apply Rdiv_lt_0_compat; lra).
    replace (INR nx * INR nx / P * (INR ny / INR nx)) with (INR ny * INR nx / P) by (field; lra).
    assert (HH : INR ny * INR nx / P <= INR H).
    { assert (X := Fit ny nx H s c ltac:(lia) S0 C0 E). rewrite <- !INR_IZR_INZ in X. apply X. lra. }
    split; [split; [apply D0; nra|apply D; nra]|].
    split; [split; [apply D0; nra|lra]|].
    split; [field; lra|]. split; [|intros; exfalso; lia]. intros _. split; [exact HH|]. field; lra.
Qed.
(** *** The kept pixels *)
Local Open Scope Z_scope.
Lemma gslice_win g a b c d : rect g ->
  0 <= a <= Z.of_nat (nrows g) -> 0 <= b -> 0 <= c <= Z.of_nat (ncols g) -> 0 <= d ->
  exists g', gslice (sl a b) (sl c d) g = Ok g' /\
    window g (Z.to_nat a) (Z.to_nat c) (Z.to_nat (Z.min b (Z.of_nat (nrows g)) - a)) (Z.to_nat (Z.min d (Z.of_nat (ncols g)) - c)) g'.
Proof.
  assert (SI : forall n a b, 0 <= a <= n -> 0 <= b -> 0 <= n ->
    slice_indices n (sl a b) = Ok (map (fun k => a + Z.of_nat k) (seq 0 (Z.to_nat (Z.min b n - a))))).
  { clear. intros n a b Ha Hb Hn. rewrite slice_indices_eq. cbn [stepval sl sl_step]. cbn [Z.eqb].
    assert (S1 : startval n (sl a b) = a).
    { unfold startval, sl, stepval, wrap; cbn. destruct (Z.ltb_spec a 0); [lia|]. unfold clampZ. lia. }
    assert (S2 : stopval n (sl a b) = Z.min b n).
    { unfold stopval, sl, stepval, wrap; cbn. destruct (Z.ltb_spec b 0); [lia|]. unfold clampZ. lia. }
    rewrite S1, S2. f_equal. unfold slice_count. cbn [Z.ltb Z.compare].
    replace (Z.to_nat (if a <? Z.min b n then (Z.min b n - a - 1) / 1 + 1 else 0)) with (Z.to_nat (Z.min b n - a)).
    - apply map_ext. intros k. lia.
    - destruct (Z.ltb_spec a (Z.min b n)); [rewrite Z.div_1_r; lia|lia]. }
  intros Rg Ha Hb Hc Hd. set (N := Z.of_nat (nrows g)) in *. set (M := Z.of_nat (ncols g)) in *.
  set (nr := Z.to_nat (Z.min b N - a)). set (nc := Z.to_nat (Z.min d M - c)).
  set (ri := map (fun k => a + Z.of_nat k) (seq 0 nr)). set (ci := map (fun k => c + Z.of_nat k) (seq 0 nc)).
  assert (E1 : slice_indices N (sl a b) = Ok ri) by (apply SI; lia).
  assert (E2 : slice_indices M (sl c d) = Ok ci) by (apply SI; lia).
  exists (map (fun r => pick r ci) (pick g ri)). split.
  - unfold gslice. fold N M. now rewrite E1, E2.
  - assert (Hr : forall i, In i ri -> 0 <= i < N) by (intros i; apply (slice_indices_range N _ _ i ltac:(lia) E1)).
    assert (Hcc : forall i, In i ci -> 0 <= i < M) by (intros i; apply (slice_indices_range M _ _ i ltac:(lia) E2)).
    assert (L1 : length ri = nr) by (unfold ri; now rewrite map_length, seq_length).
    assert (L2 : length ci = nc) by (unfold ci; now rewrite map_length, seq_length).
    split; [rewrite gs_nrows; auto|]. split; [apply gs_rect; auto|].
    split; [intros H; rewrite gs_ncols; auto; intros X; rewrite X in L1; cbn in L1; congruence|].
    intros i j. rewrite gs_cell by auto. unfold ri, ci. rewrite !nth_error_shift.
    destruct (i <? nr)%nat, (j <? nc)%nat; cbn; auto.
    f_equal; lia.
Qed.
(** one axis: n pixels, w kept *)
Lemma kept_axis (n : nat) w : (1 <= n)%nat -> (0 < w <= INR n + 1 / 2)%R ->
  let lo := pytrunc ((INR n - w) / 2) + 1 in let hi := pytrunc (INR n - (INR n - w) / 2) - 1 in
  1 <= lo <= Z.of_nat n /\ 0 <= hi + 1 <= Z.of_nat n /\
  (w - 2 < IZR (hi + 1 - lo) < w)%R /\
  (forall i, lo <= i <= hi -> (Rabs (IZR i - (INR n - 1) / 2) <= (w - 1) / 2)%R).
Proof.
  intros Hn Hw lo hi. assert (N1 := INR_1 n Hn).
  assert (NZ : INR n = IZR (Z.of_nat n)) by apply INR_IZR_INZ.
  destruct (pytrunc_bounds (INR n - (INR n - w) / 2)) as [B B0]; [lra|].
  set (q := pytrunc (INR n - (INR n - w) / 2)) in *.
  destruct (Rle_lt_dec w (INR n)) as [Hc|Hc].
  - destruct (pytrunc_bounds ((INR n - w) / 2)) as [A A0]; [lra|].
    unfold lo, hi. set (p := pytrunc ((INR n - w) / 2)) in *.
    split; [split; [lia|]|split; [split; [lia|]|split]].
    + destruct (Z.le_gt_cases (p + 1) (Z.of_nat n)) as [X|X]; [exact X|].
      exfalso. assert (Y : Z.of_nat n <= p) by lia. apply IZR_le in Y. lra.
    + assert (q < Z.of_nat n + 1); [|lia]. apply lt_IZR. rewrite plus_IZR. lra.
    + replace (q - 1 + 1 - (p + 1)) with (q - p - 1) by ring. rewrite !minus_IZR. lra.
    + intros i [I1 I2]. apply IZR_le in I1, I2. rewrite plus_IZR in I1. rewrite minus_IZR in I2.
      apply Rabs_le. lra.
  - assert (P0 : pytrunc ((INR n - w) / 2) = 0).
    { unfold pytrunc. destruct (Rle_dec 0 ((INR n - w) / 2)); [lra|].
      replace (Int_part (- ((INR n - w) / 2))) with 0; [reflexivity|].
      assert (X := Int_part_bounds (- ((INR n - w) / 2))). set (k := Int_part _) in *.
      assert (k < 1) by (apply lt_IZR; lra). assert (-1 < k) by (apply lt_IZR; lra). lia. }
    assert (Q0 : q = Z.of_nat n).
    { assert (q < Z.of_nat n + 1) by (apply lt_IZR; rewrite plus_IZR; lra).
      assert (Z.of_nat n < q + 1) by (apply lt_IZR; rewrite plus_IZR; lra). lia. }
    unfold lo, hi. rewrite P0, Q0. split; [lia|]. split; [lia|]. split.
    + replace (Z.of_nat n - 1 + 1 - (0 + 1)) with (Z.of_nat n - 1) by ring. rewrite minus_IZR. lra.
    + intros i [I1 I2]. apply IZR_le in I1, I2. rewrite minus_IZR in I2. apply Rabs_le. cbn in I1. lra.
Qed.

(** [rotated]: shape and pixels *)
Lemma rotated_rows f ny nx angle : nrows (rotated f ny nx angle) = rot_rows ny nx angle.
Proof. unfold rotated, nrows. now rewrite map_length, seq_length. Qed.
Lemma rotated_rect f ny nx angle : rect (rotated f ny nx angle).
Proof.
  intros r Hr. unfold rotated in *. unfold ncols. destruct (rot_rows ny nx angle) as [|k]; [destruct Hr|].
  apply in_map_iff in Hr as (i & <- & _). cbn. now rewrite !map_length.
Qed.
Lemma rotated_cols f ny nx angle : (1 <= rot_rows ny nx angle)%nat -> ncols (rotated f ny nx angle) = rot_cols ny nx angle.
Proof.
  intros H. unfold rotated, ncols. destruct (rot_rows ny nx angle) as [|k]; [lia|]. cbn. now rewrite map_length, seq_length.
Qed.
Lemma rotated_cell f ny nx angle i j h : cell (rotated f ny nx angle) i j = Some h ->
  let p := rot_source ny nx angle i j in
  (i < rot_rows ny nx angle)%nat /\ (j < rot_cols ny nx angle)%nat /\
  h = Some (if within_data ny nx p then f (fst p) (snd p) else 0%R).
Proof.
  assert (SQ : forall n k x, nth_error (seq 0 n) k = Some x -> x = k /\ (k < n)%nat).
  { intros n k x E. assert (L : (k < length (seq 0 n))%nat) by (apply nth_error_Some; congruence). rewrite seq_length in L.
    rewrite (nth_error_nth' _ 0%nat) in E by now rewrite seq_length. rewrite seq_nth in E by exact L. injection E as <-. split; [lia|exact L]. }
  unfold cell, rotated. rewrite nth_error_map. destruct (nth_error (seq 0 (rot_rows ny nx angle)) i) as [a|] eqn:E1; [|discriminate].
  cbn [option_map]. rewrite nth_error_map. destruct (nth_error (seq 0 (rot_cols ny nx angle)) j) as [b|] eqn:E2; [|discriminate].
  cbn [option_map]. intros E. injection E as E. apply SQ in E1 as [-> L1], E2 as [-> L2]. cbv zeta. now subst h.
Qed.

(** The rectangle that rotate cuts out: [r0], [c0], [nr] rows, [nc] columns, all inside the rotated image, and within
    two pixels of the computed width and height. *)
Lemma kept f s angle : let ny := nrows (s_data s) in let nx := ncols (s_data s) in
  (1 <= ny)%nat -> (1 <= nx)%nat ->
  exists g' r0 c0 nr nc, rotate_data (rotated f ny nx angle) angle s = Ok g' /\
    window (rotated f ny nx angle) r0 c0 nr nc g' /\
    (1 <= r0 /\ r0 + nr <= rot_rows ny nx angle)%nat /\ (1 <= c0 /\ c0 + nc <= rot_cols ny nx angle)%nat /\
    (kept_height ny nx angle - 2 < INR nr)%R /\ ((1 <= nr)%nat -> INR nr < kept_height ny nx angle)%R /\
    (kept_width ny nx angle - 2 < INR nc)%R /\ ((1 <= nc)%nat -> INR nc < kept_width ny nx angle)%R /\
    (forall i, (i < nr)%nat -> (Rabs (INR (r0 + i) - (INR (rot_rows ny nx angle) - 1) / 2) <= (kept_height ny nx angle - 1) / 2)%R) /\
    (forall j, (j < nc)%nat -> (Rabs (INR (c0 + j) - (INR (rot_cols ny nx angle) - 1) / 2) <= (kept_width ny nx angle - 1) / 2)%R).
Proof.
  intros ny nx Hy Hx. destruct (rot_fit ny nx angle Hy Hx) as (Fw & Fh & _).
  destruct (rot_dims_ge ny nx angle Hy Hx) as [GH GW]. apply INR_le in GH, GW.
  assert (H1 : (1 <= rot_rows ny nx angle)%nat) by lia. assert (W1 : (1 <= rot_cols ny nx angle)%nat) by lia.
  unfold rotate_data, rotate_window. fold ny nx. rewrite rotated_rows, rotated_cols by exact H1.
  fold (abs_sin angle) (abs_cos angle).
  change ((if Rlt_dec (INR ny / INR nx) 1 then (INR ny / (INR (rot_rows ny nx angle) / INR (rot_cols ny nx angle)))%R else INR nx) /
     (INR ny / INR nx * abs_sin angle + abs_cos angle))%R with (kept_width ny nx angle).
  change (kept_width ny nx angle * (INR ny / INR nx))%R with (kept_height ny nx angle).
  destruct (kept_axis (rot_rows ny nx angle) (kept_height ny nx angle) H1 ltac:(lra)) as (A1 & A2 & A3 & A4).
  destruct (kept_axis (rot_cols ny nx angle) (kept_width ny nx angle) W1 ltac:(lra)) as (B1 & B2 & B3 & B4).
  set (ylo := pytrunc ((INR (rot_rows ny nx angle) - kept_height ny nx angle) / 2) + 1) in *.
  set (yhi := pytrunc (INR (rot_rows ny nx angle) - (INR (rot_rows ny nx angle) - kept_height ny nx angle) / 2) - 1) in *.
  set (xlo := pytrunc ((INR (rot_cols ny nx angle) - kept_width ny nx angle) / 2) + 1) in *.
  set (xhi := pytrunc (INR (rot_cols ny nx angle) - (INR (rot_cols ny nx angle) - kept_width ny nx angle) / 2) - 1) in *.
  destruct (gslice_win (rotated f ny nx angle) ylo (yhi + 1) xlo (xhi + 1)) as (g & E & Wi);
    try (apply rotated_rect); rewrite ?rotated_rows, ?rotated_cols by exact H1; try lia.
  rewrite rotated_rows, rotated_cols in Wi by exact H1.
  exists g. do 4 eexists. split; [exact E|]. split; [exact Wi|].
  rewrite !Z.min_l by lia. split; [lia|]. split; [lia|].
  assert (K : forall z w, (w - 2 < IZR z < w)%R -> (w - 2 < INR (Z.to_nat z))%R /\ ((1 <= Z.to_nat z)%nat -> (INR (Z.to_nat z) < w)%R)).
  { intros z w Hz. destruct (Z.le_gt_cases 0 z) as [P|P].
    - rewrite INR_IZR_INZ, Z2Nat.id by lia. split; intros; apply Hz.
    - replace (Z.to_nat z) with 0%nat by lia. assert (IZR z <= -1)%R by (apply (IZR_le _ (-1)); lia). cbn. split; [lra|intros; lia]. }
  destruct (K _ _ A3) as [K1 K2]. destruct (K _ _ B3) as [K3 K4].
  split; [exact K1|]. split; [exact K2|]. split; [exact K3|]. split; [exact K4|]. split.
  - intros i Hi. rewrite INR_IZR_INZ. apply A4. lia.
  - intros j Hj. rewrite INR_IZR_INZ. apply B4. lia.
Qed.

(** ** C68 for every surface and angle *)
(** The result is a rectangle of the rotated image, never further than two pixels from the computed width and height. *)
Theorem C68_rectangle : forall f s angle, (1 <= nrows (s_data s))%nat -> (1 <= ncols (s_data s))%nat ->
  let ny := nrows (s_data s) in let nx := ncols (s_data s) in
  exists g' r0 c0 nr nc, rotate_data (rotated f ny nx angle) angle s = Ok g' /\
    window (rotated f ny nx angle) r0 c0 nr nc g' /\
    (r0 + nr <= rot_rows ny nx angle)%nat /\ (c0 + nc <= rot_cols ny nx angle)%nat /\
    (kept_height ny nx angle - 2 < INR nr)%R /\ (kept_width ny nx angle - 2 < INR nc)%R.
Proof.
  intros f s angle Hy Hx ny nx. destruct (kept f s angle Hy Hx) as (g & r0 & c0 & nr & nc & E & W & A & B & C & _ & D & _).
  exists g, r0, c0, nr, nc. repeat split; try apply A; try apply B; try apply W; auto.
Qed.
(** It is not empty whenever the square of the shorter side is at least six times the longer one. *)
Theorem C68_non_empty : forall f s angle, has_missing (s_data s) = false ->
  let ny := nrows (s_data s) in let nx := ncols (s_data s) in
  (1 <= ny)%nat -> (1 <= nx)%nat -> (6 * Nat.max ny nx <= Nat.min ny nx * Nat.min ny nx)%nat ->
  exists s', rotate f angle s = Ok s' /\ (1 <= nrows (s_data s'))%nat /\ (1 <= ncols (s_data s'))%nat /\
    rect (s_data s').
Proof.
  intros f s angle Hm ny nx Hy Hx Hs. destruct (kept f s angle Hy Hx) as (g & r0 & c0 & nr & nc & E & W & A & B & C & _ & D & _).
  unfold rotate. rewrite Hm. fold ny nx. fold ny nx in E, W, A, B, C, D. rewrite E. cbn [rbind]. eexists. split; [reflexivity|]. cbn [s_data].
  destruct W as (W1 & W2 & W3 & _).
  destruct (rot_fit ny nx angle Hy Hx) as (Fw & Fh & Fr & Ft & Fl). destruct (rot_dims ny nx angle Hy Hx) as [DH DW].
  destruct (rot_dims_ge ny nx angle Hy Hx) as [GH GW].
  destruct (sc_unit angle) as (S0 & C0 & EE & S1 & C1 & SC).
  assert (Y1 := INR_1 ny Hy). assert (X1 := INR_1 nx Hx). apply le_INR in Hs. rewrite !mult_INR in Hs.
  replace (INR 6) with 6%R in Hs by (cbn; lra).
  assert (SC2 : (abs_sin angle + abs_cos angle <= 3 / 2)%R) by nra.
  assert (K : (2 <= kept_height ny nx angle)%R /\ (2 <= kept_width ny nx angle)%R).
  { set (P := (INR ny * abs_sin angle + INR nx * abs_cos angle)%R) in *.
    set (w := kept_width ny nx angle) in *. set (h := kept_height ny nx angle) in *.
    destruct (Nat.le_gt_cases nx ny) as [L|L].
    - rewrite Nat.max_l, Nat.min_r in Hs by lia. destruct (Ft L) as [_ Fw2]. apply le_INR in L.
      assert (P <= 3 / 2 * INR ny)%R by (unfold P; nra).
      assert (2 <= w)%R. { apply Rnot_lt_le. intros X. assert (w * P <= 2 * (3 / 2 * INR ny))%R by (apply Rmult_le_compat; unfold P in *; nra). lra. }
      split; [|assumption]. nra.
    - rewrite Nat.max_r, Nat.min_l in * by lia. specialize (Fl L). assert (L' := L). apply lt_INR in L'.
      set (H := INR (rot_rows ny nx angle)) in *. set (V := INR (rot_cols ny nx angle)) in *.
      assert (6 <= INR ny)%R by nra.
      assert (HH : (H <= 8 / 5 * INR nx)%R) by nra.
      assert (PV : (INR ny <= P)%R) by (unfold P; nra).
      assert (VV : (11 / 12 * P <= V)%R) by lra.
      assert (Q : (h * H * P = INR ny * INR ny * V)%R).
      { apply (Rmult_eq_reg_r (INR nx)); [|lra]. replace (h * H * P * INR nx)%R with ((h * INR nx) * (H * P))%R by ring.
        rewrite Fr. transitivity (INR ny * (w * P * H))%R; [ring|]. rewrite Fl. ring. }
      assert (2 <= h)%R.
      { apply Rnot_lt_le. intros X.
        assert (Y : (h * H * P <= 2 * (8 / 5 * INR nx) * P)%R) by (apply Rmult_le_compat_r; [lra|]; apply Rmult_le_compat; lra).
        assert (Z : (6 * INR nx * (11 / 12 * P) <= INR ny * INR ny * V)%R) by (apply Rmult_le_compat; nra).
        assert (ZZ : (0 < INR nx * P)%R) by nra. nra. }
      split; [assumption|]. apply Rnot_lt_le. intros X. assert (h * INR nx < 2 * INR nx)%R by nra. nra. }
  assert (NR : (1 <= nr)%nat). { destruct nr; [cbn in C; lra|lia]. }
  assert (NC : (1 <= nc)%nat). { destruct nc; [cbn in D; lra|lia]. }
  rewrite W1. split; [exact NR|]. split; [|exact W2]. rewrite W3; lia.
Qed.

(** ** C110 *)
Local Open Scope R_scope.
(** the turned point: same distance from the middle of the data as the pixel from the middle of the rotated image *)
Theorem C110_turned : forall ny nx angle i j, let p := rot_source ny nx angle i j in
  let dy := INR i - (INR (rot_rows ny nx angle) - 1) / 2 in let dx := INR j - (INR (rot_cols ny nx angle) - 1) / 2 in
  let y := fst p - (INR ny - 1) / 2 in let x := snd p - (INR nx - 1) / 2 in
  y * y + x * x = dy * dy + dx * dx /\
  dy * y + dx * x = cos (angle * PI / 180) * (dy * dy + dx * dx) /\ dy * x - dx * y = - sin (angle * PI / 180) * (dy * dy + dx * dx).
Proof.
  intros ny nx angle i j p dy dx y x. unfold y, x, p, rot_source. cbn [fst snd]. fold dy dx. set (t := angle * PI / 180).
  assert (E : cos t * cos t = 1 - sin t * sin t) by (assert (X := sin2_cos2 t); unfold Rsqr in X; lra).
  split; [|split; ring].
  replace ((cos t * dy + sin t * dx + (INR ny - 1) / 2 - (INR ny - 1) / 2) * (cos t * dy + sin t * dx + (INR ny - 1) / 2 - (INR ny - 1) / 2) +
    (- sin t * dy + cos t * dx + (INR nx - 1) / 2 - (INR nx - 1) / 2) * (- sin t * dy + cos t * dx + (INR nx - 1) / 2 - (INR nx - 1) / 2))
    with ((cos t * cos t + sin t * sin t) * (dy * dy + dx * dx)) by ring.
  rewrite E. ring.
Qed.
Lemma turn_bound angle a b dy dx : Rabs dy <= a -> Rabs dx <= b ->
  let c := cos (angle * PI / 180) in let s := sin (angle * PI / 180) in
  Rabs (c * dy + s * dx) <= abs_cos angle * a + abs_sin angle * b /\
  Rabs (- s * dy + c * dx) <= abs_sin angle * a + abs_cos angle * b.
Proof.
  intros A B c s. unfold abs_cos, abs_sin. fold c s.
  assert (A0 := Rabs_pos dy). assert (B0 := Rabs_pos dx). assert (C0 := Rabs_pos c). assert (S0 := Rabs_pos s).
  split; eapply Rle_trans; try apply Rabs_triang; rewrite !Rabs_mult, ?Rabs_Ropp; apply Rplus_le_compat; apply Rmult_le_compat_l; lra.
Qed.
Lemma rotate_cell f s angle s' i j h : (1 <= nrows (s_data s))%nat -> (1 <= ncols (s_data s))%nat ->
  rotate f angle s = Ok s' -> cell (s_data s') i j = Some h ->
  let ny := nrows (s_data s) in let nx := ncols (s_data s) in
  exists i' j', let p := rot_source ny nx angle i' j' in
    (i' < rot_rows ny nx angle)%nat /\ (j' < rot_cols ny nx angle)%nat /\
    h = Some (if within_data ny nx p then f (fst p) (snd p) else 0) /\
    Rabs (fst p - (INR ny - 1) / 2) <= (abs_cos angle * kept_height ny nx angle + abs_sin angle * kept_width ny nx angle - (abs_cos angle + abs_sin angle)) / 2 /\
    Rabs (snd p - (INR nx - 1) / 2) <= (abs_sin angle * kept_height ny nx angle + abs_cos angle * kept_width ny nx angle - (abs_cos angle + abs_sin angle)) / 2.
Proof.
  intros Hy Hx E Hc ny nx. unfold rotate in E. destruct (has_missing (s_data s)); [discriminate|].
  destruct (kept f s angle Hy Hx) as (g & r0 & c0 & nr & nc & Eg & W & A & B & _ & _ & _ & _ & Ky & Kx).
  fold ny nx in E, Eg, W, A, B, Ky, Kx. rewrite Eg in E. cbn [rbind] in E. injection E as <-. cbn [s_data] in Hc.
  destruct W as (_ & _ & _ & Wc). rewrite Wc in Hc.
  destruct (Nat.ltb_spec i nr) as [Li|Li]; [|discriminate]. destruct (Nat.ltb_spec j nc) as [Lj|Lj]; [|discriminate]. cbn [andb] in Hc.
  exists (r0 + i)%nat, (c0 + j)%nat. destruct (rotated_cell _ _ _ _ _ _ _ Hc) as (P1 & P2 & P3).
  split; [exact P1|]. split; [exact P2|]. split; [exact P3|].
  destruct (turn_bound angle _ _ _ _ (Ky i Li) (Kx j Lj)) as [T1 T2].
  unfold rot_source. cbn [fst snd]. split.
  - replace (cos (angle * PI / 180) * (INR (r0 + i) - (INR (rot_rows ny nx angle) - 1) / 2) + sin (angle * PI / 180) * (INR (c0 + j) - (INR (rot_cols ny nx angle) - 1) / 2) + (INR ny - 1) / 2 - (INR ny - 1) / 2)
      with (cos (angle * PI / 180) * (INR (r0 + i) - (INR (rot_rows ny nx angle) - 1) / 2) + sin (angle * PI / 180) * (INR (c0 + j) - (INR (rot_cols ny nx angle) - 1) / 2)) by ring.
    lra.
  - replace (- sin (angle * PI / 180) * (INR (r0 + i) - (INR (rot_rows ny nx angle) - 1) / 2) + cos (angle * PI / 180) * (INR (c0 + j) - (INR (rot_cols ny nx angle) - 1) / 2) + (INR nx - 1) / 2 - (INR nx - 1) / 2)
      with (- sin (angle * PI / 180) * (INR (r0 + i) - (INR (rot_rows ny nx angle) - 1) / 2) + cos (angle * PI / 180) * (INR (c0 + j) - (INR (rot_cols ny nx angle) - 1) / 2)) by ring.
    lra.
Qed.
(** A surface at least as high as it is wide: every pixel of the result is the value of the data at a point between its
    first and last row and column; none is filled. *)
Theorem C110_inside : forall f s angle s' i j h, (1 <= ncols (s_data s) <= nrows (s_data s))%nat ->
  rotate f angle s = Ok s' -> cell (s_data s') i j = Some h ->
  exists y x, 0 <= y <= INR (nrows (s_data s)) - 1 /\ 0 <= x <= INR (ncols (s_data s)) - 1 /\ h = Some (f y x).
Proof.
  intros f s angle s' i j h Hs E Hc. destruct (rotate_cell f s angle s' i j h ltac:(lia) ltac:(lia) E Hc) as (i' & j' & _ & _ & Eh & By & Bx).
  set (ny := nrows (s_data s)) in *. set (nx := ncols (s_data s)) in *.
  destruct (rot_fit ny nx angle ltac:(lia) ltac:(lia)) as (Fw & Fh & Fr & Ft & _). destruct (Ft ltac:(lia)) as [_ Fw2]. clear Ft.
  destruct (sc_unit angle) as (S0 & C0 & EE & S1 & C1 & SC).
  assert (Y1 := INR_1 ny ltac:(lia)). assert (X1 := INR_1 nx ltac:(lia)). assert (L : INR nx <= INR ny) by (apply le_INR; lia).
  set (w := kept_width ny nx angle) in *. set (k := kept_height ny nx angle) in *. set (p := rot_source ny nx angle i' j') in *.
  set (a := abs_sin angle) in *. set (c := abs_cos angle) in *.
  assert (Qx : a * k + c * w = INR nx).
  { apply (Rmult_eq_reg_r (INR nx)); [|lra]. transitivity (a * (k * INR nx) + c * w * INR nx); [ring|]. rewrite Fr. rewrite <- Fw2. ring. }
  assert (Qy : c * k + a * w <= INR ny).
  { apply (Rmult_le_reg_r (INR nx)); [lra|]. replace ((c * k + a * w) * INR nx) with (c * (k * INR nx) + a * w * INR nx) by ring. rewrite Fr.
    apply (Rmult_le_reg_r (INR ny * a + INR nx * c)); [nra|].
    replace ((c * (w * INR ny) + a * w * INR nx) * (INR ny * a + INR nx * c)) with (w * (INR ny * a + INR nx * c) * (c * INR ny + a * INR nx)) by ring.
    rewrite Fw2. assert (Z : INR nx * INR nx <= INR ny * INR ny) by (apply Rmult_le_compat; lra).
    assert (0 <= INR nx * a * (INR ny * INR ny - INR nx * INR nx)) by (apply Rmult_le_pos; [apply Rmult_le_pos; lra|lra]). nra. }
  assert (R : forall v n b, Rabs (v - (n - 1) / 2) <= (b - (c + a)) / 2 -> b <= n -> 0 <= v <= n - 1).
  { intros v n b H1 H2. assert (Q1 := Rle_abs (v - (n - 1) / 2)). assert (Q2 := Rle_abs (- (v - (n - 1) / 2))). rewrite Rabs_Ropp in Q2. lra. }
  assert (Ry := R _ _ _ By Qy). assert (Rx := R _ _ _ Bx ltac:(lra)).
  exists (fst p), (snd p). split; [exact Ry|]. split; [exact Rx|]. rewrite Eh. unfold within_data.
  destruct (Rle_dec 0 (fst p)); [|lra]. destruct (Rle_dec (fst p) (INR ny - 1)); [|lra].
  destruct (Rle_dec 0 (snd p)); [|lra]. destruct (Rle_dec (snd p) (INR nx - 1)); [|lra]. reflexivity.
Qed.
(** A wider surface: the point never leaves the data to the left or right, and upwards or downwards by less than two
    thirds of a pixel. *)
Theorem C110_near_partial : forall f s angle s' i j h, (1 <= nrows (s_data s) < ncols (s_data s))%nat ->
  rotate f angle s = Ok s' -> cell (s_data s') i j = Some h ->
  exists y x, - (2 / 3) < y < INR (nrows (s_data s)) - 1 + 2 / 3 /\ 0 <= x <= INR (ncols (s_data s)) - 1 /\
    (0 <= y <= INR (nrows (s_data s)) - 1 -> h = Some (f y x)) /\
    (~ 0 <= y <= INR (nrows (s_data s)) - 1 -> h = Some 0).
Proof.
  intros f s angle s' i j h Hs E Hc. destruct (rotate_cell f s angle s' i j h ltac:(lia) ltac:(lia) E Hc) as (i' & j' & _ & _ & Eh & By & Bx).
  set (ny := nrows (s_data s)) in *. set (nx := ncols (s_data s)) in *.
  destruct (rot_fit ny nx angle ltac:(lia) ltac:(lia)) as (Fw & Fh & Fr & _ & Fl). specialize (Fl ltac:(lia)).
  destruct (rot_dims ny nx angle ltac:(lia) ltac:(lia)) as [DH DW]. destruct (rot_dims_ge ny nx angle ltac:(lia) ltac:(lia)) as [GH GW].
  rewrite Nat.min_l in GH, GW by lia.
  destruct (sc_unit angle) as (S0 & C0 & EE & S1 & C1 & SC).
  assert (Y1 := INR_1 ny ltac:(lia)). assert (X1 := INR_1 nx ltac:(lia)). assert (L : INR ny <= INR nx) by (apply le_INR; lia).
  assert (WH : INR (rot_cols ny nx angle) <= INR (rot_rows ny nx angle) + (INR nx - INR ny)).
  { assert (X : (rot_cols ny nx angle < rot_rows ny nx angle + (nx - ny) + 1)%nat).
    { apply INR_lt. rewrite !plus_INR, minus_INR by lia. change (INR 1) with 1. nra. }
    assert (X2 : (rot_cols ny nx angle <= rot_rows ny nx angle + (nx - ny))%nat) by lia.
    apply le_INR in X2. rewrite plus_INR, minus_INR in X2 by lia. exact X2. }
  set (w := kept_width ny nx angle) in *. set (k := kept_height ny nx angle) in *. set (p := rot_source ny nx angle i' j') in *.
  set (a := abs_sin angle) in *. set (c := abs_cos angle) in *.
  set (H := INR (rot_rows ny nx angle)) in *. set (W := INR (rot_cols ny nx angle)) in *.
  set (P := INR ny * a + INR nx * c) in *. assert (PP : INR ny <= P) by (unfold P; nra).
  assert (HP : 0 < H * P) by nra.
  assert (Qx : a * k + c * w <= INR nx).
  { apply (Rmult_le_reg_r (INR nx * (H * P))); [nra|].
    replace ((a * k + c * w) * (INR nx * (H * P))) with ((a * (k * INR nx) + c * w * INR nx) * (H * P)) by ring. rewrite Fr.
    replace ((a * (w * INR ny) + c * w * INR nx) * (H * P)) with ((w * P * H) * P) by (unfold P; ring). rewrite Fl.
    replace (INR nx * (INR nx * (H * P))) with (INR nx * P * (INR nx * H)) by ring.
    replace (INR ny * INR nx * W * P) with (INR nx * P * (INR ny * W)) by ring.
    apply Rmult_le_compat_l; [nra|].
    assert (INR ny * W <= INR ny * (H + (INR nx - INR ny))) by (apply Rmult_le_compat_l; lra).
    assert (0 <= (INR nx - INR ny) * (H - INR ny)) by (apply Rmult_le_pos; lra). lra. }
  assert (Qy : c * k + a * w <= INR ny + 5 / 4).
  { set (Q := INR ny * c + INR nx * a) in *.
    assert (E1 : (c * k + a * w) * (H * P) = INR ny * W * Q).
    { apply (Rmult_eq_reg_r (INR nx)); [|lra].
      replace ((c * k + a * w) * (H * P) * INR nx) with ((c * (k * INR nx) + a * w * INR nx) * (H * P)) by ring. rewrite Fr.
      replace ((c * (w * INR ny) + a * w * INR nx) * (H * P)) with (w * P * H * Q) by (unfold Q; ring). rewrite Fl. ring. }
    apply (Rmult_le_reg_r (H * P)); [exact HP|]. rewrite E1.
    assert (A1 : W <= P + 1 / 2) by lra. assert (A2 : Q <= H + 1 / 2) by lra.
    assert (Q0 : 0 <= Q) by (unfold Q; nra).
    assert (A3 : INR ny * W * Q <= INR ny * (P + 1 / 2) * (H + 1 / 2)).
    { apply Rmult_le_compat; [nra|exact Q0| |exact A2]. apply Rmult_le_compat_l; lra. }
    apply Rle_trans with (1 := A3).
    assert (B1 : 0 <= P * (H - INR ny)) by nra. assert (B2 : 0 <= H * (P - INR ny)) by nra.
    assert (B3 : 0 <= H * (P - 1)) by nra. assert (B4 : INR ny <= H * P) by nra. nra. }
  assert (R : forall v n b e, Rabs (v - (n - 1) / 2) <= (b - (c + a)) / 2 -> b <= n + e -> - (e / 2) <= v <= n - 1 + e / 2).
  { intros v n b e H1 H2. assert (Q1 := Rle_abs (v - (n - 1) / 2)). assert (Q2 := Rle_abs (- (v - (n - 1) / 2))). rewrite Rabs_Ropp in Q2. lra. }
  assert (Ry := R _ _ _ _ By Qy). assert (Rx := R _ _ _ 0 Bx ltac:(lra)).
  exists (fst p), (snd p). split; [lra|]. split; [lra|]. rewrite Eh. unfold within_data.
  destruct (Rle_dec 0 (snd p)); [|lra]. destruct (Rle_dec (snd p) (INR nx - 1)); [|lra].
  destruct (Rle_dec 0 (fst p)), (Rle_dec (fst p) (INR ny - 1)); cbn [andb]; split; intros X; try reflexivity; exfalso; lra.
Qed.
(** The claim is false for wide surfaces.  11 x 18 pixels, all heights 1, turned by the angle of sine 24/25 and cosine 7/25:
    the first pixel of the result is 0, because it was read at -0.02 pixels, outside the data. *)
Definition wide : surf := mkSurf (repeat (repeat (Some 1) 18) 11) 1 1.
Definition slanted : R := atan (24 / 7) * 180 / PI.
Lemma slanted_sc : sin (slanted * PI / 180) = 24 / 25 /\ cos (slanted * PI / 180) = 7 / 25.
Proof.
  assert (P := PI_RGT_0). replace (slanted * PI / 180) with (atan (24 / 7)) by (unfold slanted; field; lra).
  rewrite sin_atan, cos_atan. replace (1 + (24 / 7)²) with ((25 / 7) * (25 / 7)) by (unfold Rsqr; field).
  rewrite sqrt_square by lra. split; field.
Qed.
Lemma slanted_abs : abs_sin slanted = 24 / 25 /\ abs_cos slanted = 7 / 25.
Proof. destruct slanted_sc as [A B]. unfold abs_sin, abs_cos. rewrite A, B. split; apply Rabs_pos_eq; lra. Qed.
Lemma trunc_is k x : 0 <= x -> IZR k <= x < IZR k + 1 -> pytrunc x = k.
Proof.
  intros H B. destruct (pytrunc_bounds x H) as [B' _].
  assert (pytrunc x < k + 1)%Z by (apply lt_IZR; rewrite plus_IZR; lra).
  assert (k < pytrunc x + 1)%Z by (apply lt_IZR; rewrite plus_IZR; lra). lia.
Qed.
Theorem C110_refuted : has_missing (s_data wide) = false /\ (forall h, In h (flat (s_data wide)) -> h = Some 1) /\
  exists s', rotate (fun _ _ => 1) slanted wide = Ok s' /\ cell (s_data s') 0 0 = Some (Some 0).
Proof.
  split; [reflexivity|]. split.
  { intros h Hh. unfold flat in Hh. apply in_concat in Hh as (r & Hr & Hx). apply repeat_spec in Hr. subst r.
    now apply repeat_spec in Hx. }
  destruct slanted_abs as [EA EC]. destruct slanted_sc as [ES ECC].
  assert (RR : rot_rows 11 18 slanted = 20%nat).
  { unfold rot_rows. rewrite EA, EC. replace (INR 11) with 11 by (cbn; lra). replace (INR 18) with 18 by (cbn; lra).
    rewrite (trunc_is 20); [reflexivity| |]; lra. }
  assert (RC : rot_cols 11 18 slanted = 16%nat).
  { unfold rot_cols. rewrite EA, EC. replace (INR 11) with 11 by (cbn; lra). replace (INR 18) with 18 by (cbn; lra).
    rewrite (trunc_is 16); [reflexivity| |]; lra. }
  assert (KW : kept_width 11 18 slanted = 132 / 13).
  { unfold kept_width. rewrite RR, RC, EA, EC. replace (INR 11) with 11 by (cbn; lra). replace (INR 18) with 18 by (cbn; lra).
    replace (INR 20) with 20 by (cbn; lra). replace (INR 16) with 16 by (cbn; lra).
    destruct (Rlt_dec (11 / 18) 1); [|lra]. field. }
  unfold rotate. change (has_missing (s_data wide)) with false. cbv iota.
  change (nrows (s_data wide)) with 11%nat. change (ncols (s_data wide)) with 18%nat.
  set (rot := rotated (fun _ _ => 1) 11 18 slanted).
  assert (NR : nrows rot = 20%nat) by (unfold rot; now rewrite rotated_rows).
  assert (NC : ncols rot = 16%nat) by (unfold rot; rewrite rotated_cols by (rewrite RR; lia); exact RC).
  unfold rotate_data, rotate_window. change (nrows (s_data wide)) with 11%nat. change (ncols (s_data wide)) with 18%nat.
  rewrite NR, NC. fold (abs_sin slanted) (abs_cos slanted).
  assert (KW' := KW). unfold kept_width in KW'. rewrite RR, RC in KW'. cbv zeta in KW'. rewrite KW'.
  replace (INR 20) with 20 by (cbn; lra). replace (INR 16) with 16 by (cbn; lra).
  replace (INR 11) with 11 by (cbn; lra). replace (INR 18) with 18 by (cbn; lra).
  rewrite (trunc_is 6) by lra. rewrite (trunc_is 13 (20 - _)) by lra. rewrite (trunc_is 2) by lra. rewrite (trunc_is 13) by lra.
  destruct (gslice_win rot (6 + 1) (13 - 1 + 1) (2 + 1) (13 - 1 + 1)) as (g & E & _ & _ & _ & Wc);
    try (apply rotated_rect); rewrite ?NR, ?NC; try lia.
  rewrite E. cbn [rbind]. eexists. split; [reflexivity|]. cbn [s_data]. rewrite Wc, NR, NC.
  change (cell rot 7 3 = Some (Some 0)).
  unfold rot, cell, rotated. rewrite RR, RC. rewrite nth_error_map. cbn [seq nth_error option_map].
  cbn [map]. apply f_equal, f_equal.
  unfold within_data, rot_source. cbn [fst snd]. rewrite RR, RC, ES, ECC.
  replace (INR 20) with 20 by (cbn; lra). replace (INR 16) with 16 by (cbn; lra).
  replace (INR 11) with 11 by (cbn; lra). replace (INR 7) with 7 by (cbn; lra). replace (INR 3) with 3 by (cbn; lra).
  destruct (Rle_dec 0 _) as [X|X]; [exfalso; lra|]. reflexivity.
Qed.
(** The guard: a surface with missing points is not rotated. *)
Theorem C110_guard : forall f s angle, has_missing (s_data s) = true -> rotate f angle s = Err ValueError.
Proof. intros f s angle H. unfold rotate. now rewrite H. Qed.
(** A square surface of six or more rows: the result exists for every angle and [C110_inside] applies to its pixels. *)
Theorem C110_example : forall f s angle, has_missing (s_data s) = false -> (6 <= nrows (s_data s))%nat ->
  ncols (s_data s) = nrows (s_data s) -> exists s' h, rotate f angle s = Ok s' /\ cell (s_data s') 0 0 = Some h.
Proof.
  intros f s angle Hm Hr Hc. destruct (C68_non_empty f s angle Hm) as (s' & E & A & B & R); rewrite ?Hc; try lia.
  { rewrite Nat.max_id, Nat.min_id. nia. }
  exists s'. destruct (s_data s') as [|[|h r] g] eqn:D; [cbn in A; lia|cbn in B; lia|]. exists h. split; [exact E|]. reflexivity.
Qed.

(** ** C111: for square pixels, the extent of the result is right to within two pixels along either axis. *)
Theorem C111_scale : forall f s angle s', (1 <= nrows (s_data s))%nat -> (1 <= ncols (s_data s))%nat ->
  0 < s_sx s -> s_sy s = s_sx s -> rotate f angle s = Ok s' ->
  (1 <= nrows (s_data s'))%nat -> (1 <= ncols (s_data s'))%nat ->
  Rabs (INR (ncols (s_data s')) * s_sx s' - INR (ncols (s_data s')) * s_sx s) <= 2 * s_sx s /\
  Rabs (INR (nrows (s_data s')) * s_sy s' - INR (nrows (s_data s')) * s_sy s) <= 2 * s_sy s.
Proof.
  intros f s angle s' Hy Hx Hd Hsq E Nr Nc. unfold rotate in E. destruct (has_missing (s_data s)); [discriminate|].
  destruct (kept f s angle Hy Hx) as (g & r0 & c0 & nr & nc & Eg & (W1 & _ & W3 & _) & A & B & K1 & K2 & K3 & K4 & _).
  set (ny := nrows (s_data s)) in *. set (nx := ncols (s_data s)) in *. rewrite Eg in E. cbn [rbind] in E. injection E as <-.
  cbn [s_data s_sx s_sy] in *. rewrite W1 in *. assert (W4 : ncols g = nc) by (apply W3; lia). rewrite W4 in *. clear W3.
  rewrite Hsq. set (d := s_sx s) in *. unfold extent.
  destruct (rot_fit ny nx angle Hy Hx) as (Fw & Fh & _). destruct (rot_dims ny nx angle Hy Hx) as [DH DW].
  destruct (rot_dims_ge ny nx angle Hy Hx) as [GH GW].
  assert (M1 : 1 <= INR (Nat.min ny nx)) by (apply INR_1; lia).
  destruct (sc_unit angle) as (S0 & C0 & EE & S1 & C1 & SC).
  assert (SC2 : abs_sin angle + abs_cos angle <= 3 / 2) by nra.
  assert (N1 := INR_1 nr Nr). assert (N2 := INR_1 nc Nc). specialize (K2 Nr). specialize (K4 Nc).
  assert (KR : INR nr <= INR (rot_rows ny nx angle) - 1).
  { assert (X : (nr + 1 <= rot_rows ny nx angle)%nat) by lia. apply le_INR in X. rewrite plus_INR in X. change (INR 1) with 1 in X. lra. }
  assert (KC : INR nc <= INR (rot_cols ny nx angle) - 1).
  { assert (X : (nc + 1 <= rot_cols ny nx angle)%nat) by lia. apply le_INR in X. rewrite plus_INR in X. change (INR 1) with 1 in X. lra. }
  set (w := kept_width ny nx angle) in *. set (k := kept_height ny nx angle) in *.
  set (H := INR (rot_rows ny nx angle)) in *. set (W := INR (rot_cols ny nx angle)) in *.
  set (a := abs_sin angle) in *. set (c := abs_cos angle) in *.
  assert (G : forall n v L E t, 1 <= n -> n <= L - 1 -> v - 2 < n < v -> v <= L + 1 / 2 -> L <= E + 1 / 2 < L + 1 -> 1 <= t <= 3 / 2 -> 
    Rabs (n * ((E - t) * d * v / L / n) - n * d) <= 2 * d).
  { intros n v L X t Hn Hl Hv Hv2 HX Ht.
    replace (n * ((X - t) * d * v / L / n) - n * d) with (d * (((X - t) * v - n * L) / L)) by (field; lra).
    rewrite Rabs_mult, (Rabs_pos_eq d) by lra. rewrite (Rmult_comm 2). apply Rmult_le_compat_l; [lra|].
    assert (Q : - (2 * L) <= (X - t) * v - n * L <= 2 * L).
    { split.
      - destruct (Rle_lt_dec v L) as [V|V].
        + assert (0 <= (X - (L - 1 / 2)) * v) by (apply Rmult_le_pos; lra). assert (0 <= (3 / 2 - t) * v) by (apply Rmult_le_pos; lra).
          assert (0 <= (v - n) * L) by (apply Rmult_le_pos; lra). lra.
        + assert (0 <= (X - (L - 1 / 2)) * v) by (apply Rmult_le_pos; lra). assert (0 <= (3 / 2 - t) * v) by (apply Rmult_le_pos; lra).
          assert (0 <= (L - 1 - n) * L) by (apply Rmult_le_pos; lra). assert (0 <= (L - 2) * (v - L)) by (apply Rmult_le_pos; lra). lra.
      - assert (0 <= (L + 1 / 2 - X) * v) by (apply Rmult_le_pos; lra). assert (0 <= (t - 1) * v) by (apply Rmult_le_pos; lra).
        assert (0 <= (n + 2 - v) * L) by (apply Rmult_le_pos; lra). lra. }
    assert (L0 : 0 < / L) by (apply Rinv_0_lt_compat; lra).
    apply Rabs_le. unfold Rdiv. split.
    - apply (Rmult_le_reg_r L); [lra|]. rewrite Rmult_assoc, Rinv_l by lra. lra.
    - apply (Rmult_le_reg_r L); [lra|]. rewrite Rmult_assoc, Rinv_l by lra. lra. }
  split.
  - replace ((INR nx - 1) * d * c + (INR ny - 1) * d * a) with ((INR ny * a + INR nx * c - (a + c)) * d) by ring.
    apply G; lra.
  - replace ((INR nx - 1) * d * a + (INR ny - 1) * d * c) with ((INR ny * c + INR nx * a - (a + c)) * d) by ring.
    apply G; lra.
Qed.
(** Turning by nothing keeps the steps, square or not (and, C68, drops the first row and column). *)
Theorem C111_zero : forall f s s', (2 <= nrows (s_data s))%nat -> (2 <= ncols (s_data s))%nat ->
  rotate f 0 s = Ok s' -> s_sx s' = s_sx s /\ s_sy s' = s_sy s /\
    nrows (s_data s') = (nrows (s_data s) - 1)%nat /\ ncols (s_data s') = (ncols (s_data s) - 1)%nat.
Proof.
  intros f s s' Hy Hx E. unfold rotate in E. destruct (has_missing (s_data s)); [discriminate|].
  set (ny := nrows (s_data s)) in *. set (nx := ncols (s_data s)) in *.
  assert (Y : 2 <= INR ny) by (apply (le_INR 2) in Hy; exact Hy). assert (X : 2 <= INR nx) by (apply (le_INR 2) in Hx; exact Hx).
  assert (AS : abs_sin 0 = 0) by (unfold abs_sin; replace (0 * PI / 180) with 0 by lra; rewrite sin_0; apply Rabs_R0).
  assert (AC : abs_cos 0 = 1) by (unfold abs_cos; replace (0 * PI / 180) with 0 by lra; rewrite cos_0; apply Rabs_R1).
  assert (RR : rot_rows ny nx 0 = ny).
  { unfold rot_rows. rewrite AS, AC. rewrite (trunc_is (Z.of_nat ny)); [apply Nat2Z.id|lra|rewrite <- INR_IZR_INZ; lra]. }
  assert (RC : rot_cols ny nx 0 = nx).
  { unfold rot_cols. rewrite AS, AC. rewrite (trunc_is (Z.of_nat nx)); [apply Nat2Z.id|lra|rewrite <- INR_IZR_INZ; lra]. }
  set (rot := rotated f ny nx 0) in *.
  assert (NR : nrows rot = ny) by (unfold rot; now rewrite rotated_rows).
  assert (NC : ncols rot = nx) by (unfold rot; rewrite rotated_cols by (rewrite RR; lia); exact RC).
  assert (T : (if Rlt_dec (INR ny / INR nx) 1 then INR ny / (INR ny / INR nx) else INR nx) = INR nx)
    by (destruct (Rlt_dec _ 1); [field; lra|reflexivity]).
  assert (KW : kept_width ny nx 0 = INR nx).
  { unfold kept_width. cbv zeta. rewrite RR, RC, AS, AC, T. field. lra. }
  assert (KH : kept_height ny nx 0 = INR ny) by (unfold kept_height; rewrite KW; field; lra).
  assert (D : exists g, rotate_data rot 0 s = Ok g /\ window rot 1 1 (ny - 1) (nx - 1) g).
  { unfold rotate_data, rotate_window. fold ny nx. rewrite NR, NC. fold (abs_sin 0) (abs_cos 0). rewrite AS, AC. cbv zeta. rewrite T.
    replace (INR nx / (INR ny / INR nx * 0 + 1)) with (INR nx) by (field; lra).
    replace (INR nx * (INR ny / INR nx)) with (INR ny) by (field; lra).
    rewrite (trunc_is 0 ((INR ny - INR ny) / 2)) by lra. rewrite (trunc_is 0 ((INR nx - INR nx) / 2)) by lra.
    rewrite (trunc_is (Z.of_nat ny)) by (rewrite <- ?INR_IZR_INZ; lra). rewrite (trunc_is (Z.of_nat nx)) by (rewrite <- ?INR_IZR_INZ; lra).
    destruct (gslice_win rot (0 + 1) (Z.of_nat ny - 1 + 1) (0 + 1) (Z.of_nat nx - 1 + 1)) as (g & Eg & W);
      try (apply rotated_rect); rewrite ?NR, ?NC; try lia.
    exists g. split; [exact Eg|]. rewrite NR, NC in W.
    replace (Z.to_nat (Z.min (Z.of_nat ny - 1 + 1) (Z.of_nat ny) - (0 + 1))) with (ny - 1)%nat in W by lia.
    replace (Z.to_nat (Z.min (Z.of_nat nx - 1 + 1) (Z.of_nat nx) - (0 + 1))) with (nx - 1)%nat in W by lia. exact W. }
  destruct D as (g & Eg & (W1 & _ & W3 & _)). rewrite Eg in E. cbn [rbind] in E. injection E as <-. cbn [s_data s_sx s_sy].
  rewrite KW, KH, RR, RC, AS, AC, W1, W3 by lia. rewrite !minus_INR by lia. change (INR 1) with 1. unfold extent.
  repeat split; field; lra.
Qed.

Print Assumptions C68_rectangle.
Print Assumptions C68_non_empty.
Print Assumptions C110_inside.
Print Assumptions C110_near_partial.
Print Assumptions C110_refuted.
Print Assumptions C111_scale.
Print Assumptions C111_zero.
