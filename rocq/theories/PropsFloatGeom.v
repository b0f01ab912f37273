(** C101: positions in micrometres and pixels, computed in double precision (crop, profile extraction, zoom). *)
From Coq Require Import String Reals List Bool Arith ZArith Lia Lra.
From Flocq Require Import Core.Core.
From Flocq Require Import IEEE754.BinarySingleNaN IEEE754.Binary IEEE754.Bits.
From Verif Require Import Base RList ModelBytes ProofFloat ModelSur ProofSur ModelHeights ProofHeights ModelGeom SpecGeom ProofGeom PropsGeom
  ModelFloatGeom ProofFloatParams ProofFloatGeom PropsFloatParams.
Import ListNotations.
Local Open Scope res_scope.
Local Open Scope Z_scope.

(** ** Specification *)
(** sx and sy are the steps of s: doubles between 2^-500 and 2^500 micrometres *)
Definition stepped (sx sy : f64) (s : surf) : Prop := sane sx /\ sane sy /\ s_sx s = R64 sx /\ s_sy s = R64 sy.
(** the double k * step: the position of pixel k as the package computes it (as width_um and height_um for the last one) *)
Definition position (k : Z) (step : f64) : f64 := fmul (f64_of_Z k) step.

(** ** crop *)
(** The pixel chosen for a position is one nearest to it, up to the rounding of the quotient. *)
Theorem C101_nearest : forall b st, fin64 b -> sane st -> (Rabs (R64 b / R64 st) <= bpow radix2 1000)%R ->
  exists k, float_pixel b st = Ok k /\
    (Rabs (IZR k - R64 b / R64 st) <= 1 / 2 + bpow radix2 (-53) * Rabs (R64 b / R64 st) + bpow radix2 (-1075))%R.
Proof.
  intros b st Fb Hs Hq. pose proof (sane_pos st Hs) as S0. unfold float_pixel. rewrite pydiv_ok by lra. cbn [rbind].
  destruct (b64_div_ok b st Fb) as [E F]; [lra|exact Hq|]. change (b64_div mode_NE b st) with (fdiv b st) in *.
  rewrite round_of_ok by exact F. eexists. split; [reflexivity|]. rewrite E. set (q := (R64 b / R64 st)%R) in *.
  pose proof (rnd64_err q) as R1. pose proof (Znearest_half (fun x => negb (Z.even x)) (rnd64 q)) as R2.
  replace (IZR (ZnearestE (rnd64 q)) - q)%R with ((rnd64 q - q) - (rnd64 q - IZR (ZnearestE (rnd64 q))))%R by ring.
  eapply Rle_trans; [apply Rabs_triang|]. rewrite Rabs_Ropp. 
  change (Znearest (fun x => negb (Z.even x)) (rnd64 q)) with (ZnearestE (rnd64 q)) in R2. lra.
Qed.
(** The position of pixel k leads back to pixel k. *)
Theorem C101_pixel_position : forall k st, sane st -> 0 <= k <= 2 ^ 50 -> float_pixel (position k st) st = Ok k.
Proof. intros k st Hs Hk. apply pixel_back; assumption. Qed.
(** A box whose sides are the positions of the columns x0, x1 and of the heights d, u above the last row is exactly the
    window of these pixels. *)
Theorem C101_crop_box : forall sx sy s x0 x1 d u, rect (s_data s) -> stepped sx sy s ->
  Z.of_nat (ncols (s_data s)) <= 2 ^ 50 -> Z.of_nat (nrows (s_data s)) <= 2 ^ 50 ->
  0 <= x0 <= x1 -> x1 < Z.of_nat (ncols (s_data s)) -> 0 <= d <= u -> u < Z.of_nat (nrows (s_data s)) ->
  exists s', float_crop sx sy (position x0 sx) (position x1 sx) (position d sy) (position u sy) s = Ok s' /\
    s_sx s' = s_sx s /\ s_sy s' = s_sy s /\
    window (s_data s) (Z.to_nat (Z.of_nat (nrows (s_data s)) - 1 - u)) (Z.to_nat x0)
           (Z.to_nat (u - d + 1)) (Z.to_nat (x1 - x0 + 1)) (s_data s').
Proof.
  intros sx sy s x0 x1 d u R (Hx & Hy & _) Cx Cy X0 X1 D U. unfold float_crop.
  rewrite !C101_pixel_position by (auto; lia). cbn [rbind]. cbv zeta. set (N := Z.of_nat (nrows (s_data s))) in *.
  destruct (C17_pixels s x0 x1 (N - u - 1) (N - d - 1) R) as (s' & E & E1 & E2 & W); [unfold inside; fold N; lia|].
  exists s'. split; [exact E|]. split; [exact E1|]. split; [exact E2|].
  replace (N - 1 - u) with (N - u - 1) by lia. replace (u - d + 1) with (N - d - 1 - (N - u - 1) + 1) by lia. exact W.
Qed.
(** 0 and the surface's own width_um and height_um give the surface back. *)
Theorem C101_crop_full : forall sx sy s, rect (s_data s) -> stepped sx sy s ->
  0 < Z.of_nat (ncols (s_data s)) <= 2 ^ 50 -> 0 < Z.of_nat (nrows (s_data s)) <= 2 ^ 50 ->
  float_crop sx sy (f64_of_Z 0) (fextent (ncols (s_data s)) sx) (f64_of_Z 0) (fextent (nrows (s_data s)) sy) s = Ok s.
Proof.
  intros sx sy s R Hst Cx Cy. set (N := nrows (s_data s)) in *. set (M := ncols (s_data s)) in *.
  destruct (C101_crop_box sx sy s 0 (Z.of_nat M - 1) 0 (Z.of_nat N - 1) R Hst) as (s' & E & E1 & E2 & W); fold M N; try lia.
  assert (Z0 : forall st, sane st -> float_pixel (f64_of_Z 0) st = Ok 0).
  { intros st Hs. pose proof (sane_pos st Hs) as S0. unfold float_pixel. rewrite pydiv_ok by lra. cbn [rbind].
    destruct (f64_of_Z_ok 0 ltac:(lia)) as [Z1 Z2].
    destruct (b64_div_ok (f64_of_Z 0) st Z2) as [A B]; [lra| |].
    { rewrite Z1. unfold Rdiv. rewrite Rmult_0_l, Rabs_R0. apply bpow_ge_0. }
    change (b64_div mode_NE (f64_of_Z 0) st) with (fdiv (f64_of_Z 0) st) in *. rewrite round_of_ok by exact B.
    rewrite A, Z1. unfold Rdiv. rewrite Rmult_0_l, rnd64_0. f_equal. apply Znearest_imp. rewrite Rminus_0_r, Rabs_R0. lra. }
  destruct Hst as (Hx & Hy & Ex & Ey).
  unfold float_crop in *. fold N M. fold N M in E. rewrite !Z0 by assumption. rewrite !C101_pixel_position in E by (auto; lia).
  change (fextent M sx) with (position (Z.of_nat M - 1) sx). change (fextent N sy) with (position (Z.of_nat N - 1) sy).
  rewrite !C101_pixel_position by (auto; lia). cbn [rbind] in E |- *. rewrite E. f_equal.
  destruct s' as [g a b], s as [g0 a0 b0]. cbn [s_data s_sx s_sy] in *. subst a b. f_equal.
  eapply window_unique; [exact W|]. fold N.
  replace (Z.to_nat (Z.of_nat N - 1 - (Z.of_nat N - 1))) with 0%nat by lia.
  replace (Z.to_nat (Z.of_nat N - 1 - 0 + 1)) with N by lia.
  replace (Z.to_nat (Z.of_nat M - 1 - 0 + 1)) with M by lia. apply window_full, R.
Qed.
Theorem C101_profile_crop : forall st p x0 x1, sane st -> Z.of_nat (length (p_data p)) <= 2 ^ 50 ->
  0 <= x0 < x1 -> x1 < Z.of_nat (length (p_data p)) ->
  exists p', float_prof_crop st (position x0 st) (position x1 st) p = Ok p' /\ p_step p' = p_step p /\
    length (p_data p') = Z.to_nat (x1 - x0 + 1) /\
    forall j, (j < Z.to_nat (x1 - x0 + 1))%nat -> nth_error (p_data p') j = nth_error (p_data p) (Z.to_nat x0 + j).
Proof.
  intros st p x0 x1 Hs Hn H0 H1. unfold float_prof_crop. rewrite !C101_pixel_position by (auto; lia). cbn [rbind].
  apply (proj1 (C31_profile_crop p x0 x1)). lia.
Qed.

(** ** Profile extraction *)
Lemma flt_false (x y : f64) : fin64 x -> fin64 y -> (R64 y <= R64 x)%R -> flt x y = false.
Proof.
  intros Fx Fy H. unfold flt. destruct (b64_compare x y) as [c|] eqn:E; [|reflexivity].
  unfold b64_compare in E. rewrite Binary.Bcompare_correct in E by assumption. injection E as E.
  change (Binary.B2R 53 1024 x) with (R64 x) in E. change (Binary.B2R 53 1024 y) with (R64 y) in E.
  destruct (Rcompare_spec (R64 x) (R64 y)); subst c; try reflexivity. lra.
Qed.
Lemma float_slice_ok n st y average : sane st -> 2 <= Z.of_nat n <= 2 ^ 24 -> fin64 y -> (0 <= R64 y < R64 (fextent n st))%R ->
  exists k, 0 <= k < Z.of_nat n /\ (Rabs (IZR k * R64 st - R64 y) <= R64 st)%R /\ float_index n (fextent n st) y = Ok k /\
  float_profile_slice n st y average None =
    Ok (mkSlice (Some (Z.max 0 (k - Z.quot average 2))) (Some (Z.min (Z.of_nat n) (k + Z.quot average 2) + 1)) (Some 1)).
Proof.
  intros Hs Hn Fy Hy. destruct (float_index_ok n st y Hs Hn Fy Hy) as (k & t & E & K & D & _).
  destruct (fextent_ok n st Hs Hn) as (Fe & _). exists k. split; [exact K|]. split; [exact D|]. split; [exact E|].
  unfold float_profile_slice. rewrite flt_false by (auto; lra). cbn [rbind]. rewrite E. cbn [rbind]. rewrite !Z.mul_1_r. do 3 f_equal.
  - f_equal. destruct (Z.ltb_spec (k - Z.quot average 2) 0); lia.
  - f_equal. destruct (Z.ltb_spec (Z.of_nat n) (k + Z.quot average 2)); lia.
Qed.
(** For every double y from 0 up to, and not including, height_um there is a row k within one step of y, and the profile
    is the mean over that row and average/2 rows on both sides. *)
Theorem C101_horizontal : forall sx sy s y average, rect (s_data s) -> stepped sx sy s ->
  2 <= Z.of_nat (nrows (s_data s)) <= 2 ^ 24 -> fin64 y -> (0 <= R64 y < R64 (fextent (nrows (s_data s)) sy))%R -> 0 <= average ->
  exists p k lo len, float_get_horizontal_profile sy y average None s = Ok p /\ p_step p = s_sx s /\
    length (p_data p) = ncols (s_data s) /\
    0 <= k < Z.of_nat (nrows (s_data s)) /\ (Rabs (IZR k * s_sy s - R64 y) <= s_sy s)%R /\
    Z.of_nat lo = Z.max 0 (k - average / 2) /\
    Z.of_nat lo + Z.of_nat len = Z.min (Z.of_nat (nrows (s_data s))) (k + average / 2 + 1) /\
    forall j, (j < ncols (s_data s))%nat -> exists hs, length hs = len /\
      (forall t, (t < len)%nat -> cell (s_data s) (lo + t) j = nth_error hs t) /\
      nth_error (p_data p) j = Some (if existsb is_nan hs then None else Some (meanR (measured hs))).
Proof.
  intros sx sy s y average R (Hx & Hy & Ex & Ey) Hn Fy Yb Ha. set (N := nrows (s_data s)) in *. set (M := ncols (s_data s)) in *.
  destruct (float_slice_ok N sy y average Hy Hn Fy Yb) as (k & K1 & K2 & _ & Sl).
  rewrite <- (Z.quot_div_nonneg average 2) by lia. assert (Q := Z.quot_pos average 2 Ha ltac:(lia)).
  set (h := Z.quot average 2) in *.
  unfold float_get_horizontal_profile. fold N M. rewrite Sl. cbn [rbind].
  rewrite gslice_step1_rows, gslice_full_cols. fold M.
  set (lo := Z.max 0 (k - h)). set (hi := Z.min (Z.of_nat N) (k + h) + 1).
  destruct (gslice_window (s_data s) lo hi 0 (Z.of_nat M) R) as (g & E & W); fold N M; try (unfold lo, hi; lia).
  rewrite E. cbn [rbind]. fold N M in W.
  set (len := Z.to_nat (Z.min hi (Z.of_nat N) - lo)) in *.
  exists (mkProf (mean_axis0 M g) (s_sx s)), k, (Z.to_nat lo), len.
  split; [reflexivity|]. split; [reflexivity|].
  split; [cbn; unfold mean_axis0; now rewrite map_length, seq_length|].
  split; [exact K1|]. split; [rewrite Ey; exact K2|]. split; [unfold lo; lia|]. split; [unfold len, lo, hi; lia|].
  intros j Hj. destruct W as (W1 & W2 & W3 & W4).
  assert (Lpos : (0 < len)%nat) by (unfold len, lo, hi; lia).
  assert (W3' : ncols g = M) by (rewrite W3; lia).
  exists (column g j).
  assert (C : forall (g0 : grid), (forall r, In r g0 -> (j < length r)%nat) ->
     length (column g0 j) = length g0 /\ forall t, nth_error (column g0 j) t = match nth_error g0 t with Some r => nth_error r j | None => None end).
  { induction g0 as [|r g0 IH]; intros H.
    - split; auto. intros [|t]; reflexivity.
    - destruct IH as [I1 I2]; [intros; apply H; right; auto|].
      destruct (nth_error r j) as [x|] eqn:Er.
      2:{ apply nth_error_None in Er. specialize (H r (or_introl eq_refl)). lia. }
      unfold column in *. cbn. rewrite Er. cbn. split; [f_equal; exact I1|]. intros [|t]; cbn; auto. }
  destruct (C g) as [C1 C2]. { intros r Hr. rewrite (W2 r Hr), W3'. exact Hj. }
  split; [rewrite C1; exact W1|]. split.
  - intros t Ht. rewrite C2. change (match nth_error g t with Some r => nth_error r j | None => None end) with (cell g t j).
    rewrite W4. destruct (Nat.ltb_spec t len), (Nat.ltb_spec j (Z.to_nat (Z.min (Z.of_nat M) (Z.of_nat M) - 0))); try lia.
    cbn. reflexivity.
  - cbn. unfold mean_axis0. rewrite nth_error_map, (nth_error_nth' _ 0%nat) by now rewrite seq_length.
    rewrite seq_nth by exact Hj. cbn. f_equal. unfold npmean, nanmean.
    destruct (existsb is_nan (column g j)) eqn:En; [reflexivity|].
    assert (Hm : length (measured (column g j)) = len).
    { rewrite <- (map_length Some), measured_all by exact En. transitivity (length g); [exact C1|exact W1]. }
    destruct (measured (column g j)); [cbn in Hm; lia|reflexivity].
Qed.
Theorem C101_single_row : forall sx sy s y, rect (s_data s) -> stepped sx sy s ->
  2 <= Z.of_nat (nrows (s_data s)) <= 2 ^ 24 -> fin64 y -> (0 <= R64 y < R64 (fextent (nrows (s_data s)) sy))%R ->
  exists k row, (Rabs (INR k * s_sy s - R64 y) <= s_sy s)%R /\
    nth_error (s_data s) k = Some row /\ float_get_horizontal_profile sy y 1 None s = Ok (mkProf row (s_sx s)).
Proof.
  intros sx sy s y R Hst Hn Fy Yb.
  destruct (C101_horizontal sx sy s y 1 R Hst Hn Fy Yb ltac:(lia)) as (p & k & lo & len & E & E1 & E2 & K1 & K2 & L1 & L2 & C).
  change (1 / 2) with 0 in *. assert (lo = Z.to_nat k) by lia. assert (len = 1%nat) by lia. subst lo len.
  exists (Z.to_nat k). 
  destruct (nth_error (s_data s) (Z.to_nat k)) as [row|] eqn:Er; [|apply nth_error_None in Er; unfold nrows in *; lia].
  exists row. split; [rewrite INR_IZR_INZ, Z2Nat.id by lia; exact K2|]. split; [reflexivity|].
  rewrite E. f_equal. destruct p as [d st]. cbn [p_data p_step] in *. subst st. f_equal.
  assert (Lr := rect_row _ _ _ R Er). apply nth_error_ext'. intros j.
  destruct (Nat.ltb_spec j (ncols (s_data s))) as [Hj|Hj].
  - destruct (C j Hj) as (hs & H1 & H2 & H3). rewrite H3. destruct hs as [|h [|h' hs]]; try discriminate H1.
    specialize (H2 0%nat ltac:(lia)). rewrite Nat.add_0_r in H2. unfold cell in H2. rewrite Er in H2. cbn in H2. rewrite H2.
    destruct h as [x|]; cbn; [|reflexivity]. do 2 f_equal. unfold meanR. cbn. field.
  - replace (nth_error row j) with (@None height); [|symmetry; apply nth_error_None; lia].
    apply nth_error_None. lia.
Qed.
Theorem C101_vertical : forall sx sy s x average, rect (s_data s) -> stepped sx sy s ->
  2 <= Z.of_nat (ncols (s_data s)) <= 2 ^ 24 -> fin64 x -> (0 <= R64 x < R64 (fextent (ncols (s_data s)) sx))%R -> 0 <= average ->
  exists p k lo len, float_get_vertical_profile sx x average None s = Ok p /\ p_step p = s_sy s /\
    length (p_data p) = nrows (s_data s) /\
    0 <= k < Z.of_nat (ncols (s_data s)) /\ (Rabs (IZR k * s_sx s - R64 x) <= s_sx s)%R /\
    Z.of_nat lo = Z.max 0 (k - average / 2) /\
    Z.of_nat lo + Z.of_nat len = Z.min (Z.of_nat (ncols (s_data s))) (k + average / 2 + 1) /\
    forall i, (i < nrows (s_data s))%nat -> exists hs, length hs = len /\
      (forall t, (t < len)%nat -> cell (s_data s) i (lo + t) = nth_error hs t) /\
      nth_error (p_data p) i = Some (if existsb is_nan hs then None else Some (meanR (measured hs))).
Proof.
  intros sx sy s x average R (Hx & Hy & Ex & Ey) Hn Fy Yb Ha. set (N := nrows (s_data s)) in *. set (M := ncols (s_data s)) in *.
  destruct (float_slice_ok M sx x average Hx Hn Fy Yb) as (k & K1 & K2 & _ & Sl).
  rewrite <- (Z.quot_div_nonneg average 2) by lia. assert (Q := Z.quot_pos average 2 Ha ltac:(lia)).
  set (h := Z.quot average 2) in *.
  unfold float_get_vertical_profile. fold N M. rewrite Sl. cbn [rbind].
  rewrite gslice_step1_cols, gslice_full_rows. fold N.
  set (lo := Z.max 0 (k - h)). set (hi := Z.min (Z.of_nat M) (k + h) + 1).
  destruct (gslice_window (s_data s) 0 (Z.of_nat N) lo hi R) as (g & E & W); fold N M; try (unfold lo, hi; lia).
  rewrite E. cbn [rbind]. fold N M in W.
  set (len := Z.to_nat (Z.min hi (Z.of_nat M) - lo)) in *.
  replace (Z.to_nat (Z.min (Z.of_nat N) (Z.of_nat N) - 0)) with N in W by lia.
  destruct W as (W1 & W2 & W3 & W4).
  exists (mkProf (mean_axis1 g) (s_sy s)), k, (Z.to_nat lo), len.
  split; [reflexivity|]. split; [reflexivity|].
  split; [cbn; unfold mean_axis1; rewrite map_length; exact W1|].
  split; [exact K1|]. split; [rewrite Ex; exact K2|]. split; [unfold lo; lia|]. split; [unfold len, lo, hi; lia|].
  intros i Hi. assert (Lpos : (0 < len)%nat) by (unfold len, lo, hi; lia).
  assert (W3' : ncols g = len) by (apply W3; lia).
  destruct (nth_error g i) as [r|] eqn:Er; [|apply nth_error_None in Er; unfold nrows in W1; lia].
  exists r. split; [rewrite <- W3'; apply (rect_row _ _ _ W2 Er)|]. split.
  - intros t Ht. specialize (W4 i t). unfold cell at 1 in W4. rewrite Er in W4. rewrite W4.
    destruct (Nat.ltb_spec i N), (Nat.ltb_spec t len); try lia. cbn. reflexivity.
  - cbn. unfold mean_axis1. rewrite nth_error_map, Er. cbn. f_equal. unfold npmean, nanmean.
    destruct (existsb is_nan r) eqn:En; [reflexivity|].
    assert (Hm : length (measured r) = len).
    { rewrite <- (map_length Some), measured_all by exact En. rewrite <- W3'. apply (rect_row _ _ _ W2 Er). }
    destruct (measured r); [cbn in Hm; lia|reflexivity].
Qed.
(** Positions above height_um (width_um) are rejected. *)
Theorem C101_beyond : forall sx sy s y a st, fin64 y ->
  (fin64 (fextent (nrows (s_data s)) sy) -> (R64 (fextent (nrows (s_data s)) sy) < R64 y)%R ->
    float_get_horizontal_profile sy y a st s = Err ValueError) /\
  (fin64 (fextent (ncols (s_data s)) sx) -> (R64 (fextent (ncols (s_data s)) sx) < R64 y)%R ->
    float_get_vertical_profile sx y a st s = Err ValueError).
Proof.
  intros sx sy s y a st Fy.
  assert (L : forall e, fin64 e -> (R64 e < R64 y)%R -> flt e y = true).
  { intros e Fe H. unfold flt, b64_compare. rewrite Binary.Bcompare_correct by assumption.
    change (Binary.B2R 53 1024 e) with (R64 e). change (Binary.B2R 53 1024 y) with (R64 y). rewrite Rcompare_Lt by exact H. reflexivity. }
  split; intros Fe H; unfold float_get_horizontal_profile, float_get_vertical_profile, float_profile_slice; rewrite (L _ Fe H); reflexivity.
Qed.
(** At y = height_um itself there is no row: the slice is empty and every value NaN, whatever the step. *)
Theorem C101_upper_edge_refuted : forall sx sy s, rect (s_data s) -> stepped sx sy s -> 2 <= Z.of_nat (nrows (s_data s)) <= 2 ^ 24 ->
  exists p, float_get_horizontal_profile sy (fextent (nrows (s_data s)) sy) 1 None s = Ok p /\ forall h, In h (p_data p) -> h = None.
Proof.
  intros sx sy s R (Hx & Hy & Ex & Ey) Hn. set (N := nrows (s_data s)) in *.
  destruct (fextent_ok N sy Hy Hn) as (Fe & [E0 EB] & _). set (e := fextent N sy) in *.
  assert (Ix : float_index N e e = Ok (Z.of_nat N)).
  { unfold float_index. rewrite pydiv_ok by lra. cbn [rbind].
    assert (Q1 : (R64 e / R64 e)%R = 1%R) by (field; lra).
    destruct (b64_div_ok e e Fe) as [A B]; [lra|rewrite Q1, Rabs_R1; apply (bpow_le radix2 0); lia|].
    rewrite Q1 in A. assert (R1 : rnd64 1 = 1%R) by (apply (rnd64_IZR 1); lia). rewrite R1 in A.
    destruct (fnat_ok N ltac:(lia)) as [En Fn].
    destruct (b64_mult_ok (b64_div mode_NE e e) (fnat N) B Fn) as [A2 B2].
    { rewrite A, En, Rmult_1_l, Rabs_pos_eq by apply pos_INR. rewrite INR_IZR_INZ.
      apply Rle_trans with (IZR (2 ^ 24)); [apply IZR_le; lia|change (IZR (2 ^ 24)) with (bpow radix2 24); apply bpow_le; lia]. }
    rewrite A, En, Rmult_1_l, INR_IZR_INZ, rnd64_IZR in A2 by lia.
    change (fmul (fdiv e e) (fnat N)) with (b64_mult mode_NE (b64_div mode_NE e e) (fnat N)).
    rewrite int_of_ok by exact B2. rewrite A2. f_equal. apply Ztrunc_IZR. }
  unfold float_get_horizontal_profile, float_profile_slice. fold N e. rewrite flt_false by (auto; lra). cbn [rbind]. rewrite Ix. cbn [rbind].
  change (Z.quot 1 2) with 0. rewrite !Z.mul_0_l, Z.sub_0_r, Z.add_0_r. destruct (Z.ltb_spec (Z.of_nat N) 0); [lia|].
  rewrite Z.ltb_irrefl, gslice_step1_rows, gslice_full_cols.
  destruct (gslice_window (s_data s) (Z.of_nat N) (Z.of_nat N + 1) 0 (Z.of_nat (ncols (s_data s))) R) as (g & E & W); fold N; try lia.
  rewrite E. cbn [rbind]. eexists. split; [reflexivity|]. cbn. destruct W as (W1 & _).
  replace (Z.to_nat _) with 0%nat in W1 by lia.
  unfold nrows in W1. destruct g; [|discriminate W1]. intros h Hh. apply in_map_iff in Hh as (j & <- & _). reflexivity.
Qed.
(** average_step: a distance of k steps, as computed in doubles, counts as k or k - 1 pixels. *)
Lemma average_step_pixels : forall k st, sane st -> 1 <= k <= 2 ^ 50 ->
  exists j, step_pixels (position k st) st = Ok j /\ k - 1 <= j <= k.
Proof.
  intros k st Hs Hk. destruct (scaled_ok k st Hs ltac:(lia)) as (Fx & Ex & [X0 XB] & Er). unfold position. set (x := fmul (f64_of_Z k) st) in *.
  pose proof (sane_pos st Hs) as S0. unfold step_pixels. rewrite pydiv_ok by lra. cbn [rbind].
  assert (K0 : (1 <= IZR k)%R) by (apply IZR_le; lia).
  assert (Q1 : (Rabs (R64 x / R64 st - IZR k) <= uu * IZR k)%R).
  { apply Rmult_le_reg_r with (R64 st); [exact S0|]. rewrite <- (Rabs_pos_eq (R64 st)) at 2 by lra. rewrite <- Rabs_mult.
    replace ((R64 x / R64 st - IZR k) * R64 st)%R with (R64 x - IZR k * R64 st)%R by (field; lra). lra. }
  pose proof (uu_k k 50 ltac:(lia) ltac:(lia)) as K1. change (bpow radix2 (50 - 53)) with (/ 8)%R in K1. apply Rabs_le_inv in Q1.
  assert (KB : (IZR k <= bpow radix2 50)%R) by (change (bpow radix2 50) with (IZR (2 ^ 50)); apply IZR_le; lia).
  set (q := (R64 x / R64 st)%R) in *.
  destruct (b64_div_ok x st Fx) as [E F]; [lra| |].
  { fold q. rewrite Rabs_pos_eq by lra. apply Rle_trans with (2 * bpow radix2 50)%R; [lra|]. change 2%R with (bpow radix2 1).
    rewrite <- bpow_plus. apply bpow_le. lia. }
  fold q in E. change (b64_div mode_NE x st) with (fdiv x st) in *. rewrite int_of_ok by exact F. rewrite E.
  pose proof (rnd64_err q) as R. rewrite (Rabs_pos_eq q) in R by lra. fold uu in R. apply Rabs_le_inv in R.
  assert (U2 : (uu * q <= uu * (2 * IZR k))%R) by (apply Rmult_le_compat_l; [left; apply uu_pos|lra]).
  assert (bpow radix2 (-1075) <= / 16)%R by (change (/ 16)%R with (bpow radix2 (-4)); apply bpow_le; lia).
  eexists. split; [reflexivity|]. destruct (Ztrunc_spec (rnd64 q)) as [[T1 T2] T0]; [lra|].
  split; [apply Z.lt_succ_r, lt_IZR; unfold Z.succ; rewrite minus_IZR, plus_IZR; lra|].
  apply Z.lt_succ_r, lt_IZR. unfold Z.succ. rewrite plus_IZR. lra.
Qed.
Theorem C101_average_step_partial : forall n k st y average, sane st -> 2 <= Z.of_nat n <= 2 ^ 24 -> fin64 y ->
  (0 <= R64 y < R64 (fextent n st))%R -> 1 <= k <= 2 ^ 50 -> 0 <= average ->
  exists i j, 0 <= i < Z.of_nat n /\ (Rabs (IZR i * R64 st - R64 y) <= R64 st)%R /\ k - 1 <= j <= k /\
    float_profile_slice n st y average (Some (position k st)) =
    Ok (mkSlice (Some (Z.max 0 (i - average / 2 * j))) (Some (Z.min (Z.of_nat n) (i + average / 2 * j) + 1)) (Some j)).
Proof.
  intros n k st y average Hs Hn Fy Hy Hk Ha. destruct (float_index_ok n st y Hs Hn Fy Hy) as (i & t & E & K & D & _).
  destruct (fextent_ok n st Hs Hn) as (Fe & _). destruct (average_step_pixels k st Hs Hk) as (j & Ej & J).
  exists i, j. split; [exact K|]. split; [exact D|]. split; [exact J|].
  rewrite <- (Z.quot_div_nonneg average 2) by lia.
  unfold float_profile_slice. rewrite flt_false by (auto; lra). cbn [rbind]. rewrite Ej. cbn [rbind]. rewrite E. cbn [rbind]. do 3 f_equal.
  - f_equal. destruct (Z.ltb_spec (i - Z.quot average 2 * j) 0); lia.
  - f_equal. destruct (Z.ltb_spec (Z.of_nat n) (i + Z.quot average 2 * j)); lia.
Qed.
Definition ratio (a b : Z) : f64 := fdiv (f64_of_Z a) (f64_of_Z b).
(** Ten rows 0.1 apart: averaging three rows 0.3 apart around y = 0.5 takes the rows 3, 5, 7 and not 2, 5, 8; the same for
    the computed 3 * 0.35 at a step of 0.35. *)
Theorem C101_average_step_refuted :
  (exists r, float_profile_slice 10 (ratio 1 10) (ratio 1 2) 3 (Some (ratio 3 10)) = Ok r /\ slice_indices 10 r = Ok [3; 5; 7]) /\
  (exists r, float_profile_slice 10 (ratio 35 100) (ratio 16 10) 3 (Some (position 3 (ratio 35 100))) = Ok r /\ slice_indices 10 r = Ok [3; 5; 7]).
Proof.
  split; (exists (mkSlice (Some 3) (Some 8) (Some 2)); split; [vm_compute; reflexivity|reflexivity]).
Qed.
(** The row for y is not always the one of exact arithmetic: 49 rows, step 49/48 (as a double; height_um is exactly 49).
    At y = 1 the row is y / 49 * 49 = 1 in real arithmetic and row 0 in doubles. *)
Definition s49 (st : R) : surf := mkSurf (map (fun i => [Some (INR i)]) (seq 0 49)) 1 st.
Lemma st49_R : fin64 (ratio 49 48) /\ R64 (ratio 49 48) = F2R (Float radix2 4597424619607381 (-52)).
Proof. apply (shape_R _ false). vm_compute. reflexivity. Qed.
Lemma ext49_R : fin64 (fextent 49 (ratio 49 48)) /\ R64 (fextent 49 (ratio 49 48)) = 49%R.
Proof.
  destruct (shape_R (fextent 49 (ratio 49 48)) false 6896136929411072 (-47)) as [A B]; [vm_compute; reflexivity|]. split; [exact A|].
  rewrite B. unfold F2R. cbn [Fnum Fexp cond_Zopp]. change (Zpos 6896136929411072) with (49 * 2 ^ 47). rewrite mult_IZR.
  change (IZR (2 ^ 47)) with (bpow radix2 47). rewrite Rmult_assoc, <- bpow_plus. change (bpow radix2 (47 + -47)) with 1%R. ring.
Qed.
Lemma st49_sane : sane (ratio 49 48).
Proof.
  destruct st49_R as [A B]. split; [exact A|]. rewrite B. unfold F2R. cbn [Fnum Fexp].
  assert (L : (bpow radix2 52 <= 4597424619607381 <= bpow radix2 53)%R).
  { change (bpow radix2 52) with 4503599627370496%R. change (bpow radix2 53) with 9007199254740992%R. lra. }
  assert (P := bpow_gt_0 radix2 (-52)).
  split.
  - apply Rle_trans with (bpow radix2 52 * bpow radix2 (-52))%R; [rewrite <- bpow_plus; apply bpow_le; lia|]. apply Rmult_le_compat_r; lra.
  - apply Rle_trans with (bpow radix2 53 * bpow radix2 (-52))%R; [apply Rmult_le_compat_r; lra|rewrite <- bpow_plus; apply bpow_le; lia].
Qed.
Theorem C101_row_refuted : let st := ratio 49 48 in let y := f64_of_Z 1 in
  stepped (f64_of_Z 1) st (s49 (R64 st)) /\ rect (s_data (s49 (R64 st))) /\
  R64 y = 1%R /\ R64 (fextent 49 st) = 49%R /\
  float_get_horizontal_profile st y 1 None (s49 (R64 st)) = Ok (mkProf [Some 0%R] 1) /\
  (R64 y / R64 (fextent 49 st) * 49)%R = 1%R /\ nth_error (s_data (s49 (R64 st))) 1 = Some [Some 1%R].
Proof.
  intros st y. destruct (f64_of_Z_ok 1 ltac:(lia)) as [E1 F1]. fold y in E1, F1.
  assert (Sa : sane y).
  { split; [exact F1|]. rewrite E1. split; [apply (bpow_le radix2 (-500) 0)|apply (bpow_le radix2 0)]; lia. }
  assert (St : stepped y st (s49 (R64 st))).
  { split; [exact Sa|]. split; [exact st49_sane|]. cbn [s49 s_sx s_sy]. auto. }
  assert (Rc : rect (s_data (s49 (R64 st)))).
  { intros r Hr. unfold s49 in Hr. cbn [s_data] in Hr. apply in_map_iff in Hr as (i & <- & _). reflexivity. }
  destruct ext49_R as [Fe Ee]. fold st in Fe, Ee.
  split; [exact St|]. split; [exact Rc|]. split; [exact E1|]. split; [exact Ee|]. split; [|split; [rewrite E1, Ee; lra|reflexivity]].
  unfold float_get_horizontal_profile.
  assert (Sl : float_profile_slice 49 st y 1 None = Ok (mkSlice (Some 0) (Some 1) (Some 1))) by (vm_compute; reflexivity).
  change (nrows (s_data (s49 (R64 st)))) with 49%nat. change (ncols (s_data (s49 (R64 st)))) with 1%nat. rewrite Sl. cbn [rbind].
  assert (G : gslice (mkSlice (Some 0) (Some 1) (Some 1)) full (s_data (s49 (R64 st))) = Ok [[Some (INR 0)]]) by reflexivity.
  rewrite G. cbn [rbind]. f_equal. cbn [s49 s_sx]. f_equal. cbn. do 2 f_equal. unfold meanR. cbn. field.
Qed.

(** ** zoom *)
Lemma float_zoom_axis n f : fin64 f -> (1 <= R64 f)%R -> (Z.of_nat n <= 2 ^ 53) ->
  exists xn h : Z, float_zoom_slice n f = Ok (sl h (xn + h + 1)) /\
    0 <= h <= Z.of_nat n /\ 0 <= xn <= Z.of_nat n /\ 2 * h <= Z.of_nat n - xn <= 2 * h + 1 /\
    (IZR xn <= rnd64 (INR n / R64 f) < IZR xn + 1)%R.
Proof.
  intros Ff Hf Hn. destruct (fnat_ok n Hn) as [En Fn]. pose proof (pos_INR n) as N0.
  assert (P : (0 <= INR n / R64 f)%R).
  { apply Rmult_le_pos; [exact N0|]. left. apply Rinv_0_lt_compat. lra. }
  assert (Hle : (INR n / R64 f <= INR n)%R).
  { unfold Rdiv. rewrite <- (Rmult_1_r (INR n)) at 2. apply Rmult_le_compat_l; [apply pos_INR|].
    rewrite <- Rinv_1. apply Rinv_le_contravar; lra. }
  assert (Nb : (INR n <= bpow radix2 53)%R).
  { rewrite INR_IZR_INZ. change (bpow radix2 53) with (IZR (2 ^ 53)). apply IZR_le. lia. }
  destruct (b64_div_ok (fnat n) f Fn) as [E F]; [lra| |].
  { rewrite En, Rabs_pos_eq by exact P. apply Rle_trans with (bpow radix2 53); [lra|apply bpow_le; lia]. }
  rewrite En in E. change (b64_div mode_NE (fnat n) f) with (fdiv (fnat n) f) in *.
  unfold float_zoom_slice. rewrite pydiv_ok by lra. cbn [rbind]. rewrite int_of_ok by exact F. cbn [rbind]. rewrite E.
  assert (T0 : (0 <= rnd64 (INR n / R64 f))%R) by (rewrite <- rnd64_0; apply rnd64_le, P).
  assert (T1 : (rnd64 (INR n / R64 f) <= INR n)%R).
  { rewrite INR_IZR_INZ. rewrite <- (rnd64_IZR (Z.of_nat n)) at 2 by lia. apply rnd64_le. rewrite <- INR_IZR_INZ. exact Hle. }
  destruct (Ztrunc_spec _ T0) as [B B0]. set (xn := Ztrunc (rnd64 (INR n / R64 f))) in *.
  assert (Hxn : xn <= Z.of_nat n) by (apply le_IZR; rewrite <- INR_IZR_INZ; lra).
  exists xn, (Z.quot (Z.of_nat n - xn) 2). split; [reflexivity|].
  rewrite Z.quot_div_nonneg by lia.
  assert (D := Z.div_mod (Z.of_nat n - xn) 2 ltac:(lia)). assert (M := Z.mod_pos_bound (Z.of_nat n - xn) 2 ltac:(lia)).
  repeat split; try lia; try lra.
Qed.
(** As C18_zoom, with the quotient n/f rounded: the number of kept points is int(n/f) + 1 up to that rounding. *)
Theorem C101_zoom : forall s f, rect (s_data s) -> 0 < Z.of_nat (nrows (s_data s)) <= 2 ^ 53 ->
  0 < Z.of_nat (ncols (s_data s)) <= 2 ^ 53 -> fin64 f -> (1 <= R64 f)%R ->
  exists s' r0 c0 kr kc, float_zoom f s = Ok s' /\ s_sx s' = s_sx s /\ s_sy s' = s_sy s /\
    (let nr := Nat.min (nrows (s_data s)) (kr + 1) in let nc := Nat.min (ncols (s_data s)) (kc + 1) in
     window (s_data s) r0 c0 nr nc (s_data s') /\ (0 < nr)%nat /\ (0 < nc)%nat /\
     (r0 + nr <= nrows (s_data s))%nat /\ (c0 + nc <= ncols (s_data s))%nat /\
     (let below := nrows (s_data s) - (r0 + nr) in r0 <= below + 1 /\ below <= r0 + 1)%nat /\
     (let right := ncols (s_data s) - (c0 + nc) in c0 <= right + 1 /\ right <= c0 + 1)%nat) /\
    (let close k n := exists q, INR k <= q < INR k + 1 /\
                        Rabs (q - INR n / R64 f) <= bpow radix2 (-53) * (INR n / R64 f) + bpow radix2 (-1075) in
     close kr (nrows (s_data s)) /\ close kc (ncols (s_data s)))%R.
Proof.
  intros s f R Hr Hc Ff Hf. set (N := nrows (s_data s)) in *. set (M := ncols (s_data s)) in *.
  destruct (float_zoom_axis N f Ff Hf ltac:(lia)) as (xn & h & E1 & A1 & A2 & A3 & A4).
  destruct (float_zoom_axis M f Ff Hf ltac:(lia)) as (xm & k & E2 & B1 & B2 & B3 & B4).
  unfold float_zoom. fold N M. rewrite E1, E2. cbn [rbind].
  destruct (gslice_window (s_data s) h (xn + h + 1) k (xm + k + 1) R) as (g & E & W); fold N M; try lia.
  rewrite E. cbn [rbind]. eexists. exists (Z.to_nat h), (Z.to_nat k), (Z.to_nat xn), (Z.to_nat xm).
  split; [reflexivity|]. split; [reflexivity|]. split; [reflexivity|]. cbn [s_data]. cbv zeta.
  fold N M in W.
  replace (Z.to_nat (Z.min (xn + h + 1) (Z.of_nat N) - h)) with (Nat.min N (Z.to_nat xn + 1)) in W by lia.
  replace (Z.to_nat (Z.min (xm + k + 1) (Z.of_nat M) - k)) with (Nat.min M (Z.to_nat xm + 1)) in W by lia.
  split; [split; [exact W|lia]|].
  assert (Er : forall n, (Rabs (rnd64 (INR n / R64 f) - INR n / R64 f) <= bpow radix2 (-53) * (INR n / R64 f) + bpow radix2 (-1075))%R).
  { intros n. assert (0 <= INR n / R64 f)%R by (apply Rmult_le_pos; [apply pos_INR|left; apply Rinv_0_lt_compat; lra]).
    rewrite <- (Rabs_pos_eq (INR n / R64 f)) at 3 by assumption. apply rnd64_err. }
  split; [exists (rnd64 (INR N / R64 f))|exists (rnd64 (INR M / R64 f))]; (split; [|apply Er]); rewrite !(INR_IZR_INZ (Z.to_nat _)), !Z2Nat.id by lia; lra.
Qed.
Theorem C101_zoom_one : forall s, rect (s_data s) -> 0 < Z.of_nat (nrows (s_data s)) <= 2 ^ 53 ->
  0 < Z.of_nat (ncols (s_data s)) <= 2 ^ 53 -> float_zoom (f64_of_Z 1) s = Ok s.
Proof.
  intros s R Hr Hc. destruct (f64_of_Z_ok 1 ltac:(lia)) as [E1 F1].
  set (N := nrows (s_data s)) in *. set (M := ncols (s_data s)) in *.
  assert (Q : forall n xn, (Z.of_nat n <= 2 ^ 53) -> (IZR xn <= rnd64 (INR n / R64 (f64_of_Z 1)) < IZR xn + 1)%R -> xn = Z.of_nat n).
  { intros n xn Hn [H1 H2]. rewrite E1 in *. replace (INR n / 1)%R with (INR n) in * by field.
    rewrite INR_IZR_INZ, rnd64_IZR in * by lia. apply le_IZR in H1. rewrite <- plus_IZR in H2. apply lt_IZR in H2. lia. }
  destruct (float_zoom_axis N (f64_of_Z 1) F1 ltac:(lra) ltac:(lia)) as (xn & h & A1 & A2 & A3 & A4 & A5).
  destruct (float_zoom_axis M (f64_of_Z 1) F1 ltac:(lra) ltac:(lia)) as (xm & k & B1 & B2 & B3 & B4 & B5).
  apply Q in A5; [|lia]. apply Q in B5; [|lia]. subst xn xm. assert (h = 0) by lia. assert (k = 0) by lia. subst h k.
  unfold float_zoom. fold N M. rewrite A1, B1. cbn [rbind].
  destruct (gslice_window (s_data s) 0 (Z.of_nat N + 0 + 1) 0 (Z.of_nat M + 0 + 1) R) as (g & E & W); fold N M; try lia.
  rewrite E. cbn [rbind]. f_equal. destruct s as [g0 a b]. cbn [s_data s_sx s_sy] in *. f_equal.
  eapply window_unique; [exact W|]. fold N M.
  replace (Z.to_nat (Z.min (Z.of_nat N + 0 + 1) (Z.of_nat N) - 0)) with N by lia.
  replace (Z.to_nat (Z.min (Z.of_nat M + 0 + 1) (Z.of_nat M) - 0)) with M by lia. apply window_full, R.
Qed.

(** ** Examples: step 0.1, a 3 x 2 surface *)
Lemma tenth_sane : sane (ratio 1 10).
Proof.
  destruct (shape_R (ratio 1 10) false 7205759403792794 (-56)) as [A B]; [vm_compute; reflexivity|]. split; [exact A|].
  rewrite B. unfold F2R. cbn [Fnum Fexp cond_Zopp].
  assert (L : (bpow radix2 52 <= 7205759403792794 <= bpow radix2 53)%R).
  { change (bpow radix2 52) with 4503599627370496%R. change (bpow radix2 53) with 9007199254740992%R. lra. }
  assert (P := bpow_gt_0 radix2 (-56)).
  split.
  - apply Rle_trans with (bpow radix2 52 * bpow radix2 (-56))%R; [rewrite <- bpow_plus; apply bpow_le; lia|]. apply Rmult_le_compat_r; lra.
  - apply Rle_trans with (bpow radix2 53 * bpow radix2 (-56))%R; [apply Rmult_le_compat_r; lra|rewrite <- bpow_plus; apply bpow_le; lia].
Qed.
Definition ex_surf : surf := mkSurf [[Some 0; Some 1]; [Some 2; None]; [Some 4; Some 5]]%R (R64 (ratio 1 10)) (R64 (ratio 1 10)).
Example ex_stepped : rect (s_data ex_surf) /\ stepped (ratio 1 10) (ratio 1 10) ex_surf.
Proof.
  split; [intros r [<-|[<-|[<-|[]]]]; reflexivity|]. split; [exact tenth_sane|]. split; [exact tenth_sane|]. split; reflexivity.
Qed.
(** the last two rows, both columns *)
Example ex_crop : exists s', float_crop (ratio 1 10) (ratio 1 10) (position 0 (ratio 1 10)) (position 1 (ratio 1 10))
    (position 0 (ratio 1 10)) (position 1 (ratio 1 10)) ex_surf = Ok s' /\
  window (s_data ex_surf) 1 0 2 2 (s_data s').
Proof.
  destruct ex_stepped as [R St].
  destruct (C101_crop_box _ _ ex_surf 0 1 0 1 R St) as (s' & E & _ & _ & W); [vm_compute; discriminate|vm_compute; discriminate|lia|reflexivity|lia|reflexivity|].
  exists s'. split; [exact E|exact W].
Qed.
Example ex_horizontal : exists k row, (Rabs (INR k * R64 (ratio 1 10) - R64 (ratio 1 8)) <= R64 (ratio 1 10))%R /\
  nth_error (s_data ex_surf) k = Some row /\
  float_get_horizontal_profile (ratio 1 10) (ratio 1 8) 1 None ex_surf = Ok (mkProf row (R64 (ratio 1 10))).
Proof.
  destruct ex_stepped as [R St].
  destruct (shape_R (ratio 1 8) false 4503599627370496 (-55)) as [A B]; [vm_compute; reflexivity|].
  apply (C101_single_row _ _ ex_surf _ R St); [vm_compute; split; discriminate|exact A|]. change (nrows (s_data ex_surf)) with 3%nat.
  destruct (shape_R (fextent 3 (ratio 1 10)) false 7205759403792794 (-55)) as [A' B']; [vm_compute; reflexivity|].
  rewrite B, B'. unfold F2R. cbn [Fnum Fexp cond_Zopp]. pose proof (bpow_gt_0 radix2 (-55)).
  split; [apply Rmult_le_pos; lra|apply Rmult_lt_compat_r; lra].
Qed.
Example ex_zoom : exists s', float_zoom (ratio 3 2) ex_surf = Ok s' /\ s_sx s' = s_sx ex_surf.
Proof.
  destruct (shape_R (ratio 3 2) false 6755399441055744 (-52)) as [A B]; [vm_compute; reflexivity|].
  destruct (C101_zoom ex_surf (ratio 3 2) (proj1 ex_stepped)) as (s' & _ & _ & _ & _ & E & X & _); [vm_compute; split; congruence|vm_compute; split; congruence|exact A| |exists s'; split; [exact E|exact X]].
  rewrite B. unfold F2R. cbn [Fnum Fexp cond_Zopp]. apply Rle_trans with (bpow radix2 52 * bpow radix2 (-52))%R; [rewrite <- bpow_plus; apply Rle_refl|].
  apply Rmult_le_compat_r; [apply bpow_ge_0|]. change (bpow radix2 52) with 4503599627370496%R. lra.
Qed.
