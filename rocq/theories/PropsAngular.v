(** C73: the angular power spectrum and the texture direction Std. *)
From Coq Require Import Reals List Bool Arith ZArith Lia Lra Permutation.
From Verif Require Import Base RList ModelMath ModelHeights ModelDetrend ModelGeom ModelAcf ModelFourier ProofMath ProofHeights PropsAcf PropsStr ProofFourier PropsFourier.
Import ListNotations.
Local Open Scope R_scope.

(** *** Sums *)
Lemma sum2_exchange N M A B (F : nat -> nat -> nat -> nat -> R) : sum2 N M (fun u v => sum2 A B (F u v)) = sum2 A B (fun i j => sum2 N M (fun u v => F u v i j)).
Proof.
  rewrite (sum2_coords N M (fun u v => sum2 A B (F u v))), (sum2_coords A B (fun i j => sum2 N M (fun u v => F u v i j))).
  rewrite (sumR_ext (fun c => sum2 A B (F (fst c) (snd c))) (fun c => sumR (map (fun e => F (fst c) (snd c) (fst e) (snd e)) (coords A B)))) by (intros c _; apply sum2_coords).
  rewrite sum_swap_scale. apply sumR_ext. intros e _. symmetry. apply (sum2_coords N M (fun u v => F u v (fst e) (snd e))).
Qed.
Lemma sum2_mul N M A B f h : sum2 N M f * sum2 A B h = sum2 N M (fun i j => sum2 A B (fun k l => f i j * h k l)).
Proof. rewrite Rmult_comm, <- sum2_scale. apply sum2_ext. intros i j _ _. rewrite sum2_scale. ring. Qed.
Lemma sum2_pick N M f i j : (i < N)%nat -> (j < M)%nat -> sum2 N M (fun k l => if Nat.eqb k i && Nat.eqb l j then f k l else 0) = f i j.
Proof.
  intros Hi Hj. assert (G : forall n k (h : nat -> R), (k < n)%nat -> sumR (map (fun x => if Nat.eqb x k then h x else 0) (seq 0 n)) = h k).
  { intros n k h Hk. replace n with (k + (1 + (n - k - 1)))%nat by lia. rewrite !seq_app, !map_app, !sumR_app. cbn [seq map Nat.add]. rewrite sumR_cons, Nat.eqb_refl.
    rewrite (sumR_ext _ (fun _ => 0) (seq 0 k)) by (intros x Hx; apply in_seq in Hx; destruct (Nat.eqb_spec x k); [lia|reflexivity]).
    rewrite (sumR_ext _ (fun _ => 0) (seq (k + 1) _)) by (intros x Hx; apply in_seq in Hx; destruct (Nat.eqb_spec x k); [lia|reflexivity]). rewrite !sumR_map_const. unfold sumR. cbn [fold_right]. ring. }
  unfold sum2. rewrite (sumR_ext _ (fun k => if Nat.eqb k i then f k j else 0)); [exact (G N i (fun k => f k j) Hi)|]. intros k _. destruct (Nat.eqb k i); cbn [andb]; [exact (G M j (fun l => f k l) Hj)|]. rewrite sumR_map_const. ring.
Qed.
Lemma hit_diff n a b : (a < n)%nat -> (b < n)%nat -> hit n (Z.of_nat a - Z.of_nat b) = Nat.eqb a b.
Proof.
  intros Ha Hb. destruct (Nat.eqb_spec a b) as [-> |Ne].
  - apply hit_iff; [lia|]. exists 0%Z. lia.
  - destruct (hit n _) eqn:E; [|reflexivity]. exfalso. apply Ne. apply (same_hit n a b (Z.of_nat b) Ha Hb E). apply hit_iff; [lia|]. exists 0%Z. lia.
Qed.
(** Parseval *)
Lemma parseval z N M : (0 < N)%nat -> (0 < M)%nat -> sum2 N M (fun u v => amplitude z N M u v ^ 2) = INR N * INR M * sum2 N M (fun i j => z i j ^ 2).
Proof.
  intros HN HM. rewrite (sum2_ext _ _ _ (fun u v => sum2 N M (fun i j => sum2 N M (fun k l => z i j * z k l * cos (2 * PI * (IZR (Z.of_nat i - Z.of_nat k) * INR u / INR N + IZR (Z.of_nat j - Z.of_nat l) * INR v / INR M) + 0))))).
  - rewrite sum2_exchange. rewrite <- sum2_scale. apply sum2_ext. intros i j Hi Hj. rewrite sum2_exchange.
    rewrite (sum2_ext _ _ _ (fun k l => if Nat.eqb k i && Nat.eqb l j then INR N * INR M * (z i j * z k l) else 0)).
    + rewrite sum2_pick by assumption. ring.
    + intros k l Hk Hl. rewrite sum2_scale, cos_sum2 by assumption. rewrite !hit_diff by assumption. rewrite (Nat.eqb_sym i k), (Nat.eqb_sym j l), cos_0. destruct (_ && _); ring.
  - intros u v _ _. unfold amplitude. rewrite pow2_sqrt by nra. unfold dft_re, dft_im. rewrite <- !Rsqr_pow2, <- Rsqr_neg. unfold Rsqr. rewrite !sum2_mul. rewrite <- sum2_plus. apply sum2_ext. intros i j _ _. rewrite <- sum2_plus. apply sum2_ext. intros k l _ _.
    replace (2 * PI * (IZR (Z.of_nat i - Z.of_nat k) * INR u / INR N + IZR (Z.of_nat j - Z.of_nat l) * INR v / INR M) + 0) with (dft_phase N M u v i j - dft_phase N M u v k l) by (unfold dft_phase; rewrite !minus_IZR, <- !INR_IZR_INZ; unfold Rdiv; ring).
    rewrite cos_minus. ring.
Qed.
(** *** Binning *)
Lemma floor_spec x : IZR (floor x) <= x < IZR (floor x) + 1.
Proof. unfold floor. rewrite minus_IZR. destruct (archimed x). lra. Qed.
Lemma floor_unique x k : IZR k <= x < IZR k + 1 -> floor x = k.
Proof. intros Hk. pose proof (floor_spec x). assert (floor x < k + 1)%Z by (apply lt_IZR; rewrite plus_IZR; lra). assert (k < floor x + 1)%Z by (apply lt_IZR; rewrite plus_IZR; lra). lia. Qed.
Lemma n_angles_spec step : 0 < step -> (0 < n_angles step)%nat /\ INR (n_angles step - 1) * step < 180 <= INR (n_angles step) * step.
Proof.
  intros Hs. unfold n_angles. pose proof (floor_spec (- (180 / step))) as F. set (k := floor (- (180 / step))) in *. assert (P : 0 < 180 / step) by (apply Rmult_lt_0_compat; [lra|apply Rinv_0_lt_compat; exact Hs]).
  assert (Kn : (k < 0)%Z) by (apply lt_IZR; lra). assert (E : INR (Z.to_nat (- k)) = - IZR k) by (rewrite INR_IZR_INZ, Z2Nat.id by lia; apply opp_IZR).
  split; [lia|]. rewrite minus_INR by lia. rewrite E. cbn [INR]. assert (Q : 180 / step * step = 180) by (field; lra). split; nra.
Qed.
Lemma pymod_range x m : 0 < m -> 0 <= pymod x m < m.
Proof. intros Hm. unfold pymod. pose proof (floor_spec (x / m)) as F. set (k := IZR (floor (x / m))) in *. assert (Q : x / m * m = x) by (field; lra). split; nra. Qed.
Lemma sum_bins n N M (b : nat -> nat -> nat) (w : nat -> nat -> R) : (forall u v, (u < N)%nat -> (v < M)%nat -> (b u v < n)%nat) ->
  sumR (map (fun k => sum2 N M (fun u v => if Nat.eqb (b u v) k then w u v else 0)) (seq 0 n)) = sum2 N M w.
Proof.
  intros Hb. rewrite (sumR_ext _ (fun k => sumR (map (fun c => if Nat.eqb (b (fst c) (snd c)) k then w (fst c) (snd c) else 0) (coords N M)))) by (intros k _; apply sum2_coords).
  rewrite sum_swap_scale. rewrite sum2_coords. apply sumR_ext. intros c Hc. destruct c as [u v]. apply PropsFill.In_coords in Hc. destruct Hc as [Hu Hv]. cbn [fst snd].
  pose proof (sum2_pick 1 n (fun _ k => w u v) 0 (b u v) ltac:(lia) (Hb u v Hu Hv)) as X. unfold sum2 in X. cbn [seq map Nat.eqb andb] in X. unfold sumR at 1 in X. cbn [fold_right] in X. rewrite Rplus_0_r in X. etransitivity; [|exact X]. apply sumR_ext. intros k _. rewrite Nat.eqb_sym. reflexivity.
Qed.
Lemma bin_lt g sx sy step u v : 0 < step -> (bin_index g sx sy step u v < n_angles step)%nat.
Proof. intros Hs. unfold bin_index. destruct (n_angles_spec step Hs). lia. Qed.

(** *** Claims *)
(** The angles are 0, step, 2 step, ... below 180, with one value each; together these hold the whole power of the surface,
    i.e. the sum of squared deviations from the mean times the number of points. *)
Theorem C73_power (z : nat -> nat -> R) (ny nx : nat) (sx sy step : R) (angles spec : list R) : (0 < ny)%nat -> (0 < nx)%nat -> 0 < step ->
  angular_spectrum (grid_of z ny nx) sx sy step true = Ok (angles, spec) ->
  length spec = length angles /\ (forall k, (k < length angles)%nat -> nth k angles 0 = INR k * step /\ nth k angles 0 < 180) /\ 180 <= INR (length angles) * step /\
  (forall x, In x spec -> 0 <= x) /\
  sumR spec = INR ny * INR nx * sumR (map (fun c => (z (fst c) (snd c) - mean_height z ny nx) ^ 2) (coords ny nx)).
Proof.
  intros Hy Hx Hs E. unfold angular_spectrum in E. rewrite has_missing_grid_of in E. set (g := grid_of z ny nx) in *.
  assert (Rg : NN g = ny) by (unfold NN, g, grid_of, nrows; rewrite map_length, seq_length; reflexivity).
  assert (Cg : MM g = nx) by (unfold MM, g, grid_of, ncols; destruct ny; [lia|]; cbn [seq map hd]; rewrite map_length, seq_length; reflexivity).
  assert (Zg : forall i j, (i < ny)%nat -> (j < nx)%nat -> zdata g i j = z i j).
  { intros i j Hi Hj. unfold zdata, g, grid_of, matrix_of, at2. rewrite map_map. rewrite nth_map_seq by exact Hi. rewrite map_map. rewrite nth_map_seq by exact Hj. reflexivity. }
  assert (Ea : angles = map (fun b => INR b * step) (seq 0 (n_angles step))) by congruence.
  assert (Es : spec = map (fun b => sum2 (NN g) (MM g) (fun u v => if Nat.eqb (bin_index g sx sy step u v) b then weight g true u v else 0)) (seq 0 (n_angles step))) by congruence.
  destruct (n_angles_spec step Hs) as (N0 & N1 & N2). split; [rewrite Ea, Es, !map_length; reflexivity|]. rewrite Rg, Cg in Es.
  assert (La : length angles = n_angles step) by (rewrite Ea, map_length, seq_length; reflexivity). split; [|split; [|split]].
  - intros k Hk. rewrite La in Hk. rewrite Ea. rewrite nth_map_seq by exact Hk. split; [reflexivity|]. assert (INR k <= INR (n_angles step - 1)) by (apply le_INR; lia). nra.
  - rewrite La. exact N2.
  - intros x Hx'. rewrite Es in Hx'. apply in_map_iff in Hx'. destruct Hx' as (b & <- & _). apply sum2_nonneg. intros u v _ _. destruct (Nat.eqb _ _); [|lra]. unfold weight. apply pow2_ge_0.
  - rewrite Es, sum_bins by (intros; apply bin_lt; exact Hs). unfold weight. cbv zeta. rewrite Rg, Cg.
    rewrite parseval by assumption. f_equal. rewrite sum2_coords. apply sumR_ext. intros [i j] Hc. apply PropsFill.In_coords in Hc. cbn [fst snd]. unfold centred.
    assert (Mn : mean2 (zdata g) ny nx = mean_height z ny nx).
    { unfold mean2, mean_height, meanR. rewrite sum2_coords, map_length. f_equal.
      - apply sumR_ext. intros [k l] Hc'. apply PropsFill.In_coords in Hc'. apply Zg; apply Hc'.
      - pose proof (sum2_const ny nx 1) as X. rewrite sum2_coords, sumR_map_const in X. lra. }
    rewrite Mn, Zg by apply Hc. reflexivity.
Qed.
(** Std is one of the angles: at least 0 and below 180 degrees, and no other angle has more power. *)
Theorem C73_Std (g : grid) (sx sy step : R) (t : R) : 0 < step -> Std g sx sy step = Ok t ->
  0 <= t < 180 /\ exists angles spec k, angular_spectrum g sx sy step true = Ok (angles, spec) /\ (k < length angles)%nat /\ t = nth k angles 0 /\ forall l, (l < length spec)%nat -> nth l spec 0 <= nth k spec 0.
Proof.
  intros Hs E. unfold Std in E. destruct (angular_spectrum g sx sy step true) as [[angles spec]|er] eqn:Ea; cbn [rbind] in E; [|discriminate E]. cbn [fst snd] in E.
  destruct (argmax spec) as [k|er] eqn:Ek; cbn [rbind] in E; [|discriminate E]. injection E as <-. unfold angular_spectrum in Ea. destruct (has_missing g); [discriminate Ea|].
  assert (E1 : angles = map (fun b => INR b * step) (seq 0 (n_angles step))) by congruence. assert (L1 : length angles = n_angles step) by (rewrite E1, map_length, seq_length; reflexivity).
  assert (L2 : length spec = n_angles step) by (assert (X : spec = snd (angles, spec)) by reflexivity; rewrite X; injection Ea as _ E2; rewrite <- E2; cbn [snd]; rewrite map_length, seq_length; reflexivity).
  unfold argmax in Ek. apply argmin_spec in Ek. destruct Ek as (Hk & Hm & _). rewrite map_length in Hk, Hm.
  destruct (n_angles_spec step Hs) as (N0 & N1 & N2). split.
  - rewrite E1, nth_map_seq by lia. assert (INR k <= INR (n_angles step - 1)) by (apply le_INR; lia). pose proof (pos_INR k). nra.
  - exists angles, spec, k. split; [reflexivity|]. split; [lia|]. split; [reflexivity|]. intros l Hl. specialize (Hm l Hl). rewrite !(nth_indep (map Ropp _) 0 (Ropp 0)) in Hm by (rewrite map_length; assumption). rewrite !map_nth in Hm. lra.
Qed.

(** *** Directions *)
Lemma shift_pi x (k : Z) : exists s, s <> 0 /\ cos (x + PI * IZR k) = s * cos x /\ sin (x + PI * IZR k) = s * sin x.
Proof.
  assert (SZ : forall y m, sin (y + 2 * PI * IZR m) = sin y) by (intros y m; rewrite !sin_as_cos; rewrite <- (cos_Zperiod (y - PI / 2) m); f_equal; ring).
  destruct (Z.Even_or_Odd k) as [[m ->]|[m ->]].
  - exists 1. rewrite mult_IZR. replace (x + PI * (2 * IZR m)) with (x + 2 * PI * IZR m) by ring. rewrite cos_Zperiod, SZ. lra.
  - exists (-1). rewrite plus_IZR, mult_IZR. replace (x + PI * (2 * IZR m + 1)) with ((x + PI) + 2 * PI * IZR m) by ring. rewrite cos_Zperiod, SZ, neg_cos, neg_sin. lra.
Qed.
Lemma arctan2_spec y x : (x <> 0 \/ y <> 0) -> exists r, r <> 0 /\ x = r * cos (arctan2 y x) /\ y = r * sin (arctan2 y x).
Proof.
  intros Hn. unfold arctan2.
  assert (A : forall t, 0 < sqrt (1 + t²)) by (intros t; apply sqrt_lt_R0; pose proof (Rle_0_sqr t); lra).
  assert (G : x <> 0 -> exists r, r <> 0 /\ x = r * cos (atan (y / x)) /\ y = r * sin (atan (y / x))).
  { intros Hx. exists (x * sqrt (1 + (y / x)²)). pose proof (A (y / x)) as P. split; [apply Rmult_integral_contrapositive_currified; lra|]. rewrite cos_atan, sin_atan. split; field; lra. }
  destruct (Rlt_dec 0 x) as [L|L]; [apply G; lra|]. destruct (Rlt_dec x 0) as [L'|L'].
  - destruct (G ltac:(lra)) as (r & Hr & E1 & E2). destruct (Rle_dec 0 y).
    + exists (- r). split; [lra|]. rewrite neg_cos, neg_sin. lra.
    + exists (- r). split; [lra|]. rewrite cos_minus, sin_minus, cos_PI, sin_PI. lra.
  - destruct (Rlt_dec 0 y); [exists y; rewrite cos_PI2, sin_PI2; lra|]. destruct (Rlt_dec y 0); [exists (- y); rewrite cos_neg, sin_neg, cos_PI2, sin_PI2; lra|]. exfalso. lra.
Qed.

(** the angle t in degrees is that of the line through 0 and (x, y) *)
Definition along (t x y : R) : Prop := exists r, r <> 0 /\ x = r * cos (t * (PI / 180)) /\ y = r * sin (t * (PI / 180)).
Lemma theta_along x y : (x <> 0 \/ y <> 0) -> 0 <= pymod (arctan2 y x * (180 / PI)) 180 < 180 /\ along (pymod (arctan2 y x * (180 / PI)) 180) x y.
Proof.
  intros Hn. split; [apply pymod_range; lra|]. destruct (arctan2_spec y x Hn) as (r & Hr & E1 & E2). unfold pymod. set (k := floor _). pose proof PI_RGT_0.
  destruct (shift_pi (arctan2 y x) (- k)) as (c & Hc & C1 & C2). exists (r / c). split; [unfold Rdiv; apply Rmult_integral_contrapositive_currified; [exact Hr|apply Rinv_neq_0_compat; exact Hc]|].
  replace ((arctan2 y x * (180 / PI) - 180 * IZR k) * (PI / 180)) with (arctan2 y x + PI * IZR (- k)) by (rewrite opp_IZR; field; lra). rewrite C1, C2. split; [transitivity (r * cos (arctan2 y x)); [exact E1|field; exact Hc]|transitivity (r * sin (arctan2 y x)); [exact E2|field; exact Hc]].
Qed.
Lemma along_unique t t' x y : (x <> 0 \/ y <> 0) -> 0 <= t < 180 -> 0 <= t' < 180 -> along t x y -> along t' x y -> t = t'.
Proof.
  intros Hn Ht Ht' (r & Hr & X & Y) (r' & Hr' & X' & Y'). pose proof PI_RGT_0 as PP. set (a := t * (PI / 180)) in *. set (b := t' * (PI / 180)) in *.
  assert (S : sin (a - b) = 0).
  { rewrite sin_minus. apply Rmult_eq_reg_l with (r * r'); [|apply Rmult_integral_contrapositive_currified; assumption]. replace (r * r' * (sin a * cos b - cos a * sin b)) with ((r * sin a) * (r' * cos b) - (r * cos a) * (r' * sin b)) by ring. rewrite <- X, <- Y, <- X', <- Y'. ring. }
  apply sin_eq_0_0 in S. destruct S as [k S]. assert (D : t - t' = 180 * IZR k) by (unfold a, b in S; apply Rmult_eq_reg_r with (PI / 180); lra).
  assert (k = 0)%Z; [|subst k; lra]. assert (-1 < k)%Z by (apply lt_IZR; lra). assert (k < 1)%Z by (apply lt_IZR; lra). lia.
Qed.
Lemma along_opp t x y : along t x y -> along t (- x) (- y).
Proof. intros (r & Hr & -> & ->). exists (- r). split; [lra|]. split; ring. Qed.

Section Wave.
Variables (a phi off sx sy step : R) (p q : Z) (N M : nat).
Hypotheses (HN : (2 <= N)%nat) (HM : (2 <= M)%nat) (Ha : a <> 0) (Hsx : 0 < sx) (Hsy : 0 < sy) (Hs : 0 < step).
Hypotheses (Hp : (2 * Z.abs p < Z.of_nat N)%Z) (Hq : (2 * Z.abs q < Z.of_nat M)%Z) (Hpq : (p, q) <> (0, 0)%Z).
Let g := wave_surface a phi off p q N M.
Let fx := IZR q / ((INR M - 1) * sx).
Let fy := IZR p / ((INR N - 1) * sy).
Lemma NNg : NN g = N. Proof. apply rows_g. Qed.
Lemma MMg : MM g = M. Proof. apply cols_g; assumption. Qed.
Lemma fxy_nz : fx <> 0 \/ fy <> 0.
Proof.
  pose proof (bigN N HN). pose proof (bigM M HM). destruct (Z.eq_dec q 0) as [Eq|Nq]; [right|left]; unfold fx, fy, Rdiv; apply Rmult_integral_contrapositive_currified.
  - apply not_0_IZR. intros C. apply Hpq. rewrite C, Eq. reflexivity.
  - apply Rinv_neq_0_compat. apply Rmult_integral_contrapositive_currified; lra.
  - apply not_0_IZR. exact Nq.
  - apply Rinv_neq_0_compat. apply Rmult_integral_contrapositive_currified; lra.
Qed.
Definition dir : R := pymod (arctan2 fy fx * (180 / PI)) 180.
Lemma theta_hit u v : (u < N)%nat -> (v < M)%nat -> up_hit p q N M u v || dn_hit p q N M u v = true -> theta g sx sy u v = dir.
Proof.
  intros Hu Hv Hh. pose proof (bigN N HN). pose proof (bigM M HM). unfold theta. rewrite NNg, MMg.
  assert (G : forall n e k, 0 < e -> (0 < n)%nat -> fftfreq n (extent n e / INR n) k = IZR (freq_int n k) * / extent n e).
  { intros n e k He Hn. unfold fftfreq. replace (INR n * (extent n e / INR n)) with (extent n e) by (field; apply not_0_INR; lia). unfold Rdiv. ring. }
  rewrite !G by (try lra; lia). unfold dir. destruct fxy_nz as [F|F]; apply orb_true_iff in Hh; destruct Hh as [E|E].
  all: try (unfold up_hit in E; apply andb_true_iff in E; destruct E as [E1 E2]; rewrite (freq_int_alias N u p), (freq_int_alias M v q) by assumption; reflexivity).
  all: unfold dn_hit in E; apply andb_true_iff in E; destruct E as [E1 E2]; rewrite <- Z.sub_opp_r in E1, E2; rewrite (freq_int_alias N u (- p)), (freq_int_alias M v (- q)) by (try assumption; lia); rewrite !opp_IZR;
    replace (- IZR p * / extent N sy) with (- fy) by (unfold fy, extent, Rdiv; ring); replace (- IZR q * / extent M sx) with (- fx) by (unfold fx, extent, Rdiv; ring);
    (assert (Nz : - fx <> 0 \/ - fy <> 0) by (destruct fxy_nz; [left|right]; lra)); destruct (theta_along (- fx) (- fy) Nz) as [R1 A1]; destruct (theta_along fx fy fxy_nz) as [R2 A2];
    apply (along_unique _ _ (- fx) (- fy) Nz); [exact R1|exact R2|exact A1|apply along_opp; exact A2].
Qed.
Lemma dir_bin : exists b, (b < n_angles step)%nat /\ INR b * step <= dir < INR b * step + step /\ forall u v, (u < N)%nat -> (v < M)%nat -> up_hit p q N M u v || dn_hit p q N M u v = true -> bin_index g sx sy step u v = b.
Proof.
  destruct (theta_along fx fy fxy_nz) as [Rg _]. fold dir in Rg. pose proof (floor_spec (dir / step)) as F. assert (Q : dir / step * step = dir) by (field; lra).
  assert (F0 : (0 <= floor (dir / step))%Z) by (assert (-1 < floor (dir / step))%Z; [apply lt_IZR; nra|lia]). destruct (n_angles_spec step Hs) as (N0 & N1 & N2).
  set (b := Z.to_nat (floor (dir / step))). assert (Eb : INR b = IZR (floor (dir / step))) by (unfold b; rewrite INR_IZR_INZ, Z2Nat.id by exact F0; reflexivity).
  assert (Lb : (b < n_angles step)%nat) by (apply INR_lt; rewrite Eb; nra).
  exists b. split; [exact Lb|]. split; [rewrite Eb; nra|]. intros u v Hu Hv Hh. unfold bin_index. rewrite theta_hit by assumption. fold b. lia.
Qed.
(** The texture direction of a wave: Std is the multiple of the angle step just below the direction of the wave vector. *)
Theorem C73_Std_wave : exists t d, Std g sx sy step = Ok t /\ along d fx fy /\ 0 <= d < 180 /\ t <= d < t + step.
Proof.
  destruct dir_bin as (b & Lb & Hb & Hbin). destruct (theta_along fx fy fxy_nz) as [Rg Al]. fold dir in Rg, Al. exists (INR b * step), dir. split; [|split; [exact Al|split; [exact Rg|exact Hb]]].
  unfold Std, angular_spectrum. rewrite (complete a phi off p q N M : has_missing g = false). cbn [rbind fst snd]. rewrite NNg, MMg.
  set (spec := map _ (seq 0 (n_angles step))) at 1.
  assert (Amp : forall u v, weight g true u v = if up_hit p q N M u v || dn_hit p q N M u v then peak a N M ^ 2 else 0).
  { intros u v. unfold weight. cbv zeta. rewrite NNg, MMg. unfold g. rewrite (amp_g a phi off p q N M HN HM Hp Hq Hpq). fold (peak a N M). destruct (_ || _); [reflexivity|ring]. }
  assert (Sp : forall k, (k < n_angles step)%nat -> nth k spec 0 = if Nat.eqb k b then sum2 N M (fun u v => if up_hit p q N M u v || dn_hit p q N M u v then peak a N M ^ 2 else 0) else 0).
  { intros k Hk. unfold spec. rewrite nth_map_seq by exact Hk. destruct (Nat.eqb_spec k b) as [-> |Ne].
    - apply sum2_ext. intros u v Hu Hv. rewrite Amp. destruct (_ || _) eqn:Eh; [rewrite (Hbin u v Hu Hv Eh), Nat.eqb_refl; reflexivity|destruct (Nat.eqb _ _); reflexivity].
    - rewrite (sum2_ext _ _ _ (fun _ _ => 0)); [rewrite sum2_const; ring|]. intros u v Hu Hv. rewrite Amp. destruct (_ || _) eqn:Eh; [rewrite (Hbin u v Hu Hv Eh)|destruct (Nat.eqb _ _); reflexivity]. destruct (Nat.eqb_spec b k); [congruence|reflexivity]. }
  set (T := sum2 N M (fun u v => if up_hit p q N M u v || dn_hit p q N M u v then peak a N M ^ 2 else 0)) in Sp.
  assert (TP : 0 < T).
  { destruct (up_exists p q N M HN HM) as (k & Hk & E). set (u := fst (cell N M k)) in *. set (v := snd (cell N M k)) in *. assert (Hu : (u < N)%nat) by (apply unshift_lt; lia). assert (Hv : (v < M)%nat) by (apply unshift_lt; lia).
    assert (PP : 0 < peak a N M) by (eapply peak_pos; eassumption). assert (P2 : 0 < peak a N M ^ 2) by nra. unfold T.
    apply Rlt_le_trans with (sum2 N M (fun k l => if Nat.eqb k u && Nat.eqb l v then peak a N M ^ 2 else 0)); [rewrite sum2_pick by assumption; exact P2|].
    assert (D : 0 <= sum2 N M (fun k l => (if up_hit p q N M k l || dn_hit p q N M k l then peak a N M ^ 2 else 0) + -1 * (if Nat.eqb k u && Nat.eqb l v then peak a N M ^ 2 else 0))).
    { apply sum2_nonneg. intros i j _ _. destruct (Nat.eqb_spec i u) as [-> |]; [destruct (Nat.eqb_spec j v) as [-> |]|]; cbn [andb]; try (destruct (_ || _); lra). rewrite E. cbn [orb]. lra. }
    rewrite sum2_plus, sum2_scale in D. lra. }
  assert (Ls : length spec = n_angles step) by (unfold spec; rewrite map_length, seq_length; reflexivity).
  assert (Am : argmax spec = Ok b).
  { unfold argmax. apply argmin_complete. unfold first_argmin. rewrite map_length, Ls.
    assert (Nt : forall k, (k < n_angles step)%nat -> nth k (map Ropp spec) 0 = - nth k spec 0) by (intros k Hk; rewrite (nth_indep (map Ropp _) 0 (Ropp 0)) by (rewrite map_length, Ls; exact Hk); apply map_nth).
    split; [exact Lb|]. split.
    - intros j Hj. rewrite !Nt, !Sp, Nat.eqb_refl by assumption. destruct (Nat.eqb_spec j b); lra.
    - intros j Hj. rewrite !Nt, !Sp, Nat.eqb_refl by lia. destruct (Nat.eqb_spec j b); [lia|lra]. }
  rewrite Am. cbn [rbind]. apply f_equal. rewrite nth_map_seq by exact Lb. reflexivity.
Qed.
End Wave.
Example C73_example : exists t, Std (wave_surface 1 0 0 1 0 4 4) 1 1 1 = Ok t /\ 89 < t <= 90.
Proof.
  destruct (C73_Std_wave 1 0 0 1 1 1 1 0 4 4) as (t & d & E & A & Rd & Td); try lia; try lra; [intros X; discriminate X|]. exists t. split; [exact E|].
  assert (d = 90); [|lra]. eapply along_unique; [| | |exact A|]; [right|exact Rd|lra|].
  - cbn [INR]. lra.
  - exists (1 / ((INR 4 - 1) * 1)). cbn [INR]. replace (90 * (PI / 180)) with (PI / 2) by field. rewrite cos_PI2, sin_PI2. split; [lra|]. split; lra.
Qed.
