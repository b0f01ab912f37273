(** C92: the units printed in the report are the dimensions of the quantities: when every length is expressed in another unit, c times
    the number, then the values with the unit of a length change by c and those without a unit, or in per cent, not at all. *)
From Coq Require Import String Reals List Bool Arith ZArith Lia Lra FunctionalExtensionality.
From Verif Require Import Base RList ModelMath ProofMath ModelHeights ProofHeights ModelGeom ModelBatch ModelParams PropsParams ModelDetrend SpecDetrend ModelAcf ModelFourier PropsDetrend PropsFourier ModelAfc ProofAfc PropsAfc ProofAfcAffine ModelReport.
Import ListNotations.
Local Open Scope R_scope.

(** the power of the length in a unit *)
Definition unit_power (u : string) : option nat :=
  dget u [("µm", 1%nat); ("µm³/µm²", 1%nat); ("%", 0%nat); ("", 0%nat)]%string.
(** the same surface with every length, also the heights, c times as large *)
Definition rescale (c : R) (s : measured_surface) : measured_surface :=
  mkMS (map (map (option_map (Rmult c))) (ms_data s)) (c * ms_sx s) (c * ms_sy s).

Section Scale.
Context (c : R) (Hc : 0 < c).
Notation sg := (map (map (option_map (Rmult c)))).
Notation sm := (map (map (Rmult c))).
Lemma c_lt x y : c * x < c * y <-> x < y.
Proof. split; intros H; [apply Rmult_lt_reg_l with c; assumption|apply Rmult_lt_compat_l; assumption]. Qed.
Lemma missing_sg (gr : grid) : has_missing (sg gr) = has_missing gr.
Proof.
  assert (H : forall l : list height, existsb is_nan (map (option_map (Rmult c)) l) = existsb is_nan l) by (induction l as [|h l IH]; [reflexivity|]; cbn [map existsb]; rewrite IH; destruct h; reflexivity).
  unfold has_missing, ModelHeights.flat. rewrite <- concat_map. apply H.
Qed.
Lemma matrix_sg (gr : grid) : matrix_of (sg gr) = sm (matrix_of gr).
Proof. unfold matrix_of. rewrite !map_map. apply map_ext. intros r. rewrite !map_map. apply map_ext. intros [x|]; cbn [option_map]; [reflexivity|ring]. Qed.
Lemma nrows_sg (gr : grid) : nrows (sg gr) = nrows gr. Proof. apply map_length. Qed.
Lemma ncols_sg (gr : grid) : ncols (sg gr) = ncols gr. Proof. unfold ncols. destruct gr; [reflexivity|apply map_length]. Qed.
(** *** heights *)
Lemma heights_scale d h : height_parameters d = Ok h -> exists h', height_parameters (map (Rmult c) d) = Ok h' /\
  Sa h' = c * Sa h /\ Sq h' = c * Sq h /\ Sz h' = c * Sz h /\ Sku h' = Sku h /\ Sp h' = c * Sp h /\ Sv h' = c * Sv h /\ Ssk h' = Ssk h.
Proof.
  intros E. assert (N : d <> []) by (intros ->; discriminate). destruct (C23_scale d h c N ltac:(lra) E) as (h' & E' & A & B & C & D & F & _).
  rewrite Rabs_pos_eq in A, B, C by lra. destruct (F Hc) as (F1 & F2 & F3). exists h'. repeat split; assumption.
Qed.
(** *** areas and slopes *)
Lemma diff1_scale l : diff1 (map (Rmult c) l) = map (Rmult c) (diff1 l).
Proof. induction l as [|a l IH]; [reflexivity|]. destruct l as [|b l]; [reflexivity|]. cbn [map diff1] in *. rewrite IH. f_equal. ring. Qed.
Lemma zip2_map {A B C D E F} (f : C -> D -> E) (p : A -> C) (q : B -> D) (u : F -> E) (v : A -> B -> F) : (forall x y, f (p x) (q y) = u (v x y)) ->
  forall l l', zip2 f (map p l) (map q l') = map u (zip2 v l l').
Proof. intros H l. induction l as [|a l IH]; intros [|b l']; try reflexivity. cbn [map zip2]. rewrite H, IH. reflexivity. Qed.
Lemma diff0_scale gr : diff0 (sm gr) = sm (diff0 gr).
Proof.
  induction gr as [|a l IH]; [reflexivity|]. destruct l as [|b l]; [reflexivity|]. cbn [map diff0] in *. rewrite IH. f_equal.
  apply zip2_map. intros. ring.
Qed.
Lemma diffx_scale gr : diffx (sm gr) = sm (diffx gr).
Proof. unfold diffx. rewrite !map_map. apply map_ext. apply diff1_scale. Qed.
Lemma removelast_map {A B} (f : A -> B) l : removelast (map f l) = map f (removelast l).
Proof. induction l as [|a l IH]; [reflexivity|]. destruct l as [|b l]; [reflexivity|]. cbn [map removelast] in *. rewrite IH. reflexivity. Qed.
Lemma quad_scale sx sy u v : quad (c * sx) (c * sy) (c * u) (c * v) = c ^ 2 * quad sx sy u v.
Proof.
  unfold quad. replace ((c * sy * (c * v)) ^ 2 + (c * sx * (c * u)) ^ 2 + (c * sx * (c * sy)) ^ 2) with ((c ^ 2) ^ 2 * ((sy * v) ^ 2 + (sx * u) ^ 2 + (sx * sy) ^ 2)) by ring.
  rewrite sqrt_mult_alt by apply pow2_ge_0. rewrite sqrt_pow2 by (apply pow2_ge_0). ring.
Qed.
Lemma sumR_scale k l : sumR (map (Rmult k) l) = k * sumR l.
Proof. induction l as [|x l IH]; [cbn; rewrite ?sumR_nil; ring|]. cbn [map]. rewrite !sumR_cons, IH. ring. Qed.
Lemma sum2_scale k gr : ModelParams.sum2 (map (map (Rmult k)) gr) = k * ModelParams.sum2 gr.
Proof. unfold ModelParams.sum2. rewrite map_map. rewrite <- sumR_scale, map_map. f_equal. apply map_ext. apply sumR_scale. Qed.
Lemma area_scale gr sx sy : surface_area (sm gr) (c * sx) (c * sy) = c ^ 2 * surface_area gr sx sy.
Proof.
  unfold surface_area, areas. rewrite diff0_scale, diffx_scale, removelast_map, map_map.
  rewrite (map_ext (fun x => removelast (map (Rmult c) x)) (fun x => map (Rmult c) (removelast x))) by (intros; apply removelast_map). rewrite <- (map_map (@removelast R) (map (Rmult c))).
  rewrite (zip2_map _ (map (Rmult c)) (map (Rmult c)) (map (Rmult (c ^ 2))) (zip2 (fun dzy dzx => quad sx sy dzx dzy))).
  - rewrite sum2_scale. ring.
  - intros x y. apply zip2_map. intros u v. apply quad_scale.
Qed.
Lemma Sdr_scale gr ny nx sx sy : Sdr (sm gr) ny nx (c * sx) (c * sy) = Sdr gr ny nx sx sy.
Proof.
  unfold Sdr. rewrite area_scale. replace (projected_area ny nx (c * sx) (c * sy)) with (c ^ 2 * projected_area ny nx sx sy) by (unfold projected_area; ring).
  rewrite ndiv_scale; [reflexivity| |reflexivity]. apply pow_nonzero. lra.
Qed.
Lemma quotient x y : c * x / (c * y) = x / y.
Proof. unfold Rdiv. rewrite Rinv_mult. replace (c * x * (/ c * / y)) with (c * / c * (x * / y)) by ring. rewrite Rinv_r by lra. ring. Qed.
Lemma Sdq_scale gr ny nx sx sy : Sdq (sm gr) ny nx (c * sx) (c * sy) = Sdq gr ny nx sx sy.
Proof.
  unfold Sdq. rewrite diff0_scale, diffx_scale, !map_map. do 3 f_equal; f_equal; apply map_ext; intros r; rewrite !map_map; apply map_ext; intros x; rewrite quotient; reflexivity.
Qed.
(** *** autocorrelation *)
Lemma at2_scale k (a : matrix) i j : at2 (map (map (Rmult k)) a) i j = k * at2 a i j.
Proof.
  unfold at2. rewrite <- (map_nth (Rmult k)). rewrite Rmult_0_r. f_equal. change (@nil R) with (map (Rmult k) []) at 1. apply map_nth.
Qed.
Lemma mrows_scale k (a : matrix) : mrows (map (map (Rmult k)) a) = mrows a. Proof. apply map_length. Qed.
Lemma mcols_scale k (a : matrix) : mcols (map (map (Rmult k)) a) = mcols a. Proof. unfold mcols. destruct a; [reflexivity|apply map_length]. Qed.
Lemma asum2_scale k n m f : ModelAcf.sum2 n m (fun i j => k * f i j) = k * ModelAcf.sum2 n m f.
Proof.
  unfold ModelAcf.sum2. rewrite <- sumR_scale, map_map. f_equal. apply map_ext. intros i. rewrite <- sumR_scale, map_map. reflexivity.
Qed.
Lemma asum2_ext n m f h : (forall i j, f i j = h i j) -> ModelAcf.sum2 n m f = ModelAcf.sum2 n m h.
Proof. intros H. unfold ModelAcf.sum2. f_equal. apply map_ext. intros i. f_equal. apply map_ext. intros j. apply H. Qed.
Lemma tabulate_scale k n m f h : (forall i j, f i j = k * h i j) -> tabulate n m f = map (map (Rmult k)) (tabulate n m h).
Proof. intros H. unfold tabulate. rewrite map_map. apply map_ext. intros i. rewrite map_map. apply map_ext. intros j. apply H. Qed.
Lemma reflect_scale k (a : matrix) : reflect (map (map (Rmult k)) a) = map (map (Rmult k)) (reflect a).
Proof. unfold reflect. rewrite map_rev, !map_map. f_equal. apply map_ext. intros r. symmetry. apply map_rev. Qed.
Lemma convolve_scale (a b : matrix) : convolve_full (sm a) (sm b) = map (map (Rmult (c ^ 2))) (convolve_full a b).
Proof.
  unfold convolve_full. rewrite !mrows_scale, !mcols_scale. apply tabulate_scale. intros p q. rewrite <- asum2_scale. apply asum2_ext. intros i j. rewrite !at2_scale.
  destruct (_ && _); ring.
Qed.
Lemma acf_scale (a : matrix) : autocorrelation (sm a) = map (map (Rmult (c ^ 2))) (autocorrelation a).
Proof.
  unfold autocorrelation. rewrite reflect_scale, convolve_scale. rewrite !mrows_scale, !mcols_scale. apply tabulate_scale. intros p q. rewrite at2_scale. unfold Rdiv. ring.
Qed.
Lemma measured_sg l : measured (map (option_map (Rmult c)) l) = map (Rmult c) (measured l).
Proof. induction l as [|[x|] l IH]; [reflexivity| |exact IH]. cbn. f_equal. exact IH. Qed.
Lemma mean_scale l : meanR (map (Rmult c) l) = c * meanR l.
Proof. unfold meanR. rewrite map_length, sumR_scale. unfold Rdiv. ring. Qed.
Lemma nanmean_sg l : nanmean (map (option_map (Rmult c)) l) = option_map (Rmult c) (nanmean l).
Proof.
  unfold nanmean. rewrite measured_sg. destruct (measured l) as [|x m] eqn:E; [reflexivity|]. cbn [map option_map]. f_equal. exact (mean_scale (x :: m)).
Qed.
Lemma center_sg (gr : grid) : center (sg gr) = sg (center gr).
Proof.
  assert (E : nanmean (ModelHeights.flat (sg gr)) = option_map (Rmult c) (nanmean (ModelHeights.flat gr))) by (unfold ModelHeights.flat; rewrite <- concat_map; apply nanmean_sg).
  unfold center, gmap. rewrite E, !map_map. apply map_ext. intros r. rewrite !map_map. apply map_ext. intros h. unfold hsub.
  destruct h as [x|], (nanmean (ModelHeights.flat gr)) as [y|]; cbn; try reflexivity. apply (f_equal Some). ring.
Qed.
Lemma acf_new_sg (gr : grid) : acf_new (sg gr) = rmap (map (map (Rmult (c ^ 2)))) (acf_new gr).
Proof. unfold acf_new. rewrite missing_sg. destruct (has_missing gr); [reflexivity|]. cbn [rmap]. rewrite center_sg, matrix_sg, acf_scale. reflexivity. Qed.
(** *** decay lengths *)
Section Decay.
Context (spline : matrix -> R -> R -> R) (label : (nat -> nat -> bool) -> nat -> nat -> nat).
Hypothesis spline_linear : forall k d y x, spline (map (map (Rmult k)) d) y x = k * spline d y x.
Lemma k_pos : 0 < c ^ 2. Proof. apply pow_lt. exact Hc. Qed.
Lemma distance_scale sx sy p e : distance (c * sx) (c * sy) p e = c * distance sx sy p e.
Proof.
  unfold distance. set (u := INR (fst e) - INR (fst p)). set (v := INR (snd e) - INR (snd p)).
  replace (u * (c * sy) * (u * (c * sy)) + v * (c * sx) * (v * (c * sx))) with (c ^ 2 * (u * sy * (u * sy) + v * sx * (v * sx))) by ring.
  rewrite sqrt_mult_alt by apply pow2_ge_0. rewrite sqrt_pow2 by lra. reflexivity.
Qed.
Lemma lmin_scale l : lmin (map (Rmult c) l) = option_map (Rmult c) (lmin l).
Proof.
  destruct (lmin l) as [m|] eqn:E; cbn [option_map].
  - apply lmin_spec. apply (is_min_map_mono (Rmult c)); [intros; apply Rmult_le_compat_l; lra|]. apply lmin_spec, E.
  - destruct l; [reflexivity|discriminate].
Qed.
Lemma lmax_scale l : lmax (map (Rmult c) l) = option_map (Rmult c) (lmax l).
Proof.
  destruct (lmax l) as [m|] eqn:E; cbn [option_map].
  - apply lmax_spec. apply (is_max_map_mono (Rmult c)); [intros; apply Rmult_le_compat_l; lra|]. apply lmax_spec, E.
  - destruct l; [reflexivity|discriminate].
Qed.
Lemma same_dec (x y : R) : (if Req_EM_T (c * x) (c * y) then true else false) = (if Req_EM_T x y then true else false).
Proof.
  destruct (Req_EM_T (c * x) (c * y)) as [E|E], (Req_EM_T x y) as [F|F]; try reflexivity; exfalso; [apply F; apply Rmult_eq_reg_l with c; [exact E|lra]|apply E; rewrite F; reflexivity].
Qed.
Lemma all_min_scale f h l : (forall e, h e = c * f e) -> all_min h l = all_min f l.
Proof.
  intros H. unfold all_min. rewrite (map_ext h (fun e => c * f e)) by exact H. rewrite <- (map_map f (Rmult c)), lmin_scale. destruct (lmin (map f l)) as [m|]; cbn [option_map]; [|reflexivity].
  apply filter_ext. intros e. rewrite H. apply same_dec.
Qed.
Lemma all_max_scale f h l : (forall e, h e = c * f e) -> all_max h l = all_max f l.
Proof.
  intros H. unfold all_max. rewrite (map_ext h (fun e => c * f e)) by exact H. rewrite <- (map_map f (Rmult c)), lmax_scale. destruct (lmax (map f l)) as [m|]; cbn [option_map]; [|reflexivity].
  apply filter_ext. intros e. rewrite H. apply same_dec.
Qed.
Notation sk := (map (map (Rmult (c ^ 2)))).
Lemma best_scale d l : best (sk d) l = best d l.
Proof.
  unfold best. rewrite (map_ext (point_data (sk d)) (fun e => c ^ 2 * point_data d e)) by (intros e; unfold point_data; apply at2_scale).
  rewrite <- (map_map (point_data d) (Rmult (c ^ 2))), argmin_mono; [reflexivity|]. pose proof k_pos. intros x y. split; intros Q; [apply Rmult_lt_reg_l with (c ^ 2); assumption|apply Rmult_lt_compat_l; assumption].
Qed.
Lemma nth_linspace k i n len : nth i (ModelGeom.linspace 0 (k * len) n) 0 = k * nth i (ModelGeom.linspace 0 len n) 0.
Proof.
  rewrite <- (map_nth (Rmult k)), Rmult_0_r. f_equal. unfold ModelGeom.linspace. rewrite map_map. apply map_ext. intros j. destruct (Nat.eqb n 1); unfold Rdiv; ring.
Qed.
Lemma along_scale d thr p e len : decay_along spline (sk d) (c ^ 2 * thr) p e (c * len) = rmap (Rmult c) (decay_along spline d thr p e len).
Proof.
  unfold decay_along. pose proof k_pos as Kp.
  rewrite (map_ext (fun p => spline (sk d) (fst p) (snd p)) (fun p => c ^ 2 * spline d (fst p) (snd p))) by (intros; apply spline_linear).
  rewrite <- (map_map (fun p => spline d (fst p) (snd p)) (Rmult (c ^ 2))).
  assert (Q : forall xs, argclosest (c ^ 2 * thr) (map (Rmult (c ^ 2)) xs) = argclosest thr xs).
  { intros xs. pose proof (argclosest_af (c ^ 2) 0 Kp thr xs) as A. unfold g in A. rewrite Rplus_0_r in A. rewrite <- A. f_equal. apply map_ext. intros; ring. }
  rewrite Q. destruct argclosest as [i|e0]; [|reflexivity]. cbn [rbind rmap]. f_equal. apply nth_linspace.
Qed.
Lemma decay_scale d sx sy s : decay_lengths spline label (sk d) (c * sx) (c * sy) s = rmap (fun p => (c * fst p, c * snd p)) (decay_lengths spline label d sx sy s).
Proof.
  unfold decay_lengths. rewrite mrows_scale, mcols_scale. cbv zeta. set (p := (Nat.div (mrows d) 2, Nat.div (mcols d) 2)).
  assert (T : s * point_data (sk d) p = c ^ 2 * (s * point_data d p)) by (unfold point_data; rewrite at2_scale; ring). rewrite T.
  assert (M : (fun i j => Rltb (c ^ 2 * (s * point_data d p)) (at2 (sk d) i j)) = (fun i j => Rltb (s * point_data d p) (at2 d i j))).
  { extensionality i. extensionality j. rewrite at2_scale. pose proof k_pos as Kp. destruct (Rltb (s * point_data d p) (at2 d i j)) eqn:E.
    - apply Rltb_spec. apply Rltb_spec in E. apply Rmult_lt_compat_l; assumption.
    - apply Rltb_false. apply Rltb_false in E. apply Rmult_le_compat_l; lra. }
  rewrite M. set (idx := argwhere _ _ _). rewrite (all_min_scale (distance sx sy p) _ idx) by (intros; apply distance_scale). rewrite (all_max_scale (distance sx sy p) _ idx) by (intros; apply distance_scale).
  rewrite !best_scale. destruct (best d (all_min _ idx)) as [e1|]; [|reflexivity]. cbn [rbind]. destruct (best d (all_max _ idx)) as [e2|]; [|reflexivity]. cbn [rbind].
  rewrite !distance_scale, !along_scale. destruct (decay_along spline d _ p e1 _) as [a|]; [|reflexivity]. cbn [rbind rmap]. destruct (decay_along spline d _ p e2 _) as [b|]; reflexivity.
Qed.
Lemma Sal_scale d sx sy s : Sal spline label (sk d) (c * sx) (c * sy) s = rmap (Rmult c) (Sal spline label d sx sy s).
Proof. unfold Sal. rewrite decay_scale. destruct decay_lengths; reflexivity. Qed.
Lemma Str_scale d sx sy s : Str spline label (sk d) (c * sx) (c * sy) s = Str spline label d sx sy s.
Proof.
  unfold Str. rewrite decay_scale. destruct (decay_lengths spline label d sx sy s) as [[a b]|]; [|reflexivity]. cbn [rmap fst snd]. f_equal.
  destruct (Req_EM_T (c * b) 0) as [E|E], (Req_EM_T b 0) as [F|F]; try reflexivity.
  - apply Rmult_integral in E as [E|E]; [lra|contradiction].
  - exfalso. apply E. rewrite F. ring.
  - f_equal. apply quotient.
Qed.
End Decay.
(** *** Fourier transform *)
Section Fourier.
Context (argsort : list R -> list nat).
Hypothesis argsort_order : forall k l, 0 < k -> argsort (map (Rmult k) l) = argsort l.
Lemma z_scale (gr : grid) i j : zdata (sg gr) i j = c * zdata gr i j.
Proof. unfold zdata. rewrite matrix_sg. apply at2_scale. Qed.
Lemma centred_scale (gr : grid) N M i j : centred (zdata (sg gr)) N M i j = c * centred (zdata gr) N M i j.
Proof.
  unfold centred, mean2. rewrite z_scale, (asum2_ext N M (zdata (sg gr)) (fun i j => c * zdata gr i j)) by apply z_scale. rewrite asum2_scale. unfold Rdiv. ring.
Qed.
Lemma amplitude_scale z z' N M u v : (forall i j, z' i j = c * z i j) -> amplitude z' N M u v = c * amplitude z N M u v.
Proof.
  intros H. unfold amplitude.
  assert (A : dft_re z' N M u v = c * dft_re z N M u v) by (unfold dft_re; rewrite <- asum2_scale; apply asum2_ext; intros i j; rewrite H; ring).
  assert (B : dft_im z' N M u v = c * dft_im z N M u v) by (unfold dft_im; rewrite <- Ropp_mult_distr_r, <- asum2_scale; f_equal; apply asum2_ext; intros i j; rewrite H; ring).
  rewrite A, B. replace ((c * dft_re z N M u v) ^ 2 + (c * dft_im z N M u v) ^ 2) with (c ^ 2 * (dft_re z N M u v ^ 2 + dft_im z N M u v ^ 2)) by ring.
  rewrite sqrt_mult_alt by apply pow2_ge_0. rewrite sqrt_pow2 by lra. reflexivity.
Qed.
Lemma spectrum_scale (gr : grid) : spectrum_flat (sg gr) = map (Rmult c) (spectrum_flat gr).
Proof.
  unfold spectrum_flat, NN, MM. rewrite nrows_sg, ncols_sg, map_map. apply map_ext. intros k. apply amplitude_scale. intros i j. apply centred_scale.
Qed.
Lemma fftfreq_scale n sx k : fftfreq n (extent n (c * sx) / INR n) k = / c * fftfreq n (extent n sx / INR n) k.
Proof.
  unfold fftfreq, extent. replace (INR n * ((INR n - 1) * (c * sx) / INR n)) with (c * (INR n * ((INR n - 1) * sx / INR n))) by (unfold Rdiv; ring).
  unfold Rdiv. rewrite (Rinv_mult c). ring.
Qed.
Lemma Rltb_scale k x y : 0 < k -> Rltb (k * x) (k * y) = Rltb x y.
Proof.
  intros Hk. destruct (Rltb x y) eqn:E; [apply Rltb_spec; apply Rltb_spec in E; apply Rmult_lt_compat_l; assumption|apply Rltb_false; apply Rltb_false in E; apply Rmult_le_compat_l; lra].
Qed.
Lemma peak_scale (gr : grid) sx sy : peak_dx_dy (sg gr) (c * sx) (c * sy) argsort = rmap (fun d => (/ c * fst d, / c * snd d)) (peak_dx_dy gr sx sy argsort).
Proof.
  unfold peak_dx_dy. rewrite missing_sg. destruct (has_missing gr); [reflexivity|]. rewrite spectrum_scale, argsort_order by exact Hc. destruct (rev (argsort (spectrum_flat gr))) as [|k0 [|k1 l]]; try reflexivity.
  unfold freq_x, freq_y, NN, MM. rewrite !nrows_sg, !ncols_sg, !fftfreq_scale. cbn [fst snd]. pose proof (Rinv_0_lt_compat c Hc) as Ic. rewrite Rltb_scale by exact Ic.
  destruct Rltb; cbn [rmap fst snd]; do 2 f_equal; ring.
Qed.
Lemma period_scale (gr : grid) sx sy : period (sg gr) (c * sx) (c * sy) argsort = rmap (option_map (Rmult c)) (period gr sx sy argsort).
Proof.
  unfold period. rewrite peak_scale. destruct (peak_dx_dy gr sx sy argsort) as [[a b]|]; [|reflexivity]. cbn [rmap fst snd]. pose proof (Rinv_0_lt_compat c Hc) as Ic.
  replace ((/ c * a) ^ 2 + (/ c * b) ^ 2) with ((/ c) ^ 2 * (a ^ 2 + b ^ 2)) by ring. rewrite sqrt_mult_alt by apply pow2_ge_0. rewrite sqrt_pow2 by lra. set (h := sqrt (a ^ 2 + b ^ 2)).
  f_equal. destruct (Req_EM_T (/ c * h) 0) as [E|E], (Req_EM_T h 0) as [F|F]; try reflexivity.
  - apply Rmult_integral in E as [E|E]; [lra|contradiction].
  - exfalso. apply E. rewrite F. ring.
  - cbn [option_map]. f_equal. field. split; lra.
Qed.
End Fourier.
(** *** material ratio curve *)
Section Curve.
Context (polyfit : lsq_solver) (ord : sorter) (n : nat) (HP : lsq_contract polyfit) (Hn : (4 <= n)%nat) (Ho : by_order c 0 ord).
Lemma g0 x : g c 0 x = c * x. Proof. unfold g. ring. Qed.
Lemma moved0 (data : list height) : moved c 0 data = map (option_map (Rmult c)) data.
Proof. unfold moved. apply map_ext. intros [x|]; [|reflexivity]. cbn. f_equal. apply g0. Qed.
Lemma curve_both (data : list height) :
  (exists a a', afc_init polyfit n data = Ok a /\ afc_init polyfit n (map (option_map (Rmult c)) data) = Ok a') \/
  (exists e, afc_init polyfit n data = Err e /\ afc_init polyfit n (map (option_map (Rmult c)) data) = Err e).
Proof.
  destruct (existsb is_nan data) eqn:M.
  - right. exists ValueError. unfold afc_init. rewrite M. replace (existsb is_nan (map (option_map (Rmult c)) data)) with true; [auto|].
    rewrite <- M. induction data as [|h l IH]; [reflexivity|]. cbn [map existsb]. destruct h; cbn [option_map is_nan orb]; [|reflexivity]. apply IH. exact M.
  - destruct data as [|h data].
    + right. eexists. split; reflexivity.
    + left. assert (Ni : ~ In None (h :: data)) by (intros X; assert (existsb is_nan (h :: data) = true) by (apply existsb_exists; exists None; auto); congruence).
      destruct (proj2 (C32_defined polyfit n (h :: data))) as [a E]; [repeat split; [lia|discriminate|exact Ni]|].
      destruct (proj2 (C32_defined polyfit n (map (option_map (Rmult c)) (h :: data)))) as [a' E']; [repeat split; [lia|discriminate|]|eauto].
      intros X. apply in_map_iff in X as ([x|] & X & Y); [discriminate|]. apply Ni, Y.
Qed.
Lemma curve_scale (data : list height) a a' : afc_init polyfit n data = Ok a -> afc_init polyfit n (map (option_map (Rmult c)) data) = Ok a' ->
  afc_k a' = c * afc_k a /\ pk ord a' = option_map (Rmult c) (pk ord a) /\ vk ord a' = option_map (Rmult c) (vk ord a) /\ (forall p q, sxp a' p q = c * sxp a p q) /\
  mr1 ord a' = mr1 ord a /\ mr2 ord a' = mr2 ord a /\ (forall p, Vm a' p = c * Vm a p) /\ (forall p, Vv a' p = c * Vv a p).
Proof.
  intros E E'. rewrite <- moved0 in E'. destruct (affine c 0 Hc polyfit n data a a' HP Hn E E') as (Hm & Ec & Y1 & Y2 & V1 & V2 & _).
  assert (M1 : mr1 ord a' = mr1 ord a) by (unfold mr1; rewrite Ec, Y1; apply mr_af; assumption). assert (M2 : mr2 ord a' = mr2 ord a) by (unfold mr2; rewrite Ec, Y2; apply mr_af; assumption).
  split; [unfold afc_k; rewrite Y1, Y2; unfold g; ring|].
  split; [unfold pk; rewrite M1, Ec, Y1, idx_af, above_af by exact Hc; rewrite <- rdiv_scale; f_equal; ring|].
  split; [unfold vk; rewrite M2, Ec, Y2, idx_af, below_af by exact Hc; rewrite <- rdiv_scale; f_equal; ring|].
  split; [intros p q; unfold sxp; rewrite !Hm; unfold g; ring|]. auto.
Qed.
End Curve.
End Scale.
(** C92 *)
Theorem C92_units : forall polyfit ord argsort spline label nbins, lsq_contract polyfit -> (4 <= nbins)%nat ->
  (** sorts compare, and the interpolation is linear in the samples *)
  (forall c, 0 < c -> by_order c 0 ord) -> (forall c l, 0 < c -> argsort (map (Rmult c) l) = argsort l) ->
  (forall k d y x, spline (map (map (Rmult k)) d) y x = k * spline d y x) ->
  forall c s name unit v, 0 < c -> In (name, unit) parameter_units -> value_of polyfit ord argsort spline label nbins name s = Some v ->
  exists p, unit_power unit = Some p /\ value_of polyfit ord argsort spline label nbins name (rescale c s) = Some (rmap (option_map (Rmult (c ^ p))) v).
Proof.
  intros polyfit ord argsort spline label nbins HP Hn Ho Ha Hs c s name unit v Hc Hin Hv.
  set (V := value_of polyfit ord argsort spline label nbins) in *.
  assert (Mm : has_missing (ms_data (rescale c s)) = has_missing (ms_data s)) by apply missing_sg.
  assert (Gm : matrix_of (ms_data (rescale c s)) = map (map (Rmult c)) (matrix_of (ms_data s))) by apply matrix_sg.
  assert (Cc : concat (ms_data (rescale c s)) = map (option_map (Rmult c)) (concat (ms_data s))) by (symmetry; apply concat_map).
  assert (Ry : nrows (ms_data (rescale c s)) = nrows (ms_data s)) by apply nrows_sg. assert (Rx : ncols (ms_data (rescale c s)) = ncols (ms_data s)) by apply ncols_sg.
  assert (Id : forall x : res (option R), rmap (option_map (Rmult 1)) x = x) by (intros [[x|]|]; cbn; rewrite ?Rmult_1_l; reflexivity).
  assert (HH : forall f q, (forall h h', Sa h' = c * Sa h -> Sq h' = c * Sq h -> Sz h' = c * Sz h -> Sku h' = Sku h -> Sp h' = c * Sp h -> Sv h' = c * Sv h -> Ssk h' = Ssk h -> f h' = option_map (Rmult q) (f h)) ->
    of_heights f (rescale c s) = rmap (option_map (Rmult q)) (of_heights f s)).
  { intros f q H. unfold of_heights, complete. rewrite Mm, Gm, <- concat_map. destruct (has_missing (ms_data s)); [reflexivity|].
    destruct (height_parameters (concat (matrix_of (ms_data s)))) as [h|e] eqn:E.
    - destruct (heights_scale c Hc _ h E) as (h' & E' & A1 & A2 & A3 & A4 & A5 & A6 & A7). rewrite E'. cbn [rmap]. f_equal. apply H; assumption.
    - destruct (concat (matrix_of (ms_data s))) as [|x l] eqn:L; [cbn in E |- *; congruence|].
      destruct (proj2 (C22_defined (x :: l)) ltac:(discriminate)) as [h E']. congruence. }
  assert (HC : forall f q, (forall a a', afc_k a' = c * afc_k a -> pk ord a' = option_map (Rmult c) (pk ord a) -> vk ord a' = option_map (Rmult c) (vk ord a) -> (forall p q, sxp a' p q = c * sxp a p q) ->
      mr1 ord a' = mr1 ord a -> mr2 ord a' = mr2 ord a -> (forall p, Vm a' p = c * Vm a p) -> (forall p, Vv a' p = c * Vv a p) -> f a' = option_map (Rmult q) (f a)) ->
    of_curve polyfit nbins f (rescale c s) = rmap (option_map (Rmult q)) (of_curve polyfit nbins f s)).
  { intros f q H. unfold of_curve. rewrite Cc. destruct (curve_both c polyfit nbins Hn (concat (ms_data s))) as [(a & a' & E & E')|(e & E & E')].
    - rewrite E. etransitivity; [apply f_equal; exact E'|]. cbn [rmap]. f_equal.
      destruct (curve_scale c Hc polyfit ord nbins HP Hn (Ho c Hc) _ a a' E E') as (B1 & B2 & B3 & B4 & B5 & B6 & B7 & B8). apply H; assumption.
    - rewrite E. etransitivity; [apply f_equal; exact E'|]. reflexivity. }
  assert (K1 : c ^ 1 = c) by ring.
  assert (Sd : acf_new (ms_data (rescale c s)) = rmap (map (map (Rmult (c ^ 2)))) (acf_new (ms_data s))) by apply acf_new_sg.
  assert (Dep : forall u, unit_power u = Some 1%nat -> V name (rescale c s) = Some (rmap (option_map (Rmult c)) v) -> exists p, unit_power u = Some p /\ V name (rescale c s) = Some (rmap (option_map (Rmult (c ^ p))) v)) by (intros u Hu H; exists 1%nat; rewrite K1; auto).
  assert (Ind : forall u, unit_power u = Some 0%nat -> V name (rescale c s) = Some v -> exists p, unit_power u = Some p /\ V name (rescale c s) = Some (rmap (option_map (Rmult (c ^ p))) v)) by (intros u Hu H; exists 0%nat; cbn [pow]; rewrite Id; auto).
  unfold parameter_units in Hin. cbn [In] in Hin.
  repeat (destruct Hin as [Hin|Hin]; [injection Hin as <- <-|]); try contradiction Hin.
  all: first [apply Dep; [reflexivity|] | apply Ind; [reflexivity|]].
  all: unfold V, value_of in Hv |- *; cbn [dget String.eqb Ascii.eqb Bool.eqb] in Hv |- *; try discriminate Hv.
  all: apply (f_equal (fun o => match o with Some x => x | None => v end)) in Hv; cbv beta iota in Hv; subst v; apply f_equal.
  all: try (apply HH; intros; cbn [option_map]; congruence).
  all: try (apply HC; intros; cbn [option_map]; unfold vmp, vmc, vvv, vvc; congruence).
  all: try (rewrite (HH _ 1); [apply Id|]; intros; match goal with |- _ = option_map _ ?x => destruct x end; cbn [option_map]; rewrite ?Rmult_1_l; congruence).
  - unfold complete. rewrite Mm, Gm, Ry, Rx. cbn [rescale ms_sx ms_sy]. rewrite Sdr_scale by exact Hc. reflexivity.
  - unfold complete. rewrite Mm, Gm, Ry, Rx. cbn [rescale ms_sx ms_sy]. rewrite Sdq_scale by exact Hc. reflexivity.
  - rewrite Sd. destruct (acf_new (ms_data s)) as [d|e]; [|reflexivity]. cbn [rmap rbind rescale ms_sx ms_sy]. rewrite Sal_scale by assumption. destruct Sal; reflexivity.
  - rewrite Sd. destruct (acf_new (ms_data s)) as [d|e]; [|reflexivity]. cbn [rmap rbind rescale ms_sx ms_sy]. rewrite Str_scale by assumption. reflexivity.
  - rewrite (HC _ 1); [apply Id|]. intros. cbn [option_map]. rewrite Rmult_1_l. congruence.
  - rewrite (HC _ 1); [apply Id|]. intros. cbn [option_map]. rewrite Rmult_1_l. congruence.
  - apply HC. intros a a' ? ? ? ? ? ? A B. cbn [option_map]. unfold vmc. rewrite !A. f_equal. ring.
  - apply HC. intros a a' ? ? ? ? ? ? A B. cbn [option_map]. unfold vvc. rewrite !B. f_equal. ring.
  - cbn [rescale ms_data ms_sx ms_sy]. apply period_scale; assumption.
Qed.

(** all the names of the table of units but three are covered *)
Theorem C92_units_covered : forall polyfit ord argsort spline label nbins s name unit, In (name, unit) parameter_units ->
  value_of polyfit ord argsort spline label nbins name s = None <-> In name ["Depth"; "Aspect ratio"; "Homogeneity"]%string.
Proof.
  intros polyfit ord argsort spline label nbins s name unit H. unfold parameter_units in H. cbn [In] in H.
  repeat (destruct H as [H|H]; [injection H as <- <-; unfold value_of; cbn [dget String.eqb Ascii.eqb Bool.eqb In]; split; [intros X; first [discriminate X|tauto]|intros X; first [reflexivity|repeat (destruct X as [X|X]; [discriminate X|]); contradiction X]]|]). contradiction H.
Qed.
(** the per cent sign stands behind exactly the values that are a hundredfold: the two material ratios, and Sdr, a hundred times the relative excess of the area *)
Theorem C92_percent : (forall name, In (name, "%"%string) parameter_units <-> In name ["Sdr"; "Smr1"; "Smr2"]%string) /\
  forall g ny nx sx sy v, Sdr g ny nx sx sy = Some v -> projected_area ny nx sx sy <> 0 /\ surface_area g sx sy = projected_area ny nx sx sy * (1 + v / 100).
Proof.
  split.
  - intros name. assert (E : List.filter (fun p => String.eqb (snd p) "%") parameter_units = [("Sdr", "%"); ("Smr1", "%"); ("Smr2", "%")]%string) by reflexivity. split; intros H.
    + assert (Hf : In (name, "%"%string) (List.filter (fun p => String.eqb (snd p) "%") parameter_units)) by (apply filter_In; split; [exact H|reflexivity]).
      rewrite E in Hf. apply (in_map fst) in Hf. exact Hf.
    + assert (Hf : In (name, "%"%string) (List.filter (fun p => String.eqb (snd p) "%") parameter_units)); [|apply filter_In in Hf; exact (proj1 Hf)].
      rewrite E. cbn [In] in H |- *. destruct H as [<-|[<-|[<-|[]]]]; auto.
  - intros g ny nx sx sy v. unfold Sdr, ndiv. destruct (Req_EM_T (projected_area ny nx sx sy) 0) as [|N]; [discriminate|]. cbn [option_map]. intros H. injection H as <-. split; [exact N|]. field. exact N.
Qed.
(** C69, the remaining parameters: the material ratios of the core and the reduced peak and dale heights do not depend on the height
    reference either, if the sort only compares *)
Theorem C69_ratios : forall polyfit ord n data a a' t, lsq_contract polyfit -> (4 <= n)%nat -> by_order 1 t ord ->
  afc_init polyfit n data = Ok a -> afc_init polyfit n (map (option_map (fun x => x + t)) data) = Ok a' ->
  mr1 ord a' = mr1 ord a /\ mr2 ord a' = mr2 ord a /\ pk ord a' = pk ord a /\ vk ord a' = vk ord a /\ ak1 ord a' = ak1 ord a /\ ak2 ord a' = ak2 ord a /\
  forall z, mr ord (a_curve a') (z + t) = mr ord (a_curve a) z.
Proof.
  intros polyfit ord n data a a' t HP Hn Ho E E'. assert (H1 : 0 < 1) by lra.
  assert (Em : map (option_map (fun x => x + t)) data = moved 1 t data) by (unfold moved; apply map_ext; intros [x|]; [|reflexivity]; cbn; f_equal; unfold g; ring). rewrite Em in E'.
  destruct (affine 1 t H1 polyfit n data a a' HP Hn E E') as (_ & Ec & Y1 & Y2 & _).
  assert (M1 : mr1 ord a' = mr1 ord a) by (unfold mr1; rewrite Ec, Y1; apply mr_af; assumption). assert (M2 : mr2 ord a' = mr2 ord a) by (unfold mr2; rewrite Ec, Y2; apply mr_af; assumption).
  assert (Pk : pk ord a' = pk ord a) by (unfold pk; rewrite M1, Ec, Y1, idx_af, above_af by exact H1; rewrite Rmult_1_l; reflexivity).
  assert (Vk : vk ord a' = vk ord a) by (unfold vk; rewrite M2, Ec, Y2, idx_af, below_af by exact H1; rewrite Rmult_1_l; reflexivity).
  split; [exact M1|]. split; [exact M2|]. split; [exact Pk|]. split; [exact Vk|]. split; [unfold ak1; rewrite Pk, M1; reflexivity|]. split; [unfold ak2; rewrite Vk, M2; reflexivity|].
  intros z. rewrite Ec. replace (z + t) with (g 1 t z) by (unfold g; ring). apply mr_af; assumption.
Qed.
(** the contracts can be met: insertion sorts and interpolation to the grid point below *)
Lemma sort_pts_by_order c t : 0 < c -> by_order c t sort_pts.
Proof.
  intros Hc l. assert (I : forall p l, insert_pt (fa c t p) (map (fa c t) l) = map (fa c t) (insert_pt p l)).
  { clear l. intros p l. induction l as [|q l IH]; [reflexivity|]. cbn [map insert_pt]. unfold fa at 1 2. cbn [fst].
    destruct (Rle_dec (g c t (fst p)) (g c t (fst q))) as [A|A], (Rle_dec (fst p) (fst q)) as [B|B]; try reflexivity.
    - exfalso. apply B. apply (g_le c t Hc), A.
    - exfalso. apply A. apply (g_le c t Hc), B.
    - cbn [map]. rewrite IH. reflexivity. }
  induction l as [|p l IH]; [reflexivity|]. cbn [map sort_pts]. rewrite IH. apply I.
Qed.
Lemma argsort0_scale c l : 0 < c -> argsort0 (map (Rmult c) l) = argsort0 l.
Proof.
  intros Hc. unfold argsort0. rewrite map_length. assert (I : forall k s, ins (map (Rmult c) l) k s = ins l k s).
  { intros k s. induction s as [|h s IH]; [reflexivity|]. cbn [ins]. rewrite IH.
    assert (N : forall i, nth i (map (Rmult c) l) 0 = c * nth i l 0) by (intros i; rewrite <- (map_nth (Rmult c)), Rmult_0_r; reflexivity). rewrite !N.
    destruct (Rle_dec (c * nth k l 0) (c * nth h l 0)) as [A|A], (Rle_dec (nth k l 0) (nth h l 0)) as [B|B]; try reflexivity; exfalso; [apply B; apply Rmult_le_reg_l with c; assumption|apply A; apply Rmult_le_compat_l; lra]. }
  induction (seq 0 (length l)) as [|k ks IH]; [reflexivity|]. cbn [fold_right]. rewrite IH. apply I.
Qed.
Example C92_contracts : exists polyfit, lsq_contract polyfit /\ (forall c, 0 < c -> by_order c 0 sort_pts) /\ sorter_ok sort_pts /\
  (forall c l, 0 < c -> argsort0 (map (Rmult c) l) = argsort0 l) /\
  (forall k d y x, let spline := fun d y x => at2 d (Z.to_nat (Int_part y)) (Z.to_nat (Int_part x)) in spline (map (map (Rmult k)) d) y x = k * spline d y x).
Proof.
  destruct C20_contract_satisfiable as (polyfit & H). exists polyfit. split; [exact H|]. split; [intros c Hc; apply sort_pts_by_order, Hc|]. split; [apply sort_pts_sorter|].
  split; [intros; apply argsort0_scale; assumption|]. intros k d y x. cbv zeta. apply at2_scale.
Qed.
