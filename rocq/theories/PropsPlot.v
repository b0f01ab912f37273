(** C87: plots show every measured point at its place. *)
From Coq Require Import String Reals List Bool Arith ZArith Lia Lra.
From Verif Require Import Base RList ModelMath ModelHeights ModelDetrend ModelGeom ModelAcf ModelFourier ModelPlot SpecPlot ProofMath ProofHeights ProofGeom PropsAcf ProofFourier PropsDecay.
Import ListNotations.
Local Open Scope R_scope.

(** m cells over a distance of m - 1 steps: each cell holds its point *)
Lemma cell_holds (l d : R) (m j : nat) : (j < m)%nat -> 0 <= d -> let w := (INR m - 1) * d in
  l + w * INR j / INR m <= l + INR j * d <= l + w * (INR j + 1) / INR m.
Proof.
  intros Hj Hd w. assert (Hm : 0 < INR m) by (apply lt_0_INR; lia). pose proof (pos_INR j) as Pj. assert (Hj' : INR j + 1 <= INR m) by (rewrite <- S_INR; apply le_INR; lia).
  assert (E : forall u, l + w * u / INR m = l + (w * u) * / INR m) by reflexivity. split.
  - replace (l + w * INR j / INR m) with (l + INR j * d - INR j * d / INR m) by (unfold w; field; lra). assert (0 <= INR j * d / INR m); [|lra]. apply Rmult_le_pos; [apply Rmult_le_pos; assumption|left; apply Rinv_0_lt_compat; exact Hm].
  - replace (l + w * (INR j + 1) / INR m) with (l + INR j * d + (INR m - (INR j + 1)) * d / INR m) by (unfold w; field; lra). assert (0 <= (INR m - (INR j + 1)) * d / INR m); [|lra]. apply Rmult_le_pos; [apply Rmult_le_pos; lra|left; apply Rinv_0_lt_compat; exact Hm].
Qed.
Lemma cell_width (l d x : R) (m j : nat) : (j < m)%nat -> 0 <= d -> let w := (INR m - 1) * d in
  l + w * INR j / INR m <= x <= l + w * (INR j + 1) / INR m -> Rabs (x - (l + INR j * d)) <= d.
Proof.
  intros Hj Hd w H. pose proof (cell_holds l d m j Hj Hd) as C. cbv zeta in C. fold w in C. assert (Hm : 0 < INR m) by (apply lt_0_INR; lia).
  assert (Wd : l + w * (INR j + 1) / INR m - (l + w * INR j / INR m) <= d).
  { replace (l + w * (INR j + 1) / INR m - (l + w * INR j / INR m)) with (d - d / INR m) by (unfold w; field; lra). assert (0 <= d / INR m) by (apply Rmult_le_pos; [exact Hd|left; apply Rinv_0_lt_compat; exact Hm]). lra. }
  unfold Rabs. destruct (Rcase_abs _); lra.
Qed.
Lemma between_scale u v x : between u v x <-> between v u x. Proof. unfold between. tauto. Qed.
Lemma steps_nonneg (m j : nat) d : (j < m)%nat -> 0 <= d -> 0 <= (INR m - 1) * d / INR m.
Proof.
  intros Hj Hd. apply Rmult_le_pos; [apply Rmult_le_pos; [|exact Hd]|left; apply Rinv_0_lt_compat, lt_0_INR; lia].
  assert (1 <= INR m) by (apply (le_INR 1); lia). lra.
Qed.
(** rows counted from the top *)
Lemma row_holds (d : R) (n i : nat) : (i < n)%nat -> 0 <= d -> let h := (INR n - 1) * d in between (h + (0 - h) * INR i / INR n) (h + (0 - h) * (INR i + 1) / INR n) ((INR n - 1 - INR i) * d).
Proof.
  intros Hi Hd h. destruct (cell_holds 0 d n i Hi Hd) as [C1 C2]. fold h in C1, C2. right.
  replace (h + (0 - h) * (INR i + 1) / INR n) with (h - (0 + h * (INR i + 1) / INR n)) by (unfold Rdiv; ring). replace (h + (0 - h) * INR i / INR n) with (h - (0 + h * INR i / INR n)) by (unfold Rdiv; ring).
  replace ((INR n - 1 - INR i) * d) with (h - (0 + INR i * d)) by (unfold h; ring). lra.
Qed.
Lemma row_width (d y : R) (n i : nat) : (i < n)%nat -> 0 <= d -> let h := (INR n - 1) * d in between (h + (0 - h) * INR i / INR n) (h + (0 - h) * (INR i + 1) / INR n) y -> Rabs (y - (INR n - 1 - INR i) * d) <= d.
Proof.
  intros Hi Hd h H. assert (Hn : 0 < INR n) by (apply lt_0_INR; lia). pose proof (steps_nonneg n i d Hi Hd) as P. fold h in P.
  pose proof (cell_width 0 d (h - y) n i Hi Hd) as C. cbv zeta in C. fold h in C.
  replace (y - (INR n - 1 - INR i) * d) with (- (h - y - (0 + INR i * d))) by (unfold h; ring). rewrite Rabs_Ropp. apply C.
  replace (h + (0 - h) * (INR i + 1) / INR n) with (h - (0 + h * INR i / INR n) - h / INR n) in H by (field; lra). replace (h + (0 - h) * INR i / INR n) with (h - (0 + h * INR i / INR n)) in H by (unfold Rdiv; ring).
  replace (0 + h * (INR i + 1) / INR n) with (0 + h * INR i / INR n + h / INR n) by (field; lra). destruct H as [H|H]; lra.
Qed.

Section Plot2d.
Context {P : Type}.
Variable ndim : P -> nat.

(** The height map: the heights themselves, each measured point inside its own cell, a colour bar unless it is switched off, a legend
    exactly when points are missing. *)
Theorem C87_plot_2d (s : surf) (layers : list (string * P)) (cbar : option bool) : 0 < s_sx s -> 0 < s_sy s ->
  exists f, plot_2d ndim s layers "Topography" cbar = Ok f /\ f_content f = Topography (s_data s) /\
    (forall i j, (i < nrows (s_data s))%nat -> (j < ncols (s_data s))%nat -> in_cell (f_extent f) (nrows (s_data s)) (ncols (s_data s)) i j (x_of s j) (y_of s i)) /\
    (f_colorbar f = false <-> cbar = Some false) /\ (f_legend f = true <-> exists r, In r (s_data s) /\ In None r).
Proof.
  intros Hx Hy. eexists. split; [reflexivity|]. cbn [f_content f_extent f_colorbar f_legend]. split; [reflexivity|]. split; [|split].
  - intros i j Hi Hj. split; cbn [e_left e_right e_top e_bottom].
    + left. unfold x_of, extent. replace ((INR (ncols (s_data s)) - 1) * s_sx s - 0) with ((INR (ncols (s_data s)) - 1) * s_sx s) by ring.
      pose proof (cell_holds 0 (s_sx s) _ j Hj ltac:(lra)) as C. cbv zeta in C. lra.
    + unfold y_of, extent. apply row_holds; [exact Hi|lra].
  - destruct cbar as [[|]|]; split; intros H; congruence || reflexivity || discriminate H.
  - unfold has_missing, flat. rewrite existsb_exists. split.
    + intros (h & Hh & Hn). apply in_concat in Hh. destruct Hh as (r & Hr & Hh). destruct h; [discriminate Hn|]. exists r. split; assumption.
    + intros (r & Hr & Hn). exists None. split; [apply in_concat; exists r; split; assumption|reflexivity].
Qed.
(** Conversely the cell under a point of the plot belongs to a point measured at most one pixel away. *)
Theorem C87_plot_2d_near (s : surf) (layers : list (string * P)) (cbar : option bool) (f : figure P) (i j : nat) (x y : R) : 0 < s_sx s -> 0 < s_sy s ->
  plot_2d ndim s layers "Topography" cbar = Ok f -> (i < nrows (s_data s))%nat -> (j < ncols (s_data s))%nat ->
  in_cell (f_extent f) (nrows (s_data s)) (ncols (s_data s)) i j x y -> Rabs (x - x_of s j) <= s_sx s /\ Rabs (y - y_of s i) <= s_sy s.
Proof.
  intros Hx Hy H Hi Hj C. unfold plot_2d in H. cbn [String.eqb] in H. change (String.eqb "Topography" "Topography") with true in H. cbv iota in H. injection H as <-. cbn [f_extent] in C. destruct C as [C1 C2]. cbn [e_left e_right e_top e_bottom] in *. split.
  - unfold x_of. pose proof (cell_width 0 (s_sx s) x (ncols (s_data s)) j Hj ltac:(lra)) as W. cbv zeta in W. pose proof (steps_nonneg (ncols (s_data s)) j (s_sx s) Hj ltac:(lra)) as Q. unfold extent in C1.
    assert (0 < INR (ncols (s_data s))) by (apply lt_0_INR; lia). set (w := (INR (ncols (s_data s)) - 1) * s_sx s) in *.
    replace (x - INR j * s_sx s) with (x - (0 + INR j * s_sx s)) by ring. apply W. rewrite Rminus_0_r in C1.
    assert (E : 0 + w * (INR j + 1) / INR (ncols (s_data s)) = 0 + w * INR j / INR (ncols (s_data s)) + w / INR (ncols (s_data s))) by (field; lra). destruct C1 as [C1|C1]; lra.
  - unfold y_of. apply row_width; [exact Hi|lra|exact C2].
Qed.
(** Image layers are drawn over the same rectangle; three-dimensional arrays without a colour map; no colour bar by default. *)
Theorem C87_layers (s : surf) (layers : list (string * P)) (name : string) (cbar : option bool) : name <> "Topography"%string ->
  match layer_of name layers with
  | None => plot_2d ndim s layers name cbar = Err ValueError
  | Some p => exists f g, plot_2d ndim s layers name cbar = Ok f /\ plot_2d ndim s layers "Topography" cbar = Ok g /\ f_content f = Picture p /\ f_extent f = f_extent g /\
                (ndim p = 3%nat -> f_colormap f = NoMap) /\ (ndim p = 2%nat -> f_colormap f = Gray) /\ f_legend f = false /\ (f_colorbar f = true <-> cbar = Some true)
  end.
Proof.
  intros Hn. destruct (layer_of name layers) as [p|] eqn:E.
  - do 2 eexists. unfold plot_2d at 1. rewrite (proj2 (String.eqb_neq _ _) Hn), E. split; [reflexivity|]. split; [reflexivity|]. cbn. split; [reflexivity|]. split; [reflexivity|].
    split; [intros ->; reflexivity|]. split; [intros ->; reflexivity|]. split; [reflexivity|]. destruct cbar as [[|]|]; split; intros H; congruence || reflexivity || discriminate H.
  - unfold plot_2d. rewrite (proj2 (String.eqb_neq _ _) Hn), E. reflexivity.
Qed.
(** FALSE for a layer that is itself called "Topography" (a FITS extension TOPOGRAPHY is stored under that name): the heights are drawn instead. *)
Theorem C87_layers_refuted (s : surf) (layers : list (string * P)) (p : P) (cbar : option bool) : layer_of "Topography" layers = Some p ->
  exists f, plot_2d ndim s layers "Topography" cbar = Ok f /\ f_content f <> Picture p.
Proof. intros _. eexists. split; [reflexivity|]. discriminate. Qed.
End Plot2d.

(** Profiles: point i is drawn at i step, unless the caller gave a length of his own. *)
Theorem C87_profile (p : prof) (i : nat) (z : height) : nth_error (p_data p) i = Some z -> nth_error (fst (plot_profile p None)) i = Some (INR i * p_step p, z).
Proof.
  intros H. assert (Hi : (i < length (p_data p))%nat) by (apply nth_error_Some; congruence). unfold plot_profile, prof_length. cbn [fst]. set (n := length (p_data p)) in *.
  assert (L : length (linspace 0 (extent n (p_step p)) n) = n) by (unfold linspace; rewrite map_length, seq_length; reflexivity).
  rewrite (nth_error_nth' _ (0, z)) by (rewrite combine_length, L; fold n; lia). f_equal. rewrite combine_nth by (rewrite L; reflexivity). f_equal; [|apply nth_error_nth; exact H].
  destruct (Nat.eq_dec n 1) as [E|E]; [assert (i = 0%nat) as -> by lia; rewrite E; cbn; ring|]. rewrite nth_lin by lia. unfold extent. assert (2 <= INR n) by (apply (le_INR 2); lia). field. lra.
Qed.
Theorem C87_profile_length (p : prof) : length (fst (plot_profile p None)) = length (p_data p) /\ snd (plot_profile p None) = (0, (INR (length (p_data p)) - 1) * p_step p).
Proof. split; [|reflexivity]. unfold plot_profile. cbn [fst]. rewrite combine_length. unfold linspace. rewrite map_length, seq_length. lia. Qed.

(** Autocorrelation: the value of lag (a, b) pixels is drawn at (b step_x, - a step_y). *)
Lemma acf_size (g : grid) (d : matrix) : rect g -> (0 < nrows g)%nat -> (0 < ncols g)%nat -> acf_new g = Ok d -> mrows d = (2 * nrows g - 1)%nat /\ mcols d = (2 * ncols g - 1)%nat.
Proof.
  intros Hr N1 M1 E. assert (Hm : has_missing g = false) by (unfold acf_new in E; destruct (has_missing g); [discriminate E|reflexivity]).
  rewrite (C41_all_grids g Hr Hm) in E. destruct (C41_shape _ _ _ N1 M1 d E) as [L1 L2]. split; [exact L1|]. unfold mcols. destruct d as [|r d]; [cbn in L1; lia|]. apply L2. left. reflexivity.
Qed.
Lemma half_odd n : (0 < n)%nat -> ((2 * n - 1) / 2 = n - 1)%nat.
Proof. intros H. replace (2 * n - 1)%nat with (1 + (n - 1) * 2)%nat by lia. rewrite Nat.div_add by lia. reflexivity. Qed.
Theorem C87_autocorrelation (g : grid) (sx sy : R) (d : matrix) (e : extents) (i j : nat) : rect g -> 0 < sx -> 0 < sy -> (0 < nrows g)%nat -> (0 < ncols g)%nat ->
  plot_autocorrelation g sx sy = Ok (d, e) -> (i < 2 * nrows g - 1)%nat -> (j < 2 * ncols g - 1)%nat ->
  acf_new g = Ok d /\ in_cell e (2 * nrows g - 1) (2 * ncols g - 1) i j ((INR j - (INR (ncols g) - 1)) * sx) ((INR (nrows g) - 1 - INR i) * sy).
Proof.
  intros Hr Hx Hy N1 M1 H Hi Hj. unfold plot_autocorrelation in H. destruct (acf_new g) as [d'|] eqn:E; [|discriminate H]. cbn [rbind] in H. apply (f_equal (fun r => match r with Ok v => v | Err _ => (d, e) end)) in H. cbv iota in H. injection H as <- <-.
  split; [reflexivity|]. destruct (acf_size g d' Hr N1 M1 E) as [R1 R2]. rewrite R1, R2. change (fst (Nat.divmod (2 * ncols g - 1) 1 0 1)) with ((2 * ncols g - 1) / 2)%nat. change (fst (Nat.divmod (2 * nrows g - 1) 1 0 1)) with ((2 * nrows g - 1) / 2)%nat. rewrite !half_odd by assumption. rewrite !minus_INR by lia. cbn [INR]. unfold in_cell. cbn [e_left e_right e_top e_bottom].
  assert (D : forall n, (0 < n)%nat -> INR (2 * n - 1) = 2 * INR n - 1) by (intros n Hn; rewrite minus_INR, mult_INR by lia; cbn [INR]; lra).
  split.
  - left. pose proof (cell_holds (- ((INR (ncols g) - 1) * sx)) sx (2 * ncols g - 1) j Hj ltac:(lra)) as C. cbv zeta in C. rewrite D in * by assumption.
    replace ((INR (ncols g) - 1) * sx - - ((INR (ncols g) - 1) * sx)) with ((2 * INR (ncols g) - 1 - 1) * sx) by ring.
    replace ((INR j - (INR (ncols g) - 1)) * sx) with (- ((INR (ncols g) - 1) * sx) + INR j * sx) by ring. exact C.
  - pose proof (row_holds sy (2 * nrows g - 1) i Hi ltac:(lra)) as C. cbv zeta in C. rewrite D in * by assumption.
    set (t := (INR (nrows g) - 1) * sy) in *. replace ((2 * INR (nrows g) - 1 - 1) * sy) with (2 * t) in C by (unfold t; ring).
    replace ((2 * INR (nrows g) - 1 - 1 - INR i) * sy) with (2 * t - INR i * sy) in C by (unfold t; ring). replace ((INR (nrows g) - 1 - INR i) * sy) with (t - INR i * sy) by (unfold t; ring).
    unfold between in *. replace (- t - t) with (0 - 2 * t) by ring. lra.
Qed.

(** *** Three-dimensional plots: every vertex of the mesh is at the measured position *)
Theorem C87_mesh (s : surf) (i j : nat) : (i < nrows (s_data s))%nat -> (j < ncols (s_data s))%nat -> mesh s i j = (x_of s j, y_of s i, cell (s_data s) i j).
Proof.
  intros Hi Hj. unfold mesh, x_of, y_of. f_equal. f_equal.
  - destruct (Nat.eq_dec (ncols (s_data s)) 1) as [E|E]; [assert (j = 0%nat) as -> by lia; rewrite E; cbn; ring|]. rewrite nth_lin by lia. unfold extent. assert (2 <= INR (ncols (s_data s))) by (apply (le_INR 2); lia). field. lra.
  - set (n := nrows (s_data s)) in *. set (l := linspace 0 (extent n (s_sy s)) n). assert (L : length l = n) by (unfold l, linspace; rewrite map_length, seq_length; reflexivity).
    rewrite rev_nth by lia. rewrite L. unfold l. destruct (Nat.eq_dec n 1) as [E|E]; [assert (i = 0%nat) as -> by lia; rewrite E; cbn; ring|].
    rewrite nth_lin by lia. unfold extent. assert (2 <= INR n) by (apply (le_INR 2); lia). rewrite minus_INR by lia. rewrite S_INR. field. lra.
Qed.
(** The point the camera looks at is the middle of the mesh, at height zero; angles are in degrees. *)
Theorem C87_target (s : surf) : (0 < nrows (s_data s))%nat -> (0 < ncols (s_data s))%nat ->
  target s = ((x_of s 0 + x_of s (ncols (s_data s) - 1)) / 2, (y_of s 0 + y_of s (nrows (s_data s) - 1)) / 2, 0) /\
  deg2rad 180 = PI /\ forall u v, deg2rad (u + v) = deg2rad u + deg2rad v.
Proof.
  intros Hr Hc. unfold target, x_of, y_of, extent. rewrite !minus_INR by lia. cbn [INR]. split; [|split; [unfold deg2rad; field | intros; unfold deg2rad; field]].
  f_equal. f_equal; field.
Qed.
(** The camera looks at the centre of the surface from a distance of twice its width over the zoom, the given angle above it. *)
Definition dist3 (p q : R * R * R) : R := sqrt ((fst (fst p) - fst (fst q)) ^ 2 + (snd (fst p) - snd (fst q)) ^ 2 + (snd p - snd q) ^ 2).
Theorem C87_camera (s : surf) (v h zoom : R) : 0 <= s_sx s -> (0 < ncols (s_data s))%nat -> 0 < zoom ->
  dist3 (camera s v h zoom) (target s) = 2 * extent (ncols (s_data s)) (s_sx s) / zoom /\
  snd (camera s v h zoom) = sin (deg2rad v) * dist3 (camera s v h zoom) (target s) /\
  (* the line of sight, seen from above, is the direction (sin h, cos h): for h = 0 along y, for h = 90 along x *)
  fst (fst (target s)) - fst (fst (camera s v h zoom)) = cos (deg2rad v) * sin (deg2rad h) * dist3 (camera s v h zoom) (target s) /\
  snd (fst (target s)) - snd (fst (camera s v h zoom)) = cos (deg2rad v) * cos (deg2rad h) * dist3 (camera s v h zoom) (target s).
Proof.
  intros Hx Hn Hz. assert (W : 0 <= extent (ncols (s_data s)) (s_sx s)) by (unfold extent; assert (1 <= INR (ncols (s_data s))) by (apply (le_INR 1); lia); apply Rmult_le_pos; lra).
  set (w := extent (ncols (s_data s)) (s_sx s)) in *. assert (D : dist3 (camera s v h zoom) (target s) = 2 * w / zoom).
  { unfold dist3, camera, target. fold w. cbn [fst snd]. set (D := w * 2 / zoom). assert (D0 : 0 <= D) by (unfold D; apply Rmult_le_pos; [lra|left; apply Rinv_0_lt_compat; exact Hz]).
    match goal with |- sqrt ?e = _ => replace e with (D * D) end; [rewrite sqrt_square by exact D0; unfold D; field; lra|].
    pose proof (sin2_cos2 (deg2rad v)) as V. pose proof (sin2_cos2 (deg2rad h)) as Hh. unfold Rsqr in *. set (a := sin (deg2rad v)) in *. set (b := cos (deg2rad v)) in *. set (c := sin (deg2rad h)) in *. set (k := cos (deg2rad h)) in *.
    match goal with |- _ = ?e => transitivity (D * D * (a * a + b * b * (c * c + k * k))) end; [rewrite Hh, Rmult_1_r, V; ring|ring]. }
  split; [exact D|]. rewrite D. unfold camera, target. fold w. cbn [fst snd]. split; [field; lra|]. split; field; lra.
Qed.

(** *** C89: a reduced level of detail *)
(** ndimage.zoom answers an array of the size asked for *)
Definition resizes (zoomed : grid -> nat -> nat -> grid) : Prop := forall g n m, nrows (zoomed g n m) = n /\ ((0 < n)%nat -> ncols (zoomed g n m) = m).
Theorem C89_full (zoomed : grid -> nat -> nat -> grid) (level : R) (s : surf) : 100 <= level -> detail zoomed level s = s.
Proof. intros H. unfold detail. destruct (Rlt_dec level 100); [lra|reflexivity]. Qed.
Lemma zoomed_INR n f : 0 <= f -> INR (zoomed_length n f) = IZR (pyround (INR n * f)).
Proof.
  intros H. unfold zoomed_length. rewrite INR_IZR_INZ, Z2Nat.id; [reflexivity|]. pose proof (pyround_close (INR n * f)) as C. assert (0 <= INR n * f) by (apply Rmult_le_pos; [apply pos_INR|exact H]).
  destruct (Z_le_gt_dec 0 (pyround (INR n * f))) as [L|L]; [exact L|]. exfalso. assert (IZR (pyround (INR n * f)) <= -1) by (apply (IZR_le _ (-1)); lia). unfold Rabs in C. destruct (Rcase_abs _) in C; lra.
Qed.
(** Expected: the plot covers the measured area.  The extents shown differ by at most (3/2 - f) / f pixels, f the level over 100 ... *)
Theorem C89_extent_partial (zoomed : grid -> nat -> nat -> grid) (level : R) (s : surf) : resizes zoomed -> 0 < level < 100 -> 0 < s_sx s -> 0 < s_sy s ->
  (0 < zoomed_length (nrows (s_data s)) (level / 100))%nat ->
  let t := detail zoomed level s in let f := level / 100 in
  Rabs (extent (ncols (s_data t)) (s_sx t) - extent (ncols (s_data s)) (s_sx s)) <= (3 / 2 - f) / f * s_sx s /\
  Rabs (extent (nrows (s_data t)) (s_sy t) - extent (nrows (s_data s)) (s_sy s)) <= (3 / 2 - f) / f * s_sy s.
Proof.
  intros Hz Hl Hx Hy Hp t f. assert (Hf : 0 < f < 1) by (unfold f; lra).
  assert (G : forall n d, 0 < d -> Rabs (extent (zoomed_length n f) (d / f) - extent n d) <= (3 / 2 - f) / f * d).
  { intros n d Hd. unfold extent. rewrite zoomed_INR by lra. pose proof (pyround_close (INR n * f)) as C. set (r := IZR (pyround (INR n * f))) in *.
    replace ((r - 1) * (d / f) - (INR n - 1) * d) with ((d / f) * ((r - INR n * f) - (1 - f))) by (field; lra). replace ((3 / 2 - f) / f * d) with ((d / f) * (3 / 2 - f)) by (field; lra).
    assert (0 < d / f) by (apply Rdiv_lt_0_compat; lra). rewrite Rabs_mult, (Rabs_pos_eq (d / f)) by lra. apply Rmult_le_compat_l; [lra|]. unfold Rabs in *. destruct (Rcase_abs (r - INR n * f)), (Rcase_abs (r - INR n * f - (1 - f))); lra. }
  unfold t, detail. destruct (Rlt_dec level 100); [|lra]. cbn [s_data s_sx s_sy]. destruct (Hz (s_data s) (zoomed_length (nrows (s_data s)) (level / 100)) (zoomed_length (ncols (s_data s)) (level / 100))) as [Z1 Z2]. rewrite Z1, (Z2 Hp).
  fold f. split; apply G; assumption.
Qed.
(** ... and it is FALSE that they stay the same: whenever the reduced number of columns is exact, the plot is too narrow by 1/f - 1 pixels. *)
Theorem C89_extent_refuted (zoomed : grid -> nat -> nat -> grid) (level : R) (s : surf) (k : nat) : resizes zoomed -> 0 < level < 100 -> 0 < s_sx s ->
  (0 < zoomed_length (nrows (s_data s)) (level / 100))%nat -> INR (ncols (s_data s)) * (level / 100) = INR k ->
  let t := detail zoomed level s in extent (ncols (s_data t)) (s_sx t) = extent (ncols (s_data s)) (s_sx s) - (100 / level - 1) * s_sx s /\ extent (ncols (s_data t)) (s_sx t) < extent (ncols (s_data s)) (s_sx s).
Proof.
  intros Hz Hl Hx Hp Hk t. unfold t, detail. destruct (Rlt_dec level 100); [|lra]. cbn [s_data s_sx]. destruct (Hz (s_data s) (zoomed_length (nrows (s_data s)) (level / 100)) (zoomed_length (ncols (s_data s)) (level / 100))) as [Z1 Z2]. rewrite (Z2 Hp).
  assert (Q : extent (zoomed_length (ncols (s_data s)) (level / 100)) (s_sx s / (level / 100)) = extent (ncols (s_data s)) (s_sx s) - (100 / level - 1) * s_sx s).
  { unfold extent. rewrite zoomed_INR by lra. rewrite Hk, (INR_IZR_INZ k), pyround_IZR, <- INR_IZR_INZ, <- Hk. field. lra. }
  split; [exact Q|]. rewrite Q. assert (1 < 100 / level) by (apply (Rmult_lt_reg_r level); [lra|]; unfold Rdiv; rewrite Rmult_assoc, Rinv_l by lra; lra).
  assert (0 < (100 / level - 1) * s_sx s) by (apply Rmult_lt_0_compat; lra). lra.
Qed.
