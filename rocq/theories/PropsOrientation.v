(** C105: the orientation of a texture by following its extrema from line to line (surface.py:1376-1455). *)
From Coq Require Import String.
From Coq Require Import Reals List Bool Arith ZArith Lia Lra Permutation.
From Verif Require Import Base RList ModelMath ModelHeights ModelGeom ModelAcf ModelFourier ModelDepth ProofMath ProofHeights ProofGeom PropsMath ProofFourier PropsAcf PropsFourier ProofDepth PropsAngular.
Import ListNotations.
Local Open Scope R_scope.

(** *** Specification *)
(** A sinusoidal texture in pixels: its crests move by t pixels along the line from one line to the next. *)
Definition texture (a p x0 y0 t line x : R) : R := a * sin (2 * PI * (x - x0 - t * line) / p) + y0.
(** curve_fit, started with this period, finds a sinusoid that is the function F *)
Definition finds (curve_fit : list R -> R * R * R * R -> option (R * R * R * R)) (line : list R) (per : R) (F : R -> R) : Prop :=
  exists a p x0 y0, curve_fit line (guess line per) = Some (a, p, x0, y0) /\ 0 < p /\ forall x, a * sin (2 * PI * (x - x0) / p) + y0 = F x.
(** the lines sampled are k apart and there are n of them *)
Definition sampled (per_px : R) (lines : nat) (k : nat) (n : nat) : Prop :=
  (0 < k)%nat /\ 10 * INR k <= per_px < 10 * (INR k + 1) /\ (n * k <= lines < (n + 1) * k)%nat.
Definition degrees (x : R) : R := x * (180 / PI).

Lemma sampled_dist q L k n : sampled q L k n -> pytrunc (IZR (pytrunc q) * (1 / 10)) = Z.of_nat k /\ Z.to_nat (Z.of_nat L / Z.of_nat k) = n.
Proof.
  intros (Hk & Hq & Hn). assert (K0 : 1 <= INR k) by (apply (le_INR 1); lia). destruct (pytrunc_bounds q ltac:(lra)) as [B1 B2]. split.
  - apply pytrunc_unique; [apply Rmult_le_pos; [apply IZR_le; exact B2|lra]|]. rewrite <- INR_IZR_INZ.
    assert (A : (10 * Z.of_nat k < pytrunc q + 1)%Z) by (apply lt_IZR; rewrite mult_IZR, plus_IZR, <- INR_IZR_INZ; lra).
    assert (A' : (pytrunc q < 10 * (Z.of_nat k + 1))%Z) by (apply lt_IZR; rewrite mult_IZR, plus_IZR, <- INR_IZR_INZ; lra).
    assert (C : 10 * INR k <= IZR (pytrunc q)) by (rewrite INR_IZR_INZ, <- mult_IZR; apply IZR_le; lia).
    assert (C' : IZR (pytrunc q) <= 10 * INR k + 9) by (rewrite INR_IZR_INZ, <- mult_IZR, <- plus_IZR; apply IZR_le; lia). lra.
  - rewrite <- Nat2Z.inj_div, Nat2Z.id. symmetry. apply (Nat.div_unique L k n (L - n * k)); lia.
Qed.
Lemma nth_pos_first a p x0 y0 t k i : 0 < p -> first_extremum (mkSin a p (x0 + t * (INR i * INR k)) y0) = pos (p / 2) (t * INR k) (x0 + p / 4) i.
Proof.
  intros Hp. unfold first_extremum, pos, K. cbn [s_x0 s_p]. unfold floordiv.
  replace (x0 + t * (INR i * INR k) + p / 4) with (x0 + p / 4 + INR i * (t * INR k)) by ring. field.
Qed.
Lemma finds_extremum cf line per a p x0 y0 t r : 0 < a -> 0 < p -> finds cf line per (texture a p x0 y0 t r) ->
  exists s, from_fit cf line (guess line per) = Ok s /\ 0 < s_p s /\ first_extremum s = first_extremum (mkSin a p (x0 + t * r) y0).
Proof.
  intros Ha Hp (a' & p' & x' & y' & E & Hp' & F). exists (from_popt a' p' x' y'). unfold from_fit. rewrite E. split; [reflexivity|].
  assert (Sp : s_p (from_popt a' p' x' y') = p') by (unfold from_popt; destruct (Rlt_dec a' 0); reflexivity). rewrite Sp. split; [exact Hp'|].
  assert (Fx : forall x, sin_at (from_popt a' p' x' y') x = sin_at (mkSin a p (x0 + t * r) y0) x).
  { intros x. rewrite from_popt_same by lra. unfold sin_at, sinusoid. cbn [s_a s_p s_x0 s_y0]. specialize (F x). unfold texture in F.
    replace ((x - x') / p' * 2 * PI) with (2 * PI * (x - x') / p') by (field; lra). rewrite F. do 2 f_equal. f_equal. field. lra. }
  assert (Ap : 0 < s_a (from_popt a' p' x' y')).
  { pose proof (from_popt_amp a' p' x' y') as [A|A]; [exact A|]. exfalso.
    assert (V : forall x, sin_at (mkSin a p (x0 + t * r) y0) x = s_y0 (from_popt a' p' x' y')) by (intros x; rewrite <- Fx; unfold sin_at, sinusoid; rewrite <- A; ring).
    pose proof (V (x0 + t * r)) as V0. pose proof (V (x0 + t * r + p / 4)) as V1. unfold sin_at, sinusoid in V0, V1. cbn [s_a s_p s_x0 s_y0] in V0, V1.
    replace ((x0 + t * r - (x0 + t * r)) / p * 2 * PI) with 0 in V0 by (field; lra). replace ((x0 + t * r + p / 4 - (x0 + t * r)) / p * 2 * PI) with (PI / 2) in V1 by (field; lra).
    rewrite sin_0 in V0. rewrite sin_PI2 in V1. lra. }
  apply same_extremum; cbn [s_a s_p]; try assumption. rewrite Sp. exact Hp'.
Qed.

Section Follow.
Variable cf : list R -> R * R * R * R -> option (R * R * R * R).
Variable argsort : list R -> list nat.
Variables (g : grid) (sx sy : R) (a p x0 y0 t : R) (k n : nat).
Hypotheses (Hc : has_missing g = false) (Ha : 0 < a) (Hp : 0 < p) (Hk : (0 < k)%nat).
Hypotheses (Hslow : Rabs t * INR k <= p / 10) (Hn : (5 <= n)%nat).
Variable get : nat -> res (list R).
Variable per : R.
Hypothesis Hget : forall i, (i < n)%nat -> exists line, get (i * k)%nat = Ok line /\ finds cf line per (texture a p x0 y0 t (INR i * INR k)).
Definition positions : list R := map (pos (p / 2) (t * INR k) (x0 + p / 4)) (seq 0 n).
Lemma follow_loop : loop (fun i => rbind (get (i * k)%nat) (fun line => rbind (from_fit cf line (guess line per)) (fun s =>
    Ok (if Req_EM_T (s_p s) 0 then None else Some (first_extremum s))))) (seq 0 n) = Ok (map Some positions).
Proof using Ha Hp Hget.
  clear Hn Hk Hslow Hc.
  unfold positions. rewrite map_map. apply loop_ok. intros i Hi. apply in_seq in Hi. destruct (Hget i ltac:(lia)) as (line & E & F). rewrite E. cbn [rbind].
  destruct (finds_extremum _ _ _ _ _ _ _ _ _ Ha Hp F) as (s & Es & Ps & Fs). rewrite Es. cbn [rbind]. destruct (Req_EM_T (s_p s) 0) as [C|_]; [lra|].
  rewrite Fs, nth_pos_first by exact Hp. reflexivity.
Qed.
Lemma slow_D : Rabs (t * INR k) < p / 2.
Proof using Hp Hslow. rewrite Rabs_mult, (Rabs_pos_eq (INR k)) by apply pos_INR. lra. Qed.
Lemma slow_n : 2 * (INR (n - 1) * Rabs (t * INR k) / (p / 2) + 1) <= INR (n - 1).
Proof using Hp Hslow Hn.
  clear Hget Hc Ha Hk.
  rewrite Rabs_mult, (Rabs_pos_eq (INR k)) by apply pos_INR. assert (N4 : 4 <= INR (n - 1)) by (change 4 with (IZR (Z.of_nat 4)); rewrite <- INR_IZR_INZ; apply le_INR; lia).
  assert (Q : INR (n - 1) * (Rabs t * INR k) / (p / 2) <= INR (n - 1) * (2 / 10)).
  { apply Rmult_le_reg_r with (p / 2); [lra|]. replace (INR (n - 1) * (Rabs t * INR k) / (p / 2) * (p / 2)) with (INR (n - 1) * (Rabs t * INR k)) by (field; lra).
    rewrite Rmult_assoc. apply Rmult_le_compat_l; lra. }
  lra.
Qed.
Lemma follow_drift : (drift (npdiff positions) = None \/ drift (npdiff positions) = Some (t * INR k)) /\
  (p / 2 <= INR (n - 1) * (Rabs t * INR k) -> drift (npdiff positions) = Some (t * INR k)) /\ (t = 0 -> drift (npdiff positions) = None).
Proof using Hp Hslow Hn.
  pose proof slow_n as Sn. clear Hget Hc Ha Hk.
  assert (Hh : 0 < p / 2) by lra. set (m := (n - 1)%nat) in *. unfold positions. replace (seq 0 n) with (seq 0 (S m)) by (f_equal; unfold m; lia). clearbody m.
  pose proof slow_D as Sd. pose proof (drift_value (p / 2) (t * INR k) (x0 + p / 4) Hh Sd m Sn) as [[V M]|[V M]]; rewrite V; split; auto; split; try (intros _; reflexivity).
  - intros F. exfalso. rewrite <- (Rabs_pos_eq (INR k)), <- Rabs_mult in F by apply pos_INR. destruct (moved_far (p / 2) (t * INR k) (x0 + p / 4) Hh Sd m F) as (i & Hi & Mi). rewrite (M i Hi) in Mi. discriminate.
  - intros ->. exfalso. destruct M as (i & Hi & Mi). unfold moved, K in Mi. rewrite Rmult_0_l, !Rmult_0_r, Z.eqb_refl in Mi. discriminate.
Qed.
End Follow.

(** *** Textures followed from row to row *)
Theorem C105_rows : forall cf argsort g sx sy per py a p x0 y0 t k n,
  has_missing g = false -> 0 < a -> 0 < p ->
  period_x_y g sx sy argsort = Ok (Some per, py) -> match py with Some q => per < q | None => True end ->
  sampled (per / sx) (nrows g) k n -> (5 <= n)%nat -> Rabs t * INR k <= p / 10 ->
  (forall i, (i < n)%nat -> exists line, nth_error (matrix_of g) (i * k) = Some line /\ finds cf line (IZR (pytrunc (per / sx))) (texture a p x0 y0 t (INR i * INR k))) ->
  exists o, surface_orientation cf argsort g sx sy "fft_refined" = Ok o /\ (o = None \/ o = Some (degrees (atan t))) /\
    (p / 2 <= INR (n - 1) * (Rabs t * INR k) -> o = Some (degrees (atan t))) /\ (t = 0 -> o = None).
Proof.
  intros cf argsort g sx sy per py a p x0 y0 t k n Hc Ha Hp Epp Hpy Hs Hn Hslow Hl. pose proof Hs as (Hk & _ & _). destruct (sampled_dist _ _ _ _ Hs) as [Ek En].
  unfold surface_orientation. rewrite Hc. cbn [String.eqb Ascii.eqb Bool.eqb]. unfold orientation_refined. rewrite Epp. cbn [rbind fst snd].
  assert (R1 : inf_gt py (Some per) = true) by (unfold inf_gt; destruct py as [q|]; [apply Rltb_spec; exact Hpy|reflexivity]).
  assert (R2 : inf_gt (Some per) py = false) by (unfold inf_gt; destruct py as [q|]; [apply Rltb_false; lra|reflexivity]).
  rewrite R1. rewrite Ek, En, R2. destruct (Z.eqb_spec (Z.of_nat k) 0) as [C|_]; [lia|]. rewrite Nat2Z.id.
  rewrite (follow_loop cf a p x0 y0 t k n Ha Hp (row_of (matrix_of g)) (IZR (pytrunc (per / sx)))).
  2:{ intros i Hi. destruct (Hl i Hi) as (line & E & F). exists line. split; [unfold row_of; rewrite E; reflexivity|exact F]. }
  cbn [rbind]. destruct (Nat.leb_spec n 1) as [C|_]; [lia|]. rewrite all_some_map. pose proof (follow_drift p x0 t k n Hp Hslow Hn) as (V & Vf & V0).
  assert (Q : t * INR k / IZR (Z.of_nat k) = t) by (rewrite <- INR_IZR_INZ; field; apply not_0_INR; lia).
  eexists. split; [reflexivity|]. split; [|split].
  - destruct V as [-> | ->]; [left; reflexivity|right]. rewrite Q. reflexivity.
  - intros F. rewrite (Vf F), Q. reflexivity.
  - intros T. rewrite (V0 T). reflexivity.
Qed.
(** *** Textures followed from column to column: u rows per column, so 1 / u columns per row *)
Lemma atan_inv_pos u : 0 < u -> atan (/ u) = PI / 2 - atan u.
Proof.
  intros H. assert (B := atan_bound u). assert (0 < atan u) by (rewrite <- atan_0; apply atan_increasing; exact H).
  rewrite <- (tan_atan u) at 1. assert (Tn : tan (PI / 2 - atan u) = / tan (atan u)).
  { unfold tan. rewrite sin_shift, cos_shift. rewrite Rinv_div. reflexivity. }
  rewrite <- Tn. apply atan_tan. lra.
Qed.
Lemma corrected u : u <> 0 -> npsign (degrees (atan u)) * 90 - degrees (atan u) = degrees (atan (1 / u)).
Proof.
  intros H. pose proof PI_RGT_0 as P. assert (P0 : 0 < 180 / PI) by (apply Rdiv_lt_0_compat; lra).
  assert (G : forall v, 0 < v -> npsign (degrees (atan v)) * 90 - degrees (atan v) = degrees (atan (1 / v))).
  { intros v Hv. assert (0 < atan v) by (rewrite <- atan_0; apply atan_increasing; exact Hv). assert (0 < degrees (atan v)) by (unfold degrees; apply Rmult_lt_0_compat; assumption).
    unfold npsign. destruct (Rlt_dec 0 (degrees (atan v))) as [_|C]; [|contradiction]. replace (1 / v) with (/ v) by (field; lra). rewrite atan_inv_pos by exact Hv. unfold degrees. field. lra. }
  destruct (Rlt_le_dec 0 u) as [Hu|Hu]; [apply G; exact Hu|]. specialize (G (- u) ltac:(lra)). replace (1 / - u) with (- (1 / u)) in G by (field; exact H).
  rewrite !atan_opp in G. unfold degrees in *. replace (- atan u * (180 / PI)) with (- (atan u * (180 / PI))) in G by ring. replace (- atan (1 / u) * (180 / PI)) with (- (atan (1 / u) * (180 / PI))) in G by ring.
  set (x := atan u * (180 / PI)) in *. assert (S0 : npsign (- x) = - npsign x) by (unfold npsign; destruct (Rlt_dec 0 (- x)), (Rlt_dec (- x) 0), (Rlt_dec 0 x), (Rlt_dec x 0); lra). rewrite S0 in G. lra.
Qed.
Theorem C105_columns : forall cf argsort g sx sy px per a p x0 y0 u k n,
  has_missing g = false -> 0 < a -> 0 < p ->
  period_x_y g sx sy argsort = Ok (px, Some per) -> match px with Some q => per < q | None => True end ->
  sampled (per / sy) (ncols g) k n -> (5 <= n)%nat -> Rabs u * INR k <= p / 10 ->
  (forall i, (i < n)%nat -> finds cf (map (fun r => nth (i * k) r 0) (matrix_of g)) (IZR (pytrunc (per / sy))) (texture a p x0 y0 u (INR i * INR k))) ->
  exists o, surface_orientation cf argsort g sx sy "fft_refined" = Ok o /\ (o = None \/ o = Some (degrees (atan (1 / u)))) /\
    (p / 2 <= INR (n - 1) * (Rabs u * INR k) -> o = Some (degrees (atan (1 / u)))) /\ (u = 0 -> o = None).
Proof.
  intros cf argsort g sx sy px per a p x0 y0 t k n Hc Ha Hp Epp Hpx Hs Hn Hslow Hl. pose proof Hs as (Hk & _ & Hnk). destruct (sampled_dist _ _ _ _ Hs) as [Ek En].
  unfold surface_orientation. rewrite Hc. cbn [String.eqb Ascii.eqb Bool.eqb]. unfold orientation_refined. rewrite Epp. cbn [rbind fst snd].
  assert (R1 : inf_gt (Some per) px = false) by (unfold inf_gt; destruct px as [q|]; [apply Rltb_false; lra|reflexivity]).
  assert (R2 : inf_gt px (Some per) = true) by (unfold inf_gt; destruct px as [q|]; [apply Rltb_spec; exact Hpx|reflexivity]).
  rewrite R1. rewrite Ek, En, R2. destruct (Z.eqb_spec (Z.of_nat k) 0) as [C|_]; [lia|]. rewrite Nat2Z.id.
  rewrite (follow_loop cf a p x0 y0 t k n Ha Hp (column_of (matrix_of g) (ncols g)) (IZR (pytrunc (per / sy)))).
  2:{ intros i Hi. eexists. split; [unfold column_of; destruct (Nat.ltb_spec (i * k) (ncols g)) as [_|C]; [reflexivity|nia]|apply Hl; exact Hi]. }
  cbn [rbind]. destruct (Nat.leb_spec n 1) as [C|_]; [lia|]. rewrite all_some_map. pose proof (follow_drift p x0 t k n Hp Hslow Hn) as (V & Vf & V0).
  assert (Q : t * INR k / IZR (Z.of_nat k) = t) by (rewrite <- INR_IZR_INZ; field; apply not_0_INR; lia).
  destruct (Req_EM_T t 0) as [T0|T0].
  - rewrite (V0 T0). exists None. split; [reflexivity|]. split; [left; reflexivity|]. split; [|reflexivity]. intros F. specialize (Vf F). rewrite (V0 T0) in Vf. discriminate.
  - eexists. split; [reflexivity|]. split; [|split].
    + destruct V as [-> | ->]; [left; reflexivity|right]. rewrite Q. f_equal. apply corrected. exact T0.
    + intros F. rewrite (Vf F), Q. f_equal. apply corrected. exact T0.
    + intros C. contradiction.
Qed.

(** *** The whole computation for a plane wave: q periods along the rows, p along the columns *)
Lemma wave_row a phi off p q N M r : (r < N)%nat -> nth_error (matrix_of (wave_surface a phi off p q N M)) r = Some (map (fun j => wave a phi off p q N M r j) (seq 0 M)).
Proof.
  intros Hr. unfold matrix_of, wave_surface, grid_of. rewrite map_map. erewrite map_nth_error; [|rewrite (nth_error_nth' (seq 0 N) 0%nat) by (rewrite seq_length; exact Hr); rewrite seq_nth by exact Hr; reflexivity].
  cbn [plus]. rewrite map_map. reflexivity.
Qed.
Definition wave_line (a phi off : R) (p q : Z) (N M r : nat) (x : R) : R := off + a * cos (2 * PI * (IZR p * INR r / INR N + IZR q * x / INR M) + phi).
Theorem C105_wave : forall cf argsort a phi off sx sy p q N M k n,
  (2 <= N)%nat -> (2 <= M)%nat -> 0 < a -> 0 < sx -> 0 < sy -> (2 * Z.abs p < Z.of_nat N)%Z -> (0 < 2 * q < Z.of_nat M)%Z -> p <> 0%Z ->
  let g := wave_surface a phi off p q N M in
  sorts argsort (spectrum_flat g) ->
  (INR M - 1) * sx / IZR q < (INR N - 1) * sy / Rabs (IZR p) ->
  sampled ((INR M - 1) / IZR q) N k n -> (10 * Z.abs p * Z.of_nat k <= Z.of_nat N)%Z ->
  (forall i, (i < n)%nat -> finds cf (map (fun j => wave a phi off p q N M (i * k) j) (seq 0 M)) (IZR (pytrunc ((INR M - 1) / IZR q))) (wave_line a phi off p q N M (i * k))) ->
  surface_orientation cf argsort g sx sy "fft_refined" = Ok (Some (degrees (atan (- (IZR p / INR N) / (IZR q / INR M))))).
Proof.
  intros cf argsort a phi off sx sy p q N M k n HN HM Ha Hsx Hsy Hp Hq Hp0 g Hs Hrow Hsam Hslow Hf.
  assert (Q0 : 0 < IZR q) by (apply IZR_lt; lia). assert (N0 : 0 < INR N) by (apply lt_0_INR; lia). assert (M0 : 0 < INR M) by (apply lt_0_INR; lia).
  pose proof (C42_period_x_y_partial a phi off sx sy p q N M HN HM ltac:(lra) Hsx Hsy Hp ltac:(lia) ltac:(intros C; assert (p = 0%Z) by congruence; contradiction) argsort Hs) as E. fold g in E.
  destruct (Z.eqb_spec q 0) as [C|_]; [lia|]. destruct (Z.eqb_spec p 0) as [C|_]; [contradiction|]. rewrite (Rabs_pos_eq (IZR q)) in E by lra.
  pose proof Hsam as (Hk & _ & Hnk). assert (K0 : 0 < INR k) by (apply lt_0_INR; lia). assert (Pz : (1 <= Z.abs p)%Z) by lia.
  assert (Nk : (10 * k <= N)%nat). { assert (10 * Z.of_nat k <= Z.of_nat N)%Z; [|lia]. apply Z.le_trans with (10 * Z.abs p * Z.of_nat k)%Z; [nia|exact Hslow]. }
  assert (n9 : (9 <= n)%nat) by nia.
  assert (Ap : Rabs (IZR p) = IZR (Z.abs p)) by (rewrite abs_IZR; reflexivity).
  set (P := INR M / IZR q). assert (P0 : 0 < P) by (apply Rdiv_lt_0_compat; lra).
  set (t := - (IZR p / INR N) / (IZR q / INR M)). assert (Et : t = - (IZR p / INR N) * P) by (unfold t, P; field; lra).
  assert (At : Rabs t = Rabs (IZR p) / INR N * P). { rewrite Et, Rabs_mult, Rabs_Ropp. unfold Rdiv at 1. rewrite Rabs_mult, Rabs_inv, (Rabs_pos_eq (INR N)), (Rabs_pos_eq P) by lra. reflexivity. }
  assert (Sl : Rabs t * INR k <= P / 10).
  { rewrite At, Ap. apply IZR_le in Hslow. rewrite !mult_IZR, <- !INR_IZR_INZ in Hslow. apply Rmult_le_reg_r with (10 * INR N / P); [apply Rdiv_lt_0_compat; lra|].
    replace (IZR (Z.abs p) / INR N * P * INR k * (10 * INR N / P)) with (10 * IZR (Z.abs p) * INR k) by (field; lra). replace (P / 10 * (10 * INR N / P)) with (INR N) by (field; lra). exact Hslow. }
  assert (Far : P / 2 <= INR (n - 1) * (Rabs t * INR k)).
  { rewrite At. assert (P1 : 1 <= Rabs (IZR p)) by (rewrite Ap; apply (IZR_le 1); exact Pz).
    assert (Lk : INR N <= 2 * (INR (n - 1) * INR k)) by (rewrite <- mult_INR; change 2 with (INR 2); rewrite <- mult_INR; apply le_INR; nia).
    apply Rmult_le_reg_r with (2 * INR N / P); [apply Rdiv_lt_0_compat; lra|]. replace (P / 2 * (2 * INR N / P)) with (INR N) by (field; lra).
    replace (INR (n - 1) * (Rabs (IZR p) / INR N * P * INR k) * (2 * INR N / P)) with (Rabs (IZR p) * (2 * (INR (n - 1) * INR k))) by (field; lra).
    apply Rle_trans with (1 * (2 * (INR (n - 1) * INR k))); [lra|]. apply Rmult_le_compat_r; lra. }
  assert (Epx : (INR M - 1) * sx / IZR q / sx = (INR M - 1) / IZR q) by (field; lra).
  destruct (C105_rows cf argsort g sx sy ((INR M - 1) * sx / IZR q) (Some ((INR N - 1) * sy / Rabs (IZR p))) a P (- ((phi + PI / 2) / (2 * PI) * P)) off t k n) as (o & Eo & _ & F & _); try assumption; try lia.
  - apply has_missing_grid_of.
  - rewrite Epx. change (nrows g) with (NN g). unfold g. rewrite rows_g. exact Hsam.
  - intros i Hi. exists (map (fun j => wave a phi off p q N M (i * k) j) (seq 0 M)). split; [apply wave_row; nia|]. rewrite Epx.
    destruct (Hf i Hi) as (a' & p' & x' & y' & E1 & E2 & E3). exists a', p', x', y'. split; [exact E1|]. split; [exact E2|]. intros x. rewrite E3. unfold wave_line, texture. rewrite Rplus_comm. f_equal. f_equal.
    rewrite <- sin_shift. rewrite <- sin_PI_x. f_equal. rewrite mult_INR, Et. unfold P. pose proof PI_RGT_0. field. repeat split; lra.
  - rewrite Eo. f_equal. apply F. exact Far.
Qed.

(** *** A fit that finds every sinusoid of a known period with mean 0, from its first two points *)
Definition exact_fit (P : R) (line : list R) (_ : R * R * R * R) : option (R * R * R * R) :=
  let w := 2 * PI / P in
  let B := nth 0 line 0 in
  let A := (nth 1 line 0 - B * cos w) / sin w in
  let theta := arctan2 B A in
  Some (A * cos theta + B * sin theta, P, - (theta * P / (2 * PI)), 0).
Lemma exact_fit_finds P line per A B : 2 < P -> (A <> 0 \/ B <> 0) -> nth 0 line 0 = B -> nth 1 line 0 = A * sin (2 * PI / P) + B * cos (2 * PI / P) ->
  finds (exact_fit P) line per (fun x => A * sin (2 * PI * x / P) + B * cos (2 * PI * x / P)).
Proof.
  intros HP Hn E0 E1. pose proof PI_RGT_0 as Pi. assert (Sw : 0 < sin (2 * PI / P)).
  { apply sin_gt_0; [apply Rdiv_lt_0_compat; lra|]. apply Rmult_lt_reg_r with P; [lra|]. unfold Rdiv. rewrite Rmult_assoc, Rinv_l by lra. rewrite Rmult_1_r, Rmult_comm. apply Rmult_lt_compat_l; lra. }
  unfold finds, exact_fit. rewrite E0, E1. replace ((A * sin (2 * PI / P) + B * cos (2 * PI / P) - B * cos (2 * PI / P)) / sin (2 * PI / P)) with A by (field; lra).
  destruct (arctan2_spec B A Hn) as (r & Hr & EA & EB). set (th := arctan2 B A) in *. do 4 eexists. split; [reflexivity|]. split; [lra|]. intros x.
  replace (2 * PI * (x - - (th * P / (2 * PI))) / P) with (2 * PI * x / P + th) by (field; lra). rewrite sin_plus.
  assert (U : A * cos th + B * sin th = r).
  { transitivity (r * (cos th * cos th + sin th * sin th)); [rewrite EA at 1; rewrite EB at 1; ring|]. pose proof (sin2_cos2 th) as T. unfold Rsqr in T. replace (cos th * cos th + sin th * sin th) with 1 by lra. ring. }
  rewrite U. rewrite EA at 1. rewrite EB at 1. ring.
Qed.
(** the hypotheses of C105_wave are met by every such wave *)
Theorem C105_example : forall a phi p q N M r per, 0 < a -> (2 <= M)%nat -> (0 < 2 * q < Z.of_nat M)%Z ->
  finds (exact_fit (INR M / IZR q)) (map (fun j => wave a phi 0 p q N M r j) (seq 0 M)) per (wave_line a phi 0 p q N M r).
Proof.
  intros a phi p q N M r per Ha HM Hq. assert (Q0 : 0 < IZR q) by (apply IZR_lt; lia). assert (M0 : 0 < INR M) by (apply lt_0_INR; lia).
  set (psi := 2 * PI * (IZR p * INR r / INR N) + phi). set (P := INR M / IZR q).
  assert (HP : 2 < P). { apply Rmult_lt_reg_r with (IZR q); [exact Q0|]. unfold P. replace (INR M / IZR q * IZR q) with (INR M) by (field; lra). rewrite INR_IZR_INZ, <- mult_IZR. apply IZR_lt. lia. }
  assert (V : forall x, wave_line a phi 0 p q N M r x = - a * sin psi * sin (2 * PI * x / P) + a * cos psi * cos (2 * PI * x / P)).
  { intros x. unfold wave_line. replace (2 * PI * (IZR p * INR r / INR N + IZR q * x / INR M) + phi) with (psi + 2 * PI * x / P) by (unfold psi, P, Rdiv; rewrite Rinv_mult, Rinv_inv; ring).
    rewrite cos_plus. ring. }
  assert (L : forall j, (j < 2)%nat -> nth j (map (fun j => wave a phi 0 p q N M r j) (seq 0 M)) 0 = wave_line a phi 0 p q N M r (INR j)).
  { intros j Hj. rewrite nth_map_seq by lia. reflexivity. }
  destruct (exact_fit_finds P (map (fun j => wave a phi 0 p q N M r j) (seq 0 M)) per (- a * sin psi) (a * cos psi) HP) as (a' & p' & x' & y' & F1 & F2 & F3).
  - destruct (Req_dec (cos psi) 0) as [C|C]; [left|right; apply Rmult_integral_contrapositive_currified; lra].
    apply Rmult_integral_contrapositive_currified; [lra|]. intros C'. pose proof (sin2_cos2 psi) as T. rewrite C, C' in T. unfold Rsqr in T. lra.
  - rewrite L by lia. rewrite V. cbn [INR]. replace (2 * PI * 0 / P) with 0 by (field; lra). rewrite sin_0, cos_0. ring.
  - rewrite L by lia. rewrite V. cbn [INR]. replace (2 * PI * 1 / P) with (2 * PI / P) by (field; lra). reflexivity.
  - exists a', p', x', y'. split; [exact F1|]. split; [exact F2|]. intros x. rewrite F3, V. reflexivity.
Qed.
(** and the sampling: 22 x 22 points, 2 periods across and 1 down: every row is looked at, the angle is - atan (1 / 2) *)
Theorem C105_example_sampling : forall argsort phi, sorts argsort (spectrum_flat (wave_surface 1 phi 0 1 2 22 22)) ->
  surface_orientation (exact_fit (INR 22 / IZR 2)) argsort (wave_surface 1 phi 0 1 2 22 22) 1 1 "fft_refined" = Ok (Some (degrees (atan (- (1 / 2))))).
Proof.
  intros argsort phi Hs. assert (I22 : INR 22 = 22) by (rewrite INR_IZR_INZ; reflexivity).
  pose proof (C105_wave (exact_fit (INR 22 / IZR 2)) argsort 1 phi 0 1 1 1 2 22 22 1 22) as W. cbv zeta in W. rewrite W; clear W; try lia; try lra; try assumption.
  - rewrite I22. do 4 f_equal. lra.
  - rewrite I22, Rabs_pos_eq; lra.
  - split; [lia|]. rewrite I22. cbn [INR]. split; [lra|lia].
  - intros i Hi. apply C105_example; lra || lia.
Qed.

(** *** Where it fails *)
(** a texture exactly along the y axis: every row is the same, and the result is not a number (or an exception), whatever is fitted *)
Lemma drift_const l v : (forall x, In x l -> x = v) -> drift l = None.
Proof.
  intros H. destruct l as [|x l'] eqn:El; [unfold drift, line_max; cbn; destruct (Req_EM_T 0 0); [reflexivity|congruence]|]. rewrite <- El in *.
  assert (Ne : l <> []) by (rewrite El; discriminate). assert (Md : medianR l = v).
  { destruct (medianR_between l v v Ne); [|lra]. intros y Hy. rewrite (H y Hy). lra. }
  unfold drift. rewrite Md. set (dev := map _ l). assert (D0 : forall y, In y dev -> y = 0).
  { intros y Hy. apply in_map_iff in Hy as (z & <- & Hz). rewrite (H z Hz), Rminus_diag_eq, Rabs_R0; reflexivity. }
  unfold line_max. destruct (lmax dev) as [m|] eqn:Em; [|destruct (Req_EM_T 0 0); [reflexivity|congruence]].
  assert (m = 0) as ->. { apply D0. destruct dev as [|d0 dd]; [discriminate|]. cbn [lmax] in Em. assert (m = maxR d0 dd) as -> by congruence. apply maxR_is_max. }
  destruct (Req_EM_T 0 0); [reflexivity|congruence].
Qed.
Lemma all_some_in l : forall xs, all_some l = Some xs -> forall x, In x xs -> In (Some x) l.
Proof.
  induction l as [|[y|] l IH]; intros xs E x Hx; cbn [all_some] in E; try discriminate.
  - assert (xs = []) by congruence. subst. destruct Hx.
  - destruct (all_some l) as [ys|]; [|discriminate]. cbn [option_map] in E. assert (xs = y :: ys) by congruence. subst. destruct Hx as [-> |Hx]; [left; reflexivity|right; apply (IH ys eq_refl x Hx)].
Qed.
Lemma npdiff_const l v : (forall x, In x l -> x = v) -> forall d, In d (npdiff l) -> d = 0.
Proof.
  intros H. induction l as [|x l IH]; intros d Hd; [destruct Hd|]. destruct l as [|y l]; [destruct Hd|]. cbn [npdiff] in Hd. destruct Hd as [<- |Hd].
  - rewrite (H x), (H y) by (cbn; tauto). ring.
  - apply IH; [intros z Hz; apply H; right; exact Hz|exact Hd].
Qed.
Theorem C105_identical_rows_refuted : forall cf argsort g sx sy px py v,
  period_x_y g sx sy argsort = Ok (px, py) -> inf_gt py px = true ->
  (forall r r', In r g -> In r' g -> r = r') ->
  surface_orientation cf argsort g sx sy "fft_refined" <> Ok (Some v).
Proof.
  intros cf argsort g sx sy px py v E R1 Same. unfold surface_orientation. destruct (has_missing g); [discriminate|]. cbn [String.eqb Ascii.eqb Bool.eqb].
  unfold orientation_refined. rewrite E. cbn [rbind fst snd]. rewrite R1. destruct px as [per|]; [|discriminate].
  set (ppx := pytrunc (per / sx)). set (dist := pytrunc (IZR ppx * (1 / 10))). destruct (Z.eqb dist 0); [discriminate|]. set (n := Z.to_nat (_ / _)).
  destruct (loop _ (seq 0 n)) as [xfp|] eqn:El; [|discriminate]. cbn [rbind]. destruct (Nat.leb n 1); [discriminate|].
  destruct (all_some xfp) as [xs|] eqn:Ea; [|discriminate]. rewrite (drift_const _ 0); [discriminate|].
  intros d Hd. destruct xs as [|x0 xs']; [destruct Hd|]. refine (npdiff_const (x0 :: xs') x0 _ d Hd). clear d Hd. intros x Hx.
  assert (U : forall h h', In h xfp -> In h' xfp -> h = h').
  { apply loop_inv in El. assert (G : forall h, In h xfp -> exists r, In r g /\ rbind (from_fit cf (map (fun h => match h with Some x => x | None => 0 end) r) (guess (map (fun h => match h with Some x => x | None => 0 end) r) (IZR ppx))) (fun s => Ok (if Req_EM_T (s_p s) 0 then None else Some (first_extremum s))) = Ok h).
    { clear Ea x Hx. induction El as [|i y is ys Hy _ IH]; intros h Hh; [destruct Hh|]. destruct Hh as [<- |Hh]; [|apply IH; exact Hh]. clear IH.
      unfold row_of in Hy. destruct (nth_error (matrix_of g) _) as [line|] eqn:En; [|discriminate Hy]. cbn [rbind] in Hy. apply nth_error_In in En. unfold matrix_of in En. apply in_map_iff in En as (r & <- & Hr).
      exists r. split; [exact Hr|exact Hy]. }
    intros h h' Hh Hh'. destruct (G h Hh) as (r & Hr & Er). destruct (G h' Hh') as (r' & Hr' & Er'). rewrite (Same r r' Hr Hr') in Er. rewrite Er in Er'. congruence. }
  assert (Some x = Some x0); [|congruence]. apply U; apply (all_some_in _ _ Ea); [exact Hx|left; reflexivity].
Qed.
(** e.g. every plane wave with vertical crests *)
Theorem C105_vertical_refuted : forall cf argsort a phi off sx sy q N M v,
  (2 <= N)%nat -> (2 <= M)%nat -> a <> 0 -> 0 < sx -> 0 < sy -> (0 < 2 * Z.abs q < Z.of_nat M)%Z ->
  let g := wave_surface a phi off 0 q N M in
  sorts argsort (spectrum_flat g) -> surface_orientation cf argsort g sx sy "fft_refined" <> Ok (Some v).
Proof.
  intros cf argsort a phi off sx sy q N M v HN HM Ha Hsx Hsy Hq g Hs.
  pose proof (C42_period_x_y_partial a phi off sx sy 0 q N M HN HM Ha Hsx Hsy ltac:(cbn; lia) ltac:(lia) ltac:(intros C; assert (q = 0%Z) by congruence; subst q; cbn in Hq; lia) argsort Hs) as E. fold g in E.
  destruct (Z.eqb_spec q 0) as [C|_]; [subst q; cbn in Hq; lia|]. cbn [Z.eqb] in E.
  apply (C105_identical_rows_refuted cf argsort g sx sy _ _ v E); [reflexivity|].
  intros r r' Hr Hr'. unfold g, wave_surface, grid_of in Hr, Hr'. apply in_map_iff in Hr as (i & <- & _). apply in_map_iff in Hr' as (i' & <- & _). apply map_ext. intros j. unfold wave.
  rewrite !Rmult_0_l. unfold Rdiv at 1. rewrite Rmult_0_l. unfold Rdiv at 2. rewrite Rmult_0_l. reflexivity.
Qed.
(** a period of less than ten pixels *)
Theorem C105_short_period_refuted : forall cf argsort g sx sy per py,
  has_missing g = false -> period_x_y g sx sy argsort = Ok (Some per, py) -> match py with Some q => per < q | None => True end -> 0 <= per / sx < 10 ->
  surface_orientation cf argsort g sx sy "fft_refined" = Err ZeroDivisionError.
Proof.
  intros cf argsort g sx sy per py Hc E Hpy Hq. unfold surface_orientation. rewrite Hc. cbn [String.eqb Ascii.eqb Bool.eqb]. unfold orientation_refined. rewrite E. cbn [rbind fst snd].
  assert (R1 : inf_gt py (Some per) = true) by (unfold inf_gt; destruct py as [q|]; [apply Rltb_spec; exact Hpy|reflexivity]). rewrite R1.
  destruct (pytrunc_bounds (per / sx) ltac:(lra)) as [B1 B2]. assert (B3 : (pytrunc (per / sx) < 10)%Z) by (apply lt_IZR; lra).
  assert (Z0 : pytrunc (IZR (pytrunc (per / sx)) * (1 / 10)) = 0%Z).
  { apply pytrunc_unique; [apply Rmult_le_pos; [apply IZR_le; exact B2|lra]|]. apply IZR_le in B2. apply IZR_lt in B3. lra. }
  rewrite Z0. reflexivity.
Qed.
(** pixels that are not square: the angle is that of the picture on square pixels, not that of the surface *)
Theorem C105_pixel_shape_refuted : forall cf argsort g sx sy per py a p x0 y0 t k n,
  has_missing g = false -> 0 < a -> 0 < p -> 0 < sx -> 0 < sy -> sx <> sy ->
  period_x_y g sx sy argsort = Ok (Some per, py) -> match py with Some q => per < q | None => True end ->
  sampled (per / sx) (nrows g) k n -> (5 <= n)%nat -> Rabs t * INR k <= p / 10 -> p / 2 <= INR (n - 1) * (Rabs t * INR k) ->
  (forall i, (i < n)%nat -> exists line, nth_error (matrix_of g) (i * k) = Some line /\ finds cf line (IZR (pytrunc (per / sx))) (texture a p x0 y0 t (INR i * INR k))) ->
  exists v, surface_orientation cf argsort g sx sy "fft_refined" = Ok (Some v) /\ v <> degrees (atan (t * sx / sy)).
Proof.
  intros cf argsort g sx sy per py a p x0 y0 t k n Hc Ha Hp Hsx Hsy Hne E Hpy Hs Hn Hslow Far Hl.
  destruct (C105_rows cf argsort g sx sy per py a p x0 y0 t k n Hc Ha Hp E Hpy Hs Hn Hslow Hl) as (o & Eo & _ & F & T0). rewrite (F Far) in Eo, T0. exists (degrees (atan t)). split; [exact Eo|].
  assert (Tn : t <> 0) by (intros C; discriminate (T0 C)). pose proof PI_RGT_0 as Pi. intros C. unfold degrees in C. apply Rmult_eq_reg_r in C; [|apply Rgt_not_eq; apply Rdiv_lt_0_compat; lra].
  apply (f_equal tan) in C. rewrite !tan_atan in C. apply Hne. apply Rmult_eq_reg_l with (t / sy); [|unfold Rdiv; apply Rmult_integral_contrapositive_currified; [exact Tn|apply Rinv_neq_0_compat; lra]].
  transitivity (t * sx / sy); [field; lra|]. rewrite <- C. field. lra.
Qed.

(** *** For all surfaces *)
Theorem C105_range : forall cf argsort g sx sy m v, surface_orientation cf argsort g sx sy m = Ok (Some v) -> -90 <= v <= 90.
Proof.
  intros cf argsort g sx sy m v. unfold surface_orientation. destruct (has_missing g); [discriminate|]. pose proof PI_RGT_0 as Pi.
  assert (B : forall x, -90 <= atan x * (180 / PI) <= 90).
  { intros x. destruct (atan_bound x). assert (Q : 0 < 180 / PI) by (apply Rdiv_lt_0_compat; lra). split.
    - replace (-90) with (- PI / 2 * (180 / PI)) by (field; lra). apply Rmult_le_compat_r; lra.
    - replace 90 with (PI / 2 * (180 / PI)) by (field; lra). apply Rmult_le_compat_r; lra. }
  destruct (String.eqb m "fft_refined").
  - unfold orientation_refined. destruct (period_x_y g sx sy argsort) as [pp|]; [|discriminate]. cbn [rbind]. destruct (if inf_gt (snd pp) (fst pp) then fst pp else snd pp) as [per|]; [|discriminate].
    destruct (Z.eqb _ 0); [discriminate|]. destruct (loop _ _) as [xfp|]; [|discriminate]. cbn [rbind]. destruct (Nat.leb _ 1); [discriminate|].
    destruct (all_some xfp) as [xs|]; [|discriminate]. destruct (drift (npdiff xs)) as [d|]; [|discriminate]. set (ang := atan _ * _). assert (Ba : -90 <= ang <= 90) by apply B.
    destruct (inf_gt (fst pp) (snd pp)); intros E.
    + assert (v = npsign ang * 90 - ang) as -> by congruence. unfold npsign. destruct (Rlt_dec 0 ang); [lra|]. destruct (Rlt_dec ang 0); lra.
    + assert (v = ang) as -> by congruence. exact Ba.
  - destruct (String.eqb m "fft"); [|discriminate]. unfold orientation. destruct (peak_dx_dy g sx sy argsort) as [d|]; [|discriminate]. cbn [rmap].
    destruct (Req_EM_T (fst d) 0); [intros E; assert (v = 90) by congruence; lra|]. destruct (Req_EM_T (snd d) 0); intros E; [assert (v = 0) by congruence; lra|].
    assert (v = atan (snd d / fst d) * (180 / PI)) as -> by congruence. apply B.
Qed.
Theorem C105_methods : forall cf argsort g sx sy m,
  (has_missing g = true -> surface_orientation cf argsort g sx sy m = Err ValueError) /\
  (m <> "fft_refined"%string -> m <> "fft"%string -> surface_orientation cf argsort g sx sy m = Err ValueError) /\
  (has_missing g = false -> surface_orientation cf argsort g sx sy "fft" = rmap Some (orientation g sx sy argsort)).
Proof.
  intros. unfold surface_orientation. split; [intros ->; reflexivity|]. split; [|intros ->; reflexivity].
  intros A B. apply String.eqb_neq in A, B. rewrite A, B. destruct (has_missing g); reflexivity.
Qed.
