(** C42: wavelength, period and orientation reported for a pure wave. *)
From Coq Require Import Reals List Bool Arith ZArith Lia Lra Permutation.
From Verif Require Import Base RList ModelMath ModelHeights ModelDetrend ModelGeom ModelAcf ModelFourier ProofMath ProofHeights PropsAcf ProofFourier.
Import ListNotations.
Local Open Scope R_scope.

(** *** Specification *)
(** heights of a plane cosine wave with p periods along the y axis and q periods along the x axis of N x M sampled points:
    one period along x extends over M / q pixels *)
Definition wave_surface (a phi off : R) (p q : Z) (N M : nat) : grid := grid_of (wave a phi off p q N M) N M.
(** its wavelength, from the wave vector in cycles per unit length: M pixels of size sx are M sx long *)
Definition true_wavelength (p q : Z) (N M : nat) (sx sy : R) : R := 1 / sqrt ((IZR q / (INR M * sx)) ^ 2 + (IZR p / (INR N * sy)) ^ 2).
(** the same with M - 1 and N - 1 pixels *)
Definition short_wavelength (p q : Z) (N M : nat) (sx sy : R) : R := 1 / sqrt ((IZR q / ((INR M - 1) * sx)) ^ 2 + (IZR p / ((INR N - 1) * sy)) ^ 2).
(** np.argsort *)
Definition sorts (argsort : list R -> list nat) (l : list R) : Prop :=
  Permutation (argsort l) (seq 0 (length l)) /\ forall i j, (i <= j < length l)%nat -> nth (nth i (argsort l) 0%nat) l 0 <= nth (nth j (argsort l) 0%nat) l 0.

(** *** Frequencies *)
Lemma small_mult (c n x : Z) : (Z.abs x < n)%Z -> (x = c * n)%Z -> x = 0%Z.
Proof. intros H E. assert (c = 0)%Z; [|subst; reflexivity]. destruct (Z.eq_dec c 0) as [|C]; [assumption|]. exfalso. rewrite E, Z.abs_mul in H. assert (1 <= Z.abs c)%Z by lia. nia. Qed.
Lemma freq_int_bounds n k : (k < n)%nat -> (- Z.of_nat n <= 2 * freq_int n k < Z.of_nat n)%Z /\ (Z.of_nat n | freq_int n k - Z.of_nat k)%Z.
Proof.
  intros H. unfold freq_int. pose proof (Nat.div_mod (n - 1) 2 ltac:(lia)) as D. pose proof (Nat.mod_upper_bound (n - 1) 2 ltac:(lia)) as U.
  destruct (Nat.ltb_spec k ((n - 1) / 2 + 1)) as [L|L].
  - split; [lia|]. exists 0%Z. lia.
  - split; [lia|]. exists (-1)%Z. lia.
Qed.
Lemma freq_int_alias n k m : (k < n)%nat -> (2 * Z.abs m < Z.of_nat n)%Z -> hit n (Z.of_nat k - m) = true -> freq_int n k = m.
Proof.
  intros Hk Hm Hh. apply hit_iff in Hh; [|lia]. destruct (freq_int_bounds n k Hk) as [B [c Hc]]. destruct Hh as [e He].
  assert (freq_int n k - m = 0)%Z; [|lia]. apply (small_mult (c + e) (Z.of_nat n)); lia.
Qed.
Lemma unshift_lt n k : (0 < n)%nat -> (unshift n k < n)%nat.
Proof. intros H. apply Nat.mod_upper_bound. lia. Qed.
Lemma unshift_onto n u : (u < n)%nat -> unshift n ((u + n / 2) mod n) = u.
Proof.
  intros H. unfold unshift. rewrite Nat.add_mod_idemp_l by lia. pose proof (Nat.div_mod n 2 ltac:(lia)) as D. pose proof (Nat.div_mod (n + 1) 2 ltac:(lia)) as D'. pose proof (Nat.mod_upper_bound n 2 ltac:(lia)). pose proof (Nat.mod_upper_bound (n + 1) 2 ltac:(lia)).
  replace (u + n / 2 + (n + 1) / 2)%nat with (u + 1 * n)%nat by lia. rewrite Nat.mod_add by lia. apply Nat.mod_small. exact H.
Qed.
Lemma unshift_inj n a b : (a < n)%nat -> (b < n)%nat -> unshift n a = unshift n b -> a = b.
Proof.
  intros Ha Hb E. unfold unshift in E. set (h := ((n + 1) / 2)%nat) in E.
  assert (Hh : (h <= n)%nat) by (unfold h; pose proof (Nat.div_mod (n + 1) 2 ltac:(lia)); pose proof (Nat.mod_upper_bound (n + 1) 2 ltac:(lia)); lia).
  assert (G : forall x, (x < n)%nat -> ((x + h) mod n = if Nat.ltb (x + h) n then x + h else x + h - n)%nat).
  { intros x Hx. destruct (Nat.ltb_spec (x + h) n) as [L|L]; [apply Nat.mod_small; exact L|]. replace (x + h)%nat with ((x + h - n) + 1 * n)%nat at 1 by lia. rewrite Nat.mod_add by lia. apply Nat.mod_small. lia. }
  rewrite !G in E by assumption. destruct (Nat.ltb_spec (a + h) n), (Nat.ltb_spec (b + h) n); lia.
Qed.

Lemma nth_rev_r {A} (l : list A) i d : (i < length l)%nat -> nth i (rev l) d = nth (length l - 1 - i) l d.
Proof. intros H. rewrite rev_nth by exact H. f_equal. lia. Qed.
Lemma small_hit n m : (2 * Z.abs m < Z.of_nat n)%Z -> hit n m = true -> m = 0%Z.
Proof. intros H E. apply hit_iff in E; [|lia]. destruct E as [c E]. apply (small_mult c (Z.of_nat n)); [lia|exact E]. Qed.
Lemma double_hit n m k : (2 * Z.abs m < Z.of_nat n)%Z -> hit n (Z.of_nat k - m) = true -> hit n (Z.of_nat k + m) = true -> m = 0%Z.
Proof.
  intros H E1 E2. apply hit_iff in E1, E2; try lia. destruct E1 as [c1 E1], E2 as [c2 E2]. assert (2 * m = 0)%Z; [|lia]. apply (small_mult (c2 - c1) (Z.of_nat n)); lia.
Qed.
Lemma same_hit n x y m : (x < n)%nat -> (y < n)%nat -> hit n (Z.of_nat x - m) = true -> hit n (Z.of_nat y - m) = true -> x = y.
Proof. intros Hx Hy E1 E2. apply hit_iff in E1, E2; try lia. destruct E1 as [c E1], E2 as [d E2]. assert (Z.of_nat x - Z.of_nat y = 0)%Z; [|lia]. apply (small_mult (c - d) (Z.of_nat n)); lia. Qed.
Section Wave.
Variables (a phi off sx sy : R) (p q : Z) (N M : nat).
Hypotheses (HN : (2 <= N)%nat) (HM : (2 <= M)%nat) (Ha : a <> 0) (Hsx : 0 < sx) (Hsy : 0 < sy).
Hypotheses (Hp : (2 * Z.abs p < Z.of_nat N)%Z) (Hq : (2 * Z.abs q < Z.of_nat M)%Z) (Hpq : (p, q) <> (0, 0)%Z).
Let g := wave_surface a phi off p q N M.
Lemma rows_g : NN g = N. Proof. unfold NN, g, wave_surface, grid_of, nrows. rewrite map_length, seq_length. reflexivity. Qed.
Lemma cols_g : MM g = M. Proof. unfold MM, g, wave_surface, grid_of, ncols. destruct N; [lia|]. cbn [seq map hd]. rewrite map_length, seq_length. reflexivity. Qed.
Lemma zdata_g i j : (i < N)%nat -> (j < M)%nat -> zdata g i j = wave a phi off p q N M i j.
Proof.
  intros Hi Hj. unfold zdata, g, wave_surface, grid_of, matrix_of, at2. rewrite map_map. rewrite nth_map_seq by exact Hi. rewrite map_map. rewrite nth_map_seq by exact Hj. reflexivity.
Qed.
Lemma not_zero : hit N p && hit M q = false.
Proof.
  destruct (hit N p) eqn:E1, (hit M q) eqn:E2; try reflexivity. exfalso. apply Hpq. rewrite (small_hit _ _ Hp E1), (small_hit _ _ Hq E2). reflexivity.
Qed.
Notation upw := (up_hit p q N M).
Notation dnw := (dn_hit p q N M).
Lemma exclusive u v : upw u v = true -> dnw u v = false.
Proof.
  intros H. destruct (dnw u v) eqn:E; [|reflexivity]. exfalso. unfold up_hit, dn_hit in *. apply andb_true_iff in H, E. destruct H as [H1 H2], E as [E1 E2].
  apply Hpq. rewrite (double_hit N p u), (double_hit M q v) by assumption. reflexivity.
Qed.
Lemma amp_g u v : amplitude (centred (zdata g) N M) N M u v = if upw u v || dnw u v then Rabs a * (INR N * INR M) / 2 else 0.
Proof.
  rewrite <- (wave_amplitude a phi off p q N M ltac:(lia) ltac:(lia) not_zero u v (exclusive u v)). unfold amplitude.
  assert (Mn : mean2 (zdata g) N M = mean2 (wave a phi off p q N M) N M) by (unfold mean2; f_equal; apply sum2_ext; intros; apply zdata_g; assumption).
  assert (C : forall i j, (i < N)%nat -> (j < M)%nat -> centred (zdata g) N M i j = centred (wave a phi off p q N M) N M i j) by (intros; unfold centred; rewrite Mn, zdata_g by assumption; reflexivity).
  unfold dft_re, dft_im. rewrite (sum2_ext N M _ (fun i j => centred (wave a phi off p q N M) N M i j * cos (dft_phase N M u v i j))) by (intros; rewrite C by assumption; reflexivity).
  rewrite (sum2_ext N M (fun i j => centred (zdata g) N M i j * sin (dft_phase N M u v i j)) (fun i j => centred (wave a phi off p q N M) N M i j * sin (dft_phase N M u v i j))) by (intros; rewrite C by assumption; reflexivity). reflexivity.
Qed.
Definition cell (k : nat) : nat * nat := (unshift N (k / M), unshift M (k mod M)).
Definition peak : R := Rabs a * (INR N * INR M) / 2.
Lemma peak_pos : 0 < peak.
Proof. unfold peak. pose proof (Rabs_pos_lt a Ha). assert (0 < INR N * INR M) by (apply Rmult_lt_0_compat; apply lt_0_INR; lia). assert (0 < Rabs a * (INR N * INR M)) by (apply Rmult_lt_0_compat; assumption). lra. Qed.
Lemma flat_length : length (spectrum_flat g) = (N * M)%nat.
Proof. unfold spectrum_flat. rewrite map_length, seq_length, rows_g, cols_g. reflexivity. Qed.
Lemma flat_nth k : (k < N * M)%nat -> nth k (spectrum_flat g) 0 = if upw (fst (cell k)) (snd (cell k)) || dnw (fst (cell k)) (snd (cell k)) then peak else 0.
Proof. intros H. unfold spectrum_flat. rewrite rows_g, cols_g. rewrite nth_map_seq by exact H. rewrite amp_g. reflexivity. Qed.
Lemma kdiv k : (k < N * M)%nat -> (k / M < N)%nat /\ (k mod M < M)%nat.
Proof. intros H. split; [apply Nat.div_lt_upper_bound; lia|apply Nat.mod_upper_bound; lia]. Qed.
Lemma cell_inj k k' : (k < N * M)%nat -> (k' < N * M)%nat -> cell k = cell k' -> k = k'.
Proof.
  intros H H' E. destruct (kdiv k H) as [A B], (kdiv k' H') as [A' B']. unfold cell in E. injection E as E1 E2. apply unshift_inj in E1; [|assumption..]. apply unshift_inj in E2; [|assumption..].
  rewrite (Nat.div_mod k M), (Nat.div_mod k' M), E1, E2 by lia. reflexivity.
Qed.
(** the cell of the wave vector (m, l) *)
Lemma cell_onto m l : exists k, (k < N * M)%nat /\ hit N (Z.of_nat (fst (cell k)) - m) = true /\ hit M (Z.of_nat (snd (cell k)) - l) = true.
Proof.
  set (u := Z.to_nat (m mod Z.of_nat N)). set (v := Z.to_nat (l mod Z.of_nat M)). pose proof (Z.mod_pos_bound m (Z.of_nat N) ltac:(lia)) as Bm. pose proof (Z.mod_pos_bound l (Z.of_nat M) ltac:(lia)) as Bl.
  assert (Hu : (u < N)%nat) by (unfold u; lia). assert (Hv : (v < M)%nat) by (unfold v; lia).
  set (r := ((u + N / 2) mod N)%nat). set (c := ((v + M / 2) mod M)%nat). assert (Hr : (r < N)%nat) by (apply Nat.mod_upper_bound; lia). assert (Hc : (c < M)%nat) by (apply Nat.mod_upper_bound; lia).
  exists (c + r * M)%nat. split; [nia|]. unfold cell. rewrite Nat.div_add, Nat.mod_add, (Nat.div_small c M), (Nat.mod_small c M) by lia. cbn [Nat.add fst snd]. unfold r, c. rewrite !unshift_onto by assumption.
  split; apply hit_iff; try lia; [unfold u|unfold v]; rewrite Z2Nat.id by lia.
  - exists (- (m / Z.of_nat N))%Z. pose proof (Z.div_mod m (Z.of_nat N) ltac:(lia)). lia.
  - exists (- (l / Z.of_nat M))%Z. pose proof (Z.div_mod l (Z.of_nat M) ltac:(lia)). lia.
Qed.
Definition W : R := (INR M - 1) * sx.
Definition H : R := (INR N - 1) * sy.
Lemma W_pos : 0 < W. Proof. apply Rmult_lt_0_compat; [|exact Hsx]. apply le_INR in HM. cbn [INR] in HM. lra. Qed.
Lemma H_pos : 0 < H. Proof. apply Rmult_lt_0_compat; [|exact Hsy]. apply le_INR in HN. cbn [INR] in HN. lra. Qed.
Lemma fx_eq k : freq_x g sx k = IZR (freq_int M (unshift M k)) / W.
Proof. unfold freq_x, fftfreq, extent. rewrite cols_g. fold W. field. split; [pose proof W_pos; lra|apply not_0_INR; lia]. Qed.
Lemma fy_eq k : freq_y g sy k = IZR (freq_int N (unshift N k)) / H.
Proof. unfold freq_y, fftfreq, extent. rewrite rows_g. fold H. field. split; [pose proof H_pos; lra|apply not_0_INR; lia]. Qed.
Lemma up_freq k : (k < N * M)%nat -> upw (fst (cell k)) (snd (cell k)) = true -> freq_x g sx (k mod M) = IZR q / W /\ freq_y g sy (k / M) = IZR p / H.
Proof.
  intros Hk E. unfold up_hit in E. apply andb_true_iff in E. destruct E as [E1 E2]. unfold cell in E1, E2. cbn [fst snd] in *. rewrite fx_eq, fy_eq.
  rewrite (freq_int_alias M _ q), (freq_int_alias N _ p); try assumption; try (apply unshift_lt; lia). split; reflexivity.
Qed.
Lemma dn_freq k : (k < N * M)%nat -> dnw (fst (cell k)) (snd (cell k)) = true -> freq_x g sx (k mod M) = - (IZR q / W) /\ freq_y g sy (k / M) = - (IZR p / H).
Proof.
  intros Hk E. unfold dn_hit in E. apply andb_true_iff in E. destruct E as [E1 E2]. unfold cell in E1, E2. cbn [fst snd] in *. rewrite fx_eq, fy_eq.
  rewrite (freq_int_alias M _ (- q)), (freq_int_alias N _ (- p)); try (apply unshift_lt; lia); try lia.
  - rewrite !opp_IZR. split; unfold Rdiv; ring.
  - rewrite Z.sub_opp_r. exact E1.
  - rewrite Z.sub_opp_r. exact E2.
Qed.
Lemma up_exists : exists k, (k < N * M)%nat /\ upw (fst (cell k)) (snd (cell k)) = true.
Proof. destruct (cell_onto p q) as (k & Hk & A & B). exists k. split; [exact Hk|]. unfold up_hit. rewrite A, B. reflexivity. Qed.
Lemma dn_exists : exists k, (k < N * M)%nat /\ dnw (fst (cell k)) (snd (cell k)) = true.
Proof. destruct (cell_onto (- p) (- q)) as (k & Hk & A & B). exists k. split; [exact Hk|]. unfold dn_hit. rewrite Z.sub_opp_r in A, B. rewrite A, B. reflexivity. Qed.
Lemma up_unique k k' : (k < N * M)%nat -> (k' < N * M)%nat -> upw (fst (cell k)) (snd (cell k)) = true -> upw (fst (cell k')) (snd (cell k')) = true -> k = k'.
Proof.
  intros Hk Hk' E E'. unfold up_hit in *. apply andb_true_iff in E, E'. destruct E as [A B], E' as [A' B']. apply cell_inj; [assumption..|]. unfold cell in *. cbn [fst snd] in *.
  f_equal; [eapply same_hit; [apply unshift_lt; lia|apply unshift_lt; lia|exact A|exact A']|eapply same_hit; [apply unshift_lt; lia|apply unshift_lt; lia|exact B|exact B']].
Qed.
Lemma dn_unique k k' : (k < N * M)%nat -> (k' < N * M)%nat -> dnw (fst (cell k)) (snd (cell k)) = true -> dnw (fst (cell k')) (snd (cell k')) = true -> k = k'.
Proof.
  intros Hk Hk' E E'. unfold dn_hit in *. rewrite <- !(Z.sub_opp_r _ p), <- !(Z.sub_opp_r _ q) in *. apply andb_true_iff in E, E'. destruct E as [A B], E' as [A' B']. apply cell_inj; [assumption..|]. unfold cell in *. cbn [fst snd] in *.
  f_equal; [eapply same_hit; [apply unshift_lt; lia|apply unshift_lt; lia|exact A|exact A']|eapply same_hit; [apply unshift_lt; lia|apply unshift_lt; lia|exact B|exact B']].
Qed.
Lemma complete : has_missing g = false. Proof. apply has_missing_grid_of. Qed.
Lemma freq_nz : 0 < (IZR q / W) ^ 2 + (IZR p / H) ^ 2.
Proof.
  pose proof W_pos. pose proof H_pos. pose proof (pow2_ge_0 (IZR q / W)). pose proof (pow2_ge_0 (IZR p / H)).
  destruct (Z.eq_dec q 0) as [Eq|Nq].
  - assert (Np : p <> 0%Z) by (intros C; apply Hpq; rewrite C, Eq; reflexivity). assert (IZR p / H <> 0) by (unfold Rdiv; apply Rmult_integral_contrapositive_currified; [apply not_0_IZR; exact Np|apply Rinv_neq_0_compat; lra]). assert (0 < (IZR p / H) ^ 2) by (rewrite <- Rsqr_pow2; apply Rsqr_pos_lt; assumption). lra.
  - assert (IZR q / W <> 0) by (unfold Rdiv; apply Rmult_integral_contrapositive_currified; [apply not_0_IZR; exact Nq|apply Rinv_neq_0_compat; lra]). assert (0 < (IZR q / W) ^ 2) by (rewrite <- Rsqr_pow2; apply Rsqr_pos_lt; assumption). lra.
Qed.
Lemma hit_freqs k : (k < N * M)%nat -> nth k (spectrum_flat g) 0 <> 0 -> freq_x g sx (k mod M) ^ 2 + freq_y g sy (k / M) ^ 2 = (IZR q / W) ^ 2 + (IZR p / H) ^ 2.
Proof.
  intros Hk V. rewrite flat_nth in V by exact Hk. destruct (upw _ _) eqn:E1; [destruct (up_freq k Hk E1) as [-> ->]; reflexivity|].
  destruct (dnw _ _) eqn:E2; [destruct (dn_freq k Hk E2) as [-> ->]; ring|]. contradiction V. reflexivity.
Qed.
(** The dominant wavelength (Ssw) of the wave. *)
Theorem C42_Ssw_partial : dominant_wavelength g sx sy = Ok (Some (short_wavelength p q N M sx sy)).
Proof.
  unfold dominant_wavelength. rewrite complete. rewrite cols_g. destruct (argmin_ok (map Ropp (spectrum_flat g))) as [k E].
  { intros C. apply (f_equal (@length R)) in C. rewrite map_length, flat_length in C. cbn [length] in C. nia. }
  unfold argmax. rewrite E. cbn [rbind]. apply argmin_spec in E. destruct E as (Hk & Hmx & _). rewrite map_length in Hk, Hmx. rewrite flat_length in Hk, Hmx.
  assert (V : nth k (spectrum_flat g) 0 <> 0).
  { destruct up_exists as (k' & Hk' & E'). specialize (Hmx k' Hk'). rewrite !(nth_indep (map Ropp _) 0 (Ropp 0)) in Hmx by (rewrite map_length, flat_length; assumption). rewrite !map_nth in Hmx.
    rewrite (flat_nth k' Hk'), E' in Hmx. cbn [orb] in Hmx. pose proof peak_pos. lra. }
  rewrite (hit_freqs k Hk V). pose proof freq_nz as P. destruct (Req_EM_T _ 0) as [C|C]; [exfalso; apply sqrt_lt_R0 in P; lra|]. reflexivity.
Qed.

Variable argsort : list R -> list nat.
Hypothesis Hs : sorts argsort (spectrum_flat g).
Lemma top_two : exists k0 k1 tl, rev (argsort (spectrum_flat g)) = k0 :: k1 :: tl /\ (k0 < N * M)%nat /\ (k1 < N * M)%nat /\
  ((upw (fst (cell k0)) (snd (cell k0)) = true /\ dnw (fst (cell k1)) (snd (cell k1)) = true) \/ (dnw (fst (cell k0)) (snd (cell k0)) = true /\ upw (fst (cell k1)) (snd (cell k1)) = true)).
Proof.
  destruct Hs as [P Ord]. set (o := argsort (spectrum_flat g)) in *. assert (Lo : length o = (N * M)%nat) by (rewrite (Permutation_length P), seq_length, flat_length; reflexivity).
  assert (Nd : NoDup o) by (apply (Permutation_NoDup (Permutation_sym P)), seq_NoDup). rewrite flat_length in Ord, P.
  assert (Rg : forall k, In k o <-> (k < N * M)%nat) by (intros k; split; intros I; [apply (Permutation_in _ P) in I; apply in_seq in I; lia|apply (Permutation_in _ (Permutation_sym P)); apply in_seq; lia]).
  assert (L2 : (2 <= N * M)%nat) by nia.
  destruct (rev o) as [|k0 [|k1 tl]] eqn:Er; [apply (f_equal (@length nat)) in Er; rewrite rev_length, Lo in Er; cbn [length] in Er; lia|apply (f_equal (@length nat)) in Er; rewrite rev_length, Lo in Er; cbn [length] in Er; lia|].
  assert (K0 : k0 = nth (N * M - 1) o 0%nat) by (pose proof (nth_rev_r o 0 0%nat ltac:(lia)) as X; rewrite Er, Lo in X; cbn [nth] in X; rewrite X; f_equal; lia).
  assert (K1 : k1 = nth (N * M - 2) o 0%nat) by (pose proof (nth_rev_r o 1 0%nat ltac:(lia)) as X; rewrite Er, Lo in X; cbn [nth] in X; rewrite X; f_equal; lia).
  assert (I0 : (k0 < N * M)%nat) by (apply Rg; rewrite K0; apply nth_In; lia). assert (I1 : (k1 < N * M)%nat) by (apply Rg; rewrite K1; apply nth_In; lia).
  assert (Ne : k0 <> k1) by (rewrite K0, K1; intros C; apply NoDup_nth in C; [lia|exact Nd|lia|lia]).
  assert (M0 : forall k, (k < N * M)%nat -> nth k (spectrum_flat g) 0 <= nth k0 (spectrum_flat g) 0).
  { intros k Hk. apply Rg in Hk. apply In_nth with (d := 0%nat) in Hk. destruct Hk as (i & Hi & <-). rewrite K0. apply Ord. lia. }
  assert (M1 : forall k, (k < N * M)%nat -> k <> k0 -> nth k (spectrum_flat g) 0 <= nth k1 (spectrum_flat g) 0).
  { intros k Hk Hn. apply Rg in Hk. apply In_nth with (d := 0%nat) in Hk. destruct Hk as (i & Hi & <-). rewrite K1. apply Ord. assert (i <> N * M - 1)%nat by (intros ->; apply Hn; symmetry; exact K0). lia. }
  destruct up_exists as (ku & Hku & Eu), dn_exists as (kd & Hkd & Ed).
  assert (Vu : nth ku (spectrum_flat g) 0 = peak) by (rewrite flat_nth, Eu by exact Hku; reflexivity).
  assert (Vd : nth kd (spectrum_flat g) 0 = peak) by (rewrite flat_nth, Ed, orb_true_r by exact Hkd; reflexivity).
  assert (Nud : ku <> kd) by (intros C; subst kd; rewrite (exclusive _ _ Eu) in Ed; discriminate Ed). pose proof peak_pos as PP.
  assert (Hit : forall k, (k < N * M)%nat -> peak <= nth k (spectrum_flat g) 0 -> k = ku \/ k = kd).
  { intros k Hk V. rewrite flat_nth in V by exact Hk. destruct (upw (fst (cell k)) (snd (cell k))) eqn:E1; [left; apply up_unique; assumption|]. destruct (dnw (fst (cell k)) (snd (cell k))) eqn:E2; [right; apply dn_unique; assumption|]. cbn [orb] in V. lra. }
  assert (C0 : k0 = ku \/ k0 = kd) by (apply Hit; [exact I0|rewrite <- Vu; apply M0; exact Hku]).
  exists k0, k1, tl. split; [reflexivity|]. split; [exact I0|]. split; [exact I1|]. destruct C0 as [-> | ->].
  - left. split; [exact Eu|]. destruct (Hit k1 I1) as [-> | ->]; [rewrite <- Vd; apply M1; [exact Hkd|congruence]|congruence|exact Ed].
  - right. split; [exact Ed|]. destruct (Hit k1 I1) as [-> | ->]; [rewrite <- Vu; apply M1; [exact Hku|congruence]|exact Eu|congruence].
Qed.
Lemma peaks_wave : exists dx dy, peak_dx_dy g sx sy argsort = Ok (dx, dy) /\ dx = 2 * Rabs (IZR q / W) /\
  ((0 < q)%Z -> dy = -2 * (IZR p / H)) /\ ((q < 0)%Z -> dy = 2 * (IZR p / H)) /\ Rabs dy = 2 * Rabs (IZR p / H).
Proof.
  unfold peak_dx_dy. rewrite complete, cols_g. destruct top_two as (k0 & k1 & tl & -> & I0 & I1 & C). pose proof W_pos as PW.
  assert (Sg : (0 < q)%Z -> 0 < IZR q / W) by (intros X; apply Rmult_lt_0_compat; [apply IZR_lt; exact X|apply Rinv_0_lt_compat; exact PW]).
  assert (Sl : (q < 0)%Z -> IZR q / W < 0) by (intros X; apply IZR_lt in X; pose proof (Rinv_0_lt_compat W PW); unfold Rdiv; nra).
  assert (S0 : q = 0%Z -> IZR q / W = 0) by (intros ->; unfold Rdiv; ring).
  set (x := IZR q / W) in *. set (y := IZR p / H) in *.
  assert (A2 : forall s t, s - t = 2 * y \/ s - t = -2 * y -> Rabs (s - t) = 2 * Rabs y) by (intros s t [-> | ->]; rewrite Rabs_mult; [rewrite (Rabs_pos_eq 2) by lra|rewrite (Rabs_left (-2)) by lra]; lra).
  assert (R2 : forall s t, 0 <= s - t -> s - t = 2 * x \/ s - t = -2 * x -> s - t = 2 * Rabs x) by (intros s t Hn [E|E]; rewrite E in *; [rewrite Rabs_pos_eq by lra|rewrite Rabs_left1 by lra]; lra).
  destruct C as [[E0 E1]|[E0 E1]]; [destruct (up_freq k0 I0 E0) as [X0 Y0], (dn_freq k1 I1 E1) as [X1 Y1]|destruct (dn_freq k0 I0 E0) as [X0 Y0], (up_freq k1 I1 E1) as [X1 Y1]];
    rewrite X0, Y0, X1, Y1; fold x y; cbn [fst snd]; unfold Rltb; destruct (Rlt_dec _ _) as [L|L]; cbv beta iota; cbn [fst snd];
    (eexists; eexists; split; [reflexivity|]; split; [apply R2; [lra|lra]|]; split; [intros Q; apply Sg in Q; lra|]; split; [intros Q; apply Sl in Q; lra|]; apply A2; lra).
Qed.
Lemma hypot_two x y dx dy : dx = 2 * Rabs x -> Rabs dy = 2 * Rabs y -> sqrt (dx ^ 2 + dy ^ 2) = 2 * sqrt (x ^ 2 + y ^ 2).
Proof.
  intros -> E. rewrite <- (pow2_abs dy), E. replace ((2 * Rabs x) ^ 2 + (2 * Rabs y) ^ 2) with (2 * 2 * (Rabs x ^ 2 + Rabs y ^ 2)) by ring. rewrite !pow2_abs. rewrite sqrt_mult_alt by lra. rewrite sqrt_square by lra. reflexivity.
Qed.
(** The period is the same value ... *)
Theorem C42_period_partial : period g sx sy argsort = Ok (Some (short_wavelength p q N M sx sy)).
Proof.
  unfold period. destruct peaks_wave as (dx & dy & -> & Edx & _ & _ & Edy). cbn [rmap fst snd]. apply f_equal. rewrite (hypot_two _ _ _ _ Edx Edy). pose proof freq_nz as P. apply sqrt_lt_R0 in P.
  destruct (Req_EM_T _ 0) as [C|C]; [lra|]. unfold short_wavelength. fold W H. apply f_equal. field. lra.
Qed.
(** ... its components are the extents over the number of periods, infinite if there is none ... *)
Theorem C42_period_x_y_partial : period_x_y g sx sy argsort =
  Ok (if Z.eqb q 0 then None else Some ((INR M - 1) * sx / Rabs (IZR q)), if Z.eqb p 0 then None else Some ((INR N - 1) * sy / Rabs (IZR p))).
Proof.
  unfold period_x_y. destruct peaks_wave as (dx & dy & -> & Edx & _ & _ & Edy). cbn [rmap fst snd]. apply f_equal. pose proof W_pos as PW. pose proof H_pos as PH.
  assert (G : forall d n e, 0 < e -> Rabs d = 2 * Rabs (IZR n / e) -> (if Req_EM_T d 0 then None else Some (Rabs (2 / d))) = (if Z.eqb n 0 then None else Some (e / Rabs (IZR n)))).
  { intros d n e He E. destruct (Z.eqb_spec n 0) as [-> |Nn].
    - destruct (Req_EM_T d 0) as [|C]; [reflexivity|]. exfalso. unfold Rdiv in E. rewrite Rmult_0_l, Rabs_R0 in E. apply Rabs_pos_lt in C. lra.
    - assert (Nz : IZR n <> 0) by (apply not_0_IZR; exact Nn). pose proof (Rabs_pos_lt _ Nz) as Pn. unfold Rdiv in E. rewrite Rabs_mult, Rabs_inv, (Rabs_pos_eq e) in E by lra.
      destruct (Req_EM_T d 0) as [C|C]; [exfalso; rewrite C, Rabs_R0 in E; assert (0 < Rabs (IZR n) * / e) by (apply Rmult_lt_0_compat; [exact Pn|apply Rinv_0_lt_compat; exact He]); lra|].
      apply f_equal. unfold Rdiv. rewrite Rabs_mult, Rabs_inv, E, (Rabs_pos_eq 2) by lra. field. lra. }
  rewrite (G dx q W PW) by (rewrite Edx, Rabs_pos_eq; [reflexivity|pose proof (Rabs_pos (IZR q / W)); lra]). rewrite (G dy p H PH Edy). reflexivity.
Qed.
(** ... and the orientation is the angle of the wave vector in these lengths. *)
Theorem C42_orientation_partial : orientation g sx sy argsort =
  Ok (if Z.eqb q 0 then 90 else if Z.eqb p 0 then 0 else atan (- (IZR p / ((INR N - 1) * sy)) / (IZR q / ((INR M - 1) * sx))) * (180 / PI)).
Proof.
  unfold orientation. destruct peaks_wave as (dx & dy & -> & Edx & Eg & El & Edy). cbn [rmap fst snd]. apply f_equal. pose proof W_pos as PW. pose proof H_pos as PH. fold W H.
  assert (Nz : forall n e, 0 < e -> n <> 0%Z -> IZR n / e <> 0) by (intros n e He Hn; unfold Rdiv; apply Rmult_integral_contrapositive_currified; [apply not_0_IZR; exact Hn|apply Rinv_neq_0_compat; lra]).
  destruct (Z.eqb_spec q 0) as [E|E].
  - destruct (Req_EM_T dx 0) as [|C]; [reflexivity|]. exfalso. apply C. rewrite Edx, E. unfold Rdiv. rewrite Rmult_0_l, Rabs_R0. ring.
  - pose proof (Rabs_pos_lt _ (Nz q W PW E)) as Pq. destruct (Req_EM_T dx 0) as [C|_]; [exfalso; lra|]. destruct (Z.eqb_spec p 0) as [E'|E'].
    + destruct (Req_EM_T dy 0) as [|C]; [reflexivity|]. exfalso. apply Rabs_pos_lt in C. rewrite Edy, E' in C. unfold Rdiv in C. rewrite Rmult_0_l, Rabs_R0 in C. lra.
    + pose proof (Rabs_pos_lt _ (Nz p H PH E')) as Pp. destruct (Req_EM_T dy 0) as [C|_]; [exfalso; rewrite C, Rabs_R0 in Edy; lra|]. f_equal. f_equal.
      pose proof (Nz q W PW E) as Nq. destruct (Z_lt_le_dec 0 q) as [L|L].
      * rewrite (Eg L), Edx. assert (0 < IZR q / W) by (apply Rmult_lt_0_compat; [apply IZR_lt; exact L|apply Rinv_0_lt_compat; exact PW]). rewrite Rabs_pos_eq by lra. field. repeat split; try lra. apply not_0_IZR. exact E.
      * assert (L' : (q < 0)%Z) by lia. rewrite (El L'), Edx. assert (IZR q / W < 0) by (apply IZR_lt in L'; pose proof (Rinv_0_lt_compat W PW); unfold Rdiv; nra). rewrite Rabs_left by lra. field. repeat split; try lra. apply not_0_IZR. exact E.
Qed.
End Wave.

(** *** The reported lengths are too short: N and M sampled points are taken to be N - 1 and M - 1 pixels long. *)
Section Calibration.
Variables (sx sy : R) (p q : Z) (N M : nat).
Hypotheses (HN : (2 <= N)%nat) (HM : (2 <= M)%nat) (Hsx : 0 < sx) (Hsy : 0 < sy) (Hpq : (p, q) <> (0, 0)%Z).
Lemma bigN : 2 <= INR N. Proof. apply le_INR in HN. cbn [INR] in HN. lra. Qed.
Lemma bigM : 2 <= INR M. Proof. apply le_INR in HM. cbn [INR] in HM. lra. Qed.
Lemma inv_sq_le c e e' : 0 < e <= e' -> (IZR c / e') ^ 2 <= (IZR c / e) ^ 2.
Proof.
  intros He. unfold Rdiv. rewrite !Rpow_mult_distr. apply Rmult_le_compat_l; [apply pow2_ge_0|]. assert (/ e' <= / e) by (apply Rinv_le_contravar; lra). pose proof (Rinv_0_lt_compat e' ltac:(lra)). nra.
Qed.
Lemma inv_sq_lt c e e' : 0 < e < e' -> c <> 0%Z -> 0 < (IZR c / e') ^ 2 < (IZR c / e) ^ 2.
Proof.
  intros He Hc. apply not_0_IZR in Hc. unfold Rdiv. rewrite !Rpow_mult_distr. assert (P : 0 < IZR c ^ 2) by (rewrite <- Rsqr_pow2; apply Rsqr_pos_lt; exact Hc).
  assert (/ e' < / e) by (apply Rinv_lt_contravar; [apply Rmult_lt_0_compat; lra|lra]). pose proof (Rinv_0_lt_compat e' ltac:(lra)) as Pe'. split; [apply Rmult_lt_0_compat; [exact P|nra]|]. apply Rmult_lt_compat_l; [exact P|]. nra.
Qed.
Lemma true_pos : 0 < (IZR q / (INR M * sx)) ^ 2 + (IZR p / (INR N * sy)) ^ 2 < (IZR q / ((INR M - 1) * sx)) ^ 2 + (IZR p / ((INR N - 1) * sy)) ^ 2.
Proof.
  pose proof bigN. pose proof bigM. assert (Ex : 0 < (INR M - 1) * sx < INR M * sx) by nra. assert (Ey : 0 < (INR N - 1) * sy < INR N * sy) by nra.
  pose proof (inv_sq_le q _ _ (conj (proj1 Ex) (Rlt_le _ _ (proj2 Ex)))) as Lx. pose proof (inv_sq_le p _ _ (conj (proj1 Ey) (Rlt_le _ _ (proj2 Ey)))) as Ly.
  pose proof (pow2_ge_0 (IZR q / (INR M * sx))). pose proof (pow2_ge_0 (IZR p / (INR N * sy))).
  destruct (Z.eq_dec q 0) as [Eq|Nq].
  - assert (Np : p <> 0%Z) by (intros C; apply Hpq; rewrite C, Eq; reflexivity). pose proof (inv_sq_lt p _ _ Ey Np). lra.
  - pose proof (inv_sq_lt q _ _ Ex Nq). lra.
Qed.
(** No wave is reported with its true wavelength ... *)
Theorem C42_refuted (a phi off : R) (argsort : list R -> list nat) : a <> 0 -> (2 * Z.abs p < Z.of_nat N)%Z -> (2 * Z.abs q < Z.of_nat M)%Z ->
  sorts argsort (spectrum_flat (wave_surface a phi off p q N M)) ->
  exists l, dominant_wavelength (wave_surface a phi off p q N M) sx sy = Ok (Some l) /\ period (wave_surface a phi off p q N M) sx sy argsort = Ok (Some l) /\ 0 < l < true_wavelength p q N M sx sy.
Proof.
  intros Ha Hp Hq Hs. exists (short_wavelength p q N M sx sy). split; [apply C42_Ssw_partial; assumption|]. split; [apply C42_period_partial; assumption|].
  destruct true_pos as [P L]. assert (S1 := sqrt_lt_R0 _ P). assert (S2 : sqrt ((IZR q / (INR M * sx)) ^ 2 + (IZR p / (INR N * sy)) ^ 2) < sqrt ((IZR q / ((INR M - 1) * sx)) ^ 2 + (IZR p / ((INR N - 1) * sy)) ^ 2)) by (apply sqrt_lt_1; lra).
  unfold short_wavelength, true_wavelength, Rdiv. rewrite !Rmult_1_l. split; [apply Rinv_0_lt_compat; lra|]. apply Rinv_lt_contravar; [apply Rmult_lt_0_compat; lra|exact S2].
Qed.
(** ... the error is at most one part in the number of points. *)
Theorem C42_error_partial (n : nat) : (2 <= n)%nat -> (n <= N)%nat -> (n <= M)%nat -> (1 - / INR n) * true_wavelength p q N M sx sy <= short_wavelength p q N M sx sy.
Proof.
  intros Hn HnN HnM. pose proof bigN. pose proof bigM. apply le_INR in Hn, HnN, HnM. cbn [INR] in Hn. destruct true_pos as [P L].
  set (T := (IZR q / (INR M * sx)) ^ 2 + (IZR p / (INR N * sy)) ^ 2) in *. set (S := (IZR q / ((INR M - 1) * sx)) ^ 2 + (IZR p / ((INR N - 1) * sy)) ^ 2) in *.
  set (c := 1 - / INR n). assert (Hi : 0 < / INR n <= / 2) by (split; [apply Rinv_0_lt_compat; lra|apply Rinv_le_contravar; lra]). assert (Hc : 0 < c) by (unfold c; lra).
  assert (G : forall k m e, 0 < e -> INR n <= m -> c ^ 2 * (IZR k / ((m - 1) * e)) ^ 2 <= (IZR k / (m * e)) ^ 2).
  { intros k m e He Hm. rewrite <- Rpow_mult_distr. assert (X : c * (IZR k / ((m - 1) * e)) = (c * (m / (m - 1))) * (IZR k / (m * e))) by (field; repeat split; lra). rewrite X, Rpow_mult_distr.
    assert (Y : 0 <= c * (m / (m - 1)) <= 1).
    { assert (Im : 0 < / (m - 1)) by (apply Rinv_0_lt_compat; lra). split; [apply Rmult_le_pos; [lra|]; apply Rmult_le_pos; lra|].
      apply Rmult_le_reg_r with (m - 1); [lra|]. replace (c * (m / (m - 1)) * (m - 1)) with (c * m) by (field; lra). unfold c. assert (1 <= / INR n * m); [|lra]. apply Rmult_le_reg_l with (INR n); [lra|]. rewrite <- Rmult_assoc, Rinv_r by lra. lra. }
    pose proof (pow2_ge_0 (IZR k / (m * e))). assert (Z2 : (c * (m / (m - 1))) ^ 2 <= 1) by nra. rewrite <- (Rmult_1_l ((IZR k / (m * e)) ^ 2)) at 2. apply Rmult_le_compat_r; assumption. }
  assert (B : c ^ 2 * S <= T) by (unfold S, T; rewrite Rmult_plus_distr_l; apply Rplus_le_compat; apply G; lra).
  assert (B' : c * sqrt S <= sqrt T). { rewrite <- (sqrt_square c) at 1 by lra. rewrite <- sqrt_mult_alt by nra. apply sqrt_le_1_alt. lra. }
  assert (S1 := sqrt_lt_R0 _ P). assert (S2 := sqrt_lt_R0 S ltac:(lra)). unfold short_wavelength, true_wavelength. fold T S.
  apply Rmult_le_reg_r with (sqrt S * sqrt T); [apply Rmult_lt_0_compat; assumption|]. replace (c * (1 / sqrt T) * (sqrt S * sqrt T)) with (c * sqrt S) by (field; lra). replace (1 / sqrt S * (sqrt S * sqrt T)) with (sqrt T) by (field; lra). exact B'.
Qed.
(** A wave along x: k periods over M points are M step / k long and reported as (M - 1) step / k. *)
Theorem C42_along_x (k : Z) : (0 < k)%Z -> true_wavelength 0 k N M sx sy = INR M * sx / IZR k /\ short_wavelength 0 k N M sx sy = (INR M - 1) * sx / IZR k.
Proof.
  intros Hk. apply IZR_lt in Hk. pose proof bigN. pose proof bigM.
  assert (G : forall e h, 0 < e -> 0 < h -> 1 / sqrt ((IZR k / e) ^ 2 + (0 / h) ^ 2) = e / IZR k).
  { intros e h He Hh. replace ((IZR k / e) ^ 2 + (0 / h) ^ 2) with (Rsqr (IZR k / e)) by (unfold Rsqr; field; lra). rewrite sqrt_Rsqr; [field; lra|]. apply Rmult_le_pos; [lra|]. left. apply Rinv_0_lt_compat. exact He. }
  unfold true_wavelength, short_wavelength. split; apply G; apply Rmult_lt_0_compat; lra.
Qed.
(** The orientation of an oblique wave is wrong unless the surface is as many points wide as high. *)
Theorem C42_orientation_refuted (a phi off : R) (argsort : list R -> list nat) : a <> 0 -> (2 * Z.abs p < Z.of_nat N)%Z -> (2 * Z.abs q < Z.of_nat M)%Z -> p <> 0%Z -> q <> 0%Z -> N <> M ->
  sorts argsort (spectrum_flat (wave_surface a phi off p q N M)) ->
  exists t, orientation (wave_surface a phi off p q N M) sx sy argsort = Ok t /\ t <> atan (- (IZR p / (INR N * sy)) / (IZR q / (INR M * sx))) * (180 / PI).
Proof.
  intros Ha Hp Hq Np Nq NM Hs. eexists. split; [apply C42_orientation_partial; assumption|]. destruct (Z.eqb_spec q 0) as [C|_]; [contradiction|]. destruct (Z.eqb_spec p 0) as [C|_]; [contradiction|].
  pose proof bigN. pose proof bigM. apply not_0_IZR in Np, Nq. pose proof PI_RGT_0. intros C. apply Rmult_eq_reg_r in C; [|unfold Rdiv; apply Rmult_integral_contrapositive_currified; [lra|apply Rinv_neq_0_compat; lra]].
  apply (f_equal tan) in C. rewrite !tan_atan in C. apply NM. apply INR_eq.
  assert (E : INR M / INR N = (INR M - 1) / (INR N - 1)).
  { apply Rmult_eq_reg_l with (- (IZR p / IZR q) * (sx / sy)).
    - transitivity (- (IZR p / (INR N * sy)) / (IZR q / (INR M * sx))); [field; repeat split; try assumption; lra|]. rewrite <- C. field. repeat split; try assumption; lra.
    - apply Rmult_integral_contrapositive_currified; [apply Ropp_neq_0_compat; unfold Rdiv; apply Rmult_integral_contrapositive_currified; [exact Np|apply Rinv_neq_0_compat; exact Nq]|unfold Rdiv; apply Rmult_integral_contrapositive_currified; [lra|apply Rinv_neq_0_compat; lra]]. }
  assert (E2 : INR M * (INR N - 1) = (INR M - 1) * INR N). { apply Rmult_eq_reg_r with (/ INR N * / (INR N - 1)); [|apply Rmult_integral_contrapositive_currified; apply Rinv_neq_0_compat; lra]. transitivity (INR M / INR N); [field; lra|]. rewrite E. field. lra. }
  lra.
Qed.
End Calibration.

(** The hypotheses can be met: an ascending insertion sort of the indices is a valid argsort. *)
Fixpoint ins (l : list R) (k : nat) (s : list nat) : list nat :=
  match s with [] => [k] | h :: t => if Rle_dec (nth k l 0) (nth h l 0) then k :: s else h :: ins l k t end.
Definition argsort0 (l : list R) : list nat := fold_right (ins l) [] (seq 0 (length l)).
Lemma ins_perm l k s : Permutation (ins l k s) (k :: s).
Proof. induction s as [|h t IH]; cbn [ins]; [reflexivity|]. destruct (Rle_dec _ _); [reflexivity|]. rewrite IH. apply perm_swap. Qed.
Inductive asc (l : list R) : list nat -> Prop :=
| asc_nil : asc l []
| asc_cons k s : (forall h, In h s -> nth k l 0 <= nth h l 0) -> asc l s -> asc l (k :: s).
Lemma ins_asc l k s : asc l s -> asc l (ins l k s).
Proof.
  induction 1 as [|h t Hh Ht IH]; cbn [ins]; [apply asc_cons; [intros h []|apply asc_nil]|]. destruct (Rle_dec _ _) as [L|L].
  - constructor; [|constructor; assumption]. intros x [<- |Hx]; [exact L|]. eapply Rle_trans; [exact L|apply Hh; exact Hx].
  - constructor; [|exact IH]. intros x Hx. apply (Permutation_in _ (ins_perm l k t)) in Hx. destruct Hx as [<- |Hx]; [lra|apply Hh; exact Hx].
Qed.
Lemma asc_nth l s i j : asc l s -> (i <= j < length s)%nat -> nth (nth i s 0%nat) l 0 <= nth (nth j s 0%nat) l 0.
Proof.
  intros A. revert i j. induction A as [|k s Hk Hs IH]; intros i j H; [cbn [length] in H; lia|]. destruct i as [|i], j as [|j]; cbn [nth length] in *; [lra|apply Hk; apply nth_In; lia|lia|apply IH; lia].
Qed.
Theorem C42_argsort_example (l : list R) : sorts argsort0 l.
Proof.
  assert (G : forall ks, Permutation (fold_right (ins l) [] ks) ks /\ asc l (fold_right (ins l) [] ks)).
  { induction ks as [|k ks [IH1 IH2]]; cbn [fold_right]; [split; constructor|]. split; [rewrite ins_perm; constructor; exact IH1|apply ins_asc; exact IH2]. }
  destruct (G (seq 0 (length l))) as [P A]. split; [exact P|]. intros i j H. apply asc_nth; [exact A|]. fold (argsort0 l). rewrite (Permutation_length P : length (argsort0 l) = _), seq_length. exact H.
Qed.
Example C42_example : dominant_wavelength (wave_surface 1 0 5 0 1 2 4) 1 1 = Ok (Some 3) /\ true_wavelength 0 1 2 4 1 1 = 4.
Proof.
  split.
  - rewrite (C42_Ssw_partial 1 0 5 1 1 0 1 2 4) by (try lia; try lra; intros X; discriminate X). destruct (C42_along_x 1 1 2 4 ltac:(lia) ltac:(lia) ltac:(lra) ltac:(lra) 1 ltac:(lia)) as [_ ->]. do 2 apply f_equal. cbn [INR]. field.
  - destruct (C42_along_x 1 1 2 4 ltac:(lia) ltac:(lia) ltac:(lra) ltac:(lra) 1 ltac:(lia)) as [-> _]. cbn [INR]. field.
Qed.
