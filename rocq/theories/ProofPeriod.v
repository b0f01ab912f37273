(** Lemmas for C86: the transform of one or two cosines, and scipy's peak finder. *)
From Coq Require Import Reals List Bool Arith ZArith Lia Lra Permutation.
From Verif Require Import Base RList ModelMath ModelHeights ModelGeom ModelAcf ModelFourier ModelPeriod SpecPeriod PropsAcf ProofFourier PropsFourier.
Import ListNotations.
Local Open Scope R_scope.

Lemma sin_sum1 M (m : Z) phi : (0 < M)%nat -> sumR (map (fun j => sin (2 * PI * (IZR m * INR j / INR M) + phi)) (seq 0 M)) = if hit M m then INR M * sin phi else 0.
Proof. intros H. rewrite (sin_as_cos phi), <- cos_sum by exact H. apply sumR_ext. intros j _. rewrite sin_as_cos. f_equal. ring. Qed.

(** *** Cosines *)
Section Tone.
Variables (N : nat) (k : nat).
Hypothesis HN : (0 < N)%nat.
Let th (j : nat) : R := 2 * PI * (INR k * INR j / INR N).
Definition tone (a phi : R) (K j : nat) : R := a * cos (2 * PI * (INR K * INR j / INR N) + phi).
Lemma tone_re a phi K : sumR (map (fun j => tone a phi K j * cos (th j)) (seq 0 N)) =
  a * INR N / 2 * ((if hit N (Z.of_nat k - Z.of_nat K) then cos phi else 0) + (if hit N (Z.of_nat k + Z.of_nat K) then cos phi else 0)).
Proof.
  rewrite (sumR_ext _ (fun j => a / 2 * cos (2 * PI * (IZR (Z.of_nat k - Z.of_nat K) * INR j / INR N) + - phi) + a / 2 * cos (2 * PI * (IZR (Z.of_nat k + Z.of_nat K) * INR j / INR N) + phi))).
  - rewrite sumR_plus, !sumR_scale, !cos_sum by exact HN. rewrite cos_neg. destruct (hit _ _), (hit _ _); field.
  - intros j _. unfold tone, th. rewrite minus_IZR, plus_IZR, <- !INR_IZR_INZ. set (A := 2 * PI * (INR K * INR j / INR N) + phi). set (B := 2 * PI * (INR k * INR j / INR N)).
    replace (2 * PI * ((INR k - INR K) * INR j / INR N) + - phi) with (B - A) by (unfold A, B, Rdiv; ring).
    replace (2 * PI * ((INR k + INR K) * INR j / INR N) + phi) with (B + A) by (unfold A, B, Rdiv; ring). rewrite cos_plus, cos_minus. field.
Qed.
Lemma tone_im a phi K : sumR (map (fun j => tone a phi K j * sin (th j)) (seq 0 N)) =
  a * INR N / 2 * ((if hit N (Z.of_nat k + Z.of_nat K) then sin phi else 0) - (if hit N (Z.of_nat k - Z.of_nat K) then sin phi else 0)).
Proof.
  rewrite (sumR_ext _ (fun j => a / 2 * sin (2 * PI * (IZR (Z.of_nat k - Z.of_nat K) * INR j / INR N) + - phi) + a / 2 * sin (2 * PI * (IZR (Z.of_nat k + Z.of_nat K) * INR j / INR N) + phi))).
  - rewrite sumR_plus, !sumR_scale, !sin_sum1 by exact HN. rewrite sin_neg. destruct (hit _ _), (hit _ _); field.
  - intros j _. unfold tone, th. rewrite minus_IZR, plus_IZR, <- !INR_IZR_INZ. set (A := 2 * PI * (INR K * INR j / INR N) + phi). set (B := 2 * PI * (INR k * INR j / INR N)).
    replace (2 * PI * ((INR k - INR K) * INR j / INR N) + - phi) with (B - A) by (unfold A, B, Rdiv; ring).
    replace (2 * PI * ((INR k + INR K) * INR j / INR N) + phi) with (B + A) by (unfold A, B, Rdiv; ring). rewrite sin_plus, sin_minus. field.
Qed.
Lemma const_re off : sumR (map (fun j => off * cos (th j)) (seq 0 N)) = if hit N (Z.of_nat k) then off * INR N else 0.
Proof.
  rewrite sumR_scale. rewrite (sumR_ext _ (fun j => cos (2 * PI * (IZR (Z.of_nat k) * INR j / INR N) + 0))) by (intros j _; unfold th; rewrite <- INR_IZR_INZ; f_equal; ring).
  rewrite cos_sum by exact HN. rewrite cos_0. destruct (hit _ _); ring.
Qed.
Lemma const_im off : sumR (map (fun j => off * sin (th j)) (seq 0 N)) = 0.
Proof.
  rewrite sumR_scale. rewrite (sumR_ext _ (fun j => sin (2 * PI * (IZR (Z.of_nat k) * INR j / INR N) + 0))) by (intros j _; unfold th; rewrite <- INR_IZR_INZ; f_equal; ring).
  rewrite sin_sum1 by exact HN. rewrite sin_0. destruct (hit _ _); ring.
Qed.
End Tone.

Lemma hit_minus N k K : (k < N)%nat -> (K < N)%nat -> hit N (Z.of_nat k - Z.of_nat K) = Nat.eqb k K.
Proof.
  intros Hk HK. apply eq_true_iff_eq. rewrite hit_iff by lia. rewrite Nat.eqb_eq. split.
  - intros [c Hc]. assert (Z.of_nat k - Z.of_nat K = 0)%Z by (apply (small_mult c (Z.of_nat N)); lia). lia.
  - intros ->. exists 0%Z. lia.
Qed.
Lemma hit_plus N k K : (k < N)%nat -> (0 < K < N)%nat -> hit N (Z.of_nat k + Z.of_nat K) = Nat.eqb k (N - K).
Proof.
  intros Hk HK. replace (hit N (Z.of_nat k + Z.of_nat K)) with (hit N (Z.of_nat k - Z.of_nat (N - K))); [apply hit_minus; lia|].
  apply eq_true_iff_eq. rewrite !hit_iff by lia. split; intros [c Hc]; [exists (c + 1)%Z|exists (c - 1)%Z]; lia.
Qed.
Lemma hit_zero N k : (k < N)%nat -> hit N (Z.of_nat k) = Nat.eqb k 0.
Proof. intros H. rewrite <- (hit_minus N k 0) by lia. f_equal. lia. Qed.

(** heights made of an offset and two cosines *)
Definition two (N : nat) (off a phi : R) (K : nat) (b psi : R) (L : nat) : list R :=
  map (fun j => off + (tone N a phi K j + tone N b psi L j)) (seq 0 N).
Lemma two_length N off a phi K b psi L : length (two N off a phi K b psi L) = N.
Proof. unfold two. rewrite map_length, seq_length. reflexivity. Qed.
Lemma two_nth N off a phi K b psi L j : (j < N)%nat -> nth j (two N off a phi K b psi L) 0 = off + (tone N a phi K j + tone N b psi L j).
Proof. intros H. unfold two. rewrite (nth_indep _ 0 (off + (tone N a phi K N + tone N b psi L N))) by (rewrite map_length, seq_length; exact H). rewrite (map_nth (fun j => off + (tone N a phi K j + tone N b psi L j))), seq_nth by exact H. reflexivity. Qed.
Section Two.
Variables (N : nat) (off a phi : R) (K : nat) (b psi : R) (L : nat).
Hypotheses (HK : (0 < K)%nat) (HK2 : (2 * K < N)%nat) (HL : (0 < L)%nat) (HL2 : (2 * L < N)%nat) (HKL : K <> L).
Let y := two N off a phi K b psi L.
Lemma Npos : 0 < INR N. Proof. apply lt_0_INR. lia. Qed.
Lemma two_re k : (k < N)%nat -> fft_re y k = (if Nat.eqb k 0 then off * INR N else 0) +
  (a * INR N / 2 * ((if Nat.eqb k K then cos phi else 0) + (if Nat.eqb k (N - K) then cos phi else 0)) +
   b * INR N / 2 * ((if Nat.eqb k L then cos psi else 0) + (if Nat.eqb k (N - L) then cos psi else 0))).
Proof.
  intros Hk. unfold fft_re, y. rewrite two_length.
  rewrite (sumR_ext _ (fun j => off * cos (2 * PI * (INR k * INR j / INR N)) + (tone N a phi K j * cos (2 * PI * (INR k * INR j / INR N)) + tone N b psi L j * cos (2 * PI * (INR k * INR j / INR N))))).
  - rewrite !sumR_plus, const_re, !tone_re by lia. rewrite hit_zero, !hit_minus, !hit_plus by lia. reflexivity.
  - intros j Hj. apply in_seq in Hj. rewrite two_nth by lia. ring.
Qed.
Lemma two_im k : (k < N)%nat -> fft_im y k = -
  (a * INR N / 2 * ((if Nat.eqb k (N - K) then sin phi else 0) - (if Nat.eqb k K then sin phi else 0)) +
   b * INR N / 2 * ((if Nat.eqb k (N - L) then sin psi else 0) - (if Nat.eqb k L then sin psi else 0))).
Proof.
  intros Hk. unfold fft_im, y. rewrite two_length. f_equal.
  rewrite (sumR_ext _ (fun j => off * sin (2 * PI * (INR k * INR j / INR N)) + (tone N a phi K j * sin (2 * PI * (INR k * INR j / INR N)) + tone N b psi L j * sin (2 * PI * (INR k * INR j / INR N))))).
  - rewrite !sumR_plus, const_im, !tone_im by lia. rewrite !hit_minus, !hit_plus by lia. ring.
  - intros j Hj. apply in_seq in Hj. rewrite two_nth by lia. ring.
Qed.
Lemma polar A t s : s = 1 \/ s = -1 -> sqrt ((A * cos t) ^ 2 + (s * (A * sin t)) ^ 2) = Rabs A.
Proof.
  intros Hs. rewrite <- sqrt_Rsqr_abs. f_equal. pose proof (sin2_cos2 t) as SC. unfold Rsqr in *.
  transitivity (A * A * (sin t * sin t + cos t * cos t)); [|rewrite SC; ring]. destruct Hs as [-> | ->]; ring.
Qed.
Lemma abs_half c : Rabs (c * INR N / 2) = Rabs c * INR N / 2.
Proof. pose proof Npos. unfold Rdiv. rewrite !Rabs_mult, (Rabs_pos_eq (INR N)), (Rabs_pos_eq (/ 2)) by lra. reflexivity. Qed.
(** the spectrum: the mean at 0, the two cosines and their mirror images, 0 elsewhere *)
Lemma two_abs k : (k < N)%nat -> fft_abs y k =
  if Nat.eqb k 0 then Rabs off * INR N
  else if Nat.eqb k K || Nat.eqb k (N - K) then Rabs a * INR N / 2
  else if Nat.eqb k L || Nat.eqb k (N - L) then Rabs b * INR N / 2 else 0.
Proof.
  intros Hk. unfold fft_abs. rewrite two_re, two_im by exact Hk.
  destruct (Nat.eqb_spec k 0) as [E0|E0].
  - destruct (Nat.eqb_spec k K); [lia|]. destruct (Nat.eqb_spec k (N - K)); [lia|]. destruct (Nat.eqb_spec k L); [lia|]. destruct (Nat.eqb_spec k (N - L)); [lia|].
    replace (Rabs off * INR N) with (Rabs (off * INR N)) by (pose proof Npos; rewrite Rabs_mult, (Rabs_pos_eq (INR N)) by lra; reflexivity).
    rewrite <- sqrt_Rsqr_abs. f_equal. unfold Rsqr. ring.
  - destruct (Nat.eqb_spec k K) as [E1|E1].
    + destruct (Nat.eqb_spec k (N - K)); [lia|]. destruct (Nat.eqb_spec k L); [lia|]. destruct (Nat.eqb_spec k (N - L)); [lia|]. cbn [orb].
      rewrite <- abs_half, <- (polar _ phi 1) by (left; reflexivity). f_equal. ring.
    + destruct (Nat.eqb_spec k (N - K)) as [E2|E2].
      * destruct (Nat.eqb_spec k L); [lia|]. destruct (Nat.eqb_spec k (N - L)); [lia|]. cbn [orb].
        rewrite <- abs_half, <- (polar _ phi (-1)) by (right; reflexivity). f_equal. ring.
      * cbn [orb]. destruct (Nat.eqb_spec k L) as [E3|E3].
        -- destruct (Nat.eqb_spec k (N - L)); [lia|]. cbn [orb]. rewrite <- abs_half, <- (polar _ psi 1) by (left; reflexivity). f_equal. ring.
        -- destruct (Nat.eqb_spec k (N - L)) as [E4|E4]; cbn [orb].
           ++ rewrite <- abs_half, <- (polar _ psi (-1)) by (right; reflexivity). f_equal. ring.
           ++ match goal with |- sqrt ?e = 0 => replace e with 0 by ring end. apply sqrt_0.
Qed.
End Two.

Lemma spectrum_length y : length (spectrum y) = length y.
Proof. unfold spectrum. rewrite map_length, seq_length. reflexivity. Qed.
Lemma spectrum_nth y k : (k < length y)%nat -> xn (spectrum y) k = fft_abs y k.
Proof. intros H. unfold xn, spectrum. rewrite (nth_indep _ 0 (fft_abs y 0)) by (rewrite map_length, seq_length; exact H). rewrite map_nth, seq_nth by exact H. reflexivity. Qed.
Lemma fft_abs_nonneg y k : 0 <= fft_abs y k. Proof. apply sqrt_pos. Qed.
Lemma xn_nonneg y k : 0 <= xn (spectrum y) k.
Proof. destruct (Nat.lt_ge_cases k (length y)) as [H|H]; [rewrite spectrum_nth by exact H; apply fft_abs_nonneg|]. unfold xn. rewrite nth_overflow by (rewrite spectrum_length; exact H). lra. Qed.
Lemma harmonic_abs y k : harmonic y k = fft_abs y k.
Proof. unfold harmonic, fft_abs, fft_re, fft_im. cbv zeta. apply f_equal, f_equal. ring. Qed.

(** *** Local maxima *)
Lemma ahead_spec x i : forall fuel a, (i < a <= length x - 1)%nat -> (length x - 1 - a <= fuel)%nat -> (forall j, (i <= j < a)%nat -> xn x j = xn x i) ->
  let e := ahead fuel x i a in (i < e <= length x - 1)%nat /\ (forall j, (i <= j < e)%nat -> xn x j = xn x i) /\ (e = (length x - 1)%nat \/ xn x e <> xn x i).
Proof.
  induction fuel as [|f IH]; intros a Ha Hf He; cbn [ahead].
  - split; [lia|]. split; [exact He|]. left. lia.
  - destruct (Nat.ltb_spec a (length x - 1)) as [Hl|Hl]; [|split; [lia|split; [exact He|left; lia]]].
    destruct (Req_EM_T (xn x a) (xn x i)) as [Q|Q]; [|split; [lia|split; [exact He|right; exact Q]]].
    apply IH; [lia|lia|]. intros j Hj. destruct (Nat.eq_dec j a) as [-> |]; [exact Q|apply He; lia].
Qed.
Lemma local_max_sound x i k : (0 < i < length x - 1)%nat -> In k (local_max_at x i) ->
  exists r, (i <= k <= r)%nat /\ (r < length x - 1)%nat /\ (forall j, (i <= j <= r)%nat -> xn x j = xn x k) /\ xn x (i - 1) < xn x k /\ xn x (r + 1) < xn x k.
Proof.
  intros Hi. unfold local_max_at. destruct (Rlt_dec _ _) as [H1|]; [|intros []]. cbv zeta. destruct (ahead_spec x i (length x) (i + 1)) as (A1 & A2 & A3); [lia|lia|intros j Hj; f_equal; lia|].
  set (e := ahead (length x) x i (i + 1)) in *. destruct (Rlt_dec _ _) as [H2|]; [|intros []]. intros [<- |[]].
  pose proof (Nat.div_mod (i + (e - 1)) 2 ltac:(lia)). pose proof (Nat.mod_upper_bound (i + (e - 1)) 2 ltac:(lia)). set (k := ((i + (e - 1)) / 2)%nat) in *.
  assert (Q : xn x k = xn x i) by (apply A2; lia). exists (e - 1)%nat. rewrite Q. split; [lia|]. split; [lia|]. split; [intros j Hj; apply A2; lia|]. split; [exact H1|]. replace (e - 1 + 1)%nat with e by lia. exact H2.
Qed.
Lemma local_maxima_peak x k : In k (local_maxima x) -> peak_at (xn x) (length x) k.
Proof.
  unfold local_maxima. intros H. apply in_flat_map in H. destruct H as (i & Hi & Hk). apply in_seq in Hi. destruct (local_max_sound x i k ltac:(lia) Hk) as (r & R1 & R2 & R3 & R4 & R5).
  exists i, r. repeat (split; [first [lia | assumption]|]). assumption.
Qed.
(** a plateau of one or two points *)
Lemma local_maxima_one x k : (0 < k < length x - 1)%nat -> xn x (k - 1) < xn x k -> xn x (k + 1) < xn x k -> In k (local_maxima x).
Proof.
  intros Hk H1 H2. unfold local_maxima. apply in_flat_map. exists k. split; [apply in_seq; lia|]. unfold local_max_at. destruct (Rlt_dec _ _) as [_|C]; [|contradiction].
  cbv zeta. replace (ahead (length x) x k (k + 1)) with (k + 1)%nat.
  - destruct (Rlt_dec _ _) as [_|C]; [|contradiction]. left. replace (k + (k + 1 - 1))%nat with (k * 2)%nat by lia. apply Nat.div_mul. lia.
  - destruct (length x) as [|n] eqn:E; [lia|]. cbn [ahead]. destruct (Nat.ltb_spec (k + 1) (length x - 1)); [|reflexivity]. destruct (Req_EM_T _ _); [lra|reflexivity].
Qed.
Lemma local_maxima_two x k : (0 < k)%nat -> (k + 1 < length x - 1)%nat -> xn x (k - 1) < xn x k -> xn x (k + 1) = xn x k -> xn x (k + 2) < xn x k -> In k (local_maxima x).
Proof.
  intros Hk Hk2 H1 H2 H3. unfold local_maxima. apply in_flat_map. exists k. split; [apply in_seq; lia|]. unfold local_max_at. destruct (Rlt_dec _ _) as [_|C]; [|contradiction].
  cbv zeta. replace (ahead (length x) x k (k + 1)) with (k + 2)%nat.
  - destruct (Rlt_dec _ _) as [_|C]; [|contradiction]. left. replace (k + (k + 2 - 1))%nat with (1 + k * 2)%nat by lia. rewrite Nat.div_add by lia. reflexivity.
  - destruct (length x) as [|[|n]] eqn:E; [lia|lia|]. cbn [ahead]. rewrite E. destruct (Nat.ltb_spec (k + 1) (S (S n) - 1)); [|lia]. destruct (Req_EM_T _ _); [|lra].
    replace (S (k + 1)) with (k + 2)%nat by lia. destruct (Nat.ltb_spec (k + 2) (S (S n) - 1)); [|reflexivity]. destruct (Req_EM_T _ _); [lra|reflexivity].
Qed.

(** *** Removal of close peaks *)
Lemma mem_iff j l : mem j l = true <-> In j l.
Proof. unfold mem. rewrite existsb_exists. split; [intros (x & Hx & E); apply Nat.eqb_eq in E; subst; exact Hx|intros H; exists j; split; [exact H|apply Nat.eqb_refl]]. Qed.
Lemma near_sym peaks j k : near peaks j k = near peaks k j.
Proof. unfold near. rewrite (Nat.eqb_sym k j). f_equal. f_equal. lia. Qed.
Lemma near_refl peaks j : near peaks j j = false.
Proof. unfold near. rewrite Nat.eqb_refl. reflexivity. Qed.
Lemma removed_keeps peaks j0 : forall order gone, (forall j, In j order -> (j < length peaks)%nat) -> ~ In j0 gone -> (forall k, (k < length peaks)%nat -> near peaks j0 k = true -> In k gone) -> ~ In j0 (removed peaks order gone).
Proof.
  induction order as [|j o IH]; intros gone Ho H1 H2; cbn [removed]; [exact H1|]. apply IH.
  - intros i Hi. apply Ho. right. exact Hi.
  - destruct (mem j gone) eqn:E; [exact H1|]. intros C. apply in_app_iff in C. destruct C as [C|C]; [|exact (H1 C)]. apply filter_In in C. destruct C as [_ C].
    rewrite near_sym in C. apply H2 in C; [|apply Ho; left; reflexivity]. apply mem_iff in C. congruence.
  - intros k Hk Hn. destruct (mem j gone); [apply H2; assumption|]. apply in_app_iff. right. apply H2; assumption.
Qed.
Section Sort.
Variable argsort : list R -> list nat.
Hypothesis Hs : forall l, sorts argsort l.
Lemma order_lt l j : In j (rev (argsort l)) -> (j < length l)%nat.
Proof. intros H. apply in_rev in H. destruct (Hs l) as [P _]. apply (Permutation_in _ P) in H. apply in_seq in H. lia. Qed.
Lemma argsort_length l : length (argsort l) = length l.
Proof. destruct (Hs l) as [P _]. rewrite (Permutation_length P). apply seq_length. Qed.
(** the last of the order has the largest value *)
Lemma order_head l : l <> [] -> exists j o, rev (argsort l) = j :: o /\ (j < length l)%nat /\ forall i, (i < length l)%nat -> nth i l 0 <= nth j l 0.
Proof.
  intros Hl. pose proof (argsort_length l) as Le. destruct (rev (argsort l)) as [|j o] eqn:E.
  - apply (f_equal (@length nat)) in E. rewrite rev_length, Le in E. destruct l; [contradiction|discriminate E].
  - exists j, o. split; [reflexivity|]. split; [apply order_lt; rewrite E; left; reflexivity|]. intros i Hi. destruct (Hs l) as [P Q].
    assert (Hj : j = nth (length l - 1) (argsort l) 0%nat).
    { assert (X : nth 0 (rev (argsort l)) 0%nat = j) by (rewrite E; reflexivity). rewrite <- X, nth_rev_r by lia. f_equal. lia. }
    assert (Hi' : In i (argsort l)) by (apply (Permutation_in _ (Permutation_sym P)); apply in_seq; lia). apply (In_nth _ _ 0%nat) in Hi'. destruct Hi' as (m & Hm & Em). rewrite <- Em, Hj. apply Q. lia.
Qed.
Lemma distant_in x peaks k : In k (distant argsort x peaks) -> In k peaks.
Proof. unfold distant. intros H. apply in_map_iff in H. destruct H as (j & <- & Hj). apply filter_In in Hj. destruct Hj as [Hj _]. apply in_seq in Hj. apply nth_In. lia. Qed.
(** a highest peak stays *)
Lemma distant_highest x peaks : peaks <> [] -> exists k, In k (distant argsort x peaks) /\ forall i, In i peaks -> xn x i <= xn x k.
Proof.
  intros Hp. destruct (order_head (map (xn x) peaks)) as (j & o & E & Hj & Hm); [destruct peaks; [contradiction|discriminate]|]. rewrite map_length in *.
  exists (nth j peaks 0%nat). split.
  - unfold distant. rewrite E. cbn [removed]. cbn [mem existsb]. apply in_map_iff. exists j. split; [reflexivity|]. apply filter_In. split; [apply in_seq; lia|].
    apply negb_true_iff. destruct (mem j _) eqn:M; [|reflexivity]. exfalso. apply mem_iff in M. revert M. apply removed_keeps.
    + intros i Hi. apply (order_lt (map (xn x) peaks)) in Hi || (assert (In i (rev (argsort (map (xn x) peaks)))) by (rewrite E; right; exact Hi); apply order_lt in H; rewrite map_length in H; exact H).
    + rewrite app_nil_r. intros C. apply filter_In in C. destruct C as [_ C]. rewrite near_refl in C. discriminate C.
    + intros k Hk Hn. rewrite app_nil_r. apply filter_In. split; [apply in_seq; lia|exact Hn].
  - intros i Hi. apply (In_nth _ _ 0%nat) in Hi. destruct Hi as (m & Hm' & <-). specialize (Hm m Hm').
    rewrite !(nth_indep (map (xn x) peaks) 0 (xn x 0%nat)) in Hm by (rewrite map_length; lia). rewrite !map_nth in Hm. exact Hm.
Qed.
End Sort.

(** *** Prominence *)
Lemma walk_le h m xs : walk h m xs <= m.
Proof. revert m. induction xs as [|x xs IH]; intros m; cbn [walk]; [lra|]. destruct (Rle_dec x h); [|lra]. eapply Rle_trans; [apply IH|apply Rmin_l]. Qed.
Lemma walk_ge h m xs c : c <= m -> (forall x, In x xs -> c <= x) -> c <= walk h m xs.
Proof. revert m. induction xs as [|x xs IH]; intros m Hm Hx; cbn [walk]; [exact Hm|]. destruct (Rle_dec x h); [|exact Hm]. apply IH; [apply Rmin_glb; [exact Hm|apply Hx; left; reflexivity]|intros z Hz; apply Hx; right; exact Hz]. Qed.
Lemma walk_reach h m xs j : (j < length xs)%nat -> (forall i, (i <= j)%nat -> nth i xs 0 <= h) -> walk h m xs <= nth j xs 0.
Proof.
  revert m j. induction xs as [|x xs IH]; intros m j Hj Hi; cbn [length] in Hj; [lia|]. cbn [walk]. destruct (Rle_dec x h) as [_|C]; [|exfalso; apply C; exact (Hi 0%nat ltac:(lia))]. destruct j as [|j]; cbn [nth].
  - eapply Rle_trans; [apply walk_le|apply Rmin_r].
  - apply IH; [lia|]. intros i Hl. apply (Hi (S i)). lia.
Qed.
(** the value returned by the walk was met *)
Lemma walk_met h m xs : walk h m xs = m \/ exists j, (j < length xs)%nat /\ walk h m xs = nth j xs 0 /\ forall i, (i <= j)%nat -> nth i xs 0 <= h.
Proof.
  revert m. induction xs as [|x xs IH]; intros m; cbn [walk]; [left; reflexivity|]. destruct (Rle_dec x h) as [Hx|Hx]; [|left; reflexivity].
  destruct (IH (Rmin m x)) as [E|(j & Hj & E & Hi)].
  - rewrite E. unfold Rmin. destruct (Rle_dec m x); [left; reflexivity|]. right. exists 0%nat. cbn [length nth]. split; [lia|]. split; [reflexivity|]. intros i Hi. replace i with 0%nat by lia. exact Hx.
  - right. exists (S j). cbn [length nth]. split; [lia|]. split; [exact E|]. intros [|i] Hl; [exact Hx|apply Hi; lia].
Qed.
Lemma left_nth x p i : (i < p)%nat -> (p <= length x)%nat -> nth i (rev (firstn p x)) 0 = xn x (p - 1 - i).
Proof. intros Hi Hp. rewrite nth_rev_r by (rewrite firstn_length; lia). rewrite firstn_length, Nat.min_l by lia. unfold xn. rewrite <- (firstn_skipn p x) at 2. rewrite app_nth1 by (rewrite firstn_length; lia). reflexivity. Qed.
Lemma right_nth x p i : nth i (skipn (S p) x) 0 = xn x (S p + i).
Proof. unfold xn. revert x. generalize (S p) as q. induction q as [|q IH]; intros x; [reflexivity|]. destruct x as [|z x]; [destruct i; reflexivity|]. cbn [skipn Nat.add nth]. apply IH. Qed.
Definition lwalk (x : list R) (p : nat) : R := walk (xn x p) (xn x p) (rev (firstn p x)).
Definition rwalk (x : list R) (p : nat) : R := walk (xn x p) (xn x p) (skipn (S p) x).
Lemma lwalk_reach x p i : (p < length x)%nat -> (i < p)%nat -> (forall j, (i <= j < p)%nat -> xn x j <= xn x p) -> lwalk x p <= xn x i.
Proof.
  intros Hp Hi H. unfold lwalk. pose proof (walk_reach (xn x p) (xn x p) (rev (firstn p x)) (p - 1 - i)) as W. rewrite rev_length, firstn_length, left_nth in W by lia.
  replace (p - 1 - (p - 1 - i))%nat with i in W by lia. apply W; [lia|]. intros j Hj. rewrite left_nth by lia. apply H. lia.
Qed.
Lemma rwalk_reach x p i : (p < i < length x)%nat -> (forall j, (p < j <= i)%nat -> xn x j <= xn x p) -> rwalk x p <= xn x i.
Proof.
  intros Hi H. unfold rwalk. pose proof (walk_reach (xn x p) (xn x p) (skipn (S p) x) (i - S p)) as W. rewrite skipn_length, right_nth in W. replace (S p + (i - S p))%nat with i in W by lia.
  apply W; [lia|]. intros j Hj. rewrite right_nth. apply H. lia.
Qed.
Lemma lwalk_met x p : (p < length x)%nat -> lwalk x p = xn x p \/ exists i, (i < p)%nat /\ lwalk x p = xn x i /\ forall j, (i <= j < p)%nat -> xn x j <= xn x p.
Proof.
  intros Hp. unfold lwalk. destruct (walk_met (xn x p) (xn x p) (rev (firstn p x))) as [E|(j & Hj & E & Hi)]; [left; exact E|right]. rewrite rev_length, firstn_length in Hj.
  exists (p - 1 - j)%nat. split; [lia|]. rewrite left_nth in E by lia. split; [exact E|]. intros i Hl. specialize (Hi (p - 1 - i)%nat ltac:(lia)). rewrite left_nth in Hi by lia. replace (p - 1 - (p - 1 - i))%nat with i in Hi by lia. exact Hi.
Qed.
Lemma rwalk_met x p : (p < length x)%nat -> rwalk x p = xn x p \/ exists i, (p < i < length x)%nat /\ rwalk x p = xn x i /\ forall j, (p < j <= i)%nat -> xn x j <= xn x p.
Proof.
  intros Hp. unfold rwalk. destruct (walk_met (xn x p) (xn x p) (skipn (S p) x)) as [E|(j & Hj & E & Hi)]; [left; exact E|right]. rewrite skipn_length in Hj.
  exists (S p + j)%nat. split; [lia|]. rewrite right_nth in E. split; [exact E|]. intros i Hl. specialize (Hi (i - S p)%nat ltac:(lia)). rewrite right_nth in Hi. replace (S p + (i - S p))%nat with i in Hi by lia. exact Hi.
Qed.
Lemma prominence_eq x p : prominence x p = xn x p - Rmax (lwalk x p) (rwalk x p). Proof. reflexivity. Qed.
Lemma prominence_stands x p c : (p < length x)%nat -> 0 < c -> c <= prominence x p -> stands_out (xn x) (length x) p c.
Proof.
  intros Hp Hc H. rewrite prominence_eq in H. pose proof (Rmax_l (lwalk x p) (rwalk x p)). pose proof (Rmax_r (lwalk x p) (rwalk x p)). split.
  - destruct (lwalk_met x p Hp) as [E|(i & Hi & E & Hj)]; [lra|]. exists i. split; [exact Hi|]. split; [lra|]. intros j Hl. destruct (Nat.eq_dec j p) as [-> |]; [lra|apply Hj; lia].
  - destruct (rwalk_met x p Hp) as [E|(i & Hi & E & Hj)]; [lra|]. exists i. split; [exact Hi|]. split; [lra|]. intros j Hl. destruct (Nat.eq_dec j p) as [-> |]; [lra|apply Hj; lia].
Qed.
