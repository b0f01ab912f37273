(** C86: the dominant period of a profile. *)
From Coq Require Import Reals List Bool Arith ZArith Lia Lra Permutation.
From Verif Require Import Base RList ModelMath ModelHeights ModelGeom ModelFourier ModelPeriod SpecPeriod ProofHeights ProofFourier PropsFourier ProofPeriod.
Import ListNotations.
Local Open Scope R_scope.

Lemma measured_map_Some (y : list R) : measured (map Some y) = y.
Proof. induction y as [|v y IH]; [reflexivity|]. cbn. f_equal. exact IH. Qed.
Lemma no_nan_map_Some (y : list R) : existsb is_nan (map Some y) = false.
Proof. induction y as [|v y IH]; [reflexivity|]. cbn. exact IH. Qed.
Lemma complete_data (l : list height) : existsb is_nan l = false -> l = map Some (measured l).
Proof. induction l as [|[v|] l IH]; cbn; intros H; [reflexivity| |discriminate H]. f_equal. apply IH. exact H. Qed.

Lemma lwalk_one x : (1 < length x)%nat -> xn x 0 < xn x 1 -> lwalk x 1 = xn x 0.
Proof.
  intros H L. unfold lwalk. destruct x as [|x0 [|x1 x]]; [cbn in H; lia|cbn in H; lia|]. unfold xn in *. cbn [nth firstn rev app walk] in *. destruct (Rle_dec _ _); [|lra]. unfold Rmin. destruct (Rle_dec _ _); lra.
Qed.
Section C86.
Variable argsort : list R -> list nat.
Hypothesis Hs : forall l, sorts argsort l.

Lemma find_peaks_in x k : In k (find_peaks argsort x) -> In k (local_maxima x) /\ 10 <= prominence x k.
Proof.
  unfold find_peaks. intros H. apply filter_In in H. destruct H as [H P]. split; [eapply distant_in; exact H|]. unfold prominent in P. destruct (Rle_dec _ _); [assumption|discriminate P].
Qed.
Lemma peaks_in_range x k : In k (local_maxima x) -> (0 < k < length x - 1)%nat.
Proof. intros H. apply local_maxima_peak in H. destruct H as (l & r & H1 & H2 & H3 & _). lia. Qed.
Lemma freq_abs N k step : (0 < k < N)%nat -> 0 < step -> exists m, (0 < m)%nat /\ (2 * m <= N)%nat /\ (k = m \/ k = (N - m)%nat) /\ 1 / Rabs (fftfreq N step k) = INR N * step / INR m.
Proof.
  intros Hk St. assert (HN : 0 < INR N) by (apply lt_0_INR; lia). unfold fftfreq.
  assert (G : forall m, (0 < m)%nat -> Z.abs (freq_int N k) = Z.of_nat m -> 1 / Rabs (IZR (freq_int N k) * (1 / (INR N * step))) = INR N * step / INR m).
  { intros m Hm E. assert (0 < INR m) by (apply lt_0_INR; exact Hm). assert (0 < INR N * step) by (apply Rmult_lt_0_compat; assumption).
    rewrite Rabs_mult, <- abs_IZR, E, <- INR_IZR_INZ. rewrite Rabs_pos_eq; [field; lra|]. unfold Rdiv. rewrite Rmult_1_l. left. apply Rinv_0_lt_compat. assumption. }
  unfold freq_int in *. pose proof (Nat.div_mod (N - 1) 2 ltac:(lia)) as D. pose proof (Nat.mod_upper_bound (N - 1) 2 ltac:(lia)) as U. destruct (Nat.ltb_spec k ((N - 1) / 2 + 1)) as [C|C].
  - exists k. split; [lia|]. split; [lia|]. split; [left; reflexivity|]. apply G; lia.
  - exists (N - k)%nat. split; [lia|]. split; [lia|]. split; [right; lia|]. apply G; lia.
Qed.
Lemma period_ok step y : (2 <= length y)%nat -> get_period_fft_1d argsort step y =
  match rev (argsort (map (prominence (spectrum y)) (find_peaks argsort (spectrum y)))) with
  | [] => Err IndexError | s :: _ => Ok (1 / Rabs (fftfreq (length y) step (nth s (find_peaks argsort (spectrum y)) 0%nat))) end.
Proof. intros H. destruct y as [|y0 [|y1 y]]; [cbn in H; lia|cbn in H; lia|]. reflexivity. Qed.

(** Peaks that stand too close together: those kept are at least 10 harmonics apart, and a peak is only dropped for one that is kept, at
    least as high and less than 10 harmonics away. *)
Lemma order_desc (l : list R) j o : forall pre, rev (argsort l) = pre ++ j :: o -> (forall k, In k o -> nth k l 0 <= nth j l 0) /\ (forall k, (k < length l)%nat -> In k pre \/ k = j \/ In k o).
Proof.
  intros pre E. destruct (Hs l) as [P Q]. pose proof (argsort_length argsort Hs l) as Le. split.
  - intros k Hk. apply (In_nth _ _ 0%nat) in Hk. destruct Hk as (m & Hm & Em).
    assert (L : length (rev (argsort l)) = (length pre + S (length o))%nat) by (rewrite E, app_length; reflexivity). rewrite rev_length in L.
    assert (Ej : nth (length pre) (rev (argsort l)) 0%nat = j) by (rewrite E, app_nth2, Nat.sub_diag by lia; reflexivity).
    assert (Ek : nth (length pre + S m) (rev (argsort l)) 0%nat = k) by (rewrite E, app_nth2 by lia; replace (length pre + S m - length pre)%nat with (S m) by lia; exact Em).
    rewrite rev_nth in Ej, Ek by lia. rewrite <- Ej, <- Ek. apply Q. lia.
  - intros k Hk. assert (Hi : In k (rev (argsort l))) by (apply -> in_rev; apply (Permutation_in _ (Permutation_sym P)); apply in_seq; lia).
    rewrite E in Hi. apply in_app_or in Hi. destruct Hi as [Hi|[Hi|Hi]]; auto.
Qed.
Lemma removed_inv x peaks : let h := fun j => nth j (map (xn x) peaks) 0 in forall o pre gone, rev (argsort (map (xn x) peaks)) = pre ++ o ->
  (forall k, In k gone -> (k < length peaks)%nat /\ exists j, In j pre /\ ~ In j gone /\ near peaks j k = true /\ h k <= h j) ->
  (forall j k, In j pre -> ~ In j gone -> (k < length peaks)%nat -> near peaks j k = true -> In k gone) ->
  let g := removed peaks o gone in
  (forall k, In k g -> exists j, (j < length peaks)%nat /\ ~ In j g /\ near peaks j k = true /\ h k <= h j) /\
  (forall j k, (j < length peaks)%nat -> (k < length peaks)%nat -> ~ In j g -> near peaks j k = true -> In k g).
Proof.
  intros h. assert (Ll : length (map (xn x) peaks) = length peaks) by apply map_length.
  induction o as [|j o IH]; intros pre gone E H1 H2; cbn [removed].
  - rewrite app_nil_r in E. cbv zeta. assert (A : forall k, (k < length peaks)%nat -> In k pre).
    { intros k Hk. rewrite <- E. apply -> in_rev. destruct (Hs (map (xn x) peaks)) as [P _]. apply (Permutation_in _ (Permutation_sym P)). apply in_seq. lia. }
    split.
    + intros k Hk. destruct (H1 k Hk) as (Kl & j & J1 & J2 & J3 & J4). exists j. split; [|auto]. assert (Hj : In j (rev (argsort (map (xn x) peaks)))) by (rewrite E; exact J1).
      apply (order_lt argsort Hs) in Hj. lia.
    + intros j k Hj Hk Hn Hnr. apply (H2 j k); auto.
  - assert (Hjl : (j < length peaks)%nat). { assert (In j (rev (argsort (map (xn x) peaks)))) by (rewrite E; apply in_or_app; right; left; reflexivity). apply (order_lt argsort Hs) in H. lia. }
    destruct (order_desc (map (xn x) peaks) j o pre E) as [Hd Ha]. assert (E' : rev (argsort (map (xn x) peaks)) = (pre ++ [j]) ++ o) by (rewrite <- app_assoc; exact E).
    apply (IH (pre ++ [j]) _ E').
    + destruct (mem j gone) eqn:Em.
      * intros k Hk. destruct (H1 k Hk) as (Kl & w & W1 & W2). split; [exact Kl|]. exists w. split; [apply in_or_app; left; exact W1|exact W2].
      * assert (Hjg : ~ In j gone) by (intros C; apply mem_iff in C; congruence).
        assert (Old : forall k, In k gone -> (k < length peaks)%nat /\ exists w, In w (pre ++ [j]) /\ ~ In w (List.filter (near peaks j) (seq 0 (length peaks)) ++ gone) /\ near peaks w k = true /\ h k <= h w).
        { intros k Hk. destruct (H1 k Hk) as (Kl & w & W1 & W2 & W3 & W4). split; [exact Kl|]. exists w. split; [apply in_or_app; left; exact W1|]. split; [|auto].
          intros C. apply in_app_or in C. destruct C as [C|C]; [|exact (W2 C)]. apply filter_In in C. destruct C as [_ C]. rewrite near_sym in C. apply Hjg. apply (H2 w j); assumption. }
        intros k Hk. apply in_app_or in Hk. destruct Hk as [Hk|Hk]; [|exact (Old k Hk)].
        destruct (in_dec Nat.eq_dec k gone) as [G|G]; [exact (Old k G)|]. apply filter_In in Hk. destruct Hk as [Hks Hkn]. apply in_seq in Hks. split; [lia|]. exists j.
        split; [apply in_or_app; right; left; reflexivity|]. split.
        -- intros C. apply in_app_or in C. destruct C as [C|C]; [|exact (Hjg C)]. apply filter_In in C. destruct C as [_ C]. rewrite near_refl in C. discriminate C.
        -- split; [exact Hkn|]. destruct (Ha k ltac:(lia)) as [K|[K|K]].
           ++ exfalso. apply Hjg. apply (H2 k j K G Hjl). rewrite near_sym. exact Hkn.
           ++ subst k. rewrite near_refl in Hkn. discriminate Hkn.
           ++ apply Hd. exact K.
    + intros w k Hw Hng Hk Hn. apply in_app_or in Hw. destruct (mem j gone) eqn:Em.
      * destruct Hw as [Hw|[<-|[]]]; [apply (H2 w k); assumption|]. exfalso. apply Hng. apply mem_iff. exact Em.
      * apply in_or_app. destruct Hw as [Hw|[<-|[]]].
        -- right. apply (H2 w k); try assumption. intros C. apply Hng. apply in_or_app. right. exact C.
        -- left. apply filter_In. split; [apply in_seq; lia|exact Hn].
Qed.
Theorem C86_selection (x : list R) :
  (forall a b, In a (find_peaks argsort x) -> In b (find_peaks argsort x) -> a <> b -> (10 <= Z.abs (Z.of_nat a - Z.of_nat b))%Z) /\
  (forall p, In p (local_maxima x) -> 10 <= prominence x p -> ~ In p (find_peaks argsort x) ->
     exists q, In q (local_maxima x) /\ (Z.abs (Z.of_nat q - Z.of_nat p) < 10)%Z /\ xn x p <= xn x q /\ (In q (find_peaks argsort x) \/ prominence x q < 10)).
Proof.
  set (peaks := local_maxima x). destruct (removed_inv x peaks (rev (argsort (map (xn x) peaks))) [] [] eq_refl) as [A B]; [intros k []|intros j k []|]. cbv zeta in A, B.
  set (g := removed peaks (rev (argsort (map (xn x) peaks))) []) in *.
  assert (Hn : forall j k, near peaks j k = true <-> j <> k /\ (Z.abs (Z.of_nat (nth k peaks 0%nat) - Z.of_nat (nth j peaks 0%nat)) < 10)%Z).
  { intros j k. unfold near. rewrite andb_true_iff, negb_true_iff, Nat.eqb_neq, Z.ltb_lt. split; intros [U W]; split; auto. }
  assert (Kept : forall a, In a (distant argsort x peaks) <-> exists j, (j < length peaks)%nat /\ ~ In j g /\ nth j peaks 0%nat = a).
  { intros a. unfold distant. fold g. rewrite in_map_iff. split.
    - intros (j & E & Hj). apply filter_In in Hj. destruct Hj as [Hj Hm]. apply in_seq in Hj. exists j. split; [lia|]. split; [|exact E]. intros C. apply mem_iff in C. rewrite C in Hm. discriminate Hm.
    - intros (j & Hj & Hg & E). exists j. split; [exact E|]. apply filter_In. split; [apply in_seq; lia|]. apply negb_true_iff. destruct (mem j g) eqn:M; [apply mem_iff in M; contradiction|reflexivity]. }
  assert (Hh : forall j, (j < length peaks)%nat -> nth j (map (xn x) peaks) 0 = xn x (nth j peaks 0%nat)).
  { intros j Hj. rewrite (nth_indep _ 0 (xn x 0%nat)) by (rewrite map_length; exact Hj). apply map_nth. }
  split.
  - intros a b Ha Hb Hab. apply filter_In in Ha. apply filter_In in Hb. destruct Ha as [Ha _]. destruct Hb as [Hb _]. fold peaks in Ha, Hb.
    apply Kept in Ha. apply Kept in Hb. destruct Ha as (j & Hj & Hjg & <-). destruct Hb as (k & Hk & Hkg & <-).
    destruct (Z_lt_le_dec (Z.abs (Z.of_nat (nth j peaks 0%nat) - Z.of_nat (nth k peaks 0%nat))) 10) as [L|L]; [|exact L]. exfalso. apply Hkg. apply (B j k Hj Hk Hjg). apply Hn. split; [congruence|lia].
  - intros p Hp Hpr Hnf. apply (In_nth _ _ 0%nat) in Hp. fold peaks in Hp. destruct Hp as (k & Hk & <-).
    assert (Hg : In k g).
    { destruct (in_dec Nat.eq_dec k g) as [G|G]; [exact G|]. exfalso. apply Hnf. apply filter_In. split; [apply Kept; eauto|]. unfold prominent. destruct (Rle_dec _ _); [reflexivity|contradiction]. }
    destruct (A k Hg) as (j & Hj & Hjg & Hnr & Hle). apply Hn in Hnr. exists (nth j peaks 0%nat). split; [apply nth_In; exact Hj|]. split; [lia|]. rewrite !Hh in Hle by assumption. split; [exact Hle|].
    destruct (Rle_dec 10 (prominence x (nth j peaks 0%nat))) as [L|L]; [left|right; lra]. apply filter_In. split; [apply Kept; eauto|]. unfold prominent. destruct (Rle_dec _ _); [reflexivity|contradiction].
Qed.

(** Whatever the heights: a period that is returned is the length N step of the profile divided by a whole number m of oscillations,
    at least two pixels long, and the m-th harmonic (or its mirror image N - m) is a peak of the spectrum standing out by 10. *)
Theorem C86_period (p : prof) (T : R) : 0 < p_step p -> prof_period argsort p = Ok T ->
  exists (y : list R) (k m : nat), let N := length y in p_data p = map Some y /\ (0 < m)%nat /\ (2 * m <= N)%nat /\ (k = m \/ k = (N - m)%nat) /\
    T = INR N * p_step p / INR m /\ peak_at (harmonic y) N k /\ stands_out (harmonic y) N k 10.
Proof.
  intros St. unfold prof_period. destruct (existsb is_nan (p_data p)) eqn:Ee; [discriminate|]. set (y := measured (p_data p)). intros H.
  assert (Hy : (2 <= length y)%nat) by (destruct y as [|y0 [|y1 y']]; [discriminate H|discriminate H|cbn [length]; lia]).
  rewrite period_ok in H by exact Hy. set (x := spectrum y) in *. set (ps := find_peaks argsort x) in *.
  destruct (rev (argsort (map (prominence x) ps))) as [|s o] eqn:E; [discriminate H|]. assert (Hs' : (s < length ps)%nat).
  { rewrite <- (map_length (prominence x) ps). apply (order_lt argsort Hs). rewrite E. left. reflexivity. }
  set (k := nth s ps 0%nat) in *. assert (Hk : In k ps) by (apply nth_In; exact Hs'). apply find_peaks_in in Hk. destruct Hk as [K1 K2].
  pose proof (peaks_in_range x k K1) as Kr. unfold x in Kr. rewrite spectrum_length in Kr. destruct (freq_abs (length y) k (p_step p) ltac:(lia) St) as (m & M1 & M2 & M3 & M4).
  exists y, k, m. cbv zeta. split; [apply complete_data; exact Ee|]. split; [exact M1|]. split; [exact M2|]. split; [exact M3|]. split; [congruence|].
  assert (Q : forall i, (i < length y)%nat -> harmonic y i = xn x i) by (intros i Hi; unfold x; rewrite spectrum_nth, harmonic_abs by exact Hi; reflexivity).
  apply local_maxima_peak in K1. apply prominence_stands in K2; [|unfold x; rewrite spectrum_length; lia|lra]. unfold x in K1, K2. rewrite spectrum_length in K1, K2. fold x in K1, K2. split.
  - destruct K1 as (l & r & H1 & H2 & H3 & H4 & H5 & H6). exists l, r. split; [exact H1|]. split; [exact H2|]. split; [exact H3|]. rewrite !Q by lia. split; [intros i Hi; rewrite Q by lia; apply H4; exact Hi|]. split; assumption.
  - destruct K2 as [(i & I1 & I2 & I3) (i' & J1 & J2 & J3)]. split; [exists i|exists i']; (split; [assumption|]); rewrite !Q by lia; (split; [assumption|]); intros j Hj; rewrite Q by lia; auto.
Qed.
(** Hence at least two pixels and at most the number of pixels times the step. *)
Theorem C86_period_range (p : prof) (T : R) : 0 < p_step p -> prof_period argsort p = Ok T -> 2 * p_step p <= T <= INR (length (p_data p)) * p_step p.
Proof.
  intros St H. destruct (C86_period p T St H) as (y & k & m & E & M1 & M2 & _ & -> & _). rewrite E, map_length. set (N := length y) in *.
  assert (1 <= INR m) by (apply (le_INR 1); lia). assert (H2 : 2 * INR m <= INR N) by (apply le_INR in M2; rewrite mult_INR in M2; cbn [INR] in M2; lra). set (s := p_step p) in *. split.
  - apply Rmult_le_reg_r with (INR m); [lra|]. replace (INR N * s / INR m * INR m) with (INR N * s) by (field; lra). replace (2 * s * INR m) with (2 * INR m * s) by ring. apply Rmult_le_compat_r; lra.
  - apply Rmult_le_reg_r with (INR m); [lra|]. replace (INR N * s / INR m * INR m) with (INR N * s) by (field; lra). assert (0 <= INR N * s) by (apply Rmult_le_pos; lra). rewrite <- (Rmult_1_r (INR N * s)) at 1. apply Rmult_le_compat_l; assumption.
Qed.
(** Lengths scale with the step. *)
Theorem C86_period_units (c : R) (p : prof) : 0 < c -> 0 < p_step p ->
  prof_period argsort (mkProf (p_data p) (c * p_step p)) = rmap (Rmult c) (prof_period argsort p).
Proof.
  intros Hc St. unfold prof_period. cbn [p_data p_step]. destruct (existsb is_nan (p_data p)); [reflexivity|]. set (y := measured (p_data p)).
  destruct y as [|y0 [|y1 y']] eqn:Ey; [reflexivity|reflexivity|]. rewrite <- Ey. assert (Hy : (2 <= length y)%nat) by (rewrite Ey; cbn [length]; lia).
  rewrite !period_ok by exact Hy. set (ps := find_peaks argsort (spectrum y)).
  destruct (rev (argsort (map (prominence (spectrum y)) ps))) as [|s o] eqn:E; [reflexivity|]. unfold rmap, rbind. f_equal.
  assert (Hs' : (s < length ps)%nat) by (rewrite <- (map_length (prominence (spectrum y)) ps); apply (order_lt argsort Hs); rewrite E; left; reflexivity).
  assert (Hk : In (nth s ps 0%nat) ps) by (apply nth_In; exact Hs'). apply find_peaks_in in Hk. destruct Hk as [Hk _]. apply peaks_in_range in Hk. rewrite spectrum_length in Hk.
  set (k := nth s ps 0%nat) in *. destruct (freq_abs (length y) k (p_step p) ltac:(lia) St) as (m & M1 & M2 & M3 & M4).
  destruct (freq_abs (length y) k (c * p_step p) ltac:(lia) ltac:(apply Rmult_lt_0_compat; assumption)) as (m' & M1' & L' & M3' & M4').
  rewrite M4, M4'. assert (m' = m) as ->.
  { destruct M3 as [M3|M3], M3' as [M3'|M3']; lia. }
  field. apply not_0_INR. lia.
Qed.

(** *** Cosines *)
Lemma cosine_two a phi off K L N : cosine a phi off K N = two N off a phi K 0 0 L.
Proof. unfold cosine, two, tone. apply map_ext. intros j. ring. Qed.
Lemma two_cosines_two a phi K b psi L off N : two_cosines a phi K b psi L off N = two N off a phi K b psi L.
Proof. unfold two_cosines, two, tone. apply map_ext. intros j. ring. Qed.
Section Two.
Variables (N : nat) (off a phi : R) (K : nat) (b psi : R) (L : nat) (step : R).
Hypotheses (HK : (0 < K)%nat) (HK2 : (2 * K < N)%nat) (HL : (0 < L)%nat) (HL2 : (2 * L < N)%nat) (HKL : K <> L) (St : 0 < step).
Let y := two N off a phi K b psi L.
Let x := spectrum y.
Let A := Rabs a * INR N / 2.
Let B := Rabs b * INR N / 2.
Lemma x_length : length x = N. Proof. unfold x, y. rewrite spectrum_length. apply two_length. Qed.
Lemma x_at k : (k < N)%nat -> xn x k = if Nat.eqb k 0 then Rabs off * INR N else if Nat.eqb k K || Nat.eqb k (N - K) then A else if Nat.eqb k L || Nat.eqb k (N - L) then B else 0.
Proof. intros H. unfold x, y. rewrite spectrum_nth by (rewrite two_length; exact H). apply two_abs; assumption. Qed.
Lemma N_pos : 0 < INR N. Proof. apply lt_0_INR. lia. Qed.
Lemma half_le c d : Rabs c < Rabs d -> Rabs c * INR N / 2 < Rabs d * INR N / 2.
Proof. intros H. pose proof N_pos. apply Rmult_lt_compat_r; [lra|]. apply Rmult_lt_compat_r; assumption. Qed.
Lemma B_nonneg : 0 <= B. Proof. unfold B. pose proof N_pos. pose proof (Rabs_pos b). apply Rmult_le_pos; [apply Rmult_le_pos; lra|lra]. Qed.
Lemma period_of_freq k : k = K \/ k = (N - K)%nat -> 1 / Rabs (fftfreq N step k) = INR N * step / INR K.
Proof. intros H. destruct (freq_abs N k step ltac:(lia) St) as (m & M1 & M2 & M3 & ->). replace m with K by lia. reflexivity. Qed.
Lemma prominence_le k : prominence x k <= xn x k.
Proof.
  rewrite prominence_eq. assert (0 <= lwalk x k); [|pose proof (Rmax_l (lwalk x k) (rwalk x k)); lra]. apply walk_ge; [apply xn_nonneg|]. intros v Hv. apply in_rev in Hv.
  assert (Hv' : In v x) by (rewrite <- (firstn_skipn k x); apply in_app_iff; left; exact Hv). apply (In_nth _ _ 0) in Hv'. destruct Hv' as (i & _ & <-). apply xn_nonneg.
Qed.
(** no peak stands out by 10: no period *)
Lemma period_none : (forall k, In k (local_maxima x) -> prominence x k < 10) -> get_period_fft_1d argsort step y = Err IndexError.
Proof.
  intros H. unfold y. rewrite period_ok by (rewrite two_length; lia). fold y. fold x. assert (E : find_peaks argsort x = []).
  { destruct (find_peaks argsort x) as [|k l] eqn:E; [reflexivity|]. exfalso. destruct (find_peaks_in x k) as [K1 K2]; [rewrite E; left; reflexivity|]. specialize (H k K1). lra. }
  rewrite E. cbn [map]. pose proof (argsort_length argsort Hs []) as Z. destruct (argsort []); [reflexivity|discriminate Z].
Qed.
(** some peak is at K or N - K with a prominence of 10 or more that no other peak reaches: the period is that of K *)
Lemma period_some c : (forall k, In k (local_maxima x) -> k = K \/ k = (N - K)%nat \/ prominence x k < c) -> 10 <= c ->
  (exists k, In k (distant argsort x (local_maxima x)) /\ c <= prominence x k) -> get_period_fft_1d argsort step y = Ok (INR N * step / INR K).
Proof.
  intros H1 H2 (k & Hk & Hc). unfold y. rewrite period_ok by (rewrite two_length; lia). rewrite two_length. fold y. fold x.
  assert (Hf : In k (find_peaks argsort x)) by (apply filter_In; split; [exact Hk|unfold prominent; destruct (Rle_dec _ _); [reflexivity|lra]]).
  set (ps := find_peaks argsort x) in *. destruct (order_head argsort Hs (map (prominence x) ps)) as (s & o & E & Hl & Hm); [destruct ps; [contradiction Hf|discriminate]|].
  rewrite E. f_equal. apply period_of_freq. rewrite map_length in *. apply (In_nth _ _ 0%nat) in Hf. destruct Hf as (i & Hi & Ei). specialize (Hm i Hi).
  rewrite !(nth_indep (map (prominence x) ps) 0 (prominence x 0%nat)) in Hm by (rewrite map_length; lia). rewrite !map_nth, Ei in Hm.
  destruct (find_peaks_in x (nth s ps 0%nat)) as [P1 _]; [apply nth_In; exact Hl|]. destruct (H1 _ P1) as [? | [? | ?]]; [left; assumption|right; assumption|lra].
Qed.
(** the stronger cosine oscillates at least twice *)
Lemma period_two : (2 <= K)%nat -> (2 <= L)%nat \/ b = 0 -> Rabs b < Rabs a -> 10 <= A -> get_period_fft_1d argsort step y = Ok (INR N * step / INR K).
Proof.
  intros K2 Hb Hab HA. pose proof (half_le b a Hab) as HBA. fold A B in HBA. pose proof B_nonneg as HB.
  assert (XK : forall k, k = K \/ k = (N - K)%nat -> xn x k = A).
  { intros k Hk. rewrite x_at by lia. destruct (Nat.eqb_spec k 0); [lia|]. destruct (Nat.eqb_spec k K); [reflexivity|]. destruct (Nat.eqb_spec k (N - K)); [reflexivity|lia]. }
  assert (XO : forall k, (0 < k < N)%nat -> k <> K -> k <> (N - K)%nat -> xn x k <= B).
  { intros k H1 H2 H3. rewrite x_at by lia. destruct (Nat.eqb_spec k 0); [lia|]. destruct (Nat.eqb_spec k K); [lia|]. destruct (Nat.eqb_spec k (N - K)); [lia|]. cbn [orb]. destruct (_ || _); lra. }
  assert (XL : forall k, (0 < k < N)%nat -> xn x k <= A).
  { intros k Hk. destruct (Nat.eq_dec k K); [rewrite XK by lia; lra|]. destruct (Nat.eq_dec k (N - K)); [rewrite XK by lia; lra|]. pose proof (XO k Hk ltac:(assumption) ltac:(assumption)). lra. }
  assert (X1 : xn x 1 = 0 /\ xn x (N - 1) = 0).
  { assert (G : forall k, k = 1%nat \/ k = (N - 1)%nat -> xn x k = 0); [|split; apply G; lia]. intros k Hk. rewrite x_at by lia. destruct (Nat.eqb_spec k 0); [lia|]. destruct (Nat.eqb_spec k K); [lia|]. destruct (Nat.eqb_spec k (N - K)); [lia|]. cbn [orb].
    destruct (Nat.eqb_spec k L) as [E|E]; [destruct Hb as [Hb|Hb]; [lia|unfold B; rewrite Hb, Rabs_R0; cbn [orb]; lra]|]. destruct (Nat.eqb_spec k (N - L)) as [E'|E']; [destruct Hb as [Hb|Hb]; [lia|unfold B; rewrite Hb, Rabs_R0; cbn [orb]; lra]|reflexivity]. }
  destruct X1 as [X1 X2]. pose proof x_length as LX.
  assert (PK : In K (local_maxima x)).
  { pose proof (XO (K - 1)%nat ltac:(lia) ltac:(lia) ltac:(lia)). pose proof (XK K ltac:(lia)). destruct (Nat.eq_dec (K + 1) (N - K)) as [E|E].
    - apply local_maxima_two; [lia|lia|lra|rewrite !XK by lia; reflexivity|]. pose proof (XO (K + 2)%nat ltac:(lia) ltac:(lia) ltac:(lia)). lra.
    - apply local_maxima_one; [lia|lra|]. pose proof (XO (K + 1)%nat ltac:(lia) ltac:(lia) ltac:(lia)). lra. }
  assert (PP : forall k, k = K \/ k = (N - K)%nat -> prominence x k = A).
  { intros k Hk. pose proof (XK k Hk) as E. rewrite prominence_eq, E. assert (W1 : lwalk x k <= 0) by (rewrite <- X1; apply lwalk_reach; [lia|lia|]; intros j Hj; rewrite E; apply XL; lia).
    assert (W2 : rwalk x k <= 0) by (rewrite <- X2; apply rwalk_reach; [lia|]; intros j Hj; rewrite E; apply XL; lia).
    assert (W3 : 0 <= lwalk x k) by (apply walk_ge; [apply xn_nonneg|]; intros v Hv; apply in_rev in Hv; assert (Hv' : In v x) by (rewrite <- (firstn_skipn k x); apply in_app_iff; left; exact Hv); apply (In_nth _ _ 0) in Hv'; destruct Hv' as (i & _ & <-); apply xn_nonneg).
    unfold Rmax. destruct (Rle_dec _ _); [|lra]. assert (rwalk x k >= 0) by lra. lra. }
  apply (period_some A).
  - intros k Hk. pose proof (peaks_in_range x k Hk) as Kr. destruct (Nat.eq_dec k K); [left; assumption|]. destruct (Nat.eq_dec k (N - K)); [right; left; assumption|]. right. right. pose proof (prominence_le k). pose proof (XO k ltac:(lia) ltac:(assumption) ltac:(assumption)). lra.
  - exact HA.
  - destruct (distant_highest argsort Hs x (local_maxima x)) as (k & Hk & Hm); [intros C; rewrite C in PK; exact PK|]. exists k. split; [exact Hk|]. specialize (Hm K PK). rewrite (XK K) in Hm by lia.
    pose proof (distant_in argsort x (local_maxima x) k Hk) as Hk'. pose proof (peaks_in_range x k Hk') as Kr. right. symmetry. apply PP.
    destruct (Nat.eq_dec k K); [left; assumption|]. destruct (Nat.eq_dec k (N - K)); [right; assumption|]. exfalso. pose proof (XO k ltac:(lia) ltac:(assumption) ltac:(assumption)). lra.
Qed.
(** one oscillation and no second cosine *)
Lemma period_one : K = 1%nat -> b = 0 -> (5 <= N)%nat -> Rabs off * INR N <= A - 10 -> get_period_fft_1d argsort step y = Ok (INR N * step / INR K).
Proof.
  intros K1 Hb H5 HA. assert (B0 : B = 0) by (unfold B; rewrite Hb, Rabs_R0; lra). pose proof x_length as LX. pose proof N_pos as NP. pose proof (Rabs_pos off) as OP. assert (0 <= Rabs off * INR N) by (apply Rmult_le_pos; lra).
  assert (XO : forall k, (1 < k < N - 1)%nat -> xn x k = 0).
  { intros k Hk. rewrite x_at by lia. destruct (Nat.eqb_spec k 0); [lia|]. destruct (Nat.eqb_spec k K); [lia|]. destruct (Nat.eqb_spec k (N - K)); [lia|]. cbn [orb]. rewrite B0. destruct (_ || _); reflexivity. }
  assert (X1 : xn x 1 = A) by (rewrite x_at by lia; rewrite K1; reflexivity). assert (X0 : xn x 0 = Rabs off * INR N) by (rewrite x_at by lia; reflexivity).
  assert (PK : In 1%nat (local_maxima x)) by (apply local_maxima_one; [lia|cbn [Nat.sub]; lra|cbn [Nat.add]; rewrite (XO 2%nat) by lia; lra]).
  apply (period_some 10).
  - intros k Hk. pose proof (peaks_in_range x k Hk) as Kr. destruct (Nat.eq_dec k 1); [left; lia|]. right. right. pose proof (prominence_le k). rewrite XO in * by lia. lra.
  - lra.
  - destruct (distant_highest argsort Hs x (local_maxima x)) as (k & Hk & Hm); [intros C; rewrite C in PK; exact PK|]. exists k. split; [exact Hk|]. specialize (Hm 1%nat PK). rewrite X1 in Hm.
    pose proof (distant_in argsort x (local_maxima x) k Hk) as Hk'. pose proof (peaks_in_range x k Hk') as Kr. destruct (Nat.eq_dec k 1) as [-> |]; [|rewrite XO in Hm by lia; lra].
    rewrite prominence_eq, X1. assert (lwalk x 1 <= xn x 0) by (apply lwalk_reach; [lia|lia|]; intros j Hj; replace j with 0%nat by lia; lra).
    assert (rwalk x 1 <= xn x 2) by (apply rwalk_reach; [lia|]; intros j Hj; replace j with 2%nat by lia; rewrite X1, XO by lia; lra). rewrite (XO 2%nat) in * by lia. rewrite X0 in *.
    assert (Rmax (lwalk x 1) (rwalk x 1) <= Rabs off * INR N) by (apply Rmax_lub; lra). lra.
Qed.
(** one oscillation hidden by the mean height *)
Lemma period_hidden : K = 1%nat -> b = 0 -> A - 10 < Rabs off * INR N -> get_period_fft_1d argsort step y = Err IndexError.
Proof.
  intros K1 Hb HA. assert (B0 : B = 0) by (unfold B; rewrite Hb, Rabs_R0; lra). pose proof x_length as LX. apply period_none. intros k Hk. pose proof (peaks_in_range x k Hk) as Kr. destruct (Nat.eq_dec k 1) as [-> |N1].
  - apply local_maxima_peak in Hk. destruct Hk as (l & r & L1 & R1 & R2 & R3 & R4 & R5). assert (l = 1%nat) as -> by lia. cbn [Nat.sub] in R4.
    assert (X1 : xn x 1 = A) by (rewrite x_at by lia; rewrite K1; reflexivity). assert (X0 : xn x 0 = Rabs off * INR N) by (rewrite x_at by lia; reflexivity).
    rewrite prominence_eq. assert (lwalk x 1 = xn x 0).
    { apply lwalk_one; lia || lra. }
    pose proof (Rmax_l (lwalk x 1) (rwalk x 1)). lra.
  - pose proof (prominence_le k). assert (xn x k = 0); [|lra]. rewrite x_at by lia. destruct (Nat.eqb_spec k 0); [lia|]. destruct (Nat.eqb_spec k K); [lia|]. destruct (Nat.eqb_spec k (N - K)); [lia|]. cbn [orb]. rewrite B0. destruct (_ || _); reflexivity.
Qed.
(** a weak cosine *)
Lemma period_weak : b = 0 -> A < 10 -> get_period_fft_1d argsort step y = Err IndexError.
Proof.
  intros Hb HA. assert (B0 : B = 0) by (unfold B; rewrite Hb, Rabs_R0; lra). pose proof x_length as LX. apply period_none. intros k Hk. pose proof (peaks_in_range x k Hk) as Kr. pose proof (prominence_le k).
  assert (0 <= A) by (unfold A; pose proof N_pos; pose proof (Rabs_pos a); apply Rmult_le_pos; [apply Rmult_le_pos; lra|lra]).
  assert (xn x k <= A); [|lra]. rewrite x_at by lia. destruct (Nat.eqb_spec k 0); [lia|]. destruct (_ || _); [lra|]. destruct (_ || _); lra.
Qed.
End Two.

Lemma period_profile (y : list R) step : prof_period argsort (mkProf (map Some y) step) = get_period_fft_1d argsort step y.
Proof. unfold prof_period. cbn [p_data p_step]. rewrite no_nan_map_Some, measured_map_Some. reflexivity. Qed.

(** Of two cosines the one of larger amplitude is found, and its period N step / K is exact, if both oscillate at least twice and the
    larger amplitude times N is at least 20. *)
Theorem C86_period_dominant (a phi b psi off step : R) (K L N : nat) : 0 < step -> (2 <= K)%nat -> (2 * K < N)%nat -> (2 <= L)%nat -> (2 * L < N)%nat -> K <> L ->
  Rabs b < Rabs a -> 20 <= Rabs a * INR N -> prof_period argsort (two_cosines_profile a phi K b psi L off N step) = Ok (INR N * step / INR K).
Proof.
  intros St K2 KN L2 LN KL Hab HA. unfold two_cosines_profile. rewrite period_profile, two_cosines_two. apply period_two; try assumption; try lra; try lia; left; exact L2.
Qed.
Theorem C86_period_cosine (a phi off step : R) (K N : nat) : 0 < step -> (2 <= K)%nat -> (2 * K < N)%nat -> 20 <= Rabs a * INR N ->
  prof_period argsort (cosine_profile a phi off K N step) = Ok (INR N * step / INR K).
Proof.
  intros St K2 KN HA. unfold cosine_profile. rewrite period_profile, (cosine_two _ _ _ _ 1). pose proof (Rabs_pos a). assert (0 < INR N) by (apply lt_0_INR; lia).
  apply period_two; try assumption; try lra; try lia. rewrite Rabs_R0. destruct (Req_dec (Rabs a) 0) as [E|E]; [rewrite E in HA; lra|lra].
Qed.
(** FALSE: scaling the heights leaves the period alone.  The threshold 10 is absolute: every cosine that is found is no longer found when
    its heights are given in a larger unit. *)
Theorem C86_period_scale_refuted (a phi off step : R) (K N : nat) : 0 < step -> (2 <= K)%nat -> (2 * K < N)%nat -> 20 <= Rabs a * INR N ->
  exists c, 0 < c /\ prof_period argsort (cosine_profile a phi off K N step) = Ok (INR N * step / INR K) /\
            prof_period argsort (cosine_profile (c * a) phi (c * off) K N step) = Err IndexError.
Proof.
  intros St K2 KN HA. exists (10 / (Rabs a * INR N)). assert (P : 0 < 10 / (Rabs a * INR N)) by (apply Rdiv_lt_0_compat; lra). split; [exact P|]. split; [apply C86_period_cosine; assumption|].
  unfold cosine_profile. rewrite period_profile, (cosine_two _ _ _ _ 1). apply period_weak; try assumption; try lia; [reflexivity|]. rewrite Rabs_mult, (Rabs_pos_eq (10 / _)) by lra.
  replace (10 / (Rabs a * INR N) * Rabs a * INR N / 2) with 5; [lra|]. field. split; intros E; rewrite E in HA; lra.
Qed.
(** Every cosine whose amplitude times N is below 20 raises IndexError. *)
Theorem C86_period_weak_refuted (a phi off step : R) (K N : nat) : 0 < step -> (2 <= K)%nat -> (2 * K < N)%nat -> Rabs a * INR N < 20 ->
  prof_period argsort (cosine_profile a phi off K N step) = Err IndexError.
Proof. intros St K2 KN HA. unfold cosine_profile. rewrite period_profile, (cosine_two _ _ _ _ 1). apply period_weak; try assumption; try lia; [reflexivity|lra]. Qed.
(** FALSE: adding a constant height leaves the period alone.  A profile of one oscillation is found when it is centred and not found
    when its mean height is large. *)
Theorem C86_period_offset_refuted (a phi step : R) (N : nat) : 0 < step -> (5 <= N)%nat -> 20 <= Rabs a * INR N ->
  prof_period argsort (cosine_profile a phi 0 1 N step) = Ok (INR N * step) /\
  forall off, Rabs a / 2 <= Rabs off -> prof_period argsort (cosine_profile a phi off 1 N step) = Err IndexError.
Proof.
  intros St H5 HA. assert (0 < INR N) by (apply lt_0_INR; lia). split.
  - unfold cosine_profile. rewrite period_profile, (cosine_two _ _ _ _ 2). rewrite (period_one N 0 a phi 1 0 0 2 step); try assumption; try lia; try reflexivity; [f_equal; cbn [INR]; field|rewrite Rabs_R0; lra].
  - intros off Ho. unfold cosine_profile. rewrite period_profile, (cosine_two _ _ _ _ 2). apply period_hidden; try assumption; try lia; try reflexivity.
    assert (Rabs a / 2 * INR N <= Rabs off * INR N) by (apply Rmult_le_compat_r; lra). lra.
Qed.
(** Incomplete profiles are rejected. *)
Theorem C86_period_incomplete (p : prof) : In None (p_data p) -> prof_period argsort p = Err ValueError.
Proof. intros H. unfold prof_period. replace (existsb is_nan (p_data p)) with true; [reflexivity|]. symmetry. apply existsb_exists. exists None. split; [exact H|reflexivity]. Qed.
End C86.

(** A case that meets the hypotheses: 100 points, 5 oscillations of amplitude 1 um, step 0.1 um: a period of 2 um; argsort0 is a valid argsort. *)
Example C86_example : prof_period argsort0 (cosine_profile 1 0 7 5 100 (1 / 10)) = Ok 2.
Proof.
  rewrite (C86_period_cosine argsort0 C42_argsort_example); [f_equal| | | |]; try lia; try lra.
  - rewrite !INR_IZR_INZ. cbn [Z.of_nat Pos.of_succ_nat Pos.succ]. field.
  - rewrite Rabs_R1, INR_IZR_INZ. cbn [Z.of_nat Pos.of_succ_nat Pos.succ]. lra.
Qed.
Example C86_example_two : prof_period argsort0 (two_cosines_profile 3 0 4 2 1 10 0 50 1) = Ok (25 / 2).
Proof.
  rewrite (C86_period_dominant argsort0 C42_argsort_example); [f_equal| | | | | | | |]; try lia; try lra.
  - rewrite !INR_IZR_INZ. cbn [Z.of_nat Pos.of_succ_nat Pos.succ]. field.
  - rewrite !Rabs_pos_eq by lra. lra.
  - rewrite Rabs_pos_eq, INR_IZR_INZ by lra. cbn [Z.of_nat Pos.of_succ_nat Pos.succ]. lra.
Qed.
