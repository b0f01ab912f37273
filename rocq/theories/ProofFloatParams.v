(** Rounding errors of sums, means, centred data and root mean squares. *)
From Coq Require Import ZArith Lia Bool Reals Lra List Permutation.
From Flocq Require Import Core.Core.
From Flocq Require Import IEEE754.BinarySingleNaN IEEE754.Binary IEEE754.Bits.
From Verif Require Import Base RList ModelBytes ProofFloat ModelSur ProofSur ModelParams ProofParams ModelFloatParams.
Import ListNotations.
Local Open Scope R_scope.

(** unit roundoff and half the smallest positive double *)
Definition uu : R := bpow radix2 (-53).
Definition eta : R := bpow radix2 (-1075).
Lemma uu_pos : 0 < uu. Proof. apply bpow_gt_0. Qed.
Lemma eta_pos : 0 < eta. Proof. apply bpow_gt_0. Qed.
Lemma uu_small : uu <= / IZR (2 ^ 40).
Proof. change (/ IZR (2 ^ 40)) with (bpow radix2 (-40)). apply bpow_le. lia. Qed.
Lemma eta_small : eta <= uu.
Proof. apply bpow_le. lia. Qed.

Definition absR (l : list f64) : R := sumR (map (fun x => Rabs (R64 x)) l).
Lemma absR_app l l' : absR (l ++ l') = absR l + absR l'.
Proof. unfold absR. rewrite map_app, sumR_app. reflexivity. Qed.
Lemma absR_nonneg l : 0 <= absR l.
Proof. apply sumR_nonneg. intros x H. apply in_map_iff in H as (y & <- & _). apply Rabs_pos. Qed.
Lemma sum_abs_le l : Rabs (sumR (map R64 l)) <= absR l.
Proof.
  induction l as [|x l IH]; [cbn; unfold absR; cbn; rewrite Rabs_R0; lra|].
  unfold absR in *. cbn [map]. rewrite !sumR_cons. eapply Rle_trans; [apply Rabs_triang|]. lra.
Qed.
Definition g (d : nat) : R := (1 + uu) ^ d - 1.
Lemma g_S d : g (S d) = (1 + uu) * (1 + g d) - 1.
Proof. unfold g. cbn. ring. Qed.
Lemma pow_ge1 d : 1 <= (1 + uu) ^ d.
Proof. apply pow_R1_Rle. pose proof uu_pos. lra. Qed.
Lemma g_nonneg d : 0 <= g d.
Proof. unfold g. pose proof (pow_ge1 d). lra. Qed.
Lemma g_mono d d' : (d <= d')%nat -> g d <= g d'.
Proof. intros H. unfold g. apply Rplus_le_compat_r. apply Rle_pow; auto. pose proof uu_pos. lra. Qed.
Lemma g_bound d : INR d * uu <= / 2 -> g d <= 2 * INR d * uu.
Proof.
  induction d as [|d IH]; intros H; [unfold g; cbn; lra|].
  rewrite S_INR in H. pose proof uu_pos as U. pose proof (pos_INR d) as P.
  rewrite g_S, S_INR. assert (IH' : g d <= 2 * INR d * uu) by (apply IH; lra).
  assert (Q : uu * g d <= uu * (2 * INR d * uu)) by (apply Rmult_le_compat_l; lra).
  assert (Q2 : uu * (2 * INR d * uu) <= uu * 1) by (apply Rmult_le_compat_l; lra). lra.
Qed.

Lemma fzero_ok : R64 fzero = 0 /\ fin64 fzero.
Proof. destruct (f64_of_Z_ok 0) as [A B]; [cbn; lia|]. split; auto. Qed.

(** the value of any summation order *)
Lemma sums_error d l s : sums d l s -> Forall fin64 l -> (1 + g d) * absR l <= bpow radix2 999 ->
  fin64 s /\ Rabs (R64 s - sumR (map R64 l)) <= g d * absR l.
Proof.
  intros HS. induction HS as [|x|d d' l l' s s' H1 IH1 H2 IH2|d l s H IH|d l l' s Hp H IH]; intros F B.
  - destruct fzero_ok as [E Fz]. split; [exact Fz|]. rewrite E. unfold g, absR. cbn. rewrite Rminus_0_r, Rabs_R0. lra.
  - split; [inversion F; auto|]. unfold g, absR. cbn. replace (R64 x - (R64 x + 0)) with 0 by ring. rewrite Rabs_R0. lra.
  - apply Forall_app in F as [F1 F2].
    set (m := Nat.max d d') in *. rewrite absR_app in *. pose proof (absR_nonneg l). pose proof (absR_nonneg l').
    pose proof (g_mono d m ltac:(lia)) as M1. pose proof (g_mono d' m ltac:(lia)) as M2.
    pose proof (g_nonneg d). pose proof (g_nonneg d'). pose proof (g_nonneg m) as Gm. pose proof uu_pos as U.
    assert (GS : g m <= g (S m)) by (apply g_mono; lia).
    assert (X1 : (1 + g d) * absR l <= (1 + g (S m)) * absR l) by (apply Rmult_le_compat_r; lra).
    assert (X2 : (1 + g d') * absR l' <= (1 + g (S m)) * absR l') by (apply Rmult_le_compat_r; lra).
    assert (Y1 : 0 <= (1 + g (S m)) * absR l) by (apply Rmult_le_pos; lra).
    assert (Y2 : 0 <= (1 + g (S m)) * absR l') by (apply Rmult_le_pos; lra).
    destruct IH1 as [Fa Ea]; [assumption|lra|]. destruct IH2 as [Fb Eb]; [assumption|lra|].
    set (A := sumR (map R64 l)) in *. set (C := sumR (map R64 l')) in *.
    assert (La : Rabs A <= absR l) by apply sum_abs_le. assert (Lb : Rabs C <= absR l') by apply sum_abs_le.
    assert (Z1 : g d * absR l <= g m * absR l) by (apply Rmult_le_compat_r; lra).
    assert (Z2 : g d' * absR l' <= g m * absR l') by (apply Rmult_le_compat_r; lra).
    assert (Hs : Rabs (R64 s + R64 s') <= (1 + g m) * (absR l + absR l')).
    { replace (R64 s + R64 s') with ((R64 s - A) + (R64 s' - C) + (A + C)) by ring.
      eapply Rle_trans; [apply Rabs_triang|]. eapply Rle_trans; [apply Rplus_le_compat; apply Rabs_triang|]. lra. }
    assert (W : (1 + g m) * (absR l + absR l') <= (1 + g (S m)) * (absR l + absR l')) by (apply Rmult_le_compat_r; lra).
    destruct (b64_plus_ok s s' Fa Fb) as [E Ff].
    { eapply Rle_trans; [exact Hs|]. eapply Rle_trans; [exact W|]. eapply Rle_trans; [exact B|]. apply bpow_le. lia. }
    split; [exact Ff|]. change (fadd s s') with (b64_plus mode_NE s s'). rewrite E, map_app, sumR_app. fold A C.
    pose proof (rnd64_plus s s') as R. fold uu in R.
    assert (T : Rabs (R64 s + R64 s' - (A + C)) <= g m * (absR l + absR l')).
    { replace (R64 s + R64 s' - (A + C)) with ((R64 s - A) + (R64 s' - C)) by ring.
      eapply Rle_trans; [apply Rabs_triang|]. lra. }
    replace (rnd64 (R64 s + R64 s') - (A + C)) with ((rnd64 (R64 s + R64 s') - (R64 s + R64 s')) + (R64 s + R64 s' - (A + C))) by ring.
    eapply Rle_trans; [apply Rabs_triang|].
    assert (V : uu * Rabs (R64 s + R64 s') <= uu * ((1 + g m) * (absR l + absR l'))) by (apply Rmult_le_compat_l; lra).
    rewrite g_S. lra.
  - destruct (IH F B) as [Fs Es]. destruct fzero_ok as [E0 F0].
    assert (Bs : Rabs (R64 s) <= bpow radix2 1000).
    { replace (R64 s) with ((R64 s - sumR (map R64 l)) + sumR (map R64 l)) by ring.
      eapply Rle_trans; [apply Rabs_triang|]. pose proof (sum_abs_le l). pose proof (bpow_le radix2 999 1000 ltac:(lia)). lra. }
    destruct (b64_plus_ok fzero s F0 Fs) as [E Ff]; [rewrite E0, Rplus_0_l; exact Bs|].
    split; [exact Ff|]. change (fadd fzero s) with (b64_plus mode_NE fzero s). rewrite E, E0, Rplus_0_l, rnd64_id. exact Es.
  - assert (Ea : absR l' = absR l) by (symmetry; apply sumR_perm, Permutation_map; exact Hp).
    assert (Es : sumR (map R64 l') = sumR (map R64 l)) by (symmetry; apply sumR_perm, Permutation_map; exact Hp).
    rewrite Ea, Es in *. apply IH; auto. apply (Permutation_Forall (Permutation_sym Hp)), F.
Qed.

(** adding from the left is a summation *)
Lemma sum_left_depth x t : forall d l, sums d l x -> (length l <= S d)%nat -> 
  exists d', (d' <= d + length t)%nat /\ sums d' (l ++ t) (fold_left fadd t x).
Proof.
  revert x. induction t as [|y t IH]; intros x d l H HL.
  - exists d. split; [lia|]. rewrite app_nil_r. exact H.
  - cbn [fold_left length]. destruct (IH (fadd x y) (S (Nat.max d 0)) (l ++ [y])) as (d' & A & B).
    + apply (sums_add d 0 l [y] x y H (sums_one y)).
    + rewrite app_length. cbn. lia.
    + exists d'. split; [lia|]. rewrite <- app_assoc in B. exact B.
Qed.
Lemma sum_left_ok : summation sum_left (fun n => n).
Proof.
  intros [|x t]; [exists 0%nat; split; [lia|constructor]|]. cbn [sum_left length].
  destruct (sum_left_depth x t 0 [x] (sums_one x)) as (d & A & B); [cbn; lia|]. exists d. split; [lia|exact B].
Qed.

(** ** sum(l) / len(l) *)
Section Quot.
  Variables (sum : list f64 -> f64) (depth : nat -> nat).
  Hypothesis Hsum : summation sum depth.
  Definition amean (l : list f64) : R := meanR (map (fun x => Rabs (R64 x)) l).
  Definition dd (l : list f64) : R := INR (depth (length l)).

  Lemma dd_nonneg l : 0 <= dd l. Proof. apply pos_INR. Qed.
  Lemma pow45 k : (Z.of_nat k <= 2 ^ 45)%Z -> INR k <= bpow radix2 45.
  Proof. intros H. rewrite INR_IZR_INZ. change (bpow radix2 45) with (IZR (2 ^ 45)). apply IZR_le, H. Qed.
  Lemma dd_u l : (Z.of_nat (depth (length l)) <= 2 ^ 45)%Z -> dd l * uu <= / 256.
  Proof.
    intros H. apply pow45 in H. fold (dd l) in H. pose proof uu_pos.
    apply Rle_trans with (bpow radix2 45 * uu); [apply Rmult_le_compat_r; lra|].
    unfold uu. rewrite <- bpow_plus. change (/ 256) with (bpow radix2 (-8)). apply bpow_le. lia.
  Qed.
  Lemma amean_nonneg l : 0 <= amean l.
  Proof. apply meanR_nonneg. intros x H. apply in_map_iff in H as (y & <- & _). apply Rabs_pos. Qed.
  Lemma amean_le l M : l <> [] -> (forall x, In x l -> Rabs (R64 x) <= M) -> amean l <= M.
  Proof.
    intros H B. unfold amean. rewrite <- (meanR_map_const M l H). apply meanR_le. exact B.
  Qed.
  Lemma fsize_ok l : (Z.of_nat (length l) <= 2 ^ 45)%Z -> R64 (fsize l) = INR (length l).
  Proof.
    intros H. unfold fsize. destruct (f64_of_Z_ok (Z.of_nat (length l))) as [E _]; [|rewrite E; symmetry; apply INR_IZR_INZ].
    rewrite Z.abs_eq by lia. eapply Z.le_trans; [exact H|]. apply Z.pow_le_mono_r; lia.
  Qed.

  Lemma fquot l M : l <> [] -> Forall fin64 l -> (Z.of_nat (length l) <= 2 ^ 45)%Z ->
    (Z.of_nat (depth (length l)) <= 2 ^ 45)%Z -> (forall x, In x l -> Rabs (R64 x) <= M) -> M <= bpow radix2 900 ->
    fin64 (fdiv (sum l) (fsize l)) /\
    Rabs (R64 (fdiv (sum l) (fsize l)) - meanR (map R64 l)) <= (2 * dd l + 2) * uu * amean l + eta.
  Proof.
    intros Hn F L D B HM. destruct (Hsum l) as (d & Hd & S1).
    pose proof (dd_u l D) as U8. pose proof uu_pos as U. pose proof (dd_nonneg l) as D0.
    pose proof (INR_len_pos l Hn) as N0. pose proof (amean_nonneg l) as A0. pose proof (amean_le l M Hn B) as AM.
    pose proof (absR_nonneg l) as X0.
    assert (G : g d <= 2 * dd l * uu).
    { eapply Rle_trans; [apply (g_mono d (depth (length l)) Hd)|]. apply g_bound. fold (dd l). lra. }
    pose proof (g_nonneg d) as G0.
    assert (XA : absR l = INR (length l) * amean l).
    { unfold absR, amean, meanR. rewrite map_length. field. lra. }
    assert (LB : INR (length l) <= bpow radix2 45) by (apply pow45, L).
    assert (XB : absR l <= bpow radix2 945).
    { rewrite XA. replace (bpow radix2 945) with (bpow radix2 45 * bpow radix2 900) by (rewrite <- bpow_plus; f_equal).
      apply Rmult_le_compat; lra. }
    assert (Hb : (1 + g d) * absR l <= bpow radix2 946).
    { replace (bpow radix2 946) with (2 * bpow radix2 945) by (change 2 with (bpow radix2 1); rewrite <- bpow_plus; f_equal).
      apply Rmult_le_compat; lra. }
    destruct (sums_error d l (sum l) S1 F) as [Fs Es].
    { eapply Rle_trans; [exact Hb|]. apply bpow_le. lia. }
    set (m := meanR (map R64 l)).
    assert (Em : sumR (map R64 l) = INR (length l) * m).
    { unfold m, meanR. rewrite map_length. field. lra. }
    rewrite Em, XA in Es.
    set (q := R64 (sum l) / INR (length l)).
    assert (Eq : Rabs (q - m) <= g d * amean l).
    { unfold q. apply Rmult_le_reg_l with (INR (length l)); [exact N0|].
      rewrite <- (Rabs_pos_eq (INR (length l))) at 1 by lra. rewrite <- Rabs_mult.
      replace (INR (length l) * (R64 (sum l) / INR (length l) - m)) with (R64 (sum l) - INR (length l) * m) by (field; lra).
      eapply Rle_trans; [exact Es|]. lra. }
    assert (Mm : Rabs m <= amean l).
    { unfold m, amean, meanR. rewrite !map_length. unfold Rdiv. rewrite Rabs_mult, (Rabs_pos_eq (/ _)) by (left; apply Rinv_0_lt_compat, N0).
      apply Rmult_le_compat_r; [left; apply Rinv_0_lt_compat, N0|]. apply sum_abs_le. }
    assert (Qb : Rabs q <= (1 + g d) * amean l).
    { replace q with ((q - m) + m) by ring. eapply Rle_trans; [apply Rabs_triang|]. lra. }
    assert (Ga : g d * amean l <= 2 * dd l * uu * amean l) by (apply Rmult_le_compat_r; lra).
    assert (Ga1 : g d * amean l <= / 128 * amean l) by (apply Rmult_le_compat_r; lra).
    pose proof (fsize_ok l L) as Fz.
    destruct (b64_div_ok (sum l) (fsize l) Fs) as [E Ff].
    - rewrite Fz. lra.
    - rewrite Fz. fold q. eapply Rle_trans; [exact Qb|]. apply Rle_trans with (2 * bpow radix2 900); [lra|].
      change 2 with (bpow radix2 1). rewrite <- bpow_plus. apply bpow_le. lia.
    - split; [exact Ff|]. change (fdiv (sum l) (fsize l)) with (b64_div mode_NE (sum l) (fsize l)). rewrite E, Fz. fold q.
      pose proof (rnd64_err q) as R. fold uu eta in R.
      replace (rnd64 q - m) with ((rnd64 q - q) + (q - m)) by ring. eapply Rle_trans; [apply Rabs_triang|].
      assert (V : uu * Rabs q <= uu * (2 * amean l)) by (apply Rmult_le_compat_l; lra). lra.
  Qed.

  (** ** The data, its mean, and the data minus its mean *)
  Variables (l : list f64) (H : R).
  Hypothesis Hl : l <> [].
  Hypothesis HF : Forall fin64 l.
  Hypothesis HN : (Z.of_nat (length l) <= 2 ^ 45)%Z.
  Hypothesis HD : (Z.of_nat (depth (length l)) <= 2 ^ 45)%Z.
  Hypothesis HB : forall x, In x l -> Rabs (R64 x) <= H.
  Hypothesis HH : H <= bpow radix2 100.

  Lemma H0 : 0 <= H.
  Proof using Hl HB. clear HF HN HD. destruct l as [|x t]; [congruence|]. pose proof (HB x (or_introl eq_refl)). pose proof (Rabs_pos (R64 x)). lra. Qed.
  Definition Ec : R := (2 * dd l + 5) * uu * H + 2 * eta.
  Lemma small_Ec : Ec <= / 100 * H + 2 * eta.
  Proof.
    unfold Ec. pose proof (dd_u l HD). pose proof uu_small. pose proof H0. apply Rplus_le_compat_r.
    apply Rmult_le_compat_r; [auto|]. change (2 ^ 40)%Z with 1099511627776%Z in *. lra.
  Qed.
  Lemma fmean_ok : fin64 (fmean sum l) /\
    Rabs (R64 (fmean sum l) - meanR (map R64 l)) <= (2 * dd l + 2) * uu * H + eta.
  Proof.
    destruct (fquot l H Hl HF HN HD HB) as [A B].
    - eapply Rle_trans; [exact HH|]. apply bpow_le. lia.
    - split; [exact A|]. eapply Rle_trans; [exact B|]. apply Rplus_le_compat_r.
      apply Rmult_le_compat_l; [|apply amean_le; auto]. pose proof (dd_nonneg l). pose proof uu_pos. apply Rmult_le_pos; lra.
  Qed.
  Lemma mean_bound : Rabs (meanR (map R64 l)) <= H.
  Proof.
    apply Rabs_le. apply meanR_between; [apply map_ne', Hl|]. intros x Hx. apply in_map_iff in Hx as (y & <- & Hy).
    apply Rabs_le_inv, HB, Hy.
  Qed.
  Lemma fcentered_ok x : In x l ->
    fin64 (fsub x (fmean sum l)) /\
    Rabs (R64 (fsub x (fmean sum l)) - (R64 x - meanR (map R64 l))) <= Ec /\
    Rabs (R64 x - meanR (map R64 l)) <= 2 * H.
  Proof.
    intros Hx. destruct fmean_ok as [Fm Em]. set (m := meanR (map R64 l)) in *. set (mh := R64 (fmean sum l)) in *.
    pose proof (dd_u l HD) as U8. pose proof uu_pos as U. pose proof (dd_nonneg l) as D0. pose proof H0 as P0.
    pose proof eta_pos as T0. pose proof uu_small as US. change (2 ^ 40)%Z with 1099511627776%Z in US.
    pose proof (HB x Hx) as Bx. pose proof mean_bound as Bm. fold m in Bm.
    assert (K : (2 * dd l + 2) * uu * H <= / 10 * H) by (apply Rmult_le_compat_r; lra).
    assert (C2 : Rabs (R64 x - m) <= 2 * H) by (eapply Rle_trans; [apply Rabs_triang|]; rewrite Rabs_Ropp; lra).
    assert (Fx : fin64 x) by (rewrite Forall_forall in HF; auto).
    assert (Bd : Rabs (R64 x - mh) <= 3 * H + eta).
    { replace (R64 x - mh) with ((R64 x - m) - (mh - m)) by ring. eapply Rle_trans; [apply Rabs_triang|]. rewrite Rabs_Ropp. lra. }
    assert (ES := eta_small).
    destruct (b64_minus_ok x (fmean sum l) Fx Fm) as [E Ff].
    { fold mh. eapply Rle_trans; [exact Bd|]. apply Rle_trans with (4 * bpow radix2 100).
      - assert (1 <= bpow radix2 100) by (change 1 with (bpow radix2 0); apply bpow_le; lia). lra.
      - change 4 with (bpow radix2 2). rewrite <- bpow_plus. apply bpow_le. lia. }
    split; [exact Ff|]. split; [|exact C2].
    change (fsub x (fmean sum l)) with (b64_minus mode_NE x (fmean sum l)). rewrite E. fold mh.
    pose proof (rnd64_minus x (fmean sum l)) as R. fold mh uu in R.
    replace (rnd64 (R64 x - mh) - (R64 x - m)) with ((rnd64 (R64 x - mh) - (R64 x - mh)) - (mh - m)) by ring.
    eapply Rle_trans; [apply Rabs_triang|]. rewrite Rabs_Ropp.
    assert (V : uu * Rabs (R64 x - mh) <= uu * (3 * H + eta)) by (apply Rmult_le_compat_l; lra).
    assert (V2 : uu * eta <= 1 * eta) by (apply Rmult_le_compat_r; lra).
    unfold Ec. lra.
  Qed.
End Quot.

(** ** Absolute values, squares, square roots *)
Lemma abs_ok x : R64 (b64_abs x) = Rabs (R64 x).
Proof. apply Binary.B2R_Babs. Qed.
Lemma abs_fin x : fin64 x -> fin64 (b64_abs x).
Proof. unfold fin64, b64_abs. intros E. rewrite Binary.is_finite_Babs. exact E. Qed.
Lemma sqrt_ok x : fin64 x -> 0 <= R64 x ->
  R64 (b64_sqrt mode_NE x) = rnd64 (sqrt (R64 x)) /\ fin64 (b64_sqrt mode_NE x).
Proof.
  intros Fx Px. destruct (Binary.Bsqrt_correct 53 1024 eq_refl eq_refl unop_nan_pl64 mode_NE x) as (A & B & _).
  change (SpecFloat.fexp 53 1024) with (FLT_exp (-1074) 53) in A. cbn [round_mode] in A.
  split; [exact A|]. unfold fin64. unfold b64_sqrt. rewrite B.
  destruct x as [s|s|s pl Hpl|s m e He]; try discriminate; auto. destruct s; auto. exfalso.
  revert Px. unfold R64. cbn. intros Px.
  assert (N : F2R (Float radix2 (Zneg m) e) < 0) by (apply F2R_lt_0; cbn; lia). lra.
Qed.
Lemma fquot_nonneg sum depth (Hsum : summation sum depth) l M : l <> [] -> Forall fin64 l ->
  (Z.of_nat (length l) <= 2 ^ 45)%Z -> (Z.of_nat (depth (length l)) <= 2 ^ 45)%Z ->
  (forall x, In x l -> 0 <= R64 x <= M) -> M <= bpow radix2 900 ->
  0 <= R64 (fdiv (sum l) (fsize l)).
Proof.
  intros Hn F L D B HM. destruct (Hsum l) as (d & Hd & S1).
  pose proof (dd_u depth l D) as U8. pose proof uu_pos as U. pose proof (dd_nonneg depth l) as D0.
  pose proof (INR_len_pos l Hn) as N0. pose proof (absR_nonneg l) as X0. pose proof (g_nonneg d) as G0.
  assert (B' : forall x, In x l -> Rabs (R64 x) <= M).
  { intros x Hx. destruct (B x Hx). rewrite Rabs_pos_eq by lra. lra. }
  pose proof (amean_nonneg l) as A0. pose proof (amean_le l M Hn B') as AM.
  assert (G : g d <= 2 * dd depth l * uu).
  { eapply Rle_trans; [apply (g_mono d (depth (length l)) Hd)|]. apply g_bound. fold (dd depth l). lra. }
  assert (XA : absR l = INR (length l) * amean l) by (unfold absR, amean, meanR; rewrite map_length; field; lra).
  assert (LB : INR (length l) <= bpow radix2 45) by (apply pow45, L).
  assert (XB : absR l <= bpow radix2 945).
  { rewrite XA. replace (bpow radix2 945) with (bpow radix2 45 * bpow radix2 900) by (rewrite <- bpow_plus; f_equal).
    apply Rmult_le_compat; lra. }
  assert (Hb : (1 + g d) * absR l <= bpow radix2 946).
  { replace (bpow radix2 946) with (2 * bpow radix2 945) by (change 2 with (bpow radix2 1); rewrite <- bpow_plus; f_equal).
    apply Rmult_le_compat; lra. }
  destruct (sums_error d l (sum l) S1 F) as [Fs Es].
  { eapply Rle_trans; [exact Hb|]. apply bpow_le. lia. }
  assert (Ea : sumR (map R64 l) = absR l).
  { apply sumR_ext. intros x Hx. destruct (B x Hx). rewrite Rabs_pos_eq by lra. reflexivity. }
  rewrite Ea in Es. apply Rabs_le_inv in Es.
  assert (Q : g d * absR l <= 1 * absR l) by (apply Rmult_le_compat_r; lra).
  assert (Q2 : (1 + g d) * absR l <= 2 * absR l) by (apply Rmult_le_compat_r; lra).
  assert (S0 : 0 <= R64 (sum l)) by lra.
  pose proof (fsize_ok l L) as Fz.
  assert (N1 : 1 <= INR (length l)).
  { change 1 with (INR 1). apply le_INR. destruct l; [congruence|cbn; lia]. }
  assert (I1 : / INR (length l) <= 1) by (rewrite <- Rinv_1; apply Rinv_le; lra).
  assert (I0 : 0 < / INR (length l)) by (apply Rinv_0_lt_compat; lra).
  assert (P : 0 <= R64 (sum l) / INR (length l)) by (apply Rmult_le_pos; lra).
  destruct (b64_div_ok (sum l) (fsize l) Fs) as [E Ff].
  - rewrite Fz. lra.
  - rewrite Fz, Rabs_pos_eq by exact P.
    apply Rle_trans with (R64 (sum l) * 1); [apply Rmult_le_compat_l; lra|].
    apply Rle_trans with (bpow radix2 946); [lra|]. apply bpow_le. lia.
  - change (fdiv (sum l) (fsize l)) with (b64_div mode_NE (sum l) (fsize l)). rewrite E, Fz, <- rnd64_0. apply rnd64_le. exact P.
Qed.

Lemma meanR_diff {A} (f h : A -> R) l e : l <> [] -> (forall x, In x l -> Rabs (f x - h x) <= e) ->
  Rabs (meanR (map f l) - meanR (map h l)) <= e.
Proof.
  intros Hl B. rewrite <- meanR_map_minus. apply Rabs_le. apply meanR_between; [apply map_ne', Hl|].
  intros x Hx. apply in_map_iff in Hx as (y & <- & Hy). apply Rabs_le_inv, B, Hy.
Qed.
(** the root mean square is 1-Lipschitz for the largest change *)
Lemma rms_le {A} (f h : A -> R) l e : l <> [] -> 0 <= e -> (forall x, In x l -> Rabs (f x - h x) <= e) ->
  sqrt (mom 2 (map f l)) <= sqrt (mom 2 (map h l)) + e.
Proof.
  intros Hl He B. set (r := sqrt (mom 2 (map h l))). assert (R0 : 0 <= r) by apply sqrt_pos.
  assert (Rr : r * r = mom 2 (map h l)) by (apply sqrt_sqrt, mom2_nonneg).
  rewrite <- (sqrt_square (r + e)) by lra. apply sqrt_le_1; [apply mom2_nonneg|apply Rmult_le_pos; lra|].
  assert (M1 : meanR (map Rabs (map h l)) <= r) by (apply mean_abs_sq, map_ne', Hl).
  apply Rle_trans with (meanR (map (fun x => (h x) ^ 2 + (2 * e * Rabs (h x) + e * e)) l)).
  - unfold mom. rewrite map_map. apply meanR_le. intros x Hx. specialize (B x Hx).
    assert (T : Rabs (f x) <= Rabs (h x) + e).
    { replace (f x) with ((f x - h x) + h x) by ring. eapply Rle_trans; [apply Rabs_triang|]. lra. }
    pose proof (Rabs_pos (f x)) as P1. pose proof (sqr_abs (f x)) as Q1. pose proof (sqr_abs (h x)) as Q2.
    assert (T2 : Rabs (f x) * Rabs (f x) <= (Rabs (h x) + e) * (Rabs (h x) + e)) by (apply Rmult_le_compat; lra).
    cbn. lra.
  - rewrite meanR_map_plus, meanR_map_plus, meanR_map_scal, meanR_map_const by exact Hl.
    rewrite map_map in M1. unfold mom in Rr. rewrite map_map in Rr. rewrite <- Rr.
    assert (T : 2 * e * meanR (map (fun x => Rabs (h x)) l) <= 2 * e * r) by (apply Rmult_le_compat_l; lra). lra.
Qed.
Lemma rms_diff {A} (f h : A -> R) l e : l <> [] -> 0 <= e -> (forall x, In x l -> Rabs (f x - h x) <= e) ->
  Rabs (sqrt (mom 2 (map f l)) - sqrt (mom 2 (map h l))) <= e.
Proof.
  intros Hl He B. apply Rabs_le. pose proof (rms_le f h l e Hl He B).
  assert (B' : forall x, In x l -> Rabs (h x - f x) <= e) by (intros; rewrite Rabs_minus_sym; auto).
  pose proof (rms_le h f l e Hl He B'). lra.
Qed.
(** roots of nearly equal numbers *)
Lemma sqrt_near q Q k t : 0 <= q -> 0 <= Q -> 0 <= k <= 1 -> 0 <= t -> Rabs (q - Q) <= k * Q + t ->
  Rabs (sqrt q - sqrt Q) <= k * sqrt Q + sqrt t.
Proof.
  intros q0 Q0 [k0 k1] t0 B. apply Rabs_le_inv in B. set (r := sqrt Q). assert (r0 : 0 <= r) by apply sqrt_pos.
  assert (rr : r * r = Q) by (apply sqrt_sqrt; exact Q0). set (w := sqrt t). assert (w0 : 0 <= w) by apply sqrt_pos.
  assert (ww : w * w = t) by (apply sqrt_sqrt; exact t0).
  assert (kr : 0 <= k * r) by (apply Rmult_le_pos; auto).
  assert (rw : 0 <= (r + k * r) * w) by (apply Rmult_le_pos; lra).
  assert (krr : 0 <= k * r * r) by (apply Rmult_le_pos; auto). assert (kkr : 0 <= (k * r) * (k * r)) by (apply Rmult_le_pos; auto).
  assert (kk : (k * r) * (k * r) <= (k * r) * r).
  { apply Rmult_le_compat_l; [auto|]. rewrite <- (Rmult_1_l r) at 2. apply Rmult_le_compat_r; auto. }
  assert (kQ : k * Q = k * r * r) by (rewrite <- rr; ring).
  apply Rabs_le. split.
  - assert (U : r - k * r <= sqrt q + w).
    { assert (s0 : 0 <= sqrt q) by apply sqrt_pos. assert (ss : sqrt q * sqrt q = q) by (apply sqrt_sqrt; exact q0).
      apply Rsqr_incr_0_var; [|lra]. unfold Rsqr.
      assert (sw : 0 <= sqrt q * w) by (apply Rmult_le_pos; auto).
      replace ((r - k * r) * (r - k * r)) with (r * r - 2 * (k * r * r) + (k * r) * (k * r)) by ring.
      replace ((sqrt q + w) * (sqrt q + w)) with (sqrt q * sqrt q + w * w + 2 * (sqrt q * w)) by ring.
      rewrite ss, ww. lra. }
    lra.
  - assert (U : sqrt q <= r + k * r + w).
    { rewrite <- (sqrt_square (r + k * r + w)) by lra. apply sqrt_le_1; [auto|apply Rmult_le_pos; lra|].
      replace ((r + k * r + w) * (r + k * r + w)) with (r * r + 2 * (k * r * r) + (k * r) * (k * r) + w * w + 2 * ((r + k * r) * w)) by ring.
      rewrite rr, ww. lra. }
    lra.
Qed.

(** ** The parameters *)
Section Bounds.
  Variables (sum : list f64 -> f64) (depth : nat -> nat).
  Hypothesis Hsum : summation sum depth.
  Variables (l : list f64) (H : R).
  Hypothesis Hl : l <> [].
  Hypothesis HF : Forall fin64 l.
  Hypothesis HN : (Z.of_nat (length l) <= 2 ^ 45)%Z.
  Hypothesis HD : (Z.of_nat (depth (length l)) <= 2 ^ 45)%Z.
  Hypothesis HB : forall x, In x l -> Rabs (R64 x) <= H.
  Hypothesis HH : H <= bpow radix2 100.

  Definition cf (x : f64) : f64 := fsub x (fmean sum l).
  Definition cr (x : f64) : R := R64 x - meanR (map R64 l).
  Lemma fcentered_map : fcentered sum l = map cf l. Proof. reflexivity. Qed.
  Lemma centered_map : centered (map R64 l) = map cr l.
  Proof. unfold centered. rewrite map_map. reflexivity. Qed.
  Lemma c_ok x : In x l -> fin64 (cf x) /\ Rabs (R64 (cf x) - cr x) <= Ec depth l H /\ Rabs (cr x) <= 2 * H.
  Proof. intros Hx. apply (fcentered_ok sum depth Hsum l H Hl HF HN HD HB HH x Hx). Qed.
  Lemma Ec_pos : 0 <= Ec depth l H.
  Proof.
    unfold Ec. pose proof (dd_nonneg depth l). pose proof uu_pos. pose proof eta_pos.
    pose proof (H0 l H Hl HB) as P0. assert (0 <= (2 * dd depth l + 5) * uu * H) by (repeat apply Rmult_le_pos; lra). lra.
  Qed.
  Definition KK : R := 3 * H + 2 * eta.
  Lemma c_bound x : In x l -> Rabs (R64 (cf x)) <= KK.
  Proof.
    intros Hx. destruct (c_ok x Hx) as (_ & A & B). replace (R64 (cf x)) with ((R64 (cf x) - cr x) + cr x) by ring.
    eapply Rle_trans; [apply Rabs_triang|]. pose proof (small_Ec depth l H Hl HD HB). pose proof (H0 l H Hl HB). unfold KK. lra.
  Qed.
  Lemma KK_pos : 0 <= KK. Proof. unfold KK. pose proof (H0 l H Hl HB). pose proof eta_pos. lra. Qed.
  Lemma KK_big : KK <= bpow radix2 102.
  Proof.
    unfold KK. replace (bpow radix2 102) with (4 * bpow radix2 100) by (change 4 with (bpow radix2 2); rewrite <- bpow_plus; f_equal).
    assert (1 <= bpow radix2 100) by (change 1 with (bpow radix2 0); apply bpow_le; lia).
    pose proof eta_small. pose proof uu_small. change (2 ^ 40)%Z with 1099511627776%Z in *. lra.
  Qed.
  Lemma Dcoef k : 0 <= k <= 10 -> 0 <= (2 * dd depth l + k) * uu <= / 100.
  Proof.
    intros K. pose proof (dd_u depth l HD). pose proof uu_pos. pose proof uu_small. pose proof (dd_nonneg depth l).
    change (2 ^ 40)%Z with 1099511627776%Z in *.
    assert (k * uu <= 10 * uu) by (apply Rmult_le_compat_r; lra). assert (0 <= k * uu) by (apply Rmult_le_pos; lra).
    assert (0 <= dd depth l * uu) by (apply Rmult_le_pos; lra).
    rewrite Rmult_plus_distr_r. split; [|lra]. assert (0 <= 2 * dd depth l * uu) by lra. lra.
  Qed.

  (** *** Sa *)
  Lemma Sa_error : fin64 (float_Ra sum l) /\ 0 <= R64 (float_Ra sum l) /\
    Rabs (R64 (float_Ra sum l) - meanR (map Rabs (centered (map R64 l)))) <= (8 * dd depth l + 12) * uu * H + 8 * eta.
  Proof.
    set (a := (map b64_abs (fcentered sum l) : list f64)).
    assert (La : length a = length l) by (unfold a, fcentered; rewrite !map_length; reflexivity).
    assert (Na : a <> []) by (unfold a, fcentered; do 2 apply map_ne'; exact Hl).
    assert (Ia : forall y, In y a -> exists x, In x l /\ y = b64_abs (cf x)).
    { intros y Hy. unfold a in Hy. rewrite fcentered_map in Hy. apply in_map_iff in Hy as (z & <- & Hz).
      apply in_map_iff in Hz as (x & <- & Hx). eauto. }
    assert (Fa : Forall fin64 a).
    { apply Forall_forall. intros y Hy. destruct (Ia y Hy) as (x & Hx & ->). apply abs_fin, c_ok, Hx. }
    assert (Ba : forall y, In y a -> 0 <= R64 y <= KK).
    { intros y Hy. destruct (Ia y Hy) as (x & Hx & ->). rewrite abs_ok. split; [apply Rabs_pos|apply c_bound, Hx]. }
    assert (Ba' : forall y, In y a -> Rabs (R64 y) <= KK).
    { intros y Hy. destruct (Ba y Hy). rewrite Rabs_pos_eq by lra. lra. }
    assert (K9 : KK <= bpow radix2 900) by (eapply Rle_trans; [apply KK_big|]; apply bpow_le; lia).
    assert (HNa : (Z.of_nat (length a) <= 2 ^ 45)%Z) by (rewrite La; exact HN).
    assert (HDa : (Z.of_nat (depth (length a)) <= 2 ^ 45)%Z) by (rewrite La; exact HD).
    assert (Ef : float_Ra sum l = fdiv (sum a) (fsize a)) by (unfold float_Ra, fsize; rewrite La; reflexivity).
    rewrite Ef. destruct (fquot sum depth Hsum a KK Na Fa HNa HDa Ba' K9) as [F1 E1].
    pose proof (fquot_nonneg sum depth Hsum a KK Na Fa HNa HDa Ba K9) as P1.
    split; [exact F1|]. split; [exact P1|].
    assert (Dd : dd depth a = dd depth l) by (unfold dd; f_equal; f_equal; exact La). rewrite Dd in E1.
    assert (E2 : Rabs (meanR (map R64 a) - meanR (map Rabs (centered (map R64 l)))) <= Ec depth l H).
    { unfold a. rewrite fcentered_map, centered_map, !map_map. apply meanR_diff; [exact Hl|]. intros x Hx.
      destruct (c_ok x Hx) as (_ & A & _). rewrite abs_ok. eapply Rle_trans; [apply Rabs_triang_inv2|]. exact A. }
    pose proof (amean_le a KK Na Ba') as AM.
    destruct (Dcoef 2 ltac:(lra)) as [C1 C2].
    assert (E3 : (2 * dd depth l + 2) * uu * amean a <= (2 * dd depth l + 2) * uu * KK) by (apply Rmult_le_compat_l; auto).
    assert (E4 : (2 * dd depth l + 2) * uu * (2 * eta) <= / 100 * (2 * eta)) by (pose proof eta_pos; apply Rmult_le_compat_r; lra).
    set (v := R64 (fdiv (sum a) (fsize a))) in *. set (mm := meanR (map R64 a)) in *. set (tr := meanR _) in E2 |- *.
    replace (v - tr) with ((v - mm) + (mm - tr)) by ring. eapply Rle_trans; [apply Rabs_triang|].
    pose proof uu_pos. pose proof (H0 l H Hl HB) as P0. pose proof eta_pos.
    assert (0 <= uu * H) by (apply Rmult_le_pos; lra). unfold Ec in E2. unfold KK in E3. lra.
  Qed.

  (** *** Sq *)
  Lemma sq_elem x : In x l -> let w := fmul (cf x) (cf x) in
    fin64 w /\ 0 <= R64 w <= bpow radix2 210 /\ Rabs (R64 w - R64 (cf x) ^ 2) <= uu * R64 (cf x) ^ 2 + eta.
  Proof.
    intros Hx w. destruct (c_ok x Hx) as (Fc & _ & _). pose proof (c_bound x Hx) as Bc. set (c := R64 (cf x)) in *.
    assert (Sq : Rabs (c * c) <= bpow radix2 204).
    { rewrite Rabs_mult. replace (bpow radix2 204) with (bpow radix2 102 * bpow radix2 102) by (rewrite <- bpow_plus; f_equal).
      pose proof KK_big. pose proof (Rabs_pos c). apply Rmult_le_compat; lra. }
    assert (S0 : 0 <= c * c) by apply Rle_0_sqr.
    destruct (b64_mult_ok (cf x) (cf x) Fc Fc) as [E F].
    { fold c. eapply Rle_trans; [exact Sq|]. apply bpow_le. lia. }
    fold c in E. change (b64_mult mode_NE (cf x) (cf x)) with w in E, F. split; [exact F|]. rewrite E. split; [split|].
    - rewrite <- rnd64_0. apply rnd64_le, S0.
    - rewrite <- (rnd64_bpow 210) by lia. apply rnd64_le. rewrite Rabs_pos_eq in Sq by exact S0.
      eapply Rle_trans; [exact Sq|]. apply bpow_le. lia.
    - replace (c ^ 2) with (c * c) by ring. pose proof (rnd64_err (c * c)) as R. rewrite (Rabs_pos_eq (c * c)) in R by exact S0. exact R.
  Qed.
  Lemma Sq_error : fin64 (float_Rq sum l) /\ 0 <= R64 (float_Rq sum l) /\
    Rabs (R64 (float_Rq sum l) - sqrt (mom 2 (centered (map R64 l)))) <= (11 * dd depth l + 30) * uu * H + bpow radix2 (-535).
  Proof.
    set (w := (map (fun x => fmul x x) (fcentered sum l) : list f64)).
    assert (Lw : length w = length l) by (unfold w, fcentered; rewrite !map_length; reflexivity).
    assert (Nw : w <> []) by (unfold w, fcentered; do 2 apply map_ne'; exact Hl).
    assert (Iw : forall y, In y w -> exists x, In x l /\ y = fmul (cf x) (cf x)).
    { intros y Hy. unfold w in Hy. rewrite fcentered_map in Hy. apply in_map_iff in Hy as (z & <- & Hz).
      apply in_map_iff in Hz as (x & <- & Hx). eauto. }
    assert (Fw : Forall fin64 w).
    { apply Forall_forall. intros y Hy. destruct (Iw y Hy) as (x & Hx & ->). apply (sq_elem x Hx). }
    assert (Bw : forall y, In y w -> 0 <= R64 y <= bpow radix2 210).
    { intros y Hy. destruct (Iw y Hy) as (x & Hx & ->). apply (sq_elem x Hx). }
    assert (Bw' : forall y, In y w -> Rabs (R64 y) <= bpow radix2 210).
    { intros y Hy. destruct (Bw y Hy). rewrite Rabs_pos_eq by lra. lra. }
    assert (K9 : bpow radix2 210 <= bpow radix2 900) by (apply bpow_le; lia).
    assert (HNw : (Z.of_nat (length w) <= 2 ^ 45)%Z) by (rewrite Lw; exact HN).
    assert (HDw : (Z.of_nat (depth (length w)) <= 2 ^ 45)%Z) by (rewrite Lw; exact HD).
    assert (Ef : float_Rq sum l = b64_sqrt mode_NE (fdiv (sum w) (fsize w))) by (unfold float_Rq, fsize; rewrite Lw; reflexivity).
    rewrite Ef. destruct (fquot sum depth Hsum w _ Nw Fw HNw HDw Bw' K9) as [F1 E1].
    pose proof (fquot_nonneg sum depth Hsum w _ Nw Fw HNw HDw Bw K9) as P1.
    assert (Dd : dd depth w = dd depth l) by (unfold dd; f_equal; f_equal; exact Lw). rewrite Dd in E1.
    set (q := fdiv (sum w) (fsize w)) in *.
    destruct (sqrt_ok q F1 P1) as [E2 F2]. split; [exact F2|]. rewrite E2.
    split; [rewrite <- rnd64_0; apply rnd64_le, sqrt_pos|].
    set (fc := fun x => R64 (cf x)). set (Q := mom 2 (map fc l)).
    pose proof uu_pos as U. pose proof eta_pos as T0. pose proof eta_small as TU. pose proof uu_small as US.
    change (2 ^ 40)%Z with 1099511627776%Z in US. pose proof (dd_nonneg depth l) as D0. pose proof (H0 l H Hl HB) as P0.
    assert (Q0 : 0 <= Q) by apply mom2_nonneg.
    assert (EQ : Rabs (meanR (map R64 w) - Q) <= uu * Q + eta).
    { unfold w, Q, mom. rewrite fcentered_map, !map_map. rewrite <- meanR_map_minus.
      assert (Qe : uu * meanR (map (fun x => fc x ^ 2) l) + eta = meanR (map (fun x => uu * fc x ^ 2 + eta) l)).
      { rewrite meanR_map_plus, meanR_map_scal, meanR_map_const by exact Hl. reflexivity. }
      rewrite Qe. apply Rabs_le. split.
      - replace (- meanR (map (fun x => uu * fc x ^ 2 + eta) l)) with (meanR (map (fun x => -1 * (uu * fc x ^ 2 + eta)) l))
          by (rewrite meanR_map_scal; ring).
        apply meanR_le. intros x Hx. destruct (sq_elem x Hx) as (_ & _ & B). apply Rabs_le_inv in B. unfold fc. lra.
      - apply meanR_le. intros x Hx. destruct (sq_elem x Hx) as (_ & _ & B). apply Rabs_le_inv in B. unfold fc. lra. }
    assert (Aw : amean w = meanR (map R64 w)).
    { apply meanR_ext. intros y Hy. apply Rabs_pos_eq, Bw, Hy. }
    assert (A2 : amean w <= (1 + uu) * Q + eta) by (rewrite Aw; apply Rabs_le_inv in EQ; lra).
    destruct (Dcoef 2 ltac:(lra)) as [C1 C2]. destruct (Dcoef 4 ltac:(lra)) as [C3 C4].
    set (k := (2 * dd depth l + 4) * uu) in *.
    assert (E3 : (2 * dd depth l + 2) * uu * amean w <= (2 * dd depth l + 2) * uu * ((1 + uu) * Q + eta))
      by (apply Rmult_le_compat_l; auto).
    assert (uQ : 0 <= uu * Q) by (apply Rmult_le_pos; lra).
    assert (E4 : (2 * dd depth l + 2) * uu * (uu * Q) <= 1 * (uu * Q)) by (apply Rmult_le_compat_r; lra).
    assert (E5 : (2 * dd depth l + 2) * uu * eta <= 1 * eta) by (apply Rmult_le_compat_r; lra).
    assert (NQ : Rabs (R64 q - Q) <= k * Q + 4 * eta).
    { replace (R64 q - Q) with ((R64 q - meanR (map R64 w)) + (meanR (map R64 w) - Q)) by ring.
      eapply Rle_trans; [apply Rabs_triang|]. unfold k. lra. }
    assert (t0 : sqrt (4 * eta) <= bpow radix2 (-536)).
    { rewrite <- (sqrt_square (bpow radix2 (-536))) by apply bpow_ge_0. rewrite <- bpow_plus. apply sqrt_le_1; [lra|apply bpow_ge_0|].
      unfold eta. change 4 with (bpow radix2 2). rewrite <- bpow_plus. apply bpow_le. lia. }
    assert (k01 : 0 <= k <= 1) by lra. assert (e40 : 0 <= 4 * eta) by lra.
    pose proof (sqrt_near (R64 q) Q k (4 * eta) P1 Q0 k01 e40 NQ) as NS.
    assert (RQ : sqrt Q <= KK).
    { apply sq_bound; [apply map_ne', Hl|]. intros y Hy. apply in_map_iff in Hy as (x & <- & Hx). apply c_bound, Hx. }
    assert (RQ0 : 0 <= sqrt Q) by apply sqrt_pos.
    assert (kR : k * sqrt Q <= k * KK) by (apply Rmult_le_compat_l; lra).
    assert (LP : Rabs (sqrt Q - sqrt (mom 2 (centered (map R64 l)))) <= Ec depth l H).
    { rewrite centered_map. apply rms_diff; [exact Hl|apply Ec_pos|]. intros x Hx. apply (c_ok x Hx). }
    pose proof (rnd64_err (sqrt (R64 q))) as R. fold uu eta in R.
    rewrite (Rabs_pos_eq (sqrt (R64 q))) in R by apply sqrt_pos.
    set (sq := sqrt (R64 q)) in *. set (tr := sqrt (mom 2 _)) in *. set (rQ := sqrt Q) in *.
    replace (rnd64 sq - tr) with ((rnd64 sq - sq) + ((sq - rQ) + (rQ - tr))) by ring.
    eapply Rle_trans; [apply Rabs_triang|]. eapply Rle_trans; [apply Rplus_le_compat_l, Rabs_triang|].
    assert (k2 : k * KK <= / 100 * KK) by (apply Rmult_le_compat_r; [apply KK_pos|lra]).
    assert (SQ : sq <= 2 * KK + bpow radix2 (-536)).
    { pose proof KK_pos. apply Rabs_le_inv in NS. lra. }
    assert (V : uu * sq <= uu * (2 * KK + bpow radix2 (-536))) by (apply Rmult_le_compat_l; lra).
    assert (V2 : uu * bpow radix2 (-536) <= / 100 * bpow radix2 (-536)) by (apply Rmult_le_compat_r; [apply bpow_ge_0|lra]).
    assert (V3 : k * eta <= / 100 * eta) by (apply Rmult_le_compat_r; lra).
    assert (V4 : uu * eta <= / 100 * eta) by (apply Rmult_le_compat_r; lra).
    assert (B5 : bpow radix2 (-535) = 2 * bpow radix2 (-536)) by (change 2 with (bpow radix2 1); rewrite <- bpow_plus; f_equal).
    assert (B6 : eta <= / 100 * bpow radix2 (-536)).
    { apply Rle_trans with (bpow radix2 (-7) * bpow radix2 (-536)); [unfold eta; rewrite <- bpow_plus; apply bpow_le; lia|].
      apply Rmult_le_compat_r; [apply bpow_ge_0|]. change (bpow radix2 (-7)) with (/ 128). lra. }
    assert (0 <= uu * H) by (apply Rmult_le_pos; lra). assert (0 <= dd depth l * (uu * H)) by (apply Rmult_le_pos; lra).
    rewrite B5. unfold Ec in LP. unfold KK in V, kR. unfold k in *. lra.
  Qed.
End Bounds.
