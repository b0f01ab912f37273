(** Error analysis of the integer storage of the native format, over the reals with rounding. *)
From Coq Require Import ZArith Reals Lia Lra Psatz.
From Flocq Require Import Core.Core.
From Verif Require Import ModelBytes ProofFloat ProofSurReal.
Local Open Scope R_scope.

Section Scale.
Context (x m M : f64) (Kz Nz : Z).
Let K := IZR Kz.
Let N := IZR Nz.
Let D := R64 M - R64 m.
Hypothesis Hx : R64 m <= R64 x <= R64 M.
Hypothesis HD : bpow radix2 (-90) <= D.
Hypothesis HK : (255 <= Kz <= 4294967295)%Z.
Hypothesis HN : (Nz <= 0 /\ - (Kz + 1) <= 2 * Nz)%Z.
Let d := rnd64 (R64 M - R64 m).
Let q := rnd64 (rnd64 (R64 x - R64 m) / d).
Let t := rnd64 (q * K).
Let t2 := rnd64 (t + N).
Let p := (R64 x - R64 m) / D.
Let u := / 9007199254740992.

Lemma K_real : 255 <= K <= 4294967295.
Proof. unfold K. split; apply IZR_le; lia. Qed.
Lemma N_real : N <= 0 /\ - (K + 1) <= 2 * N.
Proof. unfold N, K. split; [apply IZR_le; lia|]. replace (- (IZR Kz + 1)) with (IZR (- (Kz + 1))) by (rewrite opp_IZR, plus_IZR; reflexivity).
  rewrite <- mult_IZR. apply IZR_le. lia. Qed.
Lemma ts_range : 0 <= t <= K.
Proof.
  pose proof (q_range x m M Hx HD) as Hq. cbv zeta in Hq. fold d in Hq. fold q in Hq. pose proof K_real. unfold t. split; [rewrite <- rnd64_0; apply rnd64_le; nra|].
  apply Rle_trans with (rnd64 K); [apply rnd64_le; nra|right; unfold K; apply rnd64_IZR; lia].
Qed.
Lemma t2_range : N <= t2 <= K + N.
Proof.
  pose proof ts_range as Ht. unfold t2. split.
  - apply Rle_trans with (rnd64 N); [right; symmetry; unfold N; apply rnd64_IZR; lia|apply rnd64_le; lra].
  - apply Rle_trans with (rnd64 (K + N)); [apply rnd64_le; lra|right; unfold K, N; rewrite <- plus_IZR; apply rnd64_IZR; lia].
Qed.
Lemma stored_range : (Nz <= Ztrunc t2 <= Kz + Nz)%Z.
Proof.
  pose proof t2_range as [H1 H2]. split.
  - rewrite <- (Ztrunc_IZR Nz). apply Ztrunc_le. exact H1.
  - rewrite <- (Ztrunc_IZR (Kz + Nz)). apply Ztrunc_le. rewrite plus_IZR. exact H2.
Qed.
Lemma t2_err : Rabs (t2 - (p * K + N)) <= 8 * u * K.
Proof.
  pose proof (q_err x m M Hx HD) as Eq. cbv zeta in Eq. fold d q D p u in Eq. fold (R64 x - R64 m) in Eq. 
  pose proof (q_range x m M Hx HD) as Hq. cbv zeta in Hq. fold d q in Hq. pose proof ts_range as Ht. pose proof K_real as HKr. pose proof N_real as HNr.
  pose proof (rnd64_err (q * K)) as Et. fold t in Et. rewrite bp53 in Et. fold u in Et.
  rewrite (Rabs_pos_eq (q * K)) in Et by nra.
  pose proof (rnd64_err (t + N)) as En. fold t2 in En. rewrite bp53 in En. fold u in En.
  assert (Hb : Rabs (t + N) <= K) by (apply Rabs_le; lra).
  pose proof bp1075 as T1. pose proof bp200 as T2. fold u in T2.
  assert (Hu : 0 < u < / 1000) by (unfold u; lra).
  apply Rabs_le_inv in Eq. apply Rabs_le_inv in Et. apply Rabs_le_inv in En.
  assert (Hqk : q * K <= K) by nra.
  assert (E1 : - (5 * u * K) <= q * K - p * K <= 5 * u * K) by (split; nra).
  assert (E2 : u * (q * K) <= u * K) by nra.
  assert (E3 : u * Rabs (t + N) <= u * K) by nra.
  assert (E4 : bpow radix2 (-1075) <= / 4 * (u * K)).
  { assert (u * u * u <= / 4 * u) by nra. assert (u <= u * K) by nra. nra. }
  apply Rabs_le. lra.
Qed.
Lemma st_err : Rabs (IZR (Ztrunc t2) - (p * K + N)) <= 1 + 8 * u * K.
Proof.
  pose proof t2_err as H1. pose proof (trunc_err t2) as H2. apply Rabs_le_inv in H1. apply Rabs_le_inv in H2. apply Rabs_le. lra.
Qed.

Hypothesis Hm : Rabs (R64 m) <= bpow radix2 100.
Hypothesis HM : Rabs (R64 M) <= bpow radix2 100.
Let n := Ztrunc t2.
Let r := rnd64 (IZR (n + Nz) / K).
Let v := rnd64 (r * d).
Let z := rnd64 (v + R64 m).
Let top := Rmax (Rabs (R64 m)) (Rabs (R64 M)).
(** what a correct reader would be compared with, plus the offset the code introduces for signed types *)
Let target := R64 x + 2 * N / K * D.

Lemma s_range : - (K + 1) <= IZR (n + Nz) <= K.
Proof.
  pose proof stored_range as H. fold n in H. pose proof K_real. unfold K. split.
  - replace (- (IZR Kz + 1)) with (IZR (- (Kz + 1))) by (rewrite opp_IZR, plus_IZR; reflexivity). apply IZR_le. lia.
  - apply IZR_le. lia.
Qed.
Lemma quot_range : Rabs (IZR (n + Nz) / K) <= 1 + / 255.
Proof.
  pose proof s_range as H. pose proof K_real as HKr. unfold Rdiv. rewrite Rabs_mult, Rabs_inv, (Rabs_pos_eq K) by lra.
  apply Rmult_le_reg_r with K; [lra|]. rewrite Rmult_assoc, Rinv_l, Rmult_1_r by lra. apply Rabs_le. lra.
Qed.
Lemma r_range : Rabs r <= 1 + / 200.
Proof.
  pose proof quot_range as H. pose proof (rnd64_err (IZR (n + Nz) / K)) as E. fold r in E. rewrite bp53 in E.
  pose proof bp1075 as T1. pose proof bp200 as T2. replace r with ((r - IZR (n + Nz) / K) + IZR (n + Nz) / K) by ring.
  eapply Rle_trans; [apply Rabs_triang|]. lra.
Qed.
Lemma d_bound : 0 < d <= 2 * D.
Proof.
  pose proof (d_err m M HD) as E. cbv zeta in E. fold d D in E. pose proof (bpow_gt_0 radix2 (-90)). apply Rabs_le_inv in E.
  pose proof (d_pos m M HD) as P. cbv zeta in P. fold d in P. lra.
Qed.
Lemma v_range : Rabs v <= 3 * D.
Proof.
  pose proof r_range as Hr. pose proof d_bound as Hd. pose proof (rnd64_err (r * d)) as E. fold v in E. rewrite bp53 in E.
  pose proof (d_err m M HD) as Ed. cbv zeta in Ed. fold d D in Ed. apply Rabs_le_inv in Ed.
  assert (Hrd : Rabs (r * d) <= (1 + / 200) * d) by (rewrite Rabs_mult, (Rabs_pos_eq d) by lra; apply Rmult_le_compat_r; lra).
  assert (Ht : bpow radix2 (-1075) <= D) by (eapply Rle_trans; [|exact HD]; apply bpow_le; lia).
  pose proof (bpow_gt_0 radix2 (-90)).
  replace v with ((v - r * d) + r * d) by ring. eapply Rle_trans; [apply Rabs_triang|]. lra.
Qed.
Theorem scale_error : Rabs (z - target) <= D / K + bpow radix2 (-47) * top.
Proof.
  pose proof st_err as Hs. fold n in Hs. pose proof K_real as HKr. pose proof r_range as Hr. pose proof quot_range as Hq.
  pose proof (d_err m M HD) as Ed. cbv zeta in Ed. fold d D u in Ed. pose proof d_bound as Hd. pose proof (bpow_gt_0 radix2 (-90)) as H90.
  assert (HDp : 0 < D) by lra.
  assert (Hu : 0 < u < / 1000000) by (unfold u; lra).
  pose proof (rnd64_err (IZR (n + Nz) / K)) as E1. fold r in E1. rewrite bp53 in E1. fold u in E1.
  pose proof (rnd64_err (r * d)) as E2. fold v in E2. rewrite bp53 in E2. fold u in E2.
  pose proof (rnd64_err (v + R64 m)) as E3. fold z in E3. rewrite bp53 in E3. fold u in E3.
  pose proof bp1075 as T1. pose proof bp200 as T2. fold u in T2.
  assert (Tu : bpow radix2 (-1075) <= / 100 * u) by nra.
  assert (TD : bpow radix2 (-1075) <= / 100 * (u * D)).
  { apply Rle_trans with (bpow radix2 (-200)); [apply bpow_le; lia|].
    apply Rle_trans with (/ 100 * (u * bpow radix2 (-90))).
    - replace (bpow radix2 (-200)) with (bpow radix2 (-110) * bpow radix2 (-90)) by (rewrite <- bpow_plus; reflexivity).
      assert (bpow radix2 (-110) <= / 100 * u); [|nra].
      replace (bpow radix2 (-110)) with (bpow radix2 (-53) * bpow radix2 (-57)) by (rewrite <- bpow_plus; reflexivity). rewrite bp53. fold u.
      change (bpow radix2 (-57)) with (/ 144115188075855872). lra.
    - apply Rmult_le_compat_l; [lra|]. apply Rmult_le_compat_l; lra. }
  set (g := p + 2 * N / K).
  assert (Eg : IZR (n + Nz) / K - g = (IZR n - (p * K + N)) / K) by (rewrite plus_IZR; fold N; unfold g; field; lra).
  assert (G1 : Rabs (IZR (n + Nz) / K - g) <= / K + 8 * u).
  { rewrite Eg. unfold Rdiv. rewrite Rabs_mult, Rabs_inv, (Rabs_pos_eq K) by lra.
    apply Rmult_le_reg_r with K; [lra|]. rewrite Rmult_assoc, Rinv_l, Rmult_1_r, Rmult_plus_distr_r, Rinv_l by lra. exact Hs. }
  assert (G2 : Rabs (r - g) <= / K + 11 * u).
  { replace (r - g) with ((r - IZR (n + Nz) / K) + (IZR (n + Nz) / K - g)) by ring. eapply Rle_trans; [apply Rabs_triang|].
    assert (u * Rabs (IZR (n + Nz) / K) <= 2 * u) by nra. lra. }
  assert (G3 : Rabs (r * d) <= (1 + / 200) * d) by (rewrite Rabs_mult, (Rabs_pos_eq d) by lra; apply Rmult_le_compat_r; lra).
  assert (G4 : Rabs (v - r * d) <= 3 * u * D).
  { eapply Rle_trans; [exact E2|]. assert (d <= (1 + / 1000) * D) by (apply Rabs_le_inv in Ed; nra).
    assert (u * Rabs (r * d) <= u * (2 * D)) by (apply Rmult_le_compat_l; lra). lra. }
  assert (G5 : Rabs (r * d - r * D) <= 2 * u * D).
  { replace (r * d - r * D) with (r * (d - D)) by ring. rewrite Rabs_mult. pose proof (Rabs_pos r). pose proof (Rabs_pos (d - D)).
    apply Rle_trans with (2 * (u * D)); [|lra]. apply Rmult_le_compat; lra. }
  assert (G6 : Rabs (v - g * D) <= D / K + 16 * u * D).
  { replace (v - g * D) with ((v - r * d) + ((r * d - r * D) + (r - g) * D)) by ring.
    eapply Rle_trans; [apply Rabs_triang|]. assert (Rabs ((r * d - r * D) + (r - g) * D) <= 2 * u * D + (/ K + 11 * u) * D).
    { eapply Rle_trans; [apply Rabs_triang|]. apply Rplus_le_compat; [exact G5|]. rewrite Rabs_mult, (Rabs_pos_eq D) by lra.
      apply Rmult_le_compat_r; lra. }
    unfold Rdiv. lra. }
  assert (Etar : target = R64 m + g * D).
  { unfold target, g. assert (R64 x - R64 m = p * D) by (unfold p; field; lra). replace (R64 x) with (R64 m + p * D) by lra. ring. }
  assert (Hmt : Rabs (R64 m) <= top) by apply Rmax_l. assert (HMt : Rabs (R64 M) <= top) by apply Rmax_r.
  assert (HDt : D <= 2 * top).
  { unfold D. apply Rabs_le_inv in Hmt. apply Rabs_le_inv in HMt. lra. }
  assert (Ev : Rabs (v + R64 m) <= 7 * top).
  { eapply Rle_trans; [apply Rabs_triang|]. pose proof v_range. lra. }
  change (bpow radix2 (-47)) with (/ 140737488355328).
  assert (Eu : / 140737488355328 = 64 * u) by (unfold u; field). rewrite Eu.
  rewrite Etar. replace (z - (R64 m + g * D)) with ((z - (v + R64 m)) + (v - g * D)) by ring.
  eapply Rle_trans; [apply Rabs_triang|].
  assert (u * Rabs (v + R64 m) <= u * (7 * top)) by (apply Rmult_le_compat_l; lra).
  assert (u * D <= u * (2 * top)) by (apply Rmult_le_compat_l; lra). lra.
Qed.
End Scale.
