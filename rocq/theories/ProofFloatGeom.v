(** Rounding in the computation of pixel indices. *)
From Coq Require Import String Reals List Bool Arith ZArith Lia Lra.
From Flocq Require Import Core.Core.
From Flocq Require Import IEEE754.BinarySingleNaN IEEE754.Binary IEEE754.Bits.
From Verif Require Import Base ModelBytes ProofFloat ModelSur ProofSur ModelHeights ModelGeom ModelFloatGeom ProofFloatParams.
Import ListNotations.
Local Open Scope R_scope.

Definition pd : R := 1 - bpow radix2 (-53).
Lemma pd_bounds : / 2 <= pd < 1.
Proof.
  unfold pd. pose proof (bpow_gt_0 radix2 (-53)). assert (bpow radix2 (-53) <= bpow radix2 (-1)) by (apply bpow_le; lia).
  change (bpow radix2 (-1)) with (/ 2) in *. lra.
Qed.
Lemma rnd64_pd : rnd64 pd = pd.
Proof.
  apply round_generic; [auto with typeclass_instances|]. apply generic_format_FLT.
  exists (Float radix2 (2 ^ 53 - 1) (-53)); [|cbn; lia|cbn; lia].
  unfold F2R, pd. cbn [Fnum Fexp]. rewrite minus_IZR. change (IZR (2 ^ 53)) with (bpow radix2 53).
  rewrite Rmult_minus_distr_r, <- bpow_plus. change (bpow radix2 (53 + -53)) with 1. ring.
Qed.
(** a quotient of doubles y < h rounds to at most the double before 1 *)
Lemma ratio_le y h : 0 <= R64 y -> R64 y < R64 h -> R64 y / R64 h <= pd.
Proof.
  intros Y0 YH. assert (H0 : 0 < R64 h) by lra. pose proof pd_bounds as PB.
  apply Rmult_le_reg_r with (R64 h); [exact H0|]. unfold Rdiv. rewrite Rmult_assoc, Rinv_l, Rmult_1_r by lra.
  set (f := FLT_exp (-1074) 53).
  assert (S1 : succ radix2 f (R64 y) <= R64 h).
  { apply succ_le_lt; [apply FLT_exp_valid; reflexivity|apply format64|apply format64|exact YH]. }
  destruct (Req_dec (R64 y) 0) as [E0|N0]; [rewrite E0; apply Rmult_le_pos; lra|].
  assert (Es : succ radix2 f (R64 y) = R64 y + ulp radix2 f (R64 y)) by (apply succ_eq_pos; exact Y0).
  assert (U : bpow radix2 (-53) * succ radix2 f (R64 y) <= ulp radix2 f (R64 y)).
  { rewrite (ulp_neq_0 radix2 f _ N0). unfold cexp. set (m := mag radix2 (R64 y) : Z).
    assert (B : succ radix2 f (R64 y) <= bpow radix2 m).
    { apply succ_le_lt; [apply FLT_exp_valid; reflexivity|apply format64| |].
      - apply generic_format_bpow. unfold f, FLT_exp. 
        assert (M : (-1074 < m)%Z).
        { assert (G := format64 y).
          assert (bpow radix2 (-1074) <= R64 y).
          { assert (Q := generic_format_ge_bpow radix2 (FLT_exp (-1074) 53) (-1074)).
            apply Q; [intros e'; unfold FLT_exp; lia|lra|exact G]. }
          assert (Hm : Rabs (R64 y) < bpow radix2 m) by (apply bpow_mag_gt). rewrite Rabs_pos_eq in Hm by exact Y0.
          apply (lt_bpow radix2). lra. }
        lia.
      - unfold m. rewrite <- (Rabs_pos_eq (R64 y)) at 1 by exact Y0. apply bpow_mag_gt. }
    apply Rle_trans with (bpow radix2 (-53) * bpow radix2 m).
    - apply Rmult_le_compat_l; [apply bpow_ge_0|exact B].
    - rewrite <- bpow_plus. apply bpow_le. unfold f, FLT_exp. lia. }
  apply Rle_trans with (pd * succ radix2 f (R64 y)); [|apply Rmult_le_compat_l; lra].
  unfold pd. rewrite Rmult_minus_distr_r, Rmult_1_l. lra.
Qed.
(** and times an integer n stays below n *)
Lemma below_n (n : Z) : (1 <= n <= 2 ^ 53)%Z -> rnd64 (pd * IZR n) < IZR n.
Proof.
  intros Hn. pose proof pd_bounds as PB. assert (N1 : 1 <= IZR n) by (apply IZR_le; lia).
  assert (Le : rnd64 (pd * IZR n) <= IZR n).
  { rewrite <- (rnd64_IZR n) at 2 by lia. apply rnd64_le. rewrite <- (Rmult_1_l (IZR n)) at 2. apply Rmult_le_compat_r; lra. }
  destruct Le as [L|E]; [exact L|exfalso].
  set (f := FLT_exp (-1074) 53).
  assert (Er := error_le_half_ulp radix2 f (fun x => negb (Z.even x)) (pd * IZR n)).
  fold f in Er. change (round radix2 f (Znearest (fun x => negb (Z.even x))) (pd * IZR n)) with (rnd64 (pd * IZR n)) in Er.
  rewrite E in Er.
  assert (D : IZR n - pd * IZR n = bpow radix2 (-53) * IZR n) by (unfold pd; ring).
  rewrite D, Rabs_pos_eq in Er by (apply Rmult_le_pos; [apply bpow_ge_0|lra]).
  assert (Hb : / 2 <= pd * IZR n) by (rewrite <- (Rmult_1_r (/ 2)); apply Rmult_le_compat; lra).
  assert (U : ulp radix2 f (pd * IZR n) <= Rabs (pd * IZR n) * bpow radix2 (1 - 53)).
  { apply ulp_FLT_le. rewrite Rabs_pos_eq by lra. apply Rle_trans with (bpow radix2 (-1)); [apply bpow_le; lia|]. change (bpow radix2 (-1)) with (/ 2). exact Hb. }
  rewrite Rabs_pos_eq in U by lra.
  assert (B : bpow radix2 (1 - 53) = 2 * bpow radix2 (-53)) by (change 2 with (bpow radix2 1); rewrite <- bpow_plus; reflexivity).
  rewrite B in U. pose proof (bpow_gt_0 radix2 (-53)) as P.
  assert (bpow radix2 (-53) * (IZR n - pd * IZR n) <= 0) by lra.
  assert (0 < bpow radix2 (-53) * (IZR n - pd * IZR n)).
  { rewrite D. apply Rmult_lt_0_compat; [lra|]. apply Rmult_lt_0_compat; lra. }
  lra.
Qed.

Lemma int_of_ok x : fin64 x -> int_of x = Ok (Ztrunc (R64 x)).
Proof. intros F. unfold int_of. rewrite F, Btrunc_Ztrunc. reflexivity. Qed.
Lemma round_of_ok x : fin64 x -> round_of x = Ok (ZnearestE (R64 x)).
Proof. intros F. unfold round_of. rewrite F. reflexivity. Qed.
Lemma pydiv_ok x y : R64 y <> 0 -> pydiv x y = Ok (fdiv x y).
Proof. intros H. unfold pydiv. destruct y; auto. exfalso. apply H. reflexivity. Qed.
Lemma fnat_ok n : (Z.of_nat n <= 2 ^ 53)%Z -> R64 (fnat n) = INR n /\ fin64 (fnat n).
Proof. intros H. unfold fnat. rewrite INR_IZR_INZ. apply f64_of_Z_ok. lia. Qed.

(** steps between 2^-500 and 2^500 micrometres *)
Definition sane (s : f64) : Prop := fin64 s /\ bpow radix2 (-500) <= R64 s <= bpow radix2 500.
Lemma sane_pos s : sane s -> 0 < R64 s.
Proof. intros (_ & H & _). pose proof (bpow_gt_0 radix2 (-500)). lra. Qed.

(** k * step, rounded *)
Lemma scaled_ok k s : sane s -> (0 <= k <= 2 ^ 53)%Z ->
  let x := fmul (f64_of_Z k) s in
  fin64 x /\ R64 x = rnd64 (IZR k * R64 s) /\ 0 <= R64 x <= bpow radix2 553 /\ Rabs (R64 x - IZR k * R64 s) <= uu * (IZR k * R64 s).
Proof.
  intros Hs Hk x. pose proof (sane_pos s Hs) as S0. destruct Hs as (Fs & L & U).
  destruct (f64_of_Z_ok k ltac:(lia)) as [Ek Fk].
  assert (K0 : 0 <= IZR k) by (apply IZR_le; lia).
  assert (KB : IZR k <= bpow radix2 53) by (change (bpow radix2 53) with (IZR (2 ^ 53)); apply IZR_le; lia).
  assert (P0 : 0 <= IZR k * R64 s) by (apply Rmult_le_pos; lra).
  assert (PB : IZR k * R64 s <= bpow radix2 553).
  { change 553%Z with (53 + 500)%Z. rewrite bpow_plus. apply Rmult_le_compat; lra. }
  destruct (b64_mult_ok (f64_of_Z k) s Fk Fs) as [E F].
  { rewrite Ek, Rabs_pos_eq by exact P0. eapply Rle_trans; [exact PB|]. apply bpow_le. lia. }
  rewrite Ek in E. split; [exact F|]. split; [exact E|]. change (b64_mult mode_NE (f64_of_Z k) s) with x in *. rewrite E. split; [split|].
  - rewrite <- rnd64_0. apply rnd64_le, P0.
  - rewrite <- (rnd64_bpow 553) by lia. apply rnd64_le, PB.
  - destruct (Z.eq_dec k 0) as [-> |Hn].
    + rewrite !Rmult_0_l, rnd64_0, Rminus_0_r, Rabs_R0, Rmult_0_r. lra.
    + rewrite <- (Rabs_pos_eq (IZR k * R64 s)) at 3 by exact P0. apply rnd64_rel. rewrite Rabs_pos_eq by exact P0.
      apply Rle_trans with (bpow radix2 (-500)); [apply bpow_le; lia|].
      assert (1 <= IZR k) by (apply IZR_le; lia).
      apply Rle_trans with (1 * R64 s); [lra|]. apply Rmult_le_compat_r; lra.
Qed.
Lemma uu53 : uu = bpow radix2 (-53). Proof. reflexivity. Qed.
Lemma uu_k k e : (0 <= k <= 2 ^ e)%Z -> (0 <= e)%Z -> uu * IZR k <= bpow radix2 (e - 53).
Proof.
  intros Hk He. assert (IZR k <= bpow radix2 e).
  { rewrite <- (IZR_Zpower radix2) by exact He. apply IZR_le. cbn. lia. }
  unfold Z.sub. rewrite Z.add_comm, bpow_plus. apply Rmult_le_compat_l; [apply bpow_ge_0|assumption].
Qed.
(** round(fl(fl(k * step) / step)) = k *)
Lemma pixel_back k s : sane s -> (0 <= k <= 2 ^ 50)%Z -> float_pixel (fmul (f64_of_Z k) s) s = Ok k.
Proof.
  intros Hs Hk. destruct (scaled_ok k s Hs ltac:(lia)) as (Fx & Ex & [X0 XB] & Er). set (x := fmul (f64_of_Z k) s) in *.
  pose proof (sane_pos s Hs) as S0. destruct Hs as (Fs & L & U).
  unfold float_pixel. rewrite pydiv_ok by lra. cbn [rbind].
  assert (K0 : 0 <= IZR k) by (apply IZR_le; lia).
  assert (Q1 : Rabs (R64 x / R64 s - IZR k) <= uu * IZR k).
  { apply Rmult_le_reg_r with (R64 s); [exact S0|]. rewrite <- (Rabs_pos_eq (R64 s)) at 2 by lra. rewrite <- Rabs_mult.
    replace ((R64 x / R64 s - IZR k) * R64 s) with (R64 x - IZR k * R64 s) by (field; lra).
    eapply Rle_trans; [exact Er|]. lra. }
  pose proof (uu_k k 50 Hk ltac:(lia)) as K1. change (bpow radix2 (50 - 53)) with (/ 8) in K1.
  assert (QP : 0 <= R64 x / R64 s) by (apply Rmult_le_pos; [exact X0|left; apply Rinv_0_lt_compat, S0]).
  assert (Q2 : R64 x / R64 s <= 2 * IZR k).
  { apply Rabs_le_inv in Q1. assert (uu * IZR k <= 1 * IZR k); [|lra]. apply Rmult_le_compat_r; [exact K0|].
    unfold uu. change 1 with (bpow radix2 0). apply bpow_le. lia. }
  assert (KB : IZR k <= bpow radix2 50) by (change (bpow radix2 50) with (IZR (2 ^ 50)); apply IZR_le; lia).
  destruct (b64_div_ok x s Fx) as [E F]; [lra| |].
  { rewrite Rabs_pos_eq by exact QP. apply Rle_trans with (2 * bpow radix2 50); [lra|]. change 2 with (bpow radix2 1).
    rewrite <- bpow_plus. apply bpow_le. lia. }
  change (b64_div mode_NE x s) with (fdiv x s) in *. rewrite round_of_ok by exact F. rewrite E. f_equal.
  apply Znearest_imp. pose proof (rnd64_err (R64 x / R64 s)) as R. rewrite (Rabs_pos_eq (R64 x / R64 s)) in R by exact QP. fold uu in R.
  set (q := R64 x / R64 s) in *. replace (rnd64 q - IZR k) with ((rnd64 q - q) + (q - IZR k)) by ring.
  eapply Rle_lt_trans; [apply Rabs_triang|].
  assert (uu * q <= uu * (2 * IZR k)) by (apply Rmult_le_compat_l; [left; apply uu_pos|exact Q2]).
  assert (bpow radix2 (-1075) <= / 16) by (change (/ 16) with (bpow radix2 (-4)); apply bpow_le; lia). lra.
Qed.

(** ** int(pos / extent * n) *)
Lemma Ztrunc_spec t : 0 <= t -> IZR (Ztrunc t) <= t < IZR (Ztrunc t) + 1 /\ (0 <= Ztrunc t)%Z.
Proof.
  intros H. rewrite Ztrunc_floor by exact H. split; [split; [apply Zfloor_lb|]|].
  - rewrite <- plus_IZR. change 1%Z with 1%Z. pose proof (Zfloor_ub t). rewrite plus_IZR. exact H0.
  - apply Zfloor_lub. exact H.
Qed.
Lemma fextent_ok n s : sane s -> (2 <= Z.of_nat n <= 2 ^ 24)%Z ->
  fin64 (fextent n s) /\ 0 < R64 (fextent n s) <= bpow radix2 553 /\
  Rabs (R64 (fextent n s) - (INR n - 1) * R64 s) <= uu * ((INR n - 1) * R64 s).
Proof.
  intros Hs Hn. destruct (scaled_ok (Z.of_nat n - 1) s Hs ltac:(lia)) as (F & E & [B0 B] & Er).
  rewrite minus_IZR, <- INR_IZR_INZ in Er. fold (fextent n s) in *. split; [exact F|]. split; [|exact Er]. split; [|exact B].
  pose proof (sane_pos s Hs) as S0. assert (N2 : 2 <= INR n) by (rewrite INR_IZR_INZ; apply IZR_le; lia).
  assert (P : 0 < (INR n - 1) * R64 s) by (apply Rmult_lt_0_compat; lra).
  apply Rabs_le_inv in Er. assert (uu * ((INR n - 1) * R64 s) <= / 2 * ((INR n - 1) * R64 s)); [|lra].
  apply Rmult_le_compat_r; [lra|]. pose proof uu_small as US. change (2 ^ 40)%Z with 1099511627776%Z in US. lra.
Qed.
Lemma float_index_ok n s y : sane s -> (2 <= Z.of_nat n <= 2 ^ 24)%Z -> fin64 y -> 0 <= R64 y < R64 (fextent n s) ->
  exists k t, float_index n (fextent n s) y = Ok k /\ (0 <= k < Z.of_nat n)%Z /\
    Rabs (IZR k * R64 s - R64 y) <= R64 s /\
    IZR k <= t < IZR k + 1 /\ Rabs (t - R64 y / R64 (fextent n s) * INR n) <= bpow radix2 (-51) * INR n.
Proof.
  intros Hs Hn Fy [Y0 Y1]. destruct (fextent_ok n s Hs Hn) as (Fe & [E0 EB] & Er). set (e := fextent n s) in *.
  pose proof (sane_pos s Hs) as S0. set (sg := R64 s) in *. set (N := INR n) in *.
  assert (N2 : 2 <= N) by (unfold N; rewrite INR_IZR_INZ; apply IZR_le; lia).
  assert (NB : N <= 16777216) by (unfold N; rewrite INR_IZR_INZ; apply (IZR_le _ 16777216); lia).
  set (q := R64 y / R64 e). pose proof pd_bounds as PB. pose proof (ratio_le y e Y0 Y1) as QP. fold q in QP.
  assert (Q0 : 0 <= q) by (apply Rmult_le_pos; [exact Y0|left; apply Rinv_0_lt_compat, E0]).
  destruct (b64_div_ok y e Fy) as [E1 F1]; [lra|fold q; rewrite Rabs_pos_eq by exact Q0; apply Rle_trans with 1; [lra|apply (bpow_le radix2 0); lia]|].
  fold q in E1. set (qh := b64_div mode_NE y e) in *.
  assert (QH : 0 <= R64 qh <= pd).
  { rewrite E1. split; [rewrite <- rnd64_0; apply rnd64_le, Q0|rewrite <- rnd64_pd; apply rnd64_le, QP]. }
  destruct (fnat_ok n ltac:(lia)) as [En Fn]. fold N in En.
  assert (M0 : 0 <= R64 qh * N) by (apply Rmult_le_pos; lra).
  assert (M1 : R64 qh * N <= pd * N) by (apply Rmult_le_compat_r; lra).
  assert (M2 : pd * N <= 1 * N) by (apply Rmult_le_compat_r; lra).
  destruct (b64_mult_ok qh (fnat n) F1 Fn) as [E2 F2].
  { rewrite En, Rabs_pos_eq by exact M0. apply Rle_trans with 16777216; [lra|]. change 16777216 with (bpow radix2 24). apply bpow_le. lia. }
  rewrite En in E2. set (t := b64_mult mode_NE qh (fnat n)) in *.
  assert (T0 : 0 <= R64 t) by (rewrite E2, <- rnd64_0; apply rnd64_le, M0).
  assert (T1 : R64 t < N).
  { rewrite E2. eapply Rle_lt_trans; [apply rnd64_le, M1|]. unfold N. rewrite INR_IZR_INZ. apply below_n. lia. }
  destruct (Ztrunc_spec (R64 t) T0) as [K1 K0]. set (k := Ztrunc (R64 t)) in *.
  assert (KN : (k < Z.of_nat n)%Z) by (apply lt_IZR; rewrite <- INR_IZR_INZ; fold N; lra).
  (* errors *)
  pose proof uu_pos as U. pose proof eta_pos as T. pose proof (rnd64_err q) as R1. pose proof (rnd64_err (R64 qh * N)) as R2.
  fold uu eta in R1, R2. rewrite <- E1, (Rabs_pos_eq q) in R1 by exact Q0. rewrite <- E2, (Rabs_pos_eq (R64 qh * N)) in R2 by exact M0.
  assert (U1 : uu <= / 9007199254740992) by (unfold uu; change (/ 9007199254740992) with (bpow radix2 (-53)); lra).
  assert (Ut : eta <= uu * / 1000000000000) .
  { apply Rle_trans with (uu * bpow radix2 (-100)); [unfold eta, uu; rewrite <- bpow_plus; apply bpow_le; lia|].
    apply Rmult_le_compat_l; [lra|]. apply Rle_trans with (bpow radix2 (-40)); [apply bpow_le; lia|]. change (bpow radix2 (-40)) with (/ 1099511627776). lra. }
  apply Rabs_le_inv in R1. apply Rabs_le_inv in R2.
  assert (A1 : R64 qh * N <= (q + uu * q + eta) * N) by (apply Rmult_le_compat_r; lra).
  assert (A2 : (q - uu * q - eta) * N <= R64 qh * N) by (apply Rmult_le_compat_r; lra).
  assert (a0 : 0 <= q * N) by (apply Rmult_le_pos; lra).
  assert (ua : 0 <= uu * (q * N)) by (apply Rmult_le_pos; lra).
  assert (A3 : uu * (R64 qh * N) <= uu * ((q + uu * q + eta) * N)) by (apply Rmult_le_compat_l; lra).
  assert (uua : uu * (uu * (q * N)) <= / 4 * (uu * (q * N))) by (apply Rmult_le_compat_r; lra).
  assert (nt : 0 <= eta * N) by (apply Rmult_le_pos; lra).
  assert (unt : uu * (eta * N) <= / 4 * (eta * N)) by (apply Rmult_le_compat_r; lra).
  assert (tn : eta * 2 <= eta * N) by (apply Rmult_le_compat_l; lra).
  assert (TE : Rabs (R64 t - q * N) <= 3 * (uu * (q * N)) + 3 * (eta * N)) by (apply Rabs_le; lra).
  assert (qN : q * N <= 1 * N) by (apply Rmult_le_compat_r; lra).
  assert (uqN : uu * (q * N) <= uu * N) by (apply Rmult_le_compat_l; lra).
  assert (tN : eta * N <= uu * / 1000000000000 * N) by (apply Rmult_le_compat_r; lra).
  assert (uN0 : 0 <= uu * N) by (apply Rmult_le_pos; lra).
  assert (uN : uu * N <= / 536870912).
  { apply Rle_trans with (/ 9007199254740992 * 16777216); [apply Rmult_le_compat; lra|lra]. }
  exists k, (R64 t). split; [|split; [lia|]].
  { unfold float_index. rewrite pydiv_ok by lra. cbn [rbind]. change (fdiv y e) with qh. change (fmul qh (fnat n)) with t.
    apply int_of_ok, F2. }
  split; [|split; [exact K1|]].
  2:{ eapply Rle_trans; [exact TE|]. change (bpow radix2 (-51)) with (bpow radix2 (2 + -53)). rewrite bpow_plus. fold uu. change (bpow radix2 2) with 4. lra. }
  apply Rabs_le_inv in TE. apply Rabs_le_inv in Er.
  assert (Ey : R64 y = q * R64 e) by (unfold q; field; lra).
  assert (q1 : q <= 1) by lra.
  assert (NS : 0 <= (N - 1) * sg) by (apply Rmult_le_pos; lra).
  assert (Yu : R64 y <= q * ((1 + uu) * ((N - 1) * sg))) by (rewrite Ey; apply Rmult_le_compat_l; lra).
  assert (Yl : q * ((1 - uu) * ((N - 1) * sg)) <= R64 y) by (rewrite Ey; apply Rmult_le_compat_l; lra).
  (* in units of the step *)
  assert (Hi : q * ((1 + uu) * (N - 1)) <= IZR k + 1).
  { destruct (Rle_dec (6 * (eta * N)) q) as [Q6|Q6].
    - assert (uq0 : 0 <= uu * q) by (apply Rmult_le_pos; lra).
      assert (B : uu * (q * N) <= / 536870912 * q) by (replace (uu * (q * N)) with (uu * N * q) by ring; apply Rmult_le_compat_r; lra).
      replace (q * ((1 + uu) * (N - 1))) with (q * N + uu * (q * N) - q - uu * q) by ring. lra.
    - assert (Q7 : q <= / 33554432).
      { assert (eta * N <= / 1000000000000); [|lra]. assert (uu * / 1000000000000 * N = uu * N * / 1000000000000) by ring. lra. }
      assert (C : (1 + uu) * (N - 1) <= 2 * 16777216) by (apply Rmult_le_compat; lra).
      assert (C0 : 0 <= (1 + uu) * (N - 1)) by (apply Rmult_le_pos; lra).
      assert (C1 : q * ((1 + uu) * (N - 1)) <= / 33554432 * (2 * 16777216)) by (apply Rmult_le_compat; lra).
      assert (0 <= IZR k) by (apply IZR_le; exact K0). lra. }
  assert (Lo : IZR k - 1 <= q * ((1 - uu) * (N - 1))).
  { destruct (Rle_dec q (1 - / 67108864)) as [Q6|Q6].
    - replace (q * ((1 - uu) * (N - 1))) with (q * N - uu * (q * N) - q + uu * q) by ring.
      assert (0 <= uu * q) by (apply Rmult_le_pos; lra). lra.
    - assert (KN1 : IZR k <= N - 1).
      { unfold N. rewrite INR_IZR_INZ, <- minus_IZR. apply IZR_le. lia. }
      assert (uu * (N - 1) <= / 536870912) by lra.
      apply Rle_trans with ((1 - / 67108864) * ((1 - uu) * (N - 1))); [|apply Rmult_le_compat_r; [apply Rmult_le_pos; lra|lra]].
      assert (/ 67108864 * (uu * (N - 1)) >= 0) by (apply Rle_ge, Rmult_le_pos; [lra|apply Rmult_le_pos; lra]). lra. }
  apply Rabs_le. split.
  - assert (P : q * ((1 + uu) * (N - 1)) * sg <= (IZR k + 1) * sg) by (apply Rmult_le_compat_r; lra). lra.
  - assert (P : (IZR k - 1) * sg <= q * ((1 - uu) * (N - 1)) * sg) by (apply Rmult_le_compat_r; lra). lra.
Qed.
