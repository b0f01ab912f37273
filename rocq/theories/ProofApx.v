(** Relative error of a chain of double-precision products and quotients. *)
From Coq Require Import ZArith Lia Bool Reals Lra.
From Flocq Require Import IEEE754.BinarySingleNaN IEEE754.Binary IEEE754.Bits Core.
From Verif Require Import Base ModelBytes ModelSur ProofFloat PropsSdf PropsVkValue.
Local Open Scope R_scope.

(** x is v after n roundings *)
Definition apx (n : nat) (x : f64) (v : R) : Prop := fin64 x /\ exists d, R64 x = v * (1 + d) /\ Rabs d <= (1 + e53) ^ n - 1.
(** v is zero or between 2^-a and 2^b *)
Definition sized_r (a b : Z) (v : R) : Prop := v = 0 \/ bpow radix2 (- a) <= Rabs v <= bpow radix2 b.
Lemma apx_exact x : fin64 x -> apx 0 x (R64 x).
Proof. intros F. split; [exact F|]. exists 0. split; [ring|]. rewrite Rabs_R0. cbn. lra. Qed.
Lemma sized_mult a b c d v w : sized_r a b v -> sized_r c d w -> sized_r (a + c) (b + d) (v * w).
Proof.
  intros [-> |[V1 V2]] H; [left; ring|]. destruct H as [-> |[W1 W2]]; [left; ring|]. right. rewrite Rabs_mult.
  replace (- (a + c))%Z with (- a + - c)%Z by lia. rewrite !bpow_plus. pose proof (bpow_gt_0 radix2 (- a)). pose proof (bpow_gt_0 radix2 (- c)).
  split; apply Rmult_le_compat; lra.
Qed.
Lemma e53_pow n : (n <= 20)%nat -> 1 <= (1 + e53) ^ n <= 1.1.
Proof.
  intros H. pose proof e53_small as He. split; [apply pow_R1_Rle; lra|].
  apply Rle_trans with ((1 + / 1024) ^ n); [apply pow_incr; lra|]. apply Rle_trans with ((1 + / 1024) ^ 20); [apply Rle_pow; [lra|exact H]|]. simpl. lra.
Qed.
Lemma e53_bpow : e53 = bpow radix2 (-53). Proof. reflexivity. Qed.
Lemma rnd64_rel_ex x : bpow radix2 (-1022) <= Rabs x \/ x = 0 -> exists d, rnd64 x = x * (1 + d) /\ Rabs d <= e53.
Proof.
  intros [H| ->].
  - pose proof (bpow_gt_0 radix2 (-1022)). assert (X : 0 < Rabs x) by lra. pose proof (rnd64_rel x H) as E. rewrite <- e53_bpow in E.
    assert (x <> 0) by (intros ->; rewrite Rabs_R0 in X; lra).
    exists ((rnd64 x - x) / x). split; [field; assumption|]. unfold Rdiv. rewrite Rabs_mult, Rabs_inv. apply (Rmult_le_reg_r (Rabs x)); [exact X|].
    rewrite Rmult_assoc, Rinv_l by lra. lra.
  - exists 0. rewrite rnd64_0, Rabs_R0. pose proof e53_small. split; [ring|lra].
Qed.
Lemma d3 (d1 d2 d3 : R) n m k : Rabs d1 <= (1 + e53) ^ n - 1 -> Rabs d2 <= (1 + e53) ^ m - 1 -> Rabs d3 <= e53 -> k = S (n + m) ->
  Rabs ((1 + d1) * (1 + d2) * (1 + d3) - 1) <= (1 + e53) ^ k - 1.
Proof.
  intros H1 H2 H3 ->. pose proof e53_small as He. assert (P1 : 1 <= (1 + e53) ^ n) by (apply pow_R1_Rle; lra). assert (P2 : 1 <= (1 + e53) ^ m) by (apply pow_R1_Rle; lra).
  replace ((1 + e53) ^ S (n + m)) with ((1 + e53) ^ n * (1 + e53) ^ m * (1 + e53)) by (rewrite <- tech_pow_Rmult, pow_add; ring).
  set (p := (1 + e53) ^ n) in *. set (q := (1 + e53) ^ m) in *.
  assert (G : forall u v a b, Rabs u <= a -> Rabs v <= b -> Rabs ((1 + u) * (1 + v) - 1) <= (1 + a) * (1 + b) - 1).
  { intros u v a b Hu Hv. replace ((1 + u) * (1 + v) - 1) with (u + v + u * v) by ring. replace ((1 + a) * (1 + b) - 1) with (a + b + a * b) by ring.
    pose proof (Rabs_pos u). pose proof (Rabs_pos v). assert (Rabs (u * v) <= a * b) by (rewrite Rabs_mult; apply Rmult_le_compat; lra).
    pose proof (Rabs_triang (u + v) (u * v)). pose proof (Rabs_triang u v). lra. }
  pose proof (G _ _ _ _ H1 H2) as A. pose proof (G _ _ _ _ A H3) as B.
  replace (1 + (p - 1)) with p in * by ring. replace (1 + (q - 1)) with q in * by ring. replace (1 + (p * q - 1)) with (p * q) in B by ring.
  replace (1 + ((1 + d1) * (1 + d2) - 1)) with ((1 + d1) * (1 + d2)) in B by ring. exact B.
Qed.
Lemma near1 d n : (n <= 20)%nat -> Rabs d <= (1 + e53) ^ n - 1 -> / 2 <= 1 + d <= 2.
Proof. intros Hn H. pose proof (e53_pow n Hn). apply Rabs_le_inv in H. lra. Qed.
Lemma apx_mult n m k x y v w a b c d : apx n x v -> apx m y w -> sized_r a b v -> sized_r c d w -> k = S (n + m) -> (n <= 20)%nat -> (m <= 20)%nat -> (a + c <= 1000)%Z -> (b + d <= 990)%Z ->
  apx k (fmul x y) (v * w).
Proof.
  intros (F1 & d1 & E1 & D1) (F2 & d2 & E2 & D2) S1 S2 Hk Hn Hm Ha Hb. pose proof (sized_mult _ _ _ _ _ _ S1 S2) as Sz.
  pose proof (near1 d1 n Hn D1) as N1. pose proof (near1 d2 m Hm D2) as N2.
  assert (T : / 4 <= (1 + d1) * (1 + d2) <= 4) by (split; [replace (/ 4) with (/ 2 * / 2) by lra|replace 4 with (2 * 2) by lra]; apply Rmult_le_compat; lra).
  assert (E : R64 x * R64 y = v * w * ((1 + d1) * (1 + d2))) by (rewrite E1, E2; ring).
  assert (Ab : Rabs (R64 x * R64 y) = Rabs (v * w) * ((1 + d1) * (1 + d2))) by (rewrite E, Rabs_mult, (Rabs_pos_eq ((1 + d1) * (1 + d2))); [reflexivity|lra]).
  assert (Hi : Rabs (R64 x * R64 y) <= bpow radix2 1000).
  { rewrite Ab. destruct Sz as [-> |[_ Sz]]; [rewrite Rabs_R0, Rmult_0_l; apply bpow_ge_0|].
    apply Rle_trans with (bpow radix2 990 * 4); [apply Rmult_le_compat; try apply Rabs_pos; try lra; apply Rle_trans with (bpow radix2 (b + d)); [exact Sz|apply bpow_le; lia]|].
    change 4 with (bpow radix2 2). rewrite <- bpow_plus. apply bpow_le. lia. }
  assert (Lo : bpow radix2 (-1022) <= Rabs (R64 x * R64 y) \/ R64 x * R64 y = 0).
  { destruct Sz as [Sz|[Sz _]]; [right; rewrite E, Sz; ring|left]. rewrite Ab. apply Rle_trans with (bpow radix2 (-1000) * / 4).
    - change (/ 4) with (bpow radix2 (-2)). rewrite <- bpow_plus. apply bpow_le. lia.
    - apply Rmult_le_compat; try apply bpow_ge_0; try lra. apply Rle_trans with (bpow radix2 (- (a + c))); [apply bpow_le; lia|exact Sz]. }
  destruct (b64_mult_ok x y F1 F2 Hi) as [M1 M2]. split; [exact M2|].
  destruct (rnd64_rel_ex _ Lo) as (d3' & E3 & D3). exists ((1 + d1) * (1 + d2) * (1 + d3') - 1). split; [|eapply d3; eauto].
  unfold fmul. rewrite M1, E3, E. ring.
Qed.
Lemma apx_div n x v y a b c d : apx n x v -> fin64 y -> R64 y <> 0 -> sized_r a b v -> bpow radix2 c <= Rabs (R64 y) <= bpow radix2 d -> (n <= 20)%nat -> (a + d <= 1000)%Z -> (b - c <= 990)%Z ->
  apx (S n) (fdiv x y) (v / R64 y).
Proof.
  intros (F1 & d1 & E1 & D1) F2 Ny S1 [Y1 Y2] Hn Ha Hb. 
  assert (S2 : sized_r d (- c) (/ R64 y)).
  { right. rewrite Rabs_inv. rewrite !bpow_opp. pose proof (bpow_gt_0 radix2 c). split; apply Rinv_le; lra. }
  pose proof (sized_mult _ _ _ _ _ _ S1 S2) as Sz. replace (b + - c)%Z with (b - c)%Z in Sz by lia.
  pose proof (near1 d1 n Hn D1) as N1.
  assert (E : R64 x / R64 y = v * / R64 y * (1 + d1)) by (rewrite E1; unfold Rdiv; ring).
  assert (Ab : Rabs (R64 x / R64 y) = Rabs (v * / R64 y) * (1 + d1)) by (rewrite E, Rabs_mult, (Rabs_pos_eq (1 + d1)); [reflexivity|lra]).
  assert (Hi : Rabs (R64 x / R64 y) <= bpow radix2 1000).
  { rewrite Ab. destruct Sz as [-> |[_ Sz]]; [rewrite Rabs_R0, Rmult_0_l; apply bpow_ge_0|].
    apply Rle_trans with (bpow radix2 990 * 4); [apply Rmult_le_compat; try apply Rabs_pos; try lra; apply Rle_trans with (bpow radix2 (b - c)); [exact Sz|apply bpow_le; lia]|].
    change 4 with (bpow radix2 2). rewrite <- bpow_plus. apply bpow_le. lia. }
  assert (Lo : bpow radix2 (-1022) <= Rabs (R64 x / R64 y) \/ R64 x / R64 y = 0).
  { destruct Sz as [Sz|[Sz _]]; [right; rewrite E, Sz; ring|left]. rewrite Ab. apply Rle_trans with (bpow radix2 (-1000) * / 4).
    - change (/ 4) with (bpow radix2 (-2)). rewrite <- bpow_plus. apply bpow_le. lia.
    - apply Rmult_le_compat; try apply bpow_ge_0; try lra. apply Rle_trans with (bpow radix2 (- (a + d))); [apply bpow_le; lia|exact Sz]. }
  destruct (b64_div_ok x y F1 Ny Hi) as [M1 M2]. split; [exact M2|].
  destruct (rnd64_rel_ex _ Lo) as (d3' & E3 & D3). exists ((1 + d1) * (1 + 0) * (1 + d3') - 1). split.
  - unfold fdiv. rewrite M1, E3, E. unfold Rdiv. ring.
  - apply (d3 d1 0 d3' n 0 (S n)); auto. rewrite Rabs_R0. cbn. lra.
Qed.
Lemma apx_err n x v c : apx n x v -> (1 + e53) ^ n - 1 <= c -> Rabs (R64 x - v) <= c * Rabs v.
Proof. intros (_ & d & E & D) H. rewrite E. replace (v * (1 + d) - v) with (d * v) by ring. rewrite Rabs_mult. apply Rmult_le_compat_r; [apply Rabs_pos|lra]. Qed.
(** a single read into a double *)
Lemma single_sized x : fin64 (f64_of_f32 x) -> sized_r 149 128 (R64 (f64_of_f32 x)).
Proof.
  intros F. destruct x as [s|s|s pl e|s m e H]; try discriminate.
  - left. reflexivity.
  - destruct (f64_of_f32_ok (B754_finite 24 128 s m e H) eq_refl) as [E _]. rewrite E. unfold R32. right. split.
    + apply (Binary.abs_B2R_ge_emin 24 128 (B754_finite 24 128 s m e H)). reflexivity.
    + apply Rlt_le, (Binary.abs_B2R_lt_emax 24 128).
Qed.
Lemma int_sized z k : (0 <= k)%Z -> (Z.abs z <= 2 ^ k)%Z -> sized_r 0 k (IZR z).
Proof.
  intros K H. destruct (Z.eq_dec z 0) as [-> |N]; [left; reflexivity|right]. rewrite <- abs_IZR. split; [change (bpow radix2 (- 0)) with 1; apply IZR_le; lia|].
  rewrite <- (IZR_Zpower radix2) by exact K. apply IZR_le. exact H.
Qed.
