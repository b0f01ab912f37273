(** C48 and C51 for the SDF format (.sdf). *)
From Coq Require Import String Ascii ZArith Lia Bool Reals Lra.
From Coq Require Import List.
From Flocq Require Import Core.Core.
From Flocq Require Import IEEE754.BinarySingleNaN IEEE754.Binary IEEE754.Bits.
From Verif Require Import Base ModelBytes SpecBytes ProofBytes PropsLayout ModelUnits ProofFloat ModelSur ProofSur ProofCodec ProofSurReal ModelFormats PropsTmd.
Import ListNotations.
Local Open Scope Z_scope.

(** ** micrometres to metres and back *)
Definition u6 : R := rnd64 (/ 1000000).
Definition e53 : R := (/ 9007199254740992)%R.
Lemma pow6_ok : R64 (pow10 6) = 1000000%R /\ fin64 (pow10 6).
Proof. change (pow10 6) with (f64_of_Z 1000000). apply f64_of_Z_ok. vm_compute. discriminate. Qed.
Lemma powm6_ok : R64 (pow10 (-6)) = u6 /\ fin64 (pow10 (-6)).
Proof.
  change (pow10 (-6)) with (fdiv (f64_of_Z 1) (f64_of_Z 1000000)).
  destruct (f64_of_Z_ok 1) as [E1 F1]; [vm_compute; discriminate|].
  destruct (f64_of_Z_ok 1000000) as [E2 F2]; [vm_compute; discriminate|].
  destruct (b64_div_ok (f64_of_Z 1) (f64_of_Z 1000000) F1) as [E F]; rewrite ?E1, ?E2; [lra| |].
  - unfold Rdiv. rewrite Rmult_1_l, Rabs_pos_eq by lra. apply Rle_trans with (bpow radix2 0); [cbn; lra|apply bp_le; lia].
  - unfold fdiv. rewrite E, E1, E2. unfold u6, Rdiv. rewrite Rmult_1_l. auto.
Qed.
Lemma u6_err : (Rabs (u6 - / 1000000) <= e53 * / 1000000)%R.
Proof.
  unfold u6, e53. rewrite <- bp53. pose proof (rnd64_rel (/ 1000000)) as H. rewrite (Rabs_pos_eq (/ 1000000)) in H by lra. apply H.
  apply Rle_trans with (bpow radix2 (-30)); [apply bp_le; lia|].
  change (bpow radix2 (-30)) with (/ 1073741824)%R. lra.
Qed.

(** ** the error of one height: scaled by s, written, read, unscaled *)
Section Error.
Context (x s : R) (Hx : (Rabs x <= bpow radix2 100)%R) (Hs : (bpow radix2 (-110) <= s <= bpow radix2 110)%R).
Let eta := bpow radix2 (-1075).
Let a := rnd64 (x * s).
Let z := rnd64 (u6 / s).
Let b := rnd64 (a * z).
Let c := rnd64 (b * 1000000).
Lemma s_pos : (0 < s)%R. Proof. pose proof (bpow_gt_0 radix2 (-110)). lra. Qed.
Lemma u6_range : (/ 1000001 <= u6 <= / 999999)%R.
Proof. pose proof u6_err as H. apply Rabs_le_inv in H. unfold e53 in H. lra. Qed.
Lemma inv_s : (bpow radix2 (-110) <= / s <= bpow radix2 110)%R.
Proof.
  pose proof s_pos. pose proof (bpow_gt_0 radix2 (-110)). split.
  - change (-110)%Z with (- (110))%Z. rewrite bpow_opp. apply Rinv_le; lra.
  - change (bpow radix2 110) with (bpow radix2 (- (-110))). rewrite bpow_opp. apply Rinv_le; lra.
Qed.
Lemma us_range : (bpow radix2 (-140) <= u6 / s <= bpow radix2 110)%R.
Proof.
  pose proof u6_range. pose proof inv_s as [I1 I2]. pose proof (bpow_gt_0 radix2 (-110)). unfold Rdiv. split.
  - replace (bpow radix2 (-140)) with (bpow radix2 (-30) * bpow radix2 (-110))%R by (rewrite <- bpow_plus; reflexivity).
    apply Rmult_le_compat; try apply bpow_ge_0; auto. change (bpow radix2 (-30)) with (/ 1073741824)%R. lra.
  - rewrite <- (Rmult_1_l (bpow radix2 110)). apply Rmult_le_compat; lra.
Qed.
Lemma z_err : (Rabs (z - u6 / s) <= e53 * (u6 / s))%R.
Proof.
  pose proof us_range as [U1 U2]. pose proof (bpow_gt_0 radix2 (-140)).
  unfold z, e53. rewrite <- bp53. pose proof (rnd64_rel (u6 / s)) as Hr. rewrite (Rabs_pos_eq (u6 / s)) in Hr by lra. apply Hr.
  eapply Rle_trans; [|exact U1]. apply bp_le. lia.
Qed.
Lemma sz_err : (Rabs (s * z - / 1000000) <= 3 * e53 * / 1000000)%R.
Proof.
  pose proof s_pos as Sp. pose proof z_err as Z. pose proof u6_err as U. pose proof u6_range as UR.
  assert (A : (Rabs (s * z - u6) <= e53 * u6)%R).
  { replace (s * z - u6)%R with (s * (z - u6 / s))%R by (field; lra). rewrite Rabs_mult, (Rabs_pos_eq s) by lra.
    replace (e53 * u6)%R with (s * (e53 * (u6 / s)))%R by (field; lra). apply Rmult_le_compat_l; lra. }
  replace (s * z - / 1000000)%R with ((s * z - u6) + (u6 - / 1000000))%R by ring.
  eapply Rle_trans; [apply Rabs_triang|]. unfold e53 in *. lra.
Qed.
Lemma z_range : (0 <= z <= bpow radix2 111)%R.
Proof.
  pose proof us_range as [U1 U2]. pose proof (bpow_gt_0 radix2 (-140)). unfold z. split.
  - rewrite <- rnd64_0. apply rnd64_le. lra.
  - rewrite <- (rnd64_bpow 111) by lia. apply rnd64_le. eapply Rle_trans; [exact U2|apply bp_le; lia].
Qed.
Lemma small_eta : (0 < eta /\ eta * bpow radix2 111 <= bpow radix2 (-960) /\ eta <= bpow radix2 (-960))%R.
Proof.
  unfold eta. split; [apply bpow_gt_0|]. rewrite <- bpow_plus. split; apply bp_le; lia.
Qed.
Lemma az_err : (Rabs (a * z - x / 1000000) <= 5 * e53 * (Rabs x / 1000000) + bpow radix2 (-960))%R.
Proof.
  pose proof s_pos as Sp. pose proof sz_err as SZ. pose proof z_range as [Z1 Z2]. pose proof small_eta as (N1 & N2 & N3).
  pose proof (rnd64_err (x * s)) as A. rewrite bp53 in A. fold e53 a eta in A. rewrite Rabs_mult, (Rabs_pos_eq s) in A by lra.
  pose proof (Rabs_pos x) as Xp.
  replace (a * z - x / 1000000)%R with ((a - x * s) * z + x * (s * z - / 1000000))%R by (unfold Rdiv; ring).
  eapply Rle_trans; [apply Rabs_triang|]. rewrite !Rabs_mult, (Rabs_pos_eq z) by lra.
  assert (B1 : (Rabs (a - x * s) * z <= (e53 * (Rabs x * s) + eta) * z)%R) by (apply Rmult_le_compat_r; lra).
  assert (B2 : (eta * z <= bpow radix2 (-960))%R).
  { eapply Rle_trans; [|exact N2]. apply Rmult_le_compat_l; lra. }
  assert (B3 : (Rabs x * Rabs (s * z - / 1000000) <= Rabs x * (3 * e53 * / 1000000))%R) by (apply Rmult_le_compat_l; lra).
  assert (B4 : (e53 * (Rabs x * s) * z <= e53 * (Rabs x * (/ 1000000 + 3 * e53 * / 1000000)))%R).
  { replace (e53 * (Rabs x * s) * z)%R with (e53 * (Rabs x * (s * z)))%R by ring.
    apply Rmult_le_compat_l; [unfold e53; lra|]. apply Rmult_le_compat_l; [lra|]. apply Rabs_le_inv in SZ. lra. }
  unfold e53 in *. unfold Rdiv. lra.
Qed.
Lemma c_err : (Rabs (c - x) <= bpow radix2 (-49) * Rabs x + bpow radix2 (-900))%R.
Proof.
  pose proof az_err as A. pose proof small_eta as (N1 & N2 & N3). pose proof (Rabs_pos x) as Xp.
  pose proof (rnd64_err (a * z)) as B. rewrite bp53 in B. fold e53 b eta in B.
  pose proof (rnd64_err (b * 1000000)) as C. rewrite bp53 in C. fold e53 c eta in C.
  assert (T : (Rabs (a * z) <= Rabs x / 1000000 + Rabs (a * z - x / 1000000))%R).
  { replace (a * z)%R with (x / 1000000 + (a * z - x / 1000000))%R at 1 by ring.
    eapply Rle_trans; [apply Rabs_triang|]. unfold Rdiv. rewrite Rabs_mult, (Rabs_pos_eq (/ 1000000)) by lra. lra. }
  assert (Bx : (Rabs (b - x / 1000000) <= 7 * e53 * (Rabs x / 1000000) + 3 * bpow radix2 (-960))%R).
  { replace (b - x / 1000000)%R with ((b - a * z) + (a * z - x / 1000000))%R by ring.
    eapply Rle_trans; [apply Rabs_triang|]. unfold e53 in *. lra. }
  assert (Bx' : (Rabs (b * 1000000 - x) <= 7 * e53 * Rabs x + 3000000 * bpow radix2 (-960))%R).
  { replace (b * 1000000 - x)%R with (1000000 * (b - x / 1000000))%R by field. rewrite Rabs_mult, (Rabs_pos_eq 1000000) by lra.
    unfold Rdiv in Bx |- *. lra. }
  assert (T2 : (Rabs (b * 1000000) <= Rabs x + Rabs (b * 1000000 - x))%R).
  { replace (b * 1000000)%R with (x + (b * 1000000 - x))%R at 1 by ring. apply Rabs_triang. }
  replace (c - x)%R with ((c - b * 1000000) + (b * 1000000 - x))%R by ring.
  eapply Rle_trans; [apply Rabs_triang|].
  assert (S : (4000000 * bpow radix2 (-960) <= bpow radix2 (-900))%R).
  { apply Rle_trans with (bpow radix2 22 * bpow radix2 (-960))%R.
    - apply Rmult_le_compat_r; [apply bpow_ge_0|]. change (bpow radix2 22) with 4194304%R. lra.
    - rewrite <- bpow_plus. apply bp_le. lia. }
  change (bpow radix2 (-49)) with (/ 562949953421312)%R. unfold e53 in *. lra.
Qed.
(** nothing overflows on the way *)
Lemma mags : (Rabs (x * s) <= bpow radix2 210 /\ Rabs a <= bpow radix2 210 /\ Rabs (u6 / s) <= bpow radix2 110 /\
  Rabs (a * z) <= bpow radix2 321 /\ Rabs b <= bpow radix2 321 /\ Rabs (b * 1000000) <= bpow radix2 341)%R.
Proof.
  pose proof s_pos as Sp. pose proof z_range as [Z1 Z2]. pose proof us_range as [U1 U2]. pose proof (bpow_gt_0 radix2 (-140)).
  assert (M1 : (Rabs (x * s) <= bpow radix2 210)%R).
  { rewrite Rabs_mult, (Rabs_pos_eq s) by lra. replace (bpow radix2 210) with (bpow radix2 100 * bpow radix2 110)%R by (rewrite <- bpow_plus; reflexivity).
    apply Rmult_le_compat; auto using Rabs_pos; lra. }
  assert (M2 : (Rabs a <= bpow radix2 210)%R) by (apply rnd64_abs_le; [lia|exact M1]).
  assert (M4 : (Rabs (a * z) <= bpow radix2 321)%R).
  { rewrite Rabs_mult, (Rabs_pos_eq z) by lra. replace (bpow radix2 321) with (bpow radix2 210 * bpow radix2 111)%R by (rewrite <- bpow_plus; reflexivity).
    apply Rmult_le_compat; auto using Rabs_pos; lra. }
  assert (M5 : (Rabs b <= bpow radix2 321)%R) by (apply rnd64_abs_le; [lia|exact M4]).
  repeat split; auto.
  - rewrite Rabs_pos_eq; lra.
  - rewrite Rabs_mult, (Rabs_pos_eq 1000000) by lra. replace (bpow radix2 341) with (bpow radix2 321 * bpow radix2 20)%R by (rewrite <- bpow_plus; reflexivity).
    apply Rmult_le_compat; auto using Rabs_pos; [lra|]. change (bpow radix2 20) with 1048576%R. lra.
Qed.
End Error.

(** ** Steps: times 10^-6 when written, times 10^6 when read *)
Lemma unit_trip x : fin64 x -> (bpow radix2 (-60) <= Rabs (R64 x) <= bpow radix2 60)%R ->
  let y := fmul (fmul x (pow10 (-6))) (pow10 6) in
  fin64 y /\ (Rabs (R64 y - R64 x) <= bpow radix2 (-50) * Rabs (R64 x))%R.
Proof.
  intros Fx [X1 X2] y. destruct powm6_ok as [Em Fm]. destruct pow6_ok as [Ep Fp]. pose proof u6_range as UR. pose proof u6_err as UE.
  set (v := R64 x) in *. assert (Hv : (0 < Rabs v)%R) by (pose proof (bpow_gt_0 radix2 (-60)); lra).
  destruct (b64_mult_ok x (pow10 (-6)) Fx Fm) as [E1 F1].
  { rewrite Em, Rabs_mult, (Rabs_pos_eq u6) by lra. fold v. apply Rle_trans with (bpow radix2 60 * 1)%R;
    [apply Rmult_le_compat; auto using Rabs_pos; lra|rewrite Rmult_1_r; apply bp_le; lia]. }
  fold (fmul x (pow10 (-6))) in E1, F1. rewrite Em in E1. fold v in E1.
  assert (P : (Rabs (v * u6) = Rabs v * u6)%R) by (rewrite Rabs_mult, (Rabs_pos_eq u6) by lra; reflexivity).
  assert (A1 : (Rabs (rnd64 (v * u6) - v * u6) <= e53 * (Rabs v * u6))%R).
  { rewrite <- P. unfold e53. rewrite <- bp53. apply rnd64_rel. rewrite P. apply Rle_trans with (bpow radix2 (-60) * bpow radix2 (-30))%R.
    - rewrite <- bpow_plus. apply bp_le. lia.
    - apply Rmult_le_compat; auto using bpow_ge_0. change (bpow radix2 (-30)) with (/ 1073741824)%R. lra. }
  assert (A2 : (Rabs (v * u6 - v / 1000000) <= e53 * (Rabs v / 1000000))%R).
  { replace (v * u6 - v / 1000000)%R with (v * (u6 - / 1000000))%R by (unfold Rdiv; ring). rewrite Rabs_mult.
    replace (e53 * (Rabs v / 1000000))%R with (Rabs v * (e53 * / 1000000))%R by (unfold Rdiv; ring). apply Rmult_le_compat_l; lra. }
  set (a := rnd64 (v * u6)) in *.
  assert (A3 : (Rabs (a * 1000000 - v) <= 3 * e53 * Rabs v)%R).
  { replace (a * 1000000 - v)%R with (1000000 * ((a - v * u6) + (v * u6 - v / 1000000)))%R by field.
    rewrite Rabs_mult, (Rabs_pos_eq 1000000) by lra.
    assert (T : (Rabs ((a - v * u6) + (v * u6 - v / 1000000)) <= Rabs (a - v * u6) + Rabs (v * u6 - v / 1000000))%R) by apply Rabs_triang.
    assert (U : (Rabs v * u6 <= Rabs v * (/ 1000000 + e53 * / 1000000))%R).
    { apply Rmult_le_compat_l; [lra|]. apply Rabs_le_inv in UE. lra. }
    unfold e53, Rdiv in *. lra. }
  assert (A4 := rel_combine (a * 1000000) v (3 * e53) A3 ltac:(unfold e53; lra)).
  assert (A5 : (/ 2 * Rabs v <= Rabs (a * 1000000) <= 2 * Rabs v)%R) by (unfold e53 in A4; lra).
  destruct (b64_mult_ok (fmul x (pow10 (-6))) (pow10 6) F1 Fp) as [E2 F2].
  { rewrite E1, Ep. fold a. eapply Rle_trans; [apply A5|]. apply Rle_trans with (2 * bpow radix2 60)%R; [lra|].
    change 2%R with (bpow radix2 1). rewrite <- bpow_plus. apply bp_le. lia. }
  split; [exact F2|]. unfold y. unfold fmul at 1. rewrite E2, E1, Ep. fold a.
  assert (A6 : (Rabs (rnd64 (a * 1000000) - a * 1000000) <= e53 * Rabs (a * 1000000))%R).
  { unfold e53. rewrite <- bp53. apply rnd64_rel. apply Rle_trans with (/ 2 * bpow radix2 (-60))%R; [|lra].
    change (/ 2)%R with (bpow radix2 (-1)). rewrite <- bpow_plus. apply bp_le. lia. }
  replace (rnd64 (a * 1000000) - v)%R with ((rnd64 (a * 1000000) - a * 1000000) + (a * 1000000 - v))%R by ring.
  eapply Rle_trans; [apply Rabs_triang|]. change (bpow radix2 (-50)) with (/ 1125899906842624)%R. unfold e53 in *. lra.
Qed.

(** ** The scale factor *)
(** the power of ten of libm, for magnitudes between 2^-100 and 2^100: 10^-floor(log10 m) lies between 2^-100 and 2^104 *)
Definition scale_ok (scale_of : f64 -> f64) : Prop := forall m, fin64 m -> (bpow radix2 (-100) <= R64 m <= bpow radix2 100)%R ->
  fin64 (scale_of m) /\ (bpow radix2 (-110) <= R64 (scale_of m) <= bpow radix2 110)%R.
(** measured heights of ordinary size, not all of them negligibly small unless all are zero *)
Definition ordinary (s : raw) : Prop := Forall small (measured s) /\
  ((forall x, In x (measured s) -> R64 x = 0%R) \/ exists x, In x (measured s) /\ (bpow radix2 (-100) <= Rabs (R64 x))%R).
Lemma abs_ok x : R64 (b64_abs x) = Rabs (R64 x) /\ (fin64 x -> fin64 (b64_abs x)).
Proof. unfold b64_abs, R64, fin64. split; [apply Binary.B2R_Babs|]. intros H. rewrite Binary.is_finite_Babs. exact H. Qed.
Lemma max_abs_spec s : Forall small (measured s) -> measured s <> [] ->
  fin64 (max_abs s) /\ (R64 (max_abs s) <= bpow radix2 100)%R /\ (forall x, In x (measured s) -> (Rabs (R64 x) <= R64 (max_abs s))%R) /\
  exists x, In x (measured s) /\ R64 (max_abs s) = Rabs (R64 x).
Proof.
  intros Hf Hn. rewrite Forall_forall in Hf.
  assert (Hl : Forall fin64 (map b64_abs (measured s))).
  { apply Forall_forall. intros y Hy. apply in_map_iff in Hy as (x & <- & Hx). apply abs_ok, Hf, Hx. }
  destruct (fextremum_spec (fun y m => flt m y) (fun a b => (b <= a)%R) (map b64_abs (measured s))) as [I1 I2]; auto using Rle_refl.
  - intros; eapply Rle_trans; eauto.
  - intros x y Hx Hy H. apply (fin_compare x y Hx Hy) in H. lra.
  - intros x y Hx Hy H. apply Rnot_lt_le. intros Hlt. apply (fin_compare x y Hx Hy) in Hlt. congruence.
  - intros H. apply map_eq_nil in H. auto.
  - fold (max_abs s) in I1, I2. apply in_map_iff in I1 as (x & E & Hx). destruct (abs_ok x) as [Ex Fx]. rewrite E in Ex, Fx.
    destruct (Hf x Hx) as [F B]. repeat split.
    + apply Fx, F.
    + rewrite Ex. exact B.
    + intros y Hy. destruct (abs_ok y) as [Ey _]. rewrite <- Ey. apply I2, in_map, Hy.
    + exists x. auto.
Qed.
Lemma scale_range scale_of s : scale_ok scale_of -> ordinary s -> measured s <> [] ->
  fin64 (sdf_scale scale_of s) /\ (bpow radix2 (-110) <= R64 (sdf_scale scale_of s) <= bpow radix2 110)%R.
Proof.
  intros Hs [Hf Ho] Hn. destruct (max_abs_spec s Hf Hn) as (F & B & M & x & Hx & Ex).
  unfold sdf_scale. destruct (is_zero (max_abs s)) eqn:Ez.
  - destruct (f64_of_Z_ok 1) as [E1 F1]; [vm_compute; discriminate|]. rewrite E1. split; [exact F1|].
    split; [apply Rle_trans with (bpow radix2 0); [apply bp_le; lia|cbn; lra]|].
    apply Rle_trans with (bpow radix2 0); [cbn; lra|apply bp_le; lia].
  - apply Hs; [exact F|]. split; [|exact B]. destruct Ho as [Ho|(y & Hy & By)].
    + exfalso. assert (E0 : R64 (max_abs s) = 0%R) by (rewrite Ex, (Ho x Hx); apply Rabs_R0).
      destruct (max_abs s) as [| | |sg m e Hb]; try discriminate. unfold R64 in E0. cbn in E0.
      apply eq_0_F2R in E0. destruct sg; discriminate.
    + eapply Rle_trans; [exact By|apply M, Hy].
Qed.

(** ** The header *)
Definition date_ok (d : pystr) : Prop := length d = 12%nat /\ Forall (fun c => 48 <= c <= 57) d.
Lemma date_field r d : compatible Utf8 r -> date_ok d -> reads_back Utf8 r (FStr 12) (VStr d) (VStr d).
Proof.
  intros C [L F]. constructor; [exact C|]. split.
  - exists d. split; [apply utf8_ascii; eapply Forall_impl; [|exact F]; intros c Hc; cbn in Hc; lia|lia].
  - intros s' c Ed. rewrite Ed in F. apply Forall_app in F as [_ F]. apply Forall_inv in F. lia.
Qed.
Definition size_field w r n (H : Z.of_nat n < 65536) : reads_back w r fmt_H (VInt (Z.of_nat n)) (VInt (Z.of_nat n)).
Proof. apply rb_int; [lia|]. cbn [int_fits]. change (2 ^ (8 * Z.of_nat 2)) with 65536. lia. Qed.
Lemma manufac_field r : compatible Utf8 r -> reads_back Utf8 r (FStr 10) (VStr (str "surfalize ")) (VStr (str "surfalize")).
Proof.
  intros C. change (str "surfalize ") with (str "surfalize" ++ [32]).
  eapply rb_str_trailing; [exact C|vm_compute; reflexivity|cbn; lia|constructor; [left; reflexivity|constructor]|].
  apply last_ok. vm_compute. reflexivity.
Qed.

Section Header.
Context (scale_of : f64 -> f64) (r : encoding) (C : compatible Utf8 r) (s : raw) (d1 d2 : pystr) (D1 : date_ok d1) (D2 : date_ok d2)
  (Nx : Z.of_nat (cols s) < 65536) (Ny : Z.of_nat (rows s) < 65536).
Lemma sdf_header_roundtrip : exists head d, write_layout Utf8 (sdf_header scale_of s d1 d2) sdf_layout = Ok head /\
  length head = 73%nat /\
  hint d "NumPoints" = Ok (Z.of_nat (cols s)) /\ hint d "NumProfiles" = Ok (Z.of_nat (rows s)) /\ hint d "DataType" = Ok 7 /\
  hflt d "Xscale" = Ok (fmul (rstep_x s) (pow10 (-6))) /\ hflt d "Yscale" = Ok (fmul (rstep_y s) (pow10 (-6))) /\
  hflt d "Zscale" = Ok (fdiv (pow10 (-6)) (sdf_scale scale_of s)) /\
  forall pre rest, read_layout r sdf_layout (at_ pre (head ++ rest)) = Ok (d, at_ (pre ++ head) rest).
Proof.
  assert (F : forall name f, In (Entry name (Fixed f)) sdf_layout ->
     exists v v', dget (sdf_header scale_of s d1 d2) name = Some v /\ reads_back Utf8 r f v v').
  { intros name f Hin. unfold sdf_layout, E in Hin.
    repeat (destruct Hin as [Hin|Hin]; [injection Hin as <- <-; eexists; eexists; split; [reflexivity|];
      first [exact (manufac_field r C)|exact (date_field r _ C D1)|exact (date_field r _ C D2)
            |apply size_field; assumption|apply rb_f64|apply rb_f64_int; vm_compute; reflexivity
            |apply rb_int_lit; [lia|vm_compute; reflexivity]]|]). destruct Hin. }
  destruct (C44_roundtrip Utf8 r (sdf_header scale_of s d1 d2) sdf_layout) as (b & d & B1 & B2 & B3 & B4).
  { intros e He. unfold sdf_layout, E in He. repeat (destruct He as [<-|He]; [exact I|]). destruct He. }
  { apply forallb_names_nodup. vm_compute. reflexivity. }
  { exact F. }
  exists b, d. split; [exact B1|]. split; [exact B2|].
  split. { apply hint_ok. eapply B4; [|reflexivity|apply size_field; exact Nx]. unfold sdf_layout, E. do 3 right. left. reflexivity. }
  split. { apply hint_ok. eapply B4; [|reflexivity|apply size_field; exact Ny]. unfold sdf_layout, E. do 4 right. left. reflexivity. }
  split. { apply hint_ok. apply (B4 "DataType"%string fmt_B (VInt 7) (VInt 7)); [|reflexivity|apply rb_int_lit; [lia|vm_compute; reflexivity]]. unfold sdf_layout, E. do 10 right. left. reflexivity. }
  split. { apply hflt_ok. eapply B4; [|reflexivity|apply rb_f64]. unfold sdf_layout, E. do 5 right. left. reflexivity. }
  split. { apply hflt_ok. eapply B4; [|reflexivity|apply rb_f64]. unfold sdf_layout, E. do 6 right. left. reflexivity. }
  split. { apply hflt_ok. eapply B4; [|reflexivity|apply rb_f64]. unfold sdf_layout, E. do 7 right. left. reflexivity. }
  intros pre rest. unfold at_. rewrite B3, app_length, <- app_assoc. reflexivity.
Qed.
End Header.

(** *** C48, binary: every surface of ordinary heights comes back with the same shape, its gaps, its heights up to a
    relative error of 2^-49 and its steps up to 2^-50. *)
Definition near (x x' : f64) : Prop :=
  if isnan x then isnan x' = true
  else fin64 x' /\ (Rabs (R64 x' - R64 x) <= bpow radix2 (-49) * Rabs (R64 x) + bpow radix2 (-900))%R.
Lemma Forall2_grid {A} (P : A -> A -> Prop) (f : A -> A) g : (forall x, In x (concat g) -> P x (f x)) ->
  Forall2 (Forall2 P) g (map (map f) g).
Proof.
  induction g as [|row g IH]; intros H; cbn [map]; constructor.
  - assert (Hr : forall x, In x row -> P x (f x)) by (intros; apply H; cbn; apply in_or_app; left; assumption).
    clear H IH. induction row as [|x row IH]; cbn [map]; constructor; [apply Hr; left; reflexivity|apply IH; intros; apply Hr; right; assumption].
  - apply IH. intros. apply H. cbn. apply in_or_app. right. assumption.
Qed.
Lemma sdf_height scale_of s x : scale_ok scale_of -> ordinary s -> In x (concat (rdata s)) ->
  near x (fmul (fmul (fmul x (sdf_scale scale_of s)) (fdiv (pow10 (-6)) (sdf_scale scale_of s))) (pow10 6)).
Proof.
  intros Hs Ho Hin. unfold near. destruct (isnan x) eqn:Hn.
  - apply nan_mult, nan_mult, nan_mult. exact Hn.
  - assert (Hm : In x (measured s)) by (unfold measured; apply filter_In; rewrite Hn; auto).
    assert (Hne : measured s <> []) by (intros E; rewrite E in Hm; destruct Hm).
    destruct (scale_range _ s Hs Ho Hne) as [Fs Rs]. set (sc := sdf_scale scale_of s) in *.
    destruct Ho as [Hsm _]. rewrite Forall_forall in Hsm. destruct (Hsm x Hm) as [Fx Bx].
    destruct (mags (R64 x) (R64 sc) Bx Rs) as (M1 & M2 & M3 & M4 & M5 & M6).
    destruct powm6_ok as [Em Fm]. destruct pow6_ok as [Ep Fp].
    assert (Hsc : (R64 sc <> 0)%R) by (pose proof (bpow_gt_0 radix2 (-110)); lra).
    destruct (b64_mult_ok x sc Fx Fs) as [E1 F1]; [eapply Rle_trans; [exact M1|apply bp_le; lia]|].
    fold (fmul x sc) in E1, F1.
    destruct (b64_div_ok (pow10 (-6)) sc Fm Hsc) as [E2 F2]; [rewrite Em; eapply Rle_trans; [exact M3|apply bp_le; lia]|].
    fold (fdiv (pow10 (-6)) sc) in E2, F2. rewrite Em in E2.
    destruct (b64_mult_ok _ _ F1 F2) as [E3 F3]; [rewrite E1, E2; eapply Rle_trans; [exact M4|apply bp_le; lia]|].
    fold (fmul (fmul x sc) (fdiv (pow10 (-6)) sc)) in E3, F3. rewrite E1, E2 in E3.
    destruct (b64_mult_ok _ _ F3 Fp) as [E4 F4]; [rewrite E3, Ep; eapply Rle_trans; [exact M6|apply bp_le; lia]|].
    split; [exact F4|]. unfold fmul at 1. rewrite E4, E3, Ep. exact (c_err (R64 x) (R64 sc) Rs).
Qed.
Theorem C48_binary : forall scale_of convert rest r s create_date mod_date,
  scale_ok scale_of -> compatible Utf8 r -> shaped s -> Z.of_nat (cols s) < 65536 -> Z.of_nat (rows s) < 65536 ->
  ordinary s -> step_ok (rstep_x s) -> step_ok (rstep_y s) -> date_ok create_date -> date_ok mod_date ->
  exists b s', write_sdf scale_of s create_date mod_date = Ok b /\ read_sdf convert rest r (open_rb b) = Ok s' /\
    Forall2 (Forall2 near) (rdata s) (rdata s') /\
    (Rabs (R64 (rstep_x s') - R64 (rstep_x s)) <= bpow radix2 (-50) * Rabs (R64 (rstep_x s)))%R /\
    (Rabs (R64 (rstep_y s') - R64 (rstep_y s)) <= bpow radix2 (-50) * Rabs (R64 (rstep_y s)))%R.
Proof.
  intros scale_of convert rest r s d1 d2 Hs C [Gr Gc Grect] Nx Ny Ho [Fx Sx] [Fy Sy] D1 D2.
  destruct (sdf_header_roundtrip scale_of r C s d1 d2 D1 D2 Nx Ny) as (head & d & W1 & W2 & Hw & Hh & Ht & Hx & Hy & Hz & W3).
  set (body := f64_tobytes (sdf_data scale_of s)).
  assert (El : length (sdf_data scale_of s) = (rows s * cols s)%nat)
    by (unfold sdf_data; rewrite map_length; apply concat_length_grid; exact Grect).
  exists (sdf_magic_binary ++ head ++ body). eexists. split; [|split; [|split; [|split]]].
  - unfold write_sdf. destruct (Nat.eqb_spec (rows s * cols s) 0) as [E0|_]; [apply Nat.eq_mul_0 in E0; lia|].
    rewrite W1. reflexivity.
  - unfold read_sdf. change (open_rb ?b) with (at_ [] b).
    pose proof (fread_at [] sdf_magic_binary (head ++ body)) as F8. change (length sdf_magic_binary) with 8%nat in F8. rewrite F8.
    change (zs_eqb sdf_magic_binary sdf_magic_ascii) with false. rewrite zs_eqb_refl. cbv iota.
    unfold read_binary_sdf. rewrite W3. cbn [rbind]. rewrite Hw, Hh, Ht. cbn [rbind].
    change (sdf_item 7) with (Some 8%nat). cbv iota. rewrite !Nat2Z.id.
    assert (Eb : length body = (8 * cols s * rows s)%nat) by (unfold body; rewrite f64_tobytes_length, El; lia).
    cbv zeta. rewrite <- Eb. pose proof (fread_at (([] ++ sdf_magic_binary) ++ head) body []) as FB. rewrite app_nil_r in FB. rewrite FB.
    rewrite Nat.eqb_refl. cbn [negb]. rewrite Hz. cbn [rbind]. change (7 =? 7) with true. cbv iota.
    unfold body. rewrite f64_array_tobytes. cbn [rmap rbind]. unfold sdf_data. rewrite map_map, concat_map_map.
    match goal with |- context [reshape _ _ (concat ?g)] =>
      replace (rows s) with (length g) by (rewrite map_length; reflexivity); rewrite (reshape_concat (cols s) g) end.
    2:{ apply Forall_forall. intros y Hy'. apply in_map_iff in Hy' as (q & <- & Hq). rewrite map_length.
        rewrite Forall_forall in Grect. apply Grect. exact Hq. }
    cbn [rbind]. rewrite Hx. cbn [rbind]. rewrite Hy. cbn [rbind]. reflexivity.
  - cbn [rdata]. apply Forall2_grid. intros x Hx'. apply sdf_height; auto.
  - cbn [rstep_x]. apply (unit_trip _ Fx Sx).
  - cbn [rstep_y]. apply (unit_trip _ Fy Sy).
Qed.

(** Surfaces with more than 65535 rows or columns are rejected, whatever they contain. *)
Theorem C48_size_limit : forall scale_of s create_date mod_date,
  65536 <= Z.of_nat (cols s) \/ 65536 <= Z.of_nat (rows s) -> exists e, write_sdf scale_of s create_date mod_date = Err e.
Proof.
  intros scale_of s d1 d2 H. unfold write_sdf. destruct (Nat.eqb _ _); [eauto|].
  destruct (write_layout Utf8 (sdf_header scale_of s d1 d2) sdf_layout) as [b|e] eqn:EW; [exfalso|exists e; reflexivity].
  destruct (C44_int_range_partial _ _ _ _ "NumPoints"%string false 2%nat EW) as (z1 & R1 & G1).
  { unfold sdf_layout, E. do 3 right. left. reflexivity. }
  destruct (C44_int_range_partial _ _ _ _ "NumProfiles"%string false 2%nat EW) as (z2 & R2 & G2).
  { unfold sdf_layout, E. do 4 right. left. reflexivity. }
  destruct G1 as [G1|(c & G1 & _)]; [|discriminate]. destruct G2 as [G2|(c & G2 & _)]; [|discriminate].
  injection G1 as <-. injection G2 as <-. cbn [int_fits] in R1, R2. change (2 ^ (8 * Z.of_nat 2)) with 65536 in *. lia.
Qed.

(** *** C48, ASCII: no ASCII file written by the library can be read back.  The line break is a bytes object, so its
    repr ends up in the header and the header is a single line. *)
Lemma split_on_app sep a b : (forall c, In c a -> c <> sep) -> split_on sep (a ++ sep :: b) = a :: split_on sep b.
Proof.
  assert (Hne : forall t, split_on sep t <> []).
  { induction t as [|x t IHt]; [discriminate|]. cbn [split_on]. destruct (split_on sep t); [discriminate|]. destruct (x =? sep); discriminate. }
  intros Ha. induction a as [|c a IH]; cbn [app split_on].
  - rewrite Z.eqb_refl. destruct (split_on sep b) as [|p ps] eqn:E; [destruct (Hne _ E)|reflexivity].
  - rewrite IH by (intros; apply Ha; right; assumption). destruct (Z.eqb_spec c sep) as [Ec|]; [destruct (Ha c (or_introl eq_refl) Ec)|reflexivity].
Qed.
Lemma split_on_none sep a : (forall c, In c a -> c <> sep) -> split_on sep a = [a].
Proof.
  intros Ha. induction a as [|c a IH]; [reflexivity|]. cbn [split_on]. rewrite IH by (intros; apply Ha; right; assumption).
  destruct (Z.eqb_spec c sep) as [Ec|]; [destruct (Ha c (or_introl eq_refl) Ec)|reflexivity].
Qed.
Lemma split_on_length sep a : length (split_on sep a) = S (count_occ Z.eq_dec a sep).
Proof.
  induction a as [|c a IH]; [reflexivity|]. cbn [split_on count_occ].
  destruct (split_on sep a) as [|p ps]; [discriminate|]. cbn [length] in IH.
  destruct (Z.eqb_spec c sep) as [->|N].
  - destruct (Z.eq_dec sep sep); [|congruence]. cbn [length]. lia.
  - destruct (Z.eq_dec c sep); [congruence|]. cbn [length]. lia.
Qed.
Lemma splitlines_single a : a <> [] -> (forall c, In c a -> is_linebreak c = false) -> splitlines_aux a = [a].
Proof.
  intros Hn Ha. induction a as [|c a IH]; [congruence|]. cbn [splitlines_aux]. rewrite (Ha c) by (left; reflexivity).
  destruct a as [|c' a]; [reflexivity|]. rewrite IH; [reflexivity|discriminate|intros; apply Ha; right; assumption].
Qed.
(** printable ASCII other than the section mark *)
Definition plain (s : pystr) : Prop := Forall (fun c => 32 <= c < 127 /\ c <> 42) s.
Definition header_text (text : pyval -> pystr) (h : dict) : pystr :=
  concat (map (fun kv => str (fst kv) ++ str " = " ++ text (snd kv) ++ crlf_repr) h).
Lemma header_plain text h : (forall v, plain (text v)) -> Forall (fun kv => plain (str (fst kv))) h -> plain (header_text text h).
Proof.
  intros Ht Hh. unfold header_text. induction Hh as [|kv h Hk Hh IH]; [constructor|]. cbn [map concat].
  apply Forall_app. split; [|exact IH]. apply Forall_app. split; [exact Hk|]. apply Forall_app. split; [|apply Forall_app; split; [apply Ht|]];
  vm_compute; repeat constructor; discriminate.
Qed.
Lemma header_equals text h : (length h <= count_occ Z.eq_dec (header_text text h) 61%Z)%nat.
Proof.
  unfold header_text. induction h as [|kv h IH]; [apply Nat.le_0_l|]. cbn [map concat length]. rewrite !count_occ_app.
  assert (E : count_occ Z.eq_dec (str " = ") 61 = 1%nat) by reflexivity. rewrite E. lia.
Qed.
Definition sdf_names : list string := ["ManufacID"; "CreateDate"; "ModDate"; "NumPoints"; "NumProfiles"; "Xscale"; "Yscale"; "Zscale";
  "Zresolution"; "Compression"; "DataType"; "CheckType"]%string.
Lemma sdf_header_names scale_of s d1 d2 : map fst (sdf_header scale_of s d1 d2) = sdf_names.
Proof. reflexivity. Qed.
Lemma names_plain h : map fst h = sdf_names -> Forall (fun kv : string * pyval => plain (str (fst kv))) h.
Proof.
  intros E. apply Forall_forall. intros kv Hin. apply (in_map fst) in Hin. rewrite E in Hin. revert Hin. generalize (fst kv). clear.
  intros n Hin. unfold sdf_names in Hin.
  repeat (destruct Hin as [<-|Hin]; [vm_compute; repeat constructor; discriminate|]). destruct Hin.
Qed.
Lemma plain_no_break t : plain t -> forall c, In c t -> is_linebreak c = false /\ c <> 42.
Proof.
  intros H c Hc. unfold plain in H. rewrite Forall_forall in H. destruct (H c Hc) as [H1 H2]. split; [|exact H2].
  unfold is_linebreak. destruct (Z.leb_spec 10 c), (Z.leb_spec c 13), (Z.leb_spec 28 c), (Z.leb_spec c 30); cbn; auto; lia.
Qed.
Lemma plain_ascii t : plain t -> forallb (fun c => (0 <=? c) && (c <? 128)) t = true.
Proof.
  intros H. apply forallb_forall. intros c Hc. unfold plain in H. rewrite Forall_forall in H. specialize (H c Hc).
  destruct (Z.leb_spec 0 c); [|lia]. destruct (Z.ltb_spec c 128); [|lia]. reflexivity.
Qed.
Theorem C48_ascii_refuted : forall scale_of convert rest r text body s create_date mod_date,
  (forall v, plain (text v)) -> Forall (fun c => 0 <= c < 128 /\ c <> 42) body ->
  read_sdf convert rest r (open_rb (write_sdf_ascii text body (sdf_header scale_of s create_date mod_date))) = Err ValueError.
Proof.
  intros scale_of convert rest r text body s d1 d2 Ht Hb. set (h := sdf_header scale_of s d1 d2).
  assert (Hn : map fst h = sdf_names) by apply sdf_header_names.
  assert (Lh : length h = 12%nat) by (rewrite <- (map_length fst), Hn; reflexivity).
  assert (Hp : plain (header_text text h)) by (apply header_plain; [exact Ht|apply names_plain; exact Hn]).
  pose proof (header_equals text h) as He. rewrite Lh in He.
  assert (H0 : exists t, header_text text h = 77 :: t).
  { destruct h as [|[n v] h']; [discriminate|]. injection Hn as -> _. eexists. reflexivity. }
  destruct H0 as [t H0]. clearbody h. unfold write_sdf_ascii, read_sdf. fold (header_text text h).
  change (open_rb ?b) with (at_ [] b).
  pose (tail := [42; 10] ++ body ++ [42; 10] ++ str "<ExportedBy>Surfalize</ExportedBy>" ++ [10] ++ [42; 10]).
  pose proof (fread_at [] sdf_magic_ascii ([10] ++ header_text text h ++ tail)) as F8. unfold tail in F8.
  change (length sdf_magic_ascii) with 8%nat in F8. rewrite F8. rewrite zs_eqb_refl.
  unfold read_ascii_sdf. rewrite fread_all_at.
  assert (Hall : forallb (fun c => (0 <=? c) && (c <? 128)) ([10] ++ header_text text h ++ tail) = true).
  { unfold tail. rewrite !forallb_app, (plain_ascii (header_text text h) Hp).
    assert (Eb : forallb (fun c => (0 <=? c) && (c <? 128)) body = true).
    { apply forallb_forall. intros c Hc. rewrite Forall_forall in Hb. specialize (Hb c Hc).
      destruct (Z.leb_spec 0 c); [|lia]. destruct (Z.ltb_spec c 128); [|lia]. reflexivity. }
    rewrite Eb. reflexivity. }
  unfold tail in Hall. rewrite Hall. cbn [negb].
  assert (El : lstrip ([10] ++ header_text text h ++ tail) = header_text text h ++ tail).
  { cbn [app lstrip is_space]. rewrite H0. reflexivity. }
  unfold tail in El. rewrite El.
  assert (Es : split_on 42 (header_text text h ++ tail)
    = [header_text text h; 10 :: body; 10 :: str "<ExportedBy>Surfalize</ExportedBy>" ++ [10]; [10]]).
  { unfold tail. change ([42; 10] ++ ?x) with (42 :: 10 :: x). rewrite split_on_app by (intros c Hc; apply (plain_no_break _ Hp c Hc)).
    rewrite Forall_forall in Hb. f_equal.
    match goal with |- split_on 42 (10 :: body ++ [42; 10] ++ ?y) = _ => pose (x := 10 :: y);
      change (10 :: body ++ [42; 10] ++ y) with ((10 :: body) ++ 42 :: x); rewrite (split_on_app 42 (10 :: body) x) end.
    2:{ intros c [<-|Hc]; [discriminate|]. apply (Hb c Hc). }
    reflexivity. }
  unfold tail in Es. rewrite Es. change (lstrip [10]) with (@nil Z). cbn [zs_eqb negb].
  assert (El2 : lstrip (header_text text h) = header_text text h) by (rewrite H0; reflexivity).
  rewrite El2, splitlines_single; [|rewrite H0; discriminate|intros c Hc; apply (plain_no_break _ Hp c Hc)].
  cbn [read_header_lines]. pose proof (split_on_length 61 (header_text text h)) as Hl.
  destruct (split_on 61 (header_text text h)) as [|p1 [|p2 [|p3 ps]]]; cbn [length] in Hl; try lia. reflexivity.
Qed.

(** *** C51 for .sdf: no proper prefix of a written binary file can be loaded. *)
Lemma sdf_layout_split : exists l, sdf_layout = l ++ [Entry "CheckType" (Fixed fmt_B)] /\ Forall fixed_entry l /\ lsize l = 72%nat.
Proof.
  exists (removelast sdf_layout). split; [reflexivity|]. split; [|vm_compute; reflexivity].
  unfold sdf_layout, E. cbn [removelast]. repeat constructor.
Qed.
Lemma firstn_eq_app {A} k (a b : list A) : (length a <= k)%nat -> firstn k (a ++ b) = a ++ firstn (k - length a) b.
Proof. intros H. rewrite firstn_app, firstn_all2 by exact H. reflexivity. Qed.
Theorem C51_sdf_truncated : forall scale_of convert rest r s create_date mod_date b k,
  compatible Utf8 r -> shaped s -> date_ok create_date -> date_ok mod_date ->
  write_sdf scale_of s create_date mod_date = Ok b -> (k < length b)%nat ->
  exists e, read_sdf convert rest r (open_rb (firstn k b)) = Err e.
Proof.
  intros scale_of convert rest r s d1 d2 b k C [Gr Gc Grect] D1 D2 HW Hk.
  destruct (Z.lt_ge_cases (Z.of_nat (cols s)) 65536) as [Nx|Nx].
  2:{ destruct (C48_size_limit scale_of s d1 d2 (or_introl Nx)) as [e E]. congruence. }
  destruct (Z.lt_ge_cases (Z.of_nat (rows s)) 65536) as [Ny|Ny].
  2:{ destruct (C48_size_limit scale_of s d1 d2 (or_intror Ny)) as [e E]. congruence. }
  destruct (read_sdf convert rest r (open_rb (firstn k b))) as [s'|e] eqn:HR; [exfalso|eauto].
  destruct (sdf_header_roundtrip scale_of r C s d1 d2 D1 D2 Nx Ny) as (head & d & W1 & W2 & Hw & Hh & Ht & Hx & Hy & Hz & W3).
  assert (El : length (sdf_data scale_of s) = (rows s * cols s)%nat)
    by (unfold sdf_data; rewrite map_length; apply concat_length_grid; exact Grect).
  unfold write_sdf in HW. destruct (Nat.eqb _ _); [discriminate|]. rewrite W1 in HW. cbn [rbind] in HW.
  apply (f_equal (fun x => match x with Ok y => y | Err _ => b end)) in HW. cbv beta iota in HW. subst b.
  set (body := f64_tobytes (sdf_data scale_of s)) in *.
  assert (Lb : length body = (8 * cols s * rows s)%nat) by (unfold body; rewrite f64_tobytes_length, El; lia).
  assert (Lm : length sdf_magic_binary = 8%nat) by reflexivity.
  rewrite !app_length, W2, Lm in Hk.
  destruct (Nat.lt_ge_cases k 8) as [H8|H8].
  { assert (Em : forall j, (j < 8)%nat -> forall x, read_sdf convert rest r (open_rb (firstn j sdf_magic_binary)) <> Ok x).
    { intros j Hj x E. do 8 (destruct j as [|j]; [vm_compute in E; discriminate|]). lia. }
    rewrite firstn_app in HR. replace (k - length sdf_magic_binary)%nat with 0%nat in HR by lia. rewrite firstn_O, app_nil_r in HR.
    exact (Em k H8 _ HR). }
  rewrite firstn_eq_app in HR by lia. rewrite Lm in HR. change (open_rb ?b) with (at_ [] b) in HR. unfold read_sdf in HR.
  set (t := firstn (k - 8) (head ++ body)) in *.
  pose proof (fread_at [] sdf_magic_binary t) as F8. rewrite Lm in F8. rewrite F8 in HR.
  change (zs_eqb sdf_magic_binary sdf_magic_ascii) with false in HR. rewrite zs_eqb_refl in HR. cbv iota in HR.
  unfold read_binary_sdf in HR. apply rbind_ok in HR as ([d' h'] & A1 & HR).
  destruct (Nat.lt_ge_cases (k - 8) 73) as [H73|H73].
  { destruct sdf_layout_split as (l & Ey & Fl & Sl). unfold read_layout in A1. rewrite Ey in A1.
    destruct (C44_truncated_header r l "CheckType" fmt_B [] d' _ h' Fl ltac:(cbn; lia) A1) as (_ & P1 & P2).
    unfold at_ in P1, P2. cbn [contents pos calcsize] in P1, P2. change (calcsize fmt_B) with 1%nat in P1. rewrite Sl in P1. cbn [app length] in P1, P2.
    rewrite app_length, Lm in P2. unfold t in P2. rewrite firstn_length, app_length in P2. lia. }
  unfold t in A1. rewrite firstn_eq_app in A1 by lia. rewrite W3 in A1. injection A1 as <- <-.
  rewrite Hw, Hh, Ht in HR. cbn [rbind] in HR. change (sdf_item 7) with (Some 8%nat) in HR. cbv iota zeta in HR. rewrite !Nat2Z.id in HR.
  set (u := firstn (k - 8 - length head) body) in *. unfold fread in HR.
  match type of HR with context [Nat.eqb (length ?x) ?n] => destruct (Nat.eqb_spec (length x) n) as [Ee|] end; [|discriminate].
  rewrite firstn_length in Ee. unfold at_ in Ee. cbn [contents pos] in Ee. rewrite skipn_app, skipn_all, Nat.sub_diag in Ee. cbn [app skipn] in Ee.
  unfold u in Ee. rewrite firstn_length in Ee. lia.
Qed.

(** the hypotheses are met: a 2 x 2 surface with a gap; the scale factor 1 is allowed *)
Theorem C48_example : let s := {| rdata := [[f64_of_Z 1; nan64]; [f64_of_Z (-7); f64_of_Z 3]]; rstep_x := f64_of_Z 1; rstep_y := f64_of_Z 2 |} in
  shaped s /\ ordinary s /\ step_ok (rstep_x s) /\ step_ok (rstep_y s) /\ date_ok (str "181120260130") /\ scale_ok (fun _ => f64_of_Z 1) /\
  plain (str "1e-06").
Proof.
  assert (S : forall n, Z.abs n <= 8 -> fin64 (f64_of_Z n) /\ R64 (f64_of_Z n) = IZR n).
  { intros n Hn. destruct (f64_of_Z_ok n) as [E F]; [change (2 ^ 53) with 9007199254740992; lia|]. auto. }
  assert (B8 : (8 <= bpow radix2 100)%R) by (change 8%R with (bpow radix2 3); apply bp_le; lia).
  assert (T : forall n, Z.abs n <= 8 -> small (f64_of_Z n)).
  { intros n Hn. destruct (S n Hn) as [F E]. split; [exact F|]. rewrite E, <- abs_IZR. eapply Rle_trans; [|exact B8]. apply IZR_le. lia. }
  assert (St : forall n, 1 <= n <= 8 -> step_ok (f64_of_Z n)).
  { intros n Hn. destruct (S n ltac:(lia)) as [F E]. split; [exact F|].
    rewrite E, <- abs_IZR, Z.abs_eq by lia. split.
    - apply Rle_trans with (bpow radix2 0); [apply bp_le; lia|]. change (bpow radix2 0) with (IZR 1). apply IZR_le; lia.
    - apply Rle_trans with (IZR 8); [apply IZR_le; lia|]. change (IZR 8) with (bpow radix2 3). apply bp_le. lia. }
  assert (Em : measured {| rdata := [[f64_of_Z 1; nan64]; [f64_of_Z (-7); f64_of_Z 3]]; rstep_x := f64_of_Z 1; rstep_y := f64_of_Z 2 |}
    = [f64_of_Z 1; f64_of_Z (-7); f64_of_Z 3]) by reflexivity.
  split; [|split; [|split; [|split; [|split; [|split]]]]].
  - constructor; [apply le_n_S, Nat.le_0_l|apply le_n_S, Nat.le_0_l|repeat constructor].
  - split; [rewrite Em; repeat (constructor; [apply T; cbn; lia|]); constructor|].
    right. exists (f64_of_Z 1). rewrite Em. split; [left; reflexivity|]. destruct (S 1 ltac:(cbn; lia)) as [F E]. rewrite E, <- abs_IZR.
    change (IZR (Z.abs 1)) with (bpow radix2 0). apply bp_le. lia.
  - apply (St 1). lia.
  - apply (St 2). lia.
  - split; [reflexivity|]. vm_compute. repeat constructor; discriminate.
  - intros m _ _. destruct (S 1 ltac:(cbn; lia)) as [F E]. split; [exact F|]. rewrite E. change (IZR 1) with (bpow radix2 0).
    split; apply bp_le; lia.
  - vm_compute. repeat constructor; discriminate.
Qed.
