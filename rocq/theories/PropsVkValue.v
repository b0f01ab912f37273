(** C74 for VK4 in real numbers: a height is code * z_length / 10^6 micrometres up to a relative error of 2^-51. *)
From Coq Require Import String Ascii ZArith Lia Bool Reals Lra.
From Coq Require Import List.
From Flocq Require Import IEEE754.BinarySingleNaN IEEE754.Binary IEEE754.Bits Core.
From Verif Require Import Base ModelBytes ModelSur ModelFormats ModelReaders ModelVk SpecReaders ProofBytes ProofReaders PropsReaders PropsVk ProofFloat PropsSdf ExamplesReaders.
Import ListNotations.
Local Open Scope R_scope.

Lemma rel_bounds x y e : 0 <= x -> Rabs (y - x) <= e * Rabs x -> (1 - e) * x <= y <= (1 + e) * x.
Proof. intros Hx H. rewrite (Rabs_pos_eq x) in H by exact Hx. apply Rabs_le_inv in H. lra. Qed.
Lemma e53_small : 0 < e53 <= / 1024. Proof. unfold e53. lra. Qed.
Lemma u6_bounds : (1 - e53) * / 1000000 <= u6 <= (1 + e53) * / 1000000.
Proof. pose proof u6_err as H. apply Rabs_le_inv in H. lra. Qed.
Lemma rnd_bounds x : bpow radix2 (-1022) <= x -> (1 - e53) * x <= rnd64 x <= (1 + e53) * x.
Proof.
  intros H. pose proof (bpow_gt_0 radix2 (-1022)). apply rel_bounds; [lra|]. unfold e53. replace (/ 9007199254740992) with (bpow radix2 (-53)) by reflexivity.
  apply rnd64_rel. rewrite Rabs_pos_eq; lra.
Qed.
Lemma tiny_le : bpow radix2 (-1022) <= / 2000000.
Proof. apply Rle_trans with (bpow radix2 (-30)); [apply bpow_le; lia|]. change (bpow radix2 (-30)) with (/ 1073741824). lra. Qed.
Lemma pow10m6_mult z : (0 <= z < 2 ^ 32)%Z ->
  let y := fmul (pow10 (-6)) (f64_of_Z z) in
  fin64 y /\ (1 - e53) * ((1 - e53) * (IZR z / 1000000)) <= R64 y <= (1 + e53) * ((1 + e53) * (IZR z / 1000000)).
Proof.
  intros Hz. destruct powm6_ok as [P1 P2]. destruct (f64_of_Z_ok z ltac:(lia)) as [Z1 Z2]. pose proof u6_bounds as U. pose proof e53_small as He.
  assert (Hz1 : 0 <= IZR z) by (apply IZR_le; lia). assert (Hz2 : IZR z <= 4294967296) by (apply IZR_le; lia).
  assert (Big : 8589934592 <= bpow radix2 1000) by (change 8589934592 with (bpow radix2 33); apply bpow_le; lia).
  destruct (b64_mult_ok (pow10 (-6)) (f64_of_Z z) P2 Z2) as [M1 M2].
  { rewrite P1, Z1. rewrite Rabs_pos_eq by (apply Rmult_le_pos; lra). apply Rle_trans with (1 * 4294967296); [apply Rmult_le_compat; lra|lra]. }
  split; [exact M2|]. unfold fmul. rewrite M1, P1, Z1.
  destruct (Z.eq_dec z 0) as [-> | Nz].
  - rewrite Rmult_0_r, rnd64_0. lra.
  - assert (1 <= IZR z) by (apply IZR_le; lia). pose proof tiny_le.
    assert (L : bpow radix2 (-1022) <= u6 * IZR z) by (apply Rle_trans with (/ 2000000 * 1); [lra|apply Rmult_le_compat; lra]).
    pose proof (rnd_bounds _ L) as Rb.
    assert ((1 - e53) * (IZR z / 1000000) <= u6 * IZR z <= (1 + e53) * (IZR z / 1000000)).
    { unfold Rdiv. split; [apply Rle_trans with ((1 - e53) * / 1000000 * IZR z); [lra|apply Rmult_le_compat_r; lra]|apply Rle_trans with ((1 + e53) * / 1000000 * IZR z); [apply Rmult_le_compat_r; lra|lra]]. }
    split; [apply Rle_trans with ((1 - e53) * (u6 * IZR z)); [apply Rmult_le_compat_l; lra|lra]|apply Rle_trans with ((1 + e53) * (u6 * IZR z)); [lra|apply Rmult_le_compat_l; lra]].
Qed.
Lemma picometres c z : (0 <= c < 2 ^ 32)%Z -> (0 <= z < 2 ^ 32)%Z ->
  Rabs (val (fmul (f64_of_Z c) (fmul (pow10 (-6)) (f64_of_Z z))) - IZR c * IZR z / 1000000) <= bpow radix2 (-51) * (IZR c * IZR z / 1000000).
Proof.
  intros Hc Hz. change val with R64. destruct (pow10m6_mult z Hz) as [F Y]. set (y := fmul (pow10 (-6)) (f64_of_Z z)) in *. pose proof e53_small as He.
  destruct (f64_of_Z_ok c ltac:(lia)) as [C1 C2].
  assert (Hc1 : 0 <= IZR c) by (apply IZR_le; lia). assert (Hc2 : IZR c <= 4294967296) by (apply IZR_le; lia).
  assert (Hz1 : 0 <= IZR z) by (apply IZR_le; lia). assert (Hz2 : IZR z <= 4294967296) by (apply IZR_le; lia).
  set (q := IZR z / 1000000) in *. assert (Hq : 0 <= q <= 4295) by (unfold q; lra).
  assert (Hy : 0 <= R64 y <= 10000).
  { split; [apply Rle_trans with ((1 - e53) * ((1 - e53) * q)); [|lra]; apply Rmult_le_pos; [lra|apply Rmult_le_pos; lra]|].
    apply Rle_trans with ((1 + e53) * ((1 + e53) * q)); [lra|]. apply Rle_trans with (1.1 * (1.1 * 4295)); [|lra].
    apply Rmult_le_compat; [lra|apply Rmult_le_pos; lra|lra|apply Rmult_le_compat; lra]. }
  assert (Big : 42949672960000 <= bpow radix2 1000) by (apply Rle_trans with (bpow radix2 50); [change (bpow radix2 50) with 1125899906842624; lra|apply bpow_le; lia]).
  destruct (b64_mult_ok (f64_of_Z c) y C2 F) as [M1 M2].
  { rewrite C1, Rabs_pos_eq by (apply Rmult_le_pos; lra). apply Rle_trans with (4294967296 * 10000); [apply Rmult_le_compat; lra|lra]. }
  unfold fmul at 1. rewrite M1, C1. replace (IZR c * IZR z / 1000000) with (IZR c * q) by (unfold q, Rdiv; ring).
  assert (B51 : bpow radix2 (-51) = 4 * e53) by (unfold e53; replace (/ 9007199254740992) with (bpow radix2 (-53)) by reflexivity; change (-51)%Z with (2 + -53)%Z; rewrite bpow_plus; reflexivity).
  rewrite B51.
  destruct (Z.eq_dec c 0) as [-> | Nc]; [rewrite !Rmult_0_l, rnd64_0, Rminus_0_r, Rabs_R0; lra|].
  destruct (Z.eq_dec z 0) as [Ez|Nz].
  { assert (Eq0 : q = 0) by (unfold q; rewrite Ez; lra). assert (Ey : R64 y = 0) by (rewrite Eq0 in Y; lra). rewrite Ey, Eq0, !Rmult_0_r, rnd64_0, Rminus_0_r, Rabs_R0. lra. }
  assert (1 <= IZR c) by (apply IZR_le; lia). assert (1 <= IZR z) by (apply IZR_le; lia). pose proof tiny_le.
  assert (Yl : / 2000000 <= R64 y).
  { apply Rle_trans with ((1 - e53) * ((1 - e53) * q)); [|lra]. apply Rle_trans with (0.9 * (0.9 * / 1000000)); [lra|].
    apply Rmult_le_compat; [lra|lra|lra|apply Rmult_le_compat; unfold q; lra]. }
  assert (L : bpow radix2 (-1022) <= IZR c * R64 y) by (apply Rle_trans with (1 * / 2000000); [lra|apply Rmult_le_compat; lra]).
  pose proof (rnd_bounds _ L) as Rb. set (r := rnd64 (IZR c * R64 y)) in *.
  assert (Hcq : 0 <= IZR c * q) by (apply Rmult_le_pos; lra). set (v := IZR c * q) in *.
  assert (Cy : (1 - e53) * ((1 - e53) * v) <= IZR c * R64 y <= (1 + e53) * ((1 + e53) * v)).
  { replace ((1 - e53) * ((1 - e53) * v)) with (IZR c * ((1 - e53) * ((1 - e53) * q))) by (unfold v; ring).
    replace ((1 + e53) * ((1 + e53) * v)) with (IZR c * ((1 + e53) * ((1 + e53) * q))) by (unfold v; ring). split; apply Rmult_le_compat_l; lra. }
  assert (R1 : (1 - e53) * ((1 - e53) * ((1 - e53) * v)) <= r <= (1 + e53) * ((1 + e53) * ((1 + e53) * v))).
  { split; [apply Rle_trans with ((1 - e53) * (IZR c * R64 y)); [apply Rmult_le_compat_l; lra|lra]|apply Rle_trans with ((1 + e53) * (IZR c * R64 y)); [lra|apply Rmult_le_compat_l; lra]]. }
  assert (U : (1 + e53) * ((1 + e53) * ((1 + e53) * v)) <= (1 + 4 * e53) * v).
  { replace ((1 + e53) * ((1 + e53) * ((1 + e53) * v))) with ((1 + 3 * e53 + e53 * (3 * e53 + e53 * e53)) * v) by ring. apply Rmult_le_compat_r; [exact Hcq|].
    assert (e53 * (3 * e53 + e53 * e53) <= e53 * 1) by (apply Rmult_le_compat_l; [lra|nra]). lra. }
  assert (Lo : (1 - 4 * e53) * v <= (1 - e53) * ((1 - e53) * ((1 - e53) * v))).
  { replace ((1 - e53) * ((1 - e53) * ((1 - e53) * v))) with ((1 - 3 * e53 + e53 * (3 * e53 - e53 * e53)) * v) by ring. apply Rmult_le_compat_r; [exact Hcq|].
    assert (0 <= e53 * (3 * e53 - e53 * e53)) by (apply Rmult_le_pos; [lra|nra]). lra. }
  apply Rabs_le. lra.
Qed.
Theorem C74_vk4_micrometres : forall en im (b : bytes) s l, is_file b -> read_vk4 en im (opened b) = Ok (s, l) ->
  let m := Z.to_nat (u32 b 12) in let o := Z.to_nat (u32 b 36) in
  let w := Z.to_nat (u32 b o) in let h := Z.to_nat (u32 b (o + 4)) in let k := Z.to_nat (u32 b (o + 8) / 8) in
  table_is (rdata s) h w (fun i j x =>
    let exact := IZR (uint k b (o + 796 + (i * w + j) * k)) * IZR (u32 b (m + 176)) / 1000000 in
    Rabs (val x - exact) <= bpow radix2 (-51) * exact).
Proof.
  intros en im b s l Hf H m o w h k. destruct (C74_vk4 _ _ _ _ _ Hf H) as (B & _ & _ & _ & _ & (T1 & T2) & _). split; [exact T1|].
  intros i Hi. destruct (T2 i Hi) as (row & R1 & R2 & R3). exists row. split; [exact R1|]. split; [exact R2|].
  intros j Hj. destruct (R3 j Hj) as (x & X1 & X2). exists x. split; [exact X1|]. rewrite X2. apply picometres.
  - pose proof (uint_range k b (o + 796 + (i * w + j) * k) Hf) as U. assert (256 ^ Z.of_nat k <= 2 ^ 32)%Z.
    { unfold k. fold o in B. destruct B as [B|B]; rewrite B; vm_compute; discriminate. } lia.
  - apply (uint_range 4 b (m + 176) Hf).
Qed.

(** A file: offset table, measurement conditions at 80, strings at 384, heights at 400 (2 x 1 points of 16 bits), colour images at 1200,
    laser image at 1230. *)
Local Open Scope Z_scope.
Definition vk_file : bytes :=
  str "VK4_" ++ zeros 8 ++ i4 80 ++ i4 1200 ++ i4 1200 ++ i4 1226 ++ zeros 8 ++ i4 400 ++ zeros 8 ++ zeros 28 ++ i4 384 ++
  (i4 0 ++ i4 2020 ++ i4 2 ++ i4 29 ++ i4 23 ++ i4 59 ++ i4 59 ++ zeros 140 ++ i4 2000000 ++ i4 3000000 ++ i4 500000 ++ zeros 124) ++
  (i4 1 ++ [65; 0] ++ i4 0 ++ zeros 6) ++
  (i4 1 ++ i4 2 ++ i4 16 ++ zeros 4 ++ i4 4 ++ zeros 8 ++ zeros 768 ++ [4; 0] ++ [0; 1]) ++
  (i4 1 ++ i4 2 ++ i4 24 ++ zeros 4 ++ i4 6 ++ [1; 2; 3; 4; 5; 6]) ++
  (i4 1 ++ i4 1 ++ i4 32 ++ zeros 4 ++ i4 4 ++ zeros 8 ++ zeros 768 ++ [7; 0; 0; 1]).
Example vk_example : is_file vk_file /\
  bit (read_vk4 Auto true (opened vk_file)) = Ok ([[d 2 0]; [d 128 0]], d 2 0, d 3 0,
    [("RGB"%string, [[[3; 2; 1]]; [[6; 5; 4]]]); ("Laser+RGB"%string, [[[3; 2; 1]]; [[6; 5; 4]]]); ("Laser"%string, [[[16777223]]])]) /\
  is_ok (read_vk4 Auto false (opened (firstn 1199 vk_file))) = false /\
  is_ok (read_vk4 Auto false (opened (firstn 1200 vk_file))) = true.
Proof. split; [apply bytes_ok; vm_compute; reflexivity|]. vm_compute. repeat split. Qed.
(** VK6 and VK7 files: the surface is that of the VK4 file the archive holds under the name Vk4File; without it, the archive's error. *)
Theorem C74_vk67 : forall zip en im (b : bytes),
  (forall v s l, zip "Vk4File"%string b = Ok v -> read_vk4 en im (opened v) = Ok (s, l) -> read_vk67 zip en im b = Ok (s, l)) /\
  (forall e, zip "Vk4File"%string b = Err e -> read_vk67 zip en im b = Err e) /\
  (forall s l, read_vk67 zip en im b = Ok (s, l) -> exists v, zip "Vk4File"%string b = Ok v /\ read_vk4 en im (opened v) = Ok (s, l)).
Proof.
  intros zip en im b. unfold read_vk67. destruct (zip "Vk4File"%string b) as [v|e] eqn:E; cbn [rbind].
  - split; [intros v' s l [= <-] H; exact H|]. split; [congruence|]. intros s l H. exists v. split; [reflexivity|exact H].
  - split; [congruence|]. split; [intros e' [= <-]; reflexivity|congruence].
Qed.
