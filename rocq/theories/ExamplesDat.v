(** C78 in real numbers, and concrete MetroPro files. *)
From Coq Require Import String Ascii ZArith Lia Bool Reals Lra.
From Coq Require Import List.
From Flocq Require Import IEEE754.BinarySingleNaN IEEE754.Binary IEEE754.Bits Core.
From Verif Require Import Base ModelBytes ModelSur ModelFormats ModelReaders ModelDat SpecReaders SpecDat ProofBytes ProofReaders PropsReaders PropsMagic ProofFloat PropsSdf PropsVkValue ProofApx ProofDat PropsDat ExamplesReaders.
Import ListNotations.
Local Open Scope R_scope.

Lemma dat_res_ok k : R64 (f64_of_Z (dat_res k)) = IZR (dat_res k) /\ fin64 (f64_of_Z (dat_res k)) /\ 4096 <= IZR (dat_res k) <= 131072.
Proof.
  assert (B : (4096 <= dat_res k <= 131072)%Z) by (unfold dat_res; destruct (k =? 1)%Z; [lia|destruct (k =? 2)%Z; lia]).
  destruct (f64_of_Z_ok (dat_res k) ltac:(lia)) as [E F]. split; [exact E|]. split; [exact F|]. split; apply IZR_le; lia.
Qed.
Lemma five : (1 + e53) ^ 5 - 1 <= bpow radix2 (-50).
Proof.
  change (-50)%Z with (3 + -53)%Z. rewrite bpow_plus, <- e53_bpow. change (bpow radix2 3) with 8. pose proof e53_small as [H1 H2]. simpl.
  replace ((1 + e53) * ((1 + e53) * ((1 + e53) * ((1 + e53) * ((1 + e53) * 1)))) - 1) with (e53 * (5 + e53 * (10 + e53 * (10 + e53 * (5 + e53))))) by ring.
  rewrite (Rmult_comm 8). apply Rmult_le_compat_l; [lra|].
  assert (A : e53 * (5 + e53) <= 1) by (apply Rle_trans with (/ 1024 * 6); [apply Rmult_le_compat; lra|lra]).
  assert (A0 : 0 <= e53 * (5 + e53)) by (apply Rmult_le_pos; lra).
  assert (A' : e53 * (10 + e53 * (5 + e53)) <= 1) by (apply Rle_trans with (/ 1024 * 11); [apply Rmult_le_compat; lra|lra]).
  assert (A0' : 0 <= e53 * (10 + e53 * (5 + e53))) by (apply Rmult_le_pos; lra).
  assert (A'' : e53 * (10 + e53 * (10 + e53 * (5 + e53))) <= 1) by (apply Rle_trans with (/ 1024 * 11); [apply Rmult_le_compat; lra|lra]). lra.
Qed.
(** C78: a height is code * scale * wavelength * obliquity / resolution metres, given in micrometres, up to a relative error of 2^-50 *)
Theorem C78_dat_micrometres : forall en im (b : bytes) s l, is_file b -> read_dat en im (opened b) = Ok (s, l) ->
  Binary.is_finite 53 1024 (Single b 164) = true -> Binary.is_finite 53 1024 (Single b 168) = true -> Binary.is_finite 53 1024 (Single b 176) = true ->
  table_is (rdata s) (cn_h b) (cn_w b) (fun i j x =>
    let code := I32 b (dat_start b + (i * cn_w b + j) * 4) in
    let exact := IZR code * val (Single b 164) * val (Single b 168) * val (Single b 176) / IZR (dat_res (I16 b 218)) * 1000000 in
    (code < 2147483640)%Z -> Binary.is_finite 53 1024 x = true /\ Rabs (val x - exact) <= bpow radix2 (-50) * Rabs exact).
Proof.
  intros en im b s l Hf H F1 F2 F3. destruct (C78_dat _ _ _ _ _ Hf H) as (_ & _ & _ & _ & (T1 & T2) & _). split; [exact T1|].
  intros i Hi. destruct (T2 i Hi) as (row & R1 & R2 & R3). exists row. split; [exact R1|]. split; [exact R2|].
  intros j Hj. destruct (R3 j Hj) as (x & X1 & X2). exists x. split; [exact X1|]. cbv zeta in *. destruct X2 as [X2 _]. intros Hc. rewrite (X2 Hc). clear X2 X1 R3 R2 R1 T2 T1 H.
  set (code := I32 b _) in *.
  assert (Bc : (Z.abs code <= 2 ^ 31)%Z).
  { unfold code, I32, two_compl. match goal with |- context [uint_be 4 b ?o] => pose proof (uint_be_range 4 b o Hf) as B end. change (256 ^ Z.of_nat 4)%Z with 4294967296%Z in B.
    change (2 ^ (32 - 1))%Z with 2147483648%Z. change (2 ^ 32)%Z with 4294967296%Z. change (2 ^ 31)%Z with 2147483648%Z. destruct (Z.ltb_spec (uint_be 4 b (dat_start b + (i * cn_w b + j) * 4)) 2147483648); lia. }
  destruct (f64_of_Z_ok code ltac:(lia)) as [C1 C2]. destruct (dat_res_ok (I16 b 218)) as (D1 & D2 & D3). set (r := dat_res (I16 b 218)) in *.
  destruct pow6_ok as [P1 P2]. change (f64_of_Z 1000000) with (pow10 6).
  pose proof (apx_exact _ C2) as A0. rewrite C1 in A0. pose proof (int_sized code 31 ltac:(lia) Bc) as S0.
  pose proof (apx_mult 0 0 1 _ _ _ _ _ _ _ _ A0 (apx_exact _ F1) S0 (single_sized _ F1) eq_refl ltac:(lia) ltac:(lia) ltac:(lia) ltac:(lia)) as A1.
  pose proof (sized_mult _ _ _ _ _ _ S0 (single_sized _ F1)) as S1.
  pose proof (apx_mult 1 0 2 _ _ _ _ _ _ _ _ A1 (apx_exact _ F2) S1 (single_sized _ F2) eq_refl ltac:(lia) ltac:(lia) ltac:(lia) ltac:(lia)) as A2.
  pose proof (sized_mult _ _ _ _ _ _ S1 (single_sized _ F2)) as S2.
  pose proof (apx_mult 2 0 3 _ _ _ _ _ _ _ _ A2 (apx_exact _ F3) S2 (single_sized _ F3) eq_refl ltac:(lia) ltac:(lia) ltac:(lia) ltac:(lia)) as A3.
  pose proof (sized_mult _ _ _ _ _ _ S2 (single_sized _ F3)) as S3.
  assert (Rr : bpow radix2 12 <= Rabs (R64 (f64_of_Z r)) <= bpow radix2 17) by (rewrite D1, Rabs_pos_eq by lra; change (bpow radix2 12) with 4096; change (bpow radix2 17) with 131072; lra).
  pose proof (apx_div 3 _ _ (f64_of_Z r) _ _ 12 17 A3 D2 ltac:(rewrite D1; lra) S3 Rr ltac:(lia) ltac:(lia) ltac:(lia)) as A4. rewrite D1 in A4.
  assert (Sr : sized_r 17 (-12) (/ IZR r)).
  { right. rewrite Rabs_inv, <- D1. change (-12)%Z with (- (12))%Z. rewrite (bpow_opp radix2 17), (bpow_opp radix2 12). pose proof (bpow_gt_0 radix2 12). split; apply Rinv_le; lra. }
  pose proof (sized_mult _ _ _ _ _ _ S3 Sr) as S4.
  pose proof (apx_exact _ P2) as AP. rewrite P1 in AP. pose proof (int_sized 1000000 20 ltac:(lia) ltac:(cbn; lia)) as SP.
  pose proof (apx_mult 4 0 5 _ _ _ _ _ _ _ _ A4 AP S4 SP eq_refl ltac:(lia) ltac:(lia) ltac:(lia) ltac:(lia)) as A5.
  split; [exact (proj1 A5)|]. exact (apx_err 5 _ _ _ A5 five).
Qed.

(** format 1: one 2 x 1 intensity image, 1 x 2 phase codes, scale 1/2, wavelength 1/8, obliquity 1, lateral resolution 1/4 *)
Local Open Scope Z_scope.
Definition dat_head (comment : Z) : bytes :=
  [136; 27; 3; 111; 0; 1; 0; 0; 3; 66] ++ zeros 2 ++ zeros 30 ++ zeros 10 ++ [0; 1; 0; 2; 0; 1; 0; 9; 0; 0; 0; 4] ++ zeros 4 ++ [0; 2; 0; 1; 0; 0; 0; 8] ++ zeros 4 ++ (comment :: zeros 81) ++ zeros 2 ++
  rev (single 1 (-1)) ++ rev (single 1 (-3)) ++ zeros 4 ++ rev (single 1 0) ++ zeros 4 ++ rev (single 1 (-2)) ++ zeros 30 ++ [0; 1] ++ zeros 614.
Definition dat_file (comment : Z) : bytes := dat_head comment ++ [0; 7; 0; 9] ++ [0; 0; 1; 0] ++ [127; 255; 255; 248].
Example dat_example : is_file (dat_file 65) /\
  bit (read_dat Utf8 true (opened (dat_file 65))) = Ok ([[d 15625 (-2); bits_of_b64 nan64]], d 250000 0, d 250000 0, [("Intensity"%string, [[[7]]; [[9]]])]) /\
  Binary.is_finite 53 1024 (Single (dat_file 65) 164) = true /\ I32 (dat_file 65) 838 = 256 /\ dat_start (dat_file 65) = 838%nat /\
  is_ok (read_dat Utf8 false (opened (firstn 845 (dat_file 65)))) = false.
Proof. split; [apply bytes_ok; vm_compute; reflexivity|]. vm_compute. repeat split. Qed.
(** C79: the encoding named by the caller.  The readers of these formats decode the texts of the file in the encoding asked for; the MetroPro
    reader does not.  With a micro sign in latin-1 (byte 181) as its comment, this otherwise readable file is refused whatever encoding is named. *)
Theorem C79_dat_encoding_refuted : exists b, is_file b /\ (forall im, is_ok (read_dat Latin1 im (opened (firstn 80 b ++ [65] ++ skipn 81 b))) = true) /\
  byte b 80 = 181 /\ decode Latin1 (firstn 82 (skipn 80 b)) = Ok (181 :: repeat 0 81) /\ forall en im, is_ok (read_dat en im (opened b)) = false.
Proof.
  exists (dat_file 181). split; [apply bytes_ok; vm_compute; reflexivity|]. split; [intros []; vm_compute; reflexivity|].
  split; [vm_compute; reflexivity|]. split; [vm_compute; reflexivity|]. intros [] []; vm_compute; reflexivity.
Qed.
