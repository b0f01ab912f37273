(** C74 to C77 for NMS files (surfalize/file/nms.py). *)
From Coq Require Import String Ascii ZArith Lia Bool Reals Lra.
From Coq Require Import List.
From Flocq Require Import IEEE754.BinarySingleNaN IEEE754.Binary IEEE754.Bits Core.
From Verif Require Import Base ModelBytes ModelSur ModelFormats ModelReaders SpecReaders ProofBytes ProofReaders PropsMagic PropsLayout PropsReaders ProofFloat.
Import ListNotations.
Local Open Scope Z_scope.

(** C74: the heights are the 16-bit codes behind the 3468-byte header, row by row, scaled with the two heights stored at
    16 and 24; the steps stored at 1376 and 1384 are nanometres. *)
Theorem C74_nms : forall pd en im (b : bytes) s l, is_file b -> read_nms pd en im (opened b) = Ok (s, l) ->
  let nx := Z.to_nat (u32 b 1368) in let ny := Z.to_nat (u32 b 1372) in let zmin := f64_at b 16 in let zmax := f64_at b 24 in
  (1392 <= length b)%nat /\ (ny * nx <> 0 -> 3468 + 2 * (ny * nx) <= length b)%nat /\
  table_is (rdata s) ny nx (fun i j h =>
    h = fadd (fmul (fdiv (f64_of_Z (u16 b (3468 + (i * nx + j) * 2))) (f64_of_Z 65534)) (fsub zmax zmin)) zmax) /\
  rstep_x s = fmul (f64_at b 1376) (pow10 (-3)) /\ rstep_y s = fmul (f64_at b 1384) (pow10 (-3)).
Proof.
  intros pd en im b s l Hf H nx ny zmin zmax. apply nms_inv in H as ((L & C & _) & -> & _); [|exact Hf].
  split; [exact L|]. split; [exact C|]. split; [|split; reflexivity]. unfold nms_surface. cbn [rdata]. apply grid_is. reflexivity.
Qed.
Theorem C74_nms_reads : forall pd en (b : bytes), is_file b ->
  (3468 + 2 * (Z.to_nat (u32 b 1372) * Z.to_nat (u32 b 1368)) <= length b)%nat ->
  (exists s, decode en (firstn 16 (skipn 1076 b)) = Ok s /\ pd s = Ok tt) ->
  exists s, read_nms pd en false (opened b) = Ok (s, []).
Proof. intros pd en b Hf L D. exists (nms_surface b). apply nms_ok; [exact Hf|]. split; [lia|]. split; [intros _; exact L|exact D]. Qed.

Theorem C75_nms_cut : forall pd en im im' (b : bytes) s l k, is_file b -> read_nms pd en im (opened b) = Ok (s, l) ->
  let n := (Z.to_nat (u32 b 1372) * Z.to_nat (u32 b 1368))%nat in n <> 0%nat -> (k < 3468 + 2 * n)%nat ->
  is_ok (read_nms pd en im' (opened (firstn k b))) = false.
Proof.
  intros pd en im im' b s l k Hf H n Hn Hk. apply nms_inv in H as ((L & C & _) & _); [|exact Hf]. specialize (C Hn). fold n in C.
  destruct (read_nms pd en im' (opened (firstn k b))) as [[s' l']|ex] eqn:E; [exfalso|reflexivity].
  apply nms_inv in E as ((L' & C' & _) & _); [|apply is_file_firstn; exact Hf].
  rewrite firstn_length in L', C'. rewrite !u32_firstn in C' by lia. fold n in C'. specialize (C' Hn). lia.
Qed.
Theorem C75_nms_trailing : forall pd en (b t : bytes) s, is_file (b ++ t) -> read_nms pd en false (opened b) = Ok (s, []) ->
  read_nms pd en false (opened (b ++ t)) = Ok (s, []).
Proof.
  intros pd en b t s Hf H. assert (Hb : is_file b) by (apply Forall_app in Hf; apply Hf).
  apply nms_inv in H as ((L & C & D) & -> & _); [|exact Hb].
  assert (U : forall n o, (n + o <= 1392)%nat -> uint n (b ++ t) o = uint n b o) by (intros n o Ho; apply uint_app; lia).
  rewrite nms_ok; [|exact Hf|].
  - do 2 f_equal. unfold nms_surface, u32, f64_at. rewrite !U by lia. f_equal. apply grid_ext'. intros i j Hi Hj. unfold u32 in C.
    assert (K : (Z.to_nat (uint 4 b 1372) * Z.to_nat (uint 4 b 1368) <> 0)%nat) by nia. specialize (C K).
    f_equal. unfold u16. apply uint_app. apply (item_in 2 (Z.to_nat (uint 4 b 1372))); auto. lia.
  - unfold nms_complete, u32. rewrite !U by lia. rewrite app_length. split; [lia|]. split; [intros K; specialize (C K); unfold u32 in C; lia|].
    rewrite slice_app by lia. exact D.
Qed.

Theorem C76_nms_heights : forall pd en (b : bytes) s l, is_file b -> read_nms pd en true (opened b) = Ok (s, l) ->
  read_nms pd en false (opened b) = Ok (s, []).
Proof. intros pd en b s l Hf H. apply nms_inv in H as (C & -> & _); [|exact Hf]. apply nms_ok; assumption. Qed.
(** a square file: the image stored behind the heights, one byte per point *)
Theorem C76_nms_square : forall pd en (b : bytes) s l, is_file b -> u32 b 1368 = u32 b 1372 -> read_nms pd en true (opened b) = Ok (s, l) ->
  let n := Z.to_nat (u32 b 1372) in
  exists img, l = [("Grayscale"%string, img)] /\ table_is img n n (fun i j p => p = [byte b (3468 + 2 * (n * n) + (i * n + j))]).
Proof.
  intros pd en b s l Hf Q H n. pose proof (u32_nonneg b 1372 Hf) as N2.
  apply nms_inv in H as (C & -> & (its & m & R1 & img & R2 & ->)); [|exact Hf]. rewrite Q in R1. fold n in R1, R2.
  exists (map (map (fun v => [v])) img). split; [reflexivity|].
  destruct (table_read item_u 0 1 (u32 b 1372) (u32 b 1372) b _ its m img ltac:(lia) N2 N2 R1 R2) as (T1 & T2 & ->). fold n in T1, T2 |- *.
  rewrite T2, grid_map.
  apply grid_is. intros i j Hi Hj. unfold item_u. rewrite unle_slice by (destruct T1 as [T1|T1]; [nia|apply (item_in 1 n); auto; lia]).
  cbn [uint]. rewrite Z.mul_0_r, Z.add_0_r. do 2 f_equal. lia.
Qed.
(** Refuted for every other file: a complete file (heights and image) that is not square cannot be read with its image layer,
    because the image is laid out as ny by ny although it has ny * nx pixels. *)
Theorem C76_nms_not_square_refuted : forall pd en (b : bytes), is_file b ->
  let nx := Z.to_nat (u32 b 1368) in let ny := Z.to_nat (u32 b 1372) in
  u32 b 1368 <> u32 b 1372 -> (0 < ny)%nat -> (3468 + 3 * (ny * nx) <= length b)%nat ->
  is_ok (read_nms pd en true (opened b)) = false.
Proof.
  intros pd en b Hf nx ny Q P L. pose proof (u32_nonneg b 1368 Hf) as N1. pose proof (u32_nonneg b 1372 Hf) as N2.
  destruct (read_nms pd en true (opened b)) as [[s l]|] eqn:E; [exfalso|reflexivity].
  apply nms_inv in E as (_ & _ & (its & m & R1 & img & R2 & _)); [|exact Hf]. fold nx ny in R1, R2.
  apply reshape_inv with (d := 0) in R2 as (R2 & _). rewrite map_length in R2.
  destruct (Nat.eq_dec nx 0) as [E0|E0].
  - assert (Ez : u32 b 1368 = 0) by (subst nx; lia). rewrite Ez in R1. cbn [Z.mul] in R1. rewrite read_items_0 in R1 by lia. apply ok_inj in R1.
    injection R1 as <- _. cbn [length] in R2. nia.
  - assert (Pz : u32 b 1368 * u32 b 1372 = Z.of_nat (ny * nx)) by (subst nx ny; rewrite Nat2Z.inj_mul, !Z2Nat.id by lia; lia).
    rewrite Pz, read_items_ok in R1 by lia. apply ok_inj in R1.
    assert (K : length its = (ny * nx)%nat) by (apply (f_equal fst) in R1; cbn [fst] in R1; rewrite <- R1, items_length; lia).
    assert (nx = ny) by nia. apply Q. subst nx ny. lia.
Qed.

(** ** C77: what the stored codes mean *)
Local Open Scope R_scope.
Lemma nms_parts zmin zmax c : fin64 zmin -> fin64 zmax -> Rabs (val zmin) <= bpow radix2 900 -> Rabs (val zmax) <= bpow radix2 900 ->
  (0 <= c < 65536)%Z ->
  let q := rnd64 (IZR c / 65534) in let d := rnd64 (val zmax - val zmin) in
  let h := fadd (fmul (fdiv (f64_of_Z c) (f64_of_Z 65534)) (fsub zmax zmin)) zmax in
  0 <= q <= 2 /\ Rabs d <= bpow radix2 901 /\ val h = rnd64 (rnd64 (q * d) + val zmax) /\ fin64 h.
Proof.
  intros F1 F2 B1 B2 Hc q d h. change (val zmin) with (R64 zmin) in *. change (val zmax) with (R64 zmax) in *.
  destruct (f64_of_Z_ok c ltac:(lia)) as [C1 C2]. destruct (f64_of_Z_ok 65534 ltac:(lia)) as [K1 K2].
  assert (Qr : 0 <= IZR c / 65534 <= 2).
  { destruct Hc as [H1 H2]. apply IZR_le in H1. assert (H3 : (c <= 65535)%Z) by lia. apply IZR_le in H3. split.
    - apply Rmult_le_pos; [exact H1|lra].
    - apply Rmult_le_reg_r with 65534; [lra|]. unfold Rdiv. rewrite Rmult_assoc, Rinv_l by lra. lra. }
  assert (Big : bpow radix2 901 = 2 * bpow radix2 900) by (change 901%Z with (1 + 900)%Z; rewrite bpow_plus; reflexivity).
  assert (Big2 : bpow radix2 902 = 2 * bpow radix2 901) by (change 902%Z with (1 + 901)%Z; rewrite bpow_plus; reflexivity).
  assert (Big3 : bpow radix2 903 = 2 * bpow radix2 902) by (change 903%Z with (1 + 902)%Z; rewrite bpow_plus; reflexivity).
  assert (Bk : bpow radix2 903 <= bpow radix2 1000) by (apply bpow_le; lia).
  pose proof (bpow_gt_0 radix2 900) as P. assert (P2 : 2 <= bpow radix2 900) by (change 2 with (bpow radix2 1); apply bpow_le; lia).
  destruct (b64_div_ok (f64_of_Z c) (f64_of_Z 65534)) as [D1 D2]; [exact C2|rewrite K1; lra|rewrite C1, K1, Rabs_pos_eq; lra|].
  rewrite C1, K1 in D1. fold q in D1.
  assert (Qq : 0 <= q <= 2).
  { split; [rewrite <- rnd64_0; apply rnd64_le; lra|]. replace 2 with (rnd64 2) by (apply (rnd64_IZR 2); lia). apply rnd64_le. lra. }
  destruct (b64_minus_ok zmax zmin F2 F1) as [M1 M2]; [apply Rabs_le_inv in B1, B2; apply Rabs_le; lra|]. fold d in M1.
  assert (Hd : Rabs d <= bpow radix2 901) by (apply rnd64_abs_le; [lia|apply Rabs_le_inv in B1, B2; apply Rabs_le; lra]).
  destruct (b64_mult_ok (fdiv (f64_of_Z c) (f64_of_Z 65534)) (fsub zmax zmin)) as [X1 X2]; auto.
  { unfold fdiv, fsub. rewrite D1, M1, Rabs_mult, (Rabs_pos_eq q) by lra. pose proof (Rabs_pos d). nra. }
  unfold fdiv, fsub in X1. rewrite D1, M1 in X1.
  assert (Hx : Rabs (rnd64 (q * d)) <= bpow radix2 902).
  { apply rnd64_abs_le; [lia|]. rewrite Rabs_mult, (Rabs_pos_eq q) by lra. pose proof (Rabs_pos d). nra. }
  destruct (b64_plus_ok (fmul (fdiv (f64_of_Z c) (f64_of_Z 65534)) (fsub zmax zmin)) zmax) as [A1 A2]; auto.
  { unfold fmul, fdiv, fsub. rewrite X1. apply Rabs_le_inv in Hx, B2. apply Rabs_le. lra. }
  unfold fmul, fdiv, fsub in A1. rewrite X1 in A1.
  split; [exact Qq|]. split; [exact Hd|]. split; [exact A1|exact A2].
Qed.

Section Range.
Variables (pd : pystr -> res unit) (en : encoding) (im : bool) (b : bytes) (s : raw) (l : image_layers).
Hypothesis Hfile : is_file b.
Hypothesis Hread : read_nms pd en im (opened b) = Ok (s, l).
Let zmin := f64_at b 16.
Let zmax := f64_at b 24.
Hypothesis Hfin : fin64 zmin /\ fin64 zmax /\ Rabs (val zmin) <= bpow radix2 900 /\ Rabs (val zmax) <= bpow radix2 900.
Let nx := Z.to_nat (u32 b 1368).
Let ny := Z.to_nat (u32 b 1372).
Lemma code_range i j : (0 <= u16 b (3468 + (i * nx + j) * 2) < 65536)%Z.
Proof. pose proof (uint_range 2 b (3468 + (i * nx + j) * 2) Hfile) as H. exact H. Qed.
(** Each height is zmax + code/65534 * (zmax - zmin), up to rounding. *)
Theorem C77_nms_scaling :
  table_is (rdata s) ny nx (fun i j h =>
    Rabs (val h - (val zmax + IZR (u16 b (3468 + (i * nx + j) * 2)) / 65534 * (val zmax - val zmin)))
      <= bpow radix2 (-49) * (Rabs (val zmin) + Rabs (val zmax)) + bpow radix2 (-1074)).
Proof.
  destruct Hfin as (F1 & F2 & B1 & B2).
  destruct (C74_nms _ _ _ _ _ _ Hfile Hread) as (_ & _ & (T1 & T2) & _). split; [exact T1|]. intros i Hi. destruct (T2 i Hi) as (row & R1 & R2 & R3).
  exists row. split; [exact R1|]. split; [exact R2|]. intros j Hj. destruct (R3 j Hj) as (h & H1 & H2). exists h. split; [exact H1|].
  fold zmin zmax nx in H2 |- *. pose proof (code_range i j) as Hc. set (c := u16 b (3468 + (i * nx + j) * 2)) in *.
  destruct (nms_parts zmin zmax c F1 F2 B1 B2 Hc) as (Q & D & V & _). rewrite <- H2 in V. rewrite V.
  set (M := Rabs (val zmin) + Rabs (val zmax)). set (Dr := val zmax - val zmin) in *. set (d := rnd64 Dr) in *.
  set (Qr := IZR c / 65534) in *. set (q := rnd64 Qr) in *.
  assert (Qb : 0 <= Qr <= 2).
  { unfold Qr. destruct Hc as [K1 K2]. apply IZR_le in K1. assert (K3 : (c <= 65535)%Z) by lia. apply IZR_le in K3. split.
    - apply Rmult_le_pos; [exact K1|lra].
    - apply Rmult_le_reg_r with 65534; [lra|]. unfold Rdiv. rewrite Rmult_assoc, Rinv_l by lra. lra. }
  set (u := bpow radix2 (-53)). assert (Hu : 0 < u <= / 1024) by (split; [apply bpow_gt_0|change (/ 1024) with (bpow radix2 (-10)); apply bpow_le; lia]).
  assert (E49 : bpow radix2 (-49) = 16 * u) by (change (-49)%Z with (4 + -53)%Z; rewrite bpow_plus; reflexivity).
  assert (E74 : bpow radix2 (-1074) = 2 * bpow radix2 (-1075)) by (change (-1074)%Z with (1 + -1075)%Z; rewrite bpow_plus; reflexivity).
  assert (Eq : Rabs (q - Qr) <= 2 * u).
  { destruct (Req_dec Qr 0) as [E0|E0].
    - unfold q. rewrite E0, rnd64_0, Rminus_0_r, Rabs_R0. lra.
    - eapply Rle_trans; [apply rnd64_rel|fold u; rewrite Rabs_pos_eq by lra; nra].
      rewrite Rabs_pos_eq by lra. assert (c <> 0)%Z by (intros ->; apply E0; unfold Qr; lra). assert (C1 : (1 <= c)%Z) by lia. apply IZR_le in C1.
      apply Rle_trans with (bpow radix2 (-16)); [apply bpow_le; lia|]. change (bpow radix2 (-16)) with (/ 65536). unfold Qr, Rdiv.
      apply Rle_trans with (1 * / 65534); [rewrite Rmult_1_l; apply Rinv_le_contravar; lra|apply Rmult_le_compat_r; lra]. }
  assert (Ed : Rabs (d - Dr) <= u * Rabs Dr) by (apply (rnd64_minus zmax zmin)).
  assert (HD : Rabs Dr <= M) by (unfold Dr, M; replace (Rabs (val zmin)) with (Rabs (- val zmin)) by apply Rabs_Ropp; unfold Rminus; rewrite Rplus_comm; apply Rabs_triang).
  assert (Hd : Rabs d <= 2 * M).
  { replace d with (Dr + (d - Dr)) by ring. eapply Rle_trans; [apply Rabs_triang|]. pose proof (Rabs_pos Dr). nra. }
  assert (Hqd : Rabs (q * d) <= 4 * M) by (rewrite Rabs_mult, (Rabs_pos_eq q) by lra; pose proof (Rabs_pos d); nra).
  pose proof (rnd64_err (q * d)) as Ep. fold u in Ep. set (p := rnd64 (q * d)) in *. set (t := bpow radix2 (-1075)) in *.
  assert (Ht : 0 < t) by apply bpow_gt_0.
  assert (Eprod : Rabs (q * d - Qr * Dr) <= 6 * u * M).
  { replace (q * d - Qr * Dr) with ((q - Qr) * d + Qr * (d - Dr)) by ring. eapply Rle_trans; [apply Rabs_triang|]. rewrite !Rabs_mult, (Rabs_pos_eq Qr) by lra.
    pose proof (Rabs_pos (q - Qr)). pose proof (Rabs_pos d). pose proof (Rabs_pos (d - Dr)).
    assert (Rabs (q - Qr) * Rabs d <= (2 * u) * (2 * M)) by (apply Rmult_le_compat; assumption).
    assert (Qr * Rabs (d - Dr) <= 2 * (u * M)) by (apply Rmult_le_compat; [lra|assumption|lra|nra]). lra. }
  assert (Es : Rabs (rnd64 (p + val zmax) - (p + val zmax)) <= u * Rabs (p + val zmax)).
  { destruct (f64_of_Z_ok c ltac:(lia)) as [C1 C2]. destruct (f64_of_Z_ok 65534 ltac:(lia)) as [K1 K2].
    assert (Fp : exists x, R64 x = p).
    { assert (Big : bpow radix2 901 = 2 * bpow radix2 900) by (change 901%Z with (1 + 900)%Z; rewrite bpow_plus; reflexivity).
      assert (Big2 : bpow radix2 902 = 2 * bpow radix2 901) by (change 902%Z with (1 + 901)%Z; rewrite bpow_plus; reflexivity).
      assert (Bk : bpow radix2 902 <= bpow radix2 1000) by (apply bpow_le; lia). pose proof (bpow_gt_0 radix2 900) as P.
      assert (P2 : 2 <= bpow radix2 900) by (change 2 with (bpow radix2 1); apply bpow_le; lia).
      destruct (b64_div_ok (f64_of_Z c) (f64_of_Z 65534)) as [D1 D2]; [exact C2|rewrite K1; lra|rewrite C1, K1; fold Qr; rewrite Rabs_pos_eq; lra|].
      rewrite C1, K1 in D1. fold Qr q in D1.
      destruct (b64_minus_ok zmax zmin F2 F1) as [M1 M2]; [change (R64 zmax) with (val zmax); change (R64 zmin) with (val zmin); apply Rabs_le_inv in B1, B2; apply Rabs_le; lra|].
      change (R64 zmax - R64 zmin) with Dr in M1. fold d in M1.
      destruct (b64_mult_ok (b64_div mode_NE (f64_of_Z c) (f64_of_Z 65534)) (b64_minus mode_NE zmax zmin) D2 M2) as [X1 _].
      { rewrite D1, M1, Rabs_mult, (Rabs_pos_eq q) by lra. pose proof (Rabs_pos d). nra. }
      rewrite D1, M1 in X1. eauto. }
    destruct Fp as (x & <-). apply (rnd64_plus x zmax). }
  assert (Hp : Rabs p <= 4 * M + (4 * u * M + t)) by (replace p with (q * d + (p - q * d)) by ring; eapply Rle_trans; [apply Rabs_triang|]; nra).
  assert (Hs : Rabs (p + val zmax) <= Rabs p + M) by (eapply Rle_trans; [apply Rabs_triang|]; pose proof (Rabs_pos (val zmin)); unfold M; lra).
  replace (rnd64 (p + val zmax) - (val zmax + Qr * Dr)) with ((rnd64 (p + val zmax) - (p + val zmax)) + ((p - q * d) + (q * d - Qr * Dr))) by ring.
  eapply Rle_trans; [apply Rabs_triang|]. assert (Tr := Rabs_triang (p - q * d) (q * d - Qr * Dr)).
  assert (Hm : 0 <= M) by (unfold M; pose proof (Rabs_pos (val zmin)); pose proof (Rabs_pos (val zmax)); lra).
  assert (S1 : Rabs (p - q * d) <= 4 * u * M + t) by nra.
  assert (S2 : u * Rabs (p + val zmax) <= u * (5 * M + (4 * u * M + t))) by (apply Rmult_le_compat_l; lra).
  assert (S3 : u * (4 * u * M) <= u * M) by (apply Rmult_le_compat_l; nra). assert (S4 : u * t <= t) by nra.
  rewrite E49, E74. nra.
Qed.
(** "Heights lie between the stored minimum and maximum" is false: none lies below the maximum (and only code 0 can give the
    maximum itself). *)
Theorem C77_nms_range_refuted : val zmin <= val zmax ->
  table_is (rdata s) ny nx (fun i j h => val zmax <= val h).
Proof.
  intros Ho. destruct Hfin as (F1 & F2 & B1 & B2).
  destruct (C74_nms _ _ _ _ _ _ Hfile Hread) as (_ & _ & (T1 & T2) & _). split; [exact T1|]. intros i Hi. destruct (T2 i Hi) as (row & R1 & R2 & R3).
  exists row. split; [exact R1|]. split; [exact R2|]. intros j Hj. destruct (R3 j Hj) as (h & H1 & H2). exists h. split; [exact H1|].
  fold zmin zmax nx in H2. pose proof (code_range i j) as Hc.
  destruct (nms_parts zmin zmax _ F1 F2 B1 B2 Hc) as (Q & D & V & _). rewrite <- H2 in V. rewrite V.
  assert (Hd : 0 <= rnd64 (val zmax - val zmin)) by (rewrite <- rnd64_0; apply rnd64_le; lra).
  assert (Hp : 0 <= rnd64 (rnd64 (IZR (u16 b (3468 + (i * nx + j) * 2)) / 65534) * rnd64 (val zmax - val zmin))).
  { rewrite <- rnd64_0 at 1. apply rnd64_le. apply Rmult_le_pos; lra. }
  rewrite <- (rnd64_id zmax) at 1. apply rnd64_le. change (R64 zmax) with (val zmax). lra.
Qed.
End Range.
