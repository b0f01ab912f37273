(** IEEE arithmetic, related to real arithmetic with rounding to nearest even. *)
From Coq Require Import ZArith Reals Lia Lra Psatz.
From Flocq Require Import Core.Core.
Require Import Flocq.Prop.Relative Flocq.Prop.Plus_error.
From Flocq Require Import IEEE754.BinarySingleNaN IEEE754.Binary IEEE754.Bits.
From Verif Require Import ModelBytes.
Local Open Scope R_scope.

Definition R64 (x : f64) : R := Binary.B2R 53 1024 x.
Definition R32 (x : f32) : R := Binary.B2R 24 128 x.
Definition fin64 (x : f64) : Prop := Binary.is_finite 53 1024 x = true.
Definition fin32 (x : f32) : Prop := Binary.is_finite 24 128 x = true.
Definition nan64b (x : f64) : bool := Binary.is_nan 53 1024 x.
(** rounding to the nearest double / single, ties to even *)
Definition rnd64 (x : R) : R := round radix2 (FLT_exp (-1074) 53) ZnearestE x.
Definition rnd32 (x : R) : R := round radix2 (FLT_exp (-149) 24) ZnearestE x.

Global Instance FHp53 : Prec_gt_0 53. Proof. reflexivity. Qed.
Global Instance FHp24 : Prec_gt_0 24. Proof. reflexivity. Qed.

Lemma format64 x : generic_format radix2 (FLT_exp (-1074) 53) (R64 x).
Proof. apply (Binary.generic_format_B2R 53 1024). Qed.
Lemma format32 x : generic_format radix2 (FLT_exp (-149) 24) (R32 x).
Proof. apply (Binary.generic_format_B2R 24 128). Qed.
Lemma rnd64_id x : rnd64 (R64 x) = R64 x.
Proof. apply round_generic; [auto with typeclass_instances|apply format64]. Qed.
Lemma rnd32_id x : rnd32 (R32 x) = R32 x.
Proof. apply round_generic; [auto with typeclass_instances|apply format32]. Qed.
Lemma rnd64_le x y : x <= y -> rnd64 x <= rnd64 y.
Proof. apply round_le; auto with typeclass_instances. Qed.
Lemma rnd32_le x y : x <= y -> rnd32 x <= rnd32 y.
Proof. apply round_le; auto with typeclass_instances. Qed.
Lemma rnd64_0 : rnd64 0 = 0.
Proof. apply round_0; auto with typeclass_instances. Qed.
Lemma rnd32_0 : rnd32 0 = 0.
Proof. apply round_0; auto with typeclass_instances. Qed.
Lemma rnd64_opp x : rnd64 (- x) = - rnd64 x.
Proof. apply round_NE_opp. Qed.
Lemma rnd32_opp x : rnd32 (- x) = - rnd32 x.
Proof. apply round_NE_opp. Qed.

Lemma rnd64_IZR z : (Z.abs z <= 2 ^ 53)%Z -> rnd64 (IZR z) = IZR z.
Proof.
  intros H. apply round_generic; [auto with typeclass_instances|].
  destruct (Z.eq_dec (Z.abs z) (2 ^ 53)) as [E|Hn].
  - assert (Hc : z = (2 ^ 53)%Z \/ z = (- 2 ^ 53)%Z) by lia.
    assert (G : generic_format radix2 (FLT_exp (-1074) 53) (IZR (2 ^ 53))).
    { change (IZR (2 ^ 53)) with (bpow radix2 53). apply generic_format_bpow. unfold FLT_exp. lia. }
    destruct Hc as [-> | ->]; [exact G|]. rewrite opp_IZR. apply generic_format_opp, G.
  - apply generic_format_FLT. exists (Float radix2 z 0); cbn; [unfold F2R; cbn; lra|lia|lia].
Qed.
Lemma rnd64_bpow e : (-1074 <= e)%Z -> rnd64 (bpow radix2 e) = bpow radix2 e.
Proof.
  intros H. apply round_generic; [auto with typeclass_instances|].
  apply generic_format_bpow. unfold FLT_exp. lia.
Qed.
Lemma rnd32_bpow e : (-149 <= e)%Z -> rnd32 (bpow radix2 e) = bpow radix2 e.
Proof.
  intros H. apply round_generic; [auto with typeclass_instances|].
  apply generic_format_bpow. unfold FLT_exp. lia.
Qed.
Lemma rnd64_abs_le x e : (-1074 <= e)%Z -> Rabs x <= bpow radix2 e -> Rabs (rnd64 x) <= bpow radix2 e.
Proof.
  intros He H. apply Rabs_le_inv in H. apply Rabs_le. split.
  - rewrite <- (rnd64_bpow e He), <- rnd64_opp. apply rnd64_le. lra.
  - rewrite <- (rnd64_bpow e He). apply rnd64_le. lra.
Qed.
Lemma rnd32_abs_le x e : (-149 <= e)%Z -> Rabs x <= bpow radix2 e -> Rabs (rnd32 x) <= bpow radix2 e.
Proof.
  intros He H. apply Rabs_le_inv in H. apply Rabs_le. split.
  - rewrite <- (rnd32_bpow e He), <- rnd32_opp. apply rnd32_le. lra.
  - rewrite <- (rnd32_bpow e He). apply rnd32_le. lra.
Qed.

(** rounding errors *)
Lemma rnd64_err x : Rabs (rnd64 x - x) <= bpow radix2 (-53) * Rabs x + bpow radix2 (-1075).
Proof.
  destruct (error_N_FLT radix2 (-1074) 53 ltac:(lia) (fun x => negb (Z.even x)) x) as (e & h & He & Hh & _ & E).
  unfold rnd64. rewrite E.
  replace (x * (1 + e) + h - x) with (e * x + h) by ring.
  eapply Rle_trans; [apply Rabs_triang|]. rewrite Rabs_mult.
  assert (B1 : / 2 * bpow radix2 (- (53) + 1) = bpow radix2 (-53)).
  { change (/ 2) with (bpow radix2 (-1)). rewrite <- bpow_plus. reflexivity. }
  assert (B2 : / 2 * bpow radix2 (-1074) = bpow radix2 (-1075)).
  { change (/ 2) with (bpow radix2 (-1)). rewrite <- bpow_plus. reflexivity. }
  rewrite B1 in He. rewrite B2 in Hh.
  apply Rplus_le_compat; [|exact Hh]. apply Rmult_le_compat_r; [apply Rabs_pos|exact He].
Qed.
Lemma rnd32_err x : Rabs (rnd32 x - x) <= bpow radix2 (-24) * Rabs x + bpow radix2 (-150).
Proof.
  destruct (error_N_FLT radix2 (-149) 24 ltac:(lia) (fun x => negb (Z.even x)) x) as (e & h & He & Hh & _ & E).
  unfold rnd32. rewrite E.
  replace (x * (1 + e) + h - x) with (e * x + h) by ring.
  eapply Rle_trans; [apply Rabs_triang|]. rewrite Rabs_mult.
  assert (B1 : / 2 * bpow radix2 (- (24) + 1) = bpow radix2 (-24)).
  { change (/ 2) with (bpow radix2 (-1)). rewrite <- bpow_plus. reflexivity. }
  assert (B2 : / 2 * bpow radix2 (-149) = bpow radix2 (-150)).
  { change (/ 2) with (bpow radix2 (-1)). rewrite <- bpow_plus. reflexivity. }
  rewrite B1 in He. rewrite B2 in Hh.
  apply Rplus_le_compat; [|exact Hh]. apply Rmult_le_compat_r; [apply Rabs_pos|exact He].
Qed.
(** without the underflow term in the normal range *)
Lemma rnd64_rel x : bpow radix2 (-1022) <= Rabs x -> Rabs (rnd64 x - x) <= bpow radix2 (-53) * Rabs x.
Proof.
  intros H. pose proof (relative_error_N_FLT radix2 (-1074) 53 ltac:(lia) (fun x => negb (Z.even x)) x H) as E.
  assert (B1 : / 2 * bpow radix2 (- (53) + 1) = bpow radix2 (-53)).
  { change (/ 2) with (bpow radix2 (-1)). rewrite <- bpow_plus. reflexivity. }
  rewrite B1 in E. exact E.
Qed.
Lemma rnd32_rel x : bpow radix2 (-126) <= Rabs x -> Rabs (rnd32 x - x) <= bpow radix2 (-24) * Rabs x.
Proof.
  intros H. pose proof (relative_error_N_FLT radix2 (-149) 24 ltac:(lia) (fun x => negb (Z.even x)) x H) as E.
  assert (B1 : / 2 * bpow radix2 (- (24) + 1) = bpow radix2 (-24)).
  { change (/ 2) with (bpow radix2 (-1)). rewrite <- bpow_plus. reflexivity. }
  rewrite B1 in E. exact E.
Qed.
(** sums of doubles have no underflow error *)
Lemma rnd64_plus x y : Rabs (rnd64 (R64 x + R64 y) - (R64 x + R64 y)) <= bpow radix2 (-53) * Rabs (R64 x + R64 y).
Proof.
  destruct (FLT_plus_error_N_ex radix2 (-1074) 53 (fun x => negb (Z.even x)) _ _ (format64 x) (format64 y)) as (e & He & E).
  unfold rnd64. rewrite E. set (s := R64 x + R64 y).
  replace (s * (1 + e) - s) with (e * s) by ring. rewrite Rabs_mult.
  apply Rmult_le_compat_r; [apply Rabs_pos|]. eapply Rle_trans; [exact He|].
  unfold u_ro. assert (B1 : / 2 * bpow radix2 (- (53) + 1) = bpow radix2 (-53)).
  { change (/ 2) with (bpow radix2 (-1)). rewrite <- bpow_plus. reflexivity. }
  rewrite B1. pose proof (bpow_gt_0 radix2 (-53)).
  apply Rmult_le_reg_r with (1 + bpow radix2 (-53)); [lra|]. unfold Rdiv. rewrite Rmult_assoc, Rinv_l by lra. nra.
Qed.
Lemma R64_opp_ex x : exists y, R64 y = - R64 x.
Proof. exists (b64_opp x). apply Binary.B2R_Bopp. Qed.
Lemma rnd64_minus x y : Rabs (rnd64 (R64 x - R64 y) - (R64 x - R64 y)) <= bpow radix2 (-53) * Rabs (R64 x - R64 y).
Proof. destruct (R64_opp_ex y) as (z & Hz). unfold Rminus at 2 3 4. rewrite <- Hz. apply rnd64_plus. Qed.

(** ** The operations, when nothing overflows *)
Lemma no_overflow x e : (e < 1024)%Z -> (-1074 <= e)%Z -> Rabs x <= bpow radix2 e ->
  Rlt_bool (Rabs (rnd64 x)) (bpow radix2 1024) = true.
Proof.
  intros H1 H2 H. apply Rlt_bool_true. eapply Rle_lt_trans; [apply (rnd64_abs_le x e H2 H)|]. apply bpow_lt. exact H1.
Qed.
Lemma b64_plus_ok x y : fin64 x -> fin64 y -> Rabs (R64 x + R64 y) <= bpow radix2 1000 ->
  R64 (b64_plus mode_NE x y) = rnd64 (R64 x + R64 y) /\ fin64 (b64_plus mode_NE x y).
Proof.
  intros Hx Hy H. pose proof (Binary.Bplus_correct 53 1024 eq_refl eq_refl binop_nan_pl64 mode_NE x y Hx Hy) as C.
  assert (L := no_overflow _ 1000 ltac:(lia) ltac:(lia) H). unfold rnd64, R64 in L.
  change (SpecFloat.fexp 53 1024) with (FLT_exp (-1074) 53) in C. cbn [round_mode] in C. rewrite L in C.
  destruct C as (C1 & C2 & _). split; assumption.
Qed.
Lemma b64_minus_ok x y : fin64 x -> fin64 y -> Rabs (R64 x - R64 y) <= bpow radix2 1000 ->
  R64 (b64_minus mode_NE x y) = rnd64 (R64 x - R64 y) /\ fin64 (b64_minus mode_NE x y).
Proof.
  intros Hx Hy H. pose proof (Binary.Bminus_correct 53 1024 eq_refl eq_refl binop_nan_pl64 mode_NE x y Hx Hy) as C.
  assert (L := no_overflow _ 1000 ltac:(lia) ltac:(lia) H). unfold rnd64, R64 in L.
  change (SpecFloat.fexp 53 1024) with (FLT_exp (-1074) 53) in C. cbn [round_mode] in C. rewrite L in C.
  destruct C as (C1 & C2 & _). split; assumption.
Qed.
Lemma b64_mult_ok x y : fin64 x -> fin64 y -> Rabs (R64 x * R64 y) <= bpow radix2 1000 ->
  R64 (b64_mult mode_NE x y) = rnd64 (R64 x * R64 y) /\ fin64 (b64_mult mode_NE x y).
Proof.
  intros Hx Hy H. pose proof (Binary.Bmult_correct 53 1024 eq_refl eq_refl binop_nan_pl64 mode_NE x y) as C.
  assert (L := no_overflow _ 1000 ltac:(lia) ltac:(lia) H). unfold rnd64, R64 in L.
  change (SpecFloat.fexp 53 1024) with (FLT_exp (-1074) 53) in C. cbn [round_mode] in C. rewrite L in C.
  destruct C as (C1 & C2 & _). split; [assumption|]. unfold fin64 in *. unfold b64_mult. rewrite Hx, Hy in C2. exact C2.
Qed.
Lemma b64_div_ok x y : fin64 x -> R64 y <> 0 -> Rabs (R64 x / R64 y) <= bpow radix2 1000 ->
  R64 (b64_div mode_NE x y) = rnd64 (R64 x / R64 y) /\ fin64 (b64_div mode_NE x y).
Proof.
  intros Hx Hy H. pose proof (Binary.Bdiv_correct 53 1024 eq_refl eq_refl binop_nan_pl64 mode_NE x y Hy) as C.
  assert (L := no_overflow _ 1000 ltac:(lia) ltac:(lia) H). unfold rnd64, R64 in L.
  change (SpecFloat.fexp 53 1024) with (FLT_exp (-1074) 53) in C. cbn [round_mode] in C. rewrite L in C.
  destruct C as (C1 & C2 & _). split; [assumption|]. unfold fin64 in *. unfold b64_div. rewrite Hx in C2. exact C2.
Qed.
Lemma f64_make_ok m e : Rabs (F2R (Float radix2 m e)) <= bpow radix2 1000 ->
  R64 (f64_make m e) = rnd64 (F2R (Float radix2 m e)) /\ fin64 (f64_make m e).
Proof.
  intros H. pose proof (Binary.binary_normalize_correct 53 1024 Hp64 He64 mode_NE m e false) as C.
  assert (L := no_overflow _ 1000 ltac:(lia) ltac:(lia) H). unfold rnd64, R64 in L.
  change (SpecFloat.fexp 53 1024) with (FLT_exp (-1074) 53) in C. cbn [round_mode] in C. rewrite L in C.
  destruct C as (C1 & C2 & _). split; assumption.
Qed.
Lemma f64_of_Z_ok z : (Z.abs z <= 2 ^ 53)%Z -> R64 (f64_of_Z z) = IZR z /\ fin64 (f64_of_Z z).
Proof.
  intros H. unfold f64_of_Z.
  assert (E : F2R (Float radix2 z 0) = IZR z) by (unfold F2R; cbn; lra).
  destruct (f64_make_ok z 0) as [H1 H2].
  - rewrite E, <- abs_IZR. change (bpow radix2 1000) with (IZR (2 ^ 1000)). apply IZR_le.
    eapply Z.le_trans; [exact H|]. apply Z.pow_le_mono_r; lia.
  - split; auto. rewrite H1, E. apply rnd64_IZR, H.
Qed.

(** ** Conversions between single and double *)
Lemma F2R_cond s m e : F2R (Float radix2 (cond_Zopp s (Zpos m)) e) = F2R (Float radix2 (cond_Zopp s (Zpos m)) e).
Proof. reflexivity. Qed.
Lemma f32_of_f64_ok x : fin64 x -> Rabs (rnd32 (R64 x)) < bpow radix2 128 ->
  R32 (f32_of_f64 x) = rnd32 (R64 x) /\ fin32 (f32_of_f64 x).
Proof.
  intros Hx H. destruct x as [s|s|s pl Hpl|s m e He]; try discriminate.
  - cbn. unfold R64. cbn. rewrite rnd32_0. split; reflexivity.
  - cbn [f32_of_f64]. unfold f32_make.
    pose proof (Binary.binary_normalize_correct 24 128 Hp32 He32 mode_NE (cond_Zopp s (Zpos m)) e false) as C.
    change (SpecFloat.fexp 24 128) with (FLT_exp (-149) 24) in C. cbn [round_mode] in C.
    rewrite Rlt_bool_true in C by exact H. destruct C as (C1 & C2 & _). split; [exact C1|exact C2].
Qed.
(** a double beyond the single range becomes infinite, which struct.pack reports *)
Lemma f32_of_f64_over x : fin64 x -> bpow radix2 128 <= Rabs (rnd32 (R64 x)) ->
  Binary.is_finite 24 128 (f32_of_f64 x) = false.
Proof.
  intros Hx H. destruct x as [s|s|s pl Hpl|s m e He]; try discriminate.
  - exfalso. unfold R64 in H. cbn in H. rewrite rnd32_0, Rabs_R0 in H. pose proof (bpow_gt_0 radix2 128). cbn in *; lra.
  - cbn [f32_of_f64]. unfold f32_make.
    pose proof (Binary.binary_normalize_correct 24 128 Hp32 He32 mode_NE (cond_Zopp s (Zpos m)) e false) as C.
    change (SpecFloat.fexp 24 128) with (FLT_exp (-149) 24) in C. cbn [round_mode] in C.
    rewrite Rlt_bool_false in C by exact H.
    destruct (Binary.binary_normalize 24 128 Hp32 He32 mode_NE (cond_Zopp s (Zpos m)) e false) as [| | |];
      cbn in C; try discriminate; reflexivity.
Qed.
Lemma format32_64 x : generic_format radix2 (FLT_exp (-149) 24) x -> generic_format radix2 (FLT_exp (-1074) 53) x.
Proof.
  intros H. apply FLT_format_generic in H; [|auto with typeclass_instances]. destruct H as [f E1 E2 E3].
  apply generic_format_FLT. exists f; auto.
  - eapply Z.lt_trans; [exact E2|]. reflexivity.
  - lia.
Qed.
Lemma f64_of_f32_ok x : fin32 x -> R64 (f64_of_f32 x) = R32 x /\ fin64 (f64_of_f32 x).
Proof.
  intros Hx. destruct x as [s|s|s pl Hpl|s m e He]; try discriminate.
  - split; reflexivity.
  - cbn [f64_of_f32].
    assert (G : generic_format radix2 (FLT_exp (-1074) 53) (F2R (Float radix2 (cond_Zopp s (Zpos m)) e))).
    { apply format32_64. apply (format32 (Binary.B754_finite 24 128 s m e He)). }
    destruct (f64_make_ok (cond_Zopp s (Zpos m)) e) as [E1 E2].
    + pose proof (Binary.abs_B2R_lt_emax 24 128 (Binary.B754_finite 24 128 s m e He)) as B. cbn in B |- *.
      left. eapply Rlt_trans; [exact B|]. apply (bpow_lt radix2 128 1000). lia.
    + split; [|exact E2]. rewrite E1. unfold rnd64. rewrite round_generic; [reflexivity|auto with typeclass_instances|exact G].
Qed.

(** ** NaN propagation *)
Lemma nan_minus x y : nan64b x = true -> nan64b (b64_minus mode_NE x y) = true.
Proof. destruct x; try discriminate. intros _. unfold b64_minus, Bminus, nan64b. cbn. destruct y; reflexivity. Qed.
Lemma nan_div x y : nan64b x = true -> nan64b (b64_div mode_NE x y) = true.
Proof. destruct x; try discriminate. intros _. unfold b64_div, Bdiv, nan64b. cbn. destruct y; reflexivity. Qed.
Lemma nan_mult x y : nan64b x = true -> nan64b (b64_mult mode_NE x y) = true.
Proof. destruct x; try discriminate. intros _. unfold b64_mult, Bmult, nan64b. cbn. destruct y; reflexivity. Qed.
Lemma nan_plus x y : nan64b x = true -> nan64b (b64_plus mode_NE x y) = true.
Proof. destruct x; try discriminate. intros _. unfold b64_plus, Bplus, nan64b. cbn. destruct y; reflexivity. Qed.
Lemma fin_not_nan x : fin64 x -> nan64b x = false.
Proof. destruct x; intros H; try discriminate; reflexivity. Qed.
