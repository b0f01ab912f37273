(** From the real-number error analysis to the model of the Digital Surf codec. *)
From Coq Require Import String Ascii ZArith Lia Bool Reals Lra.
From Coq Require Import List.
From Flocq Require Import Core.Core.
From Flocq Require Import IEEE754.BinarySingleNaN IEEE754.Binary IEEE754.Bits.
From Verif Require Import Base ModelBytes SpecBytes ProofBytes PropsLayout ModelUnits ProofFloat ProofSurReal ModelSur.
Import ListNotations.
Local Open Scope Z_scope.

(** ** Arrays *)
Lemma chunks_concat (n : nat) (l : list bytes) : Forall (fun b => length b = n) l ->
  chunks (length l) n (concat l) = l.
Proof.
  induction 1 as [|b l Hb Hl IH]; [reflexivity|]. cbn [length chunks concat].
  rewrite firstn_app, skipn_app, Hb, Nat.sub_diag. rewrite <- Hb at 1 3.
  rewrite firstn_all, skipn_all. cbn [firstn skipn app]. rewrite app_nil_r, IH. reflexivity.
Qed.
Lemma concat_length_const (n : nat) (l : list bytes) : Forall (fun b => length b = n) l ->
  length (concat l) = (length l * n)%nat.
Proof. induction 1 as [|b l Hb Hl IH]; [reflexivity|]. cbn. rewrite app_length, IH, Hb. reflexivity. Qed.
Lemma frombuffer_concat (n : nat) (l : list bytes) : (0 < n)%nat -> Forall (fun b => length b = n) l ->
  frombuffer n (concat l) = Ok l.
Proof.
  intros Hn H. unfold frombuffer. rewrite (concat_length_const n l H).
  rewrite Nat.mod_mul by lia. cbn [Nat.eqb]. rewrite Nat.div_mul by lia. rewrite chunks_concat by exact H. reflexivity.
Qed.
Lemma int_array_tobytes n l : (0 < n)%nat -> Forall (int_fits true n) l ->
  int_array n (int_tobytes n l) = Ok l.
Proof.
  intros Hn H. unfold int_array, int_tobytes. rewrite frombuffer_concat; auto.
  - cbn [rmap]. f_equal. rewrite map_map. rewrite <- (map_id l) at 2. apply map_ext_in. intros z Hz.
    rewrite Forall_forall in H. specialize (H z Hz). cbn in H.
    rewrite unle_le by (apply Z.mod_pos_bound, pow_pos_8). apply to_signed_mod; auto.
  - apply Forall_forall. intros b Hb. apply in_map_iff in Hb as (z & <- & _). apply le_length.
Qed.
Lemma int_tobytes_length n l : length (int_tobytes n l) = (length l * n)%nat.
Proof.
  unfold int_tobytes. rewrite (concat_length_const n), map_length; auto.
  apply Forall_forall. intros b Hb. apply in_map_iff in Hb as (z & <- & _). apply le_length.
Qed.
Lemma rows_of_concat {A} (c : nat) (g : list (list A)) : Forall (fun r => length r = c) g ->
  rows_of (length g) c (concat g) = g.
Proof.
  induction 1 as [|r g Hr Hg IH]; [reflexivity|]. cbn [length rows_of concat].
  rewrite firstn_app, skipn_app, Hr, Nat.sub_diag. rewrite <- Hr at 1 3.
  rewrite firstn_all, skipn_all. cbn [firstn skipn app]. rewrite app_nil_r, IH. reflexivity.
Qed.
Lemma concat_length_grid {A} (c : nat) (g : list (list A)) : Forall (fun r => length r = c) g ->
  length (concat g) = (length g * c)%nat.
Proof. induction 1 as [|b l Hb Hl IH]; [reflexivity|]. cbn. rewrite app_length, IH, Hb. reflexivity. Qed.
Lemma reshape_concat {A} (c : nat) (g : list (list A)) : Forall (fun r => length r = c) g ->
  reshape (length g) c (concat g) = Ok g.
Proof.
  intros H. unfold reshape. rewrite (concat_length_grid c g H), Nat.eqb_refl, (rows_of_concat c g H). reflexivity.
Qed.
Lemma concat_map_map {A B} (f : A -> B) g : map f (concat g) = concat (map (map f) g).
Proof. apply concat_map. Qed.

(** ** Extrema *)
Lemma fin_compare x y : fin64 x -> fin64 y -> (flt x y = true <-> (R64 x < R64 y)%R).
Proof.
  intros Hx Hy. unfold flt, b64_compare. rewrite (Binary.Bcompare_correct 53 1024 x y Hx Hy).
  unfold R64. destruct (Rcompare_spec (Binary.B2R 53 1024 x) (Binary.B2R 53 1024 y)); split; intros; try discriminate; auto; lra.
Qed.
Lemma fextremum_spec (better : f64 -> f64 -> bool) (le' : R -> R -> Prop) l :
  (forall a, le' a a) -> (forall a b c, le' a b -> le' b c -> le' a c) ->
  (forall x y, fin64 x -> fin64 y -> better y x = true -> le' (R64 y) (R64 x)) ->
  (forall x y, fin64 x -> fin64 y -> better y x = false -> le' (R64 x) (R64 y)) ->
  Forall fin64 l -> l <> [] ->
  In (fextremum better l) l /\ forall y, In y l -> le' (R64 (fextremum better l)) (R64 y).
Proof.
  intros Hr Ht Hb1 Hb2 Hf Hn. destruct l as [|x l]; [congruence|]. cbn [fextremum].
  inversion Hf as [|? ? Hx Hl]; subst. clear Hn Hf. revert x Hx.
  induction Hl as [|y l Hy Hl IH]; intros x Hx; cbn [fold_left].
  - split; [left; auto|]. intros z [<-|[]]. apply Hr.
  - destruct (better y x) eqn:Eb.
    + destruct (IH y Hy) as [I1 I2]. split; [right; exact I1|].
      intros z [<-|Hz]; [|apply I2; exact Hz]. apply Ht with (R64 y); [apply I2; left; auto|apply Hb1; auto].
    + destruct (IH x Hx) as [I1 I2]. split.
      * destruct I1 as [I1|I1]; [left; exact I1|right; right; exact I1].
      * intros z [<-|[<-|Hz]]; [apply I2; left; auto| |apply I2; right; exact Hz].
        apply Ht with (R64 x); [apply I2; left; auto|apply Hb2; auto].
Qed.
Lemma nanmin_spec s : Forall fin64 (measured s) -> measured s <> [] ->
  In (nanmin s) (measured s) /\ forall y, In y (measured s) -> (R64 (nanmin s) <= R64 y)%R.
Proof.
  intros Hf Hn. apply (fextremum_spec flt Rle); auto using Rle_refl.
  - intros; eapply Rle_trans; eauto.
  - intros x y Hx Hy H. apply (fin_compare y x Hy Hx) in H. lra.
  - intros x y Hx Hy H. apply Rnot_lt_le. intros Hlt. apply (fin_compare y x Hy Hx) in Hlt. congruence.
Qed.
Lemma nanmax_spec s : Forall fin64 (measured s) -> measured s <> [] ->
  In (nanmax s) (measured s) /\ forall y, In y (measured s) -> (R64 y <= R64 (nanmax s))%R.
Proof.
  intros Hf Hn.
  apply (fextremum_spec (fun y m => flt m y) (fun a b => (b <= a)%R)); auto using Rle_refl.
  - intros; eapply Rle_trans; eauto.
  - intros x y Hx Hy H. apply (fin_compare x y Hx Hy) in H. lra.
  - intros x y Hx Hy H. apply Rnot_lt_le. intros Hlt. apply (fin_compare x y Hx Hy) in Hlt. congruence.
Qed.

(** ** Truncation *)
Lemma Btrunc_Ztrunc x : Binary.Btrunc 53 1024 x = Ztrunc (R64 x).
Proof.
  apply eq_IZR. rewrite (Binary.Btrunc_correct 53 1024 eq_refl x). fold (R64 x).
  unfold round, F2R, scaled_mantissa, cexp, FIX_exp. cbn. rewrite !Rmult_1_r. reflexivity.
Qed.
Lemma to_int32_ok x : fin64 x -> - 2 ^ 31 <= Ztrunc (R64 x) < 2 ^ 31 -> to_int32 x = Ztrunc (R64 x).
Proof.
  intros Hx H. unfold to_int32. rewrite Hx, Btrunc_Ztrunc. cbv zeta.
  destruct (Z.leb_spec (- 2 ^ 31) (Ztrunc (R64 x))); [|lia]. destruct (Z.ltb_spec (Ztrunc (R64 x)) (2 ^ 31)); [|lia].
  reflexivity.
Qed.

(** ** Magnitudes *)
Definition small (x : f64) : Prop := fin64 x /\ (Rabs (R64 x) <= bpow radix2 100)%R.
Lemma bpow_big e : (e <= 1000)%Z -> (bpow radix2 e <= bpow radix2 1000)%R.
Proof. intros H. apply bpow_le. exact H. Qed.
Lemma bpow101 : bpow radix2 101 = (2 * bpow radix2 100)%R.
Proof. replace 101 with (1 + 100) by lia. rewrite bpow_plus. reflexivity. Qed.

Lemma sub_small x y : small x -> small y ->
  R64 (fsub x y) = rnd64 (R64 x - R64 y) /\ fin64 (fsub x y) /\ (Rabs (R64 (fsub x y)) <= bpow radix2 101)%R.
Proof.
  intros [Fx Bx] [Fy By].
  assert (B : (Rabs (R64 x - R64 y) <= bpow radix2 101)%R).
  { rewrite bpow101. apply Rabs_le_inv in Bx. apply Rabs_le_inv in By. apply Rabs_le. lra. }
  destruct (b64_minus_ok x y Fx Fy) as [E1 E2]; [eapply Rle_trans; [exact B|apply bpow_big; lia]|].
  unfold fsub. rewrite E1. repeat split; auto. apply rnd64_abs_le; [lia|exact B].
Qed.

Section Codec.
Context (mn mx : f64).
Hypothesis Hmn : small mn.
Hypothesis Hmx : small mx.
Hypothesis HD : (bpow radix2 (-90) <= R64 mx - R64 mn)%R.
Let K := f64_of_Z (INT_DATA_MAX - INT_DATA_MIN).
Let I := f64_of_Z INT_DATA_MIN.
Let d := fsub mx mn.
Lemma K_ok : R64 K = 4294967292%R /\ fin64 K.
Proof. apply f64_of_Z_ok. vm_compute. discriminate. Qed.
Lemma I_ok : R64 I = (-2147483646)%R /\ fin64 I.
Proof. apply f64_of_Z_ok. vm_compute. discriminate. Qed.
Lemma d_ok : R64 d = rnd64 (R64 mx - R64 mn) /\ fin64 d /\ (bpow radix2 (-90) <= R64 d <= bpow radix2 101)%R.
Proof.
  destruct (sub_small mx mn Hmx Hmn) as (E1 & E2 & E3). unfold d. repeat split; auto.
  - rewrite E1. apply d_pos. exact HD.
  - apply Rabs_le_inv in E3. lra.
Qed.

(** the integer stored for a measured height *)
Lemma quantise_ok nm x : fin64 x -> (R64 mn <= R64 x <= R64 mx)%R ->
  quantise nm mn mx x =
  Ztrunc (rnd64 (rnd64 (rnd64 (rnd64 (R64 x - R64 mn) / rnd64 (R64 mx - R64 mn)) * 4294967292) + -2147483646)).
Proof.
  intros Hx Hr. destruct K_ok as [EK FK]. destruct I_ok as [EI FI]. destruct d_ok as (Ed & Fd & Bd).
  assert (Sx : small x).
  { split; auto. destruct Hmn as [_ B1]. destruct Hmx as [_ B2]. apply Rabs_le_inv in B1. apply Rabs_le_inv in B2.
    apply Rabs_le. lra. }
  destruct (sub_small x mn Sx Hmn) as (Ea & Fa & Ba).
  pose proof (bpow_gt_0 radix2 (-90)) as H90.
  assert (Q0 := q_range0 x mn mx Hr HD). assert (Q1 := q_range x mn mx Hr HD). assert (T := t_range x mn mx Hr HD).
  assert (N := n_range x mn mx Hr HD).
  assert (B1 : (1 <= bpow radix2 1000)%R) by (change 1%R with (bpow radix2 0); apply bpow_le; lia).
  assert (B2 : (4294967296 <= bpow radix2 1000)%R) by (change 4294967296%R with (bpow radix2 32); apply bpow_le; lia).
  destruct (b64_div_ok (fsub x mn) d Fa) as [E1 F1]; [lra| |].
  { rewrite Ea, Ed, Rabs_pos_eq by apply Q0. lra. }
  rewrite Ea, Ed in E1.
  destruct (b64_mult_ok (fdiv (fsub x mn) d) K F1 FK) as [E2 F2].
  { unfold fdiv. rewrite E1, EK, Rabs_pos_eq by lra. lra. }
  unfold fdiv in E2. rewrite E1, EK in E2.
  destruct (b64_plus_ok (fmul (fdiv (fsub x mn) d) K) I F2 FI) as [E3 F3].
  { unfold fmul, fdiv. rewrite E2, EI. apply Rabs_le. lra. }
  unfold fmul, fdiv in E3. rewrite E2, EI in E3.
  unfold quantise. fold K I d. cbv zeta.
  assert (Nn : isnan (fadd (fmul (fdiv (fsub x mn) d) K) I) = false) by (apply fin_not_nan, F3).
  rewrite Nn, andb_false_r. unfold fadd, fmul, fdiv. rewrite to_int32_ok; auto.
  - rewrite E3. reflexivity.
  - rewrite E3. pose proof (trunc_range x mn mx Hr HD). lia.
Qed.
Lemma quantise_range nm x : fin64 x -> (R64 mn <= R64 x <= R64 mx)%R ->
  INT_DATA_MIN <= quantise nm mn mx x <= INT_DATA_MAX.
Proof. intros Hx Hr. rewrite quantise_ok by auto. apply (trunc_range x mn mx Hr HD). Qed.
(** ... and for a gap *)
Lemma quantise_nan x : isnan x = true -> quantise true mn mx x = INT_DATA_MIN - 2.
Proof.
  intros H. unfold quantise. cbv zeta.
  assert (N : isnan (fadd (fmul (fdiv (fsub x mn) (fsub mx mn)) (f64_of_Z (INT_DATA_MAX - INT_DATA_MIN))) (f64_of_Z INT_DATA_MIN)) = true).
  { apply nan_plus, nan_mult, nan_div, nan_minus, H. }
  rewrite N. reflexivity.
Qed.

(** the two header values *)
Let spz := fdiv d K.
Let ofz := fadd mn (fdiv d (f64_of_Z 2)).
Lemma spz_ok : R64 spz = rnd64 (rnd64 (R64 mx - R64 mn) / 4294967292) /\ fin64 spz /\ (0 <= R64 spz <= bpow radix2 101)%R.
Proof.
  destruct K_ok as [EK FK]. destruct d_ok as (Ed & Fd & Bd). pose proof (bpow_gt_0 radix2 (-90)) as H90.
  assert (B : (0 <= R64 d / 4294967292 <= bpow radix2 101)%R) by lra.
  destruct (b64_div_ok d K Fd) as [E1 F1]; [lra| |].
  { rewrite EK, Rabs_pos_eq by lra. eapply Rle_trans; [apply B|apply bpow_big; lia]. }
  rewrite EK in E1. split; [unfold spz, fdiv; rewrite E1, Ed; reflexivity|]. split; [exact F1|].
  unfold spz, fdiv. rewrite E1. split; [rewrite <- rnd64_0; apply rnd64_le; lra|].
  rewrite <- (rnd64_bpow 101) by lia. apply rnd64_le. lra.
Qed.
Lemma ofz_ok : R64 ofz = rnd64 (R64 mn + rnd64 (rnd64 (R64 mx - R64 mn) / 2)) /\ fin64 ofz /\
  (Rabs (R64 ofz) <= bpow radix2 102)%R.
Proof.
  destruct d_ok as (Ed & Fd & Bd). pose proof (bpow_gt_0 radix2 (-90)) as H90.
  destruct (f64_of_Z_ok 2) as [E2 F2]; [vm_compute; discriminate|].
  assert (B : (0 <= R64 d / 2 <= bpow radix2 101)%R) by lra.
  destruct (b64_div_ok d (f64_of_Z 2) Fd) as [E1 F1]; [lra| |].
  { rewrite E2, Rabs_pos_eq by lra. eapply Rle_trans; [apply B|apply bpow_big; lia]. }
  rewrite E2 in E1.
  assert (Bh : (Rabs (R64 (fdiv d (f64_of_Z 2))) <= bpow radix2 101)%R).
  { unfold fdiv. rewrite E1. apply rnd64_abs_le; [lia|]. rewrite Rabs_pos_eq by lra. lra. }
  destruct Hmn as [Fm Bm].
  assert (Bs : (Rabs (R64 mn + R64 (fdiv d (f64_of_Z 2))) <= bpow radix2 102)%R).
  { replace (bpow radix2 102) with (2 * bpow radix2 101)%R by (replace 102 with (1 + 101) by lia; rewrite bpow_plus; reflexivity).
    pose proof bpow101. pose proof (bpow_gt_0 radix2 100). apply Rabs_le_inv in Bh. apply Rabs_le_inv in Bm. apply Rabs_le. lra. }
  destruct (b64_plus_ok mn (fdiv d (f64_of_Z 2)) Fm F1) as [E3 F3].
  { eapply Rle_trans; [exact Bs|apply bpow_big; lia]. }
  split; [unfold ofz, fadd; rewrite E3; unfold fdiv; rewrite E1, Ed; reflexivity|]. split; [exact F3|].
  unfold ofz, fadd. rewrite E3. apply rnd64_abs_le; [lia|exact Bs].
Qed.

(** a double of moderate size fits a single *)
Lemma single_ok x e : fin64 x -> (-149 <= e < 128)%Z -> (Rabs (R64 x) <= bpow radix2 e)%R ->
  R64 (f64_of_f32 (f32_of_f64 x)) = rnd32 (R64 x) /\ fin64 (f64_of_f32 (f32_of_f64 x)) /\ fin32 (f32_of_f64 x).
Proof.
  intros Hx He B.
  assert (B' : (Rabs (rnd32 (R64 x)) <= bpow radix2 e)%R) by (apply rnd32_abs_le; [lia|exact B]).
  destruct (f32_of_f64_ok x Hx) as [E1 F1]; [eapply Rle_lt_trans; [exact B'|apply bpow_lt; lia]|].
  destruct (f64_of_f32_ok _ F1) as [E2 F2]. rewrite E2. auto.
Qed.

Let spr := f64_of_f32 (f32_of_f64 spz).
Let ofr := f64_of_f32 (f32_of_f64 ofz).
Lemma spr_ok : R64 spr = rnd32 (rnd64 (rnd64 (R64 mx - R64 mn) / 4294967292)) /\ fin64 spr /\ (Rabs (R64 spr) <= bpow radix2 101)%R.
Proof.
  destruct spz_ok as (E & F & B). destruct (single_ok spz 101 F) as (E1 & F1 & _); [lia|rewrite Rabs_pos_eq; lra|].
  unfold spr. rewrite E1. split; [rewrite E; reflexivity|]. split; [exact F1|].
  apply rnd32_abs_le; [lia|]. rewrite Rabs_pos_eq; lra.
Qed.
Lemma ofr_ok : R64 ofr = rnd32 (rnd64 (R64 mn + rnd64 (rnd64 (R64 mx - R64 mn) / 2))) /\ fin64 ofr /\ (Rabs (R64 ofr) <= bpow radix2 102)%R.
Proof.
  destruct ofz_ok as (E & F & B). destruct (single_ok ofz 102 F) as (E1 & F1 & _); [lia|exact B|].
  unfold ofr. rewrite E1. split; [rewrite E; reflexivity|]. split; [exact F1|]. apply rnd32_abs_le; [lia|exact B].
Qed.

(** what the reader makes of the stored integer *)
Definition dequant (n : Z) : f64 := fadd (fmul (fmul (f64_of_Z n) spr) (pow10 0)) ofr.
Lemma mul_one x : fin64 x -> (Rabs (R64 x) <= bpow radix2 1000)%R ->
  R64 (fmul x (pow10 0)) = R64 x /\ fin64 (fmul x (pow10 0)).
Proof.
  intros Hx B. destruct (f64_of_Z_ok 1) as [E1 F1]; [vm_compute; discriminate|].
  change (pow10 0) with (f64_of_Z 1).
  destruct (b64_mult_ok x (f64_of_Z 1) Hx F1) as [E F]; [rewrite E1, Rmult_1_r; exact B|].
  rewrite E1, Rmult_1_r, rnd64_id in E. auto.
Qed.
Lemma dequant_ok nm x : fin64 x -> (R64 mn <= R64 x <= R64 mx)%R ->
  fin64 (dequant (quantise nm mn mx x)) /\
  (Rabs (R64 (dequant (quantise nm mn mx x)) - R64 x) <=
     bpow radix2 (-23) * Rmax (Rabs (R64 mn)) (Rabs (R64 mx)) + 2 * ((R64 mx - R64 mn) / 4294967292))%R.
Proof.
  intros Hx Hr. pose proof (quantise_range nm x Hx Hr) as Hq. rewrite quantise_ok in * by auto.
  pose proof (sur_height_error x mn mx Hr HD) as Herr. cbv zeta in Herr.
  remember (Ztrunc (rnd64 (rnd64 (rnd64 (rnd64 (R64 x - R64 mn) / rnd64 (R64 mx - R64 mn)) * 4294967292) + -2147483646))) as n eqn:En.
  unfold INT_DATA_MIN, INT_DATA_MAX in Hq.
  destruct (f64_of_Z_ok n) as [E0 F0]; [change (2 ^ 53) with 9007199254740992; lia|].
  destruct spr_ok as (Es & Fs & Bs). destruct ofr_ok as (Eo & Fo & Bo).
  assert (B1 : (Rabs (R64 (f64_of_Z n) * R64 spr) <= bpow radix2 140)%R).
  { rewrite E0, Rabs_mult. replace (bpow radix2 140) with (bpow radix2 39 * bpow radix2 101)%R by (rewrite <- bpow_plus; reflexivity).
    apply Rmult_le_compat; auto using Rabs_pos. change (bpow radix2 39) with 549755813888%R.
    apply Rabs_le. split; [rewrite <- opp_IZR|]; apply IZR_le; lia. }
  destruct (b64_mult_ok (f64_of_Z n) spr F0 Fs) as [E1 F1]; [eapply Rle_trans; [exact B1|apply bpow_big; lia]|].
  assert (B2 : (Rabs (R64 (fmul (f64_of_Z n) spr)) <= bpow radix2 140)%R).
  { unfold fmul. rewrite E1. apply rnd64_abs_le; [lia|exact B1]. }
  destruct (mul_one (fmul (f64_of_Z n) spr) F1) as [E2 F2]; [eapply Rle_trans; [exact B2|apply bpow_big; lia]|].
  destruct (b64_plus_ok _ ofr F2 Fo) as [E3 F3].
  { rewrite E2. eapply Rle_trans; [|apply (bpow_big 141); lia].
    replace (bpow radix2 141) with (2 * bpow radix2 140)%R by (replace 141 with (1 + 140) by lia; rewrite bpow_plus; reflexivity).
    assert (bpow radix2 102 <= bpow radix2 140)%R by (apply bpow_le; lia).
    apply Rabs_le_inv in B2. apply Rabs_le_inv in Bo. apply Rabs_le. lra. }
  split; [exact F3|]. unfold dequant, fadd. rewrite E3, E2. unfold fmul. rewrite E1, E0, Es, Eo. exact Herr.
Qed.
End Codec.
