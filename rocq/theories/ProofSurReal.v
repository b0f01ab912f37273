(** Error analysis of the quantisation in the Digital Surf format, over the reals with rounding. *)
From Coq Require Import ZArith Reals Lia Lra Psatz.
From Flocq Require Import Core.Core.
From Verif Require Import ModelBytes ProofFloat.
Local Open Scope R_scope.

Lemma bp53 : bpow radix2 (-53) = / 9007199254740992. Proof. reflexivity. Qed.
Lemma bp24 : bpow radix2 (-24) = / 16777216. Proof. reflexivity. Qed.
Lemma bp23 : bpow radix2 (-23) = / 8388608. Proof. reflexivity. Qed.
Lemma bp1075 : 0 < bpow radix2 (-1075) <= bpow radix2 (-200).
Proof. split; [apply bpow_gt_0|apply bpow_le; lia]. Qed.
Lemma bp200 : 0 < bpow radix2 (-200) <= / 9007199254740992 * / 9007199254740992 * / 9007199254740992.
Proof.
  split; [apply bpow_gt_0|]. rewrite <- bp53, <- !bpow_plus. apply bpow_le. lia.
Qed.

(** the stored integer before truncation: m <= x <= M doubles, K = 2^32 - 4 *)
Section Quant.
Context (x m M : f64).
Let D := R64 M - R64 m.
Hypothesis Hx : R64 m <= R64 x <= R64 M.
Hypothesis HD : bpow radix2 (-90) <= D.
Let a := rnd64 (R64 x - R64 m).
Let d := rnd64 (R64 M - R64 m).
Let q := rnd64 (a / d).
Let t := rnd64 (q * 4294967292).
Let n' := rnd64 (t + -2147483646).

Lemma d_pos : bpow radix2 (-90) <= d.
Proof. unfold d. rewrite <- (rnd64_bpow (-90)) by lia. apply rnd64_le. exact HD. Qed.
Lemma a_range : 0 <= a <= d.
Proof.
  unfold a, d. split; [rewrite <- rnd64_0; apply rnd64_le; lra|apply rnd64_le; lra].
Qed.
Lemma q_range0 : 0 <= a / d <= 1.
Proof.
  pose proof d_pos. pose proof a_range. pose proof (bpow_gt_0 radix2 (-90)).
  assert (0 < / d) by (apply Rinv_0_lt_compat; lra).
  split; [unfold Rdiv; nra|].
  apply Rmult_le_reg_r with d; [lra|]. unfold Rdiv. rewrite Rmult_assoc, Rinv_l by lra. lra.
Qed.
Lemma q_range : 0 <= q <= 1.
Proof.
  pose proof q_range0. unfold q. split; [rewrite <- rnd64_0; apply rnd64_le; lra|].
  rewrite <- (rnd64_IZR 1) by (vm_compute; discriminate). apply rnd64_le. lra.
Qed.
Lemma t_range : 0 <= t <= 4294967292.
Proof.
  pose proof q_range. unfold t. split; [rewrite <- rnd64_0; apply rnd64_le; lra|].
  apply Rle_trans with (rnd64 (IZR 4294967292)); [apply rnd64_le; lra|right; apply rnd64_IZR; vm_compute; discriminate].
Qed.
Lemma n_range : -2147483646 <= n' <= 2147483646.
Proof.
  pose proof t_range. unfold n'. split.
  - apply Rle_trans with (rnd64 (IZR (-2147483646))); [right; symmetry; apply rnd64_IZR; vm_compute; discriminate|apply rnd64_le; lra].
  - apply Rle_trans with (rnd64 (IZR 2147483646)); [apply rnd64_le; lra|right; apply rnd64_IZR; vm_compute; discriminate].
Qed.
(** the exact position of x in the range *)
Let p := (R64 x - R64 m) / D.
Lemma p_range : 0 <= p <= 1.
Proof.
  pose proof (bpow_gt_0 radix2 (-90)). unfold p. assert (0 < / D) by (apply Rinv_0_lt_compat; lra).
  split; [unfold Rdiv; apply Rmult_le_pos; lra|].
  apply Rmult_le_reg_r with D; [lra|]. unfold Rdiv. rewrite Rmult_assoc, Rinv_l by lra. unfold D. lra.
Qed.
Lemma d_err : Rabs (d - D) <= / 9007199254740992 * D.
Proof.
  pose proof (rnd64_minus M m) as H. rewrite bp53 in H. fold d in H. fold D in H.
  pose proof (bpow_gt_0 radix2 (-90)). rewrite (Rabs_pos_eq D) in H by lra. exact H.
Qed.
Lemma q_err : Rabs (q - p) <= 5 * / 9007199254740992.
Proof.
  pose proof d_pos as Hd. pose proof a_range as Ha. pose proof (bpow_gt_0 radix2 (-90)) as H90.
  pose proof p_range as Hp. pose proof d_err as Ed.
  pose proof (rnd64_minus x m) as Ea. rewrite bp53 in Ea. fold a in Ea.
  assert (Ep : R64 x - R64 m = p * D) by (unfold p; field; lra).
  rewrite Ep in Ea.
  assert (HpD : 0 <= p * D) by (apply Rmult_le_pos; lra).
  rewrite (Rabs_pos_eq (p * D)) in Ea by exact HpD.
  pose proof (rnd64_err (a / d)) as Eq. fold q in Eq. rewrite bp53 in Eq.
  pose proof q_range0 as Hq. rewrite (Rabs_pos_eq (a / d)) in Eq by lra.
  pose proof bp1075. pose proof bp200.
  apply Rabs_le_inv in Ea. apply Rabs_le_inv in Ed. apply Rabs_le_inv in Eq.
  (* |a/d - p| <= 3u *)
  assert (Hquot : Rabs (a / d - p) <= 3 * / 9007199254740992).
  { replace (a / d - p) with ((a - p * d) / d) by (field; lra).
    assert (Hn : Rabs (a - p * d) <= 2 * / 9007199254740992 * D).
    { apply Rabs_le. split; nra. }
    unfold Rdiv. rewrite Rabs_mult, (Rabs_pos_eq (/ d)) by (left; apply Rinv_0_lt_compat; lra).
    apply Rmult_le_reg_r with d; [lra|]. rewrite Rmult_assoc, Rinv_l, Rmult_1_r by lra. nra. }
  apply Rabs_le_inv in Hquot. apply Rabs_le. lra.
Qed.
Lemma n_err : Rabs (n' - (p * 4294967292 - 2147483646)) <= / 131072.
Proof.
  pose proof q_err as Eq. pose proof q_range as Hq. pose proof t_range as Ht.
  pose proof (rnd64_err (q * 4294967292)) as Et. fold t in Et. rewrite bp53 in Et.
  rewrite (Rabs_pos_eq (q * 4294967292)) in Et by lra.
  pose proof (rnd64_err (t + -2147483646)) as En. fold n' in En. rewrite bp53 in En.
  assert (Hb : Rabs (t + -2147483646) <= 2147483646) by (apply Rabs_le; lra).
  pose proof bp1075. pose proof bp200.
  apply Rabs_le_inv in Eq. apply Rabs_le_inv in Et. apply Rabs_le_inv in En. apply Rabs_le. lra.
Qed.
(** truncation *)
Lemma trunc_range : (-2147483646 <= Ztrunc n' <= 2147483646)%Z.
Proof.
  pose proof n_range as [H1 H2]. split.
  - rewrite <- (Ztrunc_IZR (-2147483646)). apply Ztrunc_le. exact H1.
  - rewrite <- (Ztrunc_IZR 2147483646). apply Ztrunc_le. exact H2.
Qed.
Lemma trunc_err y : Rabs (IZR (Ztrunc y) - y) <= 1.
Proof.
  unfold Ztrunc. destruct (Rlt_bool_spec y 0) as [H|H].
  - pose proof (Zceil_ub y). pose proof (Zceil_lb y). apply Rabs_le. lra.
  - pose proof (Zfloor_lb y). pose proof (Zfloor_ub y). apply Rabs_le. lra.
Qed.
Lemma stored_err : Rabs (IZR (Ztrunc n') - (p * 4294967292 - 2147483646)) <= 1 + / 131072.
Proof.
  pose proof n_err as H1. pose proof (trunc_err n') as H2.
  apply Rabs_le_inv in H1. apply Rabs_le_inv in H2. apply Rabs_le. lra.
Qed.

(** the header values as read back (singles) and the height computed by the reader *)
Hypothesis Hm : Rabs (R64 m) <= bpow radix2 100.
Hypothesis HM : Rabs (R64 M) <= bpow radix2 100.
Let sp := rnd32 (rnd64 (d / 4294967292)).
Let off := rnd32 (rnd64 (R64 m + rnd64 (d / 2))).
Let n := Ztrunc n'.
Let w := rnd64 (IZR n * sp).
Let z := rnd64 (w + off).
Let mid := (R64 m + R64 M) / 2.
Let top := Rmax (Rabs (R64 m)) (Rabs (R64 M)).

Lemma mid_top : Rabs mid + D / 2 = top.
Proof.
  unfold mid, top, D. unfold Rmax. destruct (Rle_dec (Rabs (R64 m)) (Rabs (R64 M))) as [H|H]; revert H; unfold Rabs;
    repeat destruct (Rcase_abs _); lra.
Qed.
Lemma rnd64_rel90 y b : bpow radix2 (-1022) <= b -> b <= y -> Rabs (rnd64 y - y) <= / 9007199254740992 * y.
Proof.
  intros Hb H. pose proof (bpow_gt_0 radix2 (-1022)).
  pose proof (rnd64_rel y) as E. rewrite bp53, (Rabs_pos_eq y) in E by lra. apply E. lra.
Qed.
Lemma bp_90_1022 : bpow radix2 (-1022) <= bpow radix2 (-125).
Proof. apply bpow_le. lia. Qed.
Lemma bp_125 : bpow radix2 (-125) <= bpow radix2 (-90) / 4294967292.
Proof.
  replace (bpow radix2 (-125)) with (bpow radix2 (-90) * bpow radix2 (-35)) by (rewrite <- bpow_plus; reflexivity).
  unfold Rdiv. apply Rmult_le_compat_l; [apply bpow_ge_0|]. change (bpow radix2 (-35)) with (/ 34359738368). lra.
Qed.

Lemma sp_err : Rabs (sp - D / 4294967292) <= (/ 16777216 + / 1000000000) * (D / 4294967292).
Proof.
  pose proof d_err as Ed. pose proof d_pos as Hd. pose proof bp_90_1022 as Hb1. pose proof bp_125 as Hb2.
  pose proof (bpow_gt_0 radix2 (-125)) as Hb3.
  assert (H1 : bpow radix2 (-125) <= d / 4294967292) by lra.
  pose proof (rnd64_rel90 (d / 4294967292) (bpow radix2 (-125)) ltac:(assumption) H1) as E1.
  set (s := rnd64 (d / 4294967292)) in *.
  assert (H2 : bpow radix2 (-126) <= s).
  { assert (bpow radix2 (-125) <= s); [|eapply Rle_trans; [apply (bpow_le radix2 (-126) (-125)); lia|assumption]].
    unfold s. rewrite <- (rnd64_bpow (-125)) by lia. apply rnd64_le. exact H1. }
  pose proof (rnd32_rel s) as E2. pose proof (bpow_gt_0 radix2 (-126)).
  rewrite bp24, (Rabs_pos_eq s) in E2 by lra. specialize (E2 H2). fold sp in E2.
  apply Rabs_le_inv in E1. apply Rabs_le_inv in E2. apply Rabs_le_inv in Ed. apply Rabs_le. lra.
Qed.
Lemma off_err : Rabs (off - mid) <= (/ 16777216 + / 1000000000) * Rabs mid + / 1000000 * (D / 4294967292) + / 1000000000000 * D.
Proof.
  pose proof d_err as Ed. pose proof d_pos as Hd. pose proof bp_90_1022 as Hb1. pose proof bp_125 as Hb2.
  pose proof (bpow_gt_0 radix2 (-125)) as Hb3. pose proof (bpow_gt_0 radix2 (-90)) as Hb4.
  assert (H1 : bpow radix2 (-125) <= d / 2).
  { assert (bpow radix2 (-125) <= bpow radix2 (-91)) by (apply bpow_le; lia).
    assert (E : bpow radix2 (-91) = bpow radix2 (-90) / 2).
    { replace (bpow radix2 (-91)) with (bpow radix2 (-90) * bpow radix2 (-1)) by (rewrite <- bpow_plus; reflexivity).
      change (bpow radix2 (-1)) with (/ 2). reflexivity. }
    lra. }
  pose proof (rnd64_rel90 (d / 2) (bpow radix2 (-125)) ltac:(assumption) H1) as E1.
  set (h := rnd64 (d / 2)) in *.
  pose proof (rnd64_err (R64 m + h)) as E2. rewrite bp53 in E2. set (o := rnd64 (R64 m + h)) in *.
  pose proof (rnd32_err o) as E3. rewrite bp24 in E3. fold off in E3.
  assert (Htiny : bpow radix2 (-150) <= / 10000000 * (D / 4294967292)).
  { assert (A : bpow radix2 (-150) <= / 10000000 * bpow radix2 (-90) * / 4294967292).
    { replace (bpow radix2 (-150)) with (bpow radix2 (-90) * bpow radix2 (-60) ) by (rewrite <- bpow_plus; reflexivity).
      change (bpow radix2 (-60)) with (/ 1152921504606846976).
      assert (0 < bpow radix2 (-90)) by apply bpow_gt_0. lra. }
    lra. }
  assert (Ht2 : bpow radix2 (-1075) <= bpow radix2 (-150)) by (apply bpow_le; lia).
  pose proof (bpow_gt_0 radix2 (-1075)).
  assert (Em : R64 m + D / 2 = mid) by (unfold mid, D; lra).
  apply Rabs_le_inv in E1. apply Rabs_le_inv in Ed.
  assert (F1 : Rabs (R64 m + h - mid) <= 3 * / 9007199254740992 * D) by (apply Rabs_le; lra).
  assert (F2 : Rabs (R64 m + h) <= Rabs mid + 3 * / 9007199254740992 * D).
  { replace (R64 m + h) with (mid + (R64 m + h - mid)) by ring. eapply Rle_trans; [apply Rabs_triang|]. lra. }
  assert (F3 : Rabs (o - mid) <= / 9007199254740992 * Rabs mid + 5 * / 9007199254740992 * D + bpow radix2 (-1075)).
  { replace (o - mid) with ((o - (R64 m + h)) + (R64 m + h - mid)) by ring.
    eapply Rle_trans; [apply Rabs_triang|]. pose proof (Rabs_pos mid). lra. }
  assert (F4 : Rabs o <= Rabs mid + (/ 9007199254740992 * Rabs mid + 5 * / 9007199254740992 * D + bpow radix2 (-1075))).
  { replace o with (mid + (o - mid)) by ring. eapply Rle_trans; [apply Rabs_triang|]. lra. }
  replace (off - mid) with ((off - o) + (o - mid)) by ring.
  eapply Rle_trans; [apply Rabs_triang|]. pose proof (Rabs_pos mid). lra.
Qed.

(** What the reader computes is within 2^-23 of the largest magnitude plus two quantisation steps of the height. *)
Theorem sur_height_error : Rabs (z - R64 x) <= bpow radix2 (-23) * top + 2 * (D / 4294967292).
Proof.
  pose proof stored_err as Hs. pose proof trunc_range as Hn. fold n in Hs, Hn.
  pose proof sp_err as Esp. pose proof off_err as Eoff. pose proof mid_top as Et. pose proof p_range as Hp.
  pose proof (bpow_gt_0 radix2 (-90)) as H90.
  assert (HDp : 0 < D) by lra.
  set (ds := D / 4294967292) in *.
  assert (Hds : D = 4294967292 * ds) by (unfold ds; field).
  assert (Hdsp : 0 < ds) by lra.
  assert (Ex : R64 x = mid + ds * (p * 4294967292 - 2147483646)).
  { assert (Ep : R64 x - R64 m = p * D) by (unfold p; field; lra).
    rewrite Hds in Ep.
    assert (mid = R64 m + 2147483646 * ds) by (unfold mid; unfold D in Hds; lra). lra. }
  set (ns := p * 4294967292 - 2147483646) in *.
  assert (Hns : Rabs ns <= 2147483646) by (apply Rabs_le; unfold ns; lra).
  assert (HnR : Rabs (IZR n) <= 2147483646).
  { apply Rabs_le. split; [rewrite <- opp_IZR|]; apply IZR_le; lia. }
  (* the product *)
  assert (P1 : Rabs (IZR n * sp - ns * ds) <= (1 + / 131072) * ds * (1 + / 1000000) + 2147483646 * ((/ 16777216 + / 1000000000) * ds)).
  { replace (IZR n * sp - ns * ds) with ((IZR n - ns) * sp + ns * (sp - ds)) by ring.
    eapply Rle_trans; [apply Rabs_triang|]. rewrite !Rabs_mult.
    assert (Hspb : Rabs sp <= ds * (1 + / 1000000)).
    { replace sp with (ds + (sp - ds)) by ring. eapply Rle_trans; [apply Rabs_triang|].
      rewrite (Rabs_pos_eq ds) by lra. lra. }
    pose proof (Rabs_pos sp). pose proof (Rabs_pos (sp - ds)). pose proof (Rabs_pos ns). pose proof (Rabs_pos (IZR n - ns)).
    apply Rplus_le_compat.
    - rewrite (Rmult_assoc _ ds). apply Rmult_le_compat; auto.
    - apply Rmult_le_compat; auto. }
  assert (P2 : Rabs (IZR n * sp) <= 2147483646 * ds * (1 + / 1000000) + 2 * ds).
  { replace (IZR n * sp) with (ns * ds + (IZR n * sp - ns * ds)) by ring. eapply Rle_trans; [apply Rabs_triang|].
    rewrite Rabs_mult, (Rabs_pos_eq ds) by lra.
    assert (Rabs ns * ds <= 2147483646 * ds) by (apply Rmult_le_compat_r; lra). lra. }
  pose proof (rnd64_err (IZR n * sp)) as E1. fold w in E1. rewrite bp53 in E1.
  pose proof (rnd64_err (w + off)) as E2. fold z in E2. rewrite bp53 in E2.
  assert (Htiny : bpow radix2 (-1075) <= / 1000000 * ds).
  { assert (A : bpow radix2 (-1075) <= bpow radix2 (-150)) by (apply bpow_le; lia).
    assert (B : bpow radix2 (-150) <= / 1000000 * (bpow radix2 (-90) * / 4294967292)).
    { replace (bpow radix2 (-150)) with (bpow radix2 (-90) * bpow radix2 (-60)) by (rewrite <- bpow_plus; reflexivity).
      change (bpow radix2 (-60)) with (/ 1152921504606846976). lra. }
    assert (C : bpow radix2 (-90) * / 4294967292 <= ds) by (unfold ds, Rdiv; lra). lra. }
  pose proof (bpow_gt_0 radix2 (-1075)) as H1075.
  assert (F1 : Rabs (w - ns * ds) <= (1 + / 131072) * ds * (1 + / 1000000) + 2147483646 * ((/ 16777216 + / 1000000000) * ds)
               + / 9007199254740992 * (2147483646 * ds * (1 + / 1000000) + 2 * ds) + / 1000000 * ds).
  { replace (w - ns * ds) with ((w - IZR n * sp) + (IZR n * sp - ns * ds)) by ring.
    eapply Rle_trans; [apply Rabs_triang|]. lra. }
  assert (F2 : Rabs (w + off - R64 x) <= (1 + / 131072) * ds * (1 + / 1000000) + 2147483646 * ((/ 16777216 + / 1000000000) * ds)
               + / 9007199254740992 * (2147483646 * ds * (1 + / 1000000) + 2 * ds) + / 1000000 * ds
               + ((/ 16777216 + / 1000000000) * Rabs mid + / 1000000 * ds + / 1000000000000 * D)).
  { rewrite Ex. replace (w + off - (mid + ds * ns)) with ((w - ns * ds) + (off - mid)) by ring.
    eapply Rle_trans; [apply Rabs_triang|]. lra. }
  assert (Hxt : Rabs (R64 x) <= Rabs mid + D / 2).
  { rewrite Ex. eapply Rle_trans; [apply Rabs_triang|]. rewrite Rabs_mult, (Rabs_pos_eq ds) by lra.
    assert (ds * Rabs ns <= ds * 2147483646) by (apply Rmult_le_compat_l; lra). lra. }
  assert (F3 : Rabs (w + off) <= Rabs (R64 x) + Rabs (w + off - R64 x)).
  { replace (w + off) with (R64 x + (w + off - R64 x)) at 1 by ring. apply Rabs_triang. }
  assert (F4 : Rabs (z - R64 x) <= Rabs (z - (w + off)) + Rabs (w + off - R64 x)).
  { replace (z - R64 x) with ((z - (w + off)) + (w + off - R64 x)) by ring. apply Rabs_triang. }
  rewrite bp23, <- Et, Hds. rewrite Hds in F2, Hxt. pose proof (Rabs_pos mid). lra.
Qed.
End Quant.
