(** C50 and C51 for the Alicona format (.al3d). *)
From Coq Require Import String Ascii ZArith Lia Bool Reals Lra.
From Coq Require Import List.
From Flocq Require Import Core.Core.
From Flocq Require Import IEEE754.BinarySingleNaN IEEE754.Binary IEEE754.Bits.
From Verif Require Import Base ModelBytes SpecBytes ProofBytes PropsLayout ModelUnits ProofFloat ModelSur ProofSur ProofCodec ProofSurReal ModelFormats PropsTmd PropsSdf.
Import ListNotations.
Local Open Scope Z_scope.

(** ** Decimal integers *)
Lemma dec_aux_spec : forall fuel n acc, 0 <= n < 2 ^ Z.of_nat (S fuel) ->
  exists p, dec_aux (S fuel) n acc = p ++ acc /\ p <> [] /\ Forall (fun c => 48 <= c <= 57) p /\
    (forall a, fold_left (fun a c => a * 10 + (c - 48)) p a = a * 10 ^ Z.of_nat (length p) + n) /\
    (forall k, (0 < k)%nat -> n < 10 ^ Z.of_nat k -> (length p <= k)%nat).
Proof.
  induction fuel as [|fuel IH]; intros n acc Hn.
  - change (2 ^ Z.of_nat 1) with 2 in Hn. exists [48 + n]. cbn [dec_aux]. destruct (Z.ltb_spec n 10); [|lia].
    split; [reflexivity|]. split; [discriminate|]. split; [constructor; [lia|constructor]|].
    split; [intros a; cbn [fold_left length]; change (10 ^ Z.of_nat 1) with 10; ring|intros; cbn; lia].
  - cbn [dec_aux]. destruct (Z.ltb_spec n 10) as [H|H].
    + exists [48 + n]. split; [reflexivity|]. split; [discriminate|]. split; [constructor; [lia|constructor]|].
      split; [intros a; cbn [fold_left length]; change (10 ^ Z.of_nat 1) with 10; ring|intros; cbn; lia].
    + pose proof (Z.div_mod n 10 ltac:(lia)) as DM. pose proof (Z.mod_pos_bound n 10 ltac:(lia)) as MB.
      destruct (IH (n / 10) ((48 + n mod 10) :: acc)) as (p & E1 & E2 & E3 & E4 & E5).
      { split; [apply Z.div_pos; lia|]. rewrite (Nat2Z.inj_succ (S fuel)), Z.pow_succ_r in Hn by lia. lia. }
      exists (p ++ [48 + n mod 10]). rewrite <- app_assoc. split; [exact E1|]. split; [destruct p; discriminate|].
      split; [apply Forall_app; split; [exact E3|constructor; [lia|constructor]]|]. split.
      * intros a. rewrite fold_left_app, E4. cbn [fold_left]. rewrite app_length, Nat2Z.inj_add, Z.pow_add_r by lia.
        change (10 ^ Z.of_nat (length [48 + n mod 10])) with 10. ring_simplify. lia.
      * intros k Hk Hlt. rewrite app_length. cbn [length]. destruct k as [|[|k]]; [lia|change (10 ^ Z.of_nat 1) with 10 in Hlt; lia|].
        assert (length p <= S k)%nat; [|lia]. apply E5; [lia|]. rewrite (Nat2Z.inj_succ (S k)), Z.pow_succ_r in Hlt by lia.
        apply Z.div_lt_upper_bound; lia.
Qed.
Lemma dec_spec n : 0 <= n -> int_parse (dec n) = Ok n /\ Forall (fun c => 48 <= c <= 57) (dec n) /\
  (forall k, (0 < k)%nat -> n < 10 ^ Z.of_nat k -> (length (dec n) <= k)%nat).
Proof.
  intros Hn. unfold dec. destruct (dec_aux_spec (Z.to_nat (Z.log2 n)) n []) as (p & E1 & E2 & E3 & E4 & E5).
  { split; [exact Hn|]. rewrite Nat2Z.inj_succ, Z2Nat.id by apply Z.log2_nonneg.
    destruct (Z.eq_dec n 0) as [->|]; [reflexivity|]. apply Z.log2_spec. lia. }
  rewrite E1, app_nil_r. split; [|auto]. unfold int_parse.
  assert (Hd : forallb is_digit p = true).
  { apply forallb_forall. intros c Hc. rewrite Forall_forall in E3. specialize (E3 c Hc). unfold is_digit.
    destruct (Z.leb_spec 48 c); [|lia]. destruct (Z.leb_spec c 57); [|lia]. reflexivity. }
  rewrite Hd. destruct p as [|c p]; [congruence|]. cbn [zs_eqb negb andb]. f_equal. unfold dec_value. rewrite E4. lia.
Qed.

(** ** Tags *)
Definition clean (n : nat) (s : pystr) : Prop := Forall (fun c => 0 < c < 128) s /\ (length s <= n)%nat.
Lemma clean_ascii n s : clean n s -> ascii s.
Proof. intros [H _]. eapply Forall_impl; [|exact H]. cbn. intros. lia. Qed.
Lemma encode_ascii w s : w <> Auto -> ascii s -> encode w s = Ok s.
Proof.
  intros Hw Hs. destruct w; cbn [encode]; [apply utf8_ascii; exact Hs| |congruence].
  replace (forallb (fun c => (0 <=? c) && (c <? 256)) s) with true; [reflexivity|]. symmetry. apply forallb_forall.
  intros c Hc. unfold ascii in Hs. rewrite Forall_forall in Hs. specialize (Hs c Hc).
  destruct (Z.leb_spec 0 c); [|lia]. destruct (Z.ltb_spec c 256); [|lia]. reflexivity.
Qed.
Lemma decode_ascii r s : ascii s -> decode r s = Ok s.
Proof.
  intros Hs. pose proof (utf8_decode_encode s s (utf8_ascii s Hs)) as E. destruct r; cbn [decode]; rewrite ?E; reflexivity.
Qed.
Lemma pad0_length n s : (length s <= n)%nat -> length (pad0 n s) = n.
Proof. intros H. unfold pad0. rewrite firstn_all2 by exact H. rewrite app_length, repeat_length. lia. Qed.
Lemma pad0_ascii n s : ascii s -> ascii (pad0 n s).
Proof.
  intros H. unfold pad0. apply Forall_app. split; [|apply Forall_repeat; lia].
  apply Forall_forall. intros c Hc. unfold ascii in H. rewrite Forall_forall in H. apply H.
  rewrite <- (firstn_skipn n s). apply in_or_app. left. exact Hc.
Qed.
Lemma pad0_strip n s : clean n s -> rstrip isnul (pad0 n s) = s.
Proof.
  intros [H L]. unfold pad0. rewrite firstn_all2 by exact L. apply rstrip_keep.
  - apply Forall_repeat. reflexivity.
  - intros s' c E. rewrite E in H. apply Forall_app in H as [_ H]. apply Forall_inv in H.
    unfold isnul. destruct (Z.eqb_spec c 0); [lia|reflexivity].
Qed.
Definition tag_ok (kv : pystr * pystr) : Prop := clean 20 (fst kv) /\ clean 30 (snd kv).
Definition tag_bytes (kv : pystr * pystr) : bytes := pad0 20 (fst kv) ++ pad0 30 (snd kv) ++ [13; 10].
Lemma tag_bytes_length kv : tag_ok kv -> length (tag_bytes kv) = 52%nat.
Proof. intros [[_ H1] [_ H2]]. unfold tag_bytes. rewrite !app_length, !pad0_length by assumption. reflexivity. Qed.
Lemma write_tag_ok w kv : w <> Auto -> tag_ok kv -> write_tag w kv = Ok (tag_bytes kv).
Proof.
  intros Hw [H1 H2]. unfold write_tag. rewrite !encode_ascii by (assumption || (eapply clean_ascii; eassumption)). cbn [rbind].
  rewrite (encode_ascii w [13; 10]) by (assumption || (repeat constructor; lia)). reflexivity.
Qed.
Lemma read_tag_ok r kv pre rest : tag_ok kv -> read_tag r (at_ pre (tag_bytes kv ++ rest)) = Ok (kv, at_ (pre ++ tag_bytes kv) rest).
Proof.
  intros H. pose proof (tag_bytes_length kv H) as L. destruct H as [H1 H2]. destruct kv as [k v]. cbn [fst snd] in *.
  unfold read_tag. pose proof (fread_at pre (tag_bytes (k, v)) rest) as F. rewrite L in F. rewrite F, L. cbn [Nat.eqb negb].
  assert (E1 : firstn 20 (tag_bytes (k, v)) = pad0 20 k).
  { unfold tag_bytes. cbn [fst snd]. rewrite firstn_app, pad0_length by apply H1. rewrite firstn_all2 by (rewrite pad0_length; [lia|apply H1]).
    cbn [Nat.sub firstn]. apply app_nil_r. }
  assert (E2 : skipn 20 (tag_bytes (k, v)) = pad0 30 v ++ [13; 10]).
  { unfold tag_bytes. cbn [fst snd]. rewrite skipn_app, pad0_length by apply H1. rewrite skipn_all2 by (rewrite pad0_length; [lia|apply H1]).
    reflexivity. }
  assert (E3 : firstn 30 (skipn 20 (tag_bytes (k, v))) = pad0 30 v).
  { rewrite E2, firstn_app, pad0_length by apply H2. rewrite firstn_all2 by (rewrite pad0_length; [lia|apply H2]).
    cbn [Nat.sub firstn]. apply app_nil_r. }
  assert (E4 : skipn 50 (tag_bytes (k, v)) = [13; 10]).
  { unfold tag_bytes. cbn [fst snd]. rewrite app_assoc, skipn_app, app_length, !pad0_length by (apply H1 || apply H2).
    rewrite skipn_all2 by (rewrite app_length, !pad0_length by (apply H1 || apply H2); lia). reflexivity. }
  rewrite E1, E3, E4. rewrite !decode_ascii.
  - cbn [rbind]. rewrite !pad0_strip by assumption. reflexivity.
  - repeat constructor; lia.
  - apply pad0_ascii. eapply clean_ascii; eassumption.
  - apply pad0_ascii. eapply clean_ascii; eassumption.
Qed.
Lemma write_tags_ok w l : w <> Auto -> Forall tag_ok l -> write_tags w l = Ok (concat (map tag_bytes l)).
Proof.
  intros Hw H. induction H as [|kv l Hk Hl IH]; [reflexivity|]. cbn [write_tags map concat]. rewrite write_tag_ok, IH by assumption. reflexivity.
Qed.
Lemma read_tags_ok r l : Forall tag_ok l -> forall pre rest,
  read_tags r (length l) (at_ pre (concat (map tag_bytes l) ++ rest)) = Ok (l, at_ (pre ++ concat (map tag_bytes l)) rest).
Proof.
  induction 1 as [|kv l Hk Hl IH]; intros pre rest; cbn [length read_tags map concat].
  - rewrite app_nil_r. reflexivity.
  - rewrite <- app_assoc. rewrite read_tag_ok by exact Hk. cbn [rbind]. rewrite IH. cbn [rmap]. rewrite <- app_assoc. reflexivity.
Qed.
Lemma tags_length l : Forall tag_ok l -> length (concat (map tag_bytes l)) = (length l * 52)%nat.
Proof.
  induction 1 as [|kv l Hk Hl IH]; [reflexivity|]. cbn [map concat length]. rewrite app_length, IH, tag_bytes_length by exact Hk. lia.
Qed.

(** ** Single precision arithmetic *)
Lemma b32_mult_ok x y : fin32 x -> fin32 y -> (Rabs (R32 x * R32 y) <= bpow radix2 120)%R ->
  R32 (fmul32 x y) = rnd32 (R32 x * R32 y) /\ fin32 (fmul32 x y).
Proof.
  intros Hx Hy H. pose proof (Binary.Bmult_correct 24 128 eq_refl eq_refl binop_nan_pl32 mode_NE x y) as C.
  assert (L : Rlt_bool (Rabs (rnd32 (R32 x * R32 y))) (bpow radix2 128) = true).
  { apply Rlt_bool_true. eapply Rle_lt_trans; [apply (rnd32_abs_le _ 120 ltac:(lia) H)|]. apply bpow_lt. lia. }
  unfold rnd32, R32 in L. change (SpecFloat.fexp 24 128) with (FLT_exp (-149) 24) in C. cbn [round_mode] in C. rewrite L in C.
  destruct C as (C1 & C2 & _). split; [exact C1|]. unfold fin32 in *. unfold fmul32, b32_mult. rewrite Hx, Hy in C2. exact C2.
Qed.
Definition isnan32 (x : f32) : bool := Binary.is_nan 24 128 x.
Lemma nan32_mult x y : isnan32 x = true -> isnan32 (fmul32 x y) = true.
Proof. destruct x; try discriminate. intros _. unfold fmul32, b32_mult, Bmult, isnan32. cbn. destruct y; reflexivity. Qed.
Lemma nan_32 x : isnan x = true -> isnan32 (f32_of_f64 x) = true.
Proof. destruct x; try discriminate. reflexivity. Qed.
Lemma nan_64 x : isnan32 x = true -> isnan (f64_of_f32 x) = true.
Proof. destruct x; try discriminate. reflexivity. Qed.
Lemma feq_nan x y : isnan y = true -> feq32 x y = false.
Proof. destruct y; try discriminate. intros _. unfold feq32, b64_compare. cbn. destruct x; reflexivity. Qed.

Definition v6 : R := rnd32 u6.
Definition e24 : R := (/ 16777216)%R.
Lemma bpm20 : (bpow radix2 (-20) = / 1048576)%R. Proof. reflexivity. Qed.
Lemma v6_err : (Rabs (v6 - u6) <= e24 * u6)%R.
Proof.
  pose proof u6_range as U. unfold v6, e24. rewrite <- bp24. pose proof (rnd32_rel u6) as H. rewrite (Rabs_pos_eq u6) in H by lra. apply H.
  apply Rle_trans with (bpow radix2 (-20)); [apply bp_le; lia|]. rewrite bpm20. lra.
Qed.
Lemma rnd32_IZR z : (Z.abs z < 2 ^ 24)%Z -> rnd32 (IZR z) = IZR z.
Proof.
  intros H. unfold rnd32. apply round_generic; [auto with typeclass_instances|]. apply generic_format_FLT.
  exists (Float radix2 z 0); cbn [Fnum Fexp]; [unfold F2R; cbn; ring|exact H|lia].
Qed.
Lemma w_ok : R32 (f32_of_f64 (pow10 (-6))) = v6 /\ fin32 (f32_of_f64 (pow10 (-6))).
Proof.
  destruct powm6_ok as [E F]. pose proof u6_range as U. destruct (f32_of_f64_ok (pow10 (-6)) F) as [E1 F1].
  - rewrite E. eapply Rle_lt_trans; [apply (rnd32_abs_le _ 0 ltac:(lia))|apply bpow_lt; lia]. rewrite Rabs_pos_eq by lra. cbn; lra.
  - rewrite E1, E. auto.
Qed.
Lemma m_ok : R32 (f32_of_f64 (pow10 6)) = 1000000%R /\ fin32 (f32_of_f64 (pow10 6)).
Proof.
  destruct pow6_ok as [E F]. assert (Er : rnd32 1000000 = 1000000%R) by (apply (rnd32_IZR 1000000); vm_compute; reflexivity).
  destruct (f32_of_f64_ok (pow10 6) F) as [E1 F1].
  - rewrite E, Er, Rabs_pos_eq by lra. apply Rle_lt_trans with (bpow radix2 20); [change (bpow radix2 20) with 1048576%R; lra|apply bpow_lt; lia].
  - rewrite E1, E, Er. auto.
Qed.
Section Error.
Context (x : R) (Hx : (Rabs x <= bpow radix2 99)%R).
Let eta := bpow radix2 (-150).
Let a := rnd32 x.
Let b := rnd32 (a * v6).
Let c := rnd32 (b * 1000000).
Lemma v6_abs : (Rabs (v6 - / 1000000) <= e24 * / 999999 + e53 * / 1000000)%R.
Proof.
  pose proof v6_err as A. pose proof u6_err as B. pose proof u6_range as U.
  replace (v6 - / 1000000)%R with ((v6 - u6) + (u6 - / 1000000))%R by ring. eapply Rle_trans; [apply Rabs_triang|].
  assert (e24 * u6 <= e24 * / 999999)%R by (apply Rmult_le_compat_l; [unfold e24; lra|lra]). lra.
Qed.
Lemma al3d_err : (Rabs (c - x) <= bpow radix2 (-21) * Rabs x + bpow radix2 (-128))%R.
Proof.
  pose proof v6_abs as V. pose proof (Rabs_le_inv _ _ V) as V'. pose proof (Rabs_pos x) as Xp. pose proof (bpow_gt_0 radix2 (-150)) as Ep.
  pose proof (rnd32_err x) as A. rewrite bp24 in A. fold e24 a eta in A.
  pose proof (rnd32_err (a * v6)) as B. rewrite bp24 in B. fold e24 b eta in B.
  pose proof (rnd32_err (b * 1000000)) as C. rewrite bp24 in C. fold e24 c eta in C. fold eta in Ep.
  assert (Vp : (0 < v6 <= / 999990)%R) by (unfold e24, e53 in *; lra).
  assert (Ax : (Rabs a <= Rabs x + Rabs (a - x))%R) by (replace a with (x + (a - x))%R at 1 by ring; apply Rabs_triang).
  assert (P : (Rabs (a * v6 - x / 1000000) <= (21/10) * e24 * (Rabs x / 1000000) + eta)%R).
  { replace (a * v6 - x / 1000000)%R with ((a - x) * v6 + x * (v6 - / 1000000))%R by (unfold Rdiv; ring).
    eapply Rle_trans; [apply Rabs_triang|]. rewrite !Rabs_mult, (Rabs_pos_eq v6) by lra.
    assert (Q1 : (Rabs (a - x) * v6 <= (e24 * Rabs x + eta) * / 999990)%R) by (apply Rmult_le_compat; auto using Rabs_pos; lra).
    assert (Q2 : (Rabs x * Rabs (v6 - / 1000000) <= Rabs x * (e24 * / 999999 + e53 * / 1000000))%R) by (apply Rmult_le_compat_l; lra).
    unfold e24, e53, Rdiv in *. lra. }
  assert (Pm : (Rabs (a * v6) <= Rabs x / 1000000 + Rabs (a * v6 - x / 1000000))%R).
  { replace (a * v6)%R with (x / 1000000 + (a * v6 - x / 1000000))%R at 1 by ring. eapply Rle_trans; [apply Rabs_triang|].
    unfold Rdiv. rewrite Rabs_mult, (Rabs_pos_eq (/ 1000000)) by lra. lra. }
  assert (Q : (Rabs (b - x / 1000000) <= (32/10) * e24 * (Rabs x / 1000000) + 3 * eta)%R).
  { replace (b - x / 1000000)%R with ((b - a * v6) + (a * v6 - x / 1000000))%R by ring. eapply Rle_trans; [apply Rabs_triang|].
    unfold e24 in *. lra. }
  assert (Q' : (Rabs (b * 1000000 - x) <= (32/10) * e24 * Rabs x + 3000000 * eta)%R).
  { replace (b * 1000000 - x)%R with (1000000 * (b - x / 1000000))%R by field. rewrite Rabs_mult, (Rabs_pos_eq 1000000) by lra.
    unfold Rdiv in Q |- *. lra. }
  assert (Qm : (Rabs (b * 1000000) <= Rabs x + Rabs (b * 1000000 - x))%R).
  { replace (b * 1000000)%R with (x + (b * 1000000 - x))%R at 1 by ring. apply Rabs_triang. }
  replace (c - x)%R with ((c - b * 1000000) + (b * 1000000 - x))%R by ring. eapply Rle_trans; [apply Rabs_triang|].
  assert (S : (4000000 * eta <= bpow radix2 (-128))%R).
  { apply Rle_trans with (bpow radix2 22 * eta)%R.
    - apply Rmult_le_compat_r; [unfold eta; apply bpow_ge_0|]. change (bpow radix2 22) with 4194304%R. lra.
    - unfold eta. rewrite <- bpow_plus. apply bp_le. lia. }
  change (bpow radix2 (-21)) with (/ 2097152)%R. unfold e24 in *. lra.
Qed.
Lemma al3d_mags : (Rabs a <= bpow radix2 99 /\ Rabs (a * v6) <= bpow radix2 99 /\ Rabs b <= bpow radix2 99 /\ Rabs (b * 1000000) <= bpow radix2 119)%R.
Proof.
  pose proof v6_abs as V. pose proof (Rabs_le_inv _ _ V) as V'.
  assert (Vp : (0 < v6 <= 1)%R) by (unfold e24, e53 in *; lra).
  assert (M1 : (Rabs a <= bpow radix2 99)%R) by (apply rnd32_abs_le; [lia|exact Hx]).
  assert (M2 : (Rabs (a * v6) <= bpow radix2 99)%R).
  { rewrite Rabs_mult, (Rabs_pos_eq v6) by lra. rewrite <- (Rmult_1_r (bpow radix2 99)). apply Rmult_le_compat; auto using Rabs_pos; lra. }
  assert (M3 : (Rabs b <= bpow radix2 99)%R) by (apply rnd32_abs_le; [lia|exact M2]).
  repeat split; auto. rewrite Rabs_mult, (Rabs_pos_eq 1000000) by lra.
  replace (bpow radix2 119) with (bpow radix2 99 * bpow radix2 20)%R by (rewrite <- bpow_plus; reflexivity).
  apply Rmult_le_compat; auto using Rabs_pos; [lra|]. change (bpow radix2 20) with 1048576%R. lra.
Qed.
End Error.
(** a height after the trip through metres in single precision *)
Definition micron_single (x x' : f64) : Prop :=
  if isnan x then isnan x' = true
  else fin64 x -> (Rabs (R64 x) <= bpow radix2 99)%R ->
    fin64 x' /\ (Rabs (R64 x' - R64 x) <= bpow radix2 (-21) * Rabs (R64 x) + bpow radix2 (-128))%R.
Lemma al3d_height x : micron_single x
  (f64_of_f32 (fmul32 (fmul32 (f32_of_f64 x) (f32_of_f64 (pow10 (-6)))) (f32_of_f64 (pow10 6)))).
Proof.
  unfold micron_single. destruct (isnan x) eqn:Hn.
  - apply nan_64, nan32_mult, nan32_mult, nan_32, Hn.
  - intros Fx Bx. destruct (al3d_mags (R64 x) Bx) as (M1 & M2 & M3 & M4).
    destruct w_ok as [Ew Fw]. destruct m_ok as [Em Fm].
    destruct (f32_of_f64_ok x Fx) as [E1 F1]; [eapply Rle_lt_trans; [exact M1|apply bpow_lt; lia]|].
    destruct (b32_mult_ok _ _ F1 Fw) as [E2 F2]; [rewrite E1, Ew; eapply Rle_trans; [exact M2|apply bp_le; lia]|].
    rewrite E1, Ew in E2.
    destruct (b32_mult_ok _ _ F2 Fm) as [E3 F3]; [rewrite E2, Em; eapply Rle_trans; [exact M4|apply bp_le; lia]|].
    rewrite E2, Em in E3. destruct (f64_of_f32_ok _ F3) as [E4 F4]. split; [exact F4|]. rewrite E4, E3. exact (al3d_err (R64 x)).
Qed.

(** ** The file *)
Section File.
Context (ft : float_text) (Hft : float_text_ok ft) (w r : encoding) (Hw : w <> Auto) (s : raw) (G : shaped s)
  (Nx : Z.of_nat (cols s) < 10 ^ 30) (Ny : Z.of_nat (rows s) < 10 ^ 30).
Lemma dec_clean n : 0 <= n < 10 ^ 30 -> clean 30 (dec n).
Proof.
  intros Hn. destruct (dec_spec n ltac:(lia)) as (_ & D2 & D3). split.
  - eapply Forall_impl; [|exact D2]. cbn. intros. lia.
  - apply D3; [lia|]. exact (proj2 Hn).
Qed.
Lemma repr_clean x : clean 30 (frepr ft x).
Proof.
  split; [eapply Forall_impl; [|apply (ft_chars _ Hft)]; cbn; intros; lia|].
  pose proof (ft_length _ Hft x). lia.
Qed.
Lemma tags_ok : Forall tag_ok (al3d_tags ft s).
Proof.
  assert (K : forall k, clean 20 (str k) -> True) by auto.
  unfold al3d_tags. repeat (constructor; [split; cbn [fst snd];
    [split; [vm_compute; repeat constructor; discriminate|vm_compute; lia]|
     first [apply repr_clean|apply dec_clean; split; [lia|assumption]|apply dec_clean; split; [lia|vm_compute; reflexivity]]]|]). constructor.
Qed.
Definition al3d_head : bytes := al3d_magic ++ concat (map tag_bytes (al3d_tags ft s)).
Definition al3d_pad : bytes := repeat 0 254 ++ [13; 10].
Definition al3d_body : bytes := f32_tobytes (map (fun x => fmul32 x (f32_of_f64 (pow10 (-6)))) (singles s)).
Lemma al3d_head_length : length al3d_head = 589%nat.
Proof. unfold al3d_head. rewrite app_length, tags_length by apply tags_ok. reflexivity. Qed.
Lemma write_al3d_ok : write_al3d ft w s = Ok (al3d_head ++ al3d_pad ++ al3d_body).
Proof.
  unfold write_al3d. rewrite write_tags_ok by (assumption || apply tags_ok). cbn [rbind]. fold al3d_head. rewrite al3d_head_length. reflexivity.
Qed.
Lemma al3d_body_length : length al3d_body = (rows s * cols s * 4)%nat.
Proof.
  unfold al3d_body. rewrite f32_tobytes_length, map_length. unfold singles. rewrite map_length.
  rewrite (concat_length_grid (cols s)) by apply G. reflexivity.
Qed.
(** the reader, past the header of a written file followed by anything *)
Definition after_header (b : bytes) : res raw :=
  rbind (f32_array b) (fun vals =>
  rbind (reshape (rows s) (cols s) vals) (fun data =>
  rbind (fparse ft (frepr ft nan64)) (fun inv =>
  let height v :=
    let v := if feq32 (f64_of_f32 v) (f64_of_f32 (f32_of_f64 inv)) then nan32 else v in
    f64_of_f32 (fmul32 v (f32_of_f64 (pow10 6))) in
  Ok {| rdata := map (map height) data; rstep_x := fmul (fmul (rstep_x s) (pow10 (-6))) (pow10 6);
        rstep_y := fmul (fmul (rstep_y s) (pow10 (-6))) (pow10 6) |}))).
Lemma read_al3d_head rest : isnan (fmul (rstep_x s) (pow10 (-6))) = false -> isnan (fmul (rstep_y s) (pow10 (-6))) = false ->
  read_al3d ft r (open_rb (al3d_head ++ rest)) =
  after_header (fst (fread (rows s * cols s * 4) {| contents := al3d_head ++ rest; pos := 845 |})).
Proof.
  intros Px Py. pose proof tags_ok as T. unfold read_al3d. change (open_rb ?b) with (at_ [] b). unfold al3d_head at 1.
  rewrite <- app_assoc. pose proof (fread_at [] al3d_magic (concat (map tag_bytes (al3d_tags ft s)) ++ rest)) as F17.
  change (length al3d_magic) with 17%nat in F17. rewrite F17. rewrite zs_eqb_refl. cbn [negb].
  remember (al3d_tags ft s) as tags eqn:Et. unfold al3d_tags in Et.
  set (c := Z.of_nat (cols s)) in *. set (rw := Z.of_nat (rows s)) in *.
  set (px := fmul (rstep_x s) (pow10 (-6))) in *. set (py := fmul (rstep_y s) (pow10 (-6))) in *.
  destruct tags as [|t1 [|t2 l]]; try discriminate. assert (T1 := Forall_inv T). assert (T2 := Forall_inv (Forall_inv_tail T)). assert (Tl := Forall_inv_tail (Forall_inv_tail T)).
  injection Et as E1 E2 El. cbn [map concat]. rewrite <- !app_assoc. rewrite read_tag_ok by exact T1. cbn [rbind].
  rewrite E1. cbn [fst snd]. rewrite zs_eqb_refl. cbn [negb]. rewrite read_tag_ok by exact T2. cbn [rbind]. rewrite E2. cbn [fst snd].
  rewrite zs_eqb_refl. cbn [negb]. destruct (dec_spec 9 ltac:(lia)) as (D9 & _ & _). rewrite D9. cbn [rbind].
  assert (Ll : length l = Z.to_nat 9) by (rewrite El; reflexivity). rewrite <- Ll, read_tags_ok by exact Tl. cbn [rbind].
  set (d := (str "Version", dec 1) :: (str "TagCount", dec 9) :: l). assert (Ed := eq_refl d). unfold d at 2 in Ed. rewrite El in Ed. clearbody d.
  assert (V1 : tagv d "Cols" = Ok (dec c)) by (rewrite Ed; reflexivity).
  assert (V2 : tagv d "Rows" = Ok (dec rw)) by (rewrite Ed; reflexivity).
  assert (V3 : tagv d "PixelSizeXMeter" = Ok (frepr ft px)) by (rewrite Ed; reflexivity).
  assert (V4 : tagv d "PixelSizeYMeter" = Ok (frepr ft py)) by (rewrite Ed; reflexivity).
  assert (V5 : tagv d "DepthImageOffset" = Ok (dec 845)) by (rewrite Ed; reflexivity).
  assert (V6 : tagv d "InvalidPixelValue" = Ok (frepr ft nan64)) by (rewrite Ed; reflexivity).
  rewrite V1, V2, V3, V4, V5, V6. cbn [rbind].
  destruct (dec_spec c ltac:(unfold c; lia)) as (Dc & _). destruct (dec_spec rw ltac:(unfold rw; lia)) as (Dr & _).
  destruct (dec_spec 845 ltac:(lia)) as (D8 & _). rewrite Dc, Dr, D8. cbn [rbind].
  destruct (ft_round _ Hft px) as (y1 & Y1 & _ & Z1). destruct (ft_round _ Hft py) as (y2 & Y2 & _ & Z2).
  rewrite (Z1 Px) in Y1. rewrite (Z2 Py) in Y2. rewrite Y1, Y2. cbn [rbind].
  unfold c, rw. rewrite !Nat2Z.id, <- Nat2Z.inj_mul, Nat2Z.id, (Nat.mul_comm (cols s)).
  unfold after_header. unfold at_. cbn [contents pos]. unfold fread. cbn [fst contents pos].
  rewrite <- !app_assoc. unfold al3d_head. 
  assert (Es : concat (map tag_bytes (al3d_tags ft s)) = tag_bytes t1 ++ tag_bytes t2 ++ concat (map tag_bytes l)).
  { rewrite E1, E2, El. reflexivity. }
  rewrite Es. rewrite E1, E2, <- !app_assoc. reflexivity.
Qed.
End File.

Lemma step_not_nan x : step_ok x -> isnan (fmul x (pow10 (-6))) = false.
Proof.
  intros [F [_ B]]. destruct powm6_ok as [E Fm]. pose proof u6_range as U.
  destruct (b64_mult_ok x (pow10 (-6)) F Fm) as [_ F1].
  { rewrite E, Rabs_mult, (Rabs_pos_eq u6) by lra. apply Rle_trans with (bpow radix2 60 * 1)%R;
    [apply Rmult_le_compat; auto using Rabs_pos; lra|rewrite Rmult_1_r; apply bp_le; lia]. }
  apply fin_not_nan, F1.
Qed.

(** *** C50: every surface comes back with the same shape, its gaps, heights up to a relative error of 2^-21 (the file
    holds metres in single precision) and steps up to 2^-50. *)
Theorem C50_roundtrip : forall ft w r s,
  float_text_ok ft -> w <> Auto -> shaped s -> Z.of_nat (cols s) < 10 ^ 30 -> Z.of_nat (rows s) < 10 ^ 30 ->
  step_ok (rstep_x s) -> step_ok (rstep_y s) ->
  exists b s', write_al3d ft w s = Ok b /\ read_al3d ft r (open_rb b) = Ok s' /\
    Forall2 (Forall2 micron_single) (rdata s) (rdata s') /\
    (Rabs (R64 (rstep_x s') - R64 (rstep_x s)) <= bpow radix2 (-50) * Rabs (R64 (rstep_x s)))%R /\
    (Rabs (R64 (rstep_y s') - R64 (rstep_y s)) <= bpow radix2 (-50) * Rabs (R64 (rstep_y s)))%R.
Proof.
  intros ft w r s Hft Hw G Nx Ny Sx Sy. pose proof (step_not_nan _ Sx) as Px. pose proof (step_not_nan _ Sy) as Py.
  exists (al3d_head ft s ++ al3d_pad ++ al3d_body s). eexists. split; [apply write_al3d_ok; assumption|]. split; [|split; [|split]].
  - rewrite read_al3d_head by assumption.
    assert (Ef : fst (fread (rows s * cols s * 4) {| contents := al3d_head ft s ++ al3d_pad ++ al3d_body s; pos := 845 |}) = al3d_body s).
    { unfold fread. cbn [fst contents pos]. rewrite app_assoc.
      assert (L : length (al3d_head ft s ++ al3d_pad) = 845%nat) by (rewrite app_length, al3d_head_length by assumption; reflexivity).
      rewrite skipn_app, L, Nat.sub_diag, skipn_all2 by lia. cbn [app skipn]. rewrite <- al3d_body_length by exact G. apply firstn_all. }
    rewrite Ef. unfold after_header, al3d_body. rewrite f32_array_tobytes. cbn [rbind]. unfold singles. rewrite map_map, concat_map_map.
    match goal with |- context [@reshape ?A ?a ?b ?l] => match l with concat ?g => assert (Er : @reshape A a b l = Ok g) end end.
    { etransitivity; [|apply (reshape_concat (cols s))]; [rewrite map_length; reflexivity|].
      apply Forall_forall. intros y Hy'. apply in_map_iff in Hy' as (q & <- & Hq). rewrite map_length.
      destruct G as [_ _ Grect]. rewrite Forall_forall in Grect. apply Grect. exact Hq. }
    rewrite Er.
    cbn [rbind]. destruct (ft_round _ Hft nan64) as (inv & I1 & I2 & _). rewrite I1. cbn [rbind].
    assert (En : forall v, feq32 (f64_of_f32 v) (f64_of_f32 (f32_of_f64 inv)) = false).
    { intros v. apply feq_nan, nan_64, nan_32, I2. reflexivity. }
    assert (Em : forall g, map (map (fun v => f64_of_f32 (fmul32 (if feq32 (f64_of_f32 v) (f64_of_f32 (f32_of_f64 inv)) then nan32 else v)
        (f32_of_f64 (pow10 6))))) g = map (map (fun v => f64_of_f32 (fmul32 v (f32_of_f64 (pow10 6))))) g).
    { intros g. apply map_ext. intros row. apply map_ext. intros v. rewrite En. reflexivity. }
    cbv zeta. rewrite Em. reflexivity.
  - cbn [rdata]. apply Forall2_map_both. intros row _. apply Forall2_map_both. intros x _. apply al3d_height.
  - cbn [rstep_x]. apply unit_trip; apply Sx.
  - cbn [rstep_y]. apply unit_trip; apply Sy.
Qed.

(** *** C51 for .al3d: no proper prefix of a written file can be loaded. *)
Lemma read_tag_pos r h kv h' : read_tag r h = Ok (kv, h') -> contents h' = contents h /\ pos h' = (pos h + 52)%nat /\ (pos h' <= length (contents h))%nat.
Proof.
  unfold read_tag, fread. remember (firstn 52 (skipn (pos h) (contents h))) as q eqn:Eq.
  destruct (Nat.eqb_spec (length q) 52) as [L|]; [|discriminate]. cbn [negb].
  intros H. apply rbind_ok in H as (k & _ & H). apply rbind_ok in H as (v & _ & H). apply rbind_ok in H as (t & _ & H).
  destruct (zs_eqb _ _); [|discriminate]. injection H as _ <-. cbn [contents pos].
  assert (L' := L). rewrite Eq, firstn_length, skipn_length in L'. repeat split; lia.
Qed.
Lemma read_tags_pos r n : forall h l h', read_tags r n h = Ok (l, h') ->
  contents h' = contents h /\ pos h' = (pos h + n * 52)%nat /\ (0 < n -> pos h' <= length (contents h))%nat.
Proof.
  induction n as [|n IH]; intros h l h' H; cbn [read_tags] in H.
  - injection H as _ <-. repeat split; lia.
  - apply rbind_ok in H as ([kv h1] & H1 & H). apply rmap_ok in H as ([l2 h2] & H2 & E). injection E as _ <-.
    apply read_tag_pos in H1 as (A1 & A2 & A3). apply IH in H2 as (B1 & B2 & B3). rewrite A1 in *. repeat split; try lia; try assumption.
Qed.

Theorem C51_al3d_truncated : forall ft w r s b k,
  float_text_ok ft -> w <> Auto -> shaped s -> Z.of_nat (cols s) < 10 ^ 30 -> Z.of_nat (rows s) < 10 ^ 30 ->
  step_ok (rstep_x s) -> step_ok (rstep_y s) ->
  write_al3d ft w s = Ok b -> (k < length b)%nat -> exists e, read_al3d ft r (open_rb (firstn k b)) = Err e.
Proof.
  intros ft w r s b k Hft Hw G Nx Ny Sx Sy HW Hk. pose proof (step_not_nan _ Sx) as Px. pose proof (step_not_nan _ Sy) as Py.
  rewrite (write_al3d_ok ft Hft w Hw s Nx Ny) in HW.
  apply (f_equal (fun x => match x with Ok y => y | Err _ => b end)) in HW. cbv beta iota in HW. subst b.
  pose proof (al3d_head_length ft Hft s Nx Ny) as Lh. pose proof (al3d_body_length s G) as Lb.
  assert (Lp : length al3d_pad = 256%nat) by reflexivity. rewrite !app_length, Lh, Lp, Lb in Hk.
  destruct (read_al3d ft r (open_rb (firstn k (al3d_head ft s ++ al3d_pad ++ al3d_body s)))) as [s'|e] eqn:HR; [exfalso|eauto].
  destruct (Nat.lt_ge_cases k 589) as [H5|H5].
  - rewrite firstn_app, Lh in HR. replace (k - 589)%nat with 0%nat in HR by lia. rewrite firstn_O, app_nil_r in HR.
    set (q := firstn k (al3d_head ft s)) in *. assert (Lq : length q = k) by (unfold q; rewrite firstn_length, Lh; lia).
    assert (Lf : length (firstn 17 q) = Nat.min 17 k) by (rewrite firstn_length, Lq; reflexivity).
    assert (E0 : fread 17 (open_rb q) = (firstn 17 q, {| contents := q; pos := length (firstn 17 q) |})) by reflexivity.
    remember (firstn 17 q) as m eqn:Em. unfold read_al3d in HR. rewrite E0 in HR.
    destruct (zs_eqb m al3d_magic) eqn:Ez; [|discriminate]. apply zs_eqb_eq in Ez. cbn [negb] in HR.
    assert (Hk17 : (17 <= k)%nat).
    { assert (L : length m = 17%nat) by (rewrite Ez; reflexivity). lia. }
    apply rbind_ok in HR as ([t1 h2] & A1 & HR). destruct (negb _); [discriminate|].
    apply rbind_ok in HR as ([t2 h3] & A2 & HR). destruct (negb _); [discriminate|].
    pose proof (read_tag_pos _ _ _ _ A1) as (P1 & P2 & P3). pose proof (read_tag_pos _ _ _ _ A2) as (Q1 & Q2 & Q3).
    rewrite Lf in A1. replace (Nat.min 17 k) with 17%nat in * by lia.
    cbn [contents pos] in P1, P2, P3. rewrite P1, P2 in *. rewrite Lq in *.
    assert (Ht2 : t2 = (str "TagCount", dec 9)).
    { pose proof (tags_ok ft Hft s Nx Ny) as T. unfold q in A1, A2. unfold al3d_head in A1, A2.
      remember (al3d_tags ft s) as tags eqn:Et. unfold al3d_tags in Et. destruct tags as [|u1 [|u2 l]]; try discriminate.
      assert (T1 := Forall_inv T). assert (T2 := Forall_inv (Forall_inv_tail T)).
      injection Et as E1 E2 El. clear El.
      assert (Ek : exists z, firstn k (al3d_magic ++ concat (map tag_bytes (u1 :: u2 :: l))) = al3d_magic ++ tag_bytes u1 ++ tag_bytes u2 ++ z).
      { exists (firstn (k - 121) (concat (map tag_bytes l))). cbn [map concat].
        pose proof (tag_bytes_length u1 T1) as L1. pose proof (tag_bytes_length u2 T2) as L2.
        rewrite firstn_eq_app by (change (length al3d_magic) with 17%nat; lia). change (length al3d_magic) with 17%nat.
        rewrite firstn_eq_app by lia. rewrite firstn_eq_app by lia. rewrite L1, L2. do 4 f_equal. lia. }
      destruct Ek as [z Ek]. rewrite Ek in A1.
      change {| contents := al3d_magic ++ ?x; pos := 17 |} with (at_ al3d_magic x) in A1.
      rewrite read_tag_ok in A1 by exact T1. injection A1 as _ Eh2. rewrite <- Eh2 in A2. rewrite read_tag_ok in A2 by exact T2.
      injection A2 as E _. rewrite <- E. exact E2. }
    subst t2. cbn [snd] in HR. destruct (dec_spec 9 ltac:(lia)) as (D9 & _ & _). rewrite D9 in HR. cbn [rbind] in HR.
    apply rbind_ok in HR as ([l h4] & A3 & HR). apply read_tags_pos in A3 as (R1 & R2 & R3). rewrite Q1, Lq in R3.
    change (Z.to_nat 9) with 9%nat in *. rewrite Q2 in R2. specialize (R3 ltac:(lia)). lia.
  - rewrite firstn_eq_app, Lh in HR by lia. rewrite read_al3d_head in HR by assumption.
    unfold after_header, fread in HR. cbn [fst contents pos] in HR. apply rbind_ok in HR as (vals & A1 & HR).
    apply rbind_ok in HR as (data & A2 & _). unfold f32_array in A1. apply rmap_ok in A1 as (ch & A1 & ->).
    apply frombuffer_length in A1; [|lia]. unfold reshape in A2. rewrite map_length in A2.
    destruct (Nat.eqb_spec (length ch) (rows s * cols s)) as [E|]; [|discriminate]. rewrite E in A1.
    rewrite firstn_length, skipn_length, app_length, Lh, firstn_length, app_length, Lp, Lb in A1.
    destruct G as [G1 G2 _]. assert (0 < rows s * cols s)%nat by (apply Nat.mul_pos_pos; assumption). lia.
Qed.

(** the contract on decimal text can be met (here: by printing the bit pattern as a decimal number), and so can the
    other hypotheses: the 2 x 2 surface with a gap *)
Definition bit_text : float_text :=
  {| frepr := fun x => dec (bits_of_b64 x); fparse := fun t => rmap b64_of_bits (int_parse t) |}.
Theorem C50_example : let s := {| rdata := [[f64_of_Z 1; nan64]; [f64_of_Z (-7); f64_of_Z 3]]; rstep_x := f64_of_Z 1; rstep_y := f64_of_Z 2 |} in
  float_text_ok bit_text /\ Utf8 <> Auto /\ shaped s /\ step_ok (rstep_x s) /\ step_ok (rstep_y s) /\
  Z.of_nat (cols s) < 10 ^ 30 /\ Z.of_nat (rows s) < 10 ^ 30.
Proof.
  destruct C49_example as (S1 & S2 & S3 & _). split; [|split; [discriminate|split; [exact S1|split; [exact S2|split; [exact S3|split; vm_compute; reflexivity]]]]].
  assert (B : forall x, 0 <= bits_of_b64 x < 10 ^ 20).
  { intros x. pose proof (bits_of_binary_float_range 52 11 eq_refl eq_refl x) as [H1 H2]. split; [exact H1|].
    eapply Z.lt_trans; [exact H2|]. vm_compute. reflexivity. }
  constructor; cbn [bit_text frepr fparse].
  - intros x. destruct (dec_spec (bits_of_b64 x)) as (D & _ & _); [apply B|]. rewrite D. cbn [rmap]. exists x.
    rewrite b64_bits_id. auto.
  - intros x. destruct (dec_spec (bits_of_b64 x)) as (_ & _ & D); [apply B|]. specialize (D 20%nat ltac:(lia) (proj2 (B x))). lia.
  - intros x. destruct (dec_spec (bits_of_b64 x)) as (_ & D & _); [apply B|]. eapply Forall_impl; [|exact D]. cbn. intros. lia.
Qed.
