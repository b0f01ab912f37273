(** C100: how far the height parameters computed in double precision are from the ones in real arithmetic. *)
From Coq Require Import ZArith Lia Bool Reals Lra List Permutation.
Require Import Flocq.Prop.Mult_error.
From Flocq Require Import Core.Core.
From Flocq Require Import IEEE754.BinarySingleNaN IEEE754.Binary IEEE754.Bits.
From Verif Require Import Base RList ModelBytes ProofFloat ModelSur ProofSur ModelParams ProofParams ModelFloatParams ProofFloatParams.
Import ListNotations.
Local Open Scope R_scope.

(** ** Specification *)
(** data within the range of the theorem: finite doubles, at most 2^45 of them, no larger than H <= 2^100; the
    summation routine passes no element through more than 2^45 additions *)
Definition within (depth : nat -> nat) (l : list f64) (H : R) : Prop :=
  Forall fin64 l /\ (Z.of_nat (length l) <= 2 ^ 45)%Z /\ (Z.of_nat (depth (length l)) <= 2 ^ 45)%Z /\
  (forall x, In x l -> Rabs (R64 x) <= H) /\ H <= bpow radix2 100.
(** x is a finite double within e of r *)
Definition near (x : f64) (r e : R) : Prop := fin64 x /\ Rabs (R64 x - r) <= e.
(** 2^-53, the rounding error of one operation *)
Definition ulp1 : R := bpow radix2 (-53).

(** ** The mean, and the data minus its mean (mean, center) *)
Theorem C100_mean : forall sum depth l H, summation sum depth -> within depth l H -> l <> [] ->
  let d := INR (depth (length l)) in
  near (fmean sum l) (meanR (map R64 l)) ((2 * d + 2) * ulp1 * H + bpow radix2 (-1075)).
Proof. intros sum depth l H Hs (A & B & C & D & E) Hl d. exact (fmean_ok sum depth Hs l H Hl A B C D E). Qed.

Theorem C100_center : forall sum depth l H, summation sum depth -> within depth l H ->
  let d := INR (depth (length l)) in
  length (float_center sum l) = length l /\
  forall i, (i < length l)%nat ->
    near (nth i (float_center sum l) fzero) (R64 (nth i l fzero) - meanR (map R64 l))
         ((2 * d + 5) * ulp1 * H + bpow radix2 (-1074)).
Proof.
  intros sum depth l H Hs (A & B & C & D & E) d. unfold float_center, fcentered. split; [apply map_length|].
  intros i Hi. assert (Hl : l <> []) by (intros ->; cbn in Hi; lia).
  rewrite (nth_indep _ fzero (fsub fzero (fmean sum l))) by (rewrite map_length; exact Hi).
  rewrite (map_nth (fun h => fsub h (fmean sum l))).
  destruct (fcentered_ok sum depth Hs l H Hl A B C D E _ (nth_In l fzero Hi)) as (F1 & F2 & _).
  split; [exact F1|]. eapply Rle_trans; [exact F2|]. unfold Ec, dd, uu, eta, ulp1, d.
  assert (X : 2 * bpow radix2 (-1075) = bpow radix2 (-1074)) by (change 2 with (bpow radix2 1); rewrite <- bpow_plus; f_equal).
  rewrite <- X. lra.
Qed.

(** ** Extrema *)
Lemma fmin_spec l : Forall fin64 l -> l <> [] -> In (fmin l) l /\ forall y, In y l -> R64 (fmin l) <= R64 y.
Proof.
  intros Hf Hn. apply (fextremum_spec flt Rle); auto using Rle_refl.
  - intros; eapply Rle_trans; eauto.
  - intros x y Hx Hy H. apply (fin_compare y x Hy Hx) in H. lra.
  - intros x y Hx Hy H. apply Rnot_lt_le. intros Hlt. apply (fin_compare y x Hy Hx) in Hlt. congruence.
Qed.
Lemma fmax_spec l : Forall fin64 l -> l <> [] -> In (fmax l) l /\ forall y, In y l -> R64 y <= R64 (fmax l).
Proof.
  intros Hf Hn. apply (fextremum_spec (fun y m => flt m y) (fun a b => (b <= a)%R)); auto using Rle_refl.
  - intros; eapply Rle_trans; eauto.
  - intros x y Hx Hy H. apply (fin_compare x y Hx Hy) in H. lra.
  - intros x y Hx Hy H. apply Rnot_lt_le. intros Hlt. apply (fin_compare x y Hx Hy) in Hlt. congruence.
Qed.
Lemma max_near {A} (f h : A -> R) (l : list A) M N e : is_max M (map f l) -> is_max N (map h l) ->
  (forall x, In x l -> Rabs (f x - h x) <= e) -> Rabs (M - N) <= e.
Proof.
  intros [A1 A2] [B1 B2] E. apply in_map_iff in A1 as (x & <- & Hx). apply in_map_iff in B1 as (y & <- & Hy).
  pose proof (A2 _ (in_map f l y Hy)). pose proof (B2 _ (in_map h l x Hx)).
  pose proof (Rabs_le_inv _ _ (E x Hx)). pose proof (Rabs_le_inv _ _ (E y Hy)). apply Rabs_le. lra.
Qed.
Lemma min_near {A} (f h : A -> R) (l : list A) M N e : is_min M (map f l) -> is_min N (map h l) ->
  (forall x, In x l -> Rabs (f x - h x) <= e) -> Rabs (M - N) <= e.
Proof.
  intros [A1 A2] [B1 B2] E. apply in_map_iff in A1 as (x & <- & Hx). apply in_map_iff in B1 as (y & <- & Hy).
  pose proof (A2 _ (in_map f l y Hy)). pose proof (B2 _ (in_map h l x Hx)).
  pose proof (Rabs_le_inv _ _ (E x Hx)). pose proof (Rabs_le_inv _ _ (E y Hy)). apply Rabs_le. lra.
Qed.
Lemma mul_sign x y : fin64 x -> fin64 y -> Rabs (R64 x * R64 y) <= bpow radix2 1000 ->
  Binary.Bsign 53 1024 (fmul x y) = xorb (Binary.Bsign 53 1024 x) (Binary.Bsign 53 1024 y).
Proof.
  intros Hx Hy H. pose proof (Binary.Bmult_correct 53 1024 eq_refl eq_refl binop_nan_pl64 mode_NE x y) as C.
  assert (L := no_overflow _ 1000 ltac:(lia) ltac:(lia) H). unfold rnd64, R64 in L.
  change (SpecFloat.fexp 53 1024) with (FLT_exp (-1074) 53) in C. cbn [round_mode] in C. rewrite L in C.
  destruct C as (C1 & C2 & C3). apply C3. apply fin_not_nan. unfold fin64 in *. rewrite Hx, Hy in C2. exact C2.
Qed.
Lemma mul_abs x : fin64 x -> Rabs (R64 x * R64 x) <= bpow radix2 1000 -> fmul (b64_abs x) (b64_abs x) = fmul x x.
Proof.
  intros F B. assert (Fa := abs_fin x F).
  assert (Ba : Rabs (R64 (b64_abs x) * R64 (b64_abs x)) <= bpow radix2 1000).
  { rewrite !abs_ok, <- Rabs_mult, Rabs_Rabsolu. exact B. }
  destruct (b64_mult_ok x x F F B) as [E1 G1]. destruct (b64_mult_ok _ _ Fa Fa Ba) as [E2 G2].
  apply (Binary.B2R_Bsign_inj 53 1024); auto.
  - fold (R64 (fmul (b64_abs x) (b64_abs x))) (R64 (fmul x x)). unfold fmul. rewrite E1, E2, !abs_ok, sqr_abs. reflexivity.
  - rewrite !mul_sign by auto. rewrite !xorb_nilpotent. reflexivity.
Qed.

(** ** The parameters *)
Theorem C100_height_parameters : forall sum depth l H p h, summation sum depth -> within depth l H ->
  float_height_parameters sum l = Ok p -> height_parameters (map R64 l) = Ok h ->
  let d := INR (depth (length l)) in
  near (fSa p) (Sa h) ((8 * d + 12) * ulp1 * H + bpow radix2 (-1072)) /\
  near (fSq p) (Sq h) ((11 * d + 30) * ulp1 * H + bpow radix2 (-535)) /\
  near (fSp p) (Sp h) ((2 * d + 5) * ulp1 * H + bpow radix2 (-1074)) /\
  near (fSv p) (Sv h) ((2 * d + 5) * ulp1 * H + bpow radix2 (-1074)) /\
  near (fSz p) (Sz h) ((4 * d + 17) * ulp1 * H + bpow radix2 (-1072)) /\
  0 <= R64 (fSa p) /\ 0 <= R64 (fSq p) /\ 0 <= R64 (fSv p).
Proof.
  intros sum depth l H p h Hs (A & B & C & D & E) Ep Eh d.
  assert (Hl : l <> []) by (intros ->; discriminate).
  destruct (hp_ok (map R64 l)) as (lo & hi & Hlo & Hhi & Eq); [apply map_ne', Hl|].
  rewrite Eq in Eh. injection Eh as <-. cbn [Sa Sq Sv Sp Sz hp_of].
  assert (Ep' : p = mkFP (float_Ra sum l) (float_Rq sum l) (b64_abs (fmin (fcentered sum l))) (fmax (fcentered sum l))
                     (fadd (fmax (fcentered sum l)) (b64_abs (fmin (fcentered sum l))))).
  { destruct l as [|x t]; [congruence|]. cbn [float_height_parameters] in Ep. apply (f_equal (fun r => match r with Ok v => v | Err _ => p end)) in Ep.
    cbn beta iota in Ep. rewrite <- Ep. f_equal. unfold float_Rq. do 3 f_equal. rewrite map_map. apply map_ext_in. intros y Hy.
    apply in_map_iff in Hy as (z & <- & Hz). apply mul_abs; [apply (c_ok sum depth Hs (x :: t) H Hl A B C D E z Hz)|].
    pose proof (c_bound sum depth Hs (x :: t) H Hl A B C D E z Hz) as Kb. unfold cf in Kb. rewrite Rabs_mult.
    pose proof (KK_big depth nil H E) as KB. apply Rle_trans with (bpow radix2 102 * bpow radix2 102).
    - apply Rmult_le_compat; try apply Rabs_pos; lra.
    - rewrite <- bpow_plus. apply bpow_le. lia. }
  rewrite Ep'. clear Ep Ep'. cbn [fSa fSq fSv fSp fSz].
  set (c := fcentered sum l).
  assert (Ic : c = map (cf sum l) l) by reflexivity.
  assert (OK := c_ok sum depth Hs l H Hl A B C D E).
  assert (Fc : Forall fin64 c).
  { apply Forall_forall. intros y Hy. rewrite Ic in Hy. apply in_map_iff in Hy as (x & <- & Hx). apply OK, Hx. }
  assert (Nc : c <> []) by (rewrite Ic; apply map_ne', Hl).
  destruct (fmin_spec c Fc Nc) as [In1 Le1]. destruct (fmax_spec c Fc Nc) as [In2 Le2].
  assert (Mn : is_min (R64 (fmin c)) (map (fun x => R64 (cf sum l x)) l)).
  { split.
    - rewrite <- map_map with (f := cf sum l). rewrite <- Ic. apply in_map, In1.
    - intros y Hy. rewrite <- map_map with (f := cf sum l) in Hy. rewrite <- Ic in Hy. apply in_map_iff in Hy as (z & <- & Hz). apply Le1, Hz. }
  assert (Mx : is_max (R64 (fmax c)) (map (fun x => R64 (cf sum l x)) l)).
  { split.
    - rewrite <- map_map with (f := cf sum l). rewrite <- Ic. apply in_map, In2.
    - intros y Hy. rewrite <- map_map with (f := cf sum l) in Hy. rewrite <- Ic in Hy. apply in_map_iff in Hy as (z & <- & Hz). apply Le2, Hz. }
  rewrite centered_map in Hlo, Hhi.
  assert (Emn : Rabs (R64 (fmin c) - lo) <= Ec depth l H) by (apply (min_near _ _ l _ _ _ Mn Hlo); intros x Hx; apply OK, Hx).
  assert (Emx : Rabs (R64 (fmax c) - hi) <= Ec depth l H) by (apply (max_near _ _ l _ _ _ Mx Hhi); intros x Hx; apply OK, Hx).
  assert (F1 : fin64 (fmin c)) by (rewrite Forall_forall in Fc; auto).
  assert (F2 : fin64 (fmax c)) by (rewrite Forall_forall in Fc; auto).
  assert (Eab : Rabs (Rabs (R64 (fmin c)) - Rabs lo) <= Ec depth l H) by (eapply Rle_trans; [apply Rabs_triang_inv2|exact Emn]).
  assert (T1 : 2 * eta = bpow radix2 (-1074)) by (unfold eta; change 2 with (bpow radix2 1); rewrite <- bpow_plus; f_equal).
  assert (T3 : 8 * eta = bpow radix2 (-1072)) by (unfold eta; change 8 with (bpow radix2 3); rewrite <- bpow_plus; f_equal).
  assert (EEc : Ec depth l H = (2 * d + 5) * ulp1 * H + bpow radix2 (-1074)) by (rewrite <- T1; reflexivity).
  destruct (Sa_error sum depth Hs l H Hl A B C D E) as (S1 & S2 & S3).
  destruct (Sq_error sum depth Hs l H Hl A B C D E) as (Q1 & Q2 & Q3).
  assert (Fz : fin64 (b64_abs (fmin c))) by (apply abs_fin, F1).
  assert (BK : forall y, In y c -> Rabs (R64 y) <= KK H).
  { intros y Hy. rewrite Ic in Hy. apply in_map_iff in Hy as (x & <- & Hx). apply (c_bound sum depth Hs l H Hl A B C D E x Hx). }
  pose proof (BK _ In1) as K1. pose proof (BK _ In2) as K2. pose proof (KK_big depth l H E) as KB.
  assert (Bz : Rabs (R64 (fmax c) + R64 (b64_abs (fmin c))) <= 2 * KK H).
  { rewrite abs_ok. eapply Rle_trans; [apply Rabs_triang|]. rewrite Rabs_Rabsolu. lra. }
  destruct (b64_plus_ok (fmax c) (b64_abs (fmin c)) F2 Fz) as [Ez Ff].
  { eapply Rle_trans; [exact Bz|]. apply Rle_trans with (2 * bpow radix2 102); [lra|]. change 2 with (bpow radix2 1).
    rewrite <- bpow_plus. apply bpow_le. lia. }
  repeat split; auto.
  - rewrite <- T3. exact S3.
  - rewrite <- EEc. exact Emx.
  - rewrite <- EEc, abs_ok. exact Eab.
  - change (fadd (fmax c) (b64_abs (fmin c))) with (b64_plus mode_NE (fmax c) (b64_abs (fmin c))). rewrite Ez.
    pose proof (rnd64_plus (fmax c) (b64_abs (fmin c))) as R. fold uu in R. rewrite abs_ok in *.
    set (a := R64 (fmax c)) in *. set (b := Rabs (R64 (fmin c))) in *.
    (* the rounding of the last sum, in terms of the true range, which is at most 4 H *)
    assert (H0' : 0 <= H) by exact (H0 l H Hl D).
    assert (Hhi2 : Rabs hi <= 2 * H).
    { destruct Hhi as [I _]. apply in_map_iff in I as (x & <- & Hx). apply OK, Hx. }
    assert (Hlo2 : Rabs lo <= 2 * H).
    { destruct Hlo as [I _]. apply in_map_iff in I as (x & <- & Hx). apply OK, Hx. }
    pose proof (small_Ec depth l H Hl C D) as SE. pose proof eta_pos as T0. pose proof uu_pos as U.
    assert (Bab : Rabs (a + b) <= 5 * H + 4 * eta).
    { replace (a + b) with ((a - hi) + (b - Rabs lo) + (hi + Rabs lo)) by ring.
      eapply Rle_trans; [apply Rabs_triang|]. eapply Rle_trans; [apply Rplus_le_compat; apply Rabs_triang|].
      rewrite Rabs_Rabsolu. lra. }
    assert (V : uu * Rabs (a + b) <= uu * (5 * H + 4 * eta)) by (apply Rmult_le_compat_l; lra).
    assert (V2 : uu * (4 * eta) <= / 100 * (4 * eta)).
    { apply Rmult_le_compat_r; [lra|]. pose proof uu_small as US. change (2 ^ 40)%Z with 1099511627776%Z in US. lra. }
    replace (rnd64 (a + b) - (hi + Rabs lo)) with ((rnd64 (a + b) - (a + b)) + ((a - hi) + (b - Rabs lo))) by ring.
    eapply Rle_trans; [apply Rabs_triang|]. eapply Rle_trans; [apply Rplus_le_compat_l, Rabs_triang|].
    rewrite <- T3. assert (0 <= uu * H) by (apply Rmult_le_pos; lra). rewrite EEc, <- T1 in Emx, Eab. unfold ulp1 in *. fold uu in *. lra.
  - rewrite abs_ok. apply Rabs_pos.
Qed.

(** an empty array is the only failure *)
Theorem C100_total : forall sum l, (exists p, float_height_parameters sum l = Ok p) <-> l <> [].
Proof.
  intros sum [|x t]; split; intros A.
  - destruct A as (p & E). discriminate E.
  - congruence.
  - discriminate.
  - eexists. reflexivity.
Qed.

(** ** Ra and Rq of a profile *)
Theorem C100_profile : forall sum depth l H, summation sum depth -> within depth l H -> l <> [] ->
  let d := INR (depth (length l)) in
  near (float_Ra sum l) (Ra (map R64 l)) ((8 * d + 12) * ulp1 * H + bpow radix2 (-1072)) /\
  near (float_Rq sum l) (Rq (map R64 l)) ((11 * d + 30) * ulp1 * H + bpow radix2 (-535)) /\
  0 <= R64 (float_Ra sum l) /\ 0 <= R64 (float_Rq sum l).
Proof.
  intros sum depth l H Hs (A & B & C & D & E) Hl d.
  destruct (Sa_error sum depth Hs l H Hl A B C D E) as (S1 & S2 & S3).
  destruct (Sq_error sum depth Hs l H Hl A B C D E) as (Q1 & Q2 & Q3).
  assert (T3 : 8 * eta = bpow radix2 (-1072)) by (unfold eta; change 8 with (bpow radix2 3); rewrite <- bpow_plus; f_equal).
  assert (E1 : Ra (map R64 l) = meanR (map Rabs (centered (map R64 l)))).
  { unfold Ra, centered, meanR. rewrite !map_map, !map_length. reflexivity. }
  assert (E2 : Rq (map R64 l) = sqrt (mom 2 (centered (map R64 l)))).
  { unfold Rq, mom, centered, meanR. rewrite !map_map, !map_length. reflexivity. }
  rewrite E1, E2, <- T3. repeat split; auto.
Qed.

(** ** zero() *)
Theorem C100_zero : forall l, Forall fin64 l -> (forall x, In x l -> Rabs (R64 x) <= bpow radix2 999) -> l <> [] ->
  length (float_zero l) = length l /\
  (* the lowest height becomes 0 exactly, and no other does *)
  is_min 0 (map R64 (float_zero l)) /\
  (forall i, (i < length l)%nat ->
     let x := R64 (nth i l fzero) in let z := R64 (nth i (float_zero l) fzero) in
     fin64 (nth i (float_zero l) fzero) /\ (z = 0 <-> forall y, In y l -> x <= R64 y) /\
     (forall lo, is_min lo (map R64 l) -> Rabs (z - (x - lo)) <= ulp1 * (x - lo))) /\
  (* heights keep their order *)
  (forall i j, (i < length l)%nat -> (j < length l)%nat -> R64 (nth i l fzero) <= R64 (nth j l fzero) ->
     R64 (nth i (float_zero l) fzero) <= R64 (nth j (float_zero l) fzero)).
Proof.
  intros l HF HB Hl. destruct (fmin_spec l HF Hl) as [Im Lm]. set (m := fmin l) in *.
  assert (Bd : forall x, In x l -> Rabs (R64 x - R64 m) <= bpow radix2 1000).
  { intros x Hx. replace (bpow radix2 1000) with (bpow radix2 999 + bpow radix2 999)
      by (replace (bpow radix2 1000) with (2 * bpow radix2 999) by (change 2 with (bpow radix2 1); rewrite <- bpow_plus; f_equal); ring).
    eapply Rle_trans; [apply Rabs_triang|]. rewrite Rabs_Ropp. apply Rplus_le_compat; auto. }
  rewrite Forall_forall in HF.
  assert (OK : forall x, In x l -> R64 (fsub x m) = rnd64 (R64 x - R64 m) /\ fin64 (fsub x m)).
  { intros x Hx. apply b64_minus_ok; auto. }
  assert (NT : forall i, (i < length l)%nat -> nth i (float_zero l) fzero = fsub (nth i l fzero) m).
  { intros i Hi. unfold float_zero. fold m. rewrite (nth_indep _ fzero (fsub fzero m)) by (rewrite map_length; exact Hi).
    rewrite (map_nth (fun h => fsub h m)). reflexivity. }
  assert (MN : forall lo, is_min lo (map R64 l) -> lo = R64 m).
  { intros lo Hlo. apply (is_min_unique (map R64 l)); auto. split; [apply in_map, Im|].
    intros y Hy. apply in_map_iff in Hy as (z & <- & Hz). auto. }
  assert (ER : forall x, In x l -> Rabs (R64 (fsub x m) - (R64 x - R64 m)) <= ulp1 * (R64 x - R64 m)).
  { intros x Hx. rewrite (proj1 (OK x Hx)). pose proof (rnd64_minus x m) as R. rewrite (Rabs_pos_eq (R64 x - R64 m)) in R; auto.
    specialize (Lm x Hx). lra. }
  assert (UP : 0 < ulp1 <= / 2) by (split; [apply bpow_gt_0|change (/ 2) with (bpow radix2 (-1)); apply bpow_le; lia]).
  split; [apply map_length|]. split; [|split].
  - split.
    + unfold float_zero. fold m. rewrite map_map. apply in_map_iff. exists m. split; [|exact Im].
      rewrite (proj1 (OK m Im)). replace (R64 m - R64 m) with 0 by ring. apply rnd64_0.
    + intros y Hy. unfold float_zero in Hy. fold m in Hy. rewrite map_map in Hy. apply in_map_iff in Hy as (x & <- & Hx).
      rewrite (proj1 (OK x Hx)), <- rnd64_0. apply rnd64_le. specialize (Lm x Hx). lra.
  - intros i Hi x z. assert (Hx : In (nth i l fzero) l) by (apply nth_In, Hi). unfold z. rewrite (NT i Hi). fold x.
    split; [apply OK, Hx|]. pose proof (ER _ Hx) as R. fold x in R. pose proof (Lm _ Hx) as Lx. fold x in Lx. split; [split|].
    + intros E y Hy. rewrite E in R. rewrite Rminus_0_l, Rabs_Ropp, Rabs_pos_eq in R by lra.
      assert (x - R64 m <= 0).
      { destruct (Rle_dec (x - R64 m) 0); [lra|]. assert (ulp1 * (x - R64 m) <= / 2 * (x - R64 m)) by (apply Rmult_le_compat_r; lra). lra. }
      specialize (Lm y Hy). lra.
    + intros L. specialize (L m Im). rewrite (proj1 (OK _ Hx)). fold x. replace (x - R64 m) with 0 by lra. apply rnd64_0.
    + intros lo Hlo. rewrite (MN lo Hlo). exact R.
  - intros i j Hi Hj L. rewrite (NT i Hi), (NT j Hj), (proj1 (OK _ (nth_In l fzero Hi))), (proj1 (OK _ (nth_In l fzero Hj))).
    apply rnd64_le. lra.
Qed.

(** ** A flat surface does not have flat parameters *)
Lemma double_exact x : rnd64 (2 * R64 x) = 2 * R64 x.
Proof.
  apply round_generic; [auto with typeclass_instances|]. rewrite Rmult_comm. change 2 with (bpow radix2 1).
  apply mult_bpow_pos_exact_FLT; [apply format64|lia].
Qed.
Lemma rnd64_rnd r : rnd64 (rnd64 r) = rnd64 r.
Proof. apply round_generic; [auto with typeclass_instances|]. apply generic_format_round; auto with typeclass_instances. Qed.
Lemma multiples x a b : (a + b <= 3)%nat ->
  rnd64 (rnd64 (INR a * R64 x) + rnd64 (INR b * R64 x)) = rnd64 (INR (a + b) * R64 x).
Proof.
  intros H.
  assert (E : forall k, (k <= 2)%nat -> rnd64 (INR k * R64 x) = INR k * R64 x).
  { intros [|[|[|k]]] Hk; try lia; cbn [INR].
    - rewrite Rmult_0_l. apply rnd64_0.
    - rewrite Rmult_1_l. apply rnd64_id.
    - replace (1 + 1) with 2 by ring. apply double_exact. }
  destruct a as [|a].
  - cbn [INR Nat.add]. rewrite Rmult_0_l, rnd64_0, Rplus_0_l. apply rnd64_rnd.
  - destruct b as [|b].
    + cbn [INR]. rewrite Nat.add_0_r, Rmult_0_l, rnd64_0, Rplus_0_r. apply rnd64_rnd.
    + rewrite (E (S a)), (E (S b)) by lia. rewrite plus_INR. f_equal. ring.
Qed.
(** any sum of at most three copies of x is the rounded multiple of x *)
Lemma sums_copies x : fin64 x -> Rabs (R64 x) <= bpow radix2 900 -> forall d l s, sums d l s -> (length l <= 3)%nat ->
  (forall y, In y l -> y = x) -> fin64 s /\ R64 s = rnd64 (INR (length l) * R64 x).
Proof.
  intros Fx Bx d l s HS. destruct fzero_ok as [Z1 Z2].
  assert (V : forall k, (k <= 3)%nat -> Rabs (rnd64 (INR k * R64 x)) <= bpow radix2 902).
  { intros k Hk. apply rnd64_abs_le; [lia|]. rewrite Rabs_mult, Rabs_pos_eq by apply pos_INR.
    replace (bpow radix2 902) with (4 * bpow radix2 900) by (change 4 with (bpow radix2 2); rewrite <- bpow_plus; f_equal).
    apply Rmult_le_compat; auto using pos_INR, Rabs_pos. apply le_INR in Hk. cbn in Hk. lra. }
  induction HS as [|y|d d' l l' s s' H1 IH1 H2 IH2|d l s H IH|d l l' s Hp H IH]; intros L A.
  - cbn. rewrite Rmult_0_l, rnd64_0. auto.
  - rewrite (A y (or_introl eq_refl)). cbn. rewrite Rmult_1_l, rnd64_id. auto.
  - rewrite app_length in *. destruct IH1 as [F1 E1]; [lia|intros; apply A, in_or_app; auto|].
    destruct IH2 as [F2 E2]; [lia|intros; apply A, in_or_app; auto|].
    assert (B1 := V (length l) ltac:(lia)). assert (B2 := V (length l') ltac:(lia)).
    destruct (b64_plus_ok s s' F1 F2) as [E F].
    { rewrite E1, E2. eapply Rle_trans; [apply Rabs_triang|]. apply Rle_trans with (2 * bpow radix2 902); [lra|].
      change 2 with (bpow radix2 1). rewrite <- bpow_plus. apply bpow_le. lia. }
    split; [exact F|]. change (fadd s s') with (b64_plus mode_NE s s'). rewrite E, E1, E2.
    apply multiples. lia.
  - destruct (IH L A) as [F E]. assert (B1 := V (length l) L).
    destruct (b64_plus_ok fzero s Z2 F) as [E' F'].
    { rewrite Z1, Rplus_0_l, E. eapply Rle_trans; [exact B1|]. apply bpow_le. lia. }
    split; [exact F'|]. change (fadd fzero s) with (b64_plus mode_NE fzero s). rewrite E', Z1, Rplus_0_l, rnd64_id. exact E.
  - rewrite <- (Permutation_length Hp) in *. apply IH; auto. intros y Hy. apply A, (Permutation_in y Hp), Hy.
Qed.

(** the double nearest to 0.1, and three points at that height *)
Definition tenth : f64 := b64_of_bits 0x3FB999999999999A.
Definition flat3 : list f64 := [tenth; tenth; tenth].
Definition tsum : f64 := fadd (fadd tenth tenth) tenth.
Definition tdev : f64 := fsub tenth (fdiv tsum (f64_of_Z 3)).
Lemma R64_float s m e He : R64 (Binary.B754_finite 53 1024 s m e He) = F2R (Float radix2 (cond_Zopp s (Zpos m)) e).
Proof. reflexivity. Qed.
Definition shape (x : f64) : option (bool * positive * Z) :=
  match x with Binary.B754_finite _ _ s m e _ => Some (s, m, e) | _ => None end.
Lemma shape_R x s m e : shape x = Some (s, m, e) -> fin64 x /\ R64 x = F2R (Float radix2 (cond_Zopp s (Zpos m)) e).
Proof. destruct x; try discriminate. cbn. intros E. injection E as <- <- <-. split; reflexivity. Qed.
Lemma tenth_R : fin64 tenth /\ R64 tenth = F2R (Float radix2 7205759403792794 (-56)).
Proof. apply (shape_R tenth false). vm_compute. reflexivity. Qed.
Lemma tdev_R : fin64 tdev /\ R64 tdev = - bpow radix2 (-56).
Proof.
  destruct (shape_R tdev true 4503599627370496 (-108)) as [A B]; [vm_compute; reflexivity|]. split; [exact A|].
  rewrite B. unfold F2R. cbn [Fnum Fexp cond_Zopp]. change (Z.neg 4503599627370496) with (- (2 ^ 52))%Z.
  rewrite opp_IZR. replace (bpow radix2 (-56)) with (bpow radix2 52 * bpow radix2 (-108)) by (rewrite <- bpow_plus; reflexivity).
  change (bpow radix2 52) with 4503599627370496. ring.
Qed.
Lemma tsum_sums : exists d, sums d flat3 tsum.
Proof.
  eexists. exact (sums_add _ _ [tenth; tenth] [tenth] _ _ (sums_add _ _ [tenth] [tenth] _ _ (sums_one tenth) (sums_one tenth)) (sums_one tenth)).
Qed.
Lemma tenth_small : Rabs (R64 tenth) <= 1.
Proof.
  rewrite (proj2 tenth_R). rewrite Rabs_pos_eq by (apply F2R_ge_0; cbn; lia).
  unfold F2R. cbn [Fnum Fexp]. apply Rle_trans with (bpow radix2 56 * bpow radix2 (-56)).
  - apply Rmult_le_compat_r; [apply bpow_ge_0|]. change (bpow radix2 56) with (IZR (2 ^ 56)). apply IZR_le. lia.
  - rewrite <- bpow_plus. cbn. lra.
Qed.
Lemma one_le_big e : (0 <= e)%Z -> 1 <= bpow radix2 e.
Proof. intros. change 1 with (bpow radix2 0). apply bpow_le. lia. Qed.
Lemma copies3 sum depth (Hs : summation sum depth) x : fin64 x -> Rabs (R64 x) <= bpow radix2 900 ->
  fin64 (sum [x; x; x]) /\ R64 (sum [x; x; x]) = rnd64 (3 * R64 x).
Proof.
  intros F B. destruct (Hs [x; x; x]) as (d & _ & S1).
  destruct (sums_copies x F B d _ _ S1) as [A E]; [cbn; lia|intros y [<-|[<-|[<-|[]]]]; reflexivity|].
  split; [exact A|]. rewrite E. f_equal. cbn. ring.
Qed.
Lemma size3 (l : list f64) : length l = 3%nat -> R64 (fsize l) = 3.
Proof. intros E. rewrite fsize_ok by (rewrite E; cbn; lia). rewrite E. cbn. ring. Qed.
(** the mean of the three points is one unit in the last place too high, whatever the order of the additions *)
Lemma flat3_dev sum depth (Hs : summation sum depth) :
  fin64 (fsub tenth (fmean sum flat3)) /\ R64 (fsub tenth (fmean sum flat3)) = - bpow radix2 (-56).
Proof.
  destruct tenth_R as [Ft _]. pose proof tenth_small as Bt.
  assert (B9 : Rabs (R64 tenth) <= bpow radix2 900) by (eapply Rle_trans; [exact Bt|]; apply one_le_big; lia).
  destruct (copies3 sum depth Hs tenth Ft B9) as [F1 E1].
  destruct tsum_sums as (d & S2). destruct (sums_copies tenth Ft B9 d _ _ S2) as [F2 E2];
    [cbn; lia|intros y [<-|[<-|[<-|[]]]]; reflexivity|].
  assert (E3 : R64 (sum flat3) = R64 tsum) by (unfold flat3; rewrite E1, E2; f_equal; cbn; ring).
  assert (S4 : Rabs (R64 tsum) <= 4).
  { rewrite E2. change 4 with (bpow radix2 2). apply rnd64_abs_le; [lia|]. cbn [INR flat3 length]. rewrite Rabs_mult, Rabs_pos_eq by lra.
    change (bpow radix2 2) with 4. lra. }
  pose proof (size3 flat3 eq_refl) as Z3. destruct (f64_of_Z_ok 3) as [Z4 _]; [cbn; lia|].
  assert (Q : Rabs (R64 tsum / 3) <= 2).
  { unfold Rdiv. rewrite Rabs_mult, (Rabs_pos_eq (/ 3)) by lra. lra. }
  assert (Q2 : 2 <= bpow radix2 1000) by (change 2 with (bpow radix2 1); apply bpow_le; lia).
  destruct (b64_div_ok (sum flat3) (fsize flat3) F1) as [M1 M2]; [rewrite Z3; lra|rewrite Z3, E3; lra|].
  destruct (b64_div_ok tsum (f64_of_Z 3) F2) as [N1 N2]; [rewrite Z4; lra|rewrite Z4; lra|].
  assert (EM : R64 (fmean sum flat3) = R64 (fdiv tsum (f64_of_Z 3))).
  { change (fmean sum flat3) with (b64_div mode_NE (sum flat3) (fsize flat3)). unfold fdiv. rewrite M1, N1, Z3, Z4, E3. reflexivity. }
  assert (BM : Rabs (R64 (fdiv tsum (f64_of_Z 3))) <= 2).
  { unfold fdiv. rewrite N1, Z4. change 2 with (bpow radix2 1). apply rnd64_abs_le; [lia|]. exact Q. }
  assert (BD : Rabs (R64 tenth - R64 (fdiv tsum (f64_of_Z 3))) <= bpow radix2 1000).
  { eapply Rle_trans; [apply Rabs_triang|]. rewrite Rabs_Ropp. apply Rle_trans with 4; [lra|]. change 4 with (bpow radix2 2). apply bpow_le; lia. }
  destruct (b64_minus_ok tenth (fmean sum flat3) Ft M2) as [D1 D2]; [rewrite EM; exact BD|].
  destruct (b64_minus_ok tenth (fdiv tsum (f64_of_Z 3)) Ft N2) as [D3 D4]; [exact BD|].
  split; [exact D2|]. rewrite <- (proj2 tdev_R). unfold tdev, fsub. rewrite D1, D3, EM. reflexivity.
Qed.
(** sum of three equal positive doubles over 3 *)
Lemma third_pos sum depth (Hs : summation sum depth) y e : fin64 y -> R64 y = bpow radix2 e -> (-900 <= e <= 0)%Z ->
  fin64 (fdiv (sum [y; y; y]) (fsize [y; y; y])) /\ bpow radix2 (e - 2) <= R64 (fdiv (sum [y; y; y]) (fsize [y; y; y])).
Proof.
  intros F E He. assert (P := bpow_gt_0 radix2 e).
  assert (B1 : bpow radix2 e <= 1) by (change 1 with (bpow radix2 0); apply bpow_le; lia).
  destruct (copies3 sum depth Hs y F) as [F1 E1].
  { rewrite E, Rabs_pos_eq by lra. apply bpow_le. lia. }
  pose proof (size3 [y; y; y] eq_refl) as Z3.
  assert (LS : bpow radix2 e <= R64 (sum [y; y; y]) <= 4).
  { rewrite E1, E. split.
    - rewrite <- (rnd64_bpow e) at 1 by lia. apply rnd64_le. lra.
    - change 4 with (bpow radix2 2). rewrite <- (rnd64_bpow 2) by lia. apply rnd64_le. change (bpow radix2 2) with 4. lra. }
  destruct (b64_div_ok (sum [y; y; y]) (fsize [y; y; y]) F1) as [M1 M2].
  - rewrite Z3. lra.
  - rewrite Z3, Rabs_pos_eq by (unfold Rdiv; lra). apply Rle_trans with 4; [unfold Rdiv; lra|]. change 4 with (bpow radix2 2). apply bpow_le; lia.
  - split; [exact M2|]. change (fdiv (sum [y; y; y]) (fsize [y; y; y])) with (b64_div mode_NE (sum [y; y; y]) (fsize [y; y; y])).
    rewrite M1, Z3. rewrite <- (rnd64_bpow (e - 2)) by lia. apply rnd64_le.
    replace (bpow radix2 (e - 2)) with (/ 4 * bpow radix2 e) by (unfold Z.sub; rewrite bpow_plus; cbn; ring).
    unfold Rdiv. lra.
Qed.
(** In real arithmetic a flat surface has Sa = Sq = Sp = 0 and a highest point no lower than its mean.  In double
    precision three points at 0.1 have a mean above all of them: Sp is negative, Sa and Sq are not 0. *)
Theorem C100_flat_refuted : forall sum depth, summation sum depth ->
  (exists h, height_parameters (map R64 flat3) = Ok h /\ Sa h = 0 /\ Sq h = 0 /\ Sp h = 0) /\
  (exists p, float_height_parameters sum flat3 = Ok p /\ R64 (fSp p) < 0 /\ 0 < R64 (fSa p) /\ 0 < R64 (fSq p)).
Proof.
  intros sum depth Hs. split.
  - destruct (hp_ok (map R64 flat3)) as (lo & hi & Hlo & Hhi & E); [discriminate|]. eexists. split; [exact E|].
    set (X := R64 tenth). assert (C : centered (map R64 flat3) = [0; 0; 0]).
    { unfold centered, flat3. cbn [map]. fold X. assert (M : meanR [X; X; X] = X) by (unfold meanR; cbn; field). rewrite M, Rminus_diag_eq; reflexivity. }
    rewrite C in *. cbn [Sa Sq Sp hp_of]. split; [|split].
    + unfold meanR. cbn. rewrite Rabs_R0. field.
    + replace (mom 2 [0; 0; 0]) with 0; [apply sqrt_0|]. unfold mom, meanR. cbn. field.
    + destruct Hhi as [[<-|[<-|[<-|[]]]] _]; reflexivity.
  - eexists. split; [reflexivity|]. cbn [fSp fSa fSq].
    destruct (flat3_dev sum depth Hs) as [Fd Ed]. set (y := fsub tenth (fmean sum flat3)) in *.
    assert (Ec3 : fcentered sum flat3 = [y; y; y]) by reflexivity. rewrite Ec3. cbn [map].
    pose proof (bpow_gt_0 radix2 (-56)) as P56.
    assert (Fa : fin64 (b64_abs y)) by (apply abs_fin, Fd).
    assert (Ea : R64 (b64_abs y) = bpow radix2 (-56)) by (rewrite abs_ok, Ed, Rabs_Ropp; apply Rabs_pos_eq; lra).
    split; [|split].
    + destruct (fmax_spec [y; y; y]) as [I _]; [repeat apply Forall_cons; auto|discriminate|].
      destruct I as [<-|[<-|[<-|[]]]]; rewrite Ed; lra.
    + destruct (third_pos sum depth Hs (b64_abs y) (-56) Fa Ea) as [_ L]; [lia|].
      eapply Rlt_le_trans; [|exact L]. apply bpow_gt_0.
    + set (w := fmul (b64_abs y) (b64_abs y)).
      assert (X2 : bpow radix2 (-56) * bpow radix2 (-56) = bpow radix2 (-112)) by (rewrite <- bpow_plus; reflexivity).
      destruct (b64_mult_ok (b64_abs y) (b64_abs y) Fa Fa) as [Ew Fw].
      { rewrite Ea, X2, Rabs_pos_eq by apply bpow_ge_0. apply bpow_le. lia. }
      rewrite Ea, X2, rnd64_bpow in Ew by lia.
      destruct (third_pos sum depth Hs w (-112) Fw Ew) as [Fq L]; [lia|].
      change (fsize flat3) with (fsize [w; w; w]). set (q := fdiv (sum [w; w; w]) (fsize [w; w; w])) in *.
      assert (P : 0 <= R64 q) by (eapply Rle_trans; [|exact L]; apply bpow_ge_0).
      destruct (sqrt_ok q Fq P) as [E2 _].
      change (bpow radix2 (-112 - 2)) with (bpow radix2 (-57 + -57)) in L. rewrite bpow_plus in L.
      assert (L2 : bpow radix2 (-57) <= sqrt (R64 q)).
      { rewrite <- (sqrt_square (bpow radix2 (-57))) by apply bpow_ge_0. apply sqrt_le_1; [rewrite <- bpow_plus; apply bpow_ge_0| |exact L].
        eapply Rle_trans; [|exact L]. rewrite <- bpow_plus; apply bpow_ge_0. }
      match goal with |- 0 < ?r => change r with (R64 (b64_sqrt mode_NE q)) end.
      rewrite E2. apply Rlt_le_trans with (rnd64 (bpow radix2 (-57))); [rewrite rnd64_bpow by lia; apply bpow_gt_0|apply rnd64_le, L2].
Qed.

(** ** The hypotheses are met *)
(** adding from left to right is a summation, of depth the length *)
Theorem C100_left_to_right : summation sum_left (fun n => n).
Proof. apply sum_left_ok. Qed.
(** the three points above are in range, with H = 1 *)
Example flat3_within : within (fun n => n) flat3 1.
Proof.
  destruct tenth_R as [F _]. pose proof tenth_small as B. repeat split.
  - repeat apply Forall_cons; auto.
  - cbn. lia.
  - cbn. lia.
  - intros x [<-|[<-|[<-|[]]]]; exact B.
  - apply one_le_big. lia.
Qed.
(** so their Sq is at most 63 * 2^-53 + 2^-535 although not 0 *)
Example flat3_near_zero : exists p, float_height_parameters sum_left flat3 = Ok p /\ R64 (fSq p) <= 63 * ulp1 + bpow radix2 (-535).
Proof.
  destruct (C100_flat_refuted sum_left _ sum_left_ok) as ((h & Eh & _ & Hq & _) & (p & Ep & _)). exists p. split; [exact Ep|].
  destruct (C100_height_parameters sum_left _ flat3 1 p h sum_left_ok flat3_within Ep Eh) as (_ & (_ & Q) & _).
  rewrite Hq, Rminus_0_r in Q. apply Rabs_le_inv in Q. cbn [INR length flat3] in Q. lra.
Qed.
