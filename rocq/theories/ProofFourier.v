(** The exact discrete Fourier transform of a cosine, and Parseval's identity. *)
From Coq Require Import Reals List Bool Arith ZArith Lia Lra.
From Verif Require Import Base RList ModelMath ModelHeights ModelDetrend ModelGeom ModelAcf ModelFourier PropsAcf.
Import ListNotations.
Local Open Scope R_scope.

Lemma cos_Zperiod x (k : Z) : cos (x + 2 * PI * IZR k) = cos x.
Proof.
  destruct (Z_le_gt_dec 0 k) as [H|H].
  - rewrite <- (cos_period x (Z.to_nat k)). f_equal. rewrite INR_IZR_INZ, Z2Nat.id by exact H. ring.
  - rewrite <- (cos_period (x + 2 * PI * IZR k) (Z.to_nat (- k))). f_equal. rewrite INR_IZR_INZ, Z2Nat.id by lia. rewrite opp_IZR. ring.
Qed.
Lemma telescope (F : nat -> R) n : sumR (map (fun j => F (S j) - F j) (seq 0 n)) = F n - F 0%nat.
Proof.
  induction n as [|n IH]; [unfold sumR; cbn; lra|]. rewrite seq_S, map_app, sumR_app, IH. cbn [map Nat.add]. rewrite sumR_cons. unfold sumR. cbn [fold_right]. lra.
Qed.
Lemma sumR_scale {A} (k : R) (f : A -> R) l : sumR (map (fun x => k * f x) l) = k * sumR (map f l).
Proof. induction l as [|x l IH]; cbn [map]; [unfold sumR; cbn [fold_right]; lra|]. rewrite !sumR_cons, IH. lra. Qed.
Lemma sumR_plus {A} (f h : A -> R) l : sumR (map (fun x => f x + h x) l) = sumR (map f l) + sumR (map h l).
Proof. induction l as [|x l IH]; cbn [map]; [unfold sumR; cbn [fold_right]; lra|]. rewrite !sumR_cons, IH. lra. Qed.
Lemma sum2_ext N M f h : (forall i j, (i < N)%nat -> (j < M)%nat -> f i j = h i j) -> sum2 N M f = sum2 N M h.
Proof. intros H. unfold sum2. apply sumR_ext. intros i Hi. apply in_seq in Hi. apply sumR_ext. intros j Hj. apply in_seq in Hj. apply H; lia. Qed.
Lemma sum2_scale N M k f : sum2 N M (fun i j => k * f i j) = k * sum2 N M f.
Proof. unfold sum2. rewrite <- sumR_scale. apply sumR_ext. intros i _. apply sumR_scale. Qed.
Lemma sum2_plus N M f h : sum2 N M (fun i j => f i j + h i j) = sum2 N M f + sum2 N M h.
Proof. unfold sum2. rewrite <- sumR_plus. apply sumR_ext. intros i _. apply sumR_plus. Qed.
Lemma sum2_const N M k : sum2 N M (fun _ _ => k) = INR N * INR M * k.
Proof. unfold sum2. rewrite (sumR_ext _ (fun _ => INR M * k)) by (intros; rewrite sumR_map_const, seq_length; reflexivity). rewrite sumR_map_const, seq_length. ring. Qed.
Lemma sum2_nonneg N M f : (forall i j, (i < N)%nat -> (j < M)%nat -> 0 <= f i j) -> 0 <= sum2 N M f.
Proof.
  intros H. unfold sum2. apply sumR_nonneg. intros x Hx. apply in_map_iff in Hx. destruct Hx as (i & <- & Hi). apply in_seq in Hi. apply sumR_nonneg. intros y Hy. apply in_map_iff in Hy. destruct Hy as (j & <- & Hj). apply in_seq in Hj. apply H; lia.
Qed.
Lemma sum2_swap N M f : sum2 N M f = sum2 M N (fun j i => f i j).
Proof.
  unfold sum2. generalize (seq 0 M) as ys. generalize (seq 0 N) as xs. intros xs ys. induction xs as [|x xs IH]; cbn [map].
  - rewrite (sumR_ext _ (fun _ => 0)) by reflexivity. rewrite sumR_map_const. unfold sumR. cbn [fold_right]. ring.
  - rewrite sumR_cons, IH, <- sumR_plus. apply sumR_ext. intros y _. reflexivity.
Qed.

Definition hit (n : nat) (m : Z) : bool := Z.eqb (m mod Z.of_nat n) 0.
Lemma hit_iff n m : (0 < n)%nat -> (hit n m = true <-> (Z.of_nat n | m)%Z).
Proof. intros H. unfold hit. rewrite Z.eqb_eq. apply Z.mod_divide. lia. Qed.
(** the sum of a cosine over whole turns *)
Lemma cos_sum M (m : Z) phi : (0 < M)%nat -> sumR (map (fun j => cos (2 * PI * (IZR m * INR j / INR M) + phi)) (seq 0 M)) = if hit M m then INR M * cos phi else 0.
Proof.
  intros HM. assert (HM' : INR M <> 0) by (apply not_0_INR; lia). destruct (hit M m) eqn:Hh.
  - apply (hit_iff M m HM) in Hh. destruct Hh as [k ->]. rewrite (sumR_ext _ (fun _ => cos phi)); [rewrite sumR_map_const, seq_length; reflexivity|]. intros j _.
    rewrite mult_IZR, <- INR_IZR_INZ. replace (2 * PI * (IZR k * INR M * INR j / INR M) + phi) with (phi + 2 * PI * IZR (k * Z.of_nat j)); [apply cos_Zperiod|]. rewrite mult_IZR, <- INR_IZR_INZ. field. exact HM'.
  - set (al := 2 * PI * IZR m / INR M). assert (S0 : sin (al / 2) <> 0).
    { intros C. apply sin_eq_0_0 in C. destruct C as [k C]. assert (D : (m = k * Z.of_nat M)%Z).
      { apply eq_IZR. rewrite mult_IZR, <- INR_IZR_INZ. unfold al in C. pose proof PI_RGT_0. apply Rmult_eq_reg_l with (PI / INR M); [|apply Rmult_integral_contrapositive_currified; [lra|apply Rinv_neq_0_compat; exact HM']].
        transitivity (2 * PI * IZR m / INR M / 2); [field; exact HM'|]. rewrite C. field. exact HM'. }
      assert (hit M m = true); [|congruence]. apply (hit_iff M m HM). exists k. exact D. }
    set (F := fun j : nat => sin (al * INR j - al / 2 + phi)).
    assert (E : 2 * sin (al / 2) * sumR (map (fun j => cos (2 * PI * (IZR m * INR j / INR M) + phi)) (seq 0 M)) = F M - F 0%nat).
    { rewrite <- telescope, <- sumR_scale. apply sumR_ext. intros j _. unfold F. rewrite S_INR.
      replace (2 * PI * (IZR m * INR j / INR M) + phi) with (al * INR j + phi) by (unfold al; field; exact HM').
      replace (al * (INR j + 1) - al / 2 + phi) with ((al * INR j + phi) + al / 2) by field. replace (al * INR j - al / 2 + phi) with ((al * INR j + phi) - al / 2) by field. rewrite sin_plus, sin_minus. ring. }
    assert (F0 : F M = F 0%nat).
    { unfold F. replace (al * INR M - al / 2 + phi) with ((- (al / 2) + phi) + 2 * PI * IZR m) by (unfold al; field; exact HM'). replace (al * INR 0 - al / 2 + phi) with (- (al / 2) + phi) by (cbn [INR]; field).
      rewrite <- (cos_shift), <- (cos_shift (- (al / 2) + phi)). rewrite <- (cos_Zperiod (PI / 2 - (- (al / 2) + phi + 2 * PI * IZR m)) m). f_equal. ring. }
    rewrite F0 in E. apply Rmult_integral in E || idtac. destruct (Rmult_integral _ _ (eq_trans E (Rminus_diag_eq _ _ eq_refl))) as [X|X]; [exfalso; lra|exact X].
Qed.
Lemma cos_sum2 N M (m l : Z) phi : (0 < N)%nat -> (0 < M)%nat ->
  sum2 N M (fun i j => cos (2 * PI * (IZR m * INR i / INR N + IZR l * INR j / INR M) + phi)) = if hit N m && hit M l then INR N * INR M * cos phi else 0.
Proof.
  intros HN HM. unfold sum2. rewrite (sumR_ext _ (fun i => if hit M l then INR M * cos (2 * PI * (IZR m * INR i / INR N) + phi) else 0)).
  - destruct (hit M l).
    + rewrite sumR_scale, cos_sum by exact HN. destruct (hit N m); cbn [andb]; ring.
    + rewrite sumR_map_const. rewrite andb_false_r. ring.
  - intros i _. rewrite <- cos_sum by exact HM. apply sumR_ext. intros j _. f_equal. ring.
Qed.
Lemma sin_as_cos x : sin x = cos (x - PI / 2).
Proof. rewrite <- cos_shift. rewrite <- (cos_neg (x - PI / 2)). f_equal. ring. Qed.
Lemma sin_sum2 N M (m l : Z) phi : (0 < N)%nat -> (0 < M)%nat ->
  sum2 N M (fun i j => sin (2 * PI * (IZR m * INR i / INR N + IZR l * INR j / INR M) + phi)) = if hit N m && hit M l then INR N * INR M * sin phi else 0.
Proof.
  intros HN HM. rewrite (sin_as_cos phi), <- cos_sum2 by assumption. apply sum2_ext. intros i j _ _. rewrite sin_as_cos. f_equal. ring.
Qed.

(** *** The transform of a cosine *)
Definition wave (a phi off : R) (p q : Z) (N M i j : nat) : R := off + a * cos (2 * PI * (IZR p * INR i / INR N + IZR q * INR j / INR M) + phi).
Section Wave.
Variables (a phi off : R) (p q : Z) (N M : nat).
Hypotheses (HN : (0 < N)%nat) (HM : (0 < M)%nat).
Hypothesis Hnz : hit N p && hit M q = false.
Let z := wave a phi off p q N M.
Let nm := INR N * INR M.
Lemma nm_pos : 0 < nm. Proof. apply Rmult_lt_0_compat; apply lt_0_INR; assumption. Qed.
Lemma wave_mean : mean2 z N M = off.
Proof.
  unfold mean2, z, wave. rewrite sum2_plus, sum2_const, sum2_scale, cos_sum2 by assumption. rewrite Hnz. fold nm. field. pose proof nm_pos. lra.
Qed.
Lemma wave_centred i j : centred z N M i j = a * cos (2 * PI * (IZR p * INR i / INR N + IZR q * INR j / INR M) + phi).
Proof. unfold centred. rewrite wave_mean. unfold z, wave. ring. Qed.
Definition up_hit (u v : nat) : bool := hit N (Z.of_nat u - p) && hit M (Z.of_nat v - q).
Definition dn_hit (u v : nat) : bool := hit N (Z.of_nat u + p) && hit M (Z.of_nat v + q).
Lemma wave_re u v : dft_re (centred z N M) N M u v = a * nm / 2 * ((if up_hit u v then cos phi else 0) + (if dn_hit u v then cos phi else 0)).
Proof.
  unfold dft_re. rewrite (sum2_ext _ _ _ (fun i j => a / 2 * cos (2 * PI * (IZR (Z.of_nat u - p) * INR i / INR N + IZR (Z.of_nat v - q) * INR j / INR M) + - phi)
     + a / 2 * cos (2 * PI * (IZR (Z.of_nat u + p) * INR i / INR N + IZR (Z.of_nat v + q) * INR j / INR M) + phi))).
  - rewrite sum2_plus, !sum2_scale, !cos_sum2 by assumption. fold (up_hit u v) (dn_hit u v). fold nm. rewrite cos_neg. destruct (up_hit u v), (dn_hit u v); field.
  - intros i j _ _. rewrite wave_centred. unfold dft_phase. set (A := 2 * PI * (IZR p * INR i / INR N + IZR q * INR j / INR M) + phi). set (B := 2 * PI * (INR u * INR i / INR N + INR v * INR j / INR M)).
    replace (2 * PI * (IZR (Z.of_nat u - p) * INR i / INR N + IZR (Z.of_nat v - q) * INR j / INR M) + - phi) with (B - A) by (unfold A, B; rewrite !minus_IZR, <- !INR_IZR_INZ; unfold Rdiv; ring).
    replace (2 * PI * (IZR (Z.of_nat u + p) * INR i / INR N + IZR (Z.of_nat v + q) * INR j / INR M) + phi) with (B + A) by (unfold A, B; rewrite !plus_IZR, <- !INR_IZR_INZ; unfold Rdiv; ring).
    rewrite cos_plus, cos_minus. field.
Qed.
Lemma wave_im u v : dft_im (centred z N M) N M u v = a * nm / 2 * ((if up_hit u v then sin phi else 0) - (if dn_hit u v then sin phi else 0)).
Proof.
  unfold dft_im. rewrite (sum2_ext _ _ _ (fun i j => a / 2 * sin (2 * PI * (IZR (Z.of_nat u - p) * INR i / INR N + IZR (Z.of_nat v - q) * INR j / INR M) + - phi)
     + a / 2 * sin (2 * PI * (IZR (Z.of_nat u + p) * INR i / INR N + IZR (Z.of_nat v + q) * INR j / INR M) + phi))).
  - rewrite sum2_plus, !sum2_scale, !sin_sum2 by assumption. fold (up_hit u v) (dn_hit u v). fold nm. rewrite sin_neg. destruct (up_hit u v), (dn_hit u v); field.
  - intros i j _ _. rewrite wave_centred. unfold dft_phase. set (A := 2 * PI * (IZR p * INR i / INR N + IZR q * INR j / INR M) + phi). set (B := 2 * PI * (INR u * INR i / INR N + INR v * INR j / INR M)).
    replace (2 * PI * (IZR (Z.of_nat u - p) * INR i / INR N + IZR (Z.of_nat v - q) * INR j / INR M) + - phi) with (B - A) by (unfold A, B; rewrite !minus_IZR, <- !INR_IZR_INZ; unfold Rdiv; ring).
    replace (2 * PI * (IZR (Z.of_nat u + p) * INR i / INR N + IZR (Z.of_nat v + q) * INR j / INR M) + phi) with (B + A) by (unfold A, B; rewrite !plus_IZR, <- !INR_IZR_INZ; unfold Rdiv; ring).
    rewrite sin_plus, sin_minus. field.
Qed.
Lemma wave_amplitude u v : (up_hit u v = true -> dn_hit u v = false) ->
  amplitude (centred z N M) N M u v = if up_hit u v || dn_hit u v then Rabs a * nm / 2 else 0.
Proof.
  intros Hx. unfold amplitude. rewrite wave_re, wave_im. pose proof nm_pos as P. pose proof (sin2_cos2 phi) as SC. unfold Rsqr in SC.
  assert (K : sqrt (Rsqr (a * nm / 2)) = Rabs a * nm / 2).
  { rewrite sqrt_Rsqr_abs. unfold Rdiv. rewrite !Rabs_mult, (Rabs_pos_eq nm), (Rabs_pos_eq (/ 2)) by lra. reflexivity. }
  destruct (up_hit u v) eqn:E1, (dn_hit u v) eqn:E2; cbn [orb].
  - discriminate (Hx eq_refl).
  - rewrite <- K. f_equal. unfold Rsqr. transitivity (a * nm / 2 * (a * nm / 2) * (sin phi * sin phi + cos phi * cos phi)); [ring|rewrite SC; ring].
  - rewrite <- K. f_equal. unfold Rsqr. transitivity (a * nm / 2 * (a * nm / 2) * (sin phi * sin phi + cos phi * cos phi)); [ring|rewrite SC; ring].
  - replace ((a * nm / 2 * (0 + 0)) ^ 2 + (a * nm / 2 * (0 - 0)) ^ 2) with 0 by ring. apply sqrt_0.
Qed.
End Wave.
