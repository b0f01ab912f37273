(** C72: the root mean square slope Rdq of a profile. *)
From Coq Require Import Reals List Arith Lia Lra.
From Verif Require Import Base RList ModelParams ProofParams.
Import ListNotations.
Local Open Scope R_scope.

Lemma nth_map_d {A B} (f : A -> B) l i da db : (i < length l)%nat -> nth i (map f l) db = f (nth i l da).
Proof. intros H. rewrite (nth_indep _ db (f da)) by (rewrite map_length; exact H). apply map_nth. Qed.
(** slope between neighbouring points *)
Definition slope (z : list R) (step : R) (i : nat) : R := (nth (S i) z 0 - nth i z 0) / step.
Lemma slopes z step : map (fun d => (d / step) ^ 2) (diff1 z) = map (fun i => slope z step i ^ 2) (seq 0 (length z - 1)).
Proof.
  apply nth_ext with (d := 0) (d' := 0); [rewrite !map_length, diff1_length, seq_length; reflexivity|]. intros i Hi. rewrite map_length, diff1_length in Hi.
  rewrite (nth_map_d _ _ _ 0) by (rewrite diff1_length; exact Hi). rewrite diff1_nth by lia.
  rewrite (nth_map_d _ _ _ 0%nat) by (rewrite seq_length; exact Hi). rewrite seq_nth by exact Hi. reflexivity.
Qed.
Lemma mean_slopes z step : (2 <= length z)%nat -> meanR (map (fun d => (d / step) ^ 2) (diff1 z)) = sumR (map (fun i => slope z step i ^ 2) (seq 0 (length z - 1))) / (INR (length z) - 1).
Proof. intros H. rewrite slopes. unfold meanR. rewrite map_length, seq_length, minus_INR by lia. reflexivity. Qed.
Lemma sq_sum_nonneg z step n : 0 <= sumR (map (fun i => slope z step i ^ 2) (seq 0 n)).
Proof. apply sumR_nonneg. intros x Hx. apply in_map_iff in Hx. destruct Hx as (i & <- & _). apply pow2_ge_0. Qed.
Lemma len_pos (z : list R) : (2 <= length z)%nat -> 0 < INR (length z) - 1.
Proof. intros H. apply le_INR in H. cbn [INR] in H. lra. Qed.
(** It is the root of the mean of the squared slopes, *)
Theorem C72_definition (z : list R) (step : R) : (2 <= length z)%nat ->
  0 <= Rdq z step /\ Rdq z step ^ 2 * (INR (length z) - 1) = sumR (map (fun i => slope z step i ^ 2) (seq 0 (length z - 1))).
Proof.
  intros H. unfold Rdq. split; [apply sqrt_pos|]. rewrite mean_slopes by exact H. pose proof (len_pos z H). pose proof (sq_sum_nonneg z step (length z - 1)).
  rewrite pow2_sqrt; [field; lra|]. apply Rmult_le_pos; [assumption|]. left. apply Rinv_0_lt_compat. assumption.
Qed.
(** zero exactly for constant profiles, *)
Theorem C72_zero_iff_constant (z : list R) (step : R) : (2 <= length z)%nat -> step <> 0 -> (Rdq z step = 0 <-> forall x y, In x z -> In y z -> x = y).
Proof.
  intros H Hs. destruct (C72_definition z step H) as [_ E]. pose proof (len_pos z H) as P. split.
  - intros Z. rewrite Z in E. assert (E0 : sumR (map (fun i => slope z step i ^ 2) (seq 0 (length z - 1))) = 0) by lra.
    assert (S0 : forall i, (S i < length z)%nat -> nth (S i) z 0 = nth i z 0).
    { intros i Hi. assert (X : slope z step i ^ 2 = 0).
      { eapply sumR_zero; [|exact E0|apply in_map_iff; exists i; split; [reflexivity|apply in_seq; lia]]. intros x Hx. apply in_map_iff in Hx. destruct Hx as (j & <- & _). apply pow2_ge_0. }
      assert (Y : slope z step i = 0) by nra. unfold slope in Y. apply Rmult_integral in Y. destruct Y as [Y|Y]; [lra|]. exfalso. apply (Rinv_neq_0_compat step); assumption. }
    assert (A : forall i, (i < length z)%nat -> nth i z 0 = nth 0 z 0) by (induction i as [|i IH]; intros Hi; [reflexivity|]; rewrite S0 by exact Hi; apply IH; lia).
    intros x y Hx Hy. apply In_nth with (d := 0) in Hx, Hy. destruct Hx as (i & Hi & <-), Hy as (j & Hj & <-). rewrite (A i Hi), (A j Hj). reflexivity.
  - intros C. assert (E0 : sumR (map (fun i => slope z step i ^ 2) (seq 0 (length z - 1))) = INR (length (seq 0 (length z - 1))) * 0).
    { rewrite <- sumR_map_const. apply sumR_ext. intros i Hi. apply in_seq in Hi. unfold slope. rewrite (C (nth (S i) z 0) (nth i z 0)) by (apply nth_In; lia). unfold Rdiv. ring. }
    rewrite E0, Rmult_0_r in E. apply Rmult_integral in E. destruct E as [E|E]; [|lra]. replace (Rdq z step ^ 2) with (Rdq z step * Rdq z step) in E by ring. apply Rmult_integral in E. tauto.
Qed.
(** the slope of a ramp, *)
Theorem C72_ramp (a b step : R) (n : nat) : (2 <= n)%nat -> 0 < step -> Rdq (map (fun i => a + b * (INR i * step)) (seq 0 n)) step = Rabs b.
Proof.
  intros Hn Hs. unfold Rdq. set (z := map (fun i => a + b * (INR i * step)) (seq 0 n)). assert (L : length z = n) by (unfold z; rewrite map_length, seq_length; reflexivity). rewrite mean_slopes by (rewrite L; exact Hn). rewrite L.
  assert (E : sumR (map (fun i => slope z step i ^ 2) (seq 0 (n - 1))) = INR (n - 1) * b ^ 2).
  { rewrite (sumR_ext _ (fun _ => b ^ 2)); [rewrite sumR_map_const, seq_length; reflexivity|]. intros i Hi. apply in_seq in Hi. unfold slope.
    assert (V : forall k, (k < n)%nat -> nth k z 0 = a + b * (INR k * step)).
    { intros k Hk. unfold z. rewrite (nth_map_d _ _ _ 0%nat) by (rewrite seq_length; exact Hk). rewrite seq_nth by exact Hk. reflexivity. }
    rewrite !V by lia. rewrite S_INR. f_equal. field. lra. }
  rewrite E, minus_INR by lia. cbn [INR]. replace ((INR n - 1) * b ^ 2 / (INR n - 1)) with (Rsqr b); [apply sqrt_Rsqr_abs|]. unfold Rsqr. field. apply le_INR in Hn. cbn [INR] in Hn. lra.
Qed.
Lemma slope_affine k c z step i : (S i < length z)%nat -> slope (map (fun x => k * x + c) z) step i = k * slope z step i.
Proof.
  intros H. unfold slope. rewrite !(nth_map_d _ z _ 0) by lia. unfold Rdiv. ring.
Qed.
(** unchanged by an offset and by inversion, proportional to the heights and inversely to the step, *)
Theorem C72_affine (z : list R) (step k c : R) : (2 <= length z)%nat -> Rdq (map (fun x => k * x + c) z) step = Rabs k * Rdq z step.
Proof.
  intros H. unfold Rdq. rewrite !mean_slopes by (rewrite ?map_length; exact H). rewrite map_length. rewrite <- sqrt_Rsqr_abs, <- sqrt_mult_alt by apply Rle_0_sqr. f_equal.
  rewrite (sumR_ext (fun i => slope (map (fun x => k * x + c) z) step i ^ 2) (fun i => k ^ 2 * slope z step i ^ 2)).
  - replace (sumR (map (fun i => k ^ 2 * slope z step i ^ 2) (seq 0 (length z - 1)))) with (k ^ 2 * sumR (map (fun i => slope z step i ^ 2) (seq 0 (length z - 1)))); [unfold Rsqr, Rdiv; ring|].
    induction (seq 0 (length z - 1)) as [|i l IH]; cbn [map]; [unfold sumR; cbn [fold_right]; ring|]. rewrite !sumR_cons, <- IH. ring.
  - intros i Hi. apply in_seq in Hi. rewrite slope_affine by lia. ring.
Qed.
(** and at most the largest slope. *)
Theorem C72_bound (z : list R) (step m : R) : (2 <= length z)%nat -> (forall i, (S i < length z)%nat -> Rabs (slope z step i) <= m) -> Rdq z step <= m.
Proof.
  intros H B. assert (Hm : 0 <= m) by (eapply Rle_trans; [apply Rabs_pos|apply (B 0%nat); lia]). pose proof (len_pos z H) as P.
  unfold Rdq. rewrite mean_slopes by exact H. rewrite <- (sqrt_square m Hm). apply sqrt_le_1_alt. apply Rmult_le_reg_r with (INR (length z) - 1); [exact P|]. unfold Rdiv. rewrite Rmult_assoc, Rinv_l, Rmult_1_r by lra.
  replace (m * m * (INR (length z) - 1)) with (sumR (map (fun _ : nat => m * m) (seq 0 (length z - 1)))) by (rewrite sumR_map_const, seq_length, minus_INR by lia; cbn [INR]; ring).
  assert (G : forall l, (forall i, In i l -> (S i < length z)%nat) -> sumR (map (fun i => slope z step i ^ 2) l) <= sumR (map (fun _ : nat => m * m) l)).
  { induction l as [|i l IH]; intros Hl; cbn [map]; [unfold sumR; cbn [fold_right]; lra|]. rewrite !sumR_cons. apply Rplus_le_compat; [|apply IH; intros j Hj; apply Hl; right; exact Hj].
    assert (X := B i (Hl i (or_introl eq_refl))). rewrite <- pow2_abs. pose proof (Rabs_pos (slope z step i)). nra. }
  apply G. intros i Hi. apply in_seq in Hi. lia.
Qed.
Example C72_example : Rdq [0; 3; 3; 0] 3 ^ 2 * 3 = 2.
Proof. destruct (C72_definition [0; 3; 3; 0] 3 ltac:(cbn; lia)) as [_ E]. cbn [length INR] in E. replace (1 + 1 + 1 + 1 - 1) with 3 in E by lra. rewrite E. cbn [length Nat.sub seq map]. unfold slope, sumR. cbn [nth fold_right]. lra. Qed.
