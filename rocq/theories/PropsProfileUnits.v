(** C117: the height parameters of a profile do not depend on the zero point of the heights and follow their unit. *)
From Coq Require Import String Reals List Bool Arith ZArith Lia Lra.
From Verif Require Import Base RList ModelMath ModelHeights ModelParams ProofParams PropsParams.
Import ListNotations.
Local Open Scope res_scope.
Local Open Scope R_scope.

(** *** Specification: every height times k, counted from another zero *)
Definition other_unit (k t : R) (d : list R) : list R := map (fun x => k * x + t) d.
(** a result in the other unit *)
Definition in_unit (k : R) (r : res R) : res R := rmap (fun x => k * x) r.

Lemma sum_other k t d : sumR (other_unit k t d) = k * sumR d + INR (length d) * t.
Proof. induction d as [|x d IH]; [cbn; ring|]. cbn [length]. rewrite S_INR. change (k * x + t + sumR (other_unit k t d) = k * (x + sumR d) + (INR (length d) + 1) * t). rewrite IH. ring. Qed.
Lemma mean_other k t d : d <> [] -> meanR (other_unit k t d) = k * meanR d + t.
Proof. intros H. assert (P := INR_len_pos d H). unfold meanR. rewrite sum_other. unfold other_unit. rewrite map_length. field. lra. Qed.
Lemma sum_scal k (f : R -> R) d : sumR (map (fun x => k * f x) d) = k * sumR (map f d).
Proof. induction d as [|x d IH]; [cbn; ring|]. change (k * f x + sumR (map (fun x => k * f x) d) = k * (f x + sumR (map f d))). rewrite IH. ring. Qed.
Lemma mean_scal {A} k (f : A -> R) d : meanR (map (fun x => k * f x) d) = k * meanR (map f d).
Proof.
  unfold meanR. rewrite !map_length. assert (E : sumR (map (fun x => k * f x) d) = k * sumR (map f d)) by (induction d as [|x d IH]; [cbn; ring|]; change (k * f x + sumR (map (fun x => k * f x) d) = k * (f x + sumR (map f d))); rewrite IH; ring).
  rewrite E. unfold Rdiv. ring.
Qed.
Lemma centred_other k t d : d <> [] -> map (fun x => x - meanR (other_unit k t d)) (other_unit k t d) = map (Rmult k) (map (fun x => x - meanR d) d).
Proof. intros H. rewrite mean_other by exact H. unfold other_unit. rewrite !map_map. apply map_ext. intros x. ring. Qed.
Lemma split_map {A B} (f : A -> B) sizes : forall l, split_sizes (map f l) sizes = map (map f) (split_sizes l sizes).
Proof. induction sizes as [|k ks IH]; intros l; [reflexivity|]. cbn [split_sizes map]. rewrite firstn_map, skipn_map, IH. reflexivity. Qed.
Lemma sections_other k t d n : sectioned_data (other_unit k t d) n = rmap (map (map (Rmult k))) (sectioned_data d n).
Proof.
  assert (Ln : length (other_unit k t d) = length d) by apply map_length. unfold sectioned_data. rewrite Ln. destruct (n <? 1)%Z eqn:N; [reflexivity|]. destruct (Z.of_nat (length d) <? n)%Z eqn:L; [reflexivity|]. cbn [rmap].
  assert (H : d <> []) by (intros ->; cbn in L; lia). f_equal. rewrite centred_other by exact H. apply split_map.
Qed.
Lemma max_scal k l : 0 < k -> getmax (map (Rmult k) l) = k * getmax l.
Proof.
  intros K. unfold getmax. destruct (lmax l) as [m|] eqn:E.
  - assert (E' : lmax (map (Rmult k) l) = Some (k * m)) by (apply lmax_spec; apply lmax_spec in E; apply (is_max_map_mono (Rmult k)); [intros; apply Rmult_le_compat_l; lra|exact E]). rewrite E'. reflexivity.
  - destruct l as [|x l]; [cbn; ring|]. destruct (lmax_ex (x :: l)) as [m Hm]; [discriminate|congruence].
Qed.
Lemma min_scal k l : 0 < k -> getmin (map (Rmult k) l) = k * getmin l.
Proof.
  intros K. unfold getmin. destruct (lmin l) as [m|] eqn:E.
  - assert (E' : lmin (map (Rmult k) l) = Some (k * m)) by (apply lmin_spec; apply lmin_spec in E; apply (is_min_map_mono (Rmult k)); [intros; apply Rmult_le_compat_l; lra|exact E]). rewrite E'. reflexivity.
  - destruct l as [|x l]; [cbn; ring|]. destruct (lmin_ex (x :: l)) as [m Hm]; [discriminate|congruence].
Qed.
Lemma neg_max l : l <> [] -> getmax (map (Rmult (-1)) l) = - getmin l.
Proof.
  intros H. assert (H' : map (Rmult (-1)) l <> []) by (destruct l; [contradiction|discriminate]). destruct (getmax_is _ H') as [I U], (getmin_is _ H) as [I' U'].
  apply in_map_iff in I as (x & Ex & Ix). assert (A := U' x Ix). assert (B := U (-1 * getmin l) (in_map (Rmult (-1)) _ _ I')). lra.
Qed.
Lemma neg_min l : l <> [] -> getmin (map (Rmult (-1)) l) = - getmax l.
Proof.
  intros H. assert (H' : map (Rmult (-1)) l <> []) by (destruct l; [contradiction|discriminate]). destruct (getmin_is _ H') as [I U], (getmax_is _ H) as [I' U'].
  apply in_map_iff in I as (x & Ex & Ix). assert (A := U' x Ix). assert (B := U (-1 * getmax l) (in_map (Rmult (-1)) _ _ I')). lra.
Qed.

(** *** The theorems *)
(** the parameters that average over sampling lengths: another unit, another zero point *)
Theorem C117_sections : forall k t d n, 0 < k ->
  Rp (other_unit k t d) n = in_unit k (Rp d n) /\ Rv (other_unit k t d) n = in_unit k (Rv d n) /\ Rz (other_unit k t d) n = in_unit k (Rz d n) /\ Rt (other_unit k t d) = in_unit k (Rt d).
Proof.
  intros k t d n K. unfold Rp, Rv, Rz. rewrite sections_other. split; [|split; [|split]].
  - destruct (sectioned_data d n) as [s|e]; [|reflexivity]. cbn. f_equal. rewrite map_map, (map_ext _ (fun l => k * getmax l)) by (intros l; apply max_scal, K). apply mean_scal.
  - destruct (sectioned_data d n) as [s|e]; [|reflexivity]. cbn. f_equal. rewrite map_map, (map_ext _ (fun l => k * Rabs (getmin l))) by (intros l; rewrite min_scal, Rabs_mult, (Rabs_right k) by lra; reflexivity). apply (mean_scal k (fun l => Rabs (getmin l))).
  - destruct (sectioned_data d n) as [s|e]; [|reflexivity]. cbn. f_equal. rewrite map_map, (map_ext _ (fun l => k * (getmax l - getmin l))) by (intros l; rewrite max_scal, min_scal by exact K; ring). apply (mean_scal k (fun l => getmax l - getmin l)).
  - unfold Rt. destruct d as [|x d]; [reflexivity|]. destruct (lmax_ex (x :: d)) as [a Ha]; [discriminate|]. destruct (lmin_ex (x :: d)) as [b Hb]; [discriminate|].
    assert (Ha' : lmax (other_unit k t (x :: d)) = Some (k * a + t)) by (apply lmax_spec; apply lmax_spec in Ha; apply (is_max_map_mono (fun y => k * y + t)); [intros y z L; assert (k * y <= k * z) by (apply Rmult_le_compat_l; lra); lra|exact Ha]).
    assert (Hb' : lmin (other_unit k t (x :: d)) = Some (k * b + t)) by (apply lmin_spec; apply lmin_spec in Hb; apply (is_min_map_mono (fun y => k * y + t)); [intros y z L; assert (k * y <= k * z) by (apply Rmult_le_compat_l; lra); lra|exact Hb]).
    rewrite Ha, Hb, Ha', Hb'. cbn. f_equal. ring.
Qed.
Lemma moment_other (f : R -> R) (q k t : R) d : (forall x, f (k * x) = q * f x) ->
  sumR (map (fun x => f (x - meanR (other_unit k t d))) (other_unit k t d)) / INR (length (other_unit k t d)) = q * (sumR (map (fun x => f (x - meanR d)) d) / INR (length d)).
Proof.
  intros Hf. destruct d as [|x0 d0]; [cbn; unfold Rdiv; ring|]. set (d := x0 :: d0). assert (H : d <> []) by discriminate.
  rewrite <- (map_map (fun x => x - meanR (other_unit k t d)) f), centred_other, !map_map by exact H.
  rewrite (map_ext _ (fun x => q * f (x - meanR d))) by (intros x; apply Hf). rewrite (sum_scal q (fun x => f (x - meanR d))). unfold other_unit. rewrite map_length. unfold Rdiv. ring.
Qed.
Lemma Rq_other k t d : Rq (other_unit k t d) = Rabs k * Rq d.
Proof.
  unfold Rq. rewrite (moment_other (fun x => x ^ 2) (k * k) k t d) by (intros; ring).
  rewrite sqrt_mult_alt by nra. f_equal. replace (k * k) with (Rsqr k) by reflexivity. apply sqrt_Rsqr_abs.
Qed.
(** the averages over the whole profile, also for a profile turned upside down (k < 0): Rsk changes its sign with k, Rku stays *)
Theorem C117_averages : forall k t d, k <> 0 ->
  Ra (other_unit k t d) = Rabs k * Ra d /\ Rq (other_unit k t d) = Rabs k * Rq d /\
  Rsk (other_unit k t d) = option_map (fun s => k / Rabs k * s) (Rsk d) /\ Rku (other_unit k t d) = Rku d.
Proof.
  intros k t d K. assert (A := Rabs_pos_lt k K). split; [|split; [apply Rq_other|split]].
  - unfold Ra. apply (moment_other Rabs). intros x. apply Rabs_mult.
  - unfold Rsk. rewrite Rq_other, (moment_other (fun x => x ^ 3) (k ^ 3) k t d) by (intros; ring). unfold ndiv.
    assert (E : k ^ 3 = (Rabs k) ^ 3 * (k / Rabs k)).
    { assert (Q : Rabs k ^ 2 = k ^ 2) by (rewrite RPow_abs; apply Rabs_right; apply Rle_ge, pow2_ge_0). replace (k ^ 3) with (k ^ 2 * k) by ring. rewrite <- Q. field. lra. }
    destruct (Req_EM_T (Rq d ^ 3) 0) as [Z0|Z0], (Req_EM_T ((Rabs k * Rq d) ^ 3) 0) as [Y|Y]; rewrite Rpow_mult_distr in Y.
    + reflexivity.
    + exfalso. apply Y. rewrite Z0. ring.
    + exfalso. apply Rmult_integral in Y. destruct Y as [Y|Y]; [|contradiction]. revert Y; apply pow_nonzero; apply Rgt_not_eq; lra.
    + cbn [option_map]. f_equal. rewrite E, Rpow_mult_distr. match goal with |- context [?a / INR ?n] => generalize (a / INR n); intros u end. field. split; [intros W; apply Z0; rewrite W; ring|apply Rgt_not_eq; lra].
  - unfold Rku. rewrite Rq_other, (moment_other (fun x => x ^ 4) (k ^ 4) k t d) by (intros; ring). unfold ndiv.
    assert (E : k ^ 4 = (Rabs k) ^ 4) by (rewrite RPow_abs; symmetry; apply Rabs_right; replace (k ^ 4) with ((k ^ 2) ^ 2) by ring; apply Rle_ge, pow2_ge_0).
    destruct (Req_EM_T (Rq d ^ 4) 0) as [Z0|Z0], (Req_EM_T ((Rabs k * Rq d) ^ 4) 0) as [Y|Y]; rewrite Rpow_mult_distr in Y.
    + reflexivity.
    + exfalso. apply Y. rewrite Z0. ring.
    + exfalso. apply Rmult_integral in Y. destruct Y as [Y|Y]; [|contradiction]. revert Y; apply pow_nonzero; apply Rgt_not_eq; lra.
    + f_equal. rewrite E, Rpow_mult_distr. match goal with |- context [?a / INR ?n] => generalize (a / INR n); intros u end. field. split; [intros W; apply Z0; rewrite W; ring|apply Rgt_not_eq; lra].
Qed.
(** turned upside down: Rz and Rt stay; over one sampling length Rp and Rv change places *)
Theorem C117_upside_down : forall t d n, Rz (other_unit (-1) t d) n = Rz d n /\ Rt (other_unit (-1) t d) = Rt d /\
  Rp (other_unit (-1) t d) 1 = Rv d 1 /\ Rv (other_unit (-1) t d) 1 = Rp d 1.
Proof.
  intros t d n. assert (NE : forall s, sectioned_data d n = Ok s -> forall p, In p s -> p <> []).
  { intros s Hs p Hp. destruct (sections_spec d n s Hs) as (_ & _ & _ & _ & N & _). apply (N p Hp). }
  split; [|split].
  - unfold Rz. rewrite sections_other. destruct (sectioned_data d n) as [s|e] eqn:E; [|reflexivity]. cbn. f_equal. f_equal. rewrite map_map.
    apply map_ext_in. intros p Hp. assert (H := NE s eq_refl p Hp). rewrite neg_max, neg_min by exact H. ring.
  - unfold Rt. destruct d as [|x d]; [reflexivity|]. assert (H : x :: d <> []) by discriminate. set (e := x :: d) in *. destruct (lmax_ex e H) as [a Ha], (lmin_ex e H) as [b Hb].
    assert (Ha' : lmax (other_unit (-1) t e) = Some (-1 * b + t)).
    { apply lmax_spec. apply lmin_spec in Hb. destruct Hb as [I L]. split; [exact (in_map (fun y => -1 * y + t) _ _ I)|]. intros y Hy. apply in_map_iff in Hy as (z & <- & Iz). assert (Q := L z Iz). lra. }
    assert (Hb' : lmin (other_unit (-1) t e) = Some (-1 * a + t)).
    { apply lmin_spec. apply lmax_spec in Ha. destruct Ha as [I L]. split; [exact (in_map (fun y => -1 * y + t) _ _ I)|]. intros y Hy. apply in_map_iff in Hy as (z & <- & Iz). assert (Q := L z Iz). lra. }
    rewrite Ha, Hb, Ha', Hb'. f_equal. ring.
  - destruct d as [|x d]; [split; reflexivity|]. assert (H : x :: d <> []) by discriminate. set (e := x :: d) in *. unfold Rp, Rv. rewrite sections_other, (sectioned_one e H). cbn [rbind rmap map].
    assert (Hc : centered e <> []) by (apply map_ne', H). assert (C := centered_sign e _ _ H (getmin_is _ Hc) (getmax_is _ Hc)). rewrite neg_max, neg_min by exact Hc.
    split; f_equal; f_equal; f_equal; [rewrite Rabs_left1; lra|rewrite Rabs_Ropp, Rabs_right; lra].
Qed.
Lemma two_sections : Rv [-3; -1; 3; 1] 2 = Ok 2 /\ Rp (other_unit (-1) 0 [-3; -1; 3; 1]) 2 = Ok 1.
Proof.
  assert (M : forall a b, a <= b -> getmin [a; b] = a /\ getmax [a; b] = b /\ getmin [b; a] = a /\ getmax [b; a] = b).
  { intros a b L. destruct (getmin_is [a; b]) as [I1 U1]; [discriminate|]. destruct (getmax_is [a; b]) as [I2 U2]; [discriminate|]. destruct (getmin_is [b; a]) as [I3 U3]; [discriminate|]. destruct (getmax_is [b; a]) as [I4 U4]; [discriminate|].
    assert (A1 := U1 a (or_introl eq_refl)). assert (A2 := U2 b (or_intror (or_introl eq_refl))). assert (A3 := U3 a (or_intror (or_introl eq_refl))). assert (A4 := U4 b (or_introl eq_refl)).
    cbn [In] in *. repeat split; intuition lra. }
  assert (S0 : sectioned_data [-3; -1; 3; 1] 2 = Ok [[-3; -1]; [3; 1]]).
  { unfold sectioned_data. replace (meanR [-3; -1; 3; 1]) with 0 by (unfold meanR; cbn; field).
    change (section_sizes (length [-3; -1; 3; 1]) (Z.to_nat 2)) with [2; 2]%nat. cbn [Z.ltb Z.compare Z.of_nat length Pos.compare Pos.compare_cont Pos.of_succ_nat Pos.succ map split_sizes firstn skipn]. repeat (f_equal; try lra). }
  unfold Rp, Rv. rewrite sections_other, S0. cbn [rbind rmap map]. split; f_equal; unfold meanR.
  - destruct (M (-3) (-1)) as (-> & _); [lra|]. destruct (M 1 3) as (_ & _ & -> & _); [lra|]. cbn. rewrite Rabs_left, Rabs_right by lra. field.
  - destruct (M (-1 * -1) (-1 * -3)) as (_ & _ & _ & ->); [lra|]. destruct (M (-1 * 3) (-1 * 1)) as (_ & -> & _); [lra|]. cbn. field.
Qed.
(** (not guaranteed) over several sampling lengths Rp and Rv do not change places: Rv takes the size of the lowest point of a section, also where
    the whole section lies above the mean line *)
Theorem C117_upside_down_refuted : exists d n, Rv d n = Ok 2 /\ Rp (other_unit (-1) 0 d) n = Ok 1.
Proof. exists [-3; -1; 3; 1], 2%Z. exact two_sections. Qed.
(** the hypotheses are met: millimetres to micrometres on a profile of four points *)
Theorem C117_example : Rt (other_unit 1000 5 [-3; -1; 3; 1]) = Ok 6000 /\ Rv (other_unit 1000 5 [-3; -1; 3; 1]) 2 = Ok 2000.
Proof.
  destruct (C117_sections 1000 5 [-3; -1; 3; 1] 2 ltac:(lra)) as (_ & -> & _ & ->). split.
  - unfold Rt. assert (A : lmax [-3; -1; 3; 1] = Some 3) by (apply lmax_spec; split; [cbn; auto|intros y Hy; cbn in Hy; intuition lra]).
    assert (B : lmin [-3; -1; 3; 1] = Some (-3)) by (apply lmin_spec; split; [cbn; auto|intros y Hy; cbn in Hy; intuition lra]). rewrite A, B. cbn. f_equal. ring.
  - rewrite (proj1 two_sections). cbn. f_equal. ring.
Qed.
