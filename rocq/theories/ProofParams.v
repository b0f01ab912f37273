From Coq Require Import String Reals List Bool Arith ZArith Lra Lia Permutation.
From Verif Require Import Base RList ModelMath ModelParams.
Import ListNotations.
Local Open Scope R_scope.

(** ** Height parameters in terms of the centred data *)
Definition centered (data : list R) : list R := map (fun x => x - meanR data) data.
Definition mom (k : nat) (c : list R) : R := meanR (map (fun x => x ^ k) c).
Definition hp_of (c : list R) (lo hi : R) : hparams :=
  mkHP (meanR (map Rabs c)) (sqrt (mom 2 c)) (Rabs lo) hi (hi + Rabs lo)
       (ndiv (mom 3 c) (sqrt (mom 2 c) ^ 3)) (ndiv (mom 4 c) (sqrt (mom 2 c) ^ 4)).
Lemma sqr_abs x : Rabs x * Rabs x = x * x.
Proof. unfold Rabs; destruct Rcase_abs; lra. Qed.
Lemma centered_length d : length (centered d) = length d.
Proof. apply map_length. Qed.
Lemma hp_spec d lo hi : is_min lo (centered d) -> is_max hi (centered d) ->
  height_parameters d = Ok (hp_of (centered d) lo hi).
Proof.
  intros A B. apply lmin_spec in A. apply lmax_spec in B. unfold height_parameters. fold (centered d).
  rewrite A, B. unfold hp_of, mom, meanR. rewrite !map_length, !centered_length.
  assert (E2 : sumR (map (fun x => x * x) (map Rabs (centered d))) = sumR (map (fun x => x ^ 2) (centered d))).
  { rewrite map_map. apply sumR_ext. intros x _. cbn. rewrite sqr_abs. ring. }
  assert (E3 : sumR (map (fun x => Rabs x * Rabs x * x) (centered d)) = sumR (map (fun x => x ^ 3) (centered d))).
  { apply sumR_ext. intros x _. rewrite sqr_abs. ring. }
  assert (E4 : sumR (map (fun x => x * x * (x * x)) (map Rabs (centered d))) = sumR (map (fun x => x ^ 4) (centered d))).
  { rewrite map_map. apply sumR_ext. intros x _. rewrite sqr_abs. ring. }
  rewrite E2, E3, E4. reflexivity.
Qed.
Lemma map_ne' {A B} (f : A -> B) l : l <> [] -> map f l <> [].
Proof. destruct l; [congruence|discriminate]. Qed.
Lemma hp_ok d : d <> [] -> exists lo hi, is_min lo (centered d) /\ is_max hi (centered d) /\
  height_parameters d = Ok (hp_of (centered d) lo hi).
Proof.
  intros H. assert (Hc : centered d <> []) by (apply map_ne', H).
  destruct (lmin_ex _ Hc) as [lo A]. destruct (lmax_ex _ Hc) as [hi B]. apply lmin_spec in A. apply lmax_spec in B.
  exists lo, hi. auto using hp_spec.
Qed.
Lemma mean_centered d : d <> [] -> meanR (centered d) = 0.
Proof.
  intros H. unfold centered. rewrite (map_ext _ (fun x => x + - meanR d)) by (intros; lra). rewrite meanR_shift by exact H. lra.
Qed.
Lemma centered_sign d lo hi : d <> [] -> is_min lo (centered d) -> is_max hi (centered d) -> lo <= 0 <= hi.
Proof.
  intros H [A1 A2] [B1 B2]. assert (Hc : centered d <> []) by (apply map_ne', H).
  rewrite <- (mean_centered d H). apply meanR_between; auto. 
Qed.
Lemma mom2_nonneg c : 0 <= mom 2 c.
Proof. apply meanR_nonneg. intros x Hx. apply in_map_iff in Hx as (y & <- & _). cbn. assert (P := Rle_0_sqr y). unfold Rsqr in P. lra. Qed.
(** (mean |x|)^2 <= mean x^2 *)
Lemma mean_abs_sq c : c <> [] -> meanR (map Rabs c) <= sqrt (mom 2 c).
Proof.
  intros H. set (a := meanR (map Rabs c)).
  assert (Ha : 0 <= a) by (apply meanR_nonneg; intros x Hx; apply in_map_iff in Hx as (y & <- & _); apply Rabs_pos).
  rewrite <- (sqrt_square a) by exact Ha. apply sqrt_le_1; [nra|apply mom2_nonneg|].
  assert (V : 0 <= meanR (map (fun x => (Rabs x - a) * (Rabs x - a)) c)).
  { apply meanR_nonneg. intros x Hx. apply in_map_iff in Hx as (y & <- & _). apply Rle_0_sqr. }
  assert (E : meanR (map (fun x => (Rabs x - a) * (Rabs x - a)) c) = mom 2 c - a * a).
  { rewrite (meanR_ext _ (fun x => x ^ 2 + ((- (2 * a)) * Rabs x + a * a))).
    - rewrite meanR_map_plus, meanR_map_plus, meanR_map_scal, meanR_map_const by exact H. fold a. unfold mom. lra.
    - intros x _. assert (Q := sqr_abs x). nra. }
  lra.
Qed.
Lemma sq_bound c b : c <> [] -> (forall x, In x c -> Rabs x <= b) -> sqrt (mom 2 c) <= b.
Proof.
  intros H Hb. assert (B0 : 0 <= b).
  { destruct c as [|x c]; [congruence|]. specialize (Hb x (or_introl eq_refl)). assert (P := Rabs_pos x). lra. }
  rewrite <- (sqrt_square b) by exact B0. apply sqrt_le_1; [apply mom2_nonneg|nra|].
  unfold mom. rewrite <- (meanR_map_const (b * b) c) by exact H. apply meanR_le. intros x Hx. specialize (Hb x Hx).
  assert (Q := sqr_abs x). assert (P := Rabs_pos x). nra.
Qed.
(** Pearson's inequality m4 m2 >= m3^2 + m2^3 for centred data *)
Lemma pearson c : c <> [] -> meanR c = 0 -> mom 3 c * mom 3 c + mom 2 c * mom 2 c * mom 2 c <= mom 4 c * mom 2 c.
Proof.
  intros H M1. set (m2 := mom 2 c). set (m3 := mom 3 c). set (m4 := mom 4 c).
  assert (P2 : 0 <= m2) by apply mom2_nonneg.
  destruct (Req_EM_T m2 0) as [Z|Z].
  - assert (M3 : m3 = 0).
    { unfold m3, mom. rewrite <- (meanR_map_const 0 c) by exact H. apply meanR_ext. intros x Hx.
      assert (Hx2 : x ^ 2 = 0).
      { apply (meanR_zero (map (fun x => x ^ 2) c)); [apply map_ne', H| |exact Z|apply in_map_iff; eauto].
        intros y Hy. apply in_map_iff in Hy as (z & <- & _). cbn. assert (Q := Rle_0_sqr z). unfold Rsqr in Q. lra. }
      assert (x = 0) by (cbn in Hx2; nra). subst x. ring. }
    rewrite Z, M3. lra.
  - assert (V : 0 <= meanR (map (fun x => (x ^ 2 - m2 - m3 / m2 * x) * (x ^ 2 - m2 - m3 / m2 * x)) c)).
    { apply meanR_nonneg. intros x Hx. apply in_map_iff in Hx as (y & <- & _). apply Rle_0_sqr. }
    assert (E : meanR (map (fun x => (x ^ 2 - m2 - m3 / m2 * x) * (x ^ 2 - m2 - m3 / m2 * x)) c)
                = m4 - m2 * m2 - m3 * m3 / m2).
    { rewrite (meanR_ext _ (fun x => x ^ 4 + ((- (2 * (m3 / m2))) * x ^ 3 + ((m3 / m2 * (m3 / m2) - 2 * m2) * x ^ 2 + (2 * m3 * x + m2 * m2))))).
      - rewrite !meanR_map_plus, !meanR_map_scal, meanR_map_const by exact H.
        fold (mom 4 c) (mom 3 c) (mom 2 c). fold m2 m3 m4. replace (meanR (map (fun x => x) c)) with 0 by (rewrite map_id; auto).
        field. exact Z.
      - intros x _. field. exact Z. }
    rewrite E in V. assert (W : 0 <= (m4 - m2 * m2 - m3 * m3 / m2) * m2) by (apply Rmult_le_pos; lra).
    replace ((m4 - m2 * m2 - m3 * m3 / m2) * m2) with (m4 * m2 - m2 * m2 * m2 - m3 * m3) in W by (field; exact Z). lra.
Qed.
Lemma mom2_zero c : c <> [] -> (mom 2 c = 0 <-> forall x, In x c -> x = 0).
Proof.
  intros H. split.
  - intros Z x Hx. assert (Hx2 : x ^ 2 = 0).
    { apply (meanR_zero (map (fun x => x ^ 2) c)); [apply map_ne', H| |exact Z|apply in_map_iff; eauto].
      intros y Hy. apply in_map_iff in Hy as (z & <- & _). cbn. assert (Q := Rle_0_sqr z). unfold Rsqr in Q. lra. }
    cbn in Hx2. nra.
  - intros Z. unfold mom. rewrite <- (meanR_map_const 0 c) by exact H. apply meanR_ext. intros x Hx. rewrite (Z x Hx). ring.
Qed.
Lemma sqrt_pow3 m : 0 <= m -> sqrt m ^ 3 = m * sqrt m.
Proof. intros H. cbn. rewrite Rmult_1_r. rewrite <- (sqrt_sqrt m H) at 4. ring. Qed.
Lemma sqrt_pow4 m : 0 <= m -> sqrt m ^ 4 = m * m.
Proof. intros H. rewrite <- (sqrt_sqrt m H) at 2 3. ring. Qed.
Lemma ndiv_some x y q : ndiv x y = Some q -> y <> 0 /\ q = x / y.
Proof. unfold ndiv. destruct (Req_EM_T y 0); [discriminate|]. intros E. injection E as <-. auto. Qed.
Lemma kurtosis_skewness c s k : c <> [] -> meanR c = 0 ->
  ndiv (mom 3 c) (sqrt (mom 2 c) ^ 3) = Some s -> ndiv (mom 4 c) (sqrt (mom 2 c) ^ 4) = Some k -> 1 + s * s <= k.
Proof.
  intros H M1 Es Ek. apply ndiv_some in Es as [N1 ->]. apply ndiv_some in Ek as [N2 ->].
  assert (P := pearson c H M1). assert (P2 := mom2_nonneg c).
  rewrite sqrt_pow3 in * by exact P2. rewrite sqrt_pow4 in * by exact P2.
  set (m2 := mom 2 c) in *. set (m3 := mom 3 c) in *. set (m4 := mom 4 c) in *.
  assert (m2 <> 0) by nra. assert (Q : 0 < m2) by lra.
  assert (S : sqrt m2 * sqrt m2 = m2) by (apply sqrt_sqrt; lra). assert (Sn : sqrt m2 <> 0) by nra.
  replace (m3 / (m2 * sqrt m2) * (m3 / (m2 * sqrt m2))) with (m3 * m3 / (m2 * m2 * m2)).
  2:{ field_simplify_eq; [|split; assumption..]. replace (sqrt m2 ^ 2) with m2 by (cbn; lra). ring. }
  apply Rmult_le_reg_r with (m2 * m2 * m2); [nra|].
  replace ((1 + m3 * m3 / (m2 * m2 * m2)) * (m2 * m2 * m2)) with (m3 * m3 + m2 * m2 * m2) by (field; lra).
  replace (m4 / (m2 * m2) * (m2 * m2 * m2)) with (m4 * m2) by (field; lra). exact P.
Qed.

(** ** Invariance *)
Lemma centered_shift d k : d <> [] -> centered (map (fun x => x + k) d) = centered d.
Proof.
  intros H. unfold centered. rewrite meanR_shift by exact H. rewrite map_map. apply map_ext. intros x. lra.
Qed.
Lemma centered_scale d k : centered (map (fun x => k * x) d) = map (fun x => k * x) (centered d).
Proof.
  unfold centered. rewrite meanR_map_scal, map_id, !map_map. apply map_ext. intros x. lra.
Qed.
Lemma centered_perm d d' : Permutation d d' -> Permutation (centered d) (centered d').
Proof. intros P. unfold centered. rewrite (meanR_perm _ _ P). apply Permutation_map, P. Qed.
Lemma mom_scale n k c : mom n (map (fun x => k * x) c) = k ^ n * mom n c.
Proof.
  unfold mom. rewrite map_map, (meanR_ext _ (fun x => k ^ n * x ^ n)) by (intros; apply Rpow_mult_distr). apply meanR_map_scal.
Qed.
Lemma mom_perm n c c' : Permutation c c' -> mom n c = mom n c'.
Proof. intros P. unfold mom. apply meanR_perm, Permutation_map, P. Qed.
Lemma abs_scale k c : meanR (map Rabs (map (fun x => k * x) c)) = Rabs k * meanR (map Rabs c).
Proof. rewrite map_map, (meanR_ext _ (fun x => Rabs k * Rabs x)) by (intros; apply Rabs_mult). apply meanR_map_scal. Qed.
Lemma sqrt_scale k m : 0 <= m -> sqrt (k ^ 2 * m) = Rabs k * sqrt m.
Proof.
  intros H. rewrite sqrt_mult; [|cbn; assert (P := Rle_0_sqr k); unfold Rsqr in P; lra|exact H]. f_equal.
  replace (k ^ 2) with (Rsqr k) by (unfold Rsqr; ring). apply sqrt_Rsqr_abs.
Qed.

(** ** Array split *)
Lemma section_sizes_length size n : (1 <= n)%nat -> length (section_sizes size n) = n.
Proof.
  intros H. unfold section_sizes. rewrite app_length, !repeat_length. assert (B := Nat.mod_upper_bound size n ltac:(lia)). lia.
Qed.
Lemma fold_repeat a k : fold_right Nat.add 0%nat (repeat a k) = (k * a)%nat.
Proof. induction k; cbn; auto. Qed.
Lemma fold_app_nat l l' : fold_right Nat.add 0%nat (l ++ l') = (fold_right Nat.add 0 l + fold_right Nat.add 0 l')%nat.
Proof. induction l; cbn; lia. Qed.
Lemma section_sizes_sum size n : (1 <= n)%nat -> fold_right Nat.add 0%nat (section_sizes size n) = size.
Proof.
  intros H. unfold section_sizes. rewrite fold_app_nat, !fold_repeat.
  assert (D := Nat.div_mod size n ltac:(lia)). assert (B := Nat.mod_upper_bound size n ltac:(lia)). nia.
Qed.
Lemma section_sizes_In size n k : In k (section_sizes size n) -> k = (size / n)%nat \/ k = S (size / n).
Proof. unfold section_sizes. intros H. apply in_app_iff in H as [H|H]; apply repeat_spec in H; auto. Qed.
Lemma split_sizes_concat {A} sizes : forall (l : list A), fold_right Nat.add 0%nat sizes = length l -> concat (split_sizes l sizes) = l.
Proof.
  induction sizes as [|k ks IH]; intros l H; cbn in *.
  - destruct l; [reflexivity|discriminate].
  - rewrite IH; [apply firstn_skipn|]. rewrite skipn_length. lia.
Qed.
Lemma split_sizes_lengths {A} sizes : forall (l : list A), (fold_right Nat.add 0%nat sizes <= length l)%nat ->
  map (@length A) (split_sizes l sizes) = sizes.
Proof.
  induction sizes as [|k ks IH]; intros l H; cbn in *; auto. f_equal; [rewrite firstn_length; lia|].
  apply IH. rewrite skipn_length. lia.
Qed.
Lemma split_app {A} ks ks' : forall (l : list A), split_sizes l (ks ++ ks') =
  split_sizes (firstn (fold_right Nat.add 0%nat ks) l) ks ++ split_sizes (skipn (fold_right Nat.add 0%nat ks) l) ks'.
Proof.
  induction ks as [|k ks IH]; intros l; cbn; auto. f_equal.
  - rewrite firstn_firstn. f_equal. lia.
  - rewrite IH. f_equal.
    + f_equal. rewrite firstn_skipn_comm. reflexivity.
    + f_equal. set (a := fold_right Nat.add 0%nat ks). revert l. clear. induction k as [|k IH]; intros l; cbn; auto.
      destruct l; cbn; auto. now rewrite skipn_nil.
Qed.
Lemma getmax_is l : l <> [] -> is_max (getmax l) l.
Proof. intros H. unfold getmax. destruct (lmax_ex l H) as [m E]. rewrite E. apply lmax_spec, E. Qed.
Lemma getmin_is l : l <> [] -> is_min (getmin l) l.
Proof. intros H. unfold getmin. destruct (lmin_ex l H) as [m E]. rewrite E. apply lmin_spec, E. Qed.
Definition rng (l : list R) : R := getmax l - getmin l.
Lemma rng_sub l l' : l <> [] -> (forall x, In x l -> In x l') -> rng l <= rng l'.
Proof.
  intros H S. assert (H' : l' <> []) by (destruct l as [|x l]; [congruence|]; intros ->; exact (S x (or_introl eq_refl))).
  unfold rng. destruct (getmax_is l H) as [A1 A2], (getmin_is l H) as [B1 B2], (getmax_is l' H') as [C1 C2], (getmin_is l' H') as [D1 D2].
  assert (getmax l <= getmax l') by (apply C2, S, A1). assert (getmin l' <= getmin l) by (apply D2, S, B1). lra.
Qed.
Lemma sections_spec d n s : sectioned_data d n = Ok s ->
  (1 <= n <= Z.of_nat (length d))%Z /\ s = split_sizes (centered d) (section_sizes (length d) (Z.to_nat n)) /\
  length s = Z.to_nat n /\ concat s = centered d /\ (forall p, In p s -> p <> [] /\ forall x, In x p -> In x (centered d)) /\
  (forall p q, In p s -> In q s -> (length p <= S (length q))%nat).
Proof.
  unfold sectioned_data. destruct (Z.ltb_spec n 1); [discriminate|]. destruct (Z.ltb_spec (Z.of_nat (length d)) n); [discriminate|].
  intros E. injection E as <-. fold (centered d). split; [lia|]. split; [reflexivity|].
  set (sizes := section_sizes (length d) (Z.to_nat n)).
  assert (Sm : fold_right Nat.add 0%nat sizes = length d) by (apply section_sizes_sum; lia).
  assert (L := split_sizes_lengths sizes (centered d)). rewrite centered_length in L. specialize (L ltac:(lia)).
  assert (Cc : concat (split_sizes (centered d) sizes) = centered d) by (apply split_sizes_concat; rewrite centered_length; exact Sm).
  split; [rewrite <- (map_length (@length R)), L; apply section_sizes_length; lia|]. split; [exact Cc|].
  assert (Lin : forall p, In p (split_sizes (centered d) sizes) -> length p = (length d / Z.to_nat n)%nat \/ length p = S (length d / Z.to_nat n)).
  { intros p Hp. apply section_sizes_In. fold sizes. rewrite <- L. apply in_map, Hp. }
  assert (Q : (1 <= length d / Z.to_nat n)%nat) by (apply Nat.div_le_lower_bound; lia).
  split.
  - intros p Hp. split; [intros ->; destruct (Lin [] Hp) as [X|X]; cbn in X; lia|].
    intros x Hx. rewrite <- Cc. apply in_concat. eauto.
  - intros p q Hp Hq. destruct (Lin p Hp), (Lin q Hq); lia.
Qed.
Lemma sections_ok d n : (1 <= n <= Z.of_nat (length d))%Z -> exists s, sectioned_data d n = Ok s.
Proof.
  intros H. unfold sectioned_data. destruct (Z.ltb_spec n 1); [lia|]. destruct (Z.ltb_spec (Z.of_nat (length d)) n); [lia|]. eauto.
Qed.

(** ** Gini *)
Lemma last_cons (l : list R) : forall a b, last (b :: l) a = last l b.
Proof. induction l as [|c l IH]; intros a b; auto. change (last (b :: c :: l) a) with (last (c :: l) a). rewrite !IH. reflexivity. Qed.
Lemma trapz_eq dx : forall l a, trapz1 dx (a :: l) = dx * (sumR (a :: l) - (a + last l a) / 2).
Proof.
  induction l as [|b l IH]; intros a; [cbn; lra|].
  change (trapz1 dx (a :: b :: l)) with (dx * (a + b) / 2 + trapz1 dx (b :: l)). rewrite IH, last_cons.
  rewrite !sumR_cons. lra.
Qed.
Lemma cumsum_length l : forall a, length (cumsum a l) = length l.
Proof. induction l; intros a0; cbn; auto. Qed.
Lemma cumsum_last l : forall a, last (cumsum a l) a = a + sumR l.
Proof.
  induction l as [|x l IH]; intros a; [cbn; lra|]. cbn [cumsum]. rewrite last_cons, IH, sumR_cons. lra.
Qed.
Lemma last_map (f : R -> R) l : forall a, last (map f l) (f a) = f (last l a).
Proof. induction l as [|x l IH]; intros a; auto. cbn [map]. rewrite !last_cons. apply IH. Qed.
Lemma cumsum_sum l : forall a, sumR (cumsum a l) = INR (length l) * a + sumR (cumsum 0 l).
Proof.
  induction l as [|x l IH]; intros a; [cbn; lra|]. cbn [cumsum]. rewrite !sumR_cons, (IH (a + x)), (IH (0 + x)).
  cbn [length]. rewrite S_INR. lra.
Qed.
Lemma sorted_head_sum x l : sorted (x :: l) -> INR (length l) * x <= sumR l.
Proof.
  intros H0. inversion H0 as [|? ? H _]; subst. rewrite <- (sumR_map_const x l).
  replace (sumR l) with (sumR (map (fun y => y) l)) by now rewrite map_id. apply sumR_le. exact H.
Qed.
Lemma lorenz_upper l : sorted l -> 2 * sumR (cumsum 0 l) <= (INR (length l) + 1) * sumR l.
Proof.
  induction l as [|x l IH]; intros H; [cbn; lra|]. assert (Hs := sorted_head_sum x l H). inversion H as [|? ? _ H']; subst. specialize (IH H').
  cbn [cumsum length]. rewrite !sumR_cons, cumsum_sum, S_INR. nra.
Qed.
Lemma lorenz_const n v : 2 * sumR (cumsum 0 (repeat v n)) = (INR n + 1) * sumR (repeat v n).
Proof.
  induction n as [|n IH]; [cbn; lra|]. cbn [repeat cumsum]. rewrite !sumR_cons, cumsum_sum, repeat_length, S_INR.
  assert (E : sumR (repeat v n) = INR n * v).
  { clear. induction n as [|n IH]; [cbn; lra|]. cbn [repeat]. rewrite sumR_cons, IH, S_INR. lra. }
  rewrite E in *. lra.
Qed.
Lemma lorenz_eq_const l : sorted l -> 2 * sumR (cumsum 0 l) = (INR (length l) + 1) * sumR l -> forall x y, In x l -> In y l -> x = y.
Proof.
  induction l as [|x l IH]; intros H E; [intros ? ? []|]. assert (Hs := sorted_head_sum x l H).
  assert (U := lorenz_upper l). inversion H as [|? ? Hx H']; subst. specialize (U H').
  cbn [cumsum length] in E. rewrite !sumR_cons, cumsum_sum, S_INR in E.
  assert (E1 : INR (length l) * x = sumR l) by nra.
  assert (All : forall y, In y l -> y = x).
  { intros y Hy. assert (Z : sumR (map (fun z => z - x) l) = 0).
    { rewrite sumR_map_minus, map_id, sumR_map_const. lra. }
    assert (y - x = 0); [|lra].
    apply (sumR_zero (map (fun z => z - x) l)); [|exact Z|apply (in_map (fun z => z - x)), Hy].
    intros w Hw. apply in_map_iff in Hw as (z & <- & Hz). specialize (Hx z Hz). lra. }
  intros a b [<-|Ha] [<-|Hb]; auto. - symmetry. auto. - rewrite (All a Ha), (All b Hb). reflexivity.
Qed.
Lemma cumsum_nonneg l : (forall x, In x l -> 0 <= x) -> forall a, 0 <= a -> forall c, In c (cumsum a l) -> 0 <= c.
Proof.
  induction l as [|x l IH]; intros H a Ha c Hc; [destruct Hc|]. cbn in Hc.
  assert (0 <= x) by (apply H; left; auto). destruct Hc as [<-|Hc]; [lra|].
  apply (IH (fun y Hy => H y (or_intror Hy)) (a + x)); auto. lra.
Qed.
Lemma gini_value l v : l <> [] -> gini_h l = Some v ->
  sumR l <> 0 /\ v = 2 / INR (length l) * (sumR (cumsum 0 (sortR l)) / sumR l - 1 / 2).
Proof.
  intros Hne. unfold gini_h. rewrite <- (sumR_perm _ _ (sortR_perm l)), sortR_length.
  destruct (Nat.eqb_spec (length l) 0) as [L0|_]; [destruct l; [congruence|discriminate]|].
  destruct (Req_EM_T (sumR l) 0) as [|N]; [discriminate|].
  intros E. split; [exact N|]. assert (E' : forall a b : R, Some a = Some b -> a = b) by (intros a b X; injection X; auto).
  apply E' in E. subst v. clear E'.
  rewrite trapz_eq.
  replace (last (map (fun c => c / sumR l) (cumsum 0 (sortR l))) 0) with 1.
  2:{ transitivity (last (map (fun c => c / sumR l) (cumsum 0 (sortR l))) ((fun c => c / sumR l) 0)).
      2:{ f_equal. cbn beta. field. exact N. }
      rewrite (last_map (fun c => c / sumR l)), cumsum_last.
      rewrite <- (sumR_perm _ _ (sortR_perm l)). field. exact N. }
  rewrite sumR_cons. rewrite (map_ext _ (fun c => / sumR l * c)) by (intros; unfold Rdiv; ring).
  rewrite sumR_map_scal, map_id. set (W := sumR (cumsum 0 (sortR l))). 
  assert (Hl : INR (length l) <> 0). { destruct l; [exfalso; apply N; reflexivity|]. apply not_0_INR. discriminate. }
  field. split; assumption.
Qed.

(** ** Hybrid parameters: element access *)
Definition rrect (g : rgrid) (ny nx : nat) : Prop := length g = ny /\ forall r, In r g -> length r = nx.
Lemma list_eq_seq {A} (l : list A) d n f : length l = n -> (forall i, (i < n)%nat -> nth i l d = f i) -> l = map f (seq 0 n).
Proof.
  intros L H. apply nth_ext with (d := d) (d' := d); [rewrite map_length, seq_length; exact L|].
  intros i Hi. rewrite L in Hi. rewrite H by exact Hi.
  rewrite nth_indep with (d' := f 0%nat) by (rewrite map_length, seq_length; exact Hi).
  rewrite map_nth, seq_nth by exact Hi. reflexivity.
Qed.
Lemma diff1_length l : length (diff1 l) = (length l - 1)%nat.
Proof. induction l as [|a [|b l] IH]; auto. change (diff1 (a :: b :: l)) with ((b - a) :: diff1 (b :: l)). cbn [length] in *. rewrite IH. lia. Qed.
Lemma diff1_nth l : forall i, (S i < length l)%nat -> nth i (diff1 l) 0 = nth (S i) l 0 - nth i l 0.
Proof.
  induction l as [|a [|b l] IH]; intros i H; [cbn in H; lia..|].
  change (diff1 (a :: b :: l)) with ((b - a) :: diff1 (b :: l)). destruct i as [|i]; [reflexivity|].
  cbn [nth]. cbn [length] in H. specialize (IH i). cbn [nth length] in IH. apply IH. lia.
Qed.
Lemma zip2_length {A B C} (f : A -> B -> C) l : forall l', length (zip2 f l l') = Nat.min (length l) (length l').
Proof. induction l as [|x l IH]; intros [|y l']; cbn; auto. Qed.
Lemma zip2_nth {A B C} (f : A -> B -> C) da db dc l : forall l' i, (i < length l)%nat -> (i < length l')%nat ->
  nth i (zip2 f l l') dc = f (nth i l da) (nth i l' db).
Proof. induction l as [|x l IH]; intros [|y l'] [|i] H H'; cbn in *; try lia; auto. apply IH; lia. Qed.
Lemma diff0_length g : length (diff0 g) = (length g - 1)%nat.
Proof. induction g as [|a [|b l] IH]; auto. change (diff0 (a :: b :: l)) with (zip2 (fun x y => y - x) a b :: diff0 (b :: l)). cbn [length] in *. rewrite IH. lia. Qed.
Lemma diff0_nth g : forall i, (S i < length g)%nat -> nth i (diff0 g) [] = zip2 (fun x y => y - x) (nth i g []) (nth (S i) g []).
Proof.
  induction g as [|a [|b l] IH]; intros i H; [cbn in H; lia..|].
  change (diff0 (a :: b :: l)) with (zip2 (fun x y => y - x) a b :: diff0 (b :: l)). destruct i as [|i]; [reflexivity|].
  cbn [nth]. cbn [length] in H. specialize (IH i). cbn [nth length] in IH. apply IH. lia.
Qed.
Lemma removelast_length {A} (l : list A) : length (removelast l) = (length l - 1)%nat.
Proof. rewrite removelast_firstn_len, firstn_length. lia. Qed.
Lemma removelast_nth {A} (l : list A) d i : (S i < length l)%nat -> nth i (removelast l) d = nth i l d.
Proof.
  revert i. induction l as [|a [|b l] IH]; intros i H; [cbn in H; lia..|].
  change (removelast (a :: b :: l)) with (a :: removelast (b :: l)). destruct i as [|i]; [reflexivity|].
  cbn [nth]. apply IH. cbn [length] in *. lia.
Qed.
Lemma rrect_row g ny nx i : rrect g ny nx -> (i < ny)%nat -> length (nth i g []) = nx.
Proof. intros [L H] Hi. apply H. apply nth_In. lia. Qed.
Lemma nth_map_nil {A} (f : list A -> list A) l i : f [] = [] -> nth i (map f l) [] = f (nth i l []).
Proof. intros H. rewrite <- H at 1. apply map_nth. Qed.
Definition dzx (g : rgrid) (i j : nat) : R := at_ g i (S j) - at_ g i j.
Definition dzy (g : rgrid) (i j : nat) : R := at_ g (S i) j - at_ g i j.
Lemma diffx_seq g ny nx : rrect g ny nx -> diffx g = map (fun i => map (fun j => dzx g i j) (seq 0 (nx - 1))) (seq 0 ny).
Proof.
  intros Hr. assert (L := proj1 Hr). apply (list_eq_seq _ []); [unfold diffx; rewrite map_length; exact L|]. intros i Hi.
  unfold diffx. rewrite (nth_map_nil diff1) by reflexivity. assert (Li := rrect_row g ny nx i Hr Hi).
  apply (list_eq_seq _ 0); [rewrite diff1_length, Li; reflexivity|]. intros j Hj. rewrite diff1_nth by lia. reflexivity.
Qed.
Lemma diff0_seq g ny nx : rrect g ny nx -> diff0 g = map (fun i => map (fun j => dzy g i j) (seq 0 nx)) (seq 0 (ny - 1)).
Proof.
  intros Hr. assert (L := proj1 Hr). apply (list_eq_seq _ []); [rewrite diff0_length, L; reflexivity|]. intros i Hi.
  rewrite diff0_nth by lia. assert (Li := rrect_row g ny nx i Hr ltac:(lia)). assert (Lj := rrect_row g ny nx (S i) Hr ltac:(lia)).
  apply (list_eq_seq _ 0); [rewrite zip2_length, Li, Lj; lia|]. intros j Hj. rewrite (zip2_nth _ 0 0 0) by lia. reflexivity.
Qed.
Lemma nth_seq_map {A} (f : nat -> A) n d i : (i < n)%nat -> nth i (map f (seq 0 n)) d = f i.
Proof.
  intros H. rewrite nth_indep with (d' := f 0%nat) by (rewrite map_length, seq_length; exact H).
  rewrite map_nth, seq_nth by exact H. reflexivity.
Qed.
Lemma areas_seq g ny nx sx sy : rrect g ny nx ->
  areas g sx sy = map (fun i => map (fun j => quad sx sy (dzx g i j) (dzy g i j)) (seq 0 (nx - 1))) (seq 0 (ny - 1)).
Proof.
  intros Hr. unfold areas. rewrite (diffx_seq g ny nx Hr), (diff0_seq g ny nx Hr).
  apply (list_eq_seq _ []).
  - rewrite zip2_length, !map_length, removelast_length, map_length, !seq_length. lia.
  - intros i Hi. rewrite (zip2_nth _ [] [] []); [|rewrite !map_length, seq_length; lia|rewrite removelast_length, map_length, seq_length; lia].
    rewrite (nth_map_nil (@removelast R)) by reflexivity. rewrite removelast_nth by (rewrite map_length, seq_length; lia).
    rewrite !nth_seq_map by lia. apply (list_eq_seq _ 0).
    + rewrite zip2_length, removelast_length, !map_length, !seq_length. lia.
    + intros j Hj. rewrite (zip2_nth _ 0 0 0); [|rewrite removelast_length, map_length, seq_length; lia|rewrite map_length, seq_length; lia].
      rewrite removelast_nth by (rewrite map_length, seq_length; lia). rewrite !nth_seq_map by lia. reflexivity.
Qed.
(** Double sums *)
Definition dbl (n m : nat) (F : nat -> nat -> R) : R := sumR (map (fun i => sumR (map (fun j => F i j) (seq 0 m))) (seq 0 n)).
Lemma sum2_dbl n m F : sum2 (map (fun i => map (fun j => F i j) (seq 0 m)) (seq 0 n)) = dbl n m F.
Proof. unfold sum2, dbl. rewrite map_map. reflexivity. Qed.
Lemma dbl_ext n m F G : (forall i j, (i < n)%nat -> (j < m)%nat -> F i j = G i j) -> dbl n m F = dbl n m G.
Proof.
  intros H. unfold dbl. apply sumR_ext. intros i Hi. apply sumR_ext. intros j Hj. apply in_seq in Hi, Hj. apply H; lia.
Qed.
Lemma dbl_le n m F G : (forall i j, (i < n)%nat -> (j < m)%nat -> F i j <= G i j) -> dbl n m F <= dbl n m G.
Proof.
  intros H. unfold dbl. apply sumR_le. intros i Hi. apply sumR_le. intros j Hj. apply in_seq in Hi, Hj. apply H; lia.
Qed.
Lemma dbl_const n m c : dbl n m (fun _ _ => c) = INR n * INR m * c.
Proof.
  unfold dbl. rewrite (sumR_ext _ (fun _ => INR m * c)).
  - rewrite sumR_map_const, seq_length. ring.
  - intros i _. rewrite sumR_map_const, seq_length. reflexivity.
Qed.
Lemma dbl_minus n m F G : dbl n m (fun i j => F i j - G i j) = dbl n m F - dbl n m G.
Proof.
  unfold dbl. rewrite <- sumR_map_minus. apply sumR_ext. intros i _. apply sumR_map_minus.
Qed.
Lemma dbl_scal n m k F : dbl n m (fun i j => k * F i j) = k * dbl n m F.
Proof.
  unfold dbl. rewrite <- sumR_map_scal. apply sumR_ext. intros i _. apply sumR_map_scal.
Qed.
Lemma dbl_zero n m F : (forall i j, (i < n)%nat -> (j < m)%nat -> 0 <= F i j) -> dbl n m F = 0 ->
  forall i j, (i < n)%nat -> (j < m)%nat -> F i j = 0.
Proof.
  intros P Z i j Hi Hj. unfold dbl in Z.
  assert (Zi : sumR (map (fun j => F i j) (seq 0 m)) = 0).
  { apply (sumR_zero (map (fun i => sumR (map (fun j => F i j) (seq 0 m))) (seq 0 n))); [|exact Z|].
    - intros x Hx. apply in_map_iff in Hx as (k & <- & Hk). apply sumR_nonneg. intros y Hy.
      apply in_map_iff in Hy as (l & <- & Hl). apply in_seq in Hk, Hl. apply P; lia.
    - apply in_map_iff. exists i. split; [reflexivity|apply in_seq; lia]. }
  apply (sumR_zero (map (fun j => F i j) (seq 0 m))); [|exact Zi|apply in_map_iff; exists j; split; [reflexivity|apply in_seq; lia]].
  intros y Hy. apply in_map_iff in Hy as (l & <- & Hl). apply in_seq in Hl. apply P; lia.
Qed.
Lemma dbl_nonneg n m F : (forall i j, (i < n)%nat -> (j < m)%nat -> 0 <= F i j) -> 0 <= dbl n m F.
Proof.
  intros P. rewrite <- (Rmult_0_r (INR n * INR m)), <- (dbl_const n m 0). apply dbl_le. exact P.
Qed.
Lemma surface_area_dbl g ny nx sx sy : rrect g ny nx ->
  surface_area g sx sy = 2 * dbl (ny - 1) (nx - 1) (fun i j => quad sx sy (dzx g i j) (dzy g i j)).
Proof. intros H. unfold surface_area. now rewrite (areas_seq g ny nx sx sy H), sum2_dbl. Qed.
Lemma pow2_nonneg x : 0 <= x ^ 2.
Proof. cbn. assert (P := Rle_0_sqr x). unfold Rsqr in P. lra. Qed.
Lemma quad_lower sx sy a b : 0 < sx -> 0 < sy -> 1 / 2 * (sx * sy) <= quad sx sy a b.
Proof.
  intros Hx Hy. unfold quad. apply Rmult_le_compat_l; [lra|].
  assert (0 <= sx * sy) by (apply Rmult_le_pos; lra).
  rewrite <- (sqrt_pow2 (sx * sy)) at 1 by assumption. apply sqrt_le_1; [apply pow2_nonneg| |].
  - assert (A := pow2_nonneg (sy * b)). assert (B := pow2_nonneg (sx * a)). assert (C := pow2_nonneg (sx * sy)). lra.
  - assert (A := pow2_nonneg (sy * b)). assert (B := pow2_nonneg (sx * a)). lra.
Qed.
Lemma quad_eq sx sy a b : 0 < sx -> 0 < sy -> (quad sx sy a b = 1 / 2 * (sx * sy) <-> a = 0 /\ b = 0).
Proof.
  intros Hx Hy. assert (0 < sx * sy) by (apply Rmult_lt_0_compat; lra). unfold quad. split.
  - intros E. assert (E' : sqrt ((sy * b) ^ 2 + (sx * a) ^ 2 + (sx * sy) ^ 2) = sx * sy) by lra.
    assert (A := pow2_nonneg (sy * b)). assert (B := pow2_nonneg (sx * a)). assert (C := pow2_nonneg (sx * sy)).
    apply (f_equal (fun z => z * z)) in E'. rewrite sqrt_sqrt in E' by lra.
    assert (Z : (sy * b) ^ 2 = 0 /\ (sx * a) ^ 2 = 0) by (cbn in *; lra). destruct Z as [Z1 Z2]. cbn in Z1, Z2.
    assert (sy * b = 0) by nra. assert (sx * a = 0) by nra.
    split; [apply Rmult_integral in H1 as [|]|apply Rmult_integral in H0 as [|]]; lra.
  - intros [-> ->]. rewrite !Rmult_0_r. replace (0 ^ 2 + 0 ^ 2 + (sx * sy) ^ 2) with ((sx * sy) ^ 2) by ring.
    rewrite sqrt_pow2 by lra. reflexivity.
Qed.
Lemma Sdq_dbl g ny nx sx sy : rrect g ny nx ->
  Sdq g ny nx sx sy = sqrt ((dbl ny (nx - 1) (fun i j => (dzx g i j / sx) ^ 2) + dbl (ny - 1) nx (fun i j => (dzy g i j / sy) ^ 2)) / (INR ny * INR nx)).
Proof.
  intros H. unfold Sdq. rewrite (diffx_seq g ny nx H), (diff0_seq g ny nx H). do 2 f_equal.
  rewrite <- !sum2_dbl. f_equal; f_equal; rewrite map_map; apply map_ext; intros i; rewrite map_map; reflexivity.
Qed.
