(** C104: the depth of a periodic texture (surface.py:1531-1640). *)
From Coq Require Import String.
From Coq Require Import Reals List Bool Arith ZArith Lia Lra Permutation.
From Verif Require Import Base RList ModelMath ModelHeights ModelGeom ModelAcf ModelFourier ModelDepth ProofMath ProofHeights ProofGeom PropsMath PropsGeom ProofFourier PropsAcf PropsFourier ProofDepth PropsAngular PropsOrientation.
Import ListNotations.
Local Open Scope R_scope.

(** *** Specification *)
(** a texture is treated as running along the columns if its orientation is between -45 and 45 degrees *)
Definition upright (o : R) : Prop := -45 < o < 45.
(** the i-th row or column of the height data *)
Definition is_line (g : grid) (rows : bool) (i : nat) (line : list R) : Prop :=
  if rows then nth_error (matrix_of g) i = Some line else (i < ncols g)%nat /\ line = map (fun r => nth i r 0) (matrix_of g).
(** curve_fit returns a sinusoid of amplitude a (up to sign) and period p that runs through all points of the line *)
Definition fits (cf : list R -> R * R * R * R -> option (R * R * R * R)) (line : list R) (per a p : R) : Prop :=
  exists a' x0 y0, cf line (guess line per) = Some (a', p, x0, y0) /\ Rabs a' = a /\
    forall j, (j < length line)%nat -> nth j line 0 = a' * sin (2 * PI * (INR j - x0) / p) + y0.

Definition vert (o : R) : bool := Rltb (-45) o && Rltb o 45.
Lemma vert_spec o : vert o = true <-> upright o.
Proof. unfold vert, upright. rewrite andb_true_iff, !Rltb_spec. tauto. Qed.

Lemma line_of g (v : bool) i line : (if v then row_of (matrix_of g) i else column_of (matrix_of g) (ncols g) i) = Ok line <-> is_line g v i line.
Proof.
  destruct v; cbn [is_line].
  - unfold row_of. destruct (nth_error (matrix_of g) i); split; intros H; congruence.
  - unfold column_of. destruct (Nat.ltb_spec i (ncols g)) as [L|L]; split; intros H; try discriminate; try lia.
    + split; [exact L|congruence].
    + destruct H as [_ ->]. reflexivity.
Qed.
Lemma depth_inv cf argsort g sx sy np sw r : depth cf argsort g sx sy np sw = Ok r ->
  has_missing g = false /\ exists o pp per ds, orientation g sx sy argsort = Ok o /\ period_x_y g sx sy argsort = Ok pp /\
    (if vert o then fst pp else snd pp) = Some per /\ (np <= if vert o then nrows g else ncols g)%nat /\ np <> 1%nat /\
    Forall2 (fun i d => exists line s, is_line g (vert o) ((if vert o then nrows g else ncols g) / (np - 1) * i) line /\
      from_fit cf line (guess line (per / (if vert o then sx else sy))) = Ok s /\
      line_depths sw (Z.to_nat (pytrunc ((if vert o then extent (ncols g) sx else extent (nrows g) sy) / per))) s line = Ok d) (seq 0 np) ds /\
    r = (nanmean (concat ds), nanstd (concat ds)).
Proof.
  unfold depth. destruct (has_missing g) eqn:Hm; [discriminate|]. destruct (orientation g sx sy argsort) as [o|] eqn:Eo; [|discriminate]. cbn [rbind]. fold (vert o).
  set (n := if vert o then nrows g else ncols g). destruct (Nat.ltb_spec n np) as [L|L]; [discriminate|].
  destruct (period_x_y g sx sy argsort) as [pp|] eqn:Ep; [|discriminate]. cbn [rbind]. destruct (if vert o then fst pp else snd pp) as [per|] eqn:Er; [|discriminate].
  destruct (Nat.eqb_spec np 1) as [C|C]; [discriminate|]. destruct (loop _ (seq 0 np)) as [ds|] eqn:El; [|discriminate]. cbn [rbind]. intros H. split; [reflexivity|].
  exists o, pp, per, ds. split; [reflexivity|]. split; [reflexivity|]. split; [exact Er|]. fold n. split; [exact L|]. split; [exact C|]. split; [|congruence].
  apply loop_inv in El. clear -El. induction El as [|i d is ds H _ IH]; constructor; [|exact IH]. clear IH.
  destruct (if vert o then row_of (matrix_of g) (n / (np - 1) * i) else column_of (matrix_of g) (ncols g) (n / (np - 1) * i)) as [line|] eqn:E1; [|discriminate]. cbn [rbind] in H.
  destruct (from_fit cf line _) as [s|] eqn:E2; [|discriminate]. cbn [rbind] in H. exists line, s. split; [apply line_of; exact E1|]. split; [exact E2|exact H].
Qed.
Lemma Forall2_in_r {A B} (P : A -> B -> Prop) l l' y : Forall2 P l l' -> In y l' -> exists x, In x l /\ P x y.
Proof. induction 1 as [|a b l l' H _ IH]; intros I; [destruct I|]. destruct I as [<- |I]; [exists a; split; [left; reflexivity|exact H]|]. destruct (IH I) as (x & Hx & Px). exists x. split; [right; exact Hx|exact Px]. Qed.
Lemma in_measured l x : In x (measured l) <-> In (Some x) l.
Proof.
  unfold measured. rewrite in_flat_map. split.
  - intros (h & Hh & Hx). destruct h as [y|]; cbn in Hx; [destruct Hx as [<- |[]]; exact Hh|destruct Hx].
  - intros H. exists (Some x). split; [exact H|left; reflexivity].
Qed.
Lemma nanmean_between l lo hi : (forall x, In (Some x) l -> lo <= x <= hi) -> forall m, nanmean l = Some m -> lo <= m <= hi.
Proof.
  intros H m. unfold nanmean. destruct (measured l) as [|y t] eqn:E; [discriminate|]. intros Em. assert (m = meanR (y :: t)) as -> by congruence.
  apply meanR_between; [discriminate|]. intros x Hx. apply H, in_measured. rewrite E. exact Hx.
Qed.

(** *** The depth lies between zero and the range of the heights *)
Lemma slice_range {A} s (line l : list A) x : pyslice s line = Ok l -> In x l -> In x line.
Proof.
  unfold pyslice. destruct (slice_indices _ _) as [is|]; [|discriminate]. cbn [rbind]. intros E H. assert (l = pick line is) by congruence. subst. apply pick_In in H. exact H.
Qed.
Lemma value_range sw s line j v lo hi : (forall x, In x line -> lo <= x <= hi) -> extremum_value sw s line j = Some v -> lo <= v <= hi.
Proof.
  intros H. unfold extremum_value. destruct (_ || _); [discriminate|]. destruct (pyslice _ line) as [l|] eqn:E; [|discriminate].
  unfold slice_median. destruct l as [|y t] eqn:El; [discriminate|]. rewrite <- El in *. intros Ev. assert (v = medianR l) as -> by congruence.
  apply medianR_between; [congruence|]. intros x Hx. apply H. exact (slice_range _ _ _ _ E Hx).
Qed.
Lemma line_depths_in sw n s line d h : line_depths sw n s line = Ok d -> In h d ->
  s_p s <> 0 /\ exists k, (k < n)%nat /\ h = habs (hsub (extremum_value sw s line (2 * k)) (extremum_value sw s line (2 * k + 1))).
Proof.
  unfold line_depths. destruct (Nat.eqb n 0); [intros E; assert (d = []) by congruence; subst; intros []|]. destruct (Req_EM_T (s_p s) 0) as [C|C]; [discriminate|].
  intros E I. assert (d = map (fun k => habs (hsub (extremum_value sw s line (2 * k)) (extremum_value sw s line (2 * k + 1)))) (seq 0 n)) by congruence. subst.
  apply in_map_iff in I as (k & <- & Hk). apply in_seq in Hk. split; [exact C|]. exists k. split; [lia|reflexivity].
Qed.
Lemma pair_inv a b x : habs (hsub a b) = Some x -> exists u v, a = Some u /\ b = Some v /\ x = Rabs (u - v).
Proof. destruct a as [u|], b as [v|]; cbn; intros E; try discriminate. exists u, v. repeat split. congruence. Qed.
Lemma row_heights g r x : has_missing g = false -> In r (matrix_of g) -> In x r -> In (Some x) (flat g).
Proof.
  intros Hm Hr Hx. unfold matrix_of in Hr. apply in_map_iff in Hr as (r0 & <- & Hr0). apply in_map_iff in Hx as (h & <- & Hh).
  assert (F : In h (flat g)) by (unfold flat; apply in_concat; exists r0; split; assumption).
  destruct h as [y|]; [exact F|]. exfalso. unfold has_missing in Hm. assert (existsb is_nan (flat g) = true); [|congruence]. apply existsb_exists. exists None. split; [exact F|reflexivity].
Qed.
Lemma line_heights g v i line x : rect g -> has_missing g = false -> is_line g v i line -> In x line -> In (Some x) (flat g).
Proof.
  intros Rg Hm Hl Hx. destruct v; cbn [is_line] in Hl.
  - apply nth_error_In in Hl. exact (row_heights g line x Hm Hl Hx).
  - destruct Hl as [Hi ->]. apply in_map_iff in Hx as (r & <- & Hr). apply (row_heights g r); [exact Hm|exact Hr|]. apply nth_In.
    unfold matrix_of in Hr. apply in_map_iff in Hr as (r0 & <- & Hr0). rewrite map_length. apply Nat.lt_le_trans with (ncols g); [exact Hi|]. apply Nat.eq_le_incl. symmetry. exact (Rg r0 Hr0).
Qed.
Theorem C104_range : forall cf argsort g sx sy np sw m sd lo hi, rect g ->
  (forall x, In (Some x) (flat g) -> lo <= x <= hi) ->
  depth cf argsort g sx sy np sw = Ok (m, sd) ->
  (m = None /\ sd = None) \/ exists a b, m = Some a /\ sd = Some b /\ 0 <= a <= hi - lo /\ 0 <= b.
Proof.
  intros cf argsort g sx sy np sw m sd lo hi Rg Hh E. apply depth_inv in E as (Hm & o & pp & per & ds & Eo & Epp & Eper & Hnp & Hn1 & F & Er).
  assert (m = nanmean (concat ds)) as -> by congruence. assert (sd = nanstd (concat ds)) as -> by congruence. clear Er.
  assert (B : forall x, In (Some x) (concat ds) -> 0 <= x <= hi - lo).
  { intros x Hx. apply in_concat in Hx as (d & Hd & Hx). destruct (Forall2_in_r _ _ _ _ F Hd) as (i & _ & line & s & Hl & _ & Hv).
    destruct (line_depths_in _ _ _ _ _ _ Hv Hx) as (_ & k & _ & Ek). symmetry in Ek. apply pair_inv in Ek as (u & v & Eu & Ev & ->).
    assert (L : forall y, In y line -> lo <= y <= hi) by (intros y Hy; apply Hh; exact (line_heights _ _ _ _ _ Rg Hm Hl Hy)).
    pose proof (value_range _ _ _ _ _ _ _ L Eu). pose proof (value_range _ _ _ _ _ _ _ L Ev). split; [apply Rabs_pos|]. apply Rabs_le. lra. }
  destruct (measured (concat ds)) as [|y t] eqn:Em; [left; unfold nanmean, nanstd; rewrite Em; split; reflexivity|]. right.
  exists (meanR (y :: t)), (stdR (y :: t)). unfold nanmean, nanstd. rewrite Em. split; [reflexivity|]. split; [reflexivity|]. split; [|apply stdR_nonneg].
  apply (nanmean_between _ _ _ B). unfold nanmean. rewrite Em. reflexivity.
Qed.

(** *** Accuracy on sinusoidal textures *)
Definition ext_pos (s : sinus) (j : nat) : R := 1 / 2 * INR j * s_p s + first_extremum s.
Lemma ext_pos_nonneg s j : 0 < s_p s -> 0 <= ext_pos s j.
Proof. intros H. destruct (first_extremum_ok s H) as [[A _] _]. unfold ext_pos. assert (0 <= INR j * s_p s) by (apply Rmult_le_pos; [apply pos_INR|lra]). lra. Qed.
Lemma window_items sw s line j : 0 < s_p s -> 0 <= sw ->
  let t := pytrunc (ext_pos s j) in let w := pytrunc (s_p s * sw / 2) in
  (0 <= t - w)%Z -> (t + w <= Z.of_nat (length line) - 1)%Z ->
  exists l, pyslice (sl (t - w) (t + w + 1)) line = Ok l /\ l <> [] /\
    forall x, In x l -> exists i, (i < length line)%nat /\ nth i line 0 = x /\ Rabs (INR i - ext_pos s j) <= s_p s * sw / 2 + 1.
Proof.
  intros Hp Hsw t w Hlo Hhi. assert (W0 : 0 <= s_p s * sw / 2) by (assert (0 <= s_p s * sw) by (apply Rmult_le_pos; lra); lra).
  destruct (pytrunc_bounds (ext_pos s j) (ext_pos_nonneg s j Hp)) as [T1 T2]. destruct (pytrunc_bounds _ W0) as [W1 W2]. fold t in T1, T2. fold w in W1, W2.
  unfold pyslice. rewrite sl_indices by lia. cbn [rbind]. rewrite Z.min_l by lia. set (is := map _ _). exists (pick line is). split; [reflexivity|].
  assert (Bi : forall i, In i is -> (0 <= i < Z.of_nat (length line))%Z) by (intros i Hi; apply in_map_iff in Hi as (k & <- & Hk); apply in_seq in Hk; lia).
  split.
  - intros C. apply (f_equal (@length R)) in C. rewrite pick_length in C by exact Bi. unfold is in C. rewrite map_length, seq_length in C. cbn [length] in C. lia.
  - intros x Hx. apply In_nth_error in Hx as [k Hk]. rewrite pick_nth in Hk by exact Bi. unfold is in Hk. rewrite nth_error_shift in Hk. destruct (Nat.ltb_spec k (Z.to_nat (t + w + 1 - (t - w)))) as [L|L]; [|discriminate].
    exists (Z.to_nat (t - w + Z.of_nat k)). split; [apply nth_error_Some; congruence|]. split; [exact (nth_error_nth _ _ 0 Hk)|].
    rewrite INR_IZR_INZ, Z2Nat.id by lia. set (i := (t - w + Z.of_nat k)%Z). assert (I1 : (t - w <= i)%Z) by lia. assert (I2 : (i <= t + w)%Z) by lia. apply IZR_le in I1, I2. rewrite minus_IZR in I1. rewrite plus_IZR in I2.
    apply Rabs_le. lra.
Qed.
Lemma value_window sw s line j v lo hi : 0 < s_p s -> 0 <= sw -> extremum_value sw s line j = Some v ->
  (forall i, (i < length line)%nat -> Rabs (INR i - ext_pos s j) <= s_p s * sw / 2 + 1 -> lo <= nth i line 0 <= hi) -> lo <= v <= hi.
Proof.
  intros Hp Hsw E H. unfold extremum_value in E. fold (ext_pos s j) in E. destruct (Z.ltb_spec (pytrunc (ext_pos s j) - pytrunc (s_p s * sw / 2)) 0) as [|L1]; [discriminate|].
  destruct (Z.ltb_spec (Z.of_nat (length line) - 1) (pytrunc (ext_pos s j) + pytrunc (s_p s * sw / 2))) as [|L2]; [discriminate|]. cbn [orb] in E.
  destruct (window_items sw s line j Hp Hsw L1 ltac:(lia)) as (l & El & Ne & In_l). rewrite El in E. unfold slice_median in E. destruct l as [|y t] eqn:E0; [congruence|]. rewrite <- E0 in *.
  assert (v = medianR l) as -> by congruence. apply medianR_between; [congruence|]. intros x Hx. destruct (In_l x Hx) as (i & Hi & <- & D). apply H; assumption.
Qed.
Lemma value_some sw s line j : 0 < s_p s -> 0 <= sw -> s_p s * sw / 2 + 1 <= ext_pos s j -> ext_pos s j + s_p s * sw / 2 <= INR (length line) - 1 ->
  exists v, extremum_value sw s line j = Some v.
Proof.
  intros Hp Hsw Lo Hi. assert (W0 : 0 <= s_p s * sw / 2) by (assert (0 <= s_p s * sw) by (apply Rmult_le_pos; lra); lra).
  destruct (pytrunc_bounds (ext_pos s j) (ext_pos_nonneg s j Hp)) as [T1 T2]. destruct (pytrunc_bounds _ W0) as [W1 W2].
  unfold extremum_value. fold (ext_pos s j). set (t := pytrunc (ext_pos s j)) in *. set (w := pytrunc (s_p s * sw / 2)) in *.
  assert (L1 : (0 <= t - w)%Z). { assert (-1 < t - w)%Z; [|lia]. apply lt_IZR. rewrite minus_IZR. lra. }
  assert (L2 : (t + w <= Z.of_nat (length line) - 1)%Z). { apply le_IZR. rewrite plus_IZR, minus_IZR, <- INR_IZR_INZ. lra. }
  destruct (Z.ltb_spec (t - w) 0); [lia|]. destruct (Z.ltb_spec (Z.of_nat (length line) - 1) (t + w)); [lia|]. cbn [orb].
  destruct (window_items sw s line j Hp Hsw L1 L2) as (l & El & Ne & _). fold t w in El. rewrite El. destruct l as [|y l']; [congruence|]. eexists. reflexivity.
Qed.
(** the sinusoid around its extrema *)
Lemma around s : 0 < s_p s -> exists e, (e = 1 \/ e = -1) /\ forall k x,
  sin_at s x = s_y0 s + s_a s * (e * cos (2 * PI * (x - ext_pos s (2 * k)) / s_p s)) /\
  sin_at s x = s_y0 s - s_a s * (e * cos (2 * PI * (x - ext_pos s (2 * k + 1)) / s_p s)).
Proof.
  intros Hp. destruct (first_extremum_ok s Hp) as [_ X]. unfold is_extremum in X. set (e := sin (phase s (first_extremum s))) in *.
  assert (C : cos (phase s (first_extremum s)) = 0).
  { pose proof (sin2_cos2 (phase s (first_extremum s))) as T. fold e in T. unfold Rsqr in T. assert (e * e = 1) by (unfold Rabs in X; destruct (Rcase_abs e); nra). apply Rsqr_0_uniq. unfold Rsqr. lra. }
  exists e. split; [unfold Rabs in X; destruct (Rcase_abs e); lra|]. intros k x.
  assert (V : forall d, sin (phase s (first_extremum s) + d) = e * cos d) by (intros d; rewrite sin_plus, C; fold e; ring).
  unfold sin_at, sinusoid. split.
  - replace ((x - s_x0 s) / s_p s * 2 * PI) with (phase s (first_extremum s) + 2 * PI * (x - ext_pos s (2 * k)) / s_p s + 2 * INR k * PI)
      by (unfold phase, ext_pos; rewrite mult_INR; cbn [INR]; field; lra).
    rewrite sin_period, V. ring.
  - replace ((x - s_x0 s) / s_p s * 2 * PI) with (phase s (first_extremum s) + 2 * PI * (x - ext_pos s (2 * k + 1)) / s_p s + PI + 2 * INR k * PI)
      by (unfold phase, ext_pos; rewrite plus_INR, mult_INR; cbn [INR]; field; lra).
    rewrite sin_period, neg_sin, V. ring.
Qed.
Lemma cos_near sw p P d : 0 <= sw -> 0 < P -> P <= p -> sw + 2 / P <= 1 -> Rabs d <= p * sw / 2 + 1 -> cos (PI * (sw + 2 / P)) <= cos (2 * PI * d / p) <= 1.
Proof.
  intros Hsw HP HPp Hs Hd. pose proof PI_RGT_0 as Pi. split; [|apply COS_bound].
  assert (E : cos (2 * PI * d / p) = cos (2 * PI * Rabs d / p)).
  { unfold Rabs. destruct (Rcase_abs d); [|reflexivity]. replace (2 * PI * - d / p) with (- (2 * PI * d / p)) by (field; lra). rewrite cos_neg. reflexivity. }
  rewrite E. assert (I : / p <= / P) by (apply Rinv_le_contravar; assumption). assert (I0 : 0 < / p) by (apply Rinv_0_lt_compat; lra).
  assert (B : 2 * Rabs d / p <= sw + 2 / P).
  { apply Rle_trans with (sw + 2 / p); [|unfold Rdiv; lra]. apply Rmult_le_reg_r with p; [lra|]. replace (2 * Rabs d / p * p) with (2 * Rabs d) by (field; lra). replace ((sw + 2 / p) * p) with (p * sw + 2) by (field; lra). lra. }
  assert (B0 : 0 <= 2 * Rabs d / p) by (apply Rmult_le_pos; [pose proof (Rabs_pos d); lra|lra]).
  replace (2 * PI * Rabs d / p) with (PI * (2 * Rabs d / p)) by (field; lra).
  apply cos_decr_1; [apply Rmult_le_pos; lra| |apply Rmult_le_pos; lra| |apply Rmult_le_compat_l; lra]; (rewrite <- (Rmult_1_r PI) at 2; apply Rmult_le_compat_l; lra).
Qed.
Lemma pair_bounds sw s line a P k u v : 0 < P -> P <= s_p s -> 0 <= sw -> sw + 2 / P <= 1 -> s_a s = a -> 0 <= a ->
  (forall j, (j < length line)%nat -> nth j line 0 = sin_at s (INR j)) ->
  extremum_value sw s line (2 * k) = Some u -> extremum_value sw s line (2 * k + 1) = Some v ->
  2 * a * cos (PI * (sw + 2 / P)) <= Rabs (u - v) <= 2 * a.
Proof.
  intros HP Hp Hsw Hs Ea Ha Hl Eu Ev. assert (Hp0 : 0 < s_p s) by lra. destruct (around s Hp0) as (e & He & V). set (c := cos (PI * (sw + 2 / P))) in *.
  assert (Cb : -1 <= c <= 1) by apply COS_bound.
  assert (M : forall y z, y <= z -> a * y <= a * z) by (intros; apply Rmult_le_compat_l; lra).
  pose proof (M c 1 ltac:(lra)) as Mc. pose proof (M (-1) c ltac:(lra)) as Mc'.
  assert (G : (s_y0 s + a * c <= u <= s_y0 s + a /\ s_y0 s - a <= v <= s_y0 s - a * c) \/ (s_y0 s + a * c <= v <= s_y0 s + a /\ s_y0 s - a <= u <= s_y0 s - a * c)).
  { destruct He as [-> | ->]; [left|right].
    - split; [apply (value_window _ _ _ _ _ _ _ Hp0 Hsw Eu)|apply (value_window _ _ _ _ _ _ _ Hp0 Hsw Ev)]; intros i Hi D; rewrite (Hl i Hi); [rewrite (proj1 (V k (INR i)))|rewrite (proj2 (V k (INR i)))]; rewrite Ea;
        destruct (cos_near sw (s_p s) P _ Hsw HP Hp Hs D) as [C1 C2]; fold c in C1; set (y := cos _) in *; pose proof (M _ _ C1); pose proof (M _ _ C2); lra.
    - split; [apply (value_window _ _ _ _ _ _ _ Hp0 Hsw Ev)|apply (value_window _ _ _ _ _ _ _ Hp0 Hsw Eu)]; intros i Hi D; rewrite (Hl i Hi); [rewrite (proj2 (V k (INR i)))|rewrite (proj1 (V k (INR i)))]; rewrite Ea;
        destruct (cos_near sw (s_p s) P _ Hsw HP Hp Hs D) as [C1 C2]; fold c in C1; set (y := cos _) in *; pose proof (M _ _ C1); pose proof (M _ _ C2); lra. }
  destruct G as [G|G].
  - split; [apply Rle_trans with (u - v); [lra|apply Rle_abs]|apply Rabs_le; lra].
  - rewrite Rabs_minus_sym. split; [apply Rle_trans with (v - u); [lra|apply Rle_abs]|apply Rabs_le; lra].
Qed.
Lemma fits_sin cf line per a p : p <> 0 -> fits cf line per a p -> exists s, from_fit cf line (guess line per) = Ok s /\ s_a s = a /\ s_p s = p /\ forall j, (j < length line)%nat -> nth j line 0 = sin_at s (INR j).
Proof.
  intros Hp (a' & x0 & y0 & E & Ea & V). exists (from_popt a' p x0 y0). unfold from_fit. rewrite E. split; [reflexivity|].
  assert (Sp : s_p (from_popt a' p x0 y0) = p /\ s_a (from_popt a' p x0 y0) = a).
  { unfold from_popt. destruct (Rlt_dec a' 0); cbn; split; try reflexivity; [exact Ea|]. rewrite <- Ea. symmetry. apply Rabs_pos_eq. lra. }
  destruct Sp as [-> ->]. split; [reflexivity|]. split; [reflexivity|]. intros j Hj. rewrite from_popt_same by exact Hp. rewrite (V j Hj). unfold sinusoid. do 2 f_equal. f_equal. field. exact Hp.
Qed.
(** If every sampled line is a sinusoid of amplitude a and period at least P pixels, and the fit finds it, then the depth is at most the true depth 2 a,
    and at least 2 a cos (pi (sampling_width + 2 / P)). *)
Theorem C104_accuracy : forall cf argsort g sx sy np sw m sd a P o pp per,
  0 < P -> 0 <= sw -> sw + 2 / P <= 1 -> 0 <= a ->
  orientation g sx sy argsort = Ok o -> period_x_y g sx sy argsort = Ok pp -> (if vert o then fst pp else snd pp) = Some per ->
  (forall i line, is_line g (vert o) i line -> exists p, P <= p /\ fits cf line (per / (if vert o then sx else sy)) a p) ->
  depth cf argsort g sx sy np sw = Ok (Some m, sd) -> 2 * a * cos (PI * (sw + 2 / P)) <= m <= 2 * a.
Proof.
  intros cf argsort g sx sy np sw m sd a P o pp per HP Hsw Hs Ha Eo Epp Eper Hf E.
  apply depth_inv in E as (Hm & o' & pp' & per' & ds & Eo' & Epp' & Eper' & Hnp & Hn1 & F & Er).
  assert (o' = o) by congruence. assert (pp' = pp) by congruence. subst o' pp'. assert (per' = per) by congruence. subst per'.
  assert (Em : nanmean (concat ds) = Some m) by congruence. clear Er. revert m Em. apply nanmean_between. intros x Hx.
  apply in_concat in Hx as (d & Hd & Hx). destruct (Forall2_in_r _ _ _ _ F Hd) as (i & _ & line & s & Hl & Es & Hv).
  destruct (Hf _ _ Hl) as (p & HPp & Hfit). destruct (fits_sin _ _ _ _ p ltac:(lra) Hfit) as (s' & Es' & Sa & Sp & V). rewrite <- Sp in HPp. assert (s' = s) by congruence. subst s'.
  destruct (line_depths_in _ _ _ _ _ _ Hv Hx) as (_ & k & _ & Ek). symmetry in Ek. apply pair_inv in Ek as (u & v & Eu & Ev & ->).
  exact (pair_bounds _ _ _ _ _ _ _ _ HP HPp Hsw Hs Sa Ha V Eu Ev).
Qed.

(** *** When the result is defined *)
Lemma loop_total {A B} (f : A -> res B) l : (forall x, In x l -> exists y, f x = Ok y) -> exists ys, loop f l = Ok ys.
Proof.
  induction l as [|x l IH]; intros H; [exists []; reflexivity|]. destruct (H x (or_introl eq_refl)) as [y E]. destruct IH as [ys Es]; [intros z Hz; apply H; right; exact Hz|].
  exists (y :: ys). cbn [loop]. rewrite E. cbn [rbind]. rewrite Es. reflexivity.
Qed.
Lemma line_at g o i : (i < if vert o then nrows g else ncols g)%nat -> exists line, is_line g (vert o) i line.
Proof.
  destruct (vert o); cbn [is_line]; intros H.
  - destruct (nth_error (matrix_of g) i) as [l|] eqn:E; [exists l; reflexivity|]. exfalso. apply nth_error_None in E. unfold matrix_of in E. rewrite map_length in E. exact (Nat.lt_irrefl _ (Nat.lt_le_trans _ _ _ H E)).
  - eexists. split; [exact H|reflexivity].
Qed.
Theorem C104_defined : forall cf argsort g sx sy np sw a o pp per is,
  has_missing g = false -> (2 <= np)%nat -> 0 <= sw <= 1 ->
  orientation g sx sy argsort = Ok o -> period_x_y g sx sy argsort = Ok pp -> (if vert o then fst pp else snd pp) = Some per -> 0 < per ->
  2 * per <= (if vert o then extent (ncols g) sx else extent (nrows g) sy) ->
  depth_indices (if vert o then nrows g else ncols g) np = Ok is ->
  (forall i line, is_line g (vert o) i line -> exists p, 2 <= p /\ 5 / 2 * p <= INR (length line) - 1 /\ fits cf line (per / (if vert o then sx else sy)) a p) ->
  exists m sd, depth cf argsort g sx sy np sw = Ok (Some m, Some sd).
Proof.
  intros cf argsort g sx sy np sw a o pp per is Hm Hnp Hsw Eo Epp Eper Hper Hext Hidx Hf.
  unfold depth. rewrite Hm, Eo. cbn [rbind]. fold (vert o). set (n := if vert o then nrows g else ncols g) in *.
  unfold depth_indices in Hidx. destruct (Nat.ltb_spec n np) as [|L]; [discriminate|]. rewrite Epp. cbn [rbind]. rewrite Eper. destruct (Nat.eqb_spec np 1) as [|_]; [lia|].
  destruct (forallb _ _) eqn:Fa in Hidx; [|discriminate]. rewrite forallb_forall in Fa.
  assert (I2 : (2 <= pytrunc ((if vert o then extent (ncols g) sx else extent (nrows g) sy) / per))%Z).
  { set (X := if vert o then extent (ncols g) sx else extent (nrows g) sy) in *.
    assert (2 <= X / per) by (apply Rmult_le_reg_r with per; [exact Hper|]; replace (X / per * per) with X by (field; lra); exact Hext).
    destruct (pytrunc_bounds (X / per) ltac:(lra)) as [B _]. assert (1 < pytrunc (X / per))%Z; [apply lt_IZR; lra|lia]. }
  set (ni := Z.to_nat (pytrunc _)). assert (Ni : (2 <= ni)%nat) by (unfold ni; lia).
  set (body := fun i => rbind (if vert o then row_of (matrix_of g) (n / (np - 1) * i) else column_of (matrix_of g) (ncols g) (n / (np - 1) * i)) _).
  assert (Bd : forall i, In i (seq 0 np) -> exists d, body i = Ok d /\ exists x, In (Some x) d).
  { intros i Hi. destruct (line_at g o (n / (np - 1) * i)) as [line Hl].
    { fold n. apply Nat.ltb_lt, Fa. apply in_map_iff. exists i. split; [reflexivity|exact Hi]. }
    destruct (Hf _ _ Hl) as (p & P2 & Pl & Hfit). destruct (fits_sin _ _ _ _ p ltac:(lra) Hfit) as (s & Es & Sa & Sp & _).
    unfold body. apply line_of in Hl. rewrite Hl. cbn [rbind]. rewrite Es. cbn [rbind]. unfold line_depths. destruct (Nat.eqb_spec ni 0) as [|_]; [lia|].
    destruct (Req_EM_T (s_p s) 0) as [C|_]; [lra|]. eexists. split; [reflexivity|].
    destruct (first_extremum_ok s ltac:(lra)) as [[F1 F2] _].
    assert (Q : 0 <= s_p s * sw / 2 <= s_p s / 2).
    { split; [assert (0 <= s_p s * sw) by (apply Rmult_le_pos; lra); lra|]. assert (s_p s * sw <= s_p s * 1) by (apply Rmult_le_compat_l; lra). lra. }
    assert (I2' : INR (2 * 1) = 2) by (cbn; lra). assert (I3' : INR (2 * 1 + 1) = 3) by (cbn; lra).
    destruct (value_some sw s line (2 * 1)) as [u Eu]; [lra|lra|unfold ext_pos; rewrite ?I2', ?I3'; lra|unfold ext_pos; rewrite ?I2', ?I3'; lra|].
    destruct (value_some sw s line (2 * 1 + 1)) as [v Ev]; [lra|lra|unfold ext_pos; rewrite ?I2', ?I3'; lra|unfold ext_pos; rewrite ?I2', ?I3'; lra|].
    exists (Rabs (u - v)). apply in_map_iff. exists 1%nat. split; [rewrite Eu, Ev; reflexivity|apply in_seq; lia]. }
  destruct (loop_total body (seq 0 np)) as [ds El]; [intros i Hi; destruct (Bd i Hi) as (d & E & _); exists d; exact E|]. rewrite El. cbn [rbind].
  assert (exists x, In (Some x) (concat ds)) as [x Hx].
  { apply loop_inv in El. destruct np as [|np']; [lia|]. cbn [seq] in El, Bd. inversion El as [|i0 d0 is' ds' H0 HF]; subst. destruct (Bd 0%nat (or_introl eq_refl)) as (d & E & x & Hx).
    assert (d = d0) by congruence. subst. exists x. cbn [concat]. apply in_or_app. left. exact Hx. }
  apply in_measured in Hx. unfold nanmean, nanstd. destruct (measured (concat ds)) as [|y t]; [destruct Hx|]. exists (meanR (y :: t)), (stdR (y :: t)). reflexivity.
Qed.

(** *** A plane wave running along the columns *)
Lemma atan_small t : -1 < t < 1 -> -45 < atan t * (180 / PI) < 45.
Proof.
  intros [A B]. pose proof PI_RGT_0 as Pi. apply atan_increasing in A, B. rewrite atan_1 in B. replace (-1) with (- (1)) in A by lra. rewrite atan_opp, atan_1 in A.
  assert (Q : 0 < 180 / PI) by (apply Rdiv_lt_0_compat; lra). split.
  - replace (-45) with (- (PI / 4) * (180 / PI)) by (field; lra). apply Rmult_lt_compat_r; assumption.
  - replace 45 with (PI / 4 * (180 / PI)) by (field; lra). apply Rmult_lt_compat_r; assumption.
Qed.
Theorem C104_wave : forall cf argsort a phi off sx sy p q N M np sw is,
  (2 <= N)%nat -> (2 <= M)%nat -> 0 < a -> 0 < sx -> 0 < sy -> (2 * Z.abs p < Z.of_nat N)%Z -> (6 <= 2 * q < Z.of_nat M)%Z ->
  let g := wave_surface a phi off p q N M in
  sorts argsort (spectrum_flat g) ->
  Rabs (IZR p) * ((INR M - 1) * sx) < IZR q * ((INR N - 1) * sy) ->
  (2 <= np)%nat -> depth_indices N np = Ok is -> 0 <= sw -> sw + 2 * IZR q / INR M <= 1 ->
  (forall i, (i < N)%nat -> fits cf (map (fun j => wave a phi off p q N M i j) (seq 0 M)) ((INR M - 1) / IZR q) a (INR M / IZR q)) ->
  exists m sd, depth cf argsort g sx sy np sw = Ok (Some m, Some sd) /\ 2 * a * cos (PI * (sw + 2 * IZR q / INR M)) <= m <= 2 * a /\ 0 <= sd.
Proof.
  intros cf argsort a phi off sx sy p q N M np sw is HN HM Ha Hsx Hsy Hp Hq g Hs Hup Hnp Hidx Hsw Hsw1 Hf.
  assert (Q0 : 3 <= IZR q) by (apply IZR_le; lia). assert (N2 : 2 <= INR N) by (apply (le_INR 2); lia).
  assert (M2 : 2 * IZR q <= INR M - 1) by (rewrite INR_IZR_INZ, <- mult_IZR, <- minus_IZR; apply IZR_le; lia).
  assert (Hpq : (p, q) <> (0, 0)%Z) by (intros C; assert (q = 0%Z) by congruence; lia).
  pose proof (C42_orientation_partial a phi off sx sy p q N M HN HM ltac:(lra) Hsx Hsy Hp ltac:(lia) Hpq argsort Hs) as Eo.
  pose proof (C42_period_x_y_partial a phi off sx sy p q N M HN HM ltac:(lra) Hsx Hsy Hp ltac:(lia) Hpq argsort Hs) as Epp. fold g in Eo, Epp.
  destruct (Z.eqb_spec q 0) as [C|_]; [lia|]. set (o := if Z.eqb p 0 then 0 else _) in Eo.
  assert (X0 : 0 < (INR M - 1) * sx) by (apply Rmult_lt_0_compat; lra). assert (Y0 : 0 < (INR N - 1) * sy) by (apply Rmult_lt_0_compat; lra).
  assert (Vo : vert o = true).
  { apply vert_spec. unfold upright, o. destruct (Z.eqb_spec p 0) as [|Np]; [lra|]. apply atan_small.
    set (X := (INR M - 1) * sx) in *. set (Y := (INR N - 1) * sy) in *. replace (- (IZR p / Y) / (IZR q / X)) with (- (IZR p * X / (IZR q * Y))) by (field; repeat split; lra).
    assert (D : 0 < IZR q * Y) by (apply Rmult_lt_0_compat; lra). assert (Ab : Rabs (IZR p * X / (IZR q * Y)) < 1).
    { unfold Rdiv. rewrite !Rabs_mult, (Rabs_pos_eq X), (Rabs_pos_eq (/ _)) by (try lra; left; apply Rinv_0_lt_compat; exact D). apply Rmult_lt_reg_r with (IZR q * Y); [exact D|]. rewrite Rmult_assoc, Rinv_l by lra. lra. }
    apply Rabs_def2 in Ab. lra. }
  rewrite (Rabs_pos_eq (IZR q)) in Epp by lra. set (per := (INR M - 1) * sx / IZR q) in Epp.
  assert (Nr : nrows g = N) by (exact (rows_g a phi off p q N M)). assert (Nc : ncols g = M) by (apply (cols_g a phi off p q N M); lia).
  assert (Ppx : per / sx = (INR M - 1) / IZR q) by (unfold per; field; lra).
  assert (Hm : has_missing g = false) by (apply has_missing_grid_of).
  assert (Fit : forall i line, is_line g (vert o) i line -> length line = M /\ fits cf line (per / (if vert o then sx else sy)) a (INR M / IZR q)).
  { intros i line Hl. rewrite Vo in *. cbn [is_line] in Hl. rewrite Ppx. assert (Hi : (i < N)%nat).
    { rewrite <- Nr. assert (L : nth_error (matrix_of g) i <> None) by congruence. apply nth_error_Some in L. unfold matrix_of in L. rewrite map_length in L. exact L. }
    pose proof (wave_row a phi off p q N M i Hi) as W. fold g in W. assert (line = map (fun j => wave a phi off p q N M i j) (seq 0 M)) as -> by congruence. split; [rewrite map_length, seq_length; reflexivity|apply Hf, Hi]. }
  assert (P2 : 2 < INR M / IZR q) by (apply Rmult_lt_reg_r with (IZR q); [lra|]; replace (INR M / IZR q * IZR q) with (INR M) by (field; lra); lra).
  assert (E2 : 2 / (INR M / IZR q) = 2 * IZR q / INR M) by (field; lra).
  destruct (C104_defined cf argsort g sx sy np sw a o (Some per, if (p =? 0)%Z then None else Some ((INR N - 1) * sy / Rabs (IZR p))) per is Hm Hnp) as (m & sd & E); try assumption.
  - split; [exact Hsw|]. assert (0 <= 2 * IZR q / INR M) by (apply Rmult_le_pos; [lra|left; apply Rinv_0_lt_compat; lra]). lra.
  - rewrite Vo. reflexivity.
  - unfold per. apply Rdiv_lt_0_compat; lra.
  - rewrite Vo, Nc. unfold extent, per. apply Rmult_le_reg_r with (IZR q); [lra|]. replace (2 * ((INR M - 1) * sx / IZR q) * IZR q) with ((INR M - 1) * sx * 2) by (field; lra). apply Rmult_le_compat_l; lra.
  - rewrite Vo, Nr. exact Hidx.
  - intros i line Hl. destruct (Fit i line Hl) as [Ll Fl]. exists (INR M / IZR q). split; [lra|]. split; [|exact Fl]. rewrite Ll.
    apply Rmult_le_reg_r with (IZR q); [lra|]. replace (5 / 2 * (INR M / IZR q) * IZR q) with (5 / 2 * INR M) by (field; lra).
    assert (3 * (INR M - 1) <= (INR M - 1) * IZR q) by (rewrite (Rmult_comm 3); apply Rmult_le_compat_l; lra). lra.
  - exists m, sd. split; [exact E|]. split.
    + rewrite <- E2 in *. apply (C104_accuracy cf argsort g sx sy np sw m (Some sd) a (INR M / IZR q) o _ per) in Epp; try assumption; try lra.
      * rewrite Vo. reflexivity.
      * intros i line Hl. exists (INR M / IZR q). split; [lra|]. apply (Fit i line Hl).
    + assert (Rg : rect g). { intros r Hr. rewrite Nc. unfold g, wave_surface, grid_of in Hr. apply in_map_iff in Hr as (i & <- & _). rewrite map_length, seq_length. reflexivity. }
      destruct (C104_range cf argsort g sx sy np sw (Some m) (Some sd) (off - a) (off + a) Rg) as [[C _]|(a0 & b0 & _ & Eb & _ & Hb)]; [|exact E|discriminate C|assert (Es : sd = b0) by congruence; rewrite Es; exact Hb].
      intros x Hx. apply in_concat in Hx as (r & Hr & Hx). unfold g, wave_surface, grid_of in Hr. apply in_map_iff in Hr as (i & <- & _). apply in_map_iff in Hx as (j & Ex & _).
      assert (x = wave a phi off p q N M i j) as -> by congruence. unfold wave. set (y := 2 * PI * _ + phi). destruct (COS_bound y) as [B1 B2].
      assert (a * -1 <= a * cos y) by (apply Rmult_le_compat_l; lra). assert (a * cos y <= a * 1) by (apply Rmult_le_compat_l; lra). lra.
Qed.

(** *** Which lines are read, and the errors *)
Theorem C104_lines : forall cf argsort g sx sy np sw r, depth cf argsort g sx sy np sw = Ok r ->
  exists o, orientation g sx sy argsort = Ok o /\
    ((upright o /\ exists is, depth_indices (nrows g) np = Ok is) \/ (~ upright o /\ exists is, depth_indices (ncols g) np = Ok is)).
Proof.
  intros cf argsort g sx sy np sw r E. apply depth_inv in E as (Hm & o & pp & per & ds & Eo & Epp & Eper & Hnp & Hn1 & F & Er). exists o. split; [exact Eo|].
  assert (G : exists is, depth_indices (if vert o then nrows g else ncols g) np = Ok is).
  { set (n := if vert o then nrows g else ncols g) in *. unfold depth_indices. destruct (Nat.ltb_spec n np) as [|_]; [lia|]. destruct (Nat.eqb_spec np 1) as [|_]; [lia|].
    destruct (forallb _ _) eqn:Fa; [eexists; reflexivity|]. exfalso. assert (Fb : forallb (fun i => Nat.ltb i n) (map (fun i => n / (np - 1) * i)%nat (seq 0 np)) = true); [|rewrite Fb in Fa; discriminate].
    apply forallb_forall. intros x Hx. apply in_map_iff in Hx as (i & <- & Hi). apply Nat.ltb_lt. clear Fa Er.
    assert (exists d, exists line s, is_line g (vert o) (n / (np - 1) * i) line /\ from_fit cf line (guess line (per / (if vert o then sx else sy))) = Ok s /\ line_depths sw (Z.to_nat (pytrunc ((if vert o then extent (ncols g) sx else extent (nrows g) sy) / per))) s line = Ok d) as (d & line & s & Hl & _).
    { revert Hi. clear -F. induction F as [|x y l l' H _ IH]; intros I; [destruct I|]. destruct I as [<- |I]; [exists y; exact H|exact (IH I)]. }
    subst n. destruct (vert o); cbn [is_line] in Hl; [|apply Hl]. assert (L : nth_error (matrix_of g) (nrows g / (np - 1) * i) <> None) by congruence. apply nth_error_Some in L. unfold matrix_of in L. rewrite map_length in L. exact L. }
  destruct (vert o) eqn:V.
  - left. split; [apply vert_spec; exact V|exact G].
  - right. split; [|exact G]. intros C. apply vert_spec in C. congruence.
Qed.
Lemma loop_fails {A B} (f : A -> res B) l1 x l2 e : (forall y, In y l1 -> exists z, f y = Ok z) -> f x = Err e -> loop f (l1 ++ x :: l2) = Err e.
Proof.
  induction l1 as [|y l1 IH]; intros H E; cbn [app loop]; [rewrite E; reflexivity|]. destruct (H y (or_introl eq_refl)) as [z Ez]. rewrite Ez. cbn [rbind]. rewrite IH; [reflexivity|intros w Hw; apply H; right; exact Hw|exact E].
Qed.
(** A full set of profiles cannot be sampled from a surface whose number of lines is a multiple of the number of gaps: e.g. the default of 30 profiles from 29 k rows, k > 1 *)
Theorem C104_divides_refuted : forall cf argsort g sx sy np sw o pp per,
  has_missing g = false -> (2 <= np)%nat ->
  orientation g sx sy argsort = Ok o -> period_x_y g sx sy argsort = Ok pp -> (if vert o then fst pp else snd pp) = Some per ->
  (np <= if vert o then nrows g else ncols g)%nat -> Nat.divide (np - 1) (if vert o then nrows g else ncols g) ->
  (forall i line, is_line g (vert o) i line -> exists a p, p <> 0 /\ fits cf line (per / (if vert o then sx else sy)) a p) ->
  depth cf argsort g sx sy np sw = Err IndexError.
Proof.
  intros cf argsort g sx sy np sw o pp per Hm Hnp Eo Epp Eper Hn Hd Hf. unfold depth. rewrite Hm, Eo. cbn [rbind]. fold (vert o). set (n := if vert o then nrows g else ncols g) in *.
  destruct (Nat.ltb_spec n np) as [|_]; [lia|]. rewrite Epp. cbn [rbind]. rewrite Eper. destruct (Nat.eqb_spec np 1) as [|_]; [lia|].
  destruct Hd as [c Hc]. assert (Dv : (n / (np - 1) = c)%nat) by (rewrite Hc; apply Nat.div_mul; lia). rewrite Dv. assert (C0 : (0 < c)%nat) by nia.
  replace (seq 0 np) with (seq 0 (np - 1) ++ [np - 1])%nat by (replace np with (S (np - 1)) at 3 by lia; rewrite seq_S; reflexivity).
  rewrite (loop_fails _ (seq 0 (np - 1)) (np - 1)%nat [] IndexError); [reflexivity| |].
  - intros i Hi. apply in_seq in Hi. destruct (line_at g o (c * i)) as [line Hl]; [fold n; nia|]. destruct (Hf _ _ Hl) as (a & p & Hp & Hfit). destruct (fits_sin _ _ _ _ p Hp Hfit) as (s & Es & _ & Sp & _).
    apply line_of in Hl. rewrite Hl. cbn [rbind]. rewrite Es. cbn [rbind]. unfold line_depths. destruct (Nat.eqb _ 0); [eexists; reflexivity|]. destruct (Req_EM_T (s_p s) 0) as [C|_]; [congruence|eexists; reflexivity].
  - assert (L : (n <= c * (np - 1))%nat) by lia. unfold n in L. destruct (vert o).
    + unfold row_of. destruct (nth_error (matrix_of g) (c * (np - 1))) eqn:E; [|reflexivity]. exfalso. assert (X : nth_error (matrix_of g) (c * (np - 1)) <> None) by congruence. apply nth_error_Some in X. unfold matrix_of in X. rewrite map_length in X. exact (Nat.lt_irrefl _ (Nat.lt_le_trans _ _ _ X L)).
    + unfold column_of. destruct (Nat.ltb_spec (c * (np - 1)) (ncols g)); [lia|reflexivity].
Qed.
Theorem C104_errors : forall cf argsort g sx sy np sw,
  (has_missing g = true -> depth cf argsort g sx sy np sw = Err ValueError) /\
  (forall o, has_missing g = false -> orientation g sx sy argsort = Ok o ->
     (upright o -> (nrows g < np)%nat -> depth cf argsort g sx sy np sw = Err ValueError) /\
     (~ upright o -> (ncols g < np)%nat -> depth cf argsort g sx sy np sw = Err ValueError) /\
     (forall pp per, period_x_y g sx sy argsort = Ok pp -> (if vert o then fst pp else snd pp) = Some per ->
        (np = 1%nat -> (1 <= if vert o then nrows g else ncols g)%nat -> depth cf argsort g sx sy np sw = Err ZeroDivisionError) /\
        (forall line, (2 <= np <= if vert o then nrows g else ncols g)%nat -> is_line g (vert o) 0 line -> cf line (guess line (per / (if vert o then sx else sy))) = None ->
           depth cf argsort g sx sy np sw = Err (OtherError "FittingError")))).
Proof.
  intros cf argsort g sx sy np sw. split; [intros H; unfold depth; rewrite H; reflexivity|]. intros o Hm Eo. unfold depth. rewrite Hm, Eo. cbn [rbind]. fold (vert o).
  split; [|split].
  - intros U L. apply vert_spec in U. rewrite U. destruct (Nat.ltb_spec (nrows g) np); [reflexivity|lia].
  - intros U L. destruct (vert o) eqn:V; [exfalso; apply U, vert_spec, V|]. destruct (Nat.ltb_spec (ncols g) np); [reflexivity|lia].
  - intros pp per Epp Eper. rewrite Epp. cbn [rbind]. rewrite Eper. set (n := if vert o then nrows g else ncols g). split.
    + intros -> L. destruct (Nat.ltb_spec n 1); [lia|reflexivity].
    + intros line L Hl Ef. destruct (Nat.ltb_spec n np) as [|_]; [lia|]. destruct (Nat.eqb_spec np 1) as [|_]; [lia|]. destruct np as [|np']; [lia|]. cbn [seq loop]. rewrite Nat.mul_0_r.
      apply line_of in Hl. rewrite Hl. cbn [rbind]. unfold from_fit. rewrite Ef. reflexivity.
Qed.

(** *** The direction that depth looks at has a finite period *)
Lemma freq_inj n d a b : d <> 0 -> (0 < n)%nat -> (a < n)%nat -> (b < n)%nat -> fftfreq n d (unshift n a) = fftfreq n d (unshift n b) -> a = b.
Proof.
  intros Hd Hn Ha Hb E. apply (unshift_inj n); [exact Ha|exact Hb|]. unfold fftfreq in E.
  assert (Nz : INR n * d <> 0) by (apply Rmult_integral_contrapositive_currified; [apply not_0_INR; lia|exact Hd]).
  apply Rmult_eq_reg_r in E; [|unfold Rdiv; rewrite Rmult_1_l; apply Rinv_neq_0_compat; exact Nz]. apply eq_IZR in E.
  pose proof (unshift_lt n a Hn) as La. pose proof (unshift_lt n b Hn) as Lb. destruct (freq_int_bounds n _ La) as [B1 [c1 C1]]. destruct (freq_int_bounds n _ Lb) as [B2 [c2 C2]].
  rewrite E in C1. assert (Z.of_nat (unshift n a) - Z.of_nat (unshift n b) = 0)%Z; [|lia]. apply (small_mult (c2 - c1) (Z.of_nat n)); lia.
Qed.
Theorem C104_period_finite : forall argsort g sx sy o pp, (2 <= nrows g)%nat -> (2 <= ncols g)%nat -> 0 < sx -> 0 < sy ->
  sorts argsort (spectrum_flat g) -> orientation g sx sy argsort = Ok o -> period_x_y g sx sy argsort = Ok pp ->
  (upright o -> fst pp <> None) /\ (~ upright o -> snd pp <> None).
Proof.
  intros argsort g sx sy o pp Hr Hc Hsx Hsy [Pm _] Eo Epp. unfold orientation in Eo. unfold period_x_y in Epp. destruct (peak_dx_dy g sx sy argsort) as [[dx dy]|] eqn:Ed; [|discriminate]. cbn [rmap fst snd] in Eo, Epp.
  assert (o = if Req_EM_T dx 0 then 90 else if Req_EM_T dy 0 then 0 else atan (dy / dx) * (180 / PI)) as -> by congruence. clear Eo.
  assert (pp = (if Req_EM_T dx 0 then None else Some (Rabs (2 / dx)), if Req_EM_T dy 0 then None else Some (Rabs (2 / dy)))) as -> by congruence. clear Epp. cbn [fst snd].
  assert (Nz : dx = 0 -> dy = 0 -> False).
  { intros Zx Zy. unfold peak_dx_dy in Ed. destruct (has_missing g); [discriminate|]. destruct (rev (argsort (spectrum_flat g))) as [|k0 [|k1 tl]] eqn:Er; try discriminate.
    assert (Ln : length (spectrum_flat g) = (NN g * MM g)%nat) by (unfold spectrum_flat; rewrite map_length, seq_length; reflexivity). rewrite Ln in Pm.
    assert (HN : (2 <= NN g)%nat) by exact Hr. assert (HM : (2 <= MM g)%nat) by exact Hc.
    assert (Nd : NoDup (k0 :: k1 :: tl)). { rewrite <- Er. apply NoDup_rev. apply (Permutation_NoDup (Permutation_sym Pm)), seq_NoDup. }
    assert (Rg : forall k, In k (k0 :: k1 :: tl) -> (k < NN g * MM g)%nat). { intros k I. rewrite <- Er in I. apply in_rev in I. apply (Permutation_in _ Pm) in I. apply in_seq in I. lia. }
    pose proof (Rg k0 (or_introl eq_refl)) as I0. pose proof (Rg k1 (or_intror (or_introl eq_refl))) as I1.
    assert (Same : freq_x g sx (k0 mod MM g) = freq_x g sx (k1 mod MM g) /\ freq_y g sy (k0 / MM g) = freq_y g sy (k1 / MM g)).
    { cbn [fst snd] in Ed. destruct (Rltb _ _); cbn [fst snd] in Ed.
      - assert (Q1 : freq_x g sx (k0 mod MM g) - freq_x g sx (k1 mod MM g) = dx) by congruence. assert (Q2 : freq_y g sy (k1 / MM g) - freq_y g sy (k0 / MM g) = dy) by congruence. lra.
      - assert (Q1 : freq_x g sx (k1 mod MM g) - freq_x g sx (k0 mod MM g) = dx) by congruence. assert (Q2 : freq_y g sy (k0 / MM g) - freq_y g sy (k1 / MM g) = dy) by congruence. lra. }
    destruct Same as [S1 S2]. unfold freq_x in S1. unfold freq_y in S2.
    assert (Dv : forall n e, (2 <= n)%nat -> 0 < e -> extent n e / INR n <> 0).
    { intros n e Hn He. apply (le_INR 2) in Hn. cbn [INR] in Hn. unfold extent, Rdiv. repeat apply Rmult_integral_contrapositive_currified; try lra. apply Rinv_neq_0_compat. lra. }
    apply freq_inj in S1; [|apply Dv; assumption|lia|apply Nat.mod_upper_bound; lia|apply Nat.mod_upper_bound; lia].
    apply freq_inj in S2; [|apply Dv; assumption|lia|apply Nat.div_lt_upper_bound; lia|apply Nat.div_lt_upper_bound; lia].
    assert (k0 = k1) by (rewrite (Nat.div_mod k0 (MM g)), (Nat.div_mod k1 (MM g)), S1, S2 by lia; reflexivity). subst. inversion Nd as [|? ? Ni _]. apply Ni. left. reflexivity. }
  unfold upright. destruct (Req_EM_T dx 0) as [Zx|Zx].
  - split; [lra|]. intros _. destruct (Req_EM_T dy 0) as [Zy|Zy]; [exfalso; exact (Nz Zx Zy)|discriminate].
  - split; [discriminate|]. intros U. destruct (Req_EM_T dy 0) as [Zy|Zy]; [exfalso; apply U; lra|discriminate].
Qed.

(** *** A fit with a negative period *)
Lemma trunc_up x : x <= 0 -> x <= IZR (pytrunc x) < x + 1.
Proof.
  intros H. unfold pytrunc. destruct (Rle_dec 0 x) as [L|L].
  - assert (x = 0) as -> by lra. rewrite (Int_part_IZR 0). lra.
  - destruct (base_Int_part (- x)). rewrite opp_IZR. lra.
Qed.
Lemma odd_outside s sw line k : s_p s <= -4 -> 0 <= sw <= 1 / 2 -> extremum_value sw s line (2 * k + 1) = None.
Proof.
  intros Hp Hsw. unfold extremum_value. fold (ext_pos s (2 * k + 1)). assert (Fe : first_extremum s <= 0).
  { unfold first_extremum, floordiv. set (x := s_x0 s + s_p s / 4). destruct (base_Int_part (x / (s_p s / 2))) as [A B]. set (z := IZR (Int_part _)) in *.
    replace (x - z * s_p s / 2) with ((x / (s_p s / 2) - z) * (s_p s / 2)) by (field; lra). apply Ropp_le_cancel. rewrite Ropp_0, <- Ropp_mult_distr_r_reverse. apply Rmult_le_pos; lra. }
  assert (Ep : ext_pos s (2 * k + 1) <= s_p s / 2).
  { unfold ext_pos. rewrite plus_INR, mult_INR. cbn [INR]. pose proof (pos_INR k). assert (INR k * s_p s <= 0) by (apply Ropp_le_cancel; rewrite Ropp_0, <- Ropp_mult_distr_r_reverse; apply Rmult_le_pos; lra). lra. }
  destruct (trunc_up (ext_pos s (2 * k + 1)) ltac:(lra)) as [T1 T2]. assert (W : s_p s / 4 <= s_p s * sw / 2 <= 0).
  { split; [|assert (0 <= - s_p s * sw) by (apply Rmult_le_pos; lra); lra]. assert (- s_p s * sw <= - s_p s * (1 / 2)) by (apply Rmult_le_compat_l; lra). lra. }
  destruct (trunc_up (s_p s * sw / 2) ltac:(lra)) as [W1 W2]. destruct (Z.ltb_spec (pytrunc (ext_pos s (2 * k + 1)) - pytrunc (s_p s * sw / 2)) 0) as [L|L]; [reflexivity|].
  exfalso. apply IZR_le in L. rewrite minus_IZR in L. lra.
Qed.
(** the same sinusoid written with a negative period, as an unconstrained fit may return it, makes the depth NaN *)
Theorem C104_negative_period_refuted : forall cf argsort g sx sy np sw o pp per r,
  0 <= sw <= 1 / 2 ->
  orientation g sx sy argsort = Ok o -> period_x_y g sx sy argsort = Ok pp -> (if vert o then fst pp else snd pp) = Some per ->
  (forall i line, is_line g (vert o) i line -> exists a p, p <= -4 /\ fits cf line (per / (if vert o then sx else sy)) a p) ->
  depth cf argsort g sx sy np sw = Ok r -> r = (None, None).
Proof.
  intros cf argsort g sx sy np sw o pp per r Hsw Eo Epp Eper Hf E. apply depth_inv in E as (Hm & o' & pp' & per' & ds & Eo' & Epp' & Eper' & Hnp & Hn1 & F & Er).
  assert (o' = o) by congruence. assert (pp' = pp) by congruence. subst o' pp'. assert (per' = per) by congruence. subst per'.
  assert (M : measured (concat ds) = []).
  { destruct (measured (concat ds)) as [|x t] eqn:Em; [reflexivity|]. exfalso. assert (Hx : In (Some x) (concat ds)) by (apply in_measured; rewrite Em; left; reflexivity).
    apply in_concat in Hx as (d & Hd & Hx). destruct (Forall2_in_r _ _ _ _ F Hd) as (i & _ & line & s & Hl & Es & Hv). destruct (Hf _ _ Hl) as (a & p & Hp & Hfit).
    destruct (fits_sin _ _ _ _ p ltac:(lra) Hfit) as (s' & Es' & Sa & Sp & V). assert (s' = s) by congruence. subst s'.
    destruct (line_depths_in _ _ _ _ _ _ Hv Hx) as (_ & k & _ & Ek). rewrite (odd_outside s sw line k) in Ek by (try rewrite Sp; assumption). destruct (extremum_value sw s line (2 * k)); discriminate Ek. }
  rewrite Er. unfold nanmean, nanstd. rewrite M. reflexivity.
Qed.

(** *** Aspect ratio: depth with 30 profiles and a fifth of the period, over the period *)
Theorem C104_aspect : forall cf argsort g sx sy m sd q,
  depth cf argsort g sx sy 30 (1 / 5) = Ok (Some m, sd) -> period g sx sy argsort = Ok (Some q) -> aspect_ratio cf argsort g sx sy = Ok (Some (m / q)).
Proof.
  intros cf argsort g sx sy m sd q Ed Ep. unfold aspect_ratio. replace (2 / 10) with (1 / 5) by lra. rewrite Ed. cbn [rbind]. rewrite Ep. reflexivity.
Qed.

(** *** The hypotheses are met *)
Theorem C104_example_fit : forall a phi p q N M r per, 0 < a -> (2 <= M)%nat -> (0 < 2 * q < Z.of_nat M)%Z ->
  fits (exact_fit (INR M / IZR q)) (map (fun j => wave a phi 0 p q N M r j) (seq 0 M)) per a (INR M / IZR q).
Proof.
  intros a phi p q N M r per Ha HM Hq. assert (Q0 : 0 < IZR q) by (apply IZR_lt; lia). assert (M0 : 0 < INR M) by (apply lt_0_INR; lia).
  destruct (C105_example a phi p q N M r per Ha HM Hq) as (a' & p' & x' & y' & E & Hp' & V).
  assert (Ep : p' = INR M / IZR q) by (unfold exact_fit in E; congruence). assert (Ey : y' = 0) by (unfold exact_fit in E; congruence). subst y'. rewrite Ep in *.
  set (P := INR M / IZR q) in *. exists a', x', 0. split; [exact E|]. split.
  - (* both sides have the same maximum *)
    set (psi := 2 * PI * (IZR p * INR r / INR N) + phi). assert (Wl : forall x, wave_line a phi 0 p q N M r x = a * cos (psi + 2 * PI * x / P)).
    { intros x. unfold wave_line. replace (2 * PI * (IZR p * INR r / INR N + IZR q * x / INR M) + phi) with (psi + 2 * PI * x / P) by (unfold psi, P, Rdiv; rewrite Rinv_mult, Rinv_inv; ring). ring. }
    pose proof PI_RGT_0 as Pi. apply Rle_antisym.
    + pose proof (V (x' + P / 4)) as V1. rewrite Wl in V1. replace (2 * PI * (x' + P / 4 - x') / P) with (PI / 2) in V1 by (field; lra). rewrite sin_PI2 in V1.
      set (c := cos _) in V1. assert (B : -1 <= c <= 1) by apply COS_bound. assert (a * -1 <= a * c) by (apply Rmult_le_compat_l; lra). assert (a * c <= a * 1) by (apply Rmult_le_compat_l; lra). apply Rabs_le. lra.
    + pose proof (V (- psi * P / (2 * PI))) as V1. rewrite Wl in V1. replace (psi + 2 * PI * (- psi * P / (2 * PI)) / P) with 0 in V1 by (field; lra). rewrite cos_0 in V1.
      set (c := sin _) in V1. assert (B : -1 <= c <= 1) by apply SIN_bound. replace a with (Rabs (a' * c)) at 1 by (replace (a' * c) with a by lra; apply Rabs_pos_eq; lra). rewrite Rabs_mult.
      rewrite <- (Rmult_1_r (Rabs a')) at 2. apply Rmult_le_compat_l; [apply Rabs_pos|]. apply Rabs_le. lra.
  - intros j Hj. rewrite map_length, seq_length in Hj. rewrite nth_map_seq by exact Hj. rewrite V. reflexivity.
Qed.
(** 30 x 40 points, four periods across, eight profiles: the depth found is between 2 cos (2 pi / 5) and 2 *)
Theorem C104_example : forall argsort, let g := wave_surface 1 0 0 0 4 30 40 in sorts argsort (spectrum_flat g) ->
  exists m sd, depth (exact_fit 10) argsort g 1 1 8 (1 / 5) = Ok (Some m, Some sd) /\ 2 * cos (PI * (2 / 5)) <= m <= 2 /\ 0 <= sd.
Proof.
  intros argsort g Hs. assert (I40 : INR 40 = 40) by (rewrite INR_IZR_INZ; reflexivity). assert (I30 : INR 30 = 30) by (rewrite INR_IZR_INZ; reflexivity).
  destruct (C104_wave (exact_fit 10) argsort 1 0 0 1 1 0 4 30 40 8 (1 / 5) [0; 4; 8; 12; 16; 20; 24; 28]%nat) as (m & sd & E & B & S0); try lia; try lra; try assumption.
  - rewrite Rabs_R0, I30. lra.
  - reflexivity.
  - rewrite I40. lra.
  - intros i Hi. replace 10 with (INR 40 / IZR 4) by (rewrite I40; lra). apply C104_example_fit; lra || lia.
  - exists m, sd. split; [exact E|]. split; [|exact S0]. replace (2 / 5) with (1 / 5 + 2 * 4 / INR 40) by (rewrite I40; lra). lra.
Qed.
