(** The Abbott curve of affinely transformed heights, x to c x + t with c > 0: every functional parameter follows. *)
From Coq Require Import String Reals List Bool Arith ZArith Lia Lra Permutation.
From Verif Require Import Base RList ModelMath ProofMath ModelHeights ProofHeights ModelParams ModelDetrend SpecDetrend ProofDetrend PropsDetrend ModelAfc ProofAfc PropsAfc PropsAfc2 PropsAfcShift.
Import ListNotations.
Local Open Scope R_scope.

Lemma amin_go_mono (f : R -> R) : (forall x y, f x < f y <-> x < y) -> forall l i b v, amin_go (map f l) i b (f v) = amin_go l i b v.
Proof.
  intros Hf l. induction l as [|x l IH]; intros i b v; [reflexivity|]. cbn [map amin_go]. destruct (Rlt_dec (f x) (f v)) as [A|A], (Rlt_dec x v) as [B|B]; rewrite ?IH; try reflexivity; exfalso; [apply B, Hf, A|apply A, Hf, B].
Qed.
Lemma argmin_mono (f : R -> R) l : (forall x y, f x < f y <-> x < y) -> argmin (map f l) = argmin l.
Proof. intros Hf. destruct l as [|x l]; [reflexivity|]. cbn [map argmin]. now rewrite amin_go_mono. Qed.

Section Affine.
Context (c t : R) (Hc : 0 < c).
Definition g (x : R) : R := c * x + t.
Definition af (p : R * R) : R * R := (fst p, g (snd p)).
Lemma g_lt x y : g x < g y <-> x < y.
Proof. unfold g. split; intros H; [apply Rmult_lt_reg_l with c; lra|apply Rmult_lt_compat_l with (r := c) in H; lra]. Qed.
Lemma g_le x y : g x <= g y <-> x <= y.
Proof. unfold g. split; intros H; [apply Rmult_le_reg_l with c; lra|apply Rmult_le_compat_l with (r := c) in H; lra]. Qed.
Lemma quantile_af d q : d <> [] -> 0 <= q <= 1 -> quantile (map g d) q = g (quantile d q).
Proof.
  intros Hd Hq. unfold quantile. rewrite sortR_map_mono by (intros; apply g_le; assumption). rewrite !map_length, !sortR_length.
  assert (L1 : (1 <= length d)%nat) by (destruct d; [congruence|cbn; lia]).
  assert (Hp : INR (length d) - 1 = INR (length d - 1)) by (rewrite minus_INR by exact L1; reflexivity). rewrite Hp.
  assert (P0 := pos_INR (length d - 1)).
  destruct (virtual_floor (q * INR (length d - 1)) (length d - 1)) as (k & -> & Hk & B).
  { split; [apply Rmult_le_pos; lra|]. rewrite <- (Rmult_1_l (INR (length d - 1))) at 2. apply Rmult_le_compat_r; lra. }
  assert (N : forall j, (j < length d)%nat -> nth j (map g (sortR d)) 0 = g (nth j (sortR d) 0)).
  { intros j Hj. rewrite (nth_indep _ 0 (g 0)) by (rewrite map_length, sortR_length; exact Hj). apply map_nth. }
  rewrite !N by lia. unfold g. ring.
Qed.
Lemma curve_af n d : (2 <= n)%nat -> d <> [] -> material_curve n (map g d) = map af (material_curve n d).
Proof.
  intros Hn Hd. rewrite !c_eq, map_map. apply map_ext_in. intros i Hi'. apply in_seq in Hi'. unfold af. cbn [fst snd]. f_equal.
  unfold Hi. assert (Q := Mi_range n Hn i ltac:(lia)). apply quantile_af; [exact Hd|lra].
Qed.
Lemma map_fst_af l : map fst (map af l) = map fst l. Proof. rewrite map_map. apply map_ext. reflexivity. Qed.
Lemma map_snd_af l : map snd (map af l) = map g (map snd l). Proof. rewrite !map_map. apply map_ext. reflexivity. Qed.
Lemma interp_af l x : l <> [] -> interp (map af l) x = g (interp l x).
Proof.
  induction l as [|[x0 y0] l IH]; intros H; [congruence|]. destruct l as [|[x1 y1] l]; [reflexivity|].
  change (map af ((x0, y0) :: (x1, y1) :: l)) with ((x0, g y0) :: (x1, g y1) :: map af l). rewrite !interp_cons2.
  destruct Rlt_dec; [destruct Rle_dec; [reflexivity|]|].
  - unfold g, Rdiv. ring.
  - apply IH. discriminate.
Qed.
Lemma insert_af p l : insert_pt (af p) (map af l) = map af (insert_pt p l).
Proof. induction l as [|q l IH]; [reflexivity|]. cbn [map insert_pt]. unfold af at 1 2. cbn [fst]. destruct Rle_dec; [reflexivity|]. cbn [map]. now rewrite IH. Qed.
Lemma sort_af l : sort_pts (map af l) = map af (sort_pts l).
Proof. induction l as [|p l IH]; [reflexivity|]. cbn [map sort_pts]. now rewrite IH, insert_af. Qed.
Lemma mc_af l p : l <> [] -> mc (map af l) p = g (mc l p).
Proof.
  intros H. unfold mc, interp1d. rewrite !combine_split, sort_af. apply interp_af. intros X. assert (P := sort_pts_perm l). rewrite X in P. apply Permutation_sym, Permutation_nil in P. contradiction.
Qed.
(** the sorted points with transformed heights on the abscissa *)
Definition fa (p : R * R) : R * R := (g (fst p), snd p).
Lemma interp_fa l x : interp (map fa l) (g x) = interp l x.
Proof.
  induction l as [|[x0 y0] l IH]; [reflexivity|]. destruct l as [|[x1 y1] l]; [reflexivity|].
  change (map fa ((x0, y0) :: (x1, y1) :: l)) with ((g x0, y0) :: (g x1, y1) :: map fa l). rewrite !interp_cons2.
  destruct (Rlt_dec (g x) (g x1)) as [A|A], (Rlt_dec x x1) as [B|B]; try (exfalso; apply A, g_lt, B); try (exfalso; apply B, g_lt, A).
  - destruct (Rle_dec (g x) (g x0)) as [D|D], (Rle_dec x x0) as [F|F]; try (exfalso; apply D, g_le, F); try (exfalso; apply F, g_le, D); [reflexivity|].
    unfold g. replace (c * x1 + t - (c * x0 + t)) with (c * (x1 - x0)) by ring. replace (c * x + t - (c * x0 + t)) with (c * (x - x0)) by ring.
    f_equal. field. split; lra.
  - exact IH.
Qed.
Lemma slope_af f h m : (g (f (m + 40)) - g h) / 40 = c * ((f (m + 40) - h) / 40).
Proof. unfold g. field. Qed.
Lemma central_af f f' l : (forall x, f' x = g (f x)) -> forall i k b, central f' (map af l) i k (option_map (Rmult c) b) = central f l i k b.
Proof.
  intros Hf. induction l as [|[m h] l IH]; intros i k b; [reflexivity|].
  change (map af ((m, h) :: l)) with ((m, g h) :: map af l). cbn [central]. rewrite Hf, slope_af.
  destruct Rlt_dec; [reflexivity|]. destruct b as [b|]; cbn [option_map].
  - destruct (Rlt_dec (c * b) (c * ((f (m + 40) - h) / 40))) as [A|A], (Rlt_dec b ((f (m + 40) - h) / 40)) as [B|B].
    + exact (IH _ _ (Some _)).
    + exfalso. apply B. apply Rmult_lt_reg_l with c; assumption.
    + exfalso. apply A. apply Rmult_lt_compat_l; assumption.
    + exact (IH _ _ (Some _)).
  - exact (IH _ _ (Some _)).
Qed.
Lemma argclosest_af z xs : argclosest (g z) (map g xs) = argclosest z xs.
Proof.
  unfold argclosest. rewrite map_map. rewrite <- (argmin_mono (Rmult c) (map (fun y => Rabs (y - z)) xs)); [rewrite map_map; f_equal; apply map_ext; intros x; unfold g; replace (c * x + t - (c * z + t)) with (c * (x - z)) by ring; rewrite Rabs_mult, (Rabs_pos_eq c) by lra; reflexivity|].
  intros x y. split; intros H; [apply Rmult_lt_reg_l with c; assumption|apply Rmult_lt_compat_l; assumption].
Qed.
Lemma idx_af l z : idx_of (map af l) (g z) = idx_of l z.
Proof. unfold idx_of. rewrite map_snd_af, argclosest_af. reflexivity. Qed.
Lemma trapezoid_af l : trapezoid (map fa l) = c * trapezoid l.
Proof.
  induction l as [|p l IH]; [cbn; ring|]. destruct l as [|q l]; [cbn; ring|].
  change (map fa (p :: q :: l)) with (fa p :: fa q :: map fa l). rewrite !trap_cons2. change (fa q :: map fa l) with (map fa (q :: l)). rewrite IH. unfold fa, g. cbn [fst snd]. field.
Qed.
Lemma above_af l k : area_above (map af l) k = c * area_above l k.
Proof. unfold area_above. rewrite firstn_map, map_map. change (fun x => (snd (af x), fst (af x))) with (fun x : R * R => fa (snd x, fst x)). rewrite <- (map_map (fun x => (snd x, fst x)) fa), trapezoid_af, Rabs_mult, (Rabs_pos_eq c) by lra. reflexivity. Qed.
Lemma below_af l k : area_below (map af l) k = c * area_below l k.
Proof. unfold area_below. rewrite skipn_map, map_map. change (fun x => (snd (af x), 100 - fst (af x))) with (fun x : R * R => fa (snd x, 100 - fst x)). rewrite <- (map_map (fun x => (snd x, 100 - fst x)) fa), trapezoid_af, Rabs_mult, (Rabs_pos_eq c) by lra. reflexivity. Qed.
(** a sort that looks only at the order of the keys gives the same order for the transformed heights *)
Definition by_order (ord : sorter) : Prop := forall l, ord (map fa l) = map fa (ord l).
Definition moved (data : list height) : list height := map (option_map g) data.
Lemma affine polyfit n data a a' : lsq_contract polyfit -> (4 <= n)%nat ->
  afc_init polyfit n data = Ok a -> afc_init polyfit n (moved data) = Ok a' ->
  (forall p, mc (a_curve a') p = g (mc (a_curve a) p)) /\ a_curve a' = map af (a_curve a) /\ yupper a' = g (yupper a) /\ ylower a' = g (ylower a) /\
  (forall p, Vm a' p = c * Vm a p) /\ (forall p, Vv a' p = c * Vv a p) /\ a_data a' = map g (a_data a) /\ a_data a <> [].
Proof.
  intros HP Hn E E'. assert (Hn2 : (2 <= n)%nat) by lia.
  destruct (init_inv _ _ _ _ E) as (d & Ed & Hd & _ & Da & Ec & C & Ee & _).
  destruct (init_inv _ _ _ _ E') as (d' & Ed' & _ & _ & Da' & Ec' & C' & Ee' & _).
  assert (D' : d' = map g d).
  { apply map_Some_inj. rewrite <- Ed', Ed. unfold moved. rewrite !map_map. reflexivity. }
  rewrite D' in Da', Ec', C', Ee', Ed'. rewrite (curve_af n d Hn2 Hd) in Ec', C', Ee'.
  assert (Cne : material_curve n d <> []) by (intros X; apply (f_equal (@length _)) in X; rewrite c_length in X; cbn in X; lia).
  assert (Emc : forall p, mc (map af (material_curve n d)) p = g (mc (material_curve n d) p)) by (intros p; apply mc_af, Cne).
  pose proof (central_af _ _ (material_curve n d) Emc 0 0 None) as Cc. cbn [option_map] in Cc. rewrite Cc in C'. assert (St : a_start a' = a_start a) by congruence.
  rewrite map_fst_af, St in Ee'. assert (En : a_end a' = a_end a) by congruence.
  destruct (region_info _ _ _ _ HP Hn E) as (d1 & Ed1 & Ec1 & Hse & region & sol & Er & Reg & LS & Sl & Ic).
  destruct (region_info _ _ _ _ HP Hn E') as (d2 & Ed2 & Ec2 & Hse' & region' & sol' & Er' & Reg' & LS' & Sl' & Ic').
  assert (D1 : d1 = d) by (apply map_Some_inj; congruence). rewrite D1 in *. assert (D2 : d2 = map g d) by (apply map_Some_inj; congruence). rewrite D2 in *.
  assert (Rr : region' = map af region) by (rewrite Er', Er, St, En, (curve_af n d Hn2 Hd), skipn_map, firstn_map; reflexivity).
  rewrite Rr, !map_map in LS'. unfold af in LS'. cbn [fst snd] in LS'.
  destruct LS as [Ls Mn]. destruct sol as [|s [|b [|? ?]]]; try discriminate Ls.
  (* the transformed line fits the transformed points best *)
  assert (LT : least_squares 2 (map (fun p => [fst p; 1]) region) (map (fun p => g (snd p)) region) [c * s; c * b + t]).
  { split; [reflexivity|]. intros q Hq. destruct q as [|q0 [|q1 [|? ?]]]; try discriminate Hq.
    assert (T : forall u0 u1, rss (map (fun p => [fst p; 1]) region) (map (fun p : R * R => g (snd p)) region) [c * u0; c * u1 + t] = c ^ 2 * rss (map (fun p => [fst p; 1]) region) (map snd region) [u0; u1]).
    { intros u0 u1. clear. unfold rss. induction region as [|p l IH]; [cbn; ring|]. cbn [map zip2]. rewrite !sumR_cons, IH. unfold dot, g. cbn. ring. }
    rewrite T. replace q0 with (c * (q0 / c)) by (field; lra). replace q1 with (c * ((q1 - t) / c) + t) by (field; lra). rewrite T. apply Rmult_le_compat_l; [apply pow2_ge_0|]. apply Mn. reflexivity. }
  assert (SR : forall k, (a_start a <= k < a_end a)%nat -> g (Hi n d k) - dot [Mi n k; 1] [c * s; c * b + t] = g (Hi n d k) - dot [Mi n k; 1] sol').
  { intros k Hk. assert (Ip : In (Mi n k, Hi n d k) region) by (apply Reg; eauto).
    exact (same_residual region (fun p : R * R => [fst p; 1]) 2 (fun _ => eq_refl) (fun p => g (snd p)) (fun p => g (snd p)) [c * s; c * b + t] sol' [0; 0] LT LS' eq_refl
      (fun p _ => ltac:(unfold dot; cbn; lra)) (Mi n k, Hi n d k) Ip). }
  destruct LS' as [Ls' _]. destruct sol' as [|s' [|b' [|? ?]]]; try discriminate Ls'.
  cbn [nth] in Sl, Ic, Sl', Ic'. unfold dot in SR. cbn in SR.
  assert (Q1 := SR (a_start a) ltac:(lia)). assert (Q2 := SR (S (a_start a)) ltac:(lia)). assert (Lt := Mi_lt n Hn2 (a_start a) (S (a_start a)) ltac:(lia)).
  assert (Es : s' = c * s).
  { assert (T : (s' - c * s) * (Mi n (S (a_start a)) - Mi n (a_start a)) = 0) by lra. apply Rmult_integral in T. lra. }
  assert (Eb : b' = c * b + t) by (rewrite Es in Q1; lra).
  assert (Y : yupper a' = g (yupper a)) by (unfold yupper, g; rewrite Ic, Ic'; exact Eb).
  assert (Y2 : ylower a' = g (ylower a)) by (unfold ylower, g; rewrite Sl', Ic', Sl, Ic, Es, Eb; ring).
  assert (Hm : forall p, mc (a_curve a') p = g (mc (a_curve a) p)) by (intros p; rewrite Ec', Ec; apply Emc).
  split; [exact Hm|]. split; [rewrite Ec', Ec; reflexivity|]. split; [exact Y|]. split; [exact Y2|].
  split; [intros p; unfold Vm; rewrite Hm, Ec', Ec, idx_af, above_af; field|].
  split; [intros p; unfold Vv; rewrite Hm, Ec', Ec, idx_af, below_af; field|]. rewrite Da, Da'. split; [reflexivity|exact Hd].
Qed.
Lemma mr_af ord l z : by_order ord -> mr ord (map af l) (g z) = mr ord l z.
Proof.
  intros Ho. unfold mr. rewrite map_map. change (fun x => (snd (af x), fst (af x))) with (fun x : R * R => fa (snd x, fst x)). rewrite <- (map_map (fun x => (snd x, fst x)) fa), Ho. apply interp_fa.
Qed.
Lemma rdiv_scale x y : rdiv (c * x) y = option_map (Rmult c) (rdiv x y).
Proof. unfold rdiv. destruct Req_EM_T; [reflexivity|]. cbn [option_map]. f_equal. unfold Rdiv. ring. Qed.
End Affine.
