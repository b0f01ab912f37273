(** C69: the functional parameters do not depend on the height reference. *)
From Coq Require Import String Reals List Bool Arith ZArith Lia Lra Permutation.
From Verif Require Import Base RList ModelMath ProofMath ModelHeights ProofHeights ModelParams ModelDetrend SpecDetrend ProofDetrend PropsDetrend ModelAfc ProofAfc PropsAfc PropsAfc2.
Import ListNotations.
Local Open Scope R_scope.

Section Shift.
Context (t : R).
Definition sh (p : R * R) : R * R := (fst p, snd p + t).
Lemma quantile_shift d q : d <> [] -> 0 <= q <= 1 -> quantile (map (fun x => x + t) d) q = quantile d q + t.
Proof.
  intros Hd Hq. unfold quantile. rewrite sortR_map_mono by (intros; lra). rewrite !map_length, !sortR_length.
  assert (L1 : (1 <= length d)%nat) by (destruct d; [congruence|cbn; lia]).
  assert (Hp : INR (length d) - 1 = INR (length d - 1)) by (rewrite minus_INR by exact L1; reflexivity). rewrite Hp.
  assert (P0 := pos_INR (length d - 1)).
  destruct (virtual_floor (q * INR (length d - 1)) (length d - 1)) as (k & -> & Hk & B).
  { split; [apply Rmult_le_pos; lra|]. rewrite <- (Rmult_1_l (INR (length d - 1))) at 2. apply Rmult_le_compat_r; lra. }
  assert (N : forall j, (j < length d)%nat -> nth j (map (fun x => x + t) (sortR d)) 0 = nth j (sortR d) 0 + t).
  { intros j Hj. rewrite (nth_indep _ 0 (0 + t)) by (rewrite map_length, sortR_length; exact Hj). exact (map_nth (fun x => x + t) (sortR d) 0 j). }
  rewrite !N by lia. lra.
Qed.
Lemma curve_shift n d : (2 <= n)%nat -> d <> [] -> material_curve n (map (fun x => x + t) d) = map sh (material_curve n d).
Proof.
  intros Hn Hd. rewrite !c_eq, map_map. apply map_ext_in. intros i Hi'. apply in_seq in Hi'. unfold sh. cbn [fst snd]. f_equal.
  unfold Hi. assert (R := Mi_range n Hn i ltac:(lia)). apply quantile_shift; [exact Hd|lra].
Qed.
Lemma map_fst_sh l : map fst (map sh l) = map fst l. Proof. rewrite map_map. apply map_ext. reflexivity. Qed.
Lemma map_snd_sh l : map snd (map sh l) = map (fun x => x + t) (map snd l). Proof. rewrite !map_map. apply map_ext. reflexivity. Qed.
Lemma interp_sh l x : l <> [] -> interp (map sh l) x = interp l x + t.
Proof.
  induction l as [|[x0 y0] l IH]; intros H; [congruence|]. destruct l as [|[x1 y1] l]; [cbn; reflexivity|].
  change (map sh ((x0, y0) :: (x1, y1) :: l)) with ((x0, y0 + t) :: (x1, y1 + t) :: map sh l). rewrite !interp_cons2.
  destruct Rlt_dec; [destruct Rle_dec; [reflexivity|]|].
  - replace (y1 + t - (y0 + t)) with (y1 - y0) by lra. lra.
  - apply IH. discriminate.
Qed.
Lemma insert_sh p l : insert_pt (sh p) (map sh l) = map sh (insert_pt p l).
Proof. induction l as [|q l IH]; [reflexivity|]. cbn [map insert_pt]. unfold sh at 1 2. cbn [fst]. destruct Rle_dec; [reflexivity|]. cbn [map]. now rewrite IH. Qed.
Lemma sort_sh l : sort_pts (map sh l) = map sh (sort_pts l).
Proof. induction l as [|p l IH]; [reflexivity|]. cbn [map sort_pts]. now rewrite IH, insert_sh. Qed.
Lemma mc_sh l p : l <> [] -> mc (map sh l) p = mc l p + t.
Proof.
  intros H. unfold mc, interp1d. rewrite !combine_split, sort_sh. apply interp_sh. intros X. assert (P := sort_pts_perm l). rewrite X in P. apply Permutation_sym, Permutation_nil in P. contradiction.
Qed.
Lemma central_sh f f' l : (forall x, f' x = f x + t) -> forall i k b, central f' (map sh l) i k b = central f l i k b.
Proof.
  intros Hf. induction l as [|[m h] l IH]; intros i k b; [reflexivity|]. cbn [map central]. unfold sh at 1. cbn [fst snd].
  change (map sh l) with (map sh l). unfold sh at 1. cbn. rewrite Hf. replace (f (m + 40) + t - (h + t)) with (f (m + 40) - h) by lra.
  destruct Rlt_dec; [reflexivity|]. destruct b as [b|]; [destruct Rlt_dec|]; apply IH.
Qed.
Lemma argclosest_sh z xs : argclosest (z + t) (map (fun x => x + t) xs) = argclosest z xs.
Proof. unfold argclosest. rewrite map_map. f_equal. apply map_ext. intros x. f_equal. lra. Qed.
Lemma idx_sh l z : idx_of (map sh l) (z + t) = idx_of l z.
Proof. unfold idx_of. rewrite map_snd_sh, argclosest_sh. reflexivity. Qed.
Lemma trapezoid_sh l : trapezoid (map (fun p => (fst p + t, snd p)) l) = trapezoid l.
Proof.
  induction l as [|p l IH]; [reflexivity|]. destruct l as [|q l]; [reflexivity|].
  change (map (fun p => (fst p + t, snd p)) (p :: q :: l)) with ((fst p + t, snd p) :: (fst q + t, snd q) :: map (fun p => (fst p + t, snd p)) l).
  rewrite !trap_cons2. cbn [fst snd]. change ((fst q + t, snd q) :: map (fun p => (fst p + t, snd p)) l) with (map (fun p => (fst p + t, snd p)) (q :: l)). rewrite IH. lra.
Qed.
Lemma above_sh l k : area_above (map sh l) k = area_above l k.
Proof. unfold area_above. rewrite firstn_map, map_map. rewrite <- (trapezoid_sh (map (fun p => (snd p, fst p)) (firstn k l))), map_map. reflexivity. Qed.
Lemma below_sh l k : area_below (map sh l) k = area_below l k.
Proof. unfold area_below. rewrite skipn_map, map_map. rewrite <- (trapezoid_sh (map (fun p => (snd p, 100 - fst p)) (skipn k l))), map_map. reflexivity. Qed.

Definition raised (data : list height) : list height := map (option_map (fun x => x + t)) data.
Theorem C69_shift : forall polyfit n data a a', lsq_contract polyfit -> (4 <= n)%nat ->
  afc_init polyfit n data = Ok a -> afc_init polyfit n (raised data) = Ok a' ->
  (forall p, mc (a_curve a') p = mc (a_curve a) p + t) /\
  afc_k a' = afc_k a /\ (forall p q, dc a' p q = dc a p q) /\ (forall p, Vm a' p = Vm a p) /\ (forall p, Vv a' p = Vv a p) /\
  (forall p q, vmc a' p q = vmc a p q) /\ (forall p q, vvc a' p q = vvc a p q) /\ pkx a' = pkx a /\ vkx a' = vkx a.
Proof.
  intros polyfit n data a a' HP Hn E E'. assert (Hn2 : (2 <= n)%nat) by lia.
  destruct (init_inv _ _ _ _ E) as (d & Ed & Hd & _ & Da & Ec & C & Ee & _).
  destruct (init_inv _ _ _ _ E') as (d' & Ed' & _ & _ & Da' & Ec' & C' & Ee' & _).
  assert (D' : d' = map (fun x => x + t) d).
  { apply map_Some_inj. rewrite <- Ed', Ed. unfold raised. rewrite !map_map. reflexivity. }
  rewrite D' in Da', Ec', C', Ee', Ed'. rewrite (curve_shift n d Hn2 Hd) in Ec', C', Ee'.
  assert (Cne : material_curve n d <> []) by (intros X; apply (f_equal (@length _)) in X; rewrite c_length in X; cbn in X; lia).
  assert (Emc : forall p, mc (map sh (material_curve n d)) p = mc (material_curve n d) p + t) by (intros p; apply mc_sh, Cne).
  rewrite (central_sh _ _ _ Emc) in C'. assert (St : a_start a' = a_start a) by congruence.
  rewrite map_fst_sh, St in Ee'. assert (En : a_end a' = a_end a) by congruence.
  destruct (region_info _ _ _ _ HP Hn E) as (d1 & Ed1 & Ec1 & Hse & region & sol & Er & Reg & LS & Sl & Ic).
  destruct (region_info _ _ _ _ HP Hn E') as (d2 & Ed2 & Ec2 & Hse' & region' & sol' & Er' & Reg' & LS' & Sl' & Ic').
  assert (D1 : d1 = d) by (apply map_Some_inj; congruence). rewrite D1 in *. assert (D2 : d2 = map (fun x => x + t) d) by (apply map_Some_inj; congruence). rewrite D2 in *.
  assert (Rr : region' = map sh region) by (rewrite Er', Er, St, En, (curve_shift n d Hn2 Hd), skipn_map, firstn_map; reflexivity).
  rewrite Rr, !map_map in LS'. unfold sh in LS'. cbn [fst snd] in LS'.
  assert (Lq : length [0; t] = 2%nat) by reflexivity.
  assert (SR : forall k, (a_start a <= k < a_end a)%nat -> Hi n d k - dot [Mi n k; 1] sol = Hi n d k + t - dot [Mi n k; 1] sol').
  { intros k Hk. assert (Ip : In (Mi n k, Hi n d k) region) by (apply Reg; eauto).
    exact (same_residual region (fun p : R * R => [fst p; 1]) 2 (fun _ => eq_refl) snd (fun p => snd p + t) sol sol' [0; t] LS LS' Lq
      (fun p _ => ltac:(unfold dot; cbn; lra)) (Mi n k, Hi n d k) Ip). }
  destruct LS as [Ls _], LS' as [Ls' _]. destruct sol as [|s [|b [|? ?]]]; try discriminate Ls. destruct sol' as [|s' [|b' [|? ?]]]; try discriminate Ls'.
  cbn [nth] in Sl, Ic, Sl', Ic'. unfold dot in SR. cbn in SR.
  assert (Q1 := SR (a_start a) ltac:(lia)). assert (Q2 := SR (S (a_start a)) ltac:(lia)). assert (Lt := Mi_lt n Hn2 (a_start a) (S (a_start a)) ltac:(lia)).
  assert (Es : s' = s).
  { assert (T : (s' - s) * (Mi n (S (a_start a)) - Mi n (a_start a)) = 0) by lra. apply Rmult_integral in T. lra. }
  assert (Eb : b' = b + t) by (rewrite Es in Q1; lra).
  assert (Y : yupper a' = yupper a + t) by (unfold yupper; lra). assert (Y2 : ylower a' = ylower a + t) by (unfold ylower; rewrite Sl', Ic', Sl, Ic, Es, Eb; lra).
  assert (Hm : forall p, mc (a_curve a') p = mc (a_curve a) p + t) by (intros p; rewrite Ec', Ec; apply Emc).
  assert (HVm : forall p, Vm a' p = Vm a p) by (intros p; unfold Vm; rewrite Hm, Ec', Ec, idx_sh, above_sh; reflexivity).
  assert (HVv : forall p, Vv a' p = Vv a p) by (intros p; unfold Vv; rewrite Hm, Ec', Ec, idx_sh, below_sh; reflexivity).
  split; [exact Hm|]. split; [unfold afc_k; lra|]. split; [intros p q; unfold dc; rewrite !Hm; lra|]. split; [exact HVm|]. split; [exact HVv|].
  split; [intros p q; unfold vmc; rewrite !HVm; reflexivity|]. split; [intros p q; unfold vvc; rewrite !HVv; reflexivity|].
  unfold pkx, vkx. rewrite Da, Da', Y, Y2.
  destruct (lmax_ex d Hd) as [M EM]. destruct (lmin_ex d Hd) as [m Em].
  assert (EM' : lmax (map (fun x => x + t) d) = Some (M + t)) by (apply lmax_spec, (is_max_map_mono (fun x => x + t)); [intros; lra|apply lmax_spec, EM]).
  assert (Em' : lmin (map (fun x => x + t) d) = Some (m + t)) by (apply lmin_spec, (is_min_map_mono (fun x => x + t)); [intros; lra|apply lmin_spec, Em]).
  rewrite EM, EM', Em, Em'. cbn [option_map]. split; f_equal; lra.
Qed.
End Shift.
(** both curves exist together *)
Theorem C69_example : forall t polyfit, exists a a', afc_init polyfit 10000 [Some 0; Some 3; Some 1; Some 7] = Ok a /\
  afc_init polyfit 10000 (raised t [Some 0; Some 3; Some 1; Some 7]) = Ok a'.
Proof.
  intros t polyfit. destruct (C33_example polyfit) as [a E]. exists a.
  destruct (proj2 (C32_defined polyfit 10000 (raised t [Some 0; Some 3; Some 1; Some 7]))) as [a' E'].
  - split; [apply Nat.leb_le; reflexivity|]. split; [discriminate|cbn; intuition discriminate].
  - exists a'. auto.
Qed.
