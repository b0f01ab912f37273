(** C115: the unit of the heights: levels, step height, cavity volume and homogeneity of the same sample expressed in another unit. *)
From Coq Require Import String Reals List Bool Arith ZArith Lia Lra.
From Verif Require Import Base RList ModelMath ModelHeights ModelParams ModelGeom ModelStep ModelHomog ProofMath ProofHeights ProofParams ProofStep ProofGeom PropsStep PropsParams PropsHomog.
From Verif Require PropsReportUnits.
Import ListNotations.
Local Open Scope R_scope.

(** *** Specification: the same heights in a unit k times smaller *)
Definition in_unit (k : R) (h : height) : height := option_map (Rmult k) h.
Definition expressed (k : R) (data : list height) : list height := map (in_unit k) data.

Section Unit.
Variable k : R.
Hypothesis kpos : 0 < k.

Lemma k_lt x y : k * x < k * y <-> x < y.
Proof using kpos. split; intros H; [apply (Rmult_lt_reg_l k); assumption|apply Rmult_lt_compat_l; assumption]. Qed.
Lemma Rltb_k x y : Rltb (k * x) (k * y) = Rltb x y.
Proof using kpos. destruct (Rltb x y) eqn:E; [apply Rltb_spec in E; apply Rltb_spec; apply k_lt, E|]. apply Rltb_false in E. apply Rltb_false. apply Rmult_le_compat_l; lra. Qed.
Lemma measured_k l : measured (expressed k l) = map (Rmult k) (measured l).
Proof. induction l as [|[x|] l IH]; cbn; [reflexivity|f_equal; exact IH|exact IH]. Qed.
Lemma nan_k l : existsb is_nan (expressed k l) = existsb is_nan l.
Proof. induction l as [|[x|] l IH]; cbn; auto. Qed.
Lemma mean_k l : meanR (map (Rmult k) l) = k * meanR l.
Proof. unfold meanR. rewrite map_length, PropsReportUnits.sumR_scale. unfold Rdiv. ring. Qed.
Lemma median_k l : medianR (map (Rmult k) l) = k * medianR l.
Proof using kpos.
  unfold medianR. rewrite map_length, sortR_map_mono by (intros x y H; apply Rmult_le_compat_l; lra).
  assert (X : forall i, nth i (map (Rmult k) (sortR l)) 0 = k * nth i (sortR l) 0).
  { intros i. rewrite <- (map_nth (Rmult k)). f_equal. ring. }
  destruct (Nat.even (length l)); rewrite !X; lra.
Qed.
Lemma npmean_k l : npmean (expressed k l) = in_unit k (npmean l).
Proof. unfold npmean. rewrite nan_k. destruct (existsb is_nan l); [reflexivity|]. unfold nanmean. rewrite measured_k. destruct (measured l) as [|x t]; [reflexivity|]. cbn [map in_unit option_map]. f_equal. apply (mean_k (x :: t)). Qed.
Lemma npmedian_k l : npmedian (expressed k l) = in_unit k (npmedian l).
Proof using kpos. unfold npmedian. rewrite nan_k. destruct (existsb is_nan l); [reflexivity|]. unfold nanmedian. rewrite measured_k. destruct (measured l) as [|x t]; [reflexivity|]. cbn [map in_unit option_map]. f_equal. apply (median_k (x :: t)). Qed.
Lemma hgt_k a b : hgt (in_unit k a) (in_unit k b) = hgt a b.
Proof using kpos. destruct a, b; cbn; try reflexivity. apply Rltb_k. Qed.
Lemma select_k m l : select m (expressed k l) = expressed k (select m l).
Proof. unfold select, expressed. revert l. induction m as [|b m IH]; intros [|h l]; try reflexivity. cbn [map combine flat_map fst snd]. rewrite IH, map_app. destruct b; reflexivity. Qed.

(** *** the histogram *)
Lemma min_k l : lmin (map (Rmult k) l) = option_map (Rmult k) (lmin l).
Proof using kpos.
  destruct (lmin l) as [m|] eqn:E; [|destruct l; [reflexivity|]; destruct (lmin_ex (r :: l)) as [y Ey]; [discriminate|congruence]].
  apply lmin_spec in E. apply lmin_spec. apply (is_min_map_mono (Rmult k)); [intros; apply Rmult_le_compat_l; lra|exact E].
Qed.
Lemma max_k l : lmax (map (Rmult k) l) = option_map (Rmult k) (lmax l).
Proof using kpos.
  destruct (lmax l) as [m|] eqn:E; [|destruct l; [reflexivity|]; destruct (lmax_ex (r :: l)) as [y Ey]; [discriminate|congruence]].
  apply lmax_spec in E. apply lmax_spec. apply (is_max_map_mono (Rmult k)); [intros; apply Rmult_le_compat_l; lra|exact E].
Qed.
Lemma bin_k n lo hi x : hist_bin n (k * lo) (k * hi) (k * x) = hist_bin n lo hi x.
Proof using kpos.
  unfold hist_bin. replace ((k * x - k * lo) / (k * hi - k * lo)) with ((x - lo) / (hi - lo)); [reflexivity|].
  replace (k * x - k * lo) with (k * (x - lo)) by ring. replace (k * hi - k * lo) with (k * (hi - lo)) by ring.
  unfold Rdiv. destruct (Req_EM_T (hi - lo) 0) as [E|E].
  - rewrite E, Rmult_0_r, Rinv_0. ring.
  - field. lra.
Qed.
Lemma counts_k n lo hi l : counts n (k * lo) (k * hi) (map (Rmult k) l) = counts n lo hi l.
Proof using kpos.
  unfold counts. apply map_ext. intros b. f_equal. induction l as [|x l IH]; [reflexivity|]. cbn [map List.filter]. rewrite bin_k.
  destruct (Nat.eqb (hist_bin n lo hi x) b); cbn [length]; rewrite IH; reflexivity.
Qed.
Lemma center_k n lo hi b : bin_center n (k * lo) (k * hi) b = k * bin_center n lo hi b.
Proof. unfold bin_center, bin_edge. unfold Rdiv. ring. Qed.
Lemma centers_k n lo hi : bin_centers n (k * lo) (k * hi) = map (Rmult k) (bin_centers n lo hi).
Proof. unfold bin_centers. rewrite map_map. apply map_ext. intros b. apply center_k. Qed.
Lemma zip2_mult_k c l : zip2 Rmult c (map (Rmult k) l) = map (Rmult k) (zip2 Rmult c l).
Proof. revert l. induction c as [|x c IH]; intros [|y l]; try reflexivity. cbn. rewrite IH. f_equal. ring. Qed.
Lemma zip2_div_k c l : zip2 ndiv (map (Rmult k) c) l = map (in_unit k) (zip2 ndiv c l).
Proof.
  revert l. induction c as [|x c IH]; intros [|y l]; try reflexivity. cbn. rewrite IH. f_equal. unfold ndiv. destruct (Req_EM_T y 0); [reflexivity|]. cbn. f_equal. unfold Rdiv. ring.
Qed.
Lemma cumsum_k l : forall a, cumsum (k * a) (map (Rmult k) l) = map (Rmult k) (cumsum a l).
Proof. induction l as [|x l IH]; intros a; [reflexivity|]. cbn. rewrite <- Rmult_plus_distr_l, IH. reflexivity. Qed.
Lemma cumsum0_k l : cumsum 0 (map (Rmult k) l) = map (Rmult k) (cumsum 0 l).
Proof. rewrite <- cumsum_k, Rmult_0_r. reflexivity. Qed.
Lemma tl_map {A B} (f : A -> B) l : tl (map f l) = map f (tl l).
Proof. destruct l; reflexivity. Qed.
Lemma variance_k cnt ctr : variance12 cnt (map (Rmult k) ctr) = map (option_map (Rmult (k * k))) (variance12 cnt ctr).
Proof.
  unfold variance12. cbv zeta. rewrite zip2_mult_k, cumsum0_k, zip2_div_k, <- !map_rev, cumsum0_k, zip2_div_k, <- !map_rev, PropsReportUnits.removelast_map, tl_map.
  set (w := zip2 Rmult _ _). set (m1 := removelast _). set (m2 := tl _). clearbody w m1 m2. revert m1 m2.
  induction w as [|x w IH]; intros [|a m1] [|b m2]; try reflexivity. cbn. rewrite <- IH. f_equal. destruct a as [a|], b as [b|]; cbn; try reflexivity. f_equal. ring.
Qed.
Lemma amax_go_k q l : 0 < q -> forall i b v, amax_go (map (option_map (Rmult q)) l) i b (q * v) = amax_go l i b v.
Proof.
  intros Q. induction l as [|[y|] l IH]; intros i b v; cbn; [reflexivity| |reflexivity].
  destruct (Rlt_dec v y) as [H|H], (Rlt_dec (q * v) (q * y)) as [H'|H']; try apply IH.
  - exfalso. apply H'. apply Rmult_lt_compat_l; assumption.
  - exfalso. apply H. apply (Rmult_lt_reg_l q); assumption.
Qed.
Lemma argmax_k q l : 0 < q -> argmax_nan (map (option_map (Rmult q)) l) = argmax_nan l.
Proof. intros Q. destruct l as [|[x|] l]; cbn; try reflexivity. f_equal. apply amax_go_k, Q. Qed.

Lemma otsu_k n l : ~ (exists a, l <> [] /\ forall x, In x l -> x = a) -> l <> [] -> otsu_threshold n (map (Rmult k) l) = rmap (Rmult k) (otsu_threshold n l).
Proof using kpos.
  intros NF Ne. unfold otsu_threshold. destruct (Nat.eqb n 0); [reflexivity|].
  destruct (lmin_ex l Ne) as [a Ea], (lmax_ex l Ne) as [b Eb]. unfold hist_range. rewrite min_k, max_k, Ea, Eb. cbn [option_map].
  assert (D : a <> b).
  { intros <-. apply NF. exists a. split; [exact Ne|]. intros x Hx. apply lmin_spec in Ea. apply lmax_spec in Eb. destruct Ea as [_ Ea], Eb as [_ Eb]. specialize (Ea x Hx). specialize (Eb x Hx). lra. }
  destruct (Req_EM_T a b) as [E|_]; [contradiction|]. destruct (Req_EM_T (k * a) (k * b)) as [E|_]; [apply Rmult_eq_reg_l in E; [contradiction|lra]|].
  rewrite counts_k, centers_k, variance_k, argmax_k by nra. destruct (argmax_nan _) as [i|e]; [|reflexivity]. cbn [rbind rmap]. f_equal.
  rewrite <- (map_nth (Rmult k)). f_equal. ring.
Qed.
End Unit.

(** a flat sample: the threshold lies below it, whatever the unit *)
Lemma flat_threshold l a : l <> [] -> (forall x, In x l -> x = a) -> exists t, otsu_threshold 256 l = Ok t /\ t < a.
Proof.
  intros Ne F. unfold otsu_threshold. replace (Nat.eqb 256 0) with false by reflexivity.
  destruct (lmin_ex l Ne) as [u Eu], (lmax_ex l Ne) as [v Ev]. unfold hist_range. rewrite Eu, Ev.
  apply lmin_spec in Eu. apply lmax_spec in Ev. assert (u = a) by (apply F, Eu). assert (v = a) by (apply F, Ev). subst u v.
  destruct (Req_EM_T a a) as [_|N]; [|contradiction]. cbv zeta.
  set (lo := a - 1 / 2). set (hi := a + 1 / 2).
  assert (B : forall x, In x l -> hist_bin 256 lo hi x = 128%nat).
  { intros x Hx. rewrite (F x Hx). unfold hist_bin, lo, hi. replace ((a - (a - 1 / 2)) / (a + 1 / 2 - (a - 1 / 2)) * INR 256) with (IZR 128).
    - rewrite Int_part_IZR. reflexivity.
    - rewrite INR_IZR_INZ. replace (Z.of_nat 256) with 256%Z by reflexivity. field. lra. }
  assert (C : exists c, counts 256 lo hi l = 0 :: 0 :: c).
  { unfold counts. replace (seq 0 256) with (0%nat :: 1%nat :: seq 2 254) by reflexivity. cbn [map].
    assert (G : forall b, b <> 128%nat -> INR (length (List.filter (fun x => Nat.eqb (hist_bin 256 lo hi x) b) l)) = 0).
    { intros b Hb. replace (List.filter _ l) with (@nil R); [reflexivity|]. symmetry. clear - B Hb. induction l as [|x l IH]; [reflexivity|]. cbn [List.filter].
      rewrite (B x (or_introl eq_refl)). destruct (Nat.eqb_spec 128 b); [congruence|]. apply IH. intros y Hy. apply B. right. exact Hy. }
    rewrite !G by discriminate. eexists. reflexivity. }
  destruct C as [c ->]. unfold bin_centers. replace (seq 0 256) with (0%nat :: 1%nat :: seq 2 254) by reflexivity. cbn [map].
  set (ctr := map _ _). set (c0 := bin_center 256 lo hi 0). set (c1 := bin_center 256 lo hi 1).
  assert (V : exists r, variance12 (0 :: 0 :: c) (c0 :: c1 :: ctr) = None :: r).
  { unfold variance12. cbv zeta. cbn [cumsum].
    assert (N : ndiv (0 + 0 * c0) (0 + 0) = None) by (unfold ndiv; destruct (Req_EM_T (0 + 0) 0) as [_|X]; [reflexivity|lra]).
    cbn [zip2 cumsum]. rewrite N. cbn [removelast zip2].
    match goal with |- context[tl (rev (cumsum ?a ?b))] => set (w2 := rev (cumsum a b)) end.
    match goal with |- context[tl (rev (zip2 ndiv ?a ?b))] => set (m2 := rev (zip2 ndiv a b)) end.
    assert (L1 : (2 <= length w2)%nat) by (unfold w2; rewrite rev_length, cumsum_length, rev_length; cbn; lia).
    assert (L2 : (2 <= length m2)%nat).
    { unfold m2. rewrite rev_length, zip2_length, cumsum_length , !rev_length. cbn [length]. rewrite zip2_length. lia. }
    clearbody w2 m2. destruct w2 as [|x [|y w2]]; cbn in L1; try lia. destruct m2 as [|x' [|y' m2]]; cbn in L2; try lia.
    cbn [tl zip2]. eexists. reflexivity. }
  destruct V as [r ->]. cbn [argmax_nan rbind nth]. eexists. split; [reflexivity|].
  unfold c0, bin_center, bin_edge, lo, hi. change (INR 0) with 0. change (INR 1) with 1. replace (INR 256) with 256 by (rewrite INR_IZR_INZ; reflexivity). lra.
Qed.

(** *** the mask *)
Lemma all_equal_dec l : {exists a, forall x : R, In x l -> x = a} + {~ exists a, forall x, In x l -> x = a}.
Proof.
  destruct l as [|a l]; [left; exists 0; intros x []|]. destruct (Forall_dec (fun x => x = a) (fun x => Req_EM_T x a) l) as [F|F].
  - left. exists a. rewrite Forall_forall in F. intros x [<-|Hx]; [reflexivity|apply F, Hx].
  - right. intros (b & H). apply F. apply Forall_forall. intros x Hx. rewrite (H x), (H a); [reflexivity|left; reflexivity|right; exact Hx].
Qed.
Lemma mask_k k data : 0 < k -> get_mask (expressed k data) = get_mask data.
Proof.
  intros K. unfold get_mask. rewrite measured_k.
  assert (T : exists t t', otsu_threshold 256 (measured data) = Ok t /\ otsu_threshold 256 (map (Rmult k) (measured data)) = Ok t' /\
    forall h, In h data -> hgt (in_unit k h) (Some t') = hgt h (Some t)).
  { assert (I : forall x, In (Some x) data -> In x (measured data)) by (intros x Hx; unfold measured; apply in_flat_map; exists (Some x); split; [exact Hx|left; reflexivity]).
    destruct (list_eq_dec Req_EM_T (measured data) []) as [E|Ne].
    - rewrite E in *. cbn [map]. destruct (otsu_total []) as [t Et]. exists t, t. split; [exact Et|]. split; [exact Et|]. intros [x|] Hx; [destruct (I x Hx)|reflexivity].
    - destruct (all_equal_dec (measured data)) as [[a F]|NF].
      + destruct (flat_threshold _ a Ne F) as (t & Et & Lt).
        destruct (flat_threshold (map (Rmult k) (measured data)) (k * a)) as (t' & Et' & Lt').
        { destruct (measured data); [contradiction|discriminate]. }
        { intros x Hx. apply in_map_iff in Hx. destruct Hx as (y & <- & Hy). rewrite (F y Hy). reflexivity. }
        exists t, t'. split; [exact Et|]. split; [exact Et'|]. intros [x|] Hx; [|reflexivity]. rewrite (F x (I x Hx)). cbn.
        rewrite (proj2 (Rltb_spec t' (k * a)) Lt'), (proj2 (Rltb_spec t a) Lt). reflexivity.
      + destruct (otsu_total (measured data)) as [t Et]. exists t, (k * t). split; [exact Et|]. split.
        * rewrite otsu_k, Et; [reflexivity|exact K| |exact Ne]. intros (a & _ & F). apply NF. exists a. exact F.
        * intros h _. apply (hgt_k k K h (Some t)). }
  destruct T as (t & t' & -> & -> & H). cbn [rbind].
  assert (E : map (fun h => hgt h (Some t')) (expressed k data) = map (fun h => hgt h (Some t)) data) by (unfold expressed; rewrite map_map; apply map_ext_in; exact H).
  rewrite E, !select_k, !npmean_k, hgt_k by exact K. reflexivity.
Qed.

(** *** The theorems *)
(** The threshold between two classes of heights is in the unit of the heights. *)
Theorem C115_threshold : forall k n l t, 0 < k -> (exists x y, In x l /\ In y l /\ x <> y) -> otsu_threshold n l = Ok t -> otsu_threshold n (map (Rmult k) l) = Ok (k * t).
Proof.
  intros k n l t K (x & y & Hx & Hy & N) E. rewrite otsu_k, E; [reflexivity|exact K| |destruct l; [destruct Hx|discriminate]].
  intros (a & _ & F). apply N. rewrite (F x Hx), (F y Hy). reflexivity.
Qed.
(** Which points belong to the upper and the lower level does not depend on the unit, with or without gaps, flat or not. *)
Theorem C115_classes : forall k data, 0 < k -> get_mask (expressed k data) = get_mask data.
Proof. exact mask_k. Qed.
(** The levels and the step height are lengths in the unit of the heights. *)
Theorem C115_levels : forall k data u l, 0 < k -> upper_lower data = Ok (u, l) -> upper_lower (expressed k data) = Ok (in_unit k u, in_unit k l).
Proof.
  intros k data u l K E. unfold upper_lower in *. rewrite mask_k by exact K. destruct (get_mask data) as [m|e]; [|discriminate]. cbn [rbind] in *.
  injection E as <- <-. rewrite !select_k, !npmedian_k by exact K. reflexivity.
Qed.
Lemma hsub_k k a b : hsub (in_unit k a) (in_unit k b) = in_unit k (hsub a b).
Proof. destruct a, b; cbn; try reflexivity. f_equal. ring. Qed.
Theorem C115_stepheight : forall k data s, 0 < k -> stepheight data = Ok s -> stepheight (expressed k data) = Ok (in_unit k s).
Proof.
  intros k data s K E. unfold stepheight in *. destruct (upper_lower data) as [[u l]|e] eqn:U; [|discriminate]. cbn [rbind] in *. injection E as <-.
  rewrite (C115_levels k data u l K U). cbn [rbind]. rewrite hsub_k. reflexivity.
Qed.
(** The cavity volume is a volume: the factors of the heights and of the two steps multiply. *)
Theorem C115_cavity : forall k p q data threshold sx sy v, 0 < k -> cavity_volume data threshold sx sy = Ok v ->
  cavity_volume (expressed k data) threshold (p * sx) (q * sy) = Ok (in_unit (k * p * q) v).
Proof.
  intros k p q data th sx sy v K E. unfold cavity_volume in *.
  destruct (upper_lower data) as [[u l]|e] eqn:U; [|discriminate]. rewrite (C115_levels k data u l K U). cbn [rbind] in *.
  destruct (stepheight data) as [s|e] eqn:S0; [|discriminate]. rewrite (C115_stepheight k data s K S0). cbn [rbind] in *.
  apply (f_equal (fun r => match r with Ok x => x | _ => None end)) in E. cbv beta iota in E. subst v.
  assert (M : hmul (Some th) (in_unit k s) = in_unit k (hmul (Some th) s)) by (destruct s; cbn; [f_equal; ring|reflexivity]).
  rewrite M, hsub_k. set (cut := hsub u (hmul (Some th) s)).
  assert (F : List.filter (fun h => hgt (in_unit k cut) h) (expressed k data) = expressed k (List.filter (fun h => hgt cut h) data)).
  { clearbody cut. clear - K. unfold expressed. induction data as [|h data IH]; [reflexivity|]. cbn [map List.filter]. rewrite hgt_k by exact K. destruct (hgt cut h); cbn [map]; rewrite IH; reflexivity. }
  rewrite F. assert (D : map (fun h => hsub (in_unit k u) h) (expressed k (List.filter (fun h => hgt cut h) data)) = expressed k (map (fun h => hsub u h) (List.filter (fun h => hgt cut h) data))).
  { unfold expressed. rewrite !map_map. apply map_ext. intros h. apply hsub_k. }
  rewrite D, nan_k, measured_k, PropsReportUnits.sumR_scale. f_equal. match goal with |- (if ?b then _ else _) = _ => destruct b end; [reflexivity|]. unfold in_unit at 1, option_map. f_equal. fold cut. ring.
Qed.

(** *** Homogeneity *)
(** The Gini coefficient itself does not depend on the unit of the values ... *)
Theorem C115_gini : forall k values, 0 < k -> gini_h (map (Rmult k) values) = gini_h values.
Proof.
  intros k l K. unfold gini_h. rewrite sortR_map_mono by (intros x y H; apply Rmult_le_compat_l; lra). rewrite map_length. cbv zeta.
  destruct (Nat.eqb _ 0); [reflexivity|]. rewrite PropsReportUnits.sumR_scale. set (T := sumR (sortR l)).
  destruct (Req_EM_T (k * T) 0) as [E|E], (Req_EM_T T 0) as [E'|E']; try reflexivity.
  - exfalso. apply Rmult_integral in E. destruct E; [lra|contradiction].
  - exfalso. apply E. rewrite E'. ring.
  - replace (map (fun c => c / (k * T)) (cumsum 0 (map (Rmult k) (sortR l)))) with (map (fun c => c / T) (cumsum 0 (sortR l))); [reflexivity|].
    rewrite cumsum0_k, map_map. apply map_ext. intros c. field. lra.
Qed.
Lemma cells_k k g cy cx ny nx : cells (map (map (Rmult k)) g) cy cx ny nx = map (map (map (Rmult k))) (cells g cy cx ny nx).
Proof.
  unfold cells. induction (seq 0 ny) as [|i l IH]; [reflexivity|]. cbn [flat_map]. rewrite map_app, IH, map_map. f_equal. apply map_ext. intros j.
  unfold cell_block. rewrite skipn_map, firstn_map, !map_map. apply map_ext. intros r. rewrite skipn_map, firstn_map. reflexivity.
Qed.
Lemma gini_zeros l : l <> [] -> (forall x, In x l -> x = 0) -> gini_h l = None.
Proof.
  intros Ne Z0. unfold gini_h. rewrite sortR_length. destruct (Nat.eqb_spec (length l) 0) as [E|_]; [destruct l; [contradiction|discriminate]|].
  assert (S0 : forall m, (forall x, In x m -> x = 0) -> sumR m = 0).
  { induction m as [|x m IH]; intros H; [reflexivity|]. change (x + sumR m = 0). rewrite (H x (or_introl eq_refl)), IH; [ring|]. intros y Hy. apply H. right. exact Hy. }
  rewrite (S0 (sortR l)) by (intros x Hx; apply Z0; apply sortR_In, Hx). destruct (Req_EM_T 0 0) as [_|N]; [reflexivity|contradiction].
Qed.
Lemma bounded (l : list R) : exists b, 0 < b /\ forall x, In x l -> Rabs x <= b.
Proof.
  induction l as [|x l (b & B & H)]; [exists 1; split; [lra|intros x []]|]. exists (b + Rabs x). assert (P := Rabs_pos x). split; [lra|].
  intros y [<-|Hy]; [lra|]. specialize (H y Hy). lra.
Qed.
(** ... but the values are rounded to eight decimals whatever their unit: every sample that has a homogeneity has none (nan) when its heights, steps and period are
    expressed in a unit that is large enough, for every parameter that is a length. *)
Theorem C115_homogeneity_refuted : forall (param : string -> rgrid -> R) auto parameters p g ny nx sx sy,
  (forall q c k, 0 < k -> param q (map (map (Rmult k)) c) = k * param q c) ->
  parameters <> [] -> existsb is_disallowed parameters = false ->
  (0 < pytrunc (p / sx))%Z -> (0 < pytrunc (p / sy))%Z -> (Z.to_nat (pytrunc (p / sx)) <= nx)%nat -> (Z.to_nat (pytrunc (p / sy)) <= ny)%nat ->
  exists k0, 0 < k0 /\ forall k, 0 < k < k0 ->
    homogeneity param auto parameters (Some (k * p)) (map (map (Rmult k)) g) ny nx (k * sx) (k * sy) = Ok None.
Proof.
  intros param auto ps p g ny nx sx sy H Ne D X Y LX LY.
  set (cx := Z.to_nat (pytrunc (p / sx))) in *. set (cy := Z.to_nat (pytrunc (p / sy))) in *.
  set (cs := cells g cy cx (ny / cy) (nx / cx)).
  destruct (bounded (flat_map (fun q => map (param q) cs) ps)) as (b & B & Hb).
  exists (/ (4 * b * 10 ^ 8)). assert (P8 : 0 < 10 ^ 8) by (apply pow_lt; lra). assert (Q : 0 < 4 * b * 10 ^ 8) by (apply Rmult_lt_0_compat; lra).
  split; [apply Rinv_0_lt_compat, Q|]. intros k [K K0]. unfold homogeneity. rewrite D. cbn [rbind].
  assert (Rx : forall s, k * p / (k * s) = p / s).
  { intros s. unfold Rdiv. destruct (Req_EM_T s 0) as [->|Ns]; [rewrite Rmult_0_r, !Rinv_0; ring|]. field. split; lra. }
  rewrite !Rx. destruct (Z.leb_spec (pytrunc (p / sx)) 0) as [C|_]; [lia|]. destruct (Z.leb_spec (pytrunc (p / sy)) 0) as [C|_]; [lia|]. cbv zeta. fold cx cy.
  rewrite cells_k. fold cs. destruct ps as [|q ps]; [contradiction|]. cbn [map]. rewrite map_map.
  assert (Hc : cs <> []).
  { unfold cs, cells. assert (A : (1 <= ny / cy)%nat) by (apply Nat.div_le_lower_bound; subst cy; lia). assert (A' : (1 <= nx / cx)%nat) by (apply Nat.div_le_lower_bound; subst cx; lia).
    destruct (ny / cy)%nat as [|n]; [lia|]. destruct (nx / cx)%nat as [|m]; [lia|]. cbn. discriminate. }
  rewrite (gini_zeros (map _ cs)); [reflexivity|destruct cs; [contradiction|discriminate]|].
  intros x Hx. apply in_map_iff in Hx. destruct Hx as (c & <- & Hc'). rewrite (H q c k K). unfold npround.
  rewrite (pyround_near _ 0); [unfold Rdiv; ring|].
  assert (V : Rabs (param q c) <= b) by (apply Hb; cbn; apply in_or_app; left; apply in_map, Hc').
  replace (k * param q c * 10 ^ 8 - 0) with (k * 10 ^ 8 * param q c) by ring. rewrite !Rabs_mult, (Rabs_right k), (Rabs_right (10 ^ 8)) by lra.
  assert (W : k * (4 * b * 10 ^ 8) < 1).
  { apply (Rmult_lt_compat_r (4 * b * 10 ^ 8)) in K0; [|exact Q]. rewrite Rinv_l in K0 by lra. exact K0. }
  assert (V' : k * 10 ^ 8 * Rabs (param q c) <= k * 10 ^ 8 * b) by (apply Rmult_le_compat_l; [apply Rmult_le_pos; lra|exact V]). lra.
Qed.

(** *** A concrete case: the homogeneity of the arithmetical mean height *)
Definition Sa_of (q : string) (c : rgrid) : R := match height_parameters (concat c) with Ok h => Sa h | Err _ => 0 end.
Lemma Sa_of_k q c k : 0 < k -> Sa_of q (map (map (Rmult k)) c) = k * Sa_of q c.
Proof.
  intros K. unfold Sa_of. rewrite <- concat_map. destruct (concat c) as [|x l] eqn:E; [cbn; ring|]. rewrite <- E in *.
  assert (Ne : concat c <> []) by (rewrite E; discriminate). destruct (proj2 (C22_defined (concat c)) Ne) as [h Eh].
  destruct (C23_scale (concat c) h k Ne ltac:(lra) Eh) as (h' & Eh' & A & _). change (map (Rmult k) (concat c)) with (map (fun x => k * x) (concat c)). rewrite Eh, Eh', A, Rabs_right by lra. reflexivity.
Qed.
Lemma Sa_block : Sa_of "Sa" (cell_block [[0; 2]; [0; 2]] 2 2 0 0) = 1.
Proof.
  unfold Sa_of. change (concat (cell_block [[0; 2]; [0; 2]] 2 2 0 0)) with [0; 2; 0; 2].
  assert (M : meanR [0; 2; 0; 2] = 1) by (unfold meanR; cbn; field).
  unfold height_parameters. rewrite M. cbv zeta. set (m := map (fun x => x - 1) [0; 2; 0; 2]).
  destruct (lmin_ex m) as [u ->]; [discriminate|]. destruct (lmax_ex m) as [v ->]; [discriminate|]. cbn [Sa].
  unfold m. cbn [map]. replace (0 - 1) with (-1) by ring. replace (2 - 1) with 1 by ring. rewrite (Rabs_left (-1)), Rabs_R1 by lra. cbn. field.
Qed.
Theorem C115_example : forall auto,
  stepheight (map Some [0; 4; 0; 4]) = Ok (Some 4) /\ stepheight (expressed 1000 (map Some [0; 4; 0; 4])) = Ok (Some (1000 * 4)) /\
  homogeneity Sa_of auto ["Sa"%string] (Some 2) [[0; 2]; [0; 2]] 2 2 1 1 = Ok (Some 1) /\
  exists k0, 0 < k0 /\ forall k, 0 < k < k0 ->
    homogeneity Sa_of auto ["Sa"%string] (Some (k * 2)) (map (map (Rmult k)) [[0; 2]; [0; 2]]) 2 2 (k * 1) (k * 1) = Ok None.
Proof.
  intros auto.
  assert (S4 : stepheight (map Some [0; 4; 0; 4]) = Ok (Some 4)).
  { destruct (C28_ideal [0; 4; 0; 4] 0 4) as [E _]; [lra|cbn; auto|cbn; auto| |rewrite E; do 2 f_equal; ring]. intros x [<-|[<-|[<-|[<-|[]]]]]; auto. }
  assert (E2 : pytrunc (2 / 1) = 2%Z) by (replace (2 / 1) with (IZR 2) by field; apply pytrunc_IZR).
  assert (A : existsb is_disallowed ["Sa"%string] = false) by reflexivity.
  split; [exact S4|]. split; [apply (C115_stepheight 1000 _ (Some 4)); [lra|exact S4]|]. split.
  - apply C26_equal_cells; try lra; try discriminate; unfold edge; rewrite ?E2; try (cbn; lia).
    + intros q [<-|[]] H. repeat (destruct H as [H|H]; [discriminate|]). destruct H.
    + intros q [<-|[]]. exists 1. split; [lra|]. intros c [<-|[]]. apply Sa_block.
  - apply C115_homogeneity_refuted; try reflexivity; try discriminate; rewrite ?E2; try (cbn; lia). intros; apply Sa_of_k; assumption.
Qed.
