(** C91: the plots of the Abbott curve. *)
From Coq Require Import String Reals List Bool Arith ZArith Lia Lra.
From Verif Require Import Base RList ModelMath ModelHeights ModelParams ModelDetrend ModelStep ModelAfc ModelAbbottPlot ProofHeights ProofParams ProofStep ProofAfc PropsAfc.
Import ListNotations.
Local Open Scope R_scope.

Section Bars.
Context (n : nat) (lo hi : R) (Hn : (1 <= n)%nat) (D : lo < hi).
Notation t := ((hi - lo) / INR n).
Lemma n_pos : 0 < INR n.
Proof. apply lt_0_INR. lia. Qed.
Lemma bin_ge x b : (b <= n - 1)%nat -> lo <= x <= hi -> ((b <= hist_bin n lo hi x)%nat <-> lo + INR b * t <= x).
Proof.
  intros Hb Hx. assert (P := n_pos). unfold hist_bin. set (v := (x - lo) / (hi - lo) * INR n).
  assert (V0 : 0 <= v) by (unfold v; apply Rmult_le_pos; [apply Rmult_le_pos; [lra|left; apply Rinv_0_lt_compat; lra]|lra]).
  destruct (base_Int_part v) as [I1 I2]. assert (Z0 : (0 <= Int_part v)%Z) by (apply Z.lt_succ_r, lt_IZR; rewrite succ_IZR; lra).
  assert (E : lo + INR b * t <= x <-> INR b <= v).
  { assert (X : x = lo + v * t) by (unfold v; field; lra). assert (T : 0 < t) by (apply Rdiv_lt_0_compat; lra). split; intros H.
    - apply Rmult_le_reg_r with t; [exact T|lra].
    - rewrite X. apply Rplus_le_compat_l, Rmult_le_compat_r; lra. }
  rewrite E. split; intros H.
  - apply Rle_trans with (IZR (Int_part v)); [|exact I1]. rewrite INR_IZR_INZ. apply IZR_le. lia.
  - assert (Z.of_nat b < Int_part v + 1)%Z by (apply lt_IZR; rewrite plus_IZR, <- INR_IZR_INZ; lra). lia.
Qed.
End Bars.
(** how many of the points satisfy a condition, in % *)
Definition share (p : R -> bool) (d : list R) : R := 100 * INR (length (List.filter p d)) / INR (length d).
Lemma counts_sum n lo hi d a m : (a + m <= n)%nat -> sumR (firstn m (skipn a (counts n lo hi d))) = INR (length (List.filter (fun x => Nat.leb a (hist_bin n lo hi x) && Nat.ltb (hist_bin n lo hi x) (a + m)) d)).
Proof.
  intros H. replace (counts n lo hi d) with (map (fun b => cnt_at (hist_bin n lo hi) d b * 1) (seq 0 n)) by (unfold counts; apply map_ext; intros; unfold cnt_at; ring).
  rewrite skipn_map, firstn_map, skipn_seq', firstn_seq' by lia. rewrite (bins_sum _ (fun _ => 1)). rewrite sumR_map_const. cbn [Nat.add]. ring.
Qed.
Lemma counts_size n lo hi d : length (counts n lo hi d) = n.
Proof. unfold counts. rewrite map_length. apply seq_length. Qed.
(** the points in the upper bins *)
Lemma upper_counts n lo hi d k : (1 <= n)%nat -> (k <= n)%nat -> sumR (firstn k (rev (counts n lo hi d))) = INR (length (List.filter (fun x => Nat.leb (n - k) (hist_bin n lo hi x)) d)).
Proof.
  intros Hn Hk. rewrite firstn_rev, counts_size, sumR_rev. rewrite <- (firstn_all (skipn (n - k) (counts n lo hi d))). rewrite skipn_length, counts_size, counts_sum by lia.
  do 2 f_equal. apply filter_ext. intros x. replace (n - k + (n - (n - k)))%nat with n by lia. assert (B : (hist_bin n lo hi x < n)%nat) by (unfold hist_bin; lia).
  destruct (Nat.ltb_spec (hist_bin n lo hi x) n); [|lia]. apply andb_true_r.
Qed.
Lemma counts_nonneg n lo hi d x : In x (rev (counts n lo hi d)) -> 0 <= x.
Proof. intros H. apply in_rev in H. unfold counts in H. apply in_map_iff in H as (b & <- & _). apply pos_INR. Qed.
Lemma sum_nonneg l : (forall x, In x l -> 0 <= x) -> 0 <= sumR l.
Proof. induction l as [|a l IH]; intros H; [rewrite sumR_nil; lra|]. rewrite sumR_cons. pose proof (H a (or_introl eq_refl)). pose proof (IH (fun x Hx => H x (or_intror Hx))). lra. Qed.
Lemma cumsum_max l : l <> [] -> (forall x, In x l -> 0 <= x) -> lmax (cumsum 0 l) = Some (sumR l).
Proof.
  intros N P. apply lmax_spec. split.
  - assert (L : (length l - 1 < length (cumsum 0 l))%nat) by (rewrite cumsum_length; destruct l; [congruence|cbn [length]; lia]).
    pose proof (nth_In _ 0 L) as I0. rewrite cumsum_nth in I0 by (rewrite cumsum_length in L; exact L). rewrite Rplus_0_l in I0. rewrite firstn_all2 in I0 by lia. exact I0.
  - intros y H. destruct (In_nth _ _ 0 H) as (i & Hi & <-). rewrite cumsum_length in Hi. rewrite cumsum_nth by exact Hi. rewrite Rplus_0_l.
    rewrite <- (firstn_skipn (S i) l) at 2. rewrite sumR_app. assert (0 <= sumR (skipn (S i) l)); [|lra]. apply sum_nonneg. intros x Hx. apply P. rewrite <- (firstn_skipn (S i) l). apply in_or_app. right. exact Hx.
Qed.
Lemma firstn_S_sum l k : (k < length l)%nat -> sumR (firstn (S k) l) = sumR (firstn k l) + nth k l 0.
Proof.
  revert k. induction l as [|a l IH]; intros k H; [cbn in H; lia|]. destruct k as [|k]; [rewrite firstn_cons; cbn [firstn nth]; rewrite sumR_cons, !sumR_nil; lra|].
  rewrite !firstn_cons. cbn [nth]. rewrite !sumR_cons. cbn [length] in H. rewrite IH by lia. lra.
Qed.

Section Plot.
Context (n : nat) (d : list R) (lo hi : R) (Hn : (1 <= n)%nat) (Hlo : is_min lo d) (Hhi : is_max hi d) (D : lo < hi).
Notation t := ((hi - lo) / INR n).
Lemma range_of x : In x d -> lo <= x <= hi.
Proof. intros H. split; [apply Hlo, H|apply Hhi, H]. Qed.
Lemma N_pos : 0 < INR (length d).
Proof. destruct Hlo as [I0 _]. destruct d; [destruct I0|]. apply lt_0_INR. cbn [length]. lia. Qed.
Lemma bars_value : abbott_bars n d = Ok (map (fun k => mkBar (flipped_edge n lo hi k + (flipped_edge n lo hi (S k) - flipped_edge n lo hi k) / 2)
   (nth k (rev (counts n lo hi d)) 0 / INR (length d) * 100) t) (seq 0 n)).
Proof.
  unfold abbott_bars. destruct (Nat.eqb_spec n 0); [lia|]. rewrite (hist_range_eq d lo hi Hlo Hhi D). rewrite (proj2 (lmin_spec d lo) Hlo), (proj2 (lmax_spec d hi) Hhi).
  rewrite cumsum_max; [|intros E; apply (f_equal (@length R)) in E; rewrite rev_length, counts_size in E; cbn in E; lia|apply counts_nonneg].
  replace (sumR (rev (counts n lo hi d))) with (INR (length d)); [reflexivity|]. rewrite <- (firstn_all (rev (counts n lo hi d))), rev_length, counts_size, upper_counts by lia.
  rewrite Nat.sub_diag. do 2 f_equal. symmetry. apply filter_all. reflexivity.
Qed.
(** the points from the lower edge of bar k on *)
Lemma above_lower k : (k <= n)%nat -> (k <> 0)%nat -> List.filter (fun x => Nat.leb (n - k) (hist_bin n lo hi x)) d = List.filter (fun x => Rleb (hi - INR k * t) x) d.
Proof.
  intros Hk K0. apply filter_ext_in. intros x Hx. pose proof (bin_ge n lo hi Hn D x (n - k) ltac:(lia) (range_of x Hx)) as B. pose proof (n_pos n Hn) as Np.
  assert (E : lo + INR (n - k) * t = hi - INR k * t) by (rewrite minus_INR by exact Hk; field; lra). rewrite E in B.
  destruct (Nat.leb_spec (n - k) (hist_bin n lo hi x)) as [H|H]; symmetry.
  - apply Rleb_spec. apply B, H.
  - apply Rleb_false. destruct (Rlt_le_dec x (hi - INR k * t)) as [|C]; [assumption|]. apply B in C. lia.
Qed.
End Plot.
Lemma filter_none {A} (l : list A) : List.filter (fun _ => false) l = [].
Proof. induction l; auto. Qed.
Lemma filter_split (p q : R -> bool) d : INR (length (List.filter p d)) = INR (length (List.filter (fun x => p x && q x) d)) + INR (length (List.filter (fun x => p x && negb (q x)) d)).
Proof. induction d as [|x d IH]; [cbn; lra|]. cbn [List.filter]. destruct (p x), (q x); cbn [andb negb length]; rewrite ?S_INR; lra. Qed.
(** C91: the bars tile the range of heights from the top to the bottom, and each is as long as the share of the points between its
    edges (the upper edge belongs to the bar above, except at the very top). *)
Theorem C91_bars : forall n d lo hi, (1 <= n)%nat -> is_min lo d -> is_max hi d -> lo < hi ->
  let thickness := (hi - lo) / INR n in
  exists bars, abbott_bars n d = Ok bars /\ length bars = n /\
    forall k, (k < n)%nat -> exists b, nth_error bars k = Some b /\
      let top := hi - INR k * thickness in let bottom := hi - INR (S k) * thickness in
      b_thickness b = top - bottom /\ b_centre b = (top + bottom) / 2 /\
      b_length b = share (fun x => Rleb bottom x && (Nat.eqb k 0 || Rltb x top)) d.
Proof.
  intros n d lo hi Hn Hlo Hhi D thickness. rewrite (bars_value n d lo hi Hn Hlo Hhi D). eexists. split; [reflexivity|]. split; [rewrite map_length; apply seq_length|].
  intros k Hk. eexists. split; [rewrite nth_error_map, (nth_error_nth' _ 0%nat) by (rewrite seq_length; exact Hk); rewrite seq_nth by exact Hk; reflexivity|]. cbn [Nat.add b_thickness b_centre b_length]. cbv zeta.
  pose proof (n_pos n Hn) as Np. pose proof (N_pos n d lo hi Hn Hlo Hhi) as P. unfold thickness. rewrite S_INR. split; [lra|]. split.
  - unfold flipped_edge, bin_edge. rewrite !minus_INR by lia. rewrite S_INR. field. lra.
  - pose proof (firstn_S_sum (rev (counts n lo hi d)) k ltac:(rewrite rev_length, counts_size; exact Hk)) as F. rewrite !upper_counts in F by lia.
    rewrite (above_lower n d lo hi Hn Hlo Hhi D (S k)) in F by lia. rewrite S_INR in F.
    assert (U : nth k (rev (counts n lo hi d)) 0 = INR (length (List.filter (fun x => Rleb (hi - (INR k + 1) * ((hi - lo) / INR n)) x && (Nat.eqb k 0 || Rltb x (hi - INR k * ((hi - lo) / INR n)))) d))).
    { destruct (Nat.eqb_spec k 0) as [K0|K0].
      - assert (Z : List.filter (fun x => Nat.leb (n - k) (hist_bin n lo hi x)) d = []).
        { rewrite <- (filter_none d). apply filter_ext. intros x. apply Nat.leb_gt. unfold hist_bin. lia. }
        rewrite Z in F. cbn [length INR] in F. rewrite (filter_ext _ (fun x => Rleb (hi - (INR k + 1) * ((hi - lo) / INR n)) x)) by (intros x; cbn [orb]; apply andb_true_r). lra.
      - rewrite (above_lower n d lo hi Hn Hlo Hhi D k) in F by lia. cbn [orb].
        rewrite (filter_split _ (fun x => Rltb x (hi - INR k * ((hi - lo) / INR n))) d) in F.
        rewrite (filter_ext (fun x => Rleb (hi - (INR k + 1) * ((hi - lo) / INR n)) x && negb (Rltb x (hi - INR k * ((hi - lo) / INR n)))) (fun x => Rleb (hi - INR k * ((hi - lo) / INR n)) x)) in F; [lra|].
        intros x. assert (T : 0 < (hi - lo) / INR n) by (apply Rdiv_lt_0_compat; lra). destruct (Rltb x (hi - INR k * ((hi - lo) / INR n))) eqn:E; cbn [negb].
        + rewrite andb_false_r. symmetry. apply Rleb_false. apply Rltb_spec in E. exact E.
        + rewrite andb_true_r. apply Rltb_false in E. transitivity true; [apply Rleb_spec; lra|symmetry; apply Rleb_spec; exact E]. }
    rewrite U. unfold share. unfold Rdiv. ring.
Qed.
(** ... so the bars up to number k together show the share of the points from its lower edge on: the material ratio at that height;
    all of them together show 100 % *)
Theorem C91_cumulative : forall n d lo hi bars k, (1 <= n)%nat -> is_min lo d -> is_max hi d -> lo < hi -> abbott_bars n d = Ok bars -> (k < n)%nat ->
  sumR (map b_length (firstn (S k) bars)) = share (fun x => Rleb (hi - INR (S k) * ((hi - lo) / INR n)) x) d /\
  sumR (map b_length bars) = 100 /\ (forall b, In b bars -> 0 <= b_length b <= 100).
Proof.
  intros n d lo hi bars k Hn Hlo Hhi D E Hk. rewrite (bars_value n d lo hi Hn Hlo Hhi D) in E. injection E as <-. pose proof (N_pos n d lo hi Hn Hlo Hhi) as P.
  assert (S0 : forall m, (m <= n)%nat -> sumR (map b_length (firstn m (map (fun k => mkBar (flipped_edge n lo hi k + (flipped_edge n lo hi (S k) - flipped_edge n lo hi k) / 2)
    (nth k (rev (counts n lo hi d)) 0 / INR (length d) * 100) ((hi - lo) / INR n)) (seq 0 n)))) = 100 * sumR (firstn m (rev (counts n lo hi d))) / INR (length d)).
  { intros m Hm. rewrite firstn_map, map_map. cbn [b_length]. rewrite firstn_seq' by exact Hm. induction m as [|m IH].
    - cbn [seq map firstn]. rewrite !sumR_nil. unfold Rdiv. ring.
    - rewrite seq_S, map_app, sumR_app, IH by lia. cbn [map Nat.add]. rewrite sumR_cons, sumR_nil. rewrite firstn_S_sum by (rewrite rev_length, counts_size; lia). field. lra. }
  assert (Tot : sumR (firstn n (rev (counts n lo hi d))) = INR (length d)).
  { rewrite upper_counts by lia. rewrite Nat.sub_diag. do 2 f_equal. apply filter_all. reflexivity. }
  split; [|split].
  - rewrite S0 by lia. rewrite upper_counts, (above_lower n d lo hi Hn Hlo Hhi D) by lia. reflexivity.
  - specialize (S0 n (le_n n)). rewrite firstn_all2 in S0 by (rewrite map_length, seq_length; lia). rewrite S0, Tot. field. lra.
  - intros b Hb. apply in_map_iff in Hb as (j & <- & Hj). apply in_seq in Hj. cbn [b_length]. pose proof (firstn_S_sum (rev (counts n lo hi d)) j ltac:(rewrite rev_length, counts_size; lia)) as F.
    assert (Nn : forall m, 0 <= sumR (firstn m (rev (counts n lo hi d)))) by (intros m; apply sum_nonneg; intros x Hx; apply (counts_nonneg n lo hi d); rewrite <- (firstn_skipn m (rev (counts n lo hi d))); apply in_or_app; left; exact Hx).
    assert (Le : sumR (firstn (S j) (rev (counts n lo hi d))) <= INR (length d)).
    { rewrite <- (firstn_skipn (S j) (rev (counts n lo hi d))) in Tot. rewrite firstn_all2 in Tot by (rewrite firstn_skipn, rev_length, counts_size; lia). rewrite sumR_app in Tot.
      assert (0 <= sumR (skipn (S j) (rev (counts n lo hi d)))) by (apply sum_nonneg; intros x Hx; apply (counts_nonneg n lo hi d); rewrite <- (firstn_skipn (S j) (rev (counts n lo hi d))); apply in_or_app; right; exact Hx). lra. }
    assert (N0 : 0 <= nth j (rev (counts n lo hi d)) 0) by (apply (counts_nonneg n lo hi d), nth_In; rewrite rev_length, counts_size; lia). specialize (Nn j).
    split; [apply Rmult_le_pos; [apply Rmult_le_pos; [exact N0|left; apply Rinv_0_lt_compat; exact P]|lra]|].
    replace 100 with (1 * 100) at 2 by ring. apply Rmult_le_compat_r; [lra|]. apply Rmult_le_reg_r with (INR (length d)); [exact P|]. unfold Rdiv. rewrite Rmult_assoc, Rinv_l by lra. lra.
Qed.
(** the plot of a surface: the bars, and behind them the material ratio curve; refused for incomplete data and without bars *)
Theorem C91_plot : forall polyfit nbins n data f, abbott_plot polyfit nbins n data = Ok f ->
  (1 <= n)%nat /\ ~ In None data /\ abbott_bars n (measured data) = Ok (ab_bars f) /\ ab_curve f = material_curve nbins (measured data) /\ ab_xlim f = (0, 100) /\
  forall lo hi, is_min lo (measured data) -> is_max hi (measured data) -> ab_ylim f = (Some lo, Some hi).
Proof.
  intros polyfit nbins n data f H. unfold abbott_plot in H. destruct (afc_init polyfit nbins data) as [a|e] eqn:E; [|discriminate]. cbn [rbind] in H. destruct (abbott_bars n (a_data a)) as [bars|e] eqn:B; [|discriminate]. injection H as <-.
  destruct (init_inv _ _ _ _ E) as (d & Ed & Hd & Em & Ea & Ec & _). rewrite Em. cbn [ab_bars ab_curve ab_xlim ab_ylim]. rewrite Ea in B |- *. split; [|split; [|split; [|split; [|split]]]].
  - unfold abbott_bars in B. destruct (Nat.eqb_spec n 0); [discriminate|lia].
  - intros X. rewrite Ed in X. apply in_map_iff in X as (x & X & _). discriminate.
  - exact B.
  - exact Ec.
  - reflexivity.
  - intros lo hi L U. apply lmin_spec in L. apply lmax_spec in U. rewrite L, U. reflexivity.
Qed.
(** a plane surface: the only bar is not as thick as its bin but has no thickness at all *)
Theorem C91_flat_refuted : forall n z m, (1 <= n)%nat -> exists bars, abbott_bars n (repeat z (S m)) = Ok bars /\
  (forall b, In b bars -> b_thickness b = 0) /\ b_centre (nth 0 bars (mkBar 0 0 0)) = z + 1 / 2 - 1 / 2 * / INR n.
Proof.
  intros n z m Hn. assert (Lo : is_min z (repeat z (S m))) by (split; [left; reflexivity|intros y Hy; apply repeat_spec in Hy; lra]). assert (Hi : is_max z (repeat z (S m))) by (split; [left; reflexivity|intros y Hy; apply repeat_spec in Hy; lra]).
  unfold abbott_bars. destruct (Nat.eqb_spec n 0); [lia|]. unfold hist_range. rewrite (proj2 (lmin_spec _ z) Lo), (proj2 (lmax_spec _ z) Hi). destruct (Req_EM_T z z) as [_|X]; [|congruence].
  rewrite cumsum_max; [|intros E; apply (f_equal (@length R)) in E; rewrite rev_length, counts_size in E; cbn in E; lia|apply counts_nonneg]. eexists. split; [reflexivity|]. pose proof (n_pos n Hn) as P. split.
  - intros b Hb. apply in_map_iff in Hb as (j & <- & _). cbn [b_thickness]. unfold Rdiv. ring.
  - destruct n as [|n]; [lia|]. cbn [seq map nth b_centre]. unfold flipped_edge, bin_edge. rewrite Nat.sub_0_r. rewrite minus_INR by lia. rewrite S_INR in P. rewrite S_INR. cbn [INR]. field. lra.
Qed.
(** *** The parameter study *)
(** the area of a polygon, by the shoelace formula *)
Definition cross (p q : R * R) : R := fst p * snd q - fst q * snd p.
Definition polygon_area (l : list (R * R)) : R :=
  Rabs (sumR (map (fun pq => cross (fst pq) (snd pq)) (combine l (tl l ++ firstn 1 l))) / 2).
(** the line passes the two horizontals at 0 and 100 %, and the triangles have the areas of the peaks and dales they replace (Sak1, Sak2) *)
Theorem C91_study : forall polyfit ord nbins data f, sorter_ok ord -> (2 <= nbins)%nat -> parameter_study polyfit ord nbins data = Ok (Some f) ->
  exists a p v, afc_init polyfit nbins data = Ok a /\ pk ord a = Some p /\ vk ord a = Some v /\
    (forall x y, In (x, y) (st_line f) -> y = yupper a + (ylower a - yupper a) * x / 100) /\ hd_error (st_line f) = Some (0, yupper a) /\ last (st_line f) (0, 0) = (100, ylower a) /\
    polygon_area (st_peak f) = area_above (a_curve a) (idx_of (a_curve a) (yupper a)) /\ ak1 ord a = Some (polygon_area (st_peak f)) /\
    polygon_area (st_dale f) = area_below (a_curve a) (idx_of (a_curve a) (ylower a)) /\ ak2 ord a = Some (polygon_area (st_dale f)) /\
    (** the horizontals: the two ends of the core, the deepest dale and the highest peak of the replacing triangles *)
    st_horizontals f = [ylower a; yupper a; ylower a - v; yupper a + p] /\ (exists m, st_peak f = [(0, yupper a); (0, yupper a + p); (m, yupper a)]) /\ (exists m, st_dale f = [(100, ylower a); (100, ylower a - v); (m, ylower a)]) /\
    st_curve f = material_curve nbins (measured data).
Proof.
  intros polyfit ord nbins data f Ho Hn H. unfold parameter_study in H. destruct (afc_init polyfit nbins data) as [a|e] eqn:E; [|discriminate]. cbn [rbind] in H.
  destruct (pk ord a) as [p|] eqn:Ep; [|discriminate]. destruct (vk ord a) as [v|] eqn:Ev; [|discriminate]. assert (H' : f = mkStudy (map (fun x => (x, a_slope a * x + a_intercept a)) (linspace 0 100 10)) [(0, yupper a); (0, yupper a + p); (mr1 ord a, yupper a)]
           [(100, ylower a); (100, ylower a - v); (mr2 ord a, ylower a)] [ylower a; yupper a; ylower a - v; yupper a + p] (a_curve a)) by congruence.
  clear H. subst f. exists a, p, v. cbn [st_line st_peak st_dale st_curve st_horizontals].
  destruct (C33_ratios_range _ _ _ _ _ Ho Hn E) as [R1 R2]. destruct (C35_nonneg_partial _ _ _ _ _ p Ho Hn E) as [P0 _]. destruct (C35_nonneg_partial _ _ _ _ _ v Ho Hn E) as [_ V0]. specialize (P0 Ep). specialize (V0 Ev).
  destruct (C35_triangle_areas _ _ _ _ _ (1 / 2 * p * mr1 ord a) p Ho Hn E) as [T1 _]. destruct (C35_triangle_areas _ _ _ _ _ (1 / 2 * v * (100 - mr2 ord a)) v Ho Hn E) as [_ T2].
  assert (A1 : ak1 ord a = Some (1 / 2 * p * mr1 ord a)) by (unfold ak1; rewrite Ep; reflexivity). assert (A2 : ak2 ord a = Some (1 / 2 * v * (100 - mr2 ord a))) by (unfold ak2; rewrite Ev; reflexivity).
  destruct (T1 A1 Ep) as [_ T1']. destruct (T2 A2 Ev) as [_ T2'].
  assert (G1 : polygon_area [(0, yupper a); (0, yupper a + p); (mr1 ord a, yupper a)] = 1 / 2 * p * mr1 ord a).
  { unfold polygon_area, cross. cbn [tl firstn app combine map fst snd]. rewrite !sumR_cons, sumR_nil.
    replace ((0 * (yupper a + p) - 0 * yupper a + (0 * yupper a - mr1 ord a * (yupper a + p) + (mr1 ord a * yupper a - 0 * yupper a + 0))) / 2) with (- (1 / 2 * p * mr1 ord a)) by field.
    rewrite Rabs_Ropp. apply Rabs_pos_eq. apply Rmult_le_pos; lra. }
  assert (G2 : polygon_area [(100, ylower a); (100, ylower a - v); (mr2 ord a, ylower a)] = 1 / 2 * v * (100 - mr2 ord a)).
  { unfold polygon_area, cross. cbn [tl firstn app combine map fst snd]. rewrite !sumR_cons, sumR_nil.
    match goal with |- Rabs ?e = _ => replace e with (- (1 / 2 * v * (100 - mr2 ord a))) by field end.
    rewrite Rabs_Ropp. apply Rabs_pos_eq. apply Rmult_le_pos; lra. }
  destruct (init_inv _ _ _ _ E) as (d & Ed & Hd & Em & Ea & Ec & _).
  repeat match goal with |- _ /\ _ => split end; try reflexivity; try assumption.
  - intros x y Hx. apply in_map_iff in Hx as (u & Hu & _). injection Hu as <- <-. unfold ylower, yupper. field.
  - unfold linspace, yupper. cbn [seq map hd_error INR]. f_equal. f_equal; field.
  - unfold linspace, ylower. cbn [seq map last]. cbn [INR]. f_equal; field.
  - rewrite G1. exact T1'.
  - rewrite G1. exact A1.
  - rewrite G2. exact T2'.
  - rewrite G2. exact A2.
  - eexists. reflexivity.
  - eexists. reflexivity.
  - rewrite Em. exact Ec.
Qed.
