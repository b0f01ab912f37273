(** C33, C35, C36: cases where the English claims fail, and non-vacuity examples. *)
From Coq Require Import String Reals List Bool Arith ZArith Lia Lra Permutation.
From Verif Require Import Base RList ModelMath ProofMath ModelHeights ProofHeights ModelParams ModelDetrend SpecDetrend ProofDetrend PropsDetrend ModelAfc ProofAfc PropsAfc.
Import ListNotations.
Local Open Scope R_scope.

Lemma measured_Some' d : measured (map Some d) = d.
Proof. induction d as [|x d IH]; cbn; [reflexivity|]. f_equal. exact IH. Qed.
Ltac sorted_tac := repeat (apply sorted_cons; [let y := fresh in let Hy := fresh in intros y Hy; cbn in Hy; intuition lra|]); apply sorted_nil.
(** with as many classes as points the curve is the sorted data, highest first *)
Lemma sorted_sortR l : sorted l -> sortR l = l.
Proof. intros H. apply sorted_unique; [apply sortR_sorted|exact H|apply Permutation_sym, sortR_perm]. Qed.
Lemma quantile_rank xs j : (2 <= length xs)%nat -> (j < length xs)%nat -> quantile xs (INR j / INR (length xs - 1)) = nth j (sortR xs) 0.
Proof.
  intros H2 Hj. assert (P : 0 < INR (length xs - 1)) by (apply lt_0_INR; lia). assert (P2 := pos_INR j).
  assert (L : INR j <= INR (length xs - 1)) by (apply le_INR; lia).
  rewrite quantile_interp.
  - replace (INR j / INR (length xs - 1) * (INR (length xs) - 1)) with (nth j (ranks (length xs)) 0).
    + apply interp1d_node; [rewrite ranks_length, sortR_length; reflexivity|apply ranks_NoDup|now rewrite ranks_length].
    + rewrite ranks_nth by exact Hj. replace (INR (length xs) - 1) with (INR (length xs - 1)) by (rewrite minus_INR by lia; reflexivity). field. lra.
  - intros ->. cbn in H2. lia.
  - split; [apply Rmult_le_pos; [lra|left; apply Rinv_0_lt_compat, P]|]. apply Rmult_le_reg_r with (INR (length xs - 1)); [exact P|]. unfold Rdiv. rewrite Rmult_assoc, Rinv_l by lra. lra.
Qed.
Lemma Hi_rank d i : sorted d -> (2 <= length d)%nat -> (i < length d)%nat -> Hi (length d) d i = nth (length d - 1 - i) d 0.
Proof.
  intros S H2 Hi'. unfold Hi, Mi. assert (P : 0 < INR (length d - 1)) by (apply lt_0_INR; lia).
  replace (INR (length d) - 1) with (INR (length d - 1)) by (rewrite minus_INR by lia; reflexivity).
  replace (1 - (0 + (100 - 0) * INR i / INR (length d - 1)) / 100) with (INR (length d - 1 - i) / INR (length d - 1)).
  - rewrite quantile_rank by lia. now rewrite sorted_sortR.
  - rewrite (minus_INR (length d - 1) i) by lia. field. lra.
Qed.

(** Smr can increase with the height, and report 50 % below the lowest point (where all material is above). *)
Theorem C36_monotone_refuted : exists ord data a, sorter_ok ord /\ (forall polyfit, lsq_contract polyfit -> exists a', afc_init polyfit 3 data = Ok a' /\ a_curve a' = a_curve a) /\
  ~ In None data /\ mr ord (a_curve a) (-1) = 50 /\ mr ord (a_curve a) 0 = 100 /\ nanmin data = Some 0.
Proof.
  pose (d := [0; 0; 1]).
  assert (S : sorted d) by (unfold d; sorted_tac).
  exists sort_pts, (map Some d), (mkAfc (material_curve 3 d) 0 0 0 0 d). split; [apply sort_pts_sorter|]. split.
  { intros polyfit _. destruct (proj2 (C32_defined polyfit 3 (map Some d))) as [a' E]; [repeat split; [lia|discriminate|intros X; apply in_map_iff in X as (? & ? & _); discriminate]|].
    exists a'. split; [exact E|]. destruct (init_inv _ _ _ _ E) as (d' & Ed & _ & _ & _ & Ec & _). cbn [a_curve].
    assert (d = d') by (revert Ed; clear; revert d'; induction d as [|x l IH]; intros [|y l'] E; try discriminate; [reflexivity|]; cbn in E; injection E as -> E; f_equal; auto). subst d'. exact Ec. }
  split; [intros X; apply in_map_iff in X as (? & ? & _); discriminate|].
  assert (C : material_curve 3 d = [(0, 1); (50, 0); (100, 0)]).
  { rewrite c_eq. cbn [seq map]. rewrite !(Hi_rank d) by (auto; cbn; lia). unfold Mi, d. cbn. repeat f_equal; try lra. }
  cbn [a_curve]. rewrite C. unfold mr. cbn [map fst snd sort_pts insert_pt].
  destruct (Rle_dec 0 0) as [L0|]; [|lra]. destruct (Rle_dec 0 100) as [L1|]; [|lra]. cbn [insert_pt fst].
  destruct (Rle_dec 1 0) as [|L2]; [lra|]. cbn [insert_pt]. cbn [interp]. split; [|split].
  - destruct (Rlt_dec (-1) 0) as [|]; [|lra]. destruct (Rle_dec (-1) 0); [reflexivity|lra].
  - destruct (Rlt_dec 0 0); [lra|]. destruct (Rlt_dec 0 1); [|lra]. destruct (Rle_dec 0 0); [reflexivity|lra].
  - unfold nanmin. rewrite measured_Some'. apply lmin_spec. split; [left; reflexivity|]. intros y Hy. cbn in Hy. intuition lra.
Qed.

(** A surface whose heights are uniformly distributed has the exact line as its curve; Smr1 is 0 and Spk is 0/0 (NaN)
    instead of 0, and likewise Svk. *)
Lemma quantile_01 q : 0 <= q <= 1 -> quantile [0; 1] q = q.
Proof.
  intros H. unfold quantile. rewrite sorted_sortR by sorted_tac. cbn [length].
  replace (q * (INR 2 - 1)) with q by (cbn; lra).
  destruct (virtual_floor q 1) as (k & -> & Hk & B); [cbn; lra|]. assert (K : k = 0%nat \/ k = 1%nat) by lia. destruct K as [-> | ->]; cbn in *; lra.
Qed.
Lemma Hi_01 n i : (2 <= n)%nat -> (i < n)%nat -> Hi n [0; 1] i = 1 - Mi n i / 100.
Proof. intros Hn H. unfold Hi. assert (R := Mi_range n Hn i H). apply quantile_01. lra. Qed.
Lemma region_info polyfit n data a : lsq_contract polyfit -> (4 <= n)%nat -> afc_init polyfit n data = Ok a ->
  exists d, data = map Some d /\ a_curve a = material_curve n d /\ (S (a_start a) < a_end a <= n)%nat /\ exists region sol,
    region = firstn (a_end a - a_start a) (skipn (a_start a) (material_curve n d)) /\
    (forall p, In p region <-> exists k, (a_start a <= k < a_end a)%nat /\ p = (Mi n k, Hi n d k)) /\
    least_squares 2 (map (fun p => [fst p; 1]) region) (map snd region) sol /\ a_slope a = nth 0 sol 0 /\ a_intercept a = nth 1 sol 0.
Proof.
  intros HP Hn E. assert (Hn2 : (2 <= n)%nat) by lia.
  destruct (C33_central_region _ _ _ _ Hn2 E) as (A1 & A2 & A3 & _ & _ & A6).
  destruct (init_inv _ _ _ _ E) as (d & Ed & Hd & Em & _ & Ec & C & Ee & Sl & In0). cbv zeta in Sl, In0.
  exists d. split; [exact Ed|]. split; [exact Ec|]. rewrite Ec in A2, A3, A6. rewrite !c_nth in A2, A3 by exact A1. cbn [fst] in A2, A3.
  assert (S1 : (S (a_start a) < n)%nat).
  { destruct (Nat.eq_dec (a_start a) (n - 1)) as [X|X]; [|lia]. rewrite X in A3. rewrite (Mi_last n Hn2) in A3. lra. }
  assert (Np := n1pos n Hn2). assert (N3 : 3 <= INR n - 1) by (rewrite (n1 n Hn2); replace 3 with (INR 3) by (cbn; lra); apply le_INR; lia).
  assert (X1 := proj2 (A6 (S (a_start a)) S1)). rewrite !c_nth in X1 by lia. cbn [fst] in X1.
  assert (Step : Mi n (S (a_start a)) <= Mi n (a_start a) + 40).
  { unfold Mi. rewrite S_INR. apply Rmult_le_reg_r with (INR n - 1); [lra|]. field_simplify; [|lra|lra]. lra. }
  specialize (X1 (conj (Mi_le n Hn2 (a_start a) (S (a_start a)) ltac:(lia)) Step)).
  assert (Je : (a_end a <= n)%nat) by (rewrite Ee; assert (Y := searchsorted_le (map fst (material_curve n d)) (nth (a_start a) (map fst (material_curve n d)) 0 + 40)); rewrite map_length, c_length in Y; exact Y).
  split; [lia|]. eexists. eexists. split; [reflexivity|].
  assert (NE : forall k, (k < n)%nat -> nth_error (material_curve n d) k = Some (Mi n k, Hi n d k)).
  { intros k Hk. rewrite (nth_error_nth' _ (0, 0)) by (rewrite c_length; exact Hk). now rewrite c_nth. }
  set (region := firstn (a_end a - a_start a) (skipn (a_start a) (material_curve n d))) in *.
  assert (Reg : forall p, In p region <-> exists k, (a_start a <= k < a_end a)%nat /\ p = (Mi n k, Hi n d k)).
  { intros p. unfold region. rewrite region_In by (rewrite c_length; lia). split; intros (k & Hk & X); exists k; (split; [exact Hk|]).
    - rewrite NE in X by lia. congruence.
    - rewrite NE by lia. congruence. }
  split; [exact Reg|]. split; [|split; [exact Sl|exact In0]]. apply HP.
  - intros X. apply map_eq_nil in X. assert (Y : In (Mi n (a_start a), Hi n d (a_start a)) region) by (apply Reg; exists (a_start a); split; [lia|reflexivity]). unfold region in Y; rewrite X in Y. destruct Y.
  - intros r Hr. apply in_map_iff in Hr as (p & <- & _). reflexivity.
  - now rewrite !map_length.
Qed.
Lemma map_Some_inj (d d' : list R) : map Some d = map Some d' -> d = d'.
Proof. revert d'. induction d as [|x l IH]; intros [|y l'] E; try discriminate; [reflexivity|]. cbn in E. injection E as -> E. f_equal. auto. Qed.
Theorem C35_total_refuted : exists data, ~ In None data /\ forall polyfit ord n, lsq_contract polyfit -> sorter_ok ord -> (4 <= n)%nat ->
  exists a, afc_init polyfit n data = Ok a /\ pk ord a = None /\ vk ord a = None.
Proof.
  exists (map Some [0; 1]). split; [intros X; apply in_map_iff in X as (? & ? & _); discriminate|]. intros polyfit ord n HP Ho Hn.
  assert (Hn2 : (2 <= n)%nat) by lia.
  destruct (proj2 (C32_defined polyfit n (map Some [0; 1]))) as [a E]; [repeat split; [lia|discriminate|intros X; apply in_map_iff in X as (? & ? & _); discriminate]|].
  exists a. split; [exact E|].
  destruct (region_info _ _ _ _ HP Hn E) as (d & Ed & Ec & Hse & region & sol & _ & Reg & [Ls Min] & Sl & Ic). apply map_Some_inj in Ed. subst d.
  destruct sol as [|s [|b [|? ?]]]; try discriminate Ls. cbn [nth] in Sl, Ic.
  assert (Z := Min [- (1 / 100); 1] eq_refl). rewrite !(rss_T region (fun p : R * R => [fst p; 1])) in Z. unfold rssT in Z.
  assert (V : forall p, In p region -> snd p = 1 - fst p / 100).
  { intros p Hp. apply Reg in Hp as (k & Hk & ->). cbn. apply Hi_01; lia. }
  rewrite (sumR_ext (fun p : R * R => (snd p - dot [fst p; 1] [- (1 / 100); 1]) ^ 2) (fun _ => 0)) in Z.
  2:{ intros p Hp. rewrite (V p Hp). unfold dot. cbn. field. }
  rewrite sumR_map_const, Rmult_0_r in Z.
  assert (P0 : forall x, In x (map (fun p : R * R => (snd p - dot [fst p; 1] [s; b]) ^ 2) region) -> 0 <= x) by (intros x Hx; apply in_map_iff in Hx as (p & <- & _); apply pow2_ge_0).
  assert (Z0 : sumR (map (fun p : R * R => (snd p - dot [fst p; 1] [s; b]) ^ 2) region) = 0) by (apply Rle_antisym; [exact Z|apply sumR_nonneg, P0]).
  assert (Q : forall k, (a_start a <= k < a_end a)%nat -> 1 - Mi n k / 100 = s * Mi n k + b).
  { intros k Hk. assert (Ip : In (Mi n k, Hi n [0; 1] k) region) by (apply Reg; eauto).
    assert (X := sumR_zero _ P0 Z0 _ (in_map (fun p : R * R => (snd p - dot [fst p; 1] [s; b]) ^ 2) _ _ Ip)). cbn [fst snd] in X. rewrite (Hi_01 n k Hn2 ltac:(lia)) in X.
    unfold dot in X. cbn in X. nra. }
  assert (Q1 := Q (a_start a) ltac:(lia)). assert (Q2 := Q (S (a_start a)) ltac:(lia)). assert (Lt := Mi_lt n Hn2 (a_start a) (S (a_start a)) ltac:(lia)).
  assert (Es : s = - (1 / 100)).
  { assert (T : (s + 1 / 100) * (Mi n (S (a_start a)) - Mi n (a_start a)) = 0) by lra. apply Rmult_integral in T. lra. }
  assert (Eb : b = 1) by (rewrite Es in Q1; lra).
  assert (Nd : NoDup (map Some [0; 1])) by (constructor; [cbn; intros [X|[]]; injection X; lra|constructor; [intros []|constructor]]).
  assert (Inv := fun p Hp => C36_inverse_partial polyfit ord n _ a p Ho Hn2 Nd (le_n 2) E Hp).
  destruct (C32_ends polyfit n _ a 0 1 Hn2 E) as [E0 E1]; [split; cbn; intuition lra|split; cbn; intuition lra|].
  split; apply C35_defined; unfold mr1, mr2, yupper, ylower.
  - rewrite Ic, Eb, <- E0. apply Inv. lra.
  - rewrite Ic, Eb, Sl, Es. replace (- (1 / 100) * 100 + 1) with 0 by lra. rewrite <- E1. apply Inv. lra.
Qed.

(** With points of equal height, Smr1 can exceed Smr2: a plateau slightly narrower than the 40 % window between steep
    flanks.  (Ties are kept in array order here; numpy promises no particular order.) *)
Definition plateau : list R := [-600; -500; -400; -300; -200; -100; 0; 0; 0; 0; 0; 0; 0; 0; 1; 11; 21; 31; 41; 51; 61].
Definition plateau_curve : list (R * R) :=
  [(0, 61); (5, 51); (10, 41); (15, 31); (20, 21); (25, 11); (30, 1); (35, 0); (40, 0); (45, 0); (50, 0); (55, 0); (60, 0); (65, 0); (70, 0);
   (75, -100); (80, -200); (85, -300); (90, -400); (95, -500); (100, -600)].
Lemma Mi_21 i : Mi 21 i = 5 * INR i. Proof. unfold Mi. cbn [INR]. field. Qed.
Lemma plateau_sorted : sorted plateau. Proof. unfold plateau. sorted_tac. Qed.
Lemma Hi_plateau i : (i < 21)%nat -> Hi 21 plateau i = nth (20 - i) plateau 0.
Proof. intros H. exact (Hi_rank plateau i plateau_sorted ltac:(cbn; lia) H). Qed.
Lemma plateau_curve_eq : material_curve 21 plateau = plateau_curve.
Proof.
  rewrite c_eq. rewrite (map_ext_in _ (fun i => (5 * INR i, nth (20 - i) plateau 0))).
  2:{ intros i Hi'. apply in_seq in Hi'. rewrite Mi_21, Hi_plateau by lia. reflexivity. }
  unfold plateau_curve, plateau. cbn [seq map nth Nat.sub INR]. repeat (apply (f_equal2 (@cons (R * R))); [f_equal; lra|]). reflexivity.
Qed.
Ltac rle_step := match goal with |- context [Rle_dec ?a ?b] =>
  let X := fresh in destruct (Rle_dec a b) as [X|X]; [first [exfalso; lra|clear X]|first [exfalso; lra|clear X]]; cbn [insert_pt fst] end.
Lemma plateau_sort : sort_pts (map (fun p => (snd p, fst p)) plateau_curve) =
  [(-600, 100); (-500, 95); (-400, 90); (-300, 85); (-200, 80); (-100, 75); (0, 35); (0, 40); (0, 45); (0, 50); (0, 55); (0, 60); (0, 65); (0, 70);
   (1, 30); (11, 25); (21, 20); (31, 15); (41, 10); (51, 5); (61, 0)].
Proof. unfold plateau_curve. cbn [map fst snd sort_pts insert_pt]. repeat rle_step. reflexivity. Qed.
Lemma lt_cases n (P : nat -> Prop) : (forall k, (k < n)%nat -> P k) <-> Forall P (seq 0 n).
Proof. rewrite Forall_forall. split; intros H k Hk; apply H; [apply in_seq in Hk; lia|apply in_seq; lia]. Qed.
Theorem C33_ratio_order_refuted : exists ord data, sorter_ok ord /\ ~ In None data /\
  forall polyfit, lsq_contract polyfit -> exists a, afc_init polyfit 21 data = Ok a /\ mr2 ord a < mr1 ord a.
Proof.
  exists sort_pts, (map Some plateau). split; [apply sort_pts_sorter|]. split; [intros X; apply in_map_iff in X as (? & ? & _); discriminate|]. intros polyfit HP.
  destruct (proj2 (C32_defined polyfit 21 (map Some plateau))) as [a E]; [repeat split; [lia|discriminate|intros X; apply in_map_iff in X as (? & ? & _); discriminate]|].
  exists a. split; [exact E|]. assert (Hn2 : (2 <= 21)%nat) by lia.
  destruct (region_info polyfit 21 _ a HP ltac:(lia) E) as (d & Ed & Ec & Hse & region & sol & Er & Reg & LS & Sl & Ic). apply map_Some_inj in Ed. subst d.
  destruct (C33_central_region _ _ _ _ Hn2 E) as (A1 & _ & A3 & A4 & _ & A6). rewrite Ec in A3, A4, A6.
  assert (Grad : forall i, (i < 13)%nat -> mc (material_curve 21 plateau) (fst (nth i (material_curve 21 plateau) (0, 0)) + 40) = nth (12 - i) plateau 0).
  { intros i Hi'. rewrite c_nth by lia. cbn [fst]. rewrite Mi_21. replace (5 * INR i + 40) with (Mi 21 (i + 8)) by (rewrite Mi_21, plus_INR; cbn; lra).
    rewrite (mc_node 21 plateau Hn2) by lia. rewrite Hi_plateau by lia. f_equal. lia. }
  assert (Nth : forall i, (i < 21)%nat -> nth i (material_curve 21 plateau) (0, 0) = (5 * INR i, nth (20 - i) plateau 0)).
  { intros i Hi'. rewrite c_nth by lia. now rewrite Mi_21, Hi_plateau. }
  rewrite Nth in A3 by lia. cbn [fst] in A3.
  assert (S13 : (a_start a < 13)%nat) by (apply INR_lt; cbn [INR]; lra).
  assert (St : a_start a = 6%nat).
  { specialize (A4 6%nat ltac:(lia)). rewrite (Grad (a_start a) S13) in A4. rewrite (Grad 6%nat) in A4 by lia. rewrite !Nth in A4 by lia. cbn [fst snd] in A4.
    specialize (A4 ltac:(cbn [INR]; lra)).
    revert S13 A4. generalize (a_start a) as k. intros k. clear. intros Hk A4.
    do 13 (destruct k as [|k]; [first [reflexivity|exfalso; unfold plateau in A4; cbn in A4; lra]|]). lia. }
  assert (En : a_end a = 15%nat).
  { assert (X14 := proj2 (A6 14%nat ltac:(lia))). assert (X15 := A6 15%nat). rewrite St in *. rewrite !Nth in X14, X15 by lia. cbn [fst INR] in X14, X15.
    specialize (X14 ltac:(lra)). destruct (le_lt_dec (a_end a) 15) as [|G]; [lia|]. specialize (X15 ltac:(lia)). exfalso. destruct X15 as [X15 _]. specialize (X15 ltac:(lia)). lra. }
  rewrite St, En in Er. cbn [Nat.sub] in Er. rewrite plateau_curve_eq in Er. unfold plateau_curve in Er. cbn [skipn firstn] in Er.
  assert (O := min_orth region (fun p : R * R => [fst p; 1]) 2 (fun _ => eq_refl) snd sol LS). unfold orth in O.
  destruct LS as [Ls _]. destruct sol as [|s [|b [|? ?]]]; try discriminate Ls. cbn [nth] in Sl, Ic.
  assert (O1 := O [1; 0] eq_refl). assert (O2 := O [0; 1] eq_refl). rewrite Er in O1, O2. unfold dot in O1, O2. cbn in O1, O2.
  assert (Es : s = - (1 / 75)) by lra. assert (Eb : b = 7 / 9) by lra.
  unfold mr1, mr2, mr. rewrite Ec, plateau_curve_eq, plateau_sort. unfold yupper, ylower. rewrite Sl, Ic, Es, Eb.
  cbn [interp]. replace (- (1 / 75) * 100 + 7 / 9) with (- (5 / 9)) by lra.
  repeat match goal with |- context [Rlt_dec ?x ?y] => let X := fresh in destruct (Rlt_dec x y) as [X|X]; [first [exfalso; lra|clear X]|first [exfalso; lra|clear X]] end.
  repeat match goal with |- context [Rle_dec ?x ?y] => let X := fresh in destruct (Rle_dec x y) as [X|X]; [first [exfalso; lra|clear X]|first [exfalso; lra|clear X]] end.
  lra.
Qed.
Theorem C33_example : forall polyfit, exists a, afc_init polyfit 10000 [Some 0; Some 3; Some 1; Some 7] = Ok a.
Proof. intros polyfit. apply C32_defined. split; [|split; [discriminate|]]; [|cbn; intuition discriminate]. apply Nat.leb_le. reflexivity. Qed.
