(** C32-C36: the Abbott-Firestone curve and the functional parameters. *)
From Coq Require Import String Reals List Bool Arith ZArith Lia Lra Permutation.
From Verif Require Import Base RList ModelMath ProofMath ModelHeights ProofHeights ModelParams ModelDetrend SpecDetrend ProofDetrend PropsDetrend ModelAfc ProofAfc.
Import ListNotations.
Local Open Scope R_scope.

Lemma nth_skipn_g {A} (l : list A) i k dft : nth k (skipn i l) dft = nth (i + k) l dft.
Proof. revert l. induction i as [|i IH]; intros l; [reflexivity|]. destruct l; [destruct k; reflexivity|]. apply IH. Qed.
Lemma nth_firstn_g {A} (l : list A) i k dft : (k < i)%nat -> nth k (firstn i l) dft = nth k l dft.
Proof. revert l k. induction i as [|i IH]; intros l k H; [lia|]. destruct l; [reflexivity|]. destruct k; [reflexivity|]. cbn. apply IH. lia. Qed.
Lemma nth_error_skipn' {A} (l : list A) i k : nth_error (skipn i l) k = nth_error l (i + k).
Proof. revert l. induction i as [|i IH]; intros l; [reflexivity|]. destruct l; [destruct k; reflexivity|]. apply IH. Qed.
Lemma nth_error_firstn' {A} (l : list A) i k : (k < i)%nat -> nth_error (firstn i l) k = nth_error l k.
Proof. revert l k. induction i as [|i IH]; intros l k H; [lia|]. destruct l; [reflexivity|]. destruct k; [reflexivity|]. cbn. apply IH. lia. Qed.
Lemma init_inv polyfit n data a : afc_init polyfit n data = Ok a ->
  exists d, data = map Some d /\ d <> [] /\ measured data = d /\ a_data a = d /\ a_curve a = material_curve n d /\
    central (mc (material_curve n d)) (material_curve n d) 0 0 None = Ok (a_start a) /\
    a_end a = searchsorted_right (map fst (material_curve n d)) (nth (a_start a) (map fst (material_curve n d)) 0 + 40) /\
    let region := firstn (a_end a - a_start a) (skipn (a_start a) (material_curve n d)) in
    let sol := polyfit (map (fun p => [fst p; 1]) region) (map snd region) in
    a_slope a = nth 0 sol 0 /\ a_intercept a = nth 1 sol 0.
Proof.
  unfold afc_init. destruct (existsb is_nan data) eqn:M; [discriminate|]. apply measured_all in M.
  destruct (measured data) as [|x l] eqn:D; [discriminate|]. rewrite <- D in *. cbv zeta.
  destruct (central (mc (material_curve n (measured data))) (material_curve n (measured data)) 0 0 None) as [i0|e] eqn:C; cbn [rbind]; [|discriminate].
  intros E. injection E as <-. cbn [a_data a_curve a_start a_end a_slope a_intercept]. exists (measured data).
  repeat split; auto. rewrite D. discriminate.
Qed.

(** ** C32: the curve *)
Theorem C32_monotone : forall polyfit n data a p q, (2 <= n)%nat -> afc_init polyfit n data = Ok a -> p <= q ->
  mc (a_curve a) q <= mc (a_curve a) p.
Proof. intros polyfit n data a p q Hn E H. destruct (init_inv _ _ _ _ E) as (d & _ & Hd & _ & _ & -> & _). apply mc_anti; assumption. Qed.
Theorem C32_ends : forall polyfit n data a lo hi, (2 <= n)%nat -> afc_init polyfit n data = Ok a ->
  is_min lo (measured data) -> is_max hi (measured data) -> mc (a_curve a) 0 = hi /\ mc (a_curve a) 100 = lo.
Proof.
  intros polyfit n data a lo hi Hn E L U. destruct (init_inv _ _ _ _ E) as (d & _ & Hd & Em & _ & -> & _). rewrite Em in L, U. split.
  - rewrite (mc_left n d Hn 0) by lra. apply (Hi_first n d Hn), U.
  - rewrite (mc_right n d Hn 100) by lra. apply (Hi_last n d Hn), L.
Qed.
Theorem C32_clamped : forall polyfit n data a p, (2 <= n)%nat -> afc_init polyfit n data = Ok a ->
  (p <= 0 -> mc (a_curve a) p = mc (a_curve a) 0) /\ (100 <= p -> mc (a_curve a) p = mc (a_curve a) 100).
Proof.
  intros polyfit n data a p Hn E. destruct (init_inv _ _ _ _ E) as (d & _ & Hd & _ & _ & -> & _). split; intros H.
  - rewrite !(mc_left n d Hn) by lra. reflexivity.
  - rewrite !(mc_right n d Hn) by lra. reflexivity.
Qed.
Theorem C32_within_data : forall polyfit n data a lo hi p, (2 <= n)%nat -> afc_init polyfit n data = Ok a ->
  is_min lo (measured data) -> is_max hi (measured data) -> lo <= mc (a_curve a) p <= hi.
Proof.
  intros polyfit n data a lo hi p Hn E L U. destruct (C32_ends _ _ _ _ _ _ Hn E L U) as [<- <-]. destruct (C32_clamped _ _ _ _ p Hn E) as [A B].
  split.
  - destruct (Rle_dec p 100); [apply (C32_monotone _ _ _ _ _ _ Hn E); assumption|rewrite B by lra; lra].
  - destruct (Rle_dec 0 p); [apply (C32_monotone _ _ _ _ _ _ Hn E); assumption|rewrite A by lra; lra].
Qed.
(** the curve exists exactly for complete, non-empty data (and at least two classes) *)
Theorem C32_defined : forall polyfit n data, (exists a, afc_init polyfit n data = Ok a) <->
  (2 <= n)%nat /\ data <> [] /\ ~ In None data.
Proof.
  intros polyfit n data. split.
  - intros [a E]. destruct (init_inv _ _ _ _ E) as (d & -> & Hd & _ & _ & _ & C & _). split.
    + destruct n as [|[|n]]; [discriminate C| |lia]. exfalso. unfold material_curve, linspace in C. cbn in C.
      destruct Rlt_dec as [X|X]; [|discriminate C]. replace (0 + (100 - 0) * 0 / (1 - 1)) with 0 in X by (unfold Rdiv; ring). lra.
    + split; [intros X; apply map_eq_nil in X; contradiction|]. intros X. apply in_map_iff in X as (x & X & _). discriminate.
  - intros (Hn & Hne & Hc). unfold afc_init. destruct (existsb is_nan data) eqn:M.
    + exfalso. apply existsb_exists in M as ([x|] & Hx & X); [discriminate|contradiction].
    + apply measured_all in M. destruct (measured data) as [|x l] eqn:D; [exfalso; apply Hne; rewrite <- M; reflexivity|]. rewrite <- D. cbv zeta.
      destruct (central_ok (mc (material_curve n (measured data))) (material_curve n (measured data)) 0 0 None) as [r ->]; [|cbn [rbind]; eauto].
      exists (nth (n - 1) (material_curve n (measured data)) (0, 0)). split.
      * apply nth_In. rewrite c_length. lia.
      * rewrite c_nth by lia. cbn [fst]. rewrite (Mi_last n Hn). lra.
Qed.
Theorem C32_missing_rejected : forall polyfit n data, In None data -> afc_init polyfit n data = Err ValueError.
Proof.
  intros polyfit n data H. unfold afc_init. destruct (existsb is_nan data) eqn:M; [reflexivity|]. exfalso.
  assert (X : existsb is_nan data = true) by (apply existsb_exists; exists None; auto). congruence.
Qed.
(** meaning: at a sampled ratio p = 100 i/(n-1), at least p/100*(N-1) of the N points reach the height mc(p), and fewer
    than p/100*(N-1) + 1 points exceed it *)
Definition count (f : R -> bool) (l : list R) : nat := length (List.filter f l).
Lemma count_perm f l l' : Permutation l l' -> count f l = count f l'.
Proof.
  unfold count. induction 1 as [|x l l' P IH|x y l|l1 l2 l3 P1 IH1 P2 IH2]; [reflexivity| | |congruence].
  - cbn. destruct (f x); cbn; congruence.
  - cbn. destruct (f x), (f y); reflexivity.
Qed.
Lemma filter_all {A} (f : A -> bool) l : (forall x, In x l -> f x = true) -> List.filter f l = l.
Proof. induction l as [|x l IH]; intros H; [reflexivity|]. cbn. rewrite (H x (or_introl eq_refl)). f_equal. apply IH. intros y Hy. apply H. now right. Qed.
Lemma count_suffix_ge f (l : list R) k : (k <= length l)%nat -> (forall i, (k <= i < length l)%nat -> f (nth i l 0) = true) -> (length l - k <= count f l)%nat.
Proof.
  intros Hk H. unfold count. rewrite <- (firstn_skipn k l) at 2. rewrite filter_app, app_length.
  assert (E : List.filter f (skipn k l) = skipn k l).
  { apply filter_all. intros x Hx. destruct (In_nth _ _ 0 Hx) as (i & Hi & <-). rewrite skipn_length in Hi.
    rewrite nth_skipn_g. apply H. lia. }
  rewrite E, skipn_length. lia.
Qed.
Lemma filter_nil {A} (f : A -> bool) l : (forall x, In x l -> f x = false) -> List.filter f l = [].
Proof. induction l as [|x l IH]; intros H; [reflexivity|]. cbn. rewrite (H x (or_introl eq_refl)). apply IH. intros y Hy. apply H. now right. Qed.
Lemma filter_length_le {A} (f : A -> bool) l : (length (List.filter f l) <= length l)%nat.
Proof. induction l as [|x l IH]; cbn; [lia|]. destruct (f x); cbn; lia. Qed.
Lemma count_prefix_le f (l : list R) k : (k <= length l)%nat -> (forall i, (i < k)%nat -> f (nth i l 0) = false) -> (count f l <= length l - k)%nat.
Proof.
  intros Hk H. unfold count. rewrite <- (firstn_skipn k l) at 1. rewrite filter_app, app_length.
  rewrite (filter_nil f (firstn k l)).
  - cbn. assert (X := filter_length_le f (skipn k l)). rewrite skipn_length in X. exact X.
  - intros x Hx. destruct (In_nth _ _ 0 Hx) as (i & Hi & <-). rewrite firstn_length in Hi. rewrite nth_firstn_g by lia. apply H. lia.
Qed.
Theorem C32_is_material_ratio : forall polyfit n data a i, (2 <= n)%nat -> afc_init polyfit n data = Ok a -> (i < n)%nat ->
  let p := 100 * INR i / (INR n - 1) in
  let N := INR (length data) in
  p / 100 * (N - 1) <= INR (count (fun x => Rleb (mc (a_curve a) p) x) (measured data)) /\
  INR (count (fun x => Rltb (mc (a_curve a) p) x) (measured data)) < p / 100 * (N - 1) + 1.
Proof.
  intros polyfit n data a i Hn E Hi p N. destruct (init_inv _ _ _ _ E) as (d & Ed & Hd & Em & _ & -> & _). rewrite Em.
  assert (EN : N = INR (length d)) by (unfold N; rewrite Ed, map_length; reflexivity). rewrite EN. clear EN N.
  assert (Ep : p = Mi n i) by (unfold p, Mi; lra). assert (R := Mi_range n Hn i Hi). rewrite Ep.
  rewrite (mc_node n d Hn i Hi). unfold ProofAfc.Hi, quantile. rewrite sortR_length.
  assert (L1 : (1 <= length d)%nat) by (destruct d; [congruence|cbn; lia]).
  assert (L1' : INR (length d) - 1 = INR (length d - 1)) by (rewrite minus_INR by exact L1; reflexivity). rewrite L1'.
  assert (P0 := pos_INR (length d - 1)).
  assert (B : 0 <= (1 - Mi n i / 100) * INR (length d - 1) <= INR (length d - 1)).
  { split; [apply Rmult_le_pos; lra|]. rewrite <- (Rmult_1_l (INR (length d - 1))) at 2. apply Rmult_le_compat_r; lra. }
  destruct (virtual_floor _ _ B) as (k & -> & Hk & F). set (v := (1 - Mi n i / 100) * INR (length d - 1)) in *.
  assert (Ev : Mi n i / 100 * INR (length d - 1) = INR (length d - 1) - v) by (unfold v; ring). rewrite Ev.
  set (s := sortR d). set (a1 := nth k s 0). set (b1 := nth (Nat.min (S k) (length d - 1)) s 0).
  assert (Ls : length s = length d) by apply sortR_length.
  assert (Sab : a1 <= b1) by (apply sorted_nth; [apply sortR_sorted|fold s; lia]).
  assert (Z1 : a1 <= a1 + (v - INR k) * (b1 - a1)) by (assert (0 <= (v - INR k) * (b1 - a1)) by (apply Rmult_le_pos; lra); lra).
  assert (Z2 : a1 + (v - INR k) * (b1 - a1) <= b1) by (assert (0 <= (1 - (v - INR k)) * (b1 - a1)) by (apply Rmult_le_pos; lra); lra).
  rewrite !(count_perm _ _ _ (sortR_perm d)). fold s. split.
  - destruct (Nat.eq_dec k (length d - 1)) as [->|D].
    + apply Rle_trans with 0; [lra|apply pos_INR].
    + apply Rle_trans with (INR (length s - S k)).
      * rewrite Ls, !minus_INR by lia. rewrite (S_INR k). change (INR 1) with 1. lra.
      * apply le_INR, count_suffix_ge; [lia|]. intros j Hj. apply Rleb_spec. apply Rle_trans with b1; [exact Z2|].
        apply sorted_nth; [apply sortR_sorted|fold s; lia].
  - apply Rle_lt_trans with (INR (length s - S k)).
    + apply le_INR, count_prefix_le; [lia|]. intros j Hj. apply Rltb_false. apply Rle_trans with a1; [|exact Z1].
      apply sorted_nth; [apply sortR_sorted|fold s; lia].
    + rewrite Ls, !minus_INR by lia. rewrite (S_INR k). change (INR 1) with 1. lra.
Qed.

(** ** C33: core parameters *)
(** the 40 % window lies inside the curve, its secant is the least steep of all windows starting at a sample, and
    the first such; the fitted points are exactly those of the window *)
Theorem C33_central_region : forall polyfit n data a, (2 <= n)%nat -> afc_init polyfit n data = Ok a ->
  let M := fun i => fst (nth i (a_curve a) (0, 0)) in
  let grad := fun i => (mc (a_curve a) (M i + 40) - snd (nth i (a_curve a) (0, 0))) / 40 in
  (a_start a < n)%nat /\ 0 <= M (a_start a) /\ M (a_start a) + 40 <= 100 /\
  (forall i, (i < n)%nat -> M i + 40 <= 100 -> grad i <= grad (a_start a)) /\
  (forall i, (i < a_start a)%nat -> grad i < grad (a_start a)) /\
  (forall i, (i < n)%nat -> ((a_start a <= i < a_end a)%nat <-> M (a_start a) <= M i <= M (a_start a) + 40)).
Proof.
  intros polyfit n data a Hn E M grad. destruct (init_inv _ _ _ _ E) as (d & Ed & Hd & Em & _ & Ec & C & Ee & _).
  destruct (central_spec (mc (material_curve n d)) (material_curve n d) [] (material_curve n d) 0 None eq_refl) with (r := a_start a) as (stop & S1 & S2 & S3 & S4); auto.
  { intros p []. }
  unfold grad, M. rewrite !Ec. rewrite c_length in S1.
  assert (Sp : (0 < stop)%nat).
  { destruct stop as [|s]; [|lia]. rewrite c_nth in S2 by lia. cbn [fst] in S2. rewrite (Mi_0 n Hn) in S2. lra. }
  destruct S4 as [[X _]|(R1 & R2 & R3)]; [lia|].
  assert (Hs : (a_start a < n)%nat) by lia.
  assert (B := S3 _ R1). assert (B' := Mi_range n Hn _ Hs). rewrite c_nth in B |- * by exact Hs. cbn [fst snd] in *.
  split; [exact Hs|]. split; [lra|]. split; [lra|]. unfold secant in R2, R3.
  assert (Bef : forall i, (i < n)%nat -> Mi n i + 40 <= 100 -> (i < stop)%nat).
  { intros i Hi L. destruct (le_lt_dec stop i) as [G|G]; [|exact G]. exfalso. apply (Mi_le n Hn) in G. rewrite c_nth in S2 by lia. cbn [fst] in S2. lra. }
  split; [|split].
  - intros i Hi L. rewrite c_nth in L by exact Hi. cbn [fst] in L. specialize (R2 i (Bef i Hi L)). rewrite !c_nth in R2 by lia. rewrite c_nth by lia. exact R2.
  - intros i Hi. specialize (R3 i Hi). rewrite !c_nth in R3 by lia. rewrite c_nth by lia. exact R3.
  - intros i Hi. rewrite c_nth by exact Hi. cbn [fst]. rewrite Ee.
    assert (SS := searchsorted_spec (map fst (material_curve n d)) (nth (a_start a) (map fst (material_curve n d)) 0 + 40)).
    rewrite map_length, c_length in SS. rewrite <- (c_fst n d i Hi) at 2. rewrite <- (c_fst n d _ Hs) at 2. rewrite <- (SS ltac:(intros x y H; rewrite !c_fst by lia; apply (Mi_lt n Hn); lia) i Hi).
    split.
    + intros [A1 A2]. split; [apply (Mi_le n Hn), A1|exact A2].
    + intros [A1 A2]. split; [|exact A2]. destruct (le_lt_dec (a_start a) i) as [|G]; [assumption|]. apply (Mi_lt n Hn) in G. lra.
Qed.
Lemma region_nth {A} (l : list A) i j k dft : (i + k < j)%nat -> (j <= length l)%nat -> nth k (firstn (j - i) (skipn i l)) dft = nth (i + k) l dft.
Proof. intros H1 H2. rewrite nth_firstn_g by lia. apply nth_skipn_g. Qed.
Lemma region_In {A} (l : list A) i j p : (i <= j <= length l)%nat -> In p (firstn (j - i) (skipn i l)) <-> exists k, (i <= k < j)%nat /\ nth_error l k = Some p.
Proof.
  intros H. split.
  - intros Hp. apply In_nth_error in Hp as (k & Ek). assert (Hk : (k < length (firstn (j - i) (skipn i l)))%nat) by (apply nth_error_Some; congruence).
    rewrite firstn_length, skipn_length in Hk. exists (i + k)%nat. split; [lia|].
    rewrite nth_error_firstn' in Ek by lia. rewrite nth_error_skipn' in Ek. exact Ek.
  - intros (k & Hk & Ek). apply nth_error_In with (n := (k - i)%nat). rewrite nth_error_firstn' by lia. rewrite nth_error_skipn'. replace (i + (k - i))%nat with k by lia. exact Ek.
Qed.
Theorem C33_core_height_nonneg : forall polyfit n data a, lsq_contract polyfit -> (4 <= n)%nat -> afc_init polyfit n data = Ok a ->
  0 <= afc_k a /\ ylower a <= yupper a.
Proof.
  intros polyfit n data a HP Hn E. assert (Hn2 : (2 <= n)%nat) by lia.
  destruct (C33_central_region _ _ _ _ Hn2 E) as (A1 & A2 & A3 & _ & _ & A6).
  destruct (init_inv _ _ _ _ E) as (d & Ed & Hd & Em & _ & Ec & C & Ee & Sl & In0). cbv zeta in Sl.
  rewrite Ec in A2, A3, A6. rewrite !c_nth in A2, A3 by exact A1. cbn [fst] in A2, A3.
  assert (X0 := proj2 (A6 (a_start a) A1)). rewrite c_nth in X0 by exact A1. cbn [fst] in X0. specialize (X0 ltac:(lra)).
  assert (Np := n1pos n Hn2). assert (N3 : 3 <= INR n - 1) by (rewrite (n1 n Hn2); replace 3 with (INR 3) by (cbn; lra); apply le_INR; lia).
  assert (S1 : (S (a_start a) < n)%nat).
  { destruct (Nat.eq_dec (a_start a) (n - 1)) as [X|X]; [|lia]. rewrite X in A3. rewrite (Mi_last n Hn2) in A3. lra. }
  assert (X1 := proj2 (A6 (S (a_start a)) S1)). rewrite !c_nth in X1 by lia. cbn [fst] in X1.
  assert (Step : Mi n (S (a_start a)) <= Mi n (a_start a) + 40).
  { unfold Mi. rewrite S_INR. apply Rmult_le_reg_r with (INR n - 1); [lra|]. field_simplify; [|lra|lra]. lra. }
  specialize (X1 (conj (Mi_le n Hn2 (a_start a) (S (a_start a)) ltac:(lia)) Step)).
  assert (Je : (a_end a <= length (material_curve n d))%nat) by (rewrite Ee; assert (Y := searchsorted_le (map fst (material_curve n d)) (nth (a_start a) (map fst (material_curve n d)) 0 + 40)); rewrite map_length in Y; exact Y).
  set (region := firstn (a_end a - a_start a) (skipn (a_start a) (material_curve n d))) in *.
  assert (Reg : forall p, In p region <-> exists k, (a_start a <= k < a_end a)%nat /\ nth_error (material_curve n d) k = Some p).
  { intros p. apply region_In. lia. }
  assert (NE : forall k, (k < n)%nat -> nth_error (material_curve n d) k = Some (Mi n k, Hi n d k)).
  { intros k Hk. rewrite (nth_error_nth' _ (0, 0)) by (rewrite c_length; exact Hk). now rewrite c_nth. }
  rewrite c_length in Je.
  assert (LS : least_squares 2 (map (fun p => [fst p; 1]) region) (map snd region) (polyfit (map (fun p => [fst p; 1]) region) (map snd region))).
  { apply HP.
    - intros X. apply map_eq_nil in X. assert (Y : In (Mi n (a_start a), Hi n d (a_start a)) region) by (apply Reg; exists (a_start a); split; [lia|apply NE; lia]). rewrite X in Y. destruct Y.
    - intros r Hr. apply in_map_iff in Hr as (p & <- & _). reflexivity.
    - now rewrite !map_length. }
  assert (F : nth 0 (polyfit (map (fun p => [fst p; 1]) region) (map snd region)) 0 <= 0).
  { apply (fit_nonrising region); [| |exact LS].
    - exists (Mi n (a_start a), Hi n d (a_start a)), (Mi n (S (a_start a)), Hi n d (S (a_start a))).
      split; [apply Reg; exists (a_start a); split; [lia|apply NE; lia]|]. split; [apply Reg; exists (S (a_start a)); split; [lia|apply NE; lia]|].
      cbn [fst]. assert (Y := Mi_lt n Hn2 (a_start a) (S (a_start a)) ltac:(lia)). lra.
    - intros p q Hp Hq L. apply Reg in Hp as (i & Hi' & Ep). apply Reg in Hq as (j & Hj & Eq). rewrite NE in Ep by lia. rewrite NE in Eq by lia.
      injection Ep as <-. injection Eq as <-. cbn [fst snd] in *. apply (Hi_le n d Hn2 Hd). split; [|lia].
      destruct (le_lt_dec i j) as [|G]; [assumption|]. apply (Mi_lt n Hn2) in G. lra. }
  rewrite <- Sl in F. unfold afc_k, yupper, ylower. lra.
Qed.
Theorem C33_ratios_range : forall polyfit ord n data a, sorter_ok ord -> (2 <= n)%nat -> afc_init polyfit n data = Ok a ->
  0 <= mr1 ord a <= 100 /\ 0 <= mr2 ord a <= 100.
Proof.
  intros polyfit ord n data a Ho Hn E. destruct (init_inv _ _ _ _ E) as (d & _ & Hd & _ & _ & Ec & _). unfold mr1, mr2. rewrite Ec. split; apply mr_range; assumption.
Qed.
(** Smr1 <= Smr2 when no two points have the same height; see C33_ratio_order_refuted for the general case *)
Theorem C33_ratio_order_partial : forall polyfit ord n data a, lsq_contract polyfit -> sorter_ok ord -> (4 <= n)%nat ->
  NoDup data -> (2 <= length data)%nat -> afc_init polyfit n data = Ok a -> mr1 ord a <= mr2 ord a.
Proof.
  intros polyfit ord n data a HP Ho Hn N L E. destruct (C33_core_height_nonneg _ _ _ _ HP Hn E) as [_ K].
  destruct (init_inv _ _ _ _ E) as (d & -> & Hd & _ & _ & Ec & _). unfold mr1, mr2. rewrite Ec.
  apply mr_anti; auto; [lia|]. apply snd_NoDup; [lia| |now rewrite map_length in L]. apply NoDup_map_inv in N. exact N.
Qed.
Theorem C33_sdc : forall polyfit n data a p q, (2 <= n)%nat -> afc_init polyfit n data = Ok a ->
  dc a p q = sxp a p q /\ (p <= q -> 0 <= dc a p q) /\ dc a p p = 0 /\ forall r, dc a p q + dc a q r = dc a p r.
Proof.
  intros polyfit n data a p q Hn E. split; [reflexivity|]. split.
  - intros H. unfold dc. assert (X := C32_monotone _ _ _ _ _ _ Hn E H). lra.
  - unfold dc. split; [lra|]. intros r. lra.
Qed.

(** ** C34: volumes *)
Section Volumes.
Context (n : nat) (d : list R) (Hn : (2 <= n)%nat) (Hd : d <> []).
Let c := material_curve n d.
Definition up_pts := map (fun p : R * R => (snd p, fst p)) c.
Definition lo_pts := map (fun p : R * R => (snd p, 100 - fst p)) c.
Lemma nth_map_g (f : R * R -> R * R) l k : (k < length l)%nat -> nth k (map f l) (0, 0) = f (nth k l (0, 0)).
Proof. intros H. rewrite (nth_indep _ (0, 0) (f (0, 0))) by (rewrite map_length; exact H). apply map_nth. Qed.
Lemma down_of (l : list (R * R)) : (forall i, (S i < length l)%nat -> fst (nth (S i) l (0, 0)) <= fst (nth i l (0, 0))) -> down l.
Proof.
  induction l as [|p l IH]; intros H; [exact I|]. destruct l as [|q l]; [exact I|]. split.
  - apply (H 0%nat). cbn. lia.
  - apply IH. intros i Hi. apply (H (S i)). cbn in *. lia.
Qed.
Lemma up_down : down up_pts.
Proof.
  apply down_of. unfold up_pts. rewrite map_length. unfold c. rewrite c_length. intros i Hi.
  rewrite !nth_map_g by (rewrite c_length; lia). rewrite !c_nth by lia. cbn [fst snd]. apply Hi_le; auto; lia.
Qed.
Lemma lo_down : down lo_pts.
Proof.
  apply down_of. unfold lo_pts. rewrite map_length. unfold c. rewrite c_length. intros i Hi.
  rewrite !nth_map_g by (rewrite c_length; lia). rewrite !c_nth by lia. cbn [fst snd]. apply Hi_le; auto; lia.
Qed.
Lemma c_In p : In p c -> exists i, (i < n)%nat /\ p = (Mi n i, Hi n d i).
Proof. intros H. destruct (In_nth _ _ (0, 0) H) as (i & Hi' & <-). unfold c in *. rewrite c_length in Hi'. exists i. split; [exact Hi'|]. apply c_nth, Hi'. Qed.
Lemma up_nonneg : nonneg_y up_pts.
Proof. intros p Hp. apply in_map_iff in Hp as (q & <- & Hq). apply c_In in Hq as (i & Hi' & ->). cbn. apply (Mi_range n Hn i Hi'). Qed.
Lemma lo_nonneg : nonneg_y lo_pts.
Proof. intros p Hp. apply in_map_iff in Hp as (q & <- & Hq). apply c_In in Hq as (i & Hi' & ->). cbn. assert (X := Mi_range n Hn i Hi'). lra. Qed.
Lemma area_above_eq k : area_above c k = - trapezoid (firstn k up_pts).
Proof.
  unfold area_above, up_pts. rewrite <- firstn_map. apply Rabs_left1. apply trap_nonpos; [apply down_firstn, up_down|apply nonneg_firstn, up_nonneg].
Qed.
Lemma area_below_eq k : area_below c k = - trapezoid (skipn k lo_pts).
Proof.
  unfold area_below, lo_pts. rewrite <- skipn_map. apply Rabs_left1. apply trap_nonpos; [apply down_skipn, lo_down|apply nonneg_skipn, lo_nonneg].
Qed.
Lemma area_above_mono k k' : (k <= k')%nat -> area_above c k <= area_above c k'.
Proof. intros H. rewrite !area_above_eq. assert (X := trap_firstn_mono _ up_down up_nonneg k k' H). lra. Qed.
Lemma area_below_mono k k' : (k <= k')%nat -> area_below c k' <= area_below c k.
Proof. intros H. rewrite !area_below_eq. assert (X := trap_skipn_mono _ lo_down lo_nonneg k k' H). lra. Qed.
Lemma idx_ok z : argclosest z (map snd c) = Ok (idx_of c z).
Proof.
  unfold idx_of. destruct (argclosest_ok z (map snd c)) as [i ->]; [|reflexivity]. intros X. apply map_eq_nil in X. apply (f_equal (@length _)) in X. unfold c in X. rewrite c_length in X. cbn in X. lia.
Qed.
Lemma idx_mono z z' : z' <= z -> (idx_of c z <= idx_of c z')%nat.
Proof.
  intros H. apply (argclosest_anti (map snd c) z z'); auto using idx_ok. rewrite map_length. unfold c. rewrite c_length. intros a b L. rewrite !c_snd by lia. apply Hi_le; auto.
Qed.
Lemma idx_first z : z = Hi n d 0 -> idx_of c z = 0%nat.
Proof.
  intros ->. assert (X := idx_ok (Hi n d 0)). rewrite <- (c_snd n d 0) in X at 1 by lia. fold c in X.
  assert (Y : argclosest (nth 0 (map snd c) 0) (map snd c) = Ok 0%nat).
  { apply argclosest_complete; [rewrite map_length; unfold c; rewrite c_length; lia| |intros j Hj; lia].
    intros j Hj. replace (nth 0 (map snd c) 0 - nth 0 (map snd c) 0) with 0 by lra. rewrite Rabs_R0. apply Rabs_pos. }
  rewrite Y in X. injection X as <-. reflexivity.
Qed.
Lemma idx_last_flat : forall j, (idx_of c (Hi n d (n - 1)) <= j < n)%nat -> Hi n d j = Hi n d (n - 1).
Proof.
  intros j [A B]. assert (X := idx_ok (Hi n d (n - 1))). apply argclosest_spec in X as (H1 & H2 & _).
  rewrite map_length in H1, H2. unfold c in H1, H2. rewrite c_length in H1, H2. specialize (H2 (n - 1)%nat ltac:(lia)). fold c in H1, H2.
  assert (E1 : nth (n - 1) (map snd c) 0 = Hi n d (n - 1)) by (apply c_snd; lia).
  assert (E2 : nth (idx_of c (Hi n d (n - 1))) (map snd c) 0 = Hi n d (idx_of c (Hi n d (n - 1)))) by (apply c_snd; exact H1).
  rewrite E1, E2 in H2. replace (Hi n d (n - 1) - Hi n d (n - 1)) with 0 in H2 by lra. rewrite Rabs_R0 in H2.
  assert (L1 := Hi_le n d Hn Hd (idx_of c (Hi n d (n - 1))) j ltac:(lia)). assert (L2 := Hi_le n d Hn Hd j (n - 1) ltac:(lia)).
  assert (Z := Rle_abs (Hi n d (idx_of c (Hi n d (n - 1))) - Hi n d (n - 1))). lra.
Qed.
End Volumes.
Theorem C34_nonneg : forall polyfit n data a p, (2 <= n)%nat -> afc_init polyfit n data = Ok a -> 0 <= Vm a p /\ 0 <= Vv a p.
Proof.
  intros. unfold Vm, Vv, area_above, area_below. split; (apply Rmult_le_pos; [apply Rabs_pos|lra]).
Qed.
Theorem C34_monotone : forall polyfit n data a p q, (2 <= n)%nat -> afc_init polyfit n data = Ok a -> p <= q ->
  Vm a p <= Vm a q /\ Vv a q <= Vv a p.
Proof.
  intros polyfit n data a p q Hn E H. assert (X := C32_monotone _ _ _ _ _ _ Hn E H). destruct (init_inv _ _ _ _ E) as (d & _ & Hd & _ & _ & Ec & _).
  unfold Vm, Vv. rewrite Ec in *. assert (I := idx_mono n d Hn Hd _ _ X).
  assert (A := area_above_mono n d Hn Hd _ _ I). assert (B := area_below_mono n d Hn Hd _ _ I). lra.
Qed.
Theorem C34_differences_nonneg : forall polyfit n data a p q, (2 <= n)%nat -> afc_init polyfit n data = Ok a -> p <= q ->
  0 <= vmc a p q /\ 0 <= vvc a p q /\ vmp a p + vmc a p q = Vm a q /\ vvv a q + vvc a p q = Vv a p.
Proof.
  intros polyfit n data a p q Hn E H. destruct (C34_monotone _ _ _ _ _ _ Hn E H). unfold vmc, vvc, vmp, vvv. repeat split; lra.
Qed.
Theorem C34_ends : forall polyfit n data a, (2 <= n)%nat -> afc_init polyfit n data = Ok a -> Vm a 0 = 0 /\ Vv a 100 = 0.
Proof.
  intros polyfit n data a Hn E. destruct (init_inv _ _ _ _ E) as (d & _ & Hd & _ & _ & Ec & _). unfold Vm, Vv. rewrite Ec. split.
  - rewrite (mc_left n d Hn 0) by lra. rewrite (idx_first n d Hn _ eq_refl). unfold area_above. cbn. rewrite Rabs_R0. lra.
  - rewrite (mc_right n d Hn 100) by lra. rewrite (area_below_eq n d Hn Hd).
    rewrite (trap_flat _ (Hi n d (n - 1))); [lra|]. intros p Hp. unfold lo_pts in Hp. rewrite skipn_map in Hp. apply in_map_iff in Hp as (q & <- & Hq). cbn [fst].
    destruct (In_nth _ _ (0, 0) Hq) as (j & Hj & <-). rewrite skipn_length, c_length in Hj. rewrite nth_skipn_g, c_nth by lia. cbn [snd].
    apply (idx_last_flat n d Hn Hd). lia.
Qed.
(** flat surfaces have no volume at all *)
Theorem C34_flat : forall polyfit n data a z p, (2 <= n)%nat -> afc_init polyfit n data = Ok a -> (forall h, In h data -> h = Some z) ->
  Vm a p = 0 /\ Vv a p = 0.
Proof.
  intros polyfit n data a z p Hn E F. destruct (init_inv _ _ _ _ E) as (d & -> & Hd & Em & _ & Ec & _).
  assert (Fz : forall x, In x d -> x = z) by (intros x Hx; assert (Y := F (Some x) (in_map Some _ _ Hx)); congruence).
  assert (H0 : forall i, (i < n)%nat -> Hi n d i = z).
  { intros i Hi'. assert (Iz : In z d) by (destruct d as [|x l]; [congruence|]; rewrite <- (Fz x); left; auto).
    assert (R := Mi_range n Hn i Hi'). unfold Hi.
    assert (X := quantile_bounds d (1 - Mi n i / 100) z z (conj Iz (fun y Hy => Req_le _ _ (eq_sym (Fz y Hy)))) (conj Iz (fun y Hy => Req_le _ _ (Fz y Hy))) ltac:(lra)). lra. }
  unfold Vm, Vv. rewrite Ec, (area_above_eq n d Hn Hd), (area_below_eq n d Hn Hd). split.
  - rewrite (trap_flat _ z); [lra|]. intros q Hq. unfold up_pts in Hq. rewrite firstn_map in Hq. apply in_map_iff in Hq as (r & <- & Hr). cbn.
    assert (Y : In r (material_curve n d)) by (rewrite <- (firstn_skipn (idx_of (material_curve n d) (mc (material_curve n d) p)) (material_curve n d)); apply in_or_app; left; exact Hr).
    apply c_In in Y as (i & Hi' & ->). apply H0, Hi'.
  - rewrite (trap_flat _ z); [lra|]. intros q Hq. unfold lo_pts in Hq. rewrite skipn_map in Hq. apply in_map_iff in Hq as (r & <- & Hr). cbn.
    assert (Y : In r (material_curve n d)) by (rewrite <- (firstn_skipn (idx_of (material_curve n d) (mc (material_curve n d) p)) (material_curve n d)); apply in_or_app; right; exact Hr).
    apply c_In in Y as (i & Hi' & ->). apply H0, Hi'.
Qed.

(** ** C35: reduced peak and dale heights *)
Theorem C35_nonneg_partial : forall polyfit ord n data a x, sorter_ok ord -> (2 <= n)%nat -> afc_init polyfit n data = Ok a ->
  (pk ord a = Some x -> 0 <= x) /\ (vk ord a = Some x -> 0 <= x).
Proof.
  intros polyfit ord n data a x Ho Hn E. destruct (C33_ratios_range _ _ _ _ _ Ho Hn E) as [A B]. unfold pk, vk, rdiv. split.
  - destruct Req_EM_T; [discriminate|]. intros X. injection X as <-. unfold area_above. apply Rmult_le_pos; [assert (Y := Rabs_pos (trapezoid (map (fun p => (snd p, fst p)) (firstn (idx_of (a_curve a) (yupper a)) (a_curve a))))); lra|left; apply Rinv_0_lt_compat; lra].
  - destruct Req_EM_T; [discriminate|]. intros X. injection X as <-. unfold area_below. apply Rmult_le_pos; [assert (Y := Rabs_pos (trapezoid (map (fun p => (snd p, 100 - fst p)) (skipn (idx_of (a_curve a) (ylower a)) (a_curve a))))); lra|left; apply Rinv_0_lt_compat; lra].
Qed.
(** the triangles of the reduction have the measured areas *)
Theorem C35_triangle_areas : forall polyfit ord n data a x y, sorter_ok ord -> (2 <= n)%nat -> afc_init polyfit n data = Ok a ->
  (ak1 ord a = Some x -> pk ord a = Some y -> x = y * mr1 ord a / 2 /\ x = area_above (a_curve a) (idx_of (a_curve a) (yupper a))) /\
  (ak2 ord a = Some x -> vk ord a = Some y -> x = y * (100 - mr2 ord a) / 2 /\ x = area_below (a_curve a) (idx_of (a_curve a) (ylower a))).
Proof.
  intros polyfit ord n data a x y Ho Hn E. unfold ak1, ak2. split; intros H1 H2; rewrite H2 in H1; cbn in H1; injection H1 as <-; split; try field;
    unfold pk, vk, rdiv in H2; destruct Req_EM_T as [|D]; try discriminate; injection H2 as <-; field; exact D.
Qed.
Theorem C35_defined : forall ord a, (pk ord a = None <-> mr1 ord a = 0) /\ (vk ord a = None <-> mr2 ord a = 100).
Proof.
  intros ord a. unfold pk, vk, rdiv. split; destruct Req_EM_T as [X|X]; split; intros Y; try discriminate; auto; try lra; exfalso; lra.
Qed.

(** ** C36: mr and mc *)
Theorem C36_range : forall polyfit ord n data a z, sorter_ok ord -> (2 <= n)%nat -> afc_init polyfit n data = Ok a -> 0 <= mr ord (a_curve a) z <= 100.
Proof. intros polyfit ord n data a z Ho Hn E. destruct (init_inv _ _ _ _ E) as (d & _ & Hd & _ & _ & -> & _). apply mr_range; assumption. Qed.
Theorem C36_inverse_partial : forall polyfit ord n data a p, sorter_ok ord -> (2 <= n)%nat -> NoDup data -> (2 <= length data)%nat ->
  afc_init polyfit n data = Ok a -> 0 <= p <= 100 -> mr ord (a_curve a) (mc (a_curve a) p) = p.
Proof.
  intros polyfit ord n data a p Ho Hn N L E H. destruct (init_inv _ _ _ _ E) as (d & -> & Hd & _ & _ & -> & _).
  apply mr_mc; auto. apply snd_NoDup; auto; [apply NoDup_map_inv in N; exact N|now rewrite map_length in L].
Qed.
Theorem C36_monotone_partial : forall polyfit ord n data a z z', sorter_ok ord -> (2 <= n)%nat -> NoDup data -> (2 <= length data)%nat ->
  afc_init polyfit n data = Ok a -> z <= z' -> mr ord (a_curve a) z' <= mr ord (a_curve a) z.
Proof.
  intros polyfit ord n data a z z' Ho Hn N L E H. destruct (init_inv _ _ _ _ E) as (d & -> & Hd & _ & _ & -> & _).
  apply mr_anti; auto. apply snd_NoDup; auto; [apply NoDup_map_inv in N; exact N|now rewrite map_length in L].
Qed.
