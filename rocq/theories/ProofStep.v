From Coq Require Import String Reals List Bool Arith ZArith Lra Lia Permutation.
From Verif Require Import Base RList ModelMath ProofMath ModelHeights ModelParams ProofParams ModelStep.
Import ListNotations.
Local Open Scope R_scope.

(** ** Lists *)
Lemma cumsum_nth l : forall a i, (i < length l)%nat -> nth i (cumsum a l) 0 = a + sumR (firstn (S i) l).
Proof.
  induction l as [|x l IH]; intros a i H; [cbn in H; lia|]. destruct i as [|i]; cbn [cumsum nth].
  - cbn. lra.
  - rewrite IH by (cbn in H; lia). rewrite (firstn_cons (S i) x l), sumR_cons. lra.
Qed.
Lemma rev_firstn {A} (l : list A) k : (k <= length l)%nat -> firstn k (rev l) = rev (skipn (length l - k) l).
Proof. intros H. rewrite firstn_rev. reflexivity. Qed.
Lemma sumR_rev l : sumR (rev l) = sumR l.
Proof. symmetry. apply sumR_perm, Permutation_rev. Qed.
Lemma rcumsum_nth l i : (i < length l)%nat -> nth i (rev (cumsum 0 (rev l))) 0 = sumR (skipn i l).
Proof.
  intros H. assert (L : length (cumsum 0 (rev l)) = length l) by (rewrite cumsum_length; apply rev_length).
  rewrite rev_nth by (rewrite L; exact H). rewrite L, cumsum_nth by (rewrite rev_length; lia).
  rewrite Rplus_0_l, rev_firstn by lia. rewrite sumR_rev. do 2 f_equal. lia.
Qed.
Lemma tl_nth {A} (l : list A) i d : nth i (tl l) d = nth (S i) l d.
Proof. destruct l; [destruct i; reflexivity|reflexivity]. Qed.
Lemma tl_length {A} (l : list A) : length (tl l) = (length l - 1)%nat.
Proof. destruct l; cbn; lia. Qed.
Lemma firstn_seq' a n k : (k <= n)%nat -> firstn k (seq a n) = seq a k.
Proof.
  revert a n. induction k as [|k IH]; intros a n H; [reflexivity|]. destruct n; [lia|]. cbn. f_equal. apply IH. lia.
Qed.
Lemma skipn_seq' a n k : skipn k (seq a n) = seq (a + k) (n - k).
Proof.
  revert a n. induction k as [|k IH]; intros a n; [cbn; f_equal; lia|]. destruct n; [reflexivity|]. cbn. rewrite IH. f_equal; lia.
Qed.
Lemma zip2_map_same {A B C D} (f : B -> C -> D) (g : A -> B) (h : A -> C) l : zip2 f (map g l) (map h l) = map (fun x => f (g x) (h x)) l.
Proof. induction l; cbn; auto. now rewrite IHl. Qed.

(** ** argmax *)
Lemma amax_go_bound l : forall i best bv, (best < i)%nat -> (amax_go l i best bv < i + length l)%nat.
Proof.
  induction l as [|o l IH]; intros i best bv H; cbn; [lia|]. destruct o as [y|]; [|lia].
  destruct (Rlt_dec bv y); [specialize (IH (S i) i y ltac:(lia))|specialize (IH (S i) best bv ltac:(lia))]; lia.
Qed.
Lemma argmax_bound l i : argmax_nan l = Ok i -> (i < length l)%nat.
Proof.
  destruct l as [|[x|] l]; cbn; intros E; [discriminate| |]; injection E as <-; [|lia].
  assert (B := amax_go_bound l 1 0 x ltac:(lia)). lia.
Qed.
Lemma argmax_ok l : l <> [] -> exists i, argmax_nan l = Ok i.
Proof. destruct l as [|[x|] l]; [congruence|..]; intros _; eexists; reflexivity. Qed.
Definition first_max (i : nat) (l : list R) : Prop :=
  (i < length l)%nat /\ (forall j, (j < length l)%nat -> nth j l 0 <= nth i l 0) /\ (forall j, (j < i)%nat -> nth j l 0 < nth i l 0).
Lemma amax_go_spec l : forall pre best bv, (best < length pre)%nat -> nth best pre 0 = bv ->
  (forall j, (j < length pre)%nat -> nth j pre 0 <= bv) -> (forall j, (j < best)%nat -> nth j pre 0 < bv) ->
  first_max (amax_go (map Some l) (length pre) best bv) (pre ++ l).
Proof.
  induction l as [|y l IH]; intros pre best bv Hb E Hle Hlt; cbn.
  - rewrite app_nil_r. subst bv. repeat split; auto.
  - assert (L : length (pre ++ [y]) = S (length pre)) by (rewrite app_length; cbn; lia).
    replace (pre ++ y :: l) with ((pre ++ [y]) ++ l) by (rewrite <- app_assoc; reflexivity).
    destruct (Rlt_dec bv y) as [C|C].
    + rewrite <- L. apply IH.
      * rewrite L. lia.
      * rewrite app_nth2 by lia. rewrite Nat.sub_diag. reflexivity.
      * intros j Hj. rewrite L in Hj. destruct (Nat.eq_dec j (length pre)) as [->|N].
        -- rewrite app_nth2 by lia. rewrite Nat.sub_diag. cbn. lra.
        -- rewrite app_nth1 by lia. specialize (Hle j ltac:(lia)). lra.
      * intros j Hj. rewrite app_nth1 by lia. specialize (Hle j ltac:(lia)). lra.
    + rewrite <- L. apply IH.
      * rewrite L. lia.
      * rewrite app_nth1 by lia. exact E.
      * intros j Hj. rewrite L in Hj. destruct (Nat.eq_dec j (length pre)) as [->|N].
        -- rewrite app_nth2 by lia. rewrite Nat.sub_diag. cbn. lra.
        -- rewrite app_nth1 by lia. apply Hle. lia.
      * intros j Hj. rewrite app_nth1 by lia. apply Hlt. lia.
Qed.
Lemma argmax_spec l i : argmax_nan (map Some l) = Ok i -> first_max i l.
Proof.
  destruct l as [|x l]; cbn; [discriminate|]. intros E. injection E as <-.
  apply (amax_go_spec l [x] 0 x); cbn; auto; intros j Hj; [|lia]. replace j with 0%nat by lia. lra.
Qed.
Lemma argmax_complete l i : first_max i l -> argmax_nan (map Some l) = Ok i.
Proof.
  intros (A & B & C). destruct (argmax_ok (map Some l)) as [j Ej]; [destruct l; [cbn in A; lia|discriminate]|].
  rewrite Ej. f_equal. destruct (argmax_spec _ _ Ej) as (A' & B' & C').
  destruct (Nat.lt_trichotomy i j) as [L|[E|L]]; auto.
  - specialize (C' _ L). specialize (B j A'). lra.
  - specialize (C _ L). specialize (B' i A). lra.
Qed.

(** ** variance12 *)
Lemma v12_length cnt ctr : length cnt = length ctr -> length (variance12 cnt ctr) = (length cnt - 1)%nat.
Proof.
  intros H. unfold variance12.
  repeat (rewrite ?zip2_length, ?removelast_length, ?tl_length, ?rev_length, ?cumsum_length). lia.
Qed.
Lemma v12_nth cnt ctr i : length cnt = length ctr -> (S i < length cnt)%nat ->
  nth i (variance12 cnt ctr) None =
  let prod := zip2 Rmult cnt ctr in
  let w1 := sumR (firstn (S i) cnt) in let w2 := sumR (skipn (S i) cnt) in
  match ndiv (sumR (firstn (S i) prod)) w1, ndiv (sumR (skipn (S i) prod)) w2 with
  | Some m1, Some m2 => Some (w1 * w2 * ((m1 - m2) * (m1 - m2))) | _, _ => None end.
Proof.
  intros H Hi. assert (Lp : length (zip2 Rmult cnt ctr) = length cnt) by (rewrite zip2_length; lia).
  assert (Lm1 : length (zip2 ndiv (cumsum 0 (zip2 Rmult cnt ctr)) (cumsum 0 cnt)) = length cnt) by (rewrite zip2_length, !cumsum_length; lia).
  assert (Lw2 : length (rev (cumsum 0 (rev cnt))) = length cnt) by (rewrite rev_length, cumsum_length, rev_length; lia).
  assert (Lrp : length (cumsum 0 (rev (zip2 Rmult cnt ctr))) = length cnt) by (rewrite cumsum_length, rev_length; lia).
  assert (Lm2 : length (zip2 ndiv (cumsum 0 (rev (zip2 Rmult cnt ctr))) (rev (rev (cumsum 0 (rev cnt))))) = length cnt) by (rewrite zip2_length, Lrp, rev_length; lia).
  unfold variance12. cbv zeta.
  rewrite (zip2_nth _ 0 (None, None) None).
  2:{ rewrite zip2_length, removelast_length, tl_length, cumsum_length, Lw2. lia. }
  2:{ rewrite zip2_length, removelast_length, tl_length, Lm1, rev_length, Lm2. lia. }
  rewrite (zip2_nth Rmult 0 0 0).
  2:{ rewrite removelast_length, cumsum_length. lia. }
  2:{ rewrite tl_length, Lw2. lia. }
  rewrite (zip2_nth pair None None (None, None)).
  2:{ rewrite removelast_length, Lm1. lia. }
  2:{ rewrite tl_length, rev_length, Lm2. lia. }
  rewrite !removelast_nth by (rewrite ?Lm1, ?cumsum_length; lia). rewrite !tl_nth.
  rewrite cumsum_nth by lia. rewrite rcumsum_nth by lia.
  rewrite (zip2_nth ndiv 0 0 None) by (rewrite cumsum_length, ?Lp; lia). rewrite !cumsum_nth by (rewrite ?Lp; lia).
  rewrite (rev_nth (zip2 ndiv (cumsum 0 (rev (zip2 Rmult cnt ctr))) (rev (rev (cumsum 0 (rev cnt)))))) by (rewrite Lm2; lia). rewrite Lm2.
  rewrite (zip2_nth ndiv 0 0 None); [|rewrite Lrp; lia|rewrite rev_length, Lw2; lia].
  replace (nth (length cnt - S (S i)) (cumsum 0 (rev (zip2 Rmult cnt ctr))) 0) with (sumR (skipn (S i) (zip2 Rmult cnt ctr))).
  2:{ rewrite <- (rcumsum_nth (zip2 Rmult cnt ctr)) by lia. rewrite rev_nth by (rewrite Lrp; lia). rewrite Lrp. reflexivity. }
  replace (nth (length cnt - S (S i)) (rev (rev (cumsum 0 (rev cnt)))) 0) with (sumR (skipn (S i) cnt)).
  2:{ rewrite <- (rcumsum_nth cnt) by lia. rewrite rev_involutive. rewrite rev_nth by (rewrite cumsum_length, rev_length; lia). rewrite cumsum_length, rev_length. reflexivity. }
  rewrite !Rplus_0_l.
  reflexivity.
Qed.

(** ** Sums over bins are sums over values *)
Section Bins.
Context (bin : R -> nat).
Definition cnt_at (values : list R) (b : nat) : R := INR (length (List.filter (fun x => Nat.eqb (bin x) b) values)).
Lemma cnt_cons x l b : cnt_at (x :: l) b = (if Nat.eqb (bin x) b then 1 else 0) + cnt_at l b.
Proof. unfold cnt_at. cbn. destruct (Nat.eqb (bin x) b); cbn [length]; [rewrite S_INR|]; lra. Qed.
Lemma ind_sum (w : nat -> R) v a n : sumR (map (fun b => (if Nat.eqb v b then 1 else 0) * w b) (seq a n)) =
  if (Nat.leb a v && Nat.ltb v (a + n))%bool then w v else 0.
Proof.
  revert a. induction n as [|n IH]; intros a; cbn [seq map].
  - rewrite sumR_nil. destruct (Nat.leb_spec a v), (Nat.ltb_spec v (a + 0)); cbn; try reflexivity. lia.
  - rewrite sumR_cons, IH. destruct (Nat.eqb_spec v a) as [->|N].
    + destruct (Nat.leb_spec (S a) a); [lia|]. destruct (Nat.leb_spec a a); [|lia]. destruct (Nat.ltb_spec a (a + S n)); [|lia]. cbn. lra.
    + destruct (Nat.leb_spec (S a) v), (Nat.ltb_spec v (S a + n)), (Nat.leb_spec a v), (Nat.ltb_spec v (a + S n)); cbn; try lra; lia.
Qed.
Lemma bins_sum (w : nat -> R) values a n :
  sumR (map (fun b => cnt_at values b * w b) (seq a n)) =
  sumR (map (fun x => w (bin x)) (List.filter (fun x => Nat.leb a (bin x) && Nat.ltb (bin x) (a + n))%bool values)).
Proof.
  induction values as [|x l IH].
  - cbn. rewrite (sumR_ext _ (fun _ => 0)) by (intros; unfold cnt_at; cbn; lra). rewrite sumR_map_const. lra.
  - rewrite (sumR_ext _ (fun b => (if Nat.eqb (bin x) b then 1 else 0) * w b + cnt_at l b * w b)) by (intros; rewrite cnt_cons; ring).
    rewrite sumR_map_plus, IH, ind_sum. cbn [List.filter]. destruct (Nat.leb a (bin x) && Nat.ltb (bin x) (a + n))%bool; cbn [map]; rewrite ?sumR_cons; lra.
Qed.
End Bins.

(** ** Otsu *)
Section Otsu.
Context (n : nat) (l : list R) (lo hi : R) (Hn : (2 <= n)%nat) (Hlo : is_min lo l) (Hhi : is_max hi l) (D : lo < hi).
Notation bin := (hist_bin n lo hi).
Notation ctr := (bin_center n lo hi).
Definition lowers (k : nat) : list R := List.filter (fun x => Nat.leb (bin x) k) l.
Definition uppers (k : nat) : list R := List.filter (fun x => Nat.ltb k (bin x)) l.
Definition bcv (k : nat) : R :=
  INR (length (lowers k)) * INR (length (uppers k)) *
  ((meanR (map (fun x => ctr (bin x)) (lowers k)) - meanR (map (fun x => ctr (bin x)) (uppers k))) ^ 2).
Lemma bin_lt x : (bin x < n)%nat.
Proof. unfold hist_bin. lia. Qed.
Lemma bin_lo : bin lo = 0%nat.
Proof. unfold hist_bin. replace ((lo - lo) / (hi - lo) * INR n) with 0 by (unfold Rdiv; ring). replace (Int_part 0) with 0%Z by (symmetry; apply Int_part_unique; cbn; lra). cbn. lia. Qed.
Lemma bin_hi : bin hi = (n - 1)%nat.
Proof.
  unfold hist_bin. replace ((hi - lo) / (hi - lo) * INR n) with (INR n) by (field; lra).
  replace (Int_part (INR n)) with (Z.of_nat n) by (symmetry; apply Int_part_unique; rewrite <- INR_IZR_INZ; lra). lia.
Qed.
Lemma lowers_ne k : lowers k <> [].
Proof.
  intros E. assert (X : In lo (lowers k)) by (apply filter_In; split; [apply Hlo|rewrite bin_lo; reflexivity]).
  rewrite E in X. destruct X.
Qed.
Lemma uppers_ne k : (k < n - 1)%nat -> uppers k <> [].
Proof.
  intros H E. assert (X : In hi (uppers k)) by (apply filter_In; split; [apply Hhi|rewrite bin_hi; apply Nat.ltb_lt, H]).
  rewrite E in X. destruct X.
Qed.
Lemma counts_length : length (counts n lo hi l) = n.
Proof. unfold counts. rewrite map_length. apply seq_length. Qed.
Lemma centers_length : length (bin_centers n lo hi) = n.
Proof. unfold bin_centers. rewrite map_length. apply seq_length. Qed.
Lemma filter_low k : (k < n)%nat -> List.filter (fun x => Nat.leb 0 (bin x) && Nat.ltb (bin x) (0 + S k))%bool l = lowers k.
Proof.
  intros H. apply filter_ext. intros x. destruct (Nat.leb_spec 0 (bin x)); [|lia]. cbn -[Nat.ltb Nat.leb].
  destruct (Nat.ltb_spec (bin x) (S k)), (Nat.leb_spec (bin x) k); auto; lia.
Qed.
Lemma filter_up k : (k < n)%nat -> List.filter (fun x => Nat.leb (0 + S k) (bin x) && Nat.ltb (bin x) (0 + S k + (n - S k)))%bool l = uppers k.
Proof.
  intros H. apply filter_ext. intros x. assert (B := bin_lt x). unfold Nat.ltb at 2. change (0 + S k)%nat with (S k).
  destruct (Nat.ltb_spec (bin x) (S k + (n - S k))); [|lia]. rewrite andb_true_r. reflexivity.
Qed.
Lemma sum_one (m : list R) : sumR (map (fun _ => 1) m) = INR (length m).
Proof. rewrite sumR_map_const. ring. Qed.
Lemma v12_value k : (k < n - 1)%nat -> nth k (variance12 (counts n lo hi l) (bin_centers n lo hi)) None = Some (bcv k).
Proof.
  intros H. rewrite v12_nth by (rewrite ?counts_length, ?centers_length; lia). cbv zeta.
  assert (P : zip2 Rmult (counts n lo hi l) (bin_centers n lo hi) = map (fun b => cnt_at bin l b * ctr b) (seq 0 n)) by (unfold counts, bin_centers; apply zip2_map_same).
  assert (C : counts n lo hi l = map (fun b => cnt_at bin l b * 1) (seq 0 n)) by (unfold counts; apply map_ext; intros; unfold cnt_at; ring).
  rewrite P, C, !firstn_map, !skipn_map, firstn_seq', skipn_seq' by lia.
  rewrite (bins_sum bin (fun _ => 1)), (bins_sum bin (fun _ => 1)), (bins_sum bin ctr), (bins_sum bin ctr).
  rewrite filter_low, filter_up by lia. rewrite !sum_one.
  assert (L1 := INR_len_pos _ (lowers_ne k)). assert (L2 := INR_len_pos _ (uppers_ne k H)).
  unfold ndiv. destruct (Req_EM_T (INR (length (lowers k))) 0); [lra|]. destruct (Req_EM_T (INR (length (uppers k))) 0); [lra|].
  f_equal. unfold bcv, meanR. rewrite !map_length. ring.
Qed.
Lemma v12_list : variance12 (counts n lo hi l) (bin_centers n lo hi) = map Some (map bcv (seq 0 (n - 1))).
Proof.
  rewrite map_map. apply (list_eq_seq _ None).
  - rewrite v12_length by (rewrite counts_length, centers_length; reflexivity). now rewrite counts_length.
  - intros i Hi. apply v12_value, Hi.
Qed.
Lemma hist_range_eq : hist_range l = (lo, hi).
Proof.
  unfold hist_range. apply lmin_spec in Hlo. apply lmax_spec in Hhi. rewrite Hlo, Hhi. destruct (Req_EM_T lo hi); [lra|reflexivity].
Qed.
Lemma otsu_spec : exists k, otsu_threshold n l = Ok (ctr k) /\ (k < n - 1)%nat /\
  (forall j, (j < n - 1)%nat -> bcv j <= bcv k) /\ (forall j, (j < k)%nat -> bcv j < bcv k).
Proof.
  unfold otsu_threshold. destruct (Nat.eqb_spec n 0); [lia|]. rewrite hist_range_eq, v12_list.
  destruct (argmax_ok (map Some (map bcv (seq 0 (n - 1))))) as [k E].
  { replace (n - 1)%nat with (S (n - 2)) by lia. discriminate. }
  rewrite E. cbn [rbind]. destruct (argmax_spec _ _ E) as (A & B & C). rewrite map_length, seq_length in A, B.
  exists k. split; [f_equal; unfold bin_centers; rewrite nth_seq_map by lia; reflexivity|]. split; [exact A|]. split.
  - intros j Hj. specialize (B j Hj). rewrite !nth_seq_map in B by lia. exact B.
  - intros j Hj. specialize (C j Hj). rewrite !nth_seq_map in C by lia. exact C.
Qed.
Lemma otsu_first k : (k < n - 1)%nat -> (forall j, (j < n - 1)%nat -> bcv j <= bcv k) -> (forall j, (j < k)%nat -> bcv j < bcv k) ->
  otsu_threshold n l = Ok (ctr k).
Proof.
  intros A B C. destruct otsu_spec as (k' & E & A' & B' & C'). rewrite E. do 2 f_equal.
  destruct (Nat.lt_trichotomy k k') as [L|[X|L]]; auto.
  - specialize (C' _ L). specialize (B k' A'). lra.
  - specialize (C _ L). specialize (B' k A). lra.
Qed.
Lemma ctr_value k : ctr k = lo + (INR k + 1 / 2) * ((hi - lo) / INR n).
Proof. unfold bin_center, bin_edge. rewrite (S_INR k). lra. Qed.
Lemma ctr_between k : (k < n - 1)%nat -> lo < ctr k < hi.
Proof.
  intros H. rewrite ctr_value. assert (N : 0 < INR n) by (apply lt_0_INR; lia).
  assert (P : 0 < (hi - lo) / INR n) by (apply Rdiv_lt_0_compat; lra). assert (K := pos_INR k).
  assert (K2 : INR k + 1 < INR n). { rewrite <- (S_INR k). apply lt_INR. lia. }
  split; [assert (0 < (INR k + 1 / 2) * ((hi - lo) / INR n)) by (apply Rmult_lt_0_compat; lra); lra|].
  assert (X : (INR k + 1 / 2) * ((hi - lo) / INR n) < INR n * ((hi - lo) / INR n)) by (apply Rmult_lt_compat_r; lra).
  replace (INR n * ((hi - lo) / INR n)) with (hi - lo) in X by (field; lra). lra.
Qed.
End Otsu.
Lemma distinct_range l : (exists x y, In x l /\ In y l /\ x <> y) -> exists lo hi, is_min lo l /\ is_max hi l /\ lo < hi.
Proof.
  intros (x & y & Hx & Hy & N). assert (Ne : l <> []) by (destruct l; [destruct Hx|discriminate]).
  destruct (lmin_ex l Ne) as [lo E1], (lmax_ex l Ne) as [hi E2]. apply lmin_spec in E1. apply lmax_spec in E2.
  exists lo, hi. split; [exact E1|]. split; [exact E2|]. destruct E1 as [_ A], E2 as [_ B].
  assert (A1 := A x Hx). assert (A2 := A y Hy). assert (B1 := B x Hx). assert (B2 := B y Hy).
  destruct (Rlt_or_le lo hi); [assumption|]. exfalso. apply N. lra.
Qed.
