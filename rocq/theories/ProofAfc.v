From Coq Require Import String Reals List Bool Arith ZArith Lia Lra Permutation.
From Verif Require Import Base RList ModelMath ProofMath ModelHeights ProofHeights ModelParams ModelDetrend SpecDetrend ProofDetrend ModelAfc.
Import ListNotations.
Local Open Scope R_scope.

(** ** quantile is the interpolation of the sorted values at the virtual index *)
Definition ranks (n : nat) : list R := map INR (seq 0 n).
Lemma ranks_length n : length (ranks n) = n. Proof. unfold ranks. rewrite map_length. apply seq_length. Qed.
Lemma ranks_nth n i : (i < n)%nat -> nth i (ranks n) 0 = INR i.
Proof.
  intros H. unfold ranks. rewrite (nth_indep _ 0 (INR 0)) by (rewrite map_length, seq_length; exact H).
  rewrite map_nth, seq_nth by exact H. reflexivity.
Qed.
Lemma ranks_NoDup n : NoDup (ranks n).
Proof. unfold ranks. apply FinFun.Injective_map_NoDup; [|apply seq_NoDup]. intros x y E. apply INR_eq, E. Qed.
Lemma Int_part_bounds v : IZR (Int_part v) <= v < IZR (Int_part v) + 1.
Proof. destruct (base_Int_part v). lra. Qed.
Lemma virtual_floor v n : 0 <= v <= INR n -> exists k, Z.to_nat (Int_part v) = k /\ (k <= n)%nat /\ INR k <= v < INR k + 1.
Proof.
  intros [H0 H1]. assert (B := Int_part_bounds v).
  assert (P : (0 <= Int_part v)%Z).
  { apply le_IZR. destruct (Z_lt_le_dec (Int_part v) 0) as [L|L]; [|apply IZR_le, L]. exfalso.
    assert (Int_part v <= -1)%Z by lia. apply IZR_le in H. lra. }
  exists (Z.to_nat (Int_part v)). split; [reflexivity|].
  assert (E : INR (Z.to_nat (Int_part v)) = IZR (Int_part v)) by (rewrite INR_IZR_INZ, Z2Nat.id by exact P; reflexivity).
  split; [|lra]. apply INR_le. lra.
Qed.
Lemma quantile_interp xs q : xs <> [] -> 0 <= q <= 1 ->
  quantile xs q = interp1d (ranks (length xs)) (sortR xs) (q * (INR (length xs) - 1)).
Proof.
  intros Hne Hq. unfold quantile. rewrite sortR_length. set (N := length xs).
  assert (HN : (1 <= N)%nat) by (unfold N; destruct xs; [congruence|cbn; lia]).
  assert (Hp : INR N - 1 = INR (N - 1)) by (rewrite minus_INR by exact HN; reflexivity). rewrite Hp.
  assert (Pos : 0 <= INR (N - 1)) by apply pos_INR.
  destruct (virtual_floor (q * INR (N - 1)) (N - 1)) as (k & Ek & Hk & B).
  { split; [apply Rmult_le_pos; lra|]. rewrite <- (Rmult_1_l (INR (N - 1))) at 2. apply Rmult_le_compat_r; lra. }
  rewrite Ek. assert (Ls : length (ranks N) = length (sortR xs)) by (rewrite ranks_length, sortR_length; reflexivity).
  destruct (Nat.eq_dec k (N - 1)) as [->|D].
  - rewrite Nat.min_r by lia.
    assert (U : q * INR (N - 1) <= INR (N - 1)) by (rewrite <- (Rmult_1_l (INR (N - 1))) at 2; apply Rmult_le_compat_r; lra).
    replace (q * INR (N - 1)) with (nth (N - 1) (ranks N) 0) at 2 by (rewrite ranks_nth by lia; lra).
    rewrite (interp1d_node (ranks N) (sortR xs) Ls (ranks_NoDup N) (N - 1)) by (rewrite ranks_length; lia). lra.
  - rewrite Nat.min_l by lia.
    rewrite (interp1d_segment (ranks N) (sortR xs) Ls (ranks_NoDup N) k (S k)); rewrite ?ranks_length, ?ranks_nth by lia; try lia.
    + rewrite S_INR. field_simplify; [ring_simplify|lra]. lra.
    + apply lt_INR; lia.
    + intros j Hj. rewrite ranks_nth by exact Hj. intros [A1 A2]. apply INR_lt in A1, A2. lia.
    + rewrite S_INR. lra.
Qed.
Lemma quantile_mono xs q q' : xs <> [] -> 0 <= q -> q <= q' -> q' <= 1 -> quantile xs q <= quantile xs q'.
Proof.
  intros Hne H0 Hq H1. rewrite !quantile_interp by (auto; lra).
  assert (Ls : length (ranks (length xs)) = length (sortR xs)) by (rewrite ranks_length, sortR_length; reflexivity).
  assert (HN : (1 <= length xs)%nat) by (destruct xs; [congruence|cbn; lia]).
  apply interp1d_mono; [exact Ls|apply ranks_NoDup| |].
  - intros i j Hi Hj L. rewrite ranks_length in Hi, Hj. rewrite !ranks_nth in L by assumption. apply INR_lt in L.
    apply sorted_nth; [apply sortR_sorted|rewrite sortR_length; lia].
  - apply Rmult_le_compat_r; [|exact Hq]. apply le_INR in HN. cbn in HN. lra.
Qed.
Lemma sortR_nth_In xs i : (i < length xs)%nat -> In (nth i (sortR xs) 0) xs.
Proof. intros H. apply sortR_In, nth_In. now rewrite sortR_length. Qed.
Lemma quantile_bounds xs q m M : is_min m xs -> is_max M xs -> 0 <= q <= 1 -> m <= quantile xs q <= M.
Proof.
  intros [I1 I2] [J1 J2] Hq. assert (Hne : xs <> []) by (intros ->; destruct I1). rewrite quantile_interp by assumption.
  apply interp1d_bounds; [rewrite ranks_length, sortR_length; reflexivity|apply ranks_NoDup| |].
  - intros X. apply (f_equal (@length R)) in X. rewrite ranks_length in X. destruct xs; [congruence|discriminate X].
  - intros i Hi. rewrite ranks_length in Hi. assert (X := sortR_nth_In xs i Hi). auto.
Qed.
Lemma quantile_1 xs M : is_max M xs -> quantile xs 1 = M.
Proof.
  intros [J1 J2]. assert (Hne : xs <> []) by (intros ->; destruct J1). assert (HN : (1 <= length xs)%nat) by (destruct xs; [congruence|cbn; lia]).
  rewrite quantile_interp by (auto; lra).
  replace (1 * (INR (length xs) - 1)) with (nth (length xs - 1) (ranks (length xs)) 0) by (rewrite ranks_nth by lia; rewrite minus_INR by lia; cbn; lra).
  rewrite interp1d_node; [|rewrite ranks_length, sortR_length; reflexivity|apply ranks_NoDup|rewrite ranks_length; lia].
  apply Rle_antisym; [apply J2, sortR_nth_In; lia|].
  apply sortR_In in J1. destruct (In_nth _ _ 0 J1) as (i & Hi & <-). rewrite sortR_length in Hi.
  apply sorted_nth; [apply sortR_sorted|rewrite sortR_length; lia].
Qed.
Lemma quantile_0 xs m : is_min m xs -> quantile xs 0 = m.
Proof.
  intros [J1 J2]. assert (Hne : xs <> []) by (intros ->; destruct J1). assert (HN : (1 <= length xs)%nat) by (destruct xs; [congruence|cbn; lia]).
  rewrite quantile_interp by (auto; lra).
  replace (0 * (INR (length xs) - 1)) with (nth 0 (ranks (length xs)) 0) by (rewrite ranks_nth by lia; cbn; lra).
  rewrite interp1d_node; [|rewrite ranks_length, sortR_length; reflexivity|apply ranks_NoDup|rewrite ranks_length; lia].
  apply Rle_antisym; [|apply J2, sortR_nth_In; lia].
  apply sortR_In in J1. destruct (In_nth _ _ 0 J1) as (i & Hi & <-). rewrite sortR_length in Hi.
  apply sorted_nth; [apply sortR_sorted|rewrite sortR_length; lia].
Qed.
(** strictly increasing when no height occurs twice *)
Lemma sorted_strict xs i j : NoDup xs -> (i < j < length xs)%nat -> nth i (sortR xs) 0 < nth j (sortR xs) 0.
Proof.
  intros N H. assert (L := sorted_nth _ (sortR_sorted xs) i j 0). rewrite sortR_length in L. destruct (L ltac:(lia)) as [X|X]; [exact X|].
  exfalso. assert (N' : NoDup (sortR xs)) by (eapply Permutation_NoDup; [apply sortR_perm|exact N]).
  rewrite (NoDup_nth _ 0) in N'. rewrite sortR_length in N'. specialize (N' i j ltac:(lia) ltac:(lia) X). lia.
Qed.
Lemma quantile_strict xs q q' : NoDup xs -> (2 <= length xs)%nat -> 0 <= q -> q < q' -> q' <= 1 -> quantile xs q < quantile xs q'.
Proof.
  intros N H2 H0 Hq H1. unfold quantile. rewrite sortR_length. set (n := length xs) in *.
  assert (Hp : INR n - 1 = INR (n - 1)) by (rewrite minus_INR by lia; reflexivity). rewrite Hp.
  assert (Pos : 0 < INR (n - 1)) by (apply lt_0_INR; lia).
  assert (V : q * INR (n - 1) < q' * INR (n - 1)) by (apply Rmult_lt_compat_r; lra).
  assert (V0 : 0 <= q * INR (n - 1)) by (apply Rmult_le_pos; lra).
  assert (V1 : q' * INR (n - 1) <= INR (n - 1)) by (rewrite <- (Rmult_1_l (INR (n - 1))) at 2; apply Rmult_le_compat_r; lra).
  set (v := q * INR (n - 1)) in *. set (v' := q' * INR (n - 1)) in *.
  destruct (virtual_floor v (n - 1)) as (k & -> & Hk & B); [lra|]. destruct (virtual_floor v' (n - 1)) as (k' & -> & Hk' & B'); [lra|].
  assert (K : (k <= k')%nat).
  { apply Nat.lt_succ_r, INR_lt. rewrite S_INR. lra. }
  assert (Kn : (k < n - 1)%nat) by (apply INR_lt; lra). rewrite (Nat.min_l (S k)) by lia.
  assert (S1 : nth k (sortR xs) 0 < nth (S k) (sortR xs) 0) by (apply sorted_strict; auto; fold n; lia).
  set (a := nth k (sortR xs) 0) in *. set (b := nth (S k) (sortR xs) 0) in *.
  destruct (Nat.eq_dec k k') as [<-|D].
  - rewrite (Nat.min_l (S k)) by lia. fold a b. apply Rplus_lt_compat_l, Rmult_lt_compat_r; lra.
  - assert (L1 : a + (v - INR k) * (b - a) < b).
    { apply Rlt_le_trans with (a + 1 * (b - a)); [|lra]. apply Rplus_lt_compat_l, Rmult_lt_compat_r; lra. }
    assert (L2 : b <= nth k' (sortR xs) 0) by (apply sorted_nth; [apply sortR_sorted|rewrite sortR_length; fold n; lia]).
    assert (L3 : nth k' (sortR xs) 0 <= nth (Nat.min (S k') (n - 1)) (sortR xs) 0) by (apply sorted_nth; [apply sortR_sorted|rewrite sortR_length; fold n; lia]).
    assert (0 <= (v' - INR k') * (nth (Nat.min (S k') (n - 1)) (sortR xs) 0 - nth k' (sortR xs) 0)) by (apply Rmult_le_pos; lra). lra.
Qed.

(** ** The curve *)
Section Curve.
Context (n : nat) (d : list R) (Hn : (2 <= n)%nat) (Hd : d <> []).
Let c := material_curve n d.
Definition Mi (i : nat) : R := 0 + (100 - 0) * INR i / (INR n - 1).
Definition Hi (i : nat) : R := quantile d (1 - Mi i / 100).
Lemma n1 : INR n - 1 = INR (n - 1). Proof. rewrite minus_INR by lia. reflexivity. Qed.
Lemma n1pos : 0 < INR n - 1. Proof. rewrite n1. apply lt_0_INR. lia. Qed.
Lemma c_length : length c = n. Proof. unfold c, material_curve, linspace. rewrite !map_length. apply seq_length. Qed.
Lemma c_eq : c = map (fun i => (Mi i, Hi i)) (seq 0 n). Proof. unfold c, material_curve, linspace. rewrite map_map. reflexivity. Qed.
Lemma c_nth i : (i < n)%nat -> nth i c (0, 0) = (Mi i, Hi i).
Proof. intros H. rewrite c_eq. rewrite (nth_indep _ _ (Mi 0, Hi 0)) by (rewrite map_length, seq_length; exact H). rewrite (map_nth (fun i => (Mi i, Hi i))), seq_nth by exact H. reflexivity. Qed.
Lemma c_fst i : (i < n)%nat -> nth i (map fst c) 0 = Mi i.
Proof. intros H. change 0 with (fst (0, 0)) at 1. rewrite map_nth, c_nth by exact H. reflexivity. Qed.
Lemma c_snd i : (i < n)%nat -> nth i (map snd c) 0 = Hi i.
Proof. intros H. change 0 with (snd (0, 0)) at 1. rewrite map_nth, c_nth by exact H. reflexivity. Qed.
Lemma Mi_lt i j : (i < j)%nat -> Mi i < Mi j.
Proof.
  intros H. assert (P := n1pos). unfold Mi. apply lt_INR in H. apply Rplus_lt_compat_l. unfold Rdiv. apply Rmult_lt_compat_r; [apply Rinv_0_lt_compat, P|lra].
Qed.
Lemma Mi_le i j : (i <= j)%nat -> Mi i <= Mi j.
Proof. intros H. destruct (Nat.eq_dec i j) as [->|]; [lra|]. left. apply Mi_lt. lia. Qed.
Lemma Mi_inj i j : Mi i = Mi j -> i = j.
Proof. intros E. destruct (Nat.lt_trichotomy i j) as [L|[L|L]]; auto; apply Mi_lt in L; lra. Qed.
Lemma Mi_0 : Mi 0 = 0. Proof. unfold Mi. cbn. field. assert (P := n1pos). lra. Qed.
Lemma Mi_last : Mi (n - 1) = 100. Proof. unfold Mi. rewrite <- n1. assert (P := n1pos). field. lra. Qed.
Lemma Mi_range i : (i < n)%nat -> 0 <= Mi i <= 100.
Proof. intros H. rewrite <- Mi_0 at 1. rewrite <- Mi_last. split; apply Mi_le; lia. Qed.
Lemma Hi_le i j : (i <= j < n)%nat -> Hi j <= Hi i.
Proof.
  intros H. unfold Hi. assert (A := Mi_range i ltac:(lia)). assert (B := Mi_range j ltac:(lia)). assert (C := Mi_le i j ltac:(lia)).
  apply quantile_mono; auto; lra.
Qed.
Lemma Hi_strict i j : NoDup d -> (2 <= length d)%nat -> (i < j < n)%nat -> Hi j < Hi i.
Proof.
  intros N H2 H. unfold Hi. assert (A := Mi_range i ltac:(lia)). assert (B := Mi_range j ltac:(lia)). assert (C := Mi_lt i j ltac:(lia)).
  apply quantile_strict; auto; lra.
Qed.
Lemma fst_NoDup : NoDup (map fst c).
Proof. rewrite (NoDup_nth _ 0). rewrite map_length, c_length. intros i j A B E. rewrite !c_fst in E by assumption. apply Mi_inj, E. Qed.
Lemma same_len : length (map fst c) = length (map snd c). Proof. now rewrite !map_length. Qed.
Lemma mc_anti p p' : p <= p' -> mc c p' <= mc c p.
Proof.
  intros H. apply interp1d_anti; [apply same_len|apply fst_NoDup| |exact H]. rewrite map_length, c_length. intros i j A B L.
  rewrite !c_fst in L by assumption. rewrite !c_snd by assumption. apply Hi_le. split; [|exact B].
  destruct (le_lt_dec i j) as [|X]; [assumption|]. apply Mi_lt in X. lra.
Qed.
Lemma mc_node i : (i < n)%nat -> mc c (Mi i) = Hi i.
Proof. intros H. rewrite <- (c_fst i H), <- (c_snd i H). apply interp1d_node; [apply same_len|apply fst_NoDup|now rewrite map_length, c_length]. Qed.
Lemma Hi_first M : is_max M d -> Hi 0 = M.
Proof. intros H. unfold Hi. rewrite Mi_0. replace (1 - 0 / 100) with 1 by lra. apply quantile_1, H. Qed.
Lemma Hi_last m : is_min m d -> Hi (n - 1) = m.
Proof. intros H. unfold Hi. rewrite Mi_last. replace (1 - 100 / 100) with 0 by lra. apply quantile_0, H. Qed.
Lemma mc_left p : p <= 0 -> mc c p = Hi 0.
Proof.
  intros H. rewrite <- (c_snd 0) by lia. apply interp1d_left; [apply same_len|apply fst_NoDup|rewrite map_length, c_length; lia| |].
  - rewrite map_length, c_length. intros k Hk. rewrite !c_fst by lia. apply Mi_le. lia.
  - rewrite c_fst, Mi_0 by lia. exact H.
Qed.
Lemma mc_right p : 100 <= p -> mc c p = Hi (n - 1).
Proof.
  intros H. rewrite <- (c_snd (n - 1)) by lia. apply interp1d_right; [apply same_len|apply fst_NoDup|rewrite map_length, c_length; lia| |].
  - rewrite map_length, c_length. intros k Hk. rewrite !c_fst by lia. apply Mi_le. lia.
  - rewrite c_fst, Mi_last by lia. exact H.
Qed.
(** position of p on the grid *)
Lemma locate p : 0 <= p < 100 -> exists i, (S i < n)%nat /\ Mi i <= p < Mi (S i).
Proof.
  intros [A B]. assert (X : forall k, (k < n)%nat -> p < Mi k -> exists i, (S i < n)%nat /\ Mi i <= p < Mi (S i)).
  { induction k as [|k IH]; intros Hk L; [rewrite Mi_0 in L; lra|]. destruct (Rlt_le_dec p (Mi k)) as [Y|Y]; [apply IH; [lia|exact Y]|].
    exists k. auto. }
  apply (X (n - 1)%nat); [lia|]. rewrite Mi_last. exact B.
Qed.
Lemma mc_segment i p : (S i < n)%nat -> Mi i <= p <= Mi (S i) ->
  mc c p = Hi i + (Hi (S i) - Hi i) * ((p - Mi i) / (Mi (S i) - Mi i)).
Proof.
  intros H L. rewrite <- (c_fst i), <- (c_fst (S i)), <- (c_snd i), <- (c_snd (S i)) by lia. apply interp1d_segment; rewrite ?map_length, ?c_length; try lia.
  - apply fst_NoDup.
  - rewrite !c_fst by lia. apply Mi_lt. lia.
  - intros k Hk. rewrite !c_fst by lia. intros [A B]. assert (i < k)%nat by (destruct (le_lt_dec k i) as [X|X]; [apply Mi_le in X; lra|exact X]).
    assert (k < S i)%nat by (destruct (le_lt_dec (S i) k) as [X|X]; [apply Mi_le in X; lra|exact X]). lia.
  - rewrite !c_fst by lia. exact L.
Qed.
End Curve.

(** ** Inverse direction *)
Definition sorter_ok (ord : sorter) : Prop := forall l, Permutation l (ord l) /\ nondecreasing (ord l).
Lemma sort_pts_sorter : sorter_ok sort_pts. Proof. intros l. split; [apply sort_pts_perm|apply sort_pts_nd]. Qed.
Section Inverse.
Context (n : nat) (d : list R) (Hn : (2 <= n)%nat) (Hd : d <> []) (ord : sorter) (Ho : sorter_ok ord).
Let c := material_curve n d.
Let H := Hi n d.
Let M := Mi n.
Definition swapped := map (fun p : R * R => (snd p, fst p)) c.
Lemma swapped_fst : map fst swapped = map snd c. Proof. unfold swapped. rewrite map_map. apply map_ext. reflexivity. Qed.
Lemma swapped_snd : map snd swapped = map fst c. Proof. unfold swapped. rewrite map_map. apply map_ext. reflexivity. Qed.
Lemma combine_split (l : list (R * R)) : combine (map fst l) (map snd l) = l.
Proof. induction l as [|[a b] l IH]; cbn; [reflexivity|now rewrite IH]. Qed.
Lemma mr_range z : 0 <= mr ord c z <= 100.
Proof.
  unfold mr. fold swapped. destruct (Ho swapped) as [P N]. apply interp_between.
  - intros X. rewrite X in P. apply Permutation_sym, Permutation_nil in P. apply (f_equal (@length _)) in P. unfold swapped in P. rewrite map_length in P. unfold c in P. rewrite c_length in P. cbn in P. lia.
  - exact N.
  - intros p Hp. apply (Permutation_in _ (Permutation_sym P)) in Hp. unfold swapped in Hp. apply in_map_iff in Hp as (q & <- & Hq).
    destruct (In_nth _ _ (0, 0) Hq) as (i & Hi & Eq). unfold c in Hi. rewrite c_length in Hi. unfold c in Eq. rewrite c_nth in Eq by assumption. subst q. apply (Mi_range n Hn), Hi.
Qed.
Lemma mr_interp1d z : NoDup (map snd c) -> mr ord c z = interp1d (map snd c) (map fst c) z.
Proof.
  intros N. unfold mr, interp1d. fold swapped. destruct (Ho swapped) as [P Nd]. f_equal.
  rewrite <- swapped_fst, <- swapped_snd, combine_split. rewrite <- swapped_fst in N. apply ascending_unique.
  - apply nd_distinct_asc; [exact Nd|]. eapply Permutation_NoDup; [apply Permutation_map, P|exact N].
  - apply sort_pts_asc, N.
  - eapply Permutation_trans; [apply Permutation_sym, P|apply sort_pts_perm].
Qed.
Lemma snd_NoDup : NoDup d -> (2 <= length d)%nat -> NoDup (map snd c).
Proof.
  intros N H2. rewrite (NoDup_nth _ 0). rewrite map_length. unfold c. rewrite c_length. intros i j A B E. rewrite !c_snd in E by assumption.
  destruct (Nat.lt_trichotomy i j) as [L|[L|L]]; auto; exfalso.
  - assert (X := Hi_strict n d Hn i j N H2 ltac:(lia)). lra.
  - assert (X := Hi_strict n d Hn j i N H2 ltac:(lia)). lra.
Qed.
Lemma mr_anti z z' : NoDup (map snd c) -> z <= z' -> mr ord c z' <= mr ord c z.
Proof.
  intros N L. rewrite !mr_interp1d by exact N. apply interp1d_anti; [now rewrite !map_length|exact N| |exact L].
  rewrite map_length. unfold c. rewrite c_length. intros i j A B X. rewrite !c_snd in X by assumption. rewrite !c_fst by assumption.
  apply (Mi_le n Hn). destruct (le_lt_dec j i) as [|Y]; [assumption|]. assert (Z := Hi_le n d Hn Hd i j ltac:(lia)). lra.
Qed.
Lemma mr_mc p : NoDup (map snd c) -> 0 <= p <= 100 -> mr ord c (mc c p) = p.
Proof.
  intros N [A B]. rewrite mr_interp1d by exact N.
  assert (SS : forall i j, (i < j < n)%nat -> Hi n d j < Hi n d i).
  { intros i j L. destruct (Hi_le n d Hn Hd i j ltac:(lia)) as [X|X]; [exact X|]. exfalso.
    rewrite (NoDup_nth _ 0) in N. rewrite map_length in N. unfold c in N. rewrite c_length in N. specialize (N i j ltac:(lia) ltac:(lia)).
    rewrite !c_snd in N by lia. specialize (N (eq_sym X)). lia. }
  destruct (Req_dec p 100) as [->|D].
  - unfold c. rewrite <- (Mi_last n Hn) at 1. rewrite (mc_node n d Hn (n - 1)) by lia. rewrite <- (c_snd n d) by lia.
    rewrite interp1d_node; [rewrite c_fst by lia; apply (Mi_last n Hn)|now rewrite !map_length|exact N|rewrite map_length, c_length; lia].
  - destruct (locate n Hn p ltac:(lra)) as (i & Hi' & L1). assert (L : Mi n i <= p <= Mi n (Datatypes.S i)) by lra.
    assert (Si := SS i (Datatypes.S i) ltac:(lia)). assert (Mlt := Mi_lt n Hn i (Datatypes.S i) ltac:(lia)).
    assert (Seg := mc_segment n d Hn i p Hi' L). fold c in Seg.
    set (t := (p - Mi n i) / (Mi n (Datatypes.S i) - Mi n i)) in *.
    assert (Ht : 0 <= t <= 1).
    { unfold t. split; [apply Rmult_le_pos; [lra|left; apply Rinv_0_lt_compat; lra]|]. apply Rmult_le_reg_r with (Mi n (Datatypes.S i) - Mi n i); [lra|]. unfold Rdiv. rewrite Rmult_assoc, Rinv_l by lra. lra. }
    rewrite (interp1d_segment (map snd c) (map fst c) ltac:(now rewrite !map_length) N (Datatypes.S i) i); rewrite ?map_length; unfold c; rewrite ?c_length, ?c_snd, ?c_fst by lia; fold c; try lia.
    + rewrite Seg. replace ((Hi n d i + (Hi n d (Datatypes.S i) - Hi n d i) * t - Hi n d (Datatypes.S i)) / (Hi n d i - Hi n d (Datatypes.S i))) with (1 - t) by (field; lra).
      unfold t. field. lra.
    + exact Si.
    + intros k Hk. unfold c in *. try rewrite c_length in Hk. rewrite c_snd by exact Hk. intros [X Y].
      destruct (le_lt_dec k i) as [Z|Z]; [assert (W := Hi_le n d Hn Hd k i ltac:(lia)); lra|].
      assert (W := Hi_le n d Hn Hd (Datatypes.S i) k ltac:(lia)). lra.
    + rewrite Seg. assert (0 <= (Hi n d i - Hi n d (Datatypes.S i)) * t) by (apply Rmult_le_pos; lra).
      assert (0 <= (Hi n d i - Hi n d (Datatypes.S i)) * (1 - t)) by (apply Rmult_le_pos; lra). lra.
Qed.
End Inverse.

(** ** trapezoid areas on a descending curve *)
Fixpoint down (l : list (R * R)) : Prop :=
  match l with p :: ((q :: _) as l') => fst q <= fst p /\ down l' | _ => True end.
Definition nonneg_y (l : list (R * R)) : Prop := forall p, In p l -> 0 <= snd p.
Lemma trap_cons2 p q l : trapezoid (p :: q :: l) = (fst q - fst p) * (snd p + snd q) / 2 + trapezoid (q :: l).
Proof. reflexivity. Qed.
Lemma trap_term_nonpos p q : fst q <= fst p -> 0 <= snd p -> 0 <= snd q -> (fst q - fst p) * (snd p + snd q) / 2 <= 0.
Proof. intros A B C. assert (0 <= (fst p - fst q) * (snd p + snd q)) by (apply Rmult_le_pos; lra). lra. Qed.
Lemma trap_nonpos l : down l -> nonneg_y l -> trapezoid l <= 0.
Proof.
  induction l as [|p l IH]; intros D Y; [cbn; lra|]. destruct l as [|q l]; [cbn; lra|]. rewrite trap_cons2. destruct D as [A D].
  assert (X := IH D (fun r Hr => Y r (or_intror Hr))).
  assert (Z := trap_term_nonpos p q A (Y p (or_introl eq_refl)) (Y q (or_intror (or_introl eq_refl)))). lra.
Qed.
Lemma trap_tail p l : down (p :: l) -> nonneg_y (p :: l) -> trapezoid (p :: l) <= trapezoid l.
Proof.
  intros D Y. destruct l as [|q l]; [cbn; lra|]. rewrite trap_cons2. destruct D as [A D].
  assert (Z := trap_term_nonpos p q A (Y p (or_introl eq_refl)) (Y q (or_intror (or_introl eq_refl)))). lra.
Qed.
Lemma down_tail p l : down (p :: l) -> down l. Proof. destruct l; [constructor|]. intros [_ H]. exact H. Qed.
Lemma nonneg_tail p l : nonneg_y (p :: l) -> nonneg_y l. Proof. intros H q Hq. apply H. now right. Qed.
Lemma down_skipn k : forall l, down l -> down (skipn k l).
Proof. induction k as [|k IH]; intros l H; [exact H|]. destruct l; [exact I|]. apply IH. eapply down_tail, H. Qed.
Lemma nonneg_skipn k l : nonneg_y l -> nonneg_y (skipn k l).
Proof. intros H q Hq. apply H. rewrite <- (firstn_skipn k l). apply in_or_app. now right. Qed.
Lemma down_firstn k : forall l, down l -> down (firstn k l).
Proof.
  induction k as [|k IH]; intros l H; [exact I|]. destruct l as [|p l]; [exact I|]. cbn [firstn]. destruct l as [|q l]; [destruct k; exact I|].
  destruct H as [A D]. specialize (IH (q :: l) D). destruct k as [|k]; [exact I|]. cbn [firstn] in *. split; [exact A|exact IH].
Qed.
Lemma nonneg_firstn k l : nonneg_y l -> nonneg_y (firstn k l).
Proof. intros H q Hq. apply H. rewrite <- (firstn_skipn k l). apply in_or_app. now left. Qed.
Lemma trap_skipn_mono l : down l -> nonneg_y l -> forall k k', (k <= k')%nat -> trapezoid (skipn k l) <= trapezoid (skipn k' l).
Proof.
  induction l as [|p l IH]; intros D Y k k' H; [rewrite !skipn_nil; lra|].
  assert (Dt := down_tail _ _ D). assert (Yt := nonneg_tail _ _ Y).
  destruct k as [|k], k' as [|k']; cbn [skipn]; try lia; try lra.
  - apply Rle_trans with (trapezoid l); [apply trap_tail; assumption|]. exact (IH Dt Yt 0%nat k' ltac:(lia)).
  - apply IH; auto; lia.
Qed.
Lemma trap_firstn_mono l : down l -> nonneg_y l -> forall k k', (k <= k')%nat -> trapezoid (firstn k' l) <= trapezoid (firstn k l).
Proof.
  induction l as [|p l IH]; intros D Y k k' H; [rewrite !firstn_nil; lra|].
  destruct k as [|k]; [cbn [firstn trapezoid]; change (trapezoid (firstn k' (p :: l)) <= 0); apply trap_nonpos; [apply down_firstn, D|apply nonneg_firstn, Y]|].
  destruct k' as [|k']; [lia|]. cbn [firstn].
  assert (Dt := down_tail _ _ D). assert (Yt := nonneg_tail _ _ Y). specialize (IH Dt Yt k k' ltac:(lia)).
  destruct l as [|q l]; [rewrite !firstn_nil; lra|].
  destruct k as [|k], k' as [|k']; try lia; try lra; cbn [firstn] in *; rewrite ?trap_cons2.
  - assert (Z := trap_term_nonpos p q (proj1 D) (Y p (or_introl eq_refl)) (Y q (or_intror (or_introl eq_refl)))).
    change (trapezoid [p]) with 0. change (trapezoid []) with 0 in IH. lra.
  - lra.
Qed.
Lemma trap_flat l z : (forall p, In p l -> fst p = z) -> trapezoid l = 0.
Proof.
  induction l as [|p l IH]; intros H; [reflexivity|]. destruct l as [|q l]; [reflexivity|]. rewrite trap_cons2.
  rewrite IH by (intros r Hr; apply H; now right). rewrite (H p), (H q) by (cbn; auto). lra.
Qed.

(** argclosest on a non-increasing array is antitone in the target *)
Lemma argclosest_anti xs x x' i i' : (forall a b, (a <= b < length xs)%nat -> nth b xs 0 <= nth a xs 0) ->
  x' <= x -> argclosest x xs = Ok i -> argclosest x' xs = Ok i' -> (i <= i')%nat.
Proof.
  intros Hd Hx E E'. destruct (le_lt_dec i i') as [L|L]; auto. exfalso.
  apply argclosest_spec in E as (H1 & H2 & H3). apply argclosest_spec in E' as (H1' & H2' & H3').
  assert (A := H3 i' L). assert (B := H2' i H1). assert (C := Hd i' i ltac:(lia)).
  unfold Rabs in *. repeat destruct Rcase_abs; lra.
Qed.

(** ** The central region *)
Definition secant (f : R -> R) (p : R * R) : R := (f (fst p + 40) - snd p) / 40.
Lemma central_spec f l : forall pre rest ifinal best, l = pre ++ rest ->
  (forall p, In p pre -> fst p <= 60) ->
  match best with
  | None => pre = [] /\ ifinal = 0%nat
  | Some b => (ifinal < length pre)%nat /\ b = secant f (nth ifinal l (0, 0)) /\
      (forall j, (j < length pre)%nat -> secant f (nth j l (0, 0)) <= b) /\ (forall j, (j < ifinal)%nat -> secant f (nth j l (0, 0)) < b)
  end ->
  forall r, central f rest (length pre) ifinal best = Ok r ->
  exists stop, (stop < length l)%nat /\ 60 < fst (nth stop l (0, 0)) /\ (forall j, (j < stop)%nat -> fst (nth j l (0, 0)) <= 60) /\
    ((stop = 0 /\ r = 0)%nat \/ (r < stop)%nat /\ (forall j, (j < stop)%nat -> secant f (nth j l (0, 0)) <= secant f (nth r l (0, 0))) /\
      (forall j, (j < r)%nat -> secant f (nth j l (0, 0)) < secant f (nth r l (0, 0)))).
Proof.
  intros pre rest. revert pre. induction rest as [|[m h] rest IH]; intros pre ifinal best El Hpre Hinv r E; [discriminate|].
  cbn [central] in E. replace (100 - 40) with 60 in E by lra.
  assert (Nth : nth (length pre) l (0, 0) = (m, h)) by (rewrite El, app_nth2, Nat.sub_diag by lia; reflexivity).
  assert (Hl : (length pre < length l)%nat) by (rewrite El, app_length; cbn; lia).
  assert (Inp : forall j, (j < length pre)%nat -> In (nth j l (0, 0)) pre) by (intros j Hj; rewrite El, app_nth1 by exact Hj; apply nth_In, Hj).
  destruct (Rlt_dec 60 m) as [L|L].
  - injection E as <-. exists (length pre). split; [exact Hl|]. split; [rewrite Nth; exact L|]. split; [intros j Hj; apply Hpre, Inp, Hj|].
    destruct best as [b|]; [right|left; destruct Hinv as [-> ->]; auto]. destruct Hinv as (A & B & C & D). rewrite <- B. auto.
  - assert (El' : l = (pre ++ [(m, h)]) ++ rest) by (rewrite <- app_assoc; exact El).
    assert (Hpre' : forall p, In p (pre ++ [(m, h)]) -> fst p <= 60) by (intros p Hp; apply in_app_iff in Hp as [Hp|[<-|[]]]; [apply Hpre, Hp|cbn; lra]).
    assert (Len : length (pre ++ [(m, h)]) = S (length pre)) by (rewrite app_length; cbn; lia).
    assert (Sec : (f (m + 40) - h) / 40 = secant f (nth (length pre) l (0, 0))) by (rewrite Nth; reflexivity).
    rewrite <- Len in E. rewrite Sec in E. destruct best as [b|].
    + destruct Hinv as (A & B & C & D). destruct (Rlt_dec b (secant f (nth (length pre) l (0, 0)))) as [G|G].
      * apply (IH (pre ++ [(m, h)]) _ _ El' Hpre') in E; [exact E|]. rewrite Len. split; [lia|]. split; [reflexivity|]. split.
        -- intros j Hj. destruct (Nat.eq_dec j (length pre)) as [->|]; [lra|]. specialize (C j ltac:(lia)). lra.
        -- intros j Hj. specialize (C j Hj). lra.
      * apply (IH (pre ++ [(m, h)]) _ _ El' Hpre') in E; [exact E|]. rewrite Len. split; [lia|]. split; [exact B|]. split; [|exact D].
        intros j Hj. destruct (Nat.eq_dec j (length pre)) as [->|]; [lra|]. apply C. lia.
    + destruct Hinv as [-> ->]. apply (IH ([] ++ [(m, h)]) _ _ El' Hpre') in E; [exact E|]. rewrite Len. split; [cbn; lia|]. split; [reflexivity|]. split; [|intros j Hj; lia].
      intros j Hj. cbn in Hj. replace j with 0%nat by lia. cbn [length]. lra.
Qed.
Lemma central_ok f rest : forall i ifinal best, (exists p, In p rest /\ 60 < fst p) -> exists r, central f rest i ifinal best = Ok r.
Proof.
  induction rest as [|[m h] rest IH]; intros i ifinal best (p & Hp & L); [destruct Hp|].
  cbn [central]. replace (100 - 40) with 60 by lra. destruct (Rlt_dec 60 m) as [G|G]; [eauto|].
  destruct Hp as [<-|Hp]; [cbn in L; lra|]. destruct best as [b|]; [destruct Rlt_dec|]; apply IH; eauto.
Qed.
Lemma searchsorted_spec l v : (forall i j, (i < j < length l)%nat -> nth i l 0 < nth j l 0) ->
  forall i, (i < length l)%nat -> ((i < searchsorted_right l v)%nat <-> nth i l 0 <= v).
Proof.
  induction l as [|x l IH]; intros Hs i Hi; [cbn in Hi; lia|]. cbn [searchsorted_right]. destruct (Rle_dec x v) as [L|L].
  - destruct i as [|i]; [cbn; split; [auto|lia]|]. cbn [nth]. cbn in Hi. rewrite <- (IH (fun a b H => Hs (S a) (S b) ltac:(cbn; lia)) i) by lia. lia.
  - split; [lia|]. intros X. exfalso. destruct i as [|i]; [cbn in X; lra|]. specialize (Hs 0%nat (S i) ltac:(cbn in *; lia)). cbn in Hs, X. lra.
Qed.
Lemma searchsorted_le l v : (searchsorted_right l v <= length l)%nat.
Proof. induction l as [|x l IH]; cbn; [lia|]. destruct Rle_dec; lia. Qed.

(** ** The least-squares line of a descending point set does not rise *)
Lemma sum_pairs {A} (f g : A -> R) (l : list A) :
  sumR (map (fun p => sumR (map (fun q => (f p - f q) * (g p - g q)) l)) l) =
  2 * INR (length l) * sumR (map (fun p => f p * g p) l) - 2 * sumR (map f l) * sumR (map g l).
Proof.
  assert (I : forall p, sumR (map (fun q => (f p - f q) * (g p - g q)) l) =
    INR (length l) * (f p * g p) - f p * sumR (map g l) - g p * sumR (map f l) + sumR (map (fun q => f q * g q) l)).
  { intros p. rewrite (sumR_ext _ (fun q => (f p * g p - f p * g q) - (g p * f q - f q * g q))) by (intros; ring).
    rewrite !sumR_map_minus, !sumR_map_scal, sumR_map_const. ring. }
  rewrite (sumR_ext _ _ l (fun p _ => I p)).
  rewrite (sumR_ext _ (fun p => ((INR (length l) * (f p * g p) - sumR (map g l) * f p) - sumR (map f l) * g p) + sumR (map (fun q => f q * g q) l))) by (intros; ring).
  rewrite sumR_map_plus, !sumR_map_minus, !sumR_map_scal, sumR_map_const. ring.
Qed.
Lemma fit_nonrising (pts : list (R * R)) sol : (exists p q, In p pts /\ In q pts /\ fst p <> fst q) ->
  (forall p q, In p pts -> In q pts -> fst p <= fst q -> snd q <= snd p) ->
  least_squares 2 (map (fun p => [fst p; 1]) pts) (map snd pts) sol -> nth 0 sol 0 <= 0.
Proof.
  intros (p0 & q0 & Ip & Iq & Dpq) Hd L.
  assert (O := min_orth pts (fun p : R * R => [fst p; 1]) 2 (fun _ => eq_refl) snd sol L). unfold orth in O.
  destruct L as [Ls _]. destruct sol as [|s [|b [|? ?]]]; try discriminate Ls. cbn [nth].
  assert (Dt : forall p : R * R, dot [fst p; 1] [s; b] = s * fst p + b) by (intros p; unfold dot; cbn; ring).
  assert (O1 := O [1; 0] eq_refl). assert (O2 := O [0; 1] eq_refl).
  set (r := fun p : R * R => snd p - (s * fst p + b)).
  assert (R1 : sumR (map (fun p => fst p * r p) pts) = 0).
  { rewrite <- O1. apply sumR_ext. intros p _. rewrite Dt. unfold r, dot. cbn. ring. }
  assert (R2 : sumR (map r pts) = 0).
  { rewrite <- O2. apply sumR_ext. intros p _. rewrite Dt. unfold r, dot. cbn. ring. }
  assert (P1 := sum_pairs fst r pts). rewrite R1, R2 in P1. rewrite !Rmult_0_r, Rminus_0_r in P1.
  assert (P2 : sumR (map (fun p => sumR (map (fun q => (fst p - fst q) * (snd p - snd q)) pts)) pts) =
    sumR (map (fun p => sumR (map (fun q => (fst p - fst q) * (r p - r q)) pts)) pts) + s * sumR (map (fun p => sumR (map (fun q => (fst p - fst q) * (fst p - fst q)) pts)) pts)).
  { rewrite <- sumR_map_scal, <- sumR_map_plus. apply sumR_ext. intros p _. rewrite <- sumR_map_scal, <- sumR_map_plus. apply sumR_ext. intros q _. unfold r. ring. }
  rewrite P1, Rplus_0_l in P2.
  assert (N : sumR (map (fun p => sumR (map (fun q => (fst p - fst q) * (snd p - snd q)) pts)) pts) <= 0).
  { rewrite <- (Rmult_0_r (INR (length pts))). rewrite <- sumR_map_const. apply sumR_le. intros p Hp.
    rewrite <- (Rmult_0_r (INR (length pts))). rewrite <- sumR_map_const. apply sumR_le. intros q Hq.
    destruct (Rle_dec (fst p) (fst q)) as [X|X].
    - assert (Y := Hd p q Hp Hq X). assert (0 <= (fst q - fst p) * (snd p - snd q)) by (apply Rmult_le_pos; lra). lra.
    - assert (Y := Hd q p Hq Hp ltac:(lra)). assert (0 <= (fst p - fst q) * (snd q - snd p)) by (apply Rmult_le_pos; lra). lra. }
  assert (Pos : 0 < sumR (map (fun p => sumR (map (fun q => (fst p - fst q) * (fst p - fst q)) pts)) pts)).
  { assert (T : forall p : R * R, 0 <= sumR (map (fun q => (fst p - fst q) * (fst p - fst q)) pts)).
    { intros p. apply sumR_nonneg. intros x Hx. apply in_map_iff in Hx as (q & <- & _). apply Rle_0_sqr. }
    apply Rlt_le_trans with (sumR (map (fun q => (fst p0 - fst q) * (fst p0 - fst q)) pts)).
    - apply Rlt_le_trans with ((fst p0 - fst q0) * (fst p0 - fst q0)).
      + apply (Rlt_0_sqr (fst p0 - fst q0)). lra.
      + apply sumR_In_le; [intros y Hy; apply in_map_iff in Hy as (q & <- & _); apply Rle_0_sqr|]. apply in_map_iff. eauto.
    - apply sumR_In_le; [intros y Hy; apply in_map_iff in Hy as (p & <- & _); apply T|]. apply in_map_iff. eauto. }
  destruct (Rle_dec s 0) as [G|G]; [exact G|]. exfalso.
  assert (0 < s * sumR (map (fun p => sumR (map (fun q => (fst p - fst q) * (fst p - fst q)) pts)) pts)) by (apply Rmult_lt_0_compat; lra). lra.
Qed.
