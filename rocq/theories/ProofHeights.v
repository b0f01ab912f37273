From Coq Require Import String Reals List Bool Arith Lra Lia Permutation.
From Verif Require Import Base RList ModelMath ProofMath ModelHeights.
Import ListNotations.
Local Open Scope R_scope.

(** ** Cells, shapes *)
Lemma cell_gmap f g i j : cell (gmap f g) i j = option_map f (cell g i j).
Proof. unfold cell, gmap. rewrite nth_error_map. destruct (nth_error g i) as [r|]; cbn; [apply nth_error_map|reflexivity]. Qed.
Lemma flat_gmap f g : flat (gmap f g) = map f (flat g).
Proof. symmetry. apply concat_map. Qed.
Lemma shape_gmap f g : map (@length _) (gmap f g) = map (@length _) g.
Proof. unfold gmap. rewrite map_map. apply map_ext. intros r. apply map_length. Qed.
Lemma gmap_gmap f f' g : gmap f (gmap f' g) = gmap (fun h => f (f' h)) g.
Proof. unfold gmap. rewrite map_map. apply map_ext. intros r. apply map_map. Qed.
Lemma gmap_ext_in f f' g : (forall h, In h (flat g) -> f h = f' h) -> gmap f g = gmap f' g.
Proof.
  intros H. unfold gmap. apply map_ext_in. intros r Hr. apply map_ext_in. intros h Hh. apply H.
  unfold flat. apply in_concat. eauto.
Qed.
Lemma gmap_id_in f g : (forall h, In h (flat g) -> f h = h) -> gmap f g = g.
Proof.
  intros H. rewrite (gmap_ext_in f (fun h => h)) by exact H. unfold gmap.
  rewrite <- (map_id g) at 2. apply map_ext. intros r. apply map_id.
Qed.
Lemma In_flat_cell h g : In h (flat g) <-> exists i j, cell g i j = Some h.
Proof.
  unfold flat, cell. rewrite in_concat. split.
  - intros (r & Hr & Hh). apply In_nth_error in Hr as [i Ei]. apply In_nth_error in Hh as [j Ej].
    exists i, j. rewrite Ei. exact Ej.
  - intros (i & j & E). destruct (nth_error g i) as [r|] eqn:Er; [|discriminate].
    exists r. split; eapply nth_error_In; eauto.
Qed.
Lemma nth_error_ext' {A} (l l' : list A) : (forall j, nth_error l j = nth_error l' j) -> l = l'.
Proof.
  revert l'. induction l as [|x l IH]; intros [|y l'] H; auto; try (specialize (H 0%nat); discriminate).
  assert (E := H 0%nat). cbn in E. injection E as ->. f_equal. apply IH. intros j. exact (H (S j)).
Qed.
Lemma grid_ext g g' : map (@length _) g = map (@length _) g' -> (forall i j, cell g i j = cell g' i j) -> g = g'.
Proof.
  revert g'. induction g as [|r g IH]; intros [|r' g'] Hs Hc; try discriminate; auto.
  injection Hs as Hl Hs. f_equal.
  - apply nth_error_ext'. intros j. exact (Hc 0%nat j).
  - apply IH; auto. intros i j. exact (Hc (S i) j).
Qed.

Lemma measured_In x l : In x (measured l) <-> In (Some x) l.
Proof.
  unfold measured. rewrite in_flat_map. split.
  - intros (h & Hh & Hx). destruct h as [y|]; cbn in Hx; [|destruct Hx]. destruct Hx as [->|[]]. exact Hh.
  - intros H. exists (Some x). split; auto. left; auto.
Qed.
Lemma measured_app l l' : measured (l ++ l') = measured l ++ measured l'.
Proof. unfold measured. apply flat_map_app. Qed.
Lemma measured_map f k l : f None = None -> (forall x, f (Some x) = Some (k x)) -> measured (map f l) = map k (measured l).
Proof.
  intros H0 H1. induction l as [|[x|] l IH]; cbn; auto.
  - rewrite H1. cbn. f_equal. exact IH.
  - rewrite H0. exact IH.
Qed.
Lemma measured_all l : existsb is_nan l = false -> map Some (measured l) = l.
Proof.
  induction l as [|[x|] l IH]; cbn; auto; [|discriminate]. intros H. f_equal. apply IH, H.
Qed.
Lemma measured_empty l : measured l = [] -> forall h, In h l -> h = None.
Proof.
  intros E h Hh. destruct h as [x|]; auto. apply measured_In in Hh. rewrite E in Hh. destruct Hh.
Qed.

(** ** Shift operations: center and zero *)
Definition shift_grid (c : R) (g : grid) : grid := gmap (fun h => hsub h (Some c)) g.
Lemma measured_shift c g : measured (flat (shift_grid c g)) = map (fun x => x - c) (measured (flat g)).
Proof. unfold shift_grid. rewrite flat_gmap. apply measured_map; reflexivity. Qed.
Lemma shift_cell c g i j h : cell (shift_grid c g) i j = Some h <->
  exists h0, cell g i j = Some h0 /\ h = option_map (fun x => x - c) h0.
Proof.
  unfold shift_grid. rewrite cell_gmap. destruct (cell g i j) as [[x|]|]; cbn; split; intros H;
    try (injection H as <-; eauto); try (destruct H as (h0 & E & ->); injection E as <-; reflexivity);
    try discriminate. destruct H as (h0 & E & _); discriminate.
Qed.
Lemma center_shift g : measured (flat g) <> [] -> center g = shift_grid (meanR (measured (flat g))) g.
Proof. intros H. unfold center, nanmean. destruct (measured (flat g)); [congruence|]. reflexivity. Qed.
Lemma all_none_gmap f g : measured (flat g) = [] -> f None = None -> gmap f g = g.
Proof. intros H Hf. apply gmap_id_in. intros h Hh. rewrite (measured_empty _ H h Hh). exact Hf. Qed.
Lemma center_none g : measured (flat g) = [] -> center g = g.
Proof. intros H. apply all_none_gmap; auto. Qed.

Lemma center_mean_zero g : measured (flat g) <> [] -> meanR (measured (flat (center g))) = 0.
Proof.
  intros H. rewrite center_shift, measured_shift by exact H.
  set (m := measured (flat g)) in *.
  rewrite (map_ext _ (fun x => x + - meanR m)) by (intros; lra). rewrite meanR_shift by exact H. lra.
Qed.
Lemma shift_zero g : shift_grid 0 g = g.
Proof. apply gmap_id_in. intros [x|] _; cbn; [f_equal; lra|reflexivity]. Qed.
Lemma shift_shift c c' g : shift_grid c (shift_grid c' g) = shift_grid (c + c') g.
Proof. unfold shift_grid. rewrite gmap_gmap. apply gmap_ext_in. intros [x|] _; cbn; [f_equal; lra|reflexivity]. Qed.
Lemma map_ne {A B} (f : A -> B) l : l <> [] -> map f l <> [].
Proof. destruct l; [congruence|discriminate]. Qed.
Lemma center_idem g : center (center g) = center g.
Proof.
  destruct (measured (flat g)) as [|x m] eqn:E.
  - rewrite !(center_none g) by exact E. reflexivity.
  - assert (Hne : measured (flat g) <> []) by (rewrite E; discriminate).
    rewrite (center_shift (center g)).
    + rewrite center_mean_zero by exact Hne. apply shift_zero.
    + rewrite center_shift, measured_shift by exact Hne. apply map_ne, Hne.
Qed.
Lemma center_absorbs_shift c g : center (shift_grid c g) = center g.
Proof.
  destruct (measured (flat g)) as [|x m] eqn:E.
  - assert (S : shift_grid c g = g) by (apply all_none_gmap; auto). rewrite S. reflexivity.
  - assert (Hne : measured (flat g) <> []) by (rewrite E; discriminate).
    rewrite !center_shift by (rewrite ?measured_shift; auto using map_ne).
    rewrite shift_shift, measured_shift. f_equal.
    rewrite (map_ext _ (fun x => x + - c)) by (intros; lra). rewrite meanR_shift by exact Hne. lra.
Qed.

Lemma zero_shift g m : is_min m (measured (flat g)) -> zero g = Ok (shift_grid m g).
Proof.
  intros H. unfold zero. apply lmin_spec in H. unfold nanmin.
  destruct (flat g) as [|h l] eqn:E; [discriminate H|]. rewrite H. reflexivity.
Qed.
Lemma zero_none g : flat g <> [] -> measured (flat g) = [] -> zero g = Ok g.
Proof.
  intros H E. unfold zero. destruct (flat g) eqn:Ef; [congruence|]. f_equal. apply all_none_gmap; [congruence|reflexivity].
Qed.
Lemma shift_flat_ne c g : flat g <> [] -> flat (shift_grid c g) <> [].
Proof. unfold shift_grid. rewrite flat_gmap. apply map_ne. Qed.
Lemma shift_is_min c g m : is_min m (measured (flat g)) -> is_min (m - c) (measured (flat (shift_grid c g))).
Proof. intros H. rewrite measured_shift. apply (is_min_map_mono (fun x => x - c)); auto. intros; lra. Qed.

(** ** invert *)
Lemma invert_ok g a b : has_missing g = false -> is_min a (measured (flat g)) -> is_max b (measured (flat g)) ->
  invert g = Ok (gmap (option_map (fun x => a + b - x)) g).
Proof.
  intros Hm Ha Hb. unfold invert, npmin, npmax. unfold has_missing in Hm.
  apply lmin_spec in Ha. apply lmax_spec in Hb.
  destruct (flat g) as [|h l] eqn:E; [discriminate Ha|]. rewrite Hm, Ha, Hb. apply f_equal.
  apply gmap_ext_in. intros [x|] _; reflexivity.
Qed.
Lemma has_missing_gmap f g : (forall h, is_nan (f h) = is_nan h) -> has_missing (gmap f g) = has_missing g.
Proof.
  intros H. unfold has_missing. rewrite flat_gmap. induction (flat g) as [|h l IH]; cbn; auto. now rewrite H, IH.
Qed.
Lemma nomissing_cell g i j h : has_missing g = false -> cell g i j = Some h -> exists x, h = Some x.
Proof.
  intros Hm E. destruct h as [x|]; eauto. exfalso.
  assert (In None (flat g)) by (apply In_flat_cell; eauto).
  unfold has_missing in Hm.
  assert (X : existsb is_nan (flat g) = true) by (apply existsb_exists; exists None; auto). congruence.
Qed.
Lemma has_missing_cell g : has_missing g = true <-> exists i j, cell g i j = Some None.
Proof.
  unfold has_missing. rewrite existsb_exists. split.
  - intros (h & Hh & E). destruct h; [discriminate|]. apply In_flat_cell, Hh.
  - intros H. exists None. split; auto. apply In_flat_cell, H.
Qed.
Lemma invert_missing g : has_missing g = true -> exists g', invert g = Ok g' /\ forall i j h, cell g' i j = Some h -> h = None.
Proof.
  intros Hm. unfold invert. unfold has_missing in Hm.
  destruct (flat g) as [|h0 l] eqn:E; [discriminate|]. rewrite <- E in *. eexists. split; [reflexivity|].
  unfold npmin. rewrite Hm. intros i j h. rewrite cell_gmap. destruct (cell g i j) as [[x|]|]; cbn; intros X; injection X as <- || discriminate; auto.
Qed.

(** ** drop_if *)
Lemma drop_cell p g i j h : cell (gmap (drop_if p) g) i j = Some h ->
  exists h0, cell g i j = Some h0 /\ (h = h0 \/ h = None).
Proof.
  rewrite cell_gmap. destruct (cell g i j) as [[x|]|]; cbn; intros E; injection E as <- || discriminate; eexists; split; eauto.
  destruct (p x); auto.
Qed.
Lemma drop_keep p g i j x : cell (gmap (drop_if p) g) i j = Some (Some x) <->
  cell g i j = Some (Some x) /\ p x = false.
Proof.
  rewrite cell_gmap. destruct (cell g i j) as [[y|]|]; cbn; split; try (intros [? ?]; discriminate); try discriminate.
  - destruct (p y) eqn:E; intros X; try discriminate. injection X as <-. auto.
  - intros [X E]. injection X as ->. rewrite E. reflexivity.
Qed.

(** ** threshold *)
Lemma ratios_length n : length (ratios n) = n.
Proof. unfold ratios. now rewrite map_length, seq_length. Qed.
Lemma ratios_nth n k : (k < n)%nat -> nth k (ratios n) 0 = INR (k + 1) / INR n.
Proof.
  intros H. unfold ratios.
  rewrite nth_indep with (d' := (fun k => INR (k + 1) / INR n) 0%nat) by (rewrite map_length, seq_length; exact H).
  rewrite (map_nth (fun k => INR (k + 1) / INR n)), seq_nth by exact H. reflexivity.
Qed.
Lemma ratios_inc n a b : (a < b < length (ratios n))%nat -> nth a (ratios n) 0 < nth b (ratios n) 0.
Proof.
  rewrite ratios_length. intros H. rewrite !ratios_nth by lia.
  apply Rmult_lt_compat_r; [apply Rinv_0_lt_compat, lt_0_INR; lia|apply lt_INR; lia].
Qed.
Lemma rev_nth' (l : list R) k : (k < length l)%nat -> nth k (rev l) 0 = nth (length l - S k) l 0.
Proof. intros H. apply rev_nth, H. Qed.

(** Counting: in a descending list, the number of elements above the k-th is at most k. *)
Definition count (p : R -> bool) (l : list R) : nat := length (List.filter p l).
Lemma count_app p l l' : count p (l ++ l') = (count p l + count p l')%nat.
Proof. unfold count. now rewrite filter_app, app_length. Qed.
Lemma count_perm p l l' : Permutation l l' -> count p l = count p l'.
Proof.
  unfold count. induction 1 as [|x l l' P IH|x y l|l l' l'' P1 IH1 P2 IH2]; cbn; auto.
  - destruct (p x); cbn; auto.
  - destruct (p x), (p y); cbn; auto.
  - congruence.
Qed.
Lemma count_le_length p l : (count p l <= length l)%nat.
Proof. unfold count. induction l as [|x l IH]; cbn; [lia|]. destruct (p x); cbn; lia. Qed.
Lemma count_zero p l : (forall x, In x l -> p x = false) -> count p l = 0%nat.
Proof.
  unfold count. induction l as [|x l IH]; intros H; cbn; auto. rewrite (H x) by (left; auto). apply IH. intros; apply H; right; auto.
Qed.
Lemma count_ext p q l : (forall x, In x l -> p x = q x) -> count p l = count q l.
Proof. intros H. unfold count. f_equal. apply filter_ext_in, H. Qed.
Lemma count_split p s k : count p s = (count p (firstn k s) + count p (skipn k s))%nat.
Proof. rewrite <- count_app, firstn_skipn. reflexivity. Qed.
Lemma sorted_count_above s k : sorted s -> (k < length s)%nat ->
  (count (fun v => Rltb (nth k s 0%R) v) s <= length s - S k)%nat.
Proof.
  intros Hs Hk. rewrite (count_split _ s (S k)).
  rewrite count_zero.
  - cbn [plus]. eapply Nat.le_trans; [apply count_le_length|]. rewrite skipn_length. lia.
  - intros x Hx. apply Rltb_false. apply (In_nth _ _ 0) in Hx as (j & Hj & <-).
    rewrite firstn_length in Hj. 
    assert (E : nth j (firstn (S k) s) 0 = nth j s 0).
    { rewrite <- (firstn_skipn (S k) s) at 2. rewrite app_nth1; auto. rewrite firstn_length. lia. }
    rewrite E. apply sorted_nth; auto. lia.
Qed.
Lemma sorted_count_below s k : sorted s -> (k < length s)%nat ->
  (count (fun v => Rltb v (nth k s 0%R)) s <= k)%nat.
Proof.
  intros Hs Hk. rewrite (count_split _ s k).
  rewrite (count_zero _ (skipn k s)).
  - rewrite Nat.add_0_r. eapply Nat.le_trans; [apply count_le_length|]. rewrite firstn_length. lia.
  - intros x Hx. apply Rltb_false. apply (In_nth _ _ 0) in Hx as (j & Hj & <-).
    rewrite skipn_length in Hj.
    assert (E : nth j (skipn k s) 0 = nth (k + j) s 0).
    { rewrite <- (firstn_skipn k s) at 2. rewrite app_nth2; rewrite firstn_length, min_l by lia; [|lia]. f_equal. lia. }
    rewrite E. apply sorted_nth; auto. lia.
Qed.

Lemma count_all p l : (forall x, In x l -> p x = true) -> count p l = length l.
Proof.
  unfold count. induction l as [|x l IH]; intros H; cbn; auto. rewrite (H x) by (left; auto). cbn. f_equal. apply IH. intros; apply H; right; auto.
Qed.
Lemma nth_firstn_lt (s : list R) k j : (j < k)%nat -> nth j (firstn k s) 0 = nth j s 0.
Proof. revert s j. induction k as [|k IH]; intros [|x s] [|j] H; cbn; auto; try lia. apply IH. lia. Qed.
Lemma nth_skipn_add (s : list R) k j : nth j (skipn k s) 0 = nth (k + j) s 0.
Proof. revert s. induction k as [|k IH]; intros [|x s]; cbn; auto. destruct j; reflexivity. Qed.
Lemma sorted_count_ge s k : sorted s -> (k < length s)%nat ->
  (length s - k <= count (fun v => Rleb (nth k s 0%R) v) s)%nat.
Proof.
  intros Hs Hk. rewrite (count_split _ s k), (count_all _ (skipn k s)), skipn_length; [lia|].
  intros x Hx. apply Rleb_spec. apply (In_nth _ _ 0) in Hx as (j & Hj & <-). rewrite skipn_length in Hj.
  rewrite nth_skipn_add. apply sorted_nth; auto. lia.
Qed.
Lemma sorted_count_le s k : sorted s -> (k < length s)%nat ->
  (S k <= count (fun v => Rleb v (nth k s 0%R)) s)%nat.
Proof.
  intros Hs Hk. rewrite (count_split _ s (S k)), (count_all _ (firstn (S k) s)), firstn_length; [lia|].
  intros x Hx. apply Rleb_spec. apply (In_nth _ _ 0) in Hx as (j & Hj & <-). rewrite firstn_length in Hj.
  rewrite nth_firstn_lt by lia. apply sorted_nth; auto. lia.
Qed.

Lemma length_flat_measured_pos (l : list R) : l <> [] -> (0 < length l)%nat.
Proof. destruct l; [congruence|cbn; lia]. Qed.
Lemma Rltb_irrefl x : Rltb x x = false. Proof. apply Rltb_false. lra. Qed.

Lemma threshold_main u l g : measured (flat g) <> [] -> l + u < 100 ->
  let m := measured (flat g) in
  exists g' lo hi, threshold u l g = Ok g' /\ In lo m /\ In hi m /\ lo <= hi /\
    g' = gmap (drop_if (fun v => Rltb hi v || Rltb v lo)) g /\
    (0 <= u -> INR (count (fun v => Rltb hi v) m) <= u / 100 * INR (length m)) /\
    (0 <= l -> INR (count (fun v => Rltb v lo) m) <= l / 100 * INR (length m) + 1 / 2) /\
    (u <= 100 -> u / 100 * INR (length m) - 1 / 2 <= INR (count (fun v => Rleb hi v) m)) /\
    (l <= 100 -> l / 100 * INR (length m) + 1 / 2 <= INR (count (fun v => Rleb v lo) m) \/
                 count (fun v => Rleb v lo) m = length m).
Proof.
  intros Hne Hul m. unfold threshold. fold m. set (s := sortR m). set (y := rev s).
  assert (Hn : length y = length m) by (unfold y, s; rewrite rev_length, sortR_length; reflexivity).
  assert (Hpos : (0 < length m)%nat) by (apply length_flat_measured_pos, Hne).
  assert (HposR : 0 < INR (length m)) by (apply lt_0_INR, Hpos).
  destruct (Rle_dec 100 (l + u)) as [Hbad|Hbad]; [lra|]. rewrite Hn.
  set (n := length m) in *.
  assert (Hr : ratios n <> []) by (intros E; apply (f_equal (@length R)) in E; rewrite ratios_length in E; cbn in E; lia).
  destruct (argclosest_ok (u / 100) (ratios n) Hr) as [i0 E0].
  destruct (argclosest_ok (1 - l / 100) (ratios n) Hr) as [i1 E1].
  rewrite E0; cbn [rbind]. rewrite E1; cbn [rbind].
  assert (Hmono : (i0 <= i1)%nat).
  { eapply argclosest_mono; [| |exact E0|exact E1]; [intros a b Hab; apply ratios_inc, Hab|lra]. }
  apply argclosest_spec in E0 as (A1 & A2 & A3). apply argclosest_spec in E1 as (B1 & B2 & B3).
  rewrite ratios_length in *.
  assert (Y : forall k, (k < n)%nat -> nth k y 0 = nth (n - S k) s 0).
  { intros k Hk. unfold y. rewrite rev_nth' by (unfold s; rewrite sortR_length; exact Hk).
    unfold s at 1. rewrite sortR_length. reflexivity. }
  assert (Sl : length s = n) by apply sortR_length.
  assert (InM : forall k, (k < n)%nat -> In (nth k s 0) m).
  { intros k Hk. apply sortR_In. apply nth_In. fold s. lia. }
  eexists. exists (nth i1 y 0), (nth i0 y 0). split; [reflexivity|].
  split; [rewrite Y by exact B1; apply InM; lia|].
  split; [rewrite Y by exact A1; apply InM; lia|].
  split; [rewrite !Y by auto; apply sorted_nth; [apply sortR_sorted|lia]|].
  split; [reflexivity|].
  split; [|split; [|split]].
  - intros Hu.
    assert (C : (count (fun v => Rltb (nth i0 y 0%R) v) m <= i0)%nat).
    { rewrite (count_perm _ _ _ (sortR_perm m)). fold s. rewrite Y by exact A1.
      eapply Nat.le_trans; [apply sorted_count_above; [apply sortR_sorted|fold s; lia]|]. fold s. lia. }
    apply Rle_trans with (INR i0); [apply le_INR, C|].
    destruct i0 as [|i]; [cbn [INR]; apply Rmult_le_pos; lra|].
    specialize (A3 i ltac:(lia)). rewrite !ratios_nth in A3 by lia.
    set (N := INR n) in *.
    rewrite S_INR in *. rewrite plus_INR, S_INR in A3. rewrite (plus_INR i 1) in A3. cbn [INR] in *.
    assert (Hd : (INR i + 1 + 1) / N = (INR i + 1) / N + / N) by (field; lra).
    rewrite Hd in A3. assert (0 < / N) by (apply Rinv_0_lt_compat; lra).
    assert (Hlt : (INR i + 1) / N < u / 100).
    { unfold Rabs in A3. repeat destruct Rcase_abs; lra. }
    apply Rmult_lt_compat_r with (r := N) in Hlt; [|lra].
    replace ((INR i + 1) / N * N) with (INR i + 1) in Hlt by (field; lra). lra.
  - intros Hl.
    assert (C : (count (fun v => Rltb v (nth i1 y 0%R)) m <= n - S i1)%nat).
    { rewrite (count_perm _ _ _ (sortR_perm m)). fold s. rewrite Y by exact B1.
      apply sorted_count_below; [apply sortR_sorted|fold s; lia]. }
    apply Rle_trans with (INR (n - S i1)); [apply le_INR, C|].
    rewrite minus_INR, S_INR by lia.
    destruct (Nat.eq_dec (S i1) n) as [En|En].
    + rewrite <- En, S_INR. assert (0 <= l / 100 * (INR i1 + 1)); [|lra].
      apply Rmult_le_pos; [lra|]. assert (0 <= INR i1) by apply pos_INR. lra.
    + specialize (B2 (S i1) ltac:(lia)). rewrite !ratios_nth in B2 by lia.
      set (N := INR n) in *. rewrite (plus_INR (S i1)), (plus_INR i1), (S_INR i1) in B2. change (INR 1) with 1 in B2.
      assert (Hd : (INR i1 + 1 + 1) / N = (INR i1 + 1) / N + / N) by (field; lra).
      rewrite Hd in B2. assert (0 < / N) by (apply Rinv_0_lt_compat; lra).
      assert (Hle : 1 - l / 100 <= (INR i1 + 1) / N + / N / 2).
      { unfold Rabs in B2. repeat destruct Rcase_abs; lra. }
      apply Rmult_le_compat_r with (r := N) in Hle; [|lra].
      replace (((INR i1 + 1) / N + / N / 2) * N) with (INR i1 + 1 + 1 / 2) in Hle by (field; lra). lra.
  - intros Hu.
    assert (C : (S i0 <= count (fun v => Rleb (nth i0 y 0%R) v) m)%nat).
    { rewrite (count_perm _ _ _ (sortR_perm m)). fold s. rewrite Y by exact A1.
      eapply Nat.le_trans; [|apply sorted_count_ge; [apply sortR_sorted|fold s; lia]]. fold s. lia. }
    apply Rle_trans with (INR (S i0)); [|apply le_INR, C].
    destruct (Nat.eq_dec (S i0) n) as [En|En].
    + rewrite En. assert (u / 100 * INR n <= 1 * INR n); [apply Rmult_le_compat_r; lra|lra].
    + specialize (A2 (S i0) ltac:(lia)). rewrite !ratios_nth in A2 by lia.
      set (N := INR n) in *. rewrite (plus_INR (S i0)), (plus_INR i0), (S_INR i0) in A2. change (INR 1) with 1 in A2.
      rewrite S_INR.
      assert (Hd : (INR i0 + 1 + 1) / N = (INR i0 + 1) / N + / N) by (field; lra).
      rewrite Hd in A2. assert (0 < / N) by (apply Rinv_0_lt_compat; lra).
      assert (Hle : u / 100 <= (INR i0 + 1) / N + / N / 2).
      { unfold Rabs in A2. repeat destruct Rcase_abs; lra. }
      apply Rmult_le_compat_r with (r := N) in Hle; [|lra].
      replace (((INR i0 + 1) / N + / N / 2) * N) with (INR i0 + 1 + 1 / 2) in Hle by (field; lra). lra.
  - intros Hl.
    assert (C : (n - i1 <= count (fun v => Rleb v (nth i1 y 0%R)) m)%nat).
    { rewrite (count_perm _ _ _ (sortR_perm m)). fold s. rewrite Y by exact B1.
      eapply Nat.le_trans; [|apply sorted_count_le; [apply sortR_sorted|fold s; lia]]. lia. }
    destruct i1 as [|i].
    + right. assert (X := count_le_length (fun v => Rleb v (nth 0 y 0%R)) m). fold n in X. lia.
    + left. apply Rle_trans with (INR (n - S i)); [|apply le_INR, C].
      specialize (B3 i ltac:(lia)). rewrite !ratios_nth in B3 by lia. rewrite minus_INR, S_INR by lia.
      set (N := INR n) in *. rewrite (plus_INR (S i)), (plus_INR i), (S_INR i) in B3. change (INR 1) with 1 in B3.
      assert (Hd : (INR i + 1 + 1) / N = (INR i + 1) / N + / N) by (field; lra).
      rewrite Hd in B3. assert (0 < / N) by (apply Rinv_0_lt_compat; lra).
      assert (Hle : (INR i + 1) / N + / N / 2 <= 1 - l / 100).
      { unfold Rabs in B3. repeat destruct Rcase_abs; lra. }
      apply Rmult_le_compat_r with (r := N) in Hle; [|lra].
      replace (((INR i + 1) / N + / N / 2) * N) with (INR i + 1 + 1 / 2) in Hle by (field; lra). lra.
Qed.
Lemma threshold_err u l g : 100 <= l + u -> threshold u l g = Err ValueError.
Proof. intros H. unfold threshold. destruct (Rle_dec 100 (l + u)); [reflexivity|contradiction]. Qed.
Lemma count_zero_inv p l : count p l = 0%nat -> forall x, In x l -> p x = false.
Proof.
  unfold count. intros H x Hx. destruct (p x) eqn:E; auto.
  assert (In x (List.filter p l)) by (apply filter_In; auto).
  destruct (List.filter p l); [destruct H0|discriminate].
Qed.
Lemma threshold_zero g : measured (flat g) <> [] -> threshold 0 0 g = Ok g.
Proof.
  intros Hne. destruct (threshold_main 0 0 g Hne) as (g' & lo & hi & E & _ & _ & _ & -> & Hu & Hl & _); [lra|].
  rewrite E. f_equal. apply gmap_id_in. intros [x|] Hx; [|reflexivity].
  apply measured_In in Hx.
  assert (C1 : count (fun v => Rltb hi v) (measured (flat g)) = 0%nat).
  { apply INR_eq. cbn. specialize (Hu ltac:(lra)). assert (0 <= INR (count (fun v => Rltb hi v) (measured (flat g)))) by apply pos_INR. lra. }
  assert (C2 : count (fun v => Rltb v lo) (measured (flat g)) = 0%nat).
  { specialize (Hl ltac:(lra)). destruct (count (fun v => Rltb v lo) (measured (flat g))) as [|k]; auto.
    rewrite S_INR in Hl. assert (0 <= INR k) by apply pos_INR. lra. }
  cbn. rewrite (count_zero_inv _ _ C1 x Hx), (count_zero_inv _ _ C2 x Hx). reflexivity.
Qed.

(** ** Arithmetic *)
Lemma nth_error_zipw {A B C} (f : A -> B -> C) l : forall l' i,
  nth_error (zipw f l l') i = match nth_error l i, nth_error l' i with Some a, Some b => Some (f a b) | _, _ => None end.
Proof.
  induction l as [|x l IH]; intros [|y l'] [|i]; cbn; auto.
  - destruct (nth_error l i); reflexivity.
Qed.
Lemma cell_gzip f g g' i j : cell (gzip f g g') i j =
  match cell g i j, cell g' i j with Some a, Some b => Some (f a b) | _, _ => None end.
Proof.
  unfold cell, gzip. rewrite nth_error_zipw. destruct (nth_error g i) as [r|], (nth_error g' i) as [r'|]; auto.
  - apply nth_error_zipw.
  - destruct (nth_error r j); reflexivity.
Qed.
Lemma same_frame_spec a b : same_frame a b = true <->
  s_sx a = s_sx b /\ s_sy a = s_sy b /\ nrows (s_data a) = nrows (s_data b) /\ ncols (s_data a) = ncols (s_data b).
Proof.
  unfold same_frame. rewrite !andb_true_iff, !Nat.eqb_eq.
  destruct (Req_EM_T (s_sx a) (s_sx b)), (Req_EM_T (s_sy a) (s_sy b)); intuition discriminate.
Qed.
Lemma shape_const (g : grid) c : (forall r, In r g -> length r = c) -> map (@length _) g = repeat c (length g).
Proof. induction g as [|r g IH]; intros H; cbn; auto. rewrite (H r) by (left; auto). f_equal. apply IH. intros; apply H; right; auto. Qed.
Lemma rect_shape g : rect g -> map (@length _) g = repeat (ncols g) (nrows g).
Proof. intros H. apply shape_const, H. Qed.
Lemma rect_same_shape g g' : rect g -> rect g' -> nrows g = nrows g' -> ncols g = ncols g' ->
  map (@length _) g = map (@length _) g'.
Proof. intros H H' E1 E2. rewrite !rect_shape by auto. congruence. Qed.
Lemma zipw_length {A B C} (f : A -> B -> C) l l' : length l = length l' -> length (zipw f l l') = length l.
Proof. revert l'. induction l as [|x l IH]; intros [|y l'] H; cbn in *; try lia. f_equal. apply IH. lia. Qed.
Lemma gzip_shape f g g' : map (@length _) g = map (@length _) g' -> map (@length _) (gzip f g g') = map (@length _) g.
Proof.
  revert g'. induction g as [|r g IH]; intros [|r' g'] H; try discriminate; auto.
  injection H as H1 H2. cbn. f_equal; [apply zipw_length, H1|apply IH, H2].
Qed.
Lemma shape_rect g g' : map (@length _) g = map (@length _) g' -> rect g -> rect g'.
Proof.
  intros H Hr r Hin.
  assert (C : ncols g = ncols g') by (unfold ncols; destruct g, g'; try discriminate; auto; injection H; auto).
  assert (In (length r) (map (@length _) g')) by (apply in_map, Hin). rewrite <- H in H0.
  apply in_map_iff in H0 as (r0 & E & Hr0). rewrite <- E, <- C. apply Hr, Hr0.
Qed.
Lemma shape_dims (g g' : grid) : map (@length _) g = map (@length _) g' -> nrows g = nrows g' /\ ncols g = ncols g'.
Proof.
  intros H. split; [unfold nrows; now rewrite <- (map_length (@length _) g), H, map_length|].
  unfold ncols. destruct g, g'; try discriminate; auto. injection H; auto.
Qed.
Lemma shape_cell_some (g g' : grid) : map (@length _) g = map (@length _) g' -> forall i j h, cell g i j = Some h -> exists h', cell g' i j = Some h'.
Proof.
  revert g'. induction g as [|r g IH]; intros [|r' g'] H [|i] j h E; try discriminate H; try discriminate E.
  - injection H as H1 H2. unfold cell in *. cbn in *.
    assert (j < length r)%nat by (apply nth_error_Some; congruence).
    destruct (nth_error r' j) eqn:E'; eauto. apply nth_error_None in E'. lia.
  - injection H as H1 H2. apply (IH g' H2 i j h E).
Qed.

(** ** Equality *)
Lemma combine_app' {A B} (l1 : list A) (l1' : list B) l2 l2' : length l1 = length l1' ->
  combine (l1 ++ l2) (l1' ++ l2') = combine l1 l1' ++ combine l2 l2'.
Proof. revert l1'. induction l1 as [|x l1 IH]; intros [|y l1'] H; try discriminate; auto. cbn. f_equal. apply IH. cbn in H; lia. Qed.
Lemma forallb_combine_nth {A B} (p : A * B -> bool) l : forall l', length l = length l' ->
  (forallb p (combine l l') = true <-> forall i a b, nth_error l i = Some a -> nth_error l' i = Some b -> p (a, b) = true).
Proof.
  induction l as [|x l IH]; intros [|y l'] H; try discriminate; cbn.
  - split; auto. intros _ [|i]; discriminate.
  - rewrite andb_true_iff, IH by (cbn in H; lia). split.
    + intros [Hp Hq] [|i] a b Ea Eb; cbn in *; [injection Ea as <-; injection Eb as <-; auto|eauto].
    + intros Hp. split; [apply (Hp 0%nat); reflexivity|]. intros i a b Ea Eb. apply (Hp (S i)); auto.
Qed.
Lemma forallb_flat (p : height * height -> bool) g : forall g', map (@length _) g = map (@length _) g' ->
  (forallb p (combine (flat g) (flat g')) = true <->
   forall i j a b, cell g i j = Some a -> cell g' i j = Some b -> p (a, b) = true).
Proof.
  induction g as [|r g IH]; intros [|r' g'] H; try discriminate.
  - split; auto. intros _ [|i] j; discriminate.
  - injection H as H1 H2. unfold flat in *. cbn [concat]. rewrite combine_app', forallb_app, andb_true_iff by exact H1.
    rewrite forallb_combine_nth by exact H1. rewrite IH by exact H2. split.
    + intros [A B] [|i] j a b Ea Eb; unfold cell in *; cbn in *; eauto.
    + intros A. split.
      * intros i a b Ea Eb. apply (A 0%nat i a b); auto.
      * intros i j a b Ea Eb. apply (A (S i) j a b); auto.
Qed.
Lemma s_eq_spec a b : rect (s_data a) -> rect (s_data b) ->
  (s_eq a b = true <->
   s_sx a = s_sx b /\ s_sy a = s_sy b /\ nrows (s_data a) = nrows (s_data b) /\ ncols (s_data a) = ncols (s_data b) /\
   forall i j h k, cell (s_data a) i j = Some h -> cell (s_data b) i j = Some k ->
     match h, k with Some x, Some y => Rabs (x - y) <= / 10 ^ 10 | None, None => True | _, _ => False end).
Proof.
  intros Ra Rb. unfold s_eq. destruct (same_frame a b) eqn:Ef.
  - apply same_frame_spec in Ef as (F1 & F2 & F3 & F4).
    assert (Sh := rect_same_shape _ _ Ra Rb F3 F4).
    assert (P := forallb_flat (fun p => same_nan (fst p) (snd p)) _ _ Sh).
    assert (Q := forallb_flat (fun p => close (fst p) (snd p)) _ _ Sh).
    split.
    + destruct (forallb (fun p => same_nan (fst p) (snd p)) _); [|discriminate]. intros C.
      repeat split; auto. intros i j h k Eh Ek.
      destruct P as [P _]. destruct Q as [Q _]. specialize (P eq_refl i j h k Eh Ek). specialize (Q C i j h k Eh Ek).
      cbn in P, Q. destruct h as [x|], k as [y|]; try discriminate P; auto.
      unfold close in Q. apply negb_true_iff, Rltb_false in Q. exact Q.
    + intros (_ & _ & _ & _ & H).
      replace (forallb (fun p => same_nan (fst p) (snd p)) _) with true.
      * apply Q. intros i j h k Eh Ek. specialize (H i j h k Eh Ek). destruct h as [x|], k as [y|]; cbn; auto.
        apply negb_true_iff, Rltb_false. exact H.
      * symmetry. apply P. intros i j h k Eh Ek. specialize (H i j h k Eh Ek). destruct h as [x|], k as [y|]; cbn; auto.
  - split; [discriminate|]. intros (F1 & F2 & F3 & F4 & _).
    assert (same_frame a b = true) by (apply same_frame_spec; auto). congruence.
Qed.
Lemma tol_pos : 0 < / 10 ^ 10. Proof. apply Rinv_0_lt_compat. apply pow_lt. lra. Qed.

(** ** Filter *)
Section FilterProofs.
Variable G : R -> R -> grid -> grid.
Hypothesis G_shape : forall a b g, map (@length _) (G a b g) = map (@length _) g.
Hypothesis G_complete : forall a b g, has_missing g = false -> has_missing (G a b g) = false.

Lemma split_sum g g' : map (@length _) g' = map (@length _) g -> has_missing g = false -> has_missing g' = false ->
  gzip hadd (gzip hsub g g') g' = g.
Proof.
  intros Sh M M'. apply grid_ext.
  - rewrite gzip_shape; rewrite ?gzip_shape; auto.
  - intros i j. rewrite !cell_gzip. destruct (cell g i j) as [h|] eqn:E; [|reflexivity].
    destruct (shape_cell_some g g' (eq_sym Sh) i j h E) as [h' E']. rewrite E'.
    destruct (nomissing_cell _ _ _ _ M E) as [x ->]. destruct (nomissing_cell _ _ _ _ M' E') as [y ->].
    cbn. do 2 f_equal. lra.
Qed.
Lemma low_complete c s : has_missing (s_data s) = false -> has_missing (s_data (gaussian G Lowpass c s)) = false.
Proof. intros H. cbn. apply G_complete, H. Qed.
Lemma gaussian_shape t c s : map (@length _) (s_data (gaussian G t c s)) = map (@length _) (s_data s).
Proof. destruct t; cbn; [apply G_shape|]. apply gzip_shape. symmetry. apply G_shape. Qed.
Lemma high_frame c s : same_frame (gaussian G Highpass c s) (gaussian G Lowpass c s) = true.
Proof.
  apply same_frame_spec. cbn [gaussian s_sx s_sy]. split; [reflexivity|split; [reflexivity|]].
  assert (A := gaussian_shape Highpass c s). assert (B := gaussian_shape Lowpass c s).
  apply shape_dims. congruence.
Qed.
Lemma both_sum c s : has_missing (s_data s) = false ->
  s_add (gaussian G Highpass c s) (OSurface (gaussian G Lowpass c s)) = Ok s.
Proof.
  intros M. unfold s_add, arith. rewrite high_frame. cbn [gaussian s_data s_sx s_sy].
  rewrite split_sum by auto. destruct s; reflexivity.
Qed.
Lemma high_is_diff c s : s_sub s (OSurface (gaussian G Lowpass c s)) = Ok (gaussian G Highpass c s).
Proof.
  unfold s_sub, arith. replace (same_frame s (gaussian G Lowpass c s)) with true; [reflexivity|].
  symmetry. apply same_frame_spec. cbn [gaussian s_sx s_sy]. split; [reflexivity|split; [reflexivity|]].
  apply shape_dims. symmetry. apply (gaussian_shape Lowpass c s).
Qed.
End FilterProofs.
