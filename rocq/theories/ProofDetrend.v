From Coq Require Import String Reals List Bool Arith ZArith Lra Lia Permutation.
From Verif Require Import Base RList ModelMath ModelHeights ModelParams ProofParams ProofStep ModelDetrend SpecDetrend.
Import ListNotations.
Local Open Scope R_scope.

(** ** Linear algebra *)
Definition comb (t : R) (c q : list R) : list R := zip2 (fun a b => a + t * b) c q.
Lemma comb_length t c q m : length c = m -> length q = m -> length (comb t c q) = m.
Proof. intros A B. unfold comb. rewrite zip2_length. lia. Qed.
Lemma dot_comb t : forall r c q, length c = length r -> length q = length r -> dot r (comb t c q) = dot r c + t * dot r q.
Proof.
  unfold dot, comb. induction r as [|x r IH]; intros [|a c] [|b q] H K; cbn in *; try lia; try lra.
  injection H as H. injection K as K. unfold sumR in *. cbn. rewrite IH by assumption. ring.
Qed.
Lemma dot_nil r : dot r [] = 0.
Proof. unfold dot. destruct r; reflexivity. Qed.
Lemma dot_zero r m : dot r (repeat 0 m) = 0.
Proof. unfold dot. revert m. induction r as [|x r IH]; intros [|m]; cbn in *; try reflexivity. unfold sumR in *. rewrite IH. lra. Qed.
Section LS.
Context {T : Type} (pts : list T) (row : T -> list R) (m : nat) (Hrow : forall p, length (row p) = m).
Definition rssT (z : T -> R) (c : list R) : R := sumR (map (fun p => (z p - dot (row p) c) ^ 2) pts).
Lemma rss_T z c : rss (map row pts) (map z pts) c = rssT z c.
Proof. unfold rss, rssT. rewrite zip2_map_same. reflexivity. Qed.
Definition orth (z : T -> R) (c : list R) : Prop :=
  forall q, length q = m -> sumR (map (fun p => (z p - dot (row p) c) * dot (row p) q) pts) = 0.
Lemma quad_zero a b : (forall t, 0 <= t * t * a - 2 * t * b) -> 0 <= a -> b = 0.
Proof.
  intros H Ha. destruct (Req_dec b 0) as [|N]; [assumption|]. exfalso.
  assert (X := H (b / (a + 1))). replace (b / (a + 1) * (b / (a + 1)) * a - 2 * (b / (a + 1)) * b) with (- (b * b) * ((a + 2) / ((a + 1) * (a + 1)))) in X by (field; lra).
  assert (0 < b * b) by nra. assert (0 < (a + 2) / ((a + 1) * (a + 1))) by (apply Rdiv_lt_0_compat; nra). nra.
Qed.
Lemma rss_comb z c q t : length c = m -> length q = m ->
  rssT z (comb t c q) = rssT z c + t * t * sumR (map (fun p => dot (row p) q * dot (row p) q) pts)
                        - 2 * t * sumR (map (fun p => (z p - dot (row p) c) * dot (row p) q) pts).
Proof.
  intros Hc Hq. unfold rssT. rewrite <- !sumR_map_scal, <- sumR_map_plus, <- sumR_map_minus. apply sumR_ext. intros p _.
  rewrite dot_comb by (rewrite Hrow; assumption). ring.
Qed.
Lemma min_orth z c : least_squares m (map row pts) (map z pts) c -> orth z c.
Proof.
  intros [Hc H] q Hq. set (a := sumR (map (fun p => dot (row p) q * dot (row p) q) pts)).
  apply (quad_zero a).
  - intros t. specialize (H (comb t c q) (comb_length t c q m Hc Hq)). rewrite !rss_T, rss_comb in H by assumption. fold a in H. lra.
  - apply sumR_nonneg. intros x Hx. apply in_map_iff in Hx as (p & <- & _). apply Rle_0_sqr.
Qed.
Lemma orth_min z c : length c = m -> orth z c -> least_squares m (map row pts) (map z pts) c.
Proof.
  intros Hc O. split; [exact Hc|]. intros c' Hc'. rewrite !rss_T.
  assert (E : rssT z c' = rssT z c + sumR (map (fun p => (dot (row p) c' - dot (row p) c) ^ 2) pts)).
  { assert (O1 := O c Hc). assert (O2 := O c' Hc').
    assert (X : rssT z c' = rssT z c + sumR (map (fun p => (dot (row p) c' - dot (row p) c) ^ 2) pts)
      - 2 * sumR (map (fun p => (z p - dot (row p) c) * dot (row p) c') pts) + 2 * sumR (map (fun p => (z p - dot (row p) c) * dot (row p) c) pts)).
    { unfold rssT. rewrite <- !sumR_map_scal, <- !sumR_map_plus, <- sumR_map_minus, <- sumR_map_plus. apply sumR_ext. intros p _. ring. }
    rewrite X, O1, O2. ring. }
  rewrite E. assert (P : 0 <= sumR (map (fun p => (dot (row p) c' - dot (row p) c) ^ 2) pts)); [|lra].
  apply sumR_nonneg. intros x Hx. apply in_map_iff in Hx as (p & <- & _). apply pow2_nonneg.
Qed.
(** two fits of data that differ by a combination of the columns leave the same residuals *)
Lemma same_residual z z' c c' q : least_squares m (map row pts) (map z pts) c -> least_squares m (map row pts) (map z' pts) c' ->
  length q = m -> (forall p, In p pts -> z' p = z p + dot (row p) q) ->
  forall p, In p pts -> z p - dot (row p) c = z' p - dot (row p) c'.
Proof.
  intros L L' Hq Hz. assert (O := min_orth z c L). assert (O' := min_orth z' c' L'). destruct L as [Hc _], L' as [Hc' _].
  set (w := comb (-1) (comb 1 q c) c').
  assert (Hw : length w = m) by (apply comb_length; [apply comb_length|]; assumption).
  assert (Dw : forall p, dot (row p) w = dot (row p) q + dot (row p) c - dot (row p) c').
  { intros p. unfold w. rewrite dot_comb, dot_comb by (rewrite ?Hrow; try assumption; apply comb_length; assumption). ring. }
  assert (Z : sumR (map (fun p => dot (row p) w * dot (row p) w) pts) = 0).
  { assert (O1 := O w Hw). assert (O2 := O' w Hw).
    rewrite (sumR_ext (fun p => dot (row p) w * dot (row p) w) (fun p => (z' p - dot (row p) c') * dot (row p) w - (z p - dot (row p) c) * dot (row p) w)).
    - rewrite sumR_map_minus, O1, O2. ring.
    - intros p Hp. rewrite (Hz p Hp), !Dw. ring. }
  intros p Hp. assert (W : dot (row p) w * dot (row p) w = 0).
  { apply (sumR_zero (map (fun p => dot (row p) w * dot (row p) w) pts)); [|exact Z|apply (in_map (fun p => dot (row p) w * dot (row p) w)), Hp].
    intros x Hx. apply in_map_iff in Hx as (y & <- & _). apply Rle_0_sqr. }
  assert (W0 : dot (row p) w = 0) by nra. rewrite Dw in W0. rewrite (Hz p Hp). lra.
Qed.
End LS.
(** a least-squares solution always exists (projection, by induction on the number of columns) *)
Lemma dot_cons x r a c : dot (x :: r) (a :: c) = x * a + dot r c.
Proof. reflexivity. Qed.
Lemma ls_exists {T} (pts : list T) : forall m (row : T -> list R), (forall p, length (row p) = m) -> forall z, {c | length c = m /\ orth pts row m z c}.
Proof.
  induction m as [|m IH]; intros row Hrow z.
  - exists []. split; [reflexivity|]. intros q Hq. destruct q; [|discriminate].
    rewrite (sumR_ext _ (fun _ => 0)) by (intros; rewrite dot_nil; ring). rewrite sumR_map_const. ring.
  - set (a := fun p => hd 0 (row p)). set (B := fun p => tl (row p)).
    assert (HB : forall p, length (B p) = m) by (intros p; unfold B; rewrite tl_length, Hrow; lia).
    assert (Hd : forall p s c, dot (row p) (s :: c) = a p * s + dot (B p) c).
    { intros p s c. unfold a, B. specialize (Hrow p). destruct (row p); [discriminate|]. reflexivity. }
    destruct (IH B HB a) as (u & Lu & Ou). destruct (IH B HB z) as (v & Lv & Ov).
    set (w := fun p => a p - dot (B p) u). set (W := sumR (map (fun p => w p * w p) pts)).
    assert (Sp : forall q : list R, length q = S m -> exists s c, q = s :: c /\ length c = m) by (intros [|s c] H; [discriminate|]; injection H; eauto).
    assert (P0 : forall x, In x (map (fun p => w p * w p) pts) -> 0 <= x) by (intros x Hx; apply in_map_iff in Hx as (y & <- & _); apply Rle_0_sqr).
    set (s := if Req_EM_T W 0 then 0 else sumR (map (fun p => z p * w p) pts) / W).
    exists (s :: comb (- s) v u). split; [cbn; f_equal; apply comb_length; assumption|].
    intros q Hq. destruct (Sp q Hq) as (s' & c' & -> & Lc').
    (* residual r = (z - Bv) - s w *)
    assert (Rr : forall p, z p - dot (row p) (s :: comb (- s) v u) = (z p - dot (B p) v) - s * w p).
    { intros p. rewrite Hd, dot_comb by (rewrite HB; assumption). unfold w. ring. }
    (* direction: s' a + B c' = s' w + B (c' + s' u) *)
    assert (Dd : forall p, dot (row p) (s' :: c') = s' * w p + dot (B p) (comb s' c' u)).
    { intros p. rewrite Hd, dot_comb by (rewrite HB; assumption). unfold w. ring. }
    assert (Lk : length (comb s' c' u) = m) by (apply comb_length; assumption).
    assert (O1 := Ov _ Lk). assert (O2 := Ou _ Lk). fold w in O2.
    assert (Vw : sumR (map (fun p => dot (B p) v * w p) pts) = 0).
    { rewrite (sumR_ext _ (fun p => (a p - dot (B p) u) * dot (B p) v)) by (intros; unfold w; ring). apply Ou, Lv. }
    assert (Zw : sumR (map (fun p => z p * w p) pts) = s * W).
    { unfold s. destruct (Req_EM_T W 0) as [E|N]; [|field; exact N]. rewrite E, Rmult_0_r.
      rewrite (sumR_ext _ (fun _ => 0)); [rewrite sumR_map_const; ring|]. intros p Hp.
      assert (X : w p * w p = 0) by (apply (sumR_zero _ P0 E), (in_map (fun p => w p * w p)), Hp). assert (w p = 0) by nra. rewrite H. ring. }
    transitivity (s' * (sumR (map (fun p => z p * w p) pts) - sumR (map (fun p => dot (B p) v * w p) pts) - s * W)
                  + (sumR (map (fun p => (z p - dot (B p) v) * dot (B p) (comb s' c' u)) pts) - s * sumR (map (fun p => (a p - dot (B p) u) * dot (B p) (comb s' c' u)) pts))).
    + unfold W. rewrite <- (sumR_map_scal _ s), <- !sumR_map_minus, <- (sumR_map_scal _ s), <- !sumR_map_minus, <- (sumR_map_scal _ s'), <- sumR_map_plus.
      apply sumR_ext. intros p _. rewrite Rr, Dd. unfold w. ring.
    + rewrite O1, O2, Vw, Zw. ring.
Qed.

(** ** Polynomials are combinations of the design columns *)
Definition lev (G : nat -> nat -> R) (x y : R) (i : nat) : R := sumR (map (fun j => x ^ (i - j) * y ^ j * G (i - j)%nat j) (seq 0 (S i))).
Definition pval (G : nat -> nat -> R) (d : nat) (x y : R) : R := sumR (map (lev G x y) (seq 0 (S d))).
Definition spanned (d : nat) (f : R -> R -> R) : Prop := exists G, forall x y, f x y = pval G d x y.
Lemma lev_ext G G' x y i : (forall a b, (a + b = i)%nat -> G a b = G' a b) -> lev G x y i = lev G' x y i.
Proof. intros H. unfold lev. apply sumR_ext. intros j Hj. apply in_seq in Hj. rewrite (H (i - j)%nat j) by lia. reflexivity. Qed.
Lemma lev_zero G x y i : (forall a b, (a + b = i)%nat -> G a b = 0) -> lev G x y i = 0.
Proof.
  intros H. unfold lev. rewrite (sumR_ext _ (fun _ => 0)); [rewrite sumR_map_const; ring|]. intros j Hj. apply in_seq in Hj. rewrite H by lia. ring.
Qed.
Lemma seq_snoc a n : seq a (S n) = seq a n ++ [(a + n)%nat].
Proof. rewrite <- Nat.add_1_r, seq_app. reflexivity. Qed.
Lemma spanned_up d f : spanned d f -> spanned (S d) f.
Proof.
  intros [G H]. exists (fun a b => if Nat.leb (a + b) d then G a b else 0). intros x y. rewrite H. unfold pval.
  rewrite (seq_snoc 0 (S d)), map_app, sumR_app. cbn [map]. rewrite (lev_zero _ x y (0 + S d)).
  - unfold sumR at 3. cbn [fold_right]. rewrite !Rplus_0_r. apply sumR_ext. intros i Hi. apply in_seq in Hi. apply lev_ext. intros a b E.
    destruct (Nat.leb_spec (a + b) d); [reflexivity|lia].
  - intros a b E. destruct (Nat.leb_spec (a + b) d); [lia|reflexivity].
Qed.
Lemma spanned_const d c : spanned d (fun _ _ => c).
Proof.
  induction d as [|d IH]; [|apply spanned_up, IH]. exists (fun _ _ => c). intros x y. unfold pval, lev. cbn. ring.
Qed.
Lemma spanned_lin d k l f g : spanned d f -> spanned d g -> spanned d (fun x y => k * f x y + l * g x y).
Proof.
  intros [G H] [G' H']. exists (fun a b => k * G a b + l * G' a b). intros x y. rewrite H, H'. unfold pval.
  rewrite <- !sumR_map_scal, <- sumR_map_plus. apply sumR_ext. intros i _. unfold lev. rewrite <- !sumR_map_scal, <- sumR_map_plus.
  apply sumR_ext. intros j _. ring.
Qed.
Lemma pval_shift G d x y k : (forall i, lev G x y (S i) = k i) -> lev G x y 0 = 0 -> pval G (S d) x y = sumR (map k (seq 0 (S d))).
Proof.
  intros H Z. unfold pval. change (seq 0 (S (S d))) with (0%nat :: seq 1 (S d)). cbn [map]. rewrite sumR_cons, Z, Rplus_0_l.
  rewrite <- seq_shift, map_map. apply sumR_ext. intros i _. apply H.
Qed.
Lemma spanned_x d f : spanned d f -> spanned (S d) (fun x y => x * f x y).
Proof.
  intros [G H]. exists (fun a b => match a with O => 0 | S a' => G a' b end). intros x y. rewrite H. unfold pval at 1. rewrite <- sumR_map_scal.
  symmetry. apply pval_shift; [|unfold lev; cbn; ring]. intros i. unfold lev. rewrite (seq_snoc 0 (S i)), map_app, sumR_app. cbn [map].
  replace (S i - (0 + S i))%nat with 0%nat by lia. unfold sumR at 2. cbn [fold_right]. rewrite Rmult_0_r, !Rplus_0_r, <- sumR_map_scal.
  apply sumR_ext. intros j Hj. apply in_seq in Hj. replace (S i - j)%nat with (S (i - j)) by lia. cbn [pow]. ring.
Qed.
Lemma spanned_y d f : spanned d f -> spanned (S d) (fun x y => y * f x y).
Proof.
  intros [G H]. exists (fun a b => match b with O => 0 | S b' => G a b' end). intros x y. rewrite H. unfold pval at 1. rewrite <- sumR_map_scal.
  symmetry. apply pval_shift; [|unfold lev; cbn; ring]. intros i. unfold lev. change (seq 0 (S (S i))) with (0%nat :: seq 1 (S i)).
  cbn [map]. rewrite sumR_cons, Rmult_0_r, Rplus_0_l, <- seq_shift, map_map, <- sumR_map_scal.
  apply sumR_ext. intros j Hj. rewrite Nat.sub_succ. cbn [pow]. ring.
Qed.
Lemma poly_spanned d f : is_poly d f -> forall al be ga de, spanned d (fun x y => f (al * x + be) (ga * y + de)).
Proof.
  intros H al be ga de. induction H.
  - apply spanned_const.
  - destruct (spanned_lin d 1 1 _ _ IHis_poly1 IHis_poly2) as [G HG]. exists G. intros x y. rewrite <- HG. ring.
  - destruct (spanned_lin (S d) al be _ _ (spanned_x _ _ IHis_poly) (spanned_up _ _ IHis_poly)) as [G HG]. exists G. intros x y. rewrite <- HG. ring.
  - destruct (spanned_lin (S d) ga de _ _ (spanned_y _ _ IHis_poly) (spanned_up _ _ IHis_poly)) as [G HG]. exists G. intros x y. rewrite <- HG. ring.
Qed.
Lemma sumR_flat_map {A B} (f : B -> R) (g : A -> list B) l : sumR (map f (flat_map g l)) = sumR (map (fun a => sumR (map f (g a))) l).
Proof. induction l as [|a l IH]; cbn [flat_map map]; auto. rewrite map_app, sumR_app, sumR_cons, IH. reflexivity. Qed.
Lemma terms_pval G d x y : sumR (map (fun t => x ^ (fst t) * y ^ (snd t) * G (fst t) (snd t)) (terms d)) = pval G d x y.
Proof.
  unfold terms. cbn [map]. rewrite sumR_cons, sumR_flat_map. unfold pval. change (seq 0 (S d)) with (0%nat :: seq 1 d). cbn [map]. rewrite sumR_cons.
  apply f_equal2; [unfold lev; cbn; ring|]. apply sumR_ext. intros i _. rewrite map_map. reflexivity.
Qed.
Lemma design_length ny nx d p : length (design_row ny nx d p) = length (terms d).
Proof. apply map_length. Qed.
Lemma mean_index n : (1 <= n)%nat -> meanR (map INR (seq 0 n)) = (INR n - 1) / 2.
Proof.
  intros H. assert (S : sumR (map INR (seq 0 n)) = INR n * (INR n - 1) / 2).
  { clear H. induction n as [|n IH]; [cbn; lra|]. rewrite seq_snoc, map_app, sumR_app, IH. cbn [map]. unfold sumR. cbn [fold_right]. rewrite (S_INR n). cbn [plus]. lra. }
  unfold meanR. rewrite map_length, seq_length, S. assert (0 < INR n) by (apply lt_0_INR; lia). field. lra.
Qed.
Lemma denorm n k : (2 <= n)%nat -> INR k = (INR n - 1) * norm_coord n k + (INR n - 1) / 2.
Proof.
  intros H. unfold norm_coord. rewrite mean_index by lia. assert (1 < INR n) by (apply (lt_INR 1); lia). field. lra.
Qed.
Lemma poly_dot d f ny nx : is_poly d f -> (2 <= ny)%nat -> (2 <= nx)%nat ->
  exists q, length q = length (terms d) /\ forall p, f (INR (snd p)) (INR (fst p)) = dot (design_row ny nx d p) q.
Proof.
  intros H Hy Hx. destruct (poly_spanned d f H (INR nx - 1) ((INR nx - 1) / 2) (INR ny - 1) ((INR ny - 1) / 2)) as [G HG].
  exists (map (fun t => G (fst t) (snd t)) (terms d)). split; [apply map_length|]. intros [i j]. cbn [fst snd].
  rewrite (denorm nx j Hx), (denorm ny i Hy), HG. unfold dot, design_row. rewrite zip2_map_same. rewrite <- terms_pval. reflexivity.
Qed.
Lemma poly_dot0 f ny nx : is_poly 0 f -> exists q, length q = length (terms 0) /\ forall p, f (INR (snd p)) (INR (fst p)) = dot (design_row ny nx 0 p) q.
Proof.
  intros H. assert (C : exists c, forall x y, f x y = c).
  { remember 0%nat as d. induction H; try discriminate.
    - eauto.
    - destruct IHis_poly1 as [c1 H1], IHis_poly2 as [c2 H2]; auto. exists (c1 + c2). intros. now rewrite H1, H2. }
  destruct C as [c C]. exists [c]. split; [reflexivity|]. intros p. rewrite C. unfold dot, design_row. cbn. ring.
Qed.
(** profiles *)
Definition pval1 (G : nat -> R) (d : nat) (x : R) : R := sumR (map (fun e => x ^ e * G e) (seq 0 (S d))).
Definition spanned1 (d : nat) (f : R -> R) : Prop := exists G, forall x, f x = pval1 G d x.
Lemma spanned1_up d f : spanned1 d f -> spanned1 (S d) f.
Proof.
  intros [G H]. exists (fun e => if Nat.leb e d then G e else 0). intros x. rewrite H. unfold pval1.
  rewrite (seq_snoc 0 (S d)), map_app, sumR_app. cbn [map]. destruct (Nat.leb_spec (0 + S d) d); [lia|]. unfold sumR at 3. cbn [fold_right].
  rewrite Rmult_0_r, !Rplus_0_r. apply sumR_ext. intros e He. apply in_seq in He. destruct (Nat.leb_spec e d); [reflexivity|lia].
Qed.
Lemma spanned1_const d c : spanned1 d (fun _ => c).
Proof. induction d as [|d IH]; [|apply spanned1_up, IH]. exists (fun _ => c). intros x. unfold pval1. cbn. ring. Qed.
Lemma spanned1_lin d k l f g : spanned1 d f -> spanned1 d g -> spanned1 d (fun x => k * f x + l * g x).
Proof.
  intros [G H] [G' H']. exists (fun e => k * G e + l * G' e). intros x. rewrite H, H'. unfold pval1.
  rewrite <- !sumR_map_scal, <- sumR_map_plus. apply sumR_ext. intros j _. ring.
Qed.
Lemma spanned1_x d f : spanned1 d f -> spanned1 (S d) (fun x => x * f x).
Proof.
  intros [G H]. exists (fun e => match e with O => 0 | S e' => G e' end). intros x. rewrite H. unfold pval1.
  change (seq 0 (S (S d))) with (0%nat :: seq 1 (S d)). cbn [map]. rewrite sumR_cons, Rmult_0_r, Rplus_0_l, <- seq_shift, map_map, <- sumR_map_scal.
  apply sumR_ext. intros j _. cbn [pow]. ring.
Qed.
Lemma poly1_spanned d f : is_poly1 d f -> forall al be, spanned1 d (fun x => f (al * x + be)).
Proof.
  intros H al be. induction H.
  - apply spanned1_const.
  - destruct (spanned1_lin d 1 1 _ _ IHis_poly1_1 IHis_poly1_2) as [G HG]. exists G. intros x. rewrite <- HG. ring.
  - destruct (spanned1_lin (S d) al be _ _ (spanned1_x _ _ IHis_poly1) (spanned1_up _ _ IHis_poly1)) as [G HG]. exists G. intros x. rewrite <- HG. ring.
Qed.
Lemma poly1_dot d f n : is_poly1 d f -> (2 <= n)%nat ->
  exists q, length q = S d /\ forall k, f (INR k) = dot (prof_row n d k) q.
Proof.
  intros H Hn. destruct (poly1_spanned d f H ((INR n - 1) / 2) ((INR n - 1) / 2)) as [G HG].
  exists (map G (seq 0 (S d))). split; [rewrite map_length; apply seq_length|]. intros k.
  assert (1 < INR n) by (apply (lt_INR 1); lia).
  replace (INR k) with ((INR n - 1) / 2 * prof_coord n k + (INR n - 1) / 2).
  - rewrite HG. unfold dot, prof_row. rewrite zip2_map_same. reflexivity.
  - unfold prof_coord. destruct (Nat.eqb_spec n 1); [lia|]. field. lra.
Qed.
