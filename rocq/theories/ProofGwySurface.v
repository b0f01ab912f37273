(** The choice of the height channel of a Gwyddion file (gwy.py:39-127), lemmas for C81. *)
From Coq Require Import String Ascii ZArith NArith Lia Bool Permutation.
From Coq Require Import DecimalFacts DecimalN.
From Coq Require Import List.
From Flocq Require Import IEEE754.Binary IEEE754.Bits.
From Verif Require Import Base ModelBytes ModelUnits ModelSur ModelFormats ModelReaders ModelGwy SpecGwy ProofBytes PropsMagic PropsLayout.
Import ListNotations.
Local Open Scope list_scope.
Local Open Scope Z_scope.

Lemma gget_entry d k : gget d k = entry d k.
Proof.
  induction d as [|[k' v] d IH]; [reflexivity|]. cbn [gget entry]. destruct (list_eq_dec Z.eq_dec k k') as [->|N].
  - rewrite zs_eqb_refl. reflexivity.
  - destruct (zs_eqb k k') eqn:E; [apply zs_eqb_eq in E; contradiction|exact IH].
Qed.
Lemma gitem_iff v k x : gitem v k = Ok x <-> inside v [k] = Some x.
Proof.
  unfold gitem. cbn [inside]. destruct v; try (split; discriminate). rewrite gget_entry. destruct (entry d k); split; intros H; try discriminate; congruence.
Qed.
Lemma inside_app v p q : inside v (p ++ q) = match inside v p with Some x => inside x q | None => None end.
Proof.
  revert v. induction p as [|k p IH]; intros v; [reflexivity|]. cbn [app inside]. destruct v; try reflexivity. destruct (entry d k); [apply IH|reflexivity].
Qed.
Lemma inside_cons v k p x : inside v (k :: p) = Some x <-> exists y, inside v [k] = Some y /\ inside y p = Some x.
Proof.
  change (k :: p) with ([k] ++ p). rewrite inside_app. destruct (inside v [k]) as [y|]; split.
  - intros H. exists y. auto.
  - intros (z & E & H). congruence.
  - discriminate.
  - intros (z & E & _). discriminate.
Qed.
Lemma ghas_iff v k b : ghas v k = Ok b <-> (exists d, v = GDict d) /\ (b = true <-> inside v [k] <> None).
Proof.
  unfold ghas. cbn [inside]. destruct v; try (split; [discriminate|intros [(d & E) _]; discriminate]). rewrite gget_entry. destruct (entry d k).
  - split.
    + intros H. injection H as <-. split; [eauto|]. split; [discriminate|reflexivity].
    + intros [_ H]. f_equal. symmetry. apply H. discriminate.
  - split.
    + intros H. injection H as <-. split; [eauto|]. split; [discriminate|intros F; contradiction].
    + intros [_ H]. destruct b; [|reflexivity]. exfalso. apply (proj1 H); reflexivity.
Qed.
Lemma data_field_iff c n f : data_field c n = Ok f <-> in_field c n [] = Some f.
Proof.
  unfold data_field, in_field. change (path_key n "/data") with (slash n "/data"). rewrite inside_cons. split.
  - intros H. apply rbind_ok in H as (v & H1 & H2). exists v. split; [apply gitem_iff, H1|]. apply gitem_iff, H2.
  - intros (v & H1 & H2). apply gitem_iff in H1. rewrite H1. apply gitem_iff, H2.
Qed.
Lemma in_field_iff c n f p x : in_field c n [] = Some f -> (inside f p = Some x <-> in_field c n p = Some x).
Proof.
  intros H. unfold in_field in *. change (path_key n "/data" :: str "GwyDataField" :: p) with ([path_key n "/data"; str "GwyDataField"] ++ p). rewrite inside_app, H. reflexivity.
Qed.
Lemma unit_of_iff f w x : unit_of f w = Ok x <-> inside f [str w; str "GwySIUnit"; str "unitstr"] = Some x.
Proof.
  unfold unit_of. rewrite inside_cons. split.
  - intros H. apply rbind_ok in H as (v & H1 & H2). apply rbind_ok in H2 as (v' & H2 & H3). exists v. split; [apply gitem_iff, H1|].
    apply inside_cons. exists v'. split; apply gitem_iff; assumption.
  - intros (v & H1 & H2). apply inside_cons in H2 as (v' & H2 & H3). apply gitem_iff in H1, H2, H3. rewrite H1. cbn [rbind]. rewrite H2. exact H3.
Qed.

(** the number of a key *)
Lemma is_digit_iff c : is_digit c = true <-> digit c.
Proof. unfold is_digit, digit. rewrite andb_true_iff, !Z.leb_le. reflexivity. Qed.
Lemma digit_run_spec s : forall d r, digit_run s = (d, r) -> s = d ++ r /\ Forall digit d /\ forall c t, r = c :: t -> ~ digit c.
Proof.
  induction s as [|c s IH]; intros d r H; cbn [digit_run] in H.
  - injection H as <- <-. repeat split; [constructor|discriminate].
  - destruct (is_digit c) eqn:E.
    + destruct (digit_run s) as [d' r'] eqn:F. injection H as <- <-. destruct (IH _ _ eq_refl) as (H1 & H2 & H3). repeat split; [cbn; congruence|constructor; [apply is_digit_iff, E|exact H2]|exact H3].
    + injection H as <- <-. repeat split; [constructor|]. intros c' t H. injection H as <- <-. intros D. apply is_digit_iff in D. congruence.
Qed.
Lemma digits_unique a b r t : Forall digit a -> Forall digit b -> (forall c t', r = c :: t' -> ~ digit c) -> (forall c t', t = c :: t' -> ~ digit c) -> a ++ r = b ++ t -> a = b /\ r = t.
Proof.
  revert b. induction a as [|x a IH]; intros [|y b] Ha Hb Hr Ht E; cbn in E.
  - auto.
  - exfalso. inversion Hb; subst. apply (Hr y (b ++ t) eq_refl). assumption.
  - exfalso. inversion Ha; subst. apply (Ht x (a ++ r) eq_refl). assumption.
  - inversion Ha; inversion Hb; subst. injection E as -> E. destruct (IH b) as [-> ->]; auto.
Qed.
Lemma slash_no_digit c (t b : pystr) : 47 :: b = c :: t -> ~ digit c.
Proof. intros E. injection E as <- _. unfold digit. lia. Qed.
Lemma match_head c s a n b : matches (c :: s) a n b -> (a = [] /\ c = 47 /\ s = n ++ [47] ++ b) \/ exists a', a = c :: a' /\ matches s a' n b.
Proof.
  intros (E & H1 & H2). destruct a as [|x a].
  - left. cbn in E. injection E as -> E. auto.
  - right. cbn in E. injection E as -> E. exists a. repeat split; assumption.
Qed.
Lemma match_cons c s a n b : matches s a n b -> matches (c :: s) (c :: a) n b.
Proof. intros (E & H1 & H2). repeat split; [rewrite E; reflexivity|exact H1|exact H2]. Qed.
Lemma match_tail c s a n b : matches (c :: s) (c :: a) n b -> matches s a n b.
Proof. intros (E & H1 & H2). repeat split; [|exact H1|exact H2]. cbn in E. injection E as E. exact E. Qed.
Lemma match_first c s a n b : matches (c :: s) a n b -> a = [] \/ exists a', a = c :: a'.
Proof. intros (E & _). destruct a as [|x a]; [auto|]. right. cbn in E. injection E as -> _. eauto. Qed.
Definition leftmost s := match layer_number s with
  | Some n => exists a b, matches s a n b /\ forall a' n' b', matches s a' n' b' -> (length a <= length a')%nat
  | None => forall a n b, ~ matches s a n b
  end.
Lemma layer_number_spec s : leftmost s.
Proof.
  induction s as [|c s IH]; unfold leftmost; cbn [layer_number].
  - intros a n b (E & H & _). symmetry in E. apply app_eq_nil in E as [_ E]. discriminate.
  - assert (Next : (forall n b, ~ matches (c :: s) [] n b) ->
      match layer_number s with Some n => exists a b, matches (c :: s) a n b /\ (forall a' n' b', matches (c :: s) a' n' b' -> (length a <= length a')%nat)
      | None => forall a n b, ~ matches (c :: s) a n b end).
    { intros Hno. unfold leftmost in IH. destruct (layer_number s) as [n|].
      - destruct IH as (a & b & M & H3). exists (c :: a), b. split; [apply match_cons, M|].
        intros a' n' b' M'. destruct (match_first _ _ _ _ _ M') as [->|(a1 & ->)]; [exfalso; exact (Hno _ _ M')|].
        apply match_tail, H3 in M'. cbn. lia.
      - intros a n b M. destruct (match_first _ _ _ _ _ M) as [->|(a1 & ->)]; [exact (Hno _ _ M)|]. exact (IH _ _ _ (match_tail _ _ _ _ _ M)). }
    destruct (Z.eqb_spec c 47) as [->|N].
    2: { apply Next. intros n b (E & _). cbn in E. injection E as E _. contradiction. }
    destruct (digit_run s) as [d r] eqn:R. apply digit_run_spec in R as (E & D & F).
    destruct d as [|x d].
    { apply Next. intros n b (E1 & H1 & H2). cbn in E1. injection E1 as E1. cbn in E. subst r. destruct n as [|y n]; [contradiction|].
      inversion H2; subst. apply (F y (n ++ 47 :: b) eq_refl). assumption. }
    destruct r as [|y r].
    { apply Next. intros n b (E1 & H1 & H2). cbn in E1. injection E1 as E1. rewrite app_nil_r in E. subst s.
      assert (G : digit 47); [|unfold digit in G; lia]. rewrite Forall_forall in D. apply D. rewrite E1. apply in_or_app. right. left. reflexivity. }
    destruct (Z.eqb_spec y 47) as [->|N].
    + exists [], r. split; [|cbn; lia]. repeat split; [cbn; rewrite E; reflexivity|discriminate|exact D].
    + apply Next. intros n b (E1 & H1 & H2). cbn in E1. injection E1 as E1. rewrite E in E1.
      change (x :: d ++ y :: r) with ((x :: d) ++ y :: r) in E1. change (n ++ 47 :: b) with (n ++ (47 :: b)) in E1.
      apply digits_unique in E1 as [_ E1]; [injection E1 as E1 _; contradiction|exact D|exact H2|exact F|exact (fun c t => slash_no_digit c t b)].
Qed.
Lemma matches_same s a n b a' n' b' : matches s a n b -> matches s a' n' b' -> length a = length a' -> n = n'.
Proof.
  intros (E & H1 & H2) (E' & H1' & H2') L. rewrite E in E'. 
  assert (A : a = a' /\ [47] ++ n ++ [47] ++ b = [47] ++ n' ++ [47] ++ b').
  { clear - E' L. revert a' L E'. induction a as [|x a IH]; intros [|y a'] L E'; try discriminate; [auto|]. cbn in E'. injection E' as -> E'. cbn in L. destruct (IH a' ltac:(lia) E') as [-> ->]. auto. }
  destruct A as [_ A]. cbn in A. injection A as A. apply digits_unique in A as [A _]; [exact A|exact H2|exact H2'|exact (fun c t => slash_no_digit c t b)|exact (fun c t => slash_no_digit c t b')].
Qed.
Lemma layer_number_iff s n : layer_number s = Some n <-> belongs s n.
Proof.
  pose proof (layer_number_spec s) as L. unfold leftmost in L. split.
  - intros H. rewrite H in L. exact L.
  - intros (a & b & M & H). destruct (layer_number s) as [n'|]; [|destruct (L _ _ _ M)]. destruct L as (a' & b' & M' & H').
    f_equal. symmetry. apply (matches_same s a n b a' n' b' M M'). apply H in M'. apply H' in M. lia.
Qed.
(** the numbers of a container *)
Lemma layer_keys_spec order c keys : (forall l, Permutation (order l) l) -> layer_keys order c = Ok keys ->
  NoDup keys /\ forall n, In n keys <-> numbered c n.
Proof.
  intros Ho H. unfold layer_keys in H. destruct c; try discriminate. apply ok_inj in H. subst keys.
  split.
  - apply (Permutation_NoDup (Permutation_sym (Ho _))), NoDup_nodup.
  - intros n. split.
    + intros H. apply (Permutation_in _ (Ho _)) in H. apply nodup_In in H. apply in_flat_map in H as ((k & v) & H1 & H2).
      destruct (layer_number k) as [n'|] eqn:E; [|destruct H2]. destruct H2 as [<-|[]]. exists d, k, v. repeat split; [exact H1|]. apply layer_number_iff, E.
    + intros (d' & k & v & E & H1 & H2). injection E as <-. apply (Permutation_in _ (Permutation_sym (Ho _))), nodup_In, in_flat_map. exists (k, v). split; [exact H1|].
      apply layer_number_iff in H2. rewrite H2. left. reflexivity.
Qed.
(** filtering *)
Definition holds {A} (f : A -> res bool) (x : A) : bool := match f x with Ok b => b | Err _ => false end.
Lemma rfilter_iff {A} (f : A -> res bool) l r : rfilter f l = Ok r <-> Forall (fun x => is_ok (f x) = true) l /\ r = List.filter (holds f) l.
Proof.
  revert r. induction l as [|x l IH]; intros r; cbn [rfilter List.filter].
  - split; [intros H; injection H as <-; auto|intros [_ ->]; reflexivity].
  - unfold holds at 1. split.
    + intros H. apply rbind_ok in H as (b & H1 & H). apply rbind_ok in H as (r' & H2 & H3). apply ok_inj in H3. subst r. apply IH in H2 as [H2 ->].
      rewrite H1. split; [constructor; [rewrite H1; reflexivity|exact H2]|destruct b; reflexivity].
    + intros [H ->]. inversion H as [|? ? H1 H2]; subst. destruct (f x) as [b|e]; [|discriminate]. cbn [rbind].
      rewrite (proj2 (IH _) (conj H2 eq_refl)). cbn [rbind]. destruct b; reflexivity.
Qed.
(** units *)
Lemma known_unit u : (match lookup unit_table u with Some _ => true | None => false end) = true <-> In u length_units.
Proof.
  change length_units with (map fst unit_table). induction unit_table as [|[k e] t IH]; cbn [lookup map fst]; [split; [discriminate|intros []]|].
  destruct (zs_eqb k u) eqn:E.
  - apply zs_eqb_eq in E. split; [intros _; left; exact E|reflexivity].
  - rewrite IH. split; [right; assumption|]. intros [<-|H]; [rewrite zs_eqb_refl in E; discriminate|exact H].
Qed.
Lemma has_length_unit_ok c n b : has_length_unit c n = Ok b ->
  unit_readable c n /\ (b = true <-> exists u, field_unit c n "si_unit_z" = Some (GStr u) /\ In u length_units).
Proof.
  intros H. unfold has_length_unit in H. apply rbind_ok in H as (f & H1 & H). apply rbind_ok in H as (has & H2 & H).
  apply data_field_iff in H1. apply ghas_iff in H2 as [(d & ->) H2]. destruct has.
  - apply rbind_ok in H as (u & H3 & H4). apply unit_of_iff in H3. apply (in_field_iff _ _ _ _ _ H1) in H3. fold (field_unit c n "si_unit_z") in H3.
    split.
    + exists d. split; [exact H1|]. right. exists u. split; [exact H3|]. destruct u; try exact Logic.I; discriminate.
    + rewrite H3. destruct u; try discriminate H4; apply ok_inj in H4; subst b; try (split; [discriminate|intros (u & E & _); discriminate]).
      rewrite known_unit. split; [intros I; exists s; auto|]. intros (u & E & I). congruence.
  - apply ok_inj in H. subst b. assert (N : in_field c n [str "si_unit_z"] = None).
    { destruct (in_field c n [str "si_unit_z"]) eqn:E; [|reflexivity]. apply (in_field_iff _ _ _ _ _ H1) in E. exfalso.
      assert (false = true) by (apply H2; rewrite E; discriminate). discriminate. }
    split.
    + exists d. split; [exact H1|]. left. exact N.
    + split; [discriminate|]. intros (u & E & _). exfalso. unfold field_unit in E. rewrite <- (in_field_iff _ _ _ _ _ H1) in E. apply inside_cons in E as (y & E & _).
      apply (in_field_iff _ _ _ _ _ H1) in E. congruence.
Qed.
Lemma has_length_unit_reads c n : unit_readable c n -> is_ok (has_length_unit c n) = true.
Proof.
  intros (d & H1 & H2). unfold has_length_unit. rewrite (proj2 (data_field_iff c n _) H1). cbn [rbind ghas]. rewrite gget_entry.
  destruct (entry d (str "si_unit_z")) as [v|] eqn:E; [|reflexivity]. cbn [rbind].
  assert (E' : in_field c n [str "si_unit_z"] = Some v) by (apply (in_field_iff _ _ _ _ _ H1); cbn [inside]; rewrite E; reflexivity).
  destruct H2 as [H2|(u & H2 & S)]; [congruence|]. unfold field_unit in H2. rewrite <- (in_field_iff _ _ _ _ _ H1) in H2. apply unit_of_iff in H2. rewrite H2. cbn [rbind].
  destruct u; try destruct S; reflexivity.
Qed.
(** titles *)
Lemma prefix_of_iff p : forall s, prefix_of p s = true <-> exists b, s = p ++ b.
Proof.
  induction p as [|x p IH]; intros s; cbn [prefix_of].
  - split; [intros _; exists s; reflexivity|reflexivity].
  - destruct s as [|y s]; [split; [discriminate|intros (b & E); discriminate]|]. rewrite andb_true_iff, Z.eqb_eq, IH. split.
    + intros [-> (b & ->)]. exists b. reflexivity.
    + intros (b & E). cbn in E. injection E as -> ->. eauto.
Qed.
Lemma contains_iff p s : contains p s = true <-> has_part p s.
Proof.
  induction s as [|x s IH]; cbn [contains]; rewrite orb_true_iff, prefix_of_iff.
  - split.
    + intros [(b & E)|H]; [|discriminate]. exists [], b. exact E.
    + intros (a & b & E). left. symmetry in E. apply app_eq_nil in E as [-> E]. exists b. cbn. symmetry. exact E.
  - rewrite IH. split.
    + intros [(b & E)|(a & b & ->)]; [exists [], b; exact E|exists (x :: a), b; reflexivity].
    + intros ([|y a] & b & E); [left; exists b; exact E|]. right. cbn in E. injection E as -> ->. exists a, b. reflexivity.
Qed.
Lemma sounds_ok lower c n b : sounds_like_height lower c n = Ok b -> titled c n /\ (b = true <-> topographic lower c n).
Proof.
  intros H. unfold sounds_like_height, title_of in H. apply rbind_ok in H as (t & H1 & H2). apply gitem_iff in H1. change (slash n "/data/title") with (path_key n "/data/title") in H1.
  destruct t; try discriminate. apply ok_inj in H2. subst b. split; [exists s; exact H1|]. rewrite orb_true_iff, !contains_iff. unfold topographic. rewrite H1. split.
  - intros H. exists s. auto.
  - intros (t & E & H). congruence.
Qed.
Lemma sounds_reads lower c n : titled c n -> is_ok (sounds_like_height lower c n) = true.
Proof. intros (t & H). unfold sounds_like_height, title_of. change (slash n "/data/title") with (path_key n "/data/title"). rewrite (proj2 (gitem_iff _ _ _) H). reflexivity. Qed.
(** numbers *)
Lemma uint_of_cons c s : digit c -> decimal (c :: s) = fold_left (fun a c => 10 * a + (c - 48)) s (c - 48).
Proof. reflexivity. Qed.
Lemma digit_cases c : digit c -> c = 48 \/ c = 49 \/ c = 50 \/ c = 51 \/ c = 52 \/ c = 53 \/ c = 54 \/ c = 55 \/ c = 56 \/ c = 57.
Proof. unfold digit. lia. Qed.
Lemma acc_spec s : Forall digit s -> forall p, Z.pos (Pos.of_uint_acc (uint_of s) p) = fold_left (fun a c => 10 * a + (c - 48)) s (Z.pos p).
Proof.
  induction s as [|c s IH]; intros H p; [reflexivity|]. inversion H as [|? ? H1 H2]; subst. cbn [uint_of fold_left].
  destruct (digit_cases c H1) as [->|[->|[->|[->|[->|[->|[->|[->|[->| ->]]]]]]]]]; cbn [Z.eqb Pos.eqb Pos.of_uint_acc]; rewrite IH by exact H2; f_equal; lia.
Qed.
Lemma int_of_decimal s : Forall digit s -> Z.of_N (int_of s) = decimal s.
Proof.
  unfold int_of, decimal, N.of_uint. induction s as [|c s IH]; intros H; [reflexivity|]. inversion H as [|? ? H1 H2]; subst. cbn [uint_of fold_left].
  destruct (digit_cases c H1) as [->|[->|[->|[->|[->|[->|[->|[->|[->| ->]]]]]]]]]; cbn [Z.eqb Pos.eqb Pos.of_uint Z.of_N]; [exact (IH H2)|rewrite acc_spec by exact H2; reflexivity ..].
Qed.
Lemma uint_of_of u : uint_of (of_uint u) = u.
Proof. induction u; cbn; congruence. Qed.
Lemma of_uint_digits u : Forall digit (of_uint u).
Proof. induction u; cbn; constructor; try assumption; unfold digit; lia. Qed.
Lemma of_uint_of s : Forall digit s -> of_uint (uint_of s) = s.
Proof.
  induction s as [|c s IH]; intros H; [reflexivity|]. inversion H as [|? ? H1 H2]; subst. cbn [uint_of].
  destruct (digit_cases c H1) as [->|[->|[->|[->|[->|[->|[->|[->|[->| ->]]]]]]]]]; cbn; rewrite IH by exact H2; reflexivity.
Qed.
Lemma str_of_value n : decimal (str_of n) = Z.of_N n.
Proof.
  unfold str_of. rewrite <- int_of_decimal by apply of_uint_digits. unfold int_of. rewrite uint_of_of, DecimalN.Unsigned.of_to. reflexivity.
Qed.
Lemma to_uint_unorm n : N.to_uint n = Decimal.unorm (N.to_uint n).
Proof. rewrite <- DecimalN.Unsigned.to_of, DecimalN.Unsigned.of_to. reflexivity. Qed.
Lemma str_of_plain n : plain_decimal (str_of n).
Proof.
  unfold str_of, plain_decimal. rewrite to_uint_unorm. split; [apply of_uint_digits|]. unfold Decimal.unorm.
  destruct (Decimal.nzhead (N.to_uint n)) eqn:E; cbn [of_uint]; (split; [discriminate|]); try (right; intros t F; discriminate).
  - left. reflexivity.
  - exfalso. exact (DecimalFacts.nzhead_nonzero _ _ E).
Qed.
Lemma plain_unorm s : plain_decimal s -> Decimal.unorm (uint_of s) = uint_of s.
Proof.
  intros (H1 & H2 & H3). destruct s as [|c s]; [contradiction|]. inversion H1 as [|? ? D1 D2]; subst.
  destruct (digit_cases c D1) as [->|[->|[->|[->|[->|[->|[->|[->|[->| ->]]]]]]]]]; try reflexivity.
  destruct H3 as [H3|H3]; [injection H3 as ->; reflexivity|destruct (H3 s eq_refl)].
Qed.
Lemma plain_str s : plain_decimal s -> s = str_of (int_of s).
Proof.
  intros H. unfold str_of, int_of. rewrite DecimalN.Unsigned.to_of, plain_unorm by exact H. symmetry. apply of_uint_of, H.
Qed.
Lemma plain_inj s t : plain_decimal s -> plain_decimal t -> decimal s = decimal t -> s = t.
Proof.
  intros H1 H2 E. rewrite (plain_str s H1), (plain_str t H2). f_equal. apply N2Z.inj. rewrite !int_of_decimal by (apply H1 || apply H2). exact E.
Qed.
(** two descriptions cannot both be right *)
Lemma only_several {A} (P : A -> Prop) k : only P k -> several P -> False.
Proof. intros [_ H] (x & y & H1 & H2 & N). apply N. rewrite (H x H1), (H y H2). reflexivity. Qed.
Lemma only_unique {A} (P : A -> Prop) k k' : only P k -> only P k' -> k = k'.
Proof. intros [H1 _] [_ H2]. apply H2, H1. Qed.
Theorem chosen_unique lower c k k' : chosen lower c k -> chosen lower c k' -> k = k'.
Proof.
  intros [H|[H1 H2]] [H'|[H1' H2']].
  - exact (only_unique _ _ _ H H').
  - destruct (only_several _ _ H H1').
  - destruct (only_several _ _ H' H1).
  - destruct H2 as [H2|(S & P & n & N1 & N2 & N3)]; destruct H2' as [H2'|(S' & P' & n' & N1' & N2' & N3')].
    + exact (only_unique _ _ _ H2 H2').
    + destruct (only_several _ _ H2 S').
    + destruct (only_several _ _ H2' S).
    + apply plain_inj; [assumption|assumption|]. apply N3 in N1'. apply N3' in N1. lia.
Qed.
Lemma fold_min l : forall a, In (fold_left N.min l a) (a :: l) /\ forall x, In x (a :: l) -> (fold_left N.min l a <= x)%N.
Proof.
  induction l as [|y l IH]; intros a; cbn [fold_left].
  - split; [left; reflexivity|]. intros x [<-|[]]. lia.
  - destruct (IH (N.min a y)) as [H1 H2]. split.
    + destruct H1 as [E|H1]; [|right; right; exact H1]. rewrite <- E. destruct (N.min_spec a y) as [[_ ->]|[_ ->]]; [left|right; left]; reflexivity.
    + intros x [<-|[<-|H]].
      * specialize (H2 (N.min a y) (or_introl eq_refl)). lia.
      * specialize (H2 (N.min a y) (or_introl eq_refl)). lia.
      * apply H2. right. exact H.
Qed.
Lemma lowest_spec l : l <> [] -> exists n, In n l /\ lowest l = int_of n /\ forall m, In m l -> (int_of n <= int_of m)%N.
Proof.
  intros H. unfold lowest. destruct l as [|x l]; [contradiction|]. cbn [map]. destruct (fold_min (map int_of l) (int_of x)) as [H1 H2].
  change (int_of x :: map int_of l) with (map int_of (x :: l)) in H1, H2. apply in_map_iff in H1 as (n & E & H1). exists n. split; [exact H1|]. split; [symmetry; exact E|].
  intros m Hm. rewrite E. apply H2, in_map, Hm.
Qed.
Lemma belongs_digits k n : belongs k n -> Forall digit n.
Proof. intros (a & b & (_ & _ & H) & _). exact H. Qed.
Lemma candidate_digits c n : candidate c n -> Forall digit n.
Proof. intros [(d & k & v & _ & _ & H) _]. exact (belongs_digits _ _ H). Qed.
Lemma two_several {A} (P : A -> Prop) (x y : A) l : NoDup (x :: y :: l) -> (forall z, In z (x :: y :: l) <-> P z) -> several P.
Proof.
  intros N H. exists x, y. split; [apply H; left; reflexivity|]. split; [apply H; right; left; reflexivity|]. intros ->. inversion N as [|? ? F _]; subst. apply F. left. reflexivity.
Qed.
Lemma one_only {A} (P : A -> Prop) (x : A) : (forall z, In z [x] <-> P z) -> only P x.
Proof. intros H. split; [apply H; left; reflexivity|]. intros y Hy. apply H in Hy as [->|[]]. reflexivity. Qed.
(** the choice *)
Section choice.
Variable lower : pystr -> pystr.
Variable c : gval.
Variable keys : list pystr.
Hypothesis Hnodup : NoDup keys.
Hypothesis Hkeys : forall n, In n keys <-> numbered c n.
Lemma filter_units : Forall (fun n => is_ok (has_length_unit c n) = true) keys ->
  forall n, In n (List.filter (holds (has_length_unit c)) keys) <-> candidate c n.
Proof.
  intros F n. rewrite filter_In, Hkeys. unfold candidate. split; intros [H1 H2]; (split; [exact H1|]); rewrite Forall_forall in F; specialize (F n (proj2 (Hkeys n) H1));
    unfold holds in *; destruct (has_length_unit c n) as [b|] eqn:E; try discriminate F; apply has_length_unit_ok in E as [_ E]; apply E, H2.
Qed.
Lemma filter_titles l : (forall n, In n l <-> candidate c n) -> Forall (fun n => is_ok (sounds_like_height lower c n) = true) l ->
  let r := List.filter (holds (sounds_like_height lower c)) l in
  forall n, In n (match r with [] => l | _ => r end) <-> preferred lower c n.
Proof.
  intros Hl F r.
  assert (Hr : forall n, In n r <-> candidate c n /\ topographic lower c n).
  { intros n. unfold r. rewrite filter_In, Hl. split; intros [H1 H2]; (split; [exact H1|]); rewrite Forall_forall in F; specialize (F n (proj2 (Hl n) H1));
      unfold holds in *; destruct (sounds_like_height lower c n) as [b|] eqn:E; try discriminate F; apply sounds_ok in E as [_ E]; apply E, H2. }
  intros n. unfold preferred. destruct r as [|x r'].
  - rewrite Hl. split; [|intros [H _]; exact H]. intros H. split; [exact H|]. right. intros m Hm Ht. apply (Hr m). auto.
  - rewrite Hr. split; [intros [H1 H2]; auto|]. intros [H1 [H2|H2]]; [auto|]. exfalso. destruct (proj1 (Hr x) (or_introl eq_refl)) as [X1 X2]. exact (H2 x X1 X2).
Qed.
Lemma choice_ok k : guess_height_channel lower c keys = Ok k ->
  chosen lower c k /\ (forall n, numbered c n -> unit_readable c n) /\ (several (candidate c) -> forall n, candidate c n -> titled c n).
Proof.
  intros H. unfold guess_height_channel in H. apply rbind_ok in H as (l1 & H1 & H). apply rfilter_iff in H1 as [F1 ->].
  pose proof (filter_units F1) as C1. assert (U : forall n, numbered c n -> unit_readable c n).
  { intros n Hn. rewrite Forall_forall in F1. specialize (F1 n (proj2 (Hkeys n) Hn)). cbv beta in F1. destruct (has_length_unit c n) eqn:E; [|discriminate]. apply has_length_unit_ok in E. apply E. }
  assert (N1 : NoDup (List.filter (holds (has_length_unit c)) keys)) by apply NoDup_filter, Hnodup.
  set (l1 := List.filter _ keys) in *. clearbody l1. destruct l1 as [|x [|y l1]]; [discriminate| |].
  - apply ok_inj in H. subst k. pose proof (one_only _ _ C1) as O. split; [left; exact O|]. split; [exact U|]. intros S. destruct (only_several _ _ O S).
  - pose proof (two_several _ _ _ _ N1 C1) as S1. apply rbind_ok in H as (r & H2 & H). apply rfilter_iff in H2 as [F2 ->].
    pose proof (filter_titles _ C1 F2) as C2. cbv zeta in C2. assert (T : forall n, candidate c n -> titled c n).
    { intros n Hn. rewrite Forall_forall in F2. specialize (F2 n (proj2 (C1 n) Hn)). cbv beta in F2. destruct (sounds_like_height lower c n) eqn:E; [|discriminate]. apply sounds_ok in E. apply E. }
    split; [|split; [exact U|intros _; exact T]]. right. split; [exact S1|].
    assert (N2 : NoDup (match List.filter (holds (sounds_like_height lower c)) (x :: y :: l1) with [] => x :: y :: l1 | _ => List.filter (holds (sounds_like_height lower c)) (x :: y :: l1) end)).
    { destruct (List.filter _ _) eqn:E; [exact N1|]. rewrite <- E. apply NoDup_filter, N1. }
    set (r := List.filter _ _) in *. set (l2 := match r with [] => _ | _ => r end) in *.
    assert (Lne : l2 <> []) by (unfold l2; destruct r; discriminate). clearbody l2.
    assert (Low : forall z, l2 <> [] -> several (preferred lower c) -> Ok (str_of (lowest l2)) = Ok z ->
      several (preferred lower c) /\ plain_decimal z /\ exists n, preferred lower c n /\ decimal z = decimal n /\ forall m, preferred lower c m -> decimal n <= decimal m).
    { intros z Z1 Z2 Z3. apply ok_inj in Z3. subst z. split; [exact Z2|]. split; [apply str_of_plain|]. destruct (lowest_spec l2 Z1) as (n & L1 & L2 & L3). exists n.
      apply C2 in L1. split; [exact L1|]. destruct L1 as [L1 _]. apply candidate_digits in L1. split; [rewrite str_of_value, L2; apply int_of_decimal, L1|].
      intros m Hm. pose proof (candidate_digits _ _ (proj1 Hm)) as Dm. apply C2, L3 in Hm. rewrite <- !int_of_decimal by assumption. lia. }
    destruct l2 as [|a [|b l2]].
    + contradiction.
    + left. apply ok_inj in H. subst k. apply one_only, C2.
    + right. apply Low; [discriminate|exact (two_several _ _ _ _ N2 C2)|exact H].
Qed.
Lemma choice_reads k : (forall n, numbered c n -> unit_readable c n) -> (several (candidate c) -> forall n, candidate c n -> titled c n) -> chosen lower c k ->
  guess_height_channel lower c keys = Ok k.
Proof.
  intros U T Hk.
  assert (E : exists k', guess_height_channel lower c keys = Ok k').
  { unfold guess_height_channel.
    assert (F1 : Forall (fun n => is_ok (has_length_unit c n) = true) keys) by (apply Forall_forall; intros n Hn; apply has_length_unit_reads, U, Hkeys, Hn).
    rewrite (proj2 (rfilter_iff _ _ _) (conj F1 eq_refl)). cbn [rbind]. pose proof (filter_units F1) as C1.
    assert (N1 : NoDup (List.filter (holds (has_length_unit c)) keys)) by apply NoDup_filter, Hnodup.
    set (l1 := List.filter _ keys) in *. clearbody l1. destruct l1 as [|x [|y l1]].
    - exfalso. assert (G : exists n, candidate c n) by (destruct Hk as [[H _]|[(n & _ & H & _) _]]; eauto). destruct G as (n & G). apply C1 in G. exact G.
    - eauto.
    - pose proof (two_several _ _ _ _ N1 C1) as S1.
      assert (F2 : Forall (fun n => is_ok (sounds_like_height lower c n) = true) (x :: y :: l1)) by (apply Forall_forall; intros n Hn; apply sounds_reads, T; [exact S1|apply C1, Hn]).
      rewrite (proj2 (rfilter_iff _ _ _) (conj F2 eq_refl)). cbn [rbind]. set (l2 := match List.filter _ _ with [] => _ | _ => _ end). clearbody l2. destruct l2 as [|a [|b l2]]; eauto. }
  destruct E as (k' & E). rewrite E. f_equal. apply choice_ok in E as [E _]. exact (chosen_unique _ _ _ _ E Hk).
Qed.
End choice.
Theorem guess_iff lower order c k : (forall l, Permutation (order l) l) ->
  (rbind (layer_keys order c) (guess_height_channel lower c) = Ok k <-> searchable c /\ chosen lower c k).
Proof.
  intros Ho. unfold searchable. split.
  - intros H. apply rbind_ok in H as (keys & H1 & H2). pose proof (layer_keys_spec _ _ _ Ho H1) as [N K].
    apply (choice_ok lower c keys N K) in H2 as (H2 & H3 & H4). repeat split; try assumption. unfold layer_keys in H1. destruct c; try discriminate. eauto.
  - intros [((d & E) & H1 & H2) H3]. destruct (layer_keys order c) as [keys|e] eqn:L; [|subst c; discriminate]. cbn [rbind].
    pose proof (layer_keys_spec _ _ _ Ho L) as [N K]. apply choice_reads; assumption.
Qed.
