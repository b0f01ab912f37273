(** C96: the tables of formats hold what the format modules declare. *)
From Coq Require Import String ZArith Bool Lia Permutation Sorted.
From Coq Require Import List.
From Verif Require Import Base ModelBytes ModelDispatch ModelRegistry ProofBytes.
Import ListNotations.
Local Open Scope list_scope.

Section Props.
Context {F : Type}.
Implicit Types (d : list (list Z * F)) (ds : list (decl F)).
(** *** Specification: what a list of declarations says *)
Definition declares_suffix (x : decl F) (s : list Z) (f : F) : Prop := exists sp m, x = Reader sp m f /\ In s (keys sp).
Definition declares_magic (x : decl F) (s : list Z) (f : F) : Prop := exists sp m, x = Reader sp (Some m) f /\ In s (keys m).
Definition declares_writer (x : decl F) (s : list Z) (f : F) : Prop := exists sp, x = Writer sp f /\ In s (keys sp).
(** the last declaration counts *)
Definition last_says (says : decl F -> list Z -> F -> Prop) ds s f : Prop :=
  exists ds1 x ds2, ds = ds1 ++ x :: ds2 /\ says x s f /\ forall y g, In y ds2 -> ~ says y s g.

Lemma assoc_put k k' v d : assoc k (put k' v d) = if zs_eqb k k' then Some v else assoc k d.
Proof.
  induction d as [|[k2 v2] d IH]; cbn [put assoc].
  - destruct (zs_eqb k k'); reflexivity.
  - destruct (zs_eqb k' k2) eqn:E; cbn [assoc].
    + apply zs_eqb_eq in E. subst k2. destruct (zs_eqb k k'); reflexivity.
    + destruct (zs_eqb k k2) eqn:E2; [|exact IH]. apply zs_eqb_eq in E2. subst k2.
      destruct (zs_eqb k k') eqn:E3; [|reflexivity]. apply zs_eqb_eq in E3. subst. rewrite zs_eqb_refl in E. discriminate.
Qed.
Lemma zs_dec : forall a b : list Z, {a = b} + {a <> b}.
Proof. apply list_eq_dec, Z.eq_dec. Defined.
Lemma zs_eqb_dec a b : zs_eqb a b = if zs_dec a b then true else false.
Proof. destruct (zs_dec a b) as [->|N]; [apply zs_eqb_refl|]. destruct (zs_eqb a b) eqn:E; [|reflexivity]. apply zs_eqb_eq in E. contradiction. Qed.
Lemma assoc_put_all ks v : forall d k, assoc k (put_all ks v d) = if in_dec zs_dec k ks then Some v else assoc k d.
Proof.
  unfold put_all. induction ks as [|k0 ks IH]; intros d k; cbn [fold_left]; [destruct (in_dec zs_dec k []) as [[]|]; reflexivity|].
  rewrite IH, assoc_put, zs_eqb_dec. destruct (in_dec zs_dec k ks) as [H|H]; destruct (in_dec zs_dec k (k0 :: ks)) as [H'|H']; try reflexivity.
  - exfalso. apply H'. right. exact H.
  - destruct H' as [->|H']; [|contradiction]. destruct (zs_dec k k); [reflexivity|congruence].
  - destruct (zs_dec k k0) as [->|]; [exfalso; apply H'; left; reflexivity|reflexivity].
Qed.
Lemma keys_put k v d : (forall x, In x (map fst (put k v d)) <-> x = k \/ In x (map fst d)) /\ (NoDup (map fst d) -> NoDup (map fst (put k v d))).
Proof.
  induction d as [|[k2 v2] d [IH1 IH2]]; cbn [put map fst].
  - split; [intros x; cbn [In]; split; [intros [->|[]]; auto|intros [->|[]]; auto]|intros _; repeat constructor; intros []].
  - destruct (zs_eqb k k2) eqn:E; cbn [map fst].
    + apply zs_eqb_eq in E. subst. split; [intros x; cbn [In]; intuition congruence|auto].
    + split; [intros x; cbn [In]; rewrite IH1; intuition congruence|]. intros H. apply NoDup_cons_iff in H. destruct H as [Hi Hn]. constructor; [|apply IH2, Hn].
      rewrite IH1. intros [->|H]; [rewrite zs_eqb_refl in E; discriminate|contradiction].
Qed.
Lemma nodup_put_all ks v : forall d, NoDup (map fst d) -> NoDup (map fst (put_all ks v d)).
Proof. unfold put_all. induction ks as [|k ks IH]; intros d H; cbn [fold_left]; [exact H|]. apply IH. apply keys_put. exact H. Qed.

Section Table.
(** one of the three tables, abstractly: what a declaration puts into it *)
Variable puts : decl F -> option (list (list Z) * F).
Definition table ds : list (list Z * F) := fold_left (fun d x => match puts x with Some (ks, f) => put_all ks f d | None => d end) ds [].
Definition says (x : decl F) s f : Prop := exists ks, puts x = Some (ks, f) /\ In s ks.
Lemma table_snoc ds x : table (ds ++ [x]) = match puts x with Some (ks, f) => put_all ks f (table ds) | None => table ds end.
Proof. unfold table. rewrite fold_left_app. reflexivity. Qed.
Lemma table_nodup ds : NoDup (map fst (table ds)).
Proof. induction ds as [|x ds IH] using rev_ind; [constructor|]. rewrite table_snoc. destruct (puts x) as [[ks f]|]; [apply nodup_put_all|]; exact IH. Qed.
Lemma table_says ds s f : assoc s (table ds) = Some f <-> last_says says ds s f.
Proof.
  induction ds as [|x ds IH] using rev_ind.
  - split; [discriminate|]. intros (a & b & c & E & _). destruct a; discriminate.
  - rewrite table_snoc. split.
    + destruct (puts x) as [[ks g]|] eqn:P.
      * rewrite assoc_put_all. destruct (in_dec zs_dec s ks) as [Hi|Hi].
        -- intros E. exists ds, x, []. split; [reflexivity|]. split; [exists ks; split; [congruence|exact Hi]|intros y h []].
        -- rewrite IH. intros (a & b & c & -> & Hs & Hn). exists a, b, (c ++ [x]). split; [rewrite <- app_assoc; reflexivity|]. split; [exact Hs|].
           intros y h Hy. apply in_app_or in Hy. destruct Hy as [Hy|[<-|[]]]; [apply Hn, Hy|]. intros (ks' & E & Hi'). apply Hi. congruence.
      * rewrite IH. intros (a & b & c & -> & Hs & Hn). exists a, b, (c ++ [x]). split; [rewrite <- app_assoc; reflexivity|]. split; [exact Hs|].
        intros y h Hy. apply in_app_or in Hy. destruct Hy as [Hy|[<-|[]]]; [apply Hn, Hy|]. intros (ks' & E & Hi'). congruence.
    + intros (a & b & c & E & Hs & Hn). destruct c as [|y c] using rev_ind.
      * apply app_inj_tail in E. destruct E as [<- <-]. destruct Hs as (ks & -> & Hi). rewrite assoc_put_all. destruct (in_dec zs_dec s ks); [reflexivity|contradiction].
      * clear IHc. rewrite app_comm_cons, app_assoc in E. apply app_inj_tail in E. destruct E as [-> <-].
        assert (Hl : assoc s (table (a ++ b :: c)) = Some f) by (apply IH; exists a, b, c; split; [reflexivity|]; split; [exact Hs|intros y h Hy; apply Hn, in_or_app; left; exact Hy]).
        destruct (puts x) as [[ks g]|] eqn:P; [|exact Hl]. rewrite assoc_put_all. destruct (in_dec zs_dec s ks) as [Hi|Hi]; [|exact Hl].
        exfalso. apply (Hn x g); [apply in_or_app; right; left; reflexivity|exists ks; auto].
Qed.
End Table.
Definition puts_suffix (x : decl F) := match x with Reader s _ f => Some (keys s, f) | Writer _ _ => None end.
Definition puts_magic (x : decl F) := match x with Reader _ (Some m) f => Some (keys m, f) | _ => None end.
Definition puts_writer (x : decl F) := match x with Writer s f => Some (keys s, f) | Reader _ _ _ => None end.
Lemma register_tables ds : register_all ds = mkReg (table puts_suffix ds) (table puts_magic ds) (table puts_writer ds).
Proof.
  induction ds as [|x ds IH] using rev_ind; [reflexivity|]. unfold register_all in *. rewrite fold_left_app. cbn [fold_left]. rewrite IH, !table_snoc.
  destruct x as [s [m|] f|s f]; cbn [register puts_suffix puts_magic puts_writer by_suffix by_magic by_writer]; reflexivity.
Qed.
Lemma last_ext p q ds s f : (forall x s f, p x s f <-> q x s f) -> last_says p ds s f <-> last_says q ds s f.
Proof. intros H. unfold last_says. split; intros (a & b & c & E & Hs & Hn); exists a, b, c; (split; [exact E|]); (split; [apply H; exact Hs|]); intros y g Hy Hq; apply (Hn y g Hy), H, Hq. Qed.

(** For every sequence of registrations (those of the library and any a user adds): a suffix or magic is served by the function of the last declaration that
    names it, and by none if none does; declarations of readers and writers do not disturb each other; each suffix occurs once in each table. *)
Theorem C96_tables ds :
  (forall s f, assoc s (by_suffix (register_all ds)) = Some f <-> last_says declares_suffix ds s f) /\
  (forall s f, assoc s (by_magic (register_all ds)) = Some f <-> last_says declares_magic ds s f) /\
  (forall s f, assoc s (by_writer (register_all ds)) = Some f <-> last_says declares_writer ds s f) /\
  NoDup (map fst (by_suffix (register_all ds))) /\ NoDup (map fst (by_magic (register_all ds))) /\ NoDup (map fst (by_writer (register_all ds))).
Proof.
  rewrite register_tables. cbn [by_suffix by_magic by_writer]. split; [|split; [|split]].
  - intros s f. rewrite table_says. apply last_ext. intros x k g. unfold says, declares_suffix. destruct x as [sp m h|sp h]; cbn [puts_suffix]; split.
    + intros (ks & E & Hi). exists sp, m. split; [congruence|]. assert (ks = keys sp) by congruence. subst. exact Hi.
    + intros (sp' & m' & E & Hi). exists (keys sp). split; [congruence|]. assert (sp' = sp) by congruence. subst. exact Hi.
    + intros (ks & E & _). discriminate.
    + intros (sp' & m' & E & _). discriminate.
  - intros s f. rewrite table_says. apply last_ext. intros x k g. unfold says, declares_magic. destruct x as [sp [m|] h|sp h]; cbn [puts_magic]; split.
    + intros (ks & E & Hi). exists sp, m. split; [congruence|]. assert (ks = keys m) by congruence. subst. exact Hi.
    + intros (sp' & m' & E & Hi). exists (keys m). split; [congruence|]. assert (m' = m) by congruence. subst. exact Hi.
    + intros (ks & E & _). discriminate.
    + intros (sp' & m' & E & _). discriminate.
    + intros (ks & E & _). discriminate.
    + intros (sp' & m' & E & _). discriminate.
  - intros s f. rewrite table_says. apply last_ext. intros x k g. unfold says, declares_writer. destruct x as [sp m h|sp h]; cbn [puts_writer]; split.
    + intros (ks & E & _). discriminate.
    + intros (sp' & E & _). discriminate.
    + intros (ks & E & Hi). exists sp. split; [congruence|]. assert (ks = keys sp) by congruence. subst. exact Hi.
    + intros (sp' & E & Hi). exists (keys sp). split; [congruence|]. assert (sp' = sp) by congruence. subst. exact Hi.
  - split; [|split]; apply table_nodup.
Qed.

(** *** Groups *)
(** dictionary order of texts *)
Inductive lex_le : list Z -> list Z -> Prop :=
| lex_nil b : lex_le [] b
| lex_lt x y a b : (x < y)%Z -> lex_le (x :: a) (y :: b)
| lex_eq x a b : lex_le a b -> lex_le (x :: a) (x :: b).
Lemma str_leb_lex a b : str_leb a b = true -> lex_le a b.
Proof.
  revert b. induction a as [|x a IH]; intros [|y b]; cbn [str_leb]; intros H; try apply lex_nil; try discriminate.
  destruct (Z.ltb_spec x y) as [L|L]; [apply lex_lt; exact L|]. destruct (Z.ltb_spec y x) as [L'|L']; [discriminate|]. assert (x = y) by (apply Z.le_antisymm; assumption). subst y. apply lex_eq, IH, H.
Qed.
Lemma str_leb_total a b : str_leb a b = true \/ str_leb b a = true.
Proof.
  revert b. induction a as [|x a IH]; intros [|y b]; cbn [str_leb]; auto.
  destruct (Z.ltb_spec x y); auto. destruct (Z.ltb_spec y x); auto.
Qed.
Lemma insert_perm s l : Permutation (insert_str s l) (s :: l).
Proof. induction l as [|t l IH]; cbn [insert_str]; [reflexivity|]. destruct (str_leb s t); [reflexivity|]. rewrite IH. apply perm_swap. Qed.
Lemma sort_perm l : Permutation (sort_str l) l.
Proof. induction l as [|s l IH]; cbn [sort_str fold_right]; [reflexivity|]. rewrite insert_perm. constructor. exact IH. Qed.
Lemma insert_sorted s l : Sorted lex_le l -> Sorted lex_le (insert_str s l).
Proof.
  induction l as [|t l IH]; intros H; cbn [insert_str]; [repeat constructor|]. destruct (str_leb s t) eqn:E.
  - constructor; [exact H|constructor; apply str_leb_lex; exact E].
  - apply Sorted_inv in H. destruct H as [H Hh]. constructor; [apply IH, H|].
    destruct (str_leb_total s t) as [|Ht]; [congruence|]. apply str_leb_lex in Ht. destruct l as [|u l]; cbn [insert_str]; [constructor; exact Ht|].
    destruct (str_leb s u); constructor; [exact Ht|inversion Hh; assumption].
Qed.
Lemma sort_sorted l : Sorted lex_le (sort_str l).
Proof. induction l as [|s l IH]; cbn [sort_str fold_right]; [constructor|]. apply insert_sorted. exact IH. Qed.

Variable feqb : F -> F -> bool.
Hypothesis feqb_eq : forall a b, feqb a b = true <-> a = b.
Definition grouped d := fold_left (fun g p => add_to feqb (snd p) (fst p) g) d [].
Lemma add_to_spec f s g : NoDup (map fst g) ->
  NoDup (map fst (add_to feqb f s g)) /\ (forall x, In x (map fst (add_to feqb f s g)) <-> x = f \/ In x (map fst g)) /\
  (forall f' t, (exists l, In (f', l) (add_to feqb f s g) /\ In t l) <-> (f' = f /\ t = s) \/ (exists l, In (f', l) g /\ In t l)) /\
  Permutation (concat (map snd (add_to feqb f s g))) (s :: concat (map snd g)).
Proof.
  induction g as [|[f0 l0] g IH]; intros Hn; cbn [add_to map fst snd concat].
  - split; [repeat constructor; intros []|]. split; [intros x; cbn [In]; intuition congruence|]. split; [|reflexivity].
    intros f' t. split.
    + intros (l & [E|[]] & Hi). left. assert (f = f') by congruence. assert (l = [s]) by congruence. subst. destruct Hi as [->|[]]. auto.
    + intros [[-> ->]|(l & [] & _)]. exists [s]. split; [left; reflexivity|left; reflexivity].
  - cbn [map fst] in Hn. apply NoDup_cons_iff in Hn. destruct Hn as [Hi Hn]. destruct (IH Hn) as (I1 & I2 & I3 & I4). destruct (feqb f f0) eqn:E; cbn [map fst snd concat].
    + apply feqb_eq in E. subst f0. split; [constructor; assumption|]. split; [intros x; cbn [In]; intuition congruence|]. split.
      * intros f' t. split.
        -- intros (l & [H|H] & Ht).
           ++ assert (f = f') by congruence. assert (l = l0 ++ [s]) by congruence. subst. apply in_app_or in Ht. destruct Ht as [Ht|[->|[]]]; [right; exists l0; split; [left; reflexivity|exact Ht]|left; auto].
           ++ right. exists l. split; [right; exact H|exact Ht].
        -- intros [[-> ->]|(l & [H|H] & Ht)].
           ++ exists (l0 ++ [s]). split; [left; reflexivity|apply in_or_app; right; left; reflexivity].
           ++ assert (f = f') by congruence. assert (l = l0) by congruence. subst. exists (l0 ++ [s]). split; [left; reflexivity|apply in_or_app; left; exact Ht].
           ++ exists l. split; [right; exact H|exact Ht].
      * rewrite <- app_assoc. cbn [app]. symmetry. apply Permutation_middle.
    + split; [constructor; [|exact I1]|]. { rewrite I2. intros [->|H]; [|contradiction]. assert (feqb f f = true) by (apply feqb_eq; reflexivity). congruence. }
      split; [intros x; cbn [In]; rewrite I2; intuition congruence|]. split.
      * intros f' t. split.
        -- intros (l & [H|H] & Ht); [right; exists l; split; [left; exact H|exact Ht]|]. destruct (proj1 (I3 f' t)) as [H'|(l' & H' & Ht')]; [exists l; auto|left; exact H'|right; exists l'; split; [right; exact H'|exact Ht']].
        -- intros [H|(l & [H|H] & Ht)].
           ++ destruct (proj2 (I3 f' t) (or_introl H)) as (l & Hl & Ht). exists l. split; [right; exact Hl|exact Ht].
           ++ exists l. split; [left; exact H|exact Ht].
           ++ destruct (proj2 (I3 f' t)) as (l' & Hl & Ht'); [right; exists l; auto|]. exists l'. split; [right; exact Hl|exact Ht'].
      * rewrite I4. symmetry. apply Permutation_middle.
Qed.
Lemma grouped_spec d : NoDup (map fst (grouped d)) /\ (forall f t, (exists l, In (f, l) (grouped d) /\ In t l) <-> In (t, f) d) /\
  Permutation (concat (map snd (grouped d))) (map fst d) /\ (forall f l, In (f, l) (grouped d) -> l <> []).
Proof.
  induction d as [|[s f0] d (I1 & I2 & I3 & I4)] using rev_ind.
  - split; [constructor|]. split; [intros f t; split; [intros (l & [] & _)|intros []]|]. split; [constructor|intros f l []].
  - unfold grouped in *. rewrite fold_left_app. cbn [fold_left fst snd]. destruct (add_to_spec f0 s _ I1) as (A1 & A2 & A3 & A4).
    split; [exact A1|]. split; [|split].
    + intros f t. rewrite A3, I2. rewrite in_app_iff. cbn [In]. split; [intros [[-> ->]|H]; auto|intros [H|[E|[]]]; [right; exact H|left; split; congruence]].
    + rewrite A4, I3. rewrite map_app. cbn [map fst]. apply Permutation_cons_append.
    + assert (X : forall g f l, In (f, l) (add_to feqb f0 s g) -> (forall f l, In (f, l) g -> l <> []) -> l <> []).
      { induction g as [|[f1 l1] g IH]; intros f l Hi Hg; cbn [add_to] in Hi.
        - destruct Hi as [E|[]]. assert (l = [s]) by congruence. subst. discriminate.
        - destruct (feqb f0 f1); destruct Hi as [E|Hi].
          + assert (l = l1 ++ [s]) by congruence. subst. intros H. apply app_eq_nil in H. destruct H. discriminate.
          + apply (Hg f). right. exact Hi.
          + apply (Hg f). left. exact E.
          + apply (IH f l Hi). intros f' l' H. apply (Hg f'). right. exact H. }
      intros f l Hi. apply (X _ f l Hi I4).
Qed.
(** reader_suffix_groups: the groups are non-empty, sorted, partition the suffixes, and two suffixes are in the same group exactly when they have the same reader. *)
Theorem C96_groups d : NoDup (map fst d) ->
  Permutation (concat (suffix_groups feqb d)) (map fst d) /\
  (forall g, In g (suffix_groups feqb d) -> g <> [] /\ Sorted lex_le g) /\
  (forall s t f h, In (s, f) d -> In (t, h) d -> (f = h <-> exists g, In g (suffix_groups feqb d) /\ In s g /\ In t g)).
Proof.
  intros Hd. destruct (grouped_spec d) as (G1 & G2 & G3 & G4). unfold suffix_groups. fold (grouped d). split; [|split].
  - transitivity (concat (map snd (grouped d))); [|exact G3]. clear. induction (grouped d) as [|g l IH]; cbn [map concat]; [reflexivity|]. apply Permutation_app; [apply sort_perm|exact IH].
  - intros g Hg. apply in_map_iff in Hg. destruct Hg as ([f l] & <- & Hl). cbn [snd]. split; [|apply sort_sorted]. intros E. apply (G4 f l Hl).
    pose proof (sort_perm l) as Hp. rewrite E in Hp. apply Permutation_nil in Hp. exact Hp.
  - intros s t f h Hs Ht.
    assert (uniq : forall s f h, In (s, f) d -> In (s, h) d -> f = h).
    { clear - Hd. induction d as [|[k v] d IH]; intros s f h A B; [destruct A|]. cbn [map fst] in Hd. apply NoDup_cons_iff in Hd. destruct Hd as [Hi Hn].
      destruct A as [A|A]; destruct B as [B|B]; [congruence| | |apply (IH Hn s f h A B)].
      - exfalso. apply Hi. assert (k = s) by congruence. subst. apply in_map_iff. exists (s, h). auto.
      - exfalso. apply Hi. assert (k = s) by congruence. subst. apply in_map_iff. exists (s, f). auto. }
    split.
    + intros <-. destruct (proj2 (G2 f s) Hs) as (l & Hl & Hsl). destruct (proj2 (G2 f t) Ht) as (l' & Hl' & Htl).
      assert (l = l'). { clear - G1 Hl Hl'. induction (grouped d) as [|[k v] g IH]; [destruct Hl|]. cbn [map fst] in G1. apply NoDup_cons_iff in G1. destruct G1 as [Hi Hn].
        destruct Hl as [A|A]; destruct Hl' as [B|B]; [congruence| | |apply (IH Hn A B)]; exfalso; apply Hi; [assert (k = f) by congruence; subst; apply in_map_iff; exists (f, l'); auto|assert (k = f) by congruence; subst; apply in_map_iff; exists (f, l); auto]. }
      subst l'. exists (sort_str l). split; [apply in_map_iff; exists (f, l); auto|]. split; eapply Permutation_in; try (apply Permutation_sym, sort_perm); assumption.
    + intros (g & Hg & Hsg & Htg). apply in_map_iff in Hg. destruct Hg as ([k l] & <- & Hl). cbn [snd] in *.
      assert (A : In (s, k) d) by (apply G2; exists l; split; [exact Hl|eapply Permutation_in; [apply sort_perm|exact Hsg]]).
      assert (B : In (t, k) d) by (apply G2; exists l; split; [exact Hl|eapply Permutation_in; [apply sort_perm|exact Htg]]).
      rewrite (uniq s f k Hs A), (uniq t h k Ht B). reflexivity.
Qed.
End Props.
Lemma format_eqb_eq a b : format_eqb a b = true <-> a = b.
Proof. split; [destruct a, b; try discriminate; reflexivity|intros <-; destruct a; reflexivity]. Qed.

(** The decorators of the library build exactly the tables used by the model of Surface.load and Surface.save, in the same order, with the same _suffix attributes. *)
Theorem C96_library :
  register_all declarations = mkReg readers_by_suffix readers_by_magic writers /\
  (forall f, suffix_attr f = match attr_suffix format_eqb declarations f with Some (One s) => Some s | _ => None end).
Proof. split; [vm_compute; reflexivity|]. intros []; vm_compute; reflexivity. Qed.
(** No declaration of the library replaces another one. *)
Theorem C96_no_clash :
  NoDup (flat_map (fun d => match d with Reader s _ _ => keys s | Writer _ _ => [] end) declarations) /\
  NoDup (flat_map (fun d => match d with Reader _ (Some m) _ => keys m | _ => [] end) declarations) /\
  NoDup (flat_map (fun d => match d with Writer s _ => keys s | Reader _ _ _ => [] end) declarations).
Proof.
  assert (X : forall l : list (list Z), fold_right (fun x (r : bool * list (list Z)) => (negb (existsb (zs_eqb x) (snd r)) && fst r, x :: snd r)) (true, []) l = (true, l) -> NoDup l).
  { assert (S2 : forall l : list (list Z), snd (fold_right (fun x (r : bool * list (list Z)) => (negb (existsb (zs_eqb x) (snd r)) && fst r, x :: snd r)) (true, []) l) = l)
      by (induction l as [|x l IH]; cbn [fold_right snd]; [reflexivity|rewrite IH; reflexivity]).
    induction l as [|x l IH]; intros H; [constructor|]. cbn [fold_right] in H. rewrite S2 in H.
    apply (f_equal fst) in H. cbn [fst] in H. apply andb_true_iff in H. destruct H as [H1 H2]. constructor.
    - intros Hi. apply negb_true_iff in H1. assert (E : existsb (zs_eqb x) l = true) by (apply existsb_exists; exists x; split; [exact Hi|apply zs_eqb_refl]). congruence.
    - apply IH. rewrite (surjective_pairing (fold_right _ _ l)), S2, H2. reflexivity. }
  repeat split; apply X; vm_compute; reflexivity.
Qed.
(** Every format that can be written can be read under the same suffix by the reader of the same format. *)
Theorem C96_writable_readable s f : assoc s (by_writer (register_all declarations)) = Some f -> assoc s (by_suffix (register_all declarations)) = Some f.
Proof.
  rewrite (proj1 C96_library). cbn [by_writer by_suffix]. unfold writers. cbn [assoc].
  repeat match goal with |- context [zs_eqb s ?k] => let E := fresh in destruct (zs_eqb s k) eqn:E; [apply zs_eqb_eq in E; subst s; intros H; rewrite <- H; vm_compute; reflexivity|clear E] end.
  discriminate.
Qed.
Theorem C96_groups_example : suffix_groups format_eqb readers_by_suffix =
  [[str ".al3d"]; [str ".dat"]; [str ".fit"; str ".fits"; str ".fts"]; [str ".gwy"]; [str ".nms"]; [str ".opd"]; [str ".os3d"]; [str ".plu"]; [str ".plux"]; [str ".sdf"]; [str ".sflz"];
   [str ".sur"]; [str ".tmd"]; [str ".vk4"]; [str ".vk6"; str ".vk7"]; [str ".x3p"]; [str ".xyz"]; [str ".zmg"]].
Proof. vm_compute. reflexivity. Qed.
(** Not guaranteed: a reader registered for a suffix with capital letters is ever found by its suffix, since Surface.load lowers the suffix of the path first
    (common.py:462-465); Surface.save does not (C53). *)
Theorem C96_case_refuted : exists ds : list (decl bool), declares_suffix (hd (Writer (One []) true) ds) (str ".ABC") true /\
  forall p, assoc (lower_ascii (path_suffix p)) (by_suffix (register_all ds)) = None.
Proof.
  exists [Reader (One (str ".ABC")) None true]. split; [exists (One (str ".ABC")), None; split; [reflexivity|left; reflexivity]|].
  intros p. change (assoc (lower_ascii (path_suffix p)) [(str ".ABC", true)] = None). cbn [assoc].
  destruct (zs_eqb (lower_ascii (path_suffix p)) (str ".ABC")) eqn:E; [|reflexivity]. exfalso. apply zs_eqb_eq in E. unfold lower_ascii in E. generalize dependent (path_suffix p).
  intros l E. destruct l as [|a [|b l]]; try discriminate. cbn [map] in E. assert (Eb : (if (65 <=? b)%Z && (b <=? 90)%Z then (b + 32)%Z else b) = 65%Z) by (vm_compute (str ".ABC") in E; congruence).
  destruct (Z.leb_spec 65 b); destruct (Z.leb_spec b 90); cbn [andb] in Eb; lia.
Qed.
