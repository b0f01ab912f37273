(** C52 (choosing a reader), C53 (choosing a writer), C54 (magics), C55 (buffers).
    Model: ModelDispatch.v.  [readers] and [writer_of] are arbitrary in every theorem. *)
From Coq Require Import String ZArith Bool Lia Permutation.
From Coq Require Import List.
From Verif Require Import Base ModelBytes ProofBytes ModelDispatch.
Import ListNotations.
Local Open Scope list_scope.

(** *** Vocabulary *)
(** [b] starts with the bytes [m]. *)
Definition starts_with (m b : bytes) : Prop := exists t, b = m ++ t.
(** [f] is registered for the lower case suffix [s]. *)
Definition registered (s : pystr) (f : format) : Prop := In (s, f) readers_by_suffix.
Definition known (s : pystr) : Prop := exists f, registered s f.
(** the suffix in effect: format if given, else the suffix of the path; case does not matter *)
Definition effective (p : pystr) (fmt : option pystr) : pystr :=
  lower_ascii (match fmt with Some f => f | None => path_suffix p end).

(** *** Auxiliary facts *)
Lemma zs_eqb_false a b : zs_eqb a b = false <-> a <> b.
Proof.
  split; intros H.
  - intros ->. rewrite zs_eqb_refl in H. discriminate.
  - destruct (zs_eqb a b) eqn:E; auto. apply zs_eqb_eq in E. contradiction.
Qed.

Lemma assoc_in {A} k (l : list (list Z * A)) v : assoc k l = Some v -> In (k, v) l.
Proof.
  induction l as [|[k' v'] l IH]; cbn; [discriminate|]. destruct (zs_eqb k k') eqn:E; intros H.
  - apply zs_eqb_eq in E. left. congruence.
  - right. auto.
Qed.
Lemma assoc_none {A} k (l : list (list Z * A)) : assoc k l = None -> forall v, ~ In (k, v) l.
Proof.
  induction l as [|[k' v'] l IH]; cbn; [auto|]. destruct (zs_eqb k k') eqn:E; [discriminate|].
  intros H v [K|K]; [|eapply IH; eauto]. injection K as -> ->. rewrite zs_eqb_refl in E. discriminate.
Qed.
Lemma in_assoc {A} k (l : list (list Z * A)) v : NoDup (map fst l) -> In (k, v) l -> assoc k l = Some v.
Proof.
  induction l as [|[k' v'] l IH]; cbn; [contradiction|]. intros N [K|K].
  - injection K as -> ->. now rewrite zs_eqb_refl.
  - inversion N; subst. destruct (zs_eqb k k') eqn:E; [|auto]. apply zs_eqb_eq in E; subst.
    exfalso. apply H1. apply in_map_iff. exists (k', v). auto.
Qed.
Fixpoint nodupb (l : list (list Z)) : bool :=
  match l with [] => true | x :: l' => negb (existsb (zs_eqb x) l') && nodupb l' end.
Lemma nodupb_ok l : nodupb l = true -> NoDup l.
Proof.
  induction l as [|x l IH]; cbn; intros H; constructor; apply andb_prop in H as [H1 H2]; auto.
  intros I. apply negb_true_iff in H1. enough (existsb (zs_eqb x) l = true) by congruence.
  apply existsb_exists. exists x. split; auto. apply zs_eqb_refl.
Qed.
Lemma suffixes_nodup : NoDup (map fst readers_by_suffix).
Proof. apply nodupb_ok. vm_compute. reflexivity. Qed.
Lemma magics_nodup : NoDup (map fst readers_by_magic).
Proof. apply nodupb_ok. vm_compute. reflexivity. Qed.
Lemma writers_nodup : NoDup (map fst writers).
Proof. apply nodupb_ok. vm_compute. reflexivity. Qed.
Lemma registered_assoc s f : registered s f <-> assoc s readers_by_suffix = Some f.
Proof. split; [apply in_assoc, suffixes_nodup | apply assoc_in]. Qed.
Lemma unknown_assoc s : ~ known s <-> assoc s readers_by_suffix = None.
Proof.
  split; intros H.
  - destruct (assoc s readers_by_suffix) eqn:E; auto. exfalso. apply H. eexists. apply registered_assoc, E.
  - intros [f F]. apply registered_assoc in F. congruence.
Qed.

Lemma starts_firstn m b : starts_with m b <-> firstn (length m) b = m.
Proof.
  split.
  - intros [t ->]. rewrite firstn_app, Nat.sub_diag, firstn_all. cbn. apply app_nil_r.
  - intros H. exists (skipn (length m) b). rewrite <- H at 1. symmetry. apply firstn_skipn.
Qed.
Fixpoint prefixb (a b : list Z) : bool :=
  match a, b with [], _ => true | x :: a, y :: b => (x =? y)%Z && prefixb a b | _, _ => false end.
Lemma prefixb_ok a : forall b, prefixb a b = true <-> starts_with a b.
Proof.
  induction a as [|x a IH]; intros b; cbn.
  - split; auto. exists b. reflexivity.
  - destruct b as [|y b]; split; intros H; try discriminate.
    + destruct H as [t H]. discriminate.
    + apply andb_prop in H as [H1 H2]. apply Z.eqb_eq in H1. apply IH in H2 as [t ->]. subst. exists t. reflexivity.
    + destruct H as [t H]. injection H as -> ->. rewrite Z.eqb_refl. apply IH. now exists t.
Qed.
Lemma common_prefix m1 : forall m2 b, starts_with m1 b -> starts_with m2 b -> starts_with m1 m2 \/ starts_with m2 m1.
Proof.
  induction m1 as [|x m1 IH]; intros m2 b H1 H2; [left; now exists m2|].
  destruct m2 as [|y m2]; [right; now exists (x :: m1)|].
  destruct H1 as [t1 ->]. destruct H2 as [t2 H2]. cbn in H2. injection H2 as -> H2.
  destruct (IH m2 (m1 ++ t1)) as [[t H]|[t H]].
  - now exists t1.
  - now exists t2.
  - left. exists t. cbn. now rewrite H.
  - right. exists t. cbn. now rewrite H.
Qed.

(** ** C54 File magics are unambiguous *)
Theorem C54_magics_unambiguous : forall b m1 f1 m2 f2,
  In (m1, f1) readers_by_magic -> In (m2, f2) readers_by_magic -> starts_with m1 b -> starts_with m2 b ->
  m1 = m2 /\ f1 = f2.
Proof.
  assert (K : forall x y, In x readers_by_magic -> In y readers_by_magic -> starts_with (fst x) (fst y) -> x = y).
  { assert (E : forallb (fun x => forallb (fun y => implb (prefixb (fst x) (fst y))
         (zs_eqb (fst x) (fst y) && format_eqb (snd x) (snd y))) readers_by_magic) readers_by_magic = true)
      by (vm_compute; reflexivity).
    intros [x f] [y g] I J H. rewrite forallb_forall in E. specialize (E _ I). rewrite forallb_forall in E.
    specialize (E _ J). cbn [fst snd] in *. apply prefixb_ok in H. rewrite H in E. cbn in E.
    apply andb_prop in E as [E1 E2]. apply zs_eqb_eq in E1. subst. f_equal.
    destruct f, g; cbn in E2; congruence. }
  intros b m1 f1 m2 f2 I1 I2 S1 S2. destruct (common_prefix _ _ _ S1 S2) as [H|H].
  - specialize (K _ _ I1 I2 H). split; congruence.
  - specialize (K _ _ I2 I1 H). split; congruence.
Qed.

(** *** One pass over the magics *)
Section Any.
Variable X : Type.
Variable readers : format -> reader X.

(** where the magic is looked for, if the source can be opened *)
Definition window (s : source) (w : world) : option bytes :=
  match s with
  | Path p => files w p
  | Buffer => Some (skipn (bpos w) (buf w))
  | Other => None
  end.
Definition whole (s : source) (w : world) : bytes :=
  match s with Path p => match files w p with Some b => b | None => [] end | _ => buf w end.

Lemma matches_ok s w m b : window s w = Some b -> matches s w m = true <-> starts_with m b.
Proof.
  intros H. rewrite starts_firstn. unfold matches. destruct s; cbn in H; try discriminate.
  - rewrite H. apply zs_eqb_eq.
  - injection H as <-. apply zs_eqb_eq.
Qed.
Lemma matches_no s w m b : window s w = Some b -> ~ starts_with m b -> matches s w m = false.
Proof. intros H N. destruct (matches s w m) eqn:E; auto. apply (matches_ok s w m b H) in E. contradiction. Qed.

(** A magic that does not match leaves everything as it is. *)
Lemma probe_miss s w m f b : window s w = Some b -> ~ starts_with m b ->
  with_file s w (probe_magic X readers m f) = (Ok None, w).
Proof.
  intros H N. pose proof (matches_no s w m b H N) as M. unfold with_file, probe_magic, matches in *.
  destruct s as [p| |]; cbn in H; try discriminate.
  - rewrite H in *. change (skipn 0 b) with b. rewrite M. reflexivity.
  - cbv zeta. rewrite M. reflexivity.
Qed.
(** A magic that matches runs its reader from the beginning of the file. *)
Lemma probe_hit s w m f b : window s w = Some b -> starts_with m b ->
  exists w', with_file s w (probe_magic X readers m f) = (rmap Some (fst (readers f (whole s w) 0)), w') /\
             (forall p, s = Path p -> w' = w) /\ (forall x, fst (readers f (whole s w) 0) = Ok x -> w' = w).
Proof.
  intros H N. pose proof (proj2 (matches_ok s w m b H) N) as M. unfold with_file, probe_magic, matches, whole in *.
  destruct s as [p| |]; cbn in H; try discriminate.
  - rewrite H in *. change (skipn 0 b) with b. cbv zeta. rewrite M. destruct (readers f b 0) as [r q]. cbn.
    exists w. auto.
  - cbv zeta. rewrite M. destruct (readers f (buf w) 0) as [[x|e] q]; cbn; eexists; (split; [reflexivity|]);
      (split; [intros; discriminate|]); auto. intros y Y. discriminate.
Qed.

Lemma try_magic_miss s fmt w b ms : window s w = Some b -> (forall m f, In (m, f) ms -> ~ starts_with m b) ->
  try_magic X readers s fmt ms w = (None, w).
Proof.
  intros H. induction ms as [|[m f] ms IH]; intros N; [reflexivity|]. cbn [try_magic].
  rewrite (probe_miss s w m f b H (N m f (or_introl eq_refl))). apply IH. intros m' f' I. apply (N m' f'). now right.
Qed.
Lemma try_magic_hit s fmt w b ms m f : window s w = Some b -> incl ms readers_by_magic -> In (m, f) ms -> starts_with m b ->
  exists w', try_magic X readers s fmt ms w = (Some (fst (readers f (whole s w) 0), magic_warning s fmt f), w') /\
             (forall p, s = Path p -> w' = w) /\ (forall x, fst (readers f (whole s w) 0) = Ok x -> w' = w).
Proof.
  intros H. induction ms as [|[m0 f0] ms IH]; intros C I S; [destruct I|]. cbn [try_magic].
  assert (D : starts_with m0 b \/ ~ starts_with m0 b)
    by (destruct (prefixb m0 b) eqn:E; [left; now apply prefixb_ok | right; intros Q; apply prefixb_ok in Q; congruence]).
  destruct D as [D|D].
  - assert (m0 = m /\ f0 = f) as [-> ->].
    { destruct I as [I|I]; [split; congruence|].
      apply (C54_magics_unambiguous b); auto; apply C; [now left | now right]. }
    rewrite (proj2 (matches_ok s w m b H) S).
    destruct (probe_hit s w m f b H S) as (w' & E & W1 & W2). rewrite E.
    exists w'. destruct (fst (readers f (whole s w) 0)) as [x|e]; cbn; auto.
  - rewrite (probe_miss s w m0 f0 b H D). apply IH; auto.
    + intros x Q. apply C. now right.
    + destruct I as [I|I]; auto. exfalso. apply D. congruence.
Qed.

(** ** C54, order: any other order of the registrations gives the same answer, for files and for buffers. *)
Theorem C54_order_independent : forall s fmt w ms b, window s w = Some b -> Permutation ms readers_by_magic ->
  fst (try_magic X readers s fmt ms w) = fst (try_magic X readers s fmt readers_by_magic w).
Proof.
  intros s fmt w ms b H P.
  destruct (existsb (fun x => prefixb (fst x) b) readers_by_magic) eqn:E.
  - apply existsb_exists in E as ([m f] & I & S). cbn in S. apply prefixb_ok in S.
    destruct (try_magic_hit s fmt w b ms m f H) as (w1 & E1 & _); auto.
    { intros x Q. eapply Permutation_in; eauto. }
    { eapply Permutation_in; [apply Permutation_sym|]; eauto. }
    destruct (try_magic_hit s fmt w b readers_by_magic m f H) as (w2 & E2 & _); auto.
    { intros x; auto. }
    rewrite E1, E2. reflexivity.
  - assert (N : forall m f, In (m, f) readers_by_magic -> ~ starts_with m b).
    { intros m f I S. enough (existsb (fun x => prefixb (fst x) b) readers_by_magic = true) by congruence.
      apply existsb_exists. exists (m, f). split; auto. now apply prefixb_ok. }
    rewrite (try_magic_miss s fmt w b readers_by_magic H N), (try_magic_miss s fmt w b ms H); auto.
    intros m f I. apply (N m f). eapply Permutation_in; eauto.
Qed.

(** *** The first attempt and the last resort on paths *)
Lemma declared_path p fmt : declared_suffix (Path p) fmt = Some (effective p fmt).
Proof. unfold effective. destruct fmt; reflexivity. Qed.

(** The outcome of the attempt with the effective suffix. *)
Definition first_error (p : pystr) (fmt : option pystr) (b : bytes) (e : exn) : Prop :=
  (~ known (effective p fmt) /\ e = UnsupportedFileFormatError) \/
  (exists f, registered (effective p fmt) f /\ fst (readers f b 0) = Err e).

Lemma try_declared_fails p fmt w b e : files w p = Some b -> first_error p fmt b e ->
  try_declared X readers (Path p) fmt w = (inr (Some e), w).
Proof.
  intros F H. unfold try_declared. rewrite declared_path. destruct H as [[K ->]|(f & R & E)].
  - apply unknown_assoc in K. now rewrite K.
  - apply registered_assoc in R. rewrite R. unfold with_file. rewrite F, E. reflexivity.
Qed.

(** ** C52 *)
(** The reader of the format, or of the suffix whatever its case, is used; no warning. *)
Theorem C52_declared_format : forall p fmt w b f x, files w p = Some b -> registered (effective p fmt) f ->
  fst (readers f b 0) = Ok x -> load X readers (Path p) fmt w = ((Ok x, []), w).
Proof.
  intros p fmt w b f x F R E. unfold load, try_declared. rewrite declared_path.
  apply registered_assoc in R. rewrite R. unfold with_file. rewrite F, E. reflexivity.
Qed.

(** Otherwise, a file that starts with a magic is read by the reader of that magic, whatever its name and the format given. *)
Theorem C52_by_magic : forall p fmt w b e m f, files w p = Some b -> first_error p fmt b e ->
  In (m, f) readers_by_magic -> starts_with m b ->
  load X readers (Path p) fmt w = ((fst (readers f b 0), magic_warning (Path p) fmt f), w).
Proof.
  intros p fmt w b e m f F H I S. unfold load. rewrite (try_declared_fails p fmt w b e F H).
  destruct (try_magic_hit (Path p) fmt w b readers_by_magic m f) as (w' & E & W & _); auto.
  { intros x; auto. }
  rewrite E. rewrite (W p eq_refl). cbn [whole]. rewrite F. reflexivity.
Qed.

(** In particular a damaged file with the right name reports the exception of its own reader. *)
Theorem C52_damaged_file : forall p fmt w b e m f, files w p = Some b -> registered (effective p fmt) f ->
  In (m, f) readers_by_magic -> starts_with m b -> fst (readers f b 0) = Err e ->
  fst (fst (load X readers (Path p) fmt w)) = Err e.
Proof.
  intros p fmt w b e m f F R I S E. rewrite (C52_by_magic p fmt w b e m f); auto.
  right. exists f. auto.
Qed.

Lemma try_all_path p w b : files w p = Some b -> forall rs,
  (forall s f, In (s, f) rs -> exists e, fst (readers f b 0) = Err e) -> try_all X readers (Path p) rs w = (None, w).
Proof.
  intros F. induction rs as [|[s f] rs IH]; intros N; [reflexivity|]. cbn [try_all]. unfold with_file.
  destruct (N s f (or_introl eq_refl)) as [e E]. rewrite F, E. apply IH. intros s' f' I. apply (N s' f'). now right.
Qed.

(** A file without a magic that no reader accepts raises the exception of the first attempt, UnsupportedFileFormatError if
    there was none. *)
Theorem C52_original_error : forall p fmt w b e, files w p = Some b -> first_error p fmt b e ->
  (forall m f, In (m, f) readers_by_magic -> ~ starts_with m b) ->
  (forall f, exists e', fst (readers f b 0) = Err e') ->
  load X readers (Path p) fmt w = ((Err e, []), w).
Proof.
  intros p fmt w b e F H N A. unfold load. rewrite (try_declared_fails p fmt w b e F H).
  rewrite (try_magic_miss (Path p) fmt w b readers_by_magic); auto.
  rewrite (try_all_path p w b F); auto.
Qed.

Theorem C52_missing_file : forall p fmt w, files w p = None ->
  load X readers (Path p) fmt w = ((Err not_found, []), w).
Proof.
  intros p fmt w F. unfold load.
  assert (E : exists q, try_declared X readers (Path p) fmt w = (inr q, w)).
  { unfold try_declared. rewrite declared_path. destruct (assoc _ readers_by_suffix); [|eauto].
    unfold with_file. rewrite F. eauto. }
  destruct E as [q ->]. unfold readers_by_magic at 1. cbn [try_magic]. unfold matches. rewrite F.
  unfold with_file at 1. rewrite F. reflexivity.
Qed.

Lemma try_all_sound p w b : files w p = Some b -> forall rs x ws w', try_all X readers (Path p) rs w = (Some (x, ws), w') ->
  w' = w /\ exists s f, In (s, f) rs /\ fst (readers f b 0) = Ok x /\ ws = [mkWarn (path_suffix p) f].
Proof.
  intros F. induction rs as [|[s f] rs IH]; intros x ws w' H; [discriminate|]. cbn [try_all] in H. unfold with_file in H.
  rewrite F in H. destruct (fst (readers f b 0)) as [y|e] eqn:E.
  - injection H as <- <- <-. split; auto. exists s, f. cbn. auto.
  - destruct (IH _ _ _ H) as [W (s' & f' & I & Q)]. split; auto. exists s', f'. split; [now right | auto].
Qed.

Lemma try_all_none p w b : files w p = Some b -> forall rs w', try_all X readers (Path p) rs w = (None, w') -> w' = w.
Proof.
  intros F. induction rs as [|[s f] rs IH]; intros w' H; [cbn in H; congruence|]. cbn [try_all] in H. unfold with_file in H.
  rewrite F in H. destruct (fst (readers f b 0)) as [y|e] eqn:E; [discriminate | auto].
Qed.

(** Whatever happens, what is returned was produced by a registered reader from the whole file, silently only if it is
    the declared format or its magic; and loading a path changes nothing. *)
Theorem C52_sound : forall p fmt w x ws w', load X readers (Path p) fmt w = ((Ok x, ws), w') ->
  w' = w /\ exists b f, files w p = Some b /\ fst (readers f b 0) = Ok x /\
  (ws = [] -> registered (effective p fmt) f) /\ (forall g, In g ws -> detected g = f).
Proof.
  intros p fmt w x ws w' H. destruct (files w p) as [b|] eqn:F.
  2:{ rewrite (C52_missing_file p fmt w F) in H. discriminate. }
  assert (D : (exists f y, registered (effective p fmt) f /\ fst (readers f b 0) = Ok y) \/ exists e, first_error p fmt b e).
  { destruct (assoc (effective p fmt) readers_by_suffix) as [f|] eqn:A.
    - destruct (fst (readers f b 0)) as [y|e] eqn:E.
      + left. exists f, y. split; auto. now apply registered_assoc.
      + right. exists e. right. exists f. split; auto. now apply registered_assoc.
    - right. exists UnsupportedFileFormatError. left. split; auto. now apply unknown_assoc. }
  destruct D as [(f & y & R & E)|[e D]].
  - rewrite (C52_declared_format p fmt w b f y F R E) in H. injection H as <- <- <-. split; auto.
    exists b, f. repeat split; auto. intros g [].
  - destruct (existsb (fun x => prefixb (fst x) b) readers_by_magic) eqn:M.
    + apply existsb_exists in M as ([m f] & I & S). cbn in S. apply prefixb_ok in S.
      rewrite (C52_by_magic p fmt w b e m f F D I S) in H.
      assert (fst (readers f b 0) = Ok x /\ magic_warning (Path p) fmt f = ws /\ w = w') as (E & <- & <-)
        by (split; [|split]; congruence).
      split; auto. exists b, f. split; auto. split; auto. unfold magic_warning. rewrite declared_path. split.
      * destruct (suffix_attr f) as [a|] eqn:A; [|discriminate]. destruct (zs_eqb a (effective p fmt)) eqn:Z; [|discriminate].
        intros _. apply zs_eqb_eq in Z. subst a. unfold registered.
        destruct f; cbn in A; try discriminate; injection A as <-; vm_compute; tauto.
      * destruct (suffix_attr f) as [a|] eqn:A; [destruct (zs_eqb a (effective p fmt))|]; cbn; intros g G;
          intuition; subst; reflexivity.
    + unfold load in H. rewrite (try_declared_fails p fmt w b e F D) in H.
      rewrite (try_magic_miss (Path p) fmt w b readers_by_magic) in H; auto.
      2:{ intros m f I S. enough (existsb (fun x => prefixb (fst x) b) readers_by_magic = true) by congruence.
          apply existsb_exists. exists (m, f). split; auto. now apply prefixb_ok. }
      destruct (try_all X readers (Path p) readers_by_suffix w) as [[[y vs]|] w1] eqn:A; [|discriminate].
      destruct (try_all_sound p w b F _ _ _ _ A) as [W (s & f & I & E & V)].
      injection H as <- <- <-. split; auto. exists b, f. subst. repeat split; auto; try discriminate.
      intros g [<-|[]]. reflexivity.
Qed.

(** The result depends only on the contents and the effective suffix: neither the case of the suffix nor, if a format is
    given, anything of the name matters. *)
Theorem C52_name_independent : forall p q fmt fmt' w, files w p = files w q -> effective p fmt = effective q fmt' ->
  fst (fst (load X readers (Path p) fmt w)) = fst (fst (load X readers (Path q) fmt' w)).
Proof.
  intros p q fmt fmt' w F E. destruct (files w q) as [b|] eqn:G.
  2:{ rewrite !C52_missing_file; auto. }
  assert (W : forall Y (body : bytes -> nat -> res Y * nat), with_file (Path p) w body = with_file (Path q) w body)
    by (intros; unfold with_file; rewrite F, G; reflexivity).
  assert (D : try_declared X readers (Path p) fmt w = try_declared X readers (Path q) fmt' w).
  { unfold try_declared. rewrite !declared_path, E. destruct (assoc _ _); auto. now rewrite W. }
  assert (Msk : forall ms, match fst (try_magic X readers (Path p) fmt ms w), fst (try_magic X readers (Path q) fmt' ms w) with
                | Some r, Some r' => fst r = fst r' | None, None => True | _, _ => False end /\
                snd (try_magic X readers (Path p) fmt ms w) = w /\ snd (try_magic X readers (Path q) fmt' ms w) = w).
  { induction ms as [|[m f] ms IH]; cbn [try_magic]; [cbn; auto|]. rewrite W.
    assert (S : snd (with_file (Path q) w (probe_magic X readers m f)) = w)
      by (unfold with_file; rewrite G; reflexivity).
    destruct (with_file (Path q) w (probe_magic X readers m f)) as [[[y|]|e] w1]; cbn in S; subst w1; cbn; auto. }
  assert (A : forall rs, match fst (try_all X readers (Path p) rs w), fst (try_all X readers (Path q) rs w) with
                | Some r, Some r' => fst r = fst r' | None, None => True | _, _ => False end).
  { induction rs as [|[s f] rs IH]; cbn [try_all]; [cbn; auto|]. rewrite W.
    assert (S : snd (with_file (Path q) w (readers f)) = w) by (unfold with_file; rewrite G; reflexivity).
    destruct (with_file (Path q) w (readers f)) as [[y|e] w1]; cbn in S; subst w1; cbn; auto. }
  unfold load. rewrite D.
  assert (SD : snd (try_declared X readers (Path q) fmt' w) = w).
  { unfold try_declared. rewrite declared_path. destruct (assoc _ _); auto. unfold with_file. rewrite G.
    destruct (fst (readers f b 0)); reflexivity. }
  destruct (try_declared X readers (Path q) fmt' w) as [[y|pend] w1]; cbn [snd] in SD; subst w1; [reflexivity|].
  destruct (Msk readers_by_magic) as (M1 & M2 & M3).
  destruct (try_magic X readers (Path p) fmt readers_by_magic w) as [[r|] w1],
           (try_magic X readers (Path q) fmt' readers_by_magic w) as [[r'|] w2]; cbn [fst snd] in M1, M2, M3; try contradiction; [exact M1|].
  subst w1 w2. specialize (A readers_by_suffix).
  destruct (try_all X readers (Path p) readers_by_suffix w) as [[[y ws]|] w1],
           (try_all X readers (Path q) readers_by_suffix w) as [[[y' ws']|] w2]; cbn [fst] in A; try contradiction; cbn [fst] in *; congruence.
Qed.

(** Refuted: "errors are reported with the original exception".  A damaged file whose magic belongs to another format
    reports the exception of that other reader. *)
Theorem C52_original_error_refuted : forall p fmt w b e f m g e', files w p = Some b ->
  registered (effective p fmt) f -> fst (readers f b 0) = Err e ->
  In (m, g) readers_by_magic -> starts_with m b -> fst (readers g b 0) = Err e' -> e <> e' ->
  fst (fst (load X readers (Path p) fmt w)) <> Err e.
Proof.
  intros p fmt w b e f m g e' F R E I S E' N. rewrite (C52_by_magic p fmt w b e m g); auto.
  - cbn. rewrite E'. congruence.
  - right. exists f. auto.
Qed.

(** ** C55 Buffers *)
(** Successful loads by format leave the buffer where it was. *)
Theorem C55_declared_restores : forall fmt f x w, registered (lower_ascii fmt) f ->
  fst (readers f (buf w) (bpos w)) = Ok x -> load X readers Buffer (Some fmt) w = ((Ok x, []), w).
Proof.
  intros fmt f x w R E. unfold load, try_declared. cbn [declared_suffix]. apply registered_assoc in R. rewrite R.
  unfold with_file. destruct (readers f (buf w) (bpos w)) as [r q]. cbn in E. subst. reflexivity.
Qed.

(** Without a format the magic at the current position decides; success leaves the buffer where it was, but the reader was
    started at the beginning of the buffer, not at the current position. *)
Theorem C55_magic_restores : forall w m f x, In (m, f) readers_by_magic -> starts_with m (skipn (bpos w) (buf w)) ->
  fst (readers f (buf w) 0) = Ok x -> load X readers Buffer None w = ((Ok x, []), w).
Proof.
  intros w m f x I S E. unfold load. cbn [try_declared declared_suffix].
  destruct (try_magic_hit Buffer None w (skipn (bpos w) (buf w)) readers_by_magic m f) as (w' & H & _ & W); auto.
  { intros y; auto. }
  rewrite H. cbn [whole] in *. rewrite E. rewrite (W x E). reflexivity.
Qed.

Lemma try_all_buffer rs : forall w, fst (try_all X readers Buffer rs w) = None.
Proof.
  induction rs as [|[s f] rs IH]; intros w; [reflexivity|]. cbn [try_all].
  destruct (with_file Buffer w (readers f)) as [[y|e] w1]; apply IH.
Qed.

(** Without a format and without a magic at the current position, no buffer can be loaded, whatever it contains. *)
Theorem C55_buffer_needs_format : forall w, (forall m f, In (m, f) readers_by_magic -> ~ starts_with m (skipn (bpos w) (buf w))) ->
  fst (load X readers Buffer None w) = (Err UnsupportedFileFormatError, []).
Proof.
  intros w N. unfold load. cbn [try_declared declared_suffix].
  rewrite (try_magic_miss Buffer None w _ readers_by_magic eq_refl N).
  pose proof (try_all_buffer readers_by_suffix w) as A.
  destruct (try_all X readers Buffer readers_by_suffix w) as [[[y ws]|] w1]; cbn in A; [discriminate|]. reflexivity.
Qed.

(** Refuted: the position is not restored when the call fails.  With a declared format whose reader fails after moving to
    [q], the whole search goes on from [q]: the magic is no longer seen, and the same bytes that load from a file
    do not load from a buffer. *)
Theorem C55_failure_refuted : forall fmt f e q w, registered (lower_ascii fmt) f ->
  readers f (buf w) (bpos w) = (Err e, q) ->
  (forall m g, In (m, g) readers_by_magic -> ~ starts_with m (skipn q (buf w))) ->
  fst (load X readers Buffer (Some fmt) w) = (Err e, []).
Proof.
  intros fmt f e q w R E N. unfold load, try_declared. cbn [declared_suffix]. apply registered_assoc in R. rewrite R.
  unfold with_file. rewrite E. rewrite (try_magic_miss Buffer (Some fmt) (set_pos w q) (skipn q (buf w)) readers_by_magic eq_refl N).
  pose proof (try_all_buffer readers_by_suffix (set_pos w q)) as A.
  destruct (try_all X readers Buffer readers_by_suffix (set_pos w q)) as [[[y ws]|] w1]; cbn in A; [discriminate|]. reflexivity.
Qed.

(** Objects that are neither paths nor buffers raise TypeError. *)
Theorem C55_other_source : forall fmt w, load X readers Other fmt w = ((Err TypeError, []), w).
Proof.
  intros fmt w. unfold load.
  assert (E : exists q, try_declared X readers Other fmt w = (inr q, w)).
  { unfold try_declared. destruct fmt as [f|]; cbn [declared_suffix]; [|eauto]. destruct (assoc _ _); cbn; eauto. }
  destruct E as [q ->]. reflexivity.
Qed.
End Any.

(** *** Readers for the examples: every reader checks its magic and fails otherwise, the formats without a magic always
    fail; the result is the format and the rest of the bytes. *)
Definition magic_of (f : format) : bytes :=
  match find (fun x => format_eqb (snd x) f) readers_by_magic with Some (m, _) => m | None => [] end.
Definition checking (f : format) : reader (format * bytes) := fun b p =>
  let m := magic_of f in
  if negb (zs_eqb m []) && zs_eqb (firstn (length m) (skipn p b)) m
  then (Ok (f, skipn (p + length m) b), length b) else (Err CorruptedFileError, (p + length m)%nat).
Definition sflz_file : bytes := (str "SFLZ" ++ [1; 2; 3; 4; 5; 6; 7; 8]%Z)%list.
Definition disk (p : pystr) (b : bytes) : world := mkWorld (fun q => if zs_eqb q p then Some b else None) [] 0.
Definition buffer (b : bytes) (p : nat) : world := mkWorld (fun _ => None) b p.

Theorem C52_example :
  let w := disk (str "/data/x.SFLZ") sflz_file in let v := disk (str "/data/x.sur") sflz_file in
  effective (str "/data/x.SFLZ") None = str ".sflz" /\ registered (str ".sflz") Sflz /\
  load _ checking (Path (str "/data/x.SFLZ")) None w = ((Ok (Sflz, [1; 2; 3; 4; 5; 6; 7; 8]%Z), []), w) /\
  first_error _ checking (str "/data/x.sur") None sflz_file CorruptedFileError /\
  load _ checking (Path (str "/data/x.sur")) None v =
    ((Ok (Sflz, [1; 2; 3; 4; 5; 6; 7; 8]%Z), [mkWarn (str ".sur") Sflz]), v) /\
  fst (load _ checking (Path (str "/data/x.txt")) None (disk (str "/data/x.txt") [1; 2; 3]%Z)) =
    (Err UnsupportedFileFormatError, []).
Proof.
  split; [reflexivity|]. split; [vm_compute; tauto|]. split; [reflexivity|]. split; [|split; reflexivity].
  right. exists Sur. split; [vm_compute; tauto | reflexivity].
Qed.

(** Refuted: a buffer with a wrong format.  The file on disk loads (with a warning); the same bytes in a buffer do not, and
    the buffer is left at another position. *)
Theorem C55_wrong_format_refuted :
  let w := disk (str "x.sdf") sflz_file in let v := buffer sflz_file 0 in
  fst (fst (load _ checking (Path (str "x.sdf")) None w)) = Ok (Sflz, [1; 2; 3; 4; 5; 6; 7; 8]%Z) /\
  fst (fst (load _ checking Buffer (Some (str ".sdf")) v)) = Err CorruptedFileError /\
  bpos (snd (load _ checking Buffer (Some (str ".sdf")) v)) <> bpos v.
Proof. split; [reflexivity|]. split; [reflexivity|]. vm_compute. discriminate. Qed.

(** Refuted: "the reader sees the data from that position".  Three bytes before the file: the magic is found at the position
    of the buffer, but the reader starts at 0 and rejects the file. *)
Theorem C55_position_refuted :
  let v := buffer ([9; 9; 9]%Z ++ sflz_file) 3 in
  fst (checking Sflz (buf v) (bpos v)) = Ok (Sflz, [1; 2; 3; 4; 5; 6; 7; 8]%Z) /\
  starts_with (str "SFLZ") (skipn (bpos v) (buf v)) /\
  fst (fst (load _ checking Buffer None v)) = Err CorruptedFileError.
Proof. split; [reflexivity|]. split; [|reflexivity]. apply prefixb_ok. reflexivity. Qed.

(** ** C53 *)
Section Saving.
Variable S : Type.
Variable writer_of : format -> writer S.
Variable creatable : pystr -> bool.
Notation save := (save S writer_of creatable).
Definition writable (s : pystr) (f : format) : Prop := In (s, f) writers.
Lemma writable_assoc s f : writable s f <-> assoc s writers = Some f.
Proof. split; [apply in_assoc, writers_nodup | apply assoc_in]. Qed.
Lemma writable_nonempty s f : writable s f -> zs_eqb s [] = false.
Proof. intros [H|[H|[H|[H|[H|[]]]]]]; injection H as <- <-; reflexivity. Qed.

(** Saving to a path with a writable suffix puts exactly the bytes of the writer into that file and touches nothing else. *)
Theorem C53_save : forall p fmt w x f b, writable (path_suffix p) f -> creatable p = true -> writer_of f x = (b, Ok tt) ->
  let (r, w') := save (Path p) fmt w x in
  r = Ok tt /\ files w' p = Some b /\ (forall q, q <> p -> files w' q = files w q) /\ buf w' = buf w /\ bpos w' = bpos w.
Proof.
  intros p fmt w x f b R C E. unfold ModelDispatch.save. rewrite (writable_nonempty _ _ R).
  apply writable_assoc in R. rewrite R, C, E. cbn. rewrite zs_eqb_refl. repeat split; auto.
  intros q N. apply zs_eqb_false in N. now rewrite N.
Qed.

(** A missing or unknown format raises, and nothing is touched. *)
Theorem C53_rejects : forall s fmt w x,
  let suffix := match s with Path p => path_suffix p | _ => match fmt with Some f => f | None => [] end end in
  (suffix = [] -> save s fmt w x = (Err ValueError, w)) /\
  (suffix <> [] -> (forall f, ~ writable suffix f) -> save s fmt w x = (Err UnsupportedFileFormatError, w)).
Proof.
  intros s fmt w x suffix. unfold ModelDispatch.save. fold suffix. split.
  - intros ->. reflexivity.
  - intros N U. apply zs_eqb_false in N. rewrite N. destruct (assoc suffix writers) eqn:A; auto.
    apply writable_assoc in A. exfalso. eapply U; eauto.
Qed.

(** A buffer is overwritten from its position on and stays at its position. *)
Theorem C53_save_buffer : forall fmt w x f b, writable fmt f -> writer_of f x = (b, Ok tt) -> (bpos w <= length (buf w))%nat ->
  let (r, w') := save Buffer (Some fmt) w x in
  r = Ok tt /\ bpos w' = bpos w /\ (forall q, files w' q = files w q) /\
  firstn (bpos w) (buf w') = firstn (bpos w) (buf w) /\ starts_with b (skipn (bpos w') (buf w')) /\
  skipn (bpos w + length b) (buf w') = skipn (bpos w + length b) (buf w).
Proof.
  intros fmt w x f b R E L. unfold ModelDispatch.save. rewrite (writable_nonempty _ _ R).
  apply writable_assoc in R. rewrite R, E. cbn [fst snd files buf bpos]. split; auto. split; auto. split; auto.
  unfold overwrite. replace (bpos w - length (buf w))%nat with 0%nat by lia. cbn [repeat].
  destruct b as [|c b].
  - split; auto. split; [now exists (skipn (bpos w) (buf w))|]. reflexivity.
  - set (bb := c :: b). cbn [app].
    assert (LL : length (firstn (bpos w) (buf w)) = bpos w) by (rewrite firstn_length; lia).
    split; [|split].
    + rewrite firstn_app, LL, Nat.sub_diag. cbn. rewrite app_nil_r. apply firstn_all2. lia.
    + rewrite skipn_app, LL, Nat.sub_diag, skipn_all2 by lia. cbn [app skipn]. now exists (skipn (bpos w + length bb) (buf w)).
    + rewrite skipn_app, LL. rewrite skipn_all2 by lia. cbn [app].
      rewrite skipn_app. replace (bpos w + length bb - bpos w - length bb)%nat with 0%nat by lia.
      rewrite skipn_all2 by lia. reflexivity.
Qed.

(** Refuted: "format overrides the suffix".  For paths the format is ignored altogether, so a path without a suffix cannot
    be saved at all. *)
Theorem C53_format_refuted : forall p fmt w x,
  save (Path p) fmt w x = save (Path p) None w x /\
  (path_suffix p = [] -> save (Path p) fmt w x = (Err ValueError, w)).
Proof. intros p fmt w x. split; [reflexivity|]. intros E. unfold ModelDispatch.save. rewrite E. reflexivity. Qed.

(** Refuted: "the suffix is case-insensitive".  x.SUR can be loaded (C52) but not saved. *)
Theorem C53_case_refuted : forall p w x s f, path_suffix p = s -> writable (lower_ascii s) f -> lower_ascii s <> s ->
  save (Path p) None w x = (Err UnsupportedFileFormatError, w) /\ registered (effective p None) f.
Proof.
  intros p w x s f E R N. split.
  - apply C53_rejects; rewrite E.
    + intros ->. cbn in N. congruence.
    + intros g G. destruct G as [G|[G|[G|[G|[G|[]]]]]]; injection G as <- <-; apply N; reflexivity.
  - unfold effective. rewrite E. destruct R as [G|[G|[G|[G|[G|[]]]]]]; injection G as <- <-; vm_compute; tauto.
Qed.

(** Refuted: a failing save does not leave an existing file alone; what the writer had written replaces it. *)
Theorem C53_failed_save_refuted : forall p fmt w x f b e, writable (path_suffix p) f -> creatable p = true ->
  writer_of f x = (b, Err e) ->
  fst (save (Path p) fmt w x) = Err e /\ files (snd (save (Path p) fmt w x)) p = Some b.
Proof.
  intros p fmt w x f b e R C E. unfold ModelDispatch.save. rewrite (writable_nonempty _ _ R).
  apply writable_assoc in R. rewrite R, C, E. cbn. rewrite zs_eqb_refl. auto.
Qed.

(** What was saved to a path is read back by the reader of the same format. *)
Theorem C53_save_load : forall X (readers : format -> reader X) p fmt w x f b y,
  writable (path_suffix p) f -> creatable p = true -> writer_of f x = (b, Ok tt) -> fst (readers f b 0) = Ok y ->
  fst (load X readers (Path p) None (snd (save (Path p) fmt w x))) = (Ok y, []).
Proof.
  intros X readers p fmt w x f b y R C E Y. pose proof (C53_save p fmt w x f b R C E) as H.
  destruct (save (Path p) fmt w x) as [r w']. destruct H as (-> & F & _). cbn [snd].
  rewrite (C52_declared_format X readers p None w' b f y); auto.
  unfold effective, registered. destruct R as [G|[G|[G|[G|[G|[]]]]]]; injection G as <- <-; vm_compute; tauto.
Qed.
End Saving.

(** ** Example for C53 *)
Theorem C53_example :
  let wr (f : format) : writer bytes := fun x => (magic_of f ++ x, Ok tt) in
  let w := disk (str "old.sur") [1; 2]%Z in
  let s := save bytes wr (fun _ => true) in
  path_suffix (str "out/a.b.tmd") = str ".tmd" /\ writable (str ".tmd") Tmd /\
  fst (s (Path (str "out/a.b.tmd")) None w [7]%Z) = Ok tt /\
  fst (load _ checking (Path (str "out/a.b.tmd")) None (snd (s (Path (str "out/a.b.tmd")) None w [7]%Z))) = (Ok (Tmd, [7]%Z), []) /\
  s (Path (str "old")) (Some (str ".sur")) w [7]%Z = (Err ValueError, w) /\
  s (Path (str "old.SUR")) None w [7]%Z = (Err UnsupportedFileFormatError, w) /\
  path_suffix (str ".sur") = [] /\ path_suffix (str "dir.sur/a") = [].
Proof. repeat (split; [reflexivity || (vm_compute; tauto)|]). reflexivity. Qed.
