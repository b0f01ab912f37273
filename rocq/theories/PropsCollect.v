(** C95: a batch covers the files and the methods it was given. *)
From Coq Require Import String ZArith Bool Lia Permutation.
From Coq Require Import List.
From Verif Require Import Base ModelBytes ModelUnits ModelSur ModelDispatch ModelBatch ModelCli ModelReport ModelCollect PropsBatch PropsCli.
Import ListNotations.
Local Open Scope string_scope.
Local Open Scope list_scope.

(** *** Specification *)
(** the entry of a batch an object stands for *)
Inductive stands_for : pyobj -> bfile -> Prop :=
  | sf_str s : stands_for (OStr s) (BPath s)
  | sf_path p : stands_for (OPath p) (BPath p)
  | sf_input n d f : stands_for (OInput n d f) (BInput n d f).
(** the entries a call asks for *)
Inductive asks_for (all : list pystr) : fcall -> list bfile -> Prop :=
  | af_one o f : stands_for o f -> asks_for all (AddFiles (One o)) [f]
  | af_seq l fs : Forall2 stands_for l fs -> asks_for all (AddFiles (Seq l)) fs
  | af_none dir entries : asks_for all (AddDir dir entries NoExts) (map (fun n => BPath (join dir n)) (from_dir entries all))
  | af_ext dir entries x : asks_for all (AddDir dir entries (OneExt x)) (map (fun n => BPath (join dir n)) (from_dir entries [x]))
  | af_exts dir entries xs : asks_for all (AddDir dir entries (Exts xs)) (map (fun n => BPath (join dir n)) (from_dir entries xs)).
(** what a call that raised has done: some of the files before the faulty object were added *)
Inductive partly (c : fcall) : list bfile -> Prop :=
  | pa_seq l1 l2 fs : c = AddFiles (Seq (l1 ++ OOther :: l2)) -> Forall2 stands_for l1 fs -> partly c fs
  | pa_one a : c = AddFiles a -> (a = One OOther \/ exists l, a = Iterable l) -> partly c [].

Lemma to_file_spec o : match to_file o with Ok f => stands_for o f | Err e => e = TypeError /\ o = OOther end.
Proof. destruct o; cbn [to_file]; try constructor; auto. Qed.
Lemma append_all_spec l : forall fs, match append_all fs l with
  | (Ok _, fs') => exists new, fs' = fs ++ new /\ Forall2 stands_for l new
  | (Err e, fs') => e = TypeError /\ exists l1 l2 new, l = l1 ++ OOther :: l2 /\ fs' = fs ++ new /\ Forall2 stands_for l1 new
  end.
Proof.
  induction l as [|o l IH]; intros fs; cbn [append_all].
  - exists []. rewrite app_nil_r. split; [reflexivity|constructor].
  - pose proof (to_file_spec o) as H. destruct (to_file o) as [f|e].
    + specialize (IH (fs ++ [f])). destruct (append_all (fs ++ [f]) l) as [[u|e] fs'].
      * destruct IH as (new & -> & Hn). exists (f :: new). rewrite <- app_assoc. split; [reflexivity|constructor; assumption].
      * destruct IH as (He & l1 & l2 & new & -> & -> & Hn). split; [exact He|]. exists (o :: l1), l2, (f :: new). rewrite <- app_assoc.
        split; [reflexivity|]. split; [reflexivity|constructor; assumption].
    + destruct H as [-> ->]. split; [reflexivity|]. exists [], l, []. rewrite app_nil_r. repeat split; constructor.
Qed.
Lemma fstep_spec all fs c : match fstep all fs c with
  | (Ok _, fs') => exists new, fs' = fs ++ new /\ asks_for all c new
  | (Err e, fs') => e = TypeError /\ exists new, fs' = fs ++ new /\ partly c new
  end.
Proof.
  destruct c as [a|dir entries e]; cbn [fstep].
  - unfold add_files. destruct a as [o|l|l]; cbn [iterate append_all].
    + pose proof (to_file_spec o) as H. destruct (to_file o) as [f|e]; cbn [append_all].
      * exists [f]. split; [reflexivity|constructor; exact H].
      * destruct H as [-> ->]. split; [reflexivity|]. exists []. rewrite app_nil_r. split; [reflexivity|]. eapply pa_one; [reflexivity|left; reflexivity].
    + pose proof (append_all_spec l fs) as H. destruct (append_all fs l) as [[u|e] fs'].
      * destruct H as (new & -> & H). exists new. split; [reflexivity|constructor; exact H].
      * destruct H as (-> & l1 & l2 & new & -> & -> & H). split; [reflexivity|]. exists new. split; [reflexivity|]. eapply pa_seq; [reflexivity|exact H].
    + cbn [to_file]. split; [reflexivity|]. exists []. rewrite app_nil_r. split; [reflexivity|]. eapply pa_one; [reflexivity|right; exists l; reflexivity].
  - unfold add_dir, dir_files, extensions. eexists. split; [reflexivity|]. rewrite map_map. destruct e; constructor.
Qed.

(** The constructor accepts exactly the iterables whose elements are all str, Path or FileInput, and the batch then holds one entry per element, in order. *)
Theorem C95_constructor (l : list pyobj) :
  (forall a fs, a = Seq l \/ a = Iterable l -> (new_batch a = Ok fs <-> Forall2 stands_for l fs)) /\
  (forall a, a = Seq l \/ a = Iterable l -> In OOther l -> new_batch a = Err TypeError).
Proof.
  assert (H0 : forall a, a = Seq l \/ a = Iterable l -> new_batch a = match append_all [] l with (Ok _, fs) => Ok fs | (Err e, _) => Err e end)
    by (intros a [-> | ->]; reflexivity).
  assert (det : forall l f g, Forall2 stands_for l f -> Forall2 stands_for l g -> f = g).
  { induction l0 as [|o l0 IH]; intros f g Hf Hg; inversion Hf; subst; inversion Hg; subst; [reflexivity|].
    f_equal; [|apply IH; assumption]. match goal with A : stands_for o _, B : stands_for o _ |- _ => inversion A; subst; inversion B; reflexivity end. }
  assert (nobad : forall l1 l2 f, ~ Forall2 stands_for (l1 ++ OOther :: l2) f).
  { induction l1 as [|o l1 IH]; intros l2 f H; inversion H; subst; [match goal with A : stands_for OOther _ |- _ => inversion A end|eapply IH; eassumption]. }
  split.
  - intros a fs Ha. rewrite (H0 a Ha). pose proof (append_all_spec l []) as H. destruct (append_all [] l) as [[u|e] fs'].
    + destruct H as (new & -> & H). cbn [app]. split; [intros E; congruence|]. intros H'. f_equal. eapply det; eassumption.
    + destruct H as (_ & l1 & l2 & new & -> & _ & _). split; [discriminate|]. intros H'. exfalso. eapply nobad. exact H'.
  - intros a Ha Hin. rewrite (H0 a Ha). pose proof (append_all_spec l []) as H. destruct (append_all [] l) as [[u|e] fs'].
    + destruct H as (new & _ & H). exfalso. apply in_split in Hin. destruct Hin as (l1 & l2 & ->). eapply nobad. exact H.
    + destruct H as (-> & _). reflexivity.
Qed.

(** For every history of add_files and add_dir calls the batch holds the entries it started with, followed by what each call asked for in the
    order of the calls and as often as it was asked for; a call that raised has at most added the files before the faulty one.
    Nothing is ever dropped or reordered, and len(batch) counts the entries. *)
Theorem C95_files (all : list pystr) (cs : list fcall) (fs fs' : list bfile) (rs : list (res unit)) :
  fhistory all fs cs = (rs, fs') ->
  exists added : list (list bfile),
    fs' = fs ++ concat added /\
    batch_len fs' = (batch_len fs + list_sum (map (@length bfile) added))%nat /\
    Forall2 (fun cr new => match snd cr with Ok _ => asks_for all (fst cr) new | Err e => e = TypeError /\ partly (fst cr) new end) (combine cs rs) added /\
    length rs = length cs.
Proof.
  revert fs fs' rs. induction cs as [|c cs IH]; intros fs fs' rs H; cbn [fhistory] in H.
  - injection H as <- <-. exists []. cbn. rewrite app_nil_r. repeat split; [lia|constructor].
  - pose proof (fstep_spec all fs c) as Hs. destruct (fstep all fs c) as [r fs1] eqn:E1. destruct (fhistory all fs1 cs) as [rs2 fs2] eqn:E2.
    injection H as <- <-. destruct (IH _ _ _ E2) as (added & -> & Hl & HF & Hrs). destruct r as [u|e].
    + destruct Hs as (new & -> & Hn). exists (new :: added). cbn [concat combine]. rewrite <- app_assoc. split; [reflexivity|].
      split; [unfold batch_len in *; cbn [map]; unfold list_sum in *; cbn [fold_right]; rewrite !app_length in *; lia|]. split; [constructor; assumption|cbn [length]; congruence].
    + destruct Hs as (He & new & -> & Hn). exists (new :: added). cbn [concat combine]. rewrite <- app_assoc. split; [reflexivity|].
      split; [unfold batch_len in *; cbn [map]; unfold list_sum in *; cbn [fold_right]; rewrite !app_length in *; lia|]. split; [constructor; [split; assumption|assumption]|cbn [length]; congruence].
Qed.
(** A call is accepted exactly when all its objects are files (add_dir always is). *)
Theorem C95_accepted (all : list pystr) (fs : list bfile) (c : fcall) :
  fst (fstep all fs c) = Ok tt <-> exists new, asks_for all c new.
Proof.
  pose proof (fstep_spec all fs c) as H. destruct (fstep all fs c) as [[[]|e] fs']; cbn [fst].
  - destruct H as (new & _ & H). split; [exists new; exact H|reflexivity].
  - destruct H as (-> & new & _ & Hp). split; [discriminate|]. intros (new' & Ha). exfalso.
    assert (nobad : forall l1 l2 f, ~ Forall2 stands_for (l1 ++ OOther :: l2) f).
    { induction l1 as [|o l1 IH]; intros l2 f H; inversion H; subst; [match goal with A : stands_for OOther _ |- _ => inversion A end|eapply IH; eassumption]. }
    inversion Hp as [l1 l2 x Hc _|a Hc [Hb | (l & Hb)]]; subst; inversion Ha; subst.
    + eapply nobad. eassumption.
    + match goal with A : stands_for OOther _ |- _ => inversion A end.
Qed.
(** from_dir holds the same files as an empty batch after add_dir. *)
Theorem C95_from_dir (all : list pystr) (dir : pystr) (entries : list pystr) (e : pyexts) :
  batch_from_dir all dir entries e = Ok (snd (add_dir all [] dir entries e)).
Proof.
  unfold batch_from_dir. apply (proj1 (C95_constructor (map OPath (dir_files all dir entries e)))); [left; reflexivity|].
  cbn [add_dir snd app]. induction (dir_files all dir entries e) as [|x l IH]; cbn [map]; constructor; [constructor|exact IH].
Qed.
(** What is loaded: a path is loaded by its suffix, an open file with the format given along with it; the row is labelled with the name of the file. *)
Theorem C95_loaded : forall f, match f with
  | BPath p => load_arguments f = (inl p, None) /\ shown_name f = path_name p
  | BInput n d fmt => load_arguments f = (inr d, fmt) /\ shown_name f = n
  end.
Proof. intros [p|n d f]; split; reflexivity. Qed.

Theorem C95_files_example :
  new_batch (Iterable [OPath (str "a.sur"); OInput (str "b") 0 (Some (str ".sur"))]) = Ok [BPath (str "a.sur"); BInput (str "b") 0 (Some (str ".sur"))] /\
  fhistory [str ".sur"; str ".plu"] [BPath (str "a.sur")]
    [AddFiles (One (OStr (str "c.plu"))); AddDir (str "d") [str "x.plu"; str "y.txt"; str "z.sur"] NoExts; AddFiles (Seq [OStr (str "c.plu"); OPath (str "e.al3d")])]
  = ([Ok tt; Ok tt; Ok tt], [BPath (str "a.sur"); BPath (str "c.plu"); BPath (str "d/z.sur"); BPath (str "d/x.plu"); BPath (str "c.plu"); BPath (str "e.al3d")]).
Proof. split; vm_compute; reflexivity. Qed.
(** Not guaranteed: what the constructor accepts (the example of its documentation passes the result of Path.glob) add_files may refuse. *)
Theorem C95_generator_refuted : exists l fs, new_batch (Iterable l) = Ok fs /\ add_files [] (Iterable l) = (Err TypeError, []).
Proof. exists [OPath (str "a.vk4")], [BPath (str "a.vk4")]. split; reflexivity. Qed.
(** Not guaranteed: a single path given to the constructor is refused or taken apart; as a text it becomes one file per character, silently. *)
Theorem C95_single_refuted : (forall s, new_batch (One (OStr s)) = Ok (map (fun c => BPath [c]) s)) /\ (forall p, new_batch (One (OPath p)) = Err TypeError) /\
  new_batch (One (OStr (str "a.plu"))) = Ok [BPath (str "a"); BPath (str "."); BPath (str "p"); BPath (str "l"); BPath (str "u")].
Proof.
  split; [|split; [reflexivity|vm_compute; reflexivity]]. intros s. cbn [new_batch iterate rbind].
  assert (H : forall l fs, append_all fs (map (fun c => OStr [c]) l) = (Ok tt, fs ++ map (fun c => BPath [c]) l)).
  { induction l as [|c l IH]; intros fs; cbn [map append_all to_file]; [rewrite app_nil_r; reflexivity|]. rewrite IH, <- app_assoc. reflexivity. }
  unfold new_batch. cbn [iterate rbind]. rewrite H. reflexivity.
Qed.
(** Not guaranteed: a refused add_files may have changed the batch. *)
Theorem C95_atomic_refuted : exists a, fst (add_files [] a) = Err TypeError /\ snd (add_files [] a) <> [].
Proof. exists (Seq [OStr (str "a"); OOther]). split; [reflexivity|discriminate]. Qed.
(** Not guaranteed: different files get different names in the table. *)
Theorem C95_names_refuted : exists f g, f <> g /\ shown_name f = shown_name g.
Proof. exists (BPath (str "a/x.sur")), (BPath (str "b/x.sur")). split; [discriminate|vm_compute; reflexivity]. Qed.

(** *** The methods *)
Lemma walk_class_app a b st : walk_class (a ++ b) st = walk_class b (walk_class a st).
Proof.
  revert st. induction a as [|[n m] a IH]; intros [seen out]; cbn [app walk_class]; [reflexivity|].
  destruct (existsb (String.eqb n) seen); apply IH.
Qed.
Lemma walk_concat mro : walk mro = snd (walk_class (concat mro) ([], [])).
Proof.
  unfold walk. generalize (@nil string, @nil (string * bmethod)). induction mro as [|c mro IH]; intros st; cbn [fold_left concat]; [reflexivity|].
  rewrite IH, walk_class_app. reflexivity.
Qed.
Lemma dget_app {A} k (a b : dict A) : dget k (a ++ b) = match dget k a with Some v => Some v | None => dget k b end.
Proof. induction a as [|[k' v] a IH]; cbn [app dget]; [reflexivity|]. destruct (String.eqb k k'); [reflexivity|exact IH]. Qed.
Lemma resolve_concat mro n : resolve mro n = dget n (concat mro).
Proof. induction mro as [|c mro IH]; cbn [resolve concat]; [reflexivity|]. rewrite dget_app, IH. destruct (dget n c); reflexivity. Qed.
Lemma dget_dset_eq {A} k (v : A) d : dget k (dset k v d) = Some v.
Proof. induction d as [|[k' v'] d IH]; cbn [dset dget]; [rewrite String.eqb_refl; reflexivity|]. destruct (String.eqb k k') eqn:E; cbn [dget]; rewrite E; [reflexivity|exact IH]. Qed.
Lemma dget_dset_neq {A} k k' (v : A) d : k <> k' -> dget k (dset k' v d) = dget k d.
Proof.
  intros N. induction d as [|[k2 v2] d IH]; cbn [dset dget].
  - destruct (String.eqb_spec k k'); [contradiction|reflexivity].
  - destruct (String.eqb k' k2) eqn:E; cbn [dget]; destruct (String.eqb_spec k k2) as [->|N2]; try reflexivity.
    + apply String.eqb_eq in E. congruence.
    + exact IH.
Qed.
Lemma mem_true n l : existsb (String.eqb n) l = true <-> In n l.
Proof. rewrite existsb_exists. split; [intros (x & H & E); apply String.eqb_eq in E; subst; exact H|intros H; exists n; split; [exact H|apply String.eqb_refl]]. Qed.
Lemma mem_false n l : existsb (String.eqb n) l = false <-> ~ In n l.
Proof. rewrite <- mem_true. destruct (existsb (String.eqb n) l); intuition congruence. Qed.
Lemma walk_class_spec c : forall seen out n, (forall k, dget k out <> None -> In k seen) ->
  dget n (snd (walk_class c (seen, out))) =
  if existsb (String.eqb n) seen then dget n out else match dget n c with Some (Some b) => Some b | _ => None end.
Proof.
  induction c as [|[k m] c IH]; intros seen out n Hs; cbn [walk_class dget].
  - cbn [snd]. destruct (existsb (String.eqb n) seen) eqn:E; [reflexivity|]. apply mem_false in E.
    destruct (dget n out) eqn:D; [|reflexivity]. exfalso. apply E, Hs. congruence.
  - destruct (existsb (String.eqb k) seen) eqn:Ek.
    + rewrite IH by exact Hs. destruct (existsb (String.eqb n) seen) eqn:E; [reflexivity|].
      destruct (String.eqb_spec n k) as [->|N]; [congruence|reflexivity].
    + rewrite IH.
      * cbn [existsb]. destruct (String.eqb_spec n k) as [->|N]; cbn [orb].
        -- rewrite Ek. destruct m as [b|]; [apply dget_dset_eq|]. destruct (dget k out) eqn:D; [|reflexivity]. apply mem_false in Ek. exfalso. apply Ek, Hs. congruence.
        -- destruct (existsb (String.eqb n) seen); [|reflexivity]. destruct m as [b|]; [apply dget_dset_neq; exact N|reflexivity].
      * intros k' Hk'. destruct (string_dec k' k) as [->|N]; [left; reflexivity|right]. apply Hs. destruct m as [b|]; [rewrite dget_dset_neq in Hk' by exact N|]; exact Hk'.
Qed.
(** For every class hierarchy: a Batch has a version of exactly the methods Surface itself resolves to something marked for batches - a subclass that
    overrides a marked method without marking it hides it - and it is that very method; any other name is one of the Batch's own or unknown. *)
Theorem C95_methods (mro : list pyclass) (own : list string) (n : string) :
  batch_attribute mro own n =
  match resolve mro n with
  | Some (Some b) => Some (BatchVersion b)
  | _ => if in_dec string_dec n own then Some OwnMethod else None
  end.
Proof.
  unfold batch_attribute. rewrite walk_concat, resolve_concat, walk_class_spec by (intros k H; cbn [dget] in H; congruence). cbn [existsb].
  destruct (dget n (concat mro)) as [[b|]|]; try reflexivity; destruct (in_dec string_dec n own) as [H|H];
    try (apply mem_true in H; rewrite H; reflexivity); apply mem_false in H; rewrite H; reflexivity.
Qed.
Lemma version_in mro own n b : batch_attribute mro own n = Some (BatchVersion b) -> In (n, b) (walk mro).
Proof.
  unfold batch_attribute. destruct (dget n (walk mro)) as [b'|] eqn:D; [|destruct (existsb (String.eqb n) own); discriminate].
  intros H. assert (b' = b) by congruence. subst b'. apply dget_in. exact D.
Qed.
Definition is_par_version (a : option battr) : bool := match a with Some (BatchVersion b) => match b_type b with TParameter => true | _ => false end | _ => false end.
Definition is_own (a : option battr) : bool := match a with Some OwnMethod => true | _ => false end.
Definition good_version (b : bmethod) : bool :=
  match b_type b with
  | TOperation => existsb (fun kv => String.eqb (fst kv) "inplace" && snd kv) (b_fixed b) &&
                  (negb (existsb (String.eqb "return_trend") (map fst (b_params b))) || existsb (fun kv => String.eqb (fst kv) "return_trend" && negb (snd kv)) (b_fixed b)) &&
                  match b_labels b with None => true | _ => false end
  | TParameter => match b_fixed b with [] => true | _ => false end && negb (existsb (String.eqb "custom_name") (map fst (b_params b)))
  end.
Lemma is_par_version_spec a : is_par_version a = true -> exists b, a = Some (BatchVersion b) /\ b_type b = TParameter.
Proof. destruct a as [[b|]|]; cbn [is_par_version]; try discriminate. intros H. exists b. split; [reflexivity|]. destruct (b_type b); [discriminate|reflexivity]. Qed.
Lemma is_own_spec a : is_own a = true -> a = Some OwnMethod.
Proof. destruct a as [[b|]|]; cbn [is_own]; try discriminate. reflexivity. Qed.
Lemma good_version_spec b : good_version b = true ->
  match b_type b with
  | TOperation => In ("inplace", true) (b_fixed b) /\ (In "return_trend" (map fst (b_params b)) -> In ("return_trend", false) (b_fixed b)) /\ b_labels b = None
  | TParameter => b_fixed b = [] /\ ~ In "custom_name" (map fst (b_params b))
  end.
Proof.
  unfold good_version. destruct (b_type b); intros H.
  - apply andb_true_iff in H. destruct H as [H H3]. apply andb_true_iff in H. destruct H as [H1 H2]. split; [|split].
    + apply existsb_exists in H1. destruct H1 as ([k v] & Hi & E). cbn [fst snd] in E. apply andb_true_iff in E. destruct E as [E ->]. apply String.eqb_eq in E. subst. exact Hi.
    + intros Hr. apply mem_true in Hr. rewrite Hr in H2. cbn [negb orb] in H2. apply existsb_exists in H2. destruct H2 as ([k v] & Hi & E). cbn [fst snd] in E.
      apply andb_true_iff in E. destruct E as [E Ev]. apply String.eqb_eq in E. destruct v; [discriminate|]. subst. exact Hi.
    + destruct (b_labels b); [discriminate|reflexivity].
  - apply andb_true_iff in H. destruct H as [H1 H2]. destruct (b_fixed b); [|discriminate]. split; [reflexivity|]. apply mem_false. apply negb_true_iff. exact H2.
Qed.
Lemma available_checked : forallb (fun p => is_par_version (batch_attribute surface_mro batch_class p)) available_parameters = true.
Proof. vm_compute. reflexivity. Qed.
Lemma own_checked : forallb (fun p => is_own (batch_attribute surface_mro batch_class p)) batch_class = true.
Proof. vm_compute. reflexivity. Qed.
Lemma versions_checked : forallb (fun nb => good_version (snd nb)) (walk surface_mro) = true.
Proof. vm_compute. reflexivity. Qed.
Lemma forallb_in {A} (f : A -> bool) l x : forallb f l = true -> In x l -> f x = true.
Proof. rewrite forallb_forall. auto. Qed.
(** The classes of the library: every parameter of Surface.AVAILABLE_PARAMETERS is a parameter of the Batch; no method of the Batch itself is hidden by one
    taken from Surface; every operation works in place whatever the caller says, and returns no trend; custom_name is not an argument of any parameter. *)
Theorem C95_available :
  (forall p, In p available_parameters -> exists b, batch_attribute surface_mro batch_class p = Some (BatchVersion b) /\ b_type b = TParameter) /\
  (forall n, In n batch_class -> batch_attribute surface_mro batch_class n = Some OwnMethod) /\
  (forall n b, batch_attribute surface_mro batch_class n = Some (BatchVersion b) ->
     match b_type b with
     | TOperation => In ("inplace", true) (b_fixed b) /\ (In "return_trend" (map fst (b_params b)) -> In ("return_trend", false) (b_fixed b)) /\ b_labels b = None
     | TParameter => b_fixed b = [] /\ ~ In "custom_name" (map fst (b_params b))
     end).
Proof.
  split; [|split].
  - intros p Hp. apply is_par_version_spec. exact (forallb_in _ _ p available_checked Hp).
  - intros n Hn. apply is_own_spec. exact (forallb_in _ _ n own_checked Hn).
  - intros n b Hb. apply good_version_spec. exact (forallb_in _ _ (n, b) versions_checked (version_in _ _ _ _ Hb)).
Qed.

(** *** Arguments *)
Section Call.
Context {A : Type}.
Implicit Types (kw : dict A) (ps : list (string * bool)) (args : list A).
Definition names_of ps := map fst ps.
(** Python's rules, said by names: no positional argument too many, no keyword argument for a parameter already given by position or unknown, none without value *)
Definition call_fits ps args kw : Prop :=
  (length args <= length ps)%nat /\
  (forall k, dget k kw <> None -> ~ In k (names_of (firstn (length args) ps)) /\ In k (names_of ps)) /\
  (forall k, In (k, false) (skipn (length args) ps) -> dget k kw <> None).
Lemma exists_key (f : string -> bool) kw : existsb (fun kv => f (fst kv)) kw = true <-> exists k, dget k kw <> None /\ f k = true.
Proof.
  rewrite existsb_exists. split.
  - intros ([k v] & Hi & Hf). exists k. split; [|exact Hf]. intros H. apply dget_none in H. apply H. apply in_map_iff. exists (k, v). auto.
  - intros (k & Hk & Hf). destruct (dget k kw) as [v|] eqn:D; [|congruence]. exists (k, v). split; [apply dget_in; exact D|exact Hf].
Qed.
Lemma param_mem (k : string) ps : existsb (fun p => String.eqb (fst p) k) ps = true <-> In k (names_of ps).
Proof.
  rewrite existsb_exists. unfold names_of. rewrite in_map_iff. split; intros (p & H1 & H2); exists p.
  - split; [apply String.eqb_eq; exact H2|exact H1].
  - split; [exact H2|apply String.eqb_eq; exact H1].
Qed.
Lemma bind_args_spec ps args kw :
  (call_fits ps args kw /\ bind_args ps args kw = Ok (combine (names_of (firstn (length args) ps)) (map Some args) ++ map (fun p => (fst p, dget (fst p) kw)) (skipn (length args) ps))) \/
  (~ call_fits ps args kw /\ bind_args ps args kw = Err TypeError).
Proof.
  unfold bind_args. destruct (Nat.ltb_spec (length ps) (length args)) as [L|L].
  { right. split; [intros (H & _); lia|reflexivity]. }
  destruct (existsb (fun kv => existsb (fun p => String.eqb (fst p) (fst kv)) (firstn (length args) ps)) kw) eqn:E1.
  { right. split; [|reflexivity]. apply (exists_key (fun k => existsb (fun p => String.eqb (fst p) k) (firstn (length args) ps))) in E1.
    destruct E1 as (k & Hk & Hf). apply param_mem in Hf. intros (_ & H & _). exact (proj1 (H k Hk) Hf). }
  destruct (existsb (fun kv => negb (existsb (fun p => String.eqb (fst p) (fst kv)) ps)) kw) eqn:E2.
  { right. split; [|reflexivity]. apply (exists_key (fun k => negb (existsb (fun p => String.eqb (fst p) k) ps))) in E2.
    destruct E2 as (k & Hk & Hf). apply negb_true_iff in Hf. intros (_ & H & _). destruct (H k Hk) as [_ Hi]. apply param_mem in Hi. congruence. }
  destruct (existsb (fun p => negb (snd p) && match dget (fst p) kw with None => true | _ => false end) (skipn (length args) ps)) eqn:E3.
  { right. split; [|reflexivity]. apply existsb_exists in E3. destruct E3 as ([k d] & Hi & Hf). cbn [fst snd] in Hf. apply andb_true_iff in Hf. destruct Hf as [Hd Hf].
    destruct d; [discriminate|]. intros (_ & _ & H). specialize (H k Hi). destruct (dget k kw); congruence. }
  left. split; [|reflexivity]. split; [exact L|]. split.
  - intros k Hk. split.
    + intros Hi. apply param_mem in Hi. assert (X : existsb (fun kv => existsb (fun p => String.eqb (fst p) (fst kv)) (firstn (length args) ps)) kw = true)
        by (apply (exists_key (fun k => existsb (fun p => String.eqb (fst p) k) (firstn (length args) ps))); exists k; auto). congruence.
    + destruct (existsb (fun p => String.eqb (fst p) k) ps) eqn:E; [apply param_mem; exact E|]. exfalso.
      assert (X : existsb (fun kv => negb (existsb (fun p => String.eqb (fst p) (fst kv)) ps)) kw = true)
        by (apply (exists_key (fun k => negb (existsb (fun p => String.eqb (fst p) k) ps))); exists k; split; [exact Hk|rewrite E; reflexivity]). congruence.
  - intros k Hi Hn. assert (X : existsb (fun p => negb (snd p) && match dget (fst p) kw with None => true | _ => false end) (skipn (length args) ps) = true)
      by (apply existsb_exists; exists (k, false); split; [exact Hi|cbn [fst snd negb andb]; rewrite Hn; reflexivity]). congruence.
Qed.
Lemma with_fixed_get (fixed kw : dict A) k : NoDup (map fst fixed) -> dget k (with_fixed fixed kw) = match dget k fixed with Some v => Some v | None => dget k kw end.
Proof. intros H. unfold with_fixed. change (fold_left (fun (a : dict A) p => dset (fst p) (snd p) a) fixed kw) with (dupdate kw fixed). rewrite dget_dupdate, dget_rev by exact H. reflexivity. Qed.
Lemma dget_filter (f : string -> bool) kw k : dget k (filter (fun kv => f (fst kv)) kw) = if f k then dget k kw else None.
Proof.
  induction kw as [|[k' v] kw IH]; cbn [filter dget]; [destruct (f k); reflexivity|]. cbn [fst].
  destruct (String.eqb_spec k k') as [->|N].
  - destruct (f k') eqn:E; cbn [dget]; [rewrite String.eqb_refl; reflexivity|]. rewrite IH; try rewrite E; reflexivity.
  - destruct (f k') eqn:E; cbn [dget]; [destruct (String.eqb_spec k k'); [contradiction|]|]; exact IH.
Qed.
Lemma firstn_filter {B} (f : B -> bool) n : forall l, (forall x, In x (firstn n l) -> f x = true) -> (n <= length l)%nat ->
  firstn n (filter f l) = firstn n l /\ skipn n (filter f l) = filter f (skipn n l) /\ (n <= length (filter f l))%nat.
Proof.
  induction n as [|n IH]; intros [|x l] H L; cbn [firstn skipn filter length] in *; try (split; [reflexivity|split; [reflexivity|lia]]).
  rewrite (H x (or_introl eq_refl)). cbn [firstn skipn length]. destruct (IH l) as (-> & -> & L'); [intros y Hy; apply H; right; exact Hy|lia|].
  split; [reflexivity|]. split; [reflexivity|lia].
Qed.
Lemma dget_combine (ks : list string) (f : string -> option A) k : dget k (map (fun k => (k, f k)) ks) = if existsb (String.eqb k) ks then Some (f k) else None.
Proof. apply dget_tabulate. Qed.
Lemma names_firstn n ps : names_of (firstn n ps) = firstn n (names_of ps).
Proof. unfold names_of. symmetry. apply firstn_map. Qed.
End Call.

(** What the caller of batch.method(args, kwargs) gets, for every marked method and all arguments of which none is given by position for a removed parameter
    or one behind it: the call is possible exactly when the signature shown for the Batch allows it (arguments for removed parameters given by keyword being
    ignored), and then every parameter has the value the caller gave it, the removed ones their fixed value. *)
Theorem C95_call {A} (value : bool -> A) (t : mtype) (labels : option (list string)) (fixed : dict bool) (params : list (string * bool)) (b : bmethod)
  (args : list A) (kwargs : dict A) :
  decorate t labels fixed params = Some b -> NoDup (map fst params) -> ~ In "self" (map fst params) -> NoDup (map fst fixed) -> ~ In "self" (map fst fixed) ->
  (forall k, In k (map fst (b_fixed b)) -> ~ In k (map fst (firstn (length args) params))) -> (length args <= length params)%nat ->
  let shown := bind_args (batch_signature b) args (filter (fun kv => negb (existsb (String.eqb (fst kv)) (map fst (b_fixed b)))) kwargs) in
  match batch_call value b args kwargs with
  | Ok got => exists seen, shown = Ok seen /\
      forall p, dget p got = match dget p (b_fixed b) with Some v => Some (Some (value v)) | None => dget p seen end
  | Err e => e = TypeError /\ shown = Err TypeError
  end.
Proof.
  intros Hb Hnd Hself Hndf Hselff Hpos Hlen shown. unfold decorate in Hb. assert (Eb : b = mkB t params (filter (fun kv => existsb (String.eqb (fst kv)) ("self" :: map fst params)) fixed) labels) by congruence.
  assert (Hp : b_params b = params) by (rewrite Eb; reflexivity).
  assert (Hfx : b_fixed b = filter (fun kv => existsb (String.eqb (fst kv)) ("self" :: map fst params)) fixed) by (rewrite Eb; reflexivity). clear Eb Hb.
  assert (Hnf : NoDup (map fst (b_fixed b))).
  { rewrite Hfx. clear - Hndf. induction fixed as [|[k v] fixed IH]; cbn [filter map]; [constructor|]. cbn [map fst] in Hndf. apply NoDup_cons_iff in Hndf. destruct Hndf as [Hi Hn].
    destruct (existsb _ _); [cbn [map fst]; constructor; [|apply IH, Hn]|apply IH, Hn].
    intros H. apply Hi. apply in_map_iff in H. destruct H as (x & <- & H). apply filter_In in H. apply in_map. apply H. }
  assert (Hsub : forall k, In k (map fst (b_fixed b)) -> In k (map fst params)).
  { intros k H. rewrite Hfx in H. apply in_map_iff in H. destruct H as ([k' v] & <- & H). apply filter_In in H. destruct H as [Hi H]. cbn [fst] in *. apply mem_true in H.
    destruct H as [E|H]; [|exact H]. exfalso. apply Hselff. rewrite E. apply in_map_iff. exists (k', v). auto. }
  set (F := map fst (b_fixed b)) in *.
  set (keep := fun k => negb (existsb (String.eqb k) F)).
  assert (Hkeep : forall k, keep k = true <-> ~ In k F) by (intros k; unfold keep; rewrite negb_true_iff; apply mem_false).
  assert (Hsig : batch_signature b = filter (fun p => keep (fst p)) params).
  { unfold batch_signature. rewrite Hp. apply filter_ext_in. intros [k d] Hi. cbn [fst existsb]. destruct (String.eqb_spec k "self") as [->|_]; [|reflexivity].
    exfalso. apply Hself. apply in_map_iff. exists ("self", d). auto. }
  set (vf := map (fun kv => (fst kv, value (snd kv))) (b_fixed b)).
  assert (Hvf : forall k, dget k vf = match dget k (b_fixed b) with Some v => Some (value v) | None => None end).
  { intros k. unfold vf. generalize (b_fixed b). induction d as [|[k' v] d IH]; cbn [map dget fst snd]; [reflexivity|]. destruct (String.eqb k k'); [reflexivity|exact IH]. }
  assert (Hnv : NoDup (map fst vf)) by (unfold vf; rewrite map_map; exact Hnf).
  assert (Hget : forall k, dget k (with_fixed vf kwargs) = match dget k (b_fixed b) with Some v => Some (value v) | None => dget k kwargs end).
  { intros k. rewrite with_fixed_get by exact Hnv. rewrite Hvf. destruct (dget k (b_fixed b)); reflexivity. }
  assert (HF : forall k, dget k (b_fixed b) = None <-> ~ In k F) by (intros k; apply dget_none).
  set (kw' := filter (fun kv => negb (existsb (String.eqb (fst kv)) F)) kwargs) in *.
  assert (Hkw' : forall k, dget k kw' = if keep k then dget k kwargs else None) by (intros k; apply (dget_filter keep)).
  destruct (firstn_filter (fun p : string * bool => keep (fst p)) (length args) params) as (Hf & Hs & Hl).
  { intros [k d] Hi. cbn [fst]. apply Hkeep. intros H. apply (Hpos k H). apply in_map_iff. exists (k, d). auto. }
  { exact Hlen. }
  assert (Hfits : call_fits params args (with_fixed vf kwargs) <-> call_fits (batch_signature b) args kw').
  { rewrite Hsig. unfold call_fits. rewrite Hf, Hs. unfold names_of. split; intros (_ & H1 & H2); (split; [assumption|]); split.
    - intros k Hk. rewrite Hkw' in Hk. destruct (keep k) eqn:Ek; [|congruence]. pose proof Ek as Ek'. apply Hkeep in Ek'. pose proof (proj2 (HF k) Ek') as Hn.
      destruct (H1 k) as [Ha Hb]; [rewrite Hget, Hn; exact Hk|]. split; [exact Ha|]. apply in_map_iff in Hb. destruct Hb as (x & E & Hx). apply in_map_iff. exists x. split; [exact E|].
      apply filter_In. split; [exact Hx|]. rewrite E. exact Ek.
    - intros k Hi. apply filter_In in Hi. destruct Hi as [Hi Ek]. cbn [fst] in Ek. specialize (H2 k Hi). rewrite Hget in H2. pose proof Ek as Ek'. apply Hkeep, HF in Ek'. rewrite Ek' in H2.
      rewrite Hkw', Ek. exact H2.
    - intros k Hk. rewrite Hget in Hk. destruct (dget k (b_fixed b)) as [v|] eqn:D.
      + assert (Hi : In k F) by (destruct (in_dec string_dec k F) as [H|H]; [exact H|apply HF in H; congruence]). split; [apply Hpos; exact Hi|apply Hsub; exact Hi].
      + assert (Hn : ~ In k F) by (apply HF; exact D). destruct (H1 k) as [Ha Hb]; [rewrite Hkw'; apply Hkeep in Hn; rewrite Hn; exact Hk|]. split; [exact Ha|].
        apply in_map_iff in Hb. destruct Hb as (x & E & Hx). apply filter_In in Hx. apply in_map_iff. exists x. split; [exact E|apply Hx].
    - intros k Hi. rewrite Hget. destruct (dget k (b_fixed b)) as [v|] eqn:D; [discriminate|]. assert (Hn : keep k = true) by (apply Hkeep, HF; exact D).
      specialize (H2 k). rewrite Hkw', Hn in H2. apply H2. apply filter_In. split; [exact Hi|exact Hn]. }
  unfold batch_call. rewrite Hp. fold vf. unfold shown.
  destruct (bind_args_spec params args (with_fixed vf kwargs)) as [(Hc & ->)|(Hc & ->)]; destruct (bind_args_spec (batch_signature b) args kw') as [(Hc' & ->)|(Hc' & ->)]; try tauto.
  rewrite Hsig. rewrite Hf, Hs. eexists. split; [reflexivity|]. intros p.
  rewrite !dget_app. destruct (dget p (combine (names_of (firstn (length args) params)) (map Some args))) as [v|] eqn:D.
  - destruct (dget p (b_fixed b)) as [w|] eqn:D'; [|reflexivity]. exfalso. apply (Hpos p).
    + destruct (in_dec string_dec p F) as [H|H]; [exact H|apply HF in H; congruence].
    + apply dget_in in D. apply in_combine_l in D. exact D.
  - transitivity (if existsb (String.eqb p) (names_of (skipn (length args) params)) then Some (dget p (with_fixed vf kwargs)) else None).
    { unfold names_of. rewrite <- (dget_tabulate (fun k => dget k (with_fixed vf kwargs))), map_map. reflexivity. }
    assert (R : dget p (map (fun p0 : string * bool => (fst p0, dget (fst p0) kw')) (filter (fun p0 => keep (fst p0)) (skipn (length args) params)))
      = if existsb (String.eqb p) (names_of (filter (fun p0 : string * bool => keep (fst p0)) (skipn (length args) params))) then Some (dget p kw') else None).
    { unfold names_of. rewrite <- (dget_tabulate (fun k => dget k kw')), map_map. reflexivity. }
    rewrite R. clear R. destruct (dget p (b_fixed b)) as [w|] eqn:D'.
    + assert (Hi : In p F) by (destruct (in_dec string_dec p F) as [H|H]; [exact H|apply HF in H; congruence]).
      rewrite Hget, D'. assert (X : existsb (String.eqb p) (names_of (skipn (length args) params)) = true); [|rewrite X; reflexivity].
      apply mem_true. pose proof (Hsub p Hi) as Hq. rewrite <- (firstn_skipn (length args) params), map_app in Hq. apply in_app_or in Hq. destruct Hq as [Hq|Hq]; [exfalso; exact (Hpos p Hi Hq)|exact Hq].
    + assert (Hk : keep p = true) by (apply Hkeep, HF; exact D'). rewrite Hget, D', Hkw', Hk.
      assert (X : existsb (String.eqb p) (names_of (skipn (length args) params)) = existsb (String.eqb p) (names_of (filter (fun p0 : string * bool => keep (fst p0)) (skipn (length args) params)))).
      { apply eq_true_iff_eq. rewrite !mem_true. unfold names_of. rewrite !in_map_iff. split.
        - intros (x & E & Hx). exists x. split; [exact E|]. apply filter_In. split; [exact Hx|]. rewrite E. exact Hk.
        - intros (x & E & Hx). exists x. split; [exact E|]. apply filter_In in Hx. apply Hx. }
      rewrite X. reflexivity.
Qed.
(** batch.filter('lowpass', 10, endeffect_mode='nearest', inplace=False) calls surface.filter('lowpass', 10, endeffect_mode='nearest', inplace=True);
    arguments: 0 and 1 stand for False and True, other numbers for other objects *)
Definition flag (b : bool) : Z := if b then 1%Z else 0%Z.
Definition filter_version : bmethod :=
  match batch_attribute surface_mro batch_class "filter" with Some (BatchVersion b) => b | _ => mkB TParameter [] [] None end.
Theorem C95_call_example :
  batch_attribute surface_mro batch_class "filter" = Some (BatchVersion filter_version) /\
  batch_call flag filter_version [7; 10]%Z [("endeffect_mode", 8%Z); ("inplace", 0%Z)]
  = Ok [("filter_type", Some 7%Z); ("cutoff", Some 10%Z); ("cutoff2", None); ("inplace", Some 1%Z); ("endeffect_mode", Some 8%Z)] /\
  batch_call flag filter_version [7]%Z [] = Err TypeError.
Proof. split; [|split]; vm_compute; reflexivity. Qed.
(** Not guaranteed: the signature shown for the Batch can be used by position.  batch.filter('bandpass', 2, 10, 'nearest') fits the signature
    (filter_type, cutoff, cutoff2=None, endeffect_mode='reflect') and is accepted, but fails with TypeError when the batch is executed. *)
Theorem C95_signature_refuted : exists n b args seen,
  batch_attribute surface_mro batch_class n = Some (BatchVersion b) /\ bind_args (batch_signature b) args [] = Ok seen /\ batch_call flag b args [] = Err TypeError.
Proof.
  exists "filter", filter_version, [7; 2; 10; 8]%Z, [("filter_type", Some 7%Z); ("cutoff", Some 2%Z); ("cutoff2", Some 10%Z); ("endeffect_mode", Some 8%Z)].
  split; [|split]; vm_compute; reflexivity.
Qed.
(** Not guaranteed: roughness_parameters() registers "all available roughness and periodic parameters" (batch.py:909); it registers the ISO parameters only. *)
Theorem C95_all_parameters_refuted {St V File : Type} (E : env St V Z File) : e_iso E = iso_parameters ->
  exists p, In p available_parameters /\
  forall r st, register E [] (CallRoughness None) = (r, st) -> r = Ok tt /\ forall s, In s st -> step_name s <> Some (NStr p).
Proof.
  intros HE. exists "period". split; [vm_compute; tauto|]. intros r st. cbn [register]. rewrite HE. intros H. vm_compute in H.
  assert (E1 : r = Ok tt) by congruence. split; [exact E1|]. intros s Hs. assert (E2 : st = map (fun n => SPar n n [] []) iso_parameters) by (vm_compute; congruence).
  rewrite E2 in Hs. apply in_map_iff in Hs. destruct Hs as (n & <- & Hn). cbn [step_name]. intros Hp. assert (n = "period") by congruence. subst n.
  revert Hn. vm_compute. intuition discriminate.
Qed.
