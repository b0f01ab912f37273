(** C85: extracting the measurements of a Keyence collection. *)
From Coq Require Import String Ascii ZArith Lia Bool.
From Coq Require Import List.
From Verif Require Import Base ModelBytes ModelSur ModelGwy ModelZip ModelCag SpecZip SpecCag ProofBytes PropsMagic PropsLayout ProofZip ProofFlat PropsX3p.
Import ListNotations.
Local Open Scope list_scope.
Local Open Scope Z_scope.

(** ** The regular expressions *)
Lemma behind_iff p : forall s r, behind p s = Some r <-> s = p ++ r.
Proof.
  induction p as [|x p IH]; intros s r; cbn [behind app].
  - split; [intros H; injection H as ->; reflexivity|intros ->; reflexivity].
  - destruct s as [|y s]; [split; [discriminate|intros H; discriminate]|]. destruct (Z.eqb_spec x y) as [->|N].
    + rewrite IH. split; [intros ->; reflexivity|intros H; injection H as ->; reflexivity].
    + split; [discriminate|]. intros H. injection H as H _. congruence.
Qed.
Lemma behind_none p s : (forall r, s <> p ++ r) -> behind p s = None.
Proof. intros H. destruct (behind p s) as [r|] eqn:E; [|reflexivity]. apply behind_iff in E. exfalso. exact (H r E). Qed.
Inductive found (o c : pystr) : pystr -> list pystr -> Prop :=
| found_nil : found o c [] []
| found_skip x s l : (forall t, behind o (x :: s) = Some t -> greedy c t = None) -> found o c s l -> found o c (x :: s) l
| found_hit x s t g r l : behind o (x :: s) = Some t -> greedy c t = Some (g, r) -> found o c r l -> found o c (x :: s) (g :: l).
Lemma greedy_shorter c : forall s g r, greedy c s = Some (g, r) -> (length r < length s)%nat.
Proof.
  induction s as [|x s IH]; cbn [greedy]; intros g r H; [discriminate|]. destruct (x =? 10); [discriminate|]. destruct (greedy c s) as [[g' r']|] eqn:E.
  - injection H as <- <-. specialize (IH _ _ eq_refl). cbn. lia.
  - destruct (behind c s) as [r'|] eqn:B; [|discriminate]. injection H as <- <-. apply behind_iff in B. subst s. cbn [length]. rewrite app_length. lia.
Qed.
Lemma found_ok o c s l : found o c s l -> forall n, (length s < n)%nat -> findall_from n o c s = l.
Proof.
  intros H. induction H as [|x s l N H IH|x s t g r l B G H IH]; intros n L; (destruct n as [|n]; [lia|]); cbn [findall_from]; [reflexivity| |].
  - cbn in L. destruct (behind o (x :: s)) as [t|] eqn:B; [rewrite (N t eq_refl)|]; apply IH; lia.
  - rewrite B, G. f_equal. apply IH. pose proof (greedy_shorter _ _ _ _ G) as K. apply behind_iff in B. apply (f_equal (@length Z)) in B. rewrite app_length in B. cbn in *. lia.
Qed.
Section tag.
Context (tag : string) (Htag : ~ In 60 (str tag)) (Htag' : ~ In 10 (str tag)).
Definition ending (t : pystr) : Prop := t = [] \/ exists r, t = 10 :: r.
Lemma greedy_dark x : forall t, ending t -> ~ In 60 x -> greedy (closing tag) (x ++ t) = None.
Proof.
  induction x as [|y x IH]; intros t E N; cbn [app].
  - destruct E as [->|(r & ->)]; reflexivity.
  - cbn [greedy]. destruct (y =? 10); [reflexivity|]. rewrite IH by (auto; intros F; apply N; right; exact F).
    rewrite (behind_none (closing tag)); [reflexivity|]. intros r H. destruct x as [|z x].
    + cbn [app] in H. destruct E as [->|(r' & ->)]; discriminate H.
    + injection H as -> _. apply N. right. left. reflexivity.
Qed.
Lemma greedy_value v : forall b t, v <> [] -> ~ In 10 v -> ~ In 60 b -> ending t -> greedy (closing tag) (v ++ closing tag ++ b ++ t) = Some (v, b ++ t).
Proof.
  induction v as [|x v IH]; intros b t Nv L D E; [congruence|]. cbn [app greedy]. destruct (Z.eqb_spec x 10) as [->|_]; [exfalso; apply L; left; reflexivity|].
  destruct v as [|y v].
  - cbn [app].
    assert (G : greedy (closing tag) (closing tag ++ b ++ t) = None).
    { unfold closing at 2. change (str "</" ++ str tag ++ str ">") with (60 :: 47 :: (str tag ++ str ">")). cbn [app greedy].
      change (60 =? 10) with false. cbv iota. change (47 =? 10) with false. cbv iota.
      assert (G' : greedy (closing tag) (47 :: (str tag ++ str ">") ++ b ++ t) = None).
      { rewrite app_assoc. apply (greedy_dark (47 :: (str tag ++ str ">") ++ b) t E). intros [F|F]; [discriminate F|]. apply in_app_or in F as [F|F]; [|exact (D F)].
        apply in_app_or in F as [F|[F|[]]]; [exact (Htag F)|discriminate F]. }
      cbn [greedy] in G'. change (47 =? 10) with false in G'. cbv iota in G'. rewrite G'.
      rewrite (behind_none (closing tag)); [reflexivity|]. intros r H. discriminate H. }
    rewrite G, (proj2 (behind_iff (closing tag) (closing tag ++ b ++ t) (b ++ t)) eq_refl). reflexivity.
  - rewrite (IH b t); [reflexivity|discriminate|intros F; apply L; right; exact F|exact D|exact E].
Qed.
Lemma found_blank a : forall s l, ~ In 60 a -> found (opening tag) (closing tag) s l -> found (opening tag) (closing tag) (a ++ s) l.
Proof.
  induction a as [|x a IH]; intros s l N H; [exact H|]. cbn [app]. apply found_skip; [|apply IH; [intros F; apply N; right; exact F|exact H]].
  intros t B. apply behind_iff in B. injection B as -> _. exfalso. apply N. left. reflexivity.
Qed.
Lemma found_without l : forall t vs, ~ occurs (opening tag) l -> ending t -> found (opening tag) (closing tag) t vs -> found (opening tag) (closing tag) (l ++ t) vs.
Proof.
  induction l as [|x l IH]; intros t vs N E H; [exact H|]. cbn [app]. apply found_skip.
  - intros u B. apply behind_iff in B. exfalso. rewrite app_comm_cons in B.
    assert (K : (length (opening tag) <= length (x :: l))%nat \/ (length (x :: l) < length (opening tag))%nat) by lia. destruct K as [K|K].
    + apply N. exists [], (skipn (length (opening tag)) (x :: l)). cbn [app]. apply (f_equal (firstn (length (opening tag)))) in B.
      rewrite firstn_app, (proj2 (Nat.sub_0_le _ _) K), firstn_O, app_nil_r in B. rewrite firstn_app, firstn_all, Nat.sub_diag, firstn_O, app_nil_r in B.
      rewrite <- B at 1. symmetry. apply firstn_skipn.
    + (* the newline would be in the opening tag *)
      destruct E as [->|(r & ->)].
      * rewrite app_nil_r in B. apply (f_equal (@length Z)) in B. rewrite app_length in B. lia.
      * assert (F : nth_error (opening tag) (length (x :: l)) = Some 10).
        { assert (Q : nth_error ((x :: l) ++ 10 :: r) (length (x :: l)) = Some 10) by (rewrite nth_error_app2, Nat.sub_diag by lia; reflexivity).
          rewrite B in Q. rewrite nth_error_app1 in Q by exact K. exact Q. }
        apply nth_error_In in F. unfold opening in F. apply in_app_or in F as [[F|[]]|F]; [discriminate F|]. apply in_app_or in F as [F|[F|[]]]; [exact (Htag' F)|discriminate F].
  - apply IH; [|exact E|exact H]. intros (a & b & ->). apply N. exists (x :: a), b. reflexivity.
Qed.
Lemma found_line l vs t us : line_values tag l vs -> ending t -> found (opening tag) (closing tag) t us -> found (opening tag) (closing tag) (l ++ t) (vs ++ us).
Proof.
  intros H E F. destruct H as [l N1 N2|a v b N A B V].
  - apply found_without; assumption.
  - rewrite <- app_assoc. apply found_blank; [exact A|]. cbn [app].
    assert (Nb : ~ In 10 b) by (intros G; apply N; apply in_or_app; right; apply in_or_app; right; exact G).
    assert (Nv : ~ In 10 v) by (intros G; apply N; apply in_or_app; right; apply in_or_app; left; exact G).
    rewrite <- app_assoc. unfold opening at 2. change (str "<" ++ str tag ++ str ">") with (60 :: (str tag ++ str ">")). cbn [app].
    eapply found_hit; [apply (behind_iff (opening tag)); unfold opening; cbn [app str map String.list_ascii_of_string]; reflexivity| |].
    + rewrite <- app_assoc. rewrite <- app_assoc. rewrite (greedy_value v b t V Nv B E). reflexivity.
    + apply found_blank; assumption.
Qed.
Lemma lists_findall text vs : lists_values text tag vs -> findall tag text = vs.
Proof.
  intros (ls & vss & -> & H & ->). unfold findall. fold (opening tag). fold (closing tag). apply found_ok; [|lia].
  induction H as [|l vs ls vss H1 H2 IH]; cbn [concat joined]; [constructor|]. destruct ls as [|l' ls].
  - inversion H2; subst. rewrite <- (app_nil_r l). apply found_line; [exact H1|left; reflexivity|constructor].
  - apply found_line; [exact H1|right; eexists; reflexivity|]. cbn [app]. apply found_skip; [|exact IH]. intros t B. apply behind_iff in B. discriminate B.
Qed.
End tag.

(** ** Paths *)
Lemma components_plain n : ~ In 47 n -> components n = [n].
Proof. induction n as [|c n IH]; cbn [components]; intros H; [reflexivity|]. destruct (Z.eqb_spec c 47) as [->|_]; [exfalso; apply H; left; reflexivity|]. rewrite IH by (intros F; apply H; right; exact F). reflexivity. Qed.
Lemma components_app q n : components (q ++ 47 :: n) = components q ++ components n.
Proof.
  induction q as [|c q IH]; cbn [app components]; [reflexivity|]. destruct (Z.eqb_spec c 47) as [->|N].
  - rewrite IH. reflexivity.
  - rewrite IH. assert (Q : components q <> []) by (destruct q; cbn; [discriminate|destruct (z =? 47); [discriminate|destruct (components q); discriminate]]).
    destruct (components q); [congruence|]. reflexivity.
Qed.
Lemma parts_app q n : parts (q ++ 47 :: n) = parts q ++ parts n.
Proof. unfold parts. rewrite components_app, filter_app. reflexivity. Qed.
Lemma parts_component n : component n -> parts n = [n].
Proof.
  intros (H1 & H2 & H3). unfold parts. rewrite components_plain by exact H3. cbn [List.filter]. destruct n as [|c n]; [congruence|].
  destruct (zs_eqb (c :: n) (str ".")) eqn:E; [apply zs_eqb_eq in E; exfalso; apply H2; exact E|reflexivity].
Qed.
Lemma base_path o n : base_name o n -> path_name o = n.
Proof.
  intros (C & [->|(q & ->)]); unfold path_name.
  - rewrite (parts_component n C). reflexivity.
  - change (q ++ [47] ++ n) with (q ++ 47 :: n). rewrite parts_app, (parts_component n C). apply last_last.
Qed.
Lemma path_name_component s : path_name s = [] \/ component (path_name s).
Proof.
  unfold path_name. destruct (parts s) as [|x l] eqn:E; [left; reflexivity|right].
  assert (I : In (last (x :: l) []) (parts s)) by (rewrite E; clear E; revert x; induction l as [|y l IH]; intros x; [left; reflexivity|right; apply IH]).
  set (z := last (x :: l) []) in *. clearbody z. unfold parts in I. apply filter_In in I as [I F].
  assert (C : forall s c, In c (components s) -> ~ In 47 c).
  { clear. induction s as [|c s IH]; cbn [components]; intros d H.
    - destruct H as [<-|[]]. intros [].
    - destruct (Z.eqb_spec c 47) as [->|N].
      + destruct H as [<-|H]; [intros []|exact (IH d H)].
      + destruct (components s) as [|x l]; [destruct H as [<-|[]]; intros [G|[]]; congruence|]. destruct H as [<-|H]; [|apply IH; right; exact H].
        intros [G|G]; [congruence|]. apply (IH x); [left; reflexivity|exact G]. }
  destruct z as [|c z]; [discriminate|]. split; [discriminate|]. split; [intros G; rewrite G in F; discriminate F|]. exact (C _ _ I).
Qed.
Lemma after_plain f r : ~ In 47 f -> after_slash (f ++ r) = after_slash r.
Proof. induction f as [|c f IH]; cbn [app after_slash]; intros H; [reflexivity|]. unfold is_slash. destruct (Z.eqb_spec c 47) as [->|_]; [exfalso; apply H; left; reflexivity|]. apply IH. intros F. apply H. right. exact F. Qed.
Lemma dirname_plain f : ~ In 47 f -> dirname f = [].
Proof. intros H. unfold dirname. rewrite <- (app_nil_r (rev f)), after_plain; [reflexivity|]. intros F. apply in_rev in F. exact (H F). Qed.
Definition solid (q : pystr) : Prop := q <> [] /\ forall r, q <> r ++ [47].
Lemma rstrip_solid q : solid q -> rstrip_slash q = q.
Proof.
  intros (N & L). unfold rstrip_slash. destruct q as [|x q _] using rev_ind; [congruence|]. rewrite rev_app_distr. cbn [rev app drop_slashes]. unfold is_slash.
  destruct (Z.eqb_spec x 47) as [->|_]; [exfalso; exact (L q eq_refl)|]. cbn [rev]. rewrite rev_involutive. reflexivity.
Qed.
Lemma rstrip_one q : solid q -> rstrip_slash (q ++ [47]) = q.
Proof. intros H. rewrite <- (rstrip_solid q H) at 2. unfold rstrip_slash. rewrite rev_app_distr. reflexivity. Qed.
Lemma dirname_solid q f : solid q -> ~ In 47 f -> dirname (q ++ 47 :: f) = q.
Proof.
  intros H F. unfold dirname. assert (E : rev (after_slash (rev (q ++ 47 :: f))) = q ++ [47]).
  { change (q ++ 47 :: f) with (q ++ [47] ++ f). rewrite !rev_app_distr, <- app_assoc, after_plain by (intros G; apply in_rev in G; exact (F G)). cbn [rev app after_slash]. unfold is_slash. rewrite Z.eqb_refl.
    change (47 :: rev q) with ([47] ++ rev q). rewrite rev_app_distr, rev_involutive. reflexivity. }
  rewrite E. assert (B : forallb is_slash (q ++ [47]) = false).
  { destruct H as [N L]. destruct q as [|x q _] using rev_ind; [congruence|]. rewrite !forallb_app. cbn [forallb]. unfold is_slash at 2. destruct (Z.eqb_spec x 47) as [->|_]; [exfalso; exact (L q eq_refl)|].
    cbn. rewrite andb_false_r. reflexivity. }
  rewrite B. apply rstrip_one, H.
Qed.
Lemma plain_solid f : f <> [] -> ~ In 47 f -> solid f.
Proof. intros N H. split; [exact N|]. intros r ->. apply H, in_or_app. right. left. reflexivity. Qed.
Lemma join_solid q f : f <> [] -> ~ In 47 f -> solid (q ++ f).
Proof.
  intros N H. split; [destruct q; [exact N|discriminate]|]. intros r E. destruct f as [|x f _] using rev_ind; [congruence|]. rewrite app_assoc in E. apply app_inj_tail in E as [_ E]. subst x.
  apply H, in_or_app. right. left. reflexivity.
Qed.
Lemma parent_of_file top id file : component id -> component file -> parent_at (top ++ id ++ [47] ++ file) = top ++ id ++ [47].
Proof.
  intros (I1 & I2 & I3) (F1 & F2 & F3). unfold parent_at. replace (top ++ id ++ [47] ++ file) with ((top ++ id) ++ 47 :: file) by (rewrite <- app_assoc; reflexivity).
  rewrite rstrip_solid by (change (47 :: file) with ([47] ++ file); rewrite app_assoc; apply join_solid; assumption).
  rewrite dirname_solid by (auto using join_solid). destruct (top ++ id) as [|c r] eqn:E; [apply app_eq_nil in E as [_ E]; congruence|]. rewrite <- E, <- app_assoc. reflexivity.
Qed.
Lemma parent_of_folder top id : top_folder top -> component id -> parent_at (top ++ id ++ [47]) = top.
Proof.
  intros T (I1 & I2 & I3). unfold parent_at. rewrite app_assoc, rstrip_one by (apply join_solid; assumption). destruct T as [->|(q & -> & Q1 & Q2)].
  - cbn [app]. rewrite dirname_plain by exact I3. reflexivity.
  - rewrite <- app_assoc. cbn [app]. rewrite dirname_solid by (auto; split; assumption). destruct q; [congruence|reflexivity].
Qed.
Lemma name_of_folder zip top id : top_folder top -> component id -> at_name zip (top ++ id ++ [47]) = id.
Proof.
  intros T C. assert (P : exists l, parts (top ++ id ++ [47]) = l ++ [id]).
  { rewrite app_assoc. change ((top ++ id) ++ [47]) with ((top ++ id) ++ 47 :: []). rewrite parts_app. change (parts []) with (@nil pystr). rewrite app_nil_r.
    destruct T as [->|(q & -> & _)]; [exists []; apply (parts_component id C)|]. rewrite <- app_assoc. cbn [app]. rewrite parts_app, (parts_component id C). eauto. }
  destruct P as (l & P). unfold at_name, path_name. rewrite P.
  assert (A : last (l ++ [id]) [] = id) by apply last_last. assert (B : last (parts zip ++ l ++ [id]) [] = id) by (rewrite app_assoc; apply last_last).
  destruct (match top ++ id ++ [47] with c :: _ => is_slash c | [] => false end); assumption.
Qed.
(** the files in the folder of the index *)
Lemma split_last n : ~ In 47 n \/ exists q f, n = q ++ 47 :: f /\ ~ In 47 f.
Proof.
  induction n as [|c n IH]; [left; intros []|]. destruct IH as [H|(q & f & -> & H)].
  - destruct (Z.eq_dec c 47) as [->|N]; [right; exists [], n; auto|left; intros [F|F]; congruence || exact (H F)].
  - right. exists (c :: q), f. auto.
Qed.
Lemma files_in_iff a top n : (forall n, In n (map fst a) -> normal n) -> top_folder top -> (In n (files_in a top) <-> In n (map fst a) /\ directly_in top n).
Proof.
  intros Nm T. unfold files_in, namelist. rewrite filter_In. split; intros [H1 H2]; (split; [exact H1|]).
  - apply andb_prop in H2 as [E L]. apply zs_eqb_eq in E. destruct (Nm n H1) as (M1 & M2 & M3).
    assert (Sn : solid n).
    { split; [exact M1|]. intros r ->. rewrite rev_app_distr in L. discriminate L. }
    rewrite (rstrip_solid n Sn) in E. destruct (split_last n) as [P|(q & f & -> & P)].
    + rewrite (dirname_plain n P) in E. destruct T as [->|(q & -> & Q1 & Q2)].
      * exists n. auto.
      * rewrite rstrip_one in E by (split; assumption). congruence.
    + assert (F : f <> []) by (intros ->; exact (proj2 Sn q eq_refl)). assert (Sq : solid q).
      { split; [intros ->; exact (M2 f eq_refl)|]. intros r ->. apply M3. exists r, f. rewrite <- app_assoc. reflexivity. }
      rewrite (dirname_solid q f Sq P) in E. destruct T as [->|(q' & -> & Q1 & Q2)].
      * cbn in E. destruct Sq. congruence.
      * rewrite rstrip_one in E by (split; assumption). subst q'. exists f. rewrite <- app_assoc. auto.
  - destruct H2 as (f & -> & F1 & F2). rewrite rstrip_solid by (apply join_solid; assumption). apply andb_true_intro. split.
    + apply zs_eqb_eq. destruct T as [->|(q & -> & Q1 & Q2)].
      * cbn [app]. rewrite dirname_plain by exact F2. reflexivity.
      * rewrite <- app_assoc. cbn [app]. rewrite dirname_solid, rstrip_one by (auto; split; assumption). reflexivity.
    + destruct (join_solid top f F1 F2) as [J1 J2]. destruct (top ++ f) as [|x g _] using rev_ind; [congruence|]. rewrite rev_app_distr. cbn. unfold is_slash.
      destruct (Z.eqb_spec x 47) as [->|_]; [exfalso; exact (J2 g eq_refl)|reflexivity].
Qed.

(** ** The table *)
Lemma measurement_iff b : vk_magic b = true <-> measurement b.
Proof.
  unfold vk_magic, measurement. rewrite existsb_exists, firstn_firstn. change (Nat.min 3 5) with 3%nat. split.
  - intros (x & H & E). apply zs_eqb_eq in E. apply in_map_iff in H as (m & <- & H). exists m, (skipn 3 b). split; [exact H|]. rewrite <- E. symmetry. apply firstn_skipn.
  - intros (m & r & H & ->). exists (str m). split; [apply in_map, H|]. apply zs_eqb_eq. cbn in H. repeat (destruct H as [<-|H]; [reflexivity|]). destruct H.
Qed.
Lemma combine_map {A B C} (f : B -> C) : forall (l : list A) (l' : list B), combine l (map f l') = map (fun '(x, y) => (x, f y)) (combine l l').
Proof. induction l as [|x l IH]; intros [|y l']; cbn; [reflexivity..|]. f_equal. apply IH. Qed.
Lemma combine_keys {A B} : forall (l : list A) (l' : list B), length l = length l' -> map fst (combine l l') = l.
Proof. induction l as [|x l IH]; intros [|y l'] H; cbn in *; try discriminate; [reflexivity|]. f_equal. apply IH. lia. Qed.
Lemma table_get text ids originals id n : lists_values text "Path" ids -> lists_values text "OriginalFileName" originals -> length ids = length originals -> NoDup ids ->
  (gget (parse_idx_table text) id = Some n <-> exists o, In (id, o) (combine ids originals) /\ path_name o = n).
Proof.
  intros H1 H2 L N. unfold parse_idx_table. rewrite (lists_findall "Path" ltac:(cbn; intuition discriminate) ltac:(cbn; intuition discriminate) _ _ H1).
  rewrite (lists_findall "OriginalFileName" ltac:(cbn; intuition discriminate) ltac:(cbn; intuition discriminate) _ _ H2).
  fold (@update pystr [] (combine ids (map path_name originals))).
  assert (K : NoDup (map fst (combine ids (map path_name originals)))) by (rewrite combine_keys; [exact N|rewrite map_length; exact L]).
  rewrite (update_get _ [] id K). cbn [gget]. rewrite combine_map in *. set (l := map (fun '(x, y) => (x, path_name y)) (combine ids originals)) in *.
  assert (G : gget l id = Some n <-> In (id, n) l) by (symmetry; apply gget_in, K). unfold l in G. rewrite in_map_iff in G.
  assert (E : (match gget l id with Some v => Some v | None => None end) = gget l id) by (destruct (gget l id); reflexivity). rewrite E. unfold l. rewrite G. split.
  - intros ([x y] & Q & I). injection Q as -> <-. eauto.
  - intros (o & I & <-). exists (id, o). auto.
Qed.

(** ** The extraction *)
Section run.
Context (read_text : bytes -> res pystr) (zip : pystr) (beside : list (res pystr)) (subfolders : list pystr) (a : archive) (k : collection).
Context (K : is_collection read_text subfolders a k).
Definition dest (n : pystr) : pystr := match gget (parse_idx_table (k_text k)) (at_name zip (parent_at n)) with Some x => x | None => [] end.
Lemma belongs_dest n name : belongs_to k n name -> gget (parse_idx_table (k_text k)) (at_name zip (parent_at n)) = Some name /\
  (exists p, parent_at n = p /\ p <> [] /\ parent_at p = k_top k) /\ name <> [] /\ name <> str ".." /\ ~ In name subfolders /\ ~ In 0 name.
Proof.
  destruct K as (K1 & K2 & K3 & K4 & K5 & K6 & K7 & K8 & K9 & K10). intros (id & file & o & -> & C1 & C2 & I & B).
  rewrite parent_of_file, name_of_folder by assumption. split; [apply (table_get _ _ _ _ _ K5 K6 K7 K8); exists o; split; [exact I|apply base_path, B]|].
  split; [eexists; split; [reflexivity|]; split; [intros F; apply app_eq_nil in F as [_ F]; destruct id; discriminate F|apply parent_of_folder; assumption]|].
  split; [intros ->; destruct B as ((B & _) & _); congruence|]. assert (Io : In o (k_originals k)) by (apply (in_combine_r (k_ids k) _ id), I).
  destruct (K10 o Io) as (name' & B' & X). pose proof (base_path _ _ B) as E1. pose proof (base_path _ _ B') as E2. rewrite E1 in E2. subst name'. exact X.
Qed.
Lemma idx_ok n name : belongs_to k n name -> idx_table read_text beside a n = Ok (Some (parse_idx_table (k_text k))).
Proof.
  intros H. destruct (belongs_dest n name H) as (_ & (p & E & N & P) & _). unfold idx_table. rewrite E. destruct p as [|c p]; [congruence|]. rewrite P.
  destruct K as (K1 & K2 & (b & K3 & K3') & K4 & _).
  assert (All : forall m, In m (files_in a (k_top k)) -> m = k_index k) by (intros m Hm; apply (files_in_iff a _ m K1 K2) in Hm as [Hm D]; apply (K4 m Hm), D).
  assert (Ne : files_in a (k_top k) <> []).
  { assert (I : In (k_index k) (map fst a)) by (destruct K3 as (be & af & -> & _); rewrite map_app; apply in_or_app; right; left; reflexivity).
    assert (I' : In (k_index k) (files_in a (k_top k))) by (apply (files_in_iff a _ _ K1 K2); split; [exact I|apply (K4 _ I); reflexivity]). intros F. rewrite F in I'. destruct I'. }
  assert (R : rbind (amember a (k_index k)) read_text = Ok (k_text k)) by (rewrite (proj2 (member_iff a _ b) K3); exact K3').
  unfold tables. generalize (@None (list (pystr * pystr))). destruct (files_in a (k_top k)) as [|x l]; [congruence|]. clear Ne. revert x All.
  induction l as [|y l IH]; intros x All o; cbn [map fold_left rbind].
  - rewrite (All x (or_introl eq_refl)), R. reflexivity.
  - rewrite (All x (or_introl eq_refl)), R. cbn [rmap]. apply (IH y). intros m Hm. apply All. right. exact Hm.
Qed.
Definition written (ms : archive) (d : folder) : folder := fold_left (fun d '(n, b) => if vk_magic b then gput d (dest n) b else d) ms d.
Lemma extract_written : forall ms t d, incl ms a -> (t = None \/ t = Some (parse_idx_table (k_text k))) ->
  extract_members read_text zip beside subfolders a ms t d = (written ms d, Ok tt).
Proof.
  induction ms as [|[n b] ms IH]; intros t d I T; cbn [extract_members written fold_left]; [reflexivity|].
  assert (I' : incl ms a) by (intros x Hx; apply I; right; exact Hx). destruct (vk_magic b) eqn:M; [|apply IH; assumption].
  pose proof K as (_ & _ & _ & _ & _ & _ & _ & _ & K9 & _). destruct (K9 n b (I _ (or_introl eq_refl)) (proj1 (measurement_iff b) M)) as (name & B).
  destruct (belongs_dest n name B) as (G & _ & N1 & N2 & N3 & N4).
  assert (E : match t with Some t => Ok (Some t) | None => idx_table read_text beside a n end = Ok (Some (parse_idx_table (k_text k)))) by (destruct T as [-> | ->]; [apply (idx_ok n name B)|reflexivity]).
  rewrite E, G. unfold open_for_writing.
  assert (X1 : existsb (zs_eqb name) ([[]; str ".."] ++ subfolders) = false).
  { apply not_true_is_false. intros F. apply existsb_exists in F as (x & F & Q). apply zs_eqb_eq in Q. subst x. destruct F as [F|[F|F]]; [congruence|congruence|exact (N3 F)]. }
  assert (X2 : existsb (Z.eqb 0) name = false).
  { apply not_true_is_false. intros F. apply existsb_exists in F as (x & F & Q). apply Z.eqb_eq in Q. subst x. exact (N4 F). }
  rewrite X1, X2. rewrite IH by auto. assert (Ed : dest n = name) by (unfold dest; rewrite G; reflexivity). rewrite Ed. reflexivity.
Qed.
Lemma written_keys : forall ms d, NoDup (map fst d) -> NoDup (map fst (written ms d)).
Proof.
  induction ms as [|[n b] ms IH]; intros d H; cbn [written fold_left]; [exact H|]. destruct (vk_magic b); [apply IH; apply gput_keys, H|apply IH, H].
Qed.
Lemma written_get : forall ms d name, incl ms a ->
  ((forall n b, In (n, b) ms -> measurement b -> ~ belongs_to k n name) -> gget (written ms d) name = gget d name) /\
  (forall before n b after, ms = before ++ (n, b) :: after -> measurement b -> belongs_to k n name -> (forall n' b', In (n', b') after -> measurement b' -> ~ belongs_to k n' name) ->
     gget (written ms d) name = Some b).
Proof.
  induction ms as [|[n b] ms IH]; intros d name I; (split; [intros N|intros be n0 b0 af E M B N]).
  - reflexivity.
  - destruct be; discriminate.
  - cbn [written fold_left]. fold (written ms). assert (I' : incl ms a) by (intros x Hx; apply I; right; exact Hx). fold (written ms (if vk_magic b then gput d (dest n) b else d)).
    rewrite (proj1 (IH _ name I')) by (intros n' b' H'; apply (N n' b'); right; exact H'). destruct (vk_magic b) eqn:M; [|reflexivity]. rewrite gget_gput.
    destruct (zs_eqb name (dest n)) eqn:Q; [|reflexivity]. apply zs_eqb_eq in Q. exfalso. pose proof K as (_ & _ & _ & _ & _ & _ & _ & _ & K9 & _). apply measurement_iff in M.
    destruct (K9 n b (I _ (or_introl eq_refl)) M) as (name' & B'). destruct (belongs_dest n name' B') as (G & _). unfold dest in Q. rewrite G in Q. subst name'. exact (N n b (or_introl eq_refl) M B').
  - assert (I' : incl ms a) by (intros x Hx; apply I; right; exact Hx). cbn [written fold_left]. fold (written ms (if vk_magic b then gput d (dest n) b else d)). destruct be as [|x be]; injection E as <- E.
    + subst b0. cbn [app] in *. subst af. rewrite (proj1 (IH _ name I') N). apply measurement_iff in M. rewrite M, gget_gput. destruct (belongs_dest n name B) as (G & _). unfold dest. rewrite G, zs_eqb_refl. reflexivity.
    + apply (proj2 (IH _ name I') be n0 b0 af E M B N).
Qed.
End run.
(** C85: of a collection with one index every measurement is written under the last component of its original path, into the target folder;
    of several with the same name the last is kept, and other files of the folder stay as they are *)
Theorem C85_cag : forall read_text zip beside subfolders (a : archive) (k : collection) (d : folder), is_collection read_text subfolders a k -> NoDup (map fst d) ->
  exists d', extract_cag read_text zip beside subfolders a d = (d', Ok tt) /\ NoDup (map fst d') /\
    forall name b, In (name, b) d' <-> last_with k a name b \/ ((forall n c, In (n, c) a -> measurement c -> ~ belongs_to k n name) /\ In (name, b) d).
Proof.
  intros rt zip be subs a k d K N. exists (written zip k a d). split; [apply (extract_written rt zip be subs a k K a None d (incl_refl a)); auto|].
  assert (N' : NoDup (map fst (written zip k a d))) by (apply written_keys, N). split; [exact N'|]. intros name b. rewrite (gget_in _ name b N').
  destruct (written_get rt zip subs a k K a d name (incl_refl a)) as [W1 W2].
  assert (D : (forall n c, In (n, c) a -> measurement c -> ~ belongs_to k n name) \/ exists before n c after, a = before ++ (n, c) :: after /\ measurement c /\ belongs_to k n name /\ forall n' b', In (n', b') after -> measurement b' -> ~ belongs_to k n' name).
  { assert (Dec : forall n c, In (n, c) a -> (measurement c /\ belongs_to k n name) \/ ~ (measurement c /\ belongs_to k n name)).
    { intros n c I. destruct (vk_magic c) eqn:M; [|right; intros [F _]; apply measurement_iff in F; congruence]. apply measurement_iff in M.
      pose proof K as (_ & _ & _ & _ & _ & _ & _ & _ & K9 & _). destruct (K9 n c I M) as (name' & B'). destruct (pystr_dec name' name) as [->|Ne]; [auto|]. right. intros [_ F].
      destruct (belongs_dest rt zip subs a k K n name F) as (G & _). destruct (belongs_dest rt zip subs a k K n name' B') as (G' & _). congruence. }
    assert (Gen : forall l, incl l a -> (forall n c, In (n, c) l -> measurement c -> ~ belongs_to k n name) \/ exists before n c after, l = before ++ (n, c) :: after /\ measurement c /\ belongs_to k n name /\ forall n' b', In (n', b') after -> measurement b' -> ~ belongs_to k n' name).
    { induction l as [|[n c] l IH]; intros I; [left; intros n c []|]. destruct IH as [IH|(bf & n1 & c1 & af & E & X)]; [intros x Hx; apply I; right; exact Hx| |].
      - destruct (Dec n c (I _ (or_introl eq_refl))) as [[M B]|F]; [right; exists [], n, c, l; auto|]. left. intros n' c' [Q|Q] M B; [injection Q as <- <-; tauto|exact (IH n' c' Q M B)].
      - right. exists ((n, c) :: bf), n1, c1, af. split; [rewrite E; reflexivity|exact X]. }
    exact (Gen a (incl_refl a)). }
  destruct D as [D|(bf & n & c & af & E & M & B & F)].
  - rewrite (W1 D), <- (gget_in d name b N). split; [auto|]. intros [(bf & n & af & E & M & B & _)|[_ H]]; [|exact H]. exfalso. apply (D n b); [rewrite E; apply in_or_app; right; left; reflexivity|exact M|exact B].
  - rewrite (W2 bf n c af E M B F). split.
    + intros Q. injection Q as <-. left. exists bf, n, af. auto.
    + intros [(bf' & n' & af' & E' & M' & B' & F')|[F' _]].
      * rewrite <- (W2 bf n c af E M B F). apply (W2 bf' n' b af' E' M' B' F').
      * exfalso. apply (F' n c); [rewrite E; apply in_or_app; right; left; reflexivity|exact M|exact B].
Qed.
Lemma last_exists rt (zip : pystr) subs (a : archive) k (K : is_collection rt subs a k) n b name : In (n, b) a -> measurement b -> belongs_to k n name -> exists c, last_with k a name c.
Proof.
  intros I M B. assert (Dec : forall n c, In (n, c) a -> (measurement c /\ belongs_to k n name) \/ ~ (measurement c /\ belongs_to k n name)).
      { intros n0 c I0. destruct (vk_magic c) eqn:M0; [|right; intros [F _]; apply measurement_iff in F; congruence]. apply measurement_iff in M0.
        pose proof K as (_ & _ & _ & _ & _ & _ & _ & _ & K9 & _). destruct (K9 n0 c I0 M0) as (name' & B'). destruct (pystr_dec name' name) as [->|Ne]; [auto|]. right. intros [_ F].
        destruct (belongs_dest rt zip subs a k K n0 name F) as (G & _). destruct (belongs_dest rt zip subs a k K n0 name' B') as (G' & _). congruence. }
      assert (Gen : forall l, incl l a -> In (n, b) l -> exists c before m after, l = before ++ (m, c) :: after /\ measurement c /\ belongs_to k m name /\ forall n' b', In (n', b') after -> measurement b' -> ~ belongs_to k n' name).
      { induction l as [|[m c] l IH] using rev_ind; intros Il Hl; [destruct Hl|]. destruct (Dec m c) as [[M1 B1]|F]; [apply Il, in_or_app; right; left; reflexivity|exists c, l, m, []; auto|].
        apply in_app_or in Hl as [Hl|[Hl|[]]]; [|injection Hl as -> ->; tauto]. destruct IH as (c1 & bf & m1 & af & E & M1 & B1 & F1); [intros x Hx; apply Il, in_or_app; auto|exact Hl|].
        exists c1, bf, m1, (af ++ [(m, c)]). split; [rewrite E, <- app_assoc; reflexivity|]. split; [exact M1|]. split; [exact B1|]. intros n' b' Hn' M' B'. apply in_app_or in Hn' as [Hn'|[Hn'|[]]]; [exact (F1 n' b' Hn' M' B')|].
        injection Hn' as -> ->. tauto. }
      destruct (Gen a (incl_refl a) I) as (c & bf & m & af & X). exists c, bf, m, af. exact X. 
Qed.
(** C85: if the names differ, no measurement is lost *)
Theorem C85_cag_all : forall read_text zip beside subfolders (a : archive) (k : collection) (d : folder), is_collection read_text subfolders a k -> NoDup (map fst d) ->
  (forall n b n' b' name, In (n, b) a -> measurement b -> belongs_to k n name -> In (n', b') a -> measurement b' -> belongs_to k n' name -> b' = b) ->
  exists d', extract_cag read_text zip beside subfolders a d = (d', Ok tt) /\
    forall n b name, In (n, b) a -> measurement b -> belongs_to k n name -> In (name, b) d'.
Proof.
  intros rt zip be subs a k d K N U. destruct (C85_cag rt zip be subs a k d K N) as (d' & E & N' & H). exists d'. split; [exact E|]. intros n b name I M B.
  assert (X : exists c, In (name, c) d').
  { destruct (gget d' name) as [c|] eqn:G; [exists c; apply gget_in; assumption|]. exfalso.
    assert (Q : exists c, last_with k a name c).
    { exact (last_exists rt zip subs a k K n b name I M B). }
    destruct Q as (c & Q). assert (Y : In (name, c) d') by (apply H; left; exact Q). apply (gget_in d' name c N') in Y. congruence. }
  destruct X as (c & X). pose proof X as X'. apply H in X as [(bf & m & af & Ea & Mc & Bc & _)|[F _]].
  - assert (c = b) by (apply (U n b m c name I M B); [rewrite Ea; apply in_or_app; right; left; reflexivity|exact Mc|exact Bc]). subst c. exact X'.
  - exfalso. exact (F n b I M B).
Qed.
(** C85: whatever is in the archive, files are only written directly into the target folder, and only contents of measurements *)
Theorem C85_cag_inside : forall read_text zip beside subfolders (a : archive) (d d' : folder) r name b,
  extract_cag read_text zip beside subfolders a d = (d', r) -> In (name, b) d' -> In (name, b) d \/
    (component name /\ name <> str ".." /\ ~ In name subfolders /\ ~ In 0 name /\ measurement b /\ exists n, In (n, b) a).
Proof.
  intros rt zip be subs a d d' r name b. unfold extract_cag.
  assert (P : forall (d : folder) (k : pystr) (v : bytes) x y, In (x, y) (gput d k v) -> (x = k /\ y = v) \/ In (x, y) d).
  { clear. induction d as [|[n c] d IH]; cbn [gput]; intros k v x y H.
    - destruct H as [H|[]]. injection H as <- <-. auto.
    - destruct (zs_eqb k n); [destruct H as [H|H]; [injection H as <- <-; auto|right; right; exact H]|]. destruct H as [H|H]; [right; left; exact H|]. destruct (IH _ _ _ _ H) as [X|X]; [auto|right; right; exact X]. }
  assert (Tn : forall text id n, gget (parse_idx_table text) id = Some n -> n = [] \/ component n).
  { intros text id n. unfold parse_idx_table.
    assert (G : forall l (t : list (pystr * pystr)), (forall x y, gget t x = Some y -> y = [] \/ component y) -> (forall x y, In (x, y) l -> y = [] \/ component y) ->
      forall x y, gget (fold_left (fun d '(k, v) => gput d k v) l t) x = Some y -> y = [] \/ component y).
    { induction l as [|[x0 y0] l IH]; intros t T L x y H; cbn [fold_left] in H; [exact (T x y H)|]. apply (IH (gput t x0 y0)) with (x := x); [|intros x1 y1 I; apply (L x1 y1); right; exact I|exact H].
      intros x1 y1. rewrite gget_gput. destruct (zs_eqb x1 x0); [intros Q; injection Q as <-; apply (L x0 y0); left; reflexivity|apply T]. }
    apply G; [discriminate|]. intros x y I. apply in_combine_r in I. apply in_map_iff in I as (o & <- & _). apply path_name_component. }
  assert (Tt : forall at_ t, idx_table rt be a at_ = Ok (Some t) -> exists text, t = parse_idx_table text).
  { assert (F : forall l o t, fold_left (fun (r : res (option (list (pystr * pystr)))) t => rbind r (fun _ => rmap (fun s => Some (parse_idx_table s)) t)) l (Ok o) = Ok (Some t) -> (exists text, t = parse_idx_table text) \/ o = Some t).
    { induction l as [|x l IH]; intros o t H; cbn [fold_left] in H; [right; apply ok_inj in H; exact H|]. cbn [rbind] in H. destruct x as [s|e].
      - cbn [rmap] in H. destruct (IH _ _ H) as [X|X]; [auto|]. left. exists s. congruence.
      - exfalso. cbn [rmap] in H. clear IH. induction l as [|y l IH]; cbn [fold_left] in H; [discriminate|]. cbn [rbind] in H. apply IH, H. }
    intros at_ t H. unfold idx_table in H. destruct (parent_at at_); apply F in H as [H|H]; auto; discriminate. }
  assert (G : forall ms t (d d' : folder), incl ms a -> (forall t', t = Some t' -> exists text, t' = parse_idx_table text) -> extract_members rt zip be subs a ms t d = (d', r) -> In (name, b) d' ->
     In (name, b) d \/ (component name /\ name <> str ".." /\ ~ In name subs /\ ~ In 0 name /\ measurement b /\ exists n, In (n, b) a)).
  { induction ms as [|[n c] ms IH]; intros t d0 d0' I T E H; cbn [extract_members] in E; [injection E as -> _; auto|].
    assert (I' : incl ms a) by (intros x Hx; apply I; right; exact Hx). destruct (vk_magic c) eqn:M; [|exact (IH t d0 d0' I' T E H)].
    destruct (match t with Some t => Ok (Some t) | None => idx_table rt be a n end) as [[t'|]|e] eqn:Et; [|injection E as -> _; auto|injection E as -> _; auto].
    assert (T' : exists text, t' = parse_idx_table text) by (destruct t as [t0|]; [apply ok_inj in Et; injection Et as ->; apply T; reflexivity|exact (Tt _ _ Et)]).
    destruct (gget t' (at_name zip (parent_at n))) as [x|] eqn:Gx; [|injection E as -> _; auto]. destruct (open_for_writing subs x) as [u|e] eqn:O; [|injection E as -> _; auto].
    destruct (IH (Some t') (gput d0 x c) d0' I') as [X|X]; [intros t0 Q; injection Q as <-; exact T'|exact E|exact H| |auto].
    apply P in X as [[-> ->]|X]; [|auto]. right. destruct T' as (text & ->). unfold open_for_writing in O.
    destruct (existsb (zs_eqb x) ([[]; str ".."] ++ subs)) eqn:Q1; [discriminate|]. destruct (existsb (Z.eqb 0) x) eqn:Q2; [discriminate|].
    assert (Nin : ~ In x ([[]; str ".."] ++ subs)) by (intros F; rewrite <- not_true_iff_false in Q1; apply Q1; apply existsb_exists; exists x; split; [exact F|apply zs_eqb_refl]).
    destruct (Tn _ _ _ Gx) as [->|C]; [exfalso; apply Nin; left; reflexivity|]. split; [exact C|]. split; [intros ->; apply Nin; right; left; reflexivity|]. split; [intros F; apply Nin; right; right; exact F|].
    split; [intros F; rewrite <- not_true_iff_false in Q2; apply Q2; apply existsb_exists; exists 0; auto|]. split; [apply measurement_iff, M|]. exists n. apply I. left. reflexivity. }
  intros E H. apply (G a None d d' (incl_refl a)); [discriminate|exact E|exact H].
Qed.
