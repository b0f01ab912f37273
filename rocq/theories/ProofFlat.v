(** xml_to_flat_dict: every name has its last text. *)
From Coq Require Import String Ascii ZArith Lia Bool.
From Coq Require Import List.
From Verif Require Import Base ModelBytes ModelUnits ModelSur ModelFormats ModelReaders ModelGwy ModelZip SpecReaders SpecZip ProofBytes PropsMagic PropsLayout ProofReaders ProofZip.
Import ListNotations.
Local Open Scope list_scope.

Lemma elem_induction (P : elem -> Prop) : (forall t x kids, Forall P kids -> P (Elem t x kids)) -> forall e, P e.
Proof.
  intros H. fix IH 1. intros [t x kids]. apply H. induction kids as [|c kids IHk]; constructor; [apply IH|exact IHk].
Qed.
Lemma gget_gput {A} (d : list (pystr * A)) k v k' : gget (gput d k v) k' = if zs_eqb k' k then Some v else gget d k'.
Proof.
  induction d as [|[n x] d IH]; cbn [gput gget]; [reflexivity|]. destruct (zs_eqb k n) eqn:E; cbn [gget].
  - apply zs_eqb_eq in E. subst n. destruct (zs_eqb k' k); reflexivity.
  - rewrite IH. destruct (zs_eqb k' n) eqn:F; [|reflexivity]. destruct (zs_eqb k' k) eqn:G; [|reflexivity].
    apply zs_eqb_eq in F, G. subst. rewrite zs_eqb_refl in E. discriminate.
Qed.
Lemma gput_keys {A} (d : list (pystr * A)) k v : NoDup (map fst d) -> NoDup (map fst (gput d k v)) /\ forall n, In n (map fst (gput d k v)) -> n = k \/ In n (map fst d).
Proof.
  induction d as [|[n x] d IH]; cbn [gput map fst]; intros H.
  - split; [constructor; [intros []|constructor]|]. intros m [<-|[]]. auto.
  - inversion H as [|? ? H1 H2]; subst. destruct (zs_eqb k n) eqn:E; cbn [map fst].
    + apply zs_eqb_eq in E. subst n. split; [exact H|]. intros m [<-|Hm]; auto. right. right. exact Hm.
    + destruct (IH H2) as [I1 I2]. split.
      * constructor; [|exact I1]. intros F. apply I2 in F as [->|F]; [rewrite zs_eqb_refl in E; discriminate|contradiction].
      * intros m [<-|Hm]; [right; left; reflexivity|]. destruct (I2 m Hm) as [->|G]; [auto|right; right; exact G].
Qed.
Lemma gget_none {A} (d : list (pystr * A)) k : ~ In k (map fst d) -> gget d k = None.
Proof. induction d as [|[n x] d IH]; cbn; intros H; [reflexivity|]. destruct (zs_eqb k n) eqn:E; [apply zs_eqb_eq in E; subst; exfalso; auto|auto]. Qed.
Lemma update_get {A} : forall (d' d : list (pystr * A)) k, NoDup (map fst d') -> gget (update d d') k = match gget d' k with Some v => Some v | None => gget d k end.
Proof.
  induction d' as [|[n v] d' IH]; intros d k H; [reflexivity|]. inversion H as [|? ? H1 H2]; subst. unfold update in *. cbn [fold_left gget].
  rewrite (IH _ _ H2), gget_gput. destruct (zs_eqb k n) eqn:E; [|reflexivity]. apply zs_eqb_eq in E. subst n. rewrite (gget_none d' k H1). reflexivity.
Qed.
Lemma update_keys {A} : forall (d' d : list (pystr * A)), NoDup (map fst d) -> NoDup (map fst (update d d')).
Proof. induction d' as [|[n v] d' IH]; intros d H; [exact H|]. unfold update in *. cbn [fold_left]. apply IH, gput_keys, H. Qed.
Lemma flat_dict_keys e : forall key, NoDup (map fst (flat_dict e key)).
Proof.
  destruct e as [t x kids]. intros key. cbn [flat_dict].
  assert (G : forall kids (d : list (pystr * pystr)), NoDup (map fst d) -> NoDup (map fst (fold_left (fun d c => update d (flat_dict c (key ++ etag c))) kids d))).
  { clear. induction kids as [|c kids IH]; intros d H; [exact H|]. cbn [fold_left]. apply IH, update_keys, H. }
  apply G. destruct x as [t'|]; [|constructor]. destruct (strip t'); [constructor|]. constructor; [intros []|constructor].
Qed.
Lemma flat_snoc t x kids c key : flat_dict (Elem t x (kids ++ [c])) key = update (flat_dict (Elem t x kids) key) (flat_dict c (key ++ etag c)).
Proof. cbn [flat_dict]. rewrite fold_left_app. reflexivity. Qed.
(** the texts of an element, with its last child apart *)
Lemma leads_snoc t x kids c tags pos d :
  leads (Elem t x (kids ++ [c])) tags pos d <->
  (pos = [] /\ tags = [] /\ d = Elem t x (kids ++ [c])) \/
  (exists i pos' tags' y, pos = i :: pos' /\ tags = etag y :: tags' /\ nth_error kids i = Some y /\ leads y tags' pos' d) \/
  (exists pos' tags', pos = length kids :: pos' /\ tags = etag c :: tags' /\ leads c tags' pos' d).
Proof.
  split.
  - intros H. inversion H as [|? y i tags' pos' ? N L]; subst; [auto|]. right. cbn [ekids] in N.
    destruct (Nat.lt_ge_cases i (length kids)) as [Li|Li].
    + left. rewrite nth_error_app1 in N by exact Li. exists i, pos', tags', y. auto.
    + right. rewrite nth_error_app2 in N by exact Li. destruct (i - length kids)%nat as [|[|k]] eqn:E; cbn in N; try discriminate. injection N as <-.
      assert (i = length kids) by lia. subst i. exists pos', tags'. auto.
  - intros [(-> & -> & ->)|[(i & pos' & tags' & y & -> & -> & N & L)|(pos' & tags' & -> & -> & L)]]; [constructor|econstructor; [|exact L]..]; cbn [ekids].
    + rewrite nth_error_app1; [exact N|]. apply nth_error_Some. congruence.
    + rewrite nth_error_app2, Nat.sub_diag by lia. reflexivity.
Qed.
Lemma text_snoc t x kids c k pos s :
  text_of (Elem t x (kids ++ [c])) k pos s <->
  (text_of (Elem t x kids) k pos s /\ (forall i p, pos = i :: p -> (i < length kids)%nat)) \/
  (exists pos' k', pos = length kids :: pos' /\ k = etag c ++ k' /\ text_of c k' pos' s).
Proof.
  unfold text_of. split.
  - intros (tags & d & u & L & E & Ht & Tr). apply leads_snoc in L as [(-> & -> & ->)|[(i & pos' & tags' & y & -> & -> & N & L)|(pos' & tags' & -> & -> & L)]].
    + left. split; [|discriminate]. exists [], (Elem t x kids), u. split; [constructor|]. auto.
    + left. assert (Li : (i < length kids)%nat) by (apply nth_error_Some; congruence). split; [|intros i' p Ei; injection Ei as <- _; exact Li].
      exists (etag y :: tags'), d, u. split; [econstructor; eassumption|]. auto.
    + right. exists pos', (concat tags'). split; [reflexivity|]. split; [symmetry; exact E|]. exists tags', d, u. auto.
  - intros [[(tags & d & u & L & E & Ht & Tr) B]|(pos' & k' & -> & -> & tags & d & u & L & E & Ht & Tr)].
    + inversion L as [|? y i tags' pos' ? N L']; subst.
      * exists [], (Elem t x (kids ++ [c])), u. split; [constructor|]. auto.
      * exists (etag y :: tags'), d, u. split; [|auto]. apply leads_snoc. right. left. exists i, pos', tags', y. auto.
    + exists (etag c :: tags), d, u. split; [|cbn; subst; auto]. apply leads_snoc. right. right. exists pos', tags. auto.
Qed.
Lemma text_bound t x kids k pos s i p : text_of (Elem t x kids) k pos s -> pos = i :: p -> (i < length kids)%nat.
Proof. intros (tags & d & u & L & _) ->. inversion L; subst. apply nth_error_Some. cbn [ekids] in *. congruence. Qed.
Definition flat_ok (e : elem) : Prop := forall key k,
  match gget (flat_dict e key) k with
  | Some s => exists k', k = key ++ k' /\ last_text e k' s
  | None => forall k' pos s, k = key ++ k' -> ~ text_of e k' pos s
  end.
Lemma flat_correct e : flat_ok e.
Proof.
  apply elem_induction. clear e. intros t x kids. induction kids as [|c kids IH] using rev_ind; intros Hk key k.
  - cbn [flat_dict fold_left].
    assert (U : forall k' pos s, text_of (Elem t x []) k' pos s <-> pos = [] /\ k' = [] /\ exists u, x = Some u /\ trimmed u s).
    { intros k' pos s. split.
      - intros (tags & d & u & L & E & Ht & Tr). inversion L as [|? y i tags' pos' ? N L']; subst; [cbn in *; eauto|]. destruct i; discriminate.
      - intros (-> & -> & u & -> & Tr). exists [], (Elem t (Some u) []), u. split; [constructor|]. auto. }
    destruct x as [u|].
    + destruct (strip u) as [|c s] eqn:S.
      * cbn [gget]. intros k' pos s _ F. apply U in F as (_ & _ & v & E & Tr). injection E as <-. apply strip_trimmed in Tr as [Tr N]. congruence.
      * cbn [gget]. assert (Tr : trimmed u (c :: s)) by (apply strip_trimmed; split; [exact S|discriminate]). destruct (zs_eqb k key) eqn:Z.
        -- apply zs_eqb_eq in Z. subst k. exists []. split; [rewrite app_nil_r; reflexivity|]. exists []. split; [apply U; eauto|].
           intros pos' s' F. apply U in F as (-> & _). auto.
        -- intros k' pos s' -> F. apply U in F as (_ & -> & _). rewrite app_nil_r, zs_eqb_refl in Z. discriminate.
    + cbn [gget]. intros k' pos s _ F. apply U in F as (_ & _ & v & E & _). discriminate.
  - apply Forall_app in Hk as [Hk Hc]. inversion Hc as [|? ? Hc1 _]; subst. rewrite flat_snoc, update_get by apply flat_dict_keys.
    pose proof (Hc1 (key ++ etag c) k) as Gc. destruct (gget (flat_dict c (key ++ etag c)) k) as [s|].
    + destruct Gc as (k' & -> & pos & T & M). exists (etag c ++ k'). split; [rewrite app_assoc; reflexivity|]. exists (length kids :: pos). split.
      * apply text_snoc. right. eauto.
      * intros pos' s' F. apply text_snoc in F as [[F B]|(pos'' & k'' & -> & E & F)].
        -- right. destruct pos' as [|i p]; [constructor|]. apply earlier_before. exact (B _ _ eq_refl).
        -- apply app_inv_head in E. subst k''. destruct (M _ _ F) as [->|G]; [auto|right; apply earlier_within, G].
    + pose proof (IH Hk key k) as Gk. destruct (gget (flat_dict (Elem t x kids) key) k) as [s|].
      * destruct Gk as (k' & -> & pos & T & M). exists k'. split; [reflexivity|]. exists pos. split.
        -- apply text_snoc. left. split; [exact T|]. intros i p E. exact (text_bound _ _ _ _ _ _ _ _ T E).
        -- intros pos' s' F. apply text_snoc in F as [[F _]|(pos'' & k'' & -> & E & F)]; [exact (M _ _ F)|]. exfalso. subst k'.
           exact (Gc k'' pos'' s' (app_assoc _ _ _) F).
      * intros k' pos s -> F. apply text_snoc in F as [[F _]|(pos'' & k'' & -> & E & F)]; [exact (Gk _ _ _ eq_refl F)|]. subst k'. exact (Gc k'' pos'' s (app_assoc _ _ _) F).
Qed.
Lemma last_unique e k s s' : last_text e k s -> last_text e k s' -> s = s'.
Proof.
  intros (pos & T & M) (pos' & T' & M').
  assert (E : pos = pos').
  { destruct (M _ _ T') as [->|G]; [reflexivity|]. destruct (M' _ _ T) as [->|G']; [reflexivity|]. exfalso. exact (earlier_asym _ _ G G'). }
  subst pos'. destruct T as (tags & c & t & L & _ & Ht & Tr). destruct T' as (tags' & c' & t' & L' & _ & Ht' & Tr').
  destruct (leads_unique _ _ _ _ _ _ L L') as [-> _]. apply strip_trimmed in Tr as [<- _]. apply strip_trimmed in Tr' as [<- _]. congruence.
Qed.
Lemma flat_get e k s : gget (flat_dict e []) k = Some s <-> last_text e k s.
Proof.
  pose proof (flat_correct e [] k) as H. destruct (gget (flat_dict e []) k) as [s'|].
  - destruct H as (k' & -> & H). cbn [app]. split; [intros E; injection E as <-; exact H|]. intros F. f_equal. exact (last_unique _ _ _ _ H F).
  - split; [discriminate|]. intros (pos & F & _). exfalso. exact (H k pos s eq_refl F).
Qed.
