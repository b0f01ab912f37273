(** C44: binary layouts round-trip. *)
From Coq Require Import String Ascii ZArith Lia Bool.
From Coq Require Import List.
From Flocq Require Import IEEE754.BinarySingleNaN IEEE754.Binary IEEE754.Bits.
From Verif Require Import Base ModelBytes SpecBytes ProofBytes.
Import ListNotations.
Local Open Scope Z_scope.

(** names and sizes of a layout *)
Definition names (l : list entry) : list string :=
  concat (map (fun e => match e with Reserved _ => [] | Entry n _ => [n] end) l).
Definition esize (e : entry) : nat :=
  match e with
  | Reserved n => n
  | Entry _ (Fixed f) => calcsize f
  | Entry _ (Convert f _ _) => calcsize f
  | Entry _ (FromPrev _) => 0
  end.
Definition lsize (l : list entry) : nat := list_sum (map esize l).
Lemma lsize_cons e l : lsize (e :: l) = (esize e + lsize l)%nat. Proof. reflexivity. Qed.
Definition fixed_entry (e : entry) : Prop := match e with Entry _ (FromPrev _) => False | _ => True end.

Lemma dget_dset_same d k v : dget (dset d k v) k = Some v.
Proof.
  induction d as [|[k' x] d IH]; cbn; [rewrite String.eqb_refl; reflexivity|].
  destruct (String.eqb k k') eqn:E; cbn; [rewrite String.eqb_refl|rewrite E]; auto.
Qed.
Lemma dget_dset_other d k k' v : k <> k' -> dget (dset d k v) k' = dget d k'.
Proof.
  intros Hk. induction d as [|[k'' x] d IH]; cbn.
  - destruct (String.eqb_spec k' k); [congruence|reflexivity].
  - destruct (String.eqb_spec k k''); cbn.
    + subst. destruct (String.eqb_spec k' k''); [congruence|reflexivity].
    + destruct (String.eqb k' k''); auto.
Qed.

Lemma reads_back_fun w r f v v1 v2 : reads_back w r f v v1 -> reads_back w r f v v2 -> v1 = v2.
Proof.
  intros H1 H2.
  assert (K : forall f v v1 s, reads_back w r f v v1 -> v = VStr s -> v1 = VStr (rstrip blank0 s)).
  { intros f0 v0 u s H E. destruct H; try discriminate; injection E as <-.
    - rewrite <- (app_nil_r s0) at 2. rewrite rstrip_keep; auto. destruct H0 as [_ H0]. intros s' c Ec.
      destruct (H0 s' c Ec). unfold blank0. destruct (Z.eqb_spec c 32); [lia|]. destruct (Z.eqb_spec c 0); [lia|]. reflexivity.
    - rewrite rstrip_keep; auto.
      + eapply Forall_impl; [|exact H4]. intros c [->| ->]; reflexivity.
      + intros s' c Ec. destruct (H5 s' c Ec). unfold blank0. destruct (Z.eqb_spec c 32); [lia|]. destruct (Z.eqb_spec c 0); [lia|]. reflexivity. }
  destruct v as [z|x|b|s|b]; try (inversion H1; subst; inversion H2; subst; congruence).
  rewrite (K _ _ _ s H1 eq_refl), (K _ _ _ s H2 eq_refl). reflexivity.
Qed.

(** A layout of plain and reserved fields with distinct names: whatever it can store is read back, from any
    position of any file, followed by anything. *)
Theorem C44_roundtrip : forall w r d l,
  (forall e, In e l -> match e with Entry _ (Fixed _) => True | Reserved _ => True | _ => False end) ->
  NoDup (names l) ->
  (forall name f, In (Entry name (Fixed f)) l -> exists v v', dget d name = Some v /\ reads_back w r f v v') ->
  exists b d', write_layout w d l = Ok b /\ length b = lsize l /\
    (forall pre rest, read_layout r l {| contents := pre ++ b ++ rest; pos := length pre |}
                      = Ok (d', {| contents := pre ++ b ++ rest; pos := length pre + length b |})) /\
    (forall name f v v', In (Entry name (Fixed f)) l -> dget d name = Some v -> reads_back w r f v v' ->
        dget d' name = Some v').
Proof.
  intros w r d l Hf Hnd Hst.
  assert (G : forall acc, exists fin, storable w r d acc l fin (lsize l) /\
     (forall name f v v', In (Entry name (Fixed f)) l -> dget d name = Some v -> reads_back w r f v v' ->
        dget fin name = Some v') /\
     (forall k, ~ In k (names l) -> dget fin k = dget acc k)).
  { induction l as [|e l IH]; intros acc.
    - exists acc. repeat split; [constructor|intros ? ? ? ? []].
    - assert (Hf' : forall e, In e l -> match e with Entry _ (Fixed _) => True | Reserved _ => True | _ => False end)
        by (intros; apply Hf; right; auto).
      assert (Hst' : forall name f, In (Entry name (Fixed f)) l -> exists v v', dget d name = Some v /\ reads_back w r f v v')
        by (intros; apply Hst; right; auto).
      specialize (Hf e (or_introl eq_refl)). destruct e as [n|name [f|p|f rd wr]]; try contradiction.
      + destruct (IH Hf' Hnd Hst' acc) as (fin & S1 & S2 & S3). exists fin. repeat split.
        * apply st_reserved. exact S1.
        * intros name f v v' [E|Hin]; [discriminate|]. eauto.
        * exact S3.
      + cbn [names concat map app] in Hnd. inversion Hnd as [|? ? Hni Hnd']; subst.
        destruct (Hst name f (or_introl eq_refl)) as (v & v' & Hv & Hrb).
        destruct (IH Hf' Hnd' Hst' (dset acc name v')) as (fin & S1 & S2 & S3). exists fin. repeat split.
        * rewrite lsize_cons. cbn [esize]. eapply st_fixed; eauto.
        * intros name' g u u' [E|Hin] Hu Hrb'.
          -- injection E as <- <-. assert (u = v) by congruence. subst u.
             rewrite (reads_back_fun w r f v u' v' Hrb' Hrb). rewrite S3 by exact Hni. apply dget_dset_same.
          -- eauto.
        * intros k Hk. cbn [names concat map app] in Hk. rewrite S3 by (intros H; apply Hk; right; exact H).
          apply dget_dset_other. intros ->. apply Hk. left; reflexivity. }
  destruct (G []) as (fin & S1 & S2 & _). destruct (layout_roundtrip w r d [] l fin _ S1) as (b & B1 & B2 & B3).
  exists b, fin. repeat split; auto. intros pre rest. unfold read_layout.
  change {| contents := pre ++ b ++ rest; pos := length pre |} with (at_ pre (b ++ rest)). rewrite B3.
  unfold at_. rewrite <- app_assoc, app_length. reflexivity.
Qed.

(** Every byte string written by a layout of fixed-size fields has exactly the size of the layout. *)
Lemma rbind_ok {A B} (x : res A) (k : A -> res B) b : rbind x k = Ok b -> exists a, x = Ok a /\ k a = Ok b.
Proof. destruct x; cbn; [eauto|discriminate]. Qed.
Lemma rmap_ok {A B} (f : A -> B) (x : res A) b : rmap f x = Ok b -> exists a, x = Ok a /\ b = f a.
Proof. destruct x; cbn; [|discriminate]. intros H. injection H as <-. eauto. Qed.
Lemma pack_length f v b : pack f v = Ok b -> length b = calcsize f.
Proof.
  destruct f; cbn [pack calcsize].
  - destruct (int_of_val v) as [z|]; [|discriminate]. destruct (in_range _ _ _); [|discriminate].
    intros H. injection H as <-. apply le_length.
  - intros H. apply rbind_ok in H as (x & _ & H). destruct (_ && _); [discriminate|]. injection H as <-. reflexivity.
  - intros H. apply rbind_ok in H as (x & _ & H). injection H as <-. reflexivity.
  - intros H. injection H as <-. reflexivity.
  - destruct v; try discriminate. intros H. injection H as <-. rewrite app_length, firstn_length, repeat_length. lia.
Qed.
Lemma write_entry_length w d e b : fixed_entry e -> write_entry w d e = Ok b -> length b = esize e.
Proof.
  destruct e as [n|name [f|p|f rd wr]]; cbn [write_entry esize fixed_entry]; intros Hf H.
  - injection H as <-. apply repeat_length.
  - cbn [rbind] in H. apply rbind_ok in H as (v & _ & H). apply rbind_ok in H as (v' & _ & H). eapply pack_length; eauto.
  - contradiction.
  - apply rbind_ok in H as (v & _ & H). apply rbind_ok in H as (v' & _ & H). eapply pack_length; eauto.
Qed.
Theorem C44_size : forall w d l b, Forall fixed_entry l -> write_layout w d l = Ok b -> length b = lsize l.
Proof.
  intros w d l. induction l as [|e l IH]; intros b Hf H; cbn [write_layout] in H.
  - injection H as <-. reflexivity.
  - inversion Hf; subst. apply rbind_ok in H as (be & He & H). apply rmap_ok in H as (bl & Hl & ->).
    rewrite app_length, lsize_cons. rewrite <- (IH bl) by auto.
    rewrite (write_entry_length w d e be) by auto. reflexivity.
Qed.

(** Nothing that does not fit an integer field is ever stored: if the header was written, every integer was in the
    range of its field. *)
Theorem C44_int_range_partial : forall w d l b name s n, write_layout w d l = Ok b ->
  In (Entry name (Fixed (FInt s n))) l ->
  exists z, int_fits s n z /\ (dget d name = Some (VInt z) \/ exists c, dget d name = Some (VBool c) /\ z = Z.b2z c).
Proof.
  intros w d l. induction l as [|e l IH]; intros b name s n H Hin; [destruct Hin|].
  cbn [write_layout] in H. apply rbind_ok in H as (be & He & H). apply rmap_ok in H as (bl & Hl & ->).
  destruct Hin as [->|Hin]; [|eauto].
  cbn [write_entry rbind] in He. unfold dkey in He. destruct (dget d name) as [v|] eqn:Ev; [|discriminate].
  cbn [rbind] in He. destruct v as [z|x|c|t|t]; cbn [rbind pack int_of_val] in He; try discriminate.
  - destruct (in_range s n z) eqn:Er; [|discriminate]. apply in_range_spec in Er. eauto.
  - destruct (in_range s n (Z.b2z c)) eqn:Er; [|discriminate]. apply in_range_spec in Er. eauto 6.
  - apply rbind_ok in He as (v' & Hv & He). apply rmap_ok in Hv as (raw & _ & ->). discriminate.
Qed.
(** ... and no finite number was silently turned into an infinite single. *)
Theorem C44_single_range : forall w d l b name x, write_layout w d l = Ok b ->
  In (Entry name (Fixed FF32)) l -> dget d name = Some (VFloat x) -> Binary.is_finite 53 1024 x = true ->
  Binary.is_finite 24 128 (f32_of_f64 x) = true.
Proof.
  intros w d l. induction l as [|e l IH]; intros b name x H Hin Hx Hf; [destruct Hin|].
  cbn [write_layout] in H. apply rbind_ok in H as (be & He & H). apply rmap_ok in H as (bl & Hl & ->).
  destruct Hin as [->|Hin]; [|eauto].
  cbn [write_entry rbind] in He. unfold dkey in He. rewrite Hx in He. cbn [rbind pack float_of_val] in He.
  rewrite Hf in He. destruct (Binary.is_finite 24 128 (f32_of_f64 x)); [reflexivity|discriminate].
Qed.

(** Strings are different: one that does not fit is cut silently, ... *)
Theorem C44_string_truncation_refuted : exists d l b d',
  write_layout Utf8 d l = Ok b /\ dget d "unit" = Some (VStr (str "micrometer")) /\
  read_layout Utf8 l {| contents := b; pos := 0 |} = Ok (d', {| contents := b; pos := 5 |}) /\
  dget d' "unit" = Some (VStr (str "micro")).
Proof.
  exists [("unit"%string, VStr (str "micrometer"))], [Entry "unit" (Fixed (FStr 5))]. eexists. eexists.
  repeat split; vm_compute; reflexivity.
Qed.
(** ... possibly inside a character, so that the written header cannot be read at all. *)
Theorem C44_string_unreadable_refuted : exists d l b,
  write_layout Utf8 d l = Ok b /\ read_layout Utf8 l {| contents := b; pos := 0 |} = Err UnicodeError.
Proof.
  exists [("unit"%string, VStr [97; 181; 181])], [Entry "unit" (Fixed (FStr 4))]. eexists.
  repeat split; vm_compute; reflexivity.
Qed.

(** Reading a truncated header fails: after a successful read of a layout that ends in a real field, the position is
    the size of the layout further and still inside the file. *)
Lemma fread_spec n h b h' : fread n h = (b, h') ->
  contents h' = contents h /\ pos h' = (pos h + length b)%nat /\ length b = Nat.min n (length (contents h) - pos h).
Proof.
  unfold fread. intros H. injection H as <- <-. cbn. repeat split; auto.
  rewrite firstn_length, skipn_length. reflexivity.
Qed.
Lemma unpack_length f b v : unpack f b = Ok v -> length b = calcsize f.
Proof. unfold unpack. destruct (Nat.eqb_spec (length b) (calcsize f)); [auto|discriminate]. Qed.
Lemma read_entry_pos r e d h d' h' : fixed_entry e -> read_entry r e d h = Ok (d', h') ->
  contents h' = contents h /\ pos h' = (pos h + esize e)%nat /\
  (match e with Reserved _ => True | _ => (0 < esize e)%nat -> (pos h' <= length (contents h))%nat end).
Proof.
  destruct e as [n|name [f|p|f rd wr]]; cbn [read_entry esize fixed_entry]; intros Hf H; try contradiction.
  - injection H as <- <-. auto.
  - cbn [rbind] in H. apply rmap_ok in H as ([v h1] & H & E). injection E as -> ->.
    unfold read_value in H. destruct (fread (calcsize f) h) as [b h2] eqn:Er. apply fread_spec in Er as (E1 & E2 & E3).
    apply rbind_ok in H as (u & Hu & H). apply unpack_length in Hu.
    assert (h2 = h1) by (destruct u; try congruence; apply rmap_ok in H as (? & _ & H); congruence). subst h2.
    repeat split; auto; lia.
  - destruct (fread (calcsize f) h) as [b h2] eqn:Er. apply fread_spec in Er as (E1 & E2 & E3).
    apply rbind_ok in H as (u & Hu & H). apply unpack_length in Hu. apply rmap_ok in H as (? & _ & H).
    injection H as -> ->. repeat split; auto; lia.
Qed.
Lemma read_layout_pos r l : forall d h d' h', Forall fixed_entry l -> read_layout_from r l d h = Ok (d', h') ->
  contents h' = contents h /\ pos h' = (pos h + lsize l)%nat.
Proof.
  induction l as [|e l IH]; intros d h d' h' Hf H; cbn [read_layout_from] in H.
  - injection H as <- <-. unfold lsize. cbn. auto.
  - inversion Hf; subst. apply rbind_ok in H as ([d1 h1] & H1 & H).
    apply read_entry_pos in H1 as (A1 & A2 & _); auto. apply IH in H as (B1 & B2); auto.
    rewrite lsize_cons. split; [congruence|lia].
Qed.
Theorem C44_truncated_header : forall r l name f d d' h h',
  Forall fixed_entry l -> (0 < calcsize f)%nat ->
  read_layout_from r (l ++ [Entry name (Fixed f)]) d h = Ok (d', h') ->
  contents h' = contents h /\ pos h' = (pos h + lsize l + calcsize f)%nat /\ (pos h' <= length (contents h))%nat.
Proof.
  intros r l name f. induction l as [|e l IH]; intros d d' h h' Hf Hs H; cbn [read_layout_from app] in H.
  - apply rbind_ok in H as ([d1 h1] & H1 & H). injection H as <- <-.
    apply read_entry_pos in H1 as (A1 & A2 & A3); [|exact I]. cbn [esize] in A2, A3. unfold lsize; cbn.
    repeat split; auto; lia.
  - inversion Hf; subst. apply rbind_ok in H as ([d1 h1] & H1 & H).
    apply read_entry_pos in H1 as (A1 & A2 & _); auto. apply IH in H as (B1 & B2 & B3); auto.
    rewrite lsize_cons. repeat split; [congruence|lia|congruence].
Qed.

(** non-vacuity: a header with a negative integer, a double, a flag and a micro sign *)
Theorem C44_example :
  let l := [Entry "n" (Fixed fmt_h); Reserved 3; Entry "step" (Fixed FF64); Entry "unit" (Fixed (FStr 16));
            Entry "scaled" (Fixed FBool)] in
  let d := [("n"%string, VInt (-2)); ("step"%string, VFloat (b64_of_bits 4602678819172646912));
            ("unit"%string, VStr [181; 109]); ("scaled"%string, VBool true)] in
  exists b h, write_layout Utf8 d l = Ok b /\ length b = 30%nat /\
    read_layout Auto l {| contents := b; pos := 0 |} = Ok (d, h).
Proof. eexists. eexists. repeat split; vm_compute; reflexivity. Qed.
