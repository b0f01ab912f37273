(** C54 and C52 for the five formats that surfalize writes: every file it writes starts with a magic of its own format, so
    it loads under any name that no other reader claims. *)
From Coq Require Import String ZArith Bool Lia.
From Coq Require Import List.
From Verif Require Import Base ModelBytes ProofBytes ModelUnits ModelSur ModelFormats ModelSflz ModelDispatch PropsDispatch.
Import ListNotations.
Local Open Scope list_scope.

(** [b] starts with a magic registered for [f]. *)
Definition has_magic (f : format) (b : bytes) : Prop := exists m, In (m, f) readers_by_magic /\ starts_with m b.

Lemma starts_app m a b : starts_with m a -> starts_with m (a ++ b).
Proof. intros [t ->]. exists (t ++ b). now rewrite app_assoc. Qed.
Lemma rbind_inv {A B} (r : res A) (k : A -> res B) b : rbind r k = Ok b -> exists a, r = Ok a /\ k a = Ok b.
Proof. destruct r; cbn; intros H; [eauto | discriminate]. Qed.
Lemma rmap_inv {A B} (g : A -> B) (r : res A) b : rmap g r = Ok b -> exists a, r = Ok a /\ b = g a.
Proof. destruct r; cbn; intros H; [injection H as <-; eauto | discriminate]. Qed.
Lemma ok_inj {A} (a b : A) : Ok a = Ok b -> a = b.
Proof. congruence. Qed.

Lemma sur_code en s compressed t n b :
  write_entry en (sur_header s compressed t n) (E "code" (FStr 12)) = Ok b ->
  b = str (if compressed then "DSCOMPRESSED" else "DIGITAL SURF").
Proof.
  unfold sur_header. cbn [write_entry E dkey dget String.eqb Ascii.eqb Bool.eqb rbind calcsize].
  destruct en, compressed; cbn; intros H; try discriminate; injection H as <-; reflexivity.
Qed.

Lemma tmd_code magic s comment b : magic = tmd_magic ->
  write_entry Utf8 (tmd_header magic s comment) (E "header" (FStr 32)) = Ok b -> starts_with tmd_magic b.
Proof.
  intros ->. unfold tmd_header. cbn [write_entry E dkey dget String.eqb Ascii.eqb Bool.eqb rbind calcsize].
  intros H. vm_compute in H. apply ok_inj in H. subst b. apply prefixb_ok. reflexivity.
Qed.

(** Every file written by surfalize carries the magic of its format. *)
Theorem C54_written_magic : forall b,
  (forall z en t s compressed comment, write_sur z en t s compressed comment = Ok b -> has_magic Sur b) /\
  (forall en s comment, write_tmd en s comment = Ok b -> has_magic Tmd b) /\
  (forall ft en s, write_al3d ft en s = Ok b -> has_magic Al3d b) /\
  (forall scale_of s create_date mod_date, write_sdf scale_of s create_date mod_date = Ok b -> has_magic Sdf b) /\
  (forall text body header, write_sdf_ascii text body header = b -> has_magic Sdf b) /\
  (forall c cast s layers n_meta comp save_layers dt, write_sflz c cast s layers n_meta comp save_layers dt = Ok b -> has_magic Sflz b).
Proof.
  intros b. split; [|split; [|split; [|split; [|split]]]].
  - intros z en t s compressed comment H. unfold write_sur in H.
    destruct (Nat.eqb _ 0); [discriminate|].
    apply rbind_inv in H as (cb & _ & H). apply rbind_inv in H as (head & W & H).
    assert (K : starts_with (str (if compressed then "DSCOMPRESSED" else "DIGITAL SURF")) head).
    { unfold sur_layout in W. cbn [write_layout] in W. apply rbind_inv in W as (c0 & W1 & W).
      apply rmap_inv in W as (rest & _ & ->). apply sur_code in W1. subst c0. now exists rest. }
    exists (str (if compressed then "DSCOMPRESSED" else "DIGITAL SURF")).
    split; [destruct compressed; vm_compute; tauto|]. destruct compressed.
    + apply rbind_inv in H as (x & _ & H). apply rbind_inv in H as (y & _ & H). apply rbind_inv in H as (u & _ & H).
      apply ok_inj in H. rewrite <- H. apply starts_app, K.
    + apply ok_inj in H. rewrite <- H. apply starts_app, K.
  - intros en s comment H. unfold write_tmd in H. destruct (Nat.ltb _ _); [discriminate|].
    apply rbind_inv in H as (magic & D & H). apply rbind_inv in H as (head & W & H).
    exists tmd_magic. split; [vm_compute; tauto|]. apply ok_inj in H. rewrite <- H. apply starts_app.
    unfold tmd_layout in W. cbn [write_layout] in W. apply rbind_inv in W as (c0 & W1 & W).
    apply rmap_inv in W as (rest & _ & ->). apply starts_app.
    eapply tmd_code; [|exact W1]. destruct en; vm_compute in D; injection D as <-; reflexivity.
  - intros ft en s H. unfold write_al3d in H. apply rbind_inv in H as (tags & _ & H). cbv zeta in H. apply ok_inj in H.
    exists al3d_magic. split; [vm_compute; tauto|]. rewrite <- H. apply starts_app. now exists tags.
  - intros scale_of s cd md H. unfold write_sdf in H. destruct (Nat.eqb _ 0); [discriminate|].
    apply rbind_inv in H as (head & _ & H). apply ok_inj in H. exists sdf_magic_binary. split; [vm_compute; tauto|].
    rewrite <- H. eexists. reflexivity.
  - intros text body header <-. exists sdf_magic_ascii. split; [vm_compute; tauto|].
    unfold write_sdf_ascii. eexists. reflexivity.
  - intros c cast s layers n_meta comp save_layers dt H. unfold write_sflz in H. destruct (_ && _)%bool; [discriminate|].
    cbv zeta in H. apply rbind_inv in H as (head & _ & H). apply rbind_inv in H as (lh & _ & H).
    apply rbind_inv in H as (rest & _ & H). apply ok_inj in H. exists (str "SFLZ"). split; [vm_compute; tauto|].
    rewrite <- H. eexists. reflexivity.
Qed.

(** So a file written in format [f] loads by the reader of [f] under every name whose suffix is not registered, and under
    every name whose own reader rejects it; a warning reports the detected format. *)
Theorem C52_renamed_file : forall X (readers : format -> reader X) p w b f e, files w p = Some b -> has_magic f b ->
  first_error X readers p None b e ->
  fst (fst (load X readers (Path p) None w)) = fst (readers f b 0%nat) /\
  (forall g, In g (snd (fst (load X readers (Path p) None w))) -> g = mkWarn (path_suffix p) f).
Proof.
  intros X readers p w b f e F (m & I & S) E. rewrite (C52_by_magic X readers p None w b e m f F E I S).
  split; [reflexivity|]. cbn [fst snd]. unfold magic_warning. rewrite (declared_path p None).
  destruct (suffix_attr f) as [a|]; [destruct (zs_eqb a _)|]; cbn; intros g G; intuition.
Qed.
