(** C79: the encoding the caller names decides how texts are decoded and nothing else. *)
From Coq Require Import String Ascii ZArith Lia Bool.
From Coq Require Import List.
From Flocq Require Import IEEE754.BinarySingleNaN IEEE754.Binary IEEE754.Bits.
From Verif Require Import Base ModelBytes ModelSur ModelFormats ModelReaders ModelVk ModelDat SpecReaders ProofBytes ProofReaders PropsMagic PropsLayout PropsReaders PropsNms PropsVk ProofDat PropsVkValue ExamplesReaders.
Import ListNotations.
Local Open Scope Z_scope.

(** The surface does not depend on it: two calls that both return give the same heights and steps, whatever encodings (and image
    settings) they name. *)
Theorem C79_same_surface : forall pd pd' oi oi' en en' im im' (b : bytes) s s' l l', is_file b ->
  (read_plu pd en im (opened b) = Ok (s, l) -> read_plu pd' en' im' (opened b) = Ok (s', l') -> s = s') /\
  (read_nms pd en im (opened b) = Ok (s, l) -> read_nms pd' en' im' (opened b) = Ok (s', l') -> s = s') /\
  (read_os3d pd oi en im (opened b) = Ok (s, l) -> read_os3d pd' oi' en' im' (opened b) = Ok (s', l') -> s = s') /\
  (read_zmg en (opened b) = Ok s -> read_zmg en' (opened b) = Ok s' -> s = s') /\
  (read_vk4 en im (opened b) = Ok (s, l) -> read_vk4 en' im' (opened b) = Ok (s', l') -> s = s') /\
  (read_dat en im (opened b) = Ok (s, l) -> read_dat en' im' (opened b) = Ok (s', l') -> s = s').
Proof.
  intros pd pd' oi oi' en en' im im' b s s' l l' Hf.
  split; [intros H1 H2; apply plu_inv in H1 as (_ & _ & -> & _), H2 as (_ & _ & -> & _); auto|].
  split; [intros H1 H2; apply nms_inv in H1 as (_ & -> & _), H2 as (_ & -> & _); auto|].
  split; [intros H1 H2; apply os3d_inv in H1 as (_ & -> & _), H2 as (_ & -> & _); auto|].
  split; [intros H1 H2; apply zmg_iff in H1 as (_ & ->), H2 as (_ & ->); auto|].
  split; [intros H1 H2; apply vk4_iff in H1 as (_ & -> & _), H2 as (_ & -> & _); auto|].
  intros H1 H2; apply dat_iff in H1 as (_ & _ & -> & _), H2 as (_ & _ & -> & _); auto.
Qed.
(** latin-1 decodes every text: a VK4 file some encoding reads is read with latin-1 as well, with the same surface and layers *)
Lemma latin1_string en b p h : vk_read_string en {| contents := b; pos := p |} = Ok h -> vk_read_string Latin1 {| contents := b; pos := p |} = Ok h.
Proof.
  unfold vk_read_string. destruct (fread 4 _) as [n h1]. intros H. apply rbind_ok in H as (v & Hv & H). rewrite Hv. cbn [rbind].
  destruct v; try discriminate. destruct (fread _ h1) as [t h2]. apply rmap_ok in H as (x & _ & ->). reflexivity.
Qed.
Theorem C79_vk4_latin1 : forall en im (b : bytes) r, is_file b -> read_vk4 en im (opened b) = Ok r -> read_vk4 Latin1 im (opened b) = Ok r.
Proof.
  intros en im b [s l] Hf H. apply vk4_iff in H as ((L1 & L2 & Bl & [h St] & Ts) & E & Li); [|exact Hf]. apply vk4_iff; [exact Hf|]. split; [|auto].
  split; [exact L1|]. split; [exact L2|]. split; [exact Bl|]. split; [|exact Ts]. exists h. unfold vk_read_strings, opened, fseek in *. cbn [contents] in *.
  apply rbind_ok in St as ([c p'] & S1 & S2). apply latin1_string in S1. rewrite S1. cbn [rbind]. apply latin1_string in S2. exact S2.
Qed.
(** In a file whose text is not utf-8 the choice matters: title byte 181 *)
Definition vk_latin : bytes := firstn 388 vk_file ++ [181] ++ skipn 389 vk_file.
Example vk_latin_example : is_file vk_latin /\ is_ok (read_vk4 Utf8 false (opened vk_latin)) = false /\ bit (read_vk4 Latin1 false (opened vk_latin)) = bit (read_vk4 Utf8 false (opened vk_file)) /\
  is_ok (read_vk4 Utf8 false (opened vk_file)) = true.
Proof. split; [apply bytes_ok; vm_compute; reflexivity|]. vm_compute. repeat split. Qed.
