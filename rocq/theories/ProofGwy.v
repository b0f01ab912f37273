(** Reading back what the format writes (gwy.py), lemmas for C80. *)
From Coq Require Import String Ascii ZArith Lia Bool.
From Coq Require Import List.
From Flocq Require Import IEEE754.Binary IEEE754.Bits.
From Verif Require Import Base ModelBytes ModelUnits ModelSur ModelFormats ModelReaders ModelGwy SpecGwy ProofBytes PropsMagic PropsLayout.
Import ListNotations.
Local Open Scope list_scope.
Local Open Scope Z_scope.

Lemma at_app pre b rest : at_ (pre ++ b) rest = {| contents := pre ++ b ++ rest; pos := length pre + length b |}.
Proof. unfold at_. rewrite <- app_assoc, app_length. reflexivity. Qed.
Lemma fread_at' n pre b rest : length b = n -> fread n (at_ pre (b ++ rest)) = (b, at_ (pre ++ b) rest).
Proof. intros <-. apply fread_at. Qed.
Lemma until_nul_at : forall s n pre rest, ~ In 0 s -> (length s < n)%nat ->
  until_nul n (at_ pre (s ++ [0] ++ rest)) = (s, at_ (pre ++ s ++ [0]) rest).
Proof.
  induction s as [|x s IH]; intros n pre rest Hn Hl; (destruct n as [|n]; [cbn in Hl; lia|]); cbn [until_nul].
  - change ([] ++ [0] ++ rest) with ([0] ++ rest). rewrite (fread_at' 1 pre [0]) by reflexivity. reflexivity.
  - change ((x :: s) ++ [0] ++ rest) with ([x] ++ (s ++ [0] ++ rest)). rewrite (fread_at' 1 pre [x]) by reflexivity.
    destruct (Z.eqb_spec x 0) as [E|_]; [exfalso; apply Hn; left; exact E|].
    rewrite IH by (try (intros F; apply Hn; right; exact F); cbn in Hl; lia).
    rewrite <- app_assoc. reflexivity.
Qed.
Section writing.
Variable enc : pystr -> bytes.
Variable en : encoding.
Lemma string_at s pre rest : text_fits enc en s -> gwy_string en (at_ pre (text_bytes enc s ++ rest)) = Ok (s, at_ (pre ++ text_bytes enc s) rest).
Proof.
  intros (H1 & H2 & H3). unfold gwy_string, text_bytes. rewrite <- app_assoc.
  rewrite (until_nul_at (enc s) gwy_max pre rest H2) by (unfold gwy_max; lia). rewrite H1. reflexivity.
Qed.
Lemma count_at (n : nat) pre rest : Z.of_nat n < 2 ^ 32 -> gwy_count (at_ pre (le 4 (Z.of_nat n) ++ rest)) = Ok (Z.of_nat n, at_ (pre ++ le 4 (Z.of_nat n)) rest).
Proof.
  intros H. unfold gwy_count. rewrite fread_at' by apply le_length. rewrite le_length. cbn [Nat.eqb]. rewrite unle_le; [reflexivity|].
  change (8 * Z.of_nat 4) with 32. lia.
Qed.
Lemma number_at size f b pre rest : length b = size -> gwy_number size f (at_ pre (b ++ rest)) = Ok (f b, at_ (pre ++ b) rest).
Proof. intros H. unfold gwy_number. rewrite fread_at' by exact H. rewrite H, Nat.eqb_refl. reflexivity. Qed.
Lemma chunks_flat {A} (f : A -> bytes) size : (forall x, length (f x) = size) -> forall l, chunks (length l) size (flat_map f l) = map f l.
Proof.
  intros Hf l. induction l as [|x l IH]; [reflexivity|]. cbn [flat_map length chunks map].
  rewrite firstn_app, skipn_app. rewrite !(Hf x), Nat.sub_diag. cbn [firstn skipn]. rewrite firstn_all2 by (rewrite Hf; lia). rewrite skipn_all2 by (rewrite Hf; lia).
  cbn [app]. rewrite app_nil_r. f_equal. exact IH.
Qed.
Lemma flat_len {A} (f : A -> bytes) size : (forall x, length (f x) = size) -> forall l, length (flat_map f l) = (length l * size)%nat.
Proof. intros Hf l. induction l as [|x l IH]; [reflexivity|]. cbn [flat_map length]. rewrite app_length, IH, Hf. lia. Qed.
Lemma items_at {A} (f : A -> bytes) size l pre rest : (0 < size)%nat -> (forall x, length (f x) = size) ->
  read_items size (Z.of_nat (length l)) (at_ pre (flat_map f l ++ rest)) = Ok (map f l, at_ (pre ++ flat_map f l) rest).
Proof.
  intros Hs Hf. unfold read_items. rewrite fread_at' by (rewrite (flat_len f size Hf); lia).
  unfold frombuffer. rewrite (flat_len f size Hf), Nat.mod_mul, Nat.div_mul by lia. cbn [Nat.eqb rmap]. rewrite chunks_flat by exact Hf. reflexivity.
Qed.
Lemma chars_at (l : bytes) pre rest : read_items 1 (Z.of_nat (length l)) (at_ pre (l ++ rest)) = Ok (map (fun c => [c]) l, at_ (pre ++ l) rest).
Proof.
  assert (E : flat_map (fun c : Z => [c]) l = l) by (induction l as [|x l IH]; cbn; congruence).
  pose proof (items_at (fun c : Z => [c]) 1 l pre rest ltac:(lia) ltac:(reflexivity)) as H. rewrite E in H. exact H.
Qed.
Lemma strings_at : forall l pre rest, Forall (text_fits enc en) l ->
  gwy_strings en (length l) (at_ pre (flat_map (text_bytes enc) l ++ rest)) = Ok (l, at_ (pre ++ flat_map (text_bytes enc) l) rest).
Proof.
  induction l as [|s l IH]; intros pre rest H; cbn [flat_map length gwy_strings].
  - rewrite app_nil_r. reflexivity.
  - inversion H as [|? ? H1 H2]; subst. rewrite <- app_assoc, string_at by exact H1. cbn [rbind]. rewrite IH by exact H2. cbn [rbind].
    rewrite <- app_assoc. reflexivity.
Qed.
Lemma objects_at (c : fh -> res (gval * fh)) : forall l pre rest,
  Forall (fun o => forall p r, c (at_ p (object_bytes enc o ++ r)) = Ok (object_value o, at_ (p ++ object_bytes enc o) r)) l ->
  gwy_objects c (length l) (at_ pre (flat_map (object_bytes enc) l ++ rest)) = Ok (map object_value l, at_ (pre ++ flat_map (object_bytes enc) l) rest).
Proof.
  induction l as [|s l IH]; intros pre rest H; cbn [flat_map length gwy_objects map].
  - rewrite app_nil_r. reflexivity.
  - inversion H as [|? ? H1 H2]; subst. rewrite <- app_assoc, H1. cbn [rbind]. rewrite IH by exact H2. cbn [rbind]. rewrite <- app_assoc. reflexivity.
Qed.
Lemma signed_back n z : (0 < n)%nat -> - 2 ^ (8 * Z.of_nat n - 1) <= z < 2 ^ (8 * Z.of_nat n - 1) -> to_signed n (unle (le n (z mod 2 ^ (8 * Z.of_nat n)))) = z.
Proof. intros Hn Hz. rewrite unle_le by (apply Z.mod_pos_bound, pow_pos_8). apply to_signed_mod; assumption. Qed.
(** one component *)
Definition reads_objects (c : fh -> res (gval * fh)) (d : nat) : Prop :=
  forall o p r, object_fits enc en o -> (nesting o <= d)%nat -> c (at_ p (object_bytes enc o ++ r)) = Ok (object_value o, at_ (p ++ object_bytes enc o) r).
Lemma list_max_le l n : (list_max l <= n)%nat -> forall x, In x l -> (x <= n)%nat.
Proof. intros H x Hx. rewrite list_max_le in H. rewrite Forall_forall in H. apply H, Hx. Qed.
Lemma node_at c d : reads_objects c d -> forall n pre rest, fits enc en n -> (node_nesting n <= d)%nat ->
  (if (65 <=? letter n) && (letter n <=? 90) then gwy_array c en (letter n + 32) else gwy_atomic c en (letter n)) (at_ pre (node_bytes enc n ++ rest))
  = Ok (node_value n, at_ (pre ++ node_bytes enc n) rest).
Proof.
  intros Hc n pre rest Hf Hd. destruct n; cbn [letter]; inversion Hf; subst; clear Hf.
  - change ((65 <=? 98) && (98 <=? 90)) with false. cbn match. unfold gwy_atomic. cbn [Z.eqb Pos.eqb node_bytes]. destruct b.
    + rewrite (number_at 1 _ [1]) by reflexivity. reflexivity.
    + rewrite (number_at 1 _ [0]) by reflexivity. reflexivity.
  - change ((65 <=? 99) && (99 <=? 90)) with false. cbn match. unfold gwy_atomic. cbn [Z.eqb Pos.eqb node_bytes].
    rewrite (number_at 1 _ [c0]) by reflexivity. cbn [unle node_value]. replace (c0 + 256 * 0) with c0 by lia. reflexivity.
  - change ((65 <=? 105) && (105 <=? 90)) with false. cbn match. unfold gwy_atomic. cbn [Z.eqb Pos.eqb node_bytes].
    rewrite (number_at 4) by apply le_length. cbn [node_value]. do 3 f_equal. apply (signed_back 4); [lia|assumption].
  - change ((65 <=? 113) && (113 <=? 90)) with false. cbn match. unfold gwy_atomic. cbn [Z.eqb Pos.eqb node_bytes].
    rewrite (number_at 8) by apply le_length. cbn [node_value]. do 3 f_equal. apply (signed_back 8); [lia|assumption].
  - change ((65 <=? 100) && (100 <=? 90)) with false. cbn match. unfold gwy_atomic. cbn [Z.eqb Pos.eqb node_bytes].
    rewrite (number_at 8) by apply le_length. cbn [node_value]. rewrite f64_bits, b64_bits_id. reflexivity.
  - change ((65 <=? 115) && (115 <=? 90)) with false. cbn match. unfold gwy_atomic. cbn [Z.eqb Pos.eqb node_bytes]. rewrite string_at by assumption. reflexivity.
  - change ((65 <=? 111) && (111 <=? 90)) with false. cbn match. unfold gwy_atomic. cbn [Z.eqb Pos.eqb node_bytes]. apply Hc; [assumption|exact Hd].
  - change ((65 <=? 67) && (67 <=? 90)) with true. cbn match. unfold gwy_array. cbn [node_bytes]. unfold count_bytes. rewrite <- app_assoc, count_at by assumption. cbn [rbind Z.add Pos.add Pos.succ Z.eqb Pos.eqb].
    rewrite chars_at. cbn [rmap]. rewrite <- app_assoc. cbn [node_value]. do 3 f_equal.
    rewrite map_map. rewrite <- (map_id l) at 2. apply map_ext. intros x. cbn. lia.
  - change ((65 <=? 73) && (73 <=? 90)) with true. cbn match. unfold gwy_array. cbn [node_bytes]. unfold count_bytes. rewrite <- app_assoc, count_at by assumption. cbn [rbind Z.add Pos.add Pos.succ Z.eqb Pos.eqb].
    rewrite (items_at _ 4) by (try (intros; apply le_length); lia). cbn [rmap]. rewrite <- app_assoc. cbn [node_value]. do 3 f_equal.
    rewrite map_map. rewrite <- (map_id l) at 2. apply map_ext_in. intros x Hx. apply (signed_back 4); [lia|]. rewrite Forall_forall in H1. apply H1, Hx.
  - change ((65 <=? 81) && (81 <=? 90)) with true. cbn match. unfold gwy_array. cbn [node_bytes]. unfold count_bytes. rewrite <- app_assoc, count_at by assumption. cbn [rbind Z.add Pos.add Pos.succ Z.eqb Pos.eqb].
    rewrite (items_at _ 8) by (try (intros; apply le_length); lia). cbn [rmap]. rewrite <- app_assoc. cbn [node_value]. do 3 f_equal.
    rewrite map_map. rewrite <- (map_id l) at 2. apply map_ext_in. intros x Hx. apply (signed_back 8); [lia|]. rewrite Forall_forall in H1. apply H1, Hx.
  - change ((65 <=? 68) && (68 <=? 90)) with true. cbn match. unfold gwy_array. cbn [node_bytes]. unfold count_bytes. rewrite <- app_assoc, count_at by assumption. cbn [rbind Z.add Pos.add Pos.succ Z.eqb Pos.eqb].
    rewrite (items_at _ 8) by (try (intros; apply le_length); lia). cbn [rmap]. rewrite <- app_assoc. cbn [node_value]. do 3 f_equal.
    rewrite map_map. rewrite <- (map_id l) at 2. apply map_ext_in. intros x Hx. rewrite f64_bits. apply b64_bits_id.
  - change ((65 <=? 83) && (83 <=? 90)) with true. cbn match. unfold gwy_array. cbn [node_bytes]. unfold count_bytes. rewrite <- app_assoc, count_at by assumption. cbn [rbind Z.add Pos.add Pos.succ Z.eqb Pos.eqb].
    rewrite Nat2Z.id, strings_at by assumption. cbn [rmap]. rewrite <- app_assoc. reflexivity.
  - change ((65 <=? 79) && (79 <=? 90)) with true. cbn match. unfold gwy_array. cbn [node_bytes]. unfold count_bytes. rewrite <- app_assoc, count_at by assumption. cbn [rbind Z.add Pos.add Pos.succ Z.eqb Pos.eqb].
    rewrite Nat2Z.id, objects_at.
    + cbn [rmap]. rewrite <- app_assoc. reflexivity.
    + apply Forall_forall. intros o Ho p r. rewrite Forall_forall in H1. apply Hc; [apply H1, Ho|]. cbn [node_nesting] in Hd. apply (list_max_le _ _ Hd). apply in_map, Ho.
Qed.
Lemma letter_small n : 128 <=? letter n = false.
Proof. destruct n; reflexivity. Qed.
Lemma component_at c d : reads_objects c d -> forall k n pre rest, text_fits enc en k -> fits enc en n -> (node_nesting n <= d)%nat ->
  gwy_component c en (at_ pre ((text_bytes enc k ++ [letter n] ++ node_bytes enc n) ++ rest)) =
  Ok ((k, node_value n), at_ (pre ++ text_bytes enc k ++ [letter n] ++ node_bytes enc n) rest).
Proof.
  intros Hc k n pre rest Hk Hf Hd. unfold gwy_component. rewrite <- app_assoc, string_at by exact Hk. cbn [rbind].
  rewrite <- app_assoc. rewrite (fread_at' 1 _ [letter n]) by reflexivity. rewrite letter_small.
  pose proof (node_at c d Hc n ((pre ++ text_bytes enc k) ++ [letter n]) rest Hf Hd) as E.
  destruct ((65 <=? letter n) && (letter n <=? 90)); rewrite E; cbn [rmap]; rewrite <- !app_assoc; reflexivity.
Qed.
Lemma gput_fresh {A} : forall (d : list (pystr * A)) k v, ~ In k (map fst d) -> gput d k v = d ++ [(k, v)].
Proof.
  induction d as [|[k' v'] d IH]; intros k v H; [reflexivity|]. cbn [gput]. destruct (zs_eqb k k') eqn:E.
  - apply zs_eqb_eq in E. subst. exfalso. apply H. left. reflexivity.
  - cbn [app]. f_equal. apply IH. intros F. apply H. right. exact F.
Qed.
Lemma components_at c d : reads_objects c d -> forall items fuel stop acc pre rest,
  Forall (fun kv => text_fits enc en (fst kv) /\ fits enc en (snd kv)) items -> NoDup (map fst acc ++ map fst items) ->
  (forall kv, In kv items -> (node_nesting (snd kv) <= d)%nat) -> (length items <= fuel)%nat ->
  stop = Z.of_nat (length pre + length (items_bytes enc items)) ->
  gwy_components c en fuel stop acc (at_ pre (items_bytes enc items ++ rest)) =
  Ok (acc ++ map (fun kv => (fst kv, node_value (snd kv))) items, at_ (pre ++ items_bytes enc items) rest).
Proof.
  intros Hc. induction items as [|[k n] items IH]; intros fuel stop acc pre rest Hf Hn Hd Hl ->.
  - change (items_bytes enc []) with (@nil Z). cbn [length map app]. rewrite !app_nil_r.
    assert (E : Z.of_nat (pos (at_ pre rest)) <? Z.of_nat (length pre + 0) = false) by (apply Z.ltb_ge; cbn; lia).
    destruct fuel; cbn [gwy_components]; rewrite E; reflexivity.
  - change (items_bytes enc ((k, n) :: items)) with ((text_bytes enc k ++ [letter n] ++ node_bytes enc n) ++ items_bytes enc items).
    destruct fuel as [|fuel]; [cbn in Hl; lia|]. cbn [gwy_components].
    inversion Hf as [|? ? [F1 F2] F3]; subst. cbn [fst snd] in F1, F2.
    assert (Hp : Z.of_nat (pos (at_ pre (((text_bytes enc k ++ [letter n] ++ node_bytes enc n) ++ items_bytes enc items) ++ rest))) <?
      Z.of_nat (length pre + length ((text_bytes enc k ++ [letter n] ++ node_bytes enc n) ++ items_bytes enc items)) = true).
    { apply Z.ltb_lt. cbn [pos at_]. rewrite !app_length. cbn [length]. lia. }
    rewrite Hp. rewrite <- app_assoc. rewrite (component_at c d Hc) by (try assumption; apply (Hd (k, n)); left; reflexivity). cbn [rbind].
    assert (N : ~ In k (map fst acc)).
    { cbn [map fst] in Hn. apply NoDup_remove_2 in Hn. intros F. apply Hn. apply in_or_app. left. exact F. }
    rewrite gput_fresh by exact N. rewrite (IH fuel).
    + cbn [map fst snd]. rewrite <- app_assoc. cbn [app]. rewrite <- !app_assoc. reflexivity.
    + exact F3.
    + rewrite map_app, <- app_assoc. exact Hn.
    + intros kv Hkv. apply Hd. right. exact Hkv.
    + cbn in Hl. lia.
    + rewrite !app_length. lia.
Qed.
Lemma items_length items : (length items <= length (items_bytes enc items))%nat.
Proof.
  induction items as [|[k n] items IH]; [cbn; lia|].
  change (items_bytes enc ((k, n) :: items)) with ((text_bytes enc k ++ [letter n] ++ node_bytes enc n) ++ items_bytes enc items).
  rewrite !app_length. cbn [length]. lia.
Qed.
(** a container *)
Lemma container_at : forall d, reads_objects (gwy_container en d) d.
Proof.
  induction d as [|d IH]; intros o p r Hf Hd; destruct o as [name items].
  - cbn in Hd. lia.
  - inversion Hf as [? ? F1 F2 F3 F4]; subst. cbn [object_bytes object_value gwy_container].
    change (flat_map _ items) with (items_bytes enc items). rewrite <- app_assoc, string_at by exact F1. cbn [rbind].
    rewrite <- app_assoc, count_at by exact F4. cbn [rbind].
    rewrite (components_at _ d IH).
    + cbn [rmap app]. rewrite <- !app_assoc. reflexivity.
    + exact F2.
    + exact F3.
    + intros kv Hkv. cbn [nesting] in Hd. apply (list_max_le (map (fun kv => node_nesting (snd kv)) items) d); [lia|]. apply (in_map (fun kv => node_nesting (snd kv))), Hkv.
    + cbn [contents at_]. rewrite !app_length. pose proof (items_length items). lia.
    + cbn [pos at_]. lia.
Qed.
End writing.
