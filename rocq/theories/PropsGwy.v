(** C80: Gwyddion files as trees. *)
From Coq Require Import String Ascii ZArith Lia Bool.
From Coq Require Import List.
From Flocq Require Import IEEE754.Binary IEEE754.Bits.
From Verif Require Import Base ModelBytes ModelUnits ModelSur ModelFormats ModelReaders ModelGwy SpecGwy ProofBytes PropsMagic PropsLayout ProofGwy PropsFits ProofSflz SpecReaders.
Import ListNotations.
Local Open Scope list_scope.
Local Open Scope Z_scope.

Local Strategy opaque [until_nul].
(** reading moves forward inside the file *)
Definition forward {A} (m : nat) (r : fh -> res (A * fh)) : Prop :=
  forall h v h', r h = Ok (v, h') -> contents h' = contents h /\ (pos h + m <= pos h')%nat /\ ((pos h <= length (contents h))%nat -> (pos h' <= length (contents h))%nat).
Lemma fread_forward n h b h' : fread n h = (b, h') ->
  contents h' = contents h /\ pos h' = (pos h + length b)%nat /\ ((pos h <= length (contents h))%nat -> (pos h' <= length (contents h))%nat).
Proof. intros H. apply fread_spec in H as (H1 & H2 & H3). repeat split; [assumption|assumption|lia]. Qed.
Lemma until_nul_forward n : forall h s h', until_nul n h = (s, h') ->
  contents h' = contents h /\ (pos h <= pos h')%nat /\ ((pos h <= length (contents h))%nat -> (pos h' <= length (contents h))%nat).
Proof.
  induction n as [|n IH]; intros h s h' H; cbn [until_nul] in H; [injection H as <- <-; repeat split; lia|].
  destruct (fread 1 h) as [c h1] eqn:E. apply fread_forward in E as (E1 & E2 & E3). destruct c as [|x c].
  - apply IH in H as (H1 & H2 & H3). rewrite H1, <- E1. rewrite E1 in *. repeat split; try lia; auto.
  - destruct (x =? 0).
    + injection H as <- <-. repeat split; [exact E1|lia|exact E3].
    + destruct (until_nul n h1) as [s2 h2] eqn:E4. injection H as <- <-. apply IH in E4 as (H1 & H2 & H3). rewrite H1, <- E1. rewrite E1 in *. repeat split; try lia; auto.
Qed.
Lemma string_forward en : forward 0 (gwy_string en).
Proof.
  intros h v h' H. unfold gwy_string in H. destruct (until_nul gwy_max h) as [s h1] eqn:E. apply until_nul_forward in E as (E1 & E2 & E3).
  apply rmap_ok in H as (t & _ & H). injection H as -> ->. repeat split; [exact E1|lia|exact E3].
Qed.
Lemma count_forward : forward 4 gwy_count.
Proof.
  intros h v h' H. unfold gwy_count in H. destruct (fread 4 h) as [c h1] eqn:E. apply fread_forward in E as (E1 & E2 & E3).
  destruct (Nat.eqb_spec (length c) 4); [|discriminate]. injection H as <- <-. repeat split; [exact E1|lia|exact E3].
Qed.
Lemma number_forward size f : forward size (gwy_number size f).
Proof.
  intros h v h' H. unfold gwy_number in H. destruct (fread size h) as [c h1] eqn:E. apply fread_forward in E as (E1 & E2 & E3).
  destruct (Nat.eqb_spec (length c) size); [|discriminate]. injection H as <- <-. repeat split; [exact E1|lia|exact E3].
Qed.
Lemma items_forward size n : forward 0 (read_items size n).
Proof.
  intros h v h' H. unfold read_items in H. destruct (fread (Z.to_nat (n * Z.of_nat size)) h) as [c h1] eqn:E. apply fread_forward in E as (E1 & E2 & E3).
  apply rmap_ok in H as (l & _ & H). injection H as -> ->. repeat split; [exact E1|lia|exact E3].
Qed.
Lemma forward_bind {A B} m n (r : fh -> res (A * fh)) (k : A -> fh -> res (B * fh)) : forward m r -> (forall a, forward n (k a)) ->
  forward (m + n) (fun h => rbind (r h) (fun '(a, h1) => k a h1)).
Proof.
  intros Hr Hk h v h' H. apply rbind_ok in H as ([a h1] & H1 & H2). apply Hr in H1 as (E1 & E2 & E3). apply (Hk a) in H2 as (F1 & F2 & F3).
  rewrite F1, E1. rewrite E1 in *. repeat split; [lia|]. intros L. apply F3, E3, L.
Qed.
Lemma forward_map {A B} m (r : fh -> res (A * fh)) (f : A -> B) : forward m r -> forward m (fun h => rmap (fun '(a, h1) => (f a, h1)) (r h)).
Proof. intros Hr h v h' H. apply rmap_ok in H as ([a h1] & H1 & H2). injection H2 as -> ->. apply (Hr _ _ _ H1). Qed.
Lemma forward_weaken {A} m n (r : fh -> res (A * fh)) : (n <= m)%nat -> forward m r -> forward n r.
Proof. intros L Hr h v h' H. apply Hr in H as (E1 & E2 & E3). repeat split; [exact E1|lia|exact E3]. Qed.
Lemma strings_forward en n : forward 0 (gwy_strings en n).
Proof.
  induction n as [|n IH]; [intros h v h' H; injection H as <- <-; repeat split; lia|].
  apply (forward_bind 0 0 _ (fun s h1 => rbind (gwy_strings en n h1) (fun '(l, h2) => Ok (s :: l, h2)))); [apply string_forward|].
  intros s. apply (forward_bind 0 0 _ (fun l h2 => Ok (s :: l, h2))); [exact IH|]. intros l h v h' H. injection H as <- <-. repeat split; lia.
Qed.
Section container.
Variable c : fh -> res (gval * fh).
Variable en : encoding.
Hypothesis Hc : forward 0 c.
Lemma objects_forward n : forward 0 (gwy_objects c n).
Proof.
  induction n as [|n IH]; [intros h v h' H; injection H as <- <-; repeat split; lia|].
  apply (forward_bind 0 0 _ (fun s h1 => rbind (gwy_objects c n h1) (fun '(l, h2) => Ok (s :: l, h2)))); [exact Hc|].
  intros s. apply (forward_bind 0 0 _ (fun l h2 => Ok (s :: l, h2))); [exact IH|]. intros l h v h' H. injection H as <- <-. repeat split; lia.
Qed.
Lemma err_forward {A} m e : forward m (fun _ => @Err (A * fh) e).
Proof. intros h v h' H. discriminate. Qed.
Lemma atomic_forward t : forward 0 (gwy_atomic c en t).
Proof.
  unfold gwy_atomic. intros h v h' H.
  repeat match type of H with context [if ?b then _ else _] => destruct b end.
  - exact (Hc _ _ _ H).
  - exact (forward_map 0 _ GStr (string_forward en) _ _ _ H).
  - exact (forward_weaken 1 0 _ ltac:(lia) (number_forward _ _) _ _ _ H).
  - exact (forward_weaken 1 0 _ ltac:(lia) (number_forward _ _) _ _ _ H).
  - exact (forward_weaken 4 0 _ ltac:(lia) (number_forward _ _) _ _ _ H).
  - exact (forward_weaken 8 0 _ ltac:(lia) (number_forward _ _) _ _ _ H).
  - exact (forward_weaken 8 0 _ ltac:(lia) (number_forward _ _) _ _ _ H).
  - discriminate.
Qed.
Lemma array_forward t : forward 0 (gwy_array c en t).
Proof.
  unfold gwy_array. apply (forward_weaken (4 + 0) 0); [lia|].
  apply (forward_bind 4 0 gwy_count (fun n h1 => if t =? 111 then rmap (fun '(l, h2) => (GList l, h2)) (gwy_objects c (Z.to_nat n) h1) else _)); [apply count_forward|].
  intros n h v h' H. repeat match type of H with context [if ?b then _ else _] => destruct b end.
  - exact (forward_map 0 _ GList (objects_forward _) _ _ _ H).
  - exact (forward_map 0 _ GStrs (strings_forward en _) _ _ _ H).
  - exact (forward_map 0 _ (fun l => GChars (map unle l)) (items_forward _ _) _ _ _ H).
  - exact (forward_map 0 _ (fun l => GInts (map (item_i 4) l)) (items_forward _ _) _ _ _ H).
  - exact (forward_map 0 _ (fun l => GInts (map (item_i 8) l)) (items_forward _ _) _ _ _ H).
  - exact (forward_map 0 _ (fun l => GFloats (map (fun c => b64_of_bits (unle c)) l)) (items_forward _ _) _ _ _ H).
  - discriminate.
Qed.
Lemma component_forward : forward 1 (gwy_component c en).
Proof.
  unfold gwy_component. apply (forward_bind 0 1 (gwy_string en) (fun name h1 => let '(t, h2) := fread 1 h1 in _)); [apply string_forward|].
  intros name h v h' H. destruct (fread 1 h) as [t h2] eqn:E. apply fread_forward in E as (E1 & E2 & E3).
  apply rmap_ok in H as ([w h3] & H1 & H2). injection H2 as -> ->. destruct t as [|x t]; [discriminate|].
  destruct (128 <=? x); [discriminate|]. cbn [length] in E2.
  assert (F : contents h3 = contents h2 /\ (pos h2 + 0 <= pos h3)%nat /\ ((pos h2 <= length (contents h2))%nat -> (pos h3 <= length (contents h2))%nat)).
  { destruct ((65 <=? x) && (x <=? 90)); [exact (array_forward _ _ _ _ H1)|exact (atomic_forward _ _ _ _ H1)]. }
  destruct F as (F1 & F2 & F3). rewrite F1, E1. rewrite E1 in *. repeat split; [lia|]. intros L. apply F3, E3, L.
Qed.
Lemma components_forward fuel stop : forall acc, forward 0 (gwy_components c en fuel stop acc).
Proof.
  induction fuel as [|fuel IH]; intros acc h v h' H; cbn [gwy_components] in H; (destruct (Z.of_nat (pos h) <? stop); [|injection H as <- <-; repeat split; lia]).
  - discriminate.
  - apply rbind_ok in H as ([[k x] h1] & H1 & H2). apply component_forward in H1 as (E1 & E2 & E3). apply IH in H2 as (F1 & F2 & F3).
    rewrite F1, E1. rewrite E1 in *. repeat split; [lia|]. intros L. apply F3, E3, L.
Qed.
Lemma components_stop fuel stop : forall acc h v h', gwy_components c en fuel stop acc h = Ok (v, h') -> stop <= Z.of_nat (pos h').
Proof.
  induction fuel as [|fuel IH]; intros acc h v h' H; cbn [gwy_components] in H; (destruct (Z.ltb_spec (Z.of_nat (pos h)) stop); [|injection H as <- <-; assumption]).
  - discriminate.
  - apply rbind_ok in H as ([[k x] h1] & H1 & H2). exact (IH _ _ _ _ H2).
Qed.
End container.
Lemma container_forward en d : forward 0 (gwy_container en d).
Proof.
  induction d as [|d IH]; [apply err_forward|]. cbn [gwy_container].
  apply (forward_bind 0 0 (gwy_string en) (fun name h1 => rbind (gwy_count h1) (fun '(size, h2) =>
    rmap (fun '(l, h3) => (GDict [(name, GDict l)], h3)) (gwy_components (gwy_container en d) en (S (length (contents h2))) (Z.of_nat (pos h2) + size) [] h2)))); [apply string_forward|].
  intros name. apply (forward_weaken (4 + 0) 0); [lia|].
  apply (forward_bind 4 0 gwy_count (fun size h2 => rmap (fun '(l, h3) => (GDict [(name, GDict l)], h3)) (gwy_components (gwy_container en d) en (S (length (contents h2))) (Z.of_nat (pos h2) + size) [] h2))); [apply count_forward|].
  intros size h v h' H. apply rmap_ok in H as ([w h3] & H1 & H2). injection H2 as -> ->. exact (components_forward _ en IH _ _ _ _ _ _ H1).
Qed.

(** the loop over the components of a container always comes to an end *)
Definition endless : exn := OtherError "unreachable".
Lemma rbind_err {A B} (r : res A) (k : A -> res B) e : rbind r k = Err e -> r = Err e \/ exists a, r = Ok a /\ k a = Err e.
Proof. destruct r; cbn; intros H; [right; eauto|left; injection H as ->; reflexivity]. Qed.
Lemma rmap_err {A B} (r : res A) (f : A -> B) e : rmap f r = Err e -> r = Err e.
Proof. destruct r; cbn; intros H; [discriminate|injection H as ->; reflexivity]. Qed.
Lemma string_ends en h : gwy_string en h <> Err endless.
Proof.
  intros H. unfold gwy_string in H. destruct (until_nul gwy_max h) as [s h1]. apply rmap_err in H. 
  assert (G : forall l e, utf8_decode l = Err e -> e = UnicodeError).
  { clear. fix IH 1. intros [|b0 l1] e; cbn; [discriminate|].
    destruct (b0 <? 128); [intros H; apply rmap_err in H; exact (IH _ _ H)|]. destruct (b0 <? 192); [congruence|].
    destruct l1 as [|b1 l2]; [congruence|]. destruct (negb (is_cont b1)); [congruence|].
    destruct (b0 <? 224); [match goal with |- context [if ?b then _ else _] => destruct b end; [intros H; apply rmap_err in H; exact (IH _ _ H)|congruence]|].
    destruct l2 as [|b2 l3]; [congruence|]. destruct (negb (is_cont b2)); [congruence|].
    destruct (b0 <? 240); [match goal with |- context [if ?b then _ else _] => destruct b end; [intros H; apply rmap_err in H; exact (IH _ _ H)|congruence]|].
    destruct l3 as [|b3 l4]; [congruence|]. destruct (negb (is_cont b3)); [congruence|].
    match goal with |- context [if ?b then _ else _] => destruct b end; [intros H; apply rmap_err in H; exact (IH _ _ H)|congruence]. }
  destruct en; cbn in H; [apply G in H; discriminate|discriminate|]. destruct (utf8_decode s); discriminate.
Qed.
Lemma count_ends h : gwy_count h <> Err endless.
Proof. unfold gwy_count. destruct (fread 4 h) as [c h1]. destruct (Nat.eqb (length c) 4); discriminate. Qed.
Lemma number_ends size f h : gwy_number size f h <> Err endless.
Proof. unfold gwy_number. destruct (fread size h) as [c h1]. destruct (Nat.eqb (length c) size); discriminate. Qed.
Lemma items_ends size n h : read_items size n h <> Err endless.
Proof. unfold read_items. destruct (fread _ h) as [c h1]. unfold frombuffer. destruct (Nat.eqb _ 0); discriminate. Qed.
Lemma strings_ends en n : forall h, gwy_strings en n h <> Err endless.
Proof.
  induction n as [|n IH]; intros h H; [discriminate|]. cbn [gwy_strings] in H. apply rbind_err in H as [H|([s h1] & _ & H)]; [exact (string_ends _ _ H)|].
  apply rbind_err in H as [H|([l h2] & _ & H)]; [exact (IH _ H)|discriminate].
Qed.
Section ends.
Variable c : fh -> res (gval * fh).
Variable en : encoding.
Hypothesis Hf : forward 0 c.
Hypothesis Hc : forall h, c h <> Err endless.
Lemma objects_ends n : forall h, gwy_objects c n h <> Err endless.
Proof.
  induction n as [|n IH]; intros h H; [discriminate|]. cbn [gwy_objects] in H. apply rbind_err in H as [H|([s h1] & _ & H)]; [exact (Hc _ H)|].
  apply rbind_err in H as [H|([l h2] & _ & H)]; [exact (IH _ H)|discriminate].
Qed.
Lemma component_ends h : gwy_component c en h <> Err endless.
Proof.
  unfold gwy_component. intros H. apply rbind_err in H as [H|([s h1] & _ & H)]; [exact (string_ends _ _ H)|].
  destruct (fread 1 h1) as [t h2]. apply rmap_err in H. destruct t as [|x t]; [discriminate|]. destruct (128 <=? x); [discriminate|].
  destruct ((65 <=? x) && (x <=? 90)).
  - unfold gwy_array in H. apply rbind_err in H as [H|([n h3] & _ & H)]; [exact (count_ends _ H)|].
    repeat match type of H with context [if ?b then _ else _] => destruct b end; try discriminate; apply rmap_err in H;
      [exact (objects_ends _ _ H)|exact (strings_ends _ _ _ H)|exact (items_ends _ _ _ H) ..].
  - unfold gwy_atomic in H. repeat match type of H with context [if ?b then _ else _] => destruct b end; try discriminate;
      [exact (Hc _ H)|apply rmap_err in H; exact (string_ends _ _ H)|exact (number_ends _ _ _ H) ..].
Qed.
Lemma fread_end n h : (length (contents h) <= pos h)%nat -> fread n h = ([], h).
Proof.
  intros H. unfold fread. rewrite skipn_all2 by exact H. rewrite firstn_nil. cbn [length]. rewrite Nat.add_0_r. destruct h; reflexivity.
Qed.
Lemma until_nul_end n : forall h, (length (contents h) <= pos h)%nat -> until_nul n h = ([], h).
Proof. induction n as [|n IH]; intros h H; [reflexivity|]. cbn [until_nul]. rewrite fread_end by exact H. apply IH, H. Qed.
Lemma component_end h : (length (contents h) <= pos h)%nat -> forall r, gwy_component c en h <> Ok r.
Proof.
  intros H r E. unfold gwy_component, gwy_string in E. rewrite until_nul_end in E by exact H. apply rbind_ok in E as ([s h1] & E1 & E2).
  apply rmap_ok in E1 as (t & _ & E1). injection E1 as -> ->. rewrite fread_end in E2 by exact H. discriminate.
Qed.
Lemma components_ends fuel stop : forall acc h, (length (contents h) - pos h < fuel)%nat -> gwy_components c en fuel stop acc h <> Err endless.
Proof.
  induction fuel as [|fuel IH]; intros acc h L H; [lia|]. cbn [gwy_components] in H. destruct (Z.of_nat (pos h) <? stop); [|discriminate].
  apply rbind_err in H as [H|([[k x] h1] & H1 & H2)]; [exact (component_ends _ H)|].
  destruct (Nat.le_gt_cases (length (contents h)) (pos h)) as [M|M]; [exact (component_end h M _ H1)|].
  apply (component_forward c en Hf) in H1 as (E1 & E2 & _). apply IH in H2; [exact H2|]. rewrite E1. lia.
Qed.
End ends.
(** C80: whatever the file, reading it comes to an end: the loop of a container never runs out of the bytes of the file without
    having stopped *)
Theorem C80_gwy_terminates : forall en depth h, gwy_container en depth h <> Err endless.
Proof.
  intros en depth. induction depth as [|d IH]; intros h H; [discriminate|]. cbn [gwy_container] in H.
  apply rbind_err in H as [H|([s h1] & _ & H)]; [exact (string_ends _ _ H)|].
  apply rbind_err in H as [H|([n h2] & _ & H)]; [exact (count_ends _ H)|].
  apply rmap_err in H. revert H. apply components_ends; [apply container_forward|exact IH|lia].
Qed.
(** C80: every tree of the format, written to a file and followed by anything, is read back as that tree *)
Theorem C80_gwy : forall (enc : pystr -> bytes) en depth o (rest : bytes), object_fits enc en o -> (nesting o <= depth)%nat ->
  gwy_container en depth {| contents := gwy_file enc o ++ rest; pos := 4 |} = Ok (object_value o, {| contents := gwy_file enc o ++ rest; pos := length (gwy_file enc o) |}).
Proof.
  intros enc en depth o rest Hf Hd. pose proof (container_at enc en depth o (str "GWYP") rest Hf Hd) as H. rewrite at_app in H.
  unfold gwy_file. rewrite <- app_assoc. unfold at_ in H. change (length (str "GWYP")) with 4%nat in H. rewrite H, app_length. reflexivity.
Qed.
Lemma magic_at (t : bytes) : fread 4 (opened (str "GWYP" ++ t)) = (str "GWYP", {| contents := str "GWYP" ++ t; pos := 4 |}).
Proof. exact (fread_at [] (str "GWYP") t). Qed.
Theorem C80_gwy_read : forall lower order (enc : pystr -> bytes) en im depth o (rest : bytes), object_fits enc en o -> (nesting o <= depth)%nat ->
  read_gwy lower order depth en im (opened (gwy_file enc o ++ rest)) = gwy_surface lower order im (object_value o).
Proof.
  intros lower order enc en im depth o rest Hf Hd. pose proof (C80_gwy enc en depth o rest Hf Hd) as H. unfold read_gwy.
  unfold gwy_file in H |- *. rewrite <- app_assoc in H |- *. rewrite magic_at.
  change (zs_eqb (str "GWYP") gwy_magic) with true. cbn [negb]. rewrite H. reflexivity.
Qed.
(** C80: a file cut anywhere before the end its first container announces is refused, whatever is in the container *)
Lemma until_nul_cut : forall s n pre, ~ In 0 s -> (length s <= n)%nat -> until_nul n (at_ pre s) = (s, at_ (pre ++ s) []).
Proof.
  induction s as [|x s IH]; intros n pre H L.
  - rewrite until_nul_end by (cbn; rewrite app_length; cbn; lia). rewrite app_nil_r. reflexivity.
  - destruct n as [|n]; [cbn in L; lia|]. cbn [until_nul]. change (x :: s) with ([x] ++ s). rewrite (fread_at' 1 pre [x]) by reflexivity.
    destruct (Z.eqb_spec x 0) as [E|_]; [exfalso; apply H; left; exact E|]. rewrite IH by (try (intros F; apply H; right; exact F); cbn in L; lia).
    rewrite <- app_assoc. reflexivity.
Qed.
Lemma count_cut pre b : (length b < 4)%nat -> forall r, gwy_count (at_ pre b) <> Ok r.
Proof. intros L r H. unfold gwy_count in H. rewrite fread_cut in H by exact L. destruct (Nat.eqb_spec (length b) 4); [lia|discriminate]. Qed.
Lemma container_cut (enc : pystr -> bytes) en depth name (body : bytes) pre k : text_fits enc en name -> small body ->
  (k < length (text_bytes enc name ++ le 4 (Z.of_nat (length body)) ++ body))%nat ->
  forall r, gwy_container en depth (at_ pre (firstn k (text_bytes enc name ++ le 4 (Z.of_nat (length body)) ++ body))) <> Ok r.
Proof.
  intros Hn Hs Hk r H. destruct depth as [|d]; [discriminate|]. cbn [gwy_container] in H.
  apply rbind_ok in H as ([s h1] & H1 & H). apply rbind_ok in H as ([size h2] & H2 & H).
  apply rmap_ok in H as ([l h3] & H & _). rewrite !app_length, le_length in Hk.
  destruct (Nat.le_gt_cases (length (text_bytes enc name)) k) as [M|M].
  - rewrite firstn_app, firstn_all2 in H1 by exact M. rewrite string_at in H1 by exact Hn. apply ok_inj, pair_equal_spec in H1 as [<- <-].
    set (k' := (k - length (text_bytes enc name))%nat) in *. destruct (Nat.le_gt_cases 4 k') as [M'|M'].
    + rewrite firstn_app, firstn_all2 in H2 by (rewrite le_length; exact M'). rewrite count_at in H2 by exact Hs. apply ok_inj, pair_equal_spec in H2 as [<- <-].
      pose proof (components_stop _ en _ _ _ _ _ _ H) as S1. pose proof (components_forward _ en (container_forward en d) _ _ _ _ _ _ H) as (_ & _ & S2).
      cbn [contents pos at_] in S1, S2. rewrite le_length in *. rewrite !app_length, firstn_length, le_length in *. lia.
    + rewrite firstn_app in H2. rewrite (proj2 (Nat.sub_0_le k' _)) in H2 by (rewrite le_length; lia). cbn [firstn] in H2. rewrite app_nil_r in H2.
      apply (count_cut _ _) in H2; [exact H2|]. rewrite firstn_length, le_length. lia.
  - rewrite firstn_app in H1. rewrite (proj2 (Nat.sub_0_le k _)) in H1 by lia. cbn [firstn] in H1. rewrite app_nil_r in H1.
    unfold text_bytes in H1, M. rewrite app_length in M. cbn [length] in M. rewrite firstn_app, (proj2 (Nat.sub_0_le k _)) in H1 by lia. cbn [firstn] in H1. rewrite app_nil_r in H1.
    unfold gwy_string in H1. destruct Hn as (_ & N1 & N2). rewrite until_nul_cut in H1.
    + apply rmap_ok in H1 as (t & _ & H1). injection H1 as -> ->. apply (count_cut _ []) in H2; [exact H2|cbn; lia].
    + intros F. apply N1. rewrite <- (firstn_skipn k). apply in_or_app. left. exact F.
    + rewrite firstn_length. unfold gwy_max. lia.
Qed.
Theorem C80_gwy_cut : forall lower order (enc : pystr -> bytes) en im depth name (body : bytes) n, text_fits enc en name -> small body ->
  let file := str "GWYP" ++ text_bytes enc name ++ le 4 (Z.of_nat (length body)) ++ body in
  (n < length file)%nat -> is_ok (read_gwy lower order depth en im (opened (firstn n file))) = false.
Proof.
  intros lower order enc en im depth name body n Hn Hs file L. destruct (read_gwy _ _ _ _ _ _) as [r|e] eqn:E; [exfalso|reflexivity].
  unfold read_gwy in E. destruct (Nat.le_gt_cases 4 n) as [M|M].
  - unfold file in E. rewrite firstn_app, firstn_all2 in E by (cbn; exact M). rewrite magic_at in E. change (zs_eqb (str "GWYP") gwy_magic) with true in E. cbn [negb] in E.
    apply rbind_ok in E as (t & E & _). change (length (str "GWYP")) with 4%nat in E.
    refine (container_cut enc en depth name body (str "GWYP") (n - 4) Hn Hs _ t E). unfold file in L. rewrite app_length in L. change (length (str "GWYP")) with 4%nat in L. lia.
  - destruct (fread 4 (opened (firstn n file))) as [m h] eqn:F. apply fread_spec in F as (_ & _ & F). cbn [contents pos opened] in F. rewrite firstn_length in F.
    destruct (zs_eqb m gwy_magic) eqn:Z; [|discriminate]. apply zs_eqb_eq in Z. subst m. change (length gwy_magic) with 4%nat in F. lia.
Qed.
