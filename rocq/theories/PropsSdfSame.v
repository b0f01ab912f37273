(** C48: the two models of the reader of ASCII SDF files (ModelFormats.v, with conversions and data left open, and ModelSdfText.v, complete) are the same function,
    so that what C48 says of the files the library writes itself holds of the complete reader. *)
From Coq Require Import String Ascii ZArith Bool Lia.
From Coq Require Import List.
From Verif Require Import Base ModelBytes ModelUnits ModelSur ModelFormats ModelGwy ModelSdfText ProofBytes PropsTmd PropsSdf.
Import ListNotations.
Local Open Scope Z_scope.

(** the values of the header in the words of the other model *)
Definition enc (v : mvalue) : pyval := match v with MStr s => VStr s | MInt n => VInt n | MFloat x => VFloat x | MDate _ => VInt 0 end.
Definition dec (v : pyval) : mvalue := match v with VInt n => MInt n | VFloat x => MFloat x | VStr s => MStr s | _ => MInt 0 end.
Definition name_of (k : pystr) : string := match List.find (fun n => zs_eqb (str n) k) sdf_names with Some n => n | None => "" end.
Definition put (d : mdict) (kv : string * pyval) : mdict := gput d (str (fst kv)) (dec (snd kv)).

Lemma name_known k t : gget ascii_types k = Some t -> str (name_of k) = k.
Proof.
  intros H. unfold name_of. destruct (List.find _ sdf_names) as [n|] eqn:F.
  - apply find_some in F. destruct F as [_ F]. apply zs_eqb_eq, F.
  - exfalso. assert (G : forall n, In n sdf_names -> zs_eqb (str n) k = false) by (intros n Hn; apply (find_none _ _ F n Hn)).
    unfold ascii_types in H. cbn [gget] in H.
    assert (K : forall n, In n sdf_names -> zs_eqb k (str n) = false).
    { intros n Hn. specialize (G n Hn). destruct (zs_eqb k (str n)) eqn:E; [|reflexivity]. apply zs_eqb_eq in E. subst k. rewrite zs_eqb_refl in G. discriminate. }
    rewrite !K in H by (unfold sdf_names; cbn [In]; auto 20). discriminate.
Qed.
Lemma dec_enc to_float t s v : convert to_float t s = Ok v -> dec (enc v) = v.
Proof.
  destruct t; cbn [convert]; [intros E; injection E as <-; reflexivity| |]; unfold rmap, rbind.
  - destruct (py_int s); [|discriminate]. intros E; injection E as <-; reflexivity.
  - destruct (to_float s); [|discriminate]. intros E; injection E as <-; reflexivity.
Qed.
Section same.
Variable to_float : pystr -> res f64.
Variable strtod : pystr -> option (f64 * pystr).
Definition conv (n v : pystr) : res (string * pyval) :=
  match gget ascii_types (strip n) with
  | None => Err CorruptedFileError
  | Some t => rmap (fun m => (name_of (strip n), enc m)) (convert to_float t (strip v))
  end.
Definition rest (l : dict) (data : pystr) : res raw :=
  let d := fold_left put l [] in
  rbind (item_int d "DataType") (fun dt =>
  match sdf_item dt with
  | None => Err CorruptedFileError
  | Some _ => rbind (parse_date d "CreateDate") (fun d1 => rbind (parse_date d1 "ModDate") (fun d2 => rmap fst (read_points strtod d2 data)))
  end).
Lemma lines_same l : forall d, header_lines to_float d l = rmap (fun l' => fold_left put l' d) (read_header_lines conv l).
Proof.
  induction l as [|x l IH]; intros d; [reflexivity|]. cbn [header_lines read_header_lines]. unfold header_line.
  destruct (split_on 61 x) as [|n [|v [|w q]]]; try reflexivity. unfold conv at 1.
  destruct (gget ascii_types (strip n)) as [t|] eqn:G; [|reflexivity].
  destruct (convert to_float t (strip v)) as [m|e] eqn:C; [|reflexivity]. cbn [rmap rbind]. rewrite IH.
  destruct (read_header_lines conv l) as [l'|e]; [|reflexivity]. cbn [rmap rbind fold_left].
  assert (P : put d (name_of (strip n), enc m) = gput d (strip n) m) by (unfold put; cbn [fst snd]; rewrite (name_known _ _ G), (dec_enc _ _ _ _ C); reflexivity).
  rewrite P. reflexivity.
Qed.
Lemma lstrip_no_spaces s : lstrip s = [] <-> strip s = [].
Proof.
  unfold strip. split; [intros ->; reflexivity|]. intros H.
  assert (K : forall t, lstrip t = [] -> forall c, In c t -> is_space c = true).
  { induction t as [|c t IH]; intros Ht c' []; cbn [lstrip] in Ht; destruct (is_space c) eqn:E; try discriminate; [subst; exact E|apply IH; assumption]. }
  apply (f_equal (@rev Z)) in H. rewrite rev_involutive in H. cbn in H.
  assert (N : forall c t, lstrip s = c :: t -> is_space c = false).
  { clear. induction s as [|a s IH]; intros c t; cbn [lstrip]; [discriminate|]. destruct (is_space a) eqn:E; [apply IH|]. intros Q; injection Q as <- _; exact E. }
  destruct (lstrip s) as [|c t] eqn:E; [reflexivity|]. specialize (K _ H c). rewrite <- in_rev in K. specialize (K (or_introl eq_refl)). rewrite (N _ _ eq_refl) in K. discriminate.
Qed.
Lemma read_same h : rmap fst (read_ascii to_float strtod h) = read_ascii_sdf conv rest h.
Proof.
  unfold read_ascii, read_ascii_sdf. destruct (fread_all h) as [b h']. destruct (negb _); [reflexivity|].
  destruct (split_on 42 (lstrip b)) as [|header [|data [|x [|e [|y q]]]]]; try reflexivity.
  assert (E : zs_eqb (strip e) [] = zs_eqb (lstrip e) []).
  { pose proof (lstrip_no_spaces e) as [H1 H2]. destruct (zs_eqb (strip e) []) eqn:A, (zs_eqb (lstrip e) []) eqn:B; try reflexivity; [apply zs_eqb_eq in A|apply zs_eqb_eq in B].
    - rewrite (H2 A) in B. discriminate.
    - rewrite (H1 B) in A. discriminate. }
  rewrite E. destruct (negb _); [reflexivity|]. rewrite lines_same. destruct (read_header_lines conv _) as [l|er]; [|reflexivity]. cbn [rmap rbind]. unfold rest.
  destruct (item_int (fold_left put l []) "DataType") as [dt|er]; [|reflexivity]. cbn [rbind].
  destruct (sdf_item dt); [|reflexivity]. destruct (parse_date _ "CreateDate") as [d1|er]; [|reflexivity]. cbn [rbind].
  destruct (parse_date d1 "ModDate") as [d2|er]; reflexivity.
Qed.
End same.

(** *** The theorems *)
(** Whatever the conversion of numbers, there are a conversion of header values and a reading of the data section with which the one reader does, on every file with the
    magic of ASCII SDF files, exactly what the other does: the same surface or the same error. *)
Theorem C48_same_reader : forall to_float strtod, exists convert rest, forall en b, firstn 8 b = sdf_magic_ascii ->
  read_sdf convert rest en (open_rb b) = rmap fst (load_ascii to_float strtod b).
Proof.
  intros tf sd. exists (conv tf), (rest sd). intros en b Hb. unfold read_sdf, load_ascii.
  destruct (fread 8 (open_rb b)) as [m h1] eqn:F. assert (Em : m = sdf_magic_ascii).
  { apply (f_equal fst) in F. cbn [fst] in F. rewrite <- F, <- Hb. reflexivity. }
  rewrite Em, zs_eqb_refl. symmetry. apply read_same.
Qed.
(** No ASCII SDF file the library writes can be read by the complete reader. *)
Theorem C48_ascii_whole_refuted : forall to_float strtod scale_of text body s create_date mod_date,
  (forall v, plain (text v)) -> Forall (fun c => 0 <= c < 128 /\ c <> 42) body ->
  load_ascii to_float strtod (write_sdf_ascii text body (sdf_header scale_of s create_date mod_date)) = Err ValueError.
Proof.
  intros tf sd scale_of text body s d1 d2 Ht Hb. destruct (C48_same_reader tf sd) as (cv & rs & H).
  specialize (H Utf8 (write_sdf_ascii text body (sdf_header scale_of s d1 d2)) eq_refl).
  rewrite C48_ascii_refuted in H by assumption. destruct (load_ascii _ _ _); [discriminate|]. cbn in H. injection H as <-. reflexivity.
Qed.
