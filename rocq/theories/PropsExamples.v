(** C103: the example files. *)
From Coq Require Import String.
From Coq Require Import List ZArith Bool Lia.
From Verif Require Import Base ModelBytes ModelDispatch ModelExamples ProofBytes PropsDispatch.
Import ListNotations.
Local Open Scope list_scope.

(** *** Specification *)
(** an entry of the directory listing that describes the file (name, url), whatever else it says *)
Definition describes (j : json) (f : pystr * pystr) : Prop :=
  exists d, j = JObj d /\ assoc (str "name") d = Some (JStr (fst f)) /\ assoc (str "download_url") d = Some (JStr (snd f)).
(** the object the user gets for it *)
Definition object_for (f : pystr * pystr) : example := mkExample (JStr (fst f)) (JStr (snd f)).
(** a file with the given suffix *)
Definition has_suffix (s : pystr) (f : pystr * pystr) : bool := zs_eqb (path_suffix (fst f)) s.
(** loading the downloaded bytes from a file of that name on disk *)
Definition from_disk {X} (readers : format -> reader X) (name : pystr) (b : bytes) : res X :=
  fst (fst (load X readers (Path name) None (disk name b))).

Lemma each_describes l fs : Forall2 describes l fs ->
  each (fun f => rbind (jitem f (str "name")) (fun n => rbind (jitem f (str "download_url")) (fun u => Ok (mkExample n u)))) l = Ok (map object_for fs).
Proof.
  induction 1 as [|j f l fs (d & -> & N & U) _ IH]; [reflexivity|].
  unfold each; fold (@each json example). cbn [jitem]. rewrite N. cbn [rbind]. rewrite U. cbn [rbind]. rewrite IH. reflexivity.
Qed.
Lemma keep_objects s fs : keep s (map object_for fs) = Ok (map object_for (List.filter (has_suffix s) fs)).
Proof.
  induction fs as [|[n u] fs IH]; [reflexivity|]. cbn [map keep object_for ex_name fst snd]. rewrite IH. cbn [rbind List.filter].
  change (has_suffix s (n, u)) with (zs_eqb (path_suffix n) s). destruct (zs_eqb (path_suffix n) s); reflexivity.
Qed.

(** *** The listing *)
Theorem C103_list_all : forall l fs, Forall2 describes l fs -> list_examples (Some (JArr l)) None = Ok (map object_for fs).
Proof. intros l fs H. unfold list_examples. cbn [jiter rbind]. rewrite (each_describes _ _ H). reflexivity. Qed.
Theorem C103_list_format : forall l fs s, Forall2 describes l fs ->
  list_examples (Some (JArr l)) (Some s) = Ok (map object_for (List.filter (has_suffix s) fs)) /\
  forall n u, In (object_for (n, u)) (map object_for (List.filter (has_suffix s) fs)) <-> In (n, u) fs /\ path_suffix n = s.
Proof.
  intros l fs s H. split.
  - unfold list_examples. cbn [jiter rbind]. rewrite (each_describes _ _ H). cbn [rbind]. apply keep_objects.
  - intros n u. rewrite in_map_iff. split.
    + intros ([n' u'] & E & I). apply filter_In in I. destruct I as [I S0]. unfold object_for in E. cbn in E. injection E as -> ->.
      split; [exact I|]. apply zs_eqb_eq. exact S0.
    + intros [I S0]. exists (n, u). split; [reflexivity|]. apply filter_In. split; [exact I|]. apply zs_eqb_eq. exact S0.
Qed.
(** no network, or an error message of the server instead of the listing (e.g. when its rate limit is exceeded) *)
Theorem C103_list_offline : forall fmt, list_examples None fmt = Err (OtherError "ConnectionError"%string).
Proof. reflexivity. Qed.
Theorem C103_list_message : forall k v d fmt, list_examples (Some (JObj ((k, v) :: d))) fmt = Err TypeError.
Proof. reflexivity. Qed.

(** *** Loading *)
Section L.
Variable X : Type.
Variable readers : format -> reader X.
Variable web : pystr -> option bytes.

Theorem C103_load_declared : forall name url b f x, web url = Some b -> registered (lower_ascii (path_suffix name)) f ->
  fst (readers f b 0%nat) = Ok x ->
  load_example X readers web name url = Ok x /\ from_disk readers name b = Ok x.
Proof.
  intros name url b f x W R E. assert (NE : path_suffix name <> []).
  { intros C. rewrite C in R. apply registered_assoc in R. discriminate. }
  split.
  - unfold load_example. rewrite W. destruct (path_suffix name) as [|c t] eqn:P; [congruence|]. rewrite <- P in *.
    rewrite (C55_declared_restores X readers (path_suffix name) f x); [reflexivity | exact R | exact E].
  - unfold from_disk, load, try_declared. rewrite declared_path. unfold effective. apply registered_assoc in R. rewrite R.
    unfold with_file, disk. cbn [files]. rewrite zs_eqb_refl, E. reflexivity.
Qed.
Theorem C103_load_by_magic : forall name url b m f x, web url = Some b -> path_suffix name = [] ->
  In (m, f) readers_by_magic -> starts_with m b -> fst (readers f b 0%nat) = Ok x ->
  load_example X readers web name url = Ok x /\ from_disk readers name b = Ok x.
Proof.
  intros name url b m f x W P I S0 E. split.
  - unfold load_example. rewrite W, P. rewrite (C55_magic_restores X readers _ m f x); [reflexivity | exact I | exact S0 | exact E].
  - assert (F : first_error X readers name None b UnsupportedFileFormatError).
    { left. split; [|reflexivity]. intros [g G]. unfold effective in G. rewrite P in G. apply registered_assoc in G. discriminate. }
    unfold from_disk. rewrite (C52_by_magic X readers name None (disk name b) b UnsupportedFileFormatError m f); auto.
    unfold disk. cbn. rewrite zs_eqb_refl. reflexivity.
Qed.
Theorem C103_load_offline : forall name url, web url = None -> load_example X readers web name url = Err (OtherError "ConnectionError"%string).
Proof. intros name url W. unfold load_example. rewrite W. reflexivity. Qed.
End L.

(** *** Where the examples differ from files *)
(** a file whose suffix is in capital letters is loaded as that format, but not listed under it *)
Theorem C103_case_refuted : forall u,
  let j := JArr [JObj [(str "name", JStr (str "A.SUR")); (str "download_url", JStr u)]] in
  list_examples (Some j) (Some (str ".sur")) = Ok [] /\
  list_examples (Some j) (Some (str ".SUR")) = Ok [object_for (str "A.SUR", u)] /\
  registered (lower_ascii (path_suffix (str "A.SUR"))) Sur.
Proof. intros u. repeat split. apply registered_assoc. reflexivity. Qed.
(** a file under a wrong name can be loaded from disk, where its magic is recognised, but not as an example *)
Theorem C103_wrong_name_refuted : forall u,
  from_disk checking (str "x.sdf") sflz_file = Ok (Sflz, [1; 2; 3; 4; 5; 6; 7; 8]%Z) /\
  load_example _ checking (fun _ => Some sflz_file) (str "x.sdf") u = Err CorruptedFileError.
Proof. intros u. split; reflexivity. Qed.
(** two files, one of them of the format asked for; it is loaded *)
Theorem C103_example : forall u v,
  let e n w := JObj [(str "name", JStr n); (str "size", JAtom); (str "download_url", JStr w)] in
  list_examples (Some (JArr [e (str "a.sflz") u; e (str "b.sdf") v])) (Some (str ".sflz")) = Ok [object_for (str "a.sflz", u)] /\
  load_example _ checking (fun _ => Some sflz_file) (str "a.sflz") u = Ok (Sflz, [1; 2; 3; 4; 5; 6; 7; 8]%Z) /\
  load_example _ checking (fun _ => Some sflz_file) (str "a") u = Ok (Sflz, [1; 2; 3; 4; 5; 6; 7; 8]%Z).
Proof. intros u v. repeat split. Qed.
