(** The readers of zip archives: surfalize/file/x3p.py, plux.py.
    zipfile, hashlib.md5, the XML parser, int(), float(), str.lower and dateutil are parameters (the record [python]). *)
From Coq Require Import String Ascii ZArith Lia Bool.
From Coq Require Import List.
From Flocq Require Import IEEE754.BinarySingleNaN IEEE754.Binary IEEE754.Bits.
From Verif Require Import Base ModelBytes ModelUnits ModelSur ModelFormats ModelReaders ModelGwy.
Import ListNotations.
Local Open Scope Z_scope.

(** an archive: names and contents in the order of the central directory.  Opening by name gives the last of that name
    (zipfile.ZipFile.NameToInfo) *)
Definition archive := list (pystr * bytes).
(** archive.namelist(), x3p.py:33-90, plux.py:13-52 *)
Definition namelist (a : archive) : list pystr := map fst a.
(** archive.open(name).read(), KeyError if absent *)
Definition amember (a : archive) (name : pystr) : res bytes :=
  match find (fun '(n, _) => zs_eqb name n) (rev a) with Some (_, b) => Ok b | None => Err KeyError end.
(** an XML element: tag, text before the first child, children *)
Inductive elem := Elem (tag : pystr) (text : option pystr) (children : list elem).
(** element.tag *)
Definition etag (e : elem) : pystr := match e with Elem t _ _ => t end.
(** element.text *)
Definition etext (e : elem) : option pystr := match e with Elem _ t _ => t end.
(** list(element) *)
Definition ekids (e : elem) : list elem := match e with Elem _ _ c => c end.
(** element.find(path): the first element reached by the tags of the path *)
Fixpoint reached (e : elem) (path : list pystr) {struct path} : list elem :=
  match path with
  | [] => [e]
  | t :: p => flat_map (fun c => if zs_eqb (etag c) t then reached c p else []) (ekids e)
  end.
(** element.find('a/b/c') *)
Definition efind (e : elem) (path : list string) : option elem := match reached e (map str path) with c :: _ => Some c | [] => None end.
(** None.find and None.text are AttributeErrors *)
Definition the {A} (o : option A) : res A := match o with Some x => Ok x | None => Err AttributeError end.
(** element.find(path).text *)
Definition text_at (e : elem) (path : list string) : res (option pystr) := rmap etext (the (efind e path)).
(** int(None), float(None) *)
Definition given {A} (f : pystr -> res A) (o : option pystr) : res A := match o with Some s => f s | None => Err TypeError end.

(** what the libraries do *)
Record python := {
  unzip : bytes -> res archive;         (* zipfile.ZipFile *)
  md5 : bytes -> pystr;                 (* hexdigest after updates with these bytes *)
  parse_xml : bytes -> res elem;        (* ElementTree.parse(file).getroot() *)
  parse_xml_text : pystr -> res elem;   (* ElementTree.fromstring *)
  to_int : pystr -> res Z;              (* int(text) *)
  to_float : pystr -> res f64;          (* float(text) *)
  to_date : pystr -> res Z;             (* dateutil.parser.parse *)
  to_lower : pystr -> pystr;            (* str.lower *)
  numpy2 : bool }.                      (* NumPy 2 or later *)

(** str.isspace, str.strip, str.split *)
Definition space (c : Z) : bool :=
  ((9 <=? c) && (c <=? 13)) || ((28 <=? c) && (c <=? 32)) || existsb (Z.eqb c) [133; 160; 5760; 8232; 8233; 8239; 8287; 12288] || ((8192 <=? c) && (c <=? 8202)).
(** str.lstrip() *)
Fixpoint lstrip (s : pystr) : pystr := match s with c :: s' => if space c then lstrip s' else s | [] => [] end.
(** str.strip() *)
Definition strip (s : pystr) : pystr := rev (lstrip (rev (lstrip s))).
(** the first word of str.split() *)
Fixpoint word (s : pystr) : pystr := match s with c :: s' => if space c then [] else c :: word s' | [] => [] end.
(** s.split()[0] *)
Definition first_word (s : pystr) : res pystr := match lstrip s with [] => Err IndexError | c :: r => Ok (word (c :: r)) end.

(** metadata: texts and dates *)
Inductive meta := MText (s : pystr) | MDate (d : Z).
(** the dictionary metadata of x3p.py:93-99 and plux.py:13-52 *)
Definition metadata := list (pystr * meta).
Section readers.
Variable py : python.
(** x3p.py:21-31 (xml_to_flat_dict): data.update puts the entries of a child one after the other *)
Definition update {A} (d d' : list (pystr * A)) : list (pystr * A) := fold_left (fun d '(k, v) => gput d k v) d' d.
(** x3p.py:21-31 (xml_to_flat_dict) *)
Fixpoint flat_dict (e : elem) (key : pystr) : list (pystr * pystr) :=
  match e with
  | Elem _ text kids =>
    let own := match text with Some t => match strip t with [] => [] | s => [(key, s)] end | None => [] end in
    fold_left (fun d c => update d (flat_dict c (key ++ etag c))) kids own
  end.
(** x3p.py:46-50: the hash of a file, fed in blocks of 4096 bytes until read returns nothing *)
Fixpoint hashed (fuel : nat) (acc : bytes) (h : fh) : bytes :=
  match fuel with
  | O => acc
  | S n => let '(c, h1) := fread 4096 h in match c with [] => acc | _ => hashed n (acc ++ c) h1 end
  end.
(** hashlib.md5 fed block by block, x3p.py:46-50 *)
Definition md5_of (b : bytes) : pystr := md5 py (hashed (S (length b)) [] {| contents := b; pos := 0 |}).
(** x3p.py:91: an array of the data type, times 10**6 (a Python int).  With unsigned integers the product has 32 bits; NumPy 2 refuses to
    multiply 16-bit integers by a number that does not fit *)
Definition wrap32 (z : Z) : f64 := f64_of_Z (z mod 2 ^ 32).
(** x3p.py:90-91 *)
Definition x3p_heights (dtype : pystr) (b : bytes) : res (list f64) :=
  if zs_eqb dtype (str "I") then
    rbind (frombuffer 2 b) (fun l => if numpy2 py then Err OverflowError else Ok (map (fun c => wrap32 (item_u c * 10 ^ 6)) l))
  else if zs_eqb dtype (str "L") then rmap (map (fun c => wrap32 (item_u c * 10 ^ 6))) (frombuffer 4 b)
  else if zs_eqb dtype (str "F") then rmap (map (fun c => f64_of_f32 (fmul32 (item_f32 c) (f32_of_f64 (pow10 6))))) (frombuffer 4 b)
  else if zs_eqb dtype (str "D") then rmap (map (fun c => fmul (b64_of_bits (unle c)) (pow10 6))) (frombuffer 8 b)
  else Err KeyError.
(** metadata[k] = dateutil.parser.parse(metadata[k]) if there is such a key, x3p.py:96-99 *)
Definition dated (k : string) (d : metadata) : res metadata :=
  match gget d (str k) with
  | Some (MText s) => rmap (fun t => gput d (str k) (MDate t)) (to_date py s)
  | Some (MDate _) => Err TypeError
  | None => Ok d
  end.
(** x3p.py:93-99 *)
Definition x3p_metadata (record2 : option elem) : res metadata :=
  match record2 with
  | None => Ok []
  | Some r => rbind (dated "Date" (map (fun '(k, v) => (k, MText v)) (flat_dict r []))) (dated "CalibrationDate")
  end.
(** name in archive.namelist() *)
Definition has (a : archive) (name : string) : bool := existsb (zs_eqb (str name)) (namelist a).
(** x3p.py:33-101 (read_x3p) *)
Definition read_x3p (en : encoding) (b : bytes) : res (raw * metadata) :=
  rbind (unzip py b) (fun a =>
  if negb (has a "main.xml") then Err CorruptedFileError else
  if negb (has a "md5checksum.hex") then Err CorruptedFileError else
  rbind (rbind (amember a (str "md5checksum.hex")) (decode en)) (fun hex =>
  rbind (first_word hex) (fun checksum =>
  rbind (amember a (str "main.xml")) (fun xml =>
  if negb (zs_eqb (md5_of xml) checksum) then Err CorruptedFileError else
  rbind (parse_xml py xml) (fun root =>
  match efind root ["Record1"%string] with None => Err CorruptedFileError | Some record1 =>
  match efind root ["Record3"%string] with None => Err CorruptedFileError | Some record3 =>
  rbind (text_at record1 ["FeatureType"%string]) (fun feature =>
  if negb (match feature with Some f => zs_eqb f (str "SUR") | None => false end) then Err UnsupportedFileFormatError else
  rbind (the (efind record1 ["Axes"%string])) (fun axes =>
  rbind (rbind (the (efind axes ["CZ"%string])) (fun cz => text_at cz ["DataType"%string])) (fun dt =>
  rbind (match dt with Some d => if existsb (zs_eqb d) (map str ["I"; "L"; "F"; "D"]%string) then Ok d else Err KeyError | None => Err KeyError end) (fun dtype =>
  rbind (rbind (rbind (the (efind axes ["CX"%string])) (fun cx => text_at cx ["Increment"%string])) (given (to_float py))) (fun sx =>
  rbind (rbind (rbind (the (efind axes ["CY"%string])) (fun cy => text_at cy ["Increment"%string])) (given (to_float py))) (fun sy =>
  rbind (the (efind record3 ["MatrixDimension"%string])) (fun dims =>
  rbind (rbind (text_at dims ["SizeX"%string]) (given (to_int py))) (fun nx =>
  rbind (rbind (text_at dims ["SizeY"%string]) (given (to_int py))) (fun ny =>
  rbind (rbind (text_at dims ["SizeZ"%string]) (given (to_int py))) (fun nz =>
  if negb (nz =? 1) then Err UnsupportedFileFormatError else
  rbind (text_at record3 ["DataLink"; "PointDataLink"]%string) (fun link =>
  match link with None => Err CorruptedFileError | Some path =>
  rbind (amember a path) (fun points =>
  rbind (x3p_heights dtype points) (fun heights =>
  rbind (reshape_z ny nx heights) (fun data =>
  rmap (fun m => ({| rdata := data; rstep_x := fmul sx (pow10 6); rstep_y := fmul sy (pow10 6) |}, m))
    (x3p_metadata (efind root ["Record2"%string])))))
  end))))))))))) end end))))).

(** plux.py:23-37: the selected entries of the INFO section *)
Definition plux_tags : list pystr := map str ["Device"; "Objective"; "Technique"; "Measurement Type"; "Algorithm"; "Comment"]%string.
(** element.find(tag).text.strip(), plux.py:23-37 *)
Definition stripped (e : elem) (tag : string) : res pystr := rbind (text_at e [tag]) (fun o => rmap strip (the o)).
(** the loop of plux.py:23-37 *)
Fixpoint plux_info (items : list elem) (m : metadata) : res metadata :=
  match items with
  | [] => Ok m
  | i :: items' =>
    if prefix_of (str "ITEM_") (etag i) then
      rbind (stripped i "NAME") (fun name =>
      if existsb (zs_eqb name) plux_tags then rbind (stripped i "VALUE") (fun v => plux_info items' (gput m (to_lower py name) (MText v)))
      else plux_info items' m)
    else plux_info items' m
  end.
(** a NumPy array: values and whether they may be overwritten.  An array made by np.frombuffer from bytes may not. *)
Record array (A : Type) := Array { cells : A; writeable : bool }.
Arguments Array {A}. Arguments cells {A}. Arguments writeable {A}.
(** plux.py:46-52: equal channels give a grey image *)
Definition plux_image (ny nx : Z) (b : bytes) : res image_layers :=
  if (ny <? 0) || (nx <? 0) then Err ValueError else
  rbind (reshape3 (Z.to_nat ny) (Z.to_nat nx) 3 b) (fun img =>
  if forallb (forallb (fun px => (nth 0 px 0 =? nth 1 px 0) && (nth 0 px 0 =? nth 2 px 0))) img
  then Ok [("Grayscale"%string, map (map (fun px => [nth 0 px 0])) img)]
  else Ok [("RGB"%string, img)]).
(** the result of read_plux, plux.py:13-52 *)
Record plux := { pdata : array (list (list f64)); pstep_x : f64; pstep_y : f64; pmeta : metadata; pimages : image_layers }.
(** plux.py:12-53 (read_plux).  img_raw is only assigned if the archive has the image.  Negative sizes are errors here. *)
Definition read_plux (en : encoding) (images : bool) (b : bytes) : res plux :=
  rbind (unzip py b) (fun a =>
  rbind (amember a (str "LAYER_0.raw")) (fun data_raw =>
  rbind (if images && has a "LAYER_0.stack.raw" then rmap Some (amember a (str "LAYER_0.stack.raw")) else Ok None) (fun img_raw =>
  rbind (rbind (amember a (str "index.xml")) (decode en)) (fun xml =>
  rbind (parse_xml_text py xml) (fun root =>
  rbind (rbind (text_at root ["GENERAL"; "DATE"]%string) (fun o => match o with Some s => to_date py s | None => Err TypeError end)) (fun date =>
  rbind (match efind root ["INFO"%string] with Some info => plux_info (ekids info) [(str "timestamp", MDate date)] | None => Ok [(str "timestamp", MDate date)] end) (fun m =>
  rbind (rbind (text_at root ["GENERAL"; "IMAGE_SIZE_X"]%string) (given (to_int py))) (fun nx =>
  rbind (rbind (text_at root ["GENERAL"; "IMAGE_SIZE_Y"]%string) (given (to_int py))) (fun ny =>
  rbind (rbind (text_at root ["GENERAL"; "FOV_X"]%string) (given (to_float py))) (fun sx =>
  rbind (rbind (text_at root ["GENERAL"; "FOV_Y"]%string) (given (to_float py))) (fun sy =>
  if (nx <? 0) || (ny <? 0) then Err ValueError else
  let n := (Z.to_nat (nx * ny) * 4)%nat in
  if Nat.ltb (length data_raw) n then Err ValueError else
  rbind (rbind (frombuffer 4 (firstn n data_raw)) (fun l => reshape (Z.to_nat ny) (Z.to_nat nx) (map (fun c => f64_of_f32 (item_f32 c)) l))) (fun data =>
  rbind (if images then match img_raw with Some i => plux_image ny nx i | None => Err UnboundLocalError end else Ok []) (fun layers =>
  Ok {| pdata := Array data false; pstep_x := sx; pstep_y := sy; pmeta := m; pimages := layers |}))))))))))))).
(** base.py:128-134 (__setitem__) for surface[i, j] = x *)
Fixpoint set_nth {A} (l : list A) (i : nat) (x : A) : res (list A) :=
  match l, i with
  | [], _ => Err IndexError
  | _ :: l', O => Ok (x :: l')
  | y :: l', S i' => rmap (cons y) (set_nth l' i' x)
  end.
(** base.py:128-134 (__setitem__) for surface[i, j] = x *)
Definition set_item (a : array (list (list f64))) (i j : nat) (x : f64) : res (array (list (list f64))) :=
  if negb (writeable a) then Err ValueError else
  match nth_error (cells a) i with
  | None => Err IndexError
  | Some row => rbind (set_nth row j x) (fun row' => rmap (fun d => Array d true) (set_nth (cells a) i row'))
  end.
End readers.
Arguments Array {A}. Arguments cells {A}. Arguments writeable {A}.
