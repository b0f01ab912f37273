(** What X3P and PLUX archives say, written down without the readers' machinery. *)
From Coq Require Import String ZArith List Bool.
From Flocq Require Import IEEE754.Binary IEEE754.Bits.
From Verif Require Import Base ModelBytes ModelSur ModelFormats ModelReaders ModelZip SpecReaders.
Import ListNotations.
Local Open Scope list_scope.
Local Open Scope Z_scope.

(** a file in an archive; of several with one name the last counts *)
Definition holds (a : archive) (name : pystr) (b : bytes) : Prop :=
  exists before after, a = before ++ (name, b) :: after /\ ~ In name (map fst after).
(** an element is reached from another by tags, at positions among the children *)
Inductive leads : elem -> list pystr -> list nat -> elem -> Prop :=
| leads_here e : leads e [] [] e
| leads_down e c i tags pos d : nth_error (ekids e) i = Some c -> leads c tags pos d -> leads e (etag c :: tags) (i :: pos) d.
(** document order *)
Inductive earlier : list nat -> list nat -> Prop :=
| earlier_above i pos : earlier [] (i :: pos)
| earlier_before i j pos pos' : (i < j)%nat -> earlier (i :: pos) (j :: pos')
| earlier_within i pos pos' : earlier pos pos' -> earlier (i :: pos) (i :: pos').
(** the first element under a path *)
Definition first_at (e : elem) (path : list string) (c : elem) : Prop :=
  exists pos, leads e (map str path) pos c /\ forall pos' d, leads e (map str path) pos' d -> pos' = pos \/ earlier pos pos'.
Definition says (e : elem) (path : list string) (s : pystr) : Prop := exists c, first_at e path c /\ etext c = Some s.
(** whitespace, and texts without it at the ends *)
Definition spaces : list Z :=
  [9; 10; 11; 12; 13; 28; 29; 30; 31; 32; 133; 160; 5760; 8192; 8193; 8194; 8195; 8196; 8197; 8198; 8199; 8200; 8201; 8202; 8232; 8233; 8239; 8287; 12288].
Definition blank (s : pystr) : Prop := Forall (fun c => In c spaces) s.
Definition starts_dark (s : pystr) : Prop := match s with [] => False | c :: _ => ~ In c spaces end.
(** s is t without the whitespace at its ends, and not empty *)
Definition trimmed (t s : pystr) : Prop := exists a b, t = a ++ s ++ b /\ blank a /\ blank b /\ starts_dark s /\ starts_dark (rev s).
(** the first word of a text *)
Definition begins_with_word (t w : pystr) : Prop :=
  exists a b, t = a ++ w ++ b /\ blank a /\ w <> [] /\ Forall (fun c => ~ In c spaces) w /\ (b = [] \/ exists c b', b = c :: b' /\ In c spaces).

(** ** X3P *)
(** the names of the texts of an element, and the last text of a name *)
Definition text_of (e : elem) (key : pystr) (pos : list nat) (s : pystr) : Prop :=
  exists tags c t, leads e tags pos c /\ concat tags = key /\ etext c = Some t /\ trimmed t s.
Definition last_text (e : elem) (key : pystr) (s : pystr) : Prop :=
  exists pos, text_of e key pos s /\ forall pos' s', text_of e key pos' s' -> pos' = pos \/ earlier pos' pos.
(** what main.xml says of the heights *)
Record x3p_header := { x_type : string; x_dx : f64; x_dy : f64; x_nx : Z; x_ny : Z; x_link : pystr }.
Definition x3p_says (py : python) (root : elem) (h : x3p_header) : Prop :=
  exists r1 r3 axes cx cy cz dims tx ty snx sny snz,
    first_at root ["Record1"%string] r1 /\ first_at root ["Record3"%string] r3 /\ says r1 ["FeatureType"%string] (str "SUR") /\
    first_at r1 ["Axes"%string] axes /\ first_at axes ["CX"%string] cx /\ first_at axes ["CY"%string] cy /\ first_at axes ["CZ"%string] cz /\
    says cz ["DataType"%string] (str (x_type h)) /\ In (x_type h) ["I"; "L"; "F"; "D"]%string /\
    says cx ["Increment"%string] tx /\ to_float py tx = Ok (x_dx h) /\ says cy ["Increment"%string] ty /\ to_float py ty = Ok (x_dy h) /\
    first_at r3 ["MatrixDimension"%string] dims /\
    says dims ["SizeX"%string] snx /\ to_int py snx = Ok (x_nx h) /\ says dims ["SizeY"%string] sny /\ to_int py sny = Ok (x_ny h) /\
    says dims ["SizeZ"%string] snz /\ to_int py snz = Ok 1 /\
    says r3 ["DataLink"; "PointDataLink"]%string (x_link h).
(** the bytes of a value, and what becomes of the p-th value *)
Definition x3p_size (t : string) : nat := if String.eqb t "I" then 2%nat else if String.eqb t "D" then 8%nat else 4%nat.
Definition million : f64 := f64_of_Z 1000000.
Definition x3p_value (t : string) (b : bytes) (p : nat) : f64 :=
  if String.eqb t "D" then fmul (f64_at b (8 * p)) million
  else if String.eqb t "F" then f64_of_f32 (fmul32 (f32_at b (4 * p)) (f32_of_f64 million))
  else if String.eqb t "L" then f64_of_Z ((u32 b (4 * p) * 1000000) mod 2 ^ 32)
  else f64_of_Z ((u16 b (2 * p) * 1000000) mod 2 ^ 32).
(** the dates can be parsed *)
Definition dates_parse (py : python) (root : elem) : Prop :=
  forall r2 k s, first_at root ["Record2"%string] r2 -> In k ["Date"; "CalibrationDate"]%string -> last_text r2 (str k) s -> exists d, to_date py s = Ok d.
(** the metadata: under every name the last text, the dates as dates *)
Definition metadata_of (py : python) (r2 : elem) (m : metadata) : Prop :=
  NoDup (map fst m) /\
  (forall k, k <> str "Date" -> k <> str "CalibrationDate" -> forall v, In (k, v) m <-> exists s, v = MText s /\ last_text r2 k s) /\
  (forall k, In k [str "Date"; str "CalibrationDate"] -> forall v, In (k, v) m <-> exists s d, v = MDate d /\ last_text r2 k s /\ to_date py s = Ok d).
Definition x3p_content (py : python) (en : encoding) (b : bytes) (a : archive) (root : elem) : Prop :=
  unzip py b = Ok a /\ exists hexfile hex xml, holds a (str "md5checksum.hex") hexfile /\ decode en hexfile = Ok hex /\ holds a (str "main.xml") xml /\
    begins_with_word hex (md5 py xml) /\ parse_xml py xml = Ok root.
Definition x3p_surface (py : python) (en : encoding) (b : bytes) (s : raw) : Prop :=
  exists a root h points, x3p_content py en b a root /\ x3p_says py root h /\ holds a (x_link h) points /\ dates_parse py root /\
    0 <= x_nx h /\ 0 <= x_ny h /\ length points = (x3p_size (x_type h) * (Z.to_nat (x_ny h) * Z.to_nat (x_nx h)))%nat /\
    (x_type h = "I"%string -> numpy2 py = false) /\
    table_is (rdata s) (Z.to_nat (x_ny h)) (Z.to_nat (x_nx h)) (fun i j x => x = x3p_value (x_type h) points (i * Z.to_nat (x_nx h) + j)) /\
    rstep_x s = fmul (x_dx h) million /\ rstep_y s = fmul (x_dy h) million.

(** ** PLUX *)
(** the entries of the INFO section can be read: each has a name, and each of the six selected a value *)
Definition plux_names : list string := ["Device"; "Objective"; "Technique"; "Measurement Type"; "Algorithm"; "Comment"]%string.
Definition ends_of (t s : pystr) : Prop := trimmed t s \/ (blank t /\ s = []).
Definition info_readable (root : elem) : Prop :=
  forall info i, first_at root ["INFO"%string] info -> In i (ekids info) -> (exists r, etag i = str "ITEM_" ++ r) ->
    exists t n, says i ["NAME"%string] t /\ ends_of t n /\ (In n (map str plux_names) -> exists v, says i ["VALUE"%string] v).
Definition plux_says (py : python) (root : elem) (nx ny : Z) (sx sy : f64) : Prop :=
  exists snx sny tx ty dt d, says root ["GENERAL"; "DATE"]%string dt /\ to_date py dt = Ok d /\
    says root ["GENERAL"; "IMAGE_SIZE_X"]%string snx /\ to_int py snx = Ok nx /\ says root ["GENERAL"; "IMAGE_SIZE_Y"]%string sny /\ to_int py sny = Ok ny /\
    says root ["GENERAL"; "FOV_X"]%string tx /\ to_float py tx = Ok sx /\ says root ["GENERAL"; "FOV_Y"]%string ty /\ to_float py ty = Ok sy.
(** the document of a PLUX archive *)
Definition plux_document (py : python) (en : encoding) (a : archive) (root : elem) : Prop :=
  exists xmlfile xml, holds a (str "index.xml") xmlfile /\ decode en xmlfile = Ok xml /\ parse_xml_text py xml = Ok root.
Definition plux_surface (py : python) (en : encoding) (b : bytes) (a : archive) (nx ny : Z) (rows : list (list f64)) (sx sy : f64) : Prop :=
  unzip py b = Ok a /\ exists heights root, holds a (str "LAYER_0.raw") heights /\ plux_document py en a root /\ plux_says py root nx ny sx sy /\ info_readable root /\ 0 <= nx /\ 0 <= ny /\
    (4 * (Z.to_nat ny * Z.to_nat nx) <= length heights)%nat /\
    table_is rows (Z.to_nat ny) (Z.to_nat nx) (fun i j x => x = single_at heights (4 * (i * Z.to_nat nx + j))).
(** the image: three bytes per point, grey if they agree everywhere *)
Definition plux_picture (a : archive) (nx ny : Z) (l : image_layers) : Prop :=
  exists img, holds a (str "LAYER_0.stack.raw") img /\ length img = (3 * (Z.to_nat ny * Z.to_nat nx))%nat /\
    let at_ i j k := byte img (3 * (i * Z.to_nat nx + j) + k) in
    let grey := forall i j, (i < Z.to_nat ny)%nat -> (j < Z.to_nat nx)%nat -> at_ i j 0%nat = at_ i j 1%nat /\ at_ i j 0%nat = at_ i j 2%nat in
    (grey /\ l = [("Grayscale"%string, grid (Z.to_nat ny) (Z.to_nat nx) (fun i j => [at_ i j 0%nat]))]) \/
    (~ grey /\ l = [("RGB"%string, grid (Z.to_nat ny) (Z.to_nat nx) (fun i j => [at_ i j 0%nat; at_ i j 1%nat; at_ i j 2%nat]))]).
(** the metadata: the date, and under the lower-case form of each of the six names the value of the last item of that name, without the
    whitespace at its ends *)
Definition item_named (i : elem) (n : string) : Prop := (exists r, etag i = str "ITEM_" ++ r) /\ exists t, says i ["NAME"%string] t /\ ends_of t (str n).
Definition last_value (root : elem) (n : string) (s : pystr) : Prop :=
  exists info before i after t, first_at root ["INFO"%string] info /\ ekids info = before ++ i :: after /\ item_named i n /\
    (forall i', In i' after -> ~ item_named i' n) /\ says i ["VALUE"%string] t /\ ends_of t s.
Definition plux_keys : list (string * string) :=
  [("Device", "device"); ("Objective", "objective"); ("Technique", "technique"); ("Measurement Type", "measurement type"); ("Algorithm", "algorithm"); ("Comment", "comment")]%string.
Definition plux_metadata_is (py : python) (root : elem) (m : metadata) : Prop :=
  NoDup (map fst m) /\ forall k v, In (k, v) m <->
    (k = str "timestamp" /\ exists dt d, says root ["GENERAL"; "DATE"]%string dt /\ to_date py dt = Ok d /\ v = MDate d) \/
    (exists n key s, In (n, key) plux_keys /\ k = str key /\ last_value root n s /\ v = MText s).
(** str.lower on the six names *)
Definition lowers (py : python) : Prop := forall n key, In (n, key) plux_keys -> to_lower py (str n) = str key.
