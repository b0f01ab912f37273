(** Unit conversion, surfalize/file/common.py:16-142. *)
From Coq Require Import String ZArith Lia Bool Reals.
From Coq Require Import List.
From Verif Require Import Base ModelBytes.
Import ListNotations.
Local Open Scope Z_scope.

(** common.py:16-46 (ENCODINGS, get_possible_mu_decodings): every string obtained by encoding U+00B5 with one of the
    listed codecs and decoding the bytes with another.  The set depends only on the codec tables of the Python
    standard library; it was tabulated with CPython 3.11. *)
Definition mu_decodings : list pystr := [
  [0;0;0;64]; [0;0;0;167]; [0;0;0;181]; [0;0;0;193]; [0;0;0;260]; [0;0;0;297]; [0;0;0;310]; [0;0;0;318]; 
  [0;0;0;901]; [0;0;0;914]; [0;0;0;922]; [0;0;0;943]; [0;0;0;1045]; [0;0;0;1093]; [0;0;0;1250]; [0;0;0;1257]; 
  [0;0;0;1637]; [0;0;0;3605]; [0;0;0;7745]; [0;0;0;8221]; [0;0;0;9569]; [0;0;0;9571]; [0;0;0;64342]; [0;0;0;65397]; 
  [0;64]; [0;167]; [0;181]; [0;181;0]; [0;193]; [0;260]; [0;297]; [0;310]; [0;318]; [0;901]; [0;914]; [0;922]; 
  [0;943]; [0;1045]; [0;1093]; [0;1250]; [0;1257]; [0;1637]; [0;3605]; [0;7745]; [0;8221]; [0;9569]; [0;9571]; 
  [0;46336]; [0;64342]; [0;65397]; [43;65;76;85;45]; [64]; [64;0]; [64;0;0;0]; [66;64]; [66;167]; [66;943]; [87]; 
  [97;144;101;152]; [129;48;133;56]; [129;48;224;56]; [139;160;60;237;5]; [139;913;60;926;5]; [139;1488;60;1501;5]; 
  [159;187;0;0;943;0;0;0]; [159;187;943;0]; [159;218;0;0;64;0;0;0]; [159;218;0;0;167;0;0;0]; [159;218;64;0]; 
  [159;218;167;0]; [160]; [160;9632;0;0;193;0;0;0]; [160;9632;0;0;260;0;0;0]; [160;9632;0;0;922;0;0;0]; 
  [160;9632;0;0;1093;0;0;0]; [160;9632;0;0;9569;0;0;0]; [160;9632;193;0]; [160;9632;260;0]; [160;9632;922;0]; 
  [160;9632;1093;0]; [160;9632;9569;0]; [166]; [167]; [167;0]; [167;0;0;0]; [172;181]; [172;310]; [172;914]; 
  [172;964;968;66;943]; [173;944;0;0;914;0;0;0]; [173;944;914;0]; [180]; [180;9559;9488;9516;193]; [181]; [181;0]; 
  [181;0;0;0]; [183;48;9472;56]; [185;48;214;56]; [193]; [193;0]; [193;0;0;0]; [194;181]; [194;297]; [194;318]; 
  [194;7745]; [194;8221]; [197;48;214;56]; [202]; [212;170;248;172;181]; [212;317;325;172;310]; [213;93;215;66;167]; 
  [213;124;215;66;64]; [213;124;215;66;167]; [221]; [225]; [230]; [239;187;191;194;181]; [239;187;380;194;8221]; 
  [239;187;1567;1570;181]; [239;287;380;194;181]; [239;359;331;194;297]; [239;7776;7777;194;7745]; [252;48;224;56]; 
  [252;48;291;56]; [252;48;367;56]; [255;254;0;0;181;0;0;0]; [255;254;181;0]; [255;351;0;0;181;0;0;0]; 
  [255;351;181;0]; [255;375;0;0;7745;0;0;0]; [255;375;7745;0]; [255;539;0;0;8221;0;0;0]; [255;539;8221;0]; 
  [255;8363;0;0;181;0;0;0]; [255;8363;181;0]; [256]; [256;48;214;56]; [256;181]; [260]; [260;0]; [260;0;0;0]; [263]; 
  [265]; [271;187;380;194;181]; [271;357;380;194;318]; [281]; [297]; [297;0]; [297;0;0;0]; [299;291;331;194;297]; 
  [310]; [310;0]; [310;0;0;0]; [312;254;0;0;297;0;0;0]; [312;254;297;0]; [316;187;230;256;181]; [318]; [318;0]; 
  [318;0;0;0]; [347]; [352]; [711;290;0;0;310;0;0;0]; [711;290;310;0]; [711;731;0;0;181;0;0;0]; [711;731;181;0]; 
  [729;349;0;0;181;0;0;0]; [729;349;181;0]; [729;355;0;0;181;0;0;0]; [729;355;0;0;318;0;0;0]; [729;355;181;0]; 
  [729;355;318;0]; [729;363;0;0;297;0;0;0]; [729;363;297;0]; [729;382;0;0;181;0;0;0]; [729;382;181;0]; 
  [900;9559;9488;9516;922]; [901]; [901;0]; [901;0;0;0]; [910;9559;9488;9516;9569]; [914]; [914;0]; [914;0;0;0]; 
  [914;48;918;56]; [914;181]; [914;901]; [922]; [922;0]; [922;0;0;0]; [943]; [943;0]; [943;0;0;0]; [950]; [953]; 
  [956]; [959;187;911;914;181]; [959;187;911;914;901]; [959;924;937;172;914]; [966]; [970]; [972]; 
  [1026;48;1025;56]; [1027;48;8230;56]; [1041;48;1045;56]; [1042;181]; [1042;1257]; [1045]; [1045;0]; [1045;0;0;0]; 
  [1054;187;169;1073;1250]; [1054;9577;169;1073;9571]; [1058]; [1058;1045]; [1060]; [1066;1063;0;0;1250;0;0;0]; 
  [1066;1063;0;0;9571;0;0;0]; [1066;1063;1250;0]; [1066;1063;9571;0]; [1072]; [1073;1250]; [1073;9571]; [1078]; 
  [1087;187;1111;1042;181]; [1087;187;1181;1042;1257]; [1087;187;1199;1042;181]; [1087;1111;1114;172;181]; [1093]; 
  [1093;0]; [1093;0;0;0]; [1094]; [1103;1051;1055;1058;1045]; [1103;1102;0;0;181;0;0;0]; [1103;1102;0;0;1257;0;0;0]; 
  [1103;1102;181;0]; [1103;1102;1257;0]; [1103;9559;9488;9516;9569]; [1119;1118;0;0;1045;0;0;0]; [1119;1118;1045;0]; 
  [1170;48;8230;56]; [1171;48;8230;56]; [1250]; [1250;0]; [1250;0;0;0]; [1257]; [1257;0]; [1257;0;0;0]; [1458;181]; 
  [1489;48;1493;56]; [1494]; [1503;187;191;1458;181]; [1570;181]; [1576]; [1606]; [1608]; 
  [1610;9559;9488;9516;9569]; [1637]; [1637;0]; [1637;0;0;0]; [1662;48;8230;56]; [1746;8207;0;0;181;0;0;0]; 
  [1746;8207;181;0]; [3605]; [3605;0]; [3605;0;0;0]; [3618;3605]; [3654]; [3663;3611;3615;3618;3605]; [7745]; 
  [7745;0]; [7745;0;0;0]; [8217;382;0;0;181;0;0;0]; [8217;382;181;0]; [8217;9559;9488;9516;260]; [8221]; [8221;0]; 
  [8221;0;0;0]; [8224]; [8364;1102;0;0;181;0;0;0]; [8364;1102;181;0]; [8470;9559;9488;9516;1093]; 
  [8745;9559;9488;9516;9569]; [9474;48;9496;56]; [9516;193]; [9516;260]; [9516;922]; [9516;1093]; [9516;9569]; 
  [9552]; [9569]; [9569;0]; [9569;0;0;0]; [9571]; [9571;0]; [9571;0;0;0]; [12417;14469]; [30860]; [32341]; 
  [33072;34104]; [34966]; [39712;65407;65410;65397]; [46336]; [46336;0]; [46530]; [49845]; [51721]; [52675]; 
  [63728]; [63731;63730;0;0;65397;0;0;0]; [63731;63730;65397;0]; [64342]; [64342;0]; [64342;0;0;0]; [64404]; 
  [65149;65148;0;0;64342;0;0;0]; [65149;65148;64342;0]; [65153;1637]; [65157;64360;65183;65185;64342]; 
  [65185;64342]; [65249;1563;1567;65153;1637]; [65255]; [65279;0;181;0]; [65279;181]; [65397]; [65397;0]; 
  [65397;0;0;0]; [65410;65397]; [65534;0;46336;0]; [65534;46336] ]%Z.

(** common.py:73-77 (MU_ALIASES): micro sign, Greek mu, square mu m *)
Definition mu_alias (c : Z) : option pystr :=
  if c =? 181 then Some (str "u") else if c =? 956 then Some (str "u") else if c =? 13211 then Some (str "um")
  else None.
(** common.py:96-112 (_sanitize_mu).  The replacements contain no alias, so the three passes are one. *)
Definition sanitize_mu (s : pystr) : pystr :=
  concat (map (fun c => match mu_alias c with Some r => r | None => [c] end) s).
(** common.py:79-94 (UNIT_EXPONENT) *)
Definition unit_table : list (pystr * Z) := [
  (str "m", 0); (str "meter", 0); (str "dm", -1); (str "decimeter", -1); (str "cm", -2); (str "centimeter", -2);
  (str "mm", -3); (str "millimeter", -3); (str "um", -6); (str "micrometer", -6); (str "nm", -9);
  (str "nanometer", -9); (str "pm", -12); (str "picometer", -12)].
(** UNIT_EXPONENT[unit], file/common.py:130-140 *)
Fixpoint lookup (t : list (pystr * Z)) (u : pystr) : option Z :=
  match t with [] => None | (k, e) :: t' => if zs_eqb k u then Some e else lookup t' u end.
(** common.py:50-71 (fix_decoding_issues) *)
Definition fix_decoding (u : pystr) : pystr :=
  match rev u with
  | c :: r => if (c =? 109) && existsb (zs_eqb (rev r)) mu_decodings then str "um" else u
  | [] => u
  end.

(** common.py:130-140: the two arguments are treated differently, only [from] is sanitised.  [lower] is str.lower. *)
Definition resolve (u : pystr) : option Z :=
  match lookup unit_table u with Some e => Some e | None => lookup unit_table (fix_decoding u) end.
(** file/common.py:114-142 (get_unit_conversion) without the power of ten *)
Definition conversion_exponent (lower : pystr -> pystr) (from to : pystr) : res Z :=
  match resolve (lower (sanitize_mu from)) with
  | None => Err ValueError
  | Some e1 => match resolve (lower to) with None => Err ValueError | Some e2 => Ok (e1 - e2) end
  end.
(** common.py:114-142 (get_unit_conversion): 10 ** (e1 - e2), here as an exact real *)
Definition get_unit_conversion (lower : pystr -> pystr) (from to : pystr) : res R :=
  rmap (fun e => powerRZ 10 e) (conversion_exponent lower from to).

(** What is used of Python's str.lower: ASCII letters and the listed Latin-1 capitals map to their lower case
    forms, and the three micro signs are lower case already. *)
Definition lower_char (c : Z) : Z :=
  if (65 <=? c) && (c <=? 90) then c + 32 else if (192 <=? c) && (c <=? 222) && negb (c =? 215) then c + 32 else c.
(** what is used of str.lower *)
Record lower_ok (lower : pystr -> pystr) : Prop := {
  lower_latin : forall s, Forall (fun c => 0 <= c < 256 \/ c = 956 \/ c = 13211) s -> lower s = map lower_char s;
  lower_keeps : forall s c, In c [117; 181; 956; 13211] -> In c s -> In c (lower s) }.
