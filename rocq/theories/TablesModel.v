(** * TablesModel: model of utilities/RTCM_utilities.py *)
From Verif Require Import PyBase PyDict PyFloat.
Local Open Scope string_scope.
Local Open Scope Z_scope.

(** utilities/RTCM_utilities.py:36-39 [LEGT.LEG1_MSG_LIST .. LEG4_MSG_LIST] *)
Definition LEG1_MSG_LIST : list (Z * string) := [(1001, "G"); (1009, "R")].
Definition LEG2_MSG_LIST : list (Z * string) := [(1002, "G"); (1010, "R")].
Definition LEG3_MSG_LIST : list (Z * string) := [(1003, "G"); (1011, "R")].
Definition LEG4_MSG_LIST : list (Z * string) := [(1004, "G"); (1012, "R")].

(** utilities/RTCM_utilities.py:41-63 [LEGT.legacy_subset] *)
Definition legacy_subset (num : Z) : string * string :=
  if (num <? 1001) || (1012 <? num) then ("", "")
  else match zget LEG1_MSG_LIST num with
  | Some g => (g, "LEG1")
  | None =>
  match zget LEG2_MSG_LIST num with
  | Some g => (g, "LEG2")
  | None =>
  match zget LEG3_MSG_LIST num with
  | Some g => (g, "LEG3")
  | None =>
  match zget LEG4_MSG_LIST num with
  | Some g => (g, "LEG4")
  | None => ("", "")
  end end end end.

(** utilities/RTCM_utilities.py:72-80 [EPHT.EPH_MSG_LIST] *)
Definition EPH_MSG_LIST : list (Z * string) :=
  [(1019, "G"); (1020, "R"); (1045, "E"); (1046, "E"); (1044, "Q"); (1042, "B"); (1041, "I")].

(** utilities/RTCM_utilities.py:82-91 [EPHT.eph_subset] *)
Definition eph_subset (num : Z) : string * string :=
  match zget EPH_MSG_LIST num with Some g => (g, "EPH") | None => ("", "") end.

(** utilities/RTCM_utilities.py:98 [MSMT.CRNG_1MS = 299792.458] *)
Definition CRNG_1MS : flt := dec_lit 299792458 3.

(** utilities/RTCM_utilities.py:100-108 [MSMT.MSM7_MSG_LIST] *)
Definition MSM7_MSG_LIST : list (Z * string) :=
  [(1077, "G"); (1087, "R"); (1097, "E"); (1107, "S"); (1117, "Q"); (1127, "B"); (1137,
   "I")].

(** utilities/RTCM_utilities.py:109-117 [MSMT.MSM6_MSG_LIST] *)
Definition MSM6_MSG_LIST : list (Z * string) :=
  [(1076, "G"); (1086, "R"); (1096, "E"); (1106, "S"); (1116, "Q"); (1126, "B"); (1136,
   "I")].

(** utilities/RTCM_utilities.py:118-126 [MSMT.MSM5_MSG_LIST] *)
Definition MSM5_MSG_LIST : list (Z * string) :=
  [(1075, "G"); (1085, "R"); (1095, "E"); (1105, "S"); (1115, "Q"); (1125, "B"); (1135,
   "I")].

(** utilities/RTCM_utilities.py:127-135 [MSMT.MSM4_MSG_LIST] *)
Definition MSM4_MSG_LIST : list (Z * string) :=
  [(1074, "G"); (1084, "R"); (1094, "E"); (1104, "S"); (1114, "Q"); (1124, "B"); (1134,
   "I")].

(** utilities/RTCM_utilities.py:136-144 [MSMT.MSM3_MSG_LIST] *)
Definition MSM3_MSG_LIST : list (Z * string) :=
  [(1073, "G"); (1083, "R"); (1093, "E"); (1103, "S"); (1113, "Q"); (1123, "B"); (1133,
   "I")].

(** utilities/RTCM_utilities.py:145-153 [MSMT.MSM2_MSG_LIST] *)
Definition MSM2_MSG_LIST : list (Z * string) :=
  [(1072, "G"); (1082, "R"); (1092, "E"); (1102, "S"); (1112, "Q"); (1122, "B"); (1132,
   "I")].

(** utilities/RTCM_utilities.py:154-162 [MSMT.MSM1_MSG_LIST] *)
Definition MSM1_MSG_LIST : list (Z * string) :=
  [(1071, "G"); (1081, "R"); (1091, "E"); (1101, "S"); (1111, "Q"); (1121, "B"); (1131,
   "I")].

(** utilities/RTCM_utilities.py:165-165 [MSMT.__NAVIC_LIT] *)
Definition NAVIC_LIT : list (Z * string) :=
  [(8, "9A"); (22, "5A")].

(** utilities/RTCM_utilities.py:167-177 [MSMT.__BDS_LIT] *)
Definition BDS_LIT : list (Z * string) :=
  [(2, "2I"); (3, "2Q"); (4, "2X"); (8, "6I"); (9, "6Q"); (10, "6X"); (14, "7I"); (15,
   "7Q"); (16, "7X")].

(** utilities/RTCM_utilities.py:179-193 [MSMT.__QZSS_LIT] *)
Definition QZSS_LIT : list (Z * string) :=
  [(2, "1C"); (30, "1S"); (31, "1L"); (32, "1X"); (9, "6S"); (10, "6L"); (11, "6X"); (15,
   "2S"); (16, "2L"); (17, "2X"); (22, "5I"); (23, "5Q"); (24, "5X")].

(** utilities/RTCM_utilities.py:195-195 [MSMT.__SBAS_LIT] *)
Definition SBAS_LIT : list (Z * string) :=
  [(2, "1C"); (22, "5I"); (23, "5Q"); (24, "5X")].

(** utilities/RTCM_utilities.py:197-217 [MSMT.__GAL_LIT] *)
Definition GAL_LIT : list (Z * string) :=
  [(2, "1C"); (3, "1A"); (4, "1B"); (5, "1X"); (6, "1Z"); (8, "6C"); (9, "6A"); (10,
   "6B"); (11, "6X"); (12, "6Z"); (14, "7I"); (15, "7Q"); (16, "7X"); (18, "8I"); (19,
   "8Q"); (20, "8X"); (22, "5I"); (23, "5Q"); (24, "5X")].

(** utilities/RTCM_utilities.py:219-235 [MSMT.__GPS_LIT] *)
Definition GPS_LIT : list (Z * string) :=
  [(2, "1C"); (3, "1P"); (4, "1W"); (30, "1S"); (31, "1L"); (32, "1X"); (8, "2C"); (9,
   "2P"); (10, "2W"); (15, "2S"); (16, "2L"); (17, "2X"); (22, "5I"); (23, "5Q"); (24,
   "5X")].

(** utilities/RTCM_utilities.py:237-237 [MSMT.__GLN_LIT] *)
Definition GLN_LIT : list (Z * string) :=
  [(2, "1C"); (3, "1P"); (8, "2C"); (9, "2P")].

(** utilities/RTCM_utilities.py:250-259 [MSMT.__NAVIC_CF] *)
Definition NAVIC_CF : list (string * flt) :=
  [("5A", dec_lit 117645 2); ("5B", dec_lit 117645 2); ("5C", dec_lit 117645 2); ("5X",
   dec_lit 117645 2); ("9A", dec_lit 2492028 3); ("9B", dec_lit 2492028 3); ("9C", dec_lit
   2492028 3); ("9X", dec_lit 2492028 3)].

(** utilities/RTCM_utilities.py:261-285 [MSMT.__BDS_CF] *)
Definition BDS_CF : list (string * flt) :=
  [("2I", dec_lit 1561098 3); ("2Q", dec_lit 1561098 3); ("2X", dec_lit 1561098 3); ("1D",
   dec_lit 157542 2); ("1P", dec_lit 157542 2); ("1X", dec_lit 157542 2); ("1A", dec_lit
   157542 2); ("1N", dec_lit 157542 2); ("5D", dec_lit 117645 2); ("5P", dec_lit 117645
   2); ("5X", dec_lit 117645 2); ("7I", dec_lit 1207140 3); ("7Q", dec_lit 1207140 3);
   ("7X", dec_lit 1207140 3); ("7D", dec_lit 1207140 3); ("7P", dec_lit 1207140 3); ("7Z",
   dec_lit 1207140 3); ("8D", dec_lit 1191795 3); ("8P", dec_lit 1191795 3); ("8X",
   dec_lit 1191795 3); ("6I", dec_lit 126852 2); ("6Q", dec_lit 126852 2); ("6X", dec_lit
   126852 2)].

(** utilities/RTCM_utilities.py:287-307 [MSMT.__QZSS_CF] *)
Definition QZSS_CF : list (string * flt) :=
  [("1C", dec_lit 157542 2); ("1S", dec_lit 157542 2); ("1L", dec_lit 157542 2); ("1X",
   dec_lit 157542 2); ("1Z", dec_lit 157542 2); ("2S", dec_lit 122760 2); ("2L", dec_lit
   122760 2); ("2X", dec_lit 122760 2); ("5I", dec_lit 117645 2); ("5Q", dec_lit 117645
   2); ("5X", dec_lit 117645 2); ("5D", dec_lit 117645 2); ("5P", dec_lit 117645 2);
   ("5Z", dec_lit 117645 2); ("6S", dec_lit 127875 2); ("6L", dec_lit 127875 2); ("6X",
   dec_lit 127875 2); ("6E", dec_lit 127875 2); ("6Z", dec_lit 127875 2)].

(** utilities/RTCM_utilities.py:309-309 [MSMT.__SBAS_CF] *)
Definition SBAS_CF : list (string * flt) :=
  [("1C", dec_lit 157542 2); ("5I", dec_lit 117645 2); ("5Q", dec_lit 117645 2); ("5X",
   dec_lit 117645 2)].

(** utilities/RTCM_utilities.py:311-331 [MSMT.__GAL_CF] *)
Definition GAL_CF : list (string * flt) :=
  [("1A", dec_lit 157542 2); ("1B", dec_lit 157542 2); ("1C", dec_lit 157542 2); ("1Z",
   dec_lit 157542 2); ("1X", dec_lit 157542 2); ("5I", dec_lit 117645 2); ("5Q", dec_lit
   117645 2); ("5X", dec_lit 117645 2); ("7I", dec_lit 1207140 3); ("7Q", dec_lit 1207140
   3); ("7X", dec_lit 1207140 3); ("8I", dec_lit 1191795 3); ("8Q", dec_lit 1191795 3);
   ("8X", dec_lit 1191795 3); ("6A", dec_lit 127875 2); ("6B", dec_lit 127875 2); ("6C",
   dec_lit 127875 2); ("6X", dec_lit 127875 2); ("6Z", dec_lit 127875 2)].

(** utilities/RTCM_utilities.py:333-356 [MSMT.__GPS_CF] *)
Definition GPS_CF : list (string * flt) :=
  [("1C", dec_lit 157542 2); ("1S", dec_lit 157542 2); ("1L", dec_lit 157542 2); ("1X",
   dec_lit 157542 2); ("1P", dec_lit 157542 2); ("1W", dec_lit 157542 2); ("1Y", dec_lit
   157542 2); ("1M", dec_lit 157542 2); ("1N", dec_lit 157542 2); ("2C", dec_lit 122760
   2); ("2D", dec_lit 122760 2); ("2S", dec_lit 122760 2); ("2L", dec_lit 122760 2);
   ("2X", dec_lit 122760 2); ("2P", dec_lit 122760 2); ("2W", dec_lit 122760 2); ("2Y",
   dec_lit 122760 2); ("2M", dec_lit 122760 2); ("2N", dec_lit 122760 2); ("5I", dec_lit
   117645 2); ("5Q", dec_lit 117645 2); ("5X", dec_lit 117645 2)].

(** utilities/RTCM_utilities.py:358-373 [MSMT.__GLN_CF] *)
Definition GLN_CF : list (string * flt) :=
  [("1C", dec_lit 16020 1); ("1P", dec_lit 16020 1); ("4A", dec_lit 1600995 3); ("4B",
   dec_lit 1600995 3); ("4X", dec_lit 1600995 3); ("2C", dec_lit 12460 1); ("2P", dec_lit
   12460 1); ("6A", dec_lit 124806 2); ("6B", dec_lit 124806 2); ("6X", dec_lit 124806 2);
   ("25", dec_lit 12020 1); ("3I", dec_lit 12020 1); ("3Q", dec_lit 12020 1); ("3X",
   dec_lit 12020 1)].

(** utilities/RTCM_utilities.py:239-247 [MSMT.__MSM2RINEX_TAB] *)
Definition MSM2RINEX_TAB : list (string * list (Z * string)) :=
  [("G", GPS_LIT); ("R", GLN_LIT); ("E", GAL_LIT); ("S", SBAS_LIT); ("Q", QZSS_LIT);
   ("B", BDS_LIT); ("I", NAVIC_LIT)].

(** utilities/RTCM_utilities.py:375-383 [MSMT._RINEX_CF_TAB] *)
Definition RINEX_CF_TAB : list (string * list (string * flt)) :=
  [("G", GPS_CF); ("R", GLN_CF); ("E", GAL_CF); ("S", SBAS_CF); ("Q", QZSS_CF);
   ("B", BDS_CF); ("I", NAVIC_CF)].

(** utilities/RTCM_utilities.py:385-394 [MSMT.rnx_lit] *)
Definition rnx_lit (gnss : string) (msm_code : Z) : option string :=
  match sget MSM2RINEX_TAB gnss with
  | Some tab => zget tab msm_code
  | None => None
  end.

(** utilities/RTCM_utilities.py:396-402 [MSMT.crr_frq].  [sgn] may be None (an unknown
    signal number): None is not a key, so the lookup raises KeyError. *)
Definition crr_frq (gnss : string) (sgn : option string) : res flt :=
  tab <- sindex RINEX_CF_TAB gnss ;;
  match sgn with Some s => sindex tab s | None => Err EKey end.

(** utilities/RTCM_utilities.py:404-438 [MSMT.msm_subset] *)
Definition msm_subset (num : Z) : string * string :=
  if (num <? 1071) || (1137 <? num) then ("", "")
  else match zget MSM7_MSG_LIST num with
  | Some g => (g, "MSM7")
  | None =>
  match zget MSM6_MSG_LIST num with
  | Some g => (g, "MSM6")
  | None =>
  match zget MSM5_MSG_LIST num with
  | Some g => (g, "MSM5")
  | None =>
  match zget MSM4_MSG_LIST num with
  | Some g => (g, "MSM4")
  | None =>
  match zget MSM3_MSG_LIST num with
  | Some g => (g, "MSM3")
  | None =>
  match zget MSM2_MSG_LIST num with
  | Some g => (g, "MSM2")
  | None =>
  match zget MSM1_MSG_LIST num with
  | Some g => (g, "MSM1")
  | None => ("", "")
  end end end end end end end.

(** utilities/RTCM_utilities.py:13-27 [getSubset] *)
Definition getSubset (num : Z) : string * string :=
  if existsb (Z.eqb num) [1001; 1002; 1003; 1004; 1009; 1010; 1011; 1012]
  then legacy_subset num
  else if existsb (Z.eqb num) [1019; 1020] then eph_subset num
  else if (1041 <=? num) && (num <=? 1046) then eph_subset num
  else if (1071 <=? num) && (num <=? 1137) then msm_subset num
  else ("", "").

(** utilities/RTCM_utilities.py:440-448 [MSMT.unpack_clk_steer] *)
Definition unpack_clk_steer (code : Z) : string :=
  if code =? 0 then "OFF" else if code =? 1 then "ON" else "UNDEF".

(** utilities/RTCM_utilities.py:450-460 [MSMT.unpack_clk_ext] *)
Definition unpack_clk_ext (code : Z) : string :=
  if code =? 0 then "INTERNAL" else if code =? 1 then "EXT-LOCK"
  else if code =? 2 then "EXT-UNLOCK" else "UNDEF".

(** utilities/RTCM_utilities.py:462-465 [MSMT.unpack_smth_indc] *)
Definition unpack_smth_indc (code : Z) : string :=
  if code =? 1 then "DVRG-FREE" else "UNDEF".

(** utilities/RTCM_utilities.py:467-485 [MSMT.unpack_smth_intr] *)
Definition unpack_smth_intr (code : Z) : string :=
  if code =? 0 then "NOSMTH" else if code =? 1 then "00-30" else if code =? 2 then "30-60"
  else if code =? 3 then "60-120" else if code =? 4 then "120-240"
  else if code =? 5 then "240-480" else if code =? 6 then "480+" else "UNLIM".

(** utilities/RTCM_utilities.py:487-501 [MSMT.unpack_tlock10].  For [64 <= t < 704] the
    shift count k is in 1..20, so [1 << k] cannot raise. *)
Definition unpack_tlock10 (t : Z) : Z :=
  if t <? 64 then t
  else if t <? 704 then
    let k := Z.shiftr t 5 - 1 in Z.shiftl 1 k * (t - 32 * k)
  else if t =? 704 then 67108864
  else 0.

(** utilities/RTCM_utilities.py:503-506 [MSMT.unpack_tlock4].  [1 << (4+t)] would raise for
    t < -4; the argument is an unsigned 4-bit field. *)
Definition unpack_tlock4 (t : Z) : Z := if t =? 0 then 0 else Z.shiftl 1 (4 + t).

(** utilities/RTCM_utilities.py:508-531 [MSMT.isDF405_OK .. isDF404_OK] *)
Definition isDF405_OK (x : Z) : bool := negb (Z.land x 0xFFFFF =? 0x80000).
Definition isDF406_OK (x : Z) : bool := negb (Z.land x 0xFFFFFF =? 0x800000).
Definition isDF400_OK (x : Z) : bool := negb (Z.land x 0x7FFF =? 0x4000).
Definition isDF401_OK (x : Z) : bool := negb (Z.land x 0x3FFFFF =? 0x200000).
Definition isDF404_OK (x : Z) : bool := negb (Z.land x 0x7FFF =? 0x4000).
