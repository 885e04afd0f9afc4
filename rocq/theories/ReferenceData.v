(** * ReferenceData: the reference outputs kept in the repository.

    Generated from /repo/RTCM3_TEST_DATA/{MSM7,BASE}/REF (texts; the line ends are those of the
    program, a back quote stands for a line feed and a tilde for a carriage return), and from the
    literals of /repo/tests/ephemeris_test_samples.py:110-710 (objects; a float is given by the double
    nearest to its literal). *)
From Coq Require Import ZArith List String Ascii.
From Coq Require Import SpecFloat.
From Verif Require Import PyBase PyVal.
Import ListNotations.
Local Open Scope string_scope.
Local Open Scope list_scope.
Local Open Scope Z_scope.

(** The text that is written down as [s]. *)
Fixpoint of_reference (s : string) : list Z :=
  match s with
  | EmptyString => []
  | String c r =>
      let z := Z.of_nat (nat_of_ascii c) in
      (if z =? 126 then 13 else if z =? 96 then 10 else z) :: of_reference r
  end.

(** RTCM3_TEST_DATA/MSM7/REF/msg1077-MARGO *)
Definition ref_1077_MARGO : list (list string * list Z) :=
  [
   (["msg1077-log.txt"],
    of_reference "New log file was created.`-------------------------`RTCMDEC:INFO: Opened file E:\PROJECTS\PY\RTCM_DECODER\RTCM3_TEST_DATA\MSM7\msg1077.rtcm3.`RTCMDEC:INFO: Msg 1077. Decoding succeeded. t = 399442000, sats = 11.`RTCMDEC:PROGRESS: 100.00%, 1 messages, prs-dec-prnt errors 0-0-0.`RTCMDEC:INFO: Closing file E:\PROJECTS\PY\RTCM_DECODER\RTCM3_TEST_DATA\MSM7\msg1077.rtcm3.`RTCMDEC:PROGRESS: Finished without errors.`");
   (["GPS"; "GA1C_MSM7.obs"],
    of_reference "         5,   1,   2,   3,   4,   5,   6,   7,   8,   9,  10,  11,  12,  13,  14,  15,  16,  17,  18,  19,  20,  21,  22,  23,  24,  25,  26,  27,  28,  29,  30,  31,  32` 1575.4200,1575.4200,1575.4200,1575.4200,1575.4200,1575.4200,1575.4200,1575.4200,1575.4200,1575.4200,1575.4200,1575.4200,1575.4200,1575.4200,1575.4200,1575.4200,1575.4200,1575.4200,1575.4200,1575.4200,1575.4200,1575.4200,1575.4200,1575.4200,1575.4200,1575.4200,1575.4200,1575.4200,1575.4200,1575.4200,1575.4200,1575.4200,1575.4200` 399442000, nan,   0, nan, nan, nan,   0, nan, nan, nan, nan,   0,   0, nan, nan, nan, nan, nan, nan,   0, nan, nan,   0, nan,   0,   0, nan, nan, nan,   0, nan,   0,   0`");
   (["GPS"; "GA2S_MSM7.obs"],
    of_reference "         5,   1,   2,   3,   4,   5,   6,   7,   8,   9,  10,  11,  12,  13,  14,  15,  16,  17,  18,  19,  20,  21,  22,  23,  24,  25,  26,  27,  28,  29,  30,  31,  32` 1227.6000,1227.6000,1227.6000,1227.6000,1227.6000,1227.6000,1227.6000,1227.6000,1227.6000,1227.6000,1227.6000,1227.6000,1227.6000,1227.6000,1227.6000,1227.6000,1227.6000,1227.6000,1227.6000,1227.6000,1227.6000,1227.6000,1227.6000,1227.6000,1227.6000,1227.6000,1227.6000,1227.6000,1227.6000,1227.6000,1227.6000,1227.6000,1227.6000` 399442000, nan, nan, nan, nan, nan,   0, nan, nan, nan, nan,   0,   0, nan, nan, nan, nan, nan, nan, nan, nan, nan, nan, nan,   0,   0, nan, nan, nan,   0, nan,   0,   0`");
   (["GPS"; "GC1C_MSM7.obs"],
    of_reference "         0,              1,              2,              3,              4,              5,              6,              7,              8,              9,             10,             11,             12,             13,             14,             15,             16,             17,             18,             19,             20,             21,             22,             23,             24,             25,             26,             27,             28,             29,             30,             31,             32` 1575.4200,      1575.4200,      1575.4200,      1575.4200,      1575.4200,      1575.4200,      1575.4200,      1575.4200,      1575.4200,      1575.4200,      1575.4200,      1575.4200,      1575.4200,      1575.4200,      1575.4200,      1575.4200,      1575.4200,      1575.4200,      1575.4200,      1575.4200,      1575.4200,      1575.4200,      1575.4200,      1575.4200,      1575.4200,      1575.4200,      1575.4200,      1575.4200,      1575.4200,      1575.4200,      1575.4200,      1575.4200,      1575.4200` 399442000,            nan,   24498886.701,            nan,            nan,            nan,   22510978.120,            nan,            nan,            nan,            nan,   21623860.804,   20359749.298,            nan,            nan,            nan,            nan,            nan,            nan,   24552670.455,            nan,            nan,   23619588.531,            nan,   24043703.557,   19968818.504,            nan,            nan,            nan,   22561173.853,            nan,   23287023.197,   24080516.409`");
   (["GPS"; "GC2S_MSM7.obs"],
    of_reference "         0,              1,              2,              3,              4,              5,              6,              7,              8,              9,             10,             11,             12,             13,             14,             15,             16,             17,             18,             19,             20,             21,             22,             23,             24,             25,             26,             27,             28,             29,             30,             31,             32` 1227.6000,      1227.6000,      1227.6000,      1227.6000,      1227.6000,      1227.6000,      1227.6000,      1227.6000,      1227.6000,      1227.6000,      1227.6000,      1227.6000,      1227.6000,      1227.6000,      1227.6000,      1227.6000,      1227.6000,      1227.6000,      1227.6000,      1227.6000,      1227.6000,      1227.6000,      1227.6000,      1227.6000,      1227.6000,      1227.6000,      1227.6000,      1227.6000,      1227.6000,      1227.6000,      1227.6000,      1227.6000,      1227.6000` 399442000,            nan,            nan,            nan,            nan,            nan,   22510981.912,            nan,            nan,            nan,            nan,   21623862.105,   20359748.090,            nan,            nan,            nan,            nan,            nan,            nan,            nan,            nan,            nan,            nan,            nan,   24043709.253,   19968821.817,            nan,            nan,            nan,   22561174.730,            nan,   23287022.848,   24080519.507`");
   (["GPS"; "GD1C_MSM7.obs"],
    of_reference "         2,              1,              2,              3,              4,              5,              6,              7,              8,              9,             10,             11,             12,             13,             14,             15,             16,             17,             18,             19,             20,             21,             22,             23,             24,             25,             26,             27,             28,             29,             30,             31,             32` 1575.4200,      1575.4200,      1575.4200,      1575.4200,      1575.4200,      1575.4200,      1575.4200,      1575.4200,      1575.4200,      1575.4200,      1575.4200,      1575.4200,      1575.4200,      1575.4200,      1575.4200,      1575.4200,      1575.4200,      1575.4200,      1575.4200,      1575.4200,      1575.4200,      1575.4200,      1575.4200,      1575.4200,      1575.4200,      1575.4200,      1575.4200,      1575.4200,      1575.4200,      1575.4200,      1575.4200,      1575.4200,      1575.4200` 399442000,            nan,       3635.327,            nan,            nan,            nan,      -1937.647,            nan,            nan,            nan,            nan,        808.353,      -1231.301,            nan,            nan,            nan,            nan,            nan,            nan,      -3709.969,            nan,            nan,       -373.923,            nan,      -3843.491,        730.049,            nan,            nan,            nan,       3075.624,            nan,       2879.668,      -2313.862`");
   (["GPS"; "GD2S_MSM7.obs"],
    of_reference "         2,              1,              2,              3,              4,              5,              6,              7,              8,              9,             10,             11,             12,             13,             14,             15,             16,             17,             18,             19,             20,             21,             22,             23,             24,             25,             26,             27,             28,             29,             30,             31,             32` 1227.6000,      1227.6000,      1227.6000,      1227.6000,      1227.6000,      1227.6000,      1227.6000,      1227.6000,      1227.6000,      1227.6000,      1227.6000,      1227.6000,      1227.6000,      1227.6000,      1227.6000,      1227.6000,      1227.6000,      1227.6000,      1227.6000,      1227.6000,      1227.6000,      1227.6000,      1227.6000,      1227.6000,      1227.6000,      1227.6000,      1227.6000,      1227.6000,      1227.6000,      1227.6000,      1227.6000,      1227.6000,      1227.6000` 399442000,            nan,            nan,            nan,            nan,            nan,      -1509.981,            nan,            nan,            nan,            nan,        629.990,       -959.469,            nan,            nan,            nan,            nan,            nan,            nan,            nan,            nan,            nan,            nan,            nan,      -2994.824,        568.927,            nan,            nan,            nan,       2396.496,            nan,       2244.169,      -1803.084`");
   (["GPS"; "GL1C_MSM7.obs"],
    of_reference "         1,              1,              2,              3,              4,              5,              6,              7,              8,              9,             10,             11,             12,             13,             14,             15,             16,             17,             18,             19,             20,             21,             22,             23,             24,             25,             26,             27,             28,             29,             30,             31,             32` 1575.4200,      1575.4200,      1575.4200,      1575.4200,      1575.4200,      1575.4200,      1575.4200,      1575.4200,      1575.4200,      1575.4200,      1575.4200,      1575.4200,      1575.4200,      1575.4200,      1575.4200,      1575.4200,      1575.4200,      1575.4200,      1575.4200,      1575.4200,      1575.4200,      1575.4200,      1575.4200,      1575.4200,      1575.4200,      1575.4200,      1575.4200,      1575.4200,      1575.4200,      1575.4200,      1575.4200,      1575.4200,      1575.4200` 399442000,            nan, 128742533.9580,            nan,            nan,            nan, 118295997.6990,            nan,            nan,            nan,            nan, 113634160.7381, 106991208.3746,            nan,            nan,            nan,            nan,            nan,            nan, 129025152.6310,            nan,            nan, 124121781.1934,            nan, 126350509.3710, 104936850.8906,            nan,            nan,            nan, 118559763.9714,            nan, 122374148.1756, 126543957.6144`");
   (["GPS"; "GL2S_MSM7.obs"],
    of_reference "         1,              1,              2,              3,              4,              5,              6,              7,              8,              9,             10,             11,             12,             13,             14,             15,             16,             17,             18,             19,             20,             21,             22,             23,             24,             25,             26,             27,             28,             29,             30,             31,             32` 1227.6000,      1227.6000,      1227.6000,      1227.6000,      1227.6000,      1227.6000,      1227.6000,      1227.6000,      1227.6000,      1227.6000,      1227.6000,      1227.6000,      1227.6000,      1227.6000,      1227.6000,      1227.6000,      1227.6000,      1227.6000,      1227.6000,      1227.6000,      1227.6000,      1227.6000,      1227.6000,      1227.6000,      1227.6000,      1227.6000,      1227.6000,      1227.6000,      1227.6000,      1227.6000,      1227.6000,      1227.6000,      1227.6000` 399442000,            nan,            nan,            nan,            nan,            nan,  92178703.8908,            nan,            nan,            nan,            nan,  88546097.2031,  83369772.0546,            nan,            nan,            nan,            nan,            nan,            nan,            nan,            nan,            nan,            nan,            nan,  98454951.1949,  81769007.4181,            nan,            nan,            nan,  92384276.9089,            nan,  95356506.7072,  98605710.6971`");
   (["GPS"; "GS1C_MSM7.obs"],
    of_reference "         3,              1,              2,              3,              4,              5,              6,              7,              8,              9,             10,             11,             12,             13,             14,             15,             16,             17,             18,             19,             20,             21,             22,             23,             24,             25,             26,             27,             28,             29,             30,             31,             32` 1575.4200,      1575.4200,      1575.4200,      1575.4200,      1575.4200,      1575.4200,      1575.4200,      1575.4200,      1575.4200,      1575.4200,      1575.4200,      1575.4200,      1575.4200,      1575.4200,      1575.4200,      1575.4200,      1575.4200,      1575.4200,      1575.4200,      1575.4200,      1575.4200,      1575.4200,      1575.4200,      1575.4200,      1575.4200,      1575.4200,      1575.4200,      1575.4200,      1575.4200,      1575.4200,      1575.4200,      1575.4200,      1575.4200` 399442000,            nan,          39.00,            nan,            nan,            nan,          43.00,            nan,            nan,            nan,            nan,          45.00,          50.00,            nan,            nan,            nan,            nan,            nan,            nan,          35.00,            nan,            nan,          41.00,            nan,          38.00,          49.00,            nan,            nan,            nan,          47.00,            nan,          43.00,          43.00`");
   (["GPS"; "GS2S_MSM7.obs"],
    of_reference "         3,              1,              2,              3,              4,              5,              6,              7,              8,              9,             10,             11,             12,             13,             14,             15,             16,             17,             18,             19,             20,             21,             22,             23,             24,             25,             26,             27,             28,             29,             30,             31,             32` 1227.6000,      1227.6000,      1227.6000,      1227.6000,      1227.6000,      1227.6000,      1227.6000,      1227.6000,      1227.6000,      1227.6000,      1227.6000,      1227.6000,      1227.6000,      1227.6000,      1227.6000,      1227.6000,      1227.6000,      1227.6000,      1227.6000,      1227.6000,      1227.6000,      1227.6000,      1227.6000,      1227.6000,      1227.6000,      1227.6000,      1227.6000,      1227.6000,      1227.6000,      1227.6000,      1227.6000,      1227.6000,      1227.6000` 399442000,            nan,            nan,            nan,            nan,            nan,          43.00,            nan,            nan,            nan,            nan,          47.00,          47.00,            nan,            nan,            nan,            nan,            nan,            nan,            nan,            nan,            nan,            nan,            nan,          42.00,          50.00,            nan,            nan,            nan,          42.00,            nan,          42.00,          42.00`");
   (["GPS"; "GT1C_MSM7.obs"],
    of_reference "         4,         1,         2,         3,         4,         5,         6,         7,         8,         9,        10,        11,        12,        13,        14,        15,        16,        17,        18,        19,        20,        21,        22,        23,        24,        25,        26,        27,        28,        29,        30,        31,        32` 1575.4200, 1575.4200, 1575.4200, 1575.4200, 1575.4200, 1575.4200, 1575.4200, 1575.4200, 1575.4200, 1575.4200, 1575.4200, 1575.4200, 1575.4200, 1575.4200, 1575.4200, 1575.4200, 1575.4200, 1575.4200, 1575.4200, 1575.4200, 1575.4200, 1575.4200, 1575.4200, 1575.4200, 1575.4200, 1575.4200, 1575.4200, 1575.4200, 1575.4200, 1575.4200, 1575.4200, 1575.4200, 1575.4200` 399442000,       nan,   638.976,       nan,       nan,       nan,   638.976,       nan,       nan,       nan,       nan,   638.976,   638.976,       nan,       nan,       nan,       nan,       nan,       nan,   108.544,       nan,       nan,   655.360,       nan,   655.360,   655.360,       nan,       nan,       nan,   655.360,       nan,   655.360,   655.360`");
   (["GPS"; "GT2S_MSM7.obs"],
    of_reference "         4,         1,         2,         3,         4,         5,         6,         7,         8,         9,        10,        11,        12,        13,        14,        15,        16,        17,        18,        19,        20,        21,        22,        23,        24,        25,        26,        27,        28,        29,        30,        31,        32` 1227.6000, 1227.6000, 1227.6000, 1227.6000, 1227.6000, 1227.6000, 1227.6000, 1227.6000, 1227.6000, 1227.6000, 1227.6000, 1227.6000, 1227.6000, 1227.6000, 1227.6000, 1227.6000, 1227.6000, 1227.6000, 1227.6000, 1227.6000, 1227.6000, 1227.6000, 1227.6000, 1227.6000, 1227.6000, 1227.6000, 1227.6000, 1227.6000, 1227.6000, 1227.6000, 1227.6000, 1227.6000, 1227.6000` 399442000,       nan,       nan,       nan,       nan,       nan,   622.592,       nan,       nan,       nan,       nan,   622.592,   622.592,       nan,       nan,       nan,       nan,       nan,       nan,       nan,       nan,       nan,       nan,       nan,   622.592,   622.592,       nan,       nan,       nan,   638.976,       nan,   638.976,   638.976`")].

(** RTCM3_TEST_DATA/MSM7/REF/msg1077-JSON *)
Definition ref_1077_JSON : list (list string * list Z) :=
  [
   (["msg1077-log.txt"],
    of_reference "New log file was created.`-------------------------`RTCMDEC:INFO: Opened file E:\PROJECTS\PY\RTCM_DECODER\RTCM3_TEST_DATA\MSM7\msg1077.rtcm3.`RTCMDEC:INFO: Msg 1077. Decoding succeeded. t = 399442000, sats = 11.`RTCMDEC:PROGRESS: 100.00%, 1 messages, prs-dec-prnt errors 0-0-0.`RTCMDEC:INFO: Closing file E:\PROJECTS\PY\RTCM_DECODER\RTCM3_TEST_DATA\MSM7\msg1077.rtcm3.`RTCMDEC:PROGRESS: Finished without errors.`");
   (["MSM7"; "GPS-MSM7-1077.json"],
    of_reference "[~{""source_type"": ""ObservablesMSM""},~{`  ""399442000"": {`    ""hdr"": {`      ""signals"": {`        ""1C"": 1575.42,`        ""2S"": 1227.6`      },`      ""sats"": [`        2,`        6,`        11,`        12,`        19,`        22,`        24,`        25,`        29,`        31,`        32`      ],`      ""time"": 399442000,`      ""day"": 0`    },`    ""aux"": {`      ""rs_id"": 42,`      ""MMB"": 1,`      ""IODS"": 0,`      ""clk_steer"": {`        ""code"": 1,`        ""val"": ""ON""`      },`      ""clk_ext"": {`        ""code"": 0,`        ""val"": ""INTERNAL""`      },`      ""smth_indc"": {`        ""code"": 1,`        ""val"": ""DVRG-FREE""`      },`      ""smth_intr"": {`        ""code"": 0,`        ""val"": ""NOSMTH""`      }`    },`    ""obs"": {`      ""rng"": {`        ""1C"": {`          ""2"": 24498886.700748336,`          ""6"": 22510978.119669262,`          ""11"": 21623860.803500157,`          ""12"": 20359749.29766615,`          ""19"": 24552670.45519327,`          ""22"": 23619588.53063428,`          ""24"": 24043703.556663405,`          ""25"": 19968818.504167613,`          ""29"": 22561173.85303812,`          ""31"": 23287023.197297316,`          ""32"": 24080516.40869024`        },`        ""2S"": {`          ""6"": 22510981.91181098,`          ""11"": 21623862.104588393,`          ""12"": 20359748.08983188,`          ""24"": 24043709.252972882,`          ""25"": 19968821.817196153,`          ""29"": 22561174.72973706,`          ""31"": 23287022.848292958,`          ""32"": 24080519.507290505`        }`      },`      ""phs"": {`        ""1C"": {`          ""2"": 24498889.632245313,`          ""6"": 22510979.879488822,`          ""11"": 21623861.80221102,`          ""12"": 20359749.998746097,`          ""19"": 24552670.177525405,`          ""22"": 23619589.617573444,`          ""24"": 24043702.488151673,`          ""25"": 19968818.767875303,`          ""29"": 22561172.93222503,`          ""31"": 23287026.111902483,`          ""32"": 24080514.464875586`        },`        ""2S"": {`          ""6"": 22510980.950373784,`          ""11"": 21623861.2958755,`          ""12"": 20359749.82661715,`          ""24"": 24043704.644021373,`          ""25"": 19968826.75309494,`          ""29"": 22561183.981004894,`          ""31"": 23287032.854387414,`          ""32"": 24080521.654225696`        }`      },`      ""ltm"": {`        ""1C"": {`          ""2"": 638976,`          ""6"": 638976,`          ""11"": 638976,`          ""12"": 638976,`          ""19"": 108544,`          ""22"": 655360,`          ""24"": 655360,`          ""25"": 655360,`          ""29"": 655360,`          ""31"": 655360,`          ""32"": 655360`        },`        ""2S"": {`          ""6"": 622592,`          ""11"": 622592,`          ""12"": 622592,`          ""24"": 622592,`          ""25"": 622592,`          ""29"": 638976,`          ""31"": 638976,`          ""32"": 638976`        }`      },`      ""hca"": {`        ""1C"": {`          ""2"": false,`          ""6"": false,`          ""11"": false,`          ""12"": false,`          ""19"": false,`          ""22"": false,`          ""24"": false,`          ""25"": false,`          ""29"": false,`          ""31"": false,`          ""32"": false`        },`        ""2S"": {`          ""6"": false,`          ""11"": false,`          ""12"": false,`          ""24"": false,`          ""25"": false,`          ""29"": false,`          ""31"": false,`          ""32"": false`        }`      },`      ""dpl"": {`        ""1C"": {`          ""2"": -691.7797,`          ""6"": 368.7219,`          ""11"": -153.8245,`          ""12"": 234.3088,`          ""19"": 705.9836,`          ""22"": 71.1551,`          ""24"": 731.392,`          ""25"": -138.9238,`          ""29"": -585.2718,`          ""31"": -547.9826,`          ""32"": 440.3133`        },`        ""2S"": {`          ""6"": 368.7528,`          ""11"": -153.8499,`          ""12"": 234.3121,`          ""24"": 731.3666,`          ""25"": -138.9377,`          ""29"": -585.2489,`          ""31"": -548.0491,`          ""32"": 440.3315`        }`      },`      ""c2n"": {`        ""1C"": {`          ""2"": 39.0,`          ""6"": 43.0,`          ""11"": 45.0,`          ""12"": 50.0,`          ""19"": 35.0,`          ""22"": 41.0,`          ""24"": 38.0,`          ""25"": 49.0,`          ""29"": 47.0,`          ""31"": 43.0,`          ""32"": 43.0`        },`        ""2S"": {`          ""6"": 43.0,`          ""11"": 47.0,`          ""12"": 47.0,`          ""24"": 42.0,`          ""25"": 50.0,`          ""29"": 42.0,`          ""31"": 42.0,`          ""32"": 42.0`        }`      }`    }`  }`}~]")].

(** RTCM3_TEST_DATA/MSM7/REF/msg1087-MARGO *)
Definition ref_1087_MARGO : list (list string * list Z) :=
  [
   (["msg1087-log.txt"],
    of_reference "New log file was created.`-------------------------`RTCMDEC:INFO: Opened file E:\PROJECTS\PY\RTCM_DECODER\RTCM3_TEST_DATA\MSM7\msg1087.rtcm3.`RTCMDEC:INFO: Msg 1087. Decoding succeeded. t = 64624000, sats = 7.`RTCMDEC:PROGRESS: 100.00%, 1 messages, prs-dec-prnt errors 0-0-0.`RTCMDEC:INFO: Closing file E:\PROJECTS\PY\RTCM_DECODER\RTCM3_TEST_DATA\MSM7\msg1087.rtcm3.`RTCMDEC:PROGRESS: Finished without errors.`");
   (["GLN"; "RA1C_MSM7.obs"],
    of_reference "         5,   1,   2,   3,   4,   5,   6,   7,   8,   9,  10,  11,  12,  13,  14,  15,  16,  17,  18,  19,  20,  21,  22,  23,  24` 1602.0000,1602.5625,1599.7500,1604.8125,1605.3750,1602.5625,1599.7500,1604.8125,1605.3750,1600.8750,1598.0625,1602.0000,1601.4375,1600.8750,1598.0625,1602.0000,1601.4375,1604.2500,1600.3125,1603.6875,1603.1250,1604.2500,1600.3125,1603.6875,1603.1250` 399442000, nan,   0,   0, nan, nan, nan, nan, nan, nan,   0,   0,   0, nan, nan, nan, nan, nan, nan, nan, nan,   0,   0, nan, nan`");
   (["GLN"; "RA2C_MSM7.obs"],
    of_reference "         5,   1,   2,   3,   4,   5,   6,   7,   8,   9,  10,  11,  12,  13,  14,  15,  16,  17,  18,  19,  20,  21,  22,  23,  24` 1246.0000,1246.4375,1244.2500,1248.1875,1248.6250,1246.4375,1244.2500,1248.1875,1248.6250,1245.1250,1242.9375,1246.0000,1245.5625,1245.1250,1242.9375,1246.0000,1245.5625,1247.7500,1244.6875,1247.3125,1246.8750,1247.7500,1244.6875,1247.3125,1246.8750` 399442000, nan,   0,   0, nan, nan, nan, nan, nan, nan, nan,   0,   0, nan, nan, nan, nan, nan, nan, nan, nan,   0,   0, nan, nan`");
   (["GLN"; "RC1C_MSM7.obs"],
    of_reference "         0,              1,              2,              3,              4,              5,              6,              7,              8,              9,             10,             11,             12,             13,             14,             15,             16,             17,             18,             19,             20,             21,             22,             23,             24` 1602.0000,      1602.5625,      1599.7500,      1604.8125,      1605.3750,      1602.5625,      1599.7500,      1604.8125,      1605.3750,      1600.8750,      1598.0625,      1602.0000,      1601.4375,      1600.8750,      1598.0625,      1602.0000,      1601.4375,      1604.2500,      1600.3125,      1603.6875,      1603.1250,      1604.2500,      1600.3125,      1603.6875,      1603.1250` 399442000,            nan,   23597503.899,   22996171.992,            nan,            nan,            nan,            nan,            nan,            nan,   21989332.702,   19160017.281,   21467657.346,            nan,            nan,            nan,            nan,            nan,            nan,            nan,            nan,   19845627.995,   22827993.620,            nan,            nan`");
   (["GLN"; "RC2C_MSM7.obs"],
    of_reference "         0,              1,              2,              3,              4,              5,              6,              7,              8,              9,             10,             11,             12,             13,             14,             15,             16,             17,             18,             19,             20,             21,             22,             23,             24` 1246.0000,      1246.4375,      1244.2500,      1248.1875,      1248.6250,      1246.4375,      1244.2500,      1248.1875,      1248.6250,      1245.1250,      1242.9375,      1246.0000,      1245.5625,      1245.1250,      1242.9375,      1246.0000,      1245.5625,      1247.7500,      1244.6875,      1247.3125,      1246.8750,      1247.7500,      1244.6875,      1247.3125,      1246.8750` 399442000,            nan,   23597508.822,   22996169.575,            nan,            nan,            nan,            nan,            nan,            nan,            nan,   19160018.364,   21467660.667,            nan,            nan,            nan,            nan,            nan,            nan,            nan,            nan,   19845630.402,   22827994.972,            nan,            nan`");
   (["GLN"; "RD1C_MSM7.obs"],
    of_reference "         2,              1,              2,              3,              4,              5,              6,              7,              8,              9,             10,             11,             12,             13,             14,             15,             16,             17,             18,             19,             20,             21,             22,             23,             24` 1602.0000,      1602.5625,      1599.7500,      1604.8125,      1605.3750,      1602.5625,      1599.7500,      1604.8125,      1605.3750,      1600.8750,      1598.0625,      1602.0000,      1601.4375,      1600.8750,      1598.0625,      1602.0000,      1601.4375,      1604.2500,      1600.3125,      1603.6875,      1603.1250,      1604.2500,      1600.3125,      1603.6875,      1603.1250` 399442000,            nan,      -2993.354,         25.338,            nan,            nan,            nan,            nan,            nan,            nan,      -3667.887,       -286.152,       3473.823,            nan,            nan,            nan,            nan,            nan,            nan,            nan,            nan,       2170.451,       4418.353,            nan,            nan`");
   (["GLN"; "RD2C_MSM7.obs"],
    of_reference "         2,              1,              2,              3,              4,              5,              6,              7,              8,              9,             10,             11,             12,             13,             14,             15,             16,             17,             18,             19,             20,             21,             22,             23,             24` 1246.0000,      1246.4375,      1244.2500,      1248.1875,      1248.6250,      1246.4375,      1244.2500,      1248.1875,      1248.6250,      1245.1250,      1242.9375,      1246.0000,      1245.5625,      1245.1250,      1242.9375,      1246.0000,      1245.5625,      1247.7500,      1244.6875,      1247.3125,      1246.8750,      1247.7500,      1244.6875,      1247.3125,      1246.8750` 399442000,            nan,      -2328.335,         19.804,            nan,            nan,            nan,            nan,            nan,            nan,            nan,       -222.592,       2701.689,            nan,            nan,            nan,            nan,            nan,            nan,            nan,            nan,       1688.176,       3436.518,            nan,            nan`");
   (["GLN"; "RL1C_MSM7.obs"],
    of_reference "         1,              1,              2,              3,              4,              5,              6,              7,              8,              9,             10,             11,             12,             13,             14,             15,             16,             17,             18,             19,             20,             21,             22,             23,             24` 1602.0000,      1602.5625,      1599.7500,      1604.8125,      1605.3750,      1602.5625,      1599.7500,      1604.8125,      1605.3750,      1600.8750,      1598.0625,      1602.0000,      1601.4375,      1600.8750,      1598.0625,      1602.0000,      1601.4375,      1604.2500,      1600.3125,      1603.6875,      1603.1250,      1604.2500,      1600.3125,      1603.6875,      1603.1250` 399442000,            nan, 125920808.4067, 123100294.6189,            nan,            nan,            nan,            nan,            nan,            nan, 117215522.9871, 102385319.1532, 114676373.2401,            nan,            nan,            nan,            nan,            nan,            nan,            nan,            nan, 106197989.0631, 121857390.5348,            nan,            nan`");
   (["GLN"; "RL2C_MSM7.obs"],
    of_reference "         1,              1,              2,              3,              4,              5,              6,              7,              8,              9,             10,             11,             12,             13,             14,             15,             16,             17,             18,             19,             20,             21,             22,             23,             24` 1246.0000,      1246.4375,      1244.2500,      1248.1875,      1248.6250,      1246.4375,      1244.2500,      1248.1875,      1248.6250,      1245.1250,      1242.9375,      1246.0000,      1245.5625,      1245.1250,      1242.9375,      1246.0000,      1245.5625,      1247.7500,      1244.6875,      1247.3125,      1246.8750,      1247.7500,      1244.6875,      1247.3125,      1246.8750` 399442000,            nan,  97938484.0123,  95744791.4060,            nan,            nan,            nan,            nan,            nan,            nan,            nan,  79633099.8838,  89192740.3806,            nan,            nan,            nan,            nan,            nan,            nan,            nan,            nan,  82598469.8927,  94778007.7493,            nan,            nan`");
   (["GLN"; "RS1C_MSM7.obs"],
    of_reference "         3,              1,              2,              3,              4,              5,              6,              7,              8,              9,             10,             11,             12,             13,             14,             15,             16,             17,             18,             19,             20,             21,             22,             23,             24` 1602.0000,      1602.5625,      1599.7500,      1604.8125,      1605.3750,      1602.5625,      1599.7500,      1604.8125,      1605.3750,      1600.8750,      1598.0625,      1602.0000,      1601.4375,      1600.8750,      1598.0625,      1602.0000,      1601.4375,      1604.2500,      1600.3125,      1603.6875,      1603.1250,      1604.2500,      1600.3125,      1603.6875,      1603.1250` 399442000,            nan,          44.00,          40.00,            nan,            nan,            nan,            nan,            nan,            nan,          42.00,          49.00,          48.00,            nan,            nan,            nan,            nan,            nan,            nan,            nan,            nan,          47.00,          43.00,            nan,            nan`");
   (["GLN"; "RS2C_MSM7.obs"],
    of_reference "         3,              1,              2,              3,              4,              5,              6,              7,              8,              9,             10,             11,             12,             13,             14,             15,             16,             17,             18,             19,             20,             21,             22,             23,             24` 1246.0000,      1246.4375,      1244.2500,      1248.1875,      1248.6250,      1246.4375,      1244.2500,      1248.1875,      1248.6250,      1245.1250,      1242.9375,      1246.0000,      1245.5625,      1245.1250,      1242.9375,      1246.0000,      1245.5625,      1247.7500,      1244.6875,      1247.3125,      1246.8750,      1247.7500,      1244.6875,      1247.3125,      1246.8750` 399442000,            nan,          43.00,          43.00,            nan,            nan,            nan,            nan,            nan,            nan,            nan,          53.00,          47.00,            nan,            nan,            nan,            nan,            nan,            nan,            nan,            nan,          48.00,          46.00,            nan,            nan`");
   (["GLN"; "RT1C_MSM7.obs"],
    of_reference "         4,         1,         2,         3,         4,         5,         6,         7,         8,         9,        10,        11,        12,        13,        14,        15,        16,        17,        18,        19,        20,        21,        22,        23,        24` 1602.0000, 1602.5625, 1599.7500, 1604.8125, 1605.3750, 1602.5625, 1599.7500, 1604.8125, 1605.3750, 1600.8750, 1598.0625, 1602.0000, 1601.4375, 1600.8750, 1598.0625, 1602.0000, 1601.4375, 1604.2500, 1600.3125, 1603.6875, 1603.1250, 1604.2500, 1600.3125, 1603.6875, 1603.1250` 399442000,       nan,   655.360,   655.360,       nan,       nan,       nan,       nan,       nan,       nan,   294.912,   655.360,   655.360,       nan,       nan,       nan,       nan,       nan,       nan,       nan,       nan,   655.360,   655.360,       nan,       nan`");
   (["GLN"; "RT2C_MSM7.obs"],
    of_reference "         4,         1,         2,         3,         4,         5,         6,         7,         8,         9,        10,        11,        12,        13,        14,        15,        16,        17,        18,        19,        20,        21,        22,        23,        24` 1246.0000, 1246.4375, 1244.2500, 1248.1875, 1248.6250, 1246.4375, 1244.2500, 1248.1875, 1248.6250, 1245.1250, 1242.9375, 1246.0000, 1245.5625, 1245.1250, 1242.9375, 1246.0000, 1245.5625, 1247.7500, 1244.6875, 1247.3125, 1246.8750, 1247.7500, 1244.6875, 1247.3125, 1246.8750` 399442000,       nan,   638.976,   638.976,       nan,       nan,       nan,       nan,       nan,       nan,       nan,   638.976,   638.976,       nan,       nan,       nan,       nan,       nan,       nan,       nan,       nan,   638.976,   638.976,       nan,       nan`")].

(** RTCM3_TEST_DATA/MSM7/REF/msg1087-JSON *)
Definition ref_1087_JSON : list (list string * list Z) :=
  [
   (["msg1087-log.txt"],
    of_reference "New log file was created.`-------------------------`RTCMDEC:INFO: Opened file E:\PROJECTS\PY\RTCM_DECODER\RTCM3_TEST_DATA\MSM7\msg1087.rtcm3.`RTCMDEC:INFO: Msg 1087. Decoding succeeded. t = 64624000, sats = 7.`RTCMDEC:PROGRESS: 100.00%, 1 messages, prs-dec-prnt errors 0-0-0.`RTCMDEC:INFO: Closing file E:\PROJECTS\PY\RTCM_DECODER\RTCM3_TEST_DATA\MSM7\msg1087.rtcm3.`RTCMDEC:PROGRESS: Finished without errors.`");
   (["MSM7"; "GLN-MSM7-1087.json"],
    of_reference "[~{""source_type"": ""ObservablesMSM""},~{`  ""410224000"": {`    ""hdr"": {`      ""signals"": {`        ""1C"": 1602.0,`        ""2C"": 1246.0`      },`      ""sats"": [`        2,`        3,`        10,`        11,`        12,`        21,`        22`      ],`      ""time"": 64624000,`      ""day"": 4`    },`    ""aux"": {`      ""rs_id"": 42,`      ""MMB"": 1,`      ""IODS"": 0,`      ""clk_steer"": {`        ""code"": 1,`        ""val"": ""ON""`      },`      ""clk_ext"": {`        ""code"": 0,`        ""val"": ""INTERNAL""`      },`      ""smth_indc"": {`        ""code"": 1,`        ""val"": ""DVRG-FREE""`      },`      ""smth_intr"": {`        ""code"": 0,`        ""val"": ""NOSMTH""`      }`    },`    ""obs"": {`      ""rng"": {`        ""1C"": {`          ""2"": 23597503.89858588,`          ""3"": 22996171.991868943,`          ""10"": 21989332.70206144,`          ""11"": 19160017.281075343,`          ""12"": 21467657.346022457,`          ""21"": 19845627.994584046,`          ""22"": 22827993.620377503`        },`        ""2C"": {`          ""2"": 23597508.822060112,`          ""3"": 22996169.57452518,`          ""11"": 19160018.363826454,`          ""12"": 21467660.66686869,`          ""21"": 19845630.40243489,`          ""22"": 22827994.97172237`        }`      },`      ""phs"": {`        ""1C"": {`          ""2"": 23597505.02614915,`          ""3"": 22996169.27480024,`          ""10"": 21989333.80393799,`          ""11"": 19160016.536858458,`          ""12"": 21467657.53155317,`          ""21"": 19845632.64820811,`          ""22"": 22827995.553303223`        },`        ""2C"": {`          ""2"": 23597523.69285647,`          ""3"": 22996197.57151492,`          ""11"": 19160034.311650246,`          ""12"": 21467658.888621703,`          ""21"": 19845640.80639431,`          ""22"": 22828004.545330625`        }`      },`      ""ltm"": {`        ""1C"": {`          ""2"": 655360,`          ""3"": 655360,`          ""10"": 294912,`          ""11"": 655360,`          ""12"": 655360,`          ""21"": 655360,`          ""22"": 655360`        },`        ""2C"": {`          ""2"": 638976,`          ""3"": 638976,`          ""11"": 638976,`          ""12"": 638976,`          ""21"": 638976,`          ""22"": 638976`        }`      },`      ""hca"": {`        ""1C"": {`          ""2"": false,`          ""3"": false,`          ""10"": false,`          ""11"": false,`          ""12"": false,`          ""21"": false,`          ""22"": false`        },`        ""2C"": {`          ""2"": false,`          ""3"": false,`          ""11"": false,`          ""12"": false,`          ""21"": false,`          ""22"": false`        }`      },`      ""dpl"": {`        ""1C"": {`          ""2"": 560.9533,`          ""3"": -4.7334,`          ""10"": 688.0862,`          ""11"": 53.5495,`          ""12"": -650.3069,`          ""21"": -405.6007,`          ""22"": -827.7064`        },`        ""2C"": {`          ""2"": 560.9945,`          ""3"": -4.7566,`          ""11"": 53.5565,`          ""12"": -650.2653,`          ""21"": -405.6121,`          ""22"": -827.7114`        }`      },`      ""c2n"": {`        ""1C"": {`          ""2"": 44.0,`          ""3"": 40.0,`          ""10"": 42.0,`          ""11"": 49.0,`          ""12"": 48.0,`          ""21"": 47.0,`          ""22"": 43.0`        },`        ""2C"": {`          ""2"": 43.0,`          ""3"": 43.0,`          ""11"": 53.0,`          ""12"": 47.0,`          ""21"": 48.0,`          ""22"": 46.0`        }`      }`    }`  }`}~]")].

(** RTCM3_TEST_DATA/MSM7/REF/msg1097-MARGO *)
Definition ref_1097_MARGO : list (list string * list Z) :=
  [
   (["msg1097-log.txt"],
    of_reference "New log file was created.`-------------------------`RTCMDEC:INFO: Opened file E:\PROJECTS\PY\RTCM_DECODER\RTCM3_TEST_DATA\MSM7\msg1097.rtcm3.`RTCMDEC:INFO: Msg 1097. Decoding succeeded. t = 399442000, sats = 6.`RTCMDEC:PROGRESS: 100.00%, 1 messages, prs-dec-prnt errors 0-0-0.`RTCMDEC:INFO: Closing file E:\PROJECTS\PY\RTCM_DECODER\RTCM3_TEST_DATA\MSM7\msg1097.rtcm3.`RTCMDEC:PROGRESS: Finished without errors.`");
   (["GAL"; "EA1X_MSM7.obs"],
    of_reference "         5,   1,   2,   3,   4,   5,   6,   7,   8,   9,  10,  11,  12,  13,  14,  15,  16,  17,  18,  19,  20,  21,  22,  23,  24,  25,  26,  27,  28,  29,  30,  31,  32,  33,  34,  35,  36` 1575.4200,1575.4200,1575.4200,1575.4200,1575.4200,1575.4200,1575.4200,1575.4200,1575.4200,1575.4200,1575.4200,1575.4200,1575.4200,1575.4200,1575.4200,1575.4200,1575.4200,1575.4200,1575.4200,1575.4200,1575.4200,1575.4200,1575.4200,1575.4200,1575.4200,1575.4200,1575.4200,1575.4200,1575.4200,1575.4200,1575.4200,1575.4200,1575.4200,1575.4200,1575.4200,1575.4200,1575.4200` 399442000,   0, nan,   0, nan,   0, nan, nan, nan, nan, nan, nan, nan, nan, nan, nan, nan, nan, nan, nan, nan, nan, nan, nan,   0, nan,   0, nan, nan, nan, nan,   0, nan, nan, nan, nan, nan`");
   (["GAL"; "EA5X_MSM7.obs"],
    of_reference "         5,   1,   2,   3,   4,   5,   6,   7,   8,   9,  10,  11,  12,  13,  14,  15,  16,  17,  18,  19,  20,  21,  22,  23,  24,  25,  26,  27,  28,  29,  30,  31,  32,  33,  34,  35,  36` 1176.4500,1176.4500,1176.4500,1176.4500,1176.4500,1176.4500,1176.4500,1176.4500,1176.4500,1176.4500,1176.4500,1176.4500,1176.4500,1176.4500,1176.4500,1176.4500,1176.4500,1176.4500,1176.4500,1176.4500,1176.4500,1176.4500,1176.4500,1176.4500,1176.4500,1176.4500,1176.4500,1176.4500,1176.4500,1176.4500,1176.4500,1176.4500,1176.4500,1176.4500,1176.4500,1176.4500,1176.4500` 399442000,   0, nan,   0, nan,   0, nan, nan, nan, nan, nan, nan, nan, nan, nan, nan, nan, nan, nan, nan, nan, nan, nan, nan,   0, nan,   0, nan, nan, nan, nan,   0, nan, nan, nan, nan, nan`");
   (["GAL"; "EC1X_MSM7.obs"],
    of_reference "         0,              1,              2,              3,              4,              5,              6,              7,              8,              9,             10,             11,             12,             13,             14,             15,             16,             17,             18,             19,             20,             21,             22,             23,             24,             25,             26,             27,             28,             29,             30,             31,             32,             33,             34,             35,             36` 1575.4200,      1575.4200,      1575.4200,      1575.4200,      1575.4200,      1575.4200,      1575.4200,      1575.4200,      1575.4200,      1575.4200,      1575.4200,      1575.4200,      1575.4200,      1575.4200,      1575.4200,      1575.4200,      1575.4200,      1575.4200,      1575.4200,      1575.4200,      1575.4200,      1575.4200,      1575.4200,      1575.4200,      1575.4200,      1575.4200,      1575.4200,      1575.4200,      1575.4200,      1575.4200,      1575.4200,      1575.4200,      1575.4200,      1575.4200,      1575.4200,      1575.4200,      1575.4200` 399442000,   27223410.639,            nan,   27582439.347,            nan,   27073552.338,            nan,            nan,            nan,            nan,            nan,            nan,            nan,            nan,            nan,            nan,            nan,            nan,            nan,            nan,            nan,            nan,            nan,            nan,   24631289.253,            nan,   26266258.198,            nan,            nan,            nan,            nan,   23582305.975,            nan,            nan,            nan,            nan,            nan`");
   (["GAL"; "EC5X_MSM7.obs"],
    of_reference "         0,              1,              2,              3,              4,              5,              6,              7,              8,              9,             10,             11,             12,             13,             14,             15,             16,             17,             18,             19,             20,             21,             22,             23,             24,             25,             26,             27,             28,             29,             30,             31,             32,             33,             34,             35,             36` 1176.4500,      1176.4500,      1176.4500,      1176.4500,      1176.4500,      1176.4500,      1176.4500,      1176.4500,      1176.4500,      1176.4500,      1176.4500,      1176.4500,      1176.4500,      1176.4500,      1176.4500,      1176.4500,      1176.4500,      1176.4500,      1176.4500,      1176.4500,      1176.4500,      1176.4500,      1176.4500,      1176.4500,      1176.4500,      1176.4500,      1176.4500,      1176.4500,      1176.4500,      1176.4500,      1176.4500,      1176.4500,      1176.4500,      1176.4500,      1176.4500,      1176.4500,      1176.4500` 399442000,   27223419.686,            nan,   27582445.197,            nan,   27073560.138,            nan,            nan,            nan,            nan,            nan,            nan,            nan,            nan,            nan,            nan,            nan,            nan,            nan,            nan,            nan,            nan,            nan,            nan,   24631290.338,            nan,   26266264.480,            nan,            nan,            nan,            nan,   23582308.714,            nan,            nan,            nan,            nan,            nan`");
   (["GAL"; "ED1X_MSM7.obs"],
    of_reference "         2,              1,              2,              3,              4,              5,              6,              7,              8,              9,             10,             11,             12,             13,             14,             15,             16,             17,             18,             19,             20,             21,             22,             23,             24,             25,             26,             27,             28,             29,             30,             31,             32,             33,             34,             35,             36` 1575.4200,      1575.4200,      1575.4200,      1575.4200,      1575.4200,      1575.4200,      1575.4200,      1575.4200,      1575.4200,      1575.4200,      1575.4200,      1575.4200,      1575.4200,      1575.4200,      1575.4200,      1575.4200,      1575.4200,      1575.4200,      1575.4200,      1575.4200,      1575.4200,      1575.4200,      1575.4200,      1575.4200,      1575.4200,      1575.4200,      1575.4200,      1575.4200,      1575.4200,      1575.4200,      1575.4200,      1575.4200,      1575.4200,      1575.4200,      1575.4200,      1575.4200,      1575.4200` 399442000,      -2664.102,            nan,        384.483,            nan,      -1983.010,            nan,            nan,            nan,            nan,            nan,            nan,            nan,            nan,            nan,            nan,            nan,            nan,            nan,            nan,            nan,            nan,            nan,            nan,       1709.374,            nan,      -1725.182,            nan,            nan,            nan,            nan,       -765.833,            nan,            nan,            nan,            nan,            nan`");
   (["GAL"; "ED5X_MSM7.obs"],
    of_reference "         2,              1,              2,              3,              4,              5,              6,              7,              8,              9,             10,             11,             12,             13,             14,             15,             16,             17,             18,             19,             20,             21,             22,             23,             24,             25,             26,             27,             28,             29,             30,             31,             32,             33,             34,             35,             36` 1176.4500,      1176.4500,      1176.4500,      1176.4500,      1176.4500,      1176.4500,      1176.4500,      1176.4500,      1176.4500,      1176.4500,      1176.4500,      1176.4500,      1176.4500,      1176.4500,      1176.4500,      1176.4500,      1176.4500,      1176.4500,      1176.4500,      1176.4500,      1176.4500,      1176.4500,      1176.4500,      1176.4500,      1176.4500,      1176.4500,      1176.4500,      1176.4500,      1176.4500,      1176.4500,      1176.4500,      1176.4500,      1176.4500,      1176.4500,      1176.4500,      1176.4500,      1176.4500` 399442000,      -1989.500,            nan,        286.725,            nan,      -1480.686,            nan,            nan,            nan,            nan,            nan,            nan,            nan,            nan,            nan,            nan,            nan,            nan,            nan,            nan,            nan,            nan,            nan,            nan,       1276.474,            nan,      -1288.383,            nan,            nan,            nan,            nan,       -571.961,            nan,            nan,            nan,            nan,            nan`");
   (["GAL"; "EL1X_MSM7.obs"],
    of_reference "         1,              1,              2,              3,              4,              5,              6,              7,              8,              9,             10,             11,             12,             13,             14,             15,             16,             17,             18,             19,             20,             21,             22,             23,             24,             25,             26,             27,             28,             29,             30,             31,             32,             33,             34,             35,             36` 1575.4200,      1575.4200,      1575.4200,      1575.4200,      1575.4200,      1575.4200,      1575.4200,      1575.4200,      1575.4200,      1575.4200,      1575.4200,      1575.4200,      1575.4200,      1575.4200,      1575.4200,      1575.4200,      1575.4200,      1575.4200,      1575.4200,      1575.4200,      1575.4200,      1575.4200,      1575.4200,      1575.4200,      1575.4200,      1575.4200,      1575.4200,      1575.4200,      1575.4200,      1575.4200,      1575.4200,      1575.4200,      1575.4200,      1575.4200,      1575.4200,      1575.4200,      1575.4200` 399442000, 143060069.0846,            nan, 144946687.3169,            nan, 142272472.2912,            nan,            nan,            nan,            nan,            nan,            nan,            nan,            nan,            nan,            nan,            nan,            nan,            nan,            nan,            nan,            nan,            nan,            nan, 129438302.0996,            nan, 138030109.7692,            nan,            nan,            nan,            nan, 123925868.7059,            nan,            nan,            nan,            nan,            nan`");
   (["GAL"; "EL5X_MSM7.obs"],
    of_reference "         1,              1,              2,              3,              4,              5,              6,              7,              8,              9,             10,             11,             12,             13,             14,             15,             16,             17,             18,             19,             20,             21,             22,             23,             24,             25,             26,             27,             28,             29,             30,             31,             32,             33,             34,             35,             36` 1176.4500,      1176.4500,      1176.4500,      1176.4500,      1176.4500,      1176.4500,      1176.4500,      1176.4500,      1176.4500,      1176.4500,      1176.4500,      1176.4500,      1176.4500,      1176.4500,      1176.4500,      1176.4500,      1176.4500,      1176.4500,      1176.4500,      1176.4500,      1176.4500,      1176.4500,      1176.4500,      1176.4500,      1176.4500,      1176.4500,      1176.4500,      1176.4500,      1176.4500,      1176.4500,      1176.4500,      1176.4500,      1176.4500,      1176.4500,      1176.4500,      1176.4500,      1176.4500` 399442000, 106830546.9910,            nan, 108239439.0024,            nan, 106242464.1007,            nan,            nan,            nan,            nan,            nan,            nan,            nan,            nan,            nan,            nan,            nan,            nan,            nan,            nan,            nan,            nan,            nan,            nan,  96658482.3998,            nan, 103074467.9465,            nan,            nan,            nan,            nan,  92542052.5071,            nan,            nan,            nan,            nan,            nan`");
   (["GAL"; "ES1X_MSM7.obs"],
    of_reference "         3,              1,              2,              3,              4,              5,              6,              7,              8,              9,             10,             11,             12,             13,             14,             15,             16,             17,             18,             19,             20,             21,             22,             23,             24,             25,             26,             27,             28,             29,             30,             31,             32,             33,             34,             35,             36` 1575.4200,      1575.4200,      1575.4200,      1575.4200,      1575.4200,      1575.4200,      1575.4200,      1575.4200,      1575.4200,      1575.4200,      1575.4200,      1575.4200,      1575.4200,      1575.4200,      1575.4200,      1575.4200,      1575.4200,      1575.4200,      1575.4200,      1575.4200,      1575.4200,      1575.4200,      1575.4200,      1575.4200,      1575.4200,      1575.4200,      1575.4200,      1575.4200,      1575.4200,      1575.4200,      1575.4200,      1575.4200,      1575.4200,      1575.4200,      1575.4200,      1575.4200,      1575.4200` 399442000,          38.00,            nan,          39.00,            nan,          39.00,            nan,            nan,            nan,            nan,            nan,            nan,            nan,            nan,            nan,            nan,            nan,            nan,            nan,            nan,            nan,            nan,            nan,            nan,          48.00,            nan,          42.00,            nan,            nan,            nan,            nan,          47.00,            nan,            nan,            nan,            nan,            nan`");
   (["GAL"; "ES5X_MSM7.obs"],
    of_reference "         3,              1,              2,              3,              4,              5,              6,              7,              8,              9,             10,             11,             12,             13,             14,             15,             16,             17,             18,             19,             20,             21,             22,             23,             24,             25,             26,             27,             28,             29,             30,             31,             32,             33,             34,             35,             36` 1176.4500,      1176.4500,      1176.4500,      1176.4500,      1176.4500,      1176.4500,      1176.4500,      1176.4500,      1176.4500,      1176.4500,      1176.4500,      1176.4500,      1176.4500,      1176.4500,      1176.4500,      1176.4500,      1176.4500,      1176.4500,      1176.4500,      1176.4500,      1176.4500,      1176.4500,      1176.4500,      1176.4500,      1176.4500,      1176.4500,      1176.4500,      1176.4500,      1176.4500,      1176.4500,      1176.4500,      1176.4500,      1176.4500,      1176.4500,      1176.4500,      1176.4500,      1176.4500` 399442000,          44.00,            nan,          41.00,            nan,          45.00,            nan,            nan,            nan,            nan,            nan,            nan,            nan,            nan,            nan,            nan,            nan,            nan,            nan,            nan,            nan,            nan,            nan,            nan,          50.00,            nan,          46.00,            nan,            nan,            nan,            nan,          49.00,            nan,            nan,            nan,            nan,            nan`");
   (["GAL"; "ET1X_MSM7.obs"],
    of_reference "         4,         1,         2,         3,         4,         5,         6,         7,         8,         9,        10,        11,        12,        13,        14,        15,        16,        17,        18,        19,        20,        21,        22,        23,        24,        25,        26,        27,        28,        29,        30,        31,        32,        33,        34,        35,        36` 1575.4200, 1575.4200, 1575.4200, 1575.4200, 1575.4200, 1575.4200, 1575.4200, 1575.4200, 1575.4200, 1575.4200, 1575.4200, 1575.4200, 1575.4200, 1575.4200, 1575.4200, 1575.4200, 1575.4200, 1575.4200, 1575.4200, 1575.4200, 1575.4200, 1575.4200, 1575.4200, 1575.4200, 1575.4200, 1575.4200, 1575.4200, 1575.4200, 1575.4200, 1575.4200, 1575.4200, 1575.4200, 1575.4200, 1575.4200, 1575.4200, 1575.4200, 1575.4200` 399442000,   286.720,       nan,    58.368,       nan,   311.296,       nan,       nan,       nan,       nan,       nan,       nan,       nan,       nan,       nan,       nan,       nan,       nan,       nan,       nan,       nan,       nan,       nan,       nan,   589.824,       nan,   589.824,       nan,       nan,       nan,       nan,   606.208,       nan,       nan,       nan,       nan,       nan`");
   (["GAL"; "ET5X_MSM7.obs"],
    of_reference "         4,         1,         2,         3,         4,         5,         6,         7,         8,         9,        10,        11,        12,        13,        14,        15,        16,        17,        18,        19,        20,        21,        22,        23,        24,        25,        26,        27,        28,        29,        30,        31,        32,        33,        34,        35,        36` 1176.4500, 1176.4500, 1176.4500, 1176.4500, 1176.4500, 1176.4500, 1176.4500, 1176.4500, 1176.4500, 1176.4500, 1176.4500, 1176.4500, 1176.4500, 1176.4500, 1176.4500, 1176.4500, 1176.4500, 1176.4500, 1176.4500, 1176.4500, 1176.4500, 1176.4500, 1176.4500, 1176.4500, 1176.4500, 1176.4500, 1176.4500, 1176.4500, 1176.4500, 1176.4500, 1176.4500, 1176.4500, 1176.4500, 1176.4500, 1176.4500, 1176.4500, 1176.4500` 399442000,   258.048,       nan,    40.960,       nan,   278.528,       nan,       nan,       nan,       nan,       nan,       nan,       nan,       nan,       nan,       nan,       nan,       nan,       nan,       nan,       nan,       nan,       nan,       nan,   557.056,       nan,   573.440,       nan,       nan,       nan,       nan,   573.440,       nan,       nan,       nan,       nan,       nan`")].

(** RTCM3_TEST_DATA/MSM7/REF/msg1097-JSON *)
Definition ref_1097_JSON : list (list string * list Z) :=
  [
   (["msg1097-log.txt"],
    of_reference "New log file was created.`-------------------------`RTCMDEC:INFO: Opened file E:\PROJECTS\PY\RTCM_DECODER\RTCM3_TEST_DATA\MSM7\msg1097.rtcm3.`RTCMDEC:INFO: Msg 1097. Decoding succeeded. t = 399442000, sats = 6.`RTCMDEC:PROGRESS: 100.00%, 1 messages, prs-dec-prnt errors 0-0-0.`RTCMDEC:INFO: Closing file E:\PROJECTS\PY\RTCM_DECODER\RTCM3_TEST_DATA\MSM7\msg1097.rtcm3.`RTCMDEC:PROGRESS: Finished without errors.`");
   (["MSM7"; "GAL-MSM7-1097.json"],
    of_reference "[~{""source_type"": ""ObservablesMSM""},~{`  ""399442000"": {`    ""hdr"": {`      ""signals"": {`        ""1X"": 1575.42,`        ""5X"": 1176.45`      },`      ""sats"": [`        1,`        3,`        5,`        24,`        26,`        31`      ],`      ""time"": 399442000,`      ""day"": 0`    },`    ""aux"": {`      ""rs_id"": 42,`      ""MMB"": 1,`      ""IODS"": 0,`      ""clk_steer"": {`        ""code"": 1,`        ""val"": ""ON""`      },`      ""clk_ext"": {`        ""code"": 0,`        ""val"": ""INTERNAL""`      },`      ""smth_indc"": {`        ""code"": 1,`        ""val"": ""DVRG-FREE""`      },`      ""smth_intr"": {`        ""code"": 0,`        ""val"": ""NOSMTH""`      }`    },`    ""obs"": {`      ""rng"": {`        ""1X"": {`          ""1"": 27223410.638713557,`          ""3"": 27582439.34675184,`          ""5"": 27073552.337831616,`          ""24"": 24631289.253427994,`          ""26"": 26266258.197629172,`          ""31"": 23582305.975144994`        },`        ""5X"": {`          ""1"": 27223419.686023246,`          ""3"": 27582445.196623232,`          ""5"": 27073560.13766014,`          ""24"": 24631290.337854322,`          ""26"": 26266264.480265964,`          ""31"": 23582308.713572763`        }`      },`      ""phs"": {`        ""1X"": {`          ""1"": 27223425.976896543,`          ""3"": 27582437.489490263,`          ""5"": 27073551.290399745,`          ""24"": 24631289.907322552,`          ""26"": 26266256.544744547,`          ""31"": 23582308.71078073`        },`        ""5X"": {`          ""1"": 27223419.84098118,`          ""3"": 27582445.043200918,`          ""5"": 27073559.825510643,`          ""24"": 24631292.469014514,`          ""26"": 26266265.546962876,`          ""31"": 23582310.671487194`        }`      },`      ""ltm"": {`        ""1X"": {`          ""1"": 286720,`          ""3"": 58368,`          ""5"": 311296,`          ""24"": 589824,`          ""26"": 589824,`          ""31"": 606208`        },`        ""5X"": {`          ""1"": 258048,`          ""3"": 40960,`          ""5"": 278528,`          ""24"": 557056,`          ""26"": 573440,`          ""31"": 573440`        }`      },`      ""hca"": {`        ""1X"": {`          ""1"": false,`          ""3"": false,`          ""5"": false,`          ""24"": false,`          ""26"": false,`          ""31"": false`        },`        ""5X"": {`          ""1"": false,`          ""3"": false,`          ""5"": false,`          ""24"": false,`          ""26"": false,`          ""31"": false`        }`      },`      ""dpl"": {`        ""1X"": {`          ""1"": 506.9618,`          ""3"": -73.1646,`          ""5"": 377.3542,`          ""24"": -325.283,`          ""26"": 328.2912,`          ""31"": 145.7331`        },`        ""5X"": {`          ""1"": 506.9803,`          ""3"": -73.0655,`          ""5"": 377.3203,`          ""24"": -325.2813,`          ""26"": 328.3162,`          ""31"": 145.7517`        }`      },`      ""c2n"": {`        ""1X"": {`          ""1"": 38.0,`          ""3"": 39.0,`          ""5"": 39.0,`          ""24"": 48.0,`          ""26"": 42.0,`          ""31"": 47.0`        },`        ""5X"": {`          ""1"": 44.0,`          ""3"": 41.0,`          ""5"": 45.0,`          ""24"": 50.0,`          ""26"": 46.0,`          ""31"": 49.0`        }`      }`    }`  }`}~]")].

(** RTCM3_TEST_DATA/MSM7/REF/msg1127-MARGO *)
Definition ref_1127_MARGO : list (list string * list Z) :=
  [
   (["msg1127-log.txt"],
    of_reference "New log file was created.`-------------------------`RTCMDEC:INFO: Opened file E:\PROJECTS\PY\RTCM_DECODER\RTCM3_TEST_DATA\MSM7\msg1127.rtcm3.`RTCMDEC:INFO: Msg 1127. Decoding succeeded. t = 399428000, sats = 9.`RTCMDEC:PROGRESS: 100.00%, 1 messages, prs-dec-prnt errors 0-0-0.`RTCMDEC:INFO: Closing file E:\PROJECTS\PY\RTCM_DECODER\RTCM3_TEST_DATA\MSM7\msg1127.rtcm3.`RTCMDEC:PROGRESS: Finished without errors.`");
   (["BDS"; "BA2I_MSM7.obs"],
    of_reference "         5,   1,   2,   3,   4,   5,   6,   7,   8,   9,  10,  11,  12,  13,  14,  15,  16,  17,  18,  19,  20,  21,  22,  23,  24,  25,  26,  27,  28,  29,  30,  31,  32,  33,  34,  35,  36,  37` 1561.0980,1561.0980,1561.0980,1561.0980,1561.0980,1561.0980,1561.0980,1561.0980,1561.0980,1561.0980,1561.0980,1561.0980,1561.0980,1561.0980,1561.0980,1561.0980,1561.0980,1561.0980,1561.0980,1561.0980,1561.0980,1561.0980,1561.0980,1561.0980,1561.0980,1561.0980,1561.0980,1561.0980,1561.0980,1561.0980,1561.0980,1561.0980,1561.0980,1561.0980,1561.0980,1561.0980,1561.0980,1561.0980` 399442000, nan, nan, nan, nan, nan, nan, nan,   0, nan,   0,   0,   0,   0, nan, nan, nan, nan, nan, nan, nan, nan, nan,   0, nan,   0, nan, nan, nan, nan, nan, nan, nan, nan,   0, nan, nan,   0`");
   (["BDS"; "BA7I_MSM7.obs"],
    of_reference "         5,   1,   2,   3,   4,   5,   6,   7,   8,   9,  10,  11,  12,  13,  14,  15,  16,  17,  18,  19,  20,  21,  22,  23,  24,  25,  26,  27,  28,  29,  30,  31,  32,  33,  34,  35,  36,  37` 1207.1400,1207.1400,1207.1400,1207.1400,1207.1400,1207.1400,1207.1400,1207.1400,1207.1400,1207.1400,1207.1400,1207.1400,1207.1400,1207.1400,1207.1400,1207.1400,1207.1400,1207.1400,1207.1400,1207.1400,1207.1400,1207.1400,1207.1400,1207.1400,1207.1400,1207.1400,1207.1400,1207.1400,1207.1400,1207.1400,1207.1400,1207.1400,1207.1400,1207.1400,1207.1400,1207.1400,1207.1400,1207.1400` 399442000, nan, nan, nan, nan, nan, nan, nan,   0, nan,   0, nan,   0,   0, nan, nan, nan, nan, nan, nan, nan, nan, nan, nan, nan, nan, nan, nan, nan, nan, nan, nan, nan, nan, nan, nan, nan, nan`");
   (["BDS"; "BC2I_MSM7.obs"],
    of_reference "         0,              1,              2,              3,              4,              5,              6,              7,              8,              9,             10,             11,             12,             13,             14,             15,             16,             17,             18,             19,             20,             21,             22,             23,             24,             25,             26,             27,             28,             29,             30,             31,             32,             33,             34,             35,             36,             37` 1561.0980,      1561.0980,      1561.0980,      1561.0980,      1561.0980,      1561.0980,      1561.0980,      1561.0980,      1561.0980,      1561.0980,      1561.0980,      1561.0980,      1561.0980,      1561.0980,      1561.0980,      1561.0980,      1561.0980,      1561.0980,      1561.0980,      1561.0980,      1561.0980,      1561.0980,      1561.0980,      1561.0980,      1561.0980,      1561.0980,      1561.0980,      1561.0980,      1561.0980,      1561.0980,      1561.0980,      1561.0980,      1561.0980,      1561.0980,      1561.0980,      1561.0980,      1561.0980,      1561.0980` 399442000,            nan,            nan,            nan,            nan,            nan,            nan,            nan,   38222137.074,            nan,   39706241.413,   21947264.904,   24397672.912,   38611994.703,            nan,            nan,            nan,            nan,            nan,            nan,            nan,            nan,            nan,   21984229.784,            nan,   23479219.454,            nan,            nan,            nan,            nan,            nan,            nan,            nan,            nan,   22480944.753,            nan,            nan,   24355620.361`");
   (["BDS"; "BC7I_MSM7.obs"],
    of_reference "         0,              1,              2,              3,              4,              5,              6,              7,              8,              9,             10,             11,             12,             13,             14,             15,             16,             17,             18,             19,             20,             21,             22,             23,             24,             25,             26,             27,             28,             29,             30,             31,             32,             33,             34,             35,             36,             37` 1207.1400,      1207.1400,      1207.1400,      1207.1400,      1207.1400,      1207.1400,      1207.1400,      1207.1400,      1207.1400,      1207.1400,      1207.1400,      1207.1400,      1207.1400,      1207.1400,      1207.1400,      1207.1400,      1207.1400,      1207.1400,      1207.1400,      1207.1400,      1207.1400,      1207.1400,      1207.1400,      1207.1400,      1207.1400,      1207.1400,      1207.1400,      1207.1400,      1207.1400,      1207.1400,      1207.1400,      1207.1400,      1207.1400,      1207.1400,      1207.1400,      1207.1400,      1207.1400,      1207.1400` 399442000,            nan,            nan,            nan,            nan,            nan,            nan,            nan,   38222134.331,            nan,   39706239.729,            nan,   24397672.031,   38611997.252,            nan,            nan,            nan,            nan,            nan,            nan,            nan,            nan,            nan,            nan,            nan,            nan,            nan,            nan,            nan,            nan,            nan,            nan,            nan,            nan,            nan,            nan,            nan,            nan`");
   (["BDS"; "BD2I_MSM7.obs"],
    of_reference "         2,              1,              2,              3,              4,              5,              6,              7,              8,              9,             10,             11,             12,             13,             14,             15,             16,             17,             18,             19,             20,             21,             22,             23,             24,             25,             26,             27,             28,             29,             30,             31,             32,             33,             34,             35,             36,             37` 1561.0980,      1561.0980,      1561.0980,      1561.0980,      1561.0980,      1561.0980,      1561.0980,      1561.0980,      1561.0980,      1561.0980,      1561.0980,      1561.0980,      1561.0980,      1561.0980,      1561.0980,      1561.0980,      1561.0980,      1561.0980,      1561.0980,      1561.0980,      1561.0980,      1561.0980,      1561.0980,      1561.0980,      1561.0980,      1561.0980,      1561.0980,      1561.0980,      1561.0980,      1561.0980,      1561.0980,      1561.0980,      1561.0980,      1561.0980,      1561.0980,      1561.0980,      1561.0980,      1561.0980` 399442000,            nan,            nan,            nan,            nan,            nan,            nan,            nan,       1636.696,            nan,       -828.771,       -187.804,      -2835.487,       1727.004,            nan,            nan,            nan,            nan,            nan,            nan,            nan,            nan,            nan,        -28.103,            nan,      -2749.192,            nan,            nan,            nan,            nan,            nan,            nan,            nan,            nan,      -1519.001,            nan,            nan,       2663.567`");
   (["BDS"; "BD7I_MSM7.obs"],
    of_reference "         2,              1,              2,              3,              4,              5,              6,              7,              8,              9,             10,             11,             12,             13,             14,             15,             16,             17,             18,             19,             20,             21,             22,             23,             24,             25,             26,             27,             28,             29,             30,             31,             32,             33,             34,             35,             36,             37` 1207.1400,      1207.1400,      1207.1400,      1207.1400,      1207.1400,      1207.1400,      1207.1400,      1207.1400,      1207.1400,      1207.1400,      1207.1400,      1207.1400,      1207.1400,      1207.1400,      1207.1400,      1207.1400,      1207.1400,      1207.1400,      1207.1400,      1207.1400,      1207.1400,      1207.1400,      1207.1400,      1207.1400,      1207.1400,      1207.1400,      1207.1400,      1207.1400,      1207.1400,      1207.1400,      1207.1400,      1207.1400,      1207.1400,      1207.1400,      1207.1400,      1207.1400,      1207.1400,      1207.1400` 399442000,            nan,            nan,            nan,            nan,            nan,            nan,            nan,       1265.355,            nan,       -641.146,            nan,      -2192.489,       1335.461,            nan,            nan,            nan,            nan,            nan,            nan,            nan,            nan,            nan,            nan,            nan,            nan,            nan,            nan,            nan,            nan,            nan,            nan,            nan,            nan,            nan,            nan,            nan,            nan`");
   (["BDS"; "BL2I_MSM7.obs"],
    of_reference "         1,              1,              2,              3,              4,              5,              6,              7,              8,              9,             10,             11,             12,             13,             14,             15,             16,             17,             18,             19,             20,             21,             22,             23,             24,             25,             26,             27,             28,             29,             30,             31,             32,             33,             34,             35,             36,             37` 1561.0980,      1561.0980,      1561.0980,      1561.0980,      1561.0980,      1561.0980,      1561.0980,      1561.0980,      1561.0980,      1561.0980,      1561.0980,      1561.0980,      1561.0980,      1561.0980,      1561.0980,      1561.0980,      1561.0980,      1561.0980,      1561.0980,      1561.0980,      1561.0980,      1561.0980,      1561.0980,      1561.0980,      1561.0980,      1561.0980,      1561.0980,      1561.0980,      1561.0980,      1561.0980,      1561.0980,      1561.0980,      1561.0980,      1561.0980,      1561.0980,      1561.0980,      1561.0980,      1561.0980` 399442000,            nan,            nan,            nan,            nan,            nan,            nan,            nan, 199032703.7401,            nan, 206760822.4037, 114285171.0063, 127045090.6469, 201062791.5275,            nan,            nan,            nan,            nan,            nan,            nan,            nan,            nan,            nan, 114477654.8268,            nan, 122262446.6461,            nan,            nan,            nan,            nan,            nan,            nan,            nan,            nan, 117064180.7011,            nan,            nan, 126826115.6553`");
   (["BDS"; "BL7I_MSM7.obs"],
    of_reference "         1,              1,              2,              3,              4,              5,              6,              7,              8,              9,             10,             11,             12,             13,             14,             15,             16,             17,             18,             19,             20,             21,             22,             23,             24,             25,             26,             27,             28,             29,             30,             31,             32,             33,             34,             35,             36,             37` 1207.1400,      1207.1400,      1207.1400,      1207.1400,      1207.1400,      1207.1400,      1207.1400,      1207.1400,      1207.1400,      1207.1400,      1207.1400,      1207.1400,      1207.1400,      1207.1400,      1207.1400,      1207.1400,      1207.1400,      1207.1400,      1207.1400,      1207.1400,      1207.1400,      1207.1400,      1207.1400,      1207.1400,      1207.1400,      1207.1400,      1207.1400,      1207.1400,      1207.1400,      1207.1400,      1207.1400,      1207.1400,      1207.1400,      1207.1400,      1207.1400,      1207.1400,      1207.1400,      1207.1400` 399442000,            nan,            nan,            nan,            nan,            nan,            nan,            nan, 153904691.1746,            nan, 159880597.7424,            nan,  98239309.2141, 155474520.6991,            nan,            nan,            nan,            nan,            nan,            nan,            nan,            nan,            nan,            nan,            nan,            nan,            nan,            nan,            nan,            nan,            nan,            nan,            nan,            nan,            nan,            nan,            nan,            nan`");
   (["BDS"; "BS2I_MSM7.obs"],
    of_reference "         3,              1,              2,              3,              4,              5,              6,              7,              8,              9,             10,             11,             12,             13,             14,             15,             16,             17,             18,             19,             20,             21,             22,             23,             24,             25,             26,             27,             28,             29,             30,             31,             32,             33,             34,             35,             36,             37` 1561.0980,      1561.0980,      1561.0980,      1561.0980,      1561.0980,      1561.0980,      1561.0980,      1561.0980,      1561.0980,      1561.0980,      1561.0980,      1561.0980,      1561.0980,      1561.0980,      1561.0980,      1561.0980,      1561.0980,      1561.0980,      1561.0980,      1561.0980,      1561.0980,      1561.0980,      1561.0980,      1561.0980,      1561.0980,      1561.0980,      1561.0980,      1561.0980,      1561.0980,      1561.0980,      1561.0980,      1561.0980,      1561.0980,      1561.0980,      1561.0980,      1561.0980,      1561.0980,      1561.0980` 399442000,            nan,            nan,            nan,            nan,            nan,            nan,            nan,          40.00,            nan,          37.00,          49.00,          39.00,          42.00,            nan,            nan,            nan,            nan,            nan,            nan,            nan,            nan,            nan,          50.00,            nan,          47.00,            nan,            nan,            nan,            nan,            nan,            nan,            nan,            nan,          48.00,            nan,            nan,          45.00`");
   (["BDS"; "BS7I_MSM7.obs"],
    of_reference "         3,              1,              2,              3,              4,              5,              6,              7,              8,              9,             10,             11,             12,             13,             14,             15,             16,             17,             18,             19,             20,             21,             22,             23,             24,             25,             26,             27,             28,             29,             30,             31,             32,             33,             34,             35,             36,             37` 1207.1400,      1207.1400,      1207.1400,      1207.1400,      1207.1400,      1207.1400,      1207.1400,      1207.1400,      1207.1400,      1207.1400,      1207.1400,      1207.1400,      1207.1400,      1207.1400,      1207.1400,      1207.1400,      1207.1400,      1207.1400,      1207.1400,      1207.1400,      1207.1400,      1207.1400,      1207.1400,      1207.1400,      1207.1400,      1207.1400,      1207.1400,      1207.1400,      1207.1400,      1207.1400,      1207.1400,      1207.1400,      1207.1400,      1207.1400,      1207.1400,      1207.1400,      1207.1400,      1207.1400` 399442000,            nan,            nan,            nan,            nan,            nan,            nan,            nan,          46.00,            nan,          38.00,            nan,          48.00,          45.00,            nan,            nan,            nan,            nan,            nan,            nan,            nan,            nan,            nan,            nan,            nan,            nan,            nan,            nan,            nan,            nan,            nan,            nan,            nan,            nan,            nan,            nan,            nan,            nan`");
   (["BDS"; "BT2I_MSM7.obs"],
    of_reference "         4,         1,         2,         3,         4,         5,         6,         7,         8,         9,        10,        11,        12,        13,        14,        15,        16,        17,        18,        19,        20,        21,        22,        23,        24,        25,        26,        27,        28,        29,        30,        31,        32,        33,        34,        35,        36,        37` 1561.0980, 1561.0980, 1561.0980, 1561.0980, 1561.0980, 1561.0980, 1561.0980, 1561.0980, 1561.0980, 1561.0980, 1561.0980, 1561.0980, 1561.0980, 1561.0980, 1561.0980, 1561.0980, 1561.0980, 1561.0980, 1561.0980, 1561.0980, 1561.0980, 1561.0980, 1561.0980, 1561.0980, 1561.0980, 1561.0980, 1561.0980, 1561.0980, 1561.0980, 1561.0980, 1561.0980, 1561.0980, 1561.0980, 1561.0980, 1561.0980, 1561.0980, 1561.0980, 1561.0980` 399442000,       nan,       nan,       nan,       nan,       nan,       nan,       nan, 67108.864,       nan,   475.136,   655.360, 67108.864, 67108.864,       nan,       nan,       nan,       nan,       nan,       nan,       nan,       nan,       nan,   638.976,       nan,   638.976,       nan,       nan,       nan,       nan,       nan,       nan,       nan,       nan,   622.592,       nan,       nan,   622.592`");
   (["BDS"; "BT7I_MSM7.obs"],
    of_reference "         4,         1,         2,         3,         4,         5,         6,         7,         8,         9,        10,        11,        12,        13,        14,        15,        16,        17,        18,        19,        20,        21,        22,        23,        24,        25,        26,        27,        28,        29,        30,        31,        32,        33,        34,        35,        36,        37` 1207.1400, 1207.1400, 1207.1400, 1207.1400, 1207.1400, 1207.1400, 1207.1400, 1207.1400, 1207.1400, 1207.1400, 1207.1400, 1207.1400, 1207.1400, 1207.1400, 1207.1400, 1207.1400, 1207.1400, 1207.1400, 1207.1400, 1207.1400, 1207.1400, 1207.1400, 1207.1400, 1207.1400, 1207.1400, 1207.1400, 1207.1400, 1207.1400, 1207.1400, 1207.1400, 1207.1400, 1207.1400, 1207.1400, 1207.1400, 1207.1400, 1207.1400, 1207.1400, 1207.1400` 399442000,       nan,       nan,       nan,       nan,       nan,       nan,       nan,   606.208,       nan,   434.176,       nan,   606.208,   606.208,       nan,       nan,       nan,       nan,       nan,       nan,       nan,       nan,       nan,       nan,       nan,       nan,       nan,       nan,       nan,       nan,       nan,       nan,       nan,       nan,       nan,       nan,       nan,       nan`")].

(** RTCM3_TEST_DATA/MSM7/REF/msg1127-JSON *)
Definition ref_1127_JSON : list (list string * list Z) :=
  [
   (["msg1127-log.txt"],
    of_reference "New log file was created.`-------------------------`RTCMDEC:INFO: Opened file E:\PROJECTS\PY\RTCM_DECODER\RTCM3_TEST_DATA\MSM7\msg1127.rtcm3.`RTCMDEC:INFO: Msg 1127. Decoding succeeded. t = 399428000, sats = 9.`RTCMDEC:PROGRESS: 100.00%, 1 messages, prs-dec-prnt errors 0-0-0.`RTCMDEC:INFO: Closing file E:\PROJECTS\PY\RTCM_DECODER\RTCM3_TEST_DATA\MSM7\msg1127.rtcm3.`RTCMDEC:PROGRESS: Finished without errors.`");
   (["MSM7"; "BDS-MSM7-1127.json"],
    of_reference "[~{""source_type"": ""ObservablesMSM""},~{`  ""399428000"": {`    ""hdr"": {`      ""signals"": {`        ""2I"": 1561.098,`        ""7I"": 1207.14`      },`      ""sats"": [`        8,`        10,`        11,`        12,`        13,`        23,`        25,`        34,`        37`      ],`      ""time"": 399428000,`      ""day"": 0`    },`    ""aux"": {`      ""rs_id"": 42,`      ""MMB"": 1,`      ""IODS"": 0,`      ""clk_steer"": {`        ""code"": 1,`        ""val"": ""ON""`      },`      ""clk_ext"": {`        ""code"": 0,`        ""val"": ""INTERNAL""`      },`      ""smth_indc"": {`        ""code"": 1,`        ""val"": ""DVRG-FREE""`      },`      ""smth_intr"": {`        ""code"": 0,`        ""val"": ""NOSMTH""`      }`    },`    ""obs"": {`      ""rng"": {`        ""2I"": {`          ""8"": 38222137.07438985,`          ""10"": 39706241.41251265,`          ""11"": 21947264.90374943,`          ""12"": 24397672.912183486,`          ""13"": 38611994.70295049,`          ""23"": 21984229.783748437,`          ""25"": 23479219.453782227,`          ""34"": 22480944.75261923,`          ""37"": 24355620.360615317`        },`        ""7I"": {`          ""8"": 38222134.33093642,`          ""10"": 39706239.72891565,`          ""12"": 24397672.03101729,`          ""13"": 38611997.251519896`        }`      },`      ""phs"": {`        ""2I"": {`          ""8"": 38222138.185200915,`          ""10"": 39706242.123504326,`          ""11"": 21947265.53293448,`          ""12"": 24397673.946073987,`          ""13"": 38611995.20104951,`          ""23"": 21984230.026934672,`          ""25"": 23479217.44896161,`          ""34"": 22480945.127170704,`          ""37"": 24355622.101169836`        },`        ""7I"": {`          ""8"": 38222133.029289775,`          ""10"": 39706245.65808082,`          ""12"": 24397670.51173153,`          ""13"": 38611999.202035435`        }`      },`      ""ltm"": {`        ""2I"": {`          ""8"": 67108864,`          ""10"": 475136,`          ""11"": 655360,`          ""12"": 67108864,`          ""13"": 67108864,`          ""23"": 638976,`          ""25"": 638976,`          ""34"": 622592,`          ""37"": 622592`        },`        ""7I"": {`          ""8"": 606208,`          ""10"": 434176,`          ""12"": 606208,`          ""13"": 606208`        }`      },`      ""hca"": {`        ""2I"": {`          ""8"": false,`          ""10"": false,`          ""11"": false,`          ""12"": false,`          ""13"": false,`          ""23"": false,`          ""25"": false,`          ""34"": false,`          ""37"": false`        },`        ""7I"": {`          ""8"": false,`          ""10"": false,`          ""12"": false,`          ""13"": false`        }`      },`      ""dpl"": {`        ""2I"": {`          ""8"": -314.3102,`          ""10"": 159.1568,`          ""11"": 36.0658,`          ""12"": 544.5254,`          ""13"": -331.653,`          ""23"": 5.3968,`          ""25"": 527.9534,`          ""34"": 291.7082,`          ""37"": -511.5101`        },`        ""7I"": {`          ""8"": -314.25,`          ""10"": 159.2281,`          ""12"": 544.5033,`          ""13"": -331.661`        }`      },`      ""c2n"": {`        ""2I"": {`          ""8"": 40.0,`          ""10"": 37.0,`          ""11"": 49.0,`          ""12"": 39.0,`          ""13"": 42.0,`          ""23"": 50.0,`          ""25"": 47.0,`          ""34"": 48.0,`          ""37"": 45.0`        },`        ""7I"": {`          ""8"": 46.0,`          ""10"": 38.0,`          ""12"": 48.0,`          ""13"": 45.0`        }`      }`    }`  }`}~]")].

(** RTCM3_TEST_DATA/MSM7/REF/msg1137-MARGO *)
Definition ref_1137_MARGO : list (list string * list Z) :=
  [
   (["msg1137-log.txt"],
    of_reference "New log file was created.`-------------------------`RTCMDEC:INFO: Opened file E:\PROJECTS\PY\RTCM_DECODER\RTCM3_TEST_DATA\MSM7\msg1137.rtcm3.`RTCMDEC:INFO: Msg 1137. Decoding succeeded. t = 399442000, sats = 3.`RTCMDEC:PROGRESS: 100.00%, 1 messages, prs-dec-prnt errors 0-0-0.`RTCMDEC:INFO: Closing file E:\PROJECTS\PY\RTCM_DECODER\RTCM3_TEST_DATA\MSM7\msg1137.rtcm3.`RTCMDEC:PROGRESS: Finished without errors.`");
   (["NAVIC"; "IA5A_MSM7.obs"],
    of_reference "         5,   1,   2,   3,   4,   5,   6,   7,   8,   9,  10,  11,  12,  13,  14` 1176.4500,1176.4500,1176.4500,1176.4500,1176.4500,1176.4500,1176.4500,1176.4500,1176.4500,1176.4500,1176.4500,1176.4500,1176.4500,1176.4500,1176.4500` 399442000, nan,   0,   0, nan, nan,   0, nan, nan, nan, nan, nan, nan, nan, nan`");
   (["NAVIC"; "IA9A_MSM7.obs"],
    of_reference "         5,   1,   2,   3,   4,   5,   6,   7,   8,   9,  10,  11,  12,  13,  14` 2492.0280,2492.0280,2492.0280,2492.0280,2492.0280,2492.0280,2492.0280,2492.0280,2492.0280,2492.0280,2492.0280,2492.0280,2492.0280,2492.0280,2492.0280` 399442000, nan,   0,   0, nan, nan,   0, nan, nan, nan, nan, nan, nan, nan, nan`");
   (["NAVIC"; "IC5A_MSM7.obs"],
    of_reference "         0,              1,              2,              3,              4,              5,              6,              7,              8,              9,             10,             11,             12,             13,             14` 1176.4500,      1176.4500,      1176.4500,      1176.4500,      1176.4500,      1176.4500,      1176.4500,      1176.4500,      1176.4500,      1176.4500,      1176.4500,      1176.4500,      1176.4500,      1176.4500,      1176.4500` 399442000,            nan,   37519478.881,   40847451.589,            nan,            nan,   38759541.657,            nan,            nan,            nan,            nan,            nan,            nan,            nan,            nan`");
   (["NAVIC"; "IC9A_MSM7.obs"],
    of_reference "         0,              1,              2,              3,              4,              5,              6,              7,              8,              9,             10,             11,             12,             13,             14` 2492.0280,      2492.0280,      2492.0280,      2492.0280,      2492.0280,      2492.0280,      2492.0280,      2492.0280,      2492.0280,      2492.0280,      2492.0280,      2492.0280,      2492.0280,      2492.0280,      2492.0280` 399442000,            nan,   37519476.562,   40847446.559,            nan,            nan,   38759533.695,            nan,            nan,            nan,            nan,            nan,            nan,            nan,            nan`");
   (["NAVIC"; "ID5A_MSM7.obs"],
    of_reference "         2,              1,              2,              3,              4,              5,              6,              7,              8,              9,             10,             11,             12,             13,             14` 1176.4500,      1176.4500,      1176.4500,      1176.4500,      1176.4500,      1176.4500,      1176.4500,      1176.4500,      1176.4500,      1176.4500,      1176.4500,      1176.4500,      1176.4500,      1176.4500,      1176.4500` 399442000,            nan,       -428.699,         70.846,            nan,            nan,        -64.053,            nan,            nan,            nan,            nan,            nan,            nan,            nan,            nan`");
   (["NAVIC"; "ID9A_MSM7.obs"],
    of_reference "         2,              1,              2,              3,              4,              5,              6,              7,              8,              9,             10,             11,             12,             13,             14` 2492.0280,      2492.0280,      2492.0280,      2492.0280,      2492.0280,      2492.0280,      2492.0280,      2492.0280,      2492.0280,      2492.0280,      2492.0280,      2492.0280,      2492.0280,      2492.0280,      2492.0280` 399442000,            nan,       -907.996,        149.977,            nan,            nan,       -135.821,            nan,            nan,            nan,            nan,            nan,            nan,            nan,            nan`");
   (["NAVIC"; "IL5A_MSM7.obs"],
    of_reference "         1,              1,              2,              3,              4,              5,              6,              7,              8,              9,             10,             11,             12,             13,             14` 1176.4500,      1176.4500,      1176.4500,      1176.4500,      1176.4500,      1176.4500,      1176.4500,      1176.4500,      1176.4500,      1176.4500,      1176.4500,      1176.4500,      1176.4500,      1176.4500,      1176.4500` 399442000,            nan, 147234492.8584, 160294170.8422,            nan,            nan, 152100774.0982,            nan,            nan,            nan,            nan,            nan,            nan,            nan,            nan`");
   (["NAVIC"; "IL9A_MSM7.obs"],
    of_reference "         1,              1,              2,              3,              4,              5,              6,              7,              8,              9,             10,             11,             12,             13,             14` 2492.0280,      2492.0280,      2492.0280,      2492.0280,      2492.0280,      2492.0280,      2492.0280,      2492.0280,      2492.0280,      2492.0280,      2492.0280,      2492.0280,      2492.0280,      2492.0280,      2492.0280` 399442000,            nan, 311881081.4305, 339544835.5093,            nan,            nan, 322189037.5772,            nan,            nan,            nan,            nan,            nan,            nan,            nan,            nan`");
   (["NAVIC"; "IS5A_MSM7.obs"],
    of_reference "         3,              1,              2,              3,              4,              5,              6,              7,              8,              9,             10,             11,             12,             13,             14` 1176.4500,      1176.4500,      1176.4500,      1176.4500,      1176.4500,      1176.4500,      1176.4500,      1176.4500,      1176.4500,      1176.4500,      1176.4500,      1176.4500,      1176.4500,      1176.4500,      1176.4500` 399442000,            nan,          44.00,          42.00,            nan,            nan,          42.00,            nan,            nan,            nan,            nan,            nan,            nan,            nan,            nan`");
   (["NAVIC"; "IS9A_MSM7.obs"],
    of_reference "         3,              1,              2,              3,              4,              5,              6,              7,              8,              9,             10,             11,             12,             13,             14` 2492.0280,      2492.0280,      2492.0280,      2492.0280,      2492.0280,      2492.0280,      2492.0280,      2492.0280,      2492.0280,      2492.0280,      2492.0280,      2492.0280,      2492.0280,      2492.0280,      2492.0280` 399442000,            nan,          39.00,          38.00,            nan,            nan,          35.00,            nan,            nan,            nan,            nan,            nan,            nan,            nan,            nan`");
   (["NAVIC"; "IT5A_MSM7.obs"],
    of_reference "         4,         1,         2,         3,         4,         5,         6,         7,         8,         9,        10,        11,        12,        13,        14` 1176.4500, 1176.4500, 1176.4500, 1176.4500, 1176.4500, 1176.4500, 1176.4500, 1176.4500, 1176.4500, 1176.4500, 1176.4500, 1176.4500, 1176.4500, 1176.4500, 1176.4500` 399442000,       nan,   606.208,   606.208,       nan,       nan,   606.208,       nan,       nan,       nan,       nan,       nan,       nan,       nan,       nan`");
   (["NAVIC"; "IT9A_MSM7.obs"],
    of_reference "         4,         1,         2,         3,         4,         5,         6,         7,         8,         9,        10,        11,        12,        13,        14` 2492.0280, 2492.0280, 2492.0280, 2492.0280, 2492.0280, 2492.0280, 2492.0280, 2492.0280, 2492.0280, 2492.0280, 2492.0280, 2492.0280, 2492.0280, 2492.0280, 2492.0280` 399442000,       nan,   573.440,   573.440,       nan,       nan,   573.440,       nan,       nan,       nan,       nan,       nan,       nan,       nan,       nan`")].

(** RTCM3_TEST_DATA/MSM7/REF/msg1137-JSON *)
Definition ref_1137_JSON : list (list string * list Z) :=
  [
   (["msg1137-log.txt"],
    of_reference "New log file was created.`-------------------------`RTCMDEC:INFO: Opened file E:\PROJECTS\PY\RTCM_DECODER\RTCM3_TEST_DATA\MSM7\msg1137.rtcm3.`RTCMDEC:INFO: Msg 1137. Decoding succeeded. t = 399442000, sats = 3.`RTCMDEC:PROGRESS: 100.00%, 1 messages, prs-dec-prnt errors 0-0-0.`RTCMDEC:INFO: Closing file E:\PROJECTS\PY\RTCM_DECODER\RTCM3_TEST_DATA\MSM7\msg1137.rtcm3.`RTCMDEC:PROGRESS: Finished without errors.`");
   (["MSM7"; "NAVIC-MSM7-1137.json"],
    of_reference "[~{""source_type"": ""ObservablesMSM""},~{`  ""399442000"": {`    ""hdr"": {`      ""signals"": {`        ""9A"": 2492.028,`        ""5A"": 1176.45`      },`      ""sats"": [`        2,`        3,`        6`      ],`      ""time"": 399442000,`      ""day"": 0`    },`    ""aux"": {`      ""rs_id"": 42,`      ""MMB"": 0,`      ""IODS"": 0,`      ""clk_steer"": {`        ""code"": 1,`        ""val"": ""ON""`      },`      ""clk_ext"": {`        ""code"": 0,`        ""val"": ""INTERNAL""`      },`      ""smth_indc"": {`        ""code"": 1,`        ""val"": ""DVRG-FREE""`      },`      ""smth_intr"": {`        ""code"": 0,`        ""val"": ""NOSMTH""`      }`    },`    ""obs"": {`      ""rng"": {`        ""9A"": {`          ""2"": 37519476.561701,`          ""3"": 40847446.559174255,`          ""6"": 38759533.694555044`        },`        ""5A"": {`          ""2"": 37519478.881323546,`          ""3"": 40847451.58874581,`          ""6"": 38759541.657438405`        }`      },`      ""phs"": {`        ""9A"": {`          ""2"": 37519480.52178361,`          ""3"": 40847446.67336848,`          ""6"": 38759533.807772055`        },`        ""5A"": {`          ""2"": 37519478.52980635,`          ""3"": 40847450.78826942,`          ""6"": 38759543.48301038`        }`      },`      ""ltm"": {`        ""9A"": {`          ""2"": 573440,`          ""3"": 573440,`          ""6"": 573440`        },`        ""5A"": {`          ""2"": 606208,`          ""3"": 606208,`          ""6"": 606208`        }`      },`      ""hca"": {`        ""9A"": {`          ""2"": false,`          ""3"": false,`          ""6"": false`        },`        ""5A"": {`          ""2"": false,`          ""3"": false,`          ""6"": false`        }`      },`      ""dpl"": {`        ""9A"": {`          ""2"": 109.2325,`          ""3"": -18.0423,`          ""6"": 16.3393`        },`        ""5A"": {`          ""2"": 109.2445,`          ""3"": -18.0535,`          ""6"": 16.3225`        }`      },`      ""c2n"": {`        ""9A"": {`          ""2"": 39.0,`          ""3"": 38.0,`          ""6"": 35.0`        },`        ""5A"": {`          ""2"": 44.0,`          ""3"": 42.0,`          ""6"": 42.0`        }`      }`    }`  }`}~]")].

(** RTCM3_TEST_DATA/BASE/REF/RefPoint-1005.json *)
Definition ref_1005 : list (list string * list Z) :=
  [(["BASE"; "RefPoint-1005.json"],
    of_reference "[~{""source_type"": ""BaseRP""},~{`  ""msgNum"": 1005,`  ""bsID"": 42,`  ""ITRF_Year"": 0,`  ""GPS_OK"": true,`  ""GLO_OK"": true,`  ""GAL_OK"": true,`  ""isVirtual"": false,`  ""refPoint_X"": 3335931.1125000003,`  ""singleOsc"": false,`  ""refPoint_Y"": 1743295.6681000001,`  ""QC_bias"": ""CORRECTED"",`  ""refPoint_Z"": 5132130.4266`}~]")].

(** RTCM3_TEST_DATA/BASE/REF/RefPointHeight-1006.json *)
Definition ref_1006 : list (list string * list Z) :=
  [(["BASE"; "RefPointHeight-1006.json"],
    of_reference "[~{""source_type"": ""BaseRPH""},~{`  ""msgNum"": 1006,`  ""bsID"": 0,`  ""ITRF_Year"": 0,`  ""GPS_OK"": true,`  ""GLO_OK"": true,`  ""GAL_OK"": true,`  ""isVirtual"": true,`  ""refPoint_X"": -1078805.6687,`  ""singleOsc"": false,`  ""refPoint_Y"": -5874977.0231,`  ""QC_bias"": ""UNDEF"",`  ""refPoint_Z"": 2234281.5866,`  ""height"": 0.0`}~]")].

(** RTCM3_TEST_DATA/BASE/REF/AntDesc-1007.json *)
Definition ref_1007 : list (list string * list Z) :=
  [(["BASE"; "AntDesc-1007.json"],
    of_reference "[~{""source_type"": ""BaseAD""},~{`  ""msgNum"": 1007,`  ""bsID"": 42,`  ""descrLength"": 7,`  ""descr"": ""UNKNOWN"",`  ""setupID"": 0`}~]")].

(** RTCM3_TEST_DATA/BASE/REF/TextStr-1029.json *)
Definition ref_1029 : list (list string * list Z) :=
  [(["BASE"; "TextStr-1029.json"],
    of_reference "[~{""source_type"": ""BaseTS""},~{`  ""msgNum"": 1029,`  ""bsID"": 23,`  ""modifiedJulianDay"": 132,`  ""daySec"": 59100,`  ""charNum"": 21,`  ""unitsNum"": 30,`  ""message"": ""UTF-8 " ++ [1087; 1088; 1086; 1074; 1077; 1088; 1082; 1072; 32; 119; 246] ++ of_reference "rter""`}~]")].

(** RTCM3_TEST_DATA/BASE/REF/AntAndRcvDesc-1033.json *)
Definition ref_1033 : list (list string * list Z) :=
  [(["BASE"; "AntAndRcvDesc-1033.json"],
    of_reference "[~{""source_type"": ""BaseADSNRC""},~{`  ""msgNum"": 1033,`  ""bsID"": 0,`  ""descrLength"": 14,`  ""descr"": ""ADVNULLANTENNA"",`  ""setupID"": 233,`  ""serialNumberLength"": 5,`  ""serialNumber"": ""a0001"",`  ""rcvDescriptorLength"": 7,`  ""rcvDescriptor"": ""UNICORE"",`  ""rcvFWVersionLength"": 7,`  ""rcvFWVersion"": ""unknown"",`  ""rcvSerNumLength"": 7,`  ""rcvSerNum"": ""unknown""`}~]")].

(** RTCM3_TEST_DATA/BASE/REF/GloBias-1230.json *)
Definition ref_1230 : list (list string * list Z) :=
  [(["BASE"; "GloBias-1230.json"],
    of_reference "[~{""source_type"": ""BaseGLBS""},~{`  ""msgNum"": 1230,`  ""bsID"": 42,`  ""isCorrected"": false,`  ""validity"": {`    ""1C"": true,`    ""1P"": false,`    ""2C"": true,`    ""2P"": false`  },`  ""correction"": {`    ""1C"": 0.0,`    ""1P"": 0.0,`    ""2C"": 0.0,`    ""2P"": 0.0`  }`}~]")].

(** tests/ephemeris_test_samples.py:110-210 *)
Definition ref_1019 : list pyobj :=
  [
   {| po_class := "EphGPS"; po_attrs := [
     ("msgNum", VInt (1019));
     ("satNum", VInt (32));
     ("weekNum", VInt (197));
     ("tc", VInt (403200));
     ("af0", VFloat (S754_finite true 6809851036434432 (-64)));
     ("af1", VFloat (S754_finite true 7599824371187712 (-89)));
     ("af2", VFloat (S754_zero false));
     ("te", VInt (403200));
     ("delta_n", VFloat (S754_finite false 7292510871224320 (-82)));
     ("m0", VFloat (S754_finite true 8642205166075904 (-55)));
     ("e", VFloat (S754_finite false 7478583886872576 (-60)));
     ("sqrt_a", VFloat (S754_finite false 5666543503409152 (-40)));
     ("w", VFloat (S754_finite true 6523427758276608 (-53)));
     ("i0", VFloat (S754_finite false 5501420941869056 (-54)));
     ("i_dot", VFloat (S754_finite false 8140784092053504 (-85)));
     ("omega0", VFloat (S754_finite false 4958495988252672 (-55)));
     ("omega_dot", VFloat (S754_finite true 6098990999273472 (-81)));
     ("crs", VFloat (S754_finite true 4609152743636992 (-49)));
     ("crc", VFloat (S754_finite false 7056665627066368 (-45)));
     ("cuc", VFloat (S754_finite true 5735052650479616 (-74)));
     ("cus", VFloat (S754_finite false 5474468394696704 (-69)));
     ("cic", VFloat (S754_finite false 4503599627370496 (-78)));
     ("cis", VFloat (S754_finite false 6473924464345088 (-75)));
     ("IODE", VInt (68));
     ("IODC", VInt (68));
     ("Fit", VInt (0));
     ("L2_Codes", VInt (1));
     ("L2P_Data", VInt (0));
     ("SVH", VInt (0));
     ("URA", VInt (0));
     ("TGD", VFloat (S754_finite false 4503599627370496 (-83)))] |};
   {| po_class := "EphGPS"; po_attrs := [
     ("msgNum", VInt (1019));
     ("satNum", VInt (31));
     ("weekNum", VInt (197));
     ("tc", VInt (403200));
     ("af0", VFloat (S754_finite true 7629064508538880 (-65)));
     ("af1", VFloat (S754_finite true 5629499534213120 (-92)));
     ("af2", VFloat (S754_zero false));
     ("te", VInt (403200));
     ("delta_n", VFloat (S754_finite false 7985752952537088 (-82)));
     ("m0", VFloat (S754_finite false 8056003358621696 (-54)));
     ("e", VFloat (S754_finite false 6221844243808256 (-59)));
     ("sqrt_a", VFloat (S754_finite false 5666477120159744 (-40)));
     ("w", VFloat (S754_finite false 5676361083518976 (-55)));
     ("i0", VFloat (S754_finite false 5470886652018688 (-54)));
     ("i_dot", VFloat (S754_finite true 5158908557524992 (-85)));
     ("omega0", VFloat (S754_finite false 8664072522301440 (-54)));
     ("omega_dot", VFloat (S754_finite true 6312846010875904 (-81)));
     ("crs", VFloat (S754_finite true 5629499534213120 (-55)));
     ("crc", VFloat (S754_finite false 4551978138992640 (-44)));
     ("cuc", VFloat (S754_finite false 4503599627370496 (-74)));
     ("cus", VFloat (S754_finite false 7375523999121408 (-70)));
     ("cic", VFloat (S754_finite true 4925812092436480 (-76)));
     ("cis", VFloat (S754_finite false 6192449487634432 (-75)));
     ("IODE", VInt (72));
     ("IODC", VInt (72));
     ("Fit", VInt (0));
     ("L2_Codes", VInt (1));
     ("L2P_Data", VInt (0));
     ("SVH", VInt (0));
     ("URA", VInt (0));
     ("TGD", VFloat (S754_finite true 8162774324609024 (-79)))] |};
   {| po_class := "EphGPS"; po_attrs := [
     ("msgNum", VInt (1019));
     ("satNum", VInt (29));
     ("weekNum", VInt (197));
     ("tc", VInt (403200));
     ("af0", VFloat (S754_finite true 5361802812588032 (-63)));
     ("af1", VFloat (S754_finite true 5629499534213120 (-91)));
     ("af2", VFloat (S754_zero false));
     ("te", VInt (403200));
     ("delta_n", VFloat (S754_finite false 6252372871348224 (-82)));
     ("m0", VFloat (S754_finite true 8405242332839936 (-54)));
     ("e", VFloat (S754_finite false 4909544366931968 (-61)));
     ("sqrt_a", VFloat (S754_finite false 5666438226378752 (-40)));
     ("w", VFloat (S754_finite false 6934096424992768 (-53)));
     ("i0", VFloat (S754_finite false 5610364699934720 (-54)));
     ("i_dot", VFloat (S754_finite false 5110530045902848 (-86)));
     ("omega0", VFloat (S754_finite true 7526067459850240 (-53)));
     ("omega_dot", VFloat (S754_finite true 6145720243453952 (-81)));
     ("crs", VFloat (S754_finite false 4758686325014528 (-45)));
     ("crc", VFloat (S754_finite false 5551434208641024 (-44)));
     ("cuc", VFloat (S754_finite false 8255133301342208 (-70)));
     ("cus", VFloat (S754_finite false 4567371301781504 (-70)));
     ("cic", VFloat (S754_finite false 7881299347898368 (-79)));
     ("cis", VFloat (S754_finite false 7881299347898368 (-77)));
     ("IODE", VInt (13));
     ("IODC", VInt (13));
     ("Fit", VInt (0));
     ("L2_Codes", VInt (1));
     ("L2P_Data", VInt (0));
     ("SVH", VInt (0));
     ("URA", VInt (0));
     ("TGD", VFloat (S754_finite true 6192449487634432 (-79)))] |}].

(** tests/ephemeris_test_samples.py:213-328 *)
Definition ref_1020 : list pyobj :=
  [
   {| po_class := "EphGLO"; po_attrs := [
     ("msgNum", VInt (1020));
     ("satNum", VInt (12));
     ("frqSloNum", VInt (-1));
     ("tk", VInt (64590));
     ("tb", VInt (63900));
     ("xn", VFloat (S754_finite false 7261841046634496 (-40)));
     ("dotXn", VFloat (S754_finite false 6140497563222016 (-53)));
     ("dotDotXn", VFloat (S754_zero false));
     ("yn", VFloat (S754_finite true 7377765972049920 (-39)));
     ("dotYn", VFloat (S754_finite false 6178314750263296 (-51)));
     ("dotDotYn", VFloat (S754_finite false 4503599627370496 (-82)));
     ("zn", VFloat (S754_finite false 5683021000736768 (-38)));
     ("dotZn", VFloat (S754_finite false 7054685647142912 (-52)));
     ("dotDotZn", VFloat (S754_finite true 4503599627370496 (-80)));
     ("gamma_n", VFloat (S754_zero false));
     ("Cn", VInt (0));
     ("BnMSB", VInt (0));
     ("AlmHAI", VInt (0));
     ("P", VInt (3));
     ("P1", VInt (0));
     ("P2", VInt (1));
     ("P3", VInt (1));
     ("P4", VInt (1));
     ("ln3", VInt (0));
     ("tauN", VFloat (S754_finite true 7208947987513344 (-68)));
     ("delta_tauN", VFloat (S754_finite false 7881299347898368 (-80)));
     ("En", VInt (0));
     ("Ft", VInt (1));
     ("Nt", VInt (1115));
     ("M", VInt (1));
     ("auxDataOK", VInt (1));
     ("Na", VInt (1114));
     ("tauC", VFloat (S754_finite true 6755399441055744 (-80)));
     ("N4", VInt (7));
     ("tauGPS", VFloat (S754_finite false 7599824371187712 (-77)));
     ("ln5", VInt (0))] |};
   {| po_class := "EphGLO"; po_attrs := [
     ("msgNum", VInt (1020));
     ("satNum", VInt (22));
     ("frqSloNum", VInt (-3));
     ("tk", VInt (64590));
     ("tb", VInt (63900));
     ("xn", VFloat (S754_finite false 6721317667602432 (-38)));
     ("dotXn", VFloat (S754_finite false 5468506980089856 (-53)));
     ("dotDotXn", VFloat (S754_finite true 4503599627370496 (-81)));
     ("yn", VFloat (S754_finite false 6437967535013888 (-40)));
     ("dotYn", VFloat (S754_finite false 4726800487809024 (-58)));
     ("dotDotYn", VFloat (S754_finite true 4503599627370496 (-81)));
     ("zn", VFloat (S754_finite true 4638595818192896 (-40)));
     ("dotZn", VFloat (S754_finite false 7920793719668736 (-51)));
     ("dotDotZn", VFloat (S754_zero false));
     ("gamma_n", VFloat (S754_finite false 4503599627370496 (-91)));
     ("Cn", VInt (0));
     ("BnMSB", VInt (0));
     ("AlmHAI", VInt (0));
     ("P", VInt (3));
     ("P1", VInt (0));
     ("P2", VInt (1));
     ("P3", VInt (1));
     ("P4", VInt (0));
     ("ln3", VInt (0));
     ("tauN", VFloat (S754_finite true 4966425303187456 (-66)));
     ("delta_tauN", VFloat (S754_finite false 4503599627370496 (-80)));
     ("En", VInt (0));
     ("Ft", VInt (2));
     ("Nt", VInt (1115));
     ("M", VInt (1));
     ("auxDataOK", VInt (1));
     ("Na", VInt (1114));
     ("tauC", VFloat (S754_finite true 6755399441055744 (-80)));
     ("N4", VInt (7));
     ("tauGPS", VFloat (S754_finite false 7599824371187712 (-77)));
     ("ln5", VInt (0))] |};
   {| po_class := "EphGLO"; po_attrs := [
     ("msgNum", VInt (1020));
     ("satNum", VInt (2));
     ("frqSloNum", VInt (-4));
     ("tk", VInt (64590));
     ("tb", VInt (63900));
     ("xn", VFloat (S754_finite false 8911302835568640 (-40)));
     ("dotXn", VFloat (S754_finite false 6526202806272000 (-52)));
     ("dotDotXn", VFloat (S754_zero false));
     ("yn", VFloat (S754_finite true 5034517446262784 (-38)));
     ("dotYn", VFloat (S754_finite true 7222863681552384 (-52)));
     ("dotDotYn", VFloat (S754_zero false));
     ("zn", VFloat (S754_finite false 8683783117078528 (-39)));
     ("dotZn", VFloat (S754_finite true 5891919888515072 (-51)));
     ("dotDotZn", VFloat (S754_finite true 4503599627370496 (-80)));
     ("gamma_n", VFloat (S754_zero false));
     ("Cn", VInt (0));
     ("BnMSB", VInt (0));
     ("AlmHAI", VInt (0));
     ("P", VInt (3));
     ("P1", VInt (0));
     ("P2", VInt (1));
     ("P3", VInt (1));
     ("P4", VInt (0));
     ("ln3", VInt (0));
     ("tauN", VFloat (S754_finite false 6880194010808320 (-68)));
     ("delta_tauN", VFloat (S754_finite false 6755399441055744 (-80)));
     ("En", VInt (0));
     ("Ft", VInt (2));
     ("Nt", VInt (1115));
     ("M", VInt (1));
     ("auxDataOK", VInt (1));
     ("Na", VInt (1115));
     ("tauC", VFloat (S754_finite true 6192449487634432 (-80)));
     ("N4", VInt (7));
     ("tauGPS", VFloat (S754_finite false 7459086882832384 (-77)));
     ("ln5", VInt (0))] |}].

(** tests/ephemeris_test_samples.py:331-431 *)
Definition ref_1046 : list pyobj :=
  [
   {| po_class := "EphGALI"; po_attrs := [
     ("msgNum", VInt (1046));
     ("satNum", VInt (31));
     ("weekNum", VInt (1221));
     ("tc", VInt (398400));
     ("af0", VFloat (S754_finite true 4738331401256960 (-63)));
     ("af1", VFloat (S754_finite true 4996180836614144 (-92)));
     ("af2", VFloat (S754_zero false));
     ("te", VInt (398400));
     ("delta_n", VFloat (S754_finite false 8383776161792000 (-83)));
     ("m0", VFloat (S754_finite false 6328319943376896 (-53)));
     ("e", VFloat (S754_finite false 4536544174014464 (-64)));
     ("sqrt_a", VFloat (S754_finite false 5982029084622848 (-40)));
     ("w", VFloat (S754_finite true 6871034556841984 (-56)));
     ("i0", VFloat (S754_finite false 5565267040010240 (-54)));
     ("i_dot", VFloat (S754_finite true 8488229766430720 (-85)));
     ("omega0", VFloat (S754_finite false 7089341578870784 (-53)));
     ("omega_dot", VFloat (S754_finite true 7910436406034432 (-82)));
     ("crs", VFloat (S754_finite false 5488762045857792 (-46)));
     ("crc", VFloat (S754_finite false 6966505673588736 (-46)));
     ("cuc", VFloat (S754_finite false 8510219998986240 (-71)));
     ("cus", VFloat (S754_finite false 6781787720122368 (-69)));
     ("cic", VFloat (S754_finite false 5066549580791808 (-77)));
     ("cis", VFloat (S754_finite false 6755399441055744 (-79)));
     ("IODnav", VInt (24));
     ("SISA", VInt (107));
     ("E5a_BGD", VFloat (S754_finite false 7599824371187712 (-80)));
     ("E5b_BGD", VFloat (S754_finite false 8162774324609024 (-80)));
     ("E1_SHS", VInt (0));
     ("E1_DVS", VInt (0));
     ("E5b_SHS", VInt (0));
     ("E5b_DVS", VInt (0))] |};
   {| po_class := "EphGALI"; po_attrs := [
     ("msgNum", VInt (1046));
     ("satNum", VInt (26));
     ("weekNum", VInt (1221));
     ("tc", VInt (398400));
     ("af0", VFloat (S754_finite true 8516825390252032 (-62)));
     ("af1", VFloat (S754_finite false 6940117394522112 (-89)));
     ("af2", VFloat (S754_zero false));
     ("te", VInt (398400));
     ("delta_n", VFloat (S754_finite false 8822481301274624 (-83)));
     ("m0", VFloat (S754_finite false 8453445526749184 (-53)));
     ("e", VFloat (S754_finite false 5247283952091136 (-64)));
     ("sqrt_a", VFloat (S754_finite false 5982008037605376 (-40)));
     ("w", VFloat (S754_finite true 8958657140097024 (-54)));
     ("i0", VFloat (S754_finite false 5688228900241408 (-54)));
     ("i_dot", VFloat (S754_finite true 5488762045857792 (-89)));
     ("omega0", VFloat (S754_finite true 4936447400345600 (-53)));
     ("omega_dot", VFloat (S754_finite true 4535210586669056 (-81)));
     ("crs", VFloat (S754_finite true 5888984278368256 (-47)));
     ("crc", VFloat (S754_finite false 7600374127001600 (-44)));
     ("cuc", VFloat (S754_finite true 4657531255259136 (-71)));
     ("cus", VFloat (S754_finite true 8325502045519872 (-71)));
     ("cic", VFloat (S754_finite false 5629499534213120 (-77)));
     ("cis", VFloat (S754_finite true 7318349394477056 (-77)));
     ("IODnav", VInt (24));
     ("SISA", VInt (107));
     ("E5a_BGD", VFloat (S754_finite true 4785074604081152 (-80)));
     ("E5b_BGD", VFloat (S754_finite true 5348024557502464 (-80)));
     ("E1_SHS", VInt (0));
     ("E1_DVS", VInt (0));
     ("E5b_SHS", VInt (0));
     ("E5b_DVS", VInt (0))] |};
   {| po_class := "EphGALI"; po_attrs := [
     ("msgNum", VInt (1046));
     ("satNum", VInt (24));
     ("weekNum", VInt (1221));
     ("tc", VInt (398400));
     ("af0", VFloat (S754_finite true 4919245355876352 (-62)));
     ("af1", VFloat (S754_finite true 6517904929456128 (-88)));
     ("af2", VFloat (S754_zero false));
     ("te", VInt (398400));
     ("delta_n", VFloat (S754_finite false 8867561278013440 (-83)));
     ("m0", VFloat (S754_finite false 5344576168525824 (-55)));
     ("e", VFloat (S754_finite false 6983746746056704 (-63)));
     ("sqrt_a", VFloat (S754_finite false 5982032310042624 (-40)));
     ("w", VFloat (S754_finite false 7933906137382912 (-55)));
     ("i0", VFloat (S754_finite false 5553271515119616 (-54)));
     ("i_dot", VFloat (S754_finite true 8558598510608384 (-85)));
     ("omega0", VFloat (S754_finite false 7100474629029888 (-53)));
     ("omega_dot", VFloat (S754_finite true 7978056371142656 (-82)));
     ("crs", VFloat (S754_finite false 6753200417800192 (-46)));
     ("crc", VFloat (S754_finite false 7498669301432320 (-46)));
     ("cuc", VFloat (S754_finite false 5361218697035776 (-70)));
     ("cus", VFloat (S754_finite false 6542094185267200 (-69)));
     ("cic", VFloat (S754_finite false 7881299347898368 (-77)));
     ("cis", VFloat (S754_finite false 6755399441055744 (-80)));
     ("IODnav", VInt (24));
     ("SISA", VInt (107));
     ("E5a_BGD", VFloat (S754_finite true 8444249301319680 (-81)));
     ("E5b_BGD", VFloat (S754_finite true 5066549580791808 (-80)));
     ("E1_SHS", VInt (0));
     ("E1_DVS", VInt (0));
     ("E5b_SHS", VInt (0));
     ("E5b_DVS", VInt (0))] |}].

(** tests/ephemeris_test_samples.py:433-524 *)
Definition ref_1045 : list pyobj :=
  [
   {| po_class := "EphGALF"; po_attrs := [
     ("msgNum", VInt (1045));
     ("satNum", VInt (13));
     ("weekNum", VInt (1119));
     ("tc", VInt (489600));
     ("af0", VFloat (S754_finite true 7103548416327680 (-64)));
     ("af1", VFloat (S754_finite true 5242471441235968 (-90)));
     ("af2", VFloat (S754_zero false));
     ("te", VInt (489600));
     ("delta_n", VFloat (S754_finite false 5825212603957248 (-82)));
     ("m0", VFloat (S754_finite true 5914936349818880 (-57)));
     ("e", VFloat (S754_finite false 5563941153406976 (-64)));
     ("sqrt_a", VFloat (S754_finite false 9007199250546688 (-41)));
     ("w", VFloat (S754_finite false 4807019823366144 (-54)));
     ("i0", VFloat (S754_finite false 5471613088694272 (-54)));
     ("i_dot", VFloat (S754_finite true 5559130790035456 (-88)));
     ("omega0", VFloat (S754_finite false 5341003779145728 (-54)));
     ("omega_dot", VFloat (S754_finite true 8975863173349376 (-82)));
     ("crs", VFloat (S754_finite true 7705377487454208 (-48)));
     ("crc", VFloat (S754_finite false 7398613743304704 (-45)));
     ("cuc", VFloat (S754_finite true 6737807255011328 (-72)));
     ("cus", VFloat (S754_finite false 7067660743344128 (-70)));
     ("cic", VFloat (S754_finite false 4503599627370496 (-77)));
     ("cis", VFloat (S754_finite false 5629499534213120 (-78)));
     ("IODnav", VInt (48));
     ("SISA", VInt (107));
     ("E5a_BGD", VFloat (S754_finite false 6755399441055744 (-81)));
     ("E5a_SHS", VInt (0));
     ("E5a_DVS", VInt (0))] |};
   {| po_class := "EphGALF"; po_attrs := [
     ("msgNum", VInt (1045));
     ("satNum", VInt (14));
     ("weekNum", VInt (1119));
     ("tc", VInt (485400));
     ("af0", VFloat (S754_finite true 6489600021233664 (-63)));
     ("af1", VFloat (S754_finite true 4837851162214400 (-89)));
     ("af2", VFloat (S754_zero false));
     ("te", VInt (485400));
     ("delta_n", VFloat (S754_finite false 5629499534213120 (-82)));
     ("m0", VFloat (S754_finite true 8378170935869440 (-53)));
     ("e", VFloat (S754_finite false 6784450599845888 (-67)));
     ("sqrt_a", VFloat (S754_finite false 9007199250546688 (-41)));
     ("w", VFloat (S754_finite true 7104568152293376 (-53)));
     ("i0", VFloat (S754_finite false 5475344777740288 (-54)));
     ("i_dot", VFloat (S754_finite false 7564639999098880 (-88)));
     ("omega0", VFloat (S754_finite false 5005028704124928 (-55)));
     ("omega_dot", VFloat (S754_finite true 8840623243132928 (-82)));
     ("crs", VFloat (S754_finite true 7195204092166144 (-48)));
     ("crc", VFloat (S754_finite false 6591572208517120 (-45)));
     ("cuc", VFloat (S754_finite true 6570681487589376 (-72)));
     ("cus", VFloat (S754_finite false 8279322557153280 (-70)));
     ("cic", VFloat (S754_finite false 4503599627370496 (-77)));
     ("cis", VFloat (S754_finite false 5629499534213120 (-79)));
     ("IODnav", VInt (41));
     ("SISA", VInt (107));
     ("E5a_BGD", VFloat (S754_finite true 7318349394477056 (-81)));
     ("E5a_SHS", VInt (3));
     ("E5a_DVS", VInt (1))] |};
   {| po_class := "EphGALF"; po_attrs := [
     ("msgNum", VInt (1045));
     ("satNum", VInt (15));
     ("weekNum", VInt (1119));
     ("tc", VInt (489600));
     ("af0", VFloat (S754_finite true 5802648993267712 (-64)));
     ("af1", VFloat (S754_finite false 7670193115365376 (-91)));
     ("af2", VFloat (S754_zero false));
     ("te", VInt (489600));
     ("delta_n", VFloat (S754_finite false 5787829208612864 (-82)));
     ("m0", VFloat (S754_finite true 8491884917817344 (-58)));
     ("e", VFloat (S754_finite false 5239383359750144 (-65)));
     ("sqrt_a", VFloat (S754_finite false 9007199250546688 (-41)));
     ("w", VFloat (S754_finite false 4565577494429696 (-53)));
     ("i0", VFloat (S754_finite false 5471687923466240 (-54)));
     ("i_dot", VFloat (S754_finite true 5031365208702976 (-88)));
     ("omega0", VFloat (S754_finite false 5340950461153280 (-54)));
     ("omega_dot", VFloat (S754_finite true 8969815859396608 (-82)));
     ("crs", VFloat (S754_finite true 8127589952520192 (-48)));
     ("crc", VFloat (S754_finite false 7311752324710400 (-45)));
     ("cuc", VFloat (S754_finite true 6456332278300672 (-72)));
     ("cus", VFloat (S754_finite false 7012685161955328 (-70)));
     ("cic", VFloat (S754_finite false 4503599627370496 (-81)));
     ("cis", VFloat (S754_finite false 5066549580791808 (-76)));
     ("IODnav", VInt (48));
     ("SISA", VInt (107));
     ("E5a_BGD", VFloat (S754_finite false 7881299347898368 (-81)));
     ("E5a_SHS", VInt (0));
     ("E5a_DVS", VInt (0))] |}].

(** tests/ephemeris_test_samples.py:528-622 *)
Definition ref_1042 : list pyobj :=
  [
   {| po_class := "EphBDS"; po_attrs := [
     ("msgNum", VInt (1042));
     ("satNum", VInt (11));
     ("weekNum", VInt (889));
     ("tc", VInt (396000));
     ("af0", VFloat (S754_finite true 6237044133068800 (-65)));
     ("af1", VFloat (S754_finite false 6331537708548096 (-88)));
     ("af2", VFloat (S754_zero false));
     ("te", VInt (396000));
     ("delta_n", VFloat (S754_finite false 5183097813336064 (-82)));
     ("m0", VFloat (S754_finite false 6793825833975808 (-53)));
     ("e", VFloat (S754_finite false 5077729112227840 (-61)));
     ("sqrt_a", VFloat (S754_finite false 5808294912327680 (-40)));
     ("w", VFloat (S754_finite true 4977009918738432 (-53)));
     ("i0", VFloat (S754_finite false 5666192748445696 (-54)));
     ("i_dot", VFloat (S754_finite false 5110530045902848 (-86)));
     ("omega0", VFloat (S754_finite true 6393992686075904 (-53)));
     ("omega_dot", VFloat (S754_finite true 5303219458670592 (-81)));
     ("crs", VFloat (S754_finite false 6112185138806784 (-46)));
     ("crc", VFloat (S754_finite false 6778214307332096 (-44)));
     ("cuc", VFloat (S754_finite false 5085241278464000 (-70)));
     ("cus", VFloat (S754_finite true 5004976929636352 (-73)));
     ("cic", VFloat (S754_finite false 7107243161944064 (-77)));
     ("cis", VFloat (S754_finite false 8444249301319680 (-80)));
     ("AODE", VInt (20));
     ("AODC", VInt (0));
     ("SVH", VInt (1));
     ("URAI", VInt (0));
     ("TGD1", VFloat (S754_finite false 5198381024342905 (-80)));
     ("TGD2", VFloat (S754_finite false 8220695573379478 (-82)))] |};
   {| po_class := "EphBDS"; po_attrs := [
     ("msgNum", VInt (1042));
     ("satNum", VInt (12));
     ("weekNum", VInt (889));
     ("tc", VInt (396000));
     ("af0", VFloat (S754_finite false 7486729292349440 (-64)));
     ("af1", VFloat (S754_finite false 6128402935316480 (-88)));
     ("af2", VFloat (S754_zero false));
     ("te", VInt (396000));
     ("delta_n", VFloat (S754_finite false 5138017836597248 (-82)));
     ("m0", VFloat (S754_finite false 8716727881826304 (-53)));
     ("e", VFloat (S754_finite false 5981052807938048 (-62)));
     ("sqrt_a", VFloat (S754_finite false 5808293150720000 (-40)));
     ("w", VFloat (S754_finite true 4693276540010496 (-53)));
     ("i0", VFloat (S754_finite false 5657632492748800 (-54)));
     ("i_dot", VFloat (S754_finite false 5435985487724544 (-86)));
     ("omega0", VFloat (S754_finite true 6428544536150016 (-53)));
     ("omega_dot", VFloat (S754_finite true 5323835301691392 (-81)));
     ("crs", VFloat (S754_finite false 6906032534061056 (-46)));
     ("crc", VFloat (S754_finite false 6506634935271424 (-44)));
     ("cuc", VFloat (S754_finite false 5839506255118336 (-70)));
     ("cus", VFloat (S754_finite false 8760908650119168 (-75)));
     ("cic", VFloat (S754_finite false 6614661952700416 (-78)));
     ("cis", VFloat (S754_finite false 7036874417766400 (-78)));
     ("AODE", VInt (1));
     ("AODC", VInt (0));
     ("SVH", VInt (0));
     ("URAI", VInt (0));
     ("TGD1", VFloat (S754_finite false 7978910409456553 (-81)));
     ("TGD2", VFloat (S754_zero false))] |};
   {| po_class := "EphBDS"; po_attrs := [
     ("msgNum", VInt (1042));
     ("satNum", VInt (8));
     ("weekNum", VInt (889));
     ("tc", VInt (396000));
     ("af0", VFloat (S754_finite false 4868617086697472 (-63)));
     ("af1", VFloat (S754_finite false 7212796278210560 (-95)));
     ("af2", VFloat (S754_zero false));
     ("te", VInt (396000));
     ("delta_n", VFloat (S754_finite false 5000578883125248 (-85)));
     ("m0", VFloat (S754_finite true 8178949959974912 (-53)));
     ("e", VFloat (S754_finite false 5815334984482816 (-61)));
     ("sqrt_a", VFloat (S754_finite false 7139085778944000 (-40)));
     ("w", VFloat (S754_finite true 8786493455728640 (-53)));
     ("i0", VFloat (S754_finite false 6063846548570112 (-54)));
     ("i_dot", VFloat (S754_finite true 5062151534280704 (-85)));
     ("omega0", VFloat (S754_finite true 6206862047313920 (-54)));
     ("omega_dot", VFloat (S754_finite true 6458531301556224 (-83)));
     ("crs", VFloat (S754_finite true 6732584574779392 (-43)));
     ("crc", VFloat (S754_finite false 4752913888968704 (-44)));
     ("cuc", VFloat (S754_finite true 7412769955512320 (-68)));
     ("cus", VFloat (S754_finite false 8620171161763840 (-76)));
     ("cic", VFloat (S754_finite true 6403555720167424 (-75)));
     ("cis", VFloat (S754_finite true 8303511812964352 (-78)));
     ("AODE", VInt (0));
     ("AODC", VInt (0));
     ("SVH", VInt (0));
     ("URAI", VInt (0));
     ("TGD1", VFloat (S754_finite false 7011769753764849 (-79)));
     ("TGD2", VFloat (S754_finite true 7737125245533627 (-83)))] |}].

(** tests/ephemeris_test_samples.py:625-710 *)
Definition ref_1041 : list pyobj :=
  [
   {| po_class := "EphNAVIC"; po_attrs := [
     ("msgNum", VInt (1041));
     ("satNum", VInt (6));
     ("weekNum", VInt (197));
     ("tc", VInt (399024));
     ("af0", VFloat (S754_finite false 8740550505136128 (-64)));
     ("af1", VFloat (S754_finite false 5708664371412992 (-86)));
     ("af2", VFloat (S754_zero false));
     ("te", VInt (399024));
     ("delta_n", VFloat (S754_finite false 8067116812992512 (-80)));
     ("m0", VFloat (S754_finite false 5108037849186304 (-54)));
     ("e", VFloat (S754_finite false 5366773431926784 (-61)));
     ("sqrt_a", VFloat (S754_finite false 7139718588268544 (-40)));
     ("w", VFloat (S754_finite true 8940935782072320 (-53)));
     ("i0", VFloat (S754_finite false 8004351234670592 (-59)));
     ("i_dot", VFloat (S754_finite false 7749357952565248 (-85)));
     ("omega0", VFloat (S754_finite false 5468599187668992 (-55)));
     ("omega_dot", VFloat (S754_finite true 7587729743282176 (-80)));
     ("crs", VFloat (S754_finite false 5836207720235008 (-43)));
     ("crc", VFloat (S754_finite false 6843360371277824 (-47)));
     ("cuc", VFloat (S754_finite false 6497014208528384 (-68)));
     ("cus", VFloat (S754_finite true 7969260278120448 (-72)));
     ("cic", VFloat (S754_finite true 6755399441055744 (-79)));
     ("cis", VFloat (S754_finite false 6192449487634432 (-75)));
     ("URA", VInt (0));
     ("TGD", VFloat (S754_finite true 4503599627370496 (-81)));
     ("IODEC", VInt (220))] |};
   {| po_class := "EphNAVIC"; po_attrs := [
     ("msgNum", VInt (1041));
     ("satNum", VInt (3));
     ("weekNum", VInt (197));
     ("tc", VInt (396000));
     ("af0", VFloat (S754_finite true 4666503441940480 (-63)));
     ("af1", VFloat (S754_finite true 4538783999459328 (-87)));
     ("af2", VFloat (S754_zero false));
     ("te", VInt (396000));
     ("delta_n", VFloat (S754_finite false 4895575522672640 (-80)));
     ("m0", VFloat (S754_finite true 7657288131149824 (-54)));
     ("e", VFloat (S754_finite false 7806435383574528 (-62)));
     ("sqrt_a", VFloat (S754_finite false 7139654656589824 (-40)));
     ("w", VFloat (S754_finite false 6635800842207232 (-57)));
     ("i0", VFloat (S754_finite false 5512503282892800 (-58)));
     ("i_dot", VFloat (S754_finite false 4947802324992000 (-84)));
     ("omega0", VFloat (S754_finite false 4589018876477440 (-57)));
     ("omega_dot", VFloat (S754_finite true 8926934905913344 (-81)));
     ("crs", VFloat (S754_finite false 8678445278035968 (-44)));
     ("crc", VFloat (S754_finite true 8548702905958400 (-44)));
     ("cuc", VFloat (S754_finite false 4755387790131200 (-68)));
     ("cus", VFloat (S754_finite false 4766382906408960 (-68)));
     ("cic", VFloat (S754_finite false 7881299347898368 (-75)));
     ("cis", VFloat (S754_finite false 7599824371187712 (-76)));
     ("URA", VInt (0));
     ("TGD", VFloat (S754_finite true 6755399441055744 (-82)));
     ("IODEC", VInt (7))] |};
   {| po_class := "EphNAVIC"; po_attrs := [
     ("msgNum", VInt (1041));
     ("satNum", VInt (2));
     ("weekNum", VInt (197));
     ("tc", VInt (399024));
     ("af0", VFloat (S754_finite false 8396437725380608 (-65)));
     ("af1", VFloat (S754_finite true 8620171161763840 (-88)));
     ("af2", VFloat (S754_zero false));
     ("te", VInt (399024));
     ("delta_n", VFloat (S754_finite false 8796093022208000 (-83)));
     ("m0", VFloat (S754_finite true 8861455076032512 (-55)));
     ("e", VFloat (S754_finite false 8579680357580800 (-62)));
     ("sqrt_a", VFloat (S754_finite false 7139644542025728 (-40)));
     ("w", VFloat (S754_finite false 8958952897249280 (-53)));
     ("i0", VFloat (S754_finite false 5834431650594816 (-55)));
     ("i_dot", VFloat (S754_finite true 6843360371277824 (-84)));
     ("omega0", VFloat (S754_finite false 7378487870488576 (-53)));
     ("omega_dot", VFloat (S754_finite true 7278766975877120 (-83)));
     ("crs", VFloat (S754_finite false 6852156464300032 (-46)));
     ("crc", VFloat (S754_finite true 5236424127283200 (-43)));
     ("cuc", VFloat (S754_finite false 6641050231767040 (-71)));
     ("cus", VFloat (S754_finite false 6674035580600320 (-68)));
     ("cic", VFloat (S754_finite false 8022036836253696 (-75)));
     ("cis", VFloat (S754_finite false 4503599627370496 (-80)));
     ("URA", VInt (0));
     ("TGD", VFloat (S754_finite true 4503599627370496 (-81)));
     ("IODEC", VInt (220))] |}].
