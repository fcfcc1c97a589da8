(** Unicode 15.0.0 character data, generated by tools/unicode.pl; nothing else is in this file.
    It stands for the tables of unicode-ident 1.0.18 and of the Rust standard library, which
    progenitor-impl/src/util.rs:83-112 and heck 0.5.0 consult. *)
From Verif Require Import Base UnicodeTree.

(** XID_Start (unicode_ident::is_xid_start). *)
Definition xid_start_ranges : tree (N * N) :=
 (Node (Node (Node (Node (Node (Node (Node (Node (Node (Node Leaf (65, 90)%N
 Leaf) (97, 122)%N
 Leaf) (170, 170)%N
 (Node (Node Leaf (181, 181)%N
 Leaf) (186, 186)%N
 Leaf)) (192, 214)%N
 (Node (Node (Node Leaf (216, 246)%N
 Leaf) (248, 705)%N
 Leaf) (710, 721)%N
 (Node Leaf (736, 740)%N
 Leaf))) (748, 748)%N
 (Node (Node (Node (Node Leaf (750, 750)%N
 Leaf) (880, 884)%N
 Leaf) (886, 887)%N
 (Node Leaf (891, 893)%N
 Leaf)) (895, 895)%N
 (Node (Node (Node Leaf (902, 902)%N
 Leaf) (904, 906)%N
 Leaf) (908, 908)%N
 (Node Leaf (910, 929)%N
 Leaf)))) (931, 1013)%N
 (Node (Node (Node (Node (Node Leaf (1015, 1153)%N
 Leaf) (1162, 1327)%N
 Leaf) (1329, 1366)%N
 (Node (Node Leaf (1369, 1369)%N
 Leaf) (1376, 1416)%N
 Leaf)) (1488, 1514)%N
 (Node (Node (Node Leaf (1519, 1522)%N
 Leaf) (1568, 1610)%N
 Leaf) (1646, 1647)%N
 (Node Leaf (1649, 1747)%N
 Leaf))) (1749, 1749)%N
 (Node (Node (Node (Node Leaf (1765, 1766)%N
 Leaf) (1774, 1775)%N
 Leaf) (1786, 1788)%N
 (Node Leaf (1791, 1791)%N
 Leaf)) (1808, 1808)%N
 (Node (Node (Node Leaf (1810, 1839)%N
 Leaf) (1869, 1957)%N
 Leaf) (1969, 1969)%N
 (Node Leaf (1994, 2026)%N
 Leaf))))) (2036, 2037)%N
 (Node (Node (Node (Node (Node (Node Leaf (2042, 2042)%N
 Leaf) (2048, 2069)%N
 Leaf) (2074, 2074)%N
 (Node (Node Leaf (2084, 2084)%N
 Leaf) (2088, 2088)%N
 Leaf)) (2112, 2136)%N
 (Node (Node (Node Leaf (2144, 2154)%N
 Leaf) (2160, 2183)%N
 Leaf) (2185, 2190)%N
 (Node Leaf (2208, 2249)%N
 Leaf))) (2308, 2361)%N
 (Node (Node (Node (Node Leaf (2365, 2365)%N
 Leaf) (2384, 2384)%N
 Leaf) (2392, 2401)%N
 (Node Leaf (2417, 2432)%N
 Leaf)) (2437, 2444)%N
 (Node (Node (Node Leaf (2447, 2448)%N
 Leaf) (2451, 2472)%N
 Leaf) (2474, 2480)%N
 (Node Leaf (2482, 2482)%N
 Leaf)))) (2486, 2489)%N
 (Node (Node (Node (Node (Node Leaf (2493, 2493)%N
 Leaf) (2510, 2510)%N
 Leaf) (2524, 2525)%N
 (Node (Node Leaf (2527, 2529)%N
 Leaf) (2544, 2545)%N
 Leaf)) (2556, 2556)%N
 (Node (Node (Node Leaf (2565, 2570)%N
 Leaf) (2575, 2576)%N
 Leaf) (2579, 2600)%N
 (Node Leaf (2602, 2608)%N
 Leaf))) (2610, 2611)%N
 (Node (Node (Node (Node Leaf (2613, 2614)%N
 Leaf) (2616, 2617)%N
 Leaf) (2649, 2652)%N
 (Node Leaf (2654, 2654)%N
 Leaf)) (2674, 2676)%N
 (Node (Node (Node Leaf (2693, 2701)%N
 Leaf) (2703, 2705)%N
 Leaf) (2707, 2728)%N
 (Node Leaf (2730, 2736)%N
 Leaf)))))) (2738, 2739)%N
 (Node (Node (Node (Node (Node (Node (Node Leaf (2741, 2745)%N
 Leaf) (2749, 2749)%N
 Leaf) (2768, 2768)%N
 (Node (Node Leaf (2784, 2785)%N
 Leaf) (2809, 2809)%N
 Leaf)) (2821, 2828)%N
 (Node (Node (Node Leaf (2831, 2832)%N
 Leaf) (2835, 2856)%N
 Leaf) (2858, 2864)%N
 (Node Leaf (2866, 2867)%N
 Leaf))) (2869, 2873)%N
 (Node (Node (Node (Node Leaf (2877, 2877)%N
 Leaf) (2908, 2909)%N
 Leaf) (2911, 2913)%N
 (Node Leaf (2929, 2929)%N
 Leaf)) (2947, 2947)%N
 (Node (Node (Node Leaf (2949, 2954)%N
 Leaf) (2958, 2960)%N
 Leaf) (2962, 2965)%N
 (Node Leaf (2969, 2970)%N
 Leaf)))) (2972, 2972)%N
 (Node (Node (Node (Node (Node Leaf (2974, 2975)%N
 Leaf) (2979, 2980)%N
 Leaf) (2984, 2986)%N
 (Node (Node Leaf (2990, 3001)%N
 Leaf) (3024, 3024)%N
 Leaf)) (3077, 3084)%N
 (Node (Node (Node Leaf (3086, 3088)%N
 Leaf) (3090, 3112)%N
 Leaf) (3114, 3129)%N
 (Node Leaf (3133, 3133)%N
 Leaf))) (3160, 3162)%N
 (Node (Node (Node (Node Leaf (3165, 3165)%N
 Leaf) (3168, 3169)%N
 Leaf) (3200, 3200)%N
 (Node Leaf (3205, 3212)%N
 Leaf)) (3214, 3216)%N
 (Node (Node (Node Leaf (3218, 3240)%N
 Leaf) (3242, 3251)%N
 Leaf) (3253, 3257)%N
 (Node Leaf (3261, 3261)%N
 Leaf))))) (3293, 3294)%N
 (Node (Node (Node (Node (Node (Node Leaf (3296, 3297)%N
 Leaf) (3313, 3314)%N
 Leaf) (3332, 3340)%N
 (Node (Node Leaf (3342, 3344)%N
 Leaf) (3346, 3386)%N
 Leaf)) (3389, 3389)%N
 (Node (Node (Node Leaf (3406, 3406)%N
 Leaf) (3412, 3414)%N
 Leaf) (3423, 3425)%N
 (Node Leaf (3450, 3455)%N
 Leaf))) (3461, 3478)%N
 (Node (Node (Node (Node Leaf (3482, 3505)%N
 Leaf) (3507, 3515)%N
 Leaf) (3517, 3517)%N
 (Node Leaf (3520, 3526)%N
 Leaf)) (3585, 3632)%N
 (Node (Node (Node Leaf (3634, 3634)%N
 Leaf) (3648, 3654)%N
 Leaf) (3713, 3714)%N
 (Node Leaf (3716, 3716)%N
 Leaf)))) (3718, 3722)%N
 (Node (Node (Node (Node (Node Leaf (3724, 3747)%N
 Leaf) (3749, 3749)%N
 Leaf) (3751, 3760)%N
 (Node Leaf (3762, 3762)%N
 Leaf)) (3773, 3773)%N
 (Node (Node (Node Leaf (3776, 3780)%N
 Leaf) (3782, 3782)%N
 Leaf) (3804, 3807)%N
 (Node Leaf (3840, 3840)%N
 Leaf))) (3904, 3911)%N
 (Node (Node (Node (Node Leaf (3913, 3948)%N
 Leaf) (3976, 3980)%N
 Leaf) (4096, 4138)%N
 (Node Leaf (4159, 4159)%N
 Leaf)) (4176, 4181)%N
 (Node (Node (Node Leaf (4186, 4189)%N
 Leaf) (4193, 4193)%N
 Leaf) (4197, 4198)%N
 (Node Leaf (4206, 4208)%N
 Leaf))))))) (4213, 4225)%N
 (Node (Node (Node (Node (Node (Node (Node (Node Leaf (4238, 4238)%N
 Leaf) (4256, 4293)%N
 Leaf) (4295, 4295)%N
 (Node (Node Leaf (4301, 4301)%N
 Leaf) (4304, 4346)%N
 Leaf)) (4348, 4680)%N
 (Node (Node (Node Leaf (4682, 4685)%N
 Leaf) (4688, 4694)%N
 Leaf) (4696, 4696)%N
 (Node Leaf (4698, 4701)%N
 Leaf))) (4704, 4744)%N
 (Node (Node (Node (Node Leaf (4746, 4749)%N
 Leaf) (4752, 4784)%N
 Leaf) (4786, 4789)%N
 (Node Leaf (4792, 4798)%N
 Leaf)) (4800, 4800)%N
 (Node (Node (Node Leaf (4802, 4805)%N
 Leaf) (4808, 4822)%N
 Leaf) (4824, 4880)%N
 (Node Leaf (4882, 4885)%N
 Leaf)))) (4888, 4954)%N
 (Node (Node (Node (Node (Node Leaf (4992, 5007)%N
 Leaf) (5024, 5109)%N
 Leaf) (5112, 5117)%N
 (Node (Node Leaf (5121, 5740)%N
 Leaf) (5743, 5759)%N
 Leaf)) (5761, 5786)%N
 (Node (Node (Node Leaf (5792, 5866)%N
 Leaf) (5870, 5880)%N
 Leaf) (5888, 5905)%N
 (Node Leaf (5919, 5937)%N
 Leaf))) (5952, 5969)%N
 (Node (Node (Node (Node Leaf (5984, 5996)%N
 Leaf) (5998, 6000)%N
 Leaf) (6016, 6067)%N
 (Node Leaf (6103, 6103)%N
 Leaf)) (6108, 6108)%N
 (Node (Node (Node Leaf (6176, 6264)%N
 Leaf) (6272, 6312)%N
 Leaf) (6314, 6314)%N
 (Node Leaf (6320, 6389)%N
 Leaf))))) (6400, 6430)%N
 (Node (Node (Node (Node (Node (Node Leaf (6480, 6509)%N
 Leaf) (6512, 6516)%N
 Leaf) (6528, 6571)%N
 (Node (Node Leaf (6576, 6601)%N
 Leaf) (6656, 6678)%N
 Leaf)) (6688, 6740)%N
 (Node (Node (Node Leaf (6823, 6823)%N
 Leaf) (6917, 6963)%N
 Leaf) (6981, 6988)%N
 (Node Leaf (7043, 7072)%N
 Leaf))) (7086, 7087)%N
 (Node (Node (Node (Node Leaf (7098, 7141)%N
 Leaf) (7168, 7203)%N
 Leaf) (7245, 7247)%N
 (Node Leaf (7258, 7293)%N
 Leaf)) (7296, 7304)%N
 (Node (Node (Node Leaf (7312, 7354)%N
 Leaf) (7357, 7359)%N
 Leaf) (7401, 7404)%N
 (Node Leaf (7406, 7411)%N
 Leaf)))) (7413, 7414)%N
 (Node (Node (Node (Node (Node Leaf (7418, 7418)%N
 Leaf) (7424, 7615)%N
 Leaf) (7680, 7957)%N
 (Node (Node Leaf (7960, 7965)%N
 Leaf) (7968, 8005)%N
 Leaf)) (8008, 8013)%N
 (Node (Node (Node Leaf (8016, 8023)%N
 Leaf) (8025, 8025)%N
 Leaf) (8027, 8027)%N
 (Node Leaf (8029, 8029)%N
 Leaf))) (8031, 8061)%N
 (Node (Node (Node (Node Leaf (8064, 8116)%N
 Leaf) (8118, 8124)%N
 Leaf) (8126, 8126)%N
 (Node Leaf (8130, 8132)%N
 Leaf)) (8134, 8140)%N
 (Node (Node (Node Leaf (8144, 8147)%N
 Leaf) (8150, 8155)%N
 Leaf) (8160, 8172)%N
 (Node Leaf (8178, 8180)%N
 Leaf)))))) (8182, 8188)%N
 (Node (Node (Node (Node (Node (Node (Node Leaf (8305, 8305)%N
 Leaf) (8319, 8319)%N
 Leaf) (8336, 8348)%N
 (Node (Node Leaf (8450, 8450)%N
 Leaf) (8455, 8455)%N
 Leaf)) (8458, 8467)%N
 (Node (Node (Node Leaf (8469, 8469)%N
 Leaf) (8472, 8477)%N
 Leaf) (8484, 8484)%N
 (Node Leaf (8486, 8486)%N
 Leaf))) (8488, 8488)%N
 (Node (Node (Node (Node Leaf (8490, 8505)%N
 Leaf) (8508, 8511)%N
 Leaf) (8517, 8521)%N
 (Node Leaf (8526, 8526)%N
 Leaf)) (8544, 8584)%N
 (Node (Node (Node Leaf (11264, 11492)%N
 Leaf) (11499, 11502)%N
 Leaf) (11506, 11507)%N
 (Node Leaf (11520, 11557)%N
 Leaf)))) (11559, 11559)%N
 (Node (Node (Node (Node (Node Leaf (11565, 11565)%N
 Leaf) (11568, 11623)%N
 Leaf) (11631, 11631)%N
 (Node (Node Leaf (11648, 11670)%N
 Leaf) (11680, 11686)%N
 Leaf)) (11688, 11694)%N
 (Node (Node (Node Leaf (11696, 11702)%N
 Leaf) (11704, 11710)%N
 Leaf) (11712, 11718)%N
 (Node Leaf (11720, 11726)%N
 Leaf))) (11728, 11734)%N
 (Node (Node (Node (Node Leaf (11736, 11742)%N
 Leaf) (12293, 12295)%N
 Leaf) (12321, 12329)%N
 (Node Leaf (12337, 12341)%N
 Leaf)) (12344, 12348)%N
 (Node (Node (Node Leaf (12353, 12438)%N
 Leaf) (12445, 12447)%N
 Leaf) (12449, 12538)%N
 (Node Leaf (12540, 12543)%N
 Leaf))))) (12549, 12591)%N
 (Node (Node (Node (Node (Node (Node Leaf (12593, 12686)%N
 Leaf) (12704, 12735)%N
 Leaf) (12784, 12799)%N
 (Node (Node Leaf (13312, 19903)%N
 Leaf) (19968, 42124)%N
 Leaf)) (42192, 42237)%N
 (Node (Node (Node Leaf (42240, 42508)%N
 Leaf) (42512, 42527)%N
 Leaf) (42538, 42539)%N
 (Node Leaf (42560, 42606)%N
 Leaf))) (42623, 42653)%N
 (Node (Node (Node (Node Leaf (42656, 42735)%N
 Leaf) (42775, 42783)%N
 Leaf) (42786, 42888)%N
 (Node Leaf (42891, 42954)%N
 Leaf)) (42960, 42961)%N
 (Node (Node (Node Leaf (42963, 42963)%N
 Leaf) (42965, 42969)%N
 Leaf) (42994, 43009)%N
 (Node Leaf (43011, 43013)%N
 Leaf)))) (43015, 43018)%N
 (Node (Node (Node (Node (Node Leaf (43020, 43042)%N
 Leaf) (43072, 43123)%N
 Leaf) (43138, 43187)%N
 (Node Leaf (43250, 43255)%N
 Leaf)) (43259, 43259)%N
 (Node (Node (Node Leaf (43261, 43262)%N
 Leaf) (43274, 43301)%N
 Leaf) (43312, 43334)%N
 (Node Leaf (43360, 43388)%N
 Leaf))) (43396, 43442)%N
 (Node (Node (Node (Node Leaf (43471, 43471)%N
 Leaf) (43488, 43492)%N
 Leaf) (43494, 43503)%N
 (Node Leaf (43514, 43518)%N
 Leaf)) (43520, 43560)%N
 (Node (Node (Node Leaf (43584, 43586)%N
 Leaf) (43588, 43595)%N
 Leaf) (43616, 43638)%N
 (Node Leaf (43642, 43642)%N
 Leaf)))))))) (43646, 43695)%N
 (Node (Node (Node (Node (Node (Node (Node (Node (Node Leaf (43697, 43697)%N
 Leaf) (43701, 43702)%N
 Leaf) (43705, 43709)%N
 (Node (Node Leaf (43712, 43712)%N
 Leaf) (43714, 43714)%N
 Leaf)) (43739, 43741)%N
 (Node (Node (Node Leaf (43744, 43754)%N
 Leaf) (43762, 43764)%N
 Leaf) (43777, 43782)%N
 (Node Leaf (43785, 43790)%N
 Leaf))) (43793, 43798)%N
 (Node (Node (Node (Node Leaf (43808, 43814)%N
 Leaf) (43816, 43822)%N
 Leaf) (43824, 43866)%N
 (Node Leaf (43868, 43881)%N
 Leaf)) (43888, 44002)%N
 (Node (Node (Node Leaf (44032, 55203)%N
 Leaf) (55216, 55238)%N
 Leaf) (55243, 55291)%N
 (Node Leaf (63744, 64109)%N
 Leaf)))) (64112, 64217)%N
 (Node (Node (Node (Node (Node Leaf (64256, 64262)%N
 Leaf) (64275, 64279)%N
 Leaf) (64285, 64285)%N
 (Node (Node Leaf (64287, 64296)%N
 Leaf) (64298, 64310)%N
 Leaf)) (64312, 64316)%N
 (Node (Node (Node Leaf (64318, 64318)%N
 Leaf) (64320, 64321)%N
 Leaf) (64323, 64324)%N
 (Node Leaf (64326, 64433)%N
 Leaf))) (64467, 64605)%N
 (Node (Node (Node (Node Leaf (64612, 64829)%N
 Leaf) (64848, 64911)%N
 Leaf) (64914, 64967)%N
 (Node Leaf (65008, 65017)%N
 Leaf)) (65137, 65137)%N
 (Node (Node (Node Leaf (65139, 65139)%N
 Leaf) (65143, 65143)%N
 Leaf) (65145, 65145)%N
 (Node Leaf (65147, 65147)%N
 Leaf))))) (65149, 65149)%N
 (Node (Node (Node (Node (Node (Node Leaf (65151, 65276)%N
 Leaf) (65313, 65338)%N
 Leaf) (65345, 65370)%N
 (Node (Node Leaf (65382, 65437)%N
 Leaf) (65440, 65470)%N
 Leaf)) (65474, 65479)%N
 (Node (Node (Node Leaf (65482, 65487)%N
 Leaf) (65490, 65495)%N
 Leaf) (65498, 65500)%N
 (Node Leaf (65536, 65547)%N
 Leaf))) (65549, 65574)%N
 (Node (Node (Node (Node Leaf (65576, 65594)%N
 Leaf) (65596, 65597)%N
 Leaf) (65599, 65613)%N
 (Node Leaf (65616, 65629)%N
 Leaf)) (65664, 65786)%N
 (Node (Node (Node Leaf (65856, 65908)%N
 Leaf) (66176, 66204)%N
 Leaf) (66208, 66256)%N
 (Node Leaf (66304, 66335)%N
 Leaf)))) (66349, 66378)%N
 (Node (Node (Node (Node (Node Leaf (66384, 66421)%N
 Leaf) (66432, 66461)%N
 Leaf) (66464, 66499)%N
 (Node (Node Leaf (66504, 66511)%N
 Leaf) (66513, 66517)%N
 Leaf)) (66560, 66717)%N
 (Node (Node (Node Leaf (66736, 66771)%N
 Leaf) (66776, 66811)%N
 Leaf) (66816, 66855)%N
 (Node Leaf (66864, 66915)%N
 Leaf))) (66928, 66938)%N
 (Node (Node (Node (Node Leaf (66940, 66954)%N
 Leaf) (66956, 66962)%N
 Leaf) (66964, 66965)%N
 (Node Leaf (66967, 66977)%N
 Leaf)) (66979, 66993)%N
 (Node (Node (Node Leaf (66995, 67001)%N
 Leaf) (67003, 67004)%N
 Leaf) (67072, 67382)%N
 (Node Leaf (67392, 67413)%N
 Leaf)))))) (67424, 67431)%N
 (Node (Node (Node (Node (Node (Node (Node Leaf (67456, 67461)%N
 Leaf) (67463, 67504)%N
 Leaf) (67506, 67514)%N
 (Node (Node Leaf (67584, 67589)%N
 Leaf) (67592, 67592)%N
 Leaf)) (67594, 67637)%N
 (Node (Node (Node Leaf (67639, 67640)%N
 Leaf) (67644, 67644)%N
 Leaf) (67647, 67669)%N
 (Node Leaf (67680, 67702)%N
 Leaf))) (67712, 67742)%N
 (Node (Node (Node (Node Leaf (67808, 67826)%N
 Leaf) (67828, 67829)%N
 Leaf) (67840, 67861)%N
 (Node Leaf (67872, 67897)%N
 Leaf)) (67968, 68023)%N
 (Node (Node (Node Leaf (68030, 68031)%N
 Leaf) (68096, 68096)%N
 Leaf) (68112, 68115)%N
 (Node Leaf (68117, 68119)%N
 Leaf)))) (68121, 68149)%N
 (Node (Node (Node (Node (Node Leaf (68192, 68220)%N
 Leaf) (68224, 68252)%N
 Leaf) (68288, 68295)%N
 (Node (Node Leaf (68297, 68324)%N
 Leaf) (68352, 68405)%N
 Leaf)) (68416, 68437)%N
 (Node (Node (Node Leaf (68448, 68466)%N
 Leaf) (68480, 68497)%N
 Leaf) (68608, 68680)%N
 (Node Leaf (68736, 68786)%N
 Leaf))) (68800, 68850)%N
 (Node (Node (Node (Node Leaf (68864, 68899)%N
 Leaf) (69248, 69289)%N
 Leaf) (69296, 69297)%N
 (Node Leaf (69376, 69404)%N
 Leaf)) (69415, 69415)%N
 (Node (Node (Node Leaf (69424, 69445)%N
 Leaf) (69488, 69505)%N
 Leaf) (69552, 69572)%N
 (Node Leaf (69600, 69622)%N
 Leaf))))) (69635, 69687)%N
 (Node (Node (Node (Node (Node (Node Leaf (69745, 69746)%N
 Leaf) (69749, 69749)%N
 Leaf) (69763, 69807)%N
 (Node (Node Leaf (69840, 69864)%N
 Leaf) (69891, 69926)%N
 Leaf)) (69956, 69956)%N
 (Node (Node (Node Leaf (69959, 69959)%N
 Leaf) (69968, 70002)%N
 Leaf) (70006, 70006)%N
 (Node Leaf (70019, 70066)%N
 Leaf))) (70081, 70084)%N
 (Node (Node (Node (Node Leaf (70106, 70106)%N
 Leaf) (70108, 70108)%N
 Leaf) (70144, 70161)%N
 (Node Leaf (70163, 70187)%N
 Leaf)) (70207, 70208)%N
 (Node (Node (Node Leaf (70272, 70278)%N
 Leaf) (70280, 70280)%N
 Leaf) (70282, 70285)%N
 (Node Leaf (70287, 70301)%N
 Leaf)))) (70303, 70312)%N
 (Node (Node (Node (Node (Node Leaf (70320, 70366)%N
 Leaf) (70405, 70412)%N
 Leaf) (70415, 70416)%N
 (Node Leaf (70419, 70440)%N
 Leaf)) (70442, 70448)%N
 (Node (Node (Node Leaf (70450, 70451)%N
 Leaf) (70453, 70457)%N
 Leaf) (70461, 70461)%N
 (Node Leaf (70480, 70480)%N
 Leaf))) (70493, 70497)%N
 (Node (Node (Node (Node Leaf (70656, 70708)%N
 Leaf) (70727, 70730)%N
 Leaf) (70751, 70753)%N
 (Node Leaf (70784, 70831)%N
 Leaf)) (70852, 70853)%N
 (Node (Node (Node Leaf (70855, 70855)%N
 Leaf) (71040, 71086)%N
 Leaf) (71128, 71131)%N
 (Node Leaf (71168, 71215)%N
 Leaf))))))) (71236, 71236)%N
 (Node (Node (Node (Node (Node (Node (Node (Node Leaf (71296, 71338)%N
 Leaf) (71352, 71352)%N
 Leaf) (71424, 71450)%N
 (Node (Node Leaf (71488, 71494)%N
 Leaf) (71680, 71723)%N
 Leaf)) (71840, 71903)%N
 (Node (Node (Node Leaf (71935, 71942)%N
 Leaf) (71945, 71945)%N
 Leaf) (71948, 71955)%N
 (Node Leaf (71957, 71958)%N
 Leaf))) (71960, 71983)%N
 (Node (Node (Node (Node Leaf (71999, 71999)%N
 Leaf) (72001, 72001)%N
 Leaf) (72096, 72103)%N
 (Node Leaf (72106, 72144)%N
 Leaf)) (72161, 72161)%N
 (Node (Node (Node Leaf (72163, 72163)%N
 Leaf) (72192, 72192)%N
 Leaf) (72203, 72242)%N
 (Node Leaf (72250, 72250)%N
 Leaf)))) (72272, 72272)%N
 (Node (Node (Node (Node (Node Leaf (72284, 72329)%N
 Leaf) (72349, 72349)%N
 Leaf) (72368, 72440)%N
 (Node (Node Leaf (72704, 72712)%N
 Leaf) (72714, 72750)%N
 Leaf)) (72768, 72768)%N
 (Node (Node (Node Leaf (72818, 72847)%N
 Leaf) (72960, 72966)%N
 Leaf) (72968, 72969)%N
 (Node Leaf (72971, 73008)%N
 Leaf))) (73030, 73030)%N
 (Node (Node (Node (Node Leaf (73056, 73061)%N
 Leaf) (73063, 73064)%N
 Leaf) (73066, 73097)%N
 (Node Leaf (73112, 73112)%N
 Leaf)) (73440, 73458)%N
 (Node (Node (Node Leaf (73474, 73474)%N
 Leaf) (73476, 73488)%N
 Leaf) (73490, 73523)%N
 (Node Leaf (73648, 73648)%N
 Leaf))))) (73728, 74649)%N
 (Node (Node (Node (Node (Node (Node Leaf (74752, 74862)%N
 Leaf) (74880, 75075)%N
 Leaf) (77712, 77808)%N
 (Node (Node Leaf (77824, 78895)%N
 Leaf) (78913, 78918)%N
 Leaf)) (82944, 83526)%N
 (Node (Node (Node Leaf (92160, 92728)%N
 Leaf) (92736, 92766)%N
 Leaf) (92784, 92862)%N
 (Node Leaf (92880, 92909)%N
 Leaf))) (92928, 92975)%N
 (Node (Node (Node (Node Leaf (92992, 92995)%N
 Leaf) (93027, 93047)%N
 Leaf) (93053, 93071)%N
 (Node Leaf (93760, 93823)%N
 Leaf)) (93952, 94026)%N
 (Node (Node (Node Leaf (94032, 94032)%N
 Leaf) (94099, 94111)%N
 Leaf) (94176, 94177)%N
 (Node Leaf (94179, 94179)%N
 Leaf)))) (94208, 100343)%N
 (Node (Node (Node (Node (Node Leaf (100352, 101589)%N
 Leaf) (101632, 101640)%N
 Leaf) (110576, 110579)%N
 (Node Leaf (110581, 110587)%N
 Leaf)) (110589, 110590)%N
 (Node (Node (Node Leaf (110592, 110882)%N
 Leaf) (110898, 110898)%N
 Leaf) (110928, 110930)%N
 (Node Leaf (110933, 110933)%N
 Leaf))) (110948, 110951)%N
 (Node (Node (Node (Node Leaf (110960, 111355)%N
 Leaf) (113664, 113770)%N
 Leaf) (113776, 113788)%N
 (Node Leaf (113792, 113800)%N
 Leaf)) (113808, 113817)%N
 (Node (Node (Node Leaf (119808, 119892)%N
 Leaf) (119894, 119964)%N
 Leaf) (119966, 119967)%N
 (Node Leaf (119970, 119970)%N
 Leaf)))))) (119973, 119974)%N
 (Node (Node (Node (Node (Node (Node (Node Leaf (119977, 119980)%N
 Leaf) (119982, 119993)%N
 Leaf) (119995, 119995)%N
 (Node (Node Leaf (119997, 120003)%N
 Leaf) (120005, 120069)%N
 Leaf)) (120071, 120074)%N
 (Node (Node (Node Leaf (120077, 120084)%N
 Leaf) (120086, 120092)%N
 Leaf) (120094, 120121)%N
 (Node Leaf (120123, 120126)%N
 Leaf))) (120128, 120132)%N
 (Node (Node (Node (Node Leaf (120134, 120134)%N
 Leaf) (120138, 120144)%N
 Leaf) (120146, 120485)%N
 (Node Leaf (120488, 120512)%N
 Leaf)) (120514, 120538)%N
 (Node (Node (Node Leaf (120540, 120570)%N
 Leaf) (120572, 120596)%N
 Leaf) (120598, 120628)%N
 (Node Leaf (120630, 120654)%N
 Leaf)))) (120656, 120686)%N
 (Node (Node (Node (Node (Node Leaf (120688, 120712)%N
 Leaf) (120714, 120744)%N
 Leaf) (120746, 120770)%N
 (Node (Node Leaf (120772, 120779)%N
 Leaf) (122624, 122654)%N
 Leaf)) (122661, 122666)%N
 (Node (Node (Node Leaf (122928, 122989)%N
 Leaf) (123136, 123180)%N
 Leaf) (123191, 123197)%N
 (Node Leaf (123214, 123214)%N
 Leaf))) (123536, 123565)%N
 (Node (Node (Node (Node Leaf (123584, 123627)%N
 Leaf) (124112, 124139)%N
 Leaf) (124896, 124902)%N
 (Node Leaf (124904, 124907)%N
 Leaf)) (124909, 124910)%N
 (Node (Node (Node Leaf (124912, 124926)%N
 Leaf) (124928, 125124)%N
 Leaf) (125184, 125251)%N
 (Node Leaf (125259, 125259)%N
 Leaf))))) (126464, 126467)%N
 (Node (Node (Node (Node (Node (Node Leaf (126469, 126495)%N
 Leaf) (126497, 126498)%N
 Leaf) (126500, 126500)%N
 (Node (Node Leaf (126503, 126503)%N
 Leaf) (126505, 126514)%N
 Leaf)) (126516, 126519)%N
 (Node (Node (Node Leaf (126521, 126521)%N
 Leaf) (126523, 126523)%N
 Leaf) (126530, 126530)%N
 (Node Leaf (126535, 126535)%N
 Leaf))) (126537, 126537)%N
 (Node (Node (Node (Node Leaf (126539, 126539)%N
 Leaf) (126541, 126543)%N
 Leaf) (126545, 126546)%N
 (Node Leaf (126548, 126548)%N
 Leaf)) (126551, 126551)%N
 (Node (Node (Node Leaf (126553, 126553)%N
 Leaf) (126555, 126555)%N
 Leaf) (126557, 126557)%N
 (Node Leaf (126559, 126559)%N
 Leaf)))) (126561, 126562)%N
 (Node (Node (Node (Node (Node Leaf (126564, 126564)%N
 Leaf) (126567, 126570)%N
 Leaf) (126572, 126578)%N
 (Node Leaf (126580, 126583)%N
 Leaf)) (126585, 126588)%N
 (Node (Node (Node Leaf (126590, 126590)%N
 Leaf) (126592, 126601)%N
 Leaf) (126603, 126619)%N
 (Node Leaf (126625, 126627)%N
 Leaf))) (126629, 126633)%N
 (Node (Node (Node (Node Leaf (126635, 126651)%N
 Leaf) (131072, 173791)%N
 Leaf) (173824, 177977)%N
 (Node Leaf (177984, 178205)%N
 Leaf)) (178208, 183969)%N
 (Node (Node (Node Leaf (183984, 191456)%N
 Leaf) (194560, 195101)%N
 Leaf) (196608, 201546)%N
 (Node Leaf (201552, 205743)%N
 Leaf))))))))).

(** XID_Continue (unicode_ident::is_xid_continue). *)
Definition xid_continue_ranges : tree (N * N) :=
 (Node (Node (Node (Node (Node (Node (Node (Node (Node (Node Leaf (48, 57)%N
 Leaf) (65, 90)%N
 (Node Leaf (95, 95)%N
 Leaf)) (97, 122)%N
 (Node (Node Leaf (170, 170)%N
 Leaf) (181, 181)%N
 Leaf)) (183, 183)%N
 (Node (Node (Node Leaf (186, 186)%N
 Leaf) (192, 214)%N
 Leaf) (216, 246)%N
 (Node (Node Leaf (248, 705)%N
 Leaf) (710, 721)%N
 Leaf))) (736, 740)%N
 (Node (Node (Node (Node Leaf (748, 748)%N
 Leaf) (750, 750)%N
 Leaf) (768, 884)%N
 (Node (Node Leaf (886, 887)%N
 Leaf) (891, 893)%N
 Leaf)) (895, 895)%N
 (Node (Node (Node Leaf (902, 906)%N
 Leaf) (908, 908)%N
 Leaf) (910, 929)%N
 (Node (Node Leaf (931, 1013)%N
 Leaf) (1015, 1153)%N
 Leaf)))) (1155, 1159)%N
 (Node (Node (Node (Node (Node Leaf (1162, 1327)%N
 Leaf) (1329, 1366)%N
 Leaf) (1369, 1369)%N
 (Node (Node Leaf (1376, 1416)%N
 Leaf) (1425, 1469)%N
 Leaf)) (1471, 1471)%N
 (Node (Node (Node Leaf (1473, 1474)%N
 Leaf) (1476, 1477)%N
 Leaf) (1479, 1479)%N
 (Node (Node Leaf (1488, 1514)%N
 Leaf) (1519, 1522)%N
 Leaf))) (1552, 1562)%N
 (Node (Node (Node (Node Leaf (1568, 1641)%N
 Leaf) (1646, 1747)%N
 Leaf) (1749, 1756)%N
 (Node (Node Leaf (1759, 1768)%N
 Leaf) (1770, 1788)%N
 Leaf)) (1791, 1791)%N
 (Node (Node (Node Leaf (1808, 1866)%N
 Leaf) (1869, 1969)%N
 Leaf) (1984, 2037)%N
 (Node (Node Leaf (2042, 2042)%N
 Leaf) (2045, 2045)%N
 Leaf))))) (2048, 2093)%N
 (Node (Node (Node (Node (Node (Node Leaf (2112, 2139)%N
 Leaf) (2144, 2154)%N
 Leaf) (2160, 2183)%N
 (Node (Node Leaf (2185, 2190)%N
 Leaf) (2200, 2273)%N
 Leaf)) (2275, 2403)%N
 (Node (Node (Node Leaf (2406, 2415)%N
 Leaf) (2417, 2435)%N
 Leaf) (2437, 2444)%N
 (Node (Node Leaf (2447, 2448)%N
 Leaf) (2451, 2472)%N
 Leaf))) (2474, 2480)%N
 (Node (Node (Node (Node Leaf (2482, 2482)%N
 Leaf) (2486, 2489)%N
 Leaf) (2492, 2500)%N
 (Node (Node Leaf (2503, 2504)%N
 Leaf) (2507, 2510)%N
 Leaf)) (2519, 2519)%N
 (Node (Node (Node Leaf (2524, 2525)%N
 Leaf) (2527, 2531)%N
 Leaf) (2534, 2545)%N
 (Node (Node Leaf (2556, 2556)%N
 Leaf) (2558, 2558)%N
 Leaf)))) (2561, 2563)%N
 (Node (Node (Node (Node (Node Leaf (2565, 2570)%N
 Leaf) (2575, 2576)%N
 Leaf) (2579, 2600)%N
 (Node (Node Leaf (2602, 2608)%N
 Leaf) (2610, 2611)%N
 Leaf)) (2613, 2614)%N
 (Node (Node (Node Leaf (2616, 2617)%N
 Leaf) (2620, 2620)%N
 Leaf) (2622, 2626)%N
 (Node (Node Leaf (2631, 2632)%N
 Leaf) (2635, 2637)%N
 Leaf))) (2641, 2641)%N
 (Node (Node (Node (Node Leaf (2649, 2652)%N
 Leaf) (2654, 2654)%N
 Leaf) (2662, 2677)%N
 (Node (Node Leaf (2689, 2691)%N
 Leaf) (2693, 2701)%N
 Leaf)) (2703, 2705)%N
 (Node (Node (Node Leaf (2707, 2728)%N
 Leaf) (2730, 2736)%N
 Leaf) (2738, 2739)%N
 (Node (Node Leaf (2741, 2745)%N
 Leaf) (2748, 2757)%N
 Leaf)))))) (2759, 2761)%N
 (Node (Node (Node (Node (Node (Node (Node Leaf (2763, 2765)%N
 Leaf) (2768, 2768)%N
 (Node Leaf (2784, 2787)%N
 Leaf)) (2790, 2799)%N
 (Node (Node Leaf (2809, 2815)%N
 Leaf) (2817, 2819)%N
 Leaf)) (2821, 2828)%N
 (Node (Node (Node Leaf (2831, 2832)%N
 Leaf) (2835, 2856)%N
 Leaf) (2858, 2864)%N
 (Node (Node Leaf (2866, 2867)%N
 Leaf) (2869, 2873)%N
 Leaf))) (2876, 2884)%N
 (Node (Node (Node (Node Leaf (2887, 2888)%N
 Leaf) (2891, 2893)%N
 Leaf) (2901, 2903)%N
 (Node (Node Leaf (2908, 2909)%N
 Leaf) (2911, 2915)%N
 Leaf)) (2918, 2927)%N
 (Node (Node (Node Leaf (2929, 2929)%N
 Leaf) (2946, 2947)%N
 Leaf) (2949, 2954)%N
 (Node (Node Leaf (2958, 2960)%N
 Leaf) (2962, 2965)%N
 Leaf)))) (2969, 2970)%N
 (Node (Node (Node (Node (Node Leaf (2972, 2972)%N
 Leaf) (2974, 2975)%N
 Leaf) (2979, 2980)%N
 (Node (Node Leaf (2984, 2986)%N
 Leaf) (2990, 3001)%N
 Leaf)) (3006, 3010)%N
 (Node (Node (Node Leaf (3014, 3016)%N
 Leaf) (3018, 3021)%N
 Leaf) (3024, 3024)%N
 (Node (Node Leaf (3031, 3031)%N
 Leaf) (3046, 3055)%N
 Leaf))) (3072, 3084)%N
 (Node (Node (Node (Node Leaf (3086, 3088)%N
 Leaf) (3090, 3112)%N
 Leaf) (3114, 3129)%N
 (Node (Node Leaf (3132, 3140)%N
 Leaf) (3142, 3144)%N
 Leaf)) (3146, 3149)%N
 (Node (Node (Node Leaf (3157, 3158)%N
 Leaf) (3160, 3162)%N
 Leaf) (3165, 3165)%N
 (Node (Node Leaf (3168, 3171)%N
 Leaf) (3174, 3183)%N
 Leaf))))) (3200, 3203)%N
 (Node (Node (Node (Node (Node (Node Leaf (3205, 3212)%N
 Leaf) (3214, 3216)%N
 Leaf) (3218, 3240)%N
 (Node (Node Leaf (3242, 3251)%N
 Leaf) (3253, 3257)%N
 Leaf)) (3260, 3268)%N
 (Node (Node (Node Leaf (3270, 3272)%N
 Leaf) (3274, 3277)%N
 Leaf) (3285, 3286)%N
 (Node (Node Leaf (3293, 3294)%N
 Leaf) (3296, 3299)%N
 Leaf))) (3302, 3311)%N
 (Node (Node (Node (Node Leaf (3313, 3315)%N
 Leaf) (3328, 3340)%N
 Leaf) (3342, 3344)%N
 (Node (Node Leaf (3346, 3396)%N
 Leaf) (3398, 3400)%N
 Leaf)) (3402, 3406)%N
 (Node (Node (Node Leaf (3412, 3415)%N
 Leaf) (3423, 3427)%N
 Leaf) (3430, 3439)%N
 (Node (Node Leaf (3450, 3455)%N
 Leaf) (3457, 3459)%N
 Leaf)))) (3461, 3478)%N
 (Node (Node (Node (Node (Node Leaf (3482, 3505)%N
 Leaf) (3507, 3515)%N
 Leaf) (3517, 3517)%N
 (Node (Node Leaf (3520, 3526)%N
 Leaf) (3530, 3530)%N
 Leaf)) (3535, 3540)%N
 (Node (Node (Node Leaf (3542, 3542)%N
 Leaf) (3544, 3551)%N
 Leaf) (3558, 3567)%N
 (Node (Node Leaf (3570, 3571)%N
 Leaf) (3585, 3642)%N
 Leaf))) (3648, 3662)%N
 (Node (Node (Node (Node Leaf (3664, 3673)%N
 Leaf) (3713, 3714)%N
 Leaf) (3716, 3716)%N
 (Node (Node Leaf (3718, 3722)%N
 Leaf) (3724, 3747)%N
 Leaf)) (3749, 3749)%N
 (Node (Node (Node Leaf (3751, 3773)%N
 Leaf) (3776, 3780)%N
 Leaf) (3782, 3782)%N
 (Node (Node Leaf (3784, 3790)%N
 Leaf) (3792, 3801)%N
 Leaf))))))) (3804, 3807)%N
 (Node (Node (Node (Node (Node (Node (Node (Node Leaf (3840, 3840)%N
 Leaf) (3864, 3865)%N
 (Node Leaf (3872, 3881)%N
 Leaf)) (3893, 3893)%N
 (Node (Node Leaf (3895, 3895)%N
 Leaf) (3897, 3897)%N
 Leaf)) (3902, 3911)%N
 (Node (Node (Node Leaf (3913, 3948)%N
 Leaf) (3953, 3972)%N
 Leaf) (3974, 3991)%N
 (Node (Node Leaf (3993, 4028)%N
 Leaf) (4038, 4038)%N
 Leaf))) (4096, 4169)%N
 (Node (Node (Node (Node Leaf (4176, 4253)%N
 Leaf) (4256, 4293)%N
 Leaf) (4295, 4295)%N
 (Node (Node Leaf (4301, 4301)%N
 Leaf) (4304, 4346)%N
 Leaf)) (4348, 4680)%N
 (Node (Node (Node Leaf (4682, 4685)%N
 Leaf) (4688, 4694)%N
 Leaf) (4696, 4696)%N
 (Node (Node Leaf (4698, 4701)%N
 Leaf) (4704, 4744)%N
 Leaf)))) (4746, 4749)%N
 (Node (Node (Node (Node (Node Leaf (4752, 4784)%N
 Leaf) (4786, 4789)%N
 Leaf) (4792, 4798)%N
 (Node (Node Leaf (4800, 4800)%N
 Leaf) (4802, 4805)%N
 Leaf)) (4808, 4822)%N
 (Node (Node (Node Leaf (4824, 4880)%N
 Leaf) (4882, 4885)%N
 Leaf) (4888, 4954)%N
 (Node (Node Leaf (4957, 4959)%N
 Leaf) (4969, 4977)%N
 Leaf))) (4992, 5007)%N
 (Node (Node (Node (Node Leaf (5024, 5109)%N
 Leaf) (5112, 5117)%N
 Leaf) (5121, 5740)%N
 (Node (Node Leaf (5743, 5759)%N
 Leaf) (5761, 5786)%N
 Leaf)) (5792, 5866)%N
 (Node (Node (Node Leaf (5870, 5880)%N
 Leaf) (5888, 5909)%N
 Leaf) (5919, 5940)%N
 (Node (Node Leaf (5952, 5971)%N
 Leaf) (5984, 5996)%N
 Leaf))))) (5998, 6000)%N
 (Node (Node (Node (Node (Node (Node Leaf (6002, 6003)%N
 Leaf) (6016, 6099)%N
 Leaf) (6103, 6103)%N
 (Node (Node Leaf (6108, 6109)%N
 Leaf) (6112, 6121)%N
 Leaf)) (6155, 6157)%N
 (Node (Node (Node Leaf (6159, 6169)%N
 Leaf) (6176, 6264)%N
 Leaf) (6272, 6314)%N
 (Node (Node Leaf (6320, 6389)%N
 Leaf) (6400, 6430)%N
 Leaf))) (6432, 6443)%N
 (Node (Node (Node (Node Leaf (6448, 6459)%N
 Leaf) (6470, 6509)%N
 Leaf) (6512, 6516)%N
 (Node (Node Leaf (6528, 6571)%N
 Leaf) (6576, 6601)%N
 Leaf)) (6608, 6618)%N
 (Node (Node (Node Leaf (6656, 6683)%N
 Leaf) (6688, 6750)%N
 Leaf) (6752, 6780)%N
 (Node (Node Leaf (6783, 6793)%N
 Leaf) (6800, 6809)%N
 Leaf)))) (6823, 6823)%N
 (Node (Node (Node (Node (Node Leaf (6832, 6845)%N
 Leaf) (6847, 6862)%N
 Leaf) (6912, 6988)%N
 (Node (Node Leaf (6992, 7001)%N
 Leaf) (7019, 7027)%N
 Leaf)) (7040, 7155)%N
 (Node (Node (Node Leaf (7168, 7223)%N
 Leaf) (7232, 7241)%N
 Leaf) (7245, 7293)%N
 (Node (Node Leaf (7296, 7304)%N
 Leaf) (7312, 7354)%N
 Leaf))) (7357, 7359)%N
 (Node (Node (Node (Node Leaf (7376, 7378)%N
 Leaf) (7380, 7418)%N
 Leaf) (7424, 7957)%N
 (Node (Node Leaf (7960, 7965)%N
 Leaf) (7968, 8005)%N
 Leaf)) (8008, 8013)%N
 (Node (Node (Node Leaf (8016, 8023)%N
 Leaf) (8025, 8025)%N
 Leaf) (8027, 8027)%N
 (Node (Node Leaf (8029, 8029)%N
 Leaf) (8031, 8061)%N
 Leaf)))))) (8064, 8116)%N
 (Node (Node (Node (Node (Node (Node (Node Leaf (8118, 8124)%N
 Leaf) (8126, 8126)%N
 (Node Leaf (8130, 8132)%N
 Leaf)) (8134, 8140)%N
 (Node (Node Leaf (8144, 8147)%N
 Leaf) (8150, 8155)%N
 Leaf)) (8160, 8172)%N
 (Node (Node (Node Leaf (8178, 8180)%N
 Leaf) (8182, 8188)%N
 Leaf) (8255, 8256)%N
 (Node (Node Leaf (8276, 8276)%N
 Leaf) (8305, 8305)%N
 Leaf))) (8319, 8319)%N
 (Node (Node (Node (Node Leaf (8336, 8348)%N
 Leaf) (8400, 8412)%N
 Leaf) (8417, 8417)%N
 (Node (Node Leaf (8421, 8432)%N
 Leaf) (8450, 8450)%N
 Leaf)) (8455, 8455)%N
 (Node (Node (Node Leaf (8458, 8467)%N
 Leaf) (8469, 8469)%N
 Leaf) (8472, 8477)%N
 (Node (Node Leaf (8484, 8484)%N
 Leaf) (8486, 8486)%N
 Leaf)))) (8488, 8488)%N
 (Node (Node (Node (Node (Node Leaf (8490, 8505)%N
 Leaf) (8508, 8511)%N
 Leaf) (8517, 8521)%N
 (Node (Node Leaf (8526, 8526)%N
 Leaf) (8544, 8584)%N
 Leaf)) (11264, 11492)%N
 (Node (Node (Node Leaf (11499, 11507)%N
 Leaf) (11520, 11557)%N
 Leaf) (11559, 11559)%N
 (Node (Node Leaf (11565, 11565)%N
 Leaf) (11568, 11623)%N
 Leaf))) (11631, 11631)%N
 (Node (Node (Node (Node Leaf (11647, 11670)%N
 Leaf) (11680, 11686)%N
 Leaf) (11688, 11694)%N
 (Node (Node Leaf (11696, 11702)%N
 Leaf) (11704, 11710)%N
 Leaf)) (11712, 11718)%N
 (Node (Node (Node Leaf (11720, 11726)%N
 Leaf) (11728, 11734)%N
 Leaf) (11736, 11742)%N
 (Node (Node Leaf (11744, 11775)%N
 Leaf) (12293, 12295)%N
 Leaf))))) (12321, 12335)%N
 (Node (Node (Node (Node (Node (Node Leaf (12337, 12341)%N
 Leaf) (12344, 12348)%N
 Leaf) (12353, 12438)%N
 (Node (Node Leaf (12441, 12442)%N
 Leaf) (12445, 12447)%N
 Leaf)) (12449, 12538)%N
 (Node (Node (Node Leaf (12540, 12543)%N
 Leaf) (12549, 12591)%N
 Leaf) (12593, 12686)%N
 (Node (Node Leaf (12704, 12735)%N
 Leaf) (12784, 12799)%N
 Leaf))) (13312, 19903)%N
 (Node (Node (Node (Node Leaf (19968, 42124)%N
 Leaf) (42192, 42237)%N
 Leaf) (42240, 42508)%N
 (Node (Node Leaf (42512, 42539)%N
 Leaf) (42560, 42607)%N
 Leaf)) (42612, 42621)%N
 (Node (Node (Node Leaf (42623, 42737)%N
 Leaf) (42775, 42783)%N
 Leaf) (42786, 42888)%N
 (Node (Node Leaf (42891, 42954)%N
 Leaf) (42960, 42961)%N
 Leaf)))) (42963, 42963)%N
 (Node (Node (Node (Node (Node Leaf (42965, 42969)%N
 Leaf) (42994, 43047)%N
 Leaf) (43052, 43052)%N
 (Node (Node Leaf (43072, 43123)%N
 Leaf) (43136, 43205)%N
 Leaf)) (43216, 43225)%N
 (Node (Node (Node Leaf (43232, 43255)%N
 Leaf) (43259, 43259)%N
 Leaf) (43261, 43309)%N
 (Node (Node Leaf (43312, 43347)%N
 Leaf) (43360, 43388)%N
 Leaf))) (43392, 43456)%N
 (Node (Node (Node (Node Leaf (43471, 43481)%N
 Leaf) (43488, 43518)%N
 Leaf) (43520, 43574)%N
 (Node (Node Leaf (43584, 43597)%N
 Leaf) (43600, 43609)%N
 Leaf)) (43616, 43638)%N
 (Node (Node (Node Leaf (43642, 43714)%N
 Leaf) (43739, 43741)%N
 Leaf) (43744, 43759)%N
 (Node (Node Leaf (43762, 43766)%N
 Leaf) (43777, 43782)%N
 Leaf)))))))) (43785, 43790)%N
 (Node (Node (Node (Node (Node (Node (Node (Node (Node Leaf (43793, 43798)%N
 Leaf) (43808, 43814)%N
 (Node Leaf (43816, 43822)%N
 Leaf)) (43824, 43866)%N
 (Node (Node Leaf (43868, 43881)%N
 Leaf) (43888, 44010)%N
 Leaf)) (44012, 44013)%N
 (Node (Node (Node Leaf (44016, 44025)%N
 Leaf) (44032, 55203)%N
 Leaf) (55216, 55238)%N
 (Node (Node Leaf (55243, 55291)%N
 Leaf) (63744, 64109)%N
 Leaf))) (64112, 64217)%N
 (Node (Node (Node (Node Leaf (64256, 64262)%N
 Leaf) (64275, 64279)%N
 Leaf) (64285, 64296)%N
 (Node (Node Leaf (64298, 64310)%N
 Leaf) (64312, 64316)%N
 Leaf)) (64318, 64318)%N
 (Node (Node (Node Leaf (64320, 64321)%N
 Leaf) (64323, 64324)%N
 Leaf) (64326, 64433)%N
 (Node (Node Leaf (64467, 64605)%N
 Leaf) (64612, 64829)%N
 Leaf)))) (64848, 64911)%N
 (Node (Node (Node (Node (Node Leaf (64914, 64967)%N
 Leaf) (65008, 65017)%N
 Leaf) (65024, 65039)%N
 (Node (Node Leaf (65056, 65071)%N
 Leaf) (65075, 65076)%N
 Leaf)) (65101, 65103)%N
 (Node (Node (Node Leaf (65137, 65137)%N
 Leaf) (65139, 65139)%N
 Leaf) (65143, 65143)%N
 (Node (Node Leaf (65145, 65145)%N
 Leaf) (65147, 65147)%N
 Leaf))) (65149, 65149)%N
 (Node (Node (Node (Node Leaf (65151, 65276)%N
 Leaf) (65296, 65305)%N
 Leaf) (65313, 65338)%N
 (Node (Node Leaf (65343, 65343)%N
 Leaf) (65345, 65370)%N
 Leaf)) (65382, 65470)%N
 (Node (Node (Node Leaf (65474, 65479)%N
 Leaf) (65482, 65487)%N
 Leaf) (65490, 65495)%N
 (Node (Node Leaf (65498, 65500)%N
 Leaf) (65536, 65547)%N
 Leaf))))) (65549, 65574)%N
 (Node (Node (Node (Node (Node (Node Leaf (65576, 65594)%N
 Leaf) (65596, 65597)%N
 Leaf) (65599, 65613)%N
 (Node (Node Leaf (65616, 65629)%N
 Leaf) (65664, 65786)%N
 Leaf)) (65856, 65908)%N
 (Node (Node (Node Leaf (66045, 66045)%N
 Leaf) (66176, 66204)%N
 Leaf) (66208, 66256)%N
 (Node (Node Leaf (66272, 66272)%N
 Leaf) (66304, 66335)%N
 Leaf))) (66349, 66378)%N
 (Node (Node (Node (Node Leaf (66384, 66426)%N
 Leaf) (66432, 66461)%N
 Leaf) (66464, 66499)%N
 (Node (Node Leaf (66504, 66511)%N
 Leaf) (66513, 66517)%N
 Leaf)) (66560, 66717)%N
 (Node (Node (Node Leaf (66720, 66729)%N
 Leaf) (66736, 66771)%N
 Leaf) (66776, 66811)%N
 (Node (Node Leaf (66816, 66855)%N
 Leaf) (66864, 66915)%N
 Leaf)))) (66928, 66938)%N
 (Node (Node (Node (Node (Node Leaf (66940, 66954)%N
 Leaf) (66956, 66962)%N
 Leaf) (66964, 66965)%N
 (Node (Node Leaf (66967, 66977)%N
 Leaf) (66979, 66993)%N
 Leaf)) (66995, 67001)%N
 (Node (Node (Node Leaf (67003, 67004)%N
 Leaf) (67072, 67382)%N
 Leaf) (67392, 67413)%N
 (Node (Node Leaf (67424, 67431)%N
 Leaf) (67456, 67461)%N
 Leaf))) (67463, 67504)%N
 (Node (Node (Node (Node Leaf (67506, 67514)%N
 Leaf) (67584, 67589)%N
 Leaf) (67592, 67592)%N
 (Node (Node Leaf (67594, 67637)%N
 Leaf) (67639, 67640)%N
 Leaf)) (67644, 67644)%N
 (Node (Node (Node Leaf (67647, 67669)%N
 Leaf) (67680, 67702)%N
 Leaf) (67712, 67742)%N
 (Node (Node Leaf (67808, 67826)%N
 Leaf) (67828, 67829)%N
 Leaf)))))) (67840, 67861)%N
 (Node (Node (Node (Node (Node (Node (Node Leaf (67872, 67897)%N
 Leaf) (67968, 68023)%N
 (Node Leaf (68030, 68031)%N
 Leaf)) (68096, 68099)%N
 (Node (Node Leaf (68101, 68102)%N
 Leaf) (68108, 68115)%N
 Leaf)) (68117, 68119)%N
 (Node (Node (Node Leaf (68121, 68149)%N
 Leaf) (68152, 68154)%N
 Leaf) (68159, 68159)%N
 (Node (Node Leaf (68192, 68220)%N
 Leaf) (68224, 68252)%N
 Leaf))) (68288, 68295)%N
 (Node (Node (Node (Node Leaf (68297, 68326)%N
 Leaf) (68352, 68405)%N
 Leaf) (68416, 68437)%N
 (Node (Node Leaf (68448, 68466)%N
 Leaf) (68480, 68497)%N
 Leaf)) (68608, 68680)%N
 (Node (Node (Node Leaf (68736, 68786)%N
 Leaf) (68800, 68850)%N
 Leaf) (68864, 68903)%N
 (Node (Node Leaf (68912, 68921)%N
 Leaf) (69248, 69289)%N
 Leaf)))) (69291, 69292)%N
 (Node (Node (Node (Node (Node Leaf (69296, 69297)%N
 Leaf) (69373, 69404)%N
 Leaf) (69415, 69415)%N
 (Node (Node Leaf (69424, 69456)%N
 Leaf) (69488, 69509)%N
 Leaf)) (69552, 69572)%N
 (Node (Node (Node Leaf (69600, 69622)%N
 Leaf) (69632, 69702)%N
 Leaf) (69734, 69749)%N
 (Node (Node Leaf (69759, 69818)%N
 Leaf) (69826, 69826)%N
 Leaf))) (69840, 69864)%N
 (Node (Node (Node (Node Leaf (69872, 69881)%N
 Leaf) (69888, 69940)%N
 Leaf) (69942, 69951)%N
 (Node (Node Leaf (69956, 69959)%N
 Leaf) (69968, 70003)%N
 Leaf)) (70006, 70006)%N
 (Node (Node (Node Leaf (70016, 70084)%N
 Leaf) (70089, 70092)%N
 Leaf) (70094, 70106)%N
 (Node (Node Leaf (70108, 70108)%N
 Leaf) (70144, 70161)%N
 Leaf))))) (70163, 70199)%N
 (Node (Node (Node (Node (Node (Node Leaf (70206, 70209)%N
 Leaf) (70272, 70278)%N
 Leaf) (70280, 70280)%N
 (Node (Node Leaf (70282, 70285)%N
 Leaf) (70287, 70301)%N
 Leaf)) (70303, 70312)%N
 (Node (Node (Node Leaf (70320, 70378)%N
 Leaf) (70384, 70393)%N
 Leaf) (70400, 70403)%N
 (Node (Node Leaf (70405, 70412)%N
 Leaf) (70415, 70416)%N
 Leaf))) (70419, 70440)%N
 (Node (Node (Node (Node Leaf (70442, 70448)%N
 Leaf) (70450, 70451)%N
 Leaf) (70453, 70457)%N
 (Node (Node Leaf (70459, 70468)%N
 Leaf) (70471, 70472)%N
 Leaf)) (70475, 70477)%N
 (Node (Node (Node Leaf (70480, 70480)%N
 Leaf) (70487, 70487)%N
 Leaf) (70493, 70499)%N
 (Node (Node Leaf (70502, 70508)%N
 Leaf) (70512, 70516)%N
 Leaf)))) (70656, 70730)%N
 (Node (Node (Node (Node (Node Leaf (70736, 70745)%N
 Leaf) (70750, 70753)%N
 Leaf) (70784, 70853)%N
 (Node (Node Leaf (70855, 70855)%N
 Leaf) (70864, 70873)%N
 Leaf)) (71040, 71093)%N
 (Node (Node (Node Leaf (71096, 71104)%N
 Leaf) (71128, 71133)%N
 Leaf) (71168, 71232)%N
 (Node (Node Leaf (71236, 71236)%N
 Leaf) (71248, 71257)%N
 Leaf))) (71296, 71352)%N
 (Node (Node (Node (Node Leaf (71360, 71369)%N
 Leaf) (71424, 71450)%N
 Leaf) (71453, 71467)%N
 (Node (Node Leaf (71472, 71481)%N
 Leaf) (71488, 71494)%N
 Leaf)) (71680, 71738)%N
 (Node (Node (Node Leaf (71840, 71913)%N
 Leaf) (71935, 71942)%N
 Leaf) (71945, 71945)%N
 (Node (Node Leaf (71948, 71955)%N
 Leaf) (71957, 71958)%N
 Leaf))))))) (71960, 71989)%N
 (Node (Node (Node (Node (Node (Node (Node (Node Leaf (71991, 71992)%N
 Leaf) (71995, 72003)%N
 (Node Leaf (72016, 72025)%N
 Leaf)) (72096, 72103)%N
 (Node (Node Leaf (72106, 72151)%N
 Leaf) (72154, 72161)%N
 Leaf)) (72163, 72164)%N
 (Node (Node (Node Leaf (72192, 72254)%N
 Leaf) (72263, 72263)%N
 Leaf) (72272, 72345)%N
 (Node (Node Leaf (72349, 72349)%N
 Leaf) (72368, 72440)%N
 Leaf))) (72704, 72712)%N
 (Node (Node (Node (Node Leaf (72714, 72758)%N
 Leaf) (72760, 72768)%N
 Leaf) (72784, 72793)%N
 (Node (Node Leaf (72818, 72847)%N
 Leaf) (72850, 72871)%N
 Leaf)) (72873, 72886)%N
 (Node (Node (Node Leaf (72960, 72966)%N
 Leaf) (72968, 72969)%N
 Leaf) (72971, 73014)%N
 (Node (Node Leaf (73018, 73018)%N
 Leaf) (73020, 73021)%N
 Leaf)))) (73023, 73031)%N
 (Node (Node (Node (Node (Node Leaf (73040, 73049)%N
 Leaf) (73056, 73061)%N
 Leaf) (73063, 73064)%N
 (Node (Node Leaf (73066, 73102)%N
 Leaf) (73104, 73105)%N
 Leaf)) (73107, 73112)%N
 (Node (Node (Node Leaf (73120, 73129)%N
 Leaf) (73440, 73462)%N
 Leaf) (73472, 73488)%N
 (Node (Node Leaf (73490, 73530)%N
 Leaf) (73534, 73538)%N
 Leaf))) (73552, 73561)%N
 (Node (Node (Node (Node Leaf (73648, 73648)%N
 Leaf) (73728, 74649)%N
 Leaf) (74752, 74862)%N
 (Node (Node Leaf (74880, 75075)%N
 Leaf) (77712, 77808)%N
 Leaf)) (77824, 78895)%N
 (Node (Node (Node Leaf (78912, 78933)%N
 Leaf) (82944, 83526)%N
 Leaf) (92160, 92728)%N
 (Node (Node Leaf (92736, 92766)%N
 Leaf) (92768, 92777)%N
 Leaf))))) (92784, 92862)%N
 (Node (Node (Node (Node (Node (Node Leaf (92864, 92873)%N
 Leaf) (92880, 92909)%N
 Leaf) (92912, 92916)%N
 (Node (Node Leaf (92928, 92982)%N
 Leaf) (92992, 92995)%N
 Leaf)) (93008, 93017)%N
 (Node (Node (Node Leaf (93027, 93047)%N
 Leaf) (93053, 93071)%N
 Leaf) (93760, 93823)%N
 (Node (Node Leaf (93952, 94026)%N
 Leaf) (94031, 94087)%N
 Leaf))) (94095, 94111)%N
 (Node (Node (Node (Node Leaf (94176, 94177)%N
 Leaf) (94179, 94180)%N
 Leaf) (94192, 94193)%N
 (Node (Node Leaf (94208, 100343)%N
 Leaf) (100352, 101589)%N
 Leaf)) (101632, 101640)%N
 (Node (Node (Node Leaf (110576, 110579)%N
 Leaf) (110581, 110587)%N
 Leaf) (110589, 110590)%N
 (Node (Node Leaf (110592, 110882)%N
 Leaf) (110898, 110898)%N
 Leaf)))) (110928, 110930)%N
 (Node (Node (Node (Node (Node Leaf (110933, 110933)%N
 Leaf) (110948, 110951)%N
 Leaf) (110960, 111355)%N
 (Node (Node Leaf (113664, 113770)%N
 Leaf) (113776, 113788)%N
 Leaf)) (113792, 113800)%N
 (Node (Node (Node Leaf (113808, 113817)%N
 Leaf) (113821, 113822)%N
 Leaf) (118528, 118573)%N
 (Node (Node Leaf (118576, 118598)%N
 Leaf) (119141, 119145)%N
 Leaf))) (119149, 119154)%N
 (Node (Node (Node (Node Leaf (119163, 119170)%N
 Leaf) (119173, 119179)%N
 Leaf) (119210, 119213)%N
 (Node (Node Leaf (119362, 119364)%N
 Leaf) (119808, 119892)%N
 Leaf)) (119894, 119964)%N
 (Node (Node (Node Leaf (119966, 119967)%N
 Leaf) (119970, 119970)%N
 Leaf) (119973, 119974)%N
 (Node (Node Leaf (119977, 119980)%N
 Leaf) (119982, 119993)%N
 Leaf)))))) (119995, 119995)%N
 (Node (Node (Node (Node (Node (Node (Node Leaf (119997, 120003)%N
 Leaf) (120005, 120069)%N
 (Node Leaf (120071, 120074)%N
 Leaf)) (120077, 120084)%N
 (Node (Node Leaf (120086, 120092)%N
 Leaf) (120094, 120121)%N
 Leaf)) (120123, 120126)%N
 (Node (Node (Node Leaf (120128, 120132)%N
 Leaf) (120134, 120134)%N
 Leaf) (120138, 120144)%N
 (Node (Node Leaf (120146, 120485)%N
 Leaf) (120488, 120512)%N
 Leaf))) (120514, 120538)%N
 (Node (Node (Node (Node Leaf (120540, 120570)%N
 Leaf) (120572, 120596)%N
 Leaf) (120598, 120628)%N
 (Node (Node Leaf (120630, 120654)%N
 Leaf) (120656, 120686)%N
 Leaf)) (120688, 120712)%N
 (Node (Node (Node Leaf (120714, 120744)%N
 Leaf) (120746, 120770)%N
 Leaf) (120772, 120779)%N
 (Node (Node Leaf (120782, 120831)%N
 Leaf) (121344, 121398)%N
 Leaf)))) (121403, 121452)%N
 (Node (Node (Node (Node (Node Leaf (121461, 121461)%N
 Leaf) (121476, 121476)%N
 Leaf) (121499, 121503)%N
 (Node (Node Leaf (121505, 121519)%N
 Leaf) (122624, 122654)%N
 Leaf)) (122661, 122666)%N
 (Node (Node (Node Leaf (122880, 122886)%N
 Leaf) (122888, 122904)%N
 Leaf) (122907, 122913)%N
 (Node (Node Leaf (122915, 122916)%N
 Leaf) (122918, 122922)%N
 Leaf))) (122928, 122989)%N
 (Node (Node (Node (Node Leaf (123023, 123023)%N
 Leaf) (123136, 123180)%N
 Leaf) (123184, 123197)%N
 (Node (Node Leaf (123200, 123209)%N
 Leaf) (123214, 123214)%N
 Leaf)) (123536, 123566)%N
 (Node (Node (Node Leaf (123584, 123641)%N
 Leaf) (124112, 124153)%N
 Leaf) (124896, 124902)%N
 (Node (Node Leaf (124904, 124907)%N
 Leaf) (124909, 124910)%N
 Leaf))))) (124912, 124926)%N
 (Node (Node (Node (Node (Node (Node Leaf (124928, 125124)%N
 Leaf) (125136, 125142)%N
 Leaf) (125184, 125259)%N
 (Node (Node Leaf (125264, 125273)%N
 Leaf) (126464, 126467)%N
 Leaf)) (126469, 126495)%N
 (Node (Node (Node Leaf (126497, 126498)%N
 Leaf) (126500, 126500)%N
 Leaf) (126503, 126503)%N
 (Node (Node Leaf (126505, 126514)%N
 Leaf) (126516, 126519)%N
 Leaf))) (126521, 126521)%N
 (Node (Node (Node (Node Leaf (126523, 126523)%N
 Leaf) (126530, 126530)%N
 Leaf) (126535, 126535)%N
 (Node (Node Leaf (126537, 126537)%N
 Leaf) (126539, 126539)%N
 Leaf)) (126541, 126543)%N
 (Node (Node (Node Leaf (126545, 126546)%N
 Leaf) (126548, 126548)%N
 Leaf) (126551, 126551)%N
 (Node (Node Leaf (126553, 126553)%N
 Leaf) (126555, 126555)%N
 Leaf)))) (126557, 126557)%N
 (Node (Node (Node (Node (Node Leaf (126559, 126559)%N
 Leaf) (126561, 126562)%N
 Leaf) (126564, 126564)%N
 (Node (Node Leaf (126567, 126570)%N
 Leaf) (126572, 126578)%N
 Leaf)) (126580, 126583)%N
 (Node (Node (Node Leaf (126585, 126588)%N
 Leaf) (126590, 126590)%N
 Leaf) (126592, 126601)%N
 (Node (Node Leaf (126603, 126619)%N
 Leaf) (126625, 126627)%N
 Leaf))) (126629, 126633)%N
 (Node (Node (Node (Node Leaf (126635, 126651)%N
 Leaf) (130032, 130041)%N
 Leaf) (131072, 173791)%N
 (Node (Node Leaf (173824, 177977)%N
 Leaf) (177984, 178205)%N
 Leaf)) (178208, 183969)%N
 (Node (Node (Node Leaf (183984, 191456)%N
 Leaf) (194560, 195101)%N
 Leaf) (196608, 201546)%N
 (Node (Node Leaf (201552, 205743)%N
 Leaf) (917760, 917999)%N
 Leaf))))))))).

(** Alphabetic or Nd, Nl, No (char::is_alphanumeric). *)
Definition alphanumeric_ranges : tree (N * N) :=
 (Node (Node (Node (Node (Node (Node (Node (Node (Node (Node Leaf (48, 57)%N
 Leaf) (65, 90)%N
 (Node Leaf (97, 122)%N
 Leaf)) (170, 170)%N
 (Node (Node Leaf (178, 179)%N
 Leaf) (181, 181)%N
 Leaf)) (185, 186)%N
 (Node (Node (Node Leaf (188, 190)%N
 Leaf) (192, 214)%N
 Leaf) (216, 246)%N
 (Node (Node Leaf (248, 705)%N
 Leaf) (710, 721)%N
 Leaf))) (736, 740)%N
 (Node (Node (Node (Node Leaf (748, 748)%N
 Leaf) (750, 750)%N
 (Node Leaf (837, 837)%N
 Leaf)) (880, 884)%N
 (Node (Node Leaf (886, 887)%N
 Leaf) (890, 893)%N
 Leaf)) (895, 895)%N
 (Node (Node (Node Leaf (902, 902)%N
 Leaf) (904, 906)%N
 Leaf) (908, 908)%N
 (Node (Node Leaf (910, 929)%N
 Leaf) (931, 1013)%N
 Leaf)))) (1015, 1153)%N
 (Node (Node (Node (Node (Node Leaf (1162, 1327)%N
 Leaf) (1329, 1366)%N
 (Node Leaf (1369, 1369)%N
 Leaf)) (1376, 1416)%N
 (Node (Node Leaf (1456, 1469)%N
 Leaf) (1471, 1471)%N
 Leaf)) (1473, 1474)%N
 (Node (Node (Node Leaf (1476, 1477)%N
 Leaf) (1479, 1479)%N
 Leaf) (1488, 1514)%N
 (Node (Node Leaf (1519, 1522)%N
 Leaf) (1552, 1562)%N
 Leaf))) (1568, 1623)%N
 (Node (Node (Node (Node Leaf (1625, 1641)%N
 Leaf) (1646, 1747)%N
 Leaf) (1749, 1756)%N
 (Node (Node Leaf (1761, 1768)%N
 Leaf) (1773, 1788)%N
 Leaf)) (1791, 1791)%N
 (Node (Node (Node Leaf (1808, 1855)%N
 Leaf) (1869, 1969)%N
 Leaf) (1984, 2026)%N
 (Node (Node Leaf (2036, 2037)%N
 Leaf) (2042, 2042)%N
 Leaf))))) (2048, 2071)%N
 (Node (Node (Node (Node (Node (Node Leaf (2074, 2092)%N
 Leaf) (2112, 2136)%N
 (Node Leaf (2144, 2154)%N
 Leaf)) (2160, 2183)%N
 (Node (Node Leaf (2185, 2190)%N
 Leaf) (2208, 2249)%N
 Leaf)) (2260, 2271)%N
 (Node (Node (Node Leaf (2275, 2281)%N
 Leaf) (2288, 2363)%N
 Leaf) (2365, 2380)%N
 (Node (Node Leaf (2382, 2384)%N
 Leaf) (2389, 2403)%N
 Leaf))) (2406, 2415)%N
 (Node (Node (Node (Node Leaf (2417, 2435)%N
 Leaf) (2437, 2444)%N
 (Node Leaf (2447, 2448)%N
 Leaf)) (2451, 2472)%N
 (Node (Node Leaf (2474, 2480)%N
 Leaf) (2482, 2482)%N
 Leaf)) (2486, 2489)%N
 (Node (Node (Node Leaf (2493, 2500)%N
 Leaf) (2503, 2504)%N
 Leaf) (2507, 2508)%N
 (Node (Node Leaf (2510, 2510)%N
 Leaf) (2519, 2519)%N
 Leaf)))) (2524, 2525)%N
 (Node (Node (Node (Node (Node Leaf (2527, 2531)%N
 Leaf) (2534, 2545)%N
 (Node Leaf (2548, 2553)%N
 Leaf)) (2556, 2556)%N
 (Node (Node Leaf (2561, 2563)%N
 Leaf) (2565, 2570)%N
 Leaf)) (2575, 2576)%N
 (Node (Node (Node Leaf (2579, 2600)%N
 Leaf) (2602, 2608)%N
 Leaf) (2610, 2611)%N
 (Node (Node Leaf (2613, 2614)%N
 Leaf) (2616, 2617)%N
 Leaf))) (2622, 2626)%N
 (Node (Node (Node (Node Leaf (2631, 2632)%N
 Leaf) (2635, 2636)%N
 Leaf) (2641, 2641)%N
 (Node (Node Leaf (2649, 2652)%N
 Leaf) (2654, 2654)%N
 Leaf)) (2662, 2677)%N
 (Node (Node (Node Leaf (2689, 2691)%N
 Leaf) (2693, 2701)%N
 Leaf) (2703, 2705)%N
 (Node (Node Leaf (2707, 2728)%N
 Leaf) (2730, 2736)%N
 Leaf)))))) (2738, 2739)%N
 (Node (Node (Node (Node (Node (Node (Node Leaf (2741, 2745)%N
 Leaf) (2749, 2757)%N
 (Node Leaf (2759, 2761)%N
 Leaf)) (2763, 2764)%N
 (Node (Node Leaf (2768, 2768)%N
 Leaf) (2784, 2787)%N
 Leaf)) (2790, 2799)%N
 (Node (Node (Node Leaf (2809, 2812)%N
 Leaf) (2817, 2819)%N
 Leaf) (2821, 2828)%N
 (Node (Node Leaf (2831, 2832)%N
 Leaf) (2835, 2856)%N
 Leaf))) (2858, 2864)%N
 (Node (Node (Node (Node Leaf (2866, 2867)%N
 Leaf) (2869, 2873)%N
 (Node Leaf (2877, 2884)%N
 Leaf)) (2887, 2888)%N
 (Node (Node Leaf (2891, 2892)%N
 Leaf) (2902, 2903)%N
 Leaf)) (2908, 2909)%N
 (Node (Node (Node Leaf (2911, 2915)%N
 Leaf) (2918, 2927)%N
 Leaf) (2929, 2935)%N
 (Node (Node Leaf (2946, 2947)%N
 Leaf) (2949, 2954)%N
 Leaf)))) (2958, 2960)%N
 (Node (Node (Node (Node (Node Leaf (2962, 2965)%N
 Leaf) (2969, 2970)%N
 (Node Leaf (2972, 2972)%N
 Leaf)) (2974, 2975)%N
 (Node (Node Leaf (2979, 2980)%N
 Leaf) (2984, 2986)%N
 Leaf)) (2990, 3001)%N
 (Node (Node (Node Leaf (3006, 3010)%N
 Leaf) (3014, 3016)%N
 Leaf) (3018, 3020)%N
 (Node (Node Leaf (3024, 3024)%N
 Leaf) (3031, 3031)%N
 Leaf))) (3046, 3058)%N
 (Node (Node (Node (Node Leaf (3072, 3084)%N
 Leaf) (3086, 3088)%N
 Leaf) (3090, 3112)%N
 (Node (Node Leaf (3114, 3129)%N
 Leaf) (3133, 3140)%N
 Leaf)) (3142, 3144)%N
 (Node (Node (Node Leaf (3146, 3148)%N
 Leaf) (3157, 3158)%N
 Leaf) (3160, 3162)%N
 (Node (Node Leaf (3165, 3165)%N
 Leaf) (3168, 3171)%N
 Leaf))))) (3174, 3183)%N
 (Node (Node (Node (Node (Node (Node Leaf (3192, 3198)%N
 Leaf) (3200, 3203)%N
 (Node Leaf (3205, 3212)%N
 Leaf)) (3214, 3216)%N
 (Node (Node Leaf (3218, 3240)%N
 Leaf) (3242, 3251)%N
 Leaf)) (3253, 3257)%N
 (Node (Node (Node Leaf (3261, 3268)%N
 Leaf) (3270, 3272)%N
 Leaf) (3274, 3276)%N
 (Node (Node Leaf (3285, 3286)%N
 Leaf) (3293, 3294)%N
 Leaf))) (3296, 3299)%N
 (Node (Node (Node (Node Leaf (3302, 3311)%N
 Leaf) (3313, 3315)%N
 Leaf) (3328, 3340)%N
 (Node (Node Leaf (3342, 3344)%N
 Leaf) (3346, 3386)%N
 Leaf)) (3389, 3396)%N
 (Node (Node (Node Leaf (3398, 3400)%N
 Leaf) (3402, 3404)%N
 Leaf) (3406, 3406)%N
 (Node (Node Leaf (3412, 3427)%N
 Leaf) (3430, 3448)%N
 Leaf)))) (3450, 3455)%N
 (Node (Node (Node (Node (Node Leaf (3457, 3459)%N
 Leaf) (3461, 3478)%N
 (Node Leaf (3482, 3505)%N
 Leaf)) (3507, 3515)%N
 (Node (Node Leaf (3517, 3517)%N
 Leaf) (3520, 3526)%N
 Leaf)) (3535, 3540)%N
 (Node (Node (Node Leaf (3542, 3542)%N
 Leaf) (3544, 3551)%N
 Leaf) (3558, 3567)%N
 (Node (Node Leaf (3570, 3571)%N
 Leaf) (3585, 3642)%N
 Leaf))) (3648, 3654)%N
 (Node (Node (Node (Node Leaf (3661, 3661)%N
 Leaf) (3664, 3673)%N
 Leaf) (3713, 3714)%N
 (Node (Node Leaf (3716, 3716)%N
 Leaf) (3718, 3722)%N
 Leaf)) (3724, 3747)%N
 (Node (Node (Node Leaf (3749, 3749)%N
 Leaf) (3751, 3769)%N
 Leaf) (3771, 3773)%N
 (Node (Node Leaf (3776, 3780)%N
 Leaf) (3782, 3782)%N
 Leaf))))))) (3789, 3789)%N
 (Node (Node (Node (Node (Node (Node (Node (Node Leaf (3792, 3801)%N
 Leaf) (3804, 3807)%N
 (Node Leaf (3840, 3840)%N
 Leaf)) (3872, 3891)%N
 (Node (Node Leaf (3904, 3911)%N
 Leaf) (3913, 3948)%N
 Leaf)) (3953, 3971)%N
 (Node (Node (Node Leaf (3976, 3991)%N
 Leaf) (3993, 4028)%N
 Leaf) (4096, 4150)%N
 (Node (Node Leaf (4152, 4152)%N
 Leaf) (4155, 4169)%N
 Leaf))) (4176, 4253)%N
 (Node (Node (Node (Node Leaf (4256, 4293)%N
 Leaf) (4295, 4295)%N
 (Node Leaf (4301, 4301)%N
 Leaf)) (4304, 4346)%N
 (Node (Node Leaf (4348, 4680)%N
 Leaf) (4682, 4685)%N
 Leaf)) (4688, 4694)%N
 (Node (Node (Node Leaf (4696, 4696)%N
 Leaf) (4698, 4701)%N
 Leaf) (4704, 4744)%N
 (Node (Node Leaf (4746, 4749)%N
 Leaf) (4752, 4784)%N
 Leaf)))) (4786, 4789)%N
 (Node (Node (Node (Node (Node Leaf (4792, 4798)%N
 Leaf) (4800, 4800)%N
 (Node Leaf (4802, 4805)%N
 Leaf)) (4808, 4822)%N
 (Node (Node Leaf (4824, 4880)%N
 Leaf) (4882, 4885)%N
 Leaf)) (4888, 4954)%N
 (Node (Node (Node Leaf (4969, 4988)%N
 Leaf) (4992, 5007)%N
 Leaf) (5024, 5109)%N
 (Node (Node Leaf (5112, 5117)%N
 Leaf) (5121, 5740)%N
 Leaf))) (5743, 5759)%N
 (Node (Node (Node (Node Leaf (5761, 5786)%N
 Leaf) (5792, 5866)%N
 Leaf) (5870, 5880)%N
 (Node (Node Leaf (5888, 5907)%N
 Leaf) (5919, 5939)%N
 Leaf)) (5952, 5971)%N
 (Node (Node (Node Leaf (5984, 5996)%N
 Leaf) (5998, 6000)%N
 Leaf) (6002, 6003)%N
 (Node (Node Leaf (6016, 6067)%N
 Leaf) (6070, 6088)%N
 Leaf))))) (6103, 6103)%N
 (Node (Node (Node (Node (Node (Node Leaf (6108, 6108)%N
 Leaf) (6112, 6121)%N
 (Node Leaf (6128, 6137)%N
 Leaf)) (6160, 6169)%N
 (Node (Node Leaf (6176, 6264)%N
 Leaf) (6272, 6314)%N
 Leaf)) (6320, 6389)%N
 (Node (Node (Node Leaf (6400, 6430)%N
 Leaf) (6432, 6443)%N
 Leaf) (6448, 6456)%N
 (Node (Node Leaf (6470, 6509)%N
 Leaf) (6512, 6516)%N
 Leaf))) (6528, 6571)%N
 (Node (Node (Node (Node Leaf (6576, 6601)%N
 Leaf) (6608, 6618)%N
 Leaf) (6656, 6683)%N
 (Node (Node Leaf (6688, 6750)%N
 Leaf) (6753, 6772)%N
 Leaf)) (6784, 6793)%N
 (Node (Node (Node Leaf (6800, 6809)%N
 Leaf) (6823, 6823)%N
 Leaf) (6847, 6848)%N
 (Node (Node Leaf (6860, 6862)%N
 Leaf) (6912, 6963)%N
 Leaf)))) (6965, 6979)%N
 (Node (Node (Node (Node (Node Leaf (6981, 6988)%N
 Leaf) (6992, 7001)%N
 (Node Leaf (7040, 7081)%N
 Leaf)) (7084, 7141)%N
 (Node (Node Leaf (7143, 7153)%N
 Leaf) (7168, 7222)%N
 Leaf)) (7232, 7241)%N
 (Node (Node (Node Leaf (7245, 7293)%N
 Leaf) (7296, 7304)%N
 Leaf) (7312, 7354)%N
 (Node (Node Leaf (7357, 7359)%N
 Leaf) (7401, 7404)%N
 Leaf))) (7406, 7411)%N
 (Node (Node (Node (Node Leaf (7413, 7414)%N
 Leaf) (7418, 7418)%N
 Leaf) (7424, 7615)%N
 (Node (Node Leaf (7655, 7668)%N
 Leaf) (7680, 7957)%N
 Leaf)) (7960, 7965)%N
 (Node (Node (Node Leaf (7968, 8005)%N
 Leaf) (8008, 8013)%N
 Leaf) (8016, 8023)%N
 (Node (Node Leaf (8025, 8025)%N
 Leaf) (8027, 8027)%N
 Leaf)))))) (8029, 8029)%N
 (Node (Node (Node (Node (Node (Node (Node Leaf (8031, 8061)%N
 Leaf) (8064, 8116)%N
 (Node Leaf (8118, 8124)%N
 Leaf)) (8126, 8126)%N
 (Node (Node Leaf (8130, 8132)%N
 Leaf) (8134, 8140)%N
 Leaf)) (8144, 8147)%N
 (Node (Node (Node Leaf (8150, 8155)%N
 Leaf) (8160, 8172)%N
 Leaf) (8178, 8180)%N
 (Node (Node Leaf (8182, 8188)%N
 Leaf) (8304, 8305)%N
 Leaf))) (8308, 8313)%N
 (Node (Node (Node (Node Leaf (8319, 8329)%N
 Leaf) (8336, 8348)%N
 (Node Leaf (8450, 8450)%N
 Leaf)) (8455, 8455)%N
 (Node (Node Leaf (8458, 8467)%N
 Leaf) (8469, 8469)%N
 Leaf)) (8473, 8477)%N
 (Node (Node (Node Leaf (8484, 8484)%N
 Leaf) (8486, 8486)%N
 Leaf) (8488, 8488)%N
 (Node (Node Leaf (8490, 8493)%N
 Leaf) (8495, 8505)%N
 Leaf)))) (8508, 8511)%N
 (Node (Node (Node (Node (Node Leaf (8517, 8521)%N
 Leaf) (8526, 8526)%N
 (Node Leaf (8528, 8585)%N
 Leaf)) (9312, 9371)%N
 (Node (Node Leaf (9398, 9471)%N
 Leaf) (10102, 10131)%N
 Leaf)) (11264, 11492)%N
 (Node (Node (Node Leaf (11499, 11502)%N
 Leaf) (11506, 11507)%N
 Leaf) (11517, 11517)%N
 (Node (Node Leaf (11520, 11557)%N
 Leaf) (11559, 11559)%N
 Leaf))) (11565, 11565)%N
 (Node (Node (Node (Node Leaf (11568, 11623)%N
 Leaf) (11631, 11631)%N
 Leaf) (11648, 11670)%N
 (Node (Node Leaf (11680, 11686)%N
 Leaf) (11688, 11694)%N
 Leaf)) (11696, 11702)%N
 (Node (Node (Node Leaf (11704, 11710)%N
 Leaf) (11712, 11718)%N
 Leaf) (11720, 11726)%N
 (Node (Node Leaf (11728, 11734)%N
 Leaf) (11736, 11742)%N
 Leaf))))) (11744, 11775)%N
 (Node (Node (Node (Node (Node (Node Leaf (11823, 11823)%N
 Leaf) (12293, 12295)%N
 (Node Leaf (12321, 12329)%N
 Leaf)) (12337, 12341)%N
 (Node (Node Leaf (12344, 12348)%N
 Leaf) (12353, 12438)%N
 Leaf)) (12445, 12447)%N
 (Node (Node (Node Leaf (12449, 12538)%N
 Leaf) (12540, 12543)%N
 Leaf) (12549, 12591)%N
 (Node (Node Leaf (12593, 12686)%N
 Leaf) (12690, 12693)%N
 Leaf))) (12704, 12735)%N
 (Node (Node (Node (Node Leaf (12784, 12799)%N
 Leaf) (12832, 12841)%N
 Leaf) (12872, 12879)%N
 (Node (Node Leaf (12881, 12895)%N
 Leaf) (12928, 12937)%N
 Leaf)) (12977, 12991)%N
 (Node (Node (Node Leaf (13312, 19903)%N
 Leaf) (19968, 42124)%N
 Leaf) (42192, 42237)%N
 (Node (Node Leaf (42240, 42508)%N
 Leaf) (42512, 42539)%N
 Leaf)))) (42560, 42606)%N
 (Node (Node (Node (Node (Node Leaf (42612, 42619)%N
 Leaf) (42623, 42735)%N
 (Node Leaf (42775, 42783)%N
 Leaf)) (42786, 42888)%N
 (Node (Node Leaf (42891, 42954)%N
 Leaf) (42960, 42961)%N
 Leaf)) (42963, 42963)%N
 (Node (Node (Node Leaf (42965, 42969)%N
 Leaf) (42994, 43013)%N
 Leaf) (43015, 43047)%N
 (Node (Node Leaf (43056, 43061)%N
 Leaf) (43072, 43123)%N
 Leaf))) (43136, 43203)%N
 (Node (Node (Node (Node Leaf (43205, 43205)%N
 Leaf) (43216, 43225)%N
 Leaf) (43250, 43255)%N
 (Node (Node Leaf (43259, 43259)%N
 Leaf) (43261, 43306)%N
 Leaf)) (43312, 43346)%N
 (Node (Node (Node Leaf (43360, 43388)%N
 Leaf) (43392, 43442)%N
 Leaf) (43444, 43455)%N
 (Node (Node Leaf (43471, 43481)%N
 Leaf) (43488, 43518)%N
 Leaf)))))))) (43520, 43574)%N
 (Node (Node (Node (Node (Node (Node (Node (Node (Node Leaf (43584, 43597)%N
 Leaf) (43600, 43609)%N
 (Node Leaf (43616, 43638)%N
 Leaf)) (43642, 43710)%N
 (Node (Node Leaf (43712, 43712)%N
 Leaf) (43714, 43714)%N
 Leaf)) (43739, 43741)%N
 (Node (Node (Node Leaf (43744, 43759)%N
 Leaf) (43762, 43765)%N
 Leaf) (43777, 43782)%N
 (Node (Node Leaf (43785, 43790)%N
 Leaf) (43793, 43798)%N
 Leaf))) (43808, 43814)%N
 (Node (Node (Node (Node Leaf (43816, 43822)%N
 Leaf) (43824, 43866)%N
 (Node Leaf (43868, 43881)%N
 Leaf)) (43888, 44010)%N
 (Node (Node Leaf (44016, 44025)%N
 Leaf) (44032, 55203)%N
 Leaf)) (55216, 55238)%N
 (Node (Node (Node Leaf (55243, 55291)%N
 Leaf) (63744, 64109)%N
 Leaf) (64112, 64217)%N
 (Node (Node Leaf (64256, 64262)%N
 Leaf) (64275, 64279)%N
 Leaf)))) (64285, 64296)%N
 (Node (Node (Node (Node (Node Leaf (64298, 64310)%N
 Leaf) (64312, 64316)%N
 (Node Leaf (64318, 64318)%N
 Leaf)) (64320, 64321)%N
 (Node (Node Leaf (64323, 64324)%N
 Leaf) (64326, 64433)%N
 Leaf)) (64467, 64829)%N
 (Node (Node (Node Leaf (64848, 64911)%N
 Leaf) (64914, 64967)%N
 Leaf) (65008, 65019)%N
 (Node (Node Leaf (65136, 65140)%N
 Leaf) (65142, 65276)%N
 Leaf))) (65296, 65305)%N
 (Node (Node (Node (Node Leaf (65313, 65338)%N
 Leaf) (65345, 65370)%N
 Leaf) (65382, 65470)%N
 (Node (Node Leaf (65474, 65479)%N
 Leaf) (65482, 65487)%N
 Leaf)) (65490, 65495)%N
 (Node (Node (Node Leaf (65498, 65500)%N
 Leaf) (65536, 65547)%N
 Leaf) (65549, 65574)%N
 (Node (Node Leaf (65576, 65594)%N
 Leaf) (65596, 65597)%N
 Leaf))))) (65599, 65613)%N
 (Node (Node (Node (Node (Node (Node Leaf (65616, 65629)%N
 Leaf) (65664, 65786)%N
 (Node Leaf (65799, 65843)%N
 Leaf)) (65856, 65912)%N
 (Node (Node Leaf (65930, 65931)%N
 Leaf) (66176, 66204)%N
 Leaf)) (66208, 66256)%N
 (Node (Node (Node Leaf (66273, 66299)%N
 Leaf) (66304, 66339)%N
 Leaf) (66349, 66378)%N
 (Node (Node Leaf (66384, 66426)%N
 Leaf) (66432, 66461)%N
 Leaf))) (66464, 66499)%N
 (Node (Node (Node (Node Leaf (66504, 66511)%N
 Leaf) (66513, 66517)%N
 (Node Leaf (66560, 66717)%N
 Leaf)) (66720, 66729)%N
 (Node (Node Leaf (66736, 66771)%N
 Leaf) (66776, 66811)%N
 Leaf)) (66816, 66855)%N
 (Node (Node (Node Leaf (66864, 66915)%N
 Leaf) (66928, 66938)%N
 Leaf) (66940, 66954)%N
 (Node (Node Leaf (66956, 66962)%N
 Leaf) (66964, 66965)%N
 Leaf)))) (66967, 66977)%N
 (Node (Node (Node (Node (Node Leaf (66979, 66993)%N
 Leaf) (66995, 67001)%N
 (Node Leaf (67003, 67004)%N
 Leaf)) (67072, 67382)%N
 (Node (Node Leaf (67392, 67413)%N
 Leaf) (67424, 67431)%N
 Leaf)) (67456, 67461)%N
 (Node (Node (Node Leaf (67463, 67504)%N
 Leaf) (67506, 67514)%N
 Leaf) (67584, 67589)%N
 (Node (Node Leaf (67592, 67592)%N
 Leaf) (67594, 67637)%N
 Leaf))) (67639, 67640)%N
 (Node (Node (Node (Node Leaf (67644, 67644)%N
 Leaf) (67647, 67669)%N
 Leaf) (67672, 67702)%N
 (Node (Node Leaf (67705, 67742)%N
 Leaf) (67751, 67759)%N
 Leaf)) (67808, 67826)%N
 (Node (Node (Node Leaf (67828, 67829)%N
 Leaf) (67835, 67867)%N
 Leaf) (67872, 67897)%N
 (Node (Node Leaf (67968, 68023)%N
 Leaf) (68028, 68047)%N
 Leaf)))))) (68050, 68099)%N
 (Node (Node (Node (Node (Node (Node (Node Leaf (68101, 68102)%N
 Leaf) (68108, 68115)%N
 (Node Leaf (68117, 68119)%N
 Leaf)) (68121, 68149)%N
 (Node (Node Leaf (68160, 68168)%N
 Leaf) (68192, 68222)%N
 Leaf)) (68224, 68255)%N
 (Node (Node (Node Leaf (68288, 68295)%N
 Leaf) (68297, 68324)%N
 Leaf) (68331, 68335)%N
 (Node (Node Leaf (68352, 68405)%N
 Leaf) (68416, 68437)%N
 Leaf))) (68440, 68466)%N
 (Node (Node (Node (Node Leaf (68472, 68497)%N
 Leaf) (68521, 68527)%N
 (Node Leaf (68608, 68680)%N
 Leaf)) (68736, 68786)%N
 (Node (Node Leaf (68800, 68850)%N
 Leaf) (68858, 68903)%N
 Leaf)) (68912, 68921)%N
 (Node (Node (Node Leaf (69216, 69246)%N
 Leaf) (69248, 69289)%N
 Leaf) (69291, 69292)%N
 (Node (Node Leaf (69296, 69297)%N
 Leaf) (69376, 69415)%N
 Leaf)))) (69424, 69445)%N
 (Node (Node (Node (Node (Node Leaf (69457, 69460)%N
 Leaf) (69488, 69505)%N
 (Node Leaf (69552, 69579)%N
 Leaf)) (69600, 69622)%N
 (Node (Node Leaf (69632, 69701)%N
 Leaf) (69714, 69743)%N
 Leaf)) (69745, 69749)%N
 (Node (Node (Node Leaf (69760, 69816)%N
 Leaf) (69826, 69826)%N
 Leaf) (69840, 69864)%N
 (Node (Node Leaf (69872, 69881)%N
 Leaf) (69888, 69938)%N
 Leaf))) (69942, 69951)%N
 (Node (Node (Node (Node Leaf (69956, 69959)%N
 Leaf) (69968, 70002)%N
 Leaf) (70006, 70006)%N
 (Node (Node Leaf (70016, 70079)%N
 Leaf) (70081, 70084)%N
 Leaf)) (70094, 70106)%N
 (Node (Node (Node Leaf (70108, 70108)%N
 Leaf) (70113, 70132)%N
 Leaf) (70144, 70161)%N
 (Node (Node Leaf (70163, 70196)%N
 Leaf) (70199, 70199)%N
 Leaf))))) (70206, 70209)%N
 (Node (Node (Node (Node (Node (Node Leaf (70272, 70278)%N
 Leaf) (70280, 70280)%N
 (Node Leaf (70282, 70285)%N
 Leaf)) (70287, 70301)%N
 (Node (Node Leaf (70303, 70312)%N
 Leaf) (70320, 70376)%N
 Leaf)) (70384, 70393)%N
 (Node (Node (Node Leaf (70400, 70403)%N
 Leaf) (70405, 70412)%N
 Leaf) (70415, 70416)%N
 (Node (Node Leaf (70419, 70440)%N
 Leaf) (70442, 70448)%N
 Leaf))) (70450, 70451)%N
 (Node (Node (Node (Node Leaf (70453, 70457)%N
 Leaf) (70461, 70468)%N
 Leaf) (70471, 70472)%N
 (Node (Node Leaf (70475, 70476)%N
 Leaf) (70480, 70480)%N
 Leaf)) (70487, 70487)%N
 (Node (Node (Node Leaf (70493, 70499)%N
 Leaf) (70656, 70721)%N
 Leaf) (70723, 70725)%N
 (Node (Node Leaf (70727, 70730)%N
 Leaf) (70736, 70745)%N
 Leaf)))) (70751, 70753)%N
 (Node (Node (Node (Node (Node Leaf (70784, 70849)%N
 Leaf) (70852, 70853)%N
 (Node Leaf (70855, 70855)%N
 Leaf)) (70864, 70873)%N
 (Node (Node Leaf (71040, 71093)%N
 Leaf) (71096, 71102)%N
 Leaf)) (71128, 71133)%N
 (Node (Node (Node Leaf (71168, 71230)%N
 Leaf) (71232, 71232)%N
 Leaf) (71236, 71236)%N
 (Node (Node Leaf (71248, 71257)%N
 Leaf) (71296, 71349)%N
 Leaf))) (71352, 71352)%N
 (Node (Node (Node (Node Leaf (71360, 71369)%N
 Leaf) (71424, 71450)%N
 Leaf) (71453, 71466)%N
 (Node (Node Leaf (71472, 71483)%N
 Leaf) (71488, 71494)%N
 Leaf)) (71680, 71736)%N
 (Node (Node (Node Leaf (71840, 71922)%N
 Leaf) (71935, 71942)%N
 Leaf) (71945, 71945)%N
 (Node (Node Leaf (71948, 71955)%N
 Leaf) (71957, 71958)%N
 Leaf))))))) (71960, 71989)%N
 (Node (Node (Node (Node (Node (Node (Node (Node Leaf (71991, 71992)%N
 Leaf) (71995, 71996)%N
 (Node Leaf (71999, 72002)%N
 Leaf)) (72016, 72025)%N
 (Node (Node Leaf (72096, 72103)%N
 Leaf) (72106, 72151)%N
 Leaf)) (72154, 72159)%N
 (Node (Node (Node Leaf (72161, 72161)%N
 Leaf) (72163, 72164)%N
 Leaf) (72192, 72242)%N
 (Node (Node Leaf (72245, 72254)%N
 Leaf) (72272, 72343)%N
 Leaf))) (72349, 72349)%N
 (Node (Node (Node (Node Leaf (72368, 72440)%N
 Leaf) (72704, 72712)%N
 (Node Leaf (72714, 72758)%N
 Leaf)) (72760, 72766)%N
 (Node (Node Leaf (72768, 72768)%N
 Leaf) (72784, 72812)%N
 Leaf)) (72818, 72847)%N
 (Node (Node (Node Leaf (72850, 72871)%N
 Leaf) (72873, 72886)%N
 Leaf) (72960, 72966)%N
 (Node (Node Leaf (72968, 72969)%N
 Leaf) (72971, 73014)%N
 Leaf)))) (73018, 73018)%N
 (Node (Node (Node (Node (Node Leaf (73020, 73021)%N
 Leaf) (73023, 73025)%N
 (Node Leaf (73027, 73027)%N
 Leaf)) (73030, 73031)%N
 (Node (Node Leaf (73040, 73049)%N
 Leaf) (73056, 73061)%N
 Leaf)) (73063, 73064)%N
 (Node (Node (Node Leaf (73066, 73102)%N
 Leaf) (73104, 73105)%N
 Leaf) (73107, 73110)%N
 (Node (Node Leaf (73112, 73112)%N
 Leaf) (73120, 73129)%N
 Leaf))) (73440, 73462)%N
 (Node (Node (Node (Node Leaf (73472, 73488)%N
 Leaf) (73490, 73530)%N
 Leaf) (73534, 73536)%N
 (Node (Node Leaf (73552, 73561)%N
 Leaf) (73648, 73648)%N
 Leaf)) (73664, 73684)%N
 (Node (Node (Node Leaf (73728, 74649)%N
 Leaf) (74752, 74862)%N
 Leaf) (74880, 75075)%N
 (Node (Node Leaf (77712, 77808)%N
 Leaf) (77824, 78895)%N
 Leaf))))) (78913, 78918)%N
 (Node (Node (Node (Node (Node (Node Leaf (82944, 83526)%N
 Leaf) (92160, 92728)%N
 (Node Leaf (92736, 92766)%N
 Leaf)) (92768, 92777)%N
 (Node (Node Leaf (92784, 92862)%N
 Leaf) (92864, 92873)%N
 Leaf)) (92880, 92909)%N
 (Node (Node (Node Leaf (92928, 92975)%N
 Leaf) (92992, 92995)%N
 Leaf) (93008, 93017)%N
 (Node (Node Leaf (93019, 93025)%N
 Leaf) (93027, 93047)%N
 Leaf))) (93053, 93071)%N
 (Node (Node (Node (Node Leaf (93760, 93846)%N
 Leaf) (93952, 94026)%N
 Leaf) (94031, 94087)%N
 (Node (Node Leaf (94095, 94111)%N
 Leaf) (94176, 94177)%N
 Leaf)) (94179, 94179)%N
 (Node (Node (Node Leaf (94192, 94193)%N
 Leaf) (94208, 100343)%N
 Leaf) (100352, 101589)%N
 (Node (Node Leaf (101632, 101640)%N
 Leaf) (110576, 110579)%N
 Leaf)))) (110581, 110587)%N
 (Node (Node (Node (Node (Node Leaf (110589, 110590)%N
 Leaf) (110592, 110882)%N
 (Node Leaf (110898, 110898)%N
 Leaf)) (110928, 110930)%N
 (Node (Node Leaf (110933, 110933)%N
 Leaf) (110948, 110951)%N
 Leaf)) (110960, 111355)%N
 (Node (Node (Node Leaf (113664, 113770)%N
 Leaf) (113776, 113788)%N
 Leaf) (113792, 113800)%N
 (Node (Node Leaf (113808, 113817)%N
 Leaf) (113822, 113822)%N
 Leaf))) (119488, 119507)%N
 (Node (Node (Node (Node Leaf (119520, 119539)%N
 Leaf) (119648, 119672)%N
 Leaf) (119808, 119892)%N
 (Node (Node Leaf (119894, 119964)%N
 Leaf) (119966, 119967)%N
 Leaf)) (119970, 119970)%N
 (Node (Node (Node Leaf (119973, 119974)%N
 Leaf) (119977, 119980)%N
 Leaf) (119982, 119993)%N
 (Node (Node Leaf (119995, 119995)%N
 Leaf) (119997, 120003)%N
 Leaf)))))) (120005, 120069)%N
 (Node (Node (Node (Node (Node (Node (Node Leaf (120071, 120074)%N
 Leaf) (120077, 120084)%N
 (Node Leaf (120086, 120092)%N
 Leaf)) (120094, 120121)%N
 (Node (Node Leaf (120123, 120126)%N
 Leaf) (120128, 120132)%N
 Leaf)) (120134, 120134)%N
 (Node (Node (Node Leaf (120138, 120144)%N
 Leaf) (120146, 120485)%N
 Leaf) (120488, 120512)%N
 (Node (Node Leaf (120514, 120538)%N
 Leaf) (120540, 120570)%N
 Leaf))) (120572, 120596)%N
 (Node (Node (Node (Node Leaf (120598, 120628)%N
 Leaf) (120630, 120654)%N
 (Node Leaf (120656, 120686)%N
 Leaf)) (120688, 120712)%N
 (Node (Node Leaf (120714, 120744)%N
 Leaf) (120746, 120770)%N
 Leaf)) (120772, 120779)%N
 (Node (Node (Node Leaf (120782, 120831)%N
 Leaf) (122624, 122654)%N
 Leaf) (122661, 122666)%N
 (Node (Node Leaf (122880, 122886)%N
 Leaf) (122888, 122904)%N
 Leaf)))) (122907, 122913)%N
 (Node (Node (Node (Node (Node Leaf (122915, 122916)%N
 Leaf) (122918, 122922)%N
 (Node Leaf (122928, 122989)%N
 Leaf)) (123023, 123023)%N
 (Node (Node Leaf (123136, 123180)%N
 Leaf) (123191, 123197)%N
 Leaf)) (123200, 123209)%N
 (Node (Node (Node Leaf (123214, 123214)%N
 Leaf) (123536, 123565)%N
 Leaf) (123584, 123627)%N
 (Node (Node Leaf (123632, 123641)%N
 Leaf) (124112, 124139)%N
 Leaf))) (124144, 124153)%N
 (Node (Node (Node (Node Leaf (124896, 124902)%N
 Leaf) (124904, 124907)%N
 Leaf) (124909, 124910)%N
 (Node (Node Leaf (124912, 124926)%N
 Leaf) (124928, 125124)%N
 Leaf)) (125127, 125135)%N
 (Node (Node (Node Leaf (125184, 125251)%N
 Leaf) (125255, 125255)%N
 Leaf) (125259, 125259)%N
 (Node (Node Leaf (125264, 125273)%N
 Leaf) (126065, 126123)%N
 Leaf))))) (126125, 126127)%N
 (Node (Node (Node (Node (Node (Node Leaf (126129, 126132)%N
 Leaf) (126209, 126253)%N
 (Node Leaf (126255, 126269)%N
 Leaf)) (126464, 126467)%N
 (Node (Node Leaf (126469, 126495)%N
 Leaf) (126497, 126498)%N
 Leaf)) (126500, 126500)%N
 (Node (Node (Node Leaf (126503, 126503)%N
 Leaf) (126505, 126514)%N
 Leaf) (126516, 126519)%N
 (Node (Node Leaf (126521, 126521)%N
 Leaf) (126523, 126523)%N
 Leaf))) (126530, 126530)%N
 (Node (Node (Node (Node Leaf (126535, 126535)%N
 Leaf) (126537, 126537)%N
 Leaf) (126539, 126539)%N
 (Node (Node Leaf (126541, 126543)%N
 Leaf) (126545, 126546)%N
 Leaf)) (126548, 126548)%N
 (Node (Node (Node Leaf (126551, 126551)%N
 Leaf) (126553, 126553)%N
 Leaf) (126555, 126555)%N
 (Node (Node Leaf (126557, 126557)%N
 Leaf) (126559, 126559)%N
 Leaf)))) (126561, 126562)%N
 (Node (Node (Node (Node (Node Leaf (126564, 126564)%N
 Leaf) (126567, 126570)%N
 (Node Leaf (126572, 126578)%N
 Leaf)) (126580, 126583)%N
 (Node (Node Leaf (126585, 126588)%N
 Leaf) (126590, 126590)%N
 Leaf)) (126592, 126601)%N
 (Node (Node (Node Leaf (126603, 126619)%N
 Leaf) (126625, 126627)%N
 Leaf) (126629, 126633)%N
 (Node (Node Leaf (126635, 126651)%N
 Leaf) (127232, 127244)%N
 Leaf))) (127280, 127305)%N
 (Node (Node (Node (Node Leaf (127312, 127337)%N
 Leaf) (127344, 127369)%N
 Leaf) (130032, 130041)%N
 (Node (Node Leaf (131072, 173791)%N
 Leaf) (173824, 177977)%N
 Leaf)) (177984, 178205)%N
 (Node (Node (Node Leaf (178208, 183969)%N
 Leaf) (183984, 191456)%N
 Leaf) (194560, 195101)%N
 (Node (Node Leaf (196608, 201546)%N
 Leaf) (201552, 205743)%N
 Leaf))))))))).

(** Lowercase (char::is_lowercase). *)
Definition lowercase_ranges : tree (N * N) :=
 (Node (Node (Node (Node (Node (Node (Node (Node (Node (Node Leaf (97, 122)%N
 Leaf) (170, 170)%N
 Leaf) (181, 181)%N
 (Node (Node Leaf (186, 186)%N
 Leaf) (223, 246)%N
 Leaf)) (248, 255)%N
 (Node (Node (Node Leaf (257, 257)%N
 Leaf) (259, 259)%N
 Leaf) (261, 261)%N
 (Node Leaf (263, 263)%N
 Leaf))) (265, 265)%N
 (Node (Node (Node (Node Leaf (267, 267)%N
 Leaf) (269, 269)%N
 Leaf) (271, 271)%N
 (Node Leaf (273, 273)%N
 Leaf)) (275, 275)%N
 (Node (Node (Node Leaf (277, 277)%N
 Leaf) (279, 279)%N
 Leaf) (281, 281)%N
 (Node Leaf (283, 283)%N
 Leaf)))) (285, 285)%N
 (Node (Node (Node (Node (Node Leaf (287, 287)%N
 Leaf) (289, 289)%N
 Leaf) (291, 291)%N
 (Node (Node Leaf (293, 293)%N
 Leaf) (295, 295)%N
 Leaf)) (297, 297)%N
 (Node (Node (Node Leaf (299, 299)%N
 Leaf) (301, 301)%N
 Leaf) (303, 303)%N
 (Node Leaf (305, 305)%N
 Leaf))) (307, 307)%N
 (Node (Node (Node (Node Leaf (309, 309)%N
 Leaf) (311, 312)%N
 Leaf) (314, 314)%N
 (Node Leaf (316, 316)%N
 Leaf)) (318, 318)%N
 (Node (Node (Node Leaf (320, 320)%N
 Leaf) (322, 322)%N
 Leaf) (324, 324)%N
 (Node Leaf (326, 326)%N
 Leaf))))) (328, 329)%N
 (Node (Node (Node (Node (Node (Node Leaf (331, 331)%N
 Leaf) (333, 333)%N
 Leaf) (335, 335)%N
 (Node (Node Leaf (337, 337)%N
 Leaf) (339, 339)%N
 Leaf)) (341, 341)%N
 (Node (Node (Node Leaf (343, 343)%N
 Leaf) (345, 345)%N
 Leaf) (347, 347)%N
 (Node Leaf (349, 349)%N
 Leaf))) (351, 351)%N
 (Node (Node (Node (Node Leaf (353, 353)%N
 Leaf) (355, 355)%N
 Leaf) (357, 357)%N
 (Node Leaf (359, 359)%N
 Leaf)) (361, 361)%N
 (Node (Node (Node Leaf (363, 363)%N
 Leaf) (365, 365)%N
 Leaf) (367, 367)%N
 (Node Leaf (369, 369)%N
 Leaf)))) (371, 371)%N
 (Node (Node (Node (Node (Node Leaf (373, 373)%N
 Leaf) (375, 375)%N
 Leaf) (378, 378)%N
 (Node (Node Leaf (380, 380)%N
 Leaf) (382, 384)%N
 Leaf)) (387, 387)%N
 (Node (Node (Node Leaf (389, 389)%N
 Leaf) (392, 392)%N
 Leaf) (396, 397)%N
 (Node Leaf (402, 402)%N
 Leaf))) (405, 405)%N
 (Node (Node (Node (Node Leaf (409, 411)%N
 Leaf) (414, 414)%N
 Leaf) (417, 417)%N
 (Node Leaf (419, 419)%N
 Leaf)) (421, 421)%N
 (Node (Node (Node Leaf (424, 424)%N
 Leaf) (426, 427)%N
 Leaf) (429, 429)%N
 (Node Leaf (432, 432)%N
 Leaf)))))) (436, 436)%N
 (Node (Node (Node (Node (Node (Node (Node Leaf (438, 438)%N
 Leaf) (441, 442)%N
 Leaf) (445, 447)%N
 (Node (Node Leaf (454, 454)%N
 Leaf) (457, 457)%N
 Leaf)) (460, 460)%N
 (Node (Node (Node Leaf (462, 462)%N
 Leaf) (464, 464)%N
 Leaf) (466, 466)%N
 (Node Leaf (468, 468)%N
 Leaf))) (470, 470)%N
 (Node (Node (Node (Node Leaf (472, 472)%N
 Leaf) (474, 474)%N
 Leaf) (476, 477)%N
 (Node Leaf (479, 479)%N
 Leaf)) (481, 481)%N
 (Node (Node (Node Leaf (483, 483)%N
 Leaf) (485, 485)%N
 Leaf) (487, 487)%N
 (Node Leaf (489, 489)%N
 Leaf)))) (491, 491)%N
 (Node (Node (Node (Node (Node Leaf (493, 493)%N
 Leaf) (495, 496)%N
 Leaf) (499, 499)%N
 (Node (Node Leaf (501, 501)%N
 Leaf) (505, 505)%N
 Leaf)) (507, 507)%N
 (Node (Node (Node Leaf (509, 509)%N
 Leaf) (511, 511)%N
 Leaf) (513, 513)%N
 (Node Leaf (515, 515)%N
 Leaf))) (517, 517)%N
 (Node (Node (Node (Node Leaf (519, 519)%N
 Leaf) (521, 521)%N
 Leaf) (523, 523)%N
 (Node Leaf (525, 525)%N
 Leaf)) (527, 527)%N
 (Node (Node (Node Leaf (529, 529)%N
 Leaf) (531, 531)%N
 Leaf) (533, 533)%N
 (Node Leaf (535, 535)%N
 Leaf))))) (537, 537)%N
 (Node (Node (Node (Node (Node (Node Leaf (539, 539)%N
 Leaf) (541, 541)%N
 Leaf) (543, 543)%N
 (Node (Node Leaf (545, 545)%N
 Leaf) (547, 547)%N
 Leaf)) (549, 549)%N
 (Node (Node (Node Leaf (551, 551)%N
 Leaf) (553, 553)%N
 Leaf) (555, 555)%N
 (Node Leaf (557, 557)%N
 Leaf))) (559, 559)%N
 (Node (Node (Node (Node Leaf (561, 561)%N
 Leaf) (563, 569)%N
 Leaf) (572, 572)%N
 (Node Leaf (575, 576)%N
 Leaf)) (578, 578)%N
 (Node (Node (Node Leaf (583, 583)%N
 Leaf) (585, 585)%N
 Leaf) (587, 587)%N
 (Node Leaf (589, 589)%N
 Leaf)))) (591, 659)%N
 (Node (Node (Node (Node (Node Leaf (661, 696)%N
 Leaf) (704, 705)%N
 Leaf) (736, 740)%N
 (Node (Node Leaf (837, 837)%N
 Leaf) (881, 881)%N
 Leaf)) (883, 883)%N
 (Node (Node (Node Leaf (887, 887)%N
 Leaf) (890, 893)%N
 Leaf) (912, 912)%N
 (Node Leaf (940, 974)%N
 Leaf))) (976, 977)%N
 (Node (Node (Node (Node Leaf (981, 983)%N
 Leaf) (985, 985)%N
 Leaf) (987, 987)%N
 (Node Leaf (989, 989)%N
 Leaf)) (991, 991)%N
 (Node (Node (Node Leaf (993, 993)%N
 Leaf) (995, 995)%N
 Leaf) (997, 997)%N
 (Node Leaf (999, 999)%N
 Leaf))))))) (1001, 1001)%N
 (Node (Node (Node (Node (Node (Node (Node (Node Leaf (1003, 1003)%N
 Leaf) (1005, 1005)%N
 Leaf) (1007, 1011)%N
 (Node (Node Leaf (1013, 1013)%N
 Leaf) (1016, 1016)%N
 Leaf)) (1019, 1020)%N
 (Node (Node (Node Leaf (1072, 1119)%N
 Leaf) (1121, 1121)%N
 Leaf) (1123, 1123)%N
 (Node Leaf (1125, 1125)%N
 Leaf))) (1127, 1127)%N
 (Node (Node (Node (Node Leaf (1129, 1129)%N
 Leaf) (1131, 1131)%N
 Leaf) (1133, 1133)%N
 (Node Leaf (1135, 1135)%N
 Leaf)) (1137, 1137)%N
 (Node (Node (Node Leaf (1139, 1139)%N
 Leaf) (1141, 1141)%N
 Leaf) (1143, 1143)%N
 (Node Leaf (1145, 1145)%N
 Leaf)))) (1147, 1147)%N
 (Node (Node (Node (Node (Node Leaf (1149, 1149)%N
 Leaf) (1151, 1151)%N
 Leaf) (1153, 1153)%N
 (Node (Node Leaf (1163, 1163)%N
 Leaf) (1165, 1165)%N
 Leaf)) (1167, 1167)%N
 (Node (Node (Node Leaf (1169, 1169)%N
 Leaf) (1171, 1171)%N
 Leaf) (1173, 1173)%N
 (Node Leaf (1175, 1175)%N
 Leaf))) (1177, 1177)%N
 (Node (Node (Node (Node Leaf (1179, 1179)%N
 Leaf) (1181, 1181)%N
 Leaf) (1183, 1183)%N
 (Node Leaf (1185, 1185)%N
 Leaf)) (1187, 1187)%N
 (Node (Node (Node Leaf (1189, 1189)%N
 Leaf) (1191, 1191)%N
 Leaf) (1193, 1193)%N
 (Node Leaf (1195, 1195)%N
 Leaf))))) (1197, 1197)%N
 (Node (Node (Node (Node (Node (Node Leaf (1199, 1199)%N
 Leaf) (1201, 1201)%N
 Leaf) (1203, 1203)%N
 (Node (Node Leaf (1205, 1205)%N
 Leaf) (1207, 1207)%N
 Leaf)) (1209, 1209)%N
 (Node (Node (Node Leaf (1211, 1211)%N
 Leaf) (1213, 1213)%N
 Leaf) (1215, 1215)%N
 (Node Leaf (1218, 1218)%N
 Leaf))) (1220, 1220)%N
 (Node (Node (Node (Node Leaf (1222, 1222)%N
 Leaf) (1224, 1224)%N
 Leaf) (1226, 1226)%N
 (Node Leaf (1228, 1228)%N
 Leaf)) (1230, 1231)%N
 (Node (Node (Node Leaf (1233, 1233)%N
 Leaf) (1235, 1235)%N
 Leaf) (1237, 1237)%N
 (Node Leaf (1239, 1239)%N
 Leaf)))) (1241, 1241)%N
 (Node (Node (Node (Node (Node Leaf (1243, 1243)%N
 Leaf) (1245, 1245)%N
 Leaf) (1247, 1247)%N
 (Node (Node Leaf (1249, 1249)%N
 Leaf) (1251, 1251)%N
 Leaf)) (1253, 1253)%N
 (Node (Node (Node Leaf (1255, 1255)%N
 Leaf) (1257, 1257)%N
 Leaf) (1259, 1259)%N
 (Node Leaf (1261, 1261)%N
 Leaf))) (1263, 1263)%N
 (Node (Node (Node (Node Leaf (1265, 1265)%N
 Leaf) (1267, 1267)%N
 Leaf) (1269, 1269)%N
 (Node Leaf (1271, 1271)%N
 Leaf)) (1273, 1273)%N
 (Node (Node (Node Leaf (1275, 1275)%N
 Leaf) (1277, 1277)%N
 Leaf) (1279, 1279)%N
 (Node Leaf (1281, 1281)%N
 Leaf)))))) (1283, 1283)%N
 (Node (Node (Node (Node (Node (Node (Node Leaf (1285, 1285)%N
 Leaf) (1287, 1287)%N
 Leaf) (1289, 1289)%N
 (Node (Node Leaf (1291, 1291)%N
 Leaf) (1293, 1293)%N
 Leaf)) (1295, 1295)%N
 (Node (Node (Node Leaf (1297, 1297)%N
 Leaf) (1299, 1299)%N
 Leaf) (1301, 1301)%N
 (Node Leaf (1303, 1303)%N
 Leaf))) (1305, 1305)%N
 (Node (Node (Node (Node Leaf (1307, 1307)%N
 Leaf) (1309, 1309)%N
 Leaf) (1311, 1311)%N
 (Node Leaf (1313, 1313)%N
 Leaf)) (1315, 1315)%N
 (Node (Node (Node Leaf (1317, 1317)%N
 Leaf) (1319, 1319)%N
 Leaf) (1321, 1321)%N
 (Node Leaf (1323, 1323)%N
 Leaf)))) (1325, 1325)%N
 (Node (Node (Node (Node (Node Leaf (1327, 1327)%N
 Leaf) (1376, 1416)%N
 Leaf) (4304, 4346)%N
 (Node (Node Leaf (4348, 4351)%N
 Leaf) (5112, 5117)%N
 Leaf)) (7296, 7304)%N
 (Node (Node (Node Leaf (7424, 7615)%N
 Leaf) (7681, 7681)%N
 Leaf) (7683, 7683)%N
 (Node Leaf (7685, 7685)%N
 Leaf))) (7687, 7687)%N
 (Node (Node (Node (Node Leaf (7689, 7689)%N
 Leaf) (7691, 7691)%N
 Leaf) (7693, 7693)%N
 (Node Leaf (7695, 7695)%N
 Leaf)) (7697, 7697)%N
 (Node (Node (Node Leaf (7699, 7699)%N
 Leaf) (7701, 7701)%N
 Leaf) (7703, 7703)%N
 (Node Leaf (7705, 7705)%N
 Leaf))))) (7707, 7707)%N
 (Node (Node (Node (Node (Node (Node Leaf (7709, 7709)%N
 Leaf) (7711, 7711)%N
 Leaf) (7713, 7713)%N
 (Node (Node Leaf (7715, 7715)%N
 Leaf) (7717, 7717)%N
 Leaf)) (7719, 7719)%N
 (Node (Node (Node Leaf (7721, 7721)%N
 Leaf) (7723, 7723)%N
 Leaf) (7725, 7725)%N
 (Node Leaf (7727, 7727)%N
 Leaf))) (7729, 7729)%N
 (Node (Node (Node (Node Leaf (7731, 7731)%N
 Leaf) (7733, 7733)%N
 Leaf) (7735, 7735)%N
 (Node Leaf (7737, 7737)%N
 Leaf)) (7739, 7739)%N
 (Node (Node (Node Leaf (7741, 7741)%N
 Leaf) (7743, 7743)%N
 Leaf) (7745, 7745)%N
 (Node Leaf (7747, 7747)%N
 Leaf)))) (7749, 7749)%N
 (Node (Node (Node (Node (Node Leaf (7751, 7751)%N
 Leaf) (7753, 7753)%N
 Leaf) (7755, 7755)%N
 (Node (Node Leaf (7757, 7757)%N
 Leaf) (7759, 7759)%N
 Leaf)) (7761, 7761)%N
 (Node (Node (Node Leaf (7763, 7763)%N
 Leaf) (7765, 7765)%N
 Leaf) (7767, 7767)%N
 (Node Leaf (7769, 7769)%N
 Leaf))) (7771, 7771)%N
 (Node (Node (Node (Node Leaf (7773, 7773)%N
 Leaf) (7775, 7775)%N
 Leaf) (7777, 7777)%N
 (Node Leaf (7779, 7779)%N
 Leaf)) (7781, 7781)%N
 (Node (Node (Node Leaf (7783, 7783)%N
 Leaf) (7785, 7785)%N
 Leaf) (7787, 7787)%N
 (Node Leaf (7789, 7789)%N
 Leaf)))))))) (7791, 7791)%N
 (Node (Node (Node (Node (Node (Node (Node (Node (Node Leaf (7793, 7793)%N
 Leaf) (7795, 7795)%N
 Leaf) (7797, 7797)%N
 (Node (Node Leaf (7799, 7799)%N
 Leaf) (7801, 7801)%N
 Leaf)) (7803, 7803)%N
 (Node (Node (Node Leaf (7805, 7805)%N
 Leaf) (7807, 7807)%N
 Leaf) (7809, 7809)%N
 (Node Leaf (7811, 7811)%N
 Leaf))) (7813, 7813)%N
 (Node (Node (Node (Node Leaf (7815, 7815)%N
 Leaf) (7817, 7817)%N
 Leaf) (7819, 7819)%N
 (Node Leaf (7821, 7821)%N
 Leaf)) (7823, 7823)%N
 (Node (Node (Node Leaf (7825, 7825)%N
 Leaf) (7827, 7827)%N
 Leaf) (7829, 7837)%N
 (Node Leaf (7839, 7839)%N
 Leaf)))) (7841, 7841)%N
 (Node (Node (Node (Node (Node Leaf (7843, 7843)%N
 Leaf) (7845, 7845)%N
 Leaf) (7847, 7847)%N
 (Node (Node Leaf (7849, 7849)%N
 Leaf) (7851, 7851)%N
 Leaf)) (7853, 7853)%N
 (Node (Node (Node Leaf (7855, 7855)%N
 Leaf) (7857, 7857)%N
 Leaf) (7859, 7859)%N
 (Node Leaf (7861, 7861)%N
 Leaf))) (7863, 7863)%N
 (Node (Node (Node (Node Leaf (7865, 7865)%N
 Leaf) (7867, 7867)%N
 Leaf) (7869, 7869)%N
 (Node Leaf (7871, 7871)%N
 Leaf)) (7873, 7873)%N
 (Node (Node (Node Leaf (7875, 7875)%N
 Leaf) (7877, 7877)%N
 Leaf) (7879, 7879)%N
 (Node Leaf (7881, 7881)%N
 Leaf))))) (7883, 7883)%N
 (Node (Node (Node (Node (Node (Node Leaf (7885, 7885)%N
 Leaf) (7887, 7887)%N
 Leaf) (7889, 7889)%N
 (Node (Node Leaf (7891, 7891)%N
 Leaf) (7893, 7893)%N
 Leaf)) (7895, 7895)%N
 (Node (Node (Node Leaf (7897, 7897)%N
 Leaf) (7899, 7899)%N
 Leaf) (7901, 7901)%N
 (Node Leaf (7903, 7903)%N
 Leaf))) (7905, 7905)%N
 (Node (Node (Node (Node Leaf (7907, 7907)%N
 Leaf) (7909, 7909)%N
 Leaf) (7911, 7911)%N
 (Node Leaf (7913, 7913)%N
 Leaf)) (7915, 7915)%N
 (Node (Node (Node Leaf (7917, 7917)%N
 Leaf) (7919, 7919)%N
 Leaf) (7921, 7921)%N
 (Node Leaf (7923, 7923)%N
 Leaf)))) (7925, 7925)%N
 (Node (Node (Node (Node (Node Leaf (7927, 7927)%N
 Leaf) (7929, 7929)%N
 Leaf) (7931, 7931)%N
 (Node (Node Leaf (7933, 7933)%N
 Leaf) (7935, 7943)%N
 Leaf)) (7952, 7957)%N
 (Node (Node (Node Leaf (7968, 7975)%N
 Leaf) (7984, 7991)%N
 Leaf) (8000, 8005)%N
 (Node Leaf (8016, 8023)%N
 Leaf))) (8032, 8039)%N
 (Node (Node (Node (Node Leaf (8048, 8061)%N
 Leaf) (8064, 8071)%N
 Leaf) (8080, 8087)%N
 (Node Leaf (8096, 8103)%N
 Leaf)) (8112, 8116)%N
 (Node (Node (Node Leaf (8118, 8119)%N
 Leaf) (8126, 8126)%N
 Leaf) (8130, 8132)%N
 (Node Leaf (8134, 8135)%N
 Leaf)))))) (8144, 8147)%N
 (Node (Node (Node (Node (Node (Node (Node Leaf (8150, 8151)%N
 Leaf) (8160, 8167)%N
 Leaf) (8178, 8180)%N
 (Node (Node Leaf (8182, 8183)%N
 Leaf) (8305, 8305)%N
 Leaf)) (8319, 8319)%N
 (Node (Node (Node Leaf (8336, 8348)%N
 Leaf) (8458, 8458)%N
 Leaf) (8462, 8463)%N
 (Node Leaf (8467, 8467)%N
 Leaf))) (8495, 8495)%N
 (Node (Node (Node (Node Leaf (8500, 8500)%N
 Leaf) (8505, 8505)%N
 Leaf) (8508, 8509)%N
 (Node Leaf (8518, 8521)%N
 Leaf)) (8526, 8526)%N
 (Node (Node (Node Leaf (8560, 8575)%N
 Leaf) (8580, 8580)%N
 Leaf) (9424, 9449)%N
 (Node Leaf (11312, 11359)%N
 Leaf)))) (11361, 11361)%N
 (Node (Node (Node (Node (Node Leaf (11365, 11366)%N
 Leaf) (11368, 11368)%N
 Leaf) (11370, 11370)%N
 (Node (Node Leaf (11372, 11372)%N
 Leaf) (11377, 11377)%N
 Leaf)) (11379, 11380)%N
 (Node (Node (Node Leaf (11382, 11389)%N
 Leaf) (11393, 11393)%N
 Leaf) (11395, 11395)%N
 (Node Leaf (11397, 11397)%N
 Leaf))) (11399, 11399)%N
 (Node (Node (Node (Node Leaf (11401, 11401)%N
 Leaf) (11403, 11403)%N
 Leaf) (11405, 11405)%N
 (Node Leaf (11407, 11407)%N
 Leaf)) (11409, 11409)%N
 (Node (Node (Node Leaf (11411, 11411)%N
 Leaf) (11413, 11413)%N
 Leaf) (11415, 11415)%N
 (Node Leaf (11417, 11417)%N
 Leaf))))) (11419, 11419)%N
 (Node (Node (Node (Node (Node (Node Leaf (11421, 11421)%N
 Leaf) (11423, 11423)%N
 Leaf) (11425, 11425)%N
 (Node (Node Leaf (11427, 11427)%N
 Leaf) (11429, 11429)%N
 Leaf)) (11431, 11431)%N
 (Node (Node (Node Leaf (11433, 11433)%N
 Leaf) (11435, 11435)%N
 Leaf) (11437, 11437)%N
 (Node Leaf (11439, 11439)%N
 Leaf))) (11441, 11441)%N
 (Node (Node (Node (Node Leaf (11443, 11443)%N
 Leaf) (11445, 11445)%N
 Leaf) (11447, 11447)%N
 (Node Leaf (11449, 11449)%N
 Leaf)) (11451, 11451)%N
 (Node (Node (Node Leaf (11453, 11453)%N
 Leaf) (11455, 11455)%N
 Leaf) (11457, 11457)%N
 (Node Leaf (11459, 11459)%N
 Leaf)))) (11461, 11461)%N
 (Node (Node (Node (Node (Node Leaf (11463, 11463)%N
 Leaf) (11465, 11465)%N
 Leaf) (11467, 11467)%N
 (Node (Node Leaf (11469, 11469)%N
 Leaf) (11471, 11471)%N
 Leaf)) (11473, 11473)%N
 (Node (Node (Node Leaf (11475, 11475)%N
 Leaf) (11477, 11477)%N
 Leaf) (11479, 11479)%N
 (Node Leaf (11481, 11481)%N
 Leaf))) (11483, 11483)%N
 (Node (Node (Node (Node Leaf (11485, 11485)%N
 Leaf) (11487, 11487)%N
 Leaf) (11489, 11489)%N
 (Node Leaf (11491, 11492)%N
 Leaf)) (11500, 11500)%N
 (Node (Node (Node Leaf (11502, 11502)%N
 Leaf) (11507, 11507)%N
 Leaf) (11520, 11557)%N
 (Node Leaf (11559, 11559)%N
 Leaf))))))) (11565, 11565)%N
 (Node (Node (Node (Node (Node (Node (Node (Node Leaf (42561, 42561)%N
 Leaf) (42563, 42563)%N
 Leaf) (42565, 42565)%N
 (Node (Node Leaf (42567, 42567)%N
 Leaf) (42569, 42569)%N
 Leaf)) (42571, 42571)%N
 (Node (Node (Node Leaf (42573, 42573)%N
 Leaf) (42575, 42575)%N
 Leaf) (42577, 42577)%N
 (Node Leaf (42579, 42579)%N
 Leaf))) (42581, 42581)%N
 (Node (Node (Node (Node Leaf (42583, 42583)%N
 Leaf) (42585, 42585)%N
 Leaf) (42587, 42587)%N
 (Node Leaf (42589, 42589)%N
 Leaf)) (42591, 42591)%N
 (Node (Node (Node Leaf (42593, 42593)%N
 Leaf) (42595, 42595)%N
 Leaf) (42597, 42597)%N
 (Node Leaf (42599, 42599)%N
 Leaf)))) (42601, 42601)%N
 (Node (Node (Node (Node (Node Leaf (42603, 42603)%N
 Leaf) (42605, 42605)%N
 Leaf) (42625, 42625)%N
 (Node (Node Leaf (42627, 42627)%N
 Leaf) (42629, 42629)%N
 Leaf)) (42631, 42631)%N
 (Node (Node (Node Leaf (42633, 42633)%N
 Leaf) (42635, 42635)%N
 Leaf) (42637, 42637)%N
 (Node Leaf (42639, 42639)%N
 Leaf))) (42641, 42641)%N
 (Node (Node (Node (Node Leaf (42643, 42643)%N
 Leaf) (42645, 42645)%N
 Leaf) (42647, 42647)%N
 (Node Leaf (42649, 42649)%N
 Leaf)) (42651, 42653)%N
 (Node (Node (Node Leaf (42787, 42787)%N
 Leaf) (42789, 42789)%N
 Leaf) (42791, 42791)%N
 (Node Leaf (42793, 42793)%N
 Leaf))))) (42795, 42795)%N
 (Node (Node (Node (Node (Node (Node Leaf (42797, 42797)%N
 Leaf) (42799, 42801)%N
 Leaf) (42803, 42803)%N
 (Node (Node Leaf (42805, 42805)%N
 Leaf) (42807, 42807)%N
 Leaf)) (42809, 42809)%N
 (Node (Node (Node Leaf (42811, 42811)%N
 Leaf) (42813, 42813)%N
 Leaf) (42815, 42815)%N
 (Node Leaf (42817, 42817)%N
 Leaf))) (42819, 42819)%N
 (Node (Node (Node (Node Leaf (42821, 42821)%N
 Leaf) (42823, 42823)%N
 Leaf) (42825, 42825)%N
 (Node Leaf (42827, 42827)%N
 Leaf)) (42829, 42829)%N
 (Node (Node (Node Leaf (42831, 42831)%N
 Leaf) (42833, 42833)%N
 Leaf) (42835, 42835)%N
 (Node Leaf (42837, 42837)%N
 Leaf)))) (42839, 42839)%N
 (Node (Node (Node (Node (Node Leaf (42841, 42841)%N
 Leaf) (42843, 42843)%N
 Leaf) (42845, 42845)%N
 (Node (Node Leaf (42847, 42847)%N
 Leaf) (42849, 42849)%N
 Leaf)) (42851, 42851)%N
 (Node (Node (Node Leaf (42853, 42853)%N
 Leaf) (42855, 42855)%N
 Leaf) (42857, 42857)%N
 (Node Leaf (42859, 42859)%N
 Leaf))) (42861, 42861)%N
 (Node (Node (Node (Node Leaf (42863, 42872)%N
 Leaf) (42874, 42874)%N
 Leaf) (42876, 42876)%N
 (Node Leaf (42879, 42879)%N
 Leaf)) (42881, 42881)%N
 (Node (Node (Node Leaf (42883, 42883)%N
 Leaf) (42885, 42885)%N
 Leaf) (42887, 42887)%N
 (Node Leaf (42892, 42892)%N
 Leaf)))))) (42894, 42894)%N
 (Node (Node (Node (Node (Node (Node (Node Leaf (42897, 42897)%N
 Leaf) (42899, 42901)%N
 Leaf) (42903, 42903)%N
 (Node (Node Leaf (42905, 42905)%N
 Leaf) (42907, 42907)%N
 Leaf)) (42909, 42909)%N
 (Node (Node (Node Leaf (42911, 42911)%N
 Leaf) (42913, 42913)%N
 Leaf) (42915, 42915)%N
 (Node Leaf (42917, 42917)%N
 Leaf))) (42919, 42919)%N
 (Node (Node (Node (Node Leaf (42921, 42921)%N
 Leaf) (42927, 42927)%N
 Leaf) (42933, 42933)%N
 (Node Leaf (42935, 42935)%N
 Leaf)) (42937, 42937)%N
 (Node (Node (Node Leaf (42939, 42939)%N
 Leaf) (42941, 42941)%N
 Leaf) (42943, 42943)%N
 (Node Leaf (42945, 42945)%N
 Leaf)))) (42947, 42947)%N
 (Node (Node (Node (Node (Node Leaf (42952, 42952)%N
 Leaf) (42954, 42954)%N
 Leaf) (42961, 42961)%N
 (Node (Node Leaf (42963, 42963)%N
 Leaf) (42965, 42965)%N
 Leaf)) (42967, 42967)%N
 (Node (Node (Node Leaf (42969, 42969)%N
 Leaf) (42994, 42996)%N
 Leaf) (42998, 42998)%N
 (Node Leaf (43000, 43002)%N
 Leaf))) (43824, 43866)%N
 (Node (Node (Node (Node Leaf (43868, 43881)%N
 Leaf) (43888, 43967)%N
 Leaf) (64256, 64262)%N
 (Node Leaf (64275, 64279)%N
 Leaf)) (65345, 65370)%N
 (Node (Node (Node Leaf (66600, 66639)%N
 Leaf) (66776, 66811)%N
 Leaf) (66967, 66977)%N
 (Node Leaf (66979, 66993)%N
 Leaf))))) (66995, 67001)%N
 (Node (Node (Node (Node (Node (Node Leaf (67003, 67004)%N
 Leaf) (67456, 67456)%N
 Leaf) (67459, 67461)%N
 (Node (Node Leaf (67463, 67504)%N
 Leaf) (67506, 67514)%N
 Leaf)) (68800, 68850)%N
 (Node (Node (Node Leaf (71872, 71903)%N
 Leaf) (93792, 93823)%N
 Leaf) (119834, 119859)%N
 (Node Leaf (119886, 119892)%N
 Leaf))) (119894, 119911)%N
 (Node (Node (Node (Node Leaf (119938, 119963)%N
 Leaf) (119990, 119993)%N
 Leaf) (119995, 119995)%N
 (Node Leaf (119997, 120003)%N
 Leaf)) (120005, 120015)%N
 (Node (Node (Node Leaf (120042, 120067)%N
 Leaf) (120094, 120119)%N
 Leaf) (120146, 120171)%N
 (Node Leaf (120198, 120223)%N
 Leaf)))) (120250, 120275)%N
 (Node (Node (Node (Node (Node Leaf (120302, 120327)%N
 Leaf) (120354, 120379)%N
 Leaf) (120406, 120431)%N
 (Node (Node Leaf (120458, 120485)%N
 Leaf) (120514, 120538)%N
 Leaf)) (120540, 120545)%N
 (Node (Node (Node Leaf (120572, 120596)%N
 Leaf) (120598, 120603)%N
 Leaf) (120630, 120654)%N
 (Node Leaf (120656, 120661)%N
 Leaf))) (120688, 120712)%N
 (Node (Node (Node (Node Leaf (120714, 120719)%N
 Leaf) (120746, 120770)%N
 Leaf) (120772, 120777)%N
 (Node Leaf (120779, 120779)%N
 Leaf)) (122624, 122633)%N
 (Node (Node (Node Leaf (122635, 122654)%N
 Leaf) (122661, 122666)%N
 Leaf) (122928, 122989)%N
 (Node Leaf (125218, 125251)%N
 Leaf))))))))).

(** Uppercase (char::is_uppercase). *)
Definition uppercase_ranges : tree (N * N) :=
 (Node (Node (Node (Node (Node (Node (Node (Node (Node (Node Leaf (65, 90)%N
 Leaf) (192, 214)%N
 Leaf) (216, 222)%N
 (Node (Node Leaf (256, 256)%N
 Leaf) (258, 258)%N
 Leaf)) (260, 260)%N
 (Node (Node (Node Leaf (262, 262)%N
 Leaf) (264, 264)%N
 Leaf) (266, 266)%N
 (Node Leaf (268, 268)%N
 Leaf))) (270, 270)%N
 (Node (Node (Node (Node Leaf (272, 272)%N
 Leaf) (274, 274)%N
 Leaf) (276, 276)%N
 (Node Leaf (278, 278)%N
 Leaf)) (280, 280)%N
 (Node (Node (Node Leaf (282, 282)%N
 Leaf) (284, 284)%N
 Leaf) (286, 286)%N
 (Node Leaf (288, 288)%N
 Leaf)))) (290, 290)%N
 (Node (Node (Node (Node (Node Leaf (292, 292)%N
 Leaf) (294, 294)%N
 Leaf) (296, 296)%N
 (Node Leaf (298, 298)%N
 Leaf)) (300, 300)%N
 (Node (Node (Node Leaf (302, 302)%N
 Leaf) (304, 304)%N
 Leaf) (306, 306)%N
 (Node Leaf (308, 308)%N
 Leaf))) (310, 310)%N
 (Node (Node (Node (Node Leaf (313, 313)%N
 Leaf) (315, 315)%N
 Leaf) (317, 317)%N
 (Node Leaf (319, 319)%N
 Leaf)) (321, 321)%N
 (Node (Node (Node Leaf (323, 323)%N
 Leaf) (325, 325)%N
 Leaf) (327, 327)%N
 (Node Leaf (330, 330)%N
 Leaf))))) (332, 332)%N
 (Node (Node (Node (Node (Node (Node Leaf (334, 334)%N
 Leaf) (336, 336)%N
 Leaf) (338, 338)%N
 (Node (Node Leaf (340, 340)%N
 Leaf) (342, 342)%N
 Leaf)) (344, 344)%N
 (Node (Node (Node Leaf (346, 346)%N
 Leaf) (348, 348)%N
 Leaf) (350, 350)%N
 (Node Leaf (352, 352)%N
 Leaf))) (354, 354)%N
 (Node (Node (Node (Node Leaf (356, 356)%N
 Leaf) (358, 358)%N
 Leaf) (360, 360)%N
 (Node Leaf (362, 362)%N
 Leaf)) (364, 364)%N
 (Node (Node (Node Leaf (366, 366)%N
 Leaf) (368, 368)%N
 Leaf) (370, 370)%N
 (Node Leaf (372, 372)%N
 Leaf)))) (374, 374)%N
 (Node (Node (Node (Node (Node Leaf (376, 377)%N
 Leaf) (379, 379)%N
 Leaf) (381, 381)%N
 (Node Leaf (385, 386)%N
 Leaf)) (388, 388)%N
 (Node (Node (Node Leaf (390, 391)%N
 Leaf) (393, 395)%N
 Leaf) (398, 401)%N
 (Node Leaf (403, 404)%N
 Leaf))) (406, 408)%N
 (Node (Node (Node (Node Leaf (412, 413)%N
 Leaf) (415, 416)%N
 Leaf) (418, 418)%N
 (Node Leaf (420, 420)%N
 Leaf)) (422, 423)%N
 (Node (Node (Node Leaf (425, 425)%N
 Leaf) (428, 428)%N
 Leaf) (430, 431)%N
 (Node Leaf (433, 435)%N
 Leaf)))))) (437, 437)%N
 (Node (Node (Node (Node (Node (Node (Node Leaf (439, 440)%N
 Leaf) (444, 444)%N
 Leaf) (452, 452)%N
 (Node (Node Leaf (455, 455)%N
 Leaf) (458, 458)%N
 Leaf)) (461, 461)%N
 (Node (Node (Node Leaf (463, 463)%N
 Leaf) (465, 465)%N
 Leaf) (467, 467)%N
 (Node Leaf (469, 469)%N
 Leaf))) (471, 471)%N
 (Node (Node (Node (Node Leaf (473, 473)%N
 Leaf) (475, 475)%N
 Leaf) (478, 478)%N
 (Node Leaf (480, 480)%N
 Leaf)) (482, 482)%N
 (Node (Node (Node Leaf (484, 484)%N
 Leaf) (486, 486)%N
 Leaf) (488, 488)%N
 (Node Leaf (490, 490)%N
 Leaf)))) (492, 492)%N
 (Node (Node (Node (Node (Node Leaf (494, 494)%N
 Leaf) (497, 497)%N
 Leaf) (500, 500)%N
 (Node Leaf (502, 504)%N
 Leaf)) (506, 506)%N
 (Node (Node (Node Leaf (508, 508)%N
 Leaf) (510, 510)%N
 Leaf) (512, 512)%N
 (Node Leaf (514, 514)%N
 Leaf))) (516, 516)%N
 (Node (Node (Node (Node Leaf (518, 518)%N
 Leaf) (520, 520)%N
 Leaf) (522, 522)%N
 (Node Leaf (524, 524)%N
 Leaf)) (526, 526)%N
 (Node (Node (Node Leaf (528, 528)%N
 Leaf) (530, 530)%N
 Leaf) (532, 532)%N
 (Node Leaf (534, 534)%N
 Leaf))))) (536, 536)%N
 (Node (Node (Node (Node (Node (Node Leaf (538, 538)%N
 Leaf) (540, 540)%N
 Leaf) (542, 542)%N
 (Node Leaf (544, 544)%N
 Leaf)) (546, 546)%N
 (Node (Node (Node Leaf (548, 548)%N
 Leaf) (550, 550)%N
 Leaf) (552, 552)%N
 (Node Leaf (554, 554)%N
 Leaf))) (556, 556)%N
 (Node (Node (Node (Node Leaf (558, 558)%N
 Leaf) (560, 560)%N
 Leaf) (562, 562)%N
 (Node Leaf (570, 571)%N
 Leaf)) (573, 574)%N
 (Node (Node (Node Leaf (577, 577)%N
 Leaf) (579, 582)%N
 Leaf) (584, 584)%N
 (Node Leaf (586, 586)%N
 Leaf)))) (588, 588)%N
 (Node (Node (Node (Node (Node Leaf (590, 590)%N
 Leaf) (880, 880)%N
 Leaf) (882, 882)%N
 (Node Leaf (886, 886)%N
 Leaf)) (895, 895)%N
 (Node (Node (Node Leaf (902, 902)%N
 Leaf) (904, 906)%N
 Leaf) (908, 908)%N
 (Node Leaf (910, 911)%N
 Leaf))) (913, 929)%N
 (Node (Node (Node (Node Leaf (931, 939)%N
 Leaf) (975, 975)%N
 Leaf) (978, 980)%N
 (Node Leaf (984, 984)%N
 Leaf)) (986, 986)%N
 (Node (Node (Node Leaf (988, 988)%N
 Leaf) (990, 990)%N
 Leaf) (992, 992)%N
 (Node Leaf (994, 994)%N
 Leaf))))))) (996, 996)%N
 (Node (Node (Node (Node (Node (Node (Node (Node Leaf (998, 998)%N
 Leaf) (1000, 1000)%N
 Leaf) (1002, 1002)%N
 (Node (Node Leaf (1004, 1004)%N
 Leaf) (1006, 1006)%N
 Leaf)) (1012, 1012)%N
 (Node (Node (Node Leaf (1015, 1015)%N
 Leaf) (1017, 1018)%N
 Leaf) (1021, 1071)%N
 (Node Leaf (1120, 1120)%N
 Leaf))) (1122, 1122)%N
 (Node (Node (Node (Node Leaf (1124, 1124)%N
 Leaf) (1126, 1126)%N
 Leaf) (1128, 1128)%N
 (Node Leaf (1130, 1130)%N
 Leaf)) (1132, 1132)%N
 (Node (Node (Node Leaf (1134, 1134)%N
 Leaf) (1136, 1136)%N
 Leaf) (1138, 1138)%N
 (Node Leaf (1140, 1140)%N
 Leaf)))) (1142, 1142)%N
 (Node (Node (Node (Node (Node Leaf (1144, 1144)%N
 Leaf) (1146, 1146)%N
 Leaf) (1148, 1148)%N
 (Node Leaf (1150, 1150)%N
 Leaf)) (1152, 1152)%N
 (Node (Node (Node Leaf (1162, 1162)%N
 Leaf) (1164, 1164)%N
 Leaf) (1166, 1166)%N
 (Node Leaf (1168, 1168)%N
 Leaf))) (1170, 1170)%N
 (Node (Node (Node (Node Leaf (1172, 1172)%N
 Leaf) (1174, 1174)%N
 Leaf) (1176, 1176)%N
 (Node Leaf (1178, 1178)%N
 Leaf)) (1180, 1180)%N
 (Node (Node (Node Leaf (1182, 1182)%N
 Leaf) (1184, 1184)%N
 Leaf) (1186, 1186)%N
 (Node Leaf (1188, 1188)%N
 Leaf))))) (1190, 1190)%N
 (Node (Node (Node (Node (Node (Node Leaf (1192, 1192)%N
 Leaf) (1194, 1194)%N
 Leaf) (1196, 1196)%N
 (Node (Node Leaf (1198, 1198)%N
 Leaf) (1200, 1200)%N
 Leaf)) (1202, 1202)%N
 (Node (Node (Node Leaf (1204, 1204)%N
 Leaf) (1206, 1206)%N
 Leaf) (1208, 1208)%N
 (Node Leaf (1210, 1210)%N
 Leaf))) (1212, 1212)%N
 (Node (Node (Node (Node Leaf (1214, 1214)%N
 Leaf) (1216, 1217)%N
 Leaf) (1219, 1219)%N
 (Node Leaf (1221, 1221)%N
 Leaf)) (1223, 1223)%N
 (Node (Node (Node Leaf (1225, 1225)%N
 Leaf) (1227, 1227)%N
 Leaf) (1229, 1229)%N
 (Node Leaf (1232, 1232)%N
 Leaf)))) (1234, 1234)%N
 (Node (Node (Node (Node (Node Leaf (1236, 1236)%N
 Leaf) (1238, 1238)%N
 Leaf) (1240, 1240)%N
 (Node Leaf (1242, 1242)%N
 Leaf)) (1244, 1244)%N
 (Node (Node (Node Leaf (1246, 1246)%N
 Leaf) (1248, 1248)%N
 Leaf) (1250, 1250)%N
 (Node Leaf (1252, 1252)%N
 Leaf))) (1254, 1254)%N
 (Node (Node (Node (Node Leaf (1256, 1256)%N
 Leaf) (1258, 1258)%N
 Leaf) (1260, 1260)%N
 (Node Leaf (1262, 1262)%N
 Leaf)) (1264, 1264)%N
 (Node (Node (Node Leaf (1266, 1266)%N
 Leaf) (1268, 1268)%N
 Leaf) (1270, 1270)%N
 (Node Leaf (1272, 1272)%N
 Leaf)))))) (1274, 1274)%N
 (Node (Node (Node (Node (Node (Node (Node Leaf (1276, 1276)%N
 Leaf) (1278, 1278)%N
 Leaf) (1280, 1280)%N
 (Node (Node Leaf (1282, 1282)%N
 Leaf) (1284, 1284)%N
 Leaf)) (1286, 1286)%N
 (Node (Node (Node Leaf (1288, 1288)%N
 Leaf) (1290, 1290)%N
 Leaf) (1292, 1292)%N
 (Node Leaf (1294, 1294)%N
 Leaf))) (1296, 1296)%N
 (Node (Node (Node (Node Leaf (1298, 1298)%N
 Leaf) (1300, 1300)%N
 Leaf) (1302, 1302)%N
 (Node Leaf (1304, 1304)%N
 Leaf)) (1306, 1306)%N
 (Node (Node (Node Leaf (1308, 1308)%N
 Leaf) (1310, 1310)%N
 Leaf) (1312, 1312)%N
 (Node Leaf (1314, 1314)%N
 Leaf)))) (1316, 1316)%N
 (Node (Node (Node (Node (Node Leaf (1318, 1318)%N
 Leaf) (1320, 1320)%N
 Leaf) (1322, 1322)%N
 (Node Leaf (1324, 1324)%N
 Leaf)) (1326, 1326)%N
 (Node (Node (Node Leaf (1329, 1366)%N
 Leaf) (4256, 4293)%N
 Leaf) (4295, 4295)%N
 (Node Leaf (4301, 4301)%N
 Leaf))) (5024, 5109)%N
 (Node (Node (Node (Node Leaf (7312, 7354)%N
 Leaf) (7357, 7359)%N
 Leaf) (7680, 7680)%N
 (Node Leaf (7682, 7682)%N
 Leaf)) (7684, 7684)%N
 (Node (Node (Node Leaf (7686, 7686)%N
 Leaf) (7688, 7688)%N
 Leaf) (7690, 7690)%N
 (Node Leaf (7692, 7692)%N
 Leaf))))) (7694, 7694)%N
 (Node (Node (Node (Node (Node (Node Leaf (7696, 7696)%N
 Leaf) (7698, 7698)%N
 Leaf) (7700, 7700)%N
 (Node Leaf (7702, 7702)%N
 Leaf)) (7704, 7704)%N
 (Node (Node (Node Leaf (7706, 7706)%N
 Leaf) (7708, 7708)%N
 Leaf) (7710, 7710)%N
 (Node Leaf (7712, 7712)%N
 Leaf))) (7714, 7714)%N
 (Node (Node (Node (Node Leaf (7716, 7716)%N
 Leaf) (7718, 7718)%N
 Leaf) (7720, 7720)%N
 (Node Leaf (7722, 7722)%N
 Leaf)) (7724, 7724)%N
 (Node (Node (Node Leaf (7726, 7726)%N
 Leaf) (7728, 7728)%N
 Leaf) (7730, 7730)%N
 (Node Leaf (7732, 7732)%N
 Leaf)))) (7734, 7734)%N
 (Node (Node (Node (Node (Node Leaf (7736, 7736)%N
 Leaf) (7738, 7738)%N
 Leaf) (7740, 7740)%N
 (Node Leaf (7742, 7742)%N
 Leaf)) (7744, 7744)%N
 (Node (Node (Node Leaf (7746, 7746)%N
 Leaf) (7748, 7748)%N
 Leaf) (7750, 7750)%N
 (Node Leaf (7752, 7752)%N
 Leaf))) (7754, 7754)%N
 (Node (Node (Node (Node Leaf (7756, 7756)%N
 Leaf) (7758, 7758)%N
 Leaf) (7760, 7760)%N
 (Node Leaf (7762, 7762)%N
 Leaf)) (7764, 7764)%N
 (Node (Node (Node Leaf (7766, 7766)%N
 Leaf) (7768, 7768)%N
 Leaf) (7770, 7770)%N
 (Node Leaf (7772, 7772)%N
 Leaf)))))))) (7774, 7774)%N
 (Node (Node (Node (Node (Node (Node (Node (Node (Node Leaf (7776, 7776)%N
 Leaf) (7778, 7778)%N
 Leaf) (7780, 7780)%N
 (Node (Node Leaf (7782, 7782)%N
 Leaf) (7784, 7784)%N
 Leaf)) (7786, 7786)%N
 (Node (Node (Node Leaf (7788, 7788)%N
 Leaf) (7790, 7790)%N
 Leaf) (7792, 7792)%N
 (Node Leaf (7794, 7794)%N
 Leaf))) (7796, 7796)%N
 (Node (Node (Node (Node Leaf (7798, 7798)%N
 Leaf) (7800, 7800)%N
 Leaf) (7802, 7802)%N
 (Node Leaf (7804, 7804)%N
 Leaf)) (7806, 7806)%N
 (Node (Node (Node Leaf (7808, 7808)%N
 Leaf) (7810, 7810)%N
 Leaf) (7812, 7812)%N
 (Node Leaf (7814, 7814)%N
 Leaf)))) (7816, 7816)%N
 (Node (Node (Node (Node (Node Leaf (7818, 7818)%N
 Leaf) (7820, 7820)%N
 Leaf) (7822, 7822)%N
 (Node Leaf (7824, 7824)%N
 Leaf)) (7826, 7826)%N
 (Node (Node (Node Leaf (7828, 7828)%N
 Leaf) (7838, 7838)%N
 Leaf) (7840, 7840)%N
 (Node Leaf (7842, 7842)%N
 Leaf))) (7844, 7844)%N
 (Node (Node (Node (Node Leaf (7846, 7846)%N
 Leaf) (7848, 7848)%N
 Leaf) (7850, 7850)%N
 (Node Leaf (7852, 7852)%N
 Leaf)) (7854, 7854)%N
 (Node (Node (Node Leaf (7856, 7856)%N
 Leaf) (7858, 7858)%N
 Leaf) (7860, 7860)%N
 (Node Leaf (7862, 7862)%N
 Leaf))))) (7864, 7864)%N
 (Node (Node (Node (Node (Node (Node Leaf (7866, 7866)%N
 Leaf) (7868, 7868)%N
 Leaf) (7870, 7870)%N
 (Node (Node Leaf (7872, 7872)%N
 Leaf) (7874, 7874)%N
 Leaf)) (7876, 7876)%N
 (Node (Node (Node Leaf (7878, 7878)%N
 Leaf) (7880, 7880)%N
 Leaf) (7882, 7882)%N
 (Node Leaf (7884, 7884)%N
 Leaf))) (7886, 7886)%N
 (Node (Node (Node (Node Leaf (7888, 7888)%N
 Leaf) (7890, 7890)%N
 Leaf) (7892, 7892)%N
 (Node Leaf (7894, 7894)%N
 Leaf)) (7896, 7896)%N
 (Node (Node (Node Leaf (7898, 7898)%N
 Leaf) (7900, 7900)%N
 Leaf) (7902, 7902)%N
 (Node Leaf (7904, 7904)%N
 Leaf)))) (7906, 7906)%N
 (Node (Node (Node (Node (Node Leaf (7908, 7908)%N
 Leaf) (7910, 7910)%N
 Leaf) (7912, 7912)%N
 (Node Leaf (7914, 7914)%N
 Leaf)) (7916, 7916)%N
 (Node (Node (Node Leaf (7918, 7918)%N
 Leaf) (7920, 7920)%N
 Leaf) (7922, 7922)%N
 (Node Leaf (7924, 7924)%N
 Leaf))) (7926, 7926)%N
 (Node (Node (Node (Node Leaf (7928, 7928)%N
 Leaf) (7930, 7930)%N
 Leaf) (7932, 7932)%N
 (Node Leaf (7934, 7934)%N
 Leaf)) (7944, 7951)%N
 (Node (Node (Node Leaf (7960, 7965)%N
 Leaf) (7976, 7983)%N
 Leaf) (7992, 7999)%N
 (Node Leaf (8008, 8013)%N
 Leaf)))))) (8025, 8025)%N
 (Node (Node (Node (Node (Node (Node (Node Leaf (8027, 8027)%N
 Leaf) (8029, 8029)%N
 Leaf) (8031, 8031)%N
 (Node (Node Leaf (8040, 8047)%N
 Leaf) (8120, 8123)%N
 Leaf)) (8136, 8139)%N
 (Node (Node (Node Leaf (8152, 8155)%N
 Leaf) (8168, 8172)%N
 Leaf) (8184, 8187)%N
 (Node Leaf (8450, 8450)%N
 Leaf))) (8455, 8455)%N
 (Node (Node (Node (Node Leaf (8459, 8461)%N
 Leaf) (8464, 8466)%N
 Leaf) (8469, 8469)%N
 (Node Leaf (8473, 8477)%N
 Leaf)) (8484, 8484)%N
 (Node (Node (Node Leaf (8486, 8486)%N
 Leaf) (8488, 8488)%N
 Leaf) (8490, 8493)%N
 (Node Leaf (8496, 8499)%N
 Leaf)))) (8510, 8511)%N
 (Node (Node (Node (Node (Node Leaf (8517, 8517)%N
 Leaf) (8544, 8559)%N
 Leaf) (8579, 8579)%N
 (Node Leaf (9398, 9423)%N
 Leaf)) (11264, 11311)%N
 (Node (Node (Node Leaf (11360, 11360)%N
 Leaf) (11362, 11364)%N
 Leaf) (11367, 11367)%N
 (Node Leaf (11369, 11369)%N
 Leaf))) (11371, 11371)%N
 (Node (Node (Node (Node Leaf (11373, 11376)%N
 Leaf) (11378, 11378)%N
 Leaf) (11381, 11381)%N
 (Node Leaf (11390, 11392)%N
 Leaf)) (11394, 11394)%N
 (Node (Node (Node Leaf (11396, 11396)%N
 Leaf) (11398, 11398)%N
 Leaf) (11400, 11400)%N
 (Node Leaf (11402, 11402)%N
 Leaf))))) (11404, 11404)%N
 (Node (Node (Node (Node (Node (Node Leaf (11406, 11406)%N
 Leaf) (11408, 11408)%N
 Leaf) (11410, 11410)%N
 (Node Leaf (11412, 11412)%N
 Leaf)) (11414, 11414)%N
 (Node (Node (Node Leaf (11416, 11416)%N
 Leaf) (11418, 11418)%N
 Leaf) (11420, 11420)%N
 (Node Leaf (11422, 11422)%N
 Leaf))) (11424, 11424)%N
 (Node (Node (Node (Node Leaf (11426, 11426)%N
 Leaf) (11428, 11428)%N
 Leaf) (11430, 11430)%N
 (Node Leaf (11432, 11432)%N
 Leaf)) (11434, 11434)%N
 (Node (Node (Node Leaf (11436, 11436)%N
 Leaf) (11438, 11438)%N
 Leaf) (11440, 11440)%N
 (Node Leaf (11442, 11442)%N
 Leaf)))) (11444, 11444)%N
 (Node (Node (Node (Node (Node Leaf (11446, 11446)%N
 Leaf) (11448, 11448)%N
 Leaf) (11450, 11450)%N
 (Node Leaf (11452, 11452)%N
 Leaf)) (11454, 11454)%N
 (Node (Node (Node Leaf (11456, 11456)%N
 Leaf) (11458, 11458)%N
 Leaf) (11460, 11460)%N
 (Node Leaf (11462, 11462)%N
 Leaf))) (11464, 11464)%N
 (Node (Node (Node (Node Leaf (11466, 11466)%N
 Leaf) (11468, 11468)%N
 Leaf) (11470, 11470)%N
 (Node Leaf (11472, 11472)%N
 Leaf)) (11474, 11474)%N
 (Node (Node (Node Leaf (11476, 11476)%N
 Leaf) (11478, 11478)%N
 Leaf) (11480, 11480)%N
 (Node Leaf (11482, 11482)%N
 Leaf))))))) (11484, 11484)%N
 (Node (Node (Node (Node (Node (Node (Node (Node Leaf (11486, 11486)%N
 Leaf) (11488, 11488)%N
 Leaf) (11490, 11490)%N
 (Node (Node Leaf (11499, 11499)%N
 Leaf) (11501, 11501)%N
 Leaf)) (11506, 11506)%N
 (Node (Node (Node Leaf (42560, 42560)%N
 Leaf) (42562, 42562)%N
 Leaf) (42564, 42564)%N
 (Node Leaf (42566, 42566)%N
 Leaf))) (42568, 42568)%N
 (Node (Node (Node (Node Leaf (42570, 42570)%N
 Leaf) (42572, 42572)%N
 Leaf) (42574, 42574)%N
 (Node Leaf (42576, 42576)%N
 Leaf)) (42578, 42578)%N
 (Node (Node (Node Leaf (42580, 42580)%N
 Leaf) (42582, 42582)%N
 Leaf) (42584, 42584)%N
 (Node Leaf (42586, 42586)%N
 Leaf)))) (42588, 42588)%N
 (Node (Node (Node (Node (Node Leaf (42590, 42590)%N
 Leaf) (42592, 42592)%N
 Leaf) (42594, 42594)%N
 (Node Leaf (42596, 42596)%N
 Leaf)) (42598, 42598)%N
 (Node (Node (Node Leaf (42600, 42600)%N
 Leaf) (42602, 42602)%N
 Leaf) (42604, 42604)%N
 (Node Leaf (42624, 42624)%N
 Leaf))) (42626, 42626)%N
 (Node (Node (Node (Node Leaf (42628, 42628)%N
 Leaf) (42630, 42630)%N
 Leaf) (42632, 42632)%N
 (Node Leaf (42634, 42634)%N
 Leaf)) (42636, 42636)%N
 (Node (Node (Node Leaf (42638, 42638)%N
 Leaf) (42640, 42640)%N
 Leaf) (42642, 42642)%N
 (Node Leaf (42644, 42644)%N
 Leaf))))) (42646, 42646)%N
 (Node (Node (Node (Node (Node (Node Leaf (42648, 42648)%N
 Leaf) (42650, 42650)%N
 Leaf) (42786, 42786)%N
 (Node (Node Leaf (42788, 42788)%N
 Leaf) (42790, 42790)%N
 Leaf)) (42792, 42792)%N
 (Node (Node (Node Leaf (42794, 42794)%N
 Leaf) (42796, 42796)%N
 Leaf) (42798, 42798)%N
 (Node Leaf (42802, 42802)%N
 Leaf))) (42804, 42804)%N
 (Node (Node (Node (Node Leaf (42806, 42806)%N
 Leaf) (42808, 42808)%N
 Leaf) (42810, 42810)%N
 (Node Leaf (42812, 42812)%N
 Leaf)) (42814, 42814)%N
 (Node (Node (Node Leaf (42816, 42816)%N
 Leaf) (42818, 42818)%N
 Leaf) (42820, 42820)%N
 (Node Leaf (42822, 42822)%N
 Leaf)))) (42824, 42824)%N
 (Node (Node (Node (Node (Node Leaf (42826, 42826)%N
 Leaf) (42828, 42828)%N
 Leaf) (42830, 42830)%N
 (Node Leaf (42832, 42832)%N
 Leaf)) (42834, 42834)%N
 (Node (Node (Node Leaf (42836, 42836)%N
 Leaf) (42838, 42838)%N
 Leaf) (42840, 42840)%N
 (Node Leaf (42842, 42842)%N
 Leaf))) (42844, 42844)%N
 (Node (Node (Node (Node Leaf (42846, 42846)%N
 Leaf) (42848, 42848)%N
 Leaf) (42850, 42850)%N
 (Node Leaf (42852, 42852)%N
 Leaf)) (42854, 42854)%N
 (Node (Node (Node Leaf (42856, 42856)%N
 Leaf) (42858, 42858)%N
 Leaf) (42860, 42860)%N
 (Node Leaf (42862, 42862)%N
 Leaf)))))) (42873, 42873)%N
 (Node (Node (Node (Node (Node (Node (Node Leaf (42875, 42875)%N
 Leaf) (42877, 42878)%N
 Leaf) (42880, 42880)%N
 (Node (Node Leaf (42882, 42882)%N
 Leaf) (42884, 42884)%N
 Leaf)) (42886, 42886)%N
 (Node (Node (Node Leaf (42891, 42891)%N
 Leaf) (42893, 42893)%N
 Leaf) (42896, 42896)%N
 (Node Leaf (42898, 42898)%N
 Leaf))) (42902, 42902)%N
 (Node (Node (Node (Node Leaf (42904, 42904)%N
 Leaf) (42906, 42906)%N
 Leaf) (42908, 42908)%N
 (Node Leaf (42910, 42910)%N
 Leaf)) (42912, 42912)%N
 (Node (Node (Node Leaf (42914, 42914)%N
 Leaf) (42916, 42916)%N
 Leaf) (42918, 42918)%N
 (Node Leaf (42920, 42920)%N
 Leaf)))) (42922, 42926)%N
 (Node (Node (Node (Node (Node Leaf (42928, 42932)%N
 Leaf) (42934, 42934)%N
 Leaf) (42936, 42936)%N
 (Node Leaf (42938, 42938)%N
 Leaf)) (42940, 42940)%N
 (Node (Node (Node Leaf (42942, 42942)%N
 Leaf) (42944, 42944)%N
 Leaf) (42946, 42946)%N
 (Node Leaf (42948, 42951)%N
 Leaf))) (42953, 42953)%N
 (Node (Node (Node (Node Leaf (42960, 42960)%N
 Leaf) (42966, 42966)%N
 Leaf) (42968, 42968)%N
 (Node Leaf (42997, 42997)%N
 Leaf)) (65313, 65338)%N
 (Node (Node (Node Leaf (66560, 66599)%N
 Leaf) (66736, 66771)%N
 Leaf) (66928, 66938)%N
 (Node Leaf (66940, 66954)%N
 Leaf))))) (66956, 66962)%N
 (Node (Node (Node (Node (Node (Node Leaf (66964, 66965)%N
 Leaf) (68736, 68786)%N
 Leaf) (71840, 71871)%N
 (Node Leaf (93760, 93791)%N
 Leaf)) (119808, 119833)%N
 (Node (Node (Node Leaf (119860, 119885)%N
 Leaf) (119912, 119937)%N
 Leaf) (119964, 119964)%N
 (Node Leaf (119966, 119967)%N
 Leaf))) (119970, 119970)%N
 (Node (Node (Node (Node Leaf (119973, 119974)%N
 Leaf) (119977, 119980)%N
 Leaf) (119982, 119989)%N
 (Node Leaf (120016, 120041)%N
 Leaf)) (120068, 120069)%N
 (Node (Node (Node Leaf (120071, 120074)%N
 Leaf) (120077, 120084)%N
 Leaf) (120086, 120092)%N
 (Node Leaf (120120, 120121)%N
 Leaf)))) (120123, 120126)%N
 (Node (Node (Node (Node (Node Leaf (120128, 120132)%N
 Leaf) (120134, 120134)%N
 Leaf) (120138, 120144)%N
 (Node Leaf (120172, 120197)%N
 Leaf)) (120224, 120249)%N
 (Node (Node (Node Leaf (120276, 120301)%N
 Leaf) (120328, 120353)%N
 Leaf) (120380, 120405)%N
 (Node Leaf (120432, 120457)%N
 Leaf))) (120488, 120512)%N
 (Node (Node (Node (Node Leaf (120546, 120570)%N
 Leaf) (120604, 120628)%N
 Leaf) (120662, 120686)%N
 (Node Leaf (120720, 120744)%N
 Leaf)) (120778, 120778)%N
 (Node (Node (Node Leaf (125184, 125217)%N
 Leaf) (127280, 127305)%N
 Leaf) (127312, 127337)%N
 (Node Leaf (127344, 127369)%N
 Leaf))))))))).

(** White_Space (char::is_whitespace). *)
Definition whitespace_ranges : tree (N * N) :=
 (Node (Node (Node (Node Leaf (9, 13)%N
 Leaf) (32, 32)%N
 Leaf) (133, 133)%N
 (Node (Node Leaf (160, 160)%N
 Leaf) (5760, 5760)%N
 Leaf)) (8192, 8202)%N
 (Node (Node (Node Leaf (8232, 8233)%N
 Leaf) (8239, 8239)%N
 Leaf) (8287, 8287)%N
 (Node Leaf (12288, 12288)%N
 Leaf))).

(** char::to_lowercase where it is not the identity. *)
Definition lower_entries : tree (N * list N) :=
 (Node (Node (Node (Node (Node (Node (Node (Node (Node (Node (Node Leaf (65, [97])%N
 Leaf) (66, [98])%N
 Leaf) (67, [99])%N
 (Node (Node Leaf (68, [100])%N
 Leaf) (69, [101])%N
 Leaf)) (70, [102])%N
 (Node (Node (Node Leaf (71, [103])%N
 Leaf) (72, [104])%N
 Leaf) (73, [105])%N
 (Node (Node Leaf (74, [106])%N
 Leaf) (75, [107])%N
 Leaf))) (76, [108])%N
 (Node (Node (Node (Node Leaf (77, [109])%N
 Leaf) (78, [110])%N
 Leaf) (79, [111])%N
 (Node (Node Leaf (80, [112])%N
 Leaf) (81, [113])%N
 Leaf)) (82, [114])%N
 (Node (Node (Node Leaf (83, [115])%N
 Leaf) (84, [116])%N
 Leaf) (85, [117])%N
 (Node Leaf (86, [118])%N
 Leaf)))) (87, [119])%N
 (Node (Node (Node (Node (Node Leaf (88, [120])%N
 Leaf) (89, [121])%N
 Leaf) (90, [122])%N
 (Node (Node Leaf (192, [224])%N
 Leaf) (193, [225])%N
 Leaf)) (194, [226])%N
 (Node (Node (Node Leaf (195, [227])%N
 Leaf) (196, [228])%N
 Leaf) (197, [229])%N
 (Node Leaf (198, [230])%N
 Leaf))) (199, [231])%N
 (Node (Node (Node (Node Leaf (200, [232])%N
 Leaf) (201, [233])%N
 Leaf) (202, [234])%N
 (Node (Node Leaf (203, [235])%N
 Leaf) (204, [236])%N
 Leaf)) (205, [237])%N
 (Node (Node (Node Leaf (206, [238])%N
 Leaf) (207, [239])%N
 Leaf) (208, [240])%N
 (Node Leaf (209, [241])%N
 Leaf))))) (210, [242])%N
 (Node (Node (Node (Node (Node (Node Leaf (211, [243])%N
 Leaf) (212, [244])%N
 Leaf) (213, [245])%N
 (Node (Node Leaf (214, [246])%N
 Leaf) (216, [248])%N
 Leaf)) (217, [249])%N
 (Node (Node (Node Leaf (218, [250])%N
 Leaf) (219, [251])%N
 Leaf) (220, [252])%N
 (Node (Node Leaf (221, [253])%N
 Leaf) (222, [254])%N
 Leaf))) (256, [257])%N
 (Node (Node (Node (Node Leaf (258, [259])%N
 Leaf) (260, [261])%N
 Leaf) (262, [263])%N
 (Node (Node Leaf (264, [265])%N
 Leaf) (266, [267])%N
 Leaf)) (268, [269])%N
 (Node (Node (Node Leaf (270, [271])%N
 Leaf) (272, [273])%N
 Leaf) (274, [275])%N
 (Node Leaf (276, [277])%N
 Leaf)))) (278, [279])%N
 (Node (Node (Node (Node (Node Leaf (280, [281])%N
 Leaf) (282, [283])%N
 Leaf) (284, [285])%N
 (Node (Node Leaf (286, [287])%N
 Leaf) (288, [289])%N
 Leaf)) (290, [291])%N
 (Node (Node (Node Leaf (292, [293])%N
 Leaf) (294, [295])%N
 Leaf) (296, [297])%N
 (Node Leaf (298, [299])%N
 Leaf))) (300, [301])%N
 (Node (Node (Node (Node Leaf (302, [303])%N
 Leaf) (304, [105; 775])%N
 Leaf) (306, [307])%N
 (Node (Node Leaf (308, [309])%N
 Leaf) (310, [311])%N
 Leaf)) (313, [314])%N
 (Node (Node (Node Leaf (315, [316])%N
 Leaf) (317, [318])%N
 Leaf) (319, [320])%N
 (Node Leaf (321, [322])%N
 Leaf)))))) (323, [324])%N
 (Node (Node (Node (Node (Node (Node (Node Leaf (325, [326])%N
 Leaf) (327, [328])%N
 Leaf) (330, [331])%N
 (Node (Node Leaf (332, [333])%N
 Leaf) (334, [335])%N
 Leaf)) (336, [337])%N
 (Node (Node (Node Leaf (338, [339])%N
 Leaf) (340, [341])%N
 Leaf) (342, [343])%N
 (Node (Node Leaf (344, [345])%N
 Leaf) (346, [347])%N
 Leaf))) (348, [349])%N
 (Node (Node (Node (Node Leaf (350, [351])%N
 Leaf) (352, [353])%N
 Leaf) (354, [355])%N
 (Node (Node Leaf (356, [357])%N
 Leaf) (358, [359])%N
 Leaf)) (360, [361])%N
 (Node (Node (Node Leaf (362, [363])%N
 Leaf) (364, [365])%N
 Leaf) (366, [367])%N
 (Node Leaf (368, [369])%N
 Leaf)))) (370, [371])%N
 (Node (Node (Node (Node (Node Leaf (372, [373])%N
 Leaf) (374, [375])%N
 Leaf) (376, [255])%N
 (Node (Node Leaf (377, [378])%N
 Leaf) (379, [380])%N
 Leaf)) (381, [382])%N
 (Node (Node (Node Leaf (385, [595])%N
 Leaf) (386, [387])%N
 Leaf) (388, [389])%N
 (Node Leaf (390, [596])%N
 Leaf))) (391, [392])%N
 (Node (Node (Node (Node Leaf (393, [598])%N
 Leaf) (394, [599])%N
 Leaf) (395, [396])%N
 (Node (Node Leaf (398, [477])%N
 Leaf) (399, [601])%N
 Leaf)) (400, [603])%N
 (Node (Node (Node Leaf (401, [402])%N
 Leaf) (403, [608])%N
 Leaf) (404, [611])%N
 (Node Leaf (406, [617])%N
 Leaf))))) (407, [616])%N
 (Node (Node (Node (Node (Node (Node Leaf (408, [409])%N
 Leaf) (412, [623])%N
 Leaf) (413, [626])%N
 (Node (Node Leaf (415, [629])%N
 Leaf) (416, [417])%N
 Leaf)) (418, [419])%N
 (Node (Node (Node Leaf (420, [421])%N
 Leaf) (422, [640])%N
 Leaf) (423, [424])%N
 (Node (Node Leaf (425, [643])%N
 Leaf) (428, [429])%N
 Leaf))) (430, [648])%N
 (Node (Node (Node (Node Leaf (431, [432])%N
 Leaf) (433, [650])%N
 Leaf) (434, [651])%N
 (Node (Node Leaf (435, [436])%N
 Leaf) (437, [438])%N
 Leaf)) (439, [658])%N
 (Node (Node (Node Leaf (440, [441])%N
 Leaf) (444, [445])%N
 Leaf) (452, [454])%N
 (Node Leaf (453, [454])%N
 Leaf)))) (455, [457])%N
 (Node (Node (Node (Node (Node Leaf (456, [457])%N
 Leaf) (458, [460])%N
 Leaf) (459, [460])%N
 (Node (Node Leaf (461, [462])%N
 Leaf) (463, [464])%N
 Leaf)) (465, [466])%N
 (Node (Node (Node Leaf (467, [468])%N
 Leaf) (469, [470])%N
 Leaf) (471, [472])%N
 (Node Leaf (473, [474])%N
 Leaf))) (475, [476])%N
 (Node (Node (Node (Node Leaf (478, [479])%N
 Leaf) (480, [481])%N
 Leaf) (482, [483])%N
 (Node (Node Leaf (484, [485])%N
 Leaf) (486, [487])%N
 Leaf)) (488, [489])%N
 (Node (Node (Node Leaf (490, [491])%N
 Leaf) (492, [493])%N
 Leaf) (494, [495])%N
 (Node Leaf (497, [499])%N
 Leaf))))))) (498, [499])%N
 (Node (Node (Node (Node (Node (Node (Node (Node Leaf (500, [501])%N
 Leaf) (502, [405])%N
 Leaf) (503, [447])%N
 (Node (Node Leaf (504, [505])%N
 Leaf) (506, [507])%N
 Leaf)) (508, [509])%N
 (Node (Node (Node Leaf (510, [511])%N
 Leaf) (512, [513])%N
 Leaf) (514, [515])%N
 (Node (Node Leaf (516, [517])%N
 Leaf) (518, [519])%N
 Leaf))) (520, [521])%N
 (Node (Node (Node (Node Leaf (522, [523])%N
 Leaf) (524, [525])%N
 Leaf) (526, [527])%N
 (Node (Node Leaf (528, [529])%N
 Leaf) (530, [531])%N
 Leaf)) (532, [533])%N
 (Node (Node (Node Leaf (534, [535])%N
 Leaf) (536, [537])%N
 Leaf) (538, [539])%N
 (Node Leaf (540, [541])%N
 Leaf)))) (542, [543])%N
 (Node (Node (Node (Node (Node Leaf (544, [414])%N
 Leaf) (546, [547])%N
 Leaf) (548, [549])%N
 (Node (Node Leaf (550, [551])%N
 Leaf) (552, [553])%N
 Leaf)) (554, [555])%N
 (Node (Node (Node Leaf (556, [557])%N
 Leaf) (558, [559])%N
 Leaf) (560, [561])%N
 (Node Leaf (562, [563])%N
 Leaf))) (570, [11365])%N
 (Node (Node (Node (Node Leaf (571, [572])%N
 Leaf) (573, [410])%N
 Leaf) (574, [11366])%N
 (Node (Node Leaf (577, [578])%N
 Leaf) (579, [384])%N
 Leaf)) (580, [649])%N
 (Node (Node (Node Leaf (581, [652])%N
 Leaf) (582, [583])%N
 Leaf) (584, [585])%N
 (Node Leaf (586, [587])%N
 Leaf))))) (588, [589])%N
 (Node (Node (Node (Node (Node (Node Leaf (590, [591])%N
 Leaf) (880, [881])%N
 Leaf) (882, [883])%N
 (Node (Node Leaf (886, [887])%N
 Leaf) (895, [1011])%N
 Leaf)) (902, [940])%N
 (Node (Node (Node Leaf (904, [941])%N
 Leaf) (905, [942])%N
 Leaf) (906, [943])%N
 (Node (Node Leaf (908, [972])%N
 Leaf) (910, [973])%N
 Leaf))) (911, [974])%N
 (Node (Node (Node (Node Leaf (913, [945])%N
 Leaf) (914, [946])%N
 Leaf) (915, [947])%N
 (Node (Node Leaf (916, [948])%N
 Leaf) (917, [949])%N
 Leaf)) (918, [950])%N
 (Node (Node (Node Leaf (919, [951])%N
 Leaf) (920, [952])%N
 Leaf) (921, [953])%N
 (Node Leaf (922, [954])%N
 Leaf)))) (923, [955])%N
 (Node (Node (Node (Node (Node Leaf (924, [956])%N
 Leaf) (925, [957])%N
 Leaf) (926, [958])%N
 (Node (Node Leaf (927, [959])%N
 Leaf) (928, [960])%N
 Leaf)) (929, [961])%N
 (Node (Node (Node Leaf (931, [963])%N
 Leaf) (932, [964])%N
 Leaf) (933, [965])%N
 (Node Leaf (934, [966])%N
 Leaf))) (935, [967])%N
 (Node (Node (Node (Node Leaf (936, [968])%N
 Leaf) (937, [969])%N
 Leaf) (938, [970])%N
 (Node (Node Leaf (939, [971])%N
 Leaf) (975, [983])%N
 Leaf)) (984, [985])%N
 (Node (Node (Node Leaf (986, [987])%N
 Leaf) (988, [989])%N
 Leaf) (990, [991])%N
 (Node Leaf (992, [993])%N
 Leaf)))))) (994, [995])%N
 (Node (Node (Node (Node (Node (Node (Node Leaf (996, [997])%N
 Leaf) (998, [999])%N
 Leaf) (1000, [1001])%N
 (Node (Node Leaf (1002, [1003])%N
 Leaf) (1004, [1005])%N
 Leaf)) (1006, [1007])%N
 (Node (Node (Node Leaf (1012, [952])%N
 Leaf) (1015, [1016])%N
 Leaf) (1017, [1010])%N
 (Node (Node Leaf (1018, [1019])%N
 Leaf) (1021, [891])%N
 Leaf))) (1022, [892])%N
 (Node (Node (Node (Node Leaf (1023, [893])%N
 Leaf) (1024, [1104])%N
 Leaf) (1025, [1105])%N
 (Node (Node Leaf (1026, [1106])%N
 Leaf) (1027, [1107])%N
 Leaf)) (1028, [1108])%N
 (Node (Node (Node Leaf (1029, [1109])%N
 Leaf) (1030, [1110])%N
 Leaf) (1031, [1111])%N
 (Node Leaf (1032, [1112])%N
 Leaf)))) (1033, [1113])%N
 (Node (Node (Node (Node (Node Leaf (1034, [1114])%N
 Leaf) (1035, [1115])%N
 Leaf) (1036, [1116])%N
 (Node (Node Leaf (1037, [1117])%N
 Leaf) (1038, [1118])%N
 Leaf)) (1039, [1119])%N
 (Node (Node (Node Leaf (1040, [1072])%N
 Leaf) (1041, [1073])%N
 Leaf) (1042, [1074])%N
 (Node Leaf (1043, [1075])%N
 Leaf))) (1044, [1076])%N
 (Node (Node (Node (Node Leaf (1045, [1077])%N
 Leaf) (1046, [1078])%N
 Leaf) (1047, [1079])%N
 (Node (Node Leaf (1048, [1080])%N
 Leaf) (1049, [1081])%N
 Leaf)) (1050, [1082])%N
 (Node (Node (Node Leaf (1051, [1083])%N
 Leaf) (1052, [1084])%N
 Leaf) (1053, [1085])%N
 (Node Leaf (1054, [1086])%N
 Leaf))))) (1055, [1087])%N
 (Node (Node (Node (Node (Node (Node Leaf (1056, [1088])%N
 Leaf) (1057, [1089])%N
 Leaf) (1058, [1090])%N
 (Node (Node Leaf (1059, [1091])%N
 Leaf) (1060, [1092])%N
 Leaf)) (1061, [1093])%N
 (Node (Node (Node Leaf (1062, [1094])%N
 Leaf) (1063, [1095])%N
 Leaf) (1064, [1096])%N
 (Node Leaf (1065, [1097])%N
 Leaf))) (1066, [1098])%N
 (Node (Node (Node (Node Leaf (1067, [1099])%N
 Leaf) (1068, [1100])%N
 Leaf) (1069, [1101])%N
 (Node (Node Leaf (1070, [1102])%N
 Leaf) (1071, [1103])%N
 Leaf)) (1120, [1121])%N
 (Node (Node (Node Leaf (1122, [1123])%N
 Leaf) (1124, [1125])%N
 Leaf) (1126, [1127])%N
 (Node Leaf (1128, [1129])%N
 Leaf)))) (1130, [1131])%N
 (Node (Node (Node (Node (Node Leaf (1132, [1133])%N
 Leaf) (1134, [1135])%N
 Leaf) (1136, [1137])%N
 (Node (Node Leaf (1138, [1139])%N
 Leaf) (1140, [1141])%N
 Leaf)) (1142, [1143])%N
 (Node (Node (Node Leaf (1144, [1145])%N
 Leaf) (1146, [1147])%N
 Leaf) (1148, [1149])%N
 (Node Leaf (1150, [1151])%N
 Leaf))) (1152, [1153])%N
 (Node (Node (Node (Node Leaf (1162, [1163])%N
 Leaf) (1164, [1165])%N
 Leaf) (1166, [1167])%N
 (Node (Node Leaf (1168, [1169])%N
 Leaf) (1170, [1171])%N
 Leaf)) (1172, [1173])%N
 (Node (Node (Node Leaf (1174, [1175])%N
 Leaf) (1176, [1177])%N
 Leaf) (1178, [1179])%N
 (Node Leaf (1180, [1181])%N
 Leaf)))))))) (1182, [1183])%N
 (Node (Node (Node (Node (Node (Node (Node (Node (Node Leaf (1184, [1185])%N
 Leaf) (1186, [1187])%N
 Leaf) (1188, [1189])%N
 (Node (Node Leaf (1190, [1191])%N
 Leaf) (1192, [1193])%N
 Leaf)) (1194, [1195])%N
 (Node (Node (Node Leaf (1196, [1197])%N
 Leaf) (1198, [1199])%N
 Leaf) (1200, [1201])%N
 (Node (Node Leaf (1202, [1203])%N
 Leaf) (1204, [1205])%N
 Leaf))) (1206, [1207])%N
 (Node (Node (Node (Node Leaf (1208, [1209])%N
 Leaf) (1210, [1211])%N
 Leaf) (1212, [1213])%N
 (Node (Node Leaf (1214, [1215])%N
 Leaf) (1216, [1231])%N
 Leaf)) (1217, [1218])%N
 (Node (Node (Node Leaf (1219, [1220])%N
 Leaf) (1221, [1222])%N
 Leaf) (1223, [1224])%N
 (Node Leaf (1225, [1226])%N
 Leaf)))) (1227, [1228])%N
 (Node (Node (Node (Node (Node Leaf (1229, [1230])%N
 Leaf) (1232, [1233])%N
 Leaf) (1234, [1235])%N
 (Node (Node Leaf (1236, [1237])%N
 Leaf) (1238, [1239])%N
 Leaf)) (1240, [1241])%N
 (Node (Node (Node Leaf (1242, [1243])%N
 Leaf) (1244, [1245])%N
 Leaf) (1246, [1247])%N
 (Node Leaf (1248, [1249])%N
 Leaf))) (1250, [1251])%N
 (Node (Node (Node (Node Leaf (1252, [1253])%N
 Leaf) (1254, [1255])%N
 Leaf) (1256, [1257])%N
 (Node (Node Leaf (1258, [1259])%N
 Leaf) (1260, [1261])%N
 Leaf)) (1262, [1263])%N
 (Node (Node (Node Leaf (1264, [1265])%N
 Leaf) (1266, [1267])%N
 Leaf) (1268, [1269])%N
 (Node Leaf (1270, [1271])%N
 Leaf))))) (1272, [1273])%N
 (Node (Node (Node (Node (Node (Node Leaf (1274, [1275])%N
 Leaf) (1276, [1277])%N
 Leaf) (1278, [1279])%N
 (Node (Node Leaf (1280, [1281])%N
 Leaf) (1282, [1283])%N
 Leaf)) (1284, [1285])%N
 (Node (Node (Node Leaf (1286, [1287])%N
 Leaf) (1288, [1289])%N
 Leaf) (1290, [1291])%N
 (Node (Node Leaf (1292, [1293])%N
 Leaf) (1294, [1295])%N
 Leaf))) (1296, [1297])%N
 (Node (Node (Node (Node Leaf (1298, [1299])%N
 Leaf) (1300, [1301])%N
 Leaf) (1302, [1303])%N
 (Node (Node Leaf (1304, [1305])%N
 Leaf) (1306, [1307])%N
 Leaf)) (1308, [1309])%N
 (Node (Node (Node Leaf (1310, [1311])%N
 Leaf) (1312, [1313])%N
 Leaf) (1314, [1315])%N
 (Node Leaf (1316, [1317])%N
 Leaf)))) (1318, [1319])%N
 (Node (Node (Node (Node (Node Leaf (1320, [1321])%N
 Leaf) (1322, [1323])%N
 Leaf) (1324, [1325])%N
 (Node (Node Leaf (1326, [1327])%N
 Leaf) (1329, [1377])%N
 Leaf)) (1330, [1378])%N
 (Node (Node (Node Leaf (1331, [1379])%N
 Leaf) (1332, [1380])%N
 Leaf) (1333, [1381])%N
 (Node Leaf (1334, [1382])%N
 Leaf))) (1335, [1383])%N
 (Node (Node (Node (Node Leaf (1336, [1384])%N
 Leaf) (1337, [1385])%N
 Leaf) (1338, [1386])%N
 (Node (Node Leaf (1339, [1387])%N
 Leaf) (1340, [1388])%N
 Leaf)) (1341, [1389])%N
 (Node (Node (Node Leaf (1342, [1390])%N
 Leaf) (1343, [1391])%N
 Leaf) (1344, [1392])%N
 (Node Leaf (1345, [1393])%N
 Leaf)))))) (1346, [1394])%N
 (Node (Node (Node (Node (Node (Node (Node Leaf (1347, [1395])%N
 Leaf) (1348, [1396])%N
 Leaf) (1349, [1397])%N
 (Node (Node Leaf (1350, [1398])%N
 Leaf) (1351, [1399])%N
 Leaf)) (1352, [1400])%N
 (Node (Node (Node Leaf (1353, [1401])%N
 Leaf) (1354, [1402])%N
 Leaf) (1355, [1403])%N
 (Node (Node Leaf (1356, [1404])%N
 Leaf) (1357, [1405])%N
 Leaf))) (1358, [1406])%N
 (Node (Node (Node (Node Leaf (1359, [1407])%N
 Leaf) (1360, [1408])%N
 Leaf) (1361, [1409])%N
 (Node (Node Leaf (1362, [1410])%N
 Leaf) (1363, [1411])%N
 Leaf)) (1364, [1412])%N
 (Node (Node (Node Leaf (1365, [1413])%N
 Leaf) (1366, [1414])%N
 Leaf) (4256, [11520])%N
 (Node Leaf (4257, [11521])%N
 Leaf)))) (4258, [11522])%N
 (Node (Node (Node (Node (Node Leaf (4259, [11523])%N
 Leaf) (4260, [11524])%N
 Leaf) (4261, [11525])%N
 (Node (Node Leaf (4262, [11526])%N
 Leaf) (4263, [11527])%N
 Leaf)) (4264, [11528])%N
 (Node (Node (Node Leaf (4265, [11529])%N
 Leaf) (4266, [11530])%N
 Leaf) (4267, [11531])%N
 (Node Leaf (4268, [11532])%N
 Leaf))) (4269, [11533])%N
 (Node (Node (Node (Node Leaf (4270, [11534])%N
 Leaf) (4271, [11535])%N
 Leaf) (4272, [11536])%N
 (Node (Node Leaf (4273, [11537])%N
 Leaf) (4274, [11538])%N
 Leaf)) (4275, [11539])%N
 (Node (Node (Node Leaf (4276, [11540])%N
 Leaf) (4277, [11541])%N
 Leaf) (4278, [11542])%N
 (Node Leaf (4279, [11543])%N
 Leaf))))) (4280, [11544])%N
 (Node (Node (Node (Node (Node (Node Leaf (4281, [11545])%N
 Leaf) (4282, [11546])%N
 Leaf) (4283, [11547])%N
 (Node (Node Leaf (4284, [11548])%N
 Leaf) (4285, [11549])%N
 Leaf)) (4286, [11550])%N
 (Node (Node (Node Leaf (4287, [11551])%N
 Leaf) (4288, [11552])%N
 Leaf) (4289, [11553])%N
 (Node Leaf (4290, [11554])%N
 Leaf))) (4291, [11555])%N
 (Node (Node (Node (Node Leaf (4292, [11556])%N
 Leaf) (4293, [11557])%N
 Leaf) (4295, [11559])%N
 (Node (Node Leaf (4301, [11565])%N
 Leaf) (5024, [43888])%N
 Leaf)) (5025, [43889])%N
 (Node (Node (Node Leaf (5026, [43890])%N
 Leaf) (5027, [43891])%N
 Leaf) (5028, [43892])%N
 (Node Leaf (5029, [43893])%N
 Leaf)))) (5030, [43894])%N
 (Node (Node (Node (Node (Node Leaf (5031, [43895])%N
 Leaf) (5032, [43896])%N
 Leaf) (5033, [43897])%N
 (Node (Node Leaf (5034, [43898])%N
 Leaf) (5035, [43899])%N
 Leaf)) (5036, [43900])%N
 (Node (Node (Node Leaf (5037, [43901])%N
 Leaf) (5038, [43902])%N
 Leaf) (5039, [43903])%N
 (Node Leaf (5040, [43904])%N
 Leaf))) (5041, [43905])%N
 (Node (Node (Node (Node Leaf (5042, [43906])%N
 Leaf) (5043, [43907])%N
 Leaf) (5044, [43908])%N
 (Node (Node Leaf (5045, [43909])%N
 Leaf) (5046, [43910])%N
 Leaf)) (5047, [43911])%N
 (Node (Node (Node Leaf (5048, [43912])%N
 Leaf) (5049, [43913])%N
 Leaf) (5050, [43914])%N
 (Node Leaf (5051, [43915])%N
 Leaf))))))) (5052, [43916])%N
 (Node (Node (Node (Node (Node (Node (Node (Node Leaf (5053, [43917])%N
 Leaf) (5054, [43918])%N
 Leaf) (5055, [43919])%N
 (Node (Node Leaf (5056, [43920])%N
 Leaf) (5057, [43921])%N
 Leaf)) (5058, [43922])%N
 (Node (Node (Node Leaf (5059, [43923])%N
 Leaf) (5060, [43924])%N
 Leaf) (5061, [43925])%N
 (Node (Node Leaf (5062, [43926])%N
 Leaf) (5063, [43927])%N
 Leaf))) (5064, [43928])%N
 (Node (Node (Node (Node Leaf (5065, [43929])%N
 Leaf) (5066, [43930])%N
 Leaf) (5067, [43931])%N
 (Node (Node Leaf (5068, [43932])%N
 Leaf) (5069, [43933])%N
 Leaf)) (5070, [43934])%N
 (Node (Node (Node Leaf (5071, [43935])%N
 Leaf) (5072, [43936])%N
 Leaf) (5073, [43937])%N
 (Node Leaf (5074, [43938])%N
 Leaf)))) (5075, [43939])%N
 (Node (Node (Node (Node (Node Leaf (5076, [43940])%N
 Leaf) (5077, [43941])%N
 Leaf) (5078, [43942])%N
 (Node (Node Leaf (5079, [43943])%N
 Leaf) (5080, [43944])%N
 Leaf)) (5081, [43945])%N
 (Node (Node (Node Leaf (5082, [43946])%N
 Leaf) (5083, [43947])%N
 Leaf) (5084, [43948])%N
 (Node Leaf (5085, [43949])%N
 Leaf))) (5086, [43950])%N
 (Node (Node (Node (Node Leaf (5087, [43951])%N
 Leaf) (5088, [43952])%N
 Leaf) (5089, [43953])%N
 (Node (Node Leaf (5090, [43954])%N
 Leaf) (5091, [43955])%N
 Leaf)) (5092, [43956])%N
 (Node (Node (Node Leaf (5093, [43957])%N
 Leaf) (5094, [43958])%N
 Leaf) (5095, [43959])%N
 (Node Leaf (5096, [43960])%N
 Leaf))))) (5097, [43961])%N
 (Node (Node (Node (Node (Node (Node Leaf (5098, [43962])%N
 Leaf) (5099, [43963])%N
 Leaf) (5100, [43964])%N
 (Node (Node Leaf (5101, [43965])%N
 Leaf) (5102, [43966])%N
 Leaf)) (5103, [43967])%N
 (Node (Node (Node Leaf (5104, [5112])%N
 Leaf) (5105, [5113])%N
 Leaf) (5106, [5114])%N
 (Node (Node Leaf (5107, [5115])%N
 Leaf) (5108, [5116])%N
 Leaf))) (5109, [5117])%N
 (Node (Node (Node (Node Leaf (7312, [4304])%N
 Leaf) (7313, [4305])%N
 Leaf) (7314, [4306])%N
 (Node (Node Leaf (7315, [4307])%N
 Leaf) (7316, [4308])%N
 Leaf)) (7317, [4309])%N
 (Node (Node (Node Leaf (7318, [4310])%N
 Leaf) (7319, [4311])%N
 Leaf) (7320, [4312])%N
 (Node Leaf (7321, [4313])%N
 Leaf)))) (7322, [4314])%N
 (Node (Node (Node (Node (Node Leaf (7323, [4315])%N
 Leaf) (7324, [4316])%N
 Leaf) (7325, [4317])%N
 (Node (Node Leaf (7326, [4318])%N
 Leaf) (7327, [4319])%N
 Leaf)) (7328, [4320])%N
 (Node (Node (Node Leaf (7329, [4321])%N
 Leaf) (7330, [4322])%N
 Leaf) (7331, [4323])%N
 (Node Leaf (7332, [4324])%N
 Leaf))) (7333, [4325])%N
 (Node (Node (Node (Node Leaf (7334, [4326])%N
 Leaf) (7335, [4327])%N
 Leaf) (7336, [4328])%N
 (Node (Node Leaf (7337, [4329])%N
 Leaf) (7338, [4330])%N
 Leaf)) (7339, [4331])%N
 (Node (Node (Node Leaf (7340, [4332])%N
 Leaf) (7341, [4333])%N
 Leaf) (7342, [4334])%N
 (Node Leaf (7343, [4335])%N
 Leaf)))))) (7344, [4336])%N
 (Node (Node (Node (Node (Node (Node (Node Leaf (7345, [4337])%N
 Leaf) (7346, [4338])%N
 Leaf) (7347, [4339])%N
 (Node (Node Leaf (7348, [4340])%N
 Leaf) (7349, [4341])%N
 Leaf)) (7350, [4342])%N
 (Node (Node (Node Leaf (7351, [4343])%N
 Leaf) (7352, [4344])%N
 Leaf) (7353, [4345])%N
 (Node (Node Leaf (7354, [4346])%N
 Leaf) (7357, [4349])%N
 Leaf))) (7358, [4350])%N
 (Node (Node (Node (Node Leaf (7359, [4351])%N
 Leaf) (7680, [7681])%N
 Leaf) (7682, [7683])%N
 (Node (Node Leaf (7684, [7685])%N
 Leaf) (7686, [7687])%N
 Leaf)) (7688, [7689])%N
 (Node (Node (Node Leaf (7690, [7691])%N
 Leaf) (7692, [7693])%N
 Leaf) (7694, [7695])%N
 (Node Leaf (7696, [7697])%N
 Leaf)))) (7698, [7699])%N
 (Node (Node (Node (Node (Node Leaf (7700, [7701])%N
 Leaf) (7702, [7703])%N
 Leaf) (7704, [7705])%N
 (Node (Node Leaf (7706, [7707])%N
 Leaf) (7708, [7709])%N
 Leaf)) (7710, [7711])%N
 (Node (Node (Node Leaf (7712, [7713])%N
 Leaf) (7714, [7715])%N
 Leaf) (7716, [7717])%N
 (Node Leaf (7718, [7719])%N
 Leaf))) (7720, [7721])%N
 (Node (Node (Node (Node Leaf (7722, [7723])%N
 Leaf) (7724, [7725])%N
 Leaf) (7726, [7727])%N
 (Node (Node Leaf (7728, [7729])%N
 Leaf) (7730, [7731])%N
 Leaf)) (7732, [7733])%N
 (Node (Node (Node Leaf (7734, [7735])%N
 Leaf) (7736, [7737])%N
 Leaf) (7738, [7739])%N
 (Node Leaf (7740, [7741])%N
 Leaf))))) (7742, [7743])%N
 (Node (Node (Node (Node (Node (Node Leaf (7744, [7745])%N
 Leaf) (7746, [7747])%N
 Leaf) (7748, [7749])%N
 (Node (Node Leaf (7750, [7751])%N
 Leaf) (7752, [7753])%N
 Leaf)) (7754, [7755])%N
 (Node (Node (Node Leaf (7756, [7757])%N
 Leaf) (7758, [7759])%N
 Leaf) (7760, [7761])%N
 (Node Leaf (7762, [7763])%N
 Leaf))) (7764, [7765])%N
 (Node (Node (Node (Node Leaf (7766, [7767])%N
 Leaf) (7768, [7769])%N
 Leaf) (7770, [7771])%N
 (Node (Node Leaf (7772, [7773])%N
 Leaf) (7774, [7775])%N
 Leaf)) (7776, [7777])%N
 (Node (Node (Node Leaf (7778, [7779])%N
 Leaf) (7780, [7781])%N
 Leaf) (7782, [7783])%N
 (Node Leaf (7784, [7785])%N
 Leaf)))) (7786, [7787])%N
 (Node (Node (Node (Node (Node Leaf (7788, [7789])%N
 Leaf) (7790, [7791])%N
 Leaf) (7792, [7793])%N
 (Node (Node Leaf (7794, [7795])%N
 Leaf) (7796, [7797])%N
 Leaf)) (7798, [7799])%N
 (Node (Node (Node Leaf (7800, [7801])%N
 Leaf) (7802, [7803])%N
 Leaf) (7804, [7805])%N
 (Node Leaf (7806, [7807])%N
 Leaf))) (7808, [7809])%N
 (Node (Node (Node (Node Leaf (7810, [7811])%N
 Leaf) (7812, [7813])%N
 Leaf) (7814, [7815])%N
 (Node (Node Leaf (7816, [7817])%N
 Leaf) (7818, [7819])%N
 Leaf)) (7820, [7821])%N
 (Node (Node (Node Leaf (7822, [7823])%N
 Leaf) (7824, [7825])%N
 Leaf) (7826, [7827])%N
 (Node Leaf (7828, [7829])%N
 Leaf))))))))) (7838, [223])%N
 (Node (Node (Node (Node (Node (Node (Node (Node (Node (Node Leaf (7840, [7841])%N
 Leaf) (7842, [7843])%N
 Leaf) (7844, [7845])%N
 (Node (Node Leaf (7846, [7847])%N
 Leaf) (7848, [7849])%N
 Leaf)) (7850, [7851])%N
 (Node (Node (Node Leaf (7852, [7853])%N
 Leaf) (7854, [7855])%N
 Leaf) (7856, [7857])%N
 (Node (Node Leaf (7858, [7859])%N
 Leaf) (7860, [7861])%N
 Leaf))) (7862, [7863])%N
 (Node (Node (Node (Node Leaf (7864, [7865])%N
 Leaf) (7866, [7867])%N
 Leaf) (7868, [7869])%N
 (Node (Node Leaf (7870, [7871])%N
 Leaf) (7872, [7873])%N
 Leaf)) (7874, [7875])%N
 (Node (Node (Node Leaf (7876, [7877])%N
 Leaf) (7878, [7879])%N
 Leaf) (7880, [7881])%N
 (Node Leaf (7882, [7883])%N
 Leaf)))) (7884, [7885])%N
 (Node (Node (Node (Node (Node Leaf (7886, [7887])%N
 Leaf) (7888, [7889])%N
 Leaf) (7890, [7891])%N
 (Node (Node Leaf (7892, [7893])%N
 Leaf) (7894, [7895])%N
 Leaf)) (7896, [7897])%N
 (Node (Node (Node Leaf (7898, [7899])%N
 Leaf) (7900, [7901])%N
 Leaf) (7902, [7903])%N
 (Node Leaf (7904, [7905])%N
 Leaf))) (7906, [7907])%N
 (Node (Node (Node (Node Leaf (7908, [7909])%N
 Leaf) (7910, [7911])%N
 Leaf) (7912, [7913])%N
 (Node (Node Leaf (7914, [7915])%N
 Leaf) (7916, [7917])%N
 Leaf)) (7918, [7919])%N
 (Node (Node (Node Leaf (7920, [7921])%N
 Leaf) (7922, [7923])%N
 Leaf) (7924, [7925])%N
 (Node Leaf (7926, [7927])%N
 Leaf))))) (7928, [7929])%N
 (Node (Node (Node (Node (Node (Node Leaf (7930, [7931])%N
 Leaf) (7932, [7933])%N
 Leaf) (7934, [7935])%N
 (Node (Node Leaf (7944, [7936])%N
 Leaf) (7945, [7937])%N
 Leaf)) (7946, [7938])%N
 (Node (Node (Node Leaf (7947, [7939])%N
 Leaf) (7948, [7940])%N
 Leaf) (7949, [7941])%N
 (Node (Node Leaf (7950, [7942])%N
 Leaf) (7951, [7943])%N
 Leaf))) (7960, [7952])%N
 (Node (Node (Node (Node Leaf (7961, [7953])%N
 Leaf) (7962, [7954])%N
 Leaf) (7963, [7955])%N
 (Node (Node Leaf (7964, [7956])%N
 Leaf) (7965, [7957])%N
 Leaf)) (7976, [7968])%N
 (Node (Node (Node Leaf (7977, [7969])%N
 Leaf) (7978, [7970])%N
 Leaf) (7979, [7971])%N
 (Node Leaf (7980, [7972])%N
 Leaf)))) (7981, [7973])%N
 (Node (Node (Node (Node (Node Leaf (7982, [7974])%N
 Leaf) (7983, [7975])%N
 Leaf) (7992, [7984])%N
 (Node (Node Leaf (7993, [7985])%N
 Leaf) (7994, [7986])%N
 Leaf)) (7995, [7987])%N
 (Node (Node (Node Leaf (7996, [7988])%N
 Leaf) (7997, [7989])%N
 Leaf) (7998, [7990])%N
 (Node Leaf (7999, [7991])%N
 Leaf))) (8008, [8000])%N
 (Node (Node (Node (Node Leaf (8009, [8001])%N
 Leaf) (8010, [8002])%N
 Leaf) (8011, [8003])%N
 (Node (Node Leaf (8012, [8004])%N
 Leaf) (8013, [8005])%N
 Leaf)) (8025, [8017])%N
 (Node (Node (Node Leaf (8027, [8019])%N
 Leaf) (8029, [8021])%N
 Leaf) (8031, [8023])%N
 (Node Leaf (8040, [8032])%N
 Leaf)))))) (8041, [8033])%N
 (Node (Node (Node (Node (Node (Node (Node Leaf (8042, [8034])%N
 Leaf) (8043, [8035])%N
 Leaf) (8044, [8036])%N
 (Node (Node Leaf (8045, [8037])%N
 Leaf) (8046, [8038])%N
 Leaf)) (8047, [8039])%N
 (Node (Node (Node Leaf (8072, [8064])%N
 Leaf) (8073, [8065])%N
 Leaf) (8074, [8066])%N
 (Node (Node Leaf (8075, [8067])%N
 Leaf) (8076, [8068])%N
 Leaf))) (8077, [8069])%N
 (Node (Node (Node (Node Leaf (8078, [8070])%N
 Leaf) (8079, [8071])%N
 Leaf) (8088, [8080])%N
 (Node (Node Leaf (8089, [8081])%N
 Leaf) (8090, [8082])%N
 Leaf)) (8091, [8083])%N
 (Node (Node (Node Leaf (8092, [8084])%N
 Leaf) (8093, [8085])%N
 Leaf) (8094, [8086])%N
 (Node Leaf (8095, [8087])%N
 Leaf)))) (8104, [8096])%N
 (Node (Node (Node (Node (Node Leaf (8105, [8097])%N
 Leaf) (8106, [8098])%N
 Leaf) (8107, [8099])%N
 (Node (Node Leaf (8108, [8100])%N
 Leaf) (8109, [8101])%N
 Leaf)) (8110, [8102])%N
 (Node (Node (Node Leaf (8111, [8103])%N
 Leaf) (8120, [8112])%N
 Leaf) (8121, [8113])%N
 (Node Leaf (8122, [8048])%N
 Leaf))) (8123, [8049])%N
 (Node (Node (Node (Node Leaf (8124, [8115])%N
 Leaf) (8136, [8050])%N
 Leaf) (8137, [8051])%N
 (Node (Node Leaf (8138, [8052])%N
 Leaf) (8139, [8053])%N
 Leaf)) (8140, [8131])%N
 (Node (Node (Node Leaf (8152, [8144])%N
 Leaf) (8153, [8145])%N
 Leaf) (8154, [8054])%N
 (Node Leaf (8155, [8055])%N
 Leaf))))) (8168, [8160])%N
 (Node (Node (Node (Node (Node (Node Leaf (8169, [8161])%N
 Leaf) (8170, [8058])%N
 Leaf) (8171, [8059])%N
 (Node (Node Leaf (8172, [8165])%N
 Leaf) (8184, [8056])%N
 Leaf)) (8185, [8057])%N
 (Node (Node (Node Leaf (8186, [8060])%N
 Leaf) (8187, [8061])%N
 Leaf) (8188, [8179])%N
 (Node (Node Leaf (8486, [969])%N
 Leaf) (8490, [107])%N
 Leaf))) (8491, [229])%N
 (Node (Node (Node (Node Leaf (8498, [8526])%N
 Leaf) (8544, [8560])%N
 Leaf) (8545, [8561])%N
 (Node (Node Leaf (8546, [8562])%N
 Leaf) (8547, [8563])%N
 Leaf)) (8548, [8564])%N
 (Node (Node (Node Leaf (8549, [8565])%N
 Leaf) (8550, [8566])%N
 Leaf) (8551, [8567])%N
 (Node Leaf (8552, [8568])%N
 Leaf)))) (8553, [8569])%N
 (Node (Node (Node (Node (Node Leaf (8554, [8570])%N
 Leaf) (8555, [8571])%N
 Leaf) (8556, [8572])%N
 (Node (Node Leaf (8557, [8573])%N
 Leaf) (8558, [8574])%N
 Leaf)) (8559, [8575])%N
 (Node (Node (Node Leaf (8579, [8580])%N
 Leaf) (9398, [9424])%N
 Leaf) (9399, [9425])%N
 (Node Leaf (9400, [9426])%N
 Leaf))) (9401, [9427])%N
 (Node (Node (Node (Node Leaf (9402, [9428])%N
 Leaf) (9403, [9429])%N
 Leaf) (9404, [9430])%N
 (Node (Node Leaf (9405, [9431])%N
 Leaf) (9406, [9432])%N
 Leaf)) (9407, [9433])%N
 (Node (Node (Node Leaf (9408, [9434])%N
 Leaf) (9409, [9435])%N
 Leaf) (9410, [9436])%N
 (Node Leaf (9411, [9437])%N
 Leaf))))))) (9412, [9438])%N
 (Node (Node (Node (Node (Node (Node (Node (Node Leaf (9413, [9439])%N
 Leaf) (9414, [9440])%N
 Leaf) (9415, [9441])%N
 (Node (Node Leaf (9416, [9442])%N
 Leaf) (9417, [9443])%N
 Leaf)) (9418, [9444])%N
 (Node (Node (Node Leaf (9419, [9445])%N
 Leaf) (9420, [9446])%N
 Leaf) (9421, [9447])%N
 (Node (Node Leaf (9422, [9448])%N
 Leaf) (9423, [9449])%N
 Leaf))) (11264, [11312])%N
 (Node (Node (Node (Node Leaf (11265, [11313])%N
 Leaf) (11266, [11314])%N
 Leaf) (11267, [11315])%N
 (Node (Node Leaf (11268, [11316])%N
 Leaf) (11269, [11317])%N
 Leaf)) (11270, [11318])%N
 (Node (Node (Node Leaf (11271, [11319])%N
 Leaf) (11272, [11320])%N
 Leaf) (11273, [11321])%N
 (Node Leaf (11274, [11322])%N
 Leaf)))) (11275, [11323])%N
 (Node (Node (Node (Node (Node Leaf (11276, [11324])%N
 Leaf) (11277, [11325])%N
 Leaf) (11278, [11326])%N
 (Node (Node Leaf (11279, [11327])%N
 Leaf) (11280, [11328])%N
 Leaf)) (11281, [11329])%N
 (Node (Node (Node Leaf (11282, [11330])%N
 Leaf) (11283, [11331])%N
 Leaf) (11284, [11332])%N
 (Node Leaf (11285, [11333])%N
 Leaf))) (11286, [11334])%N
 (Node (Node (Node (Node Leaf (11287, [11335])%N
 Leaf) (11288, [11336])%N
 Leaf) (11289, [11337])%N
 (Node (Node Leaf (11290, [11338])%N
 Leaf) (11291, [11339])%N
 Leaf)) (11292, [11340])%N
 (Node (Node (Node Leaf (11293, [11341])%N
 Leaf) (11294, [11342])%N
 Leaf) (11295, [11343])%N
 (Node Leaf (11296, [11344])%N
 Leaf))))) (11297, [11345])%N
 (Node (Node (Node (Node (Node (Node Leaf (11298, [11346])%N
 Leaf) (11299, [11347])%N
 Leaf) (11300, [11348])%N
 (Node (Node Leaf (11301, [11349])%N
 Leaf) (11302, [11350])%N
 Leaf)) (11303, [11351])%N
 (Node (Node (Node Leaf (11304, [11352])%N
 Leaf) (11305, [11353])%N
 Leaf) (11306, [11354])%N
 (Node (Node Leaf (11307, [11355])%N
 Leaf) (11308, [11356])%N
 Leaf))) (11309, [11357])%N
 (Node (Node (Node (Node Leaf (11310, [11358])%N
 Leaf) (11311, [11359])%N
 Leaf) (11360, [11361])%N
 (Node (Node Leaf (11362, [619])%N
 Leaf) (11363, [7549])%N
 Leaf)) (11364, [637])%N
 (Node (Node (Node Leaf (11367, [11368])%N
 Leaf) (11369, [11370])%N
 Leaf) (11371, [11372])%N
 (Node Leaf (11373, [593])%N
 Leaf)))) (11374, [625])%N
 (Node (Node (Node (Node (Node Leaf (11375, [592])%N
 Leaf) (11376, [594])%N
 Leaf) (11378, [11379])%N
 (Node (Node Leaf (11381, [11382])%N
 Leaf) (11390, [575])%N
 Leaf)) (11391, [576])%N
 (Node (Node (Node Leaf (11392, [11393])%N
 Leaf) (11394, [11395])%N
 Leaf) (11396, [11397])%N
 (Node Leaf (11398, [11399])%N
 Leaf))) (11400, [11401])%N
 (Node (Node (Node (Node Leaf (11402, [11403])%N
 Leaf) (11404, [11405])%N
 Leaf) (11406, [11407])%N
 (Node (Node Leaf (11408, [11409])%N
 Leaf) (11410, [11411])%N
 Leaf)) (11412, [11413])%N
 (Node (Node (Node Leaf (11414, [11415])%N
 Leaf) (11416, [11417])%N
 Leaf) (11418, [11419])%N
 (Node Leaf (11420, [11421])%N
 Leaf)))))) (11422, [11423])%N
 (Node (Node (Node (Node (Node (Node (Node Leaf (11424, [11425])%N
 Leaf) (11426, [11427])%N
 Leaf) (11428, [11429])%N
 (Node (Node Leaf (11430, [11431])%N
 Leaf) (11432, [11433])%N
 Leaf)) (11434, [11435])%N
 (Node (Node (Node Leaf (11436, [11437])%N
 Leaf) (11438, [11439])%N
 Leaf) (11440, [11441])%N
 (Node (Node Leaf (11442, [11443])%N
 Leaf) (11444, [11445])%N
 Leaf))) (11446, [11447])%N
 (Node (Node (Node (Node Leaf (11448, [11449])%N
 Leaf) (11450, [11451])%N
 Leaf) (11452, [11453])%N
 (Node (Node Leaf (11454, [11455])%N
 Leaf) (11456, [11457])%N
 Leaf)) (11458, [11459])%N
 (Node (Node (Node Leaf (11460, [11461])%N
 Leaf) (11462, [11463])%N
 Leaf) (11464, [11465])%N
 (Node Leaf (11466, [11467])%N
 Leaf)))) (11468, [11469])%N
 (Node (Node (Node (Node (Node Leaf (11470, [11471])%N
 Leaf) (11472, [11473])%N
 Leaf) (11474, [11475])%N
 (Node (Node Leaf (11476, [11477])%N
 Leaf) (11478, [11479])%N
 Leaf)) (11480, [11481])%N
 (Node (Node (Node Leaf (11482, [11483])%N
 Leaf) (11484, [11485])%N
 Leaf) (11486, [11487])%N
 (Node Leaf (11488, [11489])%N
 Leaf))) (11490, [11491])%N
 (Node (Node (Node (Node Leaf (11499, [11500])%N
 Leaf) (11501, [11502])%N
 Leaf) (11506, [11507])%N
 (Node (Node Leaf (42560, [42561])%N
 Leaf) (42562, [42563])%N
 Leaf)) (42564, [42565])%N
 (Node (Node (Node Leaf (42566, [42567])%N
 Leaf) (42568, [42569])%N
 Leaf) (42570, [42571])%N
 (Node Leaf (42572, [42573])%N
 Leaf))))) (42574, [42575])%N
 (Node (Node (Node (Node (Node (Node Leaf (42576, [42577])%N
 Leaf) (42578, [42579])%N
 Leaf) (42580, [42581])%N
 (Node (Node Leaf (42582, [42583])%N
 Leaf) (42584, [42585])%N
 Leaf)) (42586, [42587])%N
 (Node (Node (Node Leaf (42588, [42589])%N
 Leaf) (42590, [42591])%N
 Leaf) (42592, [42593])%N
 (Node Leaf (42594, [42595])%N
 Leaf))) (42596, [42597])%N
 (Node (Node (Node (Node Leaf (42598, [42599])%N
 Leaf) (42600, [42601])%N
 Leaf) (42602, [42603])%N
 (Node (Node Leaf (42604, [42605])%N
 Leaf) (42624, [42625])%N
 Leaf)) (42626, [42627])%N
 (Node (Node (Node Leaf (42628, [42629])%N
 Leaf) (42630, [42631])%N
 Leaf) (42632, [42633])%N
 (Node Leaf (42634, [42635])%N
 Leaf)))) (42636, [42637])%N
 (Node (Node (Node (Node (Node Leaf (42638, [42639])%N
 Leaf) (42640, [42641])%N
 Leaf) (42642, [42643])%N
 (Node (Node Leaf (42644, [42645])%N
 Leaf) (42646, [42647])%N
 Leaf)) (42648, [42649])%N
 (Node (Node (Node Leaf (42650, [42651])%N
 Leaf) (42786, [42787])%N
 Leaf) (42788, [42789])%N
 (Node Leaf (42790, [42791])%N
 Leaf))) (42792, [42793])%N
 (Node (Node (Node (Node Leaf (42794, [42795])%N
 Leaf) (42796, [42797])%N
 Leaf) (42798, [42799])%N
 (Node (Node Leaf (42802, [42803])%N
 Leaf) (42804, [42805])%N
 Leaf)) (42806, [42807])%N
 (Node (Node (Node Leaf (42808, [42809])%N
 Leaf) (42810, [42811])%N
 Leaf) (42812, [42813])%N
 (Node Leaf (42814, [42815])%N
 Leaf)))))))) (42816, [42817])%N
 (Node (Node (Node (Node (Node (Node (Node (Node (Node Leaf (42818, [42819])%N
 Leaf) (42820, [42821])%N
 Leaf) (42822, [42823])%N
 (Node (Node Leaf (42824, [42825])%N
 Leaf) (42826, [42827])%N
 Leaf)) (42828, [42829])%N
 (Node (Node (Node Leaf (42830, [42831])%N
 Leaf) (42832, [42833])%N
 Leaf) (42834, [42835])%N
 (Node (Node Leaf (42836, [42837])%N
 Leaf) (42838, [42839])%N
 Leaf))) (42840, [42841])%N
 (Node (Node (Node (Node Leaf (42842, [42843])%N
 Leaf) (42844, [42845])%N
 Leaf) (42846, [42847])%N
 (Node (Node Leaf (42848, [42849])%N
 Leaf) (42850, [42851])%N
 Leaf)) (42852, [42853])%N
 (Node (Node (Node Leaf (42854, [42855])%N
 Leaf) (42856, [42857])%N
 Leaf) (42858, [42859])%N
 (Node Leaf (42860, [42861])%N
 Leaf)))) (42862, [42863])%N
 (Node (Node (Node (Node (Node Leaf (42873, [42874])%N
 Leaf) (42875, [42876])%N
 Leaf) (42877, [7545])%N
 (Node (Node Leaf (42878, [42879])%N
 Leaf) (42880, [42881])%N
 Leaf)) (42882, [42883])%N
 (Node (Node (Node Leaf (42884, [42885])%N
 Leaf) (42886, [42887])%N
 Leaf) (42891, [42892])%N
 (Node Leaf (42893, [613])%N
 Leaf))) (42896, [42897])%N
 (Node (Node (Node (Node Leaf (42898, [42899])%N
 Leaf) (42902, [42903])%N
 Leaf) (42904, [42905])%N
 (Node (Node Leaf (42906, [42907])%N
 Leaf) (42908, [42909])%N
 Leaf)) (42910, [42911])%N
 (Node (Node (Node Leaf (42912, [42913])%N
 Leaf) (42914, [42915])%N
 Leaf) (42916, [42917])%N
 (Node Leaf (42918, [42919])%N
 Leaf))))) (42920, [42921])%N
 (Node (Node (Node (Node (Node (Node Leaf (42922, [614])%N
 Leaf) (42923, [604])%N
 Leaf) (42924, [609])%N
 (Node (Node Leaf (42925, [620])%N
 Leaf) (42926, [618])%N
 Leaf)) (42928, [670])%N
 (Node (Node (Node Leaf (42929, [647])%N
 Leaf) (42930, [669])%N
 Leaf) (42931, [43859])%N
 (Node (Node Leaf (42932, [42933])%N
 Leaf) (42934, [42935])%N
 Leaf))) (42936, [42937])%N
 (Node (Node (Node (Node Leaf (42938, [42939])%N
 Leaf) (42940, [42941])%N
 Leaf) (42942, [42943])%N
 (Node (Node Leaf (42944, [42945])%N
 Leaf) (42946, [42947])%N
 Leaf)) (42948, [42900])%N
 (Node (Node (Node Leaf (42949, [642])%N
 Leaf) (42950, [7566])%N
 Leaf) (42951, [42952])%N
 (Node Leaf (42953, [42954])%N
 Leaf)))) (42960, [42961])%N
 (Node (Node (Node (Node (Node Leaf (42966, [42967])%N
 Leaf) (42968, [42969])%N
 Leaf) (42997, [42998])%N
 (Node (Node Leaf (65313, [65345])%N
 Leaf) (65314, [65346])%N
 Leaf)) (65315, [65347])%N
 (Node (Node (Node Leaf (65316, [65348])%N
 Leaf) (65317, [65349])%N
 Leaf) (65318, [65350])%N
 (Node Leaf (65319, [65351])%N
 Leaf))) (65320, [65352])%N
 (Node (Node (Node (Node Leaf (65321, [65353])%N
 Leaf) (65322, [65354])%N
 Leaf) (65323, [65355])%N
 (Node (Node Leaf (65324, [65356])%N
 Leaf) (65325, [65357])%N
 Leaf)) (65326, [65358])%N
 (Node (Node (Node Leaf (65327, [65359])%N
 Leaf) (65328, [65360])%N
 Leaf) (65329, [65361])%N
 (Node Leaf (65330, [65362])%N
 Leaf)))))) (65331, [65363])%N
 (Node (Node (Node (Node (Node (Node (Node Leaf (65332, [65364])%N
 Leaf) (65333, [65365])%N
 Leaf) (65334, [65366])%N
 (Node (Node Leaf (65335, [65367])%N
 Leaf) (65336, [65368])%N
 Leaf)) (65337, [65369])%N
 (Node (Node (Node Leaf (65338, [65370])%N
 Leaf) (66560, [66600])%N
 Leaf) (66561, [66601])%N
 (Node (Node Leaf (66562, [66602])%N
 Leaf) (66563, [66603])%N
 Leaf))) (66564, [66604])%N
 (Node (Node (Node (Node Leaf (66565, [66605])%N
 Leaf) (66566, [66606])%N
 Leaf) (66567, [66607])%N
 (Node (Node Leaf (66568, [66608])%N
 Leaf) (66569, [66609])%N
 Leaf)) (66570, [66610])%N
 (Node (Node (Node Leaf (66571, [66611])%N
 Leaf) (66572, [66612])%N
 Leaf) (66573, [66613])%N
 (Node Leaf (66574, [66614])%N
 Leaf)))) (66575, [66615])%N
 (Node (Node (Node (Node (Node Leaf (66576, [66616])%N
 Leaf) (66577, [66617])%N
 Leaf) (66578, [66618])%N
 (Node (Node Leaf (66579, [66619])%N
 Leaf) (66580, [66620])%N
 Leaf)) (66581, [66621])%N
 (Node (Node (Node Leaf (66582, [66622])%N
 Leaf) (66583, [66623])%N
 Leaf) (66584, [66624])%N
 (Node Leaf (66585, [66625])%N
 Leaf))) (66586, [66626])%N
 (Node (Node (Node (Node Leaf (66587, [66627])%N
 Leaf) (66588, [66628])%N
 Leaf) (66589, [66629])%N
 (Node (Node Leaf (66590, [66630])%N
 Leaf) (66591, [66631])%N
 Leaf)) (66592, [66632])%N
 (Node (Node (Node Leaf (66593, [66633])%N
 Leaf) (66594, [66634])%N
 Leaf) (66595, [66635])%N
 (Node Leaf (66596, [66636])%N
 Leaf))))) (66597, [66637])%N
 (Node (Node (Node (Node (Node (Node Leaf (66598, [66638])%N
 Leaf) (66599, [66639])%N
 Leaf) (66736, [66776])%N
 (Node (Node Leaf (66737, [66777])%N
 Leaf) (66738, [66778])%N
 Leaf)) (66739, [66779])%N
 (Node (Node (Node Leaf (66740, [66780])%N
 Leaf) (66741, [66781])%N
 Leaf) (66742, [66782])%N
 (Node Leaf (66743, [66783])%N
 Leaf))) (66744, [66784])%N
 (Node (Node (Node (Node Leaf (66745, [66785])%N
 Leaf) (66746, [66786])%N
 Leaf) (66747, [66787])%N
 (Node (Node Leaf (66748, [66788])%N
 Leaf) (66749, [66789])%N
 Leaf)) (66750, [66790])%N
 (Node (Node (Node Leaf (66751, [66791])%N
 Leaf) (66752, [66792])%N
 Leaf) (66753, [66793])%N
 (Node Leaf (66754, [66794])%N
 Leaf)))) (66755, [66795])%N
 (Node (Node (Node (Node (Node Leaf (66756, [66796])%N
 Leaf) (66757, [66797])%N
 Leaf) (66758, [66798])%N
 (Node (Node Leaf (66759, [66799])%N
 Leaf) (66760, [66800])%N
 Leaf)) (66761, [66801])%N
 (Node (Node (Node Leaf (66762, [66802])%N
 Leaf) (66763, [66803])%N
 Leaf) (66764, [66804])%N
 (Node Leaf (66765, [66805])%N
 Leaf))) (66766, [66806])%N
 (Node (Node (Node (Node Leaf (66767, [66807])%N
 Leaf) (66768, [66808])%N
 Leaf) (66769, [66809])%N
 (Node (Node Leaf (66770, [66810])%N
 Leaf) (66771, [66811])%N
 Leaf)) (66928, [66967])%N
 (Node (Node (Node Leaf (66929, [66968])%N
 Leaf) (66930, [66969])%N
 Leaf) (66931, [66970])%N
 (Node Leaf (66932, [66971])%N
 Leaf))))))) (66933, [66972])%N
 (Node (Node (Node (Node (Node (Node (Node (Node Leaf (66934, [66973])%N
 Leaf) (66935, [66974])%N
 Leaf) (66936, [66975])%N
 (Node (Node Leaf (66937, [66976])%N
 Leaf) (66938, [66977])%N
 Leaf)) (66940, [66979])%N
 (Node (Node (Node Leaf (66941, [66980])%N
 Leaf) (66942, [66981])%N
 Leaf) (66943, [66982])%N
 (Node (Node Leaf (66944, [66983])%N
 Leaf) (66945, [66984])%N
 Leaf))) (66946, [66985])%N
 (Node (Node (Node (Node Leaf (66947, [66986])%N
 Leaf) (66948, [66987])%N
 Leaf) (66949, [66988])%N
 (Node (Node Leaf (66950, [66989])%N
 Leaf) (66951, [66990])%N
 Leaf)) (66952, [66991])%N
 (Node (Node (Node Leaf (66953, [66992])%N
 Leaf) (66954, [66993])%N
 Leaf) (66956, [66995])%N
 (Node Leaf (66957, [66996])%N
 Leaf)))) (66958, [66997])%N
 (Node (Node (Node (Node (Node Leaf (66959, [66998])%N
 Leaf) (66960, [66999])%N
 Leaf) (66961, [67000])%N
 (Node (Node Leaf (66962, [67001])%N
 Leaf) (66964, [67003])%N
 Leaf)) (66965, [67004])%N
 (Node (Node (Node Leaf (68736, [68800])%N
 Leaf) (68737, [68801])%N
 Leaf) (68738, [68802])%N
 (Node Leaf (68739, [68803])%N
 Leaf))) (68740, [68804])%N
 (Node (Node (Node (Node Leaf (68741, [68805])%N
 Leaf) (68742, [68806])%N
 Leaf) (68743, [68807])%N
 (Node (Node Leaf (68744, [68808])%N
 Leaf) (68745, [68809])%N
 Leaf)) (68746, [68810])%N
 (Node (Node (Node Leaf (68747, [68811])%N
 Leaf) (68748, [68812])%N
 Leaf) (68749, [68813])%N
 (Node Leaf (68750, [68814])%N
 Leaf))))) (68751, [68815])%N
 (Node (Node (Node (Node (Node (Node Leaf (68752, [68816])%N
 Leaf) (68753, [68817])%N
 Leaf) (68754, [68818])%N
 (Node (Node Leaf (68755, [68819])%N
 Leaf) (68756, [68820])%N
 Leaf)) (68757, [68821])%N
 (Node (Node (Node Leaf (68758, [68822])%N
 Leaf) (68759, [68823])%N
 Leaf) (68760, [68824])%N
 (Node (Node Leaf (68761, [68825])%N
 Leaf) (68762, [68826])%N
 Leaf))) (68763, [68827])%N
 (Node (Node (Node (Node Leaf (68764, [68828])%N
 Leaf) (68765, [68829])%N
 Leaf) (68766, [68830])%N
 (Node (Node Leaf (68767, [68831])%N
 Leaf) (68768, [68832])%N
 Leaf)) (68769, [68833])%N
 (Node (Node (Node Leaf (68770, [68834])%N
 Leaf) (68771, [68835])%N
 Leaf) (68772, [68836])%N
 (Node Leaf (68773, [68837])%N
 Leaf)))) (68774, [68838])%N
 (Node (Node (Node (Node (Node Leaf (68775, [68839])%N
 Leaf) (68776, [68840])%N
 Leaf) (68777, [68841])%N
 (Node (Node Leaf (68778, [68842])%N
 Leaf) (68779, [68843])%N
 Leaf)) (68780, [68844])%N
 (Node (Node (Node Leaf (68781, [68845])%N
 Leaf) (68782, [68846])%N
 Leaf) (68783, [68847])%N
 (Node Leaf (68784, [68848])%N
 Leaf))) (68785, [68849])%N
 (Node (Node (Node (Node Leaf (68786, [68850])%N
 Leaf) (71840, [71872])%N
 Leaf) (71841, [71873])%N
 (Node (Node Leaf (71842, [71874])%N
 Leaf) (71843, [71875])%N
 Leaf)) (71844, [71876])%N
 (Node (Node (Node Leaf (71845, [71877])%N
 Leaf) (71846, [71878])%N
 Leaf) (71847, [71879])%N
 (Node Leaf (71848, [71880])%N
 Leaf)))))) (71849, [71881])%N
 (Node (Node (Node (Node (Node (Node (Node Leaf (71850, [71882])%N
 Leaf) (71851, [71883])%N
 Leaf) (71852, [71884])%N
 (Node (Node Leaf (71853, [71885])%N
 Leaf) (71854, [71886])%N
 Leaf)) (71855, [71887])%N
 (Node (Node (Node Leaf (71856, [71888])%N
 Leaf) (71857, [71889])%N
 Leaf) (71858, [71890])%N
 (Node (Node Leaf (71859, [71891])%N
 Leaf) (71860, [71892])%N
 Leaf))) (71861, [71893])%N
 (Node (Node (Node (Node Leaf (71862, [71894])%N
 Leaf) (71863, [71895])%N
 Leaf) (71864, [71896])%N
 (Node (Node Leaf (71865, [71897])%N
 Leaf) (71866, [71898])%N
 Leaf)) (71867, [71899])%N
 (Node (Node (Node Leaf (71868, [71900])%N
 Leaf) (71869, [71901])%N
 Leaf) (71870, [71902])%N
 (Node Leaf (71871, [71903])%N
 Leaf)))) (93760, [93792])%N
 (Node (Node (Node (Node (Node Leaf (93761, [93793])%N
 Leaf) (93762, [93794])%N
 Leaf) (93763, [93795])%N
 (Node (Node Leaf (93764, [93796])%N
 Leaf) (93765, [93797])%N
 Leaf)) (93766, [93798])%N
 (Node (Node (Node Leaf (93767, [93799])%N
 Leaf) (93768, [93800])%N
 Leaf) (93769, [93801])%N
 (Node Leaf (93770, [93802])%N
 Leaf))) (93771, [93803])%N
 (Node (Node (Node (Node Leaf (93772, [93804])%N
 Leaf) (93773, [93805])%N
 Leaf) (93774, [93806])%N
 (Node (Node Leaf (93775, [93807])%N
 Leaf) (93776, [93808])%N
 Leaf)) (93777, [93809])%N
 (Node (Node (Node Leaf (93778, [93810])%N
 Leaf) (93779, [93811])%N
 Leaf) (93780, [93812])%N
 (Node Leaf (93781, [93813])%N
 Leaf))))) (93782, [93814])%N
 (Node (Node (Node (Node (Node (Node Leaf (93783, [93815])%N
 Leaf) (93784, [93816])%N
 Leaf) (93785, [93817])%N
 (Node (Node Leaf (93786, [93818])%N
 Leaf) (93787, [93819])%N
 Leaf)) (93788, [93820])%N
 (Node (Node (Node Leaf (93789, [93821])%N
 Leaf) (93790, [93822])%N
 Leaf) (93791, [93823])%N
 (Node Leaf (125184, [125218])%N
 Leaf))) (125185, [125219])%N
 (Node (Node (Node (Node Leaf (125186, [125220])%N
 Leaf) (125187, [125221])%N
 Leaf) (125188, [125222])%N
 (Node (Node Leaf (125189, [125223])%N
 Leaf) (125190, [125224])%N
 Leaf)) (125191, [125225])%N
 (Node (Node (Node Leaf (125192, [125226])%N
 Leaf) (125193, [125227])%N
 Leaf) (125194, [125228])%N
 (Node Leaf (125195, [125229])%N
 Leaf)))) (125196, [125230])%N
 (Node (Node (Node (Node (Node Leaf (125197, [125231])%N
 Leaf) (125198, [125232])%N
 Leaf) (125199, [125233])%N
 (Node (Node Leaf (125200, [125234])%N
 Leaf) (125201, [125235])%N
 Leaf)) (125202, [125236])%N
 (Node (Node (Node Leaf (125203, [125237])%N
 Leaf) (125204, [125238])%N
 Leaf) (125205, [125239])%N
 (Node Leaf (125206, [125240])%N
 Leaf))) (125207, [125241])%N
 (Node (Node (Node (Node Leaf (125208, [125242])%N
 Leaf) (125209, [125243])%N
 Leaf) (125210, [125244])%N
 (Node (Node Leaf (125211, [125245])%N
 Leaf) (125212, [125246])%N
 Leaf)) (125213, [125247])%N
 (Node (Node (Node Leaf (125214, [125248])%N
 Leaf) (125215, [125249])%N
 Leaf) (125216, [125250])%N
 (Node Leaf (125217, [125251])%N
 Leaf)))))))))).

(** char::to_uppercase where it is not the identity. *)
Definition upper_entries : tree (N * list N) :=
 (Node (Node (Node (Node (Node (Node (Node (Node (Node (Node (Node Leaf (97, [65])%N
 Leaf) (98, [66])%N
 Leaf) (99, [67])%N
 (Node (Node Leaf (100, [68])%N
 Leaf) (101, [69])%N
 Leaf)) (102, [70])%N
 (Node (Node (Node Leaf (103, [71])%N
 Leaf) (104, [72])%N
 Leaf) (105, [73])%N
 (Node (Node Leaf (106, [74])%N
 Leaf) (107, [75])%N
 Leaf))) (108, [76])%N
 (Node (Node (Node (Node Leaf (109, [77])%N
 Leaf) (110, [78])%N
 Leaf) (111, [79])%N
 (Node (Node Leaf (112, [80])%N
 Leaf) (113, [81])%N
 Leaf)) (114, [82])%N
 (Node (Node (Node Leaf (115, [83])%N
 Leaf) (116, [84])%N
 Leaf) (117, [85])%N
 (Node (Node Leaf (118, [86])%N
 Leaf) (119, [87])%N
 Leaf)))) (120, [88])%N
 (Node (Node (Node (Node (Node Leaf (121, [89])%N
 Leaf) (122, [90])%N
 Leaf) (181, [924])%N
 (Node (Node Leaf (223, [83; 83])%N
 Leaf) (224, [192])%N
 Leaf)) (225, [193])%N
 (Node (Node (Node Leaf (226, [194])%N
 Leaf) (227, [195])%N
 Leaf) (228, [196])%N
 (Node (Node Leaf (229, [197])%N
 Leaf) (230, [198])%N
 Leaf))) (231, [199])%N
 (Node (Node (Node (Node Leaf (232, [200])%N
 Leaf) (233, [201])%N
 Leaf) (234, [202])%N
 (Node (Node Leaf (235, [203])%N
 Leaf) (236, [204])%N
 Leaf)) (237, [205])%N
 (Node (Node (Node Leaf (238, [206])%N
 Leaf) (239, [207])%N
 Leaf) (240, [208])%N
 (Node (Node Leaf (241, [209])%N
 Leaf) (242, [210])%N
 Leaf))))) (243, [211])%N
 (Node (Node (Node (Node (Node (Node Leaf (244, [212])%N
 Leaf) (245, [213])%N
 Leaf) (246, [214])%N
 (Node (Node Leaf (248, [216])%N
 Leaf) (249, [217])%N
 Leaf)) (250, [218])%N
 (Node (Node (Node Leaf (251, [219])%N
 Leaf) (252, [220])%N
 Leaf) (253, [221])%N
 (Node (Node Leaf (254, [222])%N
 Leaf) (255, [376])%N
 Leaf))) (257, [256])%N
 (Node (Node (Node (Node Leaf (259, [258])%N
 Leaf) (261, [260])%N
 Leaf) (263, [262])%N
 (Node (Node Leaf (265, [264])%N
 Leaf) (267, [266])%N
 Leaf)) (269, [268])%N
 (Node (Node (Node Leaf (271, [270])%N
 Leaf) (273, [272])%N
 Leaf) (275, [274])%N
 (Node (Node Leaf (277, [276])%N
 Leaf) (279, [278])%N
 Leaf)))) (281, [280])%N
 (Node (Node (Node (Node (Node Leaf (283, [282])%N
 Leaf) (285, [284])%N
 Leaf) (287, [286])%N
 (Node (Node Leaf (289, [288])%N
 Leaf) (291, [290])%N
 Leaf)) (293, [292])%N
 (Node (Node (Node Leaf (295, [294])%N
 Leaf) (297, [296])%N
 Leaf) (299, [298])%N
 (Node (Node Leaf (301, [300])%N
 Leaf) (303, [302])%N
 Leaf))) (305, [73])%N
 (Node (Node (Node (Node Leaf (307, [306])%N
 Leaf) (309, [308])%N
 Leaf) (311, [310])%N
 (Node (Node Leaf (314, [313])%N
 Leaf) (316, [315])%N
 Leaf)) (318, [317])%N
 (Node (Node (Node Leaf (320, [319])%N
 Leaf) (322, [321])%N
 Leaf) (324, [323])%N
 (Node (Node Leaf (326, [325])%N
 Leaf) (328, [327])%N
 Leaf)))))) (329, [700; 78])%N
 (Node (Node (Node (Node (Node (Node (Node Leaf (331, [330])%N
 Leaf) (333, [332])%N
 Leaf) (335, [334])%N
 (Node (Node Leaf (337, [336])%N
 Leaf) (339, [338])%N
 Leaf)) (341, [340])%N
 (Node (Node (Node Leaf (343, [342])%N
 Leaf) (345, [344])%N
 Leaf) (347, [346])%N
 (Node (Node Leaf (349, [348])%N
 Leaf) (351, [350])%N
 Leaf))) (353, [352])%N
 (Node (Node (Node (Node Leaf (355, [354])%N
 Leaf) (357, [356])%N
 Leaf) (359, [358])%N
 (Node (Node Leaf (361, [360])%N
 Leaf) (363, [362])%N
 Leaf)) (365, [364])%N
 (Node (Node (Node Leaf (367, [366])%N
 Leaf) (369, [368])%N
 Leaf) (371, [370])%N
 (Node (Node Leaf (373, [372])%N
 Leaf) (375, [374])%N
 Leaf)))) (378, [377])%N
 (Node (Node (Node (Node (Node Leaf (380, [379])%N
 Leaf) (382, [381])%N
 Leaf) (383, [83])%N
 (Node (Node Leaf (384, [579])%N
 Leaf) (387, [386])%N
 Leaf)) (389, [388])%N
 (Node (Node (Node Leaf (392, [391])%N
 Leaf) (396, [395])%N
 Leaf) (402, [401])%N
 (Node (Node Leaf (405, [502])%N
 Leaf) (409, [408])%N
 Leaf))) (410, [573])%N
 (Node (Node (Node (Node Leaf (414, [544])%N
 Leaf) (417, [416])%N
 Leaf) (419, [418])%N
 (Node (Node Leaf (421, [420])%N
 Leaf) (424, [423])%N
 Leaf)) (429, [428])%N
 (Node (Node (Node Leaf (432, [431])%N
 Leaf) (436, [435])%N
 Leaf) (438, [437])%N
 (Node (Node Leaf (441, [440])%N
 Leaf) (445, [444])%N
 Leaf))))) (447, [503])%N
 (Node (Node (Node (Node (Node (Node Leaf (453, [452])%N
 Leaf) (454, [452])%N
 Leaf) (456, [455])%N
 (Node (Node Leaf (457, [455])%N
 Leaf) (459, [458])%N
 Leaf)) (460, [458])%N
 (Node (Node (Node Leaf (462, [461])%N
 Leaf) (464, [463])%N
 Leaf) (466, [465])%N
 (Node (Node Leaf (468, [467])%N
 Leaf) (470, [469])%N
 Leaf))) (472, [471])%N
 (Node (Node (Node (Node Leaf (474, [473])%N
 Leaf) (476, [475])%N
 Leaf) (477, [398])%N
 (Node (Node Leaf (479, [478])%N
 Leaf) (481, [480])%N
 Leaf)) (483, [482])%N
 (Node (Node (Node Leaf (485, [484])%N
 Leaf) (487, [486])%N
 Leaf) (489, [488])%N
 (Node (Node Leaf (491, [490])%N
 Leaf) (493, [492])%N
 Leaf)))) (495, [494])%N
 (Node (Node (Node (Node (Node Leaf (496, [74; 780])%N
 Leaf) (498, [497])%N
 Leaf) (499, [497])%N
 (Node (Node Leaf (501, [500])%N
 Leaf) (505, [504])%N
 Leaf)) (507, [506])%N
 (Node (Node (Node Leaf (509, [508])%N
 Leaf) (511, [510])%N
 Leaf) (513, [512])%N
 (Node (Node Leaf (515, [514])%N
 Leaf) (517, [516])%N
 Leaf))) (519, [518])%N
 (Node (Node (Node (Node Leaf (521, [520])%N
 Leaf) (523, [522])%N
 Leaf) (525, [524])%N
 (Node (Node Leaf (527, [526])%N
 Leaf) (529, [528])%N
 Leaf)) (531, [530])%N
 (Node (Node (Node Leaf (533, [532])%N
 Leaf) (535, [534])%N
 Leaf) (537, [536])%N
 (Node Leaf (539, [538])%N
 Leaf))))))) (541, [540])%N
 (Node (Node (Node (Node (Node (Node (Node (Node Leaf (543, [542])%N
 Leaf) (547, [546])%N
 Leaf) (549, [548])%N
 (Node (Node Leaf (551, [550])%N
 Leaf) (553, [552])%N
 Leaf)) (555, [554])%N
 (Node (Node (Node Leaf (557, [556])%N
 Leaf) (559, [558])%N
 Leaf) (561, [560])%N
 (Node (Node Leaf (563, [562])%N
 Leaf) (572, [571])%N
 Leaf))) (575, [11390])%N
 (Node (Node (Node (Node Leaf (576, [11391])%N
 Leaf) (578, [577])%N
 Leaf) (583, [582])%N
 (Node (Node Leaf (585, [584])%N
 Leaf) (587, [586])%N
 Leaf)) (589, [588])%N
 (Node (Node (Node Leaf (591, [590])%N
 Leaf) (592, [11375])%N
 Leaf) (593, [11373])%N
 (Node (Node Leaf (594, [11376])%N
 Leaf) (595, [385])%N
 Leaf)))) (596, [390])%N
 (Node (Node (Node (Node (Node Leaf (598, [393])%N
 Leaf) (599, [394])%N
 Leaf) (601, [399])%N
 (Node (Node Leaf (603, [400])%N
 Leaf) (604, [42923])%N
 Leaf)) (608, [403])%N
 (Node (Node (Node Leaf (609, [42924])%N
 Leaf) (611, [404])%N
 Leaf) (613, [42893])%N
 (Node (Node Leaf (614, [42922])%N
 Leaf) (616, [407])%N
 Leaf))) (617, [406])%N
 (Node (Node (Node (Node Leaf (618, [42926])%N
 Leaf) (619, [11362])%N
 Leaf) (620, [42925])%N
 (Node (Node Leaf (623, [412])%N
 Leaf) (625, [11374])%N
 Leaf)) (626, [413])%N
 (Node (Node (Node Leaf (629, [415])%N
 Leaf) (637, [11364])%N
 Leaf) (640, [422])%N
 (Node (Node Leaf (642, [42949])%N
 Leaf) (643, [425])%N
 Leaf))))) (647, [42929])%N
 (Node (Node (Node (Node (Node (Node Leaf (648, [430])%N
 Leaf) (649, [580])%N
 Leaf) (650, [433])%N
 (Node (Node Leaf (651, [434])%N
 Leaf) (652, [581])%N
 Leaf)) (658, [439])%N
 (Node (Node (Node Leaf (669, [42930])%N
 Leaf) (670, [42928])%N
 Leaf) (837, [921])%N
 (Node (Node Leaf (881, [880])%N
 Leaf) (883, [882])%N
 Leaf))) (887, [886])%N
 (Node (Node (Node (Node Leaf (891, [1021])%N
 Leaf) (892, [1022])%N
 Leaf) (893, [1023])%N
 (Node (Node Leaf (912, [921; 776; 769])%N
 Leaf) (940, [902])%N
 Leaf)) (941, [904])%N
 (Node (Node (Node Leaf (942, [905])%N
 Leaf) (943, [906])%N
 Leaf) (944, [933; 776; 769])%N
 (Node (Node Leaf (945, [913])%N
 Leaf) (946, [914])%N
 Leaf)))) (947, [915])%N
 (Node (Node (Node (Node (Node Leaf (948, [916])%N
 Leaf) (949, [917])%N
 Leaf) (950, [918])%N
 (Node (Node Leaf (951, [919])%N
 Leaf) (952, [920])%N
 Leaf)) (953, [921])%N
 (Node (Node (Node Leaf (954, [922])%N
 Leaf) (955, [923])%N
 Leaf) (956, [924])%N
 (Node (Node Leaf (957, [925])%N
 Leaf) (958, [926])%N
 Leaf))) (959, [927])%N
 (Node (Node (Node (Node Leaf (960, [928])%N
 Leaf) (961, [929])%N
 Leaf) (962, [931])%N
 (Node (Node Leaf (963, [931])%N
 Leaf) (964, [932])%N
 Leaf)) (965, [933])%N
 (Node (Node (Node Leaf (966, [934])%N
 Leaf) (967, [935])%N
 Leaf) (968, [936])%N
 (Node (Node Leaf (969, [937])%N
 Leaf) (970, [938])%N
 Leaf)))))) (971, [939])%N
 (Node (Node (Node (Node (Node (Node (Node Leaf (972, [908])%N
 Leaf) (973, [910])%N
 Leaf) (974, [911])%N
 (Node (Node Leaf (976, [914])%N
 Leaf) (977, [920])%N
 Leaf)) (981, [934])%N
 (Node (Node (Node Leaf (982, [928])%N
 Leaf) (983, [975])%N
 Leaf) (985, [984])%N
 (Node (Node Leaf (987, [986])%N
 Leaf) (989, [988])%N
 Leaf))) (991, [990])%N
 (Node (Node (Node (Node Leaf (993, [992])%N
 Leaf) (995, [994])%N
 Leaf) (997, [996])%N
 (Node (Node Leaf (999, [998])%N
 Leaf) (1001, [1000])%N
 Leaf)) (1003, [1002])%N
 (Node (Node (Node Leaf (1005, [1004])%N
 Leaf) (1007, [1006])%N
 Leaf) (1008, [922])%N
 (Node (Node Leaf (1009, [929])%N
 Leaf) (1010, [1017])%N
 Leaf)))) (1011, [895])%N
 (Node (Node (Node (Node (Node Leaf (1013, [917])%N
 Leaf) (1016, [1015])%N
 Leaf) (1019, [1018])%N
 (Node (Node Leaf (1072, [1040])%N
 Leaf) (1073, [1041])%N
 Leaf)) (1074, [1042])%N
 (Node (Node (Node Leaf (1075, [1043])%N
 Leaf) (1076, [1044])%N
 Leaf) (1077, [1045])%N
 (Node (Node Leaf (1078, [1046])%N
 Leaf) (1079, [1047])%N
 Leaf))) (1080, [1048])%N
 (Node (Node (Node (Node Leaf (1081, [1049])%N
 Leaf) (1082, [1050])%N
 Leaf) (1083, [1051])%N
 (Node (Node Leaf (1084, [1052])%N
 Leaf) (1085, [1053])%N
 Leaf)) (1086, [1054])%N
 (Node (Node (Node Leaf (1087, [1055])%N
 Leaf) (1088, [1056])%N
 Leaf) (1089, [1057])%N
 (Node (Node Leaf (1090, [1058])%N
 Leaf) (1091, [1059])%N
 Leaf))))) (1092, [1060])%N
 (Node (Node (Node (Node (Node (Node Leaf (1093, [1061])%N
 Leaf) (1094, [1062])%N
 Leaf) (1095, [1063])%N
 (Node (Node Leaf (1096, [1064])%N
 Leaf) (1097, [1065])%N
 Leaf)) (1098, [1066])%N
 (Node (Node (Node Leaf (1099, [1067])%N
 Leaf) (1100, [1068])%N
 Leaf) (1101, [1069])%N
 (Node (Node Leaf (1102, [1070])%N
 Leaf) (1103, [1071])%N
 Leaf))) (1104, [1024])%N
 (Node (Node (Node (Node Leaf (1105, [1025])%N
 Leaf) (1106, [1026])%N
 Leaf) (1107, [1027])%N
 (Node (Node Leaf (1108, [1028])%N
 Leaf) (1109, [1029])%N
 Leaf)) (1110, [1030])%N
 (Node (Node (Node Leaf (1111, [1031])%N
 Leaf) (1112, [1032])%N
 Leaf) (1113, [1033])%N
 (Node (Node Leaf (1114, [1034])%N
 Leaf) (1115, [1035])%N
 Leaf)))) (1116, [1036])%N
 (Node (Node (Node (Node (Node Leaf (1117, [1037])%N
 Leaf) (1118, [1038])%N
 Leaf) (1119, [1039])%N
 (Node (Node Leaf (1121, [1120])%N
 Leaf) (1123, [1122])%N
 Leaf)) (1125, [1124])%N
 (Node (Node (Node Leaf (1127, [1126])%N
 Leaf) (1129, [1128])%N
 Leaf) (1131, [1130])%N
 (Node (Node Leaf (1133, [1132])%N
 Leaf) (1135, [1134])%N
 Leaf))) (1137, [1136])%N
 (Node (Node (Node (Node Leaf (1139, [1138])%N
 Leaf) (1141, [1140])%N
 Leaf) (1143, [1142])%N
 (Node (Node Leaf (1145, [1144])%N
 Leaf) (1147, [1146])%N
 Leaf)) (1149, [1148])%N
 (Node (Node (Node Leaf (1151, [1150])%N
 Leaf) (1153, [1152])%N
 Leaf) (1163, [1162])%N
 (Node Leaf (1165, [1164])%N
 Leaf)))))))) (1167, [1166])%N
 (Node (Node (Node (Node (Node (Node (Node (Node (Node Leaf (1169, [1168])%N
 Leaf) (1171, [1170])%N
 Leaf) (1173, [1172])%N
 (Node (Node Leaf (1175, [1174])%N
 Leaf) (1177, [1176])%N
 Leaf)) (1179, [1178])%N
 (Node (Node (Node Leaf (1181, [1180])%N
 Leaf) (1183, [1182])%N
 Leaf) (1185, [1184])%N
 (Node (Node Leaf (1187, [1186])%N
 Leaf) (1189, [1188])%N
 Leaf))) (1191, [1190])%N
 (Node (Node (Node (Node Leaf (1193, [1192])%N
 Leaf) (1195, [1194])%N
 Leaf) (1197, [1196])%N
 (Node (Node Leaf (1199, [1198])%N
 Leaf) (1201, [1200])%N
 Leaf)) (1203, [1202])%N
 (Node (Node (Node Leaf (1205, [1204])%N
 Leaf) (1207, [1206])%N
 Leaf) (1209, [1208])%N
 (Node (Node Leaf (1211, [1210])%N
 Leaf) (1213, [1212])%N
 Leaf)))) (1215, [1214])%N
 (Node (Node (Node (Node (Node Leaf (1218, [1217])%N
 Leaf) (1220, [1219])%N
 Leaf) (1222, [1221])%N
 (Node (Node Leaf (1224, [1223])%N
 Leaf) (1226, [1225])%N
 Leaf)) (1228, [1227])%N
 (Node (Node (Node Leaf (1230, [1229])%N
 Leaf) (1231, [1216])%N
 Leaf) (1233, [1232])%N
 (Node (Node Leaf (1235, [1234])%N
 Leaf) (1237, [1236])%N
 Leaf))) (1239, [1238])%N
 (Node (Node (Node (Node Leaf (1241, [1240])%N
 Leaf) (1243, [1242])%N
 Leaf) (1245, [1244])%N
 (Node (Node Leaf (1247, [1246])%N
 Leaf) (1249, [1248])%N
 Leaf)) (1251, [1250])%N
 (Node (Node (Node Leaf (1253, [1252])%N
 Leaf) (1255, [1254])%N
 Leaf) (1257, [1256])%N
 (Node (Node Leaf (1259, [1258])%N
 Leaf) (1261, [1260])%N
 Leaf))))) (1263, [1262])%N
 (Node (Node (Node (Node (Node (Node Leaf (1265, [1264])%N
 Leaf) (1267, [1266])%N
 Leaf) (1269, [1268])%N
 (Node (Node Leaf (1271, [1270])%N
 Leaf) (1273, [1272])%N
 Leaf)) (1275, [1274])%N
 (Node (Node (Node Leaf (1277, [1276])%N
 Leaf) (1279, [1278])%N
 Leaf) (1281, [1280])%N
 (Node (Node Leaf (1283, [1282])%N
 Leaf) (1285, [1284])%N
 Leaf))) (1287, [1286])%N
 (Node (Node (Node (Node Leaf (1289, [1288])%N
 Leaf) (1291, [1290])%N
 Leaf) (1293, [1292])%N
 (Node (Node Leaf (1295, [1294])%N
 Leaf) (1297, [1296])%N
 Leaf)) (1299, [1298])%N
 (Node (Node (Node Leaf (1301, [1300])%N
 Leaf) (1303, [1302])%N
 Leaf) (1305, [1304])%N
 (Node (Node Leaf (1307, [1306])%N
 Leaf) (1309, [1308])%N
 Leaf)))) (1311, [1310])%N
 (Node (Node (Node (Node (Node Leaf (1313, [1312])%N
 Leaf) (1315, [1314])%N
 Leaf) (1317, [1316])%N
 (Node (Node Leaf (1319, [1318])%N
 Leaf) (1321, [1320])%N
 Leaf)) (1323, [1322])%N
 (Node (Node (Node Leaf (1325, [1324])%N
 Leaf) (1327, [1326])%N
 Leaf) (1377, [1329])%N
 (Node (Node Leaf (1378, [1330])%N
 Leaf) (1379, [1331])%N
 Leaf))) (1380, [1332])%N
 (Node (Node (Node (Node Leaf (1381, [1333])%N
 Leaf) (1382, [1334])%N
 Leaf) (1383, [1335])%N
 (Node (Node Leaf (1384, [1336])%N
 Leaf) (1385, [1337])%N
 Leaf)) (1386, [1338])%N
 (Node (Node (Node Leaf (1387, [1339])%N
 Leaf) (1388, [1340])%N
 Leaf) (1389, [1341])%N
 (Node (Node Leaf (1390, [1342])%N
 Leaf) (1391, [1343])%N
 Leaf)))))) (1392, [1344])%N
 (Node (Node (Node (Node (Node (Node (Node Leaf (1393, [1345])%N
 Leaf) (1394, [1346])%N
 Leaf) (1395, [1347])%N
 (Node (Node Leaf (1396, [1348])%N
 Leaf) (1397, [1349])%N
 Leaf)) (1398, [1350])%N
 (Node (Node (Node Leaf (1399, [1351])%N
 Leaf) (1400, [1352])%N
 Leaf) (1401, [1353])%N
 (Node (Node Leaf (1402, [1354])%N
 Leaf) (1403, [1355])%N
 Leaf))) (1404, [1356])%N
 (Node (Node (Node (Node Leaf (1405, [1357])%N
 Leaf) (1406, [1358])%N
 Leaf) (1407, [1359])%N
 (Node (Node Leaf (1408, [1360])%N
 Leaf) (1409, [1361])%N
 Leaf)) (1410, [1362])%N
 (Node (Node (Node Leaf (1411, [1363])%N
 Leaf) (1412, [1364])%N
 Leaf) (1413, [1365])%N
 (Node (Node Leaf (1414, [1366])%N
 Leaf) (1415, [1333; 1362])%N
 Leaf)))) (4304, [7312])%N
 (Node (Node (Node (Node (Node Leaf (4305, [7313])%N
 Leaf) (4306, [7314])%N
 Leaf) (4307, [7315])%N
 (Node (Node Leaf (4308, [7316])%N
 Leaf) (4309, [7317])%N
 Leaf)) (4310, [7318])%N
 (Node (Node (Node Leaf (4311, [7319])%N
 Leaf) (4312, [7320])%N
 Leaf) (4313, [7321])%N
 (Node (Node Leaf (4314, [7322])%N
 Leaf) (4315, [7323])%N
 Leaf))) (4316, [7324])%N
 (Node (Node (Node (Node Leaf (4317, [7325])%N
 Leaf) (4318, [7326])%N
 Leaf) (4319, [7327])%N
 (Node (Node Leaf (4320, [7328])%N
 Leaf) (4321, [7329])%N
 Leaf)) (4322, [7330])%N
 (Node (Node (Node Leaf (4323, [7331])%N
 Leaf) (4324, [7332])%N
 Leaf) (4325, [7333])%N
 (Node (Node Leaf (4326, [7334])%N
 Leaf) (4327, [7335])%N
 Leaf))))) (4328, [7336])%N
 (Node (Node (Node (Node (Node (Node Leaf (4329, [7337])%N
 Leaf) (4330, [7338])%N
 Leaf) (4331, [7339])%N
 (Node (Node Leaf (4332, [7340])%N
 Leaf) (4333, [7341])%N
 Leaf)) (4334, [7342])%N
 (Node (Node (Node Leaf (4335, [7343])%N
 Leaf) (4336, [7344])%N
 Leaf) (4337, [7345])%N
 (Node (Node Leaf (4338, [7346])%N
 Leaf) (4339, [7347])%N
 Leaf))) (4340, [7348])%N
 (Node (Node (Node (Node Leaf (4341, [7349])%N
 Leaf) (4342, [7350])%N
 Leaf) (4343, [7351])%N
 (Node (Node Leaf (4344, [7352])%N
 Leaf) (4345, [7353])%N
 Leaf)) (4346, [7354])%N
 (Node (Node (Node Leaf (4349, [7357])%N
 Leaf) (4350, [7358])%N
 Leaf) (4351, [7359])%N
 (Node (Node Leaf (5112, [5104])%N
 Leaf) (5113, [5105])%N
 Leaf)))) (5114, [5106])%N
 (Node (Node (Node (Node (Node Leaf (5115, [5107])%N
 Leaf) (5116, [5108])%N
 Leaf) (5117, [5109])%N
 (Node (Node Leaf (7296, [1042])%N
 Leaf) (7297, [1044])%N
 Leaf)) (7298, [1054])%N
 (Node (Node (Node Leaf (7299, [1057])%N
 Leaf) (7300, [1058])%N
 Leaf) (7301, [1058])%N
 (Node (Node Leaf (7302, [1066])%N
 Leaf) (7303, [1122])%N
 Leaf))) (7304, [42570])%N
 (Node (Node (Node (Node Leaf (7545, [42877])%N
 Leaf) (7549, [11363])%N
 Leaf) (7566, [42950])%N
 (Node (Node Leaf (7681, [7680])%N
 Leaf) (7683, [7682])%N
 Leaf)) (7685, [7684])%N
 (Node (Node (Node Leaf (7687, [7686])%N
 Leaf) (7689, [7688])%N
 Leaf) (7691, [7690])%N
 (Node Leaf (7693, [7692])%N
 Leaf))))))) (7695, [7694])%N
 (Node (Node (Node (Node (Node (Node (Node (Node Leaf (7697, [7696])%N
 Leaf) (7699, [7698])%N
 Leaf) (7701, [7700])%N
 (Node (Node Leaf (7703, [7702])%N
 Leaf) (7705, [7704])%N
 Leaf)) (7707, [7706])%N
 (Node (Node (Node Leaf (7709, [7708])%N
 Leaf) (7711, [7710])%N
 Leaf) (7713, [7712])%N
 (Node (Node Leaf (7715, [7714])%N
 Leaf) (7717, [7716])%N
 Leaf))) (7719, [7718])%N
 (Node (Node (Node (Node Leaf (7721, [7720])%N
 Leaf) (7723, [7722])%N
 Leaf) (7725, [7724])%N
 (Node (Node Leaf (7727, [7726])%N
 Leaf) (7729, [7728])%N
 Leaf)) (7731, [7730])%N
 (Node (Node (Node Leaf (7733, [7732])%N
 Leaf) (7735, [7734])%N
 Leaf) (7737, [7736])%N
 (Node (Node Leaf (7739, [7738])%N
 Leaf) (7741, [7740])%N
 Leaf)))) (7743, [7742])%N
 (Node (Node (Node (Node (Node Leaf (7745, [7744])%N
 Leaf) (7747, [7746])%N
 Leaf) (7749, [7748])%N
 (Node (Node Leaf (7751, [7750])%N
 Leaf) (7753, [7752])%N
 Leaf)) (7755, [7754])%N
 (Node (Node (Node Leaf (7757, [7756])%N
 Leaf) (7759, [7758])%N
 Leaf) (7761, [7760])%N
 (Node (Node Leaf (7763, [7762])%N
 Leaf) (7765, [7764])%N
 Leaf))) (7767, [7766])%N
 (Node (Node (Node (Node Leaf (7769, [7768])%N
 Leaf) (7771, [7770])%N
 Leaf) (7773, [7772])%N
 (Node (Node Leaf (7775, [7774])%N
 Leaf) (7777, [7776])%N
 Leaf)) (7779, [7778])%N
 (Node (Node (Node Leaf (7781, [7780])%N
 Leaf) (7783, [7782])%N
 Leaf) (7785, [7784])%N
 (Node (Node Leaf (7787, [7786])%N
 Leaf) (7789, [7788])%N
 Leaf))))) (7791, [7790])%N
 (Node (Node (Node (Node (Node (Node Leaf (7793, [7792])%N
 Leaf) (7795, [7794])%N
 Leaf) (7797, [7796])%N
 (Node (Node Leaf (7799, [7798])%N
 Leaf) (7801, [7800])%N
 Leaf)) (7803, [7802])%N
 (Node (Node (Node Leaf (7805, [7804])%N
 Leaf) (7807, [7806])%N
 Leaf) (7809, [7808])%N
 (Node (Node Leaf (7811, [7810])%N
 Leaf) (7813, [7812])%N
 Leaf))) (7815, [7814])%N
 (Node (Node (Node (Node Leaf (7817, [7816])%N
 Leaf) (7819, [7818])%N
 Leaf) (7821, [7820])%N
 (Node (Node Leaf (7823, [7822])%N
 Leaf) (7825, [7824])%N
 Leaf)) (7827, [7826])%N
 (Node (Node (Node Leaf (7829, [7828])%N
 Leaf) (7830, [72; 817])%N
 Leaf) (7831, [84; 776])%N
 (Node (Node Leaf (7832, [87; 778])%N
 Leaf) (7833, [89; 778])%N
 Leaf)))) (7834, [65; 702])%N
 (Node (Node (Node (Node (Node Leaf (7835, [7776])%N
 Leaf) (7841, [7840])%N
 Leaf) (7843, [7842])%N
 (Node (Node Leaf (7845, [7844])%N
 Leaf) (7847, [7846])%N
 Leaf)) (7849, [7848])%N
 (Node (Node (Node Leaf (7851, [7850])%N
 Leaf) (7853, [7852])%N
 Leaf) (7855, [7854])%N
 (Node (Node Leaf (7857, [7856])%N
 Leaf) (7859, [7858])%N
 Leaf))) (7861, [7860])%N
 (Node (Node (Node (Node Leaf (7863, [7862])%N
 Leaf) (7865, [7864])%N
 Leaf) (7867, [7866])%N
 (Node (Node Leaf (7869, [7868])%N
 Leaf) (7871, [7870])%N
 Leaf)) (7873, [7872])%N
 (Node (Node (Node Leaf (7875, [7874])%N
 Leaf) (7877, [7876])%N
 Leaf) (7879, [7878])%N
 (Node Leaf (7881, [7880])%N
 Leaf)))))) (7883, [7882])%N
 (Node (Node (Node (Node (Node (Node (Node Leaf (7885, [7884])%N
 Leaf) (7887, [7886])%N
 Leaf) (7889, [7888])%N
 (Node (Node Leaf (7891, [7890])%N
 Leaf) (7893, [7892])%N
 Leaf)) (7895, [7894])%N
 (Node (Node (Node Leaf (7897, [7896])%N
 Leaf) (7899, [7898])%N
 Leaf) (7901, [7900])%N
 (Node (Node Leaf (7903, [7902])%N
 Leaf) (7905, [7904])%N
 Leaf))) (7907, [7906])%N
 (Node (Node (Node (Node Leaf (7909, [7908])%N
 Leaf) (7911, [7910])%N
 Leaf) (7913, [7912])%N
 (Node (Node Leaf (7915, [7914])%N
 Leaf) (7917, [7916])%N
 Leaf)) (7919, [7918])%N
 (Node (Node (Node Leaf (7921, [7920])%N
 Leaf) (7923, [7922])%N
 Leaf) (7925, [7924])%N
 (Node (Node Leaf (7927, [7926])%N
 Leaf) (7929, [7928])%N
 Leaf)))) (7931, [7930])%N
 (Node (Node (Node (Node (Node Leaf (7933, [7932])%N
 Leaf) (7935, [7934])%N
 Leaf) (7936, [7944])%N
 (Node (Node Leaf (7937, [7945])%N
 Leaf) (7938, [7946])%N
 Leaf)) (7939, [7947])%N
 (Node (Node (Node Leaf (7940, [7948])%N
 Leaf) (7941, [7949])%N
 Leaf) (7942, [7950])%N
 (Node (Node Leaf (7943, [7951])%N
 Leaf) (7952, [7960])%N
 Leaf))) (7953, [7961])%N
 (Node (Node (Node (Node Leaf (7954, [7962])%N
 Leaf) (7955, [7963])%N
 Leaf) (7956, [7964])%N
 (Node (Node Leaf (7957, [7965])%N
 Leaf) (7968, [7976])%N
 Leaf)) (7969, [7977])%N
 (Node (Node (Node Leaf (7970, [7978])%N
 Leaf) (7971, [7979])%N
 Leaf) (7972, [7980])%N
 (Node (Node Leaf (7973, [7981])%N
 Leaf) (7974, [7982])%N
 Leaf))))) (7975, [7983])%N
 (Node (Node (Node (Node (Node (Node Leaf (7984, [7992])%N
 Leaf) (7985, [7993])%N
 Leaf) (7986, [7994])%N
 (Node (Node Leaf (7987, [7995])%N
 Leaf) (7988, [7996])%N
 Leaf)) (7989, [7997])%N
 (Node (Node (Node Leaf (7990, [7998])%N
 Leaf) (7991, [7999])%N
 Leaf) (8000, [8008])%N
 (Node (Node Leaf (8001, [8009])%N
 Leaf) (8002, [8010])%N
 Leaf))) (8003, [8011])%N
 (Node (Node (Node (Node Leaf (8004, [8012])%N
 Leaf) (8005, [8013])%N
 Leaf) (8016, [933; 787])%N
 (Node (Node Leaf (8017, [8025])%N
 Leaf) (8018, [933; 787; 768])%N
 Leaf)) (8019, [8027])%N
 (Node (Node (Node Leaf (8020, [933; 787; 769])%N
 Leaf) (8021, [8029])%N
 Leaf) (8022, [933; 787; 834])%N
 (Node (Node Leaf (8023, [8031])%N
 Leaf) (8032, [8040])%N
 Leaf)))) (8033, [8041])%N
 (Node (Node (Node (Node (Node Leaf (8034, [8042])%N
 Leaf) (8035, [8043])%N
 Leaf) (8036, [8044])%N
 (Node (Node Leaf (8037, [8045])%N
 Leaf) (8038, [8046])%N
 Leaf)) (8039, [8047])%N
 (Node (Node (Node Leaf (8048, [8122])%N
 Leaf) (8049, [8123])%N
 Leaf) (8050, [8136])%N
 (Node (Node Leaf (8051, [8137])%N
 Leaf) (8052, [8138])%N
 Leaf))) (8053, [8139])%N
 (Node (Node (Node (Node Leaf (8054, [8154])%N
 Leaf) (8055, [8155])%N
 Leaf) (8056, [8184])%N
 (Node (Node Leaf (8057, [8185])%N
 Leaf) (8058, [8170])%N
 Leaf)) (8059, [8171])%N
 (Node (Node (Node Leaf (8060, [8186])%N
 Leaf) (8061, [8187])%N
 Leaf) (8064, [7944; 921])%N
 (Node Leaf (8065, [7945; 921])%N
 Leaf))))))))) (8066, [7946; 921])%N
 (Node (Node (Node (Node (Node (Node (Node (Node (Node (Node Leaf (8067, [7947; 921])%N
 Leaf) (8068, [7948; 921])%N
 Leaf) (8069, [7949; 921])%N
 (Node (Node Leaf (8070, [7950; 921])%N
 Leaf) (8071, [7951; 921])%N
 Leaf)) (8072, [7944; 921])%N
 (Node (Node (Node Leaf (8073, [7945; 921])%N
 Leaf) (8074, [7946; 921])%N
 Leaf) (8075, [7947; 921])%N
 (Node (Node Leaf (8076, [7948; 921])%N
 Leaf) (8077, [7949; 921])%N
 Leaf))) (8078, [7950; 921])%N
 (Node (Node (Node (Node Leaf (8079, [7951; 921])%N
 Leaf) (8080, [7976; 921])%N
 Leaf) (8081, [7977; 921])%N
 (Node (Node Leaf (8082, [7978; 921])%N
 Leaf) (8083, [7979; 921])%N
 Leaf)) (8084, [7980; 921])%N
 (Node (Node (Node Leaf (8085, [7981; 921])%N
 Leaf) (8086, [7982; 921])%N
 Leaf) (8087, [7983; 921])%N
 (Node (Node Leaf (8088, [7976; 921])%N
 Leaf) (8089, [7977; 921])%N
 Leaf)))) (8090, [7978; 921])%N
 (Node (Node (Node (Node (Node Leaf (8091, [7979; 921])%N
 Leaf) (8092, [7980; 921])%N
 Leaf) (8093, [7981; 921])%N
 (Node (Node Leaf (8094, [7982; 921])%N
 Leaf) (8095, [7983; 921])%N
 Leaf)) (8096, [8040; 921])%N
 (Node (Node (Node Leaf (8097, [8041; 921])%N
 Leaf) (8098, [8042; 921])%N
 Leaf) (8099, [8043; 921])%N
 (Node (Node Leaf (8100, [8044; 921])%N
 Leaf) (8101, [8045; 921])%N
 Leaf))) (8102, [8046; 921])%N
 (Node (Node (Node (Node Leaf (8103, [8047; 921])%N
 Leaf) (8104, [8040; 921])%N
 Leaf) (8105, [8041; 921])%N
 (Node (Node Leaf (8106, [8042; 921])%N
 Leaf) (8107, [8043; 921])%N
 Leaf)) (8108, [8044; 921])%N
 (Node (Node (Node Leaf (8109, [8045; 921])%N
 Leaf) (8110, [8046; 921])%N
 Leaf) (8111, [8047; 921])%N
 (Node (Node Leaf (8112, [8120])%N
 Leaf) (8113, [8121])%N
 Leaf))))) (8114, [8122; 921])%N
 (Node (Node (Node (Node (Node (Node Leaf (8115, [913; 921])%N
 Leaf) (8116, [902; 921])%N
 Leaf) (8118, [913; 834])%N
 (Node (Node Leaf (8119, [913; 834; 921])%N
 Leaf) (8124, [913; 921])%N
 Leaf)) (8126, [921])%N
 (Node (Node (Node Leaf (8130, [8138; 921])%N
 Leaf) (8131, [919; 921])%N
 Leaf) (8132, [905; 921])%N
 (Node (Node Leaf (8134, [919; 834])%N
 Leaf) (8135, [919; 834; 921])%N
 Leaf))) (8140, [919; 921])%N
 (Node (Node (Node (Node Leaf (8144, [8152])%N
 Leaf) (8145, [8153])%N
 Leaf) (8146, [921; 776; 768])%N
 (Node (Node Leaf (8147, [921; 776; 769])%N
 Leaf) (8150, [921; 834])%N
 Leaf)) (8151, [921; 776; 834])%N
 (Node (Node (Node Leaf (8160, [8168])%N
 Leaf) (8161, [8169])%N
 Leaf) (8162, [933; 776; 768])%N
 (Node (Node Leaf (8163, [933; 776; 769])%N
 Leaf) (8164, [929; 787])%N
 Leaf)))) (8165, [8172])%N
 (Node (Node (Node (Node (Node Leaf (8166, [933; 834])%N
 Leaf) (8167, [933; 776; 834])%N
 Leaf) (8178, [8186; 921])%N
 (Node (Node Leaf (8179, [937; 921])%N
 Leaf) (8180, [911; 921])%N
 Leaf)) (8182, [937; 834])%N
 (Node (Node (Node Leaf (8183, [937; 834; 921])%N
 Leaf) (8188, [937; 921])%N
 Leaf) (8526, [8498])%N
 (Node (Node Leaf (8560, [8544])%N
 Leaf) (8561, [8545])%N
 Leaf))) (8562, [8546])%N
 (Node (Node (Node (Node Leaf (8563, [8547])%N
 Leaf) (8564, [8548])%N
 Leaf) (8565, [8549])%N
 (Node (Node Leaf (8566, [8550])%N
 Leaf) (8567, [8551])%N
 Leaf)) (8568, [8552])%N
 (Node (Node (Node Leaf (8569, [8553])%N
 Leaf) (8570, [8554])%N
 Leaf) (8571, [8555])%N
 (Node (Node Leaf (8572, [8556])%N
 Leaf) (8573, [8557])%N
 Leaf)))))) (8574, [8558])%N
 (Node (Node (Node (Node (Node (Node (Node Leaf (8575, [8559])%N
 Leaf) (8580, [8579])%N
 Leaf) (9424, [9398])%N
 (Node (Node Leaf (9425, [9399])%N
 Leaf) (9426, [9400])%N
 Leaf)) (9427, [9401])%N
 (Node (Node (Node Leaf (9428, [9402])%N
 Leaf) (9429, [9403])%N
 Leaf) (9430, [9404])%N
 (Node (Node Leaf (9431, [9405])%N
 Leaf) (9432, [9406])%N
 Leaf))) (9433, [9407])%N
 (Node (Node (Node (Node Leaf (9434, [9408])%N
 Leaf) (9435, [9409])%N
 Leaf) (9436, [9410])%N
 (Node (Node Leaf (9437, [9411])%N
 Leaf) (9438, [9412])%N
 Leaf)) (9439, [9413])%N
 (Node (Node (Node Leaf (9440, [9414])%N
 Leaf) (9441, [9415])%N
 Leaf) (9442, [9416])%N
 (Node (Node Leaf (9443, [9417])%N
 Leaf) (9444, [9418])%N
 Leaf)))) (9445, [9419])%N
 (Node (Node (Node (Node (Node Leaf (9446, [9420])%N
 Leaf) (9447, [9421])%N
 Leaf) (9448, [9422])%N
 (Node (Node Leaf (9449, [9423])%N
 Leaf) (11312, [11264])%N
 Leaf)) (11313, [11265])%N
 (Node (Node (Node Leaf (11314, [11266])%N
 Leaf) (11315, [11267])%N
 Leaf) (11316, [11268])%N
 (Node (Node Leaf (11317, [11269])%N
 Leaf) (11318, [11270])%N
 Leaf))) (11319, [11271])%N
 (Node (Node (Node (Node Leaf (11320, [11272])%N
 Leaf) (11321, [11273])%N
 Leaf) (11322, [11274])%N
 (Node (Node Leaf (11323, [11275])%N
 Leaf) (11324, [11276])%N
 Leaf)) (11325, [11277])%N
 (Node (Node (Node Leaf (11326, [11278])%N
 Leaf) (11327, [11279])%N
 Leaf) (11328, [11280])%N
 (Node (Node Leaf (11329, [11281])%N
 Leaf) (11330, [11282])%N
 Leaf))))) (11331, [11283])%N
 (Node (Node (Node (Node (Node (Node Leaf (11332, [11284])%N
 Leaf) (11333, [11285])%N
 Leaf) (11334, [11286])%N
 (Node (Node Leaf (11335, [11287])%N
 Leaf) (11336, [11288])%N
 Leaf)) (11337, [11289])%N
 (Node (Node (Node Leaf (11338, [11290])%N
 Leaf) (11339, [11291])%N
 Leaf) (11340, [11292])%N
 (Node (Node Leaf (11341, [11293])%N
 Leaf) (11342, [11294])%N
 Leaf))) (11343, [11295])%N
 (Node (Node (Node (Node Leaf (11344, [11296])%N
 Leaf) (11345, [11297])%N
 Leaf) (11346, [11298])%N
 (Node (Node Leaf (11347, [11299])%N
 Leaf) (11348, [11300])%N
 Leaf)) (11349, [11301])%N
 (Node (Node (Node Leaf (11350, [11302])%N
 Leaf) (11351, [11303])%N
 Leaf) (11352, [11304])%N
 (Node (Node Leaf (11353, [11305])%N
 Leaf) (11354, [11306])%N
 Leaf)))) (11355, [11307])%N
 (Node (Node (Node (Node (Node Leaf (11356, [11308])%N
 Leaf) (11357, [11309])%N
 Leaf) (11358, [11310])%N
 (Node (Node Leaf (11359, [11311])%N
 Leaf) (11361, [11360])%N
 Leaf)) (11365, [570])%N
 (Node (Node (Node Leaf (11366, [574])%N
 Leaf) (11368, [11367])%N
 Leaf) (11370, [11369])%N
 (Node (Node Leaf (11372, [11371])%N
 Leaf) (11379, [11378])%N
 Leaf))) (11382, [11381])%N
 (Node (Node (Node (Node Leaf (11393, [11392])%N
 Leaf) (11395, [11394])%N
 Leaf) (11397, [11396])%N
 (Node (Node Leaf (11399, [11398])%N
 Leaf) (11401, [11400])%N
 Leaf)) (11403, [11402])%N
 (Node (Node (Node Leaf (11405, [11404])%N
 Leaf) (11407, [11406])%N
 Leaf) (11409, [11408])%N
 (Node Leaf (11411, [11410])%N
 Leaf))))))) (11413, [11412])%N
 (Node (Node (Node (Node (Node (Node (Node (Node Leaf (11415, [11414])%N
 Leaf) (11417, [11416])%N
 Leaf) (11419, [11418])%N
 (Node (Node Leaf (11421, [11420])%N
 Leaf) (11423, [11422])%N
 Leaf)) (11425, [11424])%N
 (Node (Node (Node Leaf (11427, [11426])%N
 Leaf) (11429, [11428])%N
 Leaf) (11431, [11430])%N
 (Node (Node Leaf (11433, [11432])%N
 Leaf) (11435, [11434])%N
 Leaf))) (11437, [11436])%N
 (Node (Node (Node (Node Leaf (11439, [11438])%N
 Leaf) (11441, [11440])%N
 Leaf) (11443, [11442])%N
 (Node (Node Leaf (11445, [11444])%N
 Leaf) (11447, [11446])%N
 Leaf)) (11449, [11448])%N
 (Node (Node (Node Leaf (11451, [11450])%N
 Leaf) (11453, [11452])%N
 Leaf) (11455, [11454])%N
 (Node (Node Leaf (11457, [11456])%N
 Leaf) (11459, [11458])%N
 Leaf)))) (11461, [11460])%N
 (Node (Node (Node (Node (Node Leaf (11463, [11462])%N
 Leaf) (11465, [11464])%N
 Leaf) (11467, [11466])%N
 (Node (Node Leaf (11469, [11468])%N
 Leaf) (11471, [11470])%N
 Leaf)) (11473, [11472])%N
 (Node (Node (Node Leaf (11475, [11474])%N
 Leaf) (11477, [11476])%N
 Leaf) (11479, [11478])%N
 (Node (Node Leaf (11481, [11480])%N
 Leaf) (11483, [11482])%N
 Leaf))) (11485, [11484])%N
 (Node (Node (Node (Node Leaf (11487, [11486])%N
 Leaf) (11489, [11488])%N
 Leaf) (11491, [11490])%N
 (Node (Node Leaf (11500, [11499])%N
 Leaf) (11502, [11501])%N
 Leaf)) (11507, [11506])%N
 (Node (Node (Node Leaf (11520, [4256])%N
 Leaf) (11521, [4257])%N
 Leaf) (11522, [4258])%N
 (Node (Node Leaf (11523, [4259])%N
 Leaf) (11524, [4260])%N
 Leaf))))) (11525, [4261])%N
 (Node (Node (Node (Node (Node (Node Leaf (11526, [4262])%N
 Leaf) (11527, [4263])%N
 Leaf) (11528, [4264])%N
 (Node (Node Leaf (11529, [4265])%N
 Leaf) (11530, [4266])%N
 Leaf)) (11531, [4267])%N
 (Node (Node (Node Leaf (11532, [4268])%N
 Leaf) (11533, [4269])%N
 Leaf) (11534, [4270])%N
 (Node (Node Leaf (11535, [4271])%N
 Leaf) (11536, [4272])%N
 Leaf))) (11537, [4273])%N
 (Node (Node (Node (Node Leaf (11538, [4274])%N
 Leaf) (11539, [4275])%N
 Leaf) (11540, [4276])%N
 (Node (Node Leaf (11541, [4277])%N
 Leaf) (11542, [4278])%N
 Leaf)) (11543, [4279])%N
 (Node (Node (Node Leaf (11544, [4280])%N
 Leaf) (11545, [4281])%N
 Leaf) (11546, [4282])%N
 (Node (Node Leaf (11547, [4283])%N
 Leaf) (11548, [4284])%N
 Leaf)))) (11549, [4285])%N
 (Node (Node (Node (Node (Node Leaf (11550, [4286])%N
 Leaf) (11551, [4287])%N
 Leaf) (11552, [4288])%N
 (Node (Node Leaf (11553, [4289])%N
 Leaf) (11554, [4290])%N
 Leaf)) (11555, [4291])%N
 (Node (Node (Node Leaf (11556, [4292])%N
 Leaf) (11557, [4293])%N
 Leaf) (11559, [4295])%N
 (Node (Node Leaf (11565, [4301])%N
 Leaf) (42561, [42560])%N
 Leaf))) (42563, [42562])%N
 (Node (Node (Node (Node Leaf (42565, [42564])%N
 Leaf) (42567, [42566])%N
 Leaf) (42569, [42568])%N
 (Node (Node Leaf (42571, [42570])%N
 Leaf) (42573, [42572])%N
 Leaf)) (42575, [42574])%N
 (Node (Node (Node Leaf (42577, [42576])%N
 Leaf) (42579, [42578])%N
 Leaf) (42581, [42580])%N
 (Node (Node Leaf (42583, [42582])%N
 Leaf) (42585, [42584])%N
 Leaf)))))) (42587, [42586])%N
 (Node (Node (Node (Node (Node (Node (Node Leaf (42589, [42588])%N
 Leaf) (42591, [42590])%N
 Leaf) (42593, [42592])%N
 (Node (Node Leaf (42595, [42594])%N
 Leaf) (42597, [42596])%N
 Leaf)) (42599, [42598])%N
 (Node (Node (Node Leaf (42601, [42600])%N
 Leaf) (42603, [42602])%N
 Leaf) (42605, [42604])%N
 (Node (Node Leaf (42625, [42624])%N
 Leaf) (42627, [42626])%N
 Leaf))) (42629, [42628])%N
 (Node (Node (Node (Node Leaf (42631, [42630])%N
 Leaf) (42633, [42632])%N
 Leaf) (42635, [42634])%N
 (Node (Node Leaf (42637, [42636])%N
 Leaf) (42639, [42638])%N
 Leaf)) (42641, [42640])%N
 (Node (Node (Node Leaf (42643, [42642])%N
 Leaf) (42645, [42644])%N
 Leaf) (42647, [42646])%N
 (Node (Node Leaf (42649, [42648])%N
 Leaf) (42651, [42650])%N
 Leaf)))) (42787, [42786])%N
 (Node (Node (Node (Node (Node Leaf (42789, [42788])%N
 Leaf) (42791, [42790])%N
 Leaf) (42793, [42792])%N
 (Node (Node Leaf (42795, [42794])%N
 Leaf) (42797, [42796])%N
 Leaf)) (42799, [42798])%N
 (Node (Node (Node Leaf (42803, [42802])%N
 Leaf) (42805, [42804])%N
 Leaf) (42807, [42806])%N
 (Node (Node Leaf (42809, [42808])%N
 Leaf) (42811, [42810])%N
 Leaf))) (42813, [42812])%N
 (Node (Node (Node (Node Leaf (42815, [42814])%N
 Leaf) (42817, [42816])%N
 Leaf) (42819, [42818])%N
 (Node (Node Leaf (42821, [42820])%N
 Leaf) (42823, [42822])%N
 Leaf)) (42825, [42824])%N
 (Node (Node (Node Leaf (42827, [42826])%N
 Leaf) (42829, [42828])%N
 Leaf) (42831, [42830])%N
 (Node (Node Leaf (42833, [42832])%N
 Leaf) (42835, [42834])%N
 Leaf))))) (42837, [42836])%N
 (Node (Node (Node (Node (Node (Node Leaf (42839, [42838])%N
 Leaf) (42841, [42840])%N
 Leaf) (42843, [42842])%N
 (Node (Node Leaf (42845, [42844])%N
 Leaf) (42847, [42846])%N
 Leaf)) (42849, [42848])%N
 (Node (Node (Node Leaf (42851, [42850])%N
 Leaf) (42853, [42852])%N
 Leaf) (42855, [42854])%N
 (Node (Node Leaf (42857, [42856])%N
 Leaf) (42859, [42858])%N
 Leaf))) (42861, [42860])%N
 (Node (Node (Node (Node Leaf (42863, [42862])%N
 Leaf) (42874, [42873])%N
 Leaf) (42876, [42875])%N
 (Node (Node Leaf (42879, [42878])%N
 Leaf) (42881, [42880])%N
 Leaf)) (42883, [42882])%N
 (Node (Node (Node Leaf (42885, [42884])%N
 Leaf) (42887, [42886])%N
 Leaf) (42892, [42891])%N
 (Node (Node Leaf (42897, [42896])%N
 Leaf) (42899, [42898])%N
 Leaf)))) (42900, [42948])%N
 (Node (Node (Node (Node (Node Leaf (42903, [42902])%N
 Leaf) (42905, [42904])%N
 Leaf) (42907, [42906])%N
 (Node (Node Leaf (42909, [42908])%N
 Leaf) (42911, [42910])%N
 Leaf)) (42913, [42912])%N
 (Node (Node (Node Leaf (42915, [42914])%N
 Leaf) (42917, [42916])%N
 Leaf) (42919, [42918])%N
 (Node (Node Leaf (42921, [42920])%N
 Leaf) (42933, [42932])%N
 Leaf))) (42935, [42934])%N
 (Node (Node (Node (Node Leaf (42937, [42936])%N
 Leaf) (42939, [42938])%N
 Leaf) (42941, [42940])%N
 (Node (Node Leaf (42943, [42942])%N
 Leaf) (42945, [42944])%N
 Leaf)) (42947, [42946])%N
 (Node (Node (Node Leaf (42952, [42951])%N
 Leaf) (42954, [42953])%N
 Leaf) (42961, [42960])%N
 (Node Leaf (42967, [42966])%N
 Leaf)))))))) (42969, [42968])%N
 (Node (Node (Node (Node (Node (Node (Node (Node (Node Leaf (42998, [42997])%N
 Leaf) (43859, [42931])%N
 Leaf) (43888, [5024])%N
 (Node (Node Leaf (43889, [5025])%N
 Leaf) (43890, [5026])%N
 Leaf)) (43891, [5027])%N
 (Node (Node (Node Leaf (43892, [5028])%N
 Leaf) (43893, [5029])%N
 Leaf) (43894, [5030])%N
 (Node (Node Leaf (43895, [5031])%N
 Leaf) (43896, [5032])%N
 Leaf))) (43897, [5033])%N
 (Node (Node (Node (Node Leaf (43898, [5034])%N
 Leaf) (43899, [5035])%N
 Leaf) (43900, [5036])%N
 (Node (Node Leaf (43901, [5037])%N
 Leaf) (43902, [5038])%N
 Leaf)) (43903, [5039])%N
 (Node (Node (Node Leaf (43904, [5040])%N
 Leaf) (43905, [5041])%N
 Leaf) (43906, [5042])%N
 (Node (Node Leaf (43907, [5043])%N
 Leaf) (43908, [5044])%N
 Leaf)))) (43909, [5045])%N
 (Node (Node (Node (Node (Node Leaf (43910, [5046])%N
 Leaf) (43911, [5047])%N
 Leaf) (43912, [5048])%N
 (Node (Node Leaf (43913, [5049])%N
 Leaf) (43914, [5050])%N
 Leaf)) (43915, [5051])%N
 (Node (Node (Node Leaf (43916, [5052])%N
 Leaf) (43917, [5053])%N
 Leaf) (43918, [5054])%N
 (Node (Node Leaf (43919, [5055])%N
 Leaf) (43920, [5056])%N
 Leaf))) (43921, [5057])%N
 (Node (Node (Node (Node Leaf (43922, [5058])%N
 Leaf) (43923, [5059])%N
 Leaf) (43924, [5060])%N
 (Node (Node Leaf (43925, [5061])%N
 Leaf) (43926, [5062])%N
 Leaf)) (43927, [5063])%N
 (Node (Node (Node Leaf (43928, [5064])%N
 Leaf) (43929, [5065])%N
 Leaf) (43930, [5066])%N
 (Node (Node Leaf (43931, [5067])%N
 Leaf) (43932, [5068])%N
 Leaf))))) (43933, [5069])%N
 (Node (Node (Node (Node (Node (Node Leaf (43934, [5070])%N
 Leaf) (43935, [5071])%N
 Leaf) (43936, [5072])%N
 (Node (Node Leaf (43937, [5073])%N
 Leaf) (43938, [5074])%N
 Leaf)) (43939, [5075])%N
 (Node (Node (Node Leaf (43940, [5076])%N
 Leaf) (43941, [5077])%N
 Leaf) (43942, [5078])%N
 (Node (Node Leaf (43943, [5079])%N
 Leaf) (43944, [5080])%N
 Leaf))) (43945, [5081])%N
 (Node (Node (Node (Node Leaf (43946, [5082])%N
 Leaf) (43947, [5083])%N
 Leaf) (43948, [5084])%N
 (Node (Node Leaf (43949, [5085])%N
 Leaf) (43950, [5086])%N
 Leaf)) (43951, [5087])%N
 (Node (Node (Node Leaf (43952, [5088])%N
 Leaf) (43953, [5089])%N
 Leaf) (43954, [5090])%N
 (Node (Node Leaf (43955, [5091])%N
 Leaf) (43956, [5092])%N
 Leaf)))) (43957, [5093])%N
 (Node (Node (Node (Node (Node Leaf (43958, [5094])%N
 Leaf) (43959, [5095])%N
 Leaf) (43960, [5096])%N
 (Node (Node Leaf (43961, [5097])%N
 Leaf) (43962, [5098])%N
 Leaf)) (43963, [5099])%N
 (Node (Node (Node Leaf (43964, [5100])%N
 Leaf) (43965, [5101])%N
 Leaf) (43966, [5102])%N
 (Node (Node Leaf (43967, [5103])%N
 Leaf) (64256, [70; 70])%N
 Leaf))) (64257, [70; 73])%N
 (Node (Node (Node (Node Leaf (64258, [70; 76])%N
 Leaf) (64259, [70; 70; 73])%N
 Leaf) (64260, [70; 70; 76])%N
 (Node (Node Leaf (64261, [83; 84])%N
 Leaf) (64262, [83; 84])%N
 Leaf)) (64275, [1348; 1350])%N
 (Node (Node (Node Leaf (64276, [1348; 1333])%N
 Leaf) (64277, [1348; 1339])%N
 Leaf) (64278, [1358; 1350])%N
 (Node (Node Leaf (64279, [1348; 1341])%N
 Leaf) (65345, [65313])%N
 Leaf)))))) (65346, [65314])%N
 (Node (Node (Node (Node (Node (Node (Node Leaf (65347, [65315])%N
 Leaf) (65348, [65316])%N
 Leaf) (65349, [65317])%N
 (Node (Node Leaf (65350, [65318])%N
 Leaf) (65351, [65319])%N
 Leaf)) (65352, [65320])%N
 (Node (Node (Node Leaf (65353, [65321])%N
 Leaf) (65354, [65322])%N
 Leaf) (65355, [65323])%N
 (Node (Node Leaf (65356, [65324])%N
 Leaf) (65357, [65325])%N
 Leaf))) (65358, [65326])%N
 (Node (Node (Node (Node Leaf (65359, [65327])%N
 Leaf) (65360, [65328])%N
 Leaf) (65361, [65329])%N
 (Node (Node Leaf (65362, [65330])%N
 Leaf) (65363, [65331])%N
 Leaf)) (65364, [65332])%N
 (Node (Node (Node Leaf (65365, [65333])%N
 Leaf) (65366, [65334])%N
 Leaf) (65367, [65335])%N
 (Node (Node Leaf (65368, [65336])%N
 Leaf) (65369, [65337])%N
 Leaf)))) (65370, [65338])%N
 (Node (Node (Node (Node (Node Leaf (66600, [66560])%N
 Leaf) (66601, [66561])%N
 Leaf) (66602, [66562])%N
 (Node (Node Leaf (66603, [66563])%N
 Leaf) (66604, [66564])%N
 Leaf)) (66605, [66565])%N
 (Node (Node (Node Leaf (66606, [66566])%N
 Leaf) (66607, [66567])%N
 Leaf) (66608, [66568])%N
 (Node (Node Leaf (66609, [66569])%N
 Leaf) (66610, [66570])%N
 Leaf))) (66611, [66571])%N
 (Node (Node (Node (Node Leaf (66612, [66572])%N
 Leaf) (66613, [66573])%N
 Leaf) (66614, [66574])%N
 (Node (Node Leaf (66615, [66575])%N
 Leaf) (66616, [66576])%N
 Leaf)) (66617, [66577])%N
 (Node (Node (Node Leaf (66618, [66578])%N
 Leaf) (66619, [66579])%N
 Leaf) (66620, [66580])%N
 (Node (Node Leaf (66621, [66581])%N
 Leaf) (66622, [66582])%N
 Leaf))))) (66623, [66583])%N
 (Node (Node (Node (Node (Node (Node Leaf (66624, [66584])%N
 Leaf) (66625, [66585])%N
 Leaf) (66626, [66586])%N
 (Node (Node Leaf (66627, [66587])%N
 Leaf) (66628, [66588])%N
 Leaf)) (66629, [66589])%N
 (Node (Node (Node Leaf (66630, [66590])%N
 Leaf) (66631, [66591])%N
 Leaf) (66632, [66592])%N
 (Node (Node Leaf (66633, [66593])%N
 Leaf) (66634, [66594])%N
 Leaf))) (66635, [66595])%N
 (Node (Node (Node (Node Leaf (66636, [66596])%N
 Leaf) (66637, [66597])%N
 Leaf) (66638, [66598])%N
 (Node (Node Leaf (66639, [66599])%N
 Leaf) (66776, [66736])%N
 Leaf)) (66777, [66737])%N
 (Node (Node (Node Leaf (66778, [66738])%N
 Leaf) (66779, [66739])%N
 Leaf) (66780, [66740])%N
 (Node (Node Leaf (66781, [66741])%N
 Leaf) (66782, [66742])%N
 Leaf)))) (66783, [66743])%N
 (Node (Node (Node (Node (Node Leaf (66784, [66744])%N
 Leaf) (66785, [66745])%N
 Leaf) (66786, [66746])%N
 (Node (Node Leaf (66787, [66747])%N
 Leaf) (66788, [66748])%N
 Leaf)) (66789, [66749])%N
 (Node (Node (Node Leaf (66790, [66750])%N
 Leaf) (66791, [66751])%N
 Leaf) (66792, [66752])%N
 (Node (Node Leaf (66793, [66753])%N
 Leaf) (66794, [66754])%N
 Leaf))) (66795, [66755])%N
 (Node (Node (Node (Node Leaf (66796, [66756])%N
 Leaf) (66797, [66757])%N
 Leaf) (66798, [66758])%N
 (Node (Node Leaf (66799, [66759])%N
 Leaf) (66800, [66760])%N
 Leaf)) (66801, [66761])%N
 (Node (Node (Node Leaf (66802, [66762])%N
 Leaf) (66803, [66763])%N
 Leaf) (66804, [66764])%N
 (Node Leaf (66805, [66765])%N
 Leaf))))))) (66806, [66766])%N
 (Node (Node (Node (Node (Node (Node (Node (Node Leaf (66807, [66767])%N
 Leaf) (66808, [66768])%N
 Leaf) (66809, [66769])%N
 (Node (Node Leaf (66810, [66770])%N
 Leaf) (66811, [66771])%N
 Leaf)) (66967, [66928])%N
 (Node (Node (Node Leaf (66968, [66929])%N
 Leaf) (66969, [66930])%N
 Leaf) (66970, [66931])%N
 (Node (Node Leaf (66971, [66932])%N
 Leaf) (66972, [66933])%N
 Leaf))) (66973, [66934])%N
 (Node (Node (Node (Node Leaf (66974, [66935])%N
 Leaf) (66975, [66936])%N
 Leaf) (66976, [66937])%N
 (Node (Node Leaf (66977, [66938])%N
 Leaf) (66979, [66940])%N
 Leaf)) (66980, [66941])%N
 (Node (Node (Node Leaf (66981, [66942])%N
 Leaf) (66982, [66943])%N
 Leaf) (66983, [66944])%N
 (Node (Node Leaf (66984, [66945])%N
 Leaf) (66985, [66946])%N
 Leaf)))) (66986, [66947])%N
 (Node (Node (Node (Node (Node Leaf (66987, [66948])%N
 Leaf) (66988, [66949])%N
 Leaf) (66989, [66950])%N
 (Node (Node Leaf (66990, [66951])%N
 Leaf) (66991, [66952])%N
 Leaf)) (66992, [66953])%N
 (Node (Node (Node Leaf (66993, [66954])%N
 Leaf) (66995, [66956])%N
 Leaf) (66996, [66957])%N
 (Node (Node Leaf (66997, [66958])%N
 Leaf) (66998, [66959])%N
 Leaf))) (66999, [66960])%N
 (Node (Node (Node (Node Leaf (67000, [66961])%N
 Leaf) (67001, [66962])%N
 Leaf) (67003, [66964])%N
 (Node (Node Leaf (67004, [66965])%N
 Leaf) (68800, [68736])%N
 Leaf)) (68801, [68737])%N
 (Node (Node (Node Leaf (68802, [68738])%N
 Leaf) (68803, [68739])%N
 Leaf) (68804, [68740])%N
 (Node (Node Leaf (68805, [68741])%N
 Leaf) (68806, [68742])%N
 Leaf))))) (68807, [68743])%N
 (Node (Node (Node (Node (Node (Node Leaf (68808, [68744])%N
 Leaf) (68809, [68745])%N
 Leaf) (68810, [68746])%N
 (Node (Node Leaf (68811, [68747])%N
 Leaf) (68812, [68748])%N
 Leaf)) (68813, [68749])%N
 (Node (Node (Node Leaf (68814, [68750])%N
 Leaf) (68815, [68751])%N
 Leaf) (68816, [68752])%N
 (Node (Node Leaf (68817, [68753])%N
 Leaf) (68818, [68754])%N
 Leaf))) (68819, [68755])%N
 (Node (Node (Node (Node Leaf (68820, [68756])%N
 Leaf) (68821, [68757])%N
 Leaf) (68822, [68758])%N
 (Node (Node Leaf (68823, [68759])%N
 Leaf) (68824, [68760])%N
 Leaf)) (68825, [68761])%N
 (Node (Node (Node Leaf (68826, [68762])%N
 Leaf) (68827, [68763])%N
 Leaf) (68828, [68764])%N
 (Node (Node Leaf (68829, [68765])%N
 Leaf) (68830, [68766])%N
 Leaf)))) (68831, [68767])%N
 (Node (Node (Node (Node (Node Leaf (68832, [68768])%N
 Leaf) (68833, [68769])%N
 Leaf) (68834, [68770])%N
 (Node (Node Leaf (68835, [68771])%N
 Leaf) (68836, [68772])%N
 Leaf)) (68837, [68773])%N
 (Node (Node (Node Leaf (68838, [68774])%N
 Leaf) (68839, [68775])%N
 Leaf) (68840, [68776])%N
 (Node (Node Leaf (68841, [68777])%N
 Leaf) (68842, [68778])%N
 Leaf))) (68843, [68779])%N
 (Node (Node (Node (Node Leaf (68844, [68780])%N
 Leaf) (68845, [68781])%N
 Leaf) (68846, [68782])%N
 (Node (Node Leaf (68847, [68783])%N
 Leaf) (68848, [68784])%N
 Leaf)) (68849, [68785])%N
 (Node (Node (Node Leaf (68850, [68786])%N
 Leaf) (71872, [71840])%N
 Leaf) (71873, [71841])%N
 (Node Leaf (71874, [71842])%N
 Leaf)))))) (71875, [71843])%N
 (Node (Node (Node (Node (Node (Node (Node Leaf (71876, [71844])%N
 Leaf) (71877, [71845])%N
 Leaf) (71878, [71846])%N
 (Node (Node Leaf (71879, [71847])%N
 Leaf) (71880, [71848])%N
 Leaf)) (71881, [71849])%N
 (Node (Node (Node Leaf (71882, [71850])%N
 Leaf) (71883, [71851])%N
 Leaf) (71884, [71852])%N
 (Node (Node Leaf (71885, [71853])%N
 Leaf) (71886, [71854])%N
 Leaf))) (71887, [71855])%N
 (Node (Node (Node (Node Leaf (71888, [71856])%N
 Leaf) (71889, [71857])%N
 Leaf) (71890, [71858])%N
 (Node (Node Leaf (71891, [71859])%N
 Leaf) (71892, [71860])%N
 Leaf)) (71893, [71861])%N
 (Node (Node (Node Leaf (71894, [71862])%N
 Leaf) (71895, [71863])%N
 Leaf) (71896, [71864])%N
 (Node (Node Leaf (71897, [71865])%N
 Leaf) (71898, [71866])%N
 Leaf)))) (71899, [71867])%N
 (Node (Node (Node (Node (Node Leaf (71900, [71868])%N
 Leaf) (71901, [71869])%N
 Leaf) (71902, [71870])%N
 (Node (Node Leaf (71903, [71871])%N
 Leaf) (93792, [93760])%N
 Leaf)) (93793, [93761])%N
 (Node (Node (Node Leaf (93794, [93762])%N
 Leaf) (93795, [93763])%N
 Leaf) (93796, [93764])%N
 (Node (Node Leaf (93797, [93765])%N
 Leaf) (93798, [93766])%N
 Leaf))) (93799, [93767])%N
 (Node (Node (Node (Node Leaf (93800, [93768])%N
 Leaf) (93801, [93769])%N
 Leaf) (93802, [93770])%N
 (Node (Node Leaf (93803, [93771])%N
 Leaf) (93804, [93772])%N
 Leaf)) (93805, [93773])%N
 (Node (Node (Node Leaf (93806, [93774])%N
 Leaf) (93807, [93775])%N
 Leaf) (93808, [93776])%N
 (Node (Node Leaf (93809, [93777])%N
 Leaf) (93810, [93778])%N
 Leaf))))) (93811, [93779])%N
 (Node (Node (Node (Node (Node (Node Leaf (93812, [93780])%N
 Leaf) (93813, [93781])%N
 Leaf) (93814, [93782])%N
 (Node (Node Leaf (93815, [93783])%N
 Leaf) (93816, [93784])%N
 Leaf)) (93817, [93785])%N
 (Node (Node (Node Leaf (93818, [93786])%N
 Leaf) (93819, [93787])%N
 Leaf) (93820, [93788])%N
 (Node (Node Leaf (93821, [93789])%N
 Leaf) (93822, [93790])%N
 Leaf))) (93823, [93791])%N
 (Node (Node (Node (Node Leaf (125218, [125184])%N
 Leaf) (125219, [125185])%N
 Leaf) (125220, [125186])%N
 (Node (Node Leaf (125221, [125187])%N
 Leaf) (125222, [125188])%N
 Leaf)) (125223, [125189])%N
 (Node (Node (Node Leaf (125224, [125190])%N
 Leaf) (125225, [125191])%N
 Leaf) (125226, [125192])%N
 (Node (Node Leaf (125227, [125193])%N
 Leaf) (125228, [125194])%N
 Leaf)))) (125229, [125195])%N
 (Node (Node (Node (Node (Node Leaf (125230, [125196])%N
 Leaf) (125231, [125197])%N
 Leaf) (125232, [125198])%N
 (Node (Node Leaf (125233, [125199])%N
 Leaf) (125234, [125200])%N
 Leaf)) (125235, [125201])%N
 (Node (Node (Node Leaf (125236, [125202])%N
 Leaf) (125237, [125203])%N
 Leaf) (125238, [125204])%N
 (Node (Node Leaf (125239, [125205])%N
 Leaf) (125240, [125206])%N
 Leaf))) (125241, [125207])%N
 (Node (Node (Node (Node Leaf (125242, [125208])%N
 Leaf) (125243, [125209])%N
 Leaf) (125244, [125210])%N
 (Node (Node Leaf (125245, [125211])%N
 Leaf) (125246, [125212])%N
 Leaf)) (125247, [125213])%N
 (Node (Node (Node Leaf (125248, [125214])%N
 Leaf) (125249, [125215])%N
 Leaf) (125250, [125216])%N
 (Node Leaf (125251, [125217])%N
 Leaf)))))))))).

