(** The single precision functions of src/sleefsp.c that nsimd's operators call,
    one [let] per C assignment.  The functions after the table are the output of
    tools/sleef2coq.py; SleefBase.v says what is simplified.

    The [U] of SleefBase.v answers for conversions to [int] that C leaves
    undefined; [W i] is what a read of the reduction table at an index outside
    the table gives.  fmod and remainder are in SleefRem.v. *)
Require Import ZArith List Bool.
Require Import Verif.FloatSpec Verif.FloatArith Verif.RoundEven Verif.X86Cvt Verif.SleefBase.
Import ListNotations.
Local Open Scope Z_scope.
Local Infix "+." := addf (at level 50, left associativity).
Local Infix "-." := subf (at level 50, left associativity).
Local Infix "*." := mulf (at level 40, left associativity).
Local Infix "/." := divf (at level 40, left associativity).
Local Infix "+.." := addd (at level 50, left associativity).
Local Infix "-.." := subd (at level 50, left associativity).
Local Infix "*.." := muld (at level 40, left associativity).
Local Infix "/.." := divd (at level 40, left associativity).

(** src/rempitab.c:986-1090, as m / 10^k; double constants stored as float *)
Definition rempi_decimals : list (Z * Z) :=
  [
   (159154892, 9); (5112411827, 17); (3626141271, 24); (-2036222915, 31);
   (3415493667, 11); (6420638243, 18); (7342738037, 26); (8135951656, 33);
   (3415493667, 11); (6420638243, 18); (7342738037, 26); (8135951656, 33);
   (2904943191, 12); (-9861969574, 20); (-9839336547, 27); (-1790215892, 33);
   (2904943191, 12); (-9861969574, 20); (-9839336547, 27); (-1790215892, 33);
   (2904943191, 12); (-9861969574, 20); (-9839336547, 27); (-1790215892, 33);
   (2904943191, 12); (-9861969574, 20); (-9839336547, 27); (-1790215892, 33);
   (9518179577, 13); (1342109202, 19); (1791623576, 26); (1518506657, 33);
   (9518179577, 13); (1342109202, 19); (1791623576, 26); (1518506657, 33);
   (4635368241, 13); (1779561221, 20); (4038449606, 27); (-1358546052, 34);
   (2193961991, 13); (1779561221, 20); (4038449606, 27); (-1358546052, 34);
   (973258866, 13); (1779561221, 20); (4038449606, 27); (-1358546052, 34);
   (362907449, 13); (3243700447, 21); (5690024473, 28); (709405479, 34);
   (5773168596, 15); (1424711477, 21); (13532163, 26); (192417627, 34);
   (5773168596, 15); (1424711477, 21); (13532163, 26); (192417627, 34);
   (5773168596, 15); (1424711477, 21); (13532163, 26); (192417627, 34);
   (1958472239, 15); (5152167755, 22); (13532163, 26); (192417627, 34);
   (5112411827, 17); (3626141271, 24); (-2036222915, 31); (6177847236, 39);
   (5112411827, 17); (3626141271, 24); (-2036222915, 31); (6177847236, 39);
   (5112411827, 17); (3626141271, 24); (-2036222915, 31); (6177847236, 39);
   (5112411827, 17); (3626141271, 24); (-2036222915, 31); (6177847236, 39);
   (5112411827, 17); (3626141271, 24); (-2036222915, 31); (6177847236, 39);
   (5112411827, 17); (3626141271, 24); (-2036222915, 31); (6177847236, 39);
   (2132179588, 17); (3626141271, 24); (-2036222915, 31); (6177847236, 39);
   (6420638243, 18); (7342738037, 26); (8135951656, 33); (-1330400526, 40);
   (6420638243, 18); (7342738037, 26); (8135951656, 33); (-1330400526, 40);
   (2695347945, 18); (7342738037, 26); (8135951656, 33); (-1330400526, 40);
   (8327027956, 19); (7342738037, 26); (8135951656, 33); (-1330400526, 40);
   (8327027956, 19); (7342738037, 26); (8135951656, 33); (-1330400526, 40);
   (3670415083, 19); (7342738037, 26); (8135951656, 33); (-1330400526, 40);
   (1342109202, 19); (1791623576, 26); (1518506361, 33); (2613904, 37);
   (1779561221, 20); (4038449606, 27); (-1358545683, 34); (-3443243946, 41);
   (1779561221, 20); (4038449606, 27); (-1358545683, 34); (-3443243946, 41);
   (1779561221, 20); (4038449606, 27); (-1358545683, 34); (-3443243946, 41);
   (3243700447, 21); (5690024473, 28); (7094053557, 35); (1487136711, 41);
   (3243700447, 21); (5690024473, 28); (7094053557, 35); (1487136711, 41);
   (3243700447, 21); (5690024473, 28); (7094053557, 35); (1487136711, 41);
   (1424711477, 21); (13532163, 26); (1924175961, 35); (2545416018, 42);
   (5152167755, 22); (13532163, 26); (1924175961, 35); (2545416018, 42);
   (6046956013, 23); (-2036222915, 31); (6177846108, 39); (1082084378, 45);
   (6046956013, 23); (-2036222915, 31); (6177846108, 39); (1082084378, 45);
   (6046956013, 23); (-2036222915, 31); (6177846108, 39); (1082084378, 45);
   (3626141271, 24); (-2036222915, 31); (6177846108, 39); (1082084378, 45);
   (3626141271, 24); (-2036222915, 31); (6177846108, 39); (1082084378, 45);
   (3626141271, 24); (-2036222915, 31); (6177846108, 39); (1082084378, 45);
   (3626141271, 24); (-2036222915, 31); (6177846108, 39); (1082084378, 45);
   (7342738037, 26); (8135951656, 33); (-1330400526, 40); (6296048013, 49);
   (7342738037, 26); (8135951656, 33); (-1330400526, 40); (6296048013, 49);
   (7342738037, 26); (8135951656, 33); (-1330400526, 40); (6296048013, 49);
   (7342738037, 26); (8135951656, 33); (-1330400526, 40); (6296048013, 49);
   (7342738037, 26); (8135951656, 33); (-1330400526, 40); (6296048013, 49);
   (7342738037, 26); (8135951656, 33); (-1330400526, 40); (6296048013, 49);
   (1791623576, 26); (1518506361, 33); (261390353, 39); (4764937743, 47);
   (1791623576, 26); (1518506361, 33); (261390353, 39); (4764937743, 47);
   (4038449606, 27); (-1358545683, 34); (-3443243946, 41); (6296048013, 49);
   (4038449606, 27); (-1358545683, 34); (-3443243946, 41); (6296048013, 49);
   (5690024473, 28); (7094053557, 35); (1487136711, 41); (6296048013, 49);
   (5690024473, 28); (7094053557, 35); (1487136711, 41); (6296048013, 49);
   (5690024473, 28); (7094053557, 35); (1487136711, 41); (6296048013, 49);
   (13532163, 26); (1924175961, 35); (2545415467, 42); (6296048013, 49);
   (13532163, 26); (1924175961, 35); (2545415467, 42); (6296048013, 49);
   (2690143217, 29); (-1452834402, 37); (-6441077673, 45); (-1764234767, 51);
   (2690143217, 29); (-1452834402, 37); (-6441077673, 45); (-1764234767, 51);
   (2690143217, 29); (-1452834402, 37); (-6441077673, 45); (-1764234767, 51);
   (1334890502, 29); (-1452834402, 37); (-6441077673, 45); (-1764234767, 51);
   (6572641438, 30); (-1452834402, 37); (-6441077673, 45); (-1764234767, 51);
   (5874381959, 11); (1222115387, 17); (7693612965, 25); (1792054435, 31);
   (2749382704, 11); (477057327, 17); (7693612965, 25); (1792054435, 31);
   (1186883077, 11); (1045283415, 18); (3252721926, 25); (7332633139, 32);
   (405633077, 11); (1045283415, 18); (3252721926, 25); (7332633139, 32);
   (150081818, 12); (-2454155802, 21); (1161414894, 29); (1291319272, 36);
   (150081818, 12); (-2454155802, 21); (1161414894, 29); (1291319272, 36);
   (150081818, 12); (-2454155802, 21); (1161414894, 29); (1291319272, 36);
   (150081818, 12); (-2454155802, 21); (1161414894, 29); (1291319272, 36);
   (150081818, 12); (-2454155802, 21); (1161414894, 29); (1291319272, 36);
   (2801149822, 14); (4821800945, 21); (8789757674, 28); (1208447639, 34);
   (2801149822, 14); (4821800945, 21); (8789757674, 28); (1208447639, 34);
   (2801149822, 14); (4821800945, 21); (8789757674, 28); (1208447639, 34);
   (1275271279, 14); (1183823005, 21); (1161414894, 29); (1291319272, 36);
   (512331826, 14); (1183823005, 21); (1161414894, 29); (1291319272, 36);
   (1308621904, 15); (2743283031, 22); (1161414894, 29); (1291319272, 36);
   (1308621904, 15); (2743283031, 22); (1161414894, 29); (1291319272, 36);
   (3549478151, 16); (4695462769, 23); (1161414894, 29); (1291319272, 36);
   (3549478151, 16); (4695462769, 23); (1161414894, 29); (1291319272, 36);
   (1165292645, 16); (1853292503, 23); (4837885366, 30); (1291319272, 36);
   (1165292645, 16); (1853292503, 23); (4837885366, 30); (1291319272, 36);
   (569246339, 16); (4322073705, 24); (1449754789, 30); (7962890365, 38);
   (2712231151, 17); (4322073705, 24); (1449754789, 30); (7962890365, 38);
   (1222115387, 17); (7693612965, 25); (1792054182, 31); (291418027, 37);
   (477057327, 17); (7693612965, 25); (1792054182, 31); (291418027, 37);
   (1045283415, 18); (3252721926, 25); (7332632508, 32); (3898253736, 39);
   (1045283415, 18); (3252721926, 25); (7332632508, 32); (3898253736, 39);
   (1139611461, 19); (1996093359, 26); (5344349223, 34); (1511644828, 40);
   (1139611461, 19); (1996093359, 26); (5344349223, 34); (1511644828, 40);
   (1139611461, 19); (1996093359, 26); (5344349223, 34); (1511644828, 40);
   (1139611461, 19); (1996093359, 26); (5344349223, 34); (1511644828, 40);
   (5575349904, 20); (6083145782, 27); (5344349223, 34); (1511644828, 40);
   (2664967552, 20); (-8557475018, 28); (-8595036458, 35); (-2139883875, 41);
   (1209775682, 20); (261369883, 26); (5344349223, 34); (1511644828, 40);
   (4821800945, 21); (8789757674, 28); (1208447639, 34); (3253064536, 42);
   (1183823005, 21); (1161414894, 29); (129131908, 35); (1715766248, 43);
   (1183823005, 21); (1161414894, 29); (129131908, 35); (1715766248, 43);
   (2743283031, 22); (1161414894, 29); (129131908, 35); (1715766248, 43)
  ].
Definition Sleef_rempitabsp : list Z := Eval vm_compute in
  map (fun c => d2f (if fst c <? 0 then negd (ddec (- fst c) (snd c)) else ddec (fst c) (snd c))) rempi_decimals.

(** The constants: F_m_k is the C constant m / 10^k with the suffix f, D_m_k without it, DF_m_k without it
    but converted to float; I_n is the integer n converted to float. *)
Definition DF_5_1 : Z := Eval vm_compute in d2f (ddec 5 1).
Definition DF_318309886183790671538_21 : Z := Eval vm_compute in d2f (ddec 318309886183790671538 21).
Definition DF_314159265358979323846_20 : Z := Eval vm_compute in d2f (ddec 314159265358979323846 20).
Definition DF_4197454825_11 : Z := Eval vm_compute in d2f (ddec 4197454825 11).
Definition DF_2424046025_11 : Z := Eval vm_compute in d2f (ddec 2424046025 11).
Definition DF_4547423869_11 : Z := Eval vm_compute in d2f (ddec 4547423869 11).
Definition DF_7495029271_11 : Z := Eval vm_compute in d2f (ddec 7495029271 11).
Definition DF_1666677296_10 : Z := Eval vm_compute in d2f (ddec 1666677296 10).
Definition DF_198527617612853646278381_27 : Z := Eval vm_compute in d2f (ddec 198527617612853646278381 27).
Definition DF_139304355252534151077271_26 : Z := Eval vm_compute in d2f (ddec 139304355252534151077271 26).
Definition DF_833336077630519866943359_26 : Z := Eval vm_compute in d2f (ddec 833336077630519866943359 26).
Definition DF_416664853692054748535156_25 : Z := Eval vm_compute in d2f (ddec 416664853692054748535156 25).
Definition DF_166666671633720397949219_24 : Z := Eval vm_compute in d2f (ddec 166666671633720397949219 24).
Definition DF_240320354700088500976562_24 : Z := Eval vm_compute in d2f (ddec 240320354700088500976562 24).
Definition DF_285112679004669189453125_24 : Z := Eval vm_compute in d2f (ddec 285112679004669189453125 24).
Definition DF_400007992982864379882812_24 : Z := Eval vm_compute in d2f (ddec 400007992982864379882812 24).
Definition DF_1535920892_13 : Z := Eval vm_compute in d2f (ddec 1535920892 13).
Definition DF_1339262701_12 : Z := Eval vm_compute in d2f (ddec 1339262701 12).
Definition DF_9618384764_12 : Z := Eval vm_compute in d2f (ddec 9618384764 12).
Definition DF_5550347269_11 : Z := Eval vm_compute in d2f (ddec 5550347269 11).
Definition DF_2402264476_10 : Z := Eval vm_compute in d2f (ddec 2402264476 10).
Definition DF_6931471825_10 : Z := Eval vm_compute in d2f (ddec 6931471825 10).
Definition DF_1_0 : Z := Eval vm_compute in d2f (ddec 1 0).
Definition DF_3321928094887362347870319429489390175864831393_45 : Z := Eval vm_compute in d2f (ddec 3321928094887362347870319429489390175864831393 45).
Definition DF_6802555919_11 : Z := Eval vm_compute in d2f (ddec 6802555919 11).
Definition DF_2078080326_10 : Z := Eval vm_compute in d2f (ddec 2078080326 10).
Definition DF_5393903852_10 : Z := Eval vm_compute in d2f (ddec 5393903852 10).
Definition DF_1171245337_9 : Z := Eval vm_compute in d2f (ddec 1171245337 9).
Definition DF_2034678698_9 : Z := Eval vm_compute in d2f (ddec 2034678698 9).
Definition DF_2650949001_9 : Z := Eval vm_compute in d2f (ddec 2650949001 9).
Definition DF_23025851249694824219_19 : Z := Eval vm_compute in d2f (ddec 23025851249694824219 19).
Definition DF_2064004987_10 : Z := Eval vm_compute in d2f (ddec 2064004987 10).
Definition DF_5417877436_10 : Z := Eval vm_compute in d2f (ddec 5417877436 10).
Definition DF_1171286821_9 : Z := Eval vm_compute in d2f (ddec 1171286821 9).
Definition DF_2034656048_9 : Z := Eval vm_compute in d2f (ddec 2034656048 9).
Definition DF_2650948763_9 : Z := Eval vm_compute in d2f (ddec 2650948763 9).
Definition DF_2302585125_9 : Z := Eval vm_compute in d2f (ddec 2302585125 9).
Definition DF_1314289868_10 : Z := Eval vm_compute in d2f (ddec 1314289868 10).
Definition DF_1735493541_10 : Z := Eval vm_compute in d2f (ddec 1735493541 10).
Definition DF_2895309627_10 : Z := Eval vm_compute in d2f (ddec 2895309627 10).
Definition DF_30103001_8 : Z := Eval vm_compute in d2f (ddec 30103001 8).
Definition DF_868588984_9 : Z := Eval vm_compute in d2f (ddec 868588984 9).
Definition DF_28853900432586669922_19 : Z := Eval vm_compute in d2f (ddec 28853900432586669922 19).
Definition DF_32734474483568488616_27 : Z := Eval vm_compute in d2f (ddec 32734474483568488616 27).
Definition DF_4374088347_10 : Z := Eval vm_compute in d2f (ddec 4374088347 10).
Definition DF_5764843822_10 : Z := Eval vm_compute in d2f (ddec 5764843822 10).
Definition DF_961802423_9 : Z := Eval vm_compute in d2f (ddec 961802423 9).
Definition DF_2885390043_9 : Z := Eval vm_compute in d2f (ddec 2885390043 9).
Definition DF_12599210739135742188_19 : Z := Eval vm_compute in d2f (ddec 12599210739135742188 19).
Definition DF_15874010324478149414_19 : Z := Eval vm_compute in d2f (ddec 15874010324478149414 19).
Definition DF_19520385308169352356_27 : Z := Eval vm_compute in d2f (ddec 19520385308169352356 27).
Definition DF_15854343771934509277_21 : Z := Eval vm_compute in d2f (ddec 15854343771934509277 21).
Definition DF_44940051354032242811_29 : Z := Eval vm_compute in d2f (ddec 44940051354032242811 29).
Definition DF_78539818525314331055_20 : Z := Eval vm_compute in d2f (ddec 78539818525314331055 20).
Definition F_1_0 : Z := Eval vm_compute in fdec 1 0.
Definition F_5_1 : Z := Eval vm_compute in fdec 5 1.
Definition F_25_2 : Z := Eval vm_compute in fdec 25 2.
Definition F_125_3 : Z := Eval vm_compute in fdec 125 3.
Definition F_10000000000_0 : Z := Eval vm_compute in fdec 10000000000 0.
Definition F_12499999254941940308_20 : Z := Eval vm_compute in fdec 12499999254941940308 20.
Definition F_31415927410125732422_19 : Z := Eval vm_compute in fdec 31415927410125732422 19.
Definition F_87422776573475857731_27 : Z := Eval vm_compute in fdec 87422776573475857731 27.
Definition F_7_1 : Z := Eval vm_compute in fdec 7 1.
Definition F_125_0 : Z := Eval vm_compute in fdec 125 0.
Definition F_31414794921875_13 : Z := Eval vm_compute in fdec 31414794921875 13.
Definition F_11315941810607910156_23 : Z := Eval vm_compute in fdec 11315941810607910156 23.
Definition F_19841872589410058936_28 : Z := Eval vm_compute in fdec 19841872589410058936 28.
Definition F_3140625_6 : Z := Eval vm_compute in fdec 3140625 6.
Definition F_9670257568359375_19 : Z := Eval vm_compute in fdec 9670257568359375 19.
Definition F_62771141529083251953_26 : Z := Eval vm_compute in fdec 62771141529083251953 26.
Definition F_12154201256553420762_29 : Z := Eval vm_compute in fdec 12154201256553420762 29.
Definition F_26083159809786593541503_28 : Z := Eval vm_compute in fdec 26083159809786593541503 28.
Definition F_1981069071916863322258_25 : Z := Eval vm_compute in fdec 1981069071916863322258 25.
Definition F_833307858556509017944336_26 : Z := Eval vm_compute in fdec 833307858556509017944336 26.
Definition F_166666597127914428710938_24 : Z := Eval vm_compute in fdec 166666597127914428710938 24.
Definition F_0_1 : Z := Eval vm_compute in fdec 0 1.
Definition F_927245803177356719970703_26 : Z := Eval vm_compute in fdec 927245803177356719970703 26.
Definition F_331984995864331722259521_26 : Z := Eval vm_compute in fdec 331984995864331722259521 26.
Definition F_242998078465461730957031_25 : Z := Eval vm_compute in fdec 242998078465461730957031 25.
Definition F_534495301544666290283203_25 : Z := Eval vm_compute in fdec 534495301544666290283203 25.
Definition F_133383005857467651367188_24 : Z := Eval vm_compute in fdec 133383005857467651367188 24.
Definition F_333331853151321411132812_24 : Z := Eval vm_compute in fdec 333331853151321411132812 24.
Definition F_446636462584137916564941_26 : Z := Eval vm_compute in fdec 446636462584137916564941 26.
Definition F_83920182078145444393158_27 : Z := Eval vm_compute in fdec 83920182078145444393158 27.
Definition F_109639242291450500488281_25 : Z := Eval vm_compute in fdec 109639242291450500488281 25.
Definition F_212360303848981857299805_25 : Z := Eval vm_compute in fdec 212360303848981857299805 25.
Definition F_540687143802642822265625_25 : Z := Eval vm_compute in fdec 540687143802642822265625 25.
Definition F_133325666189193725585938_24 : Z := Eval vm_compute in fdec 133325666189193725585938 24.
Definition F_33333361148834228515625_23 : Z := Eval vm_compute in fdec 33333361148834228515625 23.
Definition F_282363896258175373077393_26 : Z := Eval vm_compute in fdec 282363896258175373077393 26.
Definition F_159569028764963150024414_25 : Z := Eval vm_compute in fdec 159569028764963150024414 25.
Definition F_425049886107444763183594_25 : Z := Eval vm_compute in fdec 425049886107444763183594 25.
Definition F_748900920152664184570312_25 : Z := Eval vm_compute in fdec 748900920152664184570312 25.
Definition F_106347933411598205566406_24 : Z := Eval vm_compute in fdec 106347933411598205566406 24.
Definition F_142027363181114196777344_24 : Z := Eval vm_compute in fdec 142027363181114196777344 24.
Definition F_199926957488059997558594_24 : Z := Eval vm_compute in fdec 199926957488059997558594 24.
Definition F_333331018686294555664062_24 : Z := Eval vm_compute in fdec 333331018686294555664062 24.
Definition F_1570796326794896557998982_24 : Z := Eval vm_compute in fdec 1570796326794896557998982 24.
Definition F_31415926535897932_16 : Z := Eval vm_compute in fdec 31415926535897932 16.
Definition F_176397908944636583328247_26 : Z := Eval vm_compute in fdec 176397908944636583328247 26.
Definition F_107900900766253471374512_25 : Z := Eval vm_compute in fdec 107900900766253471374512 25.
Definition F_309564601629972457885742_25 : Z := Eval vm_compute in fdec 309564601629972457885742 25.
Definition F_577365085482597351074219_25 : Z := Eval vm_compute in fdec 577365085482597351074219 25.
Definition F_838950723409652709960938_25 : Z := Eval vm_compute in fdec 838950723409652709960938 25.
Definition F_109463557600975036621094_24 : Z := Eval vm_compute in fdec 109463557600975036621094 24.
Definition F_142626821994781494140625_24 : Z := Eval vm_compute in fdec 142626821994781494140625 24.
Definition F_199983194470405578613281_24 : Z := Eval vm_compute in fdec 199983194470405578613281 24.
Definition F_333332866430282592773438_24 : Z := Eval vm_compute in fdec 333332866430282592773438 24.
Definition F_15707963705062866211_19 : Z := Eval vm_compute in fdec 15707963705062866211 19.
Definition F_43711388286737928865_27 : Z := Eval vm_compute in fdec 43711388286737928865 27.
Definition F_29387372783541830947_58 : Z := Eval vm_compute in fdec 29387372783541830947 58.
Definition F_75_2 : Z := Eval vm_compute in fdec 75 2.
Definition F_2392828464508056640625_22 : Z := Eval vm_compute in fdec 2392828464508056640625 22.
Definition F_28518211841583251953125_23 : Z := Eval vm_compute in fdec 28518211841583251953125 23.
Definition F_400005877017974853515625_24 : Z := Eval vm_compute in fdec 400005877017974853515625 24.
Definition F_666666686534881591796875_24 : Z := Eval vm_compute in fdec 666666686534881591796875 24.
Definition F_2_0 : Z := Eval vm_compute in fdec 2 0.
Definition F_693147180559945286226764_24 : Z := Eval vm_compute in fdec 693147180559945286226764 24.
Definition F_1442695040888963407359924681001892137426645954152985934135449406931_66 : Z := Eval vm_compute in fdec 1442695040888963407359924681001892137426645954152985934135449406931 66.
Definition F_693145751953125_15 : Z := Eval vm_compute in fdec 693145751953125 15.
Definition F_1428606765330187045_24 : Z := Eval vm_compute in fdec 1428606765330187045 24.
Definition F_136324646882712841033936_26 : Z := Eval vm_compute in fdec 136324646882712841033936 26.
Definition F_836596917361021041870117_26 : Z := Eval vm_compute in fdec 836596917361021041870117 26.
Definition F_416710823774337768554688_25 : Z := Eval vm_compute in fdec 416710823774337768554688 25.
Definition F_166665524244308471679688_24 : Z := Eval vm_compute in fdec 166665524244308471679688 24.
Definition F_499999850988388061523438_24 : Z := Eval vm_compute in fdec 499999850988388061523438 24.
Definition F_66666662693023681640625_23 : Z := Eval vm_compute in fdec 66666662693023681640625 23.
Definition F_369183861259614332084311_32 : Z := Eval vm_compute in fdec 369183861259614332084311 32.
Definition F_69314718246459960938_20 : Z := Eval vm_compute in fdec 69314718246459960938 20.
Definition F_1904654323148236017_27 : Z := Eval vm_compute in fdec 1904654323148236017 27.
Definition F_3027294874_10 : Z := Eval vm_compute in fdec 3027294874 10.
Definition F_3996108174_10 : Z := Eval vm_compute in fdec 3996108174 10.
Definition F_666669488_9 : Z := Eval vm_compute in fdec 666669488 9.
Definition F_1980960224_13 : Z := Eval vm_compute in fdec 1980960224 13.
Definition F_1394256484_12 : Z := Eval vm_compute in fdec 1394256484 12.
Definition F_8333456703_12 : Z := Eval vm_compute in fdec 8333456703 12.
Definition F_4166637361_11 : Z := Eval vm_compute in fdec 4166637361 11.
Definition F_166666659414234244790680580464_30 : Z := Eval vm_compute in fdec 166666659414234244790680580464 30.
Definition F_18714973875_9 : Z := Eval vm_compute in fdec 18714973875 9.
Definition F_3010253906_10 : Z := Eval vm_compute in fdec 3010253906 10.
Definition F_4605038981_15 : Z := Eval vm_compute in fdec 4605038981 15.
Definition F_385318394191036238941387_22 : Z := Eval vm_compute in fdec 385318394191036238941387 22.
Definition F_8872283172607421875_17 : Z := Eval vm_compute in fdec 8872283172607421875 17.
Definition F_1663553233343868742601357_23 : Z := Eval vm_compute in fdec 1663553233343868742601357 23.
Definition F_4374550283_10 : Z := Eval vm_compute in fdec 4374550283 10.
Definition F_5764790177_10 : Z := Eval vm_compute in fdec 5764790177 10.
Definition F_961801290512_12 : Z := Eval vm_compute in fdec 961801290512 12.
Definition F_12599210498948731647672106_25 : Z := Eval vm_compute in fdec 12599210498948731647672106 25.
Definition F_15874010519681994747517056_25 : Z := Eval vm_compute in fdec 15874010519681994747517056 25.
Definition F_601564466953277587890625_24 : Z := Eval vm_compute in fdec 601564466953277587890625 24.
Definition F_28208892345428466796875_22 : Z := Eval vm_compute in fdec 28208892345428466796875 22.
Definition F_5532182216644287109375_21 : Z := Eval vm_compute in fdec 5532182216644287109375 21.
Definition F_5898262500762939453125_21 : Z := Eval vm_compute in fdec 5898262500762939453125 21.
Definition F_38095417022705078125_19 : Z := Eval vm_compute in fdec 38095417022705078125 19.
Definition F_22241256237030029296875_22 : Z := Eval vm_compute in fdec 22241256237030029296875 22.
Definition F_3_0 : Z := Eval vm_compute in fdec 3 0.
Definition F_2430611801_17 : Z := Eval vm_compute in fdec 2430611801 17.
Definition F_3093842054_16 : Z := Eval vm_compute in fdec 3093842054 16.
Definition F_359057708_14 : Z := Eval vm_compute in fdec 359057708 14.
Definition F_3657307388_14 : Z := Eval vm_compute in fdec 3657307388 14.
Definition F_3259917721_13 : Z := Eval vm_compute in fdec 3259917721 13.
Definition F_2490393585_12 : Z := Eval vm_compute in fdec 2490393585 12.
Definition F_8000000_0 : Z := Eval vm_compute in fdec 8000000 0.
Definition F_1_30 : Z := Eval vm_compute in fdec 1 30.
Definition F_9435157776_10 : Z := Eval vm_compute in fdec 9435157776 10.
Definition F_110248955_12 : Z := Eval vm_compute in fdec 110248955 12.
Definition F_8670063615_10 : Z := Eval vm_compute in fdec 8670063615 10.
Definition F_8160019934_14 : Z := Eval vm_compute in fdec 8160019934 14.
Definition F_4826702476_10 : Z := Eval vm_compute in fdec 4826702476 10.
Definition F_1528468856_13 : Z := Eval vm_compute in fdec 1528468856 13.
Definition F_8855129778_11 : Z := Eval vm_compute in fdec 8855129778 11.
Definition F_2355068718_13 : Z := Eval vm_compute in fdec 2355068718 13.
Definition F_1013825238_10 : Z := Eval vm_compute in fdec 1013825238 10.
Definition F_4962242092_13 : Z := Eval vm_compute in fdec 4962242092 13.
Definition F_1493408978_10 : Z := Eval vm_compute in fdec 1493408978 10.
Definition F_1193488017_12 : Z := Eval vm_compute in fdec 1193488017 12.
Definition F_169750914_9 : Z := Eval vm_compute in fdec 169750914 9.
Definition F_2891599433_12 : Z := Eval vm_compute in fdec 2891599433 12.
Definition F_2072454542_10 : Z := Eval vm_compute in fdec 2072454542 10.
Definition F_7385451812_12 : Z := Eval vm_compute in fdec 7385451812 12.
Definition F_2705872357_10 : Z := Eval vm_compute in fdec 2705872357 10.
Definition F_2058077045_11 : Z := Eval vm_compute in fdec 2058077045 11.
Definition F_400686534596170958447352690395_30 : Z := Eval vm_compute in fdec 400686534596170958447352690395 30.
Definition F_673523028297382446749257758235_31 : Z := Eval vm_compute in fdec 673523028297382446749257758235 31.
Definition F_822466960142643054450325495997_30 : Z := Eval vm_compute in fdec 822466960142643054450325495997 30.
Definition F_322467033928981157743538726901_30 : Z := Eval vm_compute in fdec 322467033928981157743538726901 30.
Definition F_577215665946766039837398973297_30 : Z := Eval vm_compute in fdec 577215665946766039837398973297 30.
Definition F_422784335087484338986941629852_30 : Z := Eval vm_compute in fdec 422784335087484338986941629852 30.
Definition F_11_1 : Z := Eval vm_compute in fdec 11 1.
Definition F_24_1 : Z := Eval vm_compute in fdec 24 1.
Definition F_4_0 : Z := Eval vm_compute in fdec 4 0.
Definition F_7089292194_14 : Z := Eval vm_compute in fdec 7089292194 14.
Definition F_1792667899_14 : Z := Eval vm_compute in fdec 1792667899 14.
Definition F_9495757695_15 : Z := Eval vm_compute in fdec 9495757695 15.
Definition F_7768311189_13 : Z := Eval vm_compute in fdec 7768311189 13.
Definition F_393763301_12 : Z := Eval vm_compute in fdec 393763301 12.
Definition F_2481465926_13 : Z := Eval vm_compute in fdec 2481465926 13.
Definition F_5159463733_12 : Z := Eval vm_compute in fdec 5159463733 12.
Definition F_3949181177_12 : Z := Eval vm_compute in fdec 3949181177 12.
Definition F_2918176819_12 : Z := Eval vm_compute in fdec 2918176819 12.
Definition F_2683781274_11 : Z := Eval vm_compute in fdec 2683781274 11.
Definition F_244547464_10 : Z := Eval vm_compute in fdec 244547464 10.
Definition F_2059706673_11 : Z := Eval vm_compute in fdec 2059706673 11.
Definition F_1128318012_10 : Z := Eval vm_compute in fdec 1128318012 10.
Definition F_107099615_9 : Z := Eval vm_compute in fdec 107099615 9.
Definition F_9901899844_11 : Z := Eval vm_compute in fdec 9901899844 11.
Definition F_22_1 : Z := Eval vm_compute in fdec 22 1.
Definition F_43_1 : Z := Eval vm_compute in fdec 43 1.
Definition F_101_1 : Z := Eval vm_compute in fdec 101 1.
Definition F_8638041618_14 : Z := Eval vm_compute in fdec 8638041618 14.
Definition F_6236977242_15 : Z := Eval vm_compute in fdec 6236977242 15.
Definition F_3869504035_10 : Z := Eval vm_compute in fdec 3869504035 10.
Definition F_1115344167_9 : Z := Eval vm_compute in fdec 1115344167 9.
Definition F_6000166177_13 : Z := Eval vm_compute in fdec 6000166177 13.
Definition F_5749821503_14 : Z := Eval vm_compute in fdec 5749821503 14.
Definition F_1288077235_9 : Z := Eval vm_compute in fdec 1288077235 9.
Definition F_9454904199_10 : Z := Eval vm_compute in fdec 9454904199 10.
Definition F_1665703603_12 : Z := Eval vm_compute in fdec 1665703603 12.
Definition F_6002851478_15 : Z := Eval vm_compute in fdec 6002851478 15.
Definition F_1816803217_9 : Z := Eval vm_compute in fdec 1816803217 9.
Definition F_3667259514_10 : Z := Eval vm_compute in fdec 3667259514 10.
Definition F_1795156277_13 : Z := Eval vm_compute in fdec 1795156277 13.
Definition F_2851036377_12 : Z := Eval vm_compute in fdec 2851036377 12.
Definition F_1249150872_9 : Z := Eval vm_compute in fdec 1249150872 9.
Definition F_7155663371_10 : Z := Eval vm_compute in fdec 7155663371 10.
Definition F_1914106123_11 : Z := Eval vm_compute in fdec 1914106123 11.
Definition F_2260518074_11 : Z := Eval vm_compute in fdec 2260518074 11.
Definition F_1328857988_10 : Z := Eval vm_compute in fdec 1328857988 10.
Definition F_1262947265_11 : Z := Eval vm_compute in fdec 1262947265 11.
Definition D_5_1 : Z := Eval vm_compute in ddec 5 1.
Definition D_318309886183790671538_21 : Z := Eval vm_compute in ddec 318309886183790671538 21.
Definition D_314159265358979323846_20 : Z := Eval vm_compute in ddec 314159265358979323846 20.
Definition D_1_0 : Z := Eval vm_compute in ddec 1 0.
Definition D_18446743523953729536_0 : Z := Eval vm_compute in ddec 18446743523953729536 0.
Definition D_31705172516493593157_27 : Z := Eval vm_compute in ddec 31705172516493593157 27.
Definition D_1432098889_17 : Z := Eval vm_compute in ddec 1432098889 17.
Definition D_2170757285_17 : Z := Eval vm_compute in ddec 2170757285 17.
Definition D_100000000000000000000000000000000000000_0 : Z := Eval vm_compute in ddec 100000000000000000000000000000000000000 0.
Definition D_24018701694217270415_27 : Z := Eval vm_compute in ddec 24018701694217270415 27.
Definition D_2_0 : Z := Eval vm_compute in ddec 2 0.
Definition D_3_0 : Z := Eval vm_compute in ddec 3 0.
Definition D_80745510756969451904_21 : Z := Eval vm_compute in ddec 80745510756969451904 21.
Definition D_13373665339076936258_28 : Z := Eval vm_compute in ddec 13373665339076936258 28.
Definition D_30842512845993041992_20 : Z := Eval vm_compute in ddec 30842512845993041992 20.
Definition D_90728339030733922277_28 : Z := Eval vm_compute in ddec 90728339030733922277 28.
Definition D_21857338617566484855_27 : Z := Eval vm_compute in ddec 21857338617566484855 27.
Definition D_0_1 : Z := Eval vm_compute in ddec 0 1.
Definition D_12_1 : Z := Eval vm_compute in ddec 12 1.
Definition D_23_1 : Z := Eval vm_compute in ddec 23 1.
Definition D_839498720672087279971000786_30 : Z := Eval vm_compute in ddec 839498720672087279971000786 30.
Definition D_517179090826059219329394422_31 : Z := Eval vm_compute in ddec 517179090826059219329394422 31.
Definition D_592166437353693882857342347_30 : Z := Eval vm_compute in ddec 592166437353693882857342347 30.
Definition D_697281375836585777403743539_31 : Z := Eval vm_compute in ddec 697281375836585777403743539 31.
Definition D_784039221720066627493314301_30 : Z := Eval vm_compute in ddec 784039221720066627493314301 30.
Definition D_229472093621399176949318732_30 : Z := Eval vm_compute in ddec 229472093621399176949318732 30.
Definition D_268132716049382716047395849_29 : Z := Eval vm_compute in ddec 268132716049382716047395849 29.
Definition D_347222222222222222217516484_29 : Z := Eval vm_compute in ddec 347222222222222222217516484 29.
Definition D_833333333333333333355920879_28 : Z := Eval vm_compute in ddec 833333333333333333355920879 28.
Definition D_91893853320467278056_20 : Z := Eval vm_compute in ddec 91893853320467278056 20.
Definition D_4158883083359671856503_20 : Z := Eval vm_compute in ddec 4158883083359671856503 20.
Definition D_11447298858494001639_19 : Z := Eval vm_compute in ddec 11447298858494001639 19.
Definition D_376125876000657465175213237214_30 : Z := Eval vm_compute in ddec 376125876000657465175213237214 30.
Definition D_63458890590841038997121080921_29 : Z := Eval vm_compute in ddec 63458890590841038997121080921 29.
Definition D_643598050547891613081201721633_30 : Z := Eval vm_compute in ddec 643598050547891613081201721633 30.
Definition D_112837916021059138255978217023_29 : Z := Eval vm_compute in ddec 112837916021059138255978217023 29.
Definition D_112879855826694507209862753992_29 : Z := Eval vm_compute in ddec 112879855826694507209862753992 29.
Definition D_112461487742845562801052956293_29 : Z := Eval vm_compute in ddec 112461487742845562801052956293 29.
Definition D_102775359343930288081655368891_30 : Z := Eval vm_compute in ddec 102775359343930288081655368891 30.
Definition D_105247583459338632253369014063_30 : Z := Eval vm_compute in ddec 105247583459338632253369014063 30.
Definition D_482365310333045318680618892669_30 : Z := Eval vm_compute in ddec 482365310333045318680618892669 30.
Definition D_498961546254537647970305302739_30 : Z := Eval vm_compute in ddec 498961546254537647970305302739 30.
Definition D_636619483208481931303752546439_30 : Z := Eval vm_compute in ddec 636619483208481931303752546439 30.
Definition D_635609463574589034216723775292_30 : Z := Eval vm_compute in ddec 635609463574589034216723775292 30.
Definition D_134450203224533979217859332703_32 : Z := Eval vm_compute in ddec 134450203224533979217859332703 32.
Definition D_471199543422848492080722832666_34 : Z := Eval vm_compute in ddec 471199543422848492080722832666 34.
Definition D_112837917790537404939545770596_29 : Z := Eval vm_compute in ddec 112837917790537404939545770596 29.
Definition D_112855987376668622084547028949_29 : Z := Eval vm_compute in ddec 112855987376668622084547028949 29.
Definition D_57231978115047294956178610108_29 : Z := Eval vm_compute in ddec 57231978115047294956178610108 29.
Definition D_572364030327966044425932623525_30 : Z := Eval vm_compute in ddec 572364030327966044425932623525 30.
Definition I_0 : Z := Eval vm_compute in fint 0.
Definition I_1 : Z := Eval vm_compute in fint 1.
Definition I_8 : Z := Eval vm_compute in fint 8.
Definition I_4 : Z := Eval vm_compute in fint 4.
Definition I_2 : Z := Eval vm_compute in fint 2.
Definition I_39000 : Z := Eval vm_compute in fint 39000.
Definition I_104 : Z := Eval vm_compute in fint 104.
Definition I_89 : Z := Eval vm_compute in fint 89.
Definition I_88 : Z := Eval vm_compute in fint 88.
Definition I_128 : Z := Eval vm_compute in fint 128.
Definition I_7 : Z := Eval vm_compute in fint 7.
Definition I_3 : Z := Eval vm_compute in fint 3.
Definition I_36 : Z := Eval vm_compute in fint 36.
Definition I_m1 : Z := Eval vm_compute in fint (- 1).
Definition I_m104 : Z := Eval vm_compute in fint (- 104).
Definition I_m150 : Z := Eval vm_compute in fint (- 150).
Definition I_m50 : Z := Eval vm_compute in fint (- 50).
Definition ID_2 : Z := Eval vm_compute in dint 2.
Definition ID_1 : Z := Eval vm_compute in dint 1.
Definition ID_4 : Z := Eval vm_compute in dint 4.

Section Sleef.
Variable U : Z -> Z.
Variable W : Z -> Z.
Local Notation toint := (SleefBase.toint U).
Local Notation dtoint := (SleefBase.dtoint U).
Local Notation rintfk := (SleefBase.rintfk U).
Local Notation ceilfk := (SleefBase.ceilfk U).
Local Notation xisintf := (SleefBase.xisintf U).

(** Sleef_rempitabsp[i] *)
Definition rempitab (i : Z) : Z :=
  if (0 <=? i) && (i <? Z.of_nat (length Sleef_rempitabsp)) then nth (Z.to_nat i) Sleef_rempitabsp 0 else W i.

(** src/sleefsp.c:150-154 *)
Definition dfx (d : Z) : f2 :=
  let ret := (F2 (d2f d) unset) in
  let ret := (F2 (fx ret) (d2f (d -.. (f2d (fx ret))))) in
  ret.

(** src/sleefsp.c:156-163 *)
Definition dfnormalize_f2_f2 (t : f2) : f2 :=
  let s := (F2 ((fx t) +. (fy t)) unset) in
  let s := (F2 (fx s) (((fx t) -. (fx s)) +. (fy t))) in
  s.

(** src/sleefsp.c:165-172 *)
Definition dfscale_f2_f2_f (d : f2) (s : Z) : f2 :=
  let r := (F2 ((fx d) *. s) unset) in
  let r := (F2 (fx r) ((fy d) *. s)) in
  r.

(** src/sleefsp.c:174-181 *)
Definition dfneg_f2_f2 (d : f2) : f2 :=
  let r := (F2 (negf (fx d)) unset) in
  let r := (F2 (fx r) (negf (fy d))) in
  r.

(** src/sleefsp.c:183-185 *)
Definition dfabs_f2_f2 (x : f2) : f2 :=
  (F2 (if (ltf (fx x) I_0) then (negf (fx x)) else (fx x)) (if (ltf (fx x) I_0) then (negf (fy x)) else (fy x))).

(** src/sleefsp.c:187-200 *)
Definition dfadd_f2_f_f (x : Z) (y : Z) : f2 :=
  let r := (F2 (x +. y) unset) in
  let r := (F2 (fx r) ((x -. (fx r)) +. y)) in
  r.

(** src/sleefsp.c:202-210 *)
Definition dfadd2_f2_f_f (x : Z) (y : Z) : f2 :=
  let r := (F2 (x +. y) unset) in
  let v := ((fx r) -. x) in
  let r := (F2 (fx r) ((x -. ((fx r) -. v)) +. (y -. v))) in
  r.

(** src/sleefsp.c:212-225 *)
Definition dfadd_f2_f2_f (x : f2) (y : Z) : f2 :=
  let r := (F2 ((fx x) +. y) unset) in
  let r := (F2 (fx r) ((((fx x) -. (fx r)) +. y) +. (fy x))) in
  r.

(** src/sleefsp.c:227-243 *)
Definition dfadd_f2_f_f2 (x : Z) (y : f2) : f2 :=
  let r := (F2 (x +. (fx y)) unset) in
  let r := (F2 (fx r) (((x -. (fx r)) +. (fx y)) +. (fy y))) in
  r.

(** src/sleefsp.c:245-256 *)
Definition dfadd2_f2_f2_f (x : f2) (y : Z) : f2 :=
  let r := (F2 ((fx x) +. y) unset) in
  let v := ((fx r) -. (fx x)) in
  let r := (F2 (fx r) (((fx x) -. ((fx r) -. v)) +. (y -. v))) in
  let r := (F2 (fx r) ((fy r) +. (fy x))) in
  r.

(** src/sleefsp.c:258-266 *)
Definition dfadd2_f2_f_f2 (x : Z) (y : f2) : f2 :=
  let r := (F2 (x +. (fx y)) unset) in
  let v := ((fx r) -. x) in
  let r := (F2 (fx r) (((x -. ((fx r) -. v)) +. ((fx y) -. v)) +. (fy y))) in
  r.

(** src/sleefsp.c:268-281 *)
Definition dfadd_f2_f2_f2 (x : f2) (y : f2) : f2 :=
  let r := (F2 ((fx x) +. (fx y)) unset) in
  let r := (F2 (fx r) (((((fx x) -. (fx r)) +. (fx y)) +. (fy x)) +. (fy y))) in
  r.

(** src/sleefsp.c:283-292 *)
Definition dfadd2_f2_f2_f2 (x : f2) (y : f2) : f2 :=
  let r := (F2 ((fx x) +. (fx y)) unset) in
  let v := ((fx r) -. (fx x)) in
  let r := (F2 (fx r) (((fx x) -. ((fx r) -. v)) +. ((fx y) -. v))) in
  let r := (F2 (fx r) ((fy r) +. ((fy x) +. (fy y)))) in
  r.

(** src/sleefsp.c:294-307 *)
Definition dfsub_f2_f2_f2 (x : f2) (y : f2) : f2 :=
  let r := (F2 ((fx x) -. (fx y)) unset) in
  let r := (F2 (fx r) (((((fx x) -. (fx r)) -. (fx y)) +. (fy x)) -. (fy y))) in
  r.

(** src/sleefsp.c:309-325 *)
Definition dfdiv_f2_f2_f2 (n : f2) (d : f2) : f2 :=
  let t := (F_1_0 /. (fx d)) in
  let dh := (upperf (fx d)) in
  let dl := ((fx d) -. dh) in
  let th := (upperf t) in
  let tl := (t -. th) in
  let nhh := (upperf (fx n)) in
  let nhl := ((fx n) -. nhh) in
  let q := (F2 ((fx n) *. t) unset) in
  let u := ((((((negf (fx q)) +. (nhh *. th)) +. (nhh *. tl)) +. (nhl *. th)) +. (nhl *. tl)) +. ((fx q) *. ((((I_1 -. (dh *. th)) -. (dh *. tl)) -. (dl *. th)) -. (dl *. tl)))) in
  let q := (F2 (fx q) ((t *. ((fy n) -. ((fx q) *. (fy d)))) +. u)) in
  q.

(** src/sleefsp.c:327-336 *)
Definition dfmul_f2_f_f (x : Z) (y : Z) : f2 :=
  let xh := (upperf x) in
  let xl := (x -. xh) in
  let yh := (upperf y) in
  let yl := (y -. yh) in
  let r := (F2 (x *. y) unset) in
  let r := (F2 (fx r) (((((xh *. yh) -. (fx r)) +. (xl *. yh)) +. (xh *. yl)) +. (xl *. yl))) in
  r.

(** src/sleefsp.c:338-347 *)
Definition dfmul_f2_f2_f (x : f2) (y : Z) : f2 :=
  let xh := (upperf (fx x)) in
  let xl := ((fx x) -. xh) in
  let yh := (upperf y) in
  let yl := (y -. yh) in
  let r := (F2 ((fx x) *. y) unset) in
  let r := (F2 (fx r) ((((((xh *. yh) -. (fx r)) +. (xl *. yh)) +. (xh *. yl)) +. (xl *. yl)) +. ((fy x) *. y))) in
  r.

(** src/sleefsp.c:349-358 *)
Definition dfmul_f2_f2_f2 (x : f2) (y : f2) : f2 :=
  let xh := (upperf (fx x)) in
  let xl := ((fx x) -. xh) in
  let yh := (upperf (fx y)) in
  let yl := ((fx y) -. yh) in
  let r := (F2 ((fx x) *. (fx y)) unset) in
  let r := (F2 (fx r) (((((((xh *. yh) -. (fx r)) +. (xl *. yh)) +. (xh *. yl)) +. (xl *. yl)) +. ((fx x) *. (fy y))) +. ((fy x) *. (fx y)))) in
  r.

(** src/sleefsp.c:360-365 *)
Definition dfmul_f_f2_f2 (x : f2) (y : f2) : Z :=
  let xh := (upperf (fx x)) in
  let xl := ((fx x) -. xh) in
  let yh := (upperf (fx y)) in
  let yl := ((fx y) -. yh) in
  (((((((fy x) *. yh) +. (xh *. (fy y))) +. (xl *. yl)) +. (xh *. yl)) +. (xl *. yh)) +. (xh *. yh)).

(** src/sleefsp.c:367-375 *)
Definition dfsqu_f2_f2 (x : f2) : f2 :=
  let xh := (upperf (fx x)) in
  let xl := ((fx x) -. xh) in
  let r := (F2 ((fx x) *. (fx x)) unset) in
  let r := (F2 (fx r) (((((xh *. xh) -. (fx r)) +. ((xh +. xh) *. xl)) +. (xl *. xl)) +. ((fx x) *. ((fy x) +. (fy x))))) in
  r.

(** src/sleefsp.c:377-381 *)
Definition dfsqu_f_f2 (x : f2) : Z :=
  let xh := (upperf (fx x)) in
  let xl := ((fx x) -. xh) in
  (((((xh *. (fy x)) +. (xh *. (fy x))) +. (xl *. xl)) +. ((xh *. xl) +. (xh *. xl))) +. (xh *. xh)).

(** src/sleefsp.c:383-393 *)
Definition dfrec_f2_f (d : Z) : f2 :=
  let t := (F_1_0 /. d) in
  let dh := (upperf d) in
  let dl := (d -. dh) in
  let th := (upperf t) in
  let tl := (t -. th) in
  let q := (F2 t unset) in
  let q := (F2 (fx q) (t *. ((((I_1 -. (dh *. th)) -. (dh *. tl)) -. (dl *. th)) -. (dl *. tl)))) in
  q.

(** src/sleefsp.c:395-405 *)
Definition dfrec_f2_f2 (d : f2) : f2 :=
  let t := (F_1_0 /. (fx d)) in
  let dh := (upperf (fx d)) in
  let dl := ((fx d) -. dh) in
  let th := (upperf t) in
  let tl := (t -. th) in
  let q := (F2 t unset) in
  let q := (F2 (fx q) (t *. (((((I_1 -. (dh *. th)) -. (dh *. tl)) -. (dl *. th)) -. (dl *. tl)) -. ((fy d) *. t)))) in
  q.

(** src/sleefsp.c:407-410 *)
Definition dfsqrt_f2_f2 (d : f2) : f2 :=
  let t := (SQRTF ((fx d) +. (fy d))) in
  (dfscale_f2_f2_f (dfmul_f2_f2_f2 (dfadd2_f2_f2_f2 d (dfmul_f2_f_f t t)) (dfrec_f2_f t)) F_5_1).

(** src/sleefsp.c:412-415 *)
Definition dfsqrt_f2_f (d : Z) : f2 :=
  let t := (SQRTF d) in
  (dfscale_f2_f2_f (dfmul_f2_f2_f2 (dfadd2_f2_f_f2 d (dfmul_f2_f_f t t)) (dfrec_f2_f t)) DF_5_1).

(** src/sleefsp.c:429-439 *)
Definition rempisubf (x : Z) : fi :=
  let fr := (x -. ((fint (Z.shiftl 1 10)) *. (fint (toint (x *. (F_1_0 /. (fint (Z.shiftl 1 10)))))))) in
  let ret := (FI unset (Z.shiftr ((Z.land 7 ((if (ltf I_0 x) then 4 else 3) + (toint (fr *. I_8)))) - 3) 1)) in
  let fr := (fr -. (F_25_2 *. (fint (toint ((fr *. I_4) +. (mulsignf F_5_1 x)))))) in
  let fr := (if (ltf F_125_3 (fabsfk fr)) then (fr -. (mulsignf F_5_1 x)) else fr) in
  let fr := (if (ltf F_10000000000_0 (fabsfk fr)) then I_0 else fr) in
  let '(fr, ret) :=
    if (eqf (fabsfk x) F_12499999254941940308_20) then
      let fr := x in
      let ret := (FI (fid ret) 0) in
      (fr, ret)
    else
      (fr, ret)
  in
  let ret := (FI fr (fii ret)) in
  ret.

(** src/sleefsp.c:441-466 *)
Definition rempif (a : Z) : dfi :=
  let ex := ((ilogb2kf a) - 25) in
  let q := (if ((90 - 25) <? ex) then (- 64) else 0) in
  let a := (ldexp3kf a q) in
  let ex := if (ex <? 0) then 0 else ex in
  let ex := (ex * 4) in
  let x := (dfmul_f2_f_f a (rempitab ex)) in
  let di := (rempisubf (fx x)) in
  let q := (fii di) in
  let x := (F2 (fid di) (fy x)) in
  let x := (dfnormalize_f2_f2 x) in
  let y := (dfmul_f2_f_f a (rempitab (ex + 1))) in
  let x := (dfadd2_f2_f2_f2 x y) in
  let di := (rempisubf (fx x)) in
  let q := (q + (fii di)) in
  let x := (F2 (fid di) (fy x)) in
  let x := (dfnormalize_f2_f2 x) in
  let y := (dfmul_f2_f2_f (F2 (rempitab (ex + 2)) (rempitab (ex + 3))) a) in
  let x := (dfadd2_f2_f2_f2 x y) in
  let x := (dfnormalize_f2_f2 x) in
  let x := (dfmul_f2_f2_f2 x (F2 (F_31415927410125732422_19 *. I_2) ((negf F_87422776573475857731_27) *. I_2))) in
  let ret := (DFI (if (ltf (fabsfk a) F_7_1) then (F2 a I_0) else x) q) in
  ret.

(** src/sleefsp.c:468-508 *)
Definition xsinf (d : Z) : Z :=
  let t := d in
  let '(q, d) :=
    if (ltf (fabsfk d) F_125_0) then
      let q := (toint (rintfk (d *. DF_318309886183790671538_21))) in
      let d := (mlaf (fint q) (negf F_31414794921875_13) d) in
      let d := (mlaf (fint q) (negf F_11315941810607910156_23) d) in
      let d := (mlaf (fint q) (negf F_19841872589410058936_28) d) in
      (q, d)
    else
      let '(q, d) :=
        if (ltf (fabsfk d) I_39000) then
          let q := (toint (rintfk (d *. DF_318309886183790671538_21))) in
          let d := (mlaf (fint q) (negf F_3140625_6) d) in
          let d := (mlaf (fint q) (negf F_9670257568359375_19) d) in
          let d := (mlaf (fint q) (negf F_62771141529083251953_26) d) in
          let d := (mlaf (fint q) (negf F_12154201256553420762_29) d) in
          (q, d)
        else
          let dfi := (rempif t) in
          let q := (Z.shiftr ((((Z.land (dfii dfi) 3) * 2) + (b2z (ltf I_0 (fx (dfidf dfi))))) + 1) 2) in
          let dfi := if (negb ((Z.land (dfii dfi) 1) =? 0)) then (DFI (dfadd2_f2_f2_f2 (dfidf dfi) (F2 (mulsignf (d2f ((f2d F_31415927410125732422_19) *.. (negd D_5_1))) (fx (dfidf dfi))) (mulsignf (d2f ((f2d (negf F_87422776573475857731_27)) *.. (negd D_5_1))) (fx (dfidf dfi))))) (dfii dfi)) else dfi in
          let d := ((fx (dfidf dfi)) +. (fy (dfidf dfi))) in
          let d := if ((xisinff t) || (xisnanf t)) then SLEEF_NANf else d in
          (q, d)
      in
      (q, d)
  in
  let s := (d *. d) in
  let d := if (negb ((Z.land q 1) =? 0)) then (negf d) else d in
  let u := F_26083159809786593541503_28 in
  let u := (mlaf u s (negf F_1981069071916863322258_25)) in
  let u := (mlaf u s F_833307858556509017944336_26) in
  let u := (mlaf u s (negf F_166666597127914428710938_24)) in
  let u := (mlaf s (u *. d) d) in
  let u := if (xisnegzerof t) then (negf F_0_1) else u in
  u.

(** src/sleefsp.c:510-546 *)
Definition xsinf_u1 (d : Z) : Z :=
  let '(q, s) :=
    if (ltf (fabsfk d) F_125_0) then
      let q := (toint (rintfk (d *. DF_318309886183790671538_21))) in
      let u := (mlaf (fint q) (negf F_31414794921875_13) d) in
      let s := (dfadd2_f2_f_f u ((fint q) *. (negf F_11315941810607910156_23))) in
      let s := (dfadd_f2_f2_f s ((fint q) *. (negf F_19841872589410058936_28))) in
      (q, s)
    else
      let dfi := (rempif d) in
      let q := (Z.shiftr ((((Z.land (dfii dfi) 3) * 2) + (b2z (ltf I_0 (fx (dfidf dfi))))) + 1) 2) in
      let dfi := if (negb ((Z.land (dfii dfi) 1) =? 0)) then (DFI (dfadd2_f2_f2_f2 (dfidf dfi) (F2 (mulsignf (d2f ((f2d F_31415927410125732422_19) *.. (negd D_5_1))) (fx (dfidf dfi))) (mulsignf (d2f ((f2d (negf F_87422776573475857731_27)) *.. (negd D_5_1))) (fx (dfidf dfi))))) (dfii dfi)) else dfi in
      let s := (dfnormalize_f2_f2 (dfidf dfi)) in
      let s := if ((xisinff d) || (xisnanf d)) then (F2 SLEEF_NANf (fy s)) else s in
      (q, s)
  in
  let t := s in
  let s := (dfsqu_f2_f2 s) in
  let u := F_26083159809786593541503_28 in
  let u := (mlaf u (fx s) (negf F_1981069071916863322258_25)) in
  let u := (mlaf u (fx s) F_833307858556509017944336_26) in
  let x := (dfadd_f2_f_f2 I_1 (dfmul_f2_f2_f2 (dfadd_f2_f_f (negf F_166666597127914428710938_24) (u *. (fx s))) s)) in
  let u := (dfmul_f_f2_f2 t x) in
  let u := if (negb ((Z.land q 1) =? 0)) then (negf u) else u in
  let u := if (xisnegzerof d) then d else u in
  u.

(** src/sleefsp.c:548-586 *)
Definition xcosf (d : Z) : Z :=
  let t := d in
  let '(q, d) :=
    if (ltf (fabsfk d) F_125_0) then
      let q := (1 + (2 * (toint (rintfk ((d *. DF_318309886183790671538_21) -. F_5_1))))) in
      let d := (mlaf (fint q) ((negf F_31414794921875_13) *. F_5_1) d) in
      let d := (mlaf (fint q) ((negf F_11315941810607910156_23) *. F_5_1) d) in
      let d := (mlaf (fint q) ((negf F_19841872589410058936_28) *. F_5_1) d) in
      (q, d)
    else
      let '(q, d) :=
        if (ltf (fabsfk d) I_39000) then
          let q := (1 + (2 * (toint (rintfk ((d *. DF_318309886183790671538_21) -. F_5_1))))) in
          let d := (mlaf (fint q) ((negf F_3140625_6) *. F_5_1) d) in
          let d := (mlaf (fint q) ((negf F_9670257568359375_19) *. F_5_1) d) in
          let d := (mlaf (fint q) ((negf F_62771141529083251953_26) *. F_5_1) d) in
          let d := (mlaf (fint q) ((negf F_12154201256553420762_29) *. F_5_1) d) in
          (q, d)
        else
          let dfi := (rempif t) in
          let q := (Z.shiftr ((((Z.land (dfii dfi) 3) * 2) + (b2z (ltf I_0 (fx (dfidf dfi))))) + 7) 1) in
          let dfi := if ((Z.land (dfii dfi) 1) =? 0) then (DFI (dfadd2_f2_f2_f2 (dfidf dfi) (F2 (mulsignf (d2f ((f2d F_31415927410125732422_19) *.. (negd D_5_1))) (fint (if (ltf I_0 (fx (dfidf dfi))) then 1 else (- 1)))) (mulsignf (d2f ((f2d (negf F_87422776573475857731_27)) *.. (negd D_5_1))) (fint (if (ltf I_0 (fx (dfidf dfi))) then 1 else (- 1)))))) (dfii dfi)) else dfi in
          let d := ((fx (dfidf dfi)) +. (fy (dfidf dfi))) in
          let d := if ((xisinff t) || (xisnanf t)) then SLEEF_NANf else d in
          (q, d)
      in
      (q, d)
  in
  let s := (d *. d) in
  let d := if ((Z.land q 2) =? 0) then (negf d) else d in
  let u := F_26083159809786593541503_28 in
  let u := (mlaf u s (negf F_1981069071916863322258_25)) in
  let u := (mlaf u s F_833307858556509017944336_26) in
  let u := (mlaf u s (negf F_166666597127914428710938_24)) in
  let u := (mlaf s (u *. d) d) in
  u.

(** src/sleefsp.c:588-625 *)
Definition xcosf_u1 (d : Z) : Z :=
  let '(d, q, s) :=
    if (ltf (fabsfk d) F_125_0) then
      let d := (fabsfk d) in
      let dq := (mlaf (rintfk ((d *. DF_318309886183790671538_21) -. F_5_1)) I_2 I_1) in
      let q := (toint dq) in
      let s := (dfadd2_f2_f_f d (dq *. ((negf F_31414794921875_13) *. F_5_1))) in
      let s := (dfadd2_f2_f2_f s (dq *. ((negf F_11315941810607910156_23) *. F_5_1))) in
      let s := (dfadd2_f2_f2_f s (dq *. ((negf F_19841872589410058936_28) *. F_5_1))) in
      (d, q, s)
    else
      let dfi := (rempif d) in
      let q := (Z.shiftr ((((Z.land (dfii dfi) 3) * 2) + (b2z (ltf I_0 (fx (dfidf dfi))))) + 7) 1) in
      let dfi := if ((Z.land (dfii dfi) 1) =? 0) then (DFI (dfadd2_f2_f2_f2 (dfidf dfi) (F2 (mulsignf (d2f ((f2d F_31415927410125732422_19) *.. (negd D_5_1))) (fint (if (ltf I_0 (fx (dfidf dfi))) then 1 else (- 1)))) (mulsignf (d2f ((f2d (negf F_87422776573475857731_27)) *.. (negd D_5_1))) (fint (if (ltf I_0 (fx (dfidf dfi))) then 1 else (- 1)))))) (dfii dfi)) else dfi in
      let s := (dfnormalize_f2_f2 (dfidf dfi)) in
      let s := if ((xisinff d) || (xisnanf d)) then (F2 SLEEF_NANf (fy s)) else s in
      (d, q, s)
  in
  let t := s in
  let s := (dfsqu_f2_f2 s) in
  let u := F_26083159809786593541503_28 in
  let u := (mlaf u (fx s) (negf F_1981069071916863322258_25)) in
  let u := (mlaf u (fx s) F_833307858556509017944336_26) in
  let x := (dfadd_f2_f_f2 I_1 (dfmul_f2_f2_f2 (dfadd_f2_f_f (negf F_166666597127914428710938_24) (u *. (fx s))) s)) in
  let u := (dfmul_f_f2_f2 t x) in
  let u := if ((Z.land q 2) =? 0) then (negf u) else u in
  u.

(** src/sleefsp.c:849-891 *)
Definition xtanf (d : Z) : Z :=
  let x := d in
  let '(q, x) :=
    if (ltf (fabsfk d) (F_125_0 *. F_5_1)) then
      let q := (toint (rintfk (d *. (d2f (ID_2 *.. D_318309886183790671538_21))))) in
      let x := (mlaf (fint q) ((negf F_31414794921875_13) *. F_5_1) x) in
      let x := (mlaf (fint q) ((negf F_11315941810607910156_23) *. F_5_1) x) in
      let x := (mlaf (fint q) ((negf F_19841872589410058936_28) *. F_5_1) x) in
      (q, x)
    else
      let '(q, x) :=
        if (ltf (fabsfk d) I_39000) then
          let q := (toint (rintfk (d *. (d2f (ID_2 *.. D_318309886183790671538_21))))) in
          let x := (mlaf (fint q) ((negf F_3140625_6) *. F_5_1) x) in
          let x := (mlaf (fint q) ((negf F_9670257568359375_19) *. F_5_1) x) in
          let x := (mlaf (fint q) ((negf F_62771141529083251953_26) *. F_5_1) x) in
          let x := (mlaf (fint q) ((negf F_12154201256553420762_29) *. F_5_1) x) in
          (q, x)
        else
          let dfi := (rempif d) in
          let q := (dfii dfi) in
          let x := ((fx (dfidf dfi)) +. (fy (dfidf dfi))) in
          let x := if ((xisinff d) || (xisnanf d)) then SLEEF_NANf else x in
          (q, x)
      in
      (q, x)
  in
  let s := (x *. x) in
  let x := if (negb ((Z.land q 1) =? 0)) then (negf x) else x in
  let s2 := (s *. s) in
  let s4 := (s2 *. s2) in
  let u := (POLY6 s s2 s4 F_927245803177356719970703_26 F_331984995864331722259521_26 F_242998078465461730957031_25 F_534495301544666290283203_25 F_133383005857467651367188_24 F_333331853151321411132812_24) in
  let u := (mlaf s (u *. x) x) in
  let u := if (negb ((Z.land q 1) =? 0)) then (F_1_0 /. u) else u in
  u.

(** src/sleefsp.c:893-933 *)
Definition xtanf_u1 (d : Z) : Z :=
  let '(q, s) :=
    if (ltf (fabsfk d) F_125_0) then
      let q := (toint (rintfk (d *. (d2f (ID_2 *.. D_318309886183790671538_21))))) in
      let u := (mlaf (fint q) ((negf F_31414794921875_13) *. F_5_1) d) in
      let s := (dfadd2_f2_f_f u ((fint q) *. ((negf F_11315941810607910156_23) *. F_5_1))) in
      let s := (dfadd_f2_f2_f s ((fint q) *. ((negf F_19841872589410058936_28) *. F_5_1))) in
      (q, s)
    else
      let dfi := (rempif d) in
      let q := (dfii dfi) in
      let s := (dfidf dfi) in
      let s := if ((xisinff d) || (xisnanf d)) then (F2 SLEEF_NANf (fy s)) else s in
      (q, s)
  in
  let s := if (negb ((Z.land q 1) =? 0)) then (dfneg_f2_f2 s) else s in
  let t := s in
  let s := (dfsqu_f2_f2 s) in
  let s := (dfnormalize_f2_f2 s) in
  let u := F_446636462584137916564941_26 in
  let u := (mlaf u (fx s) (negf F_83920182078145444393158_27)) in
  let u := (mlaf u (fx s) F_109639242291450500488281_25) in
  let u := (mlaf u (fx s) F_212360303848981857299805_25) in
  let u := (mlaf u (fx s) F_540687143802642822265625_25) in
  let x := (dfadd_f2_f_f F_133325666189193725585938_24 (u *. (fx s))) in
  let x := (dfadd_f2_f_f2 I_1 (dfmul_f2_f2_f2 (dfadd_f2_f_f2 F_33333361148834228515625_23 (dfmul_f2_f2_f2 s x)) s)) in
  let x := (dfmul_f2_f2_f2 t x) in
  let x := if (negb ((Z.land q 1) =? 0)) then (dfrec_f2_f2 x) else x in
  let u := ((fx x) +. (fy x)) in
  let u := if (xisnegzerof d) then (negf F_0_1) else u in
  u.

(** src/sleefsp.c:935-961 *)
Definition xatanf (s : Z) : Z :=
  let q := 0 in
  let '(s, q) :=
    if (eqf (signf s) I_m1) then
      let s := (negf s) in
      let q := 2 in
      (s, q)
    else
      (s, q)
  in
  let '(s, q) :=
    if (ltf I_1 s) then
      let s := (F_1_0 /. s) in
      let q := (Z.lor q 1) in
      (s, q)
    else
      (s, q)
  in
  let t := (s *. s) in
  let t2 := (t *. t) in
  let t4 := (t2 *. t2) in
  let u := (POLY8 t t2 t4 F_282363896258175373077393_26 (negf F_159569028764963150024414_25) F_425049886107444763183594_25 (negf F_748900920152664184570312_25) F_106347933411598205566406_24 (negf F_142027363181114196777344_24) F_199926957488059997558594_24 (negf F_333331018686294555664062_24)) in
  let t := (s +. (s *. (t *. u))) in
  let t := if (negb ((Z.land q 1) =? 0)) then (F_1570796326794896557998982_24 -. t) else t in
  let t := if (negb ((Z.land q 2) =? 0)) then (negf t) else t in
  t.

(** src/sleefsp.c:963-988 *)
Definition atan2kf (y : Z) (x : Z) : Z :=
  let q := 0 in
  let '(x, q) :=
    if (ltf x I_0) then
      let x := (negf x) in
      let q := (- 2) in
      (x, q)
    else
      (x, q)
  in
  let '(x, y, q) :=
    if (ltf x y) then
      let t := x in
      let x := y in
      let y := (negf t) in
      let q := (q + 1) in
      (x, y, q)
    else
      (x, y, q)
  in
  let s := (y /. x) in
  let t := (s *. s) in
  let t2 := (t *. t) in
  let t4 := (t2 *. t2) in
  let u := (POLY8 t t2 t4 F_282363896258175373077393_26 (negf F_159569028764963150024414_25) F_425049886107444763183594_25 (negf F_748900920152664184570312_25) F_106347933411598205566406_24 (negf F_142027363181114196777344_24) F_199926957488059997558594_24 (negf F_333331018686294555664062_24)) in
  let t := (((u *. t) *. s) +. s) in
  let t := (((fint q) *. (d2f (D_314159265358979323846_20 /.. ID_2))) +. t) in
  t.

(** src/sleefsp.c:990-999 *)
Definition xatan2f (y : Z) (x : Z) : Z :=
  let r := (atan2kf (fabsfk y) x) in
  let r := (mulsignf r x) in
  let r := if ((xisinff x) || (eqf x I_0)) then ((DF_314159265358979323846_20 /. I_2) -. (if (xisinff x) then ((signf x) *. (d2f (D_314159265358979323846_20 /.. ID_2))) else I_0)) else r in
  let r := if (xisinff y) then ((DF_314159265358979323846_20 /. I_2) -. (if (xisinff x) then ((signf x) *. (d2f ((D_314159265358979323846_20 *.. ID_1) /.. ID_4))) else I_0)) else r in
  let r := if (eqf y I_0) then (if (eqf (signf x) I_m1) then DF_314159265358979323846_20 else I_0) else r in
  (if ((xisnanf x) || (xisnanf y)) then SLEEF_NANf else (mulsignf r y)).

(** src/sleefsp.c:1001-1016 *)
Definition xasinf (d : Z) : Z :=
  let o := (ltf (fabsfk d) F_5_1) in
  let x2 := (if o then (d *. d) else ((I_1 -. (fabsfk d)) *. F_5_1)) in
  let x := (if o then (fabsfk d) else (SQRTF x2)) in
  let u := DF_4197454825_11 in
  let u := (mlaf u x2 DF_2424046025_11) in
  let u := (mlaf u x2 DF_4547423869_11) in
  let u := (mlaf u x2 DF_7495029271_11) in
  let u := (mlaf u x2 DF_1666677296_10) in
  let u := (mlaf u (x *. x2) x) in
  let r := (if o then u else ((DF_314159265358979323846_20 /. I_2) -. (I_2 *. u))) in
  let r := (mulsignf r d) in
  r.

(** src/sleefsp.c:1018-1038 *)
Definition xacosf (d : Z) : Z :=
  let o := (ltf (fabsfk d) F_5_1) in
  let x2 := (if o then (d *. d) else ((I_1 -. (fabsfk d)) *. F_5_1)) in
  let x := (if o then (fabsfk d) else (SQRTF x2)) in
  let x := (if (eqd (f2d (fabsfk d)) D_1_0) then I_0 else x) in
  let u := DF_4197454825_11 in
  let u := (mlaf u x2 DF_2424046025_11) in
  let u := (mlaf u x2 DF_4547423869_11) in
  let u := (mlaf u x2 DF_7495029271_11) in
  let u := (mlaf u x2 DF_1666677296_10) in
  let u := (u *. (x *. x2)) in
  let y := ((F_31415926535897932_16 /. I_2) -. ((mulsignf x d) +. (mulsignf u d))) in
  let x := (x +. u) in
  let r := (if o then y else (x *. I_2)) in
  let r := if ((negb o) && (ltf d I_0)) then (fx (dfadd_f2_f2_f (F2 F_31415927410125732422_19 (negf F_87422776573475857731_27)) (negf r))) else r in
  r.

(** src/sleefsp.c:1040-1066 *)
Definition atan2kf_u1 (y : f2) (x : f2) : f2 :=
  let q := 0 in
  let '(x, q) :=
    if (ltf (fx x) I_0) then
      let x := (F2 (negf (fx x)) (fy x)) in
      let x := (F2 (fx x) (negf (fy x))) in
      let q := (- 2) in
      (x, q)
    else
      (x, q)
  in
  let '(x, y, q) :=
    if (ltf (fx x) (fx y)) then
      let t := x in
      let x := y in
      let y := (F2 (negf (fx t)) (fy y)) in
      let y := (F2 (fx y) (negf (fy t))) in
      let q := (q + 1) in
      (x, y, q)
    else
      (x, y, q)
  in
  let s := (dfdiv_f2_f2_f2 y x) in
  let t := (dfsqu_f2_f2 s) in
  let t := (dfnormalize_f2_f2 t) in
  let u := (negf F_176397908944636583328247_26) in
  let u := (mlaf u (fx t) F_107900900766253471374512_25) in
  let u := (mlaf u (fx t) (negf F_309564601629972457885742_25)) in
  let u := (mlaf u (fx t) F_577365085482597351074219_25) in
  let u := (mlaf u (fx t) (negf F_838950723409652709960938_25)) in
  let u := (mlaf u (fx t) F_109463557600975036621094_24) in
  let u := (mlaf u (fx t) (negf F_142626821994781494140625_24)) in
  let u := (mlaf u (fx t) F_199983194470405578613281_24) in
  let t := (dfmul_f2_f2_f2 t (dfadd_f2_f_f (negf F_333332866430282592773438_24) (u *. (fx t)))) in
  let t := (dfmul_f2_f2_f2 s (dfadd_f2_f_f2 I_1 t)) in
  let t := (dfadd2_f2_f2_f2 (dfmul_f2_f2_f (F2 F_15707963705062866211_19 (negf F_43711388286737928865_27)) (fint q)) t) in
  t.

(** src/sleefsp.c:1068-1079 *)
Definition xatan2f_u1 (y : Z) (x : Z) : Z :=
  let '(y, x) :=
    if (ltf (fabsfk x) F_29387372783541830947_58) then
      let y := (y *. (fint (Z.shiftl 1 24))) in
      let x := (x *. (fint (Z.shiftl 1 24))) in
      (y, x)
    else
      (y, x)
  in
  let d := (atan2kf_u1 (F2 (fabsfk y) I_0) (F2 x I_0)) in
  let r := ((fx d) +. (fy d)) in
  let r := (mulsignf r x) in
  let r := if ((xisinff x) || (eqf x I_0)) then ((DF_314159265358979323846_20 /. I_2) -. (if (xisinff x) then ((signf x) *. (d2f (D_314159265358979323846_20 /.. ID_2))) else F_0_1)) else r in
  let r := if (xisinff y) then ((DF_314159265358979323846_20 /. I_2) -. (if (xisinff x) then ((signf x) *. (d2f ((D_314159265358979323846_20 *.. ID_1) /.. ID_4))) else F_0_1)) else r in
  let r := if (eqf y I_0) then (if (eqf (signf x) I_m1) then DF_314159265358979323846_20 else F_0_1) else r in
  (if ((xisnanf x) || (xisnanf y)) then SLEEF_NANf else (mulsignf r y)).

(** src/sleefsp.c:1081-1099 *)
Definition xasinf_u1 (d : Z) : Z :=
  let o := (ltf (fabsfk d) F_5_1) in
  let x2 := (if o then (d *. d) else ((I_1 -. (fabsfk d)) *. F_5_1)) in
  let x := (if o then (F2 (fabsfk d) I_0) else (dfsqrt_f2_f x2)) in
  let x := (if (eqf (fabsfk d) F_1_0) then (F2 I_0 I_0) else x) in
  let u := DF_4197454825_11 in
  let u := (mlaf u x2 DF_2424046025_11) in
  let u := (mlaf u x2 DF_4547423869_11) in
  let u := (mlaf u x2 DF_7495029271_11) in
  let u := (mlaf u x2 DF_1666677296_10) in
  let u := (u *. (x2 *. (fx x))) in
  let y := (dfadd_f2_f2_f (dfsub_f2_f2_f2 (F2 (F_31415927410125732422_19 /. I_4) ((negf F_87422776573475857731_27) /. I_4)) x) (negf u)) in
  let r := (if o then (u +. (fx x)) else (((fx y) +. (fy y)) *. I_2)) in
  let r := (mulsignf r d) in
  r.

(** src/sleefsp.c:1101-1122 *)
Definition xacosf_u1 (d : Z) : Z :=
  let o := (ltf (fabsfk d) F_5_1) in
  let x2 := (if o then (d *. d) else ((I_1 -. (fabsfk d)) *. F_5_1)) in
  let x := (if o then (F2 (fabsfk d) I_0) else (dfsqrt_f2_f x2)) in
  let x := (if (eqd (f2d (fabsfk d)) D_1_0) then (F2 I_0 I_0) else x) in
  let u := DF_4197454825_11 in
  let u := (mlaf u x2 DF_2424046025_11) in
  let u := (mlaf u x2 DF_4547423869_11) in
  let u := (mlaf u x2 DF_7495029271_11) in
  let u := (mlaf u x2 DF_1666677296_10) in
  let u := ((u *. (fx x)) *. x2) in
  let y := (dfsub_f2_f2_f2 (F2 (F_31415927410125732422_19 /. I_2) ((negf F_87422776573475857731_27) /. I_2)) (dfadd_f2_f_f (mulsignf (fx x) d) (mulsignf u d))) in
  let x := (dfadd_f2_f2_f x u) in
  let y := (if o then y else (dfscale_f2_f2_f x I_2)) in
  let y := if ((negb o) && (ltf d I_0)) then (dfsub_f2_f2_f2 (F2 F_31415927410125732422_19 (negf F_87422776573475857731_27)) y) else y in
  ((fx y) +. (fy y)).

(** src/sleefsp.c:1124-1129 *)
Definition xatanf_u1 (d : Z) : Z :=
  let d2 := (atan2kf_u1 (F2 (fabsfk d) F_0_1) (F2 F_1_0 F_0_1)) in
  let r := ((fx d2) +. (fy d2)) in
  let r := if (xisinff d) then F_1570796326794896557998982_24 else r in
  (mulsignf r d).

(** src/sleefsp.c:1131-1159 *)
Definition xlogf (d : Z) : Z :=
  let o := (ltf d FLT_MIN) in
  let d := if o then (d *. ((fint (Z.shiftl 1 32)) *. (fint (Z.shiftl 1 32)))) else d in
  let e := (ilogb2kf (d *. (F_1_0 /. F_75_2))) in
  let m := (ldexp3kf d (- e)) in
  let e := if o then (e - 64) else e in
  let x := ((m -. F_1_0) /. (m +. F_1_0)) in
  let x2 := (x *. x) in
  let t := F_2392828464508056640625_22 in
  let t := (mlaf t x2 F_28518211841583251953125_23) in
  let t := (mlaf t x2 F_400005877017974853515625_24) in
  let t := (mlaf t x2 F_666666686534881591796875_24) in
  let t := (mlaf t x2 F_2_0) in
  let x := ((x *. t) +. (F_693147180559945286226764_24 *. (fint e))) in
  let x := if (xisinff d) then SLEEF_INFINITYf else x in
  let x := if ((ltf d I_0) || (xisnanf d)) then SLEEF_NANf else x in
  let x := if (eqf d I_0) then (negf SLEEF_INFINITYf) else x in
  x.

(** src/sleefsp.c:1161-1182 *)
Definition xexpf (d : Z) : Z :=
  let q := (toint (rintfk (d *. F_1442695040888963407359924681001892137426645954152985934135449406931_66))) in
  let s := (mlaf (fint q) (negf F_693145751953125_15) d) in
  let s := (mlaf (fint q) (negf F_1428606765330187045_24) s) in
  let u := DF_198527617612853646278381_27 in
  let u := (mlaf u s DF_139304355252534151077271_26) in
  let u := (mlaf u s DF_833336077630519866943359_26) in
  let u := (mlaf u s DF_416664853692054748535156_25) in
  let u := (mlaf u s DF_166666671633720397949219_24) in
  let u := (mlaf u s DF_5_1) in
  let u := ((((s *. s) *. u) +. s) +. F_1_0) in
  let u := (ldexp2kf u q) in
  let u := if (ltf d I_m104) then I_0 else u in
  let u := if (ltf I_104 d) then SLEEF_INFINITYf else u in
  u.

(** src/sleefsp.c:1184-1209 *)
Definition expkf (d : f2) : Z :=
  let q := (toint (rintfk (((fx d) +. (fy d)) *. F_1442695040888963407359924681001892137426645954152985934135449406931_66))) in
  let s := (dfadd2_f2_f2_f d ((fint q) *. (negf F_693145751953125_15))) in
  let s := (dfadd2_f2_f2_f s ((fint q) *. (negf F_1428606765330187045_24))) in
  let s := (dfnormalize_f2_f2 s) in
  let u := F_136324646882712841033936_26 in
  let u := (mlaf u (fx s) F_836596917361021041870117_26) in
  let u := (mlaf u (fx s) F_416710823774337768554688_25) in
  let u := (mlaf u (fx s) F_166665524244308471679688_24) in
  let u := (mlaf u (fx s) F_499999850988388061523438_24) in
  let t := (dfadd_f2_f2_f2 s (dfmul_f2_f2_f (dfsqu_f2_f2 s) u)) in
  let t := (dfadd_f2_f_f2 I_1 t) in
  let u := (ldexpkf ((fx t) +. (fy t)) q) in
  let u := if (ltf (fx d) I_m104) then I_0 else u in
  u.

(** src/sleefsp.c:1211-1232 *)
Definition expm1kf (d : Z) : Z :=
  let q := (toint (rintfk (d *. F_1442695040888963407359924681001892137426645954152985934135449406931_66))) in
  let s := (mlaf (fint q) (negf F_693145751953125_15) d) in
  let s := (mlaf (fint q) (negf F_1428606765330187045_24) s) in
  let s2 := (s *. s) in
  let s4 := (s2 *. s2) in
  let u := (POLY6 s s2 s4 DF_198527617612853646278381_27 DF_139304355252534151077271_26 DF_833336077630519866943359_26 DF_416664853692054748535156_25 DF_166666671633720397949219_24 DF_5_1) in
  let u := (((s *. s) *. u) +. s) in
  let u := if (negb (q =? 0)) then ((ldexp2kf (u +. I_1) q) -. I_1) else u in
  u.

(** src/sleefsp.c:1234-1260 *)
Definition logkf (d : Z) : f2 :=
  let o := (ltf d FLT_MIN) in
  let d := if o then (d *. ((fint (Z.shiftl 1 32)) *. (fint (Z.shiftl 1 32)))) else d in
  let e := (ilogb2kf (d *. (F_1_0 /. F_75_2))) in
  let m := (ldexp3kf d (- e)) in
  let e := if o then (e - 64) else e in
  let x := (dfdiv_f2_f2_f2 (dfadd2_f2_f_f I_m1 m) (dfadd2_f2_f_f I_1 m)) in
  let x2 := (dfsqu_f2_f2 x) in
  let t := DF_240320354700088500976562_24 in
  let t := (mlaf t (fx x2) DF_285112679004669189453125_24) in
  let t := (mlaf t (fx x2) DF_400007992982864379882812_24) in
  let c := (F2 F_66666662693023681640625_23 F_369183861259614332084311_32) in
  let s := (dfmul_f2_f2_f (F2 F_69314718246459960938_20 (negf F_1904654323148236017_27)) (fint e)) in
  let s := (dfadd_f2_f2_f2 s (dfscale_f2_f2_f x I_2)) in
  let s := (dfadd_f2_f2_f2 s (dfmul_f2_f2_f2 (dfmul_f2_f2_f2 x2 x) (dfadd2_f2_f2_f2 (dfmul_f2_f2_f x2 t) c))) in
  s.

(** src/sleefsp.c:1262-1293 *)
Definition xlogf_u1 (d : Z) : Z :=
  let o := (ltf d FLT_MIN) in
  let d := if o then (d *. ((fint (Z.shiftl 1 32)) *. (fint (Z.shiftl 1 32)))) else d in
  let e := (ilogb2kf (d *. (F_1_0 /. F_75_2))) in
  let m := (ldexp3kf d (- e)) in
  let e := if o then (e - 64) else e in
  let x := (dfdiv_f2_f2_f2 (dfadd2_f2_f_f I_m1 m) (dfadd2_f2_f_f I_1 m)) in
  let x2 := ((fx x) *. (fx x)) in
  let t := F_3027294874_10 in
  let t := (mlaf t x2 F_3996108174_10) in
  let t := (mlaf t x2 F_666669488_9) in
  let s := (dfmul_f2_f2_f (F2 F_69314718246459960938_20 (negf F_1904654323148236017_27)) (fint e)) in
  let s := (dfadd_f2_f2_f2 s (dfscale_f2_f2_f x I_2)) in
  let s := (dfadd_f2_f2_f s ((x2 *. (fx x)) *. t)) in
  let r := ((fx s) +. (fy s)) in
  let r := if (xisinff d) then SLEEF_INFINITYf else r in
  let r := if ((ltf d I_0) || (xisnanf d)) then SLEEF_NANf else r in
  let r := if (eqf d I_0) then (negf SLEEF_INFINITYf) else r in
  r.

(** src/sleefsp.c:1295-1318 *)
Definition expk2f (d : f2) : f2 :=
  let q := (toint (rintfk (((fx d) +. (fy d)) *. F_1442695040888963407359924681001892137426645954152985934135449406931_66))) in
  let s := (dfadd2_f2_f2_f d ((fint q) *. (negf F_693145751953125_15))) in
  let s := (dfadd2_f2_f2_f s ((fint q) *. (negf F_1428606765330187045_24))) in
  let u := F_1980960224_13 in
  let u := (mlaf u (fx s) F_1394256484_12) in
  let u := (mlaf u (fx s) F_8333456703_12) in
  let u := (mlaf u (fx s) F_4166637361_11) in
  let t := (dfadd2_f2_f2_f (dfmul_f2_f2_f s u) F_166666659414234244790680580464_30) in
  let t := (dfadd2_f2_f2_f (dfmul_f2_f2_f2 s t) DF_5_1) in
  let t := (dfadd2_f2_f2_f2 s (dfmul_f2_f2_f2 (dfsqu_f2_f2 s) t)) in
  let t := (dfadd2_f2_f_f2 I_1 t) in
  let t := (F2 (ldexp2kf (fx t) q) (fy t)) in
  let t := (F2 (fx t) (ldexp2kf (fy t) q)) in
  (if (ltf (fx d) I_m104) then (F2 I_0 I_0) else t).

(** src/sleefsp.c:1320-1336 *)
Definition xpowf (x : Z) (y : Z) : Z :=
  let yisint := ((eqf y (fint (toint y))) || (lef (fint (Z.shiftl 1 24)) (fabsfk y))) in
  let yisodd := (((negb ((Z.land 1 (toint y)) =? 0)) && yisint) && (ltf (fabsfk y) (fint (Z.shiftl 1 24)))) in
  let result := (expkf (dfmul_f2_f2_f (logkf (fabsfk x)) y)) in
  let result := (if (xisnanf result) then SLEEF_INFINITYf else result) in
  let result := (result *. (if (lef I_0 x) then I_1 else (if (negb yisint) then SLEEF_NANf else (fint (if yisodd then (- 1) else 1))))) in
  let efx := (mulsignf ((fabsfk x) -. I_1) y) in
  let result := if (xisinff y) then (if (ltf efx I_0) then F_0_1 else (if (eqf efx I_0) then F_1_0 else SLEEF_INFINITYf)) else result in
  let result := if ((xisinff x) || (eqf x I_0)) then ((if yisodd then (signf x) else I_1) *. (if (ltf (if (eqf x I_0) then (negf y) else y) I_0) then I_0 else SLEEF_INFINITYf)) else result in
  let result := if ((xisnanf x) || (xisnanf y)) then SLEEF_NANf else result in
  let result := if ((eqf y I_0) || (eqf x I_1)) then I_1 else result in
  result.

(** src/sleefsp.c:1399-1411 *)
Definition xsinhf (x : Z) : Z :=
  let y := (fabsfk x) in
  let d := (expk2f (F2 y I_0)) in
  let d := (dfsub_f2_f2_f2 d (dfrec_f2_f2 d)) in
  let y := (((fx d) +. (fy d)) *. F_5_1) in
  let y := (if (ltf I_89 (fabsfk x)) then SLEEF_INFINITYf else y) in
  let y := (if (xisnanf y) then SLEEF_INFINITYf else y) in
  let y := (mulsignf y x) in
  let y := (if (xisnanf x) then SLEEF_NANf else y) in
  y.

(** src/sleefsp.c:1413-1424 *)
Definition xcoshf (x : Z) : Z :=
  let y := (fabsfk x) in
  let d := (expk2f (F2 y I_0)) in
  let d := (dfadd_f2_f2_f2 d (dfrec_f2_f2 d)) in
  let y := (((fx d) +. (fy d)) *. F_5_1) in
  let y := (if (ltf I_89 (fabsfk x)) then SLEEF_INFINITYf else y) in
  let y := (if (xisnanf y) then SLEEF_INFINITYf else y) in
  let y := (if (xisnanf x) then SLEEF_NANf else y) in
  y.

(** src/sleefsp.c:1426-1439 *)
Definition xtanhf (x : Z) : Z :=
  let y := (fabsfk x) in
  let d := (expk2f (F2 y I_0)) in
  let e := (dfrec_f2_f2 d) in
  let d := (dfdiv_f2_f2_f2 (dfsub_f2_f2_f2 d e) (dfadd_f2_f2_f2 d e)) in
  let y := ((fx d) +. (fy d)) in
  let y := (if (ltf F_18714973875_9 (fabsfk x)) then F_1_0 else y) in
  let y := (if (xisnanf y) then F_1_0 else y) in
  let y := (mulsignf y x) in
  let y := (if (xisnanf x) then SLEEF_NANf else y) in
  y.

(** src/sleefsp.c:1441-1451 *)
Definition xsinhf_u35 (x : Z) : Z :=
  let e := (expm1kf (fabsfk x)) in
  let y := (((e +. I_2) /. (e +. I_1)) *. (F_5_1 *. e)) in
  let y := (if (ltf I_88 (fabsfk x)) then SLEEF_INFINITYf else y) in
  let y := (if (xisnanf y) then SLEEF_INFINITYf else y) in
  let y := (mulsignf y x) in
  let y := (if (xisnanf x) then SLEEF_NANf else y) in
  y.

(** src/sleefsp.c:1453-1462 *)
Definition xcoshf_u35 (x : Z) : Z :=
  let e := (xexpf (fabsfk x)) in
  let y := ((F_5_1 *. e) +. (F_5_1 /. e)) in
  let y := (if (ltf I_88 (fabsfk x)) then SLEEF_INFINITYf else y) in
  let y := (if (xisnanf y) then SLEEF_INFINITYf else y) in
  let y := (if (xisnanf x) then SLEEF_NANf else y) in
  y.

(** src/sleefsp.c:1464-1475 *)
Definition xtanhf_u35 (x : Z) : Z :=
  let y := (fabsfk x) in
  let d := (expm1kf (I_2 *. y)) in
  let y := (d /. (d +. I_2)) in
  let y := (if (ltf F_18714973875_9 (fabsfk x)) then F_1_0 else y) in
  let y := (if (xisnanf y) then F_1_0 else y) in
  let y := (mulsignf y x) in
  let y := (if (xisnanf x) then SLEEF_NANf else y) in
  y.

(** src/sleefsp.c:1477-1498 *)
Definition logk2f (d : f2) : f2 :=
  let e := (ilogbkf ((fx d) *. (F_1_0 /. F_75_2))) in
  let m := (dfscale_f2_f2_f d (pow2if (- e))) in
  let x := (dfdiv_f2_f2_f2 (dfadd2_f2_f2_f m I_m1) (dfadd2_f2_f2_f m I_1)) in
  let x2 := (dfsqu_f2_f2 x) in
  let t := F_2392828464508056640625_22 in
  let t := (mlaf t (fx x2) F_28518211841583251953125_23) in
  let t := (mlaf t (fx x2) F_400005877017974853515625_24) in
  let t := (mlaf t (fx x2) F_666666686534881591796875_24) in
  let s := (dfmul_f2_f2_f (F2 F_69314718246459960938_20 (negf F_1904654323148236017_27)) (fint e)) in
  let s := (dfadd_f2_f2_f2 s (dfscale_f2_f2_f x I_2)) in
  let s := (dfadd_f2_f2_f2 s (dfmul_f2_f2_f (dfmul_f2_f2_f2 x2 x) t)) in
  s.

(** src/sleefsp.c:1500-1516 *)
Definition xasinhf (x : Z) : Z :=
  let y := (fabsfk x) in
  let d := (if (ltf I_1 y) then (dfrec_f2_f x) else (F2 y I_0)) in
  let d := (dfsqrt_f2_f2 (dfadd2_f2_f2_f (dfsqu_f2_f2 d) I_1)) in
  let d := (if (ltf I_1 y) then (dfmul_f2_f2_f d y) else d) in
  let d := (logk2f (dfnormalize_f2_f2 (dfadd_f2_f2_f d x))) in
  let y := ((fx d) +. (fy d)) in
  let y := (if ((ltd D_18446743523953729536_0 (f2d (fabsfk x))) || (xisnanf y)) then (mulsignf SLEEF_INFINITYf x) else y) in
  let y := (if (xisnanf x) then SLEEF_NANf else y) in
  let y := (if (xisnegzerof x) then (negf F_0_1) else y) in
  y.

(** src/sleefsp.c:1518-1528 *)
Definition xacoshf (x : Z) : Z :=
  let d := (logk2f (dfadd2_f2_f2_f (dfmul_f2_f2_f2 (dfsqrt_f2_f2 (dfadd2_f2_f_f x I_1)) (dfsqrt_f2_f2 (dfadd2_f2_f_f x I_m1))) x)) in
  let y := ((fx d) +. (fy d)) in
  let y := (if ((ltd D_18446743523953729536_0 (f2d x)) || (xisnanf y)) then SLEEF_INFINITYf else y) in
  let y := (if (eqf x F_1_0) then F_0_1 else y) in
  let y := (if (ltf x F_1_0) then SLEEF_NANf else y) in
  let y := (if (xisnanf x) then SLEEF_NANf else y) in
  y.

(** src/sleefsp.c:1530-1540 *)
Definition xatanhf (x : Z) : Z :=
  let y := (fabsfk x) in
  let d := (logk2f (dfdiv_f2_f2_f2 (dfadd2_f2_f_f I_1 y) (dfadd2_f2_f_f I_1 (negf y)))) in
  let y := (if (ltf F_1_0 y) then SLEEF_NANf else (if (eqf y F_1_0) then SLEEF_INFINITYf else (((fx d) +. (fy d)) *. F_5_1))) in
  let y := (if ((xisinff x) || (xisnanf y)) then SLEEF_NANf else y) in
  let y := (mulsignf y x) in
  let y := (if (xisnanf x) then SLEEF_NANf else y) in
  y.

(** src/sleefsp.c:1542-1562 *)
Definition xexp2f (d : Z) : Z :=
  let q := (toint (rintfk d)) in
  let s := (d -. (fint q)) in
  let u := DF_1535920892_13 in
  let u := (mlaf u s DF_1339262701_12) in
  let u := (mlaf u s DF_9618384764_12) in
  let u := (mlaf u s DF_5550347269_11) in
  let u := (mlaf u s DF_2402264476_10) in
  let u := (mlaf u s DF_6931471825_10) in
  let u := (fx (dfnormalize_f2_f2 (dfadd_f2_f_f2 I_1 (dfmul_f2_f_f u s)))) in
  let u := (ldexp2kf u q) in
  let u := if (lef I_128 d) then SLEEF_INFINITYf else u in
  let u := if (ltf d I_m150) then I_0 else u in
  u.

(** src/sleefsp.c:1564-1584 *)
Definition xexp2f_u35 (d : Z) : Z :=
  let q := (toint (rintfk d)) in
  let s := (d -. (fint q)) in
  let u := DF_1535920892_13 in
  let u := (mlaf u s DF_1339262701_12) in
  let u := (mlaf u s DF_9618384764_12) in
  let u := (mlaf u s DF_5550347269_11) in
  let u := (mlaf u s DF_2402264476_10) in
  let u := (mlaf u s DF_6931471825_10) in
  let u := (mlaf u s DF_1_0) in
  let u := (ldexp2kf u q) in
  let u := if (lef I_128 d) then SLEEF_INFINITYf else u in
  let u := if (ltf d I_m150) then I_0 else u in
  u.

(** src/sleefsp.c:1586-1608 *)
Definition xexp10f (d : Z) : Z :=
  let q := (toint (rintfk (d *. DF_3321928094887362347870319429489390175864831393_45))) in
  let s := (mlaf (fint q) (negf F_3010253906_10) d) in
  let s := (mlaf (fint q) (negf F_4605038981_15) s) in
  let u := DF_6802555919_11 in
  let u := (mlaf u s DF_2078080326_10) in
  let u := (mlaf u s DF_5393903852_10) in
  let u := (mlaf u s DF_1171245337_9) in
  let u := (mlaf u s DF_2034678698_9) in
  let u := (mlaf u s DF_2650949001_9) in
  let x := (dfadd_f2_f2_f (F2 DF_23025851249694824219_19 (d2f (negd D_31705172516493593157_27))) (u *. s)) in
  let u := (fx (dfnormalize_f2_f2 (dfadd_f2_f_f2 I_1 (dfmul_f2_f2_f x s)))) in
  let u := (ldexp2kf u q) in
  let u := if (ltf F_385318394191036238941387_22 d) then SLEEF_INFINITYf else u in
  let u := if (ltf d I_m50) then I_0 else u in
  u.

(** src/sleefsp.c:1610-1631 *)
Definition xexp10f_u35 (d : Z) : Z :=
  let q := (toint (rintfk (d *. DF_3321928094887362347870319429489390175864831393_45))) in
  let s := (mlaf (fint q) (negf F_3010253906_10) d) in
  let s := (mlaf (fint q) (negf F_4605038981_15) s) in
  let u := DF_2064004987_10 in
  let u := (mlaf u s DF_5417877436_10) in
  let u := (mlaf u s DF_1171286821_9) in
  let u := (mlaf u s DF_2034656048_9) in
  let u := (mlaf u s DF_2650948763_9) in
  let u := (mlaf u s DF_2302585125_9) in
  let u := (mlaf u s DF_1_0) in
  let u := (ldexp2kf u q) in
  let u := if (ltf F_385318394191036238941387_22 d) then SLEEF_INFINITYf else u in
  let u := if (ltf d I_m50) then I_0 else u in
  u.

(** src/sleefsp.c:1633-1640 *)
Definition xexpm1f (a : Z) : Z :=
  let d := (dfadd2_f2_f2_f (expk2f (F2 a I_0)) (negf F_1_0)) in
  let x := ((fx d) +. (fy d)) in
  let x := if (ltf F_8872283172607421875_17 a) then SLEEF_INFINITYf else x in
  let x := if (ltf a (negf F_1663553233343868742601357_23)) then I_m1 else x in
  let x := if (xisnegzerof a) then (negf F_0_1) else x in
  x.

(** src/sleefsp.c:1642-1673 *)
Definition xlog10f (d : Z) : Z :=
  let o := (ltf d FLT_MIN) in
  let d := if o then (d *. ((fint (Z.shiftl 1 32)) *. (fint (Z.shiftl 1 32)))) else d in
  let e := (ilogb2kf (d *. (F_1_0 /. F_75_2))) in
  let m := (ldexp3kf d (- e)) in
  let e := if o then (e - 64) else e in
  let x := (dfdiv_f2_f2_f2 (dfadd2_f2_f_f I_m1 m) (dfadd2_f2_f_f I_1 m)) in
  let x2 := ((fx x) *. (fx x)) in
  let t := DF_1314289868_10 in
  let t := (mlaf t x2 DF_1735493541_10) in
  let t := (mlaf t x2 DF_2895309627_10) in
  let s := (dfmul_f2_f2_f (F2 DF_30103001_8 (d2f (negd D_1432098889_17))) (fint e)) in
  let s := (dfadd_f2_f2_f2 s (dfmul_f2_f2_f2 x (F2 DF_868588984_9 (d2f (negd D_2170757285_17))))) in
  let s := (dfadd_f2_f2_f s ((x2 *. (fx x)) *. t)) in
  let r := ((fx s) +. (fy s)) in
  let r := if (xisinff d) then SLEEF_INFINITYf else r in
  let r := if ((ltf d I_0) || (xisnanf d)) then SLEEF_NANf else r in
  let r := if (eqf d I_0) then (negf SLEEF_INFINITYf) else r in
  r.

(** src/sleefsp.c:1675-1705 *)
Definition xlog2f (d : Z) : Z :=
  let o := (ltf d FLT_MIN) in
  let d := if o then (d *. ((fint (Z.shiftl 1 32)) *. (fint (Z.shiftl 1 32)))) else d in
  let e := (ilogb2kf (d *. (F_1_0 /. F_75_2))) in
  let m := (ldexp3kf d (- e)) in
  let e := if o then (e - 64) else e in
  let x := (dfdiv_f2_f2_f2 (dfadd2_f2_f_f I_m1 m) (dfadd2_f2_f_f I_1 m)) in
  let x2 := ((fx x) *. (fx x)) in
  let t := F_4374550283_10 in
  let t := (mlaf t x2 F_5764790177_10) in
  let t := (mlaf t x2 F_961801290512_12) in
  let s := (dfadd2_f2_f_f2 (fint e) (dfmul_f2_f2_f2 x (F2 DF_28853900432586669922_19 DF_32734474483568488616_27))) in
  let s := (dfadd2_f2_f2_f s ((x2 *. (fx x)) *. t)) in
  let r := ((fx s) +. (fy s)) in
  let r := if (xisinff d) then SLEEF_INFINITYf else r in
  let r := if ((ltf d I_0) || (xisnanf d)) then SLEEF_NANf else r in
  let r := if (eqf d I_0) then (negf SLEEF_INFINITYf) else r in
  r.

(** src/sleefsp.c:1707-1733 *)
Definition xlog2f_u35 (d : Z) : Z :=
  let o := (ltf d FLT_MIN) in
  let d := if o then (d *. ((fint (Z.shiftl 1 32)) *. (fint (Z.shiftl 1 32)))) else d in
  let e := (ilogb2kf (d *. (F_1_0 /. F_75_2))) in
  let m := (ldexp3kf d (- e)) in
  let e := if o then (e - 64) else e in
  let x := ((m -. I_1) /. (m +. I_1)) in
  let x2 := (x *. x) in
  let t := DF_4374088347_10 in
  let t := (mlaf t x2 DF_5764843822_10) in
  let t := (mlaf t x2 DF_961802423_9) in
  let r := (mlaf (x2 *. x) t (mlaf x DF_2885390043_9 (fint e))) in
  let r := if (xisinff d) then SLEEF_INFINITYf else r in
  let r := if ((ltf d I_0) || (xisnanf d)) then SLEEF_NANf else r in
  let r := if (eqf d I_0) then (negf SLEEF_INFINITYf) else r in
  r.

(** src/sleefsp.c:1735-1771 *)
Definition xlog1pf (d : Z) : Z :=
  let dp1 := (d +. I_1) in
  let o := (ltf dp1 FLT_MIN) in
  let dp1 := if o then (dp1 *. ((fint (Z.shiftl 1 32)) *. (fint (Z.shiftl 1 32)))) else dp1 in
  let e := (ilogb2kf (dp1 *. (F_1_0 /. F_75_2))) in
  let t := (ldexp3kf I_1 (- e)) in
  let m := (mlaf d t (t -. I_1)) in
  let e := if o then (e - 64) else e in
  let x := (dfdiv_f2_f2_f2 (F2 m I_0) (dfadd_f2_f_f I_2 m)) in
  let x2 := ((fx x) *. (fx x)) in
  let t := F_3027294874_10 in
  let t := (mlaf t x2 F_3996108174_10) in
  let t := (mlaf t x2 F_666669488_9) in
  let s := (dfmul_f2_f2_f (F2 F_69314718246459960938_20 (negf F_1904654323148236017_27)) (fint e)) in
  let s := (dfadd_f2_f2_f2 s (dfscale_f2_f2_f x I_2)) in
  let s := (dfadd_f2_f2_f s ((x2 *. (fx x)) *. t)) in
  let r := ((fx s) +. (fy s)) in
  let r := if (ltd D_100000000000000000000000000000000000000_0 (f2d d)) then SLEEF_INFINITYf else r in
  let r := if (ltf d I_m1) then SLEEF_NANf else r in
  let r := if (eqf d I_m1) then (negf SLEEF_INFINITYf) else r in
  let r := if (xisnegzerof d) then (negf F_0_1) else r in
  r.

(** src/sleefsp.c:1773-1798 *)
Definition xcbrtf (d : Z) : Z :=
  let q := F_1_0 in
  let e := ((ilogbkf (fabsfk d)) + 1) in
  let d := (ldexp2kf d (- e)) in
  let r := (Z.rem (e + 6144) 3) in
  let q := (if (r =? 1) then F_12599210498948731647672106_25 else q) in
  let q := (if (r =? 2) then F_15874010519681994747517056_25 else q) in
  let q := (ldexp2kf q ((Z.quot (e + 6144) 3) - 2048)) in
  let q := (mulsignf q d) in
  let d := (fabsfk d) in
  let x := (negf F_601564466953277587890625_24) in
  let x := (mlaf x d F_28208892345428466796875_22) in
  let x := (mlaf x d (negf F_5532182216644287109375_21)) in
  let x := (mlaf x d F_5898262500762939453125_21) in
  let x := (mlaf x d (negf F_38095417022705078125_19)) in
  let x := (mlaf x d F_22241256237030029296875_22) in
  let y := ((d *. x) *. x) in
  let y := ((y -. (((F_2_0 /. F_3_0) *. y) *. ((y *. x) -. F_1_0))) *. q) in
  y.

(** src/sleefsp.c:1800-1841 *)
Definition xcbrtf_u1 (d : Z) : Z :=
  let q2 := (F2 I_1 I_0) in
  let e := ((ilogbkf (fabsfk d)) + 1) in
  let d := (ldexp2kf d (- e)) in
  let r := (Z.rem (e + 6144) 3) in
  let q2 := (if (r =? 1) then (F2 DF_12599210739135742188_19 (d2f (negd D_24018701694217270415_27))) else q2) in
  let q2 := (if (r =? 2) then (F2 DF_15874010324478149414_19 DF_19520385308169352356_27) else q2) in
  let q2 := (F2 (mulsignf (fx q2) d) (fy q2)) in
  let q2 := (F2 (fx q2) (mulsignf (fy q2) d)) in
  let d := (fabsfk d) in
  let x := (negf F_601564466953277587890625_24) in
  let x := (mlaf x d F_28208892345428466796875_22) in
  let x := (mlaf x d (negf F_5532182216644287109375_21)) in
  let x := (mlaf x d F_5898262500762939453125_21) in
  let x := (mlaf x d (negf F_38095417022705078125_19)) in
  let x := (mlaf x d F_22241256237030029296875_22) in
  let y := (x *. x) in
  let y := (y *. y) in
  let x := (d2f ((f2d x) -.. ((f2d ((d *. y) -. x)) *.. (D_1_0 /.. (f2d F_3_0))))) in
  let z := x in
  let u := (dfmul_f2_f_f x x) in
  let u := (dfmul_f2_f2_f2 u u) in
  let u := (dfmul_f2_f2_f u d) in
  let u := (dfadd2_f2_f2_f u (negf x)) in
  let y := ((fx u) +. (fy u)) in
  let y := (d2f ((((negd D_2_0) /.. D_3_0) *.. (f2d y)) *.. (f2d z))) in
  let v := (dfadd2_f2_f2_f (dfmul_f2_f_f z z) y) in
  let v := (dfmul_f2_f2_f v d) in
  let v := (dfmul_f2_f2_f2 v q2) in
  let z := (ldexp2kf ((fx v) +. (fy v)) ((Z.quot (e + 6144) 3) - 2048)) in
  let z := if (xisinff d) then (mulsignf SLEEF_INFINITYf (fx q2)) else z in
  let z := if (eqf d I_0) then (mulsignf I_0 (fx q2)) else z in
  z.

(** src/sleefsp.c:1977-1992 *)
Definition xhypotf_u05 (x : Z) (y : Z) : Z :=
  let x := (fabsfk x) in
  let y := (fabsfk y) in
  let min := (fminfk x y) in
  let n := min in
  let max := (fmaxfk x y) in
  let d := max in
  let '(n, d) :=
    if (ltf max FLT_MIN) then
      let n := (n *. (fint (Z.shiftl 1 24))) in
      let d := (d *. (fint (Z.shiftl 1 24))) in
      (n, d)
    else
      (n, d)
  in
  let t := (dfdiv_f2_f2_f2 (F2 n I_0) (F2 d I_0)) in
  let t := (dfmul_f2_f2_f (dfsqrt_f2_f2 (dfadd2_f2_f2_f (dfsqu_f2_f2 t) I_1)) max) in
  let ret := ((fx t) +. (fy t)) in
  let ret := if (xisnanf ret) then SLEEF_INFINITYf else ret in
  let ret := if (eqf min I_0) then max else ret in
  let ret := if ((xisnanf x) || (xisnanf y)) then SLEEF_NANf else ret in
  let ret := if ((eqf x SLEEF_INFINITYf) || (eqf y SLEEF_INFINITYf)) then SLEEF_INFINITYf else ret in
  ret.

(** src/sleefsp.c:1994-2006 *)
Definition xhypotf_u35 (x : Z) (y : Z) : Z :=
  let x := (fabsfk x) in
  let y := (fabsfk y) in
  let min := (fminfk x y) in
  let max := (fmaxfk x y) in
  let t := (min /. max) in
  let ret := (max *. (SQRTF (I_1 +. (t *. t)))) in
  let ret := if (eqf min I_0) then max else ret in
  let ret := if ((xisnanf x) || (xisnanf y)) then SLEEF_NANf else ret in
  let ret := if ((eqf x SLEEF_INFINITYf) || (eqf y SLEEF_INFINITYf)) then SLEEF_INFINITYf else ret in
  ret.

(** src/sleefsp.c:2008-2010 *)
Definition toward0f (d : Z) : Z :=
  (if (eqf d I_0) then I_0 else (intBitsToFloat ((floatToRawIntBits d) - 1))).

(** src/sleefsp.c:2012-2014 *)
Definition ptruncf (x : Z) : Z :=
  (if (lef (fint (Z.shiftl 1 23)) (fabsfk x)) then x else (x -. (x -. (fint (toint x))))).

(** src/sleefsp.c:2039-2045 *)
Definition rintfk2 (d : Z) : Z :=
  let x := (d +. F_5_1) in
  let isodd := (negb ((Z.land 1 (toint x)) =? 0)) in
  let fr := (x -. (fint (toint x))) in
  let fr := (if ((ltf fr I_0) || ((eqf fr I_0) && isodd)) then (fr +. F_1_0) else fr) in
  (if (lef (fint (Z.shiftl 1 23)) (fabsfk d)) then d else (copysignfk (x -. fr) d)).

(** src/sleefsp.c:2157-2188 *)
Definition sinpifk (d : Z) : f2 :=
  let u := (d *. I_4) in
  let q := (Z.land (ceilfk u) (Z.lnot 1)) in
  let o := (negb ((Z.land q 2) =? 0)) in
  let s := (u -. (fint q)) in
  let t := s in
  let s := (s *. s) in
  let s2 := (dfmul_f2_f_f t t) in
  let u := (if o then (negf F_2430611801_17) else F_3093842054_16) in
  let u := (mlaf u s (if o then F_359057708_14 else (negf F_3657307388_14))) in
  let u := (mlaf u s (if o then (negf F_3259917721_13) else F_2490393585_12)) in
  let x := (dfadd2_f2_f_f2 (u *. s) (if o then (F2 DF_15854343771934509277_21 DF_44940051354032242811_29) else (F2 (d2f (negd D_80745510756969451904_21)) (d2f (negd D_13373665339076936258_28))))) in
  let x := (dfadd2_f2_f2_f2 (dfmul_f2_f2_f2 s2 x) (if o then (F2 (d2f (negd D_30842512845993041992_20)) (d2f (negd D_90728339030733922277_28))) else (F2 DF_78539818525314331055_20 (d2f (negd D_21857338617566484855_27))))) in
  let x := (dfmul_f2_f2_f2 x (if o then s2 else (F2 t I_0))) in
  let x := (if o then (dfadd2_f2_f2_f x I_1) else x) in
  let x :=
    if (negb ((Z.land q 4) =? 0)) then
      let x := (F2 (negf (fx x)) (fy x)) in
      let x := (F2 (fx x) (negf (fy x))) in
      x
    else
      x
  in
  x.

(** src/sleefsp.c:2190-2199 *)
Definition xsinpif_u05 (d : Z) : Z :=
  let x := (sinpifk d) in
  let r := ((fx x) +. (fy x)) in
  let r := if (xisnegzerof d) then (d2f (negd D_0_1)) else r in
  let r := if (ltf F_8000000_0 (fabsfk d)) then I_0 else r in
  let r := if (xisinff d) then SLEEF_NANf else r in
  r.

(** src/sleefsp.c:2201-2232 *)
Definition cospifk (d : Z) : f2 :=
  let u := (d *. I_4) in
  let q := (Z.land (ceilfk u) (Z.lnot 1)) in
  let o := ((Z.land q 2) =? 0) in
  let s := (u -. (fint q)) in
  let t := s in
  let s := (s *. s) in
  let s2 := (dfmul_f2_f_f t t) in
  let u := (if o then (negf F_2430611801_17) else F_3093842054_16) in
  let u := (mlaf u s (if o then F_359057708_14 else (negf F_3657307388_14))) in
  let u := (mlaf u s (if o then (negf F_3259917721_13) else F_2490393585_12)) in
  let x := (dfadd2_f2_f_f2 (u *. s) (if o then (F2 DF_15854343771934509277_21 DF_44940051354032242811_29) else (F2 (d2f (negd D_80745510756969451904_21)) (d2f (negd D_13373665339076936258_28))))) in
  let x := (dfadd2_f2_f2_f2 (dfmul_f2_f2_f2 s2 x) (if o then (F2 (d2f (negd D_30842512845993041992_20)) (d2f (negd D_90728339030733922277_28))) else (F2 DF_78539818525314331055_20 (d2f (negd D_21857338617566484855_27))))) in
  let x := (dfmul_f2_f2_f2 x (if o then s2 else (F2 t I_0))) in
  let x := (if o then (dfadd2_f2_f2_f x I_1) else x) in
  let x :=
    if (negb ((Z.land (q + 2) 4) =? 0)) then
      let x := (F2 (negf (fx x)) (fy x)) in
      let x := (F2 (fx x) (negf (fy x))) in
      x
    else
      x
  in
  x.

(** src/sleefsp.c:2234-2242 *)
Definition xcospif_u05 (d : Z) : Z :=
  let x := (cospifk d) in
  let r := ((fx x) +. (fy x)) in
  let r := if (ltf F_8000000_0 (fabsfk d)) then I_1 else r in
  let r := if (xisinff d) then SLEEF_NANf else r in
  r.

(** src/sleefsp.c:2248-2302 *)
Definition gammafk (a : Z) : df2 :=
  let clc := (F2 I_0 I_0) in
  let clln := (F2 I_1 I_0) in
  let clld := (F2 I_1 I_0) in
  let v := (F2 I_1 I_0) in
  let otiny := (ltf (fabsfk a) F_1_30) in
  let oref := (ltf a F_5_1) in
  let x := (if otiny then (F2 I_0 I_0) else (if oref then (dfadd2_f2_f_f I_1 (negf a)) else (F2 a I_0))) in
  let o0 := ((lef F_5_1 (fx x)) && (led (f2d (fx x)) D_12_1)) in
  let o2 := (ltd D_23_1 (f2d (fx x))) in
  let y := (dfnormalize_f2_f2 (dfmul_f2_f2_f2 (dfadd2_f2_f2_f x I_1) x)) in
  let y := (dfnormalize_f2_f2 (dfmul_f2_f2_f2 (dfadd2_f2_f2_f x I_2) y)) in
  let clln := (if (o2 && (lef (fx x) I_7)) then y else clln) in
  let x := (if (o2 && (lef (fx x) I_7)) then (dfadd2_f2_f2_f x I_3) else x) in
  let t := (d2f (if o2 then (D_1_0 /.. (f2d (fx x))) else (f2d (fx (dfnormalize_f2_f2 (dfadd2_f2_f2_f x (fint (if o0 then (- 1) else (- 2))))))))) in
  let u := (d2f (if o2 then D_839498720672087279971000786_30 else (f2d (if o0 then F_9435157776_10 else F_110248955_12)))) in
  let u := (mlaf u t (d2f (if o2 then (negd D_517179090826059219329394422_31) else (f2d (if o0 then F_8670063615_10 else F_8160019934_14))))) in
  let u := (mlaf u t (d2f (if o2 then (negd D_592166437353693882857342347_30) else (f2d (if o0 then F_4826702476_10 else F_1528468856_13))))) in
  let u := (mlaf u t (d2f (if o2 then D_697281375836585777403743539_31 else (f2d (if o0 then (negf F_8855129778_11) else (negf F_2355068718_13)))))) in
  let u := (mlaf u t (d2f (if o2 then D_784039221720066627493314301_30 else (f2d (if o0 then F_1013825238_10 else F_4962242092_13))))) in
  let u := (mlaf u t (d2f (if o2 then (negd D_229472093621399176949318732_30) else (f2d (if o0 then (negf F_1493408978_10) else (negf F_1193488017_12)))))) in
  let u := (mlaf u t (d2f (if o2 then (negd D_268132716049382716047395849_29) else (f2d (if o0 then F_169750914_9 else F_2891599433_12))))) in
  let u := (mlaf u t (d2f (if o2 then D_347222222222222222217516484_29 else (f2d (if o0 then (negf F_2072454542_10) else (negf F_7385451812_12)))))) in
  let u := (mlaf u t (d2f (if o2 then D_833333333333333333355920879_28 else (f2d (if o0 then F_2705872357_10 else F_2058077045_11))))) in
  let y := (dfmul_f2_f2_f2 (dfadd2_f2_f2_f x (d2f (negd D_5_1))) (logk2f x)) in
  let y := (dfadd2_f2_f2_f2 y (dfneg_f2_f2 x)) in
  let y := (dfadd2_f2_f2_f2 y (dfx D_91893853320467278056_20)) in
  let z := (dfadd2_f2_f2_f (dfmul_f2_f_f u t) (if o0 then (negf F_400686534596170958447352690395_30) else (negf F_673523028297382446749257758235_31))) in
  let z := (dfadd2_f2_f2_f (dfmul_f2_f2_f z t) (if o0 then F_822466960142643054450325495997_30 else F_322467033928981157743538726901_30)) in
  let z := (dfadd2_f2_f2_f (dfmul_f2_f2_f z t) (if o0 then (negf F_577215665946766039837398973297_30) else F_422784335087484338986941629852_30)) in
  let z := (dfmul_f2_f2_f z t) in
  let clc := (if o2 then y else z) in
  let clld := (if o2 then (dfadd2_f2_f2_f (dfmul_f2_f_f u t) I_1) else clld) in
  let y := clln in
  let clc := (if otiny then (dfx D_4158883083359671856503_20) else (if oref then (dfadd2_f2_f2_f2 (dfx D_11447298858494001639_19) (dfneg_f2_f2 clc)) else clc)) in
  let clln := (if otiny then (F2 I_1 I_0) else (if oref then clln else clld)) in
  let x := if oref then (dfmul_f2_f2_f2 clld (sinpifk (a -. ((fint (Z.shiftl 1 12)) *. (fint (dtoint ((f2d a) *.. (D_1_0 /.. (dint (Z.shiftl 1 12)))))))))) else x in
  let clld := (if otiny then (F2 (a *. ((fint (Z.shiftl 1 30)) *. (fint (Z.shiftl 1 30)))) I_0) else (if oref then x else y)) in
  let ret := (DF2 clc (dfdiv_f2_f2_f2 clln clld)) in
  ret.

(** src/sleefsp.c:2304-2311 *)
Definition xtgammaf_u1 (a : Z) : Z :=
  let d := (gammafk a) in
  let y := (dfmul_f2_f2_f2 (expk2f (dfa d)) (dfb d)) in
  let r := ((fx y) +. (fy y)) in
  let r := (if (((eqf a (negf SLEEF_INFINITYf)) || ((ltf a I_0) && (xisintf a))) || (((xisnumberf a) && (ltf a I_0)) && (xisnanf r))) then SLEEF_NANf else r) in
  let r := (if ((((eqf a SLEEF_INFINITYf) || (xisnumberf a)) && (lef (negf FLT_MIN) a)) && (((eqf a I_0) || (ltf I_36 a)) || (xisnanf r))) then (mulsignf SLEEF_INFINITYf a) else r) in
  r.

(** src/sleefsp.c:2313-2319 *)
Definition xlgammaf_u1 (a : Z) : Z :=
  let d := (gammafk a) in
  let y := (dfadd2_f2_f2_f2 (dfa d) (logk2f (dfabs_f2_f2 (dfb d)))) in
  let r := ((fx y) +. (fy y)) in
  let r := (if (((xisinff a) || ((lef a I_0) && (xisintf a))) || ((xisnumberf a) && (xisnanf r))) then SLEEF_INFINITYf else r) in
  r.

(** src/sleefsp.c:2321-2347 *)
Definition xerff_u1 (a : Z) : Z :=
  let s := a in
  let a := (fabsfk a) in
  let o0 := (ltf a F_11_1) in
  let o1 := (ltf a F_24_1) in
  let o2 := (ltf a F_4_0) in
  let u := (if o0 then (a *. a) else a) in
  let t := (if o0 then F_7089292194_14 else (if o1 then (negf F_1792667899_14) else (negf F_9495757695_15))) in
  let t := (mlaf t u (if o0 then (negf F_7768311189_13) else (if o1 then F_393763301_12 else F_2481465926_13))) in
  let t := (mlaf t u (if o0 then F_5159463733_12 else (if o1 then (negf F_3949181177_12) else (negf F_2918176819_12)))) in
  let t := (mlaf t u (if o0 then (negf F_2683781274_11) else (if o1 then F_244547464_10 else F_2059706673_11))) in
  let t := (mlaf t u (if o0 then F_1128318012_10 else (if o1 then (negf F_107099615_9) else (negf F_9901899844_11)))) in
  let d := (dfmul_f2_f_f t u) in
  let d := (dfadd2_f2_f2_f2 d (if o0 then (dfx (negd D_376125876000657465175213237214_30)) else (if o1 then (dfx (negd D_63458890590841038997121080921_29)) else (dfx (negd D_643598050547891613081201721633_30))))) in
  let d := (dfmul_f2_f2_f d u) in
  let d := (dfadd2_f2_f2_f2 d (if o0 then (dfx D_112837916021059138255978217023_29) else (if o1 then (dfx (negd D_112879855826694507209862753992_29)) else (dfx (negd D_112461487742845562801052956293_29))))) in
  let d := (dfmul_f2_f2_f d a) in
  let d := (if o0 then d else (dfadd_f2_f_f2 DF_1_0 (dfneg_f2_f2 (expk2f d)))) in
  let u := (mulsignf (if o2 then ((fx d) +. (fy d)) else I_1) s) in
  let u := (if (xisnanf a) then SLEEF_NANf else u) in
  u.

(** src/sleefsp.c:2349-2388 *)
Definition xerfcf_u15 (a : Z) : Z :=
  let s := a in
  let r := I_0 in
  let a := (fabsfk a) in
  let o0 := (ltf a F_1_0) in
  let o1 := (ltf a F_22_1) in
  let o2 := (ltf a F_43_1) in
  let o3 := (ltf a F_101_1) in
  let u := (if o1 then (F2 a I_0) else (dfdiv_f2_f2_f2 (F2 I_1 I_0) (F2 a I_0))) in
  let t := (if o0 then (negf F_8638041618_14) else (if o1 then (negf F_6236977242_15) else (if o2 then (negf F_3869504035_10) else F_1115344167_9))) in
  let t := (mlaf t (fx u) (if o0 then F_6000166177_13 else (if o1 then F_5749821503_14 else (if o2 then F_1288077235_9 else (negf F_9454904199_10))))) in
  let t := (mlaf t (fx u) (if o0 then (negf F_1665703603_12) else (if o1 then F_6002851478_15 else (if o2 then (negf F_1816803217_9) else (negf F_3667259514_10))))) in
  let t := (mlaf t (fx u) (if o0 then F_1795156277_13 else (if o1 then (negf F_2851036377_12) else (if o2 then F_1249150872_9 else F_7155663371_10)))) in
  let t := (mlaf t (fx u) (if o0 then F_1914106123_11 else (if o1 then F_2260518074_11 else (if o2 then (negf F_1328857988_10) else (negf F_1262947265_11))))) in
  let d := (dfmul_f2_f2_f u t) in
  let d := (dfadd2_f2_f2_f2 d (if o0 then (dfx (negd D_102775359343930288081655368891_30)) else (if o1 then (dfx (negd D_105247583459338632253369014063_30)) else (if o2 then (dfx (negd D_482365310333045318680618892669_30)) else (dfx (negd D_498961546254537647970305302739_30)))))) in
  let d := (dfmul_f2_f2_f2 d u) in
  let d := (dfadd2_f2_f2_f2 d (if o0 then (dfx (negd D_636619483208481931303752546439_30)) else (if o1 then (dfx (negd D_635609463574589034216723775292_30)) else (if o2 then (dfx (negd D_134450203224533979217859332703_32)) else (dfx (negd D_471199543422848492080722832666_34)))))) in
  let d := (dfmul_f2_f2_f2 d u) in
  let d := (dfadd2_f2_f2_f2 d (if o0 then (dfx (negd D_112837917790537404939545770596_29)) else (if o1 then (dfx (negd D_112855987376668622084547028949_29)) else (if o2 then (dfx (negd D_57231978115047294956178610108_29)) else (dfx (negd D_572364030327966044425932623525_30)))))) in
  let x := (dfmul_f2_f2_f (if o1 then d else (F2 (negf a) I_0)) a) in
  let x := (if o1 then x else (dfadd2_f2_f2_f2 x d)) in
  let x := (expk2f x) in
  let x := (if o1 then x else (dfmul_f2_f2_f2 x u)) in
  let r := (if o3 then ((fx x) +. (fy x)) else I_0) in
  let r := if (ltf s I_0) then (I_2 -. r) else r in
  let r := (if (xisnanf s) then SLEEF_NANf else r) in
  r.

End Sleef.
