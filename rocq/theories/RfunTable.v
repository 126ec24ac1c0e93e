(** * The coefficients of the large-argument Bessel formula, transcribed mechanically
      from libgrpp/specfunc_scaled_mod_sph_bessel.c (from line 197).  An entry (m, e)
      stands for m 10^e. *)

From Coq Require Import List ZArith.
Import ListNotations.
Open Scope Z_scope.

Definition rfun_rows : list (list (Z * Z)) := [
[(10000000000000000, -16); (0, 0); (0, 0); (0, 0); (0, 0); (0, 0); (0, 0); (0, 0); (0, 0); (0, 0); (0, 0); (0, 0); (0, 0); (0, 0); (0, 0); (0, 0); (0, 0); (0, 0); (0, 0); (0, 0); (0, 0); (0, 0); (0, 0); (0, 0); (0, 0); (0, 0); (0, 0); (0, 0); (0, 0); (0, 0); (0, 0); (0, 0); (0, 0); (0, 0); (0, 0); (0, 0); (0, 0); (0, 0); (0, 0); (0, 0); (0, 0); (0, 0); (0, 0); (0, 0); (0, 0); (0, 0); (0, 0); (0, 0); (0, 0); (0, 0)];
[(10000000000000000, -16); (10000000000000000, -16); (0, 0); (0, 0); (0, 0); (0, 0); (0, 0); (0, 0); (0, 0); (0, 0); (0, 0); (0, 0); (0, 0); (0, 0); (0, 0); (0, 0); (0, 0); (0, 0); (0, 0); (0, 0); (0, 0); (0, 0); (0, 0); (0, 0); (0, 0); (0, 0); (0, 0); (0, 0); (0, 0); (0, 0); (0, 0); (0, 0); (0, 0); (0, 0); (0, 0); (0, 0); (0, 0); (0, 0); (0, 0); (0, 0); (0, 0); (0, 0); (0, 0); (0, 0); (0, 0); (0, 0); (0, 0); (0, 0); (0, 0); (0, 0)];
[(10000000000000000, -16); (30000000000000000, -16); (30000000000000000, -16); (0, 0); (0, 0); (0, 0); (0, 0); (0, 0); (0, 0); (0, 0); (0, 0); (0, 0); (0, 0); (0, 0); (0, 0); (0, 0); (0, 0); (0, 0); (0, 0); (0, 0); (0, 0); (0, 0); (0, 0); (0, 0); (0, 0); (0, 0); (0, 0); (0, 0); (0, 0); (0, 0); (0, 0); (0, 0); (0, 0); (0, 0); (0, 0); (0, 0); (0, 0); (0, 0); (0, 0); (0, 0); (0, 0); (0, 0); (0, 0); (0, 0); (0, 0); (0, 0); (0, 0); (0, 0); (0, 0); (0, 0)];
[(10000000000000000, -16); (60000000000000000, -16); (15000000000000000, -15); (15000000000000000, -15); (0, 0); (0, 0); (0, 0); (0, 0); (0, 0); (0, 0); (0, 0); (0, 0); (0, 0); (0, 0); (0, 0); (0, 0); (0, 0); (0, 0); (0, 0); (0, 0); (0, 0); (0, 0); (0, 0); (0, 0); (0, 0); (0, 0); (0, 0); (0, 0); (0, 0); (0, 0); (0, 0); (0, 0); (0, 0); (0, 0); (0, 0); (0, 0); (0, 0); (0, 0); (0, 0); (0, 0); (0, 0); (0, 0); (0, 0); (0, 0); (0, 0); (0, 0); (0, 0); (0, 0); (0, 0); (0, 0)];
[(10000000000000000, -16); (10000000000000000, -15); (45000000000000000, -15); (10500000000000000, -14); (10500000000000000, -14); (0, 0); (0, 0); (0, 0); (0, 0); (0, 0); (0, 0); (0, 0); (0, 0); (0, 0); (0, 0); (0, 0); (0, 0); (0, 0); (0, 0); (0, 0); (0, 0); (0, 0); (0, 0); (0, 0); (0, 0); (0, 0); (0, 0); (0, 0); (0, 0); (0, 0); (0, 0); (0, 0); (0, 0); (0, 0); (0, 0); (0, 0); (0, 0); (0, 0); (0, 0); (0, 0); (0, 0); (0, 0); (0, 0); (0, 0); (0, 0); (0, 0); (0, 0); (0, 0); (0, 0); (0, 0)];
[(10000000000000000, -16); (15000000000000000, -15); (10500000000000000, -14); (42000000000000000, -14); (94500000000000000, -14); (94500000000000000, -14); (0, 0); (0, 0); (0, 0); (0, 0); (0, 0); (0, 0); (0, 0); (0, 0); (0, 0); (0, 0); (0, 0); (0, 0); (0, 0); (0, 0); (0, 0); (0, 0); (0, 0); (0, 0); (0, 0); (0, 0); (0, 0); (0, 0); (0, 0); (0, 0); (0, 0); (0, 0); (0, 0); (0, 0); (0, 0); (0, 0); (0, 0); (0, 0); (0, 0); (0, 0); (0, 0); (0, 0); (0, 0); (0, 0); (0, 0); (0, 0); (0, 0); (0, 0); (0, 0); (0, 0)];
[(10000000000000000, -16); (21000000000000000, -15); (21000000000000000, -14); (12600000000000000, -13); (47250000000000000, -13); (10395000000000000, -12); (10395000000000000, -12); (0, 0); (0, 0); (0, 0); (0, 0); (0, 0); (0, 0); (0, 0); (0, 0); (0, 0); (0, 0); (0, 0); (0, 0); (0, 0); (0, 0); (0, 0); (0, 0); (0, 0); (0, 0); (0, 0); (0, 0); (0, 0); (0, 0); (0, 0); (0, 0); (0, 0); (0, 0); (0, 0); (0, 0); (0, 0); (0, 0); (0, 0); (0, 0); (0, 0); (0, 0); (0, 0); (0, 0); (0, 0); (0, 0); (0, 0); (0, 0); (0, 0); (0, 0); (0, 0)];
[(10000000000000000, -16); (28000000000000000, -15); (37800000000000000, -14); (31500000000000000, -13); (17325000000000000, -12); (62370000000000000, -12); (13513500000000000, -11); (13513500000000000, -11); (0, 0); (0, 0); (0, 0); (0, 0); (0, 0); (0, 0); (0, 0); (0, 0); (0, 0); (0, 0); (0, 0); (0, 0); (0, 0); (0, 0); (0, 0); (0, 0); (0, 0); (0, 0); (0, 0); (0, 0); (0, 0); (0, 0); (0, 0); (0, 0); (0, 0); (0, 0); (0, 0); (0, 0); (0, 0); (0, 0); (0, 0); (0, 0); (0, 0); (0, 0); (0, 0); (0, 0); (0, 0); (0, 0); (0, 0); (0, 0); (0, 0); (0, 0)];
[(10000000000000000, -16); (36000000000000000, -15); (63000000000000000, -14); (69300000000000000, -13); (51975000000000000, -12); (27027000000000000, -11); (94594500000000000, -11); (20270250000000000, -10); (20270250000000000, -10); (0, 0); (0, 0); (0, 0); (0, 0); (0, 0); (0, 0); (0, 0); (0, 0); (0, 0); (0, 0); (0, 0); (0, 0); (0, 0); (0, 0); (0, 0); (0, 0); (0, 0); (0, 0); (0, 0); (0, 0); (0, 0); (0, 0); (0, 0); (0, 0); (0, 0); (0, 0); (0, 0); (0, 0); (0, 0); (0, 0); (0, 0); (0, 0); (0, 0); (0, 0); (0, 0); (0, 0); (0, 0); (0, 0); (0, 0); (0, 0); (0, 0)];
[(10000000000000000, -16); (45000000000000000, -15); (99000000000000000, -14); (13860000000000000, -12); (13513500000000000, -11); (94594500000000000, -11); (47297250000000000, -10); (16216200000000000, -9); (34459425000000000, -9); (34459425000000000, -9); (0, 0); (0, 0); (0, 0); (0, 0); (0, 0); (0, 0); (0, 0); (0, 0); (0, 0); (0, 0); (0, 0); (0, 0); (0, 0); (0, 0); (0, 0); (0, 0); (0, 0); (0, 0); (0, 0); (0, 0); (0, 0); (0, 0); (0, 0); (0, 0); (0, 0); (0, 0); (0, 0); (0, 0); (0, 0); (0, 0); (0, 0); (0, 0); (0, 0); (0, 0); (0, 0); (0, 0); (0, 0); (0, 0); (0, 0); (0, 0)];
[(10000000000000000, -16); (55000000000000000, -15); (14850000000000000, -13); (25740000000000000, -12); (31531500000000000, -11); (28378350000000000, -10); (18918900000000000, -9); (91891800000000000, -9); (31013482500000000, -8); (65472907500000000, -8); (65472907500000000, -8); (0, 0); (0, 0); (0, 0); (0, 0); (0, 0); (0, 0); (0, 0); (0, 0); (0, 0); (0, 0); (0, 0); (0, 0); (0, 0); (0, 0); (0, 0); (0, 0); (0, 0); (0, 0); (0, 0); (0, 0); (0, 0); (0, 0); (0, 0); (0, 0); (0, 0); (0, 0); (0, 0); (0, 0); (0, 0); (0, 0); (0, 0); (0, 0); (0, 0); (0, 0); (0, 0); (0, 0); (0, 0); (0, 0); (0, 0)];
[(10000000000000000, -16); (66000000000000000, -15); (21450000000000000, -13); (45045000000000000, -12); (67567500000000000, -11); (75675600000000000, -10); (64324260000000000, -9); (41351310000000000, -8); (19641872250000000, -7); (65472907500000000, -7); (13749310575000000, -6); (13749310575000000, -6); (0, 0); (0, 0); (0, 0); (0, 0); (0, 0); (0, 0); (0, 0); (0, 0); (0, 0); (0, 0); (0, 0); (0, 0); (0, 0); (0, 0); (0, 0); (0, 0); (0, 0); (0, 0); (0, 0); (0, 0); (0, 0); (0, 0); (0, 0); (0, 0); (0, 0); (0, 0); (0, 0); (0, 0); (0, 0); (0, 0); (0, 0); (0, 0); (0, 0); (0, 0); (0, 0); (0, 0); (0, 0); (0, 0)];
[(10000000000000000, -16); (78000000000000000, -15); (30030000000000000, -13); (75075000000000000, -12); (13513500000000000, -10); (18378360000000000, -9); (19297278000000000, -8); (15713497800000000, -7); (98209361250000000, -7); (45831035250000000, -6); (15124241632500000, -5); (31623414322500000, -5); (31623414322500000, -5); (0, 0); (0, 0); (0, 0); (0, 0); (0, 0); (0, 0); (0, 0); (0, 0); (0, 0); (0, 0); (0, 0); (0, 0); (0, 0); (0, 0); (0, 0); (0, 0); (0, 0); (0, 0); (0, 0); (0, 0); (0, 0); (0, 0); (0, 0); (0, 0); (0, 0); (0, 0); (0, 0); (0, 0); (0, 0); (0, 0); (0, 0); (0, 0); (0, 0); (0, 0); (0, 0); (0, 0); (0, 0)];
[(10000000000000000, -16); (91000000000000000, -15); (40950000000000000, -13); (12012000000000000, -11); (25525500000000000, -10); (41351310000000000, -9); (52378326000000000, -8); (52378326000000000, -7); (41247931725000000, -6); (25207069387500000, -5); (11595251918250000, -4); (37948097187000000, -4); (79058535806250000, -4); (79058535806250000, -4); (0, 0); (0, 0); (0, 0); (0, 0); (0, 0); (0, 0); (0, 0); (0, 0); (0, 0); (0, 0); (0, 0); (0, 0); (0, 0); (0, 0); (0, 0); (0, 0); (0, 0); (0, 0); (0, 0); (0, 0); (0, 0); (0, 0); (0, 0); (0, 0); (0, 0); (0, 0); (0, 0); (0, 0); (0, 0); (0, 0); (0, 0); (0, 0); (0, 0); (0, 0); (0, 0); (0, 0)];
[(10000000000000000, -16); (10500000000000000, -14); (54600000000000000, -13); (18564000000000000, -11); (45945900000000000, -10); (87297210000000000, -9); (13094581500000000, -7); (15713497800000000, -6); (15124241632500000, -5); (11595251918250000, -4); (69571511509500000, -4); (31623414322500000, -3); (10277609654812500, -2); (21345804667687500, -2); (21345804667687500, -2); (0, 0); (0, 0); (0, 0); (0, 0); (0, 0); (0, 0); (0, 0); (0, 0); (0, 0); (0, 0); (0, 0); (0, 0); (0, 0); (0, 0); (0, 0); (0, 0); (0, 0); (0, 0); (0, 0); (0, 0); (0, 0); (0, 0); (0, 0); (0, 0); (0, 0); (0, 0); (0, 0); (0, 0); (0, 0); (0, 0); (0, 0); (0, 0); (0, 0); (0, 0); (0, 0)];
[(10000000000000000, -16); (12000000000000000, -14); (71400000000000000, -13); (27846000000000000, -11); (79361100000000000, -10); (17459442000000000, -8); (30554023500000000, -7); (43212118950000000, -6); (49693936792500000, -5); (46381007673000000, -4); (34785755754750000, -3); (20555219309625000, -2); (92498486893312500, -2); (29884126534762500, -1); (61902833536293750, -1); (61902833536293750, -1); (0, 0); (0, 0); (0, 0); (0, 0); (0, 0); (0, 0); (0, 0); (0, 0); (0, 0); (0, 0); (0, 0); (0, 0); (0, 0); (0, 0); (0, 0); (0, 0); (0, 0); (0, 0); (0, 0); (0, 0); (0, 0); (0, 0); (0, 0); (0, 0); (0, 0); (0, 0); (0, 0); (0, 0); (0, 0); (0, 0); (0, 0); (0, 0); (0, 0); (0, 0)];
[(10000000000000000, -16); (13600000000000000, -14); (91800000000000000, -13); (40698000000000000, -11); (13226850000000000, -9); (33331662000000000, -8); (67218851700000000, -7); (11043097065000000, -5); (14908181037750000, -4); (16564645597500000, -3); (15073827493725000, -2); (11099818427197500, -1); (64748940825318750, -1); (28887988983603752, 0); (92854250304440624, 0); (19189878396251062, 1); (19189878396251062, 1); (0, 0); (0, 0); (0, 0); (0, 0); (0, 0); (0, 0); (0, 0); (0, 0); (0, 0); (0, 0); (0, 0); (0, 0); (0, 0); (0, 0); (0, 0); (0, 0); (0, 0); (0, 0); (0, 0); (0, 0); (0, 0); (0, 0); (0, 0); (0, 0); (0, 0); (0, 0); (0, 0); (0, 0); (0, 0); (0, 0); (0, 0); (0, 0); (0, 0)];
[(10000000000000000, -16); (15300000000000000, -14); (11628000000000000, -12); (58140000000000000, -11); (21366450000000000, -9); (61108047000000000, -8); (14054850810000000, -6); (26503432956000000, -5); (41411613993750000, -4); (53835098191875000, -3); (58141906047225000, -2); (51799152660255000, -1); (37554385678684872, 0); (21665991737702813, 1); (95949391981255309, 1); (30703805434001700, 2); (63326598707628503, 2); (63326598707628503, 2); (0, 0); (0, 0); (0, 0); (0, 0); (0, 0); (0, 0); (0, 0); (0, 0); (0, 0); (0, 0); (0, 0); (0, 0); (0, 0); (0, 0); (0, 0); (0, 0); (0, 0); (0, 0); (0, 0); (0, 0); (0, 0); (0, 0); (0, 0); (0, 0); (0, 0); (0, 0); (0, 0); (0, 0); (0, 0); (0, 0); (0, 0); (0, 0)];
[(10000000000000000, -16); (17100000000000000, -14); (14535000000000000, -12); (81396000000000000, -11); (33575850000000000, -9); (10811423700000000, -7); (28109701620000000, -6); (60235074900000000, -5); (10767019638375000, -3); (16150529457562500, -2); (20349667116528750, -1); (21459648959248500, 0); (18777192839342438, 1); (13432914877375744, 2); (76759513585004247, 2); (33774185977401868, 3); (10765521780296847, 4); (22164309547669976, 4); (22164309547669976, 4); (0, 0); (0, 0); (0, 0); (0, 0); (0, 0); (0, 0); (0, 0); (0, 0); (0, 0); (0, 0); (0, 0); (0, 0); (0, 0); (0, 0); (0, 0); (0, 0); (0, 0); (0, 0); (0, 0); (0, 0); (0, 0); (0, 0); (0, 0); (0, 0); (0, 0); (0, 0); (0, 0); (0, 0); (0, 0); (0, 0); (0, 0)];
[(10000000000000000, -16); (19000000000000000, -14); (17955000000000000, -12); (11191950000000000, -10); (51482970000000000, -9); (18533869200000000, -7); (54057118500000000, -6); (13050932895000000, -4); (26428139112375000, -3); (45221482481175000, -2); (65571149597703750, -1); (80473683597181872, 0); (83156139717087936, 1); (71642212679337298, 2); (50661278966102802, 3); (28708058080791590, 4); (12559775410346320, 5); (39895757185805960, 5); (82007945326378919, 5); (82007945326378919, 5); (0, 0); (0, 0); (0, 0); (0, 0); (0, 0); (0, 0); (0, 0); (0, 0); (0, 0); (0, 0); (0, 0); (0, 0); (0, 0); (0, 0); (0, 0); (0, 0); (0, 0); (0, 0); (0, 0); (0, 0); (0, 0); (0, 0); (0, 0); (0, 0); (0, 0); (0, 0); (0, 0); (0, 0); (0, 0); (0, 0)];
[(10000000000000000, -16); (21000000000000000, -14); (21945000000000000, -12); (15142050000000000, -10); (77224455000000000, -9); (30889782000000000, -7); (10039179150000000, -5); (27105783705000000, -4); (61665657928875000, -3); (11922027199582500, -1); (19671344879311124, 0); (27718713239029312, 1); (33262455886835174, 2); (33774185977401868, 3); (28708058080791590, 4); (20095640656554112, 5); (11303797869311689, 6); (49204767195827347, 6); (15581509612011996, 7); (31983098677287775, 7); (31983098677287775, 7); (0, 0); (0, 0); (0, 0); (0, 0); (0, 0); (0, 0); (0, 0); (0, 0); (0, 0); (0, 0); (0, 0); (0, 0); (0, 0); (0, 0); (0, 0); (0, 0); (0, 0); (0, 0); (0, 0); (0, 0); (0, 0); (0, 0); (0, 0); (0, 0); (0, 0); (0, 0); (0, 0); (0, 0); (0, 0)];
[(10000000000000000, -16); (23100000000000000, -14); (26565000000000000, -12); (20189400000000000, -10); (11356537500000000, -8); (50195895750000000, -7); (18070522470000000, -5); (54211567410000000, -4); (13756185230287500, -2); (29805067998956250, -1); (55437426478058624, 0); (88699882364893798, 1); (12196233825172898, 3); (14354029040395795, 4); (14354029040395795, 5); (12057384393932467, 6); (83648104232906486, 6); (46744528836035980, 7); (20255962495615593, 8); (63966197354575558, 8); (13113070457687988, 9); (13113070457687988, 9); (0, 0); (0, 0); (0, 0); (0, 0); (0, 0); (0, 0); (0, 0); (0, 0); (0, 0); (0, 0); (0, 0); (0, 0); (0, 0); (0, 0); (0, 0); (0, 0); (0, 0); (0, 0); (0, 0); (0, 0); (0, 0); (0, 0); (0, 0); (0, 0); (0, 0); (0, 0); (0, 0); (0, 0)];
[(10000000000000000, -16); (25300000000000000, -14); (31878000000000000, -12); (26565000000000000, -10); (16403887500000000, -8); (79722893250000000, -7); (31623414322500000, -5); (10480903032600000, -3); (29477539779187500, -2); (71073623689818750, -1); (14783313727482301, 1); (26609964709468140, 2); (41467195005587849, 3); (55821224045983649, 4); (64593130681781075, 5); (63731888939357331, 6); (52977132680840781, 7); (36460732492108065, 8); (20255962495615594, 9); (87420469717919930, 9); (27537447961144777, 10); (56386202968058351, 10); (56386202968058351, 10); (0, 0); (0, 0); (0, 0); (0, 0); (0, 0); (0, 0); (0, 0); (0, 0); (0, 0); (0, 0); (0, 0); (0, 0); (0, 0); (0, 0); (0, 0); (0, 0); (0, 0); (0, 0); (0, 0); (0, 0); (0, 0); (0, 0); (0, 0); (0, 0); (0, 0); (0, 0); (0, 0)];
[(10000000000000000, -16); (27600000000000000, -14); (37950000000000000, -12); (34534500000000000, -10); (23310787500000000, -8); (12401338950000000, -6); (53945824432500000, -5); (19651693186125000, -3); (60920248876987500, -2); (16245399700530000, 0); (37526873308224301, 1); (75394900010159729, 2); (13194107501777953, 4); (20095640656554112, 5); (26554953724732222, 6); (30272647246194728, 7); (29515831065039861, 8); (24307154994738711, 9); (16609889246404785, 10); (91791493203815915, 10); (39470342077640844, 11); (12404964652972836, 12); (25373791335626256, 12); (25373791335626256, 12); (0, 0); (0, 0); (0, 0); (0, 0); (0, 0); (0, 0); (0, 0); (0, 0); (0, 0); (0, 0); (0, 0); (0, 0); (0, 0); (0, 0); (0, 0); (0, 0); (0, 0); (0, 0); (0, 0); (0, 0); (0, 0); (0, 0); (0, 0); (0, 0); (0, 0); (0, 0)];
[(10000000000000000, -16); (30000000000000000, -14); (44850000000000000, -12); (44401500000000000, -10); (32635102500000000, -8); (18928359450000000, -6); (89909707387500000, -5); (35835440515875000, -3); (12184049775397500, -1); (35739879341166000, 0); (91136692319973299, 1); (20298626925812236, 3); (39582322505333860, 4); (67594427662954744, 5); (10090882415398244, 7); (13118147140017716, 8); (14757915532519932, 9); (14237047925489816, 10); (11626922472483349, 11); (78940684155281688, 11); (43417376285404926, 12); (18607446979459256, 13); (58359720071940396, 13); (11925681927744342, 14); (11925681927744342, 14); (0, 0); (0, 0); (0, 0); (0, 0); (0, 0); (0, 0); (0, 0); (0, 0); (0, 0); (0, 0); (0, 0); (0, 0); (0, 0); (0, 0); (0, 0); (0, 0); (0, 0); (0, 0); (0, 0); (0, 0); (0, 0); (0, 0); (0, 0); (0, 0); (0, 0)];
[(10000000000000000, -16); (32500000000000000, -14); (52650000000000000, -12); (56511000000000000, -10); (45067522500000000, -8); (28392539175000000, -6); (14669478573750000, -4); (63707449806000000, -3); (23651390740477500, -1); (75947243599977744, 0); (21265228207993769, 2); (52196469237802893, 3); (11265737943825791, 5); (21404902093269001, 6); (35776764927321044, 7); (52472588560070862, 8); (67230504092590799, 9); (74744501608821538, 10); (71422523759540579, 11); (57889835047206574, 12); (39075638656864439, 13); (21398564026378145, 14); (91430228112706621, 14); (28621636626586418, 15); (58435841445947271, 15); (58435841445947271, 15); (0, 0); (0, 0); (0, 0); (0, 0); (0, 0); (0, 0); (0, 0); (0, 0); (0, 0); (0, 0); (0, 0); (0, 0); (0, 0); (0, 0); (0, 0); (0, 0); (0, 0); (0, 0); (0, 0); (0, 0); (0, 0); (0, 0); (0, 0); (0, 0)];
[(10000000000000000, -16); (35100000000000000, -14); (61425000000000000, -12); (71253000000000000, -10); (61455712500000000, -8); (41912795925000000, -6); (23471165718000000, -4); (11064978124200000, -2); (44674849176457500, -1); (15636197211760125, 1); (47846763467985981, 2); (12875129078658046, 4); (30578431561812861, 5); (64214706279807002, 6); (11925588309107015, 8); (19557964826935507, 9); (28236811718888136, 10); (35711261879770289, 11); (39282388067747316, 12); (37214893958918512, 13); (29957989636929402, 14); (20114650184795456, 15); (10971627373524793, 16); (46748673156757817, 16); (14608960361486818, 17); (29802279137433107, 17); (29802279137433107, 17); (0, 0); (0, 0); (0, 0); (0, 0); (0, 0); (0, 0); (0, 0); (0, 0); (0, 0); (0, 0); (0, 0); (0, 0); (0, 0); (0, 0); (0, 0); (0, 0); (0, 0); (0, 0); (0, 0); (0, 0); (0, 0); (0, 0); (0, 0)];
[(10000000000000000, -16); (37800000000000000, -14); (71253000000000000, -12); (89066250000000000, -10); (82831612500000000, -8); (60964066800000000, -6); (36883260414000000, -4); (18810462811140000, -2); (82295774798737500, -1); (31272394423520250, 1); (10413707343032244, 3); (30578431561812863, 4); (79503922060713431, 5); (18347058937087716, 7); (37611470821029817, 8); (68452876894274268, 9); (11038026399201726, 11); (15712955227098926, 12); (19641194033873659, 13); (21398564026378145, 14); (20114650184795456, 15); (16091720147836365, 16); (10752194826054298, 17); (58435841445947272, 17); (24835232614527592, 18); (77485925757326079, 18); (15795207942839547, 19); (15795207942839547, 19); (0, 0); (0, 0); (0, 0); (0, 0); (0, 0); (0, 0); (0, 0); (0, 0); (0, 0); (0, 0); (0, 0); (0, 0); (0, 0); (0, 0); (0, 0); (0, 0); (0, 0); (0, 0); (0, 0); (0, 0); (0, 0); (0, 0)];
[(10000000000000000, -16); (40600000000000000, -14); (82215000000000000, -12); (11044215000000000, -9); (11044215000000000, -7); (87470182800000000, -6); (57001402458000000, -4); (31350771351900000, -2); (14813239463772750, 0); (60898873351065754, 1); (21984493279734735, 3); (70150519465335390, 4); (19875980515178361, 6); (50148627761373093, 7); (11283441246308945, 9); (22642105434259949, 10); (40472763463739662, 11); (64280271383586516, 12); (90349492555818833, 13); (11174805658219697, 15); (12068790110877273, 16); (11264204103485455, 17); (89601623550452488, 17); (59604558274866214, 18); (32285802398885867, 19); (13689180217127607, 20); (42647061445666780, 20); (86873643685617512, 20); (86873643685617512, 20); (0, 0); (0, 0); (0, 0); (0, 0); (0, 0); (0, 0); (0, 0); (0, 0); (0, 0); (0, 0); (0, 0); (0, 0); (0, 0); (0, 0); (0, 0); (0, 0); (0, 0); (0, 0); (0, 0); (0, 0); (0, 0)];
[(10000000000000000, -16); (43500000000000000, -14); (94395000000000000, -12); (13592880000000000, -9); (14578363800000000, -7); (12391609230000000, -5); (86741264610000000, -4); (51301262212200000, -2); (26099517150456752, 0); (11570785936702492, 2); (45126065153139720, 3); (15589004325630084, 5); (47936188301312512, 6); (13164014787360436, 8); (32345864906085645, 9); (71160902793388421, 10); (14009802737448345, 12); (24640770697041499, 13); (38603874092031681, 14); (53639067159454546, 15); (65707857270331817, 16); (70401275646784093, 17); (65281182872472521, 18); (51657283838217391, 19); (34222950542819017, 20); (18480393293122271, 21); (78186279317055763, 21); (24324620231972902, 22); (49517976900801979, 22); (49517976900801979, 22); (0, 0); (0, 0); (0, 0); (0, 0); (0, 0); (0, 0); (0, 0); (0, 0); (0, 0); (0, 0); (0, 0); (0, 0); (0, 0); (0, 0); (0, 0); (0, 0); (0, 0); (0, 0); (0, 0); (0, 0)];
[(10000000000000000, -16); (46500000000000000, -14); (10788000000000000, -11); (16613520000000000, -9); (19064014200000000, -7); (17348252922000000, -5); (13011189691500000, -3); (82528117471800000, -2); (45080984168970752, 0); (21488602453876058, 2); (90252130306279440, 3); (33639430386885974, 5); (11185110603639586, 7); (33297213873911694, 8); (88951128491735526, 9); (21348270838016525, 11); (46032208994473134, 12); (89085863289303885, 13); (15441549636812672, 15); (23893766280120661, 16); (32853928635165913, 17); (39894056199844321, 18); (42432768867107142, 19); (39111943477507451, 20); (30800655488537117, 21); (20328432622434498, 22); (10946079104387807, 23); (46216778440748515, 23); (14360213301232574, 24); (29215606371473171, 24); (29215606371473171, 24); (0, 0); (0, 0); (0, 0); (0, 0); (0, 0); (0, 0); (0, 0); (0, 0); (0, 0); (0, 0); (0, 0); (0, 0); (0, 0); (0, 0); (0, 0); (0, 0); (0, 0); (0, 0); (0, 0)];
[(10000000000000000, -16); (49600000000000000, -14); (12276000000000000, -11); (20173560000000000, -9); (24712611000000000, -7); (24020657892000000, -5); (19256560743420000, -3); (13066951933035000, -1); (76441668808254752, 0); (39070186279774648, 2); (17620654012178366, 4); (70642803812460543, 5); (25313671366131695, 7); (81393189469561908, 8); (23545886953694697, 10); (61376278659297511, 11); (14423425484934914, 13); (30543724556332761, 14); (58202764015678539, 15); (99557359500502762, 16); (15232276003576923, 18); (20744909223919045, 19); (24988186110629760, 20); (26400561847317531, 21); (24200515026707736, 22); (18973203780938864, 23); (12478530179002099, 24); (67014328739085347, 24); (28241752825757396, 25); (87646819114419503, 25); (17821519886598634, 26); (17821519886598634, 26); (0, 0); (0, 0); (0, 0); (0, 0); (0, 0); (0, 0); (0, 0); (0, 0); (0, 0); (0, 0); (0, 0); (0, 0); (0, 0); (0, 0); (0, 0); (0, 0); (0, 0); (0, 0)];
[(10000000000000000, -16); (52800000000000000, -14); (13912800000000000, -11); (24347400000000000, -9); (31773357000000000, -7); (32917197852000000, -5); (28144204163460000, -3); (20384445015534600, -1); (12740278134709125, 1); (69646853803076547, 2); (33639430386885971, 4); (14464955066360969, 6); (55690077005489726, 7); (19277334348054137, 9); (60172822214997554, 10); (16968735864629310, 12); (43270276454804741, 13); (99776166884020347, 14); (20786701434170907, 16); (39057117957889542, 17); (66006529348833326, 18); (99952744442519035, 19); (13493620499740072, 21); (16133676684471823, 22); (16940360518695416, 23); (15449608793050218, 24); (12062579173035363, 25); (79076907912120706, 25); (42362629238636097, 26); (17821519886598633, 27); (55246711648455764, 27); (11227557528557138, 28); (11227557528557138, 28); (0, 0); (0, 0); (0, 0); (0, 0); (0, 0); (0, 0); (0, 0); (0, 0); (0, 0); (0, 0); (0, 0); (0, 0); (0, 0); (0, 0); (0, 0); (0, 0); (0, 0)];
[(10000000000000000, -16); (56100000000000000, -14); (15708000000000000, -11); (29216880000000000, -9); (40538421000000000, -7); (44673339942000000, -5); (40652739347220000, -3); (31360684639284000, -1); (20894056140922966, 1); (12188199415538397, 3); (62891108984178121, 4); (28929910132721939, 6); (11933587929747799, 8); (44337869000524515, 9); (14884856021604660, 11); (45249962305678166, 12); (12472020860502543, 14); (31180052151256360, 15); (70674784876181083, 16); (14506929527216116, 18); (26910354272985894, 19); (44978734999133567, 20); (67468102498700352, 21); (90348589433042215, 22); (10728894995173763, 24); (11200966374961408, 25); (10167031017272664, 26); (79076907912120706, 26); (51682407671136041, 27); (27623355824227882, 28); (11601809446175710, 29); (35928184091382843, 29); (72979123935621403, 29); (72979123935621403, 29); (0, 0); (0, 0); (0, 0); (0, 0); (0, 0); (0, 0); (0, 0); (0, 0); (0, 0); (0, 0); (0, 0); (0, 0); (0, 0); (0, 0); (0, 0); (0, 0)];
[(10000000000000000, -16); (59500000000000000, -14); (17671500000000000, -11); (34871760000000000, -9); (51348666600000000, -7); (60077939922000000, -5); (58075341924600000, -3); (47621780378172000, -1); (33751936843029408, 1); (20963702994726040, 3); (11530036647099323, 5); (56601998085760311, 6); (24952047489472671, 8); (99232373477364390, 9); (35723654451851181, 11); (11669727120938052, 13); (34644502390284845, 14); (93540156453769076, 15); (22969305084758852, 17); (51257817662830279, 18); (10379708076723131, 20); (19029464807325740, 21); (31485114499393499, 22); (46816996342576421, 23); (62227590972007826, 24); (73428557346969232, 25); (76252732629544975, 26); (68909876894848052, 27); (53405154593507234, 28); (34805428338527132, 29); (18562895113881136, 30); (77844398864662830, 30); (24083110898755061, 31); (48896013036866339, 31); (48896013036866339, 31); (0, 0); (0, 0); (0, 0); (0, 0); (0, 0); (0, 0); (0, 0); (0, 0); (0, 0); (0, 0); (0, 0); (0, 0); (0, 0); (0, 0); (0, 0)];
[(10000000000000000, -16); (63000000000000000, -14); (19813500000000000, -11); (41410215000000000, -9); (64599935400000000, -7); (80103919896000000, -5); (82106517893400000, -3); (71432670567258000, -1); (53753084601861645, 1); (35477035837228687, 3); (20754065964778780, 5); (10848716299770726, 7); (50988966608922417, 8); (21650699667788595, 10); (83355193720986085, 11); (29174317802345130, 13); (92993137994975104, 14); (27022711864422177, 16); (71610186440718767, 17); (17299513461205220, 19); (38058929614651479, 20); (76117859229302960, 21); (13805011742041766, 23); (22628214898911938, 24); (33376616975895104, 25); (44057134408181539, 26); (51682407671136041, 27); (53405154593507234, 28); (48064639134156512, 29); (37125790227762272, 30); (24131763648045479, 31); (12844325812669368, 32); (53785614340552972, 32); (16624644432534555, 33); (33738248995437775, 33); (33738248995437775, 33); (0, 0); (0, 0); (0, 0); (0, 0); (0, 0); (0, 0); (0, 0); (0, 0); (0, 0); (0, 0); (0, 0); (0, 0); (0, 0); (0, 0)];
[(10000000000000000, -16); (66600000000000000, -14); (22144500000000000, -11); (48939345000000000, -9); (80749919250000000, -7); (10594389405600000, -4); (11494912505076000, -2); (10591740808248600, 0); (84469132945782579, 1); (59128393062047810, 3); (36718732091531691, 5); (20395586643568966, 7); (10197793321784483, 9); (46125403640071350, 10); (18944362209315020, 12); (70851914662838170, 13); (24178215878693527, 15); (75379143621809230, 16); (21483055932215630, 18); (55969014139193357, 19); (13320625365128018, 21); (28924786507135127, 22); (57192191502744452, 23); (10269728300275418, 25); (16688308487947554, 26); (24431683626355217, 27); (32043092756104344, 28); (37383608215455063, 29); (38451711307325209, 30); (34473948068636396, 31); (26544940012850026, 32); (17211396588976951, 33); (91435544378940057, 33); (38236682194829480, 34); (11808387148403220, 35); (23954156786760820, 35); (23954156786760820, 35); (0, 0); (0, 0); (0, 0); (0, 0); (0, 0); (0, 0); (0, 0); (0, 0); (0, 0); (0, 0); (0, 0); (0, 0); (0, 0)];
[(10000000000000000, -16); (70300000000000000, -14); (24675300000000000, -11); (57575700000000000, -9); (10032565725000000, -6); (13905136094850000, -4); (15944556055428000, -2); (15534553185431280, 0); (13107279250207642, 2); (97139502887649968, 3); (63917792900073684, 5); (37653390726588858, 7); (19987674910697586, 9); (96094590916815319, 10); (42007064029350700, 12); (16746816193034478, 14); (61021211503369381, 15); (20352368777888494, 17); (62187793487992616, 18); (17412582176637932, 20); (44663273283076299, 21); (10485235108836483, 23); (22495595324412818, 24); (44013121286894641, 25); (78306678289600057, 26); (12623036540283529, 28); (18351953123950669, 29); (23925509257891243, 30); (27770680388623764, 31); (28441007156625026, 32); (25407299726585025, 33); (19506249467507211, 34); (12618105124293728, 35); (66914193840951586, 35); (27946516251220958, 36); (86234964432338948, 36); (17486534454335398, 37); (17486534454335398, 37); (0, 0); (0, 0); (0, 0); (0, 0); (0, 0); (0, 0); (0, 0); (0, 0); (0, 0); (0, 0); (0, 0); (0, 0)];
[(10000000000000000, -16); (74100000000000000, -14); (27417000000000000, -11); (67445820000000000, -9); (12393169425000000, -6); (18118813699350000, -4); (21923764576213500, -2); (22550157849819600, 0); (20097828183651720, 2); (15743298743860514, 4); (10957335925726917, 6); (68333931318624231, 7); (38437836366726128, 9); (19603296547030326, 11); (91015305396926512, 12); (38590489488296838, 14); (14977933732645212, 16); (53303822989707952, 17); (17412582176637933, 19); (52237746529913798, 20); (14391499168991251, 22); (36389933613020737, 23); (84358482466548073, 24); (17898669323337157, 26); (34678671813965737, 27); (61173177079835560, 28); (97877083327736896, 29); (14137800925117553, 31); (18328649056491685, 32); (21172749772154188, 33); (21596204767597270, 34); (19227588760828539, 35); (14721122645009349, 36); (95018155254151250, 36); (50303729252197726, 37); (20983841345202479, 38); (64700177481040970, 38); (13114900840751548, 39); (13114900840751548, 39); (0, 0); (0, 0); (0, 0); (0, 0); (0, 0); (0, 0); (0, 0); (0, 0); (0, 0); (0, 0); (0, 0)];
[(10000000000000000, -16); (78000000000000000, -14); (30381000000000000, -11); (78686790000000000, -9); (15225893865000000, -6); (23447876552100000, -4); (29896042603927500, -2); (32415851909115676, 0); (30470900794568735, 2); (25189277990176820, 4); (18514119322779964, 6); (12202487735468612, 8); (72604802026038244, 9); (39206593094060651, 11); (19295244744148420, 13); (86828601348667891, 14); (35816798056325503, 16); (13568245851925663, 18); (47262723050874392, 19); (15148946493675002, 21); (44689392156341257, 22); (12129977871006912, 24); (30269808414467250, 25); (69357343627931483, 26); (14565042161865610, 28); (27964880950781971, 29); (48938541663868447, 30); (77757905088146541, 31); (11163813516226753, 33); (14397469845064846, 34); (16557090321824573, 35); (16824140165724971, 36); (14931424397080912, 37); (11402178630498150, 38); (73443444708208672, 38); (38820106488624587, 39); (16175044370260244, 40); (49836623194855884, 40); (10098473647378693, 41); (10098473647378693, 41); (0, 0); (0, 0); (0, 0); (0, 0); (0, 0); (0, 0); (0, 0); (0, 0); (0, 0); (0, 0)];
[(10000000000000000, -16); (82000000000000000, -14); (33579000000000000, -11); (91446810000000000, -9); (18609425835000000, -6); (30147269852700000, -4); (40447587052372500, -2); (46168031506922328, 0); (45706351191853102, 2); (39815310371569815, 4); (30856865537966605, 6); (21459547396858593, 8); (13483748947692816, 10); (76961090147600541, 11); (40074739084000568, 13); (19102292296706936, 15); (83572528798092841, 16); (33625652763467943, 18); (12460172440685066, 20); (42561325863182151, 21); (13406817646902376, 23); (38943613164811663, 24); (10426267342760942, 26); (25703015579762841, 27); (58260168647462440, 28); (12118115078672187, 30); (23071026784395125, 31); (40075228006967830, 32); (63261609925284934, 33); (90311401755406768, 34); (11589963225277201, 36); (13272377241849699, 37); (13438281957372820, 38); (11890843428948071, 39); (90580248473457363, 39); (58230159732936878, 40); (30732584303494464, 41); (12791399953346345, 42); (39384047224776901, 42); (79777941814291672, 42); (79777941814291672, 42); (0, 0); (0, 0); (0, 0); (0, 0); (0, 0); (0, 0); (0, 0); (0, 0); (0, 0)];
[(10000000000000000, -16); (86100000000000000, -14); (37023000000000000, -11); (10588578000000000, -8); (22633085475000000, -6); (38521511478450000, -4); (54315331184614500, -2); (65178397421537400, 0); (67867006315175813, 2); (62211422455577838, 4); (50764520723751509, 6); (37196548821221565, 8); (24642713594059285, 10); (14842495957037247, 12); (81633727763704851, 13); (41143398792907248, 15); (19054536565965168, 17); (81261994178380867, 18); (31963051043496476, 20); (11607634326322404, 22); (38943613164811664, 23); (12072520081091615, 25); (34571307504944172, 26); (91388499839156768, 27); (22275946835794461, 29); (49987224699522775, 30); (10305058630363156, 32); (19465110746241519, 33); (33577316037266620, 34); (52681651023987281, 35); (74807944454061944, 36); (95561116141317828, 37); (10899939809869065, 39); (10999030171776966, 40); (97050266221561463, 40); (73758202328386708, 41); (47328179827381474, 42); (24943229909025372, 43); (10371132435857918, 44); (31911176725716667, 44); (64620132869576254, 44); (64620132869576254, 44); (0, 0); (0, 0); (0, 0); (0, 0); (0, 0); (0, 0); (0, 0); (0, 0)];
[(10000000000000000, -16); (90300000000000000, -14); (40725300000000000, -11); (12217590000000000, -8); (27397945575000000, -6); (48932730796950000, -4); (72420441579486000, -2); (91249756390152352, 0); (99804421051729142, 2); (96144925613165747, 4); (82492346176096214, 6); (63594099597572353, 8); (44356884469306716, 10); (28149561297829258, 12); (16326745552740970, 14); (86858286340581957, 15); (42506273877922301, 17); (19177830626097884, 19); (79907627608741190, 20); (30785464952420287, 22); (10975018255537833, 24); (36217560243274846, 25); (11062818401582135, 27); (31264486787079947, 28); (81678471731246364, 29); (19700847381576624, 31); (43796499179043412, 32); (89539509432710981, 33); (16788658018633310, 35); (28772286328485359, 36); (44884766672437164, 37); (63417831621056375, 38); (80659554593031079, 39); (91658584764808051, 40); (92197752910483396, 41); (81134022561225381, 42); (61526633775595913, 43); (39410303256260089, 44); (20742264871715836, 45); (86160177159435002, 45); (26494254476526262, 46); (53634710281748292, 46); (53634710281748292, 46); (0, 0); (0, 0); (0, 0); (0, 0); (0, 0); (0, 0); (0, 0)];
[(10000000000000000, -16); (94600000000000000, -14); (44698500000000000, -11); (14050228500000000, -8); (33018036975000000, -6); (61809765217200000, -4); (95908152362022000, -2); (12673577276410050, 1); (14542929924680532, 3); (14704518034954760, 5); (13248770749494239, 7); (10731504307090333, 9); (78697698251995782, 10); (52545847755947955, 12); (32090499879525356, 14); (17992073599120551, 16); (92884079955459836, 17); (44256532214072039, 19); (19497461136532850, 21); (79529117793752411, 22); (30062006526038411, 24); (10536017525316319, 26); (34242056957278036, 27); (10317280639736383, 29); (28802408452597401, 30); (74425423441511693, 31); (17776226137376445, 33); (39173535376811057, 34); (79466314621530998, 35); (14797175826078185, 37); (25204522823753176, 38); (39107662832984770, 39); (54995150858884829, 40); (69660524421254113, 41); (78880299712302451, 42); (79105671997194750, 43); (69437200975315386, 44); (52547071008346777, 45); (33602469092179653, 46); (17662836317684177, 47); (73300770718389326, 47); (22526578318334282, 48); (45589503739486049, 48); (45589503739486049, 48); (0, 0); (0, 0); (0, 0); (0, 0); (0, 0); (0, 0)];
[(10000000000000000, -16); (99000000000000000, -14); (48955500000000000, -11); (16106359500000000, -8); (39621644370000000, -6); (77658422965200000, -4); (12619493731845000, -1); (17468984894511149, 1); (21006454335649657, 3); (22266841595788638, 5); (21042165308020262, 7); (17885840511817223, 9); (13772097194099262, 11); (96616558777065585, 12); (62041633100415692, 14); (36604563529245253, 16); (19903731419027108, 18); (99986980187347942, 19); (46493945787116795, 21); (20041337684025609, 23); (80165350736102435, 24); (29775701701980905, 26); (10272617087183411, 28); (32917038231539888, 29); (97928188738831166, 30); (27028180091917401, 32); (69129768312019513, 33); (16360711833844617, 35); (35759841579688950, 36); (72012922353580503, 37); (13322390635412394, 39); (22562113172875826, 40); (34830262210627056, 41); (48762367094877882, 42); (61526633775595913, 43); (69437200975315386, 44); (69437200975315394, 45); (60804467881086989, 46); (45923374425978860, 47); (29320308287355731, 48); (15393161850861759, 49); (63825305235280469, 49); (19603486607978999, 50); (39662868253352865, 50); (39662868253352865, 50); (0, 0); (0, 0); (0, 0); (0, 0); (0, 0)];
[(10000000000000000, -16); (10350000000000000, -13); (53509500000000000, -11); (18407268000000000, -8); (47352696930000000, -6); (97073028706500000, -4); (16502414880105000, -1); (23904926697752099, 1); (30090326480795455, 3); (33400262393682954, 5); (33066259769746125, 7); (29459031431228367, 9); (23788167880716906, 11); (17511751278343138, 13); (11807923719111372, 15); (73209127058490507, 16); (41866469536574267, 18); (22139974184341332, 20); (10848587350327252, 22); (49332523529909190, 23); (20842991191386631, 25); (81883179680447479, 26); (29924580210490806, 28); (10174357271566874, 30); (32176404871330240, 31); (94598630321710909, 32); (25832702895544132, 34); (65442847335378469, 35); (15355696678337018, 37); (33305976588530985, 38); (66611953177061970, 39); (12248004293846877, 41); (20630232232448336, 42); (31695538611670622, 43); (44187309711564336, 44); (55549760780252308, 45); (62493480877783854, 46); (62324579578114167, 47); (54452001105089213, 48); (41048431602298024, 49); (26168375146464991, 50); (13722440625585301, 51); (56850111163139101, 51); (17451662031475260, 52); (35299952745484048, 52); (35299952745484048, 52); (0, 0); (0, 0); (0, 0); (0, 0)];
[(10000000000000000, -16); (10810000000000000, -13); (58374000000000000, -11); (20975724000000000, -8); (56372258250000000, -6); (12074937717150000, -3); (21453139344136500, -1); (32486182435406701, 1); (42759937630604067, 3); (49649038693312506, 5); (51436404086271749, 7); (47976136902286196, 9); (40579815796517076, 11); (31308888649158942, 13); (22139856973333827, 15); (14405666937315875, 17); (86524037042253478, 18); (48097185297017371, 20); (24796771086462288, 22); (11876348257200359, 24); (52909131485827601, 25); (21944692154359926, 27); (84786310596390627, 28); (30523071814700622, 30); (10237947004514167, 32); (31983346442102258, 33); (92997730423958877, 34); (25143830818329623, 36); (63128975233163300, 37); (14693813200822492, 39); (31640677759104434, 40); (62873088708413973, 41); (11493986529506929, 43); (19261135002476763, 44); (29458206474376228, 45); (40904823847276701, 46); (51244654319782758, 47); (57477112277594171, 48); (57174601160343675, 49); (49844524088504742, 50); (37508004376599823, 51); (23877046688518421, 52); (12507024455890602, 53); (51773264026709932, 53); (15884978735467820, 54); (32122956998390481, 54); (32122956998390481, 54); (0, 0); (0, 0); (0, 0)];
[(10000000000000000, -16); (11280000000000000, -13); (63562800000000000, -11); (23836050000000000, -8); (66860120250000000, -6); (14949922887900000, -3); (27732106957054500, -1); (43856346287799046, 1); (60302476145723687, 3); (73167004390144743, 5); (79239865754526747, 7); (77294887231461096, 9); (68405975199843072, 11); (55250979969104019, 13); (40925190162829194, 15); (27910979691049507, 17); (17583917205361192, 19); (10260732863363706, 21); (55578969676553410, 22); (27994249463400848, 24); (13129302998334999, 26); (57393810249864419, 27); (23401021724603811, 29); (89025626126210148, 30); (31604097274804605, 32); (10467277017415285, 34); (32327782480709515, 35); (93032174027819598, 36); (24919332328880251, 38); (62040544625694973, 39); (14331365808535538, 41); (30650630745351811, 42); (60534995722069831, 43); (11006362858558150, 45); (18354728649419034, 46); (27951629628972415, 47); (38666420986745172, 48); (48280774313179104, 49); (53998234429213471, 50); (53582863395142599, 51); (46617091153774061, 52); (35019668476493689, 53); (22262503531485273, 54); (11648984406009735, 55); (48184435497585726, 55); (14776560219259621, 56); (29874350008503150, 56); (29874350008503150, 56); (0, 0); (0, 0)];
[(10000000000000000, -16); (11760000000000000, -13); (69090000000000000, -11); (27014190000000000, -8); (79016505750000000, -6); (18426649140900000, -3); (35655566087641500, -1); (58831684044608474, 1); (84423466604013158, 3); (10693639103175000, 6); (12094505825690927, 8); (12325400936908661, 10); (11400995866640512, 12); (96294565089009858, 13); (74628287943982639, 15); (53284597592003606, 17); (35167834410722384, 19); (21514439874794866, 21); (12227373328841749, 23); (64676369449926094, 24); (31885450138813566, 26); (14667307063854240, 28); (63002750797010264, 29); (25283277819843683, 31); (94812291824413815, 32); (33222227055274598, 34); (10873890470784109, 36); (33225776438506998, 37); (94693462849744954, 38); (25142747032518486, 40); (62102585170320663, 41); (14243528405192900, 43); (30267497861034914, 44); (59434359436214007, 45); (10750626780374005, 47); (17846040455420849, 48); (27066494690721621, 49); (37307871060183856, 50); (46438481609123586, 51); (51796767948637847, 52); (51278800269151473, 53); (44525007062970545, 54); (33393755297227907, 55); (21201151618937719, 56); (11082420164444717, 57); (45807336679704831, 57); (14040944503996481, 58); (28380632508077990, 58); (28380632508077990, 58); (0, 0)];
[(10000000000000000, -16); (12250000000000000, -13); (74970000000000000, -11); (30537780000000000, -8); (93063884550000000, -6); (22614523945650000, -3); (45605956623727500, -1); (78442245392811302, 1); (11736920966899391, 4); (15505776699603750, 6); (18296816505532427, 8); (19461159374066307, 10); (18796236428785709, 12); (16584063987551699, 14); (13433091829916875, 16); (10030041899671267, 18); (69269976869604691, 19); (44373532241764414, 21); (26426903646206363, 23); (14659977075316582, 25); (75865381364763308, 26); (36668267659635603, 28); (16567390024398995, 30); (70015230885720968, 31); (27685189212728831, 33); (10243520008709669, 35); (35458338491687312, 36); (11477995496938781, 38); (34720936378239817, 39); (98056713426822102, 40); (25821601202396487, 42); (63304570689746226, 43); (14421572510257811, 45); (30460109211059682, 46); (59486801518069496, 47); (10707624273252509, 49); (17697323451625674, 50); (26737307593131764, 51); (36728617272670476, 52); (45581155794801306, 53); (50709035821716453, 54); (50090632945841862, 55); (43411881886396280, 56); (32508432482371166, 57); (20613301505867174, 58); (10764724119730636, 59); (44462990929322190, 59); (13622703603877436, 60); (27529213532835652, 60); (27529213532835652, 60)]
].
