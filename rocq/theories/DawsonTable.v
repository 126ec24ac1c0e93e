(** * Chebyshev coefficients of Dawson's integral, transcribed mechanically from
      libgrpp/specfunc_dawson.c (the decimal literals; (m, e) stands for m 10^(-e)).

    In the last table (line 440) the comma between the last two literals is
    missing in the source, so C adds them: the list ends with their sum. *)

From Coq Require Import List ZArith.
Import ListNotations.
Open Scope Z_scope.

(** specfunc_dawson.c from line 187 *)
Definition daw_1_175 : list (Z * Z) := [
  (4563960711239483142081, 22);
  (-9268566100670767619861, 23);
  (-7334392170021420220239, 24);
  (3379523740404396755124, 24);
  (-3085898448678595090813, 25);
  (-1519846724619319512311, 26);
  (4903955822454009397182, 27);
  (-2106910538629224721838, 28);
  (-2930676220603996192089, 29);
  (3326790071774057337673, 30);
  (3335593457695769191326, 32);
  (-2279104036721012221982, 32);
  (7877561633156348806091, 34);
  (9173158167107974472228, 35);
  (-7341175636102869400671, 36);
  (-1763370444125849029511, 37);
  (3792946298506435014290, 38);
  (-4251969162435936250171, 40);
  (-1358295820818448686821, 40);
  (5268740962820224108235, 42);
  (3414939674304748094484, 43)
].

(** specfunc_dawson.c from line 235 *)
Definition daw_175_250 : list (Z * Z) := [
  (2843711194548592808550, 22);
  (-6791774139166808940530, 23);
  (6955211059379384327814, 24);
  (-2726366582146839486784, 25);
  (-6516682485087925163874, 26);
  (1404387911504935155228, 26);
  (-1103288540946056915318, 27);
  (-1422154597293404846081, 29);
  (1102714664312839585330, 29);
  (-8659211557383544255053, 31);
  (-8048589443963965285748, 33);
  (6092061709996351761426, 33);
  (-3580977611213519234324, 34);
  (-1085173558590137965737, 35);
  (2411707924175380740802, 36);
  (-7760751294610276598631, 38);
  (-6701490147030045891595, 39);
  (6350145841254563572100, 40);
  (-2034625734538917052251, 42);
  (-2260543651146274653910, 42);
  (9782419961387425633151, 44)
].

(** specfunc_dawson.c from line 283 *)
Definition daw_250_325 : list (Z * Z) := [
  (1901351274204578126827, 22);
  (-3000575522193632460118, 23);
  (2672138524890489432579, 24);
  (-2498237548675235150519, 25);
  (2013483163459701593271, 26);
  (-8454663603108548182962, 28);
  (-8036589636334016432368, 29);
  (2055498509671357933537, 29);
  (-2052151324060186596995, 30);
  (8584315967075483822464, 32);
  (5062689357469596748991, 33);
  (-1038671167196342609090, 33);
  (6367962851860231236238, 35);
  (3084688422647419767229, 37);
  (-3417946142546575188490, 37);
  (2311567730100119302160, 38);
  (-6170132546983726244716, 41);
  (-9133176920944950460847, 41);
  (5712092431423316128728, 42);
  (1269641078369737220790, 44);
  (-2072659711527711312699, 44)
].

(** specfunc_dawson.c from line 331 *)
Definition daw_325_425 : list (Z * Z) := [
  (1402884974484995678749, 22);
  (-2053975371995937033959, 23);
  (1595388628922920119352, 24);
  (-1336894584910985998203, 25);
  (1224903774178156286300, 26);
  (-1206856028658387948773, 27);
  (1187997233269528945503, 28);
  (-1012936061496824448259, 29);
  (5244408240062370605664, 31);
  (2901444759022254846562, 32);
  (-1168987502493903926906, 32);
  (1640096995420504465839, 33);
  (-1339190668554209618318, 34);
  (3643815972666851044790, 36);
  (6922486581126169160232, 37);
  (-1158761251467106749752, 37);
  (8164320395639210093180, 39);
  (-5397918405779863087588, 41);
  (-5052069908100339242896, 41);
  (5322512674746973445361, 42);
  (-1869294542789169825747, 43)
].

(** specfunc_dawson.c from line 381 *)
Definition daw_425_550 : list (Z * Z) := [
  (1058610209741581514157, 22);
  (-1429297757627935191694, 23);
  (9911301703835545472874, 25);
  (-7079903107876049846509, 26);
  (5229587914675267516134, 27);
  (-4016071345964089296212, 28);
  (3231734714422926453741, 29);
  (-2752870944370338482109, 30);
  (2503059741885009530630, 31);
  (-2418699000594890423278, 32);
  (2410158905786160001792, 33);
  (-2327254341132174000949, 34);
  (1958284411563056492727, 35);
  (-1099893145048991004460, 36);
  (-2959085292526991317697, 38);
  (1966366179276295203082, 38);
  (-3314408783993662492621, 39);
  (3635520318133814622089, 40);
  (-2550826919215104648800, 41);
  (3830090587178262542288, 43);
  (1836693763159216122739, 43)
].

(** specfunc_dawson.c from line 429 *)
Definition daw_550_725 : list (Z * Z) := [
  (8024637207807814739314, 23);
  (-1136614891549306029413, 23);
  (8164249750628661856014, 25);
  (-5951964778701328943018, 26);
  (4407349502747483429390, 27);
  (-3317746826184531133862, 28);
  (2541483569880571680365, 29);
  (-1983391157250772649001, 30);
  (1579050614491277335581, 31);
  (-1284592098551537518322, 32);
  (1070070857004674207604, 33);
  (-9151832297362522251950, 35);
  (8065447314948125338081, 36);
  (-7360105847607056315915, 37);
  (6995966000187407197283, 38);
  (-6964349343411584120055, 39);
  (7268789359189778223225, 40);
  (-7885125241947769024019, 41);
  (8689022564130615225208, 42);
  (-93532113043812315546340 + 9218280404899298404756, 44)
].
