(** * Rows 0 to 399 of bessel_table_0, transcribed mechanically from
      libgrpp/specfunc_bessel_table.c 28-7227.  [m E e, ...] is the literal
      m 10^(-e); every decimal literal of the source is represented exactly. *)

From Coq Require Import List ZArith.
From Verif Require Import BesselRow.
Import ListNotations.
Open Scope Z_scope.

Local Notation "m 'E' e , r" := (bcons m e r) (at level 60, e at level 0, right associativity).

Definition r0 := 10000000000000000 E 16, 0 E 16, 0 E 16, 0 E 16, 0 E 16, 0 E 16, 0 E 16, 0 E 16, 0 E 16, 0 E 16, 0 E 16, 0 E 16, 0 E 16, 0 E 16, 0 E 16, 0 E 16, 0 E 16, 0 E 16, 0 E 16, 0 E 16, 0 E 16, 0 E 16, 0 E 16, 0 E 16, 0 E 16, 0 E 16, 0 E 16, 0 E 16, 0 E 16, 0 E 16, 0 E 16, 0 E 16, 0 E 16, 0 E 16, 0 E 16, 0 E 16, 0 E 16, 0 E 16, 0 E 16, 0 E 16, 0 E 16, 0 E 16, 0 E 16, 0 E 16, 0 E 16, 0 E 16, 0 E 16, 0 E 16, 0 E 16, 0 E 16, 0 E 16, 0 E 16, 0 E 16, 0 E 16, 0 E 16, 0 E 16, 0 E 16, 0 E 16, 0 E 16, 0 E 16, bnil.
Definition r1 := 99006633466223481 E 17, 33001991142762154 E 19, 66003793703555928 E 22, 94290984194145026 E 25, 10476765438987720 E 27, 95243255568974565 E 31, 73264005174095088 E 34, 48842650962088553 E 37, 28730962259137219 E 40, 15121555293893733 E 43, 72007391253038690 E 47, 31307555969573125 E 50, 12523020532567190 E 53, 46381551604457471 E 57, 15993636705248390 E 60, 51592371425301078 E 64, 15634050593463575 E 67, 44668712532003322 E 71, 12072624172015911 E 74, 30955444658987465 E 78, 75501080251581624 E 82, 17558389848771481 E 85, 39018642263528107 E 89, 83018384189947754 E 93, 16942526707731389 E 96, 33220639374366463 E 100, 62680449499475386 E 104, 11396445000018026 E 107, 19993762563404746 E 111, 33887732216725705 E 115, 55553657926101031 E 119, 88180407253141914 E 123, 13566216188974393 E 126, 20248083426155096 E 130, 29345047844702280 E 134, 41331052504962683 E 138, 56617879109667951 E 142, 75490504172362421 E 146, 98039614196564509 E 150, 12410077552462807 E 153, 15321083170211665 E 157, 18459136088006464 E 161, 21716630398105910 E 165, 24961643813377019 E 169, 28046790455247789 E 173, 30820648487739525 E 177, 33140481869776730 E 181, 34884717379095233 E 185, 35963625789511644 E 189, 36326894373575173 E 193, 35967221806315691 E 197, 34919632498784245 E 201, 33256792559974382 E 205, 31081114275538817 E 209, 28514783503347609 E 213, 25688993942352603 E 217, 22733622782892846 E 221, 19768367490376034 E 225, 16896040468711550 E 229, 14198353236445199 E 233, bnil.
Definition r2 := 98026402119191980 E 17, 65349192120920342 E 19, 26139378114514981 E 21, 74683463291239302 E 24, 16596258120430172 E 26, 30174930359192023 E 29, 46422874557112374 E 32, 61897068982828512 E 35, 72819990976803858 E 38, 76652545236252930 E 41, 73002363577124669 E 44, 63480271993858416 E 47, 50784187500768791 E 50, 37617897449927985 E 53, 25943366008468304 E 56, 16737648944801392 E 59, 10144026150434430 E 62, 57965845812264793 E 66, 31332880942770130 E 69, 16068140053669136 E 72, 78381153209926115 E 76, 36456342794004704 E 79, 16202815955195835 E 82, 68948141025474222 E 86, 28142093873208423 E 89, 11036113611230518 E 92, 41645706025816600 E 96, 15143891168062257 E 99, 53136453918690309 E 103, 18012355258644294 E 106, 59056896340401190 E 110, 18748219229117100 E 113, 57686823098838570 E 117, 17219945703746373 E 120, 49912882022463225 E 124, 14059965681807926 E 127, 38520451108482062 E 131, 10272119584106466 E 134, 26680828334136360 E 138, 67546396623605567 E 142, 16678121630810196 E 145, 40188242614950715 E 149, 94560565743869917 E 153, 21738059967566172 E 156, 48849570548200639 E 160, 10736168843812581 E 163, 23088534102662785 E 167, 48607438106205512 E 171, 10022151769387311 E 174, 20246770441335717 E 178, 40092613193739400 E 182, 77849731477451354 E 186, 14828519753479146 E 189, 27716858401706444 E 193, 50856619239212842 E 197, 91633545256540994 E 201, 16218326094860635 E 204, 28205783674279130 E 208, 48215013442637271 E 212, 81033633786955318 E 216, bnil.
Definition r3 := 97059110692918804 E 17, 97053287645393459 E 19, 58230475253548412 E 21, 24955561461026515 E 23, 83184448652587331 E 26, 22686525032675604 E 28, 52353277676514950 E 31, 10470618580281558 E 33, 18477510715289030 E 36, 29174951110839635 E 39, 41678423925375806 E 42, 54363076551875130 E 45, 65235604881543650 E 48, 72483922109167779 E 51, 74983292632505041 E 54, 72564412901524233 E 57, 65967596689008325 E 60, 56543615008167964 E 63, 45846145736693410 E 66, 35266246101643280 E 69, 25804557145223599 E 72, 18003171030080002 E 75, 12002108912774947 E 78, 76609175887780395 E 82, 46903560182118396 E 85, 27590320332329858 E 88, 15617157630499631 E 91, 85184471711495908 E 95, 44833920481364686 E 98, 22796903018530006 E 101, 11211589022793075 E 104, 53388507422422020 E 108, 24640844487327797 E 111, 11033211801617938 E 114, 47970477281290061 E 118, 20269212233018962 E 121, 83298118771622087 E 125, 33319242316040424 E 128, 12981521059616720 E 131, 49296908482805842 E 135, 18258111808699695 E 138, 65993166793479732 E 142, 23291703092420782 E 145, 80316208224597119 E 149, 27072876168362035 E 152, 89251230624034214 E 156, 28790716623299953 E 159, 90918043614953527 E 163, 28118979925995251 E 166, 85209022409195154 E 170, 25309608426969849 E 173, 73717299963382864 E 177, 21062084016607461 E 180, 59052567452264158 E 184, 16252999007218920 E 187, 43927021191932182 E 191, 11662040216724159 E 194, 30422711573881772 E 198, 78006947711077430 E 202, 19665615840833244 E 205, bnil.
Definition r4 := 96104567016705256 E 17, 12812575656629447 E 18, 10249591984426384 E 20, 58567609646547569 E 23, 26029628055648290 E 25, 94652133893464874 E 28, 29123494545174333 E 30, 77662164830864074 E 33, 18273360030609481 E 35, 38470077377924959 E 38, 73276095126842598 E 41, 12743633257251100 E 43, 20389764880405993 E 46, 30206997356527704 E 49, 41664749787095626 E 52, 53760883383843577 E 55, 65164616860712406 E 58, 74473755827009384 E 61, 80512079189838460 E 64, 82576408848780988 E 67, 80562276982624313 E 70, 74941591039932181 E 73, 66614697196988723 E 76, 56693319929155044 E 79, 46280231535474066 E 82, 36298199325977791 E 85, 27394852379214306 E 88, 19923518834766716 E 91, 13981410074279890 E 94, 94789178702363596 E 98, 62156812614908877 E 101, 39464627510471860 E 104, 24285915699337064 E 107, 14499049130802351 E 110, 84052431278003333 E 114, 47353467792059321 E 117, 25947098056773050 E 120, 13838448462917629 E 123, 71888025054641752 E 127, 36398990926499080 E 130, 17974806056268598 E 133, 86625551709749098 E 137, 40764956690467828 E 140, 18742504950285866 E 143, 84235960663402125 E 147, 37026788895782150 E 150, 15925497716262627 E 153, 67054715583663884 E 157, 27651424499535252 E 160, 11172290939339894 E 163, 44246689984245918 E 167, 17183178034281267 E 170, 65459716522626272 E 174, 24470918707466831 E 177, 89801524665601035 E 181, 32360905661410673 E 184, 11455186434335737 E 187, 39844121990065016 E 191, 13621920482485039 E 194, 45787962920448848 E 198, bnil.
Definition r5 := 95162581964040427 E 17, 15857787551510367 E 18, 15856654978239885 E 20, 11325732704825561 E 22, 62919148409423396 E 25, 28599112935292309 E 27, 10999517803189779 E 29, 36664699888906015 E 32, 10783651797168716 E 34, 28377853240003136 E 37, 67565967519294437 E 40, 14688189947083376 E 42, 29376271093510087 E 45, 54400328333521053 E 48, 93793408714136675 E 51, 15127932177990197 E 53, 22921059748003539 E 56, 32744307855736487 E 59, 44248988008585650 E 62, 56729383110909256 E 65, 69182076422851568 E 68, 80444170977377912 E 71, 89382306544356681 E 74, 95087456932379207 E 77, 97027920211280866 E 80, 95125323990672690 E 83, 89740794724714207 E 86, 81582475601083940 E 89, 71563521889538267 E 92, 60647010321107144 E 95, 49710631859220322 E 98, 39452858341972352 E 101, 30348335149210226 E 104, 22647999057929159 E 107, 16411585145275663 E 110, 11557448752970771 E 113, 79160571750695859 E 117, 52773691654719352 E 120, 34268616860863517 E 123, 21688989539622363 E 126, 13388260169387809 E 129, 80652141115336309 E 133, 47442419911521471 E 136, 27265749766488095 E 139, 15317832219156878 E 142, 84163888429768812 E 146, 45249389577584454 E 149, 23815461737671800 E 152, 12276008009107895 E 155, 62000024948487212 E 159, 30693074281653478 E 162, 14899547177976990 E 165, 70950208869273233 E 169, 33154296103216652 E 172, 15208389565409223 E 175, 68506245649369374 E 179, 30312492243374928 E 182, 13179342004860221 E 185, 56321964266630554 E 189, 23664686759594969 E 192, bnil.
Definition r6 := 94232969402368749 E 17, 18842072248189783 E 18, 22608161419807043 E 20, 19377316839134449 E 22, 12917741501860034 E 24, 70458634440905433 E 27, 32518769403919543 E 29, 13007324130803193 E 31, 45907691154546768 E 34, 14497034828412264 E 36, 41419790792744551 E 39, 10805095166567892 E 41, 25932090095918306 E 44, 57626601930985514 E 47, 11922697483429816 E 49, 23076107471615908 E 52, 41956428266382274 E 55, 71925105653771626 E 58, 11663501548490313 E 60, 17943808137403869 E 63, 26259177800134872 E 66, 36640645040964584 E 69, 48854110232150469 E 72, 62366851742153510 E 75, 76367463548814376 E 78, 89843955104473075 E 81, 10171001224327187 E 83, 11095624957892151 E 86, 11679592716160126 E 89, 11877540033909976 E 92, 11682815318782599 E 95, 11126480998279274 E 98, 10270589354532678 E 101, 91975355432969170 E 105, 79978511170036445 E 108, 67587427283461592 E 111, 55551273569153735 E 114, 44440991151864405 E 117, 34629323260618724 E 120, 26300737047039269 E 123, 19482017010119012 E 126, 14083378604035254 E 129, 99412035868489165 E 133, 68559992860889514 E 136, 46220199361379159 E 139, 30474843758372074 E 142, 19661181510186200 E 145, 12417583471079751 E 148, 76809765871819190 E 152, 46551356495489437 E 155, 27654261615573963 E 158, 16109273248705589 E 161, 92052960496336726 E 165, 51618466588323534 E 168, 28413826364863994 E 171, 15358820653913648 E 174, 81551237517173091 E 178, 42548460363889828 E 181, 21819717621720148 E 184, 11001535546091389 E 187, bnil.
Definition r7 := 93315546143710126 E 17, 21766518032880312 E 18, 30468859937371023 E 20, 30466490438722194 E 22, 23694986488141614 E 24, 15078111115614538 E 26, 81187789019862511 E 29, 37886906864063642 E 31, 15600254404373421 E 33, 57473915676940105 E 36, 19157777539704677 E 38, 58305782605604075 E 41, 16325500619269250 E 43, 42325107107563382 E 46, 10216349479942802 E 48, 23069065748509543 E 51, 48934174292036016 E 54, 97867978274060378 E 57, 18515500584299139 E 59, 33232847927727501 E 62, 56738850960178145 E 65, 92365337434344299 E 68, 14367908091394536 E 70, 21398966521386406 E 73, 30569892232552654 E 76, 41958599550861321 E 79, 55416925121203238 E 82, 70530521733508126 E 85, 86616303996454643 E 88, 10276496652324742 E 90, 11792686040244508 E 93, 13102968810412102 E 96, 14110873611395034 E 99, 14742688147077298 E 102, 14956335334762264 E 105, 14745668783894045 E 108, 14139669740843965 E 111, 13197013893997060 E 114, 11997275694097961 E 117, 10630489310232185 E 120, 91868359180402026 E 124, 77479285255158896 E 127, 63806427931388605 E 130, 51338472743663547 E 133, 40378549638518094 E 136, 31060404815178273 E 139, 23378786357096007 E 142, 17226464997834663 E 145, 12431463242825606 E 148, 87899191975390780 E 152, 60920203367654156 E 155, 41402061200392669 E 158, 27601362095622938 E 161, 18056958270645908 E 164, 11596207037071368 E 167, 73129204998754387 E 171, 45301260351202578 E 174, 27574670171721517 E 177, 16497660108592490 E 180, 97045026437760312 E 184, bnil.
Definition r8 := 92410131896117920 E 17, 24632194024081684 E 18, 39404305811605012 E 20, 45028918285502243 E 22, 40023117905380621 E 24, 29106419490827472 E 26, 17911054928331457 E 28, 95523228886191661 E 31, 44951217051165378 E 33, 18926524652739346 E 35, 72100090943259357 E 38, 25078013375457411 E 40, 80248881929394927 E 43, 23777252151071744 E 45, 65591952779517643 E 48, 16926849660366673 E 50, 41034559678911353 E 53, 93792815736076609 E 56, 20279437783626865 E 58, 41598680237466589 E 61, 81167861908273921 E 64, 15100947618194468 E 66, 26846047862970395 E 69, 45695273631715870 E 72, 74604337315235099 E 75, 11702613438808036 E 77, 17664283389218673 E 80, 25693450659351149 E 83, 36060914755484219 E 86, 48896068650304189 E 89, 64125884879654224 E 92, 81429567820692012 E 95, 10022085926665853 E 97, 11966653196780248 E 100, 13874362392713241 E 103, 15633065082374254 E 106, 17132106091121096 E 109, 18274226245260798 E 112, 18986189110399380 E 115, 19226501388638258 E 118, 18989119097174779 E 121, 18302748791395842 E 124, 17226101601238123 E 127, 15840080333770041 E 130, 14238263205955090 E 133, 12517145000902271 E 136, 10767428760086139 E 139, 90673021321295108 E 143, 74781823415734036 E 146, 60429717616679310 E 149, 47865093417766095 E 152, 37176749586516277 E 155, 28325126406752987 E 158, 21177652982078244 E 161, 15543223324595120 E 164, 11202317400904398 E 167, 79308402717173405 E 171, 55171036517151381 E 174, 37723768312236687 E 177, 25360505240314423 E 180, bnil.
Definition r9 := 91516549215959986 E 17, 27440150511512548 E 18, 49380844251504510 E 20, 63481495655907059 E 22, 63476302434402636 E 24, 51932215044441673 E 26, 35951578628012026 E 28, 21570262020959886 E 30, 11419264122050842 E 32, 54090153052089379 E 35, 23181105419199998 E 37, 90707395603673320 E 40, 32654270570129130 E 42, 10884644257956028 E 44, 33779626103328471 E 47, 98069105740664591 E 50, 26745932179752133 E 52, 68774824004345322 E 55, 16728917340250284 E 57, 38604998302985606 E 60, 84742289859829682 E 63, 17736684096454793 E 65, 35473232338455068 E 68, 67927227270442604 E 71, 12476389059097480 E 73, 22017091185331824 E 76, 37387409444308235 E 79, 61179239202123539 E 82, 96598566076911029 E 85, 14735341322648240 E 87, 21740621701984916 E 90, 31057969569603438 E 93, 43003262498023613 E 96, 57765475278639502 E 99, 75346147525549139 E 102, 95509051827258889 E 105, 11775071160814073 E 107, 14130065574210014 E 110, 16515639068901219 E 113, 18815261198446274 E 116, 20905820588344685 E 119, 22668936057073845 E 122, 24002376593352417 E 125, 24830018776934248 E 128, 25108982639897112 E 131, 24833035985883472 E 134, 24031948276252834 E 137, 22767088881000834 E 140, 21124085267600273 E 143, 19203698323097433 E 146, 17112193102610097 E 149, 14952390541413715 E 152, 12816325509715136 E 155, 10780079390527377 E 158, 89009770240103493 E 162, 72170037372631302 E 165, 57480524910716577 E 168, 44984731544684665 E 171, 34603619518380560 E 174, 26170789955683099 E 177, bnil.
Definition r10 := 90634623461009067 E 17, 30191419289002229 E 18, 60365594002390120 E 20, 86222878071640092 E 22, 95793522420571370 E 24, 87078931258835740 E 26, 66980358520539093 E 28, 44651821349417524 E 30, 26264964127958046 E 32, 13823318888581865 E 34, 65823965249550875 E 37, 28618617618176025 E 39, 11447277460140548 E 41, 42396782466537443 E 44, 14619417543804468 E 46, 47158950448810599 E 49, 14290467319059744 E 51, 40829591341650270 E 54, 11034948215143151 E 56, 28294562062583599 E 59, 69010735544708151 E 62, 16048925326420775 E 64, 35664109879256484 E 67, 75880755364237732 E 70, 15485806473897324 E 72, 30364214084556662 E 75, 57290773433672266 E 78, 10416471034383602 E 80, 18274456247043880 E 83, 30973568594633986 E 86, 50776209832249718 E 89, 80596961646363193 E 92, 12399504089159741 E 94, 18506682489455993 E 97, 26821224221966289 E 100, 37776299258740381 E 103, 51748260631752028 E 106, 68997561366235741 E 109, 89607075246409704 E 112, 11342650027076145 E 114, 14003250809522902 E 117, 16871362603479345 E 120, 19848635045865602 E 123, 22814493576591754 E 126, 25634230794540037 E 129, 28169451104221929 E 132, 30289698086412700 E 135, 31883858122621152 E 138, 32869922598672533 E 141, 33201908813663719 E 144, 32873145443582216 E 147, 31915645677433256 E 150, 30395825971565336 E 153, 28407289635376882 E 156, 26061712070069488 E 159, 23479001164151662 E 162, 20777861147309499 E 165, 18067691917259889 E 168, 15442460632830111 E 171, 12976848662326891 E 174, bnil.
Definition r11 := 89764182744327958 E 17, 32887013981451073 E 18, 72326431279564913 E 20, 11363399830658289 E 21, 13886902648520939 E 23, 13885727775223509 E 25, 11748732974297091 E 27, 86153287240035403 E 30, 55744156499465986 E 32, 32271954061439915 E 34, 16903933424956252 E 36, 80843197797340770 E 39, 35570369408876057 E 41, 14491408043108729 E 43, 54966670009076964 E 46, 19504071570382471 E 48, 65012890820210961 E 51, 20432431917739575 E 53, 60744558505548702 E 56, 17132950956046724 E 58, 45966138307036545 E 61, 11758706037443931 E 63, 28743339206150382 E 66, 67271291507800482 E 69, 15101645380866325 E 71, 32572030503336121 E 74, 67602046848567323 E 77, 13520357186066469 E 79, 26091823499128302 E 82, 48645609077281015 E 85, 87721313942439495 E 88, 15316374637662027 E 90, 25919946601386040 E 93, 42555024830194968 E 96, 67841176372219853 E 99, 10510580252585874 E 101, 15837825652336892 E 104, 23228762287069951 E 107, 33183880116792326 E 110, 46205315323849111 E 113, 62747846148907663 E 116, 83159653474433203 E 119, 10761819899555815 E 121, 13606877460116254 E 124, 16817463870199012 E 127, 20328773415374504 E 130, 24044752829602310 E 133, 27841256192412490 E 136, 31572518786666365 E 139, 35080533977987394 E 142, 38206477715344995 E 145, 40802988802274805 E 148, 42745942232079201 E 151, 43944381002842416 E 154, 44347496110465395 E 157, 43947926722767026 E 160, 42781127771590787 E 163, 40921041938030193 E 166, 38472741036345632 E 169, 35563008047900039 E 172, bnil.
Definition r12 := 88905057888936079 E 17, 35527930365965910 E 18, 85231974021294284 E 20, 14607857093287711 E 21, 19474310449269637 E 23, 21242563354963797 E 25, 19607072194852708 E 27, 15684772067061590 E 29, 11071110257138108 E 31, 69920278260645070 E 34, 39953253597295535 E 36, 20844653778395613 E 38, 10005220372853890 E 40, 44466828333920521 E 43, 18399772177117447 E 45, 71223922003611898 E 48, 25899285104725943 E 50, 88796561550005211 E 53, 28798597442365800 E 55, 88610271068766922 E 58, 25934501654815138 E 60, 72374814855691680 E 63, 19299819225981563 E 65, 49275826088130529 E 68, 12067479709945500 E 70, 28393918640342115 E 73, 64287800098177959 E 76, 14026364685284562 E 78, 29529062371399913 E 81, 60058869606603421 E 84, 11814815323926558 E 86, 22504331004965116 E 89, 41546319865620452 E 92, 74411087382831165 E 95, 12941020636863184 E 97, 21872086787902792 E 100, 35954020704021505 E 103, 57526289684597137 E 106, 89651148320951841 E 109, 13617865302566783 E 111, 20174572051215315 E 114, 29167996442815799 E 117, 41178267734556365 E 120, 56797505039705980 E 123, 76580769511345172 E 126, 10098545829592146 E 128, 13030360477696974 E 131, 16459376988141021 E 134, 20362085328075492 E 137, 24681280004633943 E 140, 29324252483764489 E 143, 34164132162049010 E 146, 39044672427069019 E 149, 43788363610938622 E 152, 48207315407319423 E 155, 52115956824866860 E 158, 55344317601065153 E 161, 57750530472848466 E 164, 59231252045040555 E 167, 59728933925840185 E 170, bnil.
Definition r13 := 88057082383243734 E 17, 38115146687275163 E 18, 99051566454897767 E 20, 18390358468319405 E 21, 26559317793275837 E 23, 31384575899942802 E 25, 31381856319291236 E 27, 27195806515602477 E 29, 20795705191395656 E 31, 14228037773998717 E 33, 88075247445797231 E 36, 49780198531462999 E 38, 25885055165263367 E 40, 12462905719229788 E 42, 55867147841261988 E 45, 23427771750099620 E 47, 92289871674870804 E 50, 34278647855790470 E 52, 12043708195681532 E 54, 40145269690073985 E 57, 12728865933520055 E 59, 38482281842752295 E 62, 11117014813120569 E 64, 30748964266433413 E 67, 81578333101738249 E 70, 20794347053152004 E 72, 51004706502622152 E 75, 12055592912263683 E 77, 27495073735503501 E 80, 60582081380902992 E 83, 12910878599534652 E 85, 26641385574700543 E 88, 53282564381996699 E 91, 10338370221240968 E 93, 19478021629835054 E 96, 35663866978515013 E 99, 63510799947240720 E 102, 11008506442241727 E 104, 18585738461889218 E 107, 30584045809441869 E 110, 49085382231578945 E 113, 76880534993745643 E 116, 11758172598410158 E 118, 17569644845308951 E 121, 25663472627260593 E 124, 36662030541941351 E 127, 51247901653087298 E 130, 70128578912049138 E 133, 93986589839361567 E 136, 12341652553804620 E 138, 15885269560204531 E 141, 20049338017890815 E 144, 24822952587589704 E 147, 30158683742184912 E 150, 35969022111254979 E 153, 42125824993129173 E 156, 48463275461250818 E 159, 54784503449174313 E 162, 60871596612077234 E 165, 66498304805048939 E 168, bnil.
Definition r14 := 87220092337240906 E 17, 40649623967526492 E 18, 11375526396986209 E 19, 22743978290032444 E 21, 35372519699820559 E 23, 45013401478051442 E 25, 48471099230041238 E 27, 45236215845941223 E 29, 37251093899202300 E 31, 27446826241603207 E 33, 18297141693670112 E 35, 11137010980360597 E 37, 62365450627448067 E 40, 32336831630474505 E 42, 15610543900809103 E 44, 70497879850186018 E 47, 29907683934941850 E 49, 11962892516441140 E 51, 45264383900705973 E 54, 16248554028071781 E 56, 55482250600053996 E 59, 18063805597274042 E 61, 56197985512492377 E 64, 16739683007536299 E 66, 47827290622533126 E 69, 13128964970749669 E 71, 34680051646658602 E 74, 88275943203168329 E 77, 21681684248325920 E 79, 51447784137059506 E 82, 11807627941838798 E 84, 26239047616047449 E 87, 56514617441267399 E 90, 11808974473997535 E 92, 23960142203413808 E 95, 47245172162228431 E 98, 90606855126039212 E 101, 16913222221261111 E 103, 30751214046555768 E 106, 54495655442445621 E 109, 94189747155630377 E 112, 15887383093312102 E 114, 26167385151736403 E 117, 42108329287017808 E 120, 66237661052161606 E 123, 10190385792129978 E 125, 15340331676906322 E 128, 22606756492768845 E 131, 32628241745026734 E 134, 46140857477305276 E 137, 63957503725650336 E 140, 86932371788769869 E 143, 11590962684209206 E 145, 15165720081745720 E 148, 19478874971896501 E 151, 24567912024639508 E 154, 30438075183631491 E 157, 37054994071424943 E 160, 44339246727134017 E 163, 52163748673485835 E 166, bnil.
Definition r15 := 86393926439427382 E 17, 43132306310567692 E 18, 12931381829200124 E 19, 27700213233946233 E 21, 46156533585401222 E 23, 62930827055170254 E 25, 72604116097019973 E 27, 72597710862809604 E 29, 64052342103605143 E 31, 50564787237887285 E 33, 36116022812325743 E 35, 23553006312423962 E 37, 14131332756564194 E 39, 78505148364523920 E 42, 40605094988831682 E 44, 19647194492870855 E 46, 89303689861004411 E 49, 38272344987275667 E 51, 15515573611962693 E 53, 59674443436978405 E 56, 21831834830561017 E 58, 76156677829077137 E 61, 25385289222729086 E 63, 81016088988913834 E 66, 24800620274993103 E 68, 72942393634852425 E 71, 20643914327277692 E 73, 56301180456184773 E 76, 14816000994881123 E 78, 37667563653220900 E 81, 92624614228615150 E 84, 22053358406568794 E 86, 50892102622108008 E 89, 11393698865852189 E 91, 24768796820946451 E 94, 52328216826031979 E 97, 10752329132935707 E 99, 21504574482124901 E 102, 41891873261441049 E 105, 79541251829087655 E 108, 14729812153428176 E 110, 26620057548793315 E 113, 46976429215032683 E 116, 80993608119535897 E 119, 13650570187202597 E 121, 22500880047614847 E 124, 36291649588951840 E 127, 57302464700685235 E 130, 88611851196814570 E 133, 13426007848649943 E 135, 19939572490838605 E 138, 29038151953175919 E 141, 41482991142231717 E 144, 58153613711876275 E 147, 80027759953828517 E 150, 10814542756513487 E 152, 14355562874200309 E 155, 18724615915201645 E 158, 24005879045817349 E 161, 30259464118665988 E 164, bnil.
Definition r16 := 85578425914471579 E 17, 45564121200810014 E 18, 14569866295280551 E 19, 33289028058291434 E 21, 59165197780428124 E 23, 86043068006268679 E 25, 10588526118409528 E 26, 11293294191320218 E 28, 10628140468173700 E 30, 89494388566754883 E 33, 68182587155361797 E 35, 47429253424874847 E 37, 30353571042268464 E 39, 17986713303784654 E 41, 99234213186299535 E 44, 51216376786099678 E 46, 24831632314281066 E 48, 11351378949736300 E 50, 49086173292055364 E 53, 20137594849684617 E 55, 78584594910275325 E 58, 29240392656540826 E 60, 10396458218130859 E 62, 35391804780384217 E 65, 11556389299731618 E 67, 36254995613017870 E 70, 10944808217719816 E 72, 31839182095294302 E 75, 89372462402859001 E 78, 24236427578987894 E 80, 63570534114155118 E 83, 16144796623774668 E 85, 39740804236029778 E 88, 94902887576150155 E 91, 22006351689464357 E 93, 49591533512564528 E 96, 10869326385672216 E 98, 23187793500686804 E 101, 48182225281711085 E 104, 97583863340144811 E 107, 19275751458912025 E 109, 37157940269486278 E 112, 69944116022690812 E 115, 12863243176847121 E 117, 23124858459107085 E 120, 40658968805970454 E 123, 69950711388513204 E 126, 11781139715529004 E 128, 19432755973831115 E 131, 31406393892929858 E 134, 49752580764436353 E 137, 77285379412050489 E 140, 11776792885464562 E 142, 17610118932042444 E 145, 25849661168947738 E 148, 37260696807989805 E 151, 52758404821425028 E 154, 73402858353575478 E 157, 10037979266924903 E 159, 13496418716573460 E 162, bnil.
Definition r17 := 84773434481585375 E 17, 47945979796771059 E 18, 16288189904823233 E 19, 39538900232144160 E 21, 74662798226941783 E 23, 11536464939705564 E 24, 15083911199928511 E 26, 17093162308159993 E 28, 17091633167521999 E 30, 15291406379950288 E 32, 12378016952067342 E 34, 91485092591826415 E 37, 62207199671005041 E 39, 39166050543205059 E 41, 22958670911482670 E 43, 12589883228563159 E 45, 64855351456381269 E 48, 31500467738052508 E 50, 14472898025734781 E 52, 63085851212105664 E 55, 26157119289048075 E 57, 10341032250322110 E 59, 39065588037232484 E 62, 14129928999039923 E 64, 49021635738915710 E 67, 16340370539673047 E 69, 52411989658114899 E 72, 16199920192996168 E 74, 48315136259151304 E 77, 13921198661051429 E 79, 38796491399732520 E 82, 10468820622660841 E 84, 27379810705057206 E 87, 69470727207040518 E 90, 17115875299624389 E 92, 40981444744518086 E 95, 95435737427140770 E 98, 21631992230393411 E 100, 47758716987258943 E 103, 10277145848291494 E 105, 21569225728294352 E 108, 44177751246184574 E 111, 88355157197641252 E 114, 17264736392991072 E 116, 32977468694157447 E 119, 61606049822239562 E 122, 11261284098791974 E 124, 20151708345790683 E 127, 35317320711448373 E 130, 60645728968783906 E 133, 10207668597857008 E 135, 16847563345207530 E 138, 27276937156011969 E 141, 43337082488399997 E 144, 67589783718973437 E 147, 10351564646782674 E 149, 15573115720086456 E 152, 23021078139334263 E 155, 33449360344333723 E 158, 47784704584183883 E 161, bnil.
Definition r18 := 83978798313602487 E 17, 50278777219392709 E 18, 18083628128130339 E 19, 46476863475103173 E 21, 92923322568682743 E 23, 15202190761830377 E 24, 21045690830412941 E 26, 25251620877033714 E 28, 26734328848352434 E 30, 25325202564284576 E 32, 21705860520406918 E 34, 16986238098231944 E 36, 12229504438802384 E 38, 81526656196781176 E 41, 50600928520179438 E 43, 29380253809838669 E 45, 16025143461939358 E 47, 82412961649814875 E 50, 40091891980034396 E 52, 18503575219790886 E 54, 81233715412859287 E 57, 34004241738429370 E 59, 13601488335077500 E 61, 52090073564429469 E 64, 19134880980165552 E 66, 67534064547320778 E 69, 22935842465945666 E 71, 75061981408559836 E 74, 23703555238660293 E 76, 72315280223718859 E 79, 21338755244209572 E 81, 60967389750554297 E 84, 16883151556576744 E 86, 45357402717403009 E 89, 11832287672814230 E 91, 29997161512347600 E 94, 73965166019864495 E 97, 17751540252240948 E 99, 41496886058616706 E 102, 94549388240227464 E 105, 21010873907736361 E 107, 45565541385016841 E 110, 96491311938328381 E 113, 19963636175381318 E 115, 40375731866161477 E 118, 79863779258251719 E 121, 15457448977025967 E 123, 29287695086354221 E 126, 54348116793247329 E 129, 98814437616104469 E 132, 17610438985268089 E 134, 30775432242296609 E 137, 52757731699232211 E 140, 88751077802599253 E 143, 14656102040921882 E 145, 23766590566589873 E 148, 37858191467946144 E 151, 59256156998879744 E 154, 91163106316024285 E 157, 13789346397836668 E 159, bnil.
Definition r19 := 83194365996748454 E 17, 52563392835228130 E 18, 19953520428298206 E 19, 54128550232860469 E 21, 11422974086448188 E 22, 19725612842761022 E 24, 28824406391741770 E 26, 36505747271828438 E 28, 40795981930055210 E 30, 40792291474733505 E 32, 36904553216811801 E 34, 30484456257329791 E 36, 23166947809999312 E 38, 16301915412251684 E 40, 10680136416569776 E 42, 65456590833641319 E 45, 37685950198694501 E 47, 20457516982080320 E 49, 10504948623449437 E 51, 51176799457185200 E 54, 23715592194902890 E 56, 10478787105366417 E 58, 44243012625627239 E 61, 17885192839046549 E 63, 69349745945565214 E 66, 25835834815056424 E 68, 92617883482074097 E 71, 31994900417090724 E 73, 10664852325379559 E 75, 34344095204489730 E 78, 10697240643453354 E 80, 32261235000175645 E 83, 94301289851264143 E 86, 26741948002984646 E 88, 73636705510044682 E 91, 19705460000003173 E 93, 51287845391853863 E 96, 12992839613775885 E 98, 32060063330760972 E 101, 77106046436487123 E 104, 18086506367812182 E 106, 41402634048529253 E 109, 92546612563225324 E 112, 20211234950546874 E 114, 43147387909729107 E 117, 90087568500174749 E 120, 18404911910367660 E 122, 36809679618408799 E 125, 72101163259364102 E 128, 13837547030803614 E 130, 26030938736813899 E 133, 48018076223065684 E 136, 86889573022790235 E 139, 15428941845756647 E 141, 26894405541099441 E 144, 46035336450320958 E 147, 77404332985809087 E 150, 12788507659868008 E 152, 20767608164967368 E 155, 33158282846134631 E 158, bnil.
Definition r20 := 82419988491090168 E 17, 54800690534589518 E 18, 21895268920590805 E 19, 62518233112495087 E 21, 13887331217511350 E 22, 25242633694050987 E 24, 38826857833092879 E 26, 51761025406193146 E 28, 60887784480158038 E 30, 64085980588229582 E 32, 61029213399271612 E 34, 53065189944014456 E 36, 42449636549689022 E 38, 31442569031946053 E 40, 21683565618568403 E 42, 13988850218595921 E 44, 84777974472667864 E 47, 48443060572248849 E 49, 26184712324366570 E 51, 13427721706878071 E 53, 65499595433631200 E 56, 30464298367637618 E 58, 13539432102932105 E 60, 57613604038844722 E 63, 23515380359474359 E 65, 92215813255091594 E 68, 34797942600568092 E 70, 12653635861318403 E 72, 44398194247851606 E 75, 15050068070553481 E 77, 49343971883782927 E 80, 15664599968418562 E 82, 48198326443267974 E 85, 14387435647627667 E 87, 41702371527725086 E 90, 11747056251526428 E 92, 32183480628783118 E 95, 85822020575759422 E 98, 22291287335817865 E 100, 56433286063797016 E 103, 13934061803746984 E 105, 33575862173844989 E 108, 79001601322133090 E 111, 18161193840789245 E 113, 40811469990280317 E 116, 89695114502053339 E 119, 19289184605530985 E 121, 40608633424712965 E 124, 83728792322297402 E 127, 16914839873992127 E 129, 33494603635974965 E 132, 65037824766689424 E 135, 12388112993137078 E 137, 23155271974841065 E 140, 42486597105794472 E 143, 76552183091210791 E 146, 13549017248996221 E 148, 23563438208226772 E 151, 40279265832768777 E 154, 67696057039933381 E 157, bnil.
Definition r21 := 81655519091653161 E 17, 56991519004747228 E 18, 23906337058567490 E 19, 71668865300814703 E 21, 16715291629249101 E 22, 31901175461419082 E 24, 51521018391025967 E 26, 72116955458727459 E 28, 89073490777598479 E 30, 98438768620360968 E 32, 98429782242457693 E 34, 89863779032206951 E 36, 75480643262743712 E 38, 58703860834905067 E 40, 42507607228974856 E 42, 28794234635789744 E 44, 18322904281161826 E 46, 10993368211382333 E 48, 62392885794068048 E 51, 33595242748933938 E 53, 17206889050353714 E 55, 84031729097600013 E 58, 39213989274476590 E 60, 17520808644989147 E 62, 75087854848923158 E 65, 30918024040924284 E 67, 12250352498909669 E 69, 46773415225322317 E 72, 17232084905899966 E 74, 61333787956534561 E 77, 21114668311124209 E 79, 70381469757132763 E 82, 22738398437308878 E 84, 71268927195589055 E 87, 21690347808210586 E 89, 64154003999822524 E 92, 18455112773600359 E 94, 51673921168089190 E 97, 14092785423361146 E 99, 37461576497372430 E 102, 97121968659401475 E 105, 24572874613709941 E 107, 60709092892053016 E 110, 14653835513963547 E 112, 34576277548579943 E 115, 79790993945231857 E 118, 18017231280661072 E 120, 39827373283556139 E 123, 86223814236352699 E 126, 18289819323701480 E 128, 38028176000763204 E 131, 77532858218326643 E 134, 15506510777217655 E 136, 30433223835225305 E 139, 58632602852335518 E 142, 11092615593231656 E 144, 20614525392762921 E 147, 37643792554009048 E 150, 67565567499266321 E 153, 11923298923516302 E 155, bnil.
Definition r22 := 80900813390195137 E 17, 59136711998269184 E 18, 25984248346443469 E 19, 81602119988568542 E 21, 19937440989837637 E 22, 39861393778217428 E 24, 67441007289210689 E 26, 98894709565733483 E 28, 12796221665108502 E 29, 14814880804231664 E 31, 15518796356959701 E 33, 14842816792173235 E 35, 13060742331396074 E 37, 10641428595163063 E 39, 80723733231541561 E 42, 57285100531191944 E 44, 38188466801991167 E 46, 24003282051686383 E 48, 14271743083083033 E 50, 80504831946533296 E 53, 43196528849527208 E 55, 22099996871142166 E 57, 10804195675025853 E 59, 50571768020239112 E 62, 22705252022483907 E 64, 97942470678981785 E 67, 40654690176652062 E 69, 16261625017606978 E 71, 62763263463407081 E 74, 23402936060031193 E 76, 84402968705862290 E 79, 29473704209512305 E 81, 99756044065723555 E 84, 32755373036421303 E 86, 10443638949884678 E 88, 32360269209331259 E 91, 97523236871024507 E 94, 28606576400386840 E 96, 81732425122352088 E 99, 22760756361205510 E 101, 61818893223517350 E 104, 16385618323067490 E 106, 42409558092458472 E 109, 10724189034920090 E 111, 26509072903730000 E 114, 64087502043271792 E 117, 15160401302871414 E 119, 35108113356392147 E 122, 79626247527907483 E 125, 17694636022663404 E 127, 38542592215749094 E 130, 82323614954970421 E 133, 17248683112701560 E 135, 35464434928474603 E 138, 71579307093830476 E 141, 14186834951367968 E 143, 27620283759344676 E 146, 52838613644408898 E 149, 99354312754295210 E 152, 18367962465826896 E 154, bnil.
Definition r23 := 80155729237624795 E 17, 61237088596587372 E 18, 28126585077171669 E 19, 92338428822870790 E 21, 23585000645764747 E 22, 49295861182689951 E 24, 87192105652019653 E 26, 13366683722341685 E 27, 18081375878215047 E 29, 21885080088254730 E 31, 23966748741821547 E 33, 23964544176518239 E 35, 22045653033115096 E 37, 18778361757595997 E 39, 14892307197829835 E 41, 11048559844676366 E 43, 77001587473636208 E 46, 50598976333850313 E 48, 31452264727443372 E 50, 18548157892349223 E 52, 10404751990470629 E 54, 55651803201350052 E 57, 28443543561118554 E 59, 13918861181593556 E 61, 65332047083808430 E 64, 29462895610902026 E 66, 12785552865679895 E 68, 53465955267788959 E 71, 21573642601686045 E 73, 84099404530256675 E 76, 31709175063921333 E 78, 11576215957552288 E 80, 40961497374848246 E 83, 14061248648466917 E 85, 46870322721922564 E 88, 15183189015467775 E 90, 47836982641756560 E 93, 14669873632724559 E 95, 43818721998253180 E 98, 12757243980285845 E 100, 36223988003727459 E 103, 10037897313439806 E 105, 27161174905421788 E 108, 71804914356040925 E 111, 18556204979637734 E 113, 46900005142270358 E 116, 11598856554597777 E 118, 28081280981171504 E 121, 66584113887356596 E 124, 15468954721150694 E 126, 35226153406676861 E 129, 78659957806663991 E 132, 17230195343925285 E 134, 37036700509244270 E 137, 78150494243929022 E 140, 16193277359410532 E 142, 32959633905242769 E 145, 65919008642718346 E 148, 12958388361624234 E 150, 25045532550874342 E 153, bnil.
Definition r24 := 79420126707053995 E 17, 63293453468877242 E 18, 30330987095744419 E 19, 10389701940969447 E 20, 27689767916862028 E 22, 60389721461884545 E 24, 11145580164948362 E 25, 17828901747577956 E 27, 25165727121411637 E 29, 31783699113782008 E 31, 36319896675541874 E 33, 37895226828683147 E 35, 36376313871735837 E 37, 32332122916673673 E 39, 26755904779371061 E 41, 20713082669788099 E 43, 15063308947718785 E 45, 10328666747579610 E 47, 66994083185828087 E 50, 41225643111562609 E 52, 24131295388480724 E 54, 13468229080460137 E 56, 71828598961590267 E 59, 36677516197390078 E 61, 17964083680045750 E 63, 84535062999173041 E 66, 38279272148659337 E 68, 16703375502843755 E 70, 70328797575485643 E 73, 28607866591301066 E 75, 11255385372096959 E 77, 42877055462510839 E 80, 15831318785560664 E 82, 56708495072025163 E 85, 19724462030280417 E 87, 66673496897066181 E 90, 21919823168127352 E 92, 70142734539175841 E 95, 21862463491651384 E 97, 66417012766142098 E 100, 19678946293634220 E 102, 56902512662074796 E 105, 16066466668940663 E 107, 44320957662348831 E 110, 11951633920871881 E 112, 31520578227625084 E 115, 81342897370486646 E 118, 20549656150341647 E 120, 50844205094530299 E 123, 12325796898406942 E 125, 29288860165265695 E 128, 68245524294281040 E 131, 15598897008961579 E 133, 34988007412741315 E 136, 77037447734425708 E 139, 16656668965628861 E 141, 35376839226944208 E 144, 73829609284629646 E 147, 15144472584843133 E 149, 30543351939272286 E 152, bnil.
Definition r25 := 78693868057473315 E 17, 65306597126334243 E 18, 32595150587226840 E 19, 11629595188782926 E 20, 32284058630996886 E 22, 73340816240528004 E 24, 14099485164549209 E 25, 23493384872158080 E 27, 34542412543554494 E 29, 45443425410308293 E 31, 54092317201869912 E 33, 58789607375420376 E 35, 58784164831595437 E 37, 54425438249641724 E 39, 46915219823531756 E 41, 37832543449057687 E 43, 28659467002319117 E 45, 20470059964328955 E 47, 13830522585823730 E 49, 88653730983691105 E 52, 54055236791993669 E 54, 31426448214996625 E 56, 17458621994495233 E 58, 92862490521952953 E 61, 47377636807384735 E 63, 23223794788653456 E 65, 10954385316969109 E 67, 49791667893269335 E 70, 21838044986161827 E 72, 92532482037480681 E 75, 37922531638557928 E 77, 15048393993047481 E 79, 57877607825937833 E 82, 21595830365036572 E 84, 78244763980530612 E 87, 27550641012745767 E 89, 94350433269538126 E 92, 31449804060831596 E 94, 10210870433498830 E 96, 32312565519890679 E 99, 99729213374552010 E 102, 30038653581990266 E 104, 88348234440595729 E 107, 25387218770682778 E 109, 71311861967474376 E 112, 19591026189755740 E 114, 52663676349660547 E 117, 13858768201904665 E 119, 35718242280636426 E 122, 90197017732406200 E 125, 22325860357852272 E 127, 54188668295949544 E 130, 12901992106940765 E 132, 30144679832065372 E 135, 69138816777030955 E 138, 15571727989061149 E 140, 34450559948865907 E 143, 74892173746895632 E 146, 16002529393325342 E 148, 33618613306034000 E 151, bnil.
Definition r26 := 77976817698039536 E 17, 67277296171929790 E 18, 34916826888992483 E 19, 12955215459523910 E 20, 37400651834043138 E 22, 88359785089865225 E 24, 17665834484750340 E 25, 30612666113608817 E 27, 46809576683234621 E 29, 64044361092773911 E 31, 79281923613646393 E 33, 89612509825688448 E 35, 93187678450882892 E 37, 89728536856850769 E 39, 80440226147516537 E 41, 67461538515589179 E 43, 53148404679272592 E 45, 39479611277801240 E 47, 27741130017031123 E 49, 18493304877221571 E 51, 11727011987757453 E 53, 70905037327870710 E 56, 40966045575063852 E 58, 22661402602367665 E 60, 12024092453948332 E 62, 61297761887826422 E 65, 30069902853512420 E 67, 14214556664813196 E 69, 64837025375450961 E 72, 28571711817649400 E 74, 12177892465617572 E 76, 50257139276936673 E 79, 20102543675853435 E 81, 78008730310924866 E 84, 29394188432893433 E 86, 10763928615288707 E 88, 38336806659421871 E 91, 13289937409935467 E 93, 44874614648721077 E 96, 14768704500050129 E 98, 47405241491516038 E 101, 14849692397763380 E 103, 45422173296186569 E 106, 13574324085073818 E 108, 39654997801754185 E 111, 11329908872582065 E 113, 31674771698236291 E 116, 86688212929742424 E 119, 23235852269932606 E 121, 61023037851572826 E 124, 15708798755969782 E 126, 39653030560262397 E 129, 98187865841142863 E 132, 23858595469583844 E 134, 56910093243294510 E 137, 13330220268723329 E 139, 30671143722657062 E 142, 69343106984166100 E 145, 15409504512777086 E 147, 33667666924648965 E 150, bnil.
Definition r27 := 77268842152964878 E 17, 69206313545726400 E 18, 37293821326905281 E 19, 14368145884830638 E 20, 43072736612375134 E 22, 10567014038936908 E 23, 21938675965527534 E 25, 39478333125393275 E 27, 62686736423863462 E 29, 89064881459082381 E 31, 11449471175893670 E 32, 13438979909355370 E 34, 14512531094646173 E 36, 14511180163273775 E 38, 13509313723982354 E 40, 11765338112461717 E 42, 96255782260786010 E 45, 74250281008856410 E 47, 54179900462673497 E 49, 37507451927447198 E 51, 24699008053266691 E 53, 15508095236972212 E 55, 93045364427805863 E 58, 53449900457622554 E 60, 29451126851100486 E 62, 15591352550036085 E 64, 79425658789758227 E 67, 38989871316564749 E 69, 18468486078478348 E 71, 84515088824515999 E 74, 37407608411239574 E 76, 16031546784255810 E 78, 66591464267736173 E 81, 26834943044030740 E 83, 10500473635771650 E 85, 39930816986930266 E 88, 14768735665989803 E 90, 53166777261353052 E 93, 18642672507500046 E 95, 63714737144093225 E 98, 21238015425343794 E 100, 69086806184708398 E 103, 21945004455999560 E 105, 68104545047271605 E 108, 20660743428315123 E 110, 61300578838434179 E 113, 17796795398354566 E 115, 50579965733195346 E 118, 14078852656873401 E 120, 38396590945201771 E 123, 10264363275167463 E 125, 26906401977533116 E 128, 69187441868975984 E 131, 17458404245082320 E 133, 43245327932807159 E 136, 10519072684915716 E 138, 25133926480440139 E 141, 59009768541620329 E 144, 13617567593806974 E 146, 30896845678217685 E 149, bnil.
Definition r28 := 76569810026997343 E 17, 71094398765835745 E 18, 39723992074418082 E 19, 15869863285401228 E 20, 49333860966717933 E 22, 12550831813331645 E 23, 27021700057907320 E 25, 50425007318182313 E 27, 83032803096484577 E 29, 12234009602409788 E 30, 16309365846723067 E 32, 19852173674826338 E 34, 22231852585797974 E 36, 23052946495852298 E 38, 22256076546943118 E 40, 20100722326198733 E 42, 17054000802551749 E 44, 13642374770167015 E 46, 10323398429844038 E 48, 74113073025673403 E 51, 50611555381579603 E 53, 32955026461231000 E 55, 20504589748399809 E 57, 12215084456025050 E 59, 69798292919001088 E 62, 38319519986025519 E 64, 20243730260622750 E 66, 10305641324564224 E 68, 50623022873404941 E 71, 24023962108243721 E 73, 11027167485184013 E 75, 49008694998248731 E 78, 21111057804328428 E 80, 88223820061176620 E 83, 35800397544990075 E 85, 14118253082532823 E 87, 54151428186091903 E 90, 20216258741983694 E 92, 73512720704584428 E 95, 26054822297819922 E 97, 90065002109718204 E 100, 30383036572121242 E 102, 10008423588535869 E 104, 32210692306920076 E 107, 10133602856022745 E 109, 31180027635396126 E 112, 93874519004172297 E 115, 27668043891307623 E 117, 79865866420099427 E 120, 22588148748727396 E 122, 62620138472558922 E 125, 17022826863523816 E 127, 45393888204206600 E 130, 11878694633937560 E 132, 30513880233864126 E 135, 76971469032344401 E 138, 19072461332196459 E 140, 46437026577508207 E 143, 11113071988519522 E 145, 26148262306971007 E 148, bnil.
Definition r29 := 75879591971482407 E 17, 72942288165092795 E 18, 42205249035234321 E 19, 17461741477467100 E 20, 56217882677736265 E 22, 14812370583446727 E 23, 33028740524527723 E 25, 63834517618832393 E 27, 10886583752350287 E 28, 16612863675535732 E 30, 22937580337772521 E 32, 28917068038943684 E 34, 33539620585633985 E 36, 36020168454262001 E 38, 36016799417713675 E 40, 33690365483181124 E 42, 29604529338684400 E 44, 24527874367863444 E 46, 19223429871533802 E 48, 14293593548076397 E 50, 10109620517478925 E 52, 68178198550170735 E 55, 43935314325706640 E 57, 27108033846244189 E 59, 16042990350173305 E 61, 91222008928056636 E 64, 49912489438246743 E 66, 26316788470448585 E 68, 13388908442476485 E 70, 65808351204830205 E 73, 31285252827347159 E 75, 14400852378815963 E 77, 64248716073860908 E 80, 27808639886940901 E 82, 11687488594686460 E 84, 47736854899031813 E 87, 18963664764276181 E 89, 73325102619984581 E 92, 27615565948349680 E 94, 10137226423284204 E 96, 36293319615745222 E 99, 12680647260454332 E 101, 43262892766936910 E 104, 14420807626777230 E 106, 46988660521492837 E 109, 14974259494650834 E 111, 46693482987158941 E 114, 14253669985863286 E 116, 42613691712257044 E 119, 12482693593274960 E 121, 35841107701375022 E 124, 10091107193243142 E 126, 27870468386011987 E 129, 75536238800335400 E 132, 20096657788304142 E 134, 52504429572572430 E 137, 13474500917744116 E 139, 33978963844329950 E 142, 84220854653114974 E 145, 20524290082279181 E 147, bnil.
Definition r30 := 75198060650995602 E 17, 74750705123524053 E 18, 44735552747137636 E 19, 19145054496441690 E 20, 63758922105259521 E 22, 17377864863844495 E 23, 40084271163009537 E 25, 80140265403706931 E 27, 14138461156069579 E 28, 22318852645986809 E 30, 31878136112663658 E 32, 41573671222344285 E 34, 49881755330409431 E 36, 55417803364462984 E 38, 57323023927251574 E 40, 55469014531395294 E 42, 50422448097816712 E 44, 43216237968893061 E 46, 35038007748010653 E 48, 26950796799345167 E 50, 19719088619238355 E 52, 13756863860933244 E 54, 91708523401693290 E 57, 58535067926223226 E 59, 35836506102023068 E 61, 21079595855405366 E 63, 11931478339346259 E 65, 65078922697453566 E 68, 34251147977477734 E 70, 17415402458813069 E 72, 85647514536732778 E 75, 40783634406687171 E 77, 18822826896899865 E 79, 84279673747465428 E 82, 36642663257740672 E 84, 15482546619363553 E 86, 63625858026976427 E 89, 25449946594114250 E 91, 99154169082820748 E 94, 37652952359885256 E 96, 13945351228694670 E 98, 50404240964597517 E 101, 17789515602407651 E 103, 61342444249728860 E 106, 20676998628432259 E 108, 68165204646973309 E 111, 21988551702721932 E 113, 69436853531303125 E 116, 21475114260656370 E 118, 65075518087001539 E 121, 19329194585773193 E 123, 56298156510250397 E 126, 16085058723078737 E 128, 45097947480030269 E 131, 12412186793925516 E 133, 33546210091371788 E 136, 89060117952699091 E 139, 23232918845395308 E 141, 59571201709830441 E 144, 15017856143329737 E 146, bnil.
Definition r31 := 74525090710536379 E 17, 76520360296688739 E 18, 47312913309608415 E 19, 20920979739622890 E 20, 71991316864518076 E 22, 20274843472487737 E 23, 48323897626094908 E 25, 99831776737490514 E 27, 18199204728530637 E 28, 29686290709638542 E 30, 43813903650764200 E 32, 59043655724584494 E 34, 73203712337682142 E 36, 84038393569715136 E 38, 89824543818230909 E 40, 89816107249449578 E 42, 84365687813521792 E 44, 74718350553481646 E 46, 62597692683569816 E 48, 49754150273657558 E 50, 37616941296792352 E 52, 27117843515588621 E 54, 18680332339091470 E 56, 12320556171584826 E 58, 77943378543563527 E 61, 47375663446504686 E 63, 27709380235496541 E 65, 15617535589740832 E 67, 84935047248366179 E 70, 44625697672784107 E 72, 22678066157671555 E 74, 11158786562144529 E 76, 53217653911712484 E 79, 24622581772325192 E 81, 11062102354064419 E 83, 48298424633482049 E 86, 20509929918059976 E 88, 84772966336056326 E 91, 34128836893807429 E 93, 13392127281655663 E 95, 51253087848036307 E 98, 19142458811224564 E 100, 69812766087244113 E 103, 24875504472051072 E 105, 86643987500174055 E 108, 29515748497036910 E 110, 98384758184615069 E 113, 32104165239471704 E 115, 10259991371888363 E 117, 32126936942064668 E 120, 98606519326907425 E 123, 29677426577233873 E 125, 87618319494056292 E 128, 25384537609168108 E 130, 72193983084788407 E 133, 20162129090308284 E 135, 55311626522519839 E 138, 14909984136573296 E 140, 39504813503623389 E 143, 10291101221171591 E 145, bnil.
Definition r32 := 73860558743273663 E 17, 78251951839961489 E 18, 49935389330965927 E 19, 22790601029787618 E 20, 80949578324210312 E 22, 23532126103488059 E 23, 57894843470081567 E 25, 12345943767432620 E 26, 23232060241130793 E 28, 39117643318955292 E 30, 59595205010733131 E 32, 82900306616759512 E 34, 10609629937228855 E 35, 12572732159118510 E 37, 13871779726096393 E 39, 14317823436560707 E 41, 13882719282152868 E 43, 12691768405558547 E 45, 10975885732089998 E 47, 90052782949088477 E 50, 70281016983902802 E 52, 52299384630025822 E 54, 37188873055445748 E 56, 25318958052915255 E 58, 16534152264626705 E 60, 10373977056186018 E 62, 62633133024195704 E 65, 36439905359947771 E 67, 20456867854865082 E 69, 11094934693430227 E 71, 58201385310102060 E 74, 29561869201655781 E 76, 14553193422353918 E 78, 69506249940373085 E 81, 32234108829759958 E 83, 14527762031894634 E 85, 63682149375159722 E 88, 27170568630476275 E 90, 11291474810015740 E 92, 45736887590194038 E 95, 18068618658316103 E 97, 69661133140317261 E 100, 26225004632546647 E 102, 96458511521145568 E 105, 34681273518969880 E 107, 12195465105908224 E 109, 41962404336972710 E 112, 14134547552873298 E 114, 46628938011108159 E 117, 15071825613776397 E 119, 47751848744309885 E 122, 14835385358415753 E 124, 45212190919844512 E 127, 13521284177367402 E 129, 39695177223500022 E 132, 11443561271524805 E 134, 32406289835574307 E 137, 90173337626312899 E 140, 24662611811212375 E 142, 66319156767498735 E 145, bnil.
Definition r33 := 73204343258833460 E 17, 79946165628833374 E 18, 52601086898525643 E 19, 24754911601477137 E 20, 90668349872628912 E 22, 27179818032903148 E 23, 68956429618407187 E 25, 15163940803357878 E 26, 29425966780481942 E 28, 51094315944556128 E 30, 80272972526369715 E 32, 11515245957206377 E 33, 15197673113171624 E 35, 18572351066687823 E 37, 21131495179439373 E 39, 22492423320053305 E 41, 22490302984063184 E 43, 21203359901066783 E 45, 18909677802486725 E 47, 15999407028736694 E 49, 12876776160955189 E 51, 98816209539530923 E 54, 72461489509554937 E 56, 50874810469605073 E 58, 34261134507044432 E 60, 22168076300219160 E 62, 13802248875541494 E 64, 82810616767072689 E 67, 47941436271497182 E 69, 26813890320813854 E 71, 14505464057752295 E 73, 75978981717843153 E 76, 38572980041233099 E 78, 18998184446807088 E 80, 90858862475291290 E 83, 42229288254862781 E 85, 19089572532518047 E 87, 83992535312195901 E 90, 35996156443229865 E 92, 15036113262469383 E 94, 61257246980188709 E 97, 24354915034477466 E 99, 94552983632825388 E 102, 35864420424478657 E 104, 13297864726000071 E 106, 48222405421921194 E 109, 17110965210597832 E 111, 59437387274352992 E 114, 20220737499841685 E 116, 67401724262304840 E 119, 22022115022916089 E 121, 70555580408304235 E 124, 22174396052740470 E 126, 68387685729668994 E 129, 20704342354283053 E 131, 61552915836311303 E 134, 17975479652551777 E 136, 51581393698638840 E 139, 14548484431270729 E 141, 40344231535938122 E 144, bnil.
Definition r34 := 72556324652119175 E 17, 81603675475302714 E 18, 55308158567560356 E 19, 26814817011733044 E 20, 10118236689945210 E 21, 31249303054554877 E 23, 81680546480394487 E 25, 18505870874646289 E 26, 36998504013811283 E 28, 66188677406557452 E 30, 10713698382112249 E 31, 15834458217059810 E 33, 21531176306145576 E 35, 27109331292511768 E 37, 31779267979944702 E 39, 34850743236292200 E 41, 35903233253552715 E 43, 34874313733758413 E 45, 32044099778790876 E 47, 27933862507090660 E 49, 23163147751239872 E 51, 18313953014021097 E 53, 13836452719976736 E 55, 10008846401369789 E 57, 69445925967993437 E 60, 46295304132217467 E 62, 29697696672416040 E 64, 18357899218799191 E 66, 10949949467561163 E 68, 63099377018238265 E 71, 35169086687849987 E 73, 18979606250525516 E 75, 99275305269491582 E 78, 50377253447791510 E 80, 24822988436314347 E 82, 11886799771153920 E 84, 55362008117696621 E 87, 25096941316163725 E 89, 11081555707795054 E 91, 47691909845709007 E 94, 20018482148738901 E 96, 82002077222765082 E 99, 32800318156155156 E 101, 12818323771593334 E 103, 48968178398443655 E 106, 18295553014016614 E 108, 66886092859920362 E 111, 23937880311054160 E 113, 83904962196041599 E 116, 28815512465744624 E 118, 97001637343165952 E 121, 32019615708332072 E 123, 10368149835395690 E 125, 32945196302105716 E 128, 10276385065293149 E 130, 31476925417232982 E 133, 94708490619958077 E 136, 28000530572406815 E 138, 81368387621165390 E 141, 23247924108224290 E 143, bnil.
Definition r35 := 71916385172655795 E 17, 83225143340419486 E 18, 58054802372508041 E 19, 28971137977006322 E 20, 11252641844214887 E 21, 35773234739496739 E 23, 96252118016219455 E 25, 22448047758089818 E 26, 46199052977389102 E 28, 85077405008248060 E 30, 14175972911591060 E 31, 21567538701682776 E 33, 30189076280966334 E 35, 39127867068232885 E 37, 47216854723904777 E 39, 53302969975253097 E 41, 56527458234601515 E 43, 56522112002151784 E 45, 53462324497466883 E 47, 47975334011100291 E 49, 40951708122524027 E 51, 33330675721787796 E 53, 25922357561433288 E 55, 19302856593063942 E 57, 13787078902756550 E 59, 94612920477394693 E 62, 62477605046793970 E 64, 39756922495291103 E 66, 24411256222321276 E 68, 14480760821894029 E 70, 83083684276836946 E 73, 46156221673182716 E 75, 24852651080258029 E 77, 12982384178353016 E 79, 65851026795660076 E 82, 32461006575067241 E 84, 15563148093945000 E 86, 72626483907652956 E 89, 33011373366568301 E 91, 14625012027330946 E 93, 63193344986406828 E 96, 26647333393379435 E 98, 10972249642126194 E 100, 44140535867024523 E 103, 17358375153265232 E 105, 66762015007129533 E 108, 25125141155611589 E 110, 92565079018500062 E 113, 33399344728678246 E 115, 11807704489359921 E 117, 40917306020206740 E 120, 13903781454424605 E 122, 46345432862688478 E 125, 15159561806022216 E 127, 48676999197437564 E 130, 15348453452765793 E 132, 47539009465039033 E 135, 14468262461001640 E 137, 43280746222395432 E 140, 12729522945907253 E 142, bnil.
Definition r36 := 71284408894448370 E 17, 84811219543061339 E 18, 60839260856356530 E 19, 31224613137924171 E 20, 12473531044725869 E 21, 40785526109510334 E 23, 11286955708817937 E 24, 27074938778900820 E 26, 57312176092598291 E 28, 10855624062747487 E 29, 18604650319879584 E 31, 29113761510581749 E 33, 41915770079024484 E 35, 55878445925431461 E 37, 69356349508723899 E 39, 80532656260977908 E 41, 87843951040604029 E 43, 90344737574907708 E 45, 87895094438013262 E 47, 81127358385025237 E 49, 71228542359119133 E 51, 59629204728850952 E 53, 47700441026907034 E 55, 36534452171945986 E 57, 26840246441985199 E 59, 18945147994554120 E 61, 12867830335280006 E 63, 84222316965957095 E 66, 53190992545726571 E 68, 32454352233454116 E 70, 19152742323346699 E 72, 10944077833052567 E 74, 60611550469916741 E 77, 32566487316064233 E 79, 16990761304807747 E 81, 86148184941125167 E 84, 42483030806173264 E 86, 20391397181980816 E 88, 95334371325207179 E 91, 43442631149841564 E 93, 19307463881358335 E 95, 83741678531285956 E 98, 35466442296957042 E 100, 14675523595767314 E 102, 59360718603039053 E 105, 23483001598795902 E 107, 90900608276815732 E 110, 34446061850599132 E 112, 12783932902145675 E 114, 46486426218244981 E 117, 16569212830241433 E 119, 57911117872290747 E 122, 19855011380790564 E 124, 66801165158531276 E 127, 22062533820865437 E 129, 71553424428085925 E 132, 22795553894339865 E 134, 71359307465583869 E 137, 21956505612658582 E 139, 66422444351245174 E 142, bnil.
Definition r37 := 70660281686346693 E 17, 86362542965000774 E 18, 63659820121105375 E 19, 33575901753563639 E 20, 13784383059809071 E 21, 46321337811858154 E 23, 13174521148538561 E 24, 32479722398350840 E 26, 70661221801109489 E 28, 13755624868110967 E 29, 24229235134274840 E 31, 38968189279389227 E 33, 57661227626303947 E 35, 79003426973689172 E 37, 10078213071303042 E 38, 12027225638306143 E 40, 13483473168162139 E 42, 14252450804459872 E 44, 14251098892865304 E 46, 13519115945714596 E 48, 12199230580321139 E 50, 10496269803564565 E 52, 86297077312672115 E 55, 67931959093394035 E 57, 51292751175353753 E 59, 37210503579780610 E 61, 25975924129027812 E 63, 17473949569950940 E 65, 11342277494045179 E 67, 71126831376558159 E 70, 43140967509168811 E 72, 25335911717280231 E 74, 14421527186803036 E 76, 79638911273367521 E 79, 42703730134494579 E 81, 22253468776686698 E 83, 11278873390710494 E 85, 55641123082772963 E 88, 26736041868340575 E 90, 12521675776982017 E 92, 57196613572312485 E 95, 25496790820535115 E 97, 11098397607509442 E 99, 47199247287556628 E 102, 19621827316026101 E 104, 79779765598934056 E 107, 31739845043578700 E 109, 12361650740699116 E 111, 47152016204224436 E 114, 17622229433315723 E 116, 64555832560035822 E 119, 23189665729929131 E 121, 81714969256778845 E 124, 28256246486857018 E 126, 95914613823282730 E 129, 31971188996689788 E 131, 10468332133961292 E 133, 33680378095931551 E 136, 10650955013611163 E 138, 33116099896312024 E 141, bnil.
Definition r38 := 70043891182906681 E 17, 87879741252336371 E 18, 66514808895676318 E 19, 36025586326844829 E 20, 15188671466163169 E 21, 52417064879454076 E 23, 15310580005413714 E 24, 38764860933462591 E 26, 86612158890081249 E 28, 17316166847299905 E 29, 31324653581714692 E 31, 51740784575685990 E 33, 78629174837018014 E 35, 11064288174168774 E 36, 14495704766166348 E 38, 17766420944527664 E 40, 20455745779937996 E 42, 22206619499275571 E 44, 22804516578695659 E 46, 22217779140108242 E 48, 20590401635161135 E 50, 18194811185915135 E 52, 15363458361106891 E 54, 12420740780303093 E 56, 96318546885571574 E 59, 71762926886488637 E 61, 51450115999376699 E 63, 35545715685383765 E 65, 23696126370282195 E 67, 15261299604737428 E 69, 95066818988495990 E 72, 57339868937492335 E 74, 33520658113204319 E 76, 19011122744453560 E 78, 10469585098706803 E 80, 56032838068627838 E 83, 29167009476662412 E 85, 14777581973425055 E 87, 72926595508704930 E 90, 35077824011063560 E 92, 16455909675170546 E 94, 75338767371002376 E 97, 33680203055836059 E 99, 14710618953807655 E 101, 62808264485000676 E 104, 26227179433673478 E 106, 10716306773640165 E 108, 42864555412658217 E 111, 16792047560738178 E 113, 64453393183352325 E 116, 24249454901961440 E 118, 89462813899580896 E 121, 32376602242297656 E 123, 11498090215483583 E 125, 40084606755807672 E 128, 13722500191535418 E 130, 46145948054383200 E 133, 15248062672045574 E 135, 49523108738397823 E 138, 15813943361892284 E 140, bnil.
Definition r39 := 69435126755740573 E 17, 89363431013348774 E 18, 69402597624153390 E 19, 38574175162622338 E 20, 16689861430868046 E 21, 59110322157641500 E 23, 17719283840952835 E 24, 46042687798711966 E 26, 10557764525151742 E 27, 21662945486434138 E 29, 40218522735762655 E 31, 68178594850105297 E 33, 10633465187735993 E 34, 15356467182274524 E 36, 20648307767045943 E 38, 25973042147197080 E 40, 30691372226293903 E 42, 34194941791509324 E 44, 36039518624691499 E 46, 36036091097073244 E 48, 34275276182648897 E 50, 31084435192722767 E 52, 26937906724923881 E 54, 22351255029236372 E 56, 17788691774856087 E 58, 13602351864169777 E 60, 10008755571448856 E 62, 70967732902483257 E 65, 48554673968120071 E 67, 32094106154431663 E 69, 20518370568093650 E 71, 12701376697970368 E 73, 76205598766410358 E 76, 44357023531599460 E 78, 25070582779190616 E 80, 13770761083885692 E 82, 73567775769800145 E 85, 38254235898339110 E 87, 19375037634325534 E 89, 95646646560793130 E 92, 46051047256284654 E 94, 21637977404097770 E 96, 99278089711994872 E 99, 44503097067853094 E 101, 19500990918187161 E 103, 83574173365202765 E 106, 35046630652352723 E 108, 14387326693447583 E 110, 57845036502945897 E 113, 22787092001108463 E 115, 87988474750142162 E 118, 33315555882975672 E 120, 12374181807845925 E 122, 45101569818142583 E 125, 16137056064656134 E 127, 56697077034593963 E 130, 19567788708975382 E 132, 66359576782547645 E 135, 22119617287190441 E 137, 72492097635054355 E 140, bnil.
Definition r40 := 68833879485347305 E 17, 90814218012844394 E 18, 72321597571391848 E 19, 41222104860018865 E 20, 18291406636241333 E 21, 66439928475879254 E 23, 20426305374534360 E 24, 54436008642628151 E 26, 12802133548795652 E 27, 26941060246644413 E 29, 51299316395544851 E 31, 89191389833643900 E 33, 14267241199596203 E 34, 21132336167700911 E 36, 29142863980846470 E 38, 37597815872234921 E 40, 45566798644081951 E 42, 52069908672912424 E 44, 56285552835931941 E 46, 57722996753896773 E 48, 56310008825951407 E 50, 52377072965849636 E 52, 46553876630239885 E 54, 39617568297932568 E 56, 32338801690978954 E 58, 25362264833597453 E 60, 19140281422013199 E 62, 13919494299537837 E 64, 97676014868103603 E 67, 66218083308118119 E 69, 43419886293539070 E 71, 27567104710252527 E 73, 16963748913336759 E 75, 10127260802941422 E 77, 58706840987737758 E 80, 33073255666201588 E 82, 18121802299646488 E 84, 96646934671216901 E 87, 50204879332762318 E 89, 25419556494124006 E 91, 12552568673962594 E 93, 60492934975838090 E 96, 28466647619528114 E 98, 13087843408490547 E 100, 58820606118039101 E 103, 25854722684436861 E 105, 11120109452658646 E 107, 46820700550827919 E 110, 19307183701063859 E 112, 78007574807777612 E 115, 30893613890507238 E 117, 11997342468115752 E 119, 45703510918907205 E 122, 17085190260837071 E 124, 62697116800598303 E 127, 22593267404961089 E 129, 79975183128208495 E 132, 27817124217858544 E 134, 95100186519377980 E 137, 31966094050539930 E 139, bnil.
Definition r41 := 68240042133414724 E 17, 92232697363054408 E 18, 75270259947255863 E 19, 43969742740511923 E 20, 19996746343175070 E 21, 74445889639831958 E 23, 23458878829906830 E 24, 64078715737151561 E 26, 15446243144056791 E 27, 33317334964881336 E 29, 65025505752027300 E 31, 11588116281957811 E 32, 18999780068894261 E 34, 28845326320455270 E 36, 40773700578582655 E 38, 53917648724172996 E 40, 66978846957722898 E 42, 78450752740737297 E 44, 86921790447154048 E 46, 91369713544114419 E 48, 91361003135341734 E 50, 87104087726688176 E 52, 79355195467855712 E 54, 69219692855908859 E 56, 57914623016787834 E 58, 46555919429034578 E 60, 36012879887456477 E 62, 26844525664357562 E 64, 19308255134100000 E 66, 13416974380560575 E 68, 90175719576796258 E 71, 58683376893100692 E 73, 37014239829589439 E 75, 22649681418364166 E 77, 13458044577451114 E 79, 77712948303602312 E 82, 43645658340084030 E 84, 23858932087270717 E 86, 12703755644491565 E 88, 65929151826885082 E 91, 33370711614446251 E 93, 16483934669016668 E 95, 79508936373464631 E 98, 37468915205069253 E 100, 17260602689274166 E 102, 77766005946489404 E 105, 34283285823016949 E 107, 14795674509906589 E 109, 62537323337476117 E 112, 25898860127257514 E 114, 10513228786995837 E 116, 41848124338023176 E 119, 16340451684963824 E 121, 62612043287557666 E 124, 23550991828498583 E 126, 86988984194789901 E 129, 31561966523904946 E 131, 11252386615519797 E 133, 39430964210551446 E 136, 13585299658689237 E 138, bnil.
Definition r42 := 67653509115585753 E 17, 93619453711148160 E 18, 78247075047976483 E 19, 46817389213251755 E 20, 21809302588703071 E 21, 83169380316640691 E 23, 26845839106695383 E 24, 75116414964521624 E 26, 18548047937645123 E 27, 40982835958044108 E 29, 81935756727823796 E 31, 14957594132198878 E 32, 25122194353751481 E 34, 39070168706183180 E 36, 56573283479972500 E 38, 76634462021662713 E 40, 97519877929032300 E 42, 11700791708704473 E 43, 13280356495049943 E 45, 14300344938074952 E 47, 14647668374913082 E 49, 14305720883649223 E 51, 13350892722085723 E 53, 11929671288129597 E 55, 10224710835483944 E 57, 84198006499524846 E 60, 66718911307068725 E 62, 50946120333281999 E 64, 37537277708772390 E 66, 26720142337621995 E 68, 18396630653000436 E 70, 12263892165990979 E 72, 79240401395522369 E 75, 49671192204497729 E 77, 30233550140246467 E 79, 17884026642742191 E 81, 10289108489741900 E 83, 57617247648569073 E 86, 31426678314106607 E 88, 16707393736155757 E 90, 86628657553066401 E 93, 43835092152889263 E 95, 21659175947945689 E 97, 10455915705806688 E 99, 49341448898105744 E 102, 22772501761419373 E 104, 10284150304320947 E 106, 45465899442289004 E 109, 19685904128794124 E 111, 83514483592192935 E 114, 34728206292814894 E 116, 14160785189831294 E 118, 56642251436491516 E 121, 22233070841099232 E 123, 85667464342826418 E 126, 32414260382136490 E 128, 12047614657510964 E 130, 43999407125455593 E 133, 15794458859772754 E 135, 55744466007805661 E 138, bnil.
Definition r43 := 67074176474680369 E 17, 94975061423420382 E 18, 81250571415428328 E 19, 49765280079056722 E 20, 23732477513660539 E 21, 92652724883507379 E 23, 30617659740055396 E 24, 87707064735219419 E 26, 22172041723037854 E 27, 50155597627940540 E 29, 10266026971106610 E 30, 19186838815199395 E 32, 32992327441489504 E 34, 52530934031620317 E 36, 77874681465164269 E 38, 10800020230449763 E 39, 14070501456682502 E 41, 17284148562096085 E 43, 20084410229044544 E 45, 22141789647395987 E 47, 23219441970156609 E 49, 23217223629373053 E 51, 22183407835515758 E 53, 20293829030845714 E 55, 17807552890483597 E 57, 15013184341725852 E 59, 12179735529293447 E 61, 95217771299822342 E 64, 71827001384874269 E 66, 52345803378470312 E 68, 36897725545366780 E 70, 25183024848762716 E 72, 16658832260479044 E 74, 10691061781120663 E 76, 66622943056719599 E 79, 40347667031321357 E 81, 23765631424921383 E 83, 13625192454788293 E 85, 76086424414888850 E 88, 41412933145226155 E 90, 21984038919090230 E 92, 11389022887539788 E 94, 57613616459709550 E 97, 28475015534176854 E 99, 13757277703439881 E 101, 65005496407398174 E 104, 30055675794144943 E 106, 13603875033023846 E 108, 60304676666384737 E 111, 26192456031909530 E 113, 11151045464987978 E 115, 46552112380978386 E 118, 19063884664751900 E 120, 76610658419158976 E 123, 30222091466427531 E 125, 11707484473594203 E 127, 44549970761280028 E 130, 16657586246986589 E 132, 61219375776849417 E 135, 22121002989395659 E 137, bnil.
Definition r44 := 66501941854365754 E 17, 96300084766211477 E 18, 84279315013064005 E 19, 52813588774500164 E 20, 25769650816405471 E 21, 10293937730716145 E 22, 34806489615107856 E 24, 10202162616099674 E 25, 26389787495324806 E 27, 61083565423624351 E 29, 12793335123386404 E 30, 24465971098305777 E 32, 43047765447513630 E 34, 70134576730305426 E 36, 10638817553486355 E 37, 15097400508988086 E 39, 20126494265717963 E 41, 25298096996095669 E 43, 30080188236855097 E 45, 33932514675229087 E 47, 36411383565983332 E 49, 37254432900530105 E 51, 36423222834535223 E 53, 34095470282028659 E 55, 30613969136812842 E 57, 26410160325396188 E 59, 21923960127225389 E 61, 17538085110445232 E 63, 13537391688567439 E 65, 10095138919607924 E 67, 72813727499422423 E 70, 50851627890305545 E 72, 34421110303722705 E 74, 22603961697607844 E 76, 14413550925513788 E 78, 89320077941702150 E 81, 53834855731310305 E 83, 31582056645211515 E 85, 18046315179653653 E 87, 10050808176254593 E 89, 54595410563047038 E 92, 28941351184533815 E 94, 14981013128163317 E 96, 75764149103734699 E 99, 37455537941114218 E 101, 18109955718354884 E 103, 85679633480324869 E 106, 39682364985680000 E 108, 17999885157484653 E 110, 79997940702621458 E 113, 34849939482530995 E 115, 14887086298571314 E 117, 62382905723779306 E 120, 25652357852544795 E 122, 10354914544285866 E 124, 41045874573782931 E 127, 15982226335424598 E 129, 61148507882656321 E 132, 22995700306389864 E 134, 85024975601850045 E 137, bnil.
Definition r45 := 65936704473266761 E 17, 97595078083626510 E 18, 87331908418238086 E 19, 55962428557474115 E 20, 27924177328677427 E 21, 11407390011929161 E 22, 39446188406132011 E 24, 11824472379919323 E 25, 31280473067594061 E 27, 74047766060126088 E 29, 15860731096377654 E 30, 31020943697037389 E 32, 55820956696500247 E 34, 93010878705903486 E 36, 14429472958152602 E 37, 20941864475618744 E 39, 28552082819189448 E 41, 36704082131330957 E 43, 44633837098287541 E 45, 51494060723264553 E 47, 56511381249095501 E 49, 59133629775544531 E 51, 59127969084712540 E 53, 56606908320268259 E 55, 51981724323458407 E 57, 45862791691162098 E 59, 38937401413750630 E 61, 31855816335517208 E 63, 25147814518244415 E 65, 19179457409582265 E 67, 14148034587775906 E 69, 10105239304866079 E 71, 69956096338155075 E 74, 46983379924025884 E 76, 30640068276348819 E 78, 19419002910505315 E 80, 11970175515507527 E 82, 71818534864611591 E 85, 41970473893090699 E 87, 23906475453171238 E 89, 13280975233868706 E 91, 72003220757267314 E 94, 38118308385275772 E 96, 19715850797244214 E 98, 99684393695568714 E 101, 49293300951351680 E 103, 23851050575599115 E 105, 11297617801749948 E 107, 52410523810456919 E 110, 23822482924255796 E 112, 10613770941608352 E 114, 46369975704128821 E 117, 19872488554189212 E 119, 83574435397672614 E 122, 34502629815822100 E 124, 13987326813673913 E 126, 55700875979222094 E 129, 21795666924730076 E 131, 83828268967431894 E 134, 31699319779342188 E 136, bnil.
Definition r46 := 65378365099509339 E 17, 98860585972094850 E 18, 90406990031691621 E 19, 59211854635582775 E 20, 30199384709772018 E 21, 12610194255060754 E 22, 44572360713685747 E 24, 13657531627828645 E 25, 36931492505381877 E 27, 89365714918640094 E 29, 19566778117487562 E 30, 39119164892495481 E 32, 71956712398196036 E 34, 12255980432435918 E 35, 19435946941734873 E 37, 28834474291494792 E 39, 40186148579455115 E 41, 52807453639488437 E 43, 65642885400092701 E 45, 77414698486560325 E 47, 86845093133195653 E 49, 92893895815786660 E 51, 94948706124428731 E 53, 92919984107859447 E 55, 87223620505626321 E 57, 78666127357867113 E 59, 68271305997251837 E 61, 57095784247821715 E 63, 46074400736999979 E 65, 35920302348014921 E 67, 27085949808403520 E 69, 19776020885081557 E 71, 13994657918193922 E 73, 96078328580398993 E 76, 64049452711298581 E 78, 41495134511556978 E 80, 26146608519673656 E 82, 16035999009059827 E 84, 95796142396146116 E 87, 55778187884816143 E 89, 31675504835404107 E 91, 17554572567704700 E 93, 94998498042821305 E 96, 50227718336533056 E 98, 25959715522689119 E 100, 13122165475877058 E 102, 64903780189166386 E 105, 31426371951196565 E 107, 14902899560442903 E 109, 69244330610644686 E 112, 31536380415812300 E 114, 14083933176536260 E 116, 61699878548435485 E 119, 26524700206931998 E 121, 11193714414958371 E 123, 46387583499696414 E 126, 18883133597934629 E 128, 75531346566391697 E 131, 29695633670953195 E 133, 11478815760097435 E 135, bnil.
Definition r47 := 64826826025689244 E 17, 10009714345184707 E 17, 93503233302082503 E 19, 62561866238690746 E 20, 32598571255310283 E 21, 13907021788385604 E 22, 50222388875877486 E 24, 15722737610986090 E 25, 43439053581452941 E 27, 10739507056305258 E 28, 24025055963596464 E 30, 49075832089610183 E 32, 92232388936176555 E 34, 16050740580105613 E 35, 26006880250703478 E 37, 39421275438882664 E 39, 56134718659856518 E 41, 75368053663596242 E 43, 95723146252797132 E 45, 11534273096409907 E 46, 13220559183008490 E 48, 14448729344207701 E 50, 15089319248412287 E 52, 15087872172251142 E 54, 14470761611381821 E 56, 13334710232945147 E 58, 11824224413382952 E 60, 10103625345836700 E 62, 83305123362371090 E 65, 66357635765675188 E 67, 51125075873550912 E 69, 38138872367298557 E 71, 27575939804951449 E 73, 19343391742348231 E 75, 13175339443920301 E 77, 87213318864752090 E 80, 56148775563129099 E 82, 35185220195680181 E 84, 21475912990488026 E 86, 12776367955592100 E 88, 74132045023295338 E 91, 41977072630715180 E 93, 23210158621936213 E 95, 12538463624497649 E 97, 66212552568052533 E 100, 34196799408109695 E 102, 17281821380235004 E 104, 85497487874581711 E 107, 41425664933166779 E 109, 19666295354069690 E 111, 91514480722350734 E 114, 41758181984628874 E 116, 18691390151385323 E 118, 82100812974105759 E 121, 35400621656856129 E 123, 14989188436906675 E 125, 62343352335080098 E 128, 25479038741006527 E 130, 10235007024354111 E 132, 40423357183689741 E 135, bnil.
Definition r48 := 64281991044259168 E 17, 10130527613534245 E 17, 96619345967017770 E 19, 66012408636921885 E 20, 35125003816980308 E 21, 15302648008384309 E 22, 56435464432930826 E 24, 18043057798883752 E 25, 50908811419069021 E 27, 12853754630149905 E 28, 29366008058999574 E 30, 61261043375844124 E 32, 11758108074254209 E 33, 20897155770132892 E 35, 34579535544562875 E 37, 53530452928231817 E 39, 77846950798235555 E 41, 10674254444865591 E 42, 13845471090623445 E 44, 17038125100197585 E 46, 19944467129101857 E 48, 22260940897511856 E 50, 23742417474684751 E 52, 24245149949126473 E 54, 23748161650792439 E 56, 22349306091907719 E 58, 20239281404754265 E 60, 17662074915502993 E 62, 14872307404226405 E 64, 12098729841434372 E 66, 95197412998944954 E 69, 72527281844916480 E 71, 53555774920232136 E 73, 38366404354733885 E 75, 26688417493949980 E 77, 18042071807905286 E 79, 11862780900963347 E 81, 75918769017781947 E 84, 47324193492324201 E 86, 28752905118898579 E 88, 17038174702726929 E 90, 98530804689030182 E 93, 55639191547408252 E 95, 30696571613278452 E 97, 16554983410601066 E 99, 87320612230273392 E 102, 45067527840547450 E 104, 22770392127304242 E 106, 11267552577804018 E 108, 54629299195934892 E 111, 25961864244795296 E 113, 12098475114402554 E 115, 55306180648278603 E 118, 24809759160776066 E 120, 10925190486070136 E 122, 47243199180764851 E 125, 20067551827091266 E 127, 83758782081411366 E 130, 34362008645328364 E 132, 13860084234883925 E 134, bnil.
Definition r49 := 63743765423326570 E 17, 10248550039272229 E 17, 99754069308851771 E 19, 69563375105376581 E 20, 37781915829724445 E 21, 16801949976030707 E 22, 63252618226967939 E 24, 20643099488179910 E 25, 59456528458010997 E 27, 15324308869967318 E 28, 35738962219362028 E 30, 76107759550070892 E 32, 14911818308362629 E 33, 27053895159521796 E 35, 45699551567408680 E 37, 72217828921674712 E 39, 10721025124694683 E 40, 15006653322730838 E 42, 19870370297991908 E 44, 24961589410287902 E 46, 29828081709298290 E 48, 33985923036188919 E 50, 37002693773816997 E 52, 38573255406848190 E 54, 38569550034093064 E 56, 37053727551322600 E 58, 34254398593312739 E 60, 30515218210604429 E 62, 26230507975614885 E 64, 21783206034473356 E 66, 17496892081945767 E 68, 13607896020823885 E 70, 10257694579057448 E 72, 75015064564908230 E 75, 53268956998810357 E 77, 36761380120474037 E 79, 24674364908495952 E 81, 16119914902327682 E 83, 10257722801260891 E 85, 63621463199598398 E 88, 38485683583904901 E 90, 22719690617483732 E 92, 13096808202323989 E 94, 73761345231739084 E 97, 40608974990743648 E 99, 21865750822251208 E 101, 11520351342760421 E 103, 59419211408076726 E 106, 30015139860308266 E 108, 14855621603784070 E 110, 72070164248840720 E 113, 34285045159209976 E 115, 15999345830519132 E 117, 73266524038813677 E 120, 32935673736937875 E 122, 14538892988735787 E 124, 63043592413914862 E 127, 26861573092269840 E 129, 11249524652387684 E 131, 46320799721888061 E 134, bnil.
Definition r50 := 63212055882855767 E 17, 10363832351432700 E 17, 10290617742596098 E 18, 73214608836806756 E 20, 40572505442938585 E 21, 18409903951734988 E 22, 70716749121595140 E 24, 23549180120250378 E 25, 69208760843996659 E 27, 18201433291514065 E 28, 43314336243215879 E 30, 94120693633887082 E 32, 18817171627822839 E 33, 34835494772934661 E 35, 60044504381170173 E 37, 96822318559579119 E 39, 14666874231142941 E 40, 20948634035633371 E 42, 28304061995824859 E 44, 36281587229831937 E 46, 44239565559456560 E 48, 51434710775543698 E 50, 57142924889719167 E 52, 60783747964711215 E 54, 62018028906178720 E 56, 60796366560503881 E 58, 57350144647818782 E 60, 52132338159637267 E 62, 45726722177926251 E 64, 38748768013552779 E 66, 31759219339714927 E 68, 25204191005615433 E 70, 19386726394783378 E 72, 14466923970485925 E 74, 10482743322267890 E 76, 73818575624440448 E 79, 50558359734947931 E 81, 33704114164030293 E 83, 21884889025053452 E 85, 13850654479856062 E 87, 85494688085579001 E 90, 51500999227376885 E 92, 30293681333774882 E 94, 17409599595730481 E 96, 97803720384971961 E 99, 53736720547099477 E 101, 28889892509510816 E 103, 15204794093495129 E 105, 78373187006260004 E 108, 39581428069045413 E 110, 19594295500811218 E 112, 95115740673742397 E 115, 45292202029080311 E 117, 21164126737213985 E 119, 97081144236138585 E 122, 43729373578976219 E 124, 19348908114040719 E 126, 84124124416045797 E 129, 35949835019231171 E 131, 15104710448792652 E 133, bnil.
Definition r51 := 62686770571266826 E 17, 10476424387033507 E 17, 10607447651873827 E 18, 76965904803462349 E 20, 43499933752342081 E 21, 20131582874106344 E 22, 78872651328408887 E 24, 26789398237414011 E 25, 80303571308841268 E 27, 21541134466923224 E 28, 52286039911637333 E 30, 11588620954891447 E 31, 23631683695541012 E 33, 44622806066413141 E 35, 78451897928769880 E 37, 12903322602805120 E 38, 19937009758355215 E 40, 29045238693969068 E 42, 40028115136922904 E 44, 52335946328579869 E 46, 65091209500927874 E 48, 77190827358623260 E 50, 87472181670523873 E 52, 94905905140015409 E 54, 98769336469129060 E 56, 98759834012162894 E 58, 95024569661684470 E 60, 88106382554560488 E 62, 78825930408472260 E 64, 68132745032793235 E 66, 56959587702965326 E 68, 46107214032996748 E 70, 36174269105089433 E 72, 27534088631742413 E 74, 20350202513464828 E 76, 14617017606009880 E 78, 10211403922637404 E 80, 69434419553522911 E 83, 45987064874522345 E 85, 29686645381918325 E 87, 18690868449500915 E 89, 11484327109873929 E 91, 68903539236853831 E 94, 40390373162519029 E 96, 23144302037201140 E 98, 12970583837043911 E 100, 71126914240694217 E 103, 38182844672793727 E 105, 20074972549036076 E 107, 10341383525700354 E 109, 52217561774857972 E 112, 25854675789077175 E 114, 12557694668219803 E 116, 59853097757889763 E 119, 28004058410022199 E 121, 12866462737541269 E 123, 58068713826570831 E 126, 25751714418978164 E 128, 11224896593112954 E 130, 48105830728042916 E 133, bnil.
Definition r52 := 62167819042424988 E 17, 10586375106757753 E 17, 10925780418993886 E 18, 80817011569295552 E 20, 46567323129265264 E 21, 21972153787496686 E 22, 87767040329954968 E 24, 30393705007944778 E 25, 92891268575787070 E 27, 25405665860551703 E 28, 62874085309676289 E 30, 14208331643972579 E 31, 29541499797603187 E 33, 56875105095068935 E 35, 10195229009693381 E 36, 17097156394315422 E 38, 26934669284171776 E 40, 40008870525610377 E 42, 56218150109466945 E 44, 74944861819883394 E 46, 95037445544027646 E 48, 11491294784678375 E 49, 13277132264122947 E 51, 14687868796749145 E 53, 15585439842957240 E 55, 15889447317467599 E 57, 15588200563300464 E 59, 14736664113553881 E 61, 13442893492430824 E 63, 11847083893269069 E 65, 10098442986117734 E 67, 83346724633841033 E 70, 66673240237545053 E 72, 51743369097443122 E 74, 38992850702376656 E 76, 28556654433375975 E 78, 20340721902551629 E 80, 14102240246154973 E 82, 95231675120029421 E 85, 62681491984961977 E 87, 40238351833072860 E 89, 25208603677529902 E 91, 15421170155286747 E 93, 92169292656847184 E 96, 53849923731081829 E 98, 30770401878940838 E 100, 17204429353794080 E 102, 94168850142728818 E 105, 50480848785001610 E 107, 26514476296707861 E 109, 13650662693286314 E 111, 68914244021295867 E 114, 34128137578996947 E 116, 16585252443257902 E 118, 79120537010730805 E 121, 37064677780014188 E 123, 17055957005493734 E 125, 77121038356778132 E 128, 34275351394869283 E 130, 14977183222428671 E 132, bnil.
Definition r53 := 61655112233013443 E 17, 10693732610357401 E 17, 11245502875940266 E 18, 84767633053682979 E 20, 49777755644188438 E 21, 23936875223093334 E 22, 97448577390975654 E 24, 34393976250248229 E 25, 10713517329193164 E 26, 29864062270172256 E 28, 75327417729234479 E 30, 17349585003866442 E 31, 36765825663112265 E 33, 72144080587872361 E 35, 13180835328215847 E 36, 22528791974339977 E 38, 36173809603860863 E 40, 54765606152847286 E 42, 78432765088909445 E 44, 10656939835045072 E 45, 13773849898548370 E 47, 16974606963336565 E 49, 19989660300148167 E 51, 22538783051161012 E 53, 24375944016023881 E 55, 25329231389349548 E 57, 25326791026310193 E 59, 24403630393360882 E 61, 22689199923028868 E 63, 20380233109769722 E 65, 17706121531384136 E 67, 14894604408075674 E 69, 12144048036103808 E 71, 96059021252050646 E 74, 73780235400375148 E 76, 55072402415556273 E 78, 39982021771351565 E 80, 28252587889764362 E 82, 19445688548461381 E 84, 13045269053846127 E 86, 85354367186003027 E 89, 54501221170999672 E 91, 33981823620215110 E 93, 20700819754352394 E 95, 12327026932744752 E 97, 71792389421473916 E 100, 40912641621549436 E 102, 22824251701748404 E 104, 12470618117343368 E 106, 66760019545778122 E 109, 35031539613236352 E 111, 18025469692077002 E 113, 90983429426601731 E 116, 45065473137268217 E 118, 21912060790686023 E 120, 10462281215351100 E 122, 49069815825481687 E 125, 22614312575367148 E 127, 10243883643040898 E 129, 45623129573788846 E 132, bnil.
Definition r54 := 61148562440283416 E 17, 10798544151784351 E 17, 11566504859259500 E 18, 88817430247801782 E 20, 53134271581452283 E 21, 26031094538138339 E 22, 10796789265196736 E 23, 38824084886943485 E 25, 12321241045765286 E 26, 34992705830561368 E 28, 89926979751800216 E 30, 21102593750153380 E 31, 45561927072861149 E 33, 91089941991537819 E 35, 16956077092230831 E 36, 29527977705625199 E 38, 48306315941448831 E 40, 74512969620197094 E 42, 10872669098879320 E 43, 15051720468389290 E 45, 19820939315056556 E 47, 24887662167239201 E 49, 29861078105120467 E 51, 34304129721618116 E 53, 37800140824784181 E 55, 40019361658088211 E 57, 40770365897578580 E 59, 40025363907007587 E 61, 37915478486427698 E 63, 34699491117069800 E 65, 30715251847653098 E 67, 26325484246151294 E 69, 21868938099290560 E 71, 17624599682145592 E 73, 13792344062066858 E 75, 10489361712846289 E 77, 77588406526616092 E 80, 55860832225067479 E 82, 39173251335285273 E 84, 26775432718077277 E 86, 17849514314913349 E 88, 11612457072499534 E 90, 73770347889471305 E 93, 45786767534038855 E 95, 27779735198243791 E 97, 16484110074172304 E 99, 95711028675969162 E 102, 54402442206647969 E 104, 30284976069482897 E 106, 16518596139147461 E 108, 88314771255061255 E 111, 46299699710971517 E 113, 23810656156319023 E 115, 12016292400726650 E 117, 59528821249592076 E 120, 28959293863063250 E 122, 13838644065291622 E 124, 64980050855379067 E 127, 29990164608328686 E 129, 13608706669192453 E 131, bnil.
Definition r55 := 60648083300174582 E 17, 10900856154053441 E 17, 11888679144286311 E 18, 92966022884769515 E 20, 56639868042140091 E 21, 28260245217669469 E 22, 11937760680115523 E 23, 43719973760050077 E 25, 14131472829140305 E 26, 40875924525515575 E 28, 10698902144015599 E 29, 25570884728718937 E 31, 56230756422310977 E 33, 11449991304865343 E 34, 21708198426545458 E 36, 38503163231916640 E 38, 64155140106344693 E 40, 10079168109801127 E 41, 14979407610285061 E 43, 21120810639064233 E 45, 28327934940610327 E 47, 36227742456276047 E 49, 44272020672273641 E 51, 51800880521831655 E 53, 58136808902264919 E 55, 62689543592560468 E 57, 65048437088711725 E 59, 65042161655081677 E 61, 62754336300715934 E 63, 58494888851803944 E 65, 52737142353428553 E 67, 46036961831438478 E 69, 38951646899325556 E 71, 31973140537544504 E 73, 25484263167866604 E 75, 19740178573192643 E 77, 14871915633893206 E 79, 10905500252769917 E 81, 77892557060350129 E 84, 54226432090351532 E 86, 36818760269966918 E 88, 24396927639029020 E 90, 15785601594970962 E 92, 99790134661692676 E 95, 61665757594371429 E 97, 37269180734257117 E 99, 22040158733143694 E 101, 12759673050656775 E 103, 72346382743884529 E 106, 40191218987102957 E 108, 21885670992178090 E 110, 11686196486414006 E 112, 61211762095920303 E 115, 31463173831167501 E 117, 15875516489904310 E 119, 78660572078320550 E 122, 38285227962622648 E 124, 18309914775963613 E 126, 86070378966037470 E 129, 39779591564490673 E 131, bnil.
Definition r56 := 60153589765800042 E 17, 11000714223842721 E 17, 12211921380711708 E 18, 97212991064633955 E 20, 60297497632215839 E 21, 30629844143000006 E 22, 13173235132297039 E 23, 49119728739025700 E 25, 16164934343726408 E 26, 47606624141962799 E 28, 12686866989032619 E 29, 30872933090454573 E 31, 69123268816390034 E 33, 14330940280457342 E 34, 27663892756403382 E 36, 49958173198759291 E 38, 84754499473600203 E 40, 13557437530594812 E 41, 20514907382634706 E 43, 29451527825973452 E 45, 40219324031997302 E 47, 52370168325738357 E 49, 65162104481922441 E 51, 77629384792701726 E 53, 88708166192013705 E 55, 97393746897526490 E 57, 10289553194949285 E 58, 10475588185042431 E 60, 10290846397593331 E 62, 97667320636013949 E 65, 89654487043853833 E 67, 79686775303085293 E 69, 68648278828265468 E 71, 57373774200396879 E 73, 46561242191998376 E 75, 36722138274720459 E 77, 28168794063863942 E 79, 21031557549250352 E 81, 15294889751027332 E 83, 10841415877670887 E 85, 74949502733121000 E 88, 50566091588341477 E 90, 33312718292497524 E 92, 21441800862895779 E 94, 13490947844528218 E 96, 83018141342070184 E 99, 49987644182008374 E 101, 29465398062894686 E 103, 17010395977070186 E 105, 96217404099880316 E 108, 53346655563010571 E 110, 29003165933567201 E 112, 15467923423548822 E 114, 80951441315218363 E 117, 41588653387863488 E 119, 20981138412833434 E 121, 10397481400882914 E 123, 50630033754356904 E 126, 24232632748036064 E 128, 11403343529933334 E 130, bnil.
Definition r57 := 59664998086289134 E 17, 11098163165835177 E 17, 12536130029460201 E 18, 10155787683527563 E 19, 64110067233078393 E 21, 33145488830982348 E 22, 14508878732299336 E 23, 55063652054028439 E 25, 18443981239224771 E 26, 55286954586161886 E 28, 14996377170807732 E 29, 37143956870223110 E 31, 84647494896396629 E 33, 17862617417585726 E 34, 35096602569560530 E 36, 64511979847467927 E 38, 11139845499033092 E 39, 18137484644745942 E 41, 27935241890953561 E 43, 40820137760884445 E 45, 56739492958014261 E 47, 75200191548951373 E 49, 95238947701990346 E 51, 11548626327474793 E 52, 13432370180611914 E 54, 15010844926222107 E 56, 16141939921385809 E 58, 16727186177588192 E 60, 16725570463237308 E 62, 16157143508886872 E 64, 15096382491499499 E 66, 13657548259968434 E 68, 11975725870240302 E 70, 10187588172127242 E 72, 84152756441950775 E 75, 67555020688996841 E 77, 52745310951223347 E 79, 40084181317736617 E 81, 29671120962680129 E 83, 21407190283585027 E 85, 15063591149225673 E 87, 10344399485507318 E 89, 69365278519661024 E 92, 45444310172559325 E 94, 29103615441831557 E 96, 18229037346177356 E 98, 11172224957740044 E 100, 67030986465841208 E 103, 39388009984181313 E 105, 22677208309235459 E 107, 12797628776202647 E 109, 70819701673602737 E 112, 38443869198231499 E 114, 20478873867886042 E 116, 10708848313696789 E 118, 54989958869029917 E 121, 27737604359864345 E 123, 13747871935828382 E 125, 66975249130200021 E 128, 32079857679891046 E 130, bnil.
Definition r58 := 59182225785982312 E 17, 11193246996806819 E 17, 12861206300849245 E 18, 10600018573026122 E 19, 68080436851770617 E 21, 35812854647933545 E 22, 15950562293111315 E 23, 61594335787483536 E 25, 20992692900052699 E 26, 64029011467044490 E 28, 17671902227771917 E 29, 44537883732375873 E 31, 10327644243548917 E 32, 22175786044345409 E 34, 44334987674312746 E 36, 82922071890266039 E 38, 14569939860205736 E 39, 24138202888579558 E 41, 37829446835936225 E 43, 56247346202458306 E 45, 79554239383913310 E 47, 10728706933365851 E 48, 13825912407853079 E 50, 17059272729520591 E 52, 20189891036275821 E 54, 22958195634323305 E 56, 25121164398080773 E 58, 26488567667323676 E 60, 26950583772960519 E 62, 26491318279862022 E 64, 25186262043188568 E 66, 23185447843846450 E 68, 20686955622418782 E 70, 17906807909220026 E 72, 15051065956350664 E 74, 12294439063086279 E 76, 97675843471107689 E 79, 75531586064314077 E 81, 56890775981529693 E 83, 41765715936449202 E 85, 29904818833355831 E 87, 20896346936510438 E 89, 14258035219330518 E 91, 95049438811651208 E 94, 61939758283909822 E 96, 39476518585390882 E 98, 24618826930892411 E 100, 15029893047670596 E 102, 89866315608214274 E 105, 52647181407516667 E 107, 30232057289315800 E 109, 17023347425734397 E 111, 94030913231347277 E 114, 50968557669765287 E 116, 27120129871140570 E 118, 14170498632154256 E 120, 72731650053812889 E 123, 36681132518046985 E 125, 18183369955958319 E 127, 88622757933690653 E 130, bnil.
Definition r59 := 58705191643971921 E 17, 11286008959465482 E 17, 13187054094015764 E 18, 11053938826466557 E 19, 72211418548156979 E 21, 38637692001939708 E 22, 17504362928634086 E 23, 68756735457813251 E 25, 23836964783262830 E 26, 73955573835589462 E 28, 20763039598428761 E 29, 53229502198909922 E 31, 12555690379131521 E 32, 27424321234011042 E 34, 55772720417165372 E 36, 10611198455180721 E 37, 18965822148045517 E 39, 31962367823707665 E 41, 50954729647091227 E 43, 77068585826534108 E 45, 11088168534798162 E 46, 15211262682462709 E 48, 19940374100763009 E 50, 25027751011037899 E 52, 30131258684070955 E 54, 34853242671030879 E 56, 38794260612186998 E 58, 41611041510124183 E 60, 43066620712398878 E 62, 43062456032381890 E 64, 41646800170017134 E 66, 38999243980496564 E 68, 35396484699476862 E 70, 31167692084958206 E 72, 26648741853396932 E 74, 22143242058660478 E 76, 17895455173894563 E 78, 14076909604008864 E 80, 10785586290632147 E 82, 80546199741956068 E 85, 58666416683659515 E 87, 41700576099397640 E 89, 28943743374449353 E 91, 19627633265366013 E 93, 13011017909950979 E 95, 84353679588796168 E 98, 53512591631655120 E 100, 33232880516719174 E 102, 20213081242269419 E 104, 12045760389418047 E 106, 70363968658633852 E 109, 40304277055576860 E 111, 22646463556134056 E 113, 12486929653977299 E 115, 67587858199722432 E 118, 35924080824362260 E 120, 18756318544649505 E 122, 96225579624697879 E 125, 48522797110367747 E 127, 24056939686510659 E 129, bnil.
Definition r60 := 58233815673983158 E 17, 11376491536044932 E 17, 13513579937585585 E 18, 11517492138985374 E 19, 76505775436455227 E 21, 41625823517098303 E 22, 19176565510831518 E 23, 76598243630030409 E 25, 27004603323910115 E 26, 85200878951768915 E 28, 24324989183294349 E 29, 63416810238618054 E 31, 15211925157439512 E 32, 33788749286758909 E 34, 69879783980060282 E 36, 13520363063094180 E 37, 24574820740358918 E 39, 42116558967709666 E 41, 68280091949487388 E 43, 10502265525776208 E 44, 15366031942032773 E 46, 21436987204781181 E 48, 28577786062513492 E 50, 36476578960721691 E 52, 44658766148334182 E 54, 52532729154361655 E 56, 59463671267719669 E 58, 64862012092605792 E 60, 68268494976956746 E 62, 69418644969185322 E 64, 68274239244806399 E 66, 65017369654750675 E 68, 60011073182051118 E 70, 53737075286170502 E 72, 46724458273583761 E 74, 39482715492032545 E 76, 32449413452681328 E 78, 25957912702301592 E 80, 20225748043597609 E 82, 15360463513219870 E 84, 11377511914402684 E 86, 82242877624350230 E 89, 58050970090794684 E 91, 40033290577397889 E 93, 26987535677613730 E 95, 17793222708483550 E 97, 11479030803474365 E 99, 72496309828431045 E 102, 44841397277832140 E 104, 27175626024284775 E 106, 16143377622568013 E 108, 94035962862674650 E 111, 53733114219341505 E 113, 30129788270036556 E 115, 16584711096272416 E 117, 89644514166957868 E 120, 47597538522245576 E 122, 24832833952960357 E 124, 12734457382323622 E 126, 64205742929947365 E 129, bnil.
Definition r61 := 57768019104588997 E 17, 11464736461658549 E 17, 13840692931534679 E 18, 11990618990819811 E 19, 80966220758581036 E 21, 44783141193107798 E 22, 20973663986205834 E 23, 85168763488808616 E 25, 30525423384038052 E 26, 97911434932121852 E 28, 28419060918118192 E 29, 75323574665734206 E 31, 18368831038081133 E 32, 41480247368948761 E 34, 87215469070933332 E 36, 17155515554200785 E 37, 31701500404781425 E 39, 55235319419740556 E 41, 91040164056996186 E 43, 14236303201901410 E 44, 21176372708459777 E 46, 30035126087798456 E 48, 40707121428096291 E 50, 52824113339954571 E 52, 65750841968558837 E 54, 78632340630561644 E 56, 90489823515541560 E 58, 10034953123878169 E 59, 10737972377739353 E 61, 11100823840203039 E 63, 11099749200222934 E 65, 10746399801006426 E 67, 10084221343266518 E 69, 91804178801080690 E 72, 81154052486669303 E 74, 69718899302259361 E 76, 58254299411785328 E 78, 47377111063614905 E 80, 37530220948925433 E 82, 28977346434559856 E 84, 21821238397081549 E 86, 16036449925737116 E 88, 11507932097378775 E 90, 80683922569848004 E 93, 55297676111194182 E 95, 37066043351637608 E 97, 24311112102227533 E 99, 15609662743181816 E 101, 98160055093553582 E 104, 60480207575862334 E 106, 36526343671465696 E 108, 21631362223986914 E 110, 12566375205778557 E 112, 71637797464420610 E 115, 40089644575366357 E 117, 22030592578268281 E 119, 11892280257132658 E 121, 63079046515467185 E 124, 32886487244852946 E 126, 16857343558131811 E 128, bnil.
Definition r62 := 57307724359753975 E 17, 11550784737417029 E 17, 14168304690264989 E 18, 12473256784867855 E 19, 85595417026832537 E 21, 48115603553464815 E 22, 22902362552396629 E 23, 94520782310601929 E 25, 34431348218743603 E 26, 11224687211142279 E 27, 33113216855976291 E 29, 89202115374000260 E 31, 22109539814907670 E 32, 50745152598383644 E 34, 10844328514780051 E 35, 21680513122109301 E 37, 40719537254079784 E 39, 72110352603618873 E 41, 12080139133669092 E 42, 19199709142038148 E 44, 29027378709068153 E 46, 41845118479186032 E 48, 57642799552457954 E 50, 76026749827090220 E 52, 96182319218189345 E 54, 11691090134120647 E 55, 13674566551748105 E 57, 15413076262976626 E 59, 16763184623817789 E 61, 17613668860817760 E 63, 17900627170199276 E 65, 17614836862069602 E 67, 16800361608021229 E 69, 15545310796117242 E 71, 13967154429165328 E 73, 12195765622843959 E 75, 10357320375752961 E 77, 85614816706897788 E 80, 68932249920284021 E 82, 54095478353900143 E 84, 41404048305830082 E 86, 30926640253594573 E 88, 22557082760743969 E 90, 16074364455809398 E 92, 11197340436782329 E 94, 76286107347390259 E 97, 50855192343587190 E 99, 33188320094923957 E 101, 21212303972346579 E 103, 13283962527083655 E 105, 81542103557528766 E 108, 49081851848464720 E 110, 28980673374189067 E 112, 16791986283829846 E 114, 95511016013200971 E 117, 53346860580550068 E 119, 29269093129768294 E 121, 15779408110465828 E 123, 83615067845730562 E 126, 43562990054710711 E 128, bnil.
Definition r63 := 56852855039700756 E 17, 11634676643313914 E 17, 14496329286821033 E 18, 12965339980429719 E 19, 90395975233510366 E 21, 51629232785388867 E 22, 24969576695837211 E 23, 10470944477240968 E 24, 38756511930141998 E 26, 12838083393127699 E 27, 38482649280678240 E 29, 10533632901617079 E 30, 26529163663504761 E 32, 61870034009040574 E 34, 13434802487367104 E 35, 27292400525357019 E 37, 52085780644450595 E 39, 93725687400303046 E 41, 15954310948908782 E 42, 25765954330854742 E 44, 39582679034692681 E 46, 57981336737891097 E 48, 81158643860386020 E 50, 10876837615408585 E 51, 13982285115644675 E 53, 17269699071625328 E 55, 20525338527423378 E 57, 23507866501010213 E 59, 25979313033539609 E 61, 27737563791496373 E 63, 28644034080930496 E 65, 28641258334996099 E 67, 27757459343763026 E 69, 26098057167966854 E 71, 23826730681155065 E 73, 21140409875000980 E 75, 18243140904898893 E 77, 15323185308084016 E 79, 12536333703118129 E 81, 99967093963529835 E 84, 77747594533816153 E 86, 59009914805146316 E 88, 43734413218130941 E 90, 31668124299551541 E 92, 22415663693000894 E 94, 15517808677264467 E 96, 10511591744464524 E 98, 69705448351073915 E 101, 45270739781546692 E 103, 28807509147493945 E 105, 17968354847616512 E 107, 10989949658811531 E 109, 65937368655933020 E 112, 38821615602030908 E 114, 22437445471912770 E 116, 12734363405889508 E 118, 70994725031279637 E 121, 38891615203530028 E 123, 20941042010369892 E 125, 11086128431002897 E 127, bnil.
Definition r64 := 56403335902094198 E 17, 11716451750883602 E 17, 14824683198273592 E 18, 13466800223221596 E 19, 95370454125135273 E 21, 55330111874455252 E 22, 27182434091529557 E 23, 11579262603584882 E 24, 43537364377487817 E 26, 14650190814683034 E 27, 44610396397562241 E 29, 12404496732910366 E 30, 31736263665633334 E 32, 75187385223453576 E 34, 16585524488853547 E 35, 34227383335960829 E 37, 66356854975221584 E 39, 12129989362190491 E 40, 20975650742370651 E 42, 34412767574575917 E 44, 53705016134529299 E 46, 79916133930734572 E 48, 11363649816998654 E 49, 15471154962820062 E 51, 20203911776730224 E 53, 25350087609843489 E 55, 30607126362004757 E 57, 35610913082845573 E 59, 39979314343427895 E 61, 43362457301166072 E 63, 45490189154357376 E 65, 46207634191682803 E 67, 45492469196148086 E 69, 43451643449025561 E 71, 40299604494520664 E 73, 36323533704786134 E 75, 31842907735693086 E 77, 27170687611624682 E 79, 22581908204301093 E 81, 18293033249121043 E 83, 14452874173096658 E 85, 11143737955970569 E 87, 83901144732563397 E 90, 61717117699034692 E 92, 44378604381097698 E 94, 31209815707005164 E 96, 21476726997418621 E 98, 14467888812312731 E 100, 95454164190770471 E 103, 61705214908308291 E 105, 39098794810699323 E 107, 24293476734403826 E 109, 14806912681686303 E 111, 88561601223573952 E 114, 51997712003049622 E 116, 29979683800892880 E 118, 16979108760548306 E 120, 94489554976341298 E 123, 51685073697896417 E 125, 27796223744467434 E 127, bnil.
Definition r65 := 55959092843537495 E 17, 11796148935635591 E 17, 15153285252194225 E 18, 13977566471750629 E 19, 10052135953898894 E 20, 59224381736784562 E 22, 29548275366119125 E 23, 12783100454630958 E 24, 48812778509219508 E 26, 16681459912016896 E 27, 51587997170130783 E 29, 14568518590011285 E 30, 37854467013947823 E 32, 91082000313577577 E 34, 20405345230971660 E 35, 42767744627126739 E 37, 84208703419818311 E 39, 15633660142039377 E 40, 27456501144789684 E 42, 45748750052515830 E 44, 72511132801828254 E 46, 10958592901078195 E 47, 15825917772470270 E 49, 21882893680133792 E 51, 29023422196837283 E 53, 36984855949196913 E 55, 45352213135506881 E 57, 53590848605231240 E 59, 61104695419946644 E 61, 67310831241953736 E 63, 71716772501956243 E 65, 73985862716920179 E 67, 73978686335985283 E 69, 71763809349315086 E 71, 67597759220568387 E 73, 61880228655647797 E 75, 55094582454417535 E 77, 47745145326641680 E 79, 40301544463895200 E 81, 33157309504518419 E 83, 26606045574257258 E 85, 20834812132178068 E 87, 15931593221984669 E 89, 11902265058052400 E 91, 86922120684163500 E 94, 62084129770199495 E 96, 43390058842282536 E 98, 29686573952781363 E 100, 19892189866814898 E 102, 13059976883636993 E 104, 84045942933357224 E 107, 53036629994137383 E 109, 32830964933599887 E 111, 19943321683560267 E 113, 11892391237360565 E 115, 69637783255778440 E 118, 40055829686824552 E 120, 22639540680238331 E 122, 12577140952057942 E 124, 68696653404208150 E 127, bnil.
Definition r66 := 55520052881374971 E 17, 11873806389269002 E 17, 15482056574249626 E 18, 14497565120138089 E 19, 10585114379976837 E 20, 63318238351507611 E 22, 32074654725563754 E 23, 14088813448812723 E 24, 54624160080282372 E 26, 18954034194546090 E 27, 59516186892074103 E 29, 17065637977055084 E 30, 45024244760959472 E 32, 10999810024985328 E 33, 25021931474023409 E 35, 53249833689830337 E 37, 10645953042500668 E 38, 20068477326991519 E 40, 35787024294110485 E 42, 60546166568521402 E 44, 97440490751363347 E 46, 14952616916884299 E 47, 21925989844376025 E 49, 30783866279276979 E 51, 41456757999829050 E 53, 53641278887534971 E 55, 66788594611068880 E 57, 80135180402716616 E 59, 92776088050681284 E 61, 10377086219144554 E 62, 11226394692104603 E 64, 11759734115072124 E 66, 11939458993907480 E 68, 11760150117299856 E 70, 11247839212618336 E 72, 10454859261427620 E 74, 94515865832791115 E 77, 83167689162032524 E 79, 71281486633020696 E 81, 59547568416902805 E 83, 48517097582153583 E 85, 38577478961840738 E 87, 29952513538596023 E 89, 22721318307081070 E 91, 16848610800739060 E 93, 12219242662795357 E 95, 86712930910007613 E 98, 60239820337527177 E 100, 40986059912049979 E 102, 27322849688840851 E 104, 17853787886951213 E 106, 11439830518686091 E 108, 71904718353719723 E 111, 44350786704061627 E 113, 26853638015988375 E 115, 15966473535875730 E 117, 93252383374356721 E 120, 53517026616818398 E 122, 30188147488992008 E 124, 16742499689399812 E 126, bnil.
Definition r67 := 55086144135796566 E 17, 11949461631671240 E 17, 15810920536865385 E 18, 15026720117475747 E 19, 11136220517420412 E 20, 67617929896099849 E 22, 34769340448796565 E 23, 15503051783789427 E 24, 61015559715749633 E 26, 21491855912648736 E 27, 68505635104008988 E 29, 19940432287697521 E 30, 53404862659310916 E 32, 13244728253154997 E 33, 30584624208670485 E 35, 66073270140415641 E 37, 13409666090119189 E 38, 25661039828575161 E 40, 46452841470920026 E 42, 79781207536663755 E 44, 13034098832171032 E 45, 20304235318606662 E 47, 30224336622791900 E 49, 43077361345000272 E 51, 58891121200697525 E 53, 77353922513383628 E 55, 97771979726572414 E 57, 11908699826351496 E 58, 13996077418340166 E 60, 15891868680750621 E 62, 17452964851467174 E 64, 18559055342313756 E 66, 19128131721454074 E 68, 19126274702606864 E 70, 18570188472049253 E 72, 17522463173431982 E 74, 16080942332880583 E 76, 14364525322198827 E 78, 12498080311634103 E 80, 10598894253047604 E 82, 87664013020996377 E 85, 70760424057857348 E 87, 55772478298722596 E 89, 42948729107487775 E 91, 32330397459274948 E 93, 23802436747929193 E 95, 17147120875262189 E 97, 12092643563143200 E 99, 83522602929285420 E 102, 56522860486567155 E 104, 37493745071055010 E 106, 24388122901885617 E 108, 15561323353307526 E 110, 97436312008427568 E 113, 59889823028946076 E 115, 36148419332474031 E 117, 21432393249430368 E 119, 12486282108580595 E 121, 71500335920197425 E 124, 40255236702152651 E 126, bnil.
Definition r68 := 54657295812238538 E 17, 12023151522704779 E 17, 16139802708939784 E 18, 15564953083798516 E 19, 11705688738155331 E 20, 72129753887058032 E 22, 37640315248882436 E 23, 17032767595926665 E 24, 68033787279505856 E 26, 24320776050197764 E 27, 78677727482698480 E 29, 23242562893808584 E 30, 63176518345957010 E 32, 15901737206742211 E 33, 37267672127673106 E 35, 81711522933817978 E 37, 16830790197284904 E 38, 32688152876473068 E 40, 60056285120095713 E 42, 10468325832747408 E 43, 17357549926809869 E 45, 27442592296887801 E 47, 41459743661031281 E 49, 59972270877067918 E 51, 83211430578721789 E 53, 11092960047820632 E 54, 14230220067013850 E 56, 17591132363080572 E 58, 20983027575082861 E 60, 24180722022954777 E 62, 26952316367997082 E 64, 29088104868052709 E 66, 30427402423642117 E 68, 30878454536399390 E 70, 30428068956456181 E 72, 29139776423891787 E 74, 27141609221274689 E 76, 24606422292242244 E 78, 21728695369245226 E 80, 18701829498756514 E 82, 15699221604438872 E 84, 12861169984474721 E 86, 10288292712057904 E 88, 80409440233908555 E 91, 61432919019333217 E 93, 45903409577272689 E 95, 33562026889259101 E 97, 24022140212558722 E 99, 16839452432385157 E 101, 11565957740219782 E 103, 77866353577083212 E 106, 51404715300806806 E 108, 33289302729445649 E 110, 21154979862967123 E 112, 13197097767800286 E 114, 80844105197608989 E 117, 48647819058621070 E 119, 28764678415815416 E 121, 16717377567594301 E 123, 95524804289493008 E 126, bnil.
Definition r69 := 54233438184075611 E 17, 12094912273785821 E 17, 16468630806589717 E 18, 16112183422754853 E 19, 12293747915793717 E 20, 76860054328276469 E 22, 40695776503260694 E 23, 18685222068387815 E 24, 75728528504579465 E 26, 27468668708815788 E 27, 90165393347592682 E 29, 27027255200622586 E 30, 74542678850747049 E 32, 19038225714231871 E 33, 45273882013660173 E 35, 10072404142804188 E 36, 21051806858766872 E 38, 41486886113330512 E 40, 77341925847332166 E 42, 13679499543690738 E 43, 23015382993251791 E 45, 36922578454700549 E 47, 56601881485394082 E 49, 83079207479094617 E 51, 11696680793400647 E 52, 15822134655235947 E 54, 20595264871247473 E 56, 25833773212104678 E 58, 31268036278089966 E 60, 36562867260195501 E 62, 41352874880259069 E 64, 45285979374785941 E 66, 48067554544949394 E 68, 49497309930564124 E 70, 49492500537747653 E 72, 48093928165201910 E 74, 45454692065727206 E 76, 41814869687214376 E 78, 37467535377022680 E 80, 32722374933986817 E 82, 27872641971962838 E 84, 23169669000178236 E 86, 18807108788921574 E 88, 14915065791983985 E 90, 11562685939344386 E 92, 87668181514296610 E 95, 65040629947029846 E 97, 47237596042419162 E 99, 33600335541772553 E 101, 23417300722465576 E 103, 15997225828184409 E 105, 10716116449222293 E 107, 70417209895941637 E 110, 45407375291659843 E 112, 28742987299938867 E 114, 17866584230925189 E 116, 10909284505256644 E 118, 65453391067663614 E 121, 38599397938003718 E 123, 22380423529799823 E 125, bnil.
Definition r70 := 53814502575599532 E 17, 12164779459258265 E 17, 16797334644927133 E 18, 16668328431054260 E 19, 12900621387254929 E 20, 81815218869364766 E 22, 43944136354752595 E 23, 20467992482426056 E 24, 84152463839615055 E 26, 30965549948115213 E 27, 10311398044521234 E 28, 31355814551494175 E 30, 87732633160079941 E 32, 22731280037055782 E 33, 54838731436203311 E 35, 12377013485836151 E 36, 26243141786106880 E 38, 52466438143285007 E 40, 99227144643920536 E 42, 17804545784149426 E 43, 30389560802318546 E 45, 49458856485696261 E 47, 76918182479611625 E 49, 11453463088844529 E 50, 16358883084061851 E 52, 22449300012336966 E 54, 29645036449184874 E 56, 37724150969956538 E 58, 46321156475960468 E 60, 54949823887443988 E 62, 63049136862460173 E 64, 70046215858209969 E 66, 75425900711863758 E 68, 78794829079177321 E 70, 79928789368994157 E 72, 78795583116867212 E 74, 75550647431391263 E 76, 70507955591258434 E 78, 64092979001225242 E 80, 56786899106757213 E 82, 49071521706742229 E 84, 41382746697756317 E 86, 34077651169281167 E 88, 27417064863171754 E 90, 21562679105731324 E 92, 16585715990566008 E 94, 12483179955212856 E 96, 91976435464459659 E 99, 66371360761794750 E 101, 46926945441103213 E 103, 32522093773560740 E 105, 22101392512771374 E 107, 14733619114426323 E 109, 96384113189386804 E 112, 61895547718644270 E 114, 39031703551052053 E 116, 24178019760500497 E 118, 14716519583624655 E 120, 88044454571659604 E 123, 51789093298261970 E 125, bnil.
Definition r71 := 53400421345279125 E 17, 12232788027567174 E 17, 17125846090798182 E 18, 17233303404769614 E 19, 13526526919381600 E 20, 87001675976041075 E 22, 47394021685094085 E 23, 22388979206598260 E 24, 93361389463958389 E 26, 34843701143443810 E 27, 11768217868617642 E 28, 36296179926823843 E 30, 10300427533864179 E 31, 27068892090843416 E 33, 66234993180888165 E 35, 15162481748238165 E 36, 32608082946921451 E 38, 66122095281780798 E 40, 12683864353460059 E 41, 23083862341076119 E 43, 39963069534626855 E 45, 65968351648335125 E 47, 10405860283024976 E 48, 15716051697997053 E 50, 22767646325577256 E 52, 31690225986651687 E 54, 42445605175915152 E 56, 54784609685374909 E 58, 68230252726109281 E 60, 82096094843723116 E 62, 95541940013398098 E 64, 10766099817663543 E 65, 11758532721581162 E 67, 12459176244521701 E 69, 12818992860321539 E 71, 12817746317565974 E 73, 12465427555694918 E 75, 11799574852666237 E 77, 10879225967904564 E 79, 97767620636274462 E 82, 85691119232853084 E 84, 73296804843279016 E 86, 61220216959363081 E 88, 49958074217785345 E 90, 39851713726225646 E 92, 31091243475433582 E 94, 23734971488073348 E 96, 17737797882125029 E 98, 12982655116830567 E 100, 93103237059721894 E 103, 65445639047266955 E 105, 45110910745031144 E 107, 30502199682748168 E 109, 20238902627027280 E 111, 13182589183192697 E 113, 84317677371848085 E 116, 52976308686755635 E 118, 32705887017474931 E 120, 19846443666496009 E 122, 11840740941976332 E 124, bnil.
Definition r72 := 52991127869297094 E 17, 12298972312234699 E 17, 17454099016524761 E 18, 17807021742570481 E 19, 14171676680364690 E 20, 92425892114630324 E 22, 51054273962829839 E 23, 24456412618755814 E 24, 10341434042189358 E 25, 39137796919845858 E 27, 13404299452252331 E 28, 41923517443205247 E 30, 12064713450657660 E 31, 32151295088383844 E 33, 79777925137111269 E 35, 18519685936250129 E 36, 40388467145490347 E 38, 83051612336980065 E 40, 16155592791725276 E 41, 29816046169619701 E 43, 52344498479389359 E 45, 87623133007498416 E 47, 14016266577779526 E 48, 21466896376430725 E 50, 31536653872419121 E 52, 44513799232711929 E 54, 60460825814959203 E 56, 79135633669528157 E 58, 99945396252041236 E 60, 12194969995558321 E 61, 14392121771582601 E 63, 16446057452855332 E 65, 18215003341782604 E 67, 19572137460380875 E 69, 20420939281723430 E 71, 20706487292670162 E 73, 20420903403508882 E 75, 19602307791957225 E 77, 18327868867832442 E 79, 16702527475309483 E 81, 14845546456430276 E 83, 12877118254166992 E 85, 10906912099982312 E 87, 90258057675875965 E 90, 73013081396365157 E 92, 57765053690546389 E 94, 44718708134582427 E 96, 33890167107716318 E 98, 25154230122555089 E 100, 18293037185044293 E 102, 13039931191767123 E 104, 91148548208068220 E 107, 62498977958589935 E 109, 42053517912143241 E 111, 27777280436958499 E 113, 18016950810839365 E 115, 11479369144905481 E 117, 71868064046786747 E 120, 44224854371450378 E 122, 26756931798995845 E 124, bnil.
Definition r73 := 52586556525358985 E 17, 12363366042642408 E 17, 17782029254586496 E 18, 18389395045961567 E 19, 14836277215796181 E 20, 98094368952590508 E 22, 54933948967472068 E 23, 26678859955801714 E 24, 11437371582471213 E 25, 43885037718076234 E 27, 15238477766437993 E 28, 48320855720340819 E 30, 14098566878560082 E 31, 38092437600813285 E 33, 95831083962603740 E 35, 22554930737826196 E 36, 49871240328121049 E 38, 10397438812557469 E 39, 20506295311285578 E 41, 38370794401191682 E 43, 68298092790642043 E 45, 11591600968077444 E 46, 18799417035109895 E 48, 29192341056035613 E 50, 43481360184585484 E 52, 62225759713937010 E 54, 85691515609798754 E 56, 11371668466691216 E 57, 14561408700563359 E 59, 18013991280483426 E 61, 21554738712749485 E 63, 24972876379542639 E 65, 28043030072069740 E 67, 30550824942457594 E 69, 32318372114036287 E 71, 33225332999957495 E 73, 33222099680590285 E 75, 32333193671843215 E 77, 30650862308241835 E 79, 28320590401953017 E 81, 25521472241563444 E 83, 22444900812624333 E 85, 19274820042759273 E 87, 16172011922979958 E 89, 13263811256248898 E 91, 10639530326705363 E 93, 83509556138970812 E 96, 64166790497530843 E 98, 48287791703919437 E 100, 35604251995093669 E 102, 25732448198124283 E 104, 18236661819921989 E 106, 12678220699623871 E 108, 86492320272788448 E 111, 57923498227086490 E 113, 38092213853690815 E 115, 24607235292448545 E 117, 15619626403006822 E 119, 97452058848587843 E 122, 59779302768226910 E 124, bnil.
Definition r74 := 52186642676769412 E 17, 12426002354623279 E 17, 18109574553237261 E 18, 18980333216599044 E 19, 15520529429173776 E 20, 10401364057689632 E 21, 59042316391895637 E 23, 29065232086341874 E 24, 12630540606752507 E 25, 49125287045580659 E 27, 17291230184499333 E 28, 55579765244709865 E 30, 16438284116535047 E 31, 45021607767154108 E 33, 11481282573407584 E 34, 27392276773041741 E 36, 61396009171263738 E 38, 12975385856548525 E 39, 25940930831524420 E 41, 49204407863184094 E 43, 88780387652390562 E 45, 15274163886617757 E 46, 25111013935958163 E 48, 39527093459154500 E 50, 59680902789429921 E 52, 86578283157735497 E 54, 12086018558176723 E 55, 16258349172446742 E 57, 21103894663106277 E 59, 26465265405505932 E 61, 32100830407438112 E 63, 37700696447782556 E 65, 42915397313330907 E 67, 47393482351554531 E 69, 50822112477243535 E 71, 52963930436818818 E 73, 53684094849502431 E 75, 52963285258504141 E 77, 50895199374429910 E 79, 47669905162704608 E 81, 43546737046966365 E 83, 38821788630468086 E 85, 33795290089346985 E 87, 28743386505756547 E 89, 23897379845808020 E 91, 19431776901484924 E 93, 15460885765642168 E 95, 12042500697601486 E 97, 91865385647798843 E 100, 68663295758566038 E 102, 50305113389057144 E 104, 36139707988291057 E 106, 25468648141907123 E 108, 17613004498657911 E 110, 11956911449962461 E 112, 79709263213944174 E 115, 52196787083743863 E 117, 33586130920034625 E 119, 21241674738423667 E 121, 13208606350518679 E 123, bnil.
Definition r75 := 51791322656771344 E 17, 12486913800866864 E 17, 18436674533039314 E 18, 19579744550755804 E 19, 16224628566686501 E 20, 11019027073201026 E 21, 63388859324997308 E 23, 31624790201495625 E 24, 13927892200602902 E 25, 54901213462372683 E 27, 19584790135161564 E 28, 63801083920276692 E 30, 19124399610038148 E 31, 53085220149550976 E 33, 13720356199796648 E 34, 33176177003918606 E 36, 75363715102971800 E 38, 16142358611014957 E 39, 32708251568678225 E 41, 62878371336921051 E 43, 11498473479285308 E 44, 20049650161391062 E 46, 33407200877555525 E 48, 53296348577524264 E 50, 81557689736558775 E 52, 11991282972515511 E 53, 16965523453300375 E 55, 23130655165824915 E 57, 30429983621002820 E 59, 38676138627822857 E 61, 47545671155125205 E 63, 56594216543387022 E 65, 65292586800947710 E 67, 73079825656898888 E 69, 79425474513417129 E 71, 83891045551808091 E 73, 86180577054826420 E 75, 86172184436242606 E 77, 83926185838290780 E 79, 79669755974181345 E 81, 73762121531090816 E 83, 66647206032386742 E 85, 58801885828675523 E 87, 50687598877954270 E 89, 42711302485619186 E 91, 35199283528374986 E 93, 28384711908740694 E 95, 22407615365237356 E 97, 17324461066925800 E 99, 13123853466697303 E 101, 97449088536073039 E 104, 70954383946247408 E 106, 50679165599709252 E 108, 35521066544331133 E 110, 24439964634921152 E 112, 16512749123941474 E 114, 10959314877804785 E 116, 71470804892136343 E 119, 45812767721546690 E 121, 28872465235440783 E 123, bnil.
Definition r76 := 51400533753143762 E 17, 12546132361140749 E 17, 18763270644302495 E 18, 20187535831005070 E 19, 16948764206115285 E 20, 11663085007908109 E 21, 67983273616704018 E 23, 34367152419271364 E 24, 15336752603683075 E 25, 61258437348713587 E 27, 22143266504675469 E 28, 73095691057639982 E 30, 22202105652848503 E 31, 62448778533082277 E 33, 16355384516640321 E 34, 40074456428415126 E 36, 92246576815205241 E 38, 20021758654940278 E 39, 41109325348740289 E 41, 80081562114553578 E 43, 14839526798322888 E 44, 26220176232712120 E 46, 44270877094470307 E 48, 71569004599702816 E 50, 11097934127774171 E 51, 16534565369358038 E 53, 23705246523259719 E 55, 32750307690242165 E 57, 43659579528940952 E 59, 56230435364491827 E 61, 70047065065213188 E 63, 84489305706947246 E 65, 98774397174363859 E 67, 11202860451823274 E 68, 12337928027109862 E 70, 13205324735355179 E 72, 13746559227926640 E 74, 13928453729994120 E 76, 13746259587687504 E 78, 13223056265131363 E 80, 12405752483173051 E 82, 11358554337727825 E 84, 10155090755662380 E 86, 88704521068723408 E 89, 75742279535261846 E 91, 63252971668085619 E 93, 51687221593146690 E 95, 41347185771727158 E 97, 32393784877334478 E 99, 24866519713372284 E 101, 18710401784612754 E 103, 13804996105904313 E 105, 99916740033907406 E 108, 70965385131705013 E 110, 49478090068778502 E 112, 33875330621805879 E 114, 22782395620448116 E 116, 15055545606437211 E 118, 97792649707488819 E 121, 62453304749017904 E 123, bnil.
Definition r77 := 51014214193053375 E 17, 12603689452331843 E 17, 19089306125397356 E 18, 20803612415190250 E 19, 17693120249687226 E 20, 12334199347791835 E 21, 72835467127463136 E 23, 37302300298052407 E 24, 16864836502339162 E 25, 68245682498427345 E 27, 24992768960981608 E 28, 83585332113866879 E 30, 25721706190198904 E 31, 73299028805542247 E 33, 19449336307462103 E 34, 48281673542080567 E 36, 11259946364739500 E 37, 24760550339825258 E 39, 51507557280253963 E 41, 10165672690246112 E 42, 19085212773635191 E 44, 34165380507523849 E 46, 58444382647191405 E 48, 95724669574709688 E 50, 15038880810150248 E 51, 22700782844458122 E 53, 32973677169504050 E 55, 46154420722082765 E 57, 62337965877888493 E 59, 81342929964911511 E 61, 10266294384878511 E 62, 12545876912897640 E 64, 14860015986182938 E 66, 17075739120453387 E 68, 19053229312886821 E 70, 20660998145519259 E 72, 21790748106298091 E 74, 22369538340333633 E 76, 22367358432676002 E 78, 21799076576297240 E 80, 20720751762261189 E 82, 19221250874262048 E 84, 17410796150908910 E 86, 15408375444281257 E 88, 13329865911123742 E 90, 11278327226519202 E 92, 93373432832267095 E 95, 75676755707613175 E 97, 60069592378361829 E 99, 46718024041259132 E 101, 35614681715267815 E 103, 26623108429022047 E 105, 19522582643153363 E 107, 14048247219954984 E 109, 99235048864367860 E 112, 68835473927950925 E 114, 46903448541952743 E 116, 31403533968931820 E 118, 20666403013106000 E 120, 13371827837502336 E 122, bnil.
Definition r78 := 50632303128156109 E 17, 12659615938310423 E 17, 19414725961929676 E 18, 21427878322747515 E 19, 18457874920727071 E 20, 13033033729320803 E 21, 77955558864395570 E 23, 40440585254881400 E 24, 18520260500821304 E 25, 75914932578575916 E 27, 28161539373321766 E 28, 95403496555777591 E 30, 29739106874522097 E 31, 85846316924760867 E 33, 23074092874100774 E 34, 58022905668236436 E 36, 13707288006820767 E 37, 30533331686992527 E 39, 64340447087399528 E 41, 12863196815834659 E 42, 24463008226247165 E 44, 44360815252467856 E 46, 76869973225780025 E 48, 12753776056334519 E 49, 20296988892490666 E 51, 31035469493620024 E 53, 45665312775655572 E 55, 64749152899553744 E 57, 88588080215249466 E 59, 11709665333018648 E 60, 14970644980189215 E 62, 18532331270801247 E 64, 22235691574362185 E 66, 25882921661004868 E 68, 29255322169721542 E 70, 32135877896669001 E 72, 34333150613118439 E 74, 35702715709478495 E 76, 36162770814317387 E 78, 35701620113216072 E 80, 34376227267527133 E 82, 32302584763678767 E 84, 29639933561521413 E 86, 26571645849022213 E 88, 23285760735627360 E 90, 19957788832985029 E 92, 16737638114954707 E 94, 13741574621091180 E 96, 11049226000619302 E 98, 87049211589700178 E 101, 67222192658858762 E 103, 50903263061275806 E 105, 37811805074064753 E 107, 27562308040352427 E 109, 19722494787131888 E 111, 13858378219818091 E 113, 95655123691550004 E 116, 64876193969327037 E 118, 43248906191227488 E 120, 28346824857942231 E 122, bnil.
Definition r79 := 50254740619944083 E 17, 12713942139620357 E 17, 19739476846769081 E 18, 22060236318445802 E 19, 19243200763953750 E 20, 13760253672634966 E 21, 83353878006330545 E 23, 43792734884371505 E 24, 20311556765049386 E 25, 84321592493069801 E 27, 31680089500959176 E 28, 10869635127955876 E 29, 34316343619287504 E 31, 10032716788947411 E 32, 27311555796347352 E 34, 69558004148380930 E 36, 16642776096612885 E 37, 37547035947330143 E 39, 80133351375134076 E 41, 16225809609121321 E 42, 31253304788336454 E 44, 57400354277191932 E 46, 10073979231954492 E 47, 16928272387892700 E 49, 27285708031430199 E 51, 42256342208052281 E 53, 62972388901174727 E 55, 90433249856754424 E 57, 12531405965959766 E 58, 16776431475100992 E 60, 21723326564948687 E 62, 27236211532761404 E 64, 33097729997120704 E 66, 39020414595533576 E 68, 44669857188123255 E 70, 49697097044258666 E 72, 53775660680108244 E 74, 56637575763099948 E 76, 58102721020105245 E 78, 58097055290001981 E 80, 56657301032638919 E 82, 53922059038522433 E 84, 50111567229621605 E 86, 45499939928559235 E 88, 40384475373961809 E 90, 35056465009804373 E 92, 29777044403352865 E 94, 24760286421301666 E 96, 20164283698524109 E 98, 16089686834615124 E 100, 12584247659085648 E 102, 96514388537856144 E 105, 72611554238023943 E 107, 53607531407774539 E 109, 38851161014259260 E 111, 27649450624317962 E 113, 19329218631479776 E 115, 13277716949761080 E 117, 89648942251456283 E 120, 59512264666619252 E 122, bnil.
Definition r80 := 49881467625334036 E 17, 12766697842998420 E 17, 20063507140899436 E 18, 22700587993607986 E 19, 20049264649274481 E 20, 14516526317421448 E 21, 89040962819982954 E 23, 47369859174216398 E 24, 22247686832720848 E 25, 93524654684615015 E 27, 35581345124775527 E 28, 12362373207924520 E 29, 39522151992534444 E 31, 11700710257510644 E 32, 32254873436011640 E 34, 83186369564236512 E 36, 20155229870013034 E 37, 46046350432697317 E 39, 99515557079667686 E 41, 20405283351022616 E 42, 39800743432441324 E 44, 74023418964356242 E 46, 13155739099829322 E 47, 22386527816325445 E 49, 36540077381220989 E 51, 57304203275969850 E 53, 86477927902104411 E 55, 12576040825639319 E 56, 17647225834139892 E 58, 23924188146509397 E 60, 31370760892096641 E 62, 39829662857068886 E 64, 49013921548929180 E 66, 58515985639302213 E 68, 67835760135610986 E 70, 76425223377443396 E 72, 83743881300273508 E 74, 89316909437330385 E 76, 92787027763323655 E 78, 93952151313093390 E 80, 92783416438836114 E 82, 89421687718790352 E 84, 84154305911830832 E 86, 77376874700386401 E 88, 69546751606775335 E 90, 61135378488251815 E 92, 52585763888953666 E 94, 44279673431981865 E 96, 36516884751718113 E 98, 29506705236940238 E 100, 23370210045464121 E 102, 18150545417890030 E 104, 13828199307091297 E 106, 10338273327005291 E 108, 75873222171528445 E 111, 54680613454625085 E 113, 38710032361688943 E 115, 26927437394097494 E 117, 18411076738230196 E 119, 12376644358238217 E 121, bnil.
Definition r81 := 49512425982492919 E 17, 12817912310725696 E 17, 20386766835088662 E 18, 23348833844874929 E 19, 20876227778932998 E 20, 15302520161604897 E 21, 95027559469562339 E 23, 51183456613413130 E 24, 24338055583432722 E 25, 10358687040619044 E 26, 39900796795468783 E 28, 14036019571573478 E 29, 45432579889767819 E 31, 13618371027865370 E 32, 38009796883232802 E 34, 99252301647399219 E 36, 24348104598547397 E 37, 56319949613452647 E 39, 12323901376523711 E 40, 25585300936928648 E 42, 50527772617702432 E 44, 95147971039655400 E 46, 17121325045830055 E 47, 29498562821782186 E 49, 48750134379234032 E 51, 77407898998750953 E 53, 11827602242711876 E 54, 17415188413971994 E 56, 24743072987985808 E 58, 33963113153142770 E 60, 45090863139128129 E 62, 57964681203413546 E 64, 72222031398202399 E 66, 87300813992964737 E 68, 10246984268588590 E 69, 11688742024951708 E 71, 12968146185807805 E 73, 14004007051541208 E 75, 14729899363231465 E 77, 15101260001907990 E 79, 15099786545297457 E 81, 14734566105331002 E 83, 14039929212592675 E 85, 13070550794240326 E 87, 11894706308490459 E 89, 10586775038934114 E 91, 92200549040428667 E 94, 78607503304497384 E 96, 65636833020721579 E 98, 53699340036731965 E 100, 43063091602987720 E 102, 33863095497343062 E 104, 26121434033520858 E 106, 19773057419395382 E 108, 14692943195466851 E 110, 10721316683994788 E 112, 76848036289024688 E 115, 54125108145737772 E 117, 37469463105803047 E 119, 25503262445104721 E 121, bnil.
Definition r82 := 49147558396896829 E 17, 12867614289814347 E 17, 20709207512345860 E 18, 24004873350573228 E 19, 21724245697873025 E 20, 16118904802967027 E 21, 10132462072213548 E 22, 55245420189453071 E 24, 26592525362376290 E 25, 11457492599001913 E 26, 44676657371883077 E 28, 15909613519653455 E 29, 52131646025828588 E 31, 15818999583772703 E 32, 44696176820896092 E 34, 11815098333838966 E 35, 29341656382945364 E 37, 68707650926516297 E 39, 15220011871359125 E 40, 31987604530005024 E 42, 63950826981967484 E 44, 12191039021285760 E 45, 22207724005559905 E 47, 38734084785026408 E 49, 64802873130553588 E 51, 10416694817562935 E 52, 16112679857303651 E 54, 24017390617938056 E 56, 34544428330069743 E 58, 48001933773871191 E 60, 64515903331573628 E 62, 83959296517722574 E 64, 10590153323340757 E 65, 12959198558083143 E 67, 15398673459897642 E 69, 17782076814697608 E 71, 19971935131405575 E 73, 21833440560466255 E 75, 23248626864424331 E 77, 24128950921903677 E 79, 24424396634706602 E 81, 24127827422768445 E 83, 23274140995320498 E 85, 21934642045050645 E 87, 20207767911646222 E 89, 18207750931597690 E 91, 16052924341632319 E 93, 13855197464004326 E 95, 11711821151072088 E 97, 97000480930451824 E 100, 78747776143955694 E 102, 62688507015235531 E 104, 48953809159581720 E 106, 37513840638221724 E 108, 28219853167776075 E 110, 20845981291556391 E 112, 15126389619332928 E 114, 10785234512552189 E 116, 75585172925209267 E 119, 52081468696880733 E 121, bnil.
Definition r83 := 48786808427619244 E 17, 12915832021032267 E 17, 21030782311170712 E 18, 24668605044745901 E 19, 22593468307181719 E 20, 16966350683803109 E 21, 10794330455109037 E 22, 59568043270880844 E 24, 29021430251056436 E 25, 12655962413875284 E 26, 49950026522661586 E 28, 18003896093431653 E 29, 59712046887138668 E 31, 18339802124827466 E 32, 52449613603544502 E 34, 14033516360105388 E 35, 35275391102718060 E 37, 83608614343492425 E 39, 18746500040544107 E 40, 39879222994594888 E 42, 80699587465125385 E 44, 15571355195603500 E 45, 28711150552998362 E 47, 50687512068130324 E 49, 85834782739390526 E 51, 13965631622679640 E 52, 21865539792733539 E 54, 32989839461775609 E 56, 48027999906648697 E 58, 67551885349493103 E 60, 91898389367421256 E 62, 12105211990704678 E 63, 15454980144796589 E 65, 19142869483104602 E 67, 23023692784160784 E 69, 26911444649271451 E 71, 30594094828016906 E 73, 33853427023475579 E 75, 36487224667001597 E 77, 38330552933831183 E 79, 39272962465963349 E 81, 39269128308230432 E 83, 38341577329375124 E 85, 36575492318006094 E 87, 34106827904244352 E 89, 31105893585419883 E 91, 27759009526744169 E 93, 24250795499198165 E 95, 20749192281894789 E 97, 17394589114923297 E 99, 14293616850714609 E 101, 11517423669650161 E 103, 91036910055921542 E 106, 70613245526929005 E 108, 53766657841402809 E 110, 40201689421885127 E 112, 29527109299551283 E 114, 21309779177061899 E 116, 15116445860121400 E 118, 10542899028141949 E 120, bnil.
Definition r84 := 48430120473844646 E 17, 12962593247768867 E 17, 21351445889558385 E 18, 25339926588903937 E 19, 23484039880482339 E 20, 17845528838715914 E 21, 11489497264006990 E 22, 64164025371760156 E 24, 31635590478388148 E 25, 13961607026031764 E 26, 55765062363923194 E 28, 20341435050951509 E 29, 68275914889294975 E 31, 21222286280403693 E 32, 61423273711637413 E 34, 16632260909827138 E 35, 42310830132496847 E 37, 10149072060514202 E 38, 23029880354344298 E 40, 49580949101713824 E 42, 10153985691441401 E 43, 19828464916507722 E 45, 37000794195865429 E 47, 66108830083920183 E 49, 11329744148171686 E 50, 18655886252012798 E 52, 29560665924847461 E 54, 45137041923744009 E 56, 66503795388768569 E 58, 94664813653588122 E 60, 13033417795982131 E 61, 17374897051137383 E 63, 22450076290930320 E 65, 28142069651110396 E 67, 34254977827409372 E 69, 40521500241369522 E 71, 46621472041699505 E 73, 52209670354028622 E 75, 56949398882697948 E 77, 60547115554935969 E 79, 62783012700428941 E 81, 63533080937738590 E 83, 62779643301239113 E 85, 60609305323445640 E 87, 57199305275596355 E 89, 52794957304233669 E 91, 47681960098758455 E 93, 42157663225488632 E 95, 36504985034169789 E 97, 30971741259258520 E 99, 25756929008129548 E 101, 21004280551273356 E 103, 16802369253251079 E 105, 13189847095031629 E 107, 10164060084029983 E 109, 76912884986916412 E 112, 57171075889013553 E 114, 41757552671952123 E 116, 29978262219598063 E 118, 21160089405423916 E 120, bnil.
Definition r85 := 48077439761603841 E 17, 13007925224744585 E 17, 21671154389759265 E 18, 26018734841555232 E 19, 24396099083148889 E 20, 18757110645641145 E 21, 12219118878976509 E 22, 69046477794729395 E 24, 34446326965432403 E 25, 15382386386459609 E 26, 62169160405028969 E 28, 22946756981857780 E 29, 77935630590304014 E 31, 24512690591890489 E 32, 71789886651885046 E 34, 19670440070889439 E 35, 50634628641229164 E 37, 12290127823973688 E 38, 28219954278728147 E 40, 61477261743778945 E 42, 12740066876616012 E 43, 25174456572330059 E 45, 47535517902059126 E 47, 85941535928950940 E 49, 14903917815669123 E 50, 24833226858339200 E 52, 39817006656045541 E 54, 61521198637290099 E 56, 91722436813514997 E 58, 13211597638908236 E 59, 18406143446062089 E 61, 24829305577872048 E 63, 32463706980990910 E 65, 41178865260623015 E 67, 50720108527524560 E 69, 60712794560352974 E 71, 70683653474009390 E 73, 80098120860089073 E 75, 88409504014363338 E 77, 95113411952222483 E 79, 99799646506191259 E 81, 10219399263783893 E 82, 10218401007399259 E 84, 99825638462988580 E 87, 95330589336896372 E 89, 89037455323943287 E 91, 81371665571166499 E 93, 72800519611025952 E 95, 63789470786613737 E 97, 54764780667735054 E 99, 46085971340561457 E 101, 38029571855346471 E 103, 30783864357811968 E 105, 24452956963783772 E 107, 19067681076715291 E 109, 14600536429938292 E 111, 10982093841159504 E 113, 81167639682385655 E 116, 58964883674230885 E 118, 42115660914054966 E 120, bnil.
Definition r86 := 47728712330727141 E 17, 13051854726566894 E 17, 21989865403774973 E 18, 26704925925566383 E 19, 25329778994219384 E 20, 19701767580191722 E 21, 12984371722997185 E 22, 74228929149467993 E 24, 37465475996947556 E 25, 16926729503682890 E 26, 69213139973719103 E 28, 25846486844500015 E 29, 88814691916745889 E 31, 28262450097146916 E 32, 83743937331148131 E 34, 23215415713237433 E 35, 60462085757377589 E 37, 14847922615795792 E 38, 34493716348205808 E 40, 76027915677122561 E 42, 15940634161861135 E 43, 31869091505524251 E 45, 60884090990020926 E 47, 11136917722635106 E 48, 19540645387163044 E 50, 32941880887236013 E 52, 53439307788904215 E 54, 83539940741126853 E 56, 12601500974265252 E 57, 18364516345572523 E 59, 25885976515406283 E 61, 35330032494564272 E 63, 46736414812759407 E 65, 59980430600847313 E 67, 74746934946357776 E 69, 90525624905094610 E 71, 10663222384343223 E 72, 12225596134603373 E 74, 13652902123774060 E 76, 14860935498546076 E 78, 15776541794034193 E 80, 16345064906193271 E 82, 16535706151159399 E 84, 16344079543255735 E 86, 15791713541759567 E 88, 14922732952554938 E 90, 13798361491020452 E 92, 12490145909662158 E 94, 11072884866696319 E 96, 96181583026215503 E 99, 81891367848885454 E 101, 68370641523564997 E 103, 55995125227515423 E 105, 45002574124434100 E 107, 35504447892419116 E 109, 27506328796577053 E 111, 20932828836388151 E 113, 15653255088754837 E 115, 11505200299447392 E 117, 83142555315098207 E 120, bnil.
Definition r87 := 47383885022011679 E 17, 13094408056135820 E 17, 22307537939571419 E 18, 27398395293411456 E 19, 26285207130888197 E 20, 20680170973402281 E 21, 13786452083933161 E 22, 79725330743537764 E 24, 40705404012857898 E 25, 18603554599933276 E 26, 76951438290977757 E 28, 29069495214492525 E 29, 10104864346878809 E 30, 32528700472963282 E 32, 97504069936538095 E 34, 27343827450584200 E 35, 72041089628910129 E 37, 17896901687241080 E 38, 42059852652917148 E 40, 93781451958626412 E 42, 19891430084606766 E 43, 40229720824411722 E 45, 77749644952087087 E 47, 14387228504637938 E 48, 25536938525775418 E 50, 43550820747714416 E 52, 71470529773049478 E 54, 11302610109556812 E 55, 17247471253565359 E 57, 25427365312314590 E 59, 36258118807552994 E 61, 50061483981153297 E 63, 66993729247283898 E 65, 86977619182293927 E 67, 10965049425323343 E 68, 13434084901932239 E 70, 16008271947348790 E 72, 18567162257733297 E 74, 20975872338837443 E 76, 23097279576288234 E 78, 24805396791526562 E 80, 25998048669594799 E 82, 26607044418728517 E 84, 26604444002598390 E 86, 26004161301260670 E 88, 24858898144886751 E 90, 23253106319946931 E 92, 21293201159000817 E 94, 19096520724765143 E 96, 16780520787709322 E 98, 14453456476303656 E 100, 12207405062278564 E 102, 10114025715659468 E 104, 82230199988922654 E 107, 65629173449779215 E 109, 51435978199810832 E 111, 39598845033411757 E 113, 29955702070358510 E 115, 22273542022306823 E 117, 16283162217520204 E 119, bnil.
Definition r88 := 47042905464599405 E 17, 13135611052901280 E 17, 22624132387995884 E 18, 28099037790360469 E 19, 27262505475461412 E 20, 21692991772948982 E 21, 14626575927518096 E 22, 85550061842698512 E 24, 44179022512668979 E 25, 20422289776982937 E 26, 85442312364906770 E 28, 32647053539272793 E 29, 11478606908016351 E 30, 37374823317253206 E 32, 11331572040935458 E 33, 32142727806811991 E 35, 85656544448738833 E 37, 21523638534903886 E 38, 51163912189332661 E 40, 11539091661744964 E 41, 24755961144768949 E 43, 50643102048849439 E 45, 98999163538668688 E 47, 18529784757523566 E 48, 33267674622379976 E 50, 57386609710754388 E 52, 95258127382325261 E 54, 15237537308470243 E 55, 23519204386272501 E 57, 35071946346500899 E 59, 50585403230299203 E 61, 70645618616603355 E 63, 95626297763285353 E 65, 12557768722153338 E 66, 16013174163338707 E 68, 19844349900394644 E 70, 23918573384933516 E 72, 28060697111369099 E 74, 32065286530446005 E 76, 35713972288462064 E 78, 38795896675531392 E 80, 41128484843222116 E 82, 42575620378110155 E 84, 43060689111658149 E 86, 42572790844935388 E 88, 41165525757476912 E 90, 38948911808659758 E 92, 36075960523866809 E 94, 32726067580928707 E 96, 29087585249507600 E 98, 25341752326592923 E 100, 21649655770664488 E 102, 18143222924568025 E 104, 14920538503549112 E 106, 12045168435412423 E 108, 95487332235779126 E 111, 74357385392889778 E 113, 56896290001382493 E 115, 42791410831568973 E 117, 31642366828289549 E 119, bnil.
Definition r89 := 46705722063562050 E 17, 13175489100974982 E 17, 22939610490396587 E 18, 28806747715659380 E 19, 28261790504662698 E 20, 22740900307914180 E 21, 15505978701594977 E 22, 91717934797939751 E 24, 47899803065797839 E 25, 22392894192139095 E 26, 94748048871676923 E 28, 36612997698466449 E 29, 13018965092093401 E 30, 42871035282760053 E 32, 13145399570687555 E 33, 37710838946658869 E 35, 10163533087281942 E 36, 25828623029187435 E 38, 62094241183423357 E 40, 14163211359750640 E 41, 30730730583485653 E 43, 63579448864573141 E 45, 12569896107606351 E 46, 23794387911857270 E 48, 43204687603807089 E 50, 75374333567351894 E 52, 12653761841401679 E 53, 20470916308155234 E 55, 31955835529398043 E 57, 48193960688530950 E 59, 70301291359614478 E 61, 99295319412267006 E 63, 13593348683877084 E 64, 18053743501818067 E 66, 23282948679729117 E 68, 29181209044891571 E 70, 35571944785543768 E 72, 42206252882185684 E 74, 48777499940560054 E 76, 54945066449588796 E 78, 60364628351662357 E 80, 64721070646395578 E 82, 67759510912233180 E 84, 69310111166874555 E 86, 69303333782792384 E 88, 67773840821577400 E 90, 64853023031330285 E 92, 60751820974576752 E 94, 55736764449935536 E 96, 50102819503797934 E 98, 44146648119974941 E 100, 38143339387135501 E 102, 32328741889289270 E 104, 26888435919753719 E 106, 21953340797422019 E 108, 17601116750761969 E 110, 13861981570971284 E 112, 10727336860524464 E 114, 81596467563836147 E 117, 61022572802784400 E 119, bnil.
Definition r90 := 46372283987689633 E 17, 13214067137099650 E 17, 23253935306907843 E 18, 29521418881752037 E 19, 29283173221180439 E 20, 23824566057159734 E 21, 16425915131854483 E 22, 98244200036602517 E 24, 51881792420730090 E 25, 24525879744571488 E 26, 10493518219027052 E 27, 41003900175023412 E 29, 14743729854401454 E 30, 49095023908269753 E 32, 15222681920524995 E 33, 44159942133668148 E 35, 12035185594861386 E 36, 30928285843058834 E 38, 75188781162860844 E 40, 17342476104932949 E 41, 38051374818052547 E 43, 79609100423463182 E 45, 15915726842335987 E 46, 30466211783292880 E 48, 55940221719196502 E 50, 98688472859109028 E 52, 16753765701392119 E 53, 27408173133197682 E 55, 43265644379795105 E 57, 65983593274531015 E 59, 97332331581210590 E 61, 13901869488240451 E 62, 19245163527438020 E 64, 25847184241106104 E 66, 33708146145744585 E 68, 42721960352651721 E 70, 52663119860229087 E 72, 63186882436372869 E 74, 73844965850706519 E 76, 84116529906150611 E 78, 93451553075978059 E 80, 10132137770415503 E 81, 10726971035101364 E 83, 11095705975462881 E 85, 11219254872479554 E 87, 11094904553201192 E 89, 10736020205746148 E 91, 10170072635057877 E 93, 94353540727464294 E 96, 85768998673088079 E 98, 76421870673823777 E 100, 66771391302767871 E 102, 57228495450225141 E 104, 48132775051761917 E 106, 39739997970675605 E 108, 32219539437243776 E 110, 25659980749685520 E 112, 20080515274839922 E 114, 15445651678473725 E 116, 11680928240960400 E 118, bnil.
Definition r91 := 46042541157479078 E 17, 13251369658477974 E 17, 23567071185407244 E 18, 30242944671593427 E 19, 30326759187350650 E 20, 24944657421367552 E 21, 17387659009316714 E 22, 10514455091510581 E 23, 56139627705866324 E 25, 26832333271815887 E 26, 11607472075623123 E 27, 45859251147132458 E 29, 16672335139096277 E 30, 56132633131710629 E 32, 17597836281034256 E 33, 51616411931138754 E 35, 14223425371613248 E 36, 36957286826931256 E 38, 90842843320026217 E 40, 21185696810712922 E 41, 46999845542249335 E 43, 99422257434504263 E 45, 20097523747282448 E 46, 38898244646109884 E 48, 72215674234905525 E 50, 12881596545361745 E 51, 22111178482594939 E 53, 36574291251340085 E 55, 58376164003869076 E 57, 90017104550501525 E 59, 13425888708764855 E 60, 19389030209608710 E 62, 27139482665144734 E 64, 36854487910470984 E 66, 48596980946596387 E 68, 62276322825233837 E 70, 77620389963783044 E 72, 94165905506940928 E 74, 11127183337261729 E 75, 12815730110915502 E 77, 14396145988136843 E 79, 15781874090922846 E 81, 16893997127072225 E 83, 17668843169167916 E 85, 18064049007078738 E 87, 18062281788142312 E 89, 17672189364272970 E 91, 16926576215864851 E 93, 15878202382392247 E 95, 14593906775099929 E 97, 13147918989218977 E 99, 11615233294142559 E 101, 10065793653146241 E 103, 85600205073889018 E 106, 71459500764120195 E 108, 58580047780497391 E 110, 47172076893414216 E 112, 37325172467262980 E 114, 29028963236793555 E 116, 22197342426816015 E 118, bnil.
Definition r92 := 45716444233319531 E 17, 13287420730463589 E 17, 23878983731121687 E 18, 30971218094102537 E 19, 31392648560872632 E 20, 26101841498800606 E 21, 18392502969800085 E 22, 11243512843092257 E 23, 60688551714878740 E 25, 29323939255969617 E 26, 12824238189800695 E 27, 51221648815847424 E 29, 18825985838838602 E 30, 64078601612115311 E 32, 20309278761284558 E 33, 60222908066128954 E 35, 16777130306324221 E 36, 44071097792082874 E 38, 10951798466608843 E 39, 25821350286444612 E 41, 57912799638464683 E 43, 12385230172307487 E 44, 25310789636202143 E 46, 49526328607912560 E 48, 92956734641925187 E 50, 16763418191539355 E 51, 29090319261427245 E 53, 48647039780000554 E 55, 78498277312565497 E 57, 12237531998059195 E 58, 18452542403256903 E 60, 26941002475476420 E 62, 38124472241401735 E 64, 52340440512842260 E 66, 69775200926937586 E 68, 90398176390831260 E 70, 11390886187442668 E 71, 13970773079549161 E 73, 16690030275944338 E 75, 19433920740141208 E 77, 22070316926380335 E 79, 24460549585289670 E 81, 26471918255272730 E 83, 27990233529106272 E 85, 28930701396285998 E 87, 29245696556779261 E 89, 28928455586869814 E 91, 28012352695745166 E 93, 26566075677334493 E 95, 24685576859807585 E 97, 22484042806770598 E 99, 20081262876817878 E 101, 17593685940733667 E 103, 15126183718364935 E 105, 12766161135812843 E 107, 10580248475547931 E 109, 86134466262891047 E 112, 68903238847812479 E 114, 54177031254884235 E 116, 41882301879633234 E 118, bnil.
Definition r93 := 45393944603871111 E 17, 13322243994116947 E 17, 24189639776874241 E 18, 31706131837801869 E 19, 32480936132458680 E 20, 27296783864832992 E 21, 19441758265621928 E 22, 12013252579158588 E 23, 65544428269361374 E 25, 32013003038768760 E 26, 14151883531769969 E 27, 57136999288158346 E 29, 21227793838340960 E 30, 73037357134243628 E 32, 23399831625079416 E 33, 70140238834668361 E 35, 19752013523315647 E 36, 52448913225687434 E 38, 13175212573073453 E 39, 31400838190915411 E 41, 71191381734410745 E 43, 15390329508517495 E 44, 31793684276057442 E 46, 62887297800397437 E 48, 11931624243676688 E 49, 21750710057884528 E 51, 38155022561407702 E 53, 64498884801369506 E 55, 10520797156937443 E 56, 16579645946485108 E 58, 25271478769979558 E 60, 37297640253861414 E 62, 53353722024732443 E 64, 74044301237047262 E 66, 99781227736456908 E 68, 13067755159897268 E 69, 16645332940148131 E 71, 20637122540994803 E 73, 24921812813646665 E 75, 29334372228442712 E 77, 33675873350934907 E 79, 37728582736151586 E 81, 41274681329682275 E 83, 44116283774483641 E 85, 46094116169386919 E 87, 47102360381057125 E 89, 47097750191859684 E 91, 46101891974497734 E 93, 44196802759597481 E 95, 41514617993050866 E 97, 38223153820349861 E 99, 34509408429563924 E 101, 30563123382036245 E 103, 26562240391326040 E 105, 22661576073546861 E 107, 18985416851041585 E 109, 15624126262687436 E 111, 12634350880190158 E 113, 10042065383204403 E 115, 78475293300555910 E 118, bnil.
Definition r94 := 45074994374633831 E 17, 13355862673628047 E 17, 24499007353954064 E 18, 32447578322689816 E 19, 33591711365320775 E 20, 28530148355292419 E 21, 20536754529774276 E 22, 12825379283863588 E 23, 70723757651529548 E 25, 34912474544412730 E 26, 15598995537613545 E 27, 63654726339912835 E 29, 23902922528491436 E 30, 83123870520734372 E 32, 26917166152829750 E 33, 81549410940502908 E 35, 23211480961768790 E 36, 62296925782662301 E 38, 15817106522205944 E 39, 38102237809119096 E 41, 87312609756824281 E 43, 19078234334026222 E 44, 39835675640487567 E 46, 79640806013338316 E 48, 15272633818409138 E 49, 28140364184308379 E 51, 49894205396916748 E 53, 85249711532044840 E 55, 14055032422421323 E 56, 22387268426224912 E 58, 34490485141973742 E 60, 51450894121542121 E 62, 74390817912626868 E 64, 10434926640573496 E 65, 14213134071081609 E 67, 18814181838085483 E 69, 24222572085405113 E 71, 30354313346795039 E 73, 37050533878172488 E 75, 44079359516175165 E 77, 51147103231242996 E 79, 57918381892114509 E 81, 64043265035963789 E 83, 69188276791666284 E 85, 73067287833039278 E 87, 75468220865448827 E 89, 76272079771338653 E 91, 75461980605876499 E 93, 73121377400577020 E 95, 69422244299961182 E 97, 64605314689931584 E 99, 58955373751059272 E 101, 52774946219673283 E 103, 46359524880540224 E 105, 39976854413012984 E 107, 33851888549778802 E 109, 28158063593060862 E 111, 23014645035045944 E 113, 18489225259282833 E 115, 14604038109385019 E 117, bnil.
Definition r95 := 44759546356703411 E 17, 13388299583608784 E 17, 24807055663598920 E 18, 33195449750390653 E 19, 34725058436401595 E 20, 29802596853654303 E 21, 21678839532817902 E 22, 13681644032454862 E 23, 76243692099699297 E 25, 38035972508679573 E 26, 17174708234013060 E 27, 70827991387531433 E 29, 26878740189661799 E 30, 94464572631987459 E 32, 30914283728531858 E 33, 94653881732277948 E 35, 27227584314852301 E 36, 73852007001447239 E 38, 18950156424399209 E 39, 46134611681902230 E 41, 10684260249876261 E 42, 23593761383627688 E 44, 49787814974082375 E 46, 10059553799215764 E 47, 19496177962255507 E 49, 36304292102990847 E 51, 65053595972549259 E 53, 11233297252828269 E 54, 18717140385611301 E 56, 30130214614888332 E 58, 46913089964497074 E 60, 70726376849363494 E 62, 10334790708646736 E 63, 14650948096368599 E 65, 20167880499317339 E 67, 26980494960180823 E 69, 35105817085148309 E 71, 44460421194667625 E 73, 54845630423098880 E 75, 65944306822322654 E 77, 77331708515969747 E 79, 88500876537320084 E 81, 98900675743385966 E 83, 10798240606304323 E 84, 11524927756903903 E 86, 12030235206643967 E 88, 12287694870541254 E 90, 12286491667415108 E 92, 12032031261456493 E 94, 11544846647997692 E 96, 10858072273194947 E 98, 10013891272687086 E 100, 90594596579537374 E 103, 80428231717022191 E 105, 70092772070434352 E 107, 59984993660096234 E 109, 50426360061468406 E 111, 41653764548285645 E 113, 33819240700025143 E 115, 26996861494310653 E 117, bnil.
Definition r96 := 44447554055710931 E 17, 13419577136256844 E 17, 25113755049082680 E 18, 33949638152626469 E 19, 35881056279258954 E 20, 31114789082122106 E 21, 22869378932736948 E 22, 14583844404081718 E 23, 82122051359261185 E 25, 41397809212554173 E 26, 18888729274766773 E 27, 78713924001858471 E 29, 30184982654847324 E 30, 10719833819358293 E 31, 35450037902117133 E 33, 10968203093742242 E 34, 31882078574496158 E 36, 87385837591806697 E 38, 22658619149974216 E 39, 55742951281077010 E 41, 13045192036682853 E 42, 29110291077327366 E 44, 62074916299614776 E 46, 12674061882954480 E 47, 24821664316744316 E 49, 46707212829109663 E 51, 84575012798042573 E 53, 14757846856981481 E 54, 24848513252855143 E 56, 40421130987435195 E 58, 63598334939303152 E 60, 96889947529692436 E 62, 14306872942471404 E 63, 20495315042307951 E 65, 28509858606454235 E 67, 38541689189727096 E 69, 50676432185744196 E 71, 64855484840700602 E 73, 80846539468837257 E 75, 98229750707596044 E 77, 11640449044623084 E 78, 13461893588769802 E 80, 15202126658640037 E 82, 16772764322665382 E 84, 18089912245313723 E 86, 19081785724503925 E 88, 19695272943847015 E 90, 19900601521273802 E 92, 19693550864754683 E 94, 19095016779270688 E 96, 18148111317797349 E 98, 16913303380620649 E 100, 15462323397805583 E 102, 13871642707910298 E 104, 12216296138860661 E 106, 10564669122674174 E 108, 89746576865138672 E 111, 74913750680489695 E 113, 61463624687385622 E 115, 49580927384897893 E 117, bnil.
Definition r97 := 44138971660943149 E 17, 13449717348393808 E 17, 25419076968385617 E 18, 34710035438053660 E 19, 37059778628516460 E 20, 32467382396624009 E 21, 24109756017995137 E 22, 15533824879547920 E 23, 88377338281851560 E 25, 45013015718275230 E 26, 20751367904440116 E 27, 87373863301746796 E 29, 33853925675420040 E 30, 12147754035493671 E 31, 40589700334554020 E 33, 12688987018758578 E 34, 37267594191566946 E 36, 10320953586312072 E 37, 27040014152279536 E 39, 67213838961647010 E 41, 15893332648269911 E 42, 35834984423673295 E 44, 77209965384390534 E 46, 15928317512772452 E 47, 31519703946669933 E 49, 59928386814557557 E 51, 10964487469562342 E 52, 19331568495246788 E 54, 32888382368485460 E 56, 54056601573979287 E 58, 85937822506349361 E 60, 13228657615219155 E 61, 19736964204310856 E 63, 28568597531193357 E 65, 40153941051305597 E 67, 54848245945500916 E 69, 72868025369020158 E 71, 94227296402997871 E 73, 11868356392994697 E 74, 14570396751301667 E 76, 17446058521033179 E 78, 20386048719006217 E 80, 23261119866251539 E 82, 25931661053775189 E 84, 28259314222547588 E 86, 30119217469843872 E 88, 31411322816987137 E 90, 32069339696059743 E 92, 32066198152033539 E 94, 31415440262096428 E 96, 30168536052306459 E 98, 28408674268080850 E 100, 26242006329885889 E 102, 23787563486897574 E 104, 21167103184544768 E 106, 18495991101621611 E 108, 15875940293251694 E 110, 13390074211711727 E 112, 11100422532545178 E 114, 90476523971429454 E 117, bnil.
Definition r98 := 43833754034640560 E 17, 13478741848379283 E 17, 25722993967448048 E 18, 35476533437506395 E 19, 38261294065795458 E 20, 33861031585752758 E 21, 25401371444033796 E 22, 16533477223851342 E 23, 95028754465417861 E 25, 48897367605389402 E 26, 22773563864249462 E 27, 96873610569080263 E 29, 37920567424499479 E 30, 13746918005106191 E 31, 46405573696670964 E 33, 14656400989275506 E 34, 43488934677038045 E 36, 12167883742276253 E 37, 32207026051442298 E 39, 80881922419194712 E 41, 19322231558684622 E 42, 44014877759033965 E 44, 95811133942035496 E 46, 19969316262593627 E 47, 39923294902788970 E 49, 76688111991367617 E 51, 14175397077241983 E 52, 25250247099747141 E 54, 43400314655257130 E 56, 72069431179942738 E 58, 11575475495689341 E 59, 18002074121288427 E 61, 27135605753490264 E 63, 39682643816234997 E 65, 56349811663330206 E 67, 77764206249695300 E 69, 10437747734639571 E 70, 13636389624943744 E 72, 17352665703879238 E 74, 21522861814804149 E 76, 26036286799768566 E 78, 30737456076842438 E 80, 35433877489544014 E 82, 39909073399685785 E 84, 43939612515419047 E 86, 47314213970572254 E 88, 49852570305199944 E 90, 51421503314977117 E 92, 51946427221092883 E 94, 51416777729675002 E 96, 49884941762858437 E 98, 47459128514879475 E 100, 44291400769732537 E 102, 40562615945960761 E 104, 36466246529315701 E 106, 32192960075856495 E 108, 27917495190923784 E 110, 23788863218925513 E 112, 19924340213956029 E 114, 16407185902663341 E 116, bnil.
Definition r99 := 43531856701470062 E 17, 13506671882903620 E 17, 26025479653984867 E 18, 36249023947687617 E 19, 39485666067046036 E 20, 35296388673670379 E 21, 26745642963450281 E 22, 17584740853364785 E 23, 10209621592787697 E 24, 53067411204091306 E 26, 24966917255025602 E 27, 10728369343089546 E 28, 42422821585247544 E 30, 15535609441177713 E 31, 52977654762879693 E 33, 16902490435169052 E 34, 50664511340247579 E 36, 14319988419853165 E 37, 38289653898025327 E 39, 97137306921873558 E 41, 23442080317554274 E 42, 53943990588211297 E 44, 11862183280667421 E 45, 24975676086669339 E 47, 50441284102610596 E 49, 97879954782361813 E 51, 18277093515111302 E 52, 32888489341701559 E 54, 57105474993345164 E 56, 95794970482721534 E 58, 15543089501021248 E 59, 24419011782527201 E 61, 37183666857563668 E 63, 54931386722614820 E 65, 78798836728365461 E 67, 10985366481309414 E 68, 14895296752546909 E 70, 19658455929938524 E 72, 25271086540951151 E 74, 31663980876255242 E 76, 38694780808076870 E 78, 46147605559842465 E 80, 53741265928015430 E 82, 61146115463593297 E 84, 68008236455921956 E 86, 73978416028095193 E 88, 78742482789300286 E 90, 82049229949125086 E 92, 83732421600283886 E 94, 83724215742266037 E 96, 82058580178473427 E 98, 78864692779624557 E 100, 74351653287224529 E 102, 68786871136969871 E 104, 62471088833255857 E 106, 55713104558844103 E 108, 48806915215761558 E 110, 42013327727975019 E 112, 35547236693796202 E 114, 29570898522515107 E 116, bnil.
Definition r100 := 43233235838169365 E 17, 13533528323661276 E 17, 26326508671855375 E 18, 37027398773347982 E 19, 40732953051197805 E 20, 36774102726997153 E 21, 28144005150093787 E 22, 18689603187524469 E 23, 10960036880706861 E 24, 57540490322815869 E 26, 27343719371837057 E 27, 11867964195805775 E 28, 47401721483767339 E 30, 17533824863944216 E 31, 60394351117949848 E 33, 19463039738761783 E 34, 58927927788323458 E 36, 16823568615029297 E 37, 45437635720952915 E 39, 11643398276719230 E 40, 28382441747915573 E 42, 65971600738432344 E 44, 14653430389658362 E 45, 31163984969754033 E 47, 63574538739592886 E 49, 12460987353527267 E 50, 23503236603850439 E 52, 42719534865258739 E 54, 74924279581425406 E 56, 12695503846262243 E 57, 20806888478172017 E 59, 33018745773081178 E 61, 50786411308683170 E 63, 75784224371345086 E 65, 10980979881941413 E 66, 15463185949362284 E 68, 21178578941976985 E 70, 28233217190627814 E 72, 36660490061359245 E 74, 46398433811945876 E 76, 57273499219965226 E 78, 68994437740520893 E 80, 81158953329025801 E 82, 93274108489448798 E 84, 10478943205347992 E 85, 11513961851685842 E 87, 12379203138762471 E 89, 13029326367460560 E 91, 13430896749356533 E 93, 13565205847222566 E 95, 13429606061892012 E 97, 13037247116316297 E 99, 12415320862309549 E 101, 11602108912718582 E 103, 10643257006577266 E 105, 95877554936236476 E 108, 84840865502564196 E 110, 73769183388646073 E 112, 63046056212495859 E 114, 52976200259044475 E 116, bnil.
Definition r101 := 42937848263360312 E 17, 13559331673906708 E 17, 26626056675978036 E 18, 37811549767991924 E 19, 42003208430053669 E 20, 38294819665699392 E 21, 29597909117314500 E 22, 19850099984904752 E 23, 11756260507971988 E 24, 62334773466746798 E 26, 29916984524576337 E 27, 13114227703359125 E 28, 52901635738724127 E 30, 19763411595733969 E 31, 68753255078868096 E 33, 22377959227283717 E 34, 68429727799260337 E 36, 19731332475875419 E 37, 53823179890085963 E 39, 13929941883542389 E 40, 34295389278726475 E 42, 80511862375783688 E 44, 18061732600738508 E 45, 38796332889407233 E 47, 79935333905743046 E 49, 15824360878438881 E 50, 30145311645694182 E 52, 55339752528324412 E 54, 98028431412875171 E 56, 16776384424584285 E 57, 27769922729331123 E 59, 44508949882448022 E 61, 69143868140470947 E 63, 10420881154844723 E 64, 15250578629690967 E 66, 21690216895138878 E 68, 30004162765089408 E 70, 40398471039376904 E 72, 52981318887542675 E 74, 67724815473393642 E 76, 84434182545629529 E 78, 10273035809609796 E 79, 12205100321306210 E 81, 14167273223898536 E 83, 16075442846988644 E 85, 17839824926987075 E 87, 19372197032640542 E 89, 20593424764760164 E 91, 21440360839489107 E 93, 21871268349847982 E 95, 21869124103988924 E 97, 21442458590520191 E 99, 20623730623936853 E 101, 19465557343546264 E 103, 18035372096160853 E 105, 16409229370358491 E 107, 14665505193452930 E 109, 12879162972823021 E 111, 11117095455332718 E 113, 94348496235228963 E 116, bnil.
Definition r102 := 42645651427528142 E 17, 13584102074895255 E 17, 26924100307773917 E 18, 38601368873148792 E 19, 43296480659351462 E 20, 39859182077987608 E 21, 31108822230599214 E 22, 21068315663568797 E 23, 12600507829215126 E 24, 67469281543598612 E 26, 32700482858522093 E 27, 14475801134722596 E 28, 58970495912298457 E 30, 22248215041610068 E 31, 78161978624738267 E 33, 25691707125669479 E 34, 79339321232975190 E 36, 23103197353961597 E 37, 63644038008964195 E 39, 16634546788310814 E 40, 41359112481710417 E 42, 98054966428969275 E 44, 22214869497858353 E 45, 48189232535404932 E 47, 10027055073723807 E 48, 20046396927831555 E 50, 38566098080277478 E 52, 71498861187488416 E 54, 12790577219988669 E 55, 22106134610598087 E 57, 36954354270325206 E 59, 59815665800684886 E 61, 93842169609937512 E 63, 14283206116892889 E 64, 21109822503800292 E 66, 30320702044609516 E 68, 42357864740695755 E 70, 57596321507535739 E 72, 76283380959708271 E 74, 98476457951649269 E 76, 12398820685794870 E 77, 15234858572409560 E 79, 18279258929715798 E 81, 21427976463951753 E 83, 24554751687193943 E 85, 27519525766386564 E 87, 30179152216242728 E 89, 32399221652577554 E 91, 34065594302863852 E 93, 35094233835189525 E 95, 35438157681385179 E 97, 35090722492847225 E 99, 34084974316199082 E 101, 32489320540561087 E 103, 30400236497001769 E 105, 27933035690062662 E 107, 25211872277065192 E 109, 22360105688491292 E 111, 19491969034504581 E 113, 16706195007530711 E 115, bnil.
Definition r103 := 42356603403164039 E 17, 13607859312210674 E 17, 27220617171135379 E 18, 39396748156246926 E 19, 44612813290922498 E 20, 41467829039234053 E 21, 32678227814825718 E 22, 22346383605597428 E 23, 13495071929547668 E 24, 72963916052736058 E 26, 35708774188590861 E 27, 15961916337603987 E 28, 65660036659623957 E 30, 25014235753513745 E 31, 88739053325793597 E 33, 29453749164094011 E 34, 91847103763087342 E 36, 27007181745639321 E 37, 75126957516827678 E 39, 19828074545893813 E 40, 49782051792852215 E 42, 11918006991476213 E 43, 27265323582560799 E 45, 59724165710211311 E 47, 12548938095431276 E 48, 25333994081933391 E 50, 49216082603717179 E 52, 92137130303664172 E 54, 16644092051854527 E 55, 29048074954685672 E 57, 49034855782693661 E 59, 80147338670835338 E 61, 12697178202123354 E 62, 19515065202546117 E 64, 29124878457792801 E 66, 42242939276590948 E 68, 59591506281731240 E 70, 81823973056580176 E 72, 10943376454421722 E 73, 14265581776999955 E 75, 18137322567116121 E 77, 22504378115454862 E 79, 27266100020198765 E 81, 32276133490813609 E 83, 37348386377589184 E 85, 42268150326551572 E 87, 46807492766491395 E 89, 50743335059346581 E 91, 53876146668677398 E 93, 56047014659361627 E 95, 57151028832182898 E 97, 57145423667479272 E 99, 56051647036502577 E 101, 53951351222520706 E 103, 50977082528617401 E 105, 47299058285545749 E 107, 43109781749165014 E 109, 38608325782751439 E 111, 33985936658416671 E 113, 29414231907724114 E 115, bnil.
Definition r104 := 42070662875068149 E 17, 13630622821981703 E 17, 27515585808901403 E 18, 40197579847126635 E 19, 45952245025876264 E 20, 43121395934913744 E 21, 34307624856365326 E 22, 23686486445708495 E 23, 14442325197807830 E 24, 78839487753394922 E 26, 38957242860679971 E 27, 17582428471419678 E 28, 73026048886438768 E 30, 28089796794981320 E 31, 10061489946802271 E 32, 33719058705757185 E 34, 10616678740037638 E 35, 31520396022346370 E 37, 88531555941556751 E 39, 23592466215596845 E 40, 59807633068606237 E 42, 14457025088616349 E 43, 33394721442421762 E 45, 73860029531052778 E 47, 15669635119055391 E 48, 31940989349484930 E 50, 62653419041246947 E 52, 11843107310999921 E 53, 21601531151269142 E 55, 38065838620175708 E 57, 64880879002425745 E 59, 10707666829828816 E 60, 17128014039625068 E 62, 26580550631489218 E 64, 40054597233645393 E 66, 58659283975566263 E 68, 83552887876760545 E 70, 11583831301603196 E 71, 15642913275990579 E 73, 20589722640193265 E 75, 26431935360774549 E 77, 33114457438576189 E 79, 40510588339526512 E 81, 48419687708714599 E 83, 56572755056380109 E 85, 64646316200826070 E 87, 72283806573107350 E 89, 79122460281411907 E 91, 84822775868477620 E 93, 89097117741496166 E 95, 91734030149074349 E 97, 92615390297144651 E 99, 91724509407744716 E 101, 89144527869567633 E 103, 85047727087820905 E 105, 79677486784505946 E 107, 73325389732627763 E 109, 66306327083885278 E 111, 58934379469424333 E 113, 51501807829400669 E 115, bnil.
Definition r105 := 41787789130810388 E 17, 13652411696989250 E 17, 27808985679839717 E 18, 41003756373228254 E 19, 47314809768744641 E 20, 44820514287571928 E 21, 35998527700261306 E 22, 25090856343891203 E 23, 15444720898816413 E 24, 85117745807481003 E 26, 42462133653181631 E 27, 19347850111774586 E 28, 81128646437291432 E 30, 31505721943308892 E 31, 11393286878280134 E 32, 38548660439967478 E 34, 12253796004021807 E 35, 36730141613216925 E 37, 10415466282834618 E 38, 28022330847327746 E 40, 71719681128873066 E 42, 17502977958262725 E 43, 40819014082825398 E 45, 91147799089908012 E 47, 19523061628487031 E 48, 40178156968507089 E 50, 79568152121693050 E 52, 15184945176290516 E 53, 27963103028407848 E 55, 49749608691297027 E 57, 85610018695136786 E 59, 14264496979453056 E 60, 23036818418442071 E 62, 36093870841543419 E 64, 54913100286469736 E 66, 81192247204648464 E 68, 11675986183654558 E 69, 16343261145280354 E 71, 22282227400219396 E 73, 29610517861343647 E 75, 38377712084503363 E 77, 48542532982016485 E 79, 59955368141527515 E 81, 72349626846750745 E 83, 85344685054946833 E 85, 98461811291212094 E 87, 11115269229708694 E 88, 12283828077982750 E 90, 13295401052467661 E 92, 14099628459658733 E 94, 14656476465714600 E 96, 14939545427799933 E 98, 14938079680020287 E 100, 14657477796522112 E 102, 14118302310777394 E 104, 13353977151115377 E 106, 12407510268591294 E 108, 11327668218818828 E 110, 10165051230562632 E 112, 89684762047113192 E 115, bnil.
Definition r106 := 41507942051346375 E 17, 13673244692666464 E 17, 28100797136110765 E 18, 41815170393489790 E 19, 48700536682520405 E 20, 46565811587817180 E 21, 37752465742708553 E 22, 26561775241990299 E 23, 16504794743925921 E 24, 91821407392137750 E 26, 46240588731416559 E 27, 21269386763322312 E 28, 90032546849272900 E 30, 35295525286256732 E 31, 12885036541139959 E 32, 44010220873826825 E 34, 14122889360420068 E 35, 42735129122819821 E 37, 12233517979570798 E 38, 33226741299114625 E 40, 85848600852273356 E 42, 21150403423982857 E 43, 49794509701358400 E 45, 11224777179775045 E 46, 24271262733190666 E 48, 50425200925661906 E 50, 10081155749561969 E 51, 19422177852068535 E 53, 36106376396151959 E 55, 64848843264482987 E 57, 11265522524640659 E 58, 18949490607489817 E 60, 30894277363297645 E 62, 48865639582442324 E 64, 75051743954148497 E 66, 11202480213600831 E 67, 16263278142974311 E 69, 22980962694556909 E 71, 31630289010320521 E 73, 42433191354041815 E 75, 55520577799173155 E 77, 70894509000677303 E 79, 88396193975576163 E 81, 10768548564321828 E 82, 12823683500821855 E 84, 14935494808319827 E 86, 17021087737065289 E 88, 18989635361275100 E 90, 20749132810039629 E 92, 22213747294034158 E 94, 23310920265968814 E 96, 23987387242428205 E 98, 24213417225504562 E 100, 23984813151819823 E 102, 23322514977562291 E 104, 22269956473039026 E 106, 20888595686023784 E 108, 19252228438470803 E 110, 17440782488587706 E 112, 15534274824985016 E 114, bnil.
Definition r107 := 41231082101786015 E 17, 13693140232993403 E 17, 28391001401222710 E 18, 42631714830988392 E 19, 50109450244526367 E 20, 48357911129335714 E 21, 39570983119057248 E 22, 28101575104185561 E 23, 17625166459151283 E 24, 98974187776988223 E 26, 50310685667392040 E 27, 23358973818139248 E 28, 99807366718890433 E 30, 39495612791019607 E 31, 14554004996242829 E 32, 50178689053067954 E 34, 16253962176413789 E 35, 49646826745052829 E 37, 14345951396507654 E 38, 39331261802075907 E 40, 10257842479990481 E 41, 25510243233875916 E 43, 60624888066993567 E 45, 13794981401998019 E 46, 30109946067665184 E 48, 63145111980819499 E 50, 12743160919433324 E 51, 24782192972212275 E 53, 46505131559832099 E 55, 84313001521818641 E 57, 14784926305951288 E 58, 25103889759848763 E 60, 41314006197729977 E 62, 65962752464586256 E 64, 10226617101175175 E 65, 15408541120216378 E 67, 22580400970215957 E 69, 32208321250991574 E 71, 44748597078598266 E 73, 60598019068473510 E 75, 80035607533197994 E 77, 10316169510560416 E 78, 12984226981713618 E 80, 15966746196898833 E 82, 19193262912022104 E 84, 22564850299821091 E 86, 25958346041750755 E 88, 29233663367939522 E 90, 32243599352872660 E 92, 34845153353337584 E 94, 36911100649885345 E 96, 38340483056378108 E 98, 39066797269792716 E 100, 39062963011446800 E 102, 38342583458913458 E 104, 36957495630407789 E 106, 34992068081708641 E 108, 32555067341712950 E 110, 29770135124900663 E 112, 26765976627020038 E 114, bnil.
Definition r108 := 40957170322311920 E 17, 13712116416288156 E 17, 28679580548448363 E 18, 43453282904358731 E 19, 51541570303055453 E 20, 50197431847922054 E 21, 41455638387561176 E 22, 29712638141322774 E 23, 18808541350175930 E 24, 10660083086068480 E 25, 54691476536939072 E 27, 25629314996988032 E 28, 11052793224234922 E 29, 44145496444237142 E 31, 16419113175632779 E 32, 57136991149134370 E 34, 18680530973845041 E 35, 57590951274489196 E 37, 16796764519852515 E 38, 46480234253727041 E 40, 12235483784422530 E 41, 30712479530397019 E 43, 73669343570472761 E 45, 16919709366712673 E 46, 37275030149089701 E 48, 78901324034575130 E 50, 16071577207005263 E 51, 31547000197434942 E 53, 59752546078417661 E 55, 10934211603410105 E 56, 19353059788398319 E 58, 33167229258682798 E 60, 55093875000113794 E 62, 88785641698765964 E 64, 13893575879372278 E 65, 21129136109750684 E 67, 31252887028545432 E 69, 44995071227338913 E 71, 63097873378693236 E 73, 86244666039254726 E 75, 11497294423590513 E 76, 14957862325861949 E 78, 19002287151303803 E 80, 23585493728435683 E 82, 28616478417299228 E 84, 33957734390843797 E 86, 39429583475243199 E 88, 44819538288161685 E 90, 49896106565215436 E 92, 54425768108171303 E 94, 58191327250784125 E 96, 61009569750172113 E 98, 62746186755555202 E 100, 63326267156636043 E 102, 62739244435314885 E 104, 61037913645478631 E 106, 58331885730088060 E 108, 54776501087041307 E 110, 50558688866784118 E 112, 45881480251826762 E 114, bnil.
Definition r109 := 40686168319245414 E 17, 13730191020896396 E 17, 28966517479709467 E 18, 44279768158020927 E 19, 52996912134721801 E 20, 52084988164516079 E 21, 43408004209088293 E 22, 31397397019062482 E 23, 20057711863530880 E 24, 11472714016112212 E 25, 59403028105920219 E 27, 28093922311067700 E 28, 12227460550215216 E 29, 49288021583273060 E 31, 18501075459501041 E 32, 64976782765709553 E 34, 21439994024014858 E 35, 66709115022339179 E 37, 19635989318798849 E 38, 54839353021989811 E 40, 14569430196995789 E 41, 36909161730444130 E 43, 89352024169081861 E 45, 20711385410339573 E 46, 46050381379110337 E 48, 98378178954739565 E 50, 20224253498251024 E 51, 40065614619940556 E 53, 76589652534962570 E 55, 14144945694087303 E 56, 25267585315700573 E 58, 43704256677092871 E 60, 73268693074438498 E 62, 11916770317653156 E 63, 18820479689699823 E 65, 28886792193261243 E 67, 43122977590236991 E 69, 62659172309434346 E 71, 88682030115437302 E 73, 12233604033706185 E 74, 16459595915398728 E 76, 21611974924568386 E 78, 27709728374778205 E 80, 34711460716182416 E 82, 42505554399601752 E 84, 50906100855670719 E 86, 59656118399795841 E 88, 68438723586671472 E 90, 76895857243446387 E 92, 84653058063686803 E 94, 91347819326836755 E 96, 96658434068600526 E 98, 10033005131719715 E 99, 10219496988567366 E 101, 10218493645933126 E 103, 10033426342406588 E 105, 96773761082418042 E 108, 91716597242066889 E 110, 85438086778019632 E 112, 78251959357111486 E 114, bnil.
Definition r110 := 40418038256257549 E 17, 13747381510781043 E 17, 29251795904910657 E 18, 45111064491249629 E 19, 54475486502466664 E 20, 54021189832236603 E 21, 45429667023009399 E 22, 33158335049823048 E 23, 21375559143250941 E 24, 12338001025340807 E 25, 64466463116831537 E 27, 30767157582052425 E 28, 13513362708556299 E 29, 54969608060854686 E 31, 20822548164686856 E 32, 73799263043898580 E 34, 24574034133626408 E 35, 77160643019355206 E 37, 22920445649751774 E 38, 64598561099237847 E 40, 17319441840181832 E 41, 44277876741924607 E 43, 10817295611297935 E 44, 25303786614907738 E 46, 56776940191735277 E 48, 12240529498389811 E 49, 25394335564318816 E 51, 50769083089301992 E 53, 97940196678106283 E 55, 18253901556050952 E 56, 32906513832978978 E 58, 57438850353291450 E 60, 97177215484113366 E 62, 15950294497224151 E 63, 25421728293525971 E 65, 39376585578592105 E 67, 59321473438135301 E 69, 86986605568261135 E 71, 12424187048185610 E 72, 17296230961904952 E 74, 23484482720529827 E 76, 31118676966249443 E 78, 40264641779803153 E 80, 50901364015606267 E 82, 62902401872951000 E 84, 76025002186318878 E 86, 89909733599407352 E 88, 10409234092668939 E 89, 11802799084669682 E 91, 13112634602244194 E 93, 14279426499090776 E 95, 15248167153851334 E 97, 15972550299924589 E 99, 16418675596763898 E 101, 16567648906093674 E 103, 16416807256258371 E 105, 15979475056971269 E 107, 15283340969715457 E 109, 14367704505623787 E 111, 13279955519818511 E 113, bnil.
Definition r111 := 40152742845722611 E 17, 13763705041013766 E 17, 29535400321718856 E 18, 45947066186115236 E 19, 55977299714164263 E 20, 56006641787396494 E 21, 47522226719476704 E 22, 34997986368503641 E 23, 22765054582316579 E 24, 13258745864941642 E 25, 69904002686739984 E 27, 33664275558403778 E 28, 14919747563308384 E 29, 61240505907423178 E 31, 23408288529765982 E 32, 83716054881430622 E 34, 28129058375450806 E 35, 89124576036304265 E 37, 26714580219757829 E 38, 75975303778189363 E 40, 20554567961564419 E 41, 53025721960441008 E 43, 13072066979156024 E 44, 30855828727449098 E 46, 69863468127089370 E 48, 15198653328556493 E 49, 31817698586586229 E 51, 64188682945952372 E 53, 12495325078309373 E 54, 23500111390744543 E 56, 42748796253424187 E 58, 75296658898071588 E 60, 12854716680834831 E 61, 21290947237010263 E 63, 34242044412454283 E 65, 53520617008533309 E 67, 81362358248989821 E 69, 12039060999416405 E 70, 17351496176276431 E 72, 24375257832122564 E 74, 33397011621765243 E 76, 44655675911714598 E 78, 58305346273144995 E 80, 74377746215736330 E 82, 92749148651864817 E 84, 11311711087934329 E 85, 13499192223066349 E 87, 15770632030653417 E 89, 18044490836882561 E 91, 20229209452406265 E 93, 22229468985889884 E 95, 23953301100705306 E 97, 25319284786577396 E 99, 26263025915557852 E 101, 26742193279214255 E 103, 26739566898184807 E 105, 26263810294526017 E 107, 25347965502044243 E 109, 24045942099113135 E 111, 22427489250011908 E 113, bnil.
Definition r112 := 39890245340211927 E 17, 13779178463170277 E 17, 29817315995772666 E 18, 46787667934327587 E 19, 57502353681774100 E 20, 58041944004485451 E 21, 49687296308302690 E 22, 36918936091983468 E 23, 24229261368197346 E 24, 14237865811249828 E 25, 75739009827113137 E 27, 36801468666107702 E 28, 16456524492768424 E 29, 68155066178203544 E 31, 26285324808641625 E 32, 94850155827900716 E 34, 32156677704827060 E 35, 10280187617807735 E 36, 31091399177902094 E 38, 89218179650791210 E 40, 24354478073031604 E 41, 63393847729046235 E 43, 15768677058495199 E 44, 37555976163780041 E 46, 85799183375045090 E 48, 18833437197808497 E 49, 39781849309986593 E 51, 80977921898340697 E 53, 15905520622872327 E 54, 30183014079813045 E 56, 55399915422388820 E 58, 98458586905515513 E 60, 16960288036343482 E 61, 28343837450669500 E 63, 45995613894059695 E 65, 72538909362988204 E 67, 11126708593985542 E 68, 16612277189519679 E 70, 24158331464764503 E 72, 34243074940899583 E 74, 47339618085445634 E 76, 63868612469385762 E 78, 84142018829892753 E 80, 10830321699294317 E 81, 13627058588695888 E 83, 16769279199080525 E 85, 20192394429621226 E 87, 23802530557600404 E 89, 27479745137325114 E 91, 31084297384875108 E 93, 34465560515832421 E 95, 37472768476423116 E 97, 39966491219032443 E 99, 41829585801980730 E 101, 42976403544090371 E 103, 43359242499357460 E 105, 42971384771920837 E 107, 41846491158767687 E 109, 40054571147483485 E 111, 37695136286994312 E 113, bnil.
Definition r113 := 39630509524125440 E 17, 13793818330630800 E 17, 30097528941321533 E 18, 47632764863011663 E 19, 59050645980989521 E 20, 60127691355101500 E 21, 51926501584645816 E 22, 38923820462402157 E 23, 25771336021818637 E 24, 15278396940066807 E 25, 81996034095700828 E 27, 40195913432132458 E 28, 18134303914805710 E 29, 75772027695050399 E 31, 29483138112258491 E 32, 10733696447549348 E 33, 36714229600996518 E 35, 11841785311424908 E 36, 36133503662749436 E 38, 10461103268012453 E 39, 28810967839231106 E 41, 75662643976220804 E 43, 18988273058572138 E 44, 45627371287570585 E 46, 10516859317110252 E 47, 23291062933228096 E 49, 49636569807573455 E 51, 10193908437011592 E 52, 20201308844458452 E 54, 38676924617601037 E 56, 71623627021578735 E 58, 12842774093918072 E 59, 22320126283261882 E 61, 37634000063773312 E 63, 61616436794771053 E 65, 98041448423382889 E 67, 15172741141109654 E 68, 22855210904509651 E 70, 33533726297971262 E 72, 47956395204008589 E 74, 66889429564043887 E 76, 91049855346639724 E 78, 12102185538627421 E 79, 15716339265319972 E 81, 19951308147003029 E 83, 24770964414806748 E 85, 30093704772446880 E 87, 35790711115248496 E 89, 41688790963795531 E 91, 47578100434896069 E 93, 53224411874700244 E 95, 58384937923003124 E 97, 62826174496302044 E 99, 66341875012363396 E 101, 68769182233973710 E 103, 70001141056357652 E 105, 69994264011693418 E 107, 68770446641939415 E 109, 66413229940375802 E 111, 63059072140611915 E 113, bnil.
Definition r114 := 39373499705458881 E 17, 13807640903787705 E 17, 30376025902280605 E 18, 48482252559443936 E 19, 60622169911332105 E 20, 62264473470811913 E 21, 54241480791707185 E 22, 41015326974234905 E 23, 27394529929280068 E 24, 16383497443133911 E 25, 88700857390223564 E 27, 43865818619027929 E 28, 19964438692166797 E 29, 84154820416556278 E 31, 33033856666620816 E 32, 12132538743314664 E 33, 41865347080948382 E 35, 13622483040127665 E 36, 41934238451187338 E 38, 12247753338795913 E 39, 34029660569749526 E 41, 90157654649420188 E 43, 22825921284002872 E 44, 55333791514194975 E 46, 12866887799662702 E 47, 28747463013201901 E 49, 61806621776456854 E 51, 12805520638623096 E 52, 25601151520882907 E 54, 49448781816444161 E 56, 92381246530419375 E 58, 16711304553085220 E 59, 29300316001028751 E 61, 49840261828616312 E 63, 82322947367122422 E 65, 13214737989601401 E 66, 20631817850586701 E 68, 31353308923614152 E 70, 46409271563572843 E 72, 66956745342458440 E 74, 94217209919935081 E 76, 12938294083545921 E 77, 17349487100788110 E 79, 22729996249526144 E 81, 29110156234264412 E 83, 36462069863879480 E 85, 44688867816828786 E 87, 53619080454635949 E 89, 63007712988370902 E 91, 72544908466853699 E 93, 81872145242781660 E 95, 90604885997578898 E 97, 98359642674458149 E 99, 10478271104223655 E 100, 10957748850123201 E 102, 11252738427063563 E 104, 11351185086823344 E 106, 11251392474397216 E 108, 10961872121254817 E 110, 10500341620113882 E 112, bnil.
Definition r115 := 39119180707704182 E 17, 13820662155161742 E 17, 30652794333691859 E 18, 49336027094777852 E 19, 62216914556644974 E 20, 64452874609922123 E 21, 56633884280639101 E 22, 43196194485186593 E 23, 29102190865661815 E 24, 17556450986044149 E 25, 95880540893215188 E 27, 47830475109194700 E 28, 21959067482580456 E 29, 93371886193722600 E 31, 36972463184721102 E 32, 13697903225202548 E 33, 47680577653354592 E 35, 15650507283404253 E 36, 48598964732974854 E 38, 14318630186256274 E 39, 40131927410126127 E 41, 10725631341738029 E 42, 27392827975210657 E 44, 66986557860428894 E 46, 15713023557101953 E 47, 35414008429258490 E 49, 76806884742848951 E 51, 16052852119401303 E 52, 32374606581872433 E 54, 63079875167095618 E 56, 11888017884255582 E 57, 21693346261656535 E 59, 38368887393894361 E 61, 65838216292940203 E 63, 10970075398753071 E 64, 17763900421819460 E 66, 27977470210642130 E 68, 42888968031407721 E 70, 64041032023251982 E 72, 93205027955203211 E 74, 13230210547150946 E 75, 18327579618360444 E 77, 24791704212442324 E 79, 32765048161128254 E 81, 42329948931249632 E 83, 53485534654993055 E 85, 66128129507878871 E 87, 80038355779535570 E 89, 94877769581513992 E 91, 11019697736863506 E 92, 12545585906390231 E 94, 14005495120865790 E 96, 15337546582682183 E 98, 16482410255381098 E 100, 17387798493305159 E 102, 18012486831738354 E 104, 18329426707586613 E 106, 18327625445396605 E 108, 18012621900117597 E 110, 17405557117573473 E 112, bnil.
Definition r116 := 38867517861880974 E 17, 13832897774428535 E 17, 30927822383589054 E 18, 50193985046785823 E 19, 63834864845939215 E 20, 66693473528129326 E 21, 59105374167863979 E 22, 45469213310935435 E 23, 30897764510262138 E 24, 18800670106852007 E 25, 10356347317694527 E 26, 52110307577434666 E 28, 24131160099720296 E 29, 10349701769267558 E 30, 41337016080285487 E 32, 15447749196179853 E 33, 54238056011748421 E 35, 17957399734174753 E 36, 56246468979789518 E 38, 16715663034997250 E 39, 47257051781500322 E 41, 12739560501449921 E 42, 32818888194574974 E 44, 80952535544607332 E 46, 19153965294407444 E 47, 43544214782772202 E 49, 95260364644964754 E 51, 20082660503802599 E 52, 40853635555878092 E 54, 80292392762990838 E 56, 15263374701724558 E 57, 28094762542669064 E 59, 50122863094607091 E 61, 86754637944032442 E 63, 14580833829726093 E 64, 23816025834110866 E 66, 37835347099700800 E 68, 58505041267159283 E 70, 88117976581669439 E 72, 12936122430440918 E 73, 18522098494185316 E 75, 25881370873809691 E 77, 35314034421754081 E 79, 47077199381637052 E 81, 61348855262906620 E 83, 78190506138569243 E 85, 97513093738856305 E 87, 11905123796469605 E 88, 14235060872412884 E 90, 16677221243545701 E 92, 19151559385286217 E 94, 21566063568417131 E 96, 23822512606653551 E 98, 25823296358965106 E 100, 27478617460633754 E 102, 28713313006451352 E 104, 29472561846262670 E 106, 29725872471831586 E 108, 29468957399774109 E 110, 28723358525300986 E 112, bnil.
Definition r117 := 38618476998696882 E 17, 13844363173357069 E 17, 31201098875249043 E 18, 51056023521644520 E 19, 65476001614548447 E 20, 68986843353035173 E 21, 61657623989997738 E 22, 47837225303767802 E 23, 32784795952617242 E 24, 20119699654617986 E 25, 11177941947692470 E 26, 56726927990460832 E 28, 26494564952311736 E 29, 11460971629046030 E 30, 46168885282426544 E 32, 17401772718084706 E 33, 61624234509816765 E 35, 20578369162012113 E 36, 65010520891673166 E 38, 19486486867610359 E 39, 55564666305299640 E 41, 15108076864321259 E 42, 39255607366782460 E 44, 97663386357114997 E 46, 23306864351617131 E 47, 53441636667193453 E 49, 11791958225113185 E 50, 25073767108061937 E 52, 51446273062894962 E 54, 10198179984916876 E 55, 19553480835506889 E 57, 36301476013170952 E 59, 65322130302072694 E 61, 11403623130591003 E 62, 19331178175446587 E 64, 31847194301949460 E 66, 51030007593226692 E 68, 79587950643862241 E 70, 12090513827857808 E 71, 17902375054430912 E 73, 25853723018975836 E 75, 36437336014783349 E 77, 50145640440683753 E 79, 67425322353130456 E 81, 88622806636686855 E 83, 11392518385744989 E 84, 14330303114755776 E 86, 17646278621922188 E 88, 21281653317689089 E 90, 25147602483323180 E 92, 29127548771567456 E 94, 33082446196450687 E 96, 36858806749757357 E 98, 40298825658688743 E 100, 43251644608097326 E 102, 45584596921063267 E 104, 47193240116801125 E 106, 48009108194050390 E 108, 48004388883426623 E 110, 47193106237964498 E 112, bnil.
Definition r118 := 38372024440834646 E 17, 13855073490661413 E 17, 31472613289835867 E 18, 51922040174789807 E 19, 67140301665549555 E 20, 71333551462491722 E 21, 64292318356570364 E 22, 50303123915151198 E 23, 34766931188662716 E 24, 21517220267102297 E 25, 12055957214206492 E 26, 61703190972088670 E 28, 29064058629892123 E 29, 12679556977485446 E 30, 51513003442370461 E 32, 19581555207951598 E 33, 69934675717996988 E 35, 23552676647353175 E 36, 75041594491777386 E 38, 22685154168743740 E 39, 65237493387041255 E 41, 17889517314155178 E 42, 46879445628288662 E 44, 11762625401038679 E 45, 28310556354912866 E 47, 65469146765577813 E 49, 14569193519075420 E 50, 31243671425470370 E 52, 64653122883831394 E 54, 12925625653506830 E 55, 24994616297251530 E 57, 46799405208679348 E 59, 84931773633930741 E 61, 14953630666673432 E 62, 25565611293411281 E 64, 42477917126035884 E 66, 68645480846147983 E 68, 10797619520567673 E 69, 16543215421295010 E 71, 24704744683811592 E 73, 35982177262241079 E 75, 51145292223873099 E 77, 70988335845847515 E 79, 96265722032614752 E 81, 12761126885792649 E 82, 16544673670159585 E 84, 20988859238200571 E 86, 26066434421952006 E 88, 31705086629227211 E 90, 37784640279425268 E 92, 44138524212787043 E 94, 50559955990431065 E 96, 56812719870581292 E 98, 62645801680307561 E 100, 67810587769690759 E 102, 72078930508626734 E 104, 75260200503361437 E 106, 77215520179060347 E 108, 77867695314087769 E 110, 77205879733537308 E 112, bnil.
Definition r119 := 38128126995363731 E 17, 13865043596767587 E 17, 31742355749412546 E 18, 52791933230866856 E 19, 68827737831408053 E 20, 73734159366751684 E 21, 67011152600731607 E 22, 52869854242302913 E 23, 36847918606404453 E 24, 22997051886800547 E 25, 12993660226912348 E 26, 67063251072855735 E 28, 31855397704944030 E 29, 14014665070440469 E 30, 57418133356408496 E 32, 22010723080414976 E 33, 79274911629986957 E 35, 26924056973209283 E 36, 86508767606686857 E 38, 26372927432714026 E 39, 76484423842547829 E 41, 21151150827783730 E 42, 55895641312474453 E 44, 14143608780799544 E 45, 34329321081280085 E 47, 80059826253901274 E 49, 17966972465260063 E 50, 38856450642152285 E 52, 81087230888423841 E 54, 16348451898852386 E 55, 31881137811164712 E 57, 60199116166848706 E 59, 11017487538917512 E 60, 19562382845511751 E 62, 33728275789580414 E 64, 56515053348735561 E 66, 92103462172029139 E 68, 14610167574748320 E 69, 22574095884319567 E 71, 33996496003638841 E 73, 49934953492255210 E 75, 71579122718878093 E 77, 10019158920056193 E 78, 13701861333842969 E 80, 18317264062905080 E 82, 23949338551351048 E 84, 30639942248620911 E 86, 38374662943774340 E 88, 47071254397059258 E 90, 56572587764681632 E 92, 66645760215810627 E 94, 76988420187981291 E 96, 87242547848552488 E 98, 97014980820132861 E 100, 10590304399373985 E 101, 11352288051880619 E 103, 11953761912194519 E 105, 12368243345606306 E 107, 12578387094348305 E 109, 12577150285667953 E 111, bnil.
Definition r120 := 37886751946274483 E 17, 13874288098496781 E 17, 32010317000325181 E 18, 53665601502800543 E 19, 70538279035808828 E 20, 76189222594393681 E 21, 69815832428128164 E 22, 55540413058818715 E 23, 39031610460475621 E 24, 24563157314492840 E 25, 13994471252862863 E 26, 72832621982820176 E 28, 34885372822324653 E 29, 15476193631049576 E 30, 63937152463110822 E 32, 24715119131125190 E 33, 89761374370776729 E 35, 30741179161562652 E 36, 99601816219041361 E 38, 30619160691565778 E 39, 89543971452579841 E 41, 24970445267671405 E 42, 66542576757247032 E 44, 16978983703781397 E 45, 41557250769862804 E 47, 97729727540882602 E 49, 22116564987687879 E 50, 48232178594447182 E 52, 10149798566254775 E 53, 20635404737011135 E 55, 40579038909685388 E 57, 77266245877316202 E 59, 14259824094350655 E 60, 25532032916849089 E 62, 44390491099080448 E 64, 75005348778441683 E 66, 12326405169129441 E 67, 19717332904173864 E 69, 30721040207869664 E 71, 46654374574913568 E 73, 69102793848808378 E 75, 99887269679348947 E 77, 14098987258684034 E 78, 19443263670336934 E 80, 26210976897568666 E 82, 34558046401788076 E 84, 44583762127027203 E 86, 56307533420024547 E 88, 69648361744104027 E 90, 84410102071428387 E 92, 10027535175598079 E 93, 11681010144549575 E 95, 13348015263608863 E 97, 14967888918172825 E 99, 16476449047581970 E 101, 17810332858746244 E 103, 18911532416924280 E 105, 19731661425438157 E 107, 20235508793804221 E 109, 20403514790398870 E 111, bnil.
Definition r121 := 37647867047132799 E 17, 13882821343666546 E 17, 32276488396950992 E 18, 54542944410010397 E 19, 72271890355633871 E 20, 78699290581991791 E 21, 72708073564133808 E 22, 58317848829432561 E 23, 41321964334964671 E 24, 26219645799457122 E 25, 15061969118902062 E 26, 79038237726270833 E 28, 38171865148104073 E 29, 17074775084919872 E 30, 71127355307652457 E 32, 27722986391599379 E 33, 10152240355489817 E 34, 35058149354397645 E 36, 11453352151660660 E 37, 35502279071656589 E 39, 10468814515148905 E 40, 29436499664428379 E 42, 79096757239380859 E 44, 20350277881789158 E 45, 50223318381626390 E 47, 11909280965247825 E 48, 27175470251283121 E 50, 59758138593429536 E 52, 12679981542435978 E 53, 25994137326158585 E 55, 51542511685647400 E 57, 98958978570021769 E 59, 18415405388122989 E 60, 33247146220572766 E 62, 58285552438487211 E 64, 99303672205695366 E 66, 16455524401535367 E 67, 26541518746335542 E 69, 41698066993006478 E 71, 63852053314173231 E 73, 95363168106973882 E 75, 13899457438676678 E 76, 19782370596717795 E 78, 27508211476397398 E 80, 37392045973565486 E 82, 49710495599787684 E 84, 64666381879776990 E 86, 82351467359375490 E 88, 10271143077217057 E 89, 12551781685043143 E 91, 15035167272089386 E 93, 17660281751458706 E 95, 20348720873427236 E 97, 23008282367216283 E 99, 25538214260520953 E 101, 27835705486591666 E 103, 29803017467880899 E 105, 31354546037034050 E 107, 32423087163055333 E 109, 32964661458463195 E 111, bnil.
Definition r122 := 37411440513853228 E 17, 13890657425611339 E 17, 32540861885794567 E 18, 55423861995794023 E 19, 74028533083050332 E 20, 81264906567496515 E 21, 75689601399612369 E 22, 61205261708987580 E 23, 43723044593909434 E 24, 27970776665478024 E 25, 16199896734530082 E 26, 85708515877045027 E 28, 41733905251105566 E 29, 18821823133692053 E 30, 79050774901836221 E 32, 31065165222780255 E 33, 11469933575528755 E 34, 39935059464743405 E 36, 13154220889250170 E 37, 41110866197819848 E 39, 12222678471702952 E 40, 34651661768926135 E 42, 93878482289801135 E 44, 24352727606067737 E 45, 60597250031965464 E 47, 14487839130781634 E 48, 33332354107813092 E 50, 73902150923377489 E 52, 15810658749478921 E 53, 32679716795652180 E 55, 65334138766365486 E 57, 12647412469431921 E 58, 23730112741597106 E 60, 43196153023237920 E 62, 76352616221668281 E 64, 13115979835405321 E 65, 21913900866854593 E 67, 35637429431286000 E 69, 56450689328802461 E 71, 87156745828074305 E 73, 13124407344504301 E 74, 19287229316234692 E 76, 27677277216879086 E 78, 38804356222069539 E 80, 53182716327833660 E 82, 71287370105519458 E 84, 93501015855347663 E 86, 12005560049526344 E 87, 15097436904825137 E 89, 18602153620967195 E 91, 22466714173268918 E 93, 26607398183378850 E 95, 30911168097302891 E 97, 35240012738907901 E 99, 39438099000548798 E 101, 43341236634930422 E 103, 46787835219389501 E 105, 49630300860419651 E 107, 51745722726244467 E 109, 53044754147295354 E 111, bnil.
Definition r123 := 37177441017588569 E 17, 13897810187623974 E 17, 32803429989935233 E 18, 56308254943902326 E 19, 75808164787673552 E 20, 83886607487293816 E 21, 78762150635388622 E 22, 64205803525704029 E 23, 46239023818860769 E 24, 29820962971762303 E 25, 17412166735801388 E 26, 92873422833091399 E 28, 45591734491606801 E 29, 20729581763045893 E 30, 87774523945067206 E 32, 34775304452816965 E 33, 12944768186997830 E 34, 45438585261790443 E 36, 15089453968035478 E 37, 47544870138998817 E 39, 14251241035860022 E 40, 40733352798727581 E 42, 11125829800781138 E 43, 29097430016127492 E 45, 72996320169731164 E 47, 17595151763036809 E 48, 40812859578538967 E 50, 91228389509074367 E 52, 19677277733360262 E 53, 41004891063446809 E 55, 82649468288635492 E 57, 16130367456848500 E 58, 30513021850436857 E 60, 55998123087058198 E 62, 99791932587996114 E 64, 17282854767726977 E 65, 29112384043651095 E 67, 47731808446040988 E 69, 76227960651325280 E 71, 11865599276398836 E 72, 18014079332742214 E 74, 26689841051864898 E 76, 38613871748413204 E 78, 54581362947892571 E 80, 75418584404206050 E 82, 10192118832914600 E 83, 13477591585834737 E 85, 17447070395550995 E 87, 22120120351822219 E 89, 27478416749480909 E 91, 33458949229465570 E 93, 39950244725850373 E 95, 46792557859977021 E 97, 53782600163330059 E 99, 60682869988166164 E 101, 67235071503272171 E 103, 73176559449211554 E 105, 78258304192321621 E 107, 82262612686206231 E 109, 85018810523150941 E 111, bnil.
Definition r124 := 36945837677734034 E 17, 13904293227319162 E 17, 33064185793812359 E 18, 57196024594329022 E 19, 77610739378771506 E 20, 86564923876908387 E 21, 81927464925600599 E 22, 67322677748837602 E 23, 48874184232930160 E 24, 31774775207854504 E 25, 18702867250793052 E 26, 10056454118883608 E 27, 49766868992814576 E 29, 22811176783897306 E 30, 97371156909142700 E 32, 38890087404250545 E 33, 14593839851633439 E 34, 51642637806709548 E 36, 17288857804135092 E 37, 54916939532251278 E 39, 16594564152843021 E 40, 47816123657406700 E 42, 13166432935856998 E 43, 34713809538589081 E 45, 87793204240328048 E 47, 21333669427205172 E 48, 49886434887396235 E 50, 11241612430970323 E 51, 24444266156916749 E 53, 51352459360089523 E 55, 10434687196737404 E 56, 20530408397442987 E 58, 39151883591087136 E 60, 72436117924750044 E 62, 13013422068951668 E 63, 22720928164188560 E 65, 38583620372554082 E 67, 63774609913647933 E 69, 10267602202534280 E 70, 16112365652817663 E 72, 24660204972191340 E 74, 36833725959033366 E 76, 53722738061001587 E 78, 76555139919580604 E 80, 10664085166804463 E 81, 14528641709864432 E 83, 19368152104020931 E 85, 25276318487337664 E 87, 32306822702952590 E 89, 40458890602432136 E 91, 49664961720955947 E 93, 59782329438177817 E 95, 70590424695545610 E 97, 81794943690198604 E 99, 93039306161449276 E 101, 10392306344052258 E 102, 11402597755675766 E 104, 12293570251415709 E 106, 13027644434561897 E 108, 13573575145690098 E 110, bnil.
Definition r125 := 36716600055044046 E 17, 13910119900920709 E 17, 33323122928343309 E 18, 58087072958336742 E 19, 79436207167477284 E 20, 89300379775313941 E 21, 85187296520101583 E 22, 70559139440828458 E 23, 51632919110744284 E 24, 33836945021626928 E 25, 20076267787132802 E 26, 10881513924380945 E 27, 54282166271863473 E 29, 25080670008257037 E 30, 10791905402827638 E 31, 43449473696909339 E 33, 16435925994123648 E 34, 58629072422883304 E 36, 19785715716332970 E 37, 63353902537722693 E 39, 19298124563486791 E 40, 56053969486036230 E 42, 15559060290309915 E 43, 41352440920569044 E 45, 10542504175952136 E 46, 25824550836680395 E 48, 60874345865367213 E 50, 13828189764682069 E 51, 30310900766107909 E 53, 64190153368704304 E 55, 13148376079466259 E 56, 26078100908951997 E 58, 50132213544489816 E 60, 93498658173004806 E 62, 16932763759240449 E 63, 29802221997528534 E 65, 51016646442539439 E 67, 85004750854670891 E 69, 13795929736942036 E 70, 21823675107936908 E 72, 33670687259083267 E 74, 50697640509569906 E 76, 74539607288521826 E 78, 10707553375029918 E 79, 15035798313626390 E 81, 20649757279262819 E 83, 27750143230569513 E 85, 36507157191094362 E 87, 47037653377884219 E 89, 59381698562211151 E 91, 73481166129916195 E 93, 89163292388443093 E 95, 10613201839139961 E 96, 12396939667404904 E 98, 14214838413617854 E 100, 16005707301364860 E 102, 17703300058661321 E 104, 19240483350113187 E 106, 20553765571963962 E 108, 21587747549199957 E 110, bnil.
Definition r126 := 36489698144859822 E 17, 13915303327473647 E 17, 33580235556368423 E 18, 58981302732741669 E 19, 81284514928978992 E 20, 92093492632815360 E 21, 88543405906078733 E 22, 73918495194046692 E 23, 54519734173740270 E 24, 36012368979401645 E 25, 21536825242029458 E 26, 11766024268587294 E 27, 59161894608213542 E 29, 27553116163971190 E 30, 11950282827528226 E 31, 48496957755433455 E 33, 18491633731111000 E 34, 66488459666514713 E 36, 22617157079141058 E 37, 72998402370360665 E 39, 22413488315131911 E 40, 65622932233019447 E 42, 18360648307811414 E 43, 49188276550134006 E 45, 12640388316973693 E 46, 31210873014099188 E 48, 74159065049771955 E 50, 16980572528437619 E 51, 37518298655391978 E 53, 80088509983828437 E 55, 16536043916765976 E 56, 33059275675678991 E 58, 64060789264728017 E 60, 12043118478042106 E 61, 21984659266013958 E 63, 39003085582764758 E 65, 67300884243059568 E 67, 11303441944476459 E 68, 18491716414012014 E 70, 29485803580069986 E 72, 45855979363806427 E 74, 69597033373115138 E 76, 10314522786130402 E 77, 14935212711628714 E 79, 21140090534324065 E 81, 29265405585404962 E 83, 39642781982569380 E 85, 52569792228128511 E 87, 68275248534214670 E 89, 86881978203978037 E 91, 10837088231927309 E 92, 13255075036902903 E 94, 15903843003329809 E 96, 18725341280612859 E 98, 21642967776098072 E 100, 24564584327939046 E 102, 27387252946380784 E 104, 30003363435602487 E 106, 32307630928149595 E 108, 34204308921528954 E 110, bnil.
Definition r127 := 36265102370445867 E 17, 13919856392982580 E 17, 33835518358413502 E 18, 59878617313477052 E 19, 83155605964656200 E 20, 94944773222464021 E 21, 91997561449050595 E 22, 77404103052248094 E 23, 57539248970245916 E 24, 38306112357244871 E 25, 23089190035201036 E 26, 12713670848724008 E 27, 64431805228428876 E 29, 30244622655340397 E 30, 13221375644530800 E 31, 54079844994480734 E 33, 20783559263849143 E 34, 75320923061688002 E 36, 25824561809147272 E 37, 84010704329827750 E 39, 25999062192286082 E 40, 76724024022312013 E 42, 21636735912706004 E 43, 58424331621493858 E 45, 15132871680712709 E 46, 37661357326709334 E 48, 90195258924299515 E 50, 20816200820552818 E 51, 46357732929060305 E 53, 99742303446512093 E 55, 20757312176750943 E 56, 41827636920915729 E 58, 81694522021894918 E 60, 15479980575810041 E 61, 28482763684409129 E 63, 50932197137555562 E 65, 88581980591828406 E 67, 14995695008483282 E 68, 24726604722465163 E 70, 39740350201496791 E 72, 62294002742356610 E 74, 95295547969330909 E 76, 14235171848997682 E 77, 20775751629873570 E 79, 29640395567380925 E 81, 41358385593730989 E 83, 56468348650220046 E 85, 75476057745871644 E 87, 98802576388710800 E 89, 12672630084686267 E 90, 15932421471350818 E 92, 19641901474280624 E 94, 23753937846422188 E 96, 28190028292123391 E 98, 32840884914483647 E 100, 37569875665670661 E 102, 42219311022032206 E 104, 46619216577521649 E 106, 50597904181273183 E 108, 53993396558092901 E 110, bnil.
Definition r128 := 36042783576433607 E 17, 13923791754477646 E 17, 34088966518766188 E 18, 60778920808456970 E 19, 85049420164134894 E 20, 97854725554968267 E 21, 95551539033402766 E 22, 81019372416857415 E 23, 60696198239798832 E 24, 40723412962457850 E 25, 24738212365047777 E 26, 13728330105132725 E 27, 70119207387408940 E 29, 33172412279418799 E 30, 14615023550992964 E 31, 60249546700352877 E 33, 23336459501255469 E 34, 85237048678617931 E 36, 29454003195884759 E 37, 96570690513570770 E 39, 30120930031168775 E 40, 89586507483231610 E 42, 25462673520641584 E 43, 69295887226106273 E 45, 18089929805680646 E 46, 45374688735082808 E 48, 10952262796085005 E 49, 25475595043335120 E 51, 57180509019463731 E 53, 12399620605180209 E 54, 26007792461205147 E 56, 52820103871250919 E 58, 10397587073834285 E 59, 19857011936212935 E 61, 36823884728207324 E 63, 66365749136927471 E 65, 11633253817865576 E 66, 19848456912790169 E 68, 32985955275945022 E 70, 53431921044799068 E 72, 84415061081118671 E 74, 13015204403654503 E 75, 19595026171553621 E 77, 28823366071662366 E 79, 41445447206198511 E 81, 58285611024468984 E 83, 80206184901001026 E 85, 10804807335435050 E 86, 14255458319019772 E 88, 18428280528769990 E 90, 23350975492377272 E 92, 29014293160423076 E 94, 35364648493310288 E 96, 42299432544858612 E 98, 49666003425385615 E 100, 57265029287012688 E 102, 64858405542880744 E 104, 72181436882746570 E 106, 78958435381319697 E 108, 84920420090482388 E 110, bnil.
Definition r129 := 35822713022370328 E 17, 13927121844009260 E 17, 34340575711860138 E 18, 61682118049760275 E 19, 86965894067231916 E 20, 10082384679705943 E 20, 99207121702618378 E 22, 84767763938205722 E 23, 63995433261169567 E 24, 43269684984273042 E 25, 26488948588369487 E 26, 14814077064828493 E 27, 76253046427220200 E 29, 36354889010625049 E 30, 16141826544681212 E 31, 67061894675051815 E 33, 26177436723024530 E 34, 96358871965764766 E 36, 33556732313176411 E 37, 11088005975490708 E 38, 34853782623118857 E 40, 10447157290140101 E 41, 29924989318507762 E 43, 82075278699564612 E 45, 21593203162516622 E 46, 54584516361927671 E 48, 13278089196374079 E 49, 31126640390775254 E 51, 70409677489659381 E 53, 15387546507166017 E 54, 32526797969825169 E 56, 66575446905484892 E 58, 13207620634878161 E 59, 25420450672478410 E 61, 47509057614666014 E 63, 86291576570476948 E 65, 15244153395807429 E 66, 26212392651866000 E 68, 43902261178995045 E 70, 71669868844725608 E 72, 11411266333605420 E 73, 17731401156673619 E 75, 26903955906191999 E 77, 39883502680325290 E 79, 57796799261075062 E 81, 81915622192398144 E 83, 11360350158552604 E 84, 15423374925871044 E 86, 20507945390420619 E 88, 26718028415909929 E 90, 34119549548554879 E 92, 42725678165714575 E 94, 52483774804611498 E 96, 63265805656937757 E 98, 74863914925607359 E 100, 86992469284527962 E 102, 99297272926195188 E 104, 11137186387979133 E 105, 12277994598278753 E 107, 13308220984072769 E 109, bnil.
Definition r130 := 35604862376371771 E 17, 13929858872573012 E 17, 34590342088956075 E 18, 62588114605153788 E 19, 88904960925763777 E 20, 10385262719327387 E 20, 10296609929935542 E 21, 88652789391850439 E 23, 67441923183564641 E 24, 45950522872749265 E 25, 28346667723878147 E 26, 15975193417685716 E 27, 82863984895726180 E 29, 39811706969152760 E 30, 17813195979349523 E 31, 74577476757664182 E 33, 29336137137299403 E 34, 10882094759644992 E 35, 38189707485963657 E 37, 12716475178416624 E 38, 40281950713781690 E 40, 12167645608555580 E 41, 35122931636275883 E 43, 97077344600933558 E 45, 25737819015281891 E 46, 65565235640295549 E 48, 16072725627482262 E 49, 37969620560160458 E 51, 86553904912970286 E 53, 19062252165807042 E 54, 40606621999903898 E 56, 83756889290463262 E 58, 16744882217847966 E 59, 32478201223450543 E 61, 61169719157656583 E 63, 11196439771300667 E 64, 19932714399124320 E 66, 34539933308468548 E 68, 58297980847835796 E 70, 95908062888826853 E 72, 15388784625614646 E 73, 24097144612515963 E 75, 36846037775392308 E 77, 55045286055994774 E 79, 80386456111849987 E 81, 11481487112873520 E 82, 16046321735356046 E 84, 21954098880413751 E 86, 29417842844590633 E 88, 38622963730489530 E 90, 49704652178352156 E 92, 62724226928497387 E 94, 77646888504051358 E 96, 94323675328056264 E 98, 11248041728111306 E 99, 13171607738424061 E 101, 15151206876889439 E 103, 17125300509237796 E 105, 19025802560120371 E 107, 20782051294622074 E 109, bnil.
Definition r131 := 35389203708876504 E 17, 13932014833965858 E 17, 34838262265119629 E 18, 63496816788974836 E 19, 90866550765192854 E 20, 10694154999110938 E 20, 10683026810552136 E 21, 92678011540114955 E 23, 71040756340495951 E 24, 48771705244845025 E 25, 30316858079708135 E 26, 17216175828999501 E 27, 89984486808253725 E 29, 43563842691546843 E 30, 19641408521819800 E 31, 82861994388506928 E 33, 32844964234200687 E 34, 12277150845935195 E 35, 43416172541774330 E 37, 14567761617255267 E 38, 46500551472383221 E 40, 14153904524642021 E 41, 41170208291064720 E 43, 11466562062553347 E 44, 30634478850405548 E 46, 78638666001282096 E 48, 19425674333886427 E 49, 46243123726302284 E 51, 10622387728984747 E 52, 23574065834339652 E 54, 50603684806238552 E 56, 10517947465207126 E 57, 21189362876019379 E 59, 41414580219415240 E 61, 78600157077637994 E 63, 14497483865466631 E 64, 26007883124236257 E 66, 45413611212163260 E 68, 77240333031190867 E 70, 12804773982353717 E 71, 20703671958500988 E 73, 32668935096049786 E 75, 50336915381502751 E 77, 75777874411207040 E 79, 11151459556100663 E 80, 16049946095642885 E 82, 22603598907230871 E 84, 31163370744148224 E 86, 42079095661163610 E 88, 55670866454022987 E 90, 72194859859479612 E 92, 91806081646609903 E 94, 11452152603105840 E 95, 14018797288267648 E 97, 16845890246356677 E 99, 19878466426244394 E 101, 23041905312794065 E 103, 26244388724160876 E 105, 29381121948245574 E 107, 32340070255224033 E 109, bnil.
Definition r132 := 35175709486500523 E 17, 13933601508574830 E 17, 35084333306486186 E 18, 64408131672390994 E 19, 92850590446087321 E 20, 11009109136951491 E 20, 11080143048249004 E 21, 96847043978988061 E 23, 74797141545814492 E 24, 51739198816635861 E 25, 32405234005077634 E 26, 18541744492140114 E 27, 97648905136545332 E 29, 47633670824715318 E 30, 21639663144583364 E 31, 91986643433681918 E 33, 36739307885348500 E 34, 13837372031058091 E 35, 49306287846005810 E 37, 16670134829196679 E 38, 53616759742883227 E 40, 16444302998099138 E 41, 48196946045116266 E 43, 13525937264056026 E 44, 36411847341006313 E 46, 94181753491389661 E 48, 23442582969403161 E 49, 56230962725417164 E 51, 13015167146018305 E 52, 29104594883569125 E 54, 62951904836239220 E 56, 13184315307061776 E 57, 26763597989782506 E 59, 52708423961576953 E 61, 10079766860870455 E 62, 18733552481393815 E 64, 33863595146936933 E 66, 59581955877685735 E 68, 10211125524602304 E 69, 17056984172290319 E 71, 27789366406713639 E 73, 44184227160460756 E 75, 68599346057537317 E 77, 10405835531397669 E 78, 15430055143611194 E 80, 22377451749687277 E 82, 31755282964822391 E 84, 44114790169613170 E 86, 60021609341069791 E 88, 80014871603792036 E 90, 10455638225763921 E 91, 13397300598398984 E 93, 16839709525955830 E 95, 20771118432070903 E 97, 25150393528957639 E 99, 29904422498345933 E 101, 34927917122058679 E 103, 40085984017336145 E 105, 45219554400975181 E 107, 50153437445053761 E 109, bnil.
Definition r133 := 34964352565990398 E 17, 13934630467099524 E 17, 35328552717809457 E 18, 65321967093055870 E 19, 94857003725371566 E 20, 11330172037067253 E 20, 11488139451160494 E 21, 10116355097052984 E 22, 78716409371416698 E 24, 54859162360628232 E 25, 34617742766206252 E 26, 19956851924992477 E 27, 10589357261024452 E 28, 52045043367569132 E 30, 23822141292371239 E 31, 10202851954161442 E 32, 41057790190442081 E 34, 15580703901373366 E 35, 55937818406909477 E 37, 19055171631634851 E 38, 61751216401302307 E 40, 19082365067980185 E 41, 56351895802387544 E 43, 15934157397949894 E 44, 43219283316488039 E 46, 11263544506934035 E 47, 28247989147003113 E 49, 68270273012144316 E 51, 15921360026141003 E 52, 35872900111447382 E 54, 78178714387877678 E 56, 16497271894453440 E 57, 33742256256107174 E 59, 66955286867813886 E 61, 12901217433992101 E 62, 24158826802273273 E 64, 44001184928425179 E 66, 78004881752122962 E 68, 13469654671658435 E 69, 22670495153109055 E 71, 37214604131953344 E 73, 59618095886041001 E 75, 93262481834284498 E 77, 14254112250127093 E 78, 21296438716324216 E 80, 31119061206624730 E 82, 44494696862385740 E 84, 62280622497501161 E 86, 85379355991924607 E 88, 11468127450898060 E 89, 15099026593172781 E 91, 19493613457994398 E 93, 24688023951633560 E 95, 30682330205403879 E 97, 37432600680260729 E 99, 44845351150220007 E 101, 52775398515591520 E 103, 61027873489964463 E 105, 69364753966975355 E 107, 77515791666073553 E 109, bnil.
Definition r134 := 34755106188273210 E 17, 13935113074209468 E 17, 35570918430281241 E 18, 66238231664178075 E 19, 96885711317343725 E 20, 11657389883502733 E 20, 11907197363510779 E 21, 10563124726093473 E 22, 82804013406144317 E 24, 58137950687110339 E 25, 36960571546543981 E 26, 21466692013843467 E 27, 11475689591713240 E 28, 56823372587427731 E 30, 26204070365866313 E 31, 11307104935881712 E 32, 45842529125049820 E 34, 17526867772425322 E 35, 63396883640410838 E 37, 21758110520834357 E 38, 71039587236248415 E 40, 22117411235962035 E 41, 65804911892580453 E 43, 18746794423836949 E 44, 51229958226997108 E 46, 13451490084268963 E 47, 33988503286888652 E 49, 82760976637467150 E 51, 19445711808852082 E 52, 44142823693396592 E 54, 96924214610427677 E 56, 20606594619794749 E 57, 42463786019554337 E 59, 84894610557209909 E 61, 16480740949360472 E 62, 31093728413474589 E 64, 57057452060338060 E 66, 10191097021737716 E 67, 17729923746422611 E 69, 30065107336752631 E 71, 49724060982950463 E 73, 80256978049754754 E 75, 12649205863568272 E 76, 19478168911227749 E 78, 29320182189152865 E 80, 43165617157665956 E 82, 62182984991256800 E 84, 87693652265485506 E 86, 12112116472272708 E 87, 16391234854766880 E 89, 21743034523949499 E 91, 28282359691237238 E 93, 36087911328232298 E 95, 45187250850609927 E 97, 55543057303216135 E 99, 67042382923689554 E 101, 79490604583882388 E 103, 92611477290099497 E 105, 10605417005973308 E 106, 11940745407220493 E 108, bnil.
Definition r135 := 34547943972601858 E 17, 13935060492137499 E 17, 35811428789629569 E 18, 67156834783021592 E 19, 98936630954439596 E 20, 11990808133952313 E 20, 12337498629762829 E 21, 11025389788440681 E 22, 87065531495408765 E 24, 61582118648467928 E 25, 39440154571318541 E 26, 23076709308349787 E 27, 12427945338928590 E 28, 61995717741290178 E 30, 28801790670553731 E 31, 12520444898956067 E 32, 51139421099073112 E 34, 19697519182641001 E 35, 71778773707561193 E 37, 24818240568673755 E 38, 81634286948147161 E 40, 25605273310546252 E 41, 76749736777580124 E 43, 22027718019560648 E 44, 60644413183737653 E 46, 16042123241059746 E 47, 40836495289741023 E 49, 10017682865121748 E 50, 23713246652429145 E 52, 54231674294461306 E 54, 11996405220132126 E 55, 25695151642067005 E 57, 53344538341837643 E 59, 10744292293325980 E 60, 21013626812402183 E 62, 39941447648731188 E 64, 73839749213420673 E 66, 13286962955535994 E 67, 23288349331846106 E 69, 39785218163645802 E 71, 66290731200369753 E 73, 10779443423968949 E 74, 17116075227356188 E 76, 26553178557894484 E 78, 40268233797407957 E 80, 59725729366586918 E 82, 86680762271514938 E 84, 12315357321097035 E 85, 17136678609829153 E 87, 23363940346124358 E 89, 31223560046226505 E 91, 40917189474832791 E 93, 52599283911365197 E 95, 66353215487515660 E 97, 82168212601510329 E 99, 99919796295912591 E 101, 11935647093361313 E 102, 14009514443764650 E 104, 16162708951335132 E 106, 18333526075378643 E 108, bnil.
Definition r136 := 34342839910794010 E 17, 13934483684210394 E 17, 36050082544475705 E 18, 68077686638853673 E 19, 10100967744772294 E 19, 12330471513900124 E 20, 12779225558836981 E 21, 11503531795300816 E 22, 91506666961083505 E 24, 65198425165382663 E 25, 42063180356358195 E 26, 24792608571186578 E 27, 13450409626325634 E 28, 67590875735056041 E 30, 31632825983628008 E 31, 13852621114337973 E 32, 56998443592946638 E 34, 22116418990618126 E 35, 81188837679414277 E 37, 28279327836303311 E 38, 93706384132745161 E 40, 29609090402201024 E 41, 89407125785990282 E 43, 25850252424849330 E 44, 71694611878588261 E 46, 19105498005037966 E 47, 48994359695870661 E 49, 12107829441319672 E 50, 28872984651382185 E 52, 66520506668459239 E 54, 14823670212378520 E 55, 31985862937914478 E 57, 66895867269497314 E 59, 13573434110636764 E 60, 26743342095603491 E 62, 51208415438198101 E 64, 95369771324365700 E 66, 17288183207646579 E 67, 30525693961825753 E 69, 52535380834743594 E 71, 88183298791010698 E 73, 14445525391645680 E 74, 23107062584910491 E 76, 36112760766198035 E 78, 55170947691069608 E 80, 82435271892310120 E 82, 12052527832718013 E 83, 17250683282535640 E 85, 24181868291467374 E 87, 33213393567081719 E 89, 44715036652454371 E 91, 59031119501376923 E 93, 76446771468812112 E 95, 97150585440465113 E 97, 12119688446134671 E 98, 14847158944633166 E 100, 17866604414313907 E 102, 21126297988063233 E 104, 24553802898597503 E 106, 28057885344983758 E 108, bnil.
Definition r137 := 34139768361563194 E 17, 13933393418317683 E 17, 36286878834952616 E 18, 69000698220357337 E 19, 10310476274708086 E 19, 12676424011071668 E 20, 13232560888411899 E 21, 11997937243264421 E 22, 96133249801218372 E 24, 68993837273820086 E 25, 44836599081098136 E 26, 26620364585942593 E 27, 14547605360327034 E 28, 73639475856775142 E 30, 34715957896893326 E 31, 15314162247541541 E 32, 63473979098589814 E 34, 24809617954210724 E 35, 91743449146390594 E 37, 32190082557798573 E 38, 10744770448227952 E 39, 34200194488637045 E 41, 10402835006098102 E 42, 30298483205341564 E 44, 84648553604820975 E 46, 22723156901942213 E 47, 58699444306218846 E 49, 14612754280899875 E 50, 35102302606226876 E 52, 81466272142519633 E 54, 18287595944689643 E 55, 39750053025596436 E 57, 83744803642646553 E 59, 17116990764153659 E 60, 33972898245449973 E 62, 65529617007498407 E 64, 12293810907031596 E 65, 22449400687633032 E 67, 39930123419893533 E 69, 69225611235235975 E 71, 11705262348714014 E 72, 19315596853839972 E 74, 31124299642530649 E 76, 48999953355593235 E 78, 75409422634233155 E 80, 11350330434465995 E 81, 16716828656130031 E 83, 24102518375792374 E 85, 34035050331292486 E 87, 47090171400323139 E 89, 63863266794147540 E 91, 84929608420976598 E 93, 11079441150569580 E 94, 14183544348409582 E 96, 17824258993231321 E 98, 21996019700705046 E 100, 26663890104534643 E 102, 31760378406921943 E 104, 37184490892196033 E 106, 42803457034539838 E 108, bnil.
Definition r138 := 33938704044940554 E 17, 13931800270319916 E 17, 36521817181581311 E 18, 69925781322524132 E 19, 10522179600110748 E 19, 13028708870192916 E 20, 13697687749320643 E 21, 12508997590535382 E 22, 10095123786914281 E 23, 72975534191702847 E 25, 47767630085628663 E 26, 28566232226790788 E 27, 15724304097733421 E 28, 80174078723021790 E 30, 38071304098710795 E 31, 16916431268754104 E 32, 70625161654497936 E 34, 27805655721980220 E 35, 10357105527272684 E 36, 36604670596950634 E 38, 12307315090981068 E 39, 39459094760508290 E 41, 12089911982106041 E 42, 35468731901665682 E 44, 99815518285880058 E 46, 26989901606835647 E 47, 70229738878743448 E 49, 17610588187807504 E 50, 42612043278750813 E 52, 99616161495621451 E 54, 22524958159052156 E 55, 49317459231475061 E 57, 10465901204842709 E 58, 21547759389861101 E 60, 43078778811550211 E 62, 83699840859999785 E 64, 15817209666291552 E 65, 29094074544418317 E 67, 52126312815950218 E 69, 91029007359549514 E 71, 15504255048688184 E 72, 25771204205877828 E 74, 41829538486243350 E 76, 66333991337426908 E 78, 10283077865517941 E 79, 15590610535808599 E 81, 23129469774937355 E 83, 33591657421211096 E 85, 47780719297182212 E 87, 66590746409989569 E 89, 90968726244790792 E 91, 12185897497724892 E 92, 16013037134074150 E 94, 20648957119482639 E 96, 26138602723926487 E 98, 32491708740508312 E 100, 39674326480614992 E 102, 47602455119798807 E 104, 56138807826471404 E 106, 65093538774178551 E 108, bnil.
Definition r139 := 33739622036785671 E 17, 13929714627397299 E 17, 36754897474389925 E 18, 70852848553043411 E 19, 10736068361665687 E 19, 13387368588052318 E 20, 14174789630054306 E 21, 13037109231807768 E 22, 10596671803153538 E 23, 77150911404158454 E 25, 50863769491595998 E 26, 30636756793426285 E 27, 16985537297698245 E 28, 87229279580517144 E 30, 41720400763260955 E 31, 18671683702304884 E 32, 78516247329225702 E 34, 31135775222513544 E 35, 11681331570242534 E 36, 41583272947112901 E 38, 14082326088549614 E 39, 45476570815476232 E 41, 14034397431064125 E 42, 41471218506064445 E 44, 11755202394852690 E 45, 32015819173667963 E 47, 83910433630071625 E 49, 21193401050720238 E 50, 51652494128225680 E 52, 12162451375902084 E 53, 27700518281592646 E 55, 61088206707792755 E 57, 13057687413195654 E 58, 27078516590075359 E 60, 54527978355847658 E 62, 10671219186963145 E 63, 20312005172638876 E 65, 37632329873261568 E 67, 67912122459529622 E 69, 11945489205597417 E 70, 20493161529871801 E 72, 34310479023397536 E 74, 56093072675362609 E 76, 89597614851289495 E 78, 13989998656277645 E 79, 21364462173637604 E 81, 31924850472753852 E 83, 46701307159608801 E 85, 66909032370319895 E 87, 93924839179601681 E 89, 12923889884183633 E 90, 17437862871647006 E 92, 23080440423327576 E 94, 29978036657437680 E 96, 38222769546811272 E 98, 47857178518761930 E 100, 58859814690276636 E 102, 71133388967231632 E 104, 84497173871856659 E 106, 98685139422122263 E 108, bnil.
Definition r140 := 33542497763385071 E 17, 13927146691339873 E 17, 36986119962282189 E 18, 71781813338202957 E 19, 10952132931804847 E 19, 13752444908861274 E 20, 14664050341384971 E 21, 13582673471807935 E 22, 11118590730504945 E 23, 81527584766218537 E 25, 54132797946714176 E 26, 32838784614721194 E 27, 18336607967223305 E 28, 94841816108161669 E 30, 45686289220700046 E 31, 20593129385443600 E 32, 87217010074934651 E 34, 34834153494712962 E 35, 13162633815226570 E 36, 47192697328463243 E 38, 16096702297529693 E 39, 52354885697705397 E 41, 16273118948744022 E 42, 48431933885376125 E 44, 13826858653463904 E 45, 37928598252477937 E 47, 10012147204075986 E 48, 25469551333131556 E 50, 62520374885913026 E 52, 14827272438406595 E 53, 34012466913806929 E 55, 75547116764263328 E 57, 16264369888419178 E 58, 33970853745762882 E 60, 68898815183678148 E 62, 13580548092952563 E 63, 26035569418752185 E 65, 48583246031940901 E 67, 88304730695813038 E 69, 15644149243740605 E 70, 27031391848198024 E 72, 45582458545995710 E 74, 75057102148790134 E 76, 12075098515972323 E 77, 18989942390736888 E 79, 29208532895869312 E 81, 43960084218300169 E 83, 64769508556471454 E 85, 93462692659533835 E 87, 13214356651616476 E 88, 18313480245876460 E 90, 24887599484635600 E 92, 33177678945588189 E 94, 43402754444615901 E 96, 55737629174470518 E 98, 70288730638664288 E 100, 87070252438663462 E 102, 10598313171621371 E 103, 12679957487940515 E 105, 14915566996555859 E 107, bnil.
Definition r141 := 33347306996136905 E 17, 13924106481780185 E 17, 37215485242641705 E 18, 72712589928316173 E 19, 11170363420590966 E 19, 14123978819908608 E 20, 15165653981120087 E 21, 14146096497520043 E 22, 11661515397109685 E 23, 86113394621842563 E 25, 57582788492601123 E 26, 35179473924506491 E 27, 19783102709412275 E 28, 10305068086769761 E 29, 49993607087198877 E 31, 22694997913253613 E 32, 96803164442725434 E 34, 38938150062539900 E 35, 14818201798103422 E 36, 53507046240136823 E 38, 18380497640045135 E 39, 60209130785724570 E 41, 18847825958906282 E 42, 56494746661991442 E 44, 16243738242461621 E 45, 44876174004237851 E 47, 11930623907502604 E 48, 30566408660696918 E 50, 75566994293342271 E 52, 18049265515999767 E 53, 41698871782981934 E 55, 93280779721201073 E 57, 20225524572918422 E 58, 42545874414057517 E 60, 86906314868262080 E 62, 17252244482476847 E 63, 33310736641098863 E 65, 62602640355745239 E 67, 11459856127986901 E 68, 20447316384176926 E 70, 35582957175536560 E 72, 60431131240192610 E 74, 10021764643037753 E 75, 16238002021756678 E 77, 25719062091624930 E 79, 39841057664740762 E 81, 60390597709561179 E 83, 89613031153087077 E 85, 13023528403195671 E 86, 18544975074342172 E 88, 25884573809484297 E 90, 35427710945597874 E 92, 47565939057169333 E 94, 62669668547382796 E 96, 81054786589622748 E 98, 10294517107072507 E 99, 12843406286027501 E 101, 15744806816695289 E 103, 18971802121949169 E 105, 22476091204469312 E 107, bnil.
Definition r142 := 33154025846320395 E 17, 13920603839369472 E 17, 37442994251172861 E 18, 73645093402690577 E 19, 11390749681563889 E 19, 14502010547504479 E 20, 15679784898999203 E 21, 14727789349113155 E 22, 12226093866840317 E 23, 90916409938127876 E 25, 61222114555599598 E 26, 37666306012844129 E 27, 21330904183796644 E 28, 11189723855427905 E 29, 54668684039356956 E 31, 24992607953593075 E 32, 10735681672421939 E 33, 43488574020942007 E 35, 16666948950326550 E 36, 60608446147459436 E 38, 20967261939807877 E 39, 69168715619767362 E 41, 21805801427614550 E 42, 65823771693129929 E 44, 19060092564496310 E 45, 53029745220102554 E 47, 14198154459478831 E 48, 36633505146372039 E 50, 91207760248674877 E 52, 21939412749016793 E 53, 51045305576984595 E 55, 11499789889595152 E 56, 25110996386358100 E 58, 53197127410957859 E 60, 10943312173746246 E 61, 21878115993737552 E 63, 42541768774751516 E 65, 80517644638545146 E 67, 14843789604468177 E 68, 26672839668413502 E 70, 46745776747393147 E 72, 79951857455823339 E 74, 13353023214746563 E 75, 21788916847372593 E 77, 34755688211123407 E 79, 54221234994603348 E 81, 82770526099940124 E 83, 12369309431305266 E 84, 18103848249952293 E 86, 25961901406722015 E 88, 36493818855436578 E 90, 50302489818936753 E 92, 68015924050096293 E 94, 90248523162426110 E 96, 11755188268144895 E 97, 15035752018115896 E 99, 18891553923318321 E 101, 23323467428568706 E 103, 28303015901490880 E 105, 33768618473496485 E 107, bnil.
Definition r143 := 32962630759948697 E 17, 13916648428898371 E 17, 37668648251968660 E 18, 74579239674151133 E 19, 11613281317547478 E 19, 14886579553209032 E 20, 16206627661744475 E 21, 15328167889588376 E 22, 12812987546295752 E 23, 95944932453562352 E 25, 65059458060196069 E 26, 40307096656108797 E 27, 22986203988123096 E 28, 12142534820130001 E 29, 59739642423085113 E 31, 27502440623227052 E 32, 11896694615936482 E 33, 48529971065920473 E 35, 18729669732168159 E 36, 68587842828051651 E 38, 23894415426803700 E 39, 79379016936134438 E 41, 25200543910116205 E 42, 76606030174412222 E 44, 22338188456232338 E 45, 62587212497225474 E 47, 16874908270804855 E 48, 43846178857828562 E 50, 10993325486168103 E 51, 26629717158516861 E 53, 62393858010086994 E 55, 14155350018200644 E 56, 31127160671553769 E 58, 66406220398483820 E 60, 13756708627766593 E 61, 27696250519126324 E 63, 54234049836042726 E 65, 10336966461125579 E 66, 19190774195322558 E 68, 34726636441982010 E 70, 61288882136127476 E 72, 10556350888810179 E 73, 17754599676842462 E 75, 29175144632567740 E 77, 46865087767747043 E 79, 73627351587395737 E 81, 11318575767950327 E 82, 17033655970519504 E 84, 25106127100967931 E 86, 36256992335632225 E 88, 51324070686960763 E 90, 71242280585458054 E 92, 97007547776809987 E 94, 12962287800384662 E 95, 17002697008593957 E 97, 21900805473169332 E 99, 27710818681238158 E 101, 34452565265665938 E 103, 42102508075174602 E 105, 50586587049250272 E 107, bnil.
Definition r144 := 32773098512703691 E 17, 13912249742363195 E 17, 37892448827803592 E 18, 75514945493133524 E 19, 11837947686415902 E 19, 15277724530341573 E 20, 16746367018275609 E 21, 15947652773165376 E 22, 13422871289499854 E 23, 10120750083917236 E 24, 69103817664603985 E 26, 43110007829150606 E 27, 24755515971064523 E 28, 13168149049691615 E 29, 65236502892750591 E 31, 30242217123788186 E 32, 13172991792880215 E 33, 54110931771009948 E 35, 21029209648635478 E 36, 77545868266008782 E 38, 27203659924763128 E 39, 91003202447103979 E 41, 29092527364014433 E 42, 89054434558907086 E 44, 26149417704479674 E 45, 73777092274868937 E 47, 20030857130245307 E 48, 52409781604933023 E 50, 13232211694507013 E 51, 32276980842759310 E 53, 76153769875756232 E 55, 17397770390349363 E 56, 38524417977734533 E 58, 82761642886357535 E 60, 17264690332064267 E 61, 35001711882962540 E 63, 69018342146826362 E 65, 13246766863029507 E 66, 24764735214378536 E 68, 45126164520963896 E 70, 80199563497090243 E 72, 13910053850649578 E 73, 23558663485058159 E 75, 38983212749664225 E 77, 63057821360144185 E 79, 99759367973318422 E 81, 15442988116584919 E 82, 23403053707515297 E 84, 34735178768984239 E 86, 50513422967549387 E 88, 72004787940329133 E 90, 10064759401870886 E 91, 13800551947094345 E 93, 18569404479255126 E 95, 24527854256004312 E 97, 31814660296398191 E 99, 40536108640529792 E 101, 50750437602141788 E 103, 62452777082242061 E 105, 75562228201203717 E 107, bnil.
Definition r145 := 32585406204951473 E 17, 13907417101978539 E 17, 38114397870648513 E 18, 76452128451359310 E 19, 12064737906817779 E 19, 15675483400765314 E 20, 17299187865099618 E 21, 16586669412427045 E 22, 14056433500268042 E 23, 10671289487140799 E 24, 73364517118024532 E 26, 46083559702759779 E 27, 26645689985384466 E 28, 14271490037277159 E 29, 71191295282166406 E 31, 33230980843881366 E 32, 14575002973037817 E 33, 60284422484946704 E 35, 23590649085164467 E 36, 87593784871849635 E 38, 30941429977336601 E 39, 10422424627712396 E 40, 33550046879144314 E 42, 10341113495200795 E 43, 30575549872772727 E 45, 86862968155250784 E 47, 23747280236240770 E 48, 62564533129336003 E 50, 15905600975388771 E 51, 39067226083613214 E 53, 92813965392533320 E 55, 21350987444006496 E 56, 47606153056822970 E 58, 10298142672061266 E 59, 21631744539870374 E 61, 44159599850199726 E 63, 87680614967302644 E 65, 16945418385238298 E 66, 31899181587347571 E 68, 58529905778651063 E 70, 10474301048014033 E 71, 18293027676119900 E 73, 31196885798893820 E 75, 51980698717912101 E 77, 84665681465584752 E 79, 13487335587661739 E 80, 21023639569727193 E 82, 32081394918822208 E 84, 47946229126418622 E 86, 70209514938821255 E 88, 10077547499281215 E 89, 14184081758988098 E 91, 19583877241552959 E 93, 26534116566397519 E 95, 35291546251245041 E 97, 46093844271212446 E 99, 59137401789783833 E 101, 74552902084750647 E 103, 92380673953759379 E 105, 11254825510325890 E 106, bnil.
Definition r146 := 32399531256837127 E 17, 13902159663137448 E 17, 38334497572396251 E 18, 77390706985107577 E 19, 12293640863857039 E 19, 16079893311943404 E 20, 17865275211885724 E 21, 17245647944241945 E 22, 14714376232208499 E 23, 11247013961560733 E 24, 77851213739054487 E 26, 49236642929603780 E 27, 28663926091151949 E 28, 15457770502854113 E 29, 77638174914897753 E 31, 36489184141538130 E 32, 16114009382365453 E 33, 67108140301121784 E 35, 26441501959550942 E 36, 98854513218717567 E 38, 35159387427764775 E 39, 11924715444657253 E 40, 38650159253673475 E 42, 11995126744200873 E 43, 35710145629556307 E 45, 10214854829241104 E 46, 28118486316810396 E 48, 74591114948600530 E 50, 19093699186923308 E 51, 47220862667093245 E 53, 11295780358229931 E 54, 26163910105151447 E 56, 58739429933444269 E 58, 12794038892021684 E 59, 27059675536524112 E 61, 55620973630313664 E 63, 11119866988026373 E 64, 21638690181724559 E 66, 41014837158225500 E 68, 75774338933031561 E 70, 13653762954982309 E 71, 24010210184495393 E 73, 41229185910981882 E 75, 69170171429149552 E 77, 11344031968112770 E 78, 18195733119663465 E 80, 28558455828010284 E 82, 43879689445813809 E 84, 66031064191032274 E 86, 97358394430796595 E 88, 14070707135918288 E 89, 19940956293371945 E 91, 27722166216447523 E 93, 37819596254412662 E 95, 50648519121995246 E 97, 66607455258305438 E 99, 86045078041304001 E 101, 10922253734482235 E 102, 13627392985059773 E 104, 16716848110478536 E 106, bnil.
Definition r147 := 32215451403457468 E 17, 13896486417319759 E 17, 38552750415804159 E 18, 78330600378095378 E 19, 12524645214729310 E 19, 16490990634261571 E 20, 18444814147235067 E 21, 17925023194484383 E 22, 15397415286324886 E 23, 11848850961887383 E 24, 82573907014659344 E 26, 52578531221754275 E 27, 30817789218666851 E 28, 16732506755898622 E 29, 84613544567337436 E 31, 40038780029326174 E 32, 17802205651356158 E 33, 74644893628649612 E 35, 29611930249115433 E 36, 11146374992366982 E 37, 39914963243858576 E 39, 13630142039076603 E 40, 44479728192315320 E 42, 13898714898443261 E 43, 41660149673588372 E 45, 11998340580474132 E 46, 33253782147494308 E 48, 88817109693796589 E 50, 22890765461572987 E 51, 56998720350317410 E 53, 13728042057843267 E 54, 32015212328319559 E 56, 72367742777356822 E 58, 15870283910099494 E 59, 33795704114178531 E 61, 69942238524438465 E 63, 14078704415732642 E 64, 27583942908922594 E 66, 52641560782674767 E 68, 97920227596148781 E 70, 17764999710436553 E 71, 31453681498410571 E 73, 54380480686845892 E 75, 91858631595320456 E 77, 15168110023581281 E 78, 24496078399748877 E 80, 38710142129352475 E 82, 59884811789362965 E 84, 90732858865955569 E 86, 13469544480757132 E 87, 19600117999365267 E 89, 27967396966390742 E 91, 39146827785636298 E 93, 53771195076651712 E 95, 72504169170110979 E 97, 96002498347389557 E 99, 12486744531134843 E 100, 15958754312107094 E 102, 20047631599076800 E 104, 24761005969958871 E 106, bnil.
Definition r148 := 32033144690110615 E 17, 13890406194949784 E 17, 38769159165637751 E 18, 79271728763979001 E 19, 12757739394312700 E 19, 16908810958612641 E 20, 19037989804654964 E 21, 18625234641571824 E 22, 16106280306189258 E 23, 12477753311119925 E 24, 87542947319083966 E 26, 56118894222866190 E 27, 33115224300815617 E 28, 18101533635332252 E 29, 92156182304077551 E 31, 43903318992733982 E 32, 19652765713478581 E 33, 82963009977662065 E 35, 33134975517957579 E 36, 12557118276814401 E 37, 45271950676381565 E 39, 15564373222211414 E 40, 51136584821351301 E 42, 16087296800556108 E 43, 48547684450131115 E 45, 14076948823510808 E 46, 39279720465501170 E 48, 10562440594850213 E 49, 27407444098345190 E 51, 68709083253725780 E 53, 16660909359929828 E 54, 39118999960905045 E 56, 89026198148401060 E 58, 19656179512689487 E 59, 42142246360790894 E 61, 87808715099566513 E 63, 17795198161048623 E 64, 35102548448179424 E 66, 67445555523092401 E 68, 12631047651616132 E 69, 23071436763038938 E 71, 41126664394152730 E 73, 71587582100485462 E 75, 12174674279308690 E 76, 20240053197913841 E 78, 32909373199552364 E 80, 52358927836843492 E 82, 81550318061314709 E 84, 12439892080634709 E 85, 18592938235915380 E 87, 27239363399604475 E 89, 39132132123203364 E 91, 55146922399809236 E 93, 76263665819401284 E 95, 10353192539386681 E 96, 13801846891280444 E 98, 18073709263530199 E 100, 23256292607623765 E 102, 29413589576725699 E 104, 36576044014226562 E 106, bnil.
Definition r149 := 31852589467620857 E 17, 13883927668204074 E 17, 38983726860019316 E 18, 80214013128489161 E 19, 12992911620711936 E 19, 17333389094238596 E 20, 19644987328746762 E 21, 19346726378839950 E 22, 16841714870654809 E 23, 13134699621365867 E 24, 92769044752023284 E 26, 59867810678014666 E 27, 35564571884634626 E 28, 19571020043978803 E 29, 10030737541127153 E 30, 48108051180981753 E 32, 21679912869212895 E 33, 92136772657873967 E 35, 37046808638478593 E 36, 14134181064523400 E 37, 51301154155611684 E 39, 17756095529580373 E 40, 58730815211934725 E 42, 18601002486004895 E 43, 56512068160854969 E 45, 16496849213671061 E 46, 46342664396970676 E 48, 12545770453306879 E 49, 32773461945286067 E 51, 82715883316716847 E 53, 20192712492145776 E 54, 47731503234093147 E 56, 10935956925190017 E 57, 24308594002482454 E 59, 52468703824691175 E 61, 11006325276470300 E 62, 22455862987106219 E 64, 44595176867035729 E 66, 86263090681183154 E 68, 16264233135689265 E 69, 29908283904506659 E 71, 53673889440375710 E 73, 94058940960227239 E 75, 16104328836669913 E 76, 26953793094229830 E 78, 44121562239007014 E 80, 70671630242136181 E 82, 11081618076381160 E 83, 17018345746180634 E 85, 25607785320305472 E 87, 37769763132357367 E 89, 54626601169127453 E 91, 77502436316975720 E 93, 10790341728446605 E 94, 14747394573860963 E 96, 19792549510123620 E 98, 26093683326292388 E 100, 33802760897841648 E 102, 43041098374332236 E 104, 53883488693457464 E 106, bnil.
Definition r150 := 31673764387737868 E 17, 13877059353770219 E 17, 39196456801974346 E 18, 81157375311211675 E 19, 13230149900754866 E 19, 17764759066825499 E 20, 20265991841616623 E 21, 20089947075775826 E 22, 17604476584079403 E 23, 13820694715250587 E 24, 98263278095331669 E 26, 63835781904138612 E 27, 38174584231912348 E 28, 21147485095140215 E 29, 10911106065994170 E 30, 52680034218160986 E 32, 23898994240900582 E 33, 10224688817968421 E 34, 41386998974286279 E 36, 15895737644468123 E 37, 58081098669163968 E 39, 20237341563307015 E 40, 67386187683788666 E 42, 21485258170429204 E 43, 65712083110497203 E 45, 19311021000113962 E 46, 54611710109732434 E 48, 14883428008502248 E 49, 39140745224174981 E 51, 99448233157621859 E 53, 24440182177047995 E 54, 58158970959977391 E 56, 13414373857490554 E 57, 30017577518346886 E 59, 65225659622715466 E 61, 13774091897787956 E 62, 28291306519168644 E 64, 56560584592028813 E 66, 11014223154243974 E 67, 20905733576419087 E 69, 38701373299179698 E 71, 69919948620522137 E 73, 12335062490799426 E 74, 21261172658703772 E 76, 35823487512357638 E 78, 59034013715757473 E 80, 95191914647734458 E 82, 15026634162092063 E 83, 23231621151356166 E 85, 35191508817530287 E 87, 52253317861717067 E 89, 76081239741231720 E 91, 10866572737964310 E 92, 15230575481555249 E 94, 20955611215605158 E 96, 28313315488400440 E 98, 37577541888396946 E 100, 49005991413894025 E 102, 62818044115346086 E 104, 79170039240723169 E 106, bnil.
Definition r151 := 31496648398608840 E 17, 13869809615557491 E 17, 39407352551171400 E 18, 82101738007024829 E 19, 13469442035440409 E 19, 18202954116846640 E 20, 20901188409517444 E 21, 20855349938129636 E 22, 18395337164031763 E 23, 14536770047798856 E 24, 10403710388749836 E 25, 68033745563978236 E 27, 40954441918712107 E 28, 22837814889199119 E 29, 11861397113753235 E 30, 57648246891575398 E 32, 26326559853652905 E 33, 11338098624119937 E 34, 46198804368293011 E 36, 17861792154099283 E 37, 65698804725348629 E 39, 23043851190044138 E 40, 77241733832197813 E 42, 24791438726925257 E 43, 76328523225156894 E 45, 22580196907461005 E 46, 64282014527001230 E 48, 17635517189047679 E 49, 46687017224899036 E 51, 11941150509628948 E 52, 29541723699837022 E 54, 70766971120035906 E 56, 16431113331978416 E 57, 37013068473174485 E 59, 80961948744994417 E 61, 17211099634016056 E 62, 35586227435503771 E 64, 71618671830888640 E 66, 14039440029302642 E 67, 26825323848668346 E 69, 49990753635746471 E 71, 90917659169220500 E 73, 16146277830604926 E 74, 28015751907962984 E 76, 47518968779147703 E 78, 78828924388234728 E 80, 12795803456594509 E 81, 20333562851341445 E 83, 31645766114740649 E 85, 48256782961380286 E 87, 72130473456230792 E 89, 10572239000733401 E 90, 15200802221536053 E 92, 21447407248854045 E 94, 29705948646395411 E 96, 40403451646481303 E 98, 53980983197540414 E 100, 70867370636384518 E 102, 91446334064923159 E 104, 11601857603026776 E 105, bnil.
Definition r152 := 31321220740322425 E 17, 13862186667360196 E 17, 39616417915851798 E 18, 83047024767205317 E 19, 13710775625337044 E 19, 18648006698149464 E 20, 21550762009730697 E 21, 21643392666925707 E 22, 19215082526453695 E 23, 15283984128670900 E 24, 11010236561507301 E 25, 72473089746333068 E 27, 43913770943744664 E 28, 24649279938464931 E 29, 12886578989245516 E 30, 63043708983353327 E 32, 28980446587935530 E 33, 12563415428272616 E 34, 51529483360436478 E 36, 20054347113740502 E 37, 74250634391759586 E 39, 26215468594830581 E 40, 88453498488831930 E 42, 28577594847448221 E 43, 88567052643354969 E 45, 26373929524572714 E 46, 75578580643922135 E 48, 20871800047220943 E 49, 55619946741083663 E 51, 14320019314572536 E 52, 35661243729755731 E 54, 85991335521369942 E 56, 20098086030021730 E 57, 45572892987586108 E 59, 10034515756795746 E 60, 21472775815981185 E 62, 44691585413769324 E 64, 90538738419423121 E 66, 17865798922422537 E 67, 34362299256360726 E 69, 64460194455690831 E 71, 11800895104432129 E 72, 21096188068035247 E 74, 36846716492606399 E 76, 62911281881652735 E 78, 10505390849203054 E 79, 17165613397611131 E 81, 27458098751899786 E 83, 43016776737648828 E 85, 66030706370542925 E 87, 99350884136352313 E 89, 14658358887737444 E 90, 21215357605168467 E 92, 30131736408080732 E 94, 42010547432051431 E 96, 57517364122854556 E 98, 77354739142474759 E 100, 10222523514722413 E 101, 13278340298629657 E 103, 16957848561659650 E 105, bnil.
Definition r153 := 31147460940523253 E 17, 13854198575474627 E 17, 39823656944945704 E 18, 83993160000213774 E 19, 13954138075931055 E 19, 19099948476781591 E 20, 22214897497696165 E 21, 22454537416393914 E 22, 20064512868252811 E 23, 16063422944634699 E 24, 11647130302017769 E 25, 77165667355405107 E 27, 47062660355564132 E 28, 26589553258788705 E 29, 13991931064289608 E 30, 68899607520822740 E 32, 31879867260169416 E 33, 13910950869259619 E 34, 57430631144149138 E 36, 22497586034013892 E 37, 83843214309828853 E 39, 29796578438833548 E 40, 10119647519856078 E 41, 32909262786278584 E 43, 10266141064615591 E 44, 30771795026044777 E 46, 88760559339993092 E 48, 24673163171348735 E 49, 66181926647961611 E 51, 17151282892456476 E 52, 42992618227466906 E 54, 10435102420649375 E 55, 24549436557701195 E 57, 56032294691360182 E 59, 12418620961763005 E 60, 26749177527044735 E 62, 56039394089168401 E 64, 11427406068940695 E 65, 22697672792443787 E 67, 43942714363086651 E 69, 82974023532888026 E 71, 15290139792985115 E 72, 27513544798858734 E 74, 48371269524848992 E 76, 83131082583244523 E 78, 13973120216562064 E 79, 22981948790436328 E 81, 37003635517524260 E 83, 58352338036066252 E 85, 90159783188904653 E 87, 13654796186750207 E 88, 20278949573184876 E 90, 29543172205257125 E 92, 42235499691987271 E 94, 59273226255029422 E 96, 81685691231933284 E 98, 11058106371948535 E 99, 14709530614009517 E 101, 19232306995525732 E 103, 24723233133677632 E 105, bnil.
Definition r154 := 30975348810095965 E 17, 13845853261270283 E 17, 40029073920369702 E 18, 84940068972169987 E 19, 14199516602923761 E 19, 19558810330051694 E 20, 22893779574397423 E 21, 23289250750842394 E 22, 20944442747301207 E 23, 16876200382156923 E 24, 12315656152319658 E 25, 82123810811926199 E 27, 50411680408602392 E 28, 28666729146779151 E 29, 15183060580777403 E 30, 75251429730790634 E 32, 35045505098770050 E 33, 15391880485480574 E 34, 63958540859648174 E 36, 25218071149523307 E 37, 94594442024215454 E 39, 33836584634782368 E 40, 11566674527761338 E 41, 37860365349920075 E 43, 11887700188321115 E 44, 35864750716536184 E 46, 10412613364324852 E 47, 29133293859734557 E 49, 78655572768009465 E 51, 20516926120672323 E 52, 51764903096003218 E 54, 12646322904807147 E 55, 29945758155780019 E 57, 68795273675331174 E 59, 15346881447616313 E 60, 33272384063299422 E 62, 70160677834701546 E 64, 14400414382422362 E 65, 28789608618686941 E 67, 56100730788894081 E 69, 10662304903589031 E 70, 19776425860883396 E 72, 35818746713649482 E 74, 63383890638646721 E 76, 10964339868556863 E 77, 18549839844048665 E 79, 30708698008399889 E 81, 49767610539246557 E 83, 78992991244049501 E 85, 12284885527098345 E 86, 18727141274411282 E 88, 27993666078335196 E 90, 41048713689121451 E 92, 59067448432918099 E 94, 83436740419805550 E 96, 11573720198617198 E 97, 15770157045252119 E 99, 21114576205071871 E 101, 27787102958511460 E 103, 35953859430451179 E 105, bnil.
Definition r155 := 30804864438917490 E 17, 13837158503716387 E 17, 40232673349502833 E 18, 85887677807029317 E 19, 14446898237477045 E 19, 20024622345820239 E 20, 23587592754010562 E 21, 24148003600492801 E 22, 21855701159817030 E 23, 17723458649994141 E 24, 13017120175968771 E 25, 87360347068702387 E 27, 53971901258092585 E 28, 30889342661759502 E 29, 16465920212444291 E 30, 82137102992749016 E 32, 38499613894495133 E 33, 17018308833999566 E 34, 71174591915478010 E 36, 28244957401594953 E 37, 10663458243264990 E 38, 38390435539167276 E 40, 13208384012128857 E 41, 43514213631895374 E 43, 13751491489615131 E 44, 41756664724940568 E 46, 12201805925018985 E 47, 34360594230476349 E 49, 93370045273781676 E 51, 24513065279231228 E 52, 62248404449899484 E 54, 15306108625622092 E 55, 36479068338708444 E 57, 84348061637178249 E 59, 18938469734607399 E 60, 41325399248580433 E 62, 87707239673458106 E 64, 18118628177516109 E 65, 36458169347959004 E 67, 71505014332590046 E 69, 13678171993743372 E 70, 25534881415027048 E 72, 46548489224438994 E 74, 82905500121144576 E 76, 14434317732024895 E 77, 24578950162889470 E 79, 40953783285043411 E 81, 66801918634137552 E 83, 10671864120384917 E 84, 16704461406161928 E 86, 25629641911694535 E 88, 38560314448405088 E 90, 56910201737475146 E 92, 82423036638507265 E 94, 11718380570108121 E 95, 16360371295349962 E 97, 22437069865415262 E 99, 30235870149519963 E 101, 40049157714241832 E 103, 52156168342053616 E 105, bnil.
Definition r156 := 30635988191676511 E 17, 13828121941864185 E 17, 40434459957838537 E 18, 86835913486469317 E 19, 14696269831406411 E 19, 20497413822015959 E 20, 24296521331823562 E 21, 25031271216299403 E 22, 22799131615106507 E 23, 18606368701666602 E 24, 13752870923051712 E 25, 92888612943141229 E 27, 57754912203968990 E 28, 33266389831910139 E 29, 17846826412451675 E 30, 89597142096141849 E 32, 42266124115792875 E 33, 18803338965690770 E 34, 79145667127691909 E 36, 31610223866413228 E 37, 12010746165884234 E 38, 43519199666200834 E 40, 15069334816051638 E 41, 49964619898057034 E 43, 15891641637015395 E 44, 48566038200996513 E 46, 14282994381921475 E 47, 40480364981220735 E 49, 11070830850067369 E 50, 29252259820742401 E 52, 74761742737724608 E 54, 18501442529559259 E 55, 44378676042995062 E 57, 10327511644654333 E 58, 23337569159104997 E 60, 51252858194365657 E 62, 10947801412954086 E 63, 22761838875318998 E 65, 46096459738059361 E 67, 90991328153331806 E 69, 17517916820807939 E 70, 32913891444420499 E 72, 60386805072980545 E 74, 10824577732377402 E 75, 18967719337349755 E 77, 32506745304213079 E 79, 54512432254657678 E 81, 89491523979269682 E 83, 14388805743450254 E 84, 22667753970050245 E 86, 35003393799037568 E 88, 53002924682272083 E 90, 78730152297305737 E 92, 11476020624006902 E 93, 16421094181425860 E 95, 23073818567904097 E 97, 31848158018028554 E 99, 43194907423693793 E 101, 57583146645425005 E 103, 75474396250592243 E 105, bnil.
Definition r157 := 30468700703759050 E 17, 13818751077286143 E 17, 40634438681804309 E 18, 87784703849497509 E 19, 14947618062321165 E 19, 20977213266373652 E 20, 25020749352433384 E 21, 25939533123773575 E 22, 23775592207646289 E 23, 19526130657696805 E 24, 14524300406417250 E 25, 98722470769259707 E 27, 61772841493859784 E 28, 35807348604347610 E 29, 19332478574607498 E 30, 97674804117178316 E 32, 46370755292048499 E 33, 20761146510178048 E 34, 87944600568790523 E 36, 35348923902589374 E 37, 13517176617996515 E 38, 49290696356432835 E 40, 17176978973503919 E 41, 57317133013997010 E 43, 18346797339203053 E 44, 56427942598950643 E 46, 16701335722271649 E 47, 47637294466708326 E 49, 13111546036255223 E 50, 34866182214841405 E 52, 89680064740599124 E 54, 22335404799701020 E 55, 53918092117284015 E 57, 12627808468794648 E 58, 28718396950153301 E 60, 63473887909725056 E 62, 13645092889126027 E 63, 28551546272753426 E 65, 58191919508336748 E 67, 11560271849427053 E 68, 22398737334338110 E 70, 42353903099404829 E 72, 78204091750583179 E 74, 14108202592271046 E 75, 24879933539837524 E 77, 42912225542310819 E 79, 72423019376209309 E 81, 11965657040341535 E 82, 19362125735052051 E 84, 30698027616050577 E 86, 47707414915080036 E 88, 72702502984287280 E 90, 10868371248281526 E 91, 15943680493612110 E 93, 22960074121238609 E 95, 32468680388222794 E 97, 45102798836457907 E 99, 61563849123086733 E 101, 82596698657220216 E 103, 10895346686954909 E 104, bnil.
Definition r158 := 30302982877199008 E 17, 13809053276472505 E 17, 40832614661752593 E 18, 88733977591789644 E 19, 15200929438710920 E 19, 21464048396388423 E 20, 25760460578227318 E 21, 26873273075835123 E 22, 24785955686485349 E 23, 20483974227494946 E 24, 15332845089016604 E 25, 10487632437159848 E 26, 66038376695316153 E 28, 38522200559192193 E 29, 20929979036745680 E 30, 10641625124125625 E 31, 50841134980219057 E 33, 22907058636830481 E 34, 97650658126218559 E 36, 39499455374249472 E 37, 15200245560278824 E 38, 55780186184149360 E 40, 19561978516651178 E 41, 65690408877072975 E 43, 21160686129463715 E 44, 65496197090585025 E 46, 19508587566020413 E 47, 55998293174740899 E 49, 15510827977696973 E 50, 41508698239188112 E 52, 10744458000149311 E 53, 26930010763544818 E 55, 65423159510542658 E 57, 15419825663364127 E 58, 35291191213733702 E 60, 78497535690333607 E 62, 16982137697737615 E 63, 35760251419219180 E 65, 73348088677591341 E 67, 14663899127196830 E 68, 28593041607187135 E 70, 54410880692499895 E 72, 10110610494164595 E 73, 18355882120725065 E 75, 32576808539588107 E 77, 56545256406277180 E 79, 96039005297245590 E 81, 15968478151645109 E 82, 26003752543938810 E 84, 41490582143267679 E 86, 64890491065372770 E 88, 99517786939371135 E 90, 14971731478938818 E 91, 22103060347318394 E 93, 32032690459714595 E 95, 45587010596221424 E 97, 63728889514458769 E 99, 87541713236842021 E 101, 11819753466157133 E 102, 15690734286060896 E 104, bnil.
Definition r159 := 30138815876692665 E 17, 13799035773186155 E 17, 41028993235112450 E 18, 89683664264767361 E 19, 15456190304978050 E 19, 21957946139482205 E 20, 26515838458155244 E 21, 27832979004711893 E 22, 25831109521948597 E 23, 21481159130774035 E 24, 16179986882239478 E 25, 11136513536339710 E 26, 70564785647445790 E 28, 41421453407980194 E 29, 22646853955489169 E 30, 11587072186788672 E 31, 55706924643339205 E 33, 25257638171092940 E 34, 10835005288306480 E 35, 44103852392339680 E 37, 17079229808063607 E 38, 63071126263736221 E 40, 22258554348771229 E 41, 75217729478069968 E 43, 24382742046143487 E 44, 75945813854191107 E 46, 22764017440676643 E 47, 65755718602295648 E 49, 18328615983182977 E 50, 49359417300110059 E 52, 12857362387419169 E 53, 32429524476759480 E 55, 79281607786133835 E 57, 18804312616733667 E 58, 43309338262389222 E 60, 96941255081637692 E 62, 21104861154805608 E 63, 44722735674714786 E 65, 92311195628039127 E 67, 18571754217844958 E 68, 36441967048421704 E 70, 69785516678678421 E 72, 13049536910335792 E 73, 23841371851841739 E 75, 42579725355994757 E 77, 74375330773811883 E 79, 12712145825700625 E 80, 21270283864818970 E 82, 34856548968414584 E 84, 55967583018857062 E 86, 88085981828419749 E 88, 13594561810540894 E 89, 20581420513332559 E 91, 30576979627884207 E 93, 44593801023055774 E 95, 63864737139254199 E 97, 89845296141588398 E 99, 12419755609605133 E 100, 16875065827995015 E 102, 22543399484287966 E 104, bnil.
Definition r160 := 29976181125676055 E 17, 13788705670776405 E 17, 41223579929702943 E 18, 90633694274425865 E 19, 15713386846415653 E 19, 22458932633378411 E 20, 27287066096799164 E 21, 28819142972909770 E 22, 26911955969624478 E 23, 22518975518377421 E 24, 17067254155128471 E 25, 11820443977131361 E 26, 75365938002139381 E 28, 44516164297076187 E 29, 24491075082333858 E 30, 12609071034607014 E 31, 60999952782778422 E 33, 27830773158960749 E 34, 12013649755179475 E 35, 49208100108223940 E 37, 19175353799885414 E 38, 71255996017573542 E 40, 25304870162522647 E 41, 86048685478615580 E 43, 28068803179316266 E 44, 87975741959545096 E 46, 26535429711253722 E 47, 77131041017144556 E 49, 21634361610283875 E 50, 58627780508290612 E 52, 15367547851717257 E 53, 39004323618545827 E 55, 95954269148353822 E 57, 22901777027075188 E 58, 53077847476507465 E 60, 11955302831341707 E 61, 26191162428666067 E 63, 55849732628006437 E 65, 11600259288061249 E 66, 23484804211679739 E 68, 46372085443740640 E 70, 89359557860448200 E 72, 16814803633148466 E 73, 30913559346955110 E 75, 55557382416334054 E 77, 97653778692879846 E 79, 16795784758648797 E 80, 28279783233717356 E 82, 46634636291093636 E 84, 75349822418648378 E 86, 11933669554935888 E 87, 18533353115579159 E 89, 28234867818053013 E 91, 42211099818748813 E 93, 61948142647338645 E 95, 89276402493795952 E 97, 12638417267713709 E 98, 17580540567816535 E 100, 24037345955769445 E 102, 32313376601409640 E 104, bnil.
Definition r161 := 29815060302464164 E 17, 13778069944452503 E 17, 41416380457203805 E 18, 91583998879918461 E 19, 15972505094130382 E 19, 22967033226679631 E 20, 28074326223745773 E 21, 29832261123274396 E 22, 28029412131620084 E 23, 23598744392401730 E 24, 17996222754349832 E 25, 12541036498889325 E 26, 80456327365092770 E 28, 47817963937038813 E 29, 26471082471709132 E 30, 13713215569937752 E 31, 66754355679938078 E 33, 30645772186466349 E 34, 13311179631558079 E 35, 54862474190013462 E 37, 21511970623143972 E 38, 80437199398369277 E 40, 28743454635399290 E 41, 98351038557689634 E 43, 32281888744551862 E 44, 10181194383613271 E 45, 30900324410451502 E 47, 90379006696055889 E 49, 25508458382726709 E 50, 69557763420973862 E 52, 18346321624491330 E 53, 46855402714761890 E 55, 11598823062760032 E 56, 27856188090971858 E 58, 64963416723586251 E 60, 14723780863476790 E 61, 32457636204171229 E 63, 69644479208751895 E 65, 14555827423469932 E 66, 29652400852259678 E 68, 58916015536898923 E 70, 11424091459591657 E 71, 21630993662450993 E 73, 40016378007606062 E 75, 72366024402557000 E 77, 12799300602514976 E 78, 22151431820208365 E 80, 37530293511396448 E 82, 62275743533189742 E 84, 10125047300777856 E 85, 16135907288616755 E 87, 25216104033677243 E 89, 38655776307078899 E 91, 58151377562118073 E 93, 85874925035282306 E 95, 12453159349329772 E 96, 17739459157822473 E 98, 24830460133669616 E 100, 34162052013308386 E 102, 46210929423990485 E 104, bnil.
Definition r162 := 29655435336451014 E 17, 13767135443517492 E 17, 41607400706778846 E 18, 92534510191908930 E 19, 16233530929910011 E 19, 23482272479644797 E 20, 28877801163267907 E 21, 30872833628166588 E 22, 29184410015068726 E 23, 24721818025498752 E 24, 18968517034794896 E 25, 13299964706092109 E 26, 85851094046843759 E 28, 51339081579191829 E 29, 28595808152399335 E 30, 14905463971153840 E 31, 73006726117311069 E 33, 33723465775649913 E 34, 14738647856128857 E 35, 61121906713647959 E 37, 24114758398799805 E 38, 90728050018834194 E 40, 32621665405526036 E 41, 11231278126194322 E 42, 37093064098055324 E 44, 11771084189933310 E 45, 35947203820837938 E 47, 10579236202380358 E 48, 30043874484877262 E 50, 82433280716976968 E 52, 21877186718965008 E 53, 56219614701306062 E 55, 14003224012653818 E 56, 33839341892624192 E 58, 79406373092344627 E 60, 18108908847798396 E 61, 40167648289970136 E 63, 86722726883790961 E 65, 18237695622501713 E 66, 37383492887736800 E 68, 74737821856161717 E 70, 14581959655958471 E 71, 27781643535018628 E 73, 51713814116523293 E 75, 94100279968707482 E 77, 16746726307448861 E 78, 29163056494744635 E 80, 49716530584287684 E 82, 83009051932052501 E 84, 13579736083416846 E 85, 21775866727338138 E 87, 34241114344244091 E 89, 52816813064140538 E 91, 79947656344756225 E 93, 11879552480543864 E 94, 17334099121637197 E 96, 24845638665281842 E 98, 34993119035618799 E 100, 48442881450403249 E 102, 65935436609044600 E 104, bnil.
Definition r163 := 29497288404369570 E 17, 13755908893563215 E 17, 41796646738851216 E 18, 93485161170698359 E 19, 16496450091035243 E 19, 24004674165160921 E 20, 29697672804320466 E 21, 31941364637773309 E 22, 30377896587875834 E 23, 25889580379240259 E 24, 19985810900681643 E 25, 14098964830071120 E 26, 91566048434050364 E 28, 55092370860945410 E 29, 30874700794444884 E 30, 16192159475512805 E 31, 79796270463485516 E 33, 37086314193648551 E 34, 16308047712363643 E 35, 68046380307773789 E 37, 27011933203042552 E 38, 10225384613303300 E 39, 36992198622781151 E 41, 12814441369863722 E 42, 42582402928677594 E 44, 13596317684571562 E 45, 41777044435322904 E 47, 12370720938945100 E 48, 35348015569522794 E 50, 97584391733270604 E 52, 26057825578228176 E 53, 67375765668184310 E 55, 16885473347118504 E 56, 41056001760863376 E 58, 96934822237295799 E 60, 22242654278061842 E 61, 49641026106263159 E 63, 10783690594266987 E 64, 22817850433488192 E 66, 47060336621347287 E 68, 94664268229336300 E 70, 18583697566669459 E 71, 35624178197412025 E 73, 66721263012184871 E 75, 12215730785765957 E 76, 21874059229638123 E 78, 38326882379258230 E 80, 65741911656400463 E 82, 11044297307032900 E 83, 18179215775267723 E 85, 29331245083306684 E 87, 46406009488510424 E 89, 72022776835439741 E 91, 10969195742479243 E 92, 16399875606668256 E 94, 24077601059961572 E 96, 34724308662116884 E 98, 49208218069149241 E 100, 68541961526987539 E 102, 93867890416371404 E 104, bnil.
Definition r164 := 29340601926610482 E 17, 13744396898627029 E 17, 41984124779025071 E 18, 94435885624135994 E 19, 16761248175035399 E 19, 24534261269905475 E 20, 30534122570855934 E 21, 33038362227576014 E 22, 31610833831690144 E 23, 27103447521429824 E 24, 21049828857022613 E 25, 14939837524231069 E 26, 97617694991242266 E 28, 59091336541705695 E 29, 33317751404384222 E 30, 17580052175798211 E 31, 87164974521770677 E 33, 40758522027276896 E 34, 18032385380169536 E 35, 75701352504183232 E 37, 30234479784497901 E 38, 11515304293849961 E 39, 41913648183951157 E 41, 14608145814595432 E 42, 48840056756921461 E 44, 15689832344507204 E 45, 48504953880796194 E 47, 14450907420622868 E 48, 41544848219507443 E 50, 11539441891626364 E 51, 31002389876007876 E 53, 80651694527007352 E 55, 20336490633096946 E 56, 49749944610940580 E 58, 11818139602922762 E 59, 27284086448473985 E 61, 61265673029365983 E 63, 13390526865942483 E 64, 28507483897290647 E 66, 59155239218872030 E 68, 11972322346185754 E 69, 23647143198468221 E 71, 45608494000187519 E 73, 85944788588215380 E 75, 15831761317195951 E 76, 28522903432465378 E 78, 50283150352832917 E 80, 86779275052600990 E 82, 14667852850618722 E 83, 24291728819584444 E 85, 39433802598155149 E 87, 62772195010916538 E 89, 98020730063692930 E 91, 15020275015589760 E 92, 22594291247492918 E 94, 33375401219086711 E 96, 48428614037598846 E 98, 69049614728504837 E 100, 96768804155993388 E 102, 13333714777866104 E 103, bnil.
Definition r165 := 29185358563598784 E 17, 13732605943311035 E 17, 42169841212150852 E 18, 95386618205321218 E 19, 17027910644387826 E 19, 25071055995694774 E 20, 31387331392464552 E 21, 34164338344998034 E 22, 32884198792088065 E 23, 28364868042246586 E 24, 22162347071320544 E 25, 15824449692951518 E 26, 10402325690328017 E 27, 63350162151500680 E 29, 35935520082447452 E 30, 19076321871425224 E 31, 95157778557667004 E 33, 44766159891801922 E 34, 19925757505695181 E 35, 84158212364236959 E 37, 33816401421003499 E 38, 12957853022824319 E 39, 47451119097693768 E 41, 16638723453297961 E 42, 55967442845036329 E 44, 18088911438686752 E 45, 56262034550006623 E 47, 16863977169479799 E 48, 48777318407284107 E 50, 13630810599838404 E 51, 36844141195270997 E 53, 96432488594312244 E 55, 24463731988124209 E 56, 60211065338132255 E 58, 14390305367474440 E 59, 33424710511895675 E 61, 75511472041897235 E 63, 16604699419894168 E 64, 35565587832835601 E 66, 74250979042243253 E 68, 15119079276693364 E 69, 30044411203114513 E 71, 58300048236498015 E 73, 11053020676134714 E 74, 20484671424084826 E 76, 37130595071361567 E 78, 65856574551205708 E 80, 11434869772899380 E 81, 19445555724425616 E 83, 32400439946280495 E 85, 52917566573192772 E 87, 84749529927887621 E 89, 13314557602343686 E 90, 20527003882331950 E 92, 31065998617539174 E 94, 46169168060815753 E 96, 67401038994998969 E 98, 96686278770444504 E 100, 13632579234624505 E 101, 18898743107139536 E 103, bnil.
Definition r166 := 29031541212227518 E 17, 13720542394864343 E 17, 42353802576534108 E 18, 96337294410105585 E 19, 17296422831160764 E 19, 25615079761014684 E 20, 32257479675343994 E 21, 35319808755253383 E 22, 34198983625960855 E 23, 29675323469106440 E 24, 23325194445349723 E 25, 16754736354351486 E 26, 11080070136875762 E 27, 67883738574738883 E 29, 38739163876069522 E 30, 20688602015955172 E 31, 10382276193639611 E 32, 49137293659551200 E 34, 22003434095685916 E 35, 93494771576555751 E 37, 37794990350539210 E 38, 14569902401918275 E 39, 53676899787045166 E 41, 18935592177115503 E 42, 64078562681994356 E 44, 20835722791866333 E 45, 65197478067697268 E 47, 19660517240090307 E 48, 57210103542644978 E 50, 16084095929087946 E 51, 43738493476983908 E 53, 11517000798668010 E 54, 29394060352309952 E 56, 72783715586938101 E 58, 17500446738555447 E 59, 40894806195587241 E 61, 92946910452508494 E 63, 20562442375647517 E 64, 44309357715499186 E 66, 93065678557318780 E 68, 19064908100479042 E 69, 38114934499352320 E 71, 74408508028991786 E 73, 14192436314347180 E 74, 26462285124028090 E 76, 48256153200745936 E 78, 86107790408758937 E 80, 15041706682193843 E 81, 25734094998973712 E 83, 43138213477619433 E 85, 70881659356122526 E 87, 11420736846085811 E 88, 18051214746757655 E 90, 27998074740359241 E 92, 42629562851358372 E 94, 63738319371875387 E 96, 93613436585820483 E 98, 13510129720461973 E 99, 19164425993558830 E 101, 26728454837725338 E 103, bnil.
Definition r167 := 28879133002347346 E 17, 13708212505229095 E 17, 42536015558280182 E 18, 97287850574401084 E 19, 17566769941599349 E 19, 26166353202728863 E 20, 33144747273603090 E 21, 36505292986418246 E 22, 35556195646094346 E 23, 31036328680126163 E 24, 24540253696876784 E 25, 17732702537090477 E 26, 11796876555457121 E 27, 72707693591800316 E 29, 41740465764853671 E 30, 22425004804241717 E 31, 11321133781815867 E 32, 53902121611554509 E 34, 24281947058937076 E 35, 10379579235259632 E 36, 42211120306796020 E 38, 16370058142049162 E 39, 60671198525687755 E 41, 21531593211152837 E 42, 73301464359410603 E 44, 23977920068286052 E 45, 75480917339434644 E 47, 22898397687028778 E 48, 67032741435690927 E 50, 18958993409726971 E 51, 51866515098635435 E 53, 13739391662523313 E 54, 35277090313942650 E 56, 87876481144988907 E 58, 21256561162657948 E 59, 49970951971061679 E 61, 11425893523947232 E 62, 25429381352163766 E 64, 55126771671058715 E 66, 11648306226510466 E 67, 24005689362465316 E 69, 48281525003483223 E 71, 94823248059967758 E 73, 18195152601393273 E 74, 34129717380101284 E 76, 62613030159325210 E 78, 11239868133669675 E 79, 19752528709656266 E 81, 33997060208945884 E 83, 57332589511797519 E 85, 94772049461467914 E 87, 15361993185185438 E 88, 24426822300291537 E 90, 38114993733833289 E 92, 58382911887657260 E 94, 87817832067289832 E 96, 12975603410747164 E 97, 18838928701181251 E 99, 26884368798329024 E 101, 37721179208086323 E 103, bnil.
Definition r168 := 28728117293311350 E 17, 13695622413050940 E 17, 42716486985775383 E 18, 98238223871303636 E 19, 17838937060654753 E 19, 26724896177960722 E 20, 34049313460903873 E 21, 37721314273747499 E 22, 36956857362932770 E 23, 32449432316077564 E 24, 25809462451171068 E 25, 18760425211371578 E 26, 12554698322187927 E 27, 77838422401444679 E 29, 44951864812887014 E 30, 24294147443735148 E 31, 12337845837571683 E 32, 59093119933619629 E 34, 26779184734264471 E 35, 11515355458480711 E 36, 47109562791386971 E 38, 18378824868410910 E 39, 68522949620921545 E 41, 24463362806941487 E 42, 83779863406648034 E 44, 27569313335802831 E 45, 87305065818026053 E 47, 26643762258881754 E 48, 78463184782223274 E 50, 22324564913142315 E 51, 61438956306823586 E 53, 16372444593267362 E 54, 42289082070956683 E 56, 10597363432942053 E 57, 25787427675839839 E 59, 60984946506953041 E 61, 14027663972800748 E 62, 31406625140165584 E 64, 68491780839762233 E 66, 14558921941224241 E 67, 30183616148225980 E 69, 61070126152899407 E 71, 12065727448305207 E 72, 23290848974235939 E 74, 43949437901684931 E 76, 81110382242619102 E 78, 14647520266274028 E 79, 25895054316458096 E 81, 44835992292677968 E 83, 76063855666537176 E 85, 12648774897142360 E 86, 20625630145541548 E 88, 32992721972532610 E 90, 51789127086590128 E 92, 79803161924651389 E 94, 12075599762750375 E 95, 17949206479283983 E 97, 26215951367443469 E 99, 37635789506485981 E 101, 53122468550256876 E 103, bnil.
Definition r169 := 28578477670573982 E 17, 13682778145654426 E 17, 42895223824300249 E 18, 99188352308037658 E 19, 18112909156456133 E 19, 27290727766145022 E 20, 34971356902446170 E 21, 38968399503257722 E 22, 38402006523519065 E 23, 33916217190718339 E 24, 27134814342150589 E 25, 19840055254303313 E 26, 13355571203365474 E 27, 83293119147297195 E 29, 48386487525085942 E 30, 26305179655799279 E 31, 13438283101628983 E 32, 64745196997100523 E 34, 29514492762015536 E 35, 12766846487717144 E 36, 52539328822116148 E 38, 20618785310266291 E 39, 77330695403070924 E 41, 27771741401265400 E 42, 95674938013283921 E 44, 31670616348757314 E 45, 10088867679736398 E 46, 30972146033687188 E 48, 91751835660136708 E 50, 26260633522742260 E 51, 72700876598663020 E 53, 19488714940802649 E 54, 50637470227080272 E 56, 12764853464084032 E 57, 31246434557782797 E 59, 74334375336632381 E 61, 17199948901737439 E 62, 38738068772353645 E 64, 84982631189627288 E 66, 18171721458366375 E 67, 37897745192756531 E 69, 77134074002321237 E 71, 15330150196405687 E 72, 29768280754151304 E 74, 56506365763201880 E 76, 10490500157416740 E 77, 19057223265598620 E 79, 33891296021130452 E 81, 59030170341622567 E 83, 10073990731698750 E 84, 16851854156502608 E 86, 27642831380197309 E 88, 44480490450806824 E 90, 70237036605235532 E 92, 10887393054126813 E 93, 16572528322972273 E 95, 24780017604132205 E 97, 36408125170022977 E 99, 52578730514784220 E 101, 74655828646969262 E 103, bnil.
Definition r170 := 28430197942343349 E 17, 13669685620984096 E 17, 43072233170773098 E 18, 10013817472272986 E 18, 18388671084725470 E 19, 27863866271244742 E 20, 35911055627298383 E 21, 40247079154598624 E 22, 39892696147604768 E 23, 35438300699387884 E 24, 28518360123006343 E 25, 20973819449769107 E 26, 14201616155402069 E 27, 89089809471951695 E 29, 52058180445032977 E 30, 28467812454249383 E 31, 14628714610763898 E 32, 70895856884148494 E 34, 32508781674512090 E 35, 14144971021039234 E 36, 58554038010327900 E 38, 23114795018978057 E 39, 87203550559839350 E 41, 31502223726479437 E 42, 10916731604321907 E 43, 36350278728061855 E 45, 11647985903350302 E 46, 35969735263842394 E 48, 10718612107173555 E 49, 30859375084009568 E 51, 85936956643545700 E 53, 23172994266691824 E 54, 60566125805399663 E 56, 15357929333127543 E 57, 37816080720535191 E 59, 90495112632576696 E 61, 21063091635533516 E 62, 47719138815028954 E 64, 10530393608980278 E 65, 22650115530053337 E 67, 47516861907816513 E 69, 97283857407656793 E 71, 19449173489975746 E 72, 37989957778017976 E 74, 72539212253778408 E 76, 13546656922220095 E 77, 24754611306165359 E 79, 44283841413959942 E 81, 77587513053822559 E 83, 13319259720015172 E 84, 22412331381243231 E 86, 36981346883103177 E 88, 59859167748492535 E 90, 95079796225030910 E 92, 14825418620073131 E 93, 22700366914991978 E 95, 34143402842571503 E 97, 50462019885542598 E 99, 73305670573909117 E 101, 10470137616934956 E 102, bnil.
Definition r171 := 28283262136285975 E 17, 13656350649511706 E 17, 43247522248619205 E 18, 10108763078101816 E 18, 18666207593135010 E 19, 28444329224129470 E 20, 36868587001078516 E 21, 41557887243234974 E 22, 41429994560924333 E 23, 37017335225756605 E 24, 29962208786143542 E 25, 22164022522944232 E 26, 15095042194954062 E 27, 95247384122502924 E 29, 55981544032555215 E 30, 30792348249699027 E 31, 15915831672659164 E 32, 77585372637460660 E 34, 35784641599969521 E 35, 15661595916405047 E 36, 65212316940455533 E 38, 25894193839685225 E 39, 98262255866917051 E 41, 35705453654438610 E 42, 12445927284597395 E 43, 41685412025043521 E 45, 13435978882651744 E 46, 41734786415313557 E 48, 12509567784808976 E 49, 36227132617003015 E 51, 10147759059393067 E 52, 27524276478036688 E 54, 72361464321744781 E 56, 18456706613254134 E 57, 45713263965404188 E 59, 11003609669991540 E 60, 25761826842860914 E 62, 58707253783846942 E 64, 13031323629812415 E 65, 28194164223791850 E 67, 59495147272853372 E 69, 12252357703416065 E 70, 24639121769562076 E 72, 48410343355050217 E 74, 92979573435378393 E 76, 17465953011152243 E 77, 32104194743685736 E 79, 57769224810567287 E 81, 10180960037231464 E 82, 17580154926832474 E 84, 29756059073987037 E 86, 49387486296047512 E 88, 80410126250979129 E 90, 12847370007672633 E 91, 20150179577262198 E 93, 31034935113513339 E 95, 46953807710926853 E 97, 69803103862217260 E 99, 10199850371412291 E 100, 14653952554187533 E 102, bnil.
Definition r172 := 28137654496283115 E 17, 13642778936110420 E 17, 43421098402765625 E 18, 10203666097250361 E 18, 18945503325607466 E 19, 29032133385111110 E 20, 37844127698988765 E 21, 42901361261959905 E 22, 43014985425628959 E 23, 38655008546618260 E 24, 31468528692275418 E 25, 23413049209591852 E 26, 16038149340260656 E 27, 10178563363158877 E 28, 60171967860090252 E 30, 33289712329707030 E 31, 17306773096712442 E 32, 84856969735471544 E 34, 39366464494405118 E 35, 17329611378610184 E 36, 72578228951797484 E 38, 28987035449152937 E 39, 11064032891510261 E 40, 40437767876113374 E 42, 14177716060675736 E 43, 47762819537142248 E 45, 15484686290535648 E 46, 48379223282380998 E 48, 14585822332428124 E 49, 42486483055255459 E 51, 11970586730027535 E 52, 32658024343840899 E 54, 86359529230190073 E 56, 22155739408614842 E 57, 55195487329905872 E 59, 13363677431667732 E 60, 31470024765870828 E 62, 72134321992807620 E 64, 16105292262879976 E 65, 35048490379767649 E 67, 74391233355323099 E 69, 15409555458523164 E 70, 31169224077616414 E 72, 61598387708678881 E 74, 11900062180006398 E 75, 22484567948084283 E 77, 41570446827317163 E 79, 75240240116421931 E 81, 13337460688749319 E 82, 23165301963588318 E 84, 39438608699976745 E 86, 65840641833613038 E 88, 10782485661980138 E 89, 17328199431912561 E 91, 27336898019754283 E 93, 42349891613049858 E 95, 64447113325827852 E 97, 96369280582878249 E 99, 14164098903448369 E 100, 20468274537612943 E 102, bnil.
Definition r173 := 27993359479237928 E 17, 13628976081896216 E 17, 43592969094757107 E 18, 10298520660704989 E 18, 19226542826558755 E 19, 29627294746633064 E 20, 38837853679206706 E 21, 44278042121762233 E 22, 44648767767876362 E 23, 40353044234615280 E 24, 33039548708500914 E 25, 24723366360260514 E 26, 17033331624704262 E 27, 10872528409828986 E 28, 64645667167685246 E 30, 35971485766146728 E 31, 18809151736450859 E 32, 92757020315592076 E 34, 43280574336857625 E 35, 19163011537638658 E 36, 80721737556593942 E 38, 32426336364946539 E 39, 12448532002156383 E 40, 45761792863487447 E 42, 16137409185798784 E 43, 54680140704756650 E 45, 17830134107523591 E 46, 56030433152551263 E 48, 16990619718277328 E 49, 49778589440997574 E 51, 14106556318631105 E 52, 38708779928317444 E 54, 10295419879662963 E 55, 26566507618449362 E 57, 66568135582929808 E 59, 16210767454257190 E 60, 38396319793407341 E 62, 88521657095590145 E 64, 19878856012795524 E 65, 43511836326833088 E 67, 92891352243287780 E 69, 19353484600105467 E 70, 39374104053481006 E 72, 78265391465825503 E 74, 15207767198832496 E 75, 28901252178513384 E 77, 53744344121716795 E 79, 97839512320863888 E 81, 17444292340667654 E 82, 30474341397849107 E 84, 52183615516933516 E 86, 87623966335704851 E 88, 14433247698839880 E 89, 23330013266245399 E 91, 37019214511041434 E 93, 57682853002342634 E 95, 88290586713118785 E 97, 13279022097385458 E 98, 19630574429334580 E 100, 28532636736340806 E 102, bnil.
Definition r174 := 27850361751932440 E 17, 13614947586037418 E 17, 43763141897989556 E 18, 10393320981093898 E 18, 19509310545083435 E 19, 30229828536108816 E 20, 39849940156636438 E 21, 45688474092068401 E 22, 46332456002574177 E 23, 42113202058788771 E 24, 34677559355194841 E 25, 26097525079497547 E 26, 18083080183601223 E 27, 11608803409349654 E 28, 69419720817281881 E 30, 38849939802674113 E 31, 20431082401191337 E 32, 10133524869050514 E 33, 47555365744916963 E 35, 21176980763574793 E 36, 89719205870006783 E 38, 36248345929508466 E 39, 13996018214103246 E 40, 51747099931115610 E 42, 18353290181208258 E 43, 62547121965924194 E 45, 20513053264957791 E 46, 64833285305590377 E 48, 19773426983830659 E 49, 58265875800307420 E 51, 16607028554006517 E 52, 45833168445472014 E 54, 12260668576987293 E 55, 31820313048242152 E 57, 80192997905958841 E 59, 19641464844678168 E 60, 46790781122726498 E 62, 10849775948059609 E 63, 24505484538546269 E 65, 53948591626964286 E 67, 11583742395806221 E 68, 24273577521553596 E 70, 49669113869745233 E 72, 99299415056402395 E 74, 19406341544035785 E 75, 37093365644632427 E 77, 69376724176774598 E 79, 12702722563253648 E 80, 22779147516138202 E 82, 40023962110909908 E 84, 68932116549811615 E 86, 11641584869830466 E 87, 19286573228986953 E 89, 31355075107512433 E 91, 50040536775716257 E 93, 78422997361851490 E 95, 12072941431686693 E 96, 18262776759696926 E 98, 27154123467726975 E 100, 39696003632731657 E 102, bnil.
Definition r175 := 27708646187933755 E 17, 13600698847532669 E 17, 43931624493063287 E 18, 10488061352288752 E 18, 19793790839082739 E 19, 30839749218906253 E 20, 40880561577022523 E 21, 47133204740381400 E 22, 48067179955275114 E 23, 43937278382844513 E 24, 36384913961535555 E 25, 27538162900182932 E 26, 19189986415227829 E 27, 12389659271461156 E 28, 74512110687751330 E 30, 41938071776652856 E 31, 22181211196628034 E 32, 11064494872568951 E 33, 52221451490138042 E 35, 23387986082623557 E 36, 99653934576965891 E 38, 40492838877262295 E 39, 15724476426418969 E 40, 58470923613546078 E 42, 20856941638021398 E 43, 71487027086169048 E 45, 23579458623558862 E 46, 74952397676477414 E 48, 22990782380259368 E 49, 68135066489728779 E 51, 19531392293673404 E 52, 54213351781471854 E 54, 14585652343526945 E 55, 38071648371801871 E 57, 96498240370786660 E 59, 23770739891709593 E 60, 56952810136353218 E 62, 13281949116517424 E 63, 30171065564281401 E 65, 66802682336170076 E 67, 14426109667444364 E 68, 30403303999057581 E 70, 62569136056303312 E 72, 12580771710254760 E 73, 24728125322500164 E 75, 47536890975331777 E 77, 89420153276391517 E 79, 16466662735149347 E 80, 29698428437916736 E 82, 52481152755010847 E 84, 90905936534599684 E 86, 15440812184744234 E 87, 25727675819369634 E 89, 42066931224457710 E 91, 67521564154826716 E 93, 10642693737081665 E 94, 16478165337322857 E 96, 25069764103268850 E 98, 37489266033331411 E 100, 55119552701339896 E 102, bnil.
Definition r176 := 27568197864548522 E 17, 13586235166958002 E 17, 44098424663246538 E 18, 10582736148993003 E 18, 20079967979335289 E 19, 31457070501473579 E 20, 41929891591429217 E 21, 48612784871337253 E 22, 49854084881223230 E 23, 45827106561028340 E 24, 38164029829491253 E 25, 29048005993079980 E 26, 20356745217082756 E 27, 13217471881471269 E 28, 79941762552959192 E 30, 45249642631400175 E 31, 24068746356122587 E 32, 12074321367029392 E 33, 57311819416412209 E 35, 25813876079106940 E 36, 11061674111841322 E 37, 45203432203868198 E 39, 17653743850791491 E 40, 66018949003597206 E 42, 23683605512689751 E 43, 81638201222343089 E 45, 27081294851691718 E 46, 86574680316859563 E 48, 26707252673110511 E 49, 79600636899415006 E 51, 22948257965708266 E 52, 64060995539746561 E 54, 17333425912616378 E 55, 45502112470192257 E 57, 11599006349992599 E 58, 28735302607664331 E 60, 69240480371078351 E 62, 16239726478397807 E 63, 37100491542284216 E 65, 82614286484585143 E 67, 17942495226115951 E 68, 38030046210595469 E 70, 78711608919543305 E 72, 15916902861474236 E 73, 31464092937733403 E 75, 60831372795009279 E 77, 11508140313841800 E 78, 21313182095203352 E 80, 38658874536282813 E 82, 68705610020247487 E 84, 11968899893617327 E 85, 20445858011685745 E 87, 34261708694219630 E 89, 56340747933442941 E 91, 90948937741832561 E 93, 14417172876224695 E 94, 22449715642775743 E 96, 34349919425324590 E 98, 51660182738806985 E 100, 76388546404063641 E 102, bnil.
Definition r177 := 27429002059824942 E 17, 13571561748183564 E 17, 44263550290053334 E 18, 10677339826317585 E 18, 20367826153510722 E 19, 32081805334603381 E 20, 42998103031087626 E 21, 50127768465201093 E 22, 51694331481551927 E 23, 47784557331504855 E 24, 40017389406084134 E 25, 30629871411690237 E 26, 21586158298383152 E 27, 14094726143154819 E 28, 85728588485962949 E 30, 48799216076149425 E 31, 26103490626621630 E 32, 13169117905822590 E 33, 62861999288825450 E 35, 28473986689591608 E 36, 12270658294562972 E 37, 50427928174548344 E 39, 19805687186820514 E 40, 74486174157228180 E 42, 26872580098904122 E 43, 93155804329754617 E 45, 31077156432454185 E 46, 99912187377655196 E 48, 30996512843817515 E 49, 92908728073387850 E 51, 26936819354898403 E 52, 75621822043097294 E 54, 20577610745109083 E 55, 54324956538527023 E 57, 13926631655352040 E 58, 34697543086879908 E 60, 84081572250754563 E 62, 19832497585620191 E 63, 45565532025006974 E 65, 10203992820541767 E 66, 22287232758389835 E 68, 47507107701517520 E 70, 98884689776693254 E 72, 20109786156335590 E 73, 39978160806478251 E 75, 77730954510426259 E 77, 14788713547238162 E 78, 27544346971516072 E 80, 50244947295311127 E 82, 89803746506571284 E 84, 15733147567863933 E 85, 27028746443718211 E 87, 45550045702899941 E 89, 75328911504513677 E 91, 12229143674144367 E 92, 19495658087964772 E 94, 30530088105285780 E 96, 46978851551956512 E 98, 71054585343819071 E 100, 10566324686273879 E 101, bnil.
Definition r178 := 27291044249601559 E 17, 13556683700060487 E 17, 44427009348928785 E 18, 10771866919344380 E 18, 20657349470126021 E 19, 32713965916830734 E 20, 44085367882613142 E 21, 51678712615823486 E 22, 53589095916634621 E 23, 49811539207134196 E 24, 41947541463746898 E 25, 32286669372490124 E 26, 22881137569786282 E 27, 15024020144198651 E 28, 91893530833268330 E 30, 52602199452682862 E 31, 28295875275328035 E 32, 14355427932188474 E 33, 68910240125973437 E 35, 31389254317597526 E 36, 13603122786646886 E 37, 56218685433357914 E 39, 22204395442436097 E 40, 83977854165598995 E 42, 30467657137470190 E 43, 10621373099006207 E 44, 35633089755782116 E 46, 11520531273326199 E 47, 35942562920256176 E 49, 10834158412712961 E 50, 31588406207608130 E 52, 89180831393799110 E 54, 24404085083721121 E 55, 64790357738878528 E 57, 16703238188191987 E 58, 41850155437660819 E 60, 10198659686840910 E 61, 24191553425577834 E 63, 55894232547487513 E 65, 12587660653464806 E 66, 27648748402134211 E 68, 59268300217100524 E 70, 12406166070492409 E 71, 25372352389584962 E 73, 50724868188614703 E 75, 99182952776104480 E 77, 18976600830943179 E 78, 35543940277754104 E 80, 65203456249700447 E 82, 11719737187023512 E 83, 20648299401166163 E 85, 35673020921444709 E 87, 60457219032219436 E 89, 10054638393916691 E 90, 16415203619076666 E 92, 26316833585173998 E 94, 41444732659107890 E 96, 64134139425679824 E 98, 97549402698250178 E 100, 14588213908628699 E 101, bnil.
Definition r179 := 27154310104602036 E 17, 13541606038078388 E 17, 44588809905041826 E 18, 10866312042678175 E 18, 20948521962444911 E 19, 33353563697961861 E 20, 45191857263594735 E 21, 53266177468078379 E 22, 55539569816589942 E 23, 51909998863542280 E 24, 43957102288584088 E 25, 34021405570618614 E 26, 24244708611324005 E 27, 16008069446778137 E 28, 98458607803903633 E 30, 56674886369169978 E 31, 30656995785510557 E 32, 15640251878736730 E 33, 75497698595158789 E 35, 34582336720675853 E 36, 15070797469185088 E 37, 62633020307767328 E 39, 24876389665554836 E 40, 94610534026135068 E 42, 34517602826640064 E 43, 12100673533267142 E 44, 40823486046523659 E 46, 13272636810411548 E 47, 41641098331767725 E 49, 12622257837468436 E 50, 37008252961161193 E 52, 10506828357633428 E 53, 28912931501635665 E 55, 77191531288560763 E 57, 20011969045887302 E 58, 50421558604146246 E 60, 12356415192421120 E 61, 29474299858975808 E 63, 68482124033279039 E 65, 15509073710526211 E 66, 34256819224791412 E 68, 73845641122242447 E 70, 15544291014193965 E 71, 31968708472214717 E 73, 64271198773179881 E 75, 12637573818015082 E 76, 24315117349000326 E 78, 45798880875375201 E 80, 84487279911483238 E 82, 15271090940168833 E 83, 27056275912600526 E 85, 47006207685281956 E 87, 80111551477846568 E 89, 13398159170825426 E 90, 21996657828637307 E 92, 35463031077474201 E 94, 56162107622377064 E 96, 87396734037426621 E 98, 13367877661654765 E 99, 20103511526771175 E 101, bnil.
Definition r180 := 27018785487575209 E 17, 13526333685994127 E 17, 44748960109183313 E 18, 10960669889987474 E 18, 21241327592320370 E 19, 34000609382729631 E 20, 46317741398559154 E 21, 54890726154803617 E 22, 57546960288945701 E 23, 54081921524383128 E 24, 46048756876347721 E 25, 35837183531075788 E 26, 25680014219532278 E 27, 17049711505875580 E 28, 10544696071890343 E 29, 61034501163357287 E 31, 33198649312150913 E 32, 17031075774723526 E 33, 82668639077403850 E 35, 38077742146070145 E 36, 16686442758523953 E 37, 69733640543348968 E 39, 27850850946133850 E 40, 10651317801439242 E 41, 39076686820262827 E 43, 13775278145475942 E 44, 46732074747663071 E 46, 15278358664027781 E 47, 48201052022646685 E 49, 14692190189667332 E 50, 43317512070444984 E 52, 12366654683202149 E 53, 34220679237439442 E 55, 91871807934623484 E 57, 23950728440689954 E 58, 60682245312024249 E 60, 14953900947063246 E 61, 35869248934383695 E 63, 83805577367111975 E 65, 19085282896903026 E 66, 42391319593120528 E 68, 91890799987965362 E 70, 19450709780969647 E 71, 40226022275286513 E 73, 81323479145051843 E 75, 16079809121979355 E 76, 31110806156253648 E 78, 58926079149724322 E 80, 10931049454692751 E 81, 19868199435620858 E 83, 35397651012759616 E 85, 61841451279598405 E 87, 10598336100548283 E 88, 17824026400065448 E 90, 29426293982645493 E 92, 47705994634720211 E 94, 75972912346961905 E 96, 11888550238536101 E 97, 18285822981281046 E 99, 27653007034236838 E 101, bnil.
Definition r181 := 26884456450479605 E 17, 13510871477432213 E 17, 44907468193764920 E 18, 11054935233534872 E 18, 21535750253980418 E 19, 34655112934572224 E 20, 47463189595310469 E 21, 56552924733264812 E 22, 59612489923463893 E 23, 56329331343689062 E 24, 48225260135932839 E 25, 37737206995482372 E 26, 27190318034751113 E 27, 18151910217973369 E 28, 11288290296763172 E 29, 65699245258886313 E 31, 35933373970496285 E 32, 18535901433505680 E 33, 90470646037791932 E 35, 41901967216724563 E 36, 18463932772243690 E 37, 77589113852128020 E 39, 31159868146966107 E 40, 11982840386978554 E 41, 44205263651626542 E 43, 15669564162529089 E 44, 53453027925810054 E 46, 17572559943812684 E 47, 55746328589209666 E 49, 17086299696937414 E 50, 50655543944084147 E 52, 14541793130038220 E 53, 40462883730125094 E 55, 10923282203244865 E 56, 28634690489398094 E 58, 72952210986354114 E 60, 18077340054764588 E 61, 43601925701279077 E 63, 10243769704211639 E 64, 23457898831769491 E 66, 52392748757810054 E 68, 11420105898701287 E 69, 24307343875989523 E 71, 50549072144897598 E 73, 10276049436545974 E 74, 20431269063790865 E 76, 39749348610669109 E 78, 75706063752436193 E 80, 14121779279948162 E 81, 25810152714017402 E 83, 46239280822861820 E 85, 81230835807025708 E 87, 13998568035047077 E 88, 23673172774676245 E 90, 39299859290682531 E 92, 64066824972885649 E 94, 10259445432224316 E 95, 16143545186819454 E 97, 24968328638956962 E 99, 37968400903711377 E 101, bnil.
Definition r182 := 26751309231711867 E 17, 13495224157457433 E 17, 45064342468919279 E 18, 11149102923697305 E 18, 21831773777757375 E 19, 35317083579531299 E 20, 48628370221647531 E 21, 58253342121163509 E 22, 61737396794133410 E 23, 58654291785210124 E 24, 50489438100196906 E 25, 39724782344441875 E 26, 28779008249565463 E 27, 19317760602778514 E 28, 12079197071821716 E 29, 70688345480178845 E 31, 38874490033014355 E 32, 20163278295496962 E 33, 98954849366350100 E 35, 46083644096124009 E 36, 20418344608439297 E 37, 86274373815702148 E 39, 34838706927241896 E 40, 13471383076347727 E 41, 49970411398840878 E 43, 17810776659804621 E 44, 61092187300444320 E 46, 20194643741171534 E 47, 64417752947966843 E 49, 19852982742354185 E 50, 59182519456016921 E 52, 17083364238622376 E 53, 47797091554805224 E 55, 12974397620519730 E 56, 34199215529269522 E 58, 87609638186558926 E 60, 21829203743824045 E 61, 52941851440331376 E 63, 12506721709490055 E 64, 28798054027292512 E 66, 64674888520940863 E 68, 14175070170471776 E 69, 30337743514660826 E 71, 63438037345801779 E 73, 12967420788547851 E 74, 25924698507304837 E 76, 50715348954386420 E 78, 97125031403452564 E 80, 18217177858971086 E 81, 33479078167143363 E 83, 60309438766169148 E 85, 10653357346206646 E 86, 18460378296388244 E 88, 31390982903509601 E 90, 52399959732473255 E 92, 85894373580593390 E 94, 13830790463011232 E 95, 21883343215931228 E 97, 34032661316120657 E 99, 52037984251062163 E 101, bnil.
Definition r183 := 26619330253378143 E 17, 13479396384120135 E 17, 45219591318697232 E 18, 11243167888476803 E 18, 22129381933760749 E 19, 35986529810266501 E 20, 49813450682460216 E 21, 59992550032209772 E 22, 63922934458334586 E 23, 61058905998641486 E 24, 52844189143903601 E 25, 41803321055537163 E 26, 30449601399350009 E 27, 20550493620656751 E 28, 12920097543021601 E 29, 76022104393010440 E 31, 42036143112732886 E 32, 21922337004944495 E 33, 10817616338552614 E 34, 50653697488382529 E 36, 22566054143227491 E 37, 95871265851000953 E 39, 38926101735448144 E 40, 15134355071876301 E 41, 56446632814994531 E 43, 20229345457002662 E 44, 69768426626451346 E 46, 23189111636967416 E 47, 74375258516520450 E 49, 23047508870886506 E 50, 69082375410958146 E 52, 20050400567111190 E 53, 56406245493404875 E 55, 15395337213284844 E 56, 40803237116109556 E 58, 10510103932067256 E 59, 26331150165583959 E 61, 64210791293807759 E 63, 15252094351276567 E 64, 35312329420040116 E 66, 79740005488556747 E 68, 17572892318291266 E 69, 37816285377831048 E 71, 79510225773837110 E 73, 16341977154393620 E 74, 32850542086696204 E 76, 64616905173699387 E 78, 12442736127670721 E 79, 23466259561745283 E 81, 43362506800570108 E 83, 78542434040705239 E 85, 13950308159012044 E 86, 24306151183935781 E 88, 41558403603673166 E 90, 69753063782299528 E 92, 11496760664171639 E 93, 18613852078173289 E 95, 29612934963221076 E 97, 46306531983047245 E 99, 71194330761253912 E 101, bnil.
Definition r184 := 26488506118607957 E 17, 13463392729974677 E 17, 45373223197361999 E 18, 11337125133002170 E 18, 22428558435494046 E 19, 36663459390182243 E 20, 51018597397205961 E 21, 61771122911280277 E 22, 66170371953183049 E 23, 63545317192641434 E 24, 55292485208588415 E 25, 43976342196983739 E 26, 32205746235874453 E 27, 21853481128476662 E 28, 13813805821846965 E 29, 81721952739605131 E 31, 45433349413490278 E 32, 23822824801930808 E 33, 11819354025233453 E 34, 55645512059187536 E 36, 24924838775228962 E 37, 10646913612301435 E 38, 43464572567990956 E 40, 16990973390609913 E 41, 63716624585188074 E 43, 22959234771786338 E 44, 79615163389004358 E 46, 26606186910064193 E 47, 85800342616863669 E 49, 26732947231427696 E 50, 80566168264015141 E 52, 23511013466157389 E 53, 66502591845779719 E 55, 18250042376511085 E 56, 48633192179593603 E 58, 12595309163486441 E 59, 31727472662257365 E 61, 77792485691067591 E 63, 18579038180910292 E 64, 43249825301690042 E 66, 98197089890177104 E 68, 21758556557742579 E 69, 47079330794856791 E 71, 99526579446113956 E 73, 20567687183346485 E 74, 41570787535803122 E 76, 82216085742924003 E 78, 15918111390453297 E 79, 30184542214023662 E 81, 56081580603940200 E 83, 10213519512360709 E 84, 18239802394971624 E 86, 31953456102971615 E 88, 54932057758647557 E 90, 92703411493824704 E 92, 15362906327534873 E 93, 25009191848054010 E 95, 40004643277830959 E 97, 62897994096761568 E 99, 97231184771246370 E 101, bnil.
Definition r185 := 26358823608909743 E 17, 13447217683571472 E 17, 45525246625776283 E 18, 11430969739022034 E 18, 22729286943415539 E 19, 37347879357663686 E 20, 52243975777767677 E 21, 63589637869181703 E 22, 68480993789060108 E 23, 66115709004541855 E 24, 57837373034142282 E 25, 46247474956953130 E 26, 34051227684918593 E 27, 23230240976585605 E 28, 14763274611797090 E 29, 87810504038818347 E 31, 49082043130227710 E 32, 25875142814190233 E 33, 12907023851648273 E 34, 61095110893700711 E 36, 27513987570821151 E 37, 11816546647545787 E 38, 48500768417416411 E 40, 19062437903969553 E 41, 71872120845088281 E 43, 26038328784012017 E 44, 90782035109218453 E 46, 30502509479162313 E 47, 98898819816955643 E 49, 30981211235447248 E 50, 93875876880648576 E 52, 27543723449597771 E 53, 78332160396668375 E 55, 21613039957549120 E 56, 57907577436409521 E 58, 15078643428817584 E 59, 38189142028568939 E 61, 94144121390129471 E 63, 22606329867816513 E 64, 52910588947229640 E 66, 12078371431969564 E 67, 26908623471012915 E 69, 58538747043183516 E 71, 12442397117773375 E 72, 25852489330374654 E 74, 52536020796142220 E 76, 10446668488487266 E 77, 20335962125179291 E 79, 38771269087059968 E 81, 72426579100168648 E 83, 13261892915662726 E 84, 23812371415376664 E 86, 41942357503209069 E 88, 72495892309685188 E 90, 12300870039793404 E 91, 20495859010566167 E 93, 33546334537102177 E 95, 53952122280594070 E 97, 85287951112794674 E 99, 13255901150947870 E 100, bnil.
Definition r186 := 26230269681567442 E 17, 13430875650923177 E 17, 45675670187881282 E 18, 11524696864389792 E 18, 23031551068443592 E 19, 38039796030418706 E 20, 53489750206693726 E 21, 65448674617040066 E 22, 70856099940338055 E 23, 68772305866655944 E 24, 60481975396905088 E 25, 48620461208570024 E 26, 35989970888838635 E 27, 24684442249659660 E 28, 15771601030040975 E 29, 94311611423735182 E 31, 52999126085117118 E 32, 28090385336607302 E 33, 14087410763027125 E 34, 67041345639360387 E 36, 30354419290274555 E 37, 13106655864766737 E 38, 54085839469704280 E 40, 21372122096362999 E 41, 81014817604209898 E 43, 29508856544270248 E 44, 10343675701724369 E 45, 34941910324474942 E 47, 11390390723715012 E 48, 35874235670882094 E 50, 10928871123382323 E 51, 32238975918545179 E 53, 92179896815348118 E 55, 25571117482661249 E 56, 68882227267269666 E 58, 18033173835413872 E 59, 45918540689863208 E 61, 11380984015928826 E 62, 27476109505076623 E 64, 64655649024821967 E 66, 14839220340402412 E 67, 33237865005023136 E 69, 72698274082266986 E 71, 15535451298958742 E 72, 32453490363217304 E 74, 66306412902487689 E 76, 13256093720631604 E 77, 25944299329668342 E 79, 49730952633605968 E 81, 93401605297664460 E 83, 17194975171652291 E 84, 31041193531017251 E 86, 54970335083400177 E 88, 95527581300469879 E 90, 16296378291146927 E 91, 27299916866931729 E 93, 44924189457462999 E 95, 72641320213832579 E 97, 11545239233198462 E 98, 18041166293870003 E 100, bnil.
Definition r187 := 26102831467077403 E 17, 13414370956945371 E 17, 45824502527265387 E 18, 11618301742540766 E 18, 23335334375406340 E 19, 38739215009921823 E 20, 54756084015821185 E 21, 67348815400335171 E 22, 73297005833308737 E 23, 71517373369087547 E 24, 63229492354059963 E 25, 51099158110577093 E 26, 38026045335018315 E 27, 26219910654190598 E 28, 16842032629392289 E 29, 10125042679079664 E 30, 57202519688043390 E 32, 30480381189645426 E 33, 15367788924183597 E 34, 73526099014775871 E 36, 33468808802532880 E 37, 14528827125456040 E 38, 60275840254278260 E 40, 23945780843629003 E 41, 91257385264189387 E 43, 33417859964409473 E 44, 11776717943626479 E 45, 39996273917302784 E 47, 13107967949190485 E 48, 41505302123251445 E 50, 12712199073719338 E 51, 37700866733787238 E 53, 10837553780326020 E 54, 30225251370578094 E 56, 81856422044589688 E 58, 21544840756250177 E 59, 55155002142477057 E 61, 13743663197625107 E 62, 33358301734679378 E 64, 78918951100689691 E 66, 18210093211532834 E 67, 41007243248052956 E 69, 90173313809886624 E 71, 19373334468127829 E 72, 40688209505836648 E 74, 83577514462211894 E 76, 16798724760255773 E 77, 33054424576228279 E 79, 63700290168084673 E 81, 12028071927686529 E 82, 22262315626575098 E 84, 40404930122793904 E 86, 71936872822047913 E 88, 12568377793738265 E 89, 21556034347617625 E 91, 36305002071494211 E 93, 60063800461989990 E 95, 97643591686979033 E 97, 15602365719477631 E 98, 24512051744661999 E 100, bnil.
Definition r188 := 25976496266625076 E 17, 13397707846872223 E 17, 45971752343821705 E 18, 11711779681962126 E 18, 23640620386436457 E 19, 39446141185957474 E 20, 56043139465282413 E 21, 69290644932601350 E 22, 75805042331326046 E 23, 74353218618949263 E 24, 66083202494116164 E 25, 53687540743652668 E 26, 40163669071130261 E 27, 27840634055392240 E 28, 17977973625843107 E 29, 10865346233637773 E 30, 61711219312746369 E 32, 33057737251434084 E 33, 16755953614038638 E 34, 80594500400597008 E 36, 36881722425428288 E 37, 16095681322681493 E 38, 67132166103585004 E 40, 26811776610629796 E 41, 10272457701050202 E 42, 37817708956400810 E 44, 13398356494663707 E 45, 45746498040360070 E 47, 15072493494532725 E 48, 47980530340656481 E 50, 14773866347978737 E 51, 44049105193558723 E 53, 12730033115968681 E 54, 35692824518097492 E 56, 97179951573354639 E 58, 25714632132229891 E 59, 66181286741863764 E 61, 16579301612544390 E 62, 40455840755859262 E 64, 96221540275646057 E 66, 22321171944145316 E 67, 50533495020062010 E 69, 11171483160500434 E 70, 24129666735565648 E 72, 50948307439942839 E 74, 10521192188444274 E 75, 21260144813660958 E 77, 42056582822041770 E 79, 81481748632511883 E 81, 15467836118105381 E 82, 28781840361231484 E 84, 52516687203673406 E 86, 94000315593721075 E 88, 16510941222793968 E 89, 28469272500068459 E 91, 48204647755591740 E 93, 80177082031342196 E 95, 13103768667948483 E 96, 21050285912688805 E 98, 33247754772602604 E 100, bnil.
Definition r189 := 25851251549600712 E 17, 13380890487647590 E 17, 46117428390489983 E 18, 11805126065655883 E 18, 23947392584310933 E 19, 40160578741259018 E 20, 57351077722896133 E 21, 71274750328812760 E 22, 78381555717172737 E 23, 77282190595896735 E 24, 69046464193265847 E 25, 56389704782356050 E 26, 42407213008123746 E 27, 29550768166327746 E 28, 19182991336980606 E 29, 11654865455857397 E 30, 66545351182774571 E 32, 35835884261827582 E 33, 18260254976055229 E 34, 88295155264437514 E 36, 40619762758596416 E 37, 17820959764107468 E 38, 74722025441846956 E 40, 30001325572484702 E 41, 11555444148818219 E 42, 42766668141159631 E 44, 15232110727529100 E 45, 52283561316127174 E 47, 17317751936533787 E 48, 55420555152283761 E 50, 17155354603937063 E 51, 51421245396932638 E 53, 14939471626181488 E 54, 42110174615366144 E 56, 11526127612531853 E 57, 30661109297494899 E 59, 79331145311313773 E 61, 19979097886902272 E 62, 49010839479392953 E 64, 11718839742185942 E 65, 27329445917295108 E 67, 62200633451889865 E 69, 13823819375234966 E 70, 30017214060641092 E 72, 63716330351015985 E 74, 13227810691774083 E 75, 26871464696334385 E 77, 53439364349412773 E 79, 10408541867646029 E 80, 19863758848504327 E 82, 37158041437654234 E 84, 68160696520564002 E 86, 12265026976515704 E 87, 21657762143411567 E 89, 37542286583589453 E 91, 63905158388309178 E 93, 10685625376136214 E 94, 17556933103226074 E 96, 28353926917785878 E 98, 45021541205387625 E 100, bnil.
Definition r190 := 25727084951153539 E 17, 13363922969291969 E 17, 46261539470083227 E 18, 11898336350595447 E 18, 24255634415736448 E 19, 40882531156240308 E 20, 58680058843942767 E 21, 73301721038473784 E 22, 81027907672662553 E 23, 80306680503888568 E 24, 72122716877398822 E 25, 59209869202666406 E 26, 44761205311846690 E 27, 31354642392078324 E 28, 20460822836697089 E 29, 12496543080381381 E 30, 71726231864314477 E 32, 38829125000437508 E 33, 19889633719279160 E 34, 96680389209678392 E 36, 44711723608333970 E 37, 19719616011558887 E 38, 83118950595415562 E 40, 33548765276270751 E 41, 12989964885110658 E 42, 48329519932726422 E 44, 17304271589357642 E 45, 59709709781414707 E 47, 19881915790228308 E 48, 63962410729802335 E 50, 19904037289690101 E 51, 59975220797270395 E 53, 17516709542538422 E 54, 49635520165289735 E 56, 13657694778354056 E 57, 36523338635543992 E 59, 94998145455204821 E 61, 24051171175794737 E 62, 59311866541381842 E 64, 14256840603161085 E 65, 33424033501505320 E 67, 76473735719834603 E 69, 17085792314430912 E 70, 37296418433146359 E 72, 79586108323220255 E 74, 16609797532647062 E 75, 33920140542264006 E 77, 67813724862559974 E 79, 13278110984013112 E 80, 25474049440444727 E 82, 47904860971746319 E 84, 88338712532453181 E 86, 15979967311211948 E 87, 28366865229220710 E 89, 49432084402857564 E 91, 84589138971697838 E 93, 14219003602538187 E 94, 23485967128579774 E 96, 38129720820087237 E 98, 60864130523789938 E 100, bnil.
Definition r191 := 25603984269783725 E 17, 13346809306245733 E 17, 46404094432197451 E 18, 11991406067176039 E 18, 24565329294580387 E 19, 41612001213816593 E 20, 60030241751324328 E 21, 75372148778433086 E 22, 83745475255489828 E 23, 83429122119081587 E 24, 75315482289555706 E 25, 62152379025070962 E 26, 47230335884199343 E 27, 33256765831790901 E 28, 21815381831689867 E 29, 13393477843979914 E 30, 77276430465932536 E 32, 42052684944439125 E 33, 21653658868810009 E 34, 10580650747733360 E 35, 49188755637183924 E 37, 21807914620586071 E 38, 92403350000581652 E 40, 37491845579937107 E 41, 14592894000341682 E 42, 54578249217610496 E 44, 19644209251973635 E 45, 68139774961104817 E 47, 22808085163352529 E 48, 73761646387842324 E 50, 23073975485021552 E 51, 69892221019521552 E 53, 20520384341664676 E 54, 58452317521377992 E 56, 16168247778159774 E 57, 43464291376734671 E 59, 11364596232229162 E 60, 28923578162450938 E 62, 71702522091648693 E 64, 17325800896239575 E 65, 40832520814830920 E 67, 93915454474026894 E 69, 21092954389950223 E 70, 46285722939516181 E 72, 99287578145773066 E 74, 20830505098362195 E 75, 42763279230697901 E 77, 85942687553614260 E 79, 16916311360940098 E 80, 32624621091300818 E 82, 61674445066878741 E 84, 11432862218340712 E 85, 20790172161837142 E 87, 37099827757907985 E 89, 64990199724411437 E 91, 11179747641798705 E 92, 18891439612715337 E 94, 31367714487868151 E 96, 51193713287567406 E 98, 82147253268726170 E 100, bnil.
Definition r192 := 25481937464971616 E 17, 13329553438688999 E 17, 46545102170200511 E 18, 12084330818659398 E 18, 24876460605048078 E 19, 42348991004311821 E 20, 61401784216109454 E 21, 77486627465441299 E 22, 86535650873340496 E 23, 86651992133774638 E 24, 78628365762599411 E 25, 65221708093149798 E 26, 49819460934708613 E 27, 35261833441461520 E 28, 23250765765334073 E 29, 14348931673818284 E 30, 83219833648305002 E 32, 45522765515858443 E 33, 23562567668802054 E 34, 11573407077117953 E 35, 54084543406207039 E 37, 24103537250825376 E 38, 10266310487932693 E 39, 41872044733151110 E 41, 16382870963404316 E 42, 61592795296346027 E 44, 22284712812402243 E 45, 77702637110669956 E 47, 26144890074911775 E 48, 84994700775630113 E 50, 26726815733776278 E 51, 81379954778369546 E 53, 24018072123754448 E 54, 68773109409234810 E 56, 19122486156872846 E 57, 51674782973034697 E 59, 13582036636058103 E 60, 34747846355400628 E 62, 86591534797409106 E 64, 21032921023023407 E 65, 49828504760699318 E 67, 11520577103387583 E 68, 26009990846754255 E 70, 57374056057471997 E 72, 12371695712259282 E 73, 26091557936766623 E 75, 53843984792721928 E 77, 10877802791941697 E 78, 21523061760388386 E 80, 41726317454789275 E 82, 79293227626701717 E 84, 14775838659707508 E 85, 27009816812481337 E 87, 48450903817806028 E 89, 85318723498376081 E 91, 14753498415484166 E 92, 25060783858255482 E 94, 41829155733798231 E 96, 68624551992494694 E 98, 11069363371779343 E 99, bnil.
Definition r193 := 25360932654843488 E 17, 13312159233838641 E 17, 46684571618300551 E 18, 12177106280613177 E 18, 25189011704806431 E 19, 43093501930449167 E 20, 62794842838462606 E 21, 79645753148470676 E 22, 89399842255276251 E 23, 89977810496312271 E 24, 82065057496881917 E 25, 68422461887593253 E 26, 52533607643400299 E 27, 37374732360325490 E 28, 24771263154597300 E 29, 15366337155232609 E 30, 89581713550112246 E 32, 49256600032065156 E 33, 25627307745521608 E 34, 12652818831908519 E 35, 59435494514768670 E 37, 26625696646776697 E 38, 11399421365990796 E 39, 46734912601290859 E 41, 18380473448453970 E 42, 69461877236764020 E 44, 25262365163983015 E 45, 88542848624139622 E 47, 29947162285193809 E 48, 97861564240865454 E 50, 30932802234941554 E 51, 94676348044951606 E 53, 28087588143874579 E 54, 80843933456907280 E 56, 22595700284990788 E 57, 61378033883220557 E 59, 16216317588421906 E 60, 41703108360434135 E 62, 10446463900874717 E 63, 25506268861426477 E 65, 60740560421155678 E 67, 14116560319707642 E 68, 32036766454413782 E 70, 71035910798111459 E 72, 15397338166639378 E 73, 32641532261482255 E 75, 67711417954145340 E 77, 13750553008076822 E 78, 27348743404474026 E 80, 53296389888415243 E 82, 10180715597805136 E 83, 19069920626687736 E 85, 35040716453675755 E 87, 63184109573921486 E 89, 11184202848797775 E 90, 19440635115438462 E 92, 33194404367986253 E 94, 55693455812094151 E 96, 91845835778232389 E 98, 14892153787474324 E 99, bnil.
Definition r194 := 25240958113873391 E 17, 13294630487222805 E 17, 46822511748690489 E 18, 12269728200345286 E 18, 25502965928054320 E 19, 43845534712421449 E 20, 64209573028958290 E 21, 81850123940815450 E 22, 92339472420407601 E 23, 93409140746864596 E 24, 85629333842681387 E 25, 71759380375580238 E 26, 55377978915837271 E 27, 39600548403743951 E 28, 26381361165752082 E 29, 16449305287743396 E 30, 96388798739442905 E 32, 53272512477329529 E 33, 27859581642570546 E 34, 13825882912799775 E 35, 65280941581304156 E 37, 29395259019002855 E 38, 12650148763799482 E 39, 52130443179336313 E 41, 20608405919031353 E 42, 78283899308677405 E 44, 28617956440900989 E 45, 10082243405095855 E 46, 34276684185938883 E 48, 11258876237525785 E 49, 35771917174901187 E 51, 11005373252727885 E 52, 32818467588976285 E 54, 94949368337651231 E 56, 26675431127665337 E 57, 72834945439486784 E 59, 19342848265551210 E 60, 50000935092953330 E 62, 12589853327001911 E 63, 30898691966367088 E 65, 73962891513971323 E 67, 17278499193483581 E 68, 39415583087987822 E 70, 87849539012835895 E 72, 19140334808847359 E 73, 40786539257763579 E 75, 85045384531176676 E 77, 17360075292276055 E 78, 34706553536182587 E 80, 67985241847639046 E 82, 13053830428628575 E 83, 24578275912989643 E 85, 45396088454103893 E 87, 82280383457836058 E 89, 14639845915935642 E 90, 25579084795599930 E 92, 43901823707437729 E 94, 74039763191649659 E 96, 12273361872220969 E 97, 20003446811905197 E 99, bnil.
Definition r195 := 25122002270620403 E 17, 13276970923933237 E 17, 46958931568769610 E 18, 12362192396333601 E 18, 25818306588540297 E 19, 44605089393039241 E 20, 65646128990278936 E 21, 84100339951992329 E 22, 95355979643870348 E 23, 96948590348998431 E 24, 89325058587183796 E 25, 75237340895434925 E 26, 58357958231180415 E 27, 41944572725490597 E 28, 28085753434727967 E 29, 17601633538234884 E 30, 10366934830328421 E 31, 57589979217549779 E 33, 30271893845127349 E 34, 15100115243639165 E 35, 71663357849000564 E 37, 32434875387771932 E 38, 14029930160598926 E 39, 58113478697516902 E 41, 23091705299976300 E 42, 88167943730295862 E 44, 32396939745062412 E 45, 11472288474161734 E 46, 39203023067790273 E 48, 12943269730731883 E 49, 41335164550219713 E 51, 12782358611866285 E 52, 38313650343994771 E 54, 11141830534695984 E 55, 31463378629072480 E 57, 86350197934142076 E 59, 23050150487435830 E 60, 59890981177083782 E 62, 15157727019008312 E 63, 37392435358673758 E 65, 89967967763701376 E 67, 21125672213189120 E 68, 48439881922094774 E 70, 10851888173437402 E 71, 23765455989475984 E 73, 50903115739972143 E 75, 10668644155659726 E 76, 21889766825749787 E 78, 43987790123929134 E 80, 86609692311961511 E 82, 16715565548675994 E 83, 31634854716585580 E 85, 58730573513077108 E 87, 10699748005588958 E 88, 19135738819720455 E 90, 33606653349632179 E 92, 57976822375286470 E 94, 98280757482081314 E 96, 16375655084685102 E 97, 26826973970709059 E 99, bnil.
Definition r196 := 25004053705500762 E 17, 13259184199856000 E 17, 47093840118436203 E 18, 12454494757651357 E 18, 26135016982527545 E 19, 45372165342952536 E 20, 67104663699296625 E 21, 86397003219457964 E 22, 98450817420120766 E 23, 10059881101695755 E 23, 93156184245779973 E 25, 78861361076469568 E 26, 61479114584117670 E 27, 44412308652357486 E 28, 29889348138031795 E 29, 18827314200428403 E 30, 11145322919097512 E 31, 62229693784622312 E 33, 32877600414963206 E 34, 16483585841623640 E 35, 78628587242712108 E 37, 35769122484884862 E 38, 15551240342380932 E 39, 64744147785812044 E 41, 25857965170900574 E 42, 99234858560590854 E 44, 36649933195802805 E 45, 13044736785876970 E 46, 44804459923549402 E 48, 14868338722306789 E 49, 47726014564652933 E 51, 14834189430105787 E 52, 44691396455754489 E 54, 13063054472920733 E 55, 37077594239743459 E 57, 10227929337583766 E 58, 27442047475740296 E 60, 71667573335426752 E 62, 18231148408646684 E 63, 45204587171928393 E 65, 10932150573493477 E 66, 25801638613539092 E 68, 59464667396827479 E 70, 13389997567973933 E 71, 29474110412585956 E 73, 63453908303088441 E 75, 13367271866334186 E 76, 27567304666020834 E 78, 55680741301995776 E 80, 11019429829068266 E 81, 21376349048934042 E 83, 40662885461280241 E 85, 75878116286025537 E 87, 13894593766575791 E 88, 24976846045419648 E 90, 44089760107899698 E 92, 76451679866593024 E 94, 13026307261838230 E 95, 21815830297299338 E 97, 35922374299601512 E 99, bnil.
Definition r197 := 24887101148594279 E 17, 13241273902880701 E 17, 47227246467454916 E 18, 12546631243388544 E 18, 26453080391707047 E 19, 46146761265944495 E 20, 68585328889538021 E 21, 88740717640163807 E 22, 10162545442356642 E 22, 10436249903857053 E 23, 97126753357449407 E 25, 82636601793913851 E 26, 64747207521495312 E 27, 47009478694013622 E 28, 31797276320251104 E 29, 20130543069980938 E 30, 11977199693086499 E 31, 67213634861414751 E 33, 35690961363064971 E 34, 17984956022675601 E 35, 86226089747796091 E 37, 39424653844937669 E 38, 17227678676457058 E 39, 72088340340361516 E 41, 28937580025621372 E 42, 11161844922206162 E 43, 41433272701864817 E 45, 14822317135932096 E 46, 51169022866583037 E 48, 17066864890303629 E 49, 55062027602619796 E 51, 17201520964506790 E 52, 52087462318873342 E 54, 15302432898839199 E 55, 43654997948130258 E 57, 12103668275812062 E 58, 32640202817783196 E 60, 85677392730977943 E 62, 21906092791604640 E 63, 54593494756792484 E 65, 13270021114237193 E 66, 31479007898468600 E 68, 72918981311369743 E 70, 16503271735460489 E 71, 36512225833554870 E 73, 79006736006738961 E 75, 16728490340425401 E 76, 34675008791638800 E 78, 70394002950157938 E 80, 14002262880834221 E 81, 27301163224506879 E 83, 52198063408484507 E 85, 97899703246323752 E 87, 18018531002317242 E 88, 32555162671683461 E 90, 57760215380697595 E 92, 10066695757412197 E 93, 17239716353509113 E 95, 29019469880987909 E 97, 48027693690887004 E 99, bnil.
Definition r198 := 24771133477484553 E 17, 13223243554088904 E 17, 47359159712892507 E 18, 12638597882069636 E 18, 26772480086058766 E 19, 46928875204293189 E 20, 70088275034032032 E 21, 91132088901963822 E 22, 10488137446654887 E 22, 10824239559370710 E 23, 10124089978399782 E 24, 86568370158817891 E 26, 68168192274473739 E 27, 49742031731062982 E 28, 33814900484240947 E 29, 21515728444744596 E 30, 12865897984285008 E 31, 72565137602909372 E 33, 38727195891941359 E 34, 19613517857448333 E 35, 94509203027984215 E 37, 43430361754639914 E 38, 19074063154395822 E 39, 80218221922145040 E 41, 32364011260373005 E 42, 12546678283814982 E 43, 46809620243497394 E 45, 16830440858608731 E 46, 58395636250931045 E 48, 19575877280104521 E 49, 63476678902419242 E 51, 19930749561204996 E 52, 60657571312430602 E 54, 17910493992933352 E 55, 51354265635938108 E 57, 14310513742802152 E 58, 38787063263738907 E 60, 10232842534762624 E 61, 26296086607769706 E 63, 65866317410723671 E 65, 16091277228450015 E 66, 38365112519064824 E 68, 89320815693080488 E 70, 20317903348446533 E 71, 45179768088098346 E 73, 98257734932394222 E 75, 20910114119185759 E 76, 43562554400503167 E 78, 88885229847417554 E 80, 17770081313776779 E 81, 34823278533622794 E 83, 66917587469721081 E 85, 12614344828495015 E 86, 23334591338430327 E 88, 42373880301393141 E 90, 75562230169236680 E 92, 13236115608970227 E 93, 22782501881279035 E 95, 38544152980641557 E 97, 64114836272142829 E 99, bnil.
Definition r199 := 24656139715132341 E 17, 13205096608921760 E 17, 47489588976623580 E 18, 12730390771067890 E 18, 27093199326661726 E 19, 47718504544199005 E 20, 71613651328538162 E 21, 93571724414895006 E 22, 10822007645469641 E 22, 11224128706820463 E 23, 10550285001291671 E 24, 90662122542809843 E 26, 71748224987017957 E 27, 52616150384261873 E 28, 35947823450182227 E 29, 22987500459930792 E 30, 13814936687296659 E 31, 78308968433818803 E 33, 42002540645114171 E 34, 21379235998844544 E 35, 10353542124798061 E 36, 47817550768135507 E 38, 21106531683347053 E 39, 89212790717588943 E 41, 36174076680308258 E 42, 14094361532234699 E 43, 52848632872625779 E 45, 19097500831843749 E 46, 66595397680763408 E 48, 22437174539661195 E 49, 73121407396049835 E 51, 23074785093143001 E 52, 70580216752867528 E 54, 20945450246585284 E 55, 60359138736149462 E 57, 16904654654076910 E 58, 46049266829853674 E 60, 12210038100417191 E 61, 31535295618050828 E 63, 79387909201351379 E 65, 19492467765604105 E 66, 46708748389964565 E 68, 10929492402807535 E 69, 24986870434879223 E 71, 55842227347160164 E 73, 12205942933202833 E 74, 26106396333156109 E 76, 54662548937022113 E 78, 11209654678212175 E 79, 22523621113526988 E 81, 44361342967420037 E 83, 85676476504723734 E 85, 16232012713789967 E 86, 30178266133431446 E 88, 55078078745567720 E 90, 98712426431213710 E 92, 17378575393243106 E 93, 30063645461331895 E 95, 51119356895073752 E 97, 85461813136694896 E 99, bnil.
Definition r200 := 24542109027781644 E 17, 13186836458327533 E 17, 47618543402903446 E 18, 12822006076016617 E 18, 27415221368453043 E 19, 48515646021275402 E 20, 73161605675156811 E 21, 96060233242346886 E 22, 11164307433966472 E 22, 11636200536318782 E 23, 10991692446363043 E 24, 94923467637578487 E 26, 75493668041519827 E 27, 55638258567868155 E 28, 38201897489784020 E 29, 24550720768131777 E 30, 14828029917978136 E 31, 84471403467835660 E 33, 45534311106897238 E 34, 23292792007579461 E 35, 11336669211727725 E 36, 52620123537633149 E 38, 23342651136591303 E 39, 99158480302731982 E 41, 40408265449292446 E 42, 15822995196548732 E 43, 59627698093189855 E 45, 21655201853414506 E 46, 75892996299955555 E 48, 25697907927181400 E 49, 84167914770429954 E 51, 26693922200249213 E 52, 82059839644918585 E 54, 24474315650686581 E 55, 70882215118518452 E 57, 19951434797717712 E 58, 54621586620607093 E 60, 14555681196095831 E 61, 37782135247794510 E 63, 95591256949395301 E 65, 23588752783354512 E 66, 56808176809570052 E 68, 13359407382948711 E 69, 30695432037999786 E 71, 68944464188117070 E 73, 15145474287674178 E 74, 32556179199576307 E 76, 68509598711970657 E 78, 14119811390231151 E 79, 28513469349579497 E 81, 56440621893008994 E 83, 10955293609953511 E 84, 20859801748417789 E 86, 38976920341651277 E 88, 71493656343526892 E 90, 12877634429128747 E 91, 22785261862389783 E 93, 39614768785096904 E 95, 67698109590691803 E 97, 11374674542204951 E 98, bnil.
Definition r201 := 24429030722897938 E 17, 13168466429889158 E 17, 47746032156006805 E 18, 12913440030217656 E 18, 27738529462936561 E 19, 49320295726099528 E 20, 74732284666318541 E 21, 98598226032138411 E 22, 11515189706928479 E 22, 12060742819970777 E 23, 11448753879689472 E 24, 99358169548940658 E 26, 79411095482338223 E 27, 58815029230105870 E 28, 40583233741988988 E 29, 26210492574364484 E 30, 15909096560596446 E 31, 91080310698666098 E 33, 49340966301357912 E 34, 25365631308191693 E 35, 12406973322478904 E 36, 57874779752144292 E 38, 25801534706741640 E 39, 11014981167795636 E 40, 45111080552833793 E 42, 17752575313770423 E 43, 67232741774480836 E 45, 24538925474491444 E 46, 86428287066459202 E 48, 29411231764207536 E 49, 96810743660983801 E 51, 30856822316915449 E 52, 95330428860734911 E 54, 28574177871834043 E 55, 83169287954761040 E 57, 23526782886230246 E 58, 64731490962684113 E 60, 17335919683261787 E 61, 45223487826786282 E 63, 11498973497887264 E 64, 28517362453233278 E 66, 69020615096777452 E 68, 16312438146084381 E 69, 37667712838522597 E 71, 85027383656514482 E 73, 18771816483836349 E 74, 40552809295193079 E 76, 85763621798584768 E 78, 17764166508719469 E 79, 36052079888844881 E 81, 71719366018494954 E 83, 13990496466811188 E 84, 26772183591906659 E 86, 50274262629316437 E 88, 92676648575923907 E 90, 16776585656238317 E 91, 29832265354150589 E 93, 52125964422065482 E 95, 89523763519405961 E 97, 15117000321740112 E 98, bnil.
Definition r202 := 24316894247138035 E 17, 13149989788932245 E 17, 47872064417931140 E 18, 13004688934047284 E 18, 28063106860841277 E 19, 50132449109820457 E 20, 76325833569151921 E 21, 10118631494751809 E 21, 11874808853513551 E 22, 12498047941862429 E 23, 11921920522710901 E 24, 10397215092534440 E 25, 83507298538025718 E 27, 62153392283739284 E 28, 43098211916626118 E 29, 27972171036515176 E 30, 17062270217212746 E 31, 98165236118114803 E 33, 53442176945332174 E 34, 27610012914004199 E 35, 13571636878942035 E 36, 63621229022839946 E 38, 28503968139469224 E 39, 12229009827980917 E 40, 50331410998765123 E 42, 19905179765615555 E 43, 75759115280320338 E 45, 27788132660218814 E 46, 98358037150309025 E 48, 33637028695967050 E 49, 11127016703895674 E 50, 35641619846431629 E 52, 11065959711552570 E 53, 33333645891184752 E 55, 97504308130707072 E 57, 27718856438272398 E 58, 76644412026939196 E 60, 20628329527021798 E 61, 54079624630557667 E 63, 13819148046844814 E 64, 34441675075469160 E 66, 83773482655981917 E 68, 19897548506297427 E 69, 46174584928402966 E 71, 10474799510015094 E 72, 23240552593863261 E 74, 50456187202626548 E 76, 10723832257967472 E 77, 22322623076543616 E 79, 45528598252461114 E 81, 91021508324699086 E 83, 17844090111561328 E 84, 34316171688400988 E 86, 64761151152713937 E 88, 11997562953484896 E 89, 21826304701422755 E 91, 39004690397252182 E 93, 68491821677999469 E 95, 11821620173269122 E 96, 20061268470427625 E 98, bnil.
Definition r203 := 24205689184351073 E 17, 13131409739613911 E 17, 47996649386162320 E 18, 13095749154359904 E 18, 28388936814730242 E 19, 50952100989822479 E 20, 77942396310229324 E 21, 10382511359810600 E 21, 12243320751756431 E 22, 12948412927566223 E 23, 12411653383730712 E 24, 10877149612065243 E 25, 87789291243004131 E 27, 65660542729762880 E 28, 45753490292541569 E 29, 29841374041780580 E 30, 18291909573379817 E 31, 10575749392174704 E 32, 57858897216543034 E 34, 30039062065877610 E 35, 14838388800968385 E 36, 69902418601576507 E 38, 31472545462022373 E 39, 13569220793091445 E 40, 56122936145609912 E 42, 22305171737328996 E 43, 85312569069113375 E 45, 31446807954566897 E 46, 11185786215873981 E 47, 38442717876416687 E 49, 12779542432684241 E 50, 41137167365510428 E 52, 12835319249969196 E 53, 38854496150942863 E 55, 11421505569337174 E 56, 32629930043116281 E 58, 90669828285331387 E 60, 24523812430576721 E 61, 64609945762267513 E 63, 16591624199389571 E 64, 41556020800724980 E 66, 10157771514083903 E 67, 24245644618415146 E 69, 56543093287906864 E 71, 12890352169352570 E 72, 28741412420232045 E 74, 62707395933800179 E 76, 13393593417176344 E 77, 28017873122713412 E 79, 57427132196916292 E 81, 11537716335516925 E 82, 22730724639979309 E 84, 43929960200401906 E 86, 83314328748728656 E 88, 15511056983343499 E 89, 28357754421226558 E 91, 50927431654347687 E 93, 89870471315346383 E 95, 15588298363273556 E 96, 26584196971761860 E 98, bnil.
Definition r204 := 24095405253610164 E 17, 13112729425992697 E 17, 48119796271503132 E 18, 13186617123889740 E 18, 28716002581560107 E 19, 51779245555440528 E 20, 79582115460688087 E 21, 10651523697079268 E 21, 12620882762817244 E 22, 13412139473156916 E 23, 12918423389658280 E 24, 11376245439103330 E 25, 92264316159429082 E 27, 69343948977219344 E 28, 48556016016821067 E 29, 31823993369917633 E 30, 19602609194623391 E 31, 11389026096803159 E 32, 62613440304239601 E 34, 32666825936176015 E 35, 16215542625606127 E 36, 76764776869589824 E 38, 34731814859245900 E 39, 15047938595919674 E 40, 62544564725065574 E 42, 24979421761771338 E 43, 96010320637219663 E 45, 35563949160339689 E 46, 12712437159797362 E 47, 43904155023545168 E 49, 14666834360281379 E 50, 47444436429263022 E 52, 14876051244263607 E 53, 45253543129006132 E 55, 13367961697857237 E 56, 38378562724339861 E 58, 10716828111505430 E 59, 29128795913520680 E 61, 77119668287170173 E 63, 19901511010359070 E 64, 50091335289493890 E 66, 12304351295318044 E 67, 29513842856758740 E 69, 69167716685697798 E 71, 15846034917026056 E 72, 35505528084147032 E 74, 77846441957582646 E 76, 16708956425552406 E 77, 35125269961117936 E 79, 72349244326059581 E 81, 14607273471380405 E 82, 28919786382046920 E 84, 56166216214265459 E 86, 10704507057353646 E 87, 20027236969353085 E 89, 36794609836236606 E 91, 66404408125838967 E 93, 11775923394388707 E 94, 20526245706578906 E 96, 35177685566892007 E 98, bnil.
Definition r205 := 23986032307274119 E 17, 13093951933079973 E 17, 48241514295961095 E 18, 13277289340650823 E 18, 29044287425192025 E 19, 52613876373725670 E 20, 81245132221726961 E 21, 10925730136061304 E 21, 13007653724978937 E 22, 13889533973730741 E 23, 13442711517971484 E 24, 11895144312578957 E 25, 96939850199977667 E 27, 73211361362171162 E 28, 51513035711805835 E 29, 33926206254337511 E 30, 20999210768570880 E 31, 12259867566240507 E 32, 67729557916359004 E 34, 35508332556202349 E 35, 17712037041307991 E 36, 84258473586351245 E 38, 38308435390402429 E 39, 16678614400453696 E 40, 69660911313425679 E 42, 27957549927562224 E 43, 10798222534404384 E 44, 40194106906975733 E 46, 14437754484069260 E 47, 50106634197764226 E 49, 16820739346879808 E 50, 54678092414522548 E 52, 17228019489944864 E 53, 52664763477884796 E 55, 15633377660554628 E 56, 45102083822889924 E 58, 12655946285446193 E 59, 34567782032677546 E 61, 91967612958762352 E 63, 23849360361914185 E 64, 60321807971137916 E 66, 14889895269449841 E 67, 35890538731243105 E 69, 84523808856245329 E 71, 19458875178009417 E 72, 43814180984923932 E 74, 96533749456240128 E 76, 20821475507666858 E 77, 43984908515634055 E 79, 91041612448984318 E 81, 18471284173325628 E 82, 36748960892123257 E 84, 71721153320049805 E 86, 13736020878231861 E 87, 25824833668821180 E 89, 47678543220702849 E 91, 86468517576891176 E 93, 15409141733525479 E 94, 26990779065338778 E 96, 46483157467558396 E 98, bnil.
Definition r206 := 23877560329078887 E 17, 13075080287873109 E 17, 48361812690695033 E 18, 13367762367335402 E 18, 29373774618854033 E 19, 53455986395257744 E 20, 82931586410475228 E 21, 11205192430161031 E 21, 13403793947395564 E 22, 14380907551421077 E 23, 13985008928874680 E 24, 12434505111193113 E 25, 10182361055227190 E 26, 77270820868854967 E 28, 54632106396684098 E 29, 36154487352298303 E 30, 22486814807988232 E 31, 13191994144334953 E 32, 73232523923992349 E 34, 38579653132449079 E 35, 19337478974409769 E 36, 92437697944188994 E 38, 42231345282933021 E 39, 18475921933539164 E 40, 77542813207725228 E 42, 31272189954039415 E 43, 12137205937518365 E 44, 45397978870806784 E 46, 16386336089374344 E 47, 57146002149619509 E 49, 19277221279437903 E 50, 62968263905316308 E 52, 19936687035330627 E 53, 61241706457571869 E 55, 18267944761131982 E 56, 52959442129796216 E 58, 14933153289606170 E 59, 40986297696625725 E 61, 10957526271568434 E 62, 28553866005857932 E 64, 72572693219426851 E 66, 18001196277490766 E 67, 43601421769900209 E 69, 10318362726110360 E 70, 23870450890432409 E 72, 54009336419849602 E 74, 11957617586238016 E 75, 25917219843038576 E 77, 55016392056588008 E 79, 11443000858795152 E 80, 23329676941400290 E 82, 46641059726784040 E 84, 91470780082700635 E 86, 17603859388109927 E 87, 33258018246096486 E 89, 61701219715043364 E 91, 11244516145942961 E 92, 20136001861056446 E 94, 35442332172769960 E 96, 61335881725424245 E 98, bnil.
Definition r207 := 23769979432258173 E 17, 13056117460370731 E 17, 48480700694020447 E 18, 13458032830711168 E 18, 29704447447555628 E 19, 54305567960002835 E 20, 84641616446233365 E 21, 11489972449770607 E 21, 13809465203593558 E 22, 14886576082904092 E 23, 14545817097627897 E 24, 12995004183230031 E 25, 10692356070564055 E 26, 81530668056057047 E 28, 57921106730527405 E 29, 38515621135678259 E 30, 24070792830391957 E 31, 14189343505338949 E 32, 79149222330941019 E 34, 41897967924370771 E 35, 21102189372071930 E 36, 10136095553264869 E 37, 46531942584500850 E 39, 20455860982085510 E 40, 86267890876717982 E 42, 34959276968689776 E 43, 13633892487366977 E 44, 51243063837098489 E 46, 18585670746605525 E 47, 65129897170240478 E 49, 22076867165003674 E 50, 72462529408381149 E 52, 23053866800710681 E 53, 71160227405608131 E 55, 21329427880985525 E 56, 62134468989725896 E 58, 17605184026409125 E 59, 48554307220217699 E 61, 13043729228803135 E 62, 34155016457260952 E 64, 87229480127200748 E 66, 21741624878042985 E 67, 52916606545320050 E 69, 12583543008175135 E 70, 29251873279652193 E 72, 66506318995465826 E 74, 14795846862865850 E 75, 32224394184497269 E 77, 68736864057499819 E 79, 14366099581891528 E 80, 29431274540343212 E 82, 59124873279252937 E 84, 11651604289826534 E 85, 22532678683553686 E 87, 42776273132731290 E 89, 79744735647505675 E 91, 14603292764490332 E 92, 26277561157402521 E 94, 46476770444956504 E 96, 80822102531924128 E 98, bnil.
Definition r208 := 23663279857692721 E 17, 13037066364570393 E 17, 48598187549469582 E 18, 13548097421017443 E 18, 30036289210454950 E 19, 55162612803213583 E 20, 86375359337084216 E 21, 11780132175359439 E 21, 14224830724728688 E 22, 15406860226388198 E 23, 15125647947023614 E 24, 13577335679704710 E 25, 11224791658090775 E 26, 85999552191757992 E 28, 61388248583725734 E 29, 41016714714038373 E 30, 25756800030317984 E 31, 15256081978386740 E 32, 85508239763371016 E 34, 45481635864021512 E 35, 23017251833068016 E 36, 11109138537780602 E 37, 51244279002342397 E 39, 22635869004610814 E 40, 95921155385271464 E 42, 39058360965119803 E 43, 15305878810272262 E 44, 57804381252983708 E 46, 21066459723688850 E 47, 74179125567158753 E 49, 25265452235169230 E 50, 83328146710521788 E 52, 26638568040017386 E 53, 82621585467502444 E 55, 24884259619952872 E 56, 72839612851092196 E 58, 20737925589683826 E 59, 57470156528691375 E 61, 15513379819160158 E 62, 40817775069655875 E 64, 10474864819705805 E 65, 26234185224640770 E 67, 64159079501127258 E 69, 15330620814730856 E 70, 35809747204922609 E 72, 81809049322316738 E 74, 18288126409050469 E 75, 40022589543029353 E 77, 85783004553313396 E 79, 18015304224548461 E 80, 37085407626000812 E 82, 74860984615231325 E 84, 14823898266087135 E 85, 28805868156865500 E 87, 54949353918960429 E 89, 10293266641062558 E 90, 18940594059282518 E 92, 34246761638760761 E 94, 60864224676696722 E 96, 10635258118860000 E 97, bnil.
Definition r209 := 23557451972087906 E 17, 13017929859448982 E 17, 48714282503908010 E 18, 13637952891360491 E 18, 30369283223178685 E 19, 56027112061368971 E 20, 88132950666871209 E 21, 12075733690567155 E 21, 14650055192600281 E 22, 15942085448080466 E 23, 15725023979985688 E 24, 14182211890823300 E 25, 11780515276387438 E 26, 90686440599092602 E 28, 65042088944852973 E 29, 43665211101907465 E 30, 27550788460745370 E 31, 16396616388843558 E 32, 92339962682005120 E 34, 49350268105811279 E 35, 25094564245299497 E 36, 12169709828594102 E 37, 56405267809216571 E 39, 25034941442215983 E 40, 10659566643420520 E 41, 43612948072170855 E 43, 17172616240072354 E 44, 65165262417977565 E 46, 23862972183522753 E 47, 84429190188255940 E 49, 28894570570120170 E 50, 95754552976949174 E 52, 30757950274237659 E 53, 95855951808111389 E 55, 29008785512945439 E 56, 85320210348960227 E 58, 24407834590545729 E 59, 67965128393707799 E 61, 18434449263037471 E 62, 48736371990799940 E 64, 12567027280549267 E 65, 31625114030075324 E 67, 77714695624123435 E 69, 18658871939003026 E 70, 43793294302233399 E 72, 10052834224204262 E 73, 22580694454063011 E 75, 49654001475152829 E 77, 10693783538997765 E 78, 22565911383298809 E 80, 46676205930610996 E 82, 94673689844058867 E 84, 18837251481492704 E 85, 36780487277344024 E 87, 70498610342654689 E 89, 13269443136576262 E 90, 24534354139656313 E 92, 44574055658997411 E 94, 79598775285429808 E 96, 13975714522363818 E 97, bnil.
Definition r210 := 23452486266179101 E 17, 12998710749926085 E 17, 48828994805704018 E 18, 13727596057108339 E 18, 30703412820095913 E 19, 56899056278152712 E 20, 89914524582544050 E 21, 12376839175302201 E 21, 15085304732425883 E 22, 16492582048124604 E 23, 16344478412267252 E 24, 14810363585735053 E 25, 12360400884315428 E 26, 95600628216686032 E 28, 68891542170085833 E 29, 46468902942460528 E 30, 29459020740605290 E 31, 17615606436646995 E 32, 99676679526980265 E 34, 53524805702853095 E 35, 27346893596740491 E 36, 13325153778833412 E 37, 62054906748244067 E 39, 27673761352550418 E 40, 11839324491695263 E 41, 48670871928122625 E 43, 19255594865483720 E 44, 73418219997038357 E 46, 27013437687968799 E 47, 96031986837350108 E 49, 33022338427577998 E 50, 10995616676638246 E 51, 35488397663261739 E 53, 11112638009609557 E 54, 33790680221723191 E 56, 99859367576571187 E 58, 28703564882466682 E 59, 80308699424997513 E 61, 21886516396156939 E 62, 58139305755405163 E 64, 15063278647365751 E 65, 38088115565853453 E 67, 94043999093947511 E 69, 22687361160399501 E 70, 53502858006730093 E 72, 12340386118656140 E 73, 27851492553488148 E 75, 61537021113924274 E 77, 13316335284306771 E 78, 28234324507295498 E 80, 58680165817450007 E 82, 11959042712400887 E 83, 23908704245679294 E 85, 46905895612380248 E 87, 90336241331617703 E 89, 17084635493019333 E 90, 31739439944092247 E 92, 57939992934937978 E 94, 10396194007187257 E 95, 18340609180390818 E 97, bnil.
Definition r211 := 23348373352964413 E 17, 12979411787810746 E 17, 48942333702951084 E 18, 13817023795285087 E 18, 31038661356545239 E 19, 57778435410466413 E 20, 91720213781867191 E 21, 12683510898847000 E 21, 15530746905377940 E 22, 17058685186003827 E 23, 16984555305221871 E 24, 15462540355551445 E 25, 12965349585299722 E 26, 10075174737642072 E 27, 72945892582371719 E 29, 49435946699984964 E 30, 31488084305734734 E 31, 18917977632397739 E 32, 10755268801338332 E 33, 58027601614871148 E 35, 29787934134661762 E 36, 14583386505447685 E 37, 68236516924753506 E 39, 30574839031070213 E 40, 13142524417053379 E 41, 54284697628731863 E 43, 21578544705855561 E 44, 82665903123114575 E 46, 30560479451291409 E 47, 10915768597663154 E 48, 37714178204870208 E 50, 12617552653275488 E 51, 40916728265675580 E 53, 12873329726134738 E 54, 39330557096075510 E 56, 11678353484458056 E 57, 33727835576840698 E 59, 94814602430210495 E 61, 25962675107120971 E 62, 69295167257144505 E 64, 18039025062120825 E 65, 45829340946087531 E 67, 11369618873128166 E 68, 27558755760787046 E 70, 65300049363506224 E 72, 15133043478722645 E 73, 34316824939373280 E 75, 76182684775512502 E 77, 16564021488494246 E 78, 35287411344652572 E 80, 73687722828484207 E 82, 15089042866269767 E 83, 30309784608137299 E 85, 59746963436203300 E 87, 11561443806703659 E 88, 21969363658333670 E 90, 41008395233949111 E 92, 75216610054564873 E 94, 13560370086745703 E 95, 24036587775914101 E 97, bnil.
Definition r212 := 23245103965964331 E 17, 12960035672731740 E 17, 49054308441741350 E 18, 13906233043965146 E 18, 31375012211016929 E 19, 58665238834476553 E 20, 93550149501492577 E 21, 12995811212971761 E 21, 15986550700885635 E 22, 17640734905403535 E 23, 17645809698624652 E 24, 16139510959609647 E 25, 13596290282173143 E 26, 10614977780170542 E 27, 77214807427634308 E 29, 52574877333773495 E 30, 33644906221082519 E 31, 20308934812614639 E 32, 11600440780364523 E 33, 62882507261469371 E 35, 32432369056482761 E 36, 15952936921495675 E 37, 74996998732083399 E 39, 33762662327043647 E 40, 14581338439227382 E 41, 60512160904891166 E 43, 24167655503562392 E 44, 93022145985146688 E 46, 34551592321516511 E 47, 12399681880516400 E 48, 43043691777479517 E 50, 14468680392569032 E 51, 47141554279085342 E 53, 14901957943809630 E 54, 45743796290772717 E 56, 13646886907189853 E 57, 39599573297280892 E 59, 11184781239342966 E 60, 30771743001570001 E 62, 82519416029161726 E 64, 21583254854070512 E 65, 55093237665913445 E 67, 13732560340251267 E 68, 33443848868267791 E 70, 79619839338354585 E 72, 18538957354762906 E 73, 42239372155363329 E 75, 94214564195501277 E 77, 20581596058502964 E 78, 44053927822689991 E 80, 92429714920670214 E 82, 19016468974435216 E 83, 38379809027477618 E 85, 76012957316719031 E 87, 14778683661885553 E 88, 28215847590534980 E 90, 52917630677153540 E 92, 97519937502948210 E 94, 17664578856192428 E 95, 31459853207003681 E 97, bnil.
Definition r213 := 23142668957507889 E 17, 12940585053051792 E 17, 49164928264490267 E 18, 13995220801667381 E 18, 31712448787289431 E 19, 59559455351692410 E 20, 95404461505390432 E 21, 13313802545057844 E 21, 16452886528703864 E 22, 18239076158527530 E 23, 18328807743517662 E 24, 16842063674954062 E 25, 14254180342642300 E 26, 11180505682930351 E 27, 81708350195373799 E 29, 55894623466307668 E 30, 35936768572417410 E 31, 21793976256235306 E 32, 12507049879133553 E 33, 68114963843680543 E 35, 35295935924442569 E 36, 17442990461268054 E 37, 82387105920206989 E 39, 37263858407420690 E 40, 16169065500639701 E 41, 67416645385693101 E 43, 27051816741352877 E 44, 10461311847698103 E 45, 39039669831954931 E 47, 14076258865100143 E 48, 49093632851232601 E 50, 16579973432591518 E 51, 54274811173178268 E 53, 17237628569971338 E 54, 53162619747302987 E 56, 15934849014030083 E 57, 46456367202759900 E 59, 13183259093571212 E 60, 36440816945785517 E 62, 98182258459330505 E 64, 25800897489205773 E 65, 66169415871938089 E 67, 16571116572632287 E 68, 40546920119068414 E 70, 96984958296990411 E 72, 22688717978513336 E 73, 51937825407626290 E 75, 11639279408895514 E 76, 25546353866945168 E 78, 54938450754188183 E 80, 11580981195731998 E 81, 23938980998902818 E 83, 48542338212406051 E 85, 96593448998338953 E 87, 18868527794436342 E 88, 36194087843223480 E 90, 68200451508676533 E 92, 12627653174401998 E 93, 22981318243224845 E 95, 41121675601814931 E 97, bnil.
Definition r214 := 23041059297044869 E 17, 12921062526765939 E 17, 49274202408309396 E 18, 14083984126749501 E 18, 32050954516521547 E 19, 60461073195072919 E 20, 97283278073640229 E 21, 13637547391232605 E 21, 16929926210752184 E 22, 18854058829862883 E 23, 19034126835056054 E 24, 17571006649011151 E 25, 14940006275435270 E 26, 11772828985779888 E 27, 86436994311113934 E 29, 59404523058845165 E 30, 38371324456251751 E 31, 23378908425133167 E 32, 13479198523956576 E 33, 73752098666193074 E 35, 38395496005504192 E 36, 19063435658223029 E 37, 90461738981265497 E 39, 41107367770021277 E 40, 17920229009728605 E 41, 75067701016525759 E 43, 30262879621996581 E 44, 11757858821644443 E 45, 44083585059937214 E 47, 15969343063037865 E 48, 55956988944950644 E 50, 18986401159416010 E 51, 62443475641800154 E 53, 19924913074850032 E 54, 61738444839731626 E 56, 18592075123492390 E 57, 54457280481204885 E 59, 15526174296312696 E 60, 43118227772574744 E 62, 11671780012436537 E 63, 30815577131458109 E 65, 79400701556636529 E 67, 19977929585076928 E 68, 49112083200132653 E 70, 11802302780006074 E 71, 27739862724226586 E 73, 63798458723466974 E 75, 14364307018966574 E 76, 31675228054574677 E 78, 68438353509593362 E 80, 14494421631949719 E 81, 30101882167134991 E 83, 61325515062446734 E 85, 12260290700840460 E 86, 24061558244427051 E 88, 46372025107943572 E 90, 87788660077434864 E 92, 16330767989635129 E 93, 29860133133927050 E 95, 53680986563227795 E 97, bnil.
Definition r215 := 22940266069483700 E 17, 12901470642384349 E 17, 49382140103427508 E 18, 14172520136802796 E 18, 32390512859300090 E 19, 61370080035160249 E 20, 99186725991575771 E 21, 13967108309516783 E 21, 17417842972726028 E 22, 19486037759387571 E 23, 19762355745329284 E 24, 18327168255429759 E 25, 15654784417187445 E 26, 12393056102576051 E 27, 91411637208213218 E 29, 63114339607753149 E 30, 40956614587151094 E 31, 25069861352119673 E 32, 14521238602607313 E 33, 79822826702432341 E 35, 41749107747494926 E 36, 20824913744200110 E 37, 99280259094687248 E 39, 45324631358608710 E 40, 19850682237981344 E 41, 83541606930303378 E 43, 33835942886127382 E 44, 13207330403579834 E 45, 49748830458036491 E 47, 18105584472489379 E 48, 63738184693548267 E 50, 21727419901252826 E 51, 71791494528365815 E 53, 23014578723636283 E 54, 71644552382938643 E 56, 21675865855978050 E 57, 63786067848399283 E 59, 18270726056399254 E 60, 50976953983319729 E 62, 13863467024284882 E 63, 36772824319437328 E 65, 95192574271013749 E 67, 24063089232019946 E 68, 59430795586058787 E 70, 14348692544997204 E 71, 33882260256384516 E 73, 78289015972457003 E 75, 17709161321717334 E 76, 39233388124603751 E 78, 85164468961035507 E 80, 18121021615304974 E 81, 37809279835392232 E 83, 77387174193986828 E 85, 15543601119584218 E 86, 30647691869989939 E 88, 59340785195482394 E 90, 11286489996727849 E 91, 21093584773176666 E 93, 38748854938241914 E 95, 69985974822360010 E 97, bnil.
Definition r216 := 22840280473554542 E 17, 12881811899799839 E 17, 49488750571658822 E 18, 14260826008047414 E 18, 32731107307644096 E 19, 62286462986238761 E 20, 10111493053928524 E 20, 14302547912986113 E 21, 17916811435483143 E 22, 20135372765216363 E 23, 20514094756133915 E 24, 19111397453060284 E 25, 16399561630122090 E 26, 13042334412268350 E 27, 96643614786652557 E 29, 67034278875180898 E 30, 43701084542077949 E 31, 26873304700621407 E 32, 15637785125623728 E 33, 86357957654831583 E 35, 45376104612481791 E 36, 22738871447264093 E 37, 10890682394677257 E 38, 49949791686483845 E 40, 21977722155307507 E 41, 92921982314038136 E 43, 37809664492947135 E 44, 14826851189931833 E 45, 56108222287388096 E 47, 20514752982201897 E 48, 72554419336645597 E 50, 24847521389932518 E 51, 82481949342397923 E 53, 26564411896122678 E 54, 83079109054383692 E 56, 25252059305678535 E 57, 74654855162643290 E 59, 21483255340733444 E 60, 60218562874412453 E 62, 16452834577153978 E 63, 43843819080786501 E 65, 11402421859047171 E 66, 28957307596009670 E 68, 71850735803924587 E 70, 17427897206723147 E 71, 41344535481985792 E 73, 95975360717293491 E 75, 21810728706669692 E 76, 48544646292489785 E 78, 10586621616407197 E 79, 22630550623455912 E 81, 47437785875367163 E 83, 97545810354721753 E 85, 19683619599621256 E 86, 38991041783105177 E 88, 75846257394834889 E 90, 14492844092825622 E 91, 27211909219360670 E 93, 50220547400812693 E 95, 91127105871415109 E 97, bnil.
Definition r217 := 22741093820197289 E 17, 12862088751140369 E 17, 49594043024917114 E 18, 14348898974728361 E 18, 33072721386965516 E 19, 63210208612515860 E 20, 10306801548146128 E 20, 14643928862948266 E 21, 18427007606207358 E 22, 20802428665679299 E 23, 21289955791672157 E 24, 19924564148043046 E 25, 17175416010578727 E 26, 13721851373576882 E 27, 10214471626647410 E 28, 71175006167898639 E 30, 46613602661889487 E 31, 28796064520952390 E 32, 16833730551467314 E 33, 93390308773107052 E 35, 49297177498767969 E 36, 24817617174822490 E 37, 11941074681551472 E 38, 55019908932370689 E 40, 24320212328317299 E 41, 10330044907357492 E 42, 42226601348082215 E 44, 16635361512524172 E 45, 63242675785916253 E 47, 23230084887189551 E 48, 82537152543729850 E 50, 28396844942896678 E 51, 94699483707257181 E 53, 30640145791988045 E 54, 96268589137382205 E 56, 29396250608475805 E 57, 87308344673381185 E 59, 25240649227721955 E 60, 71077757291500532 E 62, 19509543641124145 E 63, 52229750080849154 E 65, 13646145507631589 E 66, 34815650737588011 E 68, 86786288528695584 E 70, 21147963410518686 E 71, 50401729794004482 E 73, 11754142065203401 E 74, 26835228847048162 E 76, 60004040532814227 E 78, 13146212564396143 E 79, 28232059301824978 E 81, 59453317494938231 E 83, 12281873352017429 E 84, 24898049692589166 E 86, 49548400034089997 E 88, 96828551891226289 E 90, 18587776365977580 E 91, 35062059177107967 E 93, 65007652060751212 E 95, 11850462325059965 E 96, bnil.
Definition r218 := 22642697530973949 E 17, 12842303601606805 E 17, 49698026663774250 E 18, 14436736328512379 E 18, 33415338657987463 E 19, 64141302934324514 E 20, 10504610305760128 E 20, 14991313862136787 E 21, 18948608869353019 E 22, 21487575300828660 E 23, 22090562551152737 E 24, 20767559558977797 E 25, 17983457608442383 E 26, 14432835663561952 E 27, 10792719944364194 E 28, 75547664178384645 E 30, 49703478630602845 E 31, 30845340728856081 E 32, 18114259803575961 E 33, 10095482370422896 E 34, 53534461993719588 E 36, 27074380778385050 E 37, 13086688039126229 E 38, 60575193032764802 E 40, 26898715548490675 E 41, 11477735037753573 E 42, 47133579434139896 E 44, 18653799178278408 E 45, 71242057749420714 E 47, 26288665815207773 E 48, 93833754133632669 E 50, 32431860383938401 E 51, 10865302408587574 E 52, 35316505122257507 E 54, 11147164590999842 E 55, 34195178267193676 E 57, 10202861776217932 E 58, 29631952335437368 E 60, 83827617326029520 E 62, 23115023032448435 E 63, 62166887340209662 E 65, 16317185856791558 E 66, 41821922150081520 E 68, 10473091851505596 E 69, 25638155540868370 E 71, 61384426189669727 E 73, 14381305731004439 E 74, 32984309696698569 E 76, 74093035440469096 E 78, 16307688783434528 E 79, 35182708358156269 E 81, 74431679584582721 E 83, 15446903055256497 E 84, 31458446879407642 E 86, 62892199509076280 E 88, 12347124869513985 E 89, 23811412009690262 E 91, 45122222892111519 E 93, 84045207323566198 E 95, 15391438637914246 E 96, bnil.
Definition r219 := 22545083136505151 E 17, 12822458810296145 E 17, 49800710676063169 E 18, 14524335417885796 E 18, 33758942718619751 E 19, 65079731434343946 E 20, 10704931397255238 E 20, 15344765647923013 E 21, 19481793977372130 E 22, 22191187553369050 E 23, 22916550641268373 E 24, 21641296585142606 E 25, 18824829157523096 E 26, 15176558340390958 E 27, 11400380635615443 E 28, 80163891402476136 E 30, 52980482753525842 E 31, 33028725332753993 E 32, 19484866008340015 E 33, 10908869765899441 E 34, 58111630710869663 E 36, 29523377106493132 E 37, 14335602688768774 E 38, 66659252858697165 E 40, 29735636902251645 E 41, 12746252945834714 E 42, 52582096883124628 E 44, 20905298320533570 E 45, 80206123793731116 E 47, 29731853672049849 E 48, 10660933478408221 E 49, 37016129451591034 E 51, 12457882745041844 E 52, 40678381832152069 E 54, 12898348903993850 E 55, 39748299020775877 E 57, 11914061641856450 E 58, 34760214587665053 E 60, 98785638889706693 E 62, 27364384434848703 E 63, 73932480891738935 E 65, 19494242013756136 E 66, 50193807640365731 E 68, 12627176171262526 E 69, 31052987405014552 E 71, 74689610054657101 E 73, 17578660841967369 E 74, 40502369590202939 E 76, 91397868565017819 E 78, 20208627615157269 E 79, 43798523895928866 E 81, 93083754823004556 E 83, 19406330771460661 E 84, 39703179015131179 E 86, 79739010540850465 E 88, 15726280187363328 E 89, 30467125447348766 E 91, 57999337084672715 E 93, 10852549004654823 E 94, 19965689941485138 E 96, bnil.
Definition r220 := 22448242274930261 E 17, 12802556691010528 E 17, 49902104235522687 E 18, 14611693647553639 E 18, 34103517205792888 E 19, 66025479063837734 E 20, 10907776738740197 E 20, 15704346985547622 E 21, 20026743041227430 E 22, 22913645369006734 E 23, 23768567708526034 E 24, 22546710177732484 E 25, 19700706816935216 E 26, 15954334030610056 E 27, 12038777936833161 E 28, 85035841148161502 E 30, 56454865955861457 E 31, 35354221436927412 E 32, 20951366984059050 E 33, 11783150919174802 E 34, 63053990976453692 E 36, 32179873562978958 E 37, 15696537608569512 E 38, 73319363632252833 E 40, 32855378042766028 E 41, 14147617336487547 E 42, 58628762726708547 E 44, 23415406871401401 E 45, 90245548205041983 E 47, 33605745549622875 E 48, 12104877650791508 E 49, 42221154246400058 E 51, 14274389322396229 E 52, 46822157502143840 E 54, 14914083106963520 E 55, 46169575758261555 E 57, 13901839524574300 E 58, 40744608537691903 E 60, 11632068542979134 E 61, 32368637264948530 E 63, 87851614748906135 E 65, 23270016487647569 E 66, 60188909144823145 E 68, 15210681693176258 E 69, 37576994535217230 E 71, 90793584747422925 E 73, 21466298783218208 E 74, 49685345636899895 E 76, 11263167284158737 E 77, 25017156745467520 E 79, 54467486983554783 E 81, 11628630290084404 E 82, 24354261796009874 E 84, 50053419887799066 E 86, 10098486943968763 E 87, 20007301772025673 E 89, 38937771739981973 E 91, 74462873985585625 E 93, 13996702062223669 E 94, 25867563759766957 E 96, bnil.
Definition r221 := 22352166690390865 E 17, 12782599513052181 E 17, 50002216500485336 E 18, 14698808477840025 E 18, 34449045797250708 E 19, 66978530248906743 E 20, 11113158091070810 E 20, 16070120661372766 E 21, 20583637520693833 E 22, 23655333776213324 E 23, 24647273571404836 E 24, 23484757714084724 E 25, 20612300923522466 E 26, 16767522141225562 E 27, 12709287768126302 E 28, 90176201150326870 E 30, 60137380523893052 E 31, 37830263048653935 E 32, 22519922511987098 E 33, 12722535890178500 E 34, 68388588142678358 E 36, 35060261898811305 E 37, 17178897304545440 E 38, 80606753809293427 E 40, 36284503473986578 E 41, 15694972669876644 E 42, 65335774271225182 E 44, 26212324288710749 E 45, 10148305497671694 E 46, 37961692905930629 E 48, 13735898350845517 E 49, 48127322148886289 E 51, 16344978086072810 E 52, 53857189848602863 E 54, 17232747356104411 E 55, 53589506014450756 E 57, 16209224765032148 E 58, 47722853937292535 E 60, 13686098530161687 E 61, 38257248493907093 E 63, 10430516502581492 E 64, 27753620192130425 E 66, 72111815551354833 E 68, 18306518532410743 E 69, 45430378516176062 E 71, 11026731778744278 E 72, 26188838993739503 E 74, 60891252701942305 E 76, 13866112814065018 E 77, 30938540661481676 E 79, 67665448944951134 E 81, 14511958132956436 E 82, 30530949724288113 E 84, 63032865752046914 E 86, 12774903161311780 E 87, 25424820690236928 E 89, 49705974371223861 E 91, 95487266699670864 E 93, 18030160987886558 E 94, 33473234389136989 E 96, bnil.
Definition r222 := 22256848231537124 E 17, 12762589502004704 E 17, 50101056612604979 E 18, 14785677424089984 E 18, 34795512213302020 E 19, 67938868896755429 E 20, 11321087059006947 E 20, 16442149476156400 E 21, 21152660214451372 E 22, 24416642905400329 E 23, 25553340352317541 E 24, 24456419374858976 E 25, 21560856755374290 E 26, 17617528096901806 E 27, 13413339427748798 E 28, 95598213806532504 E 30, 64039301611381581 E 31, 40465735718144676 E 32, 24197052421660363 E 33, 13731501537741227 E 34, 74144314817672487 E 36, 38182134477391771 E 37, 18792821731899869 E 38, 88576912729912132 E 40, 40051919711263731 E 41, 17402688072644264 E 42, 72771436270139272 E 44, 29327161304707158 E 45, 11405465937835968 E 46, 42856869722910073 E 48, 15577137603110656 E 49, 54824957606021727 E 51, 18703687888269329 E 52, 61907482710654728 E 54, 19898061179835085 E 55, 62157421978148936 E 57, 18885682318990331 E 58, 55853992279791790 E 60, 16090332574187966 E 61, 45181099049744649 E 63, 12373903332886607 E 64, 33073375698948013 E 66, 86322382348830453 E 68, 22013087909302232 E 69, 54875677240639159 E 71, 13379465982923383 E 72, 31920283610902154 E 74, 74552810589734511 E 76, 17053854033777591 E 77, 38223144850441893 E 79, 83975464183633328 E 81, 18091325455566514 E 82, 38233466365297579 E 84, 79292017095464092 E 86, 16142810276585404 E 87, 32272944661947437 E 89, 63379456116891651 E 91, 12230512358423719 E 92, 23198404336355934 E 94, 43262892631600670 E 96, bnil.
Definition r223 := 22162278850056760 E 17, 12742528840500750 E 17, 50198633695624773 E 18, 14872298056072949 E 18, 35142900218531978 E 19, 68906478401969452 E 20, 11531575090403068 E 20, 16820496238349639 E 21, 21733995249972032 E 22, 25197968007499541 E 23, 26487452609350327 E 24, 25462698524137743 E 25, 22547655306475863 E 26, 18505804602579350 E 27, 14152417330804264 E 28, 10131569704913546 E 29, 68172449534320768 E 31, 43269998040958394 E 32, 25989655523810687 E 33, 14814806871644857 E 34, 80352026315186528 E 36, 41564365265275044 E 37, 20549239559785047 E 38, 97289920417331412 E 40, 44189068239862688 E 41, 19286464364207003 E 42, 81010725308560545 E 44, 32794223607403591 E 45, 12811103021093453 E 46, 48354898779048984 E 48, 17654465201569970 E 49, 62415492243225461 E 51, 21388917609411252 E 52, 71113561085048576 E 54, 22959794620860498 E 55, 72044096735850854 E 57, 21988036800376155 E 58, 65321559731513203 E 60, 18902361526435839 E 61, 53315895837913562 E 63, 14667485201866506 E 64, 39380082254999481 E 66, 10324541933967568 E 67, 26447080683631050 E 69, 66225641204768279 E 71, 16219395629350345 E 72, 38869802486627745 E 74, 91192560033452930 E 76, 20954041883209190 E 77, 47176057161863467 E 79, 10411125251858885 E 80, 22530236403945442 E 82, 47828769423795993 E 84, 99638052971050815 E 86, 20376294188646144 E 87, 40919941345474358 E 89, 80722633203475795 E 91, 15647390349815640 E 92, 29813013843601833 E 94, 55848803025715123 E 96, bnil.
Definition r224 := 22068450599226172 E 17, 12722419668976429 E 17, 50294956854184628 E 18, 14958667997387915 E 18, 35491193623473508 E 19, 69881341652803478 E 20, 11744633475432155 E 20, 17205223757418846 E 21, 22327828073203885 E 22, 25999709471946808 E 23, 27450307467757497 E 24, 26504622092413932 E 25, 23574014072533804 E 26, 19433852931819356 E 27, 14928062793009670 E 28, 10734306586934048 E 29, 72549212877735077 E 31, 46252904053428447 E 32, 27905029425315257 E 33, 15977509197023303 E 34, 87044662640759069 E 36, 45227195812945262 E 37, 22459924983729102 E 38, 10681080098950226 E 39, 48730133253182655 E 41, 21363449816518666 E 42, 90135903073201698 E 44, 36651321520057499 E 45, 14381898377482718 E 46, 54526541641633000 E 48, 19996784374032409 E 49, 71012765919725859 E 51, 24443959109506012 E 52, 81634575177205479 E 54, 26474569895442655 E 55, 83444695708025343 E 57, 25581523702499073 E 58, 76337213273828464 E 60, 22188900994029945 E 61, 62866106850539015 E 63, 17372238705898040 E 64, 46850815818485084 E 66, 12338201727232026 E 67, 31746764256404090 E 69, 79852526465135754 E 71, 19644366238537117 E 72, 47288621078727292 E 74, 11144094244091889 E 75, 25721382801874716 E 77, 58168700657892022 E 79, 12894564681359568 E 80, 28029549976099674 E 82, 59769691351726276 E 84, 12507154977964254 E 85, 25692126629164722 E 87, 51826450225016408 E 89, 10269598018198987 E 90, 19995936780429498 E 92, 38269032463441685 E 94, 72010740782685160 E 96, bnil.
Definition r225 := 21975355632483506 E 17, 12702264086412715 E 17, 50390035172665507 E 18, 15044784924870496 E 18, 35840376286239341 E 19, 70863441037476345 E 20, 11960273345842556 E 20, 17596394837193016 E 21, 22934345438054622 E 22, 26822272844063803 E 23, 28442614751185192 E 24, 27583240962428846 E 25, 24641287848015379 E 26, 20403224241176601 E 27, 15741875860345544 E 28, 11369535450900108 E 29, 77182572438733644 E 31, 49424826552502915 E 32, 29950891261802670 E 33, 17224981087186998 E 34, 94257377345214388 E 36, 49192326503478383 E 37, 24537558301121354 E 38, 11720990123571469 E 39, 53712265216510697 E 41, 23652365309140866 E 42, 10023718245805381 E 43, 40940107910399916 E 45, 16136312152069230 E 46, 61450458491228345 E 48, 22636369924897726 E 49, 80744472616721302 E 51, 27917592215754465 E 52, 93650660097298842 E 54, 30506764558805935 E 55, 96582116960677090 E 57, 29740984547850361 E 58, 89144872095817893 E 60, 26027182577745690 E 61, 74069496421528059 E 63, 20559389742494438 E 64, 55693348548139140 E 66, 14732278069780035 E 67, 38075840081231730 E 69, 96199050370932049 E 71, 23771267840842017 E 72, 57478214637675197 E 74, 13605790602935194 E 75, 31543203059936897 E 77, 71652837624033181 E 79, 15954505362288060 E 80, 34835775540116978 E 82, 74614483678412334 E 84, 15683156857887114 E 85, 32359954238000701 E 87, 65568048112318335 E 89, 13050502590327817 E 90, 25523992005264420 E 92, 49066765260061065 E 94, 92740700326744525 E 96, bnil.
Definition r226 := 21882986202023127 E 17, 12682064151063974 E 17, 50483877714072367 E 18, 15130646568001910 E 18, 36190432114115165 E 19, 71852758450472983 E 20, 12178505674247777 E 20, 17994072269238429 E 21, 23553735395678456 E 22, 27666068841836064 E 23, 29465097112601235 E 24, 28699630357826285 E 25, 25750869534440399 E 26, 21415520910905389 E 27, 16595517185429735 E 28, 12038823933626477 E 29, 82086126030589212 E 31, 52796681372296106 E 32, 32135399384746998 E 33, 18562928222362145 E 34, 10202767359108114 E 35, 53483013360712632 E 37, 26795790476942880 E 38, 12856329600339298 E 39, 59175821369996974 E 41, 26173639587743762 E 42, 11141345075220552 E 43, 45706446739801087 E 45, 18094762437107370 E 46, 69214044441819549 E 48, 25609242119074997 E 49, 91753766440093450 E 51, 31864748606472234 E 52, 10736558077069198 E 53, 35129528435223552 E 55, 11171076934577811 E 56, 34552224824261332 E 58, 10402544440288825 E 59, 30506548966590190 E 61, 87202348576514129 E 63, 24312074799855492 E 64, 66151284996652233 E 66, 17576327633665857 E 67, 45627967378003581 E 69, 11579129744115802 E 70, 28739624627218229 E 72, 69800048376708886 E 74, 16595870430940696 E 75, 38646122754645178 E 77, 88177442124587457 E 79, 19721115998472419 E 80, 43251157962888038 E 82, 93050684836304176 E 84, 19645096463538773 E 85, 40714854063052651 E 87, 82863180841898631 E 89, 16566127429884434 E 90, 32543692476446762 E 92, 62839131084239686 E 94, 11929923986415272 E 95, bnil.
Definition r227 := 21791334657411390 E 17, 12661821881173907 E 17, 50576493518952097 E 18, 15216250708320077 E 18, 36541345065114091 E 19, 72849275298851027 E 20, 12399341273448516 E 20, 18398318826260761 E 21, 24186187283568039 E 22, 28531513372082159 E 23, 30518490164905423 E 24, 29854890234584458 E 25, 26904190959959021 E 26, 22472397912299593 E 27, 17490709951456380 E 28, 12743806242139659 E 29, 87274114173152319 E 31, 56379952650549282 E 32, 34467176041113828 E 33, 19997408133292011 E 34, 11039554779276062 E 35, 58124170722917377 E 37, 29249311939282024 E 38, 14095322213804531 E 39, 65164624356359142 E 41, 28949555383388642 E 42, 12377305447277906 E 43, 51000814854327936 E 45, 20279821779946206 E 46, 77914349617208965 E 48, 28955579878680553 E 49, 10420104454314080 E 50, 36347252170084957 E 52, 12300969487996691 E 53, 40425927980178813 E 55, 12912084330007841 E 56, 40113555925228142 E 58, 12130221894818332 E 59, 35730281555261775 E 61, 10258547879313064 E 62, 28727261617190204 E 64, 78510026945343951 E 66, 20952205456526081 E 67, 54632064078839318 E 69, 13925391067843468 E 70, 34715839276815827 E 72, 84687145824999544 E 74, 20224467454780024 E 75, 47304053893704026 E 77, 10840901082719855 E 78, 24353136467631515 E 80, 53645927163999226 E 82, 11592424054788851 E 83, 24582417178553052 E 85, 51172789951184759 E 87, 10460770274913139 E 88, 21005787512597592 E 90, 41447730473703284 E 92, 80385942016548263 E 94, 15328641385476455 E 95, bnil.
Definition r228 := 21700393444223096 E 17, 12641539255679052 E 17, 50667891604348675 E 18, 15301595178832920 E 18, 36893099149493476 E 19, 73852972508550621 E 20, 12622790795787154 E 20, 18809197255536753 E 21, 24831891714455724 E 22, 29419027546012493 E 23, 31603542611197212 E 24, 31050145675189550 E 25, 28102723710250922 E 26, 23575564201969012 E 27, 18429241844551146 E 28, 13486185582939012 E 29, 92761446695482754 E 31, 60186719119132854 E 32, 36955331084899286 E 33, 21534849890158501 E 34, 11940364120713810 E 35, 63142480102960933 E 37, 31913925857136878 E 38, 15446854282241815 E 39, 71726240234877667 E 41, 32004407202318441 E 42, 13743465074430891 E 43, 56878739825586156 E 45, 22716432293877842 E 46, 87659090891566906 E 48, 32720177200453357 E 49, 11826592544165050 E 50, 41434644207817294 E 52, 14084327024162535 E 53, 46490233304573660 E 55, 14914313567877936 E 56, 46537544953811940 E 58, 14134701087252467 E 59, 41817693113082052 E 61, 12059114851948535 E 62, 33917968172639812 E 64, 93103695633462434 E 66, 24956165721489617 E 67, 65358513873897268 E 69, 16732795923555107 E 70, 41898207388294830 E 72, 10265781735694419 E 73, 24623992699162352 E 75, 57847777101071193 E 77, 13315599145230452 E 78, 30043970465292794 E 80, 66473163068881011 E 82, 14427499964979746 E 83, 30729019632173287 E 85, 64249621615711684 E 87, 13191754486579163 E 88, 26606352102627710 E 90, 52729620312158782 E 92, 10271682021321263 E 93, 19673097483891679 E 95, bnil.
Definition r229 := 21610155102698603 E 17, 12621218214900259 E 17, 50758080962790456 E 18, 15386677863433930 E 18, 37245678431233969 E 19, 74863830530705030 E 20, 12848864732533885 E 20, 19226770272375667 E 21, 25491040565025724 E 22, 30329037694173081 E 23, 32721016374675307 E 24, 32286547285511160 E 25, 29347979970775129 E 26, 24726784143351275 E 27, 19412967075398138 E 28, 14267736664621636 E 29, 98563730277135339 E 31, 64229681453659568 E 32, 39609486761201377 E 33, 23182074778834382 E 34, 12909739986773600 E 35, 68566505571604803 E 37, 34806626166577372 E 38, 16920524426940414 E 39, 78912277223696367 E 41, 35364671651656633 E 42, 15252813048728456 E 43, 63401276870248157 E 45, 25432141026935084 E 46, 98567763903213554 E 48, 36952947067844579 E 49, 13414944301610131 E 50, 47205102716275996 E 52, 16116019697735387 E 53, 53429364823093324 E 55, 17215449729113416 E 56, 53952999204582293 E 58, 16458716298961756 E 59, 48906522393131876 E 61, 14165101271138029 E 62, 40015824577047449 E 64, 11032315937844622 E 65, 29701308877016551 E 67, 78126428821374439 E 69, 20089193786965817 E 70, 50522837096793600 E 72, 12433193916838204 E 73, 29953504393917804 E 75, 70676398854031697 E 77, 16339813825766228 E 78, 37029039583822112 E 80, 82286818097479144 E 82, 17937994126261909 E 83, 38373413745500679 E 85, 80584460497922290 E 87, 16618137319358318 E 88, 33663884438755061 E 90, 67008932477312317 E 92, 13110487266349502 E 93, 25220243124911975 E 95, bnil.
Definition r230 := 21520612266421008 E 17, 12600860661222030 E 17, 50847070561314045 E 18, 15471496696320208 E 18, 37599067029481770 E 19, 75881829347952743 E 20, 13077573413304648 E 20, 19651100553612354 E 21, 26163826964441569 E 22, 31261975380772761 E 23, 33871686728146407 E 24, 33565271594342386 E 25, 30641513380402014 E 26, 25927878955759846 E 27, 20443808451003175 E 28, 15090308275584041 E 29, 10469729695512517 E 30, 68522190718250693 E 32, 42439803604808293 E 33, 24946318008085169 E 34, 13952524327257830 E 35, 74426816016870161 E 37, 37945680625572263 E 38, 18526696683753564 E 39, 86778706597580203 E 41, 39059191225605095 E 42, 16919561906458255 E 43, 70635528114321353 E 45, 28457357381422094 E 46, 11077286471008808 E 47, 41709477529947681 E 49, 15207647848765188 E 50, 53746465938681587 E 52, 18429213920392431 E 53, 61364518408001597 E 55, 19858397991955940 E 56, 62507215442019887 E 58, 19151351662655993 E 59, 57155672489495741 E 61, 16626524868288861 E 62, 47174028851418390 E 64, 13062533658907134 E 65, 35320430144839238 E 67, 93312140752411396 E 69, 24098642840146963 E 70, 60870631842723822 E 72, 15045024112753702 E 73, 36403908545799012 E 75, 86271047062854473 E 77, 20032175812569214 E 78, 45594652230483247 E 80, 10176354835262498 E 81, 22280576916437324 E 83, 47871125411048233 E 85, 10096833906187642 E 86, 20912551289456609 E 88, 42548056238011747 E 90, 85062681725752529 E 92, 16715375135486254 E 93, 32295166974690620 E 95, bnil.
Definition r231 := 21431757661013262 E 17, 12580468459760216 E 17, 50934869340519467 E 18, 15556049661412923 E 18, 37953249119954029 E 19, 76906948480746343 E 20, 13308927005510190 E 20, 20082250731132259 E 21, 26850445282690472 E 22, 32218277417389994 E 23, 35056342423117795 E 24, 34887521455562632 E 25, 31984919896452584 E 26, 27180728191264492 E 27, 21523759497462319 E 28, 15955825938537475 E 29, 11117923362416498 E 30, 73078277942470968 E 32, 45457007496654009 E 33, 26835251492991025 E 34, 15073874225358329 E 35, 80756114649401500 E 37, 41350719192676960 E 38, 20276557275812152 E 39, 95386207258284849 E 41, 43119372539609118 E 42, 18759256044652457 E 43, 78655207722533624 E 45, 31825634525403891 E 46, 12442123127730819 E 47, 47051645052446488 E 49, 17229845483043472 E 50, 61157371418809238 E 52, 21061317577675009 E 53, 70432990054892244 E 55, 22891976863044516 E 56, 72368527785743718 E 58, 22268948069197579 E 59, 66748340297095542 E 61, 19501303499062599 E 62, 55570754846816372 E 64, 15454396932189268 E 65, 41969332889588912 E 67, 11135912210655984 E 68, 28884304001450916 E 70, 73275520883128150 E 72, 18189714158015839 E 73, 44204143064402392 E 75, 10521122871989025 E 76, 24536199340274028 E 78, 56088690144413636 E 80, 12572913495761462 E 81, 27647284524884558 E 83, 59659844503012888 E 85, 12637936908881312 E 86, 26289391841362497 E 88, 53719980967369930 E 90, 10786433081953948 E 91, 21288135131687782 E 93, 41308723978011442 E 95, bnil.
Definition r232 := 21343584102854790 E 17, 12560043439018145 E 17, 51021486213658145 E 18, 15640334791780446 E 18, 38308208936308594 E 19, 77939166993659908 E 20, 13542935513836252 E 20, 20520283385430068 E 21, 27551091118748967 E 22, 33198385876057656 E 23, 36275785818450860 E 24, 36254526452884691 E 25, 33379838671172560 E 26, 28487271239702703 E 27, 22654886634613332 E 28, 16866294643602422 E 29, 11802741255837206 E 30, 77912684868460518 E 32, 48672417922908128 E 33, 28857007761571265 E 34, 16279280647365151 E 35, 87589376141473102 E 37, 45042828040387924 E 38, 22182175278964137 E 39, 10480053558988148 E 40, 47579400066762443 E 42, 20788889139505196 E 43, 87541256685909776 E 45, 35573976897276643 E 46, 13967551587664352 E 47, 53048290716450580 E 49, 19509632045864828 E 50, 69548522938314205 E 52, 24054498492321816 E 53, 80790223419268591 E 55, 26371699522105221 E 56, 83729192136274620 E 58, 25876134398104243 E 59, 77895590679029962 E 61, 22856457219295141 E 62, 65413078843943101 E 64, 18270209125346115 E 65, 49830679989330829 E 67, 13278956841275266 E 68, 34591834548586087 E 70, 88134153090496881 E 72, 21972776020501402 E 73, 53628525555925857 E 75, 12819435100709939 E 76, 30025350371406600 E 78, 68933473941892658 E 80, 15519043255050672 E 81, 34273283693550653 E 83, 74277902971418290 E 85, 15802581732715815 E 86, 33014658227645217 E 88, 67754255234982509 E 90, 13663220951132464 E 91, 27082416868996954 E 93, 52779611641704832 E 95, bnil.
Definition r233 := 21256084497817374 E 17, 12539587391531390 E 17, 51106930065752419 E 18, 15724350169064105 E 18, 38663930771477770 E 19, 78978463501691305 E 20, 13779608779754344 E 20, 20965261039202610 E 21, 28265961288571729 E 22, 34202748101722571 E 23, 37530833008551006 E 24, 37667543307143363 E 25, 34827952939662674 E 26, 29849508862116165 E 27, 23839331403452199 E 28, 17823801661771849 E 29, 12526052298322537 E 30, 83040895907303875 E 32, 52097977482902961 E 33, 31020205033350067 E 34, 17574588201658141 E 35, 94963991805715900 E 37, 49044649530293401 E 38, 24256567424807817 E 39, 11509292231194567 E 40, 52476466501645154 E 42, 23027031263656816 E 43, 97382511352839461 E 45, 39743176076682731 E 46, 15671580043966019 E 47, 59775965352480846 E 49, 22078385162010802 E 50, 79044098975221032 E 52, 27456263344007977 E 53, 92612106185167109 E 55, 30360653979956418 E 56, 96808649677652197 E 58, 30046999404411032 E 59, 90840435985826738 E 61, 26769486348122366 E 62, 76941500776590888 E 64, 21582644672331451 E 65, 59118467427376829 E 67, 15821791099560498 E 68, 41393364640206432 E 70, 10591730554611685 E 71, 26519984856074057 E 73, 65005476808378395 E 75, 15605899868267600 E 76, 36709116448911399 E 78, 84641238803495886 E 80, 19137396752232233 E 81, 42446293628150942 E 83, 92386794603394439 E 85, 19739883244487638 E 86, 41418051928726281 E 88, 85366174978673124 E 90, 17288956236714761 E 91, 34416728793433908 E 93, 67361988101814288 E 95, bnil.
Definition r234 := 21169251840019984 E 17, 12519102074501387 E 17, 51191209752746193 E 18, 15808093922906791 E 18, 39020398978967148 E 19, 80024816176558545 E 20, 14018956481062956 E 20, 21417246150976838 E 21, 28995253812907301 E 22, 35231816724077916 E 23, 38822313951070430 E 24, 39127856286084132 E 25, 36330990919287554 E 26, 31269504752906757 E 27, 25079312747204377 E 28, 18830519440560221 E 29, 13289810372716437 E 30, 88479171344724220 E 32, 55746282693588325 E 33, 33333973520420221 E 34, 18966015955464478 E 35, 10291992323886118 E 36, 53380488494246886 E 38, 26513767300184500 E 39, 12634049814980376 E 40, 57851020952083629 E 42, 25493966449327708 E 43, 10827643010204167 E 44, 44378177480312827 E 46, 17574136794634176 E 47, 67319750252289850 E 49, 24971130575705163 E 50, 89783317699018432 E 52, 31320103755596767 E 53, 10609754410458543 E 54, 34930493988260583 E 56, 11185721712813030 E 57, 34866422647254298 E 59, 10586248949471563 E 60, 31329950275233249 E 62, 90435146705925959 E 64, 25476415489642938 E 65, 70083217021536585 E 67, 18836657033486685 E 68, 49492153445073349 E 70, 12718330018616425 E 71, 31981150453904059 E 73, 78727869366098387 E 75, 18981266812828817 E 76, 44840270184076666 E 78, 10383273411759003 E 79, 23577252980085086 E 81, 52518008668567152 E 83, 11479859574176280 E 84, 24633692632864513 E 86, 51907836539235776 E 88, 10744530919339255 E 89, 21853894563288425 E 91, 43690613128958218 E 93, 85879988093122040 E 95, bnil.
Definition r235 := 21083079210602218 E 17, 12498589210418115 E 17, 51274334100684514 E 18, 15891564230384337 E 18, 39377597974119948 E 19, 81078202752990036 E 20, 14260988131458815 E 20, 21876301108774679 E 21, 29739167904943841 E 22, 36286049668766641 E 23, 40151072594100607 E 24, 40636777616609883 E 25, 37890726720581871 E 26, 32749387131005232 E 27, 26377129346946813 E 28, 19888708583682374 E 29, 14096057698283640 E 30, 94244581837252071 E 32, 59630616139719397 E 33, 35807983003431500 E 34, 20460179359903887 E 35, 11149986487579649 E 36, 58076425183673149 E 38, 28968899216709932 E 39, 13862675025327795 E 40, 63747036239217463 E 42, 28211841497616382 E 43, 12032988289114260 E 44, 49528480540465957 E 46, 19697264405498347 E 47, 75774160704170097 E 49, 28226946118013741 E 50, 10192217502687527 E 51, 35706216963141633 E 53, 12147134472673712 E 54, 40162554014586336 E 56, 12916025713587406 E 57, 40431585144561941 E 59, 12328327025092280 E 60, 36641275110648209 E 62, 10621775129682595 E 63, 30050195572065564 E 65, 83017999743324199 E 67, 22408430863183565 E 68, 59128037070207969 E 70, 15259377019686535 E 71, 38534568443112870 E 73, 95265294333546121 E 75, 23066478487830633 E 76, 54723553989944472 E 78, 12725955896582804 E 79, 29020136545989805 E 81, 64917934468572631 E 83, 14250932372240267 E 84, 30710475819028642 E 86, 64989072440207592 E 88, 13509687696547272 E 89, 27595431278139509 E 91, 55404753300683900 E 93, 10937081628789594 E 94, bnil.
Definition r236 := 20997559776516111 E 17, 12478050487671979 E 17, 51356311904924082 E 18, 15974759315439860 E 18, 39735512235346644 E 19, 82138600535005039 E 20, 14505713080137822 E 20, 22342488223814323 E 21, 30497903957787117 E 22, 37365910167953059 E 23, 41517967002829706 E 24, 42195647899440812 E 25, 39508981269670522 E 26, 34291350360341907 E 27, 27735162012680831 E 28, 21000720916630475 E 29, 14946928320860278 E 30, 10035504424109086 E 31, 63764980020536382 E 33, 38452471736855743 E 34, 22064113335953239 E 35, 12074941592004081 E 36, 63160435267814907 E 38, 31638257039384322 E 39, 15204201141388453 E 40, 70212296671007334 E 42, 31204826891107864 E 43, 13366000877354816 E 44, 55248575238597417 E 46, 22065332439338286 E 47, 85244140251708103 E 49, 31889408176442087 E 50, 11563537391775225 E 51, 40682309264553896 E 53, 13898744634924492 E 54, 46149103122130623 E 56, 14904288859769929 E 57, 46853683011744899 E 59, 14347224681517207 E 60, 42822822048911259 E 62, 12466453279953361 E 63, 35418842291698461 E 65, 98265417712803568 E 67, 26636759544610187 E 68, 70583798350801269 E 70, 18293217401225179 E 71, 46392269805897656 E 73, 11517859070594163 E 74, 28006597997372513 E 76, 66726055724116112 E 78, 15583096154320645 E 79, 35686589099790837 E 81, 80170133102433016 E 83, 17673948284606674 E 84, 38248930699328563 E 86, 81285972049325913 E 88, 16969269348985649 E 89, 34809488504763472 E 91, 70185945458297696 E 93, 13913849590468333 E 94, bnil.
Definition r237 := 20912686789336007 E 17, 12457487561155131 E 17, 51437151929371087 E 18, 16057677448321175 E 18, 40094126305321555 E 19, 83205986402185678 E 20, 14753140511425590 E 20, 22815869724250373 E 21, 31271663531775412 E 22, 38471866770262103 E 23, 42923869485643570 E 24, 43805836526145509 E 25, 41187623242218810 E 26, 35897656599910889 E 27, 29155876130765400 E 28, 22169002640047204 E 29, 15844651720156220 E 30, 10682935881701683 E 31, 68164131145295962 E 33, 41278276739870915 E 34, 23785296576152689 E 35, 13071726213843064 E 36, 68662517281301053 E 38, 34539388279574002 E 39, 16668398425558484 E 40, 77298707744214608 E 42, 34499290727496083 E 43, 14839514686050347 E 44, 61598418096550538 E 46, 24705270424265714 E 47, 95846154285716690 E 49, 36007084904025453 E 50, 13111846488948781 E 51, 46324491296744539 E 53, 15893253160235912 E 54, 52994754285579786 E 56, 17187530378684779 E 57, 54259870221539894 E 59, 16685371868368629 E 60, 50012252578517155 E 62, 14621008862907629 E 63, 41715958453124042 E 65, 11622569197527723 E 66, 31638546379040297 E 68, 84192609179916618 E 70, 21912551982997240 E 71, 55806207226787832 E 73, 13913704131142763 E 74, 33975477481357037 E 76, 81289594481165744 E 78, 19064596819456519 E 79, 43844322300414051 E 81, 98913471246770438 E 83, 21898330325870230 E 84, 47591716470223572 E 86, 10156928172474790 E 87, 21293383949266897 E 89, 43864582673600944 E 91, 88818080681300901 E 93, 17682084097989836 E 94, bnil.
Definition r238 := 20828453584086176 E 17, 12436902052852405 E 17, 51516862905747453 E 18, 16140316945021150 E 18, 40453424792145625 E 19, 84280336815936924 E 20, 15003279444436853 E 20, 23296507748952579 E 21, 32060649341632446 E 22, 39604393350082995 E 23, 44369666719644406 E 24, 45468742098496231 E 25, 42928570008923479 E 26, 37570637483712829 E 27, 30641824168621904 E 28, 23396097572816158 E 29, 16791556537395678 E 30, 11368724785575548 E 31, 72843617431636358 E 33, 44296865531245920 E 34, 25631677119134902 E 35, 14145536803032428 E 36, 74614827941851926 E 38, 37691183774716340 E 39, 18265830270618576 E 40, 85062629325156808 E 42, 38123986656401259 E 43, 16467584661620466 E 44, 68643950975810066 E 46, 27646822876040379 E 47, 10770939234862615 E 48, 40634080804252660 E 50, 14859021972201709 E 51, 52718275130347517 E 53, 18163006935805445 E 54, 60818047550210933 E 56, 19807876708914885 E 57, 62795459841706876 E 59, 19391464679527318 E 60, 58368231471441150 E 62, 17135745729612559 E 63, 49096845448856646 E 65, 13736602490284320 E 66, 37550840698344092 E 68, 10034671982067822 E 69, 26226983888780827 E 71, 67075540045690039 E 73, 16793870927149864 E 74, 41181302864951545 E 76, 98945494175150064 E 78, 23303187052968444 E 79, 53818025998266221 E 81, 12192608340627213 E 82, 27106848440285918 E 84, 59159746163139274 E 86, 12678979016245201 E 87, 26692768046133435 E 89, 55219187112563176 E 91, 11228054768871842 E 92, 22447282394902489 E 94, bnil.
Definition r239 := 20744853578085953 E 17, 12416295552422021 E 17, 51595453532884361 E 18, 16222676166721392 E 18, 40813392370476764 E 19, 85361627825735354 E 20, 15256138732763918 E 20, 23784464341324649 E 21, 32865065243463435 E 22, 40763969116237675 E 23, 45856259875566890 E 24, 47185792850105566 E 25, 44733788592557852 E 26, 39312695830864399 E 27, 32195648237631344 E 28, 24684650486820782 E 29, 17790074426549295 E 30, 12094939576943603 E 31, 77819815962443187 E 33, 47520369368720781 E 34, 27611699256407187 E 35, 15301917990511199 E 36, 81051825780325922 E 38, 41113973295029995 E 39, 20007913319582848 E 40, 93565233960555202 E 42, 42110256870228821 E 43, 18265596381343120 E 44, 76457666301181235 E 46, 30922828341735829 E 47, 12097708936474755 E 48, 45830637762608940 E 50, 16829526247290899 E 51, 59959684202758011 E 53, 20744483337800058 E 54, 69753227519397826 E 56, 22813237895264992 E 57, 72626416705526784 E 59, 22521355873763569 E 60, 68073513903571799 E 62, 20068851244019049 E 63, 57741905013521600 E 65, 16223143088967062 E 66, 44534195019475035 E 68, 11950759702099200 E 69, 31366003289717900 E 71, 80555206584954163 E 73, 20253447037008138 E 74, 49873174252298630 E 76, 12033219129628436 E 77, 28459029151555171 E 79, 66001157913093185 E 81, 15015490263976785 E 82, 33522862149129798 E 84, 73469587178346372 E 86, 15811929716610278 E 87, 33428243461848949 E 89, 69443141461303232 E 91, 14179578795078784 E 92, 28467025143543954 E 94, bnil.
Definition r240 := 20661880269812083 E 17, 12395669617766215 E 17, 51672932476043175 E 18, 16304753519238976 E 18, 41174013782627585 E 19, 86449835075363480 E 20, 15511727064193313 E 20, 24279801443163769 E 21, 33685116221595760 E 22, 41951078620010668 E 23, 47384564742065915 E 24, 48958447070295808 E 25, 46605296636576880 E 26, 41126307386155923 E 27, 33820082715146857 E 28, 26037410535346170 E 29, 18842744032472932 E 30, 12863749069586994 E 31, 83109972658582367 E 33, 50961618055538472 E 34, 29734331833236476 E 35, 16546784042617019 E 36, 88010423547630383 E 38, 44829627436317225 E 39, 21906981817587149 E 40, 10287289207677257 E 41, 46492251272977590 E 43, 20250384894705436 E 44, 85119222610983268 E 46, 34569524596909737 E 47, 13580797691347469 E 48, 51663798068258757 E 50, 19050698429544401 E 51, 68156488242670965 E 53, 23678795132074490 E 54, 79952237956832356 E 56, 26258069844934676 E 57, 83942178489329276 E 59, 26139067019273828 E 60, 79338469159106786 E 62, 23487587734489122 E 63, 67860555206037165 E 65, 19145725734603784 E 66, 52776562648763698 E 68, 14221774426943941 E 69, 37482482179902422 E 71, 96666003976071478 E 73, 24405639174734825 E 74, 60348909412766249 E 76, 14621620408458078 E 77, 34725227876694250 E 79, 80870103492423106 E 81, 18475127862671900 E 82, 41419093233546367 E 84, 91154627158095529 E 86, 19700065911318292 E 87, 41822318248467527 E 89, 87244026648182195 E 91, 17888812880219502 E 92, 36063857112160031 E 94, bnil.
Definition r241 := 20579527237778017 E 17, 12375025775592101 E 17, 51749308366260183 E 18, 16386547452476551 E 18, 41535273839631631 E 19, 87544933809130543 E 20, 15770052960450864 E 20, 24782580888561733 E 21, 34521008375268574 E 22, 43166211762540942 E 23, 48955511849355629 E 24, 50788193530157217 E 25, 48545163385291045 E 26, 43014022591341304 E 27, 35517956926553000 E 28, 27457234777128629 E 29, 19952215099336573 E 30, 13677426766360272 E 31, 88732243626634657 E 33, 54634176379024809 E 34, 32009098008001520 E 35, 17886441520478491 E 36, 95530149886366499 E 38, 48861666177702274 E 39, 23976356470642711 E 40, 11305758593909775 E 41, 51307164028660264 E 43, 22440363540505936 E 44, 94716114642564315 E 46, 38626882306080466 E 47, 15237787664121044 E 48, 58208135483633046 E 50, 21553077113229722 E 51, 77429576581952579 E 53, 27012254346624506 E 54, 91586958836816989 E 56, 30204232873463202 E 57, 96958846658639248 E 59, 30317938202043237 E 60, 92405100243813291 E 62, 27469657390749746 E 63, 79695735484313079 E 65, 22578365031966813 E 66, 62497819699834095 E 68, 16911447379404446 E 69, 44756763444234614 E 71, 11590643199682705 E 72, 29385121807564887 E 74, 72964290658401388 E 76, 17751708540265103 E 77, 42334414158814806 E 79, 99001168613900007 E 81, 22711390218542137 E 82, 51128242658360779 E 84, 11299079767840136 E 85, 24520886801677125 E 87, 52273405116707450 E 89, 10949962723002413 E 90, 22545650098455521 E 92, 45641274866609734 E 94, bnil.
Definition r242 := 20497788139429890 E 17, 12354365521962724 E 17, 51824589799719746 E 18, 16468056459875775 E 18, 41897157422277707 E 19, 88646898878076599 E 20, 16031124776974307 E 20, 25292864397848419 E 21, 35372948905173604 E 22, 44409863801573395 E 23, 50570046592175011 E 24, 52676551910745133 E 25, 50555510675610886 E 26, 44978468387437541 E 27, 37292197888305261 E 28, 28947091798080397 E 29, 21121252712789910 E 30, 14538355336687037 E 31, 94705738242544631 E 33, 58552382248400877 E 34, 34446106536965783 E 35, 19327613205388592 E 36, 10365332077942467 E 37, 53235374503857294 E 39, 26230418102403451 E 40, 12419735436271385 E 41, 56595488773679822 E 43, 24855663523323056 E 44, 10534440249104247 E 45, 43138969647766450 E 47, 17088144896725588 E 48, 65546560978794820 E 50, 24370757617833649 E 51, 87914484613556842 E 53, 30797001683614894 E 54, 10485171399374051 E 55, 34721958178626363 E 57, 11192279375178206 E 58, 35141933239385001 E 60, 10755162646615544 E 61, 32104764896227512 E 63, 93529086220406540 E 65, 26607225592219997 E 66, 73955008063569069 E 68, 20094594160043007 E 69, 53401441923291548 E 71, 13886659962298168 E 72, 35351985534120502 E 74, 88144013830941763 E 76, 21533709321534590 E 77, 51566606482080118 E 79, 12109095542473057 E 80, 27894049240244732 E 82, 63055828627367758 E 84, 13992781036663201 E 85, 30492553140994142 E 87, 65273232319996748 E 89, 13729784962593247 E 90, 28386423375949387 E 92, 57703552127583372 E 94, bnil.
Definition r243 := 20416656710058917 E 17, 12333690322838649 E 17, 51898785337149075 E 18, 16549279077874068 E 18, 42259649482113684 E 19, 89755704746160745 E 20, 16294950702713625 E 20, 25810713571578479 E 21, 36241146099851045 E 22, 45682535357570010 E 23, 52229129352059115 E 24, 54625073233370754 E 25, 52638513940366796 E 26, 47022350048314084 E 27, 39145833112892192 E 28, 30510065432748116 E 29, 22352741679381166 E 30, 15449031260083922 E 31, 10105056403395291 E 32, 62731386601387336 E 34, 37056084654115077 E 35, 20877463353885690 E 36, 11242522131321255 E 37, 57977925513014020 E 39, 28684686417308053 E 40, 13637677029405022 E 41, 62401293865443046 E 43, 27518285090277671 E 44, 11710950473226041 E 45, 48154350611648500 E 47, 19153411138547998 E 48, 73771210355166654 E 50, 27541787208493763 E 51, 99763089648379766 E 53, 35091708734726550 E 54, 11996608063773481 E 55, 39890935223807263 E 57, 12911473905445057 E 58, 40707120581790144 E 60, 12509770474524145 E 61, 37496405353603182 E 63, 10968689989760258 E 64, 31332549072264852 E 66, 87448410256376906 E 68, 23858980475596424 E 69, 63666950694526367 E 71, 16624454189444662 E 72, 42496389244312681 E 74, 10639464301843927 E 75, 26099644359570437 E 77, 62758590559752457 E 79, 14798077533399337 E 80, 34228998430162907 E 82, 77695697486987314 E 84, 17312705440102736 E 85, 37882961423642246 E 87, 81428144883825698 E 89, 17198576431090733 E 90, 35704983602079694 E 92, 72880300894071901 E 94, bnil.
Definition r244 := 20336126761729967 E 17, 12313001614610211 E 17, 51971903503239714 E 18, 16630213885364925 E 18, 42622735042419490 E 19, 90871325496430684 E 20, 16561538759958286 E 20, 26336189884561881 E 21, 37125809321942951 E 22, 46984732419178861 E 23, 53933735618891991 E 24, 56635340291934916 E 25, 54796403223201061 E 26, 49148453045844448 E 27, 41081993476663218 E 28, 32149358587585846 E 29, 23649691046809729 E 30, 16412069640873343 E 31, 10778787342584079 E 32, 67187195151579708 E 34, 39850412618472256 E 35, 22543624349109791 E 36, 12189429831972918 E 37, 63118511454838865 E 39, 31355904196577282 E 40, 14968745351561605 E 41, 68772519132938533 E 43, 30452261210194198 E 44, 13012706077951532 E 45, 53726519897588514 E 47, 21457414190378026 E 48, 82984421643397508 E 50, 31108602123750854 E 51, 11314549406125418 E 52, 39962361029415776 E 54, 13717803544730435 E 55, 45801534503440938 E 57, 14885435094408271 E 58, 47123352595858327 E 60, 14541037518549603 E 61, 43763908751000346 E 63, 12854695471625845 E 64, 36870876207513967 E 66, 10332858352533234 E 67, 28307491514340484 E 69, 75848083680514713 E 71, 19886535132136075 E 72, 51044037537061963 E 74, 12831992706207461 E 75, 31607516483126888 E 77, 76315101846655229 E 79, 18068587585161595 E 80, 41965728964927510 E 82, 95648748444263739 E 84, 21400753713474662 E 85, 47020789807298279 E 87, 10148514252901545 E 88, 21522980336198189 E 90, 44866354310888410 E 92, 91956871246493323 E 94, bnil.
Definition r245 := 20256192182226032 E 17, 12292300804620482 E 17, 52043952786091148 E 18, 16710859503161646 E 18, 42986399199150304 E 19, 91993734837173956 E 20, 16830896804191617 E 20, 26869354679939281 E 21, 38027148994308086 E 22, 48316966348061915 E 23, 55684856111720866 E 24, 58708968087257755 E 25, 57031464205033037 E 26, 51359644946896238 E 27, 43103916151474476 E 28, 33868297168154907 E 29, 25015238768665100 E 30, 17430209199374332 E 31, 11493991241605935 E 32, 71936712051087989 E 34, 42841160004176944 E 35, 24334224817961470 E 36, 13211236448944122 E 37, 68688483166159865 E 39, 34262127272645085 E 40, 16422862086966530 E 41, 75761295694335279 E 43, 33683834722573681 E 44, 14452386814951073 E 45, 59914377585468722 E 47, 24026498450450697 E 48, 93299810877157536 E 50, 35118510610197240 E 51, 12825211540977938 E 52, 45483130788168349 E 54, 15676747575430953 E 55, 52556181817440569 E 57, 17150544111912405 E 58, 54516168729169475 E 60, 16891082744852541 E 61, 51044776379651337 E 63, 15054635661696010 E 64, 43357607375064170 E 66, 12200449939055270 E 67, 33560652704649912 E 69, 90291606314244894 E 71, 23770359358952986 E 72, 61262625158032924 E 74, 15463889511661349 E 75, 38246275128807761 E 77, 92722147145400314 E 79, 22043040295782708 E 80, 51406310068958353 E 82, 11764551943415050 E 83, 26430152819131700 E 85, 58308932707494878 E 87, 12636367980974988 E 88, 26908958508164001 E 90, 56323546939277599 E 92, 11591194304906685 E 93, bnil.
Definition r246 := 20176846934008363 E 17, 12271589271679299 E 17, 52114941636677618 E 18, 16791214593464537 E 18, 43350627121849748 E 19, 93122906108048594 E 20, 17103032523971319 E 20, 27410269163302558 E 21, 38945376586000311 E 22, 49679753883079016 E 23, 57483496898807530 E 24, 60847604263352686 E 25, 59346039242089566 E 26, 53658877342427076 E 27, 45214947601105473 E 28, 35670334112384605 E 29, 26452656517369520 E 30, 18506317444987376 E 31, 12253007124926229 E 32, 76997785545492464 E 34, 46041123811575535 E 35, 26257919286655634 E 36, 14313481457581085 E 37, 74721498397566244 E 39, 37422820647695670 E 40, 18010767654641470 E 41, 83424290512139820 E 43, 37241649993458950 E 44, 16043890074786571 E 45, 66782747002262991 E 47, 26889777495858100 E 48, 10484345562296162 E 49, 39624226563039910 E 51, 14529600517327970 E 52, 51737349179168888 E 54, 17905015853774110 E 55, 60270902015980462 E 57, 19748182365248560 E 58, 63028951198311356 E 60, 19608209679562633 E 61, 59497349309379015 E 63, 17619053303686745 E 64, 50949951411558579 E 66, 14395295627887502 E 67, 39759556834480222 E 69, 10740512973929016 E 70, 28390955311909086 E 72, 73469413780209437 E 74, 18620721990801242 E 75, 46241702659824264 E 77, 11256286237817363 E 78, 26868919192000366 E 80, 62916167765635260 E 82, 14457340814572550 E 83, 32612190055474328 E 85, 72240826753905233 E 87, 15719447004905424 E 88, 33610837063186286 E 90, 70638249606162350 E 92, 14596396840787624 E 93, bnil.
Definition r247 := 20098085053192011 E 17, 12250868366568304 E 17, 52184878468337484 E 18, 16871277859331932 E 18, 43715404054534331 E 19, 94258812286193813 E 20, 17377953440836456 E 20, 27958994396861734 E 21, 39880704598115233 E 22, 51073617143830150 E 23, 59330679516897234 E 24, 63052929545597107 E 25, 61742528415497482 E 26, 56049187808957991 E 27, 47418546643408399 E 28, 37559053532059883 E 29, 27965354649115395 E 30, 19643396036722954 E 31, 13058293715979635 E 32, 82389255700827010 E 34, 49463868480638190 E 35, 28323919450453544 E 36, 15502085434251422 E 37, 81253679550164775 E 39, 40858961143144319 E 40, 19744084514160644 E 41, 91823077468506585 E 43, 41156960189595946 E 44, 17802441475046008 E 45, 74402939489764785 E 47, 30079410689243726 E 48, 11775519649076017 E 49, 44684458806923760 E 51, 16451541990825543 E 52, 58818588894939040 E 54, 20438210457963719 E 55, 69077052209356163 E 57, 22725392040625550 E 58, 72825365351494053 E 60, 22747781252913591 E 61, 69303854320980343 E 63, 20606354130577989 E 64, 59830319442995775 E 66, 16972945741379241 E 67, 47069260809799555 E 69, 12766745135672647 E 70, 33883994163509535 E 72, 88040133795788346 E 74, 22404242052481562 E 75, 55863387257563241 E 77, 13653637506815623 E 78, 32723768155235041 E 80, 76937011912904601 E 82, 17750945295839184 E 83, 40204356030386442 E 85, 89420273690713873 E 87, 19536679498830457 E 88, 41942380274900921 E 90, 88506259008838641 E 92, 18362849661571051 E 93, bnil.
Definition r248 := 20019900648536584 E 17, 12230139412537373 E 17, 52253771656284732 E 18, 16951048044154562 E 18, 44080715316548750 E 19, 95401425992317564 E 20, 17655666909240024 E 20, 28515591293658348 E 21, 40833346549506218 E 22, 52499083633553331 E 23, 61227441089680812 E 24, 65326658180746200 E 25, 64223390592425604 E 26, 58533701902686125 E 27, 49718287579150497 E 28, 39538174964723168 E 29, 29556887324654394 E 30, 20844586336853619 E 31, 13912434925613558 E 32, 88131004285003903 E 34, 53123767891175752 E 35, 30542027136659280 E 36, 16783374293582073 E 37, 88323781369256203 E 39, 44593146989157530 E 40, 21635385035625957 E 41, 10102453686221843 E 42, 45463851361526418 E 44, 19744714915579172 E 45, 82853370074289964 E 47, 33630905969865411 E 48, 13219006776616323 E 49, 50364561525551586 E 51, 18617667096759347 E 52, 66831868983972057 E 54, 23316452025191394 E 55, 79123266690280750 E 57, 26135620390981998 E 58, 84092120778744885 E 60, 26373213710407256 E 61, 80673878657254013 E 63, 24083987675105562 E 64, 70210228473280115 E 66, 19998077408751288 E 67, 55682724838092118 E 69, 15164059597258454 E 70, 40409380409887752 E 72, 10541943550557860 E 73, 26935357347539651 E 75, 67432976895296355 E 77, 16548022401188140 E 78, 39821148522056683 E 80, 94002327533152726 E 82, 21775977778306607 E 83, 49520183200813531 E 85, 11058548916794236 E 86, 24258613549033524 E 88, 52290335652377978 E 90, 11078871519544985 E 91, 23078886782700149 E 93, bnil.
Definition r249 := 19942287900451880 E 17, 12209403705792343 E 17, 52321629537141215 E 18, 17030523931133815 E 18, 44446546303393156 E 19, 96550719496762386 E 20, 17936180116507201 E 20, 29080120611826532 E 21, 41803516962375139 E 22, 53956686241380424 E 23, 63174834445431679 E 24, 67670538378741544 E 25, 66791144498769046 E 26, 61115635186503959 E 27, 52117863388521881 E 28, 41611557738210227 E 29, 31230957789870333 E 30, 22113175163508405 E 31, 14818145562157453 E 32, 94244006888903674 E 34, 57036049437607154 E 35, 32922669043405155 E 36, 18164104939743182 E 37, 95973369170513893 E 39, 48649714786740966 E 40, 23698264238911918 E 41, 11110128535511313 E 42, 50199484610722496 E 44, 21888962861768895 E 45, 92220228359981817 E 47, 37583451170787087 E 48, 14831986929859677 E 49, 56737251865010319 E 51, 21057728150160461 E 52, 75894995100628473 E 54, 26584929504390415 E 55, 90577638310481480 E 57, 30039557943997478 E 58, 97042093621691905 E 60, 30557105161032759 E 61, 93848331668274621 E 63, 28129799063917566 E 64, 82334788549436783 E 66, 23545944631908535 E 67, 65825377708195573 E 69, 17998382794460524 E 70, 48155447315745487 E 72, 12613315085698861 E 73, 32357631352239066 E 75, 81333942643716883 E 77, 20039698713079932 E 78, 48417743272162110 E 80, 11475592466691116 E 81, 26690701777883424 E 83, 60941123396002831 E 85, 13663825416346395 E 86, 30094431567108226 E 88, 65130987430542510 E 90, 13855042962098452 E 91, 28978331525695145 E 93, bnil.
Definition r250 := 19865241060018290 E 17, 12188662515974392 E 17, 52388460408490177 E 18, 17109704342763550 E 18, 44812882487522470 E 19, 97706664725546837 E 20, 18219500082818581 E 20, 29652642948901991 E 21, 42791431347738987 E 22, 55446963243948749 E 23, 65173928233792994 E 24, 70086352756260269 E 25, 69448369803358469 E 26, 63798295290181221 E 27, 54621088996276385 E 28, 43783205450060498 E 29, 32991423820135507 E 30, 23452600748162488 E 31, 15778277270802217 E 32, 10075038737521037 E 33, 61216840269394723 E 35, 35476933340306658 E 36, 19651492406723499 E 37, 10424700820438266 E 38, 53054864299552433 E 40, 25947417725991557 E 41, 12213213852964945 E 42, 55404357705868263 E 44, 24255157673928388 E 45, 10259820931155629 E 46, 41980276401106485 E 48, 16633489285638392 E 49, 63883401297736570 E 51, 23804948226885039 E 52, 86140049684671194 E 54, 30294513915794657 E 55, 10363016381441201 E 56, 34506081986329935 E 58, 11191785542222109 E 59, 35382516285835126 E 61, 10910395898208404 E 62, 32833575639900435 E 64, 96487857614640929 E 66, 27704050922514105 E 67, 77760404291822553 E 69, 21346994625280380 E 70, 57343855801971692 E 72, 15080266946913987 E 73, 38841403698498732 E 75, 98023118964891952 E 77, 24248588401511167 E 78, 58821822786806367 E 80, 13997413346959113 E 81, 32686729578091980 E 83, 74930875357390951 E 85, 16867922269546816 E 86, 37300480603116499 E 88, 81050369381467263 E 90, 17310687641567846 E 91, 36351218929729026 E 93, bnil.
Definition r251 := 19788754448021617 E 17, 12167917086631123 E 17, 52454272528449697 E 18, 17188588140315743 E 18, 45179709419118147 E 19, 98869233266382487 E 20, 18505633661218383 E 20, 30233218736179760 E 21, 43797306190777237 E 22, 56970458306370665 E 23, 67225807041696796 E 24, 72575918781954588 E 25, 72197708213682574 E 26, 66585084003970563 E 27, 57231904606485463 E 28, 46057270564074884 E 29, 34842303332525630 E 30, 24866458904118128 E 31, 16795824710195665 E 32, 10767347474603539 E 33, 65683215791757953 E 35, 38216608220768159 E 36, 21253238566108925 E 37, 11319246479600329 E 38, 57836791558510981 E 40, 28398725149975589 E 41, 13420260836139506 E 42, 61122587609284326 E 44, 26865144862071695 E 45, 11409130896217859 E 46, 46869050244849032 E 48, 18644581732639304 E 49, 71892907945584766 E 51, 26896408085490256 E 52, 97715048060957346 E 54, 34502443235063039 E 55, 11849548368745837 E 56, 39613317993423271 E 58, 12899565930125710 E 59, 40944422918100751 E 61, 12675848333041948 E 62, 38298815455442205 E 64, 11299795983374928 E 65, 32574077479307130 E 67, 91794865632937661 E 69, 25300422209704289 E 70, 68235310902236269 E 72, 18016178198428421 E 73, 46588637268102439 E 75, 11804433464537025 E 76, 29318025506206328 E 78, 71403325575824124 E 80, 17059234055417069 E 81, 39995861928012809 E 83, 92052653876957680 E 85, 20805065110893759 E 86, 46190637547056918 E 88, 10076892497612268 E 89, 21608175526602465 E 91, 45556983593323518 E 93, bnil.
Definition r252 := 19712822454002193 E 17, 12147168635679474 E 17, 52519074115266275 E 18, 17267174223329872 E 18, 45547012726833026 E 19, 10003839637466564 E 19, 18794587537646987 E 20, 30821908233121098 E 21, 44821358936061600 E 22, 58527720482559849 E 23, 69331571508391882 E 24, 75141089223327535 E 25, 75041864583102808 E 26, 69479499405889013 E 27, 59954379107881786 E 28, 48438059126315231 E 29, 36787780170038346 E 30, 26358509412212074 E 31, 17873931974382572 E 32, 11503786252338817 E 33, 70453250524865783 E 35, 41154222499546544 E 36, 22977562484584724 E 37, 12286091993098714 E 38, 63025830789496959 E 40, 31069339585415509 E 41, 14740543806084159 E 42, 67402215476583843 E 44, 29742809210698849 E 45, 12681369047934249 E 46, 52302312757569886 E 48, 20888578839937740 E 49, 80865657725532413 E 51, 30373474225014995 E 52, 11078577807192327 E 53, 39273086274099076 E 55, 13541595045374744 E 56, 45449833132505708 E 58, 14858994033768988 E 59, 47351362656022989 E 61, 14717645571294824 E 62, 44644748289648545 E 64, 13224507640749063 E 65, 38274104582258344 E 67, 10828677826536029 E 68, 29964639333474265 E 70, 81136227814353191 E 72, 21507640082015016 E 73, 55838616280678483 E 75, 14204450166559270 E 76, 35419197767069206 E 78, 86605853132744635 E 80, 20773669161695601 E 81, 48898292346258852 E 83, 11298998799967718 E 84, 25638806715990128 E 86, 57148893530194318 E 88, 12517156815673509 E 89, 26947744382689132 E 91, 57040665678427648 E 93, bnil.
Definition r253 := 19637439535317999 E 17, 12126418355860656 E 17, 52582873346927156 E 18, 17345461529106130 E 18, 45914778118509589 E 19, 10121412497944252 E 19, 19086368230997815 E 20, 31418771521810573 E 21, 45863807972672596 E 22, 60119304214916168 E 23, 71492338439561658 E 24, 77783752595192837 E 25, 77983608029543177 E 26, 72485138022929432 E 27, 62792713550778907 E 28, 50930035602871330 E 29, 38832210062036997 E 30, 27932682630131967 E 31, 19015899268449319 E 32, 12286947073968077 E 33, 75546071423428671 E 35, 44303088353159985 E 36, 24833232517252273 E 37, 13330719599195629 E 38, 68654605703067516 E 40, 33977783186511215 E 41, 16184117689867155 E 42, 74295535801363371 E 44, 32914254788164145 E 45, 14089062644809829 E 46, 58337948489068972 E 48, 23391269975015187 E 49, 90912582904648723 E 51, 34282272239835484 E 52, 12553784263377277 E 53, 44678794261101686 E 55, 15466506309218810 E 56, 52115977584925670 E 58, 17105839379198044 E 59, 54727300409882866 E 61, 17077591131839135 E 62, 52008643915703887 E 64, 15466843288066626 E 65, 44941169234963303 E 67, 12765329798615231 E 68, 35463619281264039 E 70, 96406500182913943 E 72, 25656763434015666 E 73, 66874640167346284 E 75, 17079259183313967 E 76, 42756406552500761 E 78, 10496093185204539 E 79, 25276193762920007 E 81, 59732440717276619 E 83, 13857174980899877 E 84, 31568269921417345 E 86, 70644620171738061 E 88, 15534429692423847 E 89, 33576115266036085 E 91, 71352808577563082 E 93, bnil.
Definition r254 := 19562600216221601 E 17, 12105667415187216 E 17, 52645678360792196 E 18, 17423449032202398 E 18, 46282991381871863 E 19, 10239638968934752 E 19, 19380982093197789 E 20, 32023868501463030 E 21, 46924872619205052 E 22, 61745769333368341 E 23, 73709240920509574 E 24, 80505833609664024 E 25, 81025773065629985 E 26, 75605697026447331 E 27, 65751244696550324 E 28, 53537827841742420 E 29, 40980126765210983 E 30, 29593086331867348 E 31, 20225189846465117 E 32, 13119561063862777 E 33, 80981913762432097 E 35, 47677346304840658 E 36, 26829600226873924 E 37, 14458999738690040 E 38, 74758190715169536 E 40, 37144049543161602 E 41, 17761879779781087 E 42, 81859451492403616 E 44, 36407999929918595 E 45, 15645952368865113 E 46, 65039703027196757 E 48, 26181169420220694 E 49, 10215682743673655 E 50, 38674210032217760 E 52, 14217892655580232 E 53, 50800849736049731 E 55, 17655130936416895 E 56, 59725391229464300 E 58, 19680770236503388 E 59, 63213740851649073 E 61, 19803593667650290 E 62, 60548446937537234 E 64, 18077542392068484 E 65, 52734208174165117 E 67, 15038017452882323 E 68, 41942295955375086 E 70, 11446854696765968 E 71, 30583876665040970 E 73, 80031881876523227 E 75, 20520200384465152 E 76, 51573291403155139 E 78, 12710495808965337 E 79, 30729658138249688 E 81, 72906730747131563 E 83, 16980225087956719 E 84, 38835684640151725 E 86, 87251074179784796 E 88, 19261875129343205 E 89, 41797019372653617 E 91, 89173868216550778 E 93, bnil.
Definition r255 := 19488299086950672 E 17, 12084916957382395 E 17, 52707497253243259 E 18, 17501135743935192 E 18, 46651638385191846 E 19, 10358516079851349 E 19, 19678435309311457 E 20, 32637258882982142 E 21, 48004773108666588 E 22, 63407681053776686 E 23, 75983428428393468 E 24, 83309293627620304 E 25, 84171260740260596 E 26, 78844976461973198 E 27, 68834448640662350 E 28, 56266232161212466 E 29, 43236248389424374 E 30, 31344012783973738 E 31, 21505437220553522 E 32, 14004505219020450 E 33, 86782179698717371 E 35, 51292012560007803 E 36, 28976636223357110 E 37, 15677216584824908 E 38, 81374282699431810 E 40, 40589713169388438 E 41, 19485636065493569 E 42, 90155856793960828 E 44, 40255188364769854 E 45, 17367103741645502 E 46, 72477746844965838 E 48, 29289790496814392 E 49, 11473502930674687 E 50, 43606555878941479 E 52, 16094131109663029 E 53, 57730523382716000 E 55, 20142246240152971 E 56, 68406695219211356 E 58, 22629999208457809 E 59, 72972119162298015 E 61, 22950526804690991 E 62, 70445782691381321 E 64, 21115183574729809 E 65, 61837442281926462 E 67, 17703266778433760 E 68, 49569996412545196 E 70, 13581784152932367 E 71, 36430678321278084 E 73, 95706606915114171 E 75, 24635690822912902 E 76, 62160190864066914 E 78, 15379931655023214 E 79, 37329669267306171 E 81, 88913684853723108 E 83, 20789740449804231 E 84, 47735480050139246 E 86, 10766780920102235 E 87, 23862639490114257 E 89, 51984049526724234 E 91, 11134413146666209 E 92, bnil.
Definition r256 := 19414530802831914 E 17, 12064168102311867 E 17, 52768338079351912 E 18, 17578520711884399 E 18, 47020705077930299 E 19, 10478040829245321 E 19, 19978733897668186 E 20, 33259002183569861 E 21, 49103730573271212 E 22, 65105609975695300 E 23, 78316066943487169 E 24, 86196131111592632 E 25, 87423039791570712 E 26, 82206881513688371 E 27, 72046944510249622 E 28, 59120218567119060 E 29, 45605483912893499 E 30, 33189946065475154 E 31, 22860452650169774 E 32, 14944809452667136 E 33, 92969499622178178 E 35, 55163028802653287 E 36, 31284968022148128 E 37, 16992095122107025 E 38, 88543383904770243 E 40, 44338046584584202 E 41, 21368172454396887 E 42, 99252050090627782 E 44, 44489817738576021 E 45, 19269028207960307 E 46, 80729290542505382 E 48, 32751945878946248 E 49, 12879873103605272 E 50, 49143076823492727 E 52, 18208466206782973 E 53, 65570250523005588 E 55, 22967038293151336 E 56, 78305390191190230 E 58, 26006010576087588 E 59, 84186505301757915 E 61, 26581205623219901 E 62, 81909384538705614 E 64, 24647354811456849 E 65, 72464266290245008 E 67, 20826814381408300 E 68, 58544417380196329 E 70, 16103515791634453 E 71, 43363918399291771 E 73, 11436698147276738 E 74, 29554325626016725 E 76, 74862840905779534 E 78, 18595424908386645 E 79, 45311000942700529 E 81, 10834677982125345 E 82, 25432814285971282 E 84, 58625244266421948 E 86, 13274779827404725 E 87, 29536434518238961 E 89, 64596336645758702 E 91, 13890035607056306 E 92, bnil.
Definition r257 := 19341290083398141 E 17, 12043421946408032 E 17, 52828208852564694 E 18, 17655603019401930 E 18, 47390177491352728 E 19, 10598210185391215 E 19, 20281883710012114 E 20, 33889157721388284 E 21, 50221967029132278 E 22, 66840132079495794 E 23, 80708339059451253 E 24, 89168382080017377 E 25, 90784147811274754 E 26, 85695424803807106 E 27, 75393498237233462 E 28, 62104936101447005 E 29, 48092939891215811 E 30, 35135569638387786 E 31, 24294232920911501 E 32, 15943663941014647 E 33, 99567796414558178 E 35, 59307314567622825 E 36, 33765920024752968 E 37, 18410829860016686 E 38, 96308996706879884 E 40, 48414145475380864 E 41, 23423331215522766 E 42, 10922117877747218 E 43, 49148986880859065 E 45, 21369814677308992 E 46, 89879255908464554 E 48, 36606076467198136 E 49, 14451593050800670 E 50, 55354743383217183 E 52, 20589911985292728 E 53, 74434940213377570 E 55, 26173638406325819 E 56, 89585985292487426 E 58, 29868379335343236 E 59, 97066661303386553 E 61, 30767495002609645 E 62, 95178999441778410 E 64, 28751992229853461 E 65, 84861716582108832 E 67, 24485060034520297 E 68, 69096229100815833 E 70, 19080080534920104 E 71, 51579694295609003 E 73, 13656573508200154 E 74, 35428525359436704 E 76, 90092646817306611 E 78, 22465715281171632 E 79, 54955223505953257 E 81, 13192058894998855 E 82, 31087250510523009 E 84, 71938924813224704 E 86, 16353023099112605 E 87, 36527529188711007 E 89, 80197656427028179 E 91, 17312060453050999 E 92, bnil.
Definition r258 := 19268571711518329 E 17, 12022679563086971 E 17, 52887117544404609 E 18, 17732381785124377 E 18, 47760041739120795 E 19, 10719021086869043 E 19, 20587890431674681 E 20, 34527784610273708 E 21, 51359705360856802 E 22, 68611828722853525 E 23, 83161444092591324 E 24, 92228120562800311 E 25, 94257692420346262 E 26, 89314728727099102 E 27, 78879026407978748 E 28, 65225718324700714 E 29, 50703927364844528 E 30, 37185774175999982 E 31, 25810968422442694 E 32, 17004426784573771 E 33, 10660235273815693 E 34, 63742822308518194 E 36, 36431555729324881 E 37, 19941115271902015 E 38, 10471783089872235 E 39, 52845062454746863 E 41, 25666093003670686 E 42, 12014271852412231 E 43, 54273163257017505 E 45, 23689272373481144 E 46, 10002100758391080 E 47, 40894611393690121 E 49, 16207278536513518 E 50, 62320507125071554 E 52, 23270872250745802 E 53, 84453431216522610 E 55, 29811722167883735 E 56, 10243438491354755 E 57, 34284693015274062 E 59, 11185149586918177 E 60, 35591566958685227 E 62, 11052983610025648 E 63, 33518910928311762 E 65, 99315600004567089 E 67, 28766740725184124 E 68, 81494402187756536 E 70, 22591116324261170 E 71, 61308460768582014 E 73, 16295498620507829 E 74, 42438823261892659 E 76, 10833880479247154 E 77, 27120610576268782 E 79, 66599778685407353 E 81, 16049483370423680 E 82, 37967808068822010 E 84, 88202715802749125 E 86, 20128014150906383 E 87, 45134444128087002 E 89, 99479697823331847 E 91, 21557905878397858 E 92, bnil.
Definition r259 := 19196370532540463 E 17, 12001942003158203 E 17, 52945072084189887 E 18, 17808856162489464 E 18, 48130284017859530 E 19, 10840470443143453 E 19, 20896759581769152 E 20, 35174941754503691 E 21, 52517169306045141 E 22, 70421286636596667 E 23, 85676598190085500 E 24, 95377459058135172 E 25, 97846852456004743 E 26, 93069027820784641 E 27, 82508600190492290 E 28, 68488088934535575 E 29, 53443968969682260 E 30, 39345665656203115 E 31, 27415051535371668 E 32, 18130631995788781 E 33, 11409988148122571 E 34, 68488595285863812 E 36, 39294722284176026 E 37, 21591178053866700 E 38, 11382002426347887 E 39, 57659949965289901 E 41, 28112664842925719 E 42, 13210298941873185 E 43, 59906472152545038 E 45, 26249085907678527 E 46, 11125715049744004 E 47, 45664361949388545 E 49, 18167548541380909 E 50, 70128158278163801 E 52, 26287519616525762 E 53, 95770110585528939 E 55, 33937178021686270 E 56, 11706056301540824 E 57, 39331588653026902 E 59, 12881296586883329 E 60, 41147326239894827 E 62, 12827762823556593 E 63, 39051554365988991 E 65, 11615637807303961 E 66, 33774858828981947 E 68, 96052367271471729 E 70, 26729787654067271 E 71, 72820868836353760 E 73, 19430358879587841 E 74, 50798901217829177 E 76, 13018259645417071 E 77, 32714955778026969 E 79, 80648765492089835 E 81, 19510308260798101 E 82, 46333681070624742 E 84, 10805416403914001 E 85, 24753625279050523 E 87, 55721701969679372 E 89, 12329037687099639 E 90, 26821298225395547 E 92, bnil.
Definition r260 := 19124681453446907 E 17, 11981210295227360 E 17, 53002080358768799 E 18, 17885025339256646 E 18, 48500890607701087 E 19, 10962555135139722 E 19, 21208496513407099 E 20, 35830687843617528 E 21, 53694583439698622 E 22, 72269097919921153 E 23, 88255034437162528 E 24, 98618548990523134 E 25, 10155487916997578 E 25, 96962671170034269 E 27, 86287449340167940 E 28, 71897767523158836 E 29, 56318806255546177 E 30, 41620573727329480 E 31, 29111085337190055 E 32, 19325997825132415 E 33, 12208859949144033 E 34, 73564828405276269 E 36, 42369097502185728 E 37, 23369811303176018 E 38, 12366937721367908 E 39, 62890212905740913 E 41, 30780574472575433 E 42, 14519571164482857 E 43, 66097009246314891 E 45, 29072983559985697 E 46, 12370039865502602 E 47, 50966952460365152 E 49, 20355230875657934 E 50, 78875271220339226 E 52, 29680215032050744 E 53, 10854671220458311 E 54, 38612853106912279 E 56, 13370155825237144 E 57, 45095918728236524 E 59, 14826048028636271 E 60, 47542025841688185 E 62, 14878439494954334 E 63, 45468992410891777 E 65, 13576591393559760 E 66, 39628901672577137 E 68, 11313513331435413 E 69, 31605012553182572 E 71, 86434566431897270 E 73, 23151741527793204 E 74, 60761501284175546 E 76, 15631423434064709 E 77, 39433328770288632 E 79, 97585750657566888 E 81, 23698697040450838 E 82, 56497452634568169 E 84, 13226512881886576 E 85, 30416869590897967 E 87, 68734058424494821 E 89, 15266826217571104 E 90, 33340445424868841 E 92, bnil.
Definition r261 := 19053499442022206 E 17, 11960485446091894 E 17, 53058150212269235 E 18, 17960888537031514 E 18, 48871847872804623 E 19, 11085272015816611 E 19, 21523106413936209 E 20, 36495081347290417 E 21, 54892173158538415 E 22, 74155860034971299 E 23, 90898002963209424 E 24, 10195358116993267 E 24, 10538509743798314 E 25, 10100012484929458 E 26, 90220966285080836 E 28, 75460675476028639 E 29, 59334407217330971 E 30, 44016060354111812 E 31, 30903892637647396 E 32, 20594435438180776 E 33, 13059830473357267 E 34, 78992932140635869 E 36, 45669239459389199 E 37, 25286410720626445 E 38, 13432360232240118 E 39, 68569671593283150 E 41, 33688771483637353 E 42, 15952260352146419 E 43, 72897178347982444 E 45, 32186919828407532 E 46, 13747452131410427 E 47, 56859291394640767 E 49, 22795587876445767 E 50, 88670246404193761 E 52, 33493971920924644 E 53, 12296431439299310 E 54, 43909384899708976 E 56, 15262482675716226 E 57, 51676061443984118 E 59, 17054586878001467 E 60, 54898096776596394 E 62, 17246499057756882 E 63, 52908202120535713 E 65, 15858520417653885 E 66, 46467395022771874 E 68, 13316750884929740 E 69, 37344044664358381 E 71, 10252211422728712 E 72, 27566305767275318 E 74, 72625360401867400 E 76, 18755270015258806 E 77, 47495591862045741 E 79, 11798897286743810 E 80, 28763696984416296 E 82, 68835804888499637 E 84, 16176935196144344 E 85, 37344858920258758 E 87, 84713724307845225 E 89, 18888439790533258 E 90, 41408005454789080 E 92, bnil.
Definition r262 := 18982819526033007 E 17, 11939768441129966 E 17, 53113289445864784 E 18, 18036445010794298 E 18, 49243142261853673 E 19, 11208617910735854 E 19, 21840594305199296 E 20, 37168180510261924 E 21, 56110164665238598 E 22, 76082175800789014 E 23, 93606771046792140 E 24, 10538478625204696 E 24, 10934090698043679 E 25, 10518597439966593 E 26, 94314710291843789 E 28, 79182942014414147 E 29, 62496974043780102 E 30, 46537928751549565 E 31, 32798525354215507 E 32, 21940057956582613 E 33, 13966045701238468 E 34, 84795599682724597 E 36, 49210638806564670 E 37, 27351012946468868 E 38, 14584458961671122 E 39, 74734735709886414 E 41, 36857735700867479 E 42, 17519402492550509 E 43, 80364056200377828 E 45, 35619273384338485 E 46, 15271537305077895 E 47, 63404086256334110 E 49, 25516564050988564 E 50, 99633458080044170 E 52, 37778969450546570 E 53, 13922555761241282 E 54, 49906128098839925 E 56, 17413199350748067 E 57, 59183392500061570 E 59, 19606898439904587 E 60, 63355219433223262 E 62, 19979454824108658 E 63, 61526669825655274 E 65, 18512323418960705 E 66, 54450839030045034 E 68, 15664359136248927 E 69, 44095465210987663 E 71, 12152019371625370 E 72, 32799550513986263 E 74, 86743340045053452 E 76, 22486909175990276 E 77, 57163450587115529 E 79, 14254937544094939 E 80, 34884093605268388 E 82, 83802320196849630 E 84, 19769553907294122 E 85, 45813185031045018 E 87, 10432119095306941 E 88, 23349307369517726 E 90, 51383234230754332 E 92, bnil.
Definition r263 := 18912636792420054 E 17, 11919060244682590 E 17, 53167505817554986 E 18, 18111694048432297 E 18, 49614760308530747 E 19, 11332589618628435 E 19, 22160965043814074 E 20, 37850043347318829 E 21, 57348784952576542 E 22, 78048653386632427 E 23, 96382623219569170 E 24, 10891443519953814 E 24, 11342578359427054 E 25, 10952492734254767 E 26, 98574411713031270 E 28, 83070910384398564 E 29, 65812951088849522 E 30, 49192232614628484 E 31, 34800274238575118 E 32, 23367189876236588 E 33, 14930826240679013 E 34, 90996877459428208 E 36, 53009773928374934 E 37, 29574336144838256 E 38, 15829868854987731 E 39, 81424589918149781 E 41, 40309593293289769 E 42, 19232966931485077 E 43, 88559786381831153 E 45, 39401061658548971 E 46, 16957201474407649 E 47, 70670406120576967 E 49, 28549057691490155 E 50, 11189851803478679 E 51, 42591119890462688 E 53, 15755710543606934 E 54, 56692187189245306 E 56, 19856304766961155 E 57, 67743937454956698 E 59, 22528401821744622 E 60, 73072667206674640 E 62, 23131693453205984 E 63, 71505358153845436 E 65, 21596711468857347 E 66, 63765081959917997 E 68, 18413771394597478 E 69, 52032647812660250 E 71, 14394031185305120 E 72, 38999044447805319 E 74, 10353195049935485 E 75, 26941408124209238 E 77, 68748197258505852 E 79, 17209197874248345 E 80, 42274186411721720 E 82, 10194277083984296 E 83, 24140702433219300 E 85, 56156007624656714 E 87, 12836039355373833 E 88, 28839340702674856 E 90, 63706777580297995 E 92, bnil.
Definition r264 := 18842946386501908 E 17, 11898361800429184 E 17, 53220807041960159 E 18, 18186634970276384 E 18, 49986688631969934 E 19, 11457183911957416 E 19, 22484223321473526 E 20, 38540727638333335 E 21, 58608261787504023 E 22, 80055906304666766 E 23, 99226861369081059 E 24, 11254483974431417 E 24, 11764328039588950 E 25, 11402181572976831 E 26, 10300597631718688 E 27, 87131144194937470 E 29, 69289033070733830 E 30, 51985285652014916 E 31, 36914678965346566 E 32, 24880376876404955 E 33, 15957676156652518 E 34, 97622239179449905 E 36, 57084169090594800 E 37, 31967822957246806 E 38, 17175700761753230 E 39, 88681391871481783 E 41, 44068241126068531 E 42, 21105930778359500 E 43, 97552004486253498 E 45, 43566173372956857 E 46, 18820793305444550 E 47, 78734295982700231 E 49, 31927218663809742 E 50, 12561366650202664 E 51, 47992695492362679 E 53, 17821237426062918 E 54, 64367566208616024 E 56, 22630103225903425 E 57, 77500225935854910 E 59, 25870661279067925 E 60, 84231956825891831 E 62, 26765434760215236 E 63, 83052087336373367 E 65, 25179367822279583 E 66, 74625194770228070 E 68, 21631706558754536 E 69, 61357768460574075 E 71, 17038123779566847 E 72, 46338193193382958 E 74, 12348250179929085 E 75, 32255018648888216 E 77, 82619847104872453 E 79, 20760119335717154 E 80, 51190655997396291 E 82, 12391336772431340 E 83, 29454929403318801 E 85, 68778187632095222 E 87, 15780909278028001 E 88, 35590398261117919 E 90, 78918668507518582 E 92, bnil.
Definition r265 := 18773743511190374 E 17, 11877674031756655 E 17, 53273200790130322 E 18, 18261267128641501 E 18, 50358913937187241 E 19, 11582397537477332 E 19, 22810373665266159 E 20, 39240290923356041 E 21, 59888823695141052 E 22, 82104553402028068 E 23, 10214080484039584 E 23, 11627835285067690 E 24, 12199702907517524 E 25, 11868159873040741 E 26, 10761548970242348 E 27, 91370433907604596 E 29, 72932173503698118 E 30, 54923671432012507 E 31, 39147538594576898 E 32, 26484396033911506 E 33, 17050292202789768 E 34, 10469866355750967 E 35, 61452455722152257 E 37, 34543685951536944 E 38, 18629573263388399 E 39, 96550483384803053 E 41, 48159479897998895 E 42, 23152358880524187 E 43, 10741429691095975 E 44, 48151620430955784 E 46, 20880236656773144 E 47, 87679447440197766 E 49, 35688774763864710 E 50, 14094330241642713 E 51, 54053020843493254 E 53, 20147455978434661 E 54, 73044448441937032 E 56, 25777728391606374 E 57, 88613371352993184 E 59, 29692187151756188 E 60, 97039843984132999 E 62, 30951820757054771 E 63, 96405386565242680 E 65, 29338273863706746 E 66, 87279918356418170 E 68, 25395623249321413 E 69, 72306443654044345 E 71, 20154344317178607 E 72, 55020630196464717 E 74, 14717415076431748 E 75, 38588967531032199 E 77, 99217910194669996 E 79, 25025078009529430 E 80, 61940722949597301 E 82, 15050252522207975 E 83, 35910688440005825 E 85, 84169869602507629 E 87, 19385552898793649 E 88, 43885324723874890 E 90, 97680207054980128 E 92, bnil.
Definition r266 := 18705023426217302 E 17, 11856997842122055 E 17, 53324694689367964 E 18, 18335589907371164 E 18, 50731423015490150 E 19, 11708227216790134 E 19, 23139420438016318 E 20, 39948790497765097 E 21, 61190699942697052 E 22, 84195218852263546 E 23, 10512579053659544 E 23, 12011736917933674 E 24, 12649074116050623 E 25, 12350936525452196 E 26, 11240922179463521 E 27, 95795803480691032 E 29, 76749593367947905 E 30, 58014253549249952 E 31, 41504922419796892 E 32, 28184266457007516 E 33, 18212573471069557 E 34, 11225471588526621 E 35, 66134436985160097 E 37, 37314955698792384 E 38, 20199646473746314 E 39, 10508061557548460 E 40, 52611156642128739 E 42, 25387489755887764 E 43, 11822669574428731 E 44, 53197810683336302 E 46, 23155174741358091 E 47, 97597930597820316 E 49, 39875389242749078 E 50, 15806966629064306 E 51, 60849237211143875 E 53, 22765999105944955 E 54, 82848620087815429 E 56, 29347728461749983 E 57, 10126540243015773 E 58, 34059337230651351 E 60, 11173170754656733 E 61, 35772150681606856 E 63, 11183887839561778 E 64, 34163224360556897 E 66, 10201676522494525 E 67, 29795394315808612 E 69, 85153091915813773 E 71, 23824585843644416 E 72, 65285331369463394 E 74, 17528915682206451 E 75, 46133905612315945 E 77, 11906408357160725 E 78, 30143928573310306 E 80, 74891834855967902 E 82, 18265680120206142 E 83, 43747145348816070 E 85, 10292399459591838 E 86, 23794261076282101 E 88, 54068890187508616 E 90, 12080053956885892 E 91, bnil.
Definition r267 := 18636781447372727 E 17, 11836334115409025 E 17, 53375296323064043 E 18, 18409602721385997 E 18, 51104202744865533 E 19, 11834669646897552 E 19, 23471367838643844 E 20, 40666283407470926 E 21, 62514120523320683 E 22, 86328532146149200 E 23, 10818317301808279 E 23, 12406432555222241 E 24, 13112820929473637 E 25, 12851033661397384 E 26, 11739363143133180 E 27, 10041451717033742 E 28, 80748790022841537 E 30, 61264186120737009 E 31, 43993181213761609 E 32, 29985260353929142 E 33, 19448631476397329 E 34, 12032063361863739 E 35, 71151155792797013 E 37, 40295531617056540 E 38, 21894657925176512 E 39, 11432418882998368 E 40, 57453317202106201 E 42, 27827827898630683 E 43, 13007621241755188 E 44, 58748843198254241 E 46, 25667126785147422 E 47, 10859099248672078 E 48, 44533052325650471 E 50, 17719469019348162 E 51, 68467146012731301 E 53, 25712184597386311 E 54, 93921053389424485 E 56, 33394719378849089 E 57, 11566187580348665 E 58, 39047330652560233 E 60, 12857537081782196 E 61, 41319280861427364 E 63, 12966626731748950 E 64, 39757558106722579 E 66, 11916786861814168 E 67, 34935234008688019 E 69, 10021712785671284 E 70, 28144530507142091 E 72, 77412569128548663 E 74, 20863070927798306 E 75, 55115126599886158 E 77, 14277719601669186 E 78, 36283192697926452 E 80, 90483159677712789 E 82, 22151179142654858 E 83, 53252316312816309 E 85, 12575731708765531 E 86, 29182114670024289 E 88, 66561018262291502 E 90, 14926892166228414 E 91, bnil.
Definition r268 := 18569012945754043 E 17, 11815683716278029 E 17, 53425013230547568 E 18, 18483305016236341 E 18, 51477240090347168 E 19, 11961721500749903 E 19, 23806219902542910 E 20, 41392826444177415 E 21, 63859316139882896 E 22, 88505128081888190 E 23, 11131432460069383 E 23, 12812170141802946 E 24, 13591330852208314 E 25, 13368986922056376 E 26, 12257537103211753 E 27, 10523408649141622 E 28, 84937546368841271 E 30, 64680924620112972 E 31, 46618958884302481 E 32, 31892914551627385 E 33, 20762800693428188 E 34, 12892841615889157 E 35, 76524966441852558 E 37, 43500235727344239 E 38, 23723960658470034 E 39, 12433750849977418 E 40, 62718369333902672 E 42, 30491242899654697 E 43, 14305741296950313 E 44, 64852827782774558 E 46, 28439658205171478 E 47, 12076992772002721 E 48, 49712509791943983 E 50, 19854203061090279 E 51, 77002139218272307 E 53, 29025426535105285 E 54, 10641966631434572 E 55, 37980113660341778 E 57, 13203480219527264 E 58, 44741387819414578 E 60, 14787541416250501 E 61, 47699210597749732 E 63, 15024701275786042 E 64, 46240133502943378 E 66, 13911668487253496 E 67, 40935914676173070 E 69, 11787011388760165 E 70, 33225901744143949 E 72, 91730839330177718 E 74, 24814374639340644 E 75, 65798684852200354 E 77, 17109079369616260 E 78, 43641006287132296 E 80, 10923921299497410 E 81, 26842889885160214 E 83, 64772790404609340 E 85, 15353560863082805 E 86, 35761392357158935 E 88, 81872769884918012 E 90, 18429385011911605 E 91, bnil.
Definition r269 := 18501713347026158 E 17, 11795047490510588 E 17, 53473852906946492 E 18, 18556696267658900 E 18, 51850522104362933 E 19, 12089379427791241 E 19, 24143980501979714 E 20, 42128476140699677 E 21, 65226518188694714 E 22, 90725646754691523 E 23, 11452063545259708 E 23, 13229201931844618 E 24, 14084999758586704 E 25, 13905345732166066 E 26, 12796129135682654 E 27, 11026227734089379 E 28, 89323940263671156 E 30, 68272237059085428 E 31, 49389204553030075 E 32, 33913042480612936 E 33, 22159649563587115 E 34, 13811191901176272 E 35, 82279610033951616 E 37, 46944869474336494 E 38, 25697563641200000 E 39, 13518105728072696 E 40, 68441257121649276 E 42, 33397075851837457 E 43, 15727303796674767 E 44, 71562230630688185 E 46, 31498565408587429 E 47, 13425702757169236 E 48, 55469731945711723 E 50, 22235930138524049 E 51, 86560225224319707 E 53, 32749690650230502 E 54, 12052127761468679 E 55, 43172933233680135 E 57, 15064592227007917 E 58, 51238011389821093 E 60, 16997803974955194 E 61, 55032877874223515 E 63, 17399277704077906 E 64, 53747582527522532 E 66, 16230566923773115 E 67, 47937315039003967 E 69, 13854401284789207 E 70, 39199073004105564 E 72, 10862491517724346 E 73, 29493925322609312 E 75, 78498562435908027 E 77, 20487381989558790 E 78, 52452959158808984 E 80, 13178600432598326 E 81, 32503906466180688 E 83, 78725336626622692 E 85, 18730386050148572 E 86, 43789278414855185 E 88, 10062564243946927 E 89, 22735048989366967 E 91, bnil.
Definition r270 := 18434878130692356 E 17, 11774426265347510 E 17, 53521822803062356 E 18, 18629775981137374 E 18, 52224035927061884 E 19, 12217640054500887 E 19, 24484653346508651 E 20, 42873288766338635 E 21, 66615958743164260 E 22, 92990733545744492 E 23, 11780351368996425 E 23, 13657784535500135 E 24, 14594232023704750 E 25, 14460673577352413 E 26, 13355844635233834 E 27, 11550711728643908 E 28, 93916354198243528 E 30, 72046215525248263 E 31, 52311185069953296 E 32, 36051746642338654 E 33, 23643991990858828 E 34, 14790695251599529 E 35, 88440293866969082 E 37, 50646273771359789 E 38, 27826174645389099 E 39, 14691978528327268 E 40, 74659647437594014 E 42, 36566253540292557 E 43, 17283467033140472 E 44, 78934248107124203 E 46, 34872076398522721 E 47, 14918661416543059 E 48, 61866426588910182 E 50, 24892052546165763 E 51, 97259159535889551 E 53, 36933998105106805 E 54, 13642377801616222 E 55, 49050715551803937 E 57, 17179037226241690 E 58, 58646425114711080 E 60, 19527655641028928 E 61, 63458191624313970 E 63, 20137475036125783 E 64, 62436880955026128 E 66, 18924506172919242 E 67, 56101347996028619 E 69, 16274070554038439 E 70, 46216087674042268 E 72, 12854520579110917 E 73, 35032260199363561 E 75, 93585060109458144 E 77, 24515491751436817 E 78, 62998983606620845 E 80, 15887015528707730 E 81, 39329474334617612 E 83, 95610751028577254 E 85, 22832245091426286 E 86, 53577127422729659 E 88, 12357485448838057 E 89, 28023811098096593 E 91, bnil.
Definition r271 := 18368502829375802 E 17, 11753820849821320 E 17, 53568930325256357 E 18, 18702543691467160 E 18, 52597768786621889 E 19, 12346499984931104 E 19, 24828241983406644 E 20, 43627320322312391 E 21, 68027870537394367 E 22, 95301039110559983 E 23, 12116438547139391 E 23, 14098178965646862 E 24, 15119440655349090 E 25, 15035548285249865 E 26, 13937409808908494 E 27, 12097690302305508 E 28, 98723485237987299 E 30, 76011288085645184 E 31, 55392497977402204 E 32, 38315431576024523 E 33, 25220899345549970 E 34, 15835138534006643 E 35, 95033774985898820 E 37, 54622392436748016 E 38, 30121245722140001 E 39, 15962341885649815 E 40, 81414129219692812 E 42, 40021410949734927 E 43, 18986345454814866 E 44, 87031210825446615 E 46, 38591068463015509 E 47, 16570616699841621 E 48, 68970599915030622 E 50, 27852882583370709 E 51, 10922969046091807 E 52, 41632982620371366 E 54, 15434854038796718 E 55, 55700523243614968 E 57, 19580078386683271 E 58, 67090189201237773 E 60, 22421756064138029 E 61, 73132330566926024 E 63, 23293196776936163 E 64, 72488277642848678 E 66, 22052293807622825 E 67, 65615322611304898 E 69, 19104296077643297 E 70, 54454152971825603 E 72, 15201862427680514 E 73, 41582658725582672 E 75, 11149461508245649 E 76, 29315097065674825 E 78, 75611474910162167 E 80, 19138152143344950 E 81, 47553163375806908 E 83, 11603036470590317 E 84, 27811042392731587 E 86, 65501592299045107 E 88, 15163741845302906 E 89, 34514959545481251 E 91, bnil.
Definition r272 := 18302583028111416 E 17, 11733232035082913 E 17, 53615182835346761 E 18, 18774998962324121 E 18, 52971707999537824 E 19, 12475955801241158 E 19, 25174749798125294 E 20, 44390626537245513 E 21, 69462486949725246 E 22, 97657219366723912 E 23, 12460469509107460 E 23, 14550650684677446 E 24, 15661047426991621 E 25, 15630562310427076 E 26, 14541572178827629 E 27, 12668020800055207 E 28, 10375435523530786 E 29, 80176231065643299 E 31, 58641084936983330 E 32, 40710817342335037 E 33, 26895712995882415 E 34, 16948525295347428 E 35, 10208844809051222 E 36, 58892339196516297 E 38, 32595021417889986 E 39, 17336678928801990 E 40, 88748426386264570 E 42, 43787022654842675 E 43, 20849087095769054 E 44, 95921020326679097 E 46, 42689304320269975 E 47, 18397754960301728 E 48, 76857169571133348 E 50, 31151937788246896 E 51, 12261693096635840 E 52, 46907506339813338 E 54, 17454309405152486 E 55, 63220068631984257 E 57, 22305186774494674 E 58, 76709013010340478 E 60, 25730789873718788 E 61, 84234342280899451 E 63, 26928074767873745 E 64, 84108631293962004 E 66, 25681670172661136 E 67, 76695802533996035 E 69, 22412707243363836 E 70, 64119679847589864 E 72, 17966120124728590 E 73, 49324991021039320 E 75, 13274128100306806 E 76, 35030060341251066 E 78, 90684857889477143 E 80, 23037994210243452 E 81, 57454194769393221 E 83, 14070571038104253 E 84, 33849724188374638 E 86, 80017980809566266 E 88, 18592596094803137 E 89, 42475548832178843 E 91, bnil.
Definition r273 := 18237114363648074 E 17, 11712660594722593 E 17, 53660587650518163 E 18, 18847141385837332 E 18, 53345840970890953 E 19, 12606004064227509 E 19, 25524180014760742 E 20, 45163262862715286 E 21, 70920041986223882 E 22, 10005993548103253 E 22, 12812590507066882 E 23, 15015469651334452 E 24, 16219483011844577 E 25, 16246323023135980 E 26, 15169101094085457 E 27, 13262589022468550 E 28, 10901832131897881 E 29, 84550181712861196 E 31, 62065245633626873 E 32, 43244953541823203 E 33, 28674057387942529 E 34, 18135087128680953 E 35, 10963443800548360 E 36, 63476468436410480 E 38, 35260589884286430 E 39, 18823018256304772 E 40, 96709625255516908 E 42, 47889543695261195 E 43, 22885956909329599 E 44, 10567762083676499 E 45, 47203688197236249 E 47, 20417834477189014 E 48, 85608634492346041 E 50, 34826264725684004 E 51, 13758186887242604 E 52, 52825340345567339 E 54, 19728409091398279 E 55, 71718965637812978 E 57, 25396553537574032 E 58, 87660788245205075 E 60, 29512250500030675 E 61, 96968080278931746 E 63, 31112539769392480 E 64, 97535209394645311 E 66, 29890621648402109 E 67, 89593031722611149 E 69, 26277740865060307 E 70, 75452951526616439 E 72, 21219271549079944 E 73, 58470198383702571 E 75, 15793014330659472 E 76, 41830347196819354 E 78, 10868684973055396 E 79, 27712685067826029 E 81, 69366131382278651 E 83, 17050193582921835 E 84, 41168462706372961 E 86, 97676275366829305 E 88, 22778943789193918 E 89, 52230555998228706 E 91, bnil.
Definition r274 := 18172092523760874 E 17, 11692107285085523 E 17, 53705152043241673 E 18, 18918970582165982 E 18, 53720155194599854 E 19, 12736641313850136 E 19, 25876535696540552 E 20, 45945284468856092 E 21, 72400770264123880 E 22, 10250985385602741 E 22, 13172949624990344 E 23, 15492910367583112 E 24, 16795187117970253 E 25, 16883453001902168 E 26, 15820788251920178 E 27, 13882310023482414 E 28, 11452508666636389 E 29, 89142651256099422 E 31, 65673652171140547 E 32, 45925233886583719 E 33, 30561853695204704 E 34, 19399295580297652 E 35, 11770369692734138 E 36, 68396449894889771 E 38, 38131937041362797 E 39, 20429971143076233 E 40, 10534841738878128 E 41, 52357560574750474 E 43, 25112426428216296 E 44, 11638150875307686 E 45, 52174543429679262 E 47, 22650330744050550 E 48, 95315806497322416 E 50, 38916793955833372 E 51, 15430302867871422 E 52, 59461916303160612 E 54, 22288059388209960 E 55, 81320122893121407 E 57, 28901661990617185 E 58, 10012386839423505 E 59, 33831322206363549 E 61, 11156552140848596 E 62, 35927035179862148 E 64, 11304001110341586 E 65, 34768880602372887 E 67, 10459600811708218 E 68, 30790315312745736 E 70, 88733515426961874 E 72, 25045365441428334 E 73, 69265506576959623 E 75, 18777298658252690 E 76, 49916632305534800 E 78, 13017171135588393 E 79, 33312260396808570 E 81, 83687178565772866 E 83, 20645565898955573 E 84, 50032040806852594 E 86, 11914033355772376 E 87, 27886211457610334 E 89, 64175143840212593 E 91, bnil.
Definition r275 := 18107513246573381 E 17, 11671572845581754 E 17, 53748883241205594 E 18, 18990486199080100 E 18, 54094638253652967 E 19, 12867864069755050 E 19, 26231819746327543 E 20, 46736746240021485 E 21, 73904906995218282 E 22, 10500764611592868 E 22, 13541696787585085 E 23, 15983251925516058 E 24, 17388608624437962 E 25, 17542590329973034 E 26, 16497448228261396 E 27, 14528128926102140 E 28, 12028471156443940 E 29, 93963538369406489 E 31, 69475363974028484 E 32, 48759411344087370 E 33, 32565334059551701 E 34, 20745874621027980 E 35, 12633010667157563 E 36, 73675347497422545 E 38, 41224003961715004 E 39, 22166771109398750 E 40, 11471935883003872 E 41, 57221953064011840 E 43, 27545270201510427 E 44, 12812028269932842 E 45, 57645913290867830 E 47, 25116594503969075 E 48, 10607860904778333 E 49, 43468729038462101 E 51, 17297829953021853 E 52, 66901156334538846 E 54, 25167772104568619 E 55, 92161293320243489 E 57, 32873926320415765 E 58, 11429962307934255 E 59, 38761872168262912 E 61, 12829051100456697 E 62, 41463392339063178 E 64, 13093468382626321 E 65, 40419637663544450 E 67, 12203829697391434 E 68, 36055755812797966 E 70, 10428640699752124 E 71, 29542486381531102 E 73, 82000488120680294 E 75, 22310658086191036 E 76, 59525695033187367 E 78, 15579582851776057 E 79, 40015053678805221 E 81, 10089238568197427 E 82, 24980808495433315 E 84, 60758664043485879 E 86, 14521088473642591 E 87, 34112244616869702 E 89, 78789457380332876 E 91, bnil.
Definition r276 := 18043372319889664 E 17, 11651057998990888 E 17, 53791788427256522 E 18, 19061687911545548 E 18, 54469277820323233 E 19, 12999668831792854 E 19, 26590034907140265 E 20, 47537702770504648 E 21, 75432687969208495 E 22, 10755398909197213 E 22, 13918983769088595 E 23, 16486778054284055 E 24, 18000205718521728 E 25, 18224388895640706 E 26, 17199919017756328 E 27, 15201021756340059 E 28, 12630762476568505 E 29, 99023143051621580 E 31, 73479843210699612 E 32, 51755613872720253 E 33, 34691056446446646 E 34, 22179813705677120 E 35, 13554958615256413 E 36, 79337702541678321 E 38, 44552747651771885 E 39, 24043315990941661 E 40, 12488114677097863 E 41, 62516067529093196 E 43, 30202669488711898 E 44, 14098923718821496 E 45, 63665886883341252 E 47, 27840023590273017 E 48, 11800694902240948 E 49, 48531972676602023 E 51, 19382694515084056 E 52, 75236388891941217 E 54, 28406068244110829 E 55, 10439679701030666 E 56, 37373404353606772 E 58, 13041529915738135 E 59, 44387565805554574 E 61, 14744298890605413 E 62, 47826388154252930 E 64, 15157611215927631 E 65, 46961495350606427 E 67, 14230468811791058 E 68, 42196007382283551 E 70, 12248932978129350 E 71, 34825030026717950 E 73, 97014107683346770 E 75, 26491401169662140 E 76, 70936736394730158 E 78, 18633602063579011 E 79, 48032891983884116 E 81, 12154808957272214 E 82, 30204435236636357 E 84, 73730468858608016 E 86, 17685305394639224 E 87, 41696380944579319 E 89, 96656463936627341 E 91, bnil.
Definition r277 := 17979665580536000 E 17, 11630563451761471 E 17, 53833874739351271 E 18, 19132575421312813 E 18, 54844061656365330 E 19, 13132052080533352 E 19, 26951183762689704 E 20, 48348208360316846 E 21, 76984349537011501 E 22, 11014956480715121 E 22, 14304964201930322 E 23, 17003777167046567 E 24, 18630446033930883 E 25, 18929518696455193 E 26, 17929062583376078 E 27, 15901996295677455 E 28, 13260463514498520 E 29, 10433218093192453 E 30, 77696970753547757 E 32, 54922360769106239 E 33, 36945920137655177 E 34, 23706381445415538 E 35, 14540020433861548 E 36, 85409621452759319 E 38, 48135205415014494 E 39, 26070212656036622 E 40, 13589691473047590 E 41, 68275902552053487 E 43, 33104323722890930 E 44, 15509200314438895 E 45, 70286952064406233 E 47, 30846249714046955 E 48, 13122166783734108 E 49, 54161593371255292 E 51, 21709181300515395 E 52, 84571359141157620 E 54, 32045924984024907 E 55, 11819943596556953 E 56, 42467592625227980 E 58, 14872722396103634 E 59, 50803120094880955 E 61, 16936375578878694 E 62, 55135508349149702 E 64, 17537276793041230 E 65, 54530695915522756 E 67, 16583881555578782 E 68, 49352176978753765 E 70, 14378093397913482 E 71, 41026336090186198 E 73, 11470290519762009 E 74, 31434954574673551 E 76, 84478770110066567 E 78, 22271104143393270 E 79, 57617219947658473 E 81, 14632900073927804 E 82, 36494024982301133 E 84, 89406044858376878 E 86, 21522928161812354 E 87, 50927941105384868 E 89, 11848344736451132 E 90, bnil.
Definition r278 := 17916388913712039 E 17, 11610089894305209 E 17, 53875149270517432 E 18, 19203148456509996 E 18, 55218977613195599 E 19, 13265010277776241 E 19, 27315268737931918 E 20, 49168317011024447 E 21, 78560128594029319 E 22, 11279506046036829 E 22, 14699793585257975 E 23, 17534542407936226 E 24, 19279806790066627 E 25, 19658666147343946 E 26, 18685765415703782 E 27, 16632092952345559 E 28, 13918694366377848 E 29, 10990179801213524 E 30, 82137062691763621 E 32, 58268579647866832 E 33, 39337181885689038 E 34, 25331139918878533 E 35, 15592229893445306 E 36, 91918868337579812 E 38, 51989562991162815 E 39, 28258824524247071 E 40, 14783454740022225 E 41, 74540307657926127 E 43, 36271570288642216 E 44, 17054123876765265 E 45, 77566377521697377 E 47, 34163341428786033 E 48, 14585557876500361 E 49, 60418336249212658 E 51, 24304176150552715 E 52, 95021343164546746 E 54, 36135270398709971 E 55, 13376262117153592 E 56, 48232312863990160 E 58, 16952438998042100 E 59, 58115711280586805 E 61, 19443984633719626 E 62, 63526942503062155 E 64, 20279192135873405 E 65, 63283660580639587 E 67, 19315187395263880 E 68, 57687452257838974 E 70, 16867035627100998 E 71, 48301733572950255 E 73, 13553049488871441 E 74, 37276760062730042 E 76, 10053926512682192 E 77, 26600681209710946 E 79, 69066313165474923 E 81, 17603840265542957 E 82, 44061764605142750 E 84, 10833534712576517 E 85, 26173866972009892 E 87, 62156414213468754 E 89, 14512788643552323 E 90, bnil.
Definition r279 := 17853538252351395 E 17, 11589638001286098 E 17, 53915619068824673 E 18, 19273406771239648 E 18, 55594013632055041 E 19, 13398539867057740 E 19, 27682292099636302 E 20, 49998082421644601 E 21, 80160262563382079 E 22, 11549116840999884 E 22, 15103629293326998 E 23, 18079371699030985 E 24, 19948774932296575 E 25, 20412534392652392 E 26, 19470939102005911 E 27, 17392385651722322 E 28, 14606615564777291 E 29, 11574358585670308 E 30, 86810887413110149 E 32, 61803624075055105 E 33, 41872472754928221 E 34, 27059959648676632 E 35, 16715860105381259 E 36, 98894962577852511 E 38, 56135226674909339 E 39, 30621322048492646 E 40, 16076701637437892 E 41, 81351196012061927 E 43, 39727513196300727 E 44, 18745937445827692 E 45, 85566626270869944 E 47, 37822024598046119 E 48, 16205459786254972 E 49, 67369182039942181 E 51, 27197432577091386 E 52, 10671437616780030 E 53, 40727530805309981 E 55, 15130273455183856 E 56, 54752699977058502 E 58, 19313246461616189 E 59, 66446555277864645 E 61, 22311058365172951 E 62, 73155840253380630 E 64, 23436782601788854 E 65, 73399882211100993 E 67, 22483258462734930 E 68, 67390450926109818 E 70, 19774820698336219 E 71, 56832060807234652 E 73, 16003858544973996 E 74, 44175647649515258 E 76, 11957424540146604 E 77, 31750601662222990 E 79, 82733769444040275 E 81, 21163201605377744 E 82, 53161021596804030 E 84, 13117744283678340 E 85, 31806397676687274 E 87, 75803667642305742 E 89, 17762858946162610 E 90, bnil.
Definition r280 := 17791109576491373 E 17, 11569208431904561 E 17, 53955291137364941 E 18, 19343350145179725 E 18, 55969157744155951 E 19, 13532637274153204 E 19, 28052255956969381 E 20, 50837557984599458 E 21, 81784989379109471 E 22, 11823858615687163 E 22, 15516630583751830 E 23, 18638567787328020 E 24, 20637847273239635 E 25, 21191843622120625 E 26, 20285520905188168 E 27, 18183982746145131 E 28, 15325429338463652 E 29, 12186959724153897 E 30, 91729683271283893 E 32, 65537291877099882 E 33, 44559815675193088 E 34, 28899035271001150 E 35, 17915436615557762 E 36, 10636928171192329 E 37, 60592899627775517 E 39, 33170736331613590 E 40, 17477273805076334 E 41, 88753772004823083 E 43, 43497161271808600 E 44, 20597941578411010 E 45, 94355803013977751 E 47, 41855921794423937 E 48, 17997897652390743 E 49, 75087958516860613 E 51, 30421864427666245 E 52, 11979260582595948 E 53, 45882236083680650 E 55, 17106175064906158 E 56, 62124302682051140 E 58, 21991827342093769 E 59, 75932681143710799 E 61, 25587439806007124 E 62, 84198861618304614 E 64, 27071100450369912 E 65, 85085218940952656 E 67, 26155858424244482 E 68, 78679062158121460 E 70, 23169921725575616 E 71, 66827732061318433 E 73, 18885975761734542 E 74, 52317760899897914 E 76, 14212008557077658 E 77, 37872279219400778 E 79, 99038498023630667 E 81, 25424617513338909 E 82, 64094132418592536 E 84, 15872161682576228 E 85, 38622771052750265 E 87, 92378573395139876 E 89, 21724312638268704 E 90, bnil.
Definition r281 := 17729098912651856 E 17, 11548801830176665 E 17, 53994172434240997 E 18, 19412978383188416 E 18, 56344398070811872 E 19, 13667298907575750 E 19, 28425162262093269 E 20, 51686796781729076 E 21, 83434547469340831 E 22, 12103801632666801 E 22, 15938958605617409 E 23, 19212438291713026 E 24, 21347530635052741 E 25, 21997331390809729 E 26, 21130474352736746 E 27, 19008027944440315 E 28, 16076380904815149 E 29, 12829236227304458 E 30, 96905176855866170 E 32, 69479844147704707 E 33, 47407643734366107 E 34, 30854901927017454 E 35, 19195751152798474 E 36, 11437516986688885 E 37, 65384662607091398 E 39, 35921016057293341 E 40, 18993595506433442 E 41, 96796774696457447 E 43, 47607576521837955 E 44, 22624580874348306 E 45, 10400813797496120 E 46, 46301812168112140 E 48, 19980464431825581 E 49, 83656009085010061 E 51, 34013867072292258 E 52, 13441378294013060 E 53, 51665688842908212 E 55, 19331014538664458 E 56, 70454309106346404 E 58, 25029481053517787 E 59, 86728920299960384 E 61, 29329650326359385 E 62, 96857058400649223 E 64, 31251877764434582 E 65, 98575642435411607 E 67, 30410943254387344 E 68, 91804850029133564 E 70, 27131678908974983 E 71, 78533432954721805 E 73, 22273227095933542 E 74, 61921122073420863 E 76, 16880727906814966 E 77, 45144336696993352 E 79, 11847646372602757 E 80, 30523107367200966 E 82, 77221625497209921 E 84, 19191245527296758 E 85, 46865903454213394 E 87, 11249451729006258 E 88, 26549280059231922 E 90, bnil.
Definition r282 := 17667502333223026 E 17, 11528418825208528 E 17, 54032269872565090 E 18, 19482291314913105 E 18, 56719722823552268 E 19, 13802521159070689 E 19, 28801012810779298 E 20, 52545851580363638 E 21, 85109175739438956 E 22, 12389016665174575 E 22, 16370776407449797 E 23, 19801295749919106 E 24, 22078341992711806 E 25, 22829752942992311 E 26, 22006789835746460 E 27, 19865701261474426 E 28, 16860759795542160 E 29, 13502490498891678 E 30, 10234960188227794 E 31, 73642024975775812 E 33, 50424819237523090 E 34, 32934452405784927 E 35, 20561876061696402 E 36, 12294805201409640 E 37, 70534059346994736 E 39, 38887087924732728 E 40, 20634714269085291 E 41, 10553273815399818 E 42, 52088033376421374 E 44, 24841537186992453 E 45, 11460451001871258 E 46, 51199913441143893 E 48, 22172467147614232 E 49, 93162923593354392 E 51, 38013669760526741 E 52, 15075290270388807 E 53, 58151703874090882 E 55, 21835012202135711 E 56, 79862910964037563 E 58, 28472683586448693 E 59, 99010136752229669 E 61, 33601753361449500 E 62, 11135912810525132 E 63, 36058719795729018 E 65, 11414150140647438 E 66, 35338146167957019 E 68, 10705809852799424 E 69, 31751972554652172 E 71, 92233538917747359 E 73, 26251721242616802 E 74, 73240938347979919 E 76, 20037649900573995 E 77, 53777363613923190 E 79, 14163448581320044 E 80, 36618996857742948 E 82, 92973136108991310 E 84, 23187963778298259 E 85, 56827351980477538 E 87, 13689034486495585 E 88, 32421664166063995 E 90, bnil.
Definition r283 := 17606315955861984 E 17, 11508060031465939 E 17, 54069590320465051 E 18, 19551288794403071 E 18, 57095120304220832 E 19, 13938300404105980 E 19, 29179809243035689 E 20, 53414774829454057 E 21, 86809113555119137 E 22, 12679574995238925 E 22, 16812248945044450 E 23, 20405457665468930 E 24, 22830808618277818 E 25, 23689881540019616 E 26, 22915485218135927 E 27, 20758219988032638 E 28, 17679901216379309 E 29, 14208076045250615 E 30, 10807571871954346 E 31, 78035081918085726 E 33, 53620653560906196 E 34, 35144955069514148 E 35, 22019179450658245 E 36, 13212555433321725 E 37, 76066186837704093 E 39, 42084920786388128 E 40, 22410344173965477 E 41, 11501826977432237 E 42, 56970189556531980 E 44, 27265830003533387 E 45, 12623301206311114 E 46, 56594187809776201 E 48, 24595086113585016 E 49, 10370733687775870 E 50, 42465722030815935 E 52, 16900401110507567 E 53, 65422424948901431 E 55, 24651918741466437 E 56, 90484821340228602 E 58, 32373712499642693 E 59, 11297372638501355 E 60, 38476325840236240 E 62, 12796508679423971 E 63, 41582456807356665 E 65, 13209236879696160 E 66, 41040471916445489 E 68, 12477358860331503 E 69, 37137145744794975 E 71, 10825836460400862 E 72, 30921834587060928 E 74, 86575765880276434 E 76, 23769732262623198 E 77, 64019482743229828 E 79, 16920644110368974 E 80, 43902537947819288 E 82, 11186031526920955 E 83, 27997329860791604 E 85, 68856814458596560 E 87, 16645540160498016 E 88, 39563618375091551 E 90, bnil.
Definition r284 := 17545535942897969 E 17, 11487726049039367 E 17, 54106140601099077 E 18, 19619970699726354 E 18, 57470578905058972 E 19, 14074633002358421 E 19, 29561553043749449 E 20, 54293618655761938 E 21, 88534600725545415 E 22, 12975548411748956 E 22, 17263543089150737 E 23, 21025246554593800 E 24, 23605468226139424 E 25, 24578508792178247 E 26, 23857606456150468 E 27, 21686839681332549 E 28, 18535187441425039 E 29, 14947399235273347 E 30, 11409683457408593 E 31, 82670787241034013 E 33, 57004927829973937 E 34, 37494072593081322 E 35, 23573341087191151 E 36, 14194763098268319 E 37, 82007790761180293 E 39, 45531593698482165 E 40, 24330911953975482 E 41, 12531434775327715 E 42, 62288269361949669 E 44, 29915924513869222 E 45, 13898956201009448 E 46, 62532673672860142 E 48, 27271548227088510 E 49, 11539780100265404 E 50, 47419117307440648 E 52, 18938219232296244 E 53, 73569226700060978 E 55, 27819411505890867 E 56, 10247096267319178 E 57, 36791344497322496 E 59, 12884241655518086 E 60, 44035550246283201 E 62, 14697041287437712 E 63, 47926674726639423 E 65, 15278254981273001 E 66, 47636228988097371 E 68, 14533721002368717 E 69, 43410212735035359 E 71, 12699136775893026 E 72, 36400507513440982 E 74, 10227466630143344 E 75, 28179004832595496 E 77, 76162859273740141 E 79, 20201227867635993 E 80, 52599349900288057 E 82, 13449208722619126 E 83, 33780597093590047 E 85, 83373438315347451 E 87, 20225944769774233 E 88, 48243313108565558 E 90, bnil.
Definition r285 := 17485158500746117 E 17, 11467417463904366 E 17, 54141927492678391 E 18, 19688336932590374 E 18, 57846087108774213 E 19, 14211515298195821 E 19, 29946245543342281 E 20, 55182434860108563 E 21, 90285877486409764 E 22, 13277009208466284 E 22, 17724827633011841 E 23, 21660989993124284 E 24, 24402869119223828 E 25, 25496444994549147 E 26, 24834228228253534 E 27, 22652855176484640 E 28, 19428049242813371 E 29, 15721921112178784 E 30, 12042682434819850 E 31, 87561459956536533 E 33, 60587914451690141 E 34, 39989881550863984 E 35, 25230369073741883 E 36, 15245669758735411 E 37, 88387366353667279 E 39, 49245368104886161 E 40, 26407606071315935 E 41, 13648663893019599 E 42, 68079260225488550 E 44, 32811847921878160 E 45, 15297856265310296 E 46, 69067845249101717 E 48, 30227315508859418 E 49, 12835373766795435 E 50, 52928057094716027 E 52, 21212575443137310 E 53, 82693710058205414 E 55, 31379533491686621 E 56, 11599034324064020 E 57, 41791633689097701 E 59, 14686740068516504 E 60, 50372441735018645 E 62, 16871072002308662 E 63, 55209447431377376 E 65, 17661733782944279 E 66, 55261232007503469 E 68, 16919352478270368 E 69, 50713394200164572 E 71, 14887744882172243 E 72, 42823899438013759 E 74, 12074551072719491 E 75, 33385110130638032 E 77, 90551307696154188 E 79, 24102032054907331 E 80, 62976823344134291 E 82, 16159267150724950 E 83, 40730230784503139 E 85, 10087927395626504 E 86, 24558837238311612 E 88, 58784241091095162 E 90, bnil.
Definition r286 := 17425179879329658 E 17, 11447134848177454 E 17, 54176957728498100 E 18, 19756387417966662 E 18, 58221633488593763 E 19, 14348943621154938 E 19, 30333887918439846 E 20, 56081274913682890 E 21, 92063184482992206 E 22, 13584030181980356 E 22, 18196273299758157 E 23, 22313020663345216 E 24, 25223570336165839 E 25, 26444519466879554 E 26, 25846454575505552 E 27, 23657601619210502 E 28, 20359967356410450 E 29, 16533159258304024 E 30, 12708015219224647 E 31, 92719988677744897 E 33, 64380399532155028 E 34, 42640892885133947 E 35, 26996617338717121 E 36, 16369777176785636 E 37, 95235264978493659 E 39, 53245764386363684 E 40, 28652428952345775 E 41, 14860583831034440 E 42, 74383123433386470 E 44, 35975314590286014 E 45, 16831361426497664 E 46, 76257002301458414 E 48, 33490290162416011 E 49, 14270647778568771 E 50, 59052359475174350 E 52, 23749863229506640 E 53, 92908800525036324 E 55, 35379179409934249 E 56, 13123214234162878 E 57, 47448779495738190 E 59, 16733184640782208 E 60, 57592226389955236 E 62, 19356702438571025 E 63, 63565296300073019 E 65, 20406011625745522 E 66, 64071310864910618 E 68, 19685441455783193 E 69, 59211026175065998 E 71, 17443250778752907 E 72, 50350456917992454 E 74, 14246460986290624 E 75, 39528260112975881 E 77, 10758917631482740 E 78, 28737340049739196 E 80, 75351653215701960 E 82, 19402285712921886 E 83, 49075798417741362 E 85, 12197526891199205 E 86, 29798680401907280 E 88, 71576358734997611 E 90, bnil.
Definition r287 := 17365596371510333 E 17, 11426878760367599 E 17, 54211237996975137 E 18, 19824122103719338 E 18, 58597206708303727 E 19, 14486914286415326 E 19, 30724481192554191 E 20, 56990189954408948 E 21, 93866762753209483 E 22, 13896684629608453 E 22, 18678052749653806 E 23, 22981676400809952 E 24, 26068141799426764 E 25, 27423580897480421 E 26, 26895419552531350 E 27, 24702455520134632 E 28, 21332473984239172 E 29, 17382689714184637 E 30, 13407189377010442 E 31, 98159855321006352 E 33, 68393706211664240 E 34, 45456073291462313 E 35, 28878803978685105 E 36, 17571862105017030 E 37, 10258380670598785 E 38, 57553643019110529 E 40, 31078252568684108 E 41, 16174803164511569 E 42, 81243019968565975 E 44, 39429860650030832 E 45, 18511828383366317 E 46, 84162692353273328 E 48, 37091037525833348 E 49, 15860039581103533 E 50, 65858015940082030 E 52, 26579302825977462 E 53, 10433995944097127 E 54, 39870633674628688 E 56, 14840802643644574 E 57, 53846094118858630 E 59, 19055482007531974 E 60, 65813888541896372 E 62, 22197167889483036 E 63, 73147405796755938 E 65, 23564041685942452 E 66, 74245167875161796 E 68, 22890896256999603 E 69, 69092896034181790 E 71, 20425444291343406 E 72, 59164457167494535 E 74, 16798787573515212 E 75, 46772675332957493 E 77, 12775171791797124 E 78, 34241948333858473 E 80, 90098694178348717 E 82, 23280510025705727 E 83, 59090943040879010 E 85, 14738027032091339 E 86, 36130891384131317 E 88, 87089416963487719 E 90, bnil.
Definition r288 := 17306404312527007 E 17, 11406649745623337 E 17, 54244774941693621 E 18, 19891540960237514 E 18, 58972795522274062 E 19, 14625423595268803 E 19, 31118026236779268 E 20, 57909230783371679 E 21, 95696853710650238 E 22, 14215046347240041 E 22, 19170340587194013 E 23, 23667300241106690 E 24, 26937164464352773 E 25, 28434497691158426 E 26, 27982287889173950 E 27, 25788835830965158 E 28, 22347154334341545 E 29, 18272148953211816 E 30, 14141775925775201 E 31, 10389515968116874 E 32, 72639718950268392 E 34, 48444867557833679 E 35, 30884030489168018 E 36, 18856991850867046 E 37, 11046739921137133 E 38, 62191290599003133 E 40, 33698877563667723 E 41, 17599508253123860 E 42, 88705552493692591 E 44, 43200988747199400 E 45, 20352693519379168 E 46, 92853167958777527 E 48, 41063028396586109 E 49, 17619414703804987 E 50, 73417800928676026 E 52, 29733231309693212 E 53, 11712651936290871 E 54, 44912165622577232 E 56, 16775472078058888 E 57, 61077080544765357 E 59, 21689567515607593 E 60, 75171907119007014 E 62, 25441505615989483 E 63, 84130127371350737 E 65, 27196305893947927 E 66, 85987629636648407 E 68, 26603474034713331 E 69, 80578066219970148 E 71, 23903580209283053 E 72, 69480098426576144 E 74, 19796375147490517 E 75, 55310582946187729 E 77, 15159718819211401 E 78, 40774751146149070 E 80, 10766136440735148 E 81, 27915311422310997 E 83, 71101633861209167 E 85, 17795358711551356 E 86, 43777894945083957 E 88, 10588890111001581 E 89, bnil.
Definition r289 := 17247600079442271 E 17, 11386448335975630 E 17, 54277575161457675 E 18, 19958643980071675 E 18, 59348388775470164 E 19, 14764467835584950 E 19, 31514523770499118 E 20, 58838447861303132 E 21, 97553699127603848 E 22, 14539189627126721 E 22, 19673313368053467 E 23, 24370240466572028 E 24, 27831230469164265 E 25, 29478158321194759 E 26, 29108255662935712 E 27, 26918205042883503 E 28, 23405648198800722 E 29, 19203235913179541 E 30, 14913411709541768 E 31, 10994064490807606 E 32, 77130908797941710 E 34, 51617221895460360 E 35, 33019801922902999 E 36, 20230540651107662 E 37, 11892266331613898 E 38, 67182511001051555 E 40, 36529096134212023 E 41, 19143504557619935 E 42, 96821024554712897 E 44, 47316323645427441 E 45, 22368562460153729 E 46, 10240288178114616 E 47, 45442902326018483 E 49, 19566201674474236 E 50, 81811938829063416 E 52, 33247421168449067 E 53, 13142315571107888 E 54, 50568687795901138 E 56, 18953686358463923 E 57, 69246633211790769 E 59, 24675895725264753 E 60, 85818203263266396 E 62, 29145307094831655 E 63, 96711807879121712 E 65, 31371850943802344 E 66, 99533346304845920 E 68, 30901069266095307 E 69, 93919254781417888 E 71, 27957832757246193 E 72, 81546219034486182 E 74, 23314818096950486 E 75, 65366861752595588 E 77, 17978095160372485 E 78, 48522934633277278 E 80, 12856386114114839 E 81, 33450673466997312 E 83, 85495921885391134 E 85, 21472176169639103 E 86, 53006331463874269 E 88, 12865507793828002 E 89, bnil.
Definition r290 := 17189180090596967 E 17, 11366275050576488 E 17, 54309645210350824 E 18, 20025431177573823 E 18, 59723975403450178 E 19, 14904043282272198 E 19, 31913974362108227 E 20, 59777891305126365 E 21, 99437541118080801 E 22, 14869189255617275 E 22, 20187149605883189 E 23, 25090850652943998 E 24, 28750943285864657 E 25, 30555471685378031 E 26, 30274550982303401 E 27, 28092070307461638 E 28, 24509651570649425 E 29, 20177714086054994 E 30, 15723801851408737 E 31, 11631172391282123 E 32, 81880359684503424 E 34, 54983608300603977 E 35, 35294048015955106 E 36, 21698206894953230 E 37, 12798856551364989 E 38, 72552721957213036 E 40, 39584758889592779 E 41, 20816260726759171 E 42, 10564371815298040 E 43, 51805779449228404 E 45, 24575306661918122 E 46, 11289302243509493 E 47, 50270753604378262 E 49, 21719539079888684 E 50, 91128833600940232 E 52, 37161430009800500 E 53, 14740150798045572 E 54, 56912483685754496 E 56, 21405017247002942 E 57, 78472374746686042 E 59, 28059988422949986 E 60, 97924323963631685 E 62, 33371564393356470 E 63, 11111798310403166 E 64, 36169462146976241 E 66, 11515099779422534 E 67, 35873183960714480 E 69, 10940785124439039 E 70, 32680966862457066 E 72, 95651738930519872 E 74, 27442193072691040 E 75, 77204435975197658 E 77, 21307191844990043 E 78, 57706881268159304 E 80, 15342549496773750 E 81, 40057297526959269 E 83, 10273546799683895 E 84, 25891031639257979 E 86, 64135634264188983 E 88, 15620574050704072 E 89, bnil.
Definition r291 := 17131140805072492 E 17, 11346130395933521 E 17, 54340991597802035 E 18, 20091902588541426 E 18, 60099544432349761 E 19, 15044146197734747 E 19, 32316378429744189 E 20, 60727610884559568 E 21, 10134862212083190 E 21, 15205120510839186 E 22, 20712029778956130 E 23, 25829489715950168 E 24, 29696917872060571 E 25, 31667367466102768 E 26, 31482434681058111 E 27, 29311984580431397 E 28, 25660918300404844 E 29, 21197413667332073 E 30, 16574722285768380 E 31, 12302450673309830 E 32, 86901795765527449 E 34, 58555049988085368 E 35, 37715145323636732 E 36, 23266031235847115 E 37, 13770655783556422 E 38, 78329057350038977 E 40, 42882845920724491 E 41, 22627955627958818 E 42, 11523219090544066 E 43, 56701739264251088 E 45, 26990167551581593 E 46, 12441209426903324 E 47, 55590441790886308 E 49, 24100435811882567 E 50, 10146586662060444 E 51, 41518984316572377 E 53, 16525196504990719 E 54, 64024011956438334 E 56, 24162495599404732 E 57, 88886143580474682 E 59, 31893046629812450 E 60, 11168388924417425 E 61, 38191622023920827 E 63, 12760498186256251 E 64, 41678992845451684 E 66, 13314807406760267 E 67, 41622604380076451 E 69, 12737965704904656 E 70, 38180257535460356 E 72, 11213193084544520 E 73, 32281062267666315 E 75, 91130534988209263 E 77, 25237168746889074 E 78, 68585901496107606 E 80, 18297750038491803 E 81, 47937434402966354 E 83, 12336915710828210 E 84, 31198137550965555 E 86, 77548229895849037 E 88, 18952335108734456 E 89, bnil.
Definition r292 := 17073478722160743 E 17, 11326014866140373 E 17, 54371620788658398 E 18, 20158058269865334 E 18, 60475084978853155 E 19, 15184772832325260 E 19, 32721736242031851 E 20, 61687656018778655 E 21, 10328718488236383 E 21, 15547059160326203 E 22, 21248136336659073 E 23, 26586521957823042 E 24, 30669780823681095 E 25, 32814796494539918 E 26, 32733201023665042 E 27, 30579547788628085 E 28, 26861261792974738 E 29, 22264233766347449 E 30, 17468022372265495 E 31, 13009582888774233 E 32, 92209609861561392 E 34, 62343147938556523 E 35, 40291940409795868 E 36, 24940415633689709 E 37, 14812072543227155 E 38, 84540475534570441 E 40, 46441542326150727 E 41, 24589528505022528 E 42, 12564959408776615 E 43, 62039248164074436 E 45, 29631868775274169 E 46, 13705654449483131 E 47, 61449928786573209 E 49, 26731945622660592 E 50, 11293026882458729 E 51, 46368400412228725 E 53, 18518563046952660 E 54, 71992794847012363 E 56, 27263000631010461 E 57, 10063564879984249 E 58, 36232633792792412 E 60, 12731533353477461 E 61, 43686246948941267 E 63, 14646399162363883 E 64, 48002869295466602 E 66, 15387630526454816 E 67, 48267312336869543 E 69, 14822145191569926 E 70, 44579693063269404 E 72, 13137564387975575 E 73, 37950788968630134 E 75, 10750395401454045 E 76, 29873682679225675 E 78, 81464928283736813 E 80, 21808273883746297 E 81, 57330567012660148 E 83, 14804916604952381 E 84, 37567822262192159 E 86, 93701660753346825 E 88, 22978741159369921 E 89, bnil.
Definition r293 := 17016190380841645 E 17, 11305928943103184 E 17, 54401539203264362 E 18, 20223898299181413 E 18, 60850586250152357 E 19, 15325919424793318 E 19, 33130047918839564 E 20, 62658075773139413 E 21, 10525347243995925 E 21, 15895081458593264 E 22, 21795653705831288 E 23, 27362317113738279 E 24, 31670170528587895 E 25, 33998731118889816 E 26, 34028178421844250 E 27, 31896408020437062 E 28, 28112556745692970 E 29, 23380144678966964 E 30, 18405627593722095 E 31, 13754328075136000 E 32, 97818893029125600 E 34, 66360108603067622 E 35, 43033774134714799 E 36, 26728143371042385 E 37, 15927794225772590 E 38, 91217874016554420 E 40, 50280318454248427 E 41, 26712732456917831 E 42, 13696401293513383 E 43, 67856220390071880 E 45, 32520737150792754 E 46, 15093144132244576 E 47, 67901644601337404 E 49, 29639357203858678 E 50, 12564007374245387 E 51, 51763046079454450 E 53, 20743648507285038 E 54, 80918399187922896 E 56, 30747691263826443 E 57, 11388631029027792 E 58, 41143438120118673 E 60, 14506497527408442 E 61, 49946830872946256 E 63, 16802564267022246 E 64, 55257793392182686 E 66, 17773782707363075 E 67, 55942662829802717 E 69, 17237850121941902 E 70, 52022502687323237 E 72, 15383361974835532 E 73, 44590212622964094 E 75, 12674347124355631 E 76, 35340479324880350 E 78, 96702331868984201 E 80, 25975877845161739 E 81, 68520090054916942 E 83, 17754991592523248 E 84, 45207803888703031 E 86, 11314298322406554 E 87, 27841304349206136 E 89, bnil.
Definition r294 := 16959272359268082 E 17, 11285873096763183 E 17, 54430753217546257 E 18, 20289422774525920 E 18, 61226037543893087 E 19, 15467582202729469 E 19, 33541313432045749 E 20, 63638918855957619 E 21, 10724772810469758 E 21, 16249264144658332 E 22, 22354768296947309 E 23, 28157250398167748 E 24, 32698737321063036 E 25, 35220165576722322 E 26, 35368730162415718 E 27, 33264262740068314 E 28, 29416740928246428 E 29, 24547190224068510 E 30, 19389542340296783 E 31, 14538523798072161 E 32, 10374546530309986 E 33, 70618772809932380 E 35, 45950507088576561 E 36, 28636400088665978 E 37, 17122803526700762 E 38, 98394210831378716 E 40, 54420015135063686 E 41, 29010191442717797 E 42, 14924883065961914 E 43, 74193661771227636 E 45, 35678832960452792 E 46, 16615120702283272 E 47, 75002884131498846 E 49, 32850401101556169 E 50, 13972515856468678 E 51, 57761846578670943 E 53, 23226376585563528 E 54, 90911519278452552 E 56, 34662483917481448 E 57, 12882330409637188 E 58, 46698122878115767 E 60, 16521045258353865 E 61, 57076740586144036 E 63, 19266517461872886 E 64, 63576668356959488 E 66, 20519217759287937 E 67, 64803863925404542 E 69, 20036313496710164 E 70, 60674055082578938 E 72, 18002806199419223 E 73, 52360737595860823 E 75, 14933760024856067 E 76, 41782406739242507 E 78, 11471903698018921 E 79, 30920491350494591 E 81, 81841156926982131 E 83, 21279041327894960 E 84, 54365428610279103 E 86, 13652585778988396 E 87, 33709693896742174 E 89, bnil.
Definition r295 := 16902721274258162 E 17, 11265847785315340 E 17, 54459269163103577 E 18, 20354631813994765 E 18, 61601428248108953 E 19, 15609757383005247 E 19, 33955532606317452 E 20, 64630233615349446 E 21, 10927019544448514 E 21, 16609684439512547 E 22, 22925668510144421 E 23, 28971702551143332 E 24, 33756143637166450 E 25, 36480116371414349 E 26, 36756255146519142 E 27, 34684860025992269 E 28, 30775817005270132 E 29, 25767490145277717 E 30, 20421852782201143 E 31, 15364089302544095 E 32, 11000590765131655 E 33, 75132645920445509 E 35, 49052546219250766 E 36, 30672795887660943 E 37, 18402395755365993 E 38, 10610463298523470 E 39, 58882934189824486 E 41, 31495461029576700 E 42, 16258311773232901 E 43, 81095908414841590 E 45, 39130090264575062 E 46, 18284041012705681 E 47, 82816237440880434 E 49, 36395474884578029 E 50, 15532838099135701 E 51, 64429839142000099 E 53, 25995458179757353 E 54, 10209517175298827 E 55, 39058581540016484 E 57, 14565383497916585 E 58, 52978274409352582 E 60, 18806456704516796 E 61, 65192833932474728 E 63, 22080825668140280 E 64, 73110775586468939 E 66, 23676423408969351 E 67, 75028799478753172 E 69, 23276454650555023 E 70, 70725180355633626 E 72, 21056364126350967 E 73, 61449897710021450 E 75, 17585588343615092 E 76, 49368917060332709 E 78, 13600915361073388 E 79, 36783377795313315 E 81, 97689892457616966 E 83, 25486057023562173 E 84, 65335045327903365 E 86, 16463082176110156 E 87, 40787205703836526 E 89, bnil.
Definition r296 := 16846533780794698 E 17, 11245853455423306 E 17, 54487093327305364 E 18, 20419525555406461 E 18, 61976747841143744 E 19, 15752441172208690 E 19, 34372705119898683 E 20, 65632068036129435 E 21, 11132111826709171 E 21, 16976420043538317 E 22, 23508544741092588 E 23, 29806059884423481 E 24, 34843064170949575 E 25, 37779622652688087 E 26, 38192188640301483 E 27, 36159999833865034 E 28, 32191854402390702 E 29, 27043242579431320 E 30, 21504729833340057 E 31, 16233028775626614 E 32, 11661759518336916 E 33, 79915929281559291 E 35, 52350872704980374 E 36, 32845388547437652 E 37, 19772197087325594 E 38, 11438661233784352 E 39, 63692934521485446 E 41, 34183093112964075 E 42, 17705204807249897 E 43, 88610882786934079 E 45, 42900467962353447 E 46, 20113462127322490 E 47, 91410056227859925 E 49, 40307888096494270 E 50, 17260682025465941 E 51, 71838780374336990 E 53, 29082678918903957 E 54, 11460601352650147 E 55, 43993059148524413 E 57, 16460966040754839 E 58, 60075458671958726 E 60, 21397958225601003 E 61, 74427160982938848 E 63, 25293754148960955 E 64, 84032234303657052 E 66, 27305321172173965 E 67, 86821240554710451 E 69, 27025997889931863 E 70, 82395975537198223 E 72, 24614014566234413 E 73, 72075467698019443 E 75, 20696196302097159 E 76, 58298133289492072 E 78, 16115236567873723 E 79, 43730831299865498 E 81, 11653420288128332 E 82, 30505219384264705 E 84, 78466718380845175 E 86, 19838932247153195 E 87, 49317268786936965 E 89, bnil.
Definition r297 := 16790706571531763 E 17, 11225890542430604 E 17, 54514231953392341 E 18, 20484104155968758 E 18, 62351985891561995 E 19, 15895629767075669 E 19, 34792830505409804 E 20, 66644469736768045 E 21, 11340074060319992 E 21, 17349549133876414 E 22, 24103589386706879 E 23, 30660714327558004 E 24, 35960186031515976 E 25, 39119746601258682 E 26, 39678003037170740 E 27, 37691535284279588 E 28, 33666991216512172 E 29, 28376726593272781 E 30, 22640432208297825 E 31, 17147434724518852 E 32, 12359873165691697 E 33, 84983553025266626 E 35, 55857071124464785 E 36, 35162707910795982 E 37, 21238183801993780 E 38, 12328008932475978 E 39, 68875534105745248 E 41, 37088704851404400 E 42, 19274734388526795 E 43, 96790368373164085 E 45, 47018112376362546 E 46, 22118133753727957 E 47, 10085895936384825 E 48, 44624128643335832 E 50, 19173313140711889 E 51, 80067811378936906 E 53, 32523215107453856 E 54, 12859579495930992 E 55, 49529511668549616 E 57, 18594989269974920 E 58, 68092398245954684 E 60, 24335202896383371 E 61, 84928872223385074 E 63, 28960004168775961 E 64, 96536779495924424 E 66, 31474286158878185 E 67, 10041449734145123 E 68, 31362748928806163 E 70, 95940161768236829 E 72, 28756701469567971 E 73, 84490203010245830 E 75, 24342870124101918 E 76, 68801569757709486 E 78, 19082836022806636 E 79, 51958497092940610 E 81, 13892645262790527 E 82, 36489545137665253 E 84, 94176514902732482 E 86, 23891219098789817 E 87, 59591180227181360 E 89, bnil.
Definition r298 := 16735236376308268 E 17, 11205959470568148 E 17, 54540691240584541 E 18, 20548367791949074 E 18, 62727132058047804 E 19, 16039319354916972 E 19, 35215908150656663 E 20, 67667485966407158 E 21, 11550930668946711 E 21, 17729150361742280 E 22, 24710996850700675 E 23, 31536063473843799 E 24, 37108208900916093 E 25, 40501573817594449 E 26, 41215208631709078 E 27, 39281373975675150 E 28, 35203436171143259 E 29, 29770304789905090 E 30, 23831309575139068 E 31, 18109491473241764 E 32, 13096838532601837 E 33, 90351210266085286 E 35, 59583359978788249 E 36, 37633781489503971 E 37, 22806702554369478 E 38, 13282762493672350 E 39, 74458018218811468 E 41, 40229052071653373 E 42, 20976775099482246 E 43, 10569030418734251 E 44, 51513532189606486 E 46, 24314098042987484 E 47, 11124438060607912 E 48, 49384152399762281 E 50, 21289702272098687 E 51, 89204185842498772 E 53, 36355980765109574 E 54, 14423296152553161 E 55, 55738770428831353 E 57, 20996410875257310 E 58, 77144283014983463 E 60, 27662807426228601 E 61, 96866358038035705 E 63, 33141542896269029 E 64, 11084689792149809 E 65, 36261302264550424 E 67, 11607557001864363 E 68, 36376050678409486 E 70, 11165007069389527 E 71, 33578002879826575 E 73, 98987301182827551 E 75, 28615566183672815 E 76, 81149608387995692 E 78, 22583362399153612 E 79, 61696417880359054 E 81, 16551832176644659 E 82, 43620175407477096 E 84, 11295864413402386 E 85, 28752335622274715 E 87, 71957294891594255 E 89, bnil.
Definition r299 := 16680119961668405 E 17, 11186060653158210 E 17, 54566477344193655 E 18, 20612316658348600 E 18, 63102176089293426 E 19, 16183506114041072 E 19, 35641937299449967 E 20, 68701163601934942 E 21, 11764706095160446 E 21, 18115302849692231 E 22, 25330963548979705 E 23, 32432510626166359 E 24, 38287845192866026 E 25, 41926213714796177 E 26, 42805354405341550 E 27, 40931479322743768 E 28, 36803470617577532 E 29, 31226425986554601 E 30, 25079805806548071 E 31, 19121478781617558 E 32, 13874652617735296 E 33, 96035392749766739 E 35, 63542623621679628 E 36, 40268161345966153 E 37, 24484491731810414 E 38, 14307456139389836 E 39, 80469554255859957 E 41, 43622107414653822 E 42, 22821954663051452 E 43, 11537110047547463 E 44, 56419786620010946 E 46, 26718797311109433 E 47, 12265516182050156 E 48, 54631697956924799 E 50, 23630686685735173 E 51, 99344066766720573 E 53, 40624008687825853 E 54, 16170441851691425 E 55, 62699695288860046 E 57, 23697579978305794 E 58, 87360229122314666 E 60, 31430951859355605 E 61, 11042964651152670 E 62, 37908536680787052 E 64, 12721536676166800 E 65, 41755270123341126 E 67, 13410986454282793 E 68, 42168442796017000 E 70, 12986234812494426 E 71, 39186046453168221 E 73, 11590669137723448 E 74, 33618931092364372 E 76, 95657848353955799 E 78, 26710098500271366 E 79, 73214924891045411 E 81, 19707820927071404 E 82, 52111415964287247 E 84, 13539977357481407 E 85, 34579973974159367 E 87, 86831936799183499 E 89, bnil.
Definition r300 := 16625354130388895 E 17, 11166194492814806 E 17, 54591596375740875 E 18, 20675950968579968 E 18, 63477107823875769 E 19, 16328186214172469 E 19, 36070917052433751 E 20, 69745549145118041 E 21, 11981424798747193 E 21, 18508086188839645 E 22, 25963687914874901 E 23, 33350464842720166 E 24, 39499820212277051 E 25, 43394799915598328 E 26, 44450028823853404 E 27, 42643871920670311 E 28, 38469450582743710 E 29, 32747627965221360 E 30, 26388462331880435 E 31, 20185775590214562 E 32, 14695406460151068 E 33, 10205342800810036 E 34, 67748445656674658 E 36, 43075952308840630 E 37, 26278703949101968 E 38, 15406919197405500 E 39, 86941313512628694 E 41, 47287143507757178 E 42, 24821708174056994 E 43, 12589797704888252 E 44, 61772687776777152 E 46, 29351190276893915 E 47, 13518819529988182 E 48, 60414628586212763 E 50, 26219145733995855 E 51, 11059339802230000 E 52, 45374868718203016 E 54, 18121747467259011 E 55, 70500050055508774 E 57, 26734619678422032 E 58, 98884902330736039 E 60, 35696049123298173 E 61, 12583308961119467 E 62, 43340400126325582 E 64, 14592924485047094 E 65, 48057487352548071 E 67, 15486654774173391 E 68, 48857552610560201 E 70, 15096447495985275 E 71, 45705706874507116 E 73, 13564227397929790 E 74, 39474634810134008 E 76, 11269446450452708 E 77, 31572233549541585 E 79, 86831511162013131 E 81, 23451160676827327 E 82, 62216657752009740 E 84, 16219590236977595 E 85, 41561843595651911 E 87, 10471234673353481 E 88, bnil.
Definition r301 := 16570935721012880 E 17, 11146361381640646 E 17, 54616054403079178 E 18, 20739270954148726 E 18, 63851917190123368 E 19, 16473355816866025 E 19, 36502846367923828 E 20, 70800688719793178 E 21, 12201111255019695 E 21, 18907580436022325 E 22, 26609370404214684 E 23, 34290340982603066 E 24, 40744872315585993 E 25, 44908490653497657 E 26, 46150860646851002 E 27, 44420630935547903 E 28, 40203808864555950 E 29, 34336540297820425 E 30, 27759921592756470 E 31, 21304863895035325 E 32, 15561289154791724 E 33, 10842351807650856 E 34, 72215143861921725 E 36, 46067841582827083 E 37, 28196929737444277 E 38, 16586294047595710 E 39, 93906600321989668 E 41, 51244821464635264 E 42, 26988336003154816 E 43, 13734132577066959 E 44, 67611018206292810 E 46, 32231877452803752 E 47, 14894911902913397 E 48, 66785303655227473 E 50, 29080192281357910 E 51, 12306885743031672 E 52, 50661126698508984 E 54, 20300198210540746 E 55, 79237469586908442 E 57, 30147851099057792 E 58, 11188032360057749 E 59, 40521492257890341 E 61, 14331837117885085 E 62, 49526974826144433 E 64, 16731437238694180 E 65, 55283323028758624 E 67, 17874462557858423 E 68, 56578248664502560 E 70, 17540221885843588 E 71, 53281125405330264 E 73, 15865024954231863 E 74, 46324063887784027 E 76, 13268873030026759 E 77, 37297503969731021 E 79, 10291884640646718 E 80, 27888493634945665 E 82, 74235327431710194 E 84, 19417223705611740 E 85, 49921247479342002 E 87, 12619203674821251 E 88, bnil.
Definition r302 := 16516861607390448 E 17, 11126561701420661 E 17, 54639857450520427 E 18, 20802276864338307 E 18, 64226594205972071 E 19, 16619011075916692 E 19, 36937724062754718 E 20, 71866628069115724 E 21, 12423789953131269 E 21, 19313866110920709 E 22, 27268213500234262 E 23, 35252559751276925 E 24, 42023753071872184 E 25, 46468469178009790 E 26, 47909519749257258 E 27, 46263895521307674 E 28, 42009057175598919 E 29, 35995887247440442 E 30, 29196930604876890 E 31, 22481332755816384 E 32, 16474592021334125 E 33, 11516477983297237 E 34, 76957806705590070 E 36, 49255129815281198 E 37, 30247222485442015 E 38, 17851055082231927 E 39, 10140098895763520 E 40, 55517285031045653 E 42, 29335065606198973 E 43, 14977709881579547 E 44, 73976764702511183 E 46, 35383236370332789 E 47, 16405306903545792 E 48, 73800981906429359 E 50, 32241381258478289 E 51, 13689889864785969 E 52, 56540847888792403 E 54, 22731269150696068 E 55, 89020527792285904 E 57, 33982263258925631 E 58, 12652787655332232 E 59, 45978488001431559 E 61, 16315787389129113 E 62, 56569853220433811 E 64, 19174044169706385 E 65, 63564111034187921 E 67, 20619983908045997 E 68, 65485092191981675 E 70, 20368814541829502 E 71, 62078597363721466 E 73, 18545869616175785 E 74, 54331428828907572 E 76, 15614088435791211 E 77, 44035260759318206 E 79, 12191411794362251 E 80, 33145342580310882 E 82, 88521042479891687 E 84, 23230659026887890 E 85, 59923668894726706 E 87, 15197898798409623 E 88, bnil.
Definition r303 := 16463128698225590 E 17, 11106795823812168 E 17, 54663011498967157 E 18, 20864968965898650 E 18, 64601128978811215 E 19, 16765148137765254 E 19, 37375548813136018 E 20, 72943412552867502 E 21, 12649485394392398 E 21, 19727024193128306 E 22, 27940421718322977 E 23, 36237547745890723 E 24, 43337227424751175 E 25, 48075944164059796 E 26, 49727717954936835 E 27, 48175866263509050 E 28, 43887788335996001 E 29, 37728490747375797 E 30, 30702344628799704 E 31, 23717882441907051 E 32, 17437712931539386 E 33, 12229728701876129 E 34, 81992331517154691 E 36, 52649763684848561 E 37, 32438124692750707 E 38, 19207028733089729 E 39, 10946246873830907 E 40, 60128260712229509 E 42, 31876117485621474 E 43, 16328722442671667 E 44, 80915369528141998 E 46, 38829567369154438 E 47, 18062549326642240 E 48, 81524259195835704 E 50, 35732936803975431 E 51, 15222488975306007 E 52, 63078148967995586 E 54, 25443184336755013 E 55, 99969916621808778 E 57, 38288033523081759 E 58, 14303053852632131 E 59, 52146986342400322 E 61, 18565844647891681 E 62, 64583864816405521 E 64, 21962670903957428 E 65, 73049289929923063 E 67, 23775248435970599 E 68, 75755126448980155 E 70, 23641133485059620 E 71, 72289879647403987 E 73, 21667857689997089 E 74, 63687347413706057 E 76, 18363354644874540 E 77, 51960030477467006 E 79, 14432991115556998 E 80, 39369368697625978 E 82, 10549117416796428 E 83, 27775691091413317 E 85, 71884547088681464 E 87, 18291720536327702 E 88, bnil.
Definition r304 := 16409733936629570 E 17, 11087064110531755 E 17, 54685522486048098 E 18, 20927347542738440 E 18, 64975511705319391 E 19, 16911763141899442 E 19, 37816319155516744 E 20, 74031087144821060 E 21, 12878222090589831 E 21, 20147136119174014 E 22, 28626201610607174 E 23, 37245737500457790 E 24, 44686073855030534 E 25, 49732150125505029 E 26, 51607209882539741 E 27, 50158806650330619 E 28, 45842678516312981 E 29, 39537273459610426 E 30, 32279130952468684 E 31, 25017328719787971 E 32, 18453160800386620 E 33, 12984211400338009 E 34, 87335464382188020 E 36, 56264370079919354 E 37, 34778695599690664 E 38, 20660414620741824 E 39, 11813159778825862 E 40, 65103164236205991 E 42, 34626775564913005 E 43, 17796005199409885 E 44, 88476000268829549 E 46, 42597250730265658 E 47, 19880303176584442 E 48, 90023543489730383 E 50, 39587999571480934 E 51, 16920235709278729 E 52, 70343803099697449 E 54, 28467201785583322 E 55, 11221974710705374 E 56, 43121103862478874 E 58, 16161535916450675 E 59, 59116716672798696 E 61, 21116561706305615 E 62, 73698743983618781 E 64, 25144842572609322 E 65, 83908820387540556 E 67, 27399627654753662 E 68, 87591048984929706 E 70, 27424846963133587 E 71, 84135977562664118 E 73, 25301638450211770 E 74, 74612974789455903 E 76, 21584491942174099 E 77, 61275647078317007 E 79, 17076687634869962 E 80, 46734176974086825 E 82, 12563805515892976 E 83, 33189365668823612 E 85, 86178451208841129 E 87, 22001223315699724 E 88, bnil.
Definition r305 := 16356674299680560 E 17, 11067366913538929 E 17, 54707396306258781 E 18, 20989412895620781 E 18, 65349732671290909 E 19, 17058852221251140 E 19, 38260033487458480 E 20, 75129696430162771 E 21, 13110024562308803 E 21, 20574283779497678 E 22, 29325761770369491 E 23, 38277567530883225 E 24, 46071084544117464 E 25, 51438347832795068 E 26, 53549793803657265 E 27, 52215044571112290 E 28, 47876489531364042 E 29, 41425261914461680 E 30, 33930372788344100 E 31, 26382607286393196 E 32, 19523560246428484 E 33, 13782138135819306 E 34, 93004841830755031 E 36, 60112291937426798 E 37, 37278540258916046 E 38, 22217807884038917 E 39, 12745166593292896 E 40, 70469213726678092 E 42, 37603462252584193 E 43, 19389082840598563 E 44, 96711839623054623 E 46, 46714915987635395 E 47, 21873446826674390 E 48, 99373570132599222 E 50, 43842895906697011 E 51, 18800234367811795 E 52, 78415902938440812 E 54, 31837926807908403 E 55, 12591898456776789 E 56, 48543818668629483 E 58, 18253621295711965 E 59, 66988342312463585 E 61, 24006830353034446 E 62, 84061000728231273 E 64, 28774407604540289 E 65, 96335914982574427 E 67, 31560839247598170 E 68, 10122481776693890 E 69, 31797648059822073 E 71, 97871478324472228 E 73, 29528865976981129 E 74, 87364761354348431 E 76, 25356404856937355 E 77, 72220043580471635 E 79, 20192846739105838 E 80, 55443758749166351 E 82, 14954210720714789 E 83, 39633783895145706 E 85, 10324989758211563 E 86, 26446134137435195 E 88, bnil.
Definition r306 := 16303946797989499 E 17, 11047704575216546 E 17, 54728638811105373 E 18, 21051165341862556 E 18, 65723782251452464 E 19, 17206411502588949 E 19, 38706690068516348 E 20, 76239284602972631 E 21, 13344917337258262 E 21, 21008549515378645 E 22, 30039312836302717 E 23, 39333482379834158 E 24, 47493065538163451 E 25, 53195824734766982 E 26, 55557312513378447 E 27, 54346973842791271 E 28, 49992071185790263 E 29, 43395589733115502 E 30, 35659273288039737 E 31, 27816778352496584 E 32, 20651656426957452 E 33, 14625830330523304 E 34, 99019034392014414 E 36, 64207625815308558 E 37, 39947840118097629 E 38, 23886222750518593 E 39, 13746886723330019 E 40, 76255549979666013 E 42, 40823818488092402 E 43, 21118220772919298 E 44, 10568039651597113 E 45, 51213624310677418 E 47, 24058175869406775 E 48, 10965596063034692 E 49, 48537430736051203 E 51, 20881289219220337 E 52, 87380586879892072 E 54, 35593656370245286 E 55, 14123303125170460 E 56, 54625630437269578 E 58, 20607685483208793 E 59, 75874746422791928 E 61, 27280407745623893 E 62, 95836018281110948 E 64, 32912351974711781 E 65, 11055011936749660 E 66, 36336084377825217 E 68, 11692174861602845 E 69, 36848696378482171 E 71, 11378950776800208 E 72, 34443865305037288 E 74, 10223993111427333 E 75, 29770845004114586 E 77, 85070806036965314 E 79, 23863808182273607 E 80, 65737675271793615 E 82, 17788720936714973 E 83, 47300570852657667 E 85, 12362609735789551 E 86, 31768921697628547 E 88, bnil.
Definition r307 := 16251548475272024 E 17, 11028077428548164 E 17, 54749255809252877 E 18, 21112605215037161 E 18, 66097650909270802 E 19, 17354437106906818 E 19, 39156287021128061 E 20, 77359895463762022 E 21, 13582924948599600 E 21, 21450016115818538 E 22, 30767067496598291 E 23, 40413932661447690 E 24, 48952836912935167 E 25, 55005895384578305 E 26, 57631654213338841 E 27, 56557055764584129 E 28, 52192363672295271 E 29, 45451500934814119 E 30, 37469159677431649 E 31, 29323031380529646 E 32, 21840320053731413 E 33, 15517723710985658 E 34, 10539759209024929 E 35, 68565261274865564 E 37, 42797385185573264 E 38, 25673117411344759 E 39, 14823248268783382 E 40, 82493364259439671 E 42, 44306789079208528 E 43, 22994479641410273 E 44, 11544384001614974 E 45, 56127064911460254 E 47, 26452114246903225 E 48, 12095982844043957 E 49, 53715206155819228 E 51, 23184066351690073 E 52, 97332834321041075 E 54, 39776757435978867 E 55, 15834547092996092 E 56, 61443880255765196 E 58, 23255431089089593 E 59, 85902463704714329 E 61, 30986504427422971 E 62, 10921040403180561 E 63, 37627714826606737 E 65, 12680078854828995 E 66, 41813335094097286 E 68, 13498516877698455 E 69, 42680260828448386 E 71, 13222739719648631 E 72, 40155543587995014 E 74, 11958278647006070 E 75, 34934446574032916 E 77, 10015160773313392 E 78, 28185898315208707 E 80, 77897102588457308 E 82, 21147867916323711 E 83, 56416121207139246 E 85, 14793197037026821 E 86, 38139013910031481 E 88, bnil.
Definition r308 := 16199476407926416 E 17, 11008485797292283 E 17, 54769253066677022 E 18, 21173732864680831 E 18, 66471329196751252 E 19, 17502925149808063 E 19, 39608822331510112 E 20, 78491572417067499 E 21, 13824071933278798 E 21, 21898766814378072 E 22, 31509240492868405 E 23, 41519375105870138 E 24, 50451232939396384 E 25, 56869901869775714 E 26, 59774753407348377 E 27, 58847820701261810 E 28, 54480400023426483 E 29, 47596353330481040 E 30, 39363487515258830 E 31, 30904689981299005 E 32, 23092552595165288 E 33, 16460373448807342 E 34, 11216109196021717 E 35, 73200922152247865 E 37, 45838607854018141 E 38, 27586420267354949 E 39, 15979507365768609 E 40, 89216034051818376 E 42, 48072713658183647 E 43, 25029773634865066 E 44, 12606935763045298 E 45, 61491766496120697 E 47, 29074434293327966 E 48, 13338243552599048 E 49, 59423967868994849 E 51, 25731270259297796 E 52, 10837733619801486 E 53, 44434082495541457 E 55, 17745999133933281 E 56, 69084660708239595 E 58, 26232263962728324 E 59, 97213273791762483 E 61, 35180440922208088 E 62, 12439462333105044 E 63, 42998617658126749 E 65, 14537100724259309 E 66, 48092790996995458 E 68, 15576169971724943 E 69, 49409590700957524 E 71, 15357315903909719 E 72, 46789581247726005 E 74, 13979196051515231 E 75, 40971075451059530 E 77, 11783965926755556 E 78, 33271744473634979 E 80, 92251877094205153 E 82, 25126429944169654 E 83, 67247753582690677 E 85, 17690781801384859 E 86, 45757778728735457 E 88, bnil.
Definition r309 := 16147727704617471 E 17, 10988929996153572 E 17, 54788636306819655 E 18, 21234548656002342 E 18, 66844807754227412 E 19, 17651871741885367 E 19, 40064293850561935 E 20, 79634358469102889 E 21, 14068382830362556 E 21, 22354885285969328 E 22, 32266048623901573 E 23, 42650272603622236 E 24, 51989102249990345 E 25, 58789214246500272 E 26, 61988591809689276 E 27, 61221869695370889 E 28, 56859308617804196 E 29, 49833622004598742 E 30, 41345845078299425 E 31, 32565216974181887 E 32, 24411491671062919 E 33, 17456459510164479 E 34, 11933118766249307 E 35, 78131209801420541 E 37, 49083618460419991 E 38, 29634557615903411 E 39, 17221268659883128 E 40, 96459267236556019 E 42, 52143423602934773 E 43, 27236932822972244 E 44, 13762953965442373 E 45, 67347324849752317 E 47, 31945986366654534 E 48, 14702990371528200 E 49, 65715981787564820 E 51, 28547836440909071 E 52, 12062944761196191 E 53, 49617425785363763 E 55, 19880250185564696 E 56, 77643769555324757 E 58, 29577710255129100 E 59, 10996597391837276 E 60, 39924380614748571 E 62, 14162594899964333 E 63, 49113420674223889 E 65, 16658200916027784 E 66, 55288526698708092 E 68, 17964725154478773 E 69, 57171045779800307 E 71, 17827288327875191 E 72, 54490942918610246 E 74, 16332875513905976 E 75, 48024538923665757 E 77, 13857433048681471 E 78, 39252962212107063 E 80, 10918870300662590 E 81, 29835889338563968 E 83, 80110927087698532 E 85, 21143011426979167 E 86, 54864403020109763 E 88, bnil.
Definition r310 := 16096299505866199 E 17, 10969410330951158 E 17, 54807411210747538 E 18, 21295052969596169 E 18, 67218077310142507 E 19, 17801272989096458 E 19, 40522699294776591 E 20, 80788296225466763 E 21, 14315882179378239 E 21, 22818455643603041 E 22, 33037710749250520 E 23, 43807094249783855 E 24, 53567308005606951 E 25, 60765230977826009 E 26, 64275199266168740 E 27, 63681876108751693 E 28, 59332315741705334 E 29, 52166902887177879 E 30, 43419957876262543 E 31, 34308219615483063 E 32, 25800416646128501 E 33, 18508792221633289 E 34, 12693066128231400 E 35, 83373648394168075 E 37, 52545242663985077 E 38, 31826482851419717 E 39, 18554506971394077 E 40, 10426125516531781 E 41, 56542345289313425 E 43, 29629769787058241 E 44, 15020279136385870 E 45, 73736647718300434 E 47, 35089438795780180 E 48, 16201798521296335 E 49, 72648443300996055 E 51, 31661141397221232 E 52, 13421622994103419 E 53, 55384024009925413 E 55, 22262346540825977 E 56, 87227763357683834 E 58, 33335878706536932 E 59, 12433835028089186 E 60, 45288147459446442 E 62, 16117176305481790 E 63, 56072021481406290 E 65, 19079815658699875 E 66, 63530354255042459 E 68, 20709382187145701 E 69, 66118520241079444 E 71, 20683918162781882 E 72, 63426753485692450 E 74, 19072672282071570 E 75, 56261709777268893 E 77, 16286712351464847 E 78, 46283273825657008 E 80, 12916070830627647 E 81, 35407303087053332 E 83, 95377698630409366 E 85, 25253595127286627 E 86, 65742827424353017 E 88, bnil.
Definition r311 := 16045188983645256 E 17, 10949927098783925 E 17, 54825583417314999 E 18, 21355246201159139 E 18, 67591128680822028 E 19, 17951124993135458 E 19, 40984036247158694 E 20, 81953427888907201 E 21, 14566594518658107 E 21, 23289562435092221 E 22, 33824447792652474 E 23, 44990315387992586 E 24, 55186728063222485 E 25, 62799379376231309 E 26, 66636654688015549 E 27, 66230587293707484 E 28, 61902748206921213 E 29, 54599916417687875 E 30, 45589693299599228 E 31, 36137454999749222 E 32, 27262754428670917 E 33, 19620318060106399 E 34, 13498347739838351 E 35, 88946732366034104 E 37, 56237060727082697 E 38, 34171707255977721 E 39, 19985590216745268 E 40, 11266283515779412 E 41, 61294610061433201 E 43, 32223150822198083 E 44, 16387377494809932 E 45, 80706218230023540 E 47, 38529428920908231 E 48, 17847289693565485 E 49, 80283921908616059 E 51, 35101231525271431 E 52, 14927759047232321 E 53, 61797105722863568 E 55, 24920046541751149 E 56, 97955121100261677 E 58, 37555972874391891 E 59, 14052936953041163 E 60, 51350137979793219 E 62, 18333325123400405 E 63, 63987313046127970 E 65, 21843254894316205 E 66, 72965927710735839 E 68, 23861720366273369 E 69, 76428199611374610 E 71, 23986082339816025 E 72, 73789590738366569 E 74, 22260267227510659 E 75, 65876126353810181 E 77, 19131320275702761 E 78, 54542125508050636 E 80, 15269856482457215 E 81, 41994654264465789 E 83, 11348662892465070 E 84, 30145176572438982 E 86, 78729922227550020 E 88, bnil.
Definition r312 := 15994393340980045 E 17, 10930480588193019 E 17, 54843158523329175 E 18, 21415128761210354 E 18, 67963952770238563 E 19, 18101423851800164 E 19, 41448302158148968 E 20, 83129795257142782 E 21, 14820544383687951 E 21, 23768290639712435 E 22, 34626482745281023 E 23, 46200417654251220 E 24, 56848255144199037 E 25, 64893116050200490 E 26, 69075086998705911 E 27, 68870826294179717 E 28, 64574036025815681 E 29, 57136511302844547 E 30, 47859065403497245 E 31, 38056835638949091 E 32, 28802085481089468 E 33, 20794125674819629 E 34, 14351483951111905 E 35, 94869976100533551 E 37, 60173448787943396 E 38, 36680332459682548 E 39, 21521303653922155 E 40, 12170766295580096 E 41, 66427171329041277 E 43, 35033072005254564 E 44, 17873388320731615 E 45, 88306378183132974 E 47, 42292726060530570 E 48, 19653222369430604 E 49, 88690844125103606 E 51, 38901072532690728 E 52, 16596752827540552 E 53, 68926493893894789 E 55, 27884103046617870 E 56, 10995752884425712 E 57, 42292858488668436 E 59, 15876161406020363 E 60, 58198338037339359 E 62, 20844953540090378 E 63, 72986819779664179 E 65, 24995333711812499 E 66, 83763120211065199 E 68, 27480571975757850 E 69, 88301695135873902 E 71, 27801372617566166 E 72, 85801253212011718 E 74, 25966930344431114 E 75, 77092139050029392 E 77, 22460471825069157 E 78, 64238880721686542 E 80, 18042342172265581 E 81, 49778762664793101 E 83, 13495437901401345 E 84, 35962707704838249 E 86, 94225120870005085 E 88, bnil.
Definition r313 := 15943909811555390 E 17, 10911071079321483 E 17, 54860142083718595 E 18, 21474701074814518 E 18, 68336540569768241 E 19, 18252165659354805 E 19, 41915494346554953 E 20, 84317439720738607 E 21, 15077756305460202 E 21, 24254725664818996 E 22, 35444040668828874 E 23, 47437889020536246 E 24, 58552797003227419 E 25, 67047927354950304 E 26, 71592676093801896 E 27, 71605493577282764 E 28, 67349715144517690 E 29, 59780668370176594 E 30, 50232239831385033 E 31, 40070435224539582 E 32, 30422150048907704 E 33, 22033452149756327 E 34, 15255124892293687 E 35, 10116396594752819 E 36, 64369622217567827 E 38, 39363084654339500 E 39, 23168875522552732 E 40, 13144239570385221 E 41, 71968929224078903 E 43, 38076740441142432 E 44, 19488174716506381 E 45, 96591632615593508 E 47, 46408407297464217 E 48, 21634589561994470 E 49, 97944017795531475 E 51, 43096821126508866 E 52, 18445549578293701 E 53, 76849266590619687 E 55, 31188574151621470 E 56, 12338129749334907 E 57, 47607691638797610 E 59, 17928398719548383 E 60, 65931455969640191 E 62, 23690229390507230 E 63, 83214532767050149 E 65, 28589082943444352 E 66, 96112707834969858 E 68, 31633011648194174 E 69, 10196960562651162 E 70, 32207348604301367 E 72, 99717069775695649 E 74, 30274970610431891 E 75, 90169683859102410 E 77, 26354619359200157 E 78, 75617679088990687 E 80, 21306194024506485 E 81, 58971845533227710 E 83, 16038927845991118 E 84, 42877408979177844 E 86, 11270176458194242 E 87, bnil.
Definition r314 := 15893735659327668 E 17, 10891698844071165 E 17, 54876539611705050 E 18, 21533963581308654 E 18, 68708883157940085 E 19, 18403346506888970 E 19, 42385610000488232 E 20, 85516402261039825 E 21, 15338254808832038 E 21, 24748953342422193 E 22, 36277348698421910 E 23, 48703223838204625 E 24, 60301276597903172 E 25, 69265329847281397 E 26, 74191653813890685 E 27, 74437568795558640 E 28, 70233430235196070 E 29, 62536504519326233 E 30, 52713538881337587 E 31, 42182494577558789 E 32, 32126854615308538 E 33, 23341689514954959 E 34, 16212056616639552 E 35, 10785041467535021 E 36, 68841681157196435 E 38, 42231350647684091 E 39, 24936004153116260 E 40, 14191688605474166 E 41, 77950863272967176 E 43, 41372661018352671 E 44, 21242377988413025 E 45, 10562097716811573 E 46, 50908047039477687 E 48, 23807724563013510 E 49, 10812520120046040 E 50, 47728120874128631 E 52, 20492788634792034 E 53, 85650481140711902 E 55, 34871164876793991 E 56, 13838892691769047 E 57, 53568614062952422 E 59, 20237471708070156 E 60, 74660184932633571 E 62, 26912092548317576 E 63, 94832967549854089 E 65, 32684548518179656 E 66, 11023139844169774 E 67, 36395476530336236 E 69, 11769556329186895 E 70, 37292965650611655 E 72, 11583082656471242 E 73, 35279398904792407 E 75, 10540977510679069 E 76, 30907228954738113 E 78, 88963063574843460 E 80, 25146376209667050 E 81, 69822833663809460 E 83, 19050719187824484 E 84, 51091415407708909 E 86, 13472045461616520 E 87, bnil.
Definition r315 := 15843868178142398 E 17, 10872364146256840 E 17, 54892356578977890 E 18, 21592916734032075 E 18, 69080971700177128 E 19, 18554962482671918 E 19, 42858646178307348 E 20, 86726723448158906 E 21, 15602064410888157 E 21, 25251059925720394 E 22, 37126636045362732 E 23, 49996922881189871 E 24, 62094632258917970 E 25, 71546870744546087 E 26, 76874304930703628 E 27, 77370112580304187 E 28, 73228937548365655 E 29, 65408276773059596 E 30, 55307446718835060 E 31, 44397427791999691 E 32, 33920278588307461 E 33, 24722391515504332 E 34, 17225207507931015 E 35, 11495221846004686 E 36, 73606658336712452 E 38, 45297215849413941 E 39, 26830886623275263 E 40, 15318438803014862 E 41, 84406173566788575 E 43, 44940729024540833 E 44, 23147475891847324 E 45, 11545824985235007 E 46, 55825921377298809 E 48, 26190415316212143 E 49, 11932372059356725 E 50, 52838424287908528 E 52, 22758965891634249 E 53, 95423967613210731 E 55, 38973602774564456 E 56, 15516083094205125 E 57, 60251522430959588 E 59, 22834469101239708 E 60, 84508608645425453 E 62, 30558831839187381 E 63, 10802547052700077 E 64, 37349690288731375 E 66, 12636524844344829 E 67, 41855033999044797 E 69, 13578082728139664 E 70, 43160201281371232 E 72, 13448039708711485 E 73, 41089834391549065 E 75, 12316082268464708 E 76, 36226830000003144 E 78, 10460649416018907 E 79, 29662179493308681 E 81, 82623564720358692 E 83, 22615006322859910 E 84, 60843224203454335 E 86, 16094475862599635 E 87, bnil.
Definition r316 := 15794304691357111 E 17, 10853067241757727 E 17, 54907598415871194 E 18, 21651561000059605 E 18, 69452797448530494 E 19, 18707009672503023 E 19, 43334599809566581 E 20, 87948443439019153 E 21, 15869209619309025 E 21, 25761132085592538 E 22, 37992133999704986 E 23, 51319493388984687 E 24, 63933817860855737 E 25, 73894128387731363 E 26, 79642968146501651 E 27, 80406268366334758 E 28, 76340107826190826 E 29, 68400386429999482 E 30, 58018614739397304 E 31, 46719828576844606 E 32, 35806681227896299 E 33, 26179280647284520 E 34, 18297654962937523 E 35, 12249351651906887 E 36, 78682569278545017 E 38, 48573504284399691 E 39, 28862249043161716 E 40, 16530177529931861 E 41, 91370430938533509 E 43, 48802328993865336 E 44, 25215844998746304 E 45, 12617250894365273 E 46, 61199228334528222 E 48, 28802028085732414 E 49, 13163714009554639 E 50, 58475343350471117 E 52, 25266611189301530 E 53, 10627319797068397 E 54, 43542050689851966 E 56, 17389723908264195 E 57, 67740919191442942 E 59, 25754115520921780 E 60, 95615766237010455 E 62, 34684729320865393 E 63, 12299880298232793 E 64, 42661392298344878 E 66, 14479351557527472 E 67, 48110815748207600 E 69, 15656949680247896 E 70, 49925906940348766 E 72, 15605417290525400 E 73, 47832688985959904 E 75, 14382589405555724 E 76, 42439378891819812 E 78, 12293388388886264 E 79, 34969575724803388 E 81, 97715994774910028 E 83, 26830757826043541 E 84, 72414078865524096 E 86, 19215967605829194 E 87, bnil.
Definition r317 := 15745042551469490 E 17, 10833808378666318 E 17, 54922270511543636 E 18, 21709896859938193 E 18, 69824351741406433 E 19, 18859484160057799 E 19, 43813467695970283 E 20, 89181601975453208 E 21, 16139714930744243 E 21, 26279256907049492 E 22, 38874075932656558 E 23, 52671449109402157 E 24, 65819802993576291 E 25, 76308712708648515 E 26, 82500037106805885 E 27, 83549264248538703 E 28, 79570929277753998 E 29, 71517383321113157 E 30, 60851867084674937 E 31, 49154476802257413 E 32, 37790508820681852 E 33, 27716255468783110 E 34, 19432632359432246 E 35, 13049975350077231 E 36, 84088464995963290 E 38, 52073820732744463 E 39, 31039378555423027 E 40, 17832977257345410 E 41, 98881736684938682 E 43, 52980440179780873 E 44, 27460827462099750 E 45, 13783843883180038 E 46, 67068325180424155 E 48, 31663641137230788 E 49, 14517198816977406 E 50, 64691030876200800 E 52, 28040481929278136 E 53, 11831223779999283 E 54, 48627560194675893 E 56, 19482029242046849 E 57, 76130853297285401 E 59, 29035181857210337 E 60, 10813739354856538 E 61, 39350779519306077 E 63, 13998603501240087 E 64, 48706597843360952 E 66, 16583300149095660 E 67, 55275639389444866 E 69, 18045442479688460 E 70, 57723915319301004 E 72, 18099840537673595 E 73, 55653669299931903 E 75, 16787105834536703 E 76, 49690983643109045 E 78, 14439431342159078 E 79, 41203949249783707 E 81, 11550059111791219 E 82, 31814245606772689 E 84, 86135446654849676 E 86, 22929333531651249 E 87, bnil.
Definition r318 := 15696079139750671 E 17, 10814587797434648 E 17, 54936378214160975 E 18, 21767924807426682 E 18, 70195626003286436 E 19, 19012382027229918 E 19, 44295246512332466 E 20, 90426238382356231 E 21, 16413604829191614 E 21, 26805521885645835 E 22, 39772697298812558 E 23, 54053310341111828 E 24, 67753573134174668 E 25, 78792265701226236 E 26, 85447961426556846 E 27, 86802414870587624 E 28, 82925510617272167 E 29, 74763970172025086 E 30, 63812206315652143 E 31, 51706345255559994 E 32, 39876402109747590 E 33, 29337398198604223 E 34, 20633536320726975 E 35, 13899774474532007 E 36, 89844487299165510 E 38, 55812595100842041 E 39, 33372157139995397 E 40, 19233320084973169 E 41, 10698089240030054 E 42, 57499749070241088 E 44, 29896802469602122 E 45, 15053678578417498 E 46, 73476984058010179 E 48, 34798189201588672 E 49, 16004454522899932 E 50, 71542595296382860 E 52, 31107774336470970 E 53, 13166678813178758 E 54, 54286569539960261 E 56, 21817635263857461 E 57, 85525959936969758 E 59, 32720940289705075 E 60, 12224786006658169 E 61, 44625492033867187 E 63, 15924978524700674 E 64, 55583584233205774 E 66, 18984294443680929 E 67, 63477841308694806 E 69, 20788392341283385 E 70, 66707437484501488 E 72, 20982558372546748 E 73, 64720640878144009 E 75, 19583496921504294 E 76, 58151042988315270 E 78, 16951010341592368 E 79, 48523263989291371 E 81, 13644609481234586 E 82, 37701996225058010 E 84, 10239777204172416 E 85, 27344247442528788 E 87, bnil.
Definition r319 := 15647411865883648 E 17, 10795405731018032 E 17, 54949926831080707 E 18, 21825645349238726 E 18, 70566611744439980 E 19, 19165699354468898 E 19, 44779932807541376 E 20, 91682391565892809 E 21, 16690903784381730 E 21, 27340014923851886 E 22, 40688235638216620 E 23, 55465603975943035 E 24, 69736129819498917 E 25, 81346461896896880 E 26, 88489247729778823 E 27, 90169123346158489 E 28, 86408084166245157 E 29, 78145007073243750 E 30, 66904819246676003 E 31, 54380606612741000 E 32, 42069203987665937 E 33, 31046982608573270 E 34, 21903934288061361 E 35, 14801574453688711 E 36, 95971926827214609 E 38, 59805129132230074 E 39, 35871097317905798 E 40, 20738123727683193 E 41, 11571158052099227 E 42, 62386769386769698 E 44, 32539262696688155 E 45, 16435482570453054 E 46, 80472667266753065 E 48, 38230619547261565 E 49, 17638169726951102 E 50, 79092551661991717 E 52, 34498353905941410 E 53, 14647532551126624 E 54, 60581450314580343 E 56, 24423854503782173 E 57, 96042609289059096 E 59, 36859668629251730 E 60, 13814232266742493 E 61, 50585786834425519 E 63, 18108584626447165 E 64, 63403393867562604 E 66, 21723052941852345 E 67, 72863347428830260 E 69, 23936936401320450 E 70, 77051788451464913 E 72, 24312399141690149 E 73, 75226905674737080 E 75, 22833986524271165 E 76, 68015861305317512 E 78, 19888845058075902 E 79, 57111733835583095 E 81, 16110087073638334 E 82, 44654233039766384 E 84, 12166071841675243 E 85, 32590234876003966 E 87, bnil.
Definition r320 := 15599038167606655 E 17, 10776262405016261 E 17, 54962921629039110 E 18, 21883059004788999 E 18, 70937300560631579 E 19, 19319432221113792 E 19, 45267523005529110 E 20, 92950100011759490 E 21, 16971636250168620 E 21, 27882824327387117 E 22, 41620930578251557 E 23, 56908863540952254 E 24, 71768490819214749 E 25, 83973008844072778 E 26, 91626460702833042 E 27, 93652883213035033 E 28, 90023009020538814 E 29, 81665516060432305 E 30, 70135082944102477 E 31, 57182640631380072 E 32, 44373967460802828 E 33, 32849482222643467 E 34, 23247572412566690 E 35, 15758351747157759 E 36, 10249328392872407 E 37, 64067645571886852 E 39, 38547379852940771 E 40, 22354769045369232 E 41, 12512055621240429 E 42, 67669970034722619 E 44, 35404896088454070 E 45, 17938686610703499 E 46, 88106823631538588 E 48, 41988060547217689 E 49, 19432186080156432 E 50, 87409311880373422 E 52, 38245006698601256 E 53, 16289034918921472 E 54, 67581107379083986 E 56, 27330955829384920 E 57, 10781017528991217 E 58, 41505209125918616 E 60, 15603911956081260 E 61, 57317992577753511 E 63, 20582724004528126 E 64, 72291440159655316 E 66, 24845709126150388 E 67, 83598011780761540 E 69, 27549378736794338 E 70, 88957484853743918 E 72, 28156860167309320 E 73, 87394950673866135 E 75, 26610419158667845 E 76, 79512809487276359 E 78, 23323486359792074 E 79, 67184074234628062 E 81, 19010609655472678 E 82, 52858888740160365 E 84, 14446514477551382 E 85, 38820181613128288 E 87, bnil.
Definition r321 := 15550955510361553 E 17, 10757158037812418 E 17, 54975367834340629 E 18, 21940166305942550 E 18, 71307684132820700 E 19, 19473576705722690 E 19, 45758013406245777 E 20, 94229401783499749 E 21, 17255826662926338 E 21, 28434038801515027 E 22, 42571023835357769 E 23, 58383629240246383 E 24, 73851690309398956 E 25, 86673647591700680 E 26, 94862224161332040 E 27, 97257280420444750 E 28, 93774774283402109 E 29, 85330685806869259 E 30, 73508570893411215 E 31, 60118041570993908 E 32, 46795963893263343 E 33, 34749578832109781 E 34, 24668383778915009 E 35, 16773241307006505 E 36, 10943233251919060 E 37, 68617339902645982 E 39, 41412893554740752 E 40, 24091129201483326 E 41, 13525785126464684 E 42, 73379911499310837 E 44, 38511673320327297 E 45, 19573478467018046 E 46, 96435207488125621 E 48, 46100003690426187 E 49, 21401598474388742 E 50, 96567717441031954 E 52, 42383713288225633 E 53, 18107974506702613 E 54, 75361637051325610 E 56, 30572472584011726 E 57, 12097243646803425 E 58, 46717587404975356 E 60, 17618243024748704 E 61, 64918959379101892 E 63, 23384875272491103 E 64, 82389308955214547 E 66, 28404509486357667 E 67, 95870256421288922 E 69, 31692165415462720 E 70, 10265376397169726 E 71, 32593349425231180 E 73, 10148073343094177 E 74, 30995707514665321 E 76, 92905111943058012 E 78, 27336866979304772 E 79, 78990424546507174 E 81, 22421108082681540 E 82, 62536280369602467 E 84, 17144710394054292 E 85, 46214447348518887 E 87, bnil.
Definition r322 := 15503161386947015 E 17, 10738092840709192 E 17, 54987270633049118 E 18, 21996967796767210 E 18, 71677754226855891 E 19, 19628128886398036 E 19, 46251400186638121 E 20, 95520334520873520 E 21, 17543499439951884 E 21, 28993747447300611 E 22, 43538759216580335 E 23, 59890447996559391 E 24, 75986779046650214 E 25, 89450153176889612 E 26, 98199222130798087 E 27, 10098599535000091 E 27, 97668002365438621 E 29, 89145876430287376 E 30, 77031059338717220 E 31, 63192625846951812 E 32, 49340691539049436 E 33, 36752171337954176 E 34, 26170496973172690 E 35, 17849544376876848 E 36, 11681418704808047 E 37, 73472434777651490 E 39, 44480277291821145 E 40, 25955600539929233 E 41, 14617699069977841 E 42, 79549391210701732 E 44, 41878941308897850 E 45, 21350860688899719 E 46, 10551822192011696 E 47, 50598500056247729 E 49, 23562863537782359 E 50, 10664961814270258 E 51, 46953947310688000 E 53, 20122827685699233 E 54, 84007048966202396 E 56, 34185541607359147 E 57, 13568912206038864 E 58, 52563697758304505 E 60, 19884522997639137 E 61, 73497298698068318 E 63, 26557200334962522 E 64, 93856778451443092 E 66, 32458598685127307 E 67, 10989405029901829 E 68, 36440988211977316 E 70, 11840257970776129 E 71, 37710599963751775 E 73, 11777857922307617 E 74, 36085491773996901 E 76, 10849735134717640 E 77, 32024090307848360 E 79, 92822044211502513 E 81, 26429104504333544 E 82, 73944553437531824 E 84, 20335419500754972 E 85, 54985686341427924 E 87, bnil.
Definition r323 := 15455653317176563 E 17, 10719067018062893 E 17, 54998635171181469 E 18, 22053464033289220 E 18, 72047502693162605 E 19, 19783084841107986 E 19, 46747679401632581 E 20, 96822935438279845 E 21, 17834678977874398 E 21, 29562039757830433 E 22, 44524382620943852 E 23, 61429873492573724 E 24, 78174824542698804 E 25, 92304335116599398 E 26, 10164019994113629 E 26, 10484280487060743 E 27, 10170745235255011 E 28, 93116624416297135 E 30, 80708533798672142 E 31, 66412439924236076 E 32, 52013884371218617 E 33, 38862384931461491 E 34, 27758245007790514 E 35, 18990736642829074 E 36, 12466537271414139 E 37, 78652237278211194 E 39, 47762964328160944 E 40, 27957135274584377 E 41, 15793522283153129 E 42, 86213598431787969 E 44, 45527523167096226 E 45, 23282712550714266 E 46, 11542128799405990 E 47, 55518372343098278 E 49, 25933917091483617 E 50, 11774450061006416 E 51, 51999000726496735 E 53, 22353921581441661 E 54, 93610057514574541 E 56, 38211276109654973 E 57, 15213761789517657 E 58, 59118061638545415 E 60, 22433257012195462 E 61, 83174764346797406 E 63, 30147110736102225 E 64, 10687408323394981 E 65, 37074902388829572 E 67, 12591226920831108 E 68, 41882033443964702 E 70, 13650313820036069 E 71, 43610280386660682 E 73, 13662677457959099 E 74, 41990040846827013 E 76, 12664179578803243 E 77, 37495492896756437 E 79, 10901790114545512 E 80, 31136775562860196 E 82, 87386018420984677 E 84, 24106465605602686 E 85, 65384493569380740 E 87, bnil.
Definition r324 := 15408428847541289 E 17, 10700080767415103 E 17, 55009466554902652 E 18, 22109655583251835 E 18, 72416921466425402 E 19, 19938440648003515 E 19, 47246846985122073 E 20, 98137241323232284 E 21, 18129389651071078 E 21, 30139005614396350 E 22, 45528142040655173 E 23, 63002466211983846 E 24, 80416911239503241 E 25, 95238037903383879 E 26, 10518796533500220 E 26, 10883158442769603 E 27, 10589802344288799 E 28, 97248647660640450 E 30, 84547195762825201 E 31, 69783768457466872 E 32, 54821521217062506 E 33, 41085580624578753 E 34, 29436174617094586 E 35, 20200476750295733 E 36, 13301389907300047 E 37, 84177199132079303 E 39, 51275229102378212 E 40, 30105276090504614 E 41, 17059376355868690 E 42, 93410279254141198 E 44, 49479825021994551 E 45, 25381856458355907 E 46, 12621524185806455 E 47, 60897443620732830 E 49, 28534301272196256 E 50, 12995017068526111 E 51, 57566338080413460 E 53, 24823612136645153 E 54, 10427294929044316 E 55, 42695175644785082 E 57, 17051484791161088 E 58, 66463666882366816 E 60, 25298521912810942 E 61, 94087790115857480 E 63, 34207900219584415 E 64, 12164445094969031 E 65, 42329119517065521 E 67, 14420048403934130 E 68, 48113394419144771 E 70, 15729704375356568 E 71, 50408827777489924 E 73, 15841395336553682 E 74, 48836429803876181 E 76, 14774566778988209 E 77, 43879021415113342 E 79, 12797228842063097 E 80, 36663345082378956 E 82, 10321452221041406 E 83, 28560964485083900 E 85, 77706014277827375 E 87, bnil.
Definition r325 := 15361485550877269 E 17, 10681134279622033 E 17, 55019769850723155 E 18, 22165543025877050 E 18, 72786002565264057 E 19, 20094192385731570 E 19, 47748898750956742 E 20, 99463288534886853 E 21, 18427655810089615 E 21, 30724735282643119 E 22, 46550287562133549 E 23, 64608793480294597 E 24, 82714140684815729 E 25, 98253141505174730 E 26, 10884538959013286 E 26, 11295631016715544 E 27, 11024475845384770 E 28, 10154785063254181 E 29, 88553469572578165 E 31, 73313142683743896 E 32, 57769835208550842 E 33, 43427365141822106 E 34, 31209055937078937 E 35, 21482615202053016 E 36, 14188933718686700 E 37, 90068980033070488 E 39, 55032236574103914 E 40, 32410192760865961 E 41, 18421805571538637 E 42, 10117991232126949 E 43, 53759950138954432 E 45, 27662129123189058 E 46, 13797676169565175 E 47, 66776784058708671 E 49, 31385302077533928 E 50, 14337349409823110 E 51, 63707982228043803 E 53, 27556478600950019 E 54, 11610853354380341 E 55, 47687576725833550 E 57, 19103934870021857 E 58, 74692895932955236 E 60, 28518370220983454 E 61, 10638920115232976 E 62, 38799450975189029 E 64, 13839694335056333 E 65, 48306837031313450 E 67, 16507123018937375 E 68, 55246668265731478 E 70, 18117413472904761 E 71, 58239532883152834 E 73, 18358638448022640 E 74, 56771032496494981 E 76, 17227949155027690 E 77, 51322970711523946 E 79, 15014362547349970 E 80, 43147857497908136 E 82, 12184401923441171 E 83, 33819922654759837 E 85, 92297677276354047 E 87, bnil.
Definition r326 := 15314821026037514 E 17, 10662227738981650 E 17, 55029550085697362 E 18, 22221126951630341 E 18, 73154738091904840 E 19, 20250336133744158 E 19, 48253830393938784 E 20, 10080111300262340 E 20, 18729501780077785 E 21, 31319319408680862 E 22, 47591071366869103 E 23, 66249429505350372 E 24, 85067631708203902 E 25, 10135156186909933 E 25, 11261540865572030 E 26, 11722106109432360 E 27, 11475284740016091 E 28, 10602032966146278 E 29, 92734009490952264 E 31, 77007349075007406 E 32, 60865323557527881 E 33, 45893601185886108 E 34, 33081892583758241 E 35, 22841203652662251 E 36, 15132290047215813 E 37, 96350514209038918 E 39, 59050094268016483 E 40, 34882720888939251 E 41, 19887804434596147 E 42, 10956589593373091 E 43, 58393820822756913 E 45, 30138457826551243 E 46, 15078882666096462 E 47, 73200976972408525 E 49, 34510098147467065 E 50, 15813120016232560 E 51, 70480934199850677 E 53, 30579535897881152 E 54, 12924118325295173 E 55, 53244147950853315 E 57, 21395355609850100 E 58, 83908552146040182 E 60, 32135278189565991 E 61, 12025011803071043 E 62, 43989021861063713 E 64, 15738963700885893 E 65, 55104781903703370 E 67, 18887881731256321 E 68, 63408760471735107 E 70, 20857909911836108 E 71, 67254911251229649 E 73, 21265628479683220 E 74, 65962373702925336 E 76, 20078667391309769 E 77, 59999136356434847 E 79, 17606462317764855 E 80, 50752391039209148 E 82, 14375853253694066 E 83, 40025266975503952 E 85, 10956823835292758 E 86, bnil.
Definition r327 := 15268432897568493 E 17, 10643361323358574 E 17, 55038812247624601 E 18, 22276407961988431 E 18, 73523120231845478 E 19, 20406867972603323 E 19, 48761637490819934 E 20, 10215075022467751 E 20, 19034951859219843 E 21, 31922849015162616 E 22, 48650747732107889 E 23, 67924955417588782 E 24, 87478520597510681 E 25, 10453525142931676 E 25, 11650102430289277 E 26, 12163002126840209 E 27, 11942763114413426 E 28, 11067237834958549 E 29, 97095706965445624 E 31, 80873438256756192 E 32, 64114757665382324 E 33, 48490418089457000 E 34, 35059932144800277 E 35, 24280504615390610 E 36, 16134752940703424 E 37, 10304608039159394 E 38, 63345907152078026 E 40, 37534402889865335 E 41, 21464846881828837 E 42, 11861474722792444 E 43, 63409308594759130 E 45, 32826942118722512 E 46, 16474121006436352 E 47, 80218405622736990 E 49, 37933921655369170 E 50, 17435075360938882 E 51, 77947630089049016 E 53, 33922466441682597 E 54, 14380797509815831 E 55, 59426433859402497 E 57, 23952632467822190 E 58, 94224994154882374 E 60, 36196642576826529 E 61, 13586207444637860 E 62, 49852127790043012 E 64, 17891318295875472 E 65, 62832226597519440 E 67, 21602474562594342 E 68, 72743923315697005 E 70, 24001897081780669 E 71, 77629398379373096 E 73, 24621129741877651 E 74, 76604391195827381 E 76, 23389449639503175 E 77, 70106442712948686 E 79, 20635401853636235 E 80, 59665778587157161 E 82, 16952372447357733 E 83, 47343374737014909 E 85, 12999835031303497 E 86, bnil.
Definition r328 := 15222318815391053 E 17, 10624535204306793 E 17, 55047561285250859 E 18, 22331386669209932 E 18, 73891141253515664 E 19, 20563783984282181 E 19, 49272315501302860 E 20, 10351223526682545 E 20, 19344030317180241 E 21, 32535415497327607 E 22, 49729573031364747 E 23, 69635959310014018 E 24, 89947961275738920 E 25, 10780619961886374 E 25, 12050530528937989 E 26, 12618748203266432 E 27, 12427460511910677 E 28, 11551049311239219 E 29, 10164569808834662 E 30, 84918734200114358 E 32, 67525193577162708 E 33, 51224222866098946 E 34, 37148677099640806 E 35, 25805001598201122 E 36, 17199798026726469 E 37, 11018137534754157 E 38, 67937835492872202 E 40, 40377531332734310 E 41, 23160917273846467 E 42, 12837631415966422 E 43, 68836373175157991 E 45, 35744941318134243 E 46, 17993100922940680 E 47, 87881562306681367 E 49, 41684232246619537 E 50, 19217130007324157 E 51, 86176438082501734 E 53, 37617873108816198 E 54, 15995993734279319 E 55, 66302452123894451 E 57, 26805570292549531 E 58, 10576938924467293 E 59, 40755331245118816 E 61, 15343937165158075 E 62, 56473520461752719 E 64, 20329478889800329 E 65, 71612566270122418 E 67, 24696380283913947 E 68, 83416057566779045 E 70, 27607162031128915 E 71, 89562411847231087 E 73, 28492529390074218 E 74, 88920164985875587 E 76, 27232672034777515 E 77, 81875116326942218 E 79, 24173011494897523 E 80, 70107914331732668 E 82, 19980033050594843 E 83, 55969184830027241 E 85, 15415291103416136 E 86, bnil.
Definition r329 := 15176476454485777 E 17, 10605749547190280 E 17, 55055802108472232 E 18, 22386063696109126 E 18, 74258793507932302 E 19, 20721080252461936 E 19, 49785859769045366 E 20, 10488560276111975 E 20, 19656761393554673 E 21, 33157110619011140 E 22, 50827805734763893 E 23, 71383036277885116 E 24, 92477125478343714 E 25, 11116643338549498 E 25, 12463138853842744 E 26, 13089784428081987 E 27, 12929942312719431 E 28, 12054137884972866 E 29, 10639137125893574 E 30, 89150843694383556 E 32, 71103982790357411 E 33, 54101711673448774 E 34, 39353896183772732 E 35, 27419409685995082 E 36, 18331091806546295 E 37, 11778359113888588 E 38, 72845155837550789 E 40, 43425194769458661 E 41, 24984543268072859 E 42, 13890400106495808 E 43, 74707210831137766 E 45, 38911168199745547 E 46, 19646321460370864 E 47, 96247381383680544 E 49, 45790905031653922 E 50, 21174469115410944 E 51, 95242199004185963 E 53, 41701555211608621 E 54, 17786341541255132 E 55, 73947349096619711 E 57, 29987198905712451 E 58, 11868309775319760 E 59, 45870293203638696 E 61, 17322169516450103 E 62, 63948281718977157 E 64, 23090267243508307 E 65, 81585087996746072 E 67, 28221092452427706 E 68, 95611310404656503 E 70, 31739536769105955 E 71, 10328182892735135 E 72, 32957068004161110 E 74, 10316617876192707 E 75, 31691803546084826 E 77, 95571484386704595 E 79, 28302639851405685 E 80, 82334736065383973 E 82, 23535974845230472 E 83, 66130983271337726 E 85, 18269548128621724 E 86, bnil.
Definition r330 := 15130903514582605 E 17, 10587004511301450 E 17, 55063539588540190 E 18, 22440439675832431 E 18, 74626069428349812 E 19, 20878752862824920 E 19, 50302265522667619 E 20, 10627088690467646 E 20, 19973169296328668 E 21, 33788026508621481 E 22, 51945706409206238 E 23, 73166788458113172 E 24, 95067202930917553 E 25, 11461801771150768 E 25, 12888248033203400 E 26, 13576562075990416 E 27, 13450790121240638 E 28, 12577195474977770 E 29, 11134037505208744 E 30, 93577666107368624 E 32, 74858783428814476 E 33, 57129881702336088 E 34, 41681636213409186 E 35, 29128686586906548 E 36, 19532501387561213 E 37, 12588149628535680 E 38, 78088325278798469 E 40, 46691326183198964 E 41, 26944830680022914 E 42, 15025500861392307 E 43, 81056412685164952 E 45, 42345789286055151 E 46, 21445132087783044 E 47, 10537759799765302 E 48, 50286433714096584 E 50, 23323659545110482 E 51, 10522681401040411 E 52, 46212809475619983 E 54, 19770156581328753 E 55, 82444119186223767 E 57, 33534109475184207 E 58, 13312320168070636 E 59, 51607234279287888 E 61, 19547702193447461 E 62, 72383042017334802 E 64, 26215103923837102 E 65, 92906954632473849 E 67, 32234891049021657 E 68, 10954100650241918 E 69, 36473986189344358 E 71, 11904793438616930 E 72, 38103240850111644 E 74, 11963718733603484 E 75, 36863061373278889 E 77, 11150348934269574 E 78, 33120954024857752 E 80, 96643986356064413 E 82, 27710212023559558 E 83, 78095970932650807 E 85, 21640511074278198 E 86, bnil.
Definition r331 := 15085597719854782 E 17, 10568300249977609 E 17, 55070778558267378 E 18, 22494515251638033 E 18, 74992961529905759 E 19, 21036797903343620 E 19, 50821527876762000 E 20, 10766812145851230 E 20, 20293278200343713 E 21, 34428255655084110 E 22, 53083537718364529 E 23, 74987825068362874 E 24, 97719401527251528 E 25, 11816305613753255 E 25, 13326185751857234 E 26, 14079543841005690 E 27, 13990602161022064 E 28, 13120936022839186 E 29, 11650062629786013 E 30, 98207403440919018 E 32, 78797571792536326 E 33, 60316043505831945 E 34, 44138234387238266 E 35, 30938044161080009 E 36, 20808104673189597 E 37, 13450552101081718 E 38, 83689049166401693 E 40, 50190754195645798 E 41, 29051500445251393 E 42, 16249058901953055 E 43, 87921133613029724 E 45, 46070532180196360 E 46, 23401798304871103 E 47, 11533913437698339 E 48, 55206150013441628 E 50, 25682770243739505 E 51, 11621988336599080 E 52, 51194758188626808 E 54, 21967598994820459 E 55, 91884394029398233 E 57, 37486824661962820 E 58, 14926419196653398 E 59, 58039365218685363 E 61, 22050484906393252 E 62, 81897337833002744 E 64, 29750564588889035 E 65, 10575542850422611 E 66, 36803710058138903 E 68, 12544495367633561 E 69, 41895838789808144 E 71, 13715790017232255 E 72, 44032392815434145 E 74, 13867177384173722 E 75, 42857306725958128 E 77, 13002702368520954 E 78, 38740013910303068 E 80, 11338187120232142 E 81, 32607729450127261 E 83, 92176738133036317 E 85, 25619596455814049 E 86, bnil.
Definition r332 := 15040556818616921 E 17, 10549636910715331 E 17, 55077523812235490 E 18, 22548291076678141 E 18, 75359462409261774 E 19, 21195211464565852 E 19, 51343641832905438 E 20, 10907733974643331 E 20, 20617112245771311 E 21, 35077890903754496 E 22, 54241564422505971 E 23, 76846762445853166 E 24, 10043494750775810 E 24, 12180369129028125 E 25, 13777286873486682 E 26, 14599204074156053 E 27, 14549993677471887 E 28, 13686096100627401 E 29, 12188031837674205 E 30, 10304857068928492 E 31, 82928654294351823 E 33, 63667833782629823 E 34, 46730331082523841 E 35, 32852960451018943 E 36, 22162201029822669 E 37, 14368784676259233 E 38, 89670352436500643 E 40, 53939257179311529 E 41, 31314927800264844 E 42, 17567631741104438 E 43, 95341272398544019 E 45, 50108800408081590 E 46, 25529572055788147 E 47, 12620451572528090 E 48, 60588460626043710 E 50, 28271502657558162 E 51, 12831940054286194 E 52, 56694706868613695 E 54, 24400852039139931 E 55, 10236930795783178 E 56, 41890205800427439 E 58, 16729983028289811 E 59, 65248229702935021 E 61, 24863977839582351 E 62, 92625123306546644 E 64, 33749001381608190 E 65, 12033036298204697 E 66, 42002112540810102 E 68, 14359516948795313 E 69, 48102178365968835 E 71, 15795086654000602 E 72, 50860533015190807 E 74, 16065869167321501 E 75, 49802214927032508 E 77, 15155320356198313 E 78, 45289661200718093 E 80, 13295075235345247 E 81, 38350911741763527 E 83, 10873879011497719 E 84, 30314020521583507 E 86, bnil.
Definition r333 := 14995778583027264 E 17, 10531014635282866 E 17, 55083780107003585 E 18, 22601767813784261 E 18, 75725564744240298 E 19, 21353989639895971 E 19, 51868602280674095 E 20, 11049857465397246 E 20, 20944695536594863 E 21, 35737025452299339 E 22, 55420053378141855 E 23, 78744224085851778 E 24, 10321508563823708 E 24, 12554210541423132 E 25, 14241893564278688 E 26, 15136029024950020 E 27, 15129597348438254 E 28, 14273435532651674 E 29, 12748792973529270 E 30, 10811000650804107 E 31, 87260679794734695 E 33, 67193228629564386 E 34, 49464883163351533 E 35, 34879192233262587 E 36, 23599322451244079 E 37, 15346250020072022 E 38, 96056654737385193 E 40, 57953620428131609 E 41, 33746183806872021 E 42, 18988238033264323 E 43, 10335966385115652 E 44, 54485796265681349 E 46, 27842767284040420 E 47, 13805231785473223 E 48, 66475103058244390 E 50, 31111331963133571 E 51, 14163250621786572 E 52, 62764533991808134 E 54, 27094317325291209 E 55, 11401044684047798 E 56, 46793900673301396 E 58, 18744520271786459 E 59, 73324620500329356 E 61, 28025549480167306 E 62, 10471645304541862 E 63, 38269236797149122 E 65, 13685699314925243 E 66, 47914386096645129 E 68, 16430008074525624 E 69, 55203417096040634 E 71, 18181370297323901 E 72, 58720398451621086 E 74, 18604409885551286 E 75, 57844758441357426 E 77, 17655671661654311 E 78, 52920269576084889 E 80, 15581802959352079 E 81, 45082356661885376 E 83, 12820928971240974 E 84, 35849465633334164 E 86, bnil.
Definition r334 := 14951260808793976 E 17, 10512433559830582 E 17, 55089552161317779 E 18, 22654946135255247 E 18, 76091261293456955 E 19, 21513128525872138 E 19, 52396403998660422 E 20, 11193185862737766 E 20, 21276052139099686 E 21, 36405752846547489 E 22, 56619273537505368 E 23, 80680840679859251 E 24, 10606107938897133 E 24, 12938052090723629 E 25, 14720355418042437 E 26, 15690517086641725 E 27, 15730063702766992 E 28, 14883738031505016 E 29, 13333223262701013 E 30, 11340088420149916 E 31, 91802652346318419 E 33, 70900557278496703 E 34, 52349177819387443 E 35, 37022788111847026 E 36, 25124245241703803 E 37, 16386545186241375 E 38, 10287384953882767 E 39, 62251696547156974 E 41, 36357079350938875 E 42, 20518388238101251 E 43, 11202228363428790 E 44, 59228652198358628 E 46, 30356840983895203 E 47, 15096764886197883 E 48, 72911421761719406 E 50, 34225659974422923 E 51, 15627630710780818 E 52, 69461115530677328 E 54, 30074828143702122 E 55, 12693088801074518 E 56, 52252835771364912 E 58, 20993898438122612 E 59, 82369592796763953 E 61, 31576917988064957 E 62, 11833935479839214 E 63, 43377338193978441 E 65, 15558906030721531 E 66, 54635773107110809 E 68, 18790925405578160 E 69, 63325072946680282 E 71, 20918753717838099 E 72, 67763799924348529 E 74, 21533980688697198 E 75, 67154046707644640 E 77, 20558539840979746 E 78, 61805909237699133 E 80, 18252639229446806 E 81, 52968132085643971 E 83, 15108720916702191 E 84, 42373185818924934 E 86, bnil.
Definition r335 := 14907001314885471 E 17, 10493893814999464 E 17, 55094844656322195 E 18, 22707826722648070 E 18, 76456544895948594 E 19, 21672624222439812 E 19, 52927041655492031 E 20, 11337722367264927 E 20, 21611206080371240 E 21, 37084166976310758 E 22, 57839495947856914 E 23, 82657250153477053 E 24, 10897421111413470 E 24, 13332120086004293 E 25, 15213029582791643 E 26, 16263179045332009 E 27, 16352061546949146 E 28, 15517811848657291 E 29, 13942230208332169 E 30, 11893072303668461 E 31, 96563944359934386 E 33, 74798516333213460 E 34, 55390846954091602 E 35, 39290102174718876 E 36, 26742002239645094 E 37, 17493471971559377 E 38, 11014938742038430 E 39, 66852469229918453 E 41, 39160211753307693 E 42, 22166117205166822 E 43, 12137846659598087 E 44, 64366571271791024 E 46, 33088480126927886 E 47, 16504266730411977 E 48, 79946666103936984 E 50, 37639980645851845 E 51, 17237876496743227 E 52, 76846787277016889 E 54, 33371882485728290 E 55, 14126633967124404 E 56, 58327757285654396 E 58, 23504593578122014 E 59, 92495584635707488 E 61, 35564640703691275 E 62, 13368191268835911 E 63, 49147482007804837 E 65, 17681230894898946 E 66, 62273851816706700 E 68, 21481872250779677 E 69, 72609777135707885 E 71, 24057515152563026 E 72, 78164287682053557 E 74, 24913268230149293 E 75, 77924572630398321 E 77, 23927121335491353 E 78, 72147986560845210 E 80, 21370564584434957 E 81, 62201544691437548 E 83, 17795511254907496 E 84, 50057622059142240 E 86, bnil.
Definition r336 := 14862997943244674 E 17, 10475395526027749 E 17, 55099662235770404 E 18, 22760410266571482 E 18, 76821408470797662 E 19, 21832472833221241 E 19, 53460509810852300 E 20, 11483470135462555 E 20, 21950181346801591 E 21, 37772362071175057 E 22, 59080993750616801 E 23, 84674097703954010 E 24, 11195578223149426 E 24, 13736644959969810 E 25, 15720280888797139 E 26, 16854538332941732 E 27, 16996278399971208 E 28, 16176490439857467 E 29, 14576752511968525 E 30, 12470939989212268 E 31, 10155431020428743 E 32, 78896184522427208 E 34, 58597882141924277 E 35, 41687808235008515 E 36, 28457895604926340 E 37, 18671047782426733 E 38, 11791236374290024 E 39, 71776120600202906 E 41, 42169014137765184 E 42, 23940018792266742 E 43, 13148113943965964 E 44, 69930977328528099 E 46, 36055694866943570 E 47, 18037713950033913 E 48, 87634311816426382 E 50, 41382059160644516 E 51, 19007966149304207 E 52, 84989848168066649 E 54, 37017897503632138 E 55, 15716638890965541 E 56, 65085825469095527 E 58, 26305965380011674 E 59, 10382765537623201 E 60, 40040656857742330 E 62, 15095458386349314 E 63, 55662917709908815 E 65, 20084839915677380 E 66, 70950086158912849 E 68, 24547698127604975 E 69, 83219540529494409 E 71, 27654935878930148 E 72, 90120179138920107 E 74, 28809535749299817 E 75, 90379922358139032 E 77, 27834284059102894 E 78, 84179428311218577 E 80, 25008634861057307 E 81, 73007498734118886 E 83, 20949282415440608 E 84, 59104608923897450 E 86, bnil.
Definition r337 := 14819248558507186 E 17, 10456938812855665 E 17, 55104009506238047 E 18, 22812697466482377 E 18, 77185845016752574 E 19, 21992670465781324 E 19, 53996802916503003 E 20, 11630432279611826 E 20, 22293001882604585 E 21, 38470432696263367 E 22, 60344042180327057 E 23, 86732035837409336 E 24, 11500711340239535 E 24, 14151861323683218 E 25, 16242481978116705 E 26, 17465131284094799 E 27, 17663420936482543 E 28, 16860633145609505 E 29, 15237761018187045 E 30, 13074716124985170 E 31, 10678390025168098 E 32, 83203037985413336 E 34, 61978650174696147 E 35, 44222914679832650 E 36, 30277510193251077 E 37, 19923517035777878 E 38, 12619361091662008 E 39, 77044102303497536 E 41, 45397807708409204 E 42, 25849282636624499 E 43, 14238706862151126 E 44, 75955675460736398 E 46, 39277918452622953 E 47, 19707903876336572 E 48, 96032407680803847 E 50, 45482125667545446 E 51, 20953164532239306 E 52, 93965108095263559 E 54, 41048487299349714 E 55, 17479586826275514 E 56, 72601267427886173 E 58, 29430560225723216 E 59, 11650485414653349 E 60, 45062889060464774 E 62, 17039277382031538 E 63, 63017042636655545 E 65, 22805928216545349 E 66, 80801564290052446 E 68, 28039173355482201 E 69, 95338311364845251 E 71, 31776248302139424 E 72, 10385799641551247 E 73, 33299842798827919 E 75, 10477701263616701 E 76, 32364009303067837 E 78, 98169489745875873 E 80, 29251552942553178 E 81, 85647534940852173 E 83, 24649327722322444 E 84, 69750266913750394 E 86, bnil.
Definition r338 := 14775751047723307 E 17, 10438523790228381 E 17, 55107891037336175 E 18, 22864689030484695 E 18, 77549847611844119 E 19, 22153213231889371 E 19, 54535915317307907 E 20, 11778611867709471 E 20, 22639691588339207 E 21, 39178473747969590 E 22, 61628918563439875 E 23, 88831724405722180 E 24, 11812954471200537 E 24, 14578008021679367 E 25, 16780013435606718 E 26, 18095507396946138 E 27, 18354215438393252 E 28, 17571125886988071 E 29, 15926259683755962 E 30, 13705463553923678 E 31, 11226327538248648 E 32, 87728966107265411 E 34, 65541909217832192 E 35, 46902779950072165 E 36, 32206727542415681 E 37, 21255363118551544 E 38, 13502579548881393 E 39, 82679210542241228 E 41, 48861857096573175 E 42, 27903733204390460 E 43, 15415712441232282 E 44, 82477023468276879 E 46, 42776114304935327 E 47, 21526518955510466 E 48, 10520394933764317 E 49, 49973084808177648 E 51, 23090136780255486 E 52, 10385448395716450 E 53, 45502766091777162 E 55, 19433635163664396 E 56, 80956093863317230 E 58, 32914444940451267 E 59, 13068173143988440 E 60, 50695909711103330 E 62, 19225969828705352 E 63, 71314600015254862 E 65, 25885209213661916 E 66, 91982948078607462 E 68, 32013747781116348 E 69, 10917486061085158 E 70, 36495708707155213 E 72, 11963636757708779 E 73, 38472433663960212 E 75, 12141092869070744 E 76, 37613042937411914 E 78, 11442927716019707 E 79, 34197479477388177 E 81, 10042565295254310 E 82, 28988088209311623 E 84, 82270689541373213 E 86, bnil.
Definition r339 := 14732503320083778 E 17, 10420150567797112 E 17, 55111311361925298 E 18, 22916385675131434 E 18, 77913409412998990 E 19, 22314097247777371 E 19, 55077841252258264 E 20, 11928011923390974 E 20, 22990274319442211 E 21, 39896580449665747 E 22, 62935902316936262 E 23, 90973830643089287 E 24, 12132443584980918 E 24, 15015328187462620 E 25, 17333263921422865 E 26, 18746229597993028 E 27, 19069408255019335 E 28, 18308881877065660 E 29, 16643286571851468 E 30, 14364284584135234 E 31, 11800342196137911 E 32, 92484287921233437 E 34, 69296825597974640 E 35, 49735128675387734 E 36, 34251740495920013 E 37, 22671320930864085 E 38, 14444352028378022 E 39, 88705665258319460 E 41, 52577428945666307 E 42, 30113871250887526 E 43, 16685656211576661 E 44, 89534115012090142 E 46, 46572890745752084 E 47, 23506195976315904 E 48, 11521728223687360 E 49, 54890742261988831 E 51, 25437071471417545 E 52, 11474764802179705 E 53, 50423678984579902 E 55, 21598779133533401 E 56, 90240885785245420 E 58, 36797574226977777 E 59, 14653000827923812 E 60, 57011679086194660 E 62, 21684956245539789 E 63, 80673013833574887 E 65, 29368461305813413 E 66, 10466865833454098 E 67, 36536403803418999 E 69, 12496603567243578 E 70, 41897810583783259 E 72, 13775045231446541 E 73, 44428317146296689 E 75, 14062044540486778 E 76, 43692785468201488 E 78, 13331808823182244 E 79, 39960117958731220 E 81, 11769503605168893 E 82, 34073280429660322 E 84, 96988551091409194 E 86, bnil.
Definition r340 := 14689503306649340 E 17, 10401819250218500 E 17, 55114274976330202 E 18, 22967788125228844 E 18, 78276523655648918 E 19, 22475318634394251 E 19, 55622574855498962 E 20, 12078635425858326 E 20, 23344773884769027 E 21, 40624848347381294 E 22, 64265274946771520 E 23, 93159029202239949 E 24, 12459316629032993 E 24, 15464069299385821 E 25, 17902630305014141 E 26, 19417874510904464 E 27, 19809766271889562 E 28, 19074842348223217 E 29, 17389914871860882 E 30, 15052322296285027 E 31, 12401576729864024 E 32, 97479769096065225 E 34, 73252991243994967 E 35, 52728068489554867 E 36, 36419068490440427 E 37, 24176390039068057 E 38, 15448343183836463 E 39, 95149193675903827 E 41, 56561853910844550 E 42, 32490917831152260 E 43, 18055532149210376 E 44, 97168975215986450 E 46, 50692623895233809 E 47, 25660600451009832 E 48, 12614653589087509 E 49, 60274049626367888 E 51, 28013814169518086 E 52, 12674273299071571 E 53, 55858362742587836 E 55, 23997030897266653 E 56, 10055565776236400 E 57, 41124195056409758 E 59, 16424041877546645 E 60, 64090362543144169 E 62, 24449109153869837 E 63, 91223875661379794 E 65, 33307138618193589 E 66, 11905532337965314 E 67, 41680615055205920 E 69, 14298042803629718 E 70, 48078656401741868 E 72, 15853696053451787 E 73, 51283063343830527 E 75, 16279432562942945 E 76, 50731454568868191 E 78, 15525068805794321 E 79, 46671114657336123 E 81, 13786581444367783 E 82, 40030360209825550 E 84, 11428078045455564 E 85, bnil.
Definition r341 := 14646748960083877 E 17, 10383529937252228 E 17, 55116786340555259 E 18, 23018897113643608 E 18, 78639183653337590 E 19, 22636873517656621 E 19, 56170110157356126 E 20, 12230485309812675 E 20, 23703214045144212 E 21, 41363373305456825 E 22, 65617320046151526 E 23, 95388002190309127 E 24, 12793713547406722 E 24, 15924483236909589 E 25, 18488517800616871 E 26, 20111032729406901 E 27, 20576077388332359 E 28, 19869977295622328 E 29, 18167253945314208 E 30, 15770761888843788 E 31, 13031219561017313 E 32, 10272663952678317 E 33, 77420441804178939 E 35, 55890107552067673 E 36, 38715573534665663 E 37, 25775848465953048 E 38, 16518433338690722 E 39, 10203711842787414 E 40, 60833592259417935 E 42, 35046861007876688 E 43, 19532834549641211 E 44, 10542676951555929 E 45, 55161589288606566 E 47, 28004506513627309 E 48, 13807209174350799 E 49, 66165369046529183 E 51, 30842012170239436 E 52, 13994709850919065 E 53, 61858539185803425 E 55, 26652615415063082 E 56, 11201080486547573 E 57, 45943291592308996 E 59, 18402474343336447 E 60, 72021235018710949 E 62, 27555145014306204 E 63, 10311460014049318 E 64, 37759053060229392 E 66, 13536452168579964 E 67, 47529423423026395 E 69, 16352250592982083 E 70, 55147507917116365 E 72, 18237984100113409 E 73, 59168846392577486 E 75, 18837850199520640 E 76, 58876558304497203 E 78, 18070565531810502 E 79, 54482819718135777 E 81, 16141402340285984 E 82, 47005374062827460 E 84, 13458746881843995 E 85, bnil.
Definition r342 := 14604238254391233 E 17, 10365282723856946 E 17, 55118849878500527 E 18, 23069713381112470 E 18, 79001382797323130 E 19, 22798758028695475 E 19, 56720441085365109 E 20, 12383564465391462 E 20, 24065618511920328 E 21, 42112251502171127 E 22, 66992323293636277 E 23, 97661439204358644 E 24, 13135776298862834 E 24, 16396826337239055 E 25, 19091340104253051 E 26, 20826309094261301 E 27, 21369151003958844 E 28, 20695286237117394 E 29, 18976450398491054 E 30, 16520832062123848 E 31, 13690506449017092 E 32, 10823661154780202 E 33, 81809675463028028 E 35, 59230172802830155 E 36, 41148476908014413 E 37, 27475267146448991 E 38, 17658730366065472 E 39, 10939845049958145 E 40, 65412303267278343 E 42, 37794505411760901 E 43, 21125591950368280 E 44, 11435602660109609 E 45, 60008102797936491 E 47, 30553882724023387 E 48, 15108108713042295 E 49, 72610759113509387 E 51, 33945271348832983 E 52, 15447816424591537 E 53, 68480944026981190 E 55, 29592184598697103 E 56, 12472814110192140 E 57, 51309074557824451 E 59, 20611805223052564 E 60, 80903681816604504 E 62, 31044059179490924 E 63, 11651026763690564 E 64, 42789135752873658 E 66, 15384585277552921 E 67, 54176648559974666 E 69, 18693726916834367 E 70, 63228537559377728 E 72, 20971672690653326 E 73, 68236765889692596 E 75, 21788426274006154 E 76, 68297722480358285 E 78, 21023495178517920 E 79, 63571462361581600 E 81, 18889193550883068 E 82, 55168257735040913 E 84, 15842220474324721 E 85, bnil.
Definition r343 := 14561969184655571 E 17, 10347077700284493 E 17, 55120469978178224 E 18, 23120237676054547 E 18, 79363114556178851 E 19, 22960968304099601 E 19, 57273561465299853 E 20, 12537875738110395 E 20, 24432010945546697 E 21, 42871579425343841 E 22, 68390572451074619 E 23, 99980037366547646 E 24, 13485648875004271 E 24, 16881359452336615 E 25, 19711519532239216 E 26, 21564322974369287 E 27, 22189818514161600 E 28, 21551798989892220 E 29, 19818689182261601 E 30, 17303806442052189 E 31, 14380722191072378 E 32, 11402189878782670 E 33, 86431672481847089 E 35, 62757628977670815 E 36, 43725376608821159 E 37, 29280525078344504 E 38, 18873582177831414 E 39, 11726398723474041 E 40, 70318918616476483 E 42, 40747524817603926 E 43, 22842403225982480 E 44, 12400887635228235 E 45, 65262671481622282 E 47, 33325984191954723 E 48, 16526795797891635 E 49, 79660283659618372 E 51, 37349326075587491 E 52, 17046431507348647 E 53, 75787794212918279 E 55, 32845051387408918 E 56, 13884203783648477 E 57, 57281519317771801 E 59, 23078117831982182 E 60, 90848305571052307 E 62, 34961608420804100 E 63, 13159567450524291 E 64, 48470286760075606 E 66, 17478037442564028 E 67, 61728245685426536 E 69, 21361549017748847 E 70, 72462806209769721 E 72, 24104623618405834 E 73, 78659483944633611 E 75, 25189757803693724 E 76, 79189921449068659 E 78, 24447488975131150 E 79, 74140800685108560 E 81, 22093997238222492 E 82, 64716650251803978 E 84, 18638405974502499 E 85, bnil.
Definition r344 := 14519939766785250 E 17, 10328914952172526 E 17, 55121650991929325 E 18, 23170470754386094 E 18, 79724372475389934 E 19, 23123500486154900 E 19, 57829465022201753 E 20, 12693421928809833 E 20, 24802414954146843 E 21, 43641453867912681 E 22, 69812357361367611 E 23, 10234450135894213 E 23, 13843477318423635 E 24, 17378348006308026 E 25, 20349487161210113 E 26, 22325708552043696 E 27, 23038933814746990 E 28, 22440576464106028 E 29, 20695194719726729 E 30, 18121005044644963 E 31, 15103202376296879 E 32, 12009523568647090 E 33, 91297915488009190 E 35, 66482298413342073 E 36, 46454265582665463 E 37, 31197825198720114 E 38, 20167589851646752 E 39, 12566641565969573 E 40, 75575720009353049 E 42, 43920517908174460 E 43, 24692475986776440 E 44, 13444130371623755 E 45, 70958155023620220 E 47, 36339451462963994 E 48, 18073502307987011 E 49, 87368345199343247 E 51, 41082223238860400 E 52, 18804588431962236 E 53, 83847297082261851 E 55, 36443445525720210 E 56, 15450067145088971 E 57, 63926957342117178 E 59, 25830344520002306 E 60, 10197815025101746 E 61, 39358846053124539 E 63, 14857761357310074 E 64, 54884323031043284 E 66, 19848444847793391 E 67, 70303829288262941 E 69, 24399961277391097 E 70, 83010495771110726 E 72, 27693623663818448 E 73, 90634219561328707 E 75, 29108972133803487 E 76, 91777168393395835 E 78, 28415869617037921 E 79, 86426315163066340 E 81, 25830043123654103 E 82, 75880302013443717 E 84, 21917148151447428 E 85, bnil.
Definition r345 := 14478148037260166 E 17, 10310794560635436 E 17, 55122397236641321 E 18, 23220413379337938 E 18, 80085150176947961 E 19, 23286350723080366 E 19, 58388145381410160 E 20, 12850205793605904 E 20, 25176854092105923 E 21, 44421971923487501 E 22, 71257969946062870 E 23, 10475554345796452 E 23, 14209409740865500 E 24, 17888062053160220 E 25, 21005682969662814 E 26, 23111115112480927 E 27, 23917373815821736 E 28, 23362711473839414 E 29, 21607232062232746 E 30, 18973795782169012 E 31, 15859335195473652 E 32, 12646989769308385 E 33, 96420410538548488 E 35, 70414481671634185 E 36, 49343550762656292 E 37, 33233711018032013 E 38, 21545621426113231 E 39, 13464042139429645 E 40, 81206421225399815 E 42, 47329067407062386 E 43, 26685667419174060 E 44, 14571341953721037 E 45, 77129938466061237 E 47, 39614416637044274 E 48, 19759311296076849 E 49, 95794044890577340 E 51, 45174521494275280 E 52, 20737622153101036 E 53, 92734204925243949 E 55, 40422792974114343 E 56, 17186739031541737 E 57, 71318726146806337 E 59, 28900567237611370 E 60, 11443005414062302 E 61, 44292715193397576 E 63, 16768740982926351 E 64, 62123035533878388 E 66, 22531404228703427 E 67, 80038382376191220 E 69, 27859038875751151 E 70, 95053428383600937 E 72, 31803319972318099 E 73, 10438614740485088 E 74, 33622936059144398 E 76, 10631672866386135 E 77, 33013089982430679 E 79, 10070002473660743 E 80, 30183329570834921 E 82, 88926167157693520 E 84, 25759839095397321 E 85, bnil.
Definition r346 := 14436592052882496 E 17, 10292716602353776 E 17, 55122712993965650 E 18, 23270066321275273 E 18, 80445441358942688 E 19, 23449515169260251 E 19, 58949596069592135 E 20, 13008230043845990 E 20, 25555351858667109 E 21, 45213230981880040 E 22, 72727704202778866 E 23, 10721388356847390 E 23, 14583596341401389 E 24, 18410776334927894 E 25, 21680555981025536 E 26, 23921207337470156 E 27, 24826038965053293 E 28, 24319329565632030 E 29, 22556108074343761 E 30, 19863596011992996 E 31, 16650563307997975 E 32, 13315972216880606 E 33, 10181170898449152 E 34, 74564979013214861 E 36, 52402072954645799 E 37, 35395084045057051 E 38, 23012826395477223 E 39, 14422280343007562 E 40, 87236254858276185 E 42, 50989802771310026 E 43, 28832527714063477 E 44, 15788974940618793 E 45, 83816116983004033 E 47, 43172617222084252 E 48, 21596224659805719 E 49, 10500157102662594 E 50, 49659506943184469 E 52, 22862285169904639 E 53, 10253041882473200 E 54, 44822021048091573 E 56, 19112221203736354 E 57, 79537883275250521 E 59, 32324348690705890 E 60, 12835614490369585 E 61, 49826706250576890 E 63, 18918373891713163 E 64, 70289367747478573 E 66, 25566953807065739 E 67, 91084173165136073 E 69, 31795434180775858 E 70, 10879790800280685 E 71, 36507278222407113 E 73, 12017225402266899 E 74, 38819631712757176 E 76, 12310392830429069 E 77, 38336379902623215 E 79, 11727601552835837 E 80, 35253443939680449 E 82, 10416428375570331 E 83, 30261282405071759 E 85, bnil.
Definition r347 := 14395269890530815 E 17, 10274681149662032 E 17, 55122602510535530 E 18, 23319430357520127 E 18, 80805239795150915 E 19, 23612989985472778 E 19, 59513810515772784 E 20, 13167497346068855 E 20, 25937931696538187 E 21, 46015328724611660 E 22, 74221856202460923 E 23, 10972024925747721 E 23, 14966189424616313 E 24, 18946770340167449 E 25, 22374564408256500 E 26, 24756665603377183 E 27, 25765853780426205 E 28, 25311589864908768 E 29, 23543172648365368 E 30, 20791874129152144 E 31, 17478385767563734 E 32, 14017913001344196 E 33, 10748493016313789 E 34, 78945112752832859 E 36, 55639127601558750 E 37, 37689222037236589 E 38, 24574650936664146 E 39, 15445259506946612 E 40, 93692063982188854 E 42, 54920466644705221 E 43, 31144346237304935 E 44, 17103954166196592 E 45, 91057693489769607 E 47, 47037518257056400 E 48, 23597235943011890 E 49, 11506061821433527 E 50, 54573426534068268 E 52, 25196873344224517 E 53, 11332564597499864 E 54, 49683891559103867 E 56, 21246346291781379 E 57, 88673990392292483 E 59, 36141097083183097 E 60, 14392549112349639 E 61, 56031585361246348 E 63, 21335575891641119 E 64, 79498728988645346 E 66, 29000110822641549 E 67, 10361290360360763 E 68, 36273215869388972 E 70, 12447792437111336 E 71, 41889179237802599 E 73, 13828571135358660 E 74, 44799721587629456 E 76, 14247763957065658 E 77, 44497630276270772 E 79, 13651678489127026 E 80, 41155657499750695 E 82, 12195456068444417 E 83, 35531851105254625 E 85, bnil.
Definition r348 := 14354179646917517 E 17, 10256688270634920 E 17, 55122069998184448 E 18, 23368506272176140 E 18, 81164539334623292 E 19, 23776771339115072 E 19, 60080782052365561 E 20, 13328010321969036 E 20, 26324616990507304 E 21, 46828363120398062 E 22, 75740724086467394 E 23, 11227537578746198 E 23, 15357343418804330 E 24, 19496328362814781 E 25, 23088175799976482 E 26, 25618186283437150 E 27, 26737767392614739 E 28, 26340685940592415 E 29, 24569819949019984 E 30, 21760151203667812 E 31, 18344360008192012 E 32, 14754314803929080 E 33, 11345378494629742 E 34, 83566750528559185 E 36, 59064486462260665 E 37, 40123798112323185 E 38, 26236853902838624 E 39, 16537119133332109 E 40, 10060239900914088 E 41, 59139985283177291 E 43, 33633200605290968 E 44, 18523709574198439 E 45, 98898789931713722 E 47, 51234443274895171 E 48, 25776408636957480 E 49, 12604683954845370 E 50, 59955740577576822 E 52, 27761362422628099 E 53, 12521811501630212 E 54, 55055364423303231 E 56, 23610957259651024 E 57, 98825974115527187 E 59, 40394467729313229 E 60, 16132592611260494 E 61, 62986201162012283 E 63, 24052658906781481 E 64, 89880457497480614 E 66, 32881472109937492 E 67, 11781811690411221 E 68, 41364811952199600 E 70, 14235876423402852 E 71, 48044171633861163 E 73, 15906083495666030 E 74, 51678327972268087 E 76, 16482653618077668 E 77, 51625547829438904 E 79, 15884051791127462 E 80, 48023335260624092 E 82, 14271460748812988 E 83, 41699984442496751 E 85, bnil.
Definition r349 := 14313319438349498 E 17, 10238738029172134 E 17, 55121119634164328 E 18, 23417294855955818 E 18, 81523333901268452 E 19, 23940855404424757 E 19, 60650503916202130 E 20, 13489771548365819 E 20, 26715431066069014 E 21, 47652432420613215 E 22, 77284608063489324 E 23, 11488000614935293 E 23, 15757214894172441 E 24, 20059739561405818 E 25, 23821867188140669 E 26, 26506482054394294 E 27, 27742754097096253 E 28, 27407846688206806 E 29, 25637489688886259 E 30, 22770002663685609 E 31, 19250103892239644 E 32, 15526743211467762 E 33, 11973260017333737 E 34, 88442329518832444 E 36, 62688420241683282 E 37, 42706900758660058 E 38, 28005523619151238 E 39, 17702248315817800 E 40, 10799762001144556 E 41, 63668543174833248 E 43, 36312008837501395 E 44, 20056211215173190 E 45, 10738687314862918 E 46, 55790714712174726 E 48, 28148960376656582 E 49, 13804233425766992 E 50, 65849395869892705 E 52, 30577556133259705 E 53, 13831535429166012 E 54, 60987994412059415 E 56, 26230103800118480 E 57, 11010307081026821 E 58, 45132805126331356 E 60, 18076606132363660 E 61, 70778378032266113 E 63, 27105717258550150 E 64, 10157944980012051 E 65, 37267884879072166 E 67, 13391789433662833 E 68, 47152069178334402 E 70, 16274108003513788 E 71, 55080400257224481 E 73, 18287870292808724 E 74, 59587055364431155 E 76, 19059622338417946 E 77, 59868118369421018 E 79, 18472942986049251 E 80, 56010706854648794 E 82, 16692876351224351 E 83, 48915075472630137 E 85, bnil.
Definition r350 := 14272687400492079 E 17, 10220830485081614 E 17, 55119755561364100 E 18, 23465796906010274 E 18, 81881617493435276 E 19, 24105238362697886 E 19, 61222969249562177 E 20, 13652783557176442 E 20, 27110397188059978 E 21, 48487635154731271 E 22, 78853810406300750 E 23, 11753489109508052 E 23, 16165962581050082 E 24, 20637298018656097 E 25, 24576125237252768 E 26, 27422282207522668 E 27, 28781813916126424 E 28, 28514337231774228 E 29, 26747668435220768 E 30, 23823060025512982 E 31, 20197297822059440 E 32, 16336829110049403 E 33, 12633634399872307 E 34, 93584881642164316 E 36, 66521722210239617 E 37, 45447054782885110 E 38, 29887095517845283 E 39, 18945299871939598 E 40, 11591000479732969 E 41, 68527662088778135 E 43, 39194584767514411 E 44, 21710006539582287 E 45, 11657299626630098 E 46, 60735804412111936 E 48, 30731353454381427 E 49, 15113617347426563 E 50, 72301121030418947 E 52, 33669246796308697 E 53, 15273503832893519 E 54, 67538363942968283 E 56, 29130257194949445 E 57, 12262586322816142 E 58, 50409629414031495 E 60, 20247750837065175 E 61, 79505904755212182 E 63, 30535056454070662 E 64, 11475797462847978 E 65, 42223195646033464 E 67, 15215787496030745 E 68, 53727442748274318 E 70, 18596547233152564 E 71, 63120732605498758 E 73, 21017352105791291 E 74, 68676288124866828 E 76, 22029736189145036 E 77, 69395421529425005 E 79, 21473932670249644 E 80, 65296051190416348 E 82, 19515850541417165 E 83, 57350809107583638 E 85, bnil.
Definition r351 := 14232281688136056 E 17, 10202965694161364 E 17, 55117981888528372 E 18, 23514013225761233 E 18, 82239384183492581 E 19, 24269916402503353 E 19, 61798171101202744 E 20, 13817048835393708 E 20, 27509538559304788 E 21, 49334070125748936 E 22, 80448635448342831 E 23, 12024078916976488 E 23, 16583747388103370 E 24, 21229302801397727 E 25, 25351446395126668 E 26, 28366332964065475 E 27, 29855973170702030 E 28, 29661459844817556 E 29, 27901890948793089 E 30, 24921012671660564 E 31, 21187686917024299 E 32, 17186271160369111 E 33, 13328065218463005 E 34, 99008059775520929 E 36, 70575732851942158 E 37, 48353243235382352 E 38, 31888370651482789 E 39, 20271205223168866 E 40, 12437386304154041 E 41, 73740284799064036 E 43, 42295696903963726 E 44, 23494260129231387 E 45, 12651205662533938 E 46, 66101494909282501 E 48, 33541392101090534 E 49, 16542496696780765 E 50, 79361745779037692 E 52, 37062389459515192 E 53, 16860590827878258 E 54, 74768555052935793 E 56, 32340545308654206 E 57, 13652741757995117 E 58, 56284171514770462 E 60, 22671733050692804 E 61, 89277628437903601 E 63, 34385669002138549 E 64, 12959769161849414 E 65, 47819086127303092 E 67, 17281463576489060 E 68, 61195331877496175 E 70, 21241764887571493 E 71, 72304708130930062 E 73, 24143983053550791 E 74, 79117799795219374 E 76, 25451492045169828 E 77, 80402845831605279 E 79, 24951055687837100 E 80, 76085355092602552 E 82, 22805443822029377 E 83, 67209019171314239 E 85, bnil.
Definition r352 := 14192100474967922 E 17, 10185143708279829 E 17, 55115802690476154 E 18, 23561944624735525 E 18, 82596628117407155 E 19, 24434885719893914 E 19, 62376102427386668 E 20, 13982569825067825 E 20, 27912878319271815 E 21, 50191836405587284 E 22, 82069389580140849 E 23, 12299846674350508 E 23, 17010732420551660 E 24, 21836058020870685 E 25, 26148337045198729 E 26, 29339397795127370 E 27, 30966285062634219 E 28, 30850554890778113 E 29, 29101741555371096 E 30, 26065609678009371 E 31, 22223083257663080 E 32, 18076838357225892 E 33, 14058185537007704 E 34, 10472616502854962 E 35, 74862365582037911 E 37, 51434930355369552 E 38, 34016535124680761 E 39, 21685190059451668 E 40, 13342565678753509 E 41, 79330863742866762 E 43, 45631130943455214 E 44, 25418796017447336 E 45, 13726307131933726 E 46, 71922052228816195 E 48, 36598327017008683 E 49, 18101347388440876 E 50, 87086546005794924 E 52, 40785290648160140 E 53, 18606877249921354 E 54, 82746663957192600 E 56, 35893009528678202 E 57, 15195453040475991 E 58, 62821961646751555 E 60, 25377074641091010 E 61, 10021466450960780 E 62, 38707762241302692 E 64, 14630189714914392 E 65, 54136005875457991 E 67, 19619947390218231 E 68, 69673578549828906 E 70, 24253423078844475 E 71, 82790738371743411 E 73, 27724066658197646 E 74, 91107715187908662 E 76, 29391870964038238 E 77, 93114759494826171 E 79, 28978055158417530 E 80, 88616514678886234 E 82, 26637010485954459 E 83, 78724143185377167 E 85, bnil.
Definition r353 := 14152141953343139 E 17, 10167364575454838 E 17, 55113222008319453 E 18, 23609591918401823 E 18, 82953343514319804 E 19, 24600142518613768 E 19, 62956756092911006 E 20, 14149348923292584 E 20, 28320439542739465 E 21, 51061033330474841 E 22, 83716381245555340 E 23, 12580869804277405 E 23, 17447082998385374 E 24, 22457872893366087 E 25, 26967313660395327 E 26, 30342257746056592 E 27, 32113830266858774 E 28, 32083001783165339 E 29, 30348855550506099 E 30, 27258661691249353 E 31, 23305368198697189 E 32, 19010372675688183 E 33, 14825700734896409 E 34, 11075417511204140 E 35, 79394133576441252 E 37, 54702085579150157 E 38, 36279180486456454 E 39, 23192790826650104 E 40, 14310412765320956 E 41, 85325454885387542 E 43, 49217756148539450 E 44, 27494142757146026 E 45, 14888947147994814 E 46, 78234410979946421 E 48, 39922967665039333 E 49, 19801526074776275 E 50, 95535616622484255 E 52, 44868812902752585 E 53, 20527759397308511 E 54, 91547361881335595 E 56, 39822885621509023 E 57, 16906909543668857 E 58, 70095476338651315 E 60, 28395411132411826 E 61, 11245173469016018 E 62, 43557343674554934 E 64, 16509802204416152 E 65, 61264212495371627 E 67, 22266263735403124 E 68, 79295148796479094 E 70, 27680928458564719 E 71, 94758589254262291 E 73, 31821678992448779 E 74, 10486987162422525 E 75, 33927536947058782 E 77, 10778869987954672 E 78, 33639817796219565 E 80, 10316415793733225 E 81, 31097788306791880 E 83, 92168365245845199 E 85, bnil.
Definition r354 := 14112404334062451 E 17, 10149628339931206 E 17, 55110243849682057 E 18, 23656955928009739 E 18, 83309524666119374 E 19, 24765683010302486 E 19, 63540124872133483 E 20, 14317388482195558 E 20, 28732245238472266 E 21, 51941760496311226 E 22, 85389920937866532 E 23, 12867226518141099 E 23, 17892966674582554 E 24, 23095061801218244 E 25, 27808902958558338 E 26, 31375711765351316 E 27, 33299717534107835 E 28, 33360219965756249 E 29, 31644920638273697 E 30, 28502042857753742 E 31, 24436494752804350 E 32, 19988791806508290 E 33, 15632391439032203 E 34, 11710777384024492 E 35, 84184177756738476 E 37, 58165208656736662 E 38, 38684325127041667 E 39, 24799872077031914 E 40, 15345043108813493 E 41, 91751817077988203 E 43, 53073595815465024 E 44, 29731581405123887 E 45, 16145941651573480 E 46, 85078372573719290 E 48, 43537802875193231 E 49, 21655341020711219 E 50, 10477427433174884 E 51, 49346596367506197 E 53, 22640067177814063 E 54, 10125250615921907 E 55, 44168910643708979 E 57, 18804960157991724 E 58, 78184849547572001 E 60, 31761820297883219 E 61, 12613864599458782 E 62, 48996869865373542 E 64, 18624040845814041 E 65, 69304931455279422 E 67, 25259805555440199 E 68, 90210018056307447 E 70, 31580166811843311 E 71, 10841218070926303 E 72, 36509712820462222 E 74, 12065963162083539 E 75, 39146200605180803 E 77, 12472015290587898 E 78, 39034016049259774 E 80, 12004517801583795 E 81, 36288727730486165 E 83, 10785755067188511 E 84, bnil.
Definition r355 := 14072885846151184 E 17, 10131935042256933 E 17, 55106872188918049 E 18, 23704037480431223 E 18, 83665165937015402 E 19, 24931503414695896 E 19, 64126201449999482 E 20, 14486690808932721 E 20, 29148318347908059 E 21, 52834117754013887 E 22, 87090321195695792 E 23, 13158995819121317 E 23, 18348553253323428 E 24, 23747944354143813 E 25, 28673642059433461 E 26, 32440577038127188 E 27, 34525084304070911 E 28, 34683669913167748 E 29, 32991678404639254 E 30, 29797692805077358 E 31, 25618490046978699 E 32, 21014091983434858 E 33, 16480116563505687 E 34, 12380338180793626 E 35, 89246295976097694 E 37, 61835355923806687 E 38, 41240436724865036 E 39, 26512644724764347 E 40, 16450827804704421 E 41, 98639517210774394 E 43, 57217902068676676 E 44, 32143196600599314 E 45, 17504612958490551 E 46, 92496817447637197 E 48, 47467130344925148 E 49, 23676128426159740 E 50, 11487349260570616 E 51, 54255298789150084 E 53, 24962192440320590 E 54, 11195180591951917 E 55, 48973658230403350 E 57, 20909277409185293 E 58, 87178653998314459 E 60, 35515184236760532 E 61, 14144192512667790 E 62, 55095965565212788 E 64, 21001339613252583 E 65, 78371648804617150 E 67, 28644862721229052 E 68, 10258728463921596 E 69, 36014328884315937 E 71, 12398274299312275 E 72, 41871058142318465 E 74, 13876820598358630 E 75, 45148169800910265 E 77, 14424800332668839 E 78, 45272986086569638 E 80, 13962507929774548 E 81, 42326595750662175 E 83, 12615809133779430 E 84, bnil.
Definition r356 := 14033584736641516 E 17, 10114284719358059 E 17, 55103110967330407 E 18, 23750837408004193 E 18, 84020261763108808 E 19, 25097599959823243 E 19, 64714978423066323 E 20, 14657258165686919 E 20, 29568681743854663 E 21, 53738205204845655 E 22, 88817896598759643 E 23, 13456257505211527 E 23, 18814014808200067 E 24, 24416845450923511 E 25, 29562078643223065 E 26, 33537689324179260 E 27, 35791097329170453 E 28, 36054854152124825 E 29, 34390925826122425 E 30, 31147618677285896 E 31, 26853457853393890 E 32, 22088350905137299 E 33, 17370816460443608 E 34, 13085818828443949 E 35, 94594973453003346 E 37, 65724167777749356 E 38, 43956455791297940 E 39, 28337685250243057 E 40, 17632408446177186 E 41, 10602004147621253 E 42, 61671235231859422 E 44, 34741930926233633 E 45, 18972825565943256 E 46, 10053593223613572 E 47, 51737195659283782 E 49, 25878334595085038 E 50, 12591037133331173 E 51, 59634855389062053 E 53, 27514228332155747 E 54, 12374354703980924 E 55, 54283904782330802 E 57, 23241537214644552 E 58, 97174759423588148 E 60, 39698588226029199 E 61, 15854662402244421 E 62, 61932220418138323 E 64, 23673475136029842 E 65, 88591551543545321 E 67, 32471212892737083 E 68, 11661753805384423 E 69, 41054838437701312 E 71, 14173237384895689 E 72, 47999936458184675 E 74, 15952755374922501 E 75, 52048112209729506 E 77, 16676074752519215 E 78, 52485874627466369 E 80, 16232525261625752 E 81, 49346394686577234 E 83, 14749479801211457 E 84, bnil.
Definition r357 := 13994499270357610 E 17, 10096677404612246 E 17, 55098964093389199 E 18, 23797356548378445 E 18, 84374806651961402 E 19, 25263968882201253 E 19, 65306448300527723 E 20, 14829092769670684 E 20, 29993358229198176 E 21, 54654123195727286 E 22, 90572963763463012 E 23, 13759092172196214 E 23, 19289525700420640 E 24, 25102095341425688 E 25, 30474771110708823 E 26, 34667903300676236 E 27, 37098953309081806 E 28, 37475318303756069 E 29, 35844516814449795 E 30, 32553897225349448 E 31, 28143581196722169 E 32, 23213730754527912 E 33, 18306516185660078 E 34, 13829018436816269 E 35, 10024541450139995 E 36, 69843897408440757 E 38, 46841820362742911 E 39, 30281955899050161 E 40, 18894712891215071 E 41, 11392691307650709 E 42, 66455548038841457 E 44, 37541642750625529 E 45, 20559024361989635 E 46, 10924545288531536 E 47, 56376341496272949 E 49, 28277604377946398 E 50, 13796864377454302 E 51, 65528760182675686 E 53, 30318120589667954 E 54, 13673538143108670 E 55, 60151029287417771 E 57, 25825615711366987 E 58, 10828127499595603 E 59, 44359759948865915 E 61, 17765831384584660 E 62, 69592071329917190 E 64, 26675947546953481 E 65, 10010713197114942 E 66, 36794781521562327 E 68, 13251551200251542 E 69, 46782394814353263 E 71, 16195804594170643 E 72, 55003408202681661 E 74, 18331593381923880 E 75, 59977057979832014 E 77, 19270357269297617 E 78, 60821092099949622 E 80, 18863131218305959 E 81, 57504141821203051 E 83, 17235999592367707 E 84, bnil.
Definition r358 := 13955627729703665 E 17, 10079113127921009 E 17, 55094435442949972 E 18, 23843595744363739 E 18, 84728795182163752 E 19, 25430606427024704 E 19, 65900603505236060 E 20, 15002196793132856 E 20, 30422370535620820 E 21, 55581972314531823 E 22, 92355841338326627 E 23, 14067581216586145 E 23, 19775262597005372 E 24, 25804029688966739 E 25, 31412288744944860 E 26, 35832092909519179 E 27, 38449879536123407 E 28, 38946652147244978 E 29, 37354363797888980 E 30, 34018676953849789 E 31, 29491125039898989 E 32, 24392481318333191 E 33, 19289328882838697 E 34, 14611819744656950 E 35, 10621357560750593 E 36, 74207440836303746 E 38, 49906491891681281 E 39, 32352825923364001 E 40, 20242971891538620 E 41, 12239581672431345 E 42, 71594274961826386 E 44, 40557167762595581 E 45, 22272275390677470 E 46, 11867892477337761 E 47, 61415167726895794 E 49, 30890876343889826 E 50, 15113922365062144 E 51, 71984370439053133 E 53, 33397831740969508 E 54, 15104518612985200 E 55, 66631449745192697 E 57, 28687804715349677 E 58, 12061758390713270 E 59, 49551553041624335 E 61, 19900528642556602 E 62, 78171779402610304 E 64, 30048403345604247 E 65, 11307797408530337 E 66, 41678378833782408 E 68, 15052305522264422 E 69, 53288143721560891 E 71, 18499611991651357 E 72, 63003075189688938 E 74, 21056419256546673 E 75, 69084674311995514 E 77, 22258642000568033 E 78, 70449114703576015 E 80, 21910264523081342 E 81, 66980062392936915 E 83, 20132400250008037 E 84, bnil.
Definition r359 := 13916968414454725 E 17, 10061591915780729 E 17, 55089528859471507 E 18, 23889555843780125 E 18, 85082222002901848 E 19, 25597508848353807 E 19, 66497436374723517 E 20, 15176572363369381 E 20, 30855741322330306 E 21, 56521853385364504 E 22, 94166849999253605 E 23, 14381806838512135 E 23, 20271404488973449 E 24, 26522989633007083 E 25, 32375211874526863 E 26, 37031151709402345 E 27, 39845134551648058 E 28, 40470490705174722 E 29, 38922439339972888 E 30, 35544180325280596 E 31, 30898439050371707 E 32, 25626943209841949 E 33, 20321459290083133 E 34, 15436192700795377 E 35, 11251619990533575 E 36, 78828368312223263 E 38, 53160982390434979 E 39, 34558093915770931 E 40, 21682736627337914 E 41, 13146473030405933 E 42, 77112426949329820 E 44, 43804384419521344 E 45, 24122309334525722 E 46, 12889398096504569 E 47, 66886703166215909 E 49, 33736485170593713 E 50, 16552079540387464 E 51, 79053236101050883 E 53, 36779519276560614 E 54, 16680199812146531 E 55, 73787099413639654 E 57, 31857047509177082 E 58, 13431547877336501 E 59, 55332479271717333 E 61, 22284098396646650 E 62, 87778511228432722 E 64, 33835104759803525 E 65, 12768274203362695 E 66, 47192522492755728 E 68, 17091245710037515 E 69, 60674991538067704 E 71, 21122742503144879 E 72, 72137002582430863 E 74, 24176288227759809 E 75, 79541847882056461 E 77, 25699316494779773 E 78, 81565683712338690 E 80, 25438334628582783 E 81, 77982255875745909 E 83, 23504719217127476 E 84, bnil.
Definition r360 := 13878519641550324 E 17, 10044113791352363 E 17, 55084248154233531 E 18, 23935237699310389 E 18, 85435081833522258 E 19, 25764672409298215 E 19, 67096939162221490 E 20, 15352221562737976 E 20, 31293493174799386 E 21, 57473867463826838 E 22, 96006312444632833 E 23, 14701852044576163 E 23, 20778132709518311 E 24, 27259321852178583 E 25, 33364132038437577 E 26, 38265993232608715 E 27, 41286008813563277 E 28, 42048515350902863 E 29, 40550777796328086 E 30, 37132706023235981 E 31, 32367960448909225 E 32, 26919551197826307 E 33, 21405207372778805 E 34, 16304198185282240 E 35, 11917085310474837 E 36, 83720957135938184 E 38, 56616382883589235 E 39, 36906011287626155 E 40, 23219897193818870 E 41, 14117406407961600 E 42, 83036691881805573 E 44, 47300283544542015 E 45, 26119567885703845 E 46, 13995263979898561 E 47, 72826589781523172 E 49, 36834271773284311 E 50, 18122045087915080 E 51, 86791456123147326 E 53, 40491728926058556 E 54, 18414703129984795 E 55, 81685946369697104 E 57, 35365196802953648 E 58, 14952040733177271 E 59, 61767294062849402 E 61, 24944667988665361 E 62, 98531535315618063 E 64, 38085450550791637 E 65, 14412139273969930 E 66, 53416355593197976 E 68, 19399016913811653 E 69, 69059080215957301 E 71, 24108297668060266 E 72, 82561887896022035 E 74, 27747031720501539 E 75, 91543615642419826 E 77, 29659206546664401 E 78, 94395456871301941 E 80, 29521473172388082 E 81, 90750903951119068 E 83, 27429388274402153 E 84, bnil.
Definition r361 := 13840279744890852 E 17, 10026678774529965 E 17, 55078597106554245 E 18, 23980642168354705 E 18, 85787369463096765 E 19, 25932093382197937 E 19, 67699104037678671 E 20, 15529146428676694 E 20, 31735648603516517 E 21, 58438115832266017 E 22, 97874553390281869 E 23, 15027800650660182 E 23, 21295630952170179 E 24, 28013378627640763 E 25, 34379652152472992 E 26, 39537551346576161 E 27, 42773825375111180 E 28, 43682454938308099 E 29, 42241477010333924 E 30, 38786631275810156 E 31, 33902216943097736 E 32, 28272837644708961 E 33, 22542972086821492 E 34, 17217991875420534 E 35, 12619596092771953 E 36, 88900225951678686 E 38, 60284393227319689 E 39, 39405306946410227 E 40, 24860702087752648 E 41, 15156680785343507 E 42, 89395541069364504 E 44, 51063042320688766 E 45, 28275253187439953 E 46, 15192162308220354 E 47, 79273280216564219 E 49, 40205701730247124 E 50, 19835437591200562 E 51, 95260063830435785 E 53, 44565604267934250 E 54, 20323478248738663 E 55, 90402560168184216 E 57, 39247296874610611 E 58, 16639283874711829 E 59, 68927640524566392 E 61, 27913443583646874 E 62, 11056354549236382 E 63, 42854553715832703 E 65, 16261763717154143 E 66, 60438670690196538 E 68, 22010096796630151 E 69, 78571441820222824 E 71, 27505040833741216 E 72, 94455507886381239 E 74, 31832168727281773 E 75, 10531248972881842 E 76, 34214764840764218 E 78, 10919617411408279 E 79, 34244965718895989 E 81, 10556309820915699 E 82, 31994831163670148 E 84, bnil.
Definition r362 := 13802247075136612 E 17, 10009286882007971 E 17, 55072579464007239 E 18, 24025770112887368 E 18, 86139079749984956 E 19, 26099768048800762 E 19, 68303923088776732 E 20, 15707348953726482 E 20, 32182230042747354 E 21, 59414699995010690 E 22, 99771899564228684 E 23, 15359737284691745 E 23, 21824085288943732 E 24, 28785517906762889 E 25, 35422386677251017 E 26, 40846780620268500 E 27, 44309940575038745 E 28, 45374086954254312 E 29, 43996700048349363 E 30, 40508414240553382 E 31, 35503829747691532 E 32, 29689436057125177 E 33, 23737255276381545 E 34, 18179828261774760 E 35, 13361084811044438 E 36, 94381970582022156 E 38, 64177353356232744 E 39, 42065213228911345 E 40, 26611778744477191 E 41, 16268868650251752 E 42, 96219342133203767 E 44, 55112102943924468 E 45, 30601380537938560 E 46, 16487269624474283 E 47, 86268249546933080 E 49, 43873992600292666 E 50, 21704859055804822 E 51, 10452544355913827 E 52, 49035113994416684 E 54, 22423423399781054 E 55, 10001872970112870 E 56, 43541892069934085 E 58, 18510976177713585 E 59, 76892757623157090 E 61, 31225036236609167 E 62, 12402212431134190 E 63, 48203882100561852 E 65, 18342167730186412 E 66, 68359051730105027 E 68, 24963261069871362 E 69, 89359853937492205 E 71, 31368120460548272 E 72, 10801947792117875 E 73, 36503936449456490 E 75, 12110222803382271 E 76, 39453422697736784 E 78, 12626340816572510 E 79, 39706889098846618 E 81, 12273837657148955 E 82, 37303300879004713 E 84, bnil.
Definition r363 := 13764419999509553 E 17, 99919381273473218 E 18, 55066198942638339 E 18, 24070622399315705 E 18, 86490207621397162 E 19, 26267692700436885 E 19, 68911388321945004 E 20, 15886831085557454 E 20, 32633259849307142 E 21, 60403721673592895 E 22, 10169867970133433 E 22, 15697747389366485 E 23, 22363684188469446 E 24, 29576103367128417 E 25, 36492961787804698 E 26, 42194656695385471 E 27, 45895744739288701 E 28, 47125238694118952 E 29, 45818676975251754 E 30, 42300596452351405 E 31, 37175516694032728 E 32, 31172084752104199 E 33, 24990665710487573 E 34, 19192064819401668 E 35, 14143577903085005 E 36, 10018280146322184 E 37, 68308276020786200 E 39, 44895493149543050 E 40, 28480155178157055 E 41, 17458832433776548 E 42, 10354047863042666 E 43, 59468256211730955 E 45, 33110834560433151 E 46, 17888303189199461 E 47, 93856222241312072 E 49, 47864250768237169 E 50, 23743974696389801 E 51, 11465978100696748 E 52, 53937298256037724 E 54, 24733016082682066 E 55, 11062413670210070 E 56, 48291364031496593 E 58, 20586632705343367 E 59, 85750258653969360 E 61, 34917821334194060 E 62, 13907136076626168 E 63, 54201968547194724 E 65, 20681324865534419 E 66, 77289147035772524 E 68, 28302103909256542 E 69, 10159091961830420 E 70, 35759883227006629 E 72, 12348236261046255 E 73, 41844455385222371 E 75, 13920210856733618 E 76, 45475126710987311 E 78, 14593598001961260 E 79, 46019983118915007 E 81, 14264506988187647 E 82, 43472991698616294 E 84, bnil.
Definition r364 := 13726796901597627 E 17, 99746325210403886 E 18, 55059459227181869 E 18, 24115199898340885 E 18, 86840748072955221 E 19, 26435863638189956 E 19, 69521491663372150 E 20, 16067594726999019 E 20, 33088760301344248 E 21, 61405282801957222 E 22, 10365522453775584 E 22, 16041917224826799 E 23, 22914618534106539 E 24, 30385504480858662 E 25, 37592015544762930 E 26, 43582176662446148 E 27, 47532662894343331 E 28, 48937788460738199 E 29, 47709706671046058 E 30, 44165805335622170 E 31, 38920095430802326 E 32, 32723630642175176 E 33, 26305923262833850 E 34, 20257166339708720 E 35, 14969200002313952 E 36, 10632018274762412 E 37, 72690881080908799 E 39, 47906469025690079 E 40, 30473282780568786 E 41, 18731741875544931 E 42, 11139347680089906 E 43, 64153730339312922 E 45, 35817429054977951 E 46, 19403559828087389 E 47, 10208541536653125 E 48, 52203618497692338 E 50, 25967598916432646 E 51, 12574154990154333 E 52, 59312535620160617 E 54, 27272455120359411 E 55, 12231708971021030 E 56, 53542300230205012 E 58, 22887764683081720 E 59, 95596986744916290 E 61, 39034334708878087 E 62, 15589363804399639 E 63, 60925197879009054 E 65, 23310500147323019 E 66, 87354087918748293 E 68, 32075619524719371 E 69, 11545239822032372 E 70, 40750787761417776 E 72, 14110318114706630 E 73, 47947045917874806 E 75, 15994177309362872 E 76, 52394084892601783 E 78, 16860212992556547 E 79, 53313789335543433 E 81, 16570757426069280 E 82, 50640466035042393 E 84, bnil.
Definition r365 := 13689376181161728 E 17, 99573700705747850 E 18, 55052363971276573 E 18, 24159503484821005 E 18, 87190696168253212 E 19, 26604277173065288 E 19, 70134224960016452 E 20, 16249641736073729 E 20, 33548753597134502 E 21, 62419485521657494 E 22, 10564186680525064 E 22, 16392333871296607 E 23, 23477081642035954 E 24, 31214096579252371 E 25, 38720198067119389 E 26, 45010359441779008 E 27, 49222155492352516 E 28, 50813666787122005 E 29, 49672158689309001 E 30, 46106756782245094 E 31, 40740486718410507 E 32, 34347033142781970 E 33, 27685863239336343 E 34, 21377709428512850 E 35, 15840178344307433 E 36, 11281247314122407 E 37, 77339631424073167 E 39, 51109052544653512 E 40, 32599060336242117 E 41, 20093092367269023 E 42, 11981513983466249 E 43, 69192285311709574 E 45, 38735970760215115 E 46, 21041957434017690 E 47, 11100779914155000 E 48, 56921431916460826 E 50, 28391787939336602 E 51, 13785603778759866 E 52, 65204832295775998 E 54, 30063814993423849 E 55, 13520532370793421 E 56, 59345896594618160 E 58, 25438076674770655 E 59, 10653995474129395 E 60, 43621709037572843 E 62, 17469160858204354 E 63, 68458678761988037 E 65, 26264625697809378 E 66, 98694069059529536 E 68, 36338851852219974 E 69, 13115581652189531 E 70, 46420431092759721 E 72, 16117535602550518 E 73, 54917715559596393 E 75, 18369671381149377 E 76, 60340750136669499 E 78, 19470654655366114 E 79, 61737094029183257 E 81, 19241468089201125 E 82, 58963441881009836 E 84, bnil.
Definition r366 := 13652156253945186 E 17, 99401507804960154 E 18, 55044916797681254 E 18, 24203534037636081 E 18, 87540047038417168 E 19, 26772929626154751 E 19, 70749579980613553 E 20, 16432973926034866 E 20, 34013261853886997 E 21, 63446432177041857 E 22, 10765894122532437 E 22, 16749085231671821 E 23, 24051269279331863 E 24, 32062260917738265 E 25, 39878171706593102 E 26, 46480246169454040 E 27, 50965719148179671 E 28, 52754857683298800 E 29, 51708475158247496 E 30, 48126257796665700 E 31, 42639717819384439 E 32, 36045368205474644 E 33, 29133440858087577 E 34, 22556387176044234 E 35, 16758847354987785 E 36, 11967896854693491 E 37, 82269770578821507 E 39, 54514776339559543 E 40, 34865859314464020 E 41, 21548724326313235 E 42, 12884469007929627 E 43, 74609313097184683 E 45, 41882327266689332 E 46, 22813079295501748 E 47, 12067937601672777 E 48, 62049390708805566 E 50, 31033939582083366 E 51, 15109591393979807 E 52, 71662135403452841 E 54, 33131213471960898 E 55, 14940687107821981 E 56, 65758397272916096 E 58, 28263682543203815 E 59, 11869737749739243 E 60, 48732154479383631 E 62, 19569037539397280 E 63, 76897209297496465 E 65, 29582717902276035 E 66, 11146610852860511 E 67, 41153620104749070 E 69, 14893939280845203 E 70, 52858701323754486 E 72, 18403115963480625 E 73, 62876838359264244 E 75, 21089448613754815 E 76, 69464072398838677 E 78, 22475837057835080 E 79, 71460717544573496 E 81, 22332911316096263 E 82, 68623993118219774 E 84, bnil.
Definition r367 := 13615135551485774 E 17, 99229746524690562 E 18, 55037121298489422 E 18, 24247292439555056 E 18, 87888795881664421 E 19, 26941817328798730 E 19, 71367548416682110 E 20, 16617593065407701 E 20, 34482307106560952 E 21, 64486225310426550 E 22, 10970678450322052 E 22, 17112260034066172 E 23, 24637379682009266 E 24, 32930384741136499 E 25, 41066611223580822 E 26, 47992900588188321 E 27, 52764887388497087 E 28, 54763399907648894 E 29, 53821172725156161 E 30, 50227209209639584 E 31, 44620925987157477 E 32, 37821832480426469 E 33, 30651735886486339 E 34, 23796014004813510 E 35, 17727653427284131 E 36, 12693994658673465 E 37, 87497362097568599 E 39, 58135827144486223 E 40, 37282550501435704 E 41, 23104843653429257 E 42, 13852391962846887 E 43, 80431944065206421 E 45, 45273499337335075 E 46, 24727221434051261 E 47, 13116047953031438 E 48, 67621740340939501 E 50, 33912900697096055 E 51, 16556184262846625 E 52, 78736672205161362 E 54, 36500993643831966 E 55, 16505100999168808 E 56, 72841574821815980 E 58, 31393341918880422 E 59, 13219980533536300 E 60, 54423487881576050 E 62, 21913990047827037 E 63, 86346346092121841 E 65, 33308340559109948 E 66, 12584600723231308 E 67, 46589328771077166 E 69, 16907131033374951 E 70, 60167071598395474 E 72, 21004671972414132 E 73, 71961050616618889 E 75, 24202174108350683 E 76, 79934055032419410 E 78, 25934030425473525 E 79, 82680697855093771 E 81, 25909844177110826 E 82, 79832222342655425 E 84, bnil.
Definition r368 := 13578312520930183 E 17, 99058416853387884 E 18, 55028981035344302 E 18, 24290779577104831 E 18, 88236937962861885 E 19, 27110936622744908 E 19, 71988121883526655 E 20, 16803500878034323 E 20, 34955911306693634 E 21, 65538967657258929 E 22, 11178573532175518 E 22, 17481947834312086 E 23, 25235613573046784 E 24, 33818861349226314 E 25, 42286203964703724 E 26, 49549409443260953 E 27, 54621231413066185 E 28, 56841388263092817 E 29, 56012844545074605 E 30, 52412608462108764 E 31, 46687362055717509 E 32, 39679747611914341 E 33, 32243957440451507 E 34, 25099530701444248 E 35, 18749159893303206 E 36, 13461671307855945 E 37, 93039330785460748 E 39, 61985080602085152 E 40, 39858532038785193 E 41, 24768043331462360 E 42, 14889734975588084 E 43, 86689159971224674 E 45, 48927697905600423 E 46, 26795443144131372 E 47, 14251609427429266 E 48, 73675467701508148 E 50, 37049082844823067 E 51, 18136314520144626 E 52, 86485317354439094 E 54, 40201921525566583 E 55, 18227929683691664 E 56, 80663254397435690 E 58, 34858719052643661 E 59, 14719136823155984 E 60, 60759715291206274 E 62, 24531766315332875 E 63, 96923587529883126 E 65, 37490118922185318 E 66, 14203052967647480 E 67, 52723871592786669 E 69, 19185338066279538 E 70, 68460052182499051 E 72, 23964765199659549 E 73, 82325389992164377 E 75, 27763218242181362 E 76, 91944655268571018 E 78, 29911897585220382 E 79, 95621922649674694 E 81, 30046757197052404 E 82, 92830474263522844 E 84, bnil.
Definition r369 := 13541685624850958 E 17, 98887518751894374 E 18, 55020499539652358 E 18, 24333996340441279 E 18, 88584468613084593 E 19, 27280283860304103 E 19, 72611291921238536 E 20, 16990699043122176 E 20, 35434096321239958 E 21, 66604762141270570 E 22, 11389613433499649 E 22, 17858239018416351 E 23, 25846174180382324 E 24, 34728090162615873 E 25, 43537650041949164 E 26, 51150882883468041 E 27, 56536360868334640 E 28, 58990974918500487 E 29, 58286162314450250 E 30, 54685552460725092 E 31, 48842394132618250 E 32, 41622564670483296 E 33, 33913448950758537 E 34, 26470009638754351 E 35, 19826052199283005 E 36, 14273165054656663 E 37, 98913505855095706 E 39, 66076137800091610 E 40, 42603758937657960 E 41, 26545326224598009 E 42, 16001239968280582 E 43, 93411913890282052 E 45, 52864426037294314 E 46, 29029620941129727 E 47, 15481619838669276 E 48, 80250511097749268 E 50, 40464586798830198 E 51, 19861851469755711 E 52, 94969990383665805 E 54, 44265400535466630 E 55, 20124668984835960 E 56, 89297885826701132 E 58, 38694666092899419 E 59, 16383114116045249 E 60, 67811672955337263 E 62, 27453159337885161 E 63, 10875968304593050 E 64, 42182310049031375 E 66, 16023983026699604 E 67, 59644640092060216 E 69, 21762514195648407 E 70, 77866819418205976 E 72, 27331539618018098 E 73, 94145708398390887 E 75, 31835556696074748 E 76, 10571707394246550 E 77, 34485672731484187 E 79, 11054227152473387 E 80, 34829302366578482 E 82, 10789816728989897 E 83, bnil.
Definition r370 := 13505253341065815 E 17, 98717052154028803 E 18, 55011680312796955 E 18, 24376943623222090 E 18, 88931383229172972 E 19, 27449855404503031 E 19, 73237049995693629 E 20, 17179189195295992 E 20, 35916883931423079 E 21, 67683711869620598 E 22, 11603832416178911 E 22, 18241224804970183 E 23, 26469267254879995 E 24, 35658476788911045 E 25, 44821662513409026 E 26, 52798454867153056 E 27, 58511924633486550 E 28, 61214370755693423 E 29, 60643878350627812 E 30, 57049240506564148 E 31, 51089511397912156 E 32, 43653868725607630 E 33, 35663693301677689 E 34, 27910660194562995 E 35, 20961143290847309 E 36, 15130826884627792 E 37, 10513866609007969 E 38, 70423363616379333 E 40, 45528774140772046 E 41, 28444129140617580 E 42, 17191956519266595 E 43, 10063325750237945 E 44, 57104566158738554 E 46, 31442506135230623 E 47, 16813613007767215 E 48, 87389985610688063 E 50, 44183336527086405 E 51, 21745678697694966 E 52, 10425808581285387 E 53, 48725704209161787 E 55, 22212277167057236 E 56, 98827167766247892 E 58, 42939533007037627 E 59, 18229464197226254 E 60, 75657732478588738 E 62, 30712330754909630 E 63, 12200008137859424 E 64, 47445435425121121 E 66, 18072015193191855 E 67, 67449648374905357 E 69, 24676844230692960 E 70, 88533042473215913 E 72, 31159434095023594 E 73, 10762139274357842 E 74, 36490788096840845 E 76, 12150348531763346 E 77, 39742501550821075 E 79, 12773733809872505 E 80, 40355925541682241 E 82, 12535733178388345 E 83, bnil.
Definition r371 := 13469014162459375 E 17, 98547016967159964 E 18, 55002526826351227 E 18, 24419622322481731 E 18, 89277677273290491 E 19, 27619647629234124 E 19, 73865387499547877 E 20, 17368972924653359 E 20, 36404295831596496 E 21, 68775920128030222 E 22, 11821264937912594 E 22, 18630997247513496 E 23, 27105101088266613 E 24, 36610433089179556 E 25, 46138967565615554 E 26, 54493283573343826 E 27, 60549611619079408 E 28, 63513846742413457 E 29, 63088827717993506 E 30, 59506977298596173 E 31, 53432328011613105 E 32, 45777383562749391 E 33, 37498318147228674 E 34, 29424834373892040 E 35, 22157379216326555 E 36, 16037125798905289 E 37, 11173458710364787 E 38, 75041926955584169 E 40, 48644741208104238 E 41, 30472348221652592 E 42, 18467260763245602 E 43, 10838847615442714 E 44, 61670472871168595 E 46, 34047786262239764 E 47, 18255697979218444 E 48, 95140424879320136 E 50, 48231223337777452 E 51, 23801777264203602 E 52, 11442293844405021 E 53, 53620228646011858 E 55, 24509307922707311 E 56, 10934072851072791 E 57, 47635506560645335 E 59, 20277547420894960 E 60, 84384576336395932 E 62, 34347167689456886 E 63, 13680653206775002 E 64, 53346982446776801 E 66, 20374682667731912 E 67, 76248787208186650 E 69, 27971256382930353 E 70, 10062293120638619 E 71, 35509983313715700 E 73, 12297843171906421 E 74, 41810284228173177 E 76, 13959126432366470 E 77, 45781964219587707 E 79, 14754581117379203 E 80, 46739731754592267 E 82, 14557895580564622 E 83, bnil.
Definition r372 := 13432966596807178 E 17, 98377413072769121 E 18, 54993042522290210 E 18, 24462033338508098 E 18, 89623346272480579 E 19, 27789656919402386 E 19, 74496295753229613 E 20, 17560051776823626 E 20, 36896353628117708 E 21, 69881490375908537 E 22, 12041945651536684 E 22, 19027649236853007 E 23, 27753886531036042 E 24, 37584377244706679 E 25, 47490304697475216 E 26, 56236551818029414 E 27, 62651151578403837 E 28, 65891735331634900 E 29, 65623930401616030 E 30, 62062176013509777 E 31, 55874587132351396 E 32, 47996976548808388 E 33, 39421101410512439 E 34, 31016032641433359 E 35, 23417844956169276 E 36, 16994654325341317 E 37, 11872209078197025 E 38, 79947842963834927 E 40, 51963478705303917 E 41, 32638365732091476 E 42, 19832875386851570 E 43, 11671523214667047 E 44, 66586071689644158 E 46, 36860150616319774 E 47, 19816600971336048 E 48, 10355204045454496 E 49, 52636260925588435 E 51, 26045315433099227 E 52, 12554432659808644 E 53, 58989766291025433 E 55, 27036054994096427 E 56, 12093686839614361 E 57, 52828980978361927 E 59, 22548712838111883 E 60, 94088050519649785 E 62, 38399676152660860 E 63, 15335885588257150 E 64, 59962182017996544 E 66, 22962761080612244 E 67, 86165221776458497 E 69, 31693994941840332 E 70, 11432153113930187 E 71, 40452717786333831 E 73, 14047287142411657 E 74, 47886489612091513 E 76, 16030777578398069 E 77, 52717805581182016 E 79, 17035560458354647 E 80, 54110615838366198 E 82, 16899025320120839 E 83, bnil.
Definition r373 := 13397109166602048 E 17, 98208240327003538 E 18, 54983230813202638 E 18, 24504177574721203 E 18, 89968385818223612 E 19, 27959879671069312 E 19, 75129766005929373 E 20, 17752427253030372 E 20, 37393078838233196 E 21, 71000526241470797 E 22, 12265909404330594 E 22, 19431274503333999 E 23, 28415837010319659 E 24, 38580733824039236 E 25, 48876426905802106 E 26, 58029467475609480 E 27, 64818315931701714 E 28, 68350431887602007 E 29, 68252193529234250 E 30, 64718361463507994 E 31, 58420165049936089 E 32, 50316663650050288 E 33, 41435976971723548 E 34, 32687909971356125 E 35, 24745770486731589 E 36, 18006134267388075 E 37, 12612309700525401 E 38, 85158017311766741 E 40, 55497496377494466 E 41, 34951078315590845 E 42, 21294890779312185 E 43, 12565371671567568 E 44, 71876964064013583 E 46, 39895360144291252 E 47, 21505710241802110 E 48, 11267899993883080 E 49, 57428752105111942 E 51, 28492745429523968 E 52, 13770901625681544 E 53, 64878802781896375 E 55, 29814709408581795 E 56, 13372336915844000 E 57, 58570963138052738 E 59, 25066495644314743 E 60, 10487410171540965 E 61, 42916414632550556 E 63, 17185690141221494 E 64, 67374870255712710 E 66, 25870639096261983 E 67, 97336949079700054 E 69, 35899260094935049 E 70, 12983729448721125 E 71, 46066174874032081 E 73, 16039470776441698 E 74, 54824389333336683 E 76, 18402579836623106 E 77, 60679899954259716 E 79, 19661083724038405 E 80, 62617695160110301 E 82, 19608298481022858 E 83, bnil.
Definition r374 := 13361440408882719 E 17, 98039498561219005 E 18, 54973095082501755 E 18, 24546055937553577 E 18, 90312791565993634 E 19, 28130312291593904 E 19, 75765789436586491 E 20, 17946100810157121 E 20, 37894492888974989 E 21, 72133131516848947 E 22, 12493191237308785 E 22, 19841967619065268 E 23, 29091168547720941 E 24, 39599933850313603 E 25, 50298100872450115 E 26, 59873263905547470 E 27, 67052918603378721 E 28, 70892396138973897 E 29, 70976713642454376 E 30, 67479173333724489 E 31, 61073075434594914 E 32, 52740614606695956 E 33, 43547040550597733 E 34, 34444282121740750 E 35, 26144537087005251 E 36, 19074422700125367 E 37, 13396067774338878 E 38, 90690292639779521 E 40, 59260033194839089 E 41, 37419926796594140 E 42, 22859787400874003 E 43, 13524681121140495 E 44, 77570539059804086 E 46, 43170321976684739 E 47, 23333124060945635 E 48, 12257972520753116 E 49, 62641468072085629 E 51, 31161907752431533 E 52, 15101134929514603 E 53, 71335838725001152 E 55, 32869530383340310 E 56, 14781837605555278 E 57, 64917515396812849 E 59, 27856833552353459 E 60, 11685980711364708 E 61, 47948971833163717 E 63, 19252270675139901 E 64, 75678443109967202 E 66, 29136730094759164 E 67, 10991853265063910 E 68, 40647922531176428 E 70, 14740495949417957 E 71, 52439034116289783 E 73, 18307226930184256 E 74, 62743166297362296 E 76, 21116966514512267 E 77, 69816481563885979 E 79, 22681977830124522 E 80, 72432086230366502 E 82, 22742298164956158 E 83, bnil.
Definition r375 := 13325958875064697 E 17, 97871187582513841 E 18, 54962638684635898 E 18, 24587669336332676 E 18, 90656559234815054 E 19, 28300951199770829 E 19, 76404357154872659 E 20, 18141073860816444 E 20, 38400617116068748 E 21, 73279410153195389 E 22, 12723826384497434 E 22, 20259824000097239 E 23, 29780099777112893 E 24, 40642414868864486 E 25, 51756107153045539 E 26, 61769200384260589 E 27, 69356816872347605 E 28, 73520153659465003 E 29, 73800679018029368 E 30, 70348369500934835 E 31, 63837473705716760 E 32, 55273158268451780 E 33, 45758555789200345 E 34, 36289132141140233 E 35, 27617683897123964 E 36, 20202518223159792 E 37, 14225911362662522 E 38, 96563497263425535 E 40, 63265097360113142 E 41, 40054927605358840 E 42, 24534459434856287 E 43, 14554025799260699 E 44, 83696092098309084 E 46, 46703168887128378 E 47, 25309701997302027 E 48, 13331721209266541 E 49, 68309841090723191 E 51, 34072143605749570 E 52, 16555387922406429 E 53, 78413738408378479 E 55, 36227031041358128 E 56, 16335135904492539 E 57, 71930239414643255 E 59, 30948303840071984 E 60, 13017450567625426 E 61, 53554492907629759 E 63, 21560288707271234 E 64, 84976913597091708 E 66, 32803929341336964 E 67, 12408303416677175 E 68, 46008321309208058 E 70, 16728877397143089 E 71, 59671391721710116 E 73, 20887715064253266 E 74, 71778071707426832 E 76, 24222221294545449 E 77, 80296675572330278 E 79, 26156388749917503 E 80, 83750072583247810 E 82, 26366103944191670 E 83, bnil.
Definition r376 := 13290663130773328 E 17, 97703307174252532 E 18, 54951864945297781 E 18, 24629018683165076 E 18, 90999684606819491 E 19, 28471792825965851 E 19, 77045460202172875 E 20, 18337347773422471 E 20, 38911472762853592 E 21, 74439466255780907 E 22, 12957850272196208 E 22, 20684939908552888 E 23, 30482851962396298 E 24, 41708621015110667 E 25, 53251240367319487 E 26, 63718562542277803 E 27, 71731912235640257 E 28, 76236297376371304 E 29, 76727372040105460 E 30, 73329829435264762 E 31, 66717661522978043 E 32, 57918788095360766 E 33, 48074960541118426 E 34, 38226617114992513 E 35, 29168914737776777 E 36, 21393567480470767 E 37, 15104395309566857 E 38, 10279749624089196 E 39, 67527508372555427 E 41, 42866705909255842 E 42, 26326239792526709 E 43, 15658284159281319 E 44, 90284951177691046 E 46, 50513343988980063 E 47, 27447119732765872 E 48, 14495937300015345 E 49, 74472171566713635 E 51, 37244416052308507 E 52, 18144805811954454 E 53, 86170107614561491 E 55, 39916180171578615 E 56, 18046415983099108 E 57, 79676804631127985 E 59, 34372382977091599 E 60, 14496104051712939 E 61, 59796258941293533 E 63, 24137127091368811 E 64, 95386082322796730 E 66, 36920121513245768 E 67, 14002416362549850 E 68, 52057154404417716 E 70, 18978610299342001 E 71, 67876190794677528 E 73, 23822976360251960 E 74, 82082535449854391 E 76, 27773264416520346 E 77, 92313369169345638 E 79, 30150809775498751 E 80, 96796717687244118 E 82, 30554537712712932 E 83, bnil.
Definition r377 := 13255551755679068 E 17, 97535857096580497 E 18, 54940777161633779 E 18, 24670104892822137 E 18, 91342163526802137 E 19, 28642833612248023 E 19, 77689089552562059 E 20, 18534923872266362 E 20, 39427080979213326 E 21, 75613404079085983 E 22, 13195298518225143 E 22, 21117412454710926 E 23, 31199649015216767 E 24, 42799003082712963 E 25, 54784309391039797 E 26, 65722662806696640 E 27, 74180151285423694 E 28, 79043489107374345 E 29, 79760171624328546 E 30, 76427557686623967 E 31, 69718091402790155 E 32, 60682167828452615 E 33, 50500873373275735 E 34, 40261075159832202 E 35, 30802105199951955 E 36, 22650871957634436 E 37, 16034207423957693 E 38, 10941324490876616 E 39, 72062941246456571 E 41, 45866530537025802 E 42, 28242926543475822 E 43, 16842658073866032 E 44, 97370611020643931 E 46, 54621690996398369 E 47, 29757927638150628 E 48, 15757940402722123 E 49, 81169850530734197 E 51, 40701440537497321 E 52, 19881497868386208 E 53, 94667702862369120 E 55, 43968621364553595 E 56, 19931213216113918 E 57, 88231525363811658 E 59, 38163730904383540 E 60, 16137712292661409 E 61, 66744324891071256 E 63, 27013181023521962 E 64, 10703483304627031 E 65, 41538743957811372 E 67, 15795867206068051 E 68, 58880472380687094 E 70, 21523146520579229 E 71, 77180825788959658 E 73, 27160558136891091 E 74, 93830546324405152 E 76, 31832541771312939 E 77, 10608646722382794 E 78, 34741250643020669 E 80, 11182998384447867 E 81, 35393587837638472 E 83, bnil.
Definition r378 := 13220623343334853 E 17, 97368837086929616 E 18, 54929378602452068 E 18, 24710928882627985 E 18, 91683991901779331 E 19, 28814070012519732 E 19, 78335236113779661 E 20, 18733803437595374 E 20, 39947462820519548 E 21, 76801328021887619 E 22, 13436206931157015 E 22, 21557339599041633 E 23, 31930717512639886 E 24, 43914018592002222 E 25, 56356137549543878 E 26, 67782840848971764 E 27, 76703526599560471 E 28, 81944461126022330 E 29, 82902555694720649 E 30, 79645687457625684 E 31, 72843371463065947 E 32, 63568137334779005 E 33, 53041100286757109 E 34, 42397032673486086 E 35, 32521310014742080 E 36, 23977895067228323 E 37, 17018174943402948 E 38, 11643284499667475 E 39, 76887972987314082 E 41, 49066350786779625 E 42, 30292810847819239 E 43, 18112693183320054 E 44, 10498887561915628 E 45, 59050550396361049 E 47, 32255613354270455 E 48, 17125617824835637 E 49, 88447598626824246 E 51, 44467825475378442 E 52, 21778617567662124 E 53, 10397487458522874 E 54, 48418910960873248 E 56, 22006538335751837 E 57, 97675990836161025 E 59, 42360502223568068 E 60, 17959682953611559 E 61, 74476221678430269 E 63, 30222179174642343 E 64, 12006656621501071 E 65, 46719411610552974 E 67, 17812901332715569 E 68, 66574786774086094 E 70, 24400104719029120 E 71, 87728941810986707 E 73, 30954215977254843 E 74, 10721933568857649 E 75, 36471030019850081 E 77, 12186658266753391 E 78, 40014566328030069 E 80, 12914542617262480 E 81, 40982036503343333 E 83, bnil.
Definition r379 := 13185876501015642 E 17, 97202246860514749 E 18, 54917672508429688 E 18, 24751491572348867 E 18, 92025165700544854 E 19, 28985498492643392 E 19, 78983890728200122 E 20, 18933987705694813 E 20, 40472639246586242 E 21, 78003342622341111 E 22, 13680611509534903 E 22, 22004820154194391 E 23, 32676286714781239 E 24, 45054131858671525 E 25, 57967562812869813 E 26, 69900464038064211 E 27, 79304077645848500 E 28, 84942017756284629 E 29, 86158103714238870 E 30, 82988484264774306 E 31, 76098270299356108 E 32, 66581718631517357 E 33, 55700641663188565 E 34, 44639211849670704 E 35, 34330770713250758 E 36, 25378269533596367 E 37, 18059271289680761 E 38, 12387960343592613 E 39, 82020131432911403 E 41, 52478835212797800 E 42, 32484706470370812 E 43, 19474300454927606 E 44, 11317800967320044 E 45, 63823861898510370 E 47, 34954668638786800 E 48, 18607466694604075 E 49, 96353722773915303 E 51, 48570223638833170 E 52, 23850449126396856 E 53, 11416604694509611 E 54, 53304776363629833 E 56, 24291012572892450 E 57, 10809975280996836 E 58, 47004686751793263 E 60, 19981224516588775 E 61, 83077728669209851 E 63, 33801537965840785 E 64, 13464078469285225 E 65, 52528610112644451 E 67, 20080630428993814 E 68, 75248306037929186 E 70, 27651775086559260 E 71, 99682451765524128 E 73, 35264702970767152 E 74, 12247240214451475 E 75, 41769372476658776 E 77, 13993921815266283 E 78, 46069966761926311 E 80, 14908153995767214 E 81, 47433318528859898 E 83, bnil.
Definition r380 := 13151309849559992 E 17, 97036086110821151 E 18, 54905662092320083 E 18, 24791793884084222 E 18, 92365680953227884 E 19, 29157115530565655 E 19, 79635044173799777 E 20, 19135477868973162 E 20, 41002631120636375 E 21, 79219552553057676 E 22, 13928548441075375 E 22, 22459953786937199 E 23, 33436588582391053 E 24, 46219814062730191 E 25, 59619437992487376 E 26, 72076927898983523 E 27, 81983891700080923 E 28, 88039036996585570 E 29, 89530499269950060 E 30, 86460349689739054 E 31, 79487721995472847 E 32, 69728122093941288 E 33, 58484699443396032 E 34, 46992538465659592 E 35, 36234923586967656 E 36, 26855805088550239 E 37, 19160623128180973 E 38, 13177809398202972 E 39, 87477946571415452 E 41, 56117412490654836 E 42, 34827980960931508 E 43, 20933779021212350 E 44, 12197889944786511 E 45, 68967273551223001 E 47, 37870660755083325 E 48, 20212639067700842 E 49, 10494039174753821 E 50, 53037495147441190 E 52, 26112500916749042 E 53, 12532223718654283 E 54, 58667396388820130 E 56, 26805014721580594 E 57, 11960107589408669 E 58, 52142482113837347 E 60, 22223526503800207 E 61, 92643723357935231 E 63, 37792752294659485 E 64, 15093484732128508 E 65, 59040464338210409 E 67, 22629361585321478 E 68, 85022313293967648 E 70, 31325683503746462 E 71, 11322379697070144 E 72, 40160656578954730 E 74, 13984291943414343 E 75, 47819162318878243 E 77, 16062950268330179 E 78, 53020731475334977 E 80, 17202585005121489 E 81, 54877643776703497 E 83, bnil.
Definition r381 := 13116922023213740 E 17, 96870354510083745 E 18, 54893350539158087 E 18, 24831836742159746 E 18, 92705533750850437 E 19, 29328917616438998 E 19, 80288687165121046 E 20, 19338275076050441 E 20, 41537459208279894 E 21, 80450062616178282 E 22, 14180054101857187 E 22, 22922841020047660 E 23, 34211857794390676 E 24, 47411543317714321 E 25, 61312630939626644 E 26, 74313656576752707 E 27, 84745104778063293 E 28, 91238472173722010 E 29, 93023532713757219 E 30, 90065825222553999 E 31, 83016831271771560 E 32, 73012752852157257 E 33, 61398684545233467 E 34, 49462149951934022 E 35, 38238407959306180 E 36, 28414496489984249 E 37, 20325517743749804 E 38, 14015422177585266 E 39, 93281004453489198 E 41, 59996314464839365 E 42, 37332588589015415 E 43, 22497840368606826 E 44, 13143522360255341 E 45, 74508257934984567 E 47, 41020308696371287 E 48, 21950990218620750 E 49, 11426393201244768 E 50, 57900882902395415 E 52, 28581606285046393 E 53, 13753161765598236 E 54, 64551705459495455 E 56, 29570841138578397 E 57, 13228775603072706 E 58, 57824701277070396 E 60, 24709957127503082 E 61, 10327911571146707 E 62, 42241826339041205 E 64, 16914590750819081 E 65, 66337590279723675 E 67, 25492963067915098 E 68, 96032701676548462 E 70, 35475221900934546 E 71, 12855847979630659 E 72, 45719594865797215 E 74, 15961757477635498 E 75, 54724391721938147 E 77, 18430755496032863 E 78, 60996156276357890 E 80, 19842184271297935 E 81, 63464419616198705 E 83, bnil.
Definition r382 := 13082711669475675 E 17, 96705051709757170 E 18, 54880741006465755 E 18, 24871621073021863 E 18, 93044720244885252 E 19, 29500901252740436 E 19, 80944810354232287 E 20, 19542380431849518 E 20, 42077144176503876 E 21, 81694977738444916 E 22, 14435165055495819 E 22, 23393583234155342 E 23, 35002331765359868 E 24, 48629804740151061 E 25, 63048024745204989 E 26, 76612103305826160 E 27, 87589902581727748 E 28, 94543353627074879 E 29, 96641103859632144 E 30, 93809596198619345 E 31, 86690878774328780 E 32, 76441217381623144 E 33, 64448224527652496 E 34, 52053403752991823 E 35, 40346074779341497 E 36, 30058531875801089 E 37, 21557410746045707 E 38, 14903529097327294 E 39, 99450003820537669 E 41, 64130621487907088 E 42, 40009105125712695 E 43, 24173633951768288 E 44, 14159363457652110 E 45, 80476235868099327 E 47, 44421564556158985 E 48, 23833130330952696 E 49, 12438514522599832 E 50, 63194201377077081 E 52, 31276032336017820 E 53, 15089012384742922 E 54, 71006723591343751 E 56, 32612879772144136 E 57, 14627801312483531 E 58, 64107218188627149 E 60, 27466279995149182 E 61, 11509987532145760 E 62, 47199748414520031 E 64, 18949305574136124 E 65, 74512039050562907 E 67, 28709270720946031 E 68, 10843168476035870 E 69, 40160352369521504 E 71, 14591790013055982 E 72, 52029035205315372 E 74, 18212089054025597 E 75, 62603087807811808 E 77, 21139455420605866 E 78, 70143762564055089 E 80, 22877685353681222 E 81, 73365014822072134 E 83, bnil.
Definition r383 := 13048677448945223 E 17, 96540177340977987 E 18, 54867836624456441 E 18, 24911147805134034 E 18, 93383236646814374 E 19, 29673062954387644 E 19, 81603404331684044 E 20, 19747794997690372 E 20, 42621706592674159 E 21, 82954402966268280 E 22, 14693918052303596 E 22, 23872282669535194 E 23, 35808250662972674 E 24, 49875090519270996 E 25, 64826517941349215 E 26, 78973750884990139 E 27, 90520521459482182 E 28, 97956790423525545 E 29, 10038722473831357 E 29, 97696495831403280 E 31, 90515326508309499 E 32, 80019330292571822 E 33, 67639171508262485 E 34, 54771885988747551 E 35, 42562995549133945 E 36, 31792301465973520 E 37, 22859934117964743 E 38, 15845007557844890 E 39, 10600681557651406 E 40, 68536310165257526 E 42, 42868764569960583 E 43, 25968774312707152 E 44, 15250395114723516 E 45, 86902708085006208 E 47, 48093700375171911 E 48, 25870479814298427 E 49, 13536964892681808 E 50, 68954039735158520 E 52, 34215597285240752 E 53, 16550211208964344 E 54, 78085914269900845 E 56, 35957799403073856 E 57, 16170146428390314 E 58, 71051454949129693 E 60, 30520891642845488 E 61, 12823416027203853 E 62, 52723014241021594 E 64, 21221968679025888 E 65, 83666342654498802 E 67, 32320539374767582 E 68, 12238970144418955 E 69, 45448393401666793 E 71, 16556253109092942 E 72, 59187750106488756 E 74, 20772008846739404 E 75, 71589158849211431 E 77, 24236960936627943 E 78, 80631803807783893 E 80, 26367104003539782 E 81, 84775911852966122 E 83, bnil.
Definition r384 := 13014818035172115 E 17, 96375731015018160 E 18, 54854640496238186 E 18, 24950417868874645 E 18, 93721079227688103 E 19, 29845399248852448 E 19, 82264459627462026 E 20, 19954519791387428 E 20, 43171166923548975 E 21, 84228443460794006 E 22, 14956350028435900 E 22, 24359042427851828 E 23, 36629857425380649 E 24, 51147899986966023 E 25, 66649024704514078 E 26, 81400112157776208 E 27, 93539249380935294 E 28, 10148197210349436 E 28, 10426602241044753 E 29, 10173150934277773 E 30, 94495823418888040 E 32, 83753121323582318 E 33, 70977610341819777 E 34, 57623420426231166 E 35, 44894471596385474 E 36, 33620406626012943 E 37, 24236904621204511 E 38, 16842889362130565 E 39, 11297454523624860 E 40, 73230303624918187 E 42, 45923497921282920 E 43, 27891369788020386 E 44, 16421936281194118 E 45, 93821395374113860 E 47, 52057400814866310 E 48, 28075328490100598 E 49, 14728824202407459 E 50, 75219980315553245 E 52, 37421797025974184 E 53, 18148107076127084 E 54, 85847572483556767 E 56, 39634755376830684 E 57, 17870018467798746 E 58, 78724914255313906 E 60, 33905081829189037 E 61, 14282355745391361 E 62, 58874203391797687 E 64, 23759611440362772 E 65, 93914672150183386 E 67, 36373944092486688 E 68, 13809753674110744 E 69, 51414897559998729 E 71, 18778547340252506 E 72, 67307176495784682 E 74, 23683056270825584 E 75, 81834477035001447 E 77, 27777752895498218 E 78, 92652108144642492 E 80, 30376758430816852 E 81, 97922300747386691 E 83, bnil.
Definition r385 := 12981132114507965 E 17, 96211712323730839 E 18, 54841155698016633 E 18, 24989432196436488 E 18, 94058244317684406 E 19, 30017906676271782 E 19, 82927966711935947 E 20, 20162555787349746 E 20, 43725545534304300 E 21, 85517204492967120 E 22, 15222498105023298 E 22, 24853966473854722 E 23, 37467397778541272 E 24, 52448739687987551 E 25, 68516475060194151 E 26, 83892730498416534 E 27, 96648426926136562 E 28, 10512217045851952 E 28, 10828174183915446 E 29, 10591977819294971 E 30, 98638211123143266 E 32, 87648842544653820 E 33, 74469867067269369 E 34, 60614077771566420 E 35, 47346043704544121 E 36, 35547669305571126 E 37, 25692332573560499 E 38, 17900368482550048 E 39, 12037759848900770 E 40, 78230524437219736 E 42, 49185974106059011 E 43, 29950052891843655 E 44, 17679664667844781 E 45, 10126838769013620 E 46, 56334862028872485 E 48, 30460898904005894 E 49, 16021729680969903 E 50, 82034833595416259 E 52, 40917941603102212 E 53, 19895038921181708 E 54, 94355245352710794 E 56, 43675613208797128 E 57, 19742986361573731 E 58, 87201761166765506 E 60, 37653318694266626 E 61, 15902444495433332 E 62, 65722614151480639 E 64, 26592245854898511 E 65, 10538411991287518 E 66, 40922136589699564 E 68, 15576868221918294 E 69, 58144630900916495 E 71, 21291643231549914 E 72, 76512996689422043 E 74, 26992203580656539 E 75, 93511227303606381 E 77, 31823760655748466 E 78, 10642330101991168 E 79, 34982429021619747 E 81, 11306217498934380 E 82, bnil.
Definition r386 := 12947618385959808 E 17, 96048120839987913 E 18, 54827385279296592 E 18, 25028191721728089 E 18, 94394728305668783 E 19, 30190581789555902 E 19, 83593915996804386 E 20, 20371903916684158 E 20, 44284862687571232 E 21, 86820791438595306 E 22, 15492399587289839 E 22, 25357159637023506 E 23, 38321120253490413 E 24, 53778123450381033 E 25, 70429815089227804 E 26, 86453180303369649 E 27, 99850448289470256 E 28, 10888074134079622 E 28, 11243874882301922 E 29, 11026660441197759 E 30, 10294852979641675 E 31, 91712975775257144 E 33, 78122517631156150 E 34, 63750185292490751 E 35, 49923502112851491 E 36, 37579141866372823 E 37, 27230431013092760 E 38, 19020809191900603 E 39, 12824175002196570 E 40, 83555950314989948 E 42, 52669643169614369 E 43, 32154012466669726 E 44, 19029639758860478 E 45, 10928230278551435 E 46, 60949897126114869 E 48, 33041414038674744 E 49, 17423917932975744 E 50, 89444890819022503 E 52, 44729302336669646 E 53, 21804418887838434 E 54, 10367818798475388 E 55, 48115191555886507 E 57, 21806106406531695 E 58, 96563458601676068 E 60, 41803561076211818 E 61, 17700948813066223 E 62, 73344962506469944 E 64, 29753183269064978 E 65, 11821611887475223 E 66, 46023862715333545 E 68, 17564196236826578 E 69, 65732665605947283 E 71, 24132616586760329 E 72, 86946911391968296 E 74, 30752548054075086 E 75, 10681455533146520 E 76, 36445355130437689 E 78, 12219445738589599 E 79, 40270676090452381 E 81, 13049099773716719 E 82, bnil.
Definition r387 := 12914275561045493 E 17, 95884956118109668 E 18, 54813332263083110 E 18, 25066697380276184 E 18, 94730527638755158 E 19, 30363421154494222 E 19, 84262297836036203 E 20, 20582565067301222 E 20, 44849138542485119 E 21, 88139309773411540 E 22, 15766091963657532 E 22, 25868727613163920 E 23, 39191276203556501 E 24, 55136572456152741 E 25, 72390007135692471 E 26, 89083067488446440 E 27, 10314776229834546 E 27, 11276112650510410 E 28, 11674153299051409 E 29, 11477745503489841 E 30, 10743302421668978 E 31, 95952240222961947 E 33, 81942396895422342 E 34, 67038336781975447 E 35, 52632896899221810 E 36, 39720117314164331 E 37, 28855625264864282 E 38, 20207754574555434 E 39, 13659421575449305 E 40, 89226672730884701 E 42, 56388781851897522 E 43, 34513027698934099 E 44, 20478327223733840 E 45, 11790445493671839 E 46, 65928048643044278 E 48, 35832169718211592 E 49, 18944270007212857 E 50, 97500195562002577 E 52, 48883270390655193 E 53, 23890822142246111 E 54, 11389185738793099 E 55, 52991526167524244 E 57, 24078059453283852 E 58, 10689946134522468 E 59, 46397600481407162 E 61, 19696928204023609 E 62, 81826151532531238 E 64, 33279386128515647 E 65, 13256801291914300 E 66, 51744647490152952 E 68, 19798445596098421 E 69, 74285598526559686 E 71, 27343145877119535 E 72, 98768627398158751 E 74, 35024090031700880 E 75, 12196555176615609 E 76, 41722470865406832 E 78, 14024923925759362 E 79, 46340336664562132 E 81, 15054701589414163 E 82, bnil.
Definition r388 := 12881102363650959 E 17, 95722217694286932 E 18, 54798999646081564 E 18, 25104950109130272 E 18, 95065638821867134 E 19, 30536421349858468 E 19, 84933102526807381 E 20, 20794540084023935 E 20, 45418393153746576 E 21, 89472865068136783 E 22, 16043612904837170 E 22, 26388776965953662 E 23, 40078119821515297 E 24, 56524615312164238 E 25, 74398030016387796 E 26, 91784029991563887 E 27, 10654287344682002 E 27, 11676685548354717 E 28, 12119471085687393 E 29, 11945796664251586 E 30, 11209814997059642 E 31, 10037360034835514 E 32, 85936607937803360 E 34, 70485402873791189 E 35, 55480548759235764 E 36, 41976139949859882 E 37, 30572562926530437 E 38, 21464935434147738 E 39, 14546372864060665 E 40, 95263958594703324 E 42, 60358541670216445 E 43, 37037504101245224 E 44, 22032624809147691 E 45, 12717903437408855 E 46, 71296708467439610 E 48, 38849612013674371 E 49, 20592359705613331 E 50, 10625483558738513 E 51, 53409527639411173 E 53, 26170083906915535 E 54, 12507844749553982 E 55, 58346156557982183 E 57, 26579300294913646 E 58, 11830797376415392 E 59, 51481435425524806 E 61, 21911415405830579 E 62, 91260118035598779 E 64, 37211856060769619 E 65, 14861479402360268 E 66, 58157554868959621 E 68, 22309474455624386 E 69, 83922909731165972 E 71, 30970068227242944 E 72, 11215808527652064 E 73, 39874607171517829 E 75, 13921461426702264 E 76, 47745873477866825 E 78, 16091058148255664 E 79, 53304224016277651 E 81, 17361730976062601 E 82, bnil.
Definition r389 := 12848097529889319 E 17, 95559905086995425 E 18, 54784390398896710 E 18, 25142950846768340 E 18, 95400058417300041 E 19, 30709578967503476 E 19, 85606320310434194 E 20, 21007829768699267 E 20, 45992646470694328 E 21, 90821562983542441 E 22, 16325000262905593 E 22, 26917415128438177 E 23, 40981908156683142 E 24, 57942788121250492 E 25, 76454879231905968 E 26, 94557738281155208 E 27, 11003834294430146 E 27, 12090154749354097 E 28, 12580302894445620 E 29, 12431395000993627 E 30, 11695057982476259 E 31, 10498427396209652 E 32, 90112531653244879 E 34, 74098541721178493 E 35, 58473060194951406 E 36, 44353016455586901 E 37, 32386124289662868 E 38, 22796279614904788 E 39, 15488061820365763 E 40, 10169031514004933 E 41, 64594999638488945 E 43, 39738511568360731 E 44, 23699889795611631 E 45, 13715329805854256 E 46, 77085245682690855 E 48, 42111419978503163 E 49, 22378505354632268 E 50, 11576725644256279 E 51, 58340230744858281 E 53, 28659404271480666 E 54, 13732746858646543 E 55, 64224437280919475 E 57, 29332220301267332 E 58, 13089677686487464 E 59, 57105681102567327 E 61, 24367614177718039 E 62, 10175076394671104 E 63, 41596061923374094 E 65, 16655102330383954 E 66, 65344030128765936 E 68, 25130652368974633 E 69, 94778476672394383 E 71, 35066000705701617 E 72, 12731795520487545 E 73, 45380636494223954 E 75, 15884523391381404 E 76, 54618590796310695 E 78, 18454599651043993 E 79, 61291056720493712 E 81, 20014467759251157 E 82, bnil.
Definition r390 := 12815259807961799 E 17, 95398017797403048 E 18, 54769507466231021 E 18, 25180700533004318 E 18, 95733783044283788 E 19, 30882890612465353 E 19, 86281941373302334 E 20, 21222434880312455 E 20, 46571918336390315 E 21, 92185509265514754 E 22, 16610292070369601 E 22, 27454750404476302 E 23, 41902901131947550 E 24, 59391634553556763 E 25, 78561567179286586 E 26, 97405895870264061 E 27, 11363678977946366 E 27, 12516891337947739 E 28, 13057136696762924 E 29, 12935139486496699 E 30, 12199721026622636 E 31, 10979174056008110 E 32, 94477836664969606 E 34, 77885210050085726 E 35, 61617327127651402 E 36, 46856827431859297 E 37, 34301433214307361 E 38, 24205921754417993 E 39, 16487689397428418 E 40, 10852955817646090 E 41, 69115211758694721 E 43, 42627824619474552 E 44, 25487968108193759 E 45, 14787777248495671 E 46, 83325142829400829 E 48, 45636594063226587 E 49, 24313825275758652 E 50, 12610059834494920 E 51, 63710209422280773 E 53, 31377461377949316 E 54, 15073637463980280 E 55, 70675875836442809 E 57, 32361324429642079 E 58, 14478413081260503 E 59, 63326017599417727 E 61, 27091116265175262 E 62, 11341298067544008 E 63, 46482411801097533 E 65, 18659295481779529 E 66, 73394833594630961 E 68, 28299261603966075 E 69, 10700226128292498 E 70, 39690034373074316 E 72, 14447643234028965 E 73, 51628577148664206 E 75, 18117825812562080 E 76, 62457528295248616 E 78, 21157357784902053 E 79, 70447647460518093 E 81, 23063546746645244 E 82, bnil.
Definition r391 := 12782587958020417 E 17, 95236555309769155 E 18, 54754353767082029 E 18, 25218200108897002 E 18, 96066809378546562 E 19, 31056352903057337 E 19, 86959955847791212 E 20, 21438356135103839 E 20, 47156228486716113 E 21, 93564809740119168 E 22, 16899526539216324 E 22, 28000891970135305 E 23, 42841361560732700 E 24, 60871705918090516 E 25, 80719123366252609 E 26, 10033023983635048 E 26, 11734089179952109 E 27, 12957275758850651 E 28, 13550474108324381 E 29, 13457647475852489 E 30, 12724516821576398 E 31, 11480374990280793 E 32, 99040489554037299 E 34, 81853174598760963 E 35, 64920550949083985 E 36, 49493939402656676 E 37, 36323868474919191 E 38, 25698213486339150 E 39, 17548633300991851 E 40, 11580688387020269 E 41, 73937269426744005 E 43, 45717964945112252 E 44, 27405225175491960 E 45, 15940646923049390 E 46, 90050141110656807 E 48, 49445550580544196 E 49, 26410297207275592 E 50, 13732305800916733 E 51, 69557179941717127 E 53, 34344533622051470 E 54, 16541124243155556 E 55, 77754499401857341 E 57, 35693423835462026 E 58, 16009975954856005 E 59, 70203680155828739 E 61, 30110139334890413 E 62, 12637377539327110 E 63, 51926773319547791 E 65, 20898088286081578 E 66, 82411075304501381 E 68, 31856942998111211 E 69, 12076218917572200 E 70, 44908509366035896 E 72, 16389036667421774 E 73, 58715928334338972 E 75, 20657668846466718 E 76, 71395291939874441 E 78, 24246879188424933 E 79, 80941385683463177 E 81, 26566848360517448 E 82, bnil.
Definition r392 := 12750080752032461 E 17, 95075517091837508 E 18, 54738932194938750 E 18, 25255450516660453 E 18, 96399134151879430 E 19, 31229962470963168 E 19, 87640353813195164 E 20, 21655594206688533 E 20, 47745596549481930 E 21, 94959570308667608 E 22, 17192742059950620 E 22, 28555949875035478 E 23, 43797555163898950 E 24, 62383561234483076 E 25, 82928594627026815 E 26, 10333254134683521 E 26, 12115338680500109 E 27, 13411698018087438 E 28, 14060830720775610 E 29, 13999555204923532 E 30, 13270181791801737 E 31, 12002833084518661 E 32, 10380876541645875 E 33, 86010523955806620 E 35, 68390251026199308 E 36, 52271017305748860 E 37, 38459075596478610 E 38, 27277734112218925 E 39, 18674457168164748 E 40, 12354894422425569 E 41, 79080358901782183 E 43, 49022246382929166 E 44, 29460578636027141 E 45, 17179711400662740 E 46, 97296395098474725 E 48, 53560222614894147 E 49, 28680821945731172 E 50, 14950827718042959 E 51, 75921974985734800 E 53, 37582631559330718 E 54, 18146750647135208 E 55, 85519252750332487 E 57, 39357845406642745 E 58, 17698592470408910 E 59, 77805995276042269 E 61, 33455787838086974 E 62, 14077350905464208 E 63, 57991047062200403 E 65, 23398173553397242 E 66, 92505361191933140 E 68, 35850191148812229 E 69, 13624624218729977 E 70, 50795880210511985 E 72, 18584876628551501 E 73, 66752678496411763 E 75, 23545107865583209 E 76, 81582244377678825 E 78, 27777215895167922 E 79, 92963052568857843 E 81, 30590511095561756 E 82, bnil.
Definition r393 := 12717736973646665 E 17, 94914902595221201 E 18, 54723245617977180 E 18, 25292452699575928 E 18, 96730754151701705 E 19, 31403715961328049 E 19, 88323125296639290 E 20, 21874149726178557 E 20, 48340042043547173 E 21, 96369896942787877 E 22, 17489977200619248 E 22, 29120035043644030 E 23, 44771750586574490 E 24, 63927767304957972 E 25, 85191045339724716 E 26, 10641460619041101 E 26, 12507707366015676 E 27, 13880557887526126 E 28, 14588736440208179 E 29, 14561518300443448 E 30, 13837476801238972 E 31, 12547380042314775 E 32, 10879125875714926 E 33, 90365680809143624 E 35, 72034277674842345 E 36, 55195037486188146 E 37, 40712979200274474 E 38, 28949301762459106 E 39, 19868920192205613 E 40, 13178392643570753 E 41, 84564823995070084 E 43, 52554822452993886 E 44, 31663532996538790 E 45, 18511139001626470 E 46, 10510263753182286 E 47, 58004167794984722 E 49, 31139291492937196 E 50, 16273575975782010 E 51, 82848791063144546 E 53, 41115640254961813 E 54, 19903075418822468 E 55, 94034429907873242 E 57, 43386659653321399 E 58, 19559859661828749 E 59, 86206966830298726 E 61, 37162338936654511 E 62, 15676725687482836 E 63, 64743798336356682 E 65, 26189193961494316 E 66, 10380306243942437 E 67, 40330904234748497 E 69, 15366478778057666 E 70, 57435681569397111 E 72, 21067671730195166 E 73, 75862863776644491 E 75, 26826560591493576 E 76, 93188823571045522 E 78, 31809793712026606 E 79, 10673001168015305 E 80, 35210082057385251 E 82, bnil.
Definition r394 := 12685555418061134 E 17, 94754711255781707 E 18, 54707296879254727 E 18, 25329207601905171 E 18, 97061666220627386 E 19, 31577610032847204 E 19, 89008260273991413 E 20, 22094023282307515 E 20, 48939584377952672 E 21, 97795895679494607 E 22, 17791270705821933 E 22, 29693259276517688 E 23, 45764219414916660 E 24, 65504898786498544 E 25, 87507557645319646 E 26, 10957827531414346 E 26, 12911481341915765 E 27, 14364265112956165 E 28, 15134735832526814 E 29, 15144212301981541 E 30, 14427187878874454 E 31, 13114877320355398 E 32, 11399689473022831 E 33, 94927414618667494 E 35, 75860825618330100 E 36, 58273301211483588 E 37, 43091795879547278 E 38, 30717985067127510 E 39, 21135987213577996 E 40, 14054163631670819 E 41, 90412232141999246 E 43, 56330736589714216 E 44, 34024216352217359 E 45, 19941519646224001 E 46, 11351035483134904 E 47, 62802683373551260 E 49, 33800662012724861 E 50, 17709131951783046 E 51, 90385454762229773 E 53, 44969472870116361 E 54, 21823758610814776 E 55, 10337014229917602 E 56, 47814928501049303 E 58, 21610873092247730 E 59, 95487916644418481 E 61, 41267555818162593 E 62, 17452630297699442 E 63, 72260953034475930 E 65, 29304058422242036 E 66, 11644372083437203 E 67, 45356994316074445 E 69, 17325317133851907 E 70, 64921605750937714 E 72, 23873976876122749 E 73, 86186315781993358 E 75, 30554489733735240 E 76, 10640815649560623 E 77, 36414393624817665 E 79, 12248982418411284 E 80, 40511823951677941 E 82, bnil.
Definition r395 := 12653534891892923 E 17, 94594942494000092 E 18, 54691088796903813 E 18, 25365716168805306 E 18, 97391867256032688 E 19, 31751641357852254 E 19, 89695748670770006 E 20, 22315215421558036 E 20, 49544242851065760 E 21, 99237672616265455 E 22, 18096661495709889 E 22, 30275735251494947 E 23, 46775236192803244 E 24, 67115538263214653 E 25, 89879231668181176 E 26, 11282542536639406 E 26, 13326953046820682 E 27, 14863239625756345 E 28, 15699388475809617 E 29, 15748333196000380 E 30, 15040126963202552 E 31, 13706217090405852 E 32, 11943494073541445 E 33, 99704854725737773 E 35, 79878447947331445 E 36, 61513448727595192 E 37, 45602047625915525 E 38, 32589115358197028 E 39, 22479839298295261 E 40, 14985358597348048 E 41, 96645444028569877 E 43, 60365975214460859 E 44, 36553419284749625 E 45, 21477892310073152 E 46, 12256397399260828 E 47, 67982929085903398 E 49, 36681031921234799 E 50, 19266756058329547 E 51, 98583709216723683 E 53, 49172236335299892 E 54, 23923654612390016 E 55, 11360282634822818 E 56, 52680974661062880 E 58, 23870365986501012 E 59, 10573818446571811 E 60, 45813030934140231 E 62, 19423978200269921 E 63, 80626563884472844 E 65, 32779291346068306 E 66, 13058260425447185 E 67, 50993064567777328 E 69, 19527460015511856 E 70, 73358704543867648 E 72, 27044883597677782 E 73, 97880621044256315 E 75, 34788170275417098 E 76, 12145900447668688 E 77, 41670260567409854 E 79, 14052434372147521 E 80, 46594199276714129 E 82, bnil.
Definition r396 := 12621674213049305 E 17, 94435595715342047 E 18, 54674624164324850 E 18, 25401979346245010 E 18, 97721354209624328 E 19, 31925806622395058 E 19, 90385580363046964 E 20, 22537726648291361 E 20, 50154036649736171 E 21, 10069533390611925 E 21, 18406188664971283 E 22, 30867576524836374 E 23, 47805078438449475 E 24, 68760276318899264 E 25, 92307185738177992 E 26, 11615796924558368 E 26, 13754421368371677 E 27, 15377911758196826 E 28, 16283269319771589 E 29, 16374597962236417 E 30, 15677132665997336 E 31, 14322323228968068 E 32, 12511501838048475 E 33, 10470750391298737 E 34, 84096070597951000 E 36, 64923473875507268 E 37, 48250575828255658 E 38, 34568299425600883 E 39, 23904884825444101 E 40, 15975308594649110 E 41, 10328868695174085 E 42, 64677523800144556 E 44, 39262636060171141 E 45, 23127774178284640 E 46, 13231106155824338 E 47, 73574058287692448 E 49, 39797725455243027 E 50, 20956439292618553 E 51, 10749952225335037 E 52, 53754410022657637 E 54, 26218912734141971 E 55, 12481579373088152 E 56, 58026674386512355 E 58, 26358860831704500 E 59, 11705589261610976 E 60, 50844561922244778 E 62, 21611648165841780 E 63, 89933653979984597 E 65, 36655418118198989 E 66, 14639242783052309 E 67, 57311160568212092 E 69, 22002335099225692 E 70, 82864729317004230 E 72, 30626568201828344 E 73, 11112331711450858 E 74, 39594551622712365 E 76, 13858908114824829 E 77, 47667355661676422 E 79, 16115435297591678 E 80, 53569555155571804 E 82, bnil.
Definition r397 := 12589972210600667 E 17, 94276670310616331 E 18, 54657905750377177 E 18, 25437998080922113 E 18, 98050124087008996 E 19, 32100102526329303 E 19, 91077745178346273 E 20, 22761557424879616 E 20, 50768984848464661 E 21, 10216898575269921 E 21, 18719891481804140 E 22, 31468897532314202 E 23, 48854026660951744 E 24, 70439711609773675 E 25, 94792556614346475 E 26, 11957785665482894 E 26, 14194191760669384 E 27, 15908722462421538 E 28, 16886969052445339 E 29, 17023745132638953 E 30, 16339071055820759 E 31, 14964152335302986 E 32, 13104711582002773 E 33, 10994525242831956 E 34, 88523007365441465 E 36, 68511739288804513 E 37, 51044555866489485 E 38, 36661432850368686 E 39, 25415771106689250 E 40, 17027534202392075 E 41, 11036763210152928 E 42, 69283426086563397 E 44, 42164108254956345 E 45, 24899191597999606 E 46, 14280253541041152 E 47, 79607357902895563 E 49, 43169382085023924 E 50, 22788958534521594 E 51, 11719341779171714 E 52, 58749038395102090 E 54, 28727085939813036 E 55, 13709982772535863 E 56, 63897775569307583 E 58, 29098834522894269 E 59, 12954878110102485 E 60, 56412563218670058 E 62, 24038682145369776 E 63, 10028514513382828 E 64, 40977390423449345 E 66, 16406525789414269 E 67, 64391603499410413 E 69, 24782833644859522 E 70, 93571624837898297 E 72, 34670904357446322 E 73, 12611435309330558 E 74, 45049226034981756 E 76, 15807878894858459 E 77, 54507770019391089 E 79, 18474481180938056 E 80, 61566035266375923 E 82, bnil.
Definition r398 := 12558427724655027 E 17, 94118165656326538 E 18, 54640936299570494 E 18, 25473773320182740 E 18, 98378173947264533 E 19, 32274525783390052 E 19, 91772232896538395 E 20, 22986708171840442 E 20, 51389106408583332 E 21, 10365873440536032 E 21, 19037809386876882 E 22, 32079813590250066 E 23, 49922364376754490 E 24, 72154450937414837 E 25, 97336499710118874 E 26, 12308707466247136 E 26, 14646576363346655 E 27, 16456123533156245 E 28, 17511094474191972 E 29, 17696535363104709 E 30, 17026836461700362 E 31, 15632694778524010 E 32, 13724160048094684 E 33, 11542839248731994 E 34, 93168975471477229 E 36, 72286992193333915 E 37, 53991512323527692 E 38, 38874713938998645 E 39, 27017396561500708 E 40, 18145755694990825 E 41, 11790947596154557 E 42, 74202846613225353 E 44, 45270870945515252 E 45, 26800712934370586 E 46, 15409289016778055 E 47, 86116397745315035 E 49, 46816052161566939 E 50, 24775935852130128 E 51, 12773083217601242 E 52, 64191938680486509 E 54, 31467248358941789 E 55, 15055382937385185 E 56, 70344243289266522 E 58, 32114898220220185 E 59, 14333511943850935 E 60, 62572516633914311 E 62, 26730502428314703 E 63, 11179487930964387 E 64, 45795055409754485 E 66, 18381461752869358 E 67, 72323913923677047 E 69, 27905706911101476 E 70, 10562719394209096 E 71, 39236147484499291 E 73, 14307884557272833 E 74, 51237516088799647 E 76, 18024542557358903 E 77, 62307320418812668 E 79, 21171079561275857 E 80, 70729748730406749 E 82, bnil.
Definition r399 := 12527039606234147 E 17, 93960081115016539 E 18, 54623718532253861 E 18, 25509306011941554 E 18, 98705500902510988 E 19, 32449073121270694 E 19, 92469033250729626 E 20, 23213179267973967 E 20, 52014420177447700 E 21, 10516468615426214 E 21, 19359981992276271 E 22, 32700440896501458 E 23, 51010378126039455 E 24, 73905109321861157 E 25, 99940189320107485 E 26, 12668764826852745 E 26, 15111894122290406 E 27, 17020577834188650 E 28, 18156268879158002 E 29, 18393752018249594 E 30, 17741352297418052 E 31, 16328975774483285 E 32, 14370923218543601 E 33, 12116763326870661 E 34, 98044111703468012 E 36, 76258380830733998 E 37, 57099334839451123 E 38, 41214658284153490 E 39, 28714923472826281 E 40, 19333903725881656 E 41, 12594302603386342 E 42, 79456136744625664 E 44, 48596801603348725 E 45, 28841483440845392 E 46, 16624043701685065 E 47, 93137189811077134 E 49, 50759299212698855 E 50, 26929902092627414 E 51, 13918249723383536 E 52, 70121924694276233 E 54, 34460122261174675 E 55, 16528551745548472 E 56, 77420635096407869 E 58, 35433993180879218 E 59, 15854470200958883 E 60, 69385464454632104 E 62, 29715149902446255 E 63, 12458874216339175 E 64, 51163673067258224 E 66, 20587781441814112 E 67, 81207835689385022 E 69, 31412006656506250 E 70, 11919695203803529 E 71, 44387699128544897 E 73, 16227016449374071 E 74, 58255695417781612 E 76, 20544791795736427 E 77, 71197349655869643 E 79, 24252421237661040 E 80, 81227229645567669 E 82, bnil.

Definition bessel_rows_1 : list brow := [
r0; r1; r2; r3; r4; r5; r6; r7; r8; r9; r10; r11; r12; r13; r14; r15; r16; r17; r18; r19;
r20; r21; r22; r23; r24; r25; r26; r27; r28; r29; r30; r31; r32; r33; r34; r35; r36; r37; r38; r39;
r40; r41; r42; r43; r44; r45; r46; r47; r48; r49; r50; r51; r52; r53; r54; r55; r56; r57; r58; r59;
r60; r61; r62; r63; r64; r65; r66; r67; r68; r69; r70; r71; r72; r73; r74; r75; r76; r77; r78; r79;
r80; r81; r82; r83; r84; r85; r86; r87; r88; r89; r90; r91; r92; r93; r94; r95; r96; r97; r98; r99;
r100; r101; r102; r103; r104; r105; r106; r107; r108; r109; r110; r111; r112; r113; r114; r115; r116; r117; r118; r119;
r120; r121; r122; r123; r124; r125; r126; r127; r128; r129; r130; r131; r132; r133; r134; r135; r136; r137; r138; r139;
r140; r141; r142; r143; r144; r145; r146; r147; r148; r149; r150; r151; r152; r153; r154; r155; r156; r157; r158; r159;
r160; r161; r162; r163; r164; r165; r166; r167; r168; r169; r170; r171; r172; r173; r174; r175; r176; r177; r178; r179;
r180; r181; r182; r183; r184; r185; r186; r187; r188; r189; r190; r191; r192; r193; r194; r195; r196; r197; r198; r199;
r200; r201; r202; r203; r204; r205; r206; r207; r208; r209; r210; r211; r212; r213; r214; r215; r216; r217; r218; r219;
r220; r221; r222; r223; r224; r225; r226; r227; r228; r229; r230; r231; r232; r233; r234; r235; r236; r237; r238; r239;
r240; r241; r242; r243; r244; r245; r246; r247; r248; r249; r250; r251; r252; r253; r254; r255; r256; r257; r258; r259;
r260; r261; r262; r263; r264; r265; r266; r267; r268; r269; r270; r271; r272; r273; r274; r275; r276; r277; r278; r279;
r280; r281; r282; r283; r284; r285; r286; r287; r288; r289; r290; r291; r292; r293; r294; r295; r296; r297; r298; r299;
r300; r301; r302; r303; r304; r305; r306; r307; r308; r309; r310; r311; r312; r313; r314; r315; r316; r317; r318; r319;
r320; r321; r322; r323; r324; r325; r326; r327; r328; r329; r330; r331; r332; r333; r334; r335; r336; r337; r338; r339;
r340; r341; r342; r343; r344; r345; r346; r347; r348; r349; r350; r351; r352; r353; r354; r355; r356; r357; r358; r359;
r360; r361; r362; r363; r364; r365; r366; r367; r368; r369; r370; r371; r372; r373; r374; r375; r376; r377; r378; r379;
r380; r381; r382; r383; r384; r385; r386; r387; r388; r389; r390; r391; r392; r393; r394; r395; r396; r397; r398; r399
].
