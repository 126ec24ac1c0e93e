(** * Rows 400 to 799 of bessel_table_0, transcribed mechanically from
      libgrpp/specfunc_bessel_table.c 7228-14427.  [m E e, ...] is the literal
      m 10^(-e); every decimal literal of the source is represented exactly. *)

From Coq Require Import List ZArith.
From Verif Require Import BesselRow.
Import ListNotations.
Open Scope Z_scope.

Local Notation "m 'E' e , r" := (bcons m e r) (at level 60, e at level 0, right associativity).

Definition r400 := 12495806717151219 E 17, 93802416035609751 E 18, 54606255144804869 E 18, 25544597104603672 E 18, 99032102117483992 E 19, 32623741281697922 E 19, 93168135928146836 E 20, 23440971050502066 E 20, 52644944887640942 E 21, 10668694732546653 E 21, 19686449080443222 E 22, 33330896531396268 E 23, 52118357489035791 E 24, 75692310074890921 E 25, 10260481884844151 E 25, 13038164097708247 E 26, 15590470912026154 E 27, 17602559528666525 E 28, 18823132444293958 E 29, 19116201769461926 E 30, 18483571906858594 E 31, 17054056493187149 E 32, 15046117668239406 E 33, 12717411641782525 E 34, 10315898914493235 E 35, 80435471528316692 E 37, 60376294632859928 E 38, 43688113977724010 E 39, 30513791348945363 E 40, 20596130547689242 E 41, 13449879110372215 E 42, 85064904371597986 E 44, 52156671845532893 E 45, 31031262260703073 E 46, 17930755885523103 E 47, 10070835817574213 E 48, 55022309328875948 E 50, 29264365054344028 E 51, 15162485198093242 E 52, 76581048014529407 E 54, 37728215223679110 E 55, 18141218657922778 E 56, 85186508489361958 E 58, 39085603933356331 E 59, 17531993431194504 E 60, 76918548948556799 E 62, 33023545397842234 E 63, 13880589857355634 E 64, 57144486622602264 E 66, 23051851374588613 E 67, 91154470495453503 E 69, 35347574486591392 E 70, 13446619248069580 E 71, 50198960408731180 E 73, 18397338733982973 E 74, 66212358627609284 E 76, 23409214821400313 E 77, 81326757153376803 E 79, 27772139804484941 E 80, 93248225258383517 E 82, bnil.
Definition r401 := 12464727929890099 E 17, 93645169753742166 E 18, 54588548809817096 E 18, 25579647546987678 E 18, 99357974809109219 E 19, 32798527020504505 E 19, 93869530571018332 E 20, 23670083815210076 E 20, 53280699156190087 E 21, 10822562427604239 E 21, 20017250603096410 E 22, 33971298458615854 E 23, 53246595102249371 E 24, 77516684873470358 E 25, 10533160103865256 E 25, 13417115537465330 E 26, 16082639659780052 E 27, 18202554313260943 E 28, 19512342626053055 E 29, 19864715206485809 E 30, 19254479430875268 E 31, 17809035197492961 E 32, 15750901959851482 E 33, 13345943207360252 E 34, 10852463451652267 E 35, 84828266438524707 E 37, 63831061715207874 E 38, 46302277503301813 E 39, 32419730918296095 E 40, 21936821794326487 E 41, 14360907626958806 E 42, 91052087481414004 E 44, 55966202197995998 E 45, 33380461683201057 E 46, 19336098167501906 E 47, 10887132016784900 E 48, 59630008107206208 E 50, 31793882555327733 E 51, 16514048502219569 E 52, 83614857798871554 E 54, 41295968277289950 E 55, 19906152803651122 E 56, 93706863248989773 E 58, 43101990274224939 E 59, 19381701812770245 E 60, 85245602490478698 E 62, 36689776277576181 E 63, 15460015096287035 E 64, 63805351210380903 E 66, 25802958115092043 E 67, 10228753471727044 E 68, 39763585305723965 E 70, 15164228610912764 E 71, 56752284630673564 E 73, 20850916443752028 E 74, 75229958130674068 E 76, 26663694363452528 E 77, 92864288525995905 E 79, 31791170211816158 E 80, 10700885560961074 E 81, bnil.
Definition r402 := 12433802127486081 E 17, 93488341592089214 E 18, 54570602176286780 E 18, 25614458288249951 E 18, 99683116246077307 E 19, 32973427107699667 E 19, 94573206777448689 E 20, 23900517816590586 E 20, 53921701483793722 E 21, 10978082338917518 E 21, 20352426680143892 E 22, 34621765526025723 E 23, 54395386674608885 E 24, 79378873833363921 E 25, 10812176820510288 E 25, 13805833371454152 E 26, 16588740471231755 E 27, 18821059656240908 E 28, 20224574564887707 E 29, 20640147462785616 E 30, 20055090696136888 E 31, 18595048413853878 E 32, 16486478082054406 E 33, 14003563543477513 E 34, 11415254614786216 E 35, 89447221971930824 E 37, 67472722824839552 E 38, 49064710336125766 E 39, 34438778785158357 E 40, 23360608851318467 E 41, 15330808297453976 E 42, 97442031798754558 E 44, 60042120037209171 E 45, 35900188784424909 E 46, 20847206316764237 E 47, 11767047953108793 E 48, 64609185651705274 E 50, 34534140734440139 E 51, 17981860983939936 E 52, 91272680624836535 E 54, 45189915875041950 E 55, 21837251840873415 E 56, 10305262149736462 E 57, 47518439689348811 E 59, 21420724429633236 E 60, 94447792897121017 E 62, 40751410633214528 E 63, 17214143222172033 E 64, 71221426589069204 E 66, 28873622322012986 E 67, 11474475127599179 E 68, 44717150681719058 E 70, 17095724074156237 E 71, 64140040266202994 E 73, 23623804296219336 E 74, 85446527697862647 E 76, 30360081137872103 E 77, 10600111628183840 E 78, 36378718938239775 E 80, 12275519293161513 E 81, bnil.
Definition r403 := 12403028203408169 E 17, 93331930860687098 E 18, 54552417869798482 E 18, 25649030277810580 E 18, 10000752374842119 E 18, 33148438327537670 E 19, 95279154102290034 E 20, 24132273267989465 E 20, 54567970254061977 E 21, 11135265106928473 E 21, 20692017598582673 E 22, 35282417466454770 E 23, 55565031003528681 E 24, 81279525582904663 E 25, 11097657246595365 E 25, 14204535850720330 E 26, 17109120757972956 E 27, 19458585039507187 E 28, 20960521497664756 E 29, 21443378854947152 E 30, 20886454126429370 E 31, 19413272135895075 E 32, 17254092932047596 E 33, 14691526388163827 E 34, 12005471260095447 E 35, 94303267948525120 E 37, 71310800108393742 E 38, 51983356279633802 E 39, 36577292775210586 E 40, 24872381841784186 E 41, 16363201428585347 E 42, 10426057270957853 E 43, 64402220884480595 E 45, 38602289590017696 E 46, 22471709958765443 E 47, 12715343232997750 E 48, 69988630159000941 E 50, 37502037942972413 E 51, 19575557530544457 E 52, 99607921832887335 E 54, 49438858588872939 E 55, 23949638130648536 E 56, 11330114857944179 E 57, 52373541932528334 E 59, 23667840251952909 E 60, 10461432895988657 E 61, 45249841655956173 E 63, 19161744614148712 E 64, 79475940221000880 E 66, 32299945570343534 E 67, 12867939062840093 E 68, 50271988535850678 E 70, 19267054917966792 E 71, 72465796731267591 E 73, 26756530260488829 E 74, 97017614809038547 E 76, 34556950803278582 E 77, 12095374773628151 E 78, 41613359922819484 E 80, 14076731519268457 E 81, bnil.
Definition r404 := 12372405061442839 E 17, 93175936857247760 E 18, 54533998492709741 E 18, 25683364465280207 E 18, 10033119468709358 E 18, 33323557478583902 E 19, 95987362058007916 E 20, 24365350341754236 E 20, 55219523732768404 E 21, 11294121373714955 E 21, 21036063811386735 E 22, 35953374898422024 E 23, 56755829990885417 E 24, 83219297336918232 E 25, 11389728597766786 E 25, 14613445311665720 E 26, 17644135366685546 E 27, 20115652204632449 E 28, 21720895178120429 E 29, 22275315536374375 E 30, 21749651676893412 E 31, 20264923061620685 E 32, 18055039843573527 E 33, 15411135466998360 E 34, 12624363196653529 E 35, 99407827492832062 E 37, 75355270578199934 E 38, 55066559568851144 E 39, 38841968001155797 E 40, 26477303256697980 E 41, 17461918568103453 E 42, 11153512169026104 E 43, 69065433236017934 E 45, 41499395904409689 E 46, 24217765197212054 E 47, 13737118639901921 E 48, 75799270651762893 E 50, 40715774608115975 E 51, 21305541392385243 E 52, 10867838995598601 E 53, 54074049506784629 E 55, 26259762802680592 E 56, 12453681810915236 E 57, 57709487636155869 E 59, 26143631842068329 E 60, 11584323159935698 E 61, 50230664985459459 E 63, 21323546946272962 E 64, 88661027639351145 E 66, 36121993260446072 E 67, 14426197637683713 E 68, 56499166236782363 E 70, 21707235731782528 E 71, 81845646753490392 E 73, 30294636179866849 E 74, 11011844642391952 E 75, 39320454483039298 E 77, 13796730056695043 E 78, 47584272149953446 E 80, 16136389505558766 E 81, bnil.
Definition r405 := 12341931615579273 E 17, 93020358867468303 E 18, 54515346624334750 E 18, 25717461800388416 E 18, 10065412648354723 E 18, 33498781373779234 E 19, 96697820115542463 E 20, 24599749169384403 E 20, 55876380067113379 E 21, 11454661782503893 E 21, 21384605936383266 E 22, 36634759326811510 E 23, 57968088658907765 E 24, 85198854970796019 E 25, 11688520117104282 E 25, 15032788236295221 E 26, 18194146710053311 E 27, 20792795402955467 E 28, 22506426305477047 E 29, 23136890165543273 E 30, 22645799791686607 E 31, 21151259865065863 E 32, 18890660161666392 E 33, 16163746321432915 E 34, 13273233185535002 E 35, 10477283769920945 E 36, 79616586375289245 E 38, 58323083771979724 E 39, 41239853679827527 E 40, 28180822259284647 E 41, 18631014161037435 E 42, 11929475747517494 E 43, 74051887121326079 E 45, 44604974958989380 E 46, 26094089287451621 E 47, 14837839518292634 E 48, 82074329457142110 E 50, 44194949474407594 E 51, 23183043046146674 E 52, 11854664593117678 E 53, 59129395373911310 E 55, 28785518335417290 E 56, 13685162478454902 E 57, 63572392981058483 E 59, 28870652894192432 E 60, 12824217653683104 E 61, 55744092089659245 E 63, 23722433094684123 E 64, 98878657684112473 E 66, 40384217254725947 E 67, 16168217256015413 E 68, 63477924909709722 E 70, 24448698731218170 E 71, 92409680625547743 E 73, 34289281999377132 E 74, 12494635561918893 E 75, 44725274117958937 E 77, 15731919130342977 E 78, 54392636738144111 E 80, 18490739323568985 E 81, bnil.
Definition r406 := 12311606789896039 E 17, 92865196165335062 E 18, 54496464821126599 E 18, 25751323232913147 E 18, 10097631660931512 E 18, 33674106840502031 E 19, 97410517705165075 E 20, 24835469841684010 E 20, 56538557284999932 E 21, 11616896977185372 E 21, 21737684755117476 E 22, 37326693143494897 E 23, 59202115165977598 E 24, 87218873094712982 E 25, 11994163098876812 E 25, 15462795313072050 E 26, 18759524899421674 E 27, 21490561649777536 E 28, 23317864961346002 E 29, 24029062589079658 E 30, 23576050385568868 E 31, 22073584503226673 E 32, 19762344865393243 E 33, 16950768197800462 E 34, 13953439010699204 E 35, 11041077109453319 E 36, 84105695868675800 E 38, 61762131522735555 E 39, 43778370733456475 E 40, 29988689694690225 E 41, 19874777811849340 E 42, 12757032220721152 E 43, 79382986592378425 E 45, 47933382039882854 E 46, 28109997483775241 E 47, 16023360686586649 E 48, 88849485064602751 E 50, 47960662655595719 E 51, 25220183382253658 E 52, 12928037890777915 E 53, 64641673597108919 E 55, 31546360320228078 E 56, 15034584885941167 E 57, 70012652617282641 E 59, 31873610809181746 E 60, 14192941488911019 E 61, 61845403001884905 E 63, 26383658429996113 E 64, 11024165090876270 E 65, 45135922237544498 E 67, 18115087140049766 E 68, 71296593578337301 E 70, 27527685446959319 E 71, 10430362930457101 E 72, 38797920877786345 E 74, 14172349967672430 E 75, 50855695233657822 E 77, 17932328747959433 E 78, 62153213575682172 E 80, 21180993390931077 E 81, bnil.
Definition r407 := 12281429518449194 E 17, 92710448013421584 E 18, 54477355616859333 E 18, 25784949712611600 E 18, 10129776258559283 E 18, 33849530720628171 E 19, 98125444217329123 E 20, 25072512408916080 E 20, 57206073294320450 E 21, 11780837601827363 E 21, 22095341211705617 E 22, 38029299627901148 E 23, 60458220822339503 E 24, 89280035127983221 E 25, 12306790912449993 E 25, 15903701498382985 E 26, 19340647879218945 E 27, 22209510982708847 E 28, 24155981055040510 E 29, 24952820539929057 E 30, 24541591849915925 E 31, 23033243559115066 E 32, 20671536239877071 E 33, 17773665998809495 E 34, 14666395623958055 E 35, 11633465792632399 E 36, 88834065622616801 E 38, 65393365117189243 E 39, 46465330209083859 E 40, 31906973837400543 E 41, 21197747182018376 E 42, 13639452282753103 E 43, 85081486356320080 E 45, 51499916264640199 E 46, 30275442190005913 E 47, 17299952974078087 E 48, 96163046036782881 E 50, 52035625957310119 E 51, 27430041520407172 E 52, 14095281059387172 E 53, 70650766314132130 E 55, 34563439129917413 E 56, 16512877646272906 E 57, 77085323204958074 E 59, 35179565606189792 E 60, 15703477864626084 E 61, 68595442038113080 E 63, 29335089332433986 E 64, 12287480024501120 E 65, 50431780183171696 E 67, 20290250216113522 E 68, 80053602644268729 E 70, 30984682060274533 E 71, 11769069515747063 E 72, 43885053273657228 E 74, 16069990369576092 E 75, 57806811177004297 E 77, 20433458024522284 E 78, 70996120000290083 E 80, 24253994954877230 E 81, bnil.
Definition r408 := 12251398745161796 E 17, 92556113663181561 E 18, 54458021522807987 E 18, 25818342189152139 E 18, 10161846198282263 E 18, 34025049870589205 E 19, 98842589003517319 E 20, 25310876880959340 E 20, 57878945882256435 E 21, 11946494300191677 E 21, 22457616411677428 E 22, 38742702947534996 E 23, 61736720105720772 E 24, 91383033373552444 E 25, 12626539026345460 E 25, 16355746078617038 E 26, 19937901563154401 E 27, 22950216724214561 E 28, 25021564777426738 E 29, 25909180350894124 E 30, 25543650083677638 E 31, 24031629621806652 E 32, 21619729598923718 E 33, 18633962299374178 E 34, 15413577366424714 E 35, 12255810930528037 E 36, 93813703264666127 E 38, 69226928010134099 E 39, 49308952551475079 E 40, 33942076910274238 E 41, 22604721553932480 E 42, 14580203797320826 E 43, 91171572775306569 E 45, 55320879686210337 E 46, 32601054550035967 E 47, 18674331482599614 E 48, 10405613668861255 E 49, 56444280960582849 E 51, 29826727577647672 E 52, 15364313021837315 E 53, 77199912815618279 E 55, 37859742266043672 E 56, 18131948028435875 E 57, 84850540135592279 E 59, 38818146581636207 E 60, 17370077859174024 E 61, 76061160439239515 E 63, 32607464935611063 E 64, 13691610387062271 E 65, 56332397742434351 E 67, 22719758383348711 E 68, 89858607183857046 E 70, 34864903110295220 E 71, 13275359118552855 E 72, 49623068992370358 E 74, 18215686767644750 E 75, 65685874513326407 E 77, 23275444100901290 E 78, 81068836766444561 E 80, 27762969347335091 E 81, bnil.
Definition r409 := 12221513423714808 E 17, 92402192355236265 E 18, 54438465027928332 E 18, 25851501612047578 E 18, 10193841242027820 E 18, 34200661161428287 E 19, 99561941377082912 E 20, 25550563227466801 E 20, 58557192714589284 E 21, 12113877715250529 E 21, 22824551620806849 E 22, 39467028158441995 E 23, 63037930676855911 E 24, 93528569092617893 E 25, 12953545032450629 E 25, 16819172732858022 E 26, 20551679972205875 E 27, 23713265748407841 E 28, 25915427063437858 E 29, 26899187683813845 E 30, 26583489549802482 E 31, 25070182704361485 E 32, 22608475059601279 E 33, 19533239428674666 E 34, 16196520268906171 E 35, 12909534123207158 E 36, 99057181288444949 E 38, 73273467247290662 E 39, 52317887766285955 E 40, 36100752410490029 E 41, 24100776093358542 E 42, 15582963066430263 E 43, 97678949468398961 E 45, 59413639912102316 E 46, 35098188622638389 E 47, 20153685679554790 E 48, 11257289529389480 E 49, 61212925387728818 E 51, 32425460735049201 E 52, 16743696233062403 E 53, 84335981701253299 E 55, 41460248217619973 E 56, 19904766549640834 E 57, 93373970200133562 E 59, 42821788243235193 E 60, 19208380287360386 E 61, 84316210232866336 E 63, 36234684288092051 E 64, 15251812116106611 E 65, 62904941824548312 E 67, 25432554663375957 E 68, 10083373161498751 E 69, 39218828794762137 E 71, 14969681180843993 E 72, 56093187175144976 E 74, 20641077932501637 E 75, 74613813098967804 E 77, 26503653324699460 E 78, 92538469617253580 E 80, 31768373064580503 E 81, bnil.
Definition r410 := 12191772517439366 E 17, 92248683319656702 E 18, 54418688599035085 E 18, 25884428930589509 E 18, 10225761156565196 E 18, 34376361478854326 E 19, 10028349061408611 E 19, 25791571378026238 E 20, 59240831335022837 E 21, 12282998488704292 E 21, 23196188263931953 E 22, 40202401205621460 E 23, 64362173394917501 E 24, 95717352579372732 E 25, 13287948670378905 E 25, 17294229596194401 E 26, 21182385374411897 E 27, 24499258752140042 E 28, 26838400063381831 E 29, 27923918274667026 E 30, 27662414357661826 E 31, 26150391700520237 E 32, 23639379370154873 E 33, 20473141620393642 E 34, 17016824433776160 E 35, 13596119953920532 E 36, 10457766182623210 E 37, 77544156871013020 E 39, 55501236511702737 E 40, 38390123279214917 E 41, 25691276844224914 E 42, 16651626707539129 E 43, 10463092776233871 E 44, 63796696436653304 E 46, 37778968292961519 E 47, 21745711435222416 E 48, 12176068562514970 E 49, 66369848305500238 E 51, 35242652972248688 E 52, 18242686981365818 E 53, 92109764251139381 E 55, 45392092726075441 E 56, 21845458615743714 E 57, 10272730319211230 E 58, 47225987173549629 E 60, 21235542513868133 E 61, 93441593988647194 E 63, 40254121321324656 E 64, 16984946362667475 E 65, 70223829160132202 E 67, 28460784977013370 E 68, 11311494846510590 E 69, 44102801633121584 E 71, 16874916077011130 E 72, 63386505312024229 E 74, 23381737960790250 E 75, 84726930372593237 E 77, 30169345904778224 E 78, 10559429821529322 E 79, 36338853097004359 E 81, bnil.
Definition r411 := 12162174999210393 E 17, 92095585776240621 E 18, 54398694680979409 E 18, 25917125093783910 E 18, 10257605713464230 E 18, 34552147723294025 E 19, 10100722595412599 E 19, 26033901222322726 E 20, 59929879164518159 E 21, 12453867260500139 E 21, 23572567923763988 E 22, 40948948923386870 E 23, 65709772332850323 E 24, 97950103235870810 E 25, 13629891851979655 E 25, 17781169323647728 E 26, 21830428426482173 E 27, 25308810530436971 E 28, 27791337623171955 E 29, 28984478694883844 E 30, 28781769372014551 E 31, 27273795881093274 E 32, 24714107792669342 E 33, 21455377233123941 E 34, 17876156500935648 E 35, 14317118577974084 E 36, 11038892242766427 E 37, 82050722338544484 E 39, 58868572158286863 E 40, 40817700953352585 E 41, 27381896490965481 E 42, 17790324170066459 E 43, 11205652225045454 E 44, 68489750894822945 E 46, 40656337081613482 E 47, 23458645123832297 E 48, 13167032268178645 E 49, 71945474755846656 E 51, 38295998863572846 E 52, 19871289465179618 E 53, 10057629059986396 E 54, 49684748418105987 E 56, 23969403775211622 E 57, 11298878567320095 E 58, 52069581614352313 E 60, 23470383190270875 E 61, 10352637555308619 E 62, 44706970229479870 E 64, 18909643385044095 E 65, 78371486188469513 E 67, 31840142566035808 E 68, 12685360526716285 E 69, 49579688863625617 E 71, 19016656446965316 E 72, 71605169579639128 E 74, 26477653338411676 E 75, 96178811666015801 E 77, 34330422937732103 E 78, 12045064803062749 E 79, 41552330473188800 E 81, bnil.
Definition r412 := 12132719851341570 E 17, 91942898934784370 E 18, 54378485696825130 E 18, 25949591050287889 E 18, 10289374689054442 E 18, 34728016809942031 E 19, 10173313660116648 E 19, 26277552610302831 E 20, 60624353500639250 E 21, 12626494668351759 E 21, 23953732339685472 E 22, 41706799035673357 E 23, 67081054792607084 E 24, 10022754964700389 E 24, 13979518685996916 E 25, 18280249154721624 E 26, 22496228317240073 E 27, 26142550256330377 E 28, 28775115773610855 E 29, 30082007129152656 E 30, 29942941349061631 E 31, 28441986430978252 E 32, 25834386041924271 E 33, 22481721042992684 E 34, 18776252200542039 E 35, 15074148409560599 E 36, 11650538288207032 E 37, 86805465993303078 E 39, 62429963858320607 E 40, 43391405339349221 E 41, 29178630925256531 E 42, 19003430923638272 E 43, 11998655173197997 E 44, 73513781456967793 E 46, 43744111021190506 E 47, 25301299914877207 E 48, 14235631351379749 E 49, 77972520442185820 E 51, 41604571855640435 E 52, 21640313916851954 E 53, 10979517041458156 E 54, 54370218839569059 E 56, 26293343195462862 E 57, 12424380038595242 E 58, 57395055710781237 E 60, 25933537965313942 E 61, 11466845729654858 E 62, 49638624102732475 E 64, 21046482665569814 E 65, 87439186221049318 E 67, 35610248375919426 E 68, 14221811503323794 E 69, 55719617609952836 E 71, 21423520204745103 E 72, 80863680153631765 E 74, 29973756332817695 E 75, 10914246084628517 E 76, 39052265754031373 E 78, 13735012508114301 E 79, 47497223706763361 E 81, bnil.
Definition r413 := 12103406065481574 E 17, 91790621995349972 E 18, 54358064048023999 E 18, 25981827748347532 E 18, 10321067864384107 E 18, 34903965668809430 E 19, 10246121172435851 E 19, 26522525352341077 E 20, 61324271516911870 E 21, 12800891347260303 E 21, 24339723406538141 E 22, 42476080156293359 E 23, 68476351320286279 E 24, 10255042965559034 E 24, 14336975502877139 E 25, 18791730978573977 E 26, 23180212912912242 E 27, 27001121765135870 E 28, 29790633228862032 E 29, 31217674170016395 E 30, 31147360100151478 E 31, 29656608027763291 E 32, 27002002281921028 E 33, 23554016610601986 E 34, 19718918995266531 E 35, 15868898909931726 E 36, 12294213312324760 E 37, 91821293631171152 E 39, 66196000667584614 E 40, 46119585750719842 E 41, 31087816655628810 E 42, 20295582351987263 E 43, 12845374581771911 E 44, 78891121595639598 E 46, 47057034779528607 E 47, 27283104388479776 E 48, 15387711410333904 E 49, 84486157138948074 E 51, 45188927474093857 E 52, 23561439063749419 E 53, 11983095990005464 E 54, 59483248000206672 E 56, 28835496017198942 E 57, 13658549507564373 E 58, 63248870513709880 E 60, 28647629307272112 E 61, 12697542988999641 E 62, 55099089912148557 E 64, 23418190805658039 E 65, 97527971498953883 E 67, 39815071041965681 E 68, 15939582731864770 E 69, 62600790583822005 E 71, 24127498689679263 E 72, 91290346638411229 E 74, 33920521188179740 E 75, 12381269439304884 E 76, 44408678701463814 E 78, 15656725822231709 E 79, 54273829766235033 E 81, bnil.
Definition r414 := 12074232642511659 E 17, 91638754148526749 E 18, 54337432114589940 E 18, 26013836135736972 E 18, 10352685025179595 E 18, 35079991244769903 E 19, 10319144045885585 E 19, 26768819219407703 E 20, 62029650262192303 E 21, 12977067929036238 E 21, 24730583173399838 E 22, 43256921789138701 E 23, 69895995721167598 E 24, 10491949043756598 E 24, 14702410879724151 E 25, 19315881399813198 E 26, 23882818904277872 E 27, 27885183843225410 E 28, 30838811894240475 E 29, 32392683629551339 E 30, 32396499683702221 E 31, 30919360462885879 E 32, 28218809181590212 E 33, 24674178724435337 E 34, 20706038814913079 E 35, 16703133480391578 E 36, 12971496225677608 E 37, 97111742205275725 E 39, 70177816764164909 E 40, 49011042852694352 E 41, 33116149100145964 E 42, 21671688388023006 E 43, 13749285750224530 E 44, 84645543467587336 E 46, 50610841218854114 E 47, 29414143616379042 E 48, 16629540332484497 E 49, 91524189534384313 E 51, 49071213936616201 E 52, 25647279236869024 E 53, 13075355708348979 E 54, 65061546621028344 E 56, 31615685292572023 E 57, 15011546478142949 E 58, 69681824010767468 E 60, 31637451673604105 E 61, 14056550115459832 E 62, 61143443223329680 E 64, 26049858898664066 E 65, 10874966848877495 E 66, 44503390478742716 E 68, 17859509860552528 E 69, 70310390894640922 E 71, 27164343795768531 E 72, 10302891040821391 E 73, 38374630320927191 E 75, 14040882311929121 E 76, 50482947787287471 E 78, 17841259904823534 E 79, 61995882351410895 E 81, bnil.
Definition r415 := 12045198592444482 E 17, 91487294575688938 E 18, 54316592255272099 E 18, 26045617159698487 E 18, 10384225961804773 E 18, 35256090497604378 E 19, 10392381190662628 E 19, 27016433943238567 E 20, 62740506660049269 E 21, 13155035041822554 E 21, 25126353842351363 E 22, 44049454328330601 E 23, 71340325074646066 E 24, 10733548857727387 E 24, 15075975665401531 E 25, 19852971804921010 E 26, 24604491955692816 E 27, 28795410521346182 E 28, 31920597383458613 E 29, 33608273368430143 E 30, 33691879625919987 E 31, 32232000306342332 E 32, 29486726031226410 E 33, 25844195922937750 E 34, 21739570886315910 E 35, 17578692463704505 E 36, 13684038875133801 E 37, 10269100871434746 E 38, 74387117810646488 E 40, 52075051659205296 E 41, 35270701804134505 E 42, 23136948927267353 E 43, 14714078201779507 E 44, 90802346166917316 E 46, 54422314590447559 E 47, 31705202858286402 E 48, 17967837506603221 E 49, 99127244261437581 E 51, 53275290680771843 E 52, 27911456458379652 E 53, 14263862747082059 E 54, 71146036364075488 E 56, 34655474266965184 E 57, 16494449197809309 E 58, 76749442642060533 E 60, 34930173367417278 E 61, 15556851109737296 E 62, 67832326319236834 E 64, 28969181237296411 E 65, 12122800555606376 E 66, 49729309464336248 E 68, 20004758261892361 E 69, 78945585422684350 E 71, 30573998321621421 E 72, 11624035247971532 E 73, 43399718515474393 E 75, 15917765519349403 E 76, 57369029053117535 E 78, 20323733545748404 E 79, 70792309682297863 E 81, bnil.
Definition r416 := 12016302934324211 E 17, 91336242449247748 E 18, 54295546807726920 E 18, 26077171766883699 E 18, 10415690469220673 E 18, 35432260402043698 E 19, 10465831513725775 E 19, 27265369216506607 E 20, 63456857508156466 E 21, 13334803309619051 E 21, 25527077767232975 E 22, 44853809058316633 E 23, 72809679749061889 E 24, 10979919014284898 E 24, 15457823005781433 E 25, 20403278429303584 E 26, 25345686856001627 E 27, 29732491372535862 E 28, 33036959545463259 E 29, 34865716142671233 E 30, 35035066170899626 E 31, 33596342615957974 E 32, 30807740921228433 E 33, 27066133097530088 E 34, 22821554661511888 E 35, 18497496257617257 E 36, 14433569183688845 E 37, 10857398032136910 E 38, 78836208507844859 E 40, 55321385629315196 E 41, 37558946626805520 E 42, 24696870058593682 E 43, 15743668230063975 E 44, 97388449118735056 E 46, 58509357575392389 E 47, 34167814031980004 E 48, 19409804965733411 E 49, 10733897191893485 E 50, 57826855348533155 E 52, 30368677862110185 E 53, 15556806231426917 E 54, 77781113418357012 E 56, 37978313822035007 E 57, 18119334929508652 E 58, 84512406956829933 E 60, 38555556533013090 E 61, 17212704086383562 E 62, 75232493742147424 E 64, 32206717383542155 E 65, 13509984302271806 E 66, 55552818039540751 E 68, 22401076325611088 E 69, 88614637186416989 E 71, 34401074231781649 E 72, 13110490755553543 E 73, 49067204009183558 E 75, 18039685795429884 E 76, 65172882174461958 E 78, 23143848162753589 E 79, 80809216717537303 E 81, bnil.
Definition r417 := 11987544696127854 E 17, 91185596932899265 E 18, 54274298088689131 E 18, 26108500903295986 E 18, 10447078346945289 E 18, 35608497947809620 E 19, 10539493918875938 E 19, 27515624692995113 E 20, 64178719477697480 E 21, 13516383351807970 E 21, 25932797452390923 E 22, 45670118153915310 E 23, 74304403416425757 E 24, 11231137076169053 E 24, 15848108369139168 E 25, 20967082424972556 E 26, 26106867671352469 E 27, 30697131814685157 E 28, 34188893001001502 E 29, 36166320468383302 E 30, 36427673560705256 E 31, 35014262692250306 E 32, 32183912984761039 E 33, 28342134178877086 E 34, 23954112847269326 E 35, 19461548544311968 E 36, 15221894415396140 E 37, 11477626575091850 E 38, 83538021390104235 E 40, 58760341912140743 E 41, 39988774942548415 E 42, 26357281153034519 E 43, 16842212141709993 E 44, 10443249089664130 E 45, 62891062393521527 E 47, 36814305124604151 E 48, 20963160582624297 E 49, 11620626293567657 E 50, 62753579804774756 E 52, 33034818825080034 E 53, 16963047188928653 E 54, 85014932916458156 E 56, 41609701959776568 E 57, 19899366991115800 E 58, 93037014283176482 E 60, 42546196864695786 E 61, 19039762400823085 E 62, 83417409622738179 E 64, 35796179815572748 E 65, 15051652656178918 E 66, 62040416011285518 E 68, 25077075507838977 E 69, 99438138206044527 E 71, 38695384014818477 E 72, 14782430710977202 E 73, 55457216340922391 E 75, 20437872026638468 E 76, 74013966578339597 E 78, 26346471460880820 E 79, 92212119753134210 E 81, bnil.
Definition r418 := 11958922914667834 E 17, 91035357181867546 E 18, 54252848394141837 E 18, 26139605514233760 E 18, 10478389399013530 E 18, 35784800139653837 E 19, 10613367306835700 E 19, 27767199987772625 E 20, 64906109112781762 E 21, 13699785782680881 E 21, 26343555551413892 E 22, 46498514680307803 E 23, 75824843067037210 E 24, 11487281569601777 E 24, 16246989571692807 E 25, 21544669928857739 E 26, 26888507899927675 E 27, 31690053417798646 E 28, 35377417689053275 E 29, 37511431504814974 E 30, 37871365346035438 E 31, 36487697879934367 E 32, 33617374705986354 E 33, 29674424908784450 E 34, 25139454539138510 E 35, 20472939639720303 E 36, 16050904569986169 E 37, 12131422801534755 E 38, 88506146914118274 E 40, 62402767791355666 E 41, 42568519904688155 E 42, 28124352853321594 E 43, 18014120231347452 E 44, 11196493376217085 E 45, 67587786214794977 E 47, 39657852722221965 E 48, 22636173446586498 E 49, 12577947818329102 E 50, 68085255804625944 E 52, 35927012213797738 E 53, 18492171634787752 E 54, 92899715764081308 E 56, 45577356273996219 E 57, 21848889112249234 E 58, 10239568151574206 E 59, 46937784734781822 E 61, 21055206920741490 E 62, 92467901553158185 E 64, 39774749569161728 E 65, 16764537591692808 E 66, 69265799362946663 E 68, 28064539880324770 E 69, 11155037554354903 E 70, 43512530868671966 E 72, 16662427685283078 E 73, 62659631929019427 E 75, 23147436189407262 E 76, 84026919377773772 E 78, 29982293608244206 E 79, 10518846474576239 E 80, bnil.
Definition r419 := 11930436635495757 E 17, 90885522343143205 E 18, 54231199999485100 E 18, 26170486544235014 E 18, 10509623433937344 E 18, 35961163997395343 E 19, 10687450575328364 E 19, 28020094677369458 E 20, 65639042829872325 E 21, 13885021210966840 E 21, 26759394865859655 E 22, 47339132592976781 E 23, 77371349023994995 E 24, 11748431991850430 E 24, 16654626803287188 E 25, 22136332131753163 E 26, 27691090628604568 E 27, 32711994216005180 E 28, 36603579423271443 E 29, 38902431956025726 E 30, 39367855728090128 E 31, 38018649417142750 E 32, 35110334295553664 E 33, 31065315700161374 E 34, 26379878463279446 E 35, 21533849966751408 E 36, 16922575911902312 E 37, 12820501852174486 E 38, 93754864895243113 E 40, 66260088382465005 E 41, 45306979821599867 E 42, 30004616008811641 E 43, 19264071527208677 E 44, 12001817423971804 E 45, 72621231120104747 E 47, 42712537844780544 E 48, 24437701558400354 E 49, 13611269530020817 E 50, 73853950964530284 E 52, 39063744176353039 E 53, 20154547689565255 E 54, 10149207958010737 E 55, 49911400427055215 E 57, 23983527701205861 E 58, 11266749137716188 E 59, 51769389589138902 E 61, 23277890433041294 E 62, 10247287618328087 E 63, 44183422512217308 E 65, 18667132206184792 E 66, 77310616935813360 E 68, 31398768196371377 E 69, 12510084449471396 E 70, 48914564044499167 E 72, 18775731663726974 E 73, 70775229553133533 E 75, 26207844161774392 E 76, 95363436653644050 E 78, 34108564712180684 E 79, 11995046449989730 E 80, bnil.
Definition r420 := 11902084912807395 E 17, 90736091555717990 E 18, 54209355159703938 E 18, 26201144937022771 E 18, 10540780264666013 E 18, 36137586555955977 E 19, 10761742619156442 E 19, 28274308299955733 E 20, 66377536917224770 E 21, 14072100239361886 E 21, 27180358343971905 E 22, 48192106737592590 E 23, 78944274957597452 E 24, 12014668818798380 E 24, 17071182653221211 E 25, 22742365347897931 E 26, 28515108691559920 E 27, 33763709024369074 E 28, 37868450458569538 E 29, 40340742991496679 E 30, 40918910932263686 E 31, 39609184333449878 E 32, 36665078135069518 E 33, 32517204587543981 E 34, 27677776329409628 E 35, 22646553656607397 E 36, 17838974638636689 E 37, 13546661261348226 E 38, 99299177347336941 E 40, 70344335638225507 E 41, 48213442697252675 E 42, 32004981602518862 E 43, 20597029347437107 E 44, 12862666005667735 E 45, 78014528871899262 E 47, 45993405284292859 E 48, 26377231988038965 E 49, 14726397174890633 E 50, 80094175734274162 E 52, 42464956940376643 E 53, 21961387023234054 E 54, 11085339556811115 E 55, 54644565726388848 E 57, 26320302660983841 E 58, 12393878577950559 E 59, 57083769612405604 E 61, 25728495262683523 E 62, 11353010217780836 E 63, 49067389131627027 E 65, 20779870714598051 E 66, 86265304360194438 E 68, 35118951789380744 E 69, 14025592433215452 E 70, 54970706342128274 E 72, 21150579387530032 E 73, 79916979252735196 E 75, 29663442164307919 E 76, 10819438209716879 E 77, 38789923416486022 E 79, 13673829410059665 E 80, bnil.
Definition r421 := 11873866809348810 E 17, 90587063950814020 E 18, 54187316109535144 E 18, 26231581635451612 E 18, 10571859708546696 E 18, 36314064865394400 E 19, 10836242330279687 E 19, 28529840355521238 E 20, 67121607534338304 E 21, 14261033464060105 E 21, 27606489079387839 E 22, 49057572849847058 E 23, 80543977899633659 E 24, 12286073512522582 E 24, 17496822136218414 E 25, 23363071085194020 E 26, 29361064830832553 E 27, 34845969760554923 E 28, 39173130068001459 E 29, 41827825186006173 E 30, 42526350614301935 E 31, 41261437397815062 E 32, 38283973292311854 E 33, 34032580270739153 E 34, 29035636298310005 E 35, 23813422282488731 E 36, 18802260693411842 E 37, 14311784660207613 E 38, 10515484278432182 E 39, 74668178719863277 E 41, 51297711990532549 E 42, 34132761719140742 E 43, 22018257709154361 E 44, 13782701379552506 E 45, 83792330769126654 E 47, 49516526655270250 E 48, 28464923648564989 E 49, 15929562569195455 E 50, 86843062112297028 E 52, 46152159107872515 E 53, 23924810940082374 E 54, 12105017327223081 E 55, 59812408977498858 E 57, 28877747443024632 E 58, 13630381020331946 E 59, 62927708831211837 E 61, 28429705271905664 E 62, 12574706666960498 E 63, 54476450973419044 E 65, 23125326291509382 E 66, 96230002886291078 E 68, 39268591947862822 E 69, 15720073356254745 E 70, 61758161479257919 E 72, 23818538486092503 E 73, 90211479636057979 E 75, 33564045231610391 E 76, 12271214978773850 E 77, 44099327596315148 E 79, 15582368871541914 E 80, bnil.
Definition r422 := 11845781396323680 E 17, 90438438652109945 E 18, 54165085063632573 E 18, 26261797581455242 E 18, 10602861587285019 E 18, 36490595990938276 E 19, 10910948597892586 E 19, 28786690306056585 E 20, 67871270711417721 E 21, 14451831474285898 E 21, 28037830309835990 E 22, 49935667555234267 E 23, 82170818257560964 E 24, 12562728528877172 E 24, 17931712718539258 E 25, 23998756116061903 E 26, 30229471858857055 E 27, 35959565771396472 E 28, 40518745130074399 E 29, 43365179479095466 E 30, 44192049299566146 E 31, 42977613117574394 E 32, 39969470108985869 E 33, 35614025254207512 E 34, 30456046567417292 E 35, 25036928730118409 E 36, 19814691727417943 E 37, 15117845634705211 E 38, 11133841204386828 E 39, 79244955794083414 E 41, 54570133650047876 E 42, 36395691605211246 E 43, 23533338634385421 E 44, 14765816362234419 E 45, 89980902875786971 E 47, 53299067378254810 E 48, 30711652848629139 E 49, 17227453583941430 E 50, 94140554894384354 E 52, 50148543970822430 E 53, 26057921440871190 E 54, 13215447531136194 E 55, 65453547878205083 E 57, 31676039080665607 E 58, 14986541332574785 E 59, 69352384003144496 E 61, 31406393508077025 E 62, 13924191188469605 E 63, 60465477162034174 E 65, 25728428475965453 E 66, 10731557149913282 E 67, 43895960770143621 E 69, 17614118337942847 E 70, 69363009859299727 E 72, 26814890205694022 E 73, 10180056023228408 E 74, 37965594832568540 E 76, 13913331095122200 E 77, 50119099415633241 E 79, 17751399318676549 E 80, bnil.
Definition r423 := 11817827753301730 E 17, 90290214775962038 E 18, 54142664216732188 E 18, 26291793715994979 E 18, 10633785726905952 E 18, 36667177013014695 E 19, 10985860308501221 E 19, 29044857575735955 E 20, 68626542348847042 E 21, 14644504851827841 E 21, 28474425415824962 E 22, 50826528368778739 E 23, 83825159828569607 E 24, 12844717325082897 E 24, 18376024344234718 E 25, 24649732548935711 E 26, 31120852822982709 E 27, 37105304164422836 E 28, 41906450726641924 E 29, 44954348154457425 E 30, 45917937856061746 E 31, 44759987789637681 E 32, 41724104862861681 E 33, 37264219084872321 E 34, 31941699078130968 E 35, 26319651209650089 E 36, 20878627216987458 E 37, 15966911744356960 E 38, 11786726569591836 E 39, 84088707318318491 E 41, 58041624483586886 E 42, 38801952874871606 E 43, 25148190399087357 E 44, 15816148147497645 E 45, 96608226927963964 E 47, 57359357829765412 E 48, 33129061795588989 E 49, 18627246149120918 E 50, 10202961629660010 E 51, 54479116406481955 E 53, 28374877622009287 E 54, 14424436433653460 E 55, 71609915313384915 E 57, 34737139001639242 E 58, 16473580646732651 E 59, 76413763832957979 E 61, 34685826876451044 E 62, 15414445920038095 E 63, 67094904734270077 E 65, 28616702013999897 E 66, 11964470150431741 E 67, 49054609895754432 E 69, 19730624987996318 E 70, 77881202146546957 E 72, 30179054945419841 E 73, 11484306733279186 E 74, 42930893552473570 E 76, 15770157795698231 E 77, 56942098447667356 E 79, 20215671875353006 E 80, bnil.
Definition r424 := 11790004968128329 E 17, 90142391431621616 E 18, 54120055743815176 E 18, 26321570979009359 E 18, 10664631957714821 E 18, 36843805027279054 E 19, 11060976345999714 E 19, 29304341551101204 E 20, 69387438216673985 E 21, 14839064170573941 E 21, 28916317919322735 E 22, 51730293694710731 E 23, 85507369813531684 E 24, 13132124367321531 E 24, 18829929461540122 E 25, 25316317900399269 E 26, 32035741171991074 E 27, 38284010144393632 E 28, 43337430751521815 E 29, 46596915839582590 E 30, 47706005001896435 E 31, 46610911605064928 E 32, 43550502506171692 E 33, 38985941691104018 E 34, 33495393348559577 E 35, 27664277413659418 E 36, 21996532741263810 E 37, 16861148707965414 E 38, 12475965310113264 E 39, 89214210879191031 E 41, 61723701923947664 E 42, 41360197917195310 E 43, 26869086773764130 E 44, 16938092911352229 E 45, 10370410724054479 E 46, 61716968905084470 E 48, 35729610231381847 E 49, 20136638407320962 E 50, 11055644484714176 E 51, 59170828948520635 E 53, 30890977796413465 E 54, 15740438461757605 E 55, 78327034010605583 E 57, 38084945480544085 E 58, 18103738779107450 E 59, 84173043266651070 E 61, 38297889330926738 E 62, 17059732853351765 E 63, 74431286860263460 E 65, 31820529187722158 E 66, 13335314364802873 E 67, 54803931941733396 E 69, 22095048768588777 E 70, 87419661030022778 E 72, 33955065257550633 E 73, 12951685377237618 E 74, 48530425631418658 E 76, 17869112260471772 E 77, 64673038157955932 E 79, 23014466884877647 E 80, bnil.
Definition r425 := 11762312136835169 E 17, 89994967721447924 E 18, 54097261800270809 E 18, 26351130309364611 E 18, 10695400114258515 E 18, 37020477144642334 E 19, 11136295591746136 E 19, 29565141581247665 E 20, 70153973954107052 E 21, 15035519996048590 E 21, 29363551482427456 E 22, 52647102826089684 E 23, 87217818830835476 E 24, 13425035138335249 E 24, 19293603049409071 E 25, 25998835167965133 E 26, 32974680924626868 E 27, 39496527354897066 E 28, 44812898529988466 E 29, 48294510526004478 E 30, 49558298847846235 E 31, 48532810808221720 E 32, 45451379482188943 E 33, 40782076825700588 E 34, 35120040435534663 E 35, 29073608826061355 E 36, 23170984426102963 E 37, 17802824762707917 E 38, 13203473318682191 E 39, 94637017651802332 E 41, 65628515255525905 E 42, 44079575563564923 E 43, 28702677306494029 E 44, 18136321245642311 E 45, 11130028395202857 E 46, 66392792254137721 E 48, 38526630393974958 E 49, 21763887154536423 E 50, 11977070949893930 E 51, 64252727669776235 E 53, 33622747747282645 E 54, 17172608083755187 E 55, 85654313125484015 E 57, 41745458658372902 E 58, 19890363657951205 E 59, 92697115839761130 E 61, 42275325202364703 E 62, 18875716164541290 E 63, 82547893390056891 E 65, 35373437869482147 E 66, 14859105879260960 E 67, 61209779944328918 E 69, 24735680988307646 E 70, 98097502627657336 E 72, 38192091462150532 E 73, 14602099531832148 E 74, 54843273130133609 E 76, 20241028996612019 E 77, 73429962830512772 E 79, 26192170329677177 E 80, bnil.
Definition r426 := 11734748363552064 E 17, 89847942741117709 E 18, 54074284522057467 E 18, 26380472644806113 E 18, 10726090035286852 E 18, 37197190491296637 E 19, 11211816924637768 E 19, 29827256978011023 E 20, 70926165069022285 E 21, 15233882884950878 E 21, 29816169906028753 E 22, 53577095944374004 E 23, 88956880930100233 E 24, 13723536145029781 E 24, 19767222644185481 E 25, 26697612903496635 E 26, 33938226840153943 E 27, 40743718225061793 E 28, 46334097449285587 E 29, 50048804610484907 E 30, 51476928475713648 E 31, 50528189911731430 E 32, 47429546621943377 E 33, 42655615615746475 E 34, 36818667029819703 E 35, 30550565186935372 E 36, 24404673560129754 E 37, 18794315203216043 E 38, 13971261701045013 E 39, 10037349055017069 E 40, 69768878368799782 E 42, 46969758076253514 E 43, 30656008701637640 E 44, 19415794464679150 E 45, 11943055296384229 E 46, 71409125465254534 E 48, 41534385508486153 E 49, 23517846714434133 E 50, 12972579997538603 E 51, 69756108554497574 E 53, 36588035554314326 E 54, 18730855685761135 E 55, 93645368441718181 E 57, 45746959127207335 E 58, 21848008333708569 E 59, 10205908729974306 E 60, 46654004420737163 E 62, 20879595869712113 E 63, 91525368562242182 E 65, 39312417746181403 E 66, 16552450421492709 E 67, 68345150623571938 E 69, 27683956168984363 E 70, 11004739015976718 E 71, 42945025568640504 E 73, 16457825878565054 E 74, 61958138576636840 E 76, 22920575372646215 E 77, 83345904000347713 E 79, 29798921846495543 E 80, bnil.
Definition r427 := 11707312760419823 E 17, 89701315579830243 E 18, 54051126025863171 E 18, 26409598921910870 E 18, 10756701563714201 E 18, 37373942208739270 E 19, 11287539221186017 E 19, 30090687016155846 E 20, 71704026937482847 E 21, 15434163384694688 E 21, 30274217128460750 E 22, 54520414118939516 E 23, 90724933605774030 E 24, 14027714926081342 E 24, 20250968366414026 E 25, 27412985287275579 E 26, 34926944590951901 E 27, 42026464321437556 E 28, 47902301600311781 E 29, 51861515957489874 E 30, 53464065553177625 E 31, 52599633968468089 E 32, 49487912123081394 E 33, 44609660222309863 E 34, 38594419688552602 E 35, 32098189118393419 E 36, 25700411389065921 E 37, 19838107107506935 E 38, 14781441218345329 E 39, 10644084414198840 E 40, 74158304112736835 E 42, 50040969522149016 E 43, 32736547350056335 E 44, 20781781831618805 E 45, 12813089294955527 E 46, 76789762486926410 E 48, 44768132023978496 E 49, 25408010401225309 E 50, 14047909442588147 E 51, 75714685082744753 E 53, 39806113462070637 E 54, 20425907741168982 E 55, 10235836799513175 E 56, 50120201154461608 E 58, 23992536191958975 E 59, 11233883398506504 E 60, 51473211535281413 E 62, 23090253819922964 E 63, 10145245114365172 E 64, 43678267383826883 E 66, 18433706873693454 E 67, 76290937854062217 E 69, 30974791800233606 E 70, 12341703381567221 E 71, 48275129795842248 E 73, 18543784970486806 E 74, 69974486145910494 E 76, 25946716416801676 E 77, 94570737662466387 E 79, 33891343011125381 E 80, bnil.
Definition r428 := 11680004447504200 E 17, 89555085320508945 E 18, 54027788409264706 E 18, 26438510076040811 E 18, 10787234546581153 E 18, 37550729453795081 E 19, 11363461355590545 E 19, 30355430933565094 E 20, 72487574803268214 E 21, 15636372032950180 E 21, 30737737224146030 E 22, 55477199306543903 E 23, 92522357810608874 E 24, 14337660059546406 E 24, 20745022947787025 E 25, 28145292202715449 E 26, 35941410937164828 E 27, 43345666705095611 E 28, 49518816430628042 E 29, 53734408983306160 E 30, 55521945985841721 E 31, 54749810901853453 E 32, 51629484612910330 E 33, 46647427613001765 E 34, 40450569209063204 E 35, 33719650916772531 E 36, 27061134094640123 E 37, 20936804256863973 E 38, 15636226923082394 E 39, 11285718640378137 E 40, 78811040318126331 E 42, 53304015598446531 E 43, 34952203069337668 E 44, 22239878753656098 E 45, 13743959982925615 E 46, 82560089593792717 E 48, 48244185824485421 E 49, 27444554735720511 E 50, 15209224553598927 E 51, 82164767797205275 E 53, 43297787292343671 E 54, 22269371590066996 E 55, 11185640506423328 E 56, 54898621702906818 E 58, 26341235038068481 E 59, 12362360972701024 E 60, 56775960596699429 E 62, 25528413137826442 E 63, 11242676273885990 E 64, 48515975047456713 E 66, 20523167114455482 E 67, 85136763344484364 E 69, 34646963796870886 E 70, 13837085216091637 E 71, 54250756641796418 E 73, 20887847036013382 E 74, 79003814752367382 E 76, 29363234570584787 E 77, 10727326598305370 E 78, 38533355591152169 E 80, bnil.
Definition r429 := 11652822552710881 E 17, 89409251039998694 E 18, 54004273750885949 E 18, 26467207041297104 E 18, 10817688835016562 E 18, 37727549398637477 E 19, 11439582199813134 E 19, 30621487931431447 E 20, 73276823777416244 E 21, 15840519357187279 E 21, 31206774402231724 E 22, 56447594350740538 E 23, 94349537969017400 E 24, 14653461170474253 E 24, 21249571758228143 E 25, 28894879311723263 E 26, 36982213903418162 E 27, 44702246294005812 E 28, 51184979408942776 E 29, 55669295762157836 E 30, 57652871607202323 E 31, 56981473895750130 E 32, 53857376297720383 E 33, 48772253450501526 E 34, 42390515148324442 E 35, 35418253516594262 E 36, 28489907964596878 E 37, 22093132257013064 E 38, 16537942996475240 E 39, 11964156239561398 E 40, 83742107567956542 E 42, 56770314980156550 E 43, 37311354115319323 E 44, 23796025997577982 E 45, 14739742912526882 E 46, 88747187220064455 E 48, 51979992656082662 E 49, 29638386589110379 E 50, 16463148630929232 E 51, 89145456673288940 E 53, 47085513936629857 E 54, 24273805168013848 E 55, 12220790061239396 E 56, 60118566490565217 E 58, 28912940775122629 E 59, 13600870534578337 E 60, 62609338138282420 E 62, 28216812293337549 E 63, 12455567051856883 E 64, 53875136458371410 E 66, 22843253771173316 E 67, 94981892205767506 E 69, 38743521303740300 E 70, 15509181199751984 E 71, 60948148181707082 E 73, 23521172232010130 E 74, 89171077904687316 E 76, 33219310728846641 E 77, 12164354997021019 E 78, 43797100607515506 E 80, bnil.
Definition r430 := 11625766211701541 E 17, 89263811809260102 E 18, 53980584110554876 E 18, 26495690750475361 E 18, 10848064284199632 E 18, 37904399230807803 E 19, 11515900623650793 E 19, 30888857174449387 E 20, 74071788837775038 E 21, 16046615874220500 E 21, 31681373005216592 E 22, 57431742981238376 E 23, 96206861990304449 E 24, 14975208938521158 E 24, 21764802833110521 E 25, 29662098130708995 E 26, 38049952957614185 E 27, 46097144230739534 E 28, 52902160701223968 E 29, 57668037154679722 E 30, 59859211907262615 E 31, 59297463845257449 E 32, 56174806200510632 E 33, 50987596100217563 E 34, 44417790492400895 E 35, 37197437631886515 E 36, 29989934760524476 E 37, 23309943868191861 E 38, 17489027795349694 E 39, 12681399993760811 E 40, 88967338794169060 E 42, 60451932262408714 E 43, 39822873529111741 E 44, 25456529979797037 E 45, 15804774663727695 E 46, 95379938001434116 E 48, 55994203025789827 E 49, 32001193439545818 E 50, 17816795681458249 E 51, 96698847167107400 E 53, 51193527501298416 E 54, 26452792047551823 E 55, 13348703741932815 E 56, 65819534428807159 E 58, 31728171453231489 E 59, 14959816514194857 E 60, 69024876679599122 E 62, 31180395118762623 E 63, 13795723117004850 E 64, 59810412960994406 E 66, 25418737613110168 E 67, 10593624182864413 E 68, 43312244853556127 E 70, 17378346530941712 E 71, 68452323073228971 E 73, 26478589123211466 E 74, 10061626679937662 E 75, 37570173607838419 E 77, 13789552259943015 E 78, 49763970319073015 E 80, bnil.
Definition r431 := 11598834567810891 E 17, 89118766693559545 E 18, 53956721529459600 E 18, 26523962135021714 E 18, 10878360753322240 E 18, 38081276153233107 E 19, 11592415494808455 E 19, 31157537791008812 E 20, 74872484828566628 E 21, 16254672089755750 E 21, 32161577507570425 E 22, 58429789813210480 E 23, 98094721281775250 E 24, 15302995105566239 E 24, 22290906900609733 E 25, 30447306107245307 E 26, 39145239191822047 E 27, 47531322255556425 E 28, 54671763858597401 E 29, 59732543959115811 E 30, 62143405800537323 E 31, 61700711869750394 E 32, 58585103489300897 E 33, 53297040760336648 E 34, 46536066480382799 E 35, 39060787080633691 E 36, 31564557290441726 E 37, 24590224551974978 E 38, 18492039116970345 E 39, 13439555737383955 E 40, 94503420783494605 E 42, 64361612573815441 E 43, 42496156886870017 E 44, 27228084187696929 E 45, 16943668789797542 E 46, 10248914138533066 E 47, 60306751842843574 E 49, 34545496937739780 E 50, 19277805327324083 E 51, 10487025087308474 E 52, 55647974716910567 E 54, 28821022181433613 E 55, 14577422830292256 E 56, 72044441878114088 E 58, 34809272529092254 E 59, 16450556513939280 E 60, 76078961378217261 E 62, 34446518175467535 E 63, 15276122347444224 E 64, 66382033887745184 E 66, 28276976477232882 E 67, 11812149330150547 E 68, 48406152279147329 E 70, 19467220381477400 E 71, 76858060630339724 E 73, 29799015567821435 E 74, 11349617492955236 E 75, 42477825270571492 E 77, 15626991526653298 E 78, 56525766663480776 E 80, bnil.
Definition r432 := 11572026771964784 E 17, 88974114752655875 E 18, 53932688030303488 E 18, 26552022124989812 E 18, 10908578105551471 E 18, 38258177384242606 E 19, 11669125678971054 E 19, 31427528873389745 E 20, 75678926459961322 E 21, 16464698497938733 E 21, 32647432514344929 E 22, 59441880346549521 E 23, 10001351076171855 E 23, 15636912483327933 E 24, 22828077409189627 E 25, 31250866697377876 E 26, 40268695505273819 E 27, 49005763084925878 E 28, 56495226517184187 E 29, 61864778085609860 E 30, 64507963434196936 E 31, 64194241889517742 E 32, 61091710898248251 E 33, 55704303717586495 E 34, 48749157587405657 E 35, 41012034298282744 E 36, 33217265193298958 E 37, 25937098242985436 E 38, 19549659690547877 E 39, 14240837351253485 E 40, 10036793767854397 E 41, 68512817940559903 E 43, 45341151522739520 E 44, 29117791791947832 E 45, 18161332689448940 E 46, 11010763518912321 E 47, 64938943088419404 E 49, 37284709989583760 E 50, 20854380094765797 E 51, 11370843178360196 E 52, 60477060264513868 E 54, 31394378763849275 E 55, 15915662100718236 E 56, 78839908269409020 E 58, 38180574240038433 E 59, 18085485821870225 E 60, 83833272672922104 E 62, 38045177005044895 E 63, 16911027756871770 E 64, 73656347254150759 E 66, 31448177795548121 E 67, 13167231548504691 E 68, 54084057215173567 E 70, 21800975372226337 E 71, 86270992298128907 E 73, 33525926633637591 E 74, 12798636447679734 E 75, 48011851512351581 E 77, 17703753419476745 E 78, 64186001268760054 E 80, bnil.
Definition r433 := 11545341982599266 E 17, 88829855040983646 E 18, 53908485617458972 E 18, 26579871648998665 E 18, 10938716207992324 E 18, 38435100157582576 E 19, 11746030039875123 E 19, 31698829477958299 E 20, 76491128307663251 E 21, 16676705580905186 E 21, 33138982759777047 E 22, 60468160965072014 E 23, 10196362887226288 E 23, 15977054960981013 E 24, 23376510555220849 E 25, 32073149443587681 E 26, 41420956789481107 E 27, 50521470795539596 E 28, 58374021110037841 E 29, 64066753753963222 E 30, 66955468037117817 E 31, 66781173267386414 E 32, 63698188243840612 E 33, 58213236732118006 E 34, 51061026671481878 E 35, 43055066046410624 E 36, 34951700942779997 E 37, 27353833353904279 E 38, 20664702904477170 E 39, 15087571983502409 E 40, 10657941656396363 E 41, 72919765484432980 E 43, 48368387298724152 E 44, 31133189512418508 E 45, 19462985456617146 E 46, 11827042450668691 E 47, 69913539816288092 E 49, 40233197576228052 E 50, 22555325238272580 E 51, 12326585920754529 E 52, 65711202715803152 E 54, 34190031655098828 E 55, 17372864251904476 E 56, 86256564755167844 E 58, 41868562067061700 E 59, 19878129169225119 E 60, 92355267997379530 E 62, 42009252928824329 E 63, 18716110965872322 E 64, 81706423290485794 E 66, 34965686985273013 E 67, 14673771282817404 E 68, 60411185499522486 E 70, 24407593556754783 E 71, 96808811929791439 E 73, 37707874659493346 E 74, 14428335695633481 E 75, 54250326777777957 E 77, 20050292759431115 E 78, 72861353910952026 E 80, bnil.
Definition r434 := 11518779365580657 E 17, 88685986607832459 E 18, 53884116277120517 E 18, 26607511634191325 E 18, 10968774931650643 E 18, 38612041722429933 E 19, 11823127439379846 E 19, 31971438625363809 E 20, 77309104812507280 E 21, 16890703808333041 E 21, 33636273105884423 E 22, 61508778935670041 E 23, 10394547759210575 E 23, 16323517512773387 E 24, 23936405310730577 E 25, 32914530053406037 E 26, 42602670115484918 E 27, 52079471213868749 E 28, 60309655591337561 E 29, 66340538715237062 E 30, 69488577810610348 E 31, 69464723516739201 E 32, 66408216038480388 E 33, 60827831554992027 E 34, 53475790288990738 E 35, 45193929322830147 E 36, 36771666078020254 E 37, 28843849022475043 E 38, 21840118778691228 E 39, 15982205506951939 E 40, 11315737523121358 E 41, 77597467541733919 E 43, 51589008998685734 E 44, 33282272803409394 E 45, 20854176761594681 E 46, 12701481838559279 E 47, 75254859804165643 E 49, 43406341545224362 E 50, 24390091264896187 E 51, 13359897847304210 E 52, 71383201830922842 E 54, 37226537846257129 E 55, 18959258577673908 E 56, 94349387679199032 E 58, 45902061336778670 E 59, 21843240331651045 E 60, 10171870589743256 E 61, 46374782201220872 E 63, 20708587171861932 E 64, 90612715722999452 E 66, 38866304173115414 E 67, 16348250906727892 E 68, 67459855304985171 E 70, 27318171650834677 E 71, 10860261744342322 E 72, 42399067117796984 E 74, 16260707302083493 E 75, 61280824353750971 E 77, 22700848900637283 E 78, 82683308254150673 E 80, bnil.
Definition r435 := 11492338094126578 E 17, 88542508497523667 E 18, 53859581977456363 E 18, 26634943006194546 E 18, 10998754151396171 E 18, 38788999343404101 E 19, 11900416737537492 E 19, 32245355300736819 E 20, 78132870280065816 E 21, 17106703636996218 E 21, 34139348541052947 E 22, 62563882407410385 E 23, 10595946244911246 E 23, 16676396205641895 E 24, 24507963451282597 E 25, 33775390478683191 E 26, 43814494923251344 E 27, 53680812311319438 E 28, 62303674172998615 E 29, 68688255497580466 E 30, 72110027861612176 E 31, 72248211077359672 E 32, 69225599203823306 E 33, 63552224581837411 E 34, 55997724183802150 E 35, 47432837479594821 E 36, 38681127669098911 E 37, 30410721609497171 E 38, 23079000191862111 E 39, 16927308222956889 E 40, 12012237221944162 E 41, 82561773793806838 E 43, 55014810427304254 E 44, 35573522427179436 E 45, 22340806820028665 E 46, 13638057472018593 E 47, 80988877193743550 E 49, 46820609620235161 E 50, 26368819333812899 E 51, 14476850061234560 E 52, 77528418007605315 E 54, 40523949473568350 E 55, 20685924194623061 E 56, 10317805878764808 E 57, 50312437093441739 E 59, 23996910221557885 E 60, 11200421615973914 E 61, 51181249475725270 E 63, 22907362654598821 E 64, 10046378616010712 E 65, 43190631953762650 E 67, 18208898010647612 E 68, 75310227401670282 E 70, 30567258520293287 E 71, 12179839773042932 E 72, 47660008530552363 E 74, 18320354901990590 E 75, 69201543772204701 E 77, 25693904741064960 E 78, 93799985892097817 E 80, bnil.
Definition r436 := 11466017348727960 E 17, 88399419749582861 E 18, 53834884668759263 E 18, 26662166689079090 E 18, 11028653745925881 E 18, 38965970300577813 E 19, 11977896792663384 E 19, 32520578453888461 E 20, 78962438880267083 E 21, 17324715510320391 E 21, 34648254178616900 E 22, 63633620410582733 E 23, 10800599253278570 E 23, 17035788206826943 E 24, 25091389583986604 E 25, 34656118995511286 E 26, 45057103213227031 E 27, 55326564605042773 E 28, 64357658073860418 E 29, 71112082676672026 E 30, 74822632179143745 E 31, 75135058160563897 E 32, 72154270886284174 E 33, 66390701646330811 E 34, 58631268955138856 E 35, 49776176555548547 E 36, 40684225025407892 E 37, 32058191457107701 E 38, 24384589373534451 E 39, 17925580822093226 E 40, 12749605923398205 E 41, 87829415503990880 E 43, 58658270298602735 E 44, 38015932488135239 E 45, 23929147509213181 E 46, 14641005382998817 E 47, 87143330476586102 E 49, 50493628891500284 E 50, 28502389717051430 E 51, 15683971230395971 E 52, 84184964728446503 E 54, 44103929927703828 E 55, 22564858167090785 E 56, 11280735424702707 E 57, 55133810459236354 E 59, 26356684170516420 E 60, 12329991985574614 E 61, 56471907708196502 E 63, 25333195944637821 E 64, 11135709741972263 E 65, 47983457132000723 E 67, 20275865063834814 E 68, 84051132574465433 E 70, 34193228241064087 E 71, 13655868011086043 E 72, 53558213348998624 E 74, 20634796088691814 E 75, 78122568673501483 E 77, 29072700038900593 E 78, 10637820213983668 E 79, bnil.
Definition r437 := 11439816317071973 E 17, 88256719398909611 E 18, 53810026283596421 E 18, 26689183605321042 E 18, 11058473597727488 E 18, 39142951889486388 E 19, 12055566461405326 E 19, 32797106999510859 E 20, 79797824647024923 E 21, 17544749857940786 E 21, 35163035255432061 E 22, 64718142855695454 E 23, 11008548050660403 E 23, 17401791791485425 E 24, 25686891175636338 E 25, 35557110284803189 E 26, 46331179740067642 E 27, 57017821564454002 E 28, 66473226281617306 E 29, 73614256171167006 E 30, 77629285654837740 E 31, 78128793665106556 E 32, 75198296377174355 E 33, 69347702957236235 E 34, 61381035909416358 E 35, 52228511830257776 E 36, 42785276655255675 E 37, 33790169916966631 E 38, 25760284671645503 E 39, 18979860612467809 E 40, 13530123604822843 E 41, 93418051959943671 E 43, 62532590002584046 E 44, 40619040003605465 E 45, 25625864694178572 E 46, 15714838121828433 E 47, 93747837203324834 E 49, 54444264064767917 E 50, 30802473518775463 E 51, 16988280742897934 E 52, 91393914909634321 E 54, 47989878640773061 E 55, 24609048894410477 E 56, 12330756468857576 E 57, 60403292794713994 E 59, 28941689156098576 E 60, 13570210352476128 E 61, 62294126801541369 E 63, 28008873880176517 E 64, 12339988215648046 E 65, 53294169669503408 E 67, 22571427044279147 E 68, 93780983902682881 E 70, 38238692375936069 E 71, 15306435519638797 E 72, 60168997432014605 E 74, 23234798921124091 E 75, 88167269840138821 E 77, 32885805298094072 E 78, 12060576972678074 E 79, bnil.
Definition r438 := 11413734193965908 E 17, 88114406475943860 E 18, 53785008736957789 E 18, 26715994675763757 E 18, 11088213593043112 E 18, 39319941421135443 E 19, 12133424598812425 E 19, 33074939817378255 E 20, 80639041477877704 E 21, 17766817095261642 E 21, 35683737130440947 E 22, 65817600532419773 E 23, 11219834262022670 E 23, 17774506350300964 E 24, 26294678580974395 E 25, 36478765513526893 E 26, 47637422208550826 E 27, 58755700023514727 E 28, 68652036327651711 E 29, 76197070563542670 E 30, 80532966148359469 E 31, 81233056165368175 E 32, 78361877139978908 E 33, 72427828182822346 E 34, 64251813101429303 E 35, 54794594606353596 E 36, 44988787485320016 E 37, 35610746658281343 E 38, 27209647606262538 E 39, 20093128026846495 E 40, 14356190799898971 E 41, 99346319224629759 E 43, 66651733342630762 E 44, 43392956090835772 E 45, 27438041829292556 E 46, 16864362003243979 E 47, 10083401581488703 E 48, 58692700762776199 E 50, 33281587862646430 E 51, 18397324168548056 E 52, 99199522114539979 E 54, 52207065174222728 E 55, 26832555151523868 E 56, 13475494866269017 E 57, 66161239071719183 E 59, 31772771787262191 E 60, 14931595206486313 E 61, 68699773489892531 E 63, 30959403884047009 E 64, 13671009371537285 E 65, 59177222353142892 E 67, 25120198780586976 E 68, 10460878235618080 E 69, 42750955475136378 E 71, 17151669774254708 E 72, 67576356557341186 E 74, 26154756298385585 E 75, 99473869725351808 E 77, 37187763190480064 E 78, 13669407954887866 E 79, bnil.
Definition r439 := 11387770181261973 E 17, 87972480006829085 E 18, 53759833926403974 E 18, 26742600819580825 E 18, 11117873621833162 E 18, 39496936222007664 E 19, 12211470058403424 E 19, 33354075752549509 E 20, 81486103133639689 E 21, 17990927623017871 E 21, 36210405283231445 E 22, 66932145108482303 E 23, 11434499872156574 E 23, 18154032397091390 E 24, 26914965071083656 E 25, 37421492416596828 E 26, 48976541471688211 E 27, 60541340598834727 E 28, 70895785074938485 E 29, 78862880446744467 E 30, 83536736598555470 E 31, 84451596973365127 E 32, 81649354947340562 E 33, 75635841686571154 E 34, 67248571570399858 E 35, 57479369227517934 E 36, 47299456348835608 E 37, 37524197265944888 E 38, 28736410220763125 E 39, 21268513420233222 E 40, 15230334619000021 E 41, 10563388130380119 E 42, 71030468340616704 E 44, 46348398853731529 E 45, 29373204904464726 E 46, 18094695377559953 E 47, 10843561501697401 E 48, 63260534190683765 E 50, 35953154769651026 E 51, 19919211179701588 E 52, 10764945765952906 E 53, 56782773273682747 E 55, 29250591201954021 E 56, 14723222206332180 E 57, 72451521979101425 E 59, 34872647926649286 E 60, 16425634527257331 E 61, 75745625170215003 E 63, 34212223907833892 E 64, 15141744675518807 E 65, 65692635023805904 E 67, 27949373914257006 E 68, 11665522497968176 E 69, 47782518205551700 E 71, 19213960396344368 E 72, 75873941279846555 E 74, 29433102351274503 E 75, 11219718658868839 E 76, 42039805262729688 E 78, 15488099098062650 E 79, bnil.
Definition r440 := 11361923487783004 E 17, 87830939013572182 E 18, 53734503732212655 E 18, 26769002954239642 E 18, 11147453577740491 E 18, 39673933634068173 E 19, 12289701692234506 E 19, 33634513615571403 E 20, 82339023238061891 E 21, 18217091826838602 E 21, 36743085312588349 E 22, 68061929128506511 E 23, 11652587226872282 E 23, 18540471576412701 E 24, 27547966861903882 E 25, 38385705379422902 E 26, 50349261731048537 E 27, 62375908113648440 E 28, 73206209519184761 E 29, 81614101797036236 E 30, 86643747181172958 E 31, 87788283276145312 E 32, 85065216130364368 E 33, 78976677918177792 E 34, 70376471776539210 E 35, 60287980339548800 E 36, 49722183751675632 E 37, 39534991139403808 E 38, 30344482742087319 E 39, 22509304169980196 E 40, 16155215052296032 E 41, 11230148384249758 E 42, 75684411211151434 E 44, 49496728056938624 E 45, 31439348808578967 E 46, 19411287984890119 E 47, 11658865114265472 E 48, 68170863495111544 E 50, 38831563962378568 E 51, 21562656094905491 E 52, 11679506470732463 E 53, 61746455602556907 E 55, 31879618431959825 E 56, 16082908627089071 E 57, 79321828397352520 E 59, 38266064897308485 E 60, 18064872337359858 E 61, 83493820616081675 E 63, 37797431614948142 E 64, 16766455585507912 E 65, 72906547555373474 E 67, 31088987569901626 E 68, 13005392583103816 E 69, 53391632949344015 E 71, 21518206786060898 E 72, 85166138420467535 E 74, 33112775442956745 E 75, 12651057832854180 E 76, 47510652542439490 E 78, 17543406796409018 E 79, bnil.
Definition r441 := 11336193329249070 E 17, 87689782514200773 E 18, 53709020017524187 E 18, 26795201995465832 E 18, 11176953358054628 E 18, 39850931014767934 E 19, 12368118350966424 E 19, 33916252182682671 E 20, 83197815277503707 E 21, 18445320076812613 E 21, 37281822935037637 E 22, 69207106012801363 E 23, 11874139034178926 E 23, 18933926671158665 E 24, 28193903142871874 E 25, 39371825521116685 E 26, 51756320739303645 E 27, 64260592027720128 E 28, 75585087603371915 E 29, 84453213373462168 E 30, 89857237514006412 E 31, 91247101350159463 E 32, 88614095942909825 E 33, 82455446963930934 E 34, 73640870243918501 E 35, 63225780402147893 E 36, 52262079925766011 E 37, 41647799703225329 E 38, 32037961562107338 E 39, 23818952090973363 E 40, 17133631568037500 E 41, 11937101046798520 E 42, 80630072611040951 E 44, 52849981679099497 E 45, 33644965186482988 E 46, 20819941453432357 E 47, 12533155397285702 E 48, 73448392165744748 E 50, 41932239846126259 E 51, 23337021219094093 E 52, 12669163051553117 E 53, 67129899914901904 E 55, 34737443986552371 E 56, 17564279796423480 E 57, 86823980002644236 E 59, 41979977295734183 E 60, 19863002731974709 E 61, 92012350753495262 E 63, 41748034509742813 E 64, 18560818104507213 E 65, 80891826155202288 E 67, 34572205016431068 E 68, 14495276081681023 E 69, 59642917190537753 E 71, 24092092140110443 E 72, 95569270536916687 E 74, 37241732859313704 E 75, 14260810828970280 E 76, 53677409617965640 E 78, 19865420122252202 E 79, bnil.
Definition r442 := 11310578928204947 E 17, 87549009522916707 E 18, 53683384628486083 E 18, 26821198857208461 E 18, 11206372863676300 E 18, 40027925737046929 E 19, 12446718883931294 E 19, 34199290196019403 E 20, 84062492600615879 E 21, 18675622727056109 E 21, 37826663983384906 E 22, 70367830056100854 E 23, 12099198365451066 E 23, 19334501610156449 E 24, 28852996105685536 E 25, 40380280778357591 E 26, 53198470005013157 E 27, 66196606873237286 E 28, 78034239045872726 E 29, 87382758144338522 E 30, 93180538910346164 E 31, 94832159854233188 E 32, 92300783043597675 E 33, 86077440260666399 E 34, 77047326415600892 E 35, 66298337459297865 E 36, 54924473179569340 E 37, 43867504940703964 E 38, 33821137552597032 E 39, 25201081178922220 E 40, 18168530018955866 E 41, 12686554190166617 E 42, 85884906274930350 E 44, 56420914441574472 E 45, 35999071869752184 E 46, 22326831006088314 E 47, 13470532151079249 E 48, 79119534848811815 E 50, 45271712932448168 E 51, 25252363165099513 E 52, 13739867808478738 E 53, 72967407480096859 E 55, 37843326922090788 E 56, 19177878376840116 E 57, 95014279894185721 E 59, 46043737513130387 E 60, 21834972009379109 E 61, 10137559294356499 E 62, 46100222866267656 E 64, 20542058999117507 E 65, 89728727972807066 E 67, 38435638815420416 E 68, 16151534863734076 E 69, 66608030531759013 E 71, 26966386588796905 E 72, 10721292590240457 E 73, 41873522808442429 E 75, 16070695774400158 E 76, 60626562831153860 E 78, 22487966153551357 E 79, bnil.
Definition r443 := 11285079513948500 E 17, 87408619050247521 E 18, 53657599394396363 E 18, 26846994451606012 E 18, 11235711999082122 E 18, 40204915189335283 E 19, 12525502139198665 E 19, 34483626363820811 E 20, 84933068418033020 E 21, 18908010115282217 E 21, 38377654405246335 E 22, 71544256426250365 E 23, 12327808656581165 E 23, 19742301475756399 E 24, 29525470973188806 E 25, 41411505989916671 E 26, 54676474999656067 E 27, 68185192696742916 E 28, 80555526182307206 E 29, 90405344741186111 E 30, 96617076681602787 E 31, 98547693202777973 E 32, 96130224098300103 E 33, 89848136477565477 E 34, 80601609727123461 E 35, 69511443176302194 E 36, 57714918555660825 E 37, 46199208262215229 E 38, 35698504726721531 E 39, 26659495695275383 E 40, 19263009870241420 E 41, 13480941796776351 E 42, 91467360153149592 E 44, 60223038413549353 E 45, 38511243965506386 E 46, 23938528443103801 E 47, 14475368423394875 E 48, 85212530963223427 E 50, 48867695986863124 E 51, 27319482352899233 E 52, 14898027853264872 E 53, 79295984627125290 E 55, 41218092426502388 E 56, 20935130313649039 E 57, 10395388728194177 E 58, 50489302152830162 E 60, 23997089576693476 E 61, 11166489250301564 E 62, 50893667468894416 E 64, 22729104742294470 E 65, 99505629455280558 E 67, 42719697185347682 E 68, 17992268122162592 E 69, 74366421756891267 E 71, 30175282461988219 E 72, 12024143281194518 E 73, 47067919943266012 E 75, 18105011241779844 E 76, 68455094401857967 E 78, 25449063411038637 E 79, bnil.
Definition r444 := 11259694322459890 E 17, 87268610103194130 E 18, 53631666127846117 E 18, 26872589688953036 E 18, 11264970672289527 E 18, 40381896775553480 E 19, 12604466963641158 E 19, 34769259360636321 E 20, 85809555802077517 E 21, 19142492562372912 E 21, 38934840261574020 E 22, 72736541162843567 E 23, 12560013709118257 E 23, 20157432511416701 E 24, 30211556028378054 E 25, 42465942981841018 E 26, 56191115366926016 E 27, 70227615507167188 E 28, 83150854821314289 E 29, 93523648940533123 E 30, 10017037249000923 E 30, 10239806502092479 E 31, 10010752850595337 E 32, 93773207570184898 E 34, 84309706904587983 E 35, 72871121151803087 E 36, 60639206805739428 E 37, 48648239720421787 E 38, 37674769260436175 E 39, 28198188607805858 E 40, 20420331763110055 E 41, 14322830263212705 E 42, 97396930173100726 E 44, 64270665799320849 E 45, 41191646691830068 E 46, 25662026472013285 E 47, 15552327937640139 E 48, 91757565532848684 E 50, 52739165199492523 E 51, 29549975895399443 E 52, 16150538560612958 E 53, 86155548335261433 E 55, 44884254696981825 E 56, 22848416311152972 E 57, 11370922242533393 E 58, 55351455624320669 E 60, 26367148359564708 E 61, 12296919550269321 E 62, 56171844348825710 E 64, 25142744332175871 E 65, 11031982437952203 E 66, 47468966563862813 E 68, 20037491830886021 E 69, 83006152983693055 E 71, 33756764996021962 E 72, 13481549345898038 E 73, 52891631276883696 E 75, 20390935339795986 E 76, 77271725610296625 E 78, 28791428974582588 E 79, bnil.
Definition r445 := 11234422596331661 E 17, 87128981685376264 E 18, 53605586624860702 E 18, 26897985477667592 E 18, 11294148794821813 E 18, 40558867915111187 E 19, 12683612202999436 E 19, 35056187827532979 E 20, 86691967686472295 E 21, 19379080371952592 E 21, 39498267725174092 E 22, 73944841175806593 E 23, 12795857691392371 E 23, 20580002129281143 E 24, 30911482643527358 E 25, 43544040653296946 E 26, 57743185134298733 E 27, 72325167730010947 E 28, 85822175114406910 E 29, 96740415174008549 E 30, 10384404675230053 E 30, 10638777168327596 E 31, 10423797325057346 E 32, 97858525011187085 E 34, 88177829493763309 E 35, 76383635513309086 E 36, 63703373693717142 E 37, 51220167584825611 E 38, 39754858887650897 E 39, 29821350401436726 E 40, 21643925428534098 E 41, 15214925221021372 E 42, 10369421675101899 E 43, 68578954018609648 E 45, 44051070052803737 E 46, 27504764459937533 E 47, 16706383582476738 E 48, 98786897672302609 E 50, 56906446695405641 E 51, 31956294092655181 E 52, 17504819383800672 E 53, 93589146860710120 E 55, 48866149106429061 E 56, 24931148887932916 E 57, 12435240417819582 E 58, 60668052293746631 E 60, 28964555502855076 E 61, 13538573721806368 E 62, 61982388886413957 E 64, 27805807239730031 E 65, 12227839802580271 E 66, 52732631626495864 E 68, 22309336222806286 E 69, 92624808638345846 E 71, 37753022125366173 E 72, 15111399419054893 E 73, 59419080083200731 E 75, 22958858601667290 E 76, 87198303611151504 E 78, 32563045476887081 E 79, bnil.
Definition r446 := 11209263584699648 E 17, 86989732797174701 E 18, 53579362665040396 E 18, 26923182724259469 E 18, 11323246281673511 E 18, 40735826042905049 E 19, 12762936701946838 E 19, 35344410372304205 E 20, 87580316866066289 E 21, 19617783829964401 E 21, 40067983079219871 E 22, 75169314243933846 E 23, 13035385139625124 E 23, 21010118917750873 E 24, 31625485309433009 E 25, 44646255063074844 E 26, 59333492926888618 E 27, 74479168667741519 E 28, 88571482440089619 E 29, 10005845806716649 E 29, 10764182109529923 E 30, 11052144593801814 E 31, 10852700788243021 E 32, 10211016620235831 E 33, 92212421626778441 E 35, 80055499805016297 E 36, 66913709637868248 E 37, 53920808288583189 E 38, 41943932683515981 E 39, 31533378274437979 E 40, 22937397966306084 E 41, 16160078688928939 E 42, 11038098418672097 E 43, 73163953196069796 E 45, 47100965450843488 E 46, 29474655687250211 E 47, 17942837024338823 E 48, 10633499718887690 E 49, 61391308720523904 E 51, 34551800770334116 E 52, 18968852194999760 E 53, 10164319645562516 E 54, 53190074334103450 E 56, 27197855430687920 E 57, 13596172267187167 E 58, 66480278677656906 E 60, 31810474212326923 E 61, 14902079096623686 E 62, 68377481850455586 E 64, 30743357847473818 E 65, 13549918453835668 E 66, 58564936321287552 E 68, 24832263045050955 E 69, 10333049773707530 E 70, 42210897366950757 E 72, 16933601067105582 E 73, 66733276172300352 E 75, 25842754392706666 E 76, 98371348056709763 E 78, 36817794870261261 E 79, bnil.
Definition r447 := 11184216543174708 E 17, 86850862435871021 E 18, 53552996011699404 E 18, 26948182333299021 E 18, 11352263051275863 E 18, 40912768609315106 E 19, 12842439304153234 E 19, 35633925569678910 E 20, 88474615996568065 E 21, 19858613204248184 E 21, 40644032715757928 E 22, 76410119013371060 E 23, 13278640959025770 E 23, 21447892649048065 E 24, 32353801664774462 E 25, 45773049516753195 E 26, 60962862183601887 E 27, 76690964966452249 E 28, 91400818302407544 E 29, 10348066400746823 E 29, 11156752086432975 E 30, 11480386061814682 E 31, 11298025963137153 E 32, 10653442107258498 E 33, 96420168033131847 E 35, 83893486176933370 E 36, 70276769703335723 E 37, 56756236760910055 E 38, 44247391250681170 E 39, 33338885735688491 E 40, 24304542505209288 E 41, 17161296571606072 E 42, 11748022307991846 E 43, 78042656181684371 E 45, 50353484338931157 E 46, 31580116185777872 E 47, 19267339507817316 E 48, 11443868978983126 E 49, 66217059859061965 E 51, 37350837712944109 E 52, 20551222320992288 E 53, 11036773530706870 E 54, 57884445183125601 E 56, 29664267696403211 E 57, 14862214985761091 E 58, 72832937281575763 E 60, 34927977655062160 E 61, 16399048245315552 E 62, 75414270163325024 E 64, 33982907860236465 E 65, 15011181515031733 E 66, 65025689806804348 E 68, 27633304515299964 E 69, 11524295878427728 E 70, 47182390204483599 E 72, 18970302837780072 E 73, 74926781808228995 E 75, 29080590957076685 E 76, 11094377548142614 E 77, 41616166636285362 E 79, bnil.
Definition r448 := 11159280733775284 E 17, 86712369595784447 E 18, 53526488412004337 E 18, 26972985207386745 E 18, 11381199025462554 E 18, 41089693080200110 E 19, 12922118852348493 E 19, 35924731961531347 E 20, 89374877594290792 E 21, 20101578744120901 E 21, 41226463134208863 E 22, 77667414996048956 E 23, 13525670424873024 E 23, 21893434286772089 E 24, 33096672525591812 E 25, 46924894654523993 E 26, 62632131375602169 E 27, 78961931088846220 E 28, 94312271244106891 E 29, 10700999274186984 E 29, 11562507768541293 E 30, 11923993244160220 E 31, 11760353865536786 E 32, 11113779886657902 E 33, 10080800230192751 E 34, 87904634884583839 E 36, 73799383956645174 E 37, 59732797158847111 E 38, 46670887323910669 E 39, 35242712619294950 E 40, 25749347260706885 E 41, 18221746520742355 E 42, 12501621591294988 E 43, 83233051229537151 E 45, 53821519020459167 E 46, 33830095249067697 E 47, 20685913912424088 E 48, 12313731141235203 E 49, 71408653659794936 E 51, 40368793457955717 E 52, 22261162456050981 E 53, 11981669589925965 E 54, 62979956857800526 E 56, 32347418245059468 E 57, 16242589083236505 E 58, 79774753808379989 E 60, 38342215909329009 E 61, 18042167517466170 E 62, 83155325416365752 E 64, 37554648297703572 E 65, 16625886563685190 E 66, 72180821538301580 E 68, 30742326084609247 E 69, 12849477749863937 E 70, 52725208818140065 E 72, 21246140093258314 E 73, 84102783504513923 E 75, 32714789664391929 E 76, 12508682136504608 E 77, 47026048966959868 E 79, bnil.
Definition r449 := 11134455424860783 E 17, 86574253268405996 E 18, 53499841597111623 E 18, 26997592247123597 E 18, 11410054129435620 E 18, 41266596936891733 E 19, 13001974188385354 E 19, 36216828057092018 E 20, 90281114035906787 E 21, 20346690679959129 E 21, 41815320939862038 E 22, 78941362568066127 E 23, 13776519183582378 E 23, 22346855993446978 E 24, 33854341914877702 E 25, 48102268539678771 E 26, 64342154227098492 E 27, 81293469793598208 E 28, 97307977774582665 E 29, 11064947900445780 E 29, 11981853208219748 E 30, 12383472590213403 E 31, 12240284342739544 E 32, 11592703512924194 E 33, 10538311540241039 E 34, 92096264108804362 E 36, 77488668194219935 E 37, 62857114012604505 E 38, 49220336808972178 E 39, 37249935533468003 E 40, 27276005007216326 E 41, 19344766174869849 E 42, 13301460595128020 E 43, 88754177468489386 E 45, 57518745709779794 E 46, 36234107706833140 E 47, 22204978137999880 E 48, 13247287222306797 E 49, 76992800070940505 E 51, 43622176733473522 E 52, 24108599645480633 E 53, 13004819708307228 E 54, 68509761527416092 E 56, 35265744319768550 E 57, 17747297908953238 E 58, 87358709593979323 E 60, 42080597033160013 E 61, 19845293286837526 E 62, 91669143414688153 E 64, 41491702818039675 E 65, 18409711210622574 E 66, 80102990135875602 E 68, 34192315310363997 E 69, 14323272856556545 E 70, 58903380485351022 E 72, 23788507106084918 E 73, 94376280998585756 E 75, 36792734503184784 E 76, 14099218196549678 E 77, 53123612398337864 E 79, bnil.
Definition r450 := 11109739891065704 E 17, 86436512442530283 E 18, 53473057282303518 E 18, 27022004351081947 E 18, 11438828291731590 E 18, 41443477676187598 E 19, 13082004153301754 E 19, 36510212333158861 E 20, 91193337558213036 E 21, 20593959222783916 E 21, 42410652842365041 E 22, 80232122968022237 E 23, 14031233253758919 E 23, 22808271138060145 E 24, 34627057092283315 E 25, 49305656747756088 E 26, 66093799938469793 E 27, 83687012621153856 E 28, 10039012331279354 E 28, 11440223417458563 E 29, 12415203614860034 E 30, 12859345725275077 E 31, 12738436626384420 E 32, 12090909889066940 E 33, 11015296447005474 E 34, 96475980105425432 E 36, 81352035057255107 E 37, 66136103799162816 E 38, 51901930272277054 E 39, 39365878761190576 E 40, 28888922982717939 E 41, 20533871795070007 E 42, 14150246961991437 E 43, 94626183304606970 E 45, 61459669972175242 E 46, 38802268060495035 E 47, 23831369894977267 E 48, 14249023086522023 E 49, 82998084107234814 E 51, 47128694839619806 E 52, 26104205545776267 E 53, 14112485722255575 E 54, 74509658060438526 E 56, 38439199728294460 E 57, 19387191906922414 E 58, 95642401270138753 E 60, 46172983405469238 E 61, 21823556550235201 E 62, 10103068830600953 E 63, 45830404273163924 E 65, 20379890504883487 E 66, 88872251092095972 E 68, 38019699359315269 E 69, 15961925369359452 E 70, 65787925505000253 E 72, 26627858148291964 E 73, 10587540588008044 E 74, 41367338405085360 E 76, 15887440041789117 E 77, 59994296433669709 E 79, bnil.
Definition r451 := 11085133413234603 E 17, 86299146104384342 E 18, 53446137167123618 E 18, 27046222415777210 E 18, 11467521444187823 E 18, 41620332810343198 E 19, 13162207587382642 E 19, 36804883234309413 E 20, 92111560257905945 E 21, 20843394563847798 E 21, 43012505654207381 E 22, 81539858295300863 E 23, 14289859027235498 E 23, 23277794303591318 E 24, 35415068583936353 E 25, 50535552456349598 E 26, 67887953411735443 E 27, 86144020386020874 E 28, 10356094314532139 E 28, 11827144796596291 E 29, 12862985627813925 E 30, 13352149858363065 E 31, 13255449899769075 E 32, 12609120005690318 E 33, 11512528186563150 E 34, 10105168769488009 E 35, 85397205545668934 E 37, 69576986959282355 E 38, 54722144898317781 E 39, 41596125630864752 E 40, 30592733244150748 E 41, 21792767314420719 E 42, 15050839252092372 E 43, 10087038790176803 E 44, 65659674667845813 E 46, 41545326581773694 E 47, 25572372979857989 E 48, 15323727956446274 E 49, 89455092197901704 E 51, 50907337292328174 E 52, 28259450180573265 E 53, 15311412987951014 E 54, 81018295874079908 E 56, 41889375319535532 E 57, 21174037963221934 E 58, 10468842980709307 E 59, 50651904584534305 E 61, 23993476581393804 E 62, 11132198514597916 E 63, 50610596560165905 E 65, 22555367244424743 E 66, 98576788837749239 E 68, 42264693896657793 E 69, 17783408943278574 E 70, 73457601074467459 E 72, 29798040580236979 E 73, 11874288364031079 E 74, 46497672575948452 E 76, 17897352425601055 E 77, 67733910863684519 E 79, bnil.
Definition r452 := 11060635278357804 E 17, 86162153237754210 E 18, 53419082935511085 E 18, 27070247335640184 E 18, 11496133521909039 E 18, 41797159867062606 E 19, 13242583330221212 E 19, 37100839173113406 E 20, 93035794091366657 E 21, 21095006874224182 E 21, 43620926289199033 E 22, 82864731508302723 E 23, 14552443270096011 E 23, 23755541294531422 E 24, 36218630212370316 E 25, 51792456535577666 E 26, 69725515478385887 E 27, 88665983675610073 E 28, 10682272339975838 E 28, 12226039014716022 E 29, 13325637595095762 E 30, 13862438199641387 E 31, 13791983879974758 E 32, 13148079701165672 E 33, 12030808451487250 E 34, 10583160110206747 E 35, 89632220944237687 E 37, 73187300373564225 E 38, 57687756932548147 E 39, 43946530375804009 E 40, 32392303492783491 E 41, 23125353819794460 E 42, 16006254926466327 E 43, 10750934589377481 E 44, 70135070530680413 E 46, 44474707481580712 E 47, 27435745120630775 E 48, 16476514073894516 E 49, 96396546690774555 E 51, 54978465067881479 E 52, 30586659425602243 E 53, 16608866359427956 E 54, 88077393909331192 E 56, 45639628690891822 E 57, 23120594234917846 E 58, 11456482125269065 E 59, 55552788026598609 E 61, 26373084398114680 E 62, 12263276507438034 E 63, 55875964010945126 E 65, 24956956368193086 E 66, 10931371918623285 E 67, 46971686374553964 E 69, 19807605950348049 E 70, 81999722181365554 E 72, 33336663248845829 E 73, 13313765433272834 E 74, 52249665663704408 E 76, 20155806445393000 E 77, 76449864788931059 E 79, bnil.
Definition r453 := 11036244779507887 E 17, 86025532824109033 E 18, 53391896255933831 E 18, 27094080002989997 E 18, 11524664463234056 E 18, 41973956389488266 E 19, 13323130220779628 E 19, 37398078530345914 E 20, 93966050874455569 E 21, 21348806304398753 E 21, 44235961760943459 E 22, 84206906422628301 E 23, 14819033123683895 E 23, 24241629144390640 E 24, 37037999126563174 E 25, 53076877639213261 E 26, 71607403129582889 E 27, 91254423355682405 E 28, 11017780203360104 E 28, 12637241229398957 E 29, 13803609857954949 E 30, 14390780387681452 E 31, 14348719415135434 E 32, 13708560443434685 E 33, 12570968353652567 E 34, 11082425515707089 E 35, 94065455174399943 E 37, 76974910313706479 E 38, 60805854627955049 E 39, 46423230502134223 E 40, 34292748389504795 E 41, 24535739485398536 E 42, 17019678729491174 E 43, 11456691548846845 E 44, 74903149519013551 E 46, 47602549262003149 E 47, 29429747481440947 E 48, 17712837579584761 E 49, 10385744901585961 E 50, 59363905807306187 E 52, 33099076470748831 E 53, 18012668742417901 E 54, 95731975810946242 E 56, 49715223807678138 E 57, 25240690878298660 E 58, 12534548166089283 E 59, 60914209112686657 E 61, 28982056862224361 E 62, 13506116762449329 E 63, 61674390754509371 E 65, 27607524708872400 E 66, 12118996872322077 E 67, 52189657014255432 E 69, 22056504779426961 E 70, 91511067264604350 E 72, 37285503837828993 E 73, 14923666859959737 E 74, 58696880313520041 E 76, 22692828933681490 E 77, 86262537786400850 E 79, bnil.
Definition r454 := 11011961215776907 E 17, 85889283842722319 E 18, 53364578781520823 E 18, 27117721308007724 E 18, 11553114209702772 E 18, 42150719936189665 E 19, 13403847097449208 E 19, 37696599655201451 E 20, 94902342282317920 E 21, 21604802983863702 E 21, 44857659181306147 E 22, 85566547709212790 E 23, 15089676105595813 E 23, 24736176123195665 E 24, 37873435832085642 E 25, 54389332296476056 E 26, 73534549748744671 E 27, 93910891082462181 E 28, 11362856983884001 E 28, 13061094957423802 E 29, 14297365041421803 E 30, 14937762926754019 E 31, 14926359097195589 E 32, 14291360133989512 E 33, 13133869416680273 E 34, 11603851686762685 E 35, 98705627585626186 E 37, 80948025885621401 E 38, 64083851714211262 E 39, 49032659685395320 E 40, 36299441380767467 E 41, 26028249978262800 E 42, 18094471489617604 E 43, 12206833013186590 E 44, 79982241082329490 E 46, 50941747369996961 E 47, 31563175920651352 E 48, 19038520683505312 E 49, 11187523204126214 E 50, 64087055361744295 E 52, 35810927523124693 E 53, 19531242401083270 E 54, 10403062246585776 E 55, 54143481264083349 E 57, 27549317124873148 E 58, 13711068889147205 E 59, 66778162045048568 E 61, 31841862298055833 E 62, 14871450506385526 E 63, 68058352694695323 E 65, 30532187498220218 E 66, 13432323830233693 E 67, 57972641082098900 E 69, 24554416972937430 E 70, 10209887715822798 E 71, 41690959177865986 E 73, 16723687754242700 E 74, 65921375455707987 E 76, 25541989030333141 E 77, 97306809254733009 E 79, bnil.
Definition r455 := 10987783892214395 E 17, 85753405270791463 E 18, 53337132150193534 E 18, 27141172138710645 E 18, 11581482706023310 E 18, 42327448081150880 E 19, 13484732798110027 E 19, 37996400865508072 E 20, 95844679849198190 E 21, 21863007020713814 E 21, 45486065758877691 E 22, 86943820892410097 E 23, 15364420110660099 E 23, 25239301744974724 E 24, 38725204221355512 E 25, 55730345004484114 E 26, 75507905346522986 E 27, 96636969821468401 E 28, 11717747146242269 E 28, 13497952256521805 E 29, 14807378350929564 E 30, 15503989634351501 E 31, 15525627890505713 E 32, 14897303934585912 E 33, 13720404598839150 E 34, 12148359737452004 E 35, 10356181620064208 E 36, 85115212981602749 E 38, 67529501408934146 E 39, 51781561216876115 E 40, 38418027056730412 E 41, 27607439356719968 E 42, 19234179357968279 E 43, 13004027390814001 E 44, 85391771494914630 E 46, 54505999277499122 E 47, 33845394101496504 E 48, 20459775202115262 E 49, 12048992218564408 E 50, 69172986083194059 E 52, 38737492031807376 E 53, 21173653206442364 E 54, 11302574313231043 E 55, 58953939966785240 E 57, 30062715186395488 E 58, 14994762416549507 E 59, 73190353296486041 E 61, 34975918586419978 E 62, 16371009407071147 E 63, 75085344971606881 E 65, 33758523139093776 E 66, 14884305845367675 E 67, 64380236393324438 E 69, 27328216138954432 E 70, 11388195666232156 E 71, 46604542925773549 E 73, 18735743680807610 E 74, 74014663548044095 E 76, 28740806027231211 E 77, 10973376373527675 E 78, bnil.
Definition r456 := 10963712119766054 E 17, 85617896083554232 E 18, 53309557984795940 E 18, 27164433380927128 E 18, 11609769900039381 E 18, 42504138413757206 E 19, 13565786160190075 E 19, 38297480447942585 E 20, 96793074968265001 E 21, 22123428501245213 E 21, 46121228797432409 E 22, 88338892348028413 E 23, 15643313411900187 E 23, 25751126775230557 E 24, 39593571603998959 E 25, 57100448321367071 E 26, 77528436798187639 E 27, 99434274373127097 E 28, 12082700644278079 E 28, 13948173910462219 E 29, 15334137875118701 E 30, 16090082099145969 E 31, 16147273776613035 E 32, 15527245117259813 E 33, 14331499347242942 E 34, 12716906430139315 E 35, 10864347142923189 E 36, 89485408759290187 E 38, 71150910991260233 E 39, 54677002021496379 E 40, 40654434063993749 E 41, 29278101483804522 E 42, 20442543505327621 E 43, 13851096085946593 E 44, 91152326414860144 E 46, 58309852119074987 E 47, 36286368559867305 E 48, 21983227542773605 E 49, 12974431188442445 E 50, 74648562289666355 E 52, 41895177732693264 E 53, 22949658027704897 E 54, 12277386647602479 E 55, 64178531077474769 E 57, 32798481505319311 E 58, 16395094647875780 E 59, 80200519426851808 E 61, 38409764767854092 E 62, 18017616048912055 E 63, 82818348019249163 E 65, 37316807890851206 E 66, 16489194521468447 E 67, 71478160341357994 E 69, 30407600761007042 E 70, 12699188899494207 E 71, 52083435461715225 E 73, 20984214734577360 E 74, 83078772959933396 E 76, 32331203015210874 E 77, 12371259195816200 E 78, bnil.
Definition r457 := 10939745215213219 E 17, 85482755254403450 E 18, 53281857893224024 E 18, 27187505918272084 E 18, 11637975742697867 E 18, 42680788538780436 E 19, 13647006020723724 E 19, 38599836658245615 E 20, 97747538891444324 E 21, 22386077489556210 E 21, 46763195694381758 E 22, 89751929301316150 E 23, 15926404661482641 E 23, 26271773238400125 E 24, 40478808737315447 E 25, 58500182960038422 E 26, 79597128083426346 E 27, 10230445190521649 E 27, 12457973026260396 E 28, 14412129617515829 E 29, 15878144894929540 E 30, 16696680149589431 E 31, 16792068415610384 E 32, 16182065938227967 E 33, 14968112684201559 E 34, 13310485451075809 E 35, 11396043026576232 E 36, 94067936665731794 E 38, 74956556958625013 E 39, 57726387269842451 E 40, 43014888596191299 E 41, 31045281978402000 E 42, 21723510298942417 E 43, 14751021841825833 E 44, 97285716834522026 E 46, 62368753024916505 E 47, 38896705839356319 E 48, 23615945220287670 E 49, 13968414304176641 E 50, 80542563359861630 E 52, 45301600830751776 E 53, 24869755480927129 E 54, 13333595291916119 E 55, 69851765109393479 E 57, 35775675904670198 E 58, 17922341320863631 E 59, 87862771221844304 E 61, 42171247271682644 E 62, 19825282337929438 E 63, 91326335596076462 E 65, 41240272258615645 E 66, 18262666565673234 E 67, 79338861146448542 E 69, 33825383228820365 E 70, 14157437437458965 E 71, 58191091336192019 E 73, 23496215758066357 E 74, 93227426750004735 E 76, 36360011347436107 E 77, 13943270952284765 E 78, bnil.
Definition r458 := 10915882501112992 E 17, 85347981754998914 E 18, 53254033468554195 E 18, 27210390632123171 E 18, 11666100188016604 E 18, 42857396076363945 E 19, 13728391216409873 E 19, 38903467721437905 E 20, 98708082729265012 E 21, 22650964027150996 E 21, 47412013939224315 E 22, 91183099824900693 E 23, 16213742891650279 E 23, 26801364425301731 E 24, 41381189856847415 E 25, 59930097882629772 E 26, 81714980528576102 E 27, 10524918249220911 E 27, 12843825541805487 E 28, 14890198182346342 E 29, 16439914199092192 E 30, 17324442333368367 E 31, 17460807824414688 E 32, 16862678536268232 E 33, 15631238326606890 E 34, 13930128727832073 E 35, 11952293098602710 E 36, 98872522025435853 E 38, 78955300788361295 E 39, 60937475607797856 E 40, 45505928486618860 E 41, 32914290727930450 E 42, 23081241981495327 E 43, 15706957515324768 E 44, 10381504859663875 E 45, 66699102294046036 E 47, 41687691809582156 E 48, 25365464995213073 E 49, 15035830213720826 E 50, 86885814940066417 E 52, 48975671656967817 E 53, 26945240263423389 E 54, 14477772980319638 E 55, 76010933135842934 E 57, 39014939231558476 E 58, 19587655050007048 E 59, 96235966260623226 E 61, 46290721976582792 E 62, 21809316509117829 E 63, 10068482845114058 E 64, 45565381032863088 E 66, 20221962321108282 E 67, 88042188449256005 E 69, 37617807632557148 E 70, 15779070507222555 E 71, 64997910127950466 E 73, 26301895426709491 E 74, 10458735026104813 E 75, 40879531468153002 E 77, 15710611751320236 E 78, bnil.
Definition r459 := 10892123305739111 E 17, 85213574555377730 E 18, 53226086289170381 E 18, 27233088401597376 E 18, 11694143193052372 E 18, 43033958662005607 E 19, 13809940583669315 E 19, 39208371832036347 E 20, 99674717450710937 E 21, 22918098132545245 E 21, 48067731111990102 E 22, 92632572836676524 E 23, 16505377515639404 E 23, 27340024900567120 E 24, 42300992707050287 E 25, 61390750395582774 E 26, 83883013051290639 E 27, 10827017966156083 E 27, 13240525250460586 E 28, 15382767711377721 E 29, 17019974406121934 E 30, 17974046407925294 E 31, 18154313072350725 E 32, 17570025856184711 E 33, 16321905839252212 E 34, 14576907789803486 E 35, 12534162835944425 E 36, 10390930821188459 E 37, 83156405326449552 E 39, 64318395028052243 E 40, 48134417928006904 E 41, 34890714987311454 E 42, 24520127875585468 E 43, 16722235304009519 E 44, 11076479565872985 E 45, 71318309559938053 E 47, 44671333289983021 E 48, 27239822728520538 E 49, 16181902769458634 E 50, 93711328775123865 E 52, 52937686158439003 E 53, 29188261317263951 E 54, 15717005096829264 E 55, 82696323135680843 E 57, 42538620131577360 E 58, 21403137728464551 E 59, 10538411218142612 E 60, 50801273404351854 E 62, 23986439464123797 E 63, 11097649759786127 E 64, 50332139094895084 E 66, 22386037380016442 E 67, 97676128845137993 E 69, 41824899102519145 E 70, 17581939046369201 E 71, 72581977154381137 E 73, 29434767205140177 E 74, 11729972124732547 E 75, 45948156246015535 E 77, 17697003199174628 E 78, bnil.
Definition r460 := 10868466963023508 E 17, 85079532624061607 E 18, 53198017918890561 E 18, 27255600103528396 E 18, 11722104717869093 E 18, 43210473946540904 E 19, 13891652958701807 E 19, 39514547154270951 E 20, 10064745388308479 E 20, 23187489800874555 E 21, 48730394881681511 E 22, 94100518097646659 E 23, 16801358328581891 E 23, 27887880510059897 E 24, 43238498572064509 E 25, 62882706245401412 E 26, 86102262407661779 E 27, 11136919094701096 E 27, 13648345131969563 E 28, 15890235811688495 E 29, 17618868292932390 E 30, 18646189842266364 E 31, 18873430994426281 E 32, 18305082597979254 E 33, 17041181823008893 E 34, 15251935173065204 E 35, 13142760939312438 E 36, 10918887342260947 E 37, 87569551826527230 E 39, 67877659408666265 E 40, 50907562845528581 E 41, 36980433090012712 E 42, 26044796138071459 E 43, 17800376447695724 E 44, 11816087729724821 E 45, 76244853108504934 E 47, 47860402107768087 E 48, 29247585052502475 E 49, 17412213086189992 E 50, 10105445170620523 E 51, 57209423602569999 E 53, 31611884081024903 E 54, 17058928245986053 E 55, 89951452572418309 E 57, 46370911637368780 E 58, 23381918707438045 E 59, 11537680308917840 E 60, 55738952451977531 E 62, 26374911226823418 E 63, 12229182150208798 E 64, 55584425287099651 E 66, 24775728476049589 E 67, 10833761246689079 E 68, 46490847737558766 E 70, 19585794691711361 E 71, 81029881112304562 E 73, 32932075481355238 E 74, 13152177767101068 E 75, 51631063602592516 E 77, 19928981224271314 E 78, bnil.
Definition r461 := 10844912812498564 E 17, 84945854928162812 E 18, 53169829907092257 E 18, 27277926612444530 E 18, 11749984725506223 E 18, 43386939596124210 E 19, 13973527177542420 E 19, 39821991822301911 E 20, 10162630271188004 E 20, 23459149003505040 E 21, 49400053004709701 E 22, 95587106209714439 E 23, 17101735508391510 E 23, 28445058388278238 E 24, 44193992306585614 E 25, 64406539715062181 E 26, 88373783441800028 E 27, 11454799844894573 E 27, 14067564198239037 E 28, 16413009793482259 E 29, 18237153130177455 E 30, 19341590330274892 E 31, 19619034922688774 E 32, 19068856192360942 E 33, 17790171138803302 E 34, 15956365870884892 E 35, 13779240962478723 E 36, 11472224807854612 E 37, 92204857663028721 E 39, 71624185744773100 E 40, 53832926950133808 E 41, 39189628797997203 E 42, 27660126089685715 E 43, 18945101427548746 E 44, 12603073945217213 E 45, 81498342516474229 E 47, 51268481725525631 E 48, 31397882963314956 E 49, 18732722989395914 E 50, 10895302441071606 E 51, 61814250900101891 E 53, 34230157105764205 E 54, 18511771618804899 E 55, 97823318379896397 E 57, 50537998303853281 E 58, 25538239198006256 E 59, 12628969173682397 E 60, 61143034178417218 E 62, 28994668368655804 E 63, 13472980185297480 E 64, 61370356845595885 E 66, 27413934960847696 E 67, 12013339728107711 E 68, 51664430450533670 E 70, 21812486877545313 E 71, 90437616424404255 E 73, 36835200519566783 E 74, 14742859986956078 E 75, 58000985945339733 E 77, 22436222086781746 E 78, bnil.
Definition r462 := 10821460199240007 E 17, 84812540433487363 E 18, 53141523788836839 E 18, 27300068800547046 E 18, 11777783181947386 E 18, 43563353292209684 E 19, 14055562076117445 E 19, 40130703940437299 E 20, 10261127448066331 E 20, 23733085687646694 E 21, 50076753323327258 E 22, 97092508613429013 E 23, 17406559616634767 E 23, 29011686965742555 E 24, 45167762366833308 E 25, 65962833721083659 E 26, 90698649337890675 E 27, 11780841940188838 E 27, 14498467607025029 E 28, 16951506876186323 E 29, 18875401024437275 E 30, 20060986315756758 E 31, 20392025436063664 E 32, 19862387803241656 E 33, 18570018168361883 E 34, 16691398831238248 E 35, 14444802998201070 E 36, 12052093286904656 E 37, 97072894743149945 E 39, 75567312100446870 E 40, 56918448500352275 E 41, 41524806318517810 E 42, 29371261146433956 E 43, 20160340686831859 E 44, 13440344042238953 E 45, 87099584786674724 E 47, 54910016581152643 E 48, 33700447446374864 E 49, 20149799937528404 E 50, 11744755049418698 E 51, 66777233976955719 E 53, 37058183329062517 E 54, 20084401348841776 E 55, 10636266560902222 E 56, 55068214675261793 E 58, 27887543373435144 E 59, 13820500031379137 E 60, 67056297282326794 E 62, 31867473324927690 E 63, 14839874297649087 E 64, 67742687108196922 E 66, 30325817285689462 E 67, 13318103836980492 E 68, 57399474370146673 E 70, 24286179825310067 E 71, 10091157883072750 E 72, 41190106239191674 E 74, 16521508551836435 E 75, 65139064707067567 E 77, 25251905241406271 E 78, bnil.
Definition r463 := 10798108473810533 E 17, 84679588104636508 E 18, 53113101084993099 E 18, 27322027537689315 E 18, 11805500056089184 E 18, 43739712731530990 E 19, 14137756490299775 E 19, 40440681583350855 E 20, 10360237959096520 E 20, 24009309775968969 E 21, 50760543764056780 E 22, 98616897585681426 E 23, 17715881599385890 E 23, 29587895976366616 E 24, 46160100841616003 E 25, 67552179911252290 E 26, 93077951874730744 E 27, 12115230674916758 E 27, 14941346777358545 E 28, 17506154398228510 E 29, 19534199267362134 E 30, 20805137529444242 E 31, 21193331129079379 E 32, 20686753357876367 E 33, 19381908112712719 E 34, 17458278502704813 E 35, 15140695422577786 E 36, 12659691746457713 E 37, 10218470864313997 E 38, 79716816308731489 E 40, 60172457801778299 E 41, 43992806016828473 E 42, 31183622380433106 E 43, 21450245898501907 E 44, 14330974113228562 E 45, 93070654165611660 E 47, 58800364290276213 E 48, 36165647251948067 E 49, 21670243506876904 E 50, 12658137658043451 E 51, 72125256651580174 E 53, 40112196319921636 E 54, 21786368066235401 E 55, 11562427607693736 E 56, 59992215925358094 E 58, 30446576685375850 E 59, 15121207289152031 E 60, 73525327035920717 E 62, 35017076598101011 E 63, 16341710037432573 E 64, 74759239443893745 E 66, 33539014034575353 E 67, 14760995013003158 E 68, 63755365777691146 E 70, 27033591376902211 E 71, 11256966360175000 E 72, 46047835229956906 E 74, 18509813770830617 E 75, 73135799168116786 E 77, 28413117116438781 E 78, bnil.
Definition r464 := 10774856992204043 E 17, 84546996905106031 E 18, 53084563302359798 E 18, 27343803691356285 E 18, 11833135319710218 E 18, 43916015626080203 E 19, 14220109255963752 E 19, 40751922796300396 E 20, 10459962830218126 E 20, 24287831166219116 E 21, 51451472336115915 E 22, 10016044623735442 E 22, 18029752788066081 E 23, 30173816464812073 E 24, 47171303483491215 E 25, 69175178763006160 E 26, 95512801682762513 E 27, 12458154972482725 E 27, 15396499506730425 E 28, 18077390030544972 E 29, 20214150691891848 E 30, 21574825538191407 E 31, 22023909399893595 E 32, 21543064605323288 E 33, 20227068329457269 E 34, 18258296430160096 E 35, 15868216699682038 E 36, 13296269991982996 E 37, 10755183849529566 E 38, 84082935448839158 E 40, 63603695474580039 E 41, 46600820855073021 E 42, 33102922739036987 E 43, 22819201806000174 E 44, 15278220020051066 E 45, 99434965838033426 E 47, 62955850869238342 E 48, 38804528944713538 E 49, 23301313532638586 E 50, 13640088408484802 E 51, 77887147502827219 E 53, 43409641827455776 E 54, 23627957871455776 E 55, 12566727845271136 E 56, 65343161572395464 E 58, 33233491945283901 E 59, 16540797280850648 E 60, 80600843578922272 E 62, 38469392924754305 E 63, 17991440432814450 E 64, 82483380602782880 E 66, 37083879191448839 E 67, 16356257004085799 E 68, 70797608927102076 E 70, 30084255810093738 E 71, 12554247666636747 E 72, 51465055854965113 E 74, 20731908854297741 E 75, 82092099701289438 E 77, 31961300308824028 E 78, bnil.
Definition r465 := 10751705115790557 E 17, 84414765797383565 E 18, 53055911933787149 E 18, 27365398126644680 E 18, 11860688947440325 E 18, 44092259703085628 E 19, 14302619209039401 E 19, 41064425595346219 E 20, 10560303073148119 E 20, 24568659730842784 E 21, 52149587129838518 E 22, 10172332851092396 E 22, 18348224900266707 E 23, 30769580793825668 E 24, 48201669740018728 E 25, 70832439682473978 E 26, 98004328503609711 E 27, 12809807444283149 E 27, 15864230090054506 E 28, 18665661993870479 E 29, 20915874035668553 E 30, 22370854306595298 E 31, 22884747258041409 E 32, 22432470203911614 E 33, 21106769709848835 E 34, 19092792901715202 E 35, 16628717248377180 E 36, 13963130679066897 E 37, 11318633765290174 E 38, 88676386130557395 E 40, 67221331520526368 E 41, 49356413588835563 E 42, 35135181952334362 E 43, 24271838664777434 E 44, 16285527405289357 E 45, 10621735370291740 E 46, 67393829144989730 E 48, 41628859357861622 E 49, 25050760005164088 E 50, 14695569339636884 E 51, 84093815243356568 E 53, 46969264987677626 E 54, 25620246965246811 E 55, 13655548131247896 E 56, 71156913234612106 E 58, 36267963762999617 E 59, 18089812852686892 E 60, 88338057625835870 E 62, 42252692569883762 E 63, 19803226500313131 E 64, 90984536959019968 E 66, 40993741472232069 E 67, 18119563343067097 E 68, 78598439499920208 E 70, 33470812977922202 E 71, 13997466995208877 E 72, 57504666778449468 E 74, 23214638295339574 E 75, 92120456641927326 E 77, 35942753177232238 E 78, bnil.
Definition r466 := 10728652211261770 E 17, 84282893743043721 E 18, 53027148458297708 E 18, 27386811706243620 E 18, 11888160916730036 E 18, 44268442704989168 E 19, 14385285185566294 E 19, 41378187967570148 E 20, 10661259685372816 E 20, 24851805316607365 E 21, 52854936315092759 E 22, 10330571917801429 E 22, 18671350040556816 E 23, 31375322651558804 E 24, 49251502785106792 E 25, 72524581104170453 E 26, 10055368145213062 E 26, 13170384449362543 E 27, 16344849440429134 E 28, 19271429279864511 E 29, 21640004311762644 E 30, 23194050771282584 E 31, 23776862152334791 E 32, 23356156838419596 E 33, 22022328096738815 E 34, 19963158648393821 E 35, 17423601373269096 E 36, 14661631398905897 E 37, 11910079516127439 E 38, 93508385616980138 E 40, 71034985222227150 E 41, 52267534754111753 E 42, 37286742160393748 E 43, 25813045313337780 E 44, 17356542233298253 E 45, 11344415244551328 E 46, 72132740526934842 E 48, 44651170589416731 E 49, 26926854825989429 E 50, 15829888123677644 E 51, 90778393145337369 E 53, 50811203565368706 E 54, 27775160186950510 E 55, 14835773080232444 E 56, 77472247460748414 E 58, 39571311977921397 E 59, 19779703176030546 E 60, 96797055800352035 E 62, 46397809005978817 E 63, 21792546601848886 E 64, 10033875741571635 E 65, 45305187712936695 E 67, 20068156952584280 E 68, 87237497886276922 E 70, 37229326336139012 E 71, 15602641333378439 E 72, 64236464786961899 E 74, 25987854994964723 E 75, 10334623715625179 E 76, 40409185347859109 E 78, bnil.
Definition r467 := 10705697650577230 E 17, 84151379702841783 E 18, 52998274341205825 E 18, 27408045290415847 E 18, 11915551207820195 E 18, 44444562389422317 E 19, 14468106021746756 E 19, 41693207871294427 E 20, 10762833650140625 E 20, 25137277744227862 E 21, 53567568139695495 E 22, 10490779383690563 E 22, 18999180701274315 E 23, 31991177058868550 E 24, 50321109550448370 E 25, 74252230591345624 E 26, 10316202928099609 E 26, 13540086154810867 E 27, 16838675211716663 E 28, 19895161876126079 E 29, 22387193186833240 E 30, 24045265428104080 E 31, 24701302819350107 E 32, 24315350367680400 E 33, 22975105744477019 E 34, 20870836598074763 E 35, 18254329261806999 E 36, 15393186840087237 E 37, 12530835806399708 E 38, 98590673817786201 E 40, 75054745908524937 E 41, 55342541478782492 E 42, 39564284292969681 E 43, 27447982903883402 E 44, 18495121887571718 E 45, 12114328413076434 E 46, 77192180324895077 E 48, 47884807685974988 E 49, 28938425534209103 E 50, 17048721201137330 E 51, 97976393098851107 E 53, 54957087632101114 E 54, 30105533730100228 E 55, 16114829465955888 E 56, 84331084743441010 E 58, 43166634764770663 E 59, 21622899196074892 E 60, 10604321798339317 E 61, 50938364335374263 E 63, 23976315402911171 E 64, 11062932706150163 E 65, 50058372479337327 E 67, 22221002998678381 E 68, 96802567961944053 E 70, 41399632665492507 E 71, 17387501679031177 E 72, 71737882356316880 E 74, 29084749130086067 E 75, 11590912377089797 E 76, 45418335235820285 E 78, bnil.
Definition r468 := 10682840810911151 E 17, 84020222636804837 E 18, 52969291034236601 E 18, 27429099736979417 E 18, 11942859803711840 E 18, 44620616529181863 E 19, 14551080553998617 E 19, 42009483236301448 E 20, 10865025936455827 E 20, 25425086807995320 E 21, 54287530927823883 E 22, 10652972890999607 E 22, 19331769763301310 E 23, 32617280376600103 E 24, 51410800757047395 E 25, 76016024936988562 E 26, 10583056064780404 E 26, 13919116596907927 E 27, 17346031922961082 E 28, 20537340995151155 E 29, 23158109366845649 E 30, 24925372932483629 E 31, 25659150152948170 E 32, 25311317003347560 E 33, 23966512821876747 E 34, 21817323685267042 E 35, 19122419049600400 E 36, 16159271029222121 E 37, 13182275457439835 E 38, 10393553618642537 E 39, 79291194621256023 E 41, 58590217154038673 E 42, 41974845235775130 E 43, 29182099323991541 E 44, 19705346852226802 E 45, 12934434955459870 E 46, 82592966806919025 E 48, 51343979166928663 E 49, 31094891120005779 E 50, 18358138401317231 E 51, 10572586991899237 E 52, 59430146107014280 E 54, 32625182321922476 E 55, 17500727446273241 E 56, 91778735901703917 E 58, 47078952145788637 E 59, 23632895155937100 E 60, 11614766924697330 E 61, 55911013923278782 E 63, 26373013248524361 E 64, 12194743601567478 E 65, 55297356252673300 E 67, 24598956214167770 E 68, 10739038755327243 E 69, 46025726560601019 E 71, 19371671768467387 E 72, 80094802056591476 E 74, 32542212068147729 E 75, 12996470964725394 E 76, 51034656334255240 E 78, bnil.
Definition r469 := 10660081074599857 E 17, 83889421504321535 E 18, 52940199975643643 E 18, 27449975901289961 E 18, 11970086690136243 E 18, 44796602912204088 E 19, 14634207619007408 E 19, 42327011964052986 E 20, 10967837499073083 E 20, 25715242275407730 E 21, 55014873078423433 E 22, 10817170164121561 E 22, 19669170496823000 E 23, 33253770312849423 E 24, 52520890946831940 E 25, 77816610265483133 E 26, 10856048438473911 E 26, 14307683743020551 E 27, 17867251084663424 E 28, 21198459307286780 E 29, 23953438990470062 E 30, 25835272713171142 E 31, 26651518095279598 E 32, 26345364520567281 E 33, 24998008959381866 E 34, 22804172718325656 E 35, 20029448956078870 E 36, 16961419653075959 E 37, 13865831814331541 E 38, 10955582755576004 E 39, 83755426719933012 E 41, 62019792002631802 E 42, 44525835818876235 E 43, 31021144342166299 E 44, 20991533006721732 E 45, 13807872460130083 E 46, 88357214200723250 E 48, 55043810550547404 E 49, 33406300048757413 E 50, 19764629139345265 E 51, 11406759655536954 E 52, 64255320614060709 E 54, 35348971172272534 E 55, 19002104810833092 E 56, 99864167102415326 E 58, 51335360694566981 E 59, 25824336668841500 E 60, 12718776914568582 E 61, 61355711826229600 E 63, 29002826840930193 E 64, 13439290827463489 E 65, 61070474750816030 E 67, 27224944022014721 E 68, 11910753735024403 E 69, 51156183046456823 E 71, 21576864952357576 E 72, 89402455589205360 E 74, 36401238966954480 E 75, 14568626724874947 E 76, 57330079739803257 E 78, bnil.
Definition r470 := 10637417829089822 E 17, 83758975264229790 E 18, 52911002590326016 E 18, 27470674636223404 E 18, 11997231855525198 E 18, 44972519341538852 E 19, 14717486053778068 E 19, 42645791927910150 E 20, 11071269278492946 E 20, 26007753886803685 E 21, 55749643063613213 E 22, 10983389009339521 E 22, 20011436562070433 E 23, 33900785930206058 E 24, 53651698514354296 E 25, 79654642134915544 E 26, 11135302977078832 E 26, 14705999554258445 E 27, 18402671326935428 E 28, 21879021177736680 E 29, 24773886030287471 E 30, 26775889599654297 E 31, 27679554549736274 E 32, 27418843501320273 E 33, 26071104841598919 E 34, 23832994305756667 E 35, 20977059492680198 E 36, 17801232464919545 E 37, 14583001245520470 E 38, 11546499694792122 E 39, 88459075462272423 E 41, 65640964582295203 E 42, 47225059664268240 E 43, 32971185511572981 E 44, 22358244564292200 E 45, 14737966186741399 E 46, 94508409853068651 E 48, 59000401051999544 E 49, 35883370626095051 E 50, 21275130286509884 E 51, 12304525089758889 E 52, 69459387138173629 E 54, 38292893017596528 E 55, 20628274464800825 E 56, 10864028488008655 E 57, 55965200273804505 E 59, 28213115846508181 E 60, 13924764135217995 E 61, 67315998727113193 E 63, 31887802175481988 E 64, 14807499577879451 E 65, 67430742166570806 E 67, 30124166907556442 E 68, 13207141564683962 E 69, 56844621999316295 E 71, 24027101012747386 E 72, 99766416019294079 E 74, 40707374066039559 E 75, 16326670877168355 E 76, 64384861173700145 E 78, bnil.
Definition r471 := 10614850466886315 E 17, 83628882874902638 E 18, 52881700289944281 E 18, 27491196792159254 E 18, 12024295290981474 E 18, 45148363635322368 E 19, 14800914695686069 E 19, 42965820973353363 E 20, 11175322200958240 E 20, 26302631354998646 E 21, 56491889427088700 E 22, 11151647314558943 E 22, 20358622010046990 E 23, 34558467652975698 E 24, 54803545738575844 E 25, 81530785640033893 E 26, 11420944680652427 E 26, 15114280048894587 E 27, 18952638529551899 E 28, 22579542907673980 E 29, 25620172701930304 E 30, 27748174463486757 E 31, 28744442316318810 E 32, 28533148611212076 E 33, 27187363846385581 E 34, 24905458843303571 E 35, 21966955745815140 E 36, 18680375777909550 E 37, 15335345738572221 E 38, 12167711339540600 E 39, 93414336599920944 E 41, 69463924264216646 E 42, 50080732931259611 E 43, 35038624867794178 E 44, 23810307686022144 E 45, 15728239782545934 E 46, 10107149577244091 E 47, 63230883632567588 E 49, 38537533841617067 E 50, 22897055816174476 E 51, 13270561491253495 E 52, 75071085993308080 E 54, 41474150606852673 E 55, 22389275376503992 E 56, 11816424260961563 E 57, 61000233710382477 E 59, 30816474029916240 E 60, 15241874685358979 E 61, 73839314224037129 E 63, 35052010769595378 E 64, 16311324335896611 E 65, 74436291345723478 E 67, 33324317617387308 E 68, 14641130696192705 E 69, 63150218393258975 E 71, 26748944886491763 E 72, 11130369260961949 E 73, 45511203079849814 E 75, 18292075860616747 E 76, 72288521629871952 E 78, bnil.
Definition r472 := 10592378385502643 E 17, 83499143294332404 E 18, 52852294473035487 E 18, 27511543216964272 E 18, 12051276990249512 E 18, 45324133626749464 E 19, 14884492382528144 E 19, 43287096918202545 E 20, 11279997178451300 E 20, 26599884364923734 E 21, 57241660782521576 E 22, 11321963049035363 E 22, 20710781283238445 E 23, 35226957274381452 E 24, 55976758814735183 E 25, 83445715515855861 E 26, 11713100649146219 E 26, 15532745366555729 E 27, 19517505953921597 E 28, 23300552979516205 E 29, 26493039881286188 E 30, 28753104873794337 E 31, 29847400049896331 E 32, 29689719910505083 E 33, 28348403731711125 E 34, 26023298563547851 E 35, 23000909736917331 E 36, 19600585048389524 E 37, 16124495595496003 E 38, 12820689281172644 E 39, 98633994030194448 E 41, 73499374728019366 E 42, 53101504999912654 E 43, 37230216458035955 E 44, 25352824803954628 E 45, 16782426581415183 E 46, 10807295479197232 E 47, 67753488588935787 E 49, 41380978836679684 E 50, 24638328333542891 E 51, 14309878689390819 E 52, 81121260647625843 E 54, 44911244998991771 E 55, 24295927232286792 E 56, 12849776998855795 E 57, 66474840376495636 E 59, 33653112709393535 E 60, 16680050417361433 E 61, 80977335466917958 E 63, 38521730304137771 E 64, 17963843069679227 E 65, 82150854188568180 E 67, 36855820902698644 E 68, 16226955332753770 E 69, 70138262769540651 E 71, 29771769448838391 E 72, 12414393858592690 E 73, 50868897546567366 E 75, 20488736018014541 E 76, 81140891743193166 E 78, bnil.
Definition r473 := 10570000987409987 E 17, 83369755480213012 E 18, 52822786525127549 E 18, 27531714755976735 E 18, 12078176949686298 E 18, 45499827164044975 E 19, 14968217952572365 E 19, 43609617552837284 E 20, 11385295108692057 E 20, 26899522573267314 E 21, 57999005811956778 E 22, 11494354263097506 E 22, 21067969216306456 E 23, 35906397963743580 E 24, 57171667886297931 E 25, 85400116241925798 E 26, 12011900110400313 E 26, 15961619833189010 E 27, 20097634376997416 E 28, 24042592306418909 E 29, 27393247529895534 E 30, 29791685767224775 E 31, 30989683241845273 E 32, 30890044200203072 E 33, 29555898371535688 E 34, 27188309649802628 E 35, 24080762861953297 E 36, 20563667552091822 E 37, 16952152231165758 E 38, 13506972595127229 E 39, 10413144654617932 E 40, 77758558516359838 E 42, 56296480134482886 E 43, 39553084740873390 E 44, 26991189688209292 E 45, 17904481515585050 E 46, 11554090160170884 E 47, 72587610881559531 E 49, 44426701149820026 E 50, 26507412603855189 E 51, 15427840765175821 E 52, 87643005985386655 E 54, 48624070065696674 E 55, 26359889058289309 E 56, 13970752719416194 E 57, 72426224715490687 E 59, 36743313264710768 E 60, 18250096035113027 E 61, 88786344293489692 E 63, 42325640887869877 E 64, 19779359794811225 E 65, 90644285841655498 E 67, 40752095676961389 E 68, 17980283782996899 E 69, 77880776735839529 E 71, 33128044716765825 E 72, 13843078317556040 E 73, 56842816473349711 E 75, 22943234183501267 E 76, 91053271031575569 E 78, bnil.
Definition r474 := 10547717679987817 E 17, 83240718390020937 E 18, 52793177818852260 E 18, 27551712251991125 E 18, 12104995168232453 E 18, 45675442110434325 E 19, 15052090244607760 E 19, 43933380640417231 E 20, 11491216875137020 E 20, 27201555608118981 E 21, 58763973264207348 E 22, 11668839087865913 E 22, 21430241036765612 E 23, 36596934273636990 E 24, 58388607076986606 E 25, 87394682147218169 E 26, 12317474448397146 E 26, 16401132026810220 E 27, 20693392227146459 E 28, 24806214486044881 E 29, 28321575128674882 E 30, 30864950132610990 E 31, 32172585225561297 E 32, 32135656404015042 E 33, 30811579541981048 E 34, 28402354416121933 E 35, 25208428412831871 E 36, 21571505156309620 E 37, 17820091078484272 E 38, 14228170749942288 E 39, 10992073572911000 E 40, 82253282693951904 E 42, 59675240170553496 E 43, 42014743897351470 E 44, 28731103294696989 E 45, 19098593671664875 E 46, 12350517891205435 E 47, 77753881411758182 E 49, 47688553901927561 E 50, 28513351200244690 E 51, 16630190151972129 E 52, 94671826621440248 E 54, 52634013618674567 E 55, 28593722086352236 E 56, 15186548549639906 E 57, 78894640825815731 E 59, 40109066202714642 E 60, 19963751669208874 E 61, 97327625186315793 E 63, 46495038253954245 E 64, 21773516223413999 E 65, 99993136553096696 E 67, 45049841622953441 E 68, 19918359085806211 E 69, 86457188749552964 E 71, 36853656056678433 E 72, 15432330036937114 E 73, 63502171153235068 E 75, 25685136890631494 E 76, 10214971433455341 E 77, bnil.
Definition r475 := 10525527875474867 E 17, 83112030981093710 E 18, 52763469714057896 E 18, 27571536545243313 E 18, 12131731647383535 E 18, 45850976344113514 E 19, 15136108097993492 E 19, 44258383917102680 E 20, 11597763346979111 E 20, 27505993068616596 E 21, 59536611953247340 E 22, 11845435734967126 E 22, 21797652365644041 E 23, 37298712147026619 E 24, 59627914522890080 E 25, 89430117515688552 E 26, 12629957231775802 E 26, 16851514844040008 E 27, 21305155722000909 E 28, 25591986058666562 E 29, 29278822120100400 E 30, 31973959710622136 E 31, 33397438206349036 E 32, 33428140987042718 E 33, 32117238759097231 E 34, 29667363555295835 E 35, 26385894183221349 E 36, 22626057191201588 E 37, 18730164604055179 E 38, 14985966633538368 E 39, 11601657502857966 E 40, 86995945657597229 E 42, 63247868271388337 E 43, 44623118096057883 E 44, 30578590431722545 E 45, 20369199523988747 E 46, 13199745902359140 E 47, 83274242468356667 E 49, 51181302092300980 E 50, 30665802399513213 E 51, 17923073311056140 E 52, 10224580592274550 E 53, 56964065607993757 E 55, 31010957159869933 E 56, 16504933623199341 E 57, 85923634296429319 E 59, 43774210620252817 E 60, 21833771361848793 E 61, 10666789655524660 E 62, 51064065303696089 E 64, 23963413280635734 E 65, 11028127539691128 E 66, 49789352463395374 E 68, 22060153045838863 E 69, 95955075926749394 E 71, 40988254226912140 E 72, 17199762807049467 E 73, 70923759615481793 E 75, 28747321195983457 E 76, 11456845905939670 E 77, bnil.
Definition r476 := 10503430990920690 E 17, 82983692210707644 E 18, 52733663557920564 E 18, 27591188473396144 E 18, 12158386391161524 E 18, 46026427758218301 E 19, 15220270352707403 E 19, 44584625092275069 E 20, 11704935379148340 E 20, 27812844524595717 E 21, 60316970756601756 E 22, 12024162496243299 E 22, 22170259218127070 E 23, 38011878924379090 E 24, 60889932404649297 E 25, 91507136692467600 E 26, 12949484242607497 E 26, 17313005567433181 E 27, 21933309008309793 E 28, 26400486769658187 E 29, 30265808358985320 E 30, 33119805708678820 E 31, 34665614316199482 E 32, 34769133412050790 E 33, 33474729169555226 E 34, 30985338456745626 E 35, 27615225161349295 E 36, 23729363423484028 E 37, 19684305438247083 E 38, 15782119701167083 E 39, 12243438007780668 E 40, 91999565145624759 E 42, 67024973800916528 E 43, 47386562756652388 E 44, 32540017285533032 E 45, 21720996879991155 E 46, 14105135109245753 E 47, 89172027576431237 E 49, 54920680186213759 E 50, 32975080461485888 E 51, 19313068080648868 E 52, 11040578643214762 E 53, 61638933866829377 E 55, 33626166995226211 E 56, 17934293017644013 E 57, 93560302572458917 E 59, 47764584673934372 E 60, 23874007926781718 E 61, 11687977804648648 E 62, 56069963527128773 E 64, 26367743334047371 E 65, 12160057043159076 E 66, 55014858304005664 E 68, 24426534922530315 E 69, 10647097814968717 E 70, 45575640354056774 E 72, 19164875262204670 E 73, 79192777814557898 E 75, 32166336418628450 E 76, 12846350826530219 E 77, bnil.
Definition r477 := 10481426448137764 E 17, 82855701036153251 E 18, 52703760685054842 E 18, 27610668871525548 E 18, 12184959406086538 E 18, 46201794260792529 E 19, 15304575849394086 E 19, 44912101848757548 E 20, 11812733812313308 E 20, 28122119516241748 E 21, 61105098613735181 E 22, 12205037743457429 E 22, 22548118004184459 E 23, 38736583350750825 E 24, 62175006979718999 E 25, 93626464190699337 E 26, 13276193505433483 E 26, 17785845933607389 E 27, 22578244303813292 E 28, 27232309836437319 E 29, 31283374571989643 E 30, 34303609531415745 E 31, 35978526693978218 E 32, 36160321634198837 E 33, 34885967495629723 E 34, 32358353596284466 E 35, 28898566312433232 E 36, 24883547135865066 E 37, 20684529623661734 E 38, 16618469249571038 E 39, 12919030029293919 E 40, 97277807497050354 E 42, 71017718362736891 E 43, 50313886858293483 E 44, 34622109846721969 E 45, 23158959573971691 E 46, 15070251439514791 E 47, 95472045993060014 E 49, 58923453184613809 E 50, 35452198435431045 E 51, 20807212802987776 E 52, 11919556243292463 E 53, 66685167908662922 E 55, 36455043635545541 E 56, 19483674949185031 E 57, 10185557522126281 E 58, 52108187895908364 E 60, 26099504685030431 E 61, 12804229679113105 E 62, 61553345953477839 E 64, 29006934051664197 E 65, 13405163024758983 E 66, 60774899668927178 E 68, 27040456127211476 E 69, 11811129132490438 E 70, 50664189235430779 E 72, 21349247515990736 E 73, 88403715368815799 E 75, 35982804431382308 E 76, 14400638617998235 E 77, bnil.
Definition r478 := 10459513673654161 E 17, 82728056414809500 E 18, 52673762417623532 E 18, 27629978572107080 E 18, 12211450701148714 E 18, 46377073774756094 E 19, 15389023429412546 E 19, 45240811843035727 E 20, 11921159472883577 E 20, 28433827553744926 E 21, 61901044524437859 E 22, 12388079927994116 E 22, 22931285529180628 E 23, 39472975582852060 E 24, 63483488614703319 E 25, 95788834799020503 E 26, 13610225316565983 E 26, 18270282202176555 E 27, 23240362041160028 E 28, 28088062219913385 E 29, 32332382825999145 E 30, 35526523526976647 E 31, 37337630591553189 E 32, 37603447635129777 E 33, 36352936035863658 E 34, 33788558999755474 E 35, 30238145453460745 E 36, 26090818315673582 E 37, 21732939986144811 E 38, 17496937822056606 E 39, 13630125180717004 E 40, 10284501821272520 E 41, 75237843056570222 E 43, 53414376341426575 E 44, 36831973281323915 E 45, 24688352947367490 E 46, 16098877791197348 E 47, 10220067210792113 E 48, 63207481377093403 E 50, 38108913645271209 E 51, 22413037340246998 E 52, 12866208543842462 E 53, 72131291315538392 E 55, 39514481455929678 E 56, 21162841457857881 E 57, 11086451556665307 E 58, 56835356256559091 E 60, 28526594615110033 E 61, 14024143573370117 E 62, 67558493417557739 E 64, 31903304880121476 E 65, 14774461228012638 E 66, 67122736077530143 E 68, 29927152404543958 E 69, 13099324727481491 E 70, 56307314680324140 E 72, 23776757782792506 E 73, 98661344433875931 E 75, 40241862508562694 E 76, 16138808446514706 E 77, bnil.
Definition r479 := 10437692098666740 E 17, 82600757304216246 E 18, 52643670065446367 E 18, 27649118405002886 E 18, 12237860287780362 E 18, 46552264237871722 E 19, 15473611934883195 E 19, 45570752705478238 E 20, 12030213173012818 E 20, 28747978116957909 E 21, 62704857547210463 E 22, 12573307580555994 E 22, 23319818994468287 E 23, 40221207196085986 E 24, 64815731817764180 E 25, 97994993689680800 E 26, 13951722273653293 E 26, 18766565225495430 E 27, 23920071013888920 E 28, 28968364900503518 E 29, 33413717005515620 E 30, 36789731749433260 E 31, 38744424506402969 E 32, 39100308997328974 E 33, 37877684722840531 E 34, 35278182782611565 E 35, 31636276223114239 E 36, 27353476956239100 E 37, 22831729632612590 E 38, 18419534749343932 E 39, 14378495179230620 E 40, 10871625387278929 E 41, 79697697005716492 E 43, 56697818653518424 E 44, 39177112292450050 E 45, 26314750155491807 E 46, 17195026656453271 E 47, 10938594002019655 E 48, 67791788990346782 E 50, 40957776014016170 E 51, 24138596096723627 E 52, 13885568343969215 E 53, 78007943290562367 E 55, 42822666103235302 E 56, 22982322831874759 E 57, 12064664526337596 E 58, 61978950941124084 E 60, 31173007497222453 E 61, 15357072742609577 E 62, 74133676071548707 E 64, 35081237216425600 E 65, 16280010372014842 E 66, 74116792260085900 E 68, 33114365106655764 E 69, 14524598843313729 E 70, 62563980952304690 E 72, 26473820963376795 E 73, 11008181114437672 E 74, 44993653140207648 E 76, 18082121944368638 E 77, bnil.
Definition r480 := 10415961158994887 E 17, 82473802662145088 E 18, 52613484926108171 E 18, 27668089197449102 E 18, 12264188179828226 E 18, 46727363602711769 E 19, 15558340208734521 E 19, 45901922040557559 E 20, 12139895710602899 E 20, 29064580655056228 E 21, 63516586797647194 E 22, 12760739310855788 E 22, 23713775997965122 E 23, 40981431191562857 E 24, 66172095271100410 E 25, 10024569652730239 E 25, 14300829305509863 E 26, 19274950519220430 E 27, 24617788524496455 E 28, 29873853158774733 E 29, 34528283299198254 E 30, 38094450737621263 E 31, 40200451341252747 E 32, 40652760519684297 E 33, 39462333239518805 E 34, 36829533767549857 E 35, 33095361149708411 E 36, 28673916474682809 E 37, 23983185580101548 E 38, 19388359831223751 E 39, 15165995422234937 E 40, 11490731546684699 E 41, 84410267211272754 E 43, 60174528491511856 E 44, 41665452520407491 E 45, 28044049342612790 E 46, 18362953445940995 E 47, 11705764357750424 E 48, 72696636955969312 E 50, 44012179397014138 E 51, 25992503171685190 E 52, 14983029479537737 E 53, 84348029984520817 E 55, 46399169778841608 E 56, 24953476037040671 E 57, 13126629349536355 E 58, 67574561877995937 E 60, 34057985674640959 E 61, 16813189693566128 E 62, 81331502226089727 E 64, 38567359435123692 E 65, 17935008135026534 E 66, 81821145379266431 E 68, 36632583312001459 E 69, 16101174626309710 E 70, 69499264756527258 E 72, 29469651362777761 E 73, 12279383998793711 E 74, 50293865667835194 E 76, 20254242258880766 E 77, bnil.
Definition r481 := 10394320295034790 E 17, 82347191446669132 E 18, 52583208285065700 E 18, 27686891774043692 E 18, 12290434393526024 E 18, 46902369836623516 E 19, 15643207094749106 E 19, 46234317427070484 E 20, 12250207869308606 E 20, 29383644586201316 E 21, 64336281446816711 E 22, 12950393807303967 E 22, 24113214534713431 E 23, 41753802003087959 E 24, 67552941863495870 E 25, 10254170957827461 E 25, 14657693702211954 E 26, 19795698333692782 E 27, 25333940534610585 E 28, 30805176860772751 E 29, 35677010695700662 E 30, 39441930310692719 E 31, 41707299591296676 E 32, 42262715875197405 E 33, 41109073195617887 E 34, 38445004182367802 E 35, 34617894820088589 E 36, 30054627249888309 E 37, 25189692520590122 E 38, 20405607164223072 E 39, 15994568713564374 E 40, 12143478319547481 E 41, 89389209791160502 E 43, 63855374796070098 E 44, 44305363031437696 E 45, 29882491729256602 E 46, 19607170550801364 E 47, 12524744217758985 E 48, 77943600033719367 E 50, 47286416103294818 E 51, 27983969774654096 E 52, 16164371770270564 E 53, 91186886245445837 E 55, 50265053299880061 E 56, 27088547435305098 E 57, 14279297260034231 E 58, 73660727132238701 E 60, 37202409102426732 E 61, 18403555779917900 E 62, 89209296771100376 E 64, 42390748028219779 E 65, 19753895716695937 E 66, 90306056916642472 E 68, 40515308697073072 E 69, 17844713313262332 E 70, 77184972632496592 E 72, 32796551916965411 E 73, 13694006249464479 E 74, 56204335085706211 E 76, 22681498887288739 E 77, bnil.
Definition r482 := 10372768951714237 E 17, 82220922616230568 E 18, 52552841415754038 E 18, 27705526956734686 E 18, 12316598947467153 E 18, 47077280921694609 E 19, 15728211437609158 E 19, 46567936418358844 E 20, 12361150418543310 E 20, 29705179297206311 E 21, 65163990719642298 E 22, 13142289836692092 E 22, 24518192997422859 E 23, 42538475504123222 E 24, 68958638722935157 E 25, 10488380982078579 E 25, 15022465145460099 E 26, 20329073726149765 E 27, 26068961817292847 E 28, 31763000748098529 E 29, 36860851488947757 E 30, 40833454380687569 E 31, 43266604559574397 E 32, 43932149311814418 E 33, 42820170365576511 E 34, 40127072440260302 E 35, 36206467152517017 E 36, 31498200284531833 E 37, 26453736726285564 E 38, 21473569120658851 E 39, 16866249145419774 E 40, 12831605280393801 E 41, 94648882664388854 E 43, 67751809055057530 E 44, 47105679947489210 E 45, 31836680657713974 E 46, 20932462181097511 E 47, 13398897264924113 E 48, 83555648539253085 E 50, 50795734794473645 E 51, 30122844042698468 E 52, 17435787624593591 E 53, 98562448481291798 E 55, 54442975403126889 E 56, 29400740095908784 E 57, 15530178205051679 E 58, 80279169358926953 E 60, 40628930403945301 E 61, 20140196525884046 E 62, 97829511606049712 E 64, 46583146218229479 E 65, 21752471722858400 E 66, 99648553200121097 E 68, 44799345238666369 E 69, 19772455826831961 E 70, 85700319067138396 E 72, 36490232532459184 E 73, 15267848274235786 E 74, 62793703888331165 E 76, 25393181010176380 E 77, bnil.
Definition r483 := 10351306578447914 E 17, 82094995129707388 E 18, 52522385579691938 E 18, 27723995564808892 E 18, 12342681862577611 E 18, 47252094854717281 E 19, 15813352082941733 E 19, 46902776542530068 E 20, 12472724113485431 E 20, 30029194143204815 E 21, 65999763893280518 E 22, 13336446243871990 E 22, 24928770176996243 E 23, 43335609014722719 E 24, 70389557249286389 E 25, 10727278505548883 E 25, 15395295739209089 E 26, 20875346633769974 E 27, 26823296111490554 E 28, 32748004732794218 E 29, 38080781793001111 E 30, 42270341782433287 E 31, 44880049601080014 E 32, 45663097397365285 E 33, 44597966989640987 E 34, 41878306004834017 E 35, 37863766776656930 E 36, 33007330995165902 E 37, 27777910100218080 E 38, 22594640484642418 E 39, 17783166142092313 E 40, 13556937351134124 E 41, 10020437974345055 E 42, 71875894976184633 E 44, 50075731271821815 E 45, 33913601643924121 E 46, 22343900021494379 E 47, 14331796754541728 E 48, 89557234938912713 E 50, 54556401961438521 E 51, 32419653407536126 E 52, 18803910407981165 E 53, 10651543936974251 E 54, 58957309786314213 E 56, 31904286023248167 E 57, 16887384285483704 E 58, 87475050597697630 E 60, 44362120709630652 E 61, 22036183134332258 E 62, 10726017070252775 E 63, 51179201516014212 E 65, 23948016179407973 E 66, 10993305889163703 E 67, 49525116008618634 E 69, 21903377937617266 E 70, 95132671138737171 E 72, 40590160391944260 E 73, 17018409340174210 E 74, 70138153434242935 E 76, 28421862314127828 E 77, bnil.
Definition r484 := 10329932629093236 E 17, 81969407946478334 E 18, 52491842026586279 E 18, 27742298414880913 E 18, 12368683162089101 E 18, 47426809647152270 E 19, 15898627877363157 E 19, 47238835302677504 E 20, 12584929695085597 E 20, 30355698447322188 E 21, 66843650295498565 E 22, 13532881951430548 E 22, 25345005263038141 E 23, 44145361308439837 E 24, 71846073147046814 E 25, 10970943401679759 E 25, 15776340040566124 E 26, 21434791947557981 E 27, 27597396278659739 E 28, 33760884197099199 E 29, 39337802066658479 E 30, 43753947121081718 E 31, 46549367396188945 E 32, 47457660809615812 E 33, 46444884139669349 E 34, 43701364342165806 E 35, 39592584523844212 E 36, 34584823134464124 E 37, 29164914377134824 E 38, 23771322750782853 E 39, 18747548671770627 E 40, 14321388760085778 E 41, 10607156670029720 E 42, 76240339591313576 E 44, 53225362967713938 E 45, 36120643486194543 E 46, 23846859746988865 E 47, 15327238019890442 E 48, 95974385588400453 E 50, 58585767190364652 E 51, 34885649668952298 E 52, 20275844687009894 E 53, 11508956519567498 E 54, 63834270414083190 E 56, 34614523647587758 E 57, 18359676459329271 E 58, 95297246782730914 E 60, 48428627110310400 E 61, 24105720670842629 E 62, 11757535262991256 E 63, 56216723815068063 E 65, 26359425549358955 E 66, 12125208812648215 E 67, 54737009522966573 E 69, 24258360256835860 E 70, 10557836604287117 E 71, 45139945350951549 E 73, 18965065738504562 E 74, 78322211942784060 E 76, 31803760600153765 E 77, bnil.
Definition r485 := 10308646561906668 E 17, 81844160026486590 E 18, 52461211994435805 E 18, 27760436320882667 E 18, 12394602871512370 E 18, 47601423325092027 E 19, 15984037668523253 E 19, 47576110177101029 E 20, 12697767890074735 E 20, 30684701500349732 E 21, 67695699303050677 E 22, 13731615959360343 E 22, 25766957844346448 E 23, 44967892619207357 E 24, 73328566458152478 E 25, 11219456648481450 E 25, 16165755090958161 E 26, 22007689587074396 E 27, 28391724461581363 E 28, 34802350298139628 E 29, 40632937647939886 E 30, 45285661637602168 E 31, 48276341254001404 E 32, 49318006172461636 E 33, 48363424151279130 E 34, 45599001962294862 E 35, 41395817030926778 E 36, 36233592849858626 E 37, 30617565479846475 E 38, 25006228591535114 E 39, 19761729632952477 E 40, 15126967173921510 E 41, 11226711837401528 E 42, 80858525857610823 E 44, 56564966350138761 E 45, 38465620483613650 E 46, 25447038443632503 E 47, 16389251690902382 E 48, 10283479790718833 E 49, 62902332441552221 E 51, 37532856940224900 E 52, 21859198468175541 E 53, 12433172664617320 E 54, 69102045650339345 E 56, 37547980948204584 E 57, 19956514744846139 E 58, 10379864344171977 E 59, 52857342619460425 E 61, 26364243452930791 E 62, 12885571359884702 E 63, 61736965743459531 E 65, 29007359700344134 E 66, 13370699839885166 E 67, 60483758324690568 E 69, 26860374437964301 E 70, 11714360844095912 E 71, 50187763847897823 E 73, 21129267163008302 E 74, 87439646950348662 E 76, 35579135810786898 E 77, bnil.
Definition r486 := 10287447839500548 E 17, 81719250330302043 E 18, 52430496709633831 E 18, 27778410094053227 E 18, 12420441018610688 E 18, 47775933929223293 E 19, 16069580305148844 E 19, 47914598619527084 E 20, 12811239410972754 E 20, 31016212560421578 E 21, 68555960340053328 E 22, 13932667344725966 E 22, 26194687909386511 E 23, 45803364648188449 E 24, 74837421594847812 E 25, 11472900339788450 E 25, 16563700447568922 E 26, 22594324576016847 E 27, 29206752245391870 E 28, 35873130277613327 E 29, 41967239298610455 E 30, 46866914092549069 E 31, 50062806446208518 E 32, 51246367939307894 E 33, 50356173123996010 E 34, 47574071552591056 E 35, 43276470461034450 E 36, 37956672882920259 E 37, 32138798036337671 E 38, 26302086499335860 E 39, 20828150422213879 E 40, 15975778009620454 E 41, 11880855789106641 E 42, 85744546823511757 E 44, 60105506852962189 E 45, 40956795819507029 E 46, 27150472981410910 E 47, 17522117664698293 E 48, 11016794329627108 E 49, 67525825577155388 E 51, 40374122640946663 E 52, 23562117557762260 E 53, 13429224394529582 E 54, 74790941815449089 E 56, 40722464603517534 E 57, 21688112176468155 E 58, 11303645416360614 E 59, 57679589605254369 E 61, 28828518214180385 E 62, 14118905431822608 E 63, 67784927134329244 E 65, 31914401848834699 E 66, 14740881272489683 E 67, 66818852714992313 E 69, 29734687090139431 E 70, 12994545521460879 E 71, 55786825074475574 E 73, 23534753115731508 E 74, 97594450831051006 E 76, 39792730478499724 E 77, bnil.
Definition r487 := 10266335928800395 E 17, 81594677819182088 E 18, 52399697387070433 E 18, 27796220542929087 E 18, 12446197633373591 E 18, 47950339514789154 E 19, 16155254637086921 E 19, 48254298059328970 E 20, 12925344956098232 E 20, 31350240852694542 E 21, 69424482876360177 E 22, 14136055261326414 E 22, 26628255846748589 E 23, 46651940570599689 E 24, 76373027372616209 E 25, 11731357696577839 E 25, 16970338215047095 E 26, 23194987118658263 E 27, 30042960820850954 E 28, 36973967776534861 E 29, 43341783758895635 E 30, 48499171668432645 E 31, 51910651572100891 E 32, 53245050324705213 E 33, 52425803491103288 E 34, 49629527205506758 E 35, 45237664344737337 E 36, 39757216913963063 E 37, 33731670063122619 E 38, 27661745609879316 E 39, 21949365690334035 E 40, 16870028933770130 E 41, 12571429757183790 E 42, 90913241430374148 E 44, 63858554237035565 E 45, 43602906167905604 E 46, 28963559388779713 E 47, 18730379868751456 E 48, 11800517612347308 E 49, 72477278387140412 E 51, 43423171722884880 E 52, 25393322176718378 E 53, 14502509726632307 E 54, 80933536805723136 E 56, 44157155589357696 E 57, 23565492784152554 E 58, 12307256352849928 E 59, 62929317724559516 E 61, 31516755656592728 E 62, 15467093422081349 E 63, 74409685626543746 E 65, 35105232592807908 E 66, 16247911608763718 E 67, 73800992803988004 E 69, 32909083041499362 E 70, 14411289590938539 E 71, 61995883508048966 E 73, 26207791329629933 E 74, 10890192884075704 E 75, 44494257004526292 E 77, bnil.
Definition r488 := 10245310301002714 E 17, 81470441455131243 E 18, 52368815230233318 E 18, 27813868473334800 E 18, 12471872747990796 E 18, 48124638151550566 E 19, 16241059515347260 E 19, 48595205901746810 E 20, 13040085209578680 E 20, 31686795569030665 E 21, 70301316425935863 E 22, 14341798939353056 E 22, 27067722445587491 E 23, 47513785042503841 E 24, 77935777043166962 E 25, 11994913078349739 E 25, 17385833077485427 E 26, 23809972677147239 E 27, 30900841149867445 E 28, 38105623155102850 E 29, 44757674312541509 E 30, 50183940891018976 E 31, 53821819955344214 E 32, 55316429285324832 E 33, 54575076660921112 E 34, 51768427743273017 E 35, 47282635545135154 E 36, 41638504056476284 E 37, 35399367820492154 E 38, 29088180713093818 E 39, 23128048294020287 E 40, 17812034556844765 E 41, 13300368170019518 E 42, 96380232023693705 E 44, 67836314307469627 E 45, 46413187583711161 E 46, 30893073280789682 E 47, 20018861859541088 E 48, 12637984911792464 E 49, 77779109376759028 E 51, 46694664325323661 E 52, 27362145972590320 E 53, 15658818341800587 E 54, 87564844454038706 E 56, 47872711674841587 E 57, 25600553885627638 E 58, 13397389631464731 E 59, 68643317467387304 E 61, 34448731051218410 E 62, 16940533689168321 E 63, 81664755569569633 E 65, 38606819236895179 E 66, 17905103268026763 E 67, 81494582329392444 E 69, 36414109737835880 E 70, 15978803791481051 E 71, 68879802294976427 E 73, 29177440390182230 E 74, 12148990007979947 E 75, 49738936623763843 E 77, bnil.
Definition r489 := 10224370431533258 E 17, 81346540200959327 E 18, 52337851431308473 E 18, 27831354688373982 E 18, 12497466396826272 E 18, 48298827923747081 E 19, 16326993792144520 E 19, 48937319528107232 E 20, 13155460841361632 E 20, 32025885867682465 E 21, 71186510545228944 E 22, 14549917685043631 E 22, 27513148896045225 E 23, 48389064207573118 E 24, 79526068327478527 E 25, 12263651994570046 E 25, 17810352330672210 E 26, 24439582049676712 E 27, 31780894133305644 E 28, 39268873817754947 E 29, 46216041362378956 E 30, 51922768569896601 E 31, 55798311073162636 E 32, 57462954551384096 E 33, 56806845731289012 E 34, 53993940142169150 E 35, 49414742350520272 E 36, 43603943506127316 E 37, 37145210845480155 E 38, 30584497458602847 E 39, 24366994450739743 E 40, 18804221330376841 E 41, 14069703123583054 E 42, 10216196365090618 E 43, 72051662211440643 E 45, 49397402740100725 E 46, 32946191395292609 E 47, 21392683301762839 E 48, 13532743553367249 E 49, 83455211593549992 E 51, 50204257067757954 E 52, 29478577579144909 E 53, 16904358986374726 E 54, 94722490354480005 E 56, 51891377295466758 E 57, 27806133001081137 E 58, 14581281492723789 E 59, 74861450502145490 E 61, 37645914597351886 E 62, 18550539083401573 E 63, 89608477581834807 E 65, 42448621713795091 E 66, 19727029101902076 E 67, 89970267993094038 E 69, 40283344721983801 E 70, 17712740625899224 E 71, 76510172396627307 E 73, 32475838948524638 E 74, 13550002279638391 E 75, 55588095402110850 E 77, bnil.
Definition r490 := 10203515800005793 E 17, 81222973020338401 E 18, 52306807171279328 E 18, 27848679988420711 E 18, 12522978616392601 E 18, 48472906930057402 E 19, 16413056320940006 E 19, 49280636296043345 E 20, 13271472507226569 E 20, 32367520872981286 E 21, 72080114831545459 E 22, 14760430880332231 E 22, 27964596789656259 E 23, 49277945703822121 E 24, 81144303448897375 E 25, 12537661116175343 E 25, 18244065914615857 E 26, 25084121449526893 E 27, 32683630781094997 E 28, 40464514543475519 E 29, 47718043016550305 E 30, 53717242758647932 E 31, 57842182018578247 E 32, 59687151709650943 E 33, 59124058279060403 E 34, 56309343059054282 E 35, 51637468698349931 E 36, 45657079349210098 E 37, 38972657168554109 E 38, 32153937762677646 E 39, 25669129104428502 E 40, 19849132655236972 E 41, 14881569055239006 E 42, 10827574522605219 E 43, 76518177391050974 E 45, 52565869579679583 E 46, 35130514294387897 E 47, 22857277375471844 E 48, 14488565846162849 E 49, 89531045787365363 E 51, 53968668199852483 E 52, 31753304883373913 E 53, 18245788719873084 E 54, 10244689992061378 E 55, 56237101315131131 E 57, 30196079721229969 E 58, 15866754713262204 E 59, 81626898099676771 E 61, 41131612304460857 E 62, 20309415002978268 E 63, 98304441300670791 E 65, 46662816513471981 E 66, 21729638459703824 E 67, 99305528392348957 E 69, 44553688313337632 E 70, 19630336880205814 E 71, 84965992871397115 E 73, 36138524148922929 E 74, 15108925657801694 E 75, 62109823151546564 E 77, bnil.
Definition r491 := 10182745890181302 E 17, 81099738877858471 E 18, 52275683620025770 E 18, 27865845171111250 E 18, 12548409445325422 E 18, 48646873283558923 E 19, 16499245956482678 E 19, 49625153539713653 E 20, 13388120848797369 E 20, 32711709675028066 E 21, 72982178921420347 E 22, 14973357982494951 E 22, 28422128119735219 E 23, 50180598670309339 E 24, 82790889166287368 E 25, 12817028287139259 E 25, 18687146446342679 E 26, 25743902584987312 E 27, 33609572384663787 E 28, 41693357821420082 E 29, 49264865685557472 E 30, 55568993734968730 E 31, 59955548996365111 E 32, 61991624339177396 E 33, 61529759226455504 E 34, 58718030462913610 E 35, 53954428534360401 E 36, 47801595535553951 E 37, 40885308720220264 E 38, 33799885423921072 E 39, 27037511510125192 E 40, 20949434209546385 E 41, 15738207628767077 E 42, 11473979264496291 E 43, 81250180269075723 E 45, 55929491448995906 E 46, 37454090291063926 E 47, 24418409160955931 E 48, 15509462768929443 E 49, 96033739213231334 E 51, 58005746841291385 E 52, 34197762169163346 E 53, 19690244128007447 E 54, 11078149949665750 E 55, 60935663222927606 E 57, 32785332882537884 E 58, 17262264632992690 E 59, 88986429007936264 E 61, 44931118218864426 E 62, 22230543910026565 E 63, 10782194406544912 E 64, 51284540148022258 E 66, 23930383640041269 E 67, 10958531697678917 E 68, 49265683795955421 E 70, 21750569859903406 E 71, 94334418169727942 E 73, 40204782145223983 E 74, 16843147521154341 E 75, 69379701740124671 E 77, bnil.
Definition r492 := 10162060189927656 E 17, 80976836739081848 E 18, 52244481936421783 E 18, 27882851031336132 E 18, 12573758924358178 E 18, 48820725111687292 E 19, 16585561554850062 E 19, 49970868570021890 E 20, 13505406493555827 E 20, 33058461329387534 E 21, 73892752488990913 E 22, 15188718523791971 E 22, 28885805281747667 E 23, 51097193753808378 E 24, 84466236807232956 E 25, 13101842536100815 E 25, 19139769252969650 E 26, 26419242740165144 E 27, 34559250691721561 E 28, 42956234191925001 E 29, 50857724690296979 E 30, 57479695001086982 E 31, 62140588853391564 E 32, 64379056200937703 E 33, 64027093786163407 E 34, 61223515374242066 E 35, 56369370310761343 E 36, 50041321021053918 E 37, 42886916933928303 E 38, 35525871955164536 E 39, 28475341045862304 E 40, 22107919505069195 E 41, 16641972839563803 E 42, 12157327393816322 E 43, 86262770748888507 E 45, 59499788789277031 E 46, 39925440663918046 E 47, 26082195053679238 E 48, 16599698452897916 E 49, 10299219040404363 E 50, 62334546557567378 E 52, 36824180317052688 E 53, 21245374627934465 E 54, 11977293139352965 E 55, 66014808346912769 E 57, 35590003427692075 E 58, 18776948675059839 E 59, 96990688249693076 E 61, 49071878879249994 E 62, 24328476824496487 E 63, 11823648849484991 E 64, 56352153805748890 E 66, 26348357631062681 E 67, 12090276384681576 E 68, 54463867629160690 E 70, 24094328627696954 E 71, 10471157886875759 E 72, 44718033856277965 E 74, 18771924534364278 E 75, 77481609923903530 E 77, bnil.
Definition r493 := 10141458191179760 E 17, 80854265570596412 E 18, 52213203268432637 E 18, 27899698361232673 E 18, 12599027096296993 E 18, 48994460556194986 E 19, 16672001973488258 E 19, 50317778674835521 E 20, 13623330054855556 E 20, 33407784856784490 E 21, 74811885244367953 E 22, 15406532111105140 E 22, 29355691073662745 E 23, 52027903115445859 E 24, 86170762301288840 E 25, 13392194088053660 E 25, 19602112405051518 E 26, 27110464856683399 E 27, 35533208083409723 E 28, 44253992592965317 E 29, 52497864881241676 E 30, 59451064304830431 E 31, 64399540644027537 E 32, 66852213482561880 E 33, 66619310487116966 E 34, 63829433715146840 E 35, 58886181627542894 E 36, 52380235085123671 E 37, 44981388551849504 E 38, 37335582639301444 E 39, 29985963260437695 E 40, 23327515681259448 E 41, 17595336349354802 E 42, 12879635655232077 E 43, 91571868613432224 E 45, 63288932459617593 E 46, 42553586225888323 E 47, 27855123264292786 E 48, 17763805505752037 E 49, 11043718025815854 E 50, 66975403531899517 E 52, 39645640250221479 E 53, 22919378000537368 E 54, 12947128377771279 E 55, 71504392705696983 E 57, 38627463355394233 E 58, 20420679614577095 E 59, 10569450842323495 E 60, 53583670951701118 E 62, 26619032353905051 E 63, 12963032215544814 E 64, 61907530983626330 E 66, 29004444117815565 E 67, 13335994162561804 E 68, 60197152417728983 E 70, 26684601644039751 E 71, 11620348287275942 E 72, 49726259411309904 E 74, 20916578755378637 E 75, 86508612541149138 E 77, bnil.
Definition r494 := 10120939389900109 E 17, 80732024340067488 E 18, 52181848753211121 E 18, 27916387950177708 E 18, 12624214005995749 E 18, 49168077773109626 E 19, 16758566071251864 E 19, 50665881119204919 E 20, 13741892131936904 E 20, 33759689242803734 E 21, 75739626932008492 E 22, 15626818425571964 E 22, 29831848696289006 E 23, 52972900437308018 E 24, 87904886213279272 E 25, 13688174376096741 E 25, 20074356750204165 E 26, 27817897616276777 E 27, 36531997753845393 E 28, 45587500712130958 E 29, 54186561268939212 E 30, 61484864681705248 E 31, 66734707231314343 E 32, 69413947099386561 E 33, 69309764282913676 E 34, 66539548273128274 E 35, 61508894021042285 E 36, 54822472828530474 E 37, 47172791640312082 E 38, 39232862817040909 E 39, 31572876165997631 E 40, 24611289546485467 E 41, 18600893060119236 E 42, 13643025685490210 E 43, 97194255911863855 E 45, 67309778772392996 E 46, 45348075316140100 E 47, 29744075461506160 E 48, 19006601223402438 E 49, 11840148980600315 E 50, 71950019608412734 E 52, 42676129828179696 E 53, 24721038292869425 E 54, 13993033640030498 E 55, 77436538159849617 E 57, 41916441191194222 E 58, 22204122870237102 E 59, 11515724520128784 E 60, 58498793066357919 E 62, 29119403860132099 E 63, 14209302277335210 E 64, 67996370033784102 E 66, 31921480817477607 E 67, 14706870108875769 E 68, 66519245621184104 E 70, 29546682339201587 E 71, 12892700475949887 E 72, 55282465065203895 E 74, 23300713807282801 E 75, 96563942692031830 E 77, bnil.
Definition r495 := 10100503286039837 E 17, 80610112016288829 E 18, 52150419517193007 E 18, 27932920584780745 E 18, 12649319700331365 E 18, 49341574932691718 E 19, 16845252708443175 E 19, 51015173145581478 E 20, 13861093309942366 E 20, 34114183437592047 E 21, 76676027329087556 E 22, 15849597222215454 E 22, 30314341753592141 E 23, 53932360929013797 E 24, 89669033776642019 E 25, 13989876053245521 E 25, 20556685947003928 E 26, 28541875524289027 E 27, 37556183892079321 E 28, 46957645344186175 E 29, 55925119665991101 E 30, 63582905518346098 E 31, 69148456924597077 E 32, 72067195053060306 E 33, 72101919744890068 E 34, 69357752781560204 E 35, 64241687904017062 E 36, 57372330857218522 E 37, 49465361821876861 E 38, 41221724414821885 E 39, 33239736784670691 E 40, 25962453876305262 E 41, 19661366937308611 E 42, 14449729196062245 E 43, 10314762142638060 E 44, 71575906324344900 E 46, 48319013287587595 E 47, 31756349618532591 E 48, 20333204738673904 E 49, 12692002503983982 E 50, 77281550497447844 E 52, 45930604401608762 E 53, 26659766242710677 E 54, 15120782321666909 E 55, 83845798568843132 E 57, 45477124440573533 E 58, 24138798112209470 E 59, 12544313884664460 E 60, 63852272954438478 E 62, 31848275410861884 E 63, 15572213271471670 E 64, 74668533717658722 E 66, 35124437292183178 E 67, 16215158272471406 E 68, 73489107244979324 E 70, 32708394284045270 E 71, 14301097166570316 E 72, 61445196723131400 E 74, 25950453115546134 E 75, 10776208638601688 E 76, bnil.
Definition r496 := 10080149383500150 E 17, 80488527569232068 E 18, 52118916676191791 E 18, 27949297048877428 E 18, 12674344228179292 E 18, 49514950219392007 E 19, 16932060746850969 E 19, 51365651974036037 E 20, 13980934159932897 E 20, 34471276355563761 E 21, 77621136243871102 E 22, 16074888329570214 E 22, 30803234252995692 E 23, 54906461334255004 E 24, 91463634926817211 E 25, 14297393004304125 E 25, 21049286499164272 E 26, 29282738994079098 E 27, 38606341866491881 E 28, 48365332754282486 E 29, 57714877340685574 E 30, 65747043637708192 E 31, 71643225154338642 E 32, 74814984848970390 E 33, 74999354341906672 E 34, 72288076119969091 E 35, 67088897661587775 E 36, 60034273157891823 E 37, 51863508731256472 E 38, 43306352721402490 E 39, 34990367958819028 E 40, 27384373979037672 E 41, 20779617092842185 E 42, 15302093398240411 E 43, 10945060731580829 E 44, 76101654710638555 E 46, 51477093566037397 E 47, 33899684126890496 E 48, 21749055158608525 E 49, 13602994921192899 E 50, 82994699450487181 E 52, 49425051254463152 E 53, 28745642386539715 E 54, 16336571301404163 E 55, 90769337705798559 E 57, 49331269516916687 E 58, 26237145500384924 E 59, 13662170369496759 E 60, 69682091066522454 E 62, 34825947213135439 E 63, 17062384675615149 E 64, 81978418032003591 E 66, 38640608485383241 E 67, 17874281093017899 E 68, 81171450042195334 E 70, 36200337777393945 E 71, 15859735488232266 E 72, 68279104606695003 E 74, 28894702405812203 E 75, 12022998008149157 E 76, bnil.
Definition r497 := 10059877190094242 E 17, 80367269970095342 E 18, 52087341335492511 E 18, 27965518123523374 E 18, 12699287640389165 E 18, 49688201831808217 E 19, 17018989049788927 E 19, 51717314802476866 E 20, 14101415238904763 E 20, 34830976875108674 E 21, 78575003514088389 E 22, 16302711649304541 E 22, 31298590605663863 E 23, 55895379937302165 E 24, 93289124334678059 E 25, 14610820357797589 E 25, 21552347789989895 E 26, 30040834432340252 E 27, 39683058411648787 E 28, 49811489046891437 E 29, 59557203682452120 E 30, 67979184406372191 E 31, 74221516184838535 E 32, 77660435973775149 E 33, 78005761808936688 E 34, 75334686637276793 E 35, 70055016907519383 E 36, 62812937171283199 E 37, 54371822702492721 E 38, 45491113421911707 E 39, 36828765434803337 E 40, 28880574539250099 E 41, 21958644138770523 E 42, 16202586681380134 E 43, 11612285803673876 E 44, 80902165213193028 E 46, 54833630360591078 E 47, 36182283244549491 E 48, 23259930744799919 E 49, 14577082302849245 E 50, 89115816729681348 E 52, 53176558172809326 E 53, 30989463022113185 E 54, 17647050923544349 E 55, 98247119731745052 E 57, 53502319670482066 E 58, 28512596889058594 E 59, 14876814769639364 E 60, 76029421941078158 E 62, 38074471280046835 E 63, 18691375748380290 E 64, 89985352754904475 E 66, 42499825331678742 E 67, 19698937811841279 E 68, 89637286064667194 E 70, 40056159831785877 E 71, 17584257717768388 E 72, 75855564022717004 E 74, 32165438870085682 E 75, 13410833257567562 E 76, bnil.
Definition r498 := 10039686217509594 E 17, 80246338191350658 E 18, 52055694589944961 E 18, 27981584586988250 E 18, 12724149989760670 E 18, 49861327982641517 E 19, 17106036482133463 E 19, 52070158806867095 E 20, 14222537089807246 E 20, 35193293838303082 E 21, 79537679005305484 E 22, 16533087155838766 E 22, 31800475626766856 E 23, 56899296569476616 E 24, 95145941440002539 E 25, 14930254497964269 E 25, 22066062117109154 E 26, 30816514325338608 E 27, 40786931817640009 E 28, 51297060540527556 E 29, 61453500879312928 E 30, 70281282864342197 E 31, 76885904865598534 E 32, 80606762434355712 E 33, 81124955606601885 E 34, 78501896601252323 E 35, 73144703905432080 E 36, 65713140069207114 E 37, 56995081695036679 E 38, 47780559898441280 E 39, 38759105230504684 E 40, 30454746750179602 E 41, 23201596822928321 E 42, 17153804555429681 E 43, 12318507164741613 E 44, 85993423558776855 E 46, 58400593108775219 E 47, 38612843948778423 E 48, 24871969194029755 E 49, 15618475319024720 E 50, 95673005215433278 E 52, 57203386394016013 E 53, 33402789207327876 E 54, 19059357026360462 E 55, 10632211308371222 E 56, 58015531480162054 E 58, 30979652357677327 E 59, 16196382425862469 E 60, 82938894686661879 E 62, 41617798139174364 E 63, 20471766300200340 E 64, 98754036358410960 E 66, 46734683902496462 E 67, 21705222664131850 E 68, 98964523739249989 E 70, 44312849717698205 E 71, 19491894679023790 E 72, 84253357664279726 E 74, 35798029641932379 E 75, 14955308383620069 E 76, bnil.
Definition r499 := 10019575981270733 E 17, 80125731206790202 E 18, 52023977524055909 E 18, 27997497214750207 E 18, 12748931331019562 E 18, 50034326898652191 E 19, 17193201910361137 E 19, 52424181141442117 E 20, 14344300241560885 E 20, 35558236050623588 E 21, 80509212609298938 E 22, 16766034895959709 E 22, 32308954535728465 E 23, 57918392615586782 E 24, 97034530484983055 E 25, 15255793076808081 E 25, 22590624727485186 E 26, 31610137326076300 E 27, 41918572121924103 E 28, 52823014148329949 E 29, 63405204607504456 E 30, 72655344877717499 E 31, 79639038422082358 E 32, 83657275359520471 E 33, 84360872473838859 E 34, 81794166777488201 E 35, 76362787159642887 E 36, 68739885241660813 E 37, 59738258466603658 E 38, 50179440806546117 E 39, 40785751297199060 E 40, 32110755746508276 E 41, 24511778958337846 E 42, 18158475869346445 E 43, 13065905360413574 E 44, 91392304846720985 E 46, 62190642743861003 E 47, 41200584267573485 E 48, 26591689079469490 E 49, 16731654975481412 E 50, 10269623251495080 E 51, 61525048204830979 E 53, 35997998988126954 E 54, 20581145150851271 E 55, 11504050868686946 E 56, 62898110507813720 E 58, 33653962452387063 E 59, 17629671879572601 E 60, 90458874042428985 E 62, 45481935453145259 E 63, 22417244200052893 E 64, 10835500814840130 E 65, 51380794671466136 E 67, 23910753709977964 E 68, 10923862001037930 E 69, 49011062420171016 E 71, 21601623003892182 E 72, 93559425385101729 E 74, 39831582475962621 E 75, 16673701460820682 E 76, bnil.
Definition r500 := 99995460007023751 E 18, 80005447991571485 E 18, 51992191212080846 E 18, 28013256779490642 E 18, 12773631720793951 E 18, 50207196820615382 E 19, 17280484202585667 E 19, 52779378938926709 E 20, 14466705209076564 E 20, 35925812280663839 E 21, 81489654242430199 E 22, 17001574988431434 E 22, 32824092956456261 E 23, 58952851020330558 E 24, 98955340547775050 E 25, 15587535026210391 E 25, 23126233852706858 E 26, 32422068342385482 E 27, 43078601303702357 E 28, 54390337764574180 E 29, 65413784733448636 E 30, 75103428314630522 E 31, 82483638286635891 E 32, 86815385665826132 E 33, 87717576075931747 E 34, 85216111141301047 E 35, 79714271180468717 E 36, 71898369000417802 E 37, 62606528000916223 E 38, 52692707937329455 E 39, 42913263486750853 E 40, 33852648349337286 E 41, 25892656658586534 E 42, 19219469317478980 E 43, 13856777316469807 E 44, 97116620750660511 E 46, 66217169876019204 E 47, 43955273167240441 E 48, 28426012515856029 E 49, 17921389282215709 E 50, 11021744995520408 E 51, 66162389472653307 E 53, 38788343059956660 E 54, 22220627072699022 E 55, 12445195346035730 E 56, 68179356755416531 E 58, 36552416549923073 E 59, 19186197255964732 E 60, 98641763590080494 E 62, 49695119489118573 E 63, 24542700162572012 E 64, 11886516072309408 E 65, 56477053614641689 E 67, 26334813234651898 E 68, 12055329248660265 E 69, 54195472572525787 E 71, 23934337559548245 E 72, 10386968794670793 E 73, 44309331805433853 E 75, 18585152199271499 E 76, bnil.
Definition r501 := 99795957988929998 E 18, 79885487522261628 E 18, 51960336718114661 E 18, 28028864051089297 E 18, 12798251217590680 E 18, 50379936003275960 E 19, 17367882228594325 E 19, 53135749310751163 E 20, 14589752493275086 E 20, 36296031259854066 E 21, 82479053844021013 E 22, 17239727623602205 E 22, 33345956917553831 E 23, 60002856294660387 E 24, 10090882557607862 E 24, 15925580570100967 E 25, 23673090744559186 E 26, 33252678625957519 E 27, 44267653480843885 E 28, 56000040657182705 E 29, 67480746028248501 E 30, 77627644244839729 E 31, 85422501970338553 E 32, 90084606788896150 E 33, 91199260750182839 E 34, 88772501726024774 E 35, 83204342428933455 E 36, 75193987505727718 E 37, 65605275198684860 E 38, 55325524375093961 E 39, 45146405835463197 E 40, 35684661135632956 E 41, 27347865891872647 E 42, 20339800246487273 E 43, 14693542251839557 E 44, 10318516910345045 E 45, 70494334983315112 E 47, 46887262077564025 E 48, 30382289115343941 E 49, 19192750907133912 E 50, 11827071886532346 E 51, 71137677410949162 E 53, 41788004079695481 E 54, 23986609809255740 E 55, 13460980014957658 E 56, 73890820608395751 E 58, 39693237783980283 E 59, 20876244651618969 E 60, 10754433280657779 E 61, 54288000445230285 E 63, 26864330402692151 E 64, 13036829609039333 E 65, 62065937002516169 E 67, 28998500727555355 E 68, 13301129695883580 E 69, 59915161660940095 E 71, 26513040465712852 E 72, 11528995184721970 E 73, 49279063656442009 E 75, 20710857768443425 E 76, bnil.
Definition r502 := 99597249026588244 E 18, 79765848776880213 E 18, 51928415096181728 E 18, 28044319796619557 E 18, 12822789881771995 E 18, 50552542715303246 E 19, 17455394859884148 E 19, 53493289347268202 E 20, 14713442581107666 E 20, 36668901682183713 E 21, 83477461374729617 E 22, 17480513063007825 E 22, 33874612852515680 E 23, 61068594522113609 E 24, 10289544442075614 E 24, 16270031236688284 E 25, 24231399710874847 E 26, 34102345862314444 E 27, 45486375109386478 E 28, 57653153866306809 E 29, 69607628894892334 E 30, 80230158163380271 E 31, 88458504976575618 E 32, 93468557481651422 E 33, 94810255351552100 E 34, 92468273611255744 E 35, 86838375445957131 E 36, 78632343922930020 E 37, 68740102840433877 E 38, 58083272960868986 E 39, 47490155176319611 E 40, 37611228844873879 E 41, 28881220366910333 E 42, 21522637775892328 E 43, 15578747876719292 E 44, 10961778597936760 E 45, 75037110713122455 E 47, 50007518140053865 E 48, 32468321304203765 E 49, 20551135870548084 E 50, 12689234457627985 E 51, 76474693897355066 E 53, 45012159858132228 E 54, 25888537262920448 E 55, 14557137458481914 E 56, 80066469994346714 E 58, 43096085004723923 E 59, 22710932822469604 E 60, 11722806977149509 E 61, 59293842718566237 E 63, 29399747790827621 E 64, 14295572905247280 E 65, 68193821893978100 E 67, 31924899534731251 E 68, 14672527612459366 E 69, 66224041542614231 E 71, 29363048255826126 E 72, 12793690300559224 E 73, 54793583230287831 E 75, 23074288719240746 E 76, bnil.
Definition r503 := 99399328425081757 E 18, 79646530734941753 E 18, 51896427390325246 E 18, 28059624780344090 E 18, 12847247775532276 E 18, 50725015239245098 E 19, 17543020969697299 E 19, 53851996117968218 E 20, 14837775945576772 E 20, 37044432203926470 E 21, 84484926814927467 E 22, 17723951638971026 E 22, 34410127599903802 E 23, 62150253365104210 E 24, 10491566086947857 E 24, 16620989870748049 E 25, 24801368151666006 E 26, 34971454261726462 E 27, 46735425185634844 E 28, 59350730609049624 E 29, 71796010108344977 E 30, 82913191238672464 E 31, 91594602757127570 E 32, 96970964680885068 E 33, 98555027200632997 E 34, 96308530054680637 E 35, 90621939171226469 E 36, 82219255815967058 E 37, 72016839830029885 E 38, 60971565072446700 E 39, 49949710091747799 E 40, 39636993136086097 E 41, 30496719764391622 E 42, 22771312245878006 E 43, 16515076888810196 E 44, 11643540039285479 E 45, 79861326399291618 E 47, 53327659268987563 E 48, 34692391074161901 E 49, 22002283339180793 E 50, 13612101858966810 E 51, 82198834681563802 E 53, 48477050676970050 E 54, 27936534672370848 E 55, 15739826153737432 E 56, 86742869535228401 E 58, 46782162274644436 E 59, 24702278489182722 E 60, 12775956147623098 E 61, 64748741281337324 E 63, 32168102190900898 E 64, 15672694175500727 E 65, 74911334507767322 E 67, 35139258372355378 E 68, 16181868585822588 E 69, 73181317590750835 E 71, 32512218877569894 E 72, 14193919780056346 E 73, 60911229329738410 E 75, 25701427015807031 E 76, bnil.
Definition r504 := 99202191526062647 E 18, 79527532377496352 E 18, 51864374634695759 E 18, 28074779763710873 E 18, 12871624962875104 E 18, 50897351871481882 E 19, 17630759433056489 E 19, 54211866671695125 E 20, 14962753045757969 E 20, 37422631443368962 E 21, 85501500163078031 E 22, 17970063754197637 E 22, 34952568403507457 E 23, 63248022071179685 E 24, 10696994368040558 E 24, 16978560645970740 E 25, 25383206595538755 E 26, 35860394651083128 E 27, 48015475450881786 E 28, 61093846690405341 E 29, 74047503568715523 E 30, 85679021585502699 E 31, 94833832711594193 E 32, 10059566644365118 E 32, 10243818613639444 E 33, 10029854777121391 E 34, 94560803457085753 E 36, 85960762784985290 E 37, 75441549728041656 E 38, 63996249731910081 E 39, 52530500219458373 E 40, 41766811708940777 E 41, 32198558328235786 E 42, 24089323006527465 E 43, 17505353781237190 E 44, 12366009173846787 E 45, 84983714905405313 E 47, 56859991119419320 E 48, 37063288245995375 E 49, 23552296581528766 E 50, 14599796939273201 E 51, 88337214839701324 E 53, 52200050989056648 E 54, 30141456053830903 E 55, 17015661041999010 E 56, 93959372523103342 E 58, 50774336438690712 E 59, 26863266599549708 E 60, 13921090382516843 E 61, 70691855420074117 E 63, 35190210716572207 E 64, 17179029360994447 E 65, 82273728825627460 E 67, 38669188988724066 E 68, 17842680591559565 E 69, 80851995073453536 E 71, 35991200382300967 E 72, 15743866075493394 E 73, 67696440202929769 E 75, 28621028384711197 E 76, bnil.
Definition r505 := 99005833707403443 E 18, 79408852687170128 E 18, 51832257853639006 E 18, 28089785505349352 E 18, 12895921509590387 E 18, 51069550922179753 E 19, 17718609126799443 E 19, 54572898036861343 E 20, 15088374326822140 E 20, 37803507980541532 E 21, 86527231434115961 E 22, 18218869881368743 E 22, 35502002912484266 E 23, 64362091479238142 E 24, 10905876661589048 E 24, 17342849077366795 E 25, 25977128736388745 E 26, 36769564566721477 E 27, 49327210598772738 E 28, 62883600920483161 E 29, 76363761067681451 E 30, 88529985563285399 E 31, 98179316230970382 E 32, 10434661495494779 E 32, 10646448867615156 E 33, 10444378236324087 E 34, 98660945782909185 E 36, 89863134355396976 E 37, 79020539584321057 E 38, 67163423051973373 E 39, 55238195924329497 E 40, 44005767803075910 E 41, 33991133831398376 E 42, 25480346563247631 E 43, 18552551976287561 E 44, 13131515010226559 E 45, 90421961909638648 E 47, 60617546060955062 E 48, 39590340326981913 E 49, 25207665149749434 E 50, 15656712242336935 E 51, 94918780852569009 E 53, 56199745776090041 E 54, 32514934825902554 E 55, 18391746215893660 E 56, 10175832660481059 E 57, 55097263343629813 E 59, 29207925911609779 E 60, 15166014357178773 E 61, 77165661187199721 E 63, 38488698698031754 E 64, 18826379113620481 E 65, 90341297974154541 E 67, 42544881370520786 E 68, 19669784255599208 E 69, 89307432692798788 E 71, 39833703320671601 E 72, 17459159901872443 E 73, 75220375813560633 E 75, 31864911403949929 E 76, bnil.
Definition r506 := 98810250382852571 E 18, 79290490648204204 E 18, 51800078061782884 E 18, 28104642761066979 E 18, 12920137483231732 E 18, 51241610715243840 E 19, 17806568929613282 E 19, 54935087221662411 E 20, 15214640220058466 E 20, 38187070356952515 E 21, 87562170657827869 E 22, 18470390562729475 E 22, 36058499181484137 E 23, 65492654025708646 E 24, 11118260847621325 E 24, 17713962033729904 E 25, 26583351470379820 E 26, 37699368348218216 E 27, 50671328485339678 E 28, 64721115538092225 E 29, 78746473068362235 E 30, 91468479100030232 E 31, 10163426078621725 E 31, 10822787960821768 E 32, 11063884228529490 E 33, 10874987390586441 E 34, 10292855817556585 E 35, 93932878125989359 E 37, 82760369079481581 E 38, 70479438032826992 E 39, 58078718349759672 E 40, 46359180090324717 E 41, 35879056931584604 E 42, 26948245093739160 E 43, 19659801299716171 E 44, 13942513958075751 E 45, 96194757752195482 E 47, 64614124260970684 E 48, 42283444048007956 E 49, 26975288356728157 E 50, 16787526971694712 E 51, 10197442970697762 E 52, 60496011854521882 E 54, 35069437823529891 E 55, 19875709865035358 E 56, 11018529411986191 E 57, 59777523321073094 E 59, 31751410286986465 E 60, 16519175459652743 E 61, 84216224015803031 E 63, 42088152213018302 E 64, 20627592262417656 E 65, 99179821140496818 E 67, 46799338006261649 E 68, 21679413120829903 E 69, 98625947556968909 E 71, 44076799044234433 E 72, 19357024474573819 E 73, 83561602021228489 E 75, 35468275989371198 E 76, bnil.
Definition r507 := 98615437001693729 E 18, 79172445246492903 E 18, 51767836264123956 E 18, 28119352283845996 E 18, 12944272953093991 E 18, 51413529588270829 E 19, 17894637722068274 E 19, 55298431214291250 E 20, 15341551142898044 E 20, 38573327075324898 E 21, 88606367877234458 E 22, 18724646409674172 E 22, 36622125670755194 E 23, 66639903750692067 E 24, 11334195313333753 E 24, 18092007750157625 E 25, 27202094933205569 E 26, 38650217233150497 E 27, 52048540341726118 E 28, 66607536640759180 E 29, 81197369498828669 E 30, 94496959042438015 E 31, 10520196206267521 E 31, 11224365016020519 E 32, 11496630975934693 E 33, 11322265269113022 E 34, 10737005434171850 E 35, 98176748183865787 E 37, 86667859985231105 E 38, 73950914721542433 E 39, 61058249862358138 E 40, 48832612975057583 E 41, 37867160932795527 E 42, 28497075352486003 E 43, 20830395810988931 E 44, 14801596474960016 E 45, 10232185197195621 E 46, 68864336986029673 E 48, 45153098670526476 E 49, 28862500120645834 E 50, 17997224979627325 E 51, 10953713544242296 E 52, 65110104437772976 E 54, 37818322919407678 E 55, 21475741630419958 E 56, 11928928809847735 E 57, 64843766590691399 E 59, 34510086111440577 E 60, 17989715110845738 E 61, 91893493057235136 E 63, 46015283101602181 E 64, 22596656291911137 E 65, 10886104900165519 E 66, 51468628846448525 E 68, 23889344800640780 E 69, 10889347623463975 E 70, 48761246311378820 E 72, 21456433748376463 E 73, 92806842674792877 E 75, 39470054193507116 E 76, bnil.
Definition r508 := 98421389048408803 E 18, 79054715469620979 E 18, 51735533456112953 E 18, 28133914823840502 E 18, 12968327990191007 E 18, 51585305892501345 E 19, 17982814386651219 E 19, 55662926983151748 E 20, 15469107498938112 E 20, 38962286599336485 E 21, 89659873146974560 E 22, 18981658102328042 E 22, 37192951246232022 E 23, 67804036304063825 E 24, 11553728956469119 E 24, 18477095840629451 E 25, 27833582537634470 E 26, 39622529452831451 E 27, 53459570989628120 E 28, 68544034621254137 E 29, 83718220559443166 E 30, 97617944532557879 E 31, 10888580614118615 E 31, 11639823996174468 E 32, 11945211372097744 E 33, 11786814513530560 E 34, 11199207701785014 E 35, 10260175379422278 E 36, 90750105953812387 E 38, 77584750746479254 E 39, 64183244904318032 E 40, 51431887318396463 E 41, 39960511969246335 E 42, 30131097979386925 E 43, 22067802005492494 E 44, 15711494043059744 E 45, 10882411066491313 E 46, 73383652235589842 E 48, 48210441158173102 E 49, 30877095253222981 E 50, 19291113839720641 E 51, 11764208358967704 E 52, 70064749281286883 E 54, 40775900484659572 E 55, 23200632527539831 E 56, 12912302499333458 E 57, 70326869285016774 E 59, 37501626289046277 E 60, 19587524054046639 E 61, 10025161891786377 E 62, 50299107455072884 E 64, 24748795403772004 E 65, 11946323088950321 E 66, 56592168736880267 E 68, 26319043977509097 E 69, 12020429694935281 E 70, 53931848811933050 E 72, 23778285981668018 E 73, 10305180618853425 E 74, 43913296513477935 E 76, bnil.
Definition r509 := 98228102042344723 E 18, 78937300306899952 E 18, 51703170623739657 E 18, 28148331128373758 E 18, 12992302667233502 E 18, 51756937992771951 E 19, 18071097807798406 E 19, 56028571477072470 E 20, 15597309677966914 E 20, 39353957353362391 E 21, 90722736531690309 E 22, 19241446389125398 E 22, 37771045179606047 E 23, 68985248951536343 E 24, 11776911188696665 E 24, 18869337310641584 E 25, 28478041011338867 E 26, 40616730329025044 E 27, 54905159059473769 E 28, 70531804610697618 E 29, 86310837544221527 E 30, 10083401841144032 E 30, 11268927172679747 E 31, 12069608926607557 E 32, 12410164123465065 E 33, 12269257985336855 E 34, 11680150554404744 E 35, 10721516837317525 E 36, 95014482647100074 E 38, 81388132239522593 E 39, 67460441268294505 E 40, 54163091602620912 E 41, 42164419628821985 E 42, 31854787229816154 E 43, 23375667405414697 E 44, 16675086491215896 E 45, 11572357680314532 E 46, 78188442827652611 E 48, 51467283312677149 E 49, 33027357271859765 E 50, 20674845065511252 E 51, 12632681397349665 E 52, 75384240756389486 E 54, 43957498934914415 E 55, 25059817608392242 E 56, 13974319528946735 E 57, 76260100845036628 E 59, 40745111287786772 E 60, 21323301910841126 E 61, 10934929659644098 E 62, 54971138645333304 E 64, 27100576778351988 E 65, 13107168717507738 E 66, 62213019249565708 E 68, 28989818286656641 E 69, 13266181841495746 E 70, 59637846459636642 E 72, 26345594071492207 E 73, 11440209378981390 E 74, 48845597212787569 E 76, bnil.
Definition r510 := 98035571537383903 E 18, 78820198749403561 E 18, 51670748743617115 E 18, 28162601941935810 E 18, 13016197058607184 E 18, 51928424267466645 E 19, 18159486871928093 E 19, 56395361625519158 E 20, 15726158055989135 E 20, 39748347722220768 E 21, 91795008104414212 E 22, 19504032086384331 E 22, 38356477148378146 E 23, 70183740580682059 E 24, 12003791938994147 E 24, 19268844569898305 E 25, 29135700435008291 E 26, 41633252371646497 E 27, 56386057211365551 E 28, 72572066928324972 E 29, 88977073676413560 E 30, 10414782865022929 E 30, 11661593242594169 E 31, 12514176861631460 E 32, 12892044854164311 E 33, 12770239390496583 E 34, 12180546366773018 E 35, 11202453875207225 E 36, 99468658216217468 E 38, 85368545159388704 E 39, 70896871810114071 E 40, 57032593552675127 E 41, 44484448033891405 E 42, 33672841144097610 E 43, 24757829556709131 E 44, 17695409678528575 E 45, 12304353365956193 E 46, 83296037061846495 E 48, 54936150978777869 E 49, 35322087820147648 E 50, 22154435541187856 E 51, 13563137237872130 E 52, 81094546219494386 E 54, 47379534623069871 E 55, 27063421543401615 E 56, 15121075321214924 E 57, 82679303586754693 E 59, 44261137747897822 E 60, 23208621321952020 E 61, 11925013555771357 E 62, 60065596042928314 E 64, 29670025701231286 E 65, 14377943063771591 E 66, 68378216995650658 E 68, 31924988213506189 E 69, 14637944129436076 E 70, 65933343557089456 E 72, 29183694237818492 E 73, 12697419730267501 E 74, 54319562498941009 E 76, bnil.
Definition r511 := 97843793121618339 E 18, 78703409790002329 E 18, 51638268783065107 E 18, 28176728006181293 E 18, 13040011240351011 E 18, 52099763108468368 E 19, 18247980467472524 E 19, 56763294338807208 E 20, 15855652995252015 E 20, 40145466050921274 E 21, 92876737944958087 E 22, 19769436077878008 E 22, 38949317235893322 E 23, 71399711706915461 E 24, 12234421657031470 E 24, 19675731445059559 E 25, 29806794280747412 E 26, 42672535377452630 E 27, 57903032358808702 E 28, 74666067537982823 E 29, 91718824958498838 E 30, 10756208980913928 E 30, 12066945907299336 E 31, 12973998231373936 E 32, 13391426591821649 E 33, 13290423921618854 E 34, 12701132758366208 E 35, 11703769474196613 E 36, 10412060414284769 E 37, 89533787029647054 E 39, 74499876615151880 E 40, 60047052232284085 E 41, 46926427397972983 E 42, 35590192175094341 E 43, 26218325450289643 E 44, 18775663556431590 E 45, 13080857149038031 E 46, 88724772091528583 E 48, 58630325428163961 E 49, 37770637785691528 E 50, 23736290233946798 E 51, 14559847160755007 E 52, 87223417064915861 E 54, 51059586356078611 E 55, 29222307315780491 E 56, 16359122683273639 E 57, 89623085293178441 E 59, 48071935200073700 E 60, 25255997014512961 E 61, 13002305902170777 E 62, 65619630659605690 E 64, 32476750272198405 E 65, 15768784088873442 E 66, 75139130677616361 E 68, 35150072229708656 E 69, 16148149878580229 E 70, 72877777215415163 E 72, 32320474779997149 E 73, 14089659506932798 E 74, 60393325767475763 E 76, bnil.
Definition r512 := 97652762417027181 E 18, 78586932423397191 E 18, 51605731700192899 E 18, 28190710059927574 E 18, 13063745290135658 E 18, 52270952921109849 E 19, 18336577484909687 E 19, 57132366508313537 E 20, 15985794844272004 E 20, 40545320644416562 E 21, 93967976138304092 E 22, 20037679314402678 E 22, 39549635931357879 E 23, 72633364479435388 E 24, 12468851316556087 E 24, 20090113192544617 E 25, 30491559450759467 E 26, 43735026529729056 E 27, 59456865895250613 E 28, 76815078511435635 E 29, 94538031036800451 E 30, 11107958452477521 E 30, 12485362210712406 E 31, 13449557196857318 E 32, 13908900265979506 E 33, 13830498918161837 E 34, 13242673421673970 E 35, 12226275900714097 E 36, 10897860645374706 E 37, 93891979105539983 E 39, 78277115634748227 E 40, 63213430632816778 E 41, 49496466077446414 E 42, 37612018293364718 E 43, 27761401386366558 E 44, 19919220626916753 E 45, 13904465763435908 E 46, 94494050142876239 E 48, 62563887038030096 E 49, 40382940208877118 E 50, 25427226261422604 E 51, 15627366248589926 E 52, 93800506872529799 E 54, 55016474830094218 E 55, 31548128233067294 E 56, 17695504995768686 E 57, 97133025744047181 E 59, 52201491478866729 E 60, 27478960161868245 E 61, 14174273470227486 E 62, 71673569045580709 E 64, 35542076470348280 E 65, 17290739624727654 E 66, 82551849324769616 E 68, 38692988496493223 E 69, 17810428340713198 E 70, 80536429712662022 E 72, 35786626785834617 E 73, 15631095541632433 E 74, 67131114526134094 E 76, bnil.
Definition r513 := 97462475079158020 E 18, 78470765646152296 E 18, 51573138443981224 E 18, 28204548839153066 E 18, 13087399287242160 E 18, 52441992124124329 E 19, 18425276816794384 E 19, 57502575006687933 E 20, 16116583937862076 E 20, 40947919767356664 E 21, 95068772772997616 E 22, 20308782813342208 E 22, 40157504129838423 E 23, 73884902687124858 E 24, 12707132418779548 E 24, 20512106511391023 E 25, 31190236316314652 E 26, 44821180498977430 E 27, 61048353923453617 E 28, 79020398498555470 E 29, 97436676080912900 E 30, 11470316502624727 E 30, 12917229400038314 E 31, 13941352013498107 E 32, 14445075219404231 E 33, 14391174545118551 E 34, 13805958975420872 E 35, 12770815725682908 E 36, 11405127732028922 E 37, 98451578984110549 E 39, 82236581809573387 E 40, 66539008773669909 E 41, 52200963138223727 E 42, 39743754590106608 E 43, 29391523301625958 E 44, 21129634815357769 E 45, 14777921019514098 E 46, 10062439772559851 E 47, 66751761385669859 E 49, 43169545081138718 E 50, 27234498391629181 E 51, 16770551540844309 E 52, 10085749708576615 E 53, 59270347296297545 E 55, 34053383473525597 E 56, 19137791727652739 E 57, 10525389815720663 E 58, 56675687457378863 E 60, 29892138428274679 E 61, 15449003939362755 E 62, 78271176872881286 E 64, 38889194409511384 E 65, 18955846781946479 E 66, 90677604357763856 E 68, 42584274576625635 E 69, 19639716766264034 E 70, 88980988802883825 E 72, 39615918845174683 E 73, 17337345795030024 E 74, 74603874053589979 E 76, bnil.
Definition r514 := 97272926796811515 E 18, 78354908456727101 E 18, 51540489954363791 E 18, 28218245076995812 E 18, 13110973312540686 E 18, 52612879149595932 E 19, 18514077357789096 E 19, 57873916688063951 E 20, 16248020597159531 E 20, 41353271643846043 E 21, 96179177939542236 E 22, 20582767658229312 E 22, 40772993132243201 E 23, 75154531764409853 E 24, 12949316995765365 E 24, 20941829556169017 E 25, 31903068757004767 E 26, 45931459544610111 E 27, 62678307487725960 E 28, 81283353204475487 E 29, 10041678967815210 E 29, 11843575468055133 E 30, 13362945173795288 E 31, 14449895403202798 E 32, 15000579732580203 E 33, 14973184490649176 E 34, 14391807843412680 E 35, 13338262876450422 E 36, 11934756705522445 E 37, 10322139367261121 E 38, 86386614697421887 E 40, 70031397333619826 E 41, 55046621458046376 E 42, 41991105398919012 E 43, 31113387579781997 E 44, 22410650777198392 E 45, 15704117548074927 E 46, 10713752798689036 E 47, 71209767886649682 E 49, 46141656136461407 E 50, 29165826057081263 E 51, 17994581304541813 E 52, 10842823068107121 E 53, 63842767788782327 E 55, 36751477398834717 E 56, 20694116434086072 E 57, 11403390658117184 E 58, 61522441772874383 E 60, 32511342118997326 E 61, 16835255998060381 E 62, 85459943744829611 E 64, 42543316683352524 E 65, 20777218091308060 E 66, 99583228345787410 E 68, 46857326718060656 E 69, 21652382694293936 E 70, 98290160344174431 E 72, 43845498006545784 E 73, 19225624392609834 E 74, 82889953328857157 E 76, bnil.
Definition r515 := 97084113291729543 E 18, 78239359855507437 E 18, 51507787162307736 E 18, 28231799503752368 E 18, 13134467448469571 E 18, 52783612442909734 E 19, 18602978004694352 E 19, 58246388388269227 E 20, 16380105129654504 E 20, 41761384457204017 E 21, 97299241728797248 E 22, 20859654998303641 E 22, 41396174645285739 E 23, 76442458797076040 E 24, 13195457613817827 E 24, 21379401949950716 E 25, 32630304200283908 E 26, 47066333617656250 E 27, 64347552809035097 E 28, 83605295873783157 E 29, 10348044774323115 E 29, 12228034956768277 E 30, 13822917935153769 E 31, 14975714935237181 E 32, 15576061561691845 E 33, 15577286683134939 E 34, 15001067159705543 E 35, 13929523722438142 E 36, 12487677651918199 E 37, 10821059313062329 E 38, 90735914623491204 E 40, 73698551833271204 E 41, 58040461385845744 E 42, 44360056958240439 E 43, 32931932366886938 E 44, 23766213658612545 E 45, 16686110938227623 E 46, 11405640636753759 E 47, 75954671110511249 E 49, 49311169745280802 E 50, 31229421969212128 E 51, 19304975486952978 E 52, 11654885431704432 E 53, 68756813266035255 E 55, 39656782879070783 E 56, 22373217404881428 E 57, 12352494034828339 E 58, 66771866259369766 E 60, 35353656886342151 E 61, 18342513363796677 E 62, 93291390888356319 E 64, 46531849769512847 E 65, 22769134933064866 E 66, 10934165355532961 E 67, 51548660404150132 E 69, 23866357373033182 E 70, 10855033800098670 E 71, 48516219418609722 E 73, 21314900797476629 E 74, 92075859293895961 E 76, bnil.
Definition r516 := 96896030318286794 E 18, 78124118844835930 E 18, 51475030989893825 E 18, 28245212846876779 E 18, 13157881779014469 E 18, 52954190462701552 E 19, 18691977656478608 E 19, 58619986925035109 E 20, 16512837829218925 E 20, 42172266349727486 E 21, 98429014230376879 E 22, 21139466048066387 E 22, 42027120781430246 E 23, 77748892528042307 E 24, 13445607376871526 E 24, 21824944797333630 E 25, 33372193661295179 E 26, 48226280464484283 E 27, 66056931523026096 E 28, 85987607781830009 E 29, 10662977344336761 E 29, 12624002008595875 E 30, 14297567050685912 E 31, 15519353416049910 E 32, 16172188490401142 E 33, 16204264028138811 E 34, 15634613700812906 E 35, 14545538195500666 E 36, 13064856994980031 E 37, 11342872430179404 E 38, 95293557371797067 E 40, 77548787389441849 E 41, 61189834980406349 E 42, 46856890637186730 E 43, 34852349413673330 E 44, 25200479332124308 E 45, 17727126288215273 E 46, 12140531972670830 E 47, 81004234914661271 E 49, 52690716025642981 E 50, 33434022423883190 E 51, 20707617419845812 E 52, 12525796948005144 E 53, 74037176038881362 E 55, 42784708891428159 E 56, 24184481141804899 E 57, 13378284677225035 E 58, 72456432852793496 E 60, 38437543474293723 E 61, 19981043018710977 E 62, 10182140351102493 E 63, 50884579537484800 E 65, 24947148852630590 E 66, 12003245364345175 E 67, 56698194007826957 E 69, 26301281296466081 E 70, 11985633519645800 E 71, 53673007319260346 E 73, 23626074461809770 E 74, 10225708608706686 E 75, bnil.
Definition r517 := 96708673663185640 E 18, 78009184429041492 E 18, 51442222350395604 E 18, 28258485830979993 E 18, 13181216389687681 E 18, 53124611680807430 E 19, 18781075214307846 E 19, 58994709098206092 E 20, 16646218976136177 E 20, 42585925422457164 E 21, 99568545531053033 E 22, 21422222086831927 E 22, 42665904058819704 E 23, 79074043363092195 E 24, 13699819929881707 E 24, 22278580697518740 E 25, 34128991782985100 E 26, 49411785731548223 E 27, 67807300920971822 E 28, 88431698733240060 E 29, 10986693813903649 E 29, 13031791258803648 E 30, 14787323114625156 E 31, 16081369288234576 E 32, 16789648895735198 E 33, 16854925165770410 E 34, 16293354845683830 E 35, 15187280946009653 E 36, 13667298822675645 E 37, 11888572565159960 E 38, 10006900943700159 E 39, 81590794063060364 E 41, 64502440851404515 E 42, 49488196748411769 E 43, 36880096468132561 E 44, 26717825129094136 E 45, 18830567189112063 E 46, 12920994910995486 E 47, 86377279544148773 E 49, 56293702292480292 E 50, 35788919393708881 E 51, 22208776848767326 E 52, 13459679317333600 E 53, 79710272880354159 E 55, 46151772670522262 E 56, 26137988854600517 E 57, 14486772335309143 E 58, 78611152787159157 E 60, 41782945018769842 E 61, 21761957979604993 E 62, 11111058973900067 E 63, 55633871985902476 E 65, 27328191408861063 E 66, 13174243212273144 E 67, 62349557541392768 E 69, 28978662927281500 E 70, 13231218494700823 E 71, 59365250275819164 E 73, 26182166423838552 E 74, 11353902651336783 E 75, bnil.
Definition r518 := 96522039145154392 E 18, 77894555614468314 E 18, 51409362148358069 E 18, 28271619177829270 E 18, 13204471367507702 E 18, 53294874582212942 E 19, 18870269581574607 E 19, 59370551689948354 E 20, 16780248837131189 E 20, 43002369734946258 E 21, 10071788571315926 E 21, 21707944458276131 E 22, 43312597401185785 E 23, 80418123376561105 E 24, 13958149462214886 E 24, 22740433757442003 E 25, 34900956876504066 E 26, 50623343071159633 E 27, 69599534193675786 E 28, 90939007567692027 E 29, 11319416234057384 E 29, 13451725104810863 E 30, 15292628218735466 E 31, 16662337038816682 E 32, 17429152328402907 E 33, 17530105248961063 E 34, 16978229564201662 E 35, 15855762535703185 E 36, 14296046258631813 E 37, 12459194222802687 E 38, 10507214385654967 E 39, 85833652822898705 E 41, 67986339626744304 E 42, 52260888972533480 E 43, 39020910242487234 E 44, 28322861091926962 E 45, 20000025162208694 E 46, 13749744634326100 E 47, 92093741852381225 E 49, 60134358972128560 E 50, 38303994508089100 E 51, 23815134364950337 E 52, 14460932872851300 E 53, 85804361236822275 E 55, 49775676705474773 E 56, 28244566177870880 E 57, 15684423083674876 E 58, 85273768956534289 E 60, 45411402457189823 E 61, 23697284944140048 E 62, 12122466819629660 E 63, 60814890421974521 E 65, 29930693252490404 E 66, 14456626152097194 E 67, 68550428660278137 E 69, 31922051768399832 E 70, 14603201370709037 E 71, 65647233841485673 E 73, 29008529452573631 E 74, 12603797370352871 E 75, bnil.
Definition r519 := 96336122614648786 E 18, 77780231409503631 E 18, 51376451279675592 E 18, 28284613606347982 E 18, 13227646800978880 E 18, 53464977665002187 E 19, 18959559663926779 E 19, 59747511464957877 E 20, 16914927665401152 E 20, 43421607305032275 E 21, 10187708485299859 E 21, 21996654569981524 E 22, 43967274137741153 E 23, 81781346316980343 E 24, 14220650711039792 E 24, 23210629604959421 E 25, 35688350961894817 E 26, 51861454248293611 E 27, 71434520678354646 E 28, 93511002673057539 E 29, 11661371668084988 E 29, 13884133876077538 E 30, 15813936227892721 E 31, 17262847617056357 E 32, 18091430107867758 E 33, 18230666743168358 E 34, 17690209434972706 E 35, 16552030668370761 E 36, 14952182879945851 E 37, 13055814126260721 E 38, 11031325664367815 E 39, 90286852148254657 E 41, 71649970071009597 E 42, 55182219419640615 E 43, 41280819979721659 E 44, 30020441769855794 E 45, 21239289571855541 E 46, 14629651464470589 E 47, 98174738805560156 E 49, 64227788115815210 E 50, 40989755027293823 E 51, 25533807321794944 E 52, 15534254735202777 E 53, 92349662984994133 E 55, 53675390897405011 E 56, 30515836323985988 E 57, 16978192856639466 E 58, 92484962377700828 E 60, 49346178640270477 E 61, 25800037180038254 E 62, 13223488644027491 E 63, 66465830389377743 E 65, 32774713187596080 E 66, 15860717747818403 E 67, 75352898259463065 E 69, 35157227044859833 E 70, 16114099589005144 E 71, 72578614077889802 E 73, 32133078490069693 E 74, 13988222166333998 E 75, bnil.
Definition r520 := 96150919953556888 E 18, 77666210824605258 E 18, 51343490631669229 E 18, 28297469832615611 E 18, 13250742780071314 E 18, 53634919440306373 E 19, 19048944369295829 E 19, 60125585170667977 E 20, 17050255700646797 E 20, 43843646108611668 E 21, 10304619301925295 E 21, 22288373892979457 E 22, 44630008003053638 E 23, 83163927612676033 E 24, 14487378964718318 E 24, 23689295402085074 E 25, 36491439809067854 E 26, 53126629248431348 E 27, 73313166108522311 E 28, 96149182505973433 E 29, 12012792290422271 E 29, 14329356007209011 E 30, 16351713061481122 E 31, 17883508861959852 E 32, 18777235932508820 E 33, 18957500248039205 E 34, 18430299693190831 E 35, 17277171459470366 E 36, 15636834182794951 E 37, 13679552832975015 E 38, 11580308384252249 E 39, 94960305294494756 E 41, 75502165880760817 E 42, 58259794354383730 E 43, 43666161645865217 E 44, 31815678583183146 E 45, 22552358036519081 E 46, 15563749345440340 E 47, 10464263444168243 E 48, 68590014652755672 E 50, 43857371922661973 E 51, 27372377322452770 E 52, 16684658105468522 E 53, 99378496206140168 E 55, 57871240210457897 E 56, 32964276901028579 E 57, 18375563365788795 E 58, 10028857375246455 E 59, 53612391780842841 E 61, 28084293050776273 E 62, 14421847263418701 E 63, 72628173751484446 E 65, 35882078028514852 E 66, 17397773236790384 E 67, 82813868196154542 E 69, 38712403365690614 E 70, 17777639631498646 E 71, 80224935703151242 E 73, 35586543301741638 E 74, 15521327423257744 E 75, bnil.
Definition r521 := 95966427074906879 E 18, 77552492872327891 E 18, 51310481083163370 E 18, 28310188569867820 E 18, 13273759396200867 E 18, 53804698432252489 E 19, 19138422607924682 E 19, 60504769537456213 E 20, 17186233169104147 E 20, 44268494079417276 E 21, 10422526027139635 E 21, 22583123961289071 E 22, 45300873136903003 E 23, 84566084377324556 E 24, 14758390066196406 E 24, 24176559858281942 E 25, 37310492979065142 E 26, 54419386386446819 E 27, 75236392866902560 E 28, 98855076119931130 E 29, 12373915487199412 E 29, 14787738214328818 E 30, 16906436980709982 E 31, 18524945939697360 E 32, 19487346505209646 E 33, 19711525341573190 E 34, 19199540309384886 E 35, 18032310745804457 E 36, 16351169097327965 E 37, 14331576408288935 E 38, 12155281922725012 E 39, 99864368246209494 E 41, 79552173183362467 E 42, 61501590612197740 E 43, 46183592775305953 E 44, 33713952781942580 E 45, 23943447361841183 E 46, 16555244769290420 E 47, 11152111046342572 E 48, 73238040530761748 E 50, 46918720180999817 E 51, 29338919369873878 E 52, 17917492764989039 E 53, 10692541547715661 E 54, 62384998170187481 E 56, 35603280639486447 E 57, 19884580563342859 E 58, 10873184119689164 E 59, 58237158919232447 E 61, 30565280599827354 E 62, 15725912301539875 E 63, 79346963444866003 E 65, 39276534128755136 E 66, 19080061340166699 E 67, 90995483883017095 E 69, 42618454852200544 E 70, 19608870846316410 E 71, 88658198961450694 E 73, 39402745420386967 E 74, 17218717286580692 E 75, bnil.
Definition r522 := 95782639922578391 E 18, 77439076567349135 E 18, 51277423504561631 E 18, 28322770528496979 E 18, 13296696742209381 E 18, 53974313177911504 E 19, 19227993292395232 E 19, 60885061278850643 E 20, 17322860283576903 E 20, 44696159108798985 E 21, 10541433665811047 E 21, 22880926371453310 E 22, 45979944084119685 E 23, 85988035415461756 E 24, 15033740416394625 E 24, 24672553243804862 E 25, 38145783865611480 E 26, 55740252416540371 E 27, 77205140241392044 E 28, 10163024370096188 E 28, 12744983958458308 E 29, 15259635674770738 E 30, 17478598881956994 E 31, 19187801791126616 E 32, 20222562174720373 E 33, 20493691447338627 E 34, 19999007099873023 E 35, 18818615436409383 E 36, 17096401553364119 E 37, 15013098158649915 E 38, 12757413266785282 E 39, 10500985838358002 E 40, 83809668767001099 E 42, 64915972735264877 E 43, 48840107997525012 E 44, 35720929026057373 E 45, 25417005020563207 E 46, 17607526166817458 E 47, 11883524065307768 E 48, 78189901899870782 E 50, 50186421457584100 E 51, 31442032775756614 E 52, 19238466854581628 E 53, 11502736120797967 E 54, 67239986585019373 E 56, 38447220287000820 E 57, 21513895825547911 E 58, 11786565527754554 E 59, 63249750132521979 E 61, 33259468646068863 E 62, 17144752790860542 E 63, 86671100534095767 E 65, 42983911527463931 E 66, 20920953057635774 E 67, 99965604723921901 E 69, 46909159345579438 E 70, 21624289711505825 E 71, 97957479675994432 E 73, 43618901660304761 E 74, 19097595462175849 E 75, bnil.
Definition r523 := 95599554471016618 E 18, 77325960926494547 E 18, 51244318757922229 E 18, 28335216416052651 E 18, 13319554912345067 E 18, 54143762227246298 E 19, 19317655337655407 E 19, 61266457091735610 E 20, 17460137243469244 E 20, 45126649045506774 E 21, 10661347221570323 E 21, 23181802782071901 E 22, 46667295794405768 E 23, 87430001227947551 E 24, 15313486977598158 E 24, 25177407403095393 E 25, 38997589736953982 E 26, 57089762643225989 E 27, 79220364684099123 E 28, 10447627711099972 E 28, 13126245822064012 E 29, 15745412210142112 E 30, 18068702596245745 E 31, 19872737589626326 E 32, 20983707593145348 E 33, 21304978725306135 E 34, 20829812869768942 E 35, 19637294905843956 E 36, 17873792098467567 E 37, 15725380426363177 E 38, 13387918918597176 E 39, 11040807388845100 E 40, 88284779070573622 E 42, 68511710857944392 E 43, 51643055274807575 E 44, 37842569615240363 E 45, 26977721205300058 E 46, 18724173786165873 E 47, 12661156930694737 E 48, 83464729502495266 E 50, 53673889208827309 E 51, 33690873930199002 E 52, 20653670009850989 E 53, 12372381858647980 E 54, 72461181889736916 E 56, 41511517947048141 E 57, 23272810041796583 E 58, 12774483257240486 E 59, 68681754266049422 E 61, 36184664875679309 E 62, 18688193923778259 E 63, 94653665323587552 E 65, 47032301733297243 E 66, 22935018025654489 E 67, 10979831561021356 E 68, 51621464443641062 E 70, 23841975468480394 E 71, 10820960734494495 E 72, 48275956685629011 E 74, 21176925281123297 E 75, bnil.
Definition r524 := 95417166724949778 E 18, 77213144968762068 E 18, 51211167697032559 E 18, 28347526937242452 E 18, 13342334002243031 E 18, 54313044143059503 E 19, 19407407661045861 E 19, 61648953656556662 E 20, 17598064234819238 E 20, 45559971695477142 E 21, 10782271696653073 E 21, 23485774913331339 E 22, 47363003622138128 E 23, 88892204017383867 E 24, 15597687276846202 E 24, 25691255768228199 E 25, 39866191777989952 E 26, 58468461033376224 E 27, 81283040073483126 E 28, 10739480043900551 E 28, 13517954719332587 E 29, 16245440472810796 E 30, 18677265194967473 E 31, 20580433209446379 E 32, 21771632389915637 E 33, 22146398986877089 E 34, 21693108589405030 E 35, 20489602431093418 E 36, 18684649570010261 E 37, 16469736447921244 E 38, 14048066872488449 E 39, 11607081391751181 E 40, 92988099963175493 E 42, 72297999372543130 E 43, 54600152881690752 E 44, 40085149398089932 E 45, 28630541481317366 E 46, 19908970083478140 E 47, 13487819389640192 E 48, 89082812441968505 E 50, 57395376442647642 E 51, 36095191039487692 E 52, 22169597933702871 E 53, 13305698672538179 E 54, 78075328534525600 E 56, 44812719155011712 E 57, 25171320807398253 E 58, 13842840905682328 E 59, 74567257019972231 E 61, 39360121450833887 E 62, 20366878270973172 E 63, 10335226441612928 E 64, 51452250245477248 E 66, 25138129065007815 E 67, 12057448296126035 E 68, 56795777264737413 E 70, 26281738137768717 E 71, 11950990657202607 E 72, 53418947343154754 E 74, 23477605391338404 E 75, bnil.
Definition r525 := 95235472719109551 E 18, 77100627715345788 E 18, 51177971167483391 E 18, 28359702793933027 E 18, 13365034108906028 E 18, 54482157500941250 E 19, 19497249182326218 E 19, 62032547637525296 E 20, 17736641430332717 E 20, 45996134821622174 E 21, 10904212091742238 E 21, 23792864546532030 E 22, 48067143326154031 E 23, 90374867693487203 E 24, 15886399409320449 E 24, 26214233372408562 E 25, 40751875132683334 E 26, 59876900329330740 E 27, 83394157979618924 E 28, 11038747055993343 E 28, 13920369922398030 E 29, 16760102135869032 E 30, 19304817301958046 E 31, 21311587704785649 E 32, 22587211862612866 E 33, 23018996634696483 E 34, 22590084605057798 E 35, 21376836673336765 E 36, 19530332822881271 E 37, 17247532277994783 E 38, 14739178665856580 E 39, 12201039957093813 E 40, 97930717344004909 E 42, 76284476407495839 E 43, 57719507158162379 E 44, 42455271391098482 E 45, 30380680067684491 E 46, 21165910650858175 E 47, 14366485217282747 E 48, 95065665510147813 E 50, 61366026231931183 E 51, 38665360945399781 E 52, 23793178491821534 E 53, 14307195864109194 E 54, 84111059869161264 E 56, 48368572003760808 E 57, 27220172930919722 E 58, 14997995470299853 E 59, 80943032281893129 E 61, 42806648692932834 E 62, 22192331807693215 E 63, 11282940575160272 E 64, 56276964997832452 E 66, 27547575593780327 E 67, 13238235908014773 E 68, 62476279997285202 E 70, 28965280017334840 E 71, 13196300759304185 E 72, 59097401716143948 E 74, 26022662563538097 E 75, bnil.
Definition r526 := 95054468517954363 E 18, 76988408189658880 E 18, 51144730006742065 E 18, 28371744685151225 E 18, 13387655330685299 E 18, 54651100889216301 E 19, 19587178823701015 E 19, 62417235682822418 E 20, 17875868989417713 E 20, 46435146143621386 E 21, 11027173405810869 E 21, 24103093523612372 E 22, 48779791069518647 E 23, 91878217878413589 E 24, 16179682041732540 E 24, 26746476863520362 E 25, 41654928946769533 E 26, 61315642163072150 E 27, 85554727932609253 E 28, 11345597770162245 E 28, 14333756443340680 E 29, 17289788086627563 E 30, 19951903412042434 E 31, 22066919799810915 E 32, 23431347685016420 E 33, 23923849627851290 E 34, 23521971884881076 E 35, 22300343205856249 E 36, 20412252514545809 E 37, 18060188781231573 E 38, 15462631506552573 E 39, 12823969568580772 E 40, 10312422859461427 E 41, 80481244151252703 E 43, 61009631069919777 E 44, 44959883139596805 E 45, 32233633776442868 E 46, 22499215708098913 E 47, 15300301394443117 E 48, 10143610026393968 E 49, 65601925144180550 E 51, 41412428145639073 E 52, 25531799421775647 E 53, 15381691273163513 E 54, 90599026999502988 E 56, 52198111650647713 E 57, 29430912480831090 E 58, 16246791077524963 E 59, 87848747658615324 E 61, 46546737438113644 E 62, 24177035113902707 E 63, 12315290381377328 E 64, 61542542004132825 E 66, 30182186635990300 E 67, 14531823890538822 E 68, 68711273466898019 E 70, 31916371858820498 E 71, 14568373216955298 E 72, 65365776123554053 E 74, 28837463237004563 E 75, bnil.
Definition r527 := 94874150215395914 E 18, 76876485417356269 E 18, 51111445044225365 E 18, 28383653307085532 E 18, 13410197767261664 E 18, 54819872908891424 E 19, 19677195509845181 E 19, 62803014424801676 E 20, 18015747058219305 E 20, 46877013337716828 E 21, 11151160635965350 E 21, 24416483746670270 E 22, 49501023419275176 E 23, 93402481912037408 E 24, 16477594415710208 E 24, 27288124517724633 E 25, 42575646410749079 E 26, 62785257171475684 E 27, 87765777694172632 E 28, 11660204601969795 E 28, 14758385145100517 E 29, 17834898623694876 E 30, 20619082216161720 E 31, 22847168389835312 E 32, 24304968632755370 E 33, 24862070473070471 E 34, 24490043300975435 E 35, 23261516089403166 E 36, 21331872949206471 E 37, 18909183694076933 E 38, 16219860479396957 E 39, 13477213348462129 E 40, 10858076491661214 E 41, 84898890056459781 E 43, 64479463610353031 E 44, 47606293854027155 E 45, 34195196640757239 E 46, 23913342185863298 E 47, 16292597776394107 E 48, 10821830005028106 E 49, 70120159748557803 E 51, 44348146141613344 E 52, 27393337751594824 E 53, 16534331646038883 E 54, 97572036122673911 E 56, 56321750558845947 E 57, 31815944610884123 E 58, 17596595140338567 E 59, 95327185226356459 E 61, 50604690705601771 E 62, 26334500141192124 E 63, 13439631735881789 E 64, 67288209582558563 E 66, 33062464214518412 E 67, 15948717357431154 E 68, 75553551140906380 E 70, 35161045020137147 E 71, 16079806167491497 E 72, 72283933580742076 E 74, 31949945581033875 E 75, bnil.
Definition r528 := 94694513934528560 E 18, 76764858426356192 E 18, 51078117101371633 E 18, 28395429353087594 E 18, 13432661519626724 E 18, 54988472173602291 E 19, 19767298167929137 E 19, 63189880480191965 E 20, 18156275769655057 E 20, 47321744036510628 E 21, 11276178777288851 E 21, 24733057177481308 E 22, 50230917346176855 E 23, 94947888857181383 E 24, 16780196351181966 E 24, 27839316253107569 E 25, 43514324803169908 E 26, 64286325112635720 E 27, 90028353532427788 E 28, 11982743418056465 E 28, 15194532854197999 E 29, 18395843657695948 E 30, 21306926933197770 E 31, 23653093053876828 E 32, 25209031326951606 E 33, 25834807242553236 E 34, 25495614948542074 E 35, 24261799496364893 E 36, 22290713982866148 E 37, 19796053758892919 E 38, 17012360834565943 E 39, 14162173411028203 E 40, 11431301458910524 E 41, 89548508960333599 E 43, 68138390080311064 E 44, 50402192356349658 E 45, 36271475264391658 E 46, 25412996429296113 E 47, 17346897277787581 E 48, 11543789918922110 E 49, 74938876370032436 E 51, 47485021246678840 E 52, 29386191029112461 E 53, 17770614299397337 E 54, 10506519487822390 E 55, 60761374848229185 E 57, 34388595419260330 E 58, 19055337112288665 E 59, 10342447858943909 E 60, 55006765365203624 E 62, 28679352968225171 E 63, 14663942219715325 E 64, 73556592644155452 E 66, 36210727979860152 E 67, 17500374557519433 E 68, 83060806193151964 E 70, 38727801004539939 E 71, 17744419479937468 E 72, 79917667554946037 E 74, 35390874011928383 E 75, bnil.
Definition r529 := 94515555827361417 E 18, 76653526246861364 E 18, 51044746991712249 E 18, 28407073513673997 E 18, 13455046690064231 E 18, 55156897309560325 E 19, 19857485727643523 E 19, 63577830450299154 E 20, 18297455243450903 E 20, 47769345828765699 E 21, 11402232822685224 E 21, 25052835837014769 E 22, 50969550224401691 E 23, 96514669504800632 E 24, 17087548249760279 E 24, 28400193643378327 E 25, 44471265534198769 E 26, 65819434983276181 E 27, 92343520499902630 E 28, 12313393595257908 E 28, 15642482475286458 E 29, 18973042915686895 E 30, 22016025648614220 E 31, 24485474578822894 E 32, 26144520996249880 E 33, 26843244619068279 E 34, 26540047503094063 E 35, 25302689385115643 E 36, 23290352991143985 E 37, 20722396932724072 E 38, 17841690360674955 E 39, 14880313307996947 E 40, 12033424718142359 E 41, 94441726158515073 E 43, 71996263283169589 E 44, 53355665872868469 E 45, 38468904926294844 E 46, 27003147552394460 E 47, 18466926600025275 E 48, 12312206653537859 E 49, 80077344269296652 E 51, 50836358995272587 E 52, 31519310469129174 E 53, 19096410158674022 E 54, 11311606828532312 E 55, 65540447154634638 E 57, 37163178113122978 E 58, 20631550018400662 E 59, 11219036741291474 E 60, 59781324539167162 E 62, 31227422997438690 E 63, 15996872175108503 E 64, 80393998645214939 E 66, 39651271994001895 E 67, 19199291065533502 E 68, 91296074471630046 E 70, 42647839917371315 E 71, 19577370295401582 E 72, 88339275193975585 E 74, 39194118284117952 E 75, bnil.
Definition r530 := 94337272074553627 E 18, 76542487911379645 E 18, 51011335520942530 E 18, 28418586476528219 E 18, 13477353382131655 E 18, 55325146955499333 E 19, 19947757121223588 E 19, 63966860921207307 E 20, 18439285586177519 E 20, 48219826259209239 E 21, 11529327762723203 E 21, 25375841804946425 E 22, 51716999831249164 E 23, 98103056379116786 E 24, 17399711098122852 E 24, 28970899931615672 E 25, 45446774189481472 E 26, 67385185137248010 E 27, 94712362714790227 E 28, 12652338080548263 E 28, 16102523107558966 E 29, 19566926149321114 E 30, 22746981660032047 E 31, 25345115495428738 E 32, 27112452257636027 E 33, 27888604968977431 E 34, 27624747616717776 E 35, 26385735225965762 E 36, 24332426901744382 E 37, 21689874673124590 E 38, 18709471845474713 E 39, 15633160569142675 E 40, 12665833875793756 E 41, 99590721471094804 E 43, 76063425674218027 E 44, 56475219711288791 E 45, 40794266475570187 E 46, 28689041474867297 E 47, 19656627528630665 E 48, 13129959364915082 E 49, 85556022436487130 E 51, 54416313301013464 E 52, 33802236131511999 E 53, 20517988255080363 E 54, 12176484487066556 E 55, 70684116421410192 E 57, 40155063767832848 E 58, 22334414955256458 E 59, 12167847067502260 E 60, 64959001525903214 E 62, 33995839078833070 E 63, 17447799831563211 E 64, 87850726927217063 E 66, 43410534661706730 E 67, 21059091207327141 E 68, 10032821644907117 E 69, 46955309502797994 E 71, 21595279216221343 E 72, 97628184581870806 E 74, 43396959468735525 E 75, bnil.
Definition r531 := 94159658885152250 E 18, 76431742454743712 E 18, 50977883486991969 E 18, 28429968926502704 E 18, 13499581700641892 E 18, 55493219762622050 E 19, 20038111283473092 E 19, 64356968463979156 E 20, 18581766891287129 E 20, 48673192828339064 E 21, 11657468585481036 E 21, 25702097219168780 E 22, 52473344346819472 E 23, 99713283742704530 E 24, 17716746471391839 E 24, 29551580044063168 E 25, 46441160574292003 E 26, 68984183405118783 E 27, 97135983645477119 E 28, 12999763451818276 E 28, 16574950163033817 E 29, 20177933346824163 E 30, 23500413829861217 E 31, 26232840626382839 E 32, 28113869916453937 E 33, 28972149443853257 E 34, 28751169354402681 E 35, 27512541780162114 E 36, 25418634293533876 E 37, 22700214303535958 E 38, 19617395627169704 E 39, 16422309341633407 E 40, 13329979811311198 E 41, 10500825434098674 E 42, 80350732504956341 E 44, 59769797861418073 E 45, 43254704053671767 E 46, 30476215674686660 E 47, 20920168829514034 E 48, 14000098782072841 E 49, 91396630196624649 E 51, 58239938519929613 E 52, 36245134249745945 E 53, 22042041769975165 E 54, 13105451362845681 E 55, 76219335073736146 E 57, 43380756988827733 E 58, 24173808765371365 E 59, 13194657997122644 E 60, 70572876088944401 E 62, 37003133082169647 E 63, 19026890816970179 E 64, 95981403300969694 E 66, 47517282880117457 E 67, 23094627323770092 E 68, 11023244149338689 E 69, 51687576564937297 E 71, 23816368099669118 E 72, 10787164098347028 E 73, 48040425345163705 E 75, bnil.
Definition r532 := 93982712496333096 E 18, 76321288914130606 E 18, 50944391680094042 E 18, 28441221545621179 E 18, 13521731751645118 E 18, 55661114394546241 E 19, 20128547151787904 E 19, 64748149634855578 E 20, 18724899239150824 E 20, 49129452992232724 E 21, 11786660276391392 E 21, 26031624275298560 E 22, 53238662353674831 E 23, 10134558760152823 E 23, 18038716536510929 E 24, 30142380603972313 E 25, 47454738757970338 E 26, 70617047214859743 E 27, 99615506398367958 E 28, 13355859979496687 E 28, 17060065486742529 E 29, 20806514948834950 E 30, 24276956945110880 E 31, 27149497646675013 E 32, 29149849786037977 E 33, 30095179111372424 E 34, 29920815671479785 E 35, 28684770933428223 E 36, 26550737564232444 E 37, 23755211460775796 E 38, 20567222239462782 E 39, 17249423131659691 E 40, 14027379407630126 E 41, 11070769000634073 E 42, 84869576004508737 E 44, 63248804560575921 E 45, 45857743682287526 E 46, 32370514691062798 E 47, 22261958774412805 E 48, 14925857020216937 E 49, 97622221835024827 E 51, 62323244583451431 E 52, 38858836836191228 E 53, 23675715720606491 E 54, 14103105249264852 E 55, 82174984054386171 E 57, 46857976804060876 E 58, 26160355104669949 E 59, 14305697429308103 E 60, 76658664014204257 E 62, 40269351476862309 E 63, 20745162392051980 E 64, 10484534187448141 E 65, 52002811562226813 E 67, 25322087526578095 E 68, 12109087807248942 E 69, 56885522731617898 E 71, 26260610495512578 E 72, 11916545748356247 E 73, 53169657962190562 E 75, bnil.
Definition r533 := 93806429173144135 E 18, 76211126329080253 E 18, 50910860882855076 E 18, 28452345013081110 E 18, 13543803642410835 E 18, 55828829527251097 E 19, 20219063666179278 E 19, 65140400975455422 E 20, 18868682697096445 E 20, 49588614162359892 E 21, 11916907818086814 E 21, 26364445226181805 E 22, 54013032836483904 E 23, 10300020570993095 E 23, 18365684055620123 E 24, 30743449945493958 E 25, 48487827118650284 E 26, 72284403713635582 E 27, 10215207400903460 E 27, 13720821689023850 E 28, 17558177478844771 E 29, 21453132068171763 E 30, 25077262084503030 E 31, 28095957656508792 E 32, 30221499527387616 E 33, 31259036116183241 E 34, 31135239933235037 E 35, 29904143585572113 E 36, 27730565168783429 E 37, 24856732627276702 E 38, 21560785153529503 E 39, 18116237652060351 E 40, 14759618392721462 E 41, 11670302679027346 E 42, 89631910642054090 E 44, 66922126866506565 E 45, 48611312757069019 E 46, 34378106414178107 E 47, 23686658327248973 E 48, 15910657931560194 E 49, 10425726546181293 E 50, 66683255374745909 E 52, 41654883697409861 E 53, 25426636386712318 E 54, 15174362904266693 E 55, 88582006229479538 E 57, 50605743136038137 E 58, 28305479136420459 E 59, 15507675780279518 E 60, 83254920902394797 E 62, 43816175519508114 E 63, 22614552771710503 E 64, 11450693627769971 E 65, 56901159780913637 E 67, 27759112652226871 E 68, 13299319380804938 E 69, 62593866685637864 E 71, 28949895857309284 E 72, 13161483590869086 E 73, 58834316377147334 E 75, bnil.
Definition r534 := 93630805208251885 E 18, 76101253741513677 E 18, 50877291870322854 E 18, 28463340005256327 E 18, 13565797481410055 E 18, 55996363849023017 E 19, 20309659769296570 E 19, 65533719012972856 E 20, 19013117319446649 E 20, 50050683705396860 E 21, 12048216190245416 E 21, 26700582381395889 E 22, 54796535181647430 E 23, 10467737757557139 E 23, 18697712389427726 E 24, 31354938127616191 E 25, 49540748388274867 E 26, 73986889890699310 E 27, 10474684973670795 E 27, 14094846424185585 E 28, 18069601218694089 E 29, 22118256713581262 E 30, 25901996993014706 E 31, 29073115767000227 E 32, 31329959509315393 E 33, 32465104871456948 E 34, 32396047477785196 E 35, 31172441597724243 E 36, 28960013930518493 E 37, 26006717750787927 E 38, 22599993620224201 E 39, 19024563779772561 E 40, 15528354296442080 E 41, 12300892455281450 E 42, 94650279515905977 E 44, 70800158282368894 E 45, 51523760489121430 E 46, 36505499199678887 E 47, 25199195024664376 E 48, 16958128021901231 E 49, 11132772634606812 E 50, 71338070531347266 E 52, 44645567000405735 E 53, 27302942583252834 E 54, 16324481420729047 E 55, 95473548704430703 E 57, 54644469224934924 E 58, 30621466100468729 E 59, 16807822222837779 E 60, 90403261231571498 E 62, 47667050692500182 E 63, 24647995923966533 E 64, 12503608260221993 E 65, 62249344878336073 E 67, 30424923177115623 E 68, 14603726961693368 E 69, 68861515168750274 E 71, 31908208755564880 E 72, 14533526444390441 E 73, 65089017855492718 E 75, bnil.
Definition r535 := 93455836921690350 E 18, 75991670195750691 E 18, 50843685410054441 E 18, 28474207195699819 E 18, 13587713378297681 E 18, 56163716060401740 E 19, 20400334406449872 E 19, 65928100260375635 E 20, 19158203147557687 E 20, 50515668943044661 E 21, 12180590369437043 E 21, 27040058106749408 E 22, 55589249176907470 E 23, 10637734446431285 E 23, 19034865500579784 E 24, 31976996948149719 E 25, 50613829697901827 E 26, 75725152701400045 E 27, 10740101736214483 E 27, 14478135911316776 E 28, 18594658590879715 E 29, 22802372017531080 E 30, 26751846463977682 E 31, 30081891698913124 E 32, 32476403689511471 E 33, 33714813281850609 E 34, 33704897223332866 E 35, 32491509798812826 E 36, 30241051427296781 E 37, 27207182954336565 E 38, 23686835615926654 E 39, 19976290627064894 E 40, 16335319527079351 E 41, 12964073435167192 E 42, 99937841916703122 E 44, 74893823480250483 E 45, 54603879338012215 E 46, 38759559847671525 E 47, 26804777585590673 E 48, 18072107962514278 E 49, 11886115496211521 E 50, 76306930866928429 E 52, 47843978538519606 E 53, 29313318890663361 E 54, 17559080977731594 E 55, 10288511462388364 E 56, 58996060398122790 E 58, 33121524023096364 E 59, 18213923561520476 E 60, 98148593797562222 E 62, 51847326083733967 E 63, 26859502266255058 E 64, 13650863655134508 E 65, 68087615991079273 E 67, 33340456918646074 E 68, 16032993252938875 E 69, 75741945258881434 E 71, 35161824427457331 E 72, 16045349892645208 E 73, 71993821111743649 E 75, bnil.
Definition r536 := 93281520660612655 E 18, 75882374738526756 E 18, 50810042262183504 E 18, 28484947255146650 E 18, 13609551443894962 E 18, 56330884874125709 E 19, 20491086525631940 E 19, 66323541216601971 E 20, 19303940209858570 E 20, 50983577151849482 E 21, 12314035328969882 E 21, 27382894823779252 E 22, 56391255010938235 E 23, 10810034940506033 E 23, 19377207957026351 E 24, 32609779957758899 E 25, 51707402623296998 E 26, 77499849192305043 E 27, 11011578148888803 E 27, 14870895824382771 E 28, 19133678413268592 E 29, 23505972468105235 E 30, 27627512728864262 E 31, 31123230394681430 E 32, 33662040516972719 E 33, 35009633998621856 E 34, 35063503320938983 E 35, 33863258052918724 E 36, 31575718454852049 E 37, 28460223339323030 E 38, 24823380895542471 E 39, 20973388730641462 E 40, 17182324572133515 E 41, 13661452936015580 E 42, 10550840211403466 E 43, 79214604171576489 E 45, 57860927481959534 E 46, 41147532487780487 E 47, 28508911286371787 E 48, 19256664728371716 E 49, 12688678000302920 E 50, 81610287615429052 E 52, 51264059854025739 E 53, 31467030960463893 E 54, 18884169058622267 E 55, 11085472506497062 E 56, 63684019606738060 E 58, 35819850850350732 E 59, 19734365928803405 E 60, 10653937471772642 E 61, 56384404447223503 E 63, 29264245709999214 E 64, 14900690748622908 E 65, 74459728555069295 E 67, 36528518413178007 E 68, 17598775215139147 E 69, 83293620632405371 E 71, 38739522113378784 E 72, 17710863541730249 E 73, 79614755497475467 E 75, bnil.
Definition r537 := 93107852799045307 E 18, 75773366419009558 E 18, 50776363179486896 E 18, 28495560851517113 E 18, 13631311790172221 E 18, 56497869015078037 E 19, 20581915077540055 E 19, 66720038366756599 E 20, 19450328521890460 E 20, 51454415563026209 E 21, 12448556038737425 E 21, 27729115009245296 E 22, 57202633272920029 E 23, 10984663719454768 E 23, 19724804935384899 E 24, 33253442474039360 E 25, 52821803230817437 E 26, 79311646627444220 E 27, 11289236784795037 E 27, 15273335850948079 E 28, 19686996567073478 E 29, 24229564145064371 E 30, 28529715854892054 E 31, 32198102643976450 E 32, 34888113856255631 E 33, 36351085707653704 E 34, 36473636853981210 E 35, 35289663389198022 E 36, 32966131569646380 E 37, 29768015884713329 E 38, 26011784156282919 E 39, 22017913362844948 E 40, 18071261328044781 E 41, 14394713709242824 E 42, 11137643941779029 E 43, 83774566174804459 E 45, 61304652372860600 E 46, 43677058413727933 E 47, 30317414139700426 E 48, 20516104395264585 E 49, 13543560662962853 E 50, 87269875711689749 E 52, 54920655383241504 E 53, 33773963020875860 E 54, 20306166226947233 E 55, 11942309167094197 E 56, 68733560176807269 E 58, 38731706306345917 E 59, 21378179500352219 E 60, 11562787926648459 E 61, 61307903737746809 E 63, 31878657537793517 E 64, 16262019225830677 E 65, 81413241476541018 E 67, 40013940933304054 E 68, 19313790614731959 E 69, 91580444752001484 E 71, 42672817755840837 E 72, 19545328232371004 E 73, 88024400395657171 E 75, bnil.
Definition r538 := 92934829737645122 E 18, 75664644288814906 E 18, 50742648907450928 E 18, 28506048649919975 E 18, 13652994530231645 E 18, 56664667220231698 E 19, 20672819015597373 E 19, 67117588182306139 E 20, 19597368086346931 E 20, 51928191362284751 E 21, 12584157465065947 E 21, 28078741194622636 E 22, 58023464952095309 E 23, 11161645440207376 E 23, 20077722224300079 E 24, 33908141595640553 E 25, 53957372123582588 E 26, 81161222615678506 E 27, 11573202360594233 E 27, 15685669759040593 E 28, 20254956128971537 E 29, 24973664960131547 E 30, 29459194150579159 E 31, 33307505723077808 E 32, 36155903934017580 E 33, 37740734451159859 E 34, 37937127585488671 E 35, 36772772196097850 E 36, 34414485713586918 E 37, 31132822445372692 E 38, 27254288315959910 E 39, 23112007969323057 E 40, 19004106563735714 E 41, 15165617298809679 E 42, 11755713956752644 E 43, 88586387732870415 E 45, 64945315425880831 E 46, 46356196912864099 E 47, 32236433917443505 E 48, 21854985629996298 E 49, 14454052023703959 E 50, 93308791334202147 E 52, 58829568799174062 E 53, 36244657714276307 E 54, 21831933556738803 E 55, 12863380071211501 E 56, 74171726250952053 E 58, 41873488797853645 E 59, 23155086440749763 E 60, 12547049389961331 E 61, 66649830969628397 E 63, 34720527633318056 E 64, 17744535193769326 E 65, 88999838786849979 E 67, 43823762183911771 E 68, 21191912056037972 E 69, 10067225416802686 E 70, 46996217772086515 E 72, 21565484107615584 E 73, 97302519465244708 E 75, bnil.
Definition r539 := 92762447903458639 E 18, 75556207402022138 E 18, 50708900184336846 E 18, 28516411312655872 E 18, 13674599778290266 E 18, 56831278238595080 E 19, 20763797295973905 E 19, 67516187121273951 E 20, 19745058893114127 E 20, 52404911689658969 E 21, 12720844570562285 E 21, 28431795965591254 E 22, 58853831437307294 E 23, 11341004937418591 E 23, 20436026227800154 E 24, 34574036216433292 E 25, 55114454487934123 E 26, 83049265239197830 E 27, 11863601767667133 E 27, 16108115464920568 E 28, 20837907505299367 E 29, 25738804901566192 E 30, 30416704579386180 E 31, 34452464048313370 E 32, 37466728308322245 E 33, 39180194983859867 E 34, 39455865754574430 E 35, 38314702481637256 E 36, 35923056923029027 E 37, 32556992852677345 E 38, 28553227909650870 E 39, 24257907737671072 E 40, 19982925523013308 E 41, 15976007541013185 E 42, 12406642750525117 E 43, 93663389135033358 E 45, 68793717895490824 E 46, 49193447138146344 E 47, 34272466059335812 E 48, 23278133909517583 E 49, 15423639603545910 E 50, 99751573947666239 E 52, 63007622736452037 E 53, 38890358405909264 E 54, 23468801819405113 E 55, 13853350930340891 E 56, 80027521426982247 E 58, 45262817707596966 E 59, 25075552305431447 E 60, 13612802991887935 E 61, 72444769310743410 E 63, 37809113622468652 E 64, 19358743478293835 E 65, 97275677740405833 E 67, 47987414799529388 E 68, 23248269126478981 E 69, 11064535538900964 E 70, 51747495758954078 E 72, 23789690515589624 E 73, 10753675479848382 E 74, bnil.
Definition r540 := 92590703749684145 E 18, 75448054815189139 E 18, 50675117741245716 E 18, 28526649499220891 E 18, 13696127649663105 E 18, 56997700831157138 E 19, 20854848877607255 E 19, 67915831628433869 E 20, 19893400919311779 E 20, 52884583639338929 E 21, 12858622313962251 E 21, 28788301961523483 E 22, 59693814516521562 E 23, 11522767223931323 E 23, 20799783968649701 E 24, 35251287039722084 E 25, 56293400140184519 E 26, 84976473183154215 E 27, 12160564103623797 E 27, 16540895101763489 E 28, 21436208568350246 E 29, 26525526283089737 E 30, 31403023181581642 E 31, 35634029843837542 E 32, 38821942861192559 E 33, 40671132164428699 E 34, 41031803923213245 E 35, 39917646201568313 E 36, 37494205124553484 E 37, 34042968120630302 E 38, 29911032608706746 E 39, 25457943301711044 E 40, 21009875671051451 E 41, 16827814211208387 E 42, 13092100158919602 E 43, 99019563700012211 E 45, 72861227992077521 E 46, 52197771072212990 E 47, 36432372511505426 E 48, 24790656506638192 E 49, 16456021475694985 E 50, 10662429309572048 E 51, 67472722093515488 E 53, 41723054111271820 E 54, 25224602535537551 E 55, 14917215455251761 E 56, 86332046131804021 E 58, 48918621441072917 E 59, 27150841139795314 E 60, 14766606032949440 E 61, 78730079388010348 E 63, 41165258525279946 E 64, 21116034905046594 E 65, 10630176546713559 E 66, 52536932854898984 E 68, 25499359335810478 E 69, 12158310906635147 E 70, 56967994148034380 E 72, 26238078813011906 E 73, 11882338650858553 E 74, bnil.
Definition r541 := 92419593755436250 E 18, 75340185587366659 E 18, 50641302302183028 E 18, 28536763866310259 E 18, 13717578260746455 E 18, 57163933770832528 E 19, 20945972722222813 E 19, 68316518135503701 E 20, 20042394129334294 E 20, 53367214259505123 E 21, 12997495649979258 E 21, 29148281874968859 E 22, 60543496376329468 E 23, 11706957491234581 E 23, 21169063091698195 E 24, 35940056592500849 E 25, 57494563573653202 E 26, 86943555866431641 E 27, 12464220704164937 E 27, 16984235089265068 E 28, 22050224794798564 E 29, 27334383997225212 E 30, 32418945504468679 E 31, 36853283824019009 E 32, 40222942814902116 E 33, 42215262383039716 E 34, 42666958874638915 E 35, 41583871657274663 E 36, 39130377020069628 E 37, 35593283760799213 E 38, 31330230866198213 E 39, 26714544586221266 E 40, 22087210590356687 E 41, 17723056823264376 E 42, 13813836930838895 E 43, 10466961017964696 E 44, 77159809295590727 E 46, 55378617635438033 E 47, 38723401540866775 E 48, 26397958281801800 E 49, 17555118481608029 E 50, 11395464020753272 E 51, 72243921117804505 E 53, 44755527198031931 E 54, 27107701006371124 E 55, 16060317646020627 E 56, 93118644303152077 E 58, 52861231615561545 E 59, 29393074532680355 E 60, 16015528155055600 E 61, 85546115850335697 E 63, 44811517562237684 E 64, 23028758951351159 E 65, 11614436645447523 E 66, 57507175697084710 E 68, 27963168585729324 E 69, 13357656555137603 E 70, 62702953001971858 E 72, 28932719228608846 E 73, 13126816376051554 E 74, bnil.
Definition r542 := 92249114425512785 E 18, 75232598780112167 E 18, 50607454584122309 E 18, 28546755067822224 E 18, 13738951729001331 E 18, 57329975842406768 E 19, 21037167794353833 E 19, 68718243061337324 E 20, 20192038474892602 E 20, 53852810552166644 E 21, 13137469529153660 E 21, 29511758451136978 E 22, 61402959601435135 E 23, 11893601109916382 E 23, 21543931867224885 E 24, 36640509239752960 E 25, 58718304005992089 E 26, 88951233573561552 E 27, 12774705175298348 E 27, 17438366204178647 E 28, 22680329406279328 E 29, 28165945773117560 E 30, 33465287041115618 E 31, 38111335890718421 E 32, 41671163772508840 E 33, 43814355025841728 E 34, 44363413564668305 E 35, 43315725965316443 E 36, 40834109063870280 E 37, 37210573209494061 E 38, 32813453693025475 E 39, 28030244797091078 E 40, 23217284031811735 E 41, 18663848587776613 E 42, 14573688456019515 E 43, 11062896664476007 E 44, 81702050525126237 E 46, 58745947992199454 E 47, 41153208573590842 E 48, 28105758322352456 E 49, 18725087126898546 E 50, 12177202569596233 E 51, 77341494491039871 E 53, 48001404027245991 E 54, 29127031446422936 E 55, 17288375544448159 E 56, 10042305998783247 E 57, 57112483805320259 E 59, 31815294898693986 E 60, 17367190175357966 E 61, 92936460309498103 E 63, 48772294805732364 E 64, 25110302185174319 E 65, 12687544330978865 E 66, 62936070511237600 E 68, 30659301966143078 E 69, 14672515622136896 E 70, 69001868329971565 E 72, 31897803046980500 E 73, 14498721379598602 E 74, bnil.
Definition r543 := 92079262290164332 E 18, 75125293457503392 E 18, 50573575297068532 E 18, 28556623754861999 E 18, 13760248172937049 E 18, 57495825842481052 E 19, 21128433061360988 E 19, 69121002812116473 E 20, 20342333895056051 E 20, 54341379473001037 E 21, 13278548897702351 E 21, 29878754487377747 E 22, 62272287174124334 E 23, 12082723630111167 E 23, 21924459194279019 E 24, 37352811198793532 E 25, 59964985426797645 E 26, 91000237587783167 E 27, 13092153425911871 E 27, 17903523651792793 E 28, 23326903512146994 E 29, 29020792438897060 E 30, 34542883677730621 E 31, 39409325845734628 E 32, 43168082783137951 E 33, 45470233977221081 E 34, 46123319127282943 E 35, 45115637600569540 E 36, 42608030534327003 E 37, 38897571370694351 E 38, 34363438569041264 E 39, 29407684562035011 E 40, 24402554126582263 E 41, 19652400535275506 E 42, 15373578655538344 E 43, 11691384591739694 E 44, 86501196725860493 E 46, 62310262112020299 E 47, 43729878108116905 E 48, 29920107472744144 E 49, 19970333193295952 E 50, 13010768163968942 E 51, 82787012643607988 E 53, 51475208708023421 E 54, 31292134345996817 E 55, 18607506541352613 E 56, 10828360450349813 E 57, 61695825283870281 E 59, 34431533282263838 E 60, 18829805772676553 E 61, 10094817185907383 E 62, 53073990417884375 E 64, 27375172938525318 E 65, 13857313344314113 E 66, 68864875143910737 E 68, 33609125739031975 E 69, 16113744533712439 E 70, 75918882503307043 E 72, 35159841483503804 E 73, 16010803608894869 E 74, bnil.
Definition r544 := 91910033904866073 E 18, 75018268686151163 E 18, 50539665144120956 E 18, 28566370575745903 E 18, 13781467712094970 E 18, 57661482579417231 E 19, 21219767493451626 E 19, 69524793781541546 E 20, 20493280316294981 E 20, 54832927931197863 E 21, 13420738697369016 E 21, 30249292832659680 E 22, 63151562473716911 E 23, 12274350781942048 E 23, 22310714604015838 E 24, 38077130553654942 E 25, 61234976645511756 E 26, 93091310325257128 E 27, 13416703700706258 E 27, 18379947138359090 E 28, 23990336254441622 E 29, 29899518188653904 E 30, 35652592149826593 E 31, 40748424118707798 E 32, 44715219432536144 E 33, 47184779160723001 E 34, 47948896935833798 E 35, 46986119014962397 E 36, 44454866702991859 E 37, 40657118278342343 E 38, 35983033493676068 E 39, 30849616227172765 E 40, 25645587764877953 E 41, 20691025810904945 E 42, 16215524041781226 E 43, 12354127261626828 E 44, 91571181937400239 E 46, 66082626644794124 E 47, 46461946755544265 E 48, 31847406801273949 E 49, 21295526104714477 E 50, 13899477035719408 E 51, 88603421539646132 E 53, 55192420149701663 E 54, 33613196199826022 E 55, 20024254336863777 E 56, 11674133485169029 E 57, 66636430232907229 E 59, 37256881995890628 E 60, 20412226229345543 E 61, 10963205645664425 E 62, 57745159270045781 E 64, 29839092696199536 E 65, 15132226451358869 E 66, 75338462828216003 E 68, 36835921440595085 E 69, 17693194759006172 E 70, 83513209571205745 E 72, 38747882740256508 E 73, 17677058940408267 E 74, bnil.
Definition r545 := 91741425850092123 E 18, 74911523535212063 E 18, 50505724821535022 E 18, 28575996176005612 E 18, 13802610467032404 E 18, 57826944873282547 E 19, 21311170063698696 E 19, 69929612351021721 E 20, 20644877652523401 E 20, 55327462789304133 E 21, 13564043865274647 E 21, 30623396387045564 E 22, 64040869276000616 E 23, 12468508475957528 E 23, 22702768263027600 E 24, 38813637269513471 E 25, 62528651339608987 E 26, 95225205470433494 E 27, 13748496613489774 E 27, 18867880944478712 E 28, 24671024955088092 E 29, 30802730854088607 E 30, 36795290507321357 E 31, 42129832510768683 E 32, 46314136959423575 E 33, 48959928119519556 E 34, 49842440721261586 E 35, 48929769333856517 E 36, 46377442103941145 E 37, 42492162881717248 E 38, 37675201180687553 E 39, 32358908314951418 E 40, 26949065147762877 E 41, 21782144147278931 E 42, 17101637954840208 E 43, 13052912188491952 E 44, 96926663410334206 E 46, 70074704171947223 E 47, 49358427462704599 E 48, 33894427051136191 E 49, 22705614087416095 E 50, 14846849919668090 E 51, 94815127187633227 E 53, 59169532606027286 E 54, 36101091746123448 E 55, 21545617657797463 E 56, 12584024411300474 E 57, 71961322917753991 E 59, 40307572425927039 E 60, 22123988445265633 E 61, 11904295654544871 E 62, 62816681797148911 E 64, 32519094716732750 E 65, 16521491170047367 E 66, 82405630584698902 E 68, 40365053107601008 E 69, 19423801692435190 E 70, 91849598515192615 E 72, 42693748862443544 E 73, 19512848022209259 E 74, bnil.
Definition r546 := 91573434731092099 E 18, 74805057076400200 E 18, 50471755018784287 E 18, 28585501198392579 E 18, 13823676559306637 E 18, 57992211555794393 E 19, 21402639748059346 E 19, 70335454889864193 E 20, 20797125805142384 E 20, 55824990863073530 E 21, 13708469333768780 E 21, 31001088101166476 E 22, 64940291752649395 E 23, 12665222803563104 E 23, 23100690976670228 E 24, 39562503207158645 E 25, 63846388103072433 E 26, 97402688112582340 E 27, 14087675180837723 E 27, 19367573999457813 E 28, 25369375265356612 E 29, 31731052180907617 E 30, 37971878588723258 E 31, 43554784954231512 E 32, 47966443398184799 E 33, 50797677637334648 E 34, 51806318748760464 E 35, 50949277132172649 E 36, 48378683906275682 E 37, 44405766957716410 E 38, 39443023401802028 E 39, 33938550149068704 E 40, 28315784518428941 E 41, 22928286522473611 E 42, 18034134982578041 E 43, 13789615987500036 E 44, 10258305744063858 E 45, 74298783898161045 E 47, 52428834975803097 E 48, 36068329125924814 E 49, 24205840166279954 E 50, 15856624188312731 E 51, 10144808514522518 E 52, 63424119916861472 E 54, 38767428868771132 E 55, 23179080842502063 E 56, 13562746460101834 E 57, 77699509361581758 E 59, 43601058361417338 E 60, 23975366455827844 E 61, 12924006238884047 E 62, 68321948002037868 E 64, 35433630441009835 E 65, 18035100009586892 E 66, 90119433211339862 E 68, 44224148715015829 E 69, 21319681268136334 E 70, 10099883773733608 E 71, 47032294155274975 E 73, 21535026174690574 E 74, bnil.
Definition r547 := 91406057177670155 E 18, 74698868383998931 E 18, 50437756418621367 E 18, 28594886282882488 E 18, 13844666111459139 E 18, 58157281470264952 E 19, 21494175525393166 E 19, 70742317755462627 E 20, 20950024663083524 E 20, 56325518921317429 E 21, 13854020030281051 E 21, 31382390975693160 E 22, 65849914470623213 E 23, 12864520037447208 E 23, 23504554192384421 E 24, 40323902137502519 E 25, 65188570495155152 E 26, 99624534883486261 E 27, 14434384856118587 E 27, 19879279956639851 E 28, 26085801317610082 E 29, 32685118110029820 E 30, 39183278504550042 E 31, 45024548288627432 E 32, 49673792748443086 E 33, 52700085400747320 E 34, 53842976054338319 E 35, 53047423292408448 E 36, 50461625392763519 E 37, 46401109153971697 E 38, 41289705484155391 E 39, 35591656652234572 E 40, 29748667079562524 E 41, 24132100010362003 E 42, 19015335571874270 E 43, 14566208605991440 E 44, 10855657689453060 E 45, 78767813851143739 E 47, 55683212605199663 E 48, 38376685662137026 E 49, 25801759041308003 E 50, 16932766678151147 E 51, 10852989530169622 E 52, 67974903664521731 E 54, 41624596324302670 E 55, 24932646410238802 E 56, 14615348460008797 E 57, 83882118084912160 E 59, 47156105225145631 E 60, 25977426701224925 E 61, 14028724669466968 E 62, 74297055591207407 E 64, 38602684285320250 E 65, 19683895576631330 E 66, 98537544926226019 E 68, 48443296999466242 E 69, 23396234961261151 E 70, 11103830435635324 E 71, 51801687073544051 E 73, 23762085352594609 E 74, bnil.
Definition r548 := 91239289843966259 E 18, 74592956534872024 E 18, 50403729697138487 E 18, 28604152066679947 E 18, 13865579246999894 E 18, 58322153471545776 E 19, 21585776377480090 E 19, 71150197293484924 E 20, 21103574102853017 E 20, 56829053685759723 E 21, 14000700877173408 E 21, 31767328060805780 E 22, 66769822391551428 E 23, 13066426632001905 E 23, 23914430003011883 E 24, 41098009756130483 E 25, 66555587089429529 E 26, 10189153409630349 E 26, 14788773563890104 E 27, 20403257269725245 E 28, 26820725879367066 E 29, 33665579063674427 E 30, 40430435130135675 E 31, 46540423053385832 E 32, 51437886172078590 E 33, 54669271703821007 E 34, 55954936742765489 E 35, 55227083946752940 E 36, 52629409547695233 E 37, 48481489166847546 E 38, 43218580966595878 E 39, 37321473322803869 E 40, 31250762103667580 E 41, 25396352830765503 E 42, 20047670838859357 E 43, 15384757745720040 E 44, 11486427049946464 E 45, 83495434659950354 E 47, 59132160354723218 E 48, 40827503743781185 E 49, 27499254890724998 E 50, 18079487245411507 E 51, 11608990223677279 E 52, 72841825474120165 E 54, 44685814464771820 E 55, 26814869739224292 E 56, 15747237956358703 E 57, 90542550513364626 E 59, 50992885611192140 E 60, 28142087311577815 E 61, 15225342421761715 E 62, 80781023294343175 E 64, 42047897460002058 E 65, 21479640930275192 E 66, 10772265088804674 E 67, 53055260937443086 E 69, 25670263884637458 E 70, 12205256218698205 E 71, 57043717661299769 E 73, 26214309260122902 E 74, bnil.
Definition r549 := 91073129408239806 E 18, 74487320608474239 E 18, 50369675523827664 E 18, 28613299184223215 E 18, 13886416090391851 E 18, 58486826425972246 E 19, 21677441289037896 E 19, 71559089838059994 E 20, 21257773988575830 E 20, 57335601830893110 E 21, 14148516791592631 E 21, 32155922455660966 E 22, 67700100871098674 E 23, 13270969223737910 E 23, 24330391150105828 E 24, 41885003697890867 E 25, 67947831523121575 E 26, 10420448588560156 E 26, 15150991734666895 E 27, 20939769270086746 E 28, 27574580509706821 E 29, 34673100236398253 E 30, 41714316607976754 E 31, 48103744297470236 E 32, 53260473218255152 E 33, 56707421196018046 E 34, 58144806348430994 E 35, 57491233505549388 E 36, 54885292757097523 E 37, 50650332058475294 E 38, 45233116420059232 E 39, 39131381396501621 E 40, 32825252243440099 E 41, 26723939607164402 E 42, 21133687586239839 E 43, 16247433484113479 E 44, 12152406398015442 E 45, 88496014985465984 E 47, 62786864481839419 E 48, 43429248816847924 E 49, 29304560149358264 E 50, 19301253090952038 E 51, 12415930147083870 E 52, 78046123700144006 E 54, 47965189137552575 E 55, 28834895984931955 E 56, 16964205870362293 E 57, 97716641695288782 E 59, 55133081560034754 E 60, 30482181690320203 E 61, 16521293814587625 E 62, 87816020495959492 E 64, 45792701502338255 E 65, 23435095596830183 E 66, 11774287099341442 E 67, 58095709248829482 E 69, 28160092747511224 E 70, 13413401260415267 E 71, 62804132798007234 E 73, 28913942807175699 E 74, bnil.
Definition r550 := 90907572572655429 E 18, 74381959686861759 E 18, 50335594561639933 E 18, 28622328267189100 E 18, 13907176767035614 E 18, 58651299211308246 E 19, 21769169247739637 E 19, 71968991711963796 E 20, 21412624172040549 E 20, 57845169983839497 E 21, 14297472685323588 E 21, 32548197307857598 E 22, 68640835658313987 E 23, 13478174631694337 E 23, 24752511027236175 E 24, 42685063551525401 E 25, 69365702546732793 E 26, 10656420234857019 E 26, 15521192340063138 E 27, 21489084245090969 E 28, 28347805718045587 E 29, 35708361891154132 E 30, 43035914859778246 E 31, 49715882406285799 E 32, 55143353077036882 E 33, 58816784674385533 E 34, 60415274260665528 E 35, 59842947774420150 E 36, 57232648624538618 E 37, 52911192717102731 E 38, 47336916437390661 E 39, 41024903199670472 E 40, 34475459049536595 E 41, 28117886839994638 E 42, 22276053536130956 E 43, 17156513103035231 E 44, 12855480312185492 E 45, 93784688679934486 E 47, 66659128558066087 E 48, 46190869864193034 E 49, 31224275313428696 E 50, 20602803896168180 E 51, 13277125193855500 E 52, 83610414755126709 E 54, 51477768953640246 E 55, 31002499378157738 E 56, 18272452796107682 E 57, 10544283201202460 E 58, 59599994030698272 E 60, 33011526697496239 E 61, 17924597520504120 E 62, 95447614388664467 E 64, 49862462263323149 E 65, 25564097686572276 E 66, 12867221853707779 E 67, 63603467405955080 E 69, 30885704505937860 E 70, 14738360284634734 E 71, 69133001701619453 E 73, 31885377199320198 E 74, bnil.
Definition r551 := 90742616063071102 E 18, 74276872854701845 E 18, 50301487467044680 E 18, 28631239944497969 E 18, 13927861403254152 E 18, 58815570716690422 E 19, 21860959244230367 E 19, 72379899226804767 E 20, 21568124492744322 E 20, 58357764724212086 E 21, 14447573464642883 E 21, 32944175812899935 E 22, 69592112894962925 E 23, 13688069857842724 E 23, 25180863683288761 E 24, 43498370874337627 E 25, 70809604073946587 E 26, 10897150768741309 E 26, 15899530928311890 E 27, 22051475517434341 E 28, 29140851125310476 E 29, 36772059660439638 E 30, 44396246108352957 E 31, 51378243946174186 E 32, 57088375862177986 E 33, 60999680921009368 E 34, 62769116215115583 E 35, 62285407162413701 E 36, 59674971905836792 E 37, 55267760465149703 E 38, 49533728798142264 E 39, 43005707700668354 E 40, 36204848703324768 E 41, 29581358603843057 E 42, 23477562787130329 E 43, 18114386133865289 E 44, 13597629884657985 E 45, 99377393755789673 E 47, 70761406102217557 E 48, 49121825904283167 E 49, 33265389825438683 E 50, 21989167813918040 E 51, 14196099503584321 E 52, 89558779350562382 E 54, 55239606127112853 E 55, 33328125050709335 E 56, 19678617040598194 E 57, 11376235060712316 E 58, 64418660059705511 E 60, 35744995755086202 E 61, 19443901154700115 E 62, 10372503594442960 E 63, 54284635142495170 E 65, 27881652588159888 E 66, 14059109652225499 E 67, 69620789746472260 E 69, 33868886602236924 E 70, 16191159669414024 E 71, 76085114349212785 E 73, 35155352067577183 E 74, bnil.
Definition r552 := 90578256628828333 E 18, 74172059199282478 E 18, 50267354890087844 E 18, 28640034842318828 E 18, 13948470126277764 E 18, 58979639842572590 E 19, 21952810272143838 E 19, 72791808683208030 E 20, 21724274777938296 E 20, 58873392583980986 E 21, 14598824030173086 E 21, 33343881213659193 E 22, 70554019114842681 E 23, 13900682087485655 E 23, 25615523825758599 E 24, 44325109206900324 E 25, 72279945231820671 E 26, 11142723835292561 E 26, 16286165660164089 E 27, 22627221525503977 E 28, 29954175627540961 E 29, 37864904852609187 E 30, 45796351409538288 E 31, 53092272526822075 E 32, 59097443923687480 E 33, 63258498586760905 E 34, 65209196852797235 E 35, 64821899983598818 E 36, 62215882566075383 E 37, 57723863819491618 E 38, 51827449814048525 E 39, 45077616266264689 E 40, 38017037972468013 E 41, 31117662477158774 E 42, 24741141504702438 E 43, 19123559628072698 E 44, 14380937439155408 E 45, 10529091324759654 E 46, 75106834862407786 E 48, 52232113880306048 E 49, 35435304095527805 E 50, 23465678360765252 E 51, 15176598060906019 E 52, 95916853935320107 E 54, 59267821100141521 E 55, 35822933545425291 E 56, 21189804518315268 E 57, 12271941130718880 E 58, 69615978128786876 E 60, 38698597218290309 E 61, 21088529163577048 E 62, 11270146609317225 E 63, 59088932423540732 E 65, 30404028752412746 E 66, 15358683462471942 E 67, 76193654415627825 E 69, 37133389764177724 E 70, 17783841287267556 E 71, 83720415703652391 E 73, 38753176167326273 E 74, bnil.
Definition r553 := 90414491042544773 E 18, 74067517810521261 E 18, 50233197474450063 E 18, 28648713584074569 E 18, 13969003064229085 E 18, 59143505500670176 E 19, 22044721328118733 E 19, 73204716370998924 E 20, 21881074842673224 E 20, 59392060047340584 E 21, 14751229276737414 E 21, 33747336799832887 E 22, 71526641243079871 E 23, 14116038689649596 E 23, 26056566824036870 E 24, 45165464087800352 E 25, 73777140411263557 E 26, 11393224318925970 E 26, 16681257345169386 E 27, 23216605904772108 E 28, 30788247561944535 E 29, 38987624763420676 E 30, 47237297194290422 E 31, 54859449681909844 E 32, 61172513190774317 E 33, 65595698122374637 E 34, 67738472348485500 E 35, 67455825854582465 E 36, 64859129962411354 E 37, 60283475408613398 E 38, 54222129861047149 E 39, 47244608630096998 E 40, 39915800397459274 E 41, 32730255713404141 E 42, 26069853854285675 E 43, 20186663662817365 E 44, 15207591468292890 E 45, 11154291805457434 E 46, 79709272826218236 E 48, 55532298009323434 E 49, 37741852718471984 E 50, 25037992259232474 E 51, 16222600027499606 E 52, 10271192763269636 E 53, 63580671180297337 E 55, 38498848176574955 E 56, 22813620618666148 E 57, 13236142185612465 E 58, 75220842297521642 E 60, 41889558379928493 E 61, 22868534249595198 E 62, 12243434359729083 E 63, 64307503626030191 E 65, 33148861115755821 E 66, 16775427004691420 E 67, 83372083000591293 E 69, 40705100413611379 E 70, 19529553697309233 E 71, 92104478881512326 E 73, 42710968309334038 E 74, bnil.
Definition r554 := 90251316099908663 E 18, 73963247780974239 E 18, 50199015857503852 E 18, 28657276790447300 E 18, 13989460346108333 E 18, 59307166613904406 E 19, 22136691411814664 E 19, 73618618569385873 E 20, 22038524489845641 E 20, 59913773550580870 E 21, 14904794093215097 E 21, 34154565907402522 E 22, 72510066595412177 E 23, 14334167217472303 E 23, 26504068712691724 E 24, 46019623068421378 E 25, 75301609317796578 E 26, 11648738357988341 E 26, 17084969478341727 E 27, 23819917570234365 E 28, 31643544875437122 E 29, 40140962992891022 E 30, 48720175821122345 E 31, 56681295768336332 E 32, 63315594545794774 E 33, 68013813757921823 E 34, 70359993110138413 E 35, 70190699190492736 E 36, 67608597156259968 E 37, 62950717051410927 E 38, 56721979103894710 E 39, 49510829080480512 E 40, 41905072717498120 E 41, 34422751662893384 E 42, 27466908186892788 E 43, 21306457091500947 E 44, 16079891800169636 E 45, 11815201185502227 E 46, 84583336042079394 E 48, 59033540664477928 E 49, 40193328948447526 E 50, 26712108281278746 E 51, 17338332848119699 E 52, 10997304499400132 E 53, 68197623429965008 E 55, 41368605416580200 E 56, 24558204171957928 E 57, 14273920733674209 E 58, 81264285693490563 E 60, 45336415499869527 E 61, 24794752585369783 E 62, 13298569621703643 E 63, 69975129855785711 E 65, 36135262755084660 E 66, 18319637574855492 E 67, 91210486867188266 E 69, 44612227819580402 E 70, 21442651317042838 E 71, 10130902066477228 E 72, 47063920331009034 E 74, bnil.
Definition r555 := 90088728619475686 E 18, 73859248205844025 E 18, 50164810670370805 E 18, 28665725079383808 E 18, 14009842101778625 E 18, 59470622116346806 E 19, 22228719525927750 E 19, 74033511547142263 E 20, 22196623510244224 E 20, 60438539481960515 E 21, 15059523362397195 E 21, 34565591918089482 E 22, 73504382877452895 E 23, 14555095408584499 E 23, 26958106194742446 E 24, 46887775727763339 E 25, 76853777022599557 E 26, 11909353359473572 E 26, 17497468277211843 E 27, 24437450799901172 E 28, 32520555295695954 E 29, 41325679767533736 E 30, 50246106139051235 E 31, 58559370884357186 E 32, 65528755229830537 E 33, 70515455531759642 E 34, 73076906551085595 E 35, 73030152802023079 E 36, 70468305358523997 E 37, 65729865002545847 E 38, 59331373419600298 E 39, 51880592875090180 E 40, 43988961544385212 E 41, 36198926454894093 E 42, 28935663487342123 E 43, 22485833549579086 E 44, 17000255004276818 E 45, 12513777818794208 E 46, 89744438338697995 E 48, 62747634866734620 E 49, 42798510496756459 E 50, 28494387146849698 E 51, 18528287173799707 E 52, 11773111490419249 E 53, 73139432061434920 E 55, 44445808495444158 E 56, 26432263647245164 E 57, 15390724870901001 E 58, 87779633991194852 E 60, 49059110277755001 E 61, 26878863087513191 E 62, 14442249687513823 E 63, 76129433208261629 E 65, 39383945410272114 E 66, 20002493980905109 E 67, 99768042368410668 E 69, 48885507222973310 E 70, 23538802253702968 E 71, 11141246304824289 E 72, 51850584073392221 E 74, bnil.
Definition r556 := 89926725442467728 E 18, 73755518182987700 E 18, 50130582537977954 E 18, 28674059066101057 E 18, 14030148461951454 E 18, 59633870953163248 E 19, 22320804676205981 E 19, 74449391562787771 E 20, 22355371682596475 E 20, 60966364181582960 E 21, 15215421960843024 E 21, 34980438258808807 E 22, 74509678183938746 E 23, 14778851185485927 E 23, 27418756644926880 E 24, 47770113687298074 E 25, 78434074013840002 E 26, 12175158013858204 E 26, 17918922719269095 E 27, 25069505319351762 E 28, 33419776504754165 E 29, 42542552268053247 E 30, 51816234061224025 E 31, 60495275806980350 E 32, 67814120280537843 E 33, 73103311370060176 E 34, 75892459936752063 E 35, 75977941596199027 E 36, 73442418511636493 E 37, 68625355369398024 E 38, 62054860526090770 E 39, 54358392890277953 E 40, 46171750293404685 E 41, 38062725949912289 E 42, 30479636095641578 E 43, 23727827726357845 E 44, 17971220047240299 E 45, 13252082980132119 E 46, 95208833033327340 E 48, 66687038466280435 E 49, 45566686720940986 E 50, 30391572534123076 E 51, 19797232647670542 E 52, 12601902599365522 E 53, 78428220605787536 E 55, 47744984410324010 E 56, 28445115723565914 E 57, 16592393745296480 E 58, 94802669552135135 E 60, 53079093215361632 E 61, 29133451039409294 E 62, 15681704665049964 E 63, 82811102356317980 E 65, 42917349558253846 E 66, 21836129996614325 E 67, 10910909726534701 E 68, 53558420259095765 E 70, 25835105531419841 E 71, 12250054482809703 E 72, 57113184500157723 E 74, bnil.
Definition r557 := 89765303432573856 E 18, 73652056812924541 E 18, 50096332079113605 E 18, 28682279363091860 E 18, 14050379558172298 E 18, 59796912080558326 E 19, 22412945871464183 E 19, 74866254864767697 E 20, 22514768773615647 E 20, 61497253941275056 E 21, 15372494758737019 E 21, 35399128401121224 E 22, 75526040997960171 E 23, 15005462655915490 E 23, 27886098112961687 E 24, 48666830625860358 E 25, 80042936248284944 E 26, 12446242310057176 E 26, 18349504579795275 E 27, 25716386387360233 E 28, 34341716315166191 E 29, 43792374962570813 E 30, 53431733149391565 E 31, 62490652948967717 E 32, 70173874002919413 E 33, 75780149218043350 E 34, 78810003307723663 E 35, 79037946383588532 E 36, 76535248012276426 E 37, 71641789705797394 E 38, 64897166322707487 E 39, 56948906513029980 E 40, 48457906380463481 E 41, 40018272972432604 E 42, 32102506712441202 E 43, 25035621913920669 E 44, 18995454209352368 E 45, 14032286037085498 E 46, 10099365672379635 E 47, 70864910097495125 E 49, 48507687277087875 E 50, 32410813260974646 E 51, 21150234601257633 E 52, 13487176892977101 E 53, 84087569139005279 E 55, 51281644554354972 E 56, 30606726384723173 E 57, 17885184736656874 E 58, 10237180694214241 E 59, 57419434344829380 E 61, 31572076372035412 E 62, 17024738656048617 E 63, 90064135536191138 E 65, 46759784773801396 E 66, 23833713768572615 E 67, 11930361088553852 E 68, 58667434111625216 E 70, 28350218511387240 E 71, 13466698757615121 E 72, 62897961280086082 E 74, bnil.
Definition r558 := 89604459475753254 E 18, 73548863198842934 E 18, 50062059906482874 E 18, 28690386580130671 E 18, 14070535522806399 E 18, 59959744465719628 E 19, 22505142123598774 E 19, 75284097691633467 E 20, 22674814538048310 E 20, 62031215004468971 E 21, 15530746619746438 E 21, 35821685860684017 E 22, 76553560190176905 E 23, 15234958113216115 E 23, 28360209326796062 E 24, 49578122294575354 E 25, 81680805203197258 E 26, 12722697550500824 E 26, 18789388470093311 E 27, 26378404882604886 E 28, 35286892848775240 E 29, 45075959945460679 E 30, 55093805209407343 E 31, 64547187335800286 E 32, 72610261473686280 E 33, 78548819224064542 E 34, 81832992481006275 E 35, 82214177794749479 E 36, 79751257578726133 E 37, 74783940787867649 E 38, 67863201449338281 E 39, 59657002783828950 E 40, 50852088695074809 E 41, 42069874834755799 E 42, 33808127699883920 E 43, 26412552844774931 E 44, 20075759273303061 E 45, 14856669869741423 E 46, 10711697526353615 E 47, 75295146995391902 E 49, 51631912310668327 E 50, 34559686700243175 E 51, 22592671711667575 E 52, 14432656598252726 E 53, 90142606864934107 E 55, 55072349186180644 E 56, 32927754696927437 E 57, 19275802463491693 E 58, 11052828058852345 E 59, 62104941830816910 E 61, 34209346933215339 E 62, 18479774022997816 E 63, 97936102233729507 E 65, 50937581166991620 E 66, 26009533645162528 E 67, 13042763074227303 E 68, 64252260946933376 E 70, 31104495368027506 E 71, 14801422071182128 E 72, 69255541355313137 E 74, bnil.
Definition r559 := 89444190480040250 E 18, 73445936446607296 E 18, 50027766626762622 E 18, 28698381324279352 E 18, 14090616489024630 E 18, 60122367086761896 E 19, 22597392447602140 E 19, 75702916272220322 E 20, 22835508718721751 E 20, 62568253566085814 E 21, 15690182400879269 E 21, 36248134196699180 E 22, 77592325018014740 E 23, 15467366036693262 E 23, 28841169695857462 E 24, 50504186531819165 E 25, 83348127928511899 E 26, 13004616366332419 E 26, 19238751876112216 E 27, 27055877391467929 E 28, 36255834718109578 E 29, 46394137281869435 E 30, 56803680897921075 E 31, 66666607602960337 E 32, 75125590079876313 E 33, 81412255977718752 E 34, 84964992131356259 E 35, 85510780308756467 E 36, 83095068266924458 E 37, 78056758577445633 E 38, 70958068071173861 E 39, 62487749798934740 E 40, 53359155359082594 E 41, 44222031162943721 E 42, 35600530689600584 E 43, 27862118830258536 E 44, 21215077996989208 E 45, 15727636549621265 E 46, 11359783202330317 E 47, 79992424765551100 E 49, 54950364264948743 E 50, 36846223494561120 E 51, 24130254672742479 E 52, 15442300828006024 E 53, 96620110371747498 E 55, 59134775974666797 E 56, 35419599438296826 E 57, 20771429735721607 E 58, 11931634538890519 E 59, 67162288988503281 E 61, 37060997098351182 E 62, 20055898969341302 E 63, 10647842496739666 E 64, 55479252746227445 E 66, 28379090932257468 E 67, 14256380855190949 E 68, 70356139302286405 E 70, 34120137555227382 E 71, 16265417078107289 E 72, 76241345235373655 E 74, bnil.
Definition r560 := 89284493375351270 E 18, 73343275664764562 E 18, 49993452840655976 E 18, 28706264199893160 E 18, 14110622590789528 E 18, 60284778932671286 E 19, 22689695861576697 E 19, 76122706825825317 E 20, 22996851046592066 E 20, 63108375772422842 E 21, 15850806952343131 E 21, 36678497011360903 E 22, 78642425124847541 E 23, 15702715091968281 E 23, 29329059314290463 E 24, 51445223278214869 E 25, 85045357099295668 E 26, 13292092732727754 E 26, 19697775197472132 E 27, 27749126296938277 E 28, 37249081210440580 E 29, 47747755358000445 E 30, 58562620340449812 E 31, 68850687013902765 E 32, 77722231092424271 E 33, 84373480803160213 E 34, 88209678954618821 E 35, 88932036396738148 E 36, 86571463639390505 E 37, 81465376378710821 E 38, 74187066896303456 E 39, 65446422380879810 E 40, 55984171781368471 E 41, 46479442036283718 E 42, 37483934510044112 E 43, 29387987212226986 E 44, 22416500882774779 E 45, 16647713289555989 E 46, 12045629854801505 E 47, 84972239203930346 E 49, 58474681389898356 E 50, 39278933639880800 E 51, 25769045936076737 E 52, 16520320119288381 E 53, 10354860789658353 E 54, 63487792867070018 E 56, 38094448759479034 E 57, 22379760579233709 E 58, 12878349113613859 E 59, 72620150295432627 E 61, 40143972099872330 E 62, 21762918673432749 E 63, 11574668266567441 E 64, 60415673618796150 E 66, 30959200118888763 E 67, 15580195881626757 E 68, 77026139235732869 E 70, 37421357273513574 E 71, 17870912048180733 E 72, 83916029993120122 E 74, bnil.
Definition r561 := 89125365113293914 E 18, 73240879964550282 E 18, 49959119142946179 E 18, 28714035808626772 E 18, 14130553962841463 E 18, 60446979003249638 E 19, 22782051386748704 E 19, 76543465562383815 E 20, 23158841240792269 E 20, 63651587721042546 E 21, 16012625117404335 E 21, 37112797949300588 E 22, 79703950539161150 E 23, 15941034131325368 E 23, 29823958964187281 E 24, 52401434591660863 E 25, 86772951068486310 E 26, 13585221984336073 E 26, 20166641786890690 E 27, 28458479868624522 E 28, 38267182474530382 E 29, 49137681237237914 E 30, 60371913761001481 E 31, 71101244499078674 E 32, 80402621275372485 E 33, 87435604108844422 E 34, 91570844915031740 E 35, 92482370783401298 E 36, 90185395091282419 E 37, 85015117193791826 E 38, 77555704433557397 E 39, 68538510026235697 E 40, 58732419019110928 E 41, 48847016452075013 E 42, 39462753445801374 E 43, 30994002141025317 E 44, 23683273256079825 E 45, 17619558676811686 E 46, 12771352772196524 E 47, 90250950267438186 E 49, 62217173038561541 E 50, 41866834010331472 E 51, 27515480580734491 E 52, 17671191830952864 E 53, 11095848995196267 E 54, 68151535543465502 E 56, 40965333065503752 E 57, 24109035466247921 E 58, 13898067167928332 E 59, 78509347013549579 E 61, 43476518478406831 E 62, 23611410233584451 E 63, 12580093724464821 E 64, 65780268008592607 E 66, 33768097157487905 E 67, 17023966338442353 E 68, 84313493190205644 E 70, 41034555031943768 E 71, 19631264344033686 E 72, 92345972194398396 E 74, bnil.
Definition r562 := 88966802666977859 E 18, 73138748459894390 E 18, 49924766122550264 E 18, 28721696749440445 E 18, 14150410740684922 E 18, 60608966309058671 E 19, 22874458047481756 E 19, 76965188682645829 E 20, 23321479008680943 E 20, 64197895460665032 E 21, 16175641732247901 E 21, 37551060697030926 E 22, 80776991673702428 E 23, 16182352194053172 E 23, 30325950118811128 E 24, 53373024662393385 E 25, 88531373919914113 E 26, 13884100830843693 E 26, 20645537990014302 E 27, 29184272353890429 E 28, 39310699710101692 E 29, 50564801022194010 E 30, 62232882123437583 E 31, 73420145716394073 E 32, 83169264531440670 E 33, 90601827794938045 E 34, 95052400578514679 E 35, 96166354829610508 E 36, 93941987337980692 E 37, 88711500283296667 E 38, 81069700498239155 E 39, 71769725140007430 E 40, 61609402456530791 E 41, 51329881127967523 E 42, 41541605842002315 E 43, 32684192693265353 E 44, 25018802666709916 E 45, 18645969202290417 E 46, 13539180956080653 E 47, 95845828300912068 E 49, 66190856842123992 E 50, 44619477400739752 E 51, 29376388373613449 E 52, 18899676449163577 E 53, 11888212668762370 E 54, 73147489735630171 E 56, 44046181320474142 E 57, 25968078893809377 E 58, 14996254979990397 E 59, 84863003078628019 E 61, 47078281086175363 E 62, 25612781699611876 E 63, 13670608510734678 E 64, 71609215143182163 E 66, 36825556427742539 E 67, 18598292567442280 E 68, 92273954680391871 E 70, 44988512488034309 E 71, 21561062124696746 E 72, 10160379427062927 E 73, bnil.
Definition r563 := 88808803030827721 E 18, 73036880267426676 E 18, 49890394362571942 E 18, 28729247618606145 E 18, 14170193060574947 E 18, 60770739871364270 E 19, 22966914871289960 E 19, 77387872378350609 E 20, 23484764045890913 E 20, 64747304991062647 E 21, 16339861625838007 E 21, 37993308982387992 E 22, 81861639324610844 E 23, 16426698506780279 E 23, 30835114945811045 E 24, 54360199828080647 E 25, 90321095521601919 E 26, 14188827372659852 E 26, 21134653185655990 E 27, 29926844070121012 E 28, 40380205360058556 E 29, 52030020222755327 E 30, 64146877784755055 E 31, 75809304133479585 E 32, 86024733584668104 E 33, 93875447719650627 E 34, 98658378533986639 E 35, 99988711039141502 E 36, 97846544068678146 E 37, 92560247937855004 E 38, 84734995973596960 E 39, 75146011566287665 E 40, 64620860812407843 E 41, 53933389654501538 E 42, 43725323067421414 E 43, 34462781343449169 E 44, 26426666626881508 E 45, 19729886099177088 E 46, 14351462975396641 E 47, 10177510263105703 E 48, 70409497859327024 E 50, 47546983166998698 E 51, 31359017085649131 E 52, 20210834852309349 E 53, 12735399238246485 E 54, 78498578704791715 E 56, 47351880988848518 E 57, 27966339461570089 E 58, 16178775884568835 E 59, 91716711957713252 E 61, 50970407102385109 E 62, 27779335485540666 E 63, 14853223541019552 E 64, 77941670140082009 E 66, 40153017060787668 E 67, 20314687852160349 E 68, 10096818707900127 E 69, 49314601845685805 E 71, 23676234980295860 E 72, 11176893814379430 E 73, bnil.
Definition r564 := 88651363220397891 E 18, 72935274506481934 E 18, 49856004440354304 E 18, 28736689009713934 E 18, 14189901059503671 E 18, 60932298722080735 E 19, 23059420888850864 E 19, 77811512832400974 E 20, 23648696036378432 E 20, 65299822262957361 E 21, 16505289619779008 E 21, 38439566573971938 E 22, 82957984670534341 E 23, 16674102483804884 E 23, 31351536310428555 E 24, 55363168588949047 E 25, 92142591579345211 E 26, 14499501116725536 E 26, 21634179826442560 E 27, 30686541498129851 E 28, 41476283305489851 E 29, 53534264130212028 E 30, 66115285160476032 E 31, 78270682132160789 E 32, 88971671700867979 E 33, 97259856225777240 E 34, 10239293690481291 E 34, 10395431769281527 E 35, 10190455377058644 E 36, 96567292466940688 E 38, 88557760836126030 E 39, 78673553425115140 E 40, 67772775488035686 E 41, 56663132010949238 E 42, 46018958850377739 E 43, 36334192804031527 E 44, 27910620700473530 E 45, 20874402504978883 E 46, 15210673108671946 E 47, 10805801264308181 E 48, 74887649800548664 E 50, 50660069548532869 E 51, 33471057132479156 E 52, 21610046589583381 E 53, 13641079748352772 E 54, 84229256189815828 E 56, 50898341839934443 E 57, 30113932609415992 E 58, 17451918223016220 E 59, 99108715221434627 E 61, 55175657551632777 E 62, 30124336478729045 E 63, 16135511707443522 E 64, 84820002105456048 E 66, 43773719351667672 E 67, 22185654992813527 E 68, 11046218496021782 E 69, 54047013195413280 E 71, 25994174261981555 E 72, 12292829023876975 E 73, bnil.
Definition r565 := 88494480272189216 E 18, 72833930299104732 E 18, 49821596927531825 E 18, 28744021513678306 E 18, 14209534875187047 E 18, 61093641903715110 E 19, 23151975134018048 E 19, 78236106219036687 E 20, 23813274652472485 E 20, 65855453177920739 E 21, 16671930528177180 E 21, 38889857280586277 E 22, 84066119271728401 E 23, 16924593727418593 E 23, 31875297778696180 E 24, 56382141622940713 E 25, 93996343690570670 E 26, 14816222992445594 E 26, 22144313479873797 E 27, 31463717376717937 E 28, 42599529063486539 E 29, 55078478197550448 E 30, 68139521402334064 E 31, 80806292135521780 E 32, 92012794446637364 E 33, 10075854472876154 E 33, 10626036295251918 E 34, 10806821361328631 E 35, 10612169572847774 E 36, 10073878341140739 E 37, 92544402453022065 E 39, 82358784265785970 E 40, 71071380267663598 E 41, 59524944458012358 E 42, 48427799002057548 E 43, 38303063249079266 E 44, 29474606958626446 E 45, 22082770961498016 E 46, 16119417787689390 E 47, 11471486146114662 E 48, 79640698431723728 E 50, 53970087761346267 E 51, 35720667611774922 E 52, 23103029230431679 E 53, 14609162863237115 E 54, 90365605155499313 E 56, 54702563855816519 E 57, 32421686185440752 E 58, 18822425197808938 E 59, 10708009362719222 E 60, 59718526849585921 E 62, 32662085182623326 E 63, 17525651666199770 E 64, 92290050747650370 E 66, 47712852042960581 E 67, 24224769131940237 E 68, 12082773065323224 E 69, 59223001293777812 E 71, 28533863934824942 E 72, 13517686237041128 E 73, bnil.
Definition r566 := 88338151243467639 E 18, 72732846770053955 E 18, 49787172390082131 E 18, 28751245718744677 E 18, 14229094646051625 E 18, 61254768469311350 E 19, 23244576643833420 E 19, 78661648704006677 E 20, 23978499554924322 E 20, 66414203588276342 E 21, 16839789157502928 E 21, 39344204950675368 E 22, 85186135069139099 E 23, 17178202028224161 E 23, 32406483620626795 E 24, 57417331800901369 E 25, 95882839398472252 E 26, 15139095367744250 E 26, 22665252869795520 E 27, 32258730798393083 E 28, 43750549987803357 E 29, 56663628425990889 E 30, 70221037088446260 E 31, 83418197757958109 E 32, 95150891487680848 E 33, 10437510636761005 E 33, 11026507677495469 E 34, 11233560306383176 E 35, 11050384620439666 E 36, 10508109498634061 E 37, 96701574160347119 E 39, 86208396547180516 E 40, 74523171383869307 E 41, 62524919821402863 E 42, 50957371542418960 E 43, 40374249937271185 E 44, 31122762817423510 E 45, 23358411267896907 E 46, 17080442356719810 E 47, 12176707235936098 E 48, 84684907268364587 E 50, 57489057954592234 E 51, 38116503813218283 E 52, 24695858845170253 E 53, 15643809714386475 E 54, 96935442689750148 E 56, 58782709497328315 E 57, 34901189025307830 E 58, 20297526757134459 E 59, 11567497156150022 E 60, 64625370935655972 E 62, 35407996253813922 E 63, 19032474938681187 E 64, 10040140290360384 E 65, 51997711321440084 E 67, 26446767326878632 E 68, 13214288886892620 E 69, 64883153400417445 E 71, 31316022850210512 E 72, 14861853337450624 E 73, bnil.
Definition r567 := 88182373212084469 E 18, 72632023046807187 E 18, 49752731388376985 E 18, 28758362210495908 E 18, 14248580511221541 E 18, 61415677482394874 E 19, 23337224458539305 E 19, 79088136444740650 E 20, 24144370392957491 E 20, 66976079297005069 E 21, 17008870306453817 E 21, 39802633471761040 E 22, 86318124383470564 E 23, 17434957365447518 E 23, 32945178813394965 E 24, 58468954201799089 E 25, 97802572246426342 E 26, 15468222065244762 E 26, 23197199918289953 E 27, 33071947306261304 E 28, 44929965472397846 E 29, 58290701757856252 E 30, 72361316926168220 E 31, 86108514978627662 E 32, 98388828427223172 E 33, 10811323872002366 E 33, 11441163510114123 E 34, 11676186078457615 E 35, 11505708480250822 E 36, 10960083376101858 E 37, 10103618413072454 E 38, 90229351456005539 E 40, 78134917960722899 E 41, 65669418180826995 E 42, 53613457244402963 E 43, 42552841250595409 E 44, 32859430274032149 E 45, 24704918702663265 E 46, 18096638162043744 E 47, 12923724803596099 E 48, 90037465675274806 E 50, 61229707128273722 E 51, 40667746281063198 E 52, 26394991680330918 E 53, 16749449642846370 E 54, 10396843141862502 E 55, 63158180597905089 E 57, 37564842735217290 E 58, 21884973642990283 E 59, 12494073574538258 E 60, 69924544590146227 E 62, 38378682819091384 E 63, 20665516569450905 E 64, 10920769047859036 E 65, 56657872432956778 E 67, 28867645403509135 E 68, 14449254248914866 E 69, 71071679922174266 E 71, 34363259408621400 E 72, 16336685676506447 E 73, bnil.
Definition r568 := 88027143276298736 E 18, 72531458259564183 E 18, 49718274477233142 E 18, 28765371571858944 E 18, 14267992610505568 E 18, 61576368016916733 E 19, 23429917621590147 E 19, 79515565590519634 E 20, 24310886804317926 E 20, 67541086057653187 E 21, 17179178765818083 E 21, 40265166769877432 E 22, 87462179914235780 E 23, 17694889907243647 E 23, 33491469044508642 E 24, 59537226127971863 E 25, 99756041832681962 E 26, 15803708378573094 E 26, 23740359787984854 E 27, 33903738992099121 E 28, 46138407157876748 E 29, 59960706475852879 E 30, 74561880467823584 E 31, 88879413338704928 E 32, 10172954868529033 E 32, 11197674658312486 E 33, 11870473518507790 E 34, 12135253716964916 E 35, 11978770102415718 E 36, 11430484658294276 E 37, 10555540453962324 E 38, 94428889074173415 E 40, 81913672848011690 E 41, 68965077979388452 E 42, 56402100612741042 E 43, 44844167165726138 E 44, 34689165558340594 E 45, 26126072630947359 E 46, 19171049987138853 E 47, 13714923288940231 E 48, 95716539493098575 E 50, 65205509114559119 E 51, 43384131513371647 E 52, 28207287095716434 E 53, 17930796887640210 E 54, 11149619782947669 E 55, 67849700171236630 E 57, 40425916882518246 E 58, 23593073744725983 E 59, 13492826916580376 E 60, 75646548573566601 E 62, 41592046984901368 E 63, 22435069601660407 E 64, 11876691140940536 E 65, 61725374888619062 E 67, 31504762666807090 E 68, 15796897285172970 E 69, 77836729755209190 E 71, 37700239664063984 E 72, 17954594014786090 E 73, bnil.
Definition r569 := 87872458554601171 E 18, 72431151541251002 E 18, 49683802205962690 E 18, 28772274383111550 E 18, 14287331084384326 E 18, 61736839157198187 E 19, 23522655179664016 E 19, 79943932282645902 E 20, 24478048415324202 E 20, 68109229574242098 E 21, 17350719318338751 E 21, 40731828809004460 E 22, 88618394738791407 E 23, 17958030010996441 E 23, 34045440714971980 E 24, 60622367120404337 E 25, 10174375386532767 E 25, 16145661088786067 E 26, 24294940924784357 E 27, 34754484595617131 E 28, 47376519140882427 E 29, 61674672608849494 E 30, 76824282839508300 E 31, 91733117162856078 E 32, 10517607541965819 E 32, 11596954482119377 E 33, 12314921880082753 E 34, 12611336358886630 E 35, 12470220101835058 E 36, 11920022875309559 E 37, 11026668103955924 E 38, 98814538906895914 E 40, 85866783860240666 E 41, 72418827568953465 E 42, 59329621314253192 E 43, 47253810175719305 E 44, 36616749217817895 E 45, 27625845514445608 E 46, 20306883849592624 E 47, 14552817844153007 E 48, 10174132431868523 E 49, 69430726730329358 E 51, 46275984386380403 E 52, 30140031833752942 E 53, 19192868275114399 E 54, 11955245791495824 E 55, 72879399435665839 E 57, 43498607810549358 E 58, 25430730908954883 E 59, 14569220125898445 E 60, 81824187268658757 E 62, 45067376980100806 E 63, 24352243649035189 E 64, 12914177537857612 E 65, 67234922308219615 E 67, 34376955087957491 E 68, 17267248812681516 E 69, 85230732368531350 E 71, 41353870008215708 E 72, 19729140260454949 E 73, bnil.
Definition r570 := 87718316185540116 E 18, 72331102027522992 E 18, 49649315118422750 E 18, 28779071221889021 E 18, 14306596073997632 E 18, 61897089997874971 E 19, 23615436182673755 E 19, 80373232654611332 E 20, 24645854840918310 E 20, 68680515501181360 E 21, 17523496738578505 E 21, 41202643590500081 E 22, 89786862311356521 E 23, 18224408223612669 E 23, 34607180942438733 E 24, 61724598974032732 E 25, 10376622021753318 E 25, 16494188480924450 E 26, 24861155101023959 E 27, 35624569604925328 E 28, 48644958186451883 E 29, 63433652344240673 E 30, 79150115483170360 E 31, 94671906805357870 E 32, 10873151348928049 E 32, 12009566128185236 E 33, 12775007634125950 E 34, 13105025785759960 E 35, 12980731453300193 E 36, 12429433245977249 E 37, 11517774255181118 E 38, 10339413078342118 E 39, 90001905434564624 E 41, 76037897207555388 E 42, 62402626077142951 E 43, 49787616680342923 E 44, 38647196654037784 E 45, 29208412341727285 E 46, 21507515176507206 E 47, 15440061205965669 E 48, 10813210157232706 E 49, 73920456213931777 E 51, 49354252397031401 E 52, 32200965695512757 E 53, 20541001966983016 E 54, 12817315057435007 E 55, 78270910376264994 E 57, 46798101307561190 E 58, 27407486366299052 E 59, 15729117543824468 E 60, 88492737551287706 E 62, 48825451403313646 E 63, 26429027863326678 E 64, 14040007613291543 E 65, 73224098024991539 E 67, 37504657635277054 E 68, 18871210366257440 E 69, 93310768836843643 E 71, 45353495666182004 E 72, 21675141678588835 E 73, bnil.
Definition r571 := 87564713327549060 E 18, 72231308856768081 E 18, 49614813753064951 E 18, 28785762663191074 E 18, 14325787721131925 E 18, 62057119643841906 E 19, 23708259683777946 E 19, 80803462832265986 E 20, 24814305684716493 E 20, 69254949443184647 E 21, 17697515792785178 E 21, 41677635152531409 E 22, 90967676462016347 E 23, 18494055281809849 E 23, 35176777564356377 E 24, 62844145753078010 E 25, 10582395898306684 E 25, 16849400360691223 E 26, 25439217459052184 E 27, 36514386358210508 E 28, 49944393943380357 E 29, 65238720446980654 E 30, 81541006912167631 E 31, 97698119921287827 E 32, 11239905146101877 E 32, 12435923978215915 E 33, 13251245102286852 E 34, 13616932985858999 E 35, 13511000207240782 E 36, 12959477547853149 E 37, 12029661138551895 E 38, 10817580614270971 E 39, 94327010722272052 E 41, 79829831525470414 E 42, 65628021077434531 E 43, 52451708864059948 E 44, 40785769130050104 E 45, 30878160497656294 E 46, 22776497375902439 E 47, 16379450913636403 E 48, 11491029749130151 E 49, 78690674064737804 E 51, 52630541821503757 E 52, 34398308701764927 E 53, 21980877328050925 E 54, 13739657923371107 E 55, 84049464184543579 E 57, 50340639373637108 E 58, 29533562945554190 E 59, 16978813513002783 E 60, 95690129664937590 E 62, 52888651078616309 E 63, 28678358617269255 E 64, 15261509239436553 E 65, 79733597659591714 E 67, 40910036467219311 E 68, 20620627848238466 E 69, 10213897420796256 E 70, 49731116337078862 E 72, 23808784301990792 E 73, bnil.
Definition r572 := 87411647158775974 E 18, 72131771170109368 E 18, 49580298642984341 E 18, 28792349279388771 E 18, 14344906168207879 E 18, 62216927210197370 E 19, 23801124739391520 E 19, 81234618933984657 E 20, 24983400539060294 E 20, 69832536955187065 E 21, 17872781238757779 E 21, 42156827569504326 E 22, 92160931395709260 E 23, 18767002112398057 E 23, 35754319141100147 E 24, 63981233806405682 E 25, 10791749453208558 E 25, 17211408071255188 E 26, 26029346555241122 E 27, 37424334146635185 E 28, 51275509162621935 E 29, 67090974685374922 E 30, 83998623480508576 E 31, 10081415276321862 E 31, 11618196366051212 E 32, 12876454316610563 E 33, 13744164319914083 E 34, 14147688731953430 E 35, 14061746226655878 E 36, 13510945014600023 E 37, 12563161369431552 E 38, 11316802971671604 E 39, 98850404128911093 E 41, 83802502477166827 E 42, 69013024831353330 E 43, 55252497081405654 E 44, 43037985268550040 E 45, 32639700091342079 E 46, 24117570822390661 E 47, 17373936889310707 E 48, 12209854519579275 E 49, 83758286409985121 E 51, 56117155892625840 E 52, 36740789821595420 E 53, 23518535977966016 E 54, 14726356217276118 E 55, 90241995935838024 E 57, 54143591344412256 E 58, 31819912256594918 E 59, 18325062955720251 E 60, 10345714092525625 E 61, 57281079057865447 E 63, 31114192245664558 E 64, 16586601949516258 E 65, 86807479961066680 E 67, 44617131760552154 E 68, 22528371244276930 E 69, 11178297378126064 E 70, 54521620422087390 E 72, 26147746335459629 E 73, bnil.
Definition r573 := 87259114876914387 E 18, 72032488111407694 E 18, 49545770315967942 E 18, 28798831640231472 E 18, 14363951558268074 E 18, 62376511822187916 E 19, 23894030409196106 E 19, 81666697070833193 E 20, 25153138985067978 E 20, 70413283542266182 E 21, 18049297825713340 E 21, 42640244951492089 E 22, 93366721691198114 E 23, 19043279832555643 E 23, 36339894959097556 E 24, 65136091782912445 E 25, 11004735756719847 E 25, 17580324510180288 E 26, 26631764404428321 E 27, 38354819318469068 E 28, 52638999918760175 E 29, 68991536263717405 E 30, 86524670165984417 E 31, 10402246150385788 E 31, 12008361226803640 E 32, 13331595643503310 E 33, 14254311478498932 E 34, 14697944175037162 E 35, 14633713945802838 E 36, 14084653261549240 E 37, 13119139028093393 E 38, 11837960162433224 E 39, 10358073431864009 E 40, 87964122796921631 E 42, 72565181613134126 E 43, 58196692770257627 E 44, 45409633061597718 E 45, 34497874762870525 E 46, 25534672276199372 E 47, 18426629398131088 E 48, 12972074998023683 E 49, 89141181029551648 E 51, 59827135104336258 E 52, 39237677355541241 E 53, 25160404094906267 E 54, 15781759207427250 E 55, 96877255885683545 E 57, 58225529646155430 E 58, 34278265034731547 E 59, 19775114058893104 E 60, 11183760313614986 E 61, 62028689344866874 E 63, 33751583211345903 E 64, 18023843402358119 E 65, 94493437308917030 E 67, 48652012005677551 E 68, 24608420891344738 E 69, 12231635607968594 E 70, 59763039400803506 E 72, 28711332411864720 E 73, bnil.
Definition r574 := 87107113699036232 E 18, 71933458827264068 E 18, 49511229294542831 E 18, 28805210312853925 E 18, 14382924034964864 E 18, 62535872615152857 E 19, 23986975756150179 E 19, 82099693346733538 E 20, 25323520592685921 E 20, 70997194659564589 E 21, 18227070294154205 E 21, 43127911443662440 E 22, 94585142300026310 E 23, 19322919750098808 E 23, 36933595033942402 E 24, 66308950646938300 E 25, 11221408517980173 E 25, 17956264146480893 E 26, 27246696524792486 E 27, 39306255384462535 E 28, 54035575834581476 E 29, 70941550261862463 E 30, 89120891367401658 E 31, 10732556358507845 E 31, 12410744946021958 E 32, 13801798995251705 E 33, 14782249379483143 E 34, 15268371454427727 E 35, 15227673151232333 E 36, 14681449240259010 E 37, 13698490776052672 E 38, 12381966988944559 E 39, 10852700769888715 E 40, 92323259976506477 E 42, 76292375418444640 E 43, 61291321914273154 E 44, 47906782413466686 E 45, 36457772989911449 E 46, 27031944755451009 E 47, 19540807406256182 E 48, 13780215799039715 E 49, 94858282175763017 E 51, 63774299756912882 E 52, 41898811064806958 E 53, 26913316042846493 E 54, 16910500534113245 E 55, 10398592778891653 E 56, 62606310473464796 E 58, 36921184851304611 E 59, 21336743206156993 E 60, 12087862465751901 E 61, 67159424955910358 E 63, 36606768088548414 E 64, 19582479393153563 E 65, 10284308737365915 E 66, 53042940664290374 E 68, 26875960821959442 E 69, 13381918552002870 E 70, 65496824044289902 E 72, 31520619630193269 E 73, bnil.
Definition r575 := 86955640861426209 E 18, 71834682467021405 E 18, 49476676096023728 E 18, 28811485861783385 E 18, 14401823742548309 E 18, 62695008734469006 E 19, 24079959846498877 E 19, 82533603858628497 E 20, 25494544920740567 E 20, 71584275712215751 E 21, 18406103375736217 E 21, 43619851225704097 E 22, 95816288545458070 E 23, 19605953363745251 E 23, 37535510113499016 E 24, 67500043693704819 E 25, 11441822090668648 E 25, 18339343037803638 E 26, 27874371983165854 E 27, 40279063124473979 E 28, 55465960308785498 E 29, 72942186081823014 E 30, 91789071716130971 E 31, 11072603909379561 E 31, 12825701959849389 E 32, 14287528272529727 E 33, 15328557899694094 E 34, 15859664324647116 E 35, 15844419785772586 E 36, 15302210222907346 E 37, 14302147009374532 E 38, 12949774339697217 E 39, 11369860240192481 E 40, 96888850783976548 E 42, 80202844494342335 E 43, 64543739076580628 E 44, 50535798239062719 E 45, 38524739916182404 E 46, 28613747882479444 E 47, 20719927355777931 E 48, 14636942845409080 E 49, 10092960833209982 E 50, 67973294862511919 E 52, 44734636142995317 E 53, 28784539397990859 E 54, 18117516175725369 E 55, 11160075466898338 E 56, 67307159698493422 E 58, 39762125408114459 E 59, 23018292306558312 E 60, 13063082812709390 E 61, 72703365973128637 E 63, 39697255783741061 E 64, 21272497673189995 E 65, 11191228754400529 E 66, 57820556152472189 E 68, 29347479749386580 E 69, 14637855802547807 E 70, 71768144290978910 E 72, 34598616383400651 E 73, bnil.
Definition r576 := 86804693619417894 E 18, 71736158182766491 E 18, 49442111232560329 E 18, 28817658848946749 E 18, 14420650825854218 E 18, 62853919335495402 E 19, 24172981749783565 E 19, 82968424696644569 E 20, 25666211516990362 E 20, 72174532055272212 E 21, 18586401793137469 E 21, 44116088511251740 E 22, 97060256121403246 E 23, 19892412363371443 E 23, 38145731680995967 E 24, 68709606564777579 E 25, 11666031478691605 E 25, 18729678847735548 E 26, 28515023440784895 E 27, 41273670695359380 E 28, 56930890746864535 E 29, 74994637901482256 E 30, 94531036902183487 E 31, 11422653216514525 E 31, 13253596146517423 E 32, 14789260576185238 E 33, 15893834468674643 E 34, 16472538799502504 E 35, 16484776776079551 E 36, 15947844817378454 E 37, 14931073050092670 E 38, 13542370530113988 E 39, 11910528278049161 E 40, 10167021634323637 E 41, 84305196457427467 E 43, 67961642027640398 E 44, 53303354141242205 E 45, 40704389724659379 E 46, 30284668725864697 E 47, 21967632376385578 E 48, 15545070964141394 E 49, 10737633306173895 E 50, 72439637536661068 E 52, 47756239131886378 E 53, 30781801454099202 E 54, 19408063510117487 E 55, 11975667248998097 E 56, 72350764339308551 E 58, 42815491646856664 E 59, 24828708678953602 E 60, 14114860490516020 E 61, 78692888291823761 E 63, 43041924443367205 E 64, 23104685860227470 E 65, 12176147384741610 E 66, 63018066185198139 E 68, 32040880302388188 E 69, 16008920308238014 E 70, 78626214760222273 E 72, 37970435067860621 E 73, bnil.
Definition r577 := 86654269247231602 E 18, 71637885129331377 E 18, 49407535211184114 E 18, 28823729833677890 E 18, 14439405430292386 E 18, 63012603583518147 E 19, 24266040538851127 E 19, 83404151944254940 E 20, 25838519918177852 E 20, 72767968993635754 E 21, 18767970259927634 E 21, 44616647547309960 E 22, 98317141091326543 E 23, 20182328630263897 E 23, 38764351958108863 E 24, 69937877263552728 E 25, 11894092341897273 E 25, 19127390863239200 E 26, 29168887199482261 E 27, 42290513740135980 E 28, 58431118795186694 E 29, 77100125135513862 E 30, 97348654515035637 E 31, 11782975241343225 E 31, 13694801054807391 E 32, 15307486551025795 E 33, 16478694558181660 E 34, 17107733813796204 E 35, 17149594884386072 E 36, 16619294013925450 E 37, 15586270376906984 E 38, 14160782690073398 E 39, 12475721443515070 E 40, 10667707779473327 E 41, 88608424022641545 E 43, 71553086991064041 E 44, 56216446691288903 E 45, 43002618579381095 E 46, 32049533160812038 E 47, 23287761954527039 E 48, 16507571873862883 E 49, 11422084910428203 E 50, 77189767007759932 E 52, 50975385888171905 E 53, 32913317290803332 E 54, 20787741535569338 E 55, 12849095221044236 E 56, 77761369934780867 E 58, 46096704919136163 E 59, 26777587661436760 E 60, 15249038738158733 E 61, 85162833810555015 E 63, 46661125529335556 E 64, 25090693741400813 E 65, 13245602621793672 E 66, 68671457596492112 E 68, 34975597165214008 E 69, 17505413602095778 E 70, 86124648038733170 E 72, 41663479857000951 E 73, bnil.
Definition r578 := 86504365037813738 E 18, 71539862464294598 E 18, 49372948533854606 E 18, 28829699372724862 E 18, 14458087701834878 E 18, 63171060653695234 E 19, 24359135289863066 E 19, 83840781678440660 E 20, 26011469650082146 E 20, 73364591781990352 E 21, 18950813480438061 E 21, 45121552613676208 E 22, 99587039887140785 E 23, 20475734237364112 E 23, 39391463908032485 E 24, 71185096170766912 E 25, 12126061001817355 E 25, 19532600012214666 E 26, 29836203248322033 E 27, 43330035498429430 E 28, 59967410578315606 E 29, 79259892903599438 E 30, 10024383489941931 E 30, 12153847639131766 E 31, 14149700137457682 E 32, 15842710737698543 E 33, 17083772184131751 E 34, 17766011903102341 E 35, 17839753585097234 E 36, 17317532264313970 E 37, 16268777896359874 E 38, 14806078199645141 E 39, 13066497979163369 E 40, 11191957255831202 E 41, 93121921365955107 E 43, 75326504532070131 E 44, 59282410337764092 E 45, 45425618160678011 E 46, 33913417771479662 E 47, 24684362081754872 E 48, 17527582582854033 E 49, 12148683588677176 E 50, 82241097383351743 E 52, 54404561713683118 E 53, 35187819493599056 E 54, 22262512319319480 E 55, 13784335072583160 E 56, 83564884194324709 E 58, 49622272477888352 E 59, 28875218125951101 E 60, 16471894035964954 E 61, 92150692863538570 E 63, 50576795576606421 E 64, 27243100292134462 E 65, 14406666210143121 E 66, 74819722833436508 E 68, 38172724829192975 E 69, 19138536459897091 E 70, 94321838048262042 E 72, 45707650819832752 E 73, bnil.
Definition r579 := 86354978302677771 E 18, 71442089347982365 E 18, 49338351697505563 E 18, 28835568020257343 E 18, 14476697787004462 E 18, 63329289731001532 E 19, 24452265082304217 E 19, 84278309969851642 E 20, 26185060227571617 E 20, 73964405624738020 E 21, 19134936149632616 E 21, 45630828022362896 E 22, 10087004930808653 E 22, 20772661449507582 E 23, 40027161238542451 E 24, 72451506060030885 E 25, 12361994447435455 E 25, 19945428881189384 E 26, 30517215310681571 E 27, 44392686918216225 E 28, 61540546939602948 E 29, 81475212506041347 E 30, 10321853202630647 E 30, 12535554907772966 E 31, 14618686989611100 E 32, 16395451932834544 E 33, 17709720421279767 E 34, 18448159902059367 E 35, 18556161966896376 E 36, 18043568594376856 E 37, 16979673255726683 E 38, 15479366174597970 E 39, 13683959424701317 E 40, 11740827121998637 E 41, 97855501145030438 E 43, 79290716114192442 E 44, 62508932969947073 E 45, 47979889819689653 E 46, 35881662319884153 E 47, 26161695904925459 E 48, 18608414217927162 E 49, 12919933062323054 E 50, 87612073318983682 E 52, 58057013767583154 E 53, 37614589619038621 E 54, 23838723745469856 E 55, 14785627123626704 E 56, 89788987312973057 E 58, 53409861567218256 E 59, 31132631089759361 E 60, 17790167281104936 E 61, 99696799749027224 E 63, 54812576182999844 E 64, 29575485757670603 E 65, 15666986053427998 E 66, 81505104412385672 E 68, 41655155716758945 E 69, 20920465428961245 E 70, 10328137598963308 E 71, 50135565771145975 E 73, bnil.
Definition r580 := 86206106371746874 E 18, 71344564943469163 E 18, 49303745194090406 E 18, 28841336327874008 E 18, 14495235832863154 E 18, 63487290010173876 E 19, 24545428998991397 E 19, 84716732882966208 E 20, 26359291154656517 E 20, 74567415675936766 E 21, 19320342952979154 E 21, 46144498117018538 E 22, 10216626651959470 E 22, 21073142723656415 E 23, 40671538405045120 E 24, 73737352113384545 E 25, 12601950340982178 E 25, 20366001733135237 E 26, 31212170891781041 E 27, 45478926768870549 E 28, 63151323685085674 E 29, 83747381906859774 E 30, 10627474437930630 E 30, 12928388539497581 E 31, 15102165592396629 E 32, 16966243557628848 E 33, 18357211930919331 E 34, 19154989661634873 E 35, 19299759661040043 E 36, 18798447750931664 E 37, 17720074198887376 E 38, 16181799003286162 E 39, 14329252290412642 E 40, 12315419506510023 E 41, 10281941220278763 E 42, 83454951350804025 E 44, 65904072163106209 E 45, 50672259379094170 E 46, 37959882807069326 E 47, 27724254901936181 E 48, 19753561305278329 E 49, 13738480318542873 E 50, 93322228742840533 E 52, 61946795885202202 E 53, 40203491503726193 E 54, 25523133638097846 E 55, 15857493360714682 E 56, 96463249365681380 E 58, 57478378404798758 E 59, 33561651627658597 E 60, 19211097138146841 E 61, 10784454226495003 E 62, 59393942819517762 E 64, 32102509168511504 E 65, 17034831898786868 E 66, 88773358722414078 E 68, 45447729497280927 E 69, 22864435702189836 E 70, 11307250155969541 E 71, 54982801354731781 E 73, bnil.
Definition r581 := 86057746593198065 E 18, 71247288416578528 E 18, 49269129510627403 E 18, 28847004844610009 E 18, 14513701987000884 E 18, 63645060695656118 E 19, 24638626126081598 E 19, 85156046476250128 E 20, 26534161924542050 E 20, 75173627039240280 E 21, 19507038566321518 E 21, 46662587272347404 E 22, 10347578905213460 E 22, 21377210709125592 E 23, 41324690613616324 E 24, 75042881936873643 E 25, 12845987023756678 E 25, 20794444525413473 E 26, 31921321326663845 E 27, 46589221755526154 E 28, 64800551830723211 E 29, 86077726224471371 E 30, 10941451585670699 E 30, 13332647175555210 E 31, 15600550561742937 E 32, 17555634035032547 E 33, 19026939501902306 E 34, 19887338785831547 E 35, 20071517796538364 E 36, 19583251384039854 E 37, 18491139966484715 E 38, 16914573936570484 E 39, 15003569791430966 E 40, 12916883428112211 E 41, 10802435797970120 E 42, 87828865979025871 E 44, 69476272133919143 E 45, 53509892608088241 E 46, 40153985153335343 E 47, 29376770607753201 E 48, 20966711525440131 E 49, 14607123493650135 E 50, 99392248797089959 E 52, 66088815934737712 E 53, 42965006521077640 E 54, 27322935339673912 E 55, 17004755532331170 E 56, 10361925521955719 E 57, 61848052369143567 E 59, 36174954301805870 E 60, 20742455711636401 E 61, 11664058622451778 E 62, 64348343090229001 E 64, 34839991687498330 E 65, 18519144543862647 E 66, 96674040664802323 E 68, 49577394477003786 E 69, 24984830849548625 E 70, 12377059235505615 E 71, 60288154984825016 E 73, bnil.
Definition r582 := 85909896333307950 E 18, 71150258935883101 E 18, 49234505129244509 E 18, 28852574116944540 E 18, 14532096397524270 E 18, 63802601001544243 E 19, 24731855553080059 E 19, 85596246802314177 E 20, 26709672019681482 E 20, 75783044767841224 E 21, 19695027655752471 E 21, 47185119893528985 E 22, 10479871480004692 E 22, 21684898247803270 E 23, 41986713824028706 E 24, 76368345576147685 E 25, 13094163521974898 E 25, 21230884927847905 E 26, 32644921828630144 E 27, 47724046634764698 E 28, 66489057853010195 E 29, 88467598230045741 E 30, 11263993668939289 E 30, 13748636763914867 E 31, 16114267402521787 E 32, 18164187175735203 E 33, 19719616605279082 E 34, 20646071388312280 E 35, 20872439982933145 E 36, 20399099265610760 E 37, 19294072741708911 E 38, 17678934732478083 E 39, 15708153644912561 E 40, 13546416685409072 E 41, 11348151566156292 E 42, 92422560584613001 E 44, 73234381435468495 E 45, 56500311400805899 E 46, 42470179525473368 E 47, 31124226916590287 E 48, 22251755965493420 E 49, 15528820172832709 E 50, 10584403516498815 E 51, 70498885849898532 E 53, 45910270895431482 E 54, 29245784829366979 E 55, 18232554367212850 E 56, 11129073742891484 E 57, 66540525723310204 E 59, 38986122339786261 E 60, 22392586697276717 E 61, 12613511598988896 E 62, 69705345114235343 E 64, 37805006214479298 E 65, 20129588830259530 E 66, 10526081072864394 E 67, 54073382013015080 E 69, 27297279959401145 E 70, 13545769461075155 E 71, 66093929404711126 E 73, bnil.
Definition r583 := 85762552976300019 E 18, 71053475672705119 E 18, 49199872527223618 E 18, 28858044688808343 E 18, 14550419213045514 E 18, 63959910151531766 E 19, 24825116372848041 E 19, 86037329908071603 E 20, 26885820911829573 E 20, 76395673864416514 E 21, 19884314877487235 E 21, 47712120415636311 E 22, 10613514202036204 E 22, 21996238374364713 E 23, 42657704752767599 E 24, 77713995532078591 E 25, 13346539552644179 E 25, 21675452340926517 E 26, 33383231538126215 E 27, 48883884331640746 E 28, 68217683942999657 E 29, 90918378853635543 E 30, 11595314437486995 E 30, 14176670720035678 E 31, 16643752768121444 E 32, 18792482573120161 E 33, 20435977962868400 E 34, 21432078869433623 E 35, 21703563321403926 E 36, 21247150545380147 E 37, 20130119143087279 E 38, 18476173357356979 E 39, 16444295932243262 E 40, 14205267818353902 E 41, 11920255609040098 E 42, 97246600107480637 E 44, 77187671422392906 E 45, 59651410688562681 E 46, 44914995340151084 E 47, 32971872987257217 E 48, 23612799892776066 E 49, 16506696127332536 E 50, 11270077496130384 E 51, 75193774483779460 E 53, 49051115189022612 E 54, 31299829470550209 E 55, 19546369982759785 E 56, 11951371760578548 E 57, 71578949226982450 E 59, 42009710806171829 E 60, 24170446178500407 E 61, 13638209213166300 E 62, 75496796748629626 E 64, 41015973704702704 E 65, 21876610706545167 E 66, 11459176622203706 E 67, 58967394973812993 E 69, 29818762785396217 E 70, 14822309867467068 E 71, 72446241765922951 E 73, bnil.
Definition r584 := 85615713924193343 E 18, 70956937801116018 E 18, 49165232177044708 E 18, 28863417101591439 E 18, 14568670582671405 E 18, 64116987378855014 E 19, 24918407681610412 E 19, 86479291834893810 E 20, 27062608062096004 E 20, 77011519281074641 E 21, 20074904877737743 E 21, 48243613303053393 E 22, 10748516933160308 E 22, 22311264316479904 E 23, 43337760876034796 E 24, 79080086776398802 E 25, 13603175529464119 E 25, 22128277914131530 E 26, 34136513572091290 E 27, 50069226058053592 E 28, 69987288263770521 E 29, 93431477698178105 E 30, 11935632462763496 E 30, 14617070090758857 E 31, 17189454725551205 E 32, 19441116007377041 E 33, 21176780130070447 E 34, 22246280714186638 E 35, 22565959444947953 E 36, 22128605045318566 E 37, 21000571765693942 E 38, 19307631745331641 E 39, 17213341028479726 E 40, 14894738144154190 E 41, 12519966446720886 E 42, 10231203415862692 E 43, 81345855517961042 E 45, 62971476117549416 E 46, 47495296973836690 E 47, 34925236779898718 E 48, 25054174075451522 E 49, 17544054511149576 E 50, 11998701337252065 E 51, 80191263436809270 E 53, 52400106083553817 E 54, 33493738481798247 E 55, 20952043554630208 E 56, 12832665678780974 E 57, 76988084010469585 E 59, 45261314028320350 E 60, 26085646246078944 E 61, 14743952739611991 E 62, 81756996420827073 E 64, 44492766689310947 E 65, 23771498664431113 E 66, 12472979850631604 E 67, 64293811347086670 E 69, 32567723541191628 E 70, 16216396289087204 E 71, 79395359287463783 E 73, bnil.
Definition r585 := 85469376596652921 E 18, 70860644497936331 E 18, 49130584546429178 E 18, 28868691894150696 E 18, 14586850655992445 E 18, 64273831926238640 E 19, 25011728578962925 E 19, 86922128618765766 E 20, 27240032920999163 E 20, 77630585919306048 E 21, 20266802292587527 E 21, 48779623048891959 E 22, 10884889571257373 E 22, 22630009495014929 E 23, 44026980432740320 E 24, 80466876767358089 E 25, 13864132568753687 E 25, 22589494564398245 E 26, 34905035073764822 E 27, 51280571432476615 E 28, 71798745211376211 E 29, 96008333561465605 E 30, 12285171234612688 E 30, 15070163721372919 E 31, 17751833026180073 E 32, 20110699858960519 E 33, 21942802093243973 E 34, 23089625311555618 E 35, 23460735588399560 E 36, 23044704593552836 E 37, 21906770772235355 E 38, 20174703617920787 E 39, 18016687601296556 E 40, 15616183870240188 E 41, 13148556187615946 E 42, 10763041818035810 E 43, 85719109316080542 E 45, 66469202524897444 E 46, 50218300210949891 E 47, 36990139253605414 E 48, 26580446676478678 E 49, 18644385540419390 E 50, 12772873024263410 E 51, 85510206019563992 E 53, 55970590584656277 E 54, 35836735230918871 E 55, 22455800322692487 E 56, 13777061535644720 E 57, 82794410107044313 E 59, 48757637553621878 E 60, 28148501629958144 E 61, 15936978224113136 E 62, 88522876391443112 E 64, 48256820520778224 E 65, 25826449873759382 E 66, 13574297821805790 E 67, 70089904179165134 E 69, 35564194035429884 E 70, 17738598985853458 E 71, 86996063722973834 E 73, bnil.
Definition r586 := 85323538430841464 E 18, 70764594942735071 E 18, 49095930098383228 E 18, 28873869602817643 E 18, 14604959583072064 E 18, 64430443045840943 E 19, 25105078167879254 E 19, 87365836290439884 E 20, 27418094928519777 E 20, 78252878629934551 E 21, 20460011747867318 E 21, 49320174174407057 E 22, 11022642050113139 E 22, 22952507524226878 E 23, 44725462427481766 E 24, 81874625465398805 E 25, 14129472495404268 E 25, 23059236994702812 E 26, 35689067262955876 E 27, 52518428601054874 E 28, 73652945679308091 E 29, 98650414966183750 E 30, 12644159259650155 E 30, 15536288425904705 E 31, 18331359382214400 E 32, 20801863531586812 E 33, 22734845881974315 E 34, 23963090795816354 E 35, 24389035689071504 E 36, 23996734398911586 E 37, 22850105535506544 E 38, 21078836365732701 E 39, 18855790681780512 E 40, 16371018287035857 E 41, 13807352766101504 E 42, 11321383548289722 E 43, 90318091552531664 E 45, 70153713247371748 E 46, 53091589463274697 E 47, 39172709255685173 E 48, 28196435748751017 E 49, 19811376679726943 E 50, 13595342081013552 E 51, 91170589519566413 E 53, 59776742784412765 E 54, 38338631457088740 E 55, 24064274012819978 E 56, 14788942309118784 E 57, 89026242064257314 E 59, 52516574932850953 E 60, 30370079544769521 E 61, 17223988128573206 E 62, 95834199325169256 E 64, 52331252902941686 E 65, 28054641365455010 E 66, 14770497061073834 E 67, 76396079120617570 E 69, 38829926893306969 E 70, 19400415934965076 E 71, 95308047045632349 E 73, bnil.
Definition r587 := 85178196881272580 E 18, 70668788317829176 E 18, 49061269291240640 E 18, 28878950761406175 E 18, 14622997514435987 E 18, 64586819999199888 E 19, 25198455554717855 E 19, 87810410875589838 E 20, 27596793514155193 E 20, 78878402213073434 E 21, 20654537859031550 E 21, 49865291228412723 E 22, 11161784339294660 E 22, 23278792211952767 E 23, 45433306633512126 E 24, 83303595348850366 E 25, 14399257848859075 E 25, 23537641712779688 E 26, 36488885486778366 E 27, 53783314360082737 E 28, 75550797326513641 E 29, 10135922069812178 E 29, 13012830161347780 E 30, 16015789160690190 E 31, 18928517749021233 E 32, 21515253884963954 E 33, 23553737196566674 E 34, 24867685910307572 E 35, 25352041518820831 E 36, 24986024467235049 E 37, 23832016333755663 E 38, 22021532994210920 E 39, 19732163809488111 E 40, 17160714043362851 E 41, 14497742268552869 E 42, 11907492019168534 E 43, 95153965981051960 E 45, 74034580298347259 E 46, 56123135795076411 E 47, 41479399134751837 E 48, 29907222360458668 E 49, 21048923360786223 E 50, 14469018081204586 E 51, 97193600949950404 E 53, 63833613324368624 E 54, 41009863531990766 E 55, 25784532758570172 E 56, 15872985998009916 E 57, 95713852080530872 E 59, 56557289642803909 E 60, 32762252963503529 E 61, 18612185210787073 E 62, 10373376910713532 E 63, 56740992304607896 E 65, 30470306636793036 E 66, 16069548330567881 E 67, 83256130949182158 E 69, 42388539669092915 E 70, 21214352250953693 E 71, 10439634095693317 E 72, bnil.
Definition r588 := 85033349419665519 E 18, 70573223808282542 E 18, 49026602578705031 E 18, 28883935901220424 E 18, 14640964601061684 E 18, 64742962057178456 E 19, 25291859849228566 E 19, 88255848394962427 E 20, 27776128096973355 E 20, 79507161418081317 E 21, 20850385231035275 E 21, 50414998786696089 E 22, 11302326444024618 E 22, 23608897559791829 E 23, 46150613595694197 E 24, 84754051429638850 E 25, 14673551889118030 E 25, 24024847049967973 E 26, 37304769270852792 E 27, 55075754279870066 E 28, 77493224849000037 E 29, 10413628035264940 E 29, 13391422781849492 E 30, 16509019201278050 E 31, 19543804613404221 E 32, 22251535677453329 E 33, 24400326051102926 E 34, 25804450894218492 E 35, 26350973848357988 E 36, 26013951060615867 E 37, 24853996100533809 E 38, 23004354135458499 E 39, 20647381254255535 E 40, 17986805507399902 E 41, 15221171351072870 E 42, 12522688114093505 E 43, 10023842419126410 E 44, 78121845450158886 E 46, 59321315789817603 E 47, 43917001111205176 E 48, 31718164381060578 E 49, 22361140260131160 E 50, 15396979618158235 E 51, 10360169646703583 E 52, 68157181709056641 E 54, 43861530876977116 E 55, 27624106611588907 E 56, 17034184844361771 E 57, 10288960114047300 E 58, 60900302481028087 E 60, 35337757547670789 E 61, 20109308792009289 E 62, 11226765690622485 E 63, 61512915897708597 E 65, 33088818080268825 E 66, 17480074891096947 E 67, 90717520544989264 E 69, 46265670716350223 E 70, 23194006233152119 E 71, 11433178303735215 E 72, bnil.
Definition r589 := 84888993534801255 E 18, 70477900601904814 E 18, 48991930409892165 E 18, 28888825551062560 E 18, 14658860994367903 E 18, 64898868499910665 E 19, 25385290164558934 E 19, 88702144864529376 E 20, 27956098085667245 E 20, 80139160943522696 E 21, 21047558458212149 E 21, 50969321451431557 E 22, 11444278405054364 E 22, 23942857763281635 E 23, 46877484633442683 E 24, 86226261269015055 E 25, 14952418602768717 E 25, 24520993180187764 E 26, 38137002370977947 E 27, 56396282830009437 E 28, 79481170255063464 E 29, 10698315488956702 E 29, 13780181285543705 E 30, 17016340322721831 E 31, 20177729287942942 E 32, 23011392018865672 E 33, 25275487432410185 E 34, 26774458392950311 E 35, 27387093644640696 E 36, 27081938200770874 E 37, 25917592230653696 E 38, 24028920128231670 E 39, 21603080317330652 E 40, 18850891216218830 E 41, 15979149752314435 E 42, 13168352675031760 E 43, 10558370940688091 E 44, 82426042260426735 E 46, 62694931295894526 E 47, 46492664440163898 E 48, 33634910959656941 E 49, 23752373163740832 E 50, 16382483757732271 E 51, 11041867465350995 E 52, 72764411628080256 E 54, 46905436659749630 E 55, 29591016734652222 E 56, 18277865766720662 E 57, 11058807865112736 E 58, 65567584786287366 E 60, 38110252476994014 E 61, 21723673575432565 E 62, 12148544355505752 E 63, 66675997705845744 E 65, 35926775666193426 E 66, 19011404514827193 E 67, 98831673904501182 E 69, 50489147749703618 E 70, 25354162579292756 E 71, 12519152258561879 E 72, bnil.
Definition r590 := 84745126732380077 E 18, 70382817889250410 E 18, 48957253229371389 E 18, 28893620237240760 E 18, 14676686846204386 E 18, 65054538616747528 E 19, 25478745617260323 E 19, 89149296295637666 E 20, 28136702878609203 E 20, 80774405437128555 E 21, 21246062124152756 E 21, 51528283850593685 E 22, 11587650298535317 E 22, 24280707212067700 E 23, 47614021843653427 E 24, 87720494993296793 E 25, 15235922709042839 E 25, 25026222139046154 E 26, 38985872825274389 E 27, 57745443506054456 E 28, 81515593144178474 E 29, 10990143719642946 E 29, 14179355264417292 E 30, 17538122983315566 E 31, 20830814211506050 E 32, 23795524833596736 E 33, 26180121975293622 E 34, 27778814392618545 E 35, 28461703302210692 E 36, 28191459217771471 E 37, 27024408443922091 E 38, 25096913168251805 E 39, 22600963714474109 E 40, 19754636417015969 E 41, 16773252904920081 E 42, 13845929092300613 E 43, 11120264130409140 E 44, 86958219082507583 E 46, 66253230090388440 E 47, 49213913403453221 E 48, 35663417729006267 E 49, 25227211447852465 E 50, 17428975999349741 E 51, 11766975387401103 E 52, 77673309453203970 E 54, 50154130900844414 E 55, 31693806376600412 E 56, 19609712077935028 E 57, 11884625111179372 E 58, 70582657860483070 E 60, 41094385437294130 E 61, 23464211189479607 E 62, 13144047938906447 E 63, 72261467696955308 E 65, 39002102339966934 E 66, 20673625532153124 E 67, 10765430489919370 E 68, 55089170104156119 E 70, 27710893346566256 E 71, 13705956944001484 E 72, bnil.
Definition r591 := 84601746534880534 E 18, 70287974863616834 E 18, 48922571477207022 E 18, 28898320483577065 E 18, 14694442308841614 E 18, 65209971706202963 E 19, 25572225327293889 E 19, 89597298695159107 E 20, 28317941863905614 E 20, 81412899495761105 E 21, 21445900801583925 E 21, 52091910637369808 E 22, 11732452235889048 E 22, 24622480490066808 E 23, 48360328103619257 E 24, 89237025309627109 E 25, 15524129665898175 E 25, 25540677843073206 E 26, 39851673006802016 E 27, 59123788957619349 E 28, 83597470989584804 E 29, 11289275266044718 E 29, 14589199845216718 E 30, 18074746511829381 E 31, 21503595256051789 E 32, 24604655334312049 E 33, 27115156654394125 E 34, 28818659179277536 E 35, 29576147909353965 E 36, 29344038345392875 E 37, 28176106708358478 E 38, 26210079531049592 E 39, 23642802043760047 E 40, 20699775703261604 E 41, 17605124649224394 E 42, 14556926000470006 E 43, 11710864189156958 E 44, 91729963101845230 E 46, 70005927501470904 E 47, 52088666168859297 E 48, 37809962769956530 E 49, 26790501206609268 E 50, 18540100771340057 E 51, 12538165392052069 E 52, 82902986085747097 E 54, 53620956127371713 E 55, 33941573734058975 E 56, 21035786565455704 E 57, 12770362038227363 E 58, 75970698991168160 E 60, 44305862041832026 E 61, 25340514641290156 E 62, 14219016276459949 E 63, 78302982604959817 E 65, 42334146627962400 E 66, 22477647216964218 E 67, 11724576361338512 E 68, 60098505775514975 E 70, 30281667287374920 E 71, 15002738934130482 E 72, bnil.
Definition r592 := 84458850481419739 E 18, 70193370721043147 E 18, 48887885588999237 E 18, 28902926811415420 E 18, 14712127534960720 E 18, 65365167075900048 E 19, 25665728418036147 E 19, 90046148065639053 E 20, 28499814419451664 E 20, 82054647665380376 E 21, 21647079052248788 E 21, 52660226489572438 E 22, 11878694363675979 E 22, 24968212375624041 E 23, 49116507073933410 E 24, 90776127521748085 E 25, 15817105676126306 E 25, 26064506109088506 E 26, 40734699676655011 E 27, 60531881117913002 E 28, 85727799424609734 E 29, 11595875974907242 E 29, 15009975798442538 E 30, 18626599298302507 E 31, 22196622039831081 E 32, 25439524506394527 E 33, 28081545493039003 E 34, 29895168323460342 E 35, 30731816549984948 E 36, 30541252364374763 E 37, 29374409224658542 E 38, 27370231869618694 E 39, 24730436340891718 E 40, 21688115749095792 E 41, 18476480052992246 E 42, 15302920084470834 E 43, 12331576249514042 E 44, 96753425441673192 E 46, 73963229031812679 E 47, 55125254556540551 E 48, 40081163372647913 E 49, 28447359058648324 E 50, 19719712488084175 E 51, 13358268217610600 E 52, 88473722338874407 E 54, 57320095719004186 E 55, 36344006810786896 E 56, 22562556016667297 E 57, 13720239214849341 E 58, 81758654498618621 E 60, 47761519978994517 E 61, 27362885877998109 E 62, 15379623855864299 E 63, 84836809319876456 E 65, 45943792981222961 E 66, 24435264836794453 E 67, 12767141223338284 E 68, 65552704408872080 E 70, 33085468236443875 E 71, 16419454968402226 E 72, bnil.
Definition r593 := 84316436127615135 E 18, 70099004660308148 E 18, 48853195995924671 E 18, 28907439739629656 E 18, 14729742677643459 E 18, 65520124042517253 E 19, 25759254016284525 E 19, 90495840405444309 E 20, 28682319912986143 E 20, 82699654441012059 E 21, 21849601426787364 E 21, 53233256109050325 E 22, 12026386863462489 E 22, 25317937841663255 E 23, 49882663201378602 E 24, 92338079545786591 E 25, 16114917693485204 E 25, 26597854673697561 E 26, 41635254037534579 E 27, 61970291334714727 E 28, 87907592532759926 E 29, 11910115059936952 E 29, 15441949649202458 E 30, 19194078988450431 E 31, 22910458247108409 E 32, 26300893603370192 E 33, 29080270289458555 E 34, 31009553690637888 E 35, 31930143642174406 E 36, 31784732294915843 E 37, 30621100473706563 E 38, 28579251589220865 E 39, 25865780724931872 E 40, 22721538145405843 E 41, 19389108341093755 E 42, 16085559000164475 E 43, 12983871189177066 E 44, 10204134738325235 E 45, 78135854027111826 E 47, 58332444754223530 E 48, 42483993632498369 E 49, 30203186666251252 E 50, 20971887197807565 E 51, 14230282453720405 E 52, 94407038049128186 E 54, 61266625099131755 E 55, 38911420391757965 E 56, 24196917276596545 E 57, 14738765522050434 E 58, 87975360257722626 E 60, 51479408197918690 E 61, 29542386666376407 E 62, 16632511804063770 E 63, 91902021744097692 E 65, 49853580423872495 E 66, 26559229718203525 E 67, 13900203060789487 E 68, 71490327491683673 E 70, 36142923279162093 E 71, 17966941981245135 E 72, bnil.
Definition r594 := 84174501045447492 E 18, 70004875882928350 E 18, 48818503124776605 E 18, 28911859784631556 E 18, 14747287890362325 E 18, 65674841931734817 E 19, 25852801252262509 E 19, 90946371708909503 E 20, 28865457702146523 E 20, 83347924266719638 E 21, 22053472464618143 E 21, 53811024221099929 E 22, 12175539951686793 E 22, 25671692055831275 E 23, 50658901721803469 E 24, 93923161926055270 E 25, 16417633428857396 E 25, 27140873212919260 E 26, 42553641787803732 E 27, 63439600502805572 E 28, 90137883141623884 E 29, 12232165161628259 E 29, 15885393789950273 E 30, 19777592681745969 E 31, 23645681954520648 E 32, 27189544653534114 E 33, 30112341360752161 E 34, 32163064478218269 E 35, 33172610314265742 E 36, 33076165139762075 E 37, 31918029328993834 E 38, 29839091301755458 E 39, 27050825137440614 E 40, 23802002341136027 E 41, 20344875939154952 E 42, 16906564413786371 E 43, 13669288563927381 E 44, 10760708774765402 E 45, 82535060435714464 E 47, 61719459024639636 E 48, 45025802920719055 E 49, 32063686002277692 E 50, 22300934851285746 E 51, 15157384134691226 E 52, 10072576512182810 E 53, 65476565932469292 E 55, 41654795255698861 E 56, 25946224930439479 E 57, 15830757233606578 E 58, 94651670172858230 E 60, 55478871463531902 E 61, 31890893015249578 E 62, 17984822160081742 E 63, 99540712074777133 E 65, 54087830113467919 E 66, 28863324703304099 E 67, 15131425375825363 E 68, 77953197104314837 E 70, 39476441488319811 E 71, 19656993035159143 E 72, bnil.
Definition r595 := 84033042823125431 E 18, 69910983593156006 E 18, 48783807398004767 E 18, 28916187460378908 E 18, 14764763326970744 E 18, 65829320078181156 E 19, 25946369259624642 E 19, 91397737966483251 E 20, 29049227134523973 E 20, 83999461535576135 E 21, 22258696693820100 E 21, 54393555573875341 E 22, 12326163879523214 E 22, 26029510380635392 E 23, 51445328662984176 E 24, 95531657850864045 E 25, 16725321356432859 E 25, 27693713361943446 E 26, 43490173176024499 E 27, 64940399197863848 E 28, 92419723120618473 E 29, 12562202407990082 E 29, 16340586595136380 E 30, 20377557133232333 E 31, 24402885964192144 E 32, 28106280977999275 E 33, 31178798304991047 E 34, 33356988279715292 E 35, 34460745819541923 E 36, 34417295679278233 E 37, 33267111235845283 E 38, 31151777362171809 E 39, 28287638178101450 E 40, 24931548693492506 E 41, 21345729635358385 E 42, 17767735164833207 E 43, 14389439664986866 E 44, 11346465148795204 E 45, 87172670707208782 E 47, 65295998450540948 E 48, 47714335270902962 E 49, 34034875401758059 E 50, 23711412223207447 E 51, 16142936860455893 E 52, 10745412472572182 E 53, 69966943499177716 E 55, 44585819756767594 E 56, 27818320708718555 E 57, 17001358318335081 E 58, 10182059311345868 E 59, 59780640633562743 E 61, 34421153379755240 E 62, 19444234591922771 E 63, 10779821753858134 E 64, 58672782463597887 E 66, 31362445400709435 E 67, 16469104378703452 E 68, 84986664684366223 E 70, 43110364078056428 E 71, 21502439642335309 E 72, bnil.
Definition r596 := 83892059064951049 E 18, 69817326997976617 E 18, 48749109233754771 E 18, 28920423278383688 E 18, 14782169141693387 E 18, 65983557825379634 E 19, 26039957175461410 E 19, 91849935164873121 E 20, 29233627547718683 E 20, 84654270589640992 E 21, 22465278631015818 E 21, 54980874937799151 E 22, 12478268932745299 E 22, 26391428373575003 E 23, 52242050847473638 E 24, 97163853168345941 E 25, 17038050719917255 E 25, 28256528735020094 E 26, 44445163055982219 E 27, 66473287811838401 E 28, 94754183682622269 E 29, 12900406476183741 E 29, 16807812537798008 E 30, 20994398959129733 E 31, 25182678143730115 E 32, 29051927720398582 E 33, 32280710781856992 E 34, 34592652176734190 E 35, 35796128990432948 E 36, 35809928319932096 E 37, 34670330459413479 E 38, 32519412489479270 E 39, 29578370040015257 E 40, 26112301630828917 E 41, 22393699864715260 E 42, 18670950557132375 E 43, 15146010705758169 E 44, 11962871954265948 E 45, 92061098879880415 E 47, 69072266764616465 E 48, 50557749725121343 E 49, 36123106436766402 E 50, 25208136519498237 E 51, 17190502473032453 E 52, 11461780886361959 E 53, 74755847424827836 E 55, 47716933913413714 E 56, 29821564718564962 E 57, 18256062039907772 E 58, 10951743884930972 E 59, 64406929032486838 E 61, 37146850902166550 E 62, 21019005726609930 E 63, 11672336367591161 E 64, 63636744525109164 E 66, 34072687663487100 E 67, 17922219881610981 E 68, 92639901372292028 E 70, 47071126890200171 E 71, 23517240998638884 E 72, bnil.
Definition r597 := 83751547391187064 E 18, 69723905307106551 E 18, 48714409045907375 E 18, 28924567747720148 E 18, 14799505489116583 E 18, 66137554525695190 E 19, 26133564140303702 E 19, 92302959287189417 E 20, 29418658269395205 E 20, 85312355719936931 E 21, 22673222781255006 E 21, 55573007104971655 E 22, 12631865431587317 E 22, 26757481787266222 E 23, 53049175895435302 E 24, 98820036402292391 E 25, 17355891538764671 E 25, 28829474945478852 E 26, 45418930942196541 E 27, 68038876689807346 E 28, 97142355689528201 E 29, 13246960655082289 E 29, 17287362308114999 E 30, 21628554846294719 E 31, 25985681773222012 E 32, 30027332388469795 E 33, 33419179312218227 E 34, 35871423859430298 E 35, 37180389733270035 E 36, 37255928997650241 E 37, 36129742403445217 E 38, 33944178474977174 E 39, 30925255547933305 E 40, 27346472932116622 E 41, 23490904120274099 E 42, 19618173782998771 E 43, 15940766143134692 E 44, 12611468000323673 E 45, 97213378908973657 E 47, 73058995313668776 E 48, 53564641684913428 E 49, 38335081655001614 E 50, 26796199705528032 E 51, 18303852317776257 E 52, 12224406655760838 E 53, 79862495955247827 E 55, 51061376150191005 E 56, 31964868610606278 E 57, 19600733934348412 E 58, 11777997355777071 E 59, 69381535321113274 E 61, 40082669960582883 E 62, 22718011273748273 E 63, 12636872534719536 E 64, 69010248371541357 E 66, 37011441758060453 E 67, 19500490178072419 E 68, 10096621162520084 E 69, 51387436199565846 E 71, 25716580695621457 E 72, bnil.
Definition r598 := 83611505437925060 E 18, 69630717732990483 E 18, 48679707244117118 E 18, 28928621375033020 E 18, 14816772524178816 E 18, 66291309540281113 E 19, 26227189298127238 E 19, 92756806313088564 E 20, 29604318617337913 E 20, 85973721166430052 E 21, 22882533637899076 E 21, 56169976888580391 E 22, 12786963730604551 E 22, 27127706569560323 E 23, 53866812227463559 E 24, 10050049876799999 E 24, 17678914614435247 E 25, 29412709625880178 E 26, 46411801065923526 E 27, 69637786268335763 E 28, 99585349961757987 E 29, 13602051908762899 E 29, 17779532933959906 E 30, 22280471765595391 E 31, 26812535899362512 E 32, 31033365407761530 E 33, 34595336097057034 E 34, 37194712776115750 E 35, 38615210564622269 E 36, 38757227137547195 E 37, 37647476001885858 E 38, 35428338980407883 E 39, 32330617302806542 E 40, 28636365127034165 E 41, 24639550495888061 E 42, 20611455485565137 E 43, 16775552138765576 E 44, 13293866065061971 E 45, 10264319428987451 E 46, 77267469208561480 E 48, 56744065314614569 E 49, 40677873224410061 E 50, 28480983591833496 E 51, 19486979120191108 E 52, 13036179489996514 E 53, 85307303975557434 E 55, 54633232846468426 E 56, 34257730797276086 E 57, 21041636250140149 E 58, 12664858551029222 E 59, 74729953285756690 E 61, 43244367314460922 E 62, 24550791135078466 E 63, 13679090671446078 E 64, 74826221286965659 E 66, 40197493721585698 E 67, 21214431211596160 E 68, 11002337191401168 E 69, 56090458901608134 E 71, 28116971521316929 E 72, bnil.
Definition r599 := 83471930856955243 E 18, 69537763490798474 E 18, 48645004233850833 E 18, 28932584664545707 E 18, 14833970402161346 E 18, 66444822239026206 E 19, 26320831796356691 E 19, 93211472218914795 E 20, 29790607899506490 E 20, 86638371118011992 E 21, 23093215682506110 E 21, 56771809122309095 E 22, 12943574218532073 E 22, 27502138863655737 E 23, 54695069067389352 E 24, 10220553418812666 E 24, 18007191536677220 E 25, 30006392448297371 E 26, 47424102431649248 E 27, 71270647215341528 E 28, 10208429759177339 E 28, 13965870940942894 E 29, 18284627903469125 E 30, 22950607189263742 E 31, 27663895696836049 E 32, 32070920687698730 E 33, 35810345856166939 E 34, 38563971312698676 E 35, 40102328190269930 E 36, 40315817671560923 E 37, 39225736185436742 E 38, 36974242428808286 E 39, 33796868936125156 E 40, 29984375020836890 E 41, 25841941365316865 E 42, 21652937464551138 E 43, 17652300165860710 E 44, 14011756291786759 E 45, 10836490903255564 E 46, 81709554713660428 E 48, 60105557046591283 E 49, 43158942528157569 E 50, 30268175715762109 E 51, 20744109510616486 E 52, 13900163523397976 E 53, 91111954983445011 E 55, 58447490854571847 E 56, 36710273845034153 E 57, 22585453940914813 E 58, 13616646158281178 E 59, 80479488997680657 E 61, 46648848154714406 E 62, 26527597705326726 E 63, 14805084153731740 E 64, 81120168610596339 E 66, 43651134441254752 E 67, 23075420359676052 E 68, 11987399645684448 E 69, 61214028228448792 E 71, 30736369009149965 E 72, bnil.
Definition r600 := 83332821315637226 E 18, 69445041798423243 E 18, 48610300416425598 E 18, 28936458118068571 E 18, 14851099278678935 E 18, 66598092000501683 E 19, 26414490785869626 E 19, 93666952977841786 E 20, 29977525414091768 E 20, 87306309712484345 E 21, 23305273384717050 E 21, 57378528659746496 E 22, 13101707318142278 E 22, 27880815008203467 E 23, 55534056445071508 E 24, 10393543930855770 E 24, 18340794689833570 E 25, 30610685144730491 E 26, 48456168874079457 E 27, 72938100571481851 E 28, 10464035026162643 E 28, 14338612260371148 E 29, 18802957289664354 E 30, 23639429312289559 E 31, 28540432837086139 E 32, 33140916200253700 E 33, 37065406687049571 E 34, 39980696002658814 E 35, 41643535127898001 E 36, 41933763115571798 E 37, 40866806425241876 E 38, 38584324990919562 E 39, 35326518477633705 E 40, 31392997348305349 E 41, 27100477202605295 E 42, 22744856530928420 E 43, 18573030767334319 E 44, 14766909733830690 E 45, 11439360004596522 E 46, 86397727931820209 E 48, 63659160240190260 E 49, 45786160756335293 E 50, 32163786059313803 E 51, 22079717230738693 E 52, 14819607474270064 E 53, 97299477238095183 E 55, 62520093158964323 E 56, 39333284170044549 E 57, 24239322306043603 E 58, 14637977527407087 E 59, 86659385821907071 E 61, 50314247386062352 E 62, 28659447583341826 E 63, 16021411521414520 E 64, 87930370152589512 E 66, 47394277027435565 E 67, 25095765183369622 E 68, 13058593208943355 E 69, 66794866228188357 E 71, 33594294446631435 E 72, bnil.
Definition r601 := 83194174496772286 E 18, 69352551876476931 E 18, 48575596189046701 E 18, 28940242235007144 E 18, 14868159309670649 E 18, 66751118211908593 E 19, 26508165421000236 E 19, 94123244560012696 E 20, 30165070449571327 E 20, 87977541036545401 E 21, 23518711202142237 E 21, 57990160373794872 E 22, 13261373486101037 E 22, 28263771537406258 E 23, 56383885199173554 E 24, 10569051351428069 E 24, 18679797259172977 E 25, 31225751527651594 E 26, 49508339115625015 E 27, 74640797893070448 E 28, 10725468056458408 E 28, 14720474247185627 E 29, 19334837877151724 E 30, 24347417277918993 E 31, 29442835864601589 E 32, 34244294571469506 E 33, 38361750944445010 E 34, 41446428768272759 E 35, 43240681374612576 E 36, 43613195707615262 E 37, 42573051355933636 E 38, 40261113670090533 E 39, 36922171840110117 E 40, 32864828561205392 E 41, 28417660548844220 E 42, 23889548516130793 E 43, 19539857471300735 E 44, 15561182054086257 E 45, 12074509099344123 E 46, 91345104843362793 E 48, 67415451048516034 E 49, 48567830542938891 E 50, 34174164645400292 E 51, 23498537057573572 E 52, 15797955373805118 E 53, 10389432431807094 E 54, 66867997857605516 E 56, 42138254174291136 E 57, 26010856380090154 E 58, 15733788695763272 E 59, 93300957784583610 E 61, 54260016490488468 E 62, 30958176927062159 E 63, 17335131009698572 E 64, 95298091159537041 E 66, 51450583093689740 E 67, 27288777518498866 E 68, 14223268453209308 E 69, 72872824337979036 E 71, 36711968111890555 E 72, bnil.
Definition r602 := 83055988098476655 E 18, 69260292948288005 E 18, 48540891944844761 E 18, 28943937512370437 E 18, 14885150651390771 E 18, 66903900269025089 E 19, 26601854859542922 E 19, 94580342932679726 E 20, 30353242284765497 E 20, 88652069125778185 E 21, 23733533580248844 E 21, 58606729156077806 E 22, 13422583212822385 E 22, 28651045181110852 E 23, 57244666979924913 E 24, 10747105894526671 E 24, 19024273237244701 E 25, 31851757510681446 E 26, 50580956824386717 E 27, 76379401396535899 E 28, 10992848233086742 E 28, 15111659220248444 E 29, 19880593290927743 E 30, 25075061407322904 E 31, 30371810580853335 E 32, 35382023686088721 E 33, 39700646140940772 E 34, 42962758193820836 E 35, 44895676120412146 E 36, 45356319608841593 E 37, 44346919480328965 E 38, 42007229488697550 E 39, 38586536425012050 E 40, 34402570753837420 E 41, 29796100130596120 E 42, 25089452441662666 E 43, 20554990870163246 E 44, 16396517385671014 E 45, 12743598768275875 E 46, 96565472760015512 E 48, 71385565549582500 E 49, 51512708698923925 E 50, 36306020056786339 E 51, 25005579482359403 E 52, 16838857895796956 E 53, 11092246033400481 E 54, 71509240656698670 E 56, 45137426966969125 E 57, 27908182178060388 E 58, 16909355713762265 E 59, 10043773184006208 E 60, 58507016343199245 E 62, 33436500701358859 E 63, 18753837571284374 E 64, 10326780887665654 E 65, 55845598600727763 E 67, 29668853312204595 E 68, 15489387848321508 E 69, 79491143484122371 E 71, 40112453566829537 E 72, bnil.
Definition r603 := 82918259834056290 E 18, 69168264239897900 E 18, 48506188072913056 E 18, 28947544444779275 E 18, 14902073460399807 E 18, 67056437576153878 E 19, 26695558262755507 E 19, 95038244060342088 E 20, 30542040188893173 E 20, 89329897964641851 E 21, 23949744952249140 E 21, 59228259916348743 E 22, 13585347022322076 E 22, 29042672864894252 E 23, 58116514251867901 E 24, 10927738051236071 E 24, 19374297430257809 E 25, 32488871129398370 E 26, 51674370672641861 E 27, 78154584104433481 E 28, 11266297095754511 E 28, 15512373505470284 E 29, 20440554127321283 E 30, 25822863433501146 E 31, 31328080436017872 E 32, 36555097305545150 E 33, 41083395869112533 E 34, 44531320831521786 E 35, 46610489508770311 E 36, 47165413168916931 E 37, 46190945958128504 E 38, 43825390779187999 E 39, 40322424852907770 E 40, 36009035731397995 E 41, 31238515135443978 E 42, 26347114855166210 E 43, 21620742869769954 E 44, 17274952360389205 E 45, 13448371505701935 E 46, 10207332325738128 E 47, 75581228200902611 E 49, 54630030094496279 E 50, 38566438924110262 E 51, 26606146183668756 E 52, 17946184319515752 E 53, 11841145005512512 E 54, 76463001080623725 E 56, 48343843824274356 E 57, 29939969909692628 E 58, 18170317352503219 E 59, 10810559961271760 E 60, 63077616376388808 E 62, 36108076084289940 E 63, 20285702563517073 E 64, 11188745582678752 E 65, 60606899968436295 E 67, 32251558638241839 E 68, 16865575415219399 E 69, 86696735252948269 E 71, 43820813901085961 E 72, bnil.
Definition r604 := 82780987431882530 E 18, 69076464980057442 E 18, 48471484958344073 E 18, 28951063524474619 E 18, 14918927893555601 E 18, 67208729546069925 E 19, 26789274795362482 E 19, 95496943904884075 E 20, 30731463421627953 E 20, 90011031486464778 E 21, 24167349738989540 E 21, 59854777581898562 E 22, 13749675472069645 E 22, 29438691710143200 E 23, 58999540296589306 E 24, 11110978591317776 E 24, 19729945464484149 E 25, 33137262562278829 E 26, 52788934395833974 E 27, 79967029993021259 E 28, 11545938374262115 E 28, 15922827505135402 E 29, 21015058087100617 E 30, 26591336739489103 E 31, 32312386928624408 E 32, 37764535699579162 E 33, 42511340745657420 E 34, 46153802540956706 E 35, 48387154445512191 E 36, 49042831257599885 E 37, 48107755481031705 E 38, 45718416582942672 E 39, 42132758822726401 E 40, 37687149226028206 E 41, 32747739650307434 E 42, 27665194339223909 E 43, 22739531115352403 E 44, 18198620311915000 E 45, 14190655585530794 E 46, 10788388665223229 E 47, 80014781679211020 E 49, 57929532746260874 E 50, 40962906431614168 E 51, 28305846336011405 E 52, 19124035159775827 E 53, 12639055422250718 E 54, 81749672610016825 E 56, 51771394549455390 E 57, 32115469282700272 E 58, 19522699280100388 E 59, 11634297922447192 E 60, 67995800511533349 E 62, 38987570314851481 E 63, 21939516286769761 E 64, 12120868100438361 E 65, 65764251210465236 E 67, 35053722356180732 E 68, 18361170304098239 E 69, 94540485795016425 E 71, 47864280891416233 E 72, bnil.
Definition r605 := 82644168635269286 E 18, 68984894400223387 E 18, 48436782982265961 E 18, 28954495241325914 E 18, 14935714108004554 E 18, 67360775599968215 E 19, 26883003625557873 E 19, 95956438425711234 E 20, 30921511233154240 E 20, 90695473573439386 E 21, 24386352348840243 E 21, 60486307096963368 E 22, 13915579152839259 E 22, 29839139034127267 E 23, 59893859215436409 E 24, 11296858564800513 E 24, 20091293792685140 E 25, 33797104151770008 E 26, 53925006852068416 E 27, 81817434141410542 E 28, 11831898022335349 E 28, 16343235768238815 E 29, 21604450110775207 E 30, 27381006600933494 E 31, 33325490013264750 E 32, 39011386291741843 E 33, 43985859377988905 E 34, 47831939862758682 E 35, 50227768457193268 E 36, 50991007664270574 E 37, 50100065236744629 E 38, 47689230160240298 E 39, 44020573103982542 E 40, 39439955265575931 E 41, 34326727268358121 E 42, 29046466199393447 E 43, 23913883601211797 E 44, 19169755660892221 E 45, 14972369101484524 E 46, 11401316809373968 E 47, 84699218169752609 E 49, 61421484167417487 E 50, 43503327891546065 E 51, 30110613797253417 E 52, 20376755499982855 E 53, 13489083033649618 E 54, 87390936972698603 E 56, 55434870904210521 E 57, 34444547021923575 E 58, 20972939798596190 E 59, 12519098785707322 E 60, 73287280307923562 E 62, 42090733283978785 E 63, 23724733572893662 E 64, 13128713026602161 E 65, 71349772899698327 E 67, 38093535913708883 E 68, 19986284599409489 E 69, 10307758425283761 E 70, 52272438116928976 E 72, bnil.
Definition r606 := 82507801202351169 E 18, 68893551734554567 E 18, 48402082521878623 E 18, 28957840082839529 E 18, 14952432261172894 E 18, 67512575167411725 E 19, 26976743925008003 E 19, 96416723579886073 E 20, 31112182864223418 E 20, 91383228056619503 E 21, 24606757177585809 E 21, 61122873422131820 E 22, 14083068688559175 E 22, 30244052350065258 E 23, 60799585932217746 E 24, 11485409303570933 E 24, 20458419700562085 E 25, 34468570425494304 E 26, 55082952082115670 E 27, 83706502882302295 E 28, 12124304251884691 E 28, 16773817061847484 E 29, 22209082516122126 E 30, 28192410433106309 E 31, 34368168516508023 E 32, 40296724319058830 E 33, 45508369353773260 E 34, 49567521427362334 E 35, 52134495600217790 E 36, 53012457567233205 E 37, 52170687964423298 E 38, 49740862614703162 E 39, 45989019666256201 E 40, 41270620700262153 E 41, 35978555870564277 E 42, 30493827338204797 E 43, 25146443471378311 E 44, 20190698489427124 E 45, 15795524188930357 E 46, 12047798534070002 E 47, 89648212172432623 E 49, 65116709041884204 E 50, 46196051440643042 E 51, 32026725220334471 E 52, 21708949065791821 E 53, 14394523922107883 E 54, 93409842824540607 E 56, 59350023292246829 E 57, 36937726738797763 E 58, 22527917238902882 E 59, 13469362573859443 E 60, 78979615803819704 E 62, 45434475190419492 E 63, 25651522636016563 E 64, 14218274728793349 E 65, 77398123830515228 E 67, 41390660827693711 E 68, 21751865676289426 E 69, 11236787763953117 E 70, 57077419152228745 E 72, bnil.
Definition r607 := 82371882905962979 E 18, 68802436219908031 E 18, 48367383950489493 E 18, 28961098534167094 E 18, 14969082510758082 E 18, 67664127686279272 E 19, 27070494868853979 E 19, 96877795322262733 E 20, 31303477546210096 E 20, 92074298715919635 E 21, 24828568608316387 E 21, 61764501533752771 E 22, 14252154736159920 E 22, 30653469367185315 E 23, 61716836195887986 E 24, 11676662422964824 E 24, 20831401313229983 E 25, 35151838117586191 E 26, 56263139369924577 E 27, 85634953954320750 E 28, 12423287567695713 E 28, 17214794443497285 E 29, 22829315137967404 E 30, 29026098042425437 E 31, 35441220561163356 E 32, 41621653506127494 E 33, 47080328253893726 E 34, 51362389399622185 E 35, 54109568421960500 E 36, 55109780074657252 E 37, 54322535104161122 E 38, 51876456635694063 E 39, 48041371950335689 E 40, 43182439892603014 E 41, 37706432588094194 E 42, 32010301322083769 E 43, 26439974018734920 E 44, 21263899312739989 E 45, 16662231436097602 E 46, 12729600829987239 E 47, 94876154895094287 E 49, 69026618286024500 E 50, 49049891914653147 E 51, 34060819137017576 E 52, 23125493078938697 E 53, 15358875768406676 E 54, 99830889070376443 E 56, 63533620886071067 E 57, 39606231293406589 E 58, 24194979117090862 E 59, 14489797228641606 E 60, 85102344557045580 E 62, 49036949604222887 E 63, 27730817412293252 E 64, 15396009655600647 E 65, 83946696305292351 E 67, 44966344418696438 E 68, 23669763457237471 E 69, 12247625424324609 E 70, 62314122048373663 E 72, bnil.
Definition r608 := 82236411533520154 E 18, 68711547095835088 E 18, 48332687637548874 E 18, 28964271078113963 E 18, 14985665014720316 E 18, 67815432602713940 E 19, 27164255635714102 E 19, 97339649605620855 E 20, 31495394501168471 E 20, 92768689280116711 E 21, 25051791011319865 E 21, 62411216423342890 E 22, 14422847985421268 E 22, 31067427990778398 E 23, 62645726583217392 E 24, 11870649823358689 E 24, 21210317601714845 E 25, 35847086190161286 E 26, 57465943303648251 E 27, 87603516655955906 E 28, 12728980802554923 E 28, 17666395334637798 E 29, 23465515470253039 E 30, 29882631882552558 E 31, 36545463999036880 E 32, 42987306753927879 E 33, 48703234689340739 E 34, 53218440960127353 E 35, 56155289975185783 E 36, 57285660839068331 E 37, 56558620043198574 E 38, 54099270362235724 E 39, 50181029285563948 E 40, 45178839576111329 E 41, 39513698952019329 E 42, 33599043648414478 E 43, 27797363890377027 E 44, 22391924056044310 E 45, 17574704492765541 E 46, 13448580040372922 E 47, 10039819030730205 E 48, 73163239564585249 E 50, 52074155959529487 E 51, 36219916063772711 E 52, 24631553932840019 E 53, 16385849760888729 E 54, 10668011308879369 E 55, 68003515398909822 E 57, 42462027799706049 E 58, 25981973161564821 E 59, 15585439518437147 E 60, 91687119424170097 E 62, 52917642303068664 E 63, 29974373630479493 E 64, 16668870995504773 E 65, 91035826038399253 E 67, 48843544415440702 E 68, 25752802943870670 E 69, 13347305779058508 E 70, 68020441406107603 E 72, bnil.
Definition r609 := 82101384886900552 E 18, 68620883604577201 E 18, 48297993948685169 E 18, 28967358195147657 E 18, 15002179931274090 E 18, 67966489371071286 E 19, 27258025407685999 E 19, 97802282380798325 E 20, 31687932941888713 E 20, 93466403426853450 E 21, 25276428743974680 E 21, 63063043096993802 E 22, 14595159158817799 E 22, 31485966322245335 E 23, 63586374501445217 E 24, 12067403691761671 E 24, 21595248389473962 E 25, 36554495854917699 E 26, 58691743837183886 E 27, 89612932001124488 E 28, 13041519152814870 E 28, 18128851595136729 E 29, 24118058810420169 E 30, 30762587315138717 E 31, 37681736852330140 E 32, 44394846843629863 E 33, 50378629362532252 E 34, 55137629824054192 E 35, 58274035887083651 E 36, 59542874747343726 E 37, 58882061461600196 E 38, 56412681372118895 E 39, 52411521458060977 E 40, 47263383888471622 E 41, 41403836236968372 E 42, 35263347220203563 E 43, 29221632507262595 E 44, 23577459245032375 E 45, 18535264884833779 E 46, 14206686190922335 E 47, 10623025293122754 E 48, 77539249330498346 E 50, 55278668440715147 E 51, 38511439682364848 E 52, 26232603733679547 E 53, 17479383183154016 E 54, 11398518413906802 E 55, 72778708715056557 E 57, 45517875433274773 E 58, 27897280327245920 E 59, 16761677321981054 E 60, 98767855651725245 E 62, 57097466270546228 E 63, 32394828871453849 E 64, 18044345863221075 E 65, 98709017741257089 E 67, 53047063090485297 E 68, 28014862426460136 E 69, 14543453477239888 E 70, 74237519447550341 E 72, bnil.
Definition r610 := 81966800782327279 E 18, 68530444991061673 E 18, 48263303245739575 E 18, 28970360363406292 E 18, 15018627418879891 E 18, 68117297453867904 E 19, 27351803370348616 E 19, 98265689596823292 E 20, 31881092071953484 E 20, 94167444782644128 E 21, 25502486150643482 E 21, 63720006574779861 E 22, 14769099011363342 E 22, 31909122659137207 E 23, 64538898190916641 E 24, 12266956503407696 E 24, 21986274358939355 E 25, 37274250594869752 E 26, 59940926352229060 E 27, 91663952876361967 E 28, 13361040214402588 E 28, 18602399598856087 E 29, 24787328406139905 E 30, 31666552875289324 E 31, 38850897763830207 E 32, 45845467155685472 E 33, 52108096153580738 E 34, 57121967798418488 E 35, 60468256484275712 E 36, 61884288688218389 E 37, 61296086780218687 E 38, 58820190799971574 E 39, 54736513434636580 E 40, 49439779585065812 E 41, 43380471005608849 E 42, 37006648036072843 E 43, 30715935706507547 E 44, 24823317418672135 E 45, 19546347043527791 E 46, 15005967520262895 E 47, 11238910744961629 E 48, 82168006461391919 E 50, 58673800214861378 E 51, 40943239150313253 E 52, 27934437752937455 E 53, 18643652717498018 E 54, 12177550224371356 E 55, 77879424603981981 E 57, 48787376210224743 E 58, 29949849919843544 E 59, 18024273375734713 E 60, 10638088788934873 E 61, 61598863270914948 E 63, 35005766892134530 E 64, 19530495192486684 E 65, 10701318752719601 E 66, 57603691636270802 E 68, 30470957803860137 E 69, 15844331751809800 E 70, 81010017601997181 E 72, bnil.
Definition r611 := 81832657050252680 E 18, 68440230502897437 E 18, 48228615886800580 E 18, 28973278058707131 E 18, 15035007636235952 E 18, 68267856321729912 E 19, 27445588712763950 E 19, 98729867201044963 E 20, 32074871085794357 E 20, 94871816922881440 E 21, 25729967562567366 E 21, 64382131890164933 E 22, 14944678330453888 E 22, 32336935495189092 E 23, 65503416727703423 E 24, 12469341023347701 E 24, 22383477058083873 E 25, 38006536186213775 E 26, 61213881720856005 E 27, 93757344199654636 E 28, 13687684019275341 E 28, 19087280310312114 E 29, 25473715604422636 E 30, 32595130541820844 E 31, 40053826456042971 E 32, 47340392404499124 E 33, 53893263232029611 E 34, 59173526378603306 E 35, 62740478975169453 E 36, 64312864399350867 E 37, 63804035713835571 E 38, 61325427588162270 E 39, 57159810247346808 E 40, 51711881438907201 E 41, 45447380861057206 E 42, 38832531103575216 E 43, 32283571614985280 E 44, 26132442773352705 E 45, 20610503558343986 E 46, 15848575219907886 E 47, 11889239021430959 E 48, 87063587568974139 E 50, 62270497331367904 E 51, 43523612599098264 E 52, 29743192839656179 E 53, 19883088503280042 E 54, 13008230285610817 E 55, 83327184756218135 E 57, 52285028915690344 E 58, 32149236960661803 E 59, 19379390578004770 E 60, 11456513777338768 E 61, 66445912441883779 E 63, 37821786507675970 E 64, 21135996526623891 E 65, 11599892335514466 E 66, 62542365541982073 E 68, 33137333478492799 E 69, 17258894580087986 E 70, 88386410239213213 E 72, bnil.
Definition r612 := 81698951535243342 E 18, 68350239390370507 E 18, 48193932226238197 E 18, 28976111754554962 E 18, 15051320742270120 E 18, 68418165453341959 E 19, 27539380627478707 E 19, 99194811139263804 E 20, 32269269168748454 E 20, 95579523371847679 E 21, 25958877297761338 E 21, 65049444089410904 E 22, 15121907935709678 E 22, 32769443520347869 E 23, 66480050026209310 E 24, 12674590308042279 E 24, 22786938907010516 E 25, 38751540720327308 E 26, 62511006368608236 E 27, 95893883080927506 E 28, 14021593072328484 E 28, 19583739362432124 E 29, 26177620003139276 E 30, 33548936012384573 E 31, 41291424199426163 E 32, 48880879388976219 E 33, 55735804194597872 E 34, 61294438385062708 E 35, 65093309691078118 E 36, 66831661396056294 E 37, 66409363932449752 E 38, 63932152874525662 E 39, 59685362043800499 E 40, 54083697833237004 E 41, 47608500414559828 E 42, 40744736584112366 E 43, 33927986763211500 E 44, 27507917047768817 E 45, 21730410663207621 E 46, 16736768392917298 E 47, 12575865274247034 E 48, 92240824060937071 E 50, 66080311734332583 E 51, 46261331880840433 E 52, 31665366843198329 E 53, 21202388991474734 E 54, 13893876763950952 E 55, 89144889392411938 E 57, 56026286370663309 E 58, 34505641930182287 E 59, 20833618948609871 E 60, 12336229277055655 E 61, 71664446375682196 E 63, 40858575345476694 E 64, 22870189911342886 E 65, 12572076481701321 E 66, 67894331786566795 E 68, 36031560325425257 E 69, 18796842996706291 E 70, 96419302310277851 E 72, bnil.
Definition r613 := 81565682095866357 E 18, 68260470906439288 E 18, 48159252614737816 E 18, 28978861922150712 E 18, 15067566896131790 E 18, 68568224335395994 E 19, 27633178310525752 E 19, 99660517355860847 E 20, 32464285497115088 E 20, 96290567602725090 E 21, 26189219660910053 E 21, 65721968230984637 E 22, 15300798678815604 E 22, 33206685620792564 E 23, 67468918841757097 E 24, 12882737706953986 E 24, 23196743204563712 E 25, 39509454625899708 E 26, 63832702338117413 E 27, 98074358984192523 E 28, 14362912388758241 E 28, 20092027135419178 E 29, 26899449604984284 E 30, 34528598983528571 E 31, 42564614289875127 E 32, 50468217759248657 E 33, 57637439229470601 E 34, 63486899641108810 E 35, 67529436387541556 E 36, 69443839983851038 E 37, 69115646833749132 E 38, 66644264520995782 E 39, 62317269308460256 E 40, 56559396553221098 E 41, 49867927476019308 E 42, 42747166178012126 E 43, 35652782448816575 E 44, 28952965658286536 E 45, 22908873965692221 E 46, 17672919240885658 E 47, 13300740729143505 E 48, 97715341038622616 E 50, 70115433538813284 E 51, 49165668627138667 E 52, 33707839099820259 E 53, 22606536638820696 E 54, 14838014170145414 E 55, 95356902711010044 E 57, 60027616236838168 E 58, 37029953036891624 E 59, 22394004348954964 E 60, 13281699701474203 E 61, 77282175189199558 E 63, 44132988805425999 E 64, 24743127108237937 E 65, 13623750366525494 E 66, 73693328721953605 E 68, 39172641271397987 E 69, 20468685880893461 E 70, 10516577279220004 E 71, bnil.
Definition r614 := 81432846604576489 E 18, 68170924306730274 E 18, 48124577399333679 E 18, 28981529030399907 E 18, 15083746257183962 E 18, 68718032462540416 E 19, 27726980961425216 E 19, 10012698179392562 E 19, 32659919238212391 E 20, 97004953037610291 E 21, 26420998943264653 E 21, 66399729384965924 E 22, 15481361443360653 E 22, 33648700878949015 E 23, 68470144773160368 E 24, 13093816864139908 E 24, 23612974134963501 E 25, 40280470691196162 E 26, 65179377353247064 E 27, 10029957389137430 E 27, 14711789531884900 E 28, 20612398836738338 E 29, 27639620973914839 E 30, 35534763435776556 E 31, 43874342535623453 E 32, 52103730799889303 E 33, 59599936307695724 E 34, 65753170692720317 E 35, 70051630607330147 E 36, 72152664357018939 E 37, 71926583429893837 E 38, 69465801787359088 E 39, 65059788260351415 E 40, 59143310783400029 E 41, 52229929475202379 E 42, 44843889758631625 E 43, 37461721359256169 E 44, 30470964094914498 E 45, 24148834429549732 E 46, 18659518489284513 E 47, 14065917460711789 E 48, 10350359811749801 E 49, 74388724958807453 E 51, 52246421686882454 E 52, 35877892039094405 E 53, 24100814487262869 E 54, 15844385764621591 E 55, 10198914345491853 E 56, 64306565570677731 E 58, 39733791166548419 E 59, 24068079073804093 E 60, 14297705491629345 E 61, 83328819116441873 E 63, 47663134583093794 E 64, 26765624362369280 E 65, 14761250657505008 E 66, 79975779583378286 E 68, 42581125059155781 E 69, 22285805564350897 E 70, 11468774597902513 E 71, bnil.
Definition r615 := 81300442947604620 E 18, 68081598849532826 E 18, 48089906923442255 E 18, 28984113545921231 E 18, 15099858984995341 E 18, 68867589337329232 E 19, 27820787783185692 E 19, 10059420039538339 E 19, 32856169550433951 E 20, 97722683047529789 E 21, 26654219422540382 E 21, 67082752632455468 E 22, 15663607144676019 E 22, 34095528573497382 E 23, 69483850265277524 E 24, 13307861719843972 E 24, 24035716774461661 E 25, 41064784086453699 E 26, 66551444883761963 E 27, 10257034246782070 E 27, 15068374651439564 E 28, 21145114582236330 E 29, 28398559394097779 E 30, 36568087923797383 E 31, 45221577753717049 E 32, 53788776229925807 E 33, 61625112402246711 E 34, 68095578571319892 E 35, 72662750106633737 E 36, 74961505785451084 E 37, 74846000351807459 E 38, 72400950154444830 E 39, 67917336432737680 E 40, 61839945317738995 E 41, 54698950121712910 E 42, 47039152264649825 E 43, 39358734463754858 E 44, 32065444588385099 E 45, 25453374621205191 E 46, 19699181061601294 E 47, 14873553394498807 E 48, 10962293226140317 E 49, 78913755967979271 E 51, 55513946013100762 E 52, 38183233969039136 E 53, 25690823676769363 E 54, 16916966682756879 E 55, 10906918089310728 E 56, 68881829350053496 E 58, 42629557676283770 E 59, 25863894432837302 E 60, 15389364837211141 E 61, 89836250191010089 E 63, 51468463136248427 E 64, 28949318973231794 E 65, 15991406174008594 E 66, 86781000630922358 E 68, 46279228814721982 E 69, 24260528632025635 E 70, 12505239281958195 E 71, bnil.
Definition r616 := 81168469024847090 E 18, 67992493795794626 E 18, 48055241526895151 E 18, 28986615933055057 E 18, 15115905239332598 E 18, 69016894470171689 E 19, 27914597982305108 E 19, 10106216910112209 E 19, 33053035583305778 E 20, 98443760952457681 E 21, 26888885362814740 E 21, 67771063064982964 E 22, 15847546729672051 E 22, 34547208179373463 E 23, 70510158611549494 E 24, 13524906512089182 E 24, 24465057098020133 E 25, 41862592386410170 E 26, 67949324210526687 E 27, 10488749222951177 E 27, 15432820522319349 E 28, 21690439478407677 E 29, 29176699031398207 E 30, 37629245871744114 E 31, 46607312276227222 E 32, 55524747019973230 E 33, 63714834735329161 E 34, 70516518600493685 E 35, 75365741345980635 E 36, 77873845892072219 E 37, 77877855974264104 E 38, 75454046301195597 E 39, 70894498440495560 E 40, 64653982989347462 E 41, 57279616312087263 E 42, 49337380860038173 E 43, 41347928184847226 E 44, 33740103059254817 E 45, 26825725231298618 E 46, 20794652013154799 E 47, 15725917546696723 E 48, 11609160272566203 E 49, 83704841777979134 E 51, 58979183072331181 E 52, 40632023101789380 E 53, 27382501942118840 E 54, 18059977820476281 E 55, 11662633652964452 E 56, 73773323209671904 E 58, 45730485207679393 E 59, 27790055447288190 E 60, 16562156845687162 E 61, 96838643622962842 E 63, 55569864500320642 E 64, 31306729935388772 E 65, 17321575101261744 E 66, 94151424998297214 E 68, 50290970080594825 E 69, 26406202316075963 E 70, 13633256467132890 E 71, bnil.
Definition r617 := 81036922749756088 E 18, 67903608409116523 E 18, 48020581545971726 E 18, 28989036653871997 E 18, 15131885180152611 E 18, 69165947379281516 E 19, 28008410768771371 E 19, 10153088385111697 E 19, 33250516477542803 E 20, 99168190021335604 E 21, 27125001014426866 E 21, 68464685783915661 E 22, 16033191176673986 E 22, 35003779367763421 E 23, 71549193956519962 E 24, 13744985778269650 E 24, 24901081986011425 E 25, 42674095592966072 E 26, 69373440491235628 E 27, 10725186371197694 E 27, 15805282583814808 E 28, 22248643705819794 E 29, 29974483097442723 E 30, 38718925873839742 E 31, 48032562466366743 E 32, 57313072226807733 E 33, 65871022054513979 E 34, 73018456247640543 E 35, 78163642047457892 E 36, 80893280023216319 E 37, 81026244665135364 E 38, 78629583240177848 E 39, 73996031941078789 E 40, 67590291327149330 E 41, 59976745292636062 E 42, 51743192371519316 E 43, 43433591860252128 E 44, 35498806360344973 E 45, 28269271882795116 E 46, 21948812735916812 E 47, 16625395512205032 E 48, 12292883820841949 E 49, 88777082223162799 E 51, 62653692853554640 E 52, 43232892884749368 E 53, 29182143146885433 E 54, 19277900522628510 E 55, 12469179186999976 E 56, 79002260635031773 E 58, 49050691703254558 E 59, 29855757794580726 E 60, 17821946253084064 E 61, 10437263951333014 E 62, 59989771885259108 E 64, 33851322933132251 E 65, 18759684941769100 E 66, 10213284340178982 E 67, 54642309026390421 E 69, 28737276913346602 E 70, 14860726202167212 E 71, bnil.
Definition r618 := 80905802049231285 E 18, 67814941955747471 E 18, 47985927313431542 E 18, 28991376168181489 E 18, 15147798967594906 E 18, 69314747590626894 E 19, 28102225356062974 E 19, 10200034058455581 E 19, 33448611365105942 E 20, 99895973472094009 E 21, 27362570613877289 E 21, 69163645899866618 E 22, 16220551495256447 E 22, 35465282006091678 E 23, 72601081298337887 E 24, 13968134356742166 E 24, 25343879230940453 E 25, 43499496157978162 E 26, 70824224826674445 E 27, 10966431064093135 E 27, 16185918979313737 E 28, 22820002603709768 E 29, 30792364016290815 E 30, 39837832000288530 E 31, 49498369244677204 E 32, 59155217845709523 E 33, 68095645938292885 E 34, 75603929021560718 E 35, 81059583819841572 E 36, 84023520714371852 E 37, 84295401162251713 E 38, 81932215616218383 E 39, 77226873795139142 E 40, 70653929447012931 E 41, 62795352086941391 E 42, 54261401013664023 E 43, 45620205506205895 E 44, 37345599824275497 E 45, 29787562237643003 E 46, 23164687446140847 E 47, 17574495212312308 E 48, 13015488631404336 E 49, 94146403144674766 E 51, 66549687557482081 E 52, 45994978705434028 E 53, 31096417910619296 E 54, 20575492118882134 E 55, 13329870259277844 E 56, 84591234878968161 E 58, 52605237821681779 E 59, 32070827141965077 E 60, 19175009775824518 E 61, 11247751559090866 E 62, 64752272514790549 E 64, 36597579992815928 E 65, 20314275399874348 E 66, 11077466294454196 E 67, 59361301600477924 E 69, 31269394688892745 E 70, 16196214092369401 E 71, bnil.
Definition r619 := 80775104863512234 E 18, 67726493704579477 E 18, 47951279158546425 E 18, 28993634933540367 E 18, 15163646761974113 E 18, 69463294637880256 E 19, 28196040961149397 E 19, 10247053523996235 E 19, 33647319369258812 E 20, 10062711447167579 E 20, 27601598383728603 E 21, 69867968532103734 E 22, 16409638726076748 E 22, 35931756158002620 E 23, 73665946491243371 E 24, 14194387388417548 E 24, 25793537544188379 E 25, 44338999006186495 E 26, 72302114327518109 E 27, 11212570010464416 E 27, 16574890596486045 E 28, 23404796755766397 E 29, 31630803593749351 E 30, 40986684108594169 E 31, 51005798625459089 E 32, 61052687680910172 E 33, 70390732131664258 E 34, 78275548417015215 E 35, 84056794853283414 E 36, 87268401253776999 E 37, 87689705081421648 E 38, 85366765172983188 E 39, 80592146433047599 E 40, 73850155185083183 E 41, 65740657197210773 E 42, 56897026412128110 E 43, 47912447893785148 E 44, 39284715128290228 E 45, 31384313414435540 E 46, 24445449967088101 E 47, 18575852913730841 E 48, 13779106543709787 E 49, 99829599871198327 E 51, 70680067050889808 E 52, 48927946041627265 E 53, 33132395388125569 E 54, 21957802354282528 E 55, 14248231949432849 E 56, 90564305879923669 E 58, 56410187958552454 E 59, 34445761018701913 E 60, 20628064209217728 E 61, 12119537169988851 E 62, 69883226199482586 E 64, 39561074117054576 E 65, 21994544408767366 E 66, 12013018533926979 E 67, 64478264441858438 E 69, 34019485762655031 E 70, 17649006010335146 E 71, bnil.
Definition r620 := 80644829146071975 E 18, 67638262927142229 E 18, 47916637407132194 E 18, 28995813405261431 E 18, 15179428723772507 E 18, 69611588062368206 E 19, 28289856804491185 E 19, 10294146375531873 E 19, 33846639604624560 E 20, 10136161613606207 E 20, 27842088532507143 E 21, 70577678807959102 E 22, 16600463940707141 E 22, 36403242083335570 E 23, 74743916248035358 E 24, 14423780318351525 E 24, 26250146562777719 E 25, 45192811558273880 E 26, 73807552181664641 E 27, 11463691272804862 E 27, 16972361107953503 E 28, 24003312077109564 E 29, 32490273189363729 E 30, 42166218160364015 E 31, 52555942263616125 E 32, 63007024234481075 E 33, 72758361912364113 E 34, 81036001907304229 E 35, 87158602685229775 E 36, 90631879346398613 E 37, 91213685559236100 E 38, 88938226392439996 E 39, 84097164433736589 E 40, 77184432481291067 E 41, 68818094588982613 E 42, 59655301935884846 E 43, 50315204950159683 E 44, 41320578489030526 E 45, 33063419730022259 E 46, 25794430819645848 E 47, 19632239531220591 E 48, 14585981918023963 E 49, 10584438289819401 E 50, 75058456174783335 E 52, 52042020132063315 E 53, 35297566262793007 E 54, 23430190764132693 E 55, 15228011659396342 E 56, 96947092476998986 E 58, 60482675091666578 E 59, 36991773385393730 E 60, 22188296384776461 E 61, 13057132681350146 E 62, 75410392167327365 E 64, 42758549246876817 E 65, 23810397523751697 E 66, 13025690596653718 E 67, 70025952431190998 E 69, 37005871513459353 E 70, 19229167192094996 E 71, bnil.
Definition r621 := 80514972863511516 E 18, 67550248897597753 E 18, 47882002381580240 E 18, 28997912036422040 E 18, 15195145013632696 E 18, 69759627413021920 E 19, 28383672110040121 E 19, 10341312206818755 E 19, 34046571177242868 E 20, 10209948153029913 E 20, 28084045254605128 E 21, 71292801862238128 E 22, 16793038241465719 E 22, 36879780238093135 E 23, 75835118142521798 E 24, 14656348897335034 E 24, 26713796856158646 E 25, 46061143754057798 E 26, 75340987722108256 E 27, 11719884284860558 E 27, 17378497012448771 E 28, 24615839902480992 E 29, 33371253891120953 E 30, 43377186543683023 E 31, 54149918012090129 E 32, 65019809614010154 E 33, 75200673488372856 E 34, 83888054985937372 E 35, 90368437039292585 E 36, 94118040880893451 E 37, 94872026034386103 E 38, 92651772312287623 E 39, 87747441322474645 E 40, 80662439021267583 E 41, 72033319968993696 E 42, 62541683349687017 E 43, 52833578497152249 E 44, 43457819200395836 E 45, 34828960778529429 E 46, 27215124634164285 E 47, 20746567226567194 E 48, 15438477342447713 E 49, 11220942587219253 E 50, 79699243999459965 E 52, 55348017246602070 E 53, 37599867019128822 E 54, 24998345045516822 E 55, 16273192680895634 E 56, 10376687023364176 E 57, 64840969682671926 E 59, 39720842068647590 E 60, 23863395105508469 E 61, 14065372939843688 E 62, 81363564709960989 E 64, 46208005921253199 E 65, 25772500921068019 E 66, 14121683528621841 E 67, 76039749823756787 E 69, 40248376074284422 E 70, 20947606061226465 E 71, bnil.
Definition r622 := 80385533995455435 E 18, 67462450892735018 E 18, 47847374400888702 E 18, 28999931277872704 E 18, 15210795792350290 E 18, 69907412246327369 E 19, 28477486105239085 E 19, 10388550611583284 E 19, 34247113184626791 E 20, 10284071366852853 E 20, 28327472730183969 E 21, 72013362836630011 E 22, 16987372761246397 E 22, 37361411274403370 E 23, 76939680611952363 E 24, 14892129183484112 E 24, 27184579933016778 E 25, 46944208075815275 E 26, 76902876495353653 E 27, 11981239869393245 E 27, 17793467676468287 E 28, 25242677075659150 E 29, 34274236692899791 E 30, 44620358401139283 E 31, 55788870490063441 E 32, 67092666459414575 E 33, 77719863427335970 E 34, 86834553258486397 E 35, 93689832738822461 E 36, 97731103802206833 E 37, 98669569171307225 E 38, 96512760526565196 E 39, 91548696594370524 E 40, 84290074145134140 E 41, 75392219366329802 E 42, 65561857798370241 E 43, 55472895339919654 E 44, 45701278528119703 E 45, 36685209861777575 E 46, 28711197897382939 E 47, 21921896317223497 E 48, 16339079617549666 E 49, 11894441599163244 E 50, 84617625124002384 E 52, 58857377638794980 E 53, 40047705563012451 E 54, 26668300480571278 E 55, 17388008563096029 E 56, 11105267519952679 E 57, 69504552880441092 E 59, 42645759239385308 E 60, 25661585185717583 E 61, 15149438200734806 E 62, 87774718239191282 E 64, 49928793028267633 E 65, 27892338258083938 E 66, 15307684422718075 E 67, 82557875975527277 E 69, 43768446535374363 E 70, 22816143149515630 E 71, bnil.
Definition r623 := 80256510534448378 E 18, 67374868191964393 E 18, 47812753780693461 E 18, 29001871578245741 E 18, 15226381220866786 E 18, 70054942126275919 E 19, 28571298021021724 E 19, 10435861183533980 E 19, 34448264715819657 E 20, 10358531551401733 E 20, 28572375125077980 E 21, 72739386879117524 E 22, 17183478663347456 E 22, 37848176040474815 E 23, 78057732959432000 E 24, 15131157543828857 E 24, 27662588248101314 E 25, 47842219571739745 E 26, 78493680330371733 E 27, 12247850256120635 E 27, 18217445376422590 E 28, 25884126040111326 E 29, 35199722674702739 E 30, 45896519963584804 E 31, 57473971662108865 E 32, 69227258889245604 E 33, 80318188118548813 E 34, 89878424585734142 E 35, 97126432696975331 E 36, 10147542209252771 E 36, 10261132193006512 E 37, 10052673937479956 E 38, 95506862970602145 E 40, 88073467031902945 E 41, 78900918027310811 E 42, 68721753135007162 E 43, 58238716719032735 E 44, 48056018975203899 E 45, 38636642785633077 E 46, 30286497048887948 E 47, 23161442508494788 E 48, 17290406031527801 E 49, 12607010694090055 E 50, 89829643122427863 E 52, 62582200267867544 E 53, 42649988261710137 E 54, 28446460469542914 E 55, 18576958325925099 E 56, 11883541395887846 E 57, 74494194285918918 E 59, 45780185123852992 E 60, 27591663729686483 E 61, 16314878103264121 E 62, 94678162387408887 E 64, 53941706068681058 E 65, 30182271668287839 E 66, 16590903529504512 E 67, 89621606746720959 E 69, 47589282517500257 E 70, 24847585510735198 E 71, bnil.
Definition r624 := 80127900485852555 E 18, 67287500077312087 E 18, 47778140833298684 E 18, 29003733383963785 E 18, 15241901460262377 E 18, 70202216624315047 E 19, 28665107091811999 E 19, 10483243516373388 E 19, 34650024851451991 E 20, 10433328997919167 E 20, 28818756590699150 E 21, 73470899143387835 E 22, 17381367141299189 E 22, 38340115580545449 E 23, 79189405356317547 E 24, 15373470655901907 E 24, 28147915209074292 E 25, 48755395879530884 E 26, 80113867408101444 E 27, 12519809099835603 E 27, 18650605341289313 E 28, 26540494930897021 E 29, 36148223185706466 E 30, 47206474889717407 E 31, 59206421428470445 E 32, 71425293466847468 E 33, 82997965268170265 E 34, 93022681279256742 E 35, 10068199098510300 E 35, 10535548986338403 E 36, 10670246078649571 E 37, 10469945432519239 E 38, 99628093894567259 E 40, 92018985168489791 E 41, 82565789634899113 E 42, 72027547605331406 E 43, 61136848139706249 E 44, 50527333932884424 E 45, 40687947037403828 E 46, 31945056942134485 E 47, 24468584463740849 E 48, 18295210939396407 E 49, 13360837447961581 E 50, 95352236243609107 E 52, 66535279381461451 E 53, 45416148479392392 E 54, 30339618234754903 E 55, 19844822567114895 E 56, 12714798033317969 E 57, 79832034553315454 E 59, 49138705147729985 E 60, 29663038791914937 E 61, 17567637261400946 E 62, 10211070782680882 E 63, 58269092380830104 E 65, 32655607183325592 E 66, 17979114126054788 E 67, 97275512745585579 E 69, 51735975826690164 E 70, 27055807054150079 E 71, bnil.
Definition r625 := 79999701867746242 E 18, 67200345833414360 E 18, 47743535867707340 E 18, 29005517139248500 E 18, 15257356671749019 E 18, 70349235319299161 E 19, 28758912555523668 E 19, 10530697203809923 E 19, 34852392663798531 E 20, 10508463992567194 E 20, 29066621263942725 E 21, 74207924788243733 E 22, 17581049418690319 E 22, 38837271134824920 E 23, 80334828844595460 E 24, 15619105509326095 E 24, 28640655183380534 E 25, 49683957250117059 E 26, 81763912331497574 E 27, 12797211498705186 E 27, 19093125795772592 E 28, 27212097667835639 E 29, 37120260030166616 E 30, 48551044611569153 E 31, 60987448226660443 E 32, 73688520186736605 E 33, 85761575428337996 E 34, 96270422350596199 E 35, 10436037598133659 E 35, 10937594556172614 E 36, 11094833710671222 E 37, 10903685455749861 E 38, 10391877127535820 E 39, 96133243112612391 E 41, 86393465863767859 E 42, 75485679901270863 E 43, 64173349592420608 E 44, 53120757732350707 E 45, 42844031359978820 E 46, 33691109685681924 E 47, 25846871727684407 E 48, 19356392660293369 E 49, 14158227481482478 E 50, 10120328547720877 E 51, 70730143055007703 E 53, 48356176687781101 E 54, 32354979759841959 E 55, 21196680513628256 E 56, 13602537912699572 E 57, 85541673118521582 E 59, 52736890725753533 E 60, 31885770570387383 E 61, 18914082575512533 E 62, 11011184352632410 E 63, 62934963805837388 E 65, 35326664894377987 E 66, 19480695342211814 E 67, 10556771565900822 E 68, 56235660954295947 E 70, 29455835256624419 E 71, bnil.
Definition r626 := 79871912710823070 E 18, 67113404747511901 E 18, 47708939189651217 E 18, 29007223286129126 E 18, 15272747016663394 E 18, 70495997797440568 E 19, 28852713653559430 E 19, 10578221839569551 E 19, 35055367216835090 E 20, 10583936816430899 E 20, 29315973267093447 E 21, 74950488977015305 E 22, 17782536748993310 E 22, 39339684139430209 E 23, 81494135339241369 E 24, 15868099407401125 E 24, 29140903505137717 E 25, 50628126571509886 E 26, 83444296196127053 E 27, 13080154012750464 E 27, 19545188003973393 E 28, 27899254049952195 E 29, 38116365656212888 E 30, 49931068685987907 E 31, 62818309644558753 E 32, 76018733481573937 E 33, 88611463560871893 E 34, 99624835815203401 E 35, 10816557360126967 E 35, 11354157629290988 E 36, 11535448268019315 E 37, 11354509975139281 E 38, 10838551348617194 E 39, 10042311155912699 E 40, 90390846282517624 E 42, 79102859596860894 E 43, 67354546179681458 E 44, 55842076113005758 E 45, 45110035739022099 E 46, 35529093880926165 E 47, 27300033018555610 E 48, 20477000707625191 E 49, 15001610588963250 E 50, 10740166510321256 E 51, 75181093788332692 E 53, 51480652235621794 E 54, 34500188032016564 E 55, 22637928070900345 E 56, 14550485732753295 E 57, 91648261362509139 E 59, 56591363921972635 E 60, 34270615293663901 E 61, 20361032377166611 E 62, 11872392621190600 E 63, 67965117304078252 E 65, 38210854186564172 E 66, 21104678157629407 E 67, 11455016400627966 E 68, 61117677242577657 E 70, 32063944746833783 E 71, bnil.
Definition r627 := 79744531058292559 E 18, 67026676109443850 E 18, 47674351101620868 E 18, 29008852264451126 E 18, 15288072656460115 E 18, 70642503652260926 E 19, 28946509630810085 E 19, 10625817017407466 E 19, 35258947566295482 E 20, 10659747745522326 E 20, 29566816707732789 E 21, 75698616876972121 E 22, 17985840415388638 E 22, 39847396226315023 E 23, 82667457630560997 E 24, 16120489968689489 E 24, 29648756482046980 E 25, 51588129392791474 E 26, 85155506661316111 E 27, 13368734682508724 E 27, 20006976313575252 E 28, 28602289851214884 E 29, 39137083347572114 E 30, 51347405152200577 E 31, 64700293045207274 E 32, 78417773250109020 E 33, 91550140636264286 E 34, 10308920105235662 E 34, 11210169061269314 E 35, 11785732226356219 E 36, 11992661541577455 E 37, 11823056708628383 E 38, 11303518362548890 E 39, 10489572671965079 E 40, 94565108614905591 E 42, 82886077980262457 E 43, 70687039164190796 E 44, 58697337123646882 E 45, 47491341820172891 E 46, 37463664273279847 E 47, 28831984905472538 E 48, 21660243367419121 E 49, 15893547172794035 E 50, 11396729584826048 E 51, 79903251265074199 E 53, 54800776864957596 E 54, 36783348658710621 E 55, 24174296926242504 E 56, 15562604319166393 E 57, 98178601535332313 E 59, 60719866219194000 E 60, 36829071972470159 E 61, 21915787526375876 E 62, 12799238284548685 E 63, 73387264067903014 E 65, 41324754402875899 E 66, 22860794797921196 E 67, 12427892974836244 E 68, 66413743596351059 E 70, 34897758292268120 E 71, bnil.
Definition r628 := 79617554965781323 E 18, 66940159211642022 E 18, 47639771902895020 E 18, 29010404511884833 E 18, 15303333752704915 E 18, 70788752484542286 E 19, 29040299735653427 E 19, 10673482331119599 E 19, 35463132759728502 E 20, 10735897050784469 E 20, 29819155678646579 E 21, 76452333658735433 E 22, 18190971730587763 E 22, 40360449223191945 E 23, 83854929386511668 E 24, 16376315128601116 E 24, 30164311402322998 E 25, 52564193948233260 E 26, 86898038021847956 E 27, 13663053047878459 E 27, 20478678200549473 E 28, 29321536917577727 E 29, 40182967418255113 E 30, 52800930895545307 E 31, 66634716203489322 E 32, 80887525906478583 E 33, 94580185268665358 E 34, 10666689122227903 E 34, 11617295803636792 E 35, 12232828134737599 E 36, 12467064520496983 E 37, 12309985845868707 E 38, 11787489804906875 E 39, 10955850002560739 E 40, 98923719372322019 E 42, 86842619296064308 E 43, 74177717454238956 E 44, 61692862473549710 E 45, 49993583773855797 E 46, 39499701834435263 E 47, 30446840888148558 E 48, 22909495640926539 E 49, 16836734998133409 E 50, 12092120077781125 E 51, 84912597385670610 E 53, 58328410066656679 E 54, 39213056933689341 E 55, 25811874765817690 E 56, 16643109367847863 E 57, 10516125178517187 E 58, 65141331650387400 E 60, 39573432196922283 E 61, 23586164588111420 E 62, 13796592699075635 E 63, 79231167711848683 E 65, 44686201318467509 E 66, 24759531774213173 E 67, 13481452728771415 E 68, 72158146685909523 E 70, 37976355759608710 E 71, bnil.
Definition r629 := 79490982501235263 E 18, 66853853349124789 E 18, 47605201889570015 E 18, 29011880463934010 E 18, 15318530467067938 E 18, 70934743902278975 E 19, 29134083219953038 E 19, 10721217374554106 E 19, 35667921836554829 E 20, 10812384998095535 E 20, 30072994257734208 E 21, 77211664495692185 E 22, 18397942036655385 E 22, 40878885153449029 E 23, 85056685155006792 E 24, 16635613140977361 E 24, 30687666541644889 E 25, 53556551181548763 E 26, 88672391280217546 E 27, 13963210167149236 E 27, 20960484314385025 E 28, 30057333265343530 E 29, 41254583410247173 E 30, 54292542017466355 E 31, 68622927954893746 E 32, 83429925451255304 E 33, 97704245387592827 E 34, 11036137574171363 E 34, 12038373463487860 E 35, 12695971377696288 E 36, 12959267995716583 E 37, 12815980792344196 E 38, 12291203518105577 E 39, 11441912816515038 E 40, 10347444487015185 E 41, 90980072412537985 E 43, 77833769542695988 E 44, 64835259351077713 E 45, 52622659625997667 E 46, 41642324294065798 E 47, 32148920896744720 E 48, 24228307568231111 E 49, 17834016283087122 E 50, 12828556405931842 E 51, 90226023690145072 E 53, 62076106372358183 E 54, 41798426431691024 E 55, 27557126667827748 E 56, 17796485071110880 E 57, 11262663765677362 E 58, 69875964559862524 E 60, 42516833171613120 E 61, 25380531222896121 E 62, 14869678999002719 E 63, 85528792160168284 E 65, 48314379832073078 E 66, 26812186827462990 E 67, 14622225650360665 E 68, 78387943655739592 E 70, 41320391661890459 E 71, bnil.
Definition r630 := 79364811744822683 E 18, 66767757819491166 E 18, 47570641354588800 E 18, 29013280553944507 E 18, 15333662961317119 E 18, 71080477520629078 E 19, 29227859339056930 E 19, 10769021741622704 E 19, 35873313828124016 E 20, 10889211848273324 E 20, 30328336507917717 E 21, 77976634563408133 E 22, 18606762704830158 E 22, 41402746236059052 E 23, 86272860366199213 E 24, 16898422579673419 E 24, 31218921170125779 E 25, 54565434770276498 E 26, 90479074219439322 E 27, 14269308636216526 E 27, 21452588523846335 E 28, 30810023180859284 E 29, 42352508294237027 E 30, 55823154211857459 E 31, 70666308856557129 E 32, 86046954564635894 E 33, 10092503994709338 E 33, 11417622281922106 E 34, 12473851049163179 E 35, 13175704696494344 E 36, 13469903181133363 E 37, 13341748936520665 E 38, 12815424461269613 E 39, 11948560346471645 E 40, 10822536264104168 E 41, 95306342928988801 E 43, 81662695916542451 E 44, 68131432728077076 E 45, 55384743073644412 E 46, 43896897140056035 E 47, 33942761230429796 E 48, 25620412950345307 E 49, 18888385140344272 E 50, 13608379273796045 E 51, 95861381292584433 E 53, 66057154684917609 E 54, 44549119214783956 E 55, 29416917737940407 E 56, 19027500677858097 E 57, 12060717044460125 E 58, 74945322277906815 E 60, 45673314192516893 E 61, 27307843934748490 E 62, 16024096793606769 E 63, 92314459892546981 E 65, 52229923308959250 E 66, 29030930057119941 E 67, 15857257158535722 E 68, 85143180427759581 E 70, 44952221951797437 E 71, bnil.
Definition r631 := 79239040788838436 E 18, 66681871922914582 E 18, 47536090587769704 E 18, 29014605213112908 E 18, 15348731397311638 E 18, 71225952961866453 E 19, 29321627351796067 E 19, 10816895026311969 E 19, 36079307757771285 E 20, 10966377857079826 E 20, 30585186477052427 E 21, 78747269039042695 E 22, 18817445135344805 E 22, 41932074885482654 E 23, 87503591334747341 E 24, 17164782340139866 E 24, 31758175559302658 E 25, 55591081150296607 E 26, 92318601476414581 E 27, 14581452607983487 E 27, 21955187963264728 E 28, 31579957321559828 E 29, 43477330673425194 E 30, 57393703147850440 E 31, 72766271860789172 E 32, 88740645722177700 E 33, 10424536067311159 E 33, 11811510205150755 E 34, 12924191068213007 E 35, 13672588045755230 E 36, 13999622352902988 E 37, 13888022440685565 E 38, 13360945649743684 E 39, 12476622462630047 E 40, 11318487325852659 E 41, 99829665738869664 E 43, 85672321954493526 E 44, 71588598169006035 E 45, 58286295805216642 E 46, 46269045107129089 E 47, 35833124953998602 E 48, 27089738488049823 E 49, 20002995386969006 E 50, 14434058167318642 E 51, 10183753345520105 E 52, 70285619754621021 E 54, 47475377737998872 E 55, 31398537056562270 E 56, 20341228041699808 E 57, 12913737280821866 E 58, 80372403009396886 E 60, 49057876782111786 E 61, 29377688328734064 E 62, 17265848548617561 E 63, 99625021252595301 E 65, 56455020039309378 E 66, 31428869533158542 E 67, 17194147755159006 E 68, 92467126767347198 E 70, 48896040769747685 E 71, bnil.
Definition r632 := 79113667737608723 E 18, 66596194962136715 E 18, 47501549875834971 E 18, 29015854870495128 E 18, 15363735936995431 E 18, 71371169855332815 E 19, 29415386520482627 E 19, 10864836822694506 E 19, 36285902640874416 E 20, 11043883275225932 E 20, 30843548197837903 E 21, 79523593100763866 E 22, 19030000757244764 E 22, 42466913711564699 E 23, 88749015262060385 E 24, 17434731641002659 E 24, 32305530989145003 E 25, 56633729540478350 E 26, 94191494615856978 E 27, 14899747811950170 E 27, 22468483079366797 E 28, 32367492818372502 E 29, 44629650990448183 E 30, 59005144859138615 E 31, 74924263001281578 E 32, 91513082333488381 E 33, 10766807384982213 E 33, 12218178708210335 E 34, 13389869903967907 E 35, 14187199102408858 E 36, 14549099507356538 E 37, 14455559056156262 E 38, 13928589125140030 E 39, 13026960783186349 E 40, 11836171258488115 E 41, 10455861806483635 E 42, 89870811330873001 E 44, 75214295164434276 E 45, 61334080345895343 E 46, 48764664174534599 E 47, 37825012772706953 E 48, 28640413356524416 E 49, 21181168739801552 E 50, 15308198179129853 E 51, 10817441093609568 E 52, 74776385913845570 E 54, 50588058546364385 E 55, 33509723011316030 E 56, 21743060213934719 E 57, 13825401208078588 E 58, 86181739254648635 E 60, 52686548712277445 E 61, 31600322039900231 E 62, 18601367763305220 E 63, 10750003557018961 E 64, 61013527307337468 E 66, 34020121711277159 E 67, 18641095647798379 E 68, 10040652936556011 E 69, 53178027908294006 E 71, bnil.
Definition r633 := 78988690707396975 E 18, 66510726242461321 E 18, 47467019502439013 E 18, 29017029953015014 E 18, 15378676742390808 E 18, 71516127837389868 E 19, 29509136110908263 E 19, 10912846724940052 E 19, 36493097484910738 E 20, 11121728348376415 E 20, 31103425687730085 E 21, 80305631927163935 E 22, 19244441028206075 E 22, 43007305519424382 E 23, 90009270238525823 E 24, 17708310025641975 E 24, 32861089755082847 E 25, 57693621967460544 E 26, 96098282204780658 E 27, 15224301573991773 E 27, 22992677678645293 E 28, 33172993379498458 E 29, 45810081737459486 E 30, 60658456139932255 E 31, 77141762092210134 E 32, 94366399904287630 E 33, 11119612214570709 E 33, 12638015832374592 E 34, 13871378201774577 E 35, 14720133788563631 E 36, 15119031038035209 E 37, 15045142963554641 E 38, 14519206956850200 E 39, 13600469822663540 E 40, 12376496445750900 E 41, 10950213298247081 E 42, 94266679944541390 E 44, 79016401009279810 E 45, 64535173449424991 E 46, 51389934094296099 E 47, 39923674406330576 E 48, 30276779235653142 E 49, 22426403414715898 E 50, 16233547181662106 E 51, 11489307025139063 E 52, 79545203188543595 E 54, 53898667860285482 E 55, 35758690092036915 E 56, 23238731141491383 E 57, 14799624172626285 E 58, 92399497099565572 E 60, 56576452158471213 E 61, 33986720505476879 E 62, 20037549061856340 E 63, 11598196489822314 E 64, 65931093599917255 E 66, 36819886993223914 E 67, 20206942559965326 E 68, 10901188428216781 E 69, 57826507811099598 E 71, bnil.
Definition r634 := 78864107826310509 E 18, 66425465071747791 E 18, 47432499748196404 E 18, 29018130885473028 E 18, 15393553975592125 E 18, 71660826551371943 E 19, 29602875392342161 E 19, 10960924327326497 E 19, 36700891289513968 E 20, 11199913317155000 E 20, 31364822948853994 E 21, 81093410696676138 E 22, 19460777434352235 E 22, 43553293309338791 E 23, 91284495245716523 E 24, 17985557363769639 E 24, 33424955175053861 E 25, 58771003290563109 E 26, 98039499887551052 E 27, 15555222836326885 E 27, 23527978975276200 E 28, 33996829395583902 E 29, 47019247669404829 E 30, 62354634947638915 E 31, 79420283440436609 E 32, 97302787222260024 E 33, 11483252648015889 E 33, 13071420574584005 E 34, 14369221265121742 E 35, 15272006808654327 E 36, 15710136432354842 E 37, 15657585638862384 E 38, 15133682275971891 E 39, 14198078179341530 E 40, 12940407382862702 E 41, 11466951344994677 E 42, 98868810392329972 E 44, 83003145246889055 E 45, 67896980058432223 E 46, 54151331472373889 E 47, 42134620484329463 E 48, 32003400816748747 E 49, 23742383148804357 E 50, 17213003365140757 E 51, 12201575499923309 E 52, 84608735910873507 E 54, 57419399151244265 E 55, 38154157229755781 E 56, 24834336533258243 E 57, 15840575142694582 E 58, 99053581731980485 E 60, 60745876243435574 E 61, 36548625762929662 E 62, 21581780325239113 E 63, 12511638121693990 E 64, 71235289519172508 E 66, 39844530797861922 E 67, 21901222960785125 E 68, 11833773019173439 E 69, 62872120985565626 E 71, bnil.
Definition r635 := 78739917234208021 E 18, 66340410760404880 E 18, 47397990890709674 E 18, 29019158090554758 E 18, 15408367798759539 E 18, 71805265647538353 E 19, 29696603637528940 E 19, 11009069224250782 E 19, 36909283046530846 E 20, 11278438417149650 E 20, 31627743967917254 E 21, 81886954586991489 E 22, 19679021490069706 E 22, 44104920276619605 E 23, 92574830158578066 E 24, 18266513853004828 E 24, 33997231596568747 E 25, 59866121226830408 E 26, 10001569046149960 E 26, 15892622177676542 E 27, 24074597639586888 E 28, 34839378046296017 E 29, 48257786020532139 E 30, 64094700812365753 E 31, 81761376571022439 E 32, 10032448756712697 E 32, 11858038793141563 E 33, 13518803172839844 E 34, 14883919461886908 E 35, 15843452201223188 E 36, 16323158988425703 E 37, 16293726745991461 E 38, 15772930342629717 E 39, 14820749763033910 E 40, 13528886037347077 E 41, 12007044686149129 E 42, 10368646700711856 E 43, 87183124700844520 E 45, 71427247856209312 E 46, 57055643425998332 E 47, 44463634984916433 E 48, 33825076807345220 E 49, 25132986665422614 E 50, 18249623158263386 E 51, 12956596040034149 E 52, 89984613963561440 E 54, 61163172815108088 E 55, 40705377765512138 E 56, 26536355961745432 E 57, 16952692631046905 E 58, 10617374956207567 E 59, 65214354244317908 E 61, 39298598467814930 E 62, 23241976997825160 E 63, 13495218801502788 E 64, 76955748001489120 E 66, 43111670533835187 E 67, 23734216962485521 E 68, 12844296397954854 E 69, 68348008773427710 E 71, bnil.
Definition r636 := 78616117082608170 E 18, 66255562621384254 E 18, 47363493204596721 E 18, 29020111988839664 E 18, 15423118374112831 E 18, 71949444783026405 E 19, 29790320122686405 E 19, 11057281010239727 E 19, 37118271740078126 E 20, 11357303878917980 E 20, 31892192716124579 E 21, 82686288774476937 E 22, 19899184737822792 E 22, 44662229811483642 E 23, 93880415747596825 E 24, 18551220020448453 E 24, 34578024403795554 E 25, 60979226376206381 E 26, 10202740395310624 E 26, 16236611833615718 E 27, 24632747847079736 E 28, 35701023408318467 E 29, 49526346724176242 E 30, 65879695253341699 E 31, 84166626966270932 E 32, 10343379994537502 E 32, 12244288968664331 E 33, 13980585398389347 E 34, 15416008640939250 E 35, 16435123905700080 E 36, 16958866552565778 E 37, 16954435056623002 E 38, 16437899647695458 E 39, 15469485064495070 E 40, 14142953258272265 E 41, 12571502014308449 E 42, 10872931148139230 E 43, 91565319117182235 E 45, 75134082433788117 E 46, 60109981841356388 E 47, 46916788241775826 E 48, 35746851456644350 E 49, 26602297602925237 E 50, 19346629550214113 E 51, 13756850121725562 E 52, 95691486793119912 E 54, 65143678055889752 E 55, 43422171139435886 E 56, 28351676270719413 E 57, 18140701585439293 E 58, 11379172734693162 E 59, 70002745753614089 E 61, 42250073337421708 E 62, 25026618711598783 E 63, 14554185721618176 E 64, 83124314485892660 E 66, 46640268891631265 E 67, 25717007151632489 E 68, 13939118034608857 E 69, 74290012493572928 E 71, bnil.
Definition r637 := 78492705534598611 E 18, 66170919970173978 E 18, 47329006961518247 E 18, 29020992998809572 E 18, 15437805863925303 E 18, 72093363621804213 E 19, 29884024127503264 E 19, 11105559279960804 E 19, 37327856346599305 E 20, 11436509927992919 E 20, 32158173149092835 E 21, 83491438433593962 E 22, 20121278747967356 E 22, 45225265498916898 E 23, 95201393680948146 E 24, 18839716724255810 E 24, 35167440024662328 E 25, 62110572246840993 E 26, 10407519769474945 E 26, 16587305717118150 E 27, 25202647328016120 E 28, 36582156564781022 E 29, 50825592635858885 E 30, 67710682202357820 E 31, 86637656818514139 E 32, 10663308035007960 E 32, 12642329903499416 E 33, 14457200854847529 E 34, 15966040559338707 E 35, 17047696344555124 E 36, 17618052278058676 E 37, 17640609398087689 E 38, 17129573049941698 E 39, 16145322467779838 E 40, 14783670235536149 E 41, 13161373540945354 E 42, 11400741909784333 E 43, 96159107440530786 E 45, 79025963097042122 E 46, 63321798256779517 E 47, 49500450543168094 E 48, 37774026625182230 E 49, 28154614928860566 E 50, 20507420833530545 E 51, 14604958322230298 E 52, 10174908033592161 E 53, 69375417098649004 E 55, 46314956395373552 E 56, 30287616363348775 E 57, 19409631303711197 E 58, 12194133874268463 E 59, 75133324101852405 E 61, 45417418238952516 E 62, 26944788379879392 E 63, 15694168248318268 E 64, 89775207717868788 E 66, 50450733901578122 E 67, 27861539638791154 E 68, 15125103719849972 E 69, 80736888046311857 E 71, bnil.
Definition r638 := 78369680764746236 E 18, 66086482124791970 E 18, 47294532430204553 E 18, 29021801536857371 E 18, 15452430430517779 E 18, 72237021834623888 E 19, 29977714935136572 E 19, 11153903628232768 E 19, 37538035834921307 E 20, 11516056784888444 E 20, 32425689206767214 E 21, 84302428736317987 E 22, 20345315118563425 E 22, 45794071118531850 E 23, 96537906526624395 E 24, 19132045155207545 E 24, 35765585937977690 E 25, 63260415280528125 E 26, 10615963640202681 E 26, 16944819439295491 E 27, 25784517417564808 E 28, 37483175716137596 E 29, 52156199759744035 E 30, 69588748434324878 E 31, 89176125796865387 E 32, 10992474304627352 E 32, 13052496940448584 E 33, 14949095284403995 E 34, 16534583320376240 E 35, 17681865021206012 E 36, 18301535405720513 E 37, 18353179630080415 E 38, 17848968949691049 E 39, 16849339606915798 E 40, 15452140010862868 E 41, 13777752620203558 E 42, 11953129558931915 E 43, 10097428474853297 E 44, 83111759339490256 E 46, 66698899397578490 E 47, 52221306349178359 E 48, 39912174423293852 E 49, 29794463862367598 E 50, 21735579788248405 E 51, 15503687839248520 E 52, 10817825700830996 E 53, 73873751856349195 E 55, 49394787601413625 E 56, 32351953449500521 E 57, 20764834433606043 E 58, 13065863873251073 E 59, 80629869368442787 E 61, 48815997154517416 E 62, 29006213922133470 E 63, 16921204999886057 E 64, 96945191920625231 E 66, 54565026234965521 E 67, 30180689631317055 E 68, 16409664873572144 E 69, 87730537148701700 E 71, bnil.
Definition r639 := 78247040959008016 E 18, 66002248405779451 E 18, 47260069876482451 E 18, 29022538017295537 E 18, 15466992236252605 E 18, 72380419098975017 E 19, 30071391832209140 E 19, 11202313650036236 E 19, 37748809166311236 E 20, 11595944665105565 E 20, 32694744813338042 E 21, 85119284851558986 E 22, 20571305475187134 E 22, 46368690644418709 E 23, 97890097754543163 E 24, 19428246838278937 E 24, 36372570680569878 E 25, 64429014878274686 E 26, 10828129225164677 E 26, 17309270330332220 E 27, 26378583106519909 E 28, 38404486292508503 E 29, 53518857478490429 E 30, 71515004005049841 E 31, 91783731828160933 E 32, 11331126188231469 E 32, 13475134244355887 E 33, 15456726881266043 E 34, 17122221822705777 E 35, 18338347134070832 E 36, 19010162066854454 E 37, 19093107651023267 E 38, 18597142500053074 E 39, 17582654768289611 E 40, 16149509042233798 E 41, 14421777432824335 E 42, 12531189465120466 E 43, 10602107986980293 E 44, 87400748007459492 E 46, 70249463389712595 E 47, 55086369153937121 E 48, 42167150444019843 E 49, 31526607328539151 E 50, 23034883328699967 E 51, 16455960401808687 E 52, 11500107891947802 E 53, 78654953181925301 E 55, 52673391292014346 E 56, 34552950835149591 E 57, 22212007120826182 E 58, 13998205640481341 E 59, 86517767326721701 E 61, 52462237269558254 E 62, 31221312791703607 E 63, 18241772789492027 E 64, 10467376111472459 E 65, 59006774258188505 E 67, 32688331855388901 E 68, 17800800827109146 E 69, 95316256456667615 E 71, bnil.
Definition r640 := 78124784314642814 E 18, 65918218136194251 E 18, 47225619563301756 E 18, 29023202852364757 E 18, 15481491443527803 E 18, 72523555099037835 E 19, 30165054108806742 E 19, 11250788940524140 E 19, 37960175294532900 E 20, 11676173779138383 E 20, 32965343877158289 E 21, 85942031944582018 E 22, 20799261470741279 E 22, 46949168244989453 E 23, 99258111738634455 E 24, 19728363634207018 E 24, 36988503854442682 E 25, 65616633426000022 E 26, 11044074495989333 E 26, 17680777460616888 E 27, 26985073092592207 E 28, 39346501067500323 E 29, 54914268786541539 E 30, 73490582696331425 E 31, 94462211892315809 E 32, 11679517162771323 E 32, 13910595014818301 E 33, 15980566612491724 E 34, 17729558220822544 E 35, 19017882207165505 E 36, 19744806109184409 E 37, 19861388434911182 E 38, 19375186856870685 E 39, 18346428340189048 E 40, 16876968823527912 E 41, 15094632732302244 E 42, 13136063613010985 E 43, 11131017371157949 E 44, 91902631185266677 E 46, 73982056680554269 E 47, 58102997020746533 E 48, 44545107617195788 E 49, 33356057969575513 E 50, 24409312635332221 E 51, 17464860592078006 E 52, 12224087447373672 E 53, 83736252843565621 E 55, 56163206043049401 E 56, 36899387341410502 E 57, 23757210372413364 E 58, 14995254658359392 E 59, 92824114689944149 E 61, 56373700446508221 E 62, 33601239489155894 E 63, 19662817557570249 E 64, 11300333641908796 E 65, 63801397384679888 E 67, 35399416176248715 E 68, 19307144298298400 E 69, 10354300592196757 E 70, bnil.
Definition r641 := 78002909040123844 E 18, 65834390641604110 E 18, 47191181750761549 E 18, 29023796452242547 E 18, 15495928214771247 E 18, 72666429525637295 E 19, 30258701058475299 E 19, 11299329095032162 E 19, 38172133165903662 E 20, 11756744332480424 E 20, 33237490290662067 E 21, 86770695176429884 E 22, 21029194785265228 E 22, 47535548282816318 E 23, 10064209375890881 E 23, 20032437741056245 E 24, 37613496133949967 E 25, 66823536320367544 E 26, 11263858186166713 E 26, 18059461662071672 E 27, 27604219832279692 E 28, 40309640273520599 E 29, 56343150526897261 E 30, 75516642468480654 E 31, 97213342832327009 E 32, 12037906933789146 E 32, 14359241703540763 E 33, 16521098546370734 E 34, 18357212397149600 E 35, 19721232737655294 E 36, 20506369946375828 E 37, 20659051099497825 E 38, 20184234468530291 E 39, 19141864310985960 E 40, 17635757561203825 E 41, 15797551655439513 E 42, 13768942491357412 E 43, 11685271832419502 E 44, 96627554829138755 E 46, 77905651696135190 E 47, 61278908819203414 E 48, 47052510712619966 E 49, 35288090738663238 E 50, 25863063794949264 E 51, 18533644598640682 E 52, 12992230853708347 E 53, 89135898368308321 E 55, 59877424297000013 E 56, 39400588445494239 E 57, 25406892706335326 E 58, 16061375084217687 E 59, 99577831046920008 E 61, 60569159361598053 E 62, 36157936255495837 E 63, 21191787426489573 E 64, 12197947722184942 E 65, 68976238306602955 E 67, 38330048790041086 E 68, 20938010294108273 E 69, 11246369783097896 E 70, bnil.
Definition r642 := 77881413355052095 E 18, 65750765250079987 E 18, 47156756696136219 E 18, 29024319225051769 E 18, 15510302712434906 E 18, 72809042076196632 E 19, 30352331978217777 E 19, 11347933709088993 E 19, 38384681719350722 E 20, 11837656525631016 E 20, 33511187930283956 E 21, 87605299703345893 E 22, 21261117125743807 E 22, 48127875314463094 E 23, 10204219000350383 E 23, 20340511695781834 E 24, 38247659272986867 E 25, 68049991994746062 E 26, 11487539799010134 E 26, 18445445549680486 E 27, 28236259593320617 E 28, 41294331718600457 E 29, 57806233631406122 E 30, 77594365920367177 E 31, 10003894217915141 E 31, 12406561574634649 E 32, 14821446236424898 E 33, 17078820188511784 E 34, 19005822445997166 E 35, 20449184860776714 E 36, 21295785431763333 E 37, 21487160006698869 E 38, 21025458406819088 E 39, 19970211817486922 E 40, 18427161909909532 E 41, 16531817599536877 E 42, 14431067054632508 E 43, 12266035673043638 E 44, 10158612817965749 E 45, 82029645265406067 E 47, 64622201194596856 E 48, 49696151521380306 E 49, 37328256103663487 E 50, 27400558973859730 E 51, 19665749422741795 E 52, 13807145635162938 E 53, 94873210906472996 E 55, 63830036561714623 E 56, 42066459240927661 E 57, 27167914162144238 E 58, 17201216846223109 E 59, 10680977789916689 E 60, 65068678599762786 E 62, 38904187151744157 E 63, 22836668018915191 E 64, 13165110716854266 E 65, 74560704727912979 E 67, 41497579386708778 E 68, 22703448692376764 E 69, 12213550807822722 E 70, bnil.
Definition r643 := 77760295490070491 E 18, 65667341292189166 E 18, 47122344653901353 E 18, 29024771576869304 E 18, 15524615098989209 E 18, 72951392454691675 E 19, 30445946168491107 E 19, 11396602378426597 E 19, 38597819886467910 E 20, 11918910554101945 E 20, 33786440656379039 E 21, 88445870676197272 E 22, 21495040225915156 E 22, 48726194090310280 E 23, 10345854757071081 E 23, 20652628375791200 E 24, 38891106112198313 E 25, 69296271945301624 E 26, 11715179615675701 E 26, 18838853543217289 E 27, 28881432507734705 E 28, 42301010904741557 E 29, 59304263364623759 E 30, 79724960757098857 E 31, 10294086899169777 E 31, 12785753668470303 E 32, 15297590240483975 E 33, 17654242825800424 E 34, 19676045169667246 E 35, 21202549032557677 E 36, 22114014756922227 E 37, 22346815896115045 E 38, 21900073740048410 E 39, 20832766745024873 E 40, 19252518768967137 E 41, 17298766168534336 E 42, 15123730759952898 E 43, 12874524354890965 E 44, 10678944398365809 E 45, 86363877843260767 E 47, 68141366301113555 E 48, 52483164745675162 E 49, 39482393888903003 E 50, 29026458149544442 E 51, 20864802560025786 E 52, 14671588139055268 E 53, 10096864627726961 E 54, 68035878112693425 E 56, 44907519319688552 E 57, 29047571751786945 E 58, 18419733793259648 E 59, 11455288523601598 E 60, 69893701020687616 E 62, 41853675744371799 E 63, 24606020190401133 E 64, 14207075597798211 E 65, 80586421262698329 E 67, 44920694711260786 E 68, 24614300772178067 E 69, 13262021134113306 E 70, bnil.
Definition r644 := 77639553686778731 E 18, 65584118100988548 E 18, 47087945875759228 E 18, 29025153911734485 E 18, 15538865536917395 E 18, 73093480371604850 E 19, 30539542933202919 E 19, 11445334698990295 E 19, 38811546591571960 E 20, 12000506608424155 E 20, 34063252313143756 E 21, 89292433239900804 E 22, 21730975846077789 E 22, 49330549554373970 E 23, 10489131447098081 E 23, 20968831000503247 E 24, 39543950586204797 E 25, 70562650757220736 E 26, 11946838703239801 E 26, 19239811889175609 E 27, 29539982625456710 E 28, 43330121147802499 E 29, 60837999571278650 E 30, 81909660265440593 E 31, 10592102471216971 E 31, 13175762453114449 E 32, 15788065275677085 E 33, 18247891878392536 E 34, 20368556586980048 E 35, 21982160730771895 E 36, 22962051375735016 E 37, 23239157052598921 E 38, 22809338949693304 E 39, 21730873380909993 E 40, 20113217141738105 E 41, 18099787190488779 E 42, 15848281682036163 E 43, 13512006644154886 E 44, 11224909955765835 E 45, 90918653565311373 E 47, 71845310331668404 E 48, 55421044628748866 E 49, 41756647784612114 E 50, 30745671427634682 E 51, 22134632181370391 E 52, 15588471735573678 E 53, 10744385936409963 E 54, 72510678335696885 E 56, 47934939684488004 E 57, 31053626434077867 E 58, 19722202961674534 E 59, 12284228611003367 E 60, 75067139728157414 E 62, 45021046629875303 E 63, 26509020336461191 E 64, 15329481816305593 E 65, 87087392207764470 E 67, 48619518980451497 E 68, 26682259981537465 E 69, 14398454194402636 E 70, bnil.
Definition r645 := 77519186197649165 E 18, 65501095012017646 E 18, 47053560610664208 E 18, 29025466631657788 E 18, 15553054188710023 E 18, 73235305543879912 E 19, 30633121579708112 E 19, 11494130266948850 E 19, 39025860751759021 E 20, 12082444874154678 E 20, 34341626728537579 E 21, 90145012532847513 E 22, 21968935772896446 E 22, 49940986844117578 E 23, 10634063962890840 E 23, 21289163132905315 E 24, 40206307730844146 E 25, 71849406131061894 E 26, 12182578922834556 E 26, 19648448682900084 E 27, 30212157968566825 E 28, 44382113698939386 E 29, 62408216927388378 E 30, 84149723797078374 E 31, 10898135403699953 E 31, 13576873968771836 E 32, 16293273071757357 E 33, 18860307259912616 E 34, 21084052454504637 E 35, 22788881174573213 E 36, 23840920954619465 E 37, 24165360508813059 E 38, 23754557391833374 E 39, 22665926122904373 E 40, 21010700059936563 E 41, 18936326808853432 E 42, 16606124709016175 E 43, 14179806841649468 E 44, 11797721872610514 E 45, 95704761168697867 E 47, 75743372878520544 E 48, 58517662357911929 E 49, 44157480554861584 E 50, 32563371972222525 E 51, 23479277837541038 E 52, 16560875453022344 E 53, 11432177203665360 E 54, 77271112853681407 E 56, 51160581805312279 E 57, 33194331701022837 E 58, 21114245025397585 E 59, 13171545970256873 E 60, 80613475995149999 E 62, 48421971046405163 E 63, 28555503444685526 E 64, 16538382980483507 E 65, 94100175946475183 E 67, 52615721643654525 E 68, 28919937251755989 E 69, 15630058232970534 E 70, bnil.
Definition r646 := 77399191285943095 E 18, 65418271363291730 E 18, 47019189104847869 E 18, 29025710136629291 E 18, 15567181216859467 E 18, 73376867694876250 E 19, 30726681418805383 E 19, 11542988678704400 E 19, 39240761276960920 E 20, 12164725531883718 E 20, 34621567714205635 E 21, 91003633686330625 E 22, 22208931819207565 E 22, 50557551290258177 E 23, 10780667288519720 E 23, 21613668681108246 E 24, 40878293690430999 E 25, 73156818909239591 E 26, 12422462937841951 E 26, 20064893890921904 E 27, 30898210586123748 E 28, 45457447867618053 E 29, 64015705195072678 E 30, 86446437259841569 E 31, 11212384580362333 E 31, 13989381208702695 E 32, 16813625770231295 E 33, 19492043746029741 E 34, 21823248800783349 E 35, 23623598063267139 E 36, 24751682349602486 E 37, 25126643283753546 E 38, 24737078804716521 E 39, 23639371244436158 E 40, 21946466575023301 E 41, 19809889650105176 E 42, 17398723822040881 E 43, 14879307101869677 E 44, 12398647466898186 E 45, 10073349581456599 E 46, 79845347160238260 E 48, 61781284275021166 E 49, 46691689976217101 E 50, 34485009578812187 E 51, 24903001713567715 E 52, 17592053070805543 E 53, 12162664478592981 E 54, 82334858589636638 E 56, 54597038940526624 E 57, 35478463869112792 E 58, 22601845999773843 E 59, 14121238339826123 E 60, 86558863518587541 E 62, 52073216835881446 E 63, 30756009073435890 E 64, 17840276460416140 E 65, 10166407179207054 E 66, 56932633010602575 E 68, 31340931189569633 E 69, 16964618119629557 E 70, bnil.
Definition r647 := 77279567225628162 E 18, 65335646495294844 E 18, 46984831601843843 E 18, 29025884824627261 E 18, 15581246783854540 E 18, 73518166554323826 E 19, 30820221764733618 E 19, 11591909530902361 E 19, 39456247070001623 E 20, 12247348757241872 E 20, 34903079065401850 E 21, 91868321823972296 E 22, 22450975823823318 E 22, 51180288416565645 E 23, 10928956499860186 E 23, 21942391899898670 E 24, 41560025725031443 E 25, 74485173102635735 E 26, 12666554222145947 E 26, 20489279373498199 E 27, 31598396609603291 E 28, 46556591146210671 E 29, 65661269481103143 E 30, 88801113616986853 E 31, 11535053389333699 E 31, 14413584272880632 E 32, 17349546171526437 E 33, 20143671351585181 E 34, 22586882473842477 E 35, 24487226334683596 E 36, 25695428610936896 E 37, 26124263658233938 E 38, 25758300863799804 E 39, 24652708718313939 E 40, 22922073818875343 E 41, 20722041070345533 E 42, 18227604461673624 E 43, 15611949844172664 E 44, 13029011371458787 E 45, 10601668184922134 E 46, 84161501152009338 E 48, 65220590930242712 E 49, 49366425540742351 E 50, 36516324920556682 E 51, 26410300459969931 E 52, 18685442693498166 E 53, 12938415226771984 E 54, 87720651924831044 E 56, 58257679849340854 E 57, 37915354173892978 E 58, 24191380273485472 E 59, 15137569441799087 E 60, 92931239400375344 E 62, 55992723036476092 E 63, 33121830450290426 E 64, 19242135051542084 E 65, 10982132013322571 E 66, 61595368304817533 E 68, 33959903501836151 E 69, 18410540350643091 E 70, bnil.
Definition r648 := 77160312301296288 E 18, 65253219750972771 E 18, 46950488342512586 E 18, 29025991091626655 E 18, 15595251052175156 E 18, 73659201858278294 E 19, 30913741935168037 E 19, 11640892420441168 E 19, 39672317026653365 E 20, 12330314720907480 E 20, 35186164560913221 E 21, 92739102061153204 E 22, 22695079651335055 E 22, 51809243939655717 E 23, 11078946764785024 E 23, 22275377392289192 E 24, 42251622217754587 E 25, 75834755917342391 E 26, 12914917068443541 E 26, 20921738907357516 E 27, 32312976308949079 E 28, 47680019336195188 E 29, 67345730499237979 E 30, 91215093394661742 E 31, 11866349815049139 E 31, 14849790524692254 E 32, 17901467987467869 E 33, 20815775716451524 E 34, 23375711702291011 E 35, 25380708943628870 E 36, 26673288015978638 E 37, 27159522488354074 E 38, 26819670785662351 E 39, 25707494100758133 E 40, 23939139135996548 E 41, 21674409483588734 E 42, 19094355984224104 E 43, 16379240259550568 E 44, 13690198011466585 E 45, 11156669654243145 E 46, 88702599657813596 E 48, 68844697016448603 E 49, 52189205958470363 E 50, 38663364499829056 E 51, 28005917629244512 E 52, 19844676830497071 E 53, 13762146296004434 E 54, 93448350120335662 E 56, 62156695029296509 E 57, 40514922771594152 E 58, 25889635047209164 E 59, 16225086159220441 E 60, 99760442275445960 E 62, 60199679402807762 E 63, 35665066895785968 E 64, 20751440835298295 E 65, 11861731680277581 E 66, 66630960740163341 E 68, 36792660032544564 E 69, 19976901473568221 E 70, bnil.
Definition r649 := 77041424808082445 E 18, 65170990475726123 E 18, 46916159565065757 E 18, 29026029331607670 E 18, 15609194184287058 E 18, 73799973349075914 E 19, 31007241251216483 E 19, 11689936944482026 E 19, 39888970035692792 E 20, 12413623588614168 E 20, 35470827962984588 E 21, 93615999504442039 E 22, 22941255191915723 E 22, 52444463768776327 E 23, 11230653343354369 E 23, 22612670111065878 E 24, 42953202682059393 E 25, 77205857781532264 E 26, 13167616596614311 E 26, 21362408208651616 E 27, 33042214149238640 E 28, 48828216675971475 E 29, 69069924836383859 E 30, 93689745197654279 E 31, 12206486531827596 E 31, 15298314750730455 E 32, 18469836099164322 E 33, 21508958500304213 E 34, 24190516670312597 E 35, 26305017660902252 E 36, 27686425131055956 E 37, 28233764558001105 E 38, 27922686982220018 E 39, 26805340477613843 E 40, 24999342289600957 E 41, 22668688774535333 E 42, 20000634211239402 E 43, 17182748916586601 E 44, 14383654184041185 E 45, 11739649484282470 E 46, 93479927364524543 E 48, 72663172223165607 E 49, 55167937495996151 E 50, 40932496338633418 E 51, 29694856747368577 E 52, 21073593006942428 E 53, 14636732315038524 E 54, 99538996178451173 E 56, 66309145619628347 E 57, 43287714757371131 E 58, 27703836262151219 E 59, 17388636789080331 E 60, 10707833803299051 E 61, 64714611169688172 E 63, 38398679791135542 E 64, 22376221385194171 E 65, 12810084265244988 E 66, 72068504259127198 E 68, 39856237818753506 E 69, 21673500189823432 E 70, bnil.
Definition r650 := 76922903051584085 E 18, 65088958017402984 E 18, 46881845505090392 E 18, 29025999936564226 E 18, 15623076342636615 E 18, 73940480775289133 E 19, 31100719037415320 E 19, 11739042700458500 E 19, 40106204978957149 E 20, 12497275521158548 E 20, 35757073017244672 E 21, 94499039251026651 E 22, 23189514361121643 E 22, 53085994005588249 E 23, 11384091588003682 E 23, 22954315360333510 E 24, 43664887769078126 E 25, 78598772372460277 E 26, 13424718762149102 E 26, 21811424956115660 E 27, 33786378847971088 E 28, 50001675970311845 E 29, 70834705222632569 E 30, 96226466233547565 E 31, 12555680999135325 E 31, 15759479323735905 E 32, 19055106820407801 E 33, 22223837786491736 E 34, 25032100106864367 E 35, 27261153893375951 E 36, 28736041903081762 E 37, 29348379971459526 E 38, 29068900766712858 E 39, 27947920474667930 E 40, 26104427743974591 E 41, 23706640798722207 E 42, 20948164075496391 E 43, 18024114470316091 E 44, 15110891743936001 E 45, 12351963519190672 E 46, 98505312919642241 E 48, 76686063050645791 E 49, 58310933189459937 E 50, 43330426442890084 E 51, 31482395051477502 E 52, 22376244932855729 E 53, 15565214547948180 E 54, 10601488732988418 E 55, 70731015118940415 E 57, 46244938315777718 E 58, 29641676106356624 E 59, 18633390436203083 E 60, 11491895360405072 E 61, 69559469394893782 E 63, 41336552322555756 E 64, 24125088476182568 E 65, 13832430938246602 E 66, 77939306615389679 E 68, 43168998600732600 E 69, 23510913407100065 E 70, bnil.
Definition r651 := 76804745347781422 E 18, 65007121726292097 E 18, 46847546395573078 E 18, 29025903296512473 E 18, 15636897689645692 E 18, 74080723891682019 E 19, 31194174621725365 E 19, 11788209286086038 E 19, 40324020731400285 E 20, 12581270674408011 E 20, 36044903452632302 E 21, 95388246388146067 E 22, 23439869099693095 E 22, 53733880943938552 E 23, 11539276943729490 E 23, 23300358797057903 E 24, 44386799274954238 E 25, 80013796643592322 E 26, 13686290364637507 E 26, 22268928814436725 E 27, 34545743432979520 E 28, 51200898721459783 E 29, 72640940805215243 E 30, 98826682845389041 E 31, 12914155558559863 E 31, 16233614368739826 E 32, 19657748166690427 E 33, 22961048495191770 E 34, 25901287889399823 E 35, 28250149525645043 E 36, 29823378781675492 E 37, 30504805587230607 E 38, 30259918112973093 E 39, 29136968334043095 E 40, 27256207025590797 E 41, 24790097973029283 E 42, 21938742366946972 E 43, 18905046477842677 E 44, 15873490399458799 E 45, 12995030643979976 E 46, 10379115407602756 E 47, 80923915626321943 E 49, 61626932971850466 E 50, 45864216077211731 E 51, 33374097926337508 E 52, 23756914258748944 E 53, 16550810227984746 E 54, 11289964734217005 E 55, 75439264073593515 E 57, 49398505125496410 E 58, 31711342191693868 E 59, 19964857617104118 E 60, 12331861931717473 E 61, 74757727237220119 E 63, 44493553249642105 E 64, 26007279465504466 E 65, 14934402274509110 E 66, 84277053530106589 E 68, 46750729252194369 E 69, 25500556533332221 E 70, bnil.
Definition r652 := 76686950022958333 E 18, 64925480955115536 E 18, 46813262466923584 E 18, 29025739799499281 E 18, 15650658387706563 E 18, 74220702459166068 E 19, 31287607335527762 E 19, 11837436299371473 E 19, 40542416161148660 E 20, 12665609199308736 E 20, 36334322981324006 E 21, 96283645992524040 E 22, 23692331373354377 E 22, 54388171069628314 E 23, 11696224948273025 E 23, 23650846432605721 E 24, 45119060148196297 E 25, 81451230851863653 E 26, 13952399056314703 E 26, 22735061457832910 E 27, 35320585300974393 E 28, 52426395261895367 E 29, 74489517426422850 E 30, 10149185105299422 E 30, 13282137532521543 E 31, 16721057932464322 E 32, 20278240129945867 E 33, 23721242806046515 E 34, 26798929662442394 E 35, 29273067783768157 E 36, 30949715872581465 E 37, 31704526494193337 E 38, 31497401469525110 E 39, 30374282058703125 E 40, 28456561165532916 E 41, 25920965959621979 E 42, 22974240582186958 E 43, 19827328324699244 E 44, 16673100622924957 E 45, 13670335590749954 E 46, 10935044394877567 E 47, 85387799567699566 E 49, 65125124756314569 E 50, 48541299888455311 E 51, 35375834073771023 E 52, 25220122947337726 E 53, 17596922395916922 E 54, 12021830285501042 E 55, 80451887901595682 E 57, 52761073147093173 E 58, 33921548499709654 E 59, 21388912146931887 E 60, 13231612035407808 E 61, 80334482548143355 E 63, 47885604960965127 E 64, 28032701524157790 E 65, 16122046431615558 E 66, 91117984701348623 E 68, 50622749629231488 E 69, 27654748324918048 E 70, bnil.
Definition r653 := 76569515413624056 E 18, 64844035059021560 E 18, 46778993946998540 E 18, 29025509831610726 E 18, 15664358599176923 E 18, 74360416244756136 E 19, 31381016513619534 E 19, 11886723338622315 E 19, 40761390129557114 E 20, 12750291241893778 E 20, 36625335298662000 E 21, 97185263129802898 E 22, 23946913172612803 E 22, 55048911060173544 E 23, 11854951232301640 E 23, 24005824634281485 E 24, 45861794497046459 E 25, 82911378585065016 E 26, 14223113350667432 E 26, 23209966593843194 E 27, 36111186276721610 E 28, 53678684888781505 E 29, 76381337905537249 E 30, 10422345710299938 E 30, 13659859324748873 E 31, 17222156156035184 E 32, 20917074959122999 E 33, 24505090590471775 E 34, 27725899471340059 E 35, 30331004121628234 E 36, 32116374123186996 E 37, 32949077531264282 E 38, 32783071630108074 E 39, 31661725627157826 E 40, 29707443225852751 E 41, 27101226446504274 E 42, 24056607881136660 E 43, 20792820266081579 E 44, 17511446680101229 E 45, 14379431864215875 E 46, 11519679843116955 E 47, 90089332937572178 E 49, 68815166518964373 E 50, 51369504918057553 E 51, 37493791450788806 E 52, 26770646292426035 E 53, 18707150269128044 E 54, 12799736395884100 E 55, 85787978025590262 E 57, 56346091929660243 E 58, 36281568200120587 E 59, 22911814386883639 E 60, 14195285786921222 E 61, 86316567178769898 E 63, 51529756096748422 E 64, 30211978909799157 E 65, 17401859310820075 E 66, 98501082499468797 E 68, 54808028371518226 E 69, 29986780624322443 E 70, bnil.
Definition r654 := 76452439866435490 E 18, 64762783395577436 E 18, 46744741061124737 E 18, 29025213776980530 E 18, 15677998486374928 E 18, 74499865021526532 E 19, 31474401494209271 E 19, 11936070002456095 E 19, 40980941491264891 E 20, 12835316943291360 E 20, 36917944083083430 E 21, 98093122853979672 E 22, 24203626512557013 E 22, 55716147784560110 E 23, 12015471519588116 E 23, 24365340126861738 E 24, 46615127596864140 E 25, 84394546789357862 E 26, 14498502631099641 E 26, 23693789987329892 E 27, 36917832672861055 E 28, 54958296000108794 E 29, 78317322324821080 E 30, 10702301802778409 E 30, 14047558522545137 E 31, 17737263451064873 E 32, 21574757446702463 E 33, 25313279853839882 E 34, 28683096411540543 E 35, 31425087130456946 E 36, 33324716540964630 E 37, 34240044851745553 E 38, 34118709662256933 E 39, 33001231280519090 E 40, 31010880912574840 E 41, 28332940027960423 E 42, 25187874154747417 E 43, 21803462587229695 E 44, 18390329783263199 E 45, 15123944791370625 E 46, 12134448481854869 E 47, 95040708339374835 E 49, 72707209426572907 E 50, 54357070544974734 E 51, 39734494013859316 E 52, 28413526617536663 E 53, 19885300169057320 E 54, 13626490924414648 E 55, 91467786497815038 E 57, 60167850579694543 E 58, 38801268451595901 E 59, 24540235934001053 E 60, 15227302037099454 E 61, 92732663428536066 E 63, 55444259036215911 E 64, 32556503484290258 E 65, 18780816838384189 E 66, 10646827423806101 E 67, 59331307226673263 E 69, 32510993346202119 E 70, bnil.
Definition r655 := 76335721738120269 E 18, 64681725324762129 E 18, 46710504032122339 E 18, 29024852017798516 E 18, 15691578211574304 E 18, 74639048568567248 E 19, 31567761618912552 E 19, 11985475889809514 E 19, 41201069094251190 E 20, 12920686439733291 E 20, 37212152996049927 E 21, 99007250206842752 E 22, 24462483432654420 E 22, 56389928302992002 E 23, 12177801627187754 E 23, 24729439994126436 E 24, 47379185897524255 E 25, 85901045796916623 E 26, 14778637159657552 E 26, 24186679484694291 E 27, 37740815350369571 E 28, 56265766232554881 E 29, 80298408319612908 E 30, 10989208221338133 E 30, 14445478000873401 E 31, 18266742679162309 E 32, 22251805221267200 E 33, 26146517187738336 E 34, 29671445293730746 E 35, 32556479472075319 E 36, 34576149445679318 E 37, 35579067533577220 E 38, 35506158895618648 E 39, 34394801884117047 E 40, 32368979278135545 E 41, 29618249188265534 E 42, 26370153207673387 E 43, 22861278887380218 E 44, 19311631372658578 E 45, 15905574700295993 E 46, 12780845169087968 E 47, 10025472020247721 E 48, 76811922056509890 E 50, 57512669402923430 E 51, 42104819308489426 E 52, 30154087688434196 E 53, 21135397035948489 E 54, 14505067556077307 E 55, 97512794309636034 E 57, 64241528543426381 E 58, 41491147300685285 E 59, 26281285840019437 E 60, 16332376599823673 E 61, 99613428088353015 E 63, 59648652565997125 E 64, 35078488692275354 E 65, 20266409511826963 E 66, 11506464897081360 E 67, 64219234508545681 E 69, 35242855096868620 E 70, bnil.
Definition r656 := 76219359395400546 E 18, 64600860208959110 E 18, 46676283080327785 E 18, 29024424934319042 E 18, 15705097936999538 E 18, 74777966670940684 E 19, 31661096232747299 E 19, 12034940599947586 E 19, 41421771779890894 E 20, 13006399862563504 E 20, 37507965681978316 E 21, 99927670217409742 E 22, 24723495996547845 E 22, 57070299866633950 E 23, 12341957465613257 E 23, 25098171680387277 E 24, 48154097030829653 E 25, 87431189353699452 E 26, 15063588085814582 E 26, 24688785038306935 E 27, 38580429779673906 E 28, 57601642601074378 E 29, 82325551372575548 E 30, 11283222997649754 E 30, 14853866028287981 E 31, 18810965334928566 E 32, 22948749046241265 E 33, 27005528232510915 E 34, 30691897325193449 E 35, 33726378836417081 E 36, 35872123756223883 E 37, 36967839236743369 E 38, 36947326971727719 E 39, 35844513365951555 E 40, 33783923516132889 E 41, 30959381392154524 E 42, 27605646059981765 E 43, 23968379491869890 E 44, 20277316531345434 E 45, 16726100233332298 E 46, 13460436010685287 E 47, 10574479330930227 E 48, 81140515758328084 E 50, 60845429317589984 E 51, 44612016945120013 E 52, 31997949875336809 E 53, 22461696561316423 E 54, 15438615273883681 E 55, 10394578358851709 E 56, 68583249362111824 E 58, 44362372801293960 E 59, 28142538450985041 E 60, 17515541636319686 E 61, 10699162455871451 E 62, 64163850065945082 E 64, 37791027231190657 E 65, 21866679365604480 E 66, 12433868982924945 E 67, 69500508342770406 E 69, 38199049839376171 E 70, bnil.
Definition r657 := 76103351214917445 E 18, 64520187412948987 E 18, 46642078423616541 E 18, 29023932904869432 E 18, 15718557824821105 E 18, 74916619119638110 E 19, 31754404684128999 E 19, 12084463732472657 E 19, 41643048383010144 E 20, 13092457338246717 E 20, 37805385768171986 E 21, 10085440790136671 E 21, 24986676291851314 E 22, 57757309917346400 E 23, 12507955039007362 E 23, 25471582992012871 E 24, 48939989817937559 E 25, 88985294647344914 E 26, 15353427455315913 E 26, 25200258731153013 E 27, 39436976102417506 E 28, 58966481640236064 E 29, 84399725112143587 E 30, 11584507415076150 E 30, 15272976374739854 E 31, 19370311732496893 E 32, 23666133124911408 E 33, 27891058150290823 E 34, 31745430807738553 E 35, 34936018923911981 E 36, 37214136312962814 E 37, 38408109909109551 E 38, 38444187957008506 E 39, 37352517234315266 E 40, 35257981851345575 E 41, 32358652285646900 E 42, 28896644372108024 E 43, 25126964997128898 E 44, 21289437538555324 E 45, 17587381800013690 E 46, 14174861616442929 E 47, 11152501261830122 E 48, 85704771208537905 E 50, 64364956311518996 E 51, 47263728004242319 E 52, 33951046102333992 E 53, 23868697970054245 E 54, 16430468353574667 E 55, 11079091389604165 E 56, 73210137568524721 E 58, 47426824484002801 E 59, 30132062964673648 E 60, 18782166267272792 E 61, 11490226355273651 E 62, 69012233569894425 E 64, 40708152657989081 E 65, 23590259520971218 E 66, 13434252298527259 E 67, 75206030398395418 E 69, 41397570045887905 E 70, bnil.
Definition r658 := 75987695583156142 E 18, 64439706303902194 E 18, 46607890277425644 E 18, 29023376305858384 E 18, 15731958037150783 E 18, 75055005711536669 E 19, 31847686324865975 E 19, 12134044887333359 E 19, 41864897731941873 E 20, 13178858988377367 E 20, 38104416864753132 E 21, 10178748826050939 E 21, 25252036429945279 E 22, 58451006087416187 E 23, 12675810445313405 E 23, 25849722098951200 E 24, 49736994276800852 E 25, 90563682335197964 E 26, 15648228219083429 E 26, 25721254801695184 E 27, 40310759193887867 E 28, 60360849547325645 E 29, 86521921615223464 E 30, 11893226068233285 E 30, 15703068421285584 E 31, 19945171195678311 E 32, 24404515411850579 E 33, 28803872108741324 E 34, 32833051852577090 E 35, 36186670453321390 E 36, 38603731236490282 E 37, 39901687542005685 E 38, 39998784520823265 E 39, 38921043176995496 E 40, 36793508528073957 E 41, 33818469010943295 E 42, 30245533997406605 E 43, 26339329953470945 E 44, 22350137566921882 E 45, 18491365175385421 E 46, 14925840498497159 E 47, 11761015443907724 E 48, 90517066212343756 E 50, 68081358726537071 E 51, 50068005415640292 E 52, 36019638623335669 E 53, 25361157485693887 E 54, 17484156908747365 E 55, 11807380285194021 E 56, 78140378902085744 E 58, 50697137311814541 E 59, 32258454808467982 E 60, 20137978488140053 E 61, 12338275292533282 E 62, 74217754081371121 E 64, 43844905193694270 E 65, 25446416495679876 E 66, 14513218439596637 E 67, 81369070852934630 E 69, 44857816810391489 E 70, bnil.
Definition r659 := 75872390896371655 E 18, 64359416251371648 E 18, 46573718854776062 E 18, 29022755511784352 E 18, 15745298736036997 E 18, 75193126249356451 E 19, 31940940510154343 E 19, 12183683664833472 E 19, 42087318648581105 E 20, 13265604929688470 E 20, 38405062564595759 E 21, 10272693628218396 E 21, 25519588545770716 E 22, 59151436199278802 E 23, 12845539876443433 E 23, 26232637536248447 E 24, 50545241629621809 E 25, 92166676572460272 E 26, 15948064242180361 E 26, 26251929668953368 E 27, 41202088726106925 E 28, 61785322327227777 E 29, 88693151714187981 E 30, 12209546923498520 E 30, 16144407271727240 E 31, 20535942251772307 E 32, 25164467930860307 E 33, 29744755775719113 E 34, 33955795112508271 E 35, 37479642195626482 E 36, 40042501323721500 E 37, 41450439976894369 E 38, 41613230180426157 E 39, 40552401744522741 E 40, 38392946899939171 E 41, 35341333639219460 E 42, 31654798666785651 E 43, 27607866690753261 E 44, 23461654529106490 E 45, 19440085249529540 E 46, 15715172618033256 E 47, 12401571901825511 E 48, 95590404808413058 E 50, 72005272515781846 E 51, 53033335358733569 E 52, 38210336665756287 E 53, 26944102513989595 E 54, 18603418015640677 E 55, 12582161132094451 E 56, 83393284029723042 E 58, 54186748266565840 E 59, 34530868946277588 E 60, 21589088467524098 E 61, 13247305720275874 E 62, 79806038548085977 E 64, 47217402003695680 E 65, 27445095460767421 E 66, 15676790556638021 E 67, 88025445389992706 E 69, 48600707428401351 E 70, bnil.
Definition r660 := 75757435560515327 E 18, 64279316627285366 E 18, 46539564366294708 E 18, 29022070895243928 E 18, 15758580083460247 E 18, 75330980541617699 E 19, 32034166598572935 E 19, 12233379665640722 E 19, 42310309948440371 E 20, 13352695274060795 E 20, 38707326443259530 E 21, 10367277693873121 E 21, 25789344797622812 E 22, 59858648265236049 E 23, 13017159618444314 E 23, 26620378205564951 E 24, 51364864310320496 E 25, 93794605040469526 E 26, 16253010312836436 E 26, 26792441957803975 E 27, 42111279231591500 E 28, 63240485939107286 E 29, 90914445308220340 E 30, 12533641380479855 E 30, 16597263866213493 E 31, 21143032829105579 E 32, 25946577099554950 E 33, 30714515825084304 E 34, 35114724531802396 E 35, 38816282034587522 E 36, 41532089482265617 E 37, 43056296764504801 E 38, 43289711614740146 E 39, 42248987120011341 E 40, 40058832624377834 E 41, 36929846725271733 E 42, 33127023810069934 E 43, 28935069292161435 E 44, 24626325079558220 E 45, 20435669934351568 E 46, 16544743086466579 E 47, 13075796459714132 E 48, 10093844773517525 E 49, 76147887759743323 E 51, 56168659733178406 E 52, 40530114985118974 E 53, 28622846581741572 E 54, 19792207448313303 E 55, 13406313341182202 E 56, 88989355969759086 E 58, 57909945718343768 E 59, 36959055229358901 E 60, 23142013313217596 E 61, 14221586742180880 E 62, 85804503924354756 E 64, 50842912249570816 E 65, 29596968644024788 E 66, 16931441964957356 E 67, 95213705083939884 E 69, 52648790986199146 E 70, bnil.
Definition r661 := 75642827991161968 E 18, 64199406805939094 E 18, 46505427020236502 E 18, 29021322826940206 E 18, 15771802241328584 E 18, 75468568402598368 E 19, 32127363952078264 E 19, 12283132490795434 E 19, 42533870440704771 E 20, 13440130128532086 E 20, 39011212058924277 E 21, 10462503518693034 E 21, 26061317366943691 E 22, 60572690487166536 E 23, 13190686051661388 E 23, 27012993376687608 E 24, 52195995972015375 E 25, 95447798975102374 E 26, 16563142151533328 E 26, 27342952524498606 E 27, 43038650167787228 E 28, 64726936444904206 E 29, 93186851679053383 E 30, 12865684334458243 E 30, 17061915096830897 E 31, 21766860458360645 E 32, 26751444060709852 E 33, 31713980453881065 E 34, 36310934114165740 E 35, 40197978054601410 E 36, 43074190204044239 E 37, 44721251077841093 E 38, 45030491048918552 E 39, 44013279978202177 E 40, 41793796965159987 E 41, 38586710988085833 E 42, 34664900518883911 E 43, 30323537721552005 E 44, 25846588777350314 E 45, 21480344233907203 E 46, 17416526027514247 E 47, 13785394300471854 E 48, 10657554431964419 E 49, 80520976463137635 E 51, 59483399751145849 E 52, 42986333375821308 E 53, 30403005069596061 E 54, 21054712056513410 E 55, 14282889155105406 E 56, 94950361426821737 E 58, 61881921738759942 E 59, 39553395912500825 E 60, 24803703395533921 E 61, 15265678192500987 E 62, 92242478777394391 E 64, 54739937227183642 E 65, 31913487092872805 E 66, 18284128929211013 E 67, 10297534008512131 E 68, 57026372540523647 E 70, bnil.
Definition r662 := 75528566613437556 E 18, 64119686163988790 E 18, 46471307022506084 E 18, 29020511675691148 E 18, 15784965371473145 E 18, 75605889652291623 E 19, 32220531935999181 E 19, 12332941741719226 E 19, 42757998928287294 E 20, 13527909595306440 E 20, 39316722952325590 E 21, 10558373596744501 E 21, 26335518458114480 E 22, 61293611256230389 E 23, 13366135650900040 E 23, 27410532689039101 E 24, 53038771494518030 E 25, 97126593195305611 E 26, 16878536420150588 E 26, 27903624482404227 E 27, 43984525982182021 E 28, 66245280159661930 E 29, 95511439811156413 E 30, 13205854239816224 E 30, 17538643925215462 E 31, 22407852477758693 E 32, 27579685020499325 E 33, 32743999911119559 E 34, 37545548709184402 E 35, 41626159656501883 E 36, 44670551079146340 E 37, 46447361680513237 E 38, 46837908711708994 E 39, 45847850436395846 E 40, 43600570206361607 E 41, 40314735121533271 E 42, 36271229656009520 E 43, 31775982109976948 E 44, 27124992416253817 E 45, 22576434484788344 E 46, 18332588606831808 E 47, 14532153685214928 E 48, 11251676585237886 E 49, 85136921691962320 E 51, 62987480705068848 E 52, 45586757185467549 E 53, 32290511779472980 E 54, 22395362820187767 E 55, 15215123690744467 E 56, 10129940625706410 E 57, 66118827527925325 E 59, 42324945464028523 E 60, 26581570322840923 E 61, 16384449879744282 E 62, 99151332921905796 E 64, 58928295925970406 E 65, 34406936023341968 E 66, 19742325772801774 E 67, 11135499808209172 E 68, 61759646510646345 E 70, bnil.
Definition r663 := 75414649861947694 E 18, 64040154080443307 E 18, 46437204576679221 E 18, 29019637808437870 E 18, 15798069635643765 E 18, 75742944116363835 E 19, 32313669919031567 E 19, 12382807020223496 E 19, 42982694207883721 E 20, 13616033771763841 E 20, 39623862646690981 E 21, 10654890420427119 E 21, 26611960298246632 E 22, 62021459152567531 E 23, 13543524985584900 E 23, 27813046153183520 E 24, 53893326991839852 E 25, 98831326131751768 E 26, 17199270731172258 E 26, 28474623227965079 E 27, 44949236178103158 E 28, 67796133803703523 E 29, 97889298716418660 E 30, 13554333174465687 E 30, 18027739502214739 E 31, 23066446242160406 E 32, 28431931593750587 E 33, 33805447038392047 E 34, 38819724817649046 E 35, 43102298701957045 E 36, 46322974350928880 E 37, 48236754951869952 E 38, 48714385367686990 E 39, 47755361100036282 E 40, 45481985181320296 E 41, 42116837739526875 E 42, 37948926116332220 E 43, 33295227207206373 E 44, 28464194528429391 E 45, 23726372773332915 E 46, 19295095236150702 E 47, 15317949839766918 E 48, 11877794051490281 E 49, 90008748112710942 E 51, 66691357967120126 E 52, 48339578882424265 E 53, 34291636379270119 E 54, 23818848616302247 E 55, 16206445545843216 E 56, 10806101529483759 E 57, 70637832134432900 E 59, 45285472805444807 E 60, 28483516669813448 E 61, 17583102067238461 E 62, 10656461559751036 E 63, 63429216365721832 E 65, 37090493996708634 E 66, 21314062472518489 E 67, 12040071858456280 E 68, 66876839948585197 E 70, bnil.
Definition r664 := 75301076180706611 E 18, 63960809936656843 E 18, 46403119884024291 E 18, 29018701590252997 E 18, 15811115195504578 E 18, 75879731626112487 E 19, 32406777273232931 E 19, 12432727928517893 E 19, 43207955070027578 E 20, 13704502750469774 E 20, 39932634647676883 E 21, 10752056480418464 E 21, 26890655136972512 E 22, 62756282944989888 E 23, 13722870719916790 E 23, 28220584152328587 E 24, 54759799819711692 E 25, 10056233985561955 E 25, 17525423656954058 E 26, 29056116466887962 E 27, 45933115381203156 E 28, 69380124656674531 E 29, 10032153776337955 E 29, 13911306905287770 E 30, 18529497289630707 E 31, 23743089336150329 E 32, 29308831156343410 E 33, 34899217822561164 E 34, 40134651416172020 E 35, 44627910687134347 E 36, 48033318513398987 E 37, 50091626970452508 E 38, 50662424926483179 E 39, 49738570205783041 E 40, 47440980920209937 E 41, 43996051460105463 E 42, 39701023244659828 E 43, 34884217004267035 E 44, 29866970068350354 E 45, 24932701536678525 E 46, 20306311959126619 E 47, 16144749015358315 E 48, 12537568992874041 E 49, 95150153998470452 E 51, 70606044279265571 E 52, 51253440728617873 E 53, 36413002769590162 E 54, 25330130735458031 E 55, 17260488000411606 E 56, 11526121678445087 E 57, 75457184657633633 E 59, 48447506124308941 E 60, 30517967564841519 E 61, 18867187267699375 E 62, 11451820273560270 E 63, 68265433089907567 E 65, 39978296181149585 E 66, 23007964909576272 E 67, 13016418414247027 E 68, 72408366400052258 E 70, bnil.
Definition r665 := 75187844023066955 E 18, 63881653116321463 E 18, 46369053143523443 E 18, 29017703384348954 E 18, 15824102212629806 E 18, 76016252018424550 E 19, 32499853374016829 E 19, 12482704069218707 E 19, 43433780299144918 E 20, 13793316619184999 E 20, 40243042443306418 E 21, 10849874265619191 E 21, 27171615246235299 E 22, 63498131590667248 E 23, 13904189613027377 E 23, 28633197443824164 E 24, 55638328583115702 E 25, 10231998010750009 E 25, 17857074739051596 E 26, 29648274240551684 E 27, 46936503406639768 E 28, 70997890713469465 E 29, 10280928701105877 E 29, 14276964954598525 E 30, 19044219184074961 E 31, 24438239791171287 E 32, 30211047204886468 E 33, 36026231960762590 E 34, 41491550801516003 E 35, 46204555946318274 E 36, 49803499951935132 E 37, 52014245657324578 E 38, 52684617131182583 E 39, 51800334864990401 E 40, 49480606419976521 E 41, 45955527133054743 E 42, 41530677415870464 E 43, 36546019533222073 E 44, 31336215283808177 E 45, 26198078354945480 E 46, 21368611026392077 E 47, 17014612731001159 E 48, 13232746739816543 E 49, 10057554476948320 E 50, 74743138395433815 E 52, 54337458612059661 E 53, 38661608419431793 E 54, 26934458187686538 E 55, 18381100845101532 E 56, 12292763167378523 E 57, 80596280132006235 E 59, 51824380412161537 E 60, 32693904249289599 E 61, 20242633433585678 E 62, 12305045389609204 E 63, 73461291218723932 E 65, 43085501972583685 E 66, 24833297959671552 E 67, 14070098969305644 E 68, 78386991118761617 E 70, bnil.
Definition r666 := 75074951851649974 E 18, 63802683005459646 E 18, 46335004551893384 E 18, 29016643552086233 E 18, 15837030848499439 E 18, 76152505135734724 E 19, 32592897600147290 E 19, 12532735045357145 E 19, 43660168673609150 E 20, 13882475460875475 E 20, 40555089503908232 E 21, 10948346263098122 E 21, 27454852920078158 E 22, 64247054234806973 E 23, 14087498519131612 E 23, 29050937160657252 E 24, 56529053143829460 E 25, 10410459632642754 E 25, 18194304497609405 E 26, 30251268952641914 E 27, 47959745326954616 E 28, 72650080842060114 E 29, 10535369754743628 E 29, 14651500667653393 E 30, 19572213642967404 E 31, 25152366306776013 E 32, 31139259723803665 E 33, 37187433437968267 E 34, 42891679455061238 E 35, 47833840886178732 E 36, 51635494628430182 E 37, 54006952980871660 E 38, 54783640328132309 E 39, 53943614410591719 E 40, 51604024540488072 E 41, 47998538215817065 E 42, 43441172783025920 E 43, 38283831850630874 E 44, 32874952781098362 E 45, 27525280942107949 E 46, 22484475667600668 E 47, 17929702205308581 E 48, 13965159792182481 E 49, 10630006813873784 E 50, 79114855140156094 E 52, 57601247096162874 E 53, 41044844720083953 E 54, 28637383838798721 E 55, 19572362870438225 E 56, 13108956804035413 E 57, 86075729304497001 E 59, 55430287887968081 E 60, 35020899727915464 E 61, 21715768629954241 E 62, 13220237949046550 E 63, 79042857490678834 E 65, 46428367266746674 E 66, 26800011616870588 E 67, 15207093130947000 E 68, 84848008450185242 E 70, bnil.
Definition r667 := 74962398138276501 E 18, 63723898992416678 E 18, 46300974303606315 E 18, 29015522452981665 E 18, 15849901264495137 E 18, 76288490825984212 E 19, 32685909333733027 E 19, 12582820460387580 E 19, 43887118965795500 E 20, 13971979353722360 E 20, 40868779282055730 E 21, 11047474958037610 E 21, 27740380474432791 E 22, 65003100210328035 E 23, 14272814387677751 E 23, 29473854812943289 E 24, 57432114627981840 E 25, 10591654167903370 E 25, 18537194440811201 E 26, 30865275396012562 E 27, 49003191540655998 E 28, 74337354943241508 E 29, 10795594183263511 E 29, 15035111281204226 E 30, 20113795812709934 E 31, 25885948476063842 E 32, 32094165559965620 E 33, 38383791117360603 E 34, 44336328927846792 E 35, 49517419251403431 E 36, 53531339811962809 E 37, 56072167224701238 E 38, 56962264320450928 E 39, 56171473850469985 E 40, 53814516030862693 E 41, 50128485302586354 E 42, 45435926199267634 E 43, 40100985211347505 E 44, 34486336791738115 E 45, 28917212343395002 E 46, 23656505068554181 E 47, 18892282985844867 E 48, 14736732005157701 E 49, 11233965093625173 E 50, 83734056950962537 E 52, 61054945745609749 E 53, 43570518408865919 E 54, 30444781420750558 E 55, 20838595052553635 E 56, 13977812093492444 E 57, 91917432527371344 E 59, 59280331476688949 E 60, 37509156636744984 E 61, 23293347281749635 E 62, 14201781894570290 E 63, 85038038748727843 E 65, 50024321693545089 E 66, 28918790359143554 E 67, 16433831571139067 E 68, 91829432257932780 E 70, bnil.
Definition r668 := 74850181363898483 E 18, 63645300467853258 E 18, 46266962590910489 E 18, 29014340444716655 E 18, 15862713621896025 E 18, 76424208942579355 E 19, 32778887960221784 E 19, 12632959918195659 E 19, 44114629942135707 E 20, 14061828371132187 E 20, 41184115212507372 E 21, 11147262833678912 E 21, 28028210246907335 E 22, 65766319037528192 E 23, 14460154263495164 E 23, 29902002289413522 E 24, 58347655433620769 E 25, 10775617308882675 E 25, 18885827074391176 E 26, 31490470779774406 E 27, 50067197841509858 E 28, 76060384112315247 E 29, 11061721404685785 E 29, 15427997993122409 E 30, 20669287659067523 E 31, 26639477015371912 E 32, 33076478805003831 E 33, 39616299343772880 E 34, 45826826746628957 E 35, 51256993422422389 E 36, 55493135856128584 E 37, 58212385320316098 E 38, 59223353307593165 E 39, 58487087430481540 E 40, 56115483690057887 E 41, 52348900811639957 E 42, 47518492319505880 E 43, 42000950439545429 E 44, 36173658648332472 E 45, 30376906347358355 E 46, 24887419561821552 E 47, 19904729784422192 E 48, 15549482968020939 E 49, 11871103768895134 E 50, 88614286974891314 E 52, 64709246791347958 E 53, 46246874116877852 E 54, 32362863461679241 E 55, 22184374472923444 E 56, 14902627794311020 E 57, 98144658001414971 E 59, 63390581522231537 E 60, 40169547462085239 E 61, 24982578092987171 E 62, 15254363050397908 E 63, 91476708355864707 E 65, 53892051144946841 E 66, 31201105977195216 E 67, 17757229199100869 E 68, 99372200326924553 E 70, bnil.
Definition r669 := 74738300018531115 E 18, 63566886824737753 E 18, 46232969603850517 E 18, 29013097883145454 E 18, 15875468081874702 E 18, 76559659344350882 E 19, 32871832868394289 E 19, 12683153023106376 E 19, 44342700363172240 E 20, 14152022581747132 E 20, 41501100712147682 E 21, 11247712371267843 E 21, 28318354596573333 E 22, 66536760423745502 E 23, 14649535286939800 E 23, 30335431858898564 E 24, 59275819238291851 E 25, 10962385126559302 E 25, 19240285911206584 E 26, 32127034756612390 E 27, 51152125488545041 E 28, 77819850802725763 E 29, 11333873044313123 E 29, 15830366033101895 E 30, 21239018099788989 E 31, 27413453998290568 E 32, 34086931185447081 E 33, 40885978560454659 E 34, 47364537341409908 E 35, 53054315745968472 E 36, 57523048024189053 E 37, 60430185246272904 E 38, 61569868913384773 E 39, 60893742310387157 E 40, 58510456665920928 E 41, 54663453836112252 E 42, 49692568888105052 E 43, 43987343504090652 E 44, 37940352477476416 E 45, 31907533121046709 E 46, 26180066039585124 E 47, 20969531527100466 E 48, 16405532584313945 E 49, 12543183103642231 E 50, 93769803792659424 E 52, 68575424200237889 E 53, 49082618097560399 E 54, 34398200183558519 E 55, 23614549011554513 E 56, 15886903078142449 E 57, 10478212461726730 E 58, 67778135924208658 E 60, 43013657252159431 E 61, 26791153741133455 E 62, 16382989339589008 E 63, 98390841055721347 E 65, 58051585949140410 E 66, 33659274102974425 E 67, 19184720710663304 E 68, 10752039374264731 E 69, bnil.
Definition r670 := 74626752601185661 E 18, 63488657458338871 E 18, 46198995530287654 E 18, 29011795122303299 E 18, 15888164805493172 E 18, 76694841895512834 E 19, 32964743450358404 E 19, 12733399379892053 E 19, 44571328983612708 E 20, 14242562049455415 E 20, 41819739179929031 E 21, 11348826050000446 E 21, 28610825903752447 E 22, 67314474263013486 E 23, 14840974694037203 E 23, 30774196171808118 E 24, 60216751006628652 E 25, 11151994073492223 E 25, 19600655480871786 E 26, 32775149450332558 E 27, 52258341276777146 E 28, 79616448991669245 E 29, 11612172970491081 E 29, 16242424734456104 E 30, 21823323139500593 E 31, 28208393094074303 E 32, 35126272460821922 E 33, 42193875939427058 E 34, 48950862994896964 E 35, 54911189899232846 E 36, 59623308363222299 E 37, 62728228495579989 E 38, 64004873305004898 E 39, 63394842356034632 E 40, 61003094897025011 E 41, 57075955163576985 E 42, 51962002218970997 E 43, 46063931305627880 E 44, 39790001117862981 E 45, 33512405077041762 E 46, 27537423597790583 E 47, 22089296628002923 E 48, 17307105862279440 E 49, 13252053406631587 E 50, 99215617847383517 E 52, 72665364217951965 E 53, 52086943195621918 E 54, 36557739417828845 E 55, 25134252855113757 E 56, 16934349326117677 E 57, 11185608965630435 E 58, 72461183898657924 E 60, 46053828971089925 E 61, 28727282456173961 E 62, 17593012317030243 E 63, 10581465682626751 E 64, 62524395066528031 E 66, 36306514689927515 E 67, 20724298680171087 E 68, 11632147231532584 E 69, bnil.
Definition r671 := 74515537619802633 E 18, 63410611766217831 E 18, 46165040555919856 E 18, 29010432514414659 E 18, 15900803953698889 E 18, 76829756465622030 E 19, 33057619101542956 E 19, 12783698593780235 E 19, 44800514552383985 E 20, 14333446833401798 E 20, 42140033996814227 E 21, 11450606346968968 E 21, 28905636569802227 E 22, 68099510635710587 E 23, 15034489816623447 E 23, 31218348261606662 E 24, 61170596997953790 E 25, 11344480986785614 E 25, 19967021339453856 E 26, 33434999483639623 E 27, 53386217608656510 E 28, 81450884347692535 E 29, 11896747330860104 E 29, 16664387607022955 E 30, 22422546006905744 E 31, 29024819810520365 E 32, 36195270829861768 E 33, 43541066025696121 E 34, 50587244814363163 E 35, 56829472288390758 E 36, 61796217628485381 E 37, 65109262613131810 E 38, 66531532405458004 E 39, 65993912051229296 E 40, 63597193701741102 E 41, 59590362469970948 E 42, 54330792874654191 E 43, 48234637682996605 E 44, 41726342272058810 E 45, 35194982981438413 E 46, 28962609421029806 E 47, 23266758496428357 E 48, 18256537924810192 E 49, 13999659465686184 E 50, 10496752965822257 E 51, 76991597456945435 E 53, 55269555118783714 E 54, 38848827591883036 E 55, 26748922863635785 E 56, 18048902597139387 E 57, 11939444162685382 E 58, 77459073574196958 E 60, 49303211653664251 E 61, 30799721600401542 E 62, 18890150101199955 E 63, 11378477430922986 E 64, 67333486707383990 E 66, 39157016713755550 E 67, 22384554371952204 E 68, 12582652719209666 E 69, bnil.
Definition r672 := 74404653591185879 E 18, 63332749148220985 E 18, 46131104864301511 E 18, 29009010409901392 E 18, 15913385687320886 E 18, 76964402929537773 E 19, 33150459220691714 E 19, 12834050270461536 E 19, 45030255812686295 E 20, 14424676987998312 E 20, 42461988525720080 E 21, 11553055737107866 E 21, 29202799016901447 E 22, 68891919808203234 E 23, 15230098082483519 E 23, 31667941546285099 E 24, 62137504773890768 E 25, 11539883091065825 E 25, 20339470079229541 E 26, 34106772006146375 E 27, 54536132566244764 E 28, 83323874400299183 E 29, 12187724589104219 E 29, 17096472411191862 E 30, 23037037294324095 E 31, 29863271741387457 E 32, 37294713344969722 E 33, 44928651395596949 E 34, 52275163726386298 E 35, 58811073482287480 E 36, 64044147259225331 E 37, 67576123805017487 E 38, 69153119202140309 E 39, 68694600532820558 E 40, 66296688519122780 E 41, 62210785693557504 E 42, 56803101551292880 E 43, 50503549646848086 E 44, 43753274900706560 E 45, 36958882312185012 E 46, 30458884917949227 E 47, 24504781287122546 E 48, 19256279248538386 E 49, 14788045191773583 E 50, 11104216990293832 E 51, 81567332604672141 E 53, 58640700077808518 E 54, 41279231841927483 E 55, 28464315841696167 E 56, 19234736805060531 E 57, 12742679852663242 E 58, 82792383647015027 E 60, 52775811528509563 E 61, 33017813371878512 E 62, 20280511792919633 E 63, 12234037443447348 E 64, 72503515796788662 E 66, 42226007380198533 E 67, 24174721460367851 E 68, 13609055187952027 E 69, bnil.
Definition r673 := 74294099040936992 E 18, 63255069006472070 E 18, 46097188636863254 E 18, 29007529157390907 E 18, 15925910167065894 E 18, 77098781167381485 E 19, 33243263209857088 E 19, 12884454016097370 E 19, 45260551502047101 E 20, 14516252562934927 E 20, 42785606111461312 E 21, 11656176693140084 E 21, 29502325687834654 E 22, 69691752232483034 E 23, 15427817015487461 E 23, 32123029829828314 E 24, 63117623205986295 E 25, 11738238001470696 E 25, 20718089338504259 E 26, 34790656722615885 E 27, 55708469984125727 E 28, 85236148711582314 E 29, 12485235562202112 E 29, 17538901233067408 E 30, 23667155099604760 E 31, 30724298818429186 E 32, 38425406335084890 E 33, 46357763329547408 E 34, 54016141494956022 E 35, 60857959682093073 E 36, 66369541407205453 E 37, 70131739621589915 E 38, 71873017154176617 E 39, 71500685752633383 E 40, 69105659806317676 E 41, 64941492594808974 E 42, 59383255176445568 E 43, 52874923848606269 E 44, 45874865868228675 E 45, 38807879877554501 E 46, 32029662117358599 E 47, 25806365903971091 E 48, 20308901142100760 E 49, 15619358482451876 E 50, 11745704145716885 E 51, 86406491830740270 E 53, 62211193863449910 E 54, 43857163310517348 E 55, 30286526762305232 E 56, 20496277643701302 E 57, 13598461183823182 E 58, 88482999330697474 E 60, 56486546287021066 E 61, 35391522761850886 E 62, 21770623474696940 E 63, 13152337489746958 E 64, 78060898739857745 E 66, 45529826145282499 E 67, 26104722860237006 E 68, 14717273298339719 E 69, bnil.
Definition r674 := 74183872503390424 E 18, 63177570745364703 E 18, 46063292052931359 E 18, 29005989103724230 E 18, 15938377553514505 E 18, 77232891064496672 E 19, 33336030474393824 E 19, 12934909437327577 E 19, 45491400352374998 E 20, 14608173603190453 E 20, 43110890080695697 E 21, 11759971685523293 E 21, 29804229045776116 E 22, 70499058545797416 E 23, 15627664235723979 E 23, 32583667303678198 E 24, 64111102483341921 E 25, 11939583726650825 E 25, 21102967811492356 E 26, 35486845921437087 E 27, 56903619523054314 E 28, 87188449049899691 E 29, 12789413458185691 E 29, 17991900560783701 E 30, 24313265170447167 E 31, 31608463568116325 E 32, 39588175837101557 E 33, 47829562499492426 E 34, 55811741763443668 E 35, 62972154227748088 E 36, 68774919019237489 E 37, 72779131716221474 E 38, 74694723701267270 E 39, 74416078769967089 E 40, 72028338097350971 E 41, 67786914508259218 E 42, 62075753227083014 E 43, 55353193293185149 E 44, 48095356849423319 E 45, 40745920704872567 E 46, 33678510335604013 E 47, 27174656267785719 E 48, 21417101474031872 E 49, 16495856314609794 E 50, 12423056348215285 E 51, 91523747975360023 E 53, 65992452432260556 E 54, 46591301689960358 E 55, 32222007994254059 E 56, 21838217300718682 E 57, 14510127658122175 E 58, 94554192850138120 E 60, 60451302685637406 E 61, 37931477904131912 E 62, 23367455889975612 E 63, 14137861618919098 E 64, 84033935969386510 E 66, 49086003873578097 E 67, 28185220883043670 E 68, 15913676206313761 E 69, bnil.
Definition r675 := 74073972521549153 E 18, 63100253771554676 E 18, 46029415289747078 E 18, 29004390593964240 E 18, 15950788007117498 E 18, 77366732511409157 E 19, 33428760422952665 E 19, 12985416141278096 E 19, 45722801090013367 E 20, 14700440149043590 E 20, 43437843741869772 E 21, 11864443182396579 E 21, 30108521574073346 E 22, 71313889570275333 E 23, 15829657459632011 E 23, 33049908548193131 E 24, 65118094120257514 E 25, 12143958671783230 E 25, 21494195258259899 E 26, 36195534503336051 E 27, 58121976744351084 E 28, 89181529565614244 E 29, 13100393914412373 E 29, 18455701361985054 E 30, 24975741051165949 E 31, 32516341373125565 E 32, 40783868035996750 E 33, 49345239671329856 E 34, 57663571120945369 E 35, 65155739142045044 E 36, 71262875975047093 E 37, 75521418681726890 E 38, 77621853876862797 E 39, 77444828178494824 E 40, 75069109228274137 E 41, 70751652292573418 E 42, 64885274275251858 E 43, 57942974304166565 E 44, 50419171506681659 E 45, 42777125210010622 E 46, 35409163126181448 E 47, 28612945859288600 E 48, 22583710661177576 E 49, 17419910076869583 E 50, 13138211765677971 E 51, 96934563605284423 E 53, 69996524076672143 E 54, 49490821075838380 E 55, 34277589586254814 E 56, 23265530003517750 E 57, 15481224776210980 E 58, 10103070874280081 E 59, 64686997679897668 E 61, 40649012962667441 E 62, 25078453907663762 E 63, 15195405992153599 E 64, 90452942788970824 E 66, 52913347481435293 E 67, 30427670948850560 E 68, 17205117009433645 E 69, bnil.
Definition r676 := 73964397647020882 E 18, 63023117493952355 E 18, 45995558522485810 E 18, 29002733971403679 E 18, 15963141688192069 E 18, 77500305403787320 E 19, 33521452467473833 E 19, 13035973735568422 E 19, 45954752435793986 E 20, 14793052236083978 E 20, 43766470385165424 E 21, 11969593649527035 E 21, 30415215776029869 E 22, 72136296312546029 E 23, 16033814500129584 E 23, 33521808534102427 E 24, 66138750963882676 E 25, 12351401641596866 E 25, 21891862514728921 E 26, 36916920010322684 E 27, 59363943185044580 E 28, 91216156968912699 E 29, 13418315036355763 E 29, 18930539162486435 E 30, 25654964231933514 E 31, 33448520738669878 E 32, 42013349713818900 E 33, 50906016422606278 E 34, 59573280193509867 E 35, 67410856713199277 E 36, 73836087281818589 E 37, 78361818966470460 E 38, 80658144028545825 E 39, 80591124671487233 E 40, 78232519733804435 E 41, 73840482485256836 E 42, 67816682769151629 E 43, 60649073750425046 E 44, 52850922947890478 E 45, 44905796658529856 E 46, 37225525522982754 E 47, 30124684548839176 E 48, 23811697928970127 E 49, 18394011152466228 E 50, 13893209665411944 E 51, 10265523202742660 E 52, 74236123258367121 E 54, 52565417198071494 E 55, 36460500663942150 E 56, 24783488442670191 E 57, 16515516358193278 E 58, 10793885424531816 E 59, 69211643300134238 E 61, 43556213712146547 E 62, 26911567883715931 E 63, 16330100023773974 E 64, 97350389057497304 E 66, 57032030434919058 E 67, 32844379099296885 E 68, 18598968613600680 E 69, bnil.
Definition r677 := 73855146439954819 E 18, 62946161323715069 E 18, 45961721924276062 E 18, 29001019577573225 E 18, 15975438756918224 E 18, 77633609642402835 E 19, 33614106023180557 E 19, 13086581828319073 E 19, 46187253105090491 E 20, 14886009895223468 E 20, 44096773282447189 E 21, 12075425550256694 E 21, 30724324174687541 E 22, 72966329963352383 E 23, 16240153266740574 E 23, 33999422623956935 E 24, 67173227201878666 E 25, 12561951843410313 E 25, 22296061502744006 E 26, 37651202654874571 E 27, 60629926433768861 E 28, 93293110709725486 E 29, 13743317436921156 E 29, 19416654126129750 E 30, 26351324300537252 E 31, 34405603563750205 E 32, 43277508707697793 E 33, 52513145875783506 E 34, 61542564760780293 E 35, 69739711116789509 E 36, 76497309326805675 E 37, 81303653872232588 E 38, 83807455648581586 E 39, 83859305749404922 E 40, 81523282420739852 E 41, 77058363668634924 E 42, 70875036057625083 E 43, 63476496543497914 E 44, 55395421475446155 E 45, 47136428929771443 E 46, 39131681589009396 E 47, 31713485724913762 E 48, 25104177855382474 E 49, 19420776763886458 E 50, 14690195496709111 E 51, 10870292035453796 E 52, 78724666187766845 E 54, 55825336100302219 E 55, 38778391998677740 E 56, 26397681120708292 E 57, 17616997578083737 E 58, 11530659505898510 E 59, 74044415490740498 E 61, 46665965975683927 E 62, 28875287038335651 E 63, 17547428914645932 E 64, 10476104829580726 E 65, 61463689496407593 E 67, 35448563573534841 E 68, 20103162190868383 E 69, bnil.
Definition r678 := 73746217468979011 E 18, 62869384674239429 E 18, 45927905666218211 E 18, 28999247752249588 E 18, 15987679373335156 E 18, 77766645133091183 E 19, 33706720508572367 E 19, 13137240028158912 E 19, 46420301807871631 E 20, 14979313152707426 E 20, 44428755687210292 E 21, 12181941345449465 E 21, 31035859312608033 E 22, 73804041897157489 E 23, 16448691765718774 E 23, 34482806573574590 E 24, 68221678370088699 E 25, 12775648890181297 E 25, 22706885240200730 E 26, 38398585349358460 E 27, 61920340207419171 E 28, 95413183159761977 E 29, 14075544276290672 E 29, 19914291135850085 E 30, 27065219096686422 E 31, 35388205417406078 E 32, 44577254377034167 E 33, 54167913447375936 E 34, 63573166898583067 E 35, 72144570077957750 E 36, 79249382189415731 E 37, 84350350635952475 E 38, 87073779317667773 E 39, 87253860574001368 E 40, 84946282123575852 E 41, 80410443053925216 E 42, 74065591666308874 E 43, 66430453415303295 E 44, 58057682637165578 E 45, 49473714595595718 E 46, 41131902282837736 E 47, 33383133733824496 E 48, 26464417210865626 E 49, 20502956091034851 E 50, 15531426219258797 E 51, 11509571472168333 E 52, 83476308236412227 E 54, 59281404341868422 E 55, 41239359810101974 E 56, 28114030676677664 E 57, 18789908751954753 E 58, 12316365680406986 E 59, 79205727147682806 E 61, 49992007093272427 E 62, 30978674974546997 E 63, 18853257667035889 E 64, 11272215683337784 E 65, 66231528139569159 E 67, 38254420726498827 E 68, 21726228410663492 E 69, bnil.
Definition r679 := 73637609311138219 E 18, 62792786961153632 E 18, 45894109917403191 E 18, 28997418833463514 E 18, 15999863697337708 E 18, 77899411786712634 E 19, 33799295345418481 E 19, 13187947944232473 E 19, 46653897248754596 E 20, 15072962030126210 E 20, 44762420834529675 E 21, 12289143493438405 E 21, 31349833751654086 E 22, 74649483671746621 E 23, 16659448100169842 E 23, 34972016533482058 E 24, 69284261360218217 E 25, 12992532803568351 E 25, 23124427851236660 E 26, 39159273735691507 E 27, 63235604428573261 E 28, 97577179796685389 E 29, 14415141302304705 E 29, 20423699875968134 E 30, 27797054868906609 E 31, 36396955820047363 E 32, 45913518080034070 E 33, 55871637613269327 E 34, 65666876148012402 E 35, 74627766574786287 E 36, 82095232014217493 E 37, 87505445597522727 E 38, 90461238764999882 E 39, 90779434973202289 E 40, 88506581647916328 E 41, 83902063290440319 E 42, 77393814833963071 E 43, 69516368986137402 E 44, 60842935590265419 E 45, 51922553325909761 E 46, 43230653655595362 E 47, 35137591643665240 E 48, 27895842107087126 E 49, 21643436675203480 E 50, 16419275888827270 E 51, 12185266775682677 E 52, 88505983273173422 E 54, 62945060800309613 E 55, 43851970867540342 E 56, 29938813239484847 E 57, 20038749921930087 E 58, 13154163249016031 E 59, 84717305602391639 E 61, 53548980604946209 E 62, 33231407471496877 E 63, 20253856675537404 E 64, 12127358365223603 E 65, 71360427079850856 E 67, 41277195587596895 E 68, 23477341639232429 E 69, bnil.
Definition r680 := 73529320551832353 E 18, 62716367602309947 E 18, 45860334844930906 E 18, 28995533157507802 E 18, 16011991888672875 E 18, 78031909519113499 E 19, 33891829958751004 E 19, 13238705186207162 E 19, 46888038127057964 E 20, 15166956544426715 E 20, 45097771941009526 E 21, 12397034449973087 E 21, 31666260072770034 E 22, 75502707027822281 E 23, 16872440470170770 E 23, 35467109050351510 E 24, 70361134427523410 E 25, 13212644017004279 E 25, 23548784576484505 E 26, 39933476215242116 E 27, 64576145303682032 E 28, 99785919390440963 E 29, 14762256891384603 E 29, 20945134915723270 E 30, 28547246434057523 E 31, 37432498529946686 E 32, 47287253659751183 E 33, 57625670690531223 E 34, 67825530711564110 E 35, 77191700583777092 E 36, 85037873446341945 E 37, 90772587455852734 E 38, 93974095047834190 E 39, 94440836601129504 E 40, 92209427907419404 E 41, 87538769507161195 E 42, 80865386317758557 E 43, 72739890133205482 E 44, 63756631789963022 E 45, 54488060633558674 E 46, 45432605391687921 E 47, 36981009345983940 E 48, 29402045467813976 E 49, 22845251121644841 E 50, 17356241512131746 E 51, 12899384841358570 E 52, 93829445019544350 E 54, 66828390156180162 E 55, 46625288958674992 E 56, 31878678865850391 E 57, 21368296280457091 E 58, 14047409634793278 E 59, 90602274814342109 E 61, 57352494343396360 E 62, 35643812693895999 E 63, 21755928994543130 E 64, 13045801162707554 E 65, 76877062396732447 E 67, 44533257377806055 E 68, 25366367315440531 E 69, bnil.
Definition r681 := 73421349784755383 E 18, 62640126017776854 E 18, 45826580613928573 E 18, 28993591058945310 E 18, 16024064106936336 E 18, 78164138251087343 E 19, 33984323776858117 E 19, 13289511364280380 E 19, 47122723136854765 E 20, 15261296707924066 E 20, 45434812204733840 E 21, 12505616668167112 E 21, 31985150875761943 E 22, 76363763888593625 E 23, 17087687172886890 E 23, 35968141068432689 E 24, 71452457198507996 E 25, 13436023378781505 E 25, 23980051783387581 E 26, 40721403978972040 E 27, 65942395402034348 E 28, 10204023419175856 E 28, 15117042090002650 E 29, 21478855794063246 E 30, 29316217339512025 E 31, 38495491834975710 E 32, 48699437939805797 E 33, 59431399636033015 E 34, 70051018676885554 E 35, 79838840868387129 E 36, 88080412130787259 E 37, 94155540615478665 E 38, 97616750853824037 E 39, 98243040257764549 E 40, 96060258260190655 E 41, 91326316594146919 E 42, 84486210476588106 E 43, 76106894670288879 E 44, 66804454014662385 E 45, 57175576971620520 E 46, 47742639707025674 E 47, 38917732009219803 E 48, 30986794835837258 E 49, 24111584114099358 E 50, 18344949183368016 E 51, 13654039427919665 E 52, 99463310523826696 E 54, 70944158145974587 E 55, 49568902797371731 E 56, 33940673121605902 E 57, 22783614481689224 E 58, 14999672438693271 E 59, 96885242549631045 E 61, 61419182142224110 E 62, 38226913967537438 E 63, 23366639388961038 E 64, 14032113090493196 E 65, 82810031754999798 E 67, 48040180324355463 E 68, 27403912725260367 E 69, bnil.
Definition r682 := 73313695611834886 E 18, 62564061629831552 E 18, 45792847387568808 E 18, 28991592870616884 E 18, 16036080511569076 E 18, 78296097908336464 E 19, 34076776231277092 E 19, 13340366089186579 E 19, 47357950967025171 E 20, 15355982528313325 E 20, 45773544805217551 E 21, 12614892598445801 E 21, 32306518779076785 E 22, 77232706359359828 E 23, 17305206602686392 E 23, 36475169930980277 E 24, 72558390678628344 E 25, 13662712155149127 E 25, 24418326976577773 E 26, 41523271037820291 E 27, 67334793735501496 E 28, 10434097012284815 E 28, 15479650656705192 E 29, 22025127105705842 E 30, 30104400028033968 E 31, 39586608849668441 E 32, 50151071229950234 E 33, 61290246862206198 E 34, 72345279268718604 E 35, 82571726811586159 E 36, 91226047277167366 E 37, 97658188626046157 E 38, 10139375492947782 E 38, 10219119337286279 E 39, 10006470705070122 E 40, 95270676731466954 E 42, 88262423641749050 E 43, 79623500349500515 E 44, 69992325740101853 E 45, 59990677196617382 E 46, 50165860619018925 E 47, 40952308898498227 E 48, 32654040530406284 E 49, 25445779755197747 E 50, 19388160515402567 E 51, 14451456647592188 E 52, 10542510585873946 E 53, 75305848673176057 E 55, 52692955446191124 E 56, 36132259868138498 E 57, 24290079889329408 E 58, 16014742206414278 E 59, 10359239283865411 E 60, 65766769378087382 E 62, 40992475279849601 E 63, 25093645281460290 E 64, 15091184521484093 E 65, 89189989265219614 E 67, 51816830134741072 E 68, 29601381412427841 E 69, bnil.
Definition r683 := 73206356643172002 E 18, 62488173862952155 E 18, 45759135327087593 E 18, 28989538923649364 E 18, 16048041261853996 E 18, 78427788421433636 E 19, 34169186756787431 E 19, 13391268972204264 E 19, 47593720301309224 E 20, 15451014008681474 E 20, 46113972903358574 E 21, 12724864688494115 E 21, 32630376419581878 E 22, 78109586727088385 E 23, 17525017251252714 E 23, 36988253381676631 E 24, 73679097260007264 E 25, 13892752033421996 E 25, 24863708808316154 E 26, 42339294253331009 E 27, 68753785839067982 E 28, 10668898697030870 E 28, 15850239104694915 E 29, 22584218588488899 E 30, 30912236005393970 E 31, 40706537817697195 E 32, 51643177841655246 E 33, 63203671070264028 E 34, 74710304129624914 E 35, 85392970293428843 E 36, 94478074291482613 E 37, 10128453771705371 E 37, 10530980663818107 E 38, 10629062165885829 E 39, 10422861236348508 E 40, 99378047173579137 E 42, 92200402784647639 E 43, 83296074196448293 E 44, 73326420875276116 E 45, 62939180411650638 E 46, 52707603603156551 E 47, 43089502576955664 E 48, 34407924170237585 E 49, 26851349247255426 E 50, 20488779379217443 E 51, 15293980727955738 E 52, 11173331415196016 E 53, 79927702871857710 E 55, 56008175332938086 E 56, 38461345319014481 E 57, 25893394812939861 E 58, 17096645946942187 E 59, 11075158402267515 E 60, 70414142577769817 E 62, 43953049673993565 E 63, 26945129716519993 E 64, 16228249194791679 E 65, 96049789558629537 E 67, 55883456515848809 E 68, 31971031478899189 E 69, bnil.
Definition r684 := 73099331496982028 E 18, 62412462143810091 E 18, 45725444591802160 E 18, 28987429547463462 E 18, 16059946516912650 E 18, 78559209725783986 E 19, 34261554791403716 E 19, 13442219625162900 E 19, 47830029818359427 E 20, 15546391147519333 E 20, 46456099641390561 E 21, 12835535383204737 E 21, 32956736452342936 E 22, 78994457459986234 E 23, 17747137707694077 E 23, 37507449566049461 E 24, 74814740729154216 E 25, 14126185125101197 E 25, 25316297088995967 E 26, 43169693368524461 E 27, 70199823852150520 E 28, 10908515858026616 E 28, 16228966744977703 E 29, 23156405212023717 E 30, 31740176010760160 E 31, 41855982419844980 E 32, 53176806613889873 E 33, 65173168101219776 E 34, 77148138630087990 E 35, 88305257614645501 E 36, 97839887476515253 E 37, 10503872043028816 E 37, 10936976065129820 E 38, 11054683493761479 E 39, 10855802299503623 E 40, 10365485829730029 E 41, 96306774491466241 E 43, 87131242190492030 E 44, 76813173873378489 E 45, 66027160203967535 E 46, 55373445651535782 E 47, 45334298504359636 E 48, 36252787577776970 E 49, 28331978928590132 E 50, 21649858965793216 E 51, 16184080058433637 E 52, 11840742606426717 E 53, 84824760221871174 E 55, 59525908944601229 E 56, 40936303435192614 E 57, 27599607787508558 E 58, 18249661445628801 E 59, 11839245271665883 E 60, 75381423334675944 E 62, 47122030715110791 E 63, 28929836468950716 E 64, 17448907690130173 E 65, 10342464168885887 E 66, 60261792149525767 E 68, 34526038045952981 E 69, bnil.
Definition r685 := 72992618799535378 E 18, 62336925901262358 E 18, 45691775339128514 E 18, 28985265069781708 E 18, 16071796435701943 E 18, 78690361761587155 E 19, 34353879776368554 E 19, 13493217660449754 E 19, 48066878191793102 E 20, 15642113938733673 E 20, 46799928142836490 E 21, 12946907124626282 E 21, 33285611550402383 E 22, 79887371207066798 E 23, 17971586658651077 E 23, 38032817032884954 E 24, 75965486274694639 E 25, 14363053969006522 E 25, 25776192797708697 E 26, 44014691039014295 E 27, 71673366600714168 E 28, 11153037305576428 E 28, 16615995730080718 E 29, 23741967267669029 E 30, 32588680189905046 E 31, 43035662087563558 E 32, 54753031449276365 E 33, 67200271805046128 E 34, 79660883208606485 E 35, 91311351467285279 E 36, 10131498280250173 E 36, 10892499935245752 E 37, 11357863177597411 E 38, 11496553314602408 E 39, 11305920565052515 E 40, 10810778192177827 E 41, 10058842425506592 E 42, 91135899302179381 E 44, 80459290231483958 E 45, 69260955292004777 E 46, 58169215749302193 E 47, 47691915049417917 E 48, 38193182081041695 E 49, 29891538681143243 E 50, 22874609185245783 E 51, 17124353534946285 E 52, 12546799283539611 E 53, 90012901819511130 E 55, 63258155286246546 E 56, 43566002730801970 E 57, 29415133954002760 E 58, 19478332417017840 E 59, 12654652403432062 E 60, 80690046793519712 E 62, 50513707218026649 E 63, 31057107432407894 E 64, 18759152463578184 E 65, 11135227351248073 E 66, 64975158563177849 E 68, 37280560165143081 E 69, bnil.
Definition r686 := 72886217185099259 E 18, 62261564566343991 E 18, 45658127724598978 E 18, 28983045816636275 E 18, 16083591177010942 E 18, 78821244473799377 E 19, 34446161156145368 E 19, 13544262691016632 E 19, 48304264090244552 E 20, 15738182371659382 E 20, 47145461512462818 E 21, 13058982351911704 E 21, 33617014404556568 E 22, 80788380797709162 E 23, 18198382888401341 E 23, 38564414735635178 E 24, 77131500495104547 E 25, 14603401534420205 E 25, 26243498092872122 E 26, 44874512864369738 E 27, 73174879680186782 E 28, 11402553295642212 E 28, 17011491098346795 E 29, 24341190459840458 E 30, 33458218271265801 E 31, 44246312322202503 E 32, 56372951860797450 E 33, 69286554928316788 E 34, 82250694742394081 E 35, 94414092953455991 E 36, 10490696074975398 E 36, 11294777095056695 E 37, 11794159992332853 E 38, 11955261252556803 E 39, 11773865237212065 E 40, 11274373990910588 E 41, 10505250609469907 E 42, 95317219900328735 E 44, 84271757393151652 E 45, 72647180597485012 E 46, 61101005785550232 E 47, 50167813932806555 E 48, 40233878230030551 E 49, 31534090725849219 E 50, 24166404418679636 E 51, 18117537216863961 E 52, 13293668202336177 E 53, 95508895912585241 E 55, 67217602196820954 E 56, 46359834565183213 E 57, 31346776601719010 E 58, 20787484545115319 E 59, 13524732844090359 E 60, 86362844977011129 E 62, 54143321437016558 E 63, 33336922431720874 E 64, 20165394545656823 E 65, 11987310724241404 E 66, 70048579362931033 E 68, 40249812487865159 E 69, bnil.
Definition r687 := 72780125295879641 E 18, 62186377572260157 E 18, 45624501901879569 E 18, 28980772112376908 E 18, 16095330899457694 E 18, 78951857812096238 E 19, 34538398378411166 E 19, 13595354330386601 E 19, 48542186177417425 E 20, 15834596431071811 E 20, 47492702836234726 E 21, 13171763501266963 E 21, 33950957723133059 E 22, 81697539241213729 E 23, 18427545278962169 E 23, 39102302033821548 E 24, 78312951406454258 E 25, 14847271224242669 E 25, 26718316322922147 E 26, 45749387419726518 E 27, 74704835539181647 E 28, 11657155550038452 E 28, 17415620818812302 E 29, 24954365998673568 E 30, 34349269744900682 E 31, 45488685020001682 E 32, 58037693529243462 E 33, 71433630020688012 E 34, 84919787949324401 E 35, 97616403653237995 E 36, 10861952922495495 E 36, 11711156951266159 E 37, 12246401522084748 E 38, 12431417200111580 E 39, 12260308820591623 E 40, 11756991305449314 E 41, 10970645251445966 E 42, 99682668541656402 E 44, 88257856068630603 E 45, 76192738758717967 E 46, 64175181915869519 E 47, 52767711118623566 E 48, 42379875945389472 E 49, 33263898822900333 E 50, 25528791638905243 E 51, 19166511311042345 E 52, 14083633606894386 E 53, 10133044581414275 E 54, 71417664618454071 E 56, 49327743000822484 E 57, 33401749936490132 E 58, 22182242461425134 E 59, 14453052561986914 E 60, 92424135244261180 E 62, 58027130930215841 E 63, 35779941611672381 E 64, 21674492009017479 E 65, 12903044691289438 E 66, 75508901327743066 E 68, 43450142023158029 E 69, bnil.
Definition r688 := 72674341781963830 E 18, 62111364354378633 E 18, 45590898022787103 E 18, 28978444279678703 E 18, 16107015761486102 E 18, 79082201730835029 E 19, 34630590894049232 E 19, 13646492192660594 E 19, 48780643112136406 E 20, 15931356097199123 E 20, 47841655181271891 E 21, 13285253005899774 E 21, 34287454231767021 E 22, 82614899726350389 E 23, 18659092810190390 E 23, 39646538694431964 E 24, 79510008450157014 E 25, 15094706878159393 E 25, 27200752037066681 E 26, 46639546287644500 E 27, 76263713564028266 E 28, 11916937276857745 E 28, 17828555836673411 E 29, 25581790694055267 E 30, 35262324044379256 E 31, 46763548802934190 E 32, 59748408871581129 E 33, 73643150360571161 E 34, 87670436821758050 E 35, 10092128774285730 E 35, 11245650655287403 E 36, 12142107119660331 E 37, 12715140327285108 E 38, 12925651975434747 E 39, 12765947911463478 E 40, 12259375027516077 E 41, 11455798481171991 E 42, 10424001115624930 E 43, 92425171987842772 E 45, 79904832101826131 E 46, 67398396394356193 E 47, 55497588172659087 E 48, 44636415117733419 E 49, 35085437894773036 E 50, 26965498916870669 E 51, 20274307498391934 E 52, 14919103382319554 E 53, 10749624031463609 E 54, 75872524920670716 E 56, 52480256310912112 E 57, 35587703142214272 E 58, 23668047713824810 E 59, 15443403576143373 E 60, 98899814187399909 E 62, 62182474323898730 E 63, 38397550564182391 E 64, 23293780319752609 E 65, 13887067854217042 E 66, 81384923895644893 E 68, 46899110335571037 E 69, bnil.
Definition r689 := 72568865301263580 E 18, 62036524350222090 E 18, 45557316237306217 E 18, 28976062639549952 E 18, 16118645921362876 E 18, 79212276189017800 E 19, 34722738157141747 E 19, 13697675892523956 E 19, 49019633548399294 E 20, 16028461345734819 E 20, 48192321595805035 E 21, 13399453295968585 E 21, 34626516673177360 E 22, 83540515620901728 E 23, 18893044559879987 E 23, 40197184893313919 E 24, 80722842500725204 E 25, 15345752775819492 E 25, 27690910996102836 E 26, 47545224090215538 E 27, 77852000164121176 E 28, 12181993191129396 E 28, 18250470119347750 E 29, 26223767051041555 E 30, 36197880731649525 E 31, 48071689355493601 E 32, 61506277620436915 E 33, 75916810900365203 E 34, 90504976092912413 E 35, 10433183416423651 E 35, 11642182454529902 E 36, 12588109818962358 E 37, 13200947057302911 E 38, 13438617999735569 E 39, 13291504014350444 E 40, 12782297810740371 E 41, 11961512374716890 E 42, 10899732664263688 E 43, 96781608101851733 E 45, 83790975087226607 E 46, 70777599893586010 E 47, 58363704106599725 E 48, 47008986676779630 E 49, 37003404090641182 E 50, 28480444331399916 E 51, 21444116619136183 E 52, 15802615518232317 E 53, 11402600671811681 E 54, 80597175386015482 E 56, 55828520224602091 E 57, 37912745806763387 E 58, 25250677782265046 E 59, 16499817870387964 E 60, 10581745729065411 E 61, 66627841215248470 E 63, 41201908365737062 E 64, 25031104693481651 E 65, 14944348382953740 E 66, 87707537608215705 E 68, 50615581558615089 E 69, bnil.
Definition r690 := 72463694519458610 E 18, 61961856999460413 E 18, 45523756693606261 E 18, 28973627511339927 E 18, 16130221537174451 E 18, 79342081150254318 E 19, 34814839624962273 E 19, 13748905045252934 E 19, 49259156135428544 E 20, 16125912147850271 E 20, 48544705109133321 E 21, 13514366798531723 E 21, 34968157806942436 E 22, 84474440471200506 E 23, 19129419703857101 E 23, 40754301216561405 E 24, 81951625873532080 E 25, 15600453640025620 E 25, 28188900183296967 E 26, 48466658521420774 E 27, 79470188858088187 E 28, 12452419535712644 E 28, 18681540703137006 E 29, 26880603366677809 E 30, 37156449684922080 E 31, 49413909767516740 E 32, 63312507414883786 E 33, 78256349231615251 E 34, 93425802736438322 E 35, 10785121884705806 E 35, 12051953164901312 E 36, 13049662298145160 E 37, 13704411007312625 E 38, 13970989995210974 E 39, 13837724384689432 E 40, 13326561052154515 E 41, 12488620058842206 E 42, 11396301888665702 E 43, 10133539724905589 E 44, 87859007249315941 E 46, 74320054331734162 E 47, 61372607728024166 E 48, 49503344150219696 E 49, 39022725311583318 E 50, 30077745300595912 E 51, 22679296733642047 E 52, 16736844898102657 E 53, 12094056663412940 E 54, 85607462968898756 E 56, 59384333002534547 E 57, 40385474787095601 E 58, 26936266200331906 E 59, 17626582138275770 E 60, 11320642469484555 E 61, 71382946466387796 E 63, 44205998707361791 E 64, 26894854584927942 E 65, 16080206827686864 E 66, 94509872116521433 E 68, 54619816624532070 E 69, bnil.
Definition r691 := 72358828109940626 E 18, 61887361743902983 E 18, 45490219538058013 E 18, 28971139212746674 E 18, 16141742766824032 E 18, 79471616582725366 E 19, 34906894757968454 E 19, 13800179266721035 E 19, 49499209517722925 E 20, 16223708470207473 E 20, 48898808731582548 E 21, 13629995937496789 E 21, 35312390409275213 E 22, 85416728001661297 E 23, 19368237516072705 E 23, 41317948661897158 E 24, 83196532332579956 E 25, 15858854639935323 E 25, 28694827815327856 E 26, 49404090379739770 E 27, 81118780360786554 E 28, 12728314102426776 E 28, 19121947740497277 E 29, 27552613828239112 E 30, 38138551289613772 E 31, 50791030883137736 E 32, 65168334402728657 E 33, 80663546570475140 E 34, 96435377499886736 E 35, 11148270698449939 E 35, 12475379617468805 E 36, 13527277275388528 E 37, 14226140691196480 E 38, 14523465704162909 E 39, 14405382898351894 E 40, 13892995906479341 E 41, 13037986853954846 E 42, 11914582921877998 E 43, 10609511530290856 E 44, 92117106647953142 E 46, 78033346226746115 E 47, 64531150516826593 E 48, 52125515733069422 E 49, 41148572216809638 E 50, 31761728354069686 E 51, 23983381576471596 E 52, 17724610430246780 E 53, 12826189466333673 E 54, 90920136445056859 E 56, 63160182440021268 E 57, 43015002592362586 E 58, 28731323844933111 E 59, 18828253406865342 E 60, 12109797343005768 E 61, 76468809157416709 E 63, 47423684310523557 E 64, 28894000447731568 E 65, 17300340468172305 E 66, 10182745439126248 E 67, 58933574137999082 E 69, bnil.
Definition r692 := 72254264753757846 E 18, 61813038027491010 E 18, 45456704915250182 E 18, 28968598059824699 E 18, 16153209768028656 E 18, 79600882459146070 E 19, 34998903019794257 E 19, 13851498173405399 E 19, 49739792335108766 E 20, 16321850274971775 E 20, 49254635454463876 E 21, 13746343133570157 E 21, 35659227272798169 E 22, 86367432114306631 E 23, 19609517368692686 E 23, 41888188640049307 E 24, 84457737098273844 E 25, 16121001394273613 E 25, 29208803353292819 E 26, 50357763601011347 E 27, 82798282671129699 E 28, 13009776253419879 E 28, 19571874547922756 E 29, 28240118612907199 E 30, 39144716632392865 E 31, 52203891655966172 E 32, 67075023854495689 E 33, 83140228763853730 E 34, 99536226472752933 E 35, 11522965536381955 E 35, 12912890960860021 E 36, 14021483388973400 E 37, 14766764430908908 E 38, 15096766629885232 E 39, 14995280948822772 E 40, 14482464334230209 E 41, 13610511456923805 E 42, 12455484932502474 E 43, 11106969481853022 E 44, 96573803850991513 E 46, 81925400598202004 E 47, 67846500049498164 E 48, 54881816889067547 E 49, 43386369731979437 E 50, 33536939365987463 E 51, 25360089422095636 E 52, 18768882537038790 E 53, 13601318012154783 E 54, 96552896074847058 E 56, 67169284900209954 E 57, 45810987367964119 E 58, 30642761459754994 E 59, 20109675590107036 E 60, 12952537650007951 E 61, 81907836482021360 E 63, 50869764834075062 E 64, 31038132909749852 E 65, 18610849300951443 E 66, 10969837782188210 E 67, 63580218349999325 E 69, bnil.
Definition r693 := 72150003139559993 E 18, 61738885296289951 E 18, 45423212968005902 E 18, 28966004366992756 E 18, 16164622698316249 E 18, 79729878756729568 E 19, 35090863877242479 E 19, 13902861382393058 E 19, 49980903222791374 E 20, 16420337519824782 E 20, 49612188250033575 E 21, 13863410804206720 E 21, 36008681206317681 E 22, 87326606888287749 E 23, 19853278732185549 E 23, 42465082976122743 E 24, 85735416855200750 E 25, 16386939974556968 E 25, 29730937513777167 E 26, 51327925291547629 E 27, 84509211160751121 E 28, 13296906942778401 E 28, 20031507654449664 E 29, 28943443988901944 E 30, 40175487698368740 E 31, 53653349510587522 E 32, 69033870789307292 E 33, 85688267316635590 E 34, 10273094268980731 E 34, 11909551475300549 E 35, 13364929000912471 E 36, 14532825660413543 E 37, 15326930962743130 E 38, 15691638799935881 E 39, 15608248372863138 E 40, 15095860184704504 E 41, 14207127165073459 E 42, 13019953462710612 E 43, 11626843919618523 E 44, 10123799646780882 E 45, 86004495438291749 E 47, 71326153993536925 E 48, 57778863506571546 E 49, 45741809081568250 E 50, 35408154269800752 E 51, 26813332381544683 E 52, 19872791019662888 E 53, 14421889195379930 E 54, 10252444590973506 E 55, 71425626484839345 E 57, 48783664567886526 E 58, 32677913481707853 E 59, 21475997025439137 E 60, 13852404922429294 E 61, 87723912885964042 E 63, 54560038489786021 E 64, 33337504518127611 E 65, 20018263771642710 E 66, 11816348293408905 E 67, 68584834718590827 E 69, bnil.
Definition r694 := 72046041963543736 E 18, 61664902998481645 E 18, 45389743837398931 E 18, 28963358447041485 E 18, 16175981715022800 E 18, 79858605457150920 E 19, 35182776800276984 E 19, 13954268511387105 E 19, 50222540811406026 E 20, 16519170157977325 E 20, 49971470071453388 E 21, 13981201363559811 E 21, 36360765034597926 E 22, 88294306579398803 E 23, 20099541175407531 E 23, 43048693910964594 E 24, 87029749759913463 E 25, 16656716908328257 E 25, 30261342279986450 E 26, 52314825761502160 E 27, 86252088663509683 E 28, 13589808738379334 E 28, 20501036850786132 E 29, 29662922418084214 E 30, 41231417571468785 E 31, 55140280710482430 E 32, 71046200612865381 E 33, 88309580440367001 E 34, 10602218777042536 E 34, 12308383234470285 E 35, 13831948548999442 E 36, 15061865970131149 E 37, 15907310060949523 E 38, 16308853552425037 E 39, 16245144405503310 E 40, 15734110314942147 E 41, 14828803142705707 E 42, 13608971814794545 E 43, 12170103738019231 E 44, 10611896425448243 E 45, 90279276774107145 E 47, 74977954695111102 E 48, 60823585632296598 E 49, 48220860368155699 E 50, 37380390276424843 E 51, 28347226150134184 E 52, 21039633316534330 E 53, 15290484699740709 E 54, 10885454887773007 E 55, 75944006455675074 E 57, 51943880407257217 E 58, 34844563243328452 E 59, 22932689050174667 E 60, 14813168326591870 E 61, 93942494766443506 E 63, 58511367597152242 E 64, 35803074217983713 E 65, 21529574366288512 E 66, 12726655050275771 E 67, 73974353575765403 E 69, bnil.
Definition r695 := 71942379929398712 E 18, 61591090584356863 E 18, 45356297662769850 E 18, 28960660611141151 E 18, 16187286975289549 E 18, 79987062546510810 E 19, 35274641262015099 E 19, 14005719178712805 E 19, 50464703727068935 E 20, 16618348138182454 E 20, 50332483852751578 E 21, 14099717222431307 E 21, 36715491598134519 E 22, 89270585619586515 E 23, 20348324365685230 E 23, 43639084102524628 E 24, 88340915448719948 E 25, 16930379182403120 E 25, 30800130912942272 E 26, 53318718558493033 E 27, 88027445565842776 E 28, 13888585843987203 E 28, 20980655239075068 E 29, 30398892660048382 E 30, 42313070638046945 E 31, 56665580732464370 E 32, 73113369767740075 E 33, 91006134123811895 E 34, 10941269359465159 E 34, 12719825425868798 E 35, 14314417779236356 E 36, 15609183545990556 E 37, 16508593179167642 E 38, 16949208345967323 E 39, 16906858665237816 E 40, 16398175745783171 E 41, 15476545731545536 E 42, 14223562487921305 E 43, 12737757911248007 E 44, 11122638481200109 E 45, 94758774344286385 E 47, 78810104383998931 E 48, 64023241807186017 E 49, 50829785722465693 E 50, 39458917618577402 E 51, 29966100227307144 E 52, 22272883174360090 E 53, 16209828176053721 E 54, 11556408479025381 E 55, 80740083025497744 E 57, 55303127191887029 E 58, 37150969628061610 E 59, 24485565677415942 E 60, 15838838880010379 E 61, 10059071106902163 E 62, 62741748322104532 E 64, 38446554738708829 E 65, 23152263182974493 E 66, 13705450788770624 E 67, 79777682454172065 E 69, bnil.
Definition r696 := 71839015748253743 E 18, 61517447506307492 E 18, 45322874581741904 E 18, 28957911168849233 E 18, 16198538636060196 E 18, 80115250015300055 E 19, 35366456738719675 E 19, 14057213003323668 E 19, 50707390591428025 E 20, 16717871404748678 E 20, 50695232508784891 E 21, 14218960788221960 E 21, 37072873752927864 E 22, 90255498616454147 E 23, 20599648068895975 E 23, 44236316627209906 E 24, 89669095045477640 E 25, 17207974246127330 E 25, 31347417962741357 E 26, 54339860501482311 E 27, 89835819897971883 E 28, 14193344121597908 E 28, 21470559283296006 E 29, 31151699877722112 E 30, 43421022793768035 E 31, 58230164647735653 E 32, 75236766396174601 E 33, 93779943225783747 E 34, 11290526401673780 E 34, 13144252810415790 E 35, 14812818594775262 E 36, 16175375465011077 E 37, 17131494110144195 E 38, 17613527593962615 E 39, 17594312170317353 E 40, 17089052856179315 E 41, 16151399806547656 E 42, 14864788666810349 E 43, 13330857076064727 E 44, 11657034989965789 E 45, 99452417913898110 E 47, 82831181020754878 E 48, 67385434029675865 E 49, 53575153048980925 E 50, 41649271844968418 E 51, 31674508630578321 E 52, 23576199751688715 E 53, 17182792789081103 E 54, 12267511141996417 E 55, 85830421643569282 E 57, 58873580626651583 E 58, 39605895259499998 E 59, 26140804434554607 E 60, 16933684530124809 E 61, 10769747013857817 E 62, 67270384858977468 E 64, 41280463072623424 E 65, 24894337612619387 E 66, 14757764947357906 E 67, 86025847664294513 E 69, bnil.
Definition r697 := 71735948138623856 E 18, 61443973218818920 E 18, 45289474730236944 E 18, 28955110428118096 E 18, 16209736854078172 E 18, 80243167858363839 E 19, 35458222709791390 E 19, 14108749604807437 E 19, 50950600021713714 E 20, 16817739897553117 E 20, 51059718935201207 E 21, 14338934464881914 E 21, 37432924370255870 E 22, 91249100352759366 E 23, 20853532149545282 E 23, 44840454981233554 E 24, 91014471169390924 E 25, 17489550014645148 E 25, 31903319279877649 E 26, 55378511714912183 E 27, 91677757425965392 E 28, 14504191114031178 E 28, 21970948860312520 E 29, 31921695744490965 E 30, 44555861653811936 E 31, 59834967509662847 E 32, 77417811015618956 E 33, 96633072590666434 E 34, 11650277661691340 E 34, 13582050560313853 E 35, 15327647003399499 E 36, 16761057168587030 E 37, 17776749664221031 E 38, 18302663523886966 E 39, 18308458387056649 E 40, 17807774616949335 E 41, 16854450178544973 E 42, 15533755764109778 E 43, 13950495174105309 E 44, 12216138238655097 E 45, 10437005425232884 E 46, 87050154812007268 E 48, 70918123372623486 E 49, 56463850392983744 E 50, 43957266689053534 E 51, 33477241126544602 E 52, 24953437175714408 E 53, 18212409151678793 E 54, 13021092880642322 E 55, 91232545906852498 E 57, 62668139209896275 E 58, 42218636310033251 E 59, 27904968430912492 E 60, 18102246145630335 E 61, 11529357320163172 E 62, 72117768330693342 E 64, 44318174242140999 E 65, 26764366265984548 E 66, 15888987215215544 E 67, 92752145751858892 E 69, bnil.
Definition r698 := 71633175826357448 E 18, 61370667178462394 E 18, 45256098242491098 E 18, 28952258695302571 E 18, 16220881785883930 E 18, 80370816074866198 E 19, 35549938657760791 E 19, 14160328603391964 E 19, 51194330630789176 E 20, 16917953552054904 E 20, 51425946008402856 E 21, 14459640652861402 E 21, 37795656336446522 E 22, 92251445785906959 E 23, 21109996570842197 E 23, 45451563081958119 E 24, 92377227942814182 E 25, 17775154872178767 E 25, 32467952026627982 E 26, 56434935663098919 E 27, 93553811744664450 E 28, 14821236067773963 E 28, 22482027311571617 E 29, 32709238552866418 E 30, 45718186766443061 E 31, 61480944748374397 E 32, 79657957207207108 E 33, 99567638187046014 E 34, 12020818449215660 E 34, 14033614527634130 E 35, 15859413502635399 E 36, 17366862991551159 E 37, 18445120367089076 E 38, 19017497062293538 E 39, 19050284311104015 E 40, 18555411865203727 E 41, 17586823045266344 E 42, 16231613018304412 E 43, 14597811155816575 E 44, 12801045386493242 E 45, 10952196479985892 E 46, 91476405420793489 E 48, 74629646281225077 E 49, 59503100955952847 E 50, 46389007538128627 E 51, 35379335002952560 E 52, 26408654574060718 E 53, 19301873665389819 E 54, 13819614695422805 E 55, 96964991234930344 E 57, 66700465826662377 E 58, 44999054018962588 E 59, 29785029724769152 E 60, 19349354473965426 E 61, 12341183487945161 E 62, 77305760698633205 E 64, 47573978563666840 E 65, 28771517292609453 E 66, 17104892684613270 E 67, 99992305506982132 E 69, bnil.
Definition r699 := 71530697544584146 E 18, 61297528843887360 E 18, 45222745251070270 E 18, 28949356275167551 E 18, 16231973587812341 E 18, 80498194668254877 E 19, 35641604068280285 E 19, 14211949619951057 E 19, 51438581027200727 E 20, 17018512299308482 E 20, 51793916585510599 E 21, 14581081749061601 E 21, 38161082552649915 E 22, 93262590047436101 E 23, 21369061394771894 E 23, 46069705269232721 E 24, 93757550999057217 E 25, 18064837675318517 E 25, 33041434688500805 E 26, 57509399184885749 E 27, 95464544371476559 E 28, 15144589956076584 E 28, 23004001495461738 E 29, 33514693324715130 E 30, 46908609829991037 E 31, 63169072572284556 E 32, 81958692317397035 E 33, 10258580826988026 E 33, 12402451808675180 E 34, 14499351519282174 E 35, 16408643474602158 E 36, 17993446705424545 E 37, 19137391177316209 E 38, 19758938746240830 E 39, 19820811582642982 E 40, 19333074620699012 E 41, 18349687492296929 E 42, 16959555149047420 E 43, 15273990748210535 E 44, 13412900294998132 E 45, 11491888404955177 E 46, 96119739899867682 E 48, 78528731580333942 E 49, 62700478787357674 E 50, 48950905529650451 E 51, 37386087406881140 E 52, 27946126604268754 E 53, 20454557287551087 E 54, 14665675709631116 E 55, 10304736145355770 E 56, 70985031659417999 E 58, 47957608014977165 E 59, 31788394063904106 E 60, 20680148121562453 E 61, 13208721115470051 E 62, 82857683991132546 E 64, 51063142629263885 E 65, 30925599246561760 E 66, 18411668713794225 E 67, 10778466124097427 E 68, bnil.
Definition r700 := 71428512033662919 E 18, 61224557675813807 E 18, 45189415886885576 E 18, 28946403470895537 E 18, 16243012415990039 E 18, 80625303646226255 E 19, 35733218430116283 E 19, 14263612276010284 E 19, 51683349815228197 E 20, 17119416065977227 E 20, 52163633504328804 E 21, 14703260146785844 E 21, 38529215934610306 E 22, 94282588442502279 E 23, 21630746782165802 E 23, 46694946306724836 E 24, 95155627490195968 E 25, 18358647756324226 E 25, 33623887085748825 E 26, 58602172528556065 E 27, 97410524841043822 E 28, 15474365502303976 E 28, 23537081840336246 E 29, 34338431923068827 E 30, 48127754913289034 E 31, 64900348376649711 E 32, 84321538172996740 E 33, 10568980456664311 E 33, 12795488706343234 E 34, 14979679578482173 E 35, 16975877590826359 E 36, 18641482076205170 E 37, 19854372224169886 E 38, 20527929661885441 E 39, 20621097636524454 E 40, 20141913445419582 E 41, 19144257045603580 E 42, 17718824071868760 E 43, 15980268288706648 E 44, 14052895429144561 E 45, 12057201867206545 E 46, 10099041137698885 E 47, 82624518220726828 E 49, 66063925182056342 E 50, 51649692302823529 E 51, 39503068275212255 E 52, 29570354504760247 E 53, 21674014745936477 E 54, 15562020670358923 E 55, 10950038843911549 E 56, 75537162541168257 E 58, 51105391542983153 E 59, 33922927077877571 E 60, 22100092616679424 E 61, 14135693523899987 E 62, 88798415178031642 E 64, 54801974240687282 E 65, 33237104663640057 E 66, 19815943613574581 E 67, 11617033809398665 E 68, bnil.
Definition r701 := 71326618041130732 E 18, 61151753137024673 E 18, 45156110279208614 E 18, 28943400584094135 E 18, 16253998426332874 E 18, 80752143020690493 E 19, 35824781235141091 E 19, 14315316193752657 E 19, 51928635594934670 E 20, 17220664774346910 E 20, 52535099583310705 E 21, 14826178235690860 E 21, 38900069412437266 E 22, 95311496449353264 E 23, 21895072992769344 E 23, 47327351383245722 E 24, 96571646094884825 E 25, 18656634926437044 E 25, 34215430384944481 E 26, 59713529387006539 E 27, 99392330800788219 E 28, 15810677203543739 E 28, 24081482398208415 E 29, 35180833165531899 E 30, 49376258679615192 E 31, 66675791159261875 E 32, 86748051809797205 E 33, 10888190348788047 E 33, 13200248221591675 E 34, 15475028272919893 E 35, 17561672227250983 E 36, 19311663437053027 E 37, 20596899566266321 E 38, 21325442410993039 E 39, 21452236888353046 E 40, 20983120847720633 E 41, 19971791277295192 E 42, 18510710674274440 E 43, 16717928627404702 E 44, 14722273832347952 E 45, 12649306741199732 E 46, 10609913852229756 E 47, 86926573795031256 E 49, 69601765813700820 E 50, 54492435434688069 E 51, 41736133884719212 E 52, 31286077692134691 E 53, 22963994222953983 E 54, 16511547843100020 E 55, 11634599498391529 E 56, 80373087882310130 E 58, 54454168700628455 E 59, 36196982004579267 E 60, 23615000618016695 E 61, 15126066181482480 E 62, 95154487038255333 E 64, 58807891544758124 E 65, 35717256525004826 E 66, 21324817278160092 E 67, 12519345018698005 E 68, bnil.
Definition r702 := 71225014321651584 E 18, 61079114692358140 E 18, 45122828555686563 E 18, 28940347914803620 E 18, 16264931774543356 E 18, 80878712807736751 E 19, 35916291978324751 E 19, 14367060996024253 E 19, 52174436962216467 E 20, 17322258342339421 E 20, 52908317621524977 E 21, 14949838401738290 E 21, 39273655930377191 E 22, 96349369718800878 E 23, 22162060385307050 E 23, 47966986114070388 E 24, 98005797026173909 E 25, 18958849479202465 E 25, 34816187110619429 E 26, 60843746933182823 E 27, 10141054810734218 E 27, 16153641354473391 E 28, 24637420899125307 E 29, 36042282939307190 E 30, 50654770614185827 E 31, 68496441943389871 E 32, 89239826215045318 E 33, 11216443736263207 E 33, 13617057742366956 E 34, 15985838989688274 E 35, 18166599889675338 E 36, 20004706276240468 E 37, 21365835971593367 E 38, 22152482106143761 E 39, 22315361957581777 E 40, 21857932732406631 E 41, 20833597466341247 E 42, 19336556655317425 E 43, 17488309100212100 E 44, 15422331177994327 E 45, 13269424178543243 E 46, 11145712582904784 E 47, 91444913855256634 E 49, 73322728635816023 E 50, 57486554591201779 E 51, 44091441050318065 E 52, 33098285930801521 E 53, 24328447532459766 E 54, 17517317319927202 E 55, 12360736105038058 E 56, 85509992309428448 E 58, 58016413795505995 E 59, 38619429038121133 E 60, 25231053335900794 E 61, 16184062015265981 E 62, 10195419538810319 E 63, 63099496634283385 E 65, 38378057793191491 E 66, 22945893888423879 E 67, 13490131248503452 E 68, bnil.
Definition r703 := 71123699636966117 E 18, 61006641808700142 E 18, 45089570842357242 E 18, 28937245761504388 E 18, 16275812616108210 E 18, 81005013027598775 E 19, 36007750157726970 E 19, 14418846306339811 E 19, 52420752508852773 E 20, 17424196683526498 E 20, 53283290398622532 E 21, 15074243027146433 E 21, 39649988446583756 E 22, 97396264073685039 E 23, 22431729417544963 E 23, 48613916542250456 E 24, 99458272039326347 E 25, 19265342193803339 E 25, 35426281156966592 E 26, 61993105855776272 E 27, 10346577092386607 E 27, 16503376071488398 E 28, 25205118806226259 E 29, 36923174317856764 E 30, 51963953255246026 E 31, 70363364208073640 E 32, 91798491083982283 E 33, 11553979569916728 E 33, 14046253164972068 E 34, 16512565237181037 E 35, 18791249649865325 E 36, 20721347840742043 E 37, 22162071719464336 E 38, 23010087395424929 E 39, 23211644928695202 E 40, 22767629898156486 E 41, 21731032316021336 E 42, 20197756430784612 E 43, 18292801575327549 E 44, 16154417900336504 E 45, 13918828760943512 E 46, 11707608474013868 E 47, 96190022065123982 E 49, 77235962583510055 E 50, 60639838425099462 E 51, 46575462001282340 E 52, 35012232102133031 E 53, 25771540813338551 E 54, 18582559762147258 E 55, 13130899359056630 E 56, 90966070161386513 E 58, 61805352939935489 E 59, 41199686389925202 E 60, 26954823236583325 E 61, 17314177663336736 E 62, 10922771305979862 E 63, 67696653894854118 E 65, 41232344218094766 E 66, 24687316824112445 E 67, 14534466729594739 E 68, bnil.
Definition r704 := 71022672755841398 E 18, 60934333954976591 E 18, 45056337263663870 E 18, 28934094421124403 E 18, 16286641106295872 E 18, 81131043704620633 E 19, 36099155274488945 E 19, 14470671748888215 E 19, 52667580822555289 E 20, 17526479707143526 E 20, 53660020674804518 E 21, 15199394490342177 E 21, 40029079932888830 E 22, 98452235508335709 E 23, 22704100646350953 E 23, 49268209139922569 E 24, 10092926443964183 E 24, 19576164338404434 E 25, 36045837799607058 E 26, 63161890395186659 E 27, 10555860181826341 E 27, 16860001317093998 E 28, 25784801371494391 E 29, 37823907679219646 E 30, 53304482428808932 E 31, 72277644325888294 E 32, 94425713590690411 E 33, 11901042647150887 E 33, 14488179098241172 E 34, 17055672954084775 E 35, 19436227592581136 E 36, 21462347755849641 E 37, 22986525424977629 E 38, 23899331517428386 E 39, 24142298651594177 E 40, 23713539583751496 E 41, 22665503729935986 E 42, 21095759106216294 E 43, 19132854575670425 E 44, 16919941407678022 E 45, 14598850739536803 E 46, 12296825565414246 E 47, 10117287122171865 E 48, 81351057110142565 E 50, 63960462253680760 E 51, 49194999966545258 E 52, 37033445601571237 E 53, 27297665765143856 E 54, 19710685599360160 E 55, 13947680011637018 E 56, 96760582995603028 E 58, 65835008006464893 E 59, 43947753159902675 E 60, 28793298104184131 E 61, 18521200723643446 E 62, 11700721104301752 E 63, 72620573394955103 E 65, 44293840622869448 E 66, 26557805930190150 E 67, 15657792638868317 E 68, bnil.
Definition r705 := 70921932454021328 E 18, 60862190602145858 E 18, 45023127942469904 E 18, 28930894189046624 E 18, 16297417400154102 E 18, 81256804867222473 E 19, 36190506832825065 E 19, 14522536948537960 E 19, 52914920487017456 E 20, 17629107318103455 E 20, 54038511190790767 E 21, 15325295165913100 E 21, 40410943374572583 E 22, 99517340188026479 E 23, 22979194727752139 E 23, 49929930809608995 E 24, 10241896909027912 E 24, 19891367673506785 E 25, 36674983707419115 E 26, 64350388379746955 E 27, 10768965186229268 E 27, 17223638924561798 E 28, 26376697692206130 E 29, 38744890826002835 E 30, 54677047487088990 E 31, 74240392008283767 E 32, 97123199173477388 E 33, 12257883743220360 E 33, 14943189072192521 E 34, 17615640825619729 E 35, 20102157273771185 E 36, 22228488661203796 E 37, 23840144886565555 E 38, 24821323387385591 E 39, 25108578082320925 E 40, 24697037064598054 E 41, 23638472648459341 E 42, 22032070520040486 E 43, 20009975479926552 E 44, 17720368380864164 E 45, 15310878363904894 E 46, 12914643084577599 E 47, 10640494518232904 E 48, 85678062594663179 E 50, 67457006551069038 E 51, 51957205501571618 E 52, 39167746393408006 E 53, 28911451452275637 E 54, 20905294707910033 E 55, 14813816621504593 E 56, 10291392026528445 E 57, 70120243073767212 E 59, 46874244119910432 E 60, 30753906538993377 E 61, 19810228058711570 E 62, 12532698722656806 E 63, 77893899634899452 E 65, 47577220892779895 E 66, 28566697291807241 E 67, 16865942978064676 E 68, bnil.
Definition r706 := 70821477514177431 E 18, 60790211223191212 E 18, 44989943000073522 E 18, 28927645359116485 E 18, 16308141652507609 E 18, 81382296547866696 E 19, 36281804340014684 E 19, 14574441530842484 E 19, 53162770081963736 E 20, 17732079417010787 E 20, 54418764667789002 E 21, 15451947424559831 E 21, 40795591770133462 E 22, 10059163444842493 E 22, 23257032416989917 E 23, 50599148885513240 E 24, 10392758242008255 E 24, 20211004455312991 E 25, 37313846954431719 E 26, 65558891262214849 E 27, 10985954073158585 E 27, 17594412622854086 E 28, 26981040768086905 E 29, 39686539107067134 E 30, 56082351550680707 E 31, 76252740758617976 E 32, 99892692335045983 E 33, 12624759745182599 E 33, 15411645751249453 E 34, 18192960607185384 E 35, 20789680190189429 E 36, 23020576863643896 E 37, 24723907957234741 E 38, 25777208715299579 E 39, 26111781665298330 E 40, 25719547301085553 E 41, 24651454947576117 E 42, 23008255359180838 E 43, 20925732804974804 E 44, 18557227160208308 E 45, 16056360304198852 E 46, 13562397833711272 E 47, 11189826173376994 E 48, 90227511656813049 E 50, 71138476290965751 E 51, 54869593590721256 E 52, 41421259754318255 E 53, 30617776704424487 E 54, 22170186592835384 E 55, 15732203721440480 E 56, 10944766333669625 E 57, 74676813499510394 E 59, 49990426517265601 E 60, 32844544975274344 E 61, 21186685218974463 E 62, 13422360320331117 E 63, 83540805989288420 E 65, 51098171903931308 E 66, 30723985682242486 E 67, 18165172231133876 E 68, bnil.
Definition r707 := 70721306725859981 E 18, 60718395293113153 E 18, 44956782556222138 E 18, 28924348223649116 E 18, 16318814017955697 E 18, 81507518783024025 E 19, 36373047306393715 E 19, 14626385122045481 E 19, 53411128183198492 E 20, 17835395900175566 E 20, 54800783807464717 E 21, 15579353633048603 E 21, 41183038131057811 E 22, 10167517479503639 E 22, 23537634568572324 E 23, 51275931134808308 E 24, 10545530243140880 E 24, 20535127439102623 E 25, 37962557031780778 E 26, 66787694156529581 E 27, 11206889680657542 E 27, 17972448061817395 E 28, 27598067559179031 E 29, 40649275540925602 E 30, 57521111754530894 E 31, 78315848332995057 E 32, 10273597745768983 E 32, 13001933788569434 E 33, 15893921152118828 E 34, 18788137455567611 E 35, 21499456260696369 E 36, 23839443007286890 E 37, 25638823440111053 E 38, 26768171156951388 E 39, 27153252758285945 E 40, 26782546640359611 E 41, 25706023402099701 E 42, 24025939349568787 E 43, 21881758572546538 E 44, 19432110224087457 E 45, 16836808169916682 E 46, 14241486675717999 E 47, 11766539644293496 E 48, 95010441418885659 E 50, 75014321177437517 E 51, 57940061560505200 E 52, 43800431738130209 E 53, 32421783142306335 E 54, 23509371098590210 E 55, 16705900421227415 E 56, 11638465302424387 E 57, 79521417764005652 E 59, 53308259011967622 E 60, 35073606306364595 E 61, 22656347051057104 E 62, 14373602962876046 E 63, 89587095197976795 E 65, 54873461643538301 E 66, 33040369858634415 E 67, 19562184919282521 E 68, bnil.
Definition r708 := 70621418885449622 E 18, 60646742288921883 E 18, 44923646729126784 E 18, 28921003073436879 E 18, 16329434650869983 E 18, 81632471613140231 E 19, 36464235245346368 E 19, 14678367349086163 E 19, 53659993362655109 E 20, 17939056659627606 E 20, 55184571291912051 E 21, 15707516154164000 E 21, 41573295481589593 E 22, 10276801790264320 E 22, 23821022136324084 E 23, 51960345758919767 E 24, 10700232870795698 E 24, 20863789882618473 E 25, 38621244859729815 E 26, 68037095874836906 E 27, 11431835727433918 E 27, 18357872837648012 E 28, 28228019044429758 E 29, 41633530940876911 E 30, 58994059497756993 E 31, 80430897209029161 E 32, 10565487963376806 E 32, 13389675396830051 E 33, 16390396866419584 E 34, 19401690267869369 E 35, 22232164319511186 E 36, 24685942761255176 E 37, 26585932008919982 E 38, 27795433498683885 E 39, 28234381101290391 E 40, 27887564573139524 E 41, 26803809715331972 E 42, 25086811524070038 E 43, 22879750763068428 E 44, 20346676762555745 E 45, 17653799129011505 E 46, 14953369122903265 E 47, 12371950752886398 E 48, 10003841675433494 E 49, 79094456802873002 E 51, 61176907840694362 E 52, 46312045395795001 E 53, 34328888859077490 E 54, 24927079675033449 E 55, 17738139469551347 E 56, 12374906083028929 E 57, 84671752236061323 E 59, 56840432867472469 E 60, 37450010209791991 E 61, 24225359561165667 E 62, 15390580065277134 E 63, 96060306282031706 E 65, 58921011789014856 E 66, 35527300891439794 E 67, 21064167180501811 E 68, bnil.
Definition r709 := 70521812796109376 E 18, 60575251689629774 E 18, 44890535635476181 E 18, 28917610197756582 E 18, 16340003705392112 E 18, 81757155082602499 E 19, 36555367673296651 E 19, 14730387839604407 E 19, 53909364188444494 E 20, 18043061583130588 E 20, 55570129783625021 E 21, 15836437346661973 E 21, 41966376858499340 E 22, 10387022061473916 E 22, 24107216173434001 E 23, 52652461394801599 E 24, 10856886242259815 E 24, 21197045549462752 E 25, 39290042799753487 E 26, 69307398964781656 E 27, 11660856823136400 E 27, 18750816518631103 E 28, 28871140281005451 E 29, 42639744041890607 E 30, 60501940697359729 E 31, 82599095062647188 E 32, 10865126551170569 E 32, 13788260623594409 E 33, 16901464288153676 E 34, 20034152028327462 E 35, 22988502621686065 E 36, 25560957525481326 E 37, 27566307154044851 E 38, 28860258876885291 E 39, 29356604330698072 E 40, 29036185547251268 E 41, 27946506617283442 E 42, 26192626570411279 E 43, 23921475859732587 E 44, 21302655349437513 E 45, 18508978631136899 E 46, 15699570032483337 E 47, 13007436179816467 E 48, 10532355456514017 E 49, 83389286773883539 E 51, 64588851611846553 E 52, 48963237786046836 E 53, 36344802789233269 E 54, 26427777226458736 E 55, 18832336798507197 E 56, 13156646408619897 E 57, 90146569020454956 E 59, 60600415521367768 E 60, 39983235270295064 E 61, 25900263107757296 E 62, 16477717797429408 E 63, 10298982828390594 E 64, 63259975029718763 E 66, 38197033725354288 E 67, 22678820508615506 E 68, bnil.
Definition r710 := 70422487267737005 E 18, 60503922976243678 E 18, 44857449390450950 E 18, 28914169884376818 E 18, 16350521335431547 E 18, 81881569239706381 E 19, 36646444109699971 E 19, 14782446221945874 E 19, 54159239224903677 E 20, 18147410554196459 E 20, 55957461925469771 E 21, 15966119565223017 E 21, 42362295310853393 E 22, 10498183994295717 E 22, 24396237832499650 E 23, 53352347116205762 E 24, 11015510634520704 E 24, 21534948712503552 E 25, 39969084666684714 E 26, 70598909747068652 E 27, 11894018478723584 E 27, 19151410671155653 E 28, 29527680464339407 E 29, 43668361629266383 E 30, 62045516045882587 E 31, 84821675253051807 E 32, 11172704415777804 E 32, 14197972197808776 E 33, 17427524846115144 E 34, 20686070163183179 E 35, 23769189361080902 E 36, 26465395155028875 E 37, 28581056154823608 E 38, 29963952033121229 E 39, 30521409539934693 E 40, 30230050839598314 E 41, 29135870033638563 E 42, 27345207261777617 E 43, 25008771485941663 E 44, 22301846716483358 E 45, 19404063238975513 E 46, 16481682413101984 E 47, 13674436168728239 E 48, 11087854913155428 E 49, 87909725847650562 E 51, 68185053379509390 E 52, 51761517813853634 E 53, 38475539798283526 E 54, 28016174572778347 E 55, 19992101575535131 E 56, 13986392520119799 E 57, 95965737054853946 E 59, 64602496669159223 E 60, 42683353004102252 E 61, 27688017001917902 E 62, 17639732510153667 E 63, 11040702125514907 E 64, 67910817432751206 E 66, 41062682181969416 E 67, 24414397795655406 E 68, bnil.
Definition r711 := 70323441116917851 E 18, 60432755631757561 E 18, 44824388107737444 E 18, 28910682419565254 E 18, 16360987694663362 E 18, 82005714136622661 E 19, 36737464077034568 E 19, 14834542125167058 E 19, 54409617032644109 E 20, 18252103452099598 E 20, 56346570340657059 E 21, 16096565160405504 E 21, 42761063899782187 E 22, 10610293306649312 E 22, 24688108365569658 E 23, 54060072434945230 E 24, 11176126485049277 E 24, 21877554157291596 E 25, 40658505740925451 E 26, 71911938353293681 E 27, 12131387116926025 E 27, 19559788886007388 E 28, 30197892988920134 E 29, 44719838669086546 E 30, 63625561273069453 E 31, 87099897315964878 E 32, 11488416793393665 E 32, 14619099671794580 E 33, 17968990241333507 E 34, 21358006903776523 E 35, 24574963201121476 E 36, 27400190703376801 E 37, 29631321078758562 E 38, 31107860605886150 E 39, 31730334887989804 E 40, 31470860488339022 E 41, 30373721327715315 E 42, 28546446972832838 E 43, 26143549139378469 E 44, 23346126633294978 E 45, 20340843571737719 E 46, 17301370346720174 E 47, 14374457345679909 E 48, 11671669857962027 E 49, 92667224123003799 E 51, 71975136517104198 E 52, 54714784935426555 E 53, 40727436528046096 E 54, 29697241553373303 E 55, 21221246788843943 E 56, 14867007523615931 E 57, 10215030663284274 E 58, 68861837001588423 E 60, 45561063893574796 E 61, 29596025598358783 E 62, 18881649243405796 E 63, 11834534494046584 E 64, 72895406172815662 E 66, 44138277627739967 E 67, 26279741830687088 E 68, bnil.
Definition r712 := 70224673166877971 E 18, 60361749141144776 E 18, 44791351899541691 E 18, 28907148088095854 E 18, 16371402936526093 E 18, 82129589829364677 E 19, 36828427100793074 E 19, 14886675179040236 E 19, 54660496168599886 E 20, 18357140151891428 E 20, 56737457632716277 E 21, 16227776478599411 E 21, 43162695698249310 E 22, 10723355733152458 E 22, 24982849124183562 E 23, 54775707302150896 E 24, 11338754392583250 E 24, 22224917185487257 E 25, 41358442780721396 E 26, 73246798764046458 E 27, 12373030082802236 E 27, 19976086804942351 E 28, 30882035509828271 E 29, 45794638440483639 E 30, 65242867411574680 E 31, 89435047465275560 E 32, 11812463339194266 E 32, 15051939572283643 E 33, 18526282689650402 E 34, 22050539658038021 E 35, 25406583818631085 E 36, 28366307185126988 E 37, 30718279808331445 E 38, 32293376459971398 E 39, 32984971257181955 E 40, 32760375287091944 E 41, 31661949617736081 E 42, 29798312284003417 E 43, 27327797026058243 E 44, 24437448896853409 E 45, 21321187365065581 E 46, 18160372030407702 E 47, 15109075658471213 E 48, 12285193251368795 E 49, 97673792332379727 E 51, 75969209821329429 E 52, 57831348770305722 E 53, 43107168034023026 E 54, 31476220805589138 E 55, 22523800393670427 E 56, 15801520203055013 E 57, 10872257753900775 E 58, 73394519743501069 E 60, 48627735547387140 E 61, 31632165964679093 E 62, 20208821381946087 E 63, 12684049563392837 E 64, 78237102965875527 E 66, 47438831544962747 E 67, 28284326418116588 E 68, bnil.
Definition r713 := 70126182247437760 E 18, 60290902991350759 E 18, 44758340876602937 E 18, 28903567173256144 E 18, 16381767214219627 E 18, 82253196377755512 E 19, 36919332709473853 E 19, 14938845014058435 E 19, 54911875186075825 E 20, 18462520524414785 E 20, 57130126385469341 E 21, 16359755861980100 E 21, 43567203790819441 E 22, 10837377025062367 E 22, 25280481559408888 E 23, 55499322109521118 E 24, 11503415117910282 E 24, 22577093618297286 E 25, 42069034034499577 E 26, 74603808847282815 E 27, 12619015654388509 E 27, 20400442147542225 E 28, 31580370005027464 E 29, 46893232669741414 E 30, 66898241066774965 E 31, 91828439103212076 E 32, 12145048218406714 E 32, 15496795554482278 E 33, 19099835169528448 E 34, 22764261390553634 E 35, 26264832461029369 E 36, 29364736358600841 E 37, 31843147096129299 E 38, 33521937054468902 E 39, 34286963961573162 E 40, 34100418843037729 E 41, 33002514171793430 E 42, 31102845676952286 E 43, 28563582997828816 E 44, 25577848434614082 E 45, 22347042651726113 E 46, 19060502942732784 E 47, 15879939440744847 E 48, 12929884086305165 E 49, 10294202828272901 E 50, 80177891125812773 E 52, 61119949662850044 E 53, 45621765253010210 E 54, 33358642251385086 E 55, 23904017048072043 E 56, 16793134312235872 E 57, 11570617099176742 E 58, 78217605150258670 E 60, 51895443107798943 E 61, 33804817221531399 E 62, 21626951527550866 E 63, 13593055171168422 E 64, 83960863567241855 E 66, 50980402258446714 E 67, 30438300289030731 E 68, bnil.
Definition r714 := 70027967194965929 E 18, 60220216671285333 E 18, 44725355148207378 E 18, 28899939956854383 E 18, 16392080680703087 E 18, 82376533845395731 E 19, 37010180434572486 E 19, 14991051261440246 E 19, 55163752634795264 E 20, 18568244436318525 E 20, 57524579163005789 E 21, 16492505648462385 E 21, 43974601273426703 E 22, 10952362950216563 E 22, 25581027221875848 E 23, 56230987690565317 E 24, 11670129584651276 E 24, 22934139799921908 E 25, 42790419253269928 E 26, 75983290396971425 E 27, 12869413053443678 E 27, 20832994738354601 E 28, 32293162838418107 E 29, 48016101666252428 E 30, 68592504690739975 E 31, 94281413339167066 E 32, 12486380199063597 E 32, 15953978559219118 E 33, 19690091675195035 E 34, 23499781011383810 E 35, 27150512517200593 E 36, 30396499528805267 E 37, 33007175649007204 E 38, 34795026850459273 E 39, 35638014507483916 E 40, 35492879700843844 E 41, 34397446882968825 E 42, 32462168324263853 E 43, 29853057596901228 E 44, 26769444525271566 E 45, 23420441067638268 E 46, 20003659139623363 E 47, 16688772605928805 E 48, 13607270399383222 E 49, 10848514449546981 E 50, 84612332020736969 E 52, 64589780237368161 E 53, 48278633340867676 E 54, 35350338327252956 E 55, 25366390468371196 E 56, 17845238371305637 E 57, 12312610559990475 E 58, 83349188126108684 E 60, 55377012033316938 E 61, 36122891651605104 E 62, 23142113660888088 E 63, 14565612837575419 E 64, 90093343716896574 E 66, 54780166086472898 E 67, 32752533990319354 E 68, bnil.
Definition r715 := 69930026852333835 E 18, 60149689671815269 E 18, 44692394822201532 E 18, 28896266719226779 E 18, 16402343488692822 E 18, 82499602299630909 E 19, 37100969810572953 E 19, 15043293553134612 E 19, 55416127060947608 E 20, 18674311750072097 E 20, 57920818509658232 E 21, 16626028171654770 E 21, 44384901253142327 E 22, 11068319292973113 E 22, 25884507761809032 E 23, 56970775321839888 E 24, 11838918880043391 E 24, 23296112601011249 E 25, 43522739703089646 E 26, 77385569172011418 E 27, 13124292456288857 E 27, 21273886534319444 E 28, 33020684823659781 E 29, 49163734460350647 E 30, 70326496860412290 E 31, 96795339517298661 E 32, 12836672746468396 E 32, 16423806973231014 E 33, 20297507475223458 E 34, 24257723773818765 E 35, 28064450102337587 E 36, 31462648371255360 E 37, 34211657242026900 E 38, 36114178759455128 E 39, 37039882407593552 E 40, 36939713534387902 E 41, 35848854827131084 E 42, 33878482976452440 E 43, 31198457211106806 E 44, 28014444141433692 E 45, 24543501287937177 E 46, 20991820684752628 E 47, 17537377976280645 E 48, 14318952413926251 E 49, 11431699709765839 E 50, 89284243728214449 E 52, 68250507993096211 E 53, 51085570922216090 E 54, 37457459994194014 E 55, 26915666435848387 E 56, 18961415994241283 E 57, 13100887754950513 E 58, 88808459137754705 E 60, 59086063392127260 E 61, 38595867680896684 E 62, 24760776670437563 E 63, 15606054217545981 E 64, 96663011938315659 E 66, 58856493201509390 E 67, 35238669948209629 E 68, bnil.
Definition r716 := 69832360068870211 E 18, 60079321485756870 E 18, 44659460005005598 E 18, 28892547739244580 E 18, 16412555790660345 E 18, 82622401811519638 E 19, 37191700374939194 E 19, 15095571521825573 E 19, 55668997007236030 E 20, 18780722323980266 E 20, 58318846949979001 E 21, 16760325760814031 E 21, 44798116847942648 E 22, 11185251854150524 E 22, 26190944929057429 E 23, 57718756724178498 E 24, 12009804255723368 E 24, 23663069422132486 E 25, 44266138177592446 E 26, 78810974935427100 E 27, 13383725004743375 E 27, 21723261652485226 E 28, 33763211288771643 E 29, 50336628943043603 E 30, 72101072560055993 E 31, 99371615753041158 E 32, 13196144119400788 E 32, 16906606792643804 E 33, 20922549376658168 E 34, 25038731681258611 E 35, 29007494657076606 E 36, 32564265777155932 E 37, 35457923862932841 E 38, 37480975633702682 E 39, 38494387050155924 E 40, 38442945408316240 E 41, 37358922906021806 E 42, 35354076949507642 E 43, 32602107343701738 E 44, 29315145418593814 E 45, 25718432597950839 E 46, 22027055219692647 E 47, 18427640752501277 E 48, 15066605820369534 E 49, 12045211601874016 E 50, 94205924185350434 E 52, 72112298987304532 E 53, 54050790295763486 E 54, 39686493566302821 E 55, 28556856487841197 E 56, 20145456775144317 E 57, 13938254524933658 E 58, 94615768605686981 E 60, 63037061809164395 E 61, 41233824841611428 E 62, 26489829330346356 E 63, 16718998590689085 E 64, 10370026962195193 E 65, 63229028504070680 E 67, 37909175915485952 E 68, bnil.
Definition r717 := 69734965700316259 E 18, 60009111607868357 E 18, 44626550801626565 E 18, 28888783294321235 E 18, 16422717738830389 E 18, 82744932455801629 E 19, 37282371668106136 E 19, 15147884800936935 E 19, 55922361012924646 E 20, 18887476012197885 E 20, 58718666988716858 E 21, 16895400740799828 E 21, 45214261186476572 E 22, 11303166450967010 E 22, 26500360573120961 E 23, 58475004063914618 E 24, 12182807128510377 E 24, 24035068197245952 E 25, 45020759010579873 E 26, 80259841493834989 E 27, 13647782817156583 E 27, 22181266398015336 E 28, 34521022141515718 E 29, 51535292007661798 E 30, 73917103468023668 E 31, 10201166947864904 E 31, 13565017468088601 E 32, 17402711789703433 E 33, 21565695994789374 E 34, 25843463903406575 E 35, 29980519561240802 E 36, 33702466720449398 E 37, 36747348887938571 E 38, 38897051799464874 E 39, 40003409624893746 E 40, 40004672111524491 E 41, 38929916578304487 E 42, 36891325216283254 E 43, 34066426001658717 E 44, 30673941254933762 E 45, 26947538604132291 E 46, 23111521679269485 E 47, 19361532129592663 E 48, 15851985199783869 E 49, 12690573654948322 E 50, 99390286389152912 E 52, 76185842656953655 E 53, 57182938640968121 E 54, 42044278398332166 E 55, 30295252328026749 E 56, 21401367762579715 E 57, 14827681867455653 E 58, 10079269496559743 E 59, 67245366217538567 E 61, 44047480832220004 E 62, 28336606813861452 E 63, 17909371452657154 E 64, 11123757885086582 E 65, 67918777832094812 E 67, 40777402025079470 E 68, bnil.
Definition r718 := 69637842608781225 E 18, 59939059534842569 E 18, 44593667315671520 E 18, 28884973660419522 E 18, 16432829485178938 E 18, 82867194310865915 E 19, 37372983233471130 E 19, 15200233024636846 E 19, 56176217613885799 E 20, 18994572664744698 E 20, 59120281110795025 E 21, 17031255432029749 E 21, 45633347407832965 E 22, 11422068916979297 E 22, 26812776643174884 E 23, 59239589954097413 E 24, 12357949081188966 E 24, 24412167397191370 E 25, 45786748088676748 E 26, 81732506737187638 E 27, 13916538999536605 E 27, 22648049292488070 E 28, 35294401935572164 E 29, 52760239693448698 E 30, 75775478247900398 E 31, 10471695799790785 E 31, 13943520933975784 E 32, 17912463682815713 E 33, 22227438028686909 E 34, 26672597201970017 E 35, 30984422762519974 E 36, 34878399147253749 E 37, 38081348289619825 E 38, 40364094634443969 E 39, 41568895107182811 E 40, 41627064564711616 E 41, 40564184681339684 E 42, 38492693605145476 E 43, 35593927206518852 E 44, 32093323046649437 E 45, 28233221090174815 E 46, 24247474157758854 E 47, 20341113064856402 E 48, 16676927596505354 E 49, 13369383232206643 E 50, 10485088805979445 E 51, 80482377831576469 E 53, 60491120273857583 E 54, 44538025474540709 E 55, 32136440992375801 E 56, 22733385552670432 E 57, 15772315366113366 E 58, 10736211660251174 E 59, 71727283573348476 E 61, 47048230796730287 E 62, 30308918834013886 E 63, 19182424275338087 E 64, 11930959845392706 E 65, 72948199848382149 E 67, 43857641686980778 E 68, bnil.
Definition r719 := 69540989662698074 E 18, 59869164765299396 E 18, 44560809649360357 E 18, 28881119112058554 E 18, 16442891181431309 E 18, 82989187458719343 E 19, 37463534617385033 E 19, 15252615827842358 E 19, 56430565342646796 E 20, 19102012127520185 E 20, 59523691781289424 E 21, 17167892150434366 E 21, 46055388661308026 E 22, 11541965102020990 E 22, 27128215188091723 E 23, 60012587455700887 E 24, 12535251863291822 E 24, 24794426033183722 E 25, 46564252864050168 E 26, 83229312678794489 E 27, 14190067656776601 E 27, 23123761102492202 E 28, 36083639937513780 E 29, 54011997331113708 E 30, 77677102844082006 E 31, 10748896905014787 E 31, 14331887751315222 E 32, 18436212309953311 E 33, 22908278542604237 E 34, 27526826366067169 E 35, 32020127420419620 E 36, 36093244888223551 E 37, 39461381877727453 E 38, 41883846190527455 E 39, 43192854302176686 E 40, 43312370304216237 E 41, 42264162346527228 E 42, 40160742109398622 E 43, 37187224632006474 E 44, 33575884563648225 E 45, 29577984023720576 E 46, 25437265931767757 E 47, 21368538204154827 E 48, 17543356246092793 E 49, 14083314977273003 E 50, 11060196268115112 E 51, 85013719992401240 E 53, 63984920002016211 E 54, 47175336943126413 E 55, 34086320809049624 E 56, 24145989033206180 E 57, 16775485141646538 E 58, 11434828787108942 E 59, 76500125701633181 E 61, 50248188952117369 E 62, 32415079508536066 E 63, 20543755507282382 E 64, 12795332880157907 E 65, 78341303970017975 E 67, 47165196580572926 E 68, bnil.
Definition r720 := 69444405736779902 E 18, 59799426799778427 E 18, 44527977903538893 E 18, 28877219922320861 E 18, 16452902979060279 E 18, 83110911984955165 E 19, 37554025369143482 E 19, 15305032846223900 E 19, 56685402728436877 E 20, 19209794242318532 E 20, 59928901445407753 E 21, 17305313207412691 E 21, 46480398106172130 E 22, 11662860872140291 E 22, 27446698356460242 E 23, 60794070078825373 E 24, 12714737391882226 E 24, 25181903660318349 E 25, 47353422367191254 E 26, 84750605495618601 E 27, 14468443903978528 E 27, 23608554868519802 E 28, 36889030194585836 E 29, 55291099690367104 E 30, 79622900781840369 E 31, 11032922138368779 E 31, 14730356350615099 E 32, 18974315805488453 E 33, 23608733253363881 E 34, 28406864657539174 E 35, 33088582565817518 E 36, 37348220594377144 E 37, 40888954573749939 E 38, 43458104863068472 E 39, 44877365950564648 E 40, 45062916044403333 E 41, 44032374011137491 E 42, 41898128311113649 E 43, 38849035372744543 E 44, 35124325970629582 E 45, 30984437719263084 E 46, 26683353645861854 E 47, 22446059972790523 E 48, 18453284465081050 E 49, 14834124415092931 E 50, 11665845198006150 E 51, 89792289835162114 E 53, 67674427631041752 E 54, 49964226642644293 E 55, 36151118192376611 E 56, 25643912812646390 E 57, 17840716352541783 E 58, 12177691942691225 E 59, 81582269450407427 E 61, 53660232700111840 E 62, 34663939051596827 E 63, 21999332890007582 E 64, 13720826589045635 E 65, 84123754726369645 E 67, 50716446010565904 E 68, bnil.
Definition r721 := 69348089711976382 E 18, 59729845140731458 E 18, 44495172177691451 E 18, 28873276362859440 E 18, 16462865029284224 E 18, 83232367978721949 E 19, 37644455040977951 E 19, 15357483716209696 E 19, 56940728297233899 E 20, 19317918846843677 E 20, 60335912528469479 E 21, 17443520909787773 E 21, 46908388911437311 E 22, 11784762109537510 E 22, 27768248396602338 E 23, 61584111783892951 E 24, 12896427752336514 E 24, 25574660381086147 E 25, 48154407219761303 E 26, 86296735568853966 E 27, 14751743877875800 E 27, 24102585934159637 E 28, 37710871603301513 E 29, 56598091129463197 E 30, 81613813471938410 E 31, 11323926533885374 E 31, 15139170463969539 E 32, 19527140780512992 E 33, 24329330823840897 E 34, 29313444266374395 E 35, 34190763776476934 E 36, 38644578696949327 E 37, 42365617720080240 E 38, 45088727107948359 E 39, 46624578897705500 E 40, 46881110320939366 E 41, 45871436529646111 E 42, 43707610923102386 E 43, 40582183848553183 E 44, 36741457998735791 E 45, 32455303163046662 E 46, 27988301667225914 E 47, 23576032837607192 E 48, 19408819709259422 E 49, 15623651714159646 E 50, 12303603990839944 E 51, 94831143196605995 E 53, 71570263677178275 E 54, 52913141669009001 E 55, 38337405313010743 E 56, 27232161369605172 E 57, 18971740274549728 E 58, 12967526310557739 E 59, 86993220339423952 E 61, 57298049367215064 E 62, 37064917400868624 E 63, 23555517170307612 E 64, 14711656529635021 E 65, 90322982956320009 E 67, 54528920911811519 E 68, bnil.
Definition r722 := 69252040475430723 E 18, 59660419292515157 E 18, 44462392569953511 E 18, 28869288703904684 E 18, 16472777483065318 E 18, 83353555532692421 E 19, 37734823188046969 E 19, 15409968074990127 E 19, 57196540571810453 E 20, 19426385774724296 E 20, 60744727435886138 E 21, 17582517559762509 E 21, 47339374255623624 E 22, 11907674712501743 E 22, 28092887656586874 E 23, 62382786982834856 E 24, 13080345199126164 E 24, 25972756848897547 E 25, 48967359647500346 E 26, 87868057524779639 E 27, 15040044748354426 E 27, 24606011975591961 E 28, 38549467978857182 E 29, 57933525746769321 E 30, 83650800519848094 E 31, 11622068344070213 E 31, 15558579232302421 E 32, 20095062506705368 E 33, 25070613162658425 E 34, 30247316776451127 E 35, 35327673868866654 E 36, 39983608391834466 E 37, 43892970424653803 E 38, 46777629207690257 E 39, 48436714327917551 E 40, 48769446217348646 E 41, 47784062387665543 E 42, 45592053452886813 E 43, 42389605848951061 E 44, 38430206273126069 E 45, 33993416505963530 E 46, 29354786615868879 E 47, 24760917747161653 E 48, 20412167807466790 E 49, 16453825616982477 E 50, 12975118819476105 E 51, 10014400240733195 E 52, 75683606343314174 E 54, 56030985033961368 E 55, 40652118688411694 E 56, 28916023960183602 E 57, 20172505989998182 E 58, 13807220159895746 E 59, 92753679900480083 E 61, 61176185724868844 E 62, 39628039894681812 E 63, 25219087293422802 E 64, 15772321661009103 E 65, 96968304280874818 E 67, 58621382806406168 E 68, bnil.
Definition r723 := 69156256920436976 E 18, 59591148761383619 E 18, 44429639177124294 E 18, 28865257214271394 E 18, 16482640491107720 E 18, 83474474743032746 E 19, 37825129368427106 E 19, 15462485560522046 E 19, 57452838071780541 E 20, 19535194855529011 E 20, 61155348553142654 E 21, 17722305454875783 E 21, 47773367326526302 E 22, 12031604595347359 E 22, 28420638584241285 E 23, 63190170540271952 E 24, 13266512156599621 E 24, 26376254271616276 E 25, 49792433493199598 E 26, 89464930275894845 E 27, 15333424730073809 E 27, 25118993031388090 E 28, 39405128125377755 E 29, 59297967534386308 E 30, 85734840039632237 E 31, 11927509100159162 E 31, 15988837314555746 E 32, 20678465103807907 E 33, 25833135730215452 E 34, 31209253641813025 E 35, 36500343606650936 E 36, 41366636649203683 E 37, 45472660941951562 E 38, 48526789087933629 E 39, 50316068065759386 E 40, 50730504177320323 E 41, 49773063021665435 E 42, 47554427992639300 E 43, 44274352722635892 E 44, 40193615802016487 E 45, 35601733730666999 E 46, 30785602077130767 E 47, 26003286757083900 E 48, 21465637378176959 E 49, 17326667546017774 E 50, 13682117353544225 E 51, 10574528913638651 E 52, 80026219818159693 E 54, 59327139468288352 E 55, 43102578739940987 E 56, 30701090322392290 E 57, 21447192719380930 E 58, 14699834319125275 E 59, 98885616916841572 E 61, 65310100450233339 E 62, 42363975120632194 E 63, 26997267166941741 E 64, 16907622900814441 E 65, 10409104531435030 E 66, 63013908035770767 E 68, bnil.
Definition r724 := 69060737946397707 E 18, 59522033055481066 E 18, 44396912094679039 E 18, 28861182161365705 E 18, 16492454203855839 E 18, 83595125709371755 E 19, 37915373143104069 E 19, 15515035811532957 E 19, 57709619313645207 E 20, 19644345914781442 E 20, 61567778245778844 E 21, 17862886887958601 E 21, 48210381320982007 E 22, 12156557688349836 E 22, 28751523727160488 E 23, 64006337774688011 E 24, 13454951219763858 E 24, 26785214415102115 E 25, 50629784229736841 E 26, 91087717062334120 E 27, 15631963094187438 E 27, 25641691532616352 E 28, 40278165906998298 E 29, 60691990533841536 E 30, 87866928972548921 E 31, 12240413673374207 E 31, 16430204998853019 E 32, 21277741730776632 E 33, 26617467851166229 E 34, 32200046673692463 E 35, 37709832426215400 E 36, 42795029248887436 E 37, 47106388091278059 E 38, 50338248185604426 E 39, 52265012946178680 E 40, 52766954905295191 E 41, 51841352247761608 E 42, 49597819139185729 E 43, 46239595716867838 E 44, 42034855632907753 E 45, 37283335499333259 E 46, 32283663503491208 E 47, 27305827848009242 E 48, 22571644436432692 E 49, 18244295892576620 E 50, 14426412649733237 E 51, 11165015879590332 E 52, 84610483961129192 E 54, 62811492425581668 E 55, 45696510365107605 E 56, 32593267218864621 E 57, 22800222829370965 E 58, 15648612183134661 E 59, 10541234278064358 E 60, 69716219696993450 E 62, 45284075063970576 E 63, 28897754090595367 E 64, 18122682864906355 E 65, 11172467810599962 E 66, 67727977610841520 E 68, bnil.
Definition r725 := 68965482458781896 E 18, 59453071684834394 E 18, 44364211416781450 E 18, 28857063811192019 E 18, 16502218771492605 E 18, 83715508534770618 E 19, 38005554075963739 E 19, 15567618467525271 E 19, 57966882810838783 E 20, 19753838773975584 E 20, 61982018859372442 E 21, 18004264147090833 E 21, 48650429444635878 E 22, 12282539937681219 E 22, 29085565732713145 E 23, 64831364459596057 E 24, 13645685155065690 E 24, 27199699606763152 E 25, 51479568973175541 E 26, 92736785493565003 E 27, 15935740180164266 E 27, 26174272333257208 E 28, 41168900319790833 E 29, 62116178993878002 E 30, 90048083410438933 E 31, 12560950337192592 E 31, 16882948315669396 E 32, 21893294780668419 E 33, 27424193033474479 E 34, 33220508538503150 E 35, 38957229179605442 E 36, 44270191842131578 E 37, 48795902713248882 E 38, 52214113370154246 E 39, 54286001255459138 E 40, 54881562357938703 E 41, 53991949802952586 E 42, 51725428048293051 E 43, 48288630471842259 E 44, 43957223681920654 E 45, 39041432188732918 E 46, 33852013312938768 E 47, 28671349943750528 E 48, 23732717198987663 E 49, 19208930496533631 E 50, 15209907220844494 E 51, 11787453657709126 E 52, 89449425438305578 E 54, 66494462344944995 E 55, 48442064575850499 E 56, 34598795861119964 E 57, 24236275553163444 E 58, 16656990283261133 E 59, 11235859119903631 E 60, 74411995955080949 E 62, 48400417691465408 E 63, 30928748952704984 E 64, 19422966862864103 E 65, 11990496333434775 E 66, 72786573045231086 E 68, bnil.
Definition r726 := 68870489369083354 E 18, 59384264161345936 E 18, 44331537236295758 E 18, 28852902428359865 E 18, 16511934343937770 E 18, 83835623325692402 E 19, 38095671733783172 E 19, 15620233168780371 E 19, 58224627073774388 E 20, 19863673250591010 E 20, 62398072719521805 E 21, 18146439515557767 E 21, 49093524911707547 E 22, 12409557305345032 E 22, 29422787348045495 E 23, 65665326824696428 E 24, 13838736901172642 E 24, 27619772739116908 E 25, 52341946495926521 E 26, 94412507590366306 E 27, 16244837407710843 E 27, 26716902740929040 E 28, 42077655564542410 E 29, 63571127530361391 E 30, 92279338923954441 E 31, 12889290830643187 E 31, 17347339153039658 E 32, 22525536079329369 E 33, 28253909294165821 E 34, 34271473267025114 E 35, 40243652895257926 E 36, 45793571040343097 E 37, 50543009165438791 E 38, 54156558919269069 E 39, 56381567244941415 E 40, 57077186829170356 E 41, 56227985002275854 E 42, 53940576627586195 E 43, 50424881675296239 E 44, 45964151742351228 E 45, 40879369119502801 E 46, 35493826191421204 E 47, 30102788137665997 E 48, 24951501095823193 E 49, 20222897324979033 E 50, 16034597291500435 E 51, 12443515519198943 E 52, 94556750377817856 E 54, 70387026233789495 E 55, 51347841256199856 E 56, 36724270260787123 E 57, 25760301460892844 E 58, 17728609450665483 E 59, 11975060249234886 E 60, 79415970388161764 E 62, 51725852114187179 E 63, 33098988299956938 E 64, 20814305227069245 E 65, 12867010280870305 E 66, 78214278559259133 E 68, bnil.
Definition r727 := 68775757594779371 E 18, 59315609998786052 E 18, 44298889644798889 E 18, 28848698276090802 E 18, 16521601070846267 E 18, 83955470191972078 E 19, 38185725686221542 E 19, 15672879556362725 E 19, 58482850609889621 E 20, 19973849158108262 E 20, 62815942131830112 E 21, 18289415271807210 E 21, 49539680944757987 E 22, 12537615769110762 E 22, 29763211420082510 E 23, 66508301557028741 E 24, 14034129569753499 E 24, 28045497273360549 E 25, 53217077239973445 E 26, 96115259827090485 E 27, 16559337288795232 E 27, 27269752547927598 E 28, 43004761120393834 E 29, 65057441288328992 E 30, 94561750895691595 E 31, 13225610422645072 E 31, 17823655373836903 E 32, 23174887087951412 E 33, 29107229491905879 E 34, 35353796775011494 E 35, 41570253556917450 E 36, 47366655531460455 E 37, 52349566858168776 E 38, 56167828550488903 E 39, 58554329719549919 E 40, 59356788131500558 E 41, 58552700515461973 E 42, 56246711872577543 E 43, 52651907882765240 E 44, 48059210678767877 E 45, 42800631986753222 E 46, 37212414607174258 E 47, 31603209135483415 E 48, 26230763996530654 E 49, 21288633358291539 E 50, 16902577248736384 E 51, 13134959439868250 E 52, 99946878616071222 E 54, 74500748634723173 E 55, 54422913095237894 E 56, 38976656555460361 E 57, 27377537719804542 E 58, 18867326605367030 E 59, 12761621274073964 E 60, 84747838848258582 E 62, 55274046480868223 E 63, 35417778393435057 E 64, 22302917057713361 E 65, 13806090186648493 E 66, 84037390067232963 E 68, bnil.
Definition r728 := 68681286059289748 E 18, 59247108712785844 E 18, 44266268732592297 E 18, 28844451616225186 E 18, 16531219101606535 E 18, 84075049246786476 E 19, 38275715505811086 E 19, 15725557272123819 E 19, 58741551923691604 E 20, 20084366306024189 E 20, 63235629381889542 E 21, 18433193689406624 E 21, 49988910774455294 E 22, 12666721322447830 E 22, 30106860895526286 E 23, 67360365802114581 E 24, 14231886446258378 E 24, 28476937242950097 E 25, 54105123330160643 E 26, 97845423174208920 E 27, 16879323439772742 E 27, 27832994062580718 E 28, 43950551819345830 E 29, 66575736106203046 E 30, 96896394858287555 E 31, 13570087977402765 E 31, 18312180935153960 E 32, 23841779109563149 E 33, 29984781666531762 E 34, 36468357395448934 E 35, 42938212901134087 E 36, 48990977224591756 E 37, 54217491831428441 E 38, 58250237510209764 E 39, 60806994703205572 E 40, 61723428876495262 E 41, 60969456266763596 E 42, 58647410350423796 E 43, 54973406509076076 E 44, 50246115813179501 E 45, 44808852499391387 E 46, 39011234545007721 E 47, 33175816923150617 E 48, 27573401660382287 E 49, 22408691692452889 E 50, 17816044296049465 E 51, 13863632239105705 E 52, 10563497960948702 E 53, 78847812043523388 E 55, 57676850753969540 E 56, 41363313359224329 E 57, 29093524185887029 E 58, 20077227204900579 E 59, 13598494804965679 E 60, 90428521777946619 E 62, 59059538762133623 E 63, 37895031370446084 E 64, 23895435471040683 E 65, 14812094229118275 E 66, 90284031386313322 E 68, bnil.
Definition r729 := 68587073691936104 E 18, 59178759820829853 E 18, 44233674588713932 E 18, 28840162709229074 E 18, 16540788585338969 E 18, 84194360606624497 E 19, 38365640767948068 E 19, 15778265958706148 E 19, 59000729516802612 E 20, 20195224499867449 E 20, 63657136735266790 E 21, 18577777037000643 E 21, 50441227639341581 E 22, 12796879974459213 E 22, 30453758820852467 E 23, 68221597165095239 E 24, 14432030990698592 E 24, 28914157257188777 E 25, 55006248587545091 E 26, 99603383141143255 E 27, 17204880593614692 E 27, 28406802140921705 E 28, 44915367921641651 E 29, 68126638682193729 E 30, 99284366837545983 E 31, 13922906020873548 E 31, 18813206009821287 E 32, 24526653499523985 E 33, 30887209385669186 E 34, 37616056422709820 E 35, 44348745233750035 E 36, 50668112423583544 E 37, 56148758373957066 E 38, 60406174721580155 E 39, 63142358183264362 E 40, 64180277857272697 E 41, 63481733461748034 E 42, 61146382836169799 E 43, 57393218996843777 E 44, 52528732510025439 E 45, 46907814235802600 E 46, 40893891468922824 E 47, 34823958668609778 E 48, 28982443419261671 E 49, 23585746866786644 E 50, 18777303319841821 E 51, 14631473913773367 E 52, 11163701008979326 E 53, 83441048848310910 E 55, 61119749327536226 E 56, 43892013190367107 E 57, 30914120370802527 E 58, 21362638388342260 E 59, 14488812421904190 E 60, 96480238222242037 E 62, 63097790595034761 E 63, 40541303638662125 E 64, 25598934443364162 E 65, 15889676641413344 E 66, 96984278132873797 E 68, bnil.
Definition r730 := 68493119427901594 E 18, 59110562842248873 E 18, 44201107300949997 E 18, 28835831814200935 E 18, 16550309670894305 E 18, 84313404391257642 E 19, 38455501050883587 E 19, 15831005259547130 E 19, 59260381888004573 E 20, 20306423541214025 E 20, 64080466437488714 E 21, 18723167578268706 E 21, 50896644785598818 E 22, 12928097749814442 E 22, 30803928342303328 E 23, 69092073711859202 E 24, 14634586838425778 E 24, 29357222504823739 E 25, 55920618542810406 E 26, 10138952981937974 E 26, 17536094612239855 E 27, 28991354218681988 E 28, 45899555192032445 E 29, 69710786742912620 E 30, 10172678370065054 E 30, 14284250808321178 E 31, 19327027110093974 E 32, 25229961880089225 E 33, 31815172098566031 E 34, 38797818668835542 E 35, 45803098265786132 E 36, 52399683030189751 E 37, 58145400685524374 E 38, 62638104992833957 E 39, 65563308936168050 E 40, 66730613536006499 E 41, 66093138744942676 E 42, 63747479106376500 E 43, 59915336167916954 E 44, 54911081966956583 E 45, 49101458723789690 E 46, 42864146521734230 E 47, 36551130866722621 E 48, 30461058102980224 E 49, 24822600426673366 E 50, 19788771977569097 E 51, 15440522175847341 E 52, 11796975354440360 E 53, 88293974863293325 E 55, 64762256167146429 E 56, 46570965031392615 E 57, 32845523330181926 E 58, 22728142853321640 E 59, 15435895211654242 E 60, 10292658418458474 E 61, 67405244366937495 E 63, 43367836636475416 E 64, 27420957348922776 E 65, 17043807310391926 E 66, 10417028980148192 E 67, bnil.
Definition r731 := 68399422208190883 E 18, 59042517298212534 E 18, 44168566955846492 E 18, 28831459188878420 E 18, 16559782506852101 E 18, 84432180723710438 E 19, 38545295935714587 E 19, 15883774818882866 E 19, 59520507533284144 E 20, 20417963227702739 E 20, 64505620714028835 E 21, 18869367571882994 E 21, 51355175466815186 E 22, 13060380688682281 E 22, 31157392705878799 E 23, 69971873970163945 E 24, 14839577800910759 E 24, 29806198757651817 E 25, 56848400449744243 E 26, 10320425792587131 E 26, 17873052498949829 E 27, 29586830343606806 E 28, 46903464976934710 E 29, 71328829214222499 E 30, 10422478350953143 E 30, 14654312392972076 E 31, 19853947213542336 E 32, 25952166359116978 E 33, 32769345497279202 E 34, 40014593032197629 E 35, 47302553969151974 E 36, 54187357777531493 E 37, 60209514583481300 E 38, 64948571287647114 E 39, 68072831436558429 E 40, 69377827639500296 E 41, 68807408492343624 E 42, 66454692895185366 E 43, 62543903763912255 E 44, 57397347218614889 E 45, 51393891752952811 E 46, 44925922970688644 E 47, 38360985736927033 E 48, 32012560216883555 E 49, 26122186731185858 E 50, 20852986017299744 E 51, 16292917203022917 E 52, 12465086160711052 E 53, 93420824533869527 E 55, 68615600129191749 E 56, 49408838079173831 E 57, 34894286521699086 E 58, 24178593505610476 E 59, 16443264907118173 E 60, 10979261557429569 E 61, 71999383727990920 E 63, 46386600101266516 E 64, 29369547295508291 E 65, 18279792639027830 E 66, 11187645055267784 E 67, bnil.
Definition r732 := 68305980979590578 E 18, 58974622711722179 E 18, 44136053638720828 E 18, 28827045089645120 E 18, 16569207241519213 E 18, 84550689730231339 E 19, 38635025006374538 E 19, 15936574281751974 E 19, 59781104945877200 E 20, 20529843353050818 E 20, 64932601770294532 E 21, 19016379271466530 E 21, 51816832943751116 E 22, 13193734846662839 E 22, 31514175257324533 E 23, 70861076930748945 E 24, 15047027866521697 E 24, 30261152374133799 E 25, 57789763298778178 E 26, 10504796684672498 E 26, 18215842410968325 E 27, 30193413208095344 E 28, 47927454282487102 E 29, 72981426394346761 E 30, 10677952587944919 E 30, 15033284695788711 E 31, 20394275891180128 E 32, 26693739752987436 E 33, 33750421885351036 E 34, 41267353078786208 E 35, 48848429452608846 E 36, 56032853494548370 E 37, 62343259254671618 E 38, 67340197059137030 E 39, 70674008852158539 E 40, 72125428865974637 E 41, 71628413242906141 E 42, 69272167018018481 E 43, 65283228182166355 E 44, 59991879360851972 E 45, 53789389927968171 E 46, 47083312908391619 E 47, 40257337883560204 E 48, 33640416382033398 E 49, 27487579015987038 E 50, 21972604838794960 E 51, 17190906611898799 E 52, 13169889744812555 E 53, 98836587893432173 E 55, 72691622322234464 E 56, 52414786745930918 E 57, 37067339683791780 E 58, 25719128922941976 E 59, 17514655662090419 E 60, 11710493600651642 E 61, 76898797732110707 E 63, 49610337995514515 E 64, 31453279367978828 E 65, 19603297751500752 E 66, 12013951926861958 E 67, bnil.
Definition r733 := 68212794694629736 E 18, 58906878607603595 E 18, 44103567433673281 E 18, 28822589771537236 E 18, 16578584022928309 E 18, 84668931540263503 E 19, 38724687849624379 E 19, 15989403293999271 E 19, 60042172616313306 E 20, 20642063707069618 E 20, 65361411791614777 E 21, 19164204925551603 E 21, 52281630484105585 E 22, 13328166294719321 E 22, 31874299442117863 E 23, 71759762048441826 E 24, 15256961201302015 E 24, 30722150303017550 E 25, 58744877830591437 E 26, 10692106068117858 E 26, 18564553672085595 E 27, 30811288182168515 E 28, 48971885853515662 E 29, 74669250129263387 E 30, 10939219234286051 E 30, 15421365576376705 E 31, 20948329437865869 E 32, 27455165813807314 E 33, 34759110554115939 E 34, 42557097636380898 E 35, 50442077858425156 E 36, 57937936402160507 E 37, 64548859053823466 E 38, 69815688649168999 E 39, 73370026126787983 E 40, 74977046706299462 E 41, 74560162273258907 E 42, 72204198668275755 E 43, 68137782413640988 E 44, 62699204003079200 E 45, 56292407471523484 E 46, 49340584218695159 E 47, 42244171229161044 E 48, 35348252048656234 E 49, 28921995722255383 E 50, 23150417306645864 E 51, 18136850663774617 E 52, 13913338125651463 E 53, 10455704935594131 E 54, 77002808425939694 E 56, 55598476974717049 E 57, 39372009788481544 E 58, 27355189676892747 E 59, 18654026496532941 E 60, 12489178973004817 E 61, 82123248817736303 E 63, 53052617249389859 E 64, 33681294896335652 E 65, 21020370125070169 E 66, 12899878947060555 E 67, bnil.
Definition r734 := 68119862311540963 E 18, 58839284512499784 E 18, 44071108423598265 E 18, 28818093488250287 E 18, 16587912998836416 E 18, 84786906286415976 E 19, 38814284055043238 E 19, 16042261502279447 E 19, 60303709032459888 E 20, 20754624075680294 E 20, 65792052943228695 E 21, 19312846777538405 E 21, 52749581362282263 E 22, 13463681119109301 E 22, 32237788805450765 E 23, 72668009243256168 E 24, 15469402149747408 E 24, 31189260086969274 E 25, 59713916549776231 E 26, 10882394828586370 E 26, 18919276785407649 E 27, 31440643346765477 E 28, 50037128253413959 E 29, 76392983990406564 E 30, 11206398671862952 E 30, 15818756905040436 E 31, 21516431005011596 E 32, 28236939460971559 E 33, 35796138166778013 E 34, 43884851401862060 E 35, 52084889280169523 E 36, 59904423441870886 E 37, 66828605349559956 E 38, 72377837754667326 E 39, 76164173153934396 E 40, 77936435382984631 E 41, 77606808319999150 E 42, 75255244892544498 E 43, 71112212189513741 E 44, 65524027956688741 E 45, 58907583285961495 E 46, 51702187817538492 E 47, 44325646231444221 E 48, 37139858493960074 E 49, 30428807102832136 E 50, 24389347826441221 E 51, 19133227713527196 E 52, 14697483791220764 E 53, 11059882843220552 E 54, 81562322659542483 E 56, 58970113936208695 E 57, 41816043124441369 E 58, 29092535558934764 E 59, 19865574449380818 E 60, 13318315997361934 E 61, 87693744851529076 E 63, 56727879487647874 E 64, 36063337871962705 E 65, 22537464737930950 E 66, 13849625972948817 E 67, bnil.
Definition r735 := 68027182794221652 E 18, 58771839954863819 E 18, 44038676690195615 E 18, 28813556492145724 E 18, 16597194316723487 E 18, 84904614104434964 E 19, 38903813215019297 E 19, 16095148554060700 E 19, 60565712679566436 E 20, 20867524240929551 E 20, 66224527370274588 E 21, 19462307065653860 E 21, 53220698859155606 E 22, 13600285421315521 E 22, 32604666992210402 E 23, 73585898901481769 E 24, 15684375235582531 E 24, 31662549866213427 E 25, 60697053738566471 E 26, 11075704331935854 E 26, 19280103446211381 E 27, 32081669527372084 E 28, 51123555944947656 E 29, 78153323454701358 E 30, 11479613548665147 E 30, 16225664636003845 E 31, 22098910735635317 E 32, 29039567017157256 E 33, 36862249150404276 E 34, 45251665561926633 E 35, 53778291702098391 E 36, 61934183637557465 E 37, 69184858419198615 E 38, 75029523962674885 E 39, 79059848043369694 E 40, 81007477910337257 E 41, 80772652454055148 E 42, 78429928250008718 E 43, 74211342343407073 E 44, 68471246167752068 E 45, 61639748283001729 E 46, 54172765179099674 E 47, 46506107395043161 E 48, 39019200115856369 E 49, 32011542117239581 E 50, 25692462695400373 E 51, 20182639912485653 E 52, 15524484694913132 E 53, 11697942246188153 E 54, 86384043481144271 E 56, 62540471176887760 E 57, 44407628569303541 E 58, 30937263759167380 E 59, 21153748477869593 E 60, 14201087301709298 E 61, 93632615470777875 E 63, 60651495918359194 E 64, 38609793642965752 E 65, 24161470827674322 E 66, 14867681523929926 E 67, bnil.
Definition r736 := 67934755112195655 E 18, 58704544464951672 E 18, 44006272313981659 E 18, 28808979034257606 E 18, 16606428123790998 E 18, 85022055133175244 E 19, 38993274924740478 E 19, 16148064097628214 E 19, 60828182040308066 E 20, 20980763981005347 E 20, 66658837197779565 E 21, 19612588022910686 E 21, 53694996261836852 E 22, 13737985317976259 E 22, 32974957746956965 E 23, 74513511876766505 E 24, 15901905162536850 E 24, 32142088382180851 E 25, 61694465470628595 E 26, 11272076428702971 E 26, 19647126554905913 E 27, 32734560327983480 E 28, 52231549371990814 E 29, 79950976086955510 E 30, 11758988816795481 E 30, 16642298881812302 E 31, 22696105901793404 E 32, 29863566448824612 E 33, 37958206095980151 E 34, 46658618427476876 E 35, 55523751960602652 E 36, 64029139491217661 E 37, 71620049393533066 E 38, 77773717355944411 E 39, 82060560483361761 E 40, 84194190279284467 E 41, 84062149111728228 E 42, 81733042661912439 E 43, 77440183396422601 E 44, 71545948902470307 E 45, 64493932991228919 E 46, 56757156157982589 E 47, 48790091089530317 E 48, 40990422034568429 E 49, 33673895627685981 E 50, 27062976739380672 E 51, 21287819176695006 E 52, 16396609491552470 E 53, 12371725145743115 E 54, 91482601102989220 E 56, 66320921292125832 E 57, 47155422113170697 E 58, 32895828048752808 E 59, 22523264144453488 E 60, 15140870831091066 E 61, 99963592973536723 E 63, 64839825571258492 E 64, 41331730027296864 E 65, 25899740360716827 E 66, 15958842126604827 E 67, bnil.
Definition r737 := 67842578240575102 E 18, 58637397574814981 E 18, 43973895374300347 E 18, 28804361364299154 E 18, 16615614566960583 E 18, 85139229514571823 E 19, 39082668782185219 E 19, 16201007782087715 E 19, 61091115594829487 E 20, 21094343070252852 E 20, 67094984530650153 E 21, 19763691877066774 E 21, 54172486863440523 E 22, 13876786940815295 E 22, 33348684913899256 E 23, 75450929491191665 E 24, 16122016815120100 E 24, 32627944981165373 E 25, 62706329624915853 E 26, 11471553458616546 E 26, 20020440230100916 E 27, 33399512165403096 E 28, 53361495042203409 E 29, 81786661724635371 E 30, 12044651771035091 E 30, 17068873988932192 E 31, 23308361044429664 E 32, 30709467611302291 E 33, 39084790166676817 E 34, 48106816081956036 E 35, 57322776728187687 E 36, 66191268413446087 E 37, 74136682252819891 E 38, 80613481190889770 E 39, 85169935201097890 E 40, 87500725770454642 E 41, 87479911287159019 E 42, 85169559457109153 E 43, 80803938372374903 E 44, 74753429194131244 E 45, 67475375451371626 E 46, 59460407118551387 E 47, 51182333685652886 E 48, 43057858014573951 E 49, 35419735908661036 E 50, 28504260248665969 E 51, 22451633432449794 E 52, 17316243024223207 E 53, 13083170516070542 E 54, 96873416911915621 E 56, 70323468201281624 E 57, 50068572698416717 E 58, 34975059019725047 E 59, 23979119134573436 E 60, 16141251498477295 E 61, 10671189801951912 E 62, 69310277084323201 E 64, 44240940990551397 E 65, 27760118319141428 E 66, 17128232922784064 E 67, bnil.
Definition r738 := 67750651160022698 E 18, 58570398818294019 E 18, 43941545949334068 E 18, 28799703730669306 E 18, 16624753792872676 E 18, 85256137393611639 E 19, 39171994388113194 E 19, 16253979257368901 E 19, 61354511820788289 E 20, 21208261279190228 E 20, 67532971453663013 E 21, 19915620850584761 E 21, 54653183962850336 E 22, 14016696436571385 E 22, 33725872436867280 E 23, 76398233536337363 E 24, 16344735259396779 E 24, 33120189617988298 E 25, 63732825899583873 E 26, 11674178255139848 E 26, 20400139821781887 E 27, 34076724303879952 E 28, 54513785610656384 E 29, 83661112665047377 E 30, 12336732087969414 E 30, 17505608614564163 E 31, 23936028115677691 E 32, 31577812498533230 E 33, 40242801514479810 E 34, 49597393043906879 E 35, 59176913520467547 E 36, 68422604189438029 E 37, 76737335875215389 E 38, 83551974649763934 E 39, 88391715523999528 E 40, 90931379399204807 E 41, 91030715891093406 E 42, 88744633619903634 E 43, 84308009850846215 E 44, 78099190560608436 E 45, 70589529409732242 E 46, 62287779382914288 E 47, 53687780022163019 E 48, 45226038719804726 E 49, 37253112483226985 E 50, 30019846225454453 E 51, 23677093151487305 E 52, 18285892073466905 E 53, 13834319241743250 E 54, 10257274488838914 E 55, 74560781105676758 E 57, 53156749444128649 E 58, 37182185438613154 E 59, 25526609650830725 E 60, 17206033510516962 E 61, 11390433041951383 E 62, 74081374248616459 E 64, 47349993043987257 E 65, 29750974917829196 E 66, 18381329620927607 E 67, bnil.
Definition r739 := 67658972856714239 E 18, 58503547731010477 E 18, 43909224116114587 E 18, 28795006380459336 E 18, 16633845947885181 E 18, 85372778918305602 E 19, 39261251346055966 E 19, 16306978174228811 E 19, 61618369193398392 E 20, 21322518374524603 E 20, 67972800031456900 E 21, 20068377160591805 E 21, 55137100864485664 E 22, 14157719966927373 E 22, 34106544359282561 E 23, 77355506274341758 E 24, 16570085743760258 E 24, 33618892859671171 E 25, 64774135825969982 E 26, 11879994150042142 E 26, 20786321924593653 E 27, 34766398890087612 E 28, 55688819964414788 E 29, 85575073854954383 E 30, 12635361865682628 E 30, 17952725804687550 E 31, 24579466623654962 E 32, 32469155497561079 E 33, 41433059705335425 E 34, 51131512944038648 E 35, 61087751726668012 E 36, 70725238481334707 E 37, 79424666138942435 E 38, 86592455668982532 E 39, 91729767044680885 E 40, 94490592496384342 E 41, 94719509280966670 E 42, 92463610246585628 E 43, 87958007265927161 E 44, 81588955001742707 E 45, 73842072820491174 E 46, 65244758009477241 E 47, 56311592216084593 E 48, 47499700315531251 E 49, 39178264299639345 E 50, 31613437956503870 E 51, 24967358188764809 E 52, 19308191380931764 E 53, 14627319297972636 E 54, 10859771512195386 E 55, 79046230214264900 E 57, 56430170326978207 E 58, 39524856773238812 E 59, 27171347731544302 E 60, 18339253406100576 E 61, 12156936530665829 E 62, 79172825533506432 E 64, 50672274527487238 E 65, 31881239871578964 E 66, 19723981876276565 E 67, bnil.
Definition r740 := 67567542322301485 E 18, 58436843850360465 E 18, 43876929950533730 E 18, 28790269559459309 E 18, 16642891178072220 E 18, 85489154239660643 E 19, 39350439262307753 E 19, 16360004184255159 E 19, 61882686185472870 E 20, 21437114119167956 E 20, 68414472308524552 E 21, 20221963018839638 E 21, 55624250878067467 E 22, 14299863708438752 E 22, 34490724824125622 E 23, 78322830438950802 E 24, 16798093699705740 E 24, 34124125889116482 E 25, 65830442782633114 E 26, 12089044977999322 E 26, 21179084391231711 E 27, 35468740988445654 E 28, 56887003308084897 E 29, 87529303082648540 E 30, 12940675664026923 E 30, 18410453073351974 E 31, 25239043779785797 E 32, 33384063647835501 E 33, 42656404152968115 E 34, 52710369217087787 E 35, 63056923664137245 E 36, 73101322367735455 E 37, 82201408079487991 E 38, 89738283845548596 E 39, 95188081392367301 E 40, 98182957428722024 E 41, 98551412967461216 E 42, 96332031217235480 E 43, 91759754458748152 E 44, 85228671286241380 E 45, 77238916667965481 E 46, 68337060914403007 E 47, 59059158829729119 E 48, 49883793430870462 E 49, 41199628262471353 E 50, 33288916924945310 E 51, 26325744936295531 E 52, 20385909960093050 E 53, 15464431185175222 E 54, 11496637952554018 E 55, 83793924325925583 E 57, 59899632393900190 E 58, 42011166955103770 E 59, 28919279544209034 E 60, 19545193847720376 E 61, 12973725499928861 E 62, 84605597827105884 E 64, 54222047951868571 E 65, 34160438839124145 E 66, 21162438190202992 E 67, bnil.
Definition r741 := 67476358553875196 E 18, 58370286715507362 E 18, 43844663527354007 E 18, 28785493512164580 E 18, 16651889629222816 E 18, 85605263511652104 E 19, 39439557745916008 E 19, 16413056939869628 E 19, 62147461267467250 E 20, 21552048272253195 E 20, 68857990309205931 E 21, 20376380631664906 E 21, 56114647318385046 E 22, 14443133852461940 E 22, 34878438073901310 E 23, 79300289236561272 E 24, 17028784742603050 E 24, 34635960508796490 E 25, 66901932009458149 E 26, 12301375081224127 E 26, 21578526345943108 E 27, 36183958616788007 E 28, 58108747250336944 E 29, 89524571172510738 E 30, 13252810545474038 E 30, 18879022483234207 E 31, 25915134648693184 E 32, 34323116905419477 E 33, 43913694561531309 E 34, 54335185808768687 E 35, 65086105657379173 E 36, 75553067921227718 E 37, 85070378103170675 E 38, 92992923423592746 E 39, 98770780113670464 E 40, 10201322246283631 E 40, 10253172950284623 E 41, 10035564208958956 E 42, 95719297492167343 E 44, 89024523538056514 E 45, 80786214120290856 E 46, 71570648348759289 E 47, 61936104408273312 E 48, 52383492496396683 E 49, 43321848132986328 E 50, 35050351075859644 E 51, 27755733807098358 E 52, 21521957707223521 E 53, 16348033629896293 E 54, 12169775985591083 E 55, 88818750361643226 E 57, 63576543585733032 E 58, 44649679442998995 E 59, 30776704707049057 E 60, 20828398207792221 E 61, 13844013688239293 E 62, 90401994640236194 E 64, 58014505585192716 E 65, 36598732178597763 E 66, 22703372424885525 E 67, bnil.
Definition r742 := 67385420553928668 E 18, 58303875867374753 E 18, 43812424920219202 E 18, 28780678481782295 E 18, 16660841446839686 E 18, 85721106891196077 E 19, 39528606408672168 E 19, 16466136094331085 E 19, 62412692907521880 E 20, 21667320589150143 E 20, 69303356037681620 E 21, 20531632199949638 E 21, 56608303505062151 E 22, 14587536605082051 E 22, 35269708450600879 E 23, 80287966347254014 E 24, 17262184672467969 E 24, 35154469144449514 E 25, 67988790621820139 E 26, 12517029314125345 E 26, 21984748198135996 E 27, 36912262782378257 E 28, 59354469891408169 E 29, 91561662182077485 E 30, 13571906116555660 E 30, 19358670727476721 E 31, 26608122300696911 E 32, 35286908412178050 E 33, 45205811377249364 E 34, 56007217898109244 E 35, 67177019142126361 E 36, 78082749824793865 E 37, 88034476258435497 E 38, 96359946363074304 E 39, 10248211866567552 E 39, 10598629677696015 E 40, 10666594855654462 E 41, 10454039922193781 E 42, 99842912736226791 E 44, 92982940132512163 E 45, 84490370026369430 E 46, 74951732744580388 E 47, 64948299402208542 E 48, 55004205471883072 E 49, 45549783814081168 E 50, 36902003450806617 E 51, 29260977063910590 E 52, 22719392326370258 E 53, 17280629564677879 E 54, 12881189815254837 E 55, 94136414944336038 E 57, 67472956254916188 E 58, 47449453656831804 E 59, 32750296694664323 E 60, 22193685994387607 E 61, 14771214765288828 E 62, 96585739036400248 E 64, 62065828478542171 E 65, 39206956157073624 E 66, 24353912035329460 E 67, bnil.
Definition r743 := 67294727330321380 E 18, 58237610848639404 E 18, 43780214201664822 E 18, 28775824710237770 E 18, 16669746776137990 E 18, 85836684538122109 E 19, 39617584865102194 E 19, 16519241301738746 E 19, 62678379571504724 E 20, 21782930821481614 E 20, 69750571477966865 E 21, 20687719919082065 E 21, 57105232762323521 E 22, 14733078187040251 E 22, 35664560395662259 E 23, 81285945925820593 E 24, 17498319474733325 E 24, 35679724848784320 E 25, 69091207624812402 E 26, 12736053047996780 E 26, 22397851656099543 E 27, 37653867518276238 E 28, 60624595911597853 E 29, 93641373601646029 E 30, 13898104569900001 E 30, 19849639212825872 E 31, 27318397966959000 E 32, 36276044770034275 E 33, 46533656249217328 E 34, 57727752635477483 E 35, 69331431794986691 E 36, 80692707027980443 E 37, 91096688566274319 E 38, 99843035492754627 E 39, 10632649052438542 E 39, 11010725562459819 E 40, 11095975318353937 E 41, 10889247713224881 E 42, 10413711523327114 E 43, 97110602912799516 E 45, 88358050768345065 E 46, 78486788943546169 E 47, 68101870489511754 E 48, 57751583979783549 E 49, 47888521035741790 E 50, 38848341207128726 E 51, 30845307007943166 E 52, 23981426582704755 E 53, 18264852400034216 E 54, 13632990971258262 E 55, 99763488128849200 E 57, 71601602464493355 E 58, 50420072854214450 E 59, 34847124386727536 E 60, 23646169163237383 E 61, 15758954429317479 E 62, 10318206156524963 E 63, 66393249138185841 E 65, 41996666765374643 E 66, 26121668127021688 E 67, bnil.
Definition r744 := 67204277896243059 E 18, 58171491203724258 E 18, 43748031443128436 E 18, 28770932438180966 E 18, 16678605762044194 E 18, 85951996615146013 E 19, 39706492732457209 E 19, 16572372217035318 E 19, 62944519723053503 E 20, 21898878717139557 E 20, 70199638593906497 E 21, 20844645978917637 E 21, 57605448418761468 E 22, 14879764833660719 E 22, 36063018449927198 E 23, 82294312602780756 E 24, 17737215321018950 E 24, 36211801305192110 E 25, 70209373927535702 E 26, 12958492175735519 E 26, 22817939740834147 E 27, 38408989920057059 E 28, 61919556660761220 E 29, 95764516556440604 E 30, 14231550726871778 E 30, 20352174144087389 E 31, 28046361197315887 E 32, 37291146320375595 E 33, 47898152499524006 E 34, 59498109896607113 E 35, 71551158689203846 E 36, 83385344443727548 E 37, 94260089411194398 E 38, 10344598774959117 E 38, 11030843141163312 E 39, 11438134565443269 E 40, 11541902629137943 E 41, 11341827610091780 E 42, 10860866735188789 E 43, 10141445673779298 E 44, 92396194482270267 E 46, 82182564822458971 E 47, 71403211312924867 E 48, 60631533860657201 E 49, 50343381457575903 E 50, 40894045038496756 E 51, 32512744543603477 E 52, 25311435899242021 E 53, 19303472602293581 E 54, 14427403872485444 E 55, 10571744938956560 E 56, 75975931160002837 E 58, 53571673526064759 E 59, 37074674821788395 E 60, 25191269365399346 E 61, 16811083215764386 E 62, 11021779349282936 E 63, 71015118063134823 E 65, 44980186298387585 E 66, 28014767454149419 E 67, bnil.
Definition r745 := 67114071270177961 E 18, 58105516478791433 E 18, 43715876714959925 E 18, 28766001904992830 E 18, 16687418549194855 E 18, 86067043287842808 E 19, 39795329630704160 E 19, 16625528496010044 E 19, 63211111823617929 E 20, 22015164020301156 E 20, 70650559329170053 E 21, 21002412563740251 E 21, 58108963807102334 E 22, 15027602794777163 E 22, 36465107253595919 E 23, 83313151485391415 E 24, 17978898569900730 E 24, 36750772831465867 E 25, 71343482357448974 E 26, 13184393116589762 E 26, 23245116799992393 E 27, 39177850182885299 E 28, 63239790248810830 E 29, 97931916011367663 E 30, 14572392080822469 E 30, 20866526609916656 E 31, 28792420020837962 E 32, 38332847428696241 E 33, 49300245602867252 E 34, 61319643052935334 E 35, 73838063477082470 E 36, 86163134686777318 E 37, 97527843994190457 E 38, 10717271750675619 E 38, 11443262364365367 E 39, 11881399039091527 E 40, 12004985731170867 E 41, 11812443002475546 E 42, 11326458773911392 E 43, 10590171937249671 E 44, 96612021660061783 E 46, 86046092330200322 E 47, 74858993648296957 E 48, 63650226167355360 E 49, 52919933205647892 E 50, 43044019013841819 E 51, 34267508135788608 E 52, 26712966312583612 E 53, 20399404591689974 E 54, 15266771669197186 E 55, 11201673597827385 E 56, 80610147310386736 E 58, 56914976391369428 E 59, 39440877221504162 E 60, 26834736182651289 E 61, 17931690057814834 E 62, 11772146563857563 E 63, 75950974379871385 E 65, 48170652870705641 E 66, 30041886480350940 E 67, bnil.
Definition r746 := 67024106475869455 E 18, 58039686221735179 E 18, 43683750086431709 E 18, 28761033348791671 E 18, 16696185281935508 E 18, 86181824724619726 E 19, 39884095182516335 E 19, 16678709795301708 E 19, 63478154332501644 E 20, 22131786471445001 E 20, 71103335607248006 E 21, 21161021852223742 E 21, 58615792263973412 E 22, 15176598334658954 E 22, 36870851546179546 E 23, 84342548158648667 E 24, 18223395767679014 E 24, 37296714383527631 E 25, 72493727674783102 E 26, 13413802820936429 E 26, 23679488521931778 E 27, 39960671638947258 E 28, 64585741637235360 E 29, 10014441097838732 E 29, 14920778840958718 E 30, 21392952669962519 E 31, 29556991109158091 E 32, 39401796774564029 E 33, 50740903675834746 E 34, 63193739758575220 E 35, 76194059599642261 E 36, 89028619854599980 E 37, 10090321084921119 E 37, 11102725999253925 E 38, 11870390060459236 E 39, 12341079588010021 E 40, 12485854908241144 E 41, 12301781453006318 E 42, 11811216058064989 E 43, 11057989173280187 E 44, 10101304614628768 E 45, 90084698951370413 E 47, 78476179020530810 E 48, 66814108615435657 E 49, 55624001861522654 E 50, 45303400852522047 E 51, 36114023177057420 E 52, 28189742804027170 E 53, 21555713975740152 E 54, 16153562377524707 E 55, 11868079377036419 E 56, 85519253118824857 E 58, 60461319075354427 E 59, 41954128354046268 E 60, 28582666405478441 E 61, 19125116641693257 E 62, 12572341314665304 E 63, 81221620819537724 E 65, 51582073047559599 E 66, 32212287631424823 E 67, bnil.
Definition r747 := 66934382542284898 E 18, 57973999982174958 E 18, 43651651625748772 E 18, 28756027006439488 E 18, 16704906104319534 E 18, 86296341096689707 E 19, 39972789013263989 E 19, 16731915772401644 E 19, 63745645706904006 E 20, 22248745807367429 E 20, 71557969331448353 E 21, 21320476017393742 E 21, 59125947129669747 E 22, 15326757731936860 E 22, 37280276166449408 E 23, 85382588686279136 E 24, 18470733649145766 E 24, 37849701559162555 E 25, 73660306587014430 E 26, 13646768775088161 E 26, 24121161949879006 E 27, 40757680795242436 E 28, 65957862731642168 E 29, 10240285472652570 E 29, 15276863976835521 E 30, 21931713443382027 E 31, 30340499942610004 E 32, 40498657646997789 E 33, 52221117976023054 E 34, 65121822754244775 E 35, 78621111524070398 E 36, 91984413351791311 E 37, 10438954442463679 E 37, 11501377480243569 E 38, 12312725134829600 E 39, 12817755650538848 E 40, 12985162494662908 E 41, 12810555535285867 E 42, 12315894517911144 E 43, 11545676849660028 E 44, 10560708654377321 E 45, 94306019612337449 E 47, 82262030784272769 E 48, 70129917507923548 E 49, 58461681922125044 E 50, 47677572654297267 E 51, 38056931782717771 E 52, 29745678023096871 E 53, 22775625133618803 E 54, 17090375320366762 E 55, 12573013072308078 E 56, 90719091409379904 E 58, 64222690559588879 E 59, 44623319309027246 E 60, 30441524411474349 E 61, 20395972601916784 E 62, 13425588653777770 E 63, 86849203297122204 E 65, 55229377781715162 E 66, 34535857877319084 E 67, bnil.
Definition r748 := 66844898503580816 E 18, 57908457311448475 E 18, 43619581400058699 E 18, 28750983113548293 E 18, 16713581160107082 E 18, 86410592578044839 E 19, 40061410751004905 E 19, 16785146085656619 E 19, 64013584401961755 E 20, 22366041761198610 E 20, 72014462384893644 E 21, 21480777226589540 E 21, 59639441747921013 E 22, 15478087279528359 E 22, 37693406052384481 E 23, 86433359611725576 E 24, 18720939138351195 E 24, 38409810601761273 E 25, 74843417763402396 E 26, 13883339006130438 E 26, 24570245496207233 E 27, 41569107371738331 E 28, 67356612475335569 E 29, 10470811499455852 E 29, 15640803263482373 E 30, 22483075198745586 E 31, 31143380979219813 E 32, 41624108245346973 E 33, 53741903411174852 E 34, 67105350688486897 E 35, 81121236009559752 E 36, 95033201758921239 E 37, 10799029773132662 E 37, 11913654950679134 E 38, 12770782533183274 E 39, 13312026097798492 E 40, 13503583607508663 E 41, 13339503699456931 E 42, 12841278586067145 E 43, 12054044909370171 E 44, 11040227804249990 E 45, 98718009045988264 E 47, 86224126687121165 E 48, 73604690153239598 E 49, 61439348749763359 E 50, 50172172103449340 E 51, 40101103032633116 E 52, 31384881421298176 E 53, 24062529167956535 E 54, 18079947889465655 E 55, 13318637307551948 E 56, 96226391300592700 E 58, 68211767497064690 E 59, 47457863760084417 E 60, 32418163705085851 E 61, 21749151604223046 E 62, 14335316940729312 E 63, 92857295367264896 E 65, 59128481858368977 E 66, 37023149789097198 E 67, bnil.
Definition r749 := 66755653399068277 E 18, 57843057762604864 E 18, 43587539475461519 E 18, 28745901904486358 E 18, 16722210592763995 E 18, 86524579345429679 E 19, 40149960026474880 E 19, 16838400394271677 E 19, 64281968870790048 E 20, 22483674062418900 E 20, 72472816630518667 E 21, 21641927641426366 E 21, 60156289465658496 E 22, 15630593284562473 E 22, 38110266241115399 E 23, 87494947959121661 E 24, 18974039349368901 E 24, 38977118404068311 E 25, 76043261849585820 E 26, 14123562086788087 E 26, 25026848956825625 E 27, 42395184339889067 E 28, 68782456943935760 E 29, 10706107420638913 E 29, 16012755327169132 E 30, 23047309445350021 E 31, 31966077826592079 E 32, 42778841985762198 E 33, 55304299058511607 E 34, 69145818956514053 E 35, 83696503402123406 E 36, 98177746746825196 E 37, 11170902505881932 E 37, 12340000335641282 E 38, 13245093728425497 E 39, 13824509850698542 E 40, 14041816901833639 E 41, 13889391166173422 E 42, 13388182222074597 E 43, 12583934908738608 E 44, 11540708468673863 E 45, 10332895463202816 E 46, 90370371933762899 E 48, 77245777795811081 E 49, 64563671032416182 E 50, 52793104167166465 E 51, 42251643679339559 E 52, 33111668814672168 E 53, 25419992241221640 E 54, 19125162644120971 E 55, 14107232442624667 E 56, 10205881628262976 E 57, 72441952490003301 E 59, 50467727795222037 E 60, 34519849682895568 E 61, 23189848366509023 E 62, 15305170315590874 E 63, 99270987847200768 E 65, 63296347062064002 E 66, 39685425225432750 E 67, bnil.
Definition r750 := 66666646273178629 E 18, 57777800890397552 E 18, 43555525917019604 E 18, 28740783612384472 E 18, 16730794545460771 E 18, 86638301578315473 E 19, 40238436473078358 E 19, 16891678358312975 E 19, 64550797564524084 E 20, 22601642436875194 E 20, 72933033911069266 E 21, 21803929417757940 E 21, 60676503632782503 E 22, 15784282068304398 E 22, 38530881868866712 E 23, 88567441234259720 E 24, 19230061587060424 E 24, 39551702511938567 E 25, 77260041482242675 E 26, 14367487140321992 E 26, 25491083525683114 E 27, 43236147961521952 E 28, 70235869441050756 E 29, 10946262968915229 E 29, 16392881691819846 E 30, 23624693025959551 E 31, 32809043416734962 E 32, 43963567813350665 E 33, 56909368694447959 E 34, 71244760557022881 E 35, 86349038958995001 E 36, 10142088703735933 E 36, 11554938476131510 E 37, 12780869108862631 E 38, 13736207221422263 E 39, 14355846515415366 E 40, 14600585349572084 E 41, 14461010849852368 E 42, 13957449971972265 E 43, 13136221196085172 E 44, 12063031209587860 E 45, 10814748973028074 E 46, 94709012770133227 E 48, 81060859079639132 E 49, 67841623775180740 E 50, 55546553309136074 E 51, 44513909342895729 E 52, 34930572394539069 E 53, 26851764314622575 E 54, 20229054762720929 E 55, 14941202783094485 E 56, 10823501482034983 E 57, 76927414433112728 E 59, 53663461399199914 E 60, 36754283692080980 E 61, 24723576670891646 E 62, 16339021916135470 E 63, 10611698391419426 E 64, 67751049292351556 E 66, 42534701812583491 E 67, bnil.
Definition r751 := 66577876175429512 E 18, 57712686251277616 E 18, 43523540788767356 E 18, 28735628469142217 E 18, 16739333161071540 E 18, 86751759458873791 E 19, 40326839726878907 E 19, 16944979638710562 E 19, 64820068932359780 E 20, 22719946606797214 E 20, 73395116049101031 E 21, 21966784705639104 E 21, 61200097601929572 E 22, 15939159966079557 E 22, 38955278170896130 E 23, 89650927425549405 E 24, 19489033347838550 E 24, 40133641128100419 E 25, 78493961303810049 E 26, 14615163845455512 E 26, 25963061809385628 E 27, 44092237828093219 E 28, 71717330595007923 E 29, 11191369389406857 E 29, 16781346826081612 E 30, 24215508210993028 E 31, 33672740183867461 E 32, 45179010520108328 E 33, 58558201334871477 E 34, 73403746967325803 E 35, 89081024203229769 E 36, 10476554041165263 E 36, 11951514211509299 E 37, 13236730683631027 E 38, 14244689056018263 E 39, 14906697037856714 E 40, 15180637042803302 E 41, 15055184312112812 E 42, 14549958064004846 E 43, 13711812132222529 E 44, 12608112065491136 E 45, 11318260752503269 E 46, 99248650607370646 E 48, 85057954065841936 E 49, 71280501844588645 E 50, 58438996240132861 E 51, 46893516213739549 E 52, 36846351206656126 E 53, 28361788308268013 E 54, 21394819864016439 E 55, 15823083106925498 E 56, 11477467361065398 E 57, 81683131030199673 E 59, 57056231676631475 E 60, 39129628453297417 E 61, 26356188422910743 E 62, 17440987882215972 E 63, 11342370000254850 E 64, 72511849868335118 E 66, 45583802391725887 E 67, bnil.
Definition r752 := 66489342160391027 E 18, 57647713403386758 E 18, 43491584153720772 E 18, 28730436705434115 E 18, 16747826582173060 E 18, 86864953171950834 E 19, 40415169426589780 E 19, 16998303897261063 E 19, 65089781421594770 E 20, 22838586290813926 E 20, 73859064846978805 E 21, 22130495649288881 E 21, 61727084728239983 E 22, 16095233327197348 E 22, 39383480481431184 E 23, 90745495004967602 E 24, 19750982320429682 E 24, 40723013115925972 E 25, 79745227977265581 E 26, 14866642441330952 E 26, 26442897841928050 E 27, 44963696900315903 E 28, 73227328456654699 E 29, 11441519462007840 E 29, 17178318191056509 E 30, 24820042794176847 E 31, 34557640245253167 E 32, 46425911068724238 E 33, 60251911786177618 E 34, 75624389037154025 E 35, 91894698309135381 E 36, 10821470576691567 E 36, 12361017224906009 E 37, 13708068814249508 E 38, 14771123348689483 E 39, 15477744377645442 E 40, 15782746022105388 E 41, 15672762746333551 E 42, 15166615541635141 E 43, 14311651354225228 E 44, 13176903919107710 E 45, 11844367539910891 E 46, 10399825670606867 E 47, 89245438825999142 E 49, 74887934088353574 E 50, 61477215228278306 E 51, 49396353285724338 E 52, 38864002119899379 E 53, 29954209702166149 E 54, 22625822215849116 E 55, 16755545523712550 E 56, 12169857362880109 E 57, 86724933597506865 E 59, 60657857909069055 E 60, 41654534923042497 E 61, 28093893816970557 E 62, 18615442192905424 E 63, 12122137284404354 E 64, 77599271276438327 E 66, 48846407618068810 E 67, bnil.
Definition r753 := 66401043287652312 E 18, 57582881906550566 E 18, 43459656073887153 E 18, 28725208550715815 E 18, 16756274951043763 E 18, 86977882905041447 E 19, 40503425213564304 E 19, 17051650796630305 E 19, 65359933477668764 E 20, 22957561203969872 E 20, 74324882086877013 E 21, 22295064387053593 E 21, 62257478369125254 E 22, 16252508514874434 E 22, 39815514233603715 E 23, 91851232928999943 E 24, 20015936386634960 E 24, 41319898003208090 E 25, 81014050200969590 E 26, 15121973732496058 E 26, 26930707099541159 E 27, 45850771548162224 E 28, 74766358598237462 E 29, 11696807524028373 E 29, 17583966288704192 E 30, 25438590189683151 E 31, 35464225585105841 E 32, 47705026922352890 E 33, 61991641207251736 E 34, 77908337901493520 E 35, 94792359519174193 E 36, 11177146522288484 E 36, 12783846315016301 E 37, 14195382008318107 E 38, 15316112833219147 E 39, 16069694202168446 E 40, 16407713130734010 E 41, 16314627994288939 E 42, 15808365435061865 E 43, 14936719083922566 E 44, 13770397915372068 E 45, 12394044985700358 E 46, 10896718744205903 E 47, 93632060633935587 E 49, 78671898053988163 E 50, 64668311992561093 E 51, 52028595142430807 E 52, 40988771306487960 E 53, 31633386598516484 E 54, 23925603349859734 E 55, 17741406682839939 E 56, 12902864910496133 E 57, 92069554272855349 E 59, 64480848544187526 E 60, 44338170674555537 E 61, 29943282670346864 E 62, 19867032384504905 E 63, 12954217301544562 E 64, 83035177630742363 E 66, 52337111907306481 E 67, bnil.
Definition r754 := 66312978621788296 E 18, 57518191322271608 E 18, 43427756610274391 E 18, 28719944233230228 E 18, 16764678409662778 E 18, 87090548848263883 E 19, 40591606731786543 E 19, 17105020000356033 E 19, 65630523544204275 E 20, 23076871057741677 E 20, 74792569530780418 E 21, 22460493051370489 E 21, 62791291884036190 E 22, 16410991906157759 E 22, 40251404959381239 E 23, 92968230639573710 E 24, 20283923622090405 E 24, 41924375985944159 E 25, 82300638723568397 E 26, 15381209093920580 E 26, 27426606515654017 E 27, 46753711591242613 E 28, 76334924213367842 E 29, 11957329493122497 E 29, 17998464710923124 E 30, 26071449530773100 E 31, 36392988241611899 E 32, 49017132380452048 E 33, 63778557682593299 E 34, 80257285912820720 E 35, 97776366592988684 E 36, 11543898627900459 E 36, 13220411874543273 E 37, 14699183950108700 E 38, 15880279420794984 E 39, 16683275601251017 E 40, 17056366895384310 E 41, 16981693595849675 E 42, 16476185972482740 E 43, 15588033482618341 E 44, 14389624931497977 E 45, 12968309201707190 E 46, 11416520017573558 E 47, 98226953779438548 E 49, 82640735330648600 E 50, 68019722204164898 E 51, 54796715320822169 E 52, 43226166256725529 E 53, 33403900266665263 E 54, 25297891101559420 E 55, 18783635347715924 E 56, 13678804957920416 E 57, 97734675755675399 E 59, 68538440220261820 E 60, 47190249880515197 E 61, 31911346991494400 E 62, 21200696200223032 E 63, 13842032537764613 E 64, 88842860131112762 E 66, 56071482936777706 E 67, bnil.
Definition r755 := 66225147232326767 E 18, 57453641213722671 E 18, 43395885822900541 E 18, 28714643980013704 E 18, 16773037099709020 E 18, 87202951194334105 E 19, 40679713627861701 E 19, 17158411172850379 E 19, 65901550063046600 E 20, 23196515560054487 E 20, 75262128920485370 E 21, 22626783768731319 E 21, 63328538634230735 E 22, 16570689891847125 E 22, 40691178289496394 E 23, 94096578064981737 E 24, 20554972297025939 E 24, 42536527932126983 E 25, 83605206358958490 E 26, 15644400476043015 E 26, 27930714495972596 E 27, 47672770339564525 E 28, 77933536218085171 E 29, 12223182890502286 E 29, 18421990189318350 E 30, 26718925769964950 E 31, 37344430497116237 E 32, 50363018920784675 E 33, 65613856806779759 E 34, 82672967593110392 E 35, 10084914028921500 E 35, 11922052402346929 E 36, 13671136206246682 E 37, 15220003935310341 E 38, 16464264775935399 E 39, 17319241823031219 E 40, 17729564434313958 E 41, 17674905872763444 E 42, 17171091832378986 E 43, 16266652053587285 E 44, 15035657100950408 E 45, 13568218369347034 E 46, 11960246974771364 E 47, 10303965602827647 E 48, 86803167539504681 E 50, 71539230621134469 E 51, 57707500277308871 E 52, 45581968352221784 E 53, 35270566193043700 E 54, 26746609096035303 E 55, 19885360354047458 E 56, 14500120519034290 E 57, 10373898370928921 E 58, 72844638934462553 E 60, 50221064985217310 E 61, 34005504851972092 E 62, 22621679225172623 E 63, 14789223681304698 E 64, 95047127821107278 E 66, 60066124921187480 E 67, bnil.
Definition r756 := 66137548193715631 E 18, 57389231145739975 E 18, 43364043770802940 E 18, 28709308016902055 E 18, 16781351162560302 E 18, 87315090138540795 E 19, 40767745551006625 E 19, 17211823979402421 E 19, 66173011474303920 E 20, 23316494415298464 E 20, 75733561977601798 E 21, 22793938659646419 E 21, 63869231982542144 E 22, 16731608876417348 E 22, 41134859953373392 E 23, 95236365620797813 E 24, 20829110877023088 E 24, 43156435385541580 E 25, 84927968001310700 E 26, 15911600409847467 E 26, 28443150933674543 E 27, 48608204634672291 E 28, 79562713353023390 E 29, 12494466864441173 E 29, 18854722645663430 E 30, 27381329780746832 E 31, 38319065071517183 E 32, 51743495547684793 E 33, 67498762280470859 E 34, 85157160605995623 E 35, 10401316488076134 E 35, 12311942339527131 E 36, 14136453847019612 E 37, 15758387317428860 E 38, 17068730908662526 E 39, 17978371031624014 E 40, 18428192393627656 E 41, 18395245047560263 E 42, 17894135438136779 E 43, 16973673093947844 E 44, 15709609393201358 E 45, 14194874408925485 E 46, 12528960562444463 E 47, 10808012575380264 E 48, 91168312998921064 E 50, 75234986882942725 E 51, 60768063982337532 E 52, 48062246022591649 E 53, 37238445659405723 E 54, 28275886700495135 E 55, 21049878970971206 E 56, 15369389536164942 E 57, 11010222196341008 E 58, 77414263469102087 E 60, 53441520158568805 E 61, 36233625635080400 E 62, 24135553563329462 E 63, 15799663169112377 E 64, 10167440396539835 E 65, 64338745895977413 E 67, bnil.
Definition r757 := 66050180585290524 E 18, 57324960684816413 E 18, 43332230512047556 E 18, 28703936568536662 E 18, 16789620739292389 E 18, 87426965878719953 E 19, 40855702153040213 E 19, 17265258086180629 E 19, 66444906216387074 E 20, 23436807324345196 E 20, 76206870403555392 E 21, 22961959838608784 E 21, 64413385293147117 E 22, 16893755277940065 E 22, 41582475779051745 E 23, 96387684210782754 E 24, 21106368023771561 E 24, 43784180569568880 E 25, 86269140640155270 E 26, 16182862011970803 E 26, 28964037224721288 E 27, 49560274891171490 E 28, 81222982286692886 E 29, 12771282214069459 E 29, 19296845243065116 E 30, 28058978460855062 E 31, 39317415318918570 E 32, 53159389146688921 E 33, 69434526518158014 E 34, 87711686749465272 E 35, 10727098970424100 E 35, 12713912150042313 E 36, 14616811900182188 E 37, 16314895966131280 E 38, 17694360783349898 E 39, 18661467087180176 E 40, 19153167912544571 E 41, 19143726398657058 E 42, 18646408296360857 E 43, 17710237197561370 E 44, 16412641251212361 E 45, 14849424712278366 E 46, 13123766971825387 E 47, 11335875976637201 E 48, 95745704091752459 E 50, 79115521992587284 E 51, 63985863170704270 E 52, 50673368511704299 E 53, 39312857873715309 E 54, 29890069465827230 E 55, 22280665684745595 E 56, 16289332105438335 E 57, 11684525066172928 E 58, 82262991195837938 E 60, 56863166629119805 E 61, 38604056738278066 E 62, 25748237616256946 E 63, 16877469551668625 E 64, 10875282838518631 E 65, 68908229255427561 E 67, bnil.
Definition r758 := 65963043491242573 E 18, 57260829399094812 E 18, 43300446103738031 E 18, 28698529858370500 E 18, 16797845970678203 E 18, 87538578615230268 E 19, 40943583088373994 E 19, 17318713160235303 E 19, 66717232726049285 E 20, 23557453984564386 E 20, 76682055879591233 E 21, 23130849414058686 E 21, 64961011931334762 E 22, 17057135528005239 E 22, 42034051693108210 E 23, 97550625227782327 E 24, 21386772595824685 E 24, 44419846390996052 E 25, 87628943375527438 E 26, 16458238989840150 E 26, 29493496283287661 E 27, 50529245138640217 E 28, 82914877719885908 E 29, 13053731413464965 E 29, 19748544437838645 E 30, 28752194837138411 E 31, 40340015427586743 E 32, 54611544845636993 E 33, 71422431267866779 E 34, 90338412969494072 E 35, 11062523074426416 E 35, 13128314998355137 E 36, 15112670376185276 E 37, 16890108737832438 E 38, 18341858944683865 E 39, 19369360348960842 E 40, 19905439618493594 E 41, 19921401452767541 E 42, 19429042380276614 E 43, 18477528810660372 E 44, 17145958288651266 E 45, 15533063941033793 E 46, 13745819490715095 E 47, 11888641186777934 E 48, 10054530536311614 E 49, 83189765514956652 E 51, 67368713275924334 E 52, 53422020280676737 E 53, 41499392679117321 E 54, 31593730080368248 E 55, 23581381425640279 E 56, 17262818076840038 E 57, 12399010750672052 E 58, 87407406384023838 E 60, 60498239998500455 E 61, 41125651810631284 E 62, 27466017026734122 E 63, 18027022724133189 E 64, 11631236610990565 E 65, 73794709807394136 E 67, bnil.
Definition r759 := 65876136000586560 E 18, 57196836858361175 E 18, 43268690602024838 E 18, 28693088108674211 E 18, 16806026997186960 E 18, 87649928550928239 E 19, 41031388014002553 E 19, 17372188869500961 E 19, 66989989438425573 E 20, 23678434089840331 E 20, 77159120066777007 E 21, 23300609488348345 E 21, 65512125263274976 E 22, 17221756071642229 E 22, 42489613720575581 E 23, 98725280554615894 E 24, 21670353649353498 E 24, 45063516443832926 E 25, 89007597433172952 E 26, 16737785646840637 E 26, 30031652557309308 E 27, 51515383063928927 E 28, 84638942491214514 E 29, 13341918636041551 E 29, 20210010032101711 E 30, 29461308172028730 E 31, 41387410623260000 E 32, 56100826382345124 E 33, 73463788243020896 E 34, 93039252395000493 E 35, 11407857225330126 E 35, 13555513745606965 E 36, 15624502541920301 E 37, 17484621958827005 E 38, 19011952161187010 E 39, 20102908502063958 E 40, 20685988652902677 E 41, 20729359215753793 E 42, 20243211559657977 E 43, 19276777841960925 E 44, 17910814048915428 E 45, 16247035892864824 E 46, 14396320428065608 E 47, 12467441215892905 E 48, 10557753237809000 E 49, 87467063521348456 E 51, 70924805078157981 E 52, 56315216075965499 E 53, 43803923867545819 E 54, 33391679860127982 E 55, 24955883259628221 E 56, 18292875047778102 E 57, 13156007226137010 E 58, 92865051145863676 E 60, 64359699645021525 E 61, 43807800610945960 E 62, 29295566853930801 E 63, 19252980074596197 E 64, 12438492272444636 E 65, 79019654622255364 E 67, bnil.
Definition r760 := 65789457207129129 E 18, 57132982634038085 E 18, 43236964062114087 E 18, 28687611540541974 E 18, 16814163958983327 E 18, 87761015891143542 E 19, 41119116589493944 E 19, 17425684882798626 E 19, 67263174787071949 E 20, 23799747330588490 E 20, 77638064606007302 E 21, 23471242157706823 E 21, 66066738655787634 E 22, 17387623367240486 E 22, 42949187984858996 E 23, 99911742564956330 E 24, 21957140438899566 E 24, 45715275013134498 E 25, 90405326179814077 E 26, 17021556887513691 E 26, 30578632044149096 E 27, 52518960053852289 E 28, 86395727683790326 E 29, 13635949779238588 E 29, 20681435227095650 E 30, 30186654071639514 E 31, 42460157375860282 E 32, 57628116478958243 E 33, 75559939766683759 E 34, 95816165394542368 E 35, 11763376840784858 E 35, 13995881198217986 E 36, 16152795278836852 E 37, 18099049921278500 E 38, 19705390086764350 E 39, 20862997408455995 E 40, 21495829728574040 E 41, 21568727443090236 E 42, 21090133078763172 E 43, 20109261329071415 E 44, 18708511828103794 E 45, 16992635438184780 E 46, 15076523113884265 E 47, 13073458713001024 E 48, 11085327136993537 E 49, 91957197311228641 E 51, 74662722096423171 E 52, 59360316692132896 E 53, 46232623125705863 E 54, 35288980800831737 E 55, 26408234567506146 E 56, 19382696769855616 E 57, 13957973467552668 E 58, 98654479157844008 E 60, 68461270329887377 E 61, 46660460576874593 E 62, 31243975050478734 E 63, 20560293603118055 E 64, 13300446681326790 E 65, 84605948970242643 E 67, bnil.
Definition r761 := 65703006209437406 E 18, 57069266299177898 E 18, 43205266538276617 E 18, 28682100373897602 E 18, 16822256995926644 E 18, 87871840843654382 E 19, 41206768476980153 E 19, 17479200869838110 E 19, 67536787204004398 E 20, 23921393393772062 E 20, 78118891118008187 E 21, 23642749512205279 E 21, 66624865476111467 E 22, 17554743886469879 E 22, 43412800707649719 E 23, 10111010412420003 E 23, 22247162418126445 E 24, 46375207078829818 E 25, 91822355138474383 E 26, 17309608222785484 E 26, 31134562306381673 E 27, 53540251238274181 E 28, 88185792733054791 E 29, 13935932489514162 E 29, 21163016677241695 E 30, 30928574595512648 E 31, 43558823609655528 E 32, 59194317223086901 E 33, 77712259428391900 E 34, 98671160655158988 E 35, 12129364500163550 E 35, 14449800362395881 E 36, 16698049450072678 E 37, 18734025392382469 E 38, 20422945940742902 E 39, 21650541982978184 E 40, 22336012219559151 E 41, 22440673951142375 E 42, 21971069083803156 E 43, 20976305163064591 E 44, 19540406564148436 E 45, 17771210529819164 E 46, 15787733977274753 E 47, 13707928056352086 E 48, 11638389971060561 E 49, 96670402943548893 E 51, 78591458757085141 E 52, 62565045460119223 E 53, 48791974642380955 E 54, 37290958218290505 E 55, 27942715735127605 E 56, 20535651989510978 E 57, 14807506601289253 E 58, 10479531230504362 E 59, 72817486125426662 E 61, 49694190200159788 E 62, 33318767315683088 E 63, 21954228068287868 E 64, 14220715992614238 E 65, 90577987658877732 E 67, bnil.
Definition r762 := 65616782110807861 E 18, 57005687428456187 E 18, 43173598083856610 E 18, 28676554827500408 E 18, 16830306247570148 E 18, 87982403618663708 E 19, 41294343341147597 E 19, 17532736501220292 E 19, 67810825119737981 E 20, 24043371962918734 E 20, 78601601203342957 E 21, 23815133635722518 E 21, 67186519091673844 E 22, 17723124114200775 E 22, 43880478208836832 E 23, 10232045859032978 E 23, 22540449240569999 E 24, 47043398319556847 E 25, 93258912003865063 E 26, 17601995775226297 E 26, 31699572487698726 E 27, 54579535533590329 E 28, 90009705535771747 E 29, 14241976187645420 E 29, 21654954544941585 E 30, 31687418368036326 E 31, 44683988916924821 E 32, 60800350455841310 E 33, 79922152753804645 E 34, 10160629628378508 E 34, 12506110117663497 E 35, 14917664704683046 E 36, 17260780276806643 E 37, 19390200137030101 E 38, 21165417206888288 E 39, 22466487095015759 E 40, 23207621284475050 E 41, 23346407970499260 E 42, 22887328201515703 E 43, 21879285873141397 E 44, 20407906794391448 E 45, 18584164288277270 E 46, 16531314705532562 E 47, 14372137528162721 E 48, 12218130723654189 E 49, 10161739161124252 E 50, 82720439371944968 E 52, 65937505493177251 E 53, 51488790407303443 E 54, 39403214004821297 E 55, 29563835379547641 E 56, 21755293744184823 E 57, 15707349436344933 E 58, 11130830040243054 E 59, 77443736791030050 E 61, 52920184308317381 E 62, 35527933403231732 E 63, 23440380221254053 E 64, 15203149451499795 E 65, 96961772100822773 E 67, bnil.
Definition r763 := 65530784019235302 E 18, 56942245598165055 E 18, 43141958751280490 E 18, 28670975118951104 E 18, 16838311853160218 E 18, 88092704428774458 E 19, 41381840849227507 E 19, 17586291448439253 E 19, 68085286963325171 E 20, 24165682718137185 E 20, 79086196442417584 E 21, 23988396605910556 E 21, 67751712869860134 E 22, 17892770548423621 E 22, 44352246906415708 E 23, 10354289981476658 E 23, 22837030760387175 E 24, 47719935116503385 E 25, 94715226657829560 E 26, 17898776284340088 E 26, 32273793328933315 E 27, 55637095686609011 E 28, 91868042560188146 E 29, 14554192094338471 E 29, 22157452556129998 E 30, 32463540691554132 E 31, 45836244775174678 E 32, 62447158166868179 E 33, 82191057887389279 E 34, 10462368093165797 E 34, 12893911119263981 E 35, 15399878418672895 E 36, 17841517724047826 E 37, 20068245454303809 E 38, 21933626351891684 E 39, 23311808496533127 E 40, 24111779024225325 E 41, 24287181542631085 E 42, 23840267170461935 E 43, 22819632473371896 E 44, 21312476683964528 E 45, 19432957165333414 E 46, 17308684487313543 E 47, 15067431577048509 E 48, 12825791846400012 E 49, 10680937089383812 E 50, 87059537960606984 E 52, 69486197723983366 E 53, 54330226233144497 E 54, 41631640530690573 E 55, 31276342137033455 E 56, 23045369136712564 E 57, 16660398393525088 E 58, 11821538415509686 E 59, 82356316729058669 E 61, 56350311358450967 E 62, 37879954966083168 E 63, 25024699190573293 E 64, 16251844031740051 E 65, 10378501346208145 E 66, bnil.
Definition r764 := 65445011047382165 E 18, 56878940386206542 E 18, 43110348592065466 E 18, 28665361464697715 E 18, 16846273951635619 E 18, 88202743488965969 E 19, 41469260670986387 E 19, 17639865383884429 E 19, 68360171162394623 E 20, 24288325336133809 E 20, 79572678395487385 E 21, 24162540494160730 E 21, 68320460177783779 E 22, 18063689700168255 E 22, 44828133316394472 E 23, 10477752214321375 E 23, 23136937033103375 E 24, 48404904557253544 E 25, 96191531184847892 E 26, 18200007111884751 E 26, 32857357184205047 E 27, 56713218318833257 E 28, 93761388957374836 E 29, 14872693256151284 E 29, 22670718056587968 E 30, 33257303661188237 E 31, 47016194767959432 E 32, 64135702896505196 E 33, 84520446288371775 E 34, 10772547494215515 E 34, 13293072623619190 E 35, 15896856698030165 E 36, 18440806896080027 E 37, 20768852728145443 E 38, 22728421563833803 E 39, 24187513777198785 E 40, 25049645675118397 E 41, 25264290961181824 E 42, 24831292526712848 E 43, 23798828373563564 E 44, 22255638127408307 E 45, 20319109188722180 E 46, 18121322343003762 E 47, 15795213171537415 E 48, 13462671572948587 E 49, 11225806692453232 E 50, 91619098953243162 E 52, 73220039767874978 E 53, 57323798533576298 E 54, 43982435220874580 E 55, 33085237040113363 E 56, 24409829611738189 E 57, 17669711852915101 E 58, 12553976152765368 E 59, 87572476659925166 E 61, 59997152854581894 E 62, 40383835025781056 E 63, 26713508084811913 E 64, 17371159968981787 E 65, 11107724226128958 E 66, bnil.
Definition r765 := 65359462312548175 E 18, 56815771372086037 E 18, 43078767656828165 E 18, 28659714080041476 E 18, 16854192681626808 E 18, 88312521016570000 E 19, 41556602478716436 E 19, 17693457980842741 E 19, 68635476143189076 E 20, 24411299490229401 E 20, 80061048602663836 E 21, 24337567365569803 E 21, 68892774382056180 E 22, 18235888093422822 E 22, 45308164052697593 E 23, 10602442041649117 E 23, 23440198316358554 E 24, 49098394439640456 E 25, 97688059887601005 E 26, 18505746247223074 E 26, 33450398037186294 E 27, 57808193971147153 E 28, 95690338673755680 E 29, 15197594571732474 E 29, 23194962069025802 E 30, 34069076281398364 E 31, 48224454809357010 E 32, 65866968145164951 E 33, 86911823440182564 E 34, 11091389152250300 E 34, 13703907626966305 E 35, 16409026015951696 E 36, 19059208441784740 E 37, 21492733992544870 E 38, 23550677511144463 E 39, 25094643347340511 E 40, 26022420838400360 E 41, 26279078259242839 E 42, 25861862345642259 E 43, 24818413356369692 E 44, 23238972926046730 E 45, 21244202290846343 E 46, 18970769545528139 E 47, 16556946248172974 E 48, 14130126329221978 E 49, 11797574750949598 E 50, 96409958811346628 E 52, 77148385648639899 E 53, 60477401891796631 E 54, 46462115838794827 E 55, 34995786512100021 E 56, 25852841759085264 E 57, 18738518941008063 E 58, 13330595770165051 E 59, 93110478162814628 E 61, 63874045005849262 E 62, 43049129158243404 E 63, 28513526883611021 E 64, 18565737242291145 E 65, 11886992481280542 E 66, bnil.
Definition r766 := 65274136936639984 E 18, 56752738136905713 E 18, 43047215995293098 E 18, 28654033179142599 E 18, 16862068181455220 E 18, 88422037231247128 E 19, 41643865947226036 E 19, 17747068913500591 E 19, 68911200330603901 E 20, 24534604850375859 E 20, 80551308583922218 E 21, 24513479278906500 E 21, 69468668848557422 E 22, 18409372265052456 E 22, 45792365827067435 E 23, 10728368997136050 E 23, 23746845070651767 E 24, 49800493275603988 E 25, 99205049302593257 E 26, 18816052312704295 E 26, 34053051517489883 E 27, 58922317148908359 E 28, 97655494564835562 E 29, 15529012818379085 E 29, 23730399350944174 E 30, 34899234584299119 E 31, 49461653372153255 E 32, 67641958790064303 E 33, 89366729573632210 E 34, 11419119793980531 E 34, 14126737192129892 E 35, 16936824411207552 E 36, 19697298970070911 E 37, 22240622511604900 E 38, 24401296122588773 E 39, 26034271449491664 E 40, 27031344747248776 E 41, 27332932743991956 E 42, 26933488041593595 E 43, 25879985622817508 E 44, 24264125043714297 E 45, 22209882724495699 E 46, 19858632134951306 E 47, 17354158257845952 E 48, 14829573243697929 E 49, 12397524623868915 E 50, 10144346860561470 E 51, 81281046424834060 E 53, 63799327455417890 E 54, 49077536510123552 E 55, 37013536008852221 E 56, 27378798670220133 E 57, 19870228779905649 E 58, 14153989880897965 E 59, 98989651236164562 E 61, 67995122749229395 E 62, 45885978493141237 E 63, 30431896691917512 E 64, 19840513060188699 E 65, 12719658692957143 E 66, bnil.
Definition r767 := 65189034046141237 E 18, 56689840263357945 E 18, 43015693656301111 E 18, 28648318975026066 E 18, 16869900589132590 E 18, 88531292354962991 E 19, 41731050753830087 E 19, 17800697856945908 E 19, 69187342148224426 E 20, 24658241083172857 E 20, 81043459839109651 E 21, 24690278286578205 E 21, 70048156942206620 E 22, 18584148764717421 E 22, 46280765448962656 E 23, 10855542664134159 E 23, 24056907960084312 E 24, 50511290295054934 E 25, 10074273821583508 E 25, 19130984569076386 E 26, 34665454917178646 E 27, 60055886367449470 E 28, 99657468510135328 E 29, 15867066678916397 E 29, 24277248453282097 E 30, 35748161749758047 E 31, 50728431719787204 E 32, 69461701509413988 E 33, 91886740404053630 E 34, 11755971674184805 E 34, 14561890641705257 E 35, 17480701780904351 E 36, 20355671475643951 E 37, 23013273374845720 E 38, 25281207388823174 E 39, 27007507199306826 E 40, 28077699572299706 E 41, 28427292580121269 E 42, 28047736227240000 E 43, 26985203908501647 E 44, 25332802943517328 E 45, 23217863568674799 E 46, 20786583530340274 E 47, 18188442814124910 E 48, 15562492761710520 E 49, 13026998762900156 E 50, 10673151759169265 E 51, 85628311756201207 E 53, 67298282195183972 E 54, 51835904521238990 E 55, 39144324338918388 E 56, 28992331875191081 E 57, 21068440222112997 E 58, 15026898963873781 E 59, 10523045504004020 E 60, 72375366267030709 E 62, 48905144629306390 E 63, 32476205436284906 E 64, 21200740410739543 E 65, 13609294532629179 E 66, bnil.
Definition r768 := 65104152772082868 E 18, 56627077335718840 E 18, 42984200687817706 E 18, 28642571679587520 E 18, 16877690042360317 E 18, 88640286611965224 E 19, 41818156578340504 E 19, 17854344487170098 E 19, 69463900018364069 E 20, 24782207851884613 E 20, 81537503847953650 E 21, 24867966434597948 E 21, 70631252026733073 E 22, 18760224154791138 E 22, 46773389825454640 E 23, 10983972675751944 E 23, 24370417853101379 E 24, 51230875449743810 E 25, 10230136767858349 E 25, 19450602920929219 E 26, 35287747207397748 E 27, 61209204197990877 E 28, 10169688152934507 E 28, 16211876768902913 E 29, 24835731779860788 E 30, 36616248227297376 E 31, 52025444142112140 E 32, 71327245214187897 E 33, 94473467882652933 E 34, 12102182700314351 E 34, 15009705755505124 E 35, 18041120180116226 E 36, 21034935775352147 E 37, 23811464108121438 E 38, 26191370186078575 E 39, 28015495656646835 E 40, 29162810766811141 E 41, 29563646423517206 E 42, 29206230634512235 E 43, 28135789672760616 E 44, 26446782008398857 E 45, 24269927327744650 E 46, 21756367242483656 E 47, 19061462447496528 E 48, 16330431367899499 E 49, 13687401334215726 E 50, 11228655782618242 E 51, 90200972451448861 E 53, 70983409066620694 E 54, 54744797928474454 E 55, 41394298694656299 E 56, 30698323888739583 E 57, 22336952095608361 E 58, 15952219552502925 E 59, 11185454199098633 E 60, 77030650136385087 E 62, 52118046574228960 E 63, 34654515086586764 E 64, 22652007738681296 E 65, 14559704718948411 E 66, bnil.
Definition r769 := 65019492250013522 E 18, 56564448939841666 E 18, 42952737136941352 E 18, 28636791503598925 E 18, 16885436678528810 E 18, 88749020228759985 E 19, 41905183103056638 E 19, 17908008481069960 E 19, 69740872362101668 E 20, 24906504816456682 E 20, 82033442070071283 E 21, 25046545762551658 E 21, 71217967464447457 E 22, 18937605010277735 E 22, 47270265961121209 E 23, 11113668714934078 E 23, 24687405823231928 E 24, 51959339417135407 E 25, 10388118102314156 E 25, 19774967922168315 E 26, 35920069055129344 E 27, 62382577313966838 E 28, 10377436389970300 E 28, 16563565664163547 E 29, 25406075647632118 E 30, 37503891859822256 E 31, 53353358195025926 E 32, 73239661487590441 E 33, 97128560962313238 E 34, 12457996559668603 E 34, 15470528972355332 E 35, 18618554128531084 E 36, 21735718955352843 E 37, 24635995300528346 E 38, 27132773122540095 E 39, 29059418927651957 E 40, 30288048452594291 E 41, 30743535106698041 E 42, 30410654099022865 E 43, 29333529363223607 E 44, 27607907048365268 E 45, 25367928627189978 E 46, 22769799691186016 E 47, 19974951469567608 E 48, 17135004421096031 E 49, 14380200952148461 E 50, 11812162986704432 E 51, 95010344040367842 E 53, 74864308115423108 E 54, 57812184015925008 E 55, 43769930428429488 E 56, 32501921395647618 E 57, 23679773985079735 E 58, 16933012863366662 E 59, 11888482538878595 E 60, 81977795255268643 E 62, 55536799821614639 E 63, 36975390491160980 E 64, 24200259816193777 E 65, 15574941840844491 E 66, bnil.
Definition r770 := 64935051619970291 E 18, 56501954663150444 E 18, 42921303049911673 E 18, 28630978656714306 E 18, 16893140634716846 E 18, 88857493434088969 E 19, 41992130012755658 E 19, 17961689516449554 E 19, 70018257599318515 E 20, 25031131633532574 E 20, 82531275944978767 E 21, 25226018303565497 E 21, 71808316616013132 E 22, 19116297918729223 E 22, 47771420957937581 E 23, 11244640514540391 E 23, 25007903149827499 E 24, 52696773604288722 E 25, 10548242387871708 E 25, 20104140781519655 E 26, 36562562840071499 E 27, 63576316537768679 E 28, 10589055527461231 E 28, 16922257928654339 E 29, 25988510347740844 E 30, 38411498009198904 E 31, 54712854944026615 E 32, 75200045032343863 E 33, 99853706378100302 E 34, 12823662849189841 E 34, 15944715596326800 E 35, 19213490924262968 E 36, 22458665829346520 E 37, 25487691247694273 E 38, 28106435408007315 E 39, 30140497298643663 E 40, 31454828847874553 E 41, 31968553377555489 E 42, 31662750609973598 E 43, 30580276758190182 E 44, 28818094897325663 E 45, 26513797009436333 E 46, 23828773130988183 E 47, 20930718951429857 E 48, 17977899106095589 E 49, 15106933529338781 E 50, 12425038960431439 E 51, 10006829141509427 E 52, 78951058569159575 E 54, 61046438641271993 E 55, 46278031609561303 E 56, 34408549106818667 E 57, 25101137576490755 E 58, 17972513887672612 E 59, 12634555076386254 E 60, 87234623697281748 E 62, 59174257687199756 E 63, 39447929918334998 E 64, 25851819877739714 E 65, 16659322099023434 E 66, bnil.
Definition r771 := 64850830026449618 E 18, 56439594094633443 E 18, 42889898472117542 E 18, 28625133347475493 E 18, 16900802047691021 E 18, 88965706458906512 E 19, 42078996994683012 E 19, 18015387272022042 E 19, 70296054148735894 E 20, 25156087956470694 E 20, 83031006892101891 E 21, 25406386084273794 E 21, 72402312840218239 E 22, 19296309480162594 E 22, 48276882015165525 E 23, 11376897857423610 E 23, 25331941318799004 E 24, 53443270151741864 E 25, 10710534418733827 E 25, 20438183368065217 E 26, 37215372671640316 E 27, 64790736887906169 E 28, 10804610480350327 E 28, 17288080142661647 E 29, 26583270207409695 E 30, 39339479683706460 E 31, 56104629211748765 E 32, 77209514125918022 E 33, 10265062944272228 E 33, 13199437207925631 E 34, 16432630007492837 E 35, 19826430964984549 E 36, 23204439408131938 E 37, 26367400611846293 E 38, 29113407747432692 E 39, 31259990402716218 E 40, 32664615738275638 E 41, 33240351692991731 E 42, 32964327427590266 E 43, 31877955389381164 E 44, 30079337102590708 E 45, 27709539833256568 E 46, 24935258689299326 E 47, 21930651820541718 E 48, 18860877506937853 E 49, 15869205248116196 E 50, 13068713626893389 E 51, 10538725458719847 E 52, 83254241959723043 E 54, 64456366510855836 E 55, 48925772399375902 E 56, 36423924319090458 E 57, 26605508593470041 E 58, 19074140969545330 E 59, 13426237114383528 E 60, 92820016655512603 E 62, 63044055029581444 E 63, 42081797402484211 E 64, 27613413093445689 E 65, 17817442021252003 E 66, bnil.
Definition r772 := 64766826618378515 E 18, 56377366824836697 E 18, 42858523448105180 E 18, 28619255783317799 E 18, 16908421053905109 E 18, 89073659536356709 E 19, 42165783738542855 E 19, 18069101427411476 E 19, 70574260427951703 E 20, 25281373435361037 E 20, 83532636310786572 E 21, 25587651124786918 E 21, 72999969493747725 E 22, 19477646306976278 E 22, 48786676429239297 E 23, 11510450576506430 E 23, 25659552023352168 E 24, 54198921937402274 E 25, 10875019221982938 E 25, 20777158216809633 E 26, 37878644406096976 E 27, 66026157626590804 E 28, 11024167125295281 E 28, 17661160931339242 E 29, 27190593652656480 E 30, 40288257667385836 E 31, 57529389829537198 E 32, 79269211083827509 E 33, 10552109485720059 E 33, 13585581452208670 E 34, 16934645877302011 E 35, 20457888076536239 E 36, 23973721380740319 E 37, 27275997099063331 E 38, 30154773258949661 E 39, 32419198419901039 E 40, 33918921992151014 E 41, 34560638069086293 E 42, 34317257270190323 E 43, 33228561047676424 E 44, 31393702710174481 E 45, 28957245280424214 E 46, 26091309521064648 E 47, 22976718080638883 E 48, 19785779806486472 E 49, 16668695658064585 E 50, 13744684166941426 E 51, 11098027560923700 E 52, 87784966322880459 E 54, 68051222427066695 E 55, 51720699283374724 E 56, 38554072213341323 E 57, 28197599355408767 E 58, 20241505896409081 E 59, 14266242644798533 E 60, 98753975644310003 E 62, 67160654489717505 E 63, 44887256998254452 E 64, 29492191459752806 E 65, 19054196210058004 E 66, bnil.
Definition r773 := 64683040549085885 E 18, 56315272445857718 E 18, 42827178021586122 E 18, 28613346170575600 E 18, 16915997789499555 E 18, 89181352901750895 E 19, 42252489936488455 E 19, 18122831663154530 E 19, 70852874853477078 E 20, 25406987717042012 E 20, 84036165580310049 E 21, 25769815438659471 E 21, 73601299930955545 E 22, 19660315023866498 E 22, 49300831593649410 E 23, 11645308554857433 E 23, 25990767164721124 E 24, 54963822580441465 E 25, 11041722059184210 E 25, 21121128534277519 E 26, 38552525663799202 E 27, 67282902307742020 E 28, 11247792312906762 E 28, 18041630993586185 E 29, 27810723271852038 E 30, 41258260651309518 E 31, 58987859893114503 E 32, 81380302731120811 E 33, 10846690753700840 E 33, 13982363713604097 E 34, 17451146388658807 E 35, 21108389849171353 E 36, 24767212607412374 E 37, 28214380154128706 E 38, 31231648417016248 E 39, 33619463311808775 E 40, 35219311121519900 E 41, 35931179989473630 E 42, 35723480573049287 E 43, 34634164374536948 E 44, 32763341149145335 E 45, 30259085473395423 E 46, 27299064084238671 E 47, 24070970159350458 E 48, 20754527617284154 E 49, 17507160904915724 E 50, 14454518070808502 E 51, 11686102671144710 E 52, 92554891523281984 E 54, 71840733553050712 E 55, 54670754201397751 E 56, 40805341927095633 E 57, 29882381988612912 E 58, 21478424527990302 E 59, 15157442722917259 E 60, 10505768713674371 E 61, 71539395390024840 E 63, 47875209052361855 E 64, 31495760190569543 E 65, 20374796184911494 E 66, bnil.
Definition r774 := 64599470976274193 E 18, 56253310551338954 E 18, 42795862235445147 E 18, 28607404714488093 E 18, 16923532390300873 E 18, 89288786792545115 E 19, 42339115283112619 E 19, 18176577660702217 E 19, 71131895840773182 E 20, 25532930445117233 E 20, 84541596059892703 E 21, 25952881032858859 E 21, 74206317503637743 E 22, 19844322267743196 E 22, 49819374998823909 E 23, 11781481725766191 E 23, 26325618852900656 E 24, 55738066445195202 E 25, 11210668427994732 E 25, 21470158204142057 E 26, 39237165846578538 E 27, 68561298825420710 E 28, 11475553880114543 E 28, 18429623131269049 E 29, 28443905880129052 E 30, 42249925366797061 E 31, 60480777022401457 E 32, 83543980882191232 E 33, 11148991345394582 E 33, 14390058579675877 E 34, 17982524460805800 E 35, 21778477981600960 E 36, 25585633624687641 E 37, 29183475673407839 E 38, 32345184021316068 E 39, 34862170091677228 E 40, 36567398889898661 E 41, 37353806373659658 E 42, 37185007821296536 E 43, 36096913541890271 E 44, 34190485218374943 E 45, 31617319707926381 E 46, 28560749540481246 E 47, 25215548388366011 E 48, 21769127448844227 E 49, 18386437096115201 E 50, 15199856323075729 E 51, 12304383970637842 E 52, 97576255755377224 E 54, 75835122741732137 E 55, 57784294618493627 E 56, 43184423439544798 E 57, 31665102323382062 E 58, 22788927991794689 E 59, 16102874299404223 E 60, 11175359082492824 E 61, 76196545441650290 E 63, 51057228608472422 E 64, 33632205696906884 E 65, 21784790384578252 E 66, bnil.
Definition r775 := 64516117061991202 E 18, 56191480736461540 E 18, 42764576131748035 E 18, 28601431619204743 E 18, 16931024991821170 E 18, 89395961448317726 E 19, 42425659475438119 E 19, 18230339102421524 E 19, 71411321804287190 E 20, 25659201259972366 E 20, 85048929088710483 E 21, 26136849907734013 E 21, 74815035560805249 E 22, 20029674687645746 E 22, 50342334232007235 E 23, 11918980072817412 E 23, 26664139407376401 E 24, 56521748645068324 E 25, 11381884063778213 E 25, 21824311792884568 E 26, 39932716155243133 E 27, 69861679462690943 E 28, 11707520662662042 E 28, 18825272278791562 E 29, 29090392584650633 E 30, 43263696720600481 E 31, 62008893625547763 E 32, 85761462829038045 E 33, 11459200049401514 E 33, 14808947237623944 E 34, 18529182979102905 E 35, 22468708633003850 E 36, 26429725162880853 E 37, 30184236736185212 E 38, 33496566192072491 E 39, 36148748130776721 E 40, 37964854968352417 E 41, 38830409607053086 E 42, 38703921959136652 E 43, 37619037023344975 E 44, 35677454179143468 E 45, 33034297804665556 E 46, 29878685285649040 E 47, 26412684621176222 E 48, 22831674316735741 E 49, 19308443808614490 E 50, 15982416726581690 E 51, 12954373671646665 E 52, 10286190327286628 E 53, 80045132978249601 E 55, 61070114581189160 E 56, 45698365308696651 E 57, 33551294511489526 E 58, 24177274474310824 E 59, 17105749534424928 E 60, 11886545170028374 E 61, 81149355416548643 E 63, 54445606067089787 E 64, 35910125247992302 E 65, 23290085399173635 E 66, bnil.
Definition r776 := 64432977972602112 E 18, 56129782597938847 E 18, 42733319751749460 E 18, 28595427087791000 E 18, 16938475729257579 E 18, 89502877110747368 E 19, 42512122212908154 E 19, 18284115671597075 E 19, 71691151157488638 E 20, 25785799798791980 E 20, 85558165985907578 E 21, 26321724056984339 E 21, 75427467448457480 E 22, 20216378944658227 E 22, 50869736977136472 E 23, 12057813629964026 E 23, 27006361357853566 E 24, 57314965046443640 E 25, 11555394941225570 E 25, 22183654555484938 E 26, 40639329607206884 E 27, 71184380940913126 E 28, 11943762507730371 E 28, 19228715533014810 E 29, 29750438850748018 E 30, 44300027932083779 E 31, 63572977167232607 E 32, 88033991838108236 E 33, 11777509933156922 E 33, 15239317620844945 E 34, 19091535029800437 E 35, 23179652783170838 E 36, 27300248676225418 E 37, 31217644354903775 E 38, 34687017392447358 E 39, 37480672502146525 E 40, 39413404641125572 E 41, 40362947634536099 E 42, 40282380877756953 E 43, 39202846459685803 E 44, 37226656957166867 E 45, 34512463583892238 E 46, 31255286614811922 E 47, 27664705993588136 E 48, 23944355499017797 E 49, 20275187744657227 E 50, 16803997371100335 E 51, 13637646228183405 E 52, 10842531340157070 E 53, 84482052987075898 E 55, 64537466805886684 E 56, 48354593302235391 E 57, 35546796400208316 E 58, 25647961638649724 E 59, 18169465619386350 E 60, 12641843616118043 E 61, 86416116949467101 E 63, 58053390229137591 E 64, 38338658412143730 E 65, 24896968505493212 E 66, bnil.
Definition r777 := 64350052878761735 E 18, 56068215734010239 E 18, 42702093135900634 E 18, 28589391322233780 E 18, 16945884737491833 E 18, 89609534023590703 E 19, 42598503197376764 E 19, 18337907052432673 E 19, 71971382312905317 E 20, 25912725695576358 E 20, 86069308050609752 E 21, 26507505467629055 E 21, 76043626509356015 E 22, 20404441711824545 E 22, 51401611014715129 E 23, 12197992481599493 E 23, 27352317444984005 E 24, 58117812272596708 E 25, 11731227275981294 E 25, 22548252441143528 E 26, 41357161054245673 E 27, 72529744469471677 E 28, 12184350286693136 E 28, 19640092183531740 E 29, 30424304568937636 E 30, 45359380672422902 E 31, 65173810441295462 E 32, 90362837655854717 E 33, 12104118432001048 E 33, 15681464558470761 E 34, 19670004139905484 E 35, 23911896600956444 E 36, 28197986885971336 E 37, 32284708244761385 E 38, 35917797478712619 E 39, 38859465362663463 E 40, 40914830562248411 E 41, 41953446119451478 E 42, 41922619984354853 E 43, 40850739621692612 E 44, 38840595457729647 E 45, 36054358467715140 E 46, 32693068526690416 E 47, 28974038832407656 E 48, 25109454445789751 E 49, 21288766541553853 E 50, 17666480252849274 E 51, 14355851690800040 E 52, 11428063089297993 E 53, 89157744057378166 E 55, 68196085848267147 E 56, 51160929965639283 E 57, 37657765700786671 E 58, 27205739700866237 E 59, 19297615133123319 E 60, 13443919236635610 E 61, 92016223643870600 E 63, 61894433859065183 E 64, 40927520381273507 E 65, 26612131583481345 E 66, bnil.
Definition r778 := 64267340955387012 E 18, 56006779744434701 E 18, 42670896323856920 E 18, 28583324523446980 E 18, 16953252151089716 E 18, 89715932432660721 E 19, 42684802133099208 E 19, 18391712930052821 E 19, 72252013682158730 E 20, 26039978581158266 E 20, 86582356561937886 E 21, 26694196119976513 E 21, 76663526082798470 E 22, 20593869674063030 E 22, 51937984221684498 E 23, 12339526762628919 E 23, 27702040621091106 E 24, 58930387707613319 E 25, 11909407526275231 E 25, 22918172099033774 E 26, 42086367200380203 E 27, 73898115795937670 E 28, 12429355908002427 E 28, 20059543743298511 E 29, 31112254122825988 E 30, 46442225205849166 E 31, 66812191847755865 E 32, 92749297023140726 E 33, 12439227439931561 E 33, 16135689927938498 E 34, 20265024522241182 E 35, 24666041821212521 E 36, 29123744336728039 E 37, 33386467613126248 E 38, 37190204778896965 E 39, 40286697374464302 E 40, 42470974564549492 E 41, 43604000669932388 E 42, 43626954854784679 E 43, 42565203473418006 E 44, 40521867997719568 E 45, 37662625214184566 E 46, 34194649672577097 E 47, 30343212717872210 E 48, 26329354847836386 E 49, 22351372741669137 E 50, 18571835051131840 E 51, 15110719211565209 E 52, 12044269767817364 E 53, 94084668142535132 E 55, 72056212404797262 E 56, 54125615173147063 E 57, 39890696991106357 E 58, 28855625198809596 E 59, 20493996960728551 E 60, 14295593506395745 E 61, 97970235665214844 E 63, 65983441910809111 E 64, 43687037288776859 E 65, 28442696496218403 E 66, bnil.
Definition r779 := 64184841381629679 E 18, 55945474230484613 E 18, 42639729354485414 E 18, 28577226891277025 E 18, 16960578104300669 E 18, 89822072585804928 E 19, 42771018726722463 E 19, 18445532990504273 E 19, 72533043675999909 E 20, 26167558083220027 E 20, 87097312779022920 E 21, 26881797987594181 E 21, 77287179504393368 E 22, 20784669528081025 E 22, 52478884571292743 E 23, 12482426658539497 E 23, 28055564050893382 E 24, 59752789500313412 E 25, 12089962394560494 E 25, 23293480884086417 E 26, 42827106619887405 E 27, 75289845256672309 E 28, 12678852330207740 E 28, 20487213979626985 E 29, 31814556457913522 E 30, 47549040532964581 E 31, 68488935674286875 E 32, 95194694198633448 E 33, 12783043402067709 E 33, 16602302810648717 E 34, 20877041325802703 E 35, 25442706130384785 E 36, 30078347966352787 E 37, 34523991969247624 E 38, 38505577200630041 E 39, 41763989166774884 E 40, 44083739522547131 E 41, 45316779134558980 E 42, 45397783972401821 E 43, 44348817339156179 E 44, 42273172858487347 E 45, 39340011787924503 E 46, 35762756454983978 E 47, 31774864705621535 E 48, 27606544870574773 E 49, 23465297929090997 E 50, 19522123068671322 E 51, 15904060705721272 E 52, 12692708608439423 E 53, 99275917292214977 E 55, 76128618799782071 E 56, 57257327709312148 E 57, 42252439594185286 E 58, 30602915489039213 E 59, 21762627804668762 E 60, 15199853513813860 E 61, 10429994801487271 E 62, 70336022567874192 E 64, 46628183636780857 E 65, 30396242020590649 E 66, bnil.
Definition r780 := 64102553340849161 E 18, 55884298794939405 E 18, 42608592265872471 E 18, 28571098624508327 E 18, 16967862731057302 E 18, 89927954732883560 E 19, 42857152687275687 E 19, 18499366920757434 E 19, 72814470704344713 E 20, 26295463826310169 E 20, 87614177941020010 E 21, 27070313037278485 E 21, 77914600105834704 E 22, 20976847982288920 E 22, 53024340132961114 E 23, 12626702405469698 E 23, 28412921112226008 E 24, 60585116568177356 E 25, 12272918829156647 E 25, 23674246862804521 E 26, 43579539775439352 E 27, 76705287827870316 E 28, 12932913575108155 E 28, 20923248945540787 E 29, 32531485151305792 E 30, 48680314536151682 E 31, 70204872382200000 E 32, 97700381491318894 E 33, 13135777408854201 E 33, 17081619650766911 E 34, 21506510891512701 E 35, 26242523560952926 E 36, 31062647689686599 E 37, 35698381954743262 E 38, 39865293368918611 E 39, 43293012839218134 E 40, 45755091270724657 E 41, 47094023969373850 E 42, 47237591555750217 E 43, 46204256177429491 E 44, 44097311963571763 E 45, 41089375372037119 E 46, 37400227281433166 E 47, 33271743714197632 E 48, 28943621559735421 E 49, 24632937039695034 E 50, 20519501342455255 E 51, 16737774676761400 E 52, 13375013357918633 E 53, 10474524447797731 E 54, 80424635713821362 E 56, 60565207931113036 E 57, 44750216376187803 E 58, 32453204009098734 E 59, 23107754319337014 E 60, 16159861412780114 E 61, 11102846268838875 E 62, 74968741257123524 E 64, 49762621955276699 E 65, 32480832420847559 E 66, bnil.
Definition r781 := 64020476020585665 E 18, 55823253042079413 E 18, 42577485095331095 E 18, 28564939920868716 E 18, 16975106164975010 E 18, 90033579125748525 E 19, 42943203726160620 E 19, 18553214408707813 E 19, 73096293176308827 E 20, 26423695431860423 E 20, 88132953267124460 E 21, 27259743229025180 E 21, 78545801214677192 E 22, 21170411756714098 E 22, 53574379072148375 E 23, 12772364290277707 E 23, 28774145396760324 E 24, 61427468601277516 E 25, 12458304025898729 E 25, 24060538819109869 E 26, 44343829036370892 E 27, 78144803177047636 E 28, 13191614741039155 E 28, 21367797011498891 E 29, 33263318482342738 E 30, 49836544127105991 E 31, 71960848897007439 E 32, 10026773980228174 E 32, 13497645292034498 E 33, 17573964417226508 E 34, 22153901013483142 E 35, 27066144894901680 E 36, 32077516996449934 E 37, 36910770195360419 E 38, 41270773794610612 E 39, 44875493507705545 E 40, 47487060578739827 E 41, 48938054678352044 E 42, 49148950477822056 E 43, 48134293965424717 E 44, 45997194685465604 E 45, 42913686526195965 E 46, 39110016979000913 E 47, 34836715084283810 E 48, 30343295425454833 E 49, 25856792851582284 E 50, 21566226932183283 E 51, 17613850211947755 E 52, 14092897910981440 E 53, 11050709587606935 E 54, 84956180212082780 E 56, 64058881562937648 E 57, 47391643509719392 E 58, 34412396344297105 E 59, 24533865901782986 E 60, 17178964398540611 E 61, 11818026493269701 E 62, 79899177804671325 E 64, 53102744822583293 E 65, 34705047762589952 E 66, bnil.
Definition r782 := 63938608612533504 E 18, 55762336577679601 E 18, 42546407879408318 E 18, 28558750977034905 E 18, 16982308539351513 E 18, 90138946018221630 E 19, 43029171557142001 E 19, 18607075143177380 E 19, 73378509500242784 E 20, 26552252518202517 E 20, 88653639956586631 E 21, 27450090515999674 E 21, 79180796154111395 E 22, 21365367582914284 E 22, 54129029650211612 E 23, 12919422650608722 E 23, 29139270710721898 E 24, 62279946066213727 E 25, 12646145429791855 E 25, 24452426260220759 E 26, 45120138697076842 E 27, 79608755714976298 E 28, 13455032016295063 E 28, 21821008897489874 E 29, 34010339504155761 E 30, 51018235396516594 E 31, 73757728903623605 E 32, 10289817917589125 E 32, 13868867722423129 E 33, 18079668768991219 E 34, 22819691205891135 E 35, 27914238076411732 E 36, 33123853563614267 E 37, 38162322174515201 E 38, 42723482074318115 E 39, 46513210894040672 E 40, 49281745185155193 E 41, 50851270329472265 E 42, 51134525279692916 E 43, 50141807197411987 E 44, 47975841785725269 E 45, 44816033496001729 E 46, 40895201375413332 E 47, 36472765316112335 E 48, 31808395211701285 E 49, 27139480663133777 E 50, 22664661393692447 E 51, 18534371155579595 E 52, 14848160110853890 E 53, 11657664467387271 E 54, 89735785133442645 E 56, 67748484679198284 E 57, 50184751250378714 E 58, 36486727140077639 E 59, 26045708173024746 E 60, 18260705235776147 E 61, 12578130382842598 E 62, 85145986911519306 E 64, 56661719383878544 E 65, 37078016070358524 E 66, bnil.
Definition r783 := 63856950312514524 E 18, 55701549009003405 E 18, 42515360653892519 E 18, 28552531988637820 E 18, 16989469987166501 E 18, 90244055666073610 E 19, 43115055896338090 E 19, 18660948813915869 E 19, 73661118083766545 E 20, 26681134700585102 E 20, 89176239188729303 E 21, 27641356844508039 E 21, 79819598242740515 E 22, 21561722203891022 E 22, 54688320224266166 E 23, 13067887874961432 E 23, 29508331075606298 E 24, 63142650210052495 E 25, 12836470736671520 E 25, 24849979422560839 E 26, 45908634995538453 E 27, 81097514648067707 E 28, 13723242692688082 E 28, 22283037705500453 E 29, 34772836116162621 E 30, 52225903765921630 E 31, 75596393146271017 E 32, 10559313936053781 E 32, 14249670309507085 E 33, 18599072223636047 E 34, 23504372975578809 E 35, 28787488633964532 E 36, 34202579882574097 E 37, 39454237129127793 E 38, 44224926122590151 E 39, 48208000960393045 E 40, 51141311891320782 E 41, 52836152148600899 E 42, 53197075281419930 E 43, 52229778500788154 E 44, 50036389492866372 E 45, 46799626678845518 E 46, 42758982052695324 E 47, 38183006991701861 E 48, 33341872858214771 E 49, 28483733166206141 E 50, 23817275445030026 E 51, 19501520467622793 E 52, 15642685723735169 E 53, 12296982646938948 E 54, 94776629904321955 E 56, 71644689931894550 E 57, 53138005776849757 E 58, 38682777903089914 E 59, 27648297186095187 E 60, 19408833368541000 E 61, 13385907743552957 E 62, 90728962136338167 E 64, 60453534512233948 E 65, 39609447437943162 E 66, bnil.
Definition r784 := 63775500320451942 E 18, 55640889944796532 E 18, 42484343453820614 E 18, 28546283150268085 E 18, 16996590641081253 E 18, 90348908327003204 E 19, 43200856462211100 E 19, 18714835111602157 E 19, 73944117333804365 E 20, 26810341591190659 E 20, 89700752122963802 E 21, 27833544153967866 E 21, 80462220794356048 E 22, 21759482374002601 E 22, 55252279247041985 E 23, 13217770402753439 E 23, 29881360728893368 E 24, 64015683064270425 E 25, 13029307894869292 E 25, 25253269277699498 E 26, 46709486131979872 E 27, 82611454031207840 E 28, 13996325179244863 E 28, 22754038952361460 E 29, 35551101137510101 E 30, 53460074141764686 E 31, 77477739733154064 E 32, 10835409037906348 E 32, 14640283702906684 E 33, 19132522329306800 E 34, 24208450100488515 E 35, 29686600112056584 E 36, 35314643901447776 E 37, 40787748968280376 E 38, 45776659437141440 E 39, 49961757589826755 E 40, 53067998717078699 E 41, 54895266193455036 E 42, 55339457793169550 E 43, 54401300373493107 E 44, 52182093722623848 E 45, 48867803251693079 E 46, 44704691279575288 E 47, 39970683888820452 E 48, 34946808662405097 E 49, 29892405522278849 E 50, 25026653833145939 E 51, 20517584775623676 E 52, 16478452594888038 E 53, 12970337633618777 E 54, 10009257284392039 E 55, 75758734083106214 E 57, 56260332147222331 E 58, 41007495736201540 E 59, 29346934398806259 E 60, 20627316643266307 E 61, 14244272275320049 E 62, 96669103583055626 E 64, 64493050764695948 E 65, 42309670206809093 E 66, bnil.
Definition r785 := 63694257840344146 E 18, 55580358995280799 E 18, 42453356313485235 E 18, 28540004655481267 E 18, 17003670633438262 E 18, 90453504260616015 E 19, 43286572975557627 E 19, 18768733727845437 E 19, 74227505656618883 E 20, 26939872799152341 E 20, 90227179898807333 E 21, 28026654376879637 E 21, 81108677117714742 E 22, 21958654858876732 E 22, 55820935266737795 E 23, 13369080724385675 E 23, 30258394124758926 E 24, 64899147448700970 E 25, 13224685106884294 E 25, 25662367538323285 E 26, 47522862287655042 E 27, 84150952821046301 E 28, 14274359016041751 E 28, 23234170602974880 E 29, 36345432381474681 E 30, 54721281071679960 E 31, 79402684445967592 E 32, 11118253310903637 E 32, 15040943695727044 E 33, 19680374840119434 E 34, 24932438914047308 E 35, 30612294512725068 E 36, 36461019682845483 E 37, 42164127215238323 E 38, 47380282397965804 E 39, 51776434314100162 E 40, 55064117120007235 E 41, 57031266109977444 E 42, 57564631429631149 E 43, 56659579046664327 E 44, 54416334445302947 E 45, 51024031966385145 E 46, 46735797129065704 E 47, 41839176293818957 E 48, 36626416648930337 E 49, 31368480649665689 E 50, 26295500409496270 E 51, 21584959128156810 E 52, 17357534994344336 E 53, 13679486762940716 E 54, 10569818503057307 E 55, 80102446905194050 E 57, 59561138426758293 E 58, 43468213054919434 E 59, 31147222451139601 E 60, 21920353677656975 E 61, 15156311075842338 E 62, 10298868950173950 E 63, 68796053294519966 E 65, 45189669334670773 E 66, bnil.
Definition r786 := 63613222080238882 E 18, 55519955772148008 E 18, 42422399266441931 E 18, 28533696696803269 E 18, 17010710096260907 E 18, 90557843728403965 E 19, 43372205159499192 E 19, 18822644355186481 E 19, 74511281457845312 E 20, 27069727930570853 E 20, 90755523635900761 E 21, 28220689438798089 E 21, 81758980516315661 E 22, 22159246435322928 E 22, 56394316926873022 E 23, 13521829381305837 E 23, 30639465934785084 E 24, 65793146975485038 E 25, 13422630831060017 E 25, 26077346664238908 E 26, 48348935643765873 E 27, 85716394929741966 E 28, 14557424888179706 E 28, 23723593103925351 E 29, 37156132730831595 E 30, 56010068903032946 E 31, 81372161054305583 E 32, 11407999987301720 E 32, 15451891329831533 E 33, 20242993895061088 E 34, 25676868595616221 E 35, 31565312747088277 E 36, 37642708077447053 E 37, 43584677973385245 E 38, 49037443601179075 E 39, 53654046089980652 E 40, 57132054279962866 E 41, 59246895973517749 E 42, 59875659530856628 E 43, 59007938476507911 E 44, 56742620205093754 E 45, 53271918118230338 E 46, 48855908787854227 E 47, 43792006520730389 E 48, 38384050154960241 E 49, 32915074730211651 E 50, 27626643423175683 E 51, 22706151958393756 E 52, 18282108160561524 E 53, 14426275261172637 E 54, 11160878580209284 E 55, 84688281514399659 E 57, 63050341044956992 E 58, 46072668335021646 E 59, 33055081789187451 E 60, 23292386910013771 E 61, 16125294680160184 E 62, 10971135202264883 E 63, 73379307889681841 E 65, 48261127083243262 E 66, bnil.
Definition r787 := 63532392252207498 E 18, 55459679888553930 E 18, 42391472345516053 E 18, 28527359465735605 E 18, 17017709161253114 E 18, 90661926993724547 E 19, 43457752739472656 E 19, 18876566687098817 E 19, 74795443142525566 E 20, 27199906588531411 E 20, 91285784434027057 E 21, 28415651258304221 E 21, 82413144288177819 E 22, 22361263891244782 E 22, 56972452966137451 E 23, 13676026966070964 E 23, 31024611048668309 E 24, 66697786053025330 E 25, 13623173783266833 E 25, 26498279868407622 E 26, 49187880400511538 E 27, 87308169279168432 E 28, 14845604639899986 E 28, 24222469417479812 E 29, 37983510214202745 E 30, 57326991943744708 E 31, 83387121635038468 E 32, 11704805503897047 E 32, 15873373003069103 E 33, 20820752200456152 E 34, 26442281467122505 E 35, 32546415097109942 E 36, 38860737413740936 E 37, 45050744916636032 E 38, 50749841228458072 E 39, 55596671125351136 E 40, 59274275450727788 E 41, 61544993217281006 E 42, 62275713692760133 E 43, 61449824469486999 E 44, 59164592796377297 E 45, 55615208693858237 E 46, 51068782064371531 E 47, 45832844644296692 E 48, 40223207639427484 E 49, 34535442944220212 E 50, 29023041040539926 E 51, 23883790266732367 E 52, 19254453050719413 E 53, 15212640498164391 E 54, 11784047996624548 E 55, 89529346206584855 E 57, 66738391442538802 E 58, 48829027943648527 E 59, 35076768179684853 E 60, 24748116365303122 E 61, 17154687665250963 E 62, 11686215725532859 E 63, 78260620317309316 E 65, 51536466161595641 E 66, bnil.
Definition r788 := 63451767572319462 E 18, 55399530959112077 E 18, 42360575582809798 E 18, 28520993152760681 E 18, 17024667959799029 E 18, 90765754321780381 E 19, 43543215443220731 E 19, 18930500417989841 E 19, 75079989115141744 E 20, 27330408373120571 E 20, 91817963373129553 E 21, 28611541746977130 E 21, 83071181725617970 E 22, 22564714025551790 E 22, 57555372218237910 E 23, 13831684122408816 E 23, 31413864574925415 E 24, 67613169889943829 E 25, 13826342938589871 E 25, 26925241123010800 E 26, 50039872796269603 E 27, 88926669855580705 E 28, 15138981288841457 E 28, 24730965055978568 E 29, 38827878083393346 E 30, 58672614625426986 E 31, 85448536896725294 E 32, 12008829563097215 E 32, 16305640578487802 E 33, 21414031216060945 E 34, 27229233295993716 E 35, 33556381687798894 E 36, 40116164204281400 E 37, 46563710304902098 E 38, 52519224452959899 E 39, 57606452756412947 E 40, 61493326380612156 E 41, 63928491650569192 E 42, 64768077410599423 E 43, 63988808945046781 E 44, 61686032102204292 E 45, 58057797704491894 E 46, 53378325102629834 E 47, 47965514454850986 E 48, 42147538724869890 E 49, 36232985442686276 E 50, 30487787100630417 E 51, 25120625031789330 E 52, 20276961306712036 E 53, 16040616438999963 E 54, 12441019680091834 E 55, 94639437867026710 E 57, 70636304071848378 E 58, 51745909108658672 E 59, 37218891161389720 E 60, 26292514176173758 E 61, 18248159850537250 E 62, 12446768999723791 E 63, 83458899163696754 E 65, 55028895469327388 E 66, bnil.
Definition r789 := 63371347260617064 E 18, 55339508599887725 E 18, 42329709009709185 E 18, 28514597947347058 E 18, 17031586622962752 E 18, 90869325979598872 E 19, 43628593000782428 E 19, 18984445243201973 E 19, 75364917779649964 E 20, 27461232881443134 E 20, 92352061513331564 E 21, 28808362809366428 E 21, 83733106115029262 E 22, 22769603648070947 E 22, 58143103611743126 E 23, 13988811545278475 E 23, 31807261841597757 E 24, 68539404499043346 E 25, 14032167533022577 E 25, 27358305165547414 E 26, 50905091126909880 E 27, 90572295764746739 E 28, 15437639040440853 E 28, 25249248116621468 E 29, 39689554891728687 E 30, 60047511668856649 E 31, 87557396509131077 E 32, 12320235195037120 E 32, 16748951495567373 E 33, 22023221344852593 E 34, 28038293604516241 E 35, 34596012970060710 E 36, 41410073868829369 E 37, 48124996025197657 E 38, 54347394882628792 E 39, 59685601377325725 E 40, 63791835803914079 E 41, 66400424569412868 E 42, 67356149838860210 E 43, 66628594340227030 E 44, 64310861100295446 E 45, 60603731711004523 E 46, 55788604309173133 E 47, 50193999643269186 E 48, 44160850480788326 E 49, 38011253566259448 E 50, 32024117116083573 E 51, 26419536859440877 E 52, 21352140446272889 E 53, 16912338303442237 E 54, 13133573092712507 E 55, 10003307702951835 E 56, 74755685817208807 E 58, 54832404083743493 E 59, 39488433481898880 E 60, 27930839899096884 E 61, 19409598126828375 E 62, 13255614330971777 E 63, 88994222370150609 E 65, 58752458592033066 E 66, bnil.
Definition r790 := 63291130541090326 E 18, 55279612428391904 E 18, 42298872656890862 E 18, 28508174037954647 E 18, 17038465281488023 E 18, 90972642236012077 E 19, 43713885144483645 E 19, 19038400859013667 E 19, 75650227539513610 E 20, 27592379707639091 E 20, 92888079894955583 E 21, 29006116342964691 E 21, 84398930736659653 E 22, 22975939579458142 E 22, 58735676169925814 E 23, 14147419980929715 E 23, 32204838396952810 E 24, 69476596701270491 E 25, 14240677065165325 E 25, 27797547504962077 E 26, 51783715765240094 E 27, 92245451287544249 E 28, 15741663302476545 E 28, 25777489316652351 E 29, 40568864573400014 E 30, 61452268251816649 E 31, 89714709437915910 E 32, 12639188820755779 E 32, 17203568883503694 E 33, 22648722126577228 E 34, 28870045985741119 E 35, 35666130214420583 E 36, 42743581474748118 E 37, 49736064658986088 E 38, 56236208041814735 E 39, 61836396423651745 E 40, 66172518005182170 E 41, 68963927962256798 E 42, 70043449671056950 E 43, 69373018160636206 E 44, 67043151042072482 E 45, 63257215547327186 E 46, 58303850500723551 E 47, 52522450224488801 E 48, 46267113957766834 E 49, 39873956320716580 E 50, 33635414529585154 E 51, 27783541879988040 E 52, 22482619289066614 E 53, 17830047442525942 E 54, 13863578514169639 E 55, 10572554466348681 E 56, 79108766904909283 E 58, 58098105569596297 E 59, 41892771570921919 E 60, 29668656667873560 E 61, 20643118947934487 E 62, 14115741323307975 E 63, 94887907676044759 E 65, 62722085210204488 E 66, bnil.
Definition r791 := 63211116641652007 E 18, 55219842063575296 E 18, 42268066554328888 E 18, 28501721612039954 E 18, 17045304065797955 E 18, 91075703361636479 E 19, 43799091608927570 E 19, 19092366962640496 E 19, 75935916797736523 E 20, 27723848442900425 E 20, 93426019538543671 E 21, 29204804238180298 E 21, 85068668864391478 E 22, 23183728651109247 E 22, 59333119010602603 E 23, 14307520226961638 E 23, 32606630010184390 E 24, 70424854129684569 E 25, 14451901297930024 E 25, 28243044427805671 E 26, 52675929180586092 E 27, 93946545936029612 E 28, 16051140699757734 E 28, 26315862028946473 E 29, 41466136523832905 E 30, 62887480179335053 E 31, 91921504284571265 E 32, 12965860316450625 E 32, 17669761676579988 E 33, 23290942435126436 E 34, 29725088426065055 E 35, 36767576015843995 E 36, 44117832495036033 E 37, 51398420576382892 E 38, 58187574892156169 E 39, 64061188411014818 E 40, 68638175458285388 E 41, 71622243813442782 E 42, 72833619143071945 E 43, 72226057682404519 E 44, 69887126810410366 E 45, 66022618248996237 E 46, 60928465280373596 E 47, 54955189208400390 E 48, 48470470981946775 E 49, 41824967119099468 E 50, 35325217236330703 E 51, 29215797903936952 E 52, 23671153627997328 E 53, 18796096442063896 E 54, 14633001530041883 E 55, 11173292077148396 E 56, 83708433375828196 E 58, 61553133454383743 E 59, 44439697103602473 E 60, 31511848228935507 E 61, 21953081521005694 E 62, 15030319892736041 E 63, 10116258719223091 E 64, 66953645591907264 E 66, bnil.
Definition r792 := 63131304794112941 E 18, 55160197125822284 E 18, 42237290731301481 E 18, 28495240856061251 E 18, 17052103105994809 E 18, 91178509628853273 E 19, 43884212130985241 E 19, 19146343252236097 E 19, 76221983956896054 E 20, 27855638675488073 E 20, 93965881444877915 E 21, 29404428378310460 E 21, 85742333765521053 E 22, 23392977705071004 E 22, 59935461345971488 E 23, 14469123132380098 E 23, 33012672672110003 E 24, 71384285233426771 E 25, 14665870260249579 E 25, 28694873004426430 E 26, 53581915958504218 E 27, 95675994509976180 E 28, 16366159088958971 E 28, 26864542318002777 E 29, 42381705681085568 E 30, 64353754056346986 E 31, 94178829631667766 E 32, 13300423078824295 E 32, 18147804731657485 E 33, 23950300679807791 E 34, 30604033634612315 E 35, 37901214809880400 E 36, 45534003584380321 E 37, 53113611057837596 E 38, 60203463393690671 E 39, 66362401030405312 E 40, 71191701542333114 E 41, 74378723507294663 E 42, 75730428163744558 E 43, 75191834809856872 E 44, 72847172461964744 E 45, 68904479193837002 E 46, 63667027650427439 E 47, 57496719527215905 E 48, 50775241219787251 E 49, 43868330801049834 E 50, 37097224383355710 E 51, 30719610847304178 E 52, 24920632156408219 E 53, 19812954463249455 E 54, 15443907734639699 E 55, 11807212488317006 E 56, 88568261197130697 E 58, 65208162939834694 E 59, 47137439710147126 E 60, 33466636905141308 E 61, 23344101733546559 E 62, 16002710854075961 E 63, 10784228634030406 E 64, 71464008349233031 E 66, bnil.
Definition r793 := 63051694234157435 E 18, 55100677236945013 E 18, 42206545216397662 E 18, 28488731955483688 E 18, 17058862531859724 E 18, 91281061311788390 E 19, 43969246449786104 E 19, 19200329426893154 E 19, 76508427419175835 E 20, 27987749990748855 E 20, 94507666595001604 E 21, 29604990639514579 E 21, 86419938700538819 E 22, 23603693593951576 E 22, 60542732482446965 E 23, 14632239597654255 E 23, 33423002595866623 E 24, 72354999281694137 E 25, 14882614248793146 E 25, 29153111095193269 E 26, 54501862820629085 E 27, 97434217153888805 E 28, 16686807573602141 E 28, 27423708976346265 E 29, 43315912608290830 E 30, 65851707462812217 E 31, 96487754393492187 E 32, 13643054091541284 E 32, 18637978947821647 E 33, 24627225010580895 E 34, 31507509379550398 E 35, 39067933400365976 E 36, 46993303373630474 E 37, 54883227443938697 E 38, 62285900107190776 E 39, 68742533301610484 E 40, 73836083336554710 E 41, 77236831335701239 E 42, 78737778576541851 E 43, 78274621093802413 E 44, 75927836960125277 E 45, 71907514462021733 E 46, 66524300870281456 E 47, 60151731228750010 E 48, 53185929523418338 E 49, 46008270940281833 E 50, 38955303457034065 E 51, 32298441437806291 E 52, 26234082662299695 E 53, 20883212830983429 E 54, 16298467658268215 E 55, 12476095853589181 E 56, 93702552093115016 E 58, 69074454122500738 E 59, 49994690890847068 E 60, 35539602537175907 E 61, 24821066857061100 E 62, 17036477112414138 E 63, 11495250740629867 E 64, 76271101648763950 E 66, bnil.
Definition r794 := 62972284201318937 E 18, 55041282020177412 E 18, 42175830037523940 E 18, 28482195094784502 E 18, 17065582472852482 E 18, 91383358686292892 E 19, 44054194306708443 E 19, 19254325186644321 E 19, 76795245586398211 E 20, 28120181971132179 E 20, 95051375950240023 E 21, 29806492890787649 E 21, 87101496922909686 E 22, 23815883180830820 E 22, 61154961820492309 E 23, 14796880574771987 E 23, 33837656217603907 E 24, 73337106367715441 E 25, 15102163829686524 E 25, 29617837356750087 E 26, 55435958644654846 E 27, 99221639414494292 E 28, 17013176519186197 E 28, 27993543561343115 E 29, 44269103577150588 E 30, 67381969131315225 E 31, 98849368172141770 E 32, 13993933992810194 E 32, 19140571388218101 E 33, 25322153527327634 E 34, 32436158831470022 E 35, 40268641498919758 E 36, 48496973283091089 E 37, 56708906313992181 E 38, 64436971838734477 E 39, 71204161786274149 E 40, 76574404496289215 E 41, 80200148112156181 E 42, 81859708556237895 E 43, 81478842915469117 E 44, 79133840104820003 E 45, 75036623422960388 E 46, 69505239568005080 E 47, 62925108945370128 E 48, 55707233567256931 E 49, 48249197451536732 E 50, 40903497670476367 E 51, 33955912213746398 E 52, 27614678501154060 E 53, 22009590881008098 E 54, 17198961929258007 E 55, 13181814983606511 E 56, 99126371179044690 E 58, 73163883103107749 E 59, 53020629198515104 E 60, 37737702454171284 E 61, 26389151069380404 E 62, 18135395492712151 E 63, 12252031797111347 E 64, 81393978077049079 E 66, bnil.
Definition r795 := 62893073938955824 E 18, 54982011100169224 E 18, 42145145221910839 E 18, 28475630457458011 E 18, 17072263058111329 E 18, 91485402029923522 E 19, 44139055445370032 E 19, 19308330232463097 E 19, 77082436860057013 E 20, 28252934196207146 E 20, 95597010452223423 E 21, 30008936993934198 E 21, 87787021678854521 E 22, 24029553339170573 E 22, 61772178854450653 E 23, 14963057067294465 E 23, 34256670197175401 E 24, 74330717412730096 E 25, 15324549840237958 E 25, 30089131248302004 E 26, 56384394484452007 E 27, 10103869229871227 E 27, 17345357568466201 E 28, 28574230432432527 E 29, 45241630652495457 E 30, 68945179127179676 E 31, 10126478161915314 E 31, 14353247144109025 E 32, 19655875404114918 E 33, 26035534493229369 E 34, 33390640913966155 E 35, 41504272276476890 E 36, 50046288355048446 E 37, 58592330694043979 E 38, 66658827327552183 E 39, 73749942862135489 E 40, 79409848212301329 E 41, 83272374895306161 E 42, 85100397144649724 E 43, 84809086841272161 E 44, 82470078665599160 E 45, 78296895556735455 E 46, 72614997114585043 E 47, 65821939648722816 E 48, 58344051786954675 E 49, 50595714508799918 E 50, 42946033663026014 E 51, 35695814827892743 E 52, 29065745359442586 E 53, 23194942077412505 E 54, 18147786681568329 E 55, 13926340019990912 E 56, 10485558648577052 E 57, 77488974700464944 E 59, 56224946753461973 E 60, 40068292527815093 E 61, 28053831839939491 E 62, 19303469242938079 E 63, 13057444449447739 E 64, 86852883373482062 E 66, bnil.
Definition r796 := 62814062694227416 E 18, 54922864102980182 E 18, 42114490796119328 E 18, 28469038226020819 E 18, 17078904416452760 E 18, 91587191621923213 E 19, 44223829611618609 E 19, 19362344266264668 E 19, 77369999641349434 E 20, 28386006242679283 E 20, 96144571022908326 E 21, 30212324803542323 E 21, 88476526207131319 E 22, 24244710952724330 E 22, 62394413172372313 E 23, 15130780130409580 E 23, 34680081418827497 E 24, 75335944169969746 E 25, 15549803390669316 E 25, 30567073037932914 E 26, 57347363590319529 E 27, 10288581233210808 E 27, 17683443656882501 E 28, 29165956788779214 E 29, 46233851777919382 E 30, 70541989031125575 E 31, 10373512680273655 E 31, 14721181700069944 E 32, 20184190761226651 E 33, 26767826552322754 E 34, 34371630661556009 E 35, 42775782927103537 E 36, 51642558105947706 E 37, 60535231295026638 E 38, 68953678978207836 E 39, 76382615060025596 E 40, 82345700255688047 E 41, 86457336825130939 E 42, 88464168929584936 E 43, 88270105153748873 E 44, 85941632724618039 E 45, 81693617518031414 E 46, 75858933270088815 E 47, 68847520700688366 E 48, 61101491632138684 E 49, 53052628786996976 E 50, 45087329524519645 E 51, 37522117669136182 E 52, 30590768321390075 E 53, 24442260412566995 E 54, 19147459219243149 E 55, 14711743337656086 E 56, 11090691046706256 E 57, 82062936850087127 E 59, 59617877159365339 E 60, 42539149366979412 E 61, 29820907224585528 E 62, 20544941247982491 E 63, 13914537134450532 E 64, 92669329254951257 E 66, bnil.
Definition r797 := 62735249718070180 E 18, 54863840656074095 E 18, 42083866786047308 E 18, 28462418582016792 E 18, 17085506676371331 E 18, 91688727743201876 E 19, 44308516553522477 E 19, 19416366990906743 E 19, 77657932331208230 E 20, 28519397684407502 E 20, 96694058564601092 E 21, 30416658166957961 E 21, 89170023738817456 E 22, 24461362915447038 E 22, 63021694455840803 E 23, 15300060870984449 E 23, 35107926991885867 E 24, 76352899228641737 E 25, 15777955865852378 E 25, 31051743808954474 E 26, 58325061429372233 E 27, 10476344161782973 E 27, 18027529028141022 E 28, 29768912707349498 E 29, 47246130862500588 E 30, 72173062124499705 E 31, 10626155758069214 E 31, 15097929679540943 E 32, 20725823768337210 E 33, 27519498951307986 E 34, 35379819585073827 E 35, 44084155244343820 E 36, 53287127398648723 E 37, 62539387781726249 E 38, 71323804638199774 E 39, 79105001465243578 E 40, 85385352110700823 E 41, 89758987074966017 E 42, 91955498871274806 E 43, 91866821564154842 E 44, 89553772236344191 E 45, 85232280450770033 E 46, 79242622111316445 E 47, 72007368211384975 E 48, 63984878144827215 E 49, 55624958039848582 E 50, 47332003157475203 E 51, 39438973815230017 E 52, 32193399252097802 E 53, 25754687102065067 E 54, 20200623949502359 E 55, 15540204686131481 E 56, 11729794358590327 E 57, 86899696771567565 E 59, 63210224891787401 E 60, 45158493712816733 E 61, 31696514118943125 E 62, 21864307993625761 E 63, 14826544558099148 E 64, 98866170569300683 E 66, bnil.
Definition r798 := 62656634265174038 E 18, 54804940388312920 E 18, 42053273216936103 E 18, 28455771706022131 E 18, 17092069966039493 E 18, 91790010676317292 E 19, 44393116021361019 E 19, 19470398110190325 E 19, 77946233330333510 E 20, 28653108092420866 E 20, 97245473959980741 E 21, 30621938924259438 E 21, 89867527497091873 E 22, 24679516131404301 E 22, 63654052479795883 E 23, 15470910447616835 E 23, 35540244251440206 E 24, 77381696017916176 E 25, 16009038927050641 E 25, 31543225466287229 E 26, 59317685706065483 E 27, 10667202789603375 E 27, 18377709249946224 E 28, 30383291181415922 E 29, 48278837868621551 E 30, 73839073577111605 E 31, 10884524997908536 E 31, 15483687037842014 E 32, 21281087408259229 E 33, 28291031765685204 E 34, 36415916044685496 E 35, 45430396210355778 E 36, 54981377335198642 E 37, 64606630073283858 E 38, 73771549422093446 E 39, 81920012184974022 E 40, 88532304197871664 E 41, 93181410922668939 E 42, 95579017280692241 E 43, 95604337112380245 E 44, 93311963811031164 E 45, 88918587561929191 E 46, 82771860250835766 E 47, 75307225715422760 E 48, 66999762875833237 E 49, 58317940027041421 E 50, 49684880990883911 E 51, 41450729330452838 E 52, 33877464510670929 E 53, 27135517587791073 E 54, 21310058596771859 E 55, 16414016581164768 E 56, 12404722008050697 E 57, 92013938992796216 E 59, 67013396234655771 E 60, 47935015097324640 E 61, 33687147521925716 E 62, 23266334321928994 E 63, 15796898781752991 E 64, 10546768702799382 E 65, bnil.
Definition r799 := 62578215593958944 E 18, 54746162929951069 E 18, 42022710113376577 E 18, 28449097777650346 E 18, 17098594413307428 E 18, 91891040705456093 E 19, 44477627767615336 E 19, 19524437328860421 E 19, 78234901039224262 E 20, 28787137034935571 E 20, 97798818072122686 E 21, 30828168908232294 E 21, 90569050697018161 E 22, 24899177514681629 E 22, 64291517112354610 E 23, 15643340070685543 E 23, 35977070759025894 E 24, 78422448810913645 E 25, 16243084513666085 E 25, 32041600742872305 E 26, 60325436382855133 E 27, 10861202460379824 E 27, 18734081229886985 E 28, 31009288159492633 E 29, 49332348900896657 E 30, 75540710637702320 E 31, 11148740257675386 E 31, 15878653740232758 E 32, 21850301471166545 E 33, 29082916130293314 E 34, 37480645630664900 E 35, 46815538598092795 E 36, 56726726170561968 E 37, 66738839675952733 E 38, 76299327583315330 E 39, 84830646883439192 E 40, 91790169189880630 E 41, 96728829944306759 E 42, 99339514954264505 E 43, 99487936260001306 E 44, 97221877729202950 E 45, 92758461963284147 E 46, 86452675357614051 E 47, 78753073177988402 E 48, 70151933151905488 E 49, 61137041804356750 E 50, 52151007059806047 E 51, 43561931922583816 E 52, 35646973007557519 E 53, 28588208862789489 E 54, 22478680710496378 E 55, 17335589958378835 E 56, 13117425601553648 E 57, 97421145323347785 E 59, 71039431843743675 E 60, 50877897831577033 E 61, 35799680863670081 E 62, 24756069021632703 E 63, 16829240950537064 E 64, 11249966978243232 E 65, bnil.

Definition bessel_rows_2 : list brow := [
r400; r401; r402; r403; r404; r405; r406; r407; r408; r409; r410; r411; r412; r413; r414; r415; r416; r417; r418; r419;
r420; r421; r422; r423; r424; r425; r426; r427; r428; r429; r430; r431; r432; r433; r434; r435; r436; r437; r438; r439;
r440; r441; r442; r443; r444; r445; r446; r447; r448; r449; r450; r451; r452; r453; r454; r455; r456; r457; r458; r459;
r460; r461; r462; r463; r464; r465; r466; r467; r468; r469; r470; r471; r472; r473; r474; r475; r476; r477; r478; r479;
r480; r481; r482; r483; r484; r485; r486; r487; r488; r489; r490; r491; r492; r493; r494; r495; r496; r497; r498; r499;
r500; r501; r502; r503; r504; r505; r506; r507; r508; r509; r510; r511; r512; r513; r514; r515; r516; r517; r518; r519;
r520; r521; r522; r523; r524; r525; r526; r527; r528; r529; r530; r531; r532; r533; r534; r535; r536; r537; r538; r539;
r540; r541; r542; r543; r544; r545; r546; r547; r548; r549; r550; r551; r552; r553; r554; r555; r556; r557; r558; r559;
r560; r561; r562; r563; r564; r565; r566; r567; r568; r569; r570; r571; r572; r573; r574; r575; r576; r577; r578; r579;
r580; r581; r582; r583; r584; r585; r586; r587; r588; r589; r590; r591; r592; r593; r594; r595; r596; r597; r598; r599;
r600; r601; r602; r603; r604; r605; r606; r607; r608; r609; r610; r611; r612; r613; r614; r615; r616; r617; r618; r619;
r620; r621; r622; r623; r624; r625; r626; r627; r628; r629; r630; r631; r632; r633; r634; r635; r636; r637; r638; r639;
r640; r641; r642; r643; r644; r645; r646; r647; r648; r649; r650; r651; r652; r653; r654; r655; r656; r657; r658; r659;
r660; r661; r662; r663; r664; r665; r666; r667; r668; r669; r670; r671; r672; r673; r674; r675; r676; r677; r678; r679;
r680; r681; r682; r683; r684; r685; r686; r687; r688; r689; r690; r691; r692; r693; r694; r695; r696; r697; r698; r699;
r700; r701; r702; r703; r704; r705; r706; r707; r708; r709; r710; r711; r712; r713; r714; r715; r716; r717; r718; r719;
r720; r721; r722; r723; r724; r725; r726; r727; r728; r729; r730; r731; r732; r733; r734; r735; r736; r737; r738; r739;
r740; r741; r742; r743; r744; r745; r746; r747; r748; r749; r750; r751; r752; r753; r754; r755; r756; r757; r758; r759;
r760; r761; r762; r763; r764; r765; r766; r767; r768; r769; r770; r771; r772; r773; r774; r775; r776; r777; r778; r779;
r780; r781; r782; r783; r784; r785; r786; r787; r788; r789; r790; r791; r792; r793; r794; r795; r796; r797; r798; r799
].
