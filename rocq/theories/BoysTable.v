(** * The table of the Boys function, transcribed mechanically from
      libgrpp/specfunc_boys.c (from line 60).  An entry m stands for m 10^(-31);
      every decimal literal of the source is represented exactly. *)

From Coq Require Import List ZArith.
Import ListNotations.
Open Scope Z_scope.

Definition boys_scale : Z := 31.

Definition boys_rows : list (list Z) := [
[10000000000000000000000000000000; 3333333333333333100000000000000; 2000000000000000100000000000000; 1428571428571428500000000000000; 1111111111111111000000000000000; 909090909090909120000000000000; 769230769230769270000000000000; 666666666666666660000000000000; 588235294117647050000000000000; 526315789473684180000000000000; 476190476190476160000000000000; 434782608695652160000000000000; 400000000000000010000000000000; 370370370370370350000000000000; 344827586206896550000000000000; 322580645161290310000000000000; 303030303030303040000000000000; 285714285714285710000000000000; 270270270270270290000000000000; 256410256410256400000000000000; 243902439024390250000000000000; 232558139534883720000000000000; 222222222222222230000000000000; 212765957446808510000000000000; 204081632653061210000000000000; 196078431372549020000000000000; 188679245283018860000000000000; 181818181818181810000000000000; 175438596491228060000000000000; 169491525423728810000000000000; 163934426229508210000000000000; 158730158730158720000000000000; 153846153846153850000000000000; 149253731343283580000000000000; 144927536231884060000000000000; 140845070422535210000000000000; 136986301369863010000000000000; 133333333333333340000000000000; 129870129870129880000000000000; 126582278481012660000000000000];
[9676433126355922200000000000000; 3140294729981613600000000000000; 1862550047926217200000000000000; 1321880296357391100000000000000; 1023939470710653100000000000000; 835405280181416160000000000000; 705419508179837010000000000000; 610397129891414520000000000000; 537913840058186280000000000000; 480805503147777170000000000000; 434651897241010370000000000000; 396578308508159710000000000000; 364634576640221410000000000000; 337451178229993060000000000000; 314038159251097330000000000000; 293662189611292070000000000000; 275768487952277560000000000000; 259929610328038870000000000000; 245810905609475760000000000000; 233146635955109040000000000000; 221723109447862460000000000000; 211366535013734130000000000000; 201934126154592610000000000000; 193307482985552100000000000000; 185387599806349430000000000000; 178091050758187670000000000000; 171347041539430290000000000000; 165095106151409500000000000000; 159283289839908530000000000000; 153866702574977450000000000000; 148806357819127410000000000000; 144068233034465900000000000000; 139622504057624330000000000000; 135442916928417800000000000000; 131506269220381840000000000000; 127791979233699660000000000000; 124281726163743870000000000000; 120959147968590680000000000000; 117809586422798900000000000000; 114819870978509020000000000000];
[9371500287979788200000000000000; 2960481892999921600000000000000; 1735345370549857500000000000000; 1223548304923680500000000000000; 943826509214874680000000000000; 767827630385134600000000000000; 646991008641662200000000000000; 558938953904389720000000000000; 491941944465071960000000000000; 439263812815963370000000000000; 396762281808754820000000000000; 361750968010021020000000000000; 332411833626607630000000000000; 307470774713549940000000000000; 286008466215032470000000000000; 267344973640433960000000000000; 250966630183949090000000000000; 236478163226194750000000000000; 223570455342598230000000000000; 211998292240567350000000000000; 201564666505585560000000000000; 192109489873202660000000000000; 183501334419568610000000000000; 175631295251904570000000000000; 168408365149202430000000000000; 161755903828116190000000000000; 155608911135129340000000000000; 149911898455290410000000000000; 144617210653000800000000000000; 139683691102574680000000000000; 135075610680176970000000000000; 130761801777267310000000000000; 126714952969643290000000000000; 122911030617779660000000000000; 119328801528171910000000000000; 115949436660387830000000000000; 112756180269404530000000000000; 109734072217038660000000000000; 106869713745070050000000000000; 104151068976687040000000000000];
[9083928770327505100000000000000; 2792910939183877500000000000000; 1617584351224091700000000000000; 1132899248838797500000000000000; 870187558423999590000000000000; 705843031664688400000000000000; 593485235823989280000000000000; 511876431491141150000000000000; 449940442583249830000000000000; 401342195163447370000000000000; 362199168813887860000000000000; 330000563790786090000000000000; 303051267284858250000000000000; 280165792173849330000000000000; 260490303127928450000000000000; 243394306487994780000000000000; 228402157184406230000000000000; 215148300447113270000000000000; 203347181386436540000000000000; 192772507468279810000000000000; 183242640742869340000000000000; 174610106067546000000000000000; 166753923478742270000000000000; 159573916210433470000000000000; 152986425122104850000000000000; 146921040276646910000000000000; 141318078819493600000000000000; 136126617693355600000000000000; 131302943862360260000000000000; 126809322228672250000000000000; 122613007790870650000000000000; 118685447376421070000000000000; 115001629828699390000000000000; 111539553413706070000000000000; 108279786501785140000000000000; 105205103010174630000000000000; 102300178175492760000000000000; 99551333322904483000000000000; 96946320667852803000000000000; 94474141012498153000000000000];
[8812540349399243800000000000000; 2636674861303563400000000000000; 1508530154442878100000000000000; 1049312889822492000000000000000; 802487210501311030000000000000; 648980542694253810000000000000; 544481886600496280000000000000; 468830081812585330000000000000; 411563458540493140000000000000; 366722918539976110000000000000; 330668739878948110000000000000; 301053846376908920000000000000; 276297507890642080000000000000; 255296546137099910000000000000; 237257856681604460000000000000; 221596729262697920000000000000; 207872683484018880000000000000; 195747618270268080000000000000; 184957723878767070000000000000; 175294153947485490000000000000; 166589429494433220000000000000; 158707686144187970000000000000; 151537554804586450000000000000; 144986882312519800000000000000; 138978760415047530000000000000; 133448499976197810000000000000; 128341298037048020000000000000; 123610419508987080000000000000; 119215765797371750000000000000; 115122737617099590000000000000; 111301323815619930000000000000; 107725365495482460000000000000; 104371957323595700000000000000; 101220957096652600000000000000; 98254581399106911000000000000; 95457070227437813000000000000; 92814407239480198000000000000; 90314085157230783000000000000; 87944908044875116000000000000; 85696823873858945000000000000];
[8556243918921486700000000000000; 2490937321795152800000000000000; 1407505368259126300000000000000; 972220244169301470000000000000; 740235112058776350000000000000; 596809411402653840000000000000; 499596928302852990000000000000; 429453470810749470000000000000; 376495465034910260000000000000; 335116308467135470000000000000; 301903263749237660000000000000; 274661941607642870000000000000; 251918059849457480000000000000; 232644899110135040000000000000; 216105678847308930000000000000; 201758089445646000000000000000; 189194175688669540000000000000; 178101200599754610000000000000; 168235423865115070000000000000; 159404085882904890000000000000; 151452752306940800000000000000; 144256247458208560000000000000; 137712043576607890000000000000; 131735363821033660000000000000; 126255502462296640000000000000; 121213023526274330000000000000; 116557602713579300000000000000; 112246346693385040000000000000; 108242471009826530000000000000; 104514250433660510000000000000; 101034178459645590000000000000; 97778288912010389000000000000; 94725604330210249000000000000; 91857684337338149000000000000; 89158253475207488000000000000; 86612892662976167000000000000; 84208781944899620000000000000; 81934484851396028000000000000; 79779766728302840000000000000; 77735440953114847000000000000];
[8314028712140210100000000000000; 2354926959333289700000000000000; 1313887097549671100000000000000; 901099272340076250000000000000; 682982121200224470000000000000; 548935608218129450000000000000; 458479441215968940000000000000; 393430312389433590000000000000; 344448604084373260000000000000; 306258257078390670000000000000; 275658769624300410000000000000; 250598167641695250000000000000; 229701245682273350000000000000; 212012317597159890000000000000; 196846845152535630000000000000; 183701790402750890000000000000; 172199284620837280000000000000; 162050026289457630000000000000; 153028799325663000000000000000; 144957678424362700000000000000; 137694248008225560000000000000; 131123172830815960000000000000; 125150058987332260000000000000; 119696911241400670000000000000; 114698722837972400000000000000; 110100881767023190000000000000; 105857174314866400000000000000; 101928231456396190000000000000; 98280307634616409000000000000; 94884311860676529000000000000; 91715032366371692000000000000; 88750511173651247000000000000; 85971535833075235000000000000; 83361223507993579000000000000; 80904678412718339000000000000; 78588707947809533000000000000; 76401586128469869000000000000; 74332855365102377000000000000; 72373159535339283000000000000; 70514102734073741000000000000];
[8084958069125837100000000000000; 2227932165151242900000000000000; 1227102469671165800000000000000; 835470936029810570000000000000; 630316795924698860000000000000; 504998661005853780000000000000; 420808737964497720000000000000; 360471825445980440000000000000; 315160245554008050000000000000; 279907954645739680000000000000; 251712928824969070000000000000; 228656048150183250000000000000; 209454335385801450000000000000; 193218104807822530000000000000; 179311279926511610000000000000; 167267199967695010000000000000; 156735829346023590000000000000; 147449521789057450000000000000; 139200160502110410000000000000; 131823500474275960000000000000; 125188200416170920000000000000; 119187985106366630000000000000; 113735944042601160000000000000; 108760317144977040000000000000; 104201334214166650000000000000; 100008813271505620000000000000; 96140313523285920000000000000; 92559699157206462000000000000; 89236011237309610000000000000; 86142573294630074000000000000; 83256276049345282000000000000; 80557000782787470000000000000; 78027151001021696000000000000; 75651269394495851000000000000; 73415722512177655000000000000; 71308439590149746000000000000; 69318694990360089000000000000; 67436925987309328000000000000; 65654579381490552000000000000; 63963981757657390000000000000];
[7868163704617204800000000000000; 2109296289653117600000000000000; 1146624517366960900000000000000; 774895591039118090000000000000; 581862185063504530000000000000; 464668765249577690000000000000; 386291735358213970000000000000; 330314324052851380000000000000; 288390762262852140000000000000; 255845823310168020000000000000; 229863126075608230000000000000; 208647504009729710000000000000; 191001844407234500000000000000; 176097793130413490000000000000; 163344233343087200000000000000; 152308203610831070000000000000; 142665419227219650000000000000; 134168245828770250000000000000; 126624351771749670000000000000; 119882108989076300000000000000; 113820380876094900000000000000; 108341234217296780000000000000; 103364643857210630000000000000; 98824582751420257000000000000; 94666092590326850000000000000; 90843059846143232000000000000; 87316506863157790000000000000; 84053264109479678000000000000; 81024928030721931000000000000; 78207035361768287000000000000; 75578403232599489000000000000; 73120597510221317000000000000; 70817501232286065000000000000; 68654961828989542000000000000; 66620500856282025000000000000; 64703073694548459000000000000; 62892869462938782000000000000; 61181143513984347000000000000; 59560076485353783000000000000; 58022655125031242000000000000];
[7662840435206961200000000000000; 1998413243222760800000000000000; 1071968406812384400000000000000; 718969687031073970000000000000; 537272895450847600000000000000; 427644145362022080000000000000; 354660556431251120000000000000; 302717020111261320000000000000; 263921502368294130000000000000; 233871634919447620000000000000; 209924703368621100000000000000; 190401207408359940000000000000; 174183984992383260000000000000; 160501681890886890000000000000; 148804896471084890000000000000; 138691889030827760000000000000; 129862201416478150000000000000; 122086694076551200000000000000; 115187608485186870000000000000; 109024953636623740000000000000; 103486996901282090000000000000; 98483486414760214000000000000; 93940732460386870000000000000; 89797979617469957000000000000; 86004691452826968000000000000; 82518490990318126000000000000; 79303579500112249000000000000; 76329508944423244000000000000; 73570219187391022000000000000; 71003275708452669000000000000; 68609260773750428000000000000; 66371283218203004000000000000; 64274580744831831000000000000; 62306195004493553000000000000; 60454704386131734000000000000; 58710002909500552000000000000; 57063116204745176000000000000; 55506047522477569000000000000; 54031648210981801000000000000; 52633508244251939000000000000];
[7468241328124272100000000000000; 1894723458204923500000000000000; 1002687981450173800000000000000; 667322747768222400000000000000; 496232411331567480000000000000; 393648645134841440000000000000; 325670342384417260000000000000; 277460019641500330000000000000; 241552941454041890000000000000; 213802796502142940000000000000; 191729360913146340000000000000; 173761083730824480000000000000; 158855257047271040000000000000; 146293507233682100000000000000; 135565141797495320000000000000; 126297350206479330000000000000; 118211722343218770000000000000; 111096212805897700000000000000; 104786518246015510000000000000; 99153381694070623000000000000; 94093737177159235000000000000; 89524406274551927000000000000; 85377529045650383000000000000; 81597197669928279000000000000; 78136939386101705000000000000; 74957809102297367000000000000; 72026926251350498000000000000; 69316339803580642000000000000; 66802138741261880000000000000; 64463748268721805000000000000; 62283368070088010000000000000; 60245520280462518000000000000; 58336682977321056000000000000; 56544990905717449000000000000; 54859989484303817000000000000; 53272431351280031000000000000; 51774107113216642000000000000; 50357703775219930000000000000; 49016685713517477000000000000; 47745194113223205000000000000];
[7283673237030967600000000000000; 1797710181840972400000000000000; 938372594791873630000000000000; 619614607717532820000000000000; 458450644109970120000000000000; 362429527276789050000000000000; 299097255938130180000000000000; 254342495552225300000000000000; 221102998319358190000000000000; 195472788385587650000000000000; 175123701066077390000000000000; 158584947912194240000000000000; 144883165908940360000000000000; 133349232155785850000000000000; 123508377829737170000000000000; 115014600037090570000000000000; 107609892804094580000000000000; 101098011615599820000000000000; 95327077075106903000000000000; 90177733999160826000000000000; 85554904084762535000000000000; 81381922952029097000000000000; 77596295434752627000000000000; 74146571628670530000000000000; 70990013439417394000000000000; 68090827977591150000000000000; 65418813580142132000000000000; 62948310348523518000000000000; 60657378267273193000000000000; 58527147388056904000000000000; 56541299506618747000000000000; 54685651328613555000000000000; 52947816691726263000000000000; 51316930900633965000000000000; 49783424255283211000000000000; 48338834833534525000000000000; 46975652818240579000000000000; 45687190341268452000000000000; 44467472097419183000000000000; 43311142963866718000000000000];
[7108492693138486200000000000000; 1706896072506861600000000000000; 878644207666067630000000000000; 575532883003465820000000000000; 423661692459266910000000000000; 333755463754742130000000000000; 274736659241726740000000000000; 233181021258510520000000000000; 202405499898183660000000000000; 178729741311290800000000000000; 159967902413543260000000000000; 144743263150994350000000000000; 132147055562854140000000000000; 121555945812224940000000000000; 112528507420020030000000000000; 104743581691071950000000000000; 97962047208835779000000000000; 92002266153981705000000000000; 86723831778068080000000000000; 82016523611041364000000000000; 77792625711907383000000000000; 73981472944245324000000000000; 70525507283549149000000000000; 67377378599044312000000000000; 64497781263772530000000000000; 61853817834528471000000000000; 59417746016204509000000000000; 57166008223678904000000000000; 55078472158467092000000000000; 53137830796065912000000000000; 51329124102446185000000000000; 49639354636324875000000000000; 48057176235999574000000000000; 46572640090800661000000000000; 45176986233992182000000000000; 43862471259773009000000000000; 42622225134106208000000000000; 41450131528229022000000000000; 40340727289631464000000000000; 39289117574842023000000000000];
[6942102122600063400000000000000; 1621840073946129700000000000000; 823154727499331860000000000000; 534790656598666740000000000000; 391621794557900710000000000000; 307414700261915870000000000000; 252401450977289590000000000000; 213808050909475790000000000000; 185308782039235280000000000000; 163435140125719020000000000000; 146134512326359520000000000000; 132118010966700160000000000000; 120537046882299350000000000000; 110810862198986070000000000000; 102528980397114930000000000000; 95393269683160583000000000000; 89182088399174780000000000000; 83727302627938146000000000000; 78899100629899414000000000000; 74595689602363520000000000000; 70736140058475123000000000000; 67255312329754392000000000000; 64100192245888574000000000000; 61227200278794868000000000000; 58600185678162695000000000000; 56188910726869198000000000000; 53967891050067055000000000000; 51915498197473778000000000000; 50013257892666816000000000000; 48245295977632904000000000000; 46597897053933732000000000000; 45059149980697221000000000000; 43618660939898496000000000000; 42267319520482476000000000000; 40997106743150902000000000000; 39800936514352908000000000000; 38672523914970516000000000000; 37606275174140225000000000000; 36597195277063626000000000000; 35640809997610941000000000000];
[6783946363552791900000000000000; 1542134544334545800000000000000; 771583569138419020000000000000; 497124359384296460000000000000; 362107455812147110000000000000; 283213379604735260000000000000; 231920548655723290000000000000; 196070533252977880000000000000; 169674414063788050000000000000; 149462642738688550000000000000; 133507347363935480000000000000; 120601662580922530000000000000; 109953071408984870000000000000; 101020409217344520000000000000; 93421931947227609000000000000; 86880852519126313000000000000; 81191710241731701000000000000; 76198856628957885000000000000; 71782265213389063000000000000; 67847919099758075000000000000; 64321144812318227000000000000; 61141892103207911000000000000; 58261328936383494000000000000; 55639343829002388000000000000; 53242685909661996000000000000; 51043560770503375000000000000; 49018557099848176000000000000; 47147816741390305000000000000; 45414386200147219000000000000; 43803704997246468000000000000; 42303198364818315000000000000; 40901950299224296000000000000; 39590439083937680000000000000; 38360321799953915000000000000; 37204257564584379000000000000; 36115761621524655000000000000; 35089084182924201000000000000; 34119109263371257000000000000; 33201269763122564000000000000; 32331475837285130000000000000];
[6633509458403347200000000000000; 1467402618973016600000000000000; 723635418478250500000000000000; 462291830302318240000000000000; 334913736877309330000000000000; 260974010137162040000000000000; 213137503341494890000000000000; 179828647318377240000000000000; 155376036097120870000000000000; 136697004055584650000000000000; 121980491857269590000000000000; 110096242506120110000000000000; 100303992052155270000000000000; 92099399939863189000000000000; 85127398964000324000000000000; 79130989490573452000000000000; 73919690907826158000000000000; 69349399491322036000000000000; 65309126903996990000000000000; 61712031321194457000000000000; 58489206680759622000000000000; 55585290808945805000000000000; 52955301100123357000000000000; 50562316007085797000000000000; 48375750282907354000000000000; 46370054126061910000000000000; 44523719648275617000000000000; 42818513291439696000000000000; 41238876514964233000000000000; 39771453289539193000000000000; 38404714199507936000000000000; 37128654895223039000000000000; 35934552304898973000000000000; 34814766111376000000000000000; 33762575992626730000000000000; 32772047335648418000000000000; 31837919782239854000000000000; 30955514206415786000000000000; 30120654665616044000000000000; 29329602589381687000000000000];
[6490311698978618000000000000000; 1397295787197520000000000000000; 679038181764376610000000000000; 430070540273540590000000000000; 309852688115071840000000000000; 240534066590341290000000000000; 195909235171000640000000000000; 164954649148890890000000000000; 142298299152128610000000000000; 125033095512383840000000000000; 111457385871481240000000000000; 100512476048296470000000000000; 91506802863833073000000000000; 83970278640399486000000000000; 77572607295071667000000000000; 72075134878290354000000000000; 67301250400138186000000000000; 63117526018128421000000000000; 59421322089987447000000000000; 56132417932180795000000000000; 53187224815151556000000000000; 50534699210832406000000000000; 48133401912260699000000000000; 45949345657867935000000000000; 43954395616637235000000000000; 42125064146464703000000000000; 40441591100972858000000000000; 38887233876565941000000000000; 37447713520179170000000000000; 36110778344883910000000000000; 34865857000499975000000000000; 33703780338731606000000000000; 32616556685467549000000000000; 31597188940258132000000000000; 30639524703346506000000000000; 29738132682609010000000000000; 28888200162086918000000000000; 28085447464318439000000000000; 27326056211657702000000000000; 26606608859715947000000000000];
[6353906904021526800000000000000; 1331491665733580400000000000000; 637541104903942000000000000000; 400255965880106710000000000000; 286751917833353020000000000000; 221744711756715200000000000000; 180104879057800430000000000000; 151331819771781980000000000000; 130335898838054320000000000000; 114375011682228100000000000000; 101849994539702690000000000000; 91769013178355004000000000000; 83485900757300554000000000000; 76562434825050612000000000000; 70691323455594306000000000000; 65650923436734541000000000000; 61277466473949500000000000000; 57447397974408143000000000000; 54065790757927687000000000000; 51058534563522429000000000000; 48366943367652900000000000000; 45943952219536623000000000000; 43751383797861832000000000000; 41757950110721731000000000000; 39937769022521654000000000000; 38269247522423177000000000000; 36734230328296868000000000000; 35317343197761634000000000000; 34005480985162670000000000000; 32787404596143540000000000000; 31653420777978105000000000000; 30595125567443550000000000000; 29605197123989228000000000000; 28677227215281424000000000000; 27805583204845159000000000000; 26985294296175532000000000000; 26211957206204472000000000000; 25481657507529852000000000000; 24790903687463141000000000000; 24136571590391426000000000000];
[6223879910213149200000000000000; 1269691952221467000000000000000; 598913048457927130000000000000; 372660100020492100000000000000; 265453282757660900000000000000; 204469628500856050000000000000; 165604730914875840000000000000; 138853505465977860000000000000; 119392694381612130000000000000; 104635256186538400000000000000; 93078051480101291000000000000; 83791721907294364000000000000; 76172422681084614000000000000; 69811579114237802000000000000; 64423264963487199000000000000; 59801611590354162000000000000; 55794743634752873000000000000; 52288238258604621000000000000; 49194293565366001000000000000; 46444438806297998000000000000; 43984508674931120000000000000; 41771103737864501000000000000; 39769049586750350000000000000; 37949541441084406000000000000; 36288768198638414000000000000; 34766877643731581000000000000; 33367188226229344000000000000; 32075581603971002000000000000; 30880029445152350000000000000; 29770221154942727000000000000; 28737268312712797000000000000; 27773468016555171000000000000; 26872111896411787000000000000; 26027330847469368000000000000; 25233967934603623000000000000; 24487473686608308000000000000; 23783819314811593000000000000; 23119424379278021000000000000; 22491096174994630000000000000; 21895978682981102000000000000];
[6099844259460111000000000000000; 1211620544008884700000000000000; 562940905210606090000000000000; 347110087849126230000000000000; 245811690188825030000000000000; 188583952492914350000000000000; 152299285577818350000000000000; 127422242180338840000000000000; 109380905389140970000000000000; 95733999839222282000000000000; 85068369662861902000000000000; 76513044919407237000000000000; 69503642347373221000000000000; 63659175383680381000000000000; 58713563982372994000000000000; 54475569279599156000000000000; 50804330379269607000000000000; 47593871128828180000000000000; 44762972969118655000000000000; 42248370429221575000000000000; 40000066977180365000000000000; 37978040483696938000000000000; 36149881203318837000000000000; 34489068927106570000000000000; 32973696670435091000000000000; 31585511743417376000000000000; 30309185970506655000000000000; 29131753739606824000000000000; 28042174592641379000000000000; 27030989356363732000000000000; 26090047315554836000000000000; 25212287900653763000000000000; 24391564609160281000000000000; 23622501939226156000000000000; 22900378342575471000000000000; 22221029845098032000000000000; 21580770204105092000000000000; 20976324387719618000000000000; 20404772855951549000000000000; 19863504653140208000000000000];
[5981440066613039600000000000000; 1157021808561727500000000000000; 529428148329764630000000000000; 323446977320674050000000000000; 227694002219647960000000000000; 173973296902676100000000000000; 140088358390827710000000000000; 116948956678658080000000000000; 100220379453436520000000000000; 87598404585573289000000000000; 77754213689941428000000000000; 69871413780660582000000000000; 63422421147266844000000000000; 58051924078887079000000000000; 53512279440955570000000000000; 49625817855397910000000000000; 46261880287801760000000000000; 43322304282833067000000000000; 40731954383262051000000000000; 38432369953641837000000000000; 36377398956474608000000000000; 34530131212333099000000000000; 32860702441049440000000000000; 31344694370275946000000000000; 29961950759209727000000000000; 28695688708789951000000000000; 27531822945537029000000000000; 26458445936834566000000000000; 25465423539947039000000000000; 24544077352709232000000000000; 23686932860931434000000000000; 22887518037670810000000000000; 22140201001775812000000000000; 21440058187322791000000000000; 20782766546121908000000000000; 20164514829075432000000000000; 19581930124556355000000000000; 19032016681627508000000000000; 18512104688980923000000000000; 18019807171352961000000000000];
[5868332053088468600000000000000; 1105658992990155900000000000000; 498193499152534410000000000000; 301524574579251250000000000000; 210978033220223200000000000000; 160532861060045210000000000000; 128880283126352050000000000000; 107352237645894420000000000000; 91837924323475862000000000000; 80162007373635758000000000000; 71074727992681093000000000000; 63810715551543690000000000000; 57876708370401420000000000000; 52941292078623843000000000000; 48773953236433912000000000000; 45209609839707123000000000000; 42127052976452493000000000000; 39435348974550758000000000000; 37064983709398426000000000000; 34961932075695205000000000000; 33083587719592213000000000000; 31395908088919342000000000000; 29871372688979061000000000000; 28487497255772075000000000000; 27225735355110312000000000000; 26070654731095867000000000000; 25009311608584928000000000000; 24030769696472220000000000000; 23125726375276823000000000000; 22286219252605193000000000000; 21505393660450497000000000000; 20777316847060108000000000000; 20096828294034696000000000000; 19459418233912641000000000000; 18861128367219659000000000000; 18298470192464073000000000000; 17768357413124622000000000000; 17268049673403699000000000000; 16795105470343626000000000000; 16347342544443223000000000000];
[5760207733063745800000000000000; 1057312761236456300000000000000; 469069704565007050000000000000; 281208395273112620000000000000; 195551632565556490000000000000; 148166615787879550000000000000; 118591179555303880000000000000; 98557670589911623000000000000; 84166698914849326000000000000; 73364158620249521000000000000; 64974415945773080000000000000; 58279807099521613000000000000; 52819086287649768000000000000; 48283084901797925000000000000; 44457206528454645000000000000; 41188046750420754000000000000; 38363151281751023000000000000; 35898274698737808000000000000; 33729097916475877000000000000; 31805690746878547000000000000; 30088717160209398000000000000; 28546777260282622000000000000; 27154508765638622000000000000; 25891207006909834000000000000; 24739805841230726000000000000; 23686114226584777000000000000; 22718236802833176000000000000; 21826128847006062000000000000; 21001250673181098000000000000; 20236296533627991000000000000; 19524979968344439000000000000; 18861862374015322000000000000; 18242214986271929000000000000; 17661906928258340000000000000; 17117313765898476000000000000; 16605242323558987000000000000; 16122868488485942000000000000; 15667685462762999000000000000; 15237460473607972000000000000; 14830198373744473000000000000];
[5656775740011073000000000000000; 1011779848431094400000000000000; 441902414796792530000000000000; 262374703642592920000000000000; 181311845276111090000000000000; 136786558751513900000000000000; 109144284573612200000000000000; 90497230919330540000000000000; 77145657948244021000000000000; 67149510411328283000000000000; 59402665345043588000000000000; 53232072829973668000000000000; 48206356056816986000000000000; 44037057433128409000000000000; 40524372492702077000000000000; 37525731534854148000000000000; 34936791380965455000000000000; 32679495292135727000000000000; 30694325651461382000000000000; 28935133016528732000000000000; 27365597916648157000000000000; 25956755946638251000000000000; 24685232277696948000000000000; 23531959840941558000000000000; 22481233760046440000000000000; 21520003698750757000000000000; 20637337262661148000000000000; 19824008194131589000000000000; 19072176836782979000000000000; 18375139667082070000000000000; 17727131115175766000000000000; 17123165390800880000000000000; 16558909215739065000000000000; 16030578651086899000000000000; 15534854868428578000000000000; 15068814933378945000000000000; 14629874574317301000000000000; 14215740586335820000000000000; 13824371031987226000000000000; 13453941790214313000000000000];
[5557764282341627300000000000000; 968871822801563030000000000000; 416549153231367610000000000000; 244909631929732010000000000000; 168164143877916230000000000000; 126312033751483710000000000000; 100469341327540790000000000000; 83108730075813538000000000000; 70719045467308034000000000000; 61467550010439803000000000000; 54313316105048361000000000000; 48625021939977192000000000000; 43999160776114939000000000000; 40166559689323346000000000000; 36941162232834112000000000000; 34190452470431181000000000000; 31817602851925138000000000000; 29750283587375681000000000000; 27933415138340543000000000000; 26324339005098329000000000000; 24889518396813927000000000000; 23602233619843247000000000000; 22440940158153476000000000000; 21388077963079757000000000000; 20429194035546262000000000000; 19552286426594376000000000000; 18747307262954194000000000000; 18005781675509689000000000000; 17320512345606488000000000000; 16685348084464449000000000000; 16095000851933875000000000000; 15544899807050151000000000000; 15031073947919442000000000000; 14550057025132519000000000000; 14098809956196773000000000000; 13674657100720864000000000000; 13275233595218009000000000000; 12898441574333626000000000000; 12542413579351593000000000000; 12205481815824155000000000000];
[5462919717851478800000000000000; 928413946322497600000000000000; 392878370545701250000000000000; 228708373297904010000000000000; 156021725369267750000000000000; 116669108416884350000000000000; 92502041269348235000000000000; 76335310052507632000000000000; 64835932909725787000000000000; 56272174645270135000000000000; 49664266404228913000000000000; 44419921649963990000000000000; 40161642342036894000000000000; 36638214462387281000000000000; 33676360849093580000000000000; 31152895676945964000000000000; 28977955949267579000000000000; 27084512017367880000000000000; 25421586873779472000000000000; 23949745618170224000000000000; 22638018573929472000000000000; 21461755058423716000000000000; 20401096254646367000000000000; 19439869044020426000000000000; 18564771765994211000000000000; 17764766058947989000000000000; 17030616553470261000000000000; 16354538218987774000000000000; 15729923161068820000000000000; 15151126788384161000000000000; 14613298855136090000000000000; 14112248784861577000000000000; 13644337441454382000000000000; 13206389491108442000000000000; 12795621933053003000000000000; 12409585428335176000000000000; 12046115834560963000000000000; 11703293936794845000000000000; 11379411804124597000000000000; 11072944535723563000000000000];
[5372005237504814400000000000000; 890244126031053410000000000000; 370768576144196170000000000000; 213674442034162140000000000000; 144804867710729820000000000000; 107790005241005760000000000000; 85183514520716513000000000000; 70124982043456626000000000000; 59449797790098570000000000000; 51521303901603159000000000000; 45417113843677246000000000000; 40581463187285239000000000000; 36661129070042725000000000000; 33421623963025217000000000000; 30701550934296440000000000000; 28386383644473617000000000000; 26392713622181447000000000000; 24658416805509115000000000000; 23136308855670413000000000000; 21789931830089662000000000000; 20590684467337787000000000000; 19515823272598255000000000000; 18547042034305281000000000000; 17669444115462475000000000000; 16870786785269222000000000000; 16140917372088604000000000000; 15471346890994870000000000000; 14854923669113487000000000000; 14285580703443912000000000000; 13758138067875045000000000000; 13268146896402509000000000000; 12811765103310580000000000000; 12385657570233154000000000000; 11986915369580455000000000000; 11612989926643063000000000000; 11261638999046199000000000000; 10930882074795287000000000000; 10618963330140344000000000000; 10324320695612424000000000000; 10045559888235572000000000000];
[5284799649863473100000000000000; 854211948604809980000000000000; 350107540447580150000000000000; 199718995340815680000000000000; 134440340738557620000000000000; 99612581342503840000000000000; 78459864327786056000000000000; 64430205345133501000000000000; 54518139403612166000000000000; 47176526382205390000000000000; 41536828493408352000000000000; 37077457585940185000000000000; 33467851310949388000000000000; 30489102847451868000000000000; 27990861015500536000000000000; 25866637417040952000000000000; 24039006024217228000000000000; 22450383592901523000000000000; 21057092287789388000000000000; 19825423564946085000000000000; 18728961413962185000000000000; 17746720476842803000000000000; 16861824649396587000000000000; 16060552189879546000000000000; 15331634356822086000000000000; 14665732608665080000000000000; 14055043637855005000000000000; 13492997297929778000000000000; 12974022960859750000000000000; 12493366920648087000000000000; 12046948318656179000000000000; 11631244451949245000000000000; 11243198717646062000000000000; 10880146157313073000000000000; 10539752804162152000000000000; 10219965942536646000000000000; 9918973059740740300000000000; 9635167771035171500000000000; 9367121375951051500000000000; 9113558990878423500000000000];
[5201096258180751800000000000000; 820177791415816340000000000000; 330791562142012450000000000000; 186760211510336310000000000000; 124860866842888190000000000000; 92079852738181037000000000000; 72281741762109438000000000000; 59207502974150334000000000000; 50002128278585139000000000000; 43202777586386944000000000000; 37991454980209481000000000000; 33878558630753420000000000000; 30554682545562571000000000000; 27815435247658333000000000000; 25520736684749071000000000000; 23571560286704805000000000000; 21896025470655267000000000000; 20440752549900679000000000000; 19165305891848199000000000000; 18038516383250571000000000000; 17035984409748354000000000000; 16138345454911234000000000000; 15330040769464502000000000000; 14598430066736872000000000000; 13933140515080835000000000000; 13325581961926394000000000000; 12768581036796160000000000000; 12256101553217338000000000000; 11783028424066900000000000000; 11344998914218900000000000000; 10938269586916924000000000000; 10559610455312765000000000000; 10206220077233433000000000000; 9875656922855627900000000000; 9565783496275854800000000000; 9274720534081618300000000000; 9000809226358689000000000000; 8742579870002002400000000000; 8498725713921644800000000000; 8268081021390567100000000000];
[5120701822827481400000000000000; 788012003838518690000000000000; 312724794991635430000000000000; 174722719723121450000000000000; 116004627154789220000000000000; 85139559280867257000000000000; 66603957159563519000000000000; 54417110777629819000000000000; 45866286396616489000000000000; 39568046237656567000000000000; 34751841026103790000000000000; 30958010514501198000000000000; 27896903667147545000000000000; 25377653640451408000000000000; 23269732366916368000000000000; 21481041047673463000000000000; 19944839985138988000000000000; 18611641197502210000000000000; 17444007129053807000000000000; 16413114346709664000000000000; 15496423958207611000000000000; 14676065814213754000000000000; 13937694732261345000000000000; 13269665928912243000000000000; 12662430706000182000000000000; 12108086901714552000000000000; 11600039900579772000000000000; 11132743821837792000000000000; 10701501661553329000000000000; 10302309335251171000000000000; 9931732795818990500000000000; 9586810341531600800000000000; 9264974302138730700000000000; 8963987771542095500000000000; 8681893125731132300000000000; 8416969846789735200000000000; 8167699751378336100000000000; 7932738152853786400000000000; 7710889810337301200000000000; 7501088764121009700000000000];
[5043435602314387800000000000000; 757594153105957960000000000000; 295818629273205990000000000000; 163537077114565000000000000000; 107814809353885860000000000000; 78743766751055485000000000000; 61385125097161968000000000000; 50022657097410885000000000000; 42078195463754195000000000000; 36243106534196859000000000000; 31791390078516894000000000000; 28291417995036003000000000000; 25471988367864787000000000000; 23154837586330480000000000000; 21218321858713697000000000000; 19576775037343534000000000000; 18168223746501580000000000000; 16946783325985527000000000000; 15877788788476684000000000000; 14934583582499430000000000000; 14096346006472976000000000000; 13346583764458895000000000000; 12672069698848646000000000000; 12062075461592154000000000000; 11507810502698640000000000000; 11002005158933365000000000000; 10538596571159319000000000000; 10112489098801152000000000000; 9719369459237469500000000000; 9355562582981324900000000000; 9017918119543623500000000000; 8703720268920352600000000000; 8410615543888680800000000000; 8136554445687538100000000000; 7879744030403158400000000000; 7638609069863640500000000000; 7411760046946130500000000000; 7197966624739066600000000000; 6996135529464252700000000000; 6805292015018947400000000000];
[4969128466721304800000000000000; 728812329481568900000000000000; 279991123307924100000000000000; 153139289129684290000000000000; 100239193543905020000000000000; 72848502896704359000000000000; 56587339988414644000000000000; 45990870308679314000000000000; 38608230757195632000000000000; 33201274022055887000000000000; 29085835884432752000000000000; 25856537038307908000000000000; 23259407733145754000000000000; 21127930547268918000000000000; 19348725942045419000000000000; 17842101352216453000000000000; 16550502900504976000000000000; 15431382545336436000000000000; 14452639540516476000000000000; 13589619203795461000000000000; 12823084679426439000000000000; 12137814180791201000000000000; 11521610619103808000000000000; 10964589342595914000000000000; 10458657284908117000000000000; 9997126294342734100000000000; 9574422109015656100000000000; 9185862555201774900000000000; 8827486548471782600000000000; 8495920859242983100000000000; 8188275283832542000000000000; 7902059415839326600000000000; 7635116010046743300000000000; 7385567212493571300000000000; 7151770855078746500000000000; 6932284687880289600000000000; 6725836919986966600000000000; 6531301810238499100000000000; 6347679327790931700000000000; 6174078113601059900000000000];
[4897622077845121800000000000000; 701562505947102980000000000000; 265166480946507350000000000000; 143470369523261750000000000000; 93229772949870275000000000000; 67413424494557764000000000000; 52175879633824043000000000000; 42291311790007774000000000000; 35429318291633721000000000000; 30418182995954777000000000000; 26613037053043586000000000000; 23633084114102107000000000000; 21240452318857170000000000000; 19279573154339007000000000000; 17644755528670425000000000000; 16261854773090992000000000000; 15077415340962155000000000000; 14051979135638942000000000000; 13155817181829022000000000000; 12366124366251581000000000000; 11665126640648268000000000000; 11038773825455804000000000000; 10475817923583752000000000000; 9967151059001447900000000000; 9505321873344640500000000000; 9084176876598498700000000000; 8698590769196195000000000000; 8344261091209042400000000000; 8017550036380518000000000000; 7715361295316080600000000000; 7435043224998298800000000000; 7174312022067820600000000000; 6931190251032016000000000000; 6703957270846659700000000000; 6491108962978314700000000000; 6291324790913654500000000000; 6103440683000758500000000000; 5926426574281432800000000000; 5759367701163155400000000000; 5601448938422606700000000000];
[4828768130838127500000000000000; 675747948003898040000000000000; 251274571212014300000000000000; 134475936673889660000000000000; 86742406470428426000000000000; 62401512760826613000000000000; 48118934296468565000000000000; 38896132097225918000000000000; 32516713249392259000000000000; 27871583519283125000000000000; 24352789826360675000000000000; 21602562475935504000000000000; 19398070141532918000000000000; 17593951443321948000000000000; 16091668932923175000000000000; 14822231067026467000000000000; 13735983191730530000000000000; 12796328987076863000000000000; 11975733414438660000000000000; 11253100351792389000000000000; 10612006016288255000000000000; 10039480705366667000000000000; 9525150957328228400000000000; 9060624101117159800000000000; 8639039203046414800000000000; 8254734384375732100000000000; 7902996907690626700000000000; 7579873044728080800000000000; 7282021734491968000000000000; 7006600735399308500000000000; 6751177178205996500000000000; 6513656645176544400000000000; 6292226459653731200000000000; 6085309979559272400000000000; 5891529487585677100000000000; 5709675853184048800000000000; 5538683570252192900000000000; 5377610093335547500000000000; 5225618634509610700000000000; 5081963764370144100000000000];
[4762427652530321100000000000000; 651278669548096960000000000000; 238250486623681060000000000000; 126105843163991860000000000000; 80736500374217861000000000000; 57778794671279471000000000000; 44387359085413785000000000000; 35779848309870281000000000000; 29847797800704951000000000000; 25541156324812176000000000000; 22286657436495698000000000000; 19748103906345373000000000000; 17716719153335735000000000000; 16056658710313745000000000000; 14676041996354290000000000000; 13510664454561034000000000000; 12514396836489795000000000000; 11653293529544442000000000000; 10901849107470428000000000000; 10240546672521296000000000000; 9654208915451332200000000000; 9130862636800608800000000000; 8660940261641957900000000000; 8236707672151347200000000000; 7851847204096024900000000000; 7501149029036288900000000000; 7180279540821202600000000000; 6885605302979711800000000000; 6614057655974054600000000000; 6363027468713650400000000000; 6130282507477147500000000000; 5913901963653278800000000000; 5712224133365774500000000000; 5523804274340070200000000000; 5347380408458667200000000000; 5181845379468854800000000000; 5026223873385878400000000000; 4879653404987072300000000000; 4741368495700725000000000000; 4610687436131790900000000000];
[4698470352016234100000000000000; 628070931113292740000000000000; 226034137016670500000000000000; 118313835837166730000000000000; 75174716662426084000000000000; 53514087962664219000000000000; 40954447623731674000000000000; 32919140697903792000000000000; 27401896606481769000000000000; 23408344012429269000000000000; 20397814573281611000000000000; 18054324545104118000000000000; 16182232902030018000000000000; 14654569761080958000000000000; 13385649903714326000000000000; 12315716140647499000000000000; 11401909448126781000000000000; 10612739652142665000000000000; 9924579085973145500000000000; 9319370279688748100000000000; 8783086669239333500000000000; 8304674173661152900000000000; 7875307892034891700000000000; 7487860131198104500000000000; 7136513134732263700000000000; 6816472768385702600000000000; 6523753852068937900000000000; 6255017133781204500000000000; 6007444019254977200000000000; 5778639267763179800000000000; 5566554653549382600000000000; 5369428520475043800000000000; 5185737509534017100000000000; 5014157699503518000000000000; 4853533091935611600000000000; 4702849874339061900000000000; 4561215264983974800000000000; 4427840017235568900000000000; 4302023867068769400000000000; 4183143363015940300000000000];
[4636774019442062600000000000000; 606046777079046820000000000000; 214569875939474230000000000000; 111057243781173160000000000000; 70022705832678590000000000000; 49578767780719670000000000000; 37795725154859809000000000000; 30292667019479387000000000000; 25160108447120325000000000000; 21456197101127682000000000000; 18670905617847280000000000000; 16507193541925992000000000000; 14781698193246184000000000000; 13375726438643026000000000000; 12209359634782757000000000000; 11226972907746630000000000000; 10388741064891796000000000000; 9665448703958844400000000000; 9035205578560895500000000000; 8481303046364947400000000000; 7990776991014975400000000000; 7553421133151312500000000000; 7161095035080666600000000000; 6807229459125925400000000000; 6486466681387934300000000000; 6194394849317757800000000000; 5927349005871900300000000000; 5682260116428604100000000000; 5456539157034905700000000000; 5247987149730680900000000000; 5054724633498228900000000000; 4875135857009166600000000000; 4707824238700877900000000000; 4551576533699027600000000000; 4405333789570525400000000000; 4268167639922741200000000000; 4139260827998297700000000000; 4017891107077016300000000000; 3903417855256912000000000000; 3795270886369463600000000000];
[4577223969254834400000000000000; 585133608723167680000000000000; 203806156954879640000000000000; 104296691901487080000000000000; 65248861973920989000000000000; 45946553116472328000000000000; 34888759402405684000000000000; 27880892909172895000000000000; 23105152558675649000000000000; 19669233620823157000000000000; 17091915417871124000000000000; 15093913388094537000000000000; 13503343678754123000000000000; 12209233414251421000000000000; 11137032092080074000000000000; 10234954860395950000000000000; 9465991347145863900000000000; 8803033750326938400000000000; 8225799534871697900000000000; 7718826768494401000000000000; 7270132333498055000000000000; 6870292022976527200000000000; 6511796254674984300000000000; 6188590102294774500000000000; 5895739203305261200000000000; 5629183278184713000000000000; 5385551687030005900000000000; 5162023609350900900000000000; 4956220785257636200000000000; 4766124331930767400000000000; 4590009578448910100000000000; 4426394538106635700000000000; 4273998810448411100000000000; 4131710537263892700000000000; 3998559634227500100000000000; 3873695953825095500000000000; 3756371353808804500000000000; 3645924881709875800000000000; 3541770462816683900000000000; 3443386612634150300000000000];
[4519712524474596100000000000000; 565263790251702700000000000000; 193695217393875240000000000000; 97995837948384266000000000000; 60824098299609762000000000000; 42593311333530498000000000000; 32212987645681536000000000000; 25665936951605756000000000000; 21221228383214528000000000000; 18033311046446174000000000000; 15648051489581779000000000000; 13802810884152800000000000000; 12336438391297153000000000000; 11145163318522842000000000000; 10159433031376333000000000000; 9331031493192056700000000000; 8625560227275975800000000000; 8017864334006718700000000000; 7489149095865969500000000000; 7025104998076870400000000000; 6614654784650205000000000000; 6249095738026578300000000000; 5921499759669258000000000000; 5626285608350249300000000000; 5358908556684871500000000000; 5115631673145453900000000000; 4893354837994673200000000000; 4689485243692522900000000000; 4501838137030599500000000000; 4328559901195111800000000000; 4168067843270494700000000000; 4019002615505617600000000000; 3880190291472756600000000000; 3750611892640919100000000000; 3629378716484416000000000000; 3515712220495943300000000000; 3408927512309631500000000000; 3308419715388170200000000000; 3213652643743749800000000000; 3124149342975349600000000000];
[4464138538825274100000000000000; 546374285175285840000000000000; 184192787316386430000000000000; 92121131041524151000000000000; 56721641388798082000000000000; 39496879236043426000000000000; 29749558607491521000000000000; 23631429158890525000000000000; 19493887554527449000000000000; 16535509483195196000000000000; 14327636631110943000000000000; 12623237794267385000000000000; 11271199334628983000000000000; 10174470372779642000000000000; 9268152000898168900000000000; 8507345329231300100000000000; 7860075736939242100000000000; 7302998059096211600000000000; 6818694565426353900000000000; 6393921084965469400000000000; 6018436904565222700000000000; 5684204952452597700000000000; 5384833140694551000000000000; 5115176522206648100000000000; 4871048985342157000000000000; 4649011003041444300000000000; 4446211115008498100000000000; 4260265979154630500000000000; 4089168512238612500000000000; 3931216761481112100000000000; 3784958265300260800000000000; 3649146118624455100000000000; 3522703976319474600000000000; 3404697949066825100000000000; 3294313862747529400000000000; 3190838727120116100000000000; 3093645534292649400000000000; 3002180710938786600000000000; 2915953700302949400000000000; 2834528264780092500000000000];
[4410406953812107700000000000000; 528406320615595750000000000000; 175257821619930750000000000000; 86641589901538946000000000000; 52916842552928854000000000000; 36636899261127259000000000000; 27481187873132245000000000000; 21762381682922170000000000000; 17909917044561373000000000000; 15164025108775163000000000000; 13120011022423313000000000000; 11545480322943463000000000000; 10298707317544721000000000000; 9288911756409608100000000000; 8455528566964634000000000000; 7756742444329204800000000000; 7162828360857887600000000000; 6652118377621071600000000000; 6208469291174780300000000000; 5819621860765630100000000000; 5476107960314682000000000000; 5170504685695067800000000000; 4896914074693233600000000000; 4650593059231847100000000000; 4427685612069261600000000000; 4225025763006802500000000000; 4039990628250457800000000000; 3870389301241600100000000000; 3714377835118501400000000000; 3570393464301175800000000000; 3437103188303644500000000000; 3313363199897464000000000000; 3198186588274380600000000000; 3090717418811550400000000000; 2990209771628817400000000000; 2896010669380948900000000000; 2807546079838079700000000000; 2724309367605062900000000000; 2645851710379539400000000000; 2571774101485442900000000000];
[4358428388065175300000000000000; 511305077322873540000000000000; 166852253408659580000000000000; 81528599149473802000000000000; 49387004881549287000000000000; 33994669501991588000000000000; 25392025671255457000000000000; 20045070696183983000000000000; 16457232490871652000000000000; 13908072966732346000000000000; 12015442969549031000000000000; 10560676627184976000000000000; 9410830293614938200000000000; 8480976014970853400000000000; 7714585169097612400000000000; 7072709254416954700000000000; 6527711325526068200000000000; 6059478015213065900000000000; 5653045916444803500000000000; 5297066450103010400000000000; 4982785065415237900000000000; 4703345568830730600000000000; 4453305541720607500000000000; 4228292117050652100000000000; 4024753107776629500000000000; 3839774178468809800000000000; 3670942571255529400000000000; 3516244177918375600000000000; 3373984849743880000000000000; 3242729563144557000000000000; 3121254903404598700000000000; 3008511596349656000000000000; 2903594701513743900000000000; 2805719704973188100000000000; 2714203197023141300000000000; 2628447143534761500000000000; 2547925996750555400000000000; 2472176066485415000000000000; 2400786703511246400000000000; 2333392945457851900000000000];
[4308118756481242300000000000000; 495019403366245970000000000000; 158940766892138150000000000000; 76755722173323148000000000000; 46111224643867231000000000000; 31553006379765238000000000000; 23467535949123828000000000000; 18466928468313447000000000000; 15124780811895824000000000000; 12757798285410924000000000000; 11005047525955989000000000000; 9660741647654552200000000000; 8600153534675869000000000000; 7743817876442845200000000000; 7038966007045122500000000000; 6449314999944275400000000000; 5949166284939838700000000000; 5519847523599679900000000000; 5147487514430172800000000000; 4821579741564149700000000000; 4534028775740953100000000000; 4278501381024029600000000000; 4049975140387570200000000000; 3844418227698089000000000000; 3658558154408559000000000000; 3489712066814722900000000000; 3335660381282446300000000000; 3194551428951534600000000000; 3064828617566526500000000000; 2945174166251441600000000000; 2834465190959427900000000000; 2731739100446087200000000000; 2636166086109951400000000000; 2547027070520140900000000000; 2463695895246537300000000000; 2385624829432693300000000000; 2312332700588468500000000000; 2243395111688442800000000000; 2178436329982701500000000000; 2117122524272784600000000000];
[4259398916891634100000000000000; 479501549624375000000000000000; 151490588226873920000000000000; 72298529187483787000000000000; 43070245836090322000000000000; 29296118884046957000000000000; 21694385767733367000000000000; 17016444750991234000000000000; 13902451295681290000000000000; 11704195570299155000000000000; 10080712292287724000000000000; 8838298606515470300000000000; 7859916026493760300000000000; 7071198900038978100000000000; 6422881416167804500000000000; 5881159412425327600000000000; 5422133914322795400000000000; 5028468494260750900000000000; 4687303160130099700000000000; 4388910093349291100000000000; 4125802734722392800000000000; 3892130465303387300000000000; 3683258126283270600000000000; 3495468088457910800000000000; 3325745352966594600000000000; 3171620020157660400000000000; 3031050105352215900000000000; 2902333193215983900000000000; 2784039012194244300000000000; 2674957392216244200000000000; 2574057676598704500000000000; 2480456761687347300000000000; 2393393705150036400000000000; 2312209385202589600000000000; 2236330079832744600000000000; 2165254114703583500000000000; 2098540932784123500000000000; 2035802089678260900000000000; 1976693791146368300000000000; 1920910673983919600000000000];
[4212194342163277900000000000000; 464706925355976510000000000000; 144471292845141550000000000000; 68134439226707182000000000000; 40246326767757502000000000000; 27209493395355996000000000000; 20060344127071764000000000000; 15683076661505513000000000000; 12780994419533921000000000000; 10739034784249110000000000000; 9235029757960042000000000000; 8086616578008702100000000000; 7183952529944986500000000000; 6457433433856893000000000000; 5861057236755793800000000000; 5363325094913015100000000000; 4942008967229433800000000000; 4581011009987093800000000000; 4268407536234653400000000000; 3995190887499717600000000000; 3754436997932272100000000000; 3540740668697534500000000000; 3349823832194235900000000000; 3178258342960972000000000000; 3023266260054629700000000000; 2882573603635636300000000000; 2754301676673948400000000000; 2636885208299467600000000000; 2529009934748545400000000000; 2429564460225035000000000000; 2337602741203752300000000000; 2252314566220873100000000000; 2173002118321279300000000000; 2099061211386218300000000000; 2029966151385320900000000000; 1965257433511768800000000000; 1904531675982952800000000000; 1847433331371904600000000000; 1793647820705283200000000000; 1742895814048134000000000000];
[4166434815805158400000000000000; 450593872269192740000000000000; 137854627936128350000000000000; 64242574922024308000000000000; 37623117674638585000000000000; 25279788187702666000000000000; 18554189409145136000000000000; 14457166326273777000000000000; 11751947723520394000000000000; 9854793990824826000000000000; 8461235604805382300000000000; 7399553590943337400000000000; 6566640801030357000000000000; 5897339404815157400000000000; 5348688727509543800000000000; 4891334190594932600000000000; 4504599391779960700000000000; 4173534949590577100000000000; 3887084205916473200000000000; 3636905581831765600000000000; 3416594701001657900000000000; 3221157484293876800000000000; 3046645160245908500000000000; 2889896314293679100000000000; 2748351265486593200000000000; 2619916291824577500000000000; 2502862833403169300000000000; 2395751643104972900000000000; 2297374998705626300000000000; 2206712171532778100000000000; 2122894748667862500000000000; 2045179365146164300000000000; 1972926069086888700000000000; 1905581012024938800000000000; 1842662491471835300000000000; 1783749614348249500000000000; 1728473026255716100000000000; 1676507281582863300000000000; 1627564526254462800000000000; 1581389237685662200000000000];
[4122054149303925900000000000000; 437123455636694650000000000000; 131614348854755260000000000000; 60603629002982679000000000000; 35185548432015495000000000000; 23494736787152580000000000000; 17165624696993756000000000000; 13329865610280771000000000000; 10807568120421284000000000000; 9044597891394108600000000000; 7753152444581783600000000000; 6771504770639302000000000000; 6002853508518244700000000000; 5386193507241415200000000000; 4881398614041509800000000000; 4461108952268365600000000000; 4106089138476416800000000000; 3802454796020183400000000000; 3539952218953510700000000000; 3310855940754749600000000000; 3109241765554247600000000000; 2930495102324874200000000000; 2770970864525364500000000000; 2627753419272408400000000000; 2498484049942147600000000000; 2381234891394649600000000000; 2274415436390245800000000000; 2176702248081320100000000000; 2086985456319295600000000000; 2004327561289420200000000000; 1927931377145701300000000000; 1857114843429546300000000000; 1791291053230870200000000000; 1729952284094637400000000000; 1672657129130873900000000000; 1619020050401721200000000000; 1568702840454967100000000000; 1521407598573790200000000000; 1476870918119269800000000000; 1434859048787922300000000000];
[4078989919551832500000000000000; 424259271120731310000000000000; 125726068334599560000000000000; 57199741559153146000000000000; 32919725520969573000000000000; 21843059433166805000000000000; 15885200292327301000000000000; 12293067317372002000000000000; 9940770079108725900000000000; 8302161737009557900000000000; 7105138509172705300000000000; 6197355071879632300000000000; 5487914429390807800000000000; 4919690395511934600000000000; 4455198900198246700000000000; 4068935860509726900000000000; 3743004325408854200000000000; 3464507629950387200000000000; 3223935748011329300000000000; 3014133155261783700000000000; 2829619365771397100000000000; 2666130104220077300000000000; 2520300368564364500000000000; 2389441017919011600000000000; 2271378385663341900000000000; 2164337221334750700000000000; 2066853965012001400000000000; 1977711609433834200000000000; 1895890159776943100000000000; 1820528520247437100000000000; 1750894859323521000000000000; 1686363340614504900000000000; 1626395685292945600000000000; 1570526439051411700000000000; 1518351106328242600000000000; 1469516523371425400000000000; 1423712993873672400000000000; 1380667822959741200000000000; 1340139968619333800000000000; 1301915592205478100000000000];
[4037183224858262300000000000000; 411967266080006530000000000000; 120167117473939520000000000000; 54014387174947647000000000000; 30812837472336779000000000000; 20314381954253209000000000000; 14704242813185918000000000000; 11339342300126754000000000000; 9145069167885529900000000000; 7621740142068079400000000000; 6512040855113882900000000000; 5672436194499072100000000000; 5017558539924800300000000000; 4493905521658357100000000000; 4066456103601586500000000000; 3711432970233992000000000000; 3412182456984733500000000000; 3156724019822474800000000000; 2936236479540346800000000000; 2744091588832532100000000000; 2575218903569582800000000000; 2425677557932544900000000000; 2292360885510276900000000000; 2172788474766912000000000000; 2064957064983716900000000000; 1967231843125304500000000000; 1878265990540526100000000000; 1796940313379964000000000000; 1722317369343548300000000000; 1653606204414604700000000000; 1590134955235582000000000000; 1531329351996839900000000000; 1476695696416500800000000000; 1425807268424140900000000000; 1378293384814142700000000000; 1333830527289134300000000000; 1292135098679895000000000000; 1252957470149246500000000000; 1216077059478299400000000000; 1181298238502988300000000000];
[3996578458153926500000000000000; 400215574229049190000000000000; 114916417548765770000000000000; 51032271125978105000000000000; 28853068078837059000000000000; 18899161428601037000000000000; 13614790306670204000000000000; 10461881967088731000000000000; 8414530489498708900000000000; 6998080368595372400000000000; 5969152683068235400000000000; 5192487309713198600000000000; 4587895654506134400000000000; 4105261291164308500000000000; 3711859607366647100000000000; 3385520194325473600000000000; 3110744419882249900000000000; 2876401545599034800000000000; 2674308508849355700000000000; 2498324910018639100000000000; 2343759263416680200000000000; 2206969294983685600000000000; 2085086630107607000000000000; 1975823229142756300000000000; 1877332761272018500000000000; 1788109652355758800000000000; 1706914444989723700000000000; 1632717844409400400000000000; 1564658238089211200000000000; 1502009067534680400000000000; 1444153497479874900000000000; 1390564554798822000000000000; 1340789412559234500000000000; 1294436847663935200000000000; 1251167151452987900000000000; 1210683953164624800000000000; 1172727547494330900000000000; 1137069414065665000000000000; 1103507688334727700000000000; 1071863397197024400000000000];
[3957123096105135100000000000000; 388974362611428020000000000000; 109954361784342960000000000000; 48239233893086026000000000000; 27029516726074744000000000000; 17588618054381801000000000000; 12609532860734507000000000000; 9654445719869393500000000000; 7743721580718627300000000000; 6426379688136205200000000000; 5472174408373309600000000000; 4753619258498505000000000000; 4195377295461091700000000000; 3750496239567295100000000000; 3388392847746217600000000000; 3088392259378621600000000000; 2836069004988285500000000000; 2621080717375855400000000000; 2435835511730112500000000000; 2274644394315946300000000000; 2133166138746721400000000000; 2008034169776077900000000000; 1896599930951682300000000000; 1796752690197128800000000000; 1706790644841064500000000000; 1625327160635860700000000000; 1551221520157325400000000000; 1483527057748405100000000000; 1421451818530805700000000000; 1364328366540037000000000000; 1311590363500808700000000000; 1262754218269438600000000000; 1217404576011877700000000000; 1175182744991726100000000000; 1135777392359056800000000000; 1098917008192090600000000000; 1064363759078309100000000000; 1031908442186328700000000000; 1001366317311928700000000000; 972573644216471900000000000];
[3918767502955190500000000000000; 378215689931375930000000000000; 105262706288134470000000000000; 45622163312305491000000000000; 25332125248135494000000000000; 16374672703731667000000000000; 11681758243714899000000000000; 8911312893444841100000000000; 7127669386913358000000000000; 5902246462977529200000000000; 5017178151119267900000000000; 4352281913563564500000000000; 3836766505569162800000000000; 3426636959222828500000000000; 3093307082731368800000000000; 2817494092554262900000000000; 2585769726865296300000000000; 2388523071705713500000000000; 2218709985739620900000000000; 2071059197765645300000000000; 1941553240951312400000000000; 1827080119985058800000000000; 1725194069039300300000000000; 1633947789373792300000000000; 1551772592687428900000000000; 1477391312404733500000000000; 1409754046812187900000000000; 1347990080969568400000000000; 1291371450801029700000000000; 1239285003970706900000000000; 1191210743050530800000000000; 1146704869698618900000000000; 1105386385868147800000000000; 1066926414340520600000000000; 1031039618201734000000000000; 997477254976857100000000000; 966021514529409900000000000; 936480873087389280000000000; 908686257489931200000000000; 882487859957707740000000000];
[3881464748001623400000000000000; 367913375364809230000000000000; 100824469412194220000000000000; 43168913735900337000000000000; 23751610763816785000000000000; 15249889679494551000000000000; 10825302141041567000000000000; 8227238810185838600000000000; 6561820956267291400000000000; 5421664620090012200000000000; 4600575343663729700000000000; 3985234423974081100000000000; 3509110340749642900000000000; 3130972529916683300000000000; 2824097509629088400000000000; 2570498420349651100000000000; 2357673733003015400000000000; 2176691248220357400000000000; 2021014373087060100000000000; 1885758422751290000000000000; 1767205219201195900000000000; 1662477863427071600000000000; 1569317684591928900000000000; 1485928038368189800000000000; 1410862845740119400000000000; 1342945695544150200000000000; 1281210217802261700000000000; 1224855513068535000000000000; 1173212404919441200000000000; 1125717583923033100000000000; 1081893581139592500000000000; 1041333100183418500000000000; 1003686644610278900000000000; 968652662698117160000000000; 935969633958232030000000000; 905409666876055030000000000; 876773282749231220000000000; 849885137796880990000000000; 824590492995942510000000000; 800752283950037910000000000];
[3845170435702342000000000000000; 358042877040871680000000000000; 96623838872972930000000000000; 40868231631675713000000000000; 22279403995530923000000000000; 14207424234969446000000000000; 10034502595807706000000000000; 7597414592113032900000000000; 6042007529489925900000000000; 4980961220021367600000000000; 4219087180311691600000000000; 3649518086551244900000000000; 3209714803922322600000000000; 2861031229146804500000000000; 2578481520552972000000000000; 2345285379899485300000000000; 2149802613941681400000000000; 1983730867072953500000000000; 1841003894193583300000000000; 1717094812835882700000000000; 1608562135046884000000000000; 1512746081869819700000000000; 1427560608613231600000000000; 1351347954574828900000000000; 1282774980746650800000000000; 1220758017687204500000000000; 1164407531409880400000000000; 1112986801473720800000000000; 1065880661504977800000000000; 1022571569498182600000000000; 982621087857610680000000000; 945655404736964100000000000; 911353908426935780000000000; 879440092325318640000000000; 849674256291837820000000000; 821847605191989380000000000; 795777443351733860000000000; 771303235431612860000000000; 748283357383794490000000000; 726592400891557340000000000];
[3809842547481366300000000000000; 348581179449559130000000000000; 92646086011347328000000000000; 38709687095426831000000000000; 20907592614987161000000000000; 13240974454514593000000000000; 9304158293845731500000000000; 7017430406839622800000000000; 5564411729302556900000000000; 4576776849260813200000000000; 3869717658317476300000000000; 3342431610975933500000000000; 2936122002437021100000000000; 2614559318036957900000000000; 2354378903784334300000000000; 2139923961446244400000000000; 1960354942472835900000000000; 1807954044025612800000000000; 1677090936552825700000000000; 1563569928363668000000000000; 1464205350005209300000000000; 1376537955933951000000000000; 1298640988799358600000000000; 1228984728689289100000000000; 1166340076136073300000000000; 1109708731901999700000000000; 1058271842673559500000000000; 1011351688478892800000000000; 968382725945597280000000000; 928889440071417940000000000; 892469216489559310000000000; 858778961086669700000000000; 827524548364117350000000000; 798452427550052040000000000; 771342890715381200000000000; 746004632706904290000000000; 722270323709523250000000000; 699992981913812600000000000; 679042983093374970000000000; 659305580746569220000000000];
[3775441294376290500000000000000; 339506689090149990000000000000; 88877486625982671000000000000; 36683610795024786000000000000; 19628869198230260000000000000; 12344737127221064000000000000; 8629490364980995800000000000; 6483241850919302100000000000; 5125537579922622800000000000; 4206038588549448200000000000; 3549728981618077900000000000; 3061508566303538800000000000; 2686089330940061300000000000; 2389501717169186300000000000; 2149893816266106400000000000; 1952655117006972200000000000; 1787690385688672700000000000; 1647824394825941000000000000; 1527830857660710100000000000; 1423820668073232200000000000; 1332844697292269300000000000; 1252628927667507500000000000; 1181393591369251200000000000; 1117727020634181800000000000; 1060495962287770000000000000; 1008780706132803800000000000; 961827420739224340000000000; 919012628594408520000000000; 879816380731982790000000000; 843801756098338600000000000; 810599020469205820000000000; 779893260361901260000000000; 751414638014356430000000000; 724930644208415850000000000; 700239888847495620000000000; 677167085985177940000000000; 655558974573301360000000000; 635280978110102870000000000; 616214452146936010000000000; 598254402788524220000000000];
[3741928979735357800000000000000; 330799137729511500000000000000; 85305247859259418000000000000; 34781035904595330000000000000; 18436483407798039000000000000; 11513367277263663000000000000; 8006107400452763600000000000; 5991139200094346000000000000; 4722183110409452200000000000; 3865935331440292100000000000; 3256619118976450000000000000; 2804496815506806400000000000; 2457570499270279400000000000; 2183984403297121900000000000; 1963298368231512400000000000; 1781876385168273600000000000; 1630315247802437100000000000; 1501943393986697900000000000; 1391909073634413500000000000; 1296607014253926500000000000; 1213306820631565200000000000; 1139905578666514900000000000; 1074759171234875000000000000; 1016564780423247800000000000; 964277456702076990000000000; 917049840497575610000000000; 874187919691664310000000000; 835118087395437520000000000; 799362289457154420000000000; 766519047698909480000000000; 736248807982713400000000000; 708262510903228120000000000; 682312591256527430000000000; 658185827396877750000000000; 635697613460800670000000000; 614687336068424030000000000; 595014615716828300000000000; 576556230580325790000000000; 559203582919172600000000000; 542860599995312380000000000];
[3709269871232621100000000000000; 322439492689290190000000000000; 81917440657294557000000000000; 32993644623838603000000000000; 17324198051943641000000000000; 10741941043226316000000000000; 7429973412348839000000000000; 5537719279458089500000000000; 4351415317294613000000000000; 3553895247306637100000000000; 2988101326676613000000000000; 2569339761885625900000000000; 2248698241110230400000000000; 1996298373073951000000000000; 1793017675288052300000000000; 1626127895494815300000000000; 1486869314528642000000000000; 1369037965327387300000000000; 1268129316819847300000000000; 1180800890142235700000000000; 1104524573757385400000000000; 1037355521871914300000000000; 977774812787668760000000000; 924580000064260810000000000; 876807493711180700000000000; 833676545362761210000000000; 794548178841030700000000000; 758894640689654160000000000; 726276373966533970000000000; 696324450998159730000000000; 668727020541992050000000000; 643218743714805970000000000; 619572480642045030000000000; 597592690089482570000000000; 577110145726497180000000000; 557977673720694810000000000; 540066689425993840000000000; 523264364332046800000000000; 507471293876366320000000000; 492599566119984410000000000];
[3677430081525415200000000000000; 314409873626866970000000000000; 78702937364383014000000000000; 31313718911048015000000000000; 16286248700308449000000000000; 10025921624915331000000000000; 6897378484509520200000000000; 5119859728005661900000000000; 4010547281579897100000000000; 3267565201129312800000000000; 2742085462732657300000000000; 2354159246864442700000000000; 2057768553803799900000000000; 1824885033735944000000000000; 1637616246302785800000000000; 1484079628364043300000000000; 1356113881510959500000000000; 1247949192767540100000000000; 1155402956302258900000000000; 1075376028398734200000000000; 1005527383947616800000000000; 944058214490888330000000000; 889565152530166510000000000; 840938311215461610000000000; 797289066669696450000000000; 757898001125623340000000000; 722176776176559590000000000; 689639800310308120000000000; 659882893388691540000000000; 632567023223838360000000000; 607405768659349280000000000; 584155554694987890000000000; 562607973450450580000000000; 542583691424224890000000000; 523927575143495360000000000; 506504761305437830000000000; 490197465424791070000000000; 474902372607917770000000000; 460528490675441840000000000; 446995373125083970000000000];
[3646377456929754100000000000000; 306693475317124550000000000000; 75651354047770345000000000000; 29734095089082035000000000000; 15317306562363609000000000000; 9361128040134637800000000000; 6404911885915025300000000000; 4734695451628112300000000000; 3697117253113389300000000000; 3004791958918975200000000000; 2516660934896344900000000000; 2157239952977920900000000000; 1883226333119372500000000000; 1668322893245814100000000000; 1495785587284176500000000000; 1354519817250651700000000000; 1236920859922586200000000000; 1137622049979782300000000000; 1052739284882134000000000000; 979398758725023320000000000; 915432491745094360000000000; 859176607954674550000000000; 809334402912463390000000000; 764881351133673840000000000; 724997908101601120000000000; 689021127906366650000000000; 656409265723769730000000000; 626715499633576340000000000; 599568160352815570000000000; 574655673934423900000000000; 551714963936214770000000000; 530522424781811970000000000; 510886828268629870000000000; 492643699133658970000000000; 475650818158558370000000000; 459784598750602320000000000; 444937146068541820000000000; 431013853840702570000000000; 417931427997337120000000000; 405616251534853550000000000];
[3616081473536584800000000000000; 299274495980826750000000000000; 72752997181318065000000000000; 28248122011660568000000000000; 14412444359580029000000000000; 8743706455796389700000000000; 5949437437258057800000000000; 4379597076474265800000000000; 3408869531704197000000000000; 2763605022692318100000000000; 2310081138707532100000000000; 1977015178849548300000000000; 1723652278906343200000000000; 1525315433832925400000000000; 1366332912235439400000000000; 1236344390680361800000000000; 1128262862035635000000000000; 1037096056709359100000000000; 959236684847028920000000000; 892019631056373710000000000; 833436987044578350000000000; 781949558513683560000000000; 736359104118734350000000000; 695719826556639400000000000; 659275840124877920000000000; 626416199954645400000000000; 596642035918576840000000000; 569542178085082800000000000; 544774835668010840000000000; 522053655534377460000000000; 501136992488733960000000000; 481819564595759880000000000; 463925900239060750000000000; 447305145739612480000000000; 431826916490848010000000000; 417377955933765490000000000; 403859425386132320000000000; 391184690543713530000000000; 379277502009560010000000000; 368070490672733380000000000];
[3586513140235459400000000000000; 292138070741032980000000000000; 69998814346577121000000000000; 26849622503117023000000000000; 13567104944832873000000000000; 8170103877757197000000000000; 5528070939382885700000000000; 4052151230911436700000000000; 3143736989247006700000000000; 2542200952650906200000000000; 2120749254549929200000000000; 1812053864810697600000000000; 1577750958671142100000000000; 1394680063272196600000000000; 1248170861761565900000000000; 1128547360346517900000000000; 1029204178351150200000000000; 945496777928686980000000000; 874074592839857740000000000; 812465798378413030000000000; 758810569008197640000000000; 711684929055584440000000000; 669981537256736410000000000; 632827211614361730000000000; 599524733689911520000000000; 569511045569510600000000000; 542326731900562360000000000; 517593409497690790000000000; 494996748156980670000000000; 474273561482745870000000000; 455201879723300210000000000; 437593235103543280000000000; 421286607923337750000000000; 406143632799916470000000000; 392044770716084680000000000; 378886228241963310000000000; 366577459862410400000000000; 355039129106411680000000000; 344201433452667470000000000; 334002719753897380000000000];
[3557644908152365900000000000000; 285270209821726490000000000000; 67380348637275976000000000000; 25532857808340530000000000000; 12777072443179544000000000000; 7637044002069237300000000000; 5138159488693891300000000000; 3750142499198652500000000000; 2899825090727616400000000000; 2338929046726783800000000000; 1947205284262226000000000000; 1661048758592686900000000000; 1444339926183418200000000000; 1275338047711948800000000000; 1140308139134285300000000000; 1030212070317502500000000000; 938892565877836890000000000; 862028089597672960000000000; 796506191367862850000000000; 740034090133340960000000000; 690888963890546040000000000; 647753319077008840000000000; 609603738496285470000000000; 575634021723834810000000000; 545201020811516710000000000; 517785778774778560000000000; 492965189883552250000000000; 470391024263786390000000000; 449774191254115760000000000; 430872785365066470000000000; 413482901095297740000000000; 397431500310948630000000000; 382570819083220060000000000; 368773941729994560000000000; 355931268786454170000000000; 343947676073239460000000000; 332740212761477680000000000; 322236223276670800000000000; 312371805063917750000000000; 303090534432606010000000000];
[3529450586045521600000000000000; 278657741132955040000000000000; 64889696478458419000000000000; 24292494811270085000000000000; 12038445707031867000000000000; 7141505047063309700000000000; 4777262519635502700000000000; 3471536903569242400000000000; 2675397284384890100000000000; 2152278259067781300000000000; 1788114218412600800000000000; 1522805620347262100000000000; 1322339801404599700000000000; 1166305338478256500000000000; 1041840981636809200000000000; 940503229934807260000000000; 856551774419839500000000000; 785965141711557840000000000; 725851761080611280000000000; 674084713467739100000000000; 629067940869258910000000000; 589582365504013370000000000; 554682059236775970000000000; 523622610743323370000000000; 495810709098969170000000000; 470768013933385050000000000; 448104836532798470000000000; 427500679837243180000000000; 408689652441223790000000000; 391449398322245330000000000; 375592597676467210000000000; 360960372061537480000000000; 347417116633917280000000000; 334846413564723660000000000; 323147772900569340000000000; 312234012686536970000000000; 302029137337689050000000000; 292466607568456560000000000; 283487920424204370000000000; 275041436696412910000000000];
[3501905261237115400000000000000; 272288256914482440000000000000; 62519468594664689000000000000; 23123575800123764000000000000; 11347613896025544000000000000; 6680699400975825500000000000; 4443134428046461400000000000; 3214466783817555800000000000; 2468861642619059800000000000; 1980865249436302500000000000; 1642255234964874700000000000; 1396233375197112800000000000; 1210765226390172200000000000; 1066684213126186400000000000; 951945392395902740000000000; 858659659979836090000000000; 781474744346525030000000000; 716647955601241090000000000; 661492633930024160000000000; 614035525286836890000000000; 572797871441189810000000000; 536651562292930070000000000; 504722222410662620000000000; 476322443495349030000000000; 450904852542338050000000000; 428028518971517200000000000; 407334510609978700000000000; 388527838327306690000000000; 371363935645517420000000000; 355638406254280500000000000; 341179159161193350000000000; 327840310710422740000000000; 315497409610698370000000000; 304043663512182240000000000; 293386931529418220000000000; 283447308108635010000000000; 274155167497941500000000000; 265449569969580330000000000; 257276954373341400000000000; 249590058985012070000000000];
[3474985225690448400000000000000; 266150064135436370000000000000; 60262753882810265000000000000; 22021490575713505000000000000; 10701234007709141000000000000; 6252054933815886100000000000; 4133708641707615100000000000; 2977216954801793400000000000; 2278758645557783600000000000; 1823423464977428500000000000; 1508511838830416800000000000; 1280335129666382400000000000; 1108716619427009500000000000; 975655658146120470000000000; 869870064628424540000000000; 783987688034517720000000000; 713017415330330170000000000; 653475598163473140000000000; 602865692765082560000000000; 559356823271722340000000000; 521578782909335070000000000; 488487551500539360000000000; 459274829595961390000000000; 433305800157120210000000000; 410075436739143760000000000; 389177266957122390000000000; 370280668079799570000000000; 353114113727206930000000000; 337452640401600940000000000; 323108351778100690000000000; 309923140394792060000000000; 297763048792813780000000000; 286513857243944490000000000; 276077599313895490000000000; 266369786481163760000000000; 257317179801893620000000000; 248855987396823050000000000; 240930396168666600000000000; 233491367913386250000000000; 226495646119632950000000000];
[3448667906871042400000000000000; 260232138370876040000000000000; 58113085964935553000000000000; 20981950715848398000000000000; 10096210199656052000000000000; 5853197834956475400000000000; 3847083015836538200000000000; 2758212032605765400000000000; 2103750008606630500000000000; 1678793164457103800000000000; 1385862859788335800000000000; 1174199975763338700000000000; 1015372656596805900000000000; 892472427230405950000000000; 794929936344084260000000000; 715855134734822930000000000; 650593091007614950000000000; 595900880891839610000000000; 549458367858767520000000000; 509566608734501330000000000; 474955860997468180000000000; 444659842834649430000000000; 417931277758406130000000000; 394183873003749790000000000; 372951640583125970000000000; 353859849476859530000000000; 336603935442477270000000000; 320933954770640670000000000; 306642964917151410000000000; 293558229151398050000000000; 281534480640433970000000000; 270448707847539900000000000; 260196077190594790000000000; 250686715296191310000000000; 241843147679224990000000000; 233598243514228860000000000; 225893554093275850000000000; 218677960100790750000000000; 211906563036383740000000000; 205539771085053750000000000];
[3422931803057058200000000000000; 254524080897785350000000000000; 56064412213926960000000000000; 20000965824097014000000000000; 9529674756861513700000000000; 5481936849628267900000000000; 3581506441729566800000000000; 2556004829533545900000000000; 1942608463900625800000000000; 1545912302953420300000000000; 1273374233535832700000000000; 1076995513247588800000000000; 929983416265650700000000000; 816452714918392320000000000; 726500319109083550000000000; 653685837867813830000000000; 593667309490100400000000000; 543425536301376340000000000; 500804085359216800000000000; 464226278474344130000000000; 432515360728691700000000000; 404776922622503980000000000; 380320048211409140000000000; 358603219610345330000000000; 339196439921744930000000000; 321754218614249050000000000; 305995979297887060000000000; 291691632541286420000000000; 278650803211649190000000000; 266714683308127420000000000; 255749797645132940000000000; 245643181314800090000000000; 236298611649050590000000000; 227633636601006580000000000; 219577210860627750000000000; 212067800197654460000000000; 205051849798398030000000000; 198482537951379820000000000; 192318755195420000000000000; 186524262933770840000000000];
[3397756422789119900000000000000; 249016078772843550000000000000; 54111065061770774000000000000; 19074821605176903000000000000; 8998970570425756100000000000; 5136248798189986500000000000; 3335366566297191300000000000; 2369265726721724500000000000; 1794208413410135500000000000; 1423808202170900200000000000; 1170191497264638100000000000; 987961026772745410000000000; 851864127744494890000000000; 746974390820910730000000000; 664011549537979650000000000; 596954666040694050000000000; 541753174177462710000000000; 495595828632955020000000000; 456478126743051350000000000; 422936706694476140000000000; 393880888429155710000000000; 368482716702008180000000000; 346103333804277920000000000; 326242539907685260000000000; 308503521853904540000000000; 292567727381868700000000000; 278176663090221150000000000; 265118504803948100000000000; 253218109247733260000000000; 242329466814152500000000000; 232329931146098260000000000; 223115758931170350000000000; 214598627515837520000000000; 206702890447155310000000000; 199363395699354400000000000; 192523737118197110000000000; 186134842422337880000000000; 180153824881085100000000000; 174543043208318190000000000; 169269327102385080000000000];
[3373122228172486000000000000000; 243698867672608730000000000000; 52247735415024725000000000000; 18200059622075250000000000000; 8501635004640699500000000000; 4814265271831969700000000000; 3107178528961347000000000000; 2196772941015388800000000000; 1657517378604765800000000000; 1311589938101150500000000000; 1075532937205563500000000000; 906401260205197030000000000; 780389470596696880000000000; 683469744524084120000000000; 606944116787325720000000000; 545182977996188560000000000; 494407103434543810000000000; 451998559627157650000000000; 416093862062720490000000000; 385334681582283350000000000; 358710021103179450000000000; 335453374981538860000000000; 314973973458043920000000000; 296809747472963100000000000; 280594481213340370000000000; 266034441229616590000000000; 252891464653997120000000000; 240970531607010200000000000; 230110503471051980000000000; 220177130968450610000000000; 211057712800979230000000000; 202656970316998250000000000; 194893828948225740000000000; 187698883416631320000000000; 181012383944140570000000000; 174782623308734620000000000; 168964635103986920000000000; 163519135659852750000000000; 158411658261149650000000000; 153611840262566670000000000];
[3349010581765592400000000000000; 238563697293574790000000000000; 50469448016084240000000000000; 17373458601776862000000000000; 8035385039778062300000000000; 4514260407318384700000000000; 2895574630354077200000000000; 2037403609932701600000000000; 1531588178103241300000000000; 1208441383729280800000000000; 988683331093655470000000000; 831680735530113930000000000; 714988375831959280000000000; 625420695732419280000000000; 554824223516439080000000000; 497934487602259560000000000; 451224961437493480000000000; 412257433706578620000000000; 379299323156084320000000000; 351089664373570180000000000; 326691232501718430000000000; 305394348358947430000000000; 286652665992114240000000000; 270039308150003700000000000; 255216273393213750000000000; 241912695765888240000000000; 229909130608217460000000000; 219026019049315140000000000; 209115099440516940000000000; 200052929468868980000000000; 191735941651299290000000000; 184076627513149440000000000; 177000562698787130000000000; 170444065705432620000000000; 164352339051332330000000000; 158677981356916710000000000; 153379787199707620000000000; 148421772145258510000000000; 143772375382079820000000000; 139403803491080780000000000];
[3325403696808446100000000000000; 233602299125055430000000000000; 48771538601585030000000000000; 16592017167272263000000000000; 7598103587200478900000000000; 4234639651559524000000000000; 2699294854541953100000000000; 1890125625097630700000000000; 1415551770690522100000000000; 1113614849935198400000000000; 908988233528854600000000000; 763218568411752180000000000; 655139284564175100000000000; 572354428270795540000000000; 507219741595240070000000000; 454811498141055860000000000; 411838535895325820000000000; 376029750132866170000000000; 345774086055733860000000000; 319900841648105350000000000; 297541098001198330000000000; 278037731365495640000000000; 260885437750511120000000000; 245689821557324140000000000; 232138900037686600000000000; 219982878111809430000000000; 209019545848108030000000000; 199083570231739940000000000; 190038530287797650000000000; 181770915052481310000000000; 174185546157559950000000000; 167202048095218740000000000; 160752098404192630000000000; 154777265043199580000000000; 149227290509524230000000000; 144058719190014620000000000; 139233790833234330000000000; 134719542124446030000000000; 130487072301001560000000000; 126510939050565290000000000];
[3302284590562344400000000000000; 228806856422123440000000000000; 47149632721014134000000000000; 15852937883423879000000000000; 7187826881958356600000000000; 3973929434295724100000000000; 2517178173158763200000000000; 1753990150506746500000000000; 1308610706516276600000000000; 1026425272709020800000000000; 835848756785041600000000000; 700483736716603230000000000; 600365823660765920000000000; 523839410260583760000000000; 463736527310342460000000000; 415451472793972580000000000; 375912331447665340000000000; 343003392639311510000000000; 315226434625642450000000000; 291494444262634920000000000; 271001752949718410000000000; 253139846331366040000000000; 237441340866803460000000000; 223541823280514130000000000; 211153306278986120000000000; 200045411382200220000000000; 190031798383701010000000000; 180960224345098340000000000; 172705156612060590000000000; 165162211327815360000000000; 158243915595441260000000000; 151876442191329910000000000; 145997067658806140000000000; 140552174587196480000000000; 135495667609399680000000000; 130787707033460110000000000; 126393688583944580000000000; 122283415476481270000000000; 118430422011756780000000000; 114811417440174760000000000];
[3279637040549002700000000000000; 224169976218976980000000000000; 45599626089383059000000000000; 15153612513354581000000000000; 6802732865859150600000000000; 3730767674026979900000000000; 2348154565914956900000000000; 1628124767462737200000000000; 1210033134246754800000000000; 946244899332629930000000000; 768716803793254740000000000; 642990762172597190000000000; 550232861508990290000000000; 479481766149750280000000000; 424015063979779160000000000; 379523911196931430000000000; 343140650353864430000000000; 312894089708151920000000000; 287390779989520720000000000; 265621308744778850000000000; 246838581445746710000000000; 230479047077889280000000000; 216110361124022300000000000; 203395787578259550000000000; 192069470153402670000000000; 181918923669752790000000000; 172772421590328040000000000; 164489766599242290000000000; 156955439110950760000000000; 150073443656545500000000000; 143763385191628670000000000; 137957448270605760000000000; 132598047199283440000000000; 127635980548968070000000000; 123028968824810370000000000; 118740486094077110000000000; 114738819228830820000000000; 110996304915496280000000000; 107488706624911010000000000; 104194702615050190000000000];
[3257445543492518700000000000000; 219684663235217740000000000000; 44117666357726855000000000000; 14491608390360712000000000000; 6441130481164139300000000000; 3503895048593346700000000000; 2191237697515613700000000000; 1511727193000491700000000000; 1119147316467002200000000000; 872498430313737720000000000; 707090713828735470000000000; 590295768858630540000000000; 504342910300862250000000000; 438921969339584180000000000; 387727402761688910000000000; 346727504648198480000000000; 313244934648539540000000000; 285442921088244500000000000; 262025312621144540000000000; 242054659168010840000000000; 224838114611934170000000000; 209853722148212820000000000; 196701516289013660000000000; 185070312277693740000000000; 174714666605122540000000000; 165438584618604530000000000; 157083797584662430000000000; 149521193289955510000000000; 142644460787286300000000000; 136365314431042500000000000; 130609860819986750000000000; 125315803967796630000000000; 120430272883464600000000000; 115908116630363760000000000; 111710554252600320000000000; 107804096765789290000000000; 104159679667242150000000000; 100751959757639160000000000; 97558741251833717000000000; 94560504398346200000000000];
[3235695276781786500000000000000; 215344295538687190000000000000; 42700136194305550000000000000; 13864655818003298000000000000; 6101449801636316500000000000; 3292146967549900000000000000; 2045518196104704800000000000; 1404059523192189500000000000; 1035336609760300500000000000; 804658577629783310000000000; 650511284899169730000000000; 541992885426948720000000000; 462332844222764850000000000; 401831826939386230000000000; 354574375059003870000000000; 316787545015523450000000000; 285971346266859050000000000; 260414048355199150000000000; 238909866063582600000000000; 220588089524950490000000000; 204806119332979790000000000; 191080479411589070000000000; 179041127547999020000000000; 168400469212110920000000000; 158931890099392870000000000; 150454594226133210000000000; 142822706936958280000000000; 135917317745364850000000000; 129640584967786590000000000; 123911309445694390000000000; 118661570387844030000000000; 113834139478676040000000000; 109380472378542490000000000; 105259133541793110000000000; 101434549721447430000000000; 97876015286771763000000000; 94556892258826669000000000; 91453962227741286000000000; 88546897706813737000000000; 85817828129758671000000000];
[3214372062284094900000000000000; 211142601838795320000000000000; 41343637577761841000000000000; 13270636418052837000000000000; 5782232933681826100000000000; 3094446188732257500000000000; 1910157483003205800000000000; 1304442956883918400000000000; 958034869661360930000000000; 742242003278751650000000000; 598558139992773880000000000; 497710960884351370000000000; 423870905653550190000000000; 367911730719253090000000000; 324283052303533910000000000; 289453564631344290000000000; 261088563760891060000000000; 237592649322586200000000000; 217843973150297980000000000; 201033728431246070000000000; 186565860158717290000000000; 173992495532982100000000000; 162971248257376610000000000; 153236305077360770000000000; 144578421330909770000000000; 136830809921618760000000000; 129859011289237730000000000; 123553504205496260000000000; 117824236637912520000000000; 112596523286502140000000000; 107807930230103950000000000; 103405882212516390000000000; 99345805590941647000000000; 95589672960865679000000000; 92104852234988910000000000; 88863188803173229000000000; 85840267803888106000000000; 83014816794592792000000000; 80368218762390395000000000; 77884112519603533000000000];
[3193462332352761100000000000000; 207073640293759350000000000000; 40044977211195461000000000000; 12707572352409697000000000000; 5482125625844150000000000000; 2909796026216192900000000000; 1784382107760399600000000000; 1212252959221897800000000000; 886722244120812110000000000; 684805605271806420000000000; 550846407227036630000000000; 457110566422064590000000000; 388653973950617040000000000; 336888150642692710000000000; 296604431070436150000000000; 264497186504850820000000000; 238385776154700630000000000; 216783037937475040000000000; 198645097334008590000000000; 183220569642229050000000000; 169956518647985990000000000; 158438015305159000000000000; 148348235665834130000000000; 139441478967181190000000000; 131524524843476070000000000; 124443499250807770000000000; 118074456683322380000000000; 112316517879749530000000000; 107086795747943260000000000; 102316592776927860000000000; 97948515907194537000000000; 93934262433173969000000000; 90232902884541240000000000; 86809536274492273000000000; 83634227371618680000000000; 80681159725567563000000000; 77927955301770416000000000; 75355123906580738000000000; 72945614553605235000000000; 70684447516861113000000000];
[3172953097882877900000000000000; 203131778723915430000000000000; 38801152973201823000000000000; 12173616351039182000000000000; 5199869529966436800000000000; 2737274101275644800000000000; 1667478546425271300000000000; 1126914827803246100000000000; 820921322259669510000000000; 631943121065160380000000000; 507023686566678520000000000; 419881258211691420000000000; 356405073658399720000000000; 308511349465521080000000000; 271311323446870400000000000; 241710166035986290000000000; 217670856238314300000000000; 197806952952979030000000000; 181147023304900740000000000; 166992953364322010000000000; 154831755859657540000000000; 144278987208209630000000000; 135041452574044930000000000; 126892024104752690000000000; 119652265584963880000000000; 113180206658039310000000000; 107361586523208260000000000; 102103480508471090000000000; 97329592190259279000000000; 92976728528639043000000000; 88992127781528300000000000; 85331410568930992000000000; 81956992054144131000000000; 78836839341119040000000000; 75943490131859230000000000; 73253271109000007000000000; 70745670444937722000000000; 68402830300165333000000000; 66209133507337414000000000; 64150864760712730000000000];
[3152831918279604400000000000000; 199311676131329990000000000000; 37609341328442981000000000000; 11667042483393926000000000000; 4934295061972568400000000000; 2576026591972293000000000000; 1558788424500275500000000000; 1047899627462829000000000000; 760193608060224750000000000; 583282021040058820000000000; 466767278175331210000000000; 385739078296903470000000000; 326871101027714920000000000; 282553298803924250000000000; 248196434374369410000000000; 220902607105434080000000000; 198768697194784030000000000; 180502000179553050000000000; 165198392512247040000000000; 152209184706469890000000000; 141058404997556820000000000; 131389822804362120000000000; 122932087088395390000000000; 115475222429550950000000000; 108854433518858820000000000; 102938723913496200000000000; 97622754113755858000000000; 92820921736592677000000000; 88462993096312041000000000; 84490835563215331000000000; 80855942635368793000000000; 77517537732063321000000000; 74441105856263531000000000; 71597245320647725000000000; 68960761512177937000000000; 66509945553760345000000000; 64225995552281114000000000; 62092548780109471000000000; 60095300880839220000000000; 58221693875555985000000000];
[3133086873213071200000000000000; 195608265433377880000000000000; 36466885626319288000000000000; 11186237615785708000000000000; 4684314814467177800000000000; 2425262940698717400000000000; 1457704129291298100000000000; 974720462610109910000000000; 704136291257907880000000000; 538480667022457470000000000; 429781649650098610000000000; 354424272726684290000000000; 299820749605538790000000000; 258805778819583770000000000; 227070609318976610000000000; 201901336951577800000000000; 181519697904614020000000000; 164720234489195210000000000; 150661370506048140000000000; 138740276856166550000000000; 128515282397835880000000000; 119656268705386540000000000; 111912079706655510000000000; 105088581735900030000000000; 99033566410136030000000000; 93626154691976349000000000; 88769225641602686000000000; 84383917498741575000000000; 80405573962856718000000000; 76780714803603203000000000; 73464743399219387000000000; 70420191770455035000000000; 67615362657093707000000000; 65023268355373243000000000; 62620793799055295000000000; 60388030819359351000000000; 58307744321834442000000000; 56364941029305827000000000; 54546518635798551000000000; 52840978495714746000000000];
[3113706536042807900000000000000; 192016737324816020000000000000; 35371285221830833000000000000; 10729693501750957000000000000; 4448917477251113700000000000; 2284250982374774300000000000; 1363664779341596300000000000; 906929058682226970000000000; 652379290089182000000000000; 497225713007865200000000000; 395796121380294760000000000; 325699207913427500000000000; 275042617359268940000000000; 237078645258830910000000000; 207761237111095760000000000; 184548425644020680000000000; 165778383591109200000000000; 150326868994932880000000000; 137410434199631520000000000; 126468807691215310000000000; 117092106121525440000000000; 108974380876164840000000000; 101883147955950780000000000; 95638906001797817000000000; 90101061808383190000000000; 85158064680380013000000000; 80720365303126815000000000; 76715307424509291000000000; 73083365898726045000000000; 69775337990039311000000000; 66750219791583925000000000; 63973581882588519000000000; 61416313445328388000000000; 59053641552941999000000000; 56864358225826850000000000; 54830205974899771000000000; 52935385396860623000000000; 51166157603838066000000000; 49510520956735050000000000; 47957946474068617000000000];
[3094679948802863700000000000000; 188532525189216010000000000000; 34320185357800403000000000000; 10295999456663453000000000000; 4227162225422118800000000000; 2152312459090100100000000000; 1276152521357907400000000000; 844112626703131820000000000; 604582542733266060000000000; 459229727240493510000000000; 364562751088290060000000000; 299346467873942950000000000; 252343479352393960000000000; 217198249029781830000000000; 190110794151382750000000000; 168699837235896010000000000; 151412149670205210000000000; 137199099963128870000000000; 125331268230983080000000000; 115287879562496620000000000; 106688512391215410000000000; 99249591970632250000000000; 92755899696082892000000000; 87041450402578886000000000; 81976370073157681000000000; 77457709381911760000000000; 73402895046097476000000000; 69744984007424337000000000; 66429171993105780000000000; 63410189261311438000000000; 60650333335120179000000000; 58117965470785202000000000; 55786349081584598000000000; 53632743328143727000000000; 51637689223426004000000000; 49784442481402357000000000; 48058519296224977000000000; 46447329811162416000000000; 44939880250958534000000000; 43526529244047189000000000];
[3075996598646393900000000000000; 185151290986464680000000000000; 33311367752308103000000000000; 9883835571714520000000000000; 4018173538007355700000000000; 2028818889818474700000000000; 1194689127525524200000000000; 785890987153752460000000000; 560433526278722000000000000; 424229016605947950000000000; 335854400267077770000000000; 275167116537898890000000000; 231546711403141600000000000; 199005994819218330000000000; 173975517412009680000000000; 154224200835469670000000000; 138300117760241950000000000; 125225037048702300000000000; 114319760579825860000000000; 105100172914098920000000000; 97213160998211388000000000; 90395863243805158000000000; 84449027012293373000000000; 79219153281548690000000000; 74586261033327141000000000; 70455332503225678000000000; 66750222083431971000000000; 63409246948335386000000000; 60381946450540187000000000; 57626667265132330000000000; 55108740817067189000000000; 52799091491659889000000000; 50673162222590171000000000; 48710076710169534000000000; 46891980030229254000000000; 45203515120860766000000000; 43631403765153591000000000; 42164108661249943000000000; 40791558946636945000000000; 39504925771779906000000000];
[3057646395655545000000000000000; 181868912048437880000000000000; 32342741839495553000000000000; 9491966425933885700000000000; 3821136413080280600000000000; 1913187766424645100000000000; 1118832868385870100000000000; 731913931382608220000000000; 519644983866110260000000000; 391981635948534640000000000; 309462966740100370000000000; 252979110699620320000000000; 212490851446594230000000000; 182357026450975050000000000; 159224194784989310000000000; 141001690891442240000000000; 126332093800371570000000000; 114302729382366330000000000; 104281088487760200000000000; 95817085253490331000000000; 88582921612954114000000000; 82334913353729194000000000; 76888573358443683000000000; 72101938056040932000000000; 67864157550323020000000000; 64087528462939693000000000; 60701827965560083000000000; 57650216689655931000000000; 54886230722774415000000000; 52371542226762234000000000; 50074270808958531000000000; 47967695092737744000000000; 46029258872257453000000000; 44239796720730052000000000; 42582924910737219000000000; 41044558157883435000000000; 39612523060788004000000000; 38276246526731299000000000; 37026502840259724000000000; 35855206959020202000000000];
[3039619651929003600000000000000; 178681468719935140000000000000; 31412336615864647000000000000; 9119235258189224000000000000; 3635291948071654300000000000; 1804879049561085400000000000; 1048175638533264300000000000; 681858800636823420000000000; 481952842320347410000000000; 362265566431732950000000000; 285197768946852340000000000; 232615850457497300000000000; 195028286495058660000000000; 167119027780589770000000000; 145737062351145360000000000; 128923006945693870000000000; 115407619130004060000000000; 104339278893157640000000000; 95128886538477040000000000; 87357947753953142000000000; 80722133664570877000000000; 74995517067116060000000000; 70007267281149662000000000; 65626078679135694000000000; 61749529871348747000000000; 58296663152334416000000000; 55202713568386882000000000; 52415301706944921000000000; 49891641398561132000000000; 47596462918323679000000000; 45500448357333702000000000; 43579038805347928000000000; 41811514978260448000000000; 40180281381205062000000000; 38670303672603831000000000; 37268662547249154000000000; 35964197102836414000000000; 34747217552979254000000000; 33609272139233174000000000; 32542956742030233000000000];
[3021907061865631800000000000000; 175585232786567220000000000000; 30518293047850347000000000000; 8764558564103254100000000000; 3459933256514359400000000000; 1703391940229851100000000000; 982340314293754140000000000; 635428264485059130000000000; 447114304104656230000000000; 334877048436242820000000000; 262884068814698410000000000; 213924855141446600000000000; 179024054161481040000000000; 153171128916350890000000000; 133404799073585130000000000; 117888443980127640000000000; 105435106203963980000000000; 95250033026453694000000000; 86784489491287026000000000; 79649312471036261000000000; 73561933121780119000000000; 68312867518442564000000000; 63743916663792611000000000; 59733622860168704000000000; 56187345218147096000000000; 53030347617061926000000000; 50202894871763841000000000; 47656714623703999000000000; 45352405094648124000000000; 43257508937157884000000000; 41345063407938847000000000; 39592496000494147000000000; 37980773916006365000000000; 36493742317711053000000000; 35117604570396462000000000; 33840510388464434000000000; 32652226796811694000000000; 31543873226248958000000000; 30507706703073702000000000; 29536946480284839000000000];
[3004499683568245300000000000000; 172576656635538460000000000000; 29658856999812593000000000000; 8426921085585440200000000000; 3294401694782858600000000000; 1608261904779850400000000000; 920978324293219340000000000; 592348281950317020000000000; 414906098814851760000000000; 309629055745755860000000000; 242361721223736660000000000; 196766553782881510000000000; 164354748685628660000000000; 140402908463470450000000000; 122127610266515250000000000; 107807045278885470000000000; 96331051366040253000000000; 86957849724309915000000000; 79176243130721348000000000; 72624303790825521000000000; 67039640112979537000000000; 62227996250335914000000000; 58042857982074257000000000; 54371867776840706000000000; 51127567565239007000000000; 48240959817264797000000000; 45656944873802519000000000; 43331032668689574000000000; 41226936028829190000000000; 39314784124533757000000000; 37569778935124993000000000; 35971172710707653000000000; 34501481086103959000000000; 33145871305772670000000000; 31891682046575413000000000; 30728043180310542000000000; 29645572179637567000000000; 28636129841221206000000000; 27692622311221885000000000; 26808839545274047000000000];
[2987388921296761900000000000000; 169652363099193560000000000000; 28832372644694653000000000000; 8105371163211279200000000000; 3138083374518419700000000000; 1519057932938125100000000000; 863767415418443960000000000; 552366230084375210000000000; 385122880699481040000000000; 286349898916841660000000000; 223483939117342350000000000; 181013180142580970000000000; 150907522291169960000000000; 128713483313891230000000000; 111814391961380590000000000; 98595830450299856000000000; 88019317784347585000000000; 79392428177767088000000000; 72238877003813057000000000; 66222028306039677000000000; 61098201873908625000000000; 56687245788379185000000000; 52853455565086675000000000; 49492883492849632000000000; 46524703023246863000000000; 43885210067292638000000000; 41523577413474031000000000; 39398798406780938000000000; 37477452353306389000000000; 35732047339981284000000000; 34139775119552398000000000; 32681564280563555000000000; 31341352200039938000000000; 30105519434534657000000000; 28962446088580816000000000; 27902160747575279000000000; 26916060347899983000000000; 25996684911474303000000000; 25137535079874121000000000; 24332923306564188000000000];
[2970566508904820000000000000000; 166809135934831470000000000000; 28037276322453609000000000000; 7799016424013929800000000000; 2990405938386370500000000000; 1435380010149281800000000000; 810409598136066550000000000; 515249186008356730000000000; 357575759848608570000000000; 264881946775631300000000000; 206116164264993250000000000; 166547763187906950000000000; 138579173511334030000000000; 118010678256361680000000000; 102381968994474700000000000; 90179091911216480000000000; 80430482271213583000000000; 72489699445500926000000000; 65912933470362204000000000; 60387037841756997000000000; 55685686011707689000000000; 51641789980893712000000000; 48129646312264285000000000; 45053079732123062000000000; 42337386662340217000000000; 39923746159246364000000000; 37765269061877556000000000; 35824157048280912000000000; 34069627687378773000000000; 32476377155080967000000000; 31023426254476187000000000; 29693243634996076000000000; 28471072145201646000000000; 27344405877415451000000000; 26302580279028752000000000; 25336448001847625000000000; 24438120410732774000000000; 23600759840641473000000000; 22818411417302593000000000; 22085865972595011000000000];
[2954024494198403400000000000000; 164043910897640960000000000000; 27272090814003118000000000000; 7507019779397155300000000000; 2850835578606293800000000000; 1356856787032769000000000000; 760629256471870380000000000; 480782349625973140000000000; 332090955751266770000000000; 245080455939152430000000000; 190135034554283130000000000; 153263204709619850000000000; 127275314858580780000000000; 108210268366540460000000000; 93754400279432996000000000; 82487753735376042000000000; 73501240273880471000000000; 66191271565069692000000000; 60144247995036952000000000; 55068840830531027000000000; 50754819529106169000000000; 47047197768141983000000000; 43829525731294097000000000; 41012812057858131000000000; 38528006991807110000000000; 36320794540653940000000000; 34347915594806761000000000; 32574526980997935000000000; 30972274616005486000000000; 29517867346970855000000000; 28192007366915962000000000; 26978578250837938000000000; 25864021607552812000000000; 24836853534674209000000000; 23887285886463336000000000; 23006926961065174000000000; 22188542964934165000000000; 21425866420744708000000000; 20713441149390433000000000; 20046495979793027000000000];
[2937755224159203600000000000000; 161353767366719940000000000000; 26535420000838392000000000000; 7228595709851145100000000000; 2718874279343783200000000000; 1283143430175434400000000000; 714171409177397140000000000; 448767595296978790000000000; 308508562887556930000000000; 226812499131171500000000000; 175427439483028150000000000; 141061436496837370000000000; 116909612886050170000000000; 99235287760994765000000000; 85862345310203949000000000; 75458787312899361000000000; 67173863835094942000000000; 60443924266867315000000000; 54883476068089348000000000; 50221457671327684000000000; 46262569465968223000000000; 42863036439755487000000000; 39914971538919867000000000; 37336023865398426000000000; 35062364657834047000000000; 33043834249051662000000000; 31240519879146917000000000; 29620300477672475000000000; 28157057218178703000000000; 26829350359067059000000000; 25619427817792123000000000; 24512473185943675000000000; 23496028890840063000000000; 22559549066123838000000000; 21694049589512294000000000; 20891831690945302000000000; 20146261821755637000000000; 19451594949837469000000000; 18802831666848123000000000; 18195601837700976000000000];
[2921751330979282000000000000000; 158735920487006010000000000000; 25825943882752567000000000000; 6963006814966951900000000000; 2594057265565094400000000000; 1213919639767115000000000000; 670800109731920020000000000; 419022141746958070000000000; 286681418903991090000000000; 209955983858527980000000000; 161889656246798810000000000; 129852650152817500000000000; 107403094301297080000000000; 91015398867472500000000000; 78642486470153474000000000; 69034678764321376000000000; 61395707789295544000000000; 55199148841076457000000000; 50085662557975941000000000; 45803016101856964000000000; 42169761391385318000000000; 39052510797600823000000000; 36351301409016609000000000; 33989920925804925000000000; 31909362235972887000000000; 30063300608247874000000000; 28414908296178211000000000; 26934571811223828000000000; 25598229959042336000000000; 24386146157307684000000000; 23281989397294538000000000; 22272137764349976000000000; 21345144607776266000000000; 20491325061659316000000000; 19702432650012082000000000; 18971404047821717000000000; 18292155925239098000000000; 17659421965844160000000000; 17068621144965696000000000; 16515750532142706000000000];
[2906005718857194200000000000000; 156187713792602810000000000000; 25142413928119717000000000000; 6709560608914883600000000000; 2475950642345292900000000000; 1148887820770209700000000000; 630296973854331840000000000; 391377330393794760000000000; 266474066727160620000000000; 194398753740860110000000000; 149426559478204680000000000; 119554593239815430000000000; 98683512351291595000000000; 83486316881750349000000000; 72037002205673364000000000; 63162943504451286000000000; 56118759884744961000000000; 50412729108325170000000000; 45709849677939097000000000; 41775382973226227000000000; 38440732321187054000000000; 35582134967039487000000000; 33106961763493134000000000; 30944675514809516000000000; 29040722280339100000000000; 27352315965317774000000000; 25845473088680187000000000; 24492890264425576000000000; 23272400524822154000000000; 22165834146940879000000000; 21158166660633791000000000; 20236873737468586000000000; 19391437133266450000000000; 18612962305407619000000000; 17893879552718756000000000; 17227708298702188000000000; 16608869592801429000000000; 16032535779182415000000000; 15494509067576629000000000; 14991122764605827000000000];
[2890511551509061200000000000000; 153706612279441210000000000000; 24483648733125388000000000000; 6467606543088331600000000000; 2364149209896382900000000000; 1087771395398995500000000000; 592459824139501440000000000; 365677503098255250000000000; 247761802707845920000000000; 180037765450375560000000000; 137950898297383820000000000; 110091925993549770000000000; 90684768206665995000000000; 76589284553208892000000000; 65993086562251046000000000; 57795683762710516000000000; 51299230908388696000000000; 46044359809068936000000000; 41718720093143748000000000; 38103829142552382000000000; 35043014946447646000000000; 32421433895639888000000000; 30153244784371582000000000; 28173157432468040000000000; 26430731051045839000000000; 24886444996539314000000000; 23508938258359912000000000; 22273035751422928000000000; 21158314402231049000000000; 20148046029830907000000000; 19228407457111713000000000; 18387882942419352000000000; 17616806904577705000000000; 16907010278256750000000000; 16251544312599615000000000; 15644462872503333000000000; 15080649381989730000000000; 14555678155263087000000000; 14065702450978619000000000; 13607363465906171000000000];
[2875262240351148500000000000000; 151290195897487970000000000000; 23848529968083527000000000000; 6236533239028454600000000000; 2258274440753798500000000000; 1030313245679325300000000000; 557101442294503500000000000; 341778971102712780000000000; 230429803561246530000000000; 166778334824430800000000000; 127382634883535860000000000; 101395633351433960000000000; 83346382537156704000000000; 70270592871153179000000000; 60462510981270010000000000; 52889185241043478000000000; 46897181241860316000000000; 42057299058124873000000000; 38078272008282883000000000; 34756724496287123000000000; 31947050340957045000000000; 29542671847485762000000000; 27464031082361824000000000; 25650689464698805000000000; 24056005577043681000000000; 22643472336744553000000000; 21384146857734245000000000; 20254814978047800000000000; 19236659206085897000000000; 18314277677361214000000000; 17474951794069025000000000; 16708092661115543000000000; 16004817830171288000000000; 15357624214953628000000000; 14760132817098792000000000; 14206887658042597000000000; 13693196044421579000000000; 13215000650830375000000000; 12768776312382251000000000; 12351446167180274000000000];
[2860251433313418200000000000000; 148936153434818220000000000000; 23235998590601364000000000000; 6015765916046785900000000000; 2157972606636404300000000000; 976274275771828130000000000; 524048420238623260000000000; 319549067614248290000000000; 214372325484645050000000000; 154533446267209860000000000; 117648339279606530000000000; 93402487498083359000000000; 76613012893092396000000000; 64481143615561119000000000; 55401224620396497000000000; 48403549431404093000000000; 42876180597134828000000000; 38418051812338830000000000; 34757523360589977000000000; 31705260387150586000000000; 29125926572413055000000000; 26920605445853756000000000; 25015555690790142000000000; 23354825061303192000000000; 21895281925661566000000000; 20603200492129871000000000; 19451867718232919000000000; 18419876258218920000000000; 17489886942370362000000000; 16647718271174749000000000; 15881667348477831000000000; 15181997049406514000000000; 14540544229377322000000000; 13950417187551632000000000; 13405759721739924000000000; 12901565411016494000000000; 12433530170500871000000000; 11997934246772376000000000; 11591547062467003000000000; 11211549942782422000000000];
[2845473004246154000000000000000; 146642276767815560000000000000; 22645051306851259000000000000; 5804763999161035100000000000; 2062913043484279600000000000; 925432084578674620000000000; 493140102053257630000000000; 298865277121656200000000000; 199491969396526880000000000; 143223120062305940000000000; 108680635600597690000000000; 86054556550532595000000000; 70434012893300338000000000; 59176050092798399000000000; 50768989792439932000000000; 44302358425182331000000000; 39202997971568684000000000; 35096081573687741000000000; 31728242502415348000000000; 28923197013255084000000000; 26555140875501324000000000; 24532259039346904000000000; 22786195265963641000000000; 21265146208048850000000000; 19929222744642678000000000; 18747266183262104000000000; 17694619835780212000000000; 16751541276501461000000000; 15902052560586016000000000; 15133095124802486000000000; 14433900094388104000000000; 13795513155951107000000000; 13210431870756455000000000; 12672325828193411000000000; 12175818554470618000000000; 11716315965271029000000000; 11289870257835749000000000; 10893071045865915000000000; 10522957624108658000000000; 10176947758976976000000000];
[2830921042884271300000000000000; 144406455453568850000000000000; 22074737263591058000000000000; 5603018894062934300000000000; 1972786544087692600000000000; 877579739921809150000000000; 464227609429496400000000000; 279614435115392030000000000; 185699006755566830000000000; 132773832679738140000000000; 100417695234349780000000000; 79298755387733462000000000; 64763029571229500000000000; 54314272701988285000000000; 46529049419995624000000000; 40552369329495031000000000; 35847319127172335000000000; 32063547799740408000000000; 28964702993324326000000000; 26386633491389110000000000; 24212383257264885000000000; 22356720368678283000000000; 20756274567928387000000000; 19363079654847599000000000; 18140242319187017000000000; 17058973434612578000000000; 16096512798135830000000000; 15234652243848464000000000; 14458667300505215000000000; 13756532745255737000000000; 13118338655526572000000000; 12535850187007601000000000; 12002171809167944000000000; 11511488432354217000000000; 11058863808466852000000000; 10640082064410382000000000; 10251522053640574000000000; 9890056918061089500000000; 9552973190448856500000000; 9237905170550447100000000];
[2816589845336201500000000000000; 142226671642204040000000000000; 21524154954851026000000000000; 5410051916853202900000000000; 1887303868556093900000000000; 832524646285004500000000000; 437172943867338160000000000; 261691992409779940000000000; 172910760888128600000000000; 123117985582648080000000000; 92802773005482863000000000; 73086434977444008000000000; 59557635551487693000000000; 49858286274012052000000000; 42647823678614803000000000; 37123235662529200000000000; 32781489140234960000000000; 29295066720504808000000000; 26443460336157822000000000; 24073798579600230000000000; 22077339598113789000000000; 20374954694995541000000000; 18907890470861256000000000; 17631729829646775000000000; 16512347547052767000000000; 15523141881002044000000000; 14643101786330241000000000; 13855433036047872000000000; 13146565475802207000000000; 12505424826210006000000000; 11922891120436312000000000; 11391390797215141000000000; 10904585841554749000000000; 10457134299965016000000000; 10044503915954400000000000; 9662825739348869500000000; 9308778127879422700000000; 8979494079467537000000000; 8672486636278188700000000; 8385588405640089500000000];
[2802473905066427100000000000000; 140100995288440120000000000000; 20992449328384776000000000000; 5225412367214952300000000000; 1806194363643991000000000000; 790087498758553390000000000; 411848159435961810000000000; 245001338752132860000000000; 161051039182857120000000000; 114193418424186160000000000; 85783782621734554000000000; 67373006871578771000000000; 54778993021073207000000000; 45773776395099048000000000; 39094633252141243000000000; 33987253334362335000000000; 29980277787019223000000000; 26767493467339127000000000; 24143148686601411000000000; 21964860188970244000000000; 20131512487249228000000000; 18569635717618520000000000; 17224751911637053000000000; 16055726919940909000000000; 15030993380618571000000000; 14125968901273355000000000; 13321255817004065000000000; 12601363033818389000000000; 11953783461758322000000000; 11368317984767866000000000; 10836573173822954000000000; 10351583298917465000000000; 9907522510346614500000000; 9499483277384070900000000; 9123304097993746600000000; 8775434256835857000000000; 8452826730524548600000000; 8152852685172531400000000; 7873232688153897900000000; 7611980968150214400000000];
[2788567904342700300000000000000; 138027579643091450000000000000; 20478809078070368000000000000; 5048675734559349600000000000; 1729204682656556300000000000; 750101316418613680000000000; 388134600413452580000000000; 229453180847617720000000000; 150049611904022690000000000; 105942962876998890000000000; 79312908040097712000000000; 62117599831140849000000000; 50391546725902471000000000; 42029362172997789000000000; 35841446852372924000000000; 31119129032960780000000000; 27420665731127568000000000; 24459723607633572000000000; 22044295743276120000000000; 20041751992485611000000000; 18358058190788464000000000; 16924991760857524000000000; 15692034329894328000000000; 14621088742190115000000000; 13682951417322938000000000; 12854904316625108000000000; 12119038014597355000000000; 11461062501022466000000000; 10869449767486789000000000; 10334806163055783000000000; 9849406503331026500000000; 9406843784662852100000000; 9001762682214887100000000; 8629654558958401300000000; 8286698178078867800000000; 7969634754179911900000000; 7675669073948588000000000; 7402390601249627100000000; 7147710041619070400000000; 6909807967904183600000000];
[2774866706120870900000000000000; 136004657006570070000000000000; 19982464109454361000000000000; 4879442027472085400000000000; 1656097598307025800000000000; 712410548917743310000000000; 365922198590877750000000000; 214964970335301300000000000; 139841733734718190000000000; 98314033659261905000000000; 73346247680622960000000000; 57282745806461612000000000; 46362743466046603000000000; 38596343127936091000000000; 32862650863382816000000000; 28495769029256588000000000; 25081649660082723000000000; 22352512350071615000000000; 20129154186825697000000000; 18288015591729525000000000; 16741638295891400000000000; 15426665847562674000000000; 14296247284506137000000000; 13315095145172219000000000; 12456190440285450000000000; 11698536506506329000000000; 11025596813262100000000000; 10424188444197217000000000; 9883685175960083500000000; 9395434715119923500000000; 8952326536804431600000000; 8548467250186437600000000; 8178933819630956900000000; 7839583893859885400000000; 7526908531732190500000000; 7237916757267445700000000; 6970044261015479400000000; 6721080598670231400000000; 6489110689166211100000000; 6272467461986771500000000];
[2761365346341966800000000000000; 134030534727675230000000000000; 19502683166561575000000000000; 4717334217521878100000000000; 1586650901494949100000000000; 676870250562978210000000000; 345108825453183000000000000; 201460377623018880000000000; 130367704489713280000000000; 91258253614948374000000000; 67843488680914129000000000; 52834092739903198000000000; 42662775784494280000000000; 35448468094911078000000000; 30134839160456679000000000; 26096086592041533000000000; 22944064684276582000000000; 20428309840967531000000000; 18381548183334157000000000; 16688656841076410000000000; 15268284706057728000000000; 14061588402484387000000000; 13025114050953344000000000; 12126173807558956000000000; 11339767820295205000000000; 10646488899868217000000000; 10031067089130405000000000; 9481339993530519700000000; 8987512028494764200000000; 8541613289660326300000000; 8137098652076310000000000; 7768546889294438400000000; 7431432144094728600000000; 7121948422765451000000000; 6836873420781139600000000; 6573461853238534900000000; 6329361151589500100000000; 6102544281983162200000000; 5891255790851699400000000; 5693968157203706000000000];
[2748059026617777300000000000000; 132103591432100630000000000000; 19038771608952787000000000000; 4561996789167301900000000000; 1520656379523417300000000000; 643345316616669050000000000; 325599694841313660000000000; 188868807829473140000000000; 121572465738368280000000000; 84731109974433855000000000; 62767608626452310000000000; 48740141878435620000000000; 39264347746153080000000000; 32561724210086055000000000; 27636621326359949000000000; 23900826364442445000000000; 20990422462196131000000000; 18671111113866956000000000; 16786733601024720000000000; 15230015055474919000000000; 13925276782667502000000000; 12817861442564014000000000; 11867462112798760000000000; 11043796393841800000000000; 10323730789736807000000000; 9689325894859293600000000; 9126480315085637800000000; 8623972433437547100000000; 8172771815145923300000000; 7765536700926509800000000; 7396242080318842500000000; 7059900808433211500000000; 6752351963810018700000000; 6470098440558380400000000; 6210181030450655300000000; 5970079856589479200000000; 5747636525664198800000000; 5540992129300758600000000; 5348537481419162300000000; 5168872883905765500000000];
[2734943107282718500000000000000; 130222273466153380000000000000; 18590069328807751000000000000; 4413094388121013700000000000; 1457918867778553400000000000; 611709776976643230000000000; 307306812059314450000000000; 177124955393981740000000000; 113405230352964460000000000; 78691639166805968000000000; 58084602412944816000000000; 44972007484493837000000000; 36142460887899289000000000; 29914144223810071000000000; 25348447645019073000000000; 21892404200384860000000000; 19204763653069472000000000; 17066319383515243000000000; 15331270710741040000000000; 13899643942854726000000000; 12701029536850474000000000; 11684653214923692000000000; 10813123559249885000000000; 10058384127084473000000000; 9399026689309348800000000; 8818467346604424800000000; 8303682913302443700000000; 7844319090836157900000000; 7432050309453230400000000; 7060113054350364700000000; 6722960795676322200000000; 6416005478037226700000000; 6135421505660389200000000; 5877995446212014100000000; 5641009590415805400000000; 5422150868629681300000000; 5219438960725281700000000; 5031169077880124600000000; 4855866063977866500000000; 4692247306134511900000000];
[2722013100791125800000000000000; 128385091542160860000000000000; 18155948798545642000000000000; 4270310561104396200000000000; 1398255369359232900000000000; 581846142779153960000000000; 290148465719606660000000000; 166168394199993180000000000; 105819142249286110000000000; 73102137779378859000000000; 53763232098734277000000000; 41503197016905064000000000; 33274218588386096000000000; 27485630537482087000000000; 23252449396084151000000000; 20054761092990922000000000; 17572523423004100000000000; 15600621492646369000000000; 14002908251301505000000000; 12686203206751086000000000; 11584991874917860000000000; 10652102337575475000000000; 9852844490599611800000000; 9161221922733581100000000; 8557421370445495700000000; 8026110841358635800000000; 7555262056332727400000000; 7135320361820970300000000; 6758609555902000500000000; 6418898460914011600000000; 6111080749004464500000000; 5830935300671801000000000; 5574944652230359500000000; 5340155899997229200000000; 5124073018149780100000000; 4924572685721952600000000; 4739837894868875500000000; 4568305142000069300000000; 4408622091272012800000000; 4259613382684668000000000];
[2709264665440451700000000000000; 126590617572958850000000000000; 17735813240174971000000000000; 4133346580455268300000000000; 1341494237572651900000000000; 553644801823445980000000000; 274048758921765550000000000; 155943200320132230000000000; 98770963816348700000000000; 67927897464757304000000000; 49774797789638620000000000; 38309410021041600000000000; 30638647259431477000000000; 25257794502507762000000000; 21332293104466680000000000; 18373229948477243000000000; 16080408844423962000000000; 14261874426816267000000000; 12790477841422811000000000; 11579359859837485000000000; 10567553990726198000000000; 9711230583535110100000000; 8978202614947915700000000; 8344380305632469500000000; 7791425010869255900000000; 7305161046751227500000000; 6874478236083463900000000; 6490559223378597800000000; 6146326081948784900000000; 5836037735465103600000000; 5554992862631849600000000; 5299307733103818100000000; 5065748039879185800000000; 4851600161683312200000000; 4654571574796923800000000; 4472713062096554000000000; 4304357396108811000000000; 4148070597374968900000000; 4002612881822230700000000; 3866907138700461700000000];
[2696693599402059700000000000000; 124837481683701280000000000000; 17329094908194080000000000000; 4001920347539754700000000000; 1287474416604933300000000000; 527003459043179520000000000; 258937176637187700000000000; 146397604730172300000000000; 92220788742632600000000000; 63136961783010911000000000; 46092927766920726000000000; 35368354120074813000000000; 28216532900463033000000000; 23213809648141498000000000; 19573047517967661000000000; 16834414069877028000000000; 14716287132151300000000000; 13039001909688562000000000; 11683797811452870000000000; 10569698375557135000000000; 9639963080324535900000000; 8853863526925226700000000; 8181532293799381300000000; 7600644403206146800000000; 7094224668470869500000000; 6649165492748116600000000; 6255203982334667100000000; 5904202636667594700000000; 5589634764120438700000000; 5306210529774899700000000; 5049601256713064500000000; 4816233451285906700000000; 4603133024041112500000000; 4407806131988490900000000; 4228147070903121200000000; 4062366378731337800000000; 3908934202694646800000000; 3766535309490491900000000; 3634033060188071600000000; 3510440348276124600000000];
[2684295835042422900000000000000; 123124369390021310000000000000; 16935253478445238000000000000; 3875765369370109600000000000; 1236044736038209100000000000; 501826618549819960000000000; 244748186426156580000000000; 137483673558817890000000000; 86131778138736821000000000; 58699903137647704000000000; 42693386222821158000000000; 32659576638598083000000000; 25990271684860092000000000; 21338277622187970000000000; 17961062194553645000000000; 15426076315791267000000000; 13469083753748834000000000; 11921900179628682000000000; 10673585611431171000000000; 9648638883722304800000000; 8794246628778098800000000; 8072558340463202800000000; 7455856361564692100000000; 6923449372137961800000000; 6459622960214522300000000; 6052256196913347600000000; 5691868169026178100000000; 5370948302778978500000000; 5083477830047786200000000; 4824582401601547300000000; 4590276226453459400000000; 4377271094305333300000000; 4182832063459967500000000; 4004667163628152200000000; 3840842202076918900000000; 3689714311261747700000000; 3549879639531080500000000; 3420131822383812000000000; 3299428748668821600000000; 3186865765582425400000000];
[2672067433518622900000000000000; 121450018932305440000000000000; 16553774535864269000000000000; 3754629803246314400000000000; 1187063255219169800000000000; 478025104048639700000000000; 231420869846935430000000000; 129157013641259300000000000; 80469918032565123000000000; 54589618120506819000000000; 39553897108507849000000000; 30164310517100399000000000; 23943733363220573000000000; 19617105735366258000000000; 16483856679656031000000000; 14137037991253086000000000; 12328689537563155000000000; 10901352128960334000000000; 9751378027779827200000000; 8808362687518023600000000; 8023142586851977500000000; 7360538098112500200000000; 6794824105289996600000000; 6306821674345172700000000; 5881982308716529900000000; 5509096601120793800000000; 5179405397940930100000000; 4885976281291447200000000; 4623258525844375700000000; 4386760366848485100000000; 4172811533709293700000000; 3978386166082351200000000; 3800969116396602600000000; 3638453848332867700000000; 3489063633447302400000000; 3351290127518530500000000; 3223845052334423200000000; 3105621859907177700000000; 2995665072299007900000000; 2893145575662216700000000];
[2660004579633018000000000000000; 119813218756523380000000000000; 16184168154566292000000000000; 3638275564623104700000000000; 1140396653791134200000000000; 455515614681155700000000000; 218898582130367690000000000; 121376501328659040000000000; 75203796474384442000000000; 50781139723693021000000000; 36653982727550348000000000; 27865333291892204000000000; 22062136374548181000000000; 18037395097529475000000000; 15130019343907460000000000; 12957086611475969000000000; 11285875980054280000000000; 9968949060506331800000000; 8909458509872571400000000; 8041744444447537100000000; 7320035816887515100000000; 6711631995217875900000000; 6192654846658481400000000; 5745325671219950200000000; 5356174249945344200000000; 5014833335530420900000000; 4713209996103521800000000; 4444905026798936500000000; 4204799021414059400000000; 3988752523515629000000000; 3793385616615982500000000; 3615913712388503200000000; 3454023679365829300000000; 3305779322532730200000000; 3169548486988285400000000; 3043946279443263200000000; 2927790434320617900000000; 2820065923732354300000000; 2719896670332072900000000; 2626522766532429600000000];
[2648103576932872000000000000000; 118212805132688180000000000000; 15825967564169986000000000000; 3526477493758621900000000000; 1095919664984532800000000000; 434220313580535150000000000; 207128637889690880000000000; 114104032674516580000000000; 70304398636649098000000000; 47251465007420750000000000; 33974815825186831000000000; 25746838021076511000000000; 20331933653033503000000000; 16587338422724486000000000; 13889115033783540000000000; 11876891755487216000000000; 10332218025147044000000000; 9117019382725142500000000; 8140790970471872000000000; 7342290412975482700000000; 6678900243269389600000000; 6120220951662260100000000; 5644086618958319100000000; 5234015053406987800000000; 4877533341665939400000000; 4565052369858267900000000; 4289094205623145800000000; 4043751439340043700000000; 3824302165486361100000000; 3626931373924583900000000; 3448526357354492200000000; 3286524425973820400000000; 3138798133015023400000000; 3003567767373507300000000; 2879333917732725500000000; 2764824985122816200000000; 2658955950308351500000000; 2560795701593842100000000; 2469540935835971200000000; 2384495151900035800000000];
[2636360843041608000000000000000; 116647659902610140000000000000; 15478727896690823000000000000; 3419022577028151900000000000; 1053514548521202600000000000; 414066446640395540000000000; 196062020815330440000000000; 107304293273513890000000000; 65744918428532105000000000; 43979396932175381000000000; 31499084030683625000000000; 23794315133914799000000000; 18740708206290149000000000; 15256126661034160000000000; 12751600762391158000000000; 10887928296082347000000000; 9460023653127038400000000; 8338563625456175100000000; 7438959481109899100000000; 6704082220494837100000000; 6094246193868070100000000; 5581188111978222700000000; 5144329477751323200000000; 4768388667297675800000000; 4441815254208279100000000; 4155739152138318000000000; 3903250183237581800000000; 3678894561668572600000000; 3478316737782787500000000; 3298000506005906900000000; 3135079081259628400000000; 2987193864555552400000000; 2852388090668826700000000; 2729025808654438500000000; 2615729493892121000000000; 2511331524808599700000000; 2414836090421492400000000; 2325389025791534300000000; 2242253730817711500000000; 2164791798897424700000000];
[2624772905209142300000000000000; 115116708349154210000000000000; 15142025008729684000000000000; 3315709219088706900000000000; 1013070600227852600000000000; 394985989194068540000000000; 185653115469686120000000000; 100944546170175930000000000; 61500585268716167000000000; 40945399172906392000000000; 29210865607864555000000000; 21994444269265224000000000; 17277077621367979000000000; 14033863688960081000000000; 11708748735790064000000000; 9982406355789567100000000; 8662269675595044900000000; 7627195213540665500000000; 6798113335439212200000000; 6121725657251834900000000; 5561072465215441100000000; 5089873800347502500000000; 4689023025834779700000000; 4344350339327010100000000; 4045158663265771100000000; 3783242371671734200000000; 3552215461813470200000000; 3347042589921267700000000; 3163705878059669200000000; 2998964325591646800000000; 2850177490526275700000000; 2715174495447062400000000; 2592155473125082100000000; 2479616549439585800000000; 2376292122216756900000000; 2281110000309151600000000; 2193156210352563200000000; 2111647146045247300000000; 2035907347696645400000000; 1965351638014638600000000];
[2613336396069535500000000000000; 113618917179719530000000000000; 14815454374050969000000000000; 3216346562359501900000000000; 974483695675226410000000000; 376915318482205570000000000; 175859459448606720000000000; 94994436384590463000000000; 57548504773154338000000000; 38131462832926810000000000; 27095515558230534000000000; 20334995249414535000000000; 15930606728270751000000000; 12911488357411371000000000; 10752576072339109000000000; 9153207396153360800000000; 7932543186715098100000000; 6977086485882214300000000; 6212917000850875800000000; 5590304045442408300000000; 5074822686345530000000000; 4642034528428675200000000; 4274197771135882700000000; 3958172335426449600000000; 3684050599075485500000000; 3444241016017131600000000; 3232841557850630700000000; 3045202894772926000000000; 2877618401139327400000000; 2727100559940559000000000; 2591217263051621200000000; 2467970306949614000000000; 2355704058761586500000000; 2253035992747639500000000; 2158803283816705500000000; 2072021330306408200000000; 1991851237628082200000000; 1917574102632441700000000; 1848570509179343900000000; 1784304053065318300000000];
[2602048049594855000000000000000; 112153292617133310000000000000; 14498630041984374000000000000; 3120753850541353200000000000; 937655865363232620000000000; 359794909952871410000000000; 166641514315478820000000000; 89425810721497814000000000; 53867512218103054000000000; 35520984066606723000000000; 25139561202717727000000000; 18804737409249821000000000; 14691727717684049000000000; 11880703257742471000000000; 9875780629162528100000000; 8393825900139532900000000; 7264988169907277400000000; 6382919493295881500000000; 5678504521675846700000000; 5105335773255615200000000; 4631345594590185000000000; 4233805690332830700000000; 3896239970768751300000000; 3606462125953379100000000; 3355294937816067500000000; 3135714422004865200000000; 2942265437921110300000000; 2770654777902694900000000; 2617462733714354400000000; 2479935278415486400000000; 2355832071725781500000000; 2243313750551585600000000; 2140857281132337400000000; 2047191634100214200000000; 1961248367337750100000000; 1882123275165032300000000; 1809046343717201300000000; 1741358005555209500000000; 1678490217851828200000000; 1619951267763557500000000];
[2590904697234855900000000000000; 110718878591591790000000000000; 14191183657400333000000000000; 3028759833136499900000000000; 902494899160167680000000000; 343569055591193770000000000; 157962453841690450000000000; 84212551638222338000000000; 50438037733579543000000000; 33098651703558914000000000; 23330606442736998000000000; 17393356567944593000000000; 13551667070732999000000000; 10933909622254311000000000; 9071682401422792600000000; 7698316155285768700000000; 6654256803687419200000000; 5839841150175684300000000; 5190437976434840300000000; 4662735620534858000000000; 4226858871507934000000000; 3861667612147509400000000; 3551859645930302800000000; 3286132156379979700000000; 3055983749670293100000000; 2854915048131351100000000; 2677883583210411700000000; 2520924713785412900000000; 2380883232932729400000000; 2255220199555180300000000; 2141871801973610600000000; 2039144799693027600000000; 1945638067225855700000000; 1860183024021689400000000; 1781797906063201100000000; 1709652303879900200000000; 1643039400337525000000000; 1581354043464439600000000; 1524075284284551300000000; 1470752362493080000000000];
[2579903264232660300000000000000; 109314755027691070000000000000; 13892763538301801000000000000; 2940202208150773000000000000; 868913977877315250000000000; 328185602616316330000000000; 149787968204606360000000000; 79330424046996418000000000; 47241982269244803000000000; 30850344043491232000000000; 21657243969303592000000000; 16091378991720613000000000; 12502378714356174000000000; 10064147826615936000000000; 8334170007112759900000000; 7061243688792446500000000; 6095465050923609800000000; 5343422352953833800000000; 4744669627229487400000000; 4258779536301806400000000; 3857916218855999600000000; 3522414653488463900000000; 3238061480899782900000000; 2994372351259358700000000; 2783471244000897100000000; 2599343720562606200000000; 2437328415166216600000000; 2293763849705113900000000; 2165738668771713700000000; 2050912074966832900000000; 1947382765774367900000000; 1853591930570661700000000; 1768250528609306100000000; 1690284119018495600000000; 1618790543367336900000000; 1553007133117711900000000; 1492285055109602600000000; 1436069062382803500000000; 1383881378302554000000000; 1335308770276612700000000];
[2569040766107214500000000000000; 107940036220972280000000000000; 13603033807346348000000000000; 2854927100363779300000000000; 836831330019859620000000000; 313595711012812590000000000; 142086082901980850000000000; 74756934018989768000000000; 44262603454245870000000000; 28763034060856517000000000; 20108974751364658000000000; 14890101752305192000000000; 11536482866774141000000000; 9265043008216749800000000; 7657651812943591400000000; 6477640945444100400000000; 5584152152729932700000000; 4889620712869460200000000; 4337507431791440000000000; 3890072558928091600000000; 3521377383378176300000000; 3213127085912235300000000; 2952118345396228700000000; 2728625103741035100000000; 2535350075715653600000000; 2366727127574562500000000; 2218446866912010000000000; 2087127557669850900000000; 1970082672186867300000000; 1865153959699800700000000; 1770589728928299000000000; 1684954848354278400000000; 1607063334979948400000000; 1535927256298439300000000; 1470717567151237600000000; 1410733784018583700000000; 1355380276954773100000000; 1304147569071683500000000; 1256597462461361300000000; 1212351114946694800000000];
[2558314305293830600000000000000; 106593869298762370000000000000; 13321673573864744000000000000; 2772788572741269000000000000; 806169911902316600000000000; 299753628482815250000000000; 134826991240736900000000000; 70471198441512422000000000; 41484410545391831000000000; 26824702322432460000000000; 18676134191372276000000000; 13781528936897318000000000; 10647210083973183000000000; 8530755356918634100000000; 7037011295980053700000000; 5942966835422481600000000; 5116243681867285100000000; 4474746582014083200000000; 3965583618217118300000000; 3553519597531307400000000; 3214380865434955000000000; 2931145497897970200000000; 2691547203180426800000000; 2486562525409892100000000; 2309429798374240000000000; 2154997357794057100000000; 2019280904758916900000000; 1899156850789146900000000; 1792145969171761100000000; 1696258196229452600000000; 1609879585177346700000000; 1531688798439010100000000; 1460594615348907200000000; 1395688602683200700000000; 1336208868603795300000000; 1281512016682507700000000; 1231051235465609700000000; 1184359027321167300000000; 1141033479825200500000000; 1100727267219122800000000];
[2547721067934642900000000000000; 105275432760422570000000000000; 13048376163175670000000000000; 2693648168738093400000000000; 776857109452485670000000000; 286616481514705330000000000; 127982899348977540000000000; 66453824757033347000000000; 38893067724752013000000000; 25024256979515817000000000; 17349824388194177000000000; 12758313212213896000000000; 9828350060513148100000000; 7855934673401957100000000; 6467566271295506100000000; 5453069812027618100000000; 4688017841171670300000000; 4095432080254708500000000; 3625826049273259800000000; 3246298818454929400000000; 2934319070381864000000000; 2674047498725407600000000; 2454087191268204000000000; 2266065751676363500000000; 2103717269102771800000000; 1962273296261807600000000; 1838049822018591600000000; 1728161493821642100000000; 1630320237342539000000000; 1542690955042211500000000; 1463786526073940400000000; 1392390317107816600000000; 1327498246334252100000000; 1268274941951427800000000; 1214020193976977500000000; 1164143015202904600000000; 1118141391029073700000000; 1075586327629005700000000; 1036109179986481700000000; 999391505886687680000000];
[2537258320811250900000000000000; 103983935092425390000000000000; 12782848390213322000000000000; 2617374483401455000000000000; 748824460153240450000000000; 274144081365083970000000000; 121527882743639690000000000; 62686799983450891000000000; 36475305068879062000000000; 23351460249993006000000000; 16121851995030846000000000; 11813702287890709000000000; 9074204776654600400000000; 7235678825625016700000000; 5945031648391839400000000; 5004154169354471200000000; 4296074720445674700000000; 3748602856704617700000000; 3315432127604385100000000; 2965837403698687300000000; 2678815683325169300000000; 2439626514148270300000000; 2237679673658242500000000; 2065206116537172300000000; 1916398828120184900000000; 1786843709294106900000000; 1673134143560828600000000; 1572604653180731700000000; 1483143436632250400000000; 1403058189218142200000000; 1330978569375275100000000; 1265784289376137300000000; 1206551399982828500000000; 1152511677367612900000000; 1103021570185042300000000; 1057538207854686200000000; 1015600683875730100000000; 976815321795709420000000; 940843978014888140000000; 907394681804615140000000];
[2526923408412303200000000000000; 102718613453970410000000000000; 12524809874686197000000000000; 2543842761333338900000000000; 722007393687095200000000000; 262298743843618840000000000; 115437753562966450000000000; 59153388279989088000000000; 34218836567845679000000000; 21796860854574972000000000; 14984671203499681000000000; 10941489863522806000000000; 8379545619113502600000000; 6665495766138422800000000; 5465485408735977800000000; 4592749277337849500000000; 3937308250676464800000000; 3431452343150038500000000; 3031845015423536200000000; 2709789469099132800000000; 2445705067643649700000000; 2225872485469817800000000; 2040450091234536800000000; 1882228027427734900000000; 1745824091799629200000000; 1627151864526450300000000; 1523060994309577400000000; 1431088945836392100000000; 1349286479275195700000000; 1276092873489931600000000; 1210245321344463500000000; 1150712193950394900000000; 1096643235286212600000000; 1047331937511021100000000; 1002186796032715600000000; 960709117700203760000000; 922475720564260820000000; 887125323998338470000000; 854347750774048900000000; 823875291819877630000000];
[2516713750129150900000000000000; 101478732429115950000000000000; 12273992395172278000000000000; 2472934519709114300000000000; 696344989955179250000000000; 251045121875857050000000000; 109689937643510890000000000; 55838036382672775000000000; 32112284623577994000000000; 20351731916349552000000000; 13931331424809855000000000; 10135970679260077000000000; 7739574134984858900000000; 6141268802389707200000000; 5025337523756649300000000; 4215681496515553100000000; 3608880617605851400000000; 3141418278453065800000000; 2772731962520163300000000; 2476015949108420400000000; 2233013505639967200000000; 2030954300640397200000000; 1860691445652393200000000; 1715533386250040000000000; 1590491212838488400000000; 1481781546521367500000000; 1386490798275472800000000; 1302343759404954200000000; 1227541116609493300000000; 1160643410136418600000000; 1100486859785967300000000; 1046121426273687400000000; 996764628221144230000000; 951766683831354810000000; 910583900860611870000000; 872758148549423890000000; 837900865792385100000000; 805680489011635130000000; 775812483891749900000000; 748051378399529370000000];
[2506626837573130400000000000000; 100263582841656380000000000000; 12030139279729933000000000000; 2404537194677155800000000000; 671779753240772090000000000; 240350049897846470000000000; 104263360686220970000000000; 52726286288003456000000000; 30145110503970587000000000; 19008013873868538000000000; 12955429275308615000000000; 9391899322427778000000000; 7149886107802080900000000; 5659224838970612400000000; 4621301557256798100000000; 3870048537586419200000000; 3308198917775681100000000; 2876161302632437800000000; 2535964554853941400000000; 2262566272352363800000000; 2038942116038217400000000; 1853203801471214400000000; 1696849269699013700000000; 1563667416626752700000000; 1449033474426814900000000; 1349444341045124400000000; 1262205186900526000000000; 1185213727397655600000000; 1116808931443397600000000; 1055663094859430200000000; 1000703635036773700000000; 951055600658267390000000; 905998844827319180000000; 864935727719553770000000; 827366481456884120000000; 792870219989550930000000; 761090155938829480000000; 731721986509939130000000; 704504690698299180000000; 679213178519303610000000];
[2496660232008360800000000000000; 99072480629207142000000000000; 11793004830765081000000000000; 2338543809582699500000000000; 648257401378472270000000000; 230182399208922950000000000; 99138342815744459000000000; 49804694613622498000000000; 28307550272339099000000000; 17758261995570354000000000; 12051064506922417000000000; 8704452472380116800000000; 6606438671561534500000000; 5215905335224080700000000; 4250368718637222300000000; 3553196051551097100000000; 3032893859392551500000000; 2633545437244536800000000; 2319600712784405500000000; 2067661667921874400000000; 1861851297919091400000000; 1691101225130585300000000; 1547507949969167300000000; 1425305770127829100000000; 1320207097405400900000000; 1228968072677530000000000; 1149096006554044000000000; 1078648254205275000000000; 1016091334916632300000000; 960200545589503640000000; 909987295571014200000000; 864645741604762850000000; 823513070623286110000000; 786039573377859490000000; 751765836306521820000000; 720305173165029000000000; 691329958465270000000000; 664560897879909800000000; 639758531730193170000000; 616716452453698350000000];
[2486811561894319800000000000000; 97904765773178717000000000000; 11562353782045502000000000000; 2274852663568785400000000000; 625726668874060260000000000; 220512943475833720000000000; 94296500891882160000000000; 47060758110791503000000000; 26590555751240480000000000; 16595598117745038000000000; 11212799553416990000000000; 8069194292968215400000000; 6105520203067113100000000; 4808139743949358800000000; 3909784153790096500000000; 3262696255100339900000000; 2780800327864026700000000; 2411620285005854800000000; 2121868283261453600000000; 1889679956705097600000000; 1700246564217902100000000; 1543261950888574800000000; 1411378279836391500000000; 1299242795758807600000000; 1202880150405492400000000; 1119286290925417600000000; 1046155325072121000000000; 981691994033783760000000; 924480476043101700000000; 873391006066596120000000; 827512353447463170000000; 786102282674446780000000; 748550717642728760000000; 714352010488699950000000; 683083823715684340000000; 654390876221185870000000; 627972308320460660000000; 603571768780703440000000; 580969570007408930000000; 559976429535676040000000];
[2477078520532750300000000000000; 96759801281524581000000000000; 11337960785892712000000000000; 2213367039208718500000000000; 604139122997681790000000000; 211314233642920470000000000; 89720657982490343000000000; 44482844845781350000000000; 24985740115872979000000000; 15513666259744865000000000; 10435622391202365000000000; 7482044706831158800000000; 5643722755341585200000000; 4433021217311238200000000; 3597025279180913200000000; 2996328413120099600000000; 2549939651810588200000000; 2208604796460055000000000; 1941150084208199400000000; 1727141695130134200000000; 1552765640222778700000000; 1408424434717250900000000; 1287286131737114600000000; 1184380867492117500000000; 1096022462959285500000000; 1019428709555997300000000; 952466346366546350000000; 893476196759952320000000; 841150980524455870000000; 794448444121909790000000; 752528612610188580000000; 714707798783199070000000; 680424437615957250000000; 649213387682245370000000; 620686377122566030000000; 594516964886143810000000; 570428858849378200000000; 548186756860667910000000; 527589103288197130000000; 508462313781997760000000];
[2467458863813781200000000000000; 95636972221338091000000000000; 11119609928711457000000000000; 2153994927918551100000000000; 583448991944619820000000000; 202560481559802750000000000; 85394759453455950000000000; 42060130606056645000000000; 23485327745433455000000000; 14506591798980711000000000; 9714912438835936800000000; 6939250308406521300000000; 5217916815297819700000000; 4087884384642599200000000; 3309781981654416700000000; 2752061015864790800000000; 2338503419889237100000000; 2022872465026290400000000; 1775970271986583600000000; 1578697550575089900000000; 1418166713711706900000000; 1285439224942390400000000; 1174162147823887900000000; 1079720674163131300000000; 998696450658943620000000; 928512512543505340000000; 867195150428361360000000; 813210841629329990000000; 765352443059964910000000; 722658371928325540000000; 684354290120343640000000; 649810404599797240000000; 618509776400007820000000; 590024504160244070000000; 563997617056963900000000; 540129159622657960000000; 518165390486127650000000; 497890319644251260000000; 479119019947760180000000; 461692297570213280000000];
[2457950408056411600000000000000; 94535684798551598000000000000; 10907094273137886000000000000; 2096648771985369800000000000; 563613004224145300000000000; 194227451690288360000000000; 81303795173975416000000000; 39782540122764234000000000; 22082107991217417000000000; 13568943914649448000000000; 9046409242635729300000000; 6437357693289991600000000; 4825228187533046400000000; 3770285023789068000000000; 3045938522019005700000000; 2528035502643869900000000; 2144838712005748700000000; 1852937824091508700000000; 1624981914361237200000000; 1443116798521358700000000; 1295317733558552900000000; 1173258961772698600000000; 1071032357169823400000000; 984352384724293810000000; 910048769701192750000000; 845734447905718830000000; 789583183591550190000000; 740177486943915560000000; 696402604311728810000000; 657371322152210840000000; 622369766814226100000000; 590817757917595840000000; 562239410730657820000000; 536241062603169930000000; 512494504792356200000000; 490724106187018650000000; 470696825748741230000000; 452214392686472420000000; 435107130064399940000000; 419229036351869660000000];
[2448551027938774000000000000000; 93455365482157590000000000000; 10700215425199526000000000000; 2041245222127954400000000000; 544590238498108540000000000; 186292360314417610000000000; 77433727374555690000000000; 37640692733740048000000000; 20769392548124650000000000; 12695701033316189000000000; 8426183717090560800000000; 5973189000521635000000000; 4463016823158885800000000; 3477981463119738600000000; 2803556994618246700000000; 2322551396896727900000000; 1967434620555869200000000; 1697444131034682000000000; 1486955661869424300000000; 1319276841371523500000000; 1183186662910479500000000; 1070929272293690900000000; 977009636007387360000000; 897447609736556280000000; 829302725663479430000000; 770363637873134410000000; 718940430774613270000000; 673722770451130030000000; 633681149983890980000000; 597996919994130860000000; 566011909710666080000000; 537191612485328420000000; 511097913791615090000000; 487368631725950610000000; 465701987801661380000000; 445844691338922360000000; 427582703810242630000000; 410734012706606420000000; 395142927777110820000000; 380675541740554940000000];
[2439258654513855300000000000000; 92395460170525742000000000000; 10498783124984902000000000000; 1987704909581389700000000000; 526341983147496500000000000; 178733781679986720000000000; 73771423731213429000000000; 35625852141286193000000000; 19540976141798252000000000; 11882219031619360000000000; 7850611728217756800000000; 5543819481695220900000000; 4128857428150416200000000; 3208917565452324400000000; 2580862208007342400000000; 2134052729408857600000000; 1804909948327858600000000; 1555152133295464800000000; 1360769420057657600000000; 1206153657814939300000000; 1080832601475893200000000; 977580480480776130000000; 891285935032355180000000; 818252087145344220000000; 755751368182272660000000; 701735040345190320000000; 654639207643374620000000; 613252501109094440000000; 576624075196265010000000; 543998496604840640000000; 514768913782838160000000; 488442869883864760000000; 464617001017578660000000; 442958071603164270000000; 423188591727003780000000; 405075789899416720000000; 388423072236331290000000; 373063344599765340000000; 358853745044052750000000; 345671454264143760000000];
[2430071273306575200000000000000; 91355433397536882000000000000; 10302614859417905000000000000; 1935952231766736400000000000; 508831604897474010000000000; 171531560600861760000000000; 70304595282523934000000000; 33729879946558970000000000; 18391100267069240000000000; 11124201971647907000000000; 7316349825825850900000000; 5146556926616549400000000; 3820521699918721800000000; 2961207158031028300000000; 2376227863627632200000000; 1961115637250327100000000; 1656001979714946500000000; 1424929820911671800000000; 1245398933743077600000000; 1102813099780124900000000; 987397699138427160000000; 892420059035070600000000; 813125204667870330000000; 746079026906449270000000; 688751209408277360000000; 639243502506141490000000; 596108516295869430000000; 558226288321001370000000; 524718562530544370000000; 494888194357054560000000; 468175615515922740000000; 444127084666485240000000; 422371212016738320000000; 402601379200948580000000; 384562417748889650000000; 368040403395896200000000; 352854757397203880000000; 338852075024575340000000; 325901260620298140000000; 313889660654892790000000];
[2420986922488347600000000000000; 90334767576389034000000000000; 10111535495822602000000000000; 1885915150671327400000000000; 492024425879770850000000000; 164666731037183020000000000; 67021738816700763000000000; 31945192667749164000000000; 17314419734880779000000000; 10417675163117194000000000; 6820312946932618500000000; 4778922789707181300000000; 3535962053799726700000000; 2733119784461220700000000; 2188163920112701600000000; 1802437035889398000000000; 1519556231012644500000000; 1305743078432268500000000; 1139909202376751700000000; 1008402961436837600000000; 902099790097169120000000; 814725756438490110000000; 741856955426210380000000; 680303054953249910000000; 627716509752621570000000; 582338352852474850000000; 542828913210572030000000; 508152659654022250000000; 477498326848469370000000; 450222518989916310000000; 425809235036291620000000; 403840381185874370000000; 383973988555120220000000; 365927915472031740000000; 349467508029606400000000; 334396154201889780000000; 320547978615729060000000; 307782138713292310000000; 295978331420309490000000; 285033223803417090000000];
[2412003691125468000000000000000; 89332962279059409000000000000; 9925376935048682700000000000; 1837525003125169500000000000; 475887608556012870000000000; 158121440227417550000000000; 63912083393990819000000000; 30264721972519995000000000; 16305971804591080000000000; 9758960363489164500000000; 6359653927498268700000000; 4438634874578622900000000; 3273296713017315900000000; 2523067665244151800000000; 2015305040657449300000000; 1656824270934268400000000; 1394517093893389100000000; 1196647156838553400000000; 1043446652796613800000000; 922145751467919770000000; 824225683089186770000000; 743839338622808190000000; 676870396182958140000000; 620354702384895480000000; 572114079564786330000000; 530518482771631120000000; 494327842870818400000000; 462584622530087860000000; 434539384270901780000000; 409598297762964050000000; 387285507562012010000000; 367215744349704230000000; 349074112229257950000000; 332600978928188000000000; 317580545346204910000000; 303832102409159920000000; 291203274341087860000000; 279564746779956260000000; 268806116468732280000000; 258832596453765720000000];
[2403119717497846600000000000000; 88349533549523795000000000000; 9743977783006319500000000000; 1790716322214412900000000000; 460390047966960380000000000; 151878877974377810000000000; 60965540695536346000000000; 28681877876559027000000000; 15361147696647727000000000; 9144652942773686500000000; 5931744673276945100000000; 4123591446295910000000000; 3030796046516129500000000; 2329593763357946500000000; 1856400029819759800000000; 1523185664161981300000000; 1279919293729938200000000; 1096778893144146000000000; 955232002223453800000000; 843332105981640520000000; 753125049033708110000000; 679160890103491040000000; 617609098341285130000000; 565715390654069780000000; 521458550043163800000000; 483327873255447070000000; 450175394722809500000000; 421115629439036120000000; 395456206602201020000000; 372649006498456800000000; 352255168523603990000000; 333919650013699870000000; 317352468797621200000000; 302314693833758020000000; 288607856150527030000000; 276065855691884160000000; 264548711564564350000000; 253937689141408670000000; 244131466398463310000000; 235043092393914380000000];
[2394333187484808400000000000000; 87384013248947290000000000000; 9567183039532465300000000000; 1745426669124451900000000000; 445502270810905770000000000; 145923210717000280000000000; 58172658913673703000000000; 27190514679759664000000000; 14475666297228161000000000; 8571600854034132800000000; 5534158853076827000000000; 3831856651907662500000000; 2806870048961052600000000; 2151360860280396200000000; 1710302174278367000000000; 1400521875975518400000000; 1174880091346631300000000; 1005349611755307100000000; 874553750331835960000000; 771314785034105450000000; 688204852700243520000000; 620143624392940950000000; 563566138560329750000000; 515912867988006150000000; 475308070915798050000000; 440351526369744200000000; 409980444982234970000000; 383375909916608160000000; 359898226024462710000000; 339041431790169850000000; 320400759973605710000000; 303649003870316370000000; 288519109178335400000000; 274791184096656140000000; 262282689128916590000000; 250840945166131250000000; 240337352352253710000000; 230662885743483640000000; 221724553956851860000000; 213442591326071560000000];
[2385642333014846000000000000000; 86435948431164335000000000000; 9394843803579094300000000000; 1701596474753095800000000000; 431196340889914690000000000; 140239520047072710000000000; 55524579920571551000000000; 25784899429616133000000000; 13645549881674531000000000; 8036885263711671000000000; 5164655989148436400000000; 3561647139930879800000000; 2600056866245844400000000; 1987141556018886100000000; 1575960409510324100000000; 1287918013252699400000000; 1078592163072785000000000; 921638647513656050000000; 800762244672212830000000; 705503200827788380000000; 628924279791988920000000; 566289158023427340000000; 514279676992119160000000; 470517056326826690000000; 433260396280285520000000; 401211764772080020000000; 373387148309816890000000; 349029135883890610000000; 327546658101059040000000; 308472637744025050000000; 291433728872195330000000; 276128360549961990000000; 262310579877614600000000; 249778006594929370000000; 238362743907070630000000; 227924442737791860000000; 218344953781089940000000; 209524163623001470000000; 201376723249997650000000; 193829455805248480000000];
[2377045430576376400000000000000; 85504900746863205000000000000; 9226816993777361300000000000; 1659168890478699100000000000; 417445770495392540000000000; 134813745355379610000000000; 53012999472309210000000000; 24459682718023030000000000; 12867101697531144000000000; 7537802707879493200000000; 4821166829882401800000000; 3311319778724851200000000; 2409012278118419000000000; 1835809114171972400000000; 1452411241138983500000000; 1184536417771616000000000; 990317099710091230000000; 844987435663793550000000; 733264268678170990000000; 645358430291825640000000; 574790115194303970000000; 517143206618233020000000; 469328931856275980000000; 429136271746505440000000; 394949323493021090000000; 365564865905715100000000; 340071747561568840000000; 317769389992219850000000; 298111614050094620000000; 280667209419987140000000; 265091790532361000000000; 251107397248008770000000; 238487498116715120000000; 227045820093779350000000; 216627926881419150000000; 207104797692035950000000; 198367879753770030000000; 190325238958488950000000; 182898537514637250000000; 176020640634807930000000];
[2368540799786706700000000000000; 84590445874982694000000000000; 9062965083491324400000000000; 1618089647509485600000000000; 404225437334834290000000000; 129632630315088320000000000; 50630130224104845000000000; 23209871632940267000000000; 12136885260823869000000000; 7071848651534647200000000; 4501779899575806300000000; 3079360382144867100000000; 2232500057082009200000000; 1696329079857663000000000; 1338771355897187500000000; 1089610076070811600000000; 909379470255696180000000; 774794118835795440000000; 671518106007754590000000; 590388668973260380000000; 525352532104335810000000; 472291665187218970000000; 428330514714812130000000; 391413784683242400000000; 360041453181311680000000; 333098000530315560000000; 309739672714651490000000; 289318409387179700000000; 271329475902119040000000; 255374747692315690000000; 241136532957537650000000; 228358618549078810000000; 216832349198435340000000; 206386268102236290000000; 196878313279071860000000; 188189872329301170000000; 180221205155165330000000; 172887885188992210000000; 166118007076378390000000; 159849976923055210000000];
[2360126802016557800000000000000; 83692172979913677000000000000; 8903155849530101100000000000; 1578306924278664800000000000; 391511506629733680000000000; 124683672931753140000000000; 48368667349543275000000000; 22030804700421935000000000; 11451705230998751000000000; 6636702338113990200000000; 4204729128794383400000000; 2864373358599923800000000; 2069383129632412000000000; 1567751604561917200000000; 1234230862801685900000000; 1002436596776055500000000; 835161400989128910000000; 710508625548831260000000; 615029039079605930000000; 540145087013520020000000; 480201255367484060000000; 431357038223497230000000; 390935094022913080000000; 357024689321521360000000; 328233241345643850000000; 303526448006119680000000; 282122902700274380000000; 263423079820939590000000; 246960510566935280000000; 232367592558540680000000; 219351240028007850000000; 207675271260435010000000; 197147485717837850000000; 187610056010466880000000; 178932296472938140000000; 171005158314488080000000; 163736994615754290000000; 157050270027875950000000; 150878980848448750000000; 145166614651287770000000];
[2351801839067634000000000000000; 82809684193179221000000000000; 8747262133739214400000000000; 1539771221385637100000000000; 379281358040686060000000000; 119955078909232310000000000; 46221756572449963000000000; 20918128665418066000000000; 10808589740749812000000000; 6230212825660934200000000; 3928382476886667500000000; 2665072206712806500000000; 1918615472197824400000000; 1449204417639762500000000; 1138047110292157200000000; 922372706144232810000000; 767097624876581890000000; 651628178765874060000000; 563345243409481200000000; 494218051485018670000000; 438962065631667270000000; 393995188271903410000000; 356824357454769440000000; 325673054277758030000000; 299248317150640040000000; 276591063253707900000000; 256977566266286290000000; 239853157328765970000000; 224786701024859470000000; 211438754029595170000000; 199538913513021170000000; 188869450011200400000000; 179253310096097080000000; 170545204657395860000000; 162624907326373900000000; 155392157096607630000000; 148762739784604420000000; 142665445785212020000000; 137039686264592360000000; 131833609098500760000000];
[2343564351900854500000000000000; 81942594118342427000000000000; 8595161616740067000000000000; 1502435243616749200000000000; 367513517099857350000000000; 115435718099209640000000000; 44182964434614877000000000; 19867776971631916000000000; 10204774066893645000000000; 5850386114540959400000000; 3671231465557960700000000; 2480270787251630800000000; 1779234679911432900000000; 1339886389386899100000000; 1049539029794606000000000; 848829216878428040000000; 704670960206668980000000; 597693196695788990000000; 516054042763358580000000; 452233682549782640000000; 401293613920313070000000; 359892374454977580000000; 325708246162359220000000; 297089329230267020000000; 272835042395171730000000; 252055972588923100000000; 234081760164837010000000; 218399196762790490000000; 204609774847309550000000; 192400031642514870000000; 181520475719860670000000; 171770376139544220000000; 162986623617850900000000; 155035464120272540000000; 147806287927891090000000; 141206909290349280000000; 135159940499794950000000; 129599978851911070000000; 124471403936108490000000; 119726637823774360000000];
[2335412819412978100000000000000; 81090529357961284000000000000; 8446736603131637300000000000; 1466253788609913300000000000; 356187590853357500000000000; 111115083819011200000000000; 42246250635987101000000000; 18875949811636731000000000; 9637685537564456800000000; 5495373279371568000000000; 3431881549144624000000000; 2308875306921615100000000; 1650355151614672300000000; 1239061635335839700000000; 968081960464344770000000; 781266429193450440000000; 647408180982721260000000; 548283551379694150000000; 472778493249816630000000; 413850713803771080000000; 366884518946265430000000; 328762555003552870000000; 297322436543685830000000; 271027984436501450000000; 248764290827115740000000; 229706477702577360000000; 213233564935301390000000; 198870668363763260000000; 186249412059461520000000; 175080305371336880000000; 165133136257444460000000; 156222833993389540000000; 148199126697531430000000; 140938873008506070000000; 134340305516500780000000; 128318659303613460000000; 122802816592427250000000; 117732705505305390000000; 113057264590391400000000; 108732836137696410000000];
[2327345757259479400000000000000; 80253128061477715000000000000; 8301873817510602600000000000; 1431183641756115100000000000; 345284207436797500000000000; 106983254838120620000000000; 40405942296332690000000000; 17939095628505039000000000; 9104929579375747100000000; 5163459524955477000000000; 3209043253395696700000000; 2149876955021749700000000; 1531161839304184500000000; 1146054115756059700000000; 893102913783956050000000; 719189926691581930000000; 594876244888281690000000; 503015153642565700000000; 433174267303824420000000; 378757629812503580000000; 335450721965819310000000; 300344930169644460000000; 271426047297098010000000; 247265362161742870000000; 226827427445620930000000; 209347148936437180000000; 194249240347561000000000; 181094245266960280000000; 169541616000139030000000; 159323982287202910000000; 150228907905729500000000; 142085750226574520000000; 134756056503283710000000; 128126449897742410000000; 122103293705852410000000; 116608642759481710000000; 111577138284283060000000; 106953602381858580000000; 102691156998634830000000; 98749740110897531000000];
[2319361716721636800000000000000; 79430039492988675000000000000; 8160464210705414600000000000; 1397183476957506300000000000; 334784959326528750000000000; 103030859848316930000000000; 38656709998752811000000000; 17053893959448036000000000; 8604276815884128100000000; 4853054092538566900000000; 3001524020216740100000000; 2002345138926285700000000; 1420904514637006100000000; 1060242688288396400000000; 824076240269955800000000; 662146732874133070000000; 546678847643635830000000; 461536835764930910000000; 396926811091390220000000; 346670056249227310000000; 306733076226571100000000; 274401704020048350000000; 247799551539660720000000; 225597720937696950000000; 206834469731770520000000; 190800090717566100000000; 176961584201770090000000; 164912246396913230000000; 154337232326242110000000; 144989584749716600000000; 136673257956483390000000; 129230902994568860000000; 122534949340879650000000; 116481004768941870000000; 110982909301883960000000; 105968985408425550000000; 101379164249795770000000; 97162761038739311000000; 93276736643879467000000; 89684327180641740000000];
[2311459283615883700000000000000; 78620923617907061000000000000; 8022402775656643200000000000; 1364213762886644400000000000; 324672350026892370000000000; 99249044245787696000000000; 36993545485979286000000000; 16217239520471343000000000; 8133651135754995900000000; 4562680948706178600000000; 2808220701004902300000000; 1865421268885363300000000; 1318892509132315700000000; 981056575252878970000000; 760519663807974460000000; 609721797093809340000000; 502453275307306540000000; 423527505757410550000000; 363748751212112520000000; 317328380237241340000000; 280495150114936650000000; 250716045538746260000000; 226242875588190910000000; 205839455292358400000000; 188612414383250710000000; 173903363568234060000000; 161218439663487810000000; 150181220622163190000000; 140500602664823150000000; 131948467211617000000000; 124343882639873340000000; 117541749155068750000000; 111424516357004700000000; 105896059433063570000000; 100877094086462140000000; 96301703268458049000000; 92114677421332708000000; 88269457002862139000000; 84726525827936962000000; 81452145335985826000000];
[2303637077243592400000000000000; 77825450707574746000000000000; 7887588372410282100000000000; 1332236674414578600000000000; 314929743970343410000000000; 95629439065986644000000000; 35411740890066484000000000; 15426227438884426000000000; 7691118655519633300000000; 4290970194727990600000000; 2628112645944140400000000; 1738313046788569700000000; 1224489888386886900000000; 907971210465773930000000; 701990652117927300000000; 561534781470764390000000; 461867528571230710000000; 388693549424505830000000; 333377528715284230000000; 290495580492576330000000; 256521224977203150000000; 229090231222299720000000; 206573667657892840000000; 187821475159455980000000; 172003714615175260000000; 158509548522242690000000; 146881337660439700000000; 136770659328312120000000; 127908340647701740000000; 120083649899783870000000; 113129593385203260000000; 106912358669329160000000; 101323622171699140000000; 96274866934973897000000; 91693131917498261000000; 87517794676425725000000; 83698109531788104000000; 80191304592412270000000; 76961096775189781000000; 73976522696094681000000];
[2295893749379538100000000000000; 77043300960941419000000000000; 7755923561722831500000000000; 1301216008896988300000000000; 305541319422651440000000000; 92164131923488522000000000; 33906869385049297000000000; 14678139547709266000000000; 7274877507776318900000000; 4036650139204451600000000; 2460255340972478400000000; 1620289217332795300000000; 1137111023984884400000000; 840504433413334800000000; 648083094572325570000000; 517237122774923230000000; 424617695373083510000000; 356766458503590520000000; 305573240393319530000000; 265955248679466040000000; 234614470288404310000000; 209343952950330310000000; 188625721240249700000000; 171389730600889940000000; 156864894440842130000000; 144484441063642110000000; 133824262091977740000000; 124561825737251730000000; 116448219182693280000000; 109288758708343280000000; 102929304694213840000000; 97246446390682816000000; 92140357003630798000000; 87529520850043854000000; 83346792384166881000000; 79536415792042753000000; 76051746219138395000000; 72853489600418493000000; 69908330071362651000000; 67187850053363661000000];
[2288227983297373400000000000000; 76274164142472282000000000000; 7627314446807061000000000000; 1271117107027676400000000000; 296492024199623910000000000; 88845639819719891000000000; 32474767160396675000000000; 13970431662671286000000000; 6883248391168368000000000; 3798539981494799300000000; 2303774548112764600000000; 1510674743511660000000000; 1056216529858330900000000; 778213001381333480000000; 598424261075925180000000; 476509345539451870000000; 390425550223491840000000; 327500665078565830000000; 280116669091051550000000; 243509785045021680000000; 214595280391253190000000; 191312776367437830000000; 172247539292718500000000; 156403868771802230000000; 143065287575215150000000; 131705862872245100000000; 121932526715538210000000; 113446690363508630000000; 106018158832492390000000; 99467061614456380000000; 93651114341156240000000; 88456492326409086000000; 83791193718178524000000; 79580146222112525000000; 75761553062107923000000; 72284131875574893000000; 69105005271584052000000; 66188072660249239000000; 63502741483346401000000; 61022929639981514000000];
[2280638492830533400000000000000; 75517739235492548000000000000; 7501670522775468100000000000; 1241906777987377800000000000; 287767534015003390000000000; 85666883691274489000000000; 31111516620711204000000000; 13300721768566390000000000; 6514665823508444700000000; 3575543057652409300000000; 2157860908505131500000000; 1408846371525395800000000; 981309532666996740000000; 720689392653447560000000; 552672017983518420000000; 439058604734478060000000; 359036360537352260000000; 300671564211649290000000; 256807486386320900000000; 222978752905730800000000; 196299758436513370000000; 174846736336299400000000; 157301026619869850000000; 142736011236865260000000; 130485889721584910000000; 120062580722414400000000; 111101753586165590000000; 103326962964436660000000; 96525308096133142000000; 90530592812540433000000; 85211467463544516000000; 80462942276007200000000; 76200222014817586000000; 72354164649746205000000; 68867893145432849000000; 65694237367353931000000; 62793781276199156000000; 60133356775556180000000; 57684870848536510000000; 55424383999884476000000];
[2273124021467070300000000000000; 74773734110220331000000000000; 7378904533364758300000000000; 1213553228633272000000000000; 279354213291466300000000000; 82621164580620674000000000; 29813430724161173000000000; 12666779047426567000000000; 6167670044048384700000000; 3366640604489964500000000; 2021764970821767000000000; 1314228553122680200000000; 911932248338619220000000; 667558876188745440000000; 510512279104227370000000; 404616438213650540000000; 330216881983406090000000; 276073708326473290000000; 235462612470359600000000; 204197377930121400000000; 179578334439050040000000; 159809057226099830000000; 143660298960351240000000; 130269640818690200000000; 119018314018119550000000; 109453322847376110000000; 101236943845016420000000; 94113212219023617000000; 87885207227589659000000; 82399356567266921000000; 77534396879645101000000; 73193481491142858000000; 69298452684681126000000; 65785626716338130000000; 62602651896942159000000; 59706138439520817000000; 57059850555208186000000; 54633313098773070000000; 52400727305273736000000; 50340119413766242000000];
[2265683341476975900000000000000; 74041865205779342000000000000; 7258932334549355300000000000; 1186025996490817500000000000; 271239078278037730000000000; 79702141319430527000000000; 28577038378626463000000000; 12066513686090798000000000; 5840899515150204000000000; 3170886000973456200000000; 1894792610808168100000000; 1226289696052477900000000; 847662839262786770000000; 618476825287710870000000; 471656671732107430000000; 372936710864882850000000; 303753526439400420000000; 253519158324656820000000; 215914719398603530000000; 187015179411197090000000; 164294505531731560000000; 146074986896577760000000; 131210598326377030000000; 118898588134681500000000; 108563840345238750000000; 99785883959182664000000; 92251632488647259000000; 85724065167731047000000; 80021027988874942000000; 75000603516341726000000; 70550832669885554000000; 66582374676382149000000; 63023185517853053000000; 59814605584794577000000; 56908445961290524000000; 54264792273311582000000; 51850330837888138000000; 49637059588240372000000; 47601285665107167000000; 45722838838154303000000];
[2258315253070631300000000000000; 73321857225521299000000000000; 7141672764674944400000000000; 1159295886324646600000000000; 263409762327821860000000000; 76903809622557949000000000; 27399070820536535000000000; 11497967405563736000000000; 5533083977527406400000000; 2987399449427077000000000; 1776300810503329100000000; 1144538715745389100000000; 788112528783507370000000; 573126254674537420000000; 435840399370148830000000; 343793733965012410000000; 279450687574787790000000; 232835977738833730000000; 198010865105430220000000; 171294721860032260000000; 150323687562640300000000; 133530734235594930000000; 119847305081774390000000; 108526108865841660000000; 99032550035150209000000; 90976310912676773000000; 84067119510863566000000; 78085479170903741000000; 72862882428175625000000; 68268172817986485000000; 64197974696405737000000; 60569866261974899000000; 57317435028973636000000; 54386646145174761000000; 51733140133595925000000; 49320197844358230000000; 47117190627840218000000; 45098387669495936000000; 43242029207799827000000; 41529599785346661000000];
[2251018583587091600000000000000; 72613442845023525000000000000; 7027047520764772300000000000; 1133334910079395300000000000; 255854483199779020000000000; 74220482497915974000000000; 26276448906918057000000000; 10959304658945767000000000; 5243038016824856000000000; 2815363062045373500000000; 1665693768266003700000000; 1068521863579680700000000; 732922951603763610000000; 531215562176713360000000; 402820284392105630000000; 316980544669518940000000; 257129210391584170000000; 213866857429235790000000; 181611246690557140000000; 156910476288214110000000; 137552168149173020000000; 122072501016132870000000; 109475038099281760000000; 99064043608119456000000; 90342538289213923000000; 82948161727596819000000; 76611770499724128000000; 71130079802238848000000; 66347194403458115000000; 62141894141324778000000; 58418722313619401000000; 55101635435961623000000; 52129408704822926000000; 49452264619275300000000; 47029366673401364000000; 44826933478992096000000; 42816803690078575000000; 40975332476123223000000; 39282534615910861000000; 37721412993844421000000];
[2243792186710953100000000000000; 71916362432160996000000000000; 6914981040671570400000000000; 1108116229994482900000000000; 248562012257416160000000000; 71646771884190687000000000; 25206271256285320000000000; 10448804448772870000000000; 4969655102615300000000000; 2654016320976424900000000; 1562419313094756600000000; 997819809134430240000000; 681763720515904750000000; 492476457785319050000000; 372372975327178370000000; 292307331874759460000000; 236624992247496650000000; 196467859428580440000000; 166588062500149480000000; 143747781490700930000000; 125876152184027730000000; 111605599665047410000000; 100006835115428440000000; 90432052890981479000000; 82419197303861137000000; 75631831342741709000000; 69820380400132191000000; 64796558692672155000000; 60416128144274496000000; 56567044045767588000000; 53161156048224918000000; 50128300927758921000000; 47412032963240362000000; 44966493994069409000000; 42754088705350208000000; 40743736880562049000000; 38909544503981281000000; 37229782653686470000000; 35686095161242573000000; 34262878122437069000000];
[2236634941716641200000000000000; 71230363778683860000000000000; 6805400390767007400000000000; 1083614104709155200000000000; 241521645445748900000000000; 69177571434527740000000000; 24185803178733635000000000; 9964852718342937300000000; 4711902063935513900000000; 2502651882781361200000000; 1465965598894169000000000; 932044955707279820000000; 634330191519059610000000; 456662064344188790000000; 344293304768284520000000; 269599995882524910000000; 217787703974182230000000; 180507269540733770000000; 152824473450851410000000; 131701896500399440000000; 115200891590656360000000; 102043649288151270000000; 91363406108966414000000; 82556920615748954000000; 75194563737937726000000; 68963938076114083000000; 63633594723339023000000; 59029125884331797000000; 55017068664628491000000; 51493851793465598000000; 48378066504635119000000; 45604970994070302000000; 43122522454059061000000; 40888471081047209000000; 38868203657999067000000; 37033123720796223000000; 35359420911068401000000; 33827126080862548000000; 32419378614513112000000; 31121853049317579000000];
[2229545752738984800000000000000; 70555201842761282000000000000; 6698235158878352200000000000; 1059803838185564900000000000; 234723175935792140000000000; 66808040370069861000000000; 23212466339963509000000000; 9505935275050768300000000; 4468813968286079900000000; 2360611700409555700000000; 1375858056324688400000000; 870838970091679120000000; 590341410892000600000000; 423545175455019690000000; 318392785106459820000000; 248698830384998440000000; 200479620696631460000000; 165864549210994900000000; 140213654888082900000000; 120677136168913780000000; 105439891856526480000000; 93307842980892029000000; 83472453172688667000000; 75371919773721401000000; 68606724729225082000000; 62886765310462915000000; 57997383003550672000000; 53777011748948775000000; 50102149312368419000000; 46877050091251387000000; 44026526185520513000000; 41490834474537550000000; 39221988733367520000000; 37181061384414940000000; 35336183064378569000000; 33661041250656342000000; 32133740534025145000000; 30735928198179438000000; 29452116675380828000000; 28269153673511260000000];
[2222523548069008100000000000000; 69890638501980632000000000000; 6593417352198688500000000000; 1036661731288360100000000000; 228156868333173470000000000; 64533588332545850000000000; 22283829108000042000000000; 9070631206930747700000000; 4239489373596173000000000; 2227283437972707000000000; 1291656581694294400000000; 813870509181676700000000; 549538229169046950000000; 392916657409537780000000; 294498230391655650000000; 229457316281608310000000; 184574552865628470000000; 152429378017700370000000; 128657931038259130000000; 110586082541280650000000; 96514188537958278000000; 85326280077151598000000; 76268050934422826000000; 68816234856797268000000; 62599277190773910000000; 57347753419655733000000; 52862559773571391000000; 48994013974730074000000; 45627822170041212000000; 42675466669478628000000; 40067500311207040000000; 37748789162917177000000; 35675084706315903000000; 33810518311562121000000; 32125745385904716000000; 30596553711464649000000; 29202807858839424000000; 27927639940013803000000; 26756823015664153000000; 25678281402619021000000];
[2215567279473922000000000000000; 69236442316317967000000000000; 6490881299912710300000000000; 1014165035869261400000000000; 221813434354301160000000000; 62349861170047425000000000; 21397597535104033000000000; 8657606756536245200000000; 4023085925026596700000000; 2102097155570610900000000; 1212952944020281800000000; 760833127413541530000000; 511681568228714340000000; 364583983078914690000000; 272450493623065860000000; 211741017746134840000000; 169956868841799850000000; 140100778893337590000000; 118067984814819220000000; 101348865342366450000000; 88351687536240596000000; 78033357556039823000000; 69690082116160009000000; 62834435876081560000000; 57120835593226219000000; 52299037402359264000000; 48184348760241652000000; 44638085534381246000000; 41554467412450757000000; 38851652978657957000000; 36465493079633085000000; 34345104083282112000000; 32449681564192413000000; 30746173577497251000000; 29207558828116030000000; 27811556623356975000000; 26539649158304470000000; 25376332542614317000000; 24308537296983446000000; 23325175771097884000000];
[2208675921540340100000000000000; 68592388300620201000000000000; 6390563560294762300000000000; 992291911214425330000000000; 215684009879865360000000000; 60252727594704215000000000; 20551606930820943000000000; 8265609618986344100000000; 3818816270667178200000000; 1984522243230746200000000; 1139368392921496100000000; 711443350373895190000000; 476550828859862840000000; 338369886713806580000000; 252103309688222910000000; 195426571790262850000000; 156520601123793450000000; 128786318874943870000000; 108362136376118880000000; 92892505484608776000000; 80886563496513725000000; 71369215343014498000000; 63683723305516205000000; 57375999361373559000000; 52124583871818574000000; 47697026099599827000000; 43921986390297779000000; 40670959918440175000000; 37846038080814883000000; 35371546624051075000000; 33188226133758248000000; 31249112572896041000000; 29516575241627668000000; 27960155943906818000000; 26554971395333418000000; 25280517297081515000000; 24119762695055080000000; 23058456752393171000000; 22084592767623619000000; 21187989869411200000000];
[2201848471039784800000000000000; 67958257706163617000000000000; 6292402832049611000000000000; 971021382721129500000000000; 209760133301371860000000000; 58238266655212646000000000; 19743813985305007000000000; 7893463633503347900000000; 3625944272194246600000000; 1874064584686592000000000; 1070551451407056300000000; 665438901113937540000000; 443942427227282200000000; 314111129543995270000000; 233322235007137740000000; 180400763325629190000000; 144168629001169700000000; 118401378814258760000000; 99465684414890182000000; 85150316046121265000000; 74058711183398587000000; 65279230711812707000000; 58198976455288164000000; 52394872130597356000000; 47567867490168717000000; 43502019245730271000000; 40038361051716917000000; 37057810255691180000000; 34469737055753314000000; 32204164466706795000000; 30206346298737858000000; 28432933356987928000000; 26849219692394998000000; 25427135695958828000000; 24143765684339733000000; 22980239159346918000000; 21920891878302010000000; 20952624187020611000000; 20064405264503683000000; 19246886478709263000000];
[2195083946315606600000000000000; 67333837810875071000000000000; 6196339869679333500000000000; 950333302678456070000000000; 204033725081907850000000000; 56302755971109643000000000; 18972289405006435000000000; 7540063840064028000000000; 3443781488403808500000000; 1770263933247498700000000; 1006175878917367800000000; 622577066818050560000000; 413668449626346260000000; 291657366922158850000000; 215983675702515780000000; 166559678416462480000000; 132811931040308510000000; 108868486053187460000000; 91310304689118748000000; 78061355659543684000000; 67813245144967097000000; 59713557421698581000000; 53190242028735036000000; 47849073996834237000000; 43411822050764843000000; 39677858941447987000000; 36499684877839497000000; 33766939249362267000000; 31395723304253569000000; 29321323599574929000000; 27493159919590552000000; 25871217058243898000000; 24423484529848683000000; 23124092498278394000000; 21951936146881701000000; 20889647703636771000000; 19922819262635050000000; 19039408809082589000000; 18229281646775679000000; 17483853000166931000000];
[2188381386690458300000000000000; 66718921717823874000000000000; 6102317402671848200000000000; 930208313034276120000000000; 198497068457467930000000000; 54442660679336170000000000; 18235211025540041000000000; 7204371874909638300000000; 3271683911239638300000000; 1672691483417360200000000; 945938791156872350000000; 582633194491155720000000; 385555415802199650000000; 270870108538736810000000; 199973996815898390000000; 153807929045019200000000; 122368901384487090000000; 100116704594623460000000; 83833500787420493000000; 71569929699699360000000; 62100043393410040000000; 54626705614188701000000; 48615930073953959000000; 43700335925106806000000; 39621035167548743000000; 36191612445898291000000; 33275195114524177000000; 30769497136748284000000; 28596844741974507000000; 26697387661831997000000; 25024391373892871000000; 23540915817775699000000; 22217434802909447000000; 21030104487947820000000; 19959486759392503000000; 18989596079684969000000; 18107179471744018000000; 17301166660149650000000; 16562245869719344000000; 15882533444633156000000];
[2181739851893530200000000000000; 66113308161611867000000000000; 6010280058318120100000000000; 910627810037968620000000000; 193142791209943820000000000; 52654623047026065000000000; 17530857369080396000000000; 6885411680618535200000000; 3109048935504379300000000; 1580947623210331900000000; 889558924344327410000000; 545399305260527050000000; 359443141919958610000000; 251621763950469060000000; 185188705728156860000000; 142057943287365640000000; 112764724371965020000000; 92081077777011149000000; 76978102562481836000000; 65625135066010462000000; 56873331210330897000000; 49977158848184365000000; 44438105843589179000000; 39913770464485631000000; 36163238612040656000000; 33013283465348644000000; 30336882396948391000000; 28039225133478131000000; 26048395294176885000000; 24309036185895606000000; 22777963555586854000000; 21421073916888372000000; 20211130882740705000000; 19126156658929216000000; 18148247227719839000000; 17262688517550913000000; 16457289306442923000000; 15721872173844426000000; 15047881072873342000000; 14428075908417199000000];
[2175158421506756800000000000000; 65516801322307921000000000000; 5920174287975608500000000000; 891573910654954440000000000; 187963848447322950000000000; 50935452707600856000000000; 16857601615965399000000000; 6582265508252776100000000; 2955312544886554200000000; 1494659853298595600000000; 836775032503472320000000; 510682817741412210000000; 335183695014892690000000; 233794766319707260000000; 171531703526327060000000; 131229315322453310000000; 103930802452952210000000; 84702118897270658000000; 70691808067663912000000; 60180444727274844000000; 52091301530291658000000; 45727024975419353000000; 40622166879066151000000; 36457571566263213000000; 33009028013745067000000; 30115549370947900000000; 27659243504828477000000; 25552222054152736000000; 23727893958445087000000; 22135054881726651000000; 20733798327223581000000; 19492637482006480000000; 18386446620733485000000; 17394966770771727000000; 16501706026616326000000; 15693119948147594000000; 14957993456638832000000; 14286969541464512000000; 13672186206379165000000; 13106994106419967000000];
[2168636194429275600000000000000; 64929210646590884000000000000; 5831948296605790500000000000; 873029420655380180000000000; 182953506330790660000000000; 49282117480175568000000000; 16213905962355667000000000; 6294070190759635100000000; 2809946698267745400000000; 1413480860218557800000000; 787344407332358610000000; 478305371698434150000000; 312640431431501680000000; 217280767860350830000000; 158914598592145120000000; 121248210177256930000000; 95804232821650940000000; 77925345624630513000000; 64926765197911226000000; 55193328535056699000000; 47715768671119337000000; 41841717852217630000000; 37136548754297400000000; 33302741158429878000000; 30131607640550313000000; 27473522010034138000000; 25219056385027295000000; 23286732010617432000000; 21614883872220010000000; 20156144954032618000000; 18873635120841470000000; 17738281530524231000000; 16726904106921906000000; 15820827176589716000000; 15004858729930280000000; 14266530332735723000000; 13595524382407438000000; 12983237744429070000000; 12422445855698876000000; 11907041665778210000000];
[2162172288359417700000000000000; 64350350675782238000000000000; 5745551975422971100000000000; 854977804285119880000000000; 178105326692291840000000000; 47691734734993825000000000; 15598316337800550000000000; 6020013668350405400000000; 2672456901500670200000000; 1337086731865411900000000; 741041511030037900000000; 448101743952298930000000; 291687112383015580000000; 201979901033983210000000; 147256077175118910000000; 112046818548955220000000; 88327328576906576000000; 71700854410844139000000; 59639189569821210000000; 50624907120530855000000; 43711852466284162000000; 38289667151312477000000; 33952456924788207000000; 30422840082795146000000; 27506558007673279000000; 25064529986381959000000; 22995175430712151000000; 21222951279589087000000; 19690749569757622000000; 18354749721506523000000; 17180866033789637000000; 16142252774631673000000; 15217523510958850000000; 14389461112463636000000; 13644070229211087000000; 12969872350655440000000; 12357375061397789000000; 11798667995491162000000; 11287112048460317000000; 10817098002913567000000];
[2155765839293568900000000000000; 63780040880464248000000000000; 5660936837500466400000000000; 837403155432703940000000000; 173413152489703600000000000; 46161563270129804000000000; 15009457458416661000000000; 5759331748002131200000000; 2542379950978916100000000; 1265175304428905100000000; 697656713230905820000000; 419918849139184730000000; 272207090333037470000000; 187800100040868480000000; 136481326158546420000000; 103562857445362850000000; 81447180587623273000000; 65982931433342955000000; 54789015479953351000000; 46439635970819319000000; 40047690115898676000000; 35042053781280087000000; 31043622356522608000000; 27793761215944887000000; 25111624266415161000000; 22867920476620116000000; 20968345188255768000000; 19342852604526030000000; 17938550778235555000000; 16714896964935618000000; 15640385916764052000000; 14690226744912388000000; 13844686626771609000000; 13087892124129632000000; 12406949567221601000000; 11791291218748984000000; 11232183419721727000000; 10722352446601082000000; 10255696939363785000000; 9827064715574849400000];
[2149416001041246100000000000000; 63218105501396281000000000000; 5578055956188733200000000000; 820290170210934890000000000; 168871094050137170000000000; 44688995667039869000000000; 14446028193104705000000000; 5511305080543607000000000; 2419281836361046100000000; 1197464630772331000000000; 656995123905758020000000; 393614818533600070000000; 254092560423361280000000; 174656477608985730000000; 126521503634238200000000; 95739112750423281000000; 75115256570135468000000; 60729696909880991000000; 50339577057862437000000; 42605017037129193000000; 36694173310868308000000; 32072568643149575000000; 28386078816968138000000; 25393522790736782000000; 22926523508415056000000; 20864878824524267000000; 19121030828594775000000; 17630025354029518000000; 16342871252738868000000; 15222055574340474000000; 14238456088458315000000; 13369177926983769000000; 12596012868277917000000; 11904325428222097000000; 11282236229775146000000; 10720015528704978000000; 10209627372339179000000; 9744383126537043000000; 9318675370933971500000; 8927771520100087800000];
[2143121944755784500000000000000; 62664373396454061000000000000; 5496863906207791800000000000; 803624120876705740000000000; 164473516055009060000000000; 43271551094720806000000000; 13906797221821619000000000; 5275256340001506200000000; 2302755790771726900000000; 1133691561037714300000000; 618875514739387340000000; 369058150698760660000000; 237243871650349850000000; 162470752503778440000000; 117313253274049510000000; 88523020155494428000000; 69287034186865553000000; 55902779898743821000000; 46257316983231263000000; 39091335460527338000000; 33624708401492382000000; 29357192655896588000000; 25957959899825430000000; 23202080112942045000000; 20932769288852379000000; 19038264313574382000000; 17437263870256384000000; 16069530102165535000000; 14889681286245076000000; 13863005195509872000000; 12962580435835443000000; 12167261723872291000000; 11460246578199558000000; 10828040115597997000000; 10259696845483059000000; 9746258090901051700000; 9280329497790381000000; 8855760166935327600000; 8467396400310155100000; 8110890853636356200000];
[2136882858480035900000000000000; 62118677893331477000000000000; 5417316707283774000000000000; 787390831017042080000000000; 160215025223449820000000000; 41906868534256637000000000; 13390598966401255000000000; 5050547591005716500000000; 2192420477687966300000000; 1073610426978945400000000; 583129322092449700000000; 346126928236097550000000; 221568892930539170000000; 151170723565226380000000; 108798258826785460000000; 81866281202240859000000; 63921665251446995000000; 51467020949943577000000; 42511520367102755000000; 35871419214043851000000; 30814997579302902000000; 26873996166619999000000; 23739314027470030000000; 21201154029548237000000; 19113511824682415000000; 17372460662492645000000; 15902501778123126000000; 14647766326187013000000; 13566212654668411000000; 12625717694663100000000; 11801392772251065000000; 11073707165337776000000; 10427154616179567000000; 9849291204417897600000; 9330031339427368200000; 8861125866302374200000; 8435770461853589800000; 8048308462082314300000; 7694002966176558300000; 7368860342322638400000];
[2130697946706523200000000000000; 61580856647757039000000000000; 5339371770206406100000000000; 771576651933600500000000000; 156090458653345300000000000; 40592700397417659000000000; 12896329775784331000000000; 4836577831090750600000000; 2087918304534823600000000; 1016991822186001200000000; 549599725204556700000000; 324708095371079220000000; 206982429597643490000000; 140689786430194550000000; 100922835380314940000000; 75724511461640945000000; 58981668377298099000000; 47390200202152685000000; 39074071607485277000000; 32920419653774501000000; 28242839220833770000000; 24602956028839004000000; 21711935831899468000000; 19374074652575721000000; 17453392462852705000000; 15853239919752213000000; 14503500186445317000000; 13352352035411748000000; 12360844869690459000000; 11499249367514551000000; 10744554428526004000000; 10078719383922954000000; 9487433287016731500000; 8959220641610745000000; 8484787674322265000000; 8056538152366655100000; 7668210386175419600000; 7314601986545017500000; 6991358946084037500000; 6694812410176797800000];
[2124566429951501300000000000000; 61050751506987857000000000000; 5262987845190785200000000000; 756168440161773040000000000; 152094872781844410000000000; 39326906514723434000000000; 12422944348785448000000000; 4632780695689274000000000; 1988913853767673700000000; 963621470972021960000000; 518140793800124830000000; 304696791539613420000000; 193405686241006640000000; 130966489419571600000000; 93637554313343627000000; 70056918128243975000000; 54432647636537025000000; 43642788729357660000000; 35919232221363292000000; 30215611148458881000000; 25887945705914374000000; 22525788785011910000000; 19859212457799926000000; 17705638976348331000000; 15938411139778646000000; 14467638552444794000000; 13228196607776130000000; 12172014252530510000000; 11263001714514369000000; 10473642916759906000000; 9782661145539134200000; 9173390967063787500000; 8632623755773872700000; 8149776433943416900000; 7716284392244932900000; 7325152265541021800000; 6970617431877408400000; 6647895066177615900000; 6352982923541322400000; 6082510370362374300000];
[2118487544342424200000000000000; 60528208378357370000000000000; 5188124972433043700000000000; 741153536064275360000000000; 148223532929552920000000000; 38107448470011472000000000; 11969452378701476000000000; 4438622314501279700000000; 1895092422912707700000000; 913299179255475160000000; 488616699722275090000000; 285995736531239490000000; 180765772132688780000000; 121944125364080580000000; 86896899121593656000000; 64826004541480519000000; 50243035006042802000000; 40197721132143326000000; 33023437830017647000000; 27736208118178790000000; 23731777172416377000000; 20625798528419271000000; 18165983461360882000000; 16181981148195473000000; 14555805668308301000000; 13203844633506017000000; 12065604592411644000000; 11096489366383426000000; 10263057130762622000000; 9539838310830597800000; 8907158421846131300000; 8349621375948999900000; 7855035174582221400000; 7413639164955620700000; 7017540242217898500000; 6660296032532541000000; 6336602935297316800000; 6042059962923345400000; 5772988046995576800000; 5526290401264628300000];
[2112460541218300100000000000000; 60013077102661948000000000000; 5114744434755301000000000000; 726519743442534790000000000; 144471903394842790000000000; 36932384260065551000000000; 11534915405154645000000000; 4253599308742416100000000; 1806158665677808200000000; 865837861285379320000000; 460900987646159690000000; 268514663104885420000000; 168995245799289120000000; 113570356412069400000000; 80658949541150230000000; 59997299358408268000000; 46383854569126974000000; 37030187542721723000000; 30365112634030571000000; 25463197959708664000000; 21757389805433292000000; 18887738146175564000000; 16618413096822830000000; 14790454263626183000000; 13293941792984242000000; 12051095130080703000000; 11005717396498021000000; 10116432464119631000000; 9352249609352124400000; 8689591717490974900000; 8110264547005378400000; 7600043695736878500000; 7147674816875959400000; 6744155222146436700000; 6382210244500357500000; 6055906465714357000000; 5760362493986438800000; 5491530192716893100000; 5246027419783450500000; 5021008864941306200000];
[2106484686742488000000000000000; 59505211332182631000000000000; 5042808712240816600000000000; 712255310112460520000000000; 140835638066786630000000000; 35799863259268449000000000; 11118443859575617000000000; 4077236919534095300000000; 1721835326837157300000000; 821062636532644940000000; 434875900314808070000000; 252169793323020530000000; 158031695577780350000000; 105796869109278690000000; 74885091609448584000000; 55539108296552672000000; 42828506616301914000000; 34117443371805602000000; 27924499859806615000000; 23379188469966104000000; 19949297382842727000000; 17297682760466324000000; 15203873890508687000000; 13519522658103023000000; 12142213049570568000000; 10999582385675500000000; 10039420302073656000000; 9223334831464942900000; 8522604315099628500000; 7915401779226951400000; 7384900621422275500000; 6917958048890302600000; 6504184579210174800000; 6135276120695347100000; 5804527601992551800000; 5506474055407989800000; 5236622456438298300000; 4991249049264293800000; 4767244511829696600000; 4561994475560498200000];
[2100559261527460100000000000000; 59004468413147958000000000000; 4972281438765483200000000000; 698348909394234560000000000; 137310571527162140000000000; 34708121470555899000000000; 10719194291669823000000000; 3909087258399958800000000; 1641862064138489900000000; 778809991508010380000000; 410431754100647290000000; 236883355152933650000000; 147817353254166230000000; 98579057266432603000000; 69539751503497916000000; 51422286543041689000000; 39552569948458886000000; 31438635270505272000000; 25683506792093550000000; 21468268501075988000000; 18293344912157556000000; 15842914290149018000000; 13910840500203730000000; 12358663759550914000000; 11090949551397133000000; 10040368970486072000000; 9158410809708838700000; 8409448883298119800000; 7766862244725866100000; 7210442564051090200000; 6724626927243294400000; 6297271064401359000000; 5918783269329194800000; 5581503366214726500000; 5279250923236628400000; 5006992163881358900000; 4760591319281379100000; 4536622855010898900000; 4332228130805011800000; 4145004870865983600000];
[2094683560271104200000000000000; 58510709272452423000000000000; 4903127360336600400000000000; 684789622468604430000000000; 133892710613778260000000000; 33655477045168625000000000; 10336366765080654000000000; 3748727671482713200000000; 1565994350985288300000000; 738927001669902780000000; 387466361026837320000000; 222583136161905290000000; 138298738121688420000000; 91875730337285877000000; 64590151177076622000000; 47620030088487324000000; 36533620831724337000000; 28974641912835948000000; 23625563127985580000000; 19715880691846114000000; 16776593296497851000000; 14511816150531747000000; 12728792947080724000000; 11298278649476433000000; 10131334903855243000000; 9165310148646119500000; 8355125994792656600000; 7667719853537272300000; 7078415781485330200000; 6568502585957790000000; 6123585072741237200000; 5732440851112908200000; 5386214152310849400000; 5077838350079113600000; 4801616270612356800000; 4552911053208966500000; 4327915581297704100000; 4123478504674928200000; 3936971533051349800000; 3766187180938020600000];
[2088856891404152500000000000000; 58023798308454297000000000000; 4835312295154595200000000000; 671566921554875800000000000; 130578226419074500000000000; 32640326054839527000000000; 9969202411271877000000000; 3595759209696868800000000; 1494002454111274900000000; 701270608956792890000000; 365884493686998210000000; 209202071388328770000000; 129426329013456580000000; 85648845219146851000000; 60006083985273285000000; 44107684392383310000000; 33751067186576606000000; 26707928325275021000000; 21735491498263917000000; 18108705221906621000000; 15387214061312011000000; 13293777196296299000000; 11648128388711525000000; 10329610556802578000000; 9255330520072094300000; 8366983278789077200000; 7622676382531016900000; 6991723634083841100000; 6451250067430160700000; 5983929344344263000000; 5576445385255228600000; 5218426973706732100000; 4901697274899748300000; 4619736817259921300000; 4367293591924632100000; 4140096122102055800000; 3934639645058740800000; 3748024906726827300000; 3577835293260607400000; 3422042225942860400000];
[2083078576748332600000000000000; 57543603285684442000000000000; 4768803095317619300000000000; 658670653868304150000000000; 127363446699520420000000000; 31661138501110334000000000; 9616981131401219900000000; 3449805197589127600000000; 1425670480893576100000000; 665706950820478730000000; 345597389781757980000000; 196677862705178450000000; 121154262064354900000000; 79863259561309800000000; 55759708637179761000000; 40862568922341291000000; 31185996715555896000000; 24622412600107407000000; 19999389102604985000000; 16634553627263190000000; 14114393258944966000000; 12179104091913995000000; 10660080675769185000000; 9444670577904856900000; 8455606676024063600000; 7638623525848676700000; 6954785754939914600000; 6375610207799973100000; 5879889666838132900000; 5451578881776715000000; 5078359075562682300000; 4750644975686988400000; 4460886132011557000000; 4203067488709822900000; 3972347134091113400000; 3764789965824109800000; 3577169394587075300000; 3406817964513933200000; 3251513586991312200000; 3109392008532465900000];
[2077347951184854200000000000000; 57069995233305654000000000000; 4703567610093107500000000000; 646091026316969140000000000; 124244848672827630000000000; 30716454547461288000000000; 9279019436654301400000000; 3310509894193637700000000; 1360795491347446400000000; 632110736951897540000000; 326522293248036940000000; 184952627207452370000000; 113440052140491640000000; 74486504825680773000000; 51825359957029416000000; 37863816233416034000000; 28821037785120515000000; 22703343929985362000000; 18404519497032374000000; 15282271800348591000000; 12948243746046302000000; 11158941366219478000000; 9756647002470556600000; 8636169979496295100000; 7725479702714748200000; 6974065318008599000000; 6345736356069461200000; 5814052170719029200000; 5359350042088922100000; 4966769904987872400000; 4624914740021299700000; 4324925035269014600000; 4059828279242768200000; 3824074458606332100000; 3613199474426137000000; 3423577908733402600000; 3252239111608772500000; 3096728771701516200000; 2955003571980820800000; 2825350197390525200000];
[2071664362332876200000000000000; 56602848347169707000000000000; 4639574650684267300000000000; 633818590900447570000000000; 121219052181370970000000000; 29804880960857478000000000; 8954668418155116100000000; 3177537239646491400000000; 1299186670211540900000000; 600364670181454270000000; 308582029193788670000000; 173972572352857810000000; 106244336042643810000000; 69488577489375105000000; 48179375061698414000000; 35092224367057041000000; 26640231978792403000000; 20937190993037805000000; 16939213655774792000000; 14041651374554679000000; 11879725099799613000000; 10225198473683558000000; 8930521022224782600000; 7897458498501331800000; 7058854767065485000000; 6367689033640509300000; 5790319009855202500000; 5302197884354079800000; 4885093406680543900000; 4525242055350389500000; 4212098806303473200000; 3937474377856558300000; 3694929531420514400000; 3479343021512748600000; 3286598838425847800000; 3113356691158948100000; 2956881423970357000000; 2814914726635909100000; 2685577583134493000000; 2567295326404072800000];
[2066027170237589000000000000000; 56142039895325582000000000000; 4576793956423084700000000000; 621844230774679020000000000; 118282813201508610000000000; 28925087750172316000000000; 8643311838170091900000000; 3050569681765631400000000; 1240664554870882800000000; 570358908303506200000000; 291704610068767430000000; 163687695766525540000000; 99530635744405197000000; 64841746912341121000000; 44799933679272660000000; 32530121452797033000000; 24628917331541621000000; 19311539801763539000000; 15592779506134421000000; 12903348763342327000000; 10900570503651501000000; 9370483244938470100000; 8175031855879841100000; 7222468105397190300000; 6450173742328590500000; 5814372449405561500000; 5283787708796407100000; 4835628840495459700000; 4452988559545491300000; 4123117952666223100000; 3836259564438367500000; 3584843103118646200000; 3362921420122124300000; 3165768616085988300000; 2989589403309295800000; 2831306021531755600000; 2688400007955855400000; 2558793297413173200000; 2440757882337272500000; 2332846459347671400000];
[2060435747067579600000000000000; 55687450126840074000000000000; 4515196162324962400000000000; 610159146949410580000000000; 115433017679709540000000000; 28075804989750431000000000; 8344364334882025000000000; 2929307077212070400000000; 1185060315177333600000000; 541990563821485480000000; 275822870702392320000000; 154051507787311740000000; 93265140067255726000000; 60520378515180748000000; 41666911440274972000000; 30161241490493745000000; 22773621340151366000000; 17815000205548372000000; 14355419204715863000000; 11858811187967046000000; 10003219992189441000000; 8588041163785445700000; 7484088470893741900000; 6605661745148988400000; 5894367713575595900000; 5309446522851307600000; 4821818271505704800000; 4410320858651255700000; 4059274340705767200000; 3756868670284411600000; 3494074457488496400000; 3263893115867444000000; 3060831612971324300000; 2880528600633250400000; 2719484314127545500000; 2574862731218814700000; 2444344791806150500000; 2326018194112055700000; 2218293728072870700000; 2119841093024480600000];
[2054889476821159000000000000000; 55238962183797261000000000000; 4454752767943300500000000000; 598754845586437910000000000; 112666675677528250000000000; 27255819817116673000000000; 8057269733528752800000000; 2813465662227420800000000; 1132215081516063600000000; 515163238837616420000000; 260874130024219480000000; 145020774986421070000000; 87416503324568227000000; 56500771024205893000000; 38761745070962721000000; 27970610377531528000000; 21061962921766967000000; 16437120306574293000000; 13218153486998754000000; 10900209086161519000000; 9180759498563246700000; 7871699957724385900000; 6852128956139851800000; 6041986613240510200000; 5386813704531127300000; 4848655121190299900000; 4400470703412885400000; 4022608770621952700000; 3700526380926362800000; 3423282330619810600000; 3182520335828581300000; 2971769878274169800000; 2785957024664600300000; 2621056601867024600000; 2473841164283404900000; 2341697293597131100000; 2222489430958240100000; 2114457727048569000000; 2016140551475630600000; 1926315092738625900000];
[2049387755041329200000000000000; 54796462016349938000000000000; 4395436107465470600000000000; 587623125868614290000000000; 109980915808532510000000000; 26463973594535019000000000; 7781499457184559200000000; 2702777088294561700000000; 1081979317733576800000000; 489786592521073510000000; 246799877452346140000000; 136555283029856110000000; 81955659585669467000000; 52761006643291044000000; 36067308507652594000000; 25944441324579510000000; 19482562563618028000000; 15168308112747150000000; 12172752480307442000000; 10020374347292111000000; 8426865196837992700000; 7215819034430659800000; 6274074259301256300000; 5526831563794262300000; 4923295249082334600000; 4428118342844467400000; 4016154927872107400000; 3669154277929698600000; 3373626847686674900000; 3119435538382076900000; 2898846405932920600000; 2705876726718124600000; 2535839374347297900000; 2385019201869598000000; 2250439715043082700000; 2129692490784019000000; 2020810846604638500000; 1922175150253734300000; 1832441045090330100000; 1750484472976052600000];
[2043929988539103200000000000000; 54359838300701933000000000000; 4337219320994564100000000000; 576756068411239340000000000; 107372979951288630000000000; 25699159224770622000000000; 7516551030911027500000000; 2596987518394181200000000; 1034212235789641700000000; 465775938781960850000000; 233545482091358440000000; 128617617385541140000000; 76855651320352812000000; 49280813106027686000000; 33567799032993807000000; 24070038875921296000000; 18024959971579264000000; 13999759809572753000000; 11211672423214535000000; 9212743867998882000000; 7735752676323843500000; 6615243337954729100000; 5745285992283866400000; 5055988282728566500000; 4499966464522946400000; 4044299110091612100000; 3665599584906708300000; 3346916696220086600000; 3075736916753338700000; 2842667394488295500000; 2640549629059304200000; 2463851519958532000000; 2308242966361775900000; 2170294749769570100000; 2047261649265404200000; 1936924031306744500000; 1837470638313735700000; 1747410807838382200000; 1665507988449384900000; 1590728853415492600000];
[2038515595124882600000000000000; 53928982359904903000000000000; 4280076326963965700000000000; 566146024188968340000000000; 104840218223437860000000000; 24960318612013594000000000; 7261946673421239700000000; 2495856779831996800000000; 988781249223632470000000; 443051871957013460000000; 221059923025307280000000; 121172960494836340000000; 72091471284513081000000; 46041436647782720000000; 31248632610145320000000; 22335710816602479000000; 16679538584339594000000; 12923394086152556000000; 10327997782769814000000; 8471307966556702100000; 7102130525636795400000; 6065261236097050000000; 5261527945119921100000; 4625615891633759900000; 4113319314289594000000; 3693972740040999700000; 3345823622101874200000; 3053126326580926100000; 2804271723156368500000; 2590555856964900700000; 2405352347467955700000; 2243545406584776100000; 2101134491751354400000; 1974954104158681200000; 1862472173333066800000; 1761642940035524000000; 1670798198832828800000; 1588565917676188900000; 1513808650769112300000; 1445576436047139600000];
[2033144003347620600000000000000; 53503788087359361000000000000; 4223981795634570300000000000; 555785603952854760000000000; 102380084202779120000000000; 24246440259490432000000000; 7017231970789981700000000; 2399157569891957800000000; 945561462736946920000000; 421539918477703240000000; 209295539123710170000000; 114188904137435320000000; 67639916599622076000000; 43025525016188911000000; 29096347659519162000000; 20730687309228499000000; 15437456373966078000000; 11931791999092322000000; 9515388305075213800000; 7790563234537136100000; 6521157941357245800000; 5561566084744068800000; 4818930980753221800000; 4232208677855854500000; 3760153775890862100000; 3374199227454725400000; 3054110426968908800000; 2785260217209992300000; 2556877567662554500000; 2360896236352447300000; 2191181936037419400000; 2043003519023938600000; 1912664666398338900000; 1797243130013655500000; 1694403298303716100000; 1602259558094313000000; 1519275374982145600000; 1444187842061222700000; 1375950625768868500000; 1313690363390287100000];
[2027814652241501600000000000000; 53084151872913694000000000000; 4168911123626766300000000000; 545667668113487110000000000; 99990130382088643000000000; 23556556995816085000000000; 6781974627103498100000000; 2306674710830425800000000; 904435195388302570000000; 401170212643401080000000; 198207796900560120000000; 107635275819071720000000; 63479454063231067000000; 40217019710930722000000; 27098516585651999000000; 19245046658656678000000; 14290582403013980000000; 11018141902519332000000; 8768030574998791600000; 7165469441144823800000; 5988406009984955700000; 5100221146234565000000; 4413961012169197300000; 3872566673413375600000; 3437550655162458000000; 3082297996851770900000; 2787984272675844100000; 2541020100225053000000; 2331411175108758700000; 2151681632407760700000; 1996152295519252900000; 1860447418938510100000; 1741151538479167400000; 1635566789997962300000; 1541538646770695200000; 1457329005339130500000; 1381522532875789700000; 1312956708814408900000; 1250668966959620400000; 1193856330698090500000];
[2022526991079888800000000000000; 52669972531460196000000000000; 4114840409441747500000000000; 535785317067480960000000000; 97668003845179682000000000; 22889743822634125000000000; 6555763287278876200000000; 2218204450967680200000000; 865291535079393670000000; 381877194762583740000000; 187755075078713930000000; 101483978103815550000000; 59590095805241726000000; 37601056710014797000000; 25243664419373024000000; 17869647153524538000000; 13231438653457962000000; 10176189012959309000000; 8080593697580745700000; 6591410139166999000000; 5499822342735354800000; 4677627567335273900000; 4043389789816189400000; 3543768830084723100000; 3142846811132992200000; 2815824903100040300000; 2545188869573619400000; 2318312307836625000000; 2125920819389051800000; 1961085136424503700000; 1818547020379444900000; 1694259134809129000000; 1585065313190110900000; 1488474684658404000000; 1402499645980130000000; 1325537971514446100000; 1256285898725222500000; 1193673258866355300000; 1136814503867200300000; 1084971336752575100000];
[2017280479136288900000000000000; 52261151233931385000000000000; 4061746429928944700000000000; 526131881945799070000000000; 95411442152427859000000000; 22245115876553717000000000; 6338206427596213600000000; 2133553808856833700000000; 828025922175531660000000; 363599330054586820000000; 177898464615548340000000; 95708839897656280000000; 55953284475883726000000; 35163875000520997000000; 23521193993188723000000; 16596064479934998000000; 12253146683963796000000; 9400189214865889100000; 7448188747236370700000; 6064156652092324200000; 5051698770845034000000; 4290495148385086900000; 3704268251387995700000; 3243148560504601400000; 2873612576858399200000; 2572551279509829100000; 2323667833627442200000; 2115229489773891500000; 1938629146647194800000; 1787443639427673000000; 1656804089358834100000; 1542966646992392300000; 1443014556568364700000; 1354647909325447900000; 1276032980513520300000; 1205692714467616000000; 1142426058295808800000; 1085247807736104300000; 1033343230653489200000; 986033468480189400000];
[2012074585452101000000000000000; 51857591440603954000000000000; 4009606617658355500000000000; 516700915763508170000000000; 93218269424662289000000000; 21621826498822194000000000; 6128931309777957300000000; 2052539957717888100000000; 792539760260539350000000; 346278846823963580000000; 168601583041132080000000; 90285478768154401000000; 52551787216705360000000; 32892732287583786000000; 21921317116118023000000; 15416534245052571000000; 11349378709722855000000; 8684866746429669700000; 6866331661485971200000; 5579835149886542000000; 4640641834695677800000; 3935815658843812300000; 3393902208012913100000; 2968271435597891100000; 2627631180765925700000; 2350444850467718600000; 2121546899857493200000; 1930033969924338500000; 1767917543465349200000; 1629243100983045600000; 1509501940685999500000; 1405230688723265900000; 1313733652839771600000; 1232887107608317200000; 1160999189442615100000; 1096708154952530300000; 1038907508820746700000; 986690218673532500000; 939306668585852500000; 896132624271320770000];
[2006908788610925800000000000000; 51459198836621717000000000000; 3958399039158639700000000000; 507486184951666790000000000; 91086392614960804000000000; 21019065406575692000000000; 5927582994721477000000000; 1974989647517545400000000; 758740052168415990000000; 329861492529951750000000; 159830402048054670000000; 85191173456774273000000; 49369597725919414000000; 30775827306488061000000; 20434991258467359000000; 14323899187194941000000; 10514312733540832000000; 8025375436202483900000; 6330909283900930500000; 5134896546394456900000; 4263545823447003800000; 3610838476060939100000; 3109830160914608200000; 2716914847338635500000; 2402879990511929100000; 2147652342054718200000; 1937117724354869800000; 1761142594765575500000; 1612311910696311200000; 1485105146531768200000; 1375346806421116200000; 1279832743506095000000; 1196071401177784600000; 1122101612348867000000; 1056362303395451300000; 997597967675285330000; 944789166922912630000; 897100794626231880000; 853843112872184290000; 814442089646356490000];
[2001782576519211800000000000000; 51065881269653389000000000000; 3908102373983708800000000000; 498481661253054820000000000; 89013797958484370000000000; 20436056959886821000000000; 5733823412243854700000000; 1900738662254445400000000; 726539059566857520000000; 314296306475528290000000; 151553087353040090000000; 80404745806581005000000; 46391845784579011000000; 28802228209658388000000; 19053861297574244000000; 13311560684535383000000; 9742591388385989200000; 7417263189307952600000; 5838148286477346300000; 4726088974586623600000; 3917568143189092800000; 3313048343747112900000; 2849803060848463400000; 2487049462814152500000; 2197513417255078200000; 1962483639021243800000; 1768823132505545100000; 1607112939462444700000; 1470469716187964300000; 1353774873133883100000; 1253161191812066100000; 1165664130221163600000; 1088980648164985200000; 1021299574868840100000; 961180426539421420000; 907465577432513320000; 859215744944933550000; 815662004722319180000; 776169682609865410000; 740210886864623410000];
[1996695446193035000000000000000; 50677548689603332000000000000; 3858695894572240800000000000; 489681513964403360000000000; 86998547591043479000000000; 19872058519179715000000000; 5547330483433165200000000; 1829631310175659500000000; 695853984490475410000000; 299535407934718750000000; 143739849925114140000000; 75906451388762407000000; 43604713660694834000000; 26961806543330251000000; 17770205912684216000000; 12373434207047803000000; 9029284180414296600000; 6856439447804896500000; 5384586724949561100000; 4350432617080591800000; 3600106811065592700000; 3040145064556616600000; 2611765839232889400000; 2276822311048765600000; 2009847332719121000000; 1793397350078128300000; 1615243683853449200000; 1466630749595793400000; 1341168211106850300000; 1234109754389131900000; 1141873395908628700000; 1061716077164157400000; 991508861705163260000; 929578992402980010000; 874597177178692750000; 825495977542417090000; 781409916125683420000; 741630968706029120000; 705575100070876040000; 672756827291856640000];
[1991646903550807800000000000000; 50294113090298487000000000000; 3810159446866370300000000000; 481080102508703370000000000; 85038776327619402000000000; 19326358887913635000000000; 5367797292420595100000000; 1761519944804882600000000; 666606671335324410000000; 285533798623892140000000; 136362807743928480000000; 71677878167376633000000; 40995358854931302000000; 25245176368154036000000; 16576888251155957000000; 11503908386089397000000; 8369852847838096300000; 6339145373340259400000; 4967048001831474400000; 4005196688721763600000; 3308779890549647000000; 2790024957529112900000; 2393840555034574000000; 2084541358135684000000; 1838344864595820100000; 1638987655828597400000; 1475085435678681300000; 1338498507489579300000; 1223293704988487600000; 1125069545201037200000; 1040507979102993300000; 967070695224747290000; 902789560726678580000; 846119551839687070000; 795833908557470530000; 750948295355641220000; 710665196360285110000; 674332629795936450000; 641413132331109990000; 611460201896791380000];
[1986636463211720300000000000000; 49915488453076626000000000000; 3762473431657273000000000000; 472671969322008800000000000; 83132688592554002000000000; 18798276835743063000000000; 5194931304591999900000000; 1696264514806129100000000; 638723327931655340000000; 272249178503167990000000; 129395857315279810000000; 67701852593186511000000; 38551842694252155000000; 23643638114177145000000; 15467310519365053000000; 10697807403254594000000; 7760119575096453100000; 5861926521762041800000; 4582617031397431000000; 3687878385669627600000; 3041406699222662000000; 2560763926032049100000; 2194311015259407900000; 1908661439060796700000; 1681603447834267500000; 1497972324920238500000; 1347168797961770200000; 1221625022108548300000; 1115831804118504000000; 1025707096047768400000; 948177091828254280000; 880892768579648360000; 822034522825734020000; 770175215367326260000; 724182638632066990000; 683149036521600660000; 646339476909034060000; 613153552821769510000; 583096634411528010000; 555758051196843870000];
[1981663648299736300000000000000; 49541590692204996000000000000; 3715618786626968200000000000; 464451833039965410000000000; 81278555493588313000000000; 18287159697651754000000000; 5028453628448622000000000; 1633732140840192600000000; 612134264409462450000000; 259641773968411860000000; 122814554229385970000000; 63962352564818001000000; 36263064319160701000000; 22149126793865799000000; 14435372180249770000000; 9950356425071444500000; 7196237823820728800000; 5421607799042465800000; 4228618418552516000000; 3396183631551443200000; 2795990635153017100000; 2350601995422204400000; 2011608739469231600000; 1747771426293247300000; 1538343020284927700000; 1369181794239398300000; 1230418382045596000000; 1115015950600775600000; 1017858526466428600000; 935159994605021500000; 864072586432768260000; 802422288700336920000; 748526699093392430000; 701067480417142280000; 658999624089050690000; 621485945943986910000; 587849148440924450000; 557536290295054570000; 530092138693576580000; 505138961375489190000];
[1976727990252953600000000000000; 49172337602061298000000000000; 3669576969057082200000000000; 456414581970054560000000000; 79474712032367232000000000; 17792382044828009000000000; 4868098318504701300000000; 1573796717695077000000000; 586773648661868770000000; 247674177563003530000000; 116596002101443740000000; 60444426739086852000000; 34118699646267896000000; 20754164227305220000000; 13475431465627193000000; 9257149832939325200000; 6674665562241081200000; 5015270505843979500000; 3902596479739092800000; 3128009465953203000000; 2570703481421573900000; 2157929192021315600000; 1844300150196240800000; 1600582525865749800000; 1407395261111008700000; 1251549218293826100000; 1123853754078544000000; 1017765167839181100000; 928532214232021960000; 852642960004916130000; 787458841324930750000; 730967664223710800000; 681613771817568620000; 638179252465527910000; 599699519805037010000; 565402429042789280000; 534663762263941310000; 506974264334335650000; 481914940448921910000; 459138338197491270000];
[1971829028638164600000000000000; 48807648806011529000000000000; 3624329939176633300000000000; 448555267836252220000000000; 77719554444435404000000000; 17313344423300581000000000; 4713611716775526300000000; 1516338540086800700000000; 562579277295220810000000; 236311198402070960000000; 110718749283768890000000; 57134119712476761000000; 32109144921086136000000; 19451814961684855000000; 12582269935406082000000; 8614122018606214000000; 6192140693111567700000; 4640231294494962600000; 3602296948817781500000; 2881427933939915600000; 2363871060608204900000; 1981272646283444500000; 1691074881561951400000; 1465917601366399400000; 1287693779434048200000; 1144101401415422600000; 1026581012304487300000; 929046907847835250000; 847086172191723150000; 777440921778291020000; 717666232916680300000; 665899545367136450000; 620702296610010570000; 580949274865479570000; 545750070319351560000; 514392482102727860000; 486301179559599750000; 461007117147676440000; 438124633935404580000; 417334114800515860000];
[1966966310970443000000000000000; 48447445706922198000000000000; 3579860144122289200000000000; 440869099783494050000000000; 76011537662139567000000000; 16849472156592724000000000; 4564751830564744600000000; 1461243950634246300000000; 539492361032572050000000; 225519722560651670000000; 105162692784756520000000; 54018402632724658000000; 30225464506438445000000; 18235645592849622000000; 11751059837824481000000; 8017520534621765300000; 5745658497093809800000; 4294022877163293300000; 3325650224370666800000; 2654671347548000100000; 2173960122243985800000; 1819284813318655200000; 1550735107917145800000; 1342701435098657600000; 1178265168925391000000; 1045950534139855600000; 937785114528733830000; 848108607851153320000; 772821966515944840000; 708902721678396140000; 654085196742837350000; 606645207144016820000; 565252375832686900000; 528867064971886130000; 496667284774634930000; 467996085176949890000; 442323163948189270000; 419216487117062480000; 398321057697377660000; 379342853483555380000];
[1962139392537604900000000000000; 48091651439247035000000000000; 3536150502485666400000000000; 433351438629961320000000000; 74349172894211229000000000; 16400214208872310000000000; 4421287744404033000000000; 1408405008611314600000000; 517457323609287320000000; 215268582731546250000000; 99908988872269210000000; 51085108833501414000000; 28459342579895514000000; 17099687220259621000000; 10977334045005259000000; 7463881406724434800000; 5332450923962306100000; 3974376337744135700000; 3070756027211994600000; 2446118801373735500000; 1999566356440694000000; 1670732713315517300000; 1422185802984605300000; 1229951843713525500000; 1078220851562263200000; 956286662150871370000; 856722888698507400000; 774264391917290960000; 705103324623912820000; 646435382175678330000; 596160824450235020000; 552683440702672100000; 514772815036104020000; 481468310454690800000; 452011051217371730000; 425795015274598140000; 402331376806391320000; 381222171472347630000; 362140611510549430000; 344816205282281860000];
[1957347836229380900000000000000; 47740190822630540000000000000; 3493184389423485500000000000; 425997791355823560000000000; 72731025316148780000000000; 15965042105284756000000000; 4282999064133375400000000; 1357719178172439600000000; 496421613266407770000000; 205528436508904000000000; 94939969878178245000000; 48322874116533549000000; 26803038439424492000000; 16038400788335238000000; 10256958356614248000000; 6950006431169402500000; 4949967578106931000000; 3679204912528324200000; 2835869348161559500000; 2254283834588055200000; 1839403436221141000000; 1534488102956082900000; 1304425847884004300000; 1126771572949092200000; 986749640603413810000; 874370822578045960000; 782716665551535410000; 706889136838145630000; 643350582005625000000; 589498890498858620000; 543387948184519560000; 503539906716788340000; 468816718519276390000; 438330683899648640000; 411381150180704360000; 387409041429308310000; 365963738478371620000; 346678640123268870000; 329252910862866850000; 313437694453006790000];
[1952591212371154500000000000000; 47392990316973381000000000000; 3450945622307505600000000000; 418803805817636190000000000; 71155711865838238000000000; 15543448906350152000000000; 4149675391236260800000000; 1309089034833827100000000; 476335526009458460000000; 196271652700074720000000; 90239066756885980000000; 45721081334390518000000; 25249345140127805000000; 15046645087026184000000; 9586105981358999400000; 6472942294701321600000; 4595858257719045000000; 3406589116189615100000; 2619387576430100900000; 2077803141024210000000; 1692292999568636500000; 1409518496713538900000; 1196539913615676000000; 1032340902790996800000; 903110959064576300000; 799528788263298700000; 715148477759997750000; 645413068047658870000; 587035626818079270000; 537601451721218780000; 495306668296978840000; 458782908941733200000; 426977484116817650000; 399070037618369920000; 374413631133842000000; 352492466760172120000; 332891121899409280000; 315271868469443330000; 299357747997371370000; 284919798011684790000];
[1947869098562126900000000000000; 47049977978906778000000000000; 3409418446892134200000000000; 411765265678132720000000000; 69621899139153395000000000; 15134948233487992000000000; 4021115825661600100000000; 1262421989073024700000000; 457152039857917190000000; 187472205111280130000000; 85790736983978924000000; 43269808953767231000000; 23791551206740385000000; 14119647202679117000000; 8961234021612125800000; 6029961368337135600000; 4267956918861281800000; 3154763100116622500000; 2419838708369265100000; 1915426237489582100000; 1557155489963758300000; 1294878964031883400000; 1097691050139537700000; 945910900451329800000; 826628655642956040000; 731145365915717870000; 653454774978440980000; 589316838073991630000; 535677297499405970000; 490295168595942040000; 451498284289043710000; 418019549855979950000; 388885160950062850000; 363336944061835290000; 340777518708910990000; 320730985829001640000; 302814348218954960000; 286716459961112140000; 272182331388629730000; 259001293220540720000];
[1943181079517761800000000000000; 46711083419625037000000000000; 3368587523978722400000000000; 404878085541668040000000000; 68128301380563828000000000; 14739073342905134000000000; 3897128495474420200000000; 1217630025984300300000000; 438826659364036900000000; 179105573292501390000000; 81580397411946090000000; 40959783303612984000000; 22423405186599291000000; 13252975227029199000000; 8379061800702418000000; 5618544038456784100000; 3964266946432514300000; 2922102139704452500000; 2235870544930002600000; 1766006008217363700000; 1433001781247823600000; 1189704634870025500000; 1007113920164503700000; 866797264106608740000; 756685365202954330000; 668659198903294030000; 597121608737987280000; 538127044291961770000; 488837192680051470000; 447172109668154470000; 411581592544551680000; 380892233765623400000; 354203137179483870000; 330813550386989380000; 310171818638475270000; 291838828497286270000; 275461456796622360000; 260753031865043950000; 247478778108427270000; 235444848408205690000];
[1938526746916383300000000000000; 46376237764027706000000000000; 3328437916556407700000000000; 398138306286047160000000000; 66673678564044499000000000; 14355376245242365000000000; 3777530111779820800000000; 1174629459996846700000000; 421317269729263570000000; 171148649763827770000000; 77594361728307369000000; 38782334235047259000000; 21139082826234624000000; 12442513047521194000000; 7836550885492652100000; 5236362449995392500000; 3682947623932480500000; 2707111155987855900000; 2066240794021423200000; 1628490050462038800000; 1318925519103828400000; 1093203852004246900000; 924108621212993810000; 794374705385293320000; 692717365637065050000; 611558029826237650000; 545680245254991340000; 491412146627634480000; 446115856340678920000; 407860730668403460000; 375209517702303680000; 347075485893805800000; 322625127794984740000; 301210718593168630000; 282322796082844140000; 265556164120499980000; 250585224475496430000; 237145840125169950000; 225021835882967970000; 214034834772945770000];
[1933905699249794900000000000000; 46045373611124625000000000000; 3288955077400319900000000000; 391542090581932670000000000; 65256834559835720000000000; 13983426868526033000000000; 3662145547460915000000000; 1133340703727713600000000; 404583999892566440000000; 163579653279659910000000; 73819782187752992000000; 36729353940830978000000; 19933156671695251000000; 11684437056296888000000; 7330886668859622300000; 4881265546881357500000; 3422301702985957600000; 2508414185014873100000; 1909808001133539000000; 1501912752714978100000; 1214096117332672400000; 1004651913874469000000; 848035044492626000000; 728071823196577760000; 634209887198268520000; 559374382019125750000; 498703167977703020000; 448778749402532540000; 407149304505414560000; 372022617354684140000; 342066047524153900000; 316273058834797980000; 293872435206677310000; 274265425250524670000; 256981501520793570000; 241646742310068630000; 227960911335782760000; 215680621419059150000; 204606813774225400000; 194575338873891740000];
[1929317541677798000000000000000; 45718424995659090000000000000; 3250124837108835300000000000; 385085718591463920000000000; 63876615382839982000000000; 13622812262112800000000000; 3550807438361162500000000; 1093688050101787400000000; 388589094007751590000000; 156378047718769720000000; 70244595314145294000000; 34793258701359188000000; 18800567908330993000000; 10975194628165434000000; 6859461387696050900000; 4551265304348149400000; 3180763981874388700000; 2324744715691027200000; 1765523238139633600000; 1385388042925898900000; 1117752352474328700000; 923385356676636030000; 778307723635116260000; 667366425684520560000; 580692834300451120000; 511681622773191260000; 455800435112305550000; 409868214721771690000; 371605862796302800000; 339349520845872910000; 311863443843910570000; 288215300350358180000; 267691457876283500000; 249738397210070780000; 233921521644105520000; 219895748667058160000; 207384212219612030000; 196162632519865410000; 186047702352995710000; 176888357381210800000];
[1924761885886486500000000000000; 45395327350905915000000000000; 3211933392562319900000000000; 378765583838117580000000000; 62531907518665407000000000; 13273135839447621000000000; 3443355805625339400000000; 1055599466927358800000000; 373296790766532430000000; 149524466217491700000000; 66857471290635325000000; 32966953341838168000000; 17736600270114955000000; 10311484229798825000000; 6419858462150110400000; 4244524056437487900000; 2956890809909400700000; 2154936823528456700000; 1632422486181423800000; 1278102749512007200000; 1029196505225581400000; 848796728887859230000; 714391130489960910000; 611781260911429920000; 531736883335698280000; 468090374387868200000; 416616360480605470000; 374353577737464030000; 339183286937663460000; 309560659104792700000; 284339704664602590000; 262656758847574510000; 243851424480981480000; 227411961836325610000; 212936934755428840000; 200107855866059990000; 188669395214306110000; 178414868897191810000; 169175465987870180000; 160812157350527720000];
[1920238349950209300000000000000; 45076017472603525000000000000; 3174367295786658600000000000; 372578189240243290000000000; 61221636323539393000000000; 12934016657580517000000000; 3339637697992047200000000; 1019006403168361400000000; 358673210061056380000000; 143000640190458680000000; 63647766776861439000000; 31243798201635509000000; 16736855861812188000000; 9690237033354163700000; 6009838051083219100000; 3959342829976431800000; 2749350441428452900000; 1997917033866705100000; 1509619654012145000000; 1179310522864603100000; 947789001579864240000; 780329815501341820000; 655795378923483750000; 560880120355386900000; 486949923293096640000; 428245242181794340000; 380826488893291570000; 341936736782327920000; 309606140812458940000; 282400260607814190000; 259256254728726340000; 239374005024296420000; 222142333148201920000; 207088092258587870000; 193840452040095330000; 182105452261721390000; 171647610003867080000; 162276446147072740000; 153836491469791050000; 146199786825275420000];
[1915746558197080100000000000000; 44760433483979865000000000000; 3137413443205545200000000000; 366520143301062350000000000; 59944764494513571000000000; 12605088731503900000000000; 3239506852903919900000000; 983843606203174300000000; 344686246513843660000000; 136789332908416710000000; 60605480911327367000000; 29617578431840393000000; 15797232749467827000000; 9108599917794153800000; 5627323727227483100000; 3694150603609602400000; 2556914169551209100000; 1852696853740280300000; 1396300178172987700000; 1088326269562958100000; 872943510697417180000; 717475272978696370000; 602072301004159480000; 514264282478533840000; 445973808910868800000; 391821831344080680000; 348134839800051210000; 312345893791981380000; 282623408959183210000; 257635328401110480000; 236395843938308460000; 218163650119880550000; 202373077159966450000; 188586629913362560000; 176461727782461440000; 165727031819718190000; 156165350562942130000; 147601129345540130000; 139891178640409140000; 132917721967422110000];
[1911286141077931700000000000000; 44448514801834335000000000000; 3101059065266223000000000000; 360588156448272860000000000; 58700290606570499000000000; 12286000381482690000000000; 3142823375370486300000000; 950048949405527250000000; 331305469434982560000000; 130874277325954700000000; 57721214274755495000000; 28082475450958444000000; 14913904185892831000000; 8563919750434146600000; 5270390183327203300000; 3447494417158988200000; 2378448175657589300000; 1718365916698794200000; 1291715155948964600000; 1004521055615333900000; 804122460240598410000; 659766639330517120000; 552811863082789070000; 471569266513330240000; 408481398778470320000; 358524027011459220000; 318271395324002270000; 285333222639996090000; 258006322477848000000; 235053604711280250000; 215560634867749460000; 198840542983265400000; 184369740216126050000; 171743668265021120000; 160645823141955690000; 150825730654479840000; 142083058088738200000; 134255996786645580000; 127212660008043670000; 120844638185281170000];
[1906856735038613700000000000000; 44140202103639262000000000000; 3065291716424083400000000000; 354779037516736620000000000; 57487247713420419000000000; 11976413611652534000000000; 3049453433582954000000000; 917563269425559850000000; 318502028796045690000000; 125240117873577590000000; 54986130606568276000000; 26633040401474763000000; 14083299348141096000000; 8053728849752388800000; 4937251887710425500000; 3218030262717086100000; 2212906035879758400000; 1594085689578885600000; 1195175966227704300000; 927317438800947010000; 740832933310481230000; 606776686840407190000; 507638892127624050000; 432461869248123280000; 374173853250871520000; 328081514237697980000; 290989810923575180000; 260672745016789990000; 235546379206002260000; 214461718067545900000; 196570462309283610000; 181236129783382880000; 167974045882615000000; 156410083058931880000; 146251809507506700000; 137267996800782130000; 129273851357205270000; 122120225806761500000; 115685637529696780000; 109870293878762630000];
[1902457982395528400000000000000; 43835437295625355000000000000; 3030099265472073100000000000; 349089690368025200000000000; 56304702008942449000000000; 11676003518258257000000000; 2959268970340257300000000; 886330212588703490000000; 306248566837717520000000; 119872355948561900000000; 52391921081775677000000; 25264169461835896000000; 13302085473470372000000; 7575731538321381200000; 4626252614310273800000; 3004514694501996400000; 2059321830782269200000; 1479083694520818600000; 1106049337203163200000; 856185193615338680000; 682622914225503810000; 558114087779592540000; 466210085274449930000; 396637459993983940000; 342778169265113000000; 300247516598598880000; 266065328869059650000; 238158395309880640000; 215053540747283320000; 195683496520364240000; 179261249333874030000; 165196961653340110000; 153041947247674540000; 142450195794643380000; 133151498724188340000; 124932381068147730000; 117622372862375390000; 111083989524013420000; 105205325822341540000; 99894516467948199000];
[1898089531214312600000000000000; 43534163481817618000000000000; 2995469886201578300000000000; 343517110640914410000000000; 55151751546384812000000000; 11384457725996345000000000; 2872147429402232900000000; 856296089867123600000000; 294519134953771140000000; 114757298857607320000000; 49930770969543774000000; 23971080879311685000000; 12567151289030702000000; 7127791701911413000000; 4335855778192163300000; 2805797099659239100000; 1916803808876295900000; 1372648203451557100000; 1023752823357215600000; 790637395453831740000; 629077853217191810000; 513420366043004410000; 428211277922461110000; 363817511102772090000; 314044931178908590000; 274796734067354090000; 243292876490944500000; 217602257605279160000; 196354590501386820000; 178558432021770020000; 163483565753544950000; 150583336893035520000; 139442344078700440000; 129740558318478790000; 121228288644683140000; 113708437937001560000; 107023740162779430000; 101047454345256610000; 95676492051930131000; 90826281320386238000];
[1893751035191564600000000000000; 43236324933989155000000000000; 2961392048381928000000000000; 338058382627183320000000000; 54027525012586057000000000; 11101475851010530000000000; 2787971495938417900000000; 827409739912928960000000; 283289115517826360000000; 109882011981504770000000; 47595328507658709000000; 22749293599262434000000; 11875591638582127000000; 6707921277429553900000; 4064635513184003800000; 2620812576922315100000; 1784528558708974300000; 1274123365850627300000; 947750657343225280000; 730226833528782620000; 579817522705110530000; 472367109994768770000; 393354947868410500000; 333747343400452090000; 287746258600058980000; 251523462517447890000; 222485332768291590000; 198832959442483790000; 179291638269359040000; 162940282379333280000; 149101316147077420000; 137268065566964640000; 127055915926486650000; 118168847536140210000; 110376113511021070000; 103495726463968340000; 97382592826553733000; 91919869022825186000; 87012583643223357000; 82582875054556884000];
[1889442153539536700000000000000; 42941867062501558000000000000; 2927854509046285200000000000; 332710676267348470000000000; 52931180554621498000000000; 10826768989170467000000000; 2706628850290505300000000; 799622399674629580000000; 272535148341513010000000; 105234273948019360000000; 45378675839079504000000; 21594607375631833000000; 11224693216969619000000; 6314269598440261700000; 3811268433295866300000; 2448575374379798700000; 1661735648020565000000; 1182904733904766500000; 877549945313588230000; 674542724630314940000; 534493140175303730000; 434653423961784960000; 361377934942905350000; 306194067717314130000; 263673933860110220000; 230239878779010940000; 203471948292287260000; 181694208332325390000; 163720758304749330000; 148695798420495540000; 135990545771370770000; 125135345436015900000; 115774060672729440000; 107632860246783640000; 100498489628763440000; 94202902079904138000; 88612226245551493000; 83618736887644525000; 79134935766008494000; 75089135479857148000];
[1885162550873700800000000000000; 42650736388001936000000000000; 2894846304072187300000000000; 327471244261217870000000000; 51861904656412184000000000; 10560059228339427000000000; 2628011934312824300000000; 772887582148413510000000; 262235061473288590000000; 100802534614005890000000; 43274301867856709000000; 20503084256066646000000; 10611921329925059000000; 5945113532608172800000; 3574526024289037800000; 2288172841573233200000; 1547722691898755700000; 1098435152167731300000; 812697176901026900000; 623207702228343560000; 492784734842990690000; 400003597776412100000; 332039357410418840000; 280944705353475910000; 241637693320546750000; 210774476603203200000; 186096904975523890000; 166043458299944680000; 149510748860899350000; 135703565118236540000; 124038353735989860000; 114079739164030860000; 105497928970333520000; 98039599009648409000; 91507647665186716000; 85746890996666995000; 80633804387288020000; 76069063652191275000; 71972051291155788000; 68276761144201758000];
[1880911897103094700000000000000; 42362880513947552000000000000; 2862356740045480600000000000; 322337419288380490000000000; 50818911062958332000000000; 10301079183407942000000000; 2552017729598535300000000; 747160960843887370000000; 252367806066350170000000; 96575875671522315000000; 41276076901949597000000; 19471031342986034000000; 10034907603070206000000; 5598848350549403700000; 3353267616046674300000; 2138759854797116300000; 1441840815007861100000; 1020200981596798000000; 752775023502845870000; 575875057595579310000; 454398737249234580000; 368164975559843520000; 305118708034047340000; 257804471828165670000; 221463668098248110000; 192970640190373570000; 170218003093411780000; 151750694855613650000; 136542002358044630000; 123852946442499410000; 113141903778060700000; 104005243650903740000; 96137545892913688000; 89304440781031830000; 83323743692963587000; 78052139694885254000; 73375644278722678000; 69202673873540253000; 65458946580042176000; 62083684105894721000];
[1876689867323387800000000000000; 42078248099930464000000000000; 2830375386396919100000000000; 317306611333986680000000000; 49801439749980187000000000; 10049571552937947000000000; 2478547546940093200000000; 722400260570224350000000; 242913395061976600000000; 92543973705479686000000; 39378228959975469000000; 18494984739243885000000; 9491438569807212000000; 5273979270313288500000; 3146433890341955100000; 1999553677818589900000; 1343490475855800300000; 947728630359503080000; 697399400748318900000; 532226211625117020000; 419065772739282230000; 338906006571816160000; 280414114201356970000; 236595209637970450000; 202992961071234120000; 176685343122934960000; 155705464351168380000; 138697327834178150000; 124705476270677610000; 113043124623790430000; 103207523847445220000; 94824443172344969000; 87611011897985606000; 81350380810795575000; 75874141818738457000; 71049932652138914000; 66772565674759694000; 62957589799325164000; 59536557079412665000; 56453500132447307000];
[1872496141712563500000000000000; 41796788835775150000000000000; 2798892067801096000000000000; 312376305115381680000000000; 48808755936859171000000000; 9805288696324820200000000; 2407506826410548300000000; 698565154173140770000000; 233852845451265310000000; 88697065542211665000000; 37575321627714166000000; 17571694593785058000000; 8979445073139050100000; 4969113626072530800000; 2953040882221686000000; 1869829223303616500000; 1252117623705028300000; 880581366112479710000; 646216773069418300000; 491968397837982650000; 386538641411930530000; 312014462443355310000; 257740747871371330000; 217153957004126450000; 186080348186765720000; 161787961623318740000; 142440840677732480000; 126775182488682530000; 113901755724345920000; 103182225354037380000; 94149886505834068000; 86457738759576648000; 79843775924698305000; 74107344970503249000; 69092761888323340000; 64677772095256255000; 60765299962864730000; 57277466894247655000; 54151197246466472000; 51334951061408611000];
[1868330405429163600000000000000; 41518453416383673000000000000; 2767896856827845800000000000; 307544057605362380000000000; 47840149140880304000000000; 9567992230444443800000000; 2338804947488139100000000; 675617164876070980000000; 225168123893743280000000; 85025915739356007000000; 35862233358336633000000; 16698111168943428000000; 8496992421401857000000; 4682953613609583300000; 2772174436552080600000; 1748914683053226000000; 1167210161156330800000; 818356386567639980000; 598901680161161340000; 454832538741063210000; 356590468628585230000; 287295806470152670000; 236929372346698670000; 199331640733029140000; 170593093151938850000; 148159192040663940000; 130316019365749680000; 115885580083769070000; 104040199599826030000; 94186521212776950000; 85891262865304600000; 78832646937076746000; 72767974098237997000; 67511564306007572000; 62919486353053227000; 58878814127678851000; 55299952898890545000; 52111080866752954000; 49254069830918515000; 46681454541458380000];
[1864192348513006000000000000000; 41243193517303397000000000000; 2737380066836673900000000000; 302807495648027010000000000; 46894932270877016000000000; 9337452644808520600000000; 2272355048680217200000000; 653519573900330810000000; 216842095485776140000000; 81521786077661835000000; 34234138117869360000000; 15871371856800381000000; 8042271242445337100000; 4414289568877299600000; 2602985084332026700000; 1636187497737816000000; 1088294687654708400000; 760682127095705780000; 555154466824562270000; 420571299217462960000; 329013011539857960000; 264571701886166080000; 217825014009417330000; 182991882357174790000; 156409865551056200000; 135690063365537120000; 119232316012453920000; 105938500017269450000; 95038162678547441000; 85979706300834792000; 78360843448446214000; 71883161559197823000; 66321828105087987000; 61505006171488088000; 57299620920580046000; 53601356098242025000; 50327516263179334000; 47411861489659807000; 44800819996571191000; 42450676810983972000];
[1860081665788314300000000000000; 40970961770993514000000000000; 2707332245105102800000000000; 298164313663362400000000000; 45972440758473045000000000; 9113448934303899000000000; 2208073856133977000000000; 632237333059061430000000; 208858475485145520000000; 78176406924827304000000; 32686487284392179000000; 15088789077355109000000; 7613588984996777000000; 4161993739308494400000; 2444683306189770700000; 1531070639189197700000; 1014933501201572100000; 707215785888504870000; 514699199246341500000; 388957302022045790000; 303615108338018300000; 243678647170594700000; 200285748194313120000; 168009907674676900000; 143419753312688570000; 124281036387841050000; 109099647477227700000; 96851816210998069000; 86820287032844490000; 78492235695118448000; 71494119949300225000; 65549173052721602000; 60449097841579595000; 56034856814733809000; 52183404102938507000; 48798370546012970000; 45803423974739471000; 43137468939255827000; 40751130179084297000; 38604144569950313000];
[1855998056769183900000000000000; 40701711743767431000000000000; 2677744166182313200000000000; 293612271436902520000000000; 45072031725208515000000000; 8895768248641840100000000; 2145881520751131700000000; 611736982038511100000000; 201201783810724940000000; 74981950350300812000000; 31214992715945357000000; 14347838996189598000000; 7209362019819161900000; 3925014510677022300000; 2296535153062998900000; 1433029180487283600000; 946721837423222550000; 657641048823673420000; 477281752197844930000; 359781491726171870000; 280221258085830360000; 224466727476145090000; 184181589317267670000; 154271550672592360000; 131521361250109920000; 113841181856327960000; 99835777764602942000; 88550601160463237000; 79317856474093143000; 71660723912642010000; 65232322417522972000; 59775939887326155000; 55098583427515726000; 51053050749598557000; 47525561219654817000; 44427081481345485000; 41687148608962788000; 39249408768584690000; 37068351952565373000; 35106892362735846000];
[1851941225567321500000000000000; 40435397913388821000000000000; 2648606825459680500000000000; 289149191990945640000000000; 44193083183919773000000000; 8684205557689618600000000; 2085701463351363100000000; 591986570097693130000000; 193857302147860710000000; 71931004878171533000000; 29815610908119736000000; 13646151003867678000000; 6828108296846758700000; 3702371055192008300000; 2157858196436883100000; 1341567131076302000000; 883285326855685450000; 611665997660756450000; 442668052942172060000; 332851634617585080000; 258670320015520580000; 206798472210946980000; 169393476237898370000; 141672343609835130000; 120621988128543210000; 104287430675188720000; 91365630372481386000; 80966491623723611000; 72468208426415314000; 65427397094556703000; 59521906882180593000; 54513607564149391000; 50223672121537879000; 46515842675218146000; 43284898818005137000; 40448579149942765000; 37941834634737401000; 35712681986044786000; 33719171519178494000; 31927142218379143000];
[1847910880801994500000000000000; 40171975647300146000000000000; 2619911432950270400000000000; 284772959533986710000000000; 43334993272824854000000000; 8478563331901315400000000; 2027460227455462300000000; 572955581933866120000000; 186811033500974310000000; 69016551772899850000000; 28484528167867972000000; 12981497903522985000000; 6468440517779529300000; 3493148369159087900000; 2028017782698373500000; 1256224515980057300000; 824277652874164690000; 569021186558200930000; 410642468834061860000; 307990943123697850000; 238814322144652780000; 190547809668708300000; 155812344621397150000; 130116685756362700000; 110636875377801350000; 95543889790045250000; 83620661220046065000; 74037110467223000000; 66214198098414728000; 59739594096509862000; 54314088880954193000; 49716770838435281000; 45781926079374715000; 42383418086721128000; 39423935840002786000; 36827469778043447000; 34533965023280540000; 32495467033245501000; 30673305746157002000; 29036012593128212000];
[1843906735512128300000000000000; 39911401181463094000000000000; 2591649407269611100000000000; 280481517485168550000000000; 42497179520842273000000000; 8278651237106348700000000; 1971087339283610900000000; 554614867476621770000000; 180049664045071690000000; 66231942759723015000000; 27218146735232100000000; 12351786756988304000000; 6129059786660528600000; 3296492670984821200000; 1906423568172633800000; 1176574679869954000000; 769378394133205370000; 529457873146780780000; 381006326690970460000; 285036814297649640000; 220517369926273600000; 175599110388803600000; 143338278781473200000; 119517083942679650000; 101488521175139660000; 87541217977648288000; 76538286793194127000; 67705539675861348000; 60503710284802635000; 54549312104312923000; 49564418769263373000; 45344075279449561000; 41734707263870845000; 38619539072231814000; 35908568199676194000; 33531557116085838000; 31433058186744552000; 29568830749304304000; 27903225956349066000; 26407253931263056000];
[1839928507070483200000000000000; 39653631599791189000000000000; 2563812369810386000000000000; 276272866570695900000000000; 41679078142741965000000000; 8084285842953310500000000; 1916515174587123600000000; 536936575387687900000000; 173560527137315310000000; 63570879088156776000000; 26013071789463210000000; 11755050343423305000000; 5808749703768320500000; 3111607132550046200000; 1792526313253563500000; 1102221798285936100000; 718291036702114900000; 492746391536291060000; 353576553014747740000; 263839672794391750000; 203654646446021370000; 161846311646573100000; 131879736140447320000; 109793458673151710000; 93106054175694909000; 80216056265585429000; 70061362621960529000; 61919839980129756000; 55289214547871756000; 49812792787560425000; 45232395055607258000; 41357854622977458000; 38046836150036491000; 35191222109191517000; 32707763737714399000; 30531552888284589000; 28611392482377386000; 26906465675165237000; 25383906934299682000; 24017008406361449000];
[1835975917099867100000000000000; 39398624814155538000000000000; 2536392139104031200000000000; 272145062989300750000000000; 40880143362797504000000000; 7895290344344132300000000; 1863678831953743300000000; 519894090057032360000000; 167331569358680740000000; 61027391853146164000000; 24866099280446702000000; 11189439187734334000000; 5506370870749546600000; 2937747919051027700000; 1685814915738562300000; 1032798579730848900000; 670741142289604960000; 458674655678030510000; 328184425059449200000; 244261909575941740000; 188111496405600700000; 149192116130233860000; 121352838039470430000; 100872510103335510000; 85424661671588770000; 73510508174830858000; 64137707638533059000; 56632612958830884000; 50527359909334008000; 45490145362045156000; 41281112347638022000; 37723800691956795000; 34686281172372222000; 32068444962306020000; 29793284796432777000; 27800813519165997000; 26043755770387233000; 24484451293509463000; 23092598842327793000; 21843591628723202000];
[1832048691391315000000000000000; 39146339544945319000000000000; 2509380725362427200000000000; 268096216643969490000000000; 40099846765671441000000000; 7711494295228208800000000; 1812516012246742900000000; 503461971898396380000000; 161351318463957910000000; 58595823494114760000000; 23774204530458693000000; 10653214119164940000000; 5220855777309402400000; 2774220514316700800000; 1585813665039262200000; 967964143662930390000; 626474660060627900000; 427046782463402910000; 304674423579180360000; 226176908327269550000; 173782586795941250000; 137547258459831950000; 111680721176481090000; 92687138680089480000; 78385067419887780000; 67371665403013745000; 58719670359834209000; 51800601845251166000; 46178605529387928000; 41545003257727643000; 37676940801121212000; 34410662952028483000; 31623876138126820000; 29223880048392773000; 27139435908736275000; 25315100747635637000; 23707217742920263000; 22281037019652114000; 21008619952146414000; 19867294307730757000];
[1828146559824187500000000000000; 38896735302165375000000000000; 2482770325193226700000000000; 264124489437269550000000000; 39337676673328179000000000; 7532733354159387000000000; 1762966903857254000000000; 487615900759191780000000; 155608853126076300000000; 56270810397468207000000; 22734531555097975000000; 10144739323292910000000; 4951204041988214900000; 2620376310370523000000; 1492079700376879500000; 907402060609334370000; 585256370565927370000; 397681824816698420000; 282903178857312020000; 209468152243186540000; 160571137770074370000; 126829833750686700000; 102792944446569180000; 85175915697975234000; 71933054798171485000; 61751174953609076000; 53763733198793307000; 47384327600963157000; 42206884165153122000; 37944211385594759000; 34389234243815169000; 31389975033658472000; 28833063081483135000; 26632651872460170000; 24722834322639492000; 23052363956837166000; 21580922949886336000; 20276444958530380000; 19113168289340607000; 18070202042307417000];
[1824269256288130200000000000000; 38649772367053939000000000000; 2456553316482583900000000000; 260228093627733550000000000; 38593137546827113000000000; 7358849041049765000000000; 1714974073467212200000000; 472332622270736260000000; 150093774367924450000000; 54047266533044674000000; 21744383055780537000000; 9662475853313217600000; 4696477981593145300000; 2475609441627568300000; 1404200657392731500000; 850818541724190160000; 546868451238187810000; 370412605844338500000; 262738502320856280000; 194028404467462970000; 148388217780161680000; 116964682923288170000; 94624946413007688000; 78282599440210117000; 66019031328017989000; 56604844069183357000; 49230151536460245000; 43347757127647582000; 38579295487567569000; 34657541266608569000; 31390064400899941000; 28635805793378593000; 26289658262191183000; 24272116356673723000; 22522201290036276000; 20992542245870208000; 19645902636638940000; 18452690624305428000; 17389150462192367000; 16436031580114242000];
[1820416518606852200000000000000; 38405411774203842000000000000; 2430722253439275700000000000; 256405290244863190000000000; 37865749411902550000000000; 7189688504583574800000000; 1668482362037085900000000; 457589896975119780000000; 144796178581547610000000; 51920368059596440000000; 20801211039470341000000; 9204975568933318900000; 4455798485738993000000; 2339353845612592500000; 1321792488820718100000; 797940766125798770000; 511109153765017020000; 345084645839822920000; 244058496686832110000; 179758956033224370000; 137152097549742470000; 107882829917752910000; 87117549051169214000; 71955692950731166000; 60597630954565637000; 51892279648433794000; 45082624485910709000; 39658000766145838000; 35265826597047802000; 31657431531514123000; 28653978880197860000; 26124532705783021000; 23971639219965723000; 22121660081430737000; 20518172236664714000; 19117384449196332000; 17884903680484872000; 16793419983912318000; 15821026104545817000; 14949982038229394000];
[1816588088463661200000000000000; 38163615294171532000000000000; 2405269861794508100000000000; 252654387560432050000000000; 37155047307290953000000000; 7025104299782437300000000; 1623438785748578300000000; 443366452074727580000000; 139706632040891410000000; 49885538838669598000000; 19902608024374816000000; 8770875473474586900000; 4228341174694004900000; 2211080533463640500000; 1244497445988182000000; 748515335276816010000; 477791584434884140000; 321555174619124970000; 226750738176230080000; 166568935673102780000; 126787657915339990000; 99520966387565544000; 80216503785388585000; 66148039829026561000; 55627350787466970000; 47576559119854236000; 41287994551087067000; 36285036485857003000; 32239097315993992000; 28918751523757072000; 26157780786152232000; 23834635577194652000; 21858950984925253000; 20162517637380675000; 18693124101337869000; 17410285472930543000; 16282233069269954000; 15283761335627788000; 14394666506118972000; 13598599716183720000];
[1812783711328717600000000000000; 37924345416558590000000000000; 2380189034151859700000000000; 248973739613857860000000000; 36460580754814101000000000; 6864954175239243000000000; 1579792441647294100000000; 429641935659493840000000; 134816146820112790000000; 47938436800228053000000; 19046298793165629000000; 8358892421871594500000; 4013332820335369200000; 2090295054756657300000; 1171982208941710200000; 702306844524970240000; 446742579273181550000; 299692222280313590000; 210711524870187650000; 154374676342697530000; 117225846994753160000; 91820979827800839000; 73872076183670174000; 60816454754166428000; 51070219297695005000; 43623930011946734000; 37815973631658607000; 33201458398784619000; 29474128052660089000; 26418585941121839000; 23880328023225696000; 21746508753154062000; 19933329716165365000; 18377605450517720000; 17031018288047815000; 15856137465675673000; 14823616507258824000; 13910190669746819000; 13097226134205114000; 12369655257694496000];
[1809003136387958600000000000000; 37687565333550930000000000000; 2355472825482069300000000000; 245361744789518560000000000; 35781913250274490000000000; 6709100869562832200000000; 1537494417744514600000000; 416396873275505430000000; 130116158034961510000000; 46074941107081614000000; 18230132657919225000000; 7967818174205744200000; 3810048011506336800000; 1976535142358969000000; 1103936153943005100000; 659096562706650550000; 417801666447463770000; 279373782048716560000; 195845185776607660000; 143099133735553620000; 108403182526222520000; 84729521440566998000; 68038665989926518000; 55921385731641320000; 46891493228317371000; 40003535703325886000; 34638893050868975000; 30382247443086410000; 26948128227955054000; 24136038636781862000; 21802350523796286000; 19842290156743009000; 18178142196810474000; 16751370590932732000; 15517257815928856000; 14441194476482924000; 13496069862549640000; 12660409282046108000; 11917025869282245000; 11252032031392220000];
[1805246116473641100000000000000; 37453238923901510000000000000; 2331114448757597800000000000; 241816844443976980000000000; 35118621774264304000000000; 6557411916599156900000000; 1496497707350442400000000; 403612626706563860000000; 125598502329856400000000; 44291140068634445000000; 17452076203416518000000; 7596514771210964500000; 3617806046441363800000; 1869368524100741100000; 1040069747953145600000; 618681211436988210000; 390820109028387060000; 260487039389178120000; 182063445627444970000; 132671352465499530000; 100261295576267570000; 78197610357854452000; 62674459460775027000; 51426605318599378000; 43059380717754895000; 36687165057917112000; 31731475489115913000; 27804562272712819000; 24640303436116572000; 22052053868885057000; 19906283794311894000; 18105705644702074000; 16578239755971890000; 15269653210783973000; 14138557380583850000; 13152949375143167000; 12287782287484969000; 11523232522987928000; 10843446884765777000; 10235624704327375000];
[1801512407996470600000000000000; 37221330737342742000000000000; 2307107270722031600000000000; 238337521581162880000000000; 34470296322030267000000000; 6409759459016476900000000; 1456757127423685800000000; 391271354847790880000000; 121255397538058280000000; 42583319757689044000000; 16710206477711795000000; 7243910209857580800000; 3435968036195939300000; 1768390889050777800000; 980113060527482840000; 580871836373061230000; 365660021750497210000; 242927662043916880000; 169284840840831680000; 123025975955990510000; 92746512137247865000; 72180271131949004000; 57741111236218466000; 47298928322086744000; 39544788353248866000; 33649023852652121000; 29070626893479872000; 25447548564330596000; 22531679673498959000; 20149253441086960000; 18176117317836748000; 16521927304694412000; 15119825317250315000; 13919561379761132000; 12882825157090164000; 11980021921454334000; 11188009950050091000; 10488488667620278000; 9866834198981232000; 9311247076047954900];
[1797801770879263500000000000000; 36991805979415520000000000000; 2283444807789665100000000000; 234922299573651800000000000; 33836539451578535000000000; 6266020069863398300000000; 1418229240733575300000000; 379355976557425640000000; 117079423446826960000000; 40947953287046617000000; 16002704600993678000000; 6908994398668201500000; 3263934204192919900000; 1673223997103503900000; 923814384283989960000; 545492763346564060000; 342193555929028630000; 226599146091877580000; 157434182461379030000; 114102796409019150000; 85809469431256266000; 66636201668494149000; 53203453213015565000; 43507953682983686000; 36321090072171648000; 30865526089376933000; 26635246604229041000; 23292165111758176000; 20604943118395212000; 18411788315963701000; 16597256482493122000; 15077444441139693000; 13790332390928161000; 12689357197893777000; 11739055281197366000; 10912056971397691000; 10186979411039957000; 9546926983811249300; 8978409016319980200; 8470548326418584800];
[1794113968492110100000000000000; 36764630496701946000000000000; 2260120722070717500000000000; 231569740928253080000000000; 33216965849240475000000000; 6126074581728034200000000; 1380872281642873200000000; 367850135379532740000000; 113063503603623770000000; 39381690705439606000000; 15327849765721340000000; 6590815373852396900000; 3101141368083071300000; 1583513921432901700000; 870938955789695720000; 512380632822745520000; 320302147158891860000; 211412213526480340000; 146442062239254550000; 105846341530762880000; 79404764007142681000; 61527469019296325000; 49029228108167067000; 40025828457301806000; 33363916011106477000; 28315103450676809000; 24406054094945243000; 21321025222969438000; 18844294080166588000; 16825203410211188000; 15156396824821134000; 13759946109895497000; 12578314933857103000; 11568353166998402000; 10697230041756226000; 9939631900204728000; 9275799769740713400; 8690134160653303000; 8170189055282978000; 7705936907901635500];
[1790448767588988800000000000000; 36539770762449284000000000000; 2237128817517844200000000000; 228278446094198720000000000; 32611201911957261000000000; 5989807923145525600000000; 1344646085328902000000000; 356738166036554340000000; 109200888103341810000000; 37881349474943803000000; 14684013602844234000000; 6288475758676824800000; 2947060591122496900000; 1498929414153017700000; 821267769338100400000; 481383506657966330000; 299875820853722560000; 197284257216495700000; 136244398326791660000; 98205494969933393000; 73490628964547890000; 56819230673100187000; 45188845599566406000; 36827031988080249000; 30650959568882004000; 25978031312462519000; 22365430864714969000; 19518252066639567000; 17235313859196357000; 15376314396115057000; 13841409485841505000; 12558214164730137000; 11473347098233548000; 10546817894298505000; 9748230905172348300; 9054172405966091000; 8446382780796667700; 7910458335379640700; 7434916134467713400; 7010511383458410200];
[1786805938245806500000000000000; 36317193862573632000000000000; 2214463036189778400000000000; 225047052312299170000000000; 32018885345575551000000000; 5857108961918767700000000; 1309512020270932100000000; 346005062596454240000000; 105485137300208160000000; 36443905494450530000000; 14069654890609512000000; 6001129449720074800000; 2801194991198975700000; 1419160386248014500000; 774596476669193120000; 452360041602327400000; 280812551079269580000; 184138829452110040000; 126782017362840590000; 91133147679939284000; 68028637864746799000; 52479479184604281000; 41655159113127950000; 33888178526802212000; 28161801101374303000; 23836269865757164000; 20497276150031029000; 17869346735356823000; 15764843371393016000; 14053095438969786000; 12641236876567661000; 11462025871921515000; 10465931978840800000; 9615890285621194000; 8883757572449827300; 8247875933474586800; 7691370217573323400; 7200940026641540800; 6765990354187492700; 6377997575210370500];
[1783185253799813900000000000000; 36096867482031292000000000000; 2192117454628061500000000000; 221874232503495460000000000; 31439664778478420000000000; 5727870355033852500000000; 1275432923840868700000000; 335636448224652670000000; 101910106391423820000000; 35066484636047615000000; 13483314584037496000000; 5727978514804351900000; 2663077696498939700000; 1343916493502450800000; 730734366216877310000; 425178724429899000000; 263017668499482620000; 171905170587661990000; 118000269982099960000; 84585877649499403000; 62983433094697328000; 48478808166602506000; 38403261492135215000; 31187836714446496000; 25877746804181338000; 21873319027377695000; 18786875241778028000; 16361067902060890000; 14420872493136059000; 12844576895877076000; 11545797639763552000; 10462065234274297000; 9547418548721712400; 8767501461831647500; 8096254341908769300; 7513642027110875300; 7004067823328838300; 6555249345153407400; 6157410271944867900; 5802691447111908600];
[1779586490790367700000000000000; 35878759891547173000000000000; 2170086280343019500000000000; 218758694195309870000000000; 30873199389908051000000000; 5601988404867801700000000; 1242373040843072500000000; 325618546436099150000000; 98469930822823967000000; 33746354763277999000000; 12923611144614181000000; 5468270288457246400000; 2532269937602786400000; 1272925820779259300000; 689503415960112660000; 399717163980339800000; 246403313588147770000; 160517774576420850000; 109848677031377390000; 78523655660132193000; 58322476639652194000; 44790197838857542000; 35410297936541698000; 28706364470281646000; 23781681465419992000; 20074085935225278000; 17220779299961350000; 14981322045958579000; 13192439175591037000; 11740752088513777000; 10545900076691665000; 9549842243140845600; 8709926046360215800; 7994303701512263600; 7378843116591024900; 6845008984402726800; 6378385251495700400; 5967628910096406300; 5603718524976297800; 5279407197676786100];
[1776009428901006200000000000000; 35662839934689160000000000000; 2148363848405260200000000000; 215699178484754700000000000; 30319158552364782000000000; 5479362921400929100000000; 1210297964857299000000000; 315938153767634070000000; 95159012469835252000000; 32480918202218572000000; 12389236151113226000000; 5221294651740231200000; 2408359266532349800000; 1205933657562138300000; 650737414406897210000; 375861435764774390000; 230887931566139590000; 149915988453179850000; 102280603998936510000; 72909574924626463000; 54015821392493542000; 41388818481485594000; 32655294738747527000; 26425757962437456000; 21857933885949953000; 18424763929664550000; 15786695656599169000; 13719063314969934000; 12069537462029984000; 10732492341796304000; 9633163282163220500; 8717619347343446700; 7946275143943451800; 7289605775945195300; 6725262455302714200; 6236096238988636600; 5808781450882332200; 5432841951810368800; 5099952403042688200; 4803430086747650300];
[1772453850902791000000000000000; 35449077015278219000000000000; 2126944618139104400000000000; 212694459036321660000000000; 29777221487496256000000000; 5359897090160551700000000; 1179174582246547800000000; 306582613795329470000000; 91972006549825835000000; 31267704638167788000000; 11878950173730764000000; 4986381484193928600000; 2290957893956213400000; 1142701358205113900000; 614281144657768710000; 353505475128512930000; 216395805806685200000; 140043643059419480000; 95252961368600781000; 67709602639771792000; 50035901286029186000; 38251850281551138000; 30119002469141178000; 24329513449234258000; 20092153869287413000; 16912722018908868000; 14473387686294246000; 12564202174479106000; 11043033618934217000; 9811469552592215800; 8799945299066005800; 7958344491867742200; 7249925286760556400; 6647314099795934400; 6129812120733752100; 5681551953619779400; 5290215001147279500; 4946125128682231900; 4641598920030561900; 4370473563854297500];
[1768919542598904000000000000000; 35237441085124313000000000000; 2105823169914534400000000000; 209743341113732310000000000; 29247076934916598000000000; 5243497345636186800000000; 1148971018698911700000000; 297539792425760350000000; 88903809224576057000000; 30104364412452336000000; 11391578894898572000000; 4762898276497688300000; 2179701136389657500000; 1083005280817836800000; 579989626880389800000; 332550515275802310000; 202856626710435270000; 130848712525066590000; 88725928798631506000; 62892351650664232000; 46357338679081281000; 35358318190364726000; 27783752380471301000; 22402500885163032000; 18471199779215921000; 15526403914254116000; 13270583405197927000; 11507522067519249000; 10104589661903083000; 8970085618375542500; 8039277665301456300; 7265590137397713000; 6614917648805421400; 6061879173034427400; 5587302627635120900; 5176505351011946300; 4818098948920800400; 4503145629187148800; 4224553974163566600; 3976640305270351600];
[1765406292770444800000000000000; 35027902632078171000000000000; 2084994202034318200000000000; 206844660644181040000000000; 28728422833420628000000000; 5130073249919012000000000; 1119656588179399300000000; 288798054394142850000000; 85949545854062483000000; 28988662195469632000000; 10926009461240680000000; 4550247893227413600000; 2074245965810273900000; 1026635799163971900000; 547727414881638320000; 312904566749500800000; 190205093290513060000; 122283000222108450000; 82662701198038200000; 58428870574102122000; 42956767559470533000; 32688940526698912000; 25633324905860836000; 20630848281172028000; 16983035750444813000; 14255235801173193000; 12168892033078682000; 10540603380168712000; 9246593621361349000; 8201408115574004700; 7344805782265862500; 6633497724713300400; 6035823199687915300; 5528246837044593800; 5093009339073817300; 4716523353242586700; 4388259735864216000; 4099962169155186900; 3845085224086733600; 3618386802817690400];
[1761913893123413000000000000000; 34820432668389882000000000000; 2064452527713146800000000000; 203997283313859980000000000; 28220966014083020000000000; 5019537376330602700000000; 1091201744174268600000000; 280346240906064450000000; 83104559865065942000000; 27918471013586776000000; 10481187052164407000000; 4347866475826538100000; 1974269654651791100000; 973396382364922500000; 517367942790972380000; 294481935223488050000; 178380544926846320000; 114301849090044030000; 77029254931261602000; 54292450866145792000; 39812671248023386000; 30225990168760034000; 23652829221877057000; 19001835896339234000; 15616637717356573000; 13089542085390713000; 11159727820656608000; 9655754068480204700; 8462095951318363700; 7499111671846736300; 6710734585163153000; 6056727096151191900; 5507695423474769300; 5041813910991274400; 4642630699737407500; 4297571139371138600; 3996899847147218500; 3732989529882297300; 3499798342123931700; 3292491180115418600];
[1758442138236835900000000000000; 34615002719365004000000000000; 2044193072145695500000000000; 201200103693598550000000000; 27724421904754293000000000; 4911805197817260800000000; 1063578033116499100000000; 272173648363046840000000; 80364402200275461000000; 26891766608916805000000; 10056111651529729000000; 4155221476582977900000; 1879468509639752800000; 923102737584346250000; 488792918170636130000; 277202774709437310000; 167326620950463110000; 106863874402682160000; 71794132527260677000; 50458449444874320000; 36905233398446219000; 27953167276127259000; 21828592936307903000; 17503799417811510000; 14361907498584861000; 12020468419717086000; 10235240505837417000; 8845946360243162700; 7744751537487076900; 6857424526136478600; 6131779041988617000; 5530410430162894100; 5026027271480948100; 4598387813725021900; 4232250232491062900; 3915976266394744600; 3640563842618034800; 3398966315001714200; 3185606336931048200; 2996023941627183700];
[1754990825512020000000000000000; 34411584812309515000000000000; 2024210869660664700000000000; 198452044393503640000000000; 27238514245487993000000000; 4806794979897143400000000; 1036758049886883000000000; 264270008115528110000000; 77724821315595607000000; 25906622112305498000000; 9649835009730582500000; 3971809815035245700000; 1789556688397371400000; 875582011223325630000; 461891758146766590000; 260992673504147870000; 156990945903605850000; 99930717201457044000; 66928244402084453000; 46904125594753703000; 34216201189229559000; 25855482572818158000; 20148061040911660000; 16126041358751725000; 13209594241502843000; 11039911378214769000; 9388251818515036800; 8104758996796288200; 7088766809394302400; 6271079815505670500; 5603119050395062500; 5050110284890442600; 4586711968694351000; 4194149812165617600; 3858301958243334500; 3568396030864778300; 3316107463661050600; 3094925633383728400; 2899701665864575800; 2726321386801686700];
[1751559755122891500000000000000; 34210151465755320000000000000; 2004501060957955500000000000; 195752055245529780000000000; 26762974814454230000000000; 4704427677957736400000000; 1010715395290686400000000; 256625467189980120000000; 75181753695268676000000; 24961203011086366000000; 9261457784349528500000; 3797156148816308800000; 1704265093180272400000; 830672044483626580000; 436561065412359150000; 245782270410415720000; 147324838491753120000; 93466816763334459000; 62404686226007343000; 43608490984709807000; 31728759696456124000; 23919150304874460000; 18599703343056114000; 14858749970554608000; 12151222591229254000; 10140454199709078000; 8612197504688160200; 7426324527409053100; 6488851505124391000; 5735271168885967700; 5120358340217636100; 4611781382971623900; 4186007327775067600; 3825621569536138100; 3517538929956880400; 3251787777771400400; 3020669536653137800; 2818168442002927100; 2639530882911938300; 2480961446075972400];
[1748148729967399800000000000000; 34010675678957862000000000000; 1985058890426227800000000000; 193099112512950410000000000; 26297543163913700000000000; 4604626838710798700000000; 985424635414991060000000; 249230569939818140000000; 72731314856206989000000; 24053762394305184000000; 8890126848318408800000; 3630811251487439300000; 1623340336497643700000; 788220679459316600000; 412704141190064840000; 231506898954857290000; 138283042400162770000; 87439200602590669000; 58198570678180146000; 40552171728802610000; 29427416521227411000; 22131490061052771000; 17172929657452476000; 13692925026325865000; 11179027003990347000; 9315308073216248300; 7901074387194879700; 6805281211850520600; 5940174677423475800; 5245612225309851600; 4679487024534421300; 4211735802809104100; 3820503255734666000; 3489634696314036000; 3207004599627011200; 2963381889923191900; 2751646419306120200; 2566239306948145600; 2402771591223719900; 2257741717743487100];
[1744757555619961300000000000000; 33813130921658114000000000000; 1965879703538212700000000000; 190492218125746280000000000; 25841966365846309000000000; 4507318505621364300000000; 960861262776757420000000; 242076240572549240000000; 70369790814611094000000; 23182636459187654000000; 8535032755237591900000; 3472350490420228600000; 1546543773747279300000; 748085112197216190000; 390230532461612560000; 218106257501572400000; 129823477291533370000; 81817290626259257000; 54286872434369148000; 37717281507093698000; 27297895823081972000; 20480836713967778000; 15858012100678110000; 12620309888079278000; 10285891675079506000; 8558258483978139900; 7249392022815139600; 6236729126038343600; 5438324566404748100; 4798099728283852700; 4276847474091536600; 3846611271588371300; 3487092166752785900; 3183303033591221900; 2924006762499767700; 2700657215249232000; 2506668759245571400; 2336904362777181000; 2187311490361730800; 2054659504888170100];
[1741386040284911000000000000000; 33617491124101288000000000000; 1946958944321229800000000000; 187930398940964940000000000; 25395998766845333000000000; 4412431128135942200000000; 937001659176240130000000; 235153766508204710000000; 68093629989516485000000; 22346240263622849000000; 8195407352176009400000; 3321372398254429800000; 1473650598334655100000; 710131289425668200000; 369055610972515360000; 205524103322127280000; 121907008433768270000; 76572724173698929000; 50648285327465443000; 35087304845549664000; 25327040981847249000; 18956457801910958000; 14646013887363354000; 11633329320745195000; 9465295597650094500; 7863616180851451200; 6652128554182903700; 5716190101446802300; 4979271997351824300; 4389079879002017800; 3909103219003270400; 3513342282672779400; 3182942040379066500; 2903997422932234700; 2666093845940353600; 2461318711450480000; 2283580355139660300; 2128131270433315400; 1991229327524107000; 1869893669934493600];
[1738033994750939600000000000000; 33423730667304775000000000000; 1928292152900450600000000000; 185412706027141570000000000; 24959401751905780000000000; 4319895474543494700000000; 913823060174772040000000; 228454782526572230000000; 65899435519390429000000; 21543063710372236000000; 7870521530899843100000; 3177497331896462900000; 1404448995064192300000; 674233345890849550000; 349100181707159610000; 193707968831288320000; 114497233528640500000; 71679188772394301000; 47263090706791653000; 32646989728281887000; 23502725175430004000; 17548477729076873000; 13528724078262927000; 10725032562330737000; 8711262310555995200; 7226172364165589200; 6104690390227152800; 5239571161565499500; 4559336992412869300; 4015217659363472700; 3573210608111762200; 3209133784888163600; 2905471887833100900; 2649322739009968700; 2431033331404516700; 2243277107428434700; 2080418929745880200; 1938070992131078400; 1812777579407651000; 1701788141033766900];
[1734701232346494700000000000000; 33231824373568305000000000000; 1909874963112566500000000000; 182938213971913520000000000; 24531943516751823000000000; 4229644548310672600000000; 891303521120079420000000; 221971255663061020000000; 63783957969284845000000; 20771667749589950000000; 7559683109060582200000; 3040366213429608700000; 1338739347885714500000; 640273079461612510000; 330290118701472220000; 182608898335172550000; 107560285424208110000; 67112269535482414000; 44113036101440532000; 30382248783651593000; 21813769220607769000; 16247808214525521000; 12498597777354612000; 9889041201805952500; 8018313931766154300; 6641157728158140300; 5602875381022574800; 4803131148419729600; 4175158312574682400; 3673468861495599600; 3266392980489534200; 2931437213853927600; 2652329410461891700; 2417096981481541700; 2216792117099164900; 2044630399102601700; 1895398641563184200; 1765041218149910000; 1650366707175425100; 1548836919651748900];
[1731387568896116400000000000000; 33041747497219208000000000000; 1891703100187556000000000000; 180506020211986580000000000; 24113398848363027000000000; 4141613507740155000000000; 869421884646156960000000; 215695470815209310000000; 61744088407348542000000; 20030680787058213000000; 7262234833416624300000; 2909639347684622700000; 1276333498352508100000; 608139461369042180000; 312556026219260560000; 172181203764955440000; 101064649496922360000; 62849308212281530000; 41181223365552749000; 28280068348293214000; 20249866078407403000; 15046084468317109000; 11548701317991378000; 9119501454861154400; 7381429108847084100; 6104205024019461200; 5142839182253915400; 4403450259247523200; 3823665671445160500; 3361054583921504700; 2986117125505370900; 2677928656124816700; 2421370653835421600; 2205332240923952000; 2021518646317128700; 1863647013759437000; 1726894177519708100; 1607511295497168900; 1502550841362601700; 1409670452481545600];
[1728092822677687000000000000000; 32853475715586269000000000000; 1873772378496382800000000000; 178115244384654970000000000; 23703548913374941000000000; 4055739588808213100000000; 848157749578477240000000; 209620017023912050000000; 59776851830727178000000; 19318795286310479000000; 6977552497670500300000; 2784995311571287400000; 1217054051401309000000; 577728179136919780000; 295832923465134710000; 162382237985896600000; 94980994584259551000; 58869272981935776000; 38452005550133221000; 26328424770421774000; 18801511475583758000; 13935606617265982000; 10672662017332580000; 8411040462912974900; 6796004549927119400; 5611314838701242800; 4721064531236117700; 4037402238113513900; 3502054385275660500; 3075437975854928500; 2730071827845955300; 2446488955662734900; 2210641478631346300; 2012217370347797900; 1843526642253972700; 1698750492106095100; 1573426283437056600; 1464088522056306300; 1368014766606072600; 1283043243306550700];
[1724816814380575000000000000000; 32666985120195597000000000000; 1856078699362491400000000000; 175765027700098650000000000; 23302181054042474000000000; 3971962031044210300000000; 827491441178757140000000; 203737774395377270000000; 57879400922021471000000; 18634764553531059000000; 6705043167976613800000; 2666129910598181300000; 1160733725299872100000; 548941209935073540000; 280059951142463410000; 153172184378911420000; 89282016436010205000; 55152638152716317000; 35910891807199892000; 24516207366315904000; 17459940139420539000; 12909285943017547000; 9864622114106793500; 7758726272914577200; 6257819827690708700; 5158824311210775700; 4334333180811244100; 3702128989736365800; 3207762244518641200; 2814303030542551700; 2496148312066188600; 2235185589225789700; 2018360685536154400; 1836102208994966100; 1681280304502780900; 1548505550866972500; 1433648602019682500; 1333505682244716300; 1245562087943894500; 1167822591794778600];
[1721559367064643700000000000000; 32482252208182170000000000000; 1838618048935062600000000000; 173454532333719260000000000; 22909088591468743000000000; 3890222006321268300000000; 807403982666840830000000; 198041901631651720000000; 56049010118554498000000; 17977399694793193000000; 6444143509616666300000; 2552755198312505700000; 1107214742826422300000; 521686422250440470000; 265180098290088110000; 144513861491044070000; 83942292732738670000; 51681272996097321000; 33544459688229934000; 22833147492024333000; 16217067184938312000; 11960595531985901000; 9119196537512748000; 7158031184921796800; 5763005175549177600; 4743378532352671000; 3979700259674867700; 3395017403312260400; 2938448411225587400; 2575535246276232800; 2282422417793953000; 2042256152796471200; 1842904646018105800; 1675483218942616000; 1533380835508246400; 1411605401185866000; 1306335699942988700; 1214609711483395500; 1134104471208235500; 1062978356524831300];
[1718320306120112700000000000000; 32299253873911151000000000000; 1821386496122071100000000000; 171182940837802270000000000; 22524070635814675000000000; 3810462550433402000000000; 787877067960382120000000; 192525824139283510000000; 54283069977709932000000; 17345566735826773000000; 6194318208752336500000; 2444598554675087600000; 1056348260948168900000; 495877203921425040000; 251139947947256740000; 136372541642594520000; 78938148793910065000; 48438339005913883000; 31340274250424244000; 21269753236490275000; 15065434231930564000; 11083524970389824000; 8431434185006536500; 6604798181219534500; 5308012019415481000; 4361904395995185200; 3654470847957514000; 3113678192807021700; 2691974163909237900; 2357203989819772100; 2087138351784808800; 1866093315309373400; 1682793304136764600; 1528990407602912000; 1398554177161286400; 1286860209393122700; 1190372176362723200; 1106351387031282000; 1032651859829536800; 967573648918414120];
[1715099459228245900000000000000; 32117967400802894000000000000; 1804380190581230500000000000; 168949455571819620000000000; 22146931903216326000000000; 3732628497340104900000000; 768893035575952730000000; 187183222687305560000000; 52579081822552656000000; 16738183895095954000000; 5955058483549665400000; 2341401819649288300000; 1007993836454356400000; 471432114720747770000; 237889440303168650000; 128715782462938360000; 74247533166294138000; 45408194929152152000; 29286813431635638000; 19817249282762861000; 13998159864358983000; 10272538748459488000; 7796782414096931500; 6095210175344194100; 4889586010677816900; 4011586690116690900; 3356178575373960200; 2855926577225432200; 2466385327273725000; 2157546411678288900; 1908693876742269100; 1705231108807054400; 1536677426664095500; 1395375420640158300; 1275639848537616200; 1173186596968422800; 1084742754939631600; 1007775952052644600; 940303579269039370; 880756373272173310];
[1711896656322844700000000000000; 31938370453356117000000000000; 1787595360767010000000000000; 166753298150716990000000000; 21777482539149294000000000; 3656666415965051700000000; 750434843638036300000000; 182008022587269900000000; 50934652652840336000000; 16154219001520151000000; 5725880679329799500000; 2242920478528361200000; 962018925174378120000; 448274561801377390000; 225381652086409790000; 121513270404855550000; 69849902345986917000; 42576308966640759000; 27373399198261235000; 18467521521082875000; 13008894076802401000; 9522538066105876200; 7211054478300917400; 5625761841752196600; 4504742346207645000; 3689846234301327200; 3082566066114629800; 2619764639896491300; 2259896238594840300; 1974952776012732700; 1745626809312084100; 1558332435865927300; 1403326989812125300; 1273500700226953200; 1163580785626535700; 1069598085869544600; 988523270356606600; 918014588253894310; 856240248384673570; 801751535820830820];
[1708711729552532500000000000000; 31760441069363576000000000000; 1771028312031946800000000000; 164593708910552540000000000; 21415537947989993000000000; 3582524549440595400000000; 732486045944993810000000; 176994383369498980000000; 49347490307371873000000; 15592687048688559000000; 5506324942736159400000; 2148922895754314400000; 918298412573828700000; 426332496439934470000; 213572591040910560000; 114736675358906390000; 65726113945146033000; 39929177589453135000; 25590134010290280000; 17213066031663558000; 12091776382112216000; 8828825758166537900; 6670399660295906100; 5193233807361978400; 4150743179716946700; 3394319887154071400; 2831567070030044100; 2403365219969349500; 2070875115633324900; 1807953080183238500; 1596602711032894900; 1424177685794893800; 1281620600889164500; 1162329613021456300; 1061414092847515400; 975196403889166420; 900872468380847670; 836276660121941830; 779716424384836410; 729854252795375160];
[1705544513243805200000000000000; 31584157652314996000000000000; 1754675424780550200000000000; 162469946390878890000000000; 21060918628534521000000000; 3510152756694859900000000; 715030769043616450000000; 172136688931089800000000; 47815398864410762000000; 15052647877904025000000; 5295953970222428500000; 2059189594194547800000; 876714173672392700000; 405538130623044870000; 202421004419570730000; 108359515555595540000; 61858327667742067000; 37454250460557352000; 23927842184335481000; 16046942086204110000; 11241397281417955000; 8187074080976763900; 6171275876233520300; 4794669004909583500; 3825076945654809200; 3122842262438794800; 2601290133684957300; 2205057202220591900; 1897830702902624800; 1655204850001090200; 1460403666382842700; 1301654360814123200; 1170535862331463300; 1060917460854708400; 968262624293977090; 889163572423955570; 821024545865000700; 761842660791746360; 710053914703523530; 664423393829265960];
[1702394843864835900000000000000; 31409498963982079000000000000; 1738533152674161900000000000; 160381286833286530000000000; 20713450015245858000000000; 3439502456282891200000000; 698053690266269150000000; 167429538132499690000000; 46336274267665694000000; 14533203982846899000000; 5094351826458970300000; 1973512577041025700000; 837154660367689430000; 385827672125044690000; 191888200504822750000; 102357032004152100000; 58229913507636569000; 35139860991461127000; 22378015769120386000; 14962728845805164000; 10452762822354012000; 7593295123647611000; 5710424544317957900; 4427351005156713200; 3525439432242648100; 2873429006735715200; 2390003677651427800; 2023312083038959500; 1739400083991304100; 1515482006876205300; 1335918051492288200; 1189747622254899300; 1069140593860602500; 968403294946957890; 883327320048563170; 810754706061563670; 748282363755663120; 694057795928954500; 646635695200324260; 604875802871051660];
[1699262559990006900000000000000; 31236444117180482000000000000; 1722598020885168500000000000; 158327023695543430000000000; 20372962325009618000000000; 3370526572367759000000000; 681540016686855080000000; 162867735820747810000000; 44908100166007036000000; 14033498429075105000000; 4901122828529283500000; 1891694689681635500000; 799514514379478640000; 367141076820827170000; 181937882237653740000; 96706071773124800000; 54825366627443037000; 32975162100581847000; 20932764578794036000; 13954485459217123000; 9721261994034917500; 7043813627232788400; 5284847528254445000; 4088784160615475100; 3249716454319104400; 2644261504185075100; 2196122358078505900; 1856731701180013300; 1594337557553908300; 1387664712253762800; 1222131205680218900; 1087531674862597100; 976584836073079870; 884002461595259770; 805880229649160070; 739291459776175510; 682011272245227960; 632326147792895310; 588900379604762080; 550681044036741160];
[1696147502265163100000000000000; 31064972568704014000000000000; 1706866624399050100000000000; 156306467180794100000000000; 20039290409188032000000000; 3303179482761910600000000; 665475464954012240000000; 158446284258429000000000; 43528943955760061000000; 13552712881977744000000; 4715890492044710700000; 1813549019065990000000; 763694204149851060000; 349421817066124430000; 172535992103470170000; 91384979470050334000; 51630228418235822000; 30950066774100681000; 19584770057832202000; 13016714289448838000; 9042636728069956900; 6535242013094932800; 4891785982183097500; 3776675407735428300; 2995967989517953300; 2433672885540197000; 2018194601220972500; 1704037031663490900; 1461504483619176300; 1270730103121027900; 1118116925792228600; 994161914605147110; 892093565645409440; 806999813755799550; 735258160911238720; 674156065329496950; 621633492719951320; 576105366898745490; 536337190137747170; 501356624628601030];
[1693049513373559600000000000000; 30895064112426295000000000000; 1691335626362773800000000000; 154318943781295830000000000; 19712273610770295000000000; 3237416968942960300000000; 649846241961936570000000; 154160374938809290000000; 42196953015031216000000; 13090065737173400000000; 4538296535545005700000; 1738898328248482600000; 729599684147569610000; 332616665059506590000; 163650567485007310000; 86373496325491487000; 48631013278502884000; 29055193061356158000; 18327242677357426000; 12144327018867645000; 8412954293933582300; 6064457438375895300; 4528700938355577800; 3488917587549690100; 2762413653039372700; 2240135229391449200; 1854891209319087800; 1564057950102806300; 1339860015098110200; 1163743840005737900; 1023029710439062700; 908867772053010480; 814960058596018490; 736743528840571580; 670856897883949550; 614785903753916880; 566623006172448690; 524901843472827450; 488481383798981350; 456463651902256960];
[1689968438002490700000000000000; 30726698872565275000000000000; 1676001756478107300000000000; 152363795836193070000000000; 19391755626426050000000000; 3173196167962107300000000; 634639026321175340000000; 150005380768304490000000; 40910351120109756000000; 12644810347697006000000; 4367999939776593700000; 1667574523941418700000; 697142075129494090000; 316675490176489250000; 155251605749722980000; 81652666331118594000; 45815140686076963000; 27281813165638113000; 17153882586670725000; 11332613403206783000; 7828581894447656600; 5628580711671098800; 4193255492207523400; 3223574156707179600; 2547419396996254100; 2062247853134053900; 1704994945079876300; 1435723882887089400; 1228452636879024900; 1065852395848380400; 936097687720198060; 830946189463428780; 744539843740954520; 672639478413063830; 612125936786032480; 560668565596230690; 516500902307070250; 478266315235865190; 444910092949933960; 415602884121844300];
[1686904122810585800000000000000; 30559857297106350000000000000; 1660861809438477900000000000; 150440381102849970000000000; 19077584373276752000000000; 3110475526166991000000000; 619840950593551540000000; 145976848598610940000000; 39667435034534685000000; 12216233342649289000000; 4204676058650137600000; 1599418155050796700000; 666237364009409540000; 301551069336708960000; 147310938392069440000; 77204748922483836000; 43170872169349484000; 25621806317746862000; 16058843265801313000; 10577212463509814000; 7286163283115507200; 5224956915920816500; 3883298451733482500; 2978865171722823500; 2349485330109890000; 1898726600117352000; 1567391010091994600; 1318055266050160800; 1126412441736449100; 976276020472296950; 856616165923164600; 759755675224750650; 680245193663993700; 614146100348781950; 558563693377927310; 511337354966850160; 470831147712672690; 435789871994896650; 405238542585333290; 378411140039199640];
[1683856416395757000000000000000; 30394520151379484000000000000; 1645912643408032200000000000; 148548072341276130000000000; 18769611860207017000000000; 3049214754664246300000000; 605439584257090670000000; 142070492091665970000000; 38466571261933321000000; 11803653032292110000000; 4048015778874848800000; 1534277940297623800000; 636806122075124200000; 287198909530589350000; 139802113600044270000; 73013137734978803000; 40687252814095401000; 24067615144073838000; 15036697945110581000; 9874085922123349800; 6782597239699515500; 4851137598271163900; 3596849329281631700; 2753154439245770900; 2167234562474613400; 1748394037505386500; 1441058339879368500; 1210155742421459400; 1032944078514848000; 894302321153225400; 783941752068278120; 694710884344897170; 621540105239546380; 560769728467740950; 509713139420233990; 466367197410441720; 429216735246998160; 397100321111429120; 369116610106489480; 344558034201120190];
[1680825169263777700000000000000; 30230668511786545000000000000; 1631151178541625200000000000; 146686256911202500000000000; 18467694063545860000000000; 2989374786450455700000000; 591422917368482920000000; 138282184901491290000000; 37306192954226752000000; 11406417894864983000000; 3897724725450952400000; 1472010323149431200000; 608773240379051450000; 273577081692709490000; 132700286660818630000; 69062284996440636000; 38354056969928419000; 22612205263417231000; 14082408576582067000; 9219493704530517500; 6315017753867812500; 4504864398326270600; 3332084564143704100; 2544937734259476600; 1999402988283376400; 1610170486767009700; 1325061645026578400; 1111205032819585700; 947320313730889740; 819280405054334790; 717486988067734540; 635277678246260790; 567935726040912570; 512060338687402960; 465157829683745870; 425370915225517450; 391296180204532690; 361858881174302290; 336225696518578270; 313743008458467580];
[1677810233797482600000000000000; 30068283759674568000000000000; 1616574395544482100000000000; 144854336381376650000000000; 18171690806954168000000000; 2930917735143254100000000; 577779344892148320000000; 134607954157778020000000; 36184796967253694000000; 11023905140670227000000; 3753522510373121400000; 1412479052400025300000; 582067681205850400000; 260646065165450320000; 125982117662240670000; 65337631152165762000; 36161737845932066000; 21249027867412702000; 13191297158518185000; 8609971343208665500; 5880775779050328300; 4184053996898460500; 3087324873700793900; 2352831996458894100; 1844829926871659600; 1483065815458456300; 1218544133947165000; 1020452422671510900; 868876152917627710; 750615534089163900; 656715458729949960; 580968621297446570; 518986186874725400; 467607674421643650; 424518284446607010; 387995837144918150; 356740331956267960; 329757174169858320; 306275880799461270; 285692632749624530];
[1674811464226575200000000000000; 29907347575351085000000000000; 1602179334270336500000000000; 143051726150665740000000000; 17881465645361786000000000; 2873806855247427500000000; 564497651666456990000000; 131043974236854170000000; 35100941056298308000000; 10655519349231505000000; 3615142022058778200000; 1355554786841561000000; 556622244593731340000; 248368602048863260000; 119625675985935110000; 61825539347949599000; 34101380708562455000; 19971985058493228000; 12359019231077184000; 8042309132909207000; 5477422429937838800; 3886784277151985700; 2861023639474914100; 2175565422668408900; 1702449549258483700; 1366171925120098300; 1120720858467586300; 937210810568605180; 797003472755947650; 687764247145515190; 601137329904378180; 531338875307623510; 474284804240001730; 427037717297498660; 387448695571289700; 353920712276407210; 325249472583655990; 300514489136905580; 279003331755852250; 260158150683222950];
[1671828716598024500000000000000; 29747841932237871000000000000; 1587963092356889500000000000; 141277855080570140000000000; 17596885752803963000000000; 2818006503893731800000000; 551566997979058720000000; 127586560806402580000000; 34053241204414569000000; 10300691175571309000000; 3482328753165744100000; 1301114722571896800000; 532373348953978430000; 236709560781306630000; 113610351123758840000; 58513234424358979000; 32164659416638737000; 18775397736815787000; 11581539374528841000; 7513532898888538900; 5102693507413195600; 3611281599001952600; 2651756242296310400; 2011968380129938800; 1571283023595655800; 1258655875732309600; 1030872628510968900; 860851269947509470; 731146119343090090; 630229908585850870; 550305278763947660; 485982456664937510; 433460619748394030; 390009472306303810; 353633927126174880; 322852900919479320; 296550676605902050; 273875292743763720; 254167954016920850; 236913247673871420];
[1668861848747040000000000000000; 29589749091159198000000000000; 1573922823897456600000000000; 139532165138763300000000000; 17317821814012608000000000; 2763482103990805500000000; 538976905724589430000000; 124232165130986840000000; 33040369076822616000000; 9958876121879039500000; 3354840164604522700000; 1249042241572488300000; 509260824896464220000; 225635808340513650000; 107916769382752310000; 55388746100942886000; 30343796048272908000; 17653975843729933000; 10855108555388472000; 7020886250757726600; 4754495244200598400; 3355909095843738900; 2458210267990127600; 1860965071860249300; 1450431318631101600; 1159753592310042100; 948340446829335360; 790798079349595030; 670795431872164620; 577558645568719440; 503810781594269880; 444528823947036330; 396175246489817020; 356212039276604400; 322786784129341890; 294525817345513460; 270395408242798370; 249606964451891420; 231551246937131890; 215752021409956280];
[1665910720268610500000000000000; 29433051594761270000000000000; 1560055738147729300000000000; 137814111053292110000000000; 17044147919624225000000000; 2710200108733292800000000; 526717245119304490000000; 120977368626102000000000; 32061049595016701000000; 9629553371054763300000; 3232445083682971600000; 1199226580278411500000; 487227721427900160000; 215116090496699660000; 102526716074674630000; 52440856052672406000; 28631523393083749000; 16602790784230718000; 10176243177805121000; 6561814204849548400; 4430891173230168400; 3119155910214347200; 2279176511570883600; 1721565891102205000; 1339068609496444600; 1068764103904962700; 872520418990250520; 726524180603858180; 615486154574333430; 529335640042970230; 461280727530571230; 406639766697172150; 362119995010900240; 325361945077802190; 294645525369396540; 268696601876033110; 246557334786103210; 227497735955488060; 210954357108775730; 196487136273336120];
[1662975192489598600000000000000; 29277732262059223000000000000; 1546359098266598700000000000; 136123159977079800000000000; 16775741464871437000000000; 2658127967411653200000000; 514778221948365790000000; 117818877649080250000000; 31114058624563483000000; 9312224678813048200000; 3114923134444540800000; 1151562516942559300000; 466220123744381360000; 205120919588231350000; 97423062814863604000; 49659048602694566000; 27021050100097518000; 15617249864528610000; 9541705708811764100; 6133948067395109100; 4130090028704511800; 2899627291881901900; 2113540713960014400; 1592860407221965600; 1236436234884496700; 985044269565974930; 802859097709009050; 667547027827192180; 564792703037017250; 485181744280228940; 422374329481347300; 372006568668472060; 331013254016210530; 297200713258110950; 268971598420782800; 245144001638046520; 224830336589935040; 207354816427329020; 192196306937617600; 178948145003584470];
[1660055128441368900000000000000; 29123774183108337000000000000; 1532830220090020900000000000; 134458791162391380000000000; 16512483051630595000000000; 2607234092471572800000000; 503150365322660300000000; 114753518515770650000000; 30198220770892997000000; 9006413321219692500000; 3002064198377469400000; 1105950076671377000000; 446186981890934760000; 195622469326578790000; 92589699581741169000; 47033464775651114000; 25506028287487810000; 14693072593486286000; 8948486756379651800; 5735091479432763600; 3850434597184180600; 2696035488178454200; 1960275970759543300; 1474010930277191100; 1141837159028920400; 908003949719957410; 738849224163829560; 613424793373744360; 518325753985550860; 444750391557839870; 386780306026894980; 340347421215106430; 302598103125827560; 271492649908758960; 245547576938724930; 223666441234955930; 205026695952672510; 189002686774834290; 175112383328649870; 162979962419763510];
[1657150392832945400000000000000; 28971160713796343000000000000; 1519466470936963600000000000; 132820495644932100000000000; 16254256393703170000000000; 2557487827773169200000000; 491824515923105240000000; 111778232732467400000000; 29312407277688379000000; 8711663094710962700000; 2893667903780996800000; 1062294253079818600000; 427079949608400800000; 186594476170886770000; 88011471212913360000; 44554859474461333000; 24080523434842710000; 13826268708295643000; 8393788488724631100; 5363207532299173500; 3590391442733728000; 2507191362181543200; 1818435757666220800; 1364246605938484600; 1054630895870808600; 837101585006487060; 680025832168396330; 563752899818644200; 475729130327392660; 407724776107741750; 354214310403115340; 311405064672927860; 276640137047131240; 248022826446939950; 224175282109202970; 204080266262875090; 186975448765132530; 172281547632099570; 159552671977428570; 148441477394465960];
[1654260852024684900000000000000; 28819875470753502000000000000; 1506265268446462000000000000; 131207775937259950000000000; 16000948225213064000000000; 2508859418002231400000000; 480791814711412300000000; 108890072433081560000000; 28455534022765609000000; 8427537365810759200000; 2789543142176424900000; 1020504745578872400000; 408853232732341790000; 178012146843744020000; 83674118036645422000; 42214561560715613000; 22738986392065227000; 13013117795479307000; 7875009292058105800; 5016406869834662600; 3348541436339923600; 2331996679656735600; 1687147521735180900; 1262857996523394900; 974228856427862890; 771840147862805500; 625962684030711140; 518160849755878900; 436676955730541490; 373815278728233890; 324416584796612220; 284944637542737010; 252925482361536350; 226595241739714610; 204674071758199170; 186218144140687900; 170520884256944210; 157045907197154630; 145380724079204540; 135204290530636320];
[1651386374002451500000000000000; 28669902326377505000000000000; 1493224079444890300000000000; 129620145731208500000000000; 15752448212007278000000000; 2461319979187937800000000; 470043692087275570000000; 106086196012054590000000; 27626559606607310000000; 8153618167918170200000; 2689507610246661200000; 980495711370526780000; 391463446550079230000; 169852071588792330000; 79564220358677922000; 40004436634793677000; 21476227351407303000; 12250150388175304000; 7389729572024165100; 4692936700127618000; 3123571025476276700; 2169437010537915500; 1565606791937273000; 1169192107632531700; 900090083701138230; 711763435135631050; 576269009624543850; 476309327648565850; 400871055262633220; 342757116535185100; 297149820104730430; 260751715084116710; 231258989804790360; 207031147565415550; 186879282106586790; 169927608121719850; 155521179498240710; 143163296281738520; 132472343465051160; 123151566133081510];
[1648526828352284100000000000000; 28521225403970118000000000000; 1480340418842546200000000000; 128057129609023270000000000; 15508648865951166000000000; 2414841470283307900000000; 459571857472856080000000; 103363863943976310000000; 26824483528967922000000; 7889505342684356300000; 2593387375877231400000; 942185531282406250000; 374869481560493870000; 162092142797812440000; 75669146543981779000; 37916852326586190000; 20287391640577564000; 11534130429762464000; 6935698611468806100; 4391170645770881000; 2914264184883656100; 2018575195180637500; 1453071766331805500; 1082647823289657300; 831717342488319520; 656452672718661340; 530586522661984170; 437887550212735710; 368038580673208130; 314308197224633690; 272197203070317420; 238630520562289430; 211462586446975830; 189167522841944440; 170640808505557880; 155069731627931740; 141847156518929430; 130513099084650620; 120714483262279590; 112176988103918600];
[1645682086235544800000000000000; 28373829072982776000000000000; 1467611848558701100000000000; 126518262762928280000000000; 15269445462014348000000000; 2369396665766611000000000; 449368289306328810000000; 100720434781321150000000; 26048344449209822000000; 7634815723636544300000; 2501016466955981800000; 905496588628073040000; 359032377117212060000; 154711478660050410000; 71977004451275586000; 35944645921372656000; 19167937205434062000; 10862039002274953000; 6510822404004243700; 4109599367254829000; 2719494994406230300; 1878545329711699900; 1348858336728037400; 1002671715610081600; 768653534246498980; 605523405701750680; 488586690403661380; 402610843862364510; 337929840776777820; 288247159946541870; 249360634301190540; 218402293879236420; 193373773569223770; 172855683355562620; 155821812714582330; 141517921205677010; 129381151003899150; 118985489239788340; 110004242165641520; 102183810334094590];
[1642852020364538300000000000000; 28227697944368329000000000000; 1455035976474284600000000000; 125003090722849130000000000; 15034735958047081000000000; 2324959129223708800000000; 439425225427095060000000; 98153361322137120000000; 25297218526257732000000; 7389182359837193400000; 2412236481667525900000; 870355060329232310000; 343915202469340560000; 147690351509910540000; 68476595995032050000; 34081094158062023000; 18113613660536144000; 10231059225789923000; 6113152389105288800; 3846821899315746900; 2538220794099565300; 1748547228545755000; 1252335514961308900; 928754197878687100; 710478409683487810; 558622649789890280; 449968235095620280; 370218429610800190; 310316319104376400; 264371586464435730; 228459102142309300; 199903803676315570; 176844257300491180; 157960014910869860; 142297545400497890; 129156817455585170; 118015982519368560; 108480461635646080; 100247951305054190; 93083993020101072];
[1640036504978587000000000000000; 28082816866036031000000000000; 1442610455411395400000000000; 123511169092027430000000000; 14804420917150933000000000; 2281503187872963800000000; 429735153836049820000000; 95660186939920487000000; 24570217834272536000000; 7152253777488733700000; 2326896219092377900000; 836690719583028730000; 329482944745181530000; 141010120570864410000; 65157374625381569000; 32319885048715915000; 17120442794848255000; 9638562242105083500; 5740875020250381100; 3601537644832338600; 2369475870845988600; 1627841325575857000; 1162921227888807300; 860425992533233160; 656805554075453330; 515426281826056810; 414454847295777320; 340471397527751780; 284988862550870570; 242496367711372140; 209327198697182470; 182985990230695820; 161738700230793590; 144356818903186390; 129954273552362910; 117881294247560680; 107654017132214340; 98906951362947760; 91360343513109277; 84797417113937055];
[1637235415820561300000000000000; 27939170918407446000000000000; 1430332982138872700000000000; 122042063290272500000000000; 14578403432551426000000000; 2239003907996057200000000; 420290803815064300000000; 93238542068293102000000; 23866488850350465000000; 6923693277510223400000; 2244851328990363400000; 804436749401684920000; 315702403453581000000; 134653168813662580000; 62009405530887202000; 30655091579126775000; 16184700428225788000; 9082094202603275900; 5392302102938831900; 3372538975253204500; 2212365634402320900; 1515743978696180600; 1080078450939194300; 797254887941377750; 607279622429109070; 475636649148931270; 381793092964104270; 313150854406118660; 261756026167876180; 222452212161603570; 191813765505727510; 167512727593010310; 147933583267246990; 131933260298158330; 118688303431358970; 107595547403836070; 98206314108760799; 90182031929019865; 83263797538865341; 77251169822417543];
[1634448630113844400000000000000; 27796745410070393000000000000; 1418201296403165200000000000; 120595348304604720000000000; 14356589054883721000000000; 2197437071239513200000000; 411085137390553850000000; 90886140833454551000000; 23185211010743950000000; 6703178267220634200000; 2165963979712893700000; 773529566392805100000; 302542091104773170000; 128602843665739460000; 59023328382672051000; 29081147160265986000; 15302899522013549000; 8559364186268675600; 5065861844312152500; 3158704390573141100; 2066061244192236600; 1411623145204638500; 1003311652550178400; 738842760049473410; 561573803545515230; 438980379249681580; 351750497753142540; 288056229712033760; 240442560549538760; 204084283630522830; 175780657488977420; 153359694438412550; 135316167955289470; 120586408898721850; 108405090516418240; 98212264826256615; 89591849129511070; 82230185588526108; 75887650430110306; 70378894715468156];
[1631676026539731500000000000000; 27655525873528613000000000000; 1406213179983779900000000000; 119170608447052380000000000; 14138885721806020000000000; 2156779151753270500000000; 402111341126690980000000; 88600777827725075000000; 22525595332282590000000; 6490399624366115500000; 2090102543250050700000; 743908654187252010000; 289972139578027070000; 122843401326228580000; 56190322450931850000; 27592822709725958000; 14471774454208691000; 8068232979418558700; 4760090560617923500; 2958992195587648200; 1929794651266548500; 1314894398283672200; 932163524118745970; 684822836985621440; 519387493815802260; 405206372775973310; 324113793362419540; 265003726186717880; 220888029441993100; 187250957203419070; 161101614776437950; 140413344036793770; 123783550358069940; 110222365594621400; 99018428671995756; 89651870765691924; 81736807138512613; 74982639286771826; 69167571920610172; 64120200588052635];
[1628917485215243500000000000000; 27515498061044712000000000000; 1394366455772603800000000000; 117767437119375440000000000; 13925203689858697000000000; 2117007294134036100000000; 393362818234477870000000; 86380325017819387000000; 21886883095844339000000; 6285061091825138100000; 2017141296475878300000; 715516405957564840000; 277964211887134720000; 117359954457310050000; 53502073936516172000; 26185205250901283000; 13688266376221737000; 7606702653880138500; 4473624992908641800; 2772434652567681300; 1802854022711595500; 1225017257188552600; 866211972187409870; 634857186534127090; 480444163200859700; 374083964378868750; 298687312123466180; 243824902650854950; 202945546286890490; 171822682985467300; 147661232948132900; 128569964598361660; 113241798379792040; 100755466031644950; 90449711461268852; 81841837588081910; 74573938566566240; 68376760299767422; 63044995217389530; 58420123752126651];
[1626172887671357100000000000000; 27376647940573970000000000000; 1382658986876410100000000000; 116385436584493350000000000; 13715455468490004000000000; 2078099292142475200000000; 384833180983505800000000; 84222728781794587000000; 21268344588887885000000; 6086878701416090000000; 1946960137709216100000; 688297975503624510000; 266491419016921070000; 112138423037790930000; 50950745371079263000; 24853677925640606000; 12949509574353745000; 7172906885108200200; 4205195185194283900; 2598132573635387800; 1684579518409658000; 1141491806002517800; 805067351512825350; 588634408077957630; 444489397330262240; 345401237221151820; 275291517172260860; 224365377641134480; 186480619394207990; 157680948269754500; 135354023058401910; 117734822025523210; 103605165140766470; 92107554813188183; 82627259162241938; 74716058989027843; 68041973231894610; 62355506189930396; 57466599090881133; 53228638918373919];
[1623442116831636300000000000000; 27238961691786801000000000000; 1371088675741903500000000000; 115024217744405610000000000; 13509555756172761000000000; 2040033568164633700000000; 376516243403830730000000; 82126007068911910000000; 20669277904211883000000; 5895580225317978700000; 1879444317758241500000; 662201136413971000000; 255528241524680050000; 107165488178969860000; 48528946949358882000; 23593901323506898000; 12252818764736868000; 6765101956139601500; 3953617882793447600; 2435250319009415500; 1574359392465951800; 1063855577864221500; 748369919425588960; 545867512143541020; 411289101012583920; 318963478174835400; 253761656653022980; 206483643493519870; 171370096338039570; 144717329544829320; 124083553569605630; 107821377807877780; 94795371669460914; 84207323961720251; 75485705621456814; 68214279152417642; 62085086735322523; 56866924182585782; 52383836632508381; 48500214266891228];
[1620725056991253700000000000000; 27102425702177583000000000000; 1359653463302651600000000000; 113683399924399380000000000; 13307421378538766000000000; 2002789153389157200000000; 368406014265943940000000; 80088246676922984000000; 20089007792250303000000; 5710904653695290200000; 1814484184664444200000; 637176148840745540000; 245050455619739070000; 102428548715998810000; 46229709666475238000; 22401796037642712000; 11595677255688565000; 6381658397340714700; 3717790411875870300; 2283011169944135900; 1471626393830658900; 991680683449985750; 695787493505041750; 506291972089949650; 380627849690296750; 294591761840746890; 233946531390137190; 190049981386779010; 157501198988711650; 132832626515195330; 113761667017535760; 98750575440163840; 86740952775626063; 76989709927555357; 68965439605323114; 62281572843133947; 56652414634023850; 51863695510633072; 47752506464040039; 44193406705404719];
[1618021593796400700000000000000; 26967026563257742000000000000; 1348351328147291100000000000; 112362610663344870000000000; 13108971228460863000000000; 1966345668673090600000000; 360496690327361610000000; 78107600641556742000000; 19526884564350898000000; 5532601697194472600000; 1751974941406634700000; 613175633454040730000; 235035063452434140000; 97915680400232839000; 44046460141823363000; 21273526363599893000; 10975725916245211000; 6021053215653465400; 3496685004183119200; 2140693047631523600; 1375854442679089600; 924571164215978060; 647013296073383800; 469663933773637370; 352307376507949160; 272121652533424930; 215707366372010900; 174945468680542680; 144770641342430510; 121936070993908730; 104307764862609980; 90450189328919931; 79376660513965703; 70395343942062586; 63012095787236323; 56867871873921528; 51697610102740184; 47302720676933706; 43532362564766849; 40270493676717204]
].
