(** Generated by tools/gen_grids.py from the text of the repository: quadratures/s2/womersley/womersley_*.hpp (points; sizes up to 513).
    Each definition transcribes the arrays of one file, named in its comment, in the order of the file. *)
From Coq Require Import ZArith List.
From Verif Require Import Model.GridCode.
Import ListNotations.
Local Open Scope Z_scope.

(** womersley/womersley_3.hpp:1-23. *)
Definition wo_3 : list lit3 := [  ((0,0),(0,0),(1,0));
  ((86602540378443871,17),(0,0),(-49999999999999978,17));
  ((-86602540378443871,17),(-27853501340422215,32),(-49999999999999978,17))].

(** womersley/womersley_6.hpp:1-26. *)
Definition wo_6 : list lit3 := [  ((0,0),(0,0),(1,0));
  ((1,0),(0,0),(0,0));
  ((0,0),(-1,0),(0,0));
  ((0,0),(1,0),(0,0));
  ((0,0),(0,0),(-1,0));
  ((-1,0),(0,0),(0,0))].

(** womersley/womersley_8.hpp:1-28. *)
Definition wo_8 : list lit3 := [  ((0,0),(0,0),(1,0));
  ((98198452026910221,17),(0,0),(18896137687861275,17));
  ((18319459063686479,18),(-94263104463438019,17),(33333333333333326,17));
  ((-82550216058107961,17),(45545040538444831,17),(33333333333333326,17));
  ((48331619830270472,17),(-45545040538444836,17),(-74764321751311447,17));
  ((-80718270151739313,17),(-4871806392499316,16),(-33333333333333337,17));
  ((-17480181875170903,17),(4871806392499316,16),(-85562804354527955,17));
  ((32386650321468835,17),(94263104463438019,17),(80976550846447878,18))].

(** womersley/womersley_14.hpp:1-34. *)
Definition wo_14 : list lit3 := [  ((0,0),(0,0),(1,0));
  ((94733798842886985,17),(0,0),(32023543788834891,17));
  ((-90345678715205624,17),(19439865352140395,17),(-38206674450670153,17));
  ((26927920592235138,17),(73788049996528826,17),(61888696627801454,17));
  ((44653739193447195,17),(-66273680123162926,17),(60115246809576328,17));
  ((-82046442080036874,17),(-74899750739616855,18),(5667699370466458,16));
  ((-11656044167235279,17),(80719102840180901,17),(-57866770007040813,17));
  ((68308974279411494,17),(69417879644216096,17),(-22694537197216119,17));
  ((89652975271963059,18),(47624880859809066,18),(-99483376236835352,17));
  ((77404138860819283,17),(-28723484649317643,17),(-56423051289481152,17));
  ((23885176030434224,17),(-92841348619564057,17),(-28460188904779665,17));
  ((-55948867636007371,17),(-52164302036257448,17),(-64409702710994043,17));
  ((-50942332680141611,17),(-805445198929442,15),(30289586598712298,17));
  ((-5393968004780384,16),(7990992447616081,16),(26550233267427786,17))].

(** womersley/womersley_18.hpp:1-38. *)
Definition wo_18 : list lit3 := [  ((0,0),(0,0),(1,0));
  ((72003741527852327,17),(0,0),(69393524236705495,17));
  ((50744441899307613,17),(75272348447771786,17),(41941330158747037,17));
  ((-25515267434360389,17),(71887451933905389,17),(64661931475973644,17));
  ((-8250564410373078,16),(11490180090048123,17),(55324447150665457,17));
  ((-43404252237354524,17),(-62289348660485999,17),(65085389536888494,17));
  ((36865605725752737,17),(-77605767634245759,17),(5116905260382294,16));
  ((91436701825752309,17),(-40119516384630444,17),(-54547194512488545,18));
  ((90761921839369331,17),(36668041858939621,17),(-20438401362515213,17));
  ((15981997131215264,17),(93221738618471095,17),(-32469727695921352,17));
  ((-58189825155661801,17),(80575493211075322,17),(-11024252452908749,17));
  ((-97701270722558531,17),(35787762342770611,18),(-2101556708400468,16));
  ((-67703529548835173,17),(-72910534618302059,17),(-10014291203244503,17));
  ((12121880567197435,17),(-9713563589773736,16),(-20438401362552708,17));
  ((47456547907265817,17),(-4518852489892255,16),(-75537231073059874,17));
  ((38422059413986676,17),(33228607796069187,17),(-86137128895285842,17));
  ((-44414953201154694,17),(33571014573461033,17),(-83068037852399679,17));
  ((-3636015543404284,16),(-44244324669691842,17),(-81977916729660449,17))].

(** womersley/womersley_26.hpp:1-46. *)
Definition wo_26 : list lit3 := [  ((0,0),(0,0),(1,0));
  ((59747656988965792,17),(0,0),(801886368778575,15));
  ((4602346322993518,16),(69098801192011228,17),(55742232697925842,17));
  ((-15937699059783497,17),(64988658790935305,17),(74313282643381895,17));
  ((-67981451368413237,17),(15627705499828232,17),(71654009592308965,17));
  ((-33217735334539067,17),(-54108071636700661,17),(77258647690741933,17));
  ((24927048241007871,17),(-7597407553138622,16),(60054825893858765,17));
  ((81953804356320092,17),(-40826547229973492,17),(40209041182360378,17));
  ((88817880684795025,17),(42679554204269904,17),(17024679837996942,17));
  ((36337305146868237,17),(91682302276628747,17),(-16551607291144232,17));
  ((-24131069079735956,17),(96154694487671477,17),(13113589632574763,17));
  ((-79672567810551709,17),(57813151389490647,17),(17604586473100547,17));
  ((-93950397856782852,17),(-21924113366405729,17),(26318358528776137,17));
  ((-57198249651756905,17),(-79634967886960517,17),(19662963317314619,17));
  ((19851187129663872,17),(-98008049335338898,17),(59383080489621614,19));
  ((71394091584343511,17),(-64397948913392733,17),(-27491596217652209,17));
  ((97048993030963926,17),(-20580144115154485,18),(-24026184223840255,17));
  ((56667458033113782,17),(55074263508128329,17),(-6128315183720997,16));
  ((-27174910417418613,17),(77633321436775926,17),(-5687347049811099,16));
  ((-8242715586074213,16),(3733887635436457,16),(-42562569110691612,17));
  ((-87346900265336236,17),(-26901145614007993,17),(-4058136738321349,16));
  ((-34710541860133864,17),(-84628021786341079,17),(-40413812147661532,17));
  ((22572523423110996,17),(-60530619121219076,17),(-76331679760863469,17));
  ((51766380313596394,17),(-3392314035847574,17),(-85491134480192099,17));
  ((-13953730561481703,17),(30769637516583387,17),(-94119725937316856,17));
  ((-39405383036008668,17),(-26477077787598341,17),(-88012386285197985,17))].

(** womersley/womersley_32.hpp:1-52. *)
Definition wo_32 : list lit3 := [  ((0,0),(0,0),(1,0));
  ((69538652093116349,17),(0,0),(-71863592069089655,17));
  ((44812457777580794,17),(-82600133339618187,17),(34191542817045201,17));
  ((-87295687563333738,18),(57244915338765989,17),(-81527997014436471,17));
  ((8330712977530208,16),(27697026927927648,17),(47883158082509841,17));
  ((-89148423292088941,17),(-23223519351146743,17),(-38900215596850451,17));
  ((96409323132612953,18),(-57496506631784772,17),(8124779473482493,16));
  ((52737619996567575,17),(55670430023408302,17),(-64183694643627642,17));
  ((-44670986063083357,17),(82348022586910175,17),(-34975794203670996,17));
  ((-77726124523122497,17),(-62568756084161559,17),(66181816760159634,18));
  ((-61249028125957472,17),(51046537441687473,19),(79046163592720875,17));
  ((-79957492931843521,17),(52792968453428268,17),(28630434958790285,17));
  ((60892136694312693,17),(-18817404300813548,17),(77058763188756552,17));
  ((-96570724354131832,17),(-40605365894881208,18),(25643853850849235,17));
  ((98767382061914288,17),(60819801795774113,18),(-14422682057477318,17));
  ((74666416333048102,17),(-53960165849434671,17),(-38900215596850246,17));
  ((-52106602999677853,17),(-556315727327933,15),(64730441363472035,17));
  ((34241517661034016,17),(87468184934152282,17),(34305030135448522,17));
  ((-31762246423879614,17),(56602154586619291,17),(76074672514978336,17));
  ((-35014006372421347,17),(-87254931472059183,17),(-3406752546866727,16));
  ((28279525504184533,17),(-92084065543571381,17),(-26847594123597485,17));
  ((77559219605253016,17),(6286619027179543,16),(-56929407984406405,18));
  ((11532072773686707,17),(-11760443809991116,18),(-99325868821552799,17));
  ((87000996112490758,17),(-43214381572928218,17),(23734866772403251,17));
  ((-29023984143243164,17),(92038222648956303,17),(26202555525633703,17));
  ((-85142492584132901,17),(39902421121264259,17),(-34037519669067506,17));
  ((-42728863008225687,17),(-47776590042344924,17),(-76757030361719891,17));
  ((-52523128678993669,17),(14499550434384748,17),(-83851559263800257,17));
  ((-17745811129773031,17),(-94578541754828238,17),(27202676832926526,17));
  ((20796878042673947,17),(-56436010110055301,17),(-79890341259353004,17));
  ((17745811129772868,17),(94578541754828227,17),(-2720267683292662,16));
  ((32580735512709053,17),(50578085119591965,17),(79877111734752959,17))].

(** womersley/womersley_42.hpp:1-62. *)
Definition wo_42 : list lit3 := [  ((0,0),(0,0),(1,0));
  ((93248216132655637,17),(0,0),(36121602789432539,17));
  ((-97956656131034692,17),(-82814270168621987,18),(18327888208700083,17));
  ((39738932087753187,17),(90173013794260004,17),(-17018955895857293,17));
  ((6022034446611,14),(-99785807088911793,17),(-25549568955875734,18));
  ((-56709982693717609,17),(-82364885309003422,17),(-59421485694216667,20));
  ((42414717665656149,17),(78819299514543406,17),(44592709598984598,17));
  ((33514055813887228,17),(-79436923438049611,17),(50661457318173309,17));
  ((-63486255483510967,17),(72420784815945216,17),(26920722340326109,17));
  ((-51144426259146991,17),(68484805373262084,18),(-85658309444866698,17));
  ((78070285259453875,17),(55103704624743666,17),(-29472229235951969,17));
  ((-60607443503881864,17),(-44232708952261013,17),(-66107527942499389,17));
  ((45436938471651184,17),(49031139597450757,17),(-7437359727819195,16));
  ((-72684950185476893,17),(-52405360534112433,17),(44391172588978023,17));
  ((8053836749298996,16),(5385975160841282,16),(24752747690795279,17));
  ((6052923509397411,16),(-48335320355514827,17),(-63244829868283836,17));
  ((-88214066699744209,17),(-4237716727999748,16),(-20553688953961324,17));
  ((-54935182340687749,17),(-25170247526455547,17),(79678004371673028,17));
  ((52173215746075685,17),(-84895680483704083,17),(-84070799878593366,18));
  ((-89079994946924845,17),(10157707288321312,17),(-44289676933802835,17));
  ((75178914827606835,17),(-50532758529938782,17),(42362378128456574,17));
  ((-11260009749008823,17),(-38179903075102317,17),(-91736073502347038,17));
  ((-76115438426043805,18),(37504026947793434,17),(-92387836661712641,17));
  ((-87765172836372618,17),(46488290475910576,17),(-11666759859918491,17));
  ((19337720432514655,17),(50009572934043223,17),(84410278896758284,17));
  ((62934353923671515,17),(20622043898635703,17),(74926620113633802,17));
  ((-39295603363840315,17),(89254549935326688,17),(-22124214610105705,17));
  ((53243714845248889,18),(82364020993449738,17),(-56460775004292574,17));
  ((-23194023438401173,17),(76061029634195243,17),(60636268418537842,17));
  ((-82522349799878125,17),(24602482853694707,17),(50840727974137168,17));
  ((44913957826789591,17),(-28151685821646655,17),(8479515892863615,16));
  ((-17129970050895518,18),(98775935573368312,17),(15504199201066343,17));
  ((-43001618057787228,17),(3042435818147522,16),(85001289835257732,17));
  ((-23025372842153186,17),(-8688533812445568,16),(43826592663345904,17));
  ((73429958698090647,17),(2410957485410354,17),(-67839726190486971,17));
  ((20168965492904883,17),(-75659508418765864,17),(-6220009338237934,16));
  ((87531209671403842,17),(-46473801038936263,17),(-13359384359097765,17));
  ((-29032439082635958,17),(-8414389654378851,16),(-45573261407773408,17));
  ((-52553721839997014,17),(58891161460766173,17),(-61399816144400543,17));
  ((98183172842281263,17),(48599913762707996,18),(-18342438617732823,17));
  ((24999831162012423,17),(-71330817010645461,18),(-96561522291836366,17));
  ((-7894644470614344,17),(-54236802292772512,17),(83642356887747393,17))].

(** womersley/womersley_50.hpp:1-70. *)
Definition wo_50 : list lit3 := [  ((0,0),(0,0),(1,0));
  ((45614107260884412,17),(0,0),(88990747939280357,17));
  ((52289735692600736,17),(45092774197909763,17),(72335504811498219,17));
  ((13217709136304726,18),(48597659742286753,17),(87387186642120496,17));
  ((-4781720206534803,16),(24172231124399565,17),(8443469920068577,16));
  ((-44304011121235065,17),(-2722075996823547,16),(85417707914232799,17));
  ((-36360564494266803,19),(-51837597766638521,17),(85514508995369654,17));
  ((44415450613609248,17),(-5092375334730137,16),(73715935128120358,17));
  ((80297338420017716,17),(-24581785018725194,17),(5429616273692206,16));
  ((87020640058653309,17),(21370806767067896,17),(44392531150036385,17));
  ((52516139068468703,17),(76400440918590373,17),(37483699987944585,17));
  ((18486058513663611,18),(82343220823698982,17),(56711344903694894,17));
  ((-50177537557102514,17),(63274856061701101,17),(58978871768427155,17));
  ((-83408672176086285,17),(17865533067762167,18),(55134396098118443,17));
  ((-72623797896005338,17),(-48671295960427996,17),(48547800451643486,17));
  ((-32434194792057636,17),(-77704935695577693,17),(53944100481303758,17));
  ((15109836134643614,17),(-89357569592063435,17),(42271948246842833,17));
  ((56006867153619266,17),(-78483092262767429,17),(26526120344120779,17));
  ((87282017704677939,17),(-4777127813860525,16),(9987710969201305,17));
  ((99911161817077554,17),(-27927571102914543,18),(-3155986705400099,17));
  ((87416828813497793,17),(48393776676797839,17),(4042328431466162,17));
  ((46833252121971713,17),(8816882758692477,16),(-57362302627218684,18));
  ((-33757670255665201,18),(9894990293213336,16),(1405421313024966,16));
  ((-52436405373682515,17),(83537567919180833,17),(16489334056749777,17));
  ((-87088228614419771,17),(41075379122720146,17),(26989880820918116,17));
  ((-98754199902528683,17),(-13313459319857818,17),(83880750205213336,18));
  ((-77778508038949024,17),(-62788562375971135,17),(28460713262190629,18));
  ((-3499267768894318,16),(-93371283543962902,17),(75707276737854851,18));
  ((78479683751662505,18),(-99035728384969723,17),(-11416387153600382,17));
  ((48168676686360362,17),(-83303096193315096,17),(-27209791452566762,17));
  ((75714273565743628,17),(-50076048769372072,17),(-41949232627775285,17));
  ((87494291283442793,17),(-16790919243093911,18),(-48393487610605046,17));
  ((76120238788562411,17),(50383761761358581,17),(-40831186580197487,17));
  ((3373175675295263,16),(77680034347411142,17),(-53178763149820063,17));
  ((-76330563731999784,18),(9418930863773316,16),(-32712544822275702,17));
  ((-59158675045239772,17),(75230124103151552,17),(-28994475237812811,17));
  ((-91011865568295092,17),(36672467526844549,17),(-19286535491661416,17));
  ((-90936909446291814,17),(-21147907724093479,17),(-3582240219820762,16));
  ((-56106752619530187,17),(-7301807979826086,16),(-38992208620000612,17));
  ((-13298040123751501,17),(-82276066454746666,17),(-55261297646736518,17));
  ((2554661984270315,16),(-6280216722205334,16),(-73506856869448955,17));
  ((50073129693440832,17),(-24215524347381231,17),(-83104091736118746,17));
  ((54094473666928811,17),(27032872434607963,17),(-7964302685503708,16));
  ((87565921295243904,18),(49896963462360072,17),(-86218415269088855,17));
  ((-33319656176867674,17),(64920633252870419,17),(-68374789873912001,17));
  ((-74698390032911199,17),(24326593895001811,17),(-61873801854732791,17));
  ((-61912686445476972,17),(-33737711709655066,17),(-70912524039835556,17));
  ((-19652162733631609,17),(-39026937716074461,17),(-89948266422408085,17));
  ((78697924826329216,18),(-3368961805329264,18),(-99689281606619262,17));
  ((-40018562430113835,17),(15976629923662999,17),(-90240024142890152,17))].

(** womersley/womersley_62.hpp:1-82. *)
Definition wo_62 : list lit3 := [  ((0,0),(0,0),(1,0));
  ((99942217733774219,17),(0,0),(33989872690060666,18));
  ((-82355746043969325,17),(47258985492339844,17),(31370677132890262,17));
  ((-23330136168858998,17),(-93123607518683593,17),(27994615000901035,17));
  ((-57555312628962307,17),(73457400162223085,17),(-35936003528348004,17));
  ((66717608681907181,17),(-65566876576389532,17),(35351738115464754,17));
  ((-1034831563468962,16),(98663172389555209,17),(12589312036555028,17));
  ((-64989141333705913,17),(-21273698912690123,17),(-72964657494432217,17));
  ((-75796871617812456,17),(35163488590765779,17),(-54939633445081704,17));
  ((55097324297798711,17),(70751799243129387,17),(-44254578961765245,17));
  ((-45620774221692989,17),(96295773787444999,18),(88464773774198313,17));
  ((7090681374818707,16),(-57340107085236869,17),(-41040661343763446,17));
  ((87677363645256412,17),(40535932335902986,17),(-25875047707715704,17));
  ((-82837031186647414,17),(58237910429480753,18),(55714537798230723,17));
  ((-15223148421994059,17),(-76869103857094068,17),(-6212404224073983,16));
  ((-30682170815042975,17),(-34862518126290859,17),(88561894875677583,17));
  ((28488814131178919,17),(89637655059081267,17),(33962895414088351,17));
  ((-26715016152528492,17),(-95330373564800397,17),(-14086439861290281,17));
  ((86930359817505232,17),(-17394026089638992,17),(46266190662210671,17));
  ((89808374970793092,17),(37730858654840782,17),(22601727594895296,17));
  ((75613961400852991,17),(17955673216625301,17),(62929505326262325,17));
  ((-33701998728510424,17),(61579090858785002,17),(-71219315151923379,17));
  ((-85538361515869199,17),(-36824180083843272,17),(-36430323500253842,17));
  ((39292253467020211,17),(68199913362310072,18),(-91703906872374708,17));
  ((-79267748015716025,18),(-59021460116117183,18),(-99510456303359329,17));
  ((6801191944237519,16),(73104052764502236,17),(54932943821300248,18));
  ((-13762582119781278,17),(9445756907282844,16),(-29805351503515631,17));
  ((41647350186238052,17),(-76627601058729096,19),(909115561605919,15));
  ((22516837478216029,17),(-95927971140909485,17),(1705333934361368,16));
  ((-56917541135164795,17),(82122382074416012,17),(40383008246611951,18));
  ((2102427385830789,16),(-40488719046471705,17),(-88986760468660453,17));
  ((-55541673355667176,17),(-683239105704325,15),(-47402170469461791,17));
  ((14715168203988346,17),(-94334596917355718,17),(-2973966457726705,16));
  ((-40118235444628414,17),(79985077882901723,17),(44642070974311965,17));
  ((5667824415915711,16),(-39220991682570011,17),(72451987208569701,17));
  ((76845244124119161,17),(22799179239724143,17),(-59791352899056083,17));
  ((-94712817402869887,17),(36650660504121357,18),(-31875531532144596,17));
  ((-66337196288050482,17),(-74749577034937587,17),(-34463200284643031,18));
  ((33368454393216901,17),(-69745096096768056,17),(-63420563083753778,17));
  ((92059991124395357,17),(-15907636077084072,17),(-35663779225080772,17));
  ((56177895164648883,17),(-82128993100677206,17),(-99434695724700831,18));
  ((-51363300830054825,17),(15079737133667712,17),(-84465453623483089,17));
  ((64184932755448343,17),(-23400592968456502,17),(-73025383640917629,17));
  ((-98708680641123248,17),(-24857019539393801,18),(15824590101639927,17));
  ((-89905320573411196,17),(43122126168781721,17),(-75839018503562269,18));
  ((-62931039609277831,18),(36039532852210077,17),(-93067442826863067,17));
  ((-28682946569664974,17),(-42972553396474755,17),(-8561920480049362,16));
  ((-1026540158934975,16),(44109937334026972,17),(89156799844978674,17));
  ((58032956773745881,17),(62380514890568906,17),(5235310201013933,16));
  ((88715813482715322,17),(-45832049581655615,17),(53784448723332511,18));
  ((14930372573149783,17),(-4668919411519733,16),(8716193623193762,16));
  ((32804328610347444,17),(93328211653403181,17),(-14619197447258092,17));
  ((-55368150813359196,17),(47374818021156467,17),(68483534466113982,17));
  ((-19758854029252684,17),(-72747355811227343,17),(65707000463614018,17));
  ((3824419914009386,16),(47941668675067478,17),(-789871991957108,15));
  ((35327475355571525,17),(4351612409174852,16),(82814952931418317,17));
  ((84803008552352815,18),(78258124728553458,17),(-61674552380822878,17));
  ((-69129156200886999,17),(-32637339637258972,17),(64466765269831638,17));
  ((-90475907480339801,17),(-4067167641718879,16),(12646141823674095,17));
  ((2718145918917495,16),(-79079753758383742,17),(54841232862332767,17));
  ((-61694557017763907,17),(-66340258640727556,17),(42340898878782107,17));
  ((23391595973299112,19),(76645343389441778,17),(64229561885772946,17))].

(** womersley/womersley_72.hpp:1-92. *)
Definition wo_72 : list lit3 := [  ((0,0),(0,0),(1,0));
  ((37828701656133973,17),(0,0),(92568835636034696,17));
  ((2840794839096526,16),(41954731923528976,17),(86213623850532306,17));
  ((-99456444680869907,18),(46644729573257138,17),(87893989323230293,17));
  ((-37739769508048021,17),(14085306515946358,17),(91527667608386309,17));
  ((-27377335517052159,17),(-34143885048131084,17),(89914829776888106,17));
  ((13382797764128113,17),(-434471906342277,15),(89068750692919929,17));
  ((49969539963048903,17),(-42943464867491393,17),(75225686444563533,17));
  ((73148703771509893,17),(-10910076122419068,17),(67307038083330606,17));
  ((65685637086153004,17),(30697324644650237,17),(68869959635875722,17));
  ((38972605990838827,17),(72172443641716533,17),(57203796736458701,17));
  ((18273797033287277,18),(8127611364200904,16),(58231040130424372,17));
  ((-39676043721584819,17),(6280632599517606,16),(66941593718633285,17));
  ((-67687619865529525,17),(22687104249747059,17),(70026290903493393,17));
  ((-62077531104041916,17),(-24152805976568939,17),(74585669504838015,17));
  ((-39820109940526194,17),(-66419942863342729,17),(63267290398393816,17));
  ((-36408755972461623,19),(-75268838946534733,17),(65836686762696917,17));
  ((3590142503012424,16),(-78840395090910542,17),(4995277552564521,16));
  ((70916202546265705,17),(-58484041426642397,17),(39376504603936002,17));
  ((91587828026616191,17),(-26002345018780276,17),(30586726057087077,17));
  ((92471224043005573,17),(16301913478916788,17),(34399423554969311,17));
  ((73344981650025953,17),(56876854728914106,17),(37222802996326831,17));
  ((44310401400657895,17),(88235764608692591,17),(1584418415797951,16));
  ((55285932806425651,18),(9809606511933171,16),(18617106768804489,17));
  ((-35139595450258504,17),(87882471670066031,17),(32278166068601433,17));
  ((-71403431809566598,17),(55927465678500998,17),(42114944005621874,17));
  ((-91000883804967059,17),(10025071840398664,17),(40228560517494638,17));
  ((-83436056025113936,17),(-31822795446955476,17),(45008157537442894,17));
  ((-64652020472282501,17),(-685495983610658,15),(33482365707759215,17));
  ((-22740561800860026,17),(-92994548263629084,17),(28894304667612758,17));
  ((14056184525538468,17),(-97246438339865116,17),(18589080310623876,17));
  ((55365328394276081,17),(-83054270912354711,17),(60554516768905754,18));
  ((83484086817343062,17),(-54574295301941234,17),(-72148139664748465,18));
  ((98534483835342102,17),(-14055976301837314,17),(-96635927845130989,18));
  ((95716957003714553,17),(28832752835516123,17),(-26337247151318282,18));
  ((75213127749661379,17),(65803129607456878,17),(-35963242313992151,18));
  ((36349019432312146,17),(89536391255521464,17),(-25729038599364185,17));
  ((-49181686978331821,18),(97595795078392211,17),(-21233756136777329,17));
  ((-44341507994578794,17),(89514463915128994,17),(-4581639308563519,17));
  ((-77239733487966478,17),(63268954546015388,17),(55734155920896589,18));
  ((-96504867977842612,17),(25771433239726788,17),(47585381525708494,18));
  ((-97993241469125447,17),(-19627811014599156,17),(34747174200001472,18));
  ((-83527974620637446,17),(-54974130607342075,17),(-96042685356141199,19));
  ((-47654149462174233,17),(-8782590236427027,16),(-39614281437917113,18));
  ((-93714804003863381,18),(-97402740319177539,17),(-20612654691233734,17));
  ((32742996315041978,17),(-91143556539450965,17),(-24914820763012779,17));
  ((6834465613597277,16),(-60186515540533581,17),(-41310910480704138,17));
  ((87497731068045137,17),(-14978821950243693,17),(-46041089810374247,17));
  ((85714423023844621,17),(28951027401331236,17),(-42601357937239315,17));
  ((6407502468072076,16),(62680478770420567,17),(-44334510184233256,17));
  ((21576302616657622,17),(75291870866103849,17),(-62173928192421279,17));
  ((-21904799433687991,17),(81955021016479135,17),(-52948600472140583,17));
  ((-60109209196360103,17),(69833283110571243,17),(-38861234408945688,17));
  ((-84791564629816607,17),(39163939113235519,17),(-35729209909574211,17));
  ((-93753974188696154,17),(-1713695109018485,17),(-34745583502059973,17));
  ((-81071642546432721,17),(-38122554239749773,17),(-44430390872248421,17));
  ((-59208984102958884,17),(-71468511319219574,17),(-37236381286453551,17));
  ((-14596757989339798,17),(-82608740221064036,17),(-54430971838553477,17));
  ((31446046787452314,17),(-73149996363917791,17),(-60499786556649715,17));
  ((59742880509514584,17),(-34865192818634344,17),(-72216387047160646,17));
  ((64458326825651935,17),(1102033414399884,16),(-75654982243022528,17));
  ((4376271866779986,16),(43028509509108842,17),(-78951705644827785,17));
  ((-56264905418883682,18),(52929239412132467,17),(-84657180554488143,17));
  ((-46375681450938888,17),(48188925305445701,17),(-74344627565596277,17));
  ((-69650492530483343,17),(15539638218606988,17),(-70052327115491986,17));
  ((-60276863645839662,17),(-21848269424460237,17),(-76742119023239441,17));
  ((-38153476217613452,17),(-57101444606745499,17),(-72689320235745636,17));
  ((9689204697175495,17),(-53143010295612381,17),(-84154261740310388,17));
  ((31155719641872742,17),(-17111747301149344,17),(-93469295695959076,17));
  ((14255701927056227,17),(17450282824502747,17),(-97428243296858175,17));
  ((-28854986931810478,17),(1249503152143394,16),(-9492767729405065,16));
  ((-17478152394384533,17),(-24336640044094723,17),(-95405671425984084,17))].

(** womersley/womersley_86.hpp:1-106. *)
Definition wo_86 : list lit3 := [  ((0,0),(0,0),(1,0));
  ((95516280663209729,17),(0,0),(-29608109163993362,17));
  ((94207955549233324,17),(33009429934076029,17),(-59362148428946986,18));
  ((-80438154482809987,17),(52810115812758374,17),(-27217548957293042,17));
  ((33567061410450411,17),(59794905084362837,17),(72786136827139625,17));
  ((-88832210433867276,17),(43453421838484185,17),(14853905882287913,17));
  ((74260463414904165,17),(18112230673114985,17),(-64477365590163127,17));
  ((32917595739443783,17),(-22407163711111855,17),(9172977109509205,16));
  ((-18650239433050182,18),(-77904672910476547,17),(-62668840937124104,17));
  ((6251980430941233,16),(67338955867630055,19),(78043709647959802,17));
  ((-96121753193579032,18),(77394490885945555,17),(62591523916064051,17));
  ((-48670179721916262,17),(-81710973271716192,17),(-3089547625179539,16));
  ((-79117860273360885,17),(-50856874958206198,18),(-60946697765012658,17));
  ((15819165083650261,17),(39299907545783253,17),(-90582952496311964,17));
  ((-64410742931972553,17),(18296936136465711,17),(74272998613018459,17));
  ((-66625730070885669,17),(51271068143836429,17),(54150620161837137,17));
  ((88430662313444242,17),(-44544721060059056,17),(-13992347497368893,17));
  ((-3890816083475484,16),(-67068798420346487,17),(-63150069666689823,17));
  ((33697039742509044,17),(-91502854501080844,17),(22175146690513606,17));
  ((51469289348355873,17),(-17639543410447664,17),(-83903270271462915,17));
  ((-89607045535351049,17),(-44379173202483641,17),(10326549711687219,18));
  ((70678408796600134,17),(-33478700184495525,17),(62319653111497142,17));
  ((-89103881062487689,17),(-28001390999047621,17),(35727027328347682,17));
  ((66905253966941969,17),(60923444586895348,17),(42567838696444155,17));
  ((-47030978850856725,17),(22814209113628964,17),(-85250213435802469,17));
  ((-45272456436071057,18),(-39150332357338818,17),(91906232232598617,17));
  ((12469156567170592,17),(-14910312123512653,17),(-98092827091907275,17));
  ((21547589910863515,17),(-80023721028169703,17),(55963429503908391,17));
  ((44263179691676591,17),(88130914611573397,17),(16544268291765174,17));
  ((-108832332012054,15),(-94721722818045107,17),(-30155438339868551,17));
  ((-24420991262447247,17),(-41611498201843305,17),(-87590515486309739,17));
  ((81267068216668881,17),(44252395645745018,17),(-37912914726775265,17));
  ((-44695700783132192,17),(-13443779486982377,17),(-88439578948625186,17));
  ((-33948271153722021,17),(-93896962714342558,17),(55565527708038416,18));
  ((32410908664497917,17),(-80145605121022434,17),(-50261466147802691,17));
  ((-18115177470688795,17),(49396442203800356,17),(-85040177815030826,17));
  ((-9899814422980123,17),(95042493107766035,17),(-29477418106930564,17));
  ((-65110236222632745,17),(-75480652486473376,17),(79579041995493219,18));
  ((-50264944382434285,17),(-48228066428614702,17),(71746003197306507,17));
  ((-13878908906763374,17),(94292977295044667,17),(30268966292127564,17));
  ((-66454628468833032,17),(-38840138015573622,17),(-63837497084398276,17));
  ((-67777254369133988,17),(-61219079510467334,17),(40724293659593247,17));
  ((-74416958731804794,17),(30323464410553608,17),(-59519776202962593,17));
  ((-9429068902370753,16),(-17442524283366692,17),(-28372950323479657,17));
  ((-36136600494889798,17),(93237938655603625,17),(-91263351167203549,19));
  ((88331859840263804,17),(-38582577051765682,17),(26624561690374443,17));
  ((48137556795853248,17),(-51183720111977282,17),(-71154777922672041,17));
  ((12389800107889963,17),(-49975022448054734,17),(-85726250265615578,17));
  ((-49169774767836077,17),(77369505139504025,17),(39953634675064698,17));
  ((60167107935854092,17),(75254081374196191,17),(-26772044359016417,17));
  ((-31830926920317631,17),(17831843882528875,17),(93106484388266508,17));
  ((-48720528558805054,17),(61134098621042854,17),(-62361302766565641,17));
  ((9941682704135486,16),(-97871228717060735,18),(45284353725607657,18));
  ((-91500891448587793,18),(-67034333965383863,17),(73638807285686814,17));
  ((42388270558574859,17),(17057165318317524,17),(-88951040636726908,17));
  ((72585330397840808,17),(-5457626890442896,16),(-41866462514854874,17));
  ((-68879215092801882,17),(72114641958289516,17),(74251022502887926,18));
  ((80892481063413568,17),(-1896475821265852,16),(-55648400276563903,17));
  ((65226385872147385,17),(35383732111226179,17),(67033648923049927,17));
  ((13579871288592421,17),(-98736576240231178,17),(-81655133422387186,18));
  ((-10261388431521144,17),(79067036317634687,17),(-60358161630414831,17));
  ((-76626146336963896,17),(-5571955201414468,16),(-3199633136609914,16));
  ((-51237386864842149,17),(79262553082947185,17),(-33048114409682738,17));
  ((1188622477955764,16),(99212174514951701,17),(39575356605592832,18));
  ((53533537104770357,17),(52994879567413034,17),(-65770077882632649,17));
  ((23557931304068261,18),(44864432372725477,17),(89339985149986845,17));
  ((74802040688164673,17),(66037366065861358,17),(66121851130757345,18));
  ((31545503972944389,17),(21326491887406265,17),(92466544884457236,17));
  ((-99529609036279554,17),(-13225954614801,15),(95972739009892782,18));
  ((30966556313699239,17),(90265899038191921,17),(-29885445636587654,17));
  ((88960578357380093,17),(-86713880983188656,19),(45664686231320145,17));
  ((37868361167186193,17),(-53241536018391267,17),(75705522023917715,17));
  ((-10361523041444862,17),(78707530872592316,18),(-99149836540969682,17));
  ((-33684760212483705,17),(53996388232677428,17),(77134473403617976,17));
  ((-74621851119147287,17),(-15233268645255751,17),(64803756541833946,17));
  ((-89356616821260304,17),(19150717197816608,17),(40603510452517638,17));
  ((-73257524912105382,18),(-95192790349887935,17),(29743335654223546,17));
  ((90892522859731273,17),(28693295920312278,17),(30253000800294488,17));
  ((26730980347132566,17),(83615554833679451,17),(47894610130338877,17));
  ((25281309121179418,17),(7141049835415989,16),(-65279369895319128,17));
  ((49469331204964989,17),(-84302889206641307,17),(-21114169212787823,17));
  ((-9540406673952323,16),(20335560082470686,17),(-22012020481837269,17));
  ((68599369224278017,17),(-72426661023353112,17),(69645757257337307,18));
  ((6122189660614924,16),(-66510462446779894,17),(42757897060793959,17));
  ((-39472137008217872,17),(-20335065684463793,17),(89601537395365161,17));
  ((-34501808581940013,17),(-79948430995452158,17),(49171877998919211,17))].

(** womersley/womersley_98.hpp:1-118. *)
Definition wo_98 : list lit3 := [  ((0,0),(0,0),(1,0));
  ((32365083217504209,17),(0,0),(9461765896662222,16));
  ((38762334540260102,17),(31573606588779318,17),(86605939680635935,17));
  ((29510603988442904,18),(39678988616648492,17),(91743496253861245,17));
  ((-26481750330423293,17),(33206880318456905,17),(90531872834669702,17));
  ((-34335868097836841,17),(-49019009857150013,18),(93792427885699792,17));
  ((-93027616859925596,18),(-36705686410448124,17),(92553504580601775,17));
  ((23600980290878951,17),(-38245603931705002,17),(89332343018688898,17));
  ((59745015469399665,17),(-17429039132191027,17),(78273633629018069,17));
  ((7263353046752139,16),(9446014034544753,17),(68081885040609924,17));
  ((6482860973425183,16),(41995791545243494,17),(63510667233249274,17));
  ((31273098563154678,17),(63584880666214516,17),(70561719486719376,17));
  ((-24572641079278902,18),(71198644694858648,17),(70176312575677313,17));
  ((-34224655205848853,17),(6799559469741252,16),(64848069190886237,17));
  ((-56567133289060534,17),(43146588253132312,17),(70274685012259741,17));
  ((-61514177042766915,17),(10275098957147009,17),(7816922901098593,16));
  ((-47145916998482595,17),(-35760289530815242,17),(80613052311920652,17));
  ((-19710025182895327,17),(-65125435125052733,17),(7328159801111177,16));
  ((11586221209716148,17),(-7232504496167047,16),(6807971319983559,16));
  ((47150099632942466,17),(-52049726158966547,17),(71187738490418362,17));
  ((79752283357591691,17),(-3407973687507605,16),(49780968590174951,17));
  ((92654435884949338,17),(-61084994285149352,18),(37119290747179501,17));
  ((89920863064644485,17),(27493791504183507,17),(34034244731357605,17));
  ((72823174987042727,17),(59988987499174762,17),(3313769098217933,16));
  ((45769821003187156,17),(78167771164797017,17),(42366532032538817,17));
  ((13156819439652204,17),(90953139693897933,17),(39426190306123665,17));
  ((-20918692426056421,17),(90709093539331331,17),(36527642361051565,17));
  ((-62087103238507024,17),(68580565815172922,17),(37972326817324542,17));
  ((-8247536263501769,16),(41339291439004622,17),(38585975969817904,17));
  ((-85715444857697853,17),(11509470838541271,17),(50203531687160485,17));
  ((-74036055198338657,17),(-2283923165502372,16),(63222084970971293,17));
  ((-54533845091628863,17),(-61473869055174657,17),(56982656685253519,17));
  ((-32155070222997362,17),(-85268481948852171,17),(41174475650484954,17));
  ((-14984840923233119,18),(-92910474297151169,17),(36951296476625356,17));
  ((35572519325527552,17),(-8157671271188629,16),(45605216937948423,17));
  ((66743746373194557,17),(-62753908519696466,17),(40090139505522376,17));
  ((89758165628665543,17),(-42712947553391617,17),(10912186503091867,17));
  ((99426496169050194,17),(-10502942270727865,17),(20149598516113029,18));
  ((95463574760892833,17),(29772581021790168,17),(54709521325267546,19));
  ((80247519163870906,17),(59469652525957173,17),(-48678636470310011,18));
  ((56529007216663085,17),(82447272987873088,17),(26303079594572544,18));
  ((26644033198043571,17),(96193532037950924,17),(60745278833223074,18));
  ((-85872409686556572,18),(99623278718339925,17),(12089788890638185,18));
  ((-47106823563858219,17),(86954730384377499,17),(14826396645973997,17));
  ((-80550588868546469,17),(5920879308208078,16),(24334039314797291,18));
  ((-95833648046696096,17),(28413612751624201,17),(29289097737420156,18));
  ((-98208918046245075,17),(-20306631673427066,18),(18731919903915789,17));
  ((-87718014533369482,17),(-32780301926796923,17),(35085634266913485,17));
  ((-72525817195792408,17),(-62839822896256514,17),(28127610962355448,17));
  ((-50296873493318439,17),(-85867586106061577,17),(98479527372557454,18));
  ((-20229880433428132,17),(-97917467986092799,17),(-17092105902118598,18));
  ((15086674263536182,17),(-98609482672432602,17),(69686574561510381,18));
  ((47161206326056021,17),(-87343706673875565,17),(12120128808686757,17));
  ((730425152773162,15),(-6829918317275806,16),(-11198168186038692,19));
  ((88948789122796612,17),(-36294626368391586,17),(-27763519416081117,17));
  ((9576837134127647,16),(59311586487886876,18),(-28164523921456142,17));
  ((83628416879311374,17),(37318689875903288,17),(-40169681056815254,17));
  ((64913903365627879,17),(64589569089668131,17),(-40179257268507501,17));
  ((39803048516696959,17),(85881412239620436,17),(-32250586979244938,17));
  ((70864730310833624,18),(94389752620695233,17),(-32254557820309454,17));
  ((-32210644690682394,17),(91884444834725454,17),(-22797437707446619,17));
  ((-62688531563271044,17),(75487470908324628,17),(-19281850178486892,17));
  ((-83632950628073177,17),(42305326985099018,17),(-34868164246574934,17));
  ((-95925228089176207,17),(85047510396627973,18),(-26944755070196402,17));
  ((-96423952683701175,17),(-25648985477379754,17),(-66746455211133593,18));
  ((-83498948067555834,17),(-54759466504315746,17),(-54153947016201076,18));
  ((-59915581457647527,17),(-77095621553230831,17),(-21596023613457457,17));
  ((-20623913289015952,17),(-91770198988596019,17),(-33954157009718855,17));
  ((17550358482310907,17),(-94040258288569278,17),(-29127559770113853,17));
  ((4784402526724898,16),(-83269136985879699,17),(-27878308267426194,17));
  ((6927509281950488,16),(-59877717013136134,17),(-40194782250234568,17));
  ((815182674993848,15),(-1733823881179723,16),(-55264432855172163,17));
  ((73579508274743821,17),(14062753447803539,17),(-66244206746803125,17));
  ((53634037587822736,17),(42185318097166796,17),(-73101223991591757,17));
  ((32746484070912718,17),(67829336457784051,17),(-65778787589086707,17));
  ((-19369444998744729,18),(79032620596293868,17),(-6123800394923623,16));
  ((-35046513262664786,17),(75857214939479445,17),(-54931091831088485,17));
  ((-61717221716676196,17),(55915663712140562,17),(-55357231643259053,17));
  ((-76726068622646537,17),(16240661135912177,17),(-62043140793978235,17));
  ((-87346825656259486,17),(-19402005866523162,17),(-44655282063048379,17));
  ((-7493607383657962,16),(-49467203078821015,17),(-44017958352442554,17));
  ((-42931701893592167,17),(-7330106744960655,16),(-52761941617684671,17));
  ((43270148885021502,18),(-79514379292441917,17),(-60487522910864555,17));
  ((36223125868812583,17),(-67778068114188961,17),(-63984518713517902,17));
  ((56126211666505466,17),(-41478314412228895,17),(-7161981427989681,16));
  ((50904122200913993,17),(-12541675849024123,17),(-85155602926950258,17));
  ((36219428467870368,17),(18131606454322607,17),(-91429742692662042,17));
  ((1015689042746766,16),(48792802803496238,17),(-86695443775457692,17));
  ((-23428170299690973,17),(50129310187159892,17),(-83295696746999992,17));
  ((-48469330648994624,17),(31081059495555086,17),(-81759964084337722,17));
  ((-62894596419916948,17),(-93290894095516802,18),(-7718314474005552,16));
  ((-55003623758867515,17),(-41153184032465101,17),(-72670604905855885,17));
  ((-19749813869025043,17),(-60582266347645586,17),(-77069668847879413,17));
  ((15341351942535328,17),(-46695102814015538,17),(-87087371608998432,17));
  ((14715200317164617,17),(-18289587007720595,17),(-97205729701045585,17));
  ((44291377777147412,19),(15894095543133299,17),(-98727815504300565,17));
  ((-2993664383186519,16),(29402297485362335,18),(-95368508455935652,17));
  ((-24141231141133268,17),(-29228963418601211,17),(-92535769605404206,17))].

(** womersley/womersley_114.hpp:1-134. *)
Definition wo_114 : list lit3 := [  ((0,0),(0,0),(1,0));
  ((32841127782359347,17),(0,0),(9445348233910037,16));
  ((31109166866065735,17),(33282549100658609,17),(89019613918852325,17));
  ((-15678705478571607,18),(31851364227259343,17),(94778860400448084,17));
  ((-33753428413010944,17),(16262120440314637,17),(92715961458383456,17));
  ((-35366122961217517,17),(-14843544611990414,17),(92352079186361002,17));
  ((-19349452764913087,18),(-30940042803597068,17),(95073496507115829,17));
  ((31725928612756438,17),(-33371982276168694,17),(88768103802082898,17));
  ((59589570710001516,17),(-13926321457154092,17),(79089447041117555,17));
  ((59617619104635788,17),(22755472520596121,17),(76993038403864555,17));
  ((47971540243065636,17),(57496701013954488,17),(66278659455512967,17));
  ((16446467155171779,17),(62789302282754422,17),(76072447291767509,17));
  ((-16724656417744796,17),(56876447980245437,17),(80531705140639009,17));
  ((-45416213400866862,17),(42852475300526033,17),(78109109077909267,17));
  ((-64532978737096536,17),(10716949810138357,17),(75634923428826339,17));
  ((-64938959055474832,17),(-21601554554072411,17),(72912992241704055,17));
  ((-37687246229528054,17),(-44479650056292713,17),(81247967374603669,17));
  ((-49296300728138509,18),(-58528926476707832,17),(80932462663812088,17));
  ((2936007765273187,16),(-61140079773446121,17),(73483851869116112,17));
  ((59377975328074606,17),(-47800490695853809,17),(64725336114802501,17));
  ((8033864201349894,16),(-21097348815638989,17),(55683071685909347,17));
  ((80503053399014257,17),(14690974644340407,17),(57475504847150372,17));
  ((71413462028707198,17),(50191593760195652,17),(48794685744309152,17));
  ((53996324086341629,17),(77751703310456244,17),(32234602797080525,17));
  ((26807228643963343,17),(82973225413843599,17),(48957291151101978,17));
  ((-73757500725492364,18),(82422112317972662,17),(56144400539241557,17));
  ((-37093369113581715,17),(75753284666202536,17),(53717053438222617,17));
  ((-6257188236260639,16),(56046553065540405,17),(54254432326508673,17));
  ((-79448020806339348,17),(26484286389675149,17),(54649744412807078,17));
  ((-86928262836064529,17),(-96589928568427144,18),(48478665176503605,17));
  ((-74297641663164815,17),(-43885765636863228,17),(50536125868118031,17));
  ((-49430339270797685,17),(-63387348167608559,17),(5948685276472615,16));
  ((-18258816528860222,17),(-78122404189158423,17),(59695105181842023,17));
  ((13788037846323128,17),(-83486256759402522,17),(53291040003470369,17));
  ((46277252642189676,17),(-76715966242458622,17),(44419324751473871,17));
  ((74002482896076094,17),(-5629257783804672,16),(36807311849188556,17));
  ((92564335861545244,17),(-27465741559492801,17),(26028383874113281,17));
  ((95202958511865876,17),(65687784311773148,18),(29887252140503723,17));
  ((88093359290200002,17),(39964554013368675,17),(2534550199700672,16));
  ((72766004222869929,17),(68008150333498762,17),(89442784870278597,18));
  ((39969536876787826,17),(91472288281395087,17),(59377267047625137,18));
  ((10209222046871751,17),(96480633763117929,17),(24233429263411646,17));
  ((-20979050654613557,17),(95062512947755218,17),(22869150961262846,17));
  ((-50483710376727742,17),(8355911558555742,16),(21662621936370619,17));
  ((-74299727715219488,17),(62695544562706862,17),(23426889538090279,17));
  ((-90441865574013203,17),(34032981896378411,17),(25729848323161686,17));
  ((-97395066592361856,17),(10454924973076233,18),(22651886210809727,17));
  ((-91227552649222099,17),(-35445239288366398,17),(20522393852176582,17));
  ((-72642067459472681,17),(-64678867431683695,17),(23233039899421437,17));
  ((-46211883274048765,17),(-82714599059613758,17),(31980571393785867,17));
  ((-16533524272214753,17),(-94457742059714467,17),(2836155038287812,16));
  ((15749893740194068,17),(-96196645949709503,17),(22319188049721586,17));
  ((47693583175265342,17),(-86642588041210333,17),(14777823297940818,17));
  ((75068744261452891,17),(-65633605637785919,17),(75441000783513387,18));
  ((93294383135760439,17),(-35945481113722338,17),(-20200155496849805,18));
  ((99863946486699273,17),(50741174841309369,18),(-12022994048489747,18));
  ((91980286622144714,17),(38650446303735697,17),(-67653435559585556,18));
  ((70371318261289251,17),(67799472347579615,17),(-2123932945170649,16));
  ((44084948915778976,17),(86200223172173163,17),(-25020767457468196,17));
  ((10277171380611538,17),(98860916976952584,17),(-10995400988123602,17));
  ((-21390680250062985,17),(9701902156477098,16),(-11390709067220971,17));
  ((-51481894545966467,17),(84842095972211562,17),(-12305823215048653,17));
  ((-76757998919022741,17),(63298821576605946,17),(-1007317174281811,16));
  ((-93260474041038099,17),(35306072918442277,17),(-74809890200758136,18));
  ((-9937234730878215,16),(41257630514290079,18),(-10397820424792904,17));
  ((-95145360691154135,17),(-29590109389322816,17),(-84726480676406091,18));
  ((-77335016828810332,17),(-62749872460277845,17),(-90414975698988792,18));
  ((-51265491605188307,17),(-85835721978080681,17),(-20194561099481388,18));
  ((-20948234795979639,17),(-97672974963376058,17),(-46001544252580226,18));
  ((11502533291422376,17),(-98805771307752877,17),(-10252379438928225,17));
  ((42180846846073511,17),(-89073465298944388,17),(-16932038831335117,17));
  ((68732209706577174,17),(-69047224586098499,17),(-22546931627340644,17));
  ((85026879818746004,17),(-4143176156727153,16),(-32462884063516045,17));
  ((96189984681382201,17),(-73957918634284039,18),(-2632088732752571,16));
  ((8771443612254981,16),(32544925941449165,17),(-35312964916142603,17));
  ((66628185431883546,17),(54410281256445026,17),(-50992217049752664,17));
  ((39761608183903879,17),(72188230583967972,17),(-56638095658183807,17));
  ((1298331399486119,16),(89007187926828268,17),(-43693867476673626,17));
  ((-1921741777297129,16),(87951283101866218,17),(-43534614444996184,17));
  ((-51887308833848045,17),(74208588027676303,17),(-4243574725298816,16));
  ((-76784134566536555,17),(49480879921285698,17),(-40692004141886551,17));
  ((-88887951706229873,17),(19188555419018577,17),(-41602059833645233,17));
  ((-9029364240332024,16),(-16017098231085941,17),(-39881207426519477,17));
  ((-78406545573027131,17),(-50347444907256445,17),(-36298049570405266,17));
  ((-50256933592920605,17),(-79841037361602674,17),(-33160961669709377,17));
  ((-18077979962453208,17),(-90904616248434034,17),(-37543806216233361,17));
  ((1369410036166315,16),(-8877268158535081,16),(-43953186681179468,17));
  ((4312844723727739,16),(-75227030533609895,17),(-49807940290647479,17));
  ((62259493094821583,17),(-53058771260028126,17),(-57519755840509945,17));
  ((778866137591817,15),(-21110746411003314,17),(-59059391997364485,17));
  ((83230852742199157,17),(88756422839038937,18),(-54716068260196982,17));
  ((60887325223121269,17),(31930328288002863,17),(-72616718203139863,17));
  ((31871748757243024,17),(50356563438634849,17),(-8030198098307364,16));
  ((42037443490834721,18),(6987229970873281,16),(-71415616407481675,17));
  ((-30363887106028142,17),(66796967406716812,17),(-67942619209730126,17));
  ((-58586326766778796,17),(45349082099600369,17),(-67164745727948116,17));
  ((-73279526279589546,17),(11637466306876405,17),(-67042377689005495,17));
  ((-72859903440947738,17),(-255170604810113,15),(-63563465095793692,17));
  ((-54631051609738557,17),(-60296845067738347,17),(-58135519907292832,17));
  ((-23366727045082517,17),(-7294760925014534,16),(-64285631146382316,17));
  ((10154641981952635,17),(-69408818747278811,17),(-7126920180783396,16));
  ((31936753621553282,17),(-50749072212163804,17),(-80028591376587321,17));
  ((5191102772337205,16),(-26240670935191357,17),(-81342930790415358,17));
  ((55543906763224093,17),(50316201303787896,18),(-83003356681171847,17));
  ((22959136922308776,17),(25459364191417566,17),(-93939868036693785,17));
  ((-90430278810860756,18),(45875993239411872,17),(-88394665512344894,17));
  ((-39519994555226307,17),(3122821219333986,16),(-86388476046071228,17));
  ((-51871724732403013,17),(-55237111526038,16),(-85492801214118808,17));
  ((-47229221822802875,17),(-36384207197289009,17),(-80284432318085319,17));
  ((-17325064388583211,17),(-48857951577696868,17),(-85514576018143684,17));
  ((79897991921812475,18),(-3085354655592033,16),(-94785134772232493,17));
  ((23722700550230619,17),(-60040122187657474,18),(-96959709755552592,17));
  ((-10070695023387038,17),(13507125814944324,17),(-98570475569336646,17));
  ((-23068793774201479,17),(-13010668541479672,17),(-96429006309860488,17))].

(** womersley/womersley_128.hpp:1-148. *)
Definition wo_128 : list lit3 := [  ((0,0),(0,0),(1,0));
  ((26132065245056485,17),(0,0),(96525204822513122,17));
  ((18449107130829701,17),(34625458831367584,17),(91982107210002739,17));
  ((-80700823340747477,18),(35092195074611937,17),(93292076919568234,17));
  ((-33517526864177194,17),(18554225601167051,17),(9237053699773623,16));
  ((-28163482713517246,17),(-1125405815850557,16),(95289896717387568,17));
  ((-84309067704268284,18),(-35686789950972553,17),(93034256239427937,17));
  ((18223299195043136,17),(-37316667958309901,17),(90969102770870436,17));
  ((44936627564936982,17),(-23700480074275354,17),(86133540199733005,17));
  ((52474143951844709,17),(12364334969915998,17),(84223437576916738,17));
  ((45669603769670175,17),(4024811119836107,16),(79337108823587021,17));
  ((23784894617899599,17),(64513643468270498,17),(7261038902570548,16));
  ((-32216410000716206,18),(67123560148213246,17),(7405436315502183,16));
  ((-30604942200704643,17),(54392739602437579,17),(78133010894454502,17));
  ((-55218130114308994,17),(36586675072865621,17),(74915774799382506,17));
  ((-60784292879390889,17),(43415708995103115,18),(79286950384517596,17));
  ((-55683197162579179,17),(-2440098392261873,16),(79397566318883073,17));
  ((-3797066009225325,16),(-46182493735427665,17),(8015863175314154,16));
  ((-15398662812520292,17),(-65287141416256333,17),(74165155897362278,17));
  ((14678936040637361,17),(-65885561011125393,17),(73780903267472608,17));
  ((44309361765221261,17),(-54714038248478691,17),(7101446668463236,16));
  ((67820147620147508,17),(-32975513292715414,17),(65673762644326616,17));
  ((72330146660942918,17),(-27951376492441792,18),(68996645494750442,17));
  ((77922517699950777,17),(26150110174649971,17),(56958344192528332,17));
  ((65078397787567333,17),(50660879662913927,17),(56553314785102626,17));
  ((44146078793185045,17),(73137652702673095,17),(51980837664749824,17));
  ((19265496715442651,17),(88731520060508873,17),(41899379280113203,17));
  ((-89438195813462074,18),(86179450266005952,17),(49931056899942888,17));
  ((-39553783252291214,17),(73469130881714495,17),(55116105068448662,17));
  ((-64083641039241834,17),(58635987342359863,17),(49549045798483471,17));
  ((-78194970420460141,17),(30364408630382511,17),(54438490881641055,17));
  ((-82222264987426497,17),(-60103810310456274,19),(5691342454584889,16));
  ((-79243087093375453,17),(-29903279692295048,17),(53163211072658945,17));
  ((-64227925906999062,17),(-53081416986974861,17),(55291380018407355,17));
  ((-42926233718388346,17),(-72406638660020561,17),(53987194191877708,17));
  ((-13884011171156405,17),(-85857424781702729,17),(49353184736686051,17));
  ((19553671912357654,17),(-83775248763227528,17),(50983934816795184,17));
  ((51729297470613755,17),(-70928063243633288,17),(47888303662835152,17));
  ((74486081632543855,17),(-54159201562738191,17),(38969276733302494,17));
  ((87554151842903349,17),(-26197044627881949,17),(40595385794873123,17));
  ((91791570427709235,17),(26595819576266236,18),(39588309160982899,17));
  ((92173595947049092,17),(30525245829241399,17),(23921487772597153,17));
  ((78716734886230744,17),(55763274343475444,17),(26346401715322643,17));
  ((58163216445071986,17),(77563064211738397,17),(2451553227750633,16));
  ((30810378715213671,17),(94019143841568942,17),(14530008765430225,17));
  ((-52338005464098877,18),(98263829817485915,17),(17799637115417979,17));
  ((-3511425643584461,16),(8930361791533542,16),(28139879569563325,17));
  ((-62402731693095337,17),(75594100638642137,17),(19784615888977938,17));
  ((-81930063352602356,17),(53139041674719856,17),(21533856341374441,17));
  ((-92868196286688109,17),(25316203359078071,17),(27103283305514358,17));
  ((-96021003570853825,17),(-49150359786299114,18),(27491986006377395,17));
  ((-9143786254092009,16),(-3418474149614108,16),(21691490100724156,17));
  ((-77265492105722899,17),(-59136587109423822,17),(23084795747634437,17));
  ((-55138480718812544,17),(-7943284897708881,16),(25498440097467484,17));
  ((-26889535791989194,17),(-93619332379287012,17),(22635668087068134,17));
  ((62210894053653536,18),(-97019674401553024,17),(23419667496082996,17));
  ((37553104559367484,17),(-89557321455356464,17),(23858971304210957,17));
  ((62308508247852601,17),(-77195695521369134,17),(12588661283049632,17));
  ((82985316782699925,17),(-5523392835915989,16),(79151978174986495,18));
  ((95585287494926674,17),(-28032417268051396,17),(8811151832880168,17));
  ((9977819740300139,16),(4174384074416275,18),(66435734498596175,18));
  ((95491977597654887,17),(28484099490917281,17),(-83629116150121585,18));
  ((81751467502041952,17),(5730329699448431,16),(-57471484080805282,18));
  ((58309145354946357,17),(81055637977262585,17),(-54797007285692582,18));
  ((22327926283258792,17),(96735242996092574,17),(-11989848638589436,17));
  ((-10887104205861593,17),(98940442070994394,17),(-96052009248591266,18));
  ((-41293997638078828,17),(91013129367089884,17),(-33787633648573991,18));
  ((-66177689971101383,17),(73665904354221445,17),(-13922926623504314,17));
  ((-84796982012094713,17),(51818776284264345,17),(-11148375040419409,17));
  ((-96698722026317463,17),(24998227212338975,17),(-49442688759069126,18));
  ((-99755432722657467,17),(-53683355980878616,18),(-44760043813275294,18));
  ((-9343281589623168,16),(-33647835990015257,17),(-11752959069524126,17));
  ((-78244477323008632,17),(-61779514711083916,17),(-78162222660409578,18));
  ((-537468306179684,15),(-84169993687037681,17),(-51662715034590405,18));
  ((-24682202814359516,17),(-96558036566618366,17),(-82057564325548407,18));
  ((52799030488162507,18),(-99579262013131864,17),(-74895394194258683,18));
  ((33380034924793073,17),(-93822787913944672,17),(-91136017289846105,18));
  ((57832127086666585,17),(-79284871775578847,17),(-19218589546625583,17));
  ((78338533849872505,17),(-57351611297468841,17),(-23955517022941183,17));
  ((92277443746292975,17),(-30324846682432993,17),(-2377555571036496,16));
  ((96248240215876524,17),(-97057258871931663,19),(-27117047114259257,17));
  ((87816767084415404,17),(26896358191913022,17),(-39557569880540555,17));
  ((75497098461136081,17),(56654663408574879,17),(-33021769153251179,17));
  ((4872603613643301,16),(81344978126825529,17),(-31761107285126233,17));
  ((17617979853080351,17),(89521446390447634,17),(-40933084687800714,17));
  ((-1238271716855652,16),(90491831514556575,17),(-40717278207962782,17));
  ((-39943128715217574,17),(84633955691140772,17),(-35236912641569201,17));
  ((-61637245312489686,17),(63825521214847436,17),(-46121067116243408,17));
  ((-80445586278341696,17),(41870209693325611,17),(-42135414897338108,17));
  ((-92551854148853885,17),(14327278777270161,17),(-35055432909146383,17));
  ((-90668256289929439,17),(-1492564711595136,16),(-3945240625758793,16));
  ((-79200154111885657,17),(-47734990904151564,17),(-38061873732570345,17));
  ((-58516006977073964,17),(-737721692443989,15),(-33668144772689768,17));
  ((-2960562909472424,16),(-87513650187266701,17),(-38273590853306833,17));
  ((-11868624907279735,18),(-91146946241507898,17),(-41119649175008449,17));
  ((26200829236781109,17),(-8704578060406688,16),(-41671916518606283,17));
  ((49766564534046648,17),(-7095820206998471,16),(-49882087100218531,17));
  ((70395490647578196,17),(-47560920752948621,17),(-52748779261879331,17));
  ((82520425752661053,17),(-179860464414593,15),(-53543267242532233,17));
  ((76956853240688161,17),(89982086340545678,18),(-63219261152509609,17));
  ((6657549624390533,16),(40888489549329865,17),(-62416622163107227,17));
  ((50409170268614989,17),(64889143152555928,17),(-5699398787378267,16));
  ((21572967017689812,17),(71761545818172545,17),(-66218484095001684,17));
  ((-93846368321982537,18),(72134289157226061,17),(-68619041958551463,17));
  ((-362044682182388,15),(65831017353425469,17),(-65996315315686616,17));
  ((-54991662695627386,17),(41023514204962092,17),(-7275292651327242,16));
  ((-7429014572274163,16),(18710279707366589,17),(-64272075443118526,17));
  ((-75354529590644503,17),(-13735219958875566,17),(-64288712872898524,17));
  ((-64295252542275794,17),(-43509887537133096,17),(-63031818845968635,17));
  ((-43980838666845956,17),(-65634451658715742,17),(-61300934622732905,17));
  ((-15230306389960013,17),(-71116491797475445,17),(-6863295390472095,16));
  ((12799017438770685,17),(-7015126032457768,16),(-70106959907525435,17));
  ((37633786715410145,17),(-55384457282333044,17),(-74271528791323838,17));
  ((58338922414394156,17),(-29705864533816101,17),(-75591876176120043,17));
  ((55111431214330431,17),(-36014413759518807,19),(-83442198231520004,17));
  ((46798632637423127,17),(28956215269898566,17),(-83495063210412668,17));
  ((27092100628954302,17),(47661384995054418,17),(-83632592114939353,17));
  ((-5988544190980425,17),(47241803764137785,17),(-87933778012680497,17));
  ((-3165939639439061,16),(335286052162243,15),(-88732830745995162,17));
  ((-53730905606487345,17),(43106087809730284,18),(-84228311360516694,17));
  ((-46577599755427634,17),(-25199690505606526,17),(-84826309594634797,17));
  ((-2788114814691835,16),(-44375048885054236,17),(-85167462181625664,17));
  ((32419416786300961,18),(-4369365566331444,16),(-89890790790425634,17));
  ((2924543672388169,16),(-27973449962993246,17),(-91445013685806542,17));
  ((24687996324895042,17),(15474485575942843,18),(-96892250672711533,17));
  ((68935983456503147,18),(2125085018351173,16),(-97472455946932957,17));
  ((-24364879489430458,17),(38963408014680644,18),(-96908055267992799,17));
  ((-73336747255756438,18),(-16169492067890523,17),(-98411202316026392,17))].

(** womersley/womersley_146.hpp:1-166. *)
Definition wo_146 : list lit3 := [  ((0,0),(0,0),(1,0));
  ((28939388233626823,17),(0,0),(95721010278117213,17));
  ((18808012747764369,17),(28976022559009912,17),(93843746585159749,17));
  ((-10708337418092326,17),(2777507680683256,16),(95466625676803074,17));
  ((-33289157027961147,17),(12189102089336241,17),(93505389227698976,17));
  ((-36435522070925935,17),(-14901919051901513,17),(91925978591416924,17));
  ((-1052661779500127,16),(-25077355027662174,17),(96230538721419145,17));
  ((20234405695104224,17),(-29555506057993863,17),(93365094590118747,17));
  ((47181458523303882,17),(-28657331426183752,17),(83382656033156055,17));
  ((54777346476122102,17),(728520993755985,17),(83659497788335602,17));
  ((4556814352420086,16),(30386117398476609,17),(83667366190192871,17));
  ((25426069447976452,17),(55794137109555875,17),(78997020555377651,17));
  ((-14995324924152197,18),(56300926077524405,17),(82631453606464667,17));
  ((-29767759952343742,17),(49016144251953203,17),(81922512596302577,17));
  ((-51889475503493399,17),(35255760276553527,17),(7787498763591908,16));
  ((-6067137848209756,16),(70454273744166906,18),(79179200464477328,17));
  ((-61479422743230716,17),(-23710776451887625,17),(75220207784927962,17));
  ((-42263022092669444,17),(-44557881615517614,17),(78920416557010475,17));
  ((-1720241519087076,16),(-51765750570569657,17),(83811598120227171,17));
  ((11898766369299624,17),(-53826307656513872,17),(83433494251140772,17));
  ((40900478570271043,17),(-56209549410755066,17),(71886281081738279,17));
  ((66752424599887739,17),(-37980825212204189,17),(64043506511092096,17));
  ((75430422483342496,17),(-99094119017328938,18),(64900346068000703,17));
  ((72243433646312716,17),(20670600660625699,17),(65981910879571781,17));
  ((59572793783340294,17),(47391136528740097,17),(64847223682760147,17));
  ((41730282261206636,17),(69088741561951628,17),(5903667785187342,16));
  ((15583956648041139,17),(80928675038879072,17),(56636471038046543,17));
  ((-10745164815294404,17),(76586396434393123,17),(63396098573067849,17));
  ((-38526511050763285,17),(69827641478743552,17),(60330824888869772,17));
  ((-60972812177864566,17),(57199916389746985,17),(54867893527351708,17));
  ((-75347829505631203,17),(29631308072453222,17),(58691482948599116,17));
  ((-80413956823081956,17),(-23171991392666617,18),(59398873189686807,17));
  ((-76792669684835457,17),(-35158385337558568,17),(53542262028527521,17));
  ((-58542511567652644,17),(-58379674661917003,17),(56254670256966055,17));
  ((-36232706933821646,17),(-72808333109205747,17),(58190528250796325,17));
  ((-10073283721591271,17),(-75153042695262473,17),(65196235540929659,17));
  ((19119022993480678,17),(-75696592497092274,17),(62485909164418107,17));
  ((51860902406288489,17),(-69508378543507277,17),(49789879632892442,17));
  ((73885431119542389,17),(-54160655901335375,17),(40094468703507002,17));
  ((87588190579203429,17),(-25580921282872604,17),(40913632659305815,17));
  ((90638647221382496,17),(57001583208700489,18),(41858617093673633,17));
  ((85291543449825702,17),(32847818125427991,17),(40575527850482729,17));
  ((721885735676285,15),(57212286677776791,17),(38930246587595257,17));
  ((54849167748415317,17),(77317156919046459,17),(31837494299359409,17));
  ((30103825082173968,17),(90271637057871112,17),(30737456926588202,17));
  ((-13618948842482768,18),(9407505819095392,16),(33882571754412216,17));
  ((-2915711670995873,16),(88061494507238147,17),(37350177112210725,17));
  ((-51691598169734065,17),(81654484168947494,17),(25700659403249715,17));
  ((-71823628977328047,17),(62704215136798513,17),(30158708934654554,17));
  ((-86881587293790163,17),(33827232805069296,17),(36156715974534565,17));
  ((-92945255486560141,17),(65448774028982106,19),(36888360336776577,17));
  ((-90231522063306324,17),(-29990084891399199,17),(30965581446918333,17));
  ((-74034826182724733,17),(-60248889934362126,17),(29814690569765334,17));
  ((-53945103860721244,17),(-79557306013764739,17),(27578267336585716,17));
  ((-28933893749561201,17),(-89959795199251624,17),(32711848620917267,17));
  ((-23755669742132411,18),(-91572574316353217,17),(40110102401103337,17));
  ((27815238299315698,17),(-88398915380638476,17),(37575847001484841,17));
  ((51191074183086349,17),(-82995535719007407,17),(22163370111440983,17));
  ((73658507717010113,17),(-66226161698273023,17),(13730249364718602,17));
  ((90925429568411664,17),(-3869842583627236,16),(15329647601766244,17));
  ((98494745465360511,17),(-73841684193039103,18),(15628793058620982,17));
  ((97685226190905894,17),(19223922714523117,17),(93828236420384861,18));
  ((89062845151806991,17),(44195898734727951,17),(10701969374602217,17));
  ((74259207324042753,17),(66696005739533815,17),(61002414703768715,18));
  ((53699811853252166,17),(84357477918700485,17),(38226446510283407,19));
  ((25561606165994655,17),(96562863047943004,17),(471357297586305,16));
  ((-66010635428238346,18),(99453286889686354,17),(80913340643766318,18));
  ((-33935871392209521,17),(94032144779999327,17),(25124452082903221,18));
  ((-56487631004596783,17),(82116450215658765,17),(-81262628229556377,18));
  ((-76069076350802489,17),(64902022115815949,17),(11059604034145293,18));
  ((-90764990256981548,17),(4094387403198147,16),(92366510653633799,18));
  ((-98628100947083852,17),(11498073226338186,17),(11844493051777381,17));
  ((-98197084468160145,17),(-18107548414049288,17),(54267202236601406,18));
  ((-86832434785352619,17),(-49248341992285111,17),(58931384048241102,18));
  ((-68389369205109385,17),(-72944878531747825,17),(-1392435174717912,17));
  ((-43019938503370481,17),(-90273348967809897,17),(-85774717940669183,20));
  ((-15373528005150283,17),(-98649640456222731,17),(56482806705088019,18));
  ((11380038880698132,17),(-9854370345747353,16),(1263460422646146,16));
  ((35086367353510567,17),(-93631674733843673,17),(-14339848221676508,18));
  ((58228512363392904,17),(-80504928571946277,17),(-11331232217725863,17));
  ((81170576612760226,17),(-57102591108076883,17),(-12273205819825633,17));
  ((9508768873535659,16),(-28912507075136346,17),(-11063380387482455,17));
  ((98410228813168565,17),(-22225462576292352,18),(-17620645648570993,17));
  ((94211816812701354,17),(24316542057292229,17),(-23083313350252363,17));
  ((84609293200254632,17),(4872724605462348,16),(-2160840105342193,16));
  ((67017538065062032,17),(69189493106541988,17),(-2686007511824452,16));
  ((40825159887007462,17),(87749702428487486,17),(-25165373907656824,17));
  ((10436703295505076,17),(97472302649095943,17),(-19754124647896623,17));
  ((-18380760589033621,17),(95368876305386974,17),(-2381018841623114,16));
  ((-41167168660621895,17),(83706211821194354,17),(-36035181795201904,17));
  ((-65885363728292179,17),(66911879117232143,17),(-34379052915860792,17));
  ((-83852101122973566,17),(48445359603337185,17),(-24937366945328471,17));
  ((-95282423527029469,17),(24572618629406667,17),(-17817019405880344,17));
  ((-97951163928260354,17),(-31530033206886514,18),(-1989040108089305,16));
  ((-91014287228305546,17),(-36379199604677576,17),(-19823051138674999,17));
  ((-73889273413546364,17),(-62129113809949332,17),(-26083490786483193,17));
  ((-47404305149026565,17),(-83822426266415673,17),(-26956125614584897,17));
  ((-16569615318437689,17),(-95780093036845593,17),(-23486626536226879,17));
  ((11547811163207593,17),(-96959389783959304,17),(-21576023499735666,17));
  ((30397359150414482,17),(-87794585936716507,17),(-36987987737659,14));
  ((55845351939888221,17),(-74220491563220981,17),(-37048823177313828,17));
  ((77556389664332959,17),(-50333443542214495,17),(-38099224183923425,17));
  ((87617695620619918,17),(-24221154175085841,17),(-41671034359121967,17));
  ((86925307642230465,17),(22390780622313373,18),(-49386004300153946,17));
  ((80347735824421729,17),(28979683819469432,17),(-52004031320778565,17));
  ((6674085485131962,16),(53075561089438572,17),(-52236415542764414,17));
  ((43771457119175072,17),(74408102013987565,17),(-50472704468259266,17));
  ((14801306580467663,17),(87233959266261696,17),(-46595683000072041,17));
  ((-12884845178332482,17),(84286374468883474,17),(-52247371643189378,17));
  ((-42709672521462477,17),(67085528611074041,17),(-60625207002386383,17));
  ((-64137385060586816,17),(48205094301552914,17),(-59688061796044334,17));
  ((-81170561564018406,17),(29594755550962598,17),(-50353653087543393,17));
  ((-87931523544747736,17),(41183047538078998,18),(-47445618691869101,17));
  ((-86124169911488146,17),(-25600048596680475,17),(-43900624926129678,17));
  ((-68567134280698561,17),(-5305943610145275,16),(-49832161674249148,17));
  ((-4438623136262248,16),(-74065702820164159,17),(-50439410495949255,17));
  ((-14980061408272519,17),(-85971764171830289,17),(-48830866523005539,17));
  ((913727859817281,16),(-81062710222343048,17),(-57838976056183888,17));
  ((34278838231344783,17),(-68359928388638902,17),(-64435094786998315,17));
  ((5771584591104254,16),(-54228967175217813,17),(-61058171032892428,17));
  ((69435195578014708,17),(-27601567646360076,17),(-66459815516643261,17));
  ((68007171823842827,17),(23135325893989386,19),(-73314194097677265,17));
  ((59581542564103729,17),(28980549920491661,17),(-74901051474513936,17));
  ((42064921469024957,17),(53858066387279702,17),(-7300582899213004,16));
  ((16881896597454635,17),(6923825768990518,16),(-70150304627557658,17));
  ((-15019611400635935,17),(65967485132316306,17),(-73638999033742403,17));
  ((-35436319657338106,17),(44826307875425847,17),(-82066249892391741,17));
  ((-55933251123838679,17),(25327792149785833,17),(-78930186643228251,17));
  ((-69074220663196795,17),(36439969147229252,18),(-72218234028931272,17));
  ((-6969564833721178,16),(-24418042840060361,17),(-67426076459458073,17));
  ((-50371298031257128,17),(-47661672334403243,17),(-72049270120760078,17));
  ((-25618041521486429,17),(-64525129955326765,17),(-71973769894674755,17));
  ((-68899408299408042,19),(-60728988027802377,17),(-79445045788095781,17));
  ((25079110780805602,17),(-48425282124165936,17),(-83821418823824589,17));
  ((46462932031239523,17),(-30648745172295921,17),(-83077375779595275,17));
  ((44826526269144601,17),(24609080230835502,18),(-89356177594745023,17));
  ((31667124185293388,17),(31116363871878588,17),(-89604492885268072,17));
  ((6780148323036822,17),(48370616476390754,17),(-87260031230865009,17));
  ((-14225214513877163,17),(30866733169895361,17),(-94047265007828162,17));
  ((-34700387778141806,17),(80945761871862337,18),(-93436400425082855,17));
  ((-46577726050648743,17),(-15821720564449832,17),(-87064278520706662,17));
  ((-27659383567506757,17),(-35725928252009481,17),(-89211078634874763,17));
  ((-97465912968819034,19),(-32396785816909746,17),(-94601788082013494,17));
  ((2345414461189945,16),(-15157487688465518,17),(-96021631247850214,17));
  ((11548463234782214,17),(13487512652520156,17),(-98410974994474032,17));
  ((-1053873966262153,16),(-49147201240994018,18),(-9932160133840604,16))].

(** womersley/womersley_163.hpp:1-183. *)
Definition wo_163 : list lit3 := [  ((0,0),(0,0),(1,0));
  ((25731317334400944,17),(0,0),(96632806583666797,17));
  ((17557206511750717,17),(26330248837478953,17),(94860226099562805,17));
  ((-57021482217967899,18),(38227548052499277,17),(92228737796581162,17));
  ((-21827366137668264,17),(19935824567248034,17),(95530775074402507,17));
  ((-25437899155082083,17),(-10476225748022204,17),(96141364566207144,17));
  ((91393474211046155,19),(-28759339096577202,17),(95770899223173478,17));
  ((23336992103882206,17),(-34572614155564313,17),(90885197639625637,17));
  ((44456631863954671,17),(-19026330295758753,17),(87530604012479563,17));
  ((50968188791493774,17),(10285059200606494,17),(85419326200542389,17));
  ((42102067608926191,17),(35743295649720919,17),(83365656712761815,17));
  ((2333972725182826,16),(54164285023118453,17),(80755726482675216,17));
  ((30767702156772707,19),(6445140603546804,16),(76458626687259001,17));
  ((-25797875718914681,17),(55166247087308939,17),(79316800179365599,17));
  ((-45866560846160148,17),(39194546595316371,17),(79749897262210068,17));
  ((-4709710203907656,16),(14365408509550609,17),(87037336918557784,17));
  ((-48618838906359491,17),(-15985275148601941,17),(85910881044376175,17));
  ((-25229361085676161,17),(-39565512565566735,17),(88306565750416033,17));
  ((-55033189648244898,18),(-57194697661379379,17),(81844242557401714,17));
  ((19459969691218929,17),(-61338058668365369,17),(76543792291818213,17));
  ((44045883940723285,17),(-51700042965025728,17),(73396632520128802,17));
  ((62308495453722046,17),(-32310601484092427,17),(71229743969985349,17));
  ((69766264334133621,17),(-27916012348804413,18),(71588234531976047,17));
  ((67185849349493998,17),(30107352486146749,17),(67672808227987769,17));
  ((57509720161581046,17),(54180313101699151,17),(6129539753634432,16));
  ((38362442794632629,17),(69121906652442955,17),(61241203479026285,17));
  ((15377889806168515,17),(8152569687393052,16),(55830827096948277,17));
  ((-12375726331316447,17),(81523870022028444,17),(56574729468233198,17));
  ((-37502792146711589,17),(70830523343356855,17),(59804494347053272,17));
  ((-61402337079455926,17),(50210596261047502,17),(6089867834601137,16));
  ((-73910996051516065,17),(25820973902897826,17),(62212876234575798,17));
  ((-68859670584822119,17),(4650287980763966,17),(72365189066606772,17));
  ((-67976124811899652,17),(-25081275914191292,17),(68921520979105266,17));
  ((-4687247729810925,16),(-46201200834018685,17),(75288909631053258,17));
  ((-27613709039508971,17),(-68405758921953641,17),(67513963143877875,17));
  ((-35582547910206881,18),(-8012637113363168,16),(59725233124682686,17));
  ((24909503275061606,17),(-78891490106345097,17),(56175167426454098,17));
  ((55423728541859252,17),(-64003425037711048,17),(53214395589543229,17));
  ((74562954616188648,17),(-50519591787513929,17),(4345269432989336,16));
  ((80763619021886002,17),(-25213623221154774,17),(53305825634252191,17));
  ((84247434517839925,17),(83456716003065867,18),(53223298870909075,17));
  ((81117001032929581,17),(3779764276886004,16),(44624772767391691,17));
  ((70950985069999728,17),(61918880183287561,17),(33645356209205968,17));
  ((52927218767433371,17),(77528003042357452,17),(34469091340046409,17));
  ((29467051906758662,17),(89664141808095055,17),(33045945677831812,17));
  ((13186764284398363,18),(95226506596667482,17),(3049874643115551,16));
  ((-25360258659077833,17),(90840431912973829,17),(33239633129880281,17));
  ((-52687409323184631,17),(74706594924550862,17),(40533462393314862,17));
  ((-75976860489205822,17),(51652706158500272,17),(39490690253620314,17));
  ((-90086382419908939,17),(28171178384042805,17),(33027691577649837,17));
  ((-89148271489344322,17),(62063212645840277,18),(44878360785827864,17));
  ((-84114939861306925,17),(-18797487802010865,17),(50708296603829739,17));
  ((-79305129420523313,17),(-45708519041865969,17),(40266955864497916,17));
  ((-62021582991134483,17),(-54885682402984892,17),(56043600084510026,17));
  ((-43659291861899008,17),(-75501075173584209,17),(48922938196211246,17));
  ((-18151805557440054,17),(-90255765205889704,17),(39043678132371179,17));
  ((10234547427396085,17),(-93279262932694151,17),(34557678534439956,17));
  ((42384620454018102,17),(-82427226658851716,17),(37540594751536854,17));
  ((69343559095131913,17),(-68659100421088881,17),(21849456317876259,17));
  ((87141752989110688,17),(-46493164745151455,17),(15642906314525593,17));
  ((92501797154478249,17),(-2332227347025134,16),(29991483514000616,17));
  ((94794472880993175,17),(42883193526132825,18),(31553418647504,14));
  ((91411584350411523,17),(34038566484441363,17),(2202948565518191,16));
  ((80297045455475702,17),(59067887021921217,17),(7960478244855633,17));
  ((63212297396744777,17),(77485508523500013,17),(4488058378660508,18));
  ((43260993834339928,17),(89897812466643867,17),(68461468124291769,18));
  ((14289337741265709,17),(98806186028623588,17),(57578146369145426,18));
  ((-1157953830430335,16),(99319262169300815,17),(12643001245209886,18));
  ((-3840950489346816,16),(91487639490422545,17),(12438719962645722,17));
  ((-63672451041461708,17),(74876010627021294,17),(18422866523829978,17));
  ((-84200093146637067,17),(5217655880456018,16),(13709523165008869,17));
  ((-96278588168768742,17),(26845931032722042,17),(31192061834631569,18));
  ((-98978282884683921,17),(29366122631753505,18),(13952627910728968,17));
  ((-94923051718303342,17),(-20666453236302268,17),(23717334654552569,17));
  ((-90279556135746875,17),(-41516653502604478,17),(11223601288232268,17));
  ((-72081426395762749,17),(-65197924040563471,17),(23526552436622633,17));
  ((-52649271358564953,17),(-81008013070123774,17),(25802248813676043,17));
  ((-28293879887332946,17),(-94481662377126141,17),(16512777942427526,17));
  ((-1112873831177446,17),(-99702623073296948,17),(76255140246382913,18));
  ((25902743951530466,17),(-95734449021947721,17),(12804808715695232,17));
  ((52063709369725164,17),(-84631516507668769,17),(11263950473833798,17));
  ((76281716993992588,17),(-64328422213752334,17),(-65539108887472552,18));
  ((94140062047036721,17),(-33235912585020738,17),(-57465496100648321,18));
  ((99512184057451514,17),(-88993913390962201,18),(42574708348399271,18));
  ((98248995907536585,17),(18453365870924135,17),(25706207800205921,18));
  ((89309171699229628,17),(43589992830374985,17),(-11125842684730912,17));
  ((72866725668543852,17),(63393940731830556,17),(-25916183531421577,17));
  ((52653410977594617,17),(80299768470755184,17),(-27920700133908394,17));
  ((28877851453778364,17),(94005796715479839,17),(-18137802493725386,17));
  ((67240811640553025,18),(95301147283950383,17),(-29537739569269578,17));
  ((-20463590016835045,17),(95506660123959097,17),(-2144106703476881,16));
  ((-48200120314020589,17),(86914909159938192,17),(-11070093379625702,17));
  ((-71337623144395179,17),(6972702062572127,16),(-70061486401942999,18));
  ((-8769248374770281,16),(45441156339275834,17),(-15656615365664722,17));
  ((-96283500471081584,17),(14130375197546424,17),(-23017819918745486,17));
  ((-98857830560913451,17),(-10973298604206184,17),(-10330346292968816,17));
  ((-9298721334307759,16),(-32277267526491071,17),(-17650953393862237,17));
  ((-80540674415824243,17),(-58884706073003279,17),(-67669162356428961,18));
  ((-62893675868848564,17),(-77604550277170825,17),(-46818064870604324,18));
  ((-42057345334168067,17),(-90466566770248535,17),(-68541958132733616,18));
  ((-15502599927566554,17),(-97552442590220989,17),(-15594561236772606,17));
  ((12059905158264909,17),(-97066359272651359,17),(-20800975581116962,17));
  ((35683372398714869,17),(-92209145645013735,17),(-14972320917989895,17));
  ((58434183656550354,17),(-7896247374885258,16),(-18718277694657476,17));
  ((81901996275421052,17),(-5029863388786896,16),(-27606347732270542,17));
  ((91214223786349535,17),(-23721365051939453,17),(-33425472608870826,17));
  ((97214637578867702,17),(-36623314908812953,19),(-23434592245010633,17));
  ((92193505833401967,17),(24765190018983954,17),(-29783264520030273,17));
  ((7732768744909907,16),(45228379760626825,17),(-44438974088101635,17));
  ((56435293175783674,17),(6131618247485463,16),(-55275523071913801,17));
  ((35156936936819033,17),(80835413374775955,17),(-47218912839556371,17));
  ((64686366068779977,18),(84147371823475892,17),(-53641183391586844,17));
  ((-22387382155179866,17),(85310751096502846,17),(-47126222717171729,17));
  ((-48418308379210873,17),(79975412398324386,17),(-35490855518197628,17));
  ((-70894278014048773,17),(61892319230537496,17),(-33813343004382157,17));
  ((-84746969676585782,17),(33670218162909532,17),(-41039828697229314,17));
  ((-90535159794291853,17),(-13674488123270595,18),(-42444256675876707,17));
  ((-84866182897314635,17),(-28159838668851073,17),(-44774484771840989,17));
  ((-76914960097769813,17),(-53376295897755832,17),(-35143419716835922,17));
  ((-60425858713137615,17),(-71134161359301173,17),(-35897725366502459,17));
  ((-39449610958405751,17),(-84632405541040701,17),(-35792235576550085,17));
  ((-14377572067336641,17),(-89218847943773938,17),(-42816849405745472,17));
  ((1240320500419661,16),(-8669662302207567,16),(-48268582558347112,17));
  ((36395959999108374,17),(-81572365972745375,17),(-44958683314258624,17));
  ((59375524536808322,17),(-67379872753923731,17),(-43982949351355671,17));
  ((71968734332128326,17),(-44958354972632231,17),(-5290791620151305,16));
  ((8027049439621895,16),(-16384950319035207,17),(-57342664155315715,17));
  ((84648861550808552,17),(85079115825556509,18),(-52556499870667372,17));
  ((71723647632087606,17),(27101422952189358,17),(-64196816465574658,17));
  ((49440892984196122,17),(46442156457242834,17),(-73476011082027615,17));
  ((26383714364281174,17),(67000715336966898,17),(-6938878699529738,16));
  ((-75302390779824618,18),(69351054527309008,17),(-71650029556020689,17));
  ((-37456403751554129,17),(68765071843979098,17),(-62196323945173437,17));
  ((-61263471707611017,17),(55207675565064696,17),(-56558815343262836,17));
  ((-74234602076951139,17),(27255415370329666,17),(-61207566423339521,17));
  ((-76734936939651766,17),(-18397365901294399,18),(-64096527379777801,17));
  ((-68030143474369509,17),(-35988904325017873,17),(-63849027747816256,17));
  ((-5409522224343124,16),(-56163422431538412,17),(-62604927211924377,17));
  ((-34121080717909402,17),(-69983123516387069,17),(-62754396447834826,17));
  ((-84308711207013123,18),(-73112711996636925,17),(-67701194647088381,17));
  ((17370485306212205,17),(-66793610670462522,17),(-72366289208645629,17));
  ((41716599979287861,17),(-61029808299214472,17),(-67343060408101529,17));
  ((57107360973217192,17),(-37151294771087484,17),(-73201985079002052,17));
  ((62847321224062791,17),(-95295956850196095,18),(-77197156819662227,17));
  ((56113809236179213,17),(14184869695845323,17),(-8154771538625456,16));
  ((33994412470555951,17),(30749955096461895,17),(-88875306932506781,17));
  ((13915148034545854,17),(51248837887288035,17),(-84734439694725927,17));
  ((-20737957870147283,17),(51278924648649515,17),(-83309117089632645,17));
  ((-47253678916343878,17),(42875645923541489,17),(-76998498787380121,17));
  ((-56530404305911774,17),(18023333495097058,17),(-80495172766661383,17));
  ((-58932673237731947,17),(-13212970947591574,17),(-79701677672385385,17));
  ((-41941579058977418,17),(-34112621616786276,17),(-84126291921548002,17));
  ((-23265059926637346,17),(-49701012914634907,17),(-83597525692267161,17));
  ((25284738974205745,18),(-47957857788402425,17),(-87713457896137192,17));
  ((31837920668090935,17),(-39485437767504244,17),(-86181477196906398,17));
  ((37957745114961655,17),(-13631574541033323,17),(-91506227991977995,17));
  ((24722215065287814,17),(71988406616248696,18),(-96628095165920525,17));
  ((85397047709477956,19),(3101845370808281,16),(-95063801017967797,17));
  ((-26726064237026292,17),(24803554125212654,17),(-93115526058525766,17));
  ((-367464772993216,15),(33838773152623197,19),(-9300312844110995,16));
  ((-19146722315349807,17),(-19321087876073598,17),(-96229406045469945,17));
  ((82975106512993405,18),(-23367415257845062,17),(-9687680435046877,16));
  ((-27019435395452696,18),(41646482662960768,18),(-99876700015204478,17))].

(** womersley/womersley_182.hpp:1-202. *)
Definition wo_182 : list lit3 := [  ((0,0),(0,0),(1,0));
  ((22505452334312342,17),(0,0),(97434617129786039,17));
  ((22359413696695157,17),(2649909781434247,16),(93796878595004163,17));
  ((-13607586934996755,18),(33221150155230589,17),(94310675525847487,17));
  ((-1947101205561283,16),(17598000386204096,17),(96494507988472278,17));
  ((-28667334685808743,17),(-10363648092309934,17),(95240635866370549,17));
  ((-89784024378318186,18),(-26230611856409708,17),(96079879742341034,17));
  ((1578576886626897,16),(-30017089981047484,17),(94073289569199359,17));
  ((39169044044739776,17),(-23520084749214959,17),(88952749266174913,17));
  ((48436764599034465,17),(4710113296110801,18),(87485187223352845,17));
  ((47214102523856327,17),(24912490473565502,17),(84558833608744222,17));
  ((30227091591037775,17),(49000581284860839,17),(81763475755943493,17));
  ((32364462668285403,18),(56154826883371411,17),(82681079052347395,17));
  ((-22749861769822974,17),(53502635162554857,17),(81362840536183922,17));
  ((-36957800481169817,17),(36181184222057083,17),(85586464419811215,17));
  ((-45418712993802057,17),(9296155218938712,17),(88604300167271988,17));
  ((-49369898781012145,17),(-21733176246338876,17),(84203813123861482,17));
  ((-32401428366590146,17),(-41534605650846795,17),(85000141018902864,17));
  ((-84356770199885009,18),(-5169955139102469,16),(85182132746141281,17));
  ((19096401973436408,17),(-52894839066586008,17),(82688955923925545,17));
  ((42724554622679306,17),(-50275079694803548,17),(75146715124314267,17));
  ((60099687280070224,17),(-31437339884079302,17),(73482795604485829,17));
  ((69300170709043996,17),(-81163063506312652,18),(71635270020570618,17));
  ((71347768520689037,17),(15522986222652821,17),(68326662627772961,17));
  ((60786806790763304,17),(40271116179689626,17),(6843391938084763,16));
  ((44856012502407133,17),(6072929967969295,16),(65573548804361204,17));
  ((18117083509902232,17),(71887711974872981,17),(67111311655435046,17));
  ((-10758854223785622,17),(75061540437123997,17),(65192117644676406,17));
  ((-36666978601810779,17),(69468192991196243,17),(61884592935174609,17));
  ((-53861631136367694,17),(52124932688712444,17),(66196042808668432,17));
  ((-61510754082273411,17),(2891378148650649,16),(73351348810915817,17));
  ((-66136105069988804,17),(20476848046358898,18),(74978814295187834,17));
  ((-7137715835241939,16),(-20901800534312334,17),(66846211560248248,17));
  ((-56620849785175376,17),(-4496592029114338,16),(69080716426330913,17));
  ((-33863748414890066,17),(-63423099040420028,17),(69503647756086184,17));
  ((-56233004343197321,18),(-71462138509698492,17),(69724753508679016,17));
  ((18984648375805413,17),(-73676151385768418,17),(64895360720380957,17));
  ((43086156546656801,17),(-70233058871238752,17),(5666480879369572,16));
  ((64378768542782716,17),(-54099492629854562,17),(54116716993061609,17));
  ((78883618788549836,17),(-32943353961348698,17),(51885548244188739,17));
  ((8667851000145107,16),(-10372258599284878,17),(48777578409325623,17));
  ((87887028381733612,17),(13928197132107323,17),(45627574632863266,17));
  ((7887946260820673,16),(38011846980160285,17),(48302483039667787,17));
  ((65159153095628031,17),(60995765828803916,17),(45097686402056419,17));
  ((46617715281522737,17),(77551046993789774,17),(425749190498102,15));
  ((23554483440502036,17),(84733845635111682,17),(47595816136885166,17));
  ((-4722593769850212,17),(88394570170023723,17),(46519856755386985,17));
  ((-33584404371613436,17),(84667301469481893,17),(41273912400932156,17));
  ((-592482743764007,15),(68697855424386456,17),(42074299085175931,17));
  ((-74193173032016102,17),(46877204822862495,17),(4793642397422565,16));
  ((-80358871106134022,17),(22872672090501661,17),(54948091013138256,17));
  ((-85848243328245644,17),(70072338691825461,19),(51279509593885086,17));
  ((-86837434518547829,17),(-23803761191705494,17),(43504493093991703,17));
  ((-73487643773760114,17),(-46247779774676578,17),(49605534756657449,17));
  ((-53049348558880971,17),(-67384014647562096,17),(51431130528654445,17));
  ((-2634404589373705,16),(-81402395261747895,17),(51765251777605037,17));
  ((-2739131173213696,17),(-88804277817751298,17),(45894415800656763,17));
  ((21005696685589717,17),(-88708906995123993,17),(41103412589266203,17));
  ((4550453347314295,16),(-82439121118237235,17),(33661977699538437,17));
  ((67736159173579391,17),(-66114169462294925,17),(32260336897225161,17));
  ((84670119598842775,17),(-45439784247352571,17),(2768026110194246,16));
  ((94342576318124383,17),(-23665725915704416,17),(23225238654137279,17));
  ((97750408637253494,17),(27784881704633036,19),(21089817715779863,17));
  ((93966190135263017,17),(26712317512198824,17),(21373048556326096,17));
  ((83056002928824213,17),(50152542756666929,17),(2421616882431735,16));
  ((67782080991300775,17),(71221475909570842,17),(18250777127321455,17));
  ((48388779193039733,17),(86189368964147706,17),(15163071119310115,17));
  ((26187711402314429,17),(94156581279966045,17),(21183530706146203,17));
  ((19630312535051278,18),(97017397580490872,17),(24161354991115969,17));
  ((-25491536505733103,17),(94392073686707323,17),(20983755424139203,17));
  ((-53730363571954942,17),(81754049871775625,17),(20720119690502822,17));
  ((-76007503029034984,17),(61385824794684207,17),(21322288750684665,17));
  ((-88531008386905607,17),(37868572626544827,17),(26985769605956234,17));
  ((-95083748615858987,17),(15589551097805188,17),(26759047922619661,17));
  ((-97259192791346782,17),(-72553015646977415,18),(22090948752394804,17));
  ((-91437479908939268,17),(-35010431989180157,17),(20333640102876782,17));
  ((-77003390243186132,17),(-57457365363900359,17),(27733176098219431,17));
  ((-57388194594966313,17),(-76408205596999956,17),(29468309055269248,17));
  ((-35257064262551635,17),(-89147876017180383,17),(28453393843472147,17));
  ((-13274902113217613,17),(-96960766718837055,17),(20552048345110285,17));
  ((11196335489995358,17),(-97977050998455706,17),(16587330986071319,17));
  ((35951876205049582,17),(-92632322609129414,17),(11256793743111716,17));
  ((61292366471213944,17),(-78491554168826894,17),(90731326740285556,18));
  ((80553297855471173,17),(-59040033626599153,17),(50438709319117057,18));
  ((9248913284577619,16),(-37845477815123607,17),(-36715275269771037,18));
  ((98728066210907295,17),(-1486197776312044,16),(-56471726751726625,18));
  ((99162664521866761,17),(12253250761889448,17),(-40772307624126009,18));
  ((91682844960136234,17),(39854005638970014,17),(-24319075937558422,18));
  ((78016046821884089,17),(62422049873438989,17),(-41211803992891233,18));
  ((58361377416129467,17),(80347236416310286,17),(-11758878618033064,17));
  ((35770285158280807,17),(92795623218776968,17),(-10462266061138678,17));
  ((13090462363427932,17),(99011186426840903,17),(-5042296843803637,17));
  ((-10895117603001173,17),(99358396749760836,17),(-30340414851958829,18));
  ((-36409303331544607,17),(93051633028300407,17),(-39694107469605971,18));
  ((-58773593276434566,17),(80840976131777009,17),(-32251064226945417,18));
  ((-78639235436852584,17),(61722342353588899,17),(-24946150592096608,18));
  ((-92056009401091221,17),(39052416811590301,17),(-77451553891646303,19));
  ((-98311995469516766,17),(17825456742170773,17),(-4123668116460668,17));
  ((-99684114771171606,17),(-69392575577872345,18),(-38631550363116184,18));
  ((-94152525300033085,17),(-33526814458095877,17),(-33548013233339759,18));
  ((-79719785810034238,17),(-60286947510073663,17),(31999547371622639,18));
  ((-61318007754436243,17),(-78944719375637351,17),(27987868316048662,18));
  ((-40718037789459061,17),(-9133235506134818,16),(66506956328725511,19));
  ((-18169048681389643,17),(-98104099787334187,17),(-67432392016053555,18));
  ((78565608671276765,18),(-99239158921037995,17),(-94796512586742029,18));
  ((36273343007786524,17),(-92301805397196379,17),(-12830483523918837,17));
  ((61021544007081852,17),(-77833829725633963,17),(-14773832178307469,17));
  ((78866244340962433,17),(-57394913950991566,17),(-22044032210779488,17));
  ((8692679431336725,16),(-36521576562455904,17),(-3331526490655915,16));
  ((94210346233944298,17),(-12634923155804301,17),(-31060736941148975,17));
  ((94990479348737988,17),(15925311975248765,17),(-26892253003197408,17));
  ((8597866603354265,16),(43435050061385971,17),(-2685266119507404,16));
  ((68792342736841539,17),(65619952193860931,17),(-31010247578056022,17));
  ((44354918929640552,17),(81684590889705289,17),(-36881821781556418,17));
  ((19918050121356007,17),(91517339711406553,17),(-35040659404613927,17));
  ((-37445183369243774,18),(94869544882464696,17),(-31396624599126172,17));
  ((-27487515301853843,17),(91272497028284938,17),(-30228592239005569,17));
  ((-4982042555054641,16),(80826647184264766,17),(-31384363987706454,17));
  ((-69160939277103717,17),(66523006548254071,17),(-28132793641757609,17));
  ((-84348901054402814,17),(45612020420973481,17),(-28369111442399148,17));
  ((-9114779702487722,16),(24360492645005122,17),(-33145821691495847,17));
  ((-95380241953797906,17),(-45771889108005845,19),(-30039972341061122,17));
  ((-91985603340409106,17),(-26759978363651959,17),(-28680173222590505,17));
  ((-82165999258813993,17),(-52991662937844186,17),(-20991241623174414,17));
  ((-63802843309688995,17),(-73314938467627699,17),(-23539689528267732,17));
  ((-42588752442108613,17),(-86154228176012115,17),(-2763416604170329,16));
  ((-18722773774352014,17),(-92670338741165403,17),(-32583217456109126,17));
  ((10652622635494546,17),(-94024779953132243,17),(-32339795697419149,17));
  ((38605414439721286,17),(-84932252073817138,17),(-36001868473829846,17));
  ((60886174690352279,17),(-6851634736954253,16),(-39979793330032209,17));
  ((70756943020263141,17),(-46993862023504762,17),(-52773401885258753,17));
  ((78781288708096942,17),(-2168964790404414,16),(-57646055574428257,17));
  ((8610229438805207,16),(30337924760155489,18),(-50766041842216625,17));
  ((81967538976714505,17),(30538172803720665,17),(-48463827293259487,17));
  ((66732455473009844,17),(53390429313844145,17),(-51925344911961535,17));
  ((44714906759344691,17),(68855818146917336,17),(-57091623035448547,17));
  ((18284952736990295,17),(78952160113885506,17),(-58585125388253767,17));
  ((-70007171811339503,18),(82040714854542862,17),(-56747784671345247,17));
  ((-30383552761235844,17),(7710693962603683,16),(-55958552367908065,17));
  ((-51782876692447666,17),(64729720617788045,17),(-55933862285719793,17));
  ((-69331945784691551,17),(48997746786165197,17),(-52842237874520692,17));
  ((-76059027320113082,17),(26888579058944972,17),(-59093389472166502,17));
  ((-83962146108344138,17),(33616639382689613,18),(-54213072560473941,17));
  ((-82385956767358559,17),(-24922207098865279,17),(-50906165843129414,17));
  ((-73586465617795138,17),(-5101168932167417,16),(-44529087464600564,17));
  ((-53548759154340075,17),(-68970403547295711,17),(-48740269054998658,17));
  ((-28785549875601574,17),(-78716624790087186,17),(-5454434067816647,16));
  ((-15623459272000716,18),(-8435947582829243,16),(-53675300774001311,17));
  ((24309694628411185,17),(-79003516286525199,17),(-56280397665955995,17));
  ((46084747222289646,17),(-64484389976681122,17),(-60975072962588373,17));
  ((56149715335651351,17),(-39739516590610763,17),(-72580853459227734,17));
  ((65324249904642118,17),(-10648335960311246,17),(-74962359325678962,17));
  ((70358208687787827,17),(15516499035531622,17),(-6934667063331913,16));
  ((59357857731138919,17),(37433536292383029,17),(-71241666784380575,17));
  ((3854668228440235,16),(526566134138438,15),(-75772253158068004,17));
  ((14154946860784015,17),(62350120976859902,17),(-76890180735509495,17));
  ((-12466787713851178,17),(62851658961958379,17),(-76774007123683763,17));
  ((-36077985087870712,17),(53277566857376235,17),(-76549852134130103,17));
  ((-5314007582521576,16),(36831383731569745,17),(-76286181669475228,17));
  ((-6168833739595202,16),(1200495234005063,16),(-77784510981533461,17));
  ((-69486236261125822,17),(-12270315300494261,17),(-70859737035141901,17));
  ((-62692435235562571,17),(-41764867307274972,17),(-65767426763105974,17));
  ((-41912419538957518,17),(-57817387118074903,17),(-70003563018099857,17));
  ((-14778338468724306,17),(-65970715429910276,17),(-73684906309023845,17));
  ((96680356030180811,18),(-6518284632294159,16),(-75217854481622604,17));
  ((3112438392222428,16),(-52841675234538665,17),(-78987531192394722,17));
  ((43252970448591527,17),(-24116614496494013,17),(-86876748630463618,17));
  ((48846868996190362,17),(67941983584202864,18),(-86993231104123592,17));
  ((3793531302222124,16),(27260341004235789,17),(-88418243786216832,17));
  ((14313969780370089,17),(39066752093804247,17),(-90933487505802246,17));
  ((-10943953185891371,17),(41013889822116945,17),(-90543308589449456,17));
  ((-33168522432160974,17),(25071824106170321,17),(-90946427943358454,17));
  ((-43302299538561639,17),(-19701482747622487,19),(-90138072088493437,17));
  ((-50156569700004616,17),(-25965471893185194,17),(-8252340749928343,16));
  ((-29337098796511907,17),(-41321796046640547,17),(-86208142339825078,17));
  ((-52960579144818852,18),(-43353128515675299,17),(-89958090344725505,17));
  ((17609093346004528,17),(-34779315027591501,17),(-92088647930910827,17));
  ((26499547388122718,17),(-64982295558335165,18),(-96205753470695976,17));
  ((12307660392102426,17),(13787110355536522,17),(-98277347764970391,17));
  ((-12956223673550071,17),(12927508120821374,17),(-98310812232973832,17));
  ((-23886848475529779,17),(-15026322910813056,17),(-95935541326908946,17));
  ((-54755533158165164,19),(-14407811925975428,17),(-98955116788696562,17))].

(** womersley/womersley_201.hpp:1-221. *)
Definition wo_201 : list lit3 := [  ((0,0),(0,0),(1,0));
  ((27998105401726531,17),(0,0),(96000552570877484,17));
  ((18073354349237444,17),(20982787295733218,17),(96088898941911682,17));
  ((-10424889704469401,17),(22812589555528834,17),(96803447420123545,17));
  ((-31671285885735545,17),(15901245767802683,17),(93509785762645958,17));
  ((-24657981401376303,17),(-90118457594767554,18),(9649233435468737,16));
  ((-12407290403189466,18),(-23295968344380538,17),(97240724238079024,17));
  ((24042933818025009,17),(-23364387303779036,17),(94212752530329347,17));
  ((50949171440319718,17),(-10208008826265713,17),(85439911548103742,17));
  ((50410772122975378,17),(13854793946132657,17),(85245520343743897,17));
  ((37081600503932394,17),(33906296894835691,17),(86459920974669047,17));
  ((41761937320359183,18),(42432304396458825,17),(90454734257078906,17));
  ((-20633260596146311,17),(48286670269160159,17),(85103854386795674,17));
  ((-40133992634676147,17),(38728026009572186,17),(83002425486257092,17));
  ((-52636170417742767,17),(73078085556190164,18),(84711448446291859,17));
  ((-45241172814744779,17),(-17022026198885062,17),(87541343983462283,17));
  ((-25949313149664799,17),(-35837221419906373,17),(89679020444924784,17));
  ((-75003643002606507,18),(-4858972367070894,16),(87079178274530833,17));
  ((16580932392413314,17),(-45987602358772056,17),(87236535409710547,17));
  ((44865015302666045,17),(-33930945269540064,17),(82679026088887975,17));
  ((6941076905308553,16),(-17854593617368567,17),(69737784781407008,17));
  ((7147553759976375,16),(71551058360166411,18),(69570482140776901,17));
  ((61845528072213218,17),(33253154511499033,17),(71199426770890917,17));
  ((47898800931487723,17),(53991605257294262,17),(69214242978351115,17));
  ((2374912896538732,16),(53902613092707696,17),(80811429730968498,17));
  ((-32235410820219183,18),(64812597950600581,17),(76085057204331008,17));
  ((-25603792104481499,17),(70722794546616119,17),(65899409416076071,17));
  ((-45070368708973385,17),(59919081216353787,17),(66169219208217889,17));
  ((-60218787044105537,17),(2967567108907288,16),(74115128228654037,17));
  ((-69607594501232517,17),(-35764493570467251,18),(71707682975734655,17));
  ((-64287425686860733,17),(-27593173615049132,17),(71454486691922403,17));
  ((-47645490503826998,17),(-43482170996005981,17),(76414710888177995,17));
  ((-31397782920966832,17),(-60747185875636101,17),(72965461938089315,17));
  ((-11177510959745232,17),(-70580147555956274,17),(69953599047684567,17));
  ((12101817412857996,17),(-67647053412530145,17),(72645868292065585,17));
  ((36605209059750693,17),(-56385895354025595,17),(74031678859909833,17));
  ((60932182906688992,17),(-43272334058266521,17),(66443767137148291,17));
  ((79338176800237648,17),(-32234454916154204,17),(51637134102045734,17));
  ((85491923249641233,17),(-20065007417407705,18),(51837293658628103,17));
  ((78270250169022559,17),(29409928640174232,17),(54852748662746909,17));
  ((60824580828590735,17),(59457256655513036,17),(52585216534941492,17));
  ((39560946412958781,17),(7661959047527287,16),(50639607762229744,17));
  ((22665808970575771,17),(72282916151614718,17),(65279714585221671,17));
  ((8707537656945364,18),(81663601882041215,17),(57708733442443561,17));
  ((-23533788458994079,17),(86030316010900443,17),(45221073934968897,17));
  ((-45858893946346968,17),(77751458557573039,17),(43031064804251645,17));
  ((-63630493908986496,17),(51095412349982028,17),(57796358723398278,17));
  ((-76555910450660569,17),(20644949331677953,17),(60934215693343341,17));
  ((-83845313484005435,17),(-10497025349752601,17),(53476872249370633,17));
  ((-8043532706088341,16),(-3391969455863566,16),(48781271833128542,17));
  ((-66018778201476447,17),(-50954745476221186,17),(55182740401667041,17));
  ((-49309114994058995,17),(-67102751280288231,17),(55369955292725692,17));
  ((-30339829940425839,17),(-81442283768139756,17),(49463614241337434,17));
  ((-78261551726344303,18),(-86965106211066223,17),(48742400401619723,17));
  ((16506261513956591,17),(-82635245259707812,17),(53841987070508579,17));
  ((40307224251266083,17),(-71775144474469532,17),(567772516843425,15));
  ((61226949888295512,17),(-61215098823581104,17),(50039707067441441,17));
  ((77585691934853407,17),(-52498383564154882,17),(3499114359578569,16));
  ((91197564965932509,17),(-21830798576483032,17),(34733562699463277,17));
  ((92040538429906604,17),(13230836962531267,17),(36789730072450949,17));
  ((79770887086502684,17),(44977896942486822,17),(40169570075661437,17));
  ((66919301727425851,17),(67865013237417215,17),(30267920883320143,17));
  ((49795374689748539,17),(82432962640181473,17),(26930045114518419,17));
  ((24638057851374626,17),(89624072911729125,17),(3688484322896573,16));
  ((18280286246205476,18),(93007234507267267,17),(36692133225771445,17));
  ((-24028741320030148,17),(94519111751877227,17),(22107851641695503,17));
  ((-46580999977868415,17),(86932217677350065,17),(16522710757004996,17));
  ((-63438688104414753,17),(68628973055877152,17),(3557522886625572,16));
  ((-7916409377246364,16),(42900137356718965,17),(43504304062462951,17));
  ((-89023735495027134,17),(13628905700976873,17),(43462943387503383,17));
  ((-9492571488900462,16),(-98057369664188682,18),(29882372318087697,17));
  ((-91370952715926945,17),(-32290194604001976,17),(24671690907181953,17));
  ((-78716907530952374,17),(-54462477636129258,17),(28939367624355822,17));
  ((-62246445775587433,17),(-71121556608456782,17),(32666560484644414,17));
  ((-4224726108950555,16),(-86016744126002875,17),(28570765834973683,17));
  ((-1707313581606677,16),(-95461168262202611,17),(24406421028524011,17));
  ((88633353253349673,18),(-95154593151784828,17),(29445622578389719,17));
  ((33755658625200435,17),(-87296918514478672,17),(35210843907174422,17));
  ((55474293290634447,17),(-77567716601693193,17),(30097377379168433,17));
  ((70652029555117213,17),(-69203163113413879,17),(14805841240573792,17));
  ((88387469563010934,17),(-43619879734801953,17),(1688079726106651,16));
  ((97933689869523899,17),(-89662946525425655,18),(1812727085756978,16));
  ((94975821521956649,17),(24474319262668889,17),(19508998509877173,17));
  ((8631410798478143,16),(47470681686824606,17),(17216536904373869,17));
  ((74106688293695122,17),(66881266164533182,17),(59241021572875384,18));
  ((57875216350074243,17),(8152688181703216,16),(-19562396641954121,18));
  ((37673452001986069,17),(92276439884829298,17),(81098493472774522,18));
  ((15809700337966867,17),(98006369198429399,17),(12033493747238962,17));
  ((-738521477811733,16),(99376366439626251,17),(83544237346572695,18));
  ((-37837658693278786,17),(92370483800513503,17),(-60004422395367601,18));
  ((-63714622625503459,17),(76845193115615684,17),(59382791036977904,18));
  ((-78415880698620077,17),(58633841452470936,17),(20322949854444952,17));
  ((-90691154003584429,17),(33965514634155264,17),(24929067394010493,17));
  ((-97927162087860875,17),(11301056927388863,17),(1680943299881765,16));
  ((-99658362340156981,17),(-82080234070323957,18),(91606082089987061,19));
  ((-95136756918202414,17),(-30805673114015436,17),(89370460960361243,20));
  ((-83356814254073142,17),(-54971626436118548,17),(54554380557184284,18));
  ((-64421280692063543,17),(-76009052773780639,17),(8516013763903299,17));
  ((-40584965535795553,17),(-91208317750929668,17),(58226579415019998,18));
  ((-12039137972255731,17),(-99200263470721939,17),(37903672941207452,18));
  ((1824949988718374,16),(-97916749894728339,17),(89031367461641434,18));
  ((42171515871892856,17),(-90110083305252364,17),(10086433253988611,17));
  ((60033743698267961,17),(-79778187183137161,17),(-56027196380865257,18));
  ((80675650376407859,17),(-58864515598968847,17),(-51388947880217258,18));
  ((95148562006170712,17),(-30766571343491117,17),(41138294053227201,19));
  ((99978296787369414,17),(20816563346097879,18),(82936127580056081,20));
  ((966445668337514,15),(24736674243970169,17),(-69227630946221724,18));
  ((88044750206777778,17),(4665935200089591,16),(-84277418020841599,18));
  ((72542442751604819,17),(65521846300007436,17),(-21082733624184979,17));
  ((48233000725525998,17),(84190272751258144,17),(-24198669696497133,17));
  ((27902702573411237,17),(94460145514533256,17),(-17283521009127503,17));
  ((66912660265741511,18),(98431633713335809,17),(-16323003506870484,17));
  ((-18627839931099913,17),(9693836005376254,16),(-15998685245619845,17));
  ((-46714362240239654,17),(84301316257048231,17),(-26665641522693756,17));
  ((-65814757472273777,17),(73401308798707465,17),(-16753076299670278,17));
  ((-83167924679962435,17),(55475326544092951,17),(-23631439343282195,18));
  ((-93879566489301369,17),(34443487972988912,17),(-52262035495358634,19));
  ((-98186614203084355,17),(14220191175753732,17),(-12536943577271462,17));
  ((-96110967910495104,17),(-69569445798450064,18),(-26726069097806826,17));
  ((-91792249673326309,17),(-31375094086940403,17),(-24285517720348593,17));
  ((-81809600378611691,17),(-55060793523524265,17),(-16598141536078245,17));
  ((-63595117465009798,17),(-76155871680627285,17),(-12487763737973266,17));
  ((-38457039239854468,17),(-9090433215221716,16),(-1604551429103073,16));
  ((-14565607674382583,17),(-96789796974082221,17),(-20483609906261918,17));
  ((1021489119105975,16),(-98631858750798407,17),(-12938795821766483,17));
  ((38471361830342832,17),(-91123777845841569,17),(-14710928931258982,17));
  ((66393039348207472,17),(-69552967041300939,17),(-27465416469791232,17));
  ((85185363146961124,17),(-47013538900636359,17),(-23090713838223101,17));
  ((95931269643805228,17),(-20478059021461609,17),(-19438122420672924,17));
  ((9610973180663418,16),(32059250338955167,19),(-27619135984016963,17));
  ((91770521271523642,17),(23070905772530698,17),(-32340450404838761,17));
  ((81998101326160411,17),(46224970436121038,17),(-33757421214963496,17));
  ((60102473224311892,17),(68575887838810945,17),(-41049242617126247,17));
  ((33547710136543879,17),(82492924584763205,17),(-45491411695472805,17));
  ((11525177843078122,17),(89652752789758505,17),(-42773288310625246,17));
  ((-12064337309535693,17),(9105886535232478,16),(-39531440727969042,17));
  ((-31922379006031198,17),(829520291847608,15),(-45824912140951141,17));
  ((-57171918023140322,17),(68362557128536106,17),(-45364441718188919,17));
  ((-77556996071522077,17),(55805391625250045,17),(-29507128391532483,17));
  ((-88649098682324567,17),(36981075568386729,17),(-2781613475335406,16));
  ((-90574750419723771,17),(15291441507194253,17),(-39527033825431501,17));
  ((-86232454374766598,17),(-15296037602775761,17),(-482700222307621,15));
  ((-79722872153232627,17),(-42804857621559395,17),(-42567685157139507,17));
  ((-67184723388844114,17),(-64432024255435971,17),(-36533918397995774,17));
  ((-48376145860034614,17),(-79906223986354974,17),(-35703555564833112,17));
  ((-24180609970827965,17),(-86700131975502781,17),(-43570462665309106,17));
  ((-64760986851051675,19),(-90369982522922787,17),(-4281176077043361,16));
  ((21864348458953742,17),(-91553114040457284,17),(-33763553959269027,17));
  ((47646010985552062,17),(-79873553360454186,17),(-36743341039422772,17));
  ((69188357672452927,17),(-55018305036385007,17),(-46754221985955624,17));
  ((84219477017339128,17),(-33162540816438313,17),(-42512651970018872,17));
  ((85595588889246221,17),(-12495272128664829,17),(-50172336373082738,17));
  ((83344221645855365,17),(10504807565128556,17),(-54253015918621095,17));
  ((75933930058864019,17),(34949899158382297,17),(-54886636029496794,17));
  ((61497525751455917,17),(53268605660598178,17),(-5814215318875543,16));
  ((3854228541013206,16),(68344295279216705,17),(-61996367136721475,17));
  ((6184718024371022,17),(77183749406909763,17),(-63280471635808599,17));
  ((-16697849290515787,17),(73756855948876088,17),(-65430176750548097,17));
  ((-41456908056856162,17),(64166969420901399,17),(-64528480608972028,17));
  ((-67632119544735181,17),(49800319333934573,17),(-5427545117384831,16));
  ((-78173411485801125,17),(29417422936129367,17),(-54986661695983208,17));
  ((-79228569014952221,17),(19669792954771743,18),(-60983316114279307,17));
  ((-71093713447930773,17),(-31369032590440987,17),(-62941780261789215,17));
  ((-58835379129618348,17),(-55341398329075431,17),(-58955303354801569,17));
  ((-39306950741400304,17),(-70816479221211426,17),(-58651427042526949,17));
  ((-16050527524481731,17),(-72846642282301899,17),(-66601405948975279,17));
  ((82482738045362256,18),(-77788439365873641,17),(-62297067990935195,17));
  ((30896555007374643,17),(-7738217867522188,16),(-55293772815320796,17));
  ((50434204610238131,17),(-62215303388995846,17),(-59880272457194417,17));
  ((66122119052707951,17),(-37450721239513579,17),(-65002375730582063,17));
  ((68941388209435517,17),(-15773482650105364,17),(-70698530655472125,17));
  ((67446665750381618,17),(99455471462904621,18),(-73157592709965613,17));
  ((57669774961445164,17),(30413760090858166,17),(-75823480881795413,17));
  ((41264951542377903,17),(48121000519604151,17),(-77340630222396434,17));
  ((17524938290098666,17),(62442224451910711,17),(-7611731171964391,16));
  ((-15212607906114645,17),(5654366578497525,16),(-8106411302353117,16));
  ((-43724479620338003,17),(46544357468881192,17),(-76953184922650542,17));
  ((-60180881228868377,17),(30589693073583757,17),(-73773519722057301,17));
  ((-63754975214934972,17),(64587303129978374,18),(-76769707164264933,17));
  ((-60703727658049056,17),(-19688967529670529,17),(-7698962271652583,16));
  ((-44894468356659534,17),(-47591057417007232,17),(-75627891448221773,17));
  ((-20983257923300971,17),(-54942833327022755,17),(-80876374504073967,17));
  ((71606977474352337,18),(-59542464753607061,17),(-80021367764087459,17));
  ((30493229726309901,17),(-5749818284827799,16),(-75921814454111158,17));
  ((46293474156886916,17),(-39882523679763732,17),(-79159955504148238,17));
  ((50444597360061649,17),(-10136925748268658,17),(-85747217643229401,17));
  ((42382581220805271,17),(12026859394208775,17),(-89772331272913797,17));
  ((28482376205654242,17),(3213828413115955,16),(-90309938206071427,17));
  ((66327584289815583,18),(46014837297084377,17),(-88536101473611462,17));
  ((-21023475520095061,17),(36361104265234512,17),(-90751768983688186,17));
  ((-39303614141467186,17),(2057860118403097,16),(-89620015000708741,17));
  ((-42562610573665516,17),(-20502572199689081,18),(-90466682411186394,17));
  ((-3907398454939553,16),(-28355045671864354,17),(-87574055041319654,17));
  ((-12527713604450463,17),(-36640676653838328,17),(-92198249474671345,17));
  ((12427620761684825,17),(-38654002634039425,17),(-91386116683943919,17));
  ((32217931039751657,17),(-24896505891896348,17),(-91335474564336594,17));
  ((21718457123048676,17),(14111375231909968,18),(-97602855035521063,17));
  ((53374197393946957,18),(21652593108434318,17),(-97481676033017106,17));
  ((-13922826901201824,17),(11038593579157108,17),(-98408863131698465,17));
  ((-1933632870293425,16),(-12464731297749954,17),(-97317710957291703,17));
  ((57677146752332584,18),(-13515808100161675,17),(-98914389240517997,17))].

(** womersley/womersley_222.hpp:1-242. *)
Definition wo_222 : list lit3 := [  ((0,0),(0,0),(1,0));
  ((2147297767605503,16),(0,0),(9766734986536515,16));
  ((19168537324628565,17),(23568506818417509,17),(95273777416372696,17));
  ((-29572606093543258,18),(27309633357727731,17),(96153203459660386,17));
  ((-22093789378902096,17),(17358573251139242,17),(95971581239268666,17));
  ((-24694323857767322,17),(-56930237863047774,18),(96735618307716786,17));
  ((-5344836071664729,17),(-23116147249684488,17),(97144616236299663,17));
  ((17041490971649023,17),(-27324328150684535,17),(94672956416164133,17));
  ((3772867055854523,16),(-18545012460542323,17),(90733841154902573,17));
  ((45017125564461868,17),(53573667464710907,18),(89133366521506863,17));
  ((42167038027745296,17),(26846831962058898,17),(86609402015991632,17));
  ((25631250084424989,17),(45870357579906601,17),(85082015224142227,17));
  ((38009381804053957,18),(50154878741653808,17),(86429398976035576,17));
  ((-19351656092043343,17),(46371982981676102,17),(86458964837906915,17));
  ((-38383256210037642,17),(36104693765601886,17),(84989274210377364,17));
  ((-4600939708249337,16),(14189949939013527,17),(87645768299637494,17));
  ((-47639933391741218,17),(-87235755794063605,18),(87489062033724219,17));
  ((-31907183906420994,17),(-28621931466352002,17),(90347754008039838,17));
  ((-15003216604603017,17),(-44181056057114565,17),(88447372924205414,17));
  ((87700269241380996,18),(-48379291687950443,17),(87077728286411449,17));
  ((35357616738171616,17),(-43707464351972508,17),(82701248470126609,17));
  ((55400330182030777,17),(-31509308578457262,17),(77058204551037457,17));
  ((61205099854103295,17),(-837952200247878,16),(78636628633603167,17));
  ((66331736840744759,17),(15606426349956731,17),(73188388042595676,17));
  ((59412039359442137,17),(36373135620883879,17),(71744021243981626,17));
  ((43770164814975393,17),(53715345284335547,17),(72102942748923238,17));
  ((24448092561067958,17),(68131201699186195,17),(6899587034852348,16));
  ((27965835496914407,18),(69476060706120468,17),(71869716217674462,17));
  ((-20427044930402305,17),(66078060747806755,17),(72224827609489561,17));
  ((-41863900874864934,17),(58622865115110234,17),(69359739685462163,17));
  ((-57742090936158286,17),(40856304013823402,17),(70686726877473005,17));
  ((-64817319154196118,17),(17528435202518644,17),(74104447214820957,17));
  ((-68806457027097279,17),(-49619728517143927,18),(72395098568874561,17));
  ((-58022682229143308,17),(-27296921018561104,17),(76734910241964149,17));
  ((-43083817262513119,17),(-45931985217726601,17),(77679066833020871,17));
  ((-26767779784425283,17),(-62141706148319886,17),(73633513581713417,17));
  ((-484141221546888,16),(-65991712347577325,17),(74977694210975299,17));
  ((22636379883731358,17),(-63021521023549498,17),(74268985408700106,17));
  ((48753677851267158,17),(-56085633657761347,17),(66913979056563733,17));
  ((67400091576582322,17),(-47718491695927934,17),(56393024442159279,17));
  ((73928742613533638,17),(-25822566696258775,17),(621911252897,12));
  ((79103579839837335,17),(-99762084567629073,19),(61168851625404508,17));
  ((81753282179924602,17),(22945713809139889,17),(52819457310717144,17));
  ((73945573114216434,17),(43087702083996676,17),(51725256364089867,17));
  ((58769525907515374,17),(60344504950769617,17),(53895116168836843,17));
  ((4067838411456593,16),(75271841308726606,17),(51763104348770572,17));
  ((18975847493796003,17),(85037501874600696,17),(49076883426104795,17));
  ((-29029785239194753,18),(84884210748389421,17),(52784879286711195,17));
  ((-24587062068628879,17),(80918478588909382,17),(53363622456591187,17));
  ((-47353279381393615,17),(71836479450772361,17),(50962605427376284,17));
  ((-65708650496896159,17),(54211263430011369,17),(52378546822135696,17));
  ((-7682641883647362,16),(30099581740382925,17),(56495278986980302,17));
  ((-83427142457829617,17),(62158899850770513,18),(54783890086542963,17));
  ((-79539682367762421,17),(-19886154442471154,17),(57253644340999377,17));
  ((-68055366547207385,17),(-41172333252139703,17),(60607805262193715,17));
  ((-52874089075183406,17),(-59857199967773733,17),(60178453922375885,17));
  ((-36585793950419282,17),(-75454359931181081,17),(54480448313071339,17));
  ((-15682915476277995,17),(-82321266193354636,17),(54564230907131528,17));
  ((70283714166617897,18),(-79923479189524427,17),(59689525626118922,17));
  ((31534491530246561,17),(-75774836603955065,17),(57129239287537503,17));
  ((52447969185254806,17),(-70639992521301465,17),(4753106336842291,16));
  ((71368491714348248,17),(-60771685361419736,17),(3483303961401597,16));
  ((83320090226731836,17),(-39871078599494508,17),(3831526661687476,16));
  ((88234031638532129,17),(-17286901055226084,17),(43771208718943727,17));
  ((92182364981012832,17),(55831914496852562,18),(38356740734106975,17));
  ((9146099986989501,16),(28175954027552241,17),(29000019266137211,17));
  ((81904621580492598,17),(49371668518047068,17),(29224498481588818,17));
  ((66609391334198143,17),(67264472519777441,17),(32228554462211834,17));
  ((48160021725745433,17),(82179936079641203,17),(30447831011778409,17));
  ((2723552552126462,16),(92293783869402668,17),(27204477731589216,17));
  ((35820280915666608,18),(95838714342879416,17),(2832154494117835,16));
  ((-17810814591976479,17),(937834520270451,15),(29789914559480818,17));
  ((-38869602625164079,17),(86506011976152708,17),(31715357222386148,17));
  ((-61084341221555094,17),(72783884905880836,17),(31164231990153629,17));
  ((-77445799470445609,17),(53324002323006181,17),(3403966687027884,16));
  ((-87500804976177426,17),(30853526773515655,17),(37305080272757984,17));
  ((-93098738570280115,17),(33848856213462779,18),(36347866869364459,17));
  ((-89887669431412953,17),(-22193751411780555,17),(37784180320090566,17));
  ((-79500332400264295,17),(-4531442998107299,16),(40327404872343586,17));
  ((-65275926830688091,17),(-64249223481155981,17),(40138393820170853,17));
  ((-5057586955909531,16),(-79589612550764544,17),(33280249283329616,17));
  ((-30403152480366902,17),(-89979481776091363,17),(31294427276459319,17));
  ((-71458229681572644,18),(-93589999390747891,17),(34494191223270709,17));
  ((15451708563648975,17),(-90643104124845608,17),(39307408679235695,17));
  ((36535883477337477,17),(-86936524811436167,17),(33274162231992582,17));
  ((56934030536222335,17),(-78788783660124406,17),(23470060422986036,17));
  ((75779621312716328,17),(-64150458706813684,17),(11923407290145799,17));
  ((8854531375010648,16),(-43996563799226496,17),(14967624619684883,17));
  ((95471241785207483,17),(-22133654170533634,17),(19883242820266314,17));
  ((98665138717925893,17),(-70698643200100665,19),(16269313813354475,17));
  ((97236134516831885,17),(21963586752218128,17),(7920542986586504,17));
  ((87765144306300402,17),(4747116415109699,16),(66157402483675465,18));
  ((72004562910697689,17),(68751221929508599,17),(94134161301217156,18));
  ((53474012925733649,17),(84176957112718165,17),(74006643527508145,18));
  ((31887531880500491,17),(94686364994649697,17),(42044731738995006,18));
  ((829192076465705,16),(99558215084669099,17),(44052081888845254,18));
  ((-14408177333306871,17),(98895570867010729,17),(34742609027017639,18));
  ((-35422209955318579,17),(93281274432017069,17),(6623509811274525,17));
  ((-55416010494268964,17),(8265346039432131,16),(98727537062073809,18));
  ((-74011488004160886,17),(66552396895006272,17),(96476997745322812,18));
  ((-86843543288774505,17),(48183107309167639,17),(11687050914751071,17));
  ((-9505034037369311,16),(25956760525382433,17),(17078623418561417,17));
  ((-9886814721170103,16),(20053552115862419,18),(1486835624407675,16));
  ((-95846293101839253,17),(-23140368208750892,17),(16673675593574225,17));
  ((-86584970916654069,17),(-46539606022174512,17),(18360497887120256,17));
  ((-7398014783438529,16),(-65322077007768786,17),(16123398580746573,17));
  ((-59255225135053136,17),(-79977052385404102,17),(961714021611903,16));
  ((-38415286457202497,17),(-91952008244282757,17),(83122768393761995,18));
  ((-14426604938990928,17),(-98411429429824693,17),(10347155527627631,17));
  ((99761779813643134,18),(-98405191217195498,17),(14727328827432737,17));
  ((31642853103553858,17),(-94271347632058677,17),(10566118639427449,17));
  ((52663536619002027,17),(-84977168750845555,17),(23308157090060132,18));
  ((68852351044450844,17),(-71967112347855022,17),(-89492176173629909,18));
  ((8471463746547605,16),(-52141525639677244,17),(-10231886583609211,17));
  ((94758490460667444,17),(-31230068239694864,17),(-6746208072658294,17));
  ((99197363920856163,17),(-10345779766351559,17),(-72696514482728306,18));
  ((98460546674391936,17),(11787682611409352,17),(-12906249929106639,17));
  ((91734301790059003,17),(3754861903211103,16),(-13225697859537175,17));
  ((77419910339086462,17),(62130377932233694,17),(-12081954357041079,17));
  ((58334013757533121,17),(79892779363372746,17),(-14638532868131904,17));
  ((36255313374344711,17),(91372101031963759,17),(-1834915270884924,16));
  ((12236758425377853,17),(97414304617784186,17),(-18992498494734555,17));
  ((-11788488852930382,17),(97056087598045682,17),(-21003509009801696,17));
  ((-34587208668552549,17),(91889262555658213,17),(-18975995981642485,17));
  ((-54441564662345765,17),(82480027432208736,17),(-15269614006179685,17));
  ((-71085371633584504,17),(68825259246337267,17),(-14489776719799549,17));
  ((-85289620670315003,17),(50280959323612917,17),(-14053673377838233,17));
  ((-95041560801981928,17),(30139127410831756,17),(-76638579864727621,18));
  ((-99295218789281903,17),(82083927619005057,18),(-85487901983273468,18));
  ((-98481424746908841,17),(-16161908561941488,17),(-63404803804109552,18));
  ((-91727497640248845,17),(-39495453009475451,17),(-51161868842388686,18));
  ((-80626437126562112,17),(-58551358334001957,17),(-84330346566242595,18));
  ((-66164268019821149,17),(-73648670892872237,17),(-14077034954658105,17));
  ((-46002064384932068,17),(-87702769738853381,17),(-13857642384555496,17));
  ((-21257556191775492,17),(-96894927984271795,17),(-12628904769467983,17));
  ((435306055841366,16),(-99508995723666349,17),(-88887925975429688,18));
  ((28851595526426888,17),(-94888602190255222,17),(-12796038838599855,17));
  ((47547622688805458,17),(-85063824157757451,17),(-2243589526408766,16));
  ((63979855122946894,17),(-69729018883860239,17),(-32317828886560268,17));
  ((79004244420156777,17),(-5195239835181481,16),(-32546546193021392,17));
  ((89567790812982218,17),(-30848948067792908,17),(-32030505022438777,17));
  ((93785913399720278,17),(-10079986485355945,17),(-33205365834985295,17));
  ((92571161314578443,17),(1301750373844752,16),(-35512317430573292,17));
  ((86705571951432925,17),(36387847344273155,17),(-34030403439053736,17));
  ((74514538395800467,17),(58066759329076334,17),(-32799924217593923,17));
  ((55517033752412892,17),(75061610559381342,17),(-35827553413053742,17));
  ((31825902275203727,17),(86063200916997862,17),(-39752199842142577,17));
  ((71342060664875681,18),(90970589055503492,17),(-40907884700820207,17));
  ((-19176713813041335,17),(88526096893981465,17),(-42371969697550238,17));
  ((-42116224974876937,17),(80820788273112232,17),(-41160949658363277,17));
  ((-59641906803449862,17),(6925119342741789,16),(-40584666583907697,17));
  ((-75098274562476397,17),(54384266087651345,17),(-37451311857483,14));
  ((-88284020203523239,17),(33032118035205182,17),(-33388784865762522,17));
  ((-93920107451938273,17),(11280886992308821,17),(-32430772499019006,17));
  ((-94724480067931105,17),(-12322156646414119,17),(-2958779024262127,16));
  ((-89113988218833429,17),(-346911073968241,15),(-29244216031817855,17));
  ((-77882299673657696,17),(-52685157935332139,17),(-34038530092700625,17));
  ((-61868770338361379,17),(-69114687492139337,17),(-37355257055507096,17));
  ((-42204715854647062,17),(-83637154763592814,17),(-34979827081895742,17));
  ((-17904110779435128,17),(-92705677872324777,17),(-32940857721535832,17));
  ((83240523436493088,18),(-94920335071556128,17),(-30345347954566232,17));
  ((30023477819542405,17),(-86968808965940159,17),(-39179293595791809,17));
  ((47672854259056946,17),(-72766448452140364,17),(-49318788980029871,17));
  ((63706991017399861,17),(-53925630364098509,17),(-55076725441365437,17));
  ((76110609066410295,17),(-35628253013472028,17),(-54201501591266676,17));
  ((81882794364875344,17),(-13603247561987308,17),(-55768805283660372,17));
  ((81890589002663805,17),(89270054467961046,18),(-56694267845609136,17));
  ((76867072686552174,17),(3160873307332045,16),(-55608822412454317,17));
  ((66442700242439612,17),(52187750493840568,17),(-53495852950354572,17));
  ((47350486729351454,17),(68237185733820993,17),(-55692170810819785,17));
  ((23912515375496959,17),(76783151530047333,17),(-59435168457155174,17));
  ((-14279901570046475,18),(8015695713494525,16),(-59773096514887425,17));
  ((-25845570566152115,17),(74301376935889107,17),(-61735823211009166,17));
  ((-45156418296704731,17),(62690307363547604,17),(-63488764748394333,17));
  ((-6200075677506941,16),(49171636018870424,17),(-61139646470571052,17));
  ((-76986579904118235,17),(33506706902935007,17),(-54317281846458654,17));
  ((-83822380605042945,17),(87841327459675475,18),(-53820512089764994,17));
  ((-84453910225971829,17),(-14404619452517961,17),(-51575614256852353,17));
  ((-76700098002090411,17),(-3485565342165925,16),(-53871870127357757,17));
  ((-62324918139136132,17),(-53255635213758656,17),(-57266411594660338,17));
  ((-43695763097069901,17),(-6988777757302812,16),(-56624895878647696,17));
  ((-23052140696282344,17),(-8117769232942017,16),(-53654273617194748,17));
  ((15199884504601262,18),(-86121030686977451,17),(-50802142755233815,17));
  ((22693842977492876,17),(-77363514424536073,17),(-59159750902091335,17));
  ((41830017216061699,17),(-59649671458349296,17),(-68499389447023329,17));
  ((55430300766818519,17),(-38525078935298873,17),(-73778723558550607,17));
  ((65237554579116019,17),(-17923088376388013,17),(-73639828731394008,17));
  ((65664399418766772,17),(53058789781121191,18),(-75233199435105047,17));
  ((6151636837860307,16),(28019579250078464,17),(-73692873469261444,17));
  ((49760414313303886,17),(48657504011801778,17),(-71807718740465742,17));
  ((29023219130230044,17),(59166366457831465,17),(-75212989779001915,17));
  ((53490419571856442,18),(64402701768501358,17),(-76313037910030423,17));
  ((-16810471314855244,17),(59692260668769059,17),(-78448977497633166,17));
  ((-36396420033756693,17),(46719446965332279,17),(-80576633610370307,17));
  ((-54469638152562982,17),(31919095535327113,17),(-77551465877412762,17));
  ((-68675537712032397,17),(15970703663496147,17),(-70912672664736076,17));
  ((-69454250783868876,17),(-90174609674446515,18),(-71377814800903383,17));
  ((-61160363030683051,17),(-30530418807001825,17),(-72988379358800171,17));
  ((-44737467324758551,17),(-50102626247199433,17),(-74082966061704114,17));
  ((-2430128477654086,16),(-63399623280075779,17),(-73416178912784191,17));
  ((-31271542932983551,18),(-71576651933221613,17),(-69763914770147095,17));
  ((19036545704139912,17),(-61357950130894423,17),(-76634273555563026,17));
  ((33636618930868428,17),(-41096869812456199,17),(-84732668779624609,17));
  ((44287186733726719,17),(-17972734892180908,17),(-87838635529631282,17));
  ((46396656328642316,17),(54929201405785485,18),(-8841480707353877,16));
  ((40223194868097334,17),(29800300296217203,17),(-86568104385266198,17));
  ((20836317725549477,17),(41374803025256091,17),(-88622646870093047,17));
  ((-12936690475409525,18),(42564692341528215,17),(-90479684936821503,17));
  ((-22362041579757796,17),(32481484181137105,17),(-91896095030070368,17));
  ((-41694050546033046,17),(16069628720931409,17),(-89461573772409453,17));
  ((-52537761211342138,17),(-22863190483315185,18),(-85056195495150322,17));
  ((-4232775108614108,16),(-26718186450789599,17),(-86570780294337912,17));
  ((-23449277277203118,17),(-42542594962764807,17),(-87408575145754341,17));
  ((-11049960015965317,18),(-51355830274028591,17),(-85798354766869656,17));
  ((13942738217352824,17),(-34913278824630573,17),(-92664248838027985,17));
  ((23822082633971922,17),(-12578567046784889,17),(-96303104986442423,17));
  ((24258995187463292,17),(12829770078363642,17),(-96160793217563245,17));
  ((38268092903387438,18),(19370006352458435,17),(-98031415294083646,17));
  ((-18148560946748504,17),(9227483144929971,17),(-97905481411268225,17));
  ((-29145917815323591,17),(-10457173411602377,17),(-95085030361997991,17));
  ((-97306448694880726,18),(-25624976950724387,17),(-96170032269406824,17));
  ((18891011635623775,18),(-6906166468778463,17),(-99743351465144514,17))].

(** womersley/womersley_243.hpp:1-263. *)
Definition wo_243 : list lit3 := [  ((0,0),(0,0),(1,0));
  ((23938273421747683,17),(0,0),(97092528371577846,17));
  ((-24206325848120228,18),(21551059633566819,17),(97620143241852464,17));
  ((-26602813907214227,18),(-20068340402595769,17),(97929487981954255,17));
  ((20870097230312487,17),(22181957073837458,17),(95249146043267685,17));
  ((-23719829016311011,17),(62669159257928445,18),(96943774819304485,17));
  ((23276739085692916,17),(-20965807752600418,17),(94966458935866283,17));
  ((29371088441634548,19),(41744888106427347,17),(90869566142346225,17));
  ((-26012434603955387,17),(-17100600866634655,17),(95031166971552017,17));
  ((42517167536362449,17),(14075597408908708,17),(89410111409544779,17));
  ((-2805183066347457,16),(26069171326446205,17),(9237690784379039,16));
  ((89042579342248254,18),(-39204260234741301,17),(91562766286779884,17));
  ((23513834058299188,17),(4351148933124363,16),(86912886869875861,17));
  ((-44184197047985951,17),(-26548178463241295,18),(89669998736632017,17));
  ((45493044763340351,17),(-11623289839831791,17),(88290894272625731,17));
  ((-21327793583581281,17),(45424993157585286,17),(86496793105232972,17));
  ((-19433747177946431,17),(-377340732852537,15),(90545398469092631,17));
  ((43850954946494958,17),(35647005121123637,17),(82500816821259737,17));
  ((-49383440368389714,17),(21357282175732725,17),(84292006236937,14));
  ((34795487138787029,17),(-38253236965161869,17),(85591845034802705,17));
  ((1327135276334129,16),(61493269864502975,17),(77733190833789667,17));
  ((-48854063061920522,17),(-23700358623689732,17),(83973647791735162,17));
  ((60569090929206992,17),(26608930848774751,18),(79525498250563054,17));
  ((-4665111610989352,16),(41808750376980042,17),(77946787987810018,17));
  ((-22648493544497227,18),(-54214260320974383,17),(83998121617398513,17));
  ((37445153525623376,17),(59100959439627276,17),(71448842333224882,17));
  ((-62876046581457445,17),(65866640439391555,18),(77480440261130878,17));
  ((55494130818539156,17),(-26844593647209786,17),(78738613377497624,17));
  ((-86695334580288649,18),(62959110566687293,17),(77207445147937404,17));
  ((-3734348414976314,16),(-435723630516134,15),(81895746957059901,17));
  ((6265380368059098,16),(24955911799889266,17),(73835650945800646,17));
  ((-66083642766465045,17),(35686863843151029,17),(66025751853005299,17));
  ((2597712500658193,16),(-56066486183119268,17),(78624030063782102,17));
  ((24836338304853839,17),(75023567968523441,17),(6127495857917159,16));
  ((-66489641499854046,17),(-1613902035178866,16),(72929140919836966,17));
  ((74773712853414731,17),(-75752724560859422,18),(659659541985951,15));
  ((-34924824015946404,17),(596392699781922,15),(72273191045666962,17));
  ((-19842512786722905,17),(-62535348774269761,17),(75469231081210675,17));
  ((56419207540460314,17),(48929248149881921,17),(66504147960813265,17));
  ((-75703331009848018,17),(17460516567845508,17),(62961385270635317,17));
  ((51573382903379217,17),(-48686048371309742,17),(70497197603081507,17));
  ((-13410710368296337,18),(78001046829771414,17),(62562274750315661,17));
  ((-57859856412940525,17),(-41999926351578376,17),(69915972440751317,17));
  ((78743373076391043,17),(14126515392913216,17),(59999356324931352,17));
  ((-57631212582352731,17),(56102991944045844,17),(59423039565592695,17));
  ((13428120802091542,17),(-69479601095121657,17),(70656001892176201,17));
  ((49730535295507811,17),(69196017038787727,17),(52333403149327595,17));
  ((-79931564387090304,17),(-89156715297978403,18),(59426053341991247,17));
  ((72410161615204216,17),(-2701284318238113,16),(63459237295007653,17));
  ((-27009519862527676,17),(74272346091152774,17),(61270747040588192,17));
  ((-39218801418810317,17),(-63123026697420792,17),(66913146061357953,17));
  ((74227556556945173,17),(36690895966957698,17),(56071811106182345,17));
  ((-79082452530780756,17),(39373335669794052,17),(46858362540218279,17));
  ((41920630175805518,17),(-66555344409156347,17),(61749873653651499,17));
  ((19367953972612414,17),(86358952302796699,17),(46551194571976912,17));
  ((-73483088971743049,17),(-36404005252432448,17),(57227476239580621,17));
  ((89598750010924222,17),(-10096734615463168,18),(44396447560373054,17));
  ((-51445188177626322,17),(70584699800566841,17),(48694894675237538,17));
  ((-49173696440715516,18),(-76949900721209741,17),(63675209106680819,17));
  ((68697624535997059,17),(56580805334716266,17),(45598781242332764,17));
  ((-87951686310882038,17),(81861036711649807,18),(46877378145083415,17));
  ((67412148629264246,17),(-4832425971995899,16),(55860255456844587,17));
  ((-74632511809268817,18),(8830633800694877,16),(46328075177077099,17));
  ((-56586555858546117,17),(-60913362482327982,17),(5556549259355269,16));
  ((895827006459745,15),(21370379166069559,17),(3896468451395621,16));
  ((-73314850793629116,17),(56295585124083536,17),(38154157684909851,17));
  ((27983483920612395,17),(-80020758563660421,17),(53043405118461207,17));
  ((44247113928745191,17),(80986658394512046,17),(3851433591621769,16));
  ((-86587766571983893,17),(-24951450434503289,17),(43358779979263212,17));
  ((88075223316067797,17),(-20552257156849033,17),(42665674301287398,17));
  ((-32661289411826194,17),(84103714687090447,17),(43125460574809138,17));
  ((-24365057365389192,17),(-8051905748046253,16),(54065010515482792,17));
  ((84789276977164119,17),(40894967176507191,17),(33739889883076768,17));
  ((-90515186520792534,17),(25128045808625321,17),(34286766003018776,17));
  ((56454177480671786,17),(-68883417896610877,17),(45475274423159656,17));
  ((95321724946944172,18),(95586322441789018,17),(27791952964585498,17));
  ((-74677743124572205,17),(-52270772504972129,17),(41121782835303461,17));
  ((977174607513706,15),(-28753316599069708,18),(21048285729481245,17));
  ((-61181466345733226,17),(7404797110083785,16),(27815933412981059,17));
  ((89012150456325045,18),(-87751880799721349,17),(47120863604383378,17));
  ((68570923833399067,17),(67138512187491772,17),(28114917497375008,17));
  ((-94421485954446116,17),(-93420175313669723,18),(31580210553414073,17));
  ((82392669906874649,17),(-39633088303351122,17),(40505138651232447,17));
  ((-15042184088654503,17),(95079849640440994,17),(2708421847117175,16));
  ((-41251720821660914,17),(-79723420613039553,17),(44073481085661115,17));
  ((96901152689491399,17),(17630006631061965,17),(17301718805846594,17));
  ((-88504353344483833,17),(42252141785544906,17),(19538064223688184,17));
  ((39087405049542601,17),(-85412855841208135,17),(34304793011210377,17));
  ((30780723442522756,17),(92089834059381104,17),(23916720662970972,17));
  ((-87069972468336299,17),(-41809172855902177,17),(25900057132532556,17));
  ((95914964830084581,17),(-22806865742302787,17),(16738171843311125,17));
  ((-42266499089509213,17),(8728500047660539,16),(24389992753494477,17));
  ((-10175742909451033,17),(-91876006736028015,17),(38147786862177097,17));
  ((83971388808991576,17),(51876553685462112,17),(16050826745327881,17));
  ((-97920274595120893,17),(78123136672997362,18),(18723984041326386,17));
  ((7228014800667697,16),(-60427066338852686,17),(33528344095895485,17));
  ((99807541146248215,19),(99748018951273376,17),(70239989158201468,18));
  ((-60857837517764191,17),(-71223992832753913,17),(349780853910164,15));
  ((99822453453161719,17),(-44779412055222803,18),(-39275729339182344,18));
  ((-77364198348514612,17),(61495931268096093,17),(15265361160525875,17));
  ((18102349898423375,17),(-94668189857614626,17),(26650305012094727,17));
  ((55529041893939712,17),(81206138359102087,17),(17946826993746154,17));
  ((-95738803198892364,17),(-25197150725446321,17),(14113297182547346,17));
  ((89400611418848097,17),(-41323825155643912,17),(17316817041301125,17));
  ((-27073194448583543,17),(95827462576324951,17),(91727617723466645,18));
  ((-26762137858164414,17),(-92970654737842651,17),(25303069673015138,17));
  ((93841010448217776,17),(34044767778650425,17),(59007241043153497,18));
  ((-96458110165354982,17),(257232115132356,15),(58437464672576572,18));
  ((5579153774938268,16),(-79579660570064581,17),(23545316712937103,17));
  ((19862774418134063,17),(98003582673046574,17),(-87634220578794407,19));
  ((-75399190345216471,17),(-63099314428519571,17),(18260301583945371,17));
  ((96362068972637038,17),(-24967108578215097,17),(-95391379357027101,18));
  ((-57978154855153974,17),(81242689738405705,17),(61772909645681641,18));
  ((-9167887722600989,18),(-98640197839779598,17),(16409474960406228,17));
  ((72197180288653473,17),(69102233322203843,17),(3528244358228072,17));
  ((-99817286789945148,17),(-59576859641366699,18),(10075891258692824,18));
  ((78943583757078295,17),(-5994797026403057,16),(13196645210509739,17));
  ((-13929891431771807,17),(98563376473417241,17),(-95508608438439752,18));
  ((-46671921739926014,17),(-85966878069326025,17),(20770835229134485,17));
  ((98503633384024669,17),(14165285106943687,17),(-98172759961538014,18));
  ((-88083973643499902,17),(47159382626807583,17),(-41480377806348979,18));
  ((32819150624005333,17),(-93814667645364114,17),(1103229291256906,16));
  ((40321011590522615,17),(91458750300926062,17),(30843180299374131,18));
  ((-88023175243094531,17),(-47369124608199192,17),(28437042702022738,18));
  ((89708713267375351,17),(-43422972686082795,17),(-81726499383945342,18));
  ((-42951807569148603,17),(90094964567085634,17),(-61676240318629581,18));
  ((-20925737717234169,17),(-97729364045629019,17),(33293999799417807,18));
  ((84719436409178206,17),(52354290157958783,17),(-90357842253713835,18));
  ((-98334216987418777,17),(12794563822127003,17),(-12910495965405819,17));
  ((65237997866245034,17),(-75630356861887671,17),(49043608500323237,18));
  ((13266118263202019,20),(97009817409688559,17),(-24271282416654302,17));
  ((-62281767060267446,17),(-77871062088395049,17),(75550765102615963,18));
  ((95132379589123472,17),(-8952283590527807,17),(-29490455612378907,17));
  ((-73408043551238189,17),(67658613168674808,17),(-57940664538077447,18));
  ((88527136688394653,18),(-99582361755748317,17),(-22321935052357588,18));
  ((5760657886861319,16),(81266832190671734,17),(-87854457341359132,18));
  ((-96002204302439742,17),(-26280093639994739,17),(-96401995490615927,18));
  ((78937769900793975,17),(-60182972787084932,17),(-12117684168119702,17));
  ((-32896757979316704,17),(91258968198924717,17),(-24281763480396373,17));
  ((-40758560329346333,17),(-91277437725073118,17),(-26775216571363863,18));
  ((92239967283568558,17),(33183930624352959,17),(-19763987043214062,17));
  ((-92211497103418294,17),(32400505963918436,17),(-2114821541474283,16));
  ((47568995846823542,17),(-87936795837391202,17),(-20761917006535863,18));
  ((22315708262238285,17),(94894859059394654,17),(-22292933608035878,17));
  ((-76337294377617337,17),(-64227690926720127,17),(-68863056370383938,18));
  ((89162823050696427,17),(-29095994247551971,17),(-34690259502872256,17));
  ((-60602481445419587,17),(76837196123576745,17),(-2057631003179573,16));
  ((-11161442039947013,17),(-98031209071210701,17),(-16288163175308659,17));
  ((72488491506505393,17),(65310905936689034,17),(-21906715062743931,17));
  ((-96480190966136647,17),(-67458839671203794,18),(-25417824467093025,17));
  ((64502716066914356,17),(-73675140789230797,17),(-20282338368098704,17));
  ((-18868652082483128,17),(90045382166238042,17),(-39189324045284912,17));
  ((-55407300543798921,17),(-81812642805437585,17),(-15385789665760466,17));
  ((93237155435330465,17),(11819121118917075,17),(-3416344863014264,16));
  ((-80105143852054339,17),(54258458791664022,17),(-25282119729069008,17));
  ((2585706179473099,16),(-95686466916237622,17),(-13248109466305916,17));
  ((42901963077625593,17),(87201999582608736,17),(-23563379063299794,17));
  ((-86833287819921523,17),(-45129855609363717,17),(-2057367879258955,16));
  ((81376793738198439,17),(-46866354780400776,17),(-34370950386748289,17));
  ((-50053171383366379,17),(78350028488926882,17),(-36823268055017838,17));
  ((-31319762402145868,17),(-91542721061766485,17),(-25278502797451136,17));
  ((82266576615675469,17),(44477647049860841,17),(-35411146336220223,17));
  ((-91650279057777673,17),(9767145381835951,17),(-38792128321626818,17));
  ((47109619995298074,17),(-8442596728449655,16),(-25552685807478831,17));
  ((89346592464352323,18),(89408688818425086,17),(-43889158432580117,17));
  ((-67504739891055854,17),(-68671430224352559,17),(-26969330046976892,17));
  ((85349366560604245,17),(-65251787273602868,18),(-51700170892170305,17));
  ((-69569227261717959,17),(59560732827051743,17),(-4015771063335159,16));
  ((64540781478521825,18),(-95255635356582968,17),(-29744055003901515,17));
  ((58521984660838255,17),(72729515342083106,17),(-35855193619088299,17));
  ((-90127364610029648,17),(-26161530691817231,17),(-34534511149166147,17));
  ((68030479879559624,17),(-61088287142195674,17),(-40497839218771703,17));
  ((-34145682939952327,17),(77857290783750288,17),(-52652773985601176,17));
  ((-43032462556417389,17),(-81627020677669715,17),(-38538768293989578,17));
  ((84503019046540961,17),(23857715378038408,17),(-47854458402122202,17));
  ((-85209208962881922,17),(31627518090820322,17),(-41702407692299454,17));
  ((28772216493449154,17),(-88708804631956439,17),(-36095810543932627,17));
  ((33118104829357031,17),(83515187016613734,17),(-4391360461282755,16));
  ((-76285773164750292,17),(-5206443272882858,16),(-38337653257359766,17));
  ((77769394595421926,17),(-26533549472261025,17),(-56990280019180795,17));
  ((-54394079216987701,17),(62405941491059824,17),(-56096190715150041,17));
  ((-13222430320342229,17),(-89876066961364076,17),(-41802630586843403,17));
  ((69583239597071023,17),(53890111510389727,17),(-47476611595335755,17));
  ((-84461608962692458,17),(-13511343192607675,17),(-51804249020372861,17));
  ((50680205240215004,17),(-72252755400686364,17),(-47021868676375156,17));
  ((-76192190723169337,18),(8180119420812586,16),(-57013262727654135,17));
  ((-5476938216517323,16),(-68439608680319419,17),(-48128315375981651,17));
  ((75898433428663659,17),(53317777448055222,18),(-64892217939863228,17));
  ((-7329120275392047,16),(40277162305917308,17),(-5482836670434853,16));
  ((10006724753328075,17),(-85160143776487196,17),(-51454983934300857,17));
  ((4768398091479582,16),(69002221937593222,17),(-54451183015546289,17));
  ((-76450757945492442,17),(-36216532504968491,17),(-5332583222863273,16));
  ((68045159351698226,17),(-43469406682464645,17),(-58993787566798039,17));
  ((-30363873203637959,17),(66012254793133096,17),(-68705293982340787,17));
  ((-23123904211229168,17),(-7970842193337031,16),(-55783980916762388,17));
  ((71725873262404716,17),(30369731153779728,17),(-62714261012887629,17));
  ((-8136158835148728,16),(77671865243113175,18),(-57619117959403754,17));
  ((32336483225701323,17),(-75818003415440349,17),(-56621393577783052,17));
  ((20068370862956034,17),(76980298010833081,17),(-60591205707348206,17));
  ((-60571745427845725,17),(-52406388813090488,17),(-59871813630417403,17));
  ((65346827833266152,17),(-14459008208742563,17),(-74301609496356047,17));
  ((-5398760786110629,16),(47453753279306082,17),(-69523229910168594,17));
  ((31229168874039471,19),(-75171777275647411,17),(-65947754890682997,17));
  ((5856379618912374,16),(47427625338743945,17),(-65733569282722737,17));
  ((-69442949085573347,17),(-18159374993527788,17),(-69626962608912546,17));
  ((51928020807315789,17),(-56232514505906872,17),(-64353593274796639,17));
  ((-62934324358593918,18),(6863156953114159,16),(-7245757635932456,16));
  ((-35755474104619961,17),(-67117146906023528,17),(-64937159336924399,17));
  ((60222238730424982,17),(13779093846948207,17),(-7863471583882462,16));
  ((-69168401342002761,17),(2346521307376343,16),(-68301654673913381,17));
  ((22780596680893914,17),(-65392290052028468,17),(-72144943111862136,17));
  ((38655976835801392,17),(59035238945995727,17),(-70855882024424588,17));
  ((-57294724310453027,17),(-34724382926830077,17),(-74239691517004935,17));
  ((54390227539665392,17),(-31821623749123562,17),(-77647198340652568,17));
  ((-32791710689944303,17),(48787608880168343,17),(-80897916720906426,17));
  ((-12830259627935603,17),(-62949201725287118,17),(-76634081452242087,17));
  ((49272481717634109,17),(3164138388686713,16),(-8106198474691646,16));
  ((-65236227207906294,17),(18731371904896557,18),(-75767578928879808,17));
  ((37143374579758615,17),(-50129621299378868,17),(-78149797141186506,17));
  ((15982636143017598,17),(63331741430371002,17),(-75720841710301512,17));
  ((-40181205455205676,17),(-50674697154531145,17),(-76272837868163157,17));
  ((49570099213126101,17),(-48905526345178078,18),(-86711520335707681,17));
  ((-50902708912461925,17),(2843106588767601,16),(-8124400727354476,16));
  ((79534080457288506,18),(-53709305538090857,17),(-83976507423648783,17));
  ((31547257633821252,17),(42099536411516469,17),(-85043515741770137,17));
  ((-4799674533981238,16),(-12673698089985538,17),(-86808351058576705,17));
  ((35525419906609412,17),(-28323019031549479,17),(-89082832989289051,17));
  ((-10233500984615314,17),(50863488344666385,17),(-8548789979295236,16));
  ((-18848919285397042,17),(-45506676160818588,17),(-87027930381958263,17));
  ((35521227226910951,17),(13875055535250849,17),(-924430919549312,15));
  ((-45353329474159221,17),(86754621851825545,18),(-88700686927902805,17));
  ((15875847544591354,17),(-36913823352565944,17),(-91571431736303266,17));
  ((10087244659582879,17),(44019373412938079,17),(-89221870970687656,17));
  ((-36380084824863568,17),(-2933687289890391,16),(-88407224346482505,17));
  ((2790627969824418,16),(-81799841050361491,18),(-95678249427154138,17));
  ((-28549482808874244,17),(29022791357749117,17),(-91337859692190937,17));
  ((-64236913638194518,18),(-30135796525488584,17),(-95134483532716685,17));
  ((17890087009396549,17),(21678786710623521,17),(-95968614627655813,17));
  ((-23455171212539075,17),(57127299933297092,18),(-97042360129037408,17));
  ((75144617214974715,18),(-12375076019001156,17),(-98946401443206067,17));
  ((-77220814063863177,18),(2786198436751296,16),(-95729197666425714,17));
  ((-21018871714106513,17),(-13142362297377788,17),(-9687871461322346,16));
  ((14208281089529295,18),(70240346931684197,18),(-99742890393821937,17))].

(** womersley/womersley_266.hpp:1-286. *)
Definition wo_266 : list lit3 := [  ((0,0),(0,0),(1,0));
  ((18824810272991449,17),(0,0),(98212150562880329,17));
  ((20791233485221275,17),(22611261100954283,17),(95165411161763414,17));
  ((12139449697185159,18),(26221213934198173,17),(96493389812087682,17));
  ((-15969909089147169,17),(16316409063189022,17),(97358804424494949,17));
  ((-23761592697339562,17),(-55570512089773316,18),(96976831740094205,17));
  ((-8264035807882239,17),(-21232792961401556,17),(97369780811216256,17));
  ((11604134554210697,17),(-25299636349167537,17),(9604828193074384,16));
  ((30680956174690971,17),(-21600068457707611,17),(92693667371773769,17));
  ((38935817744654982,17),(465710040716826,17),(92107465553629175,17));
  ((39832305736859497,17),(23697909249977137,17),(88610363484556354,17));
  ((30858542865121208,17),(44310900101342732,17),(84168250929018962,17));
  ((10867668761061219,17),(46405423050301886,17),(87911492350103837,17));
  ((-10671617316754453,17),(45384293915771495,17),(88466843786876526,17));
  ((-2800259789141718,16),(38004456900641709,17),(88156200956137309,17));
  ((-36221330582441091,17),(18996636542471795,17),(91253180826263491,17));
  ((-43378509188521602,17),(-21509933013806437,18),(90075957771198645,17));
  ((-33802934093329634,17),(-25060841523316002,17),(90715576770614503,17));
  ((-19472047758435618,17),(-40277013175712389,17),(89434901273142209,17));
  ((17679718215636848,19),(-45519495176486174,17),(89039004383664544,17));
  ((21672253519672222,17),(-45526615958860606,17),(86357632359354741,17));
  ((41247233065702787,17),(-41149433546705966,17),(81273549714583182,17));
  ((50729404780646103,17),(-21198982071264902,17),(8352922033482385,16));
  ((56802323471166838,17),(14889306032566928,18),(8228778240987914,16));
  ((58458077781134676,17),(22745305646262434,17),(77880063001983446,17));
  ((50890040919855317,17),(43396368732328594,17),(74343519663943969,17));
  ((39341967250419568,17),(61110774371407783,17),(68685390503321764,17));
  ((17506645875446353,17),(63768538762320304,17),(75013937467047875,17));
  ((-50183643904365659,18),(64425695125266835,17),(76316091530364472,17));
  ((-25138361826162997,17),(62232763698968596,17),(74129251224366532,17));
  ((-42322175618844243,17),(50735931132745016,17),(75064630439249225,17));
  ((-52594645196482426,17),(33642463254867094,17),(7811522235007109,16));
  ((-57542451917904724,17),(14896301867246559,17),(80417450954102554,17));
  ((-60935988067161795,17),(-83408627170343294,18),(78849447476911982,17));
  ((-52098908759738571,17),(-27389444290228487,17),(80842575710555542,17));
  ((-40119220058584665,17),(-47172673434670692,17),(78518705178554571,17));
  ((-23757530327854606,17),(-60261501951154917,17),(76184848462880206,17));
  ((-38053161441049324,18),(-6368980760659444,16),(7700083100901185,16));
  ((18274941811410877,17),(-63278034691368779,17),(75245709694224261,17));
  ((39664666116591757,17),(-60853902249291747,17),(68727846197105169,17));
  ((56947563824896619,17),(-47842128406528889,17),(66843890700216779,17));
  ((65452300822622211,17),(-26454037070762254,17),(70824997279800195,17));
  ((72244756321695403,17),(-57549931027860338,18),(68902650445434532,17));
  ((75386011150262699,17),(13945583527665151,17),(64206464027583565,17));
  ((7038364425407333,16),(35236446631792656,17),(61680916418944998,17));
  ((61376077684644337,17),(54712457374857892,17),(56916817339454795,17));
  ((50349845134686755,17),(70827231501248411,17),(49481272950295319,17));
  ((28702740944886851,17),(76544274614533103,17),(57594502220139554,17));
  ((54208833648673488,18),(7832699855937395,16),(61931375894810659,17));
  ((-17900871589486639,17),(78948128574335441,17),(58709043519264636,17));
  ((-39271647875693638,17),(71438520569130959,17),(5791610701714488,16));
  ((-56547200476018755,17),(57762417299321123,17),(58872041463363844,17));
  ((-67953019859885322,17),(41336734424127608,17),(60610737324925967,17));
  ((-73685307496287278,17),(23304901332834929,17),(63461461006223441,17));
  ((-74843889795919749,17),(28781637219117331,18),(66257892615190306,17));
  ((-77874404920745199,17),(-17184853941873282,17),(60334549416037742,17));
  ((-67150958522497506,17),(-32715627179057949,17),(66486363322042996,17));
  ((-54735085785302418,17),(-52015352417829308,17),(65562744733000644,17));
  ((-38032943511042627,17),(-69388267189369202,17),(61145429791134431,17));
  ((-18979563216051362,17),(-78426220588241136,17),(59068638924326433,17));
  ((15041493929743908,18),(-78844880079545987,17),(61491645122289806,17));
  ((23593588264706261,17),(-77187195567515232,17),(59037949093931708,17));
  ((4539288069839934,16),(-72824242951879381,17),(5134312047768943,16));
  ((62092279378155713,17),(-61617267536399412,17),(48454733339198541,17));
  ((73445478302038114,17),(-40764461354257592,17),(54258827922118691,17));
  ((82326550325978465,17),(-19801246043177759,17),(53200091790913973,17));
  ((87886938383708146,17),(-13153310690322466,18),(47688111366640701,17));
  ((86734873257520306,17),(1976777970618345,16),(4567599639295995,16));
  ((80611986013996695,17),(40544939922634243,17),(43102384592377024,17));
  ((71365373315132319,17),(59283518036002936,17),(37315519303189604,17));
  ((60156570978866608,17),(74911030744938678,17),(27740303545481176,17));
  ((40830069248599382,17),(84139237200989692,17),(35404720142802576,17));
  ((19440852598356503,17),(88284375385069835,17),(42754208133434668,17));
  ((-29734597844456499,18),(8942600467110472,16),(44655886795290939,17));
  ((-27422934908061591,17),(86939786209992964,17),(411029952045947,15));
  ((-50034386906962502,17),(76417954264014432,17),(40704500892989443,17));
  ((-67846918669123257,17),(61723965780193124,17),(39836511838650251,17));
  ((-79841017752869559,17),(45086680565605369,17),(39907431886317002,17));
  ((-86456584648656387,17),(27128146902457678,17),(42300385536403656,17));
  ((-87843774424684318,17),(80402762638134326,18),(47104407993591613,17));
  ((-90277190204287205,17),(-10619194369881312,17),(4168047072375301,16));
  ((-84174657111241247,17),(-32094154547039283,17),(4341189173620198,16));
  ((-71493615481491601,17),(-48637180973440353,17),(50230345134603993,17));
  ((-5562590019618584,16),(-67475699246988297,17),(48505558841167423,17));
  ((-36898007345372569,17),(-83012510593636346,17),(41802633157281444,17));
  ((-16760832031983391,17),(-90448491429357969,17),(39219190554484906,17));
  ((37639868182639362,18),(-90302010624751872,17),(42794617422745318,17));
  ((25197414899555098,17),(-87761435271905031,17),(40780151561696082,17));
  ((45054598537243795,17),(-83244272531815577,17),(32256382954333296,17));
  ((62370795791210876,17),(-73485658810826227,17),(2664097936469137,16));
  ((7593475806135902,16),(-55394774645041067,17),(34136951536245719,17));
  ((86505827068086205,17),(-34643869718798592,17),(36284213842568958,17));
  ((94389414315000786,17),(-16035485942440242,17),(28870428743974785,17));
  ((96476507133119971,17),(40024891626888284,18),(26005069734488512,17));
  ((93391348501175364,17),(25363832359306421,17),(25193888806236542,17));
  ((86114905022342991,17),(45947023968368583,17),(21750726917577018,17));
  ((75701897396794882,17),(63799919279257766,17),(14099398231319471,17));
  ((60528605211346043,17),(79433389864413162,17),(51598959114654591,18));
  ((43434607928252961,17),(89050454748970242,17),(13544421106881913,17));
  ((23148661803630957,17),(94817310804704336,17),(2176733857101541,16));
  ((14137566254955875,18),(96917723729412897,17),(24595855734514799,17));
  ((-18767692937816799,17),(95464255576392265,17),(23116003310197916,17));
  ((-41091727446174514,17),(88185901584633275,17),(23123942077307777,17));
  ((-61839719974315288,17),(75577167896011754,17),(21539283328753564,17));
  ((-78204083278033631,17),(59488421698904015,17),(18580878408077156,17));
  ((-89088394582042518,17),(42079369461102273,17),(17105104985072417,17));
  ((-95015475834955898,17),(23194371327339564,17),(20834598402330717,17));
  ((-97176401482736774,17),(44465091333809402,18),(23172732928869572,17));
  ((-97001969742335592,17),(-15415697562709466,17),(18787605881593394,17));
  ((-90543585968567608,17),(-34510960599853252,17),(247154332033243,15));
  ((-76166221811879864,17),(-56145996138582255,17),(323470829057246,15));
  ((-60041060098780807,17),(-73874235070898719,17),(30621373171433536,17));
  ((-41676201953260827,17),(-87898657327472129,17),(23171539240599665,17));
  ((-21372043335852381,17),(-96136312632500853,17),(17350652929400223,17));
  ((-63640218872434012,19),(-97821474201748715,17),(20749799450857298,17));
  ((20122821486182135,17),(-95666623233295345,17),(21046834787539037,17));
  ((39058645210271664,17),(-91192213446164183,17),(1258580315781847,16));
  ((57005285788678794,17),(-81957608174939822,17),(57747601157184025,18));
  ((74995389029572046,17),(-65140320956317099,17),(11507832550534475,17));
  ((87480976031924806,17),(-45402757719568393,17),(16901728431138965,17));
  ((96013508480388976,17),(-26095220038634048,17),(10022259247372553,17));
  ((99731205676929746,17),(-68562699391533144,18),(25842168537873144,18));
  ((99040277657692666,17),(13051002849839091,17),(45491456451334178,18));
  ((93573631555478598,17),(35117298797444629,17),(32788416690250004,18));
  ((83742524707650512,17),(54556100881753544,17),(-32895914896041344,18));
  ((69915592425931139,17),(70546802972596034,17),(-11617165148038344,17));
  ((50018488166450503,17),(85361560238692313,17),(-14544926096709929,17));
  ((32720455370012924,17),(94408923364861441,17),(-40406669581530517,18));
  ((12522129746334737,17),(99181665188896351,17),(24886857924660898,18));
  ((-79870453088361562,18),(99680450524108366,17),(12202682238561901,19));
  ((-26973893035995949,17),(96289257930149563,17),(88763829558033379,19));
  ((-464172478927802,15),(88522322626255456,17),(30393247462770299,18));
  ((-65188709172736081,17),(75821835069419008,17),(12171783346153875,18));
  ((-80227978155236401,17),(59607854990387066,17),(-32210471228932405,18));
  ((-91536897935454864,17),(39957341952028758,17),(-49403583354613437,18));
  ((-97936219242226208,17),(20042217514770111,17),(-2608922695145327,17));
  ((-99983215649075496,17),(87457686574615272,19),(-16098769444793933,18));
  ((-97996263324615163,17),(-19577765310960132,17),(-36665351275626645,18));
  ((-91899912485659163,17),(-39293821498985854,17),(32251631174289148,18));
  ((-81804525315142973,17),(-5575853985378284,16),(14106908638615473,17));
  ((-65574342334677826,17),(-74589902599840785,17),(11676988375465068,17));
  ((-48522125014534018,17),(-8735761700667346,16),(37749350973608813,18));
  ((-28340219325729443,17),(-95870579333206352,17),(-23799132095393395,18));
  ((-59254463979097123,18),(-99770848895018782,17),(-32660060858531431,18));
  ((13949528410431308,17),(-99017043957048689,17),(-10176753580871818,18));
  ((32984032324096518,17),(-94042965548173996,17),(-82446493283776498,18));
  ((51737222782962156,17),(-84254146605712854,17),(-14983275958520867,17));
  ((70457826281622626,17),(-70323388400274389,17),(-95034603999196457,18));
  ((8587042958953629,16),(-51105620030092003,17),(-38059063898565566,18));
  ((93908475263189817,17),(-32642927105813357,17),(-10753491698393763,17));
  ((97153026825553324,17),(-13554897901574064,17),(-19430751954343425,17));
  ((97825547417021541,17),(73071318845219918,18),(-19410515093172437,17));
  ((94624037470421885,17),(27915154220811933,17),(-16341226931429625,17));
  ((85053915462062646,17),(47500059312721538,17),(-22573786343018254,17));
  ((69873808362975787,17),(64716785026300894,17),(-30485876085716962,17));
  ((51073985600100757,17),(7951493567028074,16),(-32692858551552445,17));
  ((28363496608428262,17),(92420615844169463,17),(-25572286310146985,17));
  ((87728813531955663,18),(9758534613852925,16),(-20003419002415246,17));
  ((-10984798739466431,17),(9628634410203023,16),(-24663214229269576,17));
  ((-29564652416502124,17),(92829782892678825,17),(-2255133556110433,16));
  ((-48034711473353225,17),(85626329893984487,17),(-1899468669281614,16));
  ((-6460430904660559,16),(73512107097651125,17),(-20548804409846969,17));
  ((-79446533306479561,17),(5600576005484168,16),(-23486233973584045,17));
  ((-90527265482634611,17),(34393698775328585,17),(-24937676090376887,17));
  ((-96203349239650349,17),(11610750009653202,17),(-24700325489499209,17));
  ((-96199851226599764,17),(-86413941713466447,18),(-2590202561104995,16));
  ((-92605215888804582,17),(-30130927383236672,17),(-22724462704627679,17));
  ((-85536141227538121,17),(-49840390824841801,17),(-14124588005661584,17));
  ((-74855737705405356,17),(-66090223074069965,17),(-53573264413534605,18));
  ((-58055296273585755,17),(-80234578633961484,17),(-13856224811139184,17));
  ((-39397880299556726,17),(-89455594373721425,17),(-21106957695177669,17));
  ((-18301894754118836,17),(-95296256447521488,17),(-2415914227569714,16));
  ((32341022140030387,18),(-9686512527197052,16),(-24631039135912186,17));
  ((23113696166626174,17),(-93397689341615442,17),(-27251214196141488,17));
  ((41223479265836321,17),(-84313181815044913,17),(-34524080428627529,17));
  ((61138455720393825,17),(-72264458961977207,17),(-32248057353244619,17));
  ((78109204565754609,17),(-57346388442674301,17),(-24705139033954251,17));
  ((86696949599599282,17),(-39458779345749445,17),(-30440822306041571,17));
  ((89919722953758996,17),(-1944963236078463,16),(-39193816157010625,17));
  ((90963250580969413,17),(20804960453413238,18),(-4148925860929652,16));
  ((89600921199223371,17),(22610948977332007,17),(-38215440682989005,17));
  ((80794433618665507,17),(42130824219387591,17),(-4119773230208329,16));
  ((64069141297162413,17),(59612327123622311,17),(-48389209420597923,17));
  ((44180201223225529,17),(74074751416278695,17),(-50606729023834562,17));
  ((2668065038319577,16),(85639560198545495,17),(-44204169759530365,17));
  ((48037562992227327,18),(90222442627086763,17),(-42858310417230822,17));
  ((-13554063712353515,17),(86393712324167427,17),(-48501688916268293,17));
  ((-32564297761509126,17),(837185620388471,15),(-43940515261515561,17));
  ((-50041773694894232,17),(75875957994571919,17),(-41697240722558021,17));
  ((-65785748891165829,17),(62731013095345556,17),(-4167799465977291,16));
  ((-79165022226234649,17),(43908235641235949,17),(-42484892594820928,17));
  ((-88049680166234412,17),(20602345007966455,17),(-42694229150981827,17));
  ((-88742929368282708,17),(-40085578526228793,18),(-45919755564224884,17));
  ((-86042695918142964,17),(-26256645528557343,17),(-43671993825856797,17));
  ((-80499942599743024,17),(-47193830512283214,17),(-35951378318723232,17));
  ((-70038415196349424,17),(-65707856582572233,17),(-27876477182525933,17));
  ((-53515703947998305,17),(-75907299215999668,17),(-37069547565122707,17));
  ((-34085170003584064,17),(-83876364861140829,17),(-42461236481143078,17));
  ((-12890370355623382,17),(-88540754282800915,17),(-44658405514836036,17));
  ((82487491453573744,18),(-88217903424072075,17),(-46363343850482336,17));
  ((26373085224043979,17),(-81433063599346078,17),(-51702190752328558,17));
  ((4666698473561382,16),(-71098860114591189,17),(-52603656014499434,17));
  ((6657415879922175,16),(-58212555048921977,17),(-46681686075507561,17));
  ((76609960864816917,17),(-4079962871596976,16),(-49661898805122578,17));
  ((79528957950300072,17),(-18853050766622031,17),(-57616901375643037,17));
  ((79651870713127271,17),(32625321976623725,18),(-60373300187735912,17));
  ((77745808020277196,17),(23695952239715146,17),(-58258829225511732,17));
  ((67410944734565947,17),(42027902478916418,17),(-60740595512523476,17));
  ((48964313348900301,17),(57389796966289242,17),(-65642267042194713,17));
  ((28848366344977777,17),(68387655488889998,17),(-67014180111069377,17));
  ((12507083674137176,17),(78062846826556898,17),(-61235323166466982,17));
  ((-72008783606714089,18),(73531894343940418,17),(-67388484661894554,17));
  ((-2753304803637398,16),(70961931243494691,17),(-64856268625478708,17));
  ((-45153030281611423,17),(64001363946950718,17),(-62169359569789995,17));
  ((-60752293254947609,17),(5148112532330944,16),(-60488450134803051,17));
  ((-73181355859274166,17),(33291381630951017,17),(-59465730162007224,17));
  ((-79143874104012824,17),(11431731348883843,17),(-60046338024688195,17));
  ((-76822797175326829,17),(-11828859764516136,17),(-62915307444452717,17));
  ((-73457562785606967,17),(-34863145976948534,17),(-58211231924677442,17));
  ((-66340015432513022,17),(-55935241818152603,17),(-49701620448016853,17));
  ((-49375847370451648,17),(-65888530093611153,17),(-56751451951057275,17));
  ((-29241865360511204,17),(-73552670625375149,17),(-61113975113003483,17));
  ((-76148913188722106,18),(-77062285760534177,17),(-63272565489029553,17));
  ((11880445783049483,17),(-72592617866832709,17),(-67743389634974882,17));
  ((32071741585093655,17),(-64372202196160944,17),(-69481097977187622,17));
  ((52741715777616616,17),(-54313858037747198,17),(-65332352183956677,17));
  ((64521368696034531,17),(-36176793900520565,17),(-67292143409685157,17));
  ((65518317805030291,17),(-14760431095986776,17),(-74091023112518006,17));
  ((64388934274635778,17),(72669803721005483,18),(-76165977570357091,17));
  ((59542543264643233,17),(26934149362757182,17),(-75691724380428638,17));
  ((45362141453008281,17),(4228982792014363,16),(-78446456754157534,17));
  ((24815560117763785,17),(52799013977642939,17),(-81218545290040234,17));
  ((51608681950125954,18),(60285432051738241,17),(-79618038922149792,17));
  ((-17751429064740293,17),(55226509704430116,17),(-81455014529652991,17));
  ((-36131405375002412,17),(48990016895244043,17),(-79337883701488721,17));
  ((-52496438605694518,17),(37570684650378156,17),(-76371248442200979,17));
  ((-62758159075544007,17),(19627157619426822,17),(-75340481503842871,17));
  ((-63486106469897152,17),(-62600729854356404,19),(-77260095781425575,17));
  ((-61252374683645605,17),(-23027200180114984,17),(-7561676168336755,16));
  ((-57146382196013734,17),(-44529139607999274,17),(-68930738627106236,17));
  ((-38576005545290443,17),(-54864694856425311,17),(-74173829983903761,17));
  ((-17390268382607751,17),(-60992640257405251,17),(-77314141009336845,17));
  ((37578771688880686,18),(-57889948624963106,17),(-81453251668565585,17));
  ((25973798773899831,17),(-50236361938174456,17),(-82472236034132707,17));
  ((45166051740161206,17),(-39329118078622366,17),(-8008275870225039,16));
  ((48218465838410884,17),(-19564114923858972,17),(-85394525348151218,17));
  ((4672643361385902,16),(18375070482575927,18),(-88392669207221197,17));
  ((40110032521636396,17),(21056413866940721,17),(-891505060343315,15));
  ((23936363049045137,17),(34249791450804268,17),(-90851539940502501,17));
  ((39814803889342172,19),(4217952851357834,16),(-90668235079940529,17));
  ((-20168946267167404,17),(3352084172260012,16),(-92030249248171148,17));
  ((-38589642059567564,17),(24014329131844805,17),(-89073854312373191,17));
  ((-44716358057328615,17),(61997194170974733,18),(-89230100309469818,17));
  ((-44215390974142799,17),(-15347971759799539,17),(-88371030116572069,17));
  ((-40763819334579249,17),(-35085902978490879,17),(-84304747466804664,17));
  ((-19502993555177239,17),(-42631035141392254,17),(-88330221810884713,17));
  ((36561953040530316,18),(-40132568309877759,17),(-91520539753388785,17));
  ((2508719989457136,16),(-30338015337543567,17),(-91925171889035862,17));
  ((2747358749464659,16),(-11094287089504962,17),(-95509783709050677,17));
  ((22027840830076922,17),(8414265167577363,17),(-97180113037876692,17));
  ((52883675748975754,18),(22761563281885644,17),(-97231396191546515,17));
  ((-15969385732760594,17),(13429343490657866,17),(-97798933801592269,17));
  ((-24642225895201517,17),(-44019517664779399,18),(-96816235846966603,17));
  ((-19672894937322935,17),(-23652793855596976,17),(-95150000250182276,17));
  ((27844590474327101,18),(-20125177517515527,17),(-97914370843618548,17));
  ((14757502640872541,18),(-13743979768960054,18),(-99979663889008696,17))].

(** womersley/womersley_289.hpp:1-309. *)
Definition wo_289 : list lit3 := [  ((0,0),(0,0),(1,0));
  ((19367326607009278,17),(0,0),(98106608646397675,17));
  ((1395080280328776,16),(20751622239447756,17),(96823268254975958,17));
  ((-3288165785019255,17),(26540137203205949,17),(96357714185244303,17));
  ((-18260652337609973,17),(13599511521030902,17),(97373517254920428,17));
  ((-22488055416824357,17),(-58377792029360866,18),(97263599036574844,17));
  ((-42120276037770112,18),(-19854216123286916,17),(97918685273010253,17));
  ((17165070118300704,17),(-22137859228562196,17),(95996226783192806,17));
  ((36682987664702776,17),(-14142295973904268,17),(91947560492803482,17));
  ((39903777152815983,17),(60466457932282065,18),(9149386123445461,16));
  ((33873716769340873,17),(24499657057220242,17),(90842380617799057,17));
  ((22013224118844948,17),(41559056635169439,17),(88251134698021205,17));
  ((41579169840801337,18),(47792302703796691,17),(87741709173130233,17));
  ((-14838182236159403,17),(44183611760118569,17),(88473932882842032,17));
  ((-30097421093501597,17),(30599215102146171,17),(90320724524624107,17));
  ((-40733291126817839,17),(12800286902809482,17),(90426498600707006,17));
  ((-45162770063858004,17),(-50994947828767595,18),(89074796396727762,17));
  ((-32034789150436915,17),(-22398833601235493,17),(92043818572412639,17));
  ((-1609231640964626,16),(-35680231669069201,17),(92021510640791926,17));
  ((48004812393669542,18),(-40629854948478433,17),(91247850751325033,17));
  ((26712526873987169,17),(-38755167208890601,17),(88229688442255327,17));
  ((45703824369161677,17),(-3157477637534547,16),(83151632184099367,17));
  ((56916614880999084,17),(-1395931605239781,16),(81028614981605751,17));
  ((58504145971796062,17),(56345901775206875,18),(80904365133422596,17));
  ((54521549914850653,17),(25410307935435167,17),(79885648557853051,17));
  ((44558196038101516,17),(42272462553553986,17),(78915182794494565,17));
  ((30528103936937973,17),(57122866471984146,17),(76190635881579183,17));
  ((97698266245481419,18),(64587409089472525,17),(7571668953959485,16));
  ((-95681470807012198,18),(66403170806686584,17),(74155710961867771,17));
  ((-2635709578469243,16),(57659480732323265,17),(77334906630029565,17));
  ((-42137635953663122,17),(43345154277677694,17),(7965938260419092,16));
  ((-54550459233575233,17),(26459168152622797,17),(79524586249016582,17));
  ((-62475933629475977,17),(85076830325768668,18),(77616860581593461,17));
  ((-61776768949580851,17),(-13031551858082421,17),(77548755465966124,17));
  ((-50643079116498224,17),(-28876756243058982,17),(81249070680710278,17));
  ((-3639709138776076,16),(-43551443487151054,17),(82331789174634606,17));
  ((-18627342938599317,17),(-54686701247080627,17),(81623445172084996,17));
  ((59041474247433058,19),(-5847632890358424,16),(8111824929318745,16));
  ((20147671691588911,17),(-5780119738074404,16),(790765003446676,15));
  ((39657440438175939,17),(-53176769880980634,17),(74829930929526833,17));
  ((5708715279196418,16),(-43965075404881082,17),(6934067443247186,16));
  ((68192840548590428,17),(-26176875115150744,17),(68297201312501266,17));
  ((74754660401805817,17),(-55436899787257549,18),(6618918529208877,16));
  ((73762450663431367,17),(13889404052219698,17),(66077116516983669,17));
  ((68124339972476733,17),(33296195091544806,17),(65195380938684577,17));
  ((57106531959150142,17),(51231736554215312,17),(64141664908529172,17));
  ((43489398480152386,17),(6578009717477955,16),(61495130177202473,17));
  ((23372599434501434,17),(7444124955906668,16),(6254775743189438,16));
  ((15676483011615977,18),(80540472030900034,17),(59251791904073881,17));
  ((-20156728552269756,17),(78617608489562774,17),(5842069778299418,16));
  ((-37139993539920585,17),(69227557291238673,17),(61872176229246412,17));
  ((-50807117853882588,17),(55800177020252306,17),(65612323689153029,17));
  ((-64377340660269722,17),(39153965638743349,17),(6574591230085477,16));
  ((-74559525762368328,17),(20875845972593821,17),(63285671150895395,17));
  ((-76702937723165987,17),(-15930791854595026,18),(64141417534577261,17));
  ((-75468097084552122,17),(-22433642343411436,17),(61654667411677055,17));
  ((-64004569787564702,17),(-37951012488831587,17),(66806703985313542,17));
  ((-49627768844041109,17),(-52993048983225732,17),(68766425812483956,17));
  ((-3280192508880776,16),(-65168092489161655,17),(68389717295747887,17));
  ((-14526511665341788,17),(-73383055916245643,17),(66361943636619436,17));
  ((33542284549901845,18),(-75792463594860338,17),(65147921023571453,17));
  ((22220224195473437,17),(-73497121987417291,17),(64065862175339516,17));
  ((41048287079868695,17),(-68638781023244377,17),(60031290736180187,17));
  ((57944774472490646,17),(-60712211498700164,17),(54373067655497387,17));
  ((72337990897347249,17),(-43954716291360157,17),(53246577248508131,17));
  ((82010761213506911,17),(-23447856027825009,17),(5219610227669822,16));
  ((87427212241471064,17),(-2870162217219397,17),(48458690949422256,17));
  ((86181710991008176,17),(16911093829560794,17),(47819740653313153,17));
  ((79803789061256669,17),(3592260009323508,16),(4838307611146645,16));
  ((68686896778093642,17),(54711747497511942,17),(47840724249994432,17));
  ((56530416624723068,17),(70421294794980871,17),(42955246892942361,17));
  ((39469871214044255,17),(80221656872578895,17),(44795256835573272,17));
  ((19067243564005781,17),(86707332334770104,17),(46024762272700664,17));
  ((-44842033229980399,18),(9026917542883196,16),(4279448431698617,16));
  ((-26893701905355982,17),(8720444130366044,16),(40891493183085059,17));
  ((-45115606703392563,17),(78350754854515192,17),(42728693468352907,17));
  ((-58904621797841084,17),(66055053192617852,17),(46550783866372558,17));
  ((-70509917760514706,17),(50515385282901148,17),(49764920849183586,17));
  ((-82021860406549851,17),(32235099063889888,17),(47257939055672499,17));
  ((-87098624681830705,17),(10261771970011051,17),(48047118691645674,17));
  ((-88221799092602948,17),(-10699750331704874,17),(45852257389397788,17));
  ((-8395691958563789,16),(-31568748710594324,17),(44211421132305656,17));
  ((-7137245287748728,16),(-4827376437499124,16),(50750533428907763,17));
  ((-5642454398129656,16),(-63657955751653372,17),(52573144342176004,17));
  ((-39653263989951743,17),(-76039503788526563,17),(51435518064250607,17));
  ((-22777256408626595,17),(-84624039917796723,17),(48166050891544188,17));
  ((-51178042461370817,18),(-88956729294676196,17),(45392823143002664,17));
  ((13503540216433677,17),(-87716432729184368,17),(46081252488291058,17));
  ((32409888437930312,17),(-8367411412370751,16),(44138891660911506,17));
  ((50136853147001137,17),(-77456055484115649,17),(38559764332236779,17));
  ((67569400014375502,17),(-64097299164983124,17),(36413080362034272,17));
  ((80947204957194663,17),(-46354484447287059,17),(36039031358294626,17));
  ((89963355061354233,17),(-26993340243262953,17),(34321339260235023,17));
  ((95272076414938878,17),(-7338583776963023,17),(29485193635696905,17));
  ((94989482329679664,17),(13665928513819184,17),(28111219194383213,17));
  ((89921646953040724,17),(33434223761334231,17),(28217903726707516,17));
  ((80317935907052673,17),(51408720444651668,17),(30102701438147261,17));
  ((69102208525942366,17),(67873854412693579,17),(24860101850186628,17));
  ((54736042983247479,17),(80888555903231729,17),(21471076415164661,17));
  ((37223251325859291,17),(89168084900482825,17),(25758148146017834,17));
  ((17045775681615899,17),(9457929015162323,16),(27644156811650039,17));
  ((-34265295547598607,18),(96962698923600732,17),(24217636397087003,17));
  ((-23591064731186612,17),(94632495405224659,17),(22094172947388149,17));
  ((-43542984273080143,17),(87416503873919649,17),(21502636374530598,17));
  ((-59582812735588619,17),(76972115238225647,17),(22916847563944956,17));
  ((-7230470759455403,16),(63264785445541605,17),(27741596605019525,17));
  ((-82766613935819011,17),(4731092832616603,16),(30188800547810302,17));
  ((-91661833023373296,17),(27553758710214798,17),(28963748854982402,17));
  ((-95389856226541248,17),(71227977233786197,18),(29155464010569671,17));
  ((-95324111074495099,17),(-14658547456670926,17),(26428031222886184,17));
  ((-90562228011935575,17),(-34529894377879933,17),(24620504701704382,17));
  ((-79140434284131256,17),(-52010142719209573,17),(32120658705053889,17));
  ((-64687712675349895,17),(-68052621193434182,17),(34414249629104654,17));
  ((-48663383923886011,17),(-81138289908057548,17),(32379823592361928,17));
  ((-33145920960985392,17),(-90323951191895568,17),(27256774657544791,17));
  ((-15644675066195671,17),(-95582284361853898,17),(24885157388348078,17));
  ((42320076645671695,18),(-96929660345344193,17),(2422253199942678,16));
  ((23539714127324615,17),(-93870652074109173,17),(25182981117917269,17));
  ((43798216481948404,17),(-87384911603136306,17),(2110908470570047,16));
  ((63109105620885864,17),(-75294005239793782,17),(18656193681503683,17));
  ((78587582722228844,17),(-59398493405723807,17),(17199151810686061,17));
  ((89561703473842735,17),(-41773273794644278,17),(15287081714347928,17));
  ((96341443002773897,17),(-23890890992958547,17),(12147085564275871,17));
  ((99551501429072398,17),(-27505310965869882,18),(90516927645665365,18));
  ((97928198412964851,17),(18699760907598412,17),(77709006935902977,18));
  ((91513254429987079,17),(39503931670230474,17),(80475863602830086,18));
  ((81915206603357305,17),(5678973584255157,16),(80513868409424774,18));
  ((70162719747364932,17),(71238728400339046,17),(1495437579926295,17));
  ((54958258814083683,17),(83543914951798148,17),(-63738927760760859,20));
  ((36762621527690442,17),(92867965857851253,17),(49041386437135924,18));
  ((17071639053907098,17),(98295260732414547,17),(68264820778902863,18));
  ((-14338806529517573,18),(9997661904513393,16),(16185272865329892,18));
  ((-1998515558381101,16),(97977941744523989,17),(95733369183850104,19));
  ((-39414827192100377,17),(9189927943301095,16),(99691379278067736,19));
  ((-56456764183624164,17),(82529941056477207,17),(-12010858125252573,18));
  ((-70830893009522233,17),(70488918051710869,17),(37811410146678957,18));
  ((-83043586354474885,17),(55220658063084993,17),(73784611177887288,18));
  ((-91821129909622068,17),(38509972544180648,17),(92661813476081434,18));
  ((-98000791900656969,17),(17712582071366936,17),(90614139740560609,18));
  ((-99548183575567661,17),(-39351071996205689,18),(86414164424922321,18));
  ((-96892193077542432,17),(-2445687408655082,16),(37100175927936498,18));
  ((-89913070019127905,17),(-43462062595353862,17),(51661353730760133,18));
  ((-79878572974127693,17),(-58734994833153698,17),(13023592498476241,17));
  ((-65745541782887429,17),(-73982193432959131,17),(14288414555954901,17));
  ((-51045222099685328,17),(-85508642596035001,17),(90916083383163523,18));
  ((-35371442801907149,17),(-93474567193123825,17),(33713976581812938,18));
  ((-16746098401640011,17),(-98535249801078972,17),(32206730603331762,18));
  ((46180532530745153,18),(-99809713817864498,17),(40859040306592181,18));
  ((28549942729995847,17),(-95677881423798117,17),(55356821049969869,18));
  ((50305422200439742,17),(-86413371173572173,17),(14469898596566914,18));
  ((67441501877851939,17),(-73821496972593093,17),(-14249242734694658,18));
  ((81746334273588117,17),(-57506222323036549,17),(-32513423326812861,18));
  ((91199667664119899,17),(-40231849438434969,17),(-80011817075469505,18));
  ((97187881266962439,17),(-21579486334648415,17),(-94255771373181127,18));
  ((99410194852109901,17),(-64547062986839423,19),(-10825734484621329,17));
  ((96643287028023617,17),(23104184791139953,17),(-11237068904118223,17));
  ((88842032048876474,17),(44108573149792002,17),(-12709331851669189,17));
  ((77939503882452632,17),(60430158685060553,17),(-16541754920671306,17));
  ((63343079409376657,17),(74279049937185271,17),(-21685871699485332,17));
  ((46211285864024837,17),(86592731335624262,17),(-19136769284019028,17));
  ((27780850646540894,17),(94970287484281102,17),(-14452295060217599,17));
  ((85585322762750604,18),(97898356293986366,17),(-18511168526369606,17));
  ((-92070946093012265,18),(96741309851104196,17),(-23587038329303395,17));
  ((-27341473043291342,17),(94043482629383746,17),(-20205623641941114,17));
  ((-45253968706684472,17),(86365378350085742,17),(-22205849201076791,17));
  ((-61931156583989488,17),(753448314585621,15),(-22083664022309446,17));
  ((-76387671857786354,17),(62521390925941278,17),(-15999977026007928,17));
  ((-87500603104644215,17),(46276189395860129,17),(-14218254158721808,17));
  ((-95554824271120731,17),(27542713843794697,17),(-10520193564477665,17));
  ((-99280309722068782,17),(55493673706272888,18),(-10612474889294812,17));
  ((-97643624893888536,17),(-15753754036719947,17),(-14749296638556003,17));
  ((-91654364949971212,17),(-35366237744233869,17),(-1867368772995345,16));
  ((-84142255580738567,17),(-51968449419727614,17),(-14810843686126793,17));
  ((-74088085265229608,17),(-66803077617622897,17),(-69501397500999387,18));
  ((-60161443143459781,17),(-79123002020822775,17),(-10961355304392338,17));
  ((-45055900523646913,17),(-87412996477940164,17),(-18136534254119649,17));
  ((-26509028843208005,17),(-94619711731587175,17),(-18557519813307755,17));
  ((-5346761578077764,17),(-98554587108864489,17),(-16074996125300733,17));
  ((17943299066348406,17),(-97651670619698594,17),(-11924313137345657,17));
  ((38846387574366492,17),(-90858569666307032,17),(-15351823690198349,17));
  ((54968740777597036,17),(-80666818788527939,17),(-21709488337225649,17));
  ((70747698458034824,17),(-67360841790959658,17),(-21384109897404682,17));
  ((82840865166600575,17),(-49661941730924958,17),(-25905262051624151,17));
  ((9033316233959976,16),(-30031880173240139,17),(-30626882880692596,17));
  ((94605255538816102,17),(-10876743199673385,17),(-30521174318883315,17));
  ((95178296364033155,17),(12001855615004216,17),(-28232027256944592,17));
  ((88487918319948589,17),(35087005453817915,17),(-3063968602459658,16));
  ((76025368195841581,17),(54139504742039246,17),(-35903445753484847,17));
  ((59069526973826281,17),(70114910012823861,17),(-39933574558033536,17));
  ((40353601901646208,17),(83118456326448098,17),(-38247993822837234,17));
  ((22129335560086888,17),(90604001948429291,17),(-36072251643030212,17));
  ((43414801258474224,18),(89859138140932437,17),(-43663335224026267,17));
  ((-14669428521602224,17),(88411245868194399,17),(-44365070391956807,17));
  ((-3325461183049806,16),(84521534968694256,17),(-41835880754905752,17));
  ((-50240145450861995,17),(74780686070133295,17),(-43402497347000712,17));
  ((-675921944651382,15),(62685539608041096,17),(-38753301426274023,17));
  ((-81021222392435988,17),(47137899983151427,17),(-34836473805680207,17));
  ((-91123758476159955,17),(2757161802223938,16),(-30598472524199483,17));
  ((-95236225093667304,17),(66300737431346124,18),(-29767491531348944,17));
  ((-9260062017728713,16),(-14012564567395566,17),(-35053861085854371,17));
  ((-85835465093871266,17),(-32627018865037577,17),(-39594830118328456,17));
  ((-77648750394552746,17),(-50039951085931522,17),(-38297191247949552,17));
  ((-69696599712829888,17),(-64976093727324247,17),(-30339598421988645,17));
  ((-55611103386588634,17),(-74991633346908004,17),(-35828202691302646,17));
  ((-37207984084524665,17),(-84107512556384467,17),(-39261842187337431,17));
  ((-17233440709122844,17),(-91247098871804411,17),(-37107620090815546,17));
  ((42295233920063617,18),(-94246753385596727,17),(-33161130984195702,17));
  ((23705769191565906,17),(-91444742511765176,17),(-32800847153589985,17));
  ((38836834479986199,17),(-83097254995104586,17),(-39831476244958869,17));
  ((55880493552910104,17),(-71826300677508936,17),(-41453021256203398,17));
  ((70897688722799113,17),(-56939304012775938,17),(-41610496179518963,17));
  ((79789135627078867,17),(-3747267670790575,16),(-47217500317449995,17));
  ((84529947989738541,17),(-16418543022383369,17),(-50844068856399005,17));
  ((88415624500397261,17),(40955482528070367,18),(-46539271897115886,17));
  ((84798771154487484,17),(25676418338600376,17),(-46366905784083196,17));
  ((72819851714669392,17),(45767617329651233,17),(-51015628979952488,17));
  ((55953605683919383,17),(61032605396904827,17),(-56073301039212653,17));
  ((37765576938507778,17),(73864379519355849,17),(-55837394609009228,17));
  ((18590828809148394,17),(79583793149725246,17),(-5762639110763994,16));
  ((-16698770202405093,19),(76887844840086583,17),(-6393927924956726,16));
  ((-2038285200112161,16),(76005963313854974,17),(-61706019844366111,17));
  ((-39222517359855441,17),(68745317956381791,17),(-61120171719587058,17));
  ((-58628166310956453,17),(57478817466545706,17),(-57086983259429203,17));
  ((-74478326499302072,17),(41353709027220109,17),(-52372221945945485,17));
  ((-84442591769031305,17),(225382256102898,15),(-48595031450431264,17));
  ((-86619547178601564,17),(21927326809864256,18),(-49922399481232393,17));
  ((-81097401034722993,17),(-16849336798121245,17),(-56029558224893994,17));
  ((-72521885919159468,17),(-35112266599912662,17),(-59225879452694308,17));
  ((-64247324354857938,17),(-52864645611368188,17),(-55476216143732526,17));
  ((-51794468393337756,17),(-6573627918003303,16),(-54736410582137129,17));
  ((-32988850855045843,17),(-75422413432752389,17),(-56773191483679275,17));
  ((-1247432920545946,16),(-82753918398749626,17),(-54737373891399921,17));
  ((70758391532927872,18),(-84795781229153533,17),(-52531971084419271,17));
  ((23359078880916501,17),(-78876778389261415,17),(-56857781039770294,17));
  ((40362689416499897,17),(-69529471115485386,17),(-59468529067634179,17));
  ((57365572526964226,17),(-56987587090051384,17),(-5883541455881327,16));
  ((67233646608804387,17),(-39710848519295072,17),(-62471475679385124,17));
  ((7263861395063127,16),(-18550341894055322,17),(-6617791609702447,16));
  ((76732249016190046,17),(3968034232466993,17),(-6400325511446564,16));
  ((73629868879895466,17),(23868141096952403,17),(-63316303187294287,17));
  ((61750667434088014,17),(394364470275893,15),(-68056018964414933,17));
  ((46238784825069296,17),(52335373542794628,17),(-71575019762743297,17));
  ((28624424055651188,17),(63255982687311463,17),(-71967513516480552,17));
  ((88899510691618319,18),(63330118371331656,17),(-76878247099300001,17));
  ((-14690059158090965,17),(62295159400247202,17),(-76834336577012108,17));
  ((-36954358042778468,17),(55447763377595871,17),(-74564877509912619,17));
  ((-56680860938654398,17),(43721037052278749,17),(-69826577478251017,17));
  ((-69586392691814081,17),(26236036692516435,17),(-6685360372343121,16));
  ((-74157351530670512,17),(75009746259846799,18),(-66666502785258608,17));
  ((-68467713431037891,17),(-11966172909467239,17),(-71895639112716747,17));
  ((-58837081239479483,17),(-32138041922748301,17),(-74198006257517224,17));
  ((-48006705117063214,17),(-49383797237498667,17),(-72502391920604625,17));
  ((-32626860051207696,17),(-61193605635522541,17),(-72047419332846685,17));
  ((-12916999292243581,17),(-69159207243108944,17),(-71064443871664029,17));
  ((56604970653772117,18),(-69245598932161323,17),(-71923610876395205,17));
  ((22299118909612678,17),(-61981257681356694,17),(-75240102286561361,17));
  ((40385424774674433,17),(-53300409966526208,17),(-74351084478771035,17));
  ((52128268087743057,17),(-37248260554437929,17),(-76780275799459674,17));
  ((57830351105029187,17),(-17852618092997308,17),(-79604864916000173,17));
  ((62354395529577644,17),(28188557311713321,18),(-78127993769889104,17));
  ((55953349206125591,17),(21155373714309547,17),(-80135340990260129,17));
  ((42168282250559336,17),(32951246529025274,17),(-84475152111260277,17));
  ((27199548123517087,17),(45410129772744545,17),(-84841644820801165,17));
  ((52012693186513831,18),(47602586991334028,17),(-87789182187826154,17));
  ((-17010839236363987,17),(46761098851910571,17),(-86741172361436447,17));
  ((-38555447796922476,17),(37924266324558326,17),(-84114371357828965,17));
  ((-53212946248688642,17),(23845023205455704,17),(-81239136011318169,17));
  ((-57162652295138083,17),(42490570785159908,18),(-81941300310213894,17));
  ((-49978505321884786,17),(-16062532327294912,17),(-85112537625340134,17));
  ((-37877388304137094,17),(-35784043705609958,17),(-853510730531996,15));
  ((-20273406654986012,17),(-49040144730781976,17),(-84758794159576889,17));
  ((-22299977205531323,18),(-51449295482715518,17),(-85720459077740341,17));
  ((17323693526974793,17),(-45063624223728338,17),(-8757373701290847,16));
  ((33222663805257469,17),(-34647199254100924,17),(-87725858180638305,17));
  ((39718473244141345,17),(-15306425315327526,17),(-9048843145519061,16));
  ((43060345692628416,17),(32584976509446542,18),(-90195281594383447,17));
  ((29992156450624202,17),(16243687203313026,17),(-94003261525769444,17));
  ((15659786841065496,17),(29053382307359449,17),(-94396356140450699,17));
  ((-6077819918864865,17),(28897853361719222,17),(-95540432153713972,17));
  ((-25378537496887338,17),(24948127413290697,17),(-93453307983662603,17));
  ((-38555290697411981,17),(96496509990041682,18),(-91762594747726456,17));
  ((-33342085599228821,17),(-10927171174311118,17),(-93642416980879994,17));
  ((-20972658189939308,17),(-28237554507053958,17),(-93609765109785037,17));
  ((1008777703655574,17),(-31513004780807391,17),(-94899488392875009,17));
  ((1804895803336356,16),(-19482127021085802,17),(-96408930295093309,17));
  ((17791921956011703,17),(-15196478654014842,18),(-98392775057299653,17));
  ((24378877359076324,18),(99916314159923927,18),(-99469714009009125,17));
  ((-17325973968794564,17),(36255350258424461,18),(-98420862228538941,17));
  ((-64453597164320198,18),(-12906794471290986,17),(-98953888223766362,17))].

(** womersley/womersley_314.hpp:1-334. *)
Definition wo_314 : list lit3 := [  ((0,0),(0,0),(1,0));
  ((17546103628317539,17),(0,0),(9844863761101188,16));
  ((19313279189243709,17),(19517120357951742,17),(96156535190758363,17));
  ((18109780752586766,18),(24780639261650389,17),(96864029836647225,17));
  ((-14568839967511613,17),(16342297124081781,17),(97573962852337126,17));
  ((-19843740803877591,17),(-38830701825142651,18),(97934405174413508,17));
  ((-71926377301863353,18),(-21091035725159121,17),(97485558799867178,17));
  ((10575521921458142,17),(-23099564824350963,17),(96719017990333034,17));
  ((2925494703718397,16),(-17194243012701244,17),(94066498186504932,17));
  ((38470729851462127,17),(1090954861823335,17),(92297414710192638,17));
  ((40464332412118725,17),(18428143272122971,17),(89571431483390207,17));
  ((29175964324402742,17),(35966239280643536,17),(88629525203222614,17));
  ((11776446881265137,17),(43944192608582217,17),(89051800851148255,17));
  ((-81352556611741553,18),(42186459137415194,17),(90300167667477405,17));
  ((-25687633471105553,17),(33852380764078283,17),(90521609592726537,17));
  ((-34769569618946466,17),(15872719869468871,17),(92407433642854742,17));
  ((-41317321983720168,17),(-85680006155081315,19),(91061214563326143,17));
  ((-31558054849068917,17),(-19000803715270423,17),(92968051675384289,17));
  ((-19916107345963252,17),(-35880639579215695,17),(91191712186856588,17));
  ((-3481109333907377,17),(-44063681925722969,17),(89701024592554668,17));
  ((16756076056913141,17),(-40260561273667067,17),(89990672411668537,17));
  ((36762774348871674,17),(-3470923058057867,16),(86277272410978345,17));
  ((49252882880708493,17),(-18933609803370305,17),(84945111382309291,17));
  ((57045874030826804,17),(-15241629573443355,18),(82118482592766529,17));
  ((60693488945115226,17),(16349615914887741,17),(77775256085112487,17));
  ((51259729875558069,17),(33138449063195874,17),(79210373605802364,17));
  ((39768793969773086,17),(49574399429883254,17),(77206359500731103,17));
  ((22594624595368179,17),(58496938643144503,17),(77894743781429632,17));
  ((13793854778845319,18),(60268744990287948,17),(79785811226050973,17));
  ((-20008406437574236,17),(55882372891662435,17),(80478718129863547,17));
  ((-37850383674006344,17),(46397835530327297,17),(80091131305727048,17));
  ((-48346204286038919,17),(29566353809710499,17),(8239220383951148,16));
  ((-57226851703984005,17),(13818616644923101,17),(80833985909831751,17));
  ((-59641301521480405,17),(-47012539272150981,18),(80129977937945951,17));
  ((-502473518261222,15),(-21725039436477292,17),(83685281238371911,17));
  ((-3926307850576668,16),(-3869537608246203,16),(83433078188970278,17));
  ((-28311682589395698,17),(-54379504365950537,17),(79002013479853006,17));
  ((-11903956987507706,17),(-60306218982043236,17),(78876205284796852,17));
  ((96557767605361319,18),(-58197226198170537,17),(80745580919265569,17));
  ((30777254414238014,17),(-53092641411062691,17),(78955253395309788,17));
  ((50344081999900137,17),(-45164592726752584,17),(73658896077893388,17));
  ((61350476374587914,17),(-29933600737688709,17),(73075978238322414,17));
  ((70277114988519718,17),(-12430915674980557,17),(70047123027087266,17));
  ((75186583255173123,17),(59498345339157432,18),(65662600979796293,17));
  ((71814117359444718,17),(27442057751453758,17),(63950496591111605,17));
  ((60536767790800516,17),(45005295474992779,17),(65649243138449753,17));
  ((48603841859885494,17),(61254796825719537,17),(62333910693129646,17));
  ((3195346468606266,16),(70558695247415093,17),(63249083942290818,17));
  ((12044598807414506,17),(73850274135202043,17),(66340520420960947,17));
  ((-97159687577650741,18),(7220522851772847,16),(68498211113873209,17));
  ((-303019322273269,15),(67364951601924006,17),(67407389794895067,17));
  ((-47025026234841327,17),(59449785900210517,17),(65225530768492912,17));
  ((-57844532716216901,17),(43449376623039521,17),(6903739353359003,16));
  ((-68847023006234043,17),(27696878916999018,17),(67029622715902071,17));
  ((-74565744878121354,17),(10578836421384737,17),(65787824943073636,17));
  ((-7464959693416694,16),(-81838538688621495,18),(66033795994320399,17));
  ((-65132377916932682,17),(-26672228996936131,17),(71037775494597666,17));
  ((-54601383218356703,17),(-43996993111596783,17),(71294835351379138,17));
  ((-44534217788425634,17),(-59768436845227901,17),(666666138561955,15));
  ((-30763377092741839,17),(-71797395954964094,17),(62439959672759815,17));
  ((-1231051522006968,16),(-75365854404498767,17),(64563450998969429,17));
  ((64623797561883023,18),(-73051598455941069,17),(67983097979709317,17));
  ((26468120704259518,17),(-68732085255744468,17),(67641252522272399,17));
  ((45777835353146429,17),(-62421141661858159,17),(63308695011115601,17));
  ((62829064713425975,17),(-52688437649500353,17),(57240170905499965,17));
  ((73118298097080858,17),(-36555244829782912,17),(57597122834574388,17));
  ((81428530414449762,17),(-18837952917237788,17),(54904698928515783,17));
  ((86250984818570986,17),(13454659475321604,18),(50586137816704968,17));
  ((83428151490761615,17),(23060610282943106,17),(50079454791488598,17));
  ((73199532395555977,17),(45454404677064403,17),(50751606403399852,17));
  ((6154030345216156,16),(63038434234285678,17),(47317511138113655,17));
  ((46365079671694404,17),(76631320256117064,17),(44473814125188915,17));
  ((29036948893528886,17),(83211476351301106,17),(47251516403089633,17));
  ((91264918677092161,18),(85273469740744157,17),(51430948898139417,17));
  ((-10487934043581978,17),(84134767169841795,17),(5302211041418462,16));
  ((-29113288641712021,17),(80516280327863998,17),(51667640033479201,17));
  ((-4606748709772987,16),(75029719901279168,17),(47416534711386127,17));
  ((-60459981607553714,17),(62231911037768595,17),(49716997823697301,17));
  ((-71021469482047284,17),(46534403740751623,17),(5282518472379768,16));
  ((-81593230492792057,17),(30738074462357445,17),(48966473388397874,17));
  ((-86800268002716974,17),(13483023802466154,17),(47790391751885014,17));
  ((-86816223490419731,17),(-55364773043482154,18),(49318259883332577,17));
  ((-7845826913370948,16),(-26802501756663849,17),(55909980362422251,17));
  ((-68451976213860655,17),(-45836577145179375,17),(56686287125115853,17));
  ((-59494438549616935,17),(-6196603683100731,16),(51192011692490647,17));
  ((-47334636148355547,17),(-74623957528326468,17),(46804884184381018,17));
  ((-27968704949484907,17),(-84106461041979796,17),(46301779171459434,17));
  ((-8516964623854878,17),(-87637850853832167,17),(47403253172303206,17));
  ((95271212612105902,18),(-85276329579411858,17),(5135349621922265,16));
  ((27992082480973574,17),(-80776350681960229,17),(51880868235635347,17));
  ((4663508288348498,16),(-74263993062727574,17),(48062754590531293,17));
  ((63226087871521297,17),(-65628957047624981,17),(41174042906953706,17));
  ((76771625317783321,17),(-50323209150625603,17),(39669789095081948,17));
  ((86004720381393462,17),(-32787961493173501,17),(39091401269850862,17));
  ((92231219026481381,17),(-13335471032441296,17),(36270751980516458,17));
  ((93780004997238975,17),(87273229836694027,18),(33602745367849768,17));
  ((89136706339549965,17),(3002007273259012,16),(33962373534057239,17));
  ((80951542002208576,17),(47535239048039718,17),(34456478289436088,17));
  ((69085937198469904,17),(65518296237904705,17),(30569366030247236,17));
  ((54092343971486956,17),(79864605109681552,17),(26375427472269813,17));
  ((36910447017681425,17),(89312954237244757,17),(25706324248533813,17));
  ((18556473824896558,17),(9303133403313012,16),(31635868364912872,17));
  ((-63052948565017093,19),(9416180419192085,16),(33662398368061702,17));
  ((-18731534169769917,17),(92395039289777148,17),(33350957141996385,17));
  ((-35724589207312352,17),(88352109834915926,17),(30292877276477614,17));
  ((-53512260315641691,17),(79501331245331397,17),(28565299335576622,17));
  ((-67890310651958652,17),(66657173255355973,17),(30785174568061258,17));
  ((-78830001768374591,17),(51446390287631749,17),(33750551811351598,17));
  ((-88500014119454873,17),(36022501103595322,17),(29497913741445564,17));
  ((-9434218931755407,16),(17685012169297637,17),(28049806761234236,17));
  ((-95279472583366343,17),(-19667012136320629,18),(30297758837442756,17));
  ((-89201685807472997,17),(-22789962990434406,17),(390343033241212,15));
  ((-80771636231676303,17),(-42733231766077612,17),(40617898558202775,17));
  ((-72406954133687451,17),(-59629466404762976,17),(34663521594975399,17));
  ((-6363582968859387,16),(-7230848644405572,16),(26869387190892235,17));
  ((-46974780362223495,17),(-83067854025027266,17),(29884806132843222,17));
  ((-27649892299017326,17),(-91755528895053295,17),(28572825779782152,17));
  ((-74703038091653698,18),(-955366498044392,15),(28582216589038684,17));
  ((1184548356491833,16),(-94051747870418367,17),(3184263245450199,16));
  ((30532297850125989,17),(-89145957961588107,17),(33478007215214567,17));
  ((48553788134694065,17),(-82336763642686628,17),(29380044428482355,17));
  ((6541142160821225,16),(-72147605915249702,17),(2271714955469831,16));
  ((79000648903619175,17),(-5762844726891192,16),(20925093504721376,17));
  ((89131469764084725,17),(-40431962350610656,17),(20514324706722667,17));
  ((95985034955324389,17),(-20568781982709064,17),(19073496595352848,17));
  ((98576960221621923,17),(80291987965915249,19),(16791016441288451,17));
  ((96293457210880529,17),(22127885167292893,17),(15424875895754139,17));
  ((9129795986940904,16),(39064107557137212,17),(11776163401048347,17));
  ((82489068608294358,17),(54458868659881665,17),(15158666973776608,17));
  ((70092399187623167,17),(70438918020240238,17),(11198857274774077,17));
  ((54699559881049808,17),(83457153187476574,17),(65468870970495655,18));
  ((36194275249465274,17),(93006915185812344,17),(62998545050703195,18));
  ((17132218193590815,17),(97840075718633546,17),(11567483872443884,17));
  ((-17034273945487014,18),(99157490450930508,17),(128409665751892,15));
  ((-18917894322530104,17),(97608829340303505,17),(10706526477671914,17));
  ((-37103643520001361,17),(92289041083674861,17),(10298181072229878,17));
  ((-55291587488048211,17),(82797159219326777,17),(93525813688500131,18));
  ((-70998286236088259,17),(69647141606393703,17),(10417246161890525,17));
  ((-82447663631744605,17),(55235418882379028,17),(12305741040458464,17));
  ((-91393164036273089,17),(39592390689524098,17),(89292870335185529,18));
  ((-97524281217922104,17),(20114588311798492,17),(91879219617117661,18));
  ((-99297683464714515,17),(-22327808682969515,18),(11618293684338046,17));
  ((-95346918534290803,17),(-22227877428336607,17),(20368765083974941,17));
  ((-88241695261644559,17),(-41363312874743646,17),(22416055972831692,17));
  ((-81399411211812156,17),(-56295737292821635,17),(1431523024711516,16));
  ((-71487218840435718,17),(-69646457040699239,17),(62408784748373615,18));
  ((-55708603905761744,17),(-82548451754886343,17),(90721862713542531,18));
  ((-38966622078800939,17),(-91515890026593594,17),(10317181611677237,17));
  ((-19640172934199884,17),(-97609057102697983,17),(93131937935901701,18));
  ((11661481124659923,18),(-994536067592383,15),(10374015671791716,17));
  ((21924033871380463,17),(-96549700492712476,17),(14053187310147053,17));
  ((42072078107424943,17),(-89881881237416428,17),(12295839497395203,17));
  ((58814430464287881,17),(-80674833717761774,17),(56950832981556627,18));
  ((7411498100480518,16),(-67115065379004391,17),(15929814278051204,18));
  ((85572012053361723,17),(-51743055775135016,17),(29484265393721013,19));
  ((94184645809424761,17),(-33572329993463723,17),(1466680797987248,17));
  ((99224793557638058,17),(-12426569518459038,17),(-14392166971703413,19));
  ((99590282155595566,17),(85484572595499533,18),(-29495048144582967,18));
  ((96344620133152203,17),(25590524952597316,17),(-79271182688981021,18));
  ((89899085598401318,17),(4238518887508852,16),(-11029513706160622,17));
  ((81701605794589249,17),(57326206170819705,17),(-62091623143714997,18));
  ((6928487839461015,16),(71514994523219033,17),(-92309904229197687,18));
  ((524678431760634,15),(84215319043921033,17),(-12446102634263007,17));
  ((33392605888999388,17),(93414072354525257,17),(-12599403084490979,17));
  ((13807890261029085,17),(98692958743445736,17),(-83091552521238246,18));
  ((-4069712774909167,17),(99364105066128305,17),(-10498193289188222,17));
  ((-22958312680844734,17),(96797587829766685,17),(-10155927785641618,17));
  ((-42706079693808741,17),(89966410673011332,17),(-9068390584945614,17));
  ((-61052522507988205,17),(78622673667541432,17),(-95427816059512185,18));
  ((-75365931845026779,17),(64947412194259013,17),(-10090092487177531,17));
  ((-8561290298690708,16),(50513365645620434,17),(-10900951027607188,17));
  ((-93840225508472364,17),(32740789802001324,17),(-11047749076631859,17));
  ((-98912351826616784,17),(12333527644253743,17),(-80144090222553213,18));
  ((-99457571289888369,17),(-88947849685063862,18),(-53920602259995634,18));
  ((-95833342151687961,17),(-28462958257227922,17),(24146509654209256,18));
  ((-89234238011616407,17),(-45088631227831411,17),(-20654540631105955,18));
  ((-79740472067077917,17),(-59267776212157353,17),(-11348472028656685,17));
  ((-64288929967314434,17),(-75685326198088076,17),(-11775605374958192,17));
  ((-48076921873917494,17),(-86963239937180026,17),(-11225171836443774,17));
  ((-30955579820579149,17),(-94499361535894422,17),(-10565166694381704,17));
  ((-1189117765085014,16),(-9879831252215342,16),(-9873871421627084,17));
  ((93501897006819129,18),(-99323171905430652,17),(-68906803151455989,18));
  ((29950733077193598,17),(-95321374626883182,17),(-40974537679015995,18));
  ((48469175841476003,17),(-86826391365928091,17),(-10579071585860797,17));
  ((64889978513275814,17),(-74416911358466598,17),(-15856039619423545,17));
  ((77531188415393737,17),(-59833334485131429,17),(-20220952185470825,17));
  ((88224766907923924,17),(-43091694803995662,17),(-18960388787200153,17));
  ((95437576760645793,17),(-24139135409815438,17),(-17577573317225478,17));
  ((977616747578128,15),(-41988085328655569,18),(-20616133377817542,17));
  ((95283940641504672,17),(12990539157048528,17),(-27426566468214758,17));
  ((90300555126162918,17),(29571707902075939,17),(-31166068659057888,17));
  ((82492761103395207,17),(47131645168834835,17),(-31201801057266149,17));
  ((73174845244690401,17),(62113748334479757,17),(-28059299550354505,17));
  ((58568163977612064,17),(75349809095912668,17),(-29869322682328436,17));
  ((40954655321877015,17),(85522645255714502,17),(-31758358835611511,17));
  ((21448937145451002,17),(93150554227779059,17),(-29375454760532377,17));
  ((26548920139155642,18),(95222213422604429,17),(-30425016340084704,17));
  ((-18775797963023055,17),(93753331748071378,17),(-29287918959663373,17));
  ((-39544491767146739,17),(87740949410143243,17),(-27161718787380656,17));
  ((-5735310055258005,16),(76850344380005908,17),(-28366290305222097,17));
  ((-70611399526850749,17),(63434965102681107,17),(-31464828925025035,17));
  ((-8113866221580609,16),(48804348987751961,17),(-32166022659182386,17));
  ((-90017605997165029,17),(31542191367064354,17),(-30031995842811499,17));
  ((-95418194590934691,17),(12053753849839467,17),(-27387500052651792,17));
  ((-96318540179028245,17),(-66231123265942229,18),(-26055195276378901,17));
  ((-947857047442345,15),(-25769330215813036,17),(-18751314523712412,17));
  ((-87267355531627699,17),(-42583192441406914,17),(-23897288130969851,17));
  ((-73006468127383795,17),(-62045365021753496,17),(-2864311943351599,16));
  ((-57131809290928903,17),(-76052409967829426,17),(-30854291520469757,17));
  ((-39629916175369617,17),(-8628664734816156,16),(-31370116884499832,17));
  ((-21934776954991653,17),(-92424410167001725,17),(-31250503439410282,17));
  ((-32085921552002579,18),(-9597320883410001,16),(-27907850552627944,17));
  ((16704925999251563,17),(-95409606042356698,17),(-24858650852405886,17));
  ((3507958822205669,16),(-90276055867702965,17),(-24892895113712976,17));
  ((5295860436158738,16),(-78699842467031844,17),(-31649976615113445,17));
  ((6669365418549118,16),(-64203200844998365,17),(-37814091191550758,17));
  ((7938490075140755,16),(-47084903665216427,17),(-38484404367567648,17));
  ((88393184003009961,17),(-2877661588931284,16),(-36858532251962656,17));
  ((91288229049472691,17),(-10413335517902744,17),(-39471783344594358,17));
  ((87908034248551781,17),(59433001519557015,18),(-47295398273608069,17));
  ((83035410239708174,17),(23800783628640346,17),(-50384951572726688,17));
  ((75867293076433051,17),(41783445125255092,17),(-49982972647886897,17));
  ((64893852064494839,17),(59340536598070848,17),(-47618154946243696,17));
  ((50361704662333884,17),(71078263450328416,17),(-49107832047338085,17));
  ((32277115222763952,17),(8119453686585778,16),(-486377941115269,15));
  ((13457726559069633,17),(86409982485030712,17),(-48499531160599885,17));
  ((-80876959749717384,18),(8808720713281708,16),(-46639394435998049,17));
  ((-29256568765853436,17),(84226821303964261,17),(-45275774505567118,17));
  ((-4683733274909132,16),(75358171812463137,17),(-46123857189465239,17));
  ((-59934500468749863,17),(62242145549159877,17),(-50336576870091376,17));
  ((-71034510048730037,17),(47432779669348013,17),(-52002209520134401,17));
  ((-8115487737063678,16),(31550868257558207,17),(-49177521197708934,17));
  ((-87505453600811056,17),(13272772313852874,17),(-46547063336164651,17));
  ((-88108072203373111,17),(-54580656407607564,18),(-46980603785672403,17));
  ((-88936135462263399,17),(-22931791311752681,17),(-39553719879072791,17));
  ((-80598598148740364,17),(-42478276575891183,17),(-41224531478234677,17));
  ((-67876645048485795,17),(-57006125066191926,17),(-4629322587484645,16));
  ((-51443582286161205,17),(-71014836850044871,17),(-48067148747647487,17));
  ((-32647205269117607,17),(-80179813651827325,17),(-50053546036962682,17));
  ((-1358558890794796,16),(-85616107620719228,17),(-49852922581345865,17));
  ((45199021180129362,18),(-88729026995605642,17),(-45899131290871592,17));
  ((22805062842974197,17),(-86691378106139216,17),(-44323064772039433,17));
  ((40322742524491179,17),(-79504502902015983,17),(-45311261884954424,17));
  ((55881246774025206,17),(-63986092646869752,17),(-52754774255669967,17));
  ((69568282933248482,17),(-46307440797677124,17),(-54916982223071187,17));
  ((78724871112483741,17),(-27787627793175607,17),(-55047637641871239,17));
  ((79311177612699357,17),(-10620478105851858,17),(-59974515842063947,17));
  ((74994368388947485,17),(79793645826781404,18),(-65667148946787213,17));
  ((69212794599125216,17),(27625711870661451,17),(-6668140001093632,16));
  ((60821694604587995,17),(47537193960333229,17),(-6356836206639187,16));
  ((4344239475051504,16),(62150801562166202,17),(-65192301719763379,17));
  ((26432608972056643,17),(70877554378629848,17),(-65404047797018794,17));
  ((66912298424457228,18),(76716050642716682,17),(-63795572079727392,17));
  ((-13128692838616149,17),(7704636637211778,16),(-62381847144843883,17));
  ((-31327003922822472,17),(71474750711259361,17),(-62529823572298648,17));
  ((-45767092088096067,17),(59815303334352854,17),(-65783757636814044,17));
  ((-57187342417386433,17),(44502493770111512,17),(-68913974747345541,17));
  ((-68367618921071038,17),(29061283744121985,17),(-66942590853707173,17));
  ((-7593039664881962,16),(11930136273772662,17),(-63970670726842749,17));
  ((-76323007988095437,17),(-77155069736622922,18),(-64150365577980051,17));
  ((-77798189053767985,17),(-26547874390726256,17),(-56944289839178752,17));
  ((-67688613617186633,17),(-40282659142431898,17),(-61608107899836229,17));
  ((-54569345178689965,17),(-55702602549660918,17),(-62605164610944808,17));
  ((-36723814591249537,17),(-66917935066946499,17),(-64601481470965194,17));
  ((-16251107637208909,17),(-73112549627211199,17),(-6626052058030053,16));
  ((32130550113913678,18),(-76107889586655664,17),(-64786305807317068,17));
  ((20610537128937356,17),(-75227213115360436,17),(-62578527996053368,17));
  ((38291506154239979,17),(-67918875931536138,17),(-62616186794122186,17));
  ((52177529789408017,17),(-51119052110924112,17),(-68296031336791918,17));
  ((62763506647655787,17),(-33795859899499087,17),(-70132603594498732,17));
  ((65044587825220279,17),(-15328647635761361,17),(-74392433461380159,17));
  ((61650911254804386,17),(46683780212962794,18),(-78596255560316042,17));
  ((55698674496738099,17),(26602620803952737,17),(-78676287569174985,17));
  ((46246714972981312,17),(45509266242607965,17),(-76093022283697265,17));
  ((2541149566514902,16),(55102507142249946,17),(-79485656534361004,17));
  ((77247303580637694,18),(61877694716505061,17),(-78175951784843711,17));
  ((-11138519291837963,17),(62301758468287949,17),(-77423667439255717,17));
  ((-27882578085804693,17),(55571628989894406,17),(-78322128997484042,17));
  ((-41121172594053218,17),(41172999401526295,17),(-81325477464150198,17));
  ((-53026173502167362,17),(23983467505406822,17),(-81320466120990342,17));
  ((-61758508180965699,17),(69345271963967781,18),(-78344106350280274,17));
  ((-6376611156844374,16),(-15684967270047842,17),(-7541793432054682,16));
  ((-56142768968173862,17),(-31720329509121498,17),(-7643173547957034,16));
  ((-43862659689071715,17),(-46721617659124198,17),(-76766903860422153,17));
  ((-26121695760637975,17),(-56572430259116313,17),(-78212640571496428,17));
  ((-57408183857128633,18),(-60354257395809863,17),(-7952613795767145,16));
  ((13365586600698956,17),(-59954045759598684,17),(-7891054106946146,16));
  ((30702955967028434,17),(-55797283959841659,17),(-77097286577359581,17));
  ((42350988160344039,17),(-39554388241355581,17),(-81497510223898928,17));
  ((48933067724025248,17),(-21181498682564634,17),(-84598457413102235,17));
  ((46854636754535489,17),(-18554361426294452,19),(-88343695803196609,17));
  ((41702013839945168,17),(19797833891521383,17),(-88707315453105384,17));
  ((31462305780433542,17),(37460412370682727,17),(-87217204839394502,17));
  ((11203241808143848,17),(41079313775081611,17),(-90481917269455825,17));
  ((-56718100007763277,18),(44712001090555442,17),(-892673934300384,15));
  ((-22753973565902005,17),(37033123942047158,17),(-90060004541723215,17));
  ((-3716390373263132,16),(19895053719236838,17),(-90680930172006902,17));
  ((-48855985743928948,17),(-25355686631737283,18),(-87216188569229181,17));
  ((-42212347500109454,17),(-20019303961015655,17),(-88415751919250596,17));
  ((-31159096672900288,17),(-35198541070712991,17),(-88261958968868259,17));
  ((-13540527795506599,17),(-42650255570525658,17),(-89429356515564606,17));
  ((65671725610838047,18),(-42935578812856257,17),(-90074459846051569,17));
  ((23862928268071187,17),(-37304654054017355,17),(-89660043722847782,17));
  ((31505140781046809,17),(-18337164252409693,17),(-93119141488453216,17));
  ((27861666604095725,17),(1082726021741668,17),(-96034135797663434,17));
  ((21432800727673329,17),(19906147122272197,17),(-95626253506630177,17));
  ((33027674532720451,18),(2200148279258809,16),(-97493725347209181,17));
  ((-14919908892823958,17),(20562714945945598,17),(-96719031595036242,17));
  ((-30824608810396514,17),(3303433103780571,17),(-95073291840636676,17));
  ((-22752653414131946,17),(-15367395326429734,17),(-96156954628865066,17));
  ((-68360416984120986,18),(-24572545241622468,17),(-96692598239192995,17));
  ((11212218401448831,17),(-20310974189848804,17),(-97271529678408508,17));
  ((8257563163606256,17),(-10210888621613906,18),(-99653248959251817,17));
  ((-94881854698309148,18),(51500513362687404,19),(-99547521848624776,17))].

(** womersley/womersley_339.hpp:1-359. *)
Definition wo_339 : list lit3 := [  ((0,0),(0,0),(1,0));
  ((1926688165057801,16),(0,0),(98126384176034021,17));
  ((15601748654593295,17),(17771630769471264,17),(97163545523578332,17));
  ((10195311655880239,19),(26038632265292222,17),(96550397385587738,17));
  ((-13005139104052102,17),(12284432918414932,17),(9838678297798551,16));
  ((-21193189721729566,17),(-6861400522629503,17),(9748728066925878,16));
  ((-66460118656043635,18),(-19782329542160873,17),(97798210434381649,17));
  ((11405905558783562,17),(-19548494508824227,17),(97405141962950703,17));
  ((30174460330706199,17),(-18550770504612057,17),(93516687588022773,17));
  ((38460979213489238,17),(-52200861307098263,19),(92306449313942462,17));
  ((35325361644342584,17),(18566711838721395,17),(91691853706827697,17));
  ((27142662924834865,17),(35362798602553114,17),(89513956031135511,17));
  ((10635850767962805,17),(42007053794962024,17),(90123726675658455,17));
  ((-10229945982939084,17),(42825535679852039,17),(8978486341761549,16));
  ((-22748320983321493,17),(31094613766535201,17),(92280219370945227,17));
  ((-32113555821923223,17),(13976616522192314,17),(93666289149639115,17));
  ((-41231976430508938,17),(-41721323473258611,19),(91102964017372778,17));
  ((-32495098427798086,17),(-19775273048654948,17),(92482469441612858,17));
  ((-1904305551228756,16),(-3453490229897978,16),(91895062761586144,17));
  ((-22820368775633312,18),(-40836029804814872,17),(9125355323202331,16));
  ((15513759070524136,17),(-37844707552094625,17),(91252952773037221,17));
  ((33497986334516061,17),(-3786495972426393,16),(86279370284051371,17));
  ((47110001129569978,17),(-22452213724350625,17),(85302672246817668,17));
  ((54355801270875559,17),(-26029044624999914,18),(83896792290052313,17));
  ((52127479815729993,17),(18343905206541361,17),(83344027919426156,17));
  ((45520556415181207,17),(3756408457038074,16),(80726813971824674,17));
  ((32843360805919064,17),(52469981393008325,17),(78537982553600005,17));
  ((13939279620326883,17),(57826669524959107,17),(80385152704448504,17));
  ((-47817866376437958,18),(5906133438874287,16),(80553667183891453,17));
  ((-23236094713843258,17),(57731716531468802,17),(78276004041975966,17));
  ((-34691556608775026,17),(45046313061917392,17),(82263756172374525,17));
  ((-43859333990607252,17),(28947253073246887,17),(85078877292861366,17));
  ((-54999572511717087,17),(16217891945961585,17),(81926961400734788,17));
  ((-57294599797873647,17),(-29887383103790615,18),(81904800087135121,17));
  ((-50178444300783509,17),(-21499427460814738,17),(83784833630021205,17));
  ((-39489057102640357,17),(-37912491243798491,17),(8368546693920822,16));
  ((-24324362401620639,17),(-50774427254676835,17),(8264552577553218,16));
  ((-10923870244919212,17),(-61068744960892285,17),(7843007999341618,16));
  ((51023513173340404,18),(-57052149561725884,17),(81969617794771743,17));
  ((23686695833462273,17),(-55170721155143454,17),(79969569010433261,17));
  ((42408279105864705,17),(-52105397713347423,17),(74071353385860095,17));
  ((54079762079060389,17),(-37799200694278079,17),(75143860430150311,17));
  ((63801188233646033,17),(-19036672814014224,17),(74612421674591412,17));
  ((68764973784560079,17),(15772251106870538,18),(72587125176294065,17));
  ((65839698181508688,17),(20877209164352853,17),(72313735077616492,17));
  ((59603443631566899,17),(39947734590280287,17),(69653485256397263,17));
  ((47480190956259427,17),(57115129568696266,17),(66958893666996744,17));
  ((2792397432130318,16),(68394108613293036,17),(67398053125415092,17));
  ((94211777649343825,18),(73637037258539162,17),(66998717549711495,17));
  ((-79137766545696334,18),(74119872470331216,17),(66660457874540779,17));
  ((-26203392985943502,17),(7204840524822157,16),(64205992689251723,17));
  ((-41920227362698759,17),(61858712855294384,17),(66454451933229264,17));
  ((-51757016632630026,17),(46781412415675194,17),(71642938812448009,17));
  ((-62535627006297057,17),(32465394178468171,17),(70959802252866899,17));
  ((-70913324130602795,17),(14216017101648012,17),(69059433233365874,17));
  ((-72061869030518499,17),(-39843109576660152,18),(69218583473089224,17));
  ((-64503847906024081,17),(-23525053244802327,17),(72703682679392023,17));
  ((-53451674552886841,17),(-43363645114492028,17),(72543178658483543,17));
  ((-39793472201843694,17),(-57753403759093236,17),(71281301365507133,17));
  ((-27764812604874517,17),(-6951305046494064,16),(6631026312777546,16));
  ((-11504521810675294,17),(-76921414849483649,17),(62854927535248439,17));
  ((48081576089708922,18),(-74544197395540068,17),(66483413383054057,17));
  ((21240433115191357,17),(-69758034526842549,17),(68429968727385271,17));
  ((4010674386235355,16),(-67077563565997422,17),(62386293068342669,17));
  ((57288754797600272,17),(-57082709449606606,17),(58818048723433736,17));
  ((66804519706605203,17),(-41614454409390911,17),(61687870209454654,17));
  ((75091520827292435,17),(-23690834725145882,17),(61644203700511291,17));
  ((80299096893344046,17),(-46114839377530734,18),(59420444747621914,17));
  ((80331761443986927,17),(15206011063059341,17),(57581119569321437,17));
  ((76212629431667767,17),(31805762580352631,17),(5639174214185555,16));
  ((67544825551965137,17),(48866138588973773,17),(55224967546914905,17));
  ((5472761422445388,16),(64713315046998265,17),(53076125489030368,17));
  ((38136372736880875,17),(75347506276769893,17),(53557169196530652,17));
  ((19992806593663184,17),(83362843025491717,17),(5148712545108346,16));
  ((27512631775785661,18),(86923571535163435,17),(49363177192103702,17));
  ((-14996596670223208,17),(8536789808126245,16),(49874082101807504,17));
  ((-33646982628593725,17),(81159319736932167,17),(47760290826475527,17));
  ((-49486764754019213,17),(70047448219202502,17),(5142387686822637,16));
  ((-62438983144173943,17),(54170305683326148,17),(56275672951076872,17));
  ((-73428450139077006,17),(38166488073486327,17),(56138951702979889,17));
  ((-80989114114122063,17),(2092174587618372,16),(54800035989970874,17));
  ((-84928298013746839,17),(16038410789326149,18),(5276942192483951,16));
  ((-79462472321999711,17),(-17681271087024275,17),(58078293236135903,17));
  ((-69492222339230125,17),(-37133740528338893,17),(61578538052872012,17));
  ((-58904908739445072,17),(-55730626535313987,17),(58517595579270032,17));
  ((-4744854769124276,16),(-69327993134680055,17),(54242646413220086,17));
  ((-33054165919756917,17),(-80438332345888619,17),(49366960659549908,17));
  ((-16630776465645253,17),(-87315269652004146,17),(45819875160759044,17));
  ((13405851065577399,18),(-88666453160965697,17),(46221887839273218,17));
  ((16705677109295253,17),(-84454662381276113,17),(50875636157050985,17));
  ((33720313237652355,17),(-79391495649757848,17),(50595759640992533,17));
  ((54142548385441391,17),(-70971727707195853,17),(45073255047597649,17));
  ((69685612784610396,17),(-5807396862256935,16),(42087165968477563,17));
  ((78339540098176796,17),(-42069816586839043,17),(4574983048663539,16));
  ((85674215792316377,17),(-24008119953628232,17),(45645798543390659,17));
  ((89920050588696299,17),(-35599185605149505,18),(43608617060952509,17));
  ((90560128560976216,17),(14805360239690415,17),(39744992429140719,17));
  ((87375996501862463,17),(31473194163680884,17),(37079283763872278,17));
  ((79579619301413962,17),(46762304736000904,17),(38475590282923655,17));
  ((68891081640972596,17),(61991902543347366,17),(3756358461852341,16));
  ((56952695117091179,17),(7482372470552654,16),(34026471167184469,17));
  ((41544911613058222,17),(8316636445931358,16),(368425859798658,15));
  ((24172417072845084,17),(90921286933187462,17),(33897106591410148,17));
  ((67624320110661149,18),(95155397455868984,17),(29995330441775642,17));
  ((-1131404950915328,16),(94205357627909447,17),(31580735867014093,17));
  ((-29838280569688963,17),(90252499318404367,17),(31050980329547451,17));
  ((-496707225015591,15),(79849202058903956,17),(34013589295007352,17));
  ((-65914633352582441,17),(63326075673623927,17),(40559453272610585,17));
  ((-78620962724541443,17),(47603239119189827,17),(39404007989384793,17));
  ((-87051496734977962,17),(32087212288008199,17),(37315515858479248,17));
  ((-91627448335879513,17),(13436484462688189,17),(37734223150075163,17));
  ((-91582146868119763,17),(-89918131073233265,18),(39138953384947711,17));
  ((-85049597846110603,17),(-28185241873170658,17),(44408986103779996,17));
  ((-76846300034607651,17),(-44761310238638413,17),(45728232818592773,17));
  ((-68355700077305415,17),(-59855927407257981,17),(41770398862813507,17));
  ((-55548953676043067,17),(-74288632633869656,17),(37356563103245682,17));
  ((-40289547912761525,17),(-85651051959044933,17),(32259101464459267,17));
  ((-22900374310426258,17),(-93358691432849761,17),(27563156393786159,17));
  ((-41994548417450282,18),(-96188704453775953,17),(27020320400326253,17));
  ((14135197404517486,17),(-94838408701592736,17),(28387892300855661,17));
  ((2948066375296523,16),(-89989574746463374,17),(32136690894292219,17));
  ((46474211548098121,17),(-82149464075698286,17),(33039570412736569,17));
  ((64402057280238423,17),(-71788962459689487,17),(26433310179282937,17));
  ((78175301223319305,17),(-57494296656414368,17),(24145975454048463,17));
  ((86762455772581071,17),(-40800018517210118,17),(28418915484342899,17));
  ((93374257991234111,17),(-2022998858632867,16),(29529570033840036,17));
  ((96945606925306804,17),(-42872048741527122,19),(24522754670460156,17));
  ((96714860500721145,17),(17196288641349938,17),(18722270569816798,17));
  ((92743067545239033,17),(33744777651766872,17),(16124931117125599,17));
  ((85079457342757525,17),(49298180174538825,17),(18198224356804979,17));
  ((75204832636565111,17),(63397573499538051,17),(18027224480682019,17));
  ((64062114674999038,17),(75646435801802303,17),(13178095987322133,17));
  ((49426815520496481,17),(85479193810762333,17),(15820788000758348,17));
  ((33231874771470477,17),(92817135635909342,17),(167517709964801,15));
  ((15284763175113864,17),(98159678610500622,17),(11447860488489149,17));
  ((-38568700996102045,18),(99304378034726282,17),(1112497443461806,16));
  ((-22244733206529779,17),(96670409199181162,17),(12649262027216457,17));
  ((-42655076662417329,17),(88879872428732332,17),(1676045082852983,16));
  ((-62297807091470958,17),(74695013048518633,17),(2323011530913052,16));
  ((-76247516534317461,17),(60612072235966596,17),(22638306509342804,17));
  ((-86233172564433269,17),(47404394210675188,17),(17795037482162743,17));
  ((-93387270359378971,17),(30402771144417046,17),(18827884681091006,17));
  ((-97304472679398657,17),(11024601141824235,17),(20255808210186263,17));
  ((-97316229579995184,17),(-73066974862013134,18),(21821173941353603,17));
  ((-92706600410320039,17),(-26991179631316153,17),(2601850231030356,16));
  ((-86211346477977802,17),(-43689185496028254,17),(25668245151308999,17));
  ((-78331592779451675,17),(-57687711943074516,17),(23157924419235285,17));
  ((-66040196234274184,17),(-71826661838658012,17),(21900299779994525,17));
  ((-50549357418307705,17),(-84687922265553817,17),(16514184416424924,17));
  ((-32083179560891845,17),(-94008740121072965,17),(11533705827362668,17));
  ((-10121665458081842,17),(-99101607981573536,17),(87420354506940842,18));
  ((99715545922655746,18),(-9916073629261053,16),(82290021825749002,18));
  ((27720099421886329,17),(-95656432510089917,17),(9024577967049241,17));
  ((43019139654600175,17),(-8921445422756189,16),(13788936879116984,17));
  ((58336154432721576,17),(-80404234400130115,17),(11491395760767763,17));
  ((73760983316028672,17),(-67204307099766325,17),(65496906410026035,18));
  ((85771309983795774,17),(-51031095921146907,17),(62537694833051605,18));
  ((93219480897613771,17),(-3391360927896121,16),(12648932241631206,17));
  ((98411982875726733,17),(-14312833248183399,17),(10498782352128497,17));
  ((99867839704839367,17),(44927816435633455,18),(24958977927330438,18));
  ((97406488071920594,17),(22309738794818162,17),(-37751339581236637,18));
  ((91761587516335152,17),(39491997992534761,17),(-44936790094083259,18));
  ((83566975870930471,17),(54853810953949744,17),(-27604288825589785,18));
  ((732700615696802,15),(67821136454961051,17),(-56383976032935941,18));
  ((5984327042153269,16),(79766301349635249,17),(-74913386156606102,18));
  ((44921303769603727,17),(89253510873683695,17),(-39858831342893544,18));
  ((27742724736313229,17),(95983577778467555,17),(-41825854504149509,18));
  ((74355822578769201,18),(99395512684206422,17),(-80773866274993569,18));
  ((-11568367585648862,17),(98995970167701597,17),(-81222387282598021,18));
  ((-31801861899719081,17),(94769137791314351,17),(-2729853842620434,17));
  ((-52315258953648225,17),(85139185010915142,17),(37990599218611754,18));
  ((-67685669110187408,17),(73472105657790132,17),(452768012526771,16));
  ((-78646849828533949,17),(61762905065456852,17),(-12872421447274436,19));
  ((-8831617957029122,16),(46832938601462826,17),(-26321641399594545,18));
  ((-95608095103415314,17),(29310267404535306,17),(19374491713263148,20));
  ((-99416742503490507,17),(1075053159304932,16),(85870860104812728,19));
  ((-99744850636954363,17),(-71343883263568802,18),(25548898294941646,19));
  ((-96986293019825343,17),(-23463199175087951,17),(65678954576584889,18));
  ((-91183638659131505,17),(-40765547758655135,17),(48697183509674197,18));
  ((-83811332974469088,17),(-54549049803572014,17),(24825505048482683,19));
  ((-73523549584770376,17),(-67701977675162284,17),(32756488407093151,18));
  ((-59396770091268714,17),(-80442814575866228,17),(98857768423679937,19));
  ((-42189675920970193,17),(-9057976790732265,16),(-39162343570157597,18));
  ((-2118306792190244,16),(-97559486122118855,17),(-57813753557578319,18));
  ((13761537527447751,18),(-99533260725399719,17),(-95517647698427438,18));
  ((2079549312698418,16),(-97092540270736349,17),(-11856900496377354,17));
  ((38639700925520604,17),(-91761988950291806,17),(-93118685704237786,18));
  ((53426685486947756,17),(-84108468001655035,17),(-84471822694516488,18));
  ((6744498870548068,16),(-73149332945642609,17),(-10017414243461695,17));
  ((80896552902772423,17),(-57478098398168831,17),(-12329474156644556,17));
  ((91209482703407796,17),(-39857545383638543,17),(-9602413288749205,17));
  ((97007558267049465,17),(-23405230132612864,17),(-64597864906229374,18));
  ((99057918076926388,17),(-48584740574644208,18),(-12803284582398555,17));
  ((96611719027890952,17),(15097136643497555,17),(-20934474238523776,17));
  ((90537911034396812,17),(34813899878043519,17),(-2430800363685196,16));
  ((82338107995986742,17),(51322577610192488,17),(-2421629614716074,16));
  ((71226182106993308,17),(65075463297373926,17),(-26306179104795258,17));
  ((57177762834491763,17),(77472752037075721,17),(-26994001723427191,17));
  ((41183656872245494,17),(88036854990599611,17),(-23524850052514307,17));
  ((22584908943740678,17),(94651149145532465,17),(-23045213243385509,17));
  ((3482356491482716,17),(96152178502195829,17),(-27251270842808384,17));
  ((-18422605218603977,17),(95371056089847961,17),(-23769082381668394,17));
  ((-40009571251645604,17),(9019167161613435,16),(-16269498435627316,17));
  ((-57295351396371841,17),(80628791074964401,17),(-14705126934372678,17));
  ((-68944859386803281,17),(69631084910555074,17),(-19952904007010938,17));
  ((-7943348765310021,16),(56703776096254355,17),(-21794559313980838,17));
  ((-89443093722005607,17),(39558847083819443,17),(-20857387248538869,17));
  ((-9583293552045552,16),(21522698672244109,17),(-18783554280167458,17));
  ((-97941267816960065,17),(32267305049844715,18),(-19927274491377533,17));
  ((-96972958106215956,17),(-15448635517104281,17),(-18909919534195554,17));
  ((-93900142303604228,17),(-31383816193572589,17),(-1406482692715855,16));
  ((-86538486734774611,17),(-45378291881139782,17),(-2125796179329808,16));
  ((-77663995737010671,17),(-59484029861626675,17),(-20735331142344837,17));
  ((-66866937995801978,17),(-72365345565316719,17),(-17090036988780014,17));
  ((-52302383690740117,17),(-82776730646834074,17),(-2030944419938871,16));
  ((-34373265928938246,17),(-91310400100989342,17),(-21929191110839863,17));
  ((-14020413132158507,17),(-96187344534200114,17),(-23482392703101632,17));
  ((54089549724683474,18),(-95651335368418811,17),(-28662959518236819,17));
  ((25693921757208288,17),(-91948784851251886,17),(-29753039325632757,17));
  ((42818864501135007,17),(-85230965248851942,17),(-30037100485606699,17));
  ((56866049754066439,17),(-76467622599661045,17),(-30314271875205057,17));
  ((70331442335207961,17),(-64816259160844614,17),(-29194875705225121,17));
  ((82083071439201294,17),(-48770516963773641,17),(-29728875831306573,17));
  ((90245074832657723,17),(-3224646586015763,16),(-28565572075099332,17));
  ((94675154522186111,17),(-15539248924146387,17),(-28198348516776595,17));
  ((93942350492749549,17),(32543803956647688,18),(-34121016868459697,17));
  ((88668212713719485,17),(2405475620302219,16),(-39488185045248136,17));
  ((7932446135827611,16),(43784207415117576,17),(-42315162899950209,17));
  ((66487436468633632,17),(60367471555904895,17),(-43990785055241055,17));
  ((50004863350302198,17),(74806831645294913,17),(-43628563814433624,17));
  ((32757498934520318,17),(85466883903562485,17),(-4027850567448939,16));
  ((14294731737798708,17),(89093273557771968,17),(-43105095421589995,17));
  ((-76698562988817831,18),(90652431185639948,17),(-41512769414811601,17));
  ((-29885304459404555,17),(88587012659112152,17),(-35485345785309719,17));
  ((-47723375184225059,17),(8116544876794598,16),(-33684557104460039,17));
  ((-59070112499490679,17),(70029651018547101,17),(-40082038215615007,17));
  ((-70213088631686549,17),(57574607854625981,17),(-41896142008363613,17));
  ((-81658626429664816,17),(42840126654835037,17),(-38685814943182228,17));
  ((-89528114267496217,17),(24000526116685136,17),(-37532539240350543,17));
  ((-92343505506915269,17),(43346961980239497,18),(-38129875420267828,17));
  ((-91221413535555362,17),(-1530366765119085,16),(-38005939917295717,17));
  ((-87018247282753725,17),(-32052399576051893,17),(-37422831550467073,17));
  ((-77754566066867892,17),(-45365801641942238,17),(-43545051350722125,17));
  ((-69307513323376513,17),(-59990085243931679,17),(-3997071764874629,16));
  ((-57701457626285246,17),(-72209212645182774,17),(-38162434368954823,17));
  ((-41846692182042255,17),(-81743964713322326,17),(-39582554065756287,17));
  ((-2336848673336408,16),(-88964388970066599,17),(-3923329355248269,16));
  ((-32625495764769953,18),(-89680965749447417,17),(-44121198448222915,17));
  ((16947284787875871,17),(-86927534635012482,17),(-46436981605153183,17));
  ((34593676955113895,17),(-80092836208547513,17),(-48871413963543159,17));
  ((49103213011890401,17),(-70842499523665725,17),(-50697285264088232,17));
  ((63193718428873569,17),(-60825429379031171,17),(-48029377384979055,17));
  ((74281163437851261,17),(-46966285248639178,17),(-4771243871636292,16));
  ((82190982368441334,17),(-30601915800948737,17),(-48043367561217115,17));
  ((86616092257174337,17),(-14064864862835849,17),(-47956565123941358,17));
  ((85553849536203119,17),(37528742797396118,18),(-51637726171639153,17));
  ((80448878602670948,17),(22480485137764658,17),(-54978229505354703,17));
  ((71145579332727904,17),(41242549510756199,17),(-56897791268759645,17));
  ((56453522080296559,17),(58830478759172433,17),(-57896240065275661,17));
  ((38670767623230412,17),(71867321551973584,17),(-57789789966527372,17));
  ((21422842233063355,17),(78406081520282322,17),(-58254169046447823,17));
  ((10361246385254807,18),(81720823245021823,17),(-57624938124820069,17));
  ((-19615405632085922,17),(81989326170776311,17),(-53786487670703931,17));
  ((-36938638067775181,17),(77023869248417431,17),(-51989042919644191,17));
  ((-48760735565841418,17),(6520117735000327,16),(-58062011154036919,17));
  ((-60237159364102477,17),(5219161278727904,16),(-60394703297610908,17));
  ((-73010673652552094,17),(39385167329445642,17),(-55841294104203054,17));
  ((-81880966713748538,17),(21610187579389947,17),(-53183710690450914,17));
  ((-8403149348683645,16),(10671763732338735,19),(-54209747405034525,17));
  ((-80854389266710569,17),(-19454172138961801,17),(-55534700167506823,17));
  ((-72110482448365643,17),(-34772295536683362,17),(-59924667576662471,17));
  ((-61839433346137351,17),(-51389814750879614,17),(-59455625665692158,17));
  ((-50937990644362607,17),(-64751421941261555,17),(-56679577148206917,17));
  ((-34951605400528346,17),(-75195666242557169,17),(-55892728134022096,17));
  ((-16019485528309266,17),(-81245139918663822,17),(-56058927237372536,17));
  ((63020179170373641,18),(-79192147329951745,17),(-60736219601194785,17));
  ((24312793623186985,17),(-72488018098470186,17),(-64454443589190791,17));
  ((39695485919687218,17),(-62205801373103198,17),(-67488566980859399,17));
  ((54419171850857473,17),(-52169282729226063,17),(-65703269892638649,17));
  ((65405822499545307,17),(-38911401627379344,17),(-64868954104030019,17));
  ((72239826857434553,17),(-22736848835706835,17),(-65302703777332938,17));
  ((74431715499691442,17),(-57066157603096697,18),(-66538366859558395,17));
  ((71183483127693559,17),(11902197699989876,17),(-6921885162092567,16));
  ((64353407858687206,17),(28945375665394801,17),(-70857632789718761,17));
  ((54390246514374496,17),(44629707466330587,17),(-71062580135928988,17));
  ((39747236621460202,17),(57316938825363495,17),(-71658395911764527,17));
  ((22846945967430712,17),(6367606545955572,16),(-73643572343767216,17));
  ((54820351142376905,18),(69442605704546756,17),(-71747277327917569,17));
  ((-14181638180506936,17),(7044427100233035,16),(-69544847555138301,17));
  ((-30601732280143301,17),(64882792821099644,17),(-69668911123891519,17));
  ((-41368170488440204,17),(51505486374488629,17),(-75072360717954723,17));
  ((-55496613439576581,17),(38643120220367166,17),(-7366705611311245,16));
  ((-68404125222204615,17),(24539267930793038,17),(-68692794250967126,17));
  ((-73620707946713104,17),(59712019146120399,18),(-67411691190176404,17));
  ((-69788230645933258,17),(-15200920950627697,17),(-69989533971607432,17));
  ((-57081295425104095,17),(-37515175294802339,17),(-7303654794137141,16));
  ((-42175584030455604,17),(-55753245093161474,17),(-71503816494449057,17));
  ((-25437101628435821,17),(-66494288024768133,17),(-70224379818007687,17));
  ((-61745045543132725,18),(-70557464965353789,17),(-7059404812851886,16));
  ((14127818461164954,17),(-62661211196415534,17),(-76641877305599548,17));
  ((29905920466496561,17),(-51285471896900281,17),(-80470095646543338,17));
  ((44897828834267994,17),(-39928275611321556,17),(-79936961242438509,17));
  ((54758959028828991,17),(-25842974487292436,17),(-79583899601164187,17));
  ((58777258638236207,17),(-89065018383828243,18),(-80410870483888996,17));
  ((55838808643049387,17),(83487607368053982,18),(-82536813868021874,17));
  ((48556321198342695,17),(24631830462329174,17),(-83878224824792569,17));
  ((38137770834807788,17),(39154156763609377,17),(-83740446881315278,17));
  ((22583761058221682,17),(46484794361855913,17),(-85610382720795719,17));
  ((51491808076492389,18),(52879109040862504,17),(-8471886309467751,16));
  ((-11872047261758756,17),(55254658506375842,17),(-82498346693484437,17));
  ((-26215470209244257,17),(45394929431735404,17),(-85158966078716514,17));
  ((-41111259088296742,17),(31079648085824696,17),(-85696673512081156,17));
  ((-55295524558263875,17),(17773596970243491,17),(-81403342772676035,17));
  ((-60098424742380618,17),(-10538122123922494,18),(-79919139280308982,17));
  ((-54795660404932911,17),(-21724110190821821,17),(-80780558534862201,17));
  ((-39939781639073091,17),(-41228096124183322,17),(-81884418130669157,17));
  ((-21746581407024679,17),(-52499370826492353,17),(-82285492402549865,17));
  ((-25970189173202155,18),(-55722924522351891,17),(-82995247908656522,17));
  ((12560622645929923,17),(-44149504272983514,17),(-8884285019739272,16));
  ((28491645095032458,17),(-32047950105934336,17),(-90339111429027552,17));
  ((38911999460025343,17),(-16753114469052957,17),(-90582500813401012,17));
  ((39333108248868054,17),(18469652535215329,19),(-91939504472649569,17));
  ((31957966926054959,17),(1779134537427243,16),(-93070706345909571,17));
  ((18293770781829197,17),(28092384011411042,17),(-94213353146660206,17));
  ((14497531695760716,18),(35058809443447775,17),(-93641754021138035,17));
  ((-14901751757979714,17),(32382842934670192,17),(-9343066561901413,16));
  ((-30333495673084798,17),(19570498700964184,17),(-93257035235131214,17));
  ((-43335585511223695,17),(44061699154812436,18),(-90014513802360374,17));
  ((-4092766699955665,16),(-14440065510421615,17),(-90091123769371051,17));
  ((-3021810154500153,16),(-28956186858946509,17),(-90820733214424942,17));
  ((-13157193529018418,17),(-38450470804206721,17),(-91369850352152826,17));
  ((27418992969621237,18),(-30413798346172283,17),(-95223331481332274,17));
  ((17664475615462172,17),(-17261969133641308,17),(-96901964494327752,17));
  ((19768573722830793,17),(12908281633725205,18),(-98018045561098843,17));
  ((50916808773057765,18),(12770583017479939,17),(-99050426527286251,17));
  ((-11623817515301313,17),(11813763474578851,17),(-98617046492671245,17));
  ((-24998426354769901,17),(-14523416772369846,18),(-9681409702846846,16));
  ((-1529320016798385,16),(-16844979092376627,17),(-9737743428535881,16));
  ((-14275241161755283,19),(-84668893443673982,18),(-99640811952629205,17))].

(** womersley/womersley_366.hpp:1-386. *)
Definition wo_366 : list lit3 := [  ((0,0),(0,0),(1,0));
  ((18083162179353732,17),(0,0),(98351406932464325,17));
  ((11319022205603861,17),(17152342998831921,17),(97865606144137629,17));
  ((-3886161034320481,17),(2555556918713468,16),(96601297278747256,17));
  ((-15293014246514647,17),(12098830710805794,17),(98080283496160237,17));
  ((-19171427325199314,17),(-60962823631233051,18),(97955559901741529,17));
  ((-19279370766771053,18),(-18188881270496313,17),(98313008583585526,17));
  ((16194793787063502,17),(-20160885084420133,17),(96598485323566519,17));
  ((32297793988003776,17),(-13583545744669528,17),(93660769741183192,17));
  ((35422848310436533,17),(70031957361404759,18),(93253295207499809,17));
  ((30477077162315441,17),(2270290398357841,16),(9249716708286092,16));
  ((17076608724925965,17),(35152700771345236,17),(92047145870668079,17));
  ((-37859381168612346,19),(43447528859691098,17),(90067579642799678,17));
  ((-18435958059207394,17),(37736334387777387,17),(90752876083422263,17));
  ((-29529827323390229,17),(22671955923205728,17),(92811484811239675,17));
  ((-35914685215033132,17),(47934876616468038,18),(93204924021978153,17));
  ((-37026166463780891,17),(-13714867307508424,17),(91874726730117817,17));
  ((-21796061921817639,17),(-24766431988639817,17),(94401035647138798,17));
  ((-48522387040829597,18),(-34991198764044307,17),(93552508189859573,17));
  ((15349420140316572,17),(-37356443672939627,17),(91481645249014476,17));
  ((32667133630320383,17),(-35401787864537548,17),(87633166075254132,17));
  ((45891116926430492,17),(-24172274388990739,17),(85496821801210998,17));
  ((49113522841931806,17),(-45261869782004763,18),(86990663323677508,17));
  ((5211733130751911,16),(15407888164324682,17),(83942723089604099,17));
  ((47245466055127844,17),(30934720492261147,17),(82528231565322185,17));
  ((33932169742533602,17),(42465534313910952,17),(8393620346428553,16));
  ((16210964011517684,17),(52542936629152337,17),(83525112727862627,17));
  ((-30976878634095779,18),(59362444679010673,17),(80414578850058538,17));
  ((-20260935695089699,17),(54559908732683782,17),(81318576253157904,17));
  ((-35840562569474532,17),(40919845150164519,17),(83910788028656591,17));
  ((-46616581352287129,17),(2294526878843279,16),(85442430813104608,17));
  ((-51987623832320551,17),(31556807408428963,18),(85365851763635614,17));
  ((-54710131694651887,17),(-15376400749890409,17),(82282244682146444,17));
  ((-44787536189581029,17),(-30076890583259625,17),(8419891480838454,16));
  ((-29037117727799217,17),(-39204023900512946,17),(87291983045809762,17));
  ((-13376144628300335,17),(-49409163471068157,17),(85905839847894261,17));
  ((5309655963059063,17),(-51771093870933271,17),(85390639961069315,17));
  ((24024166615536535,17),(-54014409584693668,17),(8065533445250781,16));
  ((42283718608010468,17),(-4731925786085549,16),(77285024268460034,17));
  ((57226923810430685,17),(-37454970848461289,17),(7295343960318853,16));
  ((61727485517660319,17),(-20639285338524102,17),(75919282348965988,17));
  ((63600554961083267,17),(-14566020537579586,18),(77154699915813396,17));
  ((67037869516865567,17),(17156875596265431,17),(72191174463461794,17));
  ((64626897101117686,17),(33561596021406614,17),(68534541973937868,17));
  ((52949794949286011,17),(46316247991575754,17),(71071262735450402,17));
  ((36436221717451522,17),(56923433058421391,17),(73702947809433861,17));
  ((18987584205365263,17),(65995817887759889,17),(72691290175438461,17));
  ((23795455164473265,18),(72456972718191237,17),(6887905971810625,16));
  ((-17353913546652242,17),(70902958088862,14),(6834919325686587,16));
  ((-34198184947843069,17),(60738360539052549,17),(71703108058864395,17));
  ((-48227955806420442,17),(46121880661600057,17),(7447708642912314,16));
  ((-58440380904022649,17),(27779926958743684,17),(76243016322543344,17));
  ((-65100468518595367,17),(73587013473373777,18),(7554984125158748,16));
  ((-69190874328362395,17),(-11529853367855172,17),(71271911655241305,17));
  ((-64176249387357287,17),(-29962628328334601,17),(70594970913159272,17));
  ((-52386059734747237,17),(-43483831653145005,17),(73245185031020565,17));
  ((-36803724254740977,17),(-52416936656058732,17),(76798116074391543,17));
  ((-21783591161138469,17),(-62442852777902513,17),(75009101401640332,17));
  ((-46220776803969389,18),(-66578505748141426,17),(74471061294042773,17));
  ((12895833598571477,17),(-67124370449468207,17),(72993262480591414,17));
  ((34781015089730805,17),(-63847311609336288,17),(68657132110132812,17));
  ((54668244465582738,17),(-54378975498967175,17),(63673464415987369,17));
  ((6997501334204218,16),(-42620561506126381,17),(57332235650491736,17));
  ((74313069299671619,17),(-26788809680603942,17),(61318246934812015,17));
  ((75794089251324959,17),(-8763925260450646,17),(64640928587013824,17));
  ((78828989561666729,17),(83887708452076173,18),(60955876897910621,17));
  ((79982074223861821,17),(25306878192131893,17),(54428207016373953,17));
  ((73064420951848663,17),(41934017346655655,17),(53880688378503849,17));
  ((58163206069743123,17),(56698708972758527,17),(58329219611709437,17));
  ((41540783648056823,17),(67453606347027761,17),(61027651803797522,17));
  ((25536547222466383,17),(76807632684147098,17),(58723694684615035,17));
  ((10589102339592359,17),(83428830031817358,17),(54106388080925982,17));
  ((-85840086910928745,18),(82777635552916373,17),(55445268933064051,17));
  ((-28988781218846676,17),(7745052353379781,16),(56223366741831415,17));
  ((-45449170208680573,17),(65783983282138425,17),(60056976870949097,17));
  ((-59347069106236972,17),(50798499582322587,17),(62429462825530579,17));
  ((-68764253279494614,17),(34403741359041096,17),(63936375025596492,17));
  ((-74649964463934348,17),(15363426243270881,17),(64740620475872135,17));
  ((-80132782397623337,17),(-47118154826680692,18),(59636699942840887,17));
  ((-78569881577064626,17),(-24514459840782726,17),(56796258395079968,17));
  ((-70048489083429177,17),(-42000414061834696,17),(57698998221486841,17));
  ((-56135152243854547,17),(-56309901448412947,17),(60646843952750684,17));
  ((-40623494231340418,17),(-65822346580703783,17),(63380994052207507,17));
  ((-27046256752916137,17),(-75583770550655627,17),(59628798621145995,17));
  ((-10286838735552602,17),(-78777779627598588,17),(6073090140755566,16));
  ((7627637733991427,17),(-80544019305926673,17),(58774825364653382,17));
  ((24857567876170983,17),(-7659197027025787,16),(59293940747782048,17));
  ((45669623085815353,17),(-69472646299161911,17),(55568308804489508,17));
  ((63254060624775998,17),(-60510259486687545,17),(48346998989915624,17));
  ((77326631208404528,17),(-48155429784592746,17),(41251020450657422,17));
  ((84653079983104151,17),(-3050051630646014,16),(43629973119560023,17));
  ((86342546938303166,17),(-13819388370189015,17),(48517925484101215,17));
  ((89063727245004665,17),(28424794940502447,18),(45382516452410582,17));
  ((89572177415863119,17),(20013291138782421,17),(39702559247175429,17));
  ((84272052924739804,17),(38802959949534688,17),(3731690494942822,16));
  ((7084057741769928,16),(55838096846141405,17),(43170818057200261,17));
  ((55090686989099991,17),(69949731901030221,17),(4551978925745378,16));
  ((3928212822562876,16),(80324867921329313,17),(44775327977428153,17));
  ((25775295129637915,17),(88693518609394595,17),(38328760972212983,17));
  ((79337243601899129,18),(92145818808347235,17),(3802899017743922,16));
  ((-10988719682575672,17),(90903492230658556,17),(40197053872247573,17));
  ((-29141523674734032,17),(86365059990109361,17),(41132080069207849,17));
  ((-46414626265100595,17),(76585990466846587,17),(44500208234154576,17));
  ((-61038483016164946,17),(63194776732681868,17),(47756923946081742,17));
  ((-73523772146377497,17),(47836860459728098,17),(48019680452123681,17));
  ((-81015267223559706,17),(3017326073354219,16),(50260330414760435,17));
  ((-85769766313224394,17),(11079838522164953,17),(50207413445602112,17));
  ((-8952889467672045,16),(-8422585424872478,17),(43745137703811393,17));
  ((-86720531928121514,17),(-27027202770779934,17),(41821999623294004,17));
  ((-78693994675971368,17),(-44998729528816978,17),(42218118654560682,17));
  ((-65888302751040773,17),(-5968843531241349,16),(45782335573264743,17));
  ((-50398341755283216,17),(-72335483880636497,17),(47197297804766891,17));
  ((-37666802085140683,17),(-82096108965779646,17),(42912013625063961,17));
  ((-20495304111818008,17),(-87656519751072481,17),(43546263381534078,17));
  ((-25762118949995121,18),(-89713742576402289,17),(44099971941114513,17));
  ((15224643764093898,17),(-89821283077434066,17),(4123526801877116,16));
  ((31937473185884308,17),(-83854668691135992,17),(44140597472176774,17));
  ((48410026213346297,17),(-77832819351352556,17),(39981515652146588,17));
  ((64073221765609689,17),(-69061990819275831,17),(33541968884566981,17));
  ((77531918447795667,17),(-57564727982403896,17),(25982758015965274,17));
  ((88169563710793719,17),(-39257296784797957,17),(26172364895029604,17));
  ((93548567657774528,17),(-20625791795148088,17),(2869219758056159,16));
  ((95716418180246787,17),(-35463173995822612,18),(28736578147816111,17));
  ((96377114160522781,17),(13650439607574757,17),(22915439437407975,17));
  ((92393912957966373,17),(31620758355492778,17),(21528875710061326,17));
  ((82438946366103882,17),(50737984982233975,17),(25089380263156136,17));
  ((69812800114496987,17),(65656510487947417,17),(28555132125755256,17));
  ((55111060541709778,17),(78104713881559107,17),(29367067872836522,17));
  ((40470195283566274,17),(88106190402504436,17),(24483923428806195,17));
  ((22857693314802199,17),(95350602127604112,17),(19641500203135837,17));
  ((50157449022563978,18),(97733834778438677,17),(20565501272187325,17));
  ((-13075939895087774,17),(96451153982973936,17),(22938933959813865,17));
  ((-31084444453129229,17),(92145542065323716,17),(23301424645887681,17));
  ((-46640408107614512,17),(84258409950215341,17),(26929401854044555,17));
  ((-61175454695450648,17),(72948710318303589,17),(30594924508831417,17));
  ((-74133058762250692,17),(58774017001685108,17),(3240223023247496,16));
  ((-84887205529464849,17),(40932886163546367,17),(33446392447027046,17));
  ((-910327583713473,15),(22103064923851612,17),(34992733878276761,17));
  ((-94822866363307434,17),(43451915089680888,18),(31460186353496589,17));
  ((-95870749076197226,17),(-13503921858606241,17),(25028854668272099,17));
  ((-91824180891342444,17),(-31041772070781515,17),(24591221814697856,17));
  ((-83893724120148128,17),(-47913868740366178,17),(25808995245523147,17));
  ((-72018063546453781,17),(-63136693559336365,17),(28760327700034999,17));
  ((-58607580896525069,17),(-75093328153177297,17),(30432606334924733,17));
  ((-45649812876262552,17),(-85668105481263834,17),(24022287310188983,17));
  ((-28304748338977587,17),(-92227171766288152,17),(26324703406852029,17));
  ((-9028412420109963,17),(-95918965607302387,17),(26796264776971152,17));
  ((92515096107936998,18),(-96559451183828537,17),(24303949411550896,17));
  ((28679519686487259,17),(-92309240655182034,17),(25622045980289687,17));
  ((44916543235793976,17),(-86252564348084948,17),(2330234509929236,16));
  ((59795048720831956,17),(-78135453809699651,17),(17871849552456046,17));
  ((72901846608859877,17),(-67553912441420216,17),(11035835939121089,17));
  ((85771168138853027,17),(-504497496295781,15),(9906032425218847,17));
  ((94328425840989583,17),(-31599526852829091,17),(10179291774886082,17));
  ((98610846926891116,17),(-12703179359376071,17),(10701873785686862,17));
  ((99578409920247835,17),(59662398931442991,18),(69673710459928873,18));
  ((96764475525249549,17),(25095745336975001,17),(26153092178704696,18));
  ((9089123401933058,16),(41355721865162859,17),(53374008144951871,18));
  ((81715636046296469,17),(56988430929491019,17),(86529512736316372,18));
  ((68834599727803847,17),(71561825834306236,17),(11861828003029216,17));
  ((53838593748685248,17),(83619514086077151,17),(10449051974814462,17));
  ((35853171673112605,17),(93183411618659517,17),(5603738045785691,17));
  ((16924558267295114,17),(98555250644483483,17),(6495366502149243,18));
  ((-40073270058352418,19),(99978665538633094,17),(20262898156045907,18));
  ((-18160332471212931,17),(98214946154276483,17),(49017013829465661,18));
  ((-35835053545211504,17),(93248772767311616,17),(45293834902895944,18));
  ((-5094867656798352,16),(8569497834356492,16),(77847956085530329,18));
  ((-64421267345046218,17),(75446163817372258,17),(12560918712431524,17));
  ((-77179077419378539,17),(61699988208695444,17),(15378604089462003,17));
  ((-87459207696098928,17),(45350227681976246,17),(17153537196845015,17));
  ((-94645741495951785,17),(27036101402962281,17),(17641792358210368,17));
  ((-98568436351899913,17),(10033570734881309,17),(13549568755115007,17));
  ((-99477075446034691,17),(-63446956136449364,18),(80035178686698877,18));
  ((-96577913254000691,17),(-25218662706736106,17),(6060175144877758,17));
  ((-90181818957893267,17),(-42683967678429086,17),(67318966623518967,18));
  ((-80606907120053528,17),(-58429641048008485,17),(94076336844046385,18));
  ((-68646116455543149,17),(-71825966172834055,17),(11346421414300881,17));
  ((-54827583243373135,17),(-83153928602051774,17),(89084383443936613,18));
  ((-34043631100207594,17),(-93628655723198284,17),(86432637920976454,18));
  ((-13995347266436731,17),(-98482932397193279,17),(10258766073056735,17));
  ((74827121665631019,18),(-99433328006415223,17),(75513111577403008,18));
  ((27227740657782085,17),(-95873238999955557,17),(81836533608140416,18));
  ((44922956168445888,17),(-89262742885937851,17),(37537636535672145,18));
  ((58213065947708142,17),(-81279689261015708,17),(-22025137004132802,18));
  ((72120587116454116,17),(-6900133183276842,16),(-61185880137603121,18));
  ((84588374554161461,17),(-5300485034341369,16),(-5940768498873536,17));
  ((94063871603793148,17),(-33351201389801222,17),(-62996368754110674,18));
  ((99005761469842679,17),(-12500080342114428,17),(-64503633399444746,18));
  ((99024113432303451,17),(90716036082702997,18),(-1057974323510343,16));
  ((94744338078627399,17),(26984034277774344,17),(-17186398579651693,17));
  ((89336225010297576,17),(42434260648251043,17),(-14777429551372392,17));
  ((81117464572264719,17),(57720538781807562,17),(-93966134381078106,18));
  ((68691877981244343,17),(72473232181831415,17),(-53904096809235066,18));
  ((52183983625377861,17),(85051746028929387,17),(-65599047566858026,18));
  ((33757314323703541,17),(93356938157858416,17),(-12038514336930499,17));
  ((1597206630131677,16),(96976780202902524,17),(-18449856355654257,17));
  ((-16487401809991902,18),(9844505025107203,16),(-17488674531806636,17));
  ((-19079520053036905,17),(9717665072257482,16),(-13880578838379223,17));
  ((-36203972270807605,17),(92048725567249456,17),(-14707294559496309,17));
  ((-51820189197302635,17),(84594619060322473,17),(-1258643784375407,16));
  ((-65704104408467079,17),(75082820850405474,17),(-67483832898831433,18));
  ((-78153616772134127,17),(62326987446312154,17),(-27127147475624769,18));
  ((-88398291829076447,17),(46740832419887945,17),(-10181288707177161,18));
  ((-95374810910285479,17),(30053337343254138,17),(-66510026301159052,19));
  ((-98848295141192966,17),(13757445212585681,17),(-63045419264456226,18));
  ((-99356860805347769,17),(-31854440771006416,18),(-10865871200157534,17));
  ((-96978454196331354,17),(-21781789125954748,17),(-10987860763701987,17));
  ((-90059980696729491,17),(-42092975521159814,17),(-10834264565707781,17));
  ((-80125815370483688,17),(-59091035322228358,17),(-93863334568041287,18));
  ((-68258420173848267,17),(-72662040500503133,17),(-78112704263536337,18));
  ((-52221449082570048,17),(-84913999670286822,17),(-79077756487569678,18));
  ((-35470613151350189,17),(-93264170016495385,17),(-66053155716821396,18));
  ((-12911275419512935,17),(-99011660282107239,17),(-54763213220253161,18));
  ((79553486124642692,18),(-99305563720971202,17),(-86670319322297115,18));
  ((28728761408466336,17),(-95347418242763038,17),(-91393710054375008,18));
  ((43692650067458755,17),(-88211608068737579,17),(-17597287632189995,17));
  ((57792811167424218,17),(-78582243362272086,17),(-22018674018184931,17));
  ((71347826368724354,17),(-66019167796697731,17),(-23472476560640809,17));
  ((83615529741050976,17),(-50142159041048451,17),(-22230768606272364,17));
  ((92241569675702439,17),(-31840536658304786,17),(-2185573263639729,16));
  ((96895656861319235,17),(-10917329353371517,17),(-22182055838075351,17));
  ((95671677167709035,17),(77547014406234321,18),(-28049862628620015,17));
  ((90078655874990021,17),(23537271718214478,17),(-36494281686561048,17));
  ((84822190905784012,17),(40325051025583858,17),(-34337824475740908,17));
  ((77536395932903912,17),(56844058106883155,17),(-27511095283126275,17));
  ((6609557751042644,16),(71679298725782026,17),(-22213796788106979,17));
  ((50200059963737376,17),(83260510023430712,17),(-23401740325782763,17));
  ((33048206011601572,17),(893770491533324,15),(-30324233940159889,17));
  ((15803101788581225,17),(91571015492651175,17),(-36946056562296076,17));
  ((-24199958872727134,18),(93364730558613285,17),(-35737525202833043,17));
  ((-20161876747928553,17),(9228447847117619,16),(-32818801917564788,17));
  ((-36308290460492293,17),(86842134263772863,17),(-33766133334294751,17));
  ((-53016322529462756,17),(7921702076978826,16),(-30231327556210896,17));
  ((-68375095886177328,17),(68856947288031356,17),(-24157132957562033,17));
  ((-80593723760676084,17),(55577542759259835,17),(-20390890888592389,17));
  ((-89690958967680123,17),(39749670666983489,17),(-19377707844950912,17));
  ((-94598956549285651,17),(23283370161296604,17),(-22559301711675522,17));
  ((-95650595647786907,17),(60695666919224144,18),(-28532856716352029,17));
  ((-94922134896320665,17),(-12132727297547195,17),(-29027318771255051,17));
  ((-91084288624366261,17),(-3203221939814771,16),(-26030545254029419,17));
  ((-80936183519125138,17),(-52660448207332478,17),(-26004064912266123,17));
  ((-66134247735158835,17),(-70780268803741653,17),(-24827702764748769,17));
  ((-51179468136945316,17),(-81987553681281899,17),(-25665211524129616,17));
  ((-35492224034414638,17),(-895161941104891,15),(-26965775068856351,17));
  ((-204821569528509,15),(-9569271862571721,16),(-20576317663228669,17));
  ((-63456860963803808,19),(-96993771272114537,17),(-24327056071222228,17));
  ((19933733580620125,17),(-94754141255765512,17),(-24985975674751909,17));
  ((35061066850853412,17),(-87359540893014509,17),(-33749551200596967,17));
  ((50027711401595898,17),(-77101995745139662,17),(-3940190787303447,16));
  ((63898738260921084,17),(-65181213953971606,17),(-40845570092102723,17));
  ((76576647880319371,17),(-51171597333582419,17),(-38954905028035669,17));
  ((85188832468687237,17),(-3472343060491857,16),(-39206455968977133,17));
  ((90814192347283806,17),(-17589860100870922,17),(-37991831884529198,17));
  ((89957151433652571,17),(-12268139371886706,19),(-4367717773870623,16));
  ((84133744517438347,17),(15950275793310545,17),(-51643990314379684,17));
  ((77738288348376428,17),(37097750072563446,17),(-50798774239328859,17));
  ((70979507956446575,17),(55334329637375534,17),(-43589235068340004,17));
  ((59411666321837187,17),(70345466506893073,17),(-39009860891706083,17));
  ((44073611335469026,17),(79102405471426818,17),(-42430251383700307,17));
  ((27084289636148695,17),(82073762949534423,17),(-50302472008926546,17));
  ((73068908047543554,18),(84388527076677433,17),(-53152477313821178,17));
  ((-11593340192078976,17),(85075206492244948,17),(-51262107872117479,17));
  ((-27930118334928572,17),(80994597848172045,17),(-51573089971512964,17));
  ((-45829186660218385,17),(74990449465143627,17),(-47708679913393132,17));
  ((-63363193846039112,17),(6535769940157039,16),(-41394163774175174,17));
  ((-76917022713950289,17),(51369025576777028,17),(-38013087589856259,17));
  ((-85410742865947187,17),(35437353500337831,17),(-3806834616816373,16));
  ((-88720413519584385,17),(17805771256904154,17),(-42563396655586044,17));
  ((-88244698091658469,17),(-2681504797706897,18),(-47040422553716998,17));
  ((-87814476657403495,17),(-192345581170796,15),(-43802391069746666,17));
  ((-8289139415520882,16),(-3896805901821237,16),(-40131124471648305,17));
  ((-70839901669356653,17),(-59126712778435875,17),(-38545300199793858,17));
  ((-55560721749259367,17),(-71130150487679278,17),(-43052385419410577,17));
  ((-40996267046818174,17),(-79271963393933831,17),(-45113877110006678,17));
  ((-23991679451084605,17),(-87170533135664374,17),(-42728181215217254,17));
  ((-84268380449495223,18),(-91743406366604441,17),(-38886190207016641,17));
  ((12329714755030069,17),(-90429112395282862,17),(-4087240836384482,16));
  ((28026721774044977,17),(-82283355492247146,17),(-49436345693596268,17));
  ((43827411244727493,17),(-71243844458131589,17),(-54803947398076058,17));
  ((59389064699281513,17),(-57378054144851121,17),(-56397676341273884,17));
  ((70849100359408868,17),(-43460218062299227,17),(-55602287940693684,17));
  ((7830211151886235,16),(-27413401292205447,17),(-55832649599317352,17));
  ((81728217354701438,17),(-10922129327638352,17),(-56579197404814952,17));
  ((76367359574550664,17),(56006727780332125,18),(-64316862921357443,17));
  ((72415662235663258,17),(26211014332860999,17),(-63788357798370143,17));
  ((6441597998267653,16),(46603638459927993,17),(-60652142626355221,17));
  ((55412170515037851,17),(61849896761861867,17),(-55714285684727205,17));
  ((39844566728517844,17),(69704893011454439,17),(-59612401331253051,17));
  ((19939987907566312,17),(73204175764855128,17),(-65142501739143455,17));
  ((-10087511613910602,18),(74608848946334039,17),(-665770386845007,15));
  ((-19055835450796929,17),(71435424454963747,17),(-6733390875488604,16));
  ((-37386576076760397,17),(67360166607615934,17),(-63756190945278646,17));
  ((-54909604451143668,17),(60523054344803562,17),(-57635884931133818,17));
  ((-68912492025074434,17),(48298312925618786,17),(-5402167538528454,16));
  ((-7755847396605916,16),(31221068191066442,17),(-5486281087462529,16));
  ((-78786772573914376,17),(13546851470221266,17),(-60076012539365964,17));
  ((-7877814130041374,16),(-62968499073392178,18),(-6127278461516571,16));
  ((-77915900463263688,17),(-2596711354203487,16),(-57051042666141116,17));
  ((-72105745757597439,17),(-44740227021683998,17),(-52906271034622121,17));
  ((-59056961131312602,17),(-58002486356648975,17),(-56106923978965229,17));
  ((-43745216717069496,17),(-64769489775015499,17),(-62380038543277494,17));
  ((-29188149770269384,17),(-74848105377479146,17),(-59546729837918888,17));
  ((-11221687118047291,17),(-80882666738345377,17),(-57724067420084058,17));
  ((56466302754157809,18),(-83440397802941535,17),(-54825318795421751,17));
  ((24386733194910959,17),(-73139780511653618,17),(-6368563221628063,16));
  ((43408744224301438,17),(-59311952341938401,17),(-67806881909263494,17));
  ((56521401428567752,17),(-42910689223915444,17),(-7045568771134979,16));
  ((6485863909026246,16),(-27463731605807584,17),(-70986621145418971,17));
  ((68310319030380218,17),(-1102402337804359,16),(-72195368428508089,17));
  ((63181574800971674,17),(78358516506991785,18),(-77114771831196238,17));
  ((59882110818732937,17),(25652428819006429,17),(-75868871743151656,17));
  ((53221703791545194,17),(42661257148217985,17),(-73126379536106145,17));
  ((41439700251748857,17),(56216096206091448,17),(-7157165479708204,16));
  ((23443903241769731,17),(60755723521080662,17),(-75888902088648935,17));
  ((38408778666278301,18),(62390582514669557,17),(-78055511469042715,17));
  ((-17257274880229825,17),(58869552305467954,17),(-7897190813866638,16));
  ((-36487971652936524,17),(54186599110141764,17),(-75712881344796834,17));
  ((-5227307476117149,16),(47503873206448832,17),(-70787765082665288,17));
  ((-64200081873636516,17),(34974101580030847,17),(-68228745452983752,17));
  ((-66947369150794156,17),(16394588519837364,17),(-72451826968355404,17));
  ((-67172749640005402,17),(-35905505144554685,18),(-73992767570920726,17));
  ((-67027985920758193,17),(-23723887525129259,17),(-70316614424342549,17));
  ((-6102432929396443,16),(-41085246409387077,17),(-67735026106894958,17));
  ((-45871007579823464,17),(-49753329030457027,17),(-73623752376518148,17));
  ((-28120992121451238,17),(-60082042066115726,17),(-74828858225091055,17));
  ((-12460775698856802,17),(-68775247067333933,17),(-71517092081613287,17));
  ((7933317479337168,17),(-71400702601394228,17),(-69562936552443633,17));
  ((2703084693250129,16),(-5924884262542327,16),(-75887469068743574,17));
  ((41137803951797319,17),(-43486093209813864,17),(-80103937377452739,17));
  ((49123275269605698,17),(-25505431724934602,17),(-83284913275522143,17));
  ((52887962655851528,17),(-85735588454678893,18),(-84435522707190924,17));
  ((46978765215850199,17),(87617674769826598,18),(-87842057406878349,17));
  ((43538713783119726,17),(2680294107652102,16),(-85941740451076054,17));
  ((34753713850901219,17),(42264815339317119,17),(-83701043947510601,17));
  ((18090577333044139,17),(46058671586139505,17),(-86898387692046941,17));
  ((-1128467651784942,17),(4868595052389505,16),(-87340739533986766,17));
  ((-2188776423248604,16),(43541073925627771,17),(-87321822348746947,17));
  ((-39014940914367063,17),(36338849170875454,17),(-84600959961366928,17));
  ((-51568530112410249,17),(2662775359766249,16),(-81434939923767424,17));
  ((-53801577862390859,17),(75709904080929077,18),(-83952786277512303,17));
  ((-54039989842742719,17),(-13199139834912374,17),(-83099110737809301,17));
  ((-50108246742932161,17),(-30512428805326541,17),(-80982438199583173,17));
  ((-33403792451110714,17),(-41770879473085432,17),(-84494853558829774,17));
  ((-15770121106503218,17),(-50711373234679125,17),(-84732873814944409,17));
  ((20341907418782435,18),(-59201568058855314,17),(-80566968463498601,17));
  ((17407581749403106,17),(-49679977892101979,17),(-85022796321210858,17));
  ((29432302548571421,17),(-34544235903381465,17),(-89109120366777761,17));
  ((34946402882671407,17),(-16151361595232341,17),(-92292374788939469,17));
  ((32405027602296216,17),(21125675248532684,18),(-94580395667111461,17));
  ((27553632434534026,17),(22913300160191263,17),(-93358331258820038,17));
  ((12152375981103457,17),(30609028962489543,17),(-94421433498900964,17));
  ((-6860100749754075,17),(32290840188983483,17),(-94394071093436549,17));
  ((-24360573134797164,17),(24574206708580568,17),(-93822549747851935,17));
  ((-37215887107441098,17),(13818597102293201,17),(-9178248264745672,16));
  ((-39114762795926333,17),(-43118741320380231,18),(-91931730500887876,17));
  ((-3511331115307737,16),(-22712163583422462,17),(-90836187751507003,17));
  ((-18763957246692706,17),(-31588207617272618,17),(-93005908672365378,17));
  ((-10862087269264378,18),(-41621883498615286,17),(-90919959110358417,17));
  ((12298494577441864,17),(-30555596830748277,17),(-94419820659887921,17));
  ((17687791803844854,17),(-13417719160011246,17),(-97504393919694232,17));
  ((15709929901731706,17),(85447368650816022,18),(-98387934089446105,17));
  ((-18480798355532024,18),(15109727548358143,17),(-98834613037820962,17));
  ((-17622625934941116,17),(66326544598748649,18),(-98211256737570785,17));
  ((-2115351027261837,16),(-938713684690856,16),(-97285202702999185,17));
  ((-53177783259298859,18),(-20886282619779997,17),(-97649805079185625,17));
  ((15152217608325816,18),(-48303853877100345,18),(-99871775192101686,17))].

(** womersley/womersley_393.hpp:1-413. *)
Definition wo_393 : list lit3 := [  ((0,0),(0,0),(1,0));
  ((16195886034023207,17),(0,0),(9867975109196887,16));
  ((19319351660042106,17),(16635814848989189,17),(96695461712252961,17));
  ((3100473187681959,17),(21374957970642849,17),(97639634563868161,17));
  ((-12334795031519918,17),(14697640219175276,17),(98141898308103215,17));
  ((-17364632588134182,17),(-38295965184703434,18),(98406319540895482,17));
  ((-63025750870802741,18),(-19602825365611776,17),(97857073249495063,17));
  ((8633783261822689,17),(-20657874733113862,17),(97461325653301301,17));
  ((2555895508118311,16),(-14610458617591146,17),(95568165798772764,17));
  ((37790780931815232,17),(-28440435563735086,18),(92540630497165943,17));
  ((36588173024868659,17),(12768737468582658,17),(92186034398712946,17));
  ((29728661068390549,17),(31293465862381825,17),(90204909541558231,17));
  ((15585626160190783,17),(38352833142614051,17),(91028283775591323,17));
  ((-16996356530351996,18),(37596130805490729,17),(92647947560123334,17));
  ((-18832183585440504,17),(32985436061937523,17),(92505728845342849,17));
  ((-29362627661794272,17),(19557628240512329,17),(93569948564700778,17));
  ((-33289550126866108,17),(22171845464134293,18),(94270302561506691,17));
  ((-29841373252512171,17),(-17023272460719577,17),(93913261242128943,17));
  ((-20214251208923648,17),(-30197351501192515,17),(93163855707972687,17));
  ((-61561376097862691,18),(-40780895063417655,17),(91098960298984155,17));
  ((97758255883324652,18),(-39259415748083798,17),(91450158606672816,17));
  ((24861749822934426,17),(-33841123691196429,17),(90756111326229505,17));
  ((40113290766510268,17),(-25069792864444834,17),(88104650215611391,17));
  ((52033700301078956,17),(-12777868422904323,17),(84434709163616117,17));
  ((55910132321784189,17),(31426412817281445,18),(82850352500969848,17));
  ((49647769151522331,17),(21122993282352134,17),(84195713507700942,17));
  ((4561086439295744,16),(36704852956545131,17),(8107035721375383,16));
  ((33411780555581544,17),(49106060038486454,17),(80450281463784989,17));
  ((17139280243700969,17),(54920718097810373,17),(81792174419981811,17));
  ((91862443805792796,19),(54843367805767052,17),(83614359633158453,17));
  ((-15713283040789278,17),(50757431887325877,17),(84715853559316256,17));
  ((-32005180217679513,17),(44282570486560013,17),(83753939551144096,17));
  ((-42171723836813019,17),(31424035915914283,17),(85053369571034076,17));
  ((-47493685404338098,17),(14106205772436622,17),(86864059342281708,17));
  ((-48641926602420815,17),(-47533273668906181,18),(87243159361338329,17));
  ((-45747549044900376,17),(-21317884952517782,17),(86329077010794286,17));
  ((-39145799459937053,17),(-36504377911964475,17),(84469146899343495,17));
  ((-25546491798574877,17),(-46599995750769546,17),(84710195093705265,17));
  ((-79995183232152017,18),(-56019576455139142,17),(82448861486277447,17));
  ((94510916364016082,18),(-57337548326710397,17),(8138232252008103,16));
  ((24025518221537925,17),(-53535253140842887,17),(80973768254493506,17));
  ((37855753295524514,17),(-44754506556769474,17),(81018368814044039,17));
  ((52748374116035224,17),(-33467406597819638,17),(78086757672034268,17));
  ((65220424714659098,17),(-20955906912875277,17),(72850162426026133,17));
  ((70045754320248277,17),(-57661363451197697,18),(71136094729447352,17));
  ((65491389302814706,17),(14323436132377365,17),(74200519570612666,17));
  ((62945472489506837,17),(31885548978178418,17),(70860279843032803,17));
  ((57705026599476139,17),(46271877531306038,17),(67298166801790127,17));
  ((4444105414860286,16),(56986282688235823,17),(69119869006946355,17));
  ((27424198452173199,17),(66314331421730577,17),(69644258825438721,17));
  ((10619085423358572,17),(70729850012910955,17),(69889365013015647,17));
  ((-53440512830435195,18),(69065160254117453,17),(72121042386790801,17));
  ((-21179704614700159,17),(64624024434934924,17),(73315452520372415,17));
  ((-36471209763870194,17),(59025737864125927,17),(72012590065593884,17));
  ((-4933142112425648,16),(4811199505398136,16),(7246824698988471,16));
  ((-57233366203765657,17),(32034064678970053,17),(75486160937811764,17));
  ((-61673594152798916,17),(13768752449716365,17),(77503478891300592,17));
  ((-63355626491505812,17),(-42474342777111429,18),(77252986310726723,17));
  ((-62782113783463356,17),(-20923914123235993,17),(74970634295327299,17));
  ((-5699572247769068,16),(-35546640206897684,17),(74080523683674304,17));
  ((-45385155426303098,17),(-50086073419937904,17),(73699205669416135,17));
  ((-27174851270861161,17),(-60237261179813861,17),(75053313211086603,17));
  ((-1127688150296771,16),(-69496064177269368,17),(71014991427422447,17));
  ((55157956886511185,18),(-7167156403773397,16),(69518076111944116,17));
  ((2246487589442398,16),(-70531952118244001,17),(67235207156949139,17));
  ((3623944502955439,16),(-64598539328115223,17),(67184308738155951,17));
  ((48344428894820562,17),(-532409796433992,15),(694853529993537,15));
  ((62771619075263951,17),(-41181246511934033,17),(66059282272768294,17));
  ((75331911077319502,17),(-28232799530348912,17),(59397072353087887,17));
  ((81935646982638388,17),(-1225478295000272,16),(56003303905973112,17));
  ((78627224965853126,17),(57304925396767466,18),(61521711203621698,17));
  ((76166175013070814,17),(23809383017875135,17),(60264641907061789,17));
  ((75319374017438412,17),(38974070919642101,17),(52990694405451333,17));
  ((67369046385816267,17),(52443310892483452,17),(52068327529315406,17));
  ((53335200794009419,17),(64291987529491923,17),(54971780904117995,17));
  ((37026658194891537,17),(7326322203745067,16),(57109779194196453,17));
  ((1923500878049195,16),(807739185924084,15),(55727807353612768,17));
  ((21058270175293686,18),(83140605782696086,17),(55526616704591014,17));
  ((-13400450688449209,17),(80501527329525691,17),(57792144958982705,17));
  ((-28702866775810382,17),(75913954668200356,17),(58422743221150641,17));
  ((-4348627053643791,16),(69799214114142005,17),(56894762358936812,17));
  ((-56004344150733065,17),(58524094608242216,17),(58638245084004381,17));
  ((-65822588548558192,17),(43111777922035482,17),(61715163786287641,17));
  ((-71656716539396126,17),(26166567738031576,17),(64657758293986944,17));
  ((-75259425286595383,17),(87515117715652263,18),(65264308371754953,17));
  ((-76792132852545059,17),(-83321257048457276,18),(63510188262952894,17));
  ((-76015537802956623,17),(-24478738261765498,17),(60186621317691946,17));
  ((-68934598986805484,17),(-40067808809487115,17),(60353887693625019,17));
  ((-57274152092668862,17),(-54008509039034791,17),(61666461333907707,17));
  ((-40457114645964282,17),(-65271409455939478,17),(64053610219552781,17));
  ((-25935353810485762,17),(-75467345271886643,17),(60266385492567676,17));
  ((-11601993061891228,17),(-82520495290005369,17),(55278943677353576,17));
  ((53274233025985683,18),(-83005073811042918,17),(55513748590581113,17));
  ((22827797901443703,17),(-82137604758891303,17),(52271459970456124,17));
  ((38394354134897724,17),(-78096529206478948,17),(49262619667103003,17));
  ((50048800176741426,17),(-68296373746988137,17),(53204538658655021,17));
  ((6161112977184825,16),(-56105023212570415,17),(55283768490881746,17));
  ((75096682986174923,17),(-4318820310362364,16),(49952650752028149,17));
  ((86270541730840133,17),(-26288825720305276,17),(43200593418549066,17));
  ((90235821442119479,17),(-57678481968096884,18),(42710987530663458,17));
  ((8741304403378739,16),(11741889578043913,17),(47128417774037046,17));
  ((86464104993629942,17),(2786576762344693,16),(41802602100905101,17));
  ((84186081131552548,17),(42366778027891644,17),(33432915865162105,17));
  ((75181590920538233,17),(55719913880785366,17),(35256482861662564,17));
  ((61074576003111358,17),(68350115534655964,17),(39976966773873118,17));
  ((44420729708208884,17),(79056131846871547,17),(42153609449254886,17));
  ((27880153434803712,17),(86497780253044509,17),(41723267558375948,17));
  ((10248880182364732,17),(91474765753275944,17),(39081039973250792,17));
  ((-610347509235196,16),(92060792806799208,17),(38568873714183416,17));
  ((-21522557515290666,17),(88620464897333528,17),(41026731765782692,17));
  ((-36570069370857855,17),(83761342597003763,17),(40579151205489833,17));
  ((-51163042984045526,17),(75870501198146667,17),(40323815302557081,17));
  ((-63502464619670684,17),(64135203264145069,17),(4305940883818854,16));
  ((-73181928771153359,17),(49701655156910912,17),(46627789739567849,17));
  ((-80443456918509648,17),(33686681303505789,17),(48929109349710392,17));
  ((-84613570453515852,17),(17587219646130672,17),(50311364523601076,17));
  ((-86971438228886511,17),(65328650892165279,19),(49351212235731728,17));
  ((-87481790525291259,17),(-15996655059301307,17),(45727927499535659,17));
  ((-82812483660394098,17),(-33646060734087047,17),(44833415518729869,17));
  ((-7309163459330843,16),(-50160229910137033,17),(46277038451487712,17));
  ((-61039343982302086,17),(-63686694295654089,17),(47097807336457864,17));
  ((-47643776077764388,17),(-72646686395705085,17),(49523020473068108,17));
  ((-34341880009398673,17),(-82414803420818106,17),(45038155540918551,17));
  ((-21161562948563944,17),(-89638371631298208,17),(38950617259078674,17));
  ((-37862350803491304,18),(-91861205792782696,17),(3933425090442626,16));
  ((13858615177124714,17),(-91224052954523505,17),(38550109570825597,17));
  ((3178503206239332,16),(-88622734338798881,17),(33700485087121618,17));
  ((47998580724129175,17),(-81930957359067513,17),(31360077721458468,17));
  ((59303192872319976,17),(-71885751972120648,17),(36270786847698377,17));
  ((70121100545202186,17),(-59557642640288377,17),(39190795621693481,17));
  ((82446640551581074,17),(-44799156717649508,17),(34577261591194103,17));
  ((91540133948486746,17),(-28680196685467008,17),(28246242135477623,17));
  ((95595098870497297,17),(-10739512208587214,17),(27317392801317142,17));
  ((94870311154106612,17),(98339927842929165,18),(30048571470894736,17));
  ((93716438496562193,17),(25583182684886985,17),(2372192907905627,16));
  ((9017729040826381,16),(40517350688951259,17),(15046613830765776,17));
  ((81757471019988692,17),(55360215098922738,17),(15841796508499789,17));
  ((69596385679455697,17),(68090520094943996,17),(22804038536111987,17));
  ((54439745898212222,17),(79652882263069513,17),(26300806332195803,17));
  ((39016501550519511,17),(88597746885783468,17),(25062957796735735,17));
  ((2268786365905904,16),(94366608320786227,17),(24087425695147843,17));
  ((62243606197604523,18),(97745590092157419,17),(20175652465561389,17));
  ((-10432249030866941,17),(97394263573665474,17),(2013766627743527,16));
  ((-25987351191124192,17),(94007508940523765,17),(22073645844457132,17));
  ((-41590050082332902,17),(88182648471631853,17),(22228095795133834,17));
  ((-56220673307837121,17),(795663860207523,15),(22548306109552499,17));
  ((-68429708207070716,17),(68315881905684084,17),(25501280637328516,17));
  ((-78473650984065868,17),(54595605826459537,17),(29346310256536107,17));
  ((-86307661238087163,17),(39349026117984881,17),(31664518868565311,17));
  ((-91690338854474374,17),(2355337584295826,16),(32219873481316108,17));
  ((-94077143666239804,17),(7403800083197988,17),(33085869853000871,17));
  ((-94688203054399822,17),(-10598981009859022,17),(30361254978696067,17));
  ((-90908175308807326,17),(-29586078613740713,17),(29332023699102427,17));
  ((-82791020720411534,17),(-47102626449489182,17),(30446501763458317,17));
  ((-72847859060933129,17),(-61714093179043517,17),(29741555664200858,17));
  ((-61315454143631209,17),(-73269045584065207,17),(29530696611499574,17));
  ((-48287625456581029,17),(-81963109263873124,17),(30827811267803978,17));
  ((-36373198029129733,17),(-90084089740922735,17),(23703317081857808,17));
  ((-20018981792065837,17),(-95549774705931079,17),(21667508432091354,17));
  ((-13302576755447168,18),(-97366179355230231,17),(22760877230058418,17));
  ((17775239052411415,17),(-9600535608959988,16),(2161047150662741,16));
  ((37020891117088323,17),(-9141503661538859,16),(16514984150881093,17));
  ((54006080629015119,17),(-83132427971549561,17),(13127934896526641,17));
  ((6626789528621454,16),(-72737379048125317,17),(1782806056599105,16));
  ((76701164154477663,17),(-60246591610199729,17),(22074410902709987,17));
  ((87094498372031248,17),(-46119772354615374,17),(16956265841355023,17));
  ((93571382734968389,17),(-34314868578673074,17),(81783939434618758,18));
  ((976917613438259,15),(-18312340646676994,17),(10998997480726422,17));
  ((98935716351440794,17),(27228053228692796,18),(14293717543067805,17));
  ((97692910487428386,17),(2012498820582117,16),(71470336651553487,18));
  ((93352390932167428,17),(35786958722514639,17),(-2150509856014966,17));
  ((85473030341857359,17),(5179414983978764,16),(-34244892398077278,18));
  ((75128651996702756,17),(65945618242179971,17),(26193670638135557,18));
  ((62578969092014847,17),(77561861602295623,17),(82480453543242654,18));
  ((48715898944887359,17),(86997242345066483,17),(76315800687207253,18));
  ((3301312944795381,16),(94168028017626693,17),(65204128185352636,18));
  ((1697773032794159,16),(98478903149058539,17),(36962558718304526,18));
  ((-33606395081634882,19),(99993860154896153,17),(1055931978885096,17));
  ((-17175841626070396,17),(98504230526811476,17),(13809535679844781,18));
  ((-33544446253437904,17),(9413048184300199,16),(37712747916967868,18));
  ((-49580491477155408,17),(86755308669436093,17),(39104069551119058,18));
  ((-63366044824474266,17),(77261295826403631,17),(39289350373432459,18));
  ((-74652519556837393,17),(66041272569406251,17),(80963968053325716,18));
  ((-84431440769890997,17),(52183414585608323,17),(12174688977830588,17));
  ((-92030384041775293,17),(36702819695916505,17),(13539255499930364,17));
  ((-96918443738071436,17),(20633546929203483,17),(13456299807548841,17));
  ((-98741194815150646,17),(35648497117025481,18),(15410006262472531,17));
  ((-9777150321736231,16),(-15663018709545895,17),(13978662436790093,17));
  ((-93202827285140755,17),(-33861107267886009,17),(12909624341898562,17));
  ((-85981441962410154,17),(-49451555394909535,17),(12717519690917978,17));
  ((-76699181981724396,17),(-63204483403159217,17),(11064753095939107,17));
  ((-65359251797238782,17),(-75028085642766207,17),(99475911298605363,18));
  ((-52895485355452698,17),(-8425157887846243,16),(10185238607775172,17));
  ((-39543403557954093,17),(-91730911056103315,17),(46646748943571278,18));
  ((-22956902241037147,17),(-97223968443612441,17),(45255496429623641,18));
  ((-33911715688654823,18),(-99705321411055226,17),(68810491720878372,18));
  ((17108589451283313,17),(-98347712411465527,17),(59180765810445658,18));
  ((35994879775472099,17),(-93294106261674614,17),(7605042962893974,18));
  ((53549611038165434,17),(-84387008056808033,17),(-33573842320187459,18));
  ((69476032202589777,17),(-71921819002307308,17),(-57697554892299791,19));
  ((80276878415002051,17),(-59543742408370581,17),(3188343135327458,17));
  ((87535673138665904,17),(-47994068148313768,17),(-58374095912191282,18));
  ((92963868822180307,17),(-34515938392480566,17),(-12898414262960325,17));
  ((97817264795680248,17),(-1925012433916693,16),(-78240284264811819,18));
  ((99956809533927726,17),(-23984080897714043,18),(-16981950515221889,18));
  ((98442248176828306,17),(15233920288438046,17),(-87778953364266693,18));
  ((92933041814985606,17),(31760995611869486,17),(-18833186049018436,17));
  ((84720343769744932,17),(48877950465609532,17),(-20818484810803609,17));
  ((75135061674658454,17),(63710481256590512,17),(-17195844998106349,17));
  ((64460168662891104,17),(75574690019271906,17),(-11547851940624999,17));
  ((51264497953417043,17),(85115731004716133,17),(-11281116306328139,17));
  ((36339572218704452,17),(92404929668985136,17),(-11864420079863779,17));
  ((1928796222003796,16),(97081272215491399,17),(-14254862272924487,17));
  ((1577324571553753,17),(98565585169679659,17),(-16802900563729972,17));
  ((-16823715319689422,17),(97139206958529967,17),(-1676117759317434,16));
  ((-34339128183772449,17),(92838230260286725,17),(-1420870429407369,16));
  ((-49892930494083287,17),(85425046168816354,17),(-14603320641832393,17));
  ((-63530056285893266,17),(75620196885297941,17),(-1566900671197794,16));
  ((-7522479399194506,16),(64879289624134451,17),(-11485127197254062,17));
  ((-85191523612781905,17),(52002976742737683,17),(-6172091576370755,17));
  ((-93020001666915375,17),(36381973795350098,17),(-4861200740714286,17));
  ((-98084019940152145,17),(18934953391741688,17),(-45817652092189229,18));
  ((-99981275310601658,17),(75811650424354882,19),(-17804063108375935,18));
  ((-98449660971381359,17),(-17211791379786215,17),(-33791259400599627,18));
  ((-94082043096810475,17),(-33381509190486475,17),(-5851838249248164,17));
  ((-87322656356646033,17),(-48299700949384644,17),(-64724473747662686,18));
  ((-77971149721480626,17),(-62107251891117576,17),(-79491555302260167,18));
  ((-66420015295568058,17),(-74130028517199131,17),(-96498932727646633,18));
  ((-53465580566645021,17),(-83846618178438337,17),(-10544017958575565,17));
  ((-39398865803532046,17),(-90694877108628391,17),(-14905322527408307,17));
  ((-23172468518993675,17),(-96428831752874433,17),(-12826422319262765,17));
  ((-52669509133164497,18),(-99402211989782563,17),(-95634449658605167,18));
  ((13672454076271628,17),(-98604212009350278,17),(-95012301070622654,18));
  ((32454494066321238,17),(-93432896471414451,17),(-14730908724890901,17));
  ((49911990686105895,17),(-84558320685261823,17),(-18938943704401781,17));
  ((66252831088704633,17),(-73032551118683708,17),(-16637573435703437,17));
  ((78355752341139073,17),(-59362508191027774,17),(-18343083064856888,17));
  ((82063772522485046,17),(-49300289012360188,17),(-28896690860297258,17));
  ((89020469436864236,17),(-34066202884400931,17),(-30246484792106898,17));
  ((94921161526479758,17),(-16528721638008873,17),(-26772643789457096,17));
  ((97855229351763973,17),(-14660062754363727,18),(-20547625510361403,17));
  ((95144178420079495,17),(14464413496884565,17),(-27172891913803043,17));
  ((87866532576343948,17),(32309195501831178,17),(-35150936531403276,17));
  ((78796182432768858,17),(48932683476741662,17),(-3737317382544359,16));
  ((69045420476494079,17),(63530838544792023,17),(-34591364023693838,17));
  ((58314386220603476,17),(75220796874577722,17),(-30680027334860854,17));
  ((44966476997348626,17),(83980357384314974,17),(-30418999326895185,17));
  ((29070087664629629,17),(90924942394816155,17),(-29792362337856193,17));
  ((10238037197873705,17),(94079357102149197,17),(-32314968073344025,17));
  ((-94720395611794447,18),(93815700409762492,17),(-33300072419998433,17));
  ((-27755146858679075,17),(90458086992331399,17),(-32357167993212277,17));
  ((-43060760708740276,17),(84125100600830627,17),(-32691563683689634,17));
  ((-5719295938924398,16),(74764091215505757,17),(-33753459985901069,17));
  ((-70245826438332026,17),(63464037464333922,17),(-32215521363488037,17));
  ((-81211109777212176,17),(52301309660057416,17),(-25871386831717708,17));
  ((-89954467503845048,17),(37520182029334964,17),(-22370286466320796,17));
  ((-95627718740578393,17),(19867842183061543,17),(-21461785933649385,17));
  ((-98108842899594861,17),(13266344904036767,18),(-19310489010677259,17));
  ((-96301303346642575,17),(-15250792125737822,17),(-22214236725025277,17));
  ((-91890631520023069,17),(-30450356176674936,17),(-2507763241546091,16));
  ((-85188551182345318,17),(-45886754009285335,17),(-25245129311300185,17));
  ((-75299381953908961,17),(-60394090466523132,17),(-26125790209690258,17));
  ((-61689903018144254,17),(-73595851002528034,17),(-27892769328728373,17));
  ((-47679068404704655,17),(-8204135631477727,16),(-31558236485761532,17));
  ((-31682047415531506,17),(-88970416435646071,17),(-32871155605298291,17));
  ((-16080248193168478,17),(-94082482305140858,17),(-29831395229673058,17));
  ((40858104610474264,19),(-96426759391924566,17),(-26489868529319882,17));
  ((18166784965030458,17),(-94554204671879372,17),(-27008707908796531,17));
  ((36059352163699981,17),(-87623858050445536,17),(-31965334690718283,17));
  ((53057747559027035,17),(-77250381373868904,17),(-34889167395545084,17));
  ((66247308687903139,17),(-6688870346868645,16),(-33722328506314703,17));
  ((70176985248316304,17),(-5542990655524106,16),(-44751717293695448,17));
  ((77885580210816874,17),(-4115312262864263,16),(-47331352116079606,17));
  ((85924889783524994,17),(-24381963970129208,17),(-44971470385661205,17));
  ((90664774363041778,17),(-71704463278206315,18),(-41575033243024184,17));
  ((90143562372433994,17),(88123846942690515,18),(-42384903430435161,17));
  ((83831015176667434,17),(24114122223869161,17),(-48896523432874583,17));
  ((74692833097053046,17),(41434562009623804,17),(-52001516852938201,17));
  ((63572564137583143,17),(57416214055967463,17),(-51593676477376582,17));
  ((52366628801054615,17),(69432535885596358,17),(-49364553563340685,17));
  ((39006215264629168,17),(78853530925341009,17),(-47546144232058385,17));
  ((2276364394261948,16),(85887860825320617,17),(-45881280249182238,17));
  ((34967368875557923,18),(87883542571304818,17),(-47584196707067156,17));
  ((-1498174557038579,16),(85866043700498418,17),(-49016016146646607,17));
  ((-30556938542107426,17),(80935651451407242,17),(-50156692784415025,17));
  ((-45278276060259898,17),(73633819301100212,17),(-50278607500047345,17));
  ((-59619481776614136,17),(6305130829292509,16),(-49699596731145534,17));
  ((-73203130657399562,17),(50481070613497969,17),(-45748914431609417,17));
  ((-83672441968033739,17),(37451368815027242,17),(-39953941344838967,17));
  ((-89790720799743062,17),(21400951249189451,17),(-38465903653656747,17));
  ((-92899848276576047,17),(43064542341862057,18),(-36756940053791343,17));
  ((-90540614769421102,17),(-11402324690558717,17),(-40894792685944259,17));
  ((-8611944452028123,16),(-26813570301191475,17),(-43179552142435018,17));
  ((-79677261203507888,17),(-43636581467145519,17),(-41801708158508899,17));
  ((-67814855027327525,17),(-60815202328531059,17),(-41263259727781826,17));
  ((-52154302014095766,17),(-7165381285533533,16),(-46321268168251489,17));
  ((-3518256022456705,16),(-79711256212609682,17),(-49074464735261314,17));
  ((-18832594664282479,17),(-84820815863201127,17),(-49505177249574284,17));
  ((-39657958060440396,18),(-89052972390677632,17),(-45319317867880243,17));
  ((12758164750861767,17),(-89265677290100154,17),(-43230407008604088,17));
  ((29278513923287491,17),(-836206816251575,15),(-46371868918428416,17));
  ((44941632160682954,17),(-7429260064215214,16),(-49607047771053281,17));
  ((56411400138741397,17),(-62494568322804744,17),(-53964644578956478,17));
  ((58610369680795327,17),(-49751916325094958,17),(-63949756745911523,17));
  ((69746021462647301,17),(-36730752030089714,17),(-61533278357617216,17));
  ((77694311607307298,17),(-20074830905353919,17),(-59670722368579387,17));
  ((81148088189623413,17),(-37499578529339363,18),(-58317455356611025,17));
  ((78111205385867089,17),(11090546729660307,17),(-61446231506937088,17));
  ((71585256314566015,17),(27913746978083198,17),(-64002920308540889,17));
  ((61174137460743427,17),(45021951442806057,17),(-65044206461572573,17));
  ((47644129989191042,17),(58792294651201893,17),(-65372035054901911,17));
  ((34145369669692915,17),(6963624321019467,16),(-63125964243650423,17));
  ((18605447219419607,17),(77246439184893279,17),(-60719230619466646,17));
  ((10958714948448319,18),(78150712309344794,17),(-62380006662462062,17));
  ((-15089048548044892,17),(74371755166595521,17),(-65124209379882048,17));
  ((-30312785088021205,17),(6846730816820088,16),(-66282446940408379,17));
  ((-45462118484380692,17),(61151502880162067,17),(-64758701951240982,17));
  ((-61026869114094251,17),(49740302116045026,17),(-6165730768964679,16));
  ((-7390221485639884,16),(35584599302371694,17),(-57203137429762629,17));
  ((-80925584041137866,17),(20333383950177308,17),(-5511445676712603,16));
  ((-83731326219303048,17),(46084648426237329,18),(-54477766669999916,17));
  ((-80296471289603921,17),(-10370429225601359,17),(-5869353368229423,16));
  ((-76492066052737284,17),(-27994967182253944,17),(-58010737311709826,17));
  ((-69569943933975409,17),(-46635419527830596,17),(-54636622758793896,17));
  ((-56549039279895208,17),(-59036392203496169,17),(-57592625848417833,17));
  ((-39501462280904509,17),(-67890248212601778,17),(-61891426508859848,17));
  ((-21898598789615575,17),(-72775624836343422,17),(-64993536607352298,17));
  ((-53306051401728116,18),(-77034705407886361,17),(-63539269838106638,17));
  ((98547905800053556,18),(-79719791991834799,17),(-59562050564120361,17));
  ((25518877880855101,17),(-742436622925984,15),(-61940822412078189,17));
  ((38933711215078276,17),(-65128341717700577,17),(-65134209415047861,17));
  ((43660811140155747,17),(-51114239406679485,17),(-74034236002408416,17));
  ((56505583342037702,17),(-33728352108215015,17),(-75296197216328919,17));
  ((65256492181556291,17),(-18872189141449838,17),(-73385493833371629,17));
  ((67028101112991401,17),(-32964801105612763,18),(-74137486334966018,17));
  ((64000413728645644,17),(12483898030221166,17),(-7581622077453628,16));
  ((57880810519689219,17),(29027556578427299,17),(-76205070255659735,17));
  ((46396598924002558,17),(44267091458490704,17),(-76731872270203749,17));
  ((31128635577440072,17),(56290076367376884,17),(-765665419725993,15));
  ((15792197238111205,17),(64799238166806716,17),(-74509497645562295,17));
  ((-28990505226742136,19),(64292423584313596,17),(-76592429291124242,17));
  ((-1655752542570246,16),(5916833833607289,16),(-788983909235494,15));
  ((-3281810846664267,16),(52456313262617948,17),(-78557666434064655,17));
  ((-48781844271989167,17),(44995510771537656,17),(-74804650121712601,17));
  ((-62346874826857568,17),(32406487874316747,17),(-71152559637555679,17));
  ((-69183326367796727,17),(16583839381172924,17),(-70275483805281491,17));
  ((-69724353412097018,17),(18247599436073455,18),(-7166020368665722,16));
  ((-67634944160603805,17),(-15645700035976892,17),(-71977263068112263,17));
  ((-63915198635102688,17),(-34387289447363034,17),(-68792163128503547,17));
  ((-53074304616087187,17),(-4695546235258472,16),(-70557088550859193,17));
  ((-38601481242978514,17),(-5561603789122499,16),(-73598790581977669,17));
  ((-20441007822352494,17),(-60720626646235387,17),(-7678001497066157,16));
  ((-1590913025368149,17),(-64247266147992599,17),(-7661434453321857,16));
  ((14081008493023373,17),(-64857658528407336,17),(-74801131876676275,17));
  ((26444022468338596,17),(-55818205450742953,17),(-78645035545498054,17));
  ((40037235188479958,17),(-36981038427011736,17),(-83841651911935888,17));
  ((47585317403210547,17),(-20100498000604114,17),(-85624806848035673,17));
  ((50773232680996228,17),(-49218917549077611,18),(-86010777375131242,17));
  ((4834266499798402,16),(11282190697575993,17),(-86808403475448281,17));
  ((42265704219864397,17),(27430504232099584,17),(-86378108826089162,17));
  ((29758035282727002,17),(40136611197711775,17),(-86622813263456711,17));
  ((14631612397759119,17),(48758257149624024,17),(-8607292418857907,16));
  ((-23146936486125261,18),(48108643214984964,17),(-87636753941062617,17));
  ((-19916176316505485,17),(42094792536966746,17),(-88495052755504899,17));
  ((-37242774848376209,17),(34507822542002714,17),(-86152109115231801,17));
  ((-50670926901659652,17),(24564282454039582,17),(-82638085617013346,17));
  ((-53867707322640535,17),(89404452425278752,18),(-83775524747193919,17));
  ((-54266049657718818,17),(-76543682640751329,18),(-83645720159634673,17));
  ((-52770537958645436,17),(-24716705155327057,17),(-81267181628378071,17));
  ((-41907857920558478,17),(-36456676552492129,17),(-83154327483644863,17));
  ((-2698066349953942,16),(-4511214608338982,16),(-85070194973771618,17));
  ((-77149560841580533,18),(-49790552212937256,17),(-86379282023817971,17));
  ((88561377328989777,18),(-47265476610694052,17),(-87678637906960299,17));
  ((23143543460176816,17),(-4000173984514992,16),(-8868053453530742,16));
  ((28815030126395891,17),(-22709343752623937,17),(-9302676897076485,16));
  ((32405414032955154,17),(-65418591317384742,18),(-94377397826244624,17));
  ((31230008726578484,17),(10523636487341111,17),(-94413662305940316,17));
  ((22686673662124243,17),(24650767007760604,17),(-94221306104709557,17));
  ((7443426675586301,17),(326939253756801,15),(-94210947574337833,17));
  ((-10143528913601917,17),(29248020318495432,17),(-9508765497491144,16));
  ((-27450937923497221,17),(22016145114176586,17),(-93604141796353335,17));
  ((-37143709415419818,17),(94671257852902493,18),(-92361888136981829,17));
  ((-37895181750560253,17),(-8599117358204722,17),(-92141252328974932,17));
  ((-32649657309628544,17),(-22753774343200248,17),(-91740207274142027,17));
  ((-16859336597705799,17),(-3301936532137249,16),(-92873485361856656,17));
  ((58163311253395088,19),(-31693117137333077,17),(-94843070537818885,17));
  ((12305834959329659,17),(-21854225365148944,17),(-96803715112814859,17));
  ((1534385608288942,16),(-12738999604692025,18),(-98807607295178912,17));
  ((72914971211270913,18),(13737795380293624,17),(-98783131393076307,17));
  ((-94477494675092213,18),(11723793571675502,17),(-98859965073268763,17));
  ((-21023791373450132,17),(32897895977194351,19),(-97764471916589779,17));
  ((-14558426797748639,17),(-15871144220412819,17),(-97653258984579983,17));
  ((-25526990948202362,19),(-78484286566841713,18),(-99691208262786402,17))].

(** womersley/womersley_422.hpp:1-442. *)
Definition wo_422 : list lit3 := [  ((0,0),(0,0),(1,0));
  ((16547874131655493,17),(0,0),(98621335732806248,17));
  ((13736349753649288,17),(17279680685204118,17),(9753320117202553,16));
  ((-23435012345713113,18),(18684424430255608,17),(98210998801934757,17));
  ((-17811891298914967,17),(13100104713752034,17),(97524990565723046,17));
  ((-16898488416868346,17),(-3695477597656293,17),(98492560808165541,17));
  ((-19735945704854357,18),(-17170635928410272,17),(98495046506336226,17));
  ((14408151099841893,17),(-18693224449841273,17),(97174937826334529,17));
  ((30211773092072824,17),(-1417517170670938,16),(94267243906451459,17));
  ((32487548319690635,17),(42775708823357628,18),(944788949529066,15));
  ((30524277551139961,17),(21424009030840463,17),(92786207579722968,17));
  ((19739377249223589,17),(34494312358539964,17),(9176327915198057,16));
  ((31944951083347307,18),(36038985904262399,17),(93225461629295259,17));
  ((-13299193694339331,17),(33883781194478874,17),(93139791813408757,17));
  ((-28328474370929135,17),(27197740583804325,17),(91966191869358682,17));
  ((-35123079409723429,17),(10435927564378301,17),(93045476561997953,17));
  ((-34832157034134381,17),(-57912281723934478,18),(9355844436823797,16));
  ((-22938295794817645,17),(-19531150972775105,17),(95353913017285863,17));
  ((-11186699084865404,17),(-31172441150308428,17),(94356434207293083,17));
  ((60583038191333489,18),(-35769031301397114,17),(93187302539534578,17));
  ((23269579733942278,17),(-33805021283785536,17),(91190718798617376,17));
  ((38736148594413522,17),(-30960997109591748,17),(8683851363336067,16));
  ((45233631271159946,17),(-1388666083254432,16),(88096987763184165,17));
  ((47231467540429733,17),(4972584749911603,17),(88002624249974948,17));
  ((46423384145204788,17),(23067045898555902,17),(85514798707712947,17));
  ((39428930791515876,17),(37582807309953858,17),(83862339648621353,17));
  ((26610624148002443,17),(48418179778254233,17),(83351991874306175,17));
  ((95038961415127049,18),(51570719510156482,17),(85147735421067461,17));
  ((-71677562741823062,18),(5152324013992674,16),(8540479492087879,16));
  ((-23394450701977598,17),(47070410832427972,17),(85071006226676238,17));
  ((-3868323848212688,16),(3954844277241254,16),(83303827852098777,17));
  ((-46333271848978003,17),(2461726062351782,16),(85130596140062953,17));
  ((-51039976732562975,17),(73930976560809838,18),(85675334152759974,17));
  ((-5103351249079251,16),(-97729579883116466,18),(85440446481808729,17));
  ((-40470386904701766,17),(-2322927373108867,16),(88445172992707166,17));
  ((-30307826948157512,17),(-36454348283632698,17),(88048373732262331,17));
  ((-17633628086697692,17),(-46527020459283791,17),(86742674201810344,17));
  ((-40221435359964241,19),(-49261713403141139,17),(8702368537473314,16));
  ((19161718145248277,17),(-49792877129107982,17),(84578353879273493,17));
  ((35661743056653694,17),(-48094192207215708,17),(80094873481993867,17));
  ((51089087742446593,17),(-38375227924536698,17),(76923643929447683,17));
  ((57192113761818442,17),(-21897680246769555,17),(7905411895192721,16));
  ((59763387968943138,17),(-30640737266771099,18),(80118343159797489,17));
  ((60704128956926373,17),(15748761473046688,17),(77890854659876041,17));
  ((60943628945596751,17),(30961118874644317,17),(72988240210129507,17));
  ((51342200469256449,17),(44200439422705712,17),(73554738839957856,17));
  ((38983450346190873,17),(56742795903302401,17),(72529619550789315,17));
  ((22615478381424917,17),(63802778174687269,17),(73605336999234994,17));
  ((65197644534486204,18),(66016024507068372,17),(74828986226954153,17));
  ((-10457775905804148,17),(65410137795143519,17),(74914276321168038,17));
  ((-26965305482668356,17),(60507456066128706,17),(74911414755241945,17));
  ((-42752605931761278,17),(53089568766687567,17),(73169067058495985,17));
  ((-55313024097048868,17),(43312800080929498,17),(71165094775379345,17));
  ((-59061921129777561,17),(28086301641575306,17),(75649515084753705,17));
  ((-64213517284682275,17),(99642590242599957,18),(76008800411710631,17));
  ((-6585144756591389,16),(-69677960026141461,18),(74933548376809489,17));
  ((-586586405017688,15),(-23765496128235533,17),(77423285181288137,17));
  ((-48116864603910259,17),(-37458274697775817,17),(79256829342050628,17));
  ((-3736425386382311,16),(-50882854724646742,17),(77555448733601395,17));
  ((-23385585778720347,17),(-59904006587391911,17),(76580835543651649,17));
  ((-61932380194160974,18),(-62578178633000803,17),(7775355530013468,16));
  ((1248519360559166,16),(-62073001630711511,17),(77401953523051203,17));
  ((31390440048144513,17),(-6269636023175259,16),(7130081827913447,16));
  ((47383009926956182,17),(-56149594708427775,17),(678385833014021,15));
  ((61165939788002088,17),(-44368785122749077,17),(65499150502749459,17));
  ((68229379723845929,17),(-25943775467147084,17),(68349632457018372,17));
  ((71392681898283739,17),(-74539307820162909,18),(69624161662941253,17));
  ((73153860440965712,17),(93582636494402946,18),(67534699259353159,17));
  ((75980759103332607,17),(23097700139048391,17),(60773518035143759,17));
  ((69899091133675206,17),(38876914584823741,17),(60022517200218173,17));
  ((59184234606595676,17),(52935001605779408,17),(60787432739239566,17));
  ((4597768903373799,16),(64994633281420267,17),(60512393406066722,17));
  ((29738793224685695,17),(73485672236264776,17),(60954574508593318,17));
  ((13828538112522012,17),(78430603129838328,17),(60476541124309691,17));
  ((-17049575192000805,18),(78246541121161239,17),(62246059493209249,17));
  ((-19109038121407451,17),(75480375810435263,17),(62749960395127402,17));
  ((-35898357886339854,17),(69385530648505001,17),(6242560402342644,16));
  ((-50527701287752058,17),(63100694597013585,17),(58866405903113517,17));
  ((-62691757469782772,17),(53115902573738549,17),(5699512645066287,16));
  ((-70150517336606588,17),(38059109315868611,17),(60252876408427369,17));
  ((-72639298154282028,17),(21900377827812467,17),(65145267016509956,17));
  ((-7757177896495574,16),(51211899162303579,18),(62899861065458262,17));
  ((-76526157297983943,17),(-12548309035447969,17),(63137050846195797,17));
  ((-69657806361421681,17),(-2833820913402687,16),(65914610792986095,17));
  ((-58840993323050728,17),(-43642003984786248,17),(68066974319038165,17));
  ((-46539537668239278,17),(-58403290889111326,17),(66506594011033104,17));
  ((-32753726750041767,17),(-69756560415233981,17),(63727667955287759,17));
  ((-17108069353830874,17),(-73959709769154458,17),(65094356851012436,17));
  ((92821711877981855,19),(-74122729173327073,17),(67118994575887458,17));
  ((19193285837298496,17),(-73478267525068397,17),(65058143074347241,17));
  ((36660602227176564,17),(-73190474250699478,17),(57438268804851988,17));
  ((5235874164403902,16),(-64987457128630699,17),(55092581981671196,17));
  ((66053722426570982,17),(-53812965090017584,17),(5235523413961648,16));
  ((7453794759529776,16),(-36390079155744831,17),(55855675694769558,17));
  ((8025630099713309,16),(-18134982235366459,17),(56833516252124661,17));
  ((83581685737911782,17),(-21132137643570977,18),(54860150717939948,17));
  ((86271762415985209,17),(11415777533352529,17),(49263201610825152,17));
  ((83783328767284038,17),(29500439694881736,17),(45935584011546426,17));
  ((75932476727133902,17),(46099520564246854,17),(45924864527071285,17));
  ((64585956132206868,17),(60051035473407077,17),(47143688963213892,17));
  ((51605904981362183,17),(72219869743848542,17),(4605562924590399,16));
  ((36507558455346945,17),(80279087153240791,17),(47143041283648607,17));
  ((20267052858420057,17),(86900431383748555,17),(45139357480500508,17));
  ((47351144573305186,18),(8921221040064734,16),(44930615469928858,17));
  ((-10893390809677622,17),(8676167173383571,16),(48515423883727593,17));
  ((-28259417695693095,17),(82320090562857762,17),(49242339518175254,17));
  ((-43978884160719933,17),(77058630413029072,17),(46128355995484693,17));
  ((-58420054364110152,17),(69202093660773967,17),(42404804928921463,17));
  ((-70456614518607652,17),(57755536645807426,17),(41233038419829326,17));
  ((-78155353309816245,17),(43346542204130595,17),(44864440573390874,17));
  ((-82357443006551745,17),(26773234098571552,17),(50004454974788648,17));
  ((-86074436659565257,17),(10616967557818152,17),(49784248047095436,17));
  ((-86954725856479398,17),(-74786674946742071,18),(48815419528347975,17));
  ((-83395038180003833,17),(-24122172399958683,17),(49632533742116919,17));
  ((-75005060240794708,17),(-38400832695079479,17),(53848091763768868,17));
  ((-63527112202333502,17),(-52881325795681033,17),(56283846682002558,17));
  ((-50996443974491867,17),(-67455490718427935,17),(53377143740486832,17));
  ((-37100765669585545,17),(-78566881354617668,17),(49505336489513257,17));
  ((-21400005102740791,17),(-8430353890339628,16),(49345244046070119,17));
  ((-5556342543880078,17),(-84323171205799829,17),(53467091330391625,17));
  ((12011806263264392,17),(-83737261572032451,17),(53327174448969439,17));
  ((28688850007343453,17),(-83231506125471366,17),(47428538595889408,17));
  ((4712053447589315,16),(-77505408110268414,17),(42101863906089759,17));
  ((62174478987128157,17),(-67728461908013871,17),(39334331191134719,17));
  ((74925833030762512,17),(-54000014699329535,17),(38342117274851845,17));
  ((82123776047959252,17),(-38550587392061186,17),(42065872383105141,17));
  ((8796116380633221,16),(-22138437096142236,17),(4210372031989269,16));
  ((92333349325662861,17),(-81800815010398598,18),(37518513682466947,17));
  ((93936678704878984,17),(69363499285769126,18),(3358254671052609,16));
  ((91176701495325774,17),(24645884157534204,17),(32854063653156573,17));
  ((84284197492431578,17),(43701589336969626,17),(31406132243236418,17));
  ((74094555886070057,17),(59401861106959652,17),(31327554725441231,17));
  ((62406717025709724,17),(7168115542870197,16),(31100058303470479,17));
  ((47978295490500639,17),(82272806652032138,17),(30483904727307209,17));
  ((32313846363745596,17),(89365817173946993,17),(31137855642496065,17));
  ((15877837285078739,17),(948382947435081,15),(27451632616149546,17));
  ((26624772945152151,19),(96086658127827185,17),(27699878013677703,17));
  ((-15412509806406369,17),(93041974326047971,17),(33251248923588683,17));
  ((-31908714227265883,17),(88737451284930369,17),(33279102989973908,17));
  ((-48435489092590589,17),(82312090357915124,17),(29643265293687793,17));
  ((-63594575198658354,17),(72688879659125172,17),(25924057923161004,17));
  ((-75828826952096362,17),(60424962603583066,17),(24470653800514053,17));
  ((-8425790894408699,16),(45632885357376113,17),(28604974293477597,17));
  ((-89335500010265578,17),(2933298477329192,16),(3404033551840614,16));
  ((-93371632196169407,17),(13578455442389545,17),(33126482590554374,17));
  ((-93939368066963591,17),(-26376049991250015,18),(34182424826921376,17));
  ((-91887702706694463,17),(-21005861374483586,17),(33397662780531728,17));
  ((-85869715234157773,17),(-36858858032562042,17),(3560641220538921,16));
  ((-76600538072569047,17),(-49887863552852613,17),(40540826793799595,17));
  ((-65653953784458341,17),(-6280872583942656,16),(41768676192763887,17));
  ((-53712426302134153,17),(-75410477479314475,17),(37791998453106584,17));
  ((-39288221713752525,17),(-85537645252933647,17),(33760137427953424,17));
  ((-2325851999928682,16),(-91483064555196214,17),(33013484321297815,17));
  ((-69157332693526419,18),(-92906802916194975,17),(36338665430068778,17));
  ((87781350557525284,18),(-9185474623793074,16),(38544129754196271,17));
  ((25710808129586188,17),(-90789886666349973,17),(33108168545465211,17));
  ((42172277868722696,17),(-85743526152843974,17),(29488077289640352,17));
  ((5917805090936511,16),(-76565251604111251,17),(25213499109955556,17));
  ((72788036855981619,17),(-64599152132289384,17),(22996765738720637,17));
  ((83330089076811309,17),(-50333085471367678,17),(22862125040833114,17));
  ((89769066278554632,17),(-35499109801865081,17),(26102259341895917,17));
  ((9507599312992373,16),(-21378712372120537,17),(22438943550640625,17));
  ((98162374118372053,17),(-65214671754933284,18),(1793373283295264,16));
  ((98009280784758879,17),(10567948784820297,17),(16807716636584244,17));
  ((94582543278409004,17),(27643232199215995,17),(17029216675117978,17));
  ((88436875435058371,17),(43637017877157758,17),(16574973124339706,17));
  ((78559017185236757,17),(59907184159149329,17),(15479344463233694,17));
  ((66770698566556674,17),(73137894785093516,17),(13875235469663807,17));
  ((53130271250354144,17),(83417332383883847,17),(14789284459379282,17));
  ((35651259787145045,17),(92228728180821917,17),(14928140330850306,17));
  ((18897463237805096,17),(9756564908211125,16),(11127892988437955,17));
  ((27641334159445616,18),(99693789320423387,17),(73149119881169275,18));
  ((-11895496469401874,17),(98240474194876704,17),(14398138550250603,17));
  ((-28713891328870433,17),(94178325861995049,17),(17491580334140613,17));
  ((-45799042497453141,17),(87618286735395279,17),(15016109212127368,17));
  ((-61602824306136117,17),(78022336038860041,17),(10844681486633298,17));
  ((-75165657998114688,17),(6547146424850756,16),(79756646661488351,18));
  ((-85739538987024688,17),(50296791689402953,17),(10907071102971584,17));
  ((-92666356737153832,17),(33747296546425964,17),(16554948047944207,17));
  ((-97121877072304708,17),(18247600629993851,17),(15309019080280101,17));
  ((-98719321187437548,17),(24566291375881177,18),(15762632951759539,17));
  ((-97293036617728923,17),(-13897067578392422,17),(18464466914125985,17));
  ((-93095619159226239,17),(-32040575259351367,17),(17510203608472072,17));
  ((-85783312974617598,17),(-47140906255128373,17),(20468467762487766,17));
  ((-76330917811870058,17),(-5971914452411895,16),(24641728090881349,17));
  ((-65432703800969627,17),(-71686570469762489,17),(24074818536768899,17));
  ((-51839107265518791,17),(-83037677676166444,17),(20431618733304643,17));
  ((-36079941883606886,17),(-9179202017176521,16),(16506448026810583,17));
  ((-19891999179893244,17),(-96642678775474722,17),(16263486948607764,17));
  ((-3581594629805019,17),(-98040796051804902,17),(19369421504942969,17));
  ((12609159591608146,17),(-97044127408510239,17),(20577814021761079,17));
  ((28082216043863656,17),(-9478766364070812,16),(15056160320670947,17));
  ((44554542504100486,17),(-88502836178976174,17),(13495952375716561,17));
  ((59396516753041251,17),(-79882578503333745,17),(95303436068387093,18));
  ((73540578352382446,17),(-67386704694566324,17),(71284897421831153,18));
  ((84223568862037568,17),(-53656274554385275,17),(52339897865818365,18));
  ((91682679404512923,17),(-39310081557102311,17),(70002703650121512,18));
  ((96711842975755768,17),(-25118174554980105,17),(39870710124488194,18));
  ((99640664721304617,17),(-84352306017158929,18),(76473432800949585,19));
  ((99573544897149513,17),(92248852473989992,18),(-10319296327372615,19));
  ((96581212736238686,17),(259144234046989,15),(-71554594499562306,19));
  ((91357893399911527,17),(40632476763374442,17),(-16544321092864644,18));
  ((83297964474283248,17),(55327495996065157,17),(56329499060441849,19));
  ((71214979319925342,17),(7016819195749745,16),(-22026252242255073,18));
  ((57360873351834751,17),(81864008882465034,17),(-28309464859761761,18));
  ((41951387550109182,17),(90774080055359807,17),(38402177499861564,19));
  ((24814559942828623,17),(96762158785757213,17),(-46176013214301523,18));
  ((77596120118624629,18),(99234819491623871,17),(-9604114841576411,17));
  ((-10886637881510487,17),(99232980253049308,17),(-58563423512280124,18));
  ((-26559045481199467,17),(96404557255904166,17),(88229440702801368,19));
  ((-4295099007534538,16),(90303128210796746,17),(-7466504483267176,18));
  ((-58143188570786386,17),(81241179565970334,17),(-43863841090058128,18));
  ((-71569524008840546,17),(69424585645961245,17),(-76177517047083851,18));
  ((-83365297325608889,17),(5486917080148489,16),(-62929561710139623,18));
  ((-92256947206008499,17),(38565046151880206,17),(-11802150359612006,18));
  ((-9728444680821271,16),(22980803630133106,17),(-27602669677574493,18));
  ((-99683496515140468,17),(71396411046421165,18),(-34965765275315336,18));
  ((-99611174805922764,17),(-88037433600998485,18),(-32856754769257615,19));
  ((-96768731546214704,17),(-25140620924119661,17),(19395294497239136,18));
  ((-9068153609431665,16),(-42134764139199576,17),(12331514542705688,18));
  ((-8242119762440322,16),(-5643195743984778,16),(47096031325661689,18));
  ((-72140547346584816,17),(-68904833795772857,17),(69184758518096467,18));
  ((-59374451405024598,17),(-80266015506699251,17),(56605013055991416,18));
  ((-44054484253153942,17),(-89753575629428006,17),(1870315192997905,17));
  ((-27902287162220429,17),(-96003897078201761,17),(-21712017214049827,18));
  ((-11966302922938077,17),(-99281135754347338,17),(-25234437449297561,19));
  ((47004357722945665,18),(-99855070362884524,17),(26212261203325968,18));
  ((20151814673395504,17),(-979443809363028,15),(-89588412951992751,19));
  ((36908960204591668,17),(-92905644085748107,17),(-25039875455292921,18));
  ((51880288187951895,17),(-85279236474445985,17),(-59906196566446628,18));
  ((66395209840135738,17),(-74415125944970173,17),(-73529001678635714,18));
  ((7801981226632595,16),(-61520604573463056,17),(-11319191969520288,17));
  ((87034572894969431,17),(-47630931203632804,17),(-12501100498158216,17));
  ((9345497417616806,16),(-33192072930319677,17),(-12823965701767151,17));
  ((97551073382941866,17),(-16287788303965373,17),(-14781611346571766,17));
  ((98612710416715266,17),(19207529813700646,18),(-16487693964093753,17));
  ((96487184901583678,17),(18939976058480962,17),(-18207153997035636,17));
  ((9182757618538433,16),(33642140793502978,17),(-20878280933725324,17));
  ((85602342132519249,17),(48415012118876144,17),(-18116998177297364,17));
  ((76430534140451123,17),(62441167071841219,17),(-16108199952562935,17));
  ((6274416567768426,16),(7546081356097103,16),(-19205085007041198,17));
  ((47831154470441001,17),(86060672816120254,17),(-17485458428691897,17));
  ((32620561400574466,17),(92772294599090321,17),(-18143878547073333,17));
  ((15014222059038423,17),(95818312568769837,17),(-24360297872468792,17));
  ((-50004515062180475,18),(97209388458647483,17),(-22920084647089259,17));
  ((-23820445061329609,17),(95476829658307072,17),(-17797791870869623,17));
  ((-3951833499468857,16),(90237073116278732,17),(-1719220272841559,16));
  ((-54126268066996486,17),(81481910036069649,17),(-2076163389556539,16));
  ((-6670983940740014,16),(70511096910373849,17),(-24041267411156825,17));
  ((-78217354928808336,17),(57788820987781486,17),(-23291576949252907,17));
  ((-88345979321440016,17),(42883319990710989,17),(-18868195576418537,17));
  ((-94039831560950393,17),(27429222676964204,17),(-20103428148591754,17));
  ((-97027387485632677,17),(10825784953963835,17),(-21644594194473171,17));
  ((-97894845655403628,17),(-57010556139155337,18),(-19598396847490943,17));
  ((-96294567959705035,17),(-21661294244568255,17),(-16066876270886746,17));
  ((-91393193626622959,17),(-37545600232468601,17),(-15414670347115958,17));
  ((-83320608485729397,17),(-53529556155169644,17),(-13865886895483362,17));
  ((-73221365253047543,17),(-67231921917922421,17),(-10885786407154174,17));
  ((-60470138239090998,17),(-7885544776067237,16),(-11188419897782526,17));
  ((-4631971636565671,16),(-87419455236222687,17),(-14571297883413592,17));
  ((-29984531551522237,17),(-93574596992074499,17),(-18566708523769335,17));
  ((-12504163422974632,17),(-97401763612134407,17),(-18882328837763429,17));
  ((29054621234350674,18),(-9873033719584311,16),(-15616619578013732,17));
  ((20446343940047654,17),(-96172333661015974,17),(-18243608680288281,17));
  ((36749385456562517,17),(-90867506598130432,17),(-1981360424566195,16));
  ((52901177524100229,17),(-81823399665682495,17),(-22503259401998263,17));
  ((65965858057352733,17),(-70913258105918153,17),(-24896091973653756,17));
  ((75881659012757297,17),(-58170797487110082,17),(-29293892626028001,17));
  ((84290156528453219,17),(-44356886393862277,17),(-30457119723487497,17));
  ((91097935284472231,17),(-28480094503261116,17),(-29833712541207874,17));
  ((94395218012441029,17),(-10810410466792521,17),(-31187783536557884,17));
  ((93964526374429036,17),(66113871476350866,18),(-33570185331828506,17));
  ((90035577013847135,17),(22283989207121774,17),(-37376713295854169,17));
  ((84364831028917964,17),(38282083513986542,17),(-37643822431977858,17));
  ((77631433038586128,17),(52999217398496667,17),(-3412394407922984,16));
  ((67399147973843887,17),(66066666422538634,17),(-3305375077374581,16));
  ((52814517255661886,17),(77490906046728136,17),(-34724432999093674,17));
  ((38614005468073126,17),(85390134648414839,17),(-34892456010392897,17));
  ((23264476152002392,17),(89875370451145642,17),(-3716425615618113,16));
  ((30482497854983592,18),(92332769745133925,17),(-38280122837280578,17));
  ((-16082100093814555,17),(92211608925144717,17),(-35190698146082611,17));
  ((-32523009258491131,17),(88145532829720963,17),(-34243523634939838,17));
  ((-47025662286797321,17),(80399576147365359,17),(-36393615399024148,17));
  ((-59416494937237641,17),(69456494255443846,17),(-4056446147943677,16));
  ((-70816775804709531,17),(57716957274827141,17),(-4066616661994692,16));
  ((-81664784583030359,17),(44862614832592806,17),(-36307144605293207,17));
  ((-88323645560391262,17),(29400769911178032,17),(-36531197127282117,17));
  ((-91852958535477713,17),(11884189598526755,17),(-37706763927259512,17));
  ((-92879778645964894,17),(-63671058398196256,18),(-36507624983023707,17));
  ((-91364942981863184,17),(-22861538833919523,17),(-3361245656101437,16));
  ((-86417473018526081,17),(-38870543402953595,17),(-31954674347447448,17));
  ((-78508084477154505,17),(-54460587310236941,17),(-29504662369734574,17));
  ((-67546806605641108,17),(-68458994431894715,17),(-27400638655949755,17));
  ((-54550345167545156,17),(-78270213305635095,17),(-29967207931204848,17));
  ((-4005768794841264,16),(-85618281277999253,17),(-32632676066007821,17));
  ((-2271175886884102,16),(-90986706703526521,17),(-34721682164464079,17));
  ((-50550203054691489,18),(-93482285210561011,17),(-35149809693974482,17));
  ((11907539342556545,17),(-93887837140892549,17),(-32299915538755003,17));
  ((32110945878717084,17),(-87983047821360982,17),(-35040982446818031,17));
  ((47281793521426785,17),(-79523953579255391,17),(-37952243787707707,17));
  ((59884337962033674,17),(-68379315378081718,17),(-41690949800571453,17));
  ((68694642892880031,17),(-55996429786919799,17),(-46318958202211846,17));
  ((77973536727475767,17),(-41979297055560022,17),(-46452838330182111,17));
  ((85211283947267191,17),(-26050505322481515,17),(-45391720175617584,17));
  ((87779621353503023,17),(-911756129879603,16),(-47027738102085359,17));
  ((86110778742853711,17),(74690001524349028,18),(-50290633531724571,17));
  ((8113967639150762,16),(24690405296020271,17),(-52978644767487915,17));
  ((74589145071749507,17),(41489563511060518,17),(-5210638691299927,16));
  ((66414298502175917,17),(5607810829874319,16),(-49440739518117072,17));
  ((54709736377005336,17),(67647116312680633,17),(-49302255527888739,17));
  ((40071695730131479,17),(75587253989102099,17),(-51776695874676393,17));
  ((2574891516834355,16),(80736462056047187,17),(-53090649481108254,17));
  ((93480040902224018,18),(85231402218514518,17),(-51460887044385306,17));
  ((-99996936358362182,18),(85520780165094801,17),(-50854717452198506,17));
  ((-2668198528841656,16),(8215357030453766,16),(-50387126801258575,17));
  ((-41267516849646813,17),(74635130032412467,17),(-52216754189713854,17));
  ((-53730733091801075,17),(63111998304147721,17),(-55945366130492769,17));
  ((-65975671588432139,17),(50218568019366205,17),(-55904437968193887,17));
  ((-76497302902715791,17),(38147740495747845,17),(-51893280332613689,17));
  ((-82934117392266804,17),(21438069979429494,17),(-51597881041015559,17));
  ((-85796196278828241,17),(21827107083474406,18),(-513249303754856,15));
  ((-8485038645987153,16),(-16856320346157089,17),(-50162499758267431,17));
  ((-8089802840715542,16),(-34022749519949586,17),(-47937057846074005,17));
  ((-73721763205288349,17),(-49840569692651771,17),(-45618189821773014,17));
  ((-63989748085076803,17),(-63060673293774949,17),(-43916552958357163,17));
  ((-50790210739965669,17),(-72043702892307782,17),(-47223504386637383,17));
  ((-36131014165496295,17),(-79566106995262653,17),(-48618766263564533,17));
  ((-19793209023340572,17),(-8445246568318433,16),(-4975952086373947,16));
  ((-94332967829088236,19),(-86952104531993235,17),(-49380579650054518,17));
  ((18589424395330878,17),(-86895529410455741,17),(-45865022284164425,17));
  ((33956098052753309,17),(-78494996323222466,17),(-51821992988007459,17));
  ((47268757760844565,17),(-68887938828199846,17),(-54955585919438543,17));
  ((56461144282005704,17),(-5595815308398554,16),(-60669797179451446,17));
  ((66256134867510186,17),(-42726915522637926,17),(-61518576725568541,17));
  ((74725836643097132,17),(-28104666788851818,17),(-60217746908006864,17));
  ((77960094648172928,17),(-12086556329891072,17),(-61450295349430883,17));
  ((76646328924280038,17),(49338865050197016,18),(-64039027369149348,17));
  ((71909684219563885,17),(22168332347633693,17),(-65860172762963975,17));
  ((64807696140451376,17),(39092194840258182,17),(-65358724157821613,17));
  ((55369644887611935,17),(53419074271741618,17),(-63879612780369155,17));
  ((42178124766028047,17),(63045440106921402,17),(-65163473456730026,17));
  ((27383211775983868,17),(67261484745790157,17),(-68746289955338369,17));
  ((13048366936992084,17),(73842780308281242,17),(-66158778076839686,17));
  ((-38336722819153013,18),(76693021371503645,17),(-64058437615547259,17));
  ((-20998253781367729,17),(73128336429300511,17),(-64894681979468205,17));
  ((-36104565425390561,17),(65512581127197578,17),(-66366874790787367,17));
  ((-50478100315849339,17),(52402124367573333,17),(-6860013666362792,16));
  ((-63237666670717763,17),(37437420430397217,17),(-67819149696533865,17));
  ((-72624955702187866,17),(23359280824741327,17),(-64652608675954615,17));
  ((-76658438428990694,17),(53452193414768187,18),(-6399150293453143,16));
  ((-76323635412959234,17),(-13588169009724521,17),(-63166956079209935,17));
  ((-71915778150930265,17),(-31723501332060861,17),(-61820225785586658,17));
  ((-64384679888822083,17),(-46880241595868322,17),(-60471943440962161,17));
  ((-54050344220923108,17),(-58383312315625902,17),(-60580105089507807,17));
  ((-39773242900298578,17),(-66697933766073447,17),(-6300376798676669,16));
  ((-24515449636868,14),(-72991500855962665,17),(-6380621859894372,16));
  ((-73978165743200847,18),(-77642995981630747,17),(-62584642564523663,17));
  ((12077839716425873,17),(-79289261562033597,17),(-59727203088138536,17));
  ((26870514809483392,17),(-7121284724925645,16),(-64859122878184239,17));
  ((40158248673941283,17),(-59617406015263807,17),(-69520356468109967,17));
  ((48653404874666006,17),(-45330605357461706,17),(-74685891653162251,17));
  ((58822177452830049,17),(-32344244587858495,17),(-74120181339150537,17));
  ((64960425041593706,17),(-17486670160060683,17),(-73988915015215151,17));
  ((65391839436507604,17),(-96773132030951465,19),(-75650319438860925,17));
  ((61213507395066635,17),(15427224793789768,17),(-77555833098200933,17));
  ((55407674406459484,17),(31414037515574139,17),(-77091814506067224,17));
  ((45398309377524743,17),(4578166770287786,16),(-76439730559479468,17));
  ((30836832731602215,17),(52110153977688012,17),(-79584053676002398,17));
  ((14372149679699686,17),(58144641983871148,17),(-80078973033823031,17));
  ((-50825891707427483,19),(64207452120010655,17),(-76662538212152576,17));
  ((-1707260287628839,16),(61669597860651659,17),(-76846515410485972,17));
  ((-33867369308114653,17),(53228719762745758,17),(-77586755883764413,17));
  ((-48244389671921067,17),(38936990074293659,17),(-78462664173084207,17));
  ((-58583084716679379,17),(22858119912775599,17),(-77752996978454392,17));
  ((-64892034001348509,17),(7430785006565975,17),(-75721908040896746,17));
  ((-65381236617648819,17),(-1038705272592652,16),(-74949336448135684,17));
  ((-61308492310574636,17),(-27116744284178845,17),(-74202095321026251,17));
  ((-52833803103082566,17),(-40971954278120121,17),(-74363218141069831,17));
  ((-41664844880724994,17),(-5167733369882419,16),(-74789664278197521,17));
  ((-26266236685124544,17),(-59351918493176037,17),(-76075190315768548,17));
  ((-92032012568156657,18),(-65507223715332374,17),(-74994031280735551,17));
  ((80531016222760848,18),(-68597193367132647,17),(-72315784006076478,17));
  ((24483469747981582,17),(-58578516961382598,17),(-77260061219912846,17));
  ((3341119516000487,16),(-44155573262156267,17),(-83270507311234854,17));
  ((43289704385816574,17),(-29124881634230226,17),(-85309687398212242,17));
  ((50486017712906328,17),(-14771485108647081,17),(-8504684146502518,16));
  ((50163704976679879,17),(1198014206146915,17),(-86499522917612048,17));
  ((45079845524550249,17),(17095807057280904,17),(-87610164413399605,17));
  ((38558442360781825,17),(31992138479201543,17),(-86543339421574539,17));
  ((22657584262275959,17),(40366891629892931,17),(-88640554688801132,17));
  ((44751697465399934,18),(46975037610728826,17),(-88166426133819586,17));
  ((-11983960970291865,17),(48777078384963796,17),(-86470696213744103,17));
  ((-28020860719356866,17),(41649915028504342,17),(-86487663528764447,17));
  ((-39833978903332945,17),(28046284061344956,17),(-87330751027797615,17));
  ((-47570587933554848,17),(12758201247058026,17),(-87030267519958204,17));
  ((-52047797856236877,17),(-32731874861591258,18),(-8532475011388404,16));
  ((-48652514039324762,17),(-19430278840350718,17),(-85178619041632309,17));
  ((-4016603842352961,16),(-32446482471487165,17),(-85638280766179675,17));
  ((-27934393154799819,17),(-43556370845502296,17),(-85571678947196961,17));
  ((-11141244983411243,17),(-5162148940759097,16),(-84918163496166044,17));
  ((79071576178458503,18),(-55439783468755666,17),(-82848701060089214,17));
  ((18213467361450275,17),(-41854130346704216,17),(-88974723262252853,17));
  ((28283170374308231,17),(-25628262895994047,17),(-92429726898393827,17));
  ((34048077433416374,17),(-95022850600095132,18),(-93543759822483097,17));
  ((3192824686647992,16),(62325413646219505,18),(-94560787222671694,17));
  ((24998679998598533,17),(22418735254055644,17),(-94193770005962885,17));
  ((87810534728668121,18),(30971625804138336,17),(-94676562542981491,17));
  ((-9535328300817307,17),(32649001059319882,17),(-94037866011645344,17));
  ((-23108798916435547,17),(2484330772302335,16),(-94068025779320552,17));
  ((-31473740411700069,17),(95900538763779575,18),(-94432168942289396,17));
  ((-35494028283496259,17),(-58692261278042876,18),(-93304480818828128,17));
  ((-28549496539631775,17),(-20342606698193463,17),(-93654175561243225,17));
  ((-17071828964617017,17),(-3289868717587891,16),(-92877494786985526,17));
  ((-2406515656034496,18),(-40870836327109022,17),(-91266186645146063,17));
  ((11251803880622804,17),(-26270731785420726,17),(-95829252114844798,17));
  ((16819348685909571,17),(-91014697704103975,18),(-98154331324705679,17));
  ((14051705162935071,17),(95729701698926431,18),(-98543938545911025,17));
  ((-10733040657441191,18),(16683342915473326,17),(-98592667514106658,17));
  ((-14364109971391553,17),(77700453377481757,18),(-98657481927014068,17));
  ((-16051315566596119,17),(-86186362787628645,18),(-98326366643316698,17));
  ((-46792357459712192,18),(-22168953009369724,17),(-97399395661893007,17));
  ((1688346840646188,17),(-45324448478198782,18),(-99882963655706325,17))].

(** womersley/womersley_451.hpp:1-471. *)
Definition wo_451 : list lit3 := [  ((0,0),(0,0),(1,0));
  ((15247268999203664,17),(0,0),(98830768427984628,17));
  ((21274186500516007,17),(13925641349163051,17),(96713419450228022,17));
  ((68661710704555498,18),(20980281761720945,17),(97532986584181036,17));
  ((-71759481418440685,18),(1525051689331112,16),(98569404496285751,17));
  ((-18256083686885027,17),(14119656721025971,18),(98309316757661658,17));
  ((-13617651482306303,17),(-14108076135139128,17),(98058766848617662,17));
  ((28829938459511061,18),(-17518023377686057,17),(98411418054121402,17));
  ((18742085531438268,17),(-18001468268019016,17),(96564389762105141,17));
  ((31426578900918656,17),(-89876482222191259,18),(94507101944869598,17));
  ((3686999628807352,16),(52786709887515292,18),(92804843657591263,17));
  ((34864326129983397,17),(22513958494914649,17),(90981319161635688,17));
  ((24608801313289508,17),(34043020811181673,17),(90749543425697143,17));
  ((94522079323565461,18),(3579955920141929,16),(92892665621068127,17));
  ((-84174401414945699,18),(35472881979467985,17),(93117245156496609,17));
  ((-19833809245515199,17),(26082712918031475,17),(94479162240401293,17));
  ((-29612649422387605,17),(12926220471732144,17),(94636165489219504,17));
  ((-34492980347203939,17),(-40448821201892325,18),(93775653745528087,17));
  ((-31338795773799005,17),(-18737381968923195,17),(93095598158015991,17));
  ((-17300658693462251,17),(-29073715215726342,17),(94103168343723531,17));
  ((31676143611268958,19),(-33139363116995063,17),(94348726935727856,17));
  ((15649324952117233,17),(-36133076899482752,17),(91921158512711898,17));
  ((30078905448627075,17),(-31004900871256252,17),(90188444764149944,17));
  ((42583456550341625,17),(-20369913399655865,17),(88157335805454595,17));
  ((50593262057098087,17),(-59732796763005601,18),(86050228148044405,17));
  ((51420883935444206,17),(10507301583224644,17),(8512044001728809,16));
  ((5073192770893703,16),(25650907290744301,17),(82269693484884376,17));
  ((42001750492372175,17),(38567079819954869,17),(82148848499158789,17));
  ((28461513302131047,17),(48990734994462215,17),(82400546996090951,17));
  ((13651726181469323,17),(52250584163544511,17),(84163571851689711,17));
  ((-22891368168268915,18),(4950241716527003,16),(86857760432959741,17));
  ((-19446302836481599,17),(49157370622553109,17),(84884593534214436,17));
  ((-30370795995629668,17),(39374464886508581,17),(86759819418282258,17));
  ((-39249058293511202,17),(26283456404488931,17),(8814018006849027,16));
  ((-46704908547387969,17),(11434479428462245,17),(87680694555758398,17));
  ((-505426524206814,15),(-2911971989201274,17),(86237814822827552,17));
  ((-47936986563801215,17),(-19248128819086874,17),(85624499158510581,17));
  ((-37895710549706463,17),(-33452903019772012,17),(86283361092870015,17));
  ((-24667082445178215,17),(-42363422615703289,17),(87160056608093706,17));
  ((-81962089130694915,18),(-45884186661530896,17),(88472953911707453,17));
  ((73171652002016835,18),(-51725982317348485,17),(85269466086860835,17));
  ((21499537905668545,17),(-52007086105508038,17),(82662161020971348,17));
  ((35927876254972591,17),(-44368462736081027,17),(82101322901914109,17));
  ((4930799213144002,16),(-33355164431739853,17),(80350201727795589,17));
  ((59640088848280404,17),(-19116431319468083,17),(7795910373893018,16));
  ((6534259175856364,16),(-40211220540726039,18),(7559217075663287,16));
  ((65650235979267302,17),(11236929147478622,17),(74590736282738646,17));
  ((65628441297745677,17),(26361170647730559,17),(70696508930141511,17));
  ((58715013657553949,17),(39588903253080782,17),(70606415504622977,17));
  ((46229625674229308,17),(513174346035707,15),(72314193736284449,17));
  ((32988225869442223,17),(61722729689540834,17),(71428856869325141,17));
  ((17202417739249357,17),(66129435925688995,17),(73013522912365703,17));
  ((99407810752216823,19),(64226511143571818,17),(76641810228104534,17));
  ((-14715425085162379,17),(63138874715565929,17),(76137630408458623,17));
  ((-30341461230314426,17),(6058706128941298,16),(73543209983806401,17));
  ((-41020694583961076,17),(49059381989768847,17),(76879643954894394,17));
  ((-50487156089085905,17),(35834125863787847,17),(78530010146532436,17));
  ((-57886228592701361,17),(21956228827559432,17),(78530940112705716,17));
  ((-64570922047031099,17),(90216468836562577,18),(75823518208421636,17));
  ((-64381938284481544,17),(-65583630662490289,18),(7623617183873066,16));
  ((-60423810259640853,17),(-22834394755163742,17),(76338414771805885,17));
  ((-51169973301818394,17),(-3801519336498318,16),(77048549017578072,17));
  ((-3915664815926419,16),(-50566215809140869,17),(76875319340312231,17));
  ((-24950472076381541,17),(-57667599758284793,17),(77794099270342976,17));
  ((-99598622379727636,18),(-60243823517056727,17),(79192694563616961,17));
  ((44017189719471252,18),(-66260844327619661,17),(74767141038580276,17));
  ((1767614049823866,16),(-69036585935858297,17),(70153430845592857,17));
  ((31081766657570586,17),(-62063651637744022,17),(71986296798995619,17));
  ((45543380940833655,17),(-52691112385025374,17),(71759648327641179,17));
  ((58496950335883924,17),(-41081246824038742,17),(69931666366414702,17));
  ((68406718180081094,17),(-28172043035089267,17),(67281921041688764,17));
  ((7579719891085398,16),(-15045589744312665,17),(63469794914701516,17));
  ((78138073146299625,17),(-15662207566018444,19),(62405264157032025,17));
  ((78022336178688945,17),(1539803968151538,16),(60625204586756865,17));
  ((77697727139545014,17),(2965087181970309,16),(55532774085942682,17));
  ((70089818553919536,17),(42924962645297782,17),(5696371579328745,16));
  ((58242851786902683,17),(54987857073734403,17),(59867401732223557,17));
  ((45232534289847764,17),(6629034465087833,16),(59662450903273434,17));
  ((28944013974290622,17),(74695369774759246,17),(59856877543587694,17));
  ((11534406160585417,17),(77363149818327359,17),(62304899684612958,17));
  ((-47157372720292218,18),(7610430616711914,16),(64698503883803882,17));
  ((-20363957008555816,17),(7536715478181204,16),(62490809204618847,17));
  ((-35074495337519546,17),(71429124363619001,17),(605612084544634,15));
  ((-47581961483668711,17),(5974622312760135,16),(64547236682553188,17));
  ((-58168248808257905,17),(46585746115032178,17),(66680005170113532,17));
  ((-66968838966482902,17),(33231999474223561,17),(66413920366339507,17));
  ((-74318032277798929,17),(21042221818067702,17),(6351421084541059,16));
  ((-77277391814217311,17),(56802870085557344,18),(63213440452900294,17));
  ((-7566897716292057,16),(-10949311483306111,17),(64454002770649921,17));
  ((-71743911732853349,17),(-26822689011564099,17),(64291169560503925,17));
  ((-63029873847414997,17),(-40734247455070965,17),(66090514350003327,17));
  ((-51973570015103054,17),(-54378724478596407,17),(65891595397031322,17));
  ((-3904711391363378,16),(-65247224041520613,17),(64947075760894135,17));
  ((-24495694457685036,17),(-71301522360870184,17),(65696680753734171,17));
  ((-1013958270409735,16),(-74385032509730853,17),(66061000606356646,17));
  ((24434866500160839,18),(-80154692010340634,17),(59743239966699402,17));
  ((16511971939696826,17),(-81408144639155189,17),(55678261189382106,17));
  ((31122390501061886,17),(-75875235453436041,17),(57221896633937752,17));
  ((43752326725980734,17),(-67178521921940093,17),(59772737083443361,17));
  ((57028510879516925,17),(-57133024401831201,17),(59021745734640729,17));
  ((6851627351876336,16),(-4671519382603071,16),(55885695208151331,17));
  ((77252310316221007,17),(-35014892768709821,17),(52972047678016432,17));
  ((84407825393645375,17),(-21769933647089157,17),(49003969240432066,17));
  ((87855516448444571,17),(-70692801494629171,18),(47238051481252857,17));
  ((87931281797929839,17),(82479192099881318,18),(46904813293291764,17));
  ((88332239862649586,17),(22189317845738121,17),(41292245935382904,17));
  ((83672107813903684,17),(37261923458628432,17),(40131377177238681,17));
  ((73765896837549183,17),(51528456119009491,17),(43628095004748529,17));
  ((61389806960505799,17),(63682996542308823,17),(46645123568751717,17));
  ((46600647263978445,17),(75037934153259156,17),(4687950631768002,16));
  ((30797522280140482,17),(82850517000757506,17),(46768626814473008,17));
  ((14631360141391103,17),(86404382159260573,17),(48168517146465745,17));
  ((-21583477286426862,18),(86166598585771825,17),(50701664896142484,17));
  ((-19162207921996591,17),(85107690843892969,17),(48882417562703562,17));
  ((-33941951478817173,17),(83157696435727746,17),(43962955466084996,17));
  ((-46152258450964151,17),(74433232161837359,17),(48266582537169833,17));
  ((-57520044581057417,17),(630214667546241,15),(52151118870921431,17));
  ((-68109691901960379,17),(5024914291946706,16),(53254985727901649,17));
  ((-77222545437386347,17),(37864725705716457,17),(51019026092249697,17));
  ((-84263890144912024,17),(24631907718682258,17),(47883879748664049,17));
  ((-86679100272322385,17),(95471778224016743,18),(48944713418387914,17));
  ((-85730972875536404,17),(-73044253235250184,18),(50959254905336737,17));
  ((-8272941583985387,16),(-2430050688112837,16),(50649078176377182,17));
  ((-76097347464958642,17),(-39895645442132416,17),(51161813724231975,17));
  ((-66764118479679802,17),(-52297396685012143,17),(52986175400775615,17));
  ((-55901355811709419,17),(-64296670072439588,17),(52354337318015132,17));
  ((-42449273140439336,17),(-74546617030864326,17),(51389309190745347,17));
  ((-27873059121432531,17),(-81451232455585743,17),(50880146488382494,17));
  ((-14113037962455957,17),(-85470332842479424,17),(49956424644544573,17));
  ((-12162981656183538,18),(-89922200260441854,17),(43732350944047177,17));
  ((13610521228190786,17),(-90636898031800084,17),(39996330170029892,17));
  ((29233751072148512,17),(-86242633996441043,17),(4132306716118212,16));
  ((43526787285046442,17),(-78908431907124166,17),(43346028221753707,17));
  ((55819214733701183,17),(-69597733770976933,17),(45170462920554322,17));
  ((67605180515844887,17),(-60545251676023137,17),(41997762641681835,17));
  ((77370169237800623,17),(-50390075023160419,17),(38401787084383898,17));
  ((85358014180721142,17),(-37403940728131629,17),(36262303196711376,17));
  ((91775941815291306,17),(-23414109202878119,17),(32077343938548925,17));
  ((947780647953267,15),(-79364632749655661,18),(30889010737444755,17));
  ((95349801058016537,17),(69867385802834178,18),(29318951587794678,17));
  ((94722191597269645,17),(21257305669894899,17),(23996528387806296,17));
  ((89573995768944625,17),(36955662017769453,17),(24713929813234489,17));
  ((79809110907529568,17),(52755915326805936,17),(29108748069618645,17));
  ((66660630124360343,17),(67122100852301425,17),(3241888290173951,16));
  ((53286795184890612,17),(7804362826336223,16),(32706414453645744,17));
  ((39297479335421104,17),(86519394073554268,17),(31146469575654534,17));
  ((25079727368605448,17),(91768367408274354,17),(30815158904934958,17));
  ((9325735638097786,17),(93547533210942613,17),(34086502973404331,17));
  ((-78051697400193423,18),(92794935348162599,17),(36444194312123412,17));
  ((-25034627793375147,17),(9158038229762312,16),(31405429299220949,17));
  ((-41299008952071142,17),(87052936284464044,17),(26761504887240384,17));
  ((-52411938113362955,17),(78995754643840088,17),(31822311221079302,17));
  ((-62935460827668688,17),(68671654630676582,17),(36377625275628606,17));
  ((-72941544627097921,17),(57028080487833221,17),(37780009307652357,17));
  ((-82294589809830176,17),(44471918796424792,17),(35353202494201225,17));
  ((-89685610479257383,17),(30480146424894761,17),(32053891290760517,17));
  ((-93663744777867652,17),(14949696325350825,17),(31679796305630875,17));
  ((-93662371312947046,17),(-25754340400278171,19),(35032754265553939,17));
  ((-91383580644890139,17),(-16863562647985797,17),(36941324331110797,17));
  ((-86205661767911979,17),(-35010370856798079,17),(3664502437747616,16));
  ((-78561382923122869,17),(-50413824777885186,17),(35868584924292019,17));
  ((-69382749222898665,17),(-61887876193275493,17),(3682288541869253,16));
  ((-57762791673941116,17),(-726127722938121,15),(37294037027920085,17));
  ((-4428265361565043,16),(-82053453529098352,17),(36142459140246941,17));
  ((-30068765600019143,17),(-889617874182415,15),(34375423119471782,17));
  ((-16528233397053654,17),(-93509329056197499,17),(31350006064310393,17));
  ((-28220730548510344,18),(-96483618647196434,17),(26133259200020403,17));
  ((13513098894483072,17),(-96102204443274519,17),(24119752474082015,17));
  ((30323930893360551,17),(-91786487946123685,17),(2560663675086573,16));
  ((45719469181678568,17),(-84713377475532858,17),(27080875436983665,17));
  ((58869244017272671,17),(-75847479777849358,17),(27956607808951678,17));
  ((69727043857250415,17),(-67547523640714879,17),(23988985075157759,17));
  ((79423093745662277,17),(-56965802127376231,17),(21139289672369749,17));
  ((87835537054671986,17),(-43270714806328953,17),(20311663409644473,17));
  ((9482363070724229,16),(-27142815143141391,17),(16484739779620161,17));
  ((98496498758038165,17),(-10709812556839429,17),(13555059845133455,17));
  ((99306792084546602,17),(38959722057821528,18),(11089745102950048,17));
  ((97872558242524521,17),(19208165284479972,17),(72117078052111441,18));
  ((92975283181722068,17),(3580152579282696,16),(85934549620124229,18));
  ((84902350280939654,17),(51140607540775218,17),(13275133789647117,17));
  ((73959171522587686,17),(64992859678604642,17),(17491973544733613,17));
  ((61878101444172418,17),(7685294103606235,16),(16270403061148558,17));
  ((49649483136901379,17),(85523262307436887,17),(1485598965171597,16));
  ((36178685783010683,17),(92353757805050851,17),(12723447421991707,17));
  ((21751672792056001,17),(96651000842932644,17),(13617957512298404,17));
  ((64440744524432922,18),(98066752935499324,17),(18476630459558899,17));
  ((-10132549200713811,17),(97254082369297901,17),(20951728071949891,17));
  ((-27424886394730891,17),(94926516042179798,17),(15389352108840834,17));
  ((-424067187349355,15),(90109134638277355,17),(90561614869035426,18));
  ((-55515643151854821,17),(82274017458317494,17),(12206531722990879,17));
  ((-65755029920190033,17),(73219173410943805,17),(17754680656465002,17));
  ((-75431928240212698,17),(6244228426763575,16),(20272773303205677,17));
  ((-84478321491299235,17),(49890786337829912,17),(19347419378451841,17));
  ((-92174416447038998,17),(3521114895507434,16),(16249675132487912,17));
  ((-97064011974872044,17),(18770967265085098,17),(15040889843190794,17));
  ((-98647235091577623,17),(26860125256883468,18),(1617121966639693,16));
  ((-97156865992778518,17),(-11909052712908712,17),(20462596461408314,17));
  ((-92996855415602953,17),(-28639241396156212,17),(23051653629666838,17));
  ((-8652411168309132,16),(-45608271015099566,17),(20819791364592674,17));
  ((-78366051890038091,17),(-59500988757488327,17),(17843605242470048,17));
  ((-68357937071232855,17),(-70226915749448493,17),(19883982088234536,17));
  ((-56400340455328779,17),(-79986537950101555,17),(20522069663656467,17));
  ((-42981321238561382,17),(-88281841479343903,17),(18945249789949647,17));
  ((-28888467483538938,17),(-94433725412155267,17),(1573937582098395,16));
  ((-14894601262360818,17),(-9826321351964501,16),(11067597843612345,17));
  ((92290703389255446,19),(-99628238361204502,17),(85651832233649139,18));
  ((17849424355550339,17),(-98030741895657159,17),(84481769372174984,18));
  ((34413011266468185,17),(-9331314677937822,16),(10411594196094467,17));
  ((5052647374520689,16),(-85581429696326572,17),(11085772052844647,17));
  ((6296725480432831,16),(-77287257416465449,17),(78615942052359195,18));
  ((72844028761215718,17),(-68433719630662404,17),(32516905367929283,18));
  ((82457781855302636,17),(-56418771593864459,17),(4199574185876128,17));
  ((91341554550941317,17),(-40426408326280838,17),(47356015514633726,18));
  ((97399778046222929,17),(-22655195469454242,17),(-15923186656400376,19));
  ((99626761740724756,17),(-65070922874967033,18),(-56715161128980188,18));
  ((99290823982074938,17),(86678266698759013,18),(-81364030001960741,18));
  ((96095658838604858,17),(26349205144943216,17),(-84465223970674796,18));
  ((90295415526197764,17),(42514821704547573,17),(-6263215658255307,17));
  ((82412963983213028,17),(56619471237769725,17),(-15293280410034587,18));
  ((72343875020939075,17),(6903383006220204,16),(83309897236641707,19));
  ((61273727984676862,17),(78985753434082306,17),(-2604037885704236,17));
  ((49039514945999979,17),(87053745276412697,17),(-40952908578634331,18));
  ((35567021051181308,17),(9329251037353139,16),(-56119980175837109,18));
  ((20622654754928207,17),(97751710219353904,17),(-43942303137749883,18));
  ((56617052383206565,18),(99834418823551641,17),(10168146134133735,18));
  ((-10254497714965782,17),(99372634767427925,17),(4463713251670199,17));
  ((-25157729766626713,17),(96776508772063108,17),(-11815171941947386,18));
  ((-39411453010587871,17),(91566805824152586,17),(-7890338570439287,17));
  ((-5392188335134217,16),(83946144936664213,17),(-67435336520857384,18));
  ((-660715345486665,15),(75013837703350839,17),(-27343144295619039,18));
  ((-75884966830785605,17),(65116162183292603,17),(11650028367784173,18));
  ((-84684133893282343,17),(53141354771149252,17),(21433338124246332,18));
  ((-92199308167496519,17),(38715755861694862,17),(61467185770101218,19));
  ((-97565973417461582,17),(2191579170751097,16),(-76085802629228911,19));
  ((-99877502242182925,17),(47216396842400574,18),(-14800893739747481,18));
  ((-99388337521112458,17),(-1097880470966915,16),(11934035094540437,18));
  ((-96463087999535235,17),(-25509445641448969,17),(6643857061969409,17));
  ((-90984005625894093,17),(-41041631893030972,17),(61233301253659618,18));
  ((-82886931047556578,17),(-55921886472149573,17),(1580909521008696,17));
  ((-72713488853490416,17),(-68648961713349166,17),(26190538834696166,19));
  ((-61979365122210961,17),(-78437970417592828,17),(24582708997363409,18));
  ((-49382065574341211,17),(-86932471377859122,17),(20388770804463063,18));
  ((-35238128727502216,17),(-9358370327161063,16),(-60395840512237949,19));
  ((-19399193181381569,17),(-97956392237041878,17),(-53119227982190827,18));
  ((-2531120481535476,17),(-99646354946938598,17),(-80123264347302631,18));
  ((13304636725224267,17),(-98728654826789197,17),(-86970890361389289,18));
  ((29085941247578712,17),(-95433382342236417,17),(-68174450098931513,18));
  ((44584601420343506,17),(-89395525136063092,17),(-45446013946899198,18));
  ((57949725418477482,17),(-80930042278180447,17),(-95998739978705172,18));
  ((67361804756692856,17),(-72130410477556606,17),(-16111832430247722,17));
  ((77838980021570114,17),(-61212591438592578,17),(-13932402469551031,17));
  ((87327639129981505,17),(-4758427956264536,16),(-10469946632516063,17));
  ((93857582792047889,17),(-3216982573824716,16),(-12484248651988873,17));
  ((9685562761349904,16),(-1577126602962152,16),(-19242000088818956,17));
  ((96918471245672799,17),(13044217528969155,18),(-24598951507986333,17));
  ((95424663357178496,17),(1848679376138839,16),(-23502597294619346,17));
  ((90342902146922799,17),(35835816377466084,17),(-23536233688338157,17));
  ((83579215130242301,17),(5089114750380167,16),(-20605967678295961,17));
  ((75025904020274414,17),(63833404083745304,17),(-1721656902585009,16));
  ((64492470973955196,17),(73727301547979729,17),(-20124765691227658,17));
  ((52276321116659508,17),(8224120881246002,16),(-2244036148490588,16));
  ((3925857120688182,16),(88865994640773749,17),(-23698092397915979,17));
  ((24533237616216963,17),(94356188073606895,17),(-22249270196668483,17));
  ((84661978282604383,18),(97910533932309141,17),(-18489208728955908,17));
  ((-64503841755752994,18),(98878373300233724,17),(-13470702932182643,17));
  ((-21059218610154787,17),(9606418164693975,16),(-18115802936482672,17));
  ((-34490160360942484,17),(90599377979114692,17),(-24539387687429756,17));
  ((-49557563375688529,17),(83528359527683138,17),(-23813044048981258,17));
  ((-63246030987488244,17),(74394904065737399,17),(-2157169009093646,16));
  ((-74332321008383662,17),(64268454556695687,17),(-18554562845848582,17));
  ((-83234995277074908,17),(53027489209443801,17),(-16125165095825775,17));
  ((-90499798017171051,17),(39402522139458623,17),(-16038323101269494,17));
  ((-95858138527693426,17),(2344822669855415,16),(-16167805747804787,17));
  ((-98365432642191974,17),(5361949524962905,17),(-17189856264848302,17));
  ((-97856023589666119,17),(-12219969329302718,17),(-16579233902976548,17));
  ((-95651252232968165,17),(-26830215468800428,17),(-11444539491078022,17));
  ((-90328738224213556,17),(-41554689739093587,17),(-10673650336654739,17));
  ((-81632645845147933,17),(-55810256593719221,17),(-14877042423273187,17));
  ((-70813069498450087,17),(-68434391412055318,17),(-17385144815884782,17));
  ((-59621653238533612,17),(-7854249722408041,16),(-16623314799081851,17));
  ((-47396368087786667,17),(-86591898468856909,17),(-15982096597324566,17));
  ((-32144485102778098,17),(-93015704250473397,17),(-17742909577229524,17));
  ((-14615429892941501,17),(-9648211162937903,16),(-21853863378829697,17));
  ((16780975042740464,18),(-96541849950197312,17),(-26016440897242982,17));
  ((16655889630336845,17),(-95092733408307728,17),(-26075915967776697,17));
  ((32027364738889141,17),(-91871030005404841,17),(-23107612460575933,17));
  ((46316444918988348,17),(-85795815379963536,17),(-22223073445262484,17));
  ((56676315826185097,17),(-76180784155043735,17),(-31373290389966407,17));
  ((67933456405543957,17),(-65202500958382537,17),(-33670155472884028,17));
  ((78959816655866311,17),(-53994569187146491,17),(-29153625022738222,17));
  ((86962265852616261,17),(-40918331911945349,17),(-27627059766156198,17));
  ((91326946392223873,17),(-26264155315179133,17),(-31138127886114397,17));
  ((92555291236640835,17),(-95031710140053363,18),(-36649799518949161,17));
  ((91494782075636805,17),(94545405564403426,18),(-39234124379146723,17));
  ((88469169332754904,17),(2680506224760329,16),(-38140460346913124,17));
  ((8173941795306513,16),(43157756308896161,17),(-38158558975360535,17));
  ((74057859917922164,17),(57127955149391363,17),(-35381211466349571,17));
  ((63560037816180437,17),(6750863506159035,16),(-37452713986128261,17));
  ((51355683462359236,17),(75944747252928635,17),(-39937315142642621,17));
  ((37741825374163696,17),(83049414913114783,17),(-40967661637143032,17));
  ((2302216753730518,16),(89401225764396575,17),(-38436969621806116,17));
  ((71048740578059627,18),(93560688082589549,17),(-34582053295533222,17));
  ((-87035021053181769,18),(94362068921282893,17),(-31938205960851646,17));
  ((-21450485440284542,17),(89751595685460861,17),(-38529569765177812,17));
  ((-36140860799594399,17),(83841305689533074,17),(-40797961235074121,17));
  ((-50909511945576735,17),(76718880468904216,17),(-39018392753433195,17));
  ((-64266487052431598,17),(66904387857024439,17),(-37331240635913571,17));
  ((-75088163902591654,17),(55625203532590284,17),(-35603432049388689,17));
  ((-83323349201068786,17),(43750897420407403,17),(-33809443249271942,17));
  ((-898224068940217,15),(29726982726482365,17),(-323765612402587,15));
  ((-94008664837033129,17),(132464742930374,15),(-31414994100942767,17));
  ((-94578827686718403,17),(-53045767879152293,18),(-32042266126276719,17));
  ((-92309806845178499,17),(-22716101649230622,17),(-31030280148069223,17));
  ((-88699460705393895,17),(-3699778163380929,16),(-2763276722931034,16));
  ((-80809522048773386,17),(-50476385597680051,17),(-30363722486597822,17));
  ((-70149835757433476,17),(-62962743338665017,17),(-33387025840504264,17));
  ((-58268479591147493,17),(-73214142293731765,17),(-35277098156300002,17));
  ((-46463772478117082,17),(-81902039198104026,17),(-33662647285886504,17));
  ((-32085056133447776,17),(-88676210078827744,17),(-33272795779271586,17));
  ((-16335934385297701,17),(-91368341016708177,17),(-37215097845011369,17));
  ((-65988735116338428,19),(-90570029400159324,17),(-42386723430079515,17));
  ((14700134242780108,17),(-88767473333456204,17),(-43637618303917391,17));
  ((29566915122986731,17),(-86739782323932824,17),(-40025088288557847,17));
  ((4359561188567882,16),(-80528546512997845,17),(-40181784689299216,17));
  ((5657818422119123,16),(-66938708706838701,17),(-48146841504858284,17));
  ((69281777913586351,17),(-54366170788714741,17),(-47374621084551161,17));
  ((7845048612781409,16),(-42691508395152122,17),(-44977286904128683,17));
  ((83710316651950323,17),(-28822251387157904,17),(-46495813908412037,17));
  ((85395942182524953,17),(-13298309313380141,17),(-50305944262726265,17));
  ((85187222537061735,17),(36001365998490326,18),(-52251087384699935,17));
  ((82311934325788683,17),(21653654370514658,17),(-52496330537946567,17));
  ((76370191964684253,17),(37457060003810849,17),(-52579106450644353,17));
  ((68004504692560652,17),(51908660032993748,17),(-51777199181672362,17));
  ((56556817690957717,17),(62068203199958938,17),(-54303448547954858,17));
  ((43260727684345618,17),(70761694490700411,17),(-55868524528804875,17));
  ((2785808458686006,16),(78868251987898019,17),(-54806258324435631,17));
  ((12118839838755426,17),(84885393705312584,17),(-51454870094643845,17));
  ((-33131302542467704,18),(87180854581790546,17),(-48872505177319125,17));
  ((-17275974709185654,17),(82139739032304104,17),(-54356268907574545,17));
  ((-31624860328019427,17),(76549463455620048,17),(-56036129897504106,17));
  ((-46339112047179698,17),(70181839827673087,17),(-5410356784059408,16));
  ((-59565149483408086,17),(60840045508436158,17),(-5244503627180237,16));
  ((-70040719538594465,17),(48972913747782271,17),(-51922551223608315,17));
  ((-78309064523307104,17),(36395790919306531,17),(-50428531773616492,17));
  ((-85001416958425791,17),(22767362632365779,17),(-47501645380199192,17));
  ((-88637428097435778,17),(64604926911734403,18),(-45843956793226281,17));
  ((-87853752700691601,17),(-10764328010755531,17),(-46538665417935943,17));
  ((-84484548689923333,17),(-27147052522117893,17),(-46102045204321962,17));
  ((-79030012958111506,17),(-41097312671904734,17),(-45445219143364535,17));
  ((-69602305626504712,17),(-53294642657135527,17),(-48116526428274725,17));
  ((-57984370667279717,17),(-63676926162953662,17),(-50823831346694637,17));
  ((-45095840248621311,17),(-7321051211091899,16),(-51054736398573342,17));
  ((-32468217940486632,17),(-80669695437869438,17),(-49378285325945132,17));
  ((-17714054419581388,17),(-83213404324872231,17),(-52552275085722455,17));
  ((-21103606180942626,18),(-8190669363733637,16),(-57330968206207011,17));
  ((14077612139786469,17),(-79633012585395069,17),(-58825199897799318,17));
  ((29235619573351307,17),(-77486270078286368,17),(-56046021246089728,17));
  ((43268124538074804,17),(-71045928764746769,17),(-5550085949705803,16));
  ((55378937174166232,17),(-56226863933774829,17),(-61414274314954831,17));
  ((65143067211958938,17),(-43936718867625801,17),(-61854228063774386,17));
  ((72659513456039782,17),(-31202638162271101,17),(-61212665977279235,17));
  ((74890137536181223,17),(-16742542470171451,17),(-64118285780628648,17));
  ((75717600145437858,17),(-83420695991835506,19),(-65315764765970652,17));
  ((74121810647374542,17),(15732254822158073,17),(-65256826038089211,17));
  ((68106848750779048,17),(31434474766764053,17),(-66131164736273762,17));
  ((60145509839393807,17),(45576565670506608,17),(-65614741543660615,17));
  ((46114941320839914,17),(56950689421065281,17),(-68044332324160961,17));
  ((30604656529189833,17),(66995718367322732,17),(-67638219367282959,17));
  ((14009939129520518,17),(74090824668396427,17),(-65683112788174636,17));
  ((-17738022653468279,18),(76602222677899545,17),(-64256930414772728,17));
  ((-16008602369435004,17),(70501542440348519,17),(-69088762933700421,17));
  ((-31008578096536377,17),(64995721010091578,17),(-69383170400388483,17));
  ((-4536454749321468,16),(58523274111845047,17),(-67209256936568762,17));
  ((-5708029133242597,16),(48332174013859902,17),(-66376511632499502,17));
  ((-66295779285261769,17),(35685734685266235,17),(-65813357222775393,17));
  ((-74373637790059188,17),(22094103923573574,17),(-63090510963911295,17));
  ((-79586054420933416,17),(74869743748585224,18),(-60083318453780798,17));
  ((-79114065387469323,17),(-89428465531310439,18),(-60506116660998666,17));
  ((-75378622670633733,17),(-24144364400755106,17),(-61115570127110586,17));
  ((-69204170485475347,17),(-38025135242786606,17),(-61358551785265036,17));
  ((-59268827980886396,17),(-49086721196465144,17),(-63856869888466938,17));
  ((-47097459790896878,17),(-59508830213911013,17),(-65119339737260562,17));
  ((-33745190497933392,17),(-67609584045576165,17),(-65499666132296885,17));
  ((-20316723683796831,17),(-72212623648135865,17),(-66125393946720179,17));
  ((-42999448770300777,18),(-71324635428183558,17),(-69959322860439443,17));
  ((12333495414755007,17),(-68729168586457978,17),(-71583421797707147,17));
  ((28333424083328967,17),(-65685156267150391,17),(-69876157062865651,17));
  ((4091179330555953,16),(-58549447918080888,17),(-69987051066687389,17));
  ((48248213999918993,17),(-44759210962750362,17),(-75290921629437024,17));
  ((57433998403735631,17),(-33054671312848416,17),(-74891418278459976,17));
  ((61682184927441797,17),(-19036253081412802,17),(-76373615412636275,17));
  ((63216206779008832,17),(-35458030558901829,18),(-77402444930134073,17));
  ((62434494016109154,17),(1233022127649894,16),(-77135592304882206,17));
  ((5659802704800867,16),(27620793306250235,17),(-77677249638528534,17));
  ((4774887154321118,16),(42449352220553838,17),(-76929173675565232,17));
  ((32514617543806229,17),(52937959255726319,17),(-78360526515708584,17));
  ((1692473340683085,16),(60882431287219951,17),(-77504083503159016,17));
  ((97870124083405119,19),(63935344936433547,17),(-76885068847861815,17));
  ((-15072996476272871,17),(57525981531230619,17),(-80396307291409719,17));
  ((-31240351424954194,17),(51015624732389719,17),(-80133928370006602,17));
  ((-44235130993856631,17),(4273414907719667,16),(-78848244676747714,17));
  ((-54344303709998421,17),(30797642676100595,17),(-78090984498024352,17));
  ((-63253168836998341,17),(17333807056933656,17),(-75488911536669934,17));
  ((-68418319709291908,17),(2127495163625405,17),(-72899981429941874,17));
  ((-65728751008977404,17),(-12722336912652862,17),(-74282389799203441,17));
  ((-60968776805562941,17),(-269267575245137,15),(-7455037212549307,16));
  ((-51571549488111113,17),(-38985954126614775,17),(-76292009176799069,17));
  ((-39924286779171331,17),(-49096321002685117,17),(-77431276556542616,17));
  ((-26524396667163591,17),(-55857182817787465,17),(-78590276173984974,17));
  ((-12087486254676627,17),(-5937551833069028,16),(-79551495894199664,17));
  ((46273663562587289,18),(-57284534430099077,17),(-81835625467957163,17));
  ((20725099502870112,17),(-53723732830375215,17),(-81757145139532583,17));
  ((32029186257904035,17),(-45490847215986147,17),(-83094609014233267,17));
  ((39515223025070251,17),(-31513100970134739,17),(-86287146299579587,17));
  ((46451130024542986,17),(-18996501633740037,17),(-86495233655516024,17));
  ((48786221309039729,17),(-31851866715903399,18),(-87233933742853309,17));
  ((47677680507524772,17),(12731427539300891,17),(-86975568605407361,17));
  ((41177177186650132,17),(28743544444311181,17),(-86476868188649891,17));
  ((29738233031056333,17),(39178149009867563,17),(-87067273624199371,17));
  ((14908274771277902,17),(4676188239199659,16),(-87126745024138019,17));
  ((-81098233329467712,19),(49700317547968847,17),(-86771082413936407,17));
  ((-19199825660112427,17),(42180272760595072,17),(-8861259100411798,16));
  ((-33931448525595576,17),(31904286848951507,17),(-88491656564981758,17));
  ((-44939445811276929,17),(19716912987337371,17),(-87130302148133698,17));
  ((-53438745440708579,17),(57482548688378293,18),(-84328275517088747,17));
  ((-51484715757328037,17),(-88168367058645086,18),(-85273603382812779,17));
  ((-46141619215137236,17),(-22992299552430318,17),(-8568725189604689,16));
  ((-35189958684436184,17),(-33653375396815322,17),(-87344817431766952,17));
  ((-22132773538151546,17),(-4100624570107656,16),(-88479535198891268,17));
  ((-69145726623305412,18),(-44605757750069519,17),(-89232925876267577,17));
  ((84731898517817844,18),(-41203379782974436,17),(-9072202901277967,16));
  ((20421550261758528,17),(-33157175264680694,17),(-92106253931932969,17));
  ((26873676313346162,17),(-19613348822885954,17),(-94303351315620254,17));
  ((33428571361294152,17),(-54545963244706938,18),(-94089202333104804,17));
  ((32588896606940099,17),(12494809707106058,17),(-93711491015378556,17));
  ((2261395519826073,16),(23960391024144262,17),(-94416675922535864,17));
  ((96596091368914866,18),(32053648851613237,17),(-94229801796565171,17));
  ((-63901763417296115,18),(34275833403371475,17),(-93724772023333958,17));
  ((-2290812192357195,16),(23516561406922179,17),(-94457341109779391,17));
  ((-35321460921565967,17),(81458457821323202,18),(-93198924858927457,17));
  ((-35364896320027994,17),(-68784606182822131,18),(-93284569398140071,17));
  ((-27167479721698123,17),(-19332680858471474,17),(-94277120747271503,17));
  ((-12444807898703936,17),(-27264039729761591,17),(-95403348442171243,17));
  ((16601722595217989,18),(-24975345588168904,17),(-96816713127539333,17));
  ((10975852581613946,17),(-13713457520572064,17),(-98445272831853858,17));
  ((18826429141157683,17),(16586142527424665,18),(-98197833807847146,17));
  ((80741292240909618,18),(13065532654924994,17),(-98813462107729877,17));
  ((-62956150682527634,18),(17827337786752945,17),(-98196493106166471,17));
  ((-19424030342907345,17),(6800917070811828,17),(-97859361188563643,17));
  ((-14239339765009643,17),(-87763612222044193,18),(-9859115927279688,16));
  ((-13147045836053698,18),(-23059260295008748,18),(-99964765077522777,17))].

(** womersley/womersley_482.hpp:1-502. *)
Definition wo_482 : list lit3 := [  ((0,0),(0,0),(1,0));
  ((14035493091067108,17),(0,0),(99010125409932737,17));
  ((13193718836717419,17),(16433101280099358,17),(97754176205293886,17));
  ((18069172037103521,19),(21419745282854935,17),(97678871116121135,17));
  ((-11937532473666139,17),(10969930534409614,17),(98677028443860193,17));
  ((-16492161741819461,17),(-55807574735647472,18),(98472654819005045,17));
  ((-65911603471396657,18),(-17603605922854387,17),(98217461094202285,17));
  ((85531708046448163,18),(-18144933905900704,17),(97967365192379585,17));
  ((2395879704899205,16),(-13911070866378378,17),(96085681302240911,17));
  ((31425733038741216,17),(7129748525451356,18),(94931106439551238,17));
  ((2973932922849018,16),(14803807123781895,17),(94320833285554329,17));
  ((24606338817654544,17),(29659390395084462,17),(92275937553528864,17));
  ((10858235572928786,17),(36306373782845591,17),(92541590341765179,17));
  ((-52443769679971594,18),(36873650664717006,17),(92805336036641539,17));
  ((-18043164309969278,17),(27030827548550385,17),(94571552719218799,17));
  ((-27759727079252738,17),(13423849938752885,17),(95127271617067033,17));
  ((-31639510237219348,17),(-18239258915340405,18),(94845214356292562,17));
  ((-304564215702955,15),(-17528680020559459,17),(93622389212566448,17));
  ((-19675966603299497,17),(-27153310229272493,17),(94210159122138881,17));
  ((-36294226304230806,18),(-34270752592217646,17),(9387407953281236,16));
  ((13999696752734753,17),(-31959812660284387,17),(93715414236671835,17));
  ((29467170045207541,17),(-30796019559250432,17),(90461544696258023,17));
  ((3875723217676183,16),(-17789281264193116,17),(90451193613462089,17));
  ((46509023041588476,17),(-3603237696404369,17),(88452967467576815,17));
  ((47951839207201752,17),(11076859430716929,17),(87051273981480626,17));
  ((43186758608625697,17),(24541036695305285,17),(86790790979227594,17));
  ((37696531685738777,17),(38085930063936418,17),(844300505153884,15));
  ((23158255492760849,17),(46697350265381948,17),(85340803140843735,17));
  ((56717996360207433,18),(50940685115708229,17),(85865460394917215,17));
  ((-11245118955996301,17),(50511462319062972,17),(85569500840284052,17));
  ((-24253259454581735,17),(40741886500230368,17),(880447504978638,15));
  ((-35598366747740551,17),(29172389474688154,17),(88779096510555144,17));
  ((-43280570787072581,17),(15830573994281708,17),(88747873886402329,17));
  ((-46827635978677939,17),(71261045016593428,19),(88355332012248933,17));
  ((-4722116959924294,16),(-14177396103539738,17),(87000934370861049,17));
  ((-42057408893753367,17),(-28522873073204724,17),(86125606347900319,17));
  ((-30741408184638741,17),(-38806142637980662,17),(86885264092285097,17));
  ((-16037691661839018,17),(-44198413317981733,17),(88256969732325585,17));
  ((29136063032656173,18),(-46677928387477036,17),(88389376622777105,17));
  ((19597565104181291,17),(-46244828921857267,17),(86471678831716514,17));
  ((35805678181022321,17),(-44104867217285815,17),(8229650112697775,16));
  ((46652520504524375,17),(-31974167113367191,17),(82469357751721339,17));
  ((54602576948452219,17),(-17794909703777417,17),(81865131644814215,17));
  ((61487702397452659,17),(-22763369260916412,18),(78829440845925103,17));
  ((63065853975859987,17),(11979743054455128,17),(76675835950087556,17));
  ((58384679954587704,17),(26011523146928184,17),(76906630469532233,17));
  ((5353889401628632,16),(39299152980087348,17),(74760707611422128,17));
  ((42049887108185602,17),(50822929929321459,17),(75158743919707216,17));
  ((26988783793595822,17),(57995090540716132,17),(76864653921790849,17));
  ((1015736766226091,16),(62249854193041843,17),(77600151643657811,17));
  ((-71881548087006183,18),(63787089070721048,17),(76678143550362865,17));
  ((-23838071919667847,17),(58407459224932667,17),(77590689093734511,17));
  ((-35905419536064759,17),(48831263642148653,17),(79538094892008515,17));
  ((-46740881066050954,17),(37604117121338354,17),(80007627215747046,17));
  ((-5539047824690454,16),(25180163018266893,17),(79359021604053936,17));
  ((-59489808291729485,17),(1099443753569414,16),(79624651036516281,17));
  ((-61881702190594279,17),(-38907467217347676,18),(78457103081505053,17));
  ((-60137442966840904,17),(-19663862898696971,17),(77439140292950093,17));
  ((-54926008912442481,17),(-3441324703187828,16),(76150259183230695,17));
  ((-44463355590784098,17),(-4567172100896702,16),(77052604820905102,17));
  ((-30970432708207962,17),(-54020449613577315,17),(78247193696728301,17));
  ((-14734552634656586,17),(-57605618042780971,17),(8040202564964245,16));
  ((-25785295112414164,19),(-60028155970957486,17),(79978459616211661,17));
  ((1628507506063773,16),(-59328364217410512,17),(78834900453769075,17));
  ((32264196537639656,17),(-58205520127267196,17),(74640063293748993,17));
  ((47427498478723118,17),(-5077441531798248,16),(7192072814681274,16));
  ((57405111593218072,17),(-36781795079977708,17),(73155674514453806,17));
  ((66375701848758117,17),(-19331125701313193,17),(72253538205438739,17));
  ((73730913140283105,17),(-41658439092877399,18),(67426984153404623,17));
  ((76667883335218956,17),(96375479393036464,18),(63475612124774983,17));
  ((7223706024419807,16),(23793818270466033,17),(64928124409905263,17));
  ((6759684847026074,16),(38115801904430852,17),(63070212636955603,17));
  ((5806681706962814,16),(51367960540137048,17),(63163101454482629,17));
  ((45383013640699288,17),(61812476643705738,17),(64184108656733996,17));
  ((31265474793920683,17),(68827612151123474,17),(65461667344219332,17));
  ((16384577059415784,17),(72609337536365293,17),(66778961785237723,17));
  ((17599277383351507,19),(74603510432404208,17),(66590429174962629,17));
  ((-17024338697010258,17),(72778234583850099,17),(66434181433864037,17));
  ((-31984958688064374,17),(6755171491900831,16),(66435895638004661,17));
  ((-44351341006079159,17),(5815578190938081,16),(68197240277528948,17));
  ((-54997920750568352,17),(47550527248079105,17),(6865985778854985,16));
  ((-64150204762010443,17),(35597841024483734,17),(67952519772174125,17));
  ((-70482007840722949,17),(21936728554821844,17),(67461592858843267,17));
  ((-73302766606892045,17),(79085498790976622,18),(67558561608321255,17));
  ((-7348564535616019,16),(-81177285032052224,18),(67334704354715191,17));
  ((-70571556062324681,17),(-24852567059195005,17),(6634761024717003,16));
  ((-64409654379535508,17),(-40843180753154062,17),(64677902012000732,17));
  ((-54195100115123029,17),(-53284195981420923,17),(64989888306761379,17));
  ((-41587894921264285,17),(-61869182173584181,17),(66653216675489368,17));
  ((-2546433537826866,16),(-67409584393010136,17),(69336249939729944,17));
  ((-11987016046031143,17),(-72615195088216999,17),(67700405379970785,17));
  ((26282998920657941,18),(-72348534889904037,17),(68983922322246261,17));
  ((18136750077008065,17),(-71137454298643499,17),(67900816582369283,17));
  ((34498290499558337,17),(-69029774046068737,17),(63598413877680759,17));
  ((49350511697734772,17),(-62012050443219546,17),(60983871597327577,17));
  ((61575062462566854,17),(-48801119575278779,17),(61862447501940421,17));
  ((69988638232608513,17),(-31990585694786011,17),(63860730854333347,17));
  ((78928339471820819,17),(-17261476376344953,17),(58926722813422239,17));
  ((85429027820445136,17),(-48653285452177668,18),(51751423012325959,17));
  ((86498550290328835,17),(96159310741631476,18),(49249717433183277,17));
  ((82207047403103783,17),(25151439788857316,17),(51082349532997517,17));
  ((76252162304982474,17),(40756134150949103,17),(50244853197958983,17));
  ((66326022746793944,17),(55189143675149033,17),(50547177240628682,17));
  ((54283782143868653,17),(66886057264338072,17),(50789037594629582,17));
  ((407389169062707,15),(75441496039702682,17),(51467672616852378,17));
  ((26654467264463744,17),(81045926423494841,17),(52164136962141827,17));
  ((11961511534056551,17),(83466026013750338,17),(53761926521401582,17));
  ((-40054889206934188,18),(84036785888709908,17),(54053442776582972,17));
  ((-19864470645386287,17),(81971774163877964,17),(53721793030433873,17));
  ((-35087840423212951,17),(77322335458444258,17),(52821396173207658,17));
  ((-47840260626554881,17),(68816005797574786,17),(54549672861085585,17));
  ((-59302483267541051,17),(58772084489049559,17),(55036874576187855,17));
  ((-69008360787241796,17),(47350337042383073,17),(5473382613549499,16));
  ((-76803878134842984,17),(34196437020649173,17),(54145803147990723,17));
  ((-82312469537785016,17),(20542547543992162,17),(5294016527169173,16));
  ((-83750567902584439,17),(55158093677180817,18),(54363758359899905,17));
  ((-82748517651179587,17),(-10746757137246322,17),(55110707104567835,17));
  ((-79259006220497774,17),(-27402978293579705,17),(5447097129279681,16));
  ((-73041810377352068,17),(-43403786120221555,17),(52735237623708553,17));
  ((-62392574342080498,17),(-58172676572240201,17),(52183391681544566,17));
  ((-50775546596129362,17),(-68854818665501061,17),(51777000824741304,17));
  ((-36751695981338733,17),(-74059727096919925,17),(56253619126461496,17));
  ((-22805423201764238,17),(-8037849751994377,16),(5494733668727565,16));
  ((-75439327104807136,18),(-8395718268458694,16),(53798518148055297,17));
  ((66080685877074288,18),(-82987099281946997,17),(55402840922721874,17));
  ((22034625914306871,17),(-80558949650640677,17),(54997553509243446,17));
  ((38966804518795356,17),(-76851977320112397,17),(50748021908079533,17));
  ((54466816895930903,17),(-68545782415950984,17),(4832019836683456,16));
  ((66149743675176131,17),(-56654971205637439,17),(49136805445581111,17));
  ((74635826016165951,17),(-41967373849611062,17),(51654941748603189,17));
  ((82475010214268796,17),(-28998616105201963,17),(48548459853422521,17));
  ((89708316918008402,17),(-17676385207946319,17),(40496460113427996,17));
  ((93541726214295084,17),(-36788890709470931,18),(35162639719644589,17));
  ((93081071933484816,17),(12300629424220506,17),(34418142940626906,17));
  ((88118667903914183,17),(28354128179820604,17),(378304610334316,15));
  ((80994194408902187,17),(45574589711851077,17),(36917438218941967,17));
  ((71821230875161868,17),(59123313099383856,17),(36689843877140166,17));
  ((59813669227787092,17),(71133795145125156,17),(36909458974092885,17));
  ((45925175429844561,17),(80833711327277846,17),(36834621958102332,17));
  ((31562900950207795,17),(87585028859079617,17),(36505424300527761,17));
  ((16880465707416231,17),(90987984796058119,17),(3789771101601046,16));
  ((20161259240520858,18),(91864720892088159,17),(39456410020136223,17));
  ((-13853642024253954,17),(90773277405101616,17),(39601625115647632,17));
  ((-29580982565594693,17),(87274808961977723,17),(38833918049873306,17));
  ((-44361318212642215,17),(8102102493133162,16),(38310141810142623,17));
  ((-5664582088469251,16),(7209912585169812,16),(39911991026761984,17));
  ((-67896312586308671,17),(61597068514589637,17),(39948615590420811,17));
  ((-77446991127398901,17),(49158723667511284,17),(39816873969384659,17));
  ((-8499267902948684,16),(35783132450472049,17),(38675728091693423,17));
  ((-90162661795204613,17),(21213838167449775,17),(37691742971223841,17));
  ((-91458520050056413,17),(52624677518856695,18),(40095455396014573,17));
  ((-90419990918347792,17),(-11018773904577389,17),(41265141026848634,17));
  ((-87353714421928652,17),(-26676411967760777,17),(40714832938604123,17));
  ((-82142522043237653,17),(-41304729743210783,17),(39325886807757232,17));
  ((-72672471867045929,17),(-55791503769064954,17),(40075178601221839,17));
  ((-61858532141069678,17),(-69229386459611886,17),(37159306395275415,17));
  ((-48751415591814312,17),(-78554810401540298,17),(38110907107706848,17));
  ((-35126770327787027,17),(-83928849050542931,17),(41497690338018572,17));
  ((-19335420745818449,17),(-89380356903636915,17),(40463481120149047,17));
  ((-37947421907855286,18),(-92427727071971588,17),(37983090974993111,17));
  ((10313858384571953,17),(-91023361574015127,17),(40104513124947705,17));
  ((25672031093607106,17),(-8740688722675376,16),(41242973763520274,17));
  ((42358755332851222,17),(-82458157353596728,17),(37501841721455897,17));
  ((57408755487008545,17),(-74220648321697469,17),(34576439321303359,17));
  ((69980701155855418,17),(-62467053782671433,17),(34649223042482341,17));
  ((78973203674347636,17),(-4923229815333463,16),(36598004316508415,17));
  ((86429573103936974,17),(-37441162608999973,17),(33587024809554616,17));
  ((92931750643069444,17),(-25788005849166812,17),(26432337708528547,17));
  ((97188797025964502,17),(-11146746819721425,17),(20738557519338341,17));
  ((98014559284647285,17),(52584787974059917,18),(19117912254574082,17));
  ((95047662418502588,17),(2239940005374351,16),(21545504078826422,17));
  ((8930201191627396,16),(37877432298734243,17),(24299193199784827,17));
  ((82906882883270472,17),(52086322807829744,17),(20333807979279947,17));
  ((73446727036025405,17),(64264817883475789,17),(21808518292155199,17));
  ((6122585482829539,16),(75816900691055156,17),(2243194753353305,16));
  ((47173225017570203,17),(85371745380298258,17),(22053388224107684,17));
  ((31585645487054148,17),(92548183892003555,17),(20908865522979228,17));
  ((1677922553321908,16),(96322298267145934,17),(20987435456490269,17));
  ((21279743138067988,18),(97245549656845887,17),(2321152294136897,16));
  ((-13442820412349696,17),(96033575232558721,17),(24430370595097381,17));
  ((-29509762912842352,17),(92540888705402702,17),(23777254055969202,17));
  ((-44266578142717661,17),(86811204990919566,17),(22456285257344186,17));
  ((-57497707735027637,17),(7835838317945335,16),(23536724298833647,17));
  ((-69286342488399832,17),(67832708153542376,17),(2445662382947629,16));
  ((-79700609283195567,17),(55187932043259136,17),(24537828687070318,17));
  ((-88149557109461285,17),(41046028557694275,17),(2334264597355597,16));
  ((-94031460046477666,17),(25805122461865815,17),(22185134127513895,17));
  ((-96496373105741706,17),(93122441487645854,18),(24530228012623273,17));
  ((-96286908625447065,17),(-70152176476521624,18),(26069483092514051,17));
  ((-94020165896812391,17),(-22775204990149833,17),(25327819534901319,17));
  ((-89937070685652776,17),(-37005577206755824,17),(23278972745349577,17));
  ((-82490060713749025,17),(-50712248468158005,17),(24973140346095959,17));
  ((-72979338745524669,17),(-6367738131342785,16),(24883874805388972,17));
  ((-61424052104633342,17),(-75866303082596198,17),(21711514908613436,17));
  ((-48958372371462272,17),(-84378129367353516,17),(2198656542535451,16));
  ((-34173675430624878,17),(-90118402382905938,17),(26661460190975261,17));
  ((-18543869292490295,17),(-94963397768982805,17),(25260205775745115,17));
  ((-31201457619841708,18),(-97671540658932088,17),(21225805891285901,17));
  ((1168548394567805,16),(-96537031575684218,17),(23324900846748525,17));
  ((26369879701793053,17),(-92818267635574703,17),(26256401841147015,17));
  ((41086968545041364,17),(-88156950903491416,17),(23242483154305735,17));
  ((55874982903142123,17),(-8029334521587953,16),(20759696520353341,17));
  ((69710534859924445,17),(-68822973707296398,17),(20095761235346349,17));
  ((80405246730377311,17),(-56047915702686557,17),(19840046461933761,17));
  ((8781037987818523,16),(-44837886264824406,17),(16700333558090216,17));
  ((93932507521903941,17),(-32346156229723383,17),(11419728885126205,17));
  ((98306611161433899,17),(-17098305890554019,17),(65922786369877862,18));
  ((99933265332356647,17),(-1322215546807534,18),(36503421035955913,18));
  ((98553309412430057,17),(16145928880820518,17),(51530752404084522,18));
  ((94385857648970461,17),(32145625066056466,17),(76137155831306869,18));
  ((88735730072022256,17),(45757352594213219,17),(56775780183149653,18));
  ((80010960147880772,17),(59843235984772958,17),(41271495108620979,18));
  ((69612260385292124,17),(71491274666221827,17),(65674082139850265,18));
  ((57258430109503533,17),(81695445175380821,17),(68794199603923412,18));
  ((42855947347596551,17),(90092079315407236,17),(68399577167116157,18));
  ((27758284952801288,17),(95975868476851878,17),(42556182386481851,18));
  ((12575827978461351,17),(99122652599986771,17),(40679592178983773,18));
  ((-21555307589669507,18),(9975053382607374,16),(67219557094989266,18));
  ((-17477758898073892,17),(98088250971480873,17),(85570418519826136,18));
  ((-32666575562404915,17),(94226652643479314,17),(73642903684459027,18));
  ((-47186556964844839,17),(87956713328587699,17),(60864950699147921,18));
  ((-60514794534523297,17),(79242981428081805,17),(76491526872660975,18));
  ((-7276577830224481,16),(67998571352591619,17),(90186363755871954,18));
  ((-8333033121911515,16),(54481027648708757,17),(93740879691409762,18));
  ((-91698868590116145,17),(39094369005793067,17),(79339656749633419,18));
  ((-97204524105529111,17),(22395607687195956,17),(70510460031700722,18));
  ((-99357984901444685,17),(68380082750098006,18),(90129062546544278,18));
  ((-99053542090618718,17),(-91248529696608974,18),(10253431502872434,17));
  ((-96546914344987456,17),(-24670429587745946,17),(83703783915498584,18));
  ((-91664214648661257,17),(-3948874096311773,16),(61895953011439672,18));
  ((-84550451137566018,17),(-52685518390443864,17),(86866198468831354,18));
  ((-75006461638168231,17),(-65525888835002399,17),(89659692674526212,18));
  ((-64667641817812149,17),(-76081937088312612,17),(54437992811268023,18));
  ((-51489781710227234,17),(-85569308988041715,17),(51667919197690954,18));
  ((-36885482418454352,17),(-92340741585947927,17),(10613605895975339,17));
  ((-22005690647295703,17),(-9707795211694249,16),(95718750470397559,18));
  ((-68467813147906648,18),(-99613399679336301,17),(55038341138007194,18));
  ((95117464971728002,18),(-99396188842892363,17),(54703127955904582,18));
  ((23889428349458894,17),(-96701361281532061,17),(88397929520256033,18));
  ((3786988689032893,16),(-92245805464906794,17),(75221699691157523,18));
  ((52258239645322802,17),(-85033326405915111,17),(61975631918611385,18));
  ((66300968091163826,17),(-74630126623363835,17),(58758684766726431,18));
  ((77806957107469576,17),(-62704574381015665,17),(37701163605468595,18));
  ((85629791025152002,17),(-51639098566573216,17),(-97076682088686854,19));
  ((92004773533586615,17),(-38991950953184268,17),(-38404957880347548,18));
  ((96725852553102065,17),(-2421105386927255,16),(-76114596770094661,18));
  ((99123344358309939,17),(-79163236366409775,18),(-10578016038173846,17));
  ((98856761026246665,17),(84774705289349259,18),(-12468893007424428,17));
  ((9658557704170001,16),(24211554929206988,17),(-92210040359943735,18));
  ((9152692020682871,16),(38919805938164925,17),(-10395748322674585,17));
  ((83851494023568751,17),(53393035557851387,17),(-10867874858197009,17));
  ((7323020388648569,16),(67254228341358346,17),(-10686721150669559,17));
  ((61862637720808955,17),(77975562462907422,17),(-96346101538758153,18));
  ((48944552820080062,17),(86727866978128398,17),(-9094385007599845,17));
  ((35023683058385868,17),(93032859847420235,17),(-10873298194936057,17));
  ((19545368018313009,17),(97246571061880771,17),(-12691848003158521,17));
  ((40442519434069533,18),(99175653144486187,17),(-12158694402887879,17));
  ((-10673673098941612,17),(99009590049545437,17),(-91199660524522455,18));
  ((-25282626733374802,17),(96352105014674316,17),(-87784192598675592,18));
  ((-39650278862835908,17),(91254518520941585,17),(-1002338443892463,16));
  ((-53964200407338836,17),(83654709860550525,17),(-94738900428325765,18));
  ((-67065299319079985,17),(73838116557480471,17),(-70836551642592754,18));
  ((-78725608664158353,17),(61404196351364926,17),(-56394335620537438,18));
  ((-88093475576720559,17),(46932528164772264,17),(-60726732891369962,18));
  ((-9481610318549426,16),(30880003889824104,17),(-75054604443800438,18));
  ((-98365612123738966,17),(15255433433486393,17),(-95644185541309004,18));
  ((-99757973468055516,17),(67637415880667925,19),(-69202057443423851,18));
  ((-98678898592924669,17),(-14856434563606447,17),(-64623002518119796,18));
  ((-94742628819462693,17),(-30740144691525473,17),(-88813168348840302,18));
  ((-8809119773572176,16),(-46287842452008049,17),(-98679543282308782,18));
  ((-80128242426405649,17),(-59411574955485535,17),(-70519165454428184,18));
  ((-70185504872706805,17),(-70453353386179207,17),(-10503328158512402,17));
  ((-57824502478989703,17),(-80895597332351321,17),(-10593830530048512,17));
  ((-42276344419343098,17),(-90334044704343253,17),(-72436917307953291,18));
  ((-28152380737538335,17),(-95744751978673781,17),(-63549923171410824,18));
  ((-13534098596271166,17),(-98582709966658233,17),(-99134994233194079,18));
  ((2797632608412752,17),(-99395659888780319,17),(-10614897411763004,17));
  ((18600202514278574,17),(-97715116408819469,17),(-10285353257846197,17));
  ((32236906096178214,17),(-94203406618310004,17),(-93005412128293094,18));
  ((46531647622621874,17),(-8800168031443506,16),(-95136760171934232,18));
  ((60473229447993937,17),(-79118466479343985,17),(-91245154439675694,18));
  ((72106610705300112,17),(-68347995507439097,17),(-11366098834225684,17));
  ((80254884938804039,17),(-57044065276713285,17),(-17467915163676453,17));
  ((8732270541140863,16),(-44291363522843663,17),(-20322899323660967,17));
  ((92608122608448151,17),(-30297486122475747,17),(-22489952458754187,17));
  ((95617080766892826,17),(-148694942997741,15),(-25224432697019727,17));
  ((96110160644293063,17),(12222424861727,15),(-27592447231682388,17));
  ((94749686099551578,17),(18677369389392948,17),(-25954823380801656,17));
  ((90213523085281655,17),(34844803413990821,17),(-25443268806929803,17));
  ((82086867755183957,17),(51063015309881787,17),(-2557957407006069,16));
  ((71886694311215615,17),(64531371567239726,17),(-25845797814280896,17));
  ((59615142046648972,17),(75933235330975424,17),(-26080234104174971,17));
  ((47204943661003795,17),(84182804500386332,17),(-2617152499208239,16));
  ((33141996606171564,17),(90305095109919209,17),(-27323942946525076,17));
  ((17896902781861757,17),(94129433435450083,17),(-28624301422703058,17));
  ((20259377208179632,18),(9583118641640076,16),(-28500513791446191,17));
  ((-12827184497985031,17),(95557973393556228,17),(-26535580995543573,17));
  ((-26749118537436684,17),(9270110334260373,16),(-26286690482715086,17));
  ((-41117994692312015,17),(87319785833598651,17),(-26164202920354057,17));
  ((-55250240026665809,17),(79608459033132239,17),(-24696239134044701,17));
  ((-68412054348035223,17),(69546574232785097,17),(-21978735913723207,17));
  ((-79430844739377804,17),(57086274867150555,17),(-20782158833504166,17));
  ((-87925823459887587,17),(42546534410634307,17),(-21420597063233165,17));
  ((-9316154555412699,16),(273710328160508,15),(-2391135697841075,16));
  ((-95663447101387411,17),(12007975778816879,17),(-26538903639287748,17));
  ((-97067376592686094,17),(-24709657436860429,18),(-23912731540064305,17));
  ((-95803757722762428,17),(-17491218735255212,17),(-22708969006841689,17));
  ((-90974533240690658,17),(-3379441144779185,16),(-2411580511896349,16));
  ((-83222160877593832,17),(-49695342602889087,17),(-24585460387094041,17));
  ((-73923003040046609,17),(-62615307630790873,17),(-24793403797031999,17));
  ((-61297364154677392,17),(-74397477999165185,17),(-26601661885164329,17));
  ((-47987609428380557,17),(-84618382746752285,17),(-23171504972127674,17));
  ((-33573256447508354,17),(-91196357052787091,17),(-23580943827811626,17));
  ((-19364568430377718,17),(-94800849462432502,17),(-25254948637968561,17));
  ((-30896561606510099,18),(-96437852872412566,17),(-262715541635408,15));
  ((12160823981774402,17),(-95440715256137976,17),(-27261405530183019,17));
  ((26485300344276519,17),(-92401971455730758,17),(-275754335735231,15));
  ((40713498922565222,17),(-8768789274990767,16),(-2555864766694379,16));
  ((54809078332388506,17),(-79837319416495611,17),(-24939273460599309,17));
  ((66366394534159179,17),(-69728051686106896,17),(-27083214074328993,17));
  ((74739678999333559,17),(-57423705628297983,17),(-33414045175511986,17));
  ((81992000450561608,17),(-43906308017669776,17),(-36736194391534527,17));
  ((87190240736156421,17),(-29938457873205393,17),(-38749847232542678,17));
  ((90276623029394898,17),(-14767680591709306,17),(-4039860077217749,16));
  ((9091654670456053,16),(29322699630445825,18),(-41540141167084293,17));
  ((89515801070869894,17),(20096765531091101,17),(-39787452467188672,17));
  ((84054757807925895,17),(37745632242136501,17),(-38859553992452184,17));
  ((75196773445938125,17),(52241737670969213,17),(-40202563456052059,17));
  ((64093037573138789,17),(65271464757713937,17),(-40394534568809237,17));
  ((51205679006358429,17),(74817980226041214,17),(-42192988426911526,17));
  ((37570036084474362,17),(8238780029693209,16),(-42435159371023135,17));
  ((226417272292389,15),(8706459504485442,16),(-4367045314342699,16));
  ((70438548403520609,18),(89532281164738059,17),(-43981299871949436,17));
  ((-83677261369017583,18),(89545227386989168,17),(-43722230175394949,17));
  ((-22416453860463395,17),(87298549334066822,17),(-43318193412112854,17));
  ((-36557597524520197,17),(83100189930142654,17),(-41927323988175208,17));
  ((-50805475170187653,17),(761806065003931,15),(-40191029919171151,17));
  ((-64212374406248196,17),(67061541925661872,17),(-37141897739136831,17));
  ((-75654849251521139,17),(54794616278155261,17),(-35691649046511326,17));
  ((-83714760934744303,17),(40559213224120583,17),(-36698624283192571,17));
  ((-88255420142631014,17),(25138965341011732,17),(-39736799531807931,17));
  ((-89943986802117148,17),(95429516945367526,18),(-42649868828594484,17));
  ((-91327014475665247,17),(-51468406114997971,18),(-40408989825055602,17));
  ((-90169706829976504,17),(-20029801026793512,17),(-38317503063523717,17));
  ((-85166455122349705,17),(-3544151185166034,16),(-38607954615097306,17));
  ((-77217572447042515,17),(-49766282928204231,17),(-39506500590354338,17));
  ((-66640951747373178,17),(-63267122320746016,17),(-39449395222944061,17));
  ((-52844203104410659,17),(-74857294523726337,17),(-4004841638377088,16));
  ((-39716424687814922,17),(-83232869923781561,17),(-38663871692679547,17));
  ((-24828248616092552,17),(-87795538976825049,17),(-40932889055456273,17));
  ((-93469133270329297,18),(-90780031730812893,17),(-40885462577908288,17));
  ((60191895338407263,18),(-8988281696783067,16),(-43414842753177785,17));
  ((20239124988924118,17),(-87432697842256124,17),(-4411236978113337,16));
  ((35591014882496219,17),(-8360520006691784,16),(-41754642632940503,17));
  ((49644492493024078,17),(-7685316842348664,16),(-40361056333813561,17));
  ((61341209467676516,17),(-66401307271322818,17),(-42756548196761684,17));
  ((69657371779565569,17),(-52581516906316828,17),(-48816335755503998,17));
  ((76011870785867364,17),(-3830631915641875,16),(-5248639263960887,16));
  ((80710901474476959,17),(-23431915239994042,17),(-54191288334593113,17));
  ((83875052925307425,17),(-73017088849139059,18),(-53959804893428287,17));
  ((83233034173414233,17),(9960480908678622,17),(-54525689746715789,17));
  ((81161789808451279,17),(26285705482928462,17),(-5217111808609739,16));
  ((74154316191872516,17),(40631738809813467,17),(-53387256826015062,17));
  ((64391654750874527,17),(54544501086042574,17),(-53652699836251272,17));
  ((51751968522404834,17),(65139682372887664,17),(-55484732444297935,17));
  ((37201670682331517,17),(73647890115043824,17),(-56497999788008313,17));
  ((21828167598814674,17),(78743456512924415,17),(-57645460841901852,17));
  ((60959088657731669,18),(8101014554981677,16),(-58311201437611371,17));
  ((-88639710041412398,18),(8036433435727246,16),(-58847292047725186,17));
  ((-23563203482404976,17),(77597215407101361,17),(-58510235025255952,17));
  ((-37741814231262116,17),(73665305439797513,17),(-56115757439370262,17));
  ((-52005432184606859,17),(66762427324158979,17),(-53274884524310773,17));
  ((-65079134125060989,17),(56982427989876183,17),(-50176779509160396,17));
  ((-74616457151042626,17),(43625417633920271,17),(-50291224468018858,17));
  ((-80094143140917784,17),(28152321149899462,17),(-52842928083094487,17));
  ((-81359351464271623,17),(12365635106210357,17),(-5681326427633937,16));
  ((-82634644550670433,17),(-32778860122476251,18),(-5622073446047342,16));
  ((-82525071181069398,17),(-182296768390729,15),(-53453638874284304,17));
  ((-78058959664574112,17),(-32720930281349619,17),(-53255417917874326,17));
  ((-70481639261126372,17),(-46505467563233066,17),(-53568460998889322,17));
  ((-60741972688625734,17),(-59218088093523147,17),(-52949322908248575,17));
  ((-48179977878545793,17),(-69001226999850374,17),(-54014075981525012,17));
  ((-34149067266962274,17),(-77248303830053988,17),(-53540085545095573,17));
  ((-1766549248972675,16),(-8160351317257396,16),(-55034507474755834,17));
  ((-20455110914117527,18),(-82405840786198559,17),(-56613543332798066,17));
  ((1252704755185382,16),(-7912602486155107,16),(-59851025632338117,17));
  ((27622351999460876,17),(-77674072756184709,17),(-56601626226503454,17));
  ((42888098047315321,17),(-7172925116854113,16),(-54913801295159037,17));
  ((54934709210323984,17),(-61497475014714753,17),(-56570648668648649,17));
  ((62349706406521566,17),(-46999038102256152,17),(-62478832643410021,17));
  ((6851368881637897,16),(-31017545955852388,17),(-65907406925541945,17));
  ((72819176058024482,17),(-14717848278113083,17),(-66938423497217781,17));
  ((74415601956940292,17),(583804764008055,17),(-66798034083225433,17));
  ((73007333433646138,17),(17206819919475944,17),(-66135123899234816,17));
  ((68114575271112743,17),(31609298232288841,17),(-66039812998661174,17));
  ((59746478456762542,17),(45560421732838874,17),(-65989440697292401,17));
  ((47361429977820318,17),(56597892551134021,17),(-67480171229971786,17));
  ((32905523314863711,17),(64907767133069616,17),(-68587231327515819,17));
  ((16711655156827868,17),(69312245727700106,17),(-70117994652601034,17));
  ((11463701032909545,18),(69841517559481503,17),(-71560102435469708,17));
  ((-14349011403701845,17),(68258045227782216,17),(-71658531476848386,17));
  ((-2979893926639367,16),(64581213844446217,17),(-70294310132297966,17));
  ((-44340510990431675,17),(59737869069897909,17),(-66822945790313248,17));
  ((-57754164200959335,17),(51318663478764714,17),(-63488985629020156,17));
  ((-67206397849413124,17),(38247588162493545,17),(-63406798435646339,17));
  ((-70822716921411732,17),(23044391353480034,17),(-66731542729186444,17));
  ((-71464990072144174,17),(65101282553679626,18),(-69644622363015185,17));
  ((-72496494062109929,17),(-95835105238660415,18),(-68208611441235256,17));
  ((-70294056649191949,17),(-24701736420599688,17),(-6669759978895351,16));
  ((-63473264148124453,17),(-38509708390253478,17),(-66993634757938458,17));
  ((-54843670160088431,17),(-50382212139124272,17),(-66736830486169374,17));
  ((-43554545131264294,17),(-60261393929789364,17),(-66869768954643527,17));
  ((-29346233150759016,17),(-69376496439883872,17),(-65770056572790569,17));
  ((-1300960128257545,16),(-72261462601203552,17),(-67889846790247454,17));
  ((29137534137738993,18),(-7043179947988063,16),(-70928637820485496,17));
  ((20314792611497726,17),(-67571080673626682,17),(-70862248466655875,17));
  ((35317976786789218,17),(-64724659344668534,17),(-67552638648719199,17));
  ((47381188589752393,17),(-54249795069013795,17),(-69368456107890442,17));
  ((54799242332448872,17),(-38681006186320382,17),(-74167531981342005,17));
  ((5979821243765322,16),(-22047535477843219,17),(-77058938278531586,17));
  ((6134739159755207,16),(-62343704242576362,18),(-78725028863695812,17));
  ((62530478447384519,17),(89812186136794384,18),(-77519526426278418,17));
  ((58128636230954056,17),(24244166925597388,17),(-7767420434103709,16));
  ((50886898369047684,17),(38199221826801111,17),(-77144948157381332,17));
  ((38704629986535871,17),(48334059107138716,17),(-78522419396201548,17));
  ((24468060885770918,17),(55606354475533148,17),(-79430770727921063,17));
  ((85306341516644332,18),(57414707665558584,17),(-81429599192485924,17));
  ((-82071389661308267,18),(56664404371115451,17),(-81986511983724053,17));
  ((-24704223130332228,17),(53502580592478799,17),(-80790935317472778,17));
  ((-40379288696649768,17),(48142073086645204,17),(-77793661973664185,17));
  ((-52891044702130363,17),(39914005291813487,17),(-74895991694364605,17));
  ((-58550075027751114,17),(25751241840688827,17),(-76868473758147904,17));
  ((-59904151611815781,17),(95294698927495064,18),(-79502715822994185,17));
  ((-6045327950814352,16),(-76425531880667821,18),(-79290556672770596,17));
  ((-57871193718416436,17),(-23226586776897923,17),(-78175767372637595,17));
  ((-49450523380254086,17),(-35875666860380667,17),(-7916806341411875,16));
  ((-40258585745687042,17),(-46485456060226482,17),(-78856506698115381,17));
  ((-28686474419390845,17),(-57147052289955835,17),(-76884982928753309,17));
  ((-13447839566284414,17),(-60576612019225773,17),(-78419574643526779,17));
  ((44942428809740032,18),(-59067831092532042,17),(-80565458547388158,17));
  ((21884349257958241,17),(-55531406516049275,17),(-80233024048112411,17));
  ((36388867496590849,17),(-49132626759893261,17),(-79131759174105154,17));
  ((43113258314880354,17),(-34925577117337858,17),(-83195258401517613,17));
  ((47003537292069736,17),(-19525013827449236,17),(-86078111718780903,17));
  ((4805576412125202,16),(-25432110301894535,18),(-87659429683169343,17));
  ((47811448334871653,17),(13121047215329673,17),(-86844133527227896,17));
  ((41480689273951066,17),(27533412155812936,17),(-86725219125788622,17));
  ((29951259845290162,17),(37754258691900905,17),(-87621561183905727,17));
  ((15517739795507185,17),(43273522416961657,17),(-8880654260395261,16));
  ((-12554423085702256,18),(44200848735684128,17),(-89692300871674724,17));
  ((-18219857318787958,17),(41616470837741271,17),(-89084825611854002,17));
  ((-3389617004944725,16),(36463216484191568,17),(-86726486724679075,17));
  ((-44367959170699028,17),(26239327574185817,17),(-85691200758781272,17));
  ((-46749868691093283,17),(10499416681807903,17),(-87773640842267164,17));
  ((-4761445862105988,16),(-62847479106767246,18),(-87711830866323959,17));
  ((-42916097641322487,17),(-21364466763293363,17),(-87759718112358398,17));
  ((-31962929725169809,17),(-31929268476999145,17),(-89212627681890222,17));
  ((-23783262932773747,17),(-43359989312556346,17),(-86915290548243285,17));
  ((-90079156915239184,18),(-47983166626536938,17),(-87272407869752222,17));
  ((81526201798384171,18),(-45908863179809811,17),(-88464179562921375,17));
  ((24141711170822813,17),(-40261746912872171,17),(-88295920162079955,17));
  ((30131865460642121,17),(-27092316151554302,17),(-91422519596683571,17));
  ((3442855855783224,16),(-10975007724237423,17),(-93242820426469541,17));
  ((3350361500639415,16),(69065655614563237,18),(-9396705344773042,16));
  ((27496588948331968,17),(20542806276701364,17),(-93925133518586956,17));
  ((13403478374542102,17),(28484111435021575,17),(-94915763512814111,17));
  ((-26248253513121482,18),(29664022407310725,17),(-95462851761790968,17));
  ((-18817518816678175,17),(26567250969680495,17),(-94552007707388075,17));
  ((-30569917504670496,17),(18077553982831879,17),(-93480918832430393,17));
  ((-33287185514536483,17),(18794802933085962,18),(-94278474925869993,17));
  ((-29840367898770781,17),(-12952625357214029,17),(-94560995870505016,17));
  ((-17712291546329095,17),(-24472155274459423,17),(-95327794186168946,17));
  ((-68822225931101905,18),(-33419666649017921,17),(-93998728146966981,17));
  ((94906590594057358,18),(-31136030406891507,17),(-94554085057808301,17));
  ((17471473317517383,17),(-17602608170719816,17),(-96875671898074522,17));
  ((20316927471003701,17),(-18818501120249739,18),(-97896277244305097,17));
  ((12312255564925391,17),(12456685350843018,17),(-98454250050335845,17));
  ((-42115740030146835,18),(14064377860070096,17),(-98916408749136764,17));
  ((-17094039482312037,17),(7021696289869557,17),(-98277614925220835,17));
  ((-14049488046355105,17),(-78945143888488695,18),(-98692900090125957,17));
  ((23185939622317178,19),(-16686004092860943,17),(-98597786530091081,17));
  ((30834241725575695,18),(-1923078455254567,17),(-99933949509798836,17))].

(** womersley/womersley_513.hpp:1-533. *)
Definition wo_513 : list lit3 := [  ((0,0),(0,0),(1,0));
  ((14851896472129125,17),(0,0),(98890955962520444,17));
  ((992179419473906,16),(1472550857584583,16),(98410961773269612,17));
  ((-16474724782208003,18),(21577906228061403,17),(97630322119956636,17));
  ((-13912198036452803,17),(14144593361658878,17),(98012148351252026,17));
  ((-14560546630028287,17),(-96406161656043265,19),(98929576300691024,17));
  ((-44045972244006582,18),(-15634616377465524,17),(98671973194115703,17));
  ((10264600051668228,17),(-17832519545066794,17),(97860304682001187,17));
  ((24752238770856871,17),(-1223021500219512,16),(96113206776335225,17));
  ((31272342777432094,17),(27089991386477177,18),(94945784007914735,17));
  ((27370119874036847,17),(16202220708090953,17),(94806985935674393,17));
  ((19990815629749059,17),(28242479919920183,17),(93822862983551536,17));
  ((83733969558326501,18),(36511981631326929,17),(9271872206180205,16));
  ((-53021282278803948,18),(38000670148039251,17),(92346285818949059,17));
  ((-18698306545561294,17),(29655888577169504,17),(9365309180708733,16));
  ((-29503597140868831,17),(14617294994532856,17),(94423897625506448,17));
  ((-31370539828691413,17),(-11062828773624369,19),(94951972029223475,17));
  ((-2512967840458793,16),(-13654810866783859,17),(95822989952695325,17));
  ((-16870405191821253,17),(-24728635747533809,17),(95414275675758098,17));
  ((-11893166768853493,18),(-31981940665769831,17),(94740387359843847,17));
  ((1673615628492876,16),(-30772922007514014,17),(93663911641175335,17));
  ((31686448811151052,17),(-27091154413373636,17),(9089575520500971,16));
  ((40300345287215178,17),(-14634339542984029,17),(90342228641272115,17));
  ((45871130119130216,17),(-12506343574661816,18),(88849734582033224,17));
  ((44463624953901432,17),(14549342333687762,17),(88381574401093099,17));
  ((3939616083009676,16),(28109912026680256,17),(87508715895626343,17));
  ((31140919628110691,17),(39312289299906167,17),(86514663697641647,17));
  ((19358942462432382,17),(47602927976579312,17),(85785736546309577,17));
  ((60604283443947374,18),(53439736581763519,17),(84305787241174501,17));
  ((-81793416200197061,18),(52755337032487193,17),(84557511702105448,17));
  ((-2155249544186173,16),(43933440995275308,17),(87208615988004257,17));
  ((-33576077514261277,17),(29933793765489763,17),(89311897357303094,17));
  ((-440438433969147,15),(15938598187497316,17),(88352141720761701,17));
  ((-46547542005155834,17),(42343724270472354,19),(88505067844614094,17));
  ((-43121698717555534,17),(-13726853538011563,17),(89174506399858189,17));
  ((-36507863075670483,17),(-25901058742122118,17),(89422095086646425,17));
  ((-26915804325779819,17),(-37168857118148874,17),(88848272566364317,17));
  ((-13141643767833808,17),(-41843204721698762,17),(89869034810091075,17));
  ((44299780692650163,18),(-44497164430641029,17),(89444830213592141,17));
  ((20482124690599265,17),(-44202167833734818,17),(87330698651488425,17));
  ((35315180255137624,17),(-41392171726199173,17),(83901884146519468,17));
  ((47008828906237843,17),(-30524457031650087,17),(82815623693763274,17));
  ((5494390420140659,16),(-17719891578871458,17),(81652757660349085,17));
  ((59823853154885098,17),(-38681641135059903,18),(80038390164306328,17));
  ((57975876204046761,17),(11319135541609128,17),(80688753546970382,17));
  ((54504179466256708,17),(27592793347291533,17),(79170273310149342,17));
  ((48037190981303823,17),(41333547742009225,17),(77356099395489086,17));
  ((38308461214545969,17),(51764589025276697,17),(7650417715666139,16));
  ((2629354211215198,16),(59401226236293236,17),(76027258038293077,17));
  ((12674918354177928,17),(65187747334791601,17),(74765660848616144,17));
  ((-32264869662872765,18),(66666404909406762,17),(74465966980301834,17));
  ((-19245715847461442,17),(61018227995683272,17),(76852965289477193,17));
  ((-31826679397110447,17),(51534172298094449,17),(7956941349604042,16));
  ((-41448400532645929,17),(40051623476251758,17),(81718403987118571,17));
  ((-51255774299499179,17),(28193422410569285,17),(81104725717667092,17));
  ((-58201821594038117,17),(13054444331250428,17),(80262877137179944,17));
  ((-60124830921465855,17),(-23722352752867219,18),(79871003539856866,17));
  ((-58000288538426747,17),(-16467201689134892,17),(79779682864677992,17));
  ((-51446452482970895,17),(-29224255005316374,17),(80617649719535101,17));
  ((-4149597092542443,16),(-4153993075290906,16),(80947628439626629,17));
  ((-3037698953998762,16),(-52144073658061718,17),(79738535783083675,17));
  ((-15930160053478665,17),(-5510676022668386,16),(819113849107029,15));
  ((-16246623194147766,18),(-57278946108816209,17),(81954150627111022,17));
  ((1328671746031366,16),(-5817596741962352,16),(80243504122892706,17));
  ((27643558752336722,17),(-57102399790340463,17),(77299091829660149,17));
  ((41904088451404614,17),(-52082668434106261,17),(74373671550084242,17));
  ((53651825813851006,17),(-4060849686532505,16),(73975885051677992,17));
  ((63982996195048347,17),(-26218478692222036,17),(72241038011437286,17));
  ((70856853777703632,17),(-1238545510035747,16),(69468746747599786,17));
  ((71856677481089781,17),(23887056255881094,18),(69504762331892989,17));
  ((68254192276024805,17),(17621610410994562,17),(70928443400871022,17));
  ((64239815378968401,17),(33383210261422358,17),(68984109711713471,17));
  ((57163815180014532,17),(48358592963260644,17),(66285328095128404,17));
  ((47646690598571778,17),(59953785495219403,17),(6430658193215677,16));
  ((35783307785939872,17),(67801546936994339,17),(64206737316634066,17));
  ((2223678359520759,16),(73822841309775744,17),(63684484423535803,17));
  ((60023121541612032,18),(76619148114107805,17),(63980296897345035,17));
  ((-12094473851705413,17),(74467481355346354,17),(65637778168076022,17));
  ((-27852508370320789,17),(68708938928007557,17),(67106776773054289,17));
  ((-40456438365300873,17),(60663703901518673,17),(68433848523544838,17));
  ((-4979994279399631,16),(50407684663448404,17),(70562249288022583,17));
  ((-5855626742257054,16),(39273087026963166,17),(70913949127861864,17));
  ((-65606797152641205,17),(25800199384562028,17),(7092318294527562,16));
  ((-7069161994542783,16),(10795118327365212,17),(69901075025992088,17));
  ((-7268034825995191,16),(-38906525058698113,18),(68574264851259437,17));
  ((-70702744374588755,17),(-18109291735435595,17),(68360628220800035,17));
  ((-6413258190173341,16),(-31907368200450414,17),(69777731355629091,17));
  ((-53692177242576233,17),(-44629465166923588,17),(71591626199340752,17));
  ((-42311598040451504,17),(-57415856628398854,17),(70093851933606899,17));
  ((-27744923342913286,17),(-65753168198009482,17),(70048127031492724,17));
  ((-13820556362735725,17),(-6891925508889597,16),(7112755091957077,16));
  ((3595659870263996,18),(-70486559417569927,17),(70933177383889678,17));
  ((14294760083506161,17),(-71030704105391818,17),(68922412236131669,17));
  ((28640867226527705,17),(-69195543195009879,17),(66269733109919304,17));
  ((42357058793965496,17),(-64539831536202574,17),(63564846539601927,17));
  ((55094467898164423,17),(-5391096644014115,16),(63704060345539237,17));
  ((6583486600106675,16),(-3990550144141255,16),(6382257730091293,16));
  ((75619129112738104,17),(-26235212447124073,17),(59945483066577343,17));
  ((81620307409918746,17),(-11797491285926263,17),(56559213375619499,17));
  ((81909189454279074,17),(36343588645460362,18),(57250992293467839,17));
  ((78440830498053649,17),(1878671280342008,16),(59110874911622047,17));
  ((74886285706428946,17),(33219521869850926,17),(57345510546455081,17));
  ((68325763817644003,17),(46942908685757934,17),(55928108522067155,17));
  ((59393780802979979,17),(61038755106426223,17),(52408483826431129,17));
  ((48256040667611427,17),(71751184722979899,17),(50230688129216849,17));
  ((35451130560359345,17),(7865017550854716,16),(50570418571207076,17));
  ((19874622558373012,17),(83280774150356307,17),(51665385269826036,17));
  ((25163817300894693,18),(84836904272729607,17),(52880691149115899,17));
  ((-12827753158619776,17),(8350085169223801,16),(53507536997813621,17));
  ((-27442686250910586,17),(7919555613063568,16),(54543220114817348,17));
  ((-411129535309252,15),(72905405328434769,17),(54722270839765241,17));
  ((-5249590827331948,16),(64390443326064339,17),(55660133154998148,17));
  ((-61554121932450578,17),(53947190118057531,17),(57452508661425417,17));
  ((-69505642308806925,17),(42532427456933108,17),(57965147303020892,17));
  ((-75342823194813879,17),(28862077668540365,17),(59079941314207129,17));
  ((-80406606803995928,17),(14363513098416147,17),(57692868482501569,17));
  ((-83015652621405611,17),(-23441209021259611,19),(55752546765274102,17));
  ((-82079429572742924,17),(-14959663480666033,17),(55128719462348874,17));
  ((-76767677696444747,17),(-29429160816784999,17),(56926691057135803,17));
  ((-67701606783530199,17),(-43166035793450452,17),(59608605023157635,17));
  ((-56662795105268371,17),(-55610567116526299,17),(60801253900200936,17));
  ((-44395096097825226,17),(-67572244928043035,17),(58847830527976341,17));
  ((-313442612211563,15),(-75352802265605723,17),(57788342070182663,17));
  ((-16372458994578681,17),(-79610091340706679,17),(58259556668371404,17));
  ((-23554450684888779,18),(-81632081273990931,17),(57711828817027355,17));
  ((11602814486740358,17),(-82027760762497282,17),(56007331308292119,17));
  ((25862474157232851,17),(-80087555615996575,17),(54010331103605713,17));
  ((40559515725379008,17),(-75638025695482047,17),(51320704915388016,17));
  ((54465399338174769,17),(-66093287375486787,17),(51625552189148272,17));
  ((66094399768054857,17),(-53714516965253301,17),(52404971009342838,17));
  ((75583536091352377,17),(-41428276844813239,17),(50703322865436984,17));
  ((83727350634803444,17),(-29078897371675727,17),(46304950959095403,17));
  ((88845153910320274,17),(-13836273907781546,17),(43761811559856006,17));
  ((89766725673548431,17),(32193714553171292,18),(4394963719170602,16));
  ((87116754138135288,17),(18874656453501423,17),(45325693510391918,17));
  ((84088464410655339,17),(32837731165690476,17),(43021082796087201,17));
  ((78450723752162344,17),(45643254918185949,17),(4197829466802343,16));
  ((70051523879209288,17),(57972424221191143,17),(41617088222493681,17));
  ((59656861230110314,17),(70958281543429713,17),(37496415676364631,17));
  ((47211446643865396,17),(80733071816745783,17),(35401277107268586,17));
  ((32010875220484242,17),(86898552785078242,17),(37735200959814152,17));
  ((14597275516069028,17),(90519360785113478,17),(39914469438568662,17));
  ((-1396453840159283,17),(92187938556426174,17),(38722524470763747,17));
  ((-15667783936905719,17),(90915846487899044,17),(38585352193484185,17));
  ((-29358000544426877,17),(86775838635232172,17),(40100643800138414,17));
  ((-42786806794962806,17),(81045897089699959,17),(40010645198700412,17));
  ((-54857031424997038,17),(73389877740759846,17),(40057857511769263,17));
  ((-6511429529651741,16),(63306993776118581,17),(41861116648608548,17));
  ((-73826971997091106,17),(52465884447560962,17),(42389965497460685,17));
  ((-80255047135803714,17),(39750323299430934,17),(44486393502065791,17));
  ((-85430236054651076,17),(25675290434538883,17),(45193519764991452,17));
  ((-89638437922855063,17),(10838677760642447,17),(42982246464690699,17));
  ((-90980018925617578,17),(-46563359030325609,18),(41242631975328592,17));
  ((-88703069240691046,17),(-20189308467613334,17),(41522973531296203,17));
  ((-82732891896916905,17),(-34757040566252578,17),(4412727874511338,16));
  ((-74102613352696078,17),(-47995794146807974,17),(46959625621570522,17));
  ((-63738286355514739,17),(-60122386199751809,17),(48194704378285136,17));
  ((-53516408718110631,17),(-70729893637477315,17),(46187402437756525,17));
  ((-41903400743414687,17),(-79526675474290509,17),(43813387156709011,17));
  ((-27313919765561706,17),(-85052785803119213,17),(44944114344029296,17));
  ((-12288174555793406,17),(-89060302708799721,17),(43786564691732949,17));
  ((17941877067571773,18),(-90785396602697443,17),(41890245334252385,17));
  ((15867768400990656,17),(-89872447033158442,17),(40879789508321257,17));
  ((3177715556199418,16),(-85966362783656458,17),(3999996067670053,16));
  ((49130327520512246,17),(-77887365680448584,17),(38984217128054238,17));
  ((63163462247951763,17),(-6685012187859477,16),(39261154359858003,17));
  ((74165274504184042,17),(-55178673782181731,17),(38142181601982345,17));
  ((82803281694268138,17),(-44082188064799155,17),(34646460657321942,17));
  ((89657553914967547,17),(-30863305156264847,17),(31764436415840325,17));
  ((94133822404833445,17),(-15767464810765772,17),(2983639611106777,16));
  ((95172444085158692,17),(30245787138979308,19),(3069388222583414,16));
  ((93575476993188844,17),(17318607425166591,17),(30719634476180685,17));
  ((91186808757255244,17),(31070600494263129,17),(26825057196465657,17));
  ((86024338038039816,17),(439097190688091,15),(25918137209593584,17));
  ((78519734729649593,17),(56135404970035241,17),(26143212634173385,17));
  ((69261373690081451,17),(67353384485918755,17),(25814409016184969,17));
  ((57121947024682207,17),(79081812705963861,17),(21980674858799298,17));
  ((41520642278198833,17),(8809076082369548,16),(22716824652849832,17));
  ((24876718309231075,17),(93276218504081909,17),(26090150397073908,17));
  ((86017352731701496,18),(96342485818435997,17),(25379826173848374,17));
  ((-6833301171093098,17),(97238351636065945,17),(22316114496164574,17));
  ((-21087126663180347,17),(9510587856339654,16),(22587716834055138,17));
  ((-34466707537660657,17),(90721908135702645,17),(24115999994412399,17));
  ((-4730099851952726,16),(8485550927723351,16),(23709873140888355,17));
  ((-59490564822907621,17),(76570619181340938,17),(24450214216597152,17));
  ((-70095917340686176,17),(66434759392028742,17),(25941956685858136,17));
  ((-79374290206378328,17),(54773973160005973,17),(26448703531564249,17));
  ((-86065561770611898,17),(41977124997420839,17),(28820826741436373,17));
  ((-91015530919782173,17),(28041743169715544,17),(30493175816793622,17));
  ((-94920062480275047,17),(12403470702432691,17),(28919468412724608,17));
  ((-96147828971726357,17),(-43210054204538495,18),(27146342224691467,17));
  ((-93967754786822699,17),(-20803630728277747,17),(27152716417423445,17));
  ((-88530818575296955,17),(-35974134159094484,17),(29464484280084158,17));
  ((-80478767408422169,17),(-49736697709689337,17),(32394889988331022,17));
  ((-71162024472224328,17),(-61749124510937259,17),(33511369639979094,17));
  ((-61777984213194581,17),(-72238118213084312,17),(31066621051970567,17));
  ((-50793731445906021,17),(-81103751446833749,17),(29020309217018875,17));
  ((-36988125337674849,17),(-88014605560647119,17),(29754122269160632,17));
  ((-22437462784649809,17),(-92653758856764812,17),(30196708984588555,17));
  ((-77715753176806776,18),(-95919699985873785,17),(27184807737072197,17));
  ((60280336259431015,18),(-96670544458807472,17),(24869029829131398,17));
  ((21449472768190914,17),(-93900384283508753,17),(26881926072661144,17));
  ((38506832472582037,17),(-88044052874629997,17),(27667103323945186,17));
  ((53856481158651193,17),(-80145838376789602,17),(26002385046171606,17));
  ((67038592896109162,17),(-69672845413771556,17),(25524922614151718,17));
  ((77916831673959175,17),(-58602081516842131,17),(22243277271690501,17));
  ((86361516472005584,17),(-46984757360798002,17),(1827897831943697,16));
  ((92731506326932278,17),(-33577324211234733,17),(16535750153886242,17));
  ((97101977885298529,17),(-18855567469944765,17),(14685825347911435,17));
  ((98805724273761775,17),(-37800326233140495,18),(1493787816605972,16));
  ((97927289755520186,17),(11339068196200587,17),(16783070445550255,17));
  ((9592817646204761,16),(25876039922626604,17),(11323229159073372,17));
  ((91297550482170609,17),(39808492114841454,17),(89465765239065229,18));
  ((84646477025346734,17),(52443306601474982,17),(92018215534283368,18));
  ((76197687389288393,17),(64056309221142116,17),(95237432498836427,18));
  ((6555011602233316,16),(74876818670085277,17),(98307840636354976,18));
  ((50731054072337167,17),(85744449553812463,17),(86168163159784372,18));
  ((35147503737817626,17),(93107803978371872,17),(97770046192673599,18));
  ((20563658826976433,17),(97189594024699766,17),(11459439295260403,17));
  ((48052214594962069,18),(9942911801193044,16),(95268220354326902,18));
  ((-1154526049866825,16),(99144422721122616,17),(60901891032410747,18));
  ((-26286000703133378,17),(96302307279751753,17),(59086190968063522,18));
  ((-39057871044489284,17),(91807171014021627,17),(6776876852520726,17));
  ((-52203458520925161,17),(84954749777282434,17),(7582177044449466,17));
  ((-64213196462549293,17),(76191524200291294,17),(84567748047629163,18));
  ((-74914826413631508,17),(65391826124125441,17),(10567774579711894,17));
  ((-84477864126264968,17),(52348219700347531,17),(11097493720136095,17));
  ((-91179345342771045,17),(38863430030577001,17),(13265021263538945,17));
  ((-95739343940306187,17),(24449721419185136,17),(1536844638875369,16));
  ((-98644872586524213,17),(83945544970646643,18),(14096828266820072,17));
  ((-98826463348642102,17),(-82733728742624232,18),(12840616935448179,17));
  ((-95808230526995408,17),(-25362450209319903,17),(13324004002771561,17));
  ((-89460089583190194,17),(-41725684892500814,17),(15995611648802743,17));
  ((-81325746161050905,17),(-55506864968451097,17),(17467425474936127,17));
  ((-72614207756172444,17),(-66770821650612044,17),(16396164430914409,17));
  ((-62390449766992873,17),(-76914406452140649,17),(13842176779222434,17));
  ((-50098694926937593,17),(-85561376302480519,17),(13014286451548701,17));
  ((-36824226744838312,17),(-91876115363385902,17),(14239232787567518,17));
  ((-22333831123542686,17),(-96424389607845928,17),(14266642075113928,17));
  ((-90592468786861752,18),(-99096225835269391,17),(98928292816717597,18));
  ((58862443335677389,18),(-99418155485209103,17),(90212242830078559,18));
  ((21608373393224309,17),(-96870461747523928,17),(12214411165524888,17));
  ((36547919601244039,17),(-92095814367264339,17),(13513347063232994,17));
  ((50158486391521451,17),(-85786828356447975,17),(11168989365779336,17));
  ((62865221735209798,17),(-76960175524092056,17),(11184600103886064,17));
  ((74250045864780534,17),(-66413587529691431,17),(87273180596333308,18));
  ((83581180278412726,17),(-5478149861411471,16),(36295609733437144,18));
  ((90950854246159363,17),(-41554079663749438,17),(10957076218776181,18));
  ((9621663262098028,16),(-27245559103777522,17),(-19777816330193735,19));
  ((99236302715305436,17),(-12196736172011767,17),(-18427832608863198,18));
  ((99961598467634694,17),(27475665353543184,18),(-36015264704674032,19));
  ((98519479835345303,17),(17112818872381605,17),(-10312726186841901,18));
  ((93907438359501705,17),(33838869625257384,17),(-60269331538703619,18));
  ((87298219945887978,17),(4811156890105911,16),(-80185866683605042,18));
  ((7941329051330096,16),(60344374543062118,17),(-72170458538586821,18));
  ((68940082294156568,17),(72215811874775437,17),(-56693534500827779,18));
  ((5630772909416486,16),(82510191693248303,17),(-4637662234526984,17));
  ((41319574534050313,17),(90884898616031828,17),(-57120892743966936,18));
  ((27363230559819535,17),(95986800667405781,17),(-6147170972558591,17));
  ((13377331018374952,17),(98993544636757824,17),(-46179145807453907,18));
  ((-25895424898478743,18),(99733977970136845,17),(-68138027521738448,18));
  ((-18898192644603717,17),(97661035215739878,17),(-1025575523096481,16));
  ((-3230451351533688,16),(93859525774963115,17),(-12116428014743072,17));
  ((-45393875054423999,17),(88643423887874162,17),(-90409904865562843,18));
  ((-58446879087479342,17),(80708033590997474,17),(-83770901157855973,18));
  ((-70202866776029271,17),(70920790836051628,17),(-64652087063065231,18));
  ((-80368439794745905,17),(59372299716679289,17),(-39804410950430184,18));
  ((-89002110567245607,17),(45440259145707423,17),(-37157991531758493,18));
  ((-95083197689252263,17),(30947700026350844,17),(-11938929037299218,18));
  ((-98719654573124094,17),(15948795585426306,17),(-25635978105866975,19));
  ((-99986333287033902,17),(-65930925518799634,20),(-16519106898491415,18));
  ((-98561188288237689,17),(-16867279709934302,17),(-10895129174980023,18));
  ((-94005290787708906,17),(-34090384933224299,17),(9224744022935237,18));
  ((-87290890234029683,17),(-48768507283140466,17),(13903882640672617,18));
  ((-79314072673023617,17),(-60903196655888026,17),(28020191390836849,19));
  ((-69303639906029091,17),(-72082839724131109,17),(-10342693462906826,18));
  ((-56998588607632339,17),(-82121531937103609,17),(-26860545491769913,18));
  ((-43830533108910663,17),(-89823295352218202,17),(-32649623974654644,18));
  ((-30417359401260957,17),(-95246553046322402,17),(-16965788660168662,18));
  ((-17140972673386554,17),(-98366801823255046,17),(-5491753351588391,17));
  ((-25835513989117962,18),(-99703189304367401,17),(-72525378114600761,18));
  ((13134632320924802,17),(-99000222502022206,17),(-51417291200736702,18));
  ((27878791828491728,17),(-95990776664287125,17),(-29229713598616446,18));
  ((41419467619208755,17),(-90939971936019459,17),(-3788034637818103,17));
  ((54472995053887607,17),(-83695567126779125,17),(-52673383398018331,18));
  ((66160255176580762,17),(-74808915793669228,17),(-51426406393430782,18));
  ((76272257422001044,17),(-64094277314909154,17),(-86293895051462718,18));
  ((84774611681701673,17),(-51379827620060881,17),(-13167328048982399,17));
  ((91586470390500163,17),(-3724945270343466,16),(-14979876992306052,17));
  ((96167011858502471,17),(-22000436034945522,17),(-16367243032316559,17));
  ((98332572072973634,17),(-56933550189309484,18),(-17271102400885099,17));
  ((98073447153518778,17),(89893484094933432,18),(-1734331509829363,16));
  ((95626008330322509,17),(2392618265380129,16),(-16828675361597248,17));
  ((8903373185274317,16),(39785308049809792,17),(-2213874106076415,16));
  ((80756853859233979,17),(54029260185656647,17),(-23646767190230064,17));
  ((71158950910117591,17),(67078982430692902,17),(-20900091421672501,17));
  ((58768973955867598,17),(7854906214852786,16),(-1939723010538523,16));
  ((4483241778811986,16),(87121990281645634,17),(-19995327570117938,17));
  ((30849789658920812,17),(92180815143470374,17),(-23473129264878309,17));
  ((1732513719613458,16),(96055897782839239,17),(-21750956812698014,17));
  ((28337652228252633,18),(97683821350055511,17),(-21209451221385833,17));
  ((-12067116012565023,17),(96242754339584513,17),(-24325232748520328,17));
  ((-25256975024971412,17),(92156730474806214,17),(-29482575206075429,17));
  ((-39287027065136532,17),(88017389705012472,17),(-26635852040045499,17));
  ((-5295905125627921,16),(81369739007490438,17),(-23964650297629611,17));
  ((-65578307144784265,17),(71916583787056088,17),(-22967163700023499,17));
  ((-76184024687956531,17),(61400551714526375,17),(-20638959070083981,17));
  ((-84873986803017321,17),(49426616017654418,17),(-18799361510556375,17));
  ((-92218723908517586,17),(34625819966799293,17),(-17226710432099623,17));
  ((-968804953286453,15),(19175024762606727,17),(-15699937905283415,17));
  ((-98720008779130053,17),(21937119465087359,18),(-15797072340919074,17));
  ((-9754373878114263,16),(-15823806674764854,17),(-1532403885781683,16));
  ((-93919978176582641,17),(-31195101323846014,17),(-14349332831362646,17));
  ((-88272726238140686,17),(-44499005518119905,17),(-1509186238953307,16));
  ((-80741831254882146,17),(-56804327503070584,17),(-15938163712675268,17));
  ((-70685069820162483,17),(-68878157761737113,17),(-16106529355140711,17));
  ((-58278165271932036,17),(-79367722205821289,17),(-17447639507880658,17));
  ((-44143515904498443,17),(-87658051983372198,17),(-19168096568770499,17));
  ((-30661347871099964,17),(-93191982751810754,17),(-1936843043495266,16));
  ((-17244916691381318,17),(-95888713775487078,17),(-22538132548861151,17));
  ((-19448536118737869,18),(-97365605212115625,17),(-22719077140298297,17));
  ((13294743081690488,17),(-96854986510921137,17),(-21032389173870106,17));
  ((27709353867656011,17),(-94049700371178824,17),(-19668390079732073,17));
  ((41356001539089543,17),(-88735967652560732,17),(-20386495075478711,17));
  ((54194008459471454,17),(-81217606084453631,17),(-21603469837164035,17));
  ((65523538320218211,17),(-722287232772864,15),(-22128656979854894,17));
  ((7480319628536265,16),(-61359477455115341,17),(-25288265103179769,17));
  ((8273354156078695,16),(-48323042412942491,17),(-28636422136267292,17));
  ((89352832895409795,17),(-33494270017367256,17),(-29903262858234497,17));
  ((93640216817669519,17),(-1702115969456888,16),(-30688595878466418,17));
  ((94477651287434961,17),(-56961686358141641,19),(-32766582730558935,17));
  ((93219187134906079,17),(1499924602892668,16),(-32942461481666613,17));
  ((89852297633142686,17),(2859979941624457,16),(-33295886884053971,17));
  ((82384581279003222,17),(42778502483983444,17),(-3718575658382029,16));
  ((7344285167191269,16),(57046004185535226,17),(-3676820562335521,16));
  ((63187017967181058,17),(69583825760781604,17),(-34139302173716496,17));
  ((5036423638750841,16),(79534807329269619,17),(-3372918789711864,16));
  ((36066128222188926,17),(85433304674596189,17),(-37421716254579351,17));
  ((20905646209152109,17),(8965187030569185,16),(-39057599865700521,17));
  ((71896556526164376,18),(9250327621157397,16),(-37302181460633826,17));
  ((-64682545293417992,18),(91705479374287724,17),(-3934802073898685,16));
  ((-19855573281745043,17),(87435234363695191,17),(-44281327909390295,17));
  ((-35374976525287083,17),(8341130663961368,16),(-42322156850847359,17));
  ((-49821567928265897,17),(7753778735427963,16),(-38803387756376373,17));
  ((-62603035223955883,17),(68180879458013766,17),(-37844783749942829,17));
  ((-73126350269049045,17),(5743953384131375,16),(-36786367698115063,17));
  ((-8187756116504461,16),(46053494453679189,17),(-34280324185592503,17));
  ((-89210462086258902,17),(32598287428942463,17),(-31286500460361705,17));
  ((-94510187655775924,17),(15161426701237821,17),(-28947462231653631,17));
  ((-95771816041637792,17),(-39488780546941653,18),(-28498519508841941,17));
  ((-93118134176458045,17),(-20175226217824552,17),(-30364013808367962,17));
  ((-8882785618738851,16),(-33437192697497076,17),(-31489142726709352,17));
  ((-82923355461452553,17),(-45695405714379606,17),(-32181470066046264,17));
  ((-74977021351986872,17),(-5834305845159321,16),(-3121752392003061,16));
  ((-64459876514466008,17),(-69811979385821787,17),(-31164272075140603,17));
  ((-5135747073523359,16),(-79475734827646149,17),(-32342198028045288,17));
  ((-36737131789072047,17),(-86164377625414912,17),(-35015470528571341,17));
  ((-22673503881425083,17),(-89891508688737853,17),(-37489050233389076,17));
  ((-72025930698989465,18),(-92295513445105459,17),(-37810856258141029,17));
  ((85246337706817762,18),(-92500396968248699,17),(-37027114116443904,17));
  ((23557133263357907,17),(-90394974837896458,17),(-35690474870313249,17));
  ((37854626496679938,17),(-85325682084724297,17),(-35868582765052442,17));
  ((50729798517438884,17),(-77647734103039145,17),(-3738070265583282,16));
  ((61874554333062448,17),(-68437109669636786,17),(-38573326874292407,17));
  ((70736299522130497,17),(-57356626128461374,17),(-41310935223925221,17));
  ((78527426800158828,17),(-44367967392966734,17),(-4318479720413585,16));
  ((85094710756722991,17),(-29443722005391204,17),(-43496637061948762,17));
  ((88478173202500365,17),(-13454131396155961,17),(-44616131781266266,17));
  ((88320664463676646,17),(30911362072502946,18),(-46796421932054505,17));
  ((85431527173808208,17),(17709861172184951,17),(-48865273784281654,17));
  ((81279335045448031,17),(30660401401985937,17),(-49533922522236234,17));
  ((73925067583799697,17),(43911675178875886,17),(-5105731255868784,16));
  ((65441347228932045,17),(56587210594322157,17),(-50152942785206356,17));
  ((55555423489314715,17),(68113667416362933,17),(-47687768159308908,17));
  ((42253005822015383,17),(76377712676217524,17),(-48796808352123766,17));
  ((25493350243826818,17),(8148522238105691,16),(-52060038675122755,17));
  ((99890558270649216,18),(83857328257089137,17),(-53555272954832189,17));
  ((-3092489195140705,17),(8373695889662448,16),(-54576169023878562,17));
  ((-17461391978766599,17),(79778918696005396,17),(-57709825176134655,17));
  ((-33474560509563356,17),(76399273395590284,17),(-5515981166861823,16));
  ((-48649726903328139,17),(70105460132803521,17),(-52138551301311464,17));
  ((-60978904916914456,17),(60027008278259697,17),(-51752598314438758,17));
  ((-71326593676985928,17),(48244066318878276,17),(-50843161776760371,17));
  ((-80132372939947116,17),(36183400837429242,17),(-47639944488329916,17));
  ((-87675277651280692,17),(22328428738621586,17),(-42596795170941415,17));
  ((-91022826755720754,17),(57277003740069096,18),(-41012662164551639,17));
  ((-89447694066837802,17),(-9819772671303606,17),(-43619744277211314,17));
  ((-85009638586590619,17),(-2330412052085247,16),(-47225833122633493,17));
  ((-79823224084023947,17),(-35504513447688707,17),(-48658837035779978,17));
  ((-73938116706063428,17),(-48212303017257446,17),(-46997114121323375,17));
  ((-65388312839090235,17),(-60224098915399948,17),(-45797668651203077,17));
  ((-54096245224508122,17),(-70596009324276554,17),(-45714327295679846,17));
  ((-40151982270425529,17),(-78203737935785833,17),(-4766543498832635,16));
  ((-23711637319779552,17),(-82642406075717245,17),(-51068492964170109,17));
  ((-7290015677359224,17),(-85547330113277165,17),(-51268996302968906,17));
  ((96503309110704844,18),(-85767475690838302,17),(-50505556396581741,17));
  ((25941500400854445,17),(-82784724985879587,17),(-49736584783886739,17));
  ((39855824318846605,17),(-76221880982155832,17),(-51007236029874303,17));
  ((51873263458350238,17),(-67171554084997975,17),(-5288805971092887,16));
  ((61544072867131794,17),(-56324339777456411,17),(-55135250462465601,17));
  ((69820996641321398,17),(-43689078297039036,17),(-56712369599301515,17));
  ((76749938275392626,17),(-300225899204836,15),(-56640012969542108,17));
  ((80600450835035142,17),(-14563791762645656,17),(-57371275867662019,17));
  ((80089174545004482,17),(63388488438281014,19),(-59877560994525791,17));
  ((76172911661543652,17),(14796444555538638,17),(-63077355346570596,17));
  ((71410388645684786,17),(28103637036208329,17),(-64115068266432607,17));
  ((64949109728879695,17),(4017707226208258,16),(-64555526563365118,17));
  ((56875933140831025,17),(52615837165040236,17),(-6321947412610841,16));
  ((47076800194394636,17),(63763870259515054,17),(-60974943484883837,17));
  ((32784982055972256,17),(71679060447663434,17),(-61540695843724325,17));
  ((16484510509627881,17),(73605420462353244,17),(-65654420961715587,17));
  ((17793420476845932,18),(72988715207921129,17),(-68333603696675649,17));
  ((-12504939934721246,17),(70991678914271417,17),(-693095087427548,15));
  ((-29318630663460465,17),(68112829113832862,17),(-6708994266005448,16));
  ((-44667248780537683,17),(62334103457083057,17),(-64181745322008965,17));
  ((-57804543735175173,17),(51083212142428691,17),(-63632854413265538,17));
  ((-68687406261738337,17),(37435104628798616,17),(-62294888734677178,17));
  ((-78292902645526941,17),(23923572286944245,17),(-57427206830642508,17));
  ((-83168885887760446,17),(9735781329605829,17),(-54663982493875973,17));
  ((-81957506212396303,17),(-45248075105465239,18),(-5711823957754234,16));
  ((-7686704089148908,16),(-17501415243525947,17),(-61523641708369503,17));
  ((-7105891381280891,16),(-30083403800942904,17),(-63605185193451086,17));
  ((-66045526511896979,17),(-42919987999922349,17),(-61610575860422179,17));
  ((-58457518725100255,17),(-55036962779303422,17),(-59612509027335225,17));
  ((-47189866366282263,17),(-65306621604302462,17),(-59229736509331854,17));
  ((-32828963884695028,17),(-72432578719156593,17),(-60628216783528877,17));
  ((-16043448119972709,17),(-75850722639710288,17),(-63160712847904787,17));
  ((85640933302513437,19),(-77977370940332635,17),(-62600289011218424,17));
  ((17656937862802666,17),(-76431276601715337,17),(-62020097567975552,17));
  ((32188339643184227,17),(-70162955280037897,17),(-63569414795060186,17));
  ((44510135910140936,17),(-60886684538121238,17),(-65663227511416844,17));
  ((5475680572216467,16),(-48808044907673159,17),(-67966660793330691,17));
  ((62665780200079779,17),(-35688839720685656,17),(-69277028741903313,17));
  ((69213917734535102,17),(-21761690022017019,17),(-6881760268436159,16));
  ((70208561757851096,17),(-68621080497976952,18),(-70877847942829852,17));
  ((66708902202259979,17),(77533088115815302,18),(-74093242400650583,17));
  ((60781417427474693,17),(21572960483180306,17),(-76421375749839893,17));
  ((54019018071761782,17),(33382069027213823,17),(-77250133682894073,17));
  ((4798400838435013,16),(45847900012430753,17),(-74803108249729633,17));
  ((37664822190661557,17),(57917883051910901,17),(-72297164481956144,17));
  ((23572582202765696,17),(62744650542894609,17),(-74212143187916957,17));
  ((69365008815621576,18),(61869451126995845,17),(-7825634781130768,16));
  ((-10023698775050614,17),(59481517088529046,17),(-79758852723155915,17));
  ((-26078368348122966,17),(5837832590511518,16),(-76888814328325916,17));
  ((-42493275827571708,17),(52005480835991136,17),(-74092857094724507,17));
  ((-5510881136567588,16),(39936998709971677,17),(-73267011976073337,17));
  ((-6575531386359702,16),(25660178762275054,17),(-70836388421403396,17));
  ((-72145707173595008,17),(11929293184969311,17),(-68210621610779398,17));
  ((-71134675775666967,17),(-18948509097138376,18),(-70258575578506399,17));
  ((-6504030609087269,16),(-15165112732439345,17),(-74429684531227169,17));
  ((-58585431277086653,17),(-28711246361169795,17),(-75785299197575051,17));
  ((-53438884029438427,17),(-42123987718493211,17),(-73279296751404921,17));
  ((-44763678762726117,17),(-54178699820095366,17),(-7113987313336636,16));
  ((-3163621613528011,16),(-61923794816655386,17),(-71865106026127912,17));
  ((-16894066015591477,17),(-65341101820383107,17),(-73791130539917626,17));
  ((-13233936019430287,18),(-67520561901601561,17),(-73751083719944954,17));
  ((13692199570697344,17),(-66533463063403508,17),(-7338815956070105,16));
  ((27647388457822264,17),(-60229252135839073,17),(-74886975493872099,17));
  ((40131122315449475,17),(-49899685302289032,17),(-76808296611986859,17));
  ((48813447008192196,17),(-36440167191071515,17),(-79305495435468831,17));
  ((56282977253182809,17),(-22422222597322619,17),(-79557968836024351,17));
  ((57993086016012863,17),(-75414247402650875,18),(-8111676082799566,16));
  ((53295519636429711,17),(77690711608036936,18),(-84256923276258455,17));
  ((44935061039436719,17),(20424844959296215,17),(-86969339412064117,17));
  ((37972520126743997,17),(33181071585469041,17),(-86354526248853924,17));
  ((32640277015837016,17),(45999606187046993,17),(-82575108519250573,17));
  ((17920647547082083,17),(51085055634612853,17),(-8407834133890707,16));
  ((48553030051775936,19),(49807705505390298,17),(-86711918054069081,17));
  ((-17934576002338104,17),(46866904470789533,17),(-8649765458636578,16));
  ((-33965809956640053,17),(44087681552051133,17),(-83081887853817704,17));
  ((-46258161492338301,17),(32962983695830617,17),(-82302030359020639,17));
  ((-55206962997658904,17),(20455513565299038,17),(-80831696761573602,17));
  ((-59572143827953561,17),(67835148068788584,18),(-80032141084732145,17));
  ((-55154467210945768,17),(-75629019271004849,18),(-83070977249083611,17));
  ((-47615666413733487,17),(-23502439726305827,17),(-84737144387142371,17));
  ((-40522431650403368,17),(-39697329854036084,17),(-82353230268145783,17));
  ((-29613742288004924,17),(-49190045777331254,17),(-81874084203267183,17));
  ((-15081840336923766,17),(-52481216819814169,17),(-83775055793256226,17));
  ((-10132821207528831,18),(-54491726598694068,17),(-83842858918556329,17));
  ((13359726979888997,17),(-53012092897426599,17),(-83733121891264972,17));
  ((26554406186234131,17),(-45874303650866827,17),(-84796295771953134,17));
  ((36165832113636992,17),(-33453674447627046,17),(-8702232043263618,16));
  ((43435159844614085,17),(-18822238399800814,17),(-88085811745671549,17));
  ((43754041187159287,17),(-35596110929111233,18),(-89849390919803085,17));
  ((3515059131540581,16),(10571312077630972,17),(-9301980053265354,16));
  ((25711164828999744,17),(25543876311882879,17),(-93201107214985568,17));
  ((1791894246644874,16),(37610340746140303,17),(-90908601187364657,17));
  ((23073763328483949,18),(36696097120873705,17),(-92995013148845862,17));
  ((-13139068376588836,17),(34995443940526583,17),(-92750653828427454,17));
  ((-29388123497069929,17),(31072767358246484,17),(-90392595526521191,17));
  ((-39200338782552452,17),(19525822212715113,17),(-89900365440027852,17));
  ((-45016573877296495,17),(61492317335419676,18),(-89082518068570038,17));
  ((-41187118315095955,17),(-98074394173860754,18),(-90594897300966071,17));
  ((-33850087357551883,17),(-2729981198187989,16),(-90049385626111378,17));
  ((-21474807923074044,17),(-36691129648889109,17),(-9051294730454581,16));
  ((-7131448873465554,17),(-382760576015167,15),(-92109097549864871,17));
  ((71107575919624841,18),(-39250992543807917,17),(-91699491333345373,17));
  ((19581724669531056,17),(-32605029594653401,17),(-92484961502389429,17));
  ((28541930520330566,17),(-19139237188980876,17),(-93909785443246296,17));
  ((28486434820081413,17),(-4385827140091611,17),(-95756396922286546,17));
  ((1977608806494886,16),(11078439755161826,17),(-97396994375794976,17));
  ((85313060460875154,18),(22153782429979993,17),(-9714127207934381,16));
  ((-63423585776133648,18),(1983914462066122,16),(-9780686493489843,16));
  ((-2089072773292395,16),(18744236273995285,17),(-95980368311928665,17));
  ((-2983273182675511,16),(53835864894277552,18),(-95294412786184712,17));
  ((-27138781663106326,17),(-1055989666568701,16),(-95665955868596519,17));
  ((-18146169497657005,17),(-21408284078981257,17),(-9598125809425474,16));
  ((-18568355970575393,18),(-23503395359730569,17),(-97180978427517883,17));
  ((11782126815358612,17),(-18868865944776395,17),(-97494345403540539,17));
  ((12596380798391074,17),(-43656357679192161,18),(-99107378207294883,17));
  ((21447914143845708,18),(58016099673520574,18),(-99808522639980513,17));
  ((-14677886116822164,17),(26214431329522021,18),(-98882190990300656,17));
  ((-64405212088817568,18),(-89810243314039917,18),(-99387428221665308,17))].

(** All transcribed files of quadratures/s2/womersley/, by suffix (each entry cites its lines 1 ff. above). *)
Definition wo_grids : list (Z * list lit3) := [
  (3, wo_3); (6, wo_6); (8, wo_8); (14, wo_14); (18, wo_18); (26, wo_26); (32, wo_32); (42, wo_42); (50, wo_50); (62, wo_62); (72, wo_72); (86, wo_86); (98, wo_98); (114, wo_114); (128, wo_128); (146, wo_146); (163, wo_163); (182, wo_182); (201, wo_201); (222, wo_222); (243, wo_243); (266, wo_266); (289, wo_289); (314, wo_314); (339, wo_339); (366, wo_366); (393, wo_393); (422, wo_422); (451, wo_451); (482, wo_482); (513, wo_513)].
