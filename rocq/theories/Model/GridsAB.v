(** Generated by tools/gen_grids.py from the text of the repository: quadratures/s2/ahrens_beylkin/ahrens_beylkin_*.hpp.
    Each definition transcribes the arrays of one file, named in its comment, in the order of the file. *)
From Coq Require Import ZArith List.
From Verif Require Import Model.GridCode.
Import ListNotations.
Local Open Scope Z_scope.

(** ahrens_beylkin/ahrens_beylkin_72.hpp:1-162. *)
Definition ab_72 : coded := [  (AB12 (5257311121191336,16) (8506508083520399,16), (1558329689280651,16));
  (AB60 (-2570493873703594,16) (-9133300319507995,16) (3158383529422518,16) (5015477117589746,16) (762221757286238,15) (-4092284026663054,16) (-9762513228834465,16) (-1511082746645616,16) (-1552406000253161,16) (6662777900366649,16) (-6604129699411947,16) (-3463071117336585,16) (567022920217141,15) (-1018087873450433,16) (8173860647012264,16), (1782729164537065,16))].

(** ahrens_beylkin/ahrens_beylkin_132.hpp:1-282. *)
Definition ab_132 : coded := [  (AB12 (5257311121191336,16) (8506508083520399,16), (7991434304003341,17));
  (AB60 (-3660952090335582,16) (-8953505266009154,16) (2536172952267627,16) (4844155031786994,16) (8222245632603329,16) (-2988116260313214,16) (-9642920807066986,16) (-7312596334058243,17) (-2545454312531611,16) (6649068350648796,16) (-7106747854799359,16) (-2298700719255382,16) (6654804546753771,16) (-1115497777803971,16) (738032798405462,15), (9475712406435775,17));
  (AB60 (-1366088178342604,16) (-8661404641281296,16) (4807688917659233,16) (4181234628202419,16) (6921548451959328,16) (-5882979178197081,16) (-9833212471706809,16) (-1739856189321967,16) (5299367195691492,17) (7249067356539685,16) (-5025523554047576,16) (-4711171347771568,16) (3950233293509728,16) (-1896024897911753,16) (8988923545861652,16), (9869951756695511,17))].

(** ahrens_beylkin/ahrens_beylkin_192.hpp:1-402. *)
Definition ab_192 : coded := [  (AB12 (5257311121191336,16) (8506508083520399,16), (5233742762454396,17));
  (AB60 (-3607928957864933,16) (-9167356200572206,16) (1715350963164676,16) (5443960115691369,16) (8032626540631647,16) (-2416652461050551,16) (-938913380381156,15) (-1134729659940559,16) (-324908525788017,15) (6024581418915484,16) (-7673782840646884,16) (-2194874857811198,16) (6972481342761009,16) (-3588436999847628,17) (7159311078856044,16), (638080000200717,16));
  (AB60 (-1594802869658209,16) (-9257364861022735,16) (342896480542327,15) (5282061903582911,16) (6978513452732168,16) (-4837372431057405,16) (-9696669087810822,16) (-2278851408290568,16) (-883993699313593,16) (6432175300715613,16) (-6267704282387553,16) (-4398068204269318,16) (4859296656753418,16) (-7108091703446158,17) (8711026709006181,16), (6722438773551373,17));
  (AB60 (-1946109977507884,16) (-7934327755832595,16) (5767070228328136,16) (2934089823272757,16) (7323722630950026,16) (-6144444949210439,16) (-9903922163546059,16) (-6106051248825702,17) (1240760718224218,16) (8090554926718323,16) (-4136851935217923,16) (-4174850541496975,16) (375947721433562,15) (-3186870695732102,16) (8701160051600894,16), (6793963695882534,17))].

(** ahrens_beylkin/ahrens_beylkin_312.hpp:1-642. *)
Definition ab_312 : coded := [  (AB12 (5257311121191336,16) (8506508083520399,16), (267889465920247,16));
  (AB60 (-1201736413467416,16) (-9416989679914392,16) (3142631852593033,16) (5675831786087092,16) (6651846670726805,16) (-4851584216025124,16) (-9561177587721386,16) (-2765143009187586,16) (-9684354778689629,17) (605332062949254,15) (-6418545735128353,16) (-470739630821813,15) (4709593371696262,16) (-2333009355984531,17) (8818463638680126,16), (4269044939387851,17));
  (AB60 (-4470439773240164,16) (-8796732818399999,16) (162254736618591,15) (4923990799707575,16) (8516422868410736,16) (-1795788442664059,16) (-930942189041528,15) (-2803099499892637,17) (-3640891429058797,16) (6266228215904223,16) (-7686874524229369,16) (-1283099370648778,16) (7513633447751221,16) (-8295483441813664,17) (6546538165893486,16), (3667266847936795,17));
  (AB60 (-3358108236422033,16) (-8807282002850116,16) (3339894129272207,16) (4417581235917372,16) (8152491678999195,16) (-3744576804916627,16) (-9832900393199363,16) (-6547903238509202,17) (-1698622821349993,16) (710268504133866,15) (-6493006263927156,16) (-271895841456738,15) (6088323588282737,16) (-165948541507204,15) (775747536518958,15), (4133414202330638,17));
  (AB60 (-1996445654983616,16) (-8453065472879562,16) (4955793464008411,16) (3743841254383501,16) (7373115600658436,16) (-5623239191187172,16) (-9933505989863832,16) (-1079949872221124,16) (3989574198193997,17) (7619684846170787,16) (-4977712525855422,16) (-41427986742029,14) (4310266798676661,16) (-2395403074803016,16) (8699634718391911,16), (4245640081450885,17));
  (AB60 (-5387602213028118,17) (-7695747905192749,16) (6362798252629354,16) (2878105649135883,16) (6249952919365247,16) (-7256348694634922,16) (-9573876030316789,16) (-1445794985827502,16) (2500114920374999,16) (7795108915937734,16) (-3211077777687436,16) (-5378220569510883,16) (2317527335681867,16) (-3038875141677811,16) (9240903901765236,16), (4092806020985292,17))].

(** ahrens_beylkin/ahrens_beylkin_372.hpp:1-762. *)
Definition ab_372 : coded := [  (AB12 (5257311121191336,16) (8506508083520399,16), (2462004449769815,17));
  (AB60 (-4096274129493228,16) (-905187524550764,15) (1133178183610365,16) (5490713493140547,16) (8190064323522823,16) (-1665806625272866,16) (-9155528316014615,16) (-8618109219848172,17) (-3928559938374654,16) (5762080754766095,16) (-802235013240425,15) (-1562153554765892,16) (7489721690741749,16) (-1677141911185738,17) (6623891676750912,16), (3118918272308315,17));
  (AB60 (-2713560885800388,16) (-9335245393607497,16) (2343028117668291,16) (554232168227131,15) (7586975075345245,16) (-3423518595876959,16) (-9562422657906512,16) (-1748270318262252,16) (-2345980350693365,16) (6137079481677348,16) (-7219394540238221,16) (-3196341331577944,16) (6138904062029553,16) (-3675805351070236,17) (7885349799939599,16), (3409096250297831,17));
  (AB60 (-1153853612956797,16) (-9299082435101461,16) (349223248153012,15) (5420439105901008,16) (6662187584554714,16) (-5121923123927584,16) (-9625792338280295,16) (-2636894850546748,16) (-625225885152257,16) (6275776736884381,16) (-6133559856750175,16) (-4795213220748751,16) (450386921435271,15) (-5286277278045395,17) (8912671587431128,16), (3493360359771772,17));
  (AB60 (-2986187138884678,16) (-8587962478820959,16) (4162882034591315,16) (3943584000825631,16) (7996258677418959,16) (-4528575095130268,16) (-9952031184015478,16) (-5917038014019996,17) (-7790776108898828,17) (7514762234014946,16) (-5789149149424164,16) (-3164506389935748,16) (542345608888521,15) (-2207109527994795,16) (8106466035416945,16), (3513289326344059,17));
  (AB60 (-1331576630325957,16) (-8410072826076462,16) (5243813377463012,16) (3770505343412045,16) (6902731985251219,16) (-6175401249723858,16) (-9837278337041553,16) (-1507340840825243,16) (977690395346721,16) (7506977880049814,16) (-4593464959578541,16) (-4748195738758766,16) (3661877087317696,16) (-2309267025672678,16) (9014318720875057,16), (3510631155537588,17));
  (AB60 (-1497279001495901,16) (-7214042056824813,16) (6761342528968803,16) (1992926700839486,16) (6907714932184789,16) (-6950663103672364,16) (-9679638543374262,16) (-3063271246400249,17) (249213991628343,15) (8447942105168266,16) (-2918296014405458,16) (-4485066617122916,16) (2728975439701897,16) (-398941891777933,15) (875426922980829,15), (3406254769718427,17))].

(** ahrens_beylkin/ahrens_beylkin_432.hpp:1-882. *)
Definition ab_432 : coded := [  (AB12 (5257311121191336,16) (8506508083520399,16), (1267796801928499,17));
  (AB60 (-1750974332691168,16) (-9572304654535243,16) (2303274296956324,16) (6051439166859355,16) (6914471219595623,16) (-3945905696184892,16) (-9436875114847487,16) (-265783343493962,15) (-1970103930986708,16) (5696880028876059,16) (-7133600817891163,16) (-4081335235872647,16) (5490969418662596,16) (2191295982955406,17) (8354713463815679,16), (3074420529280871,17));
  (AB60 (-1013226284385694,16) (-9122707072562257,16) (3968575079906204,16) (5083033375431728,16) (6607427962640471,16) (-5523103061030451,16) (-9677816737383057,16) (-2515279109921787,16) (-1150399792220775,17) (6536329345416144,16) (-5709241657476853,16) (-4967993396209651,16) (4154713676352607,16) (-8981863051636164,17) (9051608455337932,16), (3165606459719009,17));
  (AB60 (-4244710046870244,16) (-9008871140657512,16) (9070156498247596,17) (552313448733658,15) (821876138440075,15) (-1395330334034333,16) (-9053525218515309,16) (-7901097562567619,17) (-4172458231160044,16) (5640040380904577,16) (-814650956869055,15) (-1350676256176536,16) (7658194884480976,16) (-7225181571020026,18) (6430150137161339,16), (264593194882673,16));
  (AB60 (-3419267856308725,16) (-9124944694762256,16) (2245883265965553,16) (5202681821892013,16) (8022734248020549,16) (-2927086784807134,16) (-956178883969635,15) (-1102210446741707,16) (-2712439182018975,16) (6346354641115859,16) (-7315905573730798,16) (-2490242639873039,16) (6634702054889217,16) (-7068286742897509,17) (7448565087857567,16), (2596826020297601,17));
  (AB60 (-2831983336536392,16) (-8806395028472258,16) (379832555003903,15) (435022948341718,15) (7868067306411366,16) (-4378243974858926,16) (-9898816991009032,16) (-9383277220608918,17) (-1064407471095028,16) (7210227311395317,16) (-6100491440970002,16) (-3285822012322152,16) (5520573016150107,16) (-1767575865441364,16) (814855503345621,15), (2981359024750611,17));
  (AB60 (-2074731816780108,16) (-8198454207075418,16) (5336743998256586,16) (3323189391845042,16) (7426864992173016,16) (-5813612358419117,16) (-9942188170412554,16) (-771589214902402,16) (7466890032369398,17) (7888344175199226,16) (-4605444172155968,16) (-4069878395081982,16) (4128575811993437,16) (-2821420820017048,16) (8659933390101627,16), (3103693103804415,17));
  (AB60 (-1220998460170455,16) (-7289932404494326,16) (6735432302247938,16) (2152653777658251,16) (6714137752487294,16) (-7091292967728702,16) (-9642704628502815,16) (-5757946520070323,17) (2585866966061961,16) (8312291427899157,16) (-2907272326254877,16) (-4738520743720213,16) (2551411660774113,16) (-3806865426232416,16) (8888086079906189,16), (3122554576867018,17))].

(** ahrens_beylkin/ahrens_beylkin_492.hpp:1-1002. *)
Definition ab_492 : coded := [  (AB12 (5257311121191336,16) (8506508083520399,16), (1795453816623618,17));
  (AB60 (-4348017776250502,16) (-8942182224545863,16) (1064010564057357,16) (5358760719720723,16) (8317508731592151,16) (-1450080014573868,16) (-9109994053189626,16) (-6246734929537109,17) (-4076492533790619,16) (5798097790824369,16) (-8045983489132269,16) (-1282268185930105,16) (7659914038615758,16) (-2715252424598824,17) (642277128377808,15), (2298271749652147,17));
  (AB60 (-3244576064996202,16) (-9201463401618787,16) (2192212906431256,16) (5345404668187063,16) (790307992030887,15) (-2994658028312199,16) (-954287586187036,15) (-1298383481309918,16) (-2692159100126436,16) (6239234093308401,16) (-7350662955439103,16) (-2653245568060627,16) (6548217833558161,16) (-5524169648697665,17) (7537617574618319,16), (253871926020199,16));
  (AB60 (-1988139568286059,16) (-9230655377289352,16) (3292765154506846,16) (520700557840249,15) (7241286777805634,16) (-452226256513956,15) (-9728508560488665,16) (-1989368599483718,16) (-1182596196462243,16) (651040213342562,15) (-6435743405981817,16) (-4024409381940248,16) (5206245995349104,16) (-8055433718238161,17) (8499770732909337,16), (2633599977787515,17));
  (AB60 (-6147588503209948,17) (-9006646266846526,16) (4301440988767781,16) (4945838465627035,16) (6329891856605574,16) (-5955766193832869,16) (-9627221318778,13) (-2676754410240952,16) (3893526762743605,17) (6570525044153863,16) (-5325780330010219,16) (-5335191141901395,16) (3671455124945131,16) (-1004111526595355,16) (9247279454394816,16), (2655283884317076,17));
  (AB60 (-3606537663821607,16) (-8546760146582216,16) (3734404514274013,16) (3932790519320326,16) (83451247929573,14) (-3859022016147816,16) (-9896157891542733,16) (-2016353536249162,17) (-1423166248133027,16) (7465559679969422,16) (-6161753377268721,16) (-2509624271187298,16) (6037135875394918,16) (-2183371415688579,16) (7667195033594338,16), (2634588502935459,17));
  (AB60 (-2271966476263472,16) (-8468297091050464,16) (4808961707940831,16) (3744439154289763,16) (7558258928524636,16) (-5371396223441294,16) (-9957553365861751,16) (-9100381625258282,17) (1377007943402447,17) (7643362699704765,16) (-5148591657920919,16) (-3882139948630007,16) (4586157142420457,16) (-2409667270603716,16) (8553400862230593,16), (2664765967657748,17));
  (AB60 (-8596067779545209,17) (-813945488961624,15) (5745463452777063,16) (3446592501391429,16) (6540609784121495,16) (-6733604070719227,16) (-972332215990417,15) (-1598845105494745,16) (1703144299039867,16) (7593210848673747,16) (-3977858707127107,16) (-5149736800431296,16) (2989718089184943,16) (-2562751076994388,16) (9192055954168492,16), (2631815991041086,17));
  (AB60 (-1103691927611967,16) (-7057599764075302,16) (6998010410041445,16) (1869653381426274,16) (6584209551545777,16) (-7290581651326228,16) (-9549782915840803,16) (-4733902125295244,17) (2928745118134452,16) (8394273578938194,16) (-2551772505799358,16) (-4798398499560726,16) (2259201264514576,16) (-4032437045746419,16) (8867663791467719,16), (252781492701421,16))].

(** ahrens_beylkin/ahrens_beylkin_552.hpp:1-1122. *)
Definition ab_552 : coded := [  (AB12 (5257311121191336,16) (8506508083520399,16), (2127696997824436,17));
  (AB60 (-2562213369191851,16) (-9307043572416419,16) (2610364455756468,16) (5432606715299797,16) (7533042923440167,16) (-3706757152888163,16) (-9626506119646212,16) (-1774000648976252,16) (-2045312109641428,16) (6268970522080014,16) (-7016141663889744,16) (-338729460565837,15) (5919748966758049,16) (-5169012595504235,17) (8042971171056266,16), (2195218817219723,17));
  (AB60 (-1580039435414239,16) (-9103014444936333,16) (3826042785675081,16) (4963212955830985,16) (7012098219480147,16) (-5118300080635642,16) (-976577381615726,15) (-2090916225456185,16) (-5076722464162703,17) (669833951604988,15) (-5939731030482179,16) (-4455540709414715,16) (4647473735521618,16) (-1072367188997969,16) (8789255741506066,16), (2274585378530351,17));
  (AB60 (-5504178136453906,17) (-8669402990003602,16) (4953634224217453,16) (4366788779466041,16) (6310756019448177,16) (-6411358219482678,16) (-9660599920529751,16) (-2358646970555426,16) (1053372509490487,16) (6961776033128069,16) (-4706965696312299,16) (-5420161288956529,16) (3249241701047073,16) (-1603790323135878,16) (9320423003683495,16), (2271945623561948,17));
  (AB60 (-4797951924527472,16) (-8656155314425517,16) (1432002968735057,16) (4804326588078757,16) (8652215555683977,16) (-1434437873544803,16) (-9201626922559762,16) (-3939758741539396,19) (-39153603226682,14) (6232389798072275,16) (-7769623953824705,16) (-8889662654105576,17) (776718904901496,15) (-8825916018592724,17) (6236329556813814,16), (2173053167670115,17));
  (AB60 (-402821466465503,15) (-8728676405153266,16) (2753850909105071,16) (4439935307247296,16) (8474219054161297,16) (-2911114200705369,16) (-9683359793089936,16) (-2544573509919683,17) (-2483504494478597,16) (6939328865360399,16) (-6929508883984865,16) (-1956430812768699,16) (6772245592384567,16) (-1544710170176433,16) (7193786216352367,16), (2154428686760649,17));
  (AB60 (-3125247813732038,16) (-8624267856909807,16) (3981812405806611,16) (4020518371301986,16) (807096022320451,15) (-4323775329671262,16) (-9933840149261297,16) (-5533076337052972,17) (-1006315333982214,16) (7449023143403299,16) (-5952027743454685,16) (-3014203037319772,16) (5610064819590035,16) (-2118932479749824,16) (8002330777108597,16), (2201530066216366,17));
  (AB60 (-2158430484474563,16) (-8307114433711436,16) (5131571652906547,16) (3487819223757105,16) (7485507008573453,16) (-5639352967051106,16) (-9953374278422834,16) (-8216074251379833,17) (5052738985826027,17) (7797783451525668,16) (-4821802625516287,16) (-3993093122339708,16) (4314021311371728,16) (-2663704383057166,16) (8619390876663652,16), (2225823056828976,17));
  (AB60 (-1130841612998398,16) (-780576581324948,15) (6147456166172872,16) (2891819837580493,16) (6717421417009299,16) (-6820089994514786,16) (-973817455647913,15) (-108834439624018,15) (1995861413704644,16) (7950931607513184,16) (-3590718390306258,16) (-4887681251285137,16) (2918084561964343,16) (-3126703026703042,16) (9039276003753365,16), (2153833866975208,17));
  (AB60 (-8171344577070342,18) (-7146834899990019,16) (6994002704107637,16) (2259658694618002,16) (5800790710566041,16) (-7825903763530957,16) (-9304163085549805,16) (-1346044189423978,16) (340891688335317,15) (7907617209301661,16) (-2310160381442168,16) (-5668575577971171,16) (1478259322018848,16) (-3490630329123873,16) (9253661398725639,16), (20981638831764,15))].

(** ahrens_beylkin/ahrens_beylkin_612.hpp:1-1242. *)
Definition ab_612 : coded := [  (AB12 (5257311121191336,16) (8506508083520399,16), (1619265594349495,17));
  (AB60 (-4286020978804999,16) (-8997421991299218,16) (8224485878938814,17) (5543389681878716,16) (8220325396409287,16) (-1302720696077667,16) (-901474491116918,15) (-7770965948899315,17) (-4257991905671011,16) (5588741674882666,16) (-8192296323275299,16) (-1285397776207705,16) (7712024215091513,16) (-2802907313398844,18) (6365838269772598,16), (1923978906356343,17));
  (AB60 (-3242791693852438,16) (-929337385413007,15) (1765645614967295,16) (5633596832969058,16) (7815775017678078,16) (-2678851917631923,16) (-9403397933173003,16) (-1477598836451992,16) (-3064768994380068,16) (5921643611484361,16) (-7637752318205708,16) (-2568827838588991,16) (672454601554108,15) (-1780226994723701,17) (7399242447936353,16), (2027561953189965,17));
  (AB60 (-2127770428523278,16) (-9384436041867671,16) (2721204361968594,16) (5574048836969258,16) (7254518850753163,16) (-4037565579300065,16) (-9610287644022166,16) (-2129917191114507,16) (-1762334859823687,16) (6165336007823343,16) (-6889083282053572,16) (-381171397714557,15) (5572722064722101,16) (-3654355686995918,17) (8295253198937851,16), (2066436694428345,17));
  (AB60 (-88995630696393,15) (-9298162701367401,16) (357101500285216,15) (5461852517340394,16) (6472575450317906,16) (-5317323962179129,16) (-9582890766398597,16) (-2825587251049495,16) (-4292566201924625,17) (620728026914306,15) (-6011875763546438,16) (-5032595897147932,16) (4265566804219468,16) (-4606996867714675,17) (9032867520192555,16), (2086851137993589,17));
  (AB60 (-3494119011001887,16) (-8794311054279266,16) (3232835507342851,16) (4418587188291794,16) (8222958299196439,16) (-3585950929549931,16) (-9810907005170979,16) (-571352755082826,16) (-1849232209633576,16) (7080069940551819,16) (-6578071497828128,16) (-2569354978658218,16) (6224956075621048,16) (-1644886801368311,16) (7651422695634644,16), (2076999470194631,17));
  (AB60 (-2287655745707151,16) (-8802085241662633,16) (4158115749668102,16) (4335054168904932,16) (7536723427613463,16) (-4940152358816713,16) (-9907018923979041,16) (-126536181404917,15) (-4998354924046262,17) (7227808104523864,16) (-5748903174310939,16) (-3835218676500306,16) (4966866565162327,16) (-1787820253302525,16) (8493169918573035,16), (2099902690077119,17));
  (AB60 (-9661564668898943,17) (-8641279020460192,16) (4939113136185624,16) (4222826245100948,16) (6628546407391178,16) (-6183050301327665,16) (-975905691627504,15) (-2012732613069013,16) (8424461604118687,17) (714920676821756,15) (-4819943780089415,16) (-5065272405512817,16) (3576006614947375,16) (-1808602627301763,16) (9161939381286572,16), (2104969974708878,17));
  (AB60 (-2441165922286128,16) (-8037929305203066,16) (5425163723283074,16) (3035877789776751,16) (7670377157580938,16) (-5652323443151569,16) (-9969765025210637,16) (-367552147622129,16) (6846099333672469,17) (8093489365437697,16) (-4544601301927563,16) (-3720487723143998,16) (4317441582059068,16) (-3125775855653375,16) (8461041513059826,16), (2107385391843326,17));
  (AB60 (-1133057656108699,16) (-7797242486191993,16) (6157855954750482,16) (2879039631872216,16) (6718166281425445,16) (-6824761725747449,16) (-9737163729311162,16) (-1079076204766548,16) (2005800850756065,16) (7957819381856148,16) (-3579307774560681,16) (-488484048262828,15) (2912402003563713,16) (-3138858506864764,16) (9036895586622696,16), (2085301552985246,17));
  (AB60 (-1286342622434316,16) (-6772752584062476,16) (7243973018501922,16) (1459783699031381,16) (6665560103680116,16) (-7310221614716628,16) (-9498760179375384,16) (-1071924803823606,17) (3124430320372338,16) (8596564237150943,16) (-2254787160873461,16) (-458421401940372,15) (2188538564658756,16) (-4410772942806654,16) (8703756717533304,16), (2040710133284613,17))].

(** ahrens_beylkin/ahrens_beylkin_672.hpp:1-1362. *)
Definition ab_672 : coded := [  (AB12 (5257311121191336,16) (8506508083520399,16), (1267908937122625,17));
  (AB60 (-1656159571962313,16) (-9364499008521086,16) (3092457565045189,16) (5518028606045216,16) (6977732685357125,16) (-4567560275964131,16) (-9634049077356591,16) (-2386766323163959,16) (-1220018398916591,16) (6223719847926444,16) (-6541591512311402,16) (-4298010207128625,16) (506648880139246,15) (-4361411730457231,17) (8610486171090405,16), (1942735465229874,17));
  (AB60 (-628595092408618,16) (-9091667937588697,16) (4116605679734397,16) (5102764462720932,16) (6326479195311971,16) (-5825586307769987,16) (-9607863274725237,16) (-2765188742276725,16) (2066265079125139,17) (6454181400178605,16) (-5491257594990839,16) (-5309390970633446,16) (378227696695525,15) (-835221600321132,16) (921937014245533,15), (1956498680623221,17));
  (AB60 (-4703683087212906,16) (-8759242285299449,16) (1072865323556207,16) (5096425194773996,16) (8516514314013427,16) (-1222879459831277,16) (-9076326538535815,16) (-2427279712860209,17) (-4190629988179086,16) (5926562547044182,16) (-8003461214979608,16) (-9057952065949101,17) (7853447078704538,16) (-5130530990338198,17) (6169290518330203,16), (1630979857291332,17));
  (AB60 (-3978897237675242,16) (-8905960666299608,16) (2202780375422064,16) (4874136477246997,16) (8352672388181653,16) (-2544731336875864,16) (-9536010583295429,16) (-5532882781179543,17) (-2959455057366954,16) (6523628574551107,16) (-7333230207873366,16) (-1914681419880043,16) (6991279246419565,16) (-1019442180308288,16) (7076916852669061,16), (18184395947071,15));
  (AB60 (-3103665992325509,16) (-8909662800763853,16) (3314387754136035,16) (4591789206408064,16) (7989952075013099,16) (-3882800242467835,16) (-9824348033528434,16) (-9197107257507549,17) (-162367419670481,15) (6986466234793344,16) (-6509960279392399,16) (-2968115009703254,16) (59415477910606,14) (-14799917956207,14) (7906176960544099,16), (1910365570938485,17));
  (AB60 (-2115380704280232,16) (-8744491070878658,16) (4365666087469618,16) (4237920252570572,16) (7432689487569379,16) (-5176404052450679,16) (-9910963514431064,16) (-1311801583309279,16) (-2279886436722977,17) (7291784756730911,16) (-5545297426961445,16) (-4009931608898274,16) (4734559461980384,16) (-1887392060607934,16) (860358634004019,15), (1946489596446692,17));
  (AB60 (-106090488664349,15) (-8392106115449368,16) (5333576264433957,16) (379473069439122,15) (6702508846939635,16) (-6377804803671954,16) (-9783982237601707,16) (-1689597268509732,16) (1191197987128395,16) (7438709690315444,16) (-445040597316775,15) (-4985928681519615,16) (3406177433929753,16) (-2252102873771885,16) (9128306958825176,16), (1940676709279694,17));
  (AB60 (5519901710574025,19) (-7840288328738552,16) (6207241613867722,16) (3241011435251028,16) (5833821616954643,16) (-7447306239045416,16) (-9444841562247057,16) (-2006466711783908,16) (2601741570285883,16) (7441786337334843,16) (-3237599948379335,16) (-584275300553691,15) (199753532320164,15) (-2596221668575308,16) (944825304911875,15), (1896267702029461,17));
  (AB60 (-2569285180845468,16) (-7949600621132817,16) (5495691369061092,16) (2889563532182581,16) (7751657714145702,16) (-5618026813411089,16) (-9973160469797594,16) (-1979429069871162,17) (7049034325637324,17) (8187311994256558,16) (-4477469100736501,16) (-3594466964746313,16) (4355133656386504,16) (-3274188613409201,16) (8385254901243674,16), (1943686874167359,17));
  (AB60 (-1504425307335016,16) (-7534457119174829,16) (6400676559080741,16) (2430272586527102,16) (6962252032242507,16) (-6754318751340505,16) (-9760735119076389,16) (-5722050869323225,17) (2097768164911843,16) (825874405867552,15) (-3360058559995648,16) (-4528040751438945,16) (3006416367735885,16) (-3602193472246858,16) (8830949145607843,16), (1900291062082343,17));
  (AB60 (-4555725705837098,17) (-6940485357773875,16) (7184853278352885,16) (1881764297991663,16) (6059050395761835,16) (-7729610043748798,16) (-9348176909307441,16) (-8814349620120399,17) (3440154194223569,16) (8185182614332508,16) (-2163323630954556,16) (-5321918492215232,16) (1618566865558643,16) (-3895726764807279,16) (9066617576344548,16), (1803938123711868,17))].

(** ahrens_beylkin/ahrens_beylkin_732.hpp:1-1482. *)
Definition ab_732 : coded := [  (AB12 (5257311121191336,16) (8506508083520399,16), (1765466896069203,17));
  (AB60 (-7411663040301565,17) (-9446471619920751,16) (3196067340310916,16) (5815289423637682,16) (6310491068901652,16) (-5134209908899343,16) (-9469422731155372,16) (-3135980551019099,16) (-7040306259729598,17) (58753762129295,14) (-6273355390844456,16) (-5111258797664722,16) (433521282225603,15) (-3713567805719674,18) (9011356763948598,16), (1838090926961589,17));
  (AB60 (-2817870096319087,16) (-9355228410881885,16) (2130565535368265,16) (5632486255275078,16) (7615699959362405,16) (-3205653242804776,16) (-9504591286050479,16) (-1739528451519479,16) (-2576195887638895,16) (6023523339123863,16) (-7374025750682214,16) (-3056290367636183,16) (6298938043245702,16) (-2416742086801919,17) (7763051790643343,16), (1670346793448776,17));
  (AB60 (-2108028425304357,16) (-9204208112806384,16) (3292228602976711,16) (5148829873491266,16) (7324889464786971,16) (-4453711403144208,16) (-9743891692556988,16) (-1879318648019413,16) (-1234802050097664,16) (6561739828448564,16) (-6451663089580278,16) (-3914027823393603,16) (529018028941278,15) (-8732263752066929,17) (8441058476467977,16), (1757390465203774,17));
  (AB60 (-1391148401270508,16) (-885658720895338,15) (4430075522589415,16) (4520203305222235,16) (6922724925646675,16) (-5625268143234438,16) (-9810055823191901,16) (-1933862283306705,16) (1515962237736813,17) (7016416544504945,16) (-5379980300602486,16) (-4671799528995916,16) (4184787679957464,16) (-1542744625044189,16) (8950278827811651,16), (1801938959332481,17));
  (AB60 (-6233349218855824,17) (-834802449342451,15) (5470095120959265,16) (3826025040109082,16) (6368653144928967,16) (-6693413890687223,16) (-9681362329168397,16) (-1979371348495542,16) (1534051014834253,16) (7316748812572805,16) (-4211267208209132,16) (-5360076054943335,16) (2987948438481175,16) (-2157385936719835,16) (9296120161068346,16), (1779872127449772,17));
  (AB60 (-4788862004485839,16) (-8687571782749818,16) (126210032151213,15) (4917503308238196,16) (8608067084673762,16) (-1311236927188431,16) (-9139283115955527,16) (-7950469807605623,18) (-4057977714255474,16) (610009893167427,15) (-7877182794443397,16) (-8595255939827225,17) (7828046188767096,16) (-730884290230365,16) (6179603629750327,16), (1668140169350118,17));
  (AB60 (-4015704742035174,16) (-8849892317148391,16) (2356591054823493,16) (474049674586865,15) (8401946224005158,16) (-2633436965513737,16) (-957892982005401,15) (-4479460931432325,17) (-2836097283260532,16) (6649141707548911,16) (-7222338765230516,16) (-1904399462608118,16) (6945492854540273,16) (-1179607458774642,16) (7097087800692143,16), (162475062702519,16));
  (AB60 (-3351926377039727,16) (-8756496986135132,16) (347683046677742,15) (4309937425188696,16) (8164413596781156,16) (-3842758125572415,16) (-9858372320763963,16) (-5920833893539753,17) (-1569054634245113,16) (7194684502612141,16) (-6381541853986542,16) (-2740882790943583,16) (6015614195191549,16) (-1782871742794613,16) (7786767891966117,16), (1694850765950827,17));
  (AB60 (-2684223139179127,16) (-8466205691480592,16) (4595465953375891,16) (3722100738892937,16) (7824762058695299,16) (-4991899920304408,16) (-9976507825670468,16) (-6414436327852925,17) (-2405029527784038,17) (7676123059483535,16) (-5381041872294576,16) (-3481597786114533,16) (4984607905366059,16) (-2443720186400723,16) (8317566692268827,16), (1746864241206053,17));
  (AB60 (-1957121601581734,16) (-8015391434317446,16) (5650059751125882,16) (3054774176420187,16) (7337004835228444,16) (-6069325726875333,16) (-9914401597440211,16) (-6783865990890013,17) (1115541387332382,16) (8026447328457068,16) (-4264341846314328,16) (-4170315563752569,16) (3845075870564877,16) (-3072662988914116,16) (870483392754607,15), (1767685217642525,17));
  (AB60 (-1140549659859587,16) (-7448063279305872,16) (6574610244025849,16) (2385855418300349,16) (6678421994203515,16) (-7050274717364254,16) (-9665364117976554,16) (-7696412851023575,17) (2447118460393223,16) (8190824377223841,16) (-3090753873950705,16) (-4832973878693572,16) (26150894006123,14) (-358766812025281,15) (8960465662326198,16), (1717450253387457,17));
  (AB60 (-1927572014018948,17) (-6892272241211268,16) (7242888098979323,16) (1894956072487621,16) (5840255483268588,16) (-7893070212122371,16) (-9256974673509624,16) (-1052016757942679,16) (3633411707336393,16) (8085827413524265,16) (-2014086574530301,16) (-5528367779824014,16) (1363904461387254,16) (-3826168908738288,16) (9137844171466944,16), (1523477097759552,17))].

(** ahrens_beylkin/ahrens_beylkin_792.hpp:1-1602. *)
Definition ab_792 : coded := [  (AB12 (5257311121191336,16) (8506508083520399,16), (1088038139645896,17));
  (AB60 (-7799895897924458,17) (-936539529602084,15) (3417745922254337,16) (5626860953711472,16) (636986405402032,15) (-5269086044172844,16) (-9526666953328629,16) (-2995531242000519,16) (-5190465668464175,17) (604907563396529,15) (-6108921031074291,16) (-5107814386865055,16) (4257580909155785,16) (-2609430229460283,17) (9044606875965809,16), (1647451193560403,17));
  (AB60 (-4643293805411792,16) (-8809645303050462,16) (9110281395573987,17) (5236781999056394,16) (8442849427456318,16) (-1137720457607857,16) (-9017523530110121,16) (-3667958755941432,17) (-4306939768508196,16) (5781014263019649,16) (-8106495390552723,16) (-9298422305481982,17) (7879803072502264,16) (-3363540369035964,17) (6147810138613793,16), (1386891027918104,17));
  (AB60 (-3906860329532034,16) (-9009446141004985,16) (188847096823309,15) (5137273317387571,16) (8249009094310952,16) (-2358446909394593,16) (-9440316758570073,16) (-7604370466940333,17) (-3209697025558065,16) (6265307238926627,16) (-7551845790336983,16) (-1927576291829506,16) (7081869849175479,16) (-697163303973969,16) (7025744285620661,16), (1534480039402307,17));
  (AB60 (-3051242176948492,16) (-908487053196822,15) (2855704570677105,16) (4979076680089212,16) (7893403284342488,16) (-3592071826192094,16) (-9720552624027705,16) (-1191467247625731,16) (-2022686945956604,16) (6643314003140586,16) (-6864848053350601,16) (-2956389734132608,16) (6128480797835612,16) (-1028555230991888,16) (7834781250766317,16), (1604684321878286,17));
  (AB60 (-209399856136064,15) (-9020951490155243,16) (3773275001545137,16) (4764384418537901,16) (7370562267342674,16) (-4793271635909829,16) (-9831821703397295,16) (-165038922281257,15) (-7819829958701244,17) (6887270197270469,16) (-6058546701852159,16) (-3982401422667777,16) (5038550067487467,16) (-1312015565490515,16) (8537659420083038,16), (1636523597664526,17));
  (AB60 (-1069465263700502,16) (-8799936226417311,16) (4627890065756346,16) (4474869982332037,16) (6695280364853751,16) (-592863892282432,15) (-9763725930842663,16) (-2104655861563561,16) (4899792360669312,17) (6998104186524822,16) (-5135835865086317,16) (-4964849218398968,16) (3835087008018342,16) (-1559444499767434,16) (9102760048088383,16), (1644608223425936,17));
  (AB60 (-1474642384499581,18) (-8408621451847154,16) (5412473355363483,16) (409192408055399,15) (5888787081829345,16) (-6969816642054668,16) (-9513511227066193,16) (-2519834370017809,16) (177300278628164,15) (6984563065899664,16) (-4101037871702709,16) (-586492686683563,15) (2543694585011524,16) (-1787749210126636,16) (9504397435917473,16), (1632752822934539,17));
  (AB60 (-3417523854353218,16) (-8499229140186743,16) (4010440714875018,16) (3814727506383421,16) (8253743782776491,16) (-416215900949497,15) (-9937314120612273,16) (-2454853574102512,17) (-1090653477313982,16) (7579682863848188,16) (-5926873405737255,16) (-2724074029069439,16) (5775155111117304,16) (-2326870377039236,16) (7825168221258439,16), (1634808333713718,17));
  (AB60 (-2419944168930338,16) (-8372141338118011,16) (4904194086069149,16) (3573303705173876,16) (7659325943470688,16) (-5344738227665364,16) (-9973105538519091,16) (-7128153946473227,17) (1704703220904073,17) (7764682396595702,16) (-5068911452449942,16) (-3743774027264284,16) (4628367310853728,16) (-2590414491020746,16) (8477497791243025,16), (1645157244761871,17));
  (AB60 (-1375035990522528,16) (-8089577585369567,16) (5715593627529342,16) (3261899441165311,16) (6923431840742418,16) (-6436311333544975,16) (-9827312046591953,16) (-116614574462715,15) (1436677431157278,16) (7811347324067502,16) (-4111718419062612,16) (-469857687232259,15) (3391000713046978,16) (-2811713421679806,16) (8977493068694652,16), (1634220213228001,17));
  (AB60 (-3211296894724055,17) (-7643365589770733,16) (6440173769677963,16) (2864291240060912,16) (6071605312625151,16) (-7411575043120886,16) (-950293407262952,15) (-1571760277145582,16) (2687715320201188,16) (7732704732593292,16) (-3062760302951558,16) (-5552006560262099,16) (2091359029508633,16) (-3008845009673594,16) (9304465009738874,16), (1598938966174012,17));
  (AB60 (-1678358719943414,16) (-7246089228047047,16) (6684108235686377,16) (2001513843284219,16) (7046368378183766,16) (-68075425091639,14) (-9722904813210391,16) (-1997208498632816,17) (2329213080716337,16) (8485901229107314,16) (-3038796577524014,16) (-4330726924000555,16) (2915362304046492,16) (-4007571800659751,16) (8685622078970595,16), (1599317146659191,17));
  (AB60 (-6462444475953409,17) (-6765567154561105,16) (7335493793268191,16) (1606011391163385,16) (6172398562157452,16) (-7702092144432581,16) (-9340906218086397,16) (-5931685924036535,17) (3520741689743905,16) (8348336592027922,16) (-2005412424818206,16) (-512675308090729,15) (1638814073653815,16) (-4166986137339246,16) (8941505184431575,16), (1526510264681881,17))].

(** ahrens_beylkin/ahrens_beylkin_912.hpp:1-1842. *)
Definition ab_912 : coded := [  (AB12 (5257311121191336,16) (8506508083520399,16), (1439837438519628,17));
  (AB60 (-1307145964102626,16) (-9487426739236342,16) (2877516862879085,16) (5832800716453614,16) (6690418280935942,16) (-4606163156929675,16) (-9518178213405372,16) (-27970084583004,14) (-125738903369297,15) (59133091210323,14) (-6640661350526288,16) (-4575411682760644,16) (4912015056475698,16) (-4975693040965518,18) (8710317579332699,16), (1456209568775012,17));
  (AB60 (-641500594322866,16) (-9169255735915168,16) (3938683312589398,16) (5250507474283242,16) (6320732829717549,16) (-5699167286352156,16) (-958565995796743,15) (-2848522906197619,16) (3225559001665179,18) (6340667880675022,16) (-5646976645378031,16) (-5282763064299894,16) (3886492671615274,16) (-6737561843395178,17) (9189190786872641,16), (1480021612590286,17));
  (AB60 (-310953570821381,15) (-9298554545742933,16) (19666395295495,14) (5578469507399897,16) (7772669541872523,16) (-2909688324865178,16) (-9466907793857007,16) (-1525885003870409,16) (-2837134430648793,16) (6019224033078988,16) (-7500268264307507,16) (-2741335076751103,16) (655721946899183,15) (-2724012775650169,17) (7545109036949397,16), (1306034027207374,17));
  (AB60 (-2487467678229184,16) (-9213375699552779,16) (2987676817973364,16) (5191269321981475,16) (7542334384876028,16) (-4020437147048904,16) (-9716285711017262,16) (-1671041314676751,16) (-1673742186397053,16) (6507904825278088,16) (-6728608893043898,16) (-3517527135584423,16) (5695848563968356,16) (-8137254918321307,17) (8178946139954839,16), (1368548193689557,17));
  (AB60 (-188191530054451,15) (-8962333772462533,16) (4016835589435291,16) (4660718726622587,16) (7244938807091625,16) (-5078244050142461,16) (-9840641935742859,16) (-1717394965370908,16) (-4607828397604513,17) (6960159350686971,16) (-5823806346307567,16) (-4199935886862136,16) (4762397885600398,16) (-1421132460784058,16) (8677554316057878,16), (1423859804329333,17));
  (AB60 (-1233839116876141,16) (-8570711214409584,16) (5002054609144136,16) (4051546466325924,16) (6829272302099241,16) (-6078323046283577,16) (-981615558634867,15) (-1741438912310343,16) (7813322080185661,17) (7312162163159718,16) (-4814100977204533,16) (-483287867434449,15) (3737832540065094,16) (-2015171324894707,16) (9053601075470061,16), (1440655568656885,17));
  (AB60 (-5342877519183296,17) (-8067391613881596,16) (5884872908264285,16) (3419116466546853,16) (6284469416519498,16) (-698677942553071,15) (-9634197365269438,16) (-1782922197362098,16) (2000857207596016,16) (752106717744904,15) (-3749324457005153,16) (-5419973674142868,16) (2647417939738728,16) (-2535144959514345,16) (9303989374811138,16), (1404263456922009,17));
  (AB60 (-4888816580673123,16) (-8644826775694476,16) (1168949296920699,16) (4898609720694047,16) (8638774282304958,16) (-1172689943552105,16) (-9089013829234779,16) (-6052493389517642,19) (-4170106830682244,16) (6061506524225229,16) (-7920064532314079,16) (-7285028900118025,17) (7916323885682673,16) (-718709749990879,16) (6067559017614746,16), (1389606135005325,17));
  (AB60 (-4181650093381054,16) (-8819438848116184,16) (217515537395959,15) (4755297278612478,16) (8464905390092459,16) (-2394269101167288,16) (-9514854539340731,16) (-3545334580237266,17) (-3056443868669736,16) (6575919194548342,16) (-7339699165381141,16) (-1698853409942741,16) (7120585438173443,16) (-1125206224711318,16) (6930452652572068,16), (1290179958843996,17));
  (AB60 (-357867929049563,15) (-8787623844125441,16) (3157644962616237,16) (4424641830583038,16) (8264790241142227,16) (-3480773899720432,16) (-9794032229560934,16) (-5228336029832136,17) (-1950276316298099,16) (7059453190216062,16) (-6636387266944697,16) (-2474365514284939,16) (6313258329840502,16) (-1628402974197531,16) (7582286793199275,16), (1327231970215098,17));
  (AB60 (-3013602296704594,16) (-8576730332629379,16) (4166281075329886,16) (3924325733634228,16) (8013872294255744,16) (-4514146473885884,16) (-9953115456902297,16) (-5628580383736352,17) (-7865643840212626,17) (7527748770590479,16) (-5786834381572412,16) (-3137761349612965,16) (5438968983016413,16) (-2227037912683331,16) (8090606808964114,16), (1376254690135553,17));
  (AB60 (-2399663778396181,16) (-8234032562159348,16) (514220978918139,15) (334883049212249,15) (7647415272086449,16) (-5504759212834799,16) (-9974114057924717,16) (-5866172900729003,17) (4158472249469407,17) (790442299123098,15) (-4831904268743326,16) (-3764677717069431,16) (4469354845089917,16) (-2815511003343122,16) (8491040281303881,16), (1407654293199877,17));
  (AB60 (-1729142276070926,16) (-7768264256505015,16) (6055091859766526,16) (2722777521426667,16) (7154163902455326,16) (-6434626751072577,16) (-9846538079189379,16) (-6141003540496892,17) (1633575406961547,16) (8163769027143504,16) (-3791446219422853,16) (-4356352928388214,16) (3411911328116801,16) (-3362717683032473,16) (8777869381193193,16), (1422959799714485,17));
  (AB60 (-9580584736581843,17) (-7234659164141489,16) (6836799744014397,16) (2138505990328417,16) (6505102476903878,16) (-7287690573447018,16) (-9567418434273417,16) (-729556687237612,16) (2816425312986672,16) (8245749047105202,16) (-2730618690259021,16) (-4954931303315089,16) (22797278608264,14) (-3774483786644857,16) (8975305734342813,16), (1359006478631739,17));
  (AB60 (-710002047038979,17) (-6753053265339451,16) (7375041055236247,16) (175387405810312,15) (5712980025160225,16) (-8017841668456241,16) (-9172795653054575,16) (-1040073240179227,16) (3844225222637998,16) (808884187316014,15) (-1797754597818329,16) (-5598099280741118,16) (1154953984598334,16) (-3915225427341896,16) (9128915113339366,16), (12034979783115,15))].

(** ahrens_beylkin/ahrens_beylkin_972.hpp:1-1962. *)
Definition ab_972 : coded := [  (AB12 (5257311121191336,16) (8506508083520399,16), (8276704243159906,18));
  (AB60 (-2247866710459132,16) (-9447737245230388,16) (2384817854071076,16) (5756342048123414,16) (7279380237863097,16) (-3724936184368068,16) (-9530417931437652,16) (-216835700736729,15) (-2114086549962612,16) (59728028948272,14) (-7145600077366576,16) (-3642255498160802,16) (5805481747069585,16) (-1337801604965205,17) (814115990219449,15), (1325407806462362,17));
  (AB60 (-1397210866784618,16) (-9357124325400746,16) (3239139724175635,16) (5518740833078803,16) (6809878720579731,16) (-4813424085648805,16) (-9621404362378034,16) (-2547245604821015,16) (-9695967844072868,17) (6210634952433424,16) (-63822646382024,14) (-4549144048671517,16) (4807980276729229,16) (-4276140823773315,17) (8757880557254438,16), (1345897117768204,17));
  (AB60 (-4970151306216471,17) (-9130135150300985,16) (4048902085401863,16) (5208397333009057,16) (621834081523423,15) (-5848489952722518,16) (-9564471662058066,16) (-2911794335066755,16) (205756107956379,16) (6345505083344165,16) (-5515569576656204,16) (-5414153440965436,16) (3715981709335549,16) (-702771238578026,16) (925729941841092,15), (1351717158035036,17));
  (AB60 (-4753832711036279,16) (-875865683365558,15) (8288576631363556,17) (5202458298631715,16) (8481390972298708,16) (-1000217389374919,16) (-8969346154019548,16) (-277265861356873,16) (-4412930229620764,16) (5754050100411198,16) (-8140488490883193,16) (-7895280690109516,17) (796912876464463,15) (-340902481415515,16) (6031315961768071,16), (1085185061470612,17));
  (AB60 (-4131937939332458,16) (-8941697005069366,16) (1724280584776901,16) (5095005500307906,16) (8346488518924077,16) (-209213965960706,15) (-9372964170997468,16) (-5952084861452885,17) (-3434133006628948,16) (6224077598939519,16) (-7648683586220567,16) (-1660872493678958,16) (7280824511390408,16) (-6978049327035102,17) (6819286085084808,16), (1224344588994948,17));
  (AB60 (-34058224264864,14) (-9028001812752641,16) (2625939235431262,16) (493838026444147,15) (8080828979171354,16) (-3211324239805045,16) (-9669233519087967,16) (-9471728335812864,17) (-2368287730971751,16) (6617146666291445,16) (-7043294283656705,16) (-2570092533469718,16) (6457909279282922,16) (-1037534695514649,16) (7564319499872731,16), (129664693802849,16));
  (AB60 (-259243383036066,15) (-9001835145728142,16) (349946436534724,15) (4731799320408145,16) (7679634558520222,16) (-4316629268186804,16) (-9833475906503352,16) (-132220058720792,15) (-124681081299655,15) (6909063098547464,16) (-6334011541156112,16) (-3484988507411594,16) (5516846638316547,16) (-134562301736411,15) (8231263685755384,16), (1333497175390018,17));
  (AB60 (-1713408286619929,16) (-8851352299402182,16) (4326406651623245,16) (4468218828736092,16) (714878575180787,15) (-5378650646145094,16) (-9853570038096174,16) (-1702566547594312,16) (-9178592128498935,18) (7092058932765024,16) (-552716338647293,15) (-4376432907451103,16) (447491939195108,15) (-162162236533494,15) (8794625480359337,16), (1347754051849064,17));
  (AB60 (-7948045955656437,17) (-8567005815310872,16) (5096537747853678,16) (4136976294331567,16) (6501430109235555,16) (-6373133740544286,16) (-9724730296659427,16) (-2065575706075316,16) (1078432964864163,16) (7167938336109929,16) (-4628192548805749,16) (-521540925919573,15) (3351596556115141,16) (-1873237560429807,16) (9233514042185246,16), (1344336624153208,17));
  (AB60 (-3779793653199477,16) (-8505168409192864,16) (3657221660017436,16) (3884194478980041,16) (8440645150406919,16) (-3697099227012055,16) (-9877457087135886,16) (-6452325878594446,18) (-1559383929911009,16) (7476892880211532,16) (-622023542711845,15) (-2324810549069032,16) (6180357860123832,16) (-2220409723288468,16) (7541416138997477,16), (1327389830668622,17));
  (AB60 (-2930699205019661,16) (-8424663500950389,16) (4520624632221908,16) (3649747768296028,16) (7980267049283815,16) (-4795276743831701,16) (-9981644120022384,16) (-4443964516665743,17) (-4114516435363221,17) (7725975948851361,16) (-5461019487800476,16) (-3238296124759706,16) (5186367376190683,16) (-2519247561483339,16) (8170372400517936,16), (1345911160569271,17));
  (AB60 (-2028357677799694,16) (-8221851536999377,16) (5318545142654334,16) (3365548054222102,16) (7395422434941064,16) (-5829306417018427,16) (-9937687183098455,16) (-8264291020583142,17) (7479227166972484,17) (7857664094818121,16) (-4619142040444121,16) (-411347077091935,15) (4108380766080027,16) (-2776280394496942,16) (8684093196876436,16), (1344944967537933,17));
  (AB60 (-1101222595245869,16) (-7890067321437664,16) (6044348307212403,16) (3020727899678632,16) (6703747801712502,16) (-6777534091920004,16) (-974566919993235,15) (-1186319519725162,16) (1901204313746686,16) (7878756687165873,16) (-3701320892719947,16) (-4921932213425318,16) (2968135108012346,16) (-3002426908992555,16) (9065076206891035,16), (1325018570299012,17));
  (AB60 (-1802141152636695,17) (-7425385114696722,16) (6695608917126215,16) (2603769064762589,16) (5927545782303355,16) (-7621324534231767,16) (-9410756430374243,16) (-1497839332393368,16) (3032184153791657,16) (7801538649495436,16) (-2715147513248028,16) (-5635953218554246,16) (1789431896142476,16) (-3212398269055326,16) (9299377981888804,16), (1284331525602124,17));
  (AB60 (-1402481697739653,16) (-7108980018814944,16) (6891694144373731,16) (1872047896804977,16) (6818772147824474,16) (-7071052472448586,16) (-963052339898147,15) (-2902078709904693,17) (2677461195477083,16) (8473534170188238,16) (-2738829254607739,16) (-454950909228206,15) (2559470926532884,16) (-4079942893216736,16) (8763742041178708,16), (1285438942603287,17));
  (AB60 (-5017496224621035,17) (-6626615944770005,16) (7472362975450206,16) (1469814266527825,16) (602831909143032,15) (-7842130766176243,16) (-9252275562502039,16) (-598296853339685,16) (3746656881916384,16) (8343880388638347,16) (-1779912587051833,16) (-5216471148444209,16) (1410144796325796,16) (-4248406504378487,16) (8942177241978032,16), (1210595419636563,17))].

(** ahrens_beylkin/ahrens_beylkin_1032.hpp:1-2082. *)
Definition ab_1032 : coded := [  (AB12 (5257311121191336,16) (8506508083520399,16), (8066346684629721,18));
  (AB60 (-6654217960980321,17) (-9393840746002841,16) (3363475861666688,16) (5712412231712996,16) (6274629115897156,16) (-5291254667175965,16) (-9487141380223268,16) (-3119211630105685,16) (-5144581987574579,17) (5956676463273998,16) (-6123665518556581,16) (-5197954032955537,16) (4195886713047303,16) (-1509635973405743,17) (9075888093379683,16), (1272711554634308,17));
  (AB60 (-3282616811066855,16) (-9282379610869792,16) (1749815885003349,16) (5620310530290944,16) (7837605437102151,16) (-2642735430459798,16) (-9398895176575401,16) (-1444774173767641,16) (-3094090665536757,16) (5925352241526652,16) (-7649079291572053,16) (-2526219864754188,16) (6756159746115603,16) (-1885261455300979,17) (7370126415294294,16), (1204683094179235,17));
  (AB60 (-2607493851876252,16) (-9276872033205129,16) (2672194059563053,16) (5363290186765141,16) (7573696232171409,16) (-3724814593418221,16) (-9647004072244102,16) (-1703175801033721,16) (-2008607632385892,16) (6332308445294473,16) (-6974810012681049,16) (-3354682554379249,16) (5922189478825881,16) (-59888621949036,15) (8035484246328194,16), (1243171228268335,17));
  (AB60 (-1857647741560036,16) (-9158907375844624,16) (355858968539165,15) (5056372152564238,16) (7181986969200039,16) (-4780393689751267,16) (-9763051281364471,16) (-1976920406644585,16) (-8801223683328177,17) (6638041431311303,16) (-6204461595972821,16) (-417624978423142,15) (4982657591613204,16) (-9775253732272184,17) (8614961837955888,16), (1263857377311204,17));
  (AB60 (-1054476657780345,16) (-8918357924273751,16) (4398973847699028,16) (4689764991380609,16) (6671626175202821,16) (-5787530432228363,16) (-9740441253931281,16) (-224673174907093,15) (2756821111902237,17) (6842007090008707,16) (-5341467406232253,16) (-4965447102570832,16) (3952910821702919,16) (-1330158768970568,16) (9088738839079636,16), (1269942707523673,17));
  (AB60 (-2251312755691754,17) (-8546328227491937,16) (5187445396024437,16) (4250832687418896,16) (6058307926410371,16) (-6725126506792591,16) (-9577416863675702,16) (-2488020301081566,16) (1443205183189931,16) (6950257782361766,16) (-4389971467651265,16) (-5694037870608827,16) (285229035688311,15) (-1668336458759106,16) (9438278083443332,16), (126276827448363,16));
  (AB60 (-4871049154184223,16) (-8688545956941267,16) (8843355085264495,17) (5081776612231362,16) (8558309225505267,16) (-9648262351375894,17) (-8976586058915088,16) (-1302367314359999,17) (-4404990479067594,16) (5835875389321812,16) (-8092250550388639,16) (-6767861331637681,17) (8011759823777499,16) (-4660586751166284,17) (5966112120757812,16), (1031167199282102,17));
  (AB60 (-4369263406210164,16) (-8808029045835982,16) (182432497512434,15) (4863506052047783,16) (8502570292018657,16) (-2013108867144633,16) (-9388184318011142,16) (-3054587538173249,17) (-343055245707831,15) (6382372273354797,16) (-7563859342886803,16) (-1432953594969473,16) (737507545086651,15) (-9387109491318549,17) (6687831027172122,16), (1150452409443223,17));
  (AB60 (-375579824174046,15) (-8846212096816213,16) (2763785647528,13) (4614237614264205,16) (8315667387315406,16) (-3091680310550939,16) (-9699234230074903,16) (-5305447095008076,17) (-2375579436971957,16) (6847478552291398,16) (-6935448582546903,16) (-2238658177292249,16) (6607553919523964,16) (-1380218804768503,16) (7378023261792206,16), (1215178628247117,17));
  (AB60 (-3048849872066522,16) (-8787296877260676,16) (3672591462235449,16) (433063035343763,15) (799511297365713,15) (-4162188040003011,16) (-9887514663205958,16) (-7921839036035462,17) (-12686600993799,14) (7211037912069532,16) (-6214923200970509,16) (-3061970254057729,16) (5725326623202948,16) (-1780189772686621,16) (8003221815673078,16), (124976583082749,16));
  (AB60 (-2272322710714766,16) (-8618554892324307,16) (4533989530905717,16) (4003376275075842,16) (754870495320251,15) (-5195193156144994,16) (-9941738474611579,16) (-1069849939121798,16) (-1313667012181189,17) (746751586685976,15) (-5407748943705862,16) (-3872009573857723,16) (4746545318466585,16) (-2140956009496648,16) (8537365805981558,16), (1263849170524082,17));
  (AB60 (-1453469245832291,16) (-8330217544618546,16) (5338061709155214,16) (3621110008095627,16) (6990541878140074,16) (-6166026804940078,16) (-9857465112777873,16) (-1339675666478472,16) (1017669228685123,16) (7619496050772369,16) (-4519403403622659,16) (-463877923678075,15) (3691438307837796,16) (-2471138474517414,16) (8959171717250841,16), (126098163851372,16));
  (AB60 (-6221872588769749,17) (-7915511489793888,16) (6079273054389982,16) (3171880350541872,16) (633971449826418,15) (-7053169154525172,16) (-9635686278284955,16) (-1575796991529708,16) (2161114015492232,16) (7675356413402147,16) (-3556413223894972,16) (-5332994366034105,16) (2582517123759783,16) (-2783301274369208,16) (9251153404931854,16), (1241694685677486,17));
  (AB60 (-2685903986412007,16) (-7969501171354128,16) (5410450152765598,16) (2912246830873012,16) (7829613600366896,16) (-549690542623937,15) (-9982676937760065,16) (-1398875709872321,17) (57148282896042,15) (8182809412651377,16) (-4572226784994468,16) (-3483729659833432,16) (4485771511520695,16) (-3257386815372427,16) (832269698363861,15), (1261468337384915,17));
  (AB60 (-1860048131731445,16) (-7641427479543853,16) (6176472053082928,16) (2519022182632847,16) (7234159118382584,16) (-642817774282306,15) (-9845067201836549,16) (-4072683611612694,17) (1705515837897517,16) (8288225874554506,16) (-3668595148753622,16) (-4224538020530363,16) (341688945901349,15) (-3565563969628962,16) (8695494235715775,16), (1244006953146822,17));
  (AB60 (-1036753394994781,16) (-7196231417750122,16) (6865813555592146,16) (2068592316589387,16) (6558519893289617,16) (-7259940952726248,16) (-9575154708240153,16) (-6377115244605043,17) (281242534564683,15) (8296694347721029,16) (-2709341152648007,16) (-4881017662236217,16) (2315213755513905,16) (-3849178740641611,16) (8934405872181533,16), (1206201867251611,17));
  (AB60 (-2485634845525109,17) (-6636536127171696,16) (7476269419094795,16) (1554125460210021,16) (5829654451795891,16) (-7974949719376501,16) (-9184015561120377,16) (-806881675375804,16) (3873344825217799,16) (8223513203929012,16) (-1707746142025582,16) (-542747028542782,15) (1209065841743876,16) (-412190830977031,15) (9030394879304816,16), (1140723133540406,17))].

(** ahrens_beylkin/ahrens_beylkin_1092.hpp:1-2202. *)
Definition ab_1092 : coded := [  (AB12 (5257311121191336,16) (8506508083520399,16), (7196976489974126,18));
  (AB60 (-4647150379206742,16) (-8832029043185262,16) (6318673384268646,17) (5393279478945687,16) (8370895899551234,16) (-9168632945317814,17) (-8897243702554281,16) (-4611331436340286,17) (-4541630843782924,16) (5564013673738523,16) (-8265376364127416,16) (-8516486351627633,17) (7980380408022499,16) (-1055195354238179,17) (6025146817372552,16), (9518994041637112,18));
  (AB60 (-3930164802981265,16) (-9098151501339349,16) (1333208115818302,16) (5479467409256846,16) (8140629831802243,16) (-1924989052556778,16) (-9241650954706104,16) (-9575216695371054,17) (-3697977810066824,16) (5855153855538043,16) (-7908442838887803,16) (-1781489599190023,16) (7316661902149326,16) (-2321869929144411,17) (6812675525075148,16), (1080208952187518,17));
  (AB60 (-313158940377359,15) (-9271826027645772,16) (2055818552120638,16) (5505441204022523,16) (7804704930836805,16) (-2962549255560604,16) (-9496688446484258,16) (-1467121096808967,16) (-2767754367300405,16) (6094138659334194,16) (-744086989436362,15) (-2737686836722118,16) (6534139190923653,16) (-3638350364731849,17) (756125975614316,15), (1147408302823613,17));
  (AB60 (-2267264886391187,16) (-9338128347462057,16) (276746615178273,15) (5470348072215422,16) (7358514069829384,16) (-3990935059974293,16) (-9639060985287075,16) (-1979614277632673,16) (-1780345650066147,16) (6258199946365479,16) (-6871594833504344,16) (-3690002422149275,16) (5648125925312781,16) (-4869192363250401,17) (8237814223998152,16), (1181532170941355,17));
  (AB60 (-1348468229165506,16) (-9289963700850175,16) (3446477603556619,16) (5375800110149029,16) (680093571442631,15) (-4984781498116279,16) (-9655676912079313,16) (-2489027986423864,16) (-756731823261889,16) (6333249727281784,16) (-6209199308522694,16) (-461906828688714,15) (4670895413963034,16) (-5917364059036165,17) (8822277713705648,16), (1195983645391739,17));
  (AB60 (-3887237951410466,17) (-912110524089497,15) (4080972065036643,16) (5218520856031599,16) (6136126498500264,16) (-5925790383532489,16) (-953973743870126,15) (-2984978742394707,16) (2886373296945997,17) (6314514178673536,16) (-5458765373664617,16) (-5507158185726199,16) (3613947055168771,16) (-6773611248356463,17) (9299492921068242,16), (119877418263618,16));
  (AB60 (-4149327374048982,16) (-8776080929383051,16) (2400726111801784,16) (4617422886173569,16) (8486781992908767,16) (-2579522687452088,16) (-9582574345587972,16) (-2892989364742837,17) (-2844393614926403,16) (6728850061501069,16) (-7181848233786189,16) (-1773029271247166,16) (7003051658135885,16) (-1304933759122578,16) (7018148997975353,16), (1135479167092092,17));
  (AB60 (-3316458779615677,16) (-8895571136652154,16) (3141642136824498,16) (4601005031765368,16) (8101677892702352,16) (-3632295145024387,16) (-9792331416680352,16) (-7938932439498012,17) (-1865470166769179,16) (6948753924640065,16) (-6650689279855854,16) (-2735534864996189,16) (6160036271655964,16) (-1450988612846499,16) (7742647168589867,16), (1175146165407051,17));
  (AB60 (-2419183549726306,16) (-8908217905913546,16) (3845933526920988,16) (4536364082641031,16) (759972837625263,15) (-4654624530174798,16) (-9877435268317498,16) (-1308489529660916,16) (-8509569148701863,17) (7073808079901104,16) (-603150174139651,15) (-3685407167770845,16) (52228107381427,14) (-156822663485612,15) (8382297609562019,16), (1194689506652463,17));
  (AB60 (-1472252434791439,16) (-8807888655578839,16) (4500396671314238,16) (4420582248908021,16) (6985720620410132,16) (-5626558450262114,16) (-9830880964943156,16) (-1822168035168708,16) (1829838919897744,17) (7098810885053551,16) (-5330484293628919,16) (-4603566140897796,16) (4204322514681044,16) (-1655236326781213,16) (8920978920222259,16), (1199823005380412,17));
  (AB60 (-495698413368746,16) (-8587845704686313,16) (5099332234271909,16) (4244867769209529,16) (627073161319716,15) (-6531387498623539,16) (-9650558471112719,16) (-2317114091489153,16) (1223806962987605,16) (7027085911992285,16) (-455122623684081,15) (-5468674732197134,16) (3119170972489179,16) (-1719505376356351,16) (9344200003481439,16), (1193864552378853,17));
  (AB60 (-3484351468471345,16) (-8397163065369391,16) (4164966662262463,16) (3634240475157284,16) (830452656469752,15) (-4222219168276531,16) (-9952654773685645,16) (-9263650067187061,18) (-9675130151970077,17) (7706570636747876,16) (-5787688111423183,16) (-2666727459960276,16) (5730435605409114,16) (-2516838453274337,16) (7799207137419747,16), (1195507342960215,17));
  (AB60 (-25567385601638,14) (-8361682831009066,16) (4852354909585628,16) (3548490391802394,16) (7748746490651452,16) (-5231170400866607,16) (-9980996631916719,16) (-6129363403576141,17) (6336620815656112,18) (7787908961030408,16) (-5128641722331091,16) (-3611856599958955,16) (4749826231050111,16) (-2620104768320362,16) (8400845301388021,16), (1201770327394338,17));
  (AB60 (-1591567159280257,16) (-8214648170560379,16) (5475990267651103,16) (3415973539062209,16) (7087103018562984,16) (-6172851495435659,16) (-9875606406526628,16) (-1127545151997395,16) (1095919720407202,16) (7764418654715916,16) (-4399616138875525,16) (-4511893259469411,16) (3702754911090969,16) (-2687486879687458,16) (8891963806713311,16), (1195055197292865,17));
  (AB60 (-6106198248799841,17) (-7951321928359677,16) (6033541499074162,16) (3227291915261907,16) (6334129639090412,16) (-7033021300186819,16) (-9638217220316407,16) (-1617192289269265,16) (2118834092968182,16) (7643641125066803,16) (-3604675721242246,16) (-5346126008230089,16) (2605195920129588,16) (-2729453917848166,16) (9260833414336068,16), (1175633269132091,17));
  (AB60 (-1697541668824775,16) (-7518588114392928,16) (6370964216561964,16) (2372614225641924,16) (7101370329407636,16) (-662881898839382,15) (-9792716890856816,16) (-417217784985292,16) (1982075986288007,16) (8326360657218596,16) (-3421752674294853,16) (-4354690211929931,16) (3163897902462997,16) (-3679617655112783,16) (8743578442203888,16), (1174758296052491,17));
  (AB60 (-7240051611298778,17) (-7224048929440021,16) (6876694961368709,16) (2182300972624464,16) (6322772552284758,16) (-7433714395708031,16) (-9506455731601782,16) (-9012763771552638,17) (2969006620921807,16) (8157719556837909,16) (-2629760770233073,16) (-515130759354627,15) (207274133589375,15) (-3693011782051684,16) (9058995933993172,16), (1136285196741497,17));
  (AB60 (-8173703159851443,17) (-6422082871032955,16) (7621598084662524,16) (1132193821281622,16) (6227511244302349,16) (-7741849963228397,16) (-9258954542618207,16) (-1945716267306055,17) (3772784470361523,16) (8559220279213541,16) (-1637356457955682,16) (-4904978291643144,16) (1517104579389811,16) (-4590154786346667,16) (8753791905944146,16), (1066192809503988,17))].

(** ahrens_beylkin/ahrens_beylkin_1272.hpp:1-2562. *)
Definition ab_1272 : coded := [  (AB12 (5257311121191336,16) (8506508083520399,16), (7227042836999338,18));
  (AB60 (-4651886374777493,16) (-8830776318691348,16) (6142823173424394,17) (5399595010966406,16) (836866696784477,15) (-8998816026847746,17) (-8888901219723868,16) (-4621093508465781,17) (-4557838309314152,16) (5551767977462267,16) (-8274618902381429,16) (-8417567016522547,17) (7989019617039094,16) (-9404806546334125,18) (6013877328308845,16), (894939222742685,17));
  (AB60 (-3942299488015149,16) (-9105308192048276,16) (1245647411836132,16) (5525287821758081,16) (8126967598000581,16) (-1850295151531371,16) (-9207410311018884,16) (-9783405940476948,17) (-3777094789197319,16) (5792594639546519,16) (-7961762899182752,16) (-1748193032560763,16) (7357115159487514,16) (-1652046988178292,17) (6770935233594214,16), (9735417117958028,18));
  (AB60 (-3157035706603918,16) (-930382513997471,15) (1863320507052525,16) (561971471221702,15) (7781805811125019,16) (-2803980183815937,16) (-9434190589647807,16) (-152201932884969,15) (-2946099978074181,16) (5961015890419855,16) (-7570870082595282,16) (-2673614734142838,16) (6630210405831871,16) (-2109357285297368,17) (7483035219269545,16), (1002741734263072,17));
  (AB60 (-2322987424494097,16) (-9412417984611487,16) (2451554019107983,16) (5671186506269128,16) (734311715097333,15) (-3730452267244856,16) (-9558425709153043,16) (-2069300833638158,16) (-2086741963565828,16) (6053439691738953,16) (-710687169004506,15) (-3584444542703301,16) (5827973441908187,16) (-2362454609282694,17) (8122740525377111,16), (1000075630707753,17));
  (AB60 (-1466255565387888,16) (-9424205249743197,16) (3005736187306165,16) (5668376224065056,16) (6827151857852612,16) (-4610803454092747,16) (-9580308186974629,16) (-2597053391890586,16) (-121367570720374,15) (6077059019480635,16) (-6574571999668465,16) (-4454700516861316,16) (4969504732881882,16) (-2525798581841476,17) (8674112411371221,16), (9760676476394904,18));
  (AB60 (-6043035689926479,17) (-9333651835858643,16) (3538044743000763,16) (5595320510708026,16) (6249033727451986,16) (-5444443576309484,16) (-9506845398869113,16) (-3084618108406657,16) (-3240704974090116,17) (6048747145302132,16) (-5968800655868349,16) (-5271250013299015,16) (4062401822559628,16) (-2802330715836363,17) (9133365253708789,16), (9496717739478081,18));
  (AB60 (-4133885713925781,16) (-8825595195378848,16) (2240504039609419,16) (4742363540323785,16) (8449535217264224,16) (-2472921887892798,16) (-9537749456746961,16) (-3760599781146243,17) (-2981595913799099,16) (660680760181858,15) (-7297245417137542,16) (-1760767626524686,16) (7064827568854163,16) (-1152289800126682,16) (6982867579933204,16), (1006316214702226,17));
  (AB60 (-3317107497336849,16) (-8989071734034225,16) (2862409336817255,16) (4816064539234901,16) (8062665334465229,16) (-343495997914631,15) (-972855905374343,15) (-9264063995689967,17) (-2120591879797795,16) (6752067476483159,16) (-6866149716926175,16) (-2695472659437106,16) (6293599074597119,16) (-1196515617539053,16) (7678473876052156,16), (1011211267919315,17));
  (AB60 (-2461594181664181,16) (-9062743667318076,16) (3436165203432913,16) (4853156605419078,16) (7584676803220471,16) (-4349660763090205,16) (-9810670679629438,16) (-1478066864097606,16) (-1251422854640236,16) (6811254944754386,16) (-6374505476196526,16) (-3601733750778843,16) (5461009916539233,16) (-1210171327023945,16) (8289321808851992,16), (9971664349316314,18));
  (AB60 (-1583558470543949,16) (-9041504059406692,16) (396781387089929,15) (4841477024335963,16) (7027999660584325,16) (-5212228025868937,16) (-9787983853204213,16) (-2013504398822367,16) (-375728792264547,16) (6795786496412887,16) (-5820169982304922,16) (-4465748232071416,16) (4575755827335276,16) (-1207829678279402,16) (8809290895235253,16), (977579104901286,17));
  (AB60 (-6815249171017329,17) (-8917750646830152,16) (4473169702607972,16) (4767424192105374,16) (6392526020269348,16) (-6033844351050809,16) (-9661799457662171,16) (-2525224626560804,16) (5223713481134157,17) (6715369268152542,16) (-5188629755054199,16) (-5289795540218789,16) (3627955106611362,16) (-1203896265215149,16) (9240593894713346,16), (9688023660232279,18));
  (AB60 (-3451957572421602,16) (-8575427262764977,16) (381392660905114,15) (3963989531337971,16) (8258974108828472,16) (-4009505414031003,16) (-9911343247868238,16) (-3164531539365056,17) (-1290400102410228,16) (7461462986452605,16) (-6097416638817098,16) (-2673589428927743,16) (5901837833837235,16) (-2161557470011374,16) (7777916140389111,16), (1012692311441543,17));
  (AB60 (-2572872901171482,16) (-861828228304152,15) (4370987934578417,16) (3991781411183138,16) (7741348596927845,16) (-49129627584764,14) (-9952892247419081,16) (-8769336861136739,17) (-4134286170843007,17) (7485835659647881,16) (-5581904312840663,16) (-3578352794098838,16) (5039929488942682,16) (-2159444284087182,16) (8362769345761556,16), (100180974244854,16));
  (AB60 (-1663059818833788,16) (-8567635105887474,16) (4881583834304708,16) (3976656738432253,16) (7137753573308565,16) (-5765299221324264,16) (-9886068066100484,16) (-142988153257891,15) (4702095226790006,17) (7428359040158051,16) (-5004484231795776,16) (-4446866261111254,16) (412076884477622,15) (-2133269341512788,16) (8858240572736962,16), (996581281708208,17));
  (AB60 (-7240591371528587,17) (-8410015296663458,16) (5361658425878332,16) (3899269506702143,16) (6447627366850887,16) (-6574480865615043,16) (-9708421089205862,16) (-1962387929812572,16) (1376805566370496,16) (7298540002767903,16) (-4346762663327531,16) (-5276075073072639,16) (3133940223590819,16) (-2100864703523355,16) (9260927932580474,16), (9978934279793655,18));
  (AB60 (-263673171285498,15) (-8084637676602749,16) (5261775319460166,16) (3094926705125979,16) (7801457597904277,16) (-5436790233032692,16) (-9986291842345251,16) (-2831800786984728,17) (4402093621642123,17) (8073521945887673,16) (-4724516522885085,16) (-3535136067290192,16) (4549501609312558,16) (-3076941075019192,16) (8356702024586146,16), (1008835772899914,17));
  (AB60 (-1706450172351496,16) (-8001481739753099,16) (5750158065451703,16) (3070933571604555,16) (7158184621929715,16) (-6271344346881379,16) (-9875735843677599,16) (-8432971178233835,17) (1326156671352323,16) (7977794519232875,16) (-4125577778225896,16) (-4397090242956878,16) (3604391496796221,16) (-3032606843703819,16) (8821091637056259,16), (1013535569060587,17));
  (AB60 (-7515532941467128,17) (-780900883038345,15) (6201173173928505,16) (2984791525970183,16) (6428791698140829,16) (-7054194273509352,16) (-9650450180038302,16) (-1380217132242622,16) (2227961397884318,16) (7805747567656065,16) (-3449277006109799,16) (-52127529238545,14) (259625590652895,15) (-2979514692031031,16) (9185964699898687,16), (1013211915312056,17));
  (AB60 (-1736831764997297,16) (-7345205369591405,16) (6559830294955957,16) (2125770291941185,16) (7104828140405766,16) (-6708391592714206,16) (-9759021650405942,16) (-2403772291856392,17) (2168805019958484,16) (8445223357711503,16) (-3199191355449985,16) (-4294575311899669,16) (3050630057691736,16) (-3905636784955782,16) (8685600586897142,16), (1017902101295185,17));
  (AB60 (-7826968816874036,17) (-7122952899504156,16) (6975021690492593,16) (2033212462699187,16) (6350091766977551,16) (-7452676138977772,16) (-9491967428963151,16) (-7728611325266049,17) (305044914681959,15) (8235373020665175,16) (-2516945738470558,16) (-5083661609518777,16) (2039291289985379,16) (-3833146028506993,16) (9008234153191781,16), (1006300531348532,17));
  (AB60 (-8204787591624457,17) (-6366304806587961,16) (7667918734270616,16) (10629475326604,14) (6216450863355726,16) (-7760533564536334,16) (-9237950027140747,16) (-1498539432322356,17) (3825940811323149,16) (858101232369878,15) (-1570031292870131,16) (-4888888343983549,16) (1477416462604412,16) (-4646419570485595,16) (8730866266931016,16), (9725344041237403,18))].

(** ahrens_beylkin/ahrens_beylkin_1332.hpp:1-2682. *)
Definition ab_1332 : coded := [  (AB12 (5257311121191336,16) (8506508083520399,16), (9006148297676516,18));
  (AB60 (-5782491723779106,17) (-9402425267748599,16) (3355596367122683,16) (5750234825139667,16) (6205962345015021,16) (-5331119097150863,16) (-9463208834758396,16) (-3196462922733577,16) (-4798992949986015,17) (5909368269528774,16) (-6107612467635712,16) (-5270335530141066,16) (4132089737607533,16) (-9834987737930919,18) (910583119226235,15), (100006664839428,16));
  (AB60 (-2255827772535614,16) (-9372880177226482,16) (2657133463718347,16) (5557163499660632,16) (7332542489588874,16) (-3918131503205756,16) (-9608475199571955,16) (-2040337687637609,16) (-1874627018800348,16) (6173959275741371,16) (-6951341735853608,16) (-3682536480860283,16) (5690343696366199,16) (-3812007537352658,17) (821429696337898,15), (9674669130779794,18));
  (AB60 (-1623853449990988,16) (-9230687604449473,16) (3486761580896406,16) (5222604038895989,16) (7006537423472482,16) (-4861361988824417,16) (-9712962244635603,16) (-2224150180976991,16) (-8435166902577029,17) (6485215438815405,16) (-6226200663739198,16) (-4379087348638286,16) (4851600255811187,16) (-780336759733285,16) (8709365619792395,16), (9900821606880585,18));
  (AB60 (-9628737470125352,17) (-8988093218794019,16) (4276336567388377,16) (4835807526072038,16) (6594488507157671,16) (-5755665634811532,16) (-970723279598913,15) (-2393604711636349,16) (2007185315443828,17) (6718539381824067,16) (-5430896228600752,16) (-5036526057616421,16) (3951567161177598,16) (-1163592278556918,16) (9112144093460416,16), (9939444916854948,18));
  (AB60 (-2898368817008997,17) (-8646282562129937,16) (5015754423595087,16) (4397547797091118,16) (6107577600459838,16) (-6584760377315207,16) (-9592431264770643,16) (-2538704961670099,16) (1241063877583382,16) (6874597259016106,16) (-4576676841175556,16) (-56386116746745,14) (3007670887455436,16) (-1530900759284282,16) (9413302220686205,16), (9851865485909994,18));
  (AB60 (-3740255143661855,16) (-908407886477653,15) (1868154875493832,16) (5259294339409754,16) (8145261011561025,16) (-2448376218026224,16) (-9439054020283233,16) (-9388178532155064,17) (-3165893276890231,16) (6188631361688079,16) (-7570899144789401,16) (-2093401062519522,16) (6990677802257008,16) (-5743618667716233,17) (7127449214903586,16), (9109401703272128,18));
  (AB60 (-3225647548299042,16) (-905689857436437,15) (2750960942621507,16) (4954924481391968,16) (7988146653751764,16) (-3411485955101827,16) (-969944524459005,15) (-1068751920612607,16) (-2185985196515821,16) (6637133503400868,16) (-6948484301968544,16) (-2768939284876147,16) (6287959289488224,16) (-103966235178322,15) (7705885424013476,16), (9513567926289067,18));
  (AB60 (-2633593744684669,16) (-8951813930236362,16) (3595721255378954,16) (4630483748967011,16) (7717668035794951,16) (-4358465365219885,16) (-9853855451120203,16) (-1234145894441411,16) (-1174059904630967,16) (6992059109904554,16) (-625813419574125,15) (-3456423844336045,16) (5495390085900318,16) (-1459533840053702,16) (8226205004345964,16), (9755771424870788,18));
  (AB60 (-1997207165729464,16) (-8756845999804697,16) (4396454443396788,16) (4269039053770057,16) (7352776676269764,16) (-5264217007902449,16) (-9899835408162497,16) (-1404069323534932,16) (-1478114542254087,17) (7261424173631913,16) (-5503380964765709,16) (-4121227599544648,16) (4635618400260049,16) (-1849395711504055,16) (8665493497166845,16), (980594366259686,17));
  (AB60 (-1339636095742407,16) (-8469627589867408,16) (5144976542214827,16) (3865614065259738,16) (6908487349872251,16) (-6109814271737003,16) (-9838531247199582,16) (-1561140239995157,16) (8752965491450901,17) (744945036747941,15) (-4693554704984754,16) (-4740910614404829,16) (3728716975462579,16) (-2214932644887497,16) (9010590607474566,16), (9688623100728893,18));
  (AB60 (-6829149657275622,17) (-8094485815191047,16) (5832060230935228,16) (3421514139626092,16) (6401938444159372,16) (-6878112033802082,16) (-9675639030806922,16) (-1692547371031675,16) (1875444678560115,16) (7561026999529644,16) (-3843578799871695,16) (-5296958818186206,16) (2797526997004841,16) (-2558359644287677,16) (9253574370561319,16), (9435360058126228,18));
  (AB60 (-4276600791724271,18) (-7644951610083324,16) (6446152802102291,16) (2948603949452379,16) (584904499641558,15) (-7556084129969683,16) (-9421187598010673,16) (-1795906613667744,16) (2831244192589956,16) (7598850137886926,16) (-2975034795908382,16) (-5779848142042334,16) (186510346804099,15) (-2874010200507198,16) (9394756751554669,16), (9140270207129892,18));
  (AB60 (-4982658876024976,16) (-8618686858094664,16) (9441119463685722,17) (4960881894345426,16) (8632145772945009,16) (-935793879539368,16) (-8984446380443782,16) (1345891485034554,18) (-4390847537155176,16) (5918452755564344,16) (-8040334434075209,16) (-57003435719025,15) (8048652500904414,16) (-5918113388697998,17) (5904993840713998,16), (9442385564556469,18));
  (AB60 (-4625829220217482,16) (-8662235186907606,16) (1888752390357685,16) (4634059438178647,16) (8657148632472786,16) (-189189605388403,15) (-9381731512783158,16) (-5086554434819951,19) (-3461659710170168,16) (6517725274101512,16) (-7492979122425473,16) (-1172399728008478,16) (7489835458899128,16) (-1164169510047313,16) (6522811828536332,16), (9408896804898977,18));
  (AB60 (-4152413444236271,16) (-8654280672488592,16) (2803727631193206,16) (4316430000597301,16) (8552912865939764,16) (-2866376381005407,16) (-9686490275670538,16) (-1013678065488289,17) (-248226322277384,15) (7018789825241678,16) (-6882762644477333,16) (-183416677782346,15) (6820113894665132,16) (-1670150221462431,16) (7120157631790507,16), (9548998078586094,18));
  (AB60 (-3597559562483538,16) (-8576080386371256,16) (3675378946568844,16) (3988798261332075,16) (8334281572768576,16) (-38248188318147,14) (-9887591294067947,16) (-2417988136026804,17) (-1475490337214066,16) (7422378394298239,16) (-6212212347499103,16) (-251330792411801,15) (6062772462253246,16) (-2122069225269472,16) (766417720790092,15), (9696735337311345,18));
  (AB60 (-2988036337045474,16) (-8418570818938753,16) (4494363605117943,16) (3640231050354579,16) (8015492318830733,16) (-4743479818319028,16) (-9981302671386362,16) (-4030785001080204,17) (-4594830844831586,17) (7731516155364502,16) (-5486939066268418,16) (-318074796587142,15) (5237822853067333,16) (-2528553252562315,16) (8134594655472522,16), (9695087272622985,18));
  (AB60 (-2351012333365639,16) (-817901950908718,15) (525132182201148,15) (3264802104174946,16) (7614266372155052,16) (-5600358455888658,16) (-996912945617659,15) (-5647531369321282,17) (5454464046243018,17) (7951370789254297,16) (-471780763416511,15) (-3810248508799248,16) (4368771000287932,16) (-2896458737989941,16) (8516123926186426,16), (9464267631917078,18));
  (AB60 (-1718724502303343,16) (-7864385351844834,16) (5932742125094478,16) (2864935257548274,16) (7155988146832779,16) (-6370555675327355,16) (-9859907542363466,16) (-7083972050120542,17) (1510098227260447,16) (8089280177630699,16) (-3927165417268988,16) (-4375033484808722,16) (3489351867036111,16) (-3228822729563791,16) (8797677382642752,16), (8924535789586631,18));
  (AB60 (-1122924675786587,16) (-7492443362335169,16) (6527046241195878,16) (2450988080701952,16) (667165503888256,15) (-7034321322658633,16) (-9672039938339897,16) (-8207883234526098,17) (2403736665951955,16) (8157245998445221,16) (-3144993697144018,16) (-4854724746653907,16) (2637718615681263,16) (-3526661341738542,16) (897803432189783,15), (8269763817160701,18));
  (AB60 (-553728730913798,16) (-7066223562840904,16) (7054209314481148,16) (2018478703024371,16) (6160958295056109,16) (-7613694018806927,16) (-9414911193757591,16) (-9052652677847946,17) (3246527684865869,16) (8167422749720724,16) (-2360701879276443,16) (-526500638789024,15) (1801217174950664,16) (-3800256415779667,16) (9072688017505519,16), (8331498736268619,18));
  (AB60 (222365736829585,17) (-6541973836155595,16) (7563205924860601,16) (1517836526940548,16) (559015631481083,15) (-8151461504139343,16) (-906729949347174,15) (-9518175213447641,17) (4108299319882651,16) (8129224930456385,16) (-1504093568611138,16) (-5626135846823199,16) (9158379893323958,17) (-4086062746199692,16) (9081042451801149,16), (9039705839493371,18))].

(** ahrens_beylkin/ahrens_beylkin_1392.hpp:1-2802. *)
Definition ab_1392 : coded := [  (AB12 (5257311121191336,16) (8506508083520399,16), (5853212672268233,18));
  (AB60 (-5799149396863433,17) (-9378745608482386,16) (3420939852452968,16) (5697891085300171,16) (621566239688186,15) (-5375832786466269,16) (-9477238081063144,16) (-3163083211600526,16) (-4205507714146595,17) (5955747726152613,16) (-6056298228610176,16) (-5277340313885511,16) (4101405294596875,16) (-1593641682716837,17) (911883093775314,15), (9373309134597971,18));
  (AB60 (-2929441935180675,16) (-9313320826229443,16) (2163429022668834,16) (5547672969145867,16) (7695165056839174,16) (-3163504287243757,16) (-9521596675825624,16) (-1618155769390269,16) (-2592444531498292,16) (6092946222424432,16) (-7358167653156791,16) (-2955228437647575,16) (6358092388581867,16) (-3369974036823833,17) (7711101991814702,16), (9106579562412807,18));
  (AB60 (-2286268379084543,16) (-9286806002889375,16) (2920310114268004,16) (5346533039827591,16) (7395458427980005,16) (-4089227200101682,16) (-9679834719773972,16) (-189134757490937,15) (-1650334556610506,16) (6375495579186226,16) (-6759524605505968,16) (-3696198483217085,16) (5590607519672289,16) (-6359338224740374,17) (8266843154095596,16), (9259925337971542,18));
  (AB60 (-1591397845690609,16) (-9175735309941984,16) (3643258763609192,16) (5109927440694666,16) (7001164429807074,16) (-498721747847834,15) (-9736724162564014,16) (-2174570880134909,16) (-6836988148383574,17) (6578615324168948,16) (-6093465398954823,16) (-4426228625856308,16) (4749506684085675,16) (-907699030852252,16) (8753186204303858,16), (9336864085658352,18));
  (AB60 (-8604896494596974,17) (-8973138801566632,16) (4329242152039091,16) (4828894782166322,16) (6520529548424402,16) (-5845038031603484,16) (-9689948784538989,16) (-2452609253142231,16) (2993332664648071,17) (6705527681063181,16) (-5360706632499898,16) (-5128228048631129,16) (3844910752935504,16) (-1159822915924504,16) (9158136934205413,16), (9357367953748155,18));
  (AB60 (-1115660006266795,17) (-8672136935066677,16) (4978111490008688,16) (4492374622823178,16) (5964648308340644,16) (-6651431485479152,16) (-9539437693208045,16) (-2707488626726033,16) (1291756104514607,16) (6762997486105833,16) (-4561326203199357,16) (-5784130727337784,16) (2888006207728892,16) (-1403322105141286,16) (9470486112831865,16), (9331965426325181,18));
  (AB60 (-4871149771680755,16) (-8703769146041375,16) (7185419641696218,17) (5176958110583986,16) (851476919855603,15) (-8353503555875094,17) (-8906036197943604,16) (-1889999474853435,17) (-4543874806898707,16) (5706500127268265,16) (-8187494233773983,16) (-633083303685279,16) (8070685842356096,16) (-3272749647820479,17) (5895500074753608,16), (7566218487762573,18));
  (AB60 (-4416523393043356,16) (-884501489221538,15) (1503340505404197,16) (5039316326094736,16) (846010769163639,15) (-1741226237876586,16) (-9272218400508737,16) (-3849072005789903,17) (-3725293596511507,16) (6157749630919942,16) (-776887789510454,15) (-1314022729583229,16) (7530992162632152,16) (-6912297965318494,17) (6542656831498932,16), (844556463395116,17));
  (AB60 (-3883434653390492,16) (-8924353853027972,16) (2296702766748595,16) (4871555243098629,16) (8313661743604754,16) (-2674131247033514,16) (-9568352618731715,16) (-610692109423218,16) (-2841422761768856,16) (6557565900424006,16) (-727164985198312,15) (-2030132481329772,16) (68942213716982,14) (-1042011891621635,16) (7168258009847224,16), (8902227499805782,18));
  (AB60 (-3276058065813969,16) (-8935461553507075,16) (3070011461739546,16) (4681576901605782,16) (8066803141159551,16) (-3606871885183836,16) (-9776303597136601,16) (-868658412347523,16) (-1915547060051473,16) (6882929950997805,16) (-6706292135397055,16) (-2766029841554309,16) (6169431711952764,16) (-1360511005762496,16) (7751588363345328,16), (9148573153621092,18));
  (AB60 (-2607124230587052,16) (-8870700203813832,16) (3809669426648869,16) (4466066809868157,16) (7721810506683713,16) (-4519722308799854,16) (-9887027623913242,16) (-1148889697130119,16) (-9626719211677127,17) (7126846539386907,16) (-6077358197264373,16) (-3503394888700444,16) (5367305315113388,16) (-1644452309419339,16) (8275736236517025,16), (9273204457855011,18));
  (AB60 (-1892984949312123,16) (-8722472584873687,16) (4509443423284599,16) (4216942323056644,16) (728618793949363,15) (-5397116151649064,16) (-9896314785208132,16) (-1436284645380057,16) (633162825797314,18) (7290101100961187,16) (-5386871361923534,16) (-4223273951314618,16) (4499198633559069,16) (-1899316577570097,16) (8726385746341243,16), (9319585560258081,18));
  (AB60 (-1151532544111139,16) (-8483663740177885,16) (5167341903091367,16) (3923914063114593,16) (6770237731651688,16) (-6226297413568624,16) (-9802942217618281,16) (-1713426008526197,16) (9831048730136341,17) (7377829957679762,16) (-4635600314526915,16) (-4907018936128227,16) (3576644804049657,16) (-2134637417124773,16) (909125596620596,15), (9308676855151915,18));
  (AB60 (-4016642001633095,17) (-814799673532064,15) (5783495056755159,16) (3575999236725925,16) (6186149791045303,16) (-6995983149042438,16) (-9607736421246051,16) (-1961846944275337,16) (1960244226391102,16) (7397647349205748,16) (-3824241364490892,16) (-5536243463117028,16) (2611753272203612,16) (-2361908426554411,16) (9359494293481084,16), (9242080634516063,18));
  (AB60 (-3621985711337023,16) (-8468021532514693,16) (3895360167139612,16) (3783838106781194,16) (8367991250969606,16) (-3957182281038697,16) (-9917708550293552,16) (-1000302815450868,17) (-1276342843521356,16) (7579167992375719,16) (-602234838315394,15) (-2507495263259839,16) (5960526269254856,16) (-2345642867815667,16) (7679198273920806,16), (9236498378263678,18));
  (AB60 (-293061556328065,15) (-8370099007448679,16) (4620923611764631,16) (3555480522711116,16) (7983911224141826,16) (-4859600787888245,16) (-9987624160542606,16) (-3861877833068524,17) (-3134048879167983,17) (7790216351168894,16) (-5366700548777975,16) (-3242075634794317,16) (5128023372654361,16) (-2617210675363851,16) (8176404134475747,16), (9294264152849424,18));
  (AB60 (-2203165211257628,16) (-8189367963508249,16) (529908628068735,15) (3294979223629975,16) (751458979446874,15) (-5716122124020188,16) (-9955696487705881,16) (-6747781690395087,17) (6548143761925812,17) (7919287335277816,16) (-4656610207018531,16) (-3949793599822556,16) (4239574363685693,16) (-2857979587450209,16) (8594065504317324,16), (9292070825081289,18));
  (AB60 (-1457860487056951,16) (-791944541477857,15) (5929336145186977,16) (2991794188058793,16) (6971422251070513,16) (-6515246682480762,16) (-9822137665102442,16) (-9480231637080572,17) (1620760244098098,16) (7973107169537713,16) (-3892801519915464,16) (-461255443215689,15) (3306890982621679,16) (-3078620731155048,16) (892113033324577,15), (9230880070497514,18));
  (AB60 (-7135585905436509,17) (-7555862180873761,16) (6511511409918819,16) (2636563475562194,16) (6367379801400218,16) (-7246033915463819,16) (-9589078347401458,16) (-1188482379473543,16) (2576254273373929,16) (795959250600747,15) (-3077566937482639,16) (-5212817748936122,16) (2343044431937639,16) (-3289812863917579,16) (9148074885481012,16), (9091885619013978,18));
  (AB60 (1026422494662942,18) (-7097486856565984,16) (7044542211283807,16) (2222888198615398,16) (571732275674545,15) (-78975305350253,14) (-9261086770014014,16) (-1380164099820535,16) (3511042422961872,16) (7887266310078671,16) (-2216544558730207,16) (-573393062157727,15) (1363556234988714,16) (-3500778198015242,16) (9267430409899206,16), (8841224421464598,18));
  (AB60 (-1764656451127806,16) (-728172889583008,15) (662287036692749,15) (2034298409062034,16) (7115081001033656,16) (-6725864430065296,16) (-9747786441253277,16) (-1666478947964229,17) (2225508475580065,16) (8490520881193102,16) (-3124916074325786,16) (-4259806884642099,16) (302192201118798,15) (-399016492670787,15) (8657168775989524,16), (9097058721686316,18));
  (AB60 (-1032627447836229,16) (-6897388921323659,16) (7166568678382764,16) (1677721084733522,16) (649869912779485,15) (-7412972521751247,16) (-9482488623595134,16) (-3986897935288099,17) (315015173474625,15) (8445599969587476,16) (-231591994521237,15) (-4827872819479772,16) (2069516101843888,16) (-4182779182582479,16) (8844289763116285,16), (8834608215241874,18));
  (AB60 (-3296366272201376,17) (-6432051737012017,16) (7649839877173615,16) (1276855905575353,16) (5846638028189347,16) (-8011645446706159,16) (-9130422422307891,16) (-5854137088226704,17) (4036418855834933,16) (8341282073926297,16) (-1480582545134276,16) (-5313274761410285,16) (1118776975601732,16) (-436605548305507,15) (8926695782748967,16), (8378234517131541,18))].

(** ahrens_beylkin/ahrens_beylkin_1512.hpp:1-3042. *)
Definition ab_1512 : coded := [  (AB12 (5257311121191336,16) (8506508083520399,16), (4722642000979169,18));
  (AB60 (-133924660504025,15) (-9483376853623441,16) (2876105349782467,16) (5820310403135758,16) (6713927120643721,16) (-4587719414898255,16) (-9524115674151006,16) (-276944973297972,15) (-1273329808765068,16) (5926966019938505,16) (-6648010324368538,16) (-454698059437069,15) (4936396259252751,16) (-6591679627518256,18) (8696415752918225,16), (8671639216494746,18));
  (AB60 (-5724351991469845,17) (-9355614443016694,16) (348493849822274,15) (5649489623394018,16) (6217822246099,13) (-542420072555208,15) (-948821253104641,15) (-3137792196917695,16) (-3578869858716545,17) (5996635924699064,16) (-600327403282367,15) (-5291602637522363,16) (4064011805494331,16) (-21454821327533,15) (9134428121616759,16), (8716148580504698,18));
  (AB60 (-4806101344867367,16) (-8750751631966859,16) (5707326331071798,17) (5308973475009597,16) (84399595635439,14) (-7628126948264516,17) (-885004009262139,15) (-3107920684229593,17) (-4645449240837678,16) (5568914039693819,16) (-827930745951421,15) (-66352423417192,15) (8087227397794938,16) (-1606521040296888,17) (5879706108116778,16), (6488339331593508,18));
  (AB60 (-4263750678519118,16) (-8964150197899008,16) (1210141058279954,16) (5329507901649748,16) (8305476010248574,16) (-1617224093760149,16) (-9174791798809944,16) (-658674187650435,16) (-3922925408800534,16) (5880974772279267,16) (-7964650740529989,16) (-1406582492849214,16) (7557567705049795,16) (-340825269718584,16) (6539648959929703,16), (7525366201652604,18));
  (AB60 (-3651303179170692,16) (-9119055179417922,16) (1873717622404501,16) (5312297067610716,16) (8092504501256136,16) (-2508160832682739,16) (-9442644157973251,16) (-1026550678161786,16) (-3127725213483307,16) (615946401185343,15) (-7568926535568751,16) (-2184571854127409,16) (6934483325290512,16) (-5235779656873846,17) (7186014690015217,16), (8098709852579619,18));
  (AB60 (-2982109313009388,16) (-9202042701644048,16) (2535632891879697,16) (525527002585044,15) (7797152119217338,16) (-3403903022294039,16) (-9633947831337537,16) (-140489058242671,15) (-2283272133249891,16) (6386012335303427,16) (-709831493945784,15) (-2971997892600549,16) (6230044809043498,16) (-6988371797594975,17) (7790902917730136,16), (8427697229821004,18));
  (AB60 (-2265612079672977,16) (-9205969632663991,16) (3180742841995924,16) (5157301826246782,16) (741880708436181,15) (-4285270040267548,16) (-973826993880294,15) (-1787162548302181,16) (-1404332092118183,16) (6550882119940524,16) (-6557527096807016,16) (-3752969734128598,16) (5452999898535392,16) (-8612799875547941,17) (8338044668242706,16), (8610355339426799,18));
  (AB60 (-1511268024046676,16) (-9125842035461234,16) (3799352063615956,16) (5016277760375553,16) (6959626887510681,16) (-513814665199428,15) (-9749644828963248,16) (-2166215147950553,16) (-5019339018832862,17) (6649414676040956,16) (-5950292765347291,16) (-4514343858492266,16) (4611498176968968,16) (-100933412216339,15) (8815629823991508,16), (8694744182464751,18));
  (AB60 (-7298364802642633,17) (-8957425217406488,16) (4385415851050594,16) (4828469425682807,16) (6424330749727736,16) (-5950954328790384,16) (-9664949027766307,16) (-2533094467678753,16) (4149610927477588,17) (6680790809054648,16) (-5279533176715714,16) (-5243430518430565,16) (3713994698975923,16) (-1144797573012022,16) (92138852767334,14), (8708387670297682,18));
  (AB60 (-4516996338807615,16) (-8676624068702202,16) (2076761624649357,16) (4585326880837134,16) (8634393471258257,16) (-210286156923493,15) (-9453745769928432,16) (-4223059744394605,18) (-3259587012828434,16) (6619857908042545,16) (-7376984145279075,16) (-13257398680087,14) (7350884200693503,16) (-1257409325979181,16) (6662088505486491,16), (7966691735963594,18));
  (AB60 (-3880749429693657,16) (-879182762091387,15) (2764697261558363,16) (4531171801468978,16) (8389844488113402,16) (-3013136500533215,16) (-9694304112399791,16) (-4019831328004689,17) (-2420511792421683,16) (6893885930226872,16) (-6929606850841428,16) (-2110660009047295,16) (6681167611866575,16) (-1460237637271974,16) (729586906302734,15), (8338820232982038,18));
  (AB60 (-3188622871078142,16) (-8835109932576526,16) (343125584375823,15) (4446787504930407,16) (8057521425412759,16) (-3911831970446729,16) (-9848720660320204,16) (-7775885071637666,17) (-1548566262227355,16) (7100454841524871,16) (-6417464816561973,16) (-2898221242703052,16) (5936888689873474,16) (-1640056608850786,16) (7878043348688638,16), (8560802986056677,18));
  (AB60 (-245135500839259,15) (-8800161271595573,16) (4067925788007686,16) (4328006771117771,16) (7640326697184008,16) (-4784742976321302,16) (-9910953272804361,16) (-1159834574411565,16) (-6540557960052566,17) (7236097984713892,16) (-5843027484796675,16) (-3673950975112514,16) (5126210296483059,16) (-1797299212387333,16) (8395932559125456,16), (867392723802147,17));
  (AB60 (-1680411130910958,16) (-8682359064061896,16) (4668282287288633,16) (4170759293458809,16) (7143239255786475,16) (-5619510641561064,16) (-9877592774724063,16) (-153911980827542,15) (253517637440087,16) (7299921772472022,16) (-5209310487435431,16) (-4424276930898897,16) (4258082133162999,16) (-1933928768351045,16) (8839041580747443,16), (8701962647614863,18));
  (AB60 (-8886027808160835,17) (-8477843348153067,16) (5228437363314465,16) (3969907302126196,16) (6573492424294692,16) (-6405390960766204,16) (-9747531386482674,16) (-1904350923858374,16) (1165795620310401,16) (7293993741582288,16) (-4519094023168209,16) (-5135702922436597,16) (334214042571647,15) (-2054398401126484,16) (9198344665440662,16), (865844485838149,17));
  (AB60 (-901999924574973,17) (-8182561344391184,16) (5747830356459367,16) (3718042676336442,16) (5940431259916356,16) (-7133542955863483,16) (-9521619693919526,16) (-2242130084474828,16) (2076441929998698,16) (7223742948320981,16) (-377378933746016,15) (-5794484606335141,16) (2388076738056043,16) (-2166641922456196,16) (946587303279581,15), (8556579396621312,18));
  (AB60 (-3381185807308076,16) (-838159939134112,15) (4279763332186559,16) (359613080594683,15) (824875607647057,15) (-4361865015954763,16) (-9965581889328533,16) (-1328433148705497,17) (-8182482879794802,17) (7743050823262839,16) (-5685818557141974,16) (-277788251796735,15) (560371687337377,15) (-2562937519328596,16) (7875894138133389,16), (8664103898479533,18));
  (AB60 (-262528881552652,15) (-8310870427365139,16) (4902784043236961,16) (3460984533027928,16) (7794382069696538,16) (-5221991403069768,16) (-998628629454523,15) (-5164883576686004,17) (8559100286174841,18) (7847280218596289,16) (-5083502251308269,16) (-3546575535889676,16) (4764294891475462,16) (-2710879818388268,16) (8363768576264888,16), (8701611175333938,18));
  (AB60 (-184247244843014,15) (-815919323048613,15) (5480224548717429,16) (329145841126106,15) (7263670656235129,16) (-603368793729735,15) (-9910393556443553,16) (-8955225742509999,17) (9910292000788663,17) (7876160385727489,16) (-4430169007726124,16) (-4282487611339926,16) (3876705619146204,16) (-2833501648509006,16) (877168295997849,15), (8658821474083228,18));
  (AB60 (-1046427043101853,16) (-7923920777558225,16) (6009697991949858,16) (3082373835458425,16) (666563646059554,15) (-6787360467343744,16) (-973879930679228,15) (-1258284316962686,16) (1890108102651265,16) (7833787510445597,16) (-3729101314842422,16) (-497248193810969,15) (2951438839448536,16) (-2936535145753118,16) (9092071827408283,16), (8536483750945661,18));
  (AB60 (-2519607649171085,17) (-760188497359257,15) (6492138370460836,16) (2826124789414422,16) (6010964113836014,16) (-7475381535201593,16) (-9473983476425453,16) (-1590920859756557,16) (2777158242954287,16) (7727342300118701,16) (-2981845105964617,16) (-560328303236871,15) (199860194122386,15) (-3029119007871396,16) (9318263159875257,16), (8337724854708161,18));
  (AB60 (-1989882120620911,16) (-7561566906015316,16) (6234025591212086,16) (2385515943388818,16) (7317051756445697,16) (-6385144264410374,16) (-9849356318750344,16) (-2445151495696186,17) (1711838908286527,16) (8375026385031284,16) (-3615330727538259,16) (-4097354851675345,16) (3464212054339971,16) (-3701721028907438,16) (8619541534600903,16), (8539527559281706,18));
  (AB60 (-1196507816738165,16) (-7302433594549963,16) (6726279256890288,16) (2174912000565752,16) (6697746554209414,16) (-7099996400377327,16) (-9640673756005157,16) (-6046870403405493,17) (2586844238356381,16) (8296504217115491,16) (-2914394499114868,16) (-4761756238922133,16) (254067735562783,15) (-3783352055094545,16) (8901191257456041,16), (8313283922674402,18));
  (AB60 (-4130620028710907,17) (-6964586397760513,16) (7164071195201327,16) (1924789978362469,16) (6030287127162773,16) (-7741499900094965,16) (-9344147530799236,16) (-9342992705977395,17) (3437148788693773,16) (8154561902966055,16) (-2180076335597909,16) (-5361938767056242,16) (1602647630704271,16) (-3850210791564864,16) (9088861173563795,16), (79677544122087,16));
  (AB60 (-5605115279473422,17) (-6282862364465243,16) (7759604844077072,16) (1029932416453813,16) (5992744300339069,16) (-7938907668457369,16) (-9135952435888479,16) (-2901180641261741,17) (4055885180580319,16) (8499419196404711,16) (-1376347591811407,16) (-5085817597034132,16) (119704476743111,15) (-4616396708527661,16) (8789537260530885,16), (7377054090931531,18))].

(** ahrens_beylkin/ahrens_beylkin_1572.hpp:1-3162. *)
Definition ab_1572 : coded := [  (AB12 (5257311121191336,16) (8506508083520399,16), (-5510041304043349,18));
  (AB60 (-9796759856511335,17) (-9486701418327725,16) (3007113426965669,16) (5868609425957985,16) (6465174383482135,16) (-4874519832426931,16) (-9481195910018109,16) (-3021527034845589,16) (-9885840852214377,17) (5854195818078064,16) (-647408248305244,15) (-4880025340736547,16) (4606676077591177,16) (8908099570304224,19) (8875722852923654,16), (8521180390147451,18));
  (AB60 (-5031379664881046,17) (-9225276640541422,16) (382637205354615,15) (5394741371075081,16) (6202099477021967,16) (-5694798294613672,16) (-9532069788941386,16) (-3023177163519455,16) (-6736224861373058,19) (6197936261101776,16) (-5705697735395235,16) (-5388005146213709,16) (3837271494327714,16) (-4964017416267315,17) (9221113424621232,16), (8578496409785148,18));
  (AB60 (-2361206240617787,16) (-9485067687815073,16) (2111444066707436,16) (5888206063310287,16) (7305261919076256,16) (-3458638120661119,16) (-9458955841167879,16) (-2179805768738818,16) (-2403456096001973,16) (5819844361278905,16) (-7347511774460442,16) (-3484749967308314,16) (6000317720506759,16) (4224985538418636,18) (7999650130017724,16), (818038156776545,17));
  (AB60 (-1958188985007347,16) (-9349443808923936,16) (2958613925940621,16) (5479438291837694,16) (7173192054440775,16) (-4303611478287806,16) (-9648279566908513,16) (-2176251754483161,16) (-1474662571534464,16) (6261800463295153,16) (-6689665640967892,16) (-4004775720303229,16) (5344668088620708,16) (-4835264134728826,17) (8438052217778315,16), (8373702845408497,18));
  (AB60 (-1505315091200365,16) (-913429640919147,15) (3781356315561422,16) (503395492384326,15) (695347705856142,15) (-5129176797574267,16) (-9745647129544656,16) (-218081935063005,15) (-5161288466221784,17) (6634491888774632,16) (-5964290813983234,16) (-4517826077221082,16) (4616470331970388,16) (-9891862445781864,17) (8815311239404683,16), (8479236945266127,18));
  (AB60 (-1024303364505112,16) (-883665402444416,15) (4567750898389526,16) (454860068296482,15) (6658518495175949,16) (-5913912687581022,16) (-9749405875409377,16) (-2178135529268212,16) (4525601536509866,17) (6938216052086134,16) (-5181654977019851,16) (-5001160836615806,16) (3835493187828355,16) (-1476863518156098,16) (9116351581354345,16), (8468436333548554,18));
  (AB60 (-5308874401466313,17) (-8458497651281037,16) (5307727951691545,16) (4025151129815643,16) (6298923925410974,16) (-6642417915490493,16) (-9660985563718232,16) (-2159573725870064,16) (1414778873237656,16) (7173305355637124,16) (-4353257612026686,16) (-5439930003053299,16) (3018567648227739,16) (-1945666313384287,16) (9332879081507188,16), (8354651943381114,18));
  (AB60 (-3602643995586943,16) (-9258936991879764,16) (1137120055870032,16) (5808799129023339,16) (7895458134961011,16) (-1979796332387675,16) (-9172475623531827,16) (-1363478856918752,16) (-3742541428287728,16) (5582440327974618,16) (-8035355567661796,16) (-2066257700735611,16) (7192679291144153,16) (1398974327007846,17) (694591918489337,15), (7659535195147371,18));
  (AB60 (-3291461297482414,16) (-922869846951477,15) (1999351666403668,16) (5449380587348203,16) (7895031003398677,16) (-2823603490153362,16) (-9482967208250831,16) (-1333667466116094,16) (-2880045835930901,16) (6115064787635777,16) (-7483615541847163,16) (-2569334751417301,16) (6659363718097469,16) (-4114154615515136,17) (7448732253751871,16), (7979031770330249,18));
  (AB60 (-2926359994479578,16) (-9128029809555059,16) (2848769730705468,16) (5056051405785257,16) (7811808131819418,16) (-3662239464275506,16) (-9713411076397059,16) (-1316221677735642,16) (-197919320835175,15) (6588599458755083,16) (-6864641345691591,16) (-3076858197433507,16) (6051171612121553,16) (-947166786127827,16) (7904821136490726,16), (8202871195017966,18));
  (AB60 (-2504391688527203,16) (-8955948792775799,16) (3676819752396571,16) (4633205305582854,16) (7640269621721804,16) (-4489954198398227,16) (-9857824242631976,16) (-1315679171053995,16) (-1045126557040806,16) (6994345886925429,16) (-6181004490235406,16) (-3588078748542048,16) (536787004423375,15) (-1459265131486397,16) (8310025057979425,16), (8339616250442366,18));
  (AB60 (-2045056941474254,16) (-8707365300236488,16) (447208358982315,15) (4176407359830464,16) (7390118299756043,16) (-5286187007698914,16) (-9912405648413607,16) (-1317247000480445,16) (-9526070030866848,18) (7331243949173168,16) (-5440322058590457,16) (-4081146659521795,16) (4626218640714693,16) (-1949796241165586,16) (8648490949653613,16), (837276014542687,17));
  (AB60 (-1563340777224329,16) (-8382535715967178,16) (5223893240180379,16) (3686568361920568,16) (7070308902773556,16) (-6034894011682997,16) (-9876659338424261,16) (-1312226813193622,16) (8542020273053465,17) (7598234788907325,16) (-4652766098243881,16) (-4540770389225914,16) (3841765326741263,16) (-2417542804529675,16) (8910461602100948,16), (8311878304385869,18));
  (AB60 (-1070545377052073,16) (-7983910138329651,16) (59254629775866,14) (3165570779919199,16) (6689113232063326,16) (-67256914741874,14) (-9752667187023051,16) (-1294796906266325,16) (1791363645574801,16) (7796236851239473,16) (-3827204209436452,16) (-4956934425494,13) (3026975712835651,16) (-2861909022626874,16) (9091033757505799,16), (8188995083903396,18));
  (AB60 (-5841977947142718,17) (-7508609177885295,16) (6578715767566471,16) (2604707498602594,16) (6259865506283326,16) (-7350481799852824,16) (-9544477359455218,16) (-1248743671601969,16) (2709906119680307,16) (7934679594567096,16) (-2965761591888748,16) (-5314613618282901,16) (2193995559602394,16) (-3294103914394579,16) (9183423266169065,16), (8016222172350871,18));
  (AB60 (-493679021723143,15) (-8688500043984774,16) (3715768247948775,17) (5317803704025221,16) (8453020758974101,16) (-5171110265779964,17) (-8740484678397099,16) (-2354792850106721,17) (-485267731185955,15) (5453901243809426,16) (-8368907853602221,16) (-465126392165671,16) (8223373651819103,16) (-8411290537187994,18) (5689380528820098,16), (6775268255422474,18));
  (AB60 (-4418207064678607,16) (-8918120596281656,16) (9729189913867328,17) (536315055693059,15) (8334113400621906,16) (-1333855287978968,16) (-9066671683623607,16) (-5840071956597485,17) (-4177846356293575,16) (5752062352657574,16) (-8093752692236874,16) (-1185304200637016,16) (7732816395644639,16) (-2403607083850324,17) (6336069548317323,16), (6674166350174952,18));
  (AB60 (-418161191982891,15) (-8897903968368706,16) (1827956980246861,16) (4992387887495153,16) (8396816863089381,16) (-213764584263378,15) (-9404723161957981,16) (-5010871052793241,17) (-3361561238450649,16) (631925776246269,15) (-757676618171112,15) (-1630826649044504,16) (7267077319324201,16) (-820050681378261,16) (6820344867742014,16), (7685605657370013,18));
  (AB60 (-3863007523961609,16) (-8824312650467495,16) (2684898343814032,16) (4602834751696599,16) (8367074277924662,16) (-2967487199006189,16) (-9675203044115479,16) (-4572383725428329,17) (-2486237946338394,16) (6830494722967798,16) (-6990304700301447,16) (-2116596805358205,16) (670771584510929,15) (-1376769577623215,16) (7287733095510631,16), (8045132367411435,18));
  (AB60 (-347634906707569,15) (-8688724207627151,16) (3524353672325737,16) (4192897767138614,16) (8245872756393711,16) (-379805092115522,15) (-9865753319676116,16) (-4428514512334408,17) (-1571875958032357,16) (7274399988230911,16) (-6341399647350378,16) (-2621021809106256,16) (6067702398520896,16) (-1904473109043333,16) (7717251439464351,16), (8229720128765553,18));
  (AB60 (-3041774811078666,16) (-8482596903229754,16) (4335107354611223,16) (3755051264154609,16) (8041767811853853,16) (-4607554716311264,16) (-9970078838135737,16) (-4408290913759017,17) (-6349784827493274,17) (764932952738993,15) (-5634971483524515,16) (-3120072781405281,16) (5362524121824473,16) (-2406796328329339,16) (8090158618765831,16), (8319353260181486,18));
  (AB60 (-2574439223716098,16) (-8202420298173592,16) (5108088090029567,16) (3286307900099954,16) (7762461260641968,16) (-53799977288818,14) (-9985486932356964,16) (-4399590375316225,17) (3106231945984738,17) (7954436952597899,16) (-4877398842327397,16) (-3596931094698428,16) (4605489203475164,16) (-2885062418314572,16) (8394395990129521,16), (8336662116909876,18));
  (AB60 (-2083639234291816,16) (-7848733035886611,16) (5835737937287961,16) (2788009508157788,16) (7413408265972369,16) (-6104783441239691,16) (-9911507312530897,16) (-4353247699142425,17) (1253999656437617,16) (8188422675531507,16) (-4075769375242936,16) (-4042009164595405,16) (3806723871291207,16) (-3337638890729433,16) (862374744544575,15), (8297801668610319,18));
  (AB60 (-1580309028312805,16) (-74209952405313,14) (6513942969895026,16) (2258397433705093,16) (7001913558621649,16) (-6772949693377662,16) (-9749025095825752,16) (-4190816819096513,17) (2186522404378118,16) (8353258721690467,16) (-3235082125930726,16) (-4444919838083211,16) (297607540244809,15) (-3766831432690922,16) (8772340403600118,16), (8220077318732595,18));
  (AB60 (-1085664285573006,16) (-6912407517563677,16) (71442253163069,14) (1684653781172712,16) (6542211650378902,16) (-7373018944721832,16) (-9499856526335602,16) (-3701958671847742,17) (3100916154777195,16) (8458683230294838,16) (-2355631210028702,16) (-4785569935949907,16) (2126837581613769,16) (-41865804403502,14) (8828879097479613,16), (8072846296003787,18));
  (AB60 (-6318522363204641,17) (-6304656483996655,16) (7736411918341459,16) (1037115201121929,16) (6054190197367797,16) (-7891208596514067,16) (-9164033277377065,16) (-2504662866288573,17) (3994716602011726,16) (852306083283453,15) (-1427621359035606,16) (-5031831803133655,16) (1272824680862999,16) (-4626568838332191,16) (8773527119463388,16), (7857888528238433,18))].

(** ahrens_beylkin/ahrens_beylkin_1632.hpp:1-3282. *)
Definition ab_1632 : coded := [  (AB12 (5257311121191336,16) (8506508083520399,16), (4564600260675349,18));
  (AB60 (-1065304900470049,16) (-9393556773304952,16) (3259787817593526,16) (5640455839996682,16) (6565957989016478,16) (-5007339972831685,16) (-9558638294462521,16) (-2827598784288474,16) (-7981973883225667,17) (6072644873301734,16) (-6298850476868996,16) (-4842258451674115,16) (4551298321630837,16) (-2671075121474822,17) (8900243657590208,16), (8054236460606452,18));
  (AB60 (-4066328542767399,17) (-9190538464602528,16) (392028729208513,15) (5349501696834812,16) (6135677517968786,16) (-5808295188009461,16) (-952110191380535,15) (-3054860946633741,16) (1282300419718264,17) (6214928042286201,16) (-560081462172022,15) (-5477731738806638,16) (371280672579589,15) (-5348628962485662,17) (9269788988919943,16), (8075170577407986,18));
  (AB60 (-3187719662330481,16) (-926104492654934,15) (2017793404396587,16) (5498386480086722,16) (7832974296499424,16) (-2900389592102912,16) (-9486298982409884,16) (-1428070630049915,16) (-2823250943844354,16) (6088109254433394,16) (-7468505578013297,16) (-2675135536242368,16) (6585909390306972,16) (-3644687184861276,17) (7516179884483309,16), (7674352500760268,18));
  (AB60 (-2618902796881826,16) (-9255633828627857,16) (2733969745780699,16) (5311694717328682,16) (7591396897160597,16) (-3762524734760295,16) (-9664235404814511,16) (-166423693146726,15) (-1957771558755041,16) (6381427531642121,16) (-6930265659033812,16) (-3353923158573641,16) (5901710670054217,16) (-661131238126785,16) (8045664463109381,16), (7879499521867988,18));
  (AB60 (-2006010484588557,16) (-9176988770851395,16) (3429110531229371,16) (5089893276559966,16) (7271044388092144,16) (-4607048940441528,16) (-9758786469053712,16) (-1905944382759251,16) (-1064642034320754,16) (6613059425030086,16) (-6329675937824341,16) (-4025251242239211,16) (5151737528612185,16) (-9413684502678027,17) (8519003807789337,16), (7999979179825485,18));
  (AB60 (-1358527773737441,16) (-9020561182676275,16) (4096813180702531,16) (4829572535817583,16) (6875337543238456,16) (-5422634303344853,16) (-976600205535058,15) (-214522363943782,15) (-1523791051470343,17) (6781162077082294,16) (-5669188874648049,16) (-4677193430670549,16) (4343367752005727,16) (-1206148668590407,16) (8926385716520114,16), (8052620177418179,18));
  (AB60 (-6884991252918747,17) (-8782214457940504,16) (4732724180555329,16) (4525840724114094,16) (6410606923424509,16) (-6198458244861553,16) (-9684080765324374,16) (-2371607534515995,16) (770751213363589,16) (6886957370153428,16) (-4951356584769045,16) (-5296591937477683,16) (348562252046282,15) (-1459250338655464,16) (9258564904669423,16), (8045970260234526,18));
  (AB60 (-995349807244349,18) (-8458367577039635,16) (5334408951286055,16) (4172682838794221,16) (5885659358507134,16) (-6924430073475332,16) (-9513243390196002,16) (-25727082185325,14) (1696871421524743,16) (6934383571547775,16) (-4178834438909948,16) (-5869554260318964,16) (2588813316720671,16) (-1706824919597186,16) (9507091790080275,16), (7985338989797574,18));
  (AB60 (-4936529997795623,16) (-8671884386177722,16) (6550517335531478,17) (5162704312335392,16) (8532100972409935,16) (-7414426343251301,17) (-886869937100968,15) (-1397834137677868,17) (-461807666284222,15) (5677972632120754,16) (-8213647637456531,16) (-5446276494931721,17) (8127256736684549,16) (-318453334953403,16) (581775604588854,15), (608966661812695,17));
  (AB60 (-4536526678497428,16) (-8805475414062114,16) (1372417002091103,16) (5035706913390436,16) (8496965062386078,16) (-1563086885308076,16) (-9211851593663617,16) (-3085103516760353,17) (-3878996207683865,16) (6099613563805505,16) (-7839434591572515,16) (-1156710705706572,16) (7648764708355542,16) (-6575304708135642,17) (6408123915481539,16), (6963558139985657,18));
  (AB60 (-406520978923417,15) (-8889900240900744,16) (2108018756165979,16) (4881852084530895,16) (8385187545756639,16) (-24199483563186,14) (-9502308661842388,16) (-5047126951441049,17) (-3074312149153938,16) (648515814555277,15) (-7394289905676409,16) (-1807539935376957,16) (7082360305523787,16) (-9908976400802313,17) (6989870840696875,16), (7458831501282078,18));
  (AB60 (-3531094367518766,16) (-8915138469525304,16) (2837547997279915,16) (4702556362106918,16) (8191135140341081,16) (-3285006662683844,16) (-9722440695996744,16) (-7240033291842232,17) (-2224851925894513,16) (681610103020261,15) (-6884892698716828,16) (-2477704436212405,16) (64374340333129,14) (-1306242441624253,16) (7540104359386833,16), (7756263212593599,18));
  (AB60 (-2943502813109192,16) (-8874198887840349,16) (3547447714663515,16) (4496061462153138,16) (7914664873203571,16) (-4140472349070682,16) (-9862693961299063,16) (-9595340146367781,17) (-1344084186541169,16) (7083975162179874,16) (-6315246246635547,16) (-3151977275611968,16) (572222161222838,15) (-1599418626568023,16) (8043509176816652,16), (7932259504439522,18));
  (AB60 (-2313326308907088,16) (-8761473728531578,16) (4229077853713418,16) (4258785072308013,16) (7559114089038466,16) (-4972176977621231,16) (-9917577211995349,16) (-1202359639493112,16) (-4427115781505533,17) (7285503286528319,16) (-5688499358281931,16) (-3816073494157459,16) (4945400234374118,16) (-1870614730756534,16) (848786292602143,15), (802000110544555,17));
  (AB60 (-1652981442852605,16) (-8572436548786712,16) (4876575024195844,16) (3986159981843575,16) (713045290986847,15) (-5767769924268573,16) (-9884333720495171,16) (-1441983638918241,16) (4697127707165388,17) (7420751367121178,16) (-5007758696299327,16) (-4455872752560114,16) (4116563796226598,16) (-2122694213569143,16) (8862735006039418,16), (8034124893067226,18));
  (AB60 (-9762187435710799,17) (-8303613594967286,16) (5486073115642459,16) (3673059773239334,16) (6636874176377042,16) (-6516174726720468,16) (-9762469252863438,16) (-1666739418590244,16) (1384259295584983,16) (7492393470291548,16) (-4276396137220979,16) (-5057319068824316,16) (324629452614297,15) (-2360478039156063,16) (9159132888881794,16), (7980105287049058,18));
  (AB60 (-2981058731582981,17) (-7952393504148849,16) (6055623043383704,16) (331369018819261,15) (6088659901516574,16) (-720747375578574,15) (-9553552793434107,16) (-1863733602632275,16) (2292624278307873,16) (7505579628944039,16) (-3497929750050403,16) (-5606314466500483,16) (2346079037648366,16) (-2590730151466172,16) (9369313231576314,16), (7858995925653079,18));
  (AB60 (-3868945121807162,16) (-8489626251908966,16) (3599654114959198,16) (3872855063263979,16) (8487209775194631,16) (-3601147579701679,16) (-9863648764108105,16) (-2416476714334945,19) (-1645729995761439,16) (7470092701508841,16) (-6263994649148907,16) (-222712506750254,15) (6262501184406426,16) (-2223215126045724,16) (7472509178223177,16), (7886246115467409,18));
  (AB60 (-3260764658968947,16) (-8416499187340011,16) (4304643454262392,16) (3649137454291173,16) (8176471599525069,16) (-4452988661769676,16) (-9969044297110834,16) (-2400275878149418,17) (-7486939022923192,17) (7713753320738623,16) (-5664400842848442,16) (-2900443551998854,16) (5516055635341157,16) (-2512070756676628,16) (7953780908553565,16), (799630790482595,17));
  (AB60 (-2615237783978426,16) (-8272754524935285,16) (4972128709457789,16) (3398581726655185,16) (7788621343479699,16) (-5271339470678962,16) (-9987016275274596,16) (-4841331814555864,17) (1584959936844661,17) (7886577254657388,16) (-5014887565816807,16) (-3557077720339651,16) (4715676804595634,16) (-2773733777662892,16) (8370710436112974,16), (8027436472092421,18));
  (AB60 (-1945944219043206,16) (-805482660568952,15) (559759497004281,15) (3116364291934854,16) (7331467219527352,16) (-6044655656772291,16) (-9916618929557737,16) (-7233593861621683,17) (106649904096922,15) (7990599875815496,16) (-4319023959514927,16) (-4182863332904074,16) (3871963272785446,16) (-3012443260012426,16) (8713959261977665,16), (7984270461773238,18));
  (AB60 (-126731334278729,15) (-7760636293303739,16) (6177899417621665,16) (2797915579515496,16) (6814672087749095,16) (-6762537448795226,16) (-9759057717375952,16) (-9459642055546437,17) (1966200445207518,16) (8029850791582517,16) (-3581158299754288,16) (-4764116024723014,16) (2996520268580726,16) (-3233513787994808,16) (897581499713716,15), (7864239536032739,18));
  (AB60 (-5947446816232372,17) (-7389389425381244,16) (6711423297911161,16) (2438643760296675,16) (6249797122936442,16) (-7415730074139798,16) (-9517639486079232,16) (-1139592302444801,16) (2848836253145134,16) (8010474755763035,16) (-2806216188168071,16) (-528748001344181,15) (2101909411939434,16) (-3443580934768372,16) (9150067058207837,16), (7658086111130905,18));
  (AB60 (5453519089780531,18) (-6940426086770317,16) (7199132701029465,16) (2032208602664571,16) (5650747496535874,16) (-7996197904357399,16) (-9197636702136229,16) (-1289678590234443,16) (3706778686326916,16) (7941662713459594,16) (-1998504001106763,16) (-5738987288991487,16) (120143879777883,15) (-3652243495429111,16) (9231341303694036,16), (7352509137586031,18));
  (AB60 (-1551781533381034,16) (-7155731697969075,16) (6810835333447596,16) (1904164018748729,16) (6937947344971678,16) (-6945433465817892,16) (-9674053082940233,16) (-2177843529973979,17) (2522948062098007,16) (8497214999198927,16) (-2863217749492638,16) (-4427112080846735,16) (272861961712234,15) (-407472959547904,15) (8714999352196324,16), (7683159886159357,18));
  (AB60 (-8897659506438797,17) (-6773217105648091,16) (7302865642529026,16) (1553262124030746,16) (6363153919089514,16) (-7556298629357316,16) (-9406033366090052,16) (-410063186558577,16) (3370220244884609,16) (8446064580001196,16) (-2103167723561025,16) (-4923482368915355,16) (1849734736732736,16) (-4259986195528488,16) (8856127766559773,16), (7357876161236491,18));
  (AB60 (-2582027640845977,17) (-6327086582434407,16) (7739593446105394,16) (1169134804921719,16) (5764099619755759,16) (-8087538524263868,16) (-9068306335220565,16) (-562986962678648,16) (4177183966555991,16) (8345741288348465,16) (-1328712889115171,16) (-5346318771477709,16) (9807678109566977,17) (-4435386730640588,16) (8908728251027113,16), (6855484545318762,18))].

(** ahrens_beylkin/ahrens_beylkin_1692.hpp:1-3402. *)
Definition ab_1692 : coded := [  (AB12 (5257311121191336,16) (8506508083520399,16), (5650700112220896,18));
  (AB60 (-4811931759184802,16) (-8743803045773137,16) (6254766515842676,17) (5274178244345119,16) (8458119006763887,16) (-8020390977353349,17) (-8873592274650669,16) (-28568403900925,15) (-4601928375487316,16) (5613970856920137,16) (-8248115623066401,16) (-6722498688578031,17) (8071553176915334,16) (-2100033836974859,17) (5899654895929387,16), (6646553075583705,18));
  (AB60 (-422582307177055,15) (-8986789465317612,16) (1174748684676049,16) (5377239915574827,16) (827517472062744,15) (-1614550783790154,16) (-9163690889048562,16) (-7116147446901726,17) (-3939590555515624,16) (5840373855560704,16) (-7988942204372513,16) (-1437649360059204,16) (7549140105258408,16) (-2862325162549256,17) (6551988600250876,16), (6888631147835771,18));
  (AB60 (-3565835347259898,16) (-9195861251326727,16) (1649531485779987,16) (5512938565901198,16) (7992485282602085,16) (-2393258735696645,16) (-9366277494573585,16) (-1203375968724641,16) (-3290096073451411,16) (5959094082956543,16) (-7716746008793599,16) (-2222842492449787,16) (697301875887694,15) (-275739273808487,16) (7162470051681185,16), (6914078710886833,18));
  (AB60 (-2856022024245974,16) (-9354948606928529,16) (2080402547284517,16) (5645551789066017,16) (7630924399640242,16) (-3145908104816272,16) (-9491073019952823,16) (-1724024207288287,16) (-2635768097274038,16) (6001930129062247,16) (-7410670472668306,16) (-3009783691791978,16) (634516491513655,15) (-2202539269719361,17) (7725954336350533,16), (7175686610426285,18));
  (AB60 (-2105937133708783,16) (-9442908997734801,16) (2529129978740824,16) (5724138502731865,16) (7206737573537136,16) (-391115992356624,15) (-9554809208275248,16) (-2236171424197665,16) (-1924878789706071,16) (6017097057275023,16) (-7025679229534424,16) (-3799259713025794,16) (5643649284709008,16) (-1810583440027119,17) (8253268481472689,16), (75437839074792,16));
  (AB60 (-1329010258108643,16) (-9443408978886118,16) (300927874935757,15) (5724552218618847,16) (6726814648314463,16) (-4688226379296119,16) (-9555204478884829,16) (-2716594330571654,16) (-1148121339321439,16) (6017236637404763,16) (-6545925729527259,16) (-4576430879297408,16) (4866978099588709,16) (-1808889187872041,17) (8733830967976417,16), (7746830215014567,18));
  (AB60 (-5479104812022292,17) (-9345787530212123,16) (3515117287477095,16) (5634028643932883,16) (620239363484641,15) (-5457841554842037,16) (-9487773231585266,16) (-3143393895365713,16) (-3181727904639902,17) (6005752036044265,16) (-5972655944108171,16) (-5315855853468893,16) (402993167674323,15) (-2297376907382389,17) (9149145931409979,16), (7797181794842672,18));
  (AB60 (-4458697531506807,16) (-8737857670271506,16) (1941612643297451,16) (4720455718017177,16) (8576082214174563,16) (-2041595373710879,16) (-941769498134109,15) (-1617754560969428,17) (-3358697655375883,16) (6500292905217686,16) (-7476082338043639,16) (-1361758062641293,16) (7376099607630212,16) (-1099999876130924,16) (6662068361314628,16), (7096824258044019,18));
  (AB60 (-3749781237983062,16) (-8944200321102092,16) (2437297947167615,16) (4858614959556551,16) (8258903393297637,16) (-286083474093665,15) (-9613405162174355,16) (-6852969278044536,17) (-2666985059692166,16) (6610615978919712,16) (-7176107215006741,16) (-2191629899864385,16) (6752570421237706,16) (-1082796178290896,16) (7295912906724166,16), (7331526901188959,18));
  (AB60 (-2990840986396541,16) (-9088564108495217,16) (2907382437840453,16) (4974890907048936,16) (7862353822155506,16) (-3665222072153136,16) (-9730714729428713,16) (-1226210286339712,16) (-1951819455829295,16) (6656063058549677,16) (-682333229158826,15) (-302307145121964,15) (6065492657275577,16) (-1039021530567246,16) (7882273344889389,16), (7647023556999095,18));
  (AB60 (-2207416140750506,16) (-9147020749948184,16) (3385162533996191,16) (5025384866460795,16) (7405420298224995,16) (-4461530807983292,16) (-9774805602755919,16) (-1741600451723188,16) (-1191638911285239,16) (6668946948733797,16) (-6389643068759728,16) (-3833745955175555,16) (5313274794772628,16) (-1015777229465267,16) (8410547400456986,16), (7815394358428493,18));
  (AB60 (-1417728721496962,16) (-9109441105820884,16) (3874032525911907,16) (4994574132554827,16) (6898829069283033,16) (-5240265900431922,16) (-974481119517879,15) (-221061203653785,15) (-3896783214808112,17) (6657994621928884,16) (-5870778669266883,16) (-4604895811074016,16) (4504545294746868,16) (-1028050400016151,16) (8868606658466733,16), (7819571936644072,18));
  (AB60 (-6270773747129108,17) (-8971726772227337,16) (4372058175576167,16) (4878472774258209,16) (6344219915693404,16) (-5995946718587533,16) (-9638086080983009,16) (-2627506856533934,16) (4511146355736515,17) (6623024093300442,16) (-5266027905406842,16) (-5329587409831861,16) (3642139362395477,16) (-1078192010286562,16) (9250530949834377,16), (7736033192172536,18));
  (AB60 (-3815456918259183,16) (-8646605708880429,16) (3267797150997059,16) (4182311357597625,16) (8419877196445487,16) (-3407923077900558,16) (-9808190566689788,16) (-2267285124349437,17) (-1935973137506426,16) (7223379996159741,16) (-6540393415692729,16) (-2246338220091199,16) (6400267488789231,16) (-1879483780752757,16) (7450108508594685,16), (7557214084693709,18));
  (AB60 (-304514858994423,15) (-875181118623866,15) (3759371094423708,16) (4259675769326315,16) (8001192109119991,16) (-4223279196687125,16) (-9901052193129374,16) (-7506190771186694,17) (-1185637579529904,16) (7268427786631354,16) (-6141681098705666,16) (-3074038189796411,16) (567777299644225,15) (-1859511010414326,16) (8019046863750023,16), (7761683069658768,18));
  (AB60 (-2262721601936515,16) (-8768675100147456,16) (4241512459039092,16) (4274031516114503,16) (7525617211275827,16) (-5009764484345449,16) (-991398283222897,15) (-124305788887163,15) (-4095747638505674,17) (7272486086281964,16) (-5672470373189878,16) (-3864456752263935,16) (4904218347883522,16) (-1853146838085948,16) (8515543975153594,16), (7807044370764193,18));
  (AB60 (-1471141013755943,16) (-869536943875005,15) (4714477112182938,16) (4222855517853296,16) (6994716347881824,16) (-5765538525412065,16) (-9846547778781383,16) (-1700653090868226,16) (3915046675274363,17) (7236679539168007,16) (-5132070666598445,16) (-4614360185380732,16) (4081009253369318,16) (-1862645681283379,16) (8937332630036233,16), (7699268407988769,18));
  (AB60 (-659228051594859,16) (-8528975379526785,16) (5178995786001025,16) (4106875462530678,16) (6398212098342874,16) (-6495879915752931,16) (-9693296590754695,16) (-2130763281183912,16) (1224683241994344,16) (7155107967347791,16) (-451430080475367,15) (-5331558704525022,16) (3197416675001763,16) (-1883911293589203,16) (9285871248531703,16), (7537888669675747,18));
  (AB60 (-3079111688311151,16) (-8331083095633759,16) (4594793321200757,16) (3491093306050496,16) (8076464453130677,16) (-475215629643702,15) (-9988882305784617,16) (-2546186425030813,17) (-396736219764334,16) (7831267984748171,16) (-539408898458386,15) (-3094357086286162,16) (5236726009347596,16) (-2682375468546818,16) (8085886627251252,16), (7769770921969192,18));
  (AB60 (-2296079146567274,16) (-831197081006002,15) (5063512793052771,16) (3483241768841455,16) (7578263959321123,16) (-5516968564588056,16) (-9965809515332653,16) (-7337068507388968,17) (3798880904739672,17) (781304771115533,15) (-4902296722279881,16) (-3863129859315422,16) (4448840950744598,16) (-2675967237041241,16) (8546754561894226,16), (7723906456873887,18));
  (AB60 (-1486543206953717,16) (-8218230594146999,16) (5500079562632346,16) (3439281319219538,16) (7011372069639414,16) (-6245959150390581,16) (-985809510949455,15) (-1206858524507585,16) (1166813315823493,16) (7732502357344299,16) (-4358015546862204,16) (-4606094635043031,16) (3612135959103969,16) (-265335652277721,15) (8939360881851883,16), (7530831936257832,18));
  (AB60 (-6462960466143566,17) (-8036638578528695,16) (5915635365557526,16) (3344243043099093,16) (6369215634855435,16) (-6946159418369002,16) (-9659311332258977,16) (-166742294367326,15) (1979243621539627,16) (7592455464983359,16) (-3743675966701452,16) (-532348666463872,15) (2713151913889976,16) (-2625539668153983,16) (9259878408656619,16), (7268649220017576,18));
  (AB60 (-2292018966706344,16) (-779252447234822,15) (5832941916744283,16) (2679540956698272,16) (7553022711145212,16) (-5980962145533203,16) (-9929028497726489,16) (-2395017612030083,17) (1164917163456663,16) (8272981112239547,16) (-4096086580982206,16) (-3844458120154935,16) (3948066352193286,16) (-3456936130163006,16) (8512482873442555,16), (7643648160536672,18));
  (AB60 (-1455658047442691,16) (-7691858624130826,16) (6222248030679873,16) (2661897255252958,16) (6946361795141334,16) (-6682990409500648,16) (-9783791435249721,16) (-7454968289894927,17) (1929160343128795,16) (8138648456943338,16) (-3561543404569848,16) (-4591057598381753,16) (3100801025749074,16) (-3384818390571486,16) (8884145285932832,16), (7392310116729923,18));
  (AB60 (-5932897396321428,17) (-7503675526468254,16) (6583529515262204,16) (2595499651422476,16) (62662417483699,14) (-7348305648954183,16) (-954570239095392,15) (-1237433778098355,16) (2710779133046041,16) (7941595388586326,16) (-2962172875691716,16) (-5306278784468517,16) (2197396741999737,16) (-3304068872678184,16) (917902916668468,15), (7098071798748141,18));
  (AB60 (-1394302432734505,16) (-71202640306447,14) (6881697527498425,16) (1888702694465717,16) (6814707864847966,16) (-7070541623432904,16) (-963212651599073,15) (-3055561657967328,17) (2669976443621157,16) (8464844056167409,16) (-2750428988492305,16) (-4558679138086874,16) (2561584892557826,16) (-4064278876355662,16) (8770400221964142,16), (7296652128256543,18));
  (AB60 (-5393968591421262,17) (-6920570382434634,16) (7198246773355034,16) (1833052867292645,16) (6121046999647103,16) (-769237939871802,15) (-9364665233022451,16) (-7995233827875313,17) (3415231680837558,16) (8231776257860147,16) (-2166418459667418,16) (-5248284548130203,16) (1672285834304431,16) (-3954628539979685,16) (9031299640647679,16), (7094075687250507,18));
  (AB60 (-5523444799444633,17) (-6282039582275282,16) (776085654178722,15) (1031164679451157,16) (5986112424480139,16) (-7943749583498771,16) (-913338888334244,15) (-2959271577951422,17) (4061235602980456,16) (8496094063443235,16) (-137253234155522,15) (-5092400282431613,16) (1189639299843668,16) (-461358008292492,15) (8792021221238376,16), (6969235521907704,18))].

(** ahrens_beylkin/ahrens_beylkin_1812.hpp:1-3642. *)
Definition ab_1812 : coded := [  (AB12 (5257311121191336,16) (8506508083520399,16), (348596715377948,17));
  (AB60 (-5148272735465845,17) (-9374218390872037,16) (3443687331720038,16) (5702967944644017,16) (6167771117718134,16) (-5425380729663569,16) (-9464836029751285,16) (-3206447273153903,16) (-3682048538596969,17) (5940208003210153,16) (-6021148698031246,16) (-533476309078432,15) (4039455300087716,16) (-1466224196868876,17) (9146655276364056,16), (7334655734496205,18));
  (AB60 (-3212623717020101,16) (-9312189304760173,16) (1721098255518894,16) (5680414949536937,16) (7787010445925774,16) (-2663710629201331,16) (-9387023855238278,16) (-15251788588344,14) (-3091538870813709,16) (5876334346221432,16) (-7665925599719383,16) (-2588876078723228,16) (6723313226036947,16) (-1210848462063914,17) (7401513205055832,16), (6855525067885913,18));
  (AB60 (-2643090084097748,16) (-9346111212192594,16) (2379974793285014,16) (5554415651689428,16) (7546813059104356,16) (-3492002207788456,16) (-9567909952274669,16) (-1799298153088238,16) (-2284212183983047,16) (6135092291886205,16) (-7187935158989655,16) (-3270203467706381,16) (6075907744486213,16) (-358877900114701,16) (7934390444974442,16), (7095516334171748,18));
  (AB60 (-2038224518665649,16) (-9310337583866902,16) (3027086864618457,16) (5388831881787499,16) (7239548350501938,16) (-4306904994375342,16) (-9675610775644722,16) (-2070789233364964,16) (-1447200079189978,16) (6345129513040992,16) (-6648523911026265,16) (-3941631802597522,16) (5368705781269379,16) (-5910244394756721,17) (8415918746405956,16), (7238733920645952,18));
  (AB60 (-1403744518856191,16) (-9201966651073484,16) (3654218258165848,16) (51836573612198,14) (686585203998055,15) (-5098016489436523,16) (-9705437443560142,16) (-2336114611092934,16) (-5891116642699339,17) (6501761008292715,16) (-6051219185394293,16) (-4594545696949866,16) (4607420954123618,16) (-814632854586257,16) (8837875619385648,16), (7310248673913785,18));
  (AB60 (-7472469042116955,17) (-9018398219625152,16) (4255598150249612,16) (493732635419723,15) (6428786703971627,16) (-585606608458162,15) (-9654748489237807,16) (-2589611515653525,16) (2823894607717371,17) (6603312988793316,16) (-5399150338988195,16) (-5219715814968967,16) (3798682404656186,16) (-1029636364983433,16) (9192924504446841,16), (7326185220254416,18));
  (AB60 (-7845332769599351,18) (-8757136969736751,16) (482766995233138,15) (4646594242897142,16) (593387061874339,15) (-6572544516539167,16) (-952275101827518,15) (-2823266350993361,16) (1160336225103596,16) (6650997844235161,16) (-46950810659438,14) (-5806930468000738,16) (2950206501736012,16) (-123878955279959,15) (9474264195228522,16), (7298202414434408,18));
  (AB60 (-492754693505047,15) (-8683772410690106,16) (5580124749609736,17) (5223617474541333,16) (8500790754217235,16) (-6711013579789656,17) (-8827021436523869,16) (-1829816564728717,17) (-4695765142396131,16) (5598648293029436,16) (-8269008961562895,16) (-5278523321452031,17) (8155920078544903,16) (-2317817926543395,17) (5781629949502307,16), (5091536337961815,18));
  (AB60 (-4510337791785677,16) (-8844719147010568,16) (1194904270012689,16) (5164304937365346,16) (8440545223516581,16) (-1444697492098372,16) (-914675126344473,15) (-404173923493986,16) (-4021639561701137,16) (5955035283884049,16) (-7951846993432041,16) (-114266537566421,15) (7702053771346358,16) (-4886982300845405,17) (6359209207378035,16), (6078593324527848,18));
  (AB60 (-4027094789689652,16) (-8962040862860962,16) (1861271373890658,16) (5075366947418999,16) (8314173039924034,16) (-2261675708683078,16) (-9425519777255471,16) (-647867822936927,16) (-3277170153130431,16) (628877049837273,15) (-7564248403364814,16) (-1798196794288567,16) (7163844068572394,16) (-7499246365592206,17) (6936638321309657,16), (663255601604587,17));
  (AB60 (-3490585236058678,16) (-9022712505940567,16) (2531101290931062,16) (4955326948943338,16) (8117452342638107,16) (-3090582840513262,16) (-9643728556387237,16) (-9052601633024596,17) (-2485760158876746,16) (6581168076571939,16) (-7112627265456175,16) (-2469566790066592,16) (6553145715873975,16) (-1004825077181932,16) (7486428239874399,16), (6965286668810387,18));
  (AB60 (-2909332251269805,16) (-9019888491990574,16) (3190203354611956,16) (4803108292155919,16) (7849470531642745,16) (-3913561435150241,16) (-9791377862618864,16) (-1170417960347829,16) (-1661036227633967,16) (6822893686420046,16) (-6601174508006907,16) (-3142072064521951,16) (5877816427468623,16) (-1248296023635837,16) (7993311646767874,16), (7165342197467504,18));
  (AB60 (-2291123368292093,16) (-8949278170928073,16) (3828991241909047,16) (4617626449703205,16) (7511420191684641,16) (-4717636344076728,16) (-9862609805635908,16) (-1437857979243431,16) (-8133217403343125,17) (7008759712368821,16) (-6033618563726861,16) (-3804304709368893,16) (514497346155918,15) (-147780162795778,15) (8446617691612252,16), (7273428769732838,18));
  (AB60 (-1644490315602801,16) (-8807798742117292,16) (4440532954527604,16) (4397216933537086,16) (7106520130497358,16) (-5491980960841956,16) (-9854100797277262,16) (-1701278611619934,16) (4846197214489877,18) (7136471276444756,16) (-5413567842749658,16) (-4445678905681985,16) (4362119836435307,16) (-1692952287747699,16) (883774988806469,15), (731029666675252,17));
  (AB60 (-9793924883815644,17) (-8592961402325827,16) (5020139907596234,16) (4139132929618385,16) (6640134414013882,16) (-622705336052111,15) (-9764570683360763,16) (-1952826988311945,16) (9163111498677888,17) (7206445848902674,16) (-4744430775764529,16) (-5055444079486174,16) (3537517322839653,16) (-1895703638249353,16) (9159272837214619,16), (7286984547570402,18));
  (AB60 (-3073100174060494,17) (-830255267859713,15) (5565355296144309,16) (3839264547686035,16) (6119684732164929,16) (-6914441879992094,16) (-9594547879670604,16) (-2182867946432201,16) (1783182131232585,16) (7221751897398143,16) (-4029192583526296,16) (-562244667891862,15) (2680105999678511,16) (-2090492148638634,16) (9404619843830344,16), (7211337888275228,18));
  (AB60 (-4318845294836335,16) (-8629489165840598,16) (2622878581999133,16) (4335367504759259,16) (8619277878538971,16) (-2629189504620429,16) (-9627439271119808,16) (-1021128730162789,18) (-2704128105418039,16) (6948034799456764,16) (-7004560689120675,16) (-163123939934122,15) (6998249766499378,16) (-1614717189418296,16) (6958246086758392,16), (685998907796308,17));
  (AB60 (-3765459667114808,16) (-8655351440507566,16) (3302454380704637,16) (4187508188534075,16) (8394511109368821,16) (-3463662570985159,16) (-9817144626782529,16) (-2608403311387451,17) (-188563880382388,15) (7229122238099968,16) (-6514690246077892,16) (-2301869384710196,16) (6353482055797369,16) (-1879820863290929,16) (7489962569238713,16), (7098508536323169,18));
  (AB60 (-316788912380347,15) (-861899831720396,15) (3959462906420893,16) (4014253084345797,16) (8095916622735827,16) (-4282745172495087,16) (-9931579141868359,16) (-5230816944681327,17) (-1044088736515108,16) (7450634296298557,16) (-5972116235447466,16) (-2970164347830689,16) (5648833969373271,16) (-2123800387288362,16) (797371599076669,15), (7235954625604977,18));
  (AB60 (-2535579362403096,16) (-8516446858244756,16) (458704373291214,15) (3812891259986116,16) (7727024691303824,16) (-5074933463554229,16) (-9967009220036156,16) (-7894221669409311,17) (-1885201582232878,17) (7610512825957325,16) (-5379965487124017,16) (-3624371101762828,16) (4892075756481927,16) (-2347059204179808,16) (8399934992898256,16), (7293400678053049,18));
  (AB60 (-187872600727338,15) (-8345065585869652,16) (5179794296796797,16) (3580844465722012,16) (7293098525669822,16) (-5829945695045599,16) (-992175529056214,15) (-105196706019983,15) (672411524631099,16) (7708671702318979,16) (-4741960993765343,16) (-4253255990353111,16) (4091809595516541,16) (-2551137531904479,16) (8760638762518809,16), (7280965790269201,18));
  (AB60 (-1208546543914891,16) (-8103104550090806,16) (5734031034227931,16) (3315072350543649,16) (6801200003415445,16) (-6538652294181329,16) (-9796026225897201,16) (-1301904546675361,16) (1530658267831285,16) (774719883809622,15) (-4061995191669269,16) (-4845730618374934,16) (3257373931715872,16) (-2739204811746176,16) (9049103384771581,16), (7202022920826914,18));
  (AB60 (-5373277009837027,17) (-7789201201572589,16) (6248169618630379,16) (3011467944210411,16) (6260098438324552,16) (-719320709860905,15) (-9591724345145559,16) (-1529102763248038,16) (2379216010825669,16) (7730534799592753,16) (-3343554726515179,16) (-5390683955036081,16) (2398517246536509,16) (-2916543711809372,16) (925963756284079,15), (7057646247699697,18));
  (AB60 (-276473975812479,15) (-801590455510518,15) (5301083684803336,16) (2980109597681333,16) (7882798674107625,16) (-5383347643362324,16) (-9989896423053952,16) (-133105880997555,16) (429246177732218,16) (8148087401487113,16) (-4688812738250616,16) (-3409355775413551,16) (4606548779691629,16) (-3193985935857008,16) (8281193282484669,16), (7282665268505987,18));
  (AB60 (-2100784629496951,16) (-7817817784331618,16) (5870981947805464,16) (2740078320512009,16) (7422712554490939,16) (-6115170408979842,16) (-9909416572389943,16) (-3951052298406788,17) (1283493300409508,16) (8215955038476794,16) (-4038434624584479,16) (-4023571620921517,16) (3794246163410101,16) (-3384277929906459,16) (8611060268317473,16), (721068368555887,17));
  (AB60 (-1429164294362222,16) (-7553546029300848,16) (6395422722772398,16) (2471599689399785,16) (6909285524091712,16) (-6793597612600824,16) (-9750294521595797,16) (-6442605052091371,17) (2125249430906091,16) (8222761906963046,16) (-3354871798823398,16) (-4596849120305875,16) (2956696908994973,16) (-3554413725268313,16) (8867022412172183,16), (7060199532385085,18));
  (AB60 (-7625858093728771,17) (-7223452661659115,16) (6873150262296973,16) (2171668855431292,16) (6352591446223782,16) (-7411372092920054,16) (-9516123067259051,16) (-870861215435334,16) (2947032831888826,16) (8173957902292931,16) (-2642972804962078,16) (-5118701687320119,16) (2104750974338997,16) (-3709618641261703,16) (9044819117728266,16), (6819329264213757,18));
  (AB60 (-1162383124358635,17) (-6827035627279322,16) (7306029920454808,16) (183425326950465,15) (576524399063012,15) (-7962253240874394,16) (-9212122417839752,16) (-1061791636649202,16) (3742913180809314,16) (8078491553310257,16) (-1906092497384944,16) (-5577166450313964,16) (1249869176965358,16) (-3859151493245177,16) (9140283189959458,16), (6478878790597245,18));
  (AB60 (-9717632043368005,17) (-6611050516881285,16) (7439737047634195,16) (1328292350362816,16) (6390703386657233,16) (-7575919063436158,16) (-9368612087293663,16) (-2203471302240521,17) (3490065142660964,16) (8547682267772959,16) (-1928875039659468,16) (-481835749302378,15) (1792693023857504,16) (-4461828346997765,16) (8768029397997011,16), (6482341316455194,18));
  (AB60 (-3413294649946414,17) (-62225800227302,14) (7820677212175778,16) (1018357775794636,16) (5804153515309876,16) (-8079279015555448,16) (-9049988198698919,16) (-4184265074203241,17) (4233513063792092,16) (842060848055009,15) (-1229310986523142,16) (-5251870839586728,16) (9707091831434714,17) (-4574842528786733,16) (8839034987970414,16), (5905301291160589,18))].

(** ahrens_beylkin/ahrens_beylkin_1932.hpp:1-3882. *)
Definition ab_1932 : coded := [  (AB12 (5257311121191336,16) (8506508083520399,16), (4547970671481333,18));
  (AB60 (-4714586095242229,16) (-8810634779455345,16) (3813039910628982,17) (5480414047405219,16) (8337327075483889,16) (-6738242392544322,17) (-8775492488215464,16) (-4733077039714569,17) (-4771447516910905,16) (5388410334496661,16) (-8394188497152565,16) (-7089665304943141,17) (8101668248961031,16) (5686142166867669,18) (5861718038468118,16), (5597212526704546,18));
  (AB60 (-4136725635547856,16) (-9065478877602091,16) (8394008196037933,17) (5636107541874527,16) (8138809897375597,16) (-141211374570397,15) (-9032145406379904,16) (-9266689802264934,17) (-419066032494837,15) (5548839381251827,16) (-8192744586776112,16) (-1445447216926157,16) (7620031660675934,16) (5393468940051382,18) (6475508361478319,16), (6061600881097009,18));
  (AB60 (-3560326145972413,16) (-9245761803916025,16) (1356453611279327,16) (5701550335048235,16) (7922412477533735,16) (-2174328473972859,16) (-9258406515573433,16) (-132334932638229,15) (-3539866572732784,16) (5734654619945272,16) (-7901952904294106,16) (-2161683762315451,16) (7084078041600573,16) (-2045957323962858,18) (7058003946327562,16), (6155580335614392,18));
  (AB60 (-3006973376734704,16) (-9342813325600927,16) (19157114277945,14) (5671433166742574,16) (7696086613718656,16) (-2933444505920099,16) (-9445556344625163,16) (-1646726711882271,16) (-2840731679846712,16) (5940417882654803,16) (-7529844916830664,16) (-2830701486895862,16) (6512111838705065,16) (-1662416968879922,17) (7587144594537074,16), (6178755209567962,18));
  (AB60 (-2420480767139531,16) (-9380977666145691,16) (2477605877290288,16) (5602597725514727,16) (7414321229692385,16) (-3693066399212178,16) (-9576142986012665,16) (-1966656436453305,16) (-2104696646169522,16) (6113547166351709,16) (-7098537108722377,16) (-3497901079345205,16) (5883076586800486,16) (-3157841209700086,17) (8080203602805015,16), (6491826337462541,18));
  (AB60 (-1751010981052155,16) (-9374160293920069,16) (3009830448401902,16) (5537847611092972,16) (7033766546711732,16) (-4456273331234383,16) (-9629862360459402,16) (-2340393747208336,16) (-1337276346397924,16) (6207284312286537,16) (-6620031912057501,16) (-4200571264695048,16) (517358902922502,15) (-413734634654231,16) (8547678059494873,16), (6783011755597185,18));
  (AB60 (-1027365522794018,16) (-9307423602590639,16) (3509470895236612,16) (5457655014745764,16) (6569354116562957,16) (-5201690901160675,16) (-9602072721938884,16) (-2738069486027682,16) (-5506132329333334,17) (6229056423954693,16) (-6092601826702272,16) (-490704178181243,15) (4400381820778209,16) (-4767522898606849,17) (8967125909982375,16), (6939991159278111,18));
  (AB60 (-2784359214128605,17) (-9172112365185119,16) (3974270775637365,16) (5347217958371651,16) (603943278477966,15) (-5910373232190698,16) (-9493571597131059,16) (-3132679580405458,16) (2416960418731067,17) (6188809153603558,16) (-5519300821493693,16) (-5588914000244758,16) (3583198364940361,16) (-5201319632859672,17) (9321488734009016,16), (6993515529385133,18));
  (AB60 (-4247756471610928,16) (-8892135051049536,16) (1698970038518557,16) (5031774415622996,16) (8407585313860265,16) (-1998438245341355,16) (-9356002329529435,16) (-4845497371892706,17) (-3497203448761539,16) (6246194716952282,16) (-7657032291010878,16) (-1534570966861457,16) (735756408418808,15) (-750553022849388,16) (6730744454141553,16), (625667824606805,17));
  (AB60 (-368565688296196,15) (-9019827165550007,16) (2249144558422437,16) (5033690571773307,16) (8186696527884696,16) (-2764047609568473,16) (-9560696354736229,16) (-8331306376653114,17) (-2810512151391056,16) (6449704492530433,16) (-7311551796313791,16) (-2223178420382251,16) (6796648745167756,16) (-8751447315709039,17) (7282835130195744,16), (6222955717426541,18));
  (AB60 (-3122299522382935,16) (-9074683416528206,16) (2810936958082705,16) (4971261009557368,16) (7931962373564855,16) (-3517177402293785,16) (-971188519553029,15) (-1142721042963352,16) (-2091285386265666,16) (663947692467672,15) (-6900948237447585,16) (-2879975623291702,16) (6194707793236505,16) (-103101413611727,15) (7782197967640072,16), (6286006002530585,18));
  (AB60 (-2493462706353927,16) (-9087199747702591,16) (3347453431696416,16) (490744996021941,15) (7595273576404702,16) (-4269514514264009,16) (-9795948094122852,16) (-149192617129789,15) (-1346683792375662,16) (6762977220617936,16) (-6448494662426436,16) (-3560766167843749,16) (5526433579858843,16) (-1146778913978266,16) (8254903391915825,16), (6569009228948927,18));
  (AB60 (-1801413288431059,16) (-904878052414017,15) (385674489566079,15) (483557745454999,15) (7173563942031688,16) (-5015692479671239,16) (-9805656990246893,16) (-1875216582108482,16) (-576761440985474,16) (6817105768102298,16) (-5948912094586103,16) (-4258816013564516,16) (4789964510575653,16) (-1224651847445585,16) (869232235021078,15), (6801002603881513,18));
  (AB60 (-1073093519626095,16) (-8946929757359577,16) (4336002561693221,16) (4738612806218123,16) (6681514251827437,16) (-5736106342753109,16) (-9737823636147523,16) (-226541550553214,15) (2065996577470403,17) (6809199862379204,16) (-5401821074454302,16) (-4945212463965163,16) (4001717293394414,16) (-1279693177373135,16) (9074615367911344,16), (6918822544910887,18));
  (AB60 (-3297425679851727,17) (-8778486329169133,16) (4778017120882804,16) (461104000746832,15) (6132498995620651,16) (-641332722681747,15) (-9592849242903634,16) (-2645987333548481,16) (9879243056146488,17) (6743069794802643,16) (-481483212202083,15) (-5598964313082969,16) (3179522016086164,16) (-1317666873599821,16) (9389057128351124,16), (692214795655537,17));
  (AB60 (-3850332824858476,16) (-8701649766895093,16) (3075098123981074,16) (4312415201645426,16) (8416067152438422,16) (-3251597886311354,16) (-9767149879388434,16) (-2855826144566708,17) (-2126317427827413,16) (7101930711169829,16) (-669205175540736,15) (-2186097773818013,16) (651555199307708,15) (-1724015397031062,16) (73875133256265,14), (6367447253539886,18));
  (AB60 (-3242825701795541,16) (-8735314102569761,16) (3630202335575817,16) (4249828140743483,16) (8112952368545892,16) (-401484304049989,15) (-9884206979620674,16) (-6223617340238693,17) (-1383877977294508,16) (725766874229543,15) (-6254004644044858,16) (-2865950163448975,16) (5869363939120785,16) (-1858947724501033,16) (78800304763193,14), (6500269791475659,18));
  (AB60 (-2577248938842907,16) (-8723272628767161,16) (4154792720634179,16) (4183465722084108,16) (7730576063423576,16) (-4768312938531796,16) (-9931085884392803,16) (-992696565343585,16) (-6229660391779541,17) (7345561877374702,16) (-5776293163758623,16) (-3560499682906154,16) (5162772945861007,16) (-1954282899664953,16) (8338258442718287,16), (6683856967189496,18));
  (AB60 (-1870722894031518,16) (-8653103444027644,16) (4650182430905616,16) (409733135882792,15) (7276983733145244,16) (-5500671184819618,16) (-9903684121777582,16) (-1376119710882401,16) (1527591482417603,17) (7371394078851136,16) (-5253501690871966,16) (-425009050706968,15) (4403012936957964,16) (-2023482042273278,16) (8747513789733536,16), (6814464597663278,18));
  (AB60 (-1143283821062523,16) (-8518698173653674,16) (5111231116931247,16) (3982861903868779,16) (6763742404770144,16) (-6195853430853974,16) (-9800681281004519,16) (-175495576888353,15) (9310084196343493,17) (7339137251916497,16) (-4689450164073272,16) (-4913870323503128,16) (3604827850150545,16) (-2074292240696873,16) (9094093020800026,16), (6854722793419039,18));
  (AB60 (-4113184055267837,17) (-8323306964852474,16) (5527511043689846,16) (3842836884713109,16) (6202511911691976,16) (-6838234469715673,16) (-9624556683216919,16) (-2120795053160498,16) (1694147866638118,16) (7249552875242456,16) (-4097045639527074,16) (-5536984751351227,16) (2786322213501247,16) (-2105466272164902,16) (9370347928402954,16), (6770564603908908,18));
  (AB60 (-3372257573377416,16) (-833169479585848,15) (4383005896352796,16) (3506894834035178,16) (8248484392619805,16) (-4434432753771882,16) (-997407052955446,15) (-8321040323867573,18) (-7148378139592755,17) (7806690327149298,16) (-5591064633201663,16) (-2792057020075903,16) (5539637775782578,16) (-2657419759418141,16) (7889900730387974,16), (6676686636854225,18));
  (AB60 (-2683230044668857,16) (-8294839606780209,16) (4898562281443069,16) (3432221383157935,16) (7831937502314681,16) (-518465151546662,15) (-9989111031841256,16) (-4629021044655274,17) (5815870724763774,18) (7867881560135476,16) (-5090548750398186,16) (-3490380090405572,16) (4804459516374636,16) (-2741388751916494,16) (8330783664601004,16), (6741743241063217,18));
  (AB60 (-1971759932448856,16) (-8195511144252161,16) (5380126378927165,16) (3330937275871392,16) (7355493349278245,16) (-5899285927375786,16) (-9929678310707146,16) (-8400177949739158,17) (8341814850494077,17) (7871045859824641,16) (-4549551931779982,16) (-41651187609208,14) (4030392383331361,16) (-2805941417498263,16) (8711063654798556,16), (6756248289006876,18));
  (AB60 (-1255552521482363,16) (-8033891015956051,16) (5820668605026397,16) (3201232993883092,16) (6831394352765447,16) (-6563852414236524,16) (-9797875731846222,16) (-1202496663190603,16) (1598634704463261,16) (7819404935718887,16) (-3977207126819824,16) (-4799867698346353,16) (3234023317609698,16) (-2854187225945624,16) (9021901598909489,16), (66947352566988,16));
  (AB60 (-5449221328710702,17) (-7823270095736738,16) (6204796924820225,16) (3058369796958028,16) (6269874010386971,16) (-7164848503557414,16) (-959994712111466,15) (-1553396085349768,16) (2329801681221466,16) (7709770636428485,16) (-3395150196294435,16) (-5388171478179493,16) (2435098617557246,16) (-2874723814092536,16) (9263166721778252,16), (6498012197846886,18));
  (AB60 (-2090158022222211,16) (-7680538621225094,16) (6053145127122749,16) (2541219357167061,16) (7401767385218275,16) (-622543522606078,15) (-9886153183881394,16) (-2787712360068176,17) (1478601306237418,16) (8315593248282992,16) (-3833008056758646,16) (-4019820663404479,16) (3660717957820614,16) (-356875932845963,15) (8594364484289809,16), (658040437139298,17));
  (AB60 (-139754508052514,15) (-7497050105990494,16) (646847025626368,15) (2399140635007598,16) (6878030010339538,16) (-6851045715095181,16) (-9731341251846022,16) (-6190200956509562,17) (2217613934232054,16) (8248590795620321,16) (-3262870995582343,16) (-4616754569239652,16) (2880295536750841,16) (-3615159014757194,16) (8867610891271277,16), (6464957995909643,18));
  (AB60 (-701697725849848,16) (-7283576288802315,16) (6815947237672387,16) (2267726856429433,16) (6315717058731684,16) (-7414117138181342,16) (-9517347138505532,16) (-967859230070631,16) (2912619432048691,16) (811581486403119,15) (-2701399900833145,16) (-5180346288478124,16) (2103230000324191,16) (-3614317157898539,16) (908367409410182,15), (6292876428056755,18));
  (AB60 (-150953329720473,15) (-6900225332655633,16) (7078714543136182,16) (1576570845155731,16) (6858793849499463,16) (-7104320607931013,16) (-9588228273114132,16) (-4143148315616978,18) (2839746822316783,16) (8613853905135743,16) (-2509513729977951,16) (-4416317667472514,16) (2483907665183119,16) (-4349280119521512,16) (8655285388291912,16), (6344050304551229,18));
  (AB60 (-7971671976237082,17) (-6693260934381764,16) (7386797853150695,16) (1475224705701462,16) (6274198348062656,16) (-764579277490934,15) (-9354698981700112,16) (-4190625863191081,17) (350913002188953,15) (8442959972533048,16) (-1967901128549418,16) (-4984354727590992,16) (1708906206790772,16) (-4306297219513238,16) (8862022558852156,16), (6245613438540775,18));
  (AB60 (-802839144123977,16) (-6055658069444425,16) (7917351492426927,16) (6923636048071148,17) (6123935707667721,16) (-7875153591333361,16) (-9105896975801536,16) (6827763822329616,18) (4132551080169136,16) (8677992735457338,16) (-1188545483374608,16) (-4824914684976251,16) (1230743384468174,16) (-4935390224293113,16) (8609715097234043,16), (6065145902876878,18))].

(** ahrens_beylkin/ahrens_beylkin_1992.hpp:1-4002. *)
Definition ab_1992 : coded := [  (AB12 (5257311121191336,16) (8506508083520399,16), (481987505892042,17));
  (AB60 (-950560430222956,16) (-9401755500617125,16) (3271609447215541,16) (567663592623037,15) (6480880210686525,16) (-5076809653292356,16) (-9535724027684421,16) (-29208752899306,14) (-733794800005311,16) (6027370083515311,16) (-626411458046888,15) (-4942841126225059,16) (4458914374392066,16) (-2167656302176451,17) (8948245373445911,16), (6516621450023742,18));
  (AB60 (-3725231720753452,17) (-9209303326216638,16) (3879427629432221,16) (5395653091577135,16) (6104838306058008,16) (-5798092528775382,16) (-9505312702948845,16) (-3104465020158629,16) (1064300604660383,17) (6170615700850727,16) (-5625885073516624,16) (-5502083152043173,16) (3707220174173464,16) (-4789532325413836,17) (9275080721009356,16), (6538990797020213,18));
  (AB60 (-2326990449417134,16) (-9324470677439491,16) (2763939585789195,16) (5442605854086739,16) (7398914461480919,16) (-3953998774500226,16) (-9644704629112116,16) (-1925556215958573,16) (-1808841031259137,16) (628098922391736,15) (-6880765043322921,16) (-3633764822827602,16) (5690705854611889,16) (-5181494181579972,17) (8206545439875934,16), (6405651761990391,18));
  (AB60 (-1795832658261139,16) (-9228034878206909,16) (340857115960919,15) (5206408650893313,16) (7120182993545814,16) (-4711295267580269,16) (-9724865431414962,16) (-2107851884661095,16) (-9919439365210964,17) (6507127925841408,16) (-6316294271805771,16) (-4214464714372217,16) (5013570163834692,16) (-8038887217400423,17) (8614979810502503,16), (6473383129637641,18));
  (AB60 (-1230595865165567,16) (-9071436511147903,16) (4024260607968892,16) (4946540961383889,16) (6774856141356482,16) (-5443625334395793,16) (-9731351640440183,16) (-2296580369791421,16) (-1628307562803762,17) (667422119956136,15) (-5707091032471292,16) (-4783710205103512,16) (4287726306044391,16) (-1067765108885191,16) (8970801569352781,16), (6504343297508322,18));
  (AB60 (-6484357317268602,17) (-885040162205073,15) (4609763793321917,16) (4654865761758128,16) (6374291689943143,16) (-6140083891245599,16) (-9665384876807153,16) (-2476109932107586,16) (6702348747310473,17) (6788519622972459,16) (-5055621083485237,16) (-5325100636489176,16) (3525300985561554,16) (-1318670606457908,16) (9264629555080045,16), (6491176210938476,18));
  (AB60 (-6102619366128734,18) (-8563712651518576,16) (5163245241697115,16) (4327708318230358,16) (5926758079343277,16) (-6792972794090887,16) (-9528669821814182,16) (-2636954572175298,16) (1500307305564924,16) (6853998987752175,16) (-4365424580117067,16) (-5828015623795281,16) (2735697027723294,16) (-1561333499226211,16) (9490953559927473,16), (6443790615608163,18));
  (AB60 (-3969844142611955,16) (-9066772301232654,16) (1426175838026252,16) (5395335651725204,16) (8185770097926285,16) (-1970665143833133,16) (-9275010099925329,16) (-8810022033063686,17) (-3632908306584747,16) (5940509286445088,16) (-7848834261899077,16) (-1762427345140457,16) (7304344956092197,16) (-3369358360272079,17) (6821511489751456,16), (6275840319930752,18));
  (AB60 (-3597028852922318,16) (-908006659422488,15) (214796975669718,15) (5160400261625568,16) (8113849926606468,16) (-2745124497782018,16) (-9531456107942787,16) (-9662166676184117,17) (-2866665277561457,16) (6342153350704337,16) (-7383486351245607,16) (-2293734984064111,16) (6786331610160768,16) (-730363575360861,16) (7308370018322748,16), (6330339159923298,18));
  (AB60 (-3149277670116851,16) (-9055883985914003,16) (284130522650589,15) (4932531110367774,16) (7953772749283753,16) (-3522447430126562,16) (-9720196977016957,16) (-110211123663025,15) (-2074396671344166,16) (6671725100243414,16) (-6878891750511067,16) (-2858134439023609,16) (6197749546890394,16) (-1074880998772686,16) (7773836336873664,16), (6386141169476371,18));
  (AB60 (-2641075377031411,16) (-8986935462775963,16) (3501387130943701,16) (4703752776336859,16) (7712130722178958,16) (-4289259789652143,16) (-9837414257136415,16) (-1274804740597006,16) (-1264971781045168,16) (6930335166683554,16) (-6336027126192715,16) (-3438780995291691,16) (5548154467484272,16) (-1376103595986243,16) (820513990728056,15), (6427131571241499,18));
  (AB60 (-209347896339563,15) (-8864655831201773,16) (4127374810234753,16) (4461049234554135,16) (7401416932872011,16) (-5031706183063498,16) (-9882265198900284,16) (-1463238898329761,16) (-4469524191891486,17) (7125185146459128,16) (-5754890388665531,16) (-4014096815364986,16) (4850559015836787,16) (-1646526544206481,16) (8588424044788888,16), (6443055017962346,18));
  (AB60 (-1524656770659344,16) (-8682568688606823,16) (4721061607234861,16) (4192669967570726,16) (7033645850482323,16) (-5740151966021743,16) (-9856021280250715,16) (-16489228381245,14) (3740294068071243,17) (7264808736681088,16) (-5134959673015854,16) (-4566699374377851,16) (4115869314228973,16) (-1898686177466469,16) (8913731574805587,16), (642689904657579,17));
  (AB60 (-9460413926623483,17) (-843951324007615,15) (5280115714068098,16) (3895308910725123,16) (661676567199731,15) (-6406635664052033,16) (-9760110360222838,16) (-1822747568078839,16) (1190729633180222,16) (7352677056714382,16) (-447999464615474,15) (-5086038543905345,16) (3353474696170805,16) (-213677102584257,15) (9175424624793221,16), (6372740808722397,18));
  (AB60 (-3682554361524394,17) (-8134466174019519,16) (5804726349921797,16) (3564761011946989,16) (6158917082949934,16) (-7025682834646761,16) (-9597081737952909,16) (-1975549091069585,16) (1998306258766382,16) (7393938270799201,16) (-3792355388031113,16) (-5563067270713371,16) (2571398903306148,16) (-2366561694918821,16) (9369487361868786,16), (6316770350475483,18));
  (AB60 (1936533882346409,17) (-7759130959686733,16) (6305425054320769,16) (3184398468789771,16) (5671380096285946,16) (-7595726047944394,16) (-9370139147144954,16) (-2087750863400787,16) (2800319391696403,16) (7402072659709753,16) (-3064714092824184,16) (-5984717860486174,16) (1774413099200559,16) (-2606666003461762,16) (9489823523110541,16), (6315352208814552,18));
  (AB60 (-4998981893490974,16) (-8633432116475459,16) (6884983070127784,17) (5095573788843364,16) (857373504210991,15) (-7253931279996181,17) (-8873612815178871,16) (-5969707436554967,18) (-4610361359547157,16) (5724375021490592,16) (-8185114508166093,16) (-4852124292962068,17) (8148219687179252,16) (-3886205339438174,17) (5784072095856142,16), (5783405307060712,18));
  (AB60 (-4721094598914792,16) (-8699866581554283,16) (1422528471157107,16) (4868177214577095,16) (8608964525920743,16) (-1478709031185868,16) (-9208502611967094,16) (-9090205563354067,18) (-3898104213804038,16) (619980363010066,15) (-7785974140809988,16) (-9700730007730569,17) (7729793580781226,16) (-8229903851107542,17) (62907056857342,14), (6132711764924232,18));
  (AB60 (-4379331789904927,16) (-8728120272195025,16) (2154383807037724,16) (4630717778548326,16) (8572755186917909,16) (-2250404710404008,16) (-9491677479760208,16) (-1553650852771159,17) (-3143870275709502,16) (6629736500308934,16) (-7337293672722484,16) (-1486847502838824,16) (7241272769356201,16) (-1235461514195425,16) (678510158558605,15), (6282518667574853,18));
  (AB60 (-3962027113096452,16) (-872413229883348,15) (286214199290305,15) (4402566584359023,16) (8451863932207304,16) (-3030413097539444,16) (-9713375997504303,16) (-272268366626176,16) (-2361397185490401,16) (6992440210635896,16) (-6851234004601253,16) (-2041169398868621,16) (6682962899964859,16) (-1600629927606051,16) (7264708577262072,16), (6343333252874759,18));
  (AB60 (-3482324537995183,16) (-8681336657594464,16) (353663818471486,15) (4178932335357297,16) (8250809361996478,16) (-3802718686478988,16) (-9867765444410954,16) (-4305272955979859,17) (-1562642435694799,16) (728504322447417,15) (-6331127259696094,16) (-2616289899662498,16) (6065046757931966,16) (-1919682102300384,16) (7715570520072157,16), (6352708854631482,18));
  (AB60 (-2960458755234924,16) (-8591235594767459,16) (4174488581102301,16) (3948379241780989,16) (7980667155899658,16) (-4551840628780565,16) (-9952531955910678,16) (-6105684388678018,17) (-7578349741436433,17) (7512299384015488,16) (-5778043374808377,16) (-3190544267637346,16) (5400691327130114,16) (-220262378109128,15) (8122867822883291,16), (6338355584789107,18));
  (AB60 (-2413282017259977,16) (-8448531374358722,16) (4774765703324713,16) (3701877452150993,16) (7652135597848122,16) (-5266965361705128,16) (-9968133466581282,16) (-7963957765105996,17) (4548581733157616,18) (7680247378965106,16) (-5193367763256569,16) (-3747363269482569,16) (4701168104876153,16) (-2458767834591553,16) (8476643155475705,16), (6298568582689613,18));
  (AB60 (-1853423743837284,16) (-8249844825003427,16) (5338996234232082,16) (3432027112644186,16) (7274214288325677,16) (-5941969066361232,16) (-9916502216123788,16) (-9756305366777512,17) (8432845625966859,17) (7795392810198517,16) (-4577505981891707,16) (-4275311675240873,16) (3974533149762555,16) (-269670830643397,15) (8771023346876268,16), (6236442020260363,18));
  (AB60 (-1288772475959434,16) (-7995066619759109,16) (5866683496731611,16) (3136550421225037,16) (6853077045922524,16) (-6572471868160629,16) (-9799739111864934,16) (-1141989573836586,16) (1631248954829767,16) (7861244344120062,16) (-3933055615133323,16) (-4767799376054804,16) (3227267243704306,16) (-29200214307892,14) (9003233917956648,16), (6181899920937824,18));
  (AB60 (-7279480096955426,17) (-7678685318155726,16) (6364580385219437,16) (2804948418218322,16) (6395028471041231,16) (-7157923946627722,16) (-9619425415472442,16) (-1283656847114495,16) (2412235431092683,16) (7885871956323265,16) (-3254845030253006,16) (-5217183849311006,16) (246150146884472,15) (-3140183440788226,16) (9169528803437759,16), (6205235593793122,18));
  (AB60 (-1828662606971054,17) (-7287846648663765,16) (6844987301395014,16) (2416989358216781,16) (590708263934541,15) (-7698346389596333,16) (-9374994224118205,16) (-1380764009318356,16) (3194209455925113,16) (7881212650293439,16) (-2530006922723191,16) (-5611198814141894,16) (1676647834521871,16) (-3377075716622218,16) (9261976659611795,16), (6274293365795414,18));
  (AB60 (-2819383840200307,16) (-8008169802042813,16) (5283965479000307,16) (2965525203904745,16) (791784947211121,15) (-5339786512773141,16) (-9991965723481043,16) (-9032032993160265,18) (3904653874301657,17) (8159170352973449,16) (-4708000244480737,16) (-3355990591334911,16) (4652179210707902,16) (-3209849227630473,16) (8249490682905052,16), (6148541274466786,18));
  (AB60 (-226545227984005,15) (-7802149645005799,16) (5830453403012787,16) (2696781699543717,16) (7535573403281165,16) (-599520658099182,15) (-9927361611388593,16) (-2665762417246342,17) (1173212915065309,16) (826065886083187,15) (-4096908208375806,16) (-3869994614609025,16) (3932155030396774,16) (-3438665194905359,16) (8527235102556504,16), (6181418581174962,18));
  (AB60 (-1699341478450626,16) (-7535690948708718,16) (6350244126422758,16) (2396254582563952,16) (7104974963161489,16) (-6616441244988854,16) (-9796749501161695,16) (-4307159855472294,17) (1959128109971927,16) (8315782723439481,16) (-3446505374738936,16) (-4355382692535878,16) (318030825617284,15) (-3658469588422553,16) (8746498708986711,16), (6253986753515741,18));
  (AB60 (-1135186008897792,16) (-7199491317948664,16) (6846800529297207,16) (2050318793900666,16) (6633908152597539,16) (-7196350148948955,16) (-9598702860250049,16) (-5655831653511263,17) (2746819812746903,16) (8331536157846746,16) (-2751902330952842,16) (-479713860664757,15) (2402352711301095,16) (-3882005821644696,16) (8897119323197873,16), (6322397871746128,18));
  (AB60 (-5942429938246985,17) (-6786920732029268,16) (7320149058690101,16) (1647028498462208,16) (6136263507300077,16) (-7722277338598419,16) (-9334439924912465,16) (-6506572247291907,17) (3527729647253014,16) (8316520332423117,16) (-2014290866222365,16) (-5174758145715221,16) (1612162586314047,16) (-4121972641077712,16) (8967177557152308,16), (6304675989403303,18));
  (AB60 (-8853437438222665,18) (-630753763167976,15) (7759325401701905,16) (1195883809567019,16) (5623158043312559,16) (-8182295248519497,16) (-9009926463809849,16) (-6843795883672006,17) (428402260682239,15) (8270829622901724,16) (-1250601062107944,16) (-547990641638941,15) (8276312152903513,17) (-4372556981204616,16) (8955209211268924,16), (6166814926047627,18))].

(** ahrens_beylkin/ahrens_beylkin_2112.hpp:1-4242. *)
Definition ab_2112 : coded := [  (AB12 (5257311121191336,16) (8506508083520399,16), (5073264874424375,18));
  (AB60 (-4537318375166702,17) (-9398464610960644,16) (3385703822862262,16) (5770454831185936,16) (6112549092104946,16) (-5416511297675829,16) (-9436580351411444,16) (-3285915518855698,16) (-3920592739609065,17) (5870243135192499,16) (-6050876528549183,16) (-5378395557225029,16) (4020069053735615,16) (-6167256355576357,18) (9156158654048198,16), (6321452597168446,18));
  (AB60 (-1787201342090009,16) (-943369026896739,15) (2794888060731887,16) (5682296129822716,16) (702638930074602,15) (-4282681880243224,16) (-9581735364705658,16) (-240730096822137,15) (-154765934531776,15) (6069883222333233,16) (-678684730397377,15) (-4134636784504956,16) (5299053484462433,16) (-2395419967722496,17) (8477184190554604,16), (6221996213786371,18));
  (AB60 (-1304414949204646,16) (-9291185693782781,16) (3460111276236306,16) (5383585099024534,16) (677011989530009,15) (-5018215627573501,16) (-9649869149302778,16) (-2521065798482691,16) (-7240529269710294,17) (6322630576778148,16) (-6189757873066473,16) (-4659532172053504,16) (4631653521729276,16) (-5803620222336171,17) (8843696375260839,16), (6294166118949854,18));
  (AB60 (-7954519315942853,17) (-9086048675280192,16) (4100118985463957,16) (5054900132216663,16) (6453564913975982,16) (-5727083424782124,16) (-9646635447822645,16) (-263248376130421,15) (1115965200230093,17) (652253535637641,15) (-5546516462358687,16) (-5166496652239672,16) (391955202304052,15) (-9070484516172946,17) (9155019117680619,16), (6305913343890246,18));
  (AB60 (-2760874871235851,17) (-8815634949494774,16) (4712574257950749,16) (4690395635916167,16) (6087442476725331,16) (-6398689933973887,16) (-957360134477784,15) (-2728192472769444,16) (9503279027746538,17) (6674777421097472,16) (-4861027086827092,16) (-5640723538690821,16) (3174911410803953,16) (-1226415389898239,16) (9402969893866916,16), (6273257353724008,18));
  (AB60 (-3021684558817214,16) (-9297400956513889,16) (2104223819088701,16) (5535891587478393,16) (77435355580474,14) (-306456544928339,15) (-9507619167196862,16) (-1553865398466489,16) (-2681544348877977,16) (6086250008100604,16) (-7403395348108163,16) (-2854347238600416,16) (6443053717913473,16) (-3401402099392376,17) (7640115406567094,16), (603640102395201,17));
  (AB60 (-2621636150160947,16) (-9231189083792828,16) (2812858331916738,16) (5251629557651085,16) (7605763767775771,16) (-3817426423389819,16) (-9684748136502712,16) (-1625425316017058,16) (-188776218697115,15) (6439062573550766,16) (-6871889804585973,16) (-3363867370679935,16) (5867321713112893,16) (-733873963189797,16) (8064487889567824,16), (6204167593803319,18));
  (AB60 (-2157604397626882,16) (-9118216432389272,16) (3493260991601885,16) (4963425130386054,16) (7384123853204968,16) (-4564989145176754,16) (-9790158973997596,16) (-1734092579184304,16) (-1070378526817624,16) (6722593542803635,16) (-6296897982395711,16) (-389304660356843,15) (5225169828820843,16) (-1087225870809258,16) (845668612198794,15), (6270340620784951,18));
  (AB60 (-1660326712816908,16) (-8948288153606883,16) (4143845355068808,16) (4654325338822466,16) (7097895240464962,16) (-5287451067932447,16) (-982430903484151,15) (-185039291314192,15) (-2428951521246465,17) (6947777780749355,16) (-56804636797727,14) (-4411430186697819,16) (4536857966909063,16) (-1417431560692262,16) (8798170693891274,16), (6275373040676268,18));
  (AB60 (-1147249591861202,16) (-8717907268180034,16) (4762553016753518,16) (4317139006290926,16) (6758807869483963,16) (-5973343032487172,16) (-9788731264394113,16) (-1959099398696071,16) (5853800299821662,17) (7120592624348374,16) (-5026178247640595,16) (-4902519036273093,16) (3815388231906941,16) (-1732629621843368,16) (9079692023044446,16), (622941124902254,17));
  (AB60 (-631419169221502,16) (-842623810092769,15) (5347880075246092,16) (3947910530813584,16) (6376533716068365,16) (-661466705197885,15) (-9686029113786785,16) (-2049704384859324,16) (1406965508306171,16) (7246086221200352,16) (-4338149038540693,16) (-5354876039119754,16) (3071362061807936,16) (-2038384677527673,16) (9295790606059676,16), (6143872813288053,18));
  (AB60 (-1281756139148842,17) (-8070083424817562,16) (5904009191090609,16) (3537221598191541,16) (5963177137323249,16) (-7206148887872952,16) (-9520447675210432,16) (-2106906287494313,16) (2218563039288541,16) (7334324501787836,16) (-3616438484119823,16) (-5755784637480083,16) (231429878733748,15) (-2346738653203426,16) (944123078928215,15), (6057560796875316,18));
  (AB60 (-4032590040954037,16) (-9054483197703789,16) (1324594875461209,16) (5416794490492215,16) (8198997800510356,16) (-1853313927805954,16) (-9233667073957349,16) (-8554853971934323,17) (-3742664438939821,16) (5885903968759991,16) (-790907219849614,15) (-1674130051552394,16) (7380353146151395,16) (-2899256020142164,17) (6741389365953424,16), (556108543006747,17));
  (AB60 (-3790278722612882,16) (-9020258190295303,16) (2066090362331369,16) (5093236449727876,16) (8214986029033926,16) (-2563775928184986,16) (-950184788946954,15) (-8052721612613768,17) (-3011050220717128,16) (6354054650797868,16) (-7435757527138173,16) (-2082186229010748,16) (6938071961284554,16) (-779228501895754,16) (7159326812059245,16), (5915642612287535,18));
  (AB60 (-3433537350313892,16) (-8967448833782984,16) (279207497705267,15) (4797759622123782,16) (8124313101594873,16) (-331316151667445,15) (-9711877383312691,16) (-8431357321881101,17) (-222902665497904,15) (6746698866988342,16) (-6919802406260022,16) (-2568732967144743,16) (639871586663824,15) (-1204510695334852,16) (7589834599176453,16), (6153104024485706,18));
  (AB60 (-2996936701433384,16) (-8879684148565636,16) (3488492486635705,16) (4513464765744669,16) (7942418259928176,16) (-406775466230953,15) (-9854165995998201,16) (-9372658886374609,17) (-1420191950867704,16) (7064691363742913,16) (-6365673509362496,16) (-3093272814876965,16) (5786411333688671,16) (-1576744750565679,16) (8001957252380374,16), (6212375465245248,18));
  (AB60 (-2519604077319766,16) (-8742407088306421,16) (4149929348300194,16) (4219190753045582,16) (769200475588142,15) (-479911369160101,15) (-992632105932221,15) (-1050402332425001,16) (-6039910324603617,17) (7318717768920775,16) (-5776391711022015,16) (-3615199720585221,16) (5127207367721199,16) (-1915613044859404,16) (8369120101345776,16), (6197269845937861,18));
  (AB60 (-2022077272156763,16) (-8550891849314992,16) (477424885052565,15) (3905836156859451,16) (7386664831959137,16) (-5493780717872483,16) (-9929797489456652,16) (-1164227017355855,16) (2090389208713728,17) (7515857990029245,16) (-5155548638931001,16) (-4114875077730824,16) (4436016771584169,16) (-2231116193028136,16) (8680085007385101,16), (6124349281635496,18));
  (AB60 (-1518074892494701,16) (-8304832810888393,16) (535958959286705,15) (3569845142503065,16) (7036769059277355,16) (-6143296091264376,16) (-9867656616399683,16) (-1268063751611038,16) (1010627143250021,16) (7661370983759077,16) (-4508067023532633,16) (-4580472285753086,16) (3724360525135307,16) (-2528702035744722,16) (8929434735370115,16), (6005210082185053,18));
  (AB60 (-1019416851465309,16) (-8004525468798319,16) (5906637055237745,16) (3207461477091079,16) (6652239521260054,16) (-6742395733325249,16) (-9744132795238787,16) (-1352285947538265,16) (1795326929793702,16) (7761812584790558,16) (-3837495740001043,16) (-5002788406884781,16) (3001737061913538,16) (-2814743781259011,16) (9114098532328823,16), (587148186503721,17));
  (AB60 (-5420847083832352,17) (-7644025808655073,16) (6424563300766226,16) (2804351746978334,16) (6245867887174732,16) (-7288672417880984,16) (-9563941822306974,16) (-1398157921480341,16) (2564404657250748,16) (7830757126264218,16) (-3139378521540748,16) (-5368756404229083,16) (2275269404425991,16) (-3106489365633983,16) (9228915047744559,16), (577886063764075,17));
  (AB60 (-1133312944154449,17) (-7210107224970371,16) (6928312191445777,16) (2333921884574851,16) (583770676515367,15) (-7776502321788482,16) (-9332276667958394,16) (-1372400459816701,16) (3320410994225608,16) (7889833616203927,16) (-2403964476512617,16) (-5654332878800459,16) (1555774346169912,16) (-3433742288641053,16) (9262234076020628,16), (5731219530147436,18));
  (AB60 (-4930420062910065,16) (-8675091883360349,16) (6585885046896296,17) (5165418920211469,16) (8529854602230694,16) (-7483500808613797,17) (-8871174602593913,16) (-1452372811296542,17) (-4613151558583654,16) (5678770143771444,16) (-8212586097904283,16) (-5522673616278149,17) (8122824521732533,16) (-3172685043264106,17) (5824007424901099,16), (572682661673886,17));
  (AB60 (-4684887512227217,16) (-8724974620230537,16) (1388037057902448,16) (4916924356292204,16) (8581567963956116,16) (-1476667245693013,16) (-920038113022101,15) (-1434066562744209,17) (-3915663620589664,16) (616155475792023,15) (-7812344072318562,16) (-1001260735702539,16) (7723713884527997,16) (-7692238916375531,17) (6304961414194651,16), (5589981960523957,18));
  (AB60 (-447322653056282,15) (-8691863406274211,16) (2107547136587977,16) (4595788622534769,16) (8616115867703256,16) (-2154361689988971,16) (-946794179438834,15) (-7574753857095501,18) (-3217505320659927,16) (6627588220551792,16) (-7360394657800363,16) (-1378283301874842,16) (7313580104399369,16) (-1255721209902893,16) (6703335759122747,16), (5438031431409454,18));
  (AB60 (-417818329101212,15) (-8643076651562462,16) (2800001853914199,16) (4301265325306057,16) (8567007770964329,16) (-2847015007610003,16) (-9683526464292639,16) (-760688805981333,17) (-2494700130426231,16) (7025198298622123,16) (-688352461037844,15) (-1806565194879826,16) (6836511456682636,16) (-1683483160585889,16) (7101267179220255,16), (574145138594847,17));
  (AB60 (-3789610486460175,16) (-8575352374369952,16) (3478819342291103,16) (402714209009559,15) (8428549769920997,16) (-3569548341477564,16) (-9848069517142105,16) (-1468026044489549,17) (-1730310891390179,16) (7359158827937738,16) (-6369250174851001,16) (-2296831198705411,16) (6278521175664541,16) (-2059299595069996,16) (7505961432386694,16), (5923465240430554,18));
  (AB60 (-3351136859407503,16) (-8467888621836798,16) (4130949532212578,16) (3749632795400725,16) (8221604589014284,16) (-4283161435383286,16) (-9951698807679719,16) (-2462840328225138,17) (-9502815458603596,17) (763429829479079,15) (-582074927546714,15) (-2799351249540366,16) (5668537372296432,16) (-2400855313547144,16) (7880582327613304,16), (592999223513539,17));
  (AB60 (-2887957337013526,16) (-8315112312130069,16) (4745377714813931,16) (3461950417075625,16) (7960365079344451,16) (-4964623562090414,16) (-999218392422355,15) (-3547472327856171,17) (-1743984670786931,17) (7852580899103939,16) (-5246806209409619,16) (-3287551949996932,16) (5027560362133137,16) (-2713558869934833,16) (8207328131889556,16), (5845944470108251,18));
  (AB60 (-2413637488335463,16) (-8116060992474676,16) (5320141731320007,16) (316010540247949,15) (765471845002243,15) (-5605267103011787,16) (-9971957138111741,16) (-461342542452247,16) (5892655548952321,17) (801890459134725,15) (-4651815406791734,16) (-3749370957374722,16) (4366690035099954,16) (-3002903043230695,16) (8480247133799497,16), (5746901026498165,18));
  (AB60 (-193391756741557,15) (-7868687678912789,16) (5860351273956835,16) (2838113024639119,16) (7309864153875385,16) (-6205723206142979,16) (-9893691086699293,16) (-5588235250374046,17) (1342606773717357,16) (813964077355855,15) (-4033339812742457,16) (-4180719798356475,16) (3687967880556314,16) (-3276524341132927,16) (8698464298595955,16), (5696456107067738,18));
  (AB60 (-1454296440756213,16) (-7567484290669192,16) (637324119839182,15) (2486200481568241,16) (6929732520319,13) (-6767393468853656,16) (-9758246310065399,16) (-6377517703501918,17) (2090430967889207,16) (8221689909609871,16) (-3385005111673579,16) (-4576631449457449,16) (2990852841211743,16) (-3544727408645421,16) (8859441679960062,16), (5674079406931575,18));
  (AB60 (-9970653195930446,17) (-7201483063463306,16) (6866185435532307,16) (2084919337022881,16) (6529152305893547,16) (-7281708695392384,16) (-9567325029067465,16) (-6723307575697592,17) (2830947392765344,16) (8278774014985428,16) (-2701139593535158,16) (-4915866729788225,16) (2285616333675082,16) (-3828012712358388,16) (8951104772555187,16), (5619416869961431,18));
  (AB60 (-5992262423314763,17) (-6757155899986159,16) (734722886902154,15) (1607868429863109,16) (6133780745604565,16) (-7732495902171578,16) (-9325439483596382,16) (-6233751543815941,17) (3556343888698247,16) (8331722144503054,16) (-1978210614574842,16) (-5164212318561355,16) (1592943581424804,16) (-4155570131029723,16) (8955097298884649,16), (5600657377253509,18));
  (AB60 (-1874015831720985,17) (-6279120641494498,16) (7780586392822993,16) (1131711838315125,16) (5695504807891022,16) (-8141280814362545,16) (-9028118779084016,16) (-5836158336034754,17) (4260570838457902,16) (8328682397534642,16) (-1247532386261022,16) (-5392282676773026,16) (8868379647214711,17) (-444797242163,12) (8912298231138118,16), (570714159583617,17))].

(** ahrens_beylkin/ahrens_beylkin_2172.hpp:1-4362. *)
Definition ab_2172 : coded := [  (AB12 (5257311121191336,16) (8506508083520399,16), (4509371139718967,18));
  (AB60 (-460512286160441,16) (-9386081792440383,16) (3418976019207275,16) (5741705548531865,16) (6122124855137902,16) (-5436212344276218,16) (-944529381282321,15) (-3263956937302481,16) (-3647052246384745,17) (5896724630436658,16) (-6026317793615935,16) (-5377000323893391,16) (4009081468546992,16) (-9580706152196647,18) (916068156773914,15), (6166813450231078,18));
  (AB60 (-2330156682634795,16) (-9443650144707563,16) (232117250085754,15) (5759429191080576,16) (7324243177802459,16) (-3631038042398218,16) (-9520717720919122,16) (-2119406966905104,16) (-2205458724893918,16) (5961194725033013,16) (-7199545220061582,16) (-3553970466186658,16) (5889679678520904,16) (-1246979577408766,17) (8080601691938117,16), (5840227257598951,18));
  (AB60 (-1813106066325638,16) (-9383621824845221,16) (2942836699604928,16) (5559810588186043,16) (7068031084532567,16) (-437395048115268,15) (-9623208461988836,16) (-2315590740312654,16) (-1425446744176979,16) (6187056547478317,16) (-6680371762383909,16) (-4134363844009064,16) (5249257980836157,16) (-3876593221486586,17) (8502647287790971,16), (6005150197814689,18));
  (AB60 (-1280281778055665,16) (-9257479528307184,16) (3558082538636789,16) (5314788167152515,16) (6764017452016723,16) (-5099126851443176,16) (-9664128359804854,16) (-2493462076290461,16) (-6223101472070075,17) (6379408629498842,16) (-6106045821168066,16) (-4692478019945507,16) (4565001508361677,16) (-6579716308486579,17) (8872870705789303,16), (6111038300122629,18));
  (AB60 (-7337835911039961,17) (-9066373422422115,16) (4154808612514472,16) (5030694269986996,16) (6410736576250036,16) (-5796082445225393,16) (-9639006082190693,16) (-2655636846172079,16) (1927555154698186,17) (6529866036329389,16) (-5484197469676221,16) (-5223449785456815,16) (38429236369653,14) (-9265391065738147,17) (9185502882501468,16), (614861956274201,17));
  (AB60 (-176416584974353,16) (-88131729724577,14) (4721955034314399,16) (4714513469080383,16) (6008474853840181,16) (-645535379980291,15) (-9545499949088116,16) (-2804698118617519,16) (1008513354092111,16) (6631770384777264,16) (-4823544914773717,16) (-5723026823172493,16) (3090146149285206,16) (-1184929939066464,16) (9436468503394783,16), (6114769276117504,18));
  (AB60 (-3932223317856696,16) (-911439150880182,15) (1210573088576381,16) (555328724882404,15) (8112518901527488,16) (-1829764412269393,16) (-919410799919074,15) (-1001872607274333,16) (-3803239326943568,16) (5761987730126089,16) (-798353491061436,15) (-1750047921880473,16) (7364343586921347,16) (-1289839909131278,17) (6763860337400421,16), (5474142536096699,18));
  (AB60 (-354168684786999,15) (-9167218226788088,16) (1848935978899488,16) (5397525922419524,16) (8020246601066326,16) (-255780342772726,15) (-9435344750811143,16) (-1146971625721761,16) (-310784901871532,15) (609949027559725,15) (-7586408771911656,16) (-2289676903704203,16) (6877541323083883,16) (-4338378291546706,17) (7246461901319011,16), (5464006645986959,18));
  (AB60 (-3086623668966454,16) (-9187813678260789,16) (2461063619604338,16) (5248746428110819,16) (7851548325259871,16) (-3286921025747783,16) (-961744838561633,15) (-1336265353000919,16) (-2391460109718576,16) (6373544694714237,16) (-7156384766011992,16) (-2857286318392243,16) (6330527359868546,16) (-6951635592478789,17) (7709810047715157,16), (560838163635172,17));
  (AB60 (-2596455547647366,16) (-9155755493043296,16) (3070921676093143,16) (5069352062805084,16) (7627421396014656,16) (-4015484094222223,16) (-9744971517622522,16) (-152833409702864,15) (-1643083993162086,16) (6611939641869587,16) (-6674049841529378,16) (-3426268069642998,16) (5729487423400299,16) (-9533715544852793,17) (8140273738898227,16), (5818865517450492,18));
  (AB60 (-2085250429141677,16) (-9060708544922533,16) (3681751120286684,16) (4845013813644858,16) (7355080972392122,16) (-4735886932259455,16) (-9815520574196402,16) (-1705627572530412,16) (-8639389106592739,17) (6821137361401132,16) (-6133769453909719,16) (-3981074902985585,16) (5079633641936948,16) (-1221311518482402,16) (8526764933931542,16), (5995291576538038,18));
  (AB60 (-1553820759783558,16) (-8902545257801692,16) (428139334554281,15) (4581456712996548,16) (7031363333154877,16) (-5437847374108986,16) (-9823164100510784,16) (-1871181924646814,16) (-6422818159665389,18) (6991668133892545,16) (-5541770754967973,16) (-4517228531399894,16) (4385316726401797,16) (-1489592578186904,16) (8862850058539359,16), (6091417692135602,18));
  (AB60 (-1005119217801971,16) (-8683374548326144,16) (4856824251657342,16) (4285986532616399,16) (6655687035192226,16) (-6110004053337852,16) (-9764008623621068,16) (-2027687513133918,16) (7433834454265287,17) (7115123271139823,16) (-4907184371963726,16) (-5029369978042928,16) (3654004570283216,16) (-17485026632285,14) (914281078427374,15), (6098499081377161,18));
  (AB60 (-4440160011781399,17) (-8407204608554077,16) (5396458140355104,16) (3966133843191622,16) (6230416069807313,16) (-6741787443621822,16) (-9637008963823629,16) (-2176788538746764,16) (1545849245160647,16) (7185803444799961,16) (-4240550823468526,16) (-5511983088352269,16) (2895221520201808,16) (-1989865246338787,16) (9362591983546725,16), (6014365830987268,18));
  (AB60 (-4954364271955115,16) (-8663396934895381,16) (632319704911992,16) (5161692740532002,16) (85352608944794,14) (-7115121330728986,17) (-8855977958160384,16) (-1281360404159812,17) (-4642761630724107,16) (5665876405028013,16) (-8223658253248392,16) (-5189311098078962,17) (8144465825087485,16) (-3116026412310083,17) (5794012445443995,16), (5310746509320751,18));
  (AB60 (-4627986538547814,16) (-8769352779430208,16) (12962223686235,14) (5016317753766706,16) (8529350889532382,16) (-1444551693944566,16) (-917279310268973,15) (-2400018898978261,17) (-3975206383081662,16) (6072538232492379,16) (-7876570734066231,16) (-1041111370685044,16) (7728241408745163,16) (-6527801554661515,17) (6312540122390206,16), (5457985453869122,18));
  (AB60 (-4256702092994354,16) (-883697096360789,15) (1946389344362666,16) (4860671729448742,16) (8463697200106161,16) (-2177085217315325,16) (-9437847647264734,16) (-3732737635017291,17) (-3284463195790261,16) (6433787310309679,16) (-7491458302902068,16) (-1576208533658481,16) (7260762429949409,16) (-9722388972040928,17) (6807061073811408,16), (5401402857316844,18));
  (AB60 (-3830117858280676,16) (-887451277895161,15) (2563829192419813,16) (4714145550091882,16) (8328153618416168,16) (-2901497723695576,16) (-9645117759847105,16) (-5463591605354426,17) (-2583252807291801,16) (6731615581976252,16) (-7081288567427292,16) (-2130892742800081,16) (6743620036151529,16) (-1246865050988875,16) (7277974742511695,16), (5419585018020454,18));
  (AB60 (-336838129883868,15) (-8867293255679056,16) (3166246633385114,16) (4549780556382245,16) (8137148360233243,16) (-3617500995482865,16) (-979780131951918,15) (-7301448954458133,17) (-1862787624739503,16) (6985882294321546,16) (-6631554686134066,16) (-2686992931642742,16) (6180300324036315,16) (-1505593674099177,16) (7716027189767358,16), (5614200442571582,18));
  (AB60 (-2881493924799206,16) (-8801578434257218,16) (3772162486818872,16) (4344114695277572,16) (7897629085450029,16) (-4330833908490049,16) (-9897138365998688,16) (-9039493488071894,17) (-1108840718528993,16) (7212327833289255,16) (-6124975879179815,16) (-3235273976748579,16) (5566304457508638,16) (-1772653206270213,16) (8116277182096444,16), (5856170286026668,18));
  (AB60 (-2368219125646286,16) (-8674816942704355,16) (4374824474592392,16) (4098842136214871,16) (7605233100460301,16) (-5035863642916922,16) (-9937306523264225,16) (-1069583842244054,16) (-3254680738578182,17) (7404082768563209,16) (-5562482048671834,16) (-3773374062357053,16) (4901442880347303,16) (-2042751051788468,16) (8473666610807263,16), (6018240927477853,18));
  (AB60 (-1831204790509434,16) (-8488492346160253,16) (4959050988283352,16) (3821935670075408,16) (7258153000134508,16) (-571944252182358,15) (-9912733459255221,16) (-1230339346025745,16) (4732657386532053,17) (7550647312333014,16) (-4953682470971869,16) (-4295201408728613,16) (4193290937431641,16) (-230447052916264,15) (8780986658358759,16), (6073322887211846,18));
  (AB60 (-1275990185486504,16) (-8246192122057673,16) (5511094676437349,16) (3521459575435823,16) (6858415718371502,16) (-6368787662700497,16) (-9821159555815114,16) (-1387776403686171,16) (1272360653507233,16) (7644777848187001,16) (-4310064879377765,16) (-4793820228943056,16) (3452371893114617,16) (-2548350838993738,16) (9032554251873172,16), (6020926150154755,18));
  (AB60 (-7083095939946175,17) (-7954211456401978,16) (6019037931920573,16) (3206693577297659,16) (6410125237772349,16) (-6973335696593985,16) (-9663490912864545,16) (-1544086218629629,16) (205736266283376,15) (7681645290588603,16) (-3644452980943971,16) (-5264056240131419,16) (2690155216270559,16) (-2765672256828378,16) (9225731509218232,16), (5861318082362659,18));
  (AB60 (-1346006391703383,17) (-7620276270304192,16) (6474046048042428,16) (2886316095529653,16) (5919622590905708,16) (-7525107825003258,16) (-9443549913486811,16) (-1700653679398485,16) (2815518086290986,16) (7659708464173596,16) (-2969503865444383,16) (-570183418182064,15) (1918442088483552,16) (-2950118725461324,16) (9360362143572081,16), (563503251643328,17));
  (AB60 (-3697118165417436,16) (-8487106309841701,16) (3781579531939742,16) (3832951128432598,16) (8403156921905723,16) (-3833463107018926,16) (-9899475347024971,16) (-8394938793597791,18) (-1411857058596941,16) (7530581272436362,16) (-6117895815085229,16) (-2421094069835657,16) (6066012240006045,16) (-2285261106820494,16) (7614530660372339,16), (5838281141102073,18));
  (AB60 (-3196109232555341,16) (-839157332744961,15) (4400725265636425,16) (3600910729893775,16) (8141392243397607,16) (-4555345678922857,16) (-9976940133006744,16) (-2501810840520023,17) (-6309318565280528,17) (7751454911478198,16) (-5576214867370318,16) (-2969978873365723,16) (5421594454083887,16) (-2565177376027289,16) (8001635995530201,16), (6015492956178273,18));
  (AB60 (-266930297135736,15) (-8237276539407671,16) (5002209197987101,16) (3338132127468344,16) (7823917388264173,16) (-5257679202954587,16) (-999006128802538,15) (-4133591511434976,17) (1667623268685342,17) (7926982174311947,16) (-4987852090038279,16) (-3504894454336878,16) (4732382085070793,16) (-2836065298225894,16) (8340341325455445,16), (6078767319774627,18));
  (AB60 (-2121895103198475,16) (-8028422523503976,16) (5571534165301006,16) (3053661529717502,16) (7452559202339185,16) (-5927437270655244,16) (-9936598989357133,16) (-5758633211647903,17) (9655992750845854,17) (8049332373853719,16) (-4365064824056125,16) (-4019260804802088,16) (4009161718701888,16) (-308749437828306,15) (8625195695018509,16), (6032770106040805,18));
  (AB60 (-1559874228681701,16) (-7772006925367461,16) (6096121778863584,16) (2757597147840109,16) (7031773452222821,16) (-6553611224877353,16) (-981777421820401,15) (-7402334731446389,17) (1750246784200694,16) (8113485453559054,16) (-3721652439340427,16) (-4507843932040804,16) (3264162993326657,16) (-3310121012882395,16) (8853718926703692,16), (586940684581962,17));
  (AB60 (-9902697436746936,17) (-7476703534671417,16) (6566450341652968,16) (2459544870815128,16) (6568641567273806,16) (-7127663501395791,16) (-9638015572089703,16) (-9080619673976113,17) (2506806593162378,16) (8117933245070486,16) (-3071565230436735,16) (-4966351463977505,16) (2510352070693912,16) (-3497076336837072,16) (9025995212468096,16), (5619769113388099,18));
  (AB60 (-423761977612542,16) (-7144213741753003,16) (6984313552417121,16) (2156683899664439,16) (6073209094075135,16) (-7646230826791149,16) (-9402896757385983,16) (-1071004647677868,16) (323086391149373,15) (8069992804403692,16) (-2418583204968862,16) (-538754781115817,15) (1756665930594833,16) (-3654625889106272,16) (9140997452081561,16), (5452990940043944,18));
  (AB60 (-1864329428027909,16) (-7274885519664355,16) (6603053570853945,16) (2007869755739762,16) (7186172718382131,16) (-6657881097283574,16) (-9763142279341604,16) (-8871280128222357,18) (2161754581866562,16) (8522210525311483,16) (-316008870848766,15) (-4169624337606324,16) (3105261182058031,16) (-4026084009894471,16) (8610923326593707,16), (5577144256583309,18));
  (AB60 (-130468254650518,15) (-6986401209473537,16) (703477089840966,15) (1731562779646465,16) (6722574716266744,16) (-7197824638344152,16) (-9572671836325092,16) (-263826493206794,16) (2879991231846132,16) (8502507184849332,16) (-2537900937915432,16) (-4611554011492597,16) (237484719798094,15) (-4184673778351312,16) (8766333678056125,16), (5413929282047121,18));
  (AB60 (-7502972723555648,17) (-6647628404356092,16) (7432771394351765,16) (1429804046246773,16) (6227670122505535,16) (-7692319886392417,16) (-9326284656580613,16) (-4199582818505562,17) (3583859587921122,16) (8442617158747981,16) (-1893513262228849,16) (-5013663634167895,16) (1633964770188197,16) (-4334156860276687,16) (8862575440598538,16), (5472475521074143,18));
  (AB60 (-210361131382908,16) (-6248606163187341,16) (7804528762954268,16) (1087959031144202,16) (5706220832679338,16) (-8139741332207558,16) (-9022498123204988,16) (-5423853305080027,17) (427789034104571,15) (8350102463590466,16) (-1217969360250721,16) (-5365849372189911,16) (88275679099743,15) (-4488251472428618,16) (8892487794098469,16), (5546088837007122,18))].

(** ahrens_beylkin/ahrens_beylkin_2232.hpp:1-4482. *)
Definition ab_2232 : coded := [  (AB12 (5257311121191336,16) (8506508083520399,16), (3545810006210545,18));
  (AB60 (-2140255290812282,16) (-9464639109374156,16) (2416591363771549,16) (5787382946061793,16) (7210590257120248,16) (-3809670166767153,16) (-9526724824157123,16) (-2254048852253907,16) (-2039798494077608,16) (5949925457579435,16) (-7110133460385575,16) (-3747584451984185,16) (5717054657389969,16) (-1004567967346738,17) (8203974309833342,16), (5726701975148948,18));
  (AB60 (-155039380514899,15) (-9431055791342013,16) (2941337401514813,16) (5680117675571872,16) (6878746075268906,16) (-4518751555864587,16) (-9579651144616042,16) (-2552309716073107,16) (-1309961472981313,16) (6069145361013577,16) (-6638313743101228,16) (-4370156202590558,16) (5060899588751454,16) (-2404323321676767,17) (8621455077086685,16), (5769427171989279,18));
  (AB60 (-9321486282874819,17) (-9342918867604763,16) (3441070468347999,16) (5549995139360465,16) (6488932768931541,16) (-520493088074776,15) (-9567165142556719,16) (-2853986098673221,16) (-5693105335646612,17) (6137079509035243,16) (-6126094674208721,16) (-4980684605795804,16) (4362234261808958,16) (-3628380947228206,17) (8991065607708464,16), (5797808745171776,18));
  (AB60 (-2908789103631117,17) (-9197744130078731,16) (3913680157742609,16) (5394404705667338,16) (6043591726118881,16) (-5863053549086985,16) (-9487857916624883,16) (-315415240395985,15) (1785350568734946,17) (6153932459450097,16) (-5574177758882275,16) (-5572939762540833,16) (3624804367537899,16) (-4694139672366063,17) (9308084863409947,16), (5807121688048601,18));
  (AB60 (-4872715741127597,16) (-8719115566160932,16) (4833891290642121,17) (5306466131644485,16) (8451043082187956,16) (-6490670356081235,17) (-8801359206242186,16) (-2680724839729774,17) (-4739642736117615,16) (552178277673572,15) (-8317970077177974,16) (-5668233955268701,17) (8152292170634062,16) (-1330730050099813,17) (5789855260708697,16), (4586249969501398,18));
  (AB60 (-4429039850154284,16) (-8908450112205353,16) (1011495231869016,16) (5332691335919485,16) (8349962780018116,16) (-1356659385446981,16) (-908148373271159,15) (-5584873321872363,17) (-4149065570978742,16) (5785699235601265,16) (-8069988500842574,16) (-1183625764940744,16) (7724824347264608,16) (-2799742791755424,17) (6344186567788501,16), (513921852377945,17));
  (AB60 (-3942484318151734,16) (-9056955598368595,16) (1558323679569632,16) (5329774502229084,16) (8199563112349694,16) (-2088221377628082,16) (-9324687490529943,16) (-8573924860189007,17) (-3509285016762351,16) (6030705695779816,16) (-7766363810960311,16) (-1820489485466733,16) (723646611290186,15) (-433199301389383,16) (6888098181798716,16), (5430772054907807,18));
  (AB60 (-3423223835901247,16) (-9155846800295201,16) (2109978184446862,16) (5294412226265991,16) (7999388775695584,16) (-2824708550211988,16) (-9520059092398616,16) (-1156458024599618,16) (-2833915968157417,16) (6247932386113235,16) (-7410080907951754,16) (-2460496258108573,16) (6695350542186628,16) (-5893078677438299,17) (7404390410712852,16), (5590331771930059,18));
  (AB60 (-2875614551084033,16) (-920169785368929,15) (2656990320457281,16) (5227221014952622,16) (7748325130854551,16) (-3555224061491131,16) (-9661438866523606,16) (-145337272283474,15) (-2131737966295808,16) (6430838612575164,16) (-7004448546066325,16) (-3095483048656815,16) (6106214805032476,16) (-7438765847882249,17) (7884211335409903,16), (5681722274317215,18));
  (AB60 (-2299121496551441,16) (-9194497042252241,16) (3189869038708306,16) (5133102227990942,16) (7443000626760342,16) (-4272353354655907,16) (-9743906495833562,16) (-1751496415491899,16) (-1410158326916356,16) (6571474851207348,16) (-6554037457125257,16) (-3722943901074586,16) (5471553141177655,16) (-8889631696350851,17) (8322971266699247,16), (5741090577430764,18));
  (AB60 (-1692968325761758,16) (-9134869204739978,16) (3699732809306724,16) (5017242039774756,16) (7080355061572098,16) (-4969492380151841,16) (-9763286816279251,16) (-2054514143167881,16) (-6761672711621873,17) (66624607059136,14) (-6063554006972527,16) (-4341074768612569,16) (4793794436127409,16) (-1016801054599571,16) (871697484908148,15), (5781876394124237,18));
  (AB60 (-1061338606213485,16) (-9021731100919341,16) (4181139594137645,16) (4880192316149741,16) (6661549710115103,16) (-5639811913269663,16) (-971727524249976,15) (-2360181390804238,16) (6407545553950244,18) (6701150519483148,16) (-5536135648362115,16) (-4944267771689244,16) (4077463329230098,16) (-1125414061752988,16) (9061331910287386,16), (5801002641943311,18));
  (AB60 (-4132347958245168,17) (-8852125014040928,16) (4633478147063044,16) (4717083924582322,16) (6192199970016982,16) (-6277402231796902,16) (-960595522079904,15) (-2659925044023946,16) (806488100456469,16) (6690637027621419,16) (-4972477073735996,16) (-5523572025038791,16) (3328552989002137,16) (-1219722896280986,16) (9350562071645365,16), (5794982639856977,18));
  (AB60 (-4654214899567408,16) (-8681230665624545,16) (1724679042275623,16) (4722692120001964,16) (8638909415940871,16) (-1750835013026505,16) (-9323834161156423,16) (-4232124968367489,18) (-3614460602507337,16) (6405049912593913,16) (-75991551188808,14) (-1108231517494627,16) (7572999148129919,16) (-103975429706007,15) (6447371162277588,16), (538947825715435,17));
  (AB60 (-4153400235932684,16) (-8803535261901824,16) (2290640384828118,16) (4693418187699505,16) (8469785813174827,16) (-2496908887867942,16) (-9551001087215854,16) (-3337494487269962,17) (-2943975125145592,16) (6650309123800626,16) (-7260360702387736,16) (-1749443062553912,16) (7054092199347911,16) (-1209425110787092,16) (6984058572527623,16), (5564735694178609,18));
  (AB60 (-362009240432235,15) (-8875937080602461,16) (2848275254492426,16) (4637976237820666,16) (8246850274901463,16) (-3237072282289744,16) (-972359164059963,15) (-6290868057009981,17) (-2248558515528092,16) (6857164686612094,16) (-6875316386107205,16) (-2389417722292574,16) (6486519358309887,16) (-1371533888794258,16) (7486251492313092,16), (5667896169484974,18));
  (AB60 (-3056293250341259,16) (-8896603580118947,16) (3392567804205717,16) (4556773032281474,16) (7969256075447864,16) (-3965700081474848,16) (-983823394478498,15) (-9273475046710832,17) (-153270331547266,15) (7021993331816108,16) (-6445666140579264,16) (-3024069716808814,16) (5872533863310132,16) (-15235899348686,14) (7949340836487191,16), (5732555430810745,18));
  (AB60 (-2462363789576406,16) (-8865610240313516,16) (3916340081585234,16) (4453347051812973,16) (7635114913219173,16) (-4676828016727458,16) (-989151164802342,15) (-1230495327094344,16) (-8024204427954186,17) (7139191806303863,16) (-5975171566438185,16) (-3650926609017555,16) (5214683631295962,16) (-1659943346780987,16) (8369687133398207,16), (5776159790811876,18));
  (AB60 (-1841575600523892,16) (-8782819948729312,16) (4412558561170321,16) (4330093159484026,16) (7244831515691029,16) (-5363087687092172,16) (-9880808034630612,16) (-1537988433038283,16) (-6499355829315221,18) (7204663287616064,16) (-546824947346029,15) (-4265099601190874,16) (4517720347538439,16) (-177658204223074,15) (8742651720654347,16), (5799410588000013,18));
  (AB60 (-1201255242469664,16) (-8646993242165757,16) (4877139911093271,16) (4185786243105663,16) (6802451643294976,16) (-6017129312858488,16) (-9805342723209183,16) (-1844541598870782,16) (6729935887094,14) (7218384555328152,16) (-4928202812115912,16) (-4858779831815063,16) (3788213410350694,16) (-1874248831179064,16) (9062926154198934,16), (5797661460387492,18));
  (AB60 (-5507839027936155,17) (-8455570149424168,16) (5310364445176093,16) (4015316139234232,16) (6314371472184179,16) (-6633698004376722,16) (-9666083756793098,16) (-2141198677239988,16) (1407868257773559,16) (7184481907170337,16) (-4355719311617005,16) (-5423184397007791,16) (3032385752416376,16) (-1958652160567175,16) (9325680584410325,16), (577106537750588,17));
  (AB60 (-3815277399190173,16) (-8536031517918966,16) (3546804800425687,16) (3953406607699365,16) (8450662972221165,16) (-3599565463237078,16) (-985818251733388,15) (-8536854569780171,18) (-1675992143877201,16) (741484286242725,15) (-6311377716908192,16) (-2277414463822164,16) (6258617054096802,16) (-2139285255312972,16) (7500211408125053,16), (5738389133622439,18));
  (AB60 (-3233876201909736,16) (-8534928202295997,16) (4086201817381794,16) (3862478348641767,16) (8146430710214453,16) (-4326306472032281,16) (-9947325574213195,16) (-3884974920815442,17) (-9485692485266835,17) (7560182673942016,16) (-5861123756831401,16) (-2913909100115084,16) (5621019102180914,16) (-2285306953383052,16) (7948680166023561,16), (5780369585252091,18));
  (AB60 (-2624681550990616,16) (-8482361486876741,16) (4600064169317609,16) (375127130657753,15) (7786090726546591,16) (-5030383164574374,16) (-9973477884052131,16) (-6962707603301499,17) (-2120045391785468,17) (765506471556499,15) (-5373413714734522,16) (-3539266767398984,16) (4943094719477757,16) (-2412677011812069,16) (835133547589514,15), (5802744744703875,18));
  (AB60 (-1993858086919933,16) (-8378025602830359,16) (5082638776024024,16) (3620509670755981,16) (7372699636165831,16) (-5703964393195545,16) (-9935420513240366,16) (-1005325966664527,16) (5260598120295565,17) (7697822480115478,16) (-4852781737216342,16) (-4146569482785538,16) (4231456120044821,16) (-251991789894949,15) (8703148446780006,16), (5803108109231298,18));
  (AB60 (-1349380203709225,16) (-8221393209219272,16) (5530629870569977,16) (3468950473592912,16) (6911426740887366,16) (-6340233672121758,16) (-9833543173801447,16) (-1309966468331906,16) (1259133233946673,16) (7689613875830983,16) (-4302913303231469,16) (-4728083707539584,16) (3493309501679688,16) (-2608513437655897,16) (8999580344162889,16), (5779631372921024,18));
  (AB60 (-6992319476670464,17) (-8010724098254071,16) (5944692936141719,16) (3292390909826599,16) (6408063721408065,16) (-6935191521455265,16) (-966923295564634,15) (-1602660376846006,16) (1984291754236397,16) (7634423469122312,16) (-3724540019504621,16) (-5276682664062996,16) (2734041434191075,16) (-2683523701903444,16) (9237083845968318,16), (573298180429998,17));
  (AB60 (-5048989317334555,18) (-7741619096838949,16) (6329674915044677,16) (3082661720763263,16) (5867633847658493,16) (-748786149345414,15) (-944354110587742,15) (-1873985249180455,16) (2703277763652406,16) (7538351386627485,16) (-3113866190832742,16) (-5785939484415669,16) (1955679612423279,16) (-2753767656825751,16) (9412336635807941,16), (5665144165476805,18));
  (AB60 (-2777823583918664,16) (-8046908743467305,16) (5246994931475988,16) (3028193765105019,16) (7892171461724667,16) (-5342627830919706,16) (-9991978086193788,16) (-1547372817426369,17) (3693647230882034,17) (8120451414838371,16) (-47449831547178,14) (-3397558488193223,16) (4649350255274082,16) (-3147188307006868,16) (8275188696581007,16), (5805089063348966,18));
  (AB60 (-2142002380836216,16) (-7921835077152313,16) (5714573895829084,16) (2889697118467263,16) (7459734316086891,16) (-6000167872394708,16) (-9928101289636325,16) (-462100761065422,16) (1104204541443433,16) (8142170253230925,16) (-4213527393807242,16) (-3993901659910696,16) (3927933417241616,16) (-324620692227965,15) (8604271014296346,16), (5783704619087247,18));
  (AB60 (-1497086713475175,16) (-774602033740226,15) (6144745747782139,16) (2731663981324556,16) (6983009624133359,16) (-661631230236262,15) (-9801660202140229,16) (-7630107132689007,17) (1829008456300095,16) (8113399015837794,16) (-3656914454358089,16) (-4560672437624652,16) (3185347899777609,16) (-3326095169775269,16) (8876409729106696,16), (5740420436860863,18));
  (AB60 (-8487062766932252,17) (-7519050526698563,16) (6537857204991218,16) (2551846392436535,16) (6466452047565768,16) (-7188398841601732,16) (-9614232922889538,16) (-1052598479132796,16) (2541370052974222,16) (8037105118294957,16) (-3076375717898321,16) (-5093216445410756,16) (2425834081287807,16) (-3390076329667447,16) (9089703597427753,16), (5670232563279138,18));
  (AB60 (-202256606863413,16) (-7237035709175335,16) (6898145142652564,16) (2343311577549506,16) (5913790965509419,16) (-7715955369672742,16) (-9366458177692885,16) (-1323244743665915,16) (3243221323605686,16) (7918211976536155,16) (-246831303504032,15) (-5586532901155191,16) (1650502808020143,16) (-3445477930469099,16) (924145672020207,15), (5563965984128218,18));
  (AB60 (-1634558573620948,16) (-7221910259687704,16) (6721028974079768,16) (1977027267348112,16) (7010252966881538,16) (-6851840375000766,16) (-9708268996528172,16) (-2116572928061651,17) (2388454370812186,16) (8486398948621714,16) (-2987240022448405,16) (-4365481638160297,16) (2856428621527406,16) (-4023012944433134,16) (8698056241427879,16), (5671943825230541,18));
  (AB60 (-9889320999669876,17) (-6982854502785402,16) (7089552615968411,16) (1798874828844104,16) (6482282367398502,16) (-7398923209458628,16) (-9499621095157922,16) (-5005721353868992,17) (3083281788242003,16) (8387855309425616,16) (-2410068479189511,16) (-4882156617086107,16) (2100697885699294,16) (-407221388820899,15) (8888427444812514,16), (5563984864370387,18));
  (AB60 (-3464826080558744,17) (-6694781601939935,16) (7420232415810259,16) (1599006867548393,16) (5920679037839766,16) (-7898654111202608,16) (-9233377311647891,16) (-7741025641001699,17) (3761051533946259,16) (8245136719258482,16) (-1813144895837632,16) (-5360058401494653,16) (1334723200445283,16) (-4107534142002133,16) (9019239283358652,16), (5389632192342475,18));
  (AB60 (-4749635065776793,17) (-6121294959747267,16) (7893298276588321,16) (8588107164826679,17) (5884064337539168,16) (-803991486428521,15) (-9045652583551829,16) (-2372306222080983,17) (4256746523997981,16) (8514878370862891,16) (-1152354306963508,16) (-5115557240480648,16) (1005737719266618,16) (-473171003057566,15) (8752108993070988,16), (5091736577438331,18))].

(** ahrens_beylkin/ahrens_beylkin_2292.hpp:1-4602. *)
Definition ab_2292 : coded := [  (AB12 (5257311121191336,16) (8506508083520399,16), (3375248582037879,18));
  (AB60 (-4578301127407436,17) (-9362707993607288,16) (3482827962203991,16) (5691698613722979,16) (6127999367352803,16) (-5481987836931742,16) (-9457481146673945,16) (-3234708626254484,16) (-3044839298578946,17) (5939817949672486,16) (-5974653184469955,16) (-5387214683865084,16) (3975493309742203,16) (-153346182882849,16) (9174526575926969,16), (5665802420569596,18));
  (AB60 (-289495063714486,15) (-9343551134829009,16) (2077814476638883,16) (5625595472814209,16) (765591981518098,15) (-3120827992660202,16) (-9492587838961779,16) (-1687631319648029,16) (-2653804184286776,16) (6015778629805063,16) (-7414773362322896,16) (-2971791288527432,16) (6371759846301577,16) (-241146452858084,16) (7703409949453092,16), (5529505090345698,18));
  (AB60 (-2370580888598355,16) (-9348043341799396,16) (2644698835491899,16) (5507826728805981,16) (7409118781486862,16) (-3843020115386991,16) (-9617625126532593,16) (-1938924560312534,16) (-1934388398152186,16) (6213601003985346,16) (-6972926291040693,16) (-3573438330653795,16) (5774605011145602,16) (-4361924904461689,17) (8152525564297881,16), (5589915110051818,18));
  (AB60 (-1812339669287426,16) (-9302825218425498,16) (3189493357659446,16) (5371353261186651,16) (710323385220893,15) (-4548915583342102,16) (-968093413362547,15) (-2199591366216569,16) (-120054659304452,15) (6361255252629529,16) (-6491440775966024,16) (-4170806668142131,16) (5132018550283367,16) (-6117930762429057,17) (8560846618846096,16), (5627633997916394,18));
  (AB60 (-1226026070257661,16) (-9204881530184705,16) (3710392983271857,16) (5212846206235218,16) (6740891179118098,16) (-5233222768182807,16) (-9680964972019777,16) (-2463990351066607,16) (-4557068798874824,17) (6459248838440468,16) (-5970571988747919,16) (-4757139326347735,16) (444774220383697,15) (-7703191903701789,17) (8923239189507075,16), (5649911521685222,18));
  (AB60 (-6206276905791245,17) (-9050570584994774,16) (4207373688622604,16) (5026594064170853,16) (6327533612825968,16) (-5890303090045528,16) (-9617536759930709,16) (-2723036972168806,16) (2967428509387385,17) (6510930780624652,16) (-5410163071308105,16) (-5323336915109592,16) (3727233669885182,16) (-9173705415178629,17) (9233967752793458,16), (5657975875506946,18));
  (AB60 (-5189839513749996,19) (-8836895817282289,16) (4680731286889326,16) (4807229501649772,16) (5869072090757166,16) (-6514947222500225,16) (-9491168285754752,16) (-2967823726525123,16) (105344525237799,15) (6520137062013974,16) (-4810436998865427,16) (-5860674754027762,16) (2976221063254528,16) (-105863509189174,15) (9487960788539098,16), (565022043894684,17));
  (AB60 (-4914534815824609,16) (-8694283246520476,16) (506740933141537,16) (526177765623653,15) (8479675368795853,16) (-6393758958288354,17) (-880586814445238,15) (-2146078777246228,17) (-47339866583396,14) (5553910711653445,16) (-8299127211310843,16) (-5277909978969307,17) (8166492248623545,16) (-1805481574850095,17) (5768518589378068,16), (4427026676552578,18));
  (AB60 (-4522207984320191,16) (-8854627429249182,16) (107014393225338,15) (5231032983741436,16) (8416549487531229,16) (-1340890989956671,16) (-9096055154500846,16) (-4380779417179536,17) (-4131569719036428,16) (5863098974276862,16) (-8025911222247466,16) (-1099463264705007,16) (7755164164544175,16) (-390638265283763,16) (6301176915994816,16), (4996562436944948,18));
  (AB60 (-4090582006150918,16) (-8973450992478216,16) (1656597759429261,16) (5167316114605985,16) (8307992716606669,16) (-2067873592012781,16) (-9352032587605246,16) (-665458275871547,16) (-3478024117720234,16) (6158455598163699,16) (-7695434828175984,16) (-1689291996885752,16) (7284158995592465,16) (-6125578884306845,17) (6823913874035247,16), (5294743017750871,18));
  (AB60 (-3622493238409566,16) (-9046370752333867,16) (2245154549022265,16) (507667842886655,15) (8147634878694711,16) (-2800603865840094,16) (-9560656923242603,16) (-8987358736391553,17) (-2790360733935193,16) (642309710424966,15) (-7315502374220338,16) (-2286317694931357,16) (676005305740251,15) (-8321325044743733,17) (7321832977888815,16), (5457071139836745,18));
  (AB60 (-3116648760707952,16) (-9073313824225649,16) (2821608893786184,16) (4966563199646227,16) (7930003824682604,16) (-3528213333181414,16) (-9714366958545164,16) (-1143309999543046,16) (-2079403000784327,16) (6644862093889365,16) (-6892758064758979,16) (-28871601988619,14) (6186153625363751,16) (-1037245759923625,16) (7788172093432412,16), (5548630679439432,18));
  (AB60 (-2573887418115181,16) (-9053872544323288,16) (3376758136144386,16) (4840982731384645,16) (765273058498717,15) (-4242711490077731,16) (-9808490775139925,16) (-1401141959336119,16) (-1352889472123551,16) (6816598908192912,16) (-6431732638995539,16) (-3488093259261094,16) (5565779285062195,16) (-1220997945991631,16) (8217740867529031,16), (5599756835673204,18));
  (AB60 (-1999954091433722,16) (-8985431426911062,16) (3906687305689637,16) (4698003271094237,16) (7317945330562092,16) (-4937250389001182,16) (-9840730181229328,16) (-166748609634897,15) (-6160516364113212,17) (6937204480434903,16) (-5934042875539691,16) (-4081951634682915,16) (4903479792228146,16) (-13839024550224,14) (8604690576783873,16), (5626437542660622,18));
  (AB60 (-140357178151561,15) (-8864061954098424,16) (4411166730927082,16) (4531865861281045,16) (6930669885998311,16) (-5606068742592404,16) (-9810487658835015,16) (-1933392068100114,16) (1277771765747668,17) (7009640524108013,16) (-5399320927907933,16) (-4659643037855812,16) (4204418916242612,16) (-1531348958090377,16) (8943032592208128,16), (5638737980936072,18));
  (AB60 (-7934648150157036,17) (-8686389137440597,16) (4890506859241289,16) (4336988890044313,16) (6496370819119384,16) (-6244012615948685,16) (-9717883973842455,16) (-2190018318321213,16) (875528889502515,16) (7037477430964389,16) (-4827377114601165,16) (-5212517779546827,16) (3473871357893769,16) (-1668993704518218,16) (9227495749285602,16), (5638870816512711,18));
  (AB60 (-1774653393671981,17) (-8450117569569975,16) (534453170200796,15) (4109183061467476,16) (602018238314169,15) (-6846314237679952,16) (-9563394375029398,16) (-2429935186428285,16) (1623854370753053,16) (702377957704715,15) (-4218862673021439,16) (-5733037432220529,16) (2717080137349446,16) (-1801319710120251,16) (9453714763475436,16), (5623188385554281,18));
  (AB60 (-4351746428380109,16) (-869077027626771,15) (2352193662992619,16) (4510120414632991,16) (859288976982962,15) (-2412687142807411,16) (-9551841280785477,16) (-9788050643808924,18) (-2958504276343348,16) (676443357118752,15) (-7199647617792858,16) (-1551616138289643,16) (7139154137978067,16) (-1393242152036762,16) (686231407762561,15), (5423767418124727,18));
  (AB60 (-3864999567715851,16) (-8740266392341154,16) (2944405157662245,16) (4404470918261059,16) (8406854761747407,16) (-3150464877613706,16) (-9737577175275351,16) (-3334116305937476,17) (-2251316823581551,16) (7015464445329557,16) (-6793172017613106,16) (-2153154094679508,16) (6587112297661646,16) (-16136827441343,14) (7348876075923304,16), (5527912377897021,18));
  (AB60 (-3339352674985351,16) (-8745774063271614,16) (3515701885295979,16) (4285712176720469,16) (8160891725622896,16) (-3877179049382379,16) (-9865247515580275,16) (-5848823376487184,17) (-1528006579646752,16) (721653172436773,15) (-6349545630284297,16) (-2757705597073718,16) (5988068466197897,16) (-1811346095338599,16) (7801414062016448,16), (5584540451566725,18));
  (AB60 (-2779937820264179,16) (-8705585259303529,16) (4060139284367219,16) (41538487488057,14) (7856461607949942,16) (-4584926561555152,16) (-9932084092707477,16) (-8491236513535876,17) (-7954210206544959,17) (736486438181933,15) (-5871944808340258,16) (-3358427728151204,16) (5347157531152326,16) (-1984516799609683,16) (8213988033172919,16), (561048024233643,17));
  (AB60 (-2194806567285947,16) (-8616252738919108,16) (4576353665448885,16) (4004285532233705,16) (7497933236653415,16) (-5267513128130948,16) (-9937104254996787,16) (-1118319502265694,16) (-5762392018043468,18) (7462319695416895,16) (-5360750589547902,16) (-394666161205327,15) (4669591126865839,16) (-2137182647105512,16) (8580639197682589,16), (5620687609115304,18));
  (AB60 (-1592513563573228,16) (-8473713096817674,16) (5065578634534846,16) (3830474828598904,16) (7090576969526096,16) (-5920403772268943,16) (-9880280972967221,16) (-1383136127291579,16) (6833610675204919,17) (7512917335842172,16) (-4814702338432375,16) (-4513835896119396,16) (3959877200698279,16) (-227587463109372,15) (889605346313375,15), (5623579138276666,18));
  (AB60 (-9806698639023802,17) (-8275148111531609,16) (5528129009913618,16) (3627627294424813,16) (6639238452694658,16) (-65391767815991,14) (-9761843611972837,16) (-1635909658836952,16) (1424853986733059,16) (751984664550148,15) (-4233714602059218,16) (-5052481281157872,16) (3222666830373737,16) (-240552385063544,15) (9155756304338432,16), (5615233968397824,18));
  (AB60 (-366619293649044,16) (-801910776873921,15) (5963178756910674,16) (3392713493975555,16) (6148878699778493,16) (-7119043888276468,16) (-9582475435292818,16) (-1870229068960717,16) (2162962727747305,16) (7485663181925513,16) (-3619296678382143,16) (-5555676221722861,16) (2463431547016349,16) (-2529582021396349,16) (935589225088623,15), (5585873086428092,18));
  (AB60 (-356001882206864,15) (-8366391426864177,16) (4162902890893639,16) (3586995084165273,16) (8349719179999032,16) (-4173206906125127,16) (-9950110607686695,16) (-1667224686514445,18) (-9975073588626641,17) (7733225728193768,16) (-5787207716793057,16) (-2589487725302608,16) (5776903701561569,16) (-2562511463205976,16) (7749897975058911,16), (5606539447089163,18));
  (AB60 (-2988355360213443,16) (-8307362414196591,16) (46965372307986,14) (3449076164580011,16) (802262129777386,15) (-4872516918742438,16) (-9992518578453454,16) (-28474111642273,15) (-261715410094437,16) (786087227895588,15) (-5295981347654854,16) (-3187360754485574,16) (5120001659711016,16) (-2726639950119006,16) (8145613395378611,16), (5612701346942547,18));
  (AB60 (-2395752239546926,16) (-8198804373982743,16) (5199997888832968,16) (3292644971359368,16) (764449418145991,15) (-5542580428122577,16) (-9973299172856015,16) (-5543101925228334,17) (475440657889937,16) (7938332667669502,16) (-4773301284023048,16) (-3768085629249305,16) (4430718744733439,16) (-2871192897436862,16) (8492642860192335,16), (5613913955149897,18));
  (AB60 (-1790005663565698,16) (-803671361944711,15) (5675131181161899,16) (3111130136407151,16) (7220213791861805,16) (-6179755826418047,16) (-9892545657707461,16) (-8164998275853053,17) (1212793651750545,16) (7969761489983745,16) (-4217414476545562,16) (-4323923788157696,16) (3712789831289414,16) (-3002799315316243,16) (8786261317569051,16), (5608804289632058,18));
  (AB60 (-1178482479317146,16) (-7819141908283003,16) (612145398284386,15) (2900920580126256,16) (6754616618465156,16) (-6779366793835121,16) (-9750716790334356,16) (-1064525289817847,16) (1946871331657513,16) (7957849273152268,16) (-3629262807490497,16) (-4847791911783768,16) (2971349996499235,16) (-3125353810974659,16) (9022374562970115,16), (5584655029343586,18));
  (AB60 (-568632091094898,16) (-754606030548674,15) (653709655817737,15) (2660625768933008,16) (625313710833289,15) (-7336167038861631,16) (-9549156286500952,16) (-129292319715385,15) (267244528891441,15) (7904799129956528,16) (-3012059728323582,16) (-5333071057847418,16) (2212989247639321,16) (-3241077380009308,16) (9197722327110378,16), (5527795734673394,18));
  (AB60 (3170059850725735,18) (-721663707175268,15) (6922365523912992,16) (2386995294998278,16) (5721800801116462,16) (-7846225146782311,16) (-9289768771570071,16) (-1494836270636217,16) (3386098151966641,16) (7814524548275054,16) (-2367403247657079,16) (-5773093446964919,16) (1443543624787761,16) (-3354397553459383,16) (930936081891127,15), (5428075033667937,18));
  (AB60 (-1982564724189861,16) (-7551929050302792,16) (6248024066342154,16) (2372980716614792,16) (7310638697232664,16) (-6397149705696956,16) (-9846297167402841,16) (-2412903530701285,17) (1729800871982116,16) (8379714429886818,16) (-3598273101060687,16) (-4102781588596908,16) (3449147461705885,16) (-3712365596171977,16) (8621004782956946,16), (5583194939298769,18));
  (AB60 (-1374343715007393,16) (-7316743031605933,16) (6676559799961781,16) (2156393992013099,16) (6833409379505136,16) (-697527642486669,15) (-9682344920074247,16) (-4833336521007967,17) (2453280544385277,16) (8349620139874083,16) (-3005785120112467,16) (-4609674536398376,16) (2707068495207557,16) (-382762425939267,15) (883295379197488,15), (5527328487706799,18));
  (AB60 (-7714162505622421,17) (-7030174679247287,16) (7069763853739303,16) (1914268130905113,16) (6323853373088665,16) (-7506294427923552,16) (-9460793446965887,16) (-7063213061586224,17) (3161407529299838,16) (8277710678485793,16) (-2391029593226584,16) (-5075675660204951,16) (1954499019042335,16) (-393282377986208,15) (8984031984644416,16), (5423258675369044,18));
  (AB60 (-1796940743518355,17) (-6694005247986371,16) (7426843460015415,16) (1646613753285158,16) (5787399027639495,16) (-7987156918601862,16) (-9184514258826959,16) (-9066062203468767,17) (3850034154476116,16) (8166850992953698,16) (-1757670798811543,16) (-5496647907761274,16) (1197357340225097,16) (-4029728228827951,16) (9073457213300574,16), (5249745538006516,18));
  (AB60 (-9575099208056437,17) (-6469971153182326,16) (7564565290123904,16) (1156147133166672,16) (634720660451268,15) (-7640437953815286,16) (-9312486098913684,16) (-1227645486696461,17) (3641775874917256,16) (8597947874620929,16) (-174792080878978,15) (-4797923008083928,16) (1672048145098398,16) (-45992857957229,14) (8720712423290575,16), (524438031869523,17));
  (AB60 (-375860981483612,16) (-6138653409582205,16) (7885154585651631,16) (9075502073030195,17) (5810051396573693,16) (-8088241798462527,16) (-9024999654556418,16) (-328602013008512,16) (4294345346185294,16) (8464102779946139,16) (-1139845068904787,16) (-5201895553488314,16) (9367578560938911,17) (-4670206327668907,16) (8792704792954651,16), (4940003468310267,18))].

(** ahrens_beylkin/ahrens_beylkin_2412.hpp:1-4842. *)
Definition ab_2412 : coded := [  (AB12 (5257311121191336,16) (8506508083520399,16), (4048600261089583,18));
  (AB60 (-8443675829322399,17) (-9431714695611462,16) (3214000822258757,16) (5762493131090868,16) (6392145945910221,16) (-5092557620716145,16) (-9498341818600345,16) (-303956874970124,15) (-7365626333636063,17) (5936925203648385,16) (-6284340996341587,16) (-5025930497727261,16) (44057841978842,14) (-1078049495686335,17) (8976493953349626,16), (553336445655167,17));
  (AB60 (-3726276070390507,17) (-9233506788206541,16) (382145274190537,15) (5444189275234509,16) (6099109301220632,16) (-5758616923114918,16) (-9495938543436552,16) (-313439748698591,15) (519958926503985,17) (6131244530153969,16) (-5674485801531183,16) (-5496185167884908,16) (3737321620321634,16) (-4246234996894493,17) (9265642017139879,16), (5551321416674253,18));
  (AB60 (-2068006783241469,16) (-9422778731752116,16) (263336076467074,15) (5667458505382623,16) (7198195226604539,16) (-4008228981664319,16) (-9578917751061927,16) (-2224583505147576,16) (-1815368543028117,16) (6076235764905787,16) (-6945556986391188,16) (-3852089962354507,16) (5570688769397609,16) (-2526382402133518,17) (8300819270053363,16), (5406364616769832,18));
  (AB60 (-1635606652214296,16) (-9307868553661672,16) (326930785748123,15) (5390139660932909,16) (6987439542390165,16) (-4703411854928334,16) (-9670308021708002,16) (-2320429011271508,16) (-1049167274050904,16) (633901850714263,15) (-6401000164226772,16) (-4340972386882005,16) (4966896166779667,16) (-586439378163392,16) (8659447518414138,16), (5495901582301399,18));
  (AB60 (-1173896141034099,16) (-9140204919024838,16) (3883120122826412,16) (5090267192936672,16) (671975449639287,15) (-5379040752097016,16) (-9698895030184497,16) (-2420450422631968,16) (-2699165519993144,17) (6552936893131115,16) (-5815774907358084,16) (-4820350640937357,16) (4319854278087481,16) (-9039795890347847,17) (8973387315763083,16), (5525092186023453,18));
  (AB60 (-6981916714934691,17) (-8916914971943155,16) (4472265172481744,16) (4762050071635015,16) (6405312355188909,16) (-6024520955869044,16) (-9665821427761824,16) (-2511602616754246,16) (5135644284153595,17) (6722712627362514,16) (-5193556255280081,16) (-5275614500050375,16) (364130047189278,15) (-1211756099908829,16) (923431524411676,15), (5510574927054352,18));
  (AB60 (-2189193514864094,17) (-8637558187680764,16) (5034348306580878,16) (4403107410438928,16) (6051587751926659,16) (-6632565929779292,16) (-9572755317033492,16) (-2585970435754105,16) (1294261389987636,16) (6851485281265701,16) (-4538407010452614,16) (-5697368800426564,16) (2940189387254201,16) (-1513180741474046,16) (9437455717019806,16), (5463256720741846,18));
  (AB60 (-317592781450219,15) (-9277210549515449,16) (1961338047617139,16) (5543336303554711,16) (7814071638025957,16) (-2865607625180169,16) (-9467505686350375,16) (-1463138911489492,16) (-2868023815209468,16) (6041535439682358,16) (-7506167638733235,16) (-2675312488345243,16) (6601898061170206,16) (-3079039992927216,17) (7504674351171849,16), (5222134337237888,18));
  (AB60 (-2835349154456339,16) (-9220211969262713,16) (2635998181749815,16) (526513801028428,15) (7718519870875327,16) (-3564094939190371,16) (-9653478339461389,16) (-1501692098387386,16) (-2134309441292586,16) (639944409364671,15) (-7017480157711574,16) (-3130828568991694,16) (6089383400271018,16) (-7010397131637529,17) (7901136192034096,16), (5387838430077603,18));
  (AB60 (-2424505436060339,16) (-9128031795097146,16) (3286458418755585,16) (4992290255353569,16) (7541053500977922,16) (-4267264943929591,16) (-9777175439503327,16) (-1586978294119223,16) (-137416895583016,15) (6691770379989931,16) (-6490717020747744,16) (-3618121299523409,16) (5509910495573737,16) (-1050336480230179,16) (8278748674109153,16), (5465902560231534,18));
  (AB60 (-1977291206960925,16) (-8988805706314582,16) (3910459238631879,16) (4705850370447983,16) (73024634029646,14) (-4952676098768954,16) (-9838342780638016,16) (-1686342303349983,16) (-6027113460024627,17) (6929967305729879,16) (-5927883542006137,16) (-410313902444552,15) (4885666681869062,16) (-1374579860958462,16) (8616309609079862,16), (5487315994181364,18));
  (AB60 (-1511304799417341,16) (-879834226380672,15) (4506121526564784,16) (4397928783764212,16) (701431052873971,15) (-5608713775844645,16) (-9838088043729756,16) (-178403173506701,15) (1710392121573973,17) (7120018575261986,16) (-5331966517164971,16) (-4568967995921609,16) (4229374267885112,16) (-1682344011574739,16) (8904050310328996,16), (5461271956225709,18));
  (AB60 (-1038204898796487,16) (-8555834823098065,16) (5071471292236354,16) (4065257169461693,16) (6685013634104422,16) (-6227702373907916,16) (-977837437644092,15) (-1870821188993644,16) (9399056511033678,17) (7265907272704403,16) (-4706903084204567,16) (-5005162820565061,16) (3550672002533005,16) (-1978110549899855,16) (9136728461698047,16), (5396350955274934,18));
  (AB60 (-5679964667997291,17) (-8262025001234981,16) (5605026573770292,16) (3706084786078608,16) (6322579760221602,16) (-6803669652035792,16) (-9662152481820984,16) (-1939445241013379,16) (1697457385371181,16) (737166611883552,15) (-4057125908050692,16) (-5403542171449789,16) (2858482829785192,16) (-2265453852170911,16) (9311111359848899,16), (5304976777097624,18));
  (AB60 (-1129770815960667,17) (-7914663750049559,16) (6111082874800955,16) (3312644202964897,16) (5937160716358086,16) (-7333246962478313,16) (-9493550754141991,16) (-1977503033691472,16) (2441715755420983,16) (744622404407438,15) (-3382467879341036,16) (-5754359958385881,16) (2160303791663678,16) (-255469283701705,15) (9423727077765851,16), (5229191525884871,18));
  (AB60 (-4085353494374839,16) (-9046516703139322,16) (121260973351715,15) (5450037228187057,16) (8203095771749258,16) (-1733872535939303,16) (-918753427728601,15) (-8434209313900648,17) (-385718226639444,15) (5819226030314142,16) (-797492454376886,15) (-1592854961792616,16) (7453661741346707,16) (-2281712279803983,17) (6662646961704207,16), (4930402035316353,18));
  (AB60 (-3881439470320993,16) (-9015631717729073,16) (1911233206207919,16) (5138751912597779,16) (8238569893923879,16) (-2391483824679511,16) (-944884663673946,15) (-7770618238051936,17) (-3180483006928655,16) (6272923295000504,16) (-7537613430531541,16) (-1958268905669124,16) (705736281205995,15) (-7009564633923385,17) (7049985118805697,16), (5122292843384051,18));
  (AB60 (-3583023191908591,16) (-8966881737488552,16) (2599418533468488,16) (4847435387905027,16) (8185432024572861,16) (-3082381016549233,16) (-9661284036452161,16) (-7814497129156917,17) (-2459456670319404,16) (6665404208457824,16) (-7061865502983673,16) (-2387978717585623,16) (6578903019902929,16) (-1123566521589187,16) (7446853921373515,16), (5345362346599311,18));
  (AB60 (-32007750340991,14) (-889374984140878,15) (3264391664541681,16) (4573905052440682,16) (8045108819100916,16) (-3788880660575399,16) (-9816484478397711,16) (-8486410223078644,17) (-1707759028854214,16) (6989655694674499,16) (-655209281385603,15) (-2866146023586468,16) (6027603817822311,16) (-1493016005244886,16) (7838296716982364,16), (5413046900750783,18));
  (AB60 (-2775185060586835,16) (-8780628541861707,16) (3898577982975229,16) (4296809373915421,16) (7840212998116421,16) (-4479786752558529,16) (-991054604940425,15) (-9404155437452857,17) (-9469401288994347,17) (7254971813145363,16) (-6011968066429021,16) (-3349869245015986,16) (5430759296845721,16) (-18282449316874,14) (819538735689065,15), (5411278592994679,18));
  (AB60 (-2327020048548078,16) (-8622137890679171,16) (4499301711129164,16) (4006716484586459,16) (7584028402425389,16) (-5140888658913761,16) (-9944195678220766,16) (-1038109488253783,16) (-1878856132142913,17) (746790870746184,15) (-5444893967091602,16) (-3818830871372167,16) (4803307019307004,16) (-2139134435333787,16) (8506018195715623,16), (5357040469962411,18));
  (AB60 (-1869238886901775,16) (-8417600631564944,16) (506457753333599,15) (3700066613530177,16) (7286086868962891,16) (-5763891497362339,16) (-9919897312064484,16) (-1131513762602054,16) (561528203332622,16) (7633130384264113,16) (-4855319778728495,16) (-4261594816862799,16) (4156005814702146,16) (-2430767090234396,16) (8764644146866167,16), (5259608880060647,18));
  (AB60 (-1411858698121413,16) (-8167603922906096,16) (5594363339564911,16) (3374260375796459,16) (6954772986523101,16) (-6343934080856963,16) (-984120037811258,15) (-1212830936382994,16) (129607724985402,15) (7755792778978375,16) (-4246837038547669,16) (-4670337625650479,16) (3497266297255617,16) (-2707935947975432,16) (896862371536137,15), (5147592270431433,18));
  (AB60 (-9615848894805085,17) (-7872166588613639,16) (6091333819570049,16) (3025903570570432,16) (6596347480088712,16) (-6879833392135046,16) (-9711529534907748,16) (-1275819108524928,16) (2014566875270506,16) (7841418281615554,16) (-3620195715337697,16) (-5040470445840938,16) (2831696142772702,16) (-2976151764751014,16) (9117237390140482,16), (5057224876835433,18));
  (AB60 (-5299525324125046,17) (-7523981589431663,16) (6565733116361261,16) (2640398074306309,16) (6219654513135602,16) (-7371851581959005,16) (-9533659868122578,16) (-1304327076296062,16) (272177522896178,15) (7901804114371509,16) (-2967926751761318,16) (-536217330326809,15) (2161808286163574,16) (-3251727761374284,16) (920613119066757,15), (502348324312048,17));
  (AB60 (-1411107113569537,17) (-711039300624294,15) (7030106618246399,16) (2193769861714474,16) (5841779884003512,16) (-7814152646364491,16) (-9311087695756146,16) (-1268613122239428,16) (3419688095136811,16) (7955263357721445,16) (-2280981077509747,16) (-5613457956851284,16) (1496935049391655,16) (-3560798806493765,16) (9223876479960873,16), (50197666861238,16));
  (AB60 (-4940931997111956,16) (-867448738309967,15) (5834891947241929,17) (5199231157898059,16) (8514849722468285,16) (-6821506948789104,17) (-8836384262939339,16) (-1596376606313857,17) (-4678977342858816,16) (5623082691990866,16) (-8252895068215145,16) (-5202538150392428,17) (8154233568060428,16) (-2619546542531397,17) (5782720352622251,16), (4877229943984443,18));
  (AB60 (-4708133406364203,16) (-8732897910177854,16) (125298600083508,15) (4983676584706858,16) (8562602860593919,16) (-13582341295938,14) (-9146449054243836,16) (-1702950495839349,17) (-4038993599179039,16) (6066367535958003,16) (-7893463053408756,16) (-9446829855278184,17) (7788214924650035,16) (-6691398071851631,17) (6236662585541938,16), (4875691890278515,18));
  (AB60 (-4521446308963219,16) (-8710281605160328,16) (1920291028455971,16) (4689416581514702,16) (8606470267623929,16) (-1984449963471054,16) (-9404115107217701,16) (-1038113375364001,17) (-339880012010102,15) (6505896272434273,16) (-748382407876173,15) (-1290616461413682,16) (7419665143746647,16) (-1122646188862199,16) (6609707609970673,16), (4714064981673692,18));
  (AB60 (-4279778397374701,16) (-8663159890201801,16) (2575491717354871,16) (4398373460535666,16) (8589864110270384,16) (-262079100058442,15) (-9618913691785657,16) (-732957799314175,17) (-2733336261535101,16) (690056939795912,15) (-7043421974430785,16) (-1665037199000566,16) (6998122691201236,16) (-1546442135839599,16) (6973865177890538,16), (5008159495877964,18));
  (AB60 (-394194642448207,15) (-8605535141266472,16) (322580584024223,15) (4130992818773754,16) (8488698044143597,16) (-3298015137411039,16) (-9793055531177024,16) (-116837097122875,16) (-2020498071273267,16) (7239961561893109,16) (-6567249690934793,16) (-2110494747500487,16) (6495040393765984,16) (-1921448353208803,16) (7356798659015984,16), (5195361037078676,18));
  (AB60 (-355192846776971,15) (-8516084033321879,16) (3854882215742431,16) (3864609341266322,16) (8322836625868967,16) (-397431568178613,15) (-991470407569877,15) (-1932474074529122,17) (-1288913701857083,16) (7526244149555841,16) (-6059821859956339,16) (-257569563940924,15) (5940388393912639,16) (-2263014765912628,16) (7719491557008753,16), (5211409240299324,18));
  (AB60 (-3134970019670437,16) (-8388608526945034,16) (4450079769783077,16) (359272795963146,15) (8105698561428988,16) (-4624927744228054,16) (-9980325755282794,16) (-2829099655160459,17) (-5595174437411655,17) (7759897763898491,16) (-5530245985499717,16) (-3033210515890294,16) (5355398011054739,16) (-2575452575929272,16) (8042807729414537,16), (5146625580586329,18));
  (AB60 (-2704082263098292,16) (-8221642285871869,16) (5009245176427365,16) (3311218369243109,16) (7846411536477108,16) (-524115053317742,15) (-9991678292640953,16) (-3752307493947601,17) (1598961571652262,17) (7945232796275713,16) (-4982433116213589,16) (-3471114526408335,16) (4750527759463533,16) (-2863978420263519,16) (8320463545670473,16), (5068593211023829,18));
  (AB60 (-2264415204628467,16) (-8013277862887268,16) (5537129371182171,16) (3014570505582054,16) (7549656390057046,16) (-5823663199305535,16) (-9951185437866666,16) (-4636214728302232,17) (8711851187440842,17) (8088078403934003,16) (-4414056066684494,16) (-3885755624326138,16) (412752223856113,15) (-3135600323372551,16) (8551699876764225,16), (50350977384811,16));
  (AB60 (-1818358950991323,16) (-7759119755239592,16) (604066481020098,15) (2695023520548602,16) (7217311254520398,16) (-6375520879039064,16) (-9859495966209822,16) (-5418085007191945,17) (1580121147520231,16) (8193879830030386,16) (-3818831156008843,16) (-4275144668068832,16) (348397508717076,15) (-3398480098511554,16) (8735688330749581,16), (5034142019352203,18));
  (AB60 (-137384475810327,15) (-7455870982895756,16) (6520930797596708,16) (2346919556344507,16) (6854477683986726,16) (-6892612296928914,16) (-9716933109714913,16) (-6013932989090309,17) (2284630613765251,16) (8266457055032184,16) (-3196002312118205,16) (-4631550170109757,16) (2824320812785999,16) (-365847537186852,15) (8867850353941215,16), (4999747408582632,18));
  (AB60 (-9568379993211183,17) (-7096133101880191,16) (6980641520910194,16) (1954892310658638,16) (6479301614855234,16) (-7361864345222756,16) (-9526892236876732,16) (-6168314870249565,17) (2976212899567578,16) (8318702344543875,16) (-2546250715966538,16) (-4931105210226216,16) (2165027891653975,16) (-3933050898888696,16) (8935533831568832,16), (4926143240760172,18));
  (AB60 (-5952970654082253,17) (-6668238382804398,16) (7428338863703685,16) (1496591832467555,16) (6111207582879312,16) (-7772602830837929,16) (-9292844515996592,16) (-557030799925085,16) (3651404865178179,16) (8367899896246155,16) (-1864505652292908,16) (-5147996697645735,16) (1520241685158663,16) (-4246701930586405,16) (8924930696171239,16), (497309689362395,17));
  (AB60 (-2083004833542232,17) (-6211353236717928,16) (7834264603480541,16) (1043589635537398,16) (5695116150234643,16) (-815331666918043,15) (-9006591017603881,16) (-5162370864832858,17) (4314489252757079,16) (8361617152534654,16) (-117232641412334,15) (-5358078888294477,16) (8532743484234506,17) (-4522789736111302,16) (8877854239017939,16), (5036469917591091,18))].

(** ahrens_beylkin/ahrens_beylkin_2472.hpp:1-4962. *)
Definition ab_2472 : coded := [  (AB12 (5257311121191336,16) (8506508083520399,16), (3153457962126668,18));
  (AB60 (1044679143874094,16) (-9451771200752298,16) (3093972633198934,16) (6422480820879011,16) (4836812543102413,16) (-5946173940302153,16) (-8870806235825613,16) (-4614958657649886,16) (1046580843498273,17) (4901494796428059,16) (-577683360262668,15) (-6527138905228839,16) (292463229552346,15) (9400210595242668,17) (9516453454077946,16), (5108646976639737,18));
  (AB60 (4394424143282057,17) (-9348791618551171,16) (3522355126530652,16) (5937948907089216,16) (54073470223566,14) (-5958301851753501,16) (-9188713685466722,16) (-3941444596194572,16) (1804308777487355,17) (5518859437425295,16) (-566635855893607,15) (-6118379784837951,16) (3230411833713221,16) (2590115365794702,17) (9460304033619867,16), (5067649915993836,18));
  (AB60 (4906784956766521,16) (-8700716198231709,16) (4701053348752018,17) (8320254539549432,16) (5259562189711604,17) (-5522384851930606,16) (-5757799995656241,16) (-8174759979260549,16) (1450465149566424,17) (6155998951640854,17) (-5287694660781039,16) (-8465301054506075,16) (2354151437256344,17) (4761738441809878,16) (8790359874424634,16), (4117144352353677,18));
  (AB60 (4481109978549261,16) (-8887446892389147,16) (9658887591791938,17) (8091890329992916,16) (1116905361147167,16) (-5768347536479391,16) (-6288300815102353,16) (-777054153124198,15) (2756032837732686,17) (1287237557930129,16) (-532241205592316,15) (-8367493613766185,16) (519953278622963,16) (4205506694775993,16) (905777908917211,15), (4643087954517948,18));
  (AB60 (400184496970717,15) (-9046181893442672,16) (1466911718263706,16) (782169713136362,15) (1738831007565579,16) (-5983102933457404,16) (-6815332640640502,16) (-7307350885877093,16) (392255054895953,16) (1981257963750234,16) (-5348420922376796,16) (-8213952186259573,16) (8322297071830988,17) (3609589914811216,16) (9288608849627327,16), (4926663807587123,18));
  (AB60 (3482747016088508,16) (-9166122572865599,16) (1962821999349489,16) (751036594937733,15) (2372005118040562,16) (-6161817509990291,16) (-7320731918566844,16) (-6794117454825037,16) (4968422149117156,17) (2679070493901782,16) (-5357909919217355,16) (-8007208164289045,16) (1158914408576554,16) (2985904801176792,16) (9473187948726819,16), (5080771933873994,18));
  (AB60 (2933100126508529,16) (-9241508051034282,16) (2447744388318397,16) (7159042658074878,16) (3004220790844728,16) (-630259991271225,15) (-7794031475804387,16) (-6237287260189553,16) (5910338298672662,17) (3369499786203721,16) (-534628708748599,15) (-7750076487942145,16) (1491431563092138,16) (2342066296641263,16) (9606787046393275,16), (5153336944962668,18));
  (AB60 (2359798200523222,16) (-9269430238155175,16) (2917021685346521,16) (6769833495424388,16) (3627007545291206,16) (-6404230688430163,16) (-8228419686256717,16) (-5642422692863969,16) (6754077449042317,17) (404443248790694,15) (-5311398000910197,16) (-7445241240328619,16) (1824188997826555,16) (1684390455618991,16) (9686855180770909,16), (5167979701245934,18));
  (AB60 (1767662356500732,16) (-9248700902921714,16) (336703154153705,15) (6345078144061655,16) (4234751531666323,16) (-6465822670844046,16) (-8619634268647519,16) (-5013949371255391,16) (7498111610565855,17) (4698160314343314,16) (-5252602727110469,16) (-709488930511824,15) (2153811597803473,16) (1017851195444146,16) (9712109685598704,16), (5144661490314444,18));
  (AB60 (1158842362285279,16) (-9178305533522303,16) (3796813389236685,16) (5885100445314579,16) (4824909463615228,16) (-6487360126929469,16) (-8965709867055742,16) (-4353396069907074,16) (8148553480814491,17) (5328517764644191,16) (-5168896477819058,16) (-6699955793396029,16) (2478349740126274,16) (3439870142038298,17) (9681913834551265,16), (5110705494038523,18));
  (AB60 (5338499412288414,17) (-9054715986537734,16) (4210358968471448,16) (53852083323976,14) (5396536792045318,16) (-6471238047605473,16) (-926562989229749,15) (-3658179194492416,16) (8751158094481182,17) (5937388106376632,16) (-5055270923826042,16) (-6260324141845718,16) (2794391844692016,16) (-3412658682192768,17) (9595567300869047,16), (5094980182214583,18));
  (AB60 (4688736608397813,16) (-8680018708273767,16) (1634938604684462,16) (7653712638286603,16) (1051965569402263,16) (-6349334712497374,16) (-6390852654685311,16) (-7628053138871504,16) (9847881277992275,17) (166059810409956,15) (-4755914050000848,16) (-863850076608583,15) (4151794218793698,18) (3703948480598586,16) (9288651242971064,16), (4885553508928784,18));
  (AB60 (4189945820309477,16) (-8820186017531499,16) (2156078068858587,16) (7352405811287885,16) (1686620399101524,16) (-6564864082025975,16) (-6918954952174656,16) (-7133565618429976,16) (1113689336094932,16) (2374918261716497,16) (-4762876883316069,16) (-8466095147382818,16) (3540908701486811,17) (3076256484214545,16) (9508483880146472,16), (5060183180901162,18));
  (AB60 (3654603603090981,16) (-892025871084518,15) (2659484355258571,16) (7016233334724654,16) (232531879486727,15) (-6735381377096296,16) (-7417048447865169,16) (-6594939915977911,16) (1222358305351654,16) (3080777774005314,16) (-4757564092606597,16) (-8238591640076307,16) (681667070768873,16) (2432245297739327,16) (9675717689983225,16), (5154201770818406,18));
  (AB60 (3090215133659078,16) (-8975827957753754,16) (3144055168172227,16) (6644498764897755,16) (2959443897689635,16) (-6862385006664942,16) (-7878695947919373,16) (-6016384060064118,16) (1315018251601567,16) (3772169873005864,16) (-4734640779747146,16) (-7959517016499322,16) (1016310941254432,16) (1775196882057511,16) (9788553933069982,16), (5191584198236365,18));
  (AB60 (2501873259860289,16) (-8984789641760782,16) (3607517884211278,16) (6238209924031908,16) (3583121169614007,16) (-69459325959567,14) (-8299485098105029,16) (-5401668472146774,16) (1393027215580545,16) (4444059336096411,16) (-4691967213893751,16) (-7631237139612452,16) (1353552502148329,16) (1108846044279744,16) (9845727808243185,16), (5190511301968411,18));
  (AB60 (1892524829342132,16) (-8946157269949063,16) (4047791974850124,16) (579851961285798,15) (4192830395683417,16) (-698550954278459,15) (-8676666918621572,16) (-4753326874265645,16) (1456480281254101,16) (5092984713442459,16) (-4628874943771448,16) (-7254999894112082,16) (1691157375836981,16) (4360445480880307,17) (9846311587708104,16), (5171232885825426,18));
  (AB60 (1264412781167807,16) (-8857835506103047,16) (4465423884206254,16) (5324152552997795,16) (4785878192489396,16) (-6982031904758205,16) (-9008126362632561,16) (-4071957313613651,16) (1507588495230895,16) (5717619123590398,16) (-4542702478426308,16) (-683174104822869,15) (2026094457874357,16) (-2431757140630887,17) (9789576437204049,16), (515510484245123,17));
  (AB60 (622023844519598,16) (-8714131039477118,16) (4865902440829502,16) (4809144820595459,16) (5357484205802617,16) (-6940424272270058,16) (-9290615383698969,16) (-33566468336745,14) (1554795107452748,16) (631840042775046,15) (-4424712942869468,16) (-6363939928048207,16) (2350191111428911,16) (-93277126293315,15) (9675047261424961,16), (5151890764388253,18));
  (AB60 (-2724942793530121,18) (-850659113513637,15) (52571061172756,14) (4245003197567795,16) (5899875949325495,16) (-6868144701097217,16) (-9518950387481401,16) (-2606715185810876,16) (1610782251184391,16) (6895394129032519,16) (-4261844270205802,16) (-5855785448752187,16) (2650805686384183,16) (-1638031679119692,16) (9502109314843394,16), (5156454834437117,18));
  (AB60 (3813603879718452,16) (-8622622940378031,16) (3332686465400383,16) (6487973670800149,16) (2255897876414649,16) (-7267538951955601,16) (-7463723318906063,16) (-6366725063963382,16) (193846490262742,15) (345393507223715,15) (-413103685350568,15) (-8426438573427569,16) (1961843669504614,17) (1875138977091031,16) (9820660136200532,16), (5211881751218507,18));
  (AB60 (3232741685970457,16) (-8660224908663019,16) (3814431245043158,16) (609802562308522,15) (2893493570550216,16) (-7378467215986032,16) (-7914512629349998,16) (-5766731338112803,16) (2026153872213833,16) (4145725530015575,16) (-410008138430684,15) (-8124179495299053,16) (5360454133639653,17) (1206587813756624,16) (9912456868128379,16), (5226680771243777,18));
  (AB60 (2627241077311231,16) (-8652171436292972,16) (4270542560223996,16) (567634459130363,15) (3520273264592468,16) (-7442230057138352,16) (-8323162869109395,16) (-5131898171700505,16) (2094894033018299,16) (4814988979827121,16) (-4052620308885399,16) (-7771238624321929,16) (8809328119710433,17) (5323470442929316,17) (9946887151527626,16), (5220807423894845,18));
  (AB60 (2000603711948453,16) (-8596707218198195,16) (4700447828911317,16) (5222878866734135,16) (4132349467429619,16) (-745957265682533,15) (-8686885603642104,16) (-4464357750768576,16) (2146515404647286,16) (5458968944876876,16) (-3986437774730787,16) (-7369394271381421,16) (1227312946816774,16) (-1459116926988326,17) (9923326695645452,16), (5210709903500663,18));
  (AB60 (1358123010669485,16) (-8490159647709437,16) (5106142481785682,16) (4735295289809049,16) (4724220030343083,16) (-7433621164897861,16) (-9002071590097652,16) (-3765939617366353,16) (2186413932700597,16) (6075498154228377,16) (-3895929108311971,16) (-6921709222509645,16) (1568450425199791,16) (-8282909220311117,17) (984143777159473,15), (5204478217018009,18));
  (AB60 (7070349173203863,17) (-832606598200051,15) (5493334769433192,16) (4207747296077437,16) (5288563526817217,16) (-7370614527647722,16) (-926411045537366,15) (-3037502455183294,16) (2224822758197137,16) (6663579610327336,16) (-3770775685940467,16) (-6432570054274573,16) (1893495927725937,16) (-151778784087675,15) (970108206551063,15), (5195404949512149,18));
  (AB60 (5483157356994266,18) (-8096398609023447,16) (5869013806623991,16) (3632561052683092,16) (5817464636133335,16) (-7277472459986912,16) (-9467687083184217,16) (-2278933972890113,16) (227362293314305,15) (7222640886416969,16) (-3598673276560227,16) (-5906183985826142,16) (2190214623197305,16) (-2218791359573108,16) (9501574859307083,16), (5174695459364179,18));
  (AB60 (3350636795521873,16) (-8298611865307807,16) (4461644783425435,16) (5518299348837155,16) (2817307884041484,16) (-784927694651814,15) (-7909136708674042,16) (-5481303981266323,16) (2720452754314751,16) (4498640150996267,16) (-3447491925248606,16) (-8238752103151905,16) (5985976215590163,18) (6301840412071223,17) (997994413226259,15), (5244653051578058,18));
  (AB60 (2730682024496823,16) (-8273687831908595,16) (4908102010066375,16) (5083330208937784,16) (344436268313853,15) (-7892789094730918,16) (-8303777915396748,16) (-4829325148770064,16) (277936880230498,15) (5162107070234094,16) (-3395675905330374,16) (-7862699011242763,16) (4109888206658314,17) (-486867778081559,17) (9991432219004158,16), (5241748290047758,18));
  (AB60 (2093351685520544,16) (-8200353779524711,16) (5326544528243717,16) (4617834549429751,16) (4052612581494991,16) (-7889989565164294,16) (-8650616585614892,16) (-414774119802972,15) (282189220964436,15) (5796637879643749,16) (-3324072057371174,16) (-7439726759074112,16) (7606270204505988,17) (-7285405241238167,17) (994437907767347,15), (5238626831102711,18));
  (AB60 (14452452182752,14) (-8074751083690197,16) (5719236067474105,16) (4119598151802007,16) (4635488738912973,16) (-7844817092774089,16) (-8945623552303777,16) (-3439262344777224,16) (28543464723585,14) (6399571874498888,16) (-3226387484829673,16) (-6973944624160507,16) (1100806459529689,16) (-14091012540833,14) (9838834219276112,16), (5229167208214119,18));
  (AB60 (7926988050380125,17) (-7891502654848569,16) (6090633337593825,16) (3584000492308054,16) (5186553730550918,16) (-776238371064224,15) (-9184719025546961,16) (-2704948924297652,16) (2885166847635793,16) (6969684905604228,16) (-3094085687953136,16) (-6469167339943848,16) (1422335314904721,16) (-2092468042597781,16) (9674633829901879,16), (5199370744116574,18));
  (AB60 (1424595230057541,17) (-7643143164095586,16) (6446864963487593,16) (3004022642069568,16) (5698510241083681,16) (-7648714205551008,16) (-9362842778318506,16) (-1944632923011906,16) (2924991949258521,16) (7506254682545254,16) (-2915977814830914,16) (-5929014591328088,16) (1714128572767498,16) (-2782532426252767,16) (945088760555716,15), (5142816392362821,18));
  (AB60 (217746233137766,15) (-775681095800141,15) (5923726998880064,16) (3986401252743915,16) (394733376099653,15) (-8278113385996759,16) (-8564382521609999,16) (-380947719700488,15) (3484140569644255,16) (61006510546191,14) (-2640655522729934,16) (-747054182238817,15) (2862691356132394,17) (-1306678238266595,16) (991012825162398,15), (5240719482084458,18));
  (AB60 (1529861890001599,16) (-7613059901017063,16) (6300860381015183,16) (3481417971666738,16) (4515918619368159,16) (-8214998961034616,16) (-883677170656778,15) (-3097141281648904,16) (3509869183817162,16) (6685137071033018,16) (-2535911325552597,16) (-69912871554839,14) (6217727455331632,17) (-1980007293815563,16) (9782278352681921,16), (5215449918392769,18));
  (AB60 (8799843667645818,17) (-7413933364395799,16) (665276029799276,15) (2943548062077783,16) (5050860366283779,16) (-8113219728723106,16) (-9052448111841479,16) (-236307299811202,15) (3531156919199642,16) (7233235361958523,16) (-2399687813848718,16) (-6474704981277425,16) (9392283831183738,17) (-265117255243506,15) (9596308360070543,16), (5153579881975305,18));
  (AB60 (2354322218730698,17) (-7152018456554468,16) (6985213215500882,16) (2366250425267636,16) (5544090152680712,16) (-7978967558767832,16) (-9205958525604054,16) (-1607928303873756,16) (3558777064450608,16) (7743535336894762,16) (-2220745310103173,16) (-5925027489718244,16) (1226990966836222,16) (-3323344842577539,16) (9351463640768518,16), (5048478525628237,18));
  (AB60 (1611843417860899,16) (-7108510989670467,16) (6846242203284418,16) (2825872102092692,16) (4365851965936235,16) (-8541298699503779,16) (-8675940288596277,16) (-2742659023734232,16) (4147997298485277,16) (6929455281642879,16) (-1829698085311858,16) (-6973869400577969,16) (1346415890924979,17) (-2536153880624378,16) (9672114305377111,16), (5159399140363093,18));
  (AB60 (9677603974949024,17) (-6898263731886578,16) (717477506953206,15) (2292479465319537,16) (488332468518996,15) (-8420075885649881,16) (-8869145716233638,16) (-2014939046696618,16) (4156714435983284,16) (7452315488154979,16) (-1694370646701578,16) (-6449193901302821,16) (449069830583757,16) (-3188954038488382,16) (9467254534851597,16), (5052290717446618,18));
  (AB60 (3332700085906529,17) (-6629887862374232,16) (7478871441181272,16) (1727242327240307,16) (5356421204592261,16) (-8265917119230261,16) (-9000141575681585,16) (-1273466657781971,16) (41684210786826,14) (7932647110639607,16) (-1521270134500314,16) (-5895663405922906,16) (7342244564513252,17) (-3835151070091947,16) (9206113768421578,16), (4875276129645847,18));
  (AB60 (4340592907828777,17) (-6084690647532256,16) (7923896279982378,16) (1094801696794955,16) (5139802593135424,16) (-8507869213163379,16) (-875043458194084,15) (-9448880543968315,17) (4747323581959839,16) (8073809922380502,16) (-826538301958463,16) (-5842125278754794,16) (2425653687774615,17) (-4313264291176961,16) (9018697976777333,16), (4590237816486096,18))].

(** ahrens_beylkin/ahrens_beylkin_2712.hpp:1-5442. *)
Definition ab_2712 : coded := [  (AB12 (5257311121191336,16) (8506508083520399,16), (3124818750910576,18));
  (AB60 (-4955750323576112,16) (-8671001002679726,16) (5042621757602397,17) (5231445011665824,16) (8500612314922483,16) (-6095681760927085,17) (-8798529327154391,16) (-1703886877572421,17) (-474940516004778,15) (5565318499668821,16) (-829426715139415,15) (-4820398516180436,17) (8188961151061682,16) (-2063451635283328,17) (5735707187426063,16), (3975421765762968,18));
  (AB60 (-4505750238811367,16) (-887995678096282,15) (919011617817608,16) (533217674000348,15) (8369197114022439,16) (-123467845206934,15) (-9035895150224469,16) (-5107596669403815,17) (-4253436657195788,16) (5740428690880707,16) (-811688353240686,15) (-1078740082807692,16) (7801216698155129,16) (-2523135816155785,17) (6251188357821088,16), (4132526566281827,18));
  (AB60 (-3993012184535626,16) (-9079533445937731,16) (1271977239673782,16) (5475599615154719,16) (8163244022521755,16) (-1838275246876899,16) (-9215394102363985,16) (-9162894234159756,17) (-3773185024704075,16) (5831287431412525,16) (-7943416862690204,16) (-1702414590450644,16) (7377118855487087,16) (-219827159831552,16) (6747576854828501,16), (4310924045792292,18));
  (AB60 (-3448495086829709,16) (-9241103813206618,16) (1646171907684449,16) (558748049097617,15) (7919138132004175,16) (-2463191630628466,16) (-9364939572358398,16) (-1321965681202443,16) (-3248124619499483,16) (5911686717458176,16) (-771876766467395,15) (-2339355871476686,16) (6901747941729932,16) (-2003704673302257,17) (7233652398660618,16), (4591612091053356,18));
  (AB60 (-2883463440325857,16) (-9352001617257234,16) (2055651803959576,16) (5647063132083765,16) (7644003076452114,16) (-3111252954912364,16) (-9484793347482424,16) (-170799854080512,15) (-2668601907396592,16) (5994716395238221,16) (-7429141543522849,16) (-2978461224687173,16) (6373540392570061,16) (-2148615329292654,17) (770271493604334,15), (4740535809269374,18));
  (AB60 (-229919746299819,15) (-9414561271559017,16) (2465710260797841,16) (5673193843386334,16) (7329316830560024,16) (-3754462200186993,16) (-9559886283164585,16) (-2085244440998992,16) (-2064056654804909,16) (6053659663185182,16) (-7094176022366744,16) (-3609137188581425,16) (5805424082977592,16) (-2351408081932813,17) (8138904104184175,16), (4790112216116554,18));
  (AB60 (-1694018790852302,16) (-9434056591435916,16) (285111847628678,15) (5683272275059396,16) (696856234845699,15) (-4374877717514948,16) (-9581351941673897,16) (-2465494242978926,16) (-1455689907782429,16) (606889650836725,15) (-6730233465387118,16) (-4227582367276967,16) (5206474224158949,16) (-2383288830698728,17) (8534390751346175,16), (4786345046964754,18));
  (AB60 (-1068965265892031,16) (-941119674264539,15) (3207286880142962,16) (5679846228577616,16) (6561515589625863,16) (-496848668980902,15) (-9547789975834922,16) (-2849681153019528,16) (-8479527719581288,17) (6037451955701051,16) (-6340503095691961,16) (-4831893456619488,16) (4579303286025903,16) (-2210124939339022,17) (8887133108720578,16), (4769874915526461,18));
  (AB60 (-4314685105066299,17) (-9335183871238126,16) (3559238263254756,16) (5639372163534984,16) (6116522403531865,16) (-5548480448576848,16) (-9465272631358128,16) (-3218661467706262,16) (-2209804750781365,17) (5979948959083478,16) (-5906034368103372,16) (-5418391688456847,16) (391679218278128,15) (-2104880354284933,17) (919861042678974,15), (4779784926105363,18));
  (AB60 (-4672686573230873,16) (-8708691678092988,16) (1524693229558607,16) (4839193391053626,16) (860578480531994,15) (-1588293174608313,16) (-9251765741644187,16) (-1029068727730484,17) (-3793974279996512,16) (6260979747839185,16) (-772707251208558,15) (-1045219111057114,16) (7663472567035875,16) (-8787122932343602,17) (6363886620612234,16), (4383736699352494,18));
  (AB60 (-4123042951607335,16) (-8906300659492319,16) (1917896082150376,16) (497231020888239,15) (8381424628963934,16) (-2242287308897045,16) (-9438386972201787,16) (-5248760305283857,17) (-3262109212694811,16) (636533026050438,15) (-752049089005141,15) (-1710200996187579,16) (719609966330474,15) (-860933738912523,16) (6890206291032765,16), (4620305691007734,18));
  (AB60 (-3555005258126309,16) (-905233479676296,15) (2327481974583004,16) (5061194662208093,16) (8121458551545467,16) (-2902795133447296,16) (-9585790716497748,16) (-9308762452174921,17) (-2691855448495585,16) (6457800391573605,16) (-7258308741914744,16) (-2369339213712508,16) (6682995583050453,16) (-8631498096307237,17) (7388676636791096,16), (4770773354312371,18));
  (AB60 (-297079957231949,15) (-9143495599534303,16) (2751515604608334,16) (5103457970983084,16) (7825440222767279,16) (-3566118626504904,16) (-9691028685048515,16) (-1318055376767024,16) (-2084872429992392,16) (6536918198824394,16) (-6939513080440181,16) (-3018585540990692,16) (6124910058543611,16) (-885927142327098,16) (7854973575591419,16), (4826182731666634,18));
  (AB60 (-2365530980797766,16) (-9187254473920287,16) (3162059204113301,16) (5120626125205181,16) (7484512032436704,16) (-4214411907037134,16) (-9744663876892377,16) (-1702742441483583,16) (-1463623621140137,16) (65799428878349,14) (-6582604672779075,16) (-3657002504065044,16) (5530251969855242,16) (-9019073596576284,17) (8282685329318482,16), (483356885732872,17));
  (AB60 (-173788373853271,15) (-9190079970627351,16) (3538670688947696,16) (5128559921974022,16) (7094526844415847,16) (-4833793746177503,16) (-9741301829830668,16) (-2095553126211504,16) (-8459880349998347,17) (6571677484710213,16) (-6202631140882972,16) (-4282571886974187,16) (4907508083653164,16) (-8918957035328752,17) (8667230610921718,16), (480136349147472,17));
  (AB60 (-1093968897620671,16) (-9149804093403866,16) (3883853383351189,16) (5122365334407177,16) (6660118175310837,16) (-5422563902044667,16) (-9682328679123196,16) (-2489685918093028,16) (-2323260180818396,17) (6516532799665338,16) (-5798475295772006,16) (-4890039316325338,16) (4259764777078528,16) (-8616428795388317,17) (9006218717758366,16), (4752606235700638,18));
  (AB60 (-4416229480328941,17) (-9050599896343435,16) (4229847596318209,16) (5070696331222744,16) (6189675209114642,16) (-5997996292279266,16) (-957348191963721,15) (-2860924687228793,16) (4044179377627476,17) (643961924031216,15) (-5343634323319001,16) (-5475114268985491,16) (3575485627357944,16) (-8460408857956417,17) (9300543927540953,16), (4739915887142062,18));
  (AB60 (-4198211867038913,16) (-8697481969507943,16) (259399778518369,15) (4442093016108168,16) (8546755130167764,16) (-2687152094912765,16) (-963072842709506,15) (-1507268393401793,17) (-268818737878252,15) (6885363961951678,16) (-7036730641911371,16) (-1753905637325648,16) (6943576332182294,16) (-1510024488256393,16) (7036090801291858,16), (4696929661631947,18));
  (AB60 (-3623528157513267,16) (-8819533002237565,16) (3014279568014711,16) (4508280516985795,16) (8272725972456878,16) (-3352224897706551,16) (-9762023645535988,16) (-5468070297806875,17) (-2098546262577666,16) (6975753055219819,16) (-6747744077521277,16) (-2409734254408129,16) (6409798747829436,16) (-1524981894935601,16) (7522560085000506,16), (4782439922002564,18));
  (AB60 (-3025565802574858,16) (-8890513992003269,16) (3435798674585525,16) (4539726320370829,16) (7954711327582219,16) (-4014156527960446,16) (-9845427496146971,16) (-9358026644210499,17) (-1480483296554085,16) (7039722330535304,16) (-6409628821561446,16) (-3059243023816744,16) (5831270968186525,16) (-1545082506020773,16) (7975524994956354,16), (4809165272655103,18));
  (AB60 (-2402596297761667,16) (-8916837154843992,16) (3836345420315491,16) (4553256997554311,16) (7587655744103503,16) (-4657824709367647,16) (-9874488591131175,16) (-1329181410740488,16) (-8530837244738484,17) (7060421007129315,16) (-6038143170815684,16) (-3700173273080463,16) (5216663881763528,16) (-1549512573287819,16) (8389602417869803,16), (4799193872411476,18));
  (AB60 (-1759371465552515,16) (-890401755227433,15) (419798564492427,15) (4560833013266535,16) (717261909761118,15) (-5268048737975141,16) (-9846170022738975,16) (-1731398454663149,16) (-2349367457560391,17) (7027420203527656,16) (-5648184377814704,16) (-4325896267510496,16) (4578121284763834,16) (-1524434719796476,16) (8758818658190806,16), (4746724614818868,18));
  (AB60 (-1103263639872502,16) (-8847783093672619,16) (4527642175377407,16) (4553258583639228,16) (67155689574095,14) (-5845422982881014,16) (-9762755187009765,16) (-2132214136263119,16) (3771923059046407,17) (6948686622753516,16) (-5235113011632357,16) (-4930450889543869,16) (3917332204128751,16) (-1480455945777143,16) (9080900759016635,16), (4682979048996838,18));
  (AB60 (-4360110870339674,17) (-8727052133470372,16) (4862967755565904,16) (4494114773361331,16) (6219006125448819,16) (-6413025433871715,16) (-9626552200186015,16) (-2508046008021552,16) (1019410593794741,16) (6849036520905682,16) (-4763584444620111,16) (-5513525367156071,16) (32135267663143,14) (-1455421680828708,16) (9357082528927235,16), (46960724144277,16));
  (AB60 (-3676935810073758,16) (-8542601058978072,16) (3674793898403551,16) (3937476831138302,16) (8381577852496581,16) (-3774311712986604,16) (-9884742034619063,16) (-1610232064814908,17) (-1505306093792689,16) (7451247523060363,16) (-6209948136215512,16) (-2432170737345613,16) (6110430321632458,16) (-2171629716281069,16) (7612270729541853,16), (4751592471326543,18));
  (AB60 (-3062392639648551,16) (-8597366561759766,16) (4087424558736398,16) (3965372006866206,16) (8039294621679383,16) (-443233198587367,15) (-9945459303802917,16) (-5580719400803839,17) (-8811327630356876,17) (749472462552222,15) (-5858034745066519,16) (-3084239243830519,16) (5513127317929247,16) (-2181259876612863,16) (8052796565602605,16), (4755938681735916,18));
  (AB60 (-2424860421353899,16) (-8607642530260241,16) (4475325910836714,16) (39767430538812,14) (7648526316807707,16) (-506809232991148,15) (-9950715123089016,16) (-9591162134525349,17) (-2517233167984946,17) (7492952751265379,16) (-5475389212252302,16) (-3725019737082705,16) (4882622793177536,16) (-2173137104555405,16) (8452068964717914,16), (4735236179241731,18));
  (AB60 (-1770684251222159,16) (-8580518467924338,16) (4820724022808522,16) (398425172439489,15) (721245853311237,15) (-5666231561169284,16) (-9899318797802864,16) (-1368059934811968,16) (3631795068958686,17) (7436915812391444,16) (-5078594774994342,16) (-4347431231290759,16) (423308723663358,15) (-2133863758118028,16) (8804975747203412,16), (4684633839733824,18));
  (AB60 (-1103757017689844,16) (-8510334921816305,16) (5133801706768024,16) (3977025050061197,16) (6734557619022277,16) (-6231292436345348,16) (-9792986109082764,16) (-1775777302794029,16) (9716161990176926,17) (7335049454035193,16) (-4659184402314739,16) (-4948641249078889,16) (3561693672737416,16) (-2075373216707537,16) (9110826756829221,16), (4650179225563446,18));
  (AB60 (-4305716866400407,17) (-8366203684373888,16) (5460883072748649,16) (3904905454217993,16) (6218947327749237,16) (-6787960483701949,16) (-9631896463903556,16) (-2147256356624652,16) (1617362249954289,16) (721853217034199,15) (-4171013391154907,16) (-5522267704172281,16) (2843935980201607,16) (-204793393659433,15) (9365788526966642,16), (4692542249407491,18));
  (AB60 (-3084547213448943,16) (-8268288728972709,16) (4703293525004285,16) (3384361824728001,16) (8082993108878413,16) (-4817812516189048,16) (-9994010367547509,16) (-1852956200942956,17) (-2922709471137536,17) (790235972963799,15) (-5290716842543224,16) (-3092090877614247,16) (5176197851358462,16) (-2792276266335189,16) (8087655349732286,16), (4706904312571598,18));
  (AB60 (-2437227617938361,16) (-8262313521875949,16) (507878891120554,15) (3391812843345872,16) (7672347407415627,16) (-5443408022152729,16) (-9976891260757261,16) (-5899661144603217,17) (3370174399255445,17) (788063564009109,15) (-4898102349551722,16) (-3728830283271417,16) (4533483238604533,16) (-2774245057863906,16) (8470601754551412,16), (4694056974679437,18));
  (AB60 (-1775319265767064,16) (-8221146264493432,16) (5409343361481316,16) (3397771536913368,16) (7218415615800555,16) (-6029064983934744,16) (-9904322545521237,16) (-1002730648692876,16) (9481171659935701,17) (7804384249701808,16) (-4494979184039921,16) (-4345888702906938,16) (3875257561586494,16) (-2723436431760634,16) (8807114898394685,16), (467474971242888,17));
  (AB60 (-1106210038347801,16) (-81345245105702,14) (5710149764935347,16) (3384055986545537,16) (6726738293447767,16) (-6580209496010651,16) (-977788115387615,15) (-1407786217122433,16) (1552796866159164,16) (7686419534358452,16) (-4067731388940802,16) (-4936852852704701,16) (31976716578655,14) (-2659006904506964,16) (9094205751480885,16), (4668486886103831,18));
  (AB60 (-4404576810858354,17) (-7965061693712017,16) (6030239567922152,16) (3292641578738344,16) (6202315102797615,16) (-7119676874660259,16) (-9595098964177504,16) (-1762746590914402,16) (2196998025456428,16) (7560134555746094,16) (-3564859396255352,16) (-5489639604194771,16) (2475422089517245,16) (-2637455706542264,16) (9322881146660497,16), (4668495206185562,18));
  (AB60 (-2439335271457106,16) (-7879004286005262,16) (5654284649231589,16) (279330998765704,15) (7660235880235605,16) (-5789490959661866,16) (-9955186744605572,16) (-2187684057696569,17) (919998513404516,16) (8228826231118972,16) (-4300902095373983,16) (-3713308501061556,16) (4165695784943707,16) (-3359333784861622,16) (8447594636888629,16), (4708945918504183,18));
  (AB60 (-1777779480491416,16) (-7820429969803083,16) (5973305216222374,16) (2790844069055751,16) (7194321621271396,16) (-6360261456255022,16) (-9862877428723951,16) (-6261083485316875,17) (1526969928278403,16) (8138040936746438,16) (-3889572212501577,16) (-4317813997334154,16) (3502615972468929,16) (-3304749408769819,16) (8764149285278126,16), (4703848854383004,18));
  (AB60 (-1115034394083484,16) (-7715780787091379,16) (6262860779672691,16) (2766202814707918,16) (6695302581994994,16) (-6893550995200742,16) (-9718192748549347,16) (-1020478205096384,16) (2124936219034855,16) (8008585389284226,16) (-3455331968876656,16) (-4891139033742773,16) (2824641753348605,16) (-3239970613118339,16) (902906359438061,15), (4662979124826969,18));
  (AB60 (-4558315710641216,17) (-7527689371202627,16) (6567047305258598,16) (2665645275017843,16) (6161949393353929,16) (-7411121031363622,16) (-9514411984339332,16) (-1365739977848698,16) (2758753143209074,16) (7866952602427744,16) (-2947364679080733,16) (-5424398418226918,16) (210329095297571,15) (-3214584714273196,16) (9232692580276441,16), (4561442557043748,18));
  (AB60 (-1775724648836415,16) (-7374067037970671,16) (6516896292793775,16) (2158568311160579,16) (713745664227685,15) (-6663129559424118,16) (-9772922791596229,16) (-2366103956938207,17) (2105705494637981,16) (8438854208260532,16) (-3256026498802455,16) (-426427380579856,15) (3109793232172111,16) (-3881430143474396,16) (8675464603954353,16), (4716267754356029,18));
  (AB60 (-1117081526088712,16) (-7257748894565443,16) (6788019582139211,16) (2132435229876113,16) (6630225795021737,16) (-7175850186382906,16) (-9610849163342752,16) (-6275230995437067,17) (2690314687729484,16) (8292931712471618,16) (-282282958120354,15) (-4822749917605598,16) (2434998976959846,16) (-3807396213818197,16) (8920454812015325,16), (4598358124432262,18));
  (AB60 (-4547962408398547,17) (-7065767534470332,16) (7061734172860302,16) (2044919159861763,16) (6083017524224597,16) (-7669107081636475,16) (-9387732867516778,16) (-9827500102457361,17) (3302222588728265,16) (8123903322476329,16) (-2325998694656476,16) (-5347141748590029,16) (1718625785880304,16) (-375701882956812,15) (9106653332722066,16), (4372084321916995,18));
  (AB60 (-109082714926283,15) (-6769184465136602,16) (7279302013749974,16) (149965013643162,15) (6516517963684028,16) (-743545849946619,15) (-9453120404277179,16) (-2526665014525742,17) (3251872423893993,16) (8526285648729021,16) (-2173818390527204,16) (-4751522560325613,16) (2017661904810989,16) (-4342699573156823,16) (8778952150181595,16), (4505023404619309,18));
  (AB60 (-4167932160938675,17) (-6587638130611211,16) (7511944307243988,16) (144474285992169,15) (5952330312002269,16) (-7904586132462867,16) (-9214279540992069,16) (-6353078186089432,17) (383320186216032,15) (8321379348556736,16) (-170233523374808,15) (-5277944722082011,16) (1309693408529201,16) (-4249995078254188,16) (8956687167165679,16), (4258890931246765,18));
  (AB60 (-3910671281163164,17) (-6083319711760464,16) (7927186624888646,16) (8370693280566524,17) (5807675193140109,16) (-8097544306208628,16) (-9005948730003992,16) (-275644518620354,16) (4337845959908448,16) (8488611434324944,16) (-1078762105115346,16) (-5174915287965101,16) (9084044237953635,17) (-4728913088024764,16) (8764255952945298,16), (4224794621027091,18))].

(** ahrens_beylkin/ahrens_beylkin_2772.hpp:1-5562. *)
Definition ab_2772 : coded := [  (AB12 (5257311121191336,16) (8506508083520399,16), (3353729111429129,18));
  (AB60 (-18715361264689,14) (-9454495337967174,16) (2666434029125562,16) (5737293918425823,16) (706532563026305,15) (-4143022113378362,16) (-9560400884882486,16) (-2389169707704124,16) (-1700177351962776,16) (6014558239847261,16) (-6893966855756926,16) (-4037116566463048,16) (5417378771504126,16) (-171358774506124,16) (8403727947551385,16), (4559763264264589,18));
  (AB60 (-1329496595514358,16) (-9421616666981095,16) (3076617978069387,16) (5673101967061691,16) (6737120913648228,16) (-4735727596283852,16) (-9571394029086221,16) (-2684495753332867,16) (-1087151732882964,16) (606522419179821,15) (-6494776051016835,16) (-4585950234178727,16) (4835666432802369,16) (-2423448626313937,17) (8749719945131077,16), (4406043945437991,18));
  (AB60 (-7971090979499448,17) (-9345901924408923,16) (3466804624621214,16) (5581270914660319,16) (6389127314002466,16) (-5294191830925132,16) (-9540716054556367,16) (-2956774610406456,16) (-4818932138826325,17) (6091300928875076,16) (-6073911429935154,16) (-5099377700777686,16) (4246524223631236,16) (-3152158840673124,17) (9048075539281533,16), (4224939120871542,18));
  (AB60 (-2569312020770711,17) (-9224979325720644,16) (3851459826796318,16) (5458039026040387,16) (601051791135831,15) (-58381062363973,14) (-9468291068490703,16) (-3214461414362333,16) (1367554675868552,17) (6095037438474371,16) (-5616831241694383,16) (-5594794493627242,16) (3630184832093402,16) (-3936866696639263,17) (9309498852836705,16), (4165100507716197,18));
  (AB60 (-4908738962395031,16) (-8699035759817456,16) (4806856025325554,17) (5280441202770917,16) (8469311141570675,16) (-6226632246616604,17) (-8794894325964494,16) (-2297246182467811,17) (-4753636544256294,16) (5531402187056691,16) (-8314208723431938,16) (-5268046585146229,17) (8172231101302834,16) (-1551024181387368,17) (5761126805303473,16), (4066970109887182,18));
  (AB60 (-4526042385726355,16) (-886110984269631,15) (9978339933471193,17) (5271247440640098,16) (8400547790171385,16) (-1282476995735937,16) (-9066329462888766,16) (-4605620525249242,17) (-4193990065096617,16) (5808519381462293,16) (-8068495469541647,16) (-107725737554348,15) (778385246715283,15) (-3320523206297388,17) (6269081433987217,16), (4373585413124716,18));
  (AB60 (-4094389505868024,16) (-8997491315372498,16) (1510339234753001,16) (5258717824597187,16) (8277896840333854,16) (-1955073078443521,16) (-9299528937157514,16) (-7195944750386436,17) (-3605682367938682,16) (6049462584311545,16) (-7789189702404512,16) (-1653035456658505,16) (7344455858713993,16) (-4887071379293417,17) (6769057059350188,16), (4524032209287289,18));
  (AB60 (-3615620800494632,16) (-9106369498283405,16) (2000330169688042,16) (5249754323756525,16) (8096419438751938,16) (-2624513633418469,16) (-9484661038581352,16) (-1009950059531467,16) (-3003532230636003,16) (62401344339131,14) (-748433086889331,15) (-2246222093120522,16) (6860147405162884,16) (-6120885698586287,17) (7250084493444567,16), (4575312484159825,18));
  (AB60 (-3103747912212698,16) (-9181532268319917,16) (2462968555064279,16) (5237420510811147,16) (7862850081521765,16) (-3277958966864576,16) (-9618610768134399,16) (-1318682186798153,16) (-2396540043761053,16) (6381706879077274,16) (-7155642213070119,16) (-2840880467050095,16) (6340651801269823,16) (-707207868451645,16) (7700389065875427,16), (45484234698266,16));
  (AB60 (-2575733259835561,16) (-9217688925044911,16) (2898242407957152,16) (5212200434978528,16) (7588262600583136,16) (-3905283258638343,16) (-9702333543467621,16) (-1629426324461775,16) (-1791561794762893,16) (6481016518473904,16) (-6804091135510468,16) (-3420638640215634,16) (5797050284829277,16) (-7841714650726674,17) (8110442842935679,16), (4472662253528221,18));
  (AB60 (-2044114943338314,16) (-9212436246294677,16) (3309473146344753,16) (5166614653728445,16) (7282625295411873,16) (-450216190585208,15) (-9739420311967841,16) (-1929810950882804,16) (-1191436813549528,16) (6546276849190393,16) (-6429947165623088,16) (-3975177840178916,16) (5237258406115761,16) (-852678129788785,16) (8476087800073198,16), (4386263055070247,18));
  (AB60 (-1507211096266005,16) (-9167001036913753,16) (3700595452155612,16) (5100208057381495,16) (6946406793469296,16) (-5072998169826645,16) (-9732311195250488,16) (-2220594243444456,16) (-5925200458915839,17) (658020926609265,15) (-6031715743094875,16) (-450768801148991,15) (4659313025423843,16) (-9146910503744214,17) (8800803509537106,16), (4332891671853988,18));
  (AB60 (-9505784393556634,17) (-9081643750142926,16) (4076781503358022,16) (501506848679833,15) (6569650753887686,16) (-5629278554545447,16) (-9679339774650981,16) (-251199299625524,15) (1651404323906198,18) (6579856993901111,16) (-560255827129296,15) (-5031582530037392,16) (4050061220105534,16) (-9670924825947254,17) (9091849990156351,16), (4342443730832847,18));
  (AB60 (-3647833518415396,17) (-894708707148541,15) (4451580173542636,16) (4899831149228667,16) (6144273392094819,16) (-6183814291539172,16) (-9576859832739486,16) (-2802813679390591,16) (6542103810564288,17) (6548597643380711,16) (-512527965919685,15) (-5554041530285095,16) (3393045541200314,16) (-1018993732897969,16) (9351411322771304,16), (4387542148927435,18));
  (AB60 (-4768174636077004,16) (-8638699542404323,16) (1624001495053274,16) (4703406996882167,16) (8678728144797823,16) (-1599262458251936,16) (-9274302481326191,16) (4002860239349927,18) (-3739747477552099,16) (636743709432894,15) (-7650300986272917,16) (-9636595193300683,17) (7675040023074254,16) (-1028427158524906,16) (6327408491935441,16), (4508692779165741,18));
  (AB60 (-4315927950126994,16) (-876348121372984,15) (2138729282989498,16) (4686745507211211,16) (8534303359826589,16) (-2280368986170465,16) (-9492864956374852,16) (-2291778539032506,17) (-3135760263685758,16) (6596296936297459,16) (-7354135673385354,16) (-1550985243525453,16) (7212495970204388,16) (-1180167686441236,16) (682547479020071,15), (4540780447212484,18));
  (AB60 (-3828463109532411,16) (-8859707431463435,16) (2616955186437285,16) (467611612084222,15) (8335829059807774,16) (-2940729826091433,16) (-9659191633645647,16) (-523878371655661,16) (-2534870496932999,16) (6769192935623844,16) (-7042236447208362,16) (-2141245623909221,16) (6718461807554214,16) (-1293592612599412,16) (7293071307279505,16), (4496998988087941,18));
  (AB60 (-3318614554309192,16) (-8921933362701917,16) (3063642033827331,16) (4660666401131425,16) (8092499706701209,16) (-3576260224648857,16) (-977532502508192,15) (-8294336560007075,17) (-1937797838862571,16) (6894874778958049,16) (-6711682991254589,16) (-2722868562268854,16) (6199064800433064,16) (-1380816715446621,16) (7724308434958757,16), (4454708838033141,18));
  (AB60 (-2791547651863749,16) (-8945910096526108,16) (3489692572741361,16) (462991134683599,15) (7809738849349419,16) (-4191885020536913,16) (-9844875249644106,16) (-1136171247176689,16) (-1336991479417074,16) (6983432672400662,16) (-6355182676902745,16) (-3292919867418915,16) (5652990229107193,16) (-1454556172446674,16) (8119603919577352,16), (4471646894259244,18));
  (AB60 (-224360981678375,15) (-8929753825840525,16) (3902013787766274,16) (4580002144673911,16) (7485783956149916,16) (-4794436245965826,16) (-9868643056705466,16) (-1443969869690609,16) (-7244551295730267,17) (7038046062749577,16) (-5966629268939193,16) (-3855547015100885,16) (507420681073964,15) (-1519154687210723,16) (8482015932440184,16), (4519085205566698,18));
  (AB60 (-1668459767125328,16) (-8873599673015389,16) (4298310231770768,16) (4514155398391448,16) (7114863051255839,16) (-5385269241277338,16) (-9843630475107404,16) (-1758736621759551,16) (-9891695920612497,18) (7053729008402666,16) (-5545320243336636,16) (-4415238439185324,16) (4458361233830065,16) (-1569542807919203,16) (8812465630162217,16), (4556846472273361,18));
  (AB60 (-1066160787398726,16) (-8774715432279936,16) (4676288085428619,16) (443128806076189,15) (6694952400872242,16) (-5961652327384089,16) (-9766499750275273,16) (-2079763031407694,16) (5385799486268626,17) (7027813114782816,16) (-5090211664846653,16) (-4969868009388753,16) (3804847422891183,16) (-1604740736025589,16) (9107576146190509,16), (4584895552248711,18));
  (AB60 (-4484014804606331,17) (-8621671974810591,16) (5046355959609503,16) (4313337489978009,16) (6233010156585466,16) (-6522630150901754,16) (-9636820805117955,16) (-2388661818225125,16) (1194143830616381,16) (6971031631362387,16) (-4590464845508452,16) (-550748132059439,15) (3114190654216201,16) (-1642545311077014,16) (9359693449587512,16), (4594383237534663,18));
  (AB60 (-4040497885190013,16) (-8568969245028785,16) (3201115886300565,16) (4083301288094519,16) (8542515287199645,16) (-3217465331375929,16) (-9781582198914581,16) (-2645395782914062,18) (-2078448910604385,16) (7257963216565942,16) (-6580466312614017,16) (-2004852377490133,16) (6564116867538652,16) (-1962048974585627,16) (7284417174395083,16), (4555146375473234,18));
  (AB60 (-3511055560217303,16) (-8621202125532891,16) (3653404270509126,16) (4063021059941166,16) (8280068686086223,16) (-3864236330786321,16) (-9886377003053889,16) (-3411334394466684,17) (-1463959606675843,16) (7375291891003625,16) (-6232972732544763,16) (-2599061453265323,16) (6022140672267567,16) (-204709595354146,15) (7716425330450293,16), (4603674574277216,18));
  (AB60 (-2954776678409735,16) (-8633441086395338,16) (4090597729973801,16) (402622548563047,15) (797124930632739,15) (-4499854757126588,16) (-9942975632027005,16) (-6621917800679485,17) (-835905274135548,16) (7454631435536323,16) (-5852377902053204,16) (-3190320211494922,16) (5443120874900417,16) (-2118871404274186,16) (8116823215604272,16), (4657112483018851,18));
  (AB60 (-2371369578451792,16) (-8604657908310908,16) (4509597388164039,16) (3973722284838934,16) (7614349473798273,16) (-5121641660038546,16) (-9948906672373691,16) (-9903084345126345,17) (-1963293888631713,17) (7493011238490338,16) (-5439309284209652,16) (-3777392895975763,16) (4827265012335145,16) (-2175040189588621,16) (8483319673002973,16), (4685093753997278,18));
  (AB60 (-1764075001330953,16) (-8534390255205977,16) (4904306511783746,16) (3907184342434434,16) (7209875840796633,16) (-5722901438477884,16) (-9901749163744725,16) (-1324514414409344,16) (4483581875047014,17) (7486976439808837,16) (-4997442651960979,16) (-4355542529939136,16) (4178847725266841,16) (-2212433188835654,16) (8811490854218181,16), (4694945215066414,18));
  (AB60 (-1143320133248188,16) (-8417935956984876,16) (5275525878716781,16) (3819184956217591,16) (6764160547089564,16) (-6297615291790873,16) (-9801321537303811,16) (-1653775409895311,16) (1095044755254347,16) (7440935425039061,16) (-4525795658587029,16) (-4914229711471938,16) (3503706245512938,16) (-2238364888502535,16) (9094710834934372,16), (4694541122474993,18));
  (AB60 (-5200867531780093,17) (-8245264861567526,16) (5634280533641239,16) (3692703484028814,16) (6284479888625152,16) (-684611229154967,15) (-964841530823264,15) (-1960784972942374,16) (1750258360855742,16) (7366199044727678,16) (-4014134774591401,16) (-5442961844884555,16) (280230301668297,15) (-2270345114033751,16) (9326984017670052,16), (4676148532260969,18));
  (AB60 (9893925719253306,18) (-8008943730931491,16) (5987239041341121,16) (3516325976529039,16) (5774586938145728,16) (-7368147482276929,16) (-9442417194103507,16) (-2234356792785764,16) (2418348042575875,16) (7269208225084396,16) (-3455178152762386,16) (-5934674019104914,16) (2074269711826578,16) (-2319408785383342,16) (950356501787016,15), (4631962912015734,18));
  (AB60 (-3053725656564961,16) (-8281186397121649,16) (4700713932006952,16) (3405610438817213,16) (8063709641565902,16) (-4835121958703457,16) (-99936306188989,14) (-2174767555557471,17) (-2829327018910066,17) (7888847615268418,16) (-5292916686891947,16) (-3122677736926206,16) (5158508660195443,16) (-2770792954673955,16) (8106324370824165,16), (4737412358692281,18));
  (AB60 (-2450287545231352,16) (-823710823683788,15) (5113329525886403,16) (3350115292582742,16) (7680984104954468,16) (-545703314135438,15) (-9977805803632667,16) (-5561241318834121,17) (3662202819768521,17) (7907320686585733,16) (-4864476277746264,16) (-3716335574559594,16) (4520772662278286,16) (-2816507827208204,16) (8463444818469145,16), (4739772158423285,18));
  (AB60 (-1834561930007869,16) (-8149193005328285,16) (5497730066752492,16) (3277059784770054,16) (7257680302386446,16) (-6048715218572838,16) (-9908611478734014,16) (-8915127029418397,17) (1012236960397054,16) (7883277148580706,16) (-4410881411981522,16) (-4289296745167108,16) (3859896260161177,16) (-2846798890404923,16) (8774789851522545,16), (4727203852567315,18));
  (AB60 (-1214674056582851,16) (-8014389450077744,16) (5856118909204894,16) (3180362883939279,16) (6799526943465547,16) (-6606945229949126,16) (-9787191645365089,16) (-1214862506612197,16) (1653780150722502,16) (7821619286531977,16) (-3931072736160194,16) (-4834143034661781,16) (3180246415415963,16) (-2868454207305353,16) (9036481793144174,16), (4702381843571994,18));
  (AB60 (-5965275209461694,17) (-7824078736372807,16) (6199027895064896,16) (3045961573936093,16) (6310245238423623,16) (-7134628450105636,16) (-9613663752170437,16) (-1513833497949184,16) (2299081860371913,16) (7731155971051805,16) (-3414635857105541,16) (-5345043434308007,16) (2479035302064801,16) (-2895609381318082,16) (9244989469000989,16), (4674959948809973,18));
  (AB60 (1430455692369964,18) (-7571511007215498,16) (6532382141858035,16) (2863710358191722,16) (5792799969545024,16) (-7631686019302983,16) (-9387251797676903,16) (-1778711037670474,16) (2952234870649855,16) (7617381462379283,16) (-2854869655818868,16) (-5815945228841577,16) (1755565778373921,16) (-2937930313726155,16) (9396092500049757,16), (4640385818377349,18));
  (AB60 (-2518031533384696,16) (-7826274056273029,16) (5692886051291385,16) (2707031152327063,16) (7709465867905868,16) (-5765077481866591,16) (-9956146275994205,16) (-1168081883671614,17) (9281741098183514,17) (8283109015251287,16) (-4263260224702821,16) (-3635205262145414,16) (4191068794127615,16) (-3446205643203047,16) (8399917203618448,16), (4716757087121141,18));
  (AB60 (-1908570245762865,16) (-7721051102953114,16) (6061578134658927,16) (2625891848497942,16) (7277721971598285,16) (-6335570606039177,16) (-9867031264955058,16) (-4433291313548272,17) (1563698595539289,16) (8244140851802041,16) (-3805453130296133,16) (-4189590444037231,16) (3531460658915883,16) (-3472268841302154,16) (8687469983156868,16), (4676816378116521,18));
  (AB60 (-1298039594081722,16) (-7571159057147766,16) (6402549784544085,16) (2522805158133494,16) (6814212310313335,16) (-6870368601761425,16) (-97275875305632,14) (-7569467468344318,17) (2191134970212498,16) (8168408195843146,16) (-3325037746019115,16) (-4713940128345993,16) (2857218928801774,16) (-348917456429422,15) (8925354942677579,16), (4640183265231483,18));
  (AB60 (-6917197873041513,17) (-7366073354108894,16) (6727740116691402,16) (2381655297318458,16) (6321635770124665,16) (-7373238042721479,16) (-9536901753254673,16) (-104443758398423,15) (2820754346257242,16) (806495783002563,15) (-2809161636563271,16) (-5202409643575699,16) (2163663710533194,16) (-3512474133561393,16) (910939541400986,15), (4622969812337484,18));
  (AB60 (-9382409615271432,18) (-7100116366043445,16) (7041274361053058,16) (2194484381449255,16) (5801836910913132,16) (-7843655191219285,16) (-9293745222888429,16) (-1298279455130313,16) (3455541952925046,16) (7937479287372,13) (-2252470861835371,16) (-5650026334374302,16) (1450090031669143,16) (-3549366049077761,16) (9235758742502314,16), (4597523308952296,18));
  (AB60 (-1409520644303916,16) (-7096801128582678,16) (6902801264314996,16) (185446625355296,15) (6821809618921739,16) (-70727553639031,14) (-9628399183892427,16) (-2749915096609389,17) (2686691055040393,16) (8482276008207017,16) (-272559791957743,15) (-4541157308593353,16) (2555643819989325,16) (-4096211699344309,16) (8757267517867955,16), (4550946956173393,18));
  (AB60 (-8166093464962744,17) (-6879740228657422,16) (7211263659124361,16) (1707848766473892,16) (6328923974997512,16) (-7551686825442068,16) (-942380475726379,15) (-5508162536599096,17) (3299773530361808,16) (8368296171938342,16) (-2212541098139429,16) (-50076222968357,14) (1872117931821721,16) (-4116382876858083,16) (8919112425598252,16), (4558076304492905,18));
  (AB60 (-2322139307797945,17) (-6603877152710098,16) (7505656749563316,16) (1518062419583687,16) (5809179082246604,16) (-7996807167903714,16) (-9167235271030132,16) (-794698070463494,16) (3915386629999995,16) (8229021098683509,16) (-1661578521466815,16) (-5433449049583681,16) (1170428103126417,16) (-4147600560779789,16) (9023719169147003,16), (4514684594199918,18));
  (AB60 (-3925028255164239,17) (-6085529337821126,16) (7925419497444914,16) (8392968619173943,17) (5809395437354569,16) (-8096079633379327,16) (-9007296446211828,16) (-2761339004665575,17) (4335015663071231,16) (8488582458895751,16) (-1081876948766914,16) (-5174312524988625,16) (9112168128325009,17) (-4727518488587654,16) (8764716359362309,16), (4376053962211048,18))].

(** ahrens_beylkin/ahrens_beylkin_2832.hpp:1-5682. *)
Definition ab_2832 : coded := [  (AB12 (5257311121191336,16) (8506508083520399,16), (3040737075730326,18));
  (AB60 (3783920850287278,17) (-9369765373513809,16) (34733724642326,14) (5960542773173145,16) (5452088178673556,16) (-589463012759422,15) (-9200056067784051,16) (-3917677194840253,16) (1037966601508327,17) (5516238042565492,16) (-5726683603551451,16) (-6064339433323978,16) (3305425940189831,16) (2745954248778951,17) (9433915237405746,16), (3964360632358068,18));
  (AB60 (3116585610955779,16) (-9296028220935932,16) (1967423046816853,16) (7500011205727616,16) (2734610543371658,16) (-6022602185935974,16) (-754127841612494,15) (-6561417677564275,16) (27734078501935,15) (2906016574980194,16) (-5573855369308087,16) (-7777351990746966,16) (1518676230188967,16) (2839244825936429,16) (9467434252544469,16), (4398406593096853,18));
  (AB60 (2633259811174339,16) (-9336389581608354,16) (2428532961952354,16) (7152753388907622,16) (3288300809602576,16) (-6166457390028538,16) (-7953842286345104,16) (-6048088772005777,16) (3962512963841647,17) (3533197578854199,16) (-5525309324392751,16) (-7549004685291787,16) (1787384896316567,16) (2237008514790174,16) (9581286350859975,16), (4403613665462216,18));
  (AB60 (2134475747260743,16) (-9340714909001062,16) (2862701219673646,16) (6785035771141211,16) (3828153627582471,16) (-6269651456657009,16) (-8328558430845387,16) (-5512561281418591,16) (4967721636714718,17) (4135175709396267,16) (-5465857211171742,16) (-7281807934812683,16) (2058906974188379,16) (1637703583589271,16) (9647736990814857,16), (428869147024811,17));
  (AB60 (162728034462411,15) (-9313200937482081,16) (3258258273692085,16) (6408265974706825,16) (4346960193961447,16) (-6327563849502386,16) (-8660809686196568,16) (-4966240743520633,16) (571689126081075,16) (4700283504878276,16) (-5402551412504483,16) (-6979955100787899,16) (2333245836694182,16) (1055591218543035,16) (9666524248398909,16), (4164071134273927,18));
  (AB60 (1114158375831432,16) (-9246374357004302,16) (3641869350168667,16) (6003833188641977,16) (4847213638524697,16) (-636070019616247,15) (-8957114793696439,16) (-4399160718479605,16) (646126570828357,16) (5246541820331038,16) (-5315245443527772,16) (-6649959759470334,16) (2596414597533969,16) (4680318050030752,17) (9645702538810643,16), (4212282958496453,18));
  (AB60 (5839617638681727,17) (-9124755068067237,16) (4049423861010508,16) (5537824098170506,16) (5341283333478759,16) (-6387737988460709,16) (-9226339740980143,16) (-3783471734588478,16) (748329217377296,16) (5803776224592536,16) (-5176915879969636,16) (-6286153315547802,16) (2838601752519435,16) (-1643674535091232,17) (9587247959181014,16), (4226374687818795,18));
  (AB60 (1754003011373557,18) (-8938416558179004,16) (4483793235622602,16) (4994854447944932,16) (5840586405716459,16) (-6398357561218725,16) (-9467807348793549,16) (-3097830152462546,16) (8741123226592477,17) (6380817531104989,16) (-4984014113170947,16) (-5868966770604179,16) (3069449787574825,16) (-8565722925455121,17) (9478647683567535,16), (415077781114589,17));
  (AB60 (5075817464104512,16) (-8597325511794818,16) (5675130970591035,17) (8240139753439192,16) (3676113586133319,17) (-5653756161421321,16) (-5670625136991408,16) (-8229714153181487,16) (340316782785538,16) (5779386973168095,17) (-5103112039932305,16) (-858045653622473,15) (1686897557008794,18) (4735500681318973,16) (8807652850498295,16), (3886276504483859,18));
  (AB60 (4732169388463353,16) (-8741765560692351,16) (1090003559986634,16) (7989555880744513,16) (8793069487834833,17) (-5949270217285633,16) (-6154917918138991,16) (-7862458611908867,16) (5465619790944787,17) (1217100828822281,16) (-5064914358152357,16) (-8536117859838992,16) (2056477008533584,17) (4185607409368874,16) (9079559440731148,16), (4063957263523666,18));
  (AB60 (4325131328928893,16) (-8877666593766618,16) (1574888833358725,16) (7731277811615113,16) (1426395962635515,16) (-6180027342771628,16) (-6633088477888781,16) (-7451270631131103,16) (6933276470343522,17) (1854896013842735,16) (-5058199644530056,16) (-8424605458649465,16) (4530611351171533,17) (363180368189454,15) (9306166644973838,16), (4185631637799894,18));
  (AB60 (3881711404680013,16) (-8984760289989623,16) (2050950780053656,16) (7442863166265131,16) (1985788297012766,16) (-6376553358021944,16) (-7094784363708441,16) (-6998971992976857,16) (8236661180379948,17) (249484195334193,15) (-5043833583654785,16) (-8266529284303126,16) (7182310056864973,17) (3058045286642019,16) (9493813946318786,16), (4354689501188047,18));
  (AB60 (3411233453609849,16) (-9054114893415404,16) (2527150534061317,16) (7115486659711506,16) (2548244073325661,16) (-654799982729293,15) (-7534378975881248,16) (-6505870820089742,16) (9522490851155792,17) (313676637368308,15) (-5007228441819931,16) (-8067735744827085,16) (9863791485883182,17) (245898436849427,15) (9642637193772823,16), (4452918154136647,18));
  (AB60 (2917202649724042,16) (-9085657466679663,16) (2990109880691865,16) (6756861550067904,16) (3106756981859687,16) (-6685273595663834,16) (-7944041041159056,16) (-5978900484819976,16) (1070028471116537,16) (3768070945939792,16) (-4953931160467192,16) (-7826890021184442,16) (1258767445495222,16) (1847174178607505,16) (9746971430759769,16), (4453672334215667,18));
  (AB60 (2398661116950158,16) (-9083650606228815,16) (3425451285595855,16) (637732911748947,15) (3659790356407968,16) (-6777581270214635,16) (-832032630531734,15) (-5423860249820848,16) (116357645363664,15) (4378920153264477,16) (-4894875019721485,16) (-754090557112611,15) (1542745035102706,16) (1235084663313518,16) (9802780403085325,16), (4430526036429052,18));
  (AB60 (1854494208150424,16) (-9047158553492081,16) (3835332233315859,16) (5974709130210223,16) (4208444785551058,16) (-6825821803735482,16) (-8663900910949297,16) (-4838713767941023,16) (1234370316068043,16) (4971327595585059,16) (-4828568677633438,16) (-7209079446278266,16) (1838079107213815,16) (6201238920823807,17) (9810041363526082,16), (4464218727069724,18));
  (AB60 (1288521546820872,16) (-8965192724990095,16) (4238517621428867,16) (5531909517235142,16) (4749934509477867,16) (-6843690469972653,16) (-8974077027492121,16) (-4215258215512228,16) (1302896650235486,16) (5555168923151781,16) (-4735559406063254,16) (-6834806167470627,16) (2130386557519468,16) (-1437510341461338,18) (9770427138664008,16), (4490005890801047,18));
  (AB60 (6991037209903882,17) (-8828992501954177,16) (4643290362203759,16) (5037194726804828,16) (528376509160347,15) (-6834361399648267,16) (-9248415227775003,16) (-3545227410350708,16) (1377743947022613,16) (6135257678657879,16) (-4605124865571244,16) (-6414938673827441,16) (2414053828126736,16) (-6786402260322251,17) (9680485089008587,16), (4468395714782289,18));
  (AB60 (9637181962940037,18) (-8627318369879561,16) (5055698786233215,16) (4481578314043448,16) (5797989588467616,16) (-6804320138494118,16) (-9477716040188019,16) (-2829328781411944,16) (1472344154142212,16) (6707948318864717,16) (-4422017253954804,16) (-5953922468185661,16) (2673395901693901,16) (-1375972334512812,16) (9537277100276662,16), (440449257320873,17));
  (AB60 (459636630617181,15) (-8622210307946231,16) (2128592536168976,16) (7331573701098353,16) (1250337967683602,16) (-6684660203176511,16) (-6619455635308346,16) (-7371872340262628,16) (1355841174716043,16) (2088293897004701,16) (-4490863099139369,16) (-8687414875814397,16) (-6520456786816524,18) (3240525131455767,16) (946016623726733,15), (445945700451171,17));
  (AB60 (4127490473517053,16) (-8718598935128149,16) (2636257764219629,16) (7010830523985646,16) (1834737981064849,16) (-6890717807659028,16) (-7096158887330339,16) (-68838609540633,14) (1502327331471192,16) (2763227334141975,16) (-445990112311071,15) (-8513157855456838,16) (2054410796713115,17) (2625163142045861,16) (9647088288205276,16), (457322722509775,17));
  (AB60 (3632726367783207,16) (-8775457632467852,16) (3129639352637031,16) (6657248865324304,16) (2415903195012788,16) (-7060060148289479,16) (-7541739850843363,16) (-6359554437455065,16) (1636529064589663,16) (3427333780506271,16) (-4412100498206332,16) (-8293777929913968,16) (4816797025538844,17) (1996197303193544,16) (9786888217961336,16), (4602792646674673,18));
  (AB60 (3111492717003718,16) (-8796184444043919,16) (3598020608389091,16) (627875652412156,15) (2992691250195589,16) (-7184776655666041,16) (-7953768877654597,16) (-5803493193848329,16) (1748435697933802,16) (4073283938662323,16) (-4355748269265505,16) (-8027192222055363,16) (7689922219885552,17) (1363057019069916,16) (9876777132510652,16), (4581778248101181,18));
  (AB60 (2562296896647983,16) (-8783947555029138,16) (4034464024368756,16) (5880924123230878,16) (3565749990216451,16) (-725948747943493,15) (-8331801576202805,16) (-5218197564812688,16) (1830709335030385,16) (4697190582786947,16) (-4297337551834048,16) (-7711633458261263,16) (1072314096767875,16) (7315875616175975,17) (9915388147599634,16), (4564532752862955,18));
  (AB60 (1988170917956477,16) (-873404533026451,15) (4445630278135689,16) (5457554564127886,16) (4132333911435179,16) (-7289644341390719,16) (-8674427639522393,16) (-4601711418829332,16) (1891707468004951,16) (5301473423434242,16) (-4228797361386704,16) (-7349262032132836,16) (1384783298131674,16) (9646344995152552,18) (9903184842263574,16), (4576637741364679,18));
  (AB60 (1393384252706625,16) (-8636842623917381,16) (4843906462143249,16) (4995978643200233,16) (4687999187789486,16) (-7284425921922212,16) (-8978726277781915,16) (-3948843436127895,16) (1946563624857445,16) (5891041669215588,16) (-4134819815638666,16) (-6942542268057679,16) (1694300355859703,16) (-5531793721508201,17) (9839885105343482,16), (4602796314049503,18));
  (AB60 (7889482459023857,17) (-8483150966932254,16) (5235810380210872,16) (4488906523657167,16) (5221257331658706,16) (-7251771514496878,16) (-9237120072535755,16) (-3261893635273547,16) (200889588523621,15) (6462823268594492,16) (-4001309692324883,16) (-6497802408893376,16) (1985348558038877,16) (-1219947639333824,16) (9724716903868039,16), (4609857608054913,18));
  (AB60 (1874175506775862,17) (-8264710099238443,16) (5626672341379414,16) (3930869961379954,16) (5719468441342641,16) (-7199718195541153,16) (-9441711886352364,16) (-2545241657895802,16) (2091846447047278,16) (7012300644863566,16) (-3815039544972949,16) (-6022716408427231,16) (2241993690811211,16) (-1904428896369692,16) (9557542302759368,16), (4558895506427019,18));
  (AB60 (3801008635528411,16) (-8457769533003423,16) (3744124447616226,16) (6144993327042528,16) (2310802267961423,16) (-7543159145145165,16) (-7539965246370335,16) (-6146967265042,13) (2315970104735724,16) (3742150509616755,16) (-3795840798754109,16) (-8460963431778253,16) (-3193898774829877,19) (1485038530792687,16) (9889117774658754,16), (4649889619578373,18));
  (AB60 (3258133339174191,16) (-8467692837789761,16) (420508562921204,15) (5754783166057341,16) (2897404099791754,16) (-7647713396445566,16) (-7946231651780542,16) (-5570288737998006,16) (2414391416397444,16) (4389580057271375,16) (-3741146022568502,16) (-8169174582454785,16) (2985182553349758,17) (8437419227767473,17) (9959868795269381,16), (4620851987152162,18));
  (AB60 (2687707750756164,16) (-8444649657091302,16) (4632938507633465,16) (5345943201209623,16) (3479580315023497,16) (-7701520117531446,16) (-8317786967049248,16) (-4965069342067805,16) (2482439606363878,16) (5013812366775283,16) (-3684848459415783,16) (-7828382807573501,16) (6162668495178011,17) (2052681443922863,17) (9978881708843088,16), (460534700321847,17));
  (AB60 (2096328459225885,16) (-8380470630763833,16) (5037173711313166,16) (490915742518414,15) (4050842246490821,16) (-771303121145018,15) (-8650728897112012,16) (-4329628384273013,16) (253361551991786,15) (5616702752224295,16) (-3613555185798845,16) (-7442772945102001,16) (937697685661833,16) (-4372870606919755,17) (9946331136497307,16), (463094467566757,17));
  (AB60 (1495967892973306,16) (-826431883324285,15) (5427993578266334,16) (443425709586127,15) (4599238229209116,16) (-7693137963067176,16) (-8937691670191535,16) (-3665080604033734,16) (258550803025722,15) (6197170070093869,16) (-3509698091925202,16) (-701976512611849,15) (1244553707124359,16) (-1089540137283914,16) (9862250674127603,16), (4663171924679315,18));
  (AB60 (8956431882470335,17) (-8091530932187083,16) (5807318697368548,16) (391929565203013,15) (5115735075143795,16) (-7646461680602423,16) (-9173076417269691,16) (-2975795857043289,16) (2645620543489685,16) (6750818492355389,16) (-3365757719901143,16) (-6564916195519815,16) (1526614736667268,16) (-1749977355242651,16) (9726614349398678,16), (4655612107942021,18));
  (AB60 (3012056315745657,17) (-7858638736783637,16) (6176655435770353,16) (3362522231784036,16) (5594330391697991,16) (-7576074954043308,16) (-9353022349638428,16) (-2264308345085646,16) (2719169109404481,16) (7274869322468742,16) (-3176366913868076,16) (-6081691341188516,16) (177694739559512,15) (-2417963477829916,16) (9539177667554388,16), (4580824535839364,18));
  (AB60 (2796620513312211,16) (-8067211692494161,16) (5205670870599375,16) (4787879186579433,16) (3379733090297748,16) (-8102691968294605,16) (-8265143526316684,16) (-4687478602196413,16) (3116880947892649,16) (5306071454982395,16) (-3059472655717309,16) (-7904760134472082,16) (1624515580220786,17) (-3202604345804384,17) (9993550057178807,16), (4622419199666952,18));
  (AB60 (2203696163104415,16) (-7984046626528046,16) (560345631607359,15) (4338480811544494,16) (3940758895778061,16) (-8102345559972514,16) (-8579977997941823,16) (-4043287730749985,16) (3167933377014243,16) (5898649396868099,16) (-2976521681868233,16) (-7506414188558737,16) (4776324379693096,17) (-9642372139098281,17) (9941937127618083,16), (4656368371895298,18));
  (AB60 (1608511603128359,16) (-7847426114971158,16) (5985866168957515,16) (3852825425650632,16) (4472134207167379,16) (-8071911289932727,16) (-8844576752576241,16) (-3375291907803779,16) (3221935226677012,16) (6463399686804369,16) (-2858710583618725,16) (-7074760652327644,16) (7726654626435131,17) (-1613423623548653,16) (9838691594608148,16), (4673714457092997,18));
  (AB60 (1014436289472721,16) (-7658082880888171,16) (6350172092475003,16) (333391120189062,15) (4970656336330286,16) (-8011093039280459,16) (-9057127188050154,16) (-2687426544557884,16) (3278137530227857,16) (6996656749807738,16) (-270695509557515,15) (-6612048732118476,16) (1046034148769694,16) (-2263701240755136,16) (9684083294365622,16), (4639070597365731,18));
  (AB60 (4237881512814037,17) (-7415465954394719,16) (6695615601425033,16) (2782387918362345,16) (5433940169438333,16) (-7920265886112395,16) (-9216088038265988,16) (-1981525784956386,16) (3337255883878781,16) (7496477734830992,16) (-2520472436840955,16) (-6119643802241126,16) (1295822152153593,16) (-2913467732597377,16) (9478003519787378,16), (4534489169852368,18));
  (AB60 (-1546791393039618,17) (-7097167375129515,16) (7043173263044252,16) (2172343904160875,16) (5850181972544878,16) (-7813852625316529,16) (-9311114132645555,16) (-1246985402584636,16) (3427561963639614,16) (796853176462049,15) (-2267940869601303,16) (-5599905867800489,16) (1497261507329026,16) (-3582241102943575,16) (9215517167205127,16), (4331887431891447,18));
  (AB60 (1722361257179848,16) (-7387790443309576,16) (6515675257830883,16) (3251249289524405,16) (4313930078641402,16) (-8415425439866961,16) (-8702446749512143,16) (-3073860364668174,16) (384951984413999,15) (6693064182687114,16) (-218677149168126,15) (-7100769133664394,16) (2870213096451819,17) (-2127158586960142,16) (9766924547355288,16), (4647559473223225,18));
  (AB60 (1132352142967518,16) (-7186430429671147,16) (6860976337505723,16) (2733372233538205,16) (4797281373851615,16) (-8337551658191913,16) (-8894516459456222,16) (-2389149055819532,16) (3896093394868633,16) (7205199515224395,16) (-2033540121950499,16) (-6629465628406839,16) (5569648012643085,17) (-2763741251901116,16) (9594348571043928,16), (4582373820767053,18));
  (AB60 (5433269705176015,17) (-6939594327156757,16) (7179611854244067,16) (2192341085007956,16) (5248858486904627,16) (-8224544069517495,16) (-9036158404467634,16) (-1690735840252129,16) (3935638907198662,16) (7681217098999894,16) (-1856546550223567,16) (-6127979992206619,16) (8116143349501381,17) (-3392311936681061,16) (9371952939252023,16), (4449395647501309,18));
  (AB60 (-3129003922970812,18) (-6624003656422867,16) (7491434875452199,16) (1603544937245151,16) (5652296690470823,16) (-8091982807515599,16) (-9114318120450627,16) (-9717069659520433,17) (3998123406242686,16) (8123272846745306,16) (-1622883244998428,16) (-5601668343487838,16) (1022335312935029,16) (-4029413445472395,16) (909497981269735,15), (4260545361161941,18));
  (AB60 (6717150311930686,17) (-6440371540204582,16) (7620394565965213,16) (1607744103147412,16) (5031588319215753,16) (-8491070479316863,16) (-8812995949081113,16) (-140878322098883,15) (4510701967292922,16) (7819355448123795,16) (-11926013831159,14) (-6118446070440334,16) (3219254697642487,17) (-3838986936099854,16) (9228138669112625,16), (4294529063684569,18));
  (AB60 (1210543778222634,17) (-6129942376608873,16) (7899946347733308,16) (1046662243339644,16) (5408253815502629,16) (-8345974407788972,16) (-8871792871091821,16) (-7216885611062435,17) (4557461669966379,16) (8224920029966708,16) (-9718465233585136,17) (-5604123913306023,16) (5258184633028498,17) (-4436407292144116,16) (8946608591072951,16), (4139030038310002,18))].

(** ahrens_beylkin/ahrens_beylkin_3012.hpp:1-6042. *)
Definition ab_3012 : coded := [  (AB12 (5257311121191336,16) (8506508083520399,16), (2218450354175484,18));
  (AB60 (-784665168209074,16) (-9393180530440212,16) (3339529921464753,16) (5687002847754957,16) (6363369220151566,16) (-521205629072199,15) (-9511482512961071,16) (-3029811310288646,16) (-5932485395538269,17) (5996721458931064,16) (-6171952591496318,16) (-509375430820113,15) (4299426222239081,16) (-1914166286552471,17) (9026532769219709,16), (4376707666920002,18));
  (AB60 (-3006489966317585,17) (-9233690776446974,16) (3827344356833127,16) (5463634931231253,16) (6042789985426845,16) (-5799429500412492,16) (-9476790586666359,16) (-3190900791020129,16) (9269475896185445,18) (610007849704425,15) (-5649446229833233,16) (-5556329690193108,16) (3677361086253867,16) (-3933437555936129,17) (9290979288064379,16), (438255673889632,17));
  (AB60 (-2387196058282882,16) (-9397815991425794,16) (244588421038697,15) (5642366590964329,16) (738600996305156,15) (-3689248714694183,16) (-9563619103179896,16) (-2011806028374234,16) (-2118920988024248,16) (6076444772977064,16) (-7117734892792925,16) (-3523445602940081,16) (5874370388485713,16) (-2682750702586339,17) (80882508013513,14), (4278062282072095,18));
  (AB60 (-1943319101904148,16) (-935059675038151,15) (2964768334951179,16) (5481888883148368,16) (7163640354009303,16) (-4316381719823191,16) (-9647694474063232,16) (-2186956396372208,16) (-1462604887006899,16) (625970082172734,15) (-6682926139112052,16) (-4019283996141469,16) (5331312754240041,16) (-48071421489725,15) (8446657218099548,16), (4329417236218119,18));
  (AB60 (-1479770227334689,16) (-9260922017203338,16) (3470677666619634,16) (5299630314172304,16) (6900118651268566,16) (-4929734387522478,16) (-9684856276824935,16) (-2360803365934771,16) (-7938301862714232,17) (6409504614857168,16) (-6214178610205301,16) (-4505800127900881,16) (4755121889302457,16) (-6859400410632661,17) (8770307980791938,16), (4360956049578239,18));
  (AB60 (-1000480881881624,16) (-9127174841218121,16) (3961529682183932,16) (50941091210363,14) (6597173452114148,16) (-5525156532234636,16) (-9673969993317545,16) (-2530001389103973,16) (-1157477409010878,17) (652563741411626,15) (-5712440311133612,16) (-4978361380135212,16) (4148813461082909,16) (-8847331409805359,17) (9055638803220233,16), (4375148324616213,18));
  (AB60 (-5102218576627519,17) (-8947813058618786,16) (4435799265518481,16) (4863365969234089,16) (6257422039741235,16) (-6098552358212267,16) (-9614499684591262,16) (-2690391018877551,16) (5684997630057022,17) (660877421587502,15) (-5178700419072781,16) (-5431865732239791,16) (3515947326378995,16) (-1078721620668454,16) (929916523475257,15), (4373609573183701,18));
  (AB60 (-1445803095719925,18) (-8721414376404213,16) (4892516963730505,16) (4605046186360766,16) (5884274868012124,16) (-6645965610741983,16) (-9506498704633218,16) (-2837139508392089,16) (1255835096152211,16) (6660423641699182,16) (-4613981740902713,16) (-5860881282512977,16) (2860533093891235,16) (-127029312710941,15) (9497563150091272,16), (4357714788951881,18));
  (AB60 (-3837320693440368,16) (-9116731655513001,16) (1469752978245499,16) (5454917046203586,16) (8117002129427467,16) (-2087619804923183,16) (-9296264638728547,16) (-9997295260855336,17) (-3546830224495949,16) (5924940498363551,16) (-7826511660483049,16) (-1908086821707637,16) (7208644833805364,16) (-2904904689444187,17) (6924670024449084,16), (3972220773459175,18));
  (AB60 (-3462076929185305,16) (-9164019343736304,16) (2008674389748049,16) (5339669584037707,16) (800360326601037,15) (-2725850966874516,16) (-9488025187689137,16) (-1160416077725934,16) (-2937824461116025,16) (6187927896059822,16) (-7479350797941089,16) (-2401845122921682,16) (6762174220814622,16) (-5242524680692803,17) (7348343973785756,16), (4118099888265039,18));
  (AB60 (-3058294089749689,16) (-9175067630230688,16) (2542630771719549,16) (5206405404007214,16) (7847461826401332,16) (-3363136282147717,16) (-9639165870784991,16) (-1327605803829357,16) (-2307367362413801,16) (6421430371897406,16) (-7096535099065443,16) (-2899038041593413,16) (6276029588637275,16) (-7509267273358886,17) (7749036175726762,16), (4221250552535753,18));
  (AB60 (-262818821489709,15) (-9147974566217065,16) (3067113959885048,16) (5055155085417712,16) (7648026550665356,16) (-3994132814853961,16) (-9746578690941075,16) (-1499948015551709,16) (-1659626395287761,16) (662232102975105,15) (-6679464731056026,16) (-3395528690129951,16) (5752445876087114,16) (-968561819609329,16) (812226904530276,15), (4292510298449937,18));
  (AB60 (-2175086778402954,16) (-9080841659107601,16) (3578730538701198,16) (4885051177328675,16) (7405991552269326,16) (-4613844830788644,16) (-980805927356341,15) (-1674850106838275,16) (-9984239609958391,17) (6788931609191599,16) (-6229328734862212,16) (-3886627216332836,16) (5194214442774765,16) (-1176662817407115,16) (8463781716029873,16), (4338337121458153,18));
  (AB60 (-1703148972824836,16) (-8971879362370477,16) (4074882118962023,16) (4694659839603462,16) (7123023968986627,16) (-5217537592356799,16) (-9822145911675705,16) (-184885539338385,15) (-3273887965518897,17) (6920686565181635,16) (-5747263792713682,16) (-4367271043051572,16) (4604608319318905,16) (-1375760176272946,16) (8769541958565485,16), (4362555196989202,18));
  (AB60 (-1217197078698225,16) (-881947375564426,15) (4553604500295412,16) (4482167316791051,16) (6801611176246057,16) (-5800712158990036,16) (-9788040982729047,16) (-2017862579398204,16) (3499776151141974,17) (701790923768826,15) (-5234436482433635,16) (-4832144931905249,16) (3987328823739011,16) (-1567174693812422,16) (9035771817086463,16), (436738055659171,17));
  (AB60 (-7226131466982602,17) (-8622214582360073,16) (5013506351442686,16) (4245465207866927,16) (6444972271220214,16) (-6359116101471493,16) (-9705571044686651,16) (-2177242311139859,16) (1030294431277988,16) (7081729248169752,16) (-4692064693243966,16) (-5275759639144915,16) (3346454943215159,16) (-1752907577976248,16) (9258971559309612,16), (4354111695915208,18));
  (AB60 (-2252999605436787,17) (-8378865948540429,16) (545379183175969,15) (3982127513438924,16) (6057018830979074,16) (-688877226709358,15) (-9575162378478618,16) (-2321847117561355,16) (1710348323716468,16) (7114072227637259,16) (-4121370546718928,16) (-5692475837155392,16) (2686390111385037,16) (-1935648284260146,16) (9435919345198613,16), (4323771329792928,18));
  (AB60 (-5557575031100976,16) (-8304690114564778,16) (381420863001795,16) (4810539872075558,16) (8766383233633669,16) (-9607882304526819,18) (-862673099932551,15) (4616931190688911,17) (-5036501933791023,16) (5653653854146244,16) (-8245310136323716,16) (2259620617154645,17) (8530652176280242,16) (-5210730973099535,17) (5191960735077353,16), (3043133082847498,18));
  (AB60 (-4766352699810406,16) (-8736456766587399,16) (9778574060461499,17) (5106129306341807,16) (8526463275168894,16) (-1107640521159045,16) (-9029754683240612,16) (-2099934914185049,17) (-4291786701835974,16) (5873993220969451,16) (-8051897277194462,16) (-8143426045058325,17) (7922114162081566,16) (-4745659979744322,17) (6083986712387957,16), (3542132302594162,18));
  (AB60 (-4454234908046882,16) (-882375018231245,15) (1516978610290069,16) (500364026294016,15) (8484198999387206,16) (-1726832782258103,16) (-9273487440279465,16) (-3395511829252437,17) (-3726544738649072,16) (6181067690304985,16) (-7756508829989396,16) (-1277095524291088,16) (7546654658021362,16) (-7276901693978102,17) (6520618873230229,16), (3838644474909347,18));
  (AB60 (-410479516716301,15) (-8882475159006705,16) (2062108553220222,16) (4886567614058104,16) (8399313215357365,16) (-2360719056465976,16) (-9485579097441372,16) (-4831619436493408,17) (-3128952496026795,16) (6465514223628985,16) (-742347054422115,15) (-1757615118031309,16) (7124860040975396,16) (-9758426711362146,17) (6948676167278326,16), (4031514308515185,18));
  (AB60 (-3721435915624716,16) (-8908935598655668,16) (2604185328448074,16) (4755400695475014,16) (8269910221537881,16) (-2999124731180586,16) (-9659559906733749,16) (-6390253771177871,17) (-2506900272372509,16) (6720560646805301,16) (-7055374578285675,16) (-2248500423102505,16) (6660435175553163,16) (-1214535643252207,16) (7359586023923089,16), (4163432139350068,18));
  (AB60 (-3307658599293125,16) (-8900326604602262,16) (3137448154461107,16) (460966868260814,15) (80956401194185,14) (-3634771752592361,16) (-9791362274613267,16) (-8046864851837619,17) (-1865932600026784,16) (6942430351885485,16) (-665391412015216,15) (-2743736082581356,16) (6156590522020906,16) (-1441725999266341,16) (7747116837069247,16), (4254151717194163,18));
  (AB60 (-2867419589342644,16) (-8854286709607666,16) (3657801493071914,16) (444828629149437,15) (7877257355994942,16) (-4261638841610917,16) (-9878250550787303,16) (-9770293536127236,17) (-1210611291063091,16) (712905843095356,15) (-6220449057715389,16) (-3237675000431279,16) (5616611709176387,16) (-1656808298279553,16) (8106087784566284,16), (4313870441854902,18));
  (AB60 (-2405179787141659,16) (-8768778414821156,16) (416216714023978,15) (4269765758624746,16) (7616400909498365,16) (-4874375606400077,16) (-9918415756372309,16) (-115237750532279,15) (-545027493775822,16) (7279555393541736,16) (-5756248616132529,16) (-3724738264848924,16) (5044040149972231,16) (-1860152293365837,16) (8431932898864526,16), (4348169689475368,18));
  (AB60 (-1925868725120134,16) (-8642069890940742,16) (4648188642223938,16) (4072360922237804,16) (7315464756535582,16) (-5468075704936449,16) (-9910801894456414,16) (-1326605134405159,16) (1269827791829736,17) (7393944430056583,16) (-5262613252232475,16) (-4199343701420778,16) (4442726189519964,16) (-2052851504303108,16) (8720549564461743,16), (4360087388444497,18));
  (AB60 (-143483609189259,15) (-8472739136450237,16) (511409199321511,15) (3854155217149059,16) (6977517687409075,16) (-6038189669430417,16) (-9855024683438857,16) (-1495221449041162,16) (8017489052927378,17) (7473025761323007,16) (-4740932690223747,16) (-4655904122441797,16) (381683501400844,15) (-2236584997185328,16) (8968247210364169,16), (4351116589017552,18));
  (AB60 (-9378258666344078,17) (-82596582277578,14) (555864449344481,15) (361307749670807,15) (6606261791913716,16) (-6580499687674388,16) (-9751330251261769,16) (-1653396435844084,16) (1475750167462348,16) (7518325554308796,16) (-419268575781696,15) (-5088827664170418,16) (3170830563587382,16) (-2413576034096755,16) (917172199015288,15), (4321785281097084,18));
  (AB60 (-4410049316177475,17) (-8001914227675406,16) (5981210859283823,16) (3346801149605129,16) (6206033400578306,16) (-7091126250174105,16) (-9600568045835043,16) (-17958808270971,14) (2145671282409339,16) (7532131181791852,16) (-361935718655122,15) (-5492472432014468,16) (2509441795660939,16) (-2586676214027087,16) (9328012008888952,16), (4272190350290799,18));
  (AB60 (4889993076546891,18) (-7698596644300583,16) (6381944727521145,16) (3052434063946829,16) (5781866825102896,16) (-7566548903035756,16) (-9404156972207398,16) (-1916729819197687,16) (2808554511182111,16) (7517648972270288,16) (-3022212244686253,16) (-5860988575128941,16) (1837608069171642,16) (-2759654580416643,16) (9434378791467974,16), (4202994183867297,18));
  (AB60 (-4373671571512936,16) (-8601972542223573,16) (2622415940954314,16) (4296395157916302,16) (8649731992354986,16) (-2592898977489095,16) (-9621888785694778,16) (4775945013141386,18) (-2723412423898413,16) (696657054900203,15) (-6999472844740463,16) (-157298273401789,15) (7028989808205682,16) (-1650259147614523,16) (6918811098870616,16), (4121068533611692,18));
  (AB60 (-3978007063078035,16) (-8609870738940538,16) (3169477191089532,16) (4151521365395029,16) (850263300257441,15) (-3235753757040399,16) (-9779542128953933,16) (-1072377363661274,17) (-2085438998368026,16) (7213760820118434,16) (-6610064937864402,16) (-2066082367027004,16) (6543788371913534,16) (-1892568064710009,16) (7320998556484561,16), (4224025090877039,18));
  (AB60 (-3552537069840082,16) (-8583108601292639,16) (3702664865448715,16) (3994753962559608,16) (8309803531192607,16) (-3871576688068208,16) (-9893007483463453,16) (-2733050701000336,17) (-1433076156662213,16) (7424113757908289,16) (-6190342618014738,16) (-2561677805897395,16) (6021430795395244,16) (-2119460913177869,16) (7697418828008323,16), (4293643799710111,18));
  (AB60 (-3101989279269227,16) (-8519335543018436,16) (4218836855907273,16) (3824301403467713,16) (8072922099777636,16) (-4494735536864958,16) (-9960273066701157,16) (-4464134432407998,17) (-7705033902854766,17) (7596724816134186,16) (-5741436210793885,16) (-3053798013182237,16) (5465537529836199,16) (-2331485888983751,16) (8043138259374986,16), (4335887057852699,18));
  (AB60 (-2631400978928421,16) (-8416649615929479,16) (4715478568583332,16) (3638325669190902,16) (7794335933235805,16) (-5100089576152139,16) (-9980099480781743,16) (-6223136826936732,17) (-1016859578910273,17) (773149055508056,15) (-5264620912198412,16) (-3536639711299874,16) (4880009904629604,16) (-2529715021037394,16) (8353804237774233,16), (4354067214793068,18));
  (AB60 (-2146116032131061,16) (-8273567675907422,16) (5190593789616935,16) (3434973633282845,16) (7477009871736964,16) (-5682893586598261,16) (-9951940074557838,16) (-7965578041704584,17) (5695475546650001,17) (7829009618729322,16) (-4761346284940902,16) (-4004521187947845,16) (4269046487959576,16) (-2715663586796061,16) (862556742289978,15), (4349741952136598,18));
  (AB60 (-165176843959895,15) (-8089019357226639,16) (5642643605647761,16) (321240780639212,15) (7124491184367346,16) (-6238754799581638,16) (-9875900449256411,16) (-9645281728592925,17) (1239465901159748,16) (7890523239180589,16) (-4233256843608649,16) (-4451873707551867,16) (3637145649674772,16) (-2891234340758698,16) (8855051412039882,16), (4323168945976424,18));
  (AB60 (-1154287035542811,16) (-7862323312916835,16) (6070543102782668,16) (2968787313659315,16) (6740900468444698,16) (-6763620536427036,16) (-9752719037180799,16) (-1121422844472136,16) (1904437498503757,16) (7917907571969848,16) (-368217593439813,15) (-4873224812163072,16) (2989098500753763,16) (-3058724534046568,16) (9039330416441984,16), (4273535225610258,18));
  (AB60 (-6599634947267123,17) (-7593089346544487,16) (6473750254761202,16) (2702123258243618,16) (6330965202233592,16) (-7253785873967212,16) (-958375338408009,15) (-1262124144310895,16) (2560998578187991,16) (7913749368693924,16) (-3110003129318888,16) (-5263121836431609,16) (2329967510112878,16) (-3220962072914703,16) (917587351300482,15), (4199175552298155,18));
  (AB60 (-1756764647446651,17) (-728092615421839,15) (6852536181338514,16) (2409837889764637,16) (5900138457202148,16) (-7705909909342243,16) (-9370948097338776,16) (-1380787697016242,16) (320605007645722,15) (7881586374086909,16) (-2518411916000262,16) (-5615887966221856,16) (1665038187996533,16) (-3381726541201885,16) (9262374071103151,16), (40983035714388,16));
  (AB60 (-2849557172307945,16) (-8025823467658308,16) (52408187898203,14) (2992056591592518,16) (793775398316332,15) (-5295248724609883,16) (-9993998566785168,16) (-8806948449498838,18) (3350170338905065,17) (8144805896917829,16) (-4753179776964869,16) (-3327073625483025,16) (4698749842175284,16) (-3184574206198452,16) (8232875381412817,16), (4350648557727235,18));
  (AB60 (-2360029785242409,16) (-7867548698997577,16) (5703677487522432,16) (278385254692937,15) (7605611827069189,16) (-5865563377281005,16) (-9946108656193725,16) (-2619368719283882,17) (1003150873155486,16) (8225593162523414,16) (-4242431168671293,16) (-3787003420084856,16) (4080545278912721,16) (-3363180658397895,16) (8487530034451801,16), (432773209263427,17));
  (AB60 (-1864267505955958,16) (-766941732658223,15) (6140402636387702,16) (2558397294563459,16) (7240421524619014,16) (-6405536623031988,16) (-985098061375394,15) (-4289958019632151,17) (1665576041296818,16) (8269804128987946,16) (-3710577977366238,16) (-4223973335860277,16) (3445443990721952,16) (-3529843547252776,16) (8698799930951161,16), (4280585936852102,18));
  (AB60 (-1368267727324686,16) (-743140457243595,15) (6549967137867165,16) (2314331041644676,16) (6846705288676821,16) (-6911331168428027,16) (-9709934140708071,16) (-5846992837591293,17) (231847055851123,15) (8279598895752713,16) (-3159967002840905,16) (-4632801600155906,16) (2798602972280044,16) (-3686738285835915,16) (8864298179511843,16), (4206377417804498,18));
  (AB60 (-8783478011715061,17) (-715396909167626,15) (693175528820211,15) (2050380530764282,16) (6429613028860609,16) (-7379431954979236,16) (-9524984614034119,16) (-7243560628156505,17) (2958035901857096,16) (8257779756150743,16) (-2593229325832008,16) (-5008416432621378,16) (2145552659054882,16) (-3836383703028602,16) (8982135818966394,16), (4100374865054836,18));
  (AB60 (-4014541558397281,17) (-6837776374166663,16) (7285852648636755,16) (1764894809501038,16) (59951237085606,14) (-7806640636692002,16) (-9298859771371641,16) (-8426526656060634,17) (3580662429985985,16) (8208094792531729,16) (-2013007122734887,16) (-5345557239487023,16) (1492219134679641,16) (-3982116585825713,16) (9050747458137792,16), (3955704646178792,18));
  (AB60 (5390838531578643,18) (-6482674445871035,16) (7613936295691166,16) (145428425506617,15) (5550560132532538,16) (-8190014622734626,16) (-9034903336353555,16) (-9321143133384965,17) (4183501477185936,16) (813610623741884,15) (-1420967040662389,16) (-5637785732252106,16) (8448887136189283,17) (-412959309187015,15) (9068220550757337,16), (3765379481843644,18));
  (AB60 (-108867975103025,15) (-6684373549643524,16) (7357576139498846,16) (1392563184162345,16) (6496563259349883,16) (-74736492823373,14) (-9422980412661659,16) (-1878102902936408,17) (334247923515682,15) (8562329033367551,16) (-2065404273162813,16) (-4735042419319165,16) (1949331130324359,16) (-443115898618707,15) (8750139323661191,16), (3974461712587138,18));
  (AB60 (-6202592274194519,17) (-6369999147180098,16) (7683644275714868,16) (1119944784174701,16) (6061176489417939,16) (-7874507174707959,16) (-9186930344270541,16) (-3088226577621584,17) (3937631193442814,16) (8494766402127411,16) (-1503286068555673,16) (-5057575977617516,16) (1312423169562582,16) (-4557890420862266,16) (8803589059889568,16), (3766485233950959,18));
  (AB60 (-1768402531775119,17) (-6026770010252953,16) (7977892627026998,16) (8321664024489975,17) (5621756176286589,16) (-8228204942332118,16) (-8919352316518834,16) (-4050138339663652,17) (450345623361724,15) (8405045195509629,16) (-9414596894918364,17) (-5335622636066237,16) (6911473741867161,17) (-4680296486794752,16) (8810059029475995,16), (3467821256194537,18))].

(** ahrens_beylkin/ahrens_beylkin_3312.hpp:1-6642. *)
Definition ab_3312 : coded := [  (AB12 (5257311121191336,16) (8506508083520399,16), (259766598440216,17));
  (AB60 (-4956227056876106,16) (-8674856692746196,16) (4274046338140782,17) (5272845782736238,16) (8479175558689949,16) (-5483422256179634,17) (-8763367193661609,16) (-1956811340562469,17) (-4813014058033689,16) (550456928249407,15) (-8335962559847531,16) (-4598317247025499,17) (8215024968043646,16) (-1432129988424178,17) (5700250416550316,16), (3150996203138,15));
  (AB60 (-4559988560993126,16) (-8863435107687492,16) (8037551962038322,17) (5359678073054569,16) (83691998087867,14) (-1109209409364484,16) (-8981661188262876,16) (-4942352989007907,17) (-436869474426547,15) (5669197970357611,16) (-8177905992059045,16) (-9909833287890996,17) (7872451778898392,16) (-1912938167276565,17) (6163433269258402,16), (3301831297924263,18));
  (AB60 (-411451071191869,15) (-9043935263023793,16) (1130502790682581,16) (547999219495118,15) (8200021295501102,16) (-1652070306192379,16) (-9153402452675038,16) (-8439139675226921,17) (-3937389078410046,16) (5766581018111069,16) (-8022899661992458,16) (-1542603116541135,16) (7501332146482659,16) (-177121633508644,16) (661049498563376,15), (3363993430980557,18));
  (AB60 (-3639957129430841,16) (-9199889462988651,16) (1453528797339769,16) (5591293911468562,16) (7993897008191493,16) (-2198873124580333,16) (-9294439932389091,16) (-1205992454797157,16) (-348697125628867,15) (5838830254011175,16) (-7840911135049322,16) (-2104322655179892,16) (7095566807808759,16) (-1529858731421708,17) (7044822708808332,16), (3560965929590458,18));
  (AB60 (-3143630515287051,16) (-9319348203960001,16) (1807577449710961,16) (5664287095386432,16) (7761496763492511,16) (-2770382589342852,16) (-9414735051616137,16) (-1557851440467489,16) (-2989291353699715,16) (5914013104629904,16) (-7607157601905176,16) (-2674995741686716,16) (6644352462273284,16) (-1543391615873363,17) (7471864545097393,16), (3743580821892217,18));
  (AB60 (-2627226099166862,16) (-9400106904378509,16) (2176160198632433,16) (5704908622559316,16) (749799449834043,15) (-3351730315986807,16) (-9504783846607671,16) (-190211240603808,15) (-245785524880167,15) (5978956415153669,16) (-7328623647975238,16) (-3247053373757646,16) (6153053530620864,16) (-1693708503651919,17) (7881068821191748,16), (3853241066645991,18));
  (AB60 (-2091884262273072,16) (-9442687392368978,16) (2541589078362234,16) (5722072246507566,16) (7199107832560594,16) (-3928197502788343,16) (-9556516899485556,16) (-2243579559808385,16) (-1907704250835801,16) (6020081765061415,16) (-7014927821123322,16) (-3814367995671765,16) (5628319396697213,16) (-184180011437271,16) (8263661324869799,16), (3917048688148531,18));
  (AB60 (-1538637764876944,16) (-9447496872596901,16) (2894373277717692,16) (5720533667842154,16) (6862943067150469,16) (-4491715375236471,16) (-9565837380627967,16) (-2584553805446432,16) (-1347158800636749,16) (6030353140113415,16) (-6671464102910274,16) (-4373374867205405,16) (5074122005391496,16) (-1914789642401944,17) (8614906945559846,16), (3952114591654043,18));
  (AB60 (-9703825608702768,17) (-9413073846885451,16) (3233016925201593,16) (5698963546481898,16) (6490650079220992,16) (-5039174143148756,16) (-9531709876391486,16) (-2922423767664459,16) (-7784254328391775,17) (6009556704019032,16) (-6298692951189893,16) (-4920538113642721,16) (4492535733242731,16) (-1919571280310993,17) (8931980471683492,16), (3967995605500495,18));
  (AB60 (-3918695321542504,17) (-9335823341986663,16) (3562139918221375,16) (5650675436025416,16) (6085702553155671,16) (-5570825033261548,16) (-9455004044273638,16) (-3250120788830992,16) (-1990311050508428,17) (5962694565415798,16) (-5892864126052263,16) (-5451644330974573,16) (3884179011012089,16) (-1928384271034075,17) (9212815354246792,16), (3973690234959832,18));
  (AB60 (-4715850552746663,16) (-871460789105841,15) (1347725071838272,16) (491912538352993,15) (8588977136576968,16) (-1425369148140096,16) (-9181406382830619,16) (-1256307544814422,17) (-3960554727162042,16) (614121970088676,15) (-7833681310992346,16) (-9585706563678879,17) (7756037234690523,16) (-7552958255846212,17) (6266850455368201,16), (3435941097589516,18));
  (AB60 (-4238221394835449,16) (-8896818949730108,16) (1698261459281914,16) (5038864559640124,16) (8401994261020534,16) (-2004079935377016,16) (-9356490892777333,16) (-4948246887095727,17) (-3494456567310332,16) (6242301330212464,16) (-7658229433495418,16) (-1544407992329791,16) (7352410957400316,16) (-7437648275251162,17) (6737126018922037,16), (3589844840969642,18));
  (AB60 (-3738140540137775,16) (-9044255468870618,16) (2056148904136658,16) (5133732969452042,16) (8181731913112367,16) (-2589217777692672,16) (-9500179782117735,16) (-8625235557582517,17) (-3000439505006486,16) (6327358317830447,16) (-7444030877981077,16) (-2133293464445555,16) (6910962004425063,16) (-7377010351312892,17) (7189881873588699,16), (3761819909763362,18));
  (AB60 (-3222279881766984,16) (-9148605471119529,16) (2433090688273163,16) (5189092712732245,16) (7933048292073596,16) (-3184346340192492,16) (-9613661889202397,16) (-1215557179045933,16) (-2469802790622622,16) (6406626221959475,16) (-7180571200929233,16) (-2719289922109623,16) (6429315549009905,16) (-7524770911443619,17) (7622183401005408,16), (3866902055355555,18));
  (AB60 (-268914037825588,15) (-9212132112532592,16) (2811609141982511,16) (5215976785333856,16) (7650461328947737,16) (-3776774765475632,16) (-9689566081598249,16) (-1561670783584854,16) (-191663598892388,15) (6465915143731512,16) (-6877956939615738,16) (-3299340796409975,16) (5912791316122616,16) (-7725043893319999,17) (8027585927316366,16), (3928522049423806,18));
  (AB60 (-2137804838422619,16) (-9237271620862817,16) (317845929267928,15) (5223262050866216,16) (7330354192739169,16) (-435699907699923,15) (-9722957395004653,16) (-1906917428123648,16) (-1351948748008823,16) (649480391542185,15) (-6544498102325372,16) (-3871313302857393,16) (5365958318005424,16) (-7858560904137962,17) (8401721343545497,16), (3963156200246424,18));
  (AB60 (-1570060102154778,16) (-9224629076430285,16) (3527198559465949,16) (521410715614851,15) (6972484140458236,16) (-4919100677487632,16) (-9711656223126244,16) (-225214493597205,15) (-7820336253568363,17) (6489160779642409,16) (-6184457663660294,16) (-4432073530791674,16) (4792555545638612,16) (-7880264767979414,17) (8741305715614459,16), (3975426248754801,18));
  (AB60 (-9900742754084317,17) (-9172210144510449,16) (3858796962022501,16) (5185125625081327,16) (6579525825861479,16) (-5461163993046427,16) (-9655822140693163,16) (-259268431864897,15) (-207573628217615,16) (6451238268454859,16) (-5797025178670663,16) (-4977551996863712,16) (4194658147646736,16) (-7825006471908166,17) (9043922587103829,16), (3970745620002266,18));
  (AB60 (-4019759000496488,17) (-907568979408121,15) (4179745223980697,16) (512829728265211,15) (6154662537877492,16) (-5985039350379442,16) (-9556477275521821,16) (-2921027256203717,16) (3759545862867198,17) (638701525042909,15) (-5376732051541123,16) (-550425186893883,15) (3571437925142379,16) (-7779304863363687,17) (9308042506632808,16), (3963874014760962,18));
  (AB60 (-431220065510018,15) (-8726118260656831,16) (2293422248776919,16) (4580323557827737,16) (8560409193608919,16) (-2395836084456564,16) (-953883237776613,15) (-1657090670479123,17) (-2997201590480472,16) (6708036739556744,16) (-7245410128989211,16) (-1583121967347265,16) (7142996293309566,16) (-1314999064619708,16) (6873745806604656,16), (370462845771505,17));
  (AB60 (-3804283623932214,16) (-8853761619150466,16) (2671765577280181,16) (4651372534179922,16) (8330231881124274,16) (-2995324749501696,16) (-9674314693894834,16) (-5235297380261926,17) (-2476600859422594,16) (679960837343391,15) (-7002549116614654,16) (-2174771674757328,16) (6678989944393138,16) (-132768276450962,15) (7323138111460102,16), (3834655986366858,18));
  (AB60 (-3278319810850449,16) (-8939092550680117,16) (3056999114844609,16) (4690321695819554,16) (8066427393590291,16) (-3596335842723887,16) (-9773433879761867,16) (-8726651570898263,17) (-1928327182177417,16) (6874655653574336,16) (-6716434764917258,16) (-2761994513642138,16) (6177098037037979,16) (-1349992628673032,16) (7747320810664162,16), (391054566584324,17));
  (AB60 (-2732902191530722,16) (-8984764854518141,16) (3435876324977686,16) (4706376074131555,16) (7765090919160608,16) (-4189676272220985,16) (-9831278841404303,16) (-1219673935357534,16) (-1363213788796731,16) (6922578463751707,16) (-6395402516426616,16) (-3343162285334824,16) (5641602569183318,16) (-1369688402733991,16) (8142252399109241,16), (3953772074409907,18));
  (AB60 (-2169236494722219,16) (-8992689462797383,16) (3798150767894578,16) (4705832274904804,16) (7424987054924989,16) (-4767044140204768,16) (-9844644926174395,16) (-1567702407872394,16) (-7907435980770477,17) (6936280634926987,16) (-6046494158279817,16) (-3915088676827757,16) (5077600785969627,16) (-1378492896645171,16) (8503983042799382,16), (3972845396351602,18));
  (AB60 (-159106332144976,15) (-8963163884479467,16) (4138865869667706,16) (4690253365623178,16) (7047759099585006,16) (-5322651128946664,16) (-9812450446200135,16) (-191540478489446,15) (-2168887983971829,17) (6913714450396423,16) (-5673584576532429,16) (-4473364567225995,16) (4489799317253472,16) (-1374174523052577,16) (8829119235290884,16), (396882898954479,17));
  (AB60 (-1002579344244765,16) (-8893957969925453,16) (4460083663754891,16) (465550725746783,15) (6636324361100372,16) (-5855377968152875,16) (-9735219032384568,16) (-2257633608825081,16) (3586096482259304,17) (6857957312397641,16) (-5275135368629676,16) (-5014116905693761,16) (3879841064231692,16) (-1361188992470696,16) (9115590921222722,16), (3949246667953385,18));
  (AB60 (-4070008936109416,17) (-8779417329980206,16) (4770343972780487,16) (4591755641422097,16) (6193096661250417,16) (-6368778051861854,16) (-9613639999905726,16) (-2586320668729789,16) (9427997405142362,17) (6775778945472797,16) (-4843296027125239,16) (-5534555381936334,16) (3244861948043872,16) (-1349800634125178,16) (9362099614202585,16), (393911936654771,17));
  (AB60 (-3858450745070901,16) (-8623481765527578,16) (3278402063120871,16) (4145015415248264,16) (8446375059383063,16) (-3387860027153721,16) (-9808071182740308,16) (-1771067061445137,17) (-1941744805307274,16) (7246310772224621,16) (-6529669119619437,16) (-220327060994099,15) (6420211155586587,16) (-1916705939763627,16) (7423417478369135,16), (3873273093245334,18));
  (AB60 (-3321858520682578,16) (-8690993130631602,16) (3664954893567292,16) (4172172958093108,16) (8165469907187151,16) (-398974610753337,15) (-989014932326068,15) (-5255232234444524,17) (-1381583043188816,16) (7311604628215949,16) (-6225194429693387,16) (-2790589914904292,16) (590040321572731,15) (-1940275477493763,16) (78371278516604,14), (3930240936185726,18));
  (AB60 (-2765129271210432,16) (-8719731334204982,16) (403984474612318,15) (4180016526246338,16) (7845282920343751,16) (-4580283587297855,16) (-9928805145264792,16) (-8744484138612307,17) (-8088067500082928,17) (7345412858508288,16) (-5888960399141612,16) (-3371209776238046,16) (5348521557966937,16) (-195632252120214,15) (8219861272369519,16), (39589901139891,16));
  (AB60 (-2191764649559206,16) (-8711095705750644,16) (4394653493302435,16) (4172805194543635,16) (7486745315858653,16) (-5151343648394872,16) (-9922043736614161,16) (-1224350389891992,16) (-2324095770122796,17) (7343108297954077,16) (-5527390243311726,16) (-3940395617531355,16) (477070008821929,15) (-1959355072546927,16) (8567458687846069,16), (3964371029272455,18));
  (AB60 (-1605865783835663,16) (-8665927734360902,16) (4724710741107904,16) (4152287620678737,16) (7092152489496943,16) (-5697357333087019,16) (-9869477997567572,16) (-1573775244863959,16) (3415194492016113,17) (7303223116922681,16) (-5144767256459668,16) (-4493807069880348,16) (4172120664480554,16) (-1947385233037275,16) (8876998361786641,16), (3946209074589057,18));
  (AB60 (-1011154799091641,16) (-8581768733931125,16) (5032972418918676,16) (4113846521223416,16) (6664199793040744,16) (-6218095200160071,16) (-9771746973868298,16) (-1917568940890381,16) (914270438999482,16) (7229249999251711,16) (-4738774554949621,16) (-5028116960222898,16) (3553651773708227,16) (-1925425238091123,16) (9146818940142093,16), (3914803340475983,18));
  (AB60 (-4123229324650262,17) (-8449919779407601,16) (5331870733704976,16) (4042778542491062,16) (6206174817763778,16) (-6718581382087188,16) (-9629478862800451,16) (-2243744961643823,16) (1496243756203277,16) (7130904314552214,16) (-4297608129095475,16) (-5539022298694338,16) (2910897480713263,16) (-1908566688668303,16) (9374649276196038,16), (390058567780784,17));
  (AB60 (-3354631906377872,16) (-8406552124528691,16) (4251626294759889,16) (3638592116519396,16) (8231055063208668,16) (-4360089443581389,16) (-9963494949165665,16) (-1754970613200242,17) (-8354454975749817,17) (771472134995926,15) (-5711868654405776,16) (-2803146618944414,16) (5603405505584277,16) (-2519186408802891,16) (7890218411279285,16), (3942081702779,15));
  (AB60 (-278831467523702,15) (-8418962974428639,16) (4620212517520981,16) (3639341242252433,16) (7892999630683973,16) (-4945275740791728,16) (-9982827000400016,16) (-5259633437446658,17) (-2579295274320825,17) (7733590416028748,16) (-5362614482879036,16) (-3381411714820351,16) (5037551259608288,16) (-2530385147804937,16) (8259553759773414,16), (3956021522933392,18));
  (AB60 (-2207595353570088,16) (-8394657038794256,16) (4965506616239456,16) (362648241725777,15) (7517736607237732,16) (-5507473248370613,16) (-9956357995409881,16) (-8769204315565242,17) (3192898744972191,17) (7715068601940701,16) (-4990851379170425,16) (-3945772291754989,16) (4448884747039267,16) (-2526885228067307,16) (8591989033497226,16), (3948021528980024,18));
  (AB60 (-1616261676584478,16) (-8335492728020396,16) (5282732169429323,16) (3602736863321082,16) (710778354480888,15) (-604149817295441,15) (-9884373683593501,16) (-1227709183211515,16) (8898803540602232,17) (7657759849538889,16) (-4601641514164179,16) (-4492617217381305,16) (3842875510639091,16) (-2506142030644701,16) (8885469032750404,16), (3916342591510085,18));
  (AB60 (-1019086586029854,16) (-8237991185346605,16) (5576465167139991,16) (3561527211063653,16) (666667646469719,15) (-6547591071524376,16) (-9767822525849188,16) (-1571314720649415,16) (1456232519958139,16) (756667765755423,15) (-4191357358709197,16) (-5017759731021793,16) (3220231454324812,16) (-2475319105987994,16) (9137992378203644,16), (3869356475827422,18));
  (AB60 (-4220264060375283,17) (-80895230191628,14) (5863574936422508,16) (3482360799138207,16) (6198132347286299,16) (-7032518657646686,16) (-9606762398641872,16) (-1891390671876501,16) (2032918479029408,16) (7454545063684214,16) (-3743187462219363,16) (-5515279278167615,16) (2574243740995186,16) (-2454944885066936,16) (9345935735560715,16), (3839370020000562,18));
  (AB60 (-2801667983434482,16) (-8083773580510458,16) (5177186611436688,16) (3085553880116391,16) (7908322447434297,16) (-5285621375042436,16) (-9994266530507965,16) (-1754511330761607,17) (2895745449285384,17) (8087289358476918,16) (-4817079919071278,16) (-3375128425044929,16) (4708645155465529,16) (-309124252836302,15) (8262740491553078,16), (3949969292624985,18));
  (AB60 (-2215969774143229,16) (-8044864273800663,16) (5510865338239481,16) (3068226926593394,16) (751814038643126,15) (-5836398603320243,16) (-9948636903295818,16) (-5267238873694024,17) (8643990472316936,17) (8052368377463472,16) (-4437771565056337,16) (-3932625973825087,16) (4112238299975575,16) (-3080368821374923,16) (8579092264832875,16), (3928253565852859,18));
  (AB60 (-1622686583487155,16) (-7973073439096157,16) (5813517711897864,16) (3042155322837613,16) (7095793512209608,16) (-6355706524361774,16) (-9858548496418983,16) (-8772799268865483,17) (1428076144201334,16) (7978393107848929,16) (-4045030784521119,16) (-4470231467038947,16) (3502841972057209,16) (-3050762727688489,16) (8855673034735477,16), (3879558621969103,18));
  (AB60 (-1027056940524501,16) (-786423161077785,15) (609089609277345,15) (2999470925620413,16) (6645212728102948,16) (-684429119519446,15) (-9725123116019483,16) (-1219018882674902,16) (1983928764332414,16) (787134813571896,15) (-3634227023246033,16) (-4983399689952827,16) (2880831920825023,16) (-3010985704856915,16) (9090367018393862,16), (3806414530713992,18));
  (AB60 (-433717340756245,16) (-7701772422812433,16) (6363536030819126,16) (2915070732405219,16) (6168211688673538,16) (-7311328688329204,16) (-9546658821321924,16) (-1533560734138895,16) (2551371557414495,16) (7745046029085449,16) (-3183122790502799,16) (-5466442289819713,16) (223533013299272,15) (-298508889817074,15) (9278606763224345,16), (3742193085515445,18));
  (AB60 (-221553805177222,15) (-7662029568014909,16) (6031972649143449,16) (2498086897673696,16) (748740477776574,15) (-6139896704795755,16) (-98993373661811,14) (-1746247902491681,17) (1404502008955868,16) (8355434756567975,16) (-3867364717037652,16) (-3902588906629564,16) (3759440661385345,16) (-3620040060728089,16) (8530059546817144,16), (3903940733596496,18));
  (AB60 (-1623496755602241,16) (-7579363358059159,16) (6318030497794324,16) (2471130426521784,16) (7055496939422038,16) (-6641797750076746,16) (-9792537099903474,16) (-5238664186371207,17) (1957493581710647,16) (8265294505678987,16) (-347450660210915,15) (-4428624008232431,16) (3150739349826728,16) (-3580990337312888,16) (8789160924316107,16), (3831520800917768,18));
  (AB60 (-1030603362836331,16) (-7463243887474162,16) (6575549207829716,16) (2431642580640291,16) (6597354031299748,16) (-7110698569459262,16) (-96441396956228,14) (-8658898561744134,17) (2498160180670334,16) (8141301932295593,16) (-3068590487793084,16) (-4929802761310624,16) (2533441126163538,16) (-3528763543506665,16) (9007191788470006,16), (3720435225594789,18));
  (AB60 (-4387006310570476,17) (-7293003332217256,16) (6827857947598071,16) (2350668711558204,16) (6111342073062647,16) (-7558164768944617,16) (-9449658560035558,16) (-118166125915461,15) (3050840829568112,16) (7996865400001665,16) (-2621800612437487,16) (-5401509541126316,16) (189149379109094,15) (-348954146062516,15) (9178526659156275,16), (3599235643903156,18));
  (AB60 (-1612621704294422,16) (-7156258131215633,16) (6796132782564559,16) (1893140540880201,16) (6982887955721043,16) (-690328144365575,15) (-9685928347694496,16) (-1733701754945889,17) (2480470686296684,16) (8515903147950172,16) (-2889795565129937,16) (-4373611227176886,16) (2782646904038746,16) (-4093092390591107,16) (8689273323444761,16), (3772548150490239,18));
  (AB60 (-1019841406766794,16) (-7039456553534487,16) (7028938393238647,16) (186542246009598,15) (6516858722334112,16) (-7351921615367459,16) (-9524657505851013,16) (-5225978312003741,17) (3001298202954952,16) (8371763022134253,16) (-2495719112612365,16) (-4866720663050932,16) (2172735890483554,16) (-4021139609721747,16) (8894360853334627,16), (3621259362338001,18));
  (AB60 (-4235833458875354,17) (-6870847852564883,16) (7253414846538923,16) (1801030802806692,16) (6019538506471738,16) (-7779552957364934,16) (-9316234554172514,16) (-8513093460931455,17) (353313545295061,15) (820313630325247,15) (-2062819707633592,16) (-5334166255757302,16) (1536681596807581,16) (-3956718798838145,16) (9054445649345615,16), (3450008192678125,18));
  (AB60 (-9874372218620929,17) (-6597935735602496,16) (7449309482209799,16) (1308052514357518,16) (6399784587527334,16) (-7571773626630062,16) (-936763176143486,15) (-1981511480751616,17) (349402508644018,15) (8559210848492155,16) (-1918322279225062,16) (-4802077600797697,16) (1795858134804799,16) (-4481462308302273,16) (8757361996567317,16), (353510957901056,17));
  (AB60 (-3897323556963298,17) (-6434935608259073,16) (7644587131329124,16) (1263244777957569,16) (5895075241706376,16) (-7978239187037667,16) (-9148699751622588,16) (-5398603665526962,17) (4001230265716582,16) (8367971542733996,16) (-1504112620293465,16) (-5264475043674151,16) (1170460564584922,16) (-4390962621412911,16) (8907831909286692,16), (3398017131143102,18));
  (AB60 (-3879983758874002,17) (-5975956111924301,16) (800858325852103,15) (7104603309859943,17) (5776663663594628,16) (-8131752765289951,16) (-8958839773385195,16) (-1992924483296736,17) (4438408772843062,16) (8519751141177351,16) (-9502565148641653,17) (-5148869103829057,16) (8270870080952447,17) (-4826407148730462,16) (8719043589507025,16), (3346513506461252,18))].

(** ahrens_beylkin/ahrens_beylkin_3372.hpp:1-6762. *)
Definition ab_3372 : coded := [  (AB12 (5257311121191336,16) (8506508083520399,16), (2202024261536644,18));
  (AB60 (-2251949367610466,16) (-9479926149164764,16) (2249383082558629,16) (5848839193750882,16) (7256925982821286,16) (-3623272742355568,16) (-9490003526436611,16) (-2223000166343478,16) (-2235643828667161,16) (5875222109966034,16) (-7240620443877982,16) (-3613195365083721,16) (5866730784081042,16) (-1630553894330416,18) (8098222276309511,16), (3794350739338894,18));
  (AB60 (-1762490452502138,16) (-947669882394659,15) (2661917880973814,16) (579121195641221,15) (6986812003322573,16) (-420075256425987,15) (-9542408841879528,16) (-2489886820624017,16) (-1656169410085279,16) (5963243016762008,16) (-6880490960905714,16) (-4135042546326931,16) (5341656277619659,16) (-1063210424168591,17) (8453129837386025,16), (381779636452355,17));
  (AB60 (-1264414064908252,16) (-9433367957728714,16) (3068032927880562,16) (5707013094070982,16) (6687690759318863,16) (-476495475863344,15) (-955649688991826,15) (-2745677198409852,16) (-1065187267627087,16) (6029368823541692,16) (-6488463962037697,16) (-4641825826443894,16) (479154213128482,15) (-1992267972811653,17) (8775046021951544,16), (3825077167942899,18));
  (AB60 (-7568805074598679,17) (-9350195611866869,16) (3464242185132677,16) (5598457118647786,16) (6357936707016202,16) (-5313559891469927,16) (-953047718281293,15) (-2992258904850668,16) (-465178798123918,16) (6070440398929795,16) (-6066234997680252,16) (-5133278320523867,16) (4216917291343002,16) (-29170170933595,15) (9062699303780463,16), (3825054498555295,18));
  (AB60 (-2380695091460407,17) (-9227108886952241,16) (384756864748921,15) (5467536050579235,16) (5995120821316167,16) (-584504712328633,15) (-9462239746405702,16) (-3231988065636074,16) (1423802132536335,17) (608311663243237,15) (-5614671098916492,16) (-5609916263832868,16) (3617192623119372,16) (-3804497223996742,17) (9315104698068445,16), (382408061166574,17));
  (AB60 (-4959685872438214,16) (-8674817707926988,16) (3860748385652005,17) (5292410308190316,16) (8469182697744558,16) (-5131642641348729,17) (-8743739589445009,16) (-20563501018243,15) (-4848167925573464,16) (5472850136573087,16) (-8357664750879809,16) (-4442423826168525,17) (8230575325310135,16) (-1115179468647501,17) (5678485146755518,16), (2866328018796192,18));
  (AB60 (-4602485620262474,16) (-884237005133632,15) (7934847134681712,17) (5334639012321648,16) (8389874370065223,16) (-1073142424256248,16) (-897261627184467,15) (-4524956812710972,17) (-439174280857375,15) (5675628044518722,16) (-8179131558376499,16) (-9428962037478984,17) (7899473847588422,16) (-210742811688724,16) (612812372578982,15), (3238552360431181,18));
  (AB60 (-4203914231273623,16) (-8992507985587828,16) (1209092744678528,16) (5371464469695471,16) (8270922254670082,16) (-165505725218263,15) (-9178719095090484,16) (-7215857309177448,17) (-3902618327015497,16) (5858971483456253,16) (-7969626350411956,16) (-1468846142679974,16) (7523661842907854,16) (-3012959042581267,17) (6580557214373999,16), (3459712680922587,18));
  (AB60 (-377527100836959,15) (-911576763693564,15) (1627915600625809,16) (5394230234783937,16) (8115195808611336,16) (-2246302998715853,16) (-9355391635324241,16) (-1000571828324303,16) (-3387551234456684,16) (6021574007085442,16) (-7727476034698432,16) (-2006679000327252,16) (7109088636608387,16) (-3877197739129054,17) (7022145835409745,16), (3605830801787157,18));
  (AB60 (-3323845074018503,16) (-9206480644859697,16) (2047624980250709,16) (5397262195408993,16) (7925038390984407,16) (-283959984776591,15) (-9499136404742047,16) (-128144225387529,15) (-2850318107525433,16) (6163444921784412,16) (-7451511424491337,16) (-254694408788356,15) (6659536556976137,16) (-4735269664930698,17) (7444887175659702,16), (3705671148727358,18));
  (AB60 (-2854997367517936,16) (-9261113244506589,16) (2465922039296922,16) (5377194276529498,16) (7702309828417518,16) (-3429315532219412,16) (-9607601726743979,16) (-1558803416089071,16) (-2294367226547475,16) (6284312899737349,16) (-7141679687447057,16) (-3082827049982023,16) (6178286194524566,16) (-560630140970461,16) (7843116315826419,16), (377072545085161,17));
  (AB60 (-2372941245155452,16) (-9277571518516394,16) (2880245921072278,16) (5332310893066329,16) (7448580490832664,16) (-4010624541299423,16) (-9679115156951172,16) (-1828991027683731,16) (-1723229990201683,16) (6383565786454876,16) (-6798869235878895,16) (-3609080902864646,16) (5668490615651749,16) (-6497112549537691,17) (8212556814138606,16), (380793802420725,17));
  (AB60 (-1880352286956791,16) (-9255004370090164,16) (3287730126781749,16) (5262529942945027,16) (7164703622698985,16) (-4579607035378806,16) (-9712381693889669,16) (-2090300747391179,16) (-1140300231365726,16) (6459959322335597,16) (-642465156710792,15) (-4122229711579301,16) (5132774658510862,16) (-740052055591065,16) (8550260069726776,16), (3824890212711543,18));
  (AB60 (-1377522572546613,16) (-9193632233253121,16) (3685045172289452,16) (516960424553835,15) (6849996871228664,16) (-5133491483256731,16) (-9706005187931801,16) (-2343635362024457,16) (-5484857169602986,17) (6511014055803345,16) (-6020960015642349,16) (-462111852857805,15) (457251370467507,15) (-8290368555863145,17) (8854649417827801,16), (3830575260759508,18));
  (AB60 (-8630813452719907,17) (-9093904030222824,16) (406890649690314,15) (5055962853996483,16) (6502560747030148,16) (-5670444722434957,16) (-9658282957333696,16) (-2591343283192675,16) (5010294132760123,18) (6533526067706947,16) (-5589376460430556,16) (-5106065795324084,16) (3987838234898739,16) (-9131842865995919,17) (9124869350899623,16), (3831391070150268,18));
  (AB60 (-3366829012051083,17) (-8955172122760401,16) (4437514718372334,16) (492208833749193,15) (6121235710936604,16) (-618898374283536,15) (-9567684532239944,16) (-2833936411823796,16) (6543829958638862,17) (6525666644040468,16) (-513016981386761,15) (-5576471333355816,16) (3378700789404585,16) (-9910658970689945,17) (9359603055864264,16), (3828956490160869,18));
  (AB60 (-4772397661628247,16) (-8682054451811504,16) (1358731413880347,16) (4869811909305614,16) (862184913575839,15) (-13959403455046,14) (-9178047285902736,16) (-6020531605311331,18) (-3969864397892245,16) (6168338007132846,16) (-781931587202239,15) (-8999475114133683,17) (7782106940398136,16) (-8025332637360012,17) (622854332318596,15), (3421806645762927,18));
  (AB60 (-4360112930640075,16) (-8818426337620245,16) (179576506259332,15) (4889025246520007,16) (8491540549338028,16) (-1997791590191033,16) (-9379488295036806,16) (-3268857882822183,17) (-3452295613745534,16) (6357904520831109,16) (-7583723232443487,16) (-1436729632774473,16) (7381696704845773,16) (-9078173168945414,17) (6684790309113326,16), (357607311941998,17));
  (AB60 (-3921257519736887,16) (-8925386842785663,16) (2227377195388218,16) (4895365826570796,16) (8323354800438696,16) (-259945345987516,15) (-9546213447797521,16) (-6020320423469674,17) (-2916738971707495,16) (6520710979612047,16) (-7318836252409304,16) (-1978626854863302,16) (6946759987922362,16) (-1004518548029392,16) (7122743021959014,16), (3685624995780435,18));
  (AB60 (-3461960642096333,16) (-8998318833549293,16) (2654258216972881,16) (4882859076394119,16) (8120155306591751,16) (-3196993124313126,16) (-9676726637896943,16) (-8781635269575411,17) (-2364273756428644,16) (6658953766409459,16) (-7022468420924063,16) (-2518585319965475,16) (6479733513583817,16) (-1097686885667689,16) (7537117293366999,16), (3760661099475163,18));
  (AB60 (-2986941251450806,16) (-9034448329505573,16) (3075211430434573,16) (4848400910257205,16) (7884002991676436,16) (-3786225751411835,16) (-9769643556487522,16) (-1150445337829137,16) (-1797370385827318,16) (6773167002862641,16) (-6694432126052948,16) (-3051030524429886,16) (5983417805075687,16) (-1189570865623488,16) (7923612340691778,16), (3806987697971657,18));
  (AB60 (-2499601684974312,16) (-9032456059467676,16) (3488083850806807,16) (4790949127825601,16) (7616325459750423,16) (-4363300693940843,16) (-982387177828304,15) (-1416130599717254,16) (-1219064152700123,16) (6862902378915154,16) (-6335787927476233,16) (-3571884975125478,16) (5460571084342198,16) (-1280537532274189,16) (8279032978632408,16), (3830984047521602,18));
  (AB60 (-2001277067746395,16) (-8992348941661256,16) (3890057918529761,16) (4711505529502149,16) (7317335635018855,16) (-4925273073643114,16) (-9838420696804907,16) (-1675013306642401,16) (-6323042110026869,17) (6926550141389509,16) (-5948362778275147,16) (-4079201318499462,16) (4913147623161793,16) (-1368972856743708,16) (8601563448031909,16), (3840968858894613,18));
  (AB60 (-1491253971640373,16) (-8914907243409768,16) (4277918937224837,16) (4612529174416389,16) (6985853079851969,16) (-5470139976443055,16) (-9812093751973248,16) (-1929054163557798,16) (-3957570653681388,18) (6961393948083427,16) (-553417481474841,15) (-4572953467879575,16) (4341953775530193,16) (-1451678265103559,16) (8890448111641225,16), (3843858838739873,18));
  (AB60 (-968714991708113,16) (-8800444942653117,16) (464906012825938,15) (4495830057394149,16) (662056794982733,15) (-5996298201119628,16) (-9743588975940715,16) (-2179876992825788,16) (5573241104378814,17) (696501319282774,15) (-5094528847681336,16) (-505315416783203,15) (3747290774821088,16) (-1526039102145994,16) (9144890185653528,16), (3841092251422764,18));
  (AB60 (-4349315537421477,17) (-8647637817469949,16) (5002918620307851,16) (4360225403882518,16) (6221672802252264,16) (-6502247455230538,16) (-9631946507182818,16) (-2425965015217685,16) (1157713361635149,16) (6937179008972685,16) (-4629027886874967,16) (-5517938765517667,16) (3129699051952282,16) (-1592644915377297,16) (936314402419037,15), (3831478539170205,18));
  (AB60 (-4064217828564222,16) (-8693081263520822,16) (2812911585493572,16) (4370482305056009,16) (8503799407502204,16) (-2929894205966741,16) (-9695218646285563,16) (-1892818560186177,17) (-2442725481854008,16) (6994112034530963,16) (-6882307060791991,16) (-1927756823202,13) (6765324440318822,16) (-1621492346710213,16) (718339389054958,15), (3755746609279461,18));
  (AB60 (-3597126258975146,16) (-874817852211801,15) (3245004656721562,16) (4343349620922903,16) (8286987121235081,16) (-353003661778639,15) (-9811500567515862,16) (-4611914008829288,17) (-1876635048534364,16) (7127162876761536,16) (-65664959107943,14) (-2466714572388539,16) (6281463949729471,16) (-1720491210440782,16) (7588354277644465,16), (3808474232206876,18));
  (AB60 (-3115712390420455,16) (-8766204159381183,16) (3666878909403541,16) (4295760608173445,16) (8036894252446098,16) (-4117617220221446,16) (-988825567402601,15) (-7293099069350847,17) (-1300194902596826,16) (7233329610641901,16) (-6221376764622468,16) (-2995565705576619,16) (5770638453804564,16) (-181551748782363,15) (7962639517576986,16), (3837992470772939,18));
  (AB60 (-2622318157445227,16) (-8746707408089897,16) (4076586439461133,16) (4227600842930834,16) (7754588146908084,16) (-4689749863764928,16) (-9924869033009115,16) (-9921192611818123,17) (-7160126040851252,17) (7312068021210154,16) (-5848282593547982,16) (-3511588238845708,16) (5235119169244188,16) (-1906305553360102,16) (8304187282391967,16), (3851375433081065,18));
  (AB60 (-2117132091212031,16) (-8690476214109546,16) (447139518275408,15) (4140815559527747,16) (7439771048219161,16) (-5244373485179413,16) (-9920670333324005,16) (-1250705165890384,16) (-1266361935627941,17) (7361505576391444,16) (-5449275150569926,16) (-4014179365964953,16) (4676296848144592,16) (-1990495897649237,16) (8612210742281828,16), (3855912647760318,18));
  (AB60 (-159929767162608,15) (-859854071608625,15) (4848437326741303,16) (4037936743171312,16) (709137888357781,15) (-5779914565778095,16) (-9874794389106101,16) (-150716183250844,15) (4657241495869329,17) (7379212237404175,16) (-5026357062364798,16) (-4503660892758245,16) (4094879823328005,16) (-2065021821213013,16) (8886374069912615,16), (3854188713534571,18));
  (AB60 (-1069049180514379,16) (-847089567178771,15) (5205867878397393,16) (3919810252253194,16) (6709028435648046,16) (-6294761713996543,16) (-9786386859853695,16) (-1761867236139664,16) (1059460273677364,16) (7363810894510923,16) (-4580518981456302,16) (-4979270525930558,16) (3491625145857152,16) (-2128509454191744,16) (9125678130650586,16), (3843630043623162,18));
  (AB60 (-5289418574961476,17) (-8305574261355128,16) (5544155183659973,16) (3783821110646902,16) (6293948253631089,16) (-6787408429086688,16) (-9654880340311998,16) (-2011626007724039,16) (1654281239482916,16) (7316350286582836,16) (-4110725156652024,16) (-5438102350129819,16) (2867471911225309,16) (-2183223096979064,16) (9327976294306874,16), (3822302761946956,18));
  (AB60 (-3722115535189698,16) (-8457973042004454,16) (3822113023371421,16) (3781390461860445,16) (8421339122641275,16) (-3844754030678989,16) (-9903897396033104,16) (-3663391936317925,18) (-1382560785210106,16) (7566869565868687,16) (-6081784372661684,16) (-2398829676650339,16) (6059143365354116,16) (-2339554749979592,16) (7603503485231866,16), (384113289603843,17));
  (AB60 (-3234760287489204,16) (-8458125090611515,16) (4242221803966727,16) (372206013530714,15) (815695722194738,15) (-4428353783120527,16) (-9963473742400576,16) (-3011678686641355,17) (-7990550039756733,17) (7663114070609731,16) (-5721251938433849,16) (-2923005131331466,16) (5535119959280049,16) (-2435705283513531,16) (7964281939273866,16), (385774426302337,17));
  (AB60 (-2735233827153025,16) (-8422004213780258,16) (4646325530337431,16) (3645148034297418,16) (785964630691861,15) (-4993881830620177,16) (-9981941036993873,16) (-5623579068616473,17) (-211203026890858,16) (7729115657773201,16) (-5335615506656443,16) (-343394500740656,15) (4988059206373697,16) (-2524030800262167,16) (8291473564634849,16), (3863622261756333,18));
  (AB60 (-2223128116575738,16) (-8350951859912243,16) (5031829131709329,16) (3553163039326743,16) (7528945071427782,16) (-5539857265975872,16) (-9958960908425417,16) (-8220067884844622,17) (3786851781359551,17) (776298538255161,15) (-4927131776716088,16) (-3931848217462698,16) (4419103642449545,16) (-2601813294711693,16) (8584992171036072,16), (3862968554415074,18));
  (AB60 (-1698047753020202,16) (-8246013079239006,16) (5396285956607775,16) (3448296125695123,16) (7164300096171713,16) (-6064821346215401,16) (-9894033308189769,16) (-1081712983067294,16) (9685049915695156,17) (7762869099235603,16) (-4497747351581995,16) (-4416801117264639,16) (3829211961974368,16) (-2666552744589717,16) (8844582082302898,16), (3853892922370261,18));
  (AB60 (-1161329986983819,16) (-8106834669217915,16) (5738514120161997,16) (3330439255849063,16) (676625141574676,15) (-6567040135556087,16) (-9786694780121534,16) (-1340583253471155,16) (1556740768803404,16) (7728370122539906,16) (-4048180659959537,16) (-4887180024652468,16) (3219654644565447,16) (-2718070755787224,16) (9068953376011061,16), (3831639849537087,18));
  (AB60 (-6165817916017446,17) (-7930863208561859,16) (6059804919413255,16) (3195766404055848,16) (6336839454804497,16) (-7044965778109997,16) (-9636639827523286,16) (-1594023753757361,16) (2143422755092722,16) (7661547569711742,16) (-3576834908110031,16) (-5339189159148571,16) (2591674049413288,16) (-2760004546694467,16) (9255571323469103,16), (3794472347011902,18));
  (AB60 (-6933281540119937,18) (-7712703801971117,16) (6364698973539032,16) (3035933943378555,16) (5879243473817335,16) (-7497839773362606,16) (-9443482953371251,16) (-1833460328153783,16) (2731126678583917,16) (7567172588763805,16) (-3078783979832219,16) (-5767060621962472,16) (1945643180008645,16) (-2800459493985116,16) (9400632916917587,16), (3747595386724368,18));
  (AB60 (-2835849278359316,16) (-8060121638254728,16) (5195420872938675,16) (3046739325109021,16) (7929784421474356,16) (-5275973702908008,16) (-9994811439045614,16) (-1303372167803719,17) (2945445770081013,17) (8111822981267324,16) (-4799390566106939,16) (-3341283902117122,16) (4718837736137607,16) (-3130393855367417,16) (8242160198047696,16), (386603517272531,17));
  (AB60 (-2317324139515423,16) (-797565517500997,15) (5569464369376627,16) (2951615852583681,16) (7583641337551391,16) (-5811742244986305,16) (-9953265303131442,16) (-392013837458579,16) (8825162642811525,17) (8129066384501729,16) (-4383800933754816,16) (-3834132116864833,16) (4141523058145137,16) (-3199840403796576,16) (8521080221960308,16), (3858746599168965,18));
  (AB60 (-1786083673395769,16) (-7859370937711451,16) (5919475785497033,16) (2846696552501688,16) (720387612951811,15) (-632459385640961,15) (-9870032754908572,16) (-6554948081933414,17) (1467235486710801,16) (8110677529805379,16) (-3950556969411539,16) (-4313932039212489,16) (3545438898498962,16) (-325331916010657,15) (876617233799872,15), (3838908042784035,18));
  (AB60 (-1244574182907331,16) (-7710593950471724,16) (6244819936090183,16) (2730997001332515,16) (6791934127031547,16) (-6812582931075191,16) (-9745006083980058,16) (-9186598234401774,17) (2047173796234342,16) (8057157113982522,16) (-3500186147889874,16) (-4778170797566857,16) (2932423152904867,16) (-3291747979141673,16) (8975816937422699,16), (3801092690564054,18));
  (AB60 (-6973236436060898,17) (-7526288986345222,16) (6547420395093517,16) (2599700640529782,16) (6350555342830426,16) (-7274063748502413,16) (-957809074853078,15) (-1175733643514796,16) (2622561345787073,16) (7971387392108503,16) (-3030670353437264,16) (-5222261986316854,16) (2304027000028367,16) (-3319884989393163,16) (9147121035623298,16), (374389341843765,17));
  (AB60 (-1505744484059511,17) (-7300059975059263,16) (6832748473054235,16) (2442968279776108,16) (5883282671671911,16) (-7708365001037041,16) (-9368776879782489,16) (-1416777303387352,16) (3196679816537706,16) (7858939449442992,16) (-2536028406728253,16) (-5639648096313815,16) (1660411878745448,16) (-3347254264943658,16) (9275716752830344,16), (3672574692718176,18));
  (AB60 (-1862841937403159,16) (-7441147478980691,16) (6415539269017948,16) (2236595317144774,16) (7210155186890227,16) (-6558300356669099,16) (-9803434219146578,16) (-2309922920904645,17) (1959418299358437,16) (8421142294072258,16) (-338789495012863,15) (-4196013616503211,16) (3245133862477479,16) (-3822260236761597,16) (8652134586162722,16), (3806776398867381,18));
  (AB60 (-131860640343555,15) (-7285038704792033,16) (6722312713828537,16) (212509197238853,15) (6786603211742795,16) (-7030362789732277,16) (-9662348261323491,16) (-4984354930492384,17) (2527961260812289,16) (8348969193167828,16) (-2940035547494956,16) (-4653053233200819,16) (2631985471591214,16) (-3846567664247839,16) (8847404686217065,16), (3749568947409591,18));
  (AB60 (-7714235329648399,17) (-7095265327046284,16) (7004435428469795,16) (1999589533397967,16) (6336216994951592,16) (-7473553096808231,16) (-9480790924961558,16) (-759048332094691,16) (308843796549499,15) (8244976629773071,16) (-2476355496491763,16) (-5088027498892957,16) (2007237828153327,16) (-385986149845983,15) (9004024961867763,16), (3667758104476929,18));
  (AB60 (-2282318400169391,17) (-6864663024128687,16) (7268033557459878,16) (184908475122479,15) (5862920834238019,16) (-7887144278777061,16) (-9258173343130064,16) (-1001742189890667,16) (3644549208550893,16) (8115376118794,13) (-1990139785670187,16) (-5493633959775683,16) (1371029064353003,16) (-3872781048567833,16) (9117118308684667,16), (3564252682930466,18));
  (AB60 (-1383289795223116,16) (-6833262993347463,16) (7168892955413664,16) (1516319356075305,16) (6751046203232338,16) (-7219705726150727,16) (-9540132421227737,16) (-8221679011512538,18) (2996516942195148,16) (8602995521373844,16) (-2371239465814073,16) (-4512836298270454,16) (2320426695077009,16) (-4379806737418265,16) (8685212311488969,16), (3675111823843938,18));
  (AB60 (-8393121286297925,17) (-6641525424635545,16) (7428707504314231,16) (1399391473614712,16) (6295377353038087,16) (-7642638777701692,16) (-9346822400592178,16) (-3461480715974581,17) (3537950328130347,16) (8481950906331485,16) (-1918114896277947,16) (-4937341801745059,16) (1704183622890486,16) (-437726245676014,15) (8828098977928943,16), (3562634582549752,18));
  (AB60 (-30375902829773,15) (-6411645455362646,16) (7668020149129445,16) (1259253358791736,16) (5821117483059524,16) (-8032986507320331,16) (-911500691179882,15) (-5905279723031211,17) (4070371692092419,16) (8336745535618061,16) (-1446986762669375,16) (-5329625050884156,16) (1082020404478489,16) (-4374130720390149,16) (8927273507921182,16), (3413522197566924,18));
  (AB60 (-3781402068362096,17) (-5946540221111528,16) (8030919585120793,16) (6785405538841409,17) (5760882596403643,16) (-8145662307460838,16) (-8943163639342626,16) (-1856576247078857,17) (4470498335345599,16) (8523802514297047,16) (-9122440542218337,17) (-514903888922974,15) (7975013318817881,17) (-4848638542181808,16) (8709460139004934,16), (3199071644195755,18))].

(** ahrens_beylkin/ahrens_beylkin_3432.hpp:1-6882. *)
Definition ab_3432 : coded := [  (AB12 (5257311121191336,16) (8506508083520399,16), (3406140991317798,18));
  (AB60 (7030324607186715,17) (-9425635803063044,16) (3265445615408705,16) (6210025717721913,16) (5153130882581327,16) (-5905998873367572,16) (-9040973377212003,16) (-4272504920481717,16) (8063558149670063,18) (5202966412648901,16) (-5775527761803299,16) (-6290661299218613,16) (3134974503844431,16) (6223968792219709,17) (9475471333130617,16), (3887987516436134,18));
  (AB60 (3140363435279999,17) (-9252831413588192,16) (3779747611502534,16) (5692866620929469,16) (5540361214430974,16) (-6074180376802786,16) (-9278529098428961,16) (-3712470199157217,16) (3556160710325475,17) (5760144033274786,16) (-5498781486926427,16) (-6048482691962016,16) (3204348721626175,16) (-4157972750454758,18) (9472614232432003,16), (3903708614472737,18));
  (AB60 (1702619428260809,16) (-9454733845136749,16) (2776525706730356,16) (6786915842927991,16) (4207912498851015,16) (-6019239631633422,16) (-8511164873087254,16) (-5246821346285734,16) (1758927607549263,17) (4316620203372613,16) (-5734639166356897,16) (-6962808603682917,16) (2491925241453832,16) (1526726667505882,16) (9563441549658347,16), (3747613027462425,18));
  (AB60 (1353388986385078,16) (-9336178389426364,16) (3317244539122751,16) (6312724906793553,16) (459825944181419,15) (-6245439484689207,16) (-8793529052330556,16) (-4737918947612174,16) (4753639149914618,17) (4892050498304129,16) (-5476284513207806,16) (-6788088821785014,16) (254808956764135,15) (8780250713936159,17) (9629969445916303,16), (3845380103536648,18));
  (AB60 (9780992074503601,17) (-9182322960858943,16) (3837742433106686,16) (5812033383907655,16) (4985790231281289,16) (-6431342294887048,16) (-9045277262440685,16) (-4196532729577654,16) (7563546093976503,17) (5453243087436688,16) (-5207534829333998,16) (-6568387993305306,16) (2613934967553637,16) (2217445980527098,17) (9649775817014342,16), (3870791999460959,18));
  (AB60 (592318975765942,16) (-8992534114780807,16) (4333992204129001,16) (5291153448892085,16) (5356348184469392,16) (-6581278698475612,16) (-9259072393816209,16) (-3636185930311416,16) (1023586970548125,16) (598895972270967,15) (-4925080189687208,16) (-631474041944021,15) (2677793695340596,16) (-4312679947821835,17) (9625145653021085,16), (384671742382612,17));
  (AB60 (2073795277247213,17) (-876700542171178,15) (4805893222612934,16) (4753793562988055,16) (5700831827579919,16) (-6700892719193849,16) (-943151918889621,15) (-3066173594131861,16) (1282585389021364,16) (6493513191469128,16) (-4625625966283275,16) (-6036378952009419,16) (2730626469702361,16) (-1075205861296643,16) (9559686785600989,16), (3804739444507919,18));
  (AB60 (2556013068327804,16) (-9398090463090019,16) (226775061285714,15) (725919106884212,15) (333196069980042,15) (-6016824986737466,16) (-7947238729783769,16) (-6066129763289598,16) (2084856512015952,17) (3460811918409661,16) (-5679488116926629,16) (-7467676720043714,16) (1930413743046303,16) (2347527417126209,16) (9526941681699259,16), (3662169947799034,18));
  (AB60 (2308078210518439,16) (-9310632742418617,16) (2825755281324335,16) (6832817867735032,16) (3661248278427354,16) (-6317266895586542,16) (-8232102366265936,16) (-5649384463991264,16) (5629794040041918,17) (4009188685068104,16) (-5406347084941602,16) (-7395797271739224,16) (1914835470679394,16) (1745098806514247,16) (9658573149059366,16), (366553603572804,17));
  (AB60 (1985914121470494,16) (-9204978004000817,16) (3365193166521828,16) (6378068267726906,16) (4035752606171272,16) (-6559950157889683,16) (-8515899008441582,16) (-5169225397829544,16) (8709608857220133,17) (457403603641919,15) (-5150705841919754,16) (-7249029153448919,16) (1955948850551898,16) (1114953235748481,16) (9743261434248734,16), (3763046640446687,18));
  (AB60 (1629912796608783,16) (-9069217743300676,16) (3884929059847956,16) (589835750359439,15) (4416490821278741,16) (-6760472438029194,16) (-8775945056439723,16) (-4652726922021935,16) (1155387621295757,16) (513055964142041,15) (-4891015996591768,16) (-7053745124890146,16) (201547261841053,15) (4745251753130264,17) (9783286563442346,16), (3782124743877659,18));
  (AB60 (1261563619585618,16) (-8900963256302872,16) (4379647285305543,16) (540105149594035,15) (4783240660949017,16) (-6924539805477655,16) (-9001009585371639,16) (-4117722595353855,16) (1423441980468539,16) (5662976185892038,16) (-4621362300066095,16) (-6824493476408888,16) (2076469779893983,16) (-1618783608829214,17) (9780698781245892,16), (3733643689751904,18));
  (AB60 (8935576455273068,17) (-8704044025251237,16) (4841608445610605,16) (4897039811332276,16) (5125257981743312,16) (-7053419858962262,16) (-9186399261099675,16) (-3578786043507925,16) (167402481178155,15) (6159862213434956,16) (-4344790815489069,16) (-6571064623113825,16) (2132979402137412,16) (-780467166254243,16) (973864825694288,15), (3622581515778057,18));
  (AB60 (5349548926946673,17) (-8477617845889873,16) (5276724260545702,16) (4385484931935069,16) (5436618794670124,16) (-7156165033955689,16) (-9331588886347414,16) (-3040999051219749,16) (191670906156308,15) (6621210141261022,16) (-4054864625801711,16) (-6302193993498149,16) (2175423852391724,16) (-1381754168868413,16) (9662209192480771,16), (3577392812747071,18));
  (AB60 (1726056027009659,17) (-8225415522847489,16) (5684430207366066,16) (3865623904655008,16) (5729652432928753,16) (-7226896624803304,16) (-9443377982903216,16) (-2495763089918736,16) (2143310260092569,16) (7054291022102338,16) (-3758947775537151,16) (-6008934164747577,16) (2216481358099912,16) (-1970704657391603,16) (9550054112021074,16), (3591066417765435,18));
  (AB60 (3411655860233785,16) (-9234577000593681,16) (1755902022163735,16) (7647238358033569,16) (2399804495714758,16) (-5980023735552166,16) (-7294621100655064,16) (-6834772504878923,16) (272741277457213,16) (2568367875318381,16) (-553871907849133,15) (-7919979635490783,16) (1314597365102899,16) (3138914582776572,16) (9403140380197303,16), (3922752121303034,18));
  (AB60 (314289342605783,15) (-9204288717439607,16) (2324497820703738,16) (7255384563351533,16) (2777799495514702,16) (-6296286588188196,16) (-7637467423732928,16) (-6426489221924906,16) (6077233185433414,17) (3153393162130366,16) (-531296960302919,15) (-7863107881894875,16) (1341180835544732,16) (2535170107514488,16) (9579882384055272,16), (3754560184203906,18));
  (AB60 (289363262559506,15) (-912869092178595,15) (2879911853268191,16) (6839491822273716,16) (3113289196270493,16) (-6597634575621508,16) (-793104036196856,15) (-6015401725515457,16) (9557933131651834,17) (3704001950026449,16) (-505112850870037,15) (-7795285135438899,16) (1333405786347052,16) (1937839312429876,16) (9719403675541906,16), (3597923567917882,18));
  (AB60 (2599960913755039,16) (-9034491456367708,16) (340854329175455,15) (6408217584920394,16) (3467130967460291,16) (-6849361301522566,16) (-8209896662553096,16) (-5567360488907418,16) (1265738510416785,16) (4249400387767526,16) (-4801353370798546,16) (-7673956095337179,16) (136053536103053,15) (1334222403338255,16) (9816760876674944,16), (3583348489903167,18));
  (AB60 (2278451578873693,16) (-8919336833513845,16) (3905648326853199,16) (5967151172172934,16) (3823274075637392,16) (-7055188320023373,16) (-8464638981561329,16) (-5096062757876453,16) (1542734999802955,16) (477673674114968,15) (-455899065470813,15) (-7509886171975889,16) (1409450661537956,16) (7357165790707382,17) (9872799499026134,16), (347823388529463,17));
  (AB60 (1957419419400563,16) (-8785968408402335,16) (4356061104152433,16) (5534843068076997,16) (4155495538505369,16) (-7217850721733028,16) (-8681152440800797,16) (-4630472869896965,16) (1787823621257567,16) (5260431302332464,16) (-4325091336648364,16) (-7322666689334565,16) (146330171906777,15) (1695957981429951,17) (989090417222943,15), (3212957979973446,18));
  (AB60 (1648530714630701,16) (-8634130553529814,16) (4768032725089262,16) (5110565993482923,16) (4456779054668067,16) (-734977793434114,15) (-8859750705432259,16) (-4177351498861747,16) (2013591788955771,16) (5701247219710439,16) (-4091717980342996,16) (-7124157782438695,16) (1509972771091119,16) (-3650610743250705,17) (9878598718572186,16), (3215304643561923,18));
  (AB60 (130980628253934,15) (-8449559540886321,16) (5185494293434081,16) (4647842517486702,16) (4767530089435202,16) (-7461113642009003,16) (-9023832009633322,16) (-3682029451451119,16) (22389986557753,14) (6151307359469663,16) (-3838337716199242,16) (-6886841173262002,16) (1562718367624319,16) (-9291923732359604,17) (9833336810920783,16), (3521170383334172,18));
  (AB60 (9485623257866864,17) (-821132627833929,15) (5627997002909008,16) (4122225882971483,16) (5077406815574544,16) (-7564865748902432,16) (-9163979128096668,16) (-3133919462764746,16) (248998701617357,15) (6616303423115745,16) (-353598212518766,15) (-6612212899145054,16) (1599113379194237,16) (-1541424690386884,16) (9750222885880491,16), (3785162547713644,18));
  (AB60 (5584081131937021,17) (-793488699745724,15) (6060177284263512,16) (3561927384029654,16) (5388379615120508,16) (-7634005399150137,16) (-927698947474576,15) (-2546507382336732,16) (2729975537831961,16) (7075597285956434,16) (-3216812190482248,16) (-6291902921861616,16) (1642984075595624,16) (-2171567424638259,16) (9622104668293167,16), (3887573480464577,18));
  (AB60 (1476530576043922,17) (-7628590170020945,16) (6463962452895274,16) (2985305168292157,16) (5692315501083306,16) (-7660646009854185,16) (-935801301304507,15) (-1936274668937638,16) (2945917998537902,16) (7512992952249793,16) (-2894050560149796,16) (-5931223166830059,16) (1697367003190886,16) (-279826494093351,15) (944926762118743,15), (3934093810465372,18));
  (AB60 (4321175789440801,16) (-8930418722511404,16) (1255014437115546,16) (7932670049456948,16) (1357125501171127,16) (-5935567054673018,16) (-6517050977334921,16) (-7573293221340277,16) (4162647503925546,17) (1614391265232217,16) (-5262036540219374,16) (-8348934799849502,16) (5814839226619021,17) (3904911039048246,16) (9187684486572494,16), (3761921900401211,18));
  (AB60 (4010199199648843,16) (-8980469950330238,16) (1808165327162147,16) (7600489847229934,16) (1804669486553033,16) (-6243053910263718,16) (-6930215767351471,16) (-7175800463777205,16) (6928182460125513,17) (2232854710614876,16) (-5122050440189324,16) (-8293308093242485,16) (6871618570877525,17) (3317380953636291,16) (9408655174392081,16), (385734460294943,17));
  (AB60 (3728829948889575,16) (-8969077090047558,16) (2377284872506489,16) (7219765176795376,16) (2202473173312831,16) (-6559276081456713,16) (-7292506402619574,16) (-6766603916734727,16) (1016081592089321,16) (2830446132567138,16) (-4915221530113085,16) (-8235846768884697,16) (7332303211628606,17) (2712748356800255,16) (9597050049301865,16), (3874578280198978,18));
  (AB60 (3457241339483477,16) (-8907209605420091,16) (2951118324581132,16) (6798871108510059,16) (2568583520119198,16) (-6868604687273775,16) (-7613296777979188,16) (-6338626085300894,16) (1363646406204619,16) (3411363347790298,16) (-4662178453398056,16) (-8162517514714678,16) (7446920907054137,17) (2093594933278858,16) (9749989433091192,16), (3809887185961776,18));
  (AB60 (3155456537597189,16) (-8813919602185911,16) (3515382665591061,16) (6348009107556409,16) (2940454822564039,16) (-7145383531122788,16) (-7913212382889346,16) (-5873464779621872,16) (1698081642862943,16) (3989926993525599,16) (-4397829717298286,16) (-8046090750419352,16) (7678288517665585,17) (1457374894734246,16) (986339177314747,15), (3821169185369445,18));
  (AB60 (2816148491784482,16) (-8695100550435019,16) (4057651302175265,16) (587589620465804,15) (3323121496300278,16) (-7377716944483046,16) (-819307202154374,15) (-5371979054134741,16) (2003849268716285,16) (4561568452698563,16) (-4135420719368476,16) (-7879745473374324,16) (8153550770606945,17) (8122992230681975,17) (9933547506833305,16), (3852561358561382,18));
  (AB60 (2448915611408483,16) (-8545458230975856,16) (4580169860479717,16) (5380092545056221,16) (3706865092080515,16) (-7570584878049079,16) (-8446749322105266,16) (-4838593138895342,16) (228920124186345,15) (5121669266640596,16) (-3866579461625548,16) (-7669293786919671,16) (8761644440561861,17) (1597143695450331,17) (9960262405535938,16), (388225005658998,17));
  (AB60 (2074718060111443,16) (-8358078781582288,16) (5083115585141789,16) (486139312116489,15) (407132632180533,15) (-7732474306641165,16) (-8662262428084559,16) (-4286752459776957,16) (2566897538974003,16) (5657756246529722,16) (-3579146842942771,16) (-7428290660138893,16) (9297881214433948,17) (-4921794788625595,17) (9944508706306679,16), (3810718408430838,18));
  (AB60 (1778889631652735,16) (-8224223028744808,16) (5403490284238694,16) (450149818096309,15) (4342729898017623,16) (-7802384966127334,16) (-8805574210605613,16) (-3881493130727185,16) (2719535603303439,16) (6023495334474599,16) (-3402083926366919,16) (-7221033784266528,16) (100318924447828,15) (-9406459716507042,17) (9904988465201785,16), (7728991376705144,19));
  (AB60 (1649249120540736,16) (-8110805367686451,16) (5612024022213756,16) (4265413375624028,16) (4455342913072332,16) (-7871224063764402,16) (-8858145385427737,16) (-3655462454614119,16) (2858470670399087,16) (6221974943223665,16) (-3246121363213981,16) (-7123884046023116,16) (9869213216633356,17) (-1209221549858351,16) (9877437397837785,16), (3496385485809084,18));
  (AB60 (1266074416175741,16) (-7849916486464997,16) (6064310902998814,16) (3709798901216496,16) (4774657652602902,16) (-7964925386528956,16) (-8991632782732023,16) (-3075258833862096,16) (3113410189045434,16) (6698850970353215,16) (-2927321879733208,16) (-6823209090261929,16) (1026707396203067,16) (-1847335772869693,16) (9774109804215311,16), (3967775271504977,18));
  (AB60 (8591980603632245,17) (-7550189293502447,16) (6500493852419913,16) (3123491325167529,16) (5088751886611008,16) (-8021745831059228,16) (-9092971573214986,16) (-2461437406891439,16) (335547222617916,15) (7162547770696003,16) (-2592477720795073,16) (-6478963551346689,16) (1071225742155758,16) (-2496274165815935,16) (9623985177587443,16), (4006302582572723,18));
  (AB60 (4411555774116945,17) (-7226544170526248,16) (689800268976112,15) (2533720270259889,16) (5387969784354055,16) (-8034304151260511,16) (-9159073818853997,16) (-1838574386172193,16) (3568054232672873,16) (7593148573848816,16) (-2261071129092876,16) (-6101774502932762,16) (1124769667593486,16) (-3126898655261179,16) (943172296002101,15), (3984184043355203,18));
  (AB60 (1372740037669447,18) (-6884284497590866,16) (7253029609391443,16) (1947230347972273,16) (567234595860874,15) (-8002048818758285,16) (-9191775957353741,16) (-1211938538982125,16) (3747327011023137,16) (7988321418381591,16) (-1938746347962298,16) (-569455735899541,15) (1189727138595455,16) (-3733599610646443,16) (9200259957363716,16), (3875086075507793,18));
  (AB60 (517503547782718,15) (-8535131400920274,16) (6087197813893751,17) (8199880371014941,16) (2689788096661911,17) (-5717483038977414,16) (-5610252334120567,16) (-8266152591254082,16) (4424817347621802,17) (5424475611502343,17) (-5001532552731192,16) (-8642362105777123,16) (-1072307048568484,17) (4732553743065001,16) (8808600152404317,16), (3756170366107682,18));
  (AB60 (4942399509287708,16) (-8611267479920073,16) (1191116904364813,16) (7898388723541562,16) (6752239096918856,17) (-6095861566965896,16) (-6034934745185769,16) (-7936043570228187,16) (7738055781586378,17) (1153462057678187,16) (-4843817840820956,16) (-8672194301700199,16) (-6092682178012654,18) (416859393112907,15) (9089505627906375,16), (3684451084358927,18));
  (AB60 (4658280452371624,16) (-8677550604128883,16) (1732206321381743,16) (7593670571945437,16) (1105428442601851,16) (-641203518417177,15) (-644690124463228,15) (-7572122161527033,16) (1049013971722937,16) (1753754731800147,16) (-4714694923250538,16) (-8642684543668374,16) (348660604605099,17) (3609266480648686,16) (932587689332718,15), (361992405920603,17));
  (AB60 (4380101382887883,16) (-8698628147370794,16) (2269048309179909,16) (7256339608778847,16) (1506912106438223,16) (-6713773259914068,16) (-6818336389163627,16) (-7191716040932571,16) (1337725409342388,16) (2333671877026185,16) (-4549288079983718,16) (-8594065018121235,16) (1045631292495588,17) (3042375973545495,16) (9525387917958755,16), (3741389382422636,18));
  (AB60 (4106444906759252,16) (-8667408830749893,16) (2830748026297955,16) (6865668290776233,16) (1886269946261674,16) (-7021722339345222,16) (-7158493791768078,16) (-6781138884488219,16) (1664969087550803,16) (291527743258597,15) (-4327745765470123,16) (-8530637378327036,16) (1367714524228568,17) (2441475819208449,16) (9696416317074189,16), (384569601085347,17));
  (AB60 (3811393462730558,16) (-8596244716845891,16) (3402624963223815,16) (6430980934355597,16) (2266109213944936,16) (-7314863857409014,16) (-7478035193112771,16) (-6330135502900955,16) (2002092446786538,16) (3503470394678456,16) (-4075410229888956,16) (-8433073381142134,16) (163171335703757,16) (180930101594402,15) (9833605897579412,16), (3868635266615718,18));
  (AB60 (349011404811003,15) (-8490356216432509,16) (396647894854755,15) (5964107546289845,16) (2647325933920163,16) (-7577670260435081,16) (-7773577388491911,16) (-5843030282512346,16) (2330341542085832,16) (408755621232505,15) (-3807098439944361,16) (-8294449088375677,16) (1959071280568309,17) (1159772506024198,16) (9930586494837396,16), (3889861245648588,18));
  (AB60 (3136653141541569,16) (-8360904067026291,16) (4500743299905098,16) (5483020954806247,16) (3033652503536304,16) (-7793165832762928,16) (-804520600231952,15) (-5327251563489986,16) (2625842942663451,16) (4656512691221358,16) (-3544462702414423,16) (-8108863897469698,16) (2520401695565924,17) (5108101988781182,17) (9983764254711345,16), (3821036779608686,18));
  (AB60 (2777964076809776,16) (-8202060040785558,16) (500091258424932,15) (4993587779251864,16) (3398976848407134,16) (-7969381247932535,16) (-8277624144506518,16) (-4803083192378424,16) (2900229364959712,16) (519141717112276,15) (-3276711560257198,16) (-7893817144211576,16) (3082428965739826,17) (-1222652881499356,17) (9994500363501184,16), (3652841738148376,18));
  (AB60 (2462149279313398,16) (-8034871339853735,16) (5420208803945984,16) (4551089029580753,16) (3700451693754316,16) (-8099027466740716,16) (-8449605893534998,16) (-4334419646099419,16) (31332038834787,14) (5636878187427318,16) (-3029397089589015,16) (-7684292913059453,16) (3505784267942828,17) (-6710546041653015,17) (9971297833526737,16), (2601435581498743,18));
  (AB60 (2228625302350381,16) (-7914117553077289,16) (5692097383021273,16) (4245289996930238,16) (3913017857833919,16) (-8164912987058521,16) (-8560021194910965,16) (-400109969524337,15) (3273719348294608,16) (5936287684708141,16) (-2867923811889692,16) (-7519009345224845,16) (3951082078524429,17) (-1045094045944227,16) (9937387379951511,16), (2512320239944237,18));
  (AB60 (1919141348799191,16) (-7699730643903111,16) (6085313836990546,16) (3779603315918509,16) (4177712747900448,16) (-8262040605705584,16) (-8678822570135838,16) (-3522017896002663,16) (3503345363554348,16) (6342899256906392,16) (-2593508733145292,16) (-7282948679472857,16) (4167819644302539,17) (-1584204014755157,16) (9864917152909055,16), (3682502171099724,18));
  (AB60 (1535508847382303,16) (-7422141204140641,16) (6523345194408187,16) (321746410045044,15) (4484642374771225,16) (-8338819312871514,16) (-8791812637150189,16) (-2937498829369417,16) (3751683779411526,16) (6803310465489211,16) (-2268467442742002,16) (-6969147879861967,16) (4529933242786748,17) (-2216174932029223,16) (9740809294858627,16), (39322055627432,16));
  (AB60 (1134181455084292,16) (-7109184717881072,16) (6940686210598279,16) (2631589491943266,16) (4781810278771161,16) (-8379082718515927,16) (-887131301388964,15) (-2327374439109911,16) (3985364930564092,16) (7244901263431635,16) (-1930626803291361,16) (-6616954422507358,16) (4922302953737139,17) (-2851183475479799,16) (9572275702541545,16), (3985512043252663,18));
  (AB60 (7157965865316453,17) (-67819637115567,14) (7313863784747274,16) (2050985315263783,16) (5071998456789051,16) (-8370680431775054,16) (-8922462480503345,16) (-1709965254767648,16) (4179196347564625,16) (7654883845243409,16) (-1608598695756071,16) (-6230181662828408,16) (551782048728291,16) (-346339976103298,15) (9364849100011057,16), (3877143014086622,18));
  (AB60 (2845032628809667,17) (-645060612427361,15) (7636015880214884,16) (1488558381634364,16) (5354793763814352,16) (-8313265164270957,16) (-8948741575478564,16) (-1095812360459258,16) (4326571331431638,16) (802876190138999,15) (-1312725695263681,16) (-5815129713066002,16) (6354764112076078,17) (-4042068068550671,16) (9124574261849248,16), (3655490747170812,18));
  (AB60 (-1239022216628939,17) (-6089213930949572,16) (793133796673655,15) (92232067701996,15) (5595764188293714,16) (-8236306679437758,16) (-8930234428025802,16) (-4934497426558575,17) (4472965505341568,16) (8360208901100652,16) (-998896461289252,16) (-5395286182361528,16) (6939277485880432,17) (-4596867727004462,16) (885365864375651,15), (3661022145673961,18))].

(** ahrens_beylkin/ahrens_beylkin_3492.hpp:1-7002. *)
Definition ab_3492 : coded := [  (AB12 (5257311121191336,16) (8506508083520399,16), (3287754814620103,18));
  (AB60 (-6986792561932403,17) (-9426720525314781,16) (326324798851915,15) (5778849348162256,16) (6287002739847251,16) (-5203700295020635,16) (-9473904864243323,16) (-3139717785467531,16) (-622333392070164,16) (5902379551213874,16) (-6210656875724174,16) (-5156515956092091,16) (4270204569222689,16) (-7634586412307636,18) (9042097336681405,16), (3862942668570261,18));
  (AB60 (-3140699987980472,17) (-9253258236054034,16) (3778699783358448,16) (5499640307576522,16) (6048399534176649,16) (-5759411390259538,16) (-9472446025038802,16) (-3204858701877385,16) (4058329369824742,18) (6073481389057586,16) (-5693746241680354,16) (-554022360127477,15) (3713034634779264,16) (-3546532924962946,17) (927834009093497,15), (3885543417259219,18));
  (AB60 (-2049567729159008,16) (-9511877807007313,16) (2307260866948458,16) (590828910137999,15) (7127056845859111,16) (-3781161278021239,16) (-9482252487193654,16) (-2384820961148202,16) (-2097502503545093,16) (5830729007180246,16) (-7174991620245196,16) (-3810786597834898,16) (5701091209172415,16) (4793477438608506,18) (8215549968328448,16), (3525015128879283,18));
  (AB60 (-1701459286636745,16) (-9443190796951455,16) (2816235762199062,16) (570580411995147,15) (6968369587287923,16) (-4345759385850255,16) (-957359955176619,15) (-2474821209663532,16) (-1490453488915951,16) (6047218672486999,16) (-6757363789567128,16) (-4215350631035519,16) (5227840165915936,16) (-2110057977207937,17) (8522039882150532,16), (3646318727237703,18));
  (AB60 (-1339653474492751,16) (-9333783617118084,16) (3329536297609257,16) (5472445729070664,16) (6779577535346626,16) (-4908122470415711,16) (-9629933407063331,16) (-2554206081771458,16) (-8604730486001996,17) (6247775944908462,16) (-6300397109454074,16) (-4611972680470464,16) (472181093664762,15) (-4791804258925515,17) (8801982026679921,16), (3754431627554395,18));
  (AB60 (-9701733567092125,17) (-9181966653927522,16) (3840605684536568,16) (5208264167830219,16) (656268248524613,15) (-5459412326976182,16) (-9648469961792656,16) (-2619284168681393,16) (-2153551487191704,17) (6429585683685394,16) (-5807864277256087,16) (-4992909019111048,16) (4189057634816474,16) (-754818207990042,16) (9048869852366787,16), (3825503983184679,18));
  (AB60 (-5919652921300068,17) (-8990623808510674,16) (4338001916407422,16) (4921639157565135,16) (6314738199469626,16) (-5991790172801502,16) (-9625495744669161,16) (-2675885609041048,16) (4352790790778795,17) (6583755464931509,16) (-528749382826174,15) (-5356918236643015,16) (3633705571867659,16) (-1027244371207886,16) (9259641073972557,16), (3849186002781777,18));
  (AB60 (-201114037295891,16) (-8766054241764849,16) (4807894151750748,16) (4625792123993195,16) (6031452794909061,16) (-6497970791592265,16) (-9557981586407518,16) (-2734601446855788,16) (10802513229564,14) (6699084828888155,16) (-475008743465677,15) (-5706043446949596,16) (3060010794815253,16) (-1281365360252291,16) (9433686275743943,16), (3805606471556592,18));
  (AB60 (-2959435906686742,16) (-9345459569650602,16) (1975885762446611,16) (5658176741938379,16) (7677546006637809,16) (-3006713034685456,16) (-9463094482244259,16) (-1667913563012793,16) (-2769098619846581,16) (5966148941372198,16) (-7487208719797648,16) (-2889078122091799,16) (6456381447558802,16) (-1903372868401609,17) (7634062504384991,16), (3534861754558974,18));
  (AB60 (-259682816845237,15) (-9334928132826977,16) (2472973962355397,16) (5513164484024772,16) (7532533167177594,16) (-3586915312278415,16) (-9591066517426871,16) (-1802394965649384,16) (-218238755634625,15) (6183743480730786,16) (-7118092555071474,16) (-3330776927678522,16) (6004151205148456,16) (-41444061210612,15) (7986138446380169,16), (3485666653937605,18));
  (AB60 (-2267245819603007,16) (-927826209763721,15) (296200081719122,15) (5324653817974955,16) (7388680037167563,16) (-4129826755093521,16) (-9687889612531946,16) (-1889582060469647,16) (-160445457777617,15) (6397072574696527,16) (-6725888795340726,16) (-3720199240198785,16) (5558062857438425,16) (-6627912418268367,17) (8286654635166175,16), (341905236988223,17));
  (AB60 (-1935971040394852,16) (-9187618933646494,16) (3440882802545434,16) (5114250501788572,16) (7223334200759466,16) (-4654877531052126,16) (-9751629208533521,16) (-1964284732887028,16) (-1023383245623472,16) (6590848571446978,16) (-6310746405988087,16) (-40908672561651,14) (5096751677481395,16) (-9125877947713797,17) (8555133304334006,16), (3478857209939436,18));
  (AB60 (-1595479379204224,16) (-9059123885366777,16) (3922590977926613,16) (4874659446097523,16) (7032479148795564,16) (-5175126308248699,16) (-9783310908721928,16) (-2026644736571212,16) (-4237201612039753,17) (6770605687452923,16) (-5860719930795315,16) (-4450939284893548,16) (4608184600473229,16) (-1171759218000249,16) (8797250424024136,16), (361201833241954,17));
  (AB60 (-1239985304533275,16) (-8890914089586305,16) (440614152021213,15) (4606653302020943,16) (681019883830238,15) (-5692094266415874,16) (-9779147885985026,16) (-2080715251283924,16) (1972071679962095,17) (6932079570949148,16) (-5373006365772895,16) (-4803860470017152,16) (4087053619569152,16) (-1437192472529484,16) (9012794822233072,16), (372758679793011,17));
  (AB60 (-8662847331633421,17) (-8686435876226076,16) (4878051099496666,16) (432075199015176,15) (6551457698383616,16) (-6197540178642624,16) (-9734196498678506,16) (-213497817784246,15) (829027566038435,16) (7063824911805967,16) (-4856145399181839,16) (-5149779556190195,16) (3536656320035881,16) (-1695312299201777,16) (9198803089648427,16), (3765695583128911,18));
  (AB60 (-4720127156226146,17) (-8454664765780967,16) (5319384146172602,16) (4034415453485129,16) (6252978792166252,16) (-6680100910420401,16) (-9645519501034645,16) (-2201685973614716,16) (1454830721681594,16) (7152113626043015,16) (-4326135354862043,16) (-5489246175166723,16) (2965418590614244,16) (-1926843437304208,16) (9353799599657731,16), (3703647029260238,18));
  (AB60 (-4222011552617964,16) (-9002104000395832,16) (1066181042608529,16) (5445091279940353,16) (8246199157959642,16) (-1533355927494728,16) (-91206189629615,14) (-7559048424361897,17) (-4030250315011292,16) (5755367480112693,16) (-805443792035297,15) (-1414840964929061,16) (7587263035466771,16) (-1917612376066719,17) (6511272322548882,16), (3662107707916587,18));
  (AB60 (-3890035247429093,16) (-9074160688904511,16) (1589727513034633,16) (534419945032237,15) (8175437786293068,16) (-2145168813316467,16) (-933810096370329,15) (-8987229026114429,17) (-3462970911804682,16) (603520406074556,15) (-7748373450668656,16) (-1881228538517688,16) (7192932150386824,16) (-4270643356244115,17) (6933926963357003,16), (3655151931256191,18));
  (AB60 (-352236468534955,15) (-9120768061974814,16) (209869887860611,15) (5241036376427649,16) (8058570541386291,16) (-2755173049095684,16) (-9516676351352109,16) (-1062197520588524,16) (-2881771616709259,16) (6277537734445234,16) (-7417977472745999,16) (-235926475971839,15) (6761503302256425,16) (-6405930686402912,17) (7339735255033758,16), (3625806330965972,18));
  (AB60 (-3153165594748313,16) (-9123460864844418,16) (2611514614117226,16) (5100895825259659,16) (7919697381472739,16) (-3355481361256893,16) (-9661173949088121,16) (-1203763483371679,16) (-2283127548246468,16) (6508646956005206,16) (-7049659334970895,16) (-2817768277013191,16) (6305692587831228,16) (-8700380465018452,17) (7712410439376886,16), (3648616420431574,18));
  (AB60 (-2805902044568203,16) (-907452097623757,15) (3127296399146126,16) (4910722069692084,16) (7773670660509604,16) (-393126610854204,15) (-9772161301484181,16) (-1300850315727966,16) (-1677096286396655,16) (6737168153110243,16) (-6644864902338056,16) (-3233625783295429,16) (584089519294214,15) (-1128805758171548,16) (8038018468838209,16), (3624572828941781,18));
  (AB60 (-246411686387785,15) (-8986172661863558,16) (362999021656103,15) (4693517302490508,16) (7608327416267012,16) (-4481545409577142,16) (-9846415493179846,16) (-1377845245596546,16) (-1072214724229654,16) (6945662273454991,16) (-6216425276618817,16) (-3621302578260854,16) (5364870083602705,16) (-1391902139648196,16) (8323507519051537,16), (3556520433009066,18));
  (AB60 (-2131513490042125,16) (-8865043099499414,16) (4107025819956122,16) (4459783721220851,16) (7426092961636387,16) (-499634591327182,15) (-9884157325501917,16) (-1438950137863028,16) (-4825520339515336,17) (7127859403313945,16) (-5777131505545795,16) (-3977231687269318,16) (4887811412230097,16) (-1648961456090592,16) (8566809541176973,16), (3436275411547268,18));
  (AB60 (-1806405793246748,16) (-8715847840000281,16) (4557509686230739,16) (4214304090980434,16) (7227684850547851,16) (-5477244994511993,16) (-9888233954912378,16) (-1488162989452431,16) (9055478861946357,18) (7283650787758741,16) (-5330724268681639,16) (-4304858879599897,16) (4410988960400385,16) (-1896960581866211,16) (8771813777211173,16), (3388665311445338,18));
  (AB60 (-1469442733950748,16) (-8537946944922746,16) (4994416884614628,16) (3956052956155286,16) (7001137310827414,16) (-5944217472723833,16) (-9858635394873045,16) (-1536809634095332,16) (6674760666182485,17) (741366020667458,15) (-4864218510258417,16) (-4623529022773534,16) (3914417922149213,16) (-2136918800568997,16) (8950469840769913,16), (3488292961222255,18));
  (AB60 (-1104766692778713,16) (-8328992040317131,16) (5422857378436265,16) (3685475734524065,16) (6734026137444333,16) (-6408600517308819,16) (-9791116478736388,16) (-1594965902872799,16) (1261000344365497,16) (7513367210087532,16) (-4368259100300123,16) (-4946476078889562,16) (338251596142757,15) (-236576703714421,15) (9108333112960331,16), (358291042670189,17));
  (AB60 (-7071372072089112,17) (-8098689105955672,16) (5823331669693536,16) (3421793869648228,16) (6420939020781824,16) (-6860238246959005,16) (-9682160368106548,16) (-1677750085173848,16) (1854973115159901,16) (7567375454167916,16) (-3858828698413012,16) (-5276766984808129,16) (2821922121147543,16) (-2562110322368812,16) (9245125539341763,16), (3555452633734425,18));
  (AB60 (-2699648542803572,17) (-7870229827081172,16) (6163327140950353,16) (3202062381413509,16) (6058093896983368,16) (-72832887379857,14) (-9532236978077036,16) (-1812135930097805,16) (2419219205576328,16) (7553253592266057,16) (-3368909837126682,16) (-5621281586989837,16) (2248948240091335,16) (-2689184059856685,16) (9365389522363862,16), (3442814557459119,18));
  (AB60 (-5070747016227193,16) (-8600537784617359,16) (5641582338246576,17) (5108955109416716,16) (857692388438091,15) (-5787524267777323,17) (-8807007347621894,16) (-23613900236449,16) (-4736672245643518,16) (5649499443004925,16) (-8242849113797236,16) (-372282863773198,16) (8228254920844161,16) (-3340747705836743,17) (5673113343241374,16), (3561755884462062,18));
  (AB60 (-4798681964949212,16) (-870266127923247,15) (1111907396422492,16) (5001772895206769,16) (8577144181526465,16) (-1189481228974044,16) (-9079428847169005,16) (-1255170977060043,17) (-4189059234169262,16) (5988163193923256,16) (-7967521450746514,16) (-8127136610375074,17) (7889947618194962,16) (-609622730779951,16) (6113680291629261,16), (3650053865275198,18));
  (AB60 (-448422480835995,15) (-8785391766673879,16) (1645788374654527,16) (4898935381772682,16) (8529086536810853,16) (-1804193718204232,16) (-9316127101189141,16) (-2563052298630268,17) (-3625476998083711,16) (6288418526564181,16) (-7670338726534613,16) (-127345838368897,15) (7511933382984909,16) (-8587478102762384,17) (6544723756427209,16), (3663224907690625,18));
  (AB60 (-4129110636365396,16) (-8849763832806823,16) (2152237314098621,16) (4807525321604919,16) (8430480498861735,16) (-2411368665393057,16) (-9511693352286062,16) (-4192833339450871,17) (-3058086175691102,16) (6540479301758453,16) (-7359456038187442,16) (-1749439145913818,16) (7100324686893005,16) (-1071024460674295,16) (695976263570354,15), (355860390494914,17));
  (AB60 (-3769204072907094,16) (-8877731198940492,16) (2641777699985217,16) (4696598447647366,16) (8304569954375547,16) (-2996010830160544,16) (-9667872375223704,16) (-573161244564945,16) (-2490728793770035,16) (6765214903067639,16) (-7026094675238487,16) (-2205869653877332,16) (667186154506316,15) (-127847527913706,15) (7338376147632584,16), (3510270832995624,18));
  (AB60 (-3428730469098014,16) (-8852232894546163,16) (3143529887084546,16) (4530305922228032,16) (8171421823339244,16) (-3564294269007646,16) (-9792907777477522,16) (-6808110712069176,17) (-1906686536151745,16) (6993024738105661,16) (-6649377890392976,16) (-2623619386076286,16) (6228613508469876,16) (-1522043932946269,16) (7673835809312578,16), (3580377725778267,18));
  (AB60 (-3088573844355061,16) (-8782017810576072,16) (3651968617429573,16) (4324395538657046,16) (8018237999462963,16) (-4124010500618449,16) (-9885207768661973,16) (-763779811113109,16) (-1303574996124499,16) (7212584344973509,16) (-62332391512324,14) (-3020820542532547,16) (5761197268043524,16) (-1784998848230562,16) (7976364156086618,16), (3624176312042865,18));
  (AB60 (-274856897687425,15) (-8672539933937627,16) (4151194969357808,16) (4091280182206115,16) (7842698771967196,16) (-4664065012719241,16) (-9941184199695734,16) (-829841161970431,16) (-6958594352449801,17) (7412633989593492,16) (-5789989230337925,16) (-3395420746961135,16) (5277119186976492,16) (-2052709541629271,16) (8242475151563923,16), (3593181514748164,18));
  (AB60 (-2412845526754812,16) (-8530132384424129,16) (4627636326270465,16) (3841593627563171,16) (7647117496762702,16) (-5173369539417397,16) (-9960450498971254,16) (-883014887661427,16) (-9854220269289895,18) (7586215066172209,16) (-5332814172700789,16) (-3743051424870272,16) (4787080959553857,16) (-2314303324061913,16) (8469229953833637,16), (3501940568498872,18));
  (AB60 (-2078145097566419,16) (-8361465082746857,16) (5076141706401207,16) (3584314344689323,16) (7430601295215062,16) (-5651447165992317,16) (-9944820354940543,16) (-9308637875317949,17) (4837775491093071,17) (7729592263558736,16) (-4868678648539336,16) (-406809189379863,15) (4293373188948226,16) (-2561922646675726,16) (866045605109053,15), (3438373420847848,18));
  (AB60 (-1729625790673452,16) (-8169161023583454,16) (5502108940670128,16) (3323451864302089,16) (7184122337925165,16) (-6110896328640475,16) (-9894528331426822,16) (-9850386856582896,17) (1062077156495019,16) (7840522119313927,16) (-4392419390756693,16) (-4385529020797108,16) (3783632002786346,16) (-2791702947168472,16) (8825560804972217,16), (3472158903631325,18));
  (AB60 (-1353989208426979,16) (-7952560305921511,16) (590961063050222,15) (3060545445426804,16) (6897850547742498,16) (-6561457109323032,16) (-9806967427137463,16) (-1054709758179013,16) (1646504542680277,16) (7915446317750011,16) (-3897356796635242,16) (-4707049988107081,16) (324551031781443,15) (-3000493751107255,16) (8970156075929024,16), (3524015492824162,18));
  (AB60 (-9417337793602264,17) (-7724320527046143,16) (6280765071570938,16) (2817712298594854,16) (6564902039994445,16) (-6997325103753868,16) (-9680500854164307,16) (-1159418487051699,16) (222343247804085,15) (7939058883114094,16) (-3399735782593368,16) (-5041144776635704,16) (2683175750410439,16) (-3165166257401076,16) (9098477370165793,16), (3486034461485465,18));
  (AB60 (-4924252721659678,17) (-749972841698741,15) (6596331633776745,16) (2617074148092172,16) (6186623197505758,16) (-7407875290221296,16) (-9517741336986902,16) (-1313105219481653,16) (2772788222129632,16) (7900300562387265,16) (-2921409703210158,16) (-5389862370221805,16) (2109866046765606,16) (-32652134942956,14) (9213405781868917,16), (3466069277766679,18));
  (AB60 (-3059596340814873,18) (-724532577591229,15) (6892337650458231,16) (2405968184614387,16) (5777265007274501,16) (-7799649103026681,16) (-9317215180377403,16) (-1468060768637789,16) (3321791513947182,16) (783024506643483,15) (-2424877529919171,16) (-5727759698561569,16) (1517566077350722,16) (-335238747735533,15) (9298305835072619,16), (3597982377629291,18));
  (AB60 (-3797250373817664,16) (-8557841350452431,16) (3513437208636028,16) (3993305585956373,16) (8436672565679137,16) (-3588323636001444,16) (-9853572589404961,16) (-1211687847732933,17) (-1700713188907459,16) (7385574009819108,16) (-6340135380768933,16) (-2292592397048914,16) (6265248953403517,16) (-2096537184910205,16) (7506742794592401,16), (3672904345134112,18));
  (AB60 (-3456293350377851,16) (-8475866097516456,16) (4026627642718535,16) (377575251076613,15) (8278429478378995,16) (-4148650183969353,16) (-9938486919108426,16) (-1974366191374603,17) (-1089723148388747,16) (7604943534347204,16) (-5911859276389891,16) (-2686029362377383,16) (5789836735139072,16) (-2366570201989104,16) (7802380153484665,16), (3628942210892402,18));
  (AB60 (-3120377248943137,16) (-835620541357193,15) (4520738535955074,16) (3535693321305715,16) (8099525964777746,16) (-4679375159523468,16) (-998493105482954,15) (-2566794487941842,17) (-4850438030398565,17) (7799752408466605,16) (-5464192518874466,16) (-3050649518265859,16) (5305555895306071,16) (-2635333445903281,16) (805643185726079,15), (3575019346620185,18));
  (AB60 (-2783235847431271,16) (-8203935144771335,16) (4994902036873123,16) (3279604758223522,16) (7897162286942959,16) (-5184498089836999,16) (-9994641147516287,16) (-3067728578283754,17) (114187328868524,16) (796773393726827,15) (-4999739110643164,16) (-3393792087092046,16) (4810143057679289,16) (-2897423176299795,16) (8274506795096644,16), (3565994430169254,18));
  (AB60 (-2432085867111478,16) (-8021971580720582,16) (5452791055331935,16) (3011959944813267,16) (7663589691505878,16) (-567428324381902,15) (-9967862729578354,16) (-358381889214703,16) (7164321501479806,17) (8106369110930498,16) (-451507167424642,15) (-3728392094961247,16) (4293579485759334,16) (-3148518017259458,16) (8464751000145201,16), (3609130163562194,18));
  (AB60 (-2055975007909495,16) (-7813080908176327,16) (5893108983307719,16) (2739029524033036,16) (7390930001042865,16) (-6154012592297798,16) (-9902800942249157,16) (-4221509071334619,17) (1325263034191932,16) (8209987600207294,16) (-4009691958941438,16) (-4064292558224969,16) (3748788349951358,16) (-3381238042101427,16) (8632138507340755,16), (3654280144379392,18));
  (AB60 (-1650869107194577,16) (-7582786651849535,16) (6306819942208839,16) (2471046685349641,16) (7075889031739132,16) (-66200999002535,14) (-9798159846781922,16) (-5068976201104024,17) (1933680019971471,16) (8270969007448077,16) (-3491339904573084,16) (-4404726705321113,16) (3178059946528423,16) (-3584549127166049,16) (8777866627558479,16), (3650337335216444,18));
  (AB60 (-1209755336227753,16) (-7347914080922986,16) (6674177903370735,16) (2233663455058147,16) (6715104062128837,16) (-7065276003406979,16) (-965551127428919,15) (-6328100187941495,17) (2524015354982628,16) (8275031339634732,16) (-2981333370918455,16) (-4757678810040775,16) (2590235270882211,16) (-3733770691210381,16) (8907841358428882,16), (3604090612713655,18));
  (AB60 (-7355744272643681,17) (-7111771574667718,16) (6991540268903765,16) (2030468930914673,16) (6311482759566405,16) (-7486145957452758,16) (-9476619197123055,16) (-8002888151013131,17) (3090829404082747,16) (8221720384717126,16) (-248507892821929,15) (-5121298334997419,16) (1990473239670298,16) (-3826403831347115,16) (9022009199818439,16), (3614318957434273,18));
  (AB60 (-2626116133259411,17) (-683620215730629,15) (7293653076818719,16) (1802625732396169,16) (5884421088566162,16) (-7881886127148818,16) (-9258581712090764,16) (-9517810687401285,17) (3656880839968176,16) (814449774047476,15) (-1964928635272045,16) (-5459506572364344,16) (1376695584941946,16) (-3919492453294117,16) (9096278809214888,16), (3656150498737558,18));
  (AB60 (-1867416076654808,16) (-7149772935118321,16) (6737470161188153,16) (1838489426583368,16) (7167650588043145,16) (-6726421164041537,16) (-9730086194282171,16) (1787765292482438,18) (2307618478294318,16) (8593837240696346,16) (-2992616033094019,16) (-4146107904877687,16) (3003665030240634,16) (-4175034554949126,16) (8575959587771521,16), (3658618063828739,18));
  (AB60 (-1409596617902097,16) (-6918287673309934,16) (7081689985033712,16) (1620577997020398,16) (6787894010021497,16) (-7162277700863576,16) (-9573446602344505,16) (-1303936632884372,17) (2886540774808608,16) (8571874318765673,16) (-2491756617310792,16) (-4507118771829006,16) (2411168901480928,16) (-4296137392710705,16) (870226798205411,15), (3531745484784899,18));
  (AB60 (-9456931335083878,17) (-6680790060089291,16) (7380562896571454,16) (1422355996459947,16) (6386196209610394,16) (-7562631909044117,16) (-9387389392466977,16) (-2945938504788969,17) (3433676580206483,16) (8508325042552505,16) (-2006826495895523,16) (-485603257666643,15) (182475748342286,15) (-4379369713714871,16) (8802918893031402,16), (348148241994706,17));
  (AB60 (-4996562322584347,17) (-6399279343397852,16) (7668087606093638,16) (1188679670401387,16) (5973439439580197,16) (-7931271140418934,16) (-9165571810721449,16) (-4258399038176553,17) (3976299002693952,16) (8430927372677369,16) (-1497484204627811,16) (-5164978673095338,16) (1234300670302514,16) (-4475955234952386,16) (8856767276495024,16), (3536060371267977,18));
  (AB60 (-6564275959415318,18) (-6072665616638269,16) (7944710399795087,16) (920249756846972,16) (5544489445312538,16) (-8271141225722177,16) (-8905529613186585,16) (-5281761713257301,17) (4518027472326888,16) (8336783985316329,16) (-960819213391497,16) (-543827722917386,15) (6343883874644081,17) (-4583670231921041,16) (886496015664206,15), (3565544728369375,18))].

(** ahrens_beylkin/ahrens_beylkin_3612.hpp:1-7242. *)
Definition ab_3612 : coded := [  (AB12 (5257311121191336,16) (8506508083520399,16), (239667126793284,17));
  (AB60 (-7242088327155899,17) (-9389127835900396,16) (3364491053300195,16) (5689925618166635,16) (6320146083985781,16) (-5261226086836626,16) (-9502002345037952,16) (-3068981751914615,16) (-5415740404675648,17) (5985434919552215,16) (-6137511291737756,16) (-514835157769907,15) (4240776258201326,16) (-1826347922480251,17) (9054416671466831,16), (3702581893585643,18));
  (AB60 (-2735042268526504,17) (-9241853929189933,16) (3809636647950868,16) (5487481110139254,16) (6019438998762568,16) (-5801198600810107,16) (-9466152666351821,16) (-3222414930427365,16) (8941875350896461,18) (6074702827662758,16) (-5656516018400953,16) (-5576899863648218,16) (3664954065541715,16) (-362922980361615,16) (9297117758090122,16), (3708178836294553,18));
  (AB60 (-2629476923223155,16) (-941799764436196,15) (209455758599029,15) (5759488298684199,16) (7483544229153226,16) (-32901155462426,14) (-9479151995859896,16) (-1934453415208734,16) (-2530527103939536,16) (5919592469465755,16) (-7384594409869606,16) (-3228961194744664,16) (6189036449617296,16) (-9894981928361943,18) (7854045884674489,16), (3519799934397374,18));
  (AB60 (-2220123484045912,16) (-9406780081861077,16) (2565841033090234,16) (5641268545847149,16) (7292396153224052,16) (-3872602166254447,16) (-9579221351299592,16) (-2114383928637024,16) (-1941107649031217,16) (6092725650300359,16) (-7013380318209358,16) (-3700160896815933,16) (5706619185045144,16) (-279015835014695,16) (8207109578937383,16), (3600587519055735,18));
  (AB60 (-1796342509616885,16) (-9357977628249303,16) (3033382319676974,16) (5498971411206004,16) (7069627119339538,16) (-4447660712356328,16) (-9642554457262497,16) (-2288350508909765,16) (-133588752786287,15) (6244003221973212,16) (-6609172137585523,16) (-4163083883343134,16) (5194893744906169,16) (-460454981754015,16) (8532353730882978,16), (3655232510381329,18));
  (AB60 (-1359801471485904,16) (-927094740578903,15) (3492917714066342,16) (533369338454128,15) (6814947135902465,16) (-5010809357235154,16) (-9667014625938032,16) (-2456000269886565,16) (-7189512474551296,17) (6370610828721058,16) (-617409691187169,15) (-4614742137086151,16) (4656205268702878,16) (-6408502240307744,17) (8826611098607623,16), (3687801129083987,18));
  (AB60 (-9127336876456969,17) (-9145190498373995,16) (3941117603407273,16) (5146005507456185,16) (6528884630113992,16) (-5558083554957759,16) (-9651223552505529,16) (-2616305868260002,16) (-9395500662996017,18) (6470817242603456,16) (-5710105949098256,16) (-5052050500826225,16) (409313999754777,15) (-8187786810157367,17) (9087123110863458,16), (3701846428092932,18));
  (AB60 (-4579718706212138,17) (-8980322994194149,16) (4375392632172288,16) (4936016510225395,16) (6212739203779492,16) (-6085853481361811,16) (-9594451324332962,16) (-2767583790414658,16) (5357086409976029,17) (6543825351983026,16) (-5219058692160675,16) (-5471725151222998,16) (3508597842971151,16) (-9936805116188167,17) (9311409142397683,16), (3699889214681038,18));
  (AB60 (1068251194250594,19) (-8776087390036629,16) (479377606707692,15) (4703445916894136,16) (586853773360257,15) (-6590740578731247,16) (-9496561768424485,16) (-2907549656434059,16) (1166820283449255,16) (6589672327536996,16) (-4702785701347566,16) (-587026620034339,15) (2905821189693238,16) (-1165752032255005,16) (9497221983971055,16), (3683739890253293,18));
  (AB60 (-3953077206374548,16) (-9095784144815399,16) (1280582442237443,16) (5496784692357157,16) (8141720449790494,16) (-1870226233195147,16) (-9220503208286553,16) (-954063695024904,16) (-3751277522633165,16) (5823303439569696,16) (-793992076604911,15) (-1745507169723993,16) (7350276975091405,16) (-2017996837413839,17) (67773671345946,14), (310835564683838,17));
  (AB60 (-3602137663351269,16) (-9165720226943227,16) (1736138524332105,16) (5434032413063612,16) (8033547007808517,16) (-2435860054909739,16) (-9396414445502929,16) (-113217321913471,15) (-3228866576713575,16) (6037997718261008,16) (-7660275921170823,16) (-2205165836350037,16) (696055439059319,15) (-3732710866376939,17) (7170170937395718,16), (3270162818003507,18));
  (AB60 (-322810275425784,15) (-9205131652457532,16) (2201114233491167,16) (5349012214897055,16) (7894337518721289,16) (-301122956039414,15) (-9545203669696717,16) (-1310794133736242,16) (-2677854671742099,16) (623933231465198,15) (-734408943620555,15) (-2671157543154956,16) (6533974109302576,16) (-5502480825157403,17) (7550126448388222,16), (3421705252199871,18));
  (AB60 (-2833964397310209,16) (-9210318295722739,16) (2671831335667199,16) (5239645196786189,16) (7723525795563563,16) (-3590719634984003,16) (-9662962852898208,16) (-1486792500159176,16) (-2101570118977655,16) (6424684032294212,16) (-6991131517231008,16) (-3138075077808534,16) (6072243217914205,16) (-7323942783325543,17) (7911476532453388,16), (3537991457153039,18));
  (AB60 (-2421610417325008,16) (-9179660906604621,16) (3141596509174568,16) (5107384648746355,16) (7519761145477603,16) (-4167470979468897,16) (-9745618703338595,16) (-1659899761127018,16) (-1505871466011433,16) (6589081396793905,16) (-6604022194164028,16) (-3601513182734922,16) (5578147723869699,16) (-9157389513135755,17) (8248981157920923,16), (3617544832890865,18));
  (AB60 (-1993338340709528,16) (-9112200383463247,16) (3604775503560471,16) (4953561791773041,16) (7282681676411485,16) (-4735480247572221,16) (-9790288140970318,16) (-1829518707051762,16) (-8961693017078906,17) (672881858828175,15) (-6185512637409847,16) (-405739249006515,15) (5054807893398097,16) (-1097169039001638,16) (8558337295333511,16), (3666751520576939,18));
  (AB60 (-1551817697954986,16) (-9007294352589265,16) (4057155441701393,16) (4778938442891608,16) (7012824046418552,16) (-5289805880467302,16) (-9795169966272801,16) (-1994470306170713,16) (-2770081761078426,17) (6841623578422289,16) (-5738014524571409,16) (-4501930266783766,16) (4505364085805499,16) (-1274809521847144,16) (8836093884593001,16), (369150805294513,17));
  (AB60 (-1100126826804767,16) (-8864500609743857,16) (4495592275195255,16) (458377761688178,15) (6711486016540839,16) (-5826228472069249,16) (-9759285662977949,16) (-2153014593203019,16) (3476658019533779,17) (6926355298874016,16) (-5263693387782694,16) (-4931443418835157,16) (39330571909087,14) (-1447792628758145,16) (9079369892077035,16), (3695637759016058,18));
  (AB60 (-6417650963013016,17) (-8683566671150298,16) (4917703471017453,16) (4367984952085978,16) (6380636150720637,16) (-6340992806372469,16) (-9682321065410986,16) (-2302930520429662,16) (9742534600258032,17) (698275790267377,15) (-4764617594393532,16) (-5342238412111782,16) (3341328259038517,16) (-1616018556327105,16) (9285688423103432,16), (368118539019575,17));
  (AB60 (-1806257400507343,17) (-8464422282693712,16) (5321741234057636,16) (4131174433939152,16) (6022848915659166,16) (-6830716560911508,16) (-9564548514591245,16) (-2441573367034546,16) (1599415895074823,16) (7011342300962242,16) (-4242807280533609,16) (-5730590329013975,16) (2733831953679737,16) (-1780041635125557,16) (9452915667996788,16), (3649177807487119,18));
  (AB60 (-502543705528647,15) (-8633876295634865,16) (4485114435865006,17) (5207751474461262,16) (8521199787945648,16) (-5181493550720755,17) (-8762153826537985,16) (-1126765076892168,17) (-4817879650292306,16) (5543586410358545,16) (-8313642382951484,16) (-3898718241689552,17) (8244004471465909,16) (-2075574049941636,17) (5656262918047762,16), (2761389875106012,18));
  (AB60 (-4777222906750077,16) (-8737432067927995,16) (9140143092785133,17) (5135480811408073,16) (8516016506111034,16) (-1050856652119549,16) (-9001981248892703,16) (-2214155618169609,17) (-4349173340253232,16) (5828079558869625,16) (-808796693961419,15) (-7863074711548405,17) (7951124596773154,16) (-4280495664968444,17) (6049495120686585,16), (2853744419928739,18));
  (AB60 (-449183483921571,15) (-8828876094250552,16) (1369075121963398,16) (5070119939254594,16) (8471476247238889,16) (-1589960374990618,16) (-921530166370422,15) (-3573998470116628,17) (-3866585133717643,16) (6081795214206329,16) (-7846226541740822,16) (-120353480553695,15) (7625341288713602,16) (-6252497054980675,17) (6439195061217992,16), (2946747668942696,18));
  (AB60 (-416957325985138,15) (-8905239266972856,16) (181971767829438,15) (5006162070223525,16) (838819894755503,15) (-2139266169248699,16) (-9402817741688755,16) (-5170403194178263,17) (-3364474375690725,16) (6308839429100078,16) (-7583100063394375,16) (-16416876945328,14) (7263551572440056,16) (-8050988841606546,17) (6825879748517905,16), (3118944362790322,18));
  (AB60 (-3817760394504631,16) (-8956636876429113,16) (2281087774273932,16) (4925774715985998,16) (8271846365731975,16) (-2704311585058161,16) (-9566368174966998,16) (-6847905106971373,17) (-2831194429465723,16) (6522071979562791,16) (-7285280400693067,16) (-2094580286520275,16) (6862056589908837,16) (-9865659650389083,17) (7206862490259929,16), (3317396657123417,18));
  (AB60 (-3440532867885689,16) (-8976833086143833,16) (2753034930492467,16) (4822709931229179,16) (8122600682527039,16) (-3280979590219164,16) (-9702111113486155,16) (-8542324036167932,17) (-2267008368352337,16) (6721512458104854,16) (-6949076182993688,16) (-2555701562876843,16) (6421131523266991,16) (-1173524499533352,16) (7575744861721647,16), (3474259193423825,18));
  (AB60 (-3041062566856947,16) (-8963088468522378,16) (3227225367076588,16) (4697938195466134,16) (7939083014910553,16) (-3860095542073949,16) (-9804643590775315,16) (-1024005453611825,16) (-1679397775645122,16) (6901158108930897,16) (-6577418223698727,16) (-3018540419821012,16) (5944548048701366,16) (-1361664791211825,16) (7925163562542722,16), (35800188568351,16));
  (AB60 (-2622491647251169,16) (-8914059227718503,16) (3696225864963403,16) (4553117985000426,16) (7720866531413728,16) (-4433659506407884,16) (-9870132823177751,16) (-1193192696304774,16) (-1075532074051789,16) (7056151153659054,16) (-6173906958214348,16) (-3477585910948636,16) (5436473316769866,16) (-1546959573199381,16) (8249343849963828,16), (3645768448541477,18));
  (AB60 (-2187964962275866,16) (-8828959564173539,16) (4154790288094186,16) (4389264829578346,16) (7468481426749972,16) (-49956120179731,14) (-9896291830552898,16) (-1360478137423566,16) (-4609850779846056,17) (7183576980248966,16) (-5741501542458712,16) (-3928279751593741,16) (4900679812579798,16) (-172697988429126,15) (8544055117672532,16), (3681273405018874,18));
  (AB60 (-1740795780540598,16) (-8707296442941312,16) (4599197615366578,16) (4206816509793516,16) (7183211815301207,16) (-5541133716979391,16) (-9881885085006586,16) (-1524084627640105,16) (1597285651206003,17) (7281929497519989,16) (-5282687469640008,16) (-4366545074914117,16) (4340751368027196,16) (-1900524345661198,16) (8806014125160094,16), (3692300490256736,18));
  (AB60 (-1284558448432638,16) (-854882578614559,15) (5026677557859921,16) (4005856173178991,16) (6866971298744587,16) (-6066120795205272,16) (-9826434512706111,16) (-1681854487401002,16) (7826558954657584,17) (7350679243637911,16) (-479975695484619,15) (-478851206864475,15) (3760313717500839,16) (-2067214343898396,16) (9032533731038913,16), (3681584001778644,18));
  (AB60 (-8230845700685167,17) (-8353583961119686,16) (5435086640987341,16) (3786300948031177,16) (6522215523518408,16) (-6566934581348722,16) (-9730081828936455,16) (-1831368437601279,16) (1404135765500776,16) (7390019151417239,16) (-4294995187949114,16) (-5190436713531953,16) (3163147247587733,16) (-2227220335569293,16) (9221387589018518,16), (3649727576211852,18));
  (AB60 (-3604577170034714,17) (-8121860263626605,16) (5822839177959136,16) (3547915829925278,16) (6151902812124328,16) (-7040339839378665,16) (-959353012849975,15) (-1969957451502277,16) (2020754144580242,16) (7400797556382137,16) (-3770690950540614,16) (-556866997450552,15) (2553190289121084,16) (-2381211861583714,16) (9370755007884414,16), (3596062970754269,18));
  (AB60 (-4406208792580366,16) (-867325787455225,15) (2315150517289287,16) (4497644360792812,16) (8616747585616299,16) (-2350075796565782,16) (-9535981673425401,16) (-5651028893595152,18) (-3010292363100181,16) (6756284589146148,16) (-7220831156136114,16) (-1487351997692632,16) (7185905876859618,16) (-1395916429480185,16) (6812794878082099,16), (3286407356116719,18));
  (AB60 (-4041840664090545,16) (-8707975048043913,16) (279905244837404,15) (4396376122513804,16) (8488860084521314,16) (-29344729432747,14) (-9693423478407247,16) (-2191149635225994,17) (-2447351609602437,16) (6976313607365244,16) (-6894371030033206,16) (-1949024512911367,16) (6758950535132547,16) (-1594489054488107,16) (7195428570887844,16), (3449076156738702,18));
  (AB60 (-3653833506523991,16) (-8710024076410018,16) (3284049526873857,16) (4275436087661214,16) (832585255377255,15) (-3521480585373612,16) (-9817678910800107,16) (-3841715226374679,17) (-1861610336677691,16) (7175314091897602,16) (-653362938392625,15) (-2413825750983523,16) (6296198325426495,16) (-17922231698463,14) (7559485614535071,16), (3562190281691854,18));
  (AB60 (-3244971588366649,16) (-8678095908677267,16) (3763085275474382,16) (4136433064129259,16) (8127142416994834,16) (-4103593259554558,16) (-9905021073741963,16) (-5509534916824336,17) (-1259764969639396,16) (7348564847921207,16) (-614193579826758,15) (-2876668094489863,16) (5801427814187404,16) (-1985206618727253,16) (7899518339603641,16), (3634791722031023,18));
  (AB60 (-2818162126088229,16) (-8611457301005241,16) (4230929612277355,16) (3980490506843682,16) (7893098855609741,16) (-467489954763731,15) (-9953140098851231,16) (-7183584453954994,17) (-647273757052363,16) (7493061673725538,16) (-5722210486573875,16) (-333321674979132,15) (5278240551213921,16) (-2170888369035866,16) (8211420119121038,16), (3676322625075981,18));
  (AB60 (-2376600304697514,16) (-8509622744656289,16) (4683811667364526,16) (3808113699476048,16) (7624898811332408,16) (-523060112881918,15) (-9960745132816994,16) (-88472393332388,15) (-2863495881757433,18) (7607201433516694,16) (-5276933465452468,16) (-3779478740658473,16) (4730144003997815,16) (-234796534587994,15) (8491925366840574,16), (3692415422422974,18));
  (AB60 (-1923769463126362,16) (-8372358807745726,16) (5118859154841543,16) (3619473523684679,16) (7324356063459476,16) (-576656047111361,15) (-9927287593257451,16) (-104800274428625,15) (5921581619172054,17) (7690329934239972,16) (-4808428438415908,16) (-4211631685601884,16) (4160727122143841,16) (-2515927625043567,16) (8738332678526223,16), (3685662132070512,18));
  (AB60 (-1463381010461767,16) (-8199765841547675,16) (5533747027287013,16) (3414666800585487,16) (6993804901486522,16) (-6279071877349579,16) (-9852833030829037,16) (-1205960940061152,16) (1211337887482731,16) (7742452887811346,16) (-4319086003542024,16) (-4626004688068218,16) (3573761153479457,16) (-2674718897944499,16) (8948413827872499,16), (3656325607846751,18));
  (AB60 (-9993020726286042,17) (-799236908251915,15) (5926502494425543,16) (319390984290578,15) (6636026888513233,16) (-6764768070696803,16) (-9738014983244017,16) (-1356342194005916,16) (1825212327066155,16) (7764070143325407,16) (-3811512488818474,16) (-5019122169971936,16) (2973246912547214,16) (-282451439969476,15) (9120412337331323,16), (3602616922033115,18));
  (AB60 (-5355417438881778,17) (-7751076385756881,16) (6295554773228111,16) (2957483634102964,16) (6254233978826976,16) (-7220654256512994,16) (-9584021407448361,16) (-1496842406929904,16) (243022560071855,15) (7756196000401171,16) (-3288466634220249,16) (-5387709234821514,16) (2363367150935367,16) (-2965767344606728,16) (9253038407331076,16), (3521403892108112,18));
  (AB60 (-7636806671587121,18) (-7476890372857284,16) (6640051074401472,16) (2705306809076481,16) (5852116875737025,16) (-7644216319641821,16) (-939255594436348,15) (-162477349712026,15) (3023243939059145,16) (7720584386357693,16) (-2752504869962009,16) (-5728550748135626,16) (1748339624721659,16) (-3099612005775016,16) (9345357883477953,16), (3410322051539135,18));
  (AB60 (-3437206382999844,16) (-8356226659237441,16) (4284750669538964,16) (3555798855881605,16) (8282932480186613,16) (-4330048963369896,16) (-9964859896462561,16) (-7329417905082829,18) (-8343831297368282,17) (776725534636974,15) (-5680109226923598,16) (-2721415726144776,16) (5634810933092664,16) (-2602823253263016,16) (7840549525420568,16), (3672515122076297,18));
  (AB60 (-3002769721095959,16) (-8272705171680341,16) (4748233686806352,16) (3390735355926565,16) (8032929222888097,16) (-4896423372844713,16) (-9994782790759261,16) (-2397759487922441,17) (-2163896021607717,17) (7899193093940672,16) (-5246549103952909,16) (-3174345753765793,16) (5098359417914549,16) (-2786380118935187,16) (8138969042732916,16), (3692989783060721,18));
  (AB60 (-2554929079694341,16) (-8155158261001338,16) (5192853852724324,16) (3211718193556868,16) (7749240265193372,16) (-5443724970778885,16) (-9983605056377783,16) (-4059179958079665,17) (4035599818455718,17) (7998654050473225,16) (-4790751203653459,16) (-361527817540244,15) (4539880085598899,16) (-2958489061539912,16) (8404572046281192,16), (3690582067485183,18));
  (AB60 (-2097288186201937,16) (-8003701735364318,16) (5616239025837843,16) (3018913517260863,16) (7434105955877027,16) (-5968268577409478,16) (-993134792637512,15) (-5695957794872907,17) (1021708869137813,16) (8065556763611414,16) (-4315108900537278,16) (-4040622386398676,16) (3963079348965642,16) (-3118997055339749,16) (8635152543098705,16), (3665330855087682,18));
  (AB60 (-1633574767399792,16) (-7818969208653515,16) (6016240852346502,16) (2812756177413239,16) (7090195018363178,16) (-6466648072069613,16) (-9838601759177015,16) (-7287741902903361,17) (1634259344132873,16) (8100222839469404,16) (-3822360906830514,16) (-4447015521546112,16) (3371953687107402,16) (-3267834111532664,16) (8828997029759741,16), (3615119366276996,18));
  (AB60 (-1167548418800727,16) (-7602279281065042,16) (6390788716773941,16) (2594186472814183,16) (6720568474040718,16) (-6935715963763073,16) (-9706559795918169,16) (-8817108070243238,17) (2237248976095762,16) (81032643825638,14) (-3315771079144229,16) (-4831435448909944,16) (2770843832155097,16) (-3404797394896489,16) (8984975189588124,16), (3535464634559084,18));
  (AB60 (-7030747590748768,17) (-7355532562199703,16) (6738087756149491,16) (2364444918552906,16) (6328749335747448,16) (-7372674689175265,16) (-9537056772442813,16) (-1026783226452255,16) (2826705560379248,16) (8075749448250141,16) (-2798969016293323,16) (-5191150478932154,16) (2164382083267549,16) (-3529780319454125,16) (9102532674702396,16), (3421191803786594,18));
  (AB60 (-2446010952098722,17) (-7080462888736574,16) (7057422729683002,16) (2123917544924945,16) (5918981447195876,16) (-7775257737857376,16) (-9332512065133096,16) (-1161481441540698,16) (3399291016535909,16) (8019858833067248,16) (-2275089335450095,16) (-5523208561460854,16) (155725432727572,15) (-3643892111745781,16) (9181340274607946,16), (3273829624818139,18));
  (AB60 (-2260202277702287,16) (-760350636920155,15) (6089185212931272,16) (2408332348521601,16) (7511956950679285,16) (-614576586522832,15) (-9894399390522814,16) (-9154941852226473,18) (1446540495385456,16) (8405968142930608,16) (-3805214177591543,16) (-3854872843907056,16) (3748633525294494,16) (-3706742773087743,16) (8497517561452872,16), (362694425750588,17));
  (AB60 (-17944693345034,14) (-7409453973408823,16) (6471465956293297,16) (2204119685133816,16) (7156276133215914,16) (-6627938466730805,16) (-9784628681919619,16) (-2531778401929089,17) (2048644073086192,16) (8422407801234205,16) (-3313162725626322,16) (-4252763758220008,16) (3156690215188815,16) (-3843113407589593,16) (8675585641427114,16), (3551376366709465,18));
  (AB60 (-1328063315094446,16) (-7187733374482346,16) (6824422083110993,16) (1992393275466595,16) (6777154879227487,16) (-7078173548228283,16) (-9637603626517817,16) (-410578495254859,16) (2635910020726216,16) (8406236863322729,16) (-2813181543406825,16) (-4628303296192812,16) (2559430078289534,16) (-3963973335820662,16) (8816815358577588,16), (3438165853176021,18));
  (AB60 (-8654017429982426,17) (-6941655769968513,16) (7145942554658444,16) (1775522364128058,16) (6379170292248122,16) (-7493577698067868,16) (-9456312609882818,16) (-5624854777203919,17) (3203398494025505,16) (835897944106611,15) (-2310370055224374,16) (-4978920858153564,16) (196273491181495,15) (-4068800237023747,16) (8921464918786502,16), (3283839709921729,18));
  (AB60 (-4128797666952732,17) (-66726467932855,14) (7436754337095611,16) (1552320620139258,16) (596843361768693,15) (-7871982014941026,16) (-9244248686319675,16) (-7042131755985703,17) (3748059501767593,16) (8284861781636299,16) (-1807494349224064,16) (-5300380121906851,16) (1372266671378649,16) (-4160939268462867,16) (8989074957234869,16), (3112636744672678,18));
  (AB60 (209276643289761,17) (-6378034983535402,16) (7701962852524303,16) (1315424270066154,16) (5552124067147541,16) (-8212403870531574,16) (-9004453114730002,16) (-8259109163878604,17) (4270561469270819,16) (8191476206202597,16) (-1302490262205699,16) (-5585985739336974,16) (7920492441984284,17) (-4249633804941843,16) (9017387122590458,16), (2973405810603297,18));
  (AB60 (-1035319844160844,16) (-6519376487741738,16) (7511713721339955,16) (1198498084182222,16) (6418526789184139,16) (-7574042262803733,16) (-9350074658440823,16) (-1008496985575997,17) (3544846007922426,16) (8609362106964578,16) (-1838360937100868,16) (-4743344092104648,16) (177603239563709,15) (-4580165852083271,16) (8710211805522177,16), (3093816706861245,18));
  (AB60 (-6006897036811869,17) (-6261877624807506,16) (7773548770788443,16) (9935677029877436,17) (6019065667803997,16) (-792361481309149,15) (-9138363127343263,16) (-2428119570035097,17) (405356160756799,15) (8524304516772677,16) (-136481435655482,15) (-5047129310555734,16) (1214748314251773,16) (-4654251311249176,16) (8767116473776186,16), (2950330738052785,18));
  (AB60 (-1874892748222771,17) (-5974481242252305,16) (8016883537747194,16) (7670777164997465,17) (5616275885809043,16) (-8238266622981402,16) (-8899835998613178,16) (-3582053564432622,17) (4545834150120782,16) (8425755897803678,16) (-8829524608659836,17) (-5312911866620529,16) (6615693756317764,17) (-4733323424943059,16) (878396125424694,15), (2886206551559804,18))].

(** ahrens_beylkin/ahrens_beylkin_3792.hpp:1-7602. *)
Definition ab_3792 : coded := [  (AB12 (5257311121191336,16) (8506508083520399,16), (2134474800949888,18));
  (AB60 (-1163633630016143,16) (-9445946115450122,16) (3069211423005622,16) (5747742656945158,16) (6612810928672784,16) (-4820185263157299,16) (-9536119213753177,16) (-2833135186777339,16) (-1017730492090915,16) (5983818893173443,16) (-6466907790747555,16) (-4730012164854244,16) (4715933950595878,16) (-1459031379252286,17) (8816954079950781,16), (334321133405161,17));
  (AB60 (-7045876279930706,17) (-93567337912898,14) (3457613198929965,16) (5623220498454605,16) (6316851499162113,16) (-5336363777263813,16) (-9516292799536955,16) (-3039882292127687,16) (-446415729437948,16) (6040951405256884,16) (-605867960060699,15) (-5176804769016657,16) (4179929022273142,16) (-2581718985551225,17) (908083369738457,15), (3351233815751428,18));
  (AB60 (-2283274505696367,17) (-9236015839677243,16) (3826732024135927,16) (5488170700038802,16) (5985253936008607,16) (-5835813369936456,16) (-9456016849191377,16) (-3250761903668636,16) (1276416603835203,17) (6064140820506092,16) (-5629284825055449,16) (-5615812360422322,16) (362020347925492,15) (-355969110953157,16) (931490272417473,15), (335503365371886,17));
  (AB60 (-3415278858970047,16) (-9267909190830033,16) (1562603451295452,16) (5661215104106314,16) (7879844254770504,16) (-242047476037219,15) (-9334576971304215,16) (-1388064936059528,16) (-3307408124208305,16) (5835753619342238,16) (-7771973520008761,16) (-2353806979898009,16) (6914102210932024,16) (-1078707347617423,17) (7223818555401766,16), (3300233206205671,18));
  (AB60 (-3011635606035981,16) (-9324905250065501,16) (1994039381195155,16) (5616340544511769,16) (771510906742276,15) (-2988948137028202,16) (-9471673091966548,16) (-1609796182642741,16) (-2774160249384615,16) (6000583743064183,16) (-7477633710771393,16) (-2842180295127155,16) (6482724954938346,16) (-2374753566513665,17) (7610379925706924,16), (3332756684321254,18));
  (AB60 (-259677411457346,15) (-9348309909321929,16) (2421955003123436,16) (5549516751807291,16) (7523414599480421,16) (-3549802330515759,16) (-9576366418843039,16) (-1824895309841508,16) (-2227770930812641,16) (6146576445089219,16) (-7154411415719603,16) (-3321745820994649,16) (602656408832728,15) (-369003183760819,16) (7971471754930727,16), (3344949442171258,18));
  (AB60 (-2173578534846432,16) (-9337415803234277,16) (2843980040430243,16) (5460465342270462,16) (7306008039072597,16) (-4099459083692593,16) (-9647790794452998,16) (-2031407764161681,16) (-1671381249796591,16) (6273037618539025,16) (-6803810754022755,16) (-3789084092473872,16) (5548331710760406,16) (-5021972850498414,17) (8304445382700706,16), (3343269042208953,18));
  (AB60 (-1738963740480334,16) (-9294154539525494,16) (3254949539503229,16) (5354284852661325,16) (7059763211952571,16) (-4635879324111296,16) (-9683973088985053,16) (-2234391327572924,16) (-1108224078009587,16) (6374843064591631,16) (-6429023549481824,16) (-4246060774651738,16) (5048093764873757,16) (-6307396624707469,17) (8609234392164555,16), (3342121504984604,18));
  (AB60 (-1287883303830114,16) (-9220926673380748,16) (3649091377295323,16) (5237362866347355,16) (6780014065872029,16) (-5157658332303844,16) (-9682409898953196,16) (-244091260750872,15) (-5411877596159594,17) (6445541636133958,16) (-6033318521657873,16) (-4696175106731396,16) (4524751566649353,16) (-7466955442141548,17) (8886454243642677,16), (3348217014876508,18));
  (AB60 (-8200136142960823,17) (-9118261309876324,16) (402304466258847,15) (5111907885110967,16) (6465724774391779,16) (-566240239791881,15) (-9641748832572062,16) (-2652536535484545,16) (2700699011210451,18) (6482416012214892,16) (-5618704169983593,16) (-5138914875223072,16) (3979346434653253,16) (-8470206044081868,17) (9134952547699438,16), (3353005945645763,18));
  (AB60 (-3399208267065595,17) (-8984721381836068,16) (4377126400088178,16) (4975187775390943,16) (6119968860620105,16) (-6147640827556599,16) (-9562396799867738,16) (-2864752521215964,16) (5947776341339857,17) (6487561654263158,16) (-518527039977956,15) (-5569965409524928,16) (341475597231114,15) (-9346984608405451,17) (9352314175479122,16), (3349636902316915,18));
  (AB60 (-4991430663934435,16) (-8655885784533891,16) (4015734207329463,17) (5259535089290002,16) (8490188137129892,16) (-5039801986845136,17) (-8745982312822882,16) (-1656976474039993,17) (-484565141889448,15) (5495410862618948,16) (-8344408892089936,16) (-4138836703955218,17) (8242002114138369,16) (-1457792450399552,17) (5661108510022947,16), (2710925909196268,18));
  (AB60 (-4684875351734641,16) (-879532562947388,15) (8331806588184375,17) (5251271475682369,16) (8445273573777986,16) (-1049524727070271,16) (-8979864334929433,16) (-3500520556958942,17) (-438628545406765,15) (5734400078804912,16) (-8146683676110995,16) (-8649860216147184,17) (7930339607859161,16) (-2985898976669903,17) (6084452134500806,16), (3008354944823759,18));
  (AB60 (-4343625294549768,16) (-8917019355902511,16) (1272668498473742,16) (5235431915645843,16) (8365852552672938,16) (-1613308316340244,16) (-9192608480545115,16) (-5511668032295729,17) (-3897712723948203,16) (5956933610890012,16) (-7919939982071372,16) (-1337719191697639,16) (7579300164204872,16) (-4459125706015651,17) (6508100414119585,16), (3166660042684447,18));
  (AB60 (-3973701497995231,16) (-9015806769947335,16) (1710241120954077,16) (5210879040957345,16) (8251188998278666,16) (-2182800892247521,16) (-9377002748818847,16) (-7646177716686697,17) (-3389274127581336,16) (6156502390242752,16) (-766676162786477,15) (-1821604913376009,16) (7194201856571326,16) (-584427370413895,16) (6921120161911422,16), (3254969725518335,18));
  (AB60 (-3581752241664963,16) (-9087240799209018,16) (2143153176168019,16) (5173333338138427,16) (8103589585736591,16) (-2751083059169057,16) (-9530131138936521,16) (-9836512134724262,17) (-2865140618696875,16) (633283530083402,15) (-7386977962768503,16) (-2308192719441553,16) (6779048079767465,16) (-7166116229680888,17) (7316486514306446,16), (3304622831755505,18));
  (AB60 (-3174499847576369,16) (-912735681689427,15) (2571751981593737,16) (5117336386252843,16) (7926617801407009,16) (-3313849504782951,16) (-9651037170930137,16) (-1200739015487261,16) (-2327167235505758,16) (6488349352359319,16) (-7079285189336398,16) (-2790169150747084,16) (6337187666147185,16) (-8473326120706103,17) (768908836784658,15), (3330938956038128,18));
  (AB60 (-2756279709567404,16) (-9133934833006643,16) (2995689675018917,16) (503992639639904,15) (7722563562248604,16) (-3867965091092516,16) (-9739090614432302,16) (-1411371270758039,16) (-1777117086732184,16) (662424480065992,15) (-6743400939413384,16) (-3262809309666856,16) (5871125523339786,16) (-9791626228352192,17) (8035616071417958,16), (3342102261762741,18));
  (AB60 (-2326666312256888,16) (-9107574865820355,16) (3411554474852522,16) (4943426175837471,16) (7490328329731017,16) (-4411067802343767,16) (-9792939512144126,16) (-1617246536089338,16) (-1217723019817476,16) (6737734114600655,16) (-6381385037291605,16) (-3725703156019995,16) (538187170980036,15) (-1108943292439413,16) (8354980650689994,16), (3347334550246468,18));
  (AB60 (-1882399746394134,16) (-9050535590532758,16) (3813709050160378,16) (4833489064013234,16) (722666208840742,15) (-494092486565414,15) (-9810585137859369,16) (-1823873502125337,16) (-6526137456857055,17) (6823324612048274,16) (-5996876087698991,16) (-4180875318327528,16) (4869660272205229,16) (-1229786000708429,16) (8647198114173611,16), (3353681369162351,18));
  (AB60 (-142229564475933,15) (-8964528583311707,16) (4196939644298692,16) (4714472623053691,16) (6929851313745867,16) (-5454439353027214,16) (-9790439317864595,16) (-203467726956584,15) (-8594400457936522,18) (6876734997786543,16) (-5593499673565903,16) (-4628528618474326,16) (4335999964837382,16) (-1336351640179964,16) (8911412267352383,16), (3358380372526576,18));
  (AB60 (-9488661275433219,17) (-8849777679884877,16) (4558627873451877,16) (4587090843943388,16) (660123114643969,15) (-5948306056406755,16) (-973215023499053,15) (-2248546533445188,16) (4788426573577143,17) (6897172183950077,16) (-5173522361538654,16) (-5065933501301102,16) (3783844178583775,16) (-1427708784901036,16) (9145718717395265,16), (3355932497197474,18));
  (AB60 (-466729535432135,16) (-8704698300106648,16) (4900039902375871,16) (4448001546279805,16) (6244136878944148,16) (-642075049206104,15) (-9636496165106184,16) (-24605614211625,14) (10409510807817,14) (6887480027493176,16) (-4736456262730313,16) (-5488952627061505,16) (3215745673045143,16) (-1507680616213835,16) (9348041448655676,16), (3348523296054427,18));
  (AB60 (1874937042751381,18) (-8525137905155049,16) (5227013694184964,16) (4289268471663925,16) (5862636454601563,16) (-6872530085722917,16) (-9504694417657022,16) (-2662501450553486,16) (1603705101557018,16) (6853780715295402,16) (-4277680723472059,16) (-5892973573220943,16) (2632164331934107,16) (-1584955731129504,16) (9516282165848888,16), (3343984280084646,18));
  (AB60 (-4543752191821631,16) (-8722748223309634,16) (1807755362891987,16) (474887722336408,15) (8595973981873006,16) (-1886106152997809,16) (-9364825877258667,16) (-126774241436628,16) (-3504848724315303,16) (6429858344819439,16) (-7557070514366679,16) (-1244028499048777,16) (7478719724260858,16) (-1038903467506327,16) (6556632586256067,16), (3241110183050371,18));
  (AB60 (-4163850544117226,16) (-8808816921104194,16) (2251020456753583,16) (4714271780964507,16) (8468637888602818,16) (-2461262661099489,16) (-953869339805728,15) (-3401790325013759,17) (-2982885596818104,16) (6625113205216715,16) (-7287672941303697,16) (-1731386184146403,16) (707743073695779,15) (-1180964947299122,16) (696529223771809,15), (3295286106334085,18));
  (AB60 (-376484142232188,15) (-8866454612255967,16) (2685507712439911,16) (4666958624325048,16) (8308915519582055,16) (-3030085821769166,16) (-9679266298013378,16) (-5575390926739124,17) (-2449684488313292,16) (6794927244091046,16) (-6993758585573467,16) (-2217274136011756,16) (6649180476244212,16) (-1315156934008588,16) (7352466336764959,16), (3327170629351939,18));
  (AB60 (-3351903793691993,16) (-8892155339448258,16) (3113569394915593,16) (460132485301709,15) (8119970658525449,16) (-3590805773317882,16) (-9786484719454051,16) (-7721846809228088,17) (-1904848459705,13) (6942709567009875,16) (-6672915324538456,16) (-2696476393312089,16) (6195678946136168,16) (-1447055333986993,16) (7714894247932683,16), (3346690138231324,18));
  (AB60 (-2926619786736894,16) (-8884727026258128,16) (3535042049645024,16) (4515998879627018,16) (7902436725843555,16) (-4142130842120575,16) (-9859791429623412,16) (-9822903004145729,17) (-1348932440871727,16) (706875062885747,15) (-6324749379978388,16) (-3167066438755291,16) (5717660587502837,16) (-1577687345865167,16) (8051040929272043,16), (3359440392207287,18));
  (AB60 (-2487606984446749,16) (-8845323734788867,16) (3946144893147296,16) (4414231942098764,16) (7654604027386094,16) (-4682050143396539,16) (-9897802502285783,16) (-1190719707402772,16) (-7846605661991406,17) (7169657127843289,16) (-5951657609138487,16) (-3629571375899623,16) (5215752358889243,16) (-1702946418247608,16) (8360376835246061,16), (3369013760106204,18));
  (AB60 (-2033769450191723,16) (-8775927672880554,16) (4341298803795491,16) (4300755904118171,16) (7374852992318411,16) (-5207210577159798,16) (-9898993353413333,16) (-1401074680562142,16) (-2166110074911538,17) (724098002735152,15) (-5557694549617842,16) (-4084144896627017,16) (4691782776253536,16) (-1817158442700569,16) (8642054707913662,16), (3374838977320712,18));
  (AB60 (-1566253768608786,16) (-8678084976379229,16) (4715685557271592,16) (4178876413880994,16) (7063395381823345,16) (-5713618607987916,16) (-9862560035160428,16) (-1614689594555884,16) (3502671353257233,17) (7279872376596701,16) (-5146874477888836,16) (-4529143549206717,16) (4148941427172513,16) (-1916520903934509,16) (8894561971152586,16), (3373903266536347,18));
  (AB60 (-1088021059735202,16) (-8552092012168191,16) (5067339774376858,16) (404890089041786,15) (6722167640202275,16) (-6198295233093599,16) (-9788674660186752,16) (-1829924371965917,16) (9128116946571781,17) (7286316292828802,16) (-4721334885809895,16) (-4961712585075038,16) (3590379427093153,16) (-200083275439238,15) (9116240664794718,16), (3366772466901455,18));
  (AB60 (-603033998502505,16) (-8395951143649919,16) (5398551138045623,16) (3906843836408598,16) (6354084371457673,16) (-6660494203759471,16) (-9678090481900522,16) (-2041866772192246,16) (1471511029100269,16) (7263528202261975,16) (-4279539343854899,16) (-5378354865508866,16) (3017596278141052,16) (-2074545027602774,16) (9305394974454221,16), (3359076794477259,18));
  (AB60 (-1158399475751029,17) (-8204712067660083,16) (571570476786011,15) (3744102600331956,16) (5962322428144491,16) (-7101577781101371,16) (-9531400393048486,16) (-2242389639515592,16) (2030786855381013,16) (7217417728676474,16) (-3815695625188375,16) (-5774889455712968,16) (2429822611947115,16) (-2146626802956116,16) (9459807368192066,16), (3353682725090893,18));
  (AB60 (-3949025922392779,16) (-8610459652933999,16) (3203931776655922,16) (4143726179028885,16) (8490128276714559,16) (-3278300657072586,16) (-9788290198177949,16) (-1203313762194406,17) (-2043256067200248,16) (7227326579465366,16) (-6584358421522027,16) (-2100470111828637,16) (6509989541105362,16) (-1905769855192531,16) (7347657955684806,16), (3355907627371786,18));
  (AB60 (-3528247575552411,16) (-8623194168134515,16) (3632078108226671,16) (4069983112494523,16) (8288383193390615,16) (-3839002670424883,16) (-9882638143136997,16) (-3348109747438992,17) (-1490424417072122,16) (7367250245977295,16) (-6250560034910326,16) (-2579558695422401,16) (6043635472712113,16) (-2037823158480289,16) (7702061220721194,16), (3373461415052259,18));
  (AB60 (-3093661796391631,16) (-860313357355608,15) (4051586035751813,16) (3978294178075091,16) (8056400694126932,16) (-4389485538006125,16) (-994186835369399,15) (-5467328794291483,17) (-9275434202068761,17) (7483147334397756,16) (-5890282317942177,16) (-3050750757868215,16) (5552382815687865,16) (-2166118376184755,16) (8029880213826904,16), (3386529754959751,18));
  (AB60 (-2645028648901029,16) (-8551407654888812,16) (4458391028880467,16) (3871679801073807,16) (7793295550506816,16) (-4926930076671249,16) (-9964788436192322,16) (-7581121043819959,17) (-3581305057060681,17) (7571958725572278,16) (-5506397407311855,16) (-3513549295367738,16) (5037858359521074,16) (-2286898143194961,16) (8330070829954274,16), (3394331229918956,18));
  (AB60 (-2182985640324946,16) (-8469985765673181,16) (4847052178740061,16) (375425667583659,15) (7498886860188743,16) (-5447224308767267,16) (-995046817725042,15) (-9710989054844392,17) (2124852213534376,17) (7630209949092212,16) (-5103415998510359,16) (-3966741897190028,16) (4503243868483154,16) (-2395470861678383,16) (8601308854576651,16), (3395139553070814,18));
  (AB60 (-1709336401249832,16) (-8360664304304823,16) (5213200692289279,16) (3629105163212047,16) (7174181958871868,16) (-5946487108818539,16) (-9898733849681151,16) (-1186482345432955,16) (7793124002301641,17) (7655823510068371,16) (-4685533157391872,16) (-4408417563442211,16) (3952246740862612,16) (-2488648801479996,16) (8842305855501326,16), (3388816719453689,18));
  (AB60 (-1226782278942603,16) (-8223766095990519,16) (5555598657076414,16) (3496270628291346,16) (68211451590211,14) (-6422466069455739,16) (-9810062430550344,16) (-1402620936969418,16) (1339899106604568,16) (7649248348398342,16) (-4254463773473929,16) (-4836169734895914,16) (3387596361094605,16) (-2566681385547171,16) (9051869285367761,16), (3378546626286583,18));
  (AB60 (-7387909050946201,17) (-8056838165037709,16) (5877205694966041,16) (3351217203997267,16) (6442269919211782,16) (-687506374804276,15) (-9685020788891081,16) (-1614568245825928,16) (1895663920192122,16) (7613854653137381,16) (-380781509392504,15) (-5246881124189389,16) (2809957040848321,16) (-2634454825286742,16) (9228422898963309,16), (3367939546280971,18));
  (AB60 (-249325682107702,16) (-7854612126418481,16) (6184084818933298,16) (3185426412124039,16) (6040002080875005,16) (-730557550340616,15) (-9523602976868148,16) (-1814610045543475,16) (2451158240832453,16) (7554901185513863,16) (-3339518157934851,16) (-5636584652956492,16) (2218027473461988,16) (-2700483922940155,16) (9369511231057337,16), (3354810610813953,18));
  (AB60 (-3247047651005848,16) (-8289872157468946,16) (4553537214618825,16) (3426485943572615,16) (8178973193779436,16) (-4622076543496083,16) (-998680896960356,15) (-1108989636895097,17) (-5013462122111469,17) (786912419450193,15) (-5433271754984735,16) (-2925139731361468,16) (5364732426107478,16) (-2745701438794701,16) (7980023158191439,16), (3405641278281742,18));
  (AB60 (-2790814037660192,16) (-8225719937946391,16) (4954683492380723,16) (3314996508799943,16) (7901757354475114,16) (-5154903380049197,16) (-9994497932734994,16) (-323962583471277,16) (7112887646065155,18) (7945717417709389,16) (-5039814440354271,16) (-3386125385260594,16) (4839594552685796,16) (-2861942914120844,16) (8269680001180666,16), (3408476792687183,18));
  (AB60 (-2322929115852184,16) (-8132344432328525,16) (5335632517021897,16) (3193564017826618,16) (7594262471116393,16) (-5668185457784197,16) (-9964845681901906,16) (-5380819612121331,17) (6421201903841993,17) (7991114573636381,16) (-4629213164880009,16) (-3835684208210817,16) (4296660224117709,16) (-2965049306236383,16) (8529196534848514,16), (3403611478228308,18));
  (AB60 (-1845216783264511,16) (-801188949815666,15) (5692521558333002,16) (3065290637561797,16) (7257842387415849,16) (-6158548301889479,16) (-9898218884564016,16) (-7540471107408099,17) (1206928277920326,16) (800376508515399,15) (-4205697326231013,16) (-4272218915482123,16) (3739670582674537,16) (-3052145061184837,16) (87578121958948,14), (3392549317027136,18));
  (AB60 (-1360006635123057,16) (-7864674371394152,16) (6024722315954258,16) (2930028900990134,16) (6894347247994176,16) (-6624417458421358,16) (-9795281542375819,16) (-9703271233999773,17) (1763781386449558,16) (7984424093544416,16) (-377055922642156,15) (-4693810287439692,16) (3170864083954461,16) (-3123788021572615,16) (8954751216944393,16), (3378175691415258,18));
  (AB60 (-8702094878501185,17) (-7687990381492046,16) (6335419428999268,16) (2783095636306561,16) (6505761725137088,16) (-7066076921100752,16) (-9656334106129841,16) (-1182228656354958,16) (2314637560156397,16) (793628640895087,15) (-3320914677130573,16) (-5097733196462958,16) (2590257185029089,16) (-3184847048006516,16) (9118515065305829,16), (3361268410023245,18));
  (AB60 (-3793789494238964,17) (-7476560242709108,16) (663001648187058,15) (2616421512204362,16) (609399190463061,15) (-7484490706572547,16) (-9480907079435138,16) (-1382568338078498,16) (2863722357642156,16) (7863869655996444,16) (-2850890597564557,16) (-5480143869846518,16) (199641637286259,15) (-3243101307066052,16) (9246437994074942,16), (3337297094992919,18));
  (AB60 (-2454270167072631,16) (-7764147140042541,16) (5804703018655347,16) (2620564283381502,16) (766137172403453,15) (-5868221718956208,16) (-9942089682862619,16) (-1027754160080106,17) (1069714892754628,16) (832249188602884,15) (-4137386664207272,16) (-369027917613613,15) (4073867963906411,16) (-3523985059827259,16) (842526730203685,15), (3395729719865739,18));
  (AB60 (-1974995871487457,16) (-7633330700538117,16) (6150744160167106,16) (2489814892225822,16) (731515504766687,15) (-6347387528034225,16) (-9861173628612896,16) (-3181756528712465,17) (1629729707733624,16) (8322383399521682,16) (-3710429468445789,16) (-4119544599959445,16) (3513786100578671,16) (-3604725579221081,16) (8640559052392929,16), (3380619877738933,18));
  (AB60 (-148894549218267,15) (-7477055979117041,16) (6471218989221352,16) (2353346399605407,16) (6942826838423538,16) (-6801390755950586,16) (-974478431039159,15) (-5342291406935026,17) (2180316025070631,16) (8290336248133257,16) (-3273565321170238,16) (-4533662424676038,16) (2943393554441003,16) (-3669261517253301,16) (8824565388826758,16), (3361740748485461,18));
  (AB60 (-9986110106790386,17) (-7292415782792216,16) (6769301891645368,16) (2206449579434539,16) (654593049437829,15) (-7230655171986943,16) (-9592927017219438,16) (-7464852884139263,17) (2723694358125183,16) (8229266182665982,16) (-2823625125574069,16) (-4930143937559722,16) (2362271845232495,16) (-3722305368804221,16) (8975751471079908,16), (3337279193932527,18));
  (AB60 (-5080407296186237,17) (-7074131192908051,16) (7049720737913943,16) (2041238767256759,16) (6126562694163042,16) (-7635350276807069,16) (-9404945943744306,16) (-9475684987450081,17) (3263296758714055,16) (8143391006425693,16) (-2355225205830364,16) (-5304535525970814,16) (1769595666937237,16) (-3771337488332678,16) (9090959505170702,16), (3300349525618269,18));
  (AB60 (-233458592347525,17) (-6815877086410363,16) (731732700607283,15) (1848282624188547,16) (568800413834964,15) (-8014390822965902,16) (-9180038164765025,16) (-1127872948060723,16) (3801947120422693,16) (8037736682200655,16) (-1862711158692195,16) (-565022974461124,15) (1165647341799123,16) (-3825292979657446,16) (9165609630261378,16), (3242482356926607,18));
  (AB60 (-1614511254465001,16) (-7063673046744259,16) (6891870319289571,16) (1769784962640281,16) (6967708617532703,16) (-6951179598253295,16) (-9659478112408454,16) (-9596442921155518,18) (2585589569948819,16) (8565690852718297,16) (-2767607793118882,16) (-43553745325891,14) (2708298514155158,16) (-420010082441382,15) (8661655281929852,16), (3332539438787924,18));
  (AB60 (-1124843663516837,16) (-6873012300895776,16) (7176101214753132,16) (1624737338554499,16) (6564061018961406,16) (-7367043607856424,16) (-9496030169390985,16) (-3089512819343695,17) (3119288400806715,16) (8491887271373261,16) (-2319928954637854,16) (-4744025739361213,16) (2128986561534562,16) (-4244132064323552,16) (8800838553307631,16), (3297941236251998,18));
  (AB60 (-6370478867410324,17) (-665037304826029,15) (7440880882595281,16) (1462965750444431,16) (6139927736575886,16) (-7756353434614276,16) (-9297563879506963,16) (-5104453116844034,17) (3646196852923172,16) (8393401321355308,16) (-1856682996911682,16) (-5109162603367603,16) (1541210444892687,16) (-4283244739664204,16) (8903846633039711,16), (324100719380686,17));
  (AB60 (-1587781011044323,17) (-6390613270338871,16) (7689918825551957,16) (1276090195830375,16) (5700076419756896,16) (-8116694069695926,16) (-9064139284534038,16) (-6905368505819748,17) (4167077859670382,16) (8275472170800358,16) (-1374220458982082,16) (-5443168055500758,16) (9474452148381135,17) (-4325855960774815,16) (8966009021382332,16), (3147248723692747,18));
  (AB60 (-7624588528770679,17) (-6205733882026312,16) (7804327228092119,16) (8827678160310003,17) (6131378853645923,16) (-7850281162865663,16) (-9158320530224403,16) (-7435502838038897,18) (4014926698636572,16) (861274001574273,15) (-1353993302132284,16) (-4897694514667572,16) (130803936735874,15) (-4777385551513639,16) (868709504412312,15), (3147731229229724,18));
  (AB60 (-2951894049620979,17) (-5950945410620917,16) (8031133913402763,16) (707630470395824,16) (5696042813826655,16) (-8188672382042226,16) (-8921201469184019,16) (-2549025967942621,17) (45107858530833,14) (8483861787004324,16) (-8900675557812573,17) (-5218416323479124,16) (7325290871417935,17) (-4805975258045398,16) (8738764383798586,16), (298837786601641,17))].

(** ahrens_beylkin/ahrens_beylkin_4212.hpp:1-8442. *)
Definition ab_4212 : coded := [  (AB12 (5257311121191336,16) (8506508083520399,16), (2345001994494921,18));
  (AB60 (-3061589345256055,17) (-9391767207930638,16) (3420668855479713,16) (5793156536941241,16) (6000616193448594,16) (-5516515443413303,16) (-9403042019917233,16) (-3391151014482045,16) (-2879159055145315,17) (5822674377938909,16) (-5982373164437519,16) (-550524063142671,15) (3886526576503929,16) (-1824302901107407,18) (9213825392420955,16), (3098790516383725,18));
  (AB60 (-1200969354910379,16) (-9471471010477042,16) (2974711667751877,16) (5804105234938819,16) (6626576581785307,16) (-4732953119088583,16) (-9521056783472346,16) (-2844894428691734,16) (-112073788884554,15) (5933922473998962,16) (-6546345115720469,16) (-4683367346093279,16) (4788103664383763,16) (-8023146606483837,18) (8778816902690696,16), (305935097315286,17));
  (AB60 (-8872963796772675,17) (-9341649476302535,16) (3456340578778109,16) (5555193232065883,16) (645673056554772,15) (-5239318520411909,16) (-9559913131579274,16) (-2884918910754815,16) (-5341383669307129,17) (6126614900089177,16) (-6103572552801165,16) (-5021054865135169,16) (4320594611167365,16) (-3531580127465544,17) (9011533810843991,16), (3069876490466844,18));
  (AB60 (-5772977914738765,17) (-9179026239809313,16) (3925838069616663,16) (5284674356630422,16) (6269707524697834,16) (-5723895919661729,16) (-956730208300819,15) (-2909318715111479,16) (5094571983243079,18) (6301193711135606,16) (-5641464013391527,16) (-5335620076462853,16) (3843406163346461,16) (-6282435113063073,17) (9210512426247085,16), (3082952678926555,18));
  (AB60 (-2584502618377298,17) (-8989392322470572,16) (437310291839366,15) (5006154175677027,16) (6055149935196984,16) (-6186564444959369,16) (-9538988140287714,16) (-2934242387273588,16) (6308144514652002,17) (6445014706797099,16) (-5165885221894054,16) (-5636968627142227,16) (3352423695328345,16) (-8892647133029299,17) (9379257094070687,16), (3081894722643044,18));
  (AB60 (-2077259767836239,16) (-9445976354847513,16) (2541362343427365,16) (5729365657829119,16) (7188850784318229,16) (-3936342662890961,16) (-9554545141241995,16) (-2257125570529284,16) (-190159178133264,15) (60136024307272,14) (-701318279781463,15) (-3827773876496479,16) (5618202478351034,16) (-1756679865035993,17) (8270728001256483,16), (3063048851024909,18));
  (AB60 (-1762160938287203,16) (-9366228648410807,16) (3027961316341974,16) (5518919814840402,16) (704442397516306,15) (-4462915519647426,16) (-9635956484691274,16) (-2321804673247747,16) (-1325732131473442,16) (6225076457934628,16) (-6607995168349299,16) (-419318768336696,15) (5173040965043848,16) (-436428806813761,16) (8546881131182377,16), (3057296214147593,18));
  (AB60 (-1454178771124109,16) (-9251944339442068,16) (3505266044322152,16) (5282981226322028,16) (6885614285920707,16) (-496773844599871,15) (-9686979176917432,16) (-236633005352136,15) (-7502776177986822,17) (6421917217122819,16) (-6181713132595281,16) (-4532703608523345,16) (4719240730918722,16) (-7039011533254266,17) (8788247270644178,16), (303995862107536,17));
  (AB60 (-1154795566347194,16) (-9104515411343146,16) (3971680541604524,16) (5023015967492833,16) (6713823727459388,16) (-5449209258866405,16) (-9708399419157607,16) (-2390691683883757,16) (-1776907164408889,17) (66040048252136,14) (-5736718877553083,16) (-4845325251051944,16) (4259190160291202,16) (-9771048499063054,17) (8994696509097357,16), (3036679495210515,18));
  (AB60 (-8519482779782228,17) (-892837079263887,15) (4422485626975299,16) (4748694393614373,16) (6520049247646601,16) (-591091019761918,15) (-9697713013037157,16) (-2408321544992269,16) (3928735836065197,17) (6762858475597403,16) (-5275227386061858,16) (-5141567977220892,16) (3786802815417977,16) (-1244821861584742,16) (9171180020589672,16), (3052363438070173,18));
  (AB60 (-5298092389024951,17) (-8729588745198675,16) (4849080583994678,16) (4474125298174935,16) (6291867358196264,16) (-6355675256264706,16) (-9650645999365068,16) (-2437721387002413,16) (9604927039233783,17) (68854844951672,14) (-480156541537039,15) (-5434618002098313,16) (3294970743100363,16) (-1490301942825873,16) (9323205882169613,16), (3054391835788569,18));
  (AB60 (-1838793076534282,17) (-8512097701326725,16) (5245033948725706,16) (4207092892811584,16) (6025614961698665,16) (-6781764794255802,16) (-9565770503494908,16) (-248648273962806,15) (1520999099276035,16) (6965644101909231,16) (-4320736554769202,16) (-5728091992087619,16) (2784005709239106,16) (-1704878406929464,16) (9452126841537291,16), (3045175413042902,18));
  (AB60 (-2941074890170618,16) (-9327704267540228,16) (2084229255077211,16) (5595314520613007,16) (7687293961639872,16) (-3098058579619243,16) (-9497228021274524,16) (-1640410305900357,16) (-266677969472806,15) (6039133469789861,16) (-7412998766197313,16) (-2928534825884948,16) (639916944165528,15) (-274295195442558,16) (7679543775690219,16), (3055067309509787,18));
  (AB60 (-2636217128419206,16) (-9294206774811788,16) (2582262511611059,16) (541340408070812,15) (7577810845184507,16) (-3643053534272692,16) (-9624938379406894,16) (-1716395929627281,16) (-2101082151030533,16) (6279270662691897,16) (-7042675867795835,16) (-3312321929677586,16) (5981884845134202,16) (-5351349773886724,17) (7995666592319178,16), (3085523479561022,18));
  (AB60 (-2323754107973341,16) (-9228201932642621,16) (3072532495523525,16) (5211426433157492,16) (7443522287306377,16) (-4175525175371432,16) (-9720117948905735,16) (-1784679645336244,16) (-1527817274049176,16) (6499279283344773,16) (-6647585453382211,16) (-3683609159108317,16) (5544592773534304,16) (-7959368339241657,17) (8283958928681018,16), (3083508403683242,18));
  (AB60 (-2015896334613739,16) (-9127726958014428,16) (3552571258683991,16) (4985254373412208,16) (7292562765269246,16) (-4686765104737277,16) (-9783718084683821,16) (-1835164192745183,16) (-954480395344324,16) (6702661439351016,16) (-623114682599983,15) (-4030773978067884,16) (5096952979946544,16) (-1061415939269415,16) (85378256320962,14), (3053559671005931,18));
  (AB60 (-1719442558110885,16) (-8993623635358055,16) (40197327267974,14) (4734791027310365,16) (713003579346781,15) (-5171493354106637,16) (-9817197696723359,16) (-1863587841890244,16) (-386871734569032,16) (6890935912217521,16) (-5797464969925958,16) (-4347919292741333,16) (4645704342616722,16) (-1332570823541853,16) (8754523754107766,16), (3014136745205444,18));
  (AB60 (-1428042634628778,16) (-8830154689280482,16) (4470912926580032,16) (446699930050526,15) (6951976179430757,16) (-5631691082606791,16) (-9820491112669825,16) (-1878178509849724,16) (1743553587121866,17) (7059733717235569,16) (-5349578186089793,16) (-4641354659217447,16) (4188800030063034,16) (-1602397993340964,16) (8937912227085293,16), (3002568370920062,18));
  (AB60 (-1123193339611378,16) (-8643532319969354,16) (490181453703604,15) (4194771439857635,16) (6745192654917335,16) (-6075052972230278,16) (-9790757636711011,16) (-1898339665052018,16) (7330562156309862,17) (7198246311841656,16) (-4888943099674971,16) (-4927827655488621,16) (3715704664480732,16) (-1856249555242365,16) (9096585976893675,16), (301424239913949,17));
  (AB60 (-7935405024012832,17) (-8438508771814649,16) (5306775214671895,16) (3928291895277339,16) (6501125864736171,16) (-6504143700469474,16) (-9725502111882894,16) (-1937382907078477,16) (128885846512389,15) (7297684202870757,16) (-4418726897210999,16) (-5217150360401228,16) (3221358411413421,16) (-2082398967525172,16) (9235067109949234,16), (301497418052659,17));
  (AB60 (-442515729247077,16) (-8215071827328586,16) (5684784490304016,16) (3666995592552102,16) (6222233675766465,16) (-691642620204692,15) (-9625269844087257,16) (-199283815156212,15) (1839232592736147,16) (7358941931293997,16) (-3940485353783242,16) (-5506228185288249,16) (2708843642040337,16) (-2281748321983224,16) (9351780082856118,16), (3020577597921571,18));
  (AB60 (-8313091230969946,18) (-7964355141937142,16) (6046663247156895,16) (3394278170824606,16) (5917953594418894,16) (-7311408958153555,16) (-9492319147304682,16) (-2046401547518247,16) (2389166781961408,16) (7394539870463254,16) (-3445655900147788,16) (-5783444952786014,16) (2180910189151128,16) (-2472297694271108,16) (9440941417981501,16), (3047215422602679,18));
  (AB60 (-3747643950189459,16) (-9133474462922486,16) (1592108368720905,16) (5434996204358433,16) (8090633418852309,16) (-2236619578819702,16) (-9343275912029342,16) (-1042841044070177,16) (-3408178074645586,16) (5984263529009161,16) (-7751167543308437,16) (-2026818129712847,16) (710665633320964,15) (-3394658755438726,17) (7027104573079338,16), (2962506730620492,18));
  (AB60 (-3491386990154831,16) (-9132057909034754,16) (2101365087511778,16) (5258409584371935,16) (803997788691957,15) (-2776307659613698,16) (-9517570499678593,16) (-1092080022115184,16) (-2867614515402075,16) (6267694649768529,16) (-7416205412166815,16) (-239079506896986,15) (6741262840064894,16) (-6237724747527554,17) (7359774671883713,16), (3040457432078244,18));
  (AB60 (-319776161762363,15) (-9110878422018267,16) (2601194920811404,16) (5082095332885456,16) (7946296139839092,16) (-3320946353894055,16) (-9659615621308107,16) (-1164582282179175,16) (-2309886178281242,16) (6518707971517685,16) (-7058420700496704,16) (-2772209154604214,16) (6338669267414052,16) (-8878754393423878,17) (7683290253696859,16), (3081153272471859,18));
  (AB60 (-2890690897360575,16) (-9059556692958155,16) (3093273131004407,16) (4889426147834857,16) (7824270373652514,16) (-3856722062173048,16) (-9769244504378033,16) (-123528631930564,15) (-1742391897081687,16) (6747412959533624,16) (-6675971373373626,16) (-314703425075317,15) (5912522442204985,16) (-1148299000278889,16) (7982699278839264,16), (3090156875278062,18));
  (AB60 (-2583598935295636,16) (-8974156330793988,16) (3576245893672506,16) (4673746057298233,16) (7682374367908609,16) (-4374611052789725,16) (-9846743906281482,16) (-1291781962885378,16) (-1171722579996004,16) (6958209988085361,16) (-6270498012608977,16) (-3502023477302229,16) (5472132853491758,16) (-1411876355299632,16) (8249991950970739,16), (3070282652872691,18));
  (AB60 (-2285899120804678,16) (-8854118818567898,16) (4047128013318361,16) (4433186912021884,16) (7527021979967976,16) (-4867318965935645,16) (-9893078276851037,16) (-1327096838599921,16) (-6048274043693787,17) (7153218086740324,16) (-5845950263532677,16) (-3828359507652505,16) (5025759310915392,16) (-16810717164353,14) (8480314925340244,16), (3025124212057419,18));
  (AB60 (-1998639392452551,16) (-8702670906008158,16) (4502106138315272,16) (4171942052360326,16) (7359495994344599,16) (-5332233886559489,16) (-9909275266465715,16) (-1343174911663559,16) (-4631252625839375,18) (733087327901204,15) (-5407169128150442,16) (-4125629526101932,16) (4577041379906225,16) (-1952326866194157,16) (8674048190675598,16), (2981055639057455,18));
  (AB60 (-1707303836626022,16) (-8527161420464441,16) (4936864563544854,16) (3902600321082733,16) (7170393577687039,16) (-5775393205224162,16) (-9894636684785566,16) (-1356767842777402,16) (5053176198203042,17) (7482697041850185,16) (-4957772121240712,16) (-4407917940903037,16) (4119243479561404,16) (-2212621456446326,16) (8839464884627587,16), (2968644515721451,18));
  (AB60 (-1395025896487494,16) (-8333860670247363,16) (5347959337638372,16) (3637168532556139,16) (6948140313531654,16) (-6204381616991308,16) (-9847301289410073,16) (-1385720356715708,16) (1053772465272458,16) (7599407513478802,16) (-4499341951771702,16) (-4690940997828597,16) (3642919672418766,16) (-2448798361759952,16) (898512787019451,15), (297141979218902,17));
  (AB60 (-10586255153586,14) (-8124602893858047,16) (5733248628425702,16) (3379184224541442,16) (6690418738693468,16) (-6619623182443964,16) (-9766699402816632,16) (-1434184155164579,16) (1598342448943937,16) (7678248697802564,16) (-403345077439093,15) (-4977526673485379,16) (3147076220372668,16) (-2656967964302537,16) (9112432852967144,16), (2973553883565535,18));
  (AB60 (-7056368367870146,17) (-7895455925185286,16) (6096216235340227,16) (3121396129718988,16) (6402434573514914,16) (-7018954176601827,16) (-9653719913907552,16) (-1493021351670373,16) (2139294058160573,16) (7724591013388842,16) (-3557503678567325,16) (-5260690187879561,16) (2634765737305725,16) (-2844930894947588,16) (9217612365059215,16), (2987894054467447,18));
  (AB60 (-3493248554626768,17) (-7637256248316695,16) (6445951376088993,16) (2847747090344424,16) (6093146388911302,16) (-7400263751565347,16) (-9509593100224496,16) (-1544109859405393,16) (2680179809313122,16) (7749588607028024,16) (-3063641724135503,16) (-5527926899657547,16) (2109329348659149,16) (-3029504664775799,16) (9293698466433417,16), (2997916682581637,18));
  (AB60 (1904169564997186,19) (-7348255218722942,16) (6782561582075707,16) (2554170980669159,16) (5768513898079241,16) (-775889541166616,15) (-9335555721233354,16) (-1579741320643702,16) (3217423928486589,16) (7756991242101163,16) (-2552994139157648,16) (-5771594909155748,16) (1576660309567194,16) (-3215519758921592,16) (9336732562744866,16), (2974266715916417,18));
  (AB60 (-4441760446844139,16) (-889729097712712,15) (1053079959539301,16) (5298940161607772,16) (8367524778936254,16) (-1380493476112069,16) (-9097179047181672,16) (-5297661981908656,17) (-4118334755550254,16) (5822253922956208,16) (-804409908764237,15) (-1180605406057518,16) (7716685571069603,16) (-3234256912938841,17) (6352020121147073,16), (2999700478990782,18));
  (AB60 (-4267376914514366,16) (-8904221440296628,16) (1582509024186494,16) (509371996679623,15) (8393513347619105,16) (-1898143983790835,16) (-9313612966959257,16) (-5107080926775227,17) (-3604967509668024,16) (6165520898305201,16) (-7731103942772762,16) (-1488752457128206,16) (7415468983168422,16) (-6624094048463426,17) (6676228990982724,16), (2981368043306568,18));
  (AB60 (-4031901635434124,16) (-8906987453147935,16) (2099843735054797,16) (4910056225756424,16) (8364258068952015,16) (-2435268941181176,16) (-9501752210805797,16) (-542729384195921,16) (-306955204223311,15) (6467170576615301,16) (-7401908475751,13) (-1840504183523315,16) (7066483269624622,16) (-9623495932010147,17) (7009899960811221,16), (3025177220981936,18));
  (AB60 (-3753831130273204,16) (-8895687028814611,16) (2602979856005669,16) (4735274441680831,16) (828912170433345,15) (-2977857842932135,16) (-9658249524222774,16) (-6065653244811604,17) (-251997909415686,15) (6731688973205339,16) (-7055269668217106,16) (-2215295347523971,16) (6680391681290639,16) (-1233852036116344,16) (73382542976865,14), (3056212003434318,18));
  (AB60 (-345619502223474,15) (-8858892671531824,16) (3094307128027135,16) (4551818160854723,16) (8181760333003837,16) (-3512797928119131,16) (-9782171284371126,16) (-677132338527987,16) (-1962298845574894,16) (6968992950353872,16) (-6687864156343991,16) (-2589519315279829,16) (6269373356251995,16) (-1493896176659846,16) (7646125288881859,16), (3064364573293454,18));
  (AB60 (-315388799481286,15) (-8790069956013774,16) (3575983876440068,16) (4348719049187456,16) (80516237535964,14) (-403236872839729,15) (-9873912903132123,16) (-7384462024173744,17) (-1400193267908516,16) (7186256723210149,16) (-6297929026692055,16) (-2948525781278941,16) (5841544174734833,16) (-1753694726904344,16) (7924702925627524,16), (3051077659798312,18));
  (AB60 (-2857287425976334,16) (-8686795240666406,16) (4046664924612984,16) (4121482141607505,16) (7905479938008335,16) (-4529544337586083,16) (-9934047811101563,16) (-7813153026580716,17) (-8391903744565789,17) (7386831763562417,16) (-5887382886488579,16) (-3282291767150927,16) (540450347351548,15) (-2018097051519755,16) (8168147066220489,16), (3014487838147607,18));
  (AB60 (-2571627022671312,16) (-8550263188661864,16) (4503302550449007,16) (3870980497582188,16) (7747218577766659,16) (-4999611414464678,16) (-9963635954429763,16) (-8030446108952052,17) (-2847418488854088,17) (757123843713599,15) (-5460333403980756,16) (-358623864869678,15) (4964024539965085,16) (-2286885173785903,16) (8374283048031196,16), (2965671880309308,18));
  (AB60 (-228963683101588,15) (-8386442815903788,16) (4942179688925857,16) (3606148224226218,16) (7572794028323322,16) (-5445042294555729,16) (-9963401296613489,16) (-8136487875804665,17) (2619355896198102,17) (773467912557161,15) (-5021221607687631,16) (-3868083813846029,16) (451835900205776,15) (-255157242063569,15) (8548327913152076,16), (2934942937678525,18));
  (AB60 (-1993460492149504,16) (-8204159145414345,16) (5358907349726549,16) (3341837328644333,16) (7370816430817481,16) (-5873941471624514,16) (-9932771017749368,16) (-8333427145968636,17) (8034922706451582,17) (7867401963774018,16) (-4573863668022819,16) (-4145329599289491,16) (4058829546124854,16) (-2796952762794662,16) (8700744678370882,16), (2923996777527399,18));
  (AB60 (-1674608789155717,16) (-8007634606193637,16) (5750954131009264,16) (308535284087219,15) (7135746832806116,16) (-6289810409338217,16) (-9871272121438993,16) (-8718877733875197,17) (1340820053220671,16) (7964419198493934,16) (-4120317990429729,16) (-442617289409286,15) (3581461712100776,16) (-3015428842376388,16) (8836306971881454,16), (2917001475568166,18));
  (AB60 (-1336171130438035,16) (-7796586866948285,16) (6117832944459456,16) (2835755214553425,16) (6869792933976593,16) (-6690623095603154,16) (-9779387332409956,16) (-9267939329716923,17) (1872067415588059,16) (8026794226041188,16) (-3661554387950499,16) (-4707822630141484,16) (3088764236806801,16) (-3208238546026094,16) (8953588159012881,16), (2904333495940162,18));
  (AB60 (-9891545784846213,17) (-7566486802078355,16) (6462959901920867,16) (2584270884819169,16) (6580650708754415,16) (-7072240114931475,16) (-9658561936371107,16) (-9858360933239398,17) (2395894095819553,16) (8061394693416096,16) (-3195602034450241,16) (-4980164980638722,16) (2586321821439632,16) (-3385048674304175,16) (9047230786740036,16), (2882137437333551,18));
  (AB60 (-6463849537623932,17) (-7311418414448747,16) (6791564419219577,16) (2319535605044337,16) (6277354443657484,16) (-7430651099710257,16) (-9510587895505602,16) (-1034063970791264,16) (2911946013609065,16) (807703605347265,15) (-2719023476286025,16) (-5231481618653402,16) (2079936795795345,16) (-3558330967371459,16) (9111100024263914,16), (284818962047236,17));
  (AB60 (-3113256649292487,17) (-7029489761047241,16) (7105585832968903,16) (2037978840739237,16) (596235941161372,15) (-776510865934537,15) (-9335974516204576,16) (-106713034943352,15) (3420645063448798,16) (8076434324274618,16) (-2230388683235673,16) (-5458623904188035,16) (1570865856859206,16) (-3731970728378047,16) (9143564673708139,16), (2851082279813266,18));
  (AB60 (108214526646573,17) (-6709255953824663,16) (7415238866161395,16) (1723626665951956,16) (5637308064796287,16) (-8077739095749632,16) (-9132177506558945,16) (-1071947889028376,16) (3931190877063395,16) (8066917643084975,16) (-1716938640397549,16) (-5654817543015351,16) (1054438410809312,16) (-3920369424398738,16) (913886553211335,15), (2929200603162611,18));
  (AB60 (-5085216392367836,16) (-8596748458035938,16) (4863025725309136,17) (5140346027336519,16) (8562676469837917,16) (-5073602193015756,17) (-8769485170498876,16) (-3407198819802063,18) (-4805722520497883,16) (5592576611669412,16) (-8283182597967963,16) (-3346235068386362,17) (82621249511973,14) (-2794938718699535,17) (5626648599867432,16), (287858161655355,17));
  (AB60 (-4942008534528564,16) (-8633939870123964,16) (1015693833657871,16) (4949992542997422,16) (8629005481523743,16) (-1018743453526509,16) (-9020015623686004,16) (-4934388600221773,19) (-4317324843032954,16) (5960751988055072,16) (-8004321790028133,16) (-6326676999644683,17) (8001272170159496,16) (-6246836914956094,17) (5965686376655294,16), (2971014313798587,18));
  (AB60 (-4778134509941324,16) (-8647352447707013,16) (1546843964349124,16) (474590833938893,15) (8667269316435643,16) (-1534534662525361,16) (-9245801833700615,16) (1991686872863025,18) (-3809823062857171,16) (6312669172466685,16) (-769895786935149,15) (-9360852765317593,17) (7711267171175253,16) (-9683114470841529,17) (6292752303738054,16), (2969109839945312,18));
  (AB60 (-4564064118883936,16) (-8654410365000966,16) (2066518800514534,16) (455793228517115,15) (8658200046648832,16) (-2064176648449612,16) (-9445197837989797,16) (3789681647864562,19) (-3284543109710369,16) (6628240767333549,16) (-7378679037475263,16) (-1273389175460781,16) (7381021189540186,16) (-1279521009173568,16) (6624451085685684,16), (2982872841497829,18));
  (AB60 (-4308351141837586,16) (-8650728107716533,16) (2569632978654714,16) (4382415842969826,16) (8604953605050206,16) (-2597923177120627,16) (-9614756262749586,16) (-4577450266632731,18) (-2748520820882253,16) (6906274318958212,16) (-7045123284094873,16) (-1633895022087573,16) (701683308562896,15) (-1559830320955333,16) (695204882162454,15), (2983313100254945,18));
  (AB60 (-402987319490164,15) (-8627797772816074,16) (3053068558745977,16) (4208201440464866,16) (8517584855903864,16) (-3121183887396992,16) (-9751868604012186,16) (-1102129169122111,17) (-2211088384263986,16) (7151057082298632,16) (-6698800045266209,16) (-199711305620088,15) (6630684716615194,16) (-1818784810637654,16) (7261269999210843,16), (2955509148778281,18));
  (AB60 (-3744579724545211,16) (-8579254215540114,16) (3517743565364323,16) (4024751905076369,16) (8406098285269686,16) (-3624759815625054,16) (-9856773013793352,16) (-1731559302704276,17) (-1677510887704552,16) (7369339540170264,16) (-6339029448429029,16) (-2347241017371817,16) (6232013198168297,16) (-2067068836840658,16) (7542495470440692,16), (2892209641208138,18));
  (AB60 (-346682436923746,15) (-8502196172453921,16) (3961538720998596,16) (3826344185917973,16) (8280000706116233,16) (-409886307134142,15) (-9930498200131733,16) (-2221954663376881,17) (-1155783142254365,16) (756568744057888,15) (-5968959479133138,16) (-2670561043663607,16) (5831635128790313,16) (-2311041226983094,16) (7787882906916568,16), (2777601382373596,18));
  (AB60 (-3205967177604628,16) (-8399061510868154,16) (4379216846968755,16) (3614676734320366,16) (8146465113290926,16) (-4535330006107264,16) (-9975290263865352,16) (-252596397577229,16) (-6555754812103,14) (7741297183711893,16) (-5596073416896598,16) (-2959101253110066,16) (5439960257758089,16) (-2550391696394328,16) (7993893581289121,16), (2647305678343234,18));
  (AB60 (-29568207860893,14) (-8271727418239464,16) (4778675167585232,16) (3388922598177634,16) (8004673811768453,16) (-4943723373202556,16) (-9995013510208236,16) (-2670536064710104,17) (-1684853169438498,17) (7900544159291856,16) (-5216338342623004,16) (-3220437281233784,16) (505129013700568,15) (-278833546914545,15) (8167597765762866,16), (2643990262967149,18));
  (AB60 (-2698001283908449,16) (-8118257830232948,16) (5178289184073229,16) (3144935709766188,16) (7842037164310445,16) (-5349002944008466,16) (-9990681388985695,16) (-2762206659225028,17) (331643675489531,16) (8047004227916915,16) (-4812392204912465,16) (-3476579385255719,16) (4641678444977228,16) (-302964495939798,15) (8323224893839418,16), (2764092319973689,18));
  (AB60 (-2410792967048164,16) (-7941973760878696,16) (5577914489443651,16) (289125849997147,15) (7645029731109261,16) (-5761435992597521,16) (-995912498289009,15) (-2969440297694346,17) (8530262706146576,17) (8172228959645685,16) (-438121049344644,15) (-3744284770586127,16) (4197688990292568,16) (-3263819237662821,16) (846917298941512,15), (2868709894028195,18));
  (AB60 (-2092641879513182,16) (-7747187118409081,16) (5966736270061208,16) (2637575998454716,16) (7410399311273735,16) (-6174882581867396,16) (-9897636076336533,16) (-3367878071353456,17) (1386857625485228,16) (8267524461380579,16) (-3930899806275325,16) (-4024433623939944,16) (3722753494469137,16) (-347949950499841,15) (8604312268515925,16), (2926995534340048,18));
  (AB60 (-1748844139754736,16) (-7534625083133027,16) (6338057196923056,16) (2386188580339594,16) (7140724556310798,16) (-6581501110685684,16) (-9805090896657147,16) (-3939005268222299,17) (192484671682197,15) (8330345250440419,16) (-3467033699734092,16) (-4311035297161563,16) (3223589785971464,16) (-3673690856576706,16) (8724245777262649,16), (2962478209025842,18));
  (AB60 (-1389688335662564,16) (-7299246282840467,16) (6692515971752555,16) (2129518990465456,16) (6842005792253188,16) (-6975106135968169,16) (-9680909587426747,16) (-457240490587278,16) (2463923840916433,16) (8364794471630733,16) (-2988393615674192,16) (-4593442831381888,16) (2705803451458578,16) (-3853612176578996,16) (8822034962218011,16), (2990135434767054,18));
  (AB60 (-1027143689751608,16) (-7032863206878491,16) (7034473040245319,16) (1855064477558097,16) (6521180020021492,16) (-7350710641194809,16) (-9524347229399887,16) (-5116831868569994,17) (3004162141115317,16) (8377854330946417,16) (-2489874189154567,16) (-4859226618673414,16) (2173636588205078,16) (-4031305830866925,16) (8889537517803416,16), (3011990504349183,18));
  (AB60 (-6712177349165113,17) (-672988369054933,15) (7366011964693764,16) (1554166606459255,16) (6184191277607549,16) (-7703268423294727,16) (-933501394518314,15) (-5456924129417803,17) (3543971562201662,16) (8374486158211238,16) (-1969001980489376,16) (-5098138168660917,16) (1631745521888413,16) (-4215189297118173,16) (8920178571153019,16), (3041911018536609,18));
  (AB60 (-3390372785292847,17) (-6385456012601483,16) (7688368177636854,16) (1216990061417679,16) (5842851352258898,16) (-8023716300182663,16) (-9114894800638896,16) (-542604660342585,16) (407728745072757,15) (8362753578711948,16) (-1426526623002042,16) (-529427751214525,15) (1091178500456233,16) (-4416324729256855,16) (8905358239054533,16), (3051946204774841,18));
  (AB60 (-2971369752665856,18) (-6011233280799907,16) (7991507463550471,16) (8582541120427051,17) (5499167143576064,16) (-8307981740842674,16) (-8868125650596085,16) (-5120661372238435,17) (4592835259003791,16) (8337695438369332,16) (-8766181870456138,17) (-5451089371046496,16) (5601439097534108,17) (-462254895653045,15) (8849761575593176,16), (3044213280259561,18))].

(** ahrens_beylkin/ahrens_beylkin_4332.hpp:1-8682. *)
Definition ab_4332 : coded := [  (AB12 (5257311121191336,16) (8506508083520399,16), (2080378304778078,18));
  (AB60 (-4985435445460376,16) (-8660517844932271,16) (3753186336394789,17) (527826252281147,15) (8479540758302999,16) (-4871686243613024,17) (-8734749710463935,16) (-1809770866292707,17) (-4865325763981832,16) (5472604069821678,16) (-8359431076824455,16) (-4129367588296384,17) (8247581086102632,16) (-1201096814785442,17) (565358115645095,15), (2459121993374715,18));
  (AB60 (-4660892243195316,16) (-8816389527205212,16) (7398372806962339,17) (5322395404092484,16) (8407558090105272,16) (-9925090044934613,17) (-8942822508984164,16) (-4088314370999396,17) (-4456319381377975,16) (5653401247688778,16) (-820298522828793,15) (-8660760227145085,17) (7950313504490702,16) (-2045728618173416,17) (6062232684788718,16), (258781110101897,17));
  (AB60 (-4290287914041648,16) (-896922445849763,15) (1070720424628234,16) (5395122924773588,16) (8286398869904437,16) (-149272984676698,15) (-9117387101802448,16) (-6828255885931933,17) (-4050555721311426,16) (5783017760808629,16) (-8046666677174213,16) (-1344567203462162,16) (7624657255035467,16) (-2397321927302225,17) (6465843349401822,16), (2617223575233826,18));
  (AB60 (-3886078097443399,16) (-9111659535501934,16) (1369692494564886,16) (5485776990318888,16) (8122991247939304,16) (-1980723099877746,16) (-925719783204032,15) (-9886682875626292,17) (-3650592186979528,16) (5866801197321144,16) (-7887505337475433,16) (-1835184803339359,16) (7276474732162574,16) (-2354859104638706,17) (6855469484883774,16), (2666468157993572,18));
  (AB60 (-3460080407692851,16) (-9233447799940869,16) (1664717783309588,16) (5568433647290452,16) (7930413837578602,16) (-2470037060544921,16) (-9371598726361815,16) (-1303033962362268,16) (-3236547513166476,16) (5930117468237771,16) (-7706880943052227,16) (-2331886134123976,16) (6901561665816894,16) (-2235328945263747,17) (723315143060004,15), (2778054570269107,18));
  (AB60 (-3016312288656035,16) (-9329236979719931,16) (1966519146494311,16) (5632159930360769,16) (771255422775515,15) (-2965684036234262,16) (-9462862591928494,16) (-1616682751964782,16) (-2800101506335069,16) (5981996324890297,16) (-7496343445434183,16) (-28320584240257,14) (6497178555694232,16) (-2162107823209664,17) (759867907685508,15), (2867804303438902,18));
  (AB60 (-2557844320149799,16) (-9397999040897814,16) (2266064090258964,16) (5679691528184584,16) (7468591358648352,16) (-3458503616044288,16) (-9526590346226992,16) (-1929407682249461,16) (-2349779217469474,16) (6016347936194087,16) (-7260526255968027,16) (-332991231071511,15) (6068086730182704,16) (-2080651026803251,17) (7945755618443548,16), (2909127171333852,18));
  (AB60 (-2089682043855031,16) (-9438279279216948,16) (2559709593507409,16) (5710126273398357,16) (7200721690985746,16) (-3942596234819533,16) (-9561330395688524,16) (-2237557588231201,16) (-18905811550504,14) (6032278278674564,16) (-7001620802181114,16) (-3819545118347957,16) (5618734160868991,16) (-1991008888046319,17) (8269835866905766,16), (2931601647133324,18));
  (AB60 (-1617335139535475,16) (-9446356898932999,16) (2854920031175074,16) (5715019206864048,16) (6913848870165028,16) (-4420096069735677,16) (-95695073254716,14) (-2532508028767971,16) (-1418073563666972,16) (6037431209271152,16) (-6714587294296526,16) (-4296945643197076,16) (5149411255735923,16) (-1992615758685028,17) (8569939238039123,16), (296340115750212,17));
  (AB60 (-1145633623577745,16) (-9417681956646051,16) (3161453805449563,16) (5684317588807306,16) (6612621001940037,16) (-489507681597311,15) (-9553811912282618,16) (-2805060954706015,16) (-9253707284707639,17) (6040710439550855,16) (-6392358106833056,16) (-4758946860336543,16) (4658735096309509,16) (-220262895106981,16) (8845771394256869,16), (2995150733639718,18));
  (AB60 (-6775889719373693,17) (-9349444735630239,16) (3482636403718435,16) (5613154969705337,16) (6299097195291348,16) (-5367854861147511,16) (-9514564388483164,16) (-3050347540338892,16) (-4104197614107519,17) (604544383308488,15) (-603192798476473,15) (-5202735208294585,16) (4146709527335654,16) (-2671692105266173,17) (9095791373423772,16), (3005878146939052,18));
  (AB60 (-2102390745006838,17) (-9241449903505926,16) (3814630154096648,16) (5504207500650317,16) (5969597480776665,16) (-583674615751702,15) (-9448772548551707,16) (-3271852422729261,16) (1252160118209212,17) (6046985232017703,16) (-5634142394455061,16) (-5629423512471238,16) (3612026391034688,16) (-335455086321605,16) (9318837654746963,16), (3000641605755183,18));
  (AB60 (-4824738903917982,16) (-8674665224814295,16) (1213292110918827,16) (4920379217196112,16) (8615556260513723,16) (-1249823459896385,16) (-9115523957580165,16) (-5910896430057204,18) (-4111414490065597,16) (6074562363814366,16) (-7902231846661338,16) (-8089647271305145,17) (7865700497683781,16) (-7133244138523848,17) (6133671328114939,16), (2635661982841063,18));
  (AB60 (-4433041647720216,16) (-8829123768424292,16) (1547486746768212,16) (4999282594793459,16) (8479167617311097,16) (-176377154272826,15) (-9286539753396601,16) (-3499561511131943,17) (-3692927037037508,16) (6196813190448476,16) (-773905300662839,15) (-130635555775595,15) (7522768210668341,16) (-7401146106827078,17) (654676934156167,15), (2674188389605954,18));
  (AB60 (-4012179817398572,16) (-8968933780290324,16) (1860279537496095,16) (5086048332866033,16) (8305246538283041,16) (-2270460810956273,16) (-9425991366490792,16) (-6636872420072829,17) (-3272645108110229,16) (6282640628354845,16) (-7565711828994698,16) (-1813403224755804,16) (7155530555534519,16) (-7395347092883432,17) (6946327870362128,16), (2779022167612822,18));
  (AB60 (-3572707109826694,16) (-9083583504266283,16) (2173539654208146,16) (5157976384810637,16) (8103833211005302,16) (-2779058635931109,16) (-9539570464740084,16) (-9797502932609806,17) (-2834904709353329,16) (6351765745757804,16) (-7366030810531937,16) (-2323071675457308,16) (6760511828808975,16) (-7378024004733648,17) (7331516039018784,16), (287466773364371,17));
  (AB60 (-3119462318226164,16) (-9170171442098535,16) (2485339125288042,16) (5212188105701357,16) (7876795776305476,16) (-3284689246970177,16) (-9625460970277709,16) (-1293375665793058,16) (-2382788386910356,16) (6404151565196341,16) (-7140121844989668,16) (-2829399718791002,16) (6340771723307532,16) (-7366739313158086,17) (7697527230989399,16), (2920270071314087,18));
  (AB60 (-2655236639260804,16) (-9229052911388893,16) (2788243308664288,16) (5251825747348446,16) (7624272587772957,16) (-3780052093135993,16) (-9681095547249955,16) (-1604780323615937,16) (-1923816290073515,16) (6435288732396798,16) (-6892852238585667,16) (-3328009457274931,16) (5901043454113962,16) (-7314203491872895,17) (8040069056012734,16), (2941958482731595,18));
  (AB60 (-2183653197831419,16) (-925818367314432,15) (3085075977334199,16) (5272703992000222,16) (7349045289373145,16) (-4264988387731826,16) (-9707351865236635,16) (-1909138383771175,16) (-1456883796360711,16) (6448641585563245,16) (-6622275887902437,16) (-381582019563951,15) (5442363477504809,16) (-7267694014707082,17) (835777996933442,15), (2970910550659907,18));
  (AB60 (-1709343532982349,16) (-9252831477591376,16) (3385742803809176,16) (5264610308637832,16) (705555577116304,15) (-4743733873036323,16) (-9706785514279925,16) (-2197275706428336,16) (-9748304722900585,17) (6453077406018671,16) (-632104271047075,15) (-4289779836347773,16) (4963051641243603,16) (-7345130606922902,17) (8650353112447007,16), (3005538120824097,18));
  (AB60 (-1235867086795385,16) (-9209242681272233,16) (3696279451179215,16) (5220390176274304,16) (6746671983015522,16) (-5218231842401423,16) (-9680477492670383,16) (-2462570698256711,16) (-473393145271031,16) (6454098929196808,16) (-5984198041491168,16) (-4746997031003273,16) (4462245650268959,16) (-7624739415243535,17) (8916669627453518,16), (3022791184596215,18));
  (AB60 (-7615714731217971,17) (-9126686965496026,16) (401541952044516,15) (5140596569578225,16) (6420300618297167,16) (-5688058269702729,16) (-9626693145274983,16) (-2706386347198859,16) (474555203455464,17) (6449629742824526,16) (-5611273624829823,16) (-5188052089923771,16) (3938634875572254,16) (-8090269934673434,17) (9156016090023386,16), (3015113061819872,18));
  (AB60 (-2784754390151892,17) (-9005624284231298,16) (4338338700600591,16) (5030480097426828,16) (606872389063507,15) (-6153442965416003,16) (-9540926084370855,16) (-2936900393596227,16) (5876610678496174,17) (6431918404431193,16) (-5202587383770264,16) (-5618141165276446,16) (3387483118954852,16) (-8661365068648066,17) (936881879802742,15), (2998231142666659,18));
  (AB60 (-4539778362329451,16) (-8674489358841152,16) (2035594946023633,16) (4597143171159849,16) (8639035957225826,16) (-2057506353238705,16) (-9438475446494418,16) (-3545340161532596,18) (-330362290557441,15) (6597284715568156,16) (-7402880500470784,16) (-1293520265585439,16) (7380969093255713,16) (-1236155456755041,16) (6632738117183482,16), (2767825022234254,18));
  (AB60 (-4107526790117091,16) (-8805093529141848,16) (2366125865530984,16) (4671111786374585,16) (8456778845905234,16) (-2581396178551864,16) (-9575828817898687,16) (-3483146832366136,17) (-2860450896579561,16) (6688922968668956,16) (-7209702952367704,16) (-1810660889795025,16) (6994432639346823,16) (-1247075893537531,16) (7037237651905569,16), (2866529069773908,18));
  (AB60 (-3660547093644381,16) (-8908214019245092,16) (2691489914998174,16) (4729980312953412,16) (824726794101389,15) (-3099977056076003,16) (-9683812749243457,16) (-6609460782312016,17) (-2405601986875774,16) (6760524149720384,16) (-6992322834245284,16) (-2324378326077638,16) (6583835693167454,16) (-1254945106768607,16) (7421470227951585,16), (2926114685572973,18));
  (AB60 (-3201422453678521,16) (-898354684700404,15) (3007786614899196,16) (477465481717994,15) (8011235774158834,16) (-3608707905555408,16) (-9761029320799548,16) (-9723110728452064,17) (-194342938542004,15) (681013035923393,15) (-6753242705900353,16) (-28312254317599,14) (615232141524414,15) (-1257993068258481,16) (7782441432079136,16), (2952905137234273,18));
  (AB60 (-2732889488134307,16) (-903073991186172,15) (3313163396205019,16) (4804931066791585,16) (7750147790148534,16) (-4104612853149111,16) (-9807113054160909,16) (-1280592121713186,16) (-1476691355941662,16) (6837502341283418,16) (-6493949657955889,16) (-3328239710849923,16) (5702500201011798,16) (-1256198132192645,16) (8118094462996605,16), (2975746528888866,18));
  (AB60 (-2259290880375499,16) (-9046161510206109,16) (3614217294120215,16) (4813230471284808,16) (7467740037810153,16) (-4589735412633569,16) (-9823766319949754,16) (-1578421472395956,16) (-1001099868394884,16) (6849026293009067,16) (-6209549025829539,16) (-3812130602889924,16) (5234030907316185,16) (-1258191011980614,16) (8427447765405023,16), (3005440760380053,18));
  (AB60 (-1784416456666463,16) (-9025537852229075,16) (391861255894967,15) (4791092216200586,16) (7167310039686582,16) (-5067060505941299,16) (-9812534795454784,16) (-1858227812542493,16) (-5110286534849959,17) (6851476962607762,16) (-5893922236505115,16) (-428006356271559,15) (4745474289513485,16) (-1273387803181467,16) (8709704775150255,16), (3027555111283328,18));
  (AB60 (-1307026544880173,16) (-8967847084714089,16) (4227221342225129,16) (4737636608909819,16) (6847613462996315,16) (-5537597784537001,16) (-9772644780069234,16) (-2120233621717774,16) (-4836519727963597,19) (6844624329417174,16) (-5545423437844105,16) (-4732800089181855,16) (4235046995532233,16) (-1302190025152209,16) (8964857951134948,16), (302804445858288,17));
  (AB60 (-8201275728504749,17) (-8874154046077988,16) (4536163657842172,16) (4657826247490932,16) (6502325826569761,16) (-6002034112974403,16) (-9700856620465652,16) (-2371828219508226,16) (5175052910958056,17) (6822161685824877,16) (-5164692962623481,16) (-5175331538586737,16) (369882250749125,15) (-1337632863946281,16) (9193989905333103,16), (300728720621466,17));
  (AB60 (-3179840390083594,17) (-8742902268853614,16) (4843608785627743,16) (4553089650854418,16) (612546305478733,15) (-6461275183407519,16) (-95932233804693,14) (-2617439214066284,16) (1057864420937414,16) (6779259222415878,16) (-4749614594841557,16) (-5610954071791833,16) (3131948197061782,16) (-1375848459945773,16) (9396698436482162,16), (2978088833213208,18));
  (AB60 (-417106182706893,15) (-8617657255209535,16) (2887598771731081,16) (423910279614462,15) (8575605623693279,16) (-2913588109290514,16) (-9704559546181536,16) (-4205163151625705,18) (-2412416977826106,16) (7084649936359444,16) (-6816960774450455,16) (-1826685818318514,16) (6790971436891022,16) (-1758644849242824,16) (7126701567875701,16), (2918772750005113,18));
  (AB60 (-371845218579392,15) (-8707049316344373,16) (3218758385575314,16) (4285706756814718,16) (8356466711179779,16) (-3435430351431518,16) (-9802594978752014,16) (-3505826051645943,17) (-194582206779084,15) (7153882537225438,16) (-65838365931767,14) (-2339884689023878,16) (6367164627320495,16) (-177263011800308,15) (7504465142390032,16), (2956682276002632,18));
  (AB60 (-3255036136831107,16) (-8769031289213806,16) (3536782435592113,16) (4320042635798178,16) (8110821074612626,16) (-3943578719958005,16) (-9868548038561069,16) (-6582102146011796,17) (-1475980665187437,16) (7198614856789112,16) (-6331765602968956,16) (-2844061970610741,16) (5924969318603064,16) (-177905547164367,15) (7856825071390291,16), (2976078810552981,18));
  (AB60 (-27853867300751,14) (-88014301464706,14) (3844014586434351,16) (4337767434581852,16) (784200610760592,15) (-4436971252076424,16) (-9903245692015544,16) (-9594240388646799,17) (-1002611728050373,16) (7222357982151524,16) (-6059231105581193,16) (-333515570653148,15) (5466274439939121,16) (-1782775002024727,16) (8181782021016203,16), (2995338610819674,18));
  (AB60 (-231331594883,12) (-880055054239574,15) (4147153176774016,16) (433136441871973,15) (7553327997059167,16) (-4917979101327174,16) (-9908225478587899,16) (-1247222545336572,16) (-5210602535847154,17) (7231295050157174,16) (-5761072301813883,16) (-3810304165135014,16) (4990246377260725,16) (-1792255695245285,16) (8478517595493746,16), (301542855732177,17));
  (AB60 (-1837555901317926,16) (-8765038631202372,16) (4449436605128981,16) (4298510904809943,16) (7244084794260189,16) (-5389437771678816,16) (-988361951318135,15) (-1520953836942182,16) (-2765401511010531,18) (7226993672996741,16) (-5434182908052368,16) (-4270856889699837,16) (4494181741502535,16) (-1809901886207821,16) (8747947509938924,16), (3025352348518077,18));
  (AB60 (-1351094049763689,16) (-8696594343728947,16) (4748030295745261,16) (4244166447013279,16) (6908577270314562,16) (-5853085619580467,16) (-9827218787510243,16) (-1788017073414385,16) (4782947287858919,17) (7204179669344156,16) (-5079188491764981,16) (-4722461175799171,16) (3974133167929776,16) (-1829388778549581,16) (8992196742758541,16), (3016411386975414,18));
  (AB60 (-8483964568358889,17) (-8595097953176924,16) (5040289141242013,16) (4171266818686671,16) (654145112934348,15) (-6309512679259349,16) (-9735893806188246,16) (-2053646823833445,16) (9974500075613578,17) (7157909136095238,16) (-4695604664946233,16) (-5168716826248029,16) (3426381126928896,16) (-1845846464397247,16) (9211555959928683,16), (2988197845885573,18));
  (AB60 (-3300670729684225,17) (-8455432771457106,16) (5328856572916112,16) (4074164185614765,16) (6141453498661322,16) (-6758974412766672,16) (-9607013428192555,16) (-2313979272795784,16) (1533229570416458,16) (7089041485735094,16) (-4278156855276442,16) (-5607393756031224,16) (2848039015425883,16) (-186329664338488,15) (9403020758530878,16), (2951638588394489,18));
  (AB60 (-3753509442913706,16) (-8477370121660106,16) (3747714327739263,16) (3824581125752633,16) (8433445406027996,16) (-3774861294946081,16) (-989209186630625,15) (-4392471563210962,18) (-1464441575452696,16) (7528370737859786,16) (-6144377538566986,16) (-2360139550299937,16) (6117230571360168,16) (-228906786746101,15) (7572295453491896,16), (2978775716375961,18));
  (AB60 (-3288628517396995,16) (-8523378619610202,16) (4066563583830324,16) (3846034260779813,16) (8178882924675218,16) (-4279473632278159,16) (-9945082044733655,16) (-3444956949349837,17) (-9882640536251071,17) (7568102149675153,16) (-5878518460903331,16) (-2857770207154706,16) (5665608412455496,16) (-2300364463771888,16) (7912597844610137,16), (2989521020680933,18));
  (AB60 (-2821096092856333,16) (-8538509824505073,16) (4374387592760967,16) (3848839122824199,16) (7903329700284131,16) (-4766950498507889,16) (-9966759986499909,16) (-6351801242209425,17) (-5101387863111457,17) (7588046591364223,16) (-5592372393738942,16) (-3338700336513053,16) (519980948799202,15) (-2310957306545188,16) (8223226715585165,16), (2999887735688471,18));
  (AB60 (-2349855556704831,16) (-8521772107406966,16) (4675208980574457,16) (3830508665447221,16) (7606678160655975,16) (-5240768142565857,16) (-995800824871807,15) (-9150939467509915,17) (-2597666419246818,18) (7590623699270688,16) (-5282799268143612,16) (-3804532001254753,16) (4717240106152213,16) (-2323878892512362,16) (8505717646021679,16), (3010655151301207,18));
  (AB60 (-18675054601731,14) (-8475132775684835,16) (4968354636168429,16) (3795258202747441,16) (7283716058868065,16) (-5704690661926002,16) (-9917794687478859,16) (-119141671681677,15) (466770547384535,16) (7572196122099101,16) (-494944005131043,15) (-4262028750131976,16) (4213104025552858,16) (-2334276007557635,16) (8763612838915871,16), (3013440972732644,18));
  (AB60 (-1367919312607814,16) (-8399611998437273,16) (5251220337207644,16) (3747108369758135,16) (6929192295456559,16) (-6159989691377251,16) (-9843749336024801,16) (-1470419702980714,16) (9687439840315874,17) (7527909003985065,16) (-4592528998817157,16) (-4715852353789722,16) (3683759644647551,16) (-2336663296639402,16) (8998328706965779,16), (2999390221443403,18));
  (AB60 (-8517455945728847,17) (-8291889963048488,16) (5524408591226887,16) (3682871736372822,16) (6542157780977772,16) (-6605802550956109,16) (-9733688054813739,16) (-1749732182070716,16) (1481132722818034,16) (7457548145528994,16) (-4209279463586852,16) (-5164004459190856,16) (3127885503857631,16) (-2332878317390919,16) (9207280327599709,16), (2968320637489706,18));
  (AB60 (-3241016419062094,17) (-8144154268572574,16) (579376469796667,15) (3591723943849304,16) (6124652623574569,16) (-7041885354911761,16) (-958579447232366,15) (-2019501644998004,16) (2008521207311371,16) (736598699681797,15) (-3792029774356989,16) (-5600245151160675,16) (2543909117411898,16) (-233262284921758,15) (9385488641815974,16), (2930628475819646,18));
  (AB60 (-3312903322816743,16) (-8243758167775395,16) (4589675679708345,16) (3350759187921795,16) (8220361956466941,16) (-4604135333504944,16) (-9987921722573352,16) (-233962113084532,17) (-4907874092148076,17) (7917038656321687,16) (-5398246042865006,16) (-2859971778706987,16) (5383786389068408,16) (-2822115913601935,16) (794043486763014,15), (2995794598445629,18));
  (AB60 (-284656537066834,15) (-8242268625491167,16) (4895107097475577,16) (3340944766352266,16) (7936725355620867,16) (-5083943223289203,16) (-9995326014099319,16) (-3055432698702994,17) (-10058931671216,16) (7930508593957544,16) (-5100218916623743,16) (-333088583468105,15) (4911382790810117,16) (-2836506438997124,16) (8236051863827842,16), (2998532425832374,18));
  (AB60 (-2369939942377025,16) (-8213982192216118,16) (5187859020393911,16) (3318969956956586,16) (7627449386862142,16) (-5550356229619495,16) (-9971532413035465,16) (-5865328053539774,17) (4738360518435617,17) (792029617199652,15) (-4783673392641555,16) (-3792806008800148,16) (4421176183415971,16) (-2843775994220586,16) (8506828977350497,16), (3003158501310756,18));
  (AB60 (-1875998365194912,16) (-8160452575326023,16) (5466959291931933,16) (3288749792998745,16) (7287324175288311,16) (-6006582319698054,16) (-9915139837460372,16) (-8731284000377118,17) (9631452645649609,17) (7882580684892966,16) (-4448180545528438,16) (-4251895057563705,16) (3908557517762317,16) (-2839143629759873,16) (8755709084930678,16), (3000137589983458,18));
  (AB60 (-1364760166402546,16) (-807942111567407,15) (5732397763920509,16) (3248456020667498,16) (6915233053271062,16) (-6451905555782453,16) (-9824321953916744,16) (-1164188062403009,16) (1458548696872282,16) (7816665722184999,16) (-4091924189996234,16) (-470700471753978,15) (337241639813429,15) (-2823308863274828,16) (8980853784588008,16), (2980942501093819,18));
  (AB60 (-8413332279322624,17) (-7965479443141974,16) (5986927061561692,16) (3190758441701903,16) (6513454807006348,16) (-6884327639195708,16) (-9697658033990395,16) (-1452024636135625,16) (1961390606645382,16) (7725660867127969,16) (-3710730972428704,16) (-5152149048347285,16) (2813330394794689,16) (-2802723834577645,16) (9177685503263595,16), (29450516025425,16));
  (AB60 (-3122209743310313,17) (-780959352929012,15) (6238009856553425,16) (3102607369011025,16) (6085039895632605,16) (-7303842617575904,16) (-9533580399701636,16) (-1724553633657515,16) (2477248378153362,16) (7616063591906935,16) (-3295570543148211,16) (-5579855747164387,16) (2229737782125732,16) (-2789469352484394,16) (9340617225564449,16), (2900043210506671,18));
  (AB60 (-237267888170428,15) (-7882041469771404,16) (5678363953914752,16) (280432542581461,15) (7615269234384788,16) (-5843238262638468,16) (-9949085573011698,16) (-2667722353866148,17) (9718687335835635,17) (8215917144342747,16) (-4270721619096945,16) (-3776194159398173,16) (410584731037323,15) (-3344547615287843,16) (8482689379729362,16), (2993910806976987,18));
  (AB60 (-1868035357483363,16) (-7823335736387454,16) (5941873598365668,16) (2781020092699821,16) (725908013881386,15) (-6290602736008531,16) (-9877403034176767,16) (-5642555975735944,17) (1455515345519397,16) (8158638093491894,16) (-39355294358111,14) (-4236535438219219,16) (3586800298168236,16) (-332355070300276,15) (8722893691065489,16), (2982928183855983,18));
  (AB60 (-135055514929037,15) (-7736742466021483,16) (6190219447094351,16) (2746701919595225,16) (687387630868969,15) (-6723500060067412,16) (-9771610352632213,16) (-8628661573317928,17) (1941930253861458,16) (8074055209357783,16) (-3581390905537862,16) (-4688632173456683,16) (30481102925648,14) (-3292485403151828,16) (8936921366689575,16), (2953336004794649,18));
  (AB60 (-8262012783127759,17) (-7616880029142399,16) (6426548845948814,16) (2693600728943984,16) (646276369807943,15) (-7139831965517054,16) (-9630770046438706,16) (-1154116331062968,16) (2432341219276763,16) (796603324382983,15) (-3204221200489892,16) (-5125941948220747,16) (2490938080921651,16) (-3258542497589538,16) (9120149574892799,16), (2901873604827561,18));
  (AB60 (-3001216948326416,17) (-7454418164724947,16) (6658947123510558,16) (2608534712600612,16) (6027740459671627,16) (-7540682436225208,16) (-9452967244278966,16) (-1426677705053321,16) (2933598644070577,16) (7840804131057849,16) (-2794020120768408,16) (-5542133356671189,16) (1912284808053758,16) (-3233720338903219,16) (926748183611117,15), (2835170072398875,18));
  (AB60 (-1849356014020584,16) (-7464267860060763,16) (6392541563937604,16) (2270966330405203,16) (7203698354527471,16) (-6553582374788931,16) (-9806472768306554,16) (-2605695055332909,17) (1940411136137936,16) (8402938388809515,16) (-3413931204368951,16) (-4211377466543139,16) (3252890393517623,16) (-3789767150158521,16) (8663507894342807,16), (2956163921200054,18));
  (AB60 (-1330538130454497,16) (-7372559670371907,16) (6623823079627983,16) (2241455631585931,16) (6809581693725559,16) (-697176260411307,15) (-9687596499162535,16) (-562977976646347,16) (2415270143736511,16) (8302300734567567,16) (-3063773419534552,16) (-4656725775322442,16) (2715833895049465,16) (-3745808274191008,16) (8865278711213914,16), (2907975324411088,18));
  (AB60 (-8079728280726528,17) (-7249134180386424,16) (684085035239403,15) (2194570235372271,16) (6392169853962779,16) (-7370483433270002,16) (-9534775257501575,16) (-8569643264236454,17) (2890272120782581,16) (8178456261342655,16) (-2693924905107545,16) (-5084842356154852,16) (2164291824231573,16) (-3698244948855234,16) (9035420587766301,16), (2831738339701685,18));
  (AB60 (-2847240102371085,17) (-7083733690807894,16) (7052634205437545,16) (211655927890133,15) (5951597232982609,16) (-7752333016276483,16) (-9345162600078581,16) (-1132136457825284,16) (3374344828104465,16) (8037057026513591,16) (-2292528394641036,16) (-5490904107005795,16) (1592829583802099,16) (-3659068838341574,16) (9169193484338876,16), (274227881036966,17));
  (AB60 (-1308024747799579,16) (-6990545803470273,16) (7030031339099991,16) (1736252809280852,16) (6725886306538367,16) (-7193599903649357,16) (-9574687900646992,16) (-2646594969319059,17) (2873204997191786,16) (8501624651448937,16) (-2544656561547001,16) (-4609457806472638,16) (2381087996997635,16) (-4181229744991365,16) (8766284148380843,16), (284574920340685,17));
  (AB60 (-7868591902783373,17) (-6867548472464347,16) (7226176761817216,16) (1699722181032643,16) (6303368117106305,16) (-7574859397213479,16) (-9412204666802092,16) (-564180355358042,16) (3330481021843091,16) (8361718587491817,16) (-2186027904984877,16) (-5030203202875735,16) (1837345269588612,16) (-4117340212121429,16) (8925898942849858,16), (2751462568156548,18));
  (AB60 (-2673837083415528,17) (-6701203850666096,16) (7417706714634341,16) (1629908330746005,16) (5859117323511529,16) (-7938144809884226,16) (-9212867265173414,16) (-8420865271545677,17) (3796573064630903,16) (8205528518225779,16) (-1795160550539073,16) (-5426481395376908,16) (1274722455289189,16) (-4063956772972456,16) (9047615045380346,16), (2673873255674162,18));
  (AB60 (-7783891833884381,17) (-6476544249005411,16) (7579477875807726,16) (1209359938458181,16) (6210189674215104,16) (-7744094056087163,16) (-9269908786075237,16) (-2663545747903072,17) (3741369580559156,16) (85224832394756,14) (-1690430910267511,16) (-4950729519017337,16) (1525814729988075,16) (-4519758763947594,16) (8788837814265907,16), (2684654127275009,18));
  (AB60 (-2746776721165533,17) (-6305332970429499,16) (7756760168295481,16) (1137861375463028,16) (5771856103226372,16) (-8086467004438828,16) (-9064381681077238,16) (-5334768672031278,17) (4189556918328061,16) (8361144676555381,16) (-1307621512781757,16) (-532741829379109,15) (9779146766384102,17) (-4464234590444615,16) (8894621543758509,16), (2646293608940481,18));
  (AB60 (-3292378502473926,17) (-5896056380712845,16) (8070199600593521,16) (6331699205748582,17) (5708216030979348,16) (-8186291321187489,16) (-8906849703004215,16) (-1878403497334971,17) (454232807832126,15) (8515529171434881,16) (-8366501024106948,17) (-5175497998896119,16) (7205583818167263,17) (-4871565928568654,16) (8703369521168379,16), (2601671345324715,18))].

(** ahrens_beylkin/ahrens_beylkin_4572.hpp:1-9162. *)
Definition ab_4572 : coded := [  (AB12 (5257311121191336,16) (8506508083520399,16), (244015945203322,17));
  (AB60 (-3257942788718018,17) (-9359846848580355,16) (3505299567651071,16) (571894941258125,15) (6026693669346933,16) (-5565301522127096,16) (-9425600917915357,16) (-3333153179233423,16) (-2194019597891544,17) (5891095800998898,16) (-5920301350264285,16) (-5499547452792096,16) (386029939578826,15) (-1063923190826474,17) (9224248980232321,16), (2883668163377995,18));
  (AB60 (-2051984417653028,16) (-9466371163789916,16) (2485392713249941,16) (5781660732694655,16) (7161304434058731,16) (-3910002298560382,16) (-9535249560439327,16) (-2305066729731186,16) (-1940536830783684,16) (596198671621341,15) (-7049856847189386,16) (-3841123901910971,16) (5625247261878945,16) (-1114475868693441,17) (8267053445944597,16), (2833058983453821,18));
  (AB60 (-1680969394538447,16) (-942226578314852,15) (2897455678061986,16) (5654597195117187,16) (696642874374937,15) (-4415246439241575,16) (-9590949093052266,16) (-245583703939915,15) (-1408034065779357,16) (6096215833780023,16) (-6693493414990279,16) (-424656312933783,15) (517570265381069,15) (-2729353287590907,17) (8552052873179173,16), (2840460309576488,18));
  (AB60 (-1285862926666774,16) (-9354641141450755,16) (3291997212711589,16) (5524711556580183,16) (6734888614998344,16) (-4911093316172587,16) (-9611415762845252,16) (-2619752526452411,16) (-870392861802092,16) (6196956242839361,16) (-6319418550133662,16) (-4654318694778091,16) (4700322446672665,16) (-4154700648646818,17) (8816708769291772,16), (2860780532365165,18));
  (AB60 (-8715288155184993,17) (-926202850979687,15) (3668141955736022,16) (5389750273860241,16) (6469614079842556,16) (-539394898412345,15) (-9596526659761633,16) (-2792414429954314,16) (-3302994397015537,17) (626547779964195,15) (-5928384704025611,16) (-5059450834158687,16) (4202577675638182,16) (-5412293758169456,17) (9057892229596264,16), (2874559646748512,18));
  (AB60 (-4455764319923054,17) (-9142545996874667,16) (4026824349072604,16) (5245372219011373,16) (6176109061438332,16) (-5860183200655337,16) (-9547577947641128,16) (-2966436935436335,16) (2097790308775026,17) (6305759632647643,16) (-5520753598568524,16) (-5455151249888875,16) (3687394746985792,16) (-655355462869808,16) (9272196568083978,16), (287656552736741,17));
  (AB60 (-1477691009668514,18) (-8994644046726004,16) (4369915344217145,16) (5087295903701987,16) (5859654900098517,16) (-630744519119496,15) (-9466343880607585,16) (-3134989146627487,16) (748449453611392,16) (6322222101291645,16) (-5096428536390439,16) (-5835745357313379,16) (3158898689412625,16) (-7632263637080772,17) (9457211247919132,16), (2869741194299518,18));
  (AB60 (-3636987647543345,16) (-921793488749179,15) (1342384915580788,16) (5662382527809527,16) (7966172010847266,16) (-2116016919202446,16) (-9252549426235627,16) (-1251762876644524,16) (-3580980147350918,16) (5753004566745792,16) (-7910164510654838,16) (-208140238045861,15) (7136532507033181,16) (-5600750019242736,18) (7004767443390316,16), (2653339085327636,18));
  (AB60 (-3281027683275317,16) (-9281259490372553,16) (1758715330561036,16) (5615445678487906,16) (7838509825381784,16) (-2650383660782856,16) (-9401947635342414,16) (-1442749664990769,16) (-308575016267491,15) (5931411344058173,16) (-7643232304781377,16) (-2529695515812996,16) (6751563974559557,16) (-1952775206004078,17) (7374161009048942,16), (2825444419258556,18));
  (AB60 (-2928474128612529,16) (-9308127406059958,16) (2186962155731688,16) (5532003906115223,16) (7699057512840843,16) (-3181422040015266,16) (-9528862608504185,16) (-1609069893219116,16) (-2571317068544183,16) (6109896168627795,16) (-7341900452772496,16) (-2960686837571039,16) (6347440568488919,16) (-3571570600683469,17) (771896606184691,15), (2856517386922314,18));
  (AB60 (-2575518020613259,16) (-9302399314775719,16) (2613823619519228,16) (5423008486667386,16) (754255342411299,15) (-3701468194910626,16) (-962858978156346,15) (-1759845890662729,16) (-20477307585445,14) (6276986215523884,16) (-7014766162044231,16) (-3375277728122885,16) (5927121586652834,16) (-5277872620687586,17) (8036832106186613,16), (2849016364118816,18));
  (AB60 (-2209625253773605,16) (-9269906243240246,16) (3030906544158275,16) (5301246660348546,16) (7359179133630174,16) (-4211800841123145,16) (-969777671373902,15) (-1910727109610071,16) (-1517316289724177,16) (6421426094896749,16) (-6666870169580745,16) (-3783930370624369,16) (5485975872615876,16) (-692308964049428,16) (8332153204506821,16), (2846047179272394,18));
  (AB60 (-1823180094556315,16) (-9213827435537831,16) (3432404161945965,16) (5174547264591238,16) (7142568615675701,16) (-4712512512118757,16) (-9733738692585253,16) (-2071258819862131,16) (-9819460095199031,17) (6535692606675072,16) (-6301334530639289,16) (-4192601255071335,16) (5021226180466496,16) (-8412340850364121,17) (8606951426537203,16), (2854067478313697,18));
  (AB60 (-1418014078830976,16) (-9134050256267017,16) (3815542161767522,16) (5043640355289392,16) (6893289986910994,16) (-5200408168869914,16) (-973556341430033,15) (-2240760269356023,16) (-4447453444527896,17) (661842224770089,15) (-5920021252532807,16) (-4598895010836602,16) (4535155245430416,16) (-9732687343781866,17) (8859182517056914,16), (2860762139184693,18));
  (AB60 (-1000235458052822,16) (-9029348277807469,16) (4179760603971138,16) (4905926147976105,16) (6615498681890853,16) (-5671601697977805,16) (-9703866261776707,16) (-2413849595916615,16) (9115756603246214,18) (6671837156030628,16) (-5524105657805568,16) (-4997083714008567,16) (4032264563798901,16) (-1091393024085285,16) (9085686751947243,16), (2859067517058978,18));
  (AB60 (-5760923965891101,17) (-8898479865016028,16) (4526054975637896,16) (4757971606206079,16) (6313936376626195,16) (-6123390696865032,16) (-9640071263596429,16) (-2584543488389833,16) (6238276920785511,17) (6699483093454143,16) (-5114016287958533,16) (-5381799298284631,16) (3516680566731397,16) (-1199920088667661,16) (9284026581843976,16), (2850351993633816,18));
  (AB60 (-1505388570162833,17) (-8740069676637948,16) (4856801426869548,16) (4595945121854665,16) (5992657511166111,16) (-6554795526236092,16) (-9545784678987836,16) (-2747412165471837,16) (1153135402031538,16) (6705334383252376,16) (-4688983252118289,16) (-5749080523886204,16) (2990989152751743,16) (-1303674259047822,16) (9452746548724213,16), (2841645651505377,18));
  (AB60 (-5293573503594788,16) (-846860257409541,15) (5107347688025584,17) (496007184306561,15) (867471793560697,15) (-3833484697849414,17) (-8742414959035611,16) (2061153615115617,17) (-4850535758220871,16) (567692197337973,15) (-8231680190233053,16) (-1095360848447389,17) (8359066489250671,16) (-4430377453739175,17) (5470806611868169,16), (2505133488479529,18));
  (AB60 (-4901354080951398,16) (-8687919924420217,16) (7048230699993421,17) (5161661623162008,16) (8527041015806112,16) (-8042517035958471,17) (-8895688106087318,16) (-1608789086141049,17) (-4565178101233264,16) (5705605784547246,16) (-8190865036087976,16) (-5964835219287447,17) (8091436402491471,16) (-3361759797181347,17) (5866484693161351,16), (2279373214214087,18));
  (AB60 (-4515710911858294,16) (-8862275907405563,16) (1033644378663584,16) (5257478215150364,16) (8403838502227713,16) (-1316974276777803,16) (-9081985420711154,16) (-4584374051778509,17) (-4160213451678152,16) (5832685188636096,16) (-804834104204757,15) (-1097264763472212,16) (7765011143933351,16) (-3554974601801424,17) (6291122593813948,16), (2520347885795735,18));
  (AB60 (-4152545382328711,16) (-8982781240591347,16) (1437361482502121,16) (5265334846087026,16) (8295039529665937,16) (-1862409235335028,16) (-9269110514694718,16) (-6877417109254086,17) (-368925488485537,15) (6014954617663739,16) (-7831749032192598,16) (-1576079961231656,16) (740670127935969,15) (-4632904974733405,17) (6702696328589147,16), (2708607167090437,18));
  (AB60 (-3801182320576934,16) (-9059964585555069,16) (1862271375020654,16) (522389969486303,15) (8180676891861256,16) (-2405701055612937,16) (-9435430941435428,16) (-8792876936938131,17) (-319366499513045,15) (6206883376189871,16) (-7573159566414773,16) (-2030234699732579,16) (702972988582249,15) (-6075173254464832,17) (7086171069883683,16), (2817225809602749,18));
  (AB60 (-3453114753731188,16) (-9100255248589159,16) (2293763917252487,16) (5148308048202399,16) (805256817510504,15) (-294127013823958,15) (-9576214250314483,16) (-1047687073484118,16) (-2682996911688143,16) (6394384891970768,16) (-7282450333061996,16) (-2465311136514256,16) (6634944112074902,16) (-7701178420430445,17) (7442071965454886,16), (2858681611722897,18));
  (AB60 (-3102330905248038,16) (-9108116003622083,16) (2723557566659126,16) (5048168878442875,16) (7905521999587467,16) (-3466801535819346,16) (-9689072388894517,16) (-1202594004034616,16) (-2162323727895962,16) (6569132441067383,16) (-6965514822235391,16) (-2885845150546913,16) (622227085307517,15) (-9400071773520759,17) (7771726445102,13), (286131470165573,17));
  (AB60 (-2740602280811601,16) (-9088351194327715,16) (3144991527329168,16) (4933242123800861,16) (7733225246273119,16) (-3982505422263832,16) (-9772019010317082,16) (-1355125948054595,16) (-1634404517526396,16) (6723107703075434,16) (-6627027482987914,16) (-3298837606274465,16) (578951358805325,15) (-1106197763285205,16) (8078233651130029,16), (2853674193301505,18));
  (AB60 (-2361778521725384,16) (-9044430314969164,16) (3552503693451063,16) (4811016282361595,16) (7530718132366306,16) (-4488029271484417,16) (-9823179376138429,16) (-1513712182602858,16) (-1101736072046443,16) (6849807793209801,16) (-6270675682687366,16) (-3709280210315152,16) (5335150104654012,16) (-1260042449678941,16) (8363519975812659,16), (2848796748204915,18));
  (AB60 (-1966129821490775,16) (-8977311033083227,16) (3942362253817729,16) (4684048534657151,16) (7297544889687031,16) (-4980514823587909,16) (-9841545844450943,16) (-1679766143396196,16) (-5677685224369575,17) (6946644645078685,16) (-5899183590633214,16) (-4116280012220193,16) (4861031020863034,16) (-1398361299053818,16) (8626410788474881,16), (284299435515956,17));
  (AB60 (-1558239201283609,16) (-8886665812925746,16) (4312662903701124,16) (4551609819639345,16) (7036661029856611,16) (-5456028738987725,16) (-9827317512336228,16) (-1850004783069135,16) (-3623278006210042,18) (7014267940271334,16) (-5514654608635103,16) (-4515377039577244,16) (4371288773348502,16) (-1522006421221508,16) (8864272723340468,16), (2831730922875423,18));
  (AB60 (-1143378489823406,16) (-8771863235737288,16) (4663378711034489,16) (4411573690168842,16) (6752007520054537,16) (-5911718195697174,16) (-9781599169919722,16) (-2019855715682752,16) (4904085713458983,17) (705509668552058,15) (-5118220458885233,16) (-4901982261514741,16) (3869880974222548,16) (-1633787061169304,16) (9074952401203331,16), (2817687740821285,18));
  (AB60 (-7254822718264978,17) (-8631833941192188,16) (4996510610911178,16) (4260858694479239,16) (644685114896778,15) (-6346904241339512,16) (-9705742007614683,16) (-2184982792224408,16) (1012137480437778,16) (7072386513166009,16) (-4709231396703505,16) (-5272996174917017,16) (3358837766275171,16) (-1737619752264276,16) (9257369305390417,16), (2809894427402221,18));
  (AB60 (-3067468201138871,17) (-8464571459399448,16) (5315725387665385,16) (4095329486536945,16) (6123098602361293,16) (-6762835197050289,16) (-9600634834973663,16) (-2341472857038155,16) (1531442334939129,16) (7069582017164175,16) (-4284909447308277,16) (-5626771821476074,16) (2837799637923374,16) (-1838189155053016,16) (941105487420233,15), (2815805182075645,18));
  (AB60 (-4645355419015195,16) (-8723603716619645,16) (15229613345079,14) (4860569222296346,16) (859059427134376,15) (-1605165692513166,16) (-9254518095579145,16) (-1330094452758852,17) (-3786317908742681,16) (6250521111528361,16) (-7731556761071245,16) (-1074251313553665,16) (764935240306598,15) (-8590375102725141,17) (6383530556804246,16), (2603330006049019,18));
  (AB60 (-4311533988858985,16) (-8809622608271949,16) (1949672834794975,16) (4819960712341638,16) (8495397612370925,16) (-2143874562376604,16) (-9434308095901875,16) (-3142249959010238,17) (-3300771637594961,16) (6455408551235589,16) (-7484635261106901,16) (-1519189074746677,16) (7290433533525272,16) (-1010762351264024,16) (6769633547136613,16), (276957667608251,17));
  (AB60 (-3973533491429251,16) (-8861812270733227,16) (2383131316308877,16) (4749901693259527,16) (8381990334217478,16) (-2679677581623404,16) (-958881176270772,15) (-4798219365157488,17) (-2797223603610615,16) (6653211073052655,16) (-7205680446398842,16) (-1952678089648911,16) (6909134181084315,16) (-1176309887818635,16) (7133033009568404,16), (2838505209516202,18));
  (AB60 (-3628623875254025,16) (-8883099037145494,16) (2814896138084184,16) (4657823571076172,16) (8247018643916354,16) (-3208015440677191,16) (-9715332596456703,16) (-6360803932291405,17) (-2282041689710189,16) (6836639315931216,16) (-6900436458372519,16) (-2375781881365983,16) (6507317155779511,16) (-1346582185543836,16) (7472719709160356,16), (2856302099830602,18));
  (AB60 (-3272622799772321,16) (-8876861669998568,16) (3239022522632501,16) (4550724625119599,16) (8086951300850668,16) (-3727213978831879,16) (-9812339270369236,16) (-7899103691478998,17) (-1758988246658388,16) (69998367786042,14) (-6573316747736735,16) (-2791736378461211,16) (6085125291537357,16) (-1513634553113933,16) (7789747147752101,16), (285026698455453,17));
  (AB60 (-2901909025665387,16) (-8846111755212139,16) (3650374065908775,16) (4434728506091579,16) (7898777217690799,16) (-4235859008813626,16) (-9878580982121653,16) (-9473345375213406,17) (-1231338724187467,16) (7137768034479013,16) (-6228206916212878,16) (-3203389781904112,16) (5642721973308028,16) (-1670570301477921,16) (8085102572000353,16), (283550072637073,17));
  (AB60 (-2516762631224652,16) (-8792340164564777,16) (4044831305339222,16) (431301453693249,15) (7682195434480562,16) (-4730938480962845,16) (-9913290689984163,16) (-1110144730084215,16) (-7030265813890314,17) (7247701112187497,16) (-5868459384644942,16) (-3609987955543458,16) (5182352209021319,16) (-181373604983562,15) (8357845842271712,16), (281517515613338,17));
  (AB60 (-2120809164133536,16) (-8715934205135438,16) (4419803097546008,16) (4186071271492075,16) (7439532027110627,16) (-5208663026879736,16) (-9916606516124863,16) (-1276402178024811,16) (-1780805556017634,17) (7329472191013272,16) (-5496803418578854,16) (-4007990715890312,16) (4707943489245127,16) (-1942728608531772,16) (8605874369038083,16), (2791272865473275,18));
  (AB60 (-1717913578994674,16) (-8616849232178536,16) (4774796565824547,16) (4052914693110036,16) (717373917988637,15) (-5666687627647743,16) (-9889440240488269,16) (-1443110052292165,16) (3411819262279743,17) (7384601206642418,16) (-5114643674663721,16) (-439409661933801,15) (4222752612840526,16) (-2059095505222649,16) (8827711258934583,16), (2773224786879347,18));
  (AB60 (-1309946686340965,16) (-8494224051500164,16) (5111966103355974,16) (3911192772209558,16) (6886565557330747,16) (-6105553695055148,16) (-9832750451174546,16) (-1607658494169418,16) (8558345231712093,17) (7415500381396114,16) (-4720784347818572,16) (-4767027295380767,16) (3727196756119397,16) (-2165781209512174,16) (9023158875565531,16), (2774436853348939,18));
  (AB60 (-8970851761163215,17) (-8345894363204444,16) (5435189551894639,16) (3757161032321369,16) (6578270273666768,16) (-6527641318562011,16) (-974677971385958,15) (-1767624089537676,16) (1369594935585505,16) (7424726494678332,16) (-4311590161964941,16) (-5126755967906873,16) (321913839529757,15) (-2266680111701826,16) (9192350584216008,16), (2797436581455552,18));
  (AB60 (-4799441122044242,17) (-8168904806535477,16) (5747925531087009,16) (3586509161353525,16) (6248942017898845,16) (-6934527791599479,16) (-9631056466483262,16) (-1919962788636632,16) (1885866970298169,16) (7414471903803903,16) (-3883130935396252,16) (-5472376131651694,16) (2696528674883784,16) (-2365811082502593,16) (9334434692440534,16), (2828840740440411,18));
  (AB60 (-6091170031741037,18) (-7960329493606615,16) (6052226376960886,16) (3395105902117074,16) (5899684151801597,16) (-7325775236955532,16) (-9484977780186667,16) (-2060645341805018,16) (2406021048258405,16) (7386686937272943,16) (-3432751403225782,16) (-5801126950375479,16) (2159202543231136,16) (-2466932748575815,16) (944733227907796,15), (285255036780094,17));
  (AB60 (-4151226792689333,16) (-8627626603688952,16) (2886412185218336,16) (4253890824450993,16) (8564176742638147,16) (-2925626355929191,16) (-970590226256055,15) (-6344986105080439,18) (-24065401273934,14) (7076853148618524,16) (-6819490077342214,16) (-1847350697057593,16) (6780275906631359,16) (-1744686665295933,16) (7140303009669328,16), (2844338133602104,18));
  (AB60 (-3802573783226605,16) (-8634952579117247,16) (3313310516615386,16) (4154108202438284,16) (8417692359828974,16) (-3447584716538794,16) (-9817538561816986,16) (-2172602192882718,17) (-188910946859923,15) (7250158499765398,16) (-65042280452016,14) (-2264998733839054,16) (6369953845278193,16) (-1913464314627374,16) (746741871905367,15), (2837887559226667,18));
  (AB60 (-3440778516733305,16) (-8618017041260189,16) (372703977377966,15) (4045343321751749,16) (8244375443356837,16) (-3957962980894753,16) (-9898901166633041,16) (-3736415979033513,17) (-1368264466229849,16) (7398741497628057,16) (-6171861392853381,16) (-26770788555219,14) (5940938185738288,16) (-2072514050503456,16) (7772383095531409,16), (2813409993619103,18));
  (AB60 (-3066895237340482,16) (-8578323070841026,16) (4123897051995219,16) (393033787324567,15) (8044686174515819,16) (-44537027915752,14) (-9949680421852483,16) (-5336368963252066,17) (-8479924326819259,17) (7520598028915683,16) (-5825783369857264,16) (-3082345440563744,16) (5495977630277282,16) (-2218902804658556,16) (8054234925240888,16), (2778855859780502,18));
  (AB60 (-2683810135129693,16) (-8516579505303841,16) (4501670433118547,16) (3809879395746117,16) (7820630428556428,16) (-4931790616987557,16) (-9970235711726263,16) (-6959490767474129,17) (-3317449851809814,17) (7615600752117251,16) (-5468565278607715,16) (-3478134410565135,16) (5038445094738705,16) (-2352065149948712,16) (8311549828864664,16), (2745823633130839,18));
  (AB60 (-2293303595191417,16) (-8432818161992677,16) (4860898730383978,16) (3683174054158482,16) (7573830978391615,16) (-5391782005749981,16) (-9961412352893086,16) (-8589871836010624,17) (1800137606910894,17) (7685085600941398,16) (-5100513622509109,16) (-3863187814849572,16) (4569630347143105,16) (-2473317355882507,16) (854407278454246,15), (2733970911686224,18));
  (AB60 (-1894432160571631,16) (-8325988244105023,16) (5204713877632166,16) (3548097313323826,16) (730396697369288,15) (-5836357759972217,16) (-9923634655570158,16) (-1022021270412143,16) (6906140351832571,17) (7730789920543848,16) (-4718920777937992,16) (-4238711348507083,16) (408727689559794,15) (-2585046195754888,16) (8752811190955991,16), (2755238794784249,18));
  (AB60 (-1485957253242175,16) (-8193857737147984,16) (5536481411954446,16) (3401543408699597,16) (7009960384696557,16) (-6268170214960441,16) (-9856396908987142,16) (-1183897352451427,16) (1204087634421685,16) (7754127468202616,16) (-4319915497032696,16) (-4605631043121283,16) (3588226694026701,16) (-2690044887663861,16) (8938024820654044,16), (2797710166501172,18));
  (AB60 (-106919716941465,15) (-8034046548829451,16) (5857551831965065,16) (3240504179933172,16) (6692105016318078,16) (-6686917309972216,16) (-9758856203271671,16) (-1341941532511372,16) (1721603475596823,16) (7756114479386865,16) (-3901304371306606,16) (-4962107655529995,16) (3071938893299456,16) (-2790800645011473,16) (9098056011898238,16), (2838234467286178,18));
  (AB60 (-6476435883691437,17) (-7844796612973638,16) (6167635193777408,16) (3062623305317957,16) (635225706575767,15) (-7090075363510254,16) (-9630524249303443,16) (-1492539547215967,16) (2241724421862492,16) (7737718951879398,16) (-3462889055526034,16) (-530434772718045,15) (2540448885793188,16) (-2889368010231635,16) (9230258499095365,16), (2861360418521227,18));
  (AB60 (-225236369170239,16) (-7624629915291017,16) (6466396773540293,16) (2865654924694989,16) (599276150345082,15) (-7474946917224846,16) (-9471255429885108,16) (-1631868411840197,16) (2762666477935766,16) (7700183286395085,16) (-3004858656344815,16) (-5628321402630755,16) (1996308512660262,16) (-2987902847106005,16) (9332051698235282,16), (286150782789846,17));
  (AB60 (-3216525313235938,16) (-8283576384070501,16) (4586537604618753,16) (3414324281979529,16) (8161329898447284,16) (-4662090087739127,16) (-9988783855852494,16) (-1222464856232177,17) (-4574416660223955,17) (7878615400975065,16) (-5402246251233741,16) (-2956882615957134,16) (5326693768113367,16) (-2759083647213542,16) (8000861886598283,16), (271593587460736,17));
  (AB60 (-2835871097602022,16) (-8213271238174659,16) (4949748547750523,16) (3293469374203244,16) (7930459950041727,16) (-5124535536218814,16) (-9995882647985287,16) (-2828112881329312,17) (4845475220494205,18) (7960406633820836,16) (-5046134100234764,16) (-3341924126408186,16) (4871347111766472,16) (-2884325849806963,16) (8243217921953767,16), (2703676791614041,18));
  (AB60 (-2445507029361626,16) (-8120048960772314,16) (5299462259890464,16) (3163823242540065,16) (7676105126357924,16) (-5573834638654512,16) (-9974691966302801,16) (-44394383441439,15) (5553683905839608,17) (8019341668016139,16) (-4675229706412337,16) (-3719191633124025,16) (4400857327648288,16) (-3000875419945587,16) (8463285502430529,16), (27329893423078,16));
  (AB60 (-2043277142262587,16) (-8001840519931439,16) (5638755785941665,16) (3022839712754751,16) (7396437557260067,16) (-6012915393762456,16) (-9924410221050448,16) (-6054029626713722,17) (1067505979888697,16) (8056192536025043,16) (-4285654435108783,16) (-4090345692643447,16) (3911494827287992,16) (-3110783122151283,16) (8661595498696415,16), (2783448398891345,18));
  (AB60 (-1630695656551251,16) (-7856807510800168,16) (5967529422963825,16) (2868613415760402,16) (7091732260331803,16) (-6440371931704613,16) (-9843968179779725,16) (-7650752504683636,17) (1584597846964653,16) (8071067588255864,16) (-38764387568159,14) (-4453211262725055,16) (3403596248075113,16) (-3215293503515904,16) (8836142838724227,16), (282815973958904,17));
  (AB60 (-1211449970988093,16) (-7684141060251858,16) (6283817719662499,16) (2700333216216473,16) (6763960609420474,16) (-6852520514059495,16) (-9732868193619687,16) (-9201804508313835,17) (2103460164475194,16) (8063970485047588,16) (-3449050473957188,16) (-4803793380691666,16) (2880347679560192,16) (-3314910135463286,16) (8984150935878972,16), (2852855004932878,18));
  (AB60 (-788972108026407,16) (-7483718198723515,16) (6585703070656226,16) (2517797879084294,16) (6415245111582997,16) (-7246055754573594,16) (-9591112528676493,16) (-1068473087140518,16) (2620863545536322,16) (8035027862600002,16) (-3005409458020267,16) (-5138661424620616,16) (2345056774102899,16) (-3409835653562729,16) (9103500949740519,16), (2851172863095551,18));
  (AB60 (-3661627832394821,17) (-7255052136207675,16) (6872419029503277,16) (2320100435788006,16) (6047452255034504,16) (-7618756800878631,16) (-9418820510748543,16) (-1207599881173171,16) (3134887990549756,16) (7984919584118113,16) (-2546401481245267,16) (-5454988426337762,16) (1800063709869913,16) (-3501050773789238,16) (9192519465291283,16), (2818231338122781,18));
  (AB60 (-2561279229528943,16) (-7772239399147759,16) (5747359692129849,16) (2622715102932128,16) (7734269941256054,16) (-5770826107641329,16) (-9953032413590006,16) (-3796945789170452,18) (9673179902669536,17) (8332105337170272,16) (-4205672721460159,16) (-3590033093199082,16) (4182206305948677,16) (-3528597219795896,16) (8370074795061977,16), (2758116496611884,18));
  (AB60 (-2155317929149083,16) (-763965425890449,15) (6081964109454362,16) (2473598203487411,16) (7442946231414763,16) (-6203536356302962,16) (-9887622049717943,16) (-1967080274897273,17) (1481970362002098,16) (8358854285452045,16) (-3805657940263582,16) (-3955568565489508,16) (3684085693414982,16) (-3637288291151181,16) (8555562312941772,16), (2802582051528826,18));
  (AB60 (-1741679853087928,16) (-7480487390059269,16) (640381602612941,15) (2311724738336109,16) (7128180275862861,16) (-6621553797181181,16) (-9791958111194782,16) (-352307114196409,16) (1998358337709561,16) (836323365026911,15) (-3388142085065372,16) (-4310083076045669,16) (31704043140136,14) (-3740038190797489,16) (8715540764465519,16), (2831624608901392,18));
  (AB60 (-1322708135960084,16) (-7295730347762547,16) (6709900288365065,16) (2138680400924739,16) (6791431754137155,16) (-7021573959704328,16) (-9666059274509153,16) (-5042985936253919,17) (2512564632032984,16) (8344282095664411,16) (-2956158986144088,16) (-4651245032957723,16) (2644485314804825,16) (-3835272767993068,16) (8848580689289804,16), (283567553239885,17));
  (AB60 (-8998050955120984,17) (-708674235143365,15) (6997744896356763,16) (1956367482749706,16) (643375088488608,15) (-7401315817046801,16) (-9510222511383292,16) (-6529914665475697,17) (3021468174347453,16) (8301120912558899,16) (-2512477615026528,16) (-4977835657097159,16) (210890669433649,15) (-3921273269859552,16) (8954112379106469,16), (2804057669450406,18));
  (AB60 (-4750013201321915,17) (-6854161209427788,16) (7266006321291503,16) (176534625969549,15) (6056684179566241,16) (-7758874230993255,16) (-9324919541529757,16) (-7974770298615473,17) (3522769639195795,16) (8233875551125446,16) (-2058913220238254,16) (-5288115898891285,16) (1566045310536503,16) (-3997770959327986,16) (9031352580986993,16), (2718747092776435,18));
  (AB60 (-3093021982388578,18) (-6689947002919251,16) (7432607376932632,16) (168641916479777,15) (5666798566925686,16) (-8064947885912952,16) (-9138142468861069,16) (-1023148435993565,16) (3930333255173363,16) (8095878105736837,16) (-1705535091928437,16) (-5616752419971133,16) (1073194582948118,16) (-3961263474997249,16) (9119026541730402,16), (1191948075095121,18));
  (AB60 (-1423383522950739,16) (-6882069025519466,16) (7114148246598316,16) (1570786976702462,16) (6790968681041777,16) (-7170451355872351,16) (-9564634619510901,16) (-9110034447768844,18) (2917098785178454,16) (859383487882309,15) (-2450486372912585,16) (-4487885761880916,16) (239418326363855,15) (-4340482308129193,16) (8684935223300778,16), (2818723604534932,18));
  (AB60 (-9926326677985865,17) (-666903171515663,15) (7385031913881894,16) (1396103673124765,16) (6419672920389962,16) (-7539144124441405,16) (-939461631404967,15) (-2493587947666681,17) (34174558524236,14) (8531776792239991,16) (-2009584400167775,16) (-4813559525548365,16) (1855472189608264,16) (-4410088520222187,16) (878113558700666,15), (2736735568450393,18));
  (AB60 (-5563711763642298,17) (-6443552304381738,16) (7626997103369574,16) (1227516618026965,16) (6028761610039608,16) (-7883351850690179,16) (-9198370018750396,16) (-4147906943421301,17) (3901017518294557,16) (8439723027054409,16) (-1571372915380821,16) (-5128534136321522,16) (1315018168060216,16) (-4457388694658787,16) (885451372139654,15), (2518548833976663,18));
  (AB60 (-7222934452488771,18) (-6505467477946338,16) (7594318653781392,16) (1443554324170667,16) (5657942030903489,16) (-8118118186384322,16) (-9082513167853565,16) (-8475254470428491,17) (4097518172306428,16) (819034753090921,15) (-1488194514072173,16) (-5541072496477094,16) (9643949814692436,17) (-4169747516831316,16) (9037872977952058,16), (1932329525965241,18));
  (AB60 (-6143898499735156,17) (-6066206223073981,16) (7926138225604448,16) (7547379082343991,17) (5979466352813705,16) (-7979746413605056,16) (-9060589943465428,16) (-8673987026027648,18) (4230624784979208,16) (8594136263578571,16) (-113445171786098,15) (-4985362693213607,16) (1080843529860373,16) (-4845014634952724,16) (8680876133838847,16), (2171366122084764,18));
  (AB60 (-127382636777317,16) (-6107538550824655,16) (791718046491542,15) (9431488494070922,17) (560336730454568,15) (-822877543126622,15) (-8939056113427476,16) (-5041712462789748,17) (4454109019256306,16) (8356158068043537,16) (-1021875648512056,16) (-5397257868663399,16) (710280682161256,16) (-4581491656033623,16) (8860329314322511,16), (2583435973818134,18))].

(** ahrens_beylkin/ahrens_beylkin_4692.hpp:1-9402. *)
Definition ab_4692 : coded := [  (AB12 (5257311121191336,16) (8506508083520399,16), (2190594429991998,18));
  (AB60 (-5968662106674036,17) (-9412575258763526,16) (3323729490297952,16) (5768626797559478,16) (6216251434387119,16) (-5299166252813621,16) (-9461239892786242,16) (-3196323824376406,16) (-518125178768574,16) (5896032463481025,16) (-613751040248829,15) (-5250501618790905,16) (416207363997262,15) (-7874103189882957,18) (9092356287857432,16), (2784012463586918,18));
  (AB60 (-2645061420919605,17) (-9266033219011739,16) (3751088493353174,16) (5539097204923739,16) (6006156665425267,16) (-5765803002598481,16) (-9453659484322853,16) (-3259876553586471,16) (3907953236362774,18) (6030309144690441,16) (-570257099096968,15) (-5578176737287366,16) (3687856481724373,16) (-3035856744555883,17) (9290185698276913,16), (2801250805135992,18));
  (AB60 (-1440398370783838,16) (-9447299180885019,16) (2945130000575952,16) (5725353012750333,16) (6799051571898089,16) (-4581837033555516,16) (-9560698163810669,16) (-2648247608986931,16) (-1256914962120467,16) (6022235404339354,16) (-6615568163234719,16) (-4468438050629866,16) (4978861130255154,16) (-1834834086633709,17) (8670483013326284,16), (2704101527715647,18));
  (AB60 (-1151174657040032,16) (-9339724915715023,16) (3382947739436832,16) (5508789777363039,16) (6646570661464942,16) (-5047408605509759,16) (-9603202581838115,16) (-2693154254250081,16) (-7248588379763726,17) (6198583262549791,16) (-6220254842401283,16) (-4783930939386666,16) (4555793976328357,16) (-4263158190636597,17) (8891737516799871,16), (2726606045373654,18));
  (AB60 (-8344137831983821,17) (-9209462818265013,16) (3806513921871665,16) (5289506928755768,16) (6456063831263866,16) (-5508208080427903,16) (-9611716929325419,16) (-2753398987001147,16) (-1835529593882704,17) (6342621863626285,16) (-5805203007453754,16) (-5105953969367498,16) (4103508848897515,16) (-6508608238101117,17) (9096020850627433,16), (2751979554416396,18));
  (AB60 (-5033065245747825,17) (-9054097508349092,16) (4215447882684262,16) (5061664542166752,16) (6236877320586663,16) (-5956585712513803,16) (-9588172963797813,16) (-2817220187762428,16) (3608457148983299,17) (6459892237088586,16) (-5372725081113551,16) (-5422510257065081,16) (363158725128401,15) (-8641522394731124,17) (9277112424851014,16), (2757491790107753,18));
  (AB60 (-1633218130675461,17) (-8874202583659212,16) (4606718407885649,16) (4825552281973544,16) (5992785690489946,16) (-6387531983622381,16) (-9533209121439193,16) (-2881416893169267,16) (9029731638688553,17) (6550853796689927,16) (-4926490713553544,16) (-57285254458424,14) (3145677137816813,16) (-1066294976936401,16) (9432270689859193,16), (273973401815077,17));
  (AB60 (-2539486950058487,16) (-9441527681398802,16) (2099657370111321,16) (5803783037495989,16) (7424081750019128,16) (-3346507526169148,16) (-9472929656730262,16) (-2017445931379675,16) (-24886774866583,14) (5885994476227635,16) (-737327228661894,15) (-3315105550837689,16) (6126422130561114,16) (-5080946340018716,18) (7903440407607311,16), (2840944176237183,18));
  (AB60 (-2243474542798768,16) (-9403327218190614,16) (2558174975143302,16) (563509227544067,15) (7307192182571065,16) (-3853657672165655,16) (-9579810770928742,16) (-2096135035619549,16) (-1957918156013143,16) (6097132214964422,16) (-7021635795785439,16) (-3677174119427527,16) (5726153098763087,16) (-2855563867856251,17) (8193267250583972,16), (2771343206077683,18));
  (AB60 (-1973758162716504,16) (-9331287398695266,16) (3005221156264695,16) (5436634691743245,16) (7191112004912478,16) (-4327922291508648,16) (-9661705478139285,16) (-2140175393782788,16) (-1439130479678617,16) (6301680454225153,16) (-6656484321874591,16) (-3997504212064629,16) (5333783186630637,16) (-5346276830378871,17) (8441855848007941,16), (2662070700607865,18));
  (AB60 (-1701278411574017,16) (-9236682948280828,16) (3433560816302862,16) (5230129127321465,16) (7055733264724512,16) (-4781461848493994,16) (-9715137826303503,16) (-2180949683556316,16) (-9271221568501453,17) (6482740260068011,16) (-628157701000064,15) (-4303006970471319,16) (4933675977809509,16) (-774156254723872,16) (8663689943624328,16), (2620306413131486,18));
  (AB60 (-1406470947716406,16) (-912365199419308,15) (3844582391116926,16) (5024274893567611,16) (6887726191023552,16) (-5226460533798603,16) (-9738104134562552,16) (-2235925803169529,16) (-4122665001384801,17) (6632931481515008,16) (-5893521743445626,16) (-4612008393429131,16) (451164360076395,15) (-9942044475779258,17) (8868857284684537,16), (2637262065196149,18));
  (AB60 (-1094420144865723,16) (-8987713426545578,16) (4245380066472779,16) (4810328445661074,16) (6691155797576184,16) (-5664730738298736,16) (-9732097359633454,16) (-2296557628969395,16) (1100183595497861,17) (6759150883164459,16) (-5486717293160674,16) (-492034680521086,15) (4067366621334719,16) (-120443850441551,15) (9055708512133853,16), (2680158893987949,18));
  (AB60 (-7680310889928785,17) (-8826802202470863,16) (4636560268647,13) (4585418194754546,16) (6467527222894562,16) (-6094672394832368,16) (-969664778081574,15) (-23592749795763,14) (6394086217329432,17) (6862703483825247,16) (-5060087512168741,16) (-522482681648749,15) (3601975385983373,16) (-1407439710725822,16) (9221978463401547,16), (2719950114059425,18));
  (AB60 (-4275365010868482,17) (-8641229138244274,16) (5014615789928132,16) (4351477285612094,16) (6216100363565744,16) (-6513427799774848,16) (-9630325164643104,16) (-242512877467853,15) (1172854487763923,16) (6940964300861696,16) (-4615709374714973,16) (-5524331773376018,16) (3116897364868256,16) (-1600390988850771,16) (9366093075540226,16), (2746056731626438,18));
  (AB60 (-7493704507168166,18) (-8430641447291083,16) (537760813247801,15) (4108571317665893,16) (5937718368641403,16) (-6918319326422541,16) (-9532493091014685,16) (-2492923078649681,16) (1707896365033046,16) (6993256371494222,16) (-4154884958536675,16) (-5816467682698938,16) (2614173764592145,16) (-1782833410104727,16) (9486179450143903,16), (2762756958804157,18));
  (AB60 (-3382610272160733,16) (-9255499000509928,16) (1701083771668054,16) (5592030037553912,16) (7890002490081125,16) (-254500702663243,15) (-9383681928111832,16) (-1365496510428804,16) (-3175205938523386,16) (5927617298793163,16) (-7682598156443777,16) (-2416824099030527,16) (6838674901479401,16) (-2074043336373468,17) (7293113809221967,16), (2772883611767601,18));
  (AB60 (-3074184269754998,16) (-9267600555384592,16) (2158928211272004,16) (5468207057554402,16) (7788013102682783,16) (-30733635463696,14) (-952708563521527,15) (-1479587452701809,16) (-2654328591015481,16) (6147547816124597,16) (-7368157423943266,16) (-2813878466538922,16) (645372208884567,15) (-4198556787395168,17) (7627135268826406,16), (2803654440950983,18));
  (AB60 (-2778663044928854,16) (-9243511360017931,16) (2614675777217162,16) (5312165786819154,16) (7677720554938674,16) (-3582387714028205,16) (-9644149769085624,16) (-1565790805079257,16) (-2130416481858642,16) (6361050758957059,16) (-7029473991868461,16) (-3181749304960512,16) (6061762055057419,16) (-6482465630702121,17) (7926841564036317,16), (2765530714348508,18));
  (AB60 (-2505512252212752,16) (-9185583630619255,16) (3057361888771324,16) (5128366450489256,16) (7564570588549021,16) (-4059203044977592,16) (-9734220070357359,16) (-1621013042070235,16) (-1617799845249767,16) (6564715297190344,16) (-6676858181586035,16) (-3510566605239488,16) (5675017025379767,16) (-8877124069629852,17) (818572833926058,15), (2629362925372419,18));
  (AB60 (-2246502734379957,16) (-910463972085642,15) (3472572679992013,16) (4935314399004819,16) (7442862722771071,16) (-4499607346531527,16) (-9796302124663223,16) (-1661776998085349,16) (-1127369456280095,16) (6746110080911484,16) (-632372944467121,15) (-3807944942724724,16) (5296694778131695,16) (-1119133278099862,16) (8407887078996833,16), (247006046647991,17));
  (AB60 (-1980294137235193,16) (-9009499289149463,16) (3861004751207545,16) (4746391117860402,16) (7299957338944625,16) (-4917559781627916,16) (-9831284953601446,16) (-1709541950204839,16) (-650617000684469,16) (6897853918863109,16) (-5970280202393901,16) (-4095774117175934,16) (491372517197353,15) (-1329677136550724,16) (8607395869067948,16), (2458418727274181,18));
  (AB60 (-1690460882911385,16) (-8893445150195969,16) (4248408568370309,16) (4548362839719144,16) (712716460437394,15) (-5340029979356039,16) (-9841533690380846,16) (-1766280545822029,16) (-156421400547983,16) (7030490862267424,16) (-5593125122010537,16) (-4391941439171162,16) (4501503711024807,16) (-1534039482363402,16) (8796771408089454,16), (2603221482093216,18));
  (AB60 (-1374442922625068,16) (-8748655959257436,16) (4644558704440629,16) (4330805775869092,16) (6921523232875012,16) (-5773788831302229,16) (-9824816922088755,16) (-1827132726382424,16) (366822092601818,16) (7148231753927297,16) (-5180258217648126,16) (-469762786847091,15) (4051028090786526,16) (-1741265015226886,16) (8975364480309721,16), (273559502435799,17));
  (AB60 (-1036815561167096,16) (-8575717962015866,16) (5038062616530307,16) (4098476633539141,16) (668350735725749,15) (-6207513084143976,16) (-977732650693551,15) (-1892210604758376,16) (9074279056851918,17) (7244328645311072,16) (-4739263890405203,16) (-5005904539224334,16) (3569813422791532,16) (-1944243466852288,16) (9136539250069449,16), (280667301322174,17));
  (AB60 (-6829313259433352,17) (-8376922220915676,16) (5418558748299631,16) (3856755677420586,16) (6415390897380642,16) (-6630851776241848,16) (-9697389197135232,16) (-1961531323535034,16) (1453629122601706,16) (7313783102185184,16) (-42788304488356,14) (-5310384800022292,16) (3066537420893383,16) (-2136560448545041,16) (9275314425720218,16), (2840349284742551,18));
  (AB60 (-3184197296151616,17) (-8153040525518607,16) (5781568910342856,16) (3606766778005416,16) (6120730282808035,16) (-7037605716022538,16) (-9585129903938994,16) (-2032310242710573,16) (1998749559596735,16) (7356025445637701,16) (-3803560993596138,16) (-5605516337602151,16) (2547524187916456,16) (-2317169289211896,16) (9388335688348273,16), (285155430054921,17));
  (AB60 (-4354898313305367,16) (-8964082908879673,16) (8246685901023661,17) (5494023529632333,16) (826006480774753,15) (-125977570529719,15) (-9010167294907003,16) (-7040181011321414,17) (-4280332210362474,16) (5614674018602557,16) (-8185498704804638,16) (-1213691319269859,16) (7750391589609813,16) (-7456610294289312,18) (6318692119734699,16), (2598630233924068,18));
  (AB60 (-4150883654192368,16) (-900388820862225,15) (1303902609856966,16) (5349653680480496,16) (8263007587681583,16) (-1761792015204426,16) (-921894347197471,15) (-7408806209406678,17) (-3802916928628529,16) (5912675669396794,16) (-7915040862117744,16) (-1546736751851966,16) (7457151456770285,16) (-3479667255638388,17) (6653556290337462,16), (2608484315832725,18));
  (AB60 (-3890633025765144,16) (-9041467273690036,16) (1764892120674127,16) (5229982894325247,16) (8213703532092189,16) (-2276478247636382,16) (-939941846267508,15) (-8277637415978474,17) (-3311455835673908,16) (6167111273401528,16) (-7634526342000952,16) (-1918527058651339,16) (7122940215038697,16) (-5791771900912369,17) (6994875014999374,16), (2682733322917566,18));
  (AB60 (-3598234947527084,16) (-9064125750236878,16) (2212313189014503,16) (5114959428046237,16) (8126738469707013,16) (-2791650389003791,16) (-9551104114140172,16) (-9373872805298644,17) (-2810287402945739,16) (6389885336530875,16) (-7338790925125669,16) (-2304672025100498,16) (6759453725136381,16) (-7879475445813444,17) (7327272617060739,16), (2709659848292614,18));
  (AB60 (-3311538432230867,16) (-9053832273028806,16) (2657411218407868,16) (497267691081162,15) (802719223324561,15) (-3291909657205427,16) (-9676731435389705,16) (-1026640039783195,16) (-2303666415967093,16) (6603448089436293,16) (-7019320216981836,16) (-2669010494844528,16) (6384821778184278,16) (-1007872016263774,16) (7630088129219489,16), (2705669123242385,18));
  (AB60 (-3039740358888113,16) (-9010640814900084,16) (3093271836648618,16) (4803794201754555,16) (7920395582023756,16) (-3767080446638733,16) (-9775728897170831,16) (-1090245232876328,16) (-1801801837386569,16) (6806820805526845,16) (-6682457060522212,16) (-3001992364367986,16) (6008648450532098,16) (-1237938521501544,16) (7897066038403173,16), (2602652469185905,18));
  (AB60 (-2785841257300887,16) (-8943612451023675,16) (3500126399862514,16) (4624598971913428,16) (7807197686317044,16) (-4202469349768426,16) (-984646995604963,15) (-113641476470663,15) (-132498712717096,15) (6988310607069312,16) (-6346343556187117,16) (-3299611844742469,16) (5644000606281205,16) (-1460854130129927,16) (8124725371775942,16), (2378577679774707,18));
  (AB60 (-2540830782233133,16) (-8862760294874681,16) (3872422870974891,16) (4448752368596662,16) (7683599906632402,16) (-4601184069096141,16) (-9891495022653612,16) (-1179160388242279,16) (-8763030272794521,17) (7142014851329275,16) (-6019072151678722,16) (-357244934131721,15) (5290310953557471,16) (-1664527754953681,16) (8321175239571553,16), (2319473331941479,18));
  (AB60 (-2268102164540204,16) (-8762325206107177,16) (425174899936801,15) (4262113388475138,16) (7529958495766609,16) (-5013393512962377,16) (-99156266154862,14) (-1232366710340568,16) (-4020212848917857,17) (7281495677502581,16) (-5663877616118191,16) (-3860092103583353,16) (4902233102523824,16) (-1866080879648418,16) (8513862387843149,16), (256483082048717,17));
  (AB60 (-1958172374816474,16) (-8631045283330826,16) (4655171131934713,16) (4049968205733175,16) (7338244362298977,16) (-5454166041819565,16) (-9915356421135567,16) (-129280092103185,15) (1198866982816478,17) (7412338416636038,16) (-5260185289200855,16) (-4169854904014823,16) (4461190379316003,16) (-2078059073098122,16) (8705139337667888,16), (2758941976104509,18));
  (AB60 (-1623358353550876,16) (-8469339873534373,16) (5063100805091418,16) (3818644167073211,16) (7112578625757106,16) (-5901625370836487,16) (-988503561058014,15) (-1356761247777267,16) (6672854667175089,17) (7524983724387363,16) (-4821934805488721,16) (-448592963379072,15) (3983410239743652,16) (-2290643820268385,16) (888174497216463,15), (2846572152286359,18));
  (AB60 (-1271680704257039,16) (-8280942809349112,16) (5459744900149599,16) (3576580063101526,16) (6856436664935379,16) (-6340138114580353,16) (-9822266861319379,16) (-1424506144413733,16) (122223399950856,15) (7611818818837391,16) (-436252196116978,15) (-4798814062610086,16) (3482128746739026,16) (-24939147037656,14) (9036324963251124,16), (2882769604612561,18));
  (AB60 (-9085701198785992,17) (-8068363443763499,16) (5837466203465729,16) (3327946433441611,16) (6573106650405135,16) (-6761585723670377,16) (-9726939852154881,16) (-1495256793358365,16) (1775062881837383,16) (7670155843548976,16) (-3889473648689152,16) (-5103009315278995,16) (2965354128484505,16) (-2683633001715983,16) (9165412636907341,16), (2892369276770178,18));
  (AB60 (-5385690551783488,17) (-7832907467346747,16) (6193182056163686,16) (3073937237673535,16) (6265963756569676,16) (-7161606527881802,16) (-9599973275226359,16) (-1566943710777071,16) (2320603482328655,16) (770017558306015,15) (-3406791219062673,16) (-539454072000219,15) (2438366747344557,16) (-2859172537507003,16) (9267119293837222,16), (2876958406311773,18));
  (AB60 (-1653951908126272,17) (-7574743683822817,16) (6526553650682908,16) (2813709618156509,16) (5937995354827584,16) (-7538119749031558,16) (-9442483118337396,16) (-1636748328995233,16) (2856670696360469,16) (7703514939844185,16) (-2915929467654487,16) (-5670380314516978,16) (1904363369305838,16) (-3022065887173097,16) (9340263268839417,16), (2833978655046772,18));
  (AB60 (-5018446393904062,16) (-8639297886746847,16) (4215777692938408,17) (5227764704122821,16) (8509932056563959,16) (-5015302493297123,17) (-8750912915568716,16) (-1293658301828874,17) (-4837849483614979,16) (5519976643233775,16) (-8329335146274875,16) (-3899152205078429,17) (8249382666239005,16) (-180596910289084,16) (5649342473416663,16), (261350087190893,17));
  (AB60 (-4809095273893102,16) (-872238261904661,15) (8903056180731578,17) (5125310794011581,16) (8526950679843164,16) (-101108919898819,15) (-898780074648716,15) (-1954319392034459,17) (-437963972246394,15) (5820184472881292,16) (-8097495128414003,16) (-74567107154764,15) (797671154749897,15) (-4294555514291616,17) (6015616412084739,16), (2619741247869426,18));
  (AB60 (-4612519692939224,16) (-8768003263309805,16) (1358963155069505,16) (4988635097210542,16) (8535551159777722,16) (-1502626455808741,16) (-9198292196294715,16) (-2324521035320818,17) (-3916297574386712,16) (6115146148747965,16) (-7839329041225211,16) (-107233752282383,15) (7695665740485975,16) (-6962221185525118,17) (6347598252280047,16), (2487390247859959,18));
  (AB60 (-4392995185921662,16) (-8801942594404142,16) (1796496551981989,16) (4865162697737546,16) (8510127023718459,16) (-1976848493112189,16) (-9376679587033786,16) (-2918155706856837,17) (-3463051197255,13) (6369843679033852,16) (-7580183035051797,16) (-1402111500482545,16) (7399831093921597,16) (-9299439886666616,17) (6661659249719535,16), (2395470540964329,18));
  (AB60 (-4149473681299997,16) (-8829416518641462,16) (2196194915880633,16) (4762792670822237,16) (8450364537170977,16) (-2430461923932388,16) (-9523503357169417,16) (-3790519814704852,17) (-3026417585417805,16) (6579935605232385,16) (-7327308441288785,16) (-1736375085404433,16) (709304143323703,15) (-1123056095882192,16) (6958987586702871,16), (232100937183482,17));
  (AB60 (-390089047119414,15) (-8837145212712928,16) (258610093019815,15) (4650908744950608,16) (8373608427347907,16) (-2872582418589598,16) (-9647892572737329,16) (-4635367853650204,17) (-2589073686385411,16) (6773472889783737,16) (-7061791642539179,16) (-2061835058565196,16) (6775310154147731,16) (-1311816784808729,16) (7237009675148758,16), (2408576023741165,18));
  (AB60 (-3647989073197636,16) (-8817010985572877,16) (2992071690671508,16) (4509785262671124,16) (8284391649103117,16) (-3321248543675236,16) (-9756438191167,13) (-5326193364697602,17) (-212796392459001,15) (6969237616872872,16) (-6764366500495491,16) (-2381821338081114,16) (6435189647491764,16) (-1520025148607625,16) (7501856953342633,16), (2510401866521648,18));
  (AB60 (-3390652521593731,16) (-8769954905182024,16) (3404609586851897,16) (4344968513575508,16) (8180155186129713,16) (-3769125859781364,16) (-9845116602812867,16) (-5897997190523102,17) (-1651004351424988,16) (7159778381375095,16) (-644050701596097,15) (-2693964162150519,16) (6075990743031503,16) (-1739648170168743,16) (7749578100427404,16), (2535078600685228,18));
  (AB60 (-3126071534248422,16) (-8697285485086359,16) (3819018454219338,16) (4160733305541226,16) (8057829343567235,16) (-4214224083993019,16) (-991177021918962,15) (-6394561415191233,17) (-1160993955651468,16) (734029561824144,15) (-6092751764970281,16) (-2999739349889758,16) (5697546135196601,16) (-1965077578596954,16) (7979751759760564,16), (2589806245152328,18));
  (AB60 (-2838682623537939,16) (-8600974463066562,16) (4238527957734931,16) (3961869357628237,16) (7906806885685766,16) (-4667547114444434,16) (-9954799659983337,16) (-6941675773807944,17) (-6481474401005781,17) (7506229737982373,16) (-5716271702248406,16) (-3313721917527659,16) (5287252545538902,16) (-2190535183437361,16) (8200397315363167,16), (2700671341854603,18));
  (AB60 (-2525114569395773,16) (-8479064670803523,16) (4661465297495707,16) (3748671451649345,16) (7722864930401963,16) (-5128822439347718,16) (-9970743378519195,16) (-7561997404015609,17) (-1115277200172977,17) (7653937008743491,16) (-5309278081023487,16) (-3637143731632048,16) (4841920939171476,16) (-2413586849378475,16) (8410136749145052,16), (2801797759758386,18));
  (AB60 (-219265003890372,15) (-8328769969157505,16) (5081719847429177,16) (35196903988354,14) (7508613922276832,16) (-5588604160480185,16) (-9956542495740855,16) (-8201560468806723,17) (4411412350614342,17) (7781254199383905,16) (-4874822648311678,16) (-3960831633896834,16) (436793833526067,15) (-2633791273965154,16) (8601410246264577,16), (2863962182068948,18));
  (AB60 (-1845696522103364,16) (-8151303825107024,16) (5490869721555153,16) (3278756868258844,16) (7265623823253247,16) (-6038250065856857,16) (-9910329773391348,16) (-8856800018537767,17) (1000467249313688,16) (788394658796022,15) (-4419460051836195,16) (-4279224117572532,16) (3872079707534491,16) (-2846163771417052,16) (8769626589813997,16), (2896315210159696,18));
  (AB60 (-1487854105440644,16) (-794939188492232,15) (5881620424751549,16) (3030610713740984,16) (6995915864624201,16) (-647090101275377,15) (-9831775545955921,16) (-9534760202981185,17) (1557906637979184,16) (7958755118194415,16) (-3950155121204372,16) (-4588517351720169,16) (3360874533202151,16) (-3045760743419829,16) (8912231138492533,16), (2906810092638816,18));
  (AB60 (-1122004823338925,16) (-7725965980623913,16) (6249044314344888,16) (2779197060932619,16) (6701764851898518,16) (-6882035423213188,16) (-9721678491642284,16) (-1024201128725394,16) (2107125851262198,16) (8004040246552112,16) (-3472634177297396,16) (-4886322912194817,16) (2839643068429096,16) (-3229130674601123,16) (9028241375277507,16), (289094509254982,17));
  (AB60 (-7501984745578058,17) (-7483939196422499,16) (6589981513860422,16) (2527819160051855,16) (6385309193682289,16) (-7268972196614262,16) (-9581448829497324,16) (-1098630002740209,16) (2643643403487582,16) (8019170671172068,16) (-2991467315636902,16) (-5171462563539436,16) (2312476632883063,16) (-3393841878045388,16) (9117800673912276,16), (2836685313441789,18));
  (AB60 (-3763072474182631,17) (-7224241584105656,16) (6904254224028767,16) (2276121766438582,16) (6050091639030566,16) (-7629918797973996,16) (-9412946659584752,16) (-1174149945075091,16) (3165091956056318,16) (800622604539226,15) (-2508692435555985,16) (-54412137224949,14) (1783027861610756,16) (-3541399203474581,16) (918037599046735,15), (27497818012314,16));
  (AB60 (-9753403880780553,19) (-6944199047088281,16) (7195693466618137,16) (2017114340555503,16) (5703581760534477,16) (-7962437116739056,16) (-9218835742277968,16) (-1240617286553804,16) (3670686080993867,16) (7972190520619836,16) (-202314227565983,15) (-5687800421549369,16) (1256398625538912,16) (-3680439484874647,16) (921280780717364,15), (267537976442563,17));
  (AB60 (-3868467596134407,16) (-8535696623895467,16) (3489533149645898,16) (3965334823343015,16) (8475829385084588,16) (-3526533138043627,16) (-9845712431777578,16) (-5986723881087817,18) (-1748817493181499,16) (7395000734178034,16) (-635617928213168,15) (-2216517330161516,16) (6319179293733951,16) (-2119650102952908,16) (7454867972988912,16), (2684362250339249,18));
  (AB60 (-3592927808980226,16) (-8469009488326833,16) (3920044393382124,16) (378127465235079,15) (8352604737450072,16) (-3991986485875927,16) (-9921870550807382,16) (-1164047508767614,17) (-1242149228955412,16) (7584914294856152,16) (-6001826157425258,16) (-2539125423395378,16) (5929884064931455,16) (-2350778580024813,16) (7701319045732914,16), (2612224489058985,18));
  (AB60 (-3315026107588024,16) (-8381939930964699,16) (4330552493586619,16) (3591456199145773,16) (8211096738868765,16) (-4436139393048434,16) (-9970807500815058,16) (-1708431920959345,17) (-7441843759476974,17) (7751165500636458,16) (-5640255007228439,16) (-2847271823198076,16) (5534668107766624,16) (-2570841731640326,16) (7922008692732393,16), (2550292137192572,18));
  (AB60 (-3026033354201407,16) (-8275337718693999,16) (4728837889040074,16) (3395374172101757,16) (8047072539798897,16) (-4869913528045322,16) (-999440352512915,15) (-2282651788951019,17) (-2445264504915856,17) (7895946882246729,16) (-5265565636089076,16) (-3150847721610172,16) (5124489997083828,16) (-2781506903709821,16) (8124212061141831,16), (2604594963385466,18));
  (AB60 (-2717446294632344,16) (-8143356562016478,16) (5128472437251868,16) (3184140544957518,16) (7854923652961369,16) (-5306733778521933,16) (-9992087154894634,16) (-2884329090551097,17) (2738626406862578,17) (8024180073154276,16) (-4863614717642767,16) (-3458003185643776,16) (4685353376372702,16) (-2991308935318601,16) (8312612982209385,16), (2718950317397525,18));
  (AB60 (-2388692995212135,16) (-7982772045470889,16) (5528968822906583,16) (2955567105688974,16) (7632424577853839,16) (-5745495465766373,16) (-9960829388325445,16) (-3503474676170497,17) (8118710172228416,17) (8134188460978506,16) (-4431860565418863,16) (-3767438122911816,16) (4215333922559074,16) (-3200564012434976,16) (8484535928595557,16), (2807822048561268,18));
  (AB60 (-2045298079256621,16) (-7794821024648217,16) (5920939195827913,16) (2713641214084858,16) (7381762251176713,16) (-6176223557184647,16) (-9898644140018239,16) (-4130587734715041,17) (1358759227729766,16) (8221521636441267,16) (-3977704944190326,16) (-4072400441814624,16) (3722420582833593,16) (-3404057306986387,16) (8634580409912771,16), (2856301241020295,18));
  (AB60 (-1691239099624018,16) (-7584298374697187,16) (6294293325820505,16) (2466057989294858,16) (7105433965755154,16) (-6590247806549311,16) (-9805594561785775,16) (-4788644089420336,17) (1902893630165864,16) (8281486906173329,16) (-3511301235965271,16) (-4368951619460722,16) (3215346755236465,16) (-3594132729789882,16) (8760351315115362,16), (2858713768402766,18));
  (AB60 (-132917759350358,15) (-7357363215955901,16) (6640970820100558,16) (2221008000512159,16) (6806181712223947,16) (-6981619723377183,16) (-9683455750482721,16) (-5511815037319539,17) (2434519188338203,16) (8310797316880762,16) (-3042484930382163,16) (-4655527188850362,16) (2701836027105539,16) (-3763696781841784,16) (8861978820612717,16), (2799886027651103,18));
  (AB60 (-9636748917356759,17) (-7120681574552624,16) (6954654888408554,16) (1985633042542594,16) (6489076702273958,16) (-7345008166936805,16) (-953587176814867,15) (-6316048722786662,17) (2944184930798165,16) (8308683058672481,16) (-2581216879740117,16) (-4929817973340759,16) (2190863601211865,16) (-3907859822533841,16) (8940287930951147,16), (2667495816925735,18));
  (AB60 (-6061700160630352,17) (-6873568433326375,16) (7237859828982967,16) (1754586923624724,16) (6163807751198205,16) (-7676516054416486,16) (-9367080425495716,16) (-7097606821281696,17) (3428417138622421,16) (8282686070479521,16) (-2129220596512749,16) (-5183004062247144,16) (169056437107923,15) (-4034587154685456,16) (8992446752607691,16), (2540386597566158,18));
  (AB60 (-2674925587868394,17) (-6603906536725256,16) (7504456421699783,16) (150778466009067,15) (583736386214146,15) (-7978205848419818,16) (-9177560574858399,16) (-766542674583795,16) (3896767150196005,16) (8245698407206657,16) (-1673104153158616,16) (-5404551810286675,16) (1199354726438581,16) (-4164259708982844,16) (9012241081790453,16), (2536112186694573,18));
  (AB60 (-1880600254614881,16) (-7188542812899205,16) (6692398292798901,16) (1888316715726042,16) (718377377765964,15) (-6695345718670498,16) (-9742989885128646,16) (-4769035239564458,19) (2252581930715013,16) (8575945973285378,16) (-3050591592329746,16) (-4140898646441056,16) (3047644166458148,16) (-4133182185329894,16) (8580715008524943,16), (2643733952890239,18));
  (AB60 (-1543728892327492,16) (-6978532379828822,16) (6994067981559373,16) (1671678837860868,16) (6899454964630498,16) (-7042940511894425,16) (-9619823744293858,16) (-7907741519832394,18) (2729970309568522,16) (8586669404221917,16) (-2625755762734485,16) (-440164914742939,15) (2576883232399433,16) (-4273699201896014,16) (8665746819420241,16), (2463576705628887,18));
  (AB60 (-1212938928318844,16) (-6771490989664785,16) (7257801935369783,16) (1474531578221292,16) (660981784081792,15) (-7357721436425366,16) (-9481970997569993,16) (-1616731488468649,17) (3172709850298867,16) (857066036474421,15) (-2224169062200209,16) (-4647241428520159,16) (2124249561144626,16) (-438564877861771,15) (8732333513591075,16), (2341481321551578,18));
  (AB60 (-8810488107590375,17) (-6538398281310284,16) (7514858675186035,16) (1259986932580571,16) (6304201642391528,16) (-7659600158088813,16) (-9319363718563365,16) (-2341966389187557,17) (361864778825516,15) (854064896884785,15) (-180450504337733,15) (-4878634720835732,16) (1659763560474553,16) (-4499696599014198,16) (8774845607766606,16), (2471867935505774,18));
  (AB60 (-5455530804842294,17) (-625786154645353,15) (7780844472278854,16) (1003708930183738,16) (5974705659194646,16) (-7955844434719478,16) (-9121723748869053,16) (-2831558872588847,17) (4088273302120217,16) (8501397515203708,16) (-1340879276590199,16) (-5091982232303955,16) (1165879314149575,16) (-4633826382604447,16) (8784553402462593,16), (2622356393417272,18));
  (AB60 (-1939101875418858,17) (-5955149535144523,16) (8031101596495679,16) (7423448363952714,17) (5616198281545016,16) (-8240584991749559,16) (-8893289519556703,16) (-3389512535995059,17) (4560100170942107,16) (8434495179291445,16) (-8621879230610233,17) (-5302445007337379,16) (6527045278071435,17) (-4754010358483993,16) (8773446432890951,16), (2712278953360236,18))].

(** ahrens_beylkin/ahrens_beylkin_4992.hpp:1-10002. *)
Definition ab_4992 : coded := [  (AB12 (5257311121191336,16) (8506508083520399,16), (129730449698194,17));
  (AB60 (-100559009134561,15) (-9462038184073773,16) (3075487273801895,16) (5806461627838554,16) (6494936398899204,16) (-4909257025120268,16) (-9503437756842147,16) (-2967101785174571,16) (-9386041754866579,17) (5914847116465878,16) (-6427950483040251,16) (-4867857452351895,16) (4594180731721879,16) (-6698591585895162,18) (8881948901640448,16), (2570213897630226,18));
  (AB60 (-6157111492944956,17) (-9370480885400176,16) (3437293667550735,16) (5671966239220849,16) (6245543384036033,16) (-5368611256112946,16) (-9489790324287843,16) (-3124937501364143,16) (-422664421995571,16) (5984322405407442,16) (-6052496656737109,16) (-5249301817225278,16) (4121179068174898,16) (-1930467272989245,17) (9109259906771585,16), (2610802747812809,18));
  (AB60 (-2143541085725408,17) (-9252474896513366,16) (3787579782067704,16) (5525380477910037,16) (5970080085115842,16) (-5816211340007675,16) (-9445438384703756,16) (-3282394811397525,16) (9786737390724904,18) (6030565448580216,16) (-5657858602636052,16) (-5623247851817286,16) (3629227044696081,16) (-3122214824797899,17) (9312960259977741,16), (2627157057382995,18));
  (AB60 (-255898617127808,15) (-94319565693554,14) (2118911288610516,16) (5780387295214281,16) (7441021183365715,16) (-3349377026557033,16) (-9480839014415611,16) (-1990935385989684,16) (-2479892713717459,16) (5908363197835113,16) (-7361927725805094,16) (-3300494581496821,16) (6131461987858577,16) (-7909345756062097,18) (7899298583824796,16), (2491241739307692,18));
  (AB60 (-2208468922825779,16) (-9429322606929884,16) (2492095542180065,16) (5699980034658026,16) (727145006771962,15) (-3825734114802048,16) (-9556984434242292,16) (-2157872539210264,16) (-2001907747168385,16) (6034203037627828,16) (-7064888892062227,16) (-3698072287489642,16) (5731250319440243,16) (-2065611756573939,17) (8192075576838092,16), (2479318630355351,18));
  (AB60 (-1861682019186526,16) (-9398734686633281,16) (2863202114715968,16) (5596843647698733,16) (7090277846738329,16) (-4289906903333222,16) (-9610628526516507,16) (-2308456839894952,16) (-1518830584248738,16) (6151588922519748,16) (-674742641180054,15) (-4078013063449995,16) (5320721623183285,16) (-3428514349377887,17) (84600457624147,14), (2476942409149507,18));
  (AB60 (-150450785661938,15) (-9344005209919347,16) (3228935234155471,16) (548007289740905,15) (688697089022547,15) (-4747465955251263,16) (-9638845123296551,16) (-2457034319693878,16) (-102744685553499,15) (6251973811870642,16) (-640990988914108,15) (-4452626041874059,16) (4891379168045288,16) (-47706100108439,15) (8709008131564521,16), (2514158779828924,18));
  (AB60 (-1128406966727023,16) (-9265770500079273,16) (3587784101266772,16) (5353576820619066,16) (6654471922132563,16) (-5201655377212104,16) (-9638754780465308,16) (-261129857794671,15) (-5249057237929963,17) (6330062343939128,16) (-6050970679198537,16) (-4828671096826069,16) (4437099403253204,16) (-6035012429340265,17) (8941360921885837,16), (2567597214337546,18));
  (AB60 (-7383044996563497,17) (-9161919188179077,16) (3938799722639275,16) (5214599825589853,16) (6395416533069883,16) (-5648592393463584,16) (-9609696823063737,16) (-2766502655109194,16) (-1378506701092895,18) (6386896893119934,16) (-5670897100424462,16) (-5200814758578924,16) (3961104429600153,16) (-7245194326454207,17) (9153399548229129,16), (2603454873488304,18));
  (AB60 (-3391762545810573,17) (-9032930715492946,16) (4276812148953057,16) (5064577156614728,16) (6112472347566725,16) (-6081754683060506,16) (-9551011759075765,16) (-292045836792622,15) (4990964828629599,17) (6420930937641564,16) (-5274199610122708,16) (-5563673639477688,16) (3469257076015259,16) (-8382727374440171,17) (9341389305567784,16), (2606858170326385,18));
  (AB60 (-4061380284341949,16) (-9072334114006395,16) (1094506240180612,16) (5537383828307431,16) (8160113756320427,16) (-1658289426460127,16) (-914196112545008,15) (-9122203576859675,17) (-3948721413290989,16) (5719669710802076,16) (-8047454885269468,16) (-1588662415016442,16) (7483671698989953,16) (-11265887105096,15) (6631890068488043,16), (2420317091059501,18));
  (AB60 (-3743216193145652,16) (-9154389421284643,16) (1478339221844564,16) (5510169586721733,16) (8062352167517656,16) (-2153255361653656,16) (-93019436431693,14) (-1092037253766988,16) (-3504468446952733,16) (5896471554799309,16) (-7823604421324737,16) (-2005701139768999,16) (7148688281515644,16) (-2387477461929188,17) (6988508808566296,16), (2476484446238241,18));
  (AB60 (-3408710056618622,16) (-9214704840433773,16) (1862769565349795,16) (5470118694993169,16) (7940684237215662,16) (-2650157600506232,16) (-9439586933126851,16) (-1274020603218111,16) (-3044843187180016,16) (6058867657124853,16) (-7576817367777057,16) (-2425275507813153,16) (678942933262062,15) (-3638668694386054,17) (7332888260342965,16), (2493079936361777,18));
  (AB60 (-3062575196032065,16) (-9251446725571036,16) (2243070808639376,16) (5416654437096647,16) (7796545742382567,16) (-3142249066515489,16) (-9552500809986211,16) (-145490098318847,15) (-2575459454996333,16) (6204824262547554,16) (-7309430001346835,16) (-2841194982100315,16) (6410251743470722,16) (-487115741035732,16) (7659725245736023,16), (249214636477593,17));
  (AB60 (-2712973564236763,16) (-9261994500245844,16) (2618249857666036,16) (5345631087034035,16) (7634922670419029,16) (-3623835550636493,16) (-9640590817978336,16) (-1627071829826815,16) (-2100391854130035,16) (6336809114873256,16) (-70223409603123,14) (-3245239232904,13) (6016755267341843,16) (-6125817101067283,17) (7963880944700071,16), (2484589782231716,18));
  (AB60 (-2366100951553186,16) (-9244320219554492,16) (2990670487598909,16) (5252311510827407,16) (7460543995234181,16) (-4093104822552818,16) (-9705312807299652,16) (-1783776224320311,16) (-1620199276019748,16) (6459205774106004,16) (-6714642319700743,16) (-3632112234807658,16) (5612207984746834,16) (-7459016755334376,17) (8242981998426315,16), (2478666886003441,18));
  (AB60 (-2014258852648393,16) (-9201155190895343,16) (3358795085679875,16) (5142053157937122,16) (7268072000408543,16) (-4553506200481804,16) (-9745728676694069,16) (-19330831904868,14) (-1133120443254044,16) (6567765053130197,16) (-6386933591014194,16) (-4008932714683077,16) (5192222476212265,16) (-8811384093943482,17) (8500848243616996,16), (2496973832073607,18));
  (AB60 (-1647766424419363,16) (-9135027875407582,16) (3719695085095372,16) (5021357424839892,16) (7050033973006935,16) (-5008292183115254,16) (-9759428165747316,16) (-2084993902400647,16) (-6374655320643716,17) (6656058607534617,16) (-6039733080651942,16) (-438389189277552,15) (4751135982632062,16) (-1010300892354992,16) (8741052509935264,16), (2539758716931571,18));
  (AB60 (-1267113716493975,16) (-904470130463044,15) (4072812436080165,16) (4889351174248964,16) (6806035440414845,16) (-545638402961956,15) (-9745282954733604,16) (-2238665864215595,16) (-1335487947325688,17) (6723497746113535,16) (-5672470518653439,16) (-4755802379516396,16) (4288898925114044,16) (-1133564921761406,16) (8962163610329129,16), (2580345044797405,18));
  (AB60 (-8759428555000198,17) (-8929426672589363,16) (4415661152392485,16) (4745546123502666,16) (6537880329986059,16) (-5893718077791827,16) (-9702569732796802,16) (-2391546342603304,16) (3750288940817224,17) (6769660933291848,16) (-5286908580404317,16) (-5120575017584389,16) (3808851655004974,16) (-1250971749581742,16) (9161207275895151,16), (2598127586497542,18));
  (AB60 (-4761625608408673,17) (-8791715489227755,16) (474120321987217,15) (4594903307173701,16) (6246193717144956,16) (-6314422194122205,16) (-9630391173815718,16) (-25455217720828,14) (8808432023605413,17) (6790584754963072,16) (-4889187953943547,16) (-5475746509534243,16) (3315968979693513,16) (-1357005763201408,16) (9336106527045872,16), (2580196244906764,18));
  (AB60 (-6842510806708641,18) (-8636249046049925,16) (5040884884540388,16) (4445285282403952,16) (5931200694303953,16) (-671269670713128,15) (-9528459209413683,16) (-2705048351745973,16) (137520126136357,15) (6781121815198367,16) (-4487574324873296,16) (-5820486543767522,16) (2815762502282403,16) (-1443626369430657,16) (948617016694434,15), (2524085917027669,18));
  (AB60 (-5158324179696968,16) (-8557441885785432,16) (4023431726259038,17) (5127934493641887,16) (857622374467491,15) (-3907353454603012,17) (-8718297334310937,16) (1878185888947923,18) (-4898054596707091,16) (5549059525157269,16) (-8315954161685033,16) (-2298798969347956,17) (8327561988850636,16) (-2602695829898773,17) (553027766626779,15), (2009038852130689,18));
  (AB60 (-4881105095258083,16) (-8694668885215293,16) (7599644896405557,17) (5145808218017079,16) (8531073358421998,16) (-8610720856062566,17) (-8922461559187423,16) (-163595526793296,16) (-4512528806382953,16) (574217718086434,15) (-8162497069546868,16) (-6332794116341267,17) (8061389473581166,16) (-3685762888751298,17) (5905772707657635,16), (2233222890904391,18));
  (AB60 (-4582539017775502,16) (-8814307141428311,16) (1143820688364661,16) (5142931492994727,16) (8467965544703148,16) (-1357871566858722,16) (-9118917049117207,16) (-3463415967251641,17) (-40896698338249,14) (5940410584634224,16) (-7975096360752546,16) (-1053261659169826,16) (7761045482258485,16) (-4928691839506014,17) (6286752181359389,16), (2438104237644022,18));
  (AB60 (-4268911804719263,16) (-8910699943236405,16) (1541369042486337,16) (5119056869464884,16) (8385281397855632,16) (-1866095561851185,16) (-9298758502243379,16) (-5254185453807738,17) (-3641019866620673,16) (6135007366570447,16) (-7757389459757041,16) (-1478037002844211,16) (7432662940392194,16) (-6278919380985899,17) (6660425911951221,16), (2513178541609944,18));
  (AB60 (-3937762386919969,16) (-8986376415912861,16) (1933666542008593,16) (5086462469950711,16) (8276440721720036,16) (-237243093084651,15) (-945380000669676,15) (-7099356941928253,17) (-3181455129888099,16) (6310193317766479,16) (-7520133464688167,16) (-1905007340062612,16) (7081369075850249,16) (-7563072570318694,17) (7020129011959304,16), (2520319497999596,18));
  (AB60 (-3594479871873298,16) (-9038948330833054,16) (2318863411938717,16) (5042475738604114,16) (8144037669624047,16) (-2871948617460525,16) (-9582849883237896,16) (-8949106612090071,17) (-2714428673548431,16) (6466428489333823,16) (-726398647129918,15) (-2328047065055683,16) (6710901265777371,16) (-8800511983248672,17) (736133915054283,15), (2503713486644718,18));
  (AB60 (-3246437176616204,16) (-9065266833368923,16) (2698440827238127,16) (4981530254374931,16) (7992920337669366,16) (-3361187409297296,16) (-9686379599103117,16) (-1072346495699557,16) (-2241455610811828,16) (66076245859135,14) (-698793877186499,15) (-2740074643563103,16) (6325192189805821,16) (-1004981565804376,16) (7679971081613057,16), (2493443974744889,18));
  (AB60 (-2898500921613058,16) (-9063388168970327,16) (3074684911657936,16) (4899406556494981,16) (7826760478332111,16) (-3838962855901643,16) (-9765463554132682,16) (-1236627690638216,16) (-1762519085755694,16) (6737463777514702,16) (-6690778642474746,16) (-3136887470739288,16) (5926500698231039,16) (-1135981835857364,16) (7974091468152917,16), (2498919850500882,18));
  (AB60 (-254678773797431,15) (-9034229004225097,16) (344914170728338,15) (479727324975168,15) (764335246675748,15) (-4308750681593133,16) (-9820416341234645,16) (-1390876537467616,16) (-1274709905168094,16) (6855538419567444,16) (-6371274633951265,16) (-3522563344583586,16) (5511665659641511,16) (-1272077832806216,16) (824641495703506,15), (2519649243506532,18));
  (AB60 (-2183827299197392,16) (-8980380230531302,16) (381885705969244,15) (4681011944370475,16) (7437035243629991,16) (-4772696717964211,16) (-9849548500526788,16) (-1543344986901311,16) (-7774834964017499,17) (6956524017161603,16) (-6030691440834348,16) (-3903528447968724,16) (5076851782562577,16) (-1406343802795642,16) (8499869004062914,16), (2552007397765323,18));
  (AB60 (-1807849724569693,16) (-8902724656732309,16) (4180092470243197,16) (4553753020247607,16) (7205663090183007,16) (-5228934199371809,16) (-985115806682701,15) (-1697061566549303,16) (-2732522309704991,17) (7036783923941501,16) (-5671065596583812,16) (-4280500789277107,16) (4622223867455202,16) (-1534597493599194,16) (8733845490490804,16), (2584533941924928,18));
  (AB60 (-1421123353071044,16) (-8800765651858822,16) (4530665774079796,16) (441548482162314,15) (6950148489690577,16) (-5674410080463647,16) (-9824453130107058,16) (-1850617162168245,16) (2352377805922708,17) (7095533433534691,16) (-5293787356027263,16) (-4650722602215411,16) (4150043049643411,16) (-1656361133663314,16) (8946150595702936,16), (2603583042171083,18));
  (AB60 (-102565020861752,15) (-8675510294251305,16) (4866576084261137,16) (4268403876046514,16) (6671378310636814,16) (-6105197768075641,16) (-97688666498017,14) (-2004131983614492,16) (7434375364787324,17) (713084797669316,15) (-4902290565540562,16) (-5011841412525246,16) (3663668881726059,16) (-1769087745096252,16) (9134979960307652,16), (2597854859269874,18));
  (AB60 (-621647498956391,16) (-8531351516371188,16) (5179729306744927,16) (4120044066670099,16) (6369223531398145,16) (-6515997889485591,16) (-968397265679144,15) (-2162127984973044,16) (1243332682395241,16) (7137645388441981,16) (-4504243350046513,16) (-5363376749065339,16) (3167974767305849,16) (-1864980181351631,16) (9299773373415026,16), (2558740024231286,18));
  (AB60 (-2088512826875002,17) (-8373256715181844,16) (5463053461516,13) (3978041654440816,16) (6043768955369443,16) (-6902756073456915,16) (-9570172307251704,16) (-2329487759812401,16) (1727798826946238,16) (7111607356144415,16) (-4107118845735704,16) (-5705840481387054,16) (2667416233794789,16) (-1936650109633738,16) (9441095115956817,16), (2500484430470727,18));
  (AB60 (-4776484451498704,16) (-8640111065985366,16) (1591752823785255,16) (4718105404895778,16) (8676191301016789,16) (-1569454012213752,16) (-9261887966442631,16) (3608023503142205,18) (-3770428293139291,16) (6345938463712455,16) (-7670135142657376,16) (-9476771117564878,17) (7692433954228879,16) (-1006056158359413,16) (6309858228681033,16), (251204518474427,17));
  (AB60 (-4455961056860407,16) (-8726994251325855,16) (1995991582414355,16) (4685323175085093,16) (8585240666531327,16) (-2083600115844513,16) (-9435250143185082,16) (-1417535847945269,17) (-3309978951099807,16) (6539561172704921,16) (-7439258560770727,16) (-1375344223985285,16) (7351650027340569,16) (-1145982105760601,16) (6681314757499448,16), (2526794085577003,18));
  (AB60 (-4119605450919079,16) (-87946571949463,14) (2383874105765041,16) (4650061983077278,16) (8466817028518132,16) (-2586490471495071,16) (-9579992277749647,16) (-3278401664281683,17) (-2848906594385552,16) (670609592241415,15) (-7196118171984606,16) (-1801155388691726,16) (6993501806254575,16) (-1270698856533527,16) (703393608884232,15), (2497126301857062,18));
  (AB60 (-3776226220420493,16) (-8837650601481825,16) (2763339895549715,16) (4601221502457706,16) (8327775476624522,16) (-3078460052729625,16) (-9698397551435838,16) (-5098751248573029,17) (-2383508399682095,16) (6854686273150118,16) (-6935057655886123,16) (-2217713102775611,16) (6619937498706213,16) (-1392717820738398,16) (7364561398007421,16), (2481512228014296,18));
  (AB60 (-3431020033063958,16) (-8852027079533337,16) (3141610751815427,16) (4530391467844334,16) (8172578166578327,16) (-3561533273640792,16) (-9792489216175074,16) (-6794489129550101,17) (-1909320330845279,16) (6992553306704751,16) (-6650878464359647,16) (-2621071136999054,16) (6230955942534283,16) (-1521699702218679,16) (767200221965976,15), (2499642703096844,18));
  (AB60 (-3080611219767431,16) (-883839225728986,15) (3520320556273486,16) (4438288040992435,16) (7999301836034893,16) (-4038906956243523,16) (-9862531037206465,16) (-8390904212549666,17) (-1423519864665517,16) (7119518176010954,16) (-6342210480932979,16) (-3014768176326918,16) (5823624080962942,16) (-1657091355101915,16) (795860859726592,15), (2535087931889956,18));
  (AB60 (-271996912576194,15) (-8798279097078464,16) (3897698408652726,16) (4328591422428374,16) (7804095842677691,16) (-4512137450918387,16) (-9907323199152316,16) (-9941832544007732,17) (-9254980735838397,17) (7232106576680327,16) (-600962479049959,15) (-3403093348844535,16) (5395185748233929,16) (-17944710521781,14) (8226289831081101,16), (2570926840107431,18));
  (AB60 (-2347406339257457,16) (-8733087570537499,16) (4268824775478299,16) (4205415418656272,16) (7584774808063129,16) (-4978521092402744,16) (-9925017097202646,16) (-1148312762474369,16) (-418823852918675,16) (7325927431660202,16) (-5656192321724347,16) (-3786591565737596,16) (4946496004799902,16) (-1928582486338782,16) (8474240194134571,16), (2599597984625496,18));
  (AB60 (-196387470918607,15) (-8643799612451465,16) (462903060979329,15) (4071594817586521,16) (7341156946688373,16) (-543410805243065,15) (-9914366747303117,16) (-1302642665763092,16) (9194609999247531,18) (7397982761616719,16) (-5285336137509827,16) (-4163540917578997,16) (4480258694872468,16) (-2055820809178545,16) (8700625427379811,16), (2616914343641915,18));
  (AB60 (-1571117568525943,16) (-8531075914428224,16) (4975171688307024,16) (3928697522086154,16) (7074011371932616,16) (-5875687099371626,16) (-9874873268064303,16) (-1457064542495609,16) (6031922236493939,17) (7446804667897569,16) (-4899701579757278,16) (-4531889745735548,16) (3999186168692677,16) (-2174309792175337,16) (8903869210393178,16), (261720300790562,17));
  (AB60 (-1169933947769521,16) (-8397397516936793,16) (5302355089995407,16) (3780930282569193,16) (6783713037529195,16) (-6299666945387483,16) (-9806344316878509,16) (-1613684479407597,16) (1109789862876574,16) (7469600893157003,16) (-4503989226883101,16) (-4890720145445767,16) (3506677371491026,16) (-2279723810646095,16) (90832853725646,14), (2593789956199631,18));
  (AB60 (-7594017702084618,17) (-8248646510101449,16) (5602065663913217,16) (3637594322754232,16) (6469825686461346,16) (-6701437392818884,16) (-9708996091773116,16) (-1778820823640103,16) (1603493488392985,16) (7460839163027346,16) (-4106930427859898,16) (-5241087811147217,16) (3007558698954232,16) (-2362895258601447,16) (9239659986667449,16), (2543912369053627,18));
  (AB60 (-3400938814774382,17) (-8087941461349413,16) (5871076483028197,16) (3502649061167856,16) (6133374869003704,16) (-7079065070372905,16) (-9583915122314988,16) (-1954566592345709,16) (2080442348239474,16) (7419158951850343,16) (-3712838639286791,16) (-558309140940733,15) (2504850051942082,16) (-2420536229716913,16) (9373725544196052,16), (2496330487271611,18));
  (AB60 (-3956397063479853,16) (-8610285601330868,16) (3195294061522713,16) (4145626418026817,16) (849333542855164,15) (-3267573243290449,16) (-9786108337770355,16) (-1169501727792284,17) (-2053875911175854,16) (7223970306770302,16) (-6590814276247642,16) (-2091750506850963,16) (6518535094479906,16) (-1902521152303999,16) (7340920479549531,16), (2494233874991699,18));
  (AB60 (-3608031204467249,16) (-8612629576351527,16) (3578368707685881,16) (4063636381266258,16) (8331050091639335,16) (-3752394399772698,16) (-9871891005783121,16) (-2815794847121933,17) (-1570503410925154,16) (7360425604239946,16) (-6293522298097239,16) (-2493132970341105,16) (6119496606010423,16) (-2037527793542095,16) (764200508895214,15), (2546146603382502,18));
  (AB60 (-3249150958748644,16) (-858728684527698,15) (3962514691984836,16) (3961960783866104,16) (8146746145839522,16) (-4234783817664837,16) (-993256120293691,15) (-4405406994374583,17) (-1072451323861196,16) (7483934776413482,16) (-5970046510952074,16) (-2889509460004908,16) (5697777385272073,16) (-2176699634887449,16) (7924475475850941,16), (2588971291593797,18));
  (AB60 (-2879174749779027,16) (-8535337418732013,16) (4342622238766344,16) (3844207977638467,16) (7938914083641857,16) (-4711232131535628,16) (-9966258071318723,16) (-5964233350901563,17) (-5638964986895491,17) (7590406881314655,16) (-5623635832552379,16) (-3280311478948918,16) (5255025939783096,16) (-2315278251089477,16) (8186830216404811,16), (2617228655906324,18));
  (AB60 (-2498702469345431,16) (-8458274394016435,16) (47131815417203,14) (3714155430071222,16) (7707083152561205,16) (-5177443260990862,16) (-9971620025620291,16) (-7511912414552302,17) (-5005780068421566,18) (7676145730336292,16) (-5258438483899991,16) (-3664097629387006,16) (4794176764629429,16) (-2448644668661215,16) (8427336971791523,16), (263218738866402,17));
  (AB60 (-2108606533899647,16) (-8357785531746702,16) (5069635045101492,16) (3575177754548348,16) (7451394670463384,16) (-5629815404466875,16) (-994800330649993,15) (-9063908612833191,17) (4644198751652988,17) (7738421938366521,16) (-4878368261398437,16) (-4039597629713647,16) (4318187902033055,16) (-2573026409064946,16) (864481279964984,15), (263374099675673,17));
  (AB60 (-1709849854329207,16) (-8235511123242267,16) (5408582995073967,16) (343000429571267,15) (7172397212568199,16) (-6065623525783361,16) (-9895332616421143,16) (-1063113910674069,16) (9757977368918155,17) (7775473380112568,16) (-4486749621347176,16) (-4405802032604486,16) (3829709090637782,16) (-2685647591221023,16) (8838587290786637,16), (2618744257411969,18));
  (AB60 (-1302435749821582,16) (-8095232377957228,16) (5724585038625914,16) (3284413267092412,16) (6870302907345723,16) (-648163308528524,15) (-9813947867271018,16) (-1224929470611505,16) (1478504328879038,16) (7784068835106821,16) (-4089362828645104,16) (-4762917595971449,16) (3332314781985778,16) (-2780940078700619,16) (9008998305718325,16), (2582272219728901,18));
  (AB60 (-88563512177723,15) (-7943673433182797,16) (6009467764953937,16) (3148156619288207,16) (6545358247443702,16) (-687367407672582,15) (-9704976991131125,16) (-1398315185739095,16) (1964213899489285,16) (7759309198503049,16) (-3695509226177188,16) (-5112370518777491,16) (2831302914405305,16) (-2849849021266515,16) (9157624384242145,16), (2526094788163522,18));
  (AB60 (-462412570251543,16) (-7779882217438033,16) (6265748741983261,16) (3018289214530863,16) (620026358022139,15) (-7242006749045937,16) (-9569824641754776,16) (-1579618637216644,16) (2433775110198332,16) (770441931929748,15) (-3304075899771515,16) (-5452064324729194,16) (2327817892708839,16) (-2896187680449875,16) (9284037956514124,16), (2490907009627358,18));
  (AB60 (-4316431171055242,18) (-7582619543843118,16) (6519357153548418,16) (2861450990205427,16) (5840822586492238,16) (-7595846874692413,16) (-9407485155491961,16) (-174179695735088,15) (2909530272838143,16) (7639011186402965,16) (-2888128001943543,16) (-577098126304357,15) (1811638280799549,16) (-2952694584548695,16) (9380808143753845,16), (2495686755932325,18));
  (AB60 (-3400607444925461,16) (-8309416271358445,16) (4403347616848008,16) (3469939676760753,16) (8266566595568349,16) (-4429830172893202,16) (-9974978276968632,16) (-4284967579009724,18) (-7056715094777372,17) (7830437617818663,16) (-5571630660120623,16) (-2764268167283015,16) (554514810407543,15) (-2694935935447724,16) (7873287293608761,16), (2630875391428603,18));
  (AB60 (-3023402483860352,16) (-8245178264341501,16) (4782893769447272,16) (3344759704431294,16) (8046568579498462,16) (-4905641305175175,16) (-9996218970575119,16) (-1986096848430388,17) (-1901591054897381,17) (7929043789035527,16) (-5213325201127847,16) (-3154600598941556,16) (5090577665399945,16) (-2833243378370615,16) (8127653473878566,16), (2643659205221484,18));
  (AB60 (-2636844012092389,16) (-8156660662084475,16) (5149363115910176,16) (3209365923768495,16) (7802822661364577,16) (-5368047026866384,16) (-9988388262183406,16) (-3538380007198986,17) (3269535029989571,17) (8004891038958772,16) (-483902514627323,15) (-3536319426767452,16) (4620341235317023,16) (-2963797515091346,16) (8358729039678672,16), (2644089361537665,18));
  (AB60 (-2241434332997672,16) (-8046185721821986,16) (549862414252941,15) (3067547616914579,16) (7535619633803545,16) (-5814171338427876,16) (-9951454360787501,16) (-51056608801844,15) (8413550825477825,17) (8055605671425549,16) (-4452830218258091,16) (-3908902699462362,16) (4137283022359624,16) (-3082789415545455,16) (8566171759443989,16), (2631443841880197,18));
  (AB60 (-1837818991024968,16) (-7916268218291077,16) (582710209729524,15) (2922927171168413,16) (7245634481491884,16) (-6241576540639492,16) (-9885863870087122,16) (-6706337367991931,17) (1349053717675035,16) (8079395531664461,16) (-4058761772791882,16) (-4271980888843448,16) (3644287329447629,16) (-3186872708700003,16) (8750029268463654,16), (2602527986340946,18));
  (AB60 (-1426247821017723,16) (-7771850556764794,16) (6128960440103766,16) (2782344143228518,16) (6933736937619794,16) (-664694314316956,15) (-9792774213101714,16) (-8381136191450003,17) (1843675343604123,16) (8073190964187283,16) (-3663813772997948,16) (-4626019486832642,16) (3145831069932153,16) (-3269923164621846,16) (8911304583332285,16), (2552441885725827,18));
  (AB60 (-1006922732702081,16) (-7619494934216942,16) (6397609206399696,16) (2654340050708074,16) (6601335038034043,16) (-7026866628222791,16) (-9674261729962581,16) (-1018159896182898,16) (2317759781769078,16) (8033789360924872,16) (-3276652523562885,16) (-4972099832477151,16) (264739510173979,15) (-3324682514471158,16) (905194925710777,15), (2493578833818505,18));
  (AB60 (-5846238745130063,17) (-745172049383907,15) (6643047238056359,16) (2526386185277859,16) (6251645387712855,16) (-7384734442694996,16) (-9530750848417908,16) (-1200075106126214,16) (27793179028383,14) (7969358317208002,16) (-2887703610361549,16) (-5305704088116158,16) (2146016405722912,16) (-3363941777351306,16) (9169433423334217,16), (2481410892026098,18));
  (AB60 (-1682565234282052,17) (-7245661905451607,16) (6889998061988932,16) (2364870460857285,16) (58880798319587,14) (-7729029925925106,16) (-9358856773153741,16) (-1357582073492906,16) (3250964597365686,16) (7897286449353311,16) (-2468858711164809,16) (-5615835058222971,16) (1629826847228635,16) (-3419221120793892,16) (9254868522846218,16), (2494241433705731,18));
  (AB60 (-2366081515134586,16) (-7712033302769818,16) (5909839304135746,16) (2553086952805453,16) (7596457586208173,16) (-5981269025244966,16) (-9925245053447221,16) (-1155757165616458,17) (121497032176211,15) (8347350540379552,16) (-4015405749311476,16) (-3768057274567563,16) (3943976028202255,16) (-3581051836896696,16) (8462926256941199,16), (2603675815647374,18));
  (AB60 (-1961265907745989,16) (-7577196138022974,16) (6224109151118981,16) (2411961373831597,16) (7298651021406592,16) (-6396259500588207,16) (-9848199516914015,16) (-278545116616381,16) (171329474786557,15) (8357525408334197,16) (-3624090365795034,16) (-4125256121697167,16) (3451940016325807,16) (-3674560655611559,16) (8636070524950578,16), (2558533110695918,18));
  (AB60 (-1550270379179763,16) (-7431829217491734,16) (6508807589218937,16) (2279012448590972,16) (6981441849563672,16) (-6787162290702083,16) (-9745939823895189,16) (-4503873679280626,17) (2194039235707657,16) (8337432669881846,16) (-3237132234676253,16) (-4473051684298629,16) (2958777533193105,16) (-3744309614887419,16) (8787820037809909,16), (2497401968506371,18));
  (AB60 (-1132780085665383,16) (-7279616942531574,16) (6761951378672224,16) (2158309832351613,16) (6645804702605413,16) (-7153668885432294,16) (-9620357805744062,16) (-6338122399261599,17) (2654618189868192,16) (8286448971097677,16) (-2858406427071838,16) (-4812928022219806,16) (2466688920311768,16) (-3787398275533576,16) (8920261211023838,16), (2462128998801536,18));
  (AB60 (-7132895603093557,17) (-7105279256609578,16) (700044460650517,15) (2027650769078532,16) (6292959356095831,16) (-7502485914760599,16) (-9468932567675352,16) (-8123199005137474,17) (3111181834616293,16) (8215775475069954,16) (-2468487961170182,16) (-5138832603694825,16) (1966446652914753,16) (-3824471394925649,16) (9028095375583702,16), (2486758084084705,18));
  (AB60 (-2967051497120338,17) (-6891550931395765,16) (724006158911045,15) (1863664092964864,16) (5923117045489897,16) (-7838586646457414,16) (-9287099549234478,16) (-9684338859058669,17) (3579373935653836,16) (8135291796169447,16) (-2047037960124027,16) (-5443038028618701,16) (1448512902777064,16) (-387607908536587,15) (9103725682075314,16), (2488618813632341,18));
  (AB60 (-1682616648682969,16) (-7079338091348862,16) (6859429524526944,16) (1777632923102404,16) (7020614804273265,16) (-6895722511870781,16) (-9676976726551864,16) (-587232870755974,17) (2520450953565376,16) (8578339160553751,16) (-281754720202492,15) (-4298083876667779,16) (2781254214681083,16) (-4203067602248345,16) (8637062447629348,16), (2460987690688309,18));
  (AB60 (-1263951598202861,16) (-6923126843264004,16) (7104417011231662,16) (1658136240886072,16) (6679507336242547,16) (-7254982146893416,16) (-9543718299941852,16) (-2436195070214571,17) (2976254449329496,16) (8518933745096277,16) (-2439301288710191,16) (-4634390690215567,16) (2288736153048437,16) (-4240206047532357,16) (8762553252117734,16), (2483653661564176,18));
  (AB60 (-8412102611629578,17) (-6738837378013447,16) (7340329426476921,16) (1521720981361588,16) (6318258623222024,16) (-7600261391884128,16) (-9381946940922392,16) (-4205787547914229,17) (3435430847613595,16) (8441471653047086,16) (-2041617514445471,16) (-4957151828975183,16) (1781685549038264,16) (-4276641108776553,16) (8862050407838509,16), (2511620168448799,18));
  (AB60 (-4201111170123198,17) (-6520469609232938,16) (7570137563111539,16) (1360280468936402,16) (5939412994562895,16) (-7929250300365577,16) (-9190060981413238,16) (-581056614670044,16) (3899378459248876,16) (8349361417377896,16) (-1619923418301699,16) (-5259658928185277,16) (1260810681047662,16) (-4319489576261195,16) (8930418032047941,16), (2463492925851476,18));
  (AB60 (-7296186708857096,19) (-6267763718852787,16) (7791988496545166,16) (1172478471318872,16) (5547641463874544,16) (-8237048526176938,16) (-8968976259238377,16) (-7201222549782428,17) (4363357514472476,16) (8244344712885795,16) (-1176987762693211,16) (-5535835985791348,16) (7319277330614389,17) (-4370653701181333,16) (8964466967864038,16), (2295920125460547,18));
  (AB60 (-5223254721058099,17) (-6129396969677103,16) (7884013501339441,16) (855372115593748,16) (5923562824162489,16) (-8011225999312764,16) (-9062200511884414,16) (-2058341455146146,17) (4223050341511705,16) (8533551471418573,16) (-1178187010544974,16) (-5078422457105454,16) (105097451257165,15) (-4745375813617515,16) (8739385616933188,16), (2398838780898126,18));
  (AB60 (-1011851467436552,17) (-5899246030477856,16) (8073949333378908,16) (7043476960439685,17) (5526471074269229,16) (-8304336926470594,16) (-8840832889267102,16) (-3727749562086277,17) (4658402371637381,16) (8405522073214249,16) (-7668835558881931,17) (-5362750067681349,16) (5364959627965076,17) (-4759587518381035,16) (8778297029422877,16), (2137741457770731,18))].

(** ahrens_beylkin/ahrens_beylkin_5232.hpp:1-10482. *)
Definition ab_5232 : coded := [  (AB12 (5257311121191336,16) (8506508083520399,16), (1649376815482523,18));
  (AB60 (-1420343694325825,16) (-9472249968255406,16) (2873865746494488,16) (578736798663896,15) (6773280525909432,16) (-454192059646165,15) (-95390544119334,14) (-2698969442345974,16) (-1312251833855304,16) (5962264290787475,16) (-6665188665438911,16) (-4475116152783657,16) (4997133815471749,16) (-108091860470521,16) (8661233733133449,16), (2420962644447124,18));
  (AB60 (-1021811303164611,16) (-9419163128113728,16) (3199260481221847,16) (5704875745100696,16) (6524870131491169,16) (-4988031926535373,16) (-9535650341767096,16) (-2894292996622559,16) (-8333310322186911,17) (6009843229699985,16) (-633638986054525,15) (-4871544712882005,16) (4547618415231723,16) (-1884802709459202,17) (8904136226322543,16), (242809715893985,17));
  (AB60 (-6066105396263207,17) (-9345297674343936,16) (3506769885680563,16) (5619666727485146,16) (6247058562734205,16) (-5421586961929656,16) (-950134254458869,15) (-3098239111609732,16) (-3541246358002428,17) (6028197501555977,16) (-5994572658908127,16) (-5265542091684903,16) (4079755582659034,16) (-2524859038260779,17) (9126436613165709,16), (2432869935355353,18));
  (AB60 (-179722279014778,16) (-9248686626053847,16) (379861759005542,15) (5527498622614784,16) (5943579081476407,16) (-5841286389077986,16) (-9437190689636928,16) (-330510754457744,15) (1252837028801198,17) (6021008668092764,16) (-5638573099581509,16) (-5652782325494904,16) (3595904300558943,16) (-3050059818948978,17) (9326116212670204,16), (2433408185495325,18));
  (AB60 (-3345585727482474,16) (-9286313284264965,16) (1603571553298948,16) (567715663948036,15) (7845323213469683,16) (-249415239450155,15) (-9348413884640019,16) (-1440990070795283,16) (-3245104845353863,16) (5839738121984024,16) (-7744842331341071,16) (-2432051794126497,16) (6854261490138469,16) (-1004808821286111,17) (7280728192779307,16), (2397362548192586,18));
  (AB60 (-2996605168063877,16) (-9335582891627439,16) (1966532364413549,16) (5643377107152302,16) (7699787872801325,16) (-2977509284675861,16) (-9461913316292918,16) (-1635795018826113,16) (-2792198247141922,16) (5974114452739738,16) (-7495380951879369,16) (-285117886001038,15) (6484404031617057,16) (-2044069209219554,17) (7609909471565851,16), (2438693257618254,18));
  (AB60 (-264227972278754,15) (-9358392693505051,16) (2332132942329206,16) (5588522919681648,16) (7537514258701344,16) (-3457497704419606,16) (-9553674538478203,16) (-1820878434803707,16) (-2326307060235193,16) (6099777427207146,16) (-7221541596148997,16) (-3262215859446455,16) (6096176834058596,16) (-315972662552347,16) (7920655862010852,16), (2447255864948733,18));
  (AB60 (-2278601023633215,16) (-935706228359622,15) (2693206786713331,16) (5519292571794716,16) (7354204759777896,16) (-3931040811056508,16) (-9620752237913677,16) (-2002857523818325,16) (-1851941715055665,16) (6209641834689722,16) (-6927545451200345,16) (-3667350856739052,16) (5689711426857169,16) (-4266593085775505,17) (8212499358508047,16), (2442134017665897,18));
  (AB60 (-1900475748489757,16) (-9334101423393536,16) (3043475406045705,16) (5442429672041121,16) (7145053512052746,16) (-4396381418256279,16) (-9660463685448393,16) (-218904791134079,15) (-1372410515839698,16) (6296857166746036,16) (-6616988279402688,16) (-4070019156201423,16) (5264082267192113,16) (-5280652326500584,17) (8485905078086826,16), (2438189624225279,18));
  (AB60 (-1505289814726513,16) (-9291016080205724,16) (3378035341887247,16) (5362412098743708,16) (6907183409918471,16) (-485132495561719,15) (-9670767709050972,16) (-2383832670287252,16) (-8908387719717666,17) (6356614770343703,16) (-6292732367163726,16) (-4471573326771942,16) (4819442753433782,16) (-6144510427547466,17) (8740447440630955,16), (2438156722729848,18));
  (AB60 (-1094009679795133,16) (-9228031457021031,16) (3694127535527823,16) (5280502922525319,16) (6640636339342012,16) (-5293225660578991,16) (-9650765624187922,16) (-2587395117679018,16) (-4100114291132212,17) (6387235340374123,16) (-59566380886601,14) (-4870491493412098,16) (4357539963608933,16) (-6839982506819119,17) (8974630458053142,16), (243852551348673,17));
  (AB60 (-6708493408916623,17) (-9144072147298863,16) (3991980176155486,16) (5194415829876899,16) (634835430673596,15) (-5719828824577819,16) (-9601003700033897,16) (-2795717840562903,16) (6848144196588673,18) (6390678165469481,16) (-5609023523878411,16) (-5262897271842786,16) (3881174875456078,16) (-7393307828575491,17) (9186396006032385,16), (2435916786731296,18));
  (AB60 (-2415252501155463,17) (-9037140250139217,16) (4274548122652301,16) (5099290574729975,16) (6034876170156833,16) (-6130049367284347,16) (-9523109511095004,16) (-3002264079982384,16) (5447895315985845,17) (6371574617399893,16) (-5248561388442703,16) (-5644080106328561,16) (3393060143810657,16) (-7863147817141308,17) (9373838697382277,16), (2430284830854913,18));
  (AB60 (-5057489185557675,16) (-8618868233232901,16) (3700182645977507,17) (5224951633460086,16) (8515370748589953,16) (-433983227857213,16) (-8720670112467503,16) (-1034974846429483,17) (-4892770284837476,16) (5491472413414888,16) (-8350651847869753,16) (-3321813486226102,17) (8286686884610291,16) (-1647189007201995,17) (5594969898057837,16), (1959895420024045,18));
  (AB60 (-4797654462671442,16) (-8743969472353453,16) (7249203565631618,17) (5229002961043823,16) (8477381439363094,16) (-8896808219451824,17) (-891903684181555,15) (-2665880329903599,17) (-4514389508560736,16) (5687335284616625,16) (-8194116485252387,16) (-7146134524830867,17) (8029356019870367,16) (-2832649541107062,17) (5953923317606984,16), (2074386806402601,18));
  (AB60 (-4495333625703413,16) (-8870197582992513,16) (1054310406044628,16) (5259850899354708,16) (8397699922889609,16) (-1346330019593018,16) (-9092430276854344,16) (-4724976601029045,17) (-4135753573623521,16) (5841663645296432,16) (-8038119870809716,16) (-1124097325731187,16) (7746100257261326,16) (-3595800520798927,17) (6314161305399336,16), (2142289710853065,18));
  (AB60 (-4170106391899173,16) (-8983163872333737,16) (1383105029648726,16) (5287345977700252,16) (8292671834731816,16) (-1809852577847884,16) (-9247718494245856,16) (-6904920376019208,17) (-3742048021764487,16) (5979958969747057,16) (-786461346459713,15) (-1545297955935765,16) (7437865916397972,16) (-4280583701346864,17) (6670451007348978,16), (2262921203153391,18));
  (AB60 (-3832951092576409,16) (-9072358011236435,16) (1732283475032706,16) (528910304641349,15) (817240661098055,15) (-2288484028613903,16) (-9390280573874462,16) (-8999514002558842,17) (-3318541580437614,16) (6121435121190312,16) (-7657997098841756,16) (-1970561465975876,16) (7101796545260559,16) (-5144095121387949,17) (7021386521446197,16), (2375473737272536,18));
  (AB60 (-3487112206663922,16) (-913485613058077,15) (2096294810308513,16) (5264529512504285,16) (8036351823379159,16) (-2775207808947264,16) (-9515978189115748,16) (-1098504307201611,16) (-2870443762091999,16) (6262320015611186,16) (-7419683378807236,16) (-2394085750412285,16) (6740770380168484,16) (-6166684445719229,17) (7360824322812797,16), (2440154549305574,18));
  (AB60 (-3133175129543315,16) (-9170903732302584,16) (2465306946497688,16) (5218559138578769,16) (7882065535123156,16) (-3261852758353713,16) (-962027480784008,15) (-1288838197179428,16) (-2406077455762551,16) (6395027887897029,16) (-7154967861342393,16) (-2812481682816217,16) (6358422049486367,16) (-7270976737807643,17) (7683866085076456,16), (2466059367988657,18));
  (AB60 (-2768967688297525,16) (-9182281902177412,16) (2831698608628652,16) (515711472912967,15) (7706325860810662,16) (-3743889608094049,16) (-9700129482876417,16) (-1475956041366749,16) (-1931072701734629,16) (6512857296391574,16) (-6868430874247765,16) (-3226042027395042,16) (5956239874782369,16) (-8378949865628967,17) (7988813337758323,16), (2469790418815052,18));
  (AB60 (-239127747365834,15) (-9171109549414893,16) (318944222029576,15) (5085916994976718,16) (7505730737811389,16) (-4218702930010633,16) (-9753249970525313,16) (-1665378811603505,16) (-1449354486076505,16) (6609980403668972,16) (-6563807750229553,16) (-3636562508900213,16) (553454704051468,15) (-9419229875818354,17) (8275359215272478,16), (2464955541595189,18));
  (AB60 (-1998125443775364,16) (-9138988713307584,16) (3533607223358884,16) (5009338849767657,16) (7277956481025012,16) (-4683788397068604,16) (-9777855511165683,16) (-1861032232282573,16) (-9644172505571519,17) (6681913840843968,16) (-62442482878068,14) (-4044921599210505,16) (5094067114097079,16) (-1033708193218212,16) (8542946073126542,16), (2458569318040692,18));
  (AB60 (-1590102981909348,16) (-9086751015789634,16) (3860379318664042,16) (4929777491879341,16) (7022718657266529,16) (-513602147011093,15) (-9772894498975919,16) (-2064032358523105,16) (-4798995049546961,17) (6726124452020278,16) (-5912515180311877,16) (-4449877986924645,16) (463687302886499,15) (-1110203476954652,16) (8790156810543384,16), (2451672590976315,18));
  (AB60 (-1170653726468411,16) (-9014353589296489,16) (4167853070807935,16) (4847086815634596,16) (6742192982827013,16) (-5572125553504645,16) (-9738443678456732,16) (-2272160606469475,16) (9486487098047541,20) (6742779279973057,16) (-5570590607648798,16) (-4848035464344401,16) (4166318124952088,16) (-1171602375178216,16) (9014939886442531,16), (2442406948933157,18));
  (AB60 (-7447554245078933,17) (-892084578177271,15) (4456887915967161,16) (4758529800842739,16) (6440196794024364,16) (-5990013304553661,16) (-9675701882461634,16) (-2480648987748346,16) (4766274030219978,17) (6734768729061553,16) (-5218813966494473,16) (-5235157203864736,16) (3685688577907974,16) (-1221382827529891,16) (9215417716809899,16), (2430474460069394,18));
  (AB60 (-317170532666076,16) (-8804363380640015,16) (4731024023914215,16) (4659356502924357,16) (6120744865547457,16) (-6389591479079938,16) (-9586402696256116,16) (-2683618515092557,16) (9481956605394809,17) (6706762011746014,16) (-48553786723419,14) (-5607552163463837,16) (3196811217176177,16) (-1265366193205557,16) (9390380526838571,16), (2420273538790518,18));
  (AB60 (-4982392151514412,16) (-8596698437463924,16) (1128071107613754,16) (4851195730159683,16) (8677782285063499,16) (-10779585338586,14) (-9058554532690058,16) (8108384759957487,18) (-4235093291527218,16) (6060350685373012,16) (-7930483425076305,16) (-6161024386324652,17) (7980595998831459,16) (-7472988599871939,17) (5979266837773437,16), (2161525025598992,18));
  (AB60 (-4662129464882709,16) (-8722149369375458,16) (1479411785466022,16) (4875983939943528,16) (8589980035141604,16) (-1561096926292989,16) (-9236750194659424,16) (-1321693342338535,17) (-3829487838934506,16) (6223226391175697,16) (-7757338409193402,16) (-1046496101009023,16) (7675653268366436,16) (-8326416259482029,17) (6355395725409551,16), (2268158695368569,18));
  (AB60 (-4325654980525065,16) (-8827210661917344,16) (183550018240028,15) (4886912446433843,16) (8480334471546084,16) (-2049881457937797,16) (-9395814430403877,16) (-3468761903712601,17) (-3405634756982578,16) (6375536438462862,16) (-7560314248003598,16) (-1481277689451264,16) (7345932972466079,16) (-9200202235424866,17) (6722412628834122,16), (2380913592774357,18));
  (AB60 (-3981005004392582,16) (-8904630737001936,16) (2204348110585434,16) (4871625338526343,16) (8354197099435484,16) (-2544534807152742,16) (-9536369851209816,16) (-5504336375664526,17) (-2958829645581481,16) (6525539811545323,16) (-7332021740624383,16) (-1912795692944863,16) (6991835044057074,16) (-1022175358811101,16) (7075973449111776,16), (2450695743705053,18));
  (AB60 (-362802852117513,15) (-8954826519005922,16) (2578466804914907,16) (4834250963977666,16) (8209340051361028,16) (-303920278007255,15) (-9654962707132821,16) (-7454864676448932,17) (-2495184372032016,16) (666723130124768,15) (-7076495902217914,16) (-233906659194565,15) (6615759927060272,16) (-1132844149143114,16) (7412717768892573,16), (2483143173339156,18));
  (AB60 (-3264471236413286,16) (-8979827851310056,16) (2950579486722318,16) (4780766505210242,16) (8042705838212879,16) (-3529752742422098,16) (-9748900171332365,16) (-937122013097177,16) (-2020086082810454,16) (6794223978835384,16) (-6798320684610046,16) (-2760680422399789,16) (6219147428910267,16) (-1244385153602832,16) (7731345991932561,16), (2492198320871385,18));
  (AB60 (-2887901755748361,16) (-8981648031243119,16) (3315120222859517,16) (4716335062728721,16) (7851614101366886,16) (-4013519599963645,16) (-9816276726811223,16) (-1130033929876233,16) (-153744415833318,15) (6901421355712006,16) (-6501156503951705,16) (-317889090439554,15) (5802757126847579,16) (-1350457597415181,16) (8031455285588238,16), (2488448057481909,18));
  (AB60 (-2497001291233057,16) (-8961803779805031,16) (3667568344810048,16) (4644851551743683,16) (7634359316064148,16) (-4487974141579791,16) (-9855651564488135,16) (-1327444463740884,16) (-1050725194846997,16) (6984975432812848,16) (-6188083219678088,16) (-3594126356896687,16) (5367677422908343,16) (-144627609638606,15) (8312419896553731,16), (2478380051719304,18));
  (AB60 (-209252836485501,15) (-8921191591496875,16) (4004205992463759,16) (4568665785412158,16) (7390854504777065,16) (-4950006326301096,16) (-9866125429779553,16) (-153033708671981,15) (-5635932973937399,17) (7042534691156106,16) (-5861919437315795,16) (-4005072488018418,16) (4916119103478457,16) (-152893506746127,15) (8572871777875917,16), (246474420646064,17));
  (AB60 (-1677553983304712,16) (-8860268050060139,16) (4322205769532728,16) (4488611852627123,16) (7122938742476028,16) (-5395934331271028,16) (-9847603001804937,16) (-173732930758411,15) (-8001247310089249,18) (707348831457574,15) (-5525397232272209,16) (-4408599379526231,16) (4451668670533908,16) (-159754151020382,15) (8810817622159851,16), (2447686240377988,18));
  (AB60 (-1256345132271586,16) (-8779159617360448,16) (4620384542603034,16) (4404065058801185,16) (6833761715699834,16) (-5822706567472019,16) (-9800913594748542,16) (-1945397901660614,16) (3968875312827405,17) (7079051699743605,16) (-5180529052145507,16) (-4800952590083926,16) (3978207027276522,16) (-1653232663554326,16) (9024449601404219,16), (2428291852256339,18));
  (AB60 (-8328687968890662,17) (-867714569355911,15) (4900354291264781,16) (4312410570800981,16) (6526670612006444,16) (-622942098362403,15) (-9727506086712437,16) (-2150475081552666,16) (8666500196697208,17) (7062289780513097,16) (-4827151795447657,16) (-5179060590470702,16) (3498085103088407,16) (-1699518816558787,16) (9212764862065762,16), (2412339408115706,18));
  (AB60 (-4099698201201472,17) (-855206565606065,15) (5166633116548782,16) (4208762252891043,16) (6204282816402337,16) (-6617642709661364,16) (-9628770652635756,16) (-2347782839658313,16) (1332175460195215,16) (7027612529781512,16) (-4462137536086974,16) (-5540937713086258,16) (3011127942974392,16) (-1742145280315362,16) (9375395369439825,16), (2407727064845709,18));
  (AB60 (1044050971920687,18) (-8399320911456339,16) (5426905123744937,16) (4084967091637755,16) (5868219816033057,16) (-6991211629678616,16) (-9505419625516348,16) (-2531101095423282,16) (1800145823980853,16) (698077111995941,15) (-4078514501771411,16) (-5885112915618608,16) (2514207995837732,16) (-1789705314261646,16) (9511872215382692,16), (2418740993013253,18));
  (AB60 (-4465295094195679,16) (-8646874530255553,16) (23005870076504,14) (4465322870373886,16) (8646857363633343,16) (-2300597617206397,16) (-9525614016035379,16) (-1716662220935204,21) (-3043464738947315,16) (6765892711402076,16) (-7225027008384979,16) (-1421858131426571,16) (7225016398828982,16) (-1421830355248364,16) (6765909878024285,16), (2440558812223517,18));
  (AB60 (-4116796560903575,16) (-8710769487010709,16) (2678522170954665,16) (4435739363893531,16) (8513651994295754,16) (-2800347481229666,16) (-9658581734255282,16) (-1971174927149546,17) (-2583204129908437,16) (6917144042133241,16) (-6980059563300617,16) (-1852535233985094,16) (6858234253025615,16) (-1533592430995137,16) (7114261534848196,16), (2483713004799159,18));
  (AB60 (-3756854372860776,16) (-8749472405435704,16) (3054959549263462,16) (4390060246574589,16) (8358129653604495,16) (-3296822671146065,16) (-9766883489049681,16) (-3913427518312103,17) (-21106486590425,14) (7053677044006841,16) (-6711923939786218,16) (-2279411587532089,16) (6470060817903616,16) (-1646205713818275,16) (7445019795838052,16), (2499649603749992,18));
  (AB60 (-3383724770139643,16) (-8764819279513255,16) (3424667820010601,16) (4332925381485493,16) (817818103955934,15) (-3787230191402537,16) (-9848850118017318,16) (-5866382399539145,17) (-162972602858702,15) (717095496154218,15) (-6424182298006718,16) (-2703199352898473,16) (6061619926614782,16) (-1753998741552623,16) (7757593201496095,16), (2498825116770118,18));
  (AB60 (-2996804461429773,16) (-8758158149496837,16) (3783362109071339,16) (4267754220430252,16) (7972668000441054,16) (-4268821719016034,16) (-9903243344302515,16) (-7854901490557836,17) (-1144017696219894,16) (7265626180445808,16) (-6119881235231176,16) (-3123736524210358,16) (563442162528648,15) (-1852786765209879,16) (8051116329501591,16), (2487483918947143,18));
  (AB60 (-2597323688566149,16) (-8730288024865193,16) (4127466615214295,16) (4196600910637323,16) (7741880344191694,16) (-473833615661197,15) (-9929301845170745,16) (-9884076806734987,17) (-6572785743309062,17) (733565984517812,15) (-580183522995645,15) (-3539322336306417,16) (5190965688558775,16) (-1940045114235243,16) (8324067525851618,16), (2468742364218161,18));
  (AB60 (-2188451347847192,16) (-8681674008609332,16) (4454123606989704,16) (4120291351245829,16) (7487731225682261,16) (-5192020827461271,16) (-9926952273930617,16) (-119394278292707,15) (-1735487891058431,17) (7380472175308463,16) (-5472828666940913,16) (-3946742562139987,16) (4734931446469346,16) (-2014902558741349,16) (8574414958235533,16), (2444249177985451,18));
  (AB60 (-1774050045575622,16) (-8612917038496513,16) (4761345033052068,16) (4039112125804671,16) (7213031686286419,16) (-5626521761071024,16) (-9896880384765773,16) (-1399885352210094,16) (3034462889970923,17) (7400571806646645,16) (-5135535351713705,16) (-4342558414801763,16) (4270358623694749,16) (-2077496334572714,16) (8800457158856739,16), (2417585999524899,18));
  (AB60 (-1357061442366036,16) (-8524346068157036,16) (5049149270118591,16) (3952411151910926,16) (6920331734966126,16) (-6040484646472571,16) (-9840270518233685,16) (-1604014333190909,16) (7721490444849963,17) (7397546088838608,16) (-4791121248115093,16) (-4724560196395923,16) (3799785871761113,16) (-2129210486851033,16) (9001560422029518,16), (2398226997608742,18));
  (AB60 (-938825395736607,16) (-8414788693857126,16) (5320708422198522,16) (3857239844271924,16) (661110937140352,15) (-6435443548280232,16) (-975817427053724,15) (-1803679322453606,16) (1234818127328195,16) (737426894401684,15) (-4437465848338717,16) (-5092057971600119,16) (3322730722257007,16) (-2173643523064802,16) (9177948266470446,16), (2396442390021264,18));
  (AB60 (-5195391727708927,17) (-8281362279494172,16) (5581139475387408,16) (3748646649363027,16) (6285664105633828,16) (-6814548778119197,16) (-965087899200985,15) (-1995698173860344,16) (1696385416240493,16) (733408795089009,15) (-4069739516622442,16) (-5445032065603519,16) (2836330213890653,16) (-2215924589011385,16) (9329786124750434,16), (2410589269685469,18));
  (AB60 (-1003182487072663,17) (-8118901512238272,16) (5837240314014097,16) (3618709098353696,16) (5944416381450158,16) (-7181146032872413,16) (-9517949499760749,16) (-2174485130788114,16) (216338894699624,15) (7281464281579679,16) (-3680709185746652,16) (-5782098045349936,16) (2336803466888336,16) (-2263707195703506,16) (9455949412367793,16), (2429640020133303,18));
  (AB60 (-3876506993362597,16) (-8520448901769564,16) (3517761225942532,16) (3936400808501295,16) (8483432488297946,16) (-3540638627609611,16) (-9849975113968574,16) (-3701641347161845,18) (-1725288393090693,16) (7417145620972209,16) (-6332213888026043,16) (-2211112415410602,16) (6309336486358963,16) (-2151218600271903,16) (7454162034443826,16), (249619240510406,17));
  (AB60 (-3495749748619559,16) (-8527521651760166,16) (3880864359107113,16) (3878231676215345,16) (8291134820423394,16) (-4026959455366128,16) (-9919588196133247,16) (-2363868313367723,17) (-1243338765222299,16) (7522709203985687,16) (-6038723837026133,16) (-2634892910993046,16) (589262874076712,15) (-225241098339726,15) (7759096035322459,16), (248280616283399,17));
  (AB60 (-3103388020314342,16) (-8513270321171988,16) (4230036788731467,16) (3813362334753515,16) (8074482063709174,16) (-4501222845707826,16) (-9961398400318495,16) (-4387882574628143,17) (-760267568192196,16) (7604610866022168,16) (-5731361611587028,16) (-305309476656132,15) (5460175554610669,16) (-2343120452122146,16) (8043399123484982,16), (2458465876195224,18));
  (AB60 (-270284334335468,15) (-8478097378182441,16) (4562510570655077,16) (3742445047357945,16) (7835588190346116,16) (-4959603086822016,16) (-9975404670472616,16) (-6425091878363252,17) (-280149252826103,16) (7662446430176697,16) (-5412894099817539,16) (-3462295794531842,16) (50158015836506,14) (-2422694090528577,16) (8304955618013021,16), (2426900645043441,18));
  (AB60 (-22975741511776,14) (-8422577799706893,16) (4876611141738197,16) (3665713546988457,16) (7577021151748038,16) (-5399193889590199,16) (-99623036058276,14) (-8455566479588554,17) (1937545364810349,17) (7696768040767799,16) (-5085692464089403,16) (-3859468083469492,16) (4563109716237401,16) (-2491328687658635,16) (8542324688726655,16), (2396151823078284,18));
  (AB60 (-1889054031791423,16) (-8347314822249429,16) (517240854179439,15) (3583165478584424,16) (7300296367401095,16) (-5819501533739057,16) (-9923073618610938,16) (-1047018454848334,16) (6605772587931232,17) (770855556553048,15) (-4750665076816548,16) (-4243742737377548,16) (4103572084871881,16) (-2549631290584546,16) (8755574020378813,16), (2380656882340874,18));
  (AB60 (-1476492428290678,16) (-8251762285308185,16) (5452374647432596,16) (3493367346232524,16) (7005265034962969,16) (-6222752315029227,16) (-9858264498480627,16) (-1246497250345216,16) (1122882755624261,16) (7699244743319905,16) (-440588985104803,15) (-4616250101856786,16) (36355121834514,14) (-2599375183914939,16) (8945741993665121,16), (2390750688815699,18));
  (AB60 (-1058905006568307,16) (-8133826638679152,16) (5720103530442258,16) (3393132572311638,16) (6691194665572844,16) (-661169912307928,15) (-976767538767054,15) (-1442631973106309,16) (1584717801776254,16) (7670604129647587,16) (-4047571857228283,16) (-4977850374087893,16) (315597626459126,15) (-2643622808344561,16) (9113236102753896,16), (2417028184330466,18));
  (AB60 (-637165721707289,16) (-7990898792532549,16) (5978256964248282,16) (3278749405124208,16) (6358310292053752,16) (-6987252147186402,16) (-965079644185395,15) (-1632588500478798,16) (2048605092740793,16) (7624417868893691,16) (-3672539477605669,16) (-5327354497865001,16) (2663544294667548,16) (-2685770814448082,16) (9257006369372489,16), (2438845642547275,18));
  (AB60 (-2145529761261192,17) (-7818591545542434,16) (6230858148313746,16) (3143643842446548,16) (6008313834019534,16) (-7349671303111276,16) (-950710302239368,15) (-18102777115229,14) (251751598381348,15) (7564224279237395,16) (-3276244874079934,16) (-5661159826260028,16) (2157431719282405,16) (-2732068959939599,16) (9374501990760294,16), (2444231023647582,18));
  (AB60 (-322120030289469,15) (-8248788799189652,16) (4645573372038642,16) (3355217999654636,16) (816596130749803,15) (-4696763577106965,16) (-9991602643453653,16) (-8282749169162329,18) (-4012682668116715,17) (7917963880001655,16) (-534602927141501,15) (-2953949732842965,16) (5294839066346688,16) (-2819932036083019,16) (8000791371693279,16), (2397778756162107,18));
  (AB60 (-2826138506551301,16) (-8207512819311459,16) (4964843850779806,16) (3284270600001519,16) (7924371614222081,16) (-5139834739140646,16) (-9995764104744896,16) (-2831412050893781,17) (6731285370569024,18) (7965973245691946,16) (-503092025396509,15) (-3351583453707209,16) (485592936560425,15) (-2893451360256991,16) (8249114450781325,16), (2373942858282111,18));
  (AB60 (-2425243689798824,16) (-8145871829746051,16) (5269057332999966,16) (320617856211628,15) (7663227535653803,16) (-5567347911225176,16) (-9974118926413126,16) (-4826442940922478,17) (5329222524418194,17) (7992591601023999,16) (-470506159341316,15) (-37391008145581,14) (4406771015187951,16) (-2958165942240643,16) (8475235895116247,16), (2376266459681127,18));
  (AB60 (-2016225309280266,16) (-8063215969631378,16) (5560520095215843,16) (3119970816082847,16) (7381063731497405,16) (-598211336388445,15) (-9926586681411663,16) (-6821522381339729,17) (9987718360213189,17) (7998338673164717,16) (-436606658619582,15) (-4118742652104165,16) (3944473317527213,16) (-3014997145301585,16) (8680490911298689,16), (2403674258940738,18));
  (AB60 (-1598681079861797,16) (-7958194462389709,16) (58404931044974,14) (3024048390102186,16) (7077269018208133,16) (-6384934970556212,16) (-9852580739125562,16) (-8809254441815761,17) (1466500303718175,16) (798361605041801,15) (-4012087634628162,16) (-449054869382036,15) (346764576856935,15) (-3065181383579972,16) (8864541494599586,16), (2438469387411096,18));
  (AB60 (-1174849311357238,16) (-7829681980755335,16) (6108666726531955,16) (2916964016677299,16) (6752995880566531,16) (-677409533166321,15) (-9751727549287434,16) (-1076686100188805,16) (1935085746453813,16) (7948944643020449,16) (-3643060822755479,16) (-4852049763131112,16) (2977632217624224,16) (-3109935057811051,16) (9025630743209253,16), (2461385106881222,18));
  (AB60 (-7478904782942659,17) (-767697031968636,15) (6364337085913305,16) (279752004325755,15) (6410229584192391,16) (-714722591538262,15) (-9624078864619128,16) (-126674073549397,15) (2402597327192303,16) (7895116393676885,16) (-3259741778705822,16) (-5200117370449853,16) (2476852949236508,16) (-3150487805486569,16) (9161857129170856,16), (2461339200590936,18));
  (AB60 (-3213765834521966,17) (-7496749974710096,16) (6610253921620014,16) (2660560345429531,16) (605105490387626,15) (-7503742612763511,16) (-9469435918811319,16) (-1445695070833836,16) (2870496323232757,16) (7825119196215707,16) (-2859181997191306,16) (-5531056668662289,16) (1965693306047808,16) (-3191872906684954,16) (9270814267049544,16), (2435805705311782,18));
  (AB60 (-2545003581673622,16) (-7847647771491251,16) (5651316769026211,16) (2736772671009741,16) (7729127956289913,16) (-5724566043160993,16) (-996098815500047,15) (-1185198152013372,17) (8744529886420331,17) (8269569624834615,16) (-4309671385974259,16) (-3611225659651774,16) (4236422111839476,16) (-3419456570315654,16) (8388089440035953,16), (2433153322329627,18));
  (AB60 (-2126450370373771,16) (-7754237988736895,16) (5945586769728185,16) (2643407624311471,16) (7434740835072586,16) (-6143046870001576,16) (-990321299832045,15) (-3194971536643089,17) (1350664236106551,16) (8269497240375348,16) (-3957626228592264,16) (-3994071860418022,16) (3760166128318874,16) (-3477114606480322,16) (8588994394039656,16), (2464782952123437,18));
  (AB60 (-1701607130695669,16) (-7637650777880894,16) (6226622179633274,16) (2539852665455489,16) (7119586546481494,16) (-6546803482993694,16) (-9818125887357871,16) (-5180642313994,14) (1826475708061228,16) (8248410613689363,16) (-3591503707724597,16) (-4366328373516717,16) (3271322404364178,16) (-3528082838756897,16) (8766474845088763,16), (2482971416788963,18));
  (AB60 (-1273357325767064,16) (-7498779073874311,16) (6492062347370062,16) (2427119480568656,16) (6785714847273608,16) (-6932760275570954,16) (-9706159935086437,16) (-7130642266007019,17) (2298259933790171,16) (8206117601338018,16) (-3214097587716374,16) (-4725379414358827,16) (2773399659515484,16) (-3571617259557235,16) (8919181827938719,16), (2480879706931455,18));
  (AB60 (-8435983334595303,17) (-7338719055427114,16) (6740292610658329,16) (2306315905989254,16) (6434709879662005,16) (-7299001007422944,16) (-956798095957834,15) (-9040091757651085,17) (2763423197282464,16) (8142599340882474,16) (-2827688348920011,16) (-5069739103271718,16) (2268979952155396,16) (-3607021530741994,16) (9046608516647583,16), (2451867207843757,18));
  (AB60 (-4143617493549121,17) (-7154867507688372,16) (6973964101434472,16) (2173382533134182,16) (6067732876395304,16) (-7645850253920673,16) (-9403436279307854,16) (-1087134631293068,16) (3223898949167009,16) (8060212003275585,16) (-2429472177873382,16) (-5397281482301192,16) (1757586025387181,16) (-3638260698521922,16) (9147346634568654,16), (2392509859005602,18));
  (AB60 (1087215436545683,18) (-693663740909337,15) (72029815528728,14) (2013726451801535,16) (5685366656906508,16) (-7976309406852929,16) (-9209988643745548,16) (-1251270752186864,16) (3689231720399217,16) (7965437252487472,16) (-2007007090872747,16) (-5702958172200752,16) (1233679236892619,16) (-367835956603376,15) (9216708004674335,16), (2316678139788356,18));
  (AB60 (-1784030421993751,16) (-7289557386927447,16) (6609053529522385,16) (2041553323856569,16) (7130399480694721,16) (-6707418525152478,16) (-9753198291134909,16) (-1591579062327253,17) (2202224297088447,16) (8491448947146228,16) (-3144144761612525,16) (-4243777620945016,16) (3045779765982431,16) (-3986254719082197,16) (8650606853378954,16), (2494515129729916,18));
  (AB60 (-1354550568775483,16) (-7142662823275292,16) (6866408125769328,16) (1926752400743313,16) (6789022642694217,16) (-7084969777156083,16) (-9630318817496392,16) (-3536401805810753,17) (2670561382191669,16) (8439520345931566,16) (-2763910691727064,16) (-4597313782934982,16) (2545349040340309,16) (-4025111950967152,16) (8793160526512641,16), (2470789423979824,18));
  (AB60 (-9228429598685897,17) (-6979315721225242,16) (7101937266329459,16) (1810242236676063,16) (6430872806566148,16) (-7440893628477838,16) (-9482527818482865,16) (-5484429146590945,17) (3127439294544152,16) (8363736588346428,16) (-2380590552153406,16) (-4937681531220214,16) (2041634190005028,16) (-4050282254412741,16) (8912179503005522,16), (2414855838531241,18));
  (AB60 (-4899496913559929,17) (-6797456409750848,16) (7318096450408212,16) (1688806747789484,16) (60565220012223,14) (-7776019098313155,16) (-9309708760233221,16) (-7409344085285485,17) (3574960000041298,16) (8265968789669148,16) (-1991612309825009,16) (-5263766747830783,16) (1533689661920066,16) (-4064909691397292,16) (9006903198197697,16), (2323399935847007,18));
  (AB60 (-5968236357141785,18) (-6582998641981247,16) (7527321362553322,16) (1543654229425335,16) (5665853590534926,16) (-8094148176960919,16) (-9107861321194721,16) (-9171450514463206,17) (4025631268322108,16) (8153830540532336,16) (-15805399586414,14) (-5569285497747444,16) (1013713144233803,16) (-4085313631893526,16) (9070975591978657,16), (2218896004308291,18));
  (AB60 (-9869425673943291,17) (-6604667649642283,16) (7443407123517682,16) (1316602783203317,16) (6400926431533702,16) (-7569326121218091,16) (-9369973958314779,16) (-20374121810858,15) (3487417029342277,16) (855626868861242,15) (-1926566834797096,16) (-4804019812545595,16) (1800647837096688,16) (-4474359596736606,16) (8760009906720999,16), (2357785260056225,18));
  (AB60 (-550072079828853,16) (-6430636646774427,16) (7638346223113647,16) (1213339599535725,16) (6020714775961739,16) (-7891691872007831,16) (-9191649064245949,16) (-4099218708126878,17) (3917339855000584,16) (8441763951836685,16) (-1553302841132302,16) (-5130679454536309,16) (1299957192238118,16) (-4467411934829437,16) (8851685822649372,16), (2246298127350246,18));
  (AB60 (-1201482052213873,17) (-6222959728445818,16) (7826898276260119,16) (1083903200236458,16) (562732638469902,15) (-8195019927528391,16) (-8985057151010692,16) (-5956333437467994,17) (4349019304727059,16) (8315168132749778,16) (-1158158874750573,16) (-5432922504963517,16) (7900372234823017,17) (-4469167509948446,16) (8910801476496577,16), (2151315296150463,18));
  (AB60 (-2054881859306694,17) (-5857891567081673,16) (8102029436737215,16) (6246197690103025,17) (5598854002979909,16) (-8262123455715084,16) (-8853647888939229,16) (-2590375641017636,17) (4641747364847226,16) (8467611641645754,16) (-7516184522020142,17) (-5266367133857528,16) (5915244332241446,17) (-4847235550777895,16) (8726649205747518,16), (208836638375367,17))].

(** ahrens_beylkin/ahrens_beylkin_5472.hpp:1-10962. *)
Definition ab_5472 : coded := [  (AB12 (5257311121191336,16) (8506508083520399,16), (1233785872992992,18));
  (AB60 (-4991683230642403,16) (-8661424422738212,16) (2506501428634241,17) (5339399533252778,16) (8446523929282557,16) (-3834659520181432,17) (-8675079573726087,16) (-2149004934556549,17) (-4969588732222509,16) (5375149182660547,16) (-8424429430862663,16) (-3698108010302679,17) (8291613621707944,16) (-2209449841989392,18) (5590049676116201,16), (1757297355163853,18));
  (AB60 (-4661968093424887,16) (-8832542045117581,16) (502249457061394,16) (5453924521398618,16) (8343086055020857,16) (-804749894938401,16) (-8837428714664136,16) (-4894559900967234,17) (-4654061296006771,16) (5466717988363288,16) (-8335179257602743,16) (-7998632253918458,17) (8032678819725735,16) (-790679741811539,18) (5956173978460011,16), (2025113110518867,18));
  (AB60 (-4318700718780081,16) (-8985201054051426,16) (7842105073776741,17) (5542523181192112,16) (8228837176085201,16) (-1251669091823479,16) (-8995837520014477,16) (-756363877966225,16) (-4301490555331683,16) (557036981060356,15) (-8211627012636803,16) (-1241032625860428,16) (7744168428190998,16) (-1721016344839799,18) (6326733688569786,16), (214521547402585,17));
  (AB60 (-3982838784604036,16) (-9106974578253889,16) (1095449335611304,16) (5589207663044056,16) (8114184012907908,16) (-1709027648705344,16) (-9146186739251976,16) (-9927905653459806,17) (-3919392175336799,16) (5691866433309379,16) (-8050737403640671,16) (-1669815487707257,16) (7437159090546632,16) (-6344660926723706,18) (6684656998655361,16), (2166980330547913,18));
  (AB60 (-3657194606007555,16) (-9197400990185021,16) (1425742837798196,16) (5597847001248828,16) (7998011849577019,16) (-2167006092431468,16) (-9283860409032473,16) (-1199389140608001,16) (-3517300327664813,16) (5824200698439023,16) (-7858117571234277,16) (-2080546673584015,16) (7116854316601006,16) (-1398942783427422,17) (7023589839047024,16), (2180627400027287,18));
  (AB60 (-331428506988822,15) (-92703302188335,14) (1753993189638565,16) (5598687684886025,16) (7858491758775716,16) (-2626557344578586,16) (-940102169612183,15) (-1411838460057784,16) (-3102821817595768,16) (5940842414466805,16) (-7647028506483265,16) (-2495865867290256,16) (6774464351543243,16) (-2114632522924516,17) (7352680874524589,16), (2258285201773525,18));
  (AB60 (-2937203078970572,16) (-933336065125168,15) (2064271548646791,16) (5611065939837312,16) (7680822521980002,16) (-3085596280241855,16) (-9490628823148759,16) (-1652538129271677,16) (-2682737831492537,16) (6022799359212426,16) (-7426357274501968,16) (-2928328108344776,16) (6405032542906903,16) (-2544652474780351,17) (7675337488484103,16), (2321389675911644,18));
  (AB60 (-2532495617605524,16) (-9385809377238651,16) (234372529980538,15) (5638832458226936,16) (7465987629228654,16) (-3530240392416794,16) (-9547726126072686,16) (-1919821748009997,16) (-2270508814644176,16) (6062736010022318,16) (-7204000826267306,16) (-336832364358276,15) (6017485733655892,16) (-2619868029613482,17) (7982557758032316,16), (2318621206361274,18));
  (AB60 (-210730978978368,15) (-9429998484552553,16) (2575727864355707,16) (5689970561299307,16) (7215792357594974,16) (-3944182508913756,16) (-9568087500566724,16) (-2214206126957579,16) (-1883877068399723,16) (6051492298697435,16) (-6992359636211017,16) (-3806093492899584,16) (5623904991652969,16) (-2234327213839575,17) (8265698425655014,16), (2278746537950994,18));
  (AB60 (-1668828598278094,16) (-9457053365704571,16) (2789113254743348,16) (5740663864627266,16) (6940520774510301,16) (-434441592989825,15) (-9561169914504319,16) (-2516532591194269,16) (-1500364483528763,16) (6013244528176344,16) (-6772056659760971,16) (-4240299381098502,16) (5216753984606068,16) (-1684641147493303,17) (8529777119370613,16), (2341672477788837,18));
  (AB60 (-1222763247347213,16) (-9450458940081848,16) (3032107495252099,16) (5751673516015433,16) (6651438462046471,16) (-4761997285884941,16) (-9539490258322304,16) (-2799020478035378,16) (-1078707548370948,16) (5984760533232154,16) (-6507382763070205,16) (-4672965967644485,16) (4777492972437363,16) (-1440556989762656,17) (8783781011267532,16), (243372506767703,17));
  (AB60 (-7695849969054165,17) (-9410147529939357,16) (3294975325751973,16) (5727666765760623,16) (6345884477785639,16) (-5188794042453462,16) (-9498271776832125,16) (-3064263052153717,16) (-6269969701999298,17) (5958379039358878,16) (-6203296451080152,16) (-5100669795560693,16) (4309477734378664,16) (-1425880267054867,17) (9022642091512595,16), (2482042631526532,18));
  (AB60 (-3108320578366865,17) (-9339515968168217,16) (3560452908290165,16) (5679548295071124,16) (6021466857603892,16) (-5611120034960276,16) (-9432105979897434,16) (-3318049110564326,16) (-1610182718400636,17) (5921952092796963,16) (-5871653071607269,16) (-551853002323106,15) (3820985944937157,16) (-1498137859966228,17) (9240001203361288,16), (2501010315118854,18));
  (AB60 (-4731235461569719,16) (-8754973125859662,16) (9827800225178876,17) (5129499870843037,16) (8508832184419353,16) (-1134903490350896,16) (-9036344217389808,16) (-2461409414403092,17) (-4275967472022286,16) (5866138951920615,16) (-8053564194871921,16) (-8535323988207508,17) (7901440727038912,16) (-4552679895474329,17) (6112279893360925,16), (2131001013754432,18));
  (AB60 (-4394375252377108,16) (-8889688195384384,16) (128953865011451,15) (5189202867057845,16) (8398457714314684,16) (-1593135783725546,16) (-9194614782462804,16) (-4912304810697005,17) (-390099367041072,15) (5987511036102654,16) (-7905076132348295,16) (-1288209196647126,16) (7601478998737259,16) (-4933815819663886,17) (6478741517172355,16), (2185443993257394,18));
  (AB60 (-4066648282896415,16) (-8991769345193891,16) (1615690498222686,16) (5209985531089516,16) (828514806520678,15) (-2052406466428676,16) (-9339002888433584,16) (-7066212799871106,17) (-3504812607900534,16) (6119054749325091,16) (-7723312390210899,16) (-1705172923188982,16) (7286596422004908,16) (-5618356749958811,17) (6825676029312202,16), (2185237439531749,18));
  (AB60 (-373537217036316,15) (-9069303026219114,16) (1948008564531794,16) (5208922512124058,16) (8158598830876856,16) (-2510854710950434,16) (-9465518038570748,16) (-9107041953422583,17) (-3094282813525258,16) (6246226881313595,16) (-7517509474038954,16) (-21146396985988,14) (6954663327620314,16) (-6410893568379025,17) (7156931076655852,16), (2216549504496961,18));
  (AB60 (-3376364081103387,16) (-9135227381514615,16) (2268873350335036,16) (5212763643699057,16) (800027003490505,15) (-2970315566321142,16) (-9568344754550292,16) (-1134957346609564,16) (-2675565450413592,16) (6346679647424529,16) (-7299471404215256,16) (-2537198193285464,16) (659802918822915,15) (-7007986306897943,17) (7481636994034092,16), (2280920824202099,18));
  (AB60 (-2986880601347637,16) (-9191455227875915,16) (2568208532663515,16) (5228942350071031,16) (7805784862288832,16) (-3424599915799825,16) (-964314461470511,15) (-1385670365587083,16) (-2256031821100401,16) (6411480517147462,16) (-7074936082041595,16) (-297291052897063,15) (6218544698905285,16) (-7308487802472363,17) (7797150882734545,16), (2313011605694644,18));
  (AB60 (-2572795330137228,16) (-9239505893936194,16) (2830592698560215,16) (5264583458480857,16) (7575889340106368,16) (-3858764273074017,16) (-9685251117162886,16) (-1663616553829827,16) (-1851564408633532,16) (6431559603211245,16) (-685465841860267,15) (-3413019049847326,16) (5826486844088868,16) (-7212309215036966,17) (8095176157041072,16), (2288290464177454,18));
  (AB60 (-2139991593781392,16) (-928028873943608,15) (3049045242570346,16) (5322094911327095,16) (7313640733479037,16) (-4264500554159005,16) (-9693727694493399,16) (-1966648005957044,16) (-147103331222541,15) (6404492147940397,16) (-6644682451923054,16) (-3851061599101686,16) (5429227140334395,16) (-6689582815559827,17) (8371140153897441,16), (2288054199125827,18));
  (AB60 (-1696099464160155,16) (-9295808877418019,16) (3272794512674449,16) (5359946543379726,16) (7031426852878295,16) (-4672259567354297,16) (-9680988173205635,16) (-2264382024539723,16) (-1072866271813044,16) (6368359031514451,16) (-6408193660531185,16) (-4287080271566682,16) (5008728605851338,16) (-6232331923471105,17) (8632741056054175,16), (2384870301412039,18));
  (AB60 (-124393229097694,15) (-9274751440958127,16) (3525849991691367,16) (5356110320729336,16) (6733285650780569,16) (-5096562231266206,16) (-9650752747947976,16) (-2541465790177557,16) (-6355493964529803,17) (6340494522243146,16) (-6124902756256609,16) (-4720560924276356,16) (4554190516681771,16) (-6083828945239601,17) (8881960312420704,16), (2455741657277675,18));
  (AB60 (-7847395326774688,17) (-9220443789084974,16) (3790461739442502,16) (5321766999572234,16) (6416406606652171,16) (-5523452023904464,16) (-9597224442525121,16) (-2804037182432804,16) (-175095629107917,16) (6308191556581932,16) (-5806762703082619,16) (-5146671370464317,16) (4073772418620656,16) (-6096439035695518,17) (9112228739014736,16), (248543124752177,17));
  (AB60 (-3217699131415989,17) (-9135843134097621,16) (4053743251879454,16) (5264748356049626,16) (6080914450722429,16) (-5941793011412289,16) (-9517356350807689,16) (-3054928683375192,16) (2955314386525954,17) (6263562924553887,16) (-5463613098928235,16) (-5560279794702221,16) (35755633393954,14) (-6173013517941943,17) (9318491607929079,16), (2491929091891034,18));
  (AB60 (-4488593918547154,16) (-8755949150217477,16) (1784903110308048,16) (4804208307575685,16) (8560888730459313,16) (-1905457079578415,16) (-9363215021241952,16) (-1950604197581639,17) (-3506017099021745,16) (6394050998125569,16) (-7578311910933904,16) (-129819120855394,15) (7457757941663536,16) (-9825768195254095,17) (6589111417883733,16), (2202619091294867,18));
  (AB60 (-4159900835522023,16) (-884361430972188,15) (2117949711278709,16) (4810179359532268,16) (8441720079729433,16) (-2366334005296508,16) (-9499089176992673,16) (-4018942299924464,17) (-3099320221506554,16) (6526234840818531,16) (-7381139465713964,16) (-1710859138025715,16) (7132755171696166,16) (-1060580614015469,16) (6928129070810978,16), (2214960028715154,18));
  (AB60 (-3813185579492639,16) (-8914493473670694,16) (2447738107770518,16) (4809768515790183,16) (829857134643064,15) (-2828398916828008,16) (-9614184917098115,16) (-6159221272400536,17) (-2681061042389596,16) (6641584496320647,16) (-7166446809327598,16) (-2128707473400587,16) (6785786000270108,16) (-1132124537103043,16) (7257506623560701,16), (225530194111715,17));
  (AB60 (-343770287214864,15) (-8975264006185039,16) (2761672497256016,16) (4817996252271964,16) (8122195782822346,16) (-3288897654016647,16) (-9704285967738975,16) (-8530682233626928,17) (-2258120559809253,16) (6726600526165287,16) (-6942613470482959,16) (-2559875692462711,16) (6415388313722328,16) (-1179582312339387,16) (757966874952798,15), (2293711585676012,18));
  (AB60 (-3035460663609961,16) (-9026955800210744,16) (3049597930993229,16) (4840152753533247,16) (7911594749410072,16) (-3738928970115842,16) (-9765768546150743,16) (-1115361050800672,16) (-1840036529357403,16) (6774389633725804,16) (-6716170615157514,16) (-3000116224175843,16) (60268395760349,14) (-1195424134252558,16) (7889750684526475,16), (2295517652519021,18));
  (AB60 (-2610818708593353,16) (-9072976387843331,16) (3296168250635321,16) (4885320611822819,16) (7667256904171197,16) (-4164950670192653,16) (-979506356283294,15) (-1405719483672135,16) (-1442457116619774,16) (6775769378786005,16) (-6498895312197618,16) (-3442863495203045,16) (5630112892640287,16) (-1168361591973578,16) (8181488862458141,16), (2271108085584197,18));
  (AB60 (-2169983731587974,16) (-9107600284813917,16) (3513230373417175,16) (4941026371102135,16) (7395001749318943,16) (-4571674477436362,16) (-9795380445675006,16) (-1712598535494974,16) (-1057132054526861,16) (6741658209024336,16) (-6282150072257832,16) (-3883894316575273,16) (5223705968238644,16) (-1112851677061113,16) (845425674451931,15), (2325586226448056,18));
  (AB60 (-1718890980772801,16) (-9109525135726372,16) (3749928745694689,16) (4963629748104423,16) (7104166292900992,16) (-4989308670200933,16) (-9775891542872346,16) (-2005358842825379,16) (-6406874850494644,17) (6708199650973733,16) (-6025962797177656,16) (-4322942263054959,16) (4786582872671413,16) (-1078203495723336,16) (8713558493799113,16), (24162017586479,16));
  (AB60 (-1259774606445241,16) (-9074557970124943,16) (4008162370438305,16) (4948098666578963,16) (6795048339438292,16) (-5416976799885375,16) (-9734844561964449,16) (-2279509630686651,16) (-1914084585330928,17) (6676751406330617,16) (-5726682191526145,16) (-475669020804587,15) (4317867762079073,16) (-1068366147912148,16) (8956261037017267,16), (2458781049953446,18));
  (AB60 (-7954092665464589,17) (-9006711980215191,16) (4271587925366886,16) (4904994111904913,16) (6466848866132185,16) (-5841309656642335,16) (-9668171998964136,16) (-2539863114083006,16) (2748555259884765,17) (6636718923188794,16) (-539658407359725,15) (-517984963789339,15) (3826862342321801,16) (-1070264792534936,16) (91765820372718,14), (2468841953943151,18));
  (AB60 (-3277018564484329,17) (-8909008267783858,16) (453014162889408,15) (4841202834486228,16) (6119511255100608,16) (-6254145594248626,16) (-9573875348841879,16) (-278949701268325,15) (7480756787043766,17) (6581847450697058,16) (-5043733719947798,16) (-5589278513190604,16) (3319729754593254,16) (-1075777535152809,16) (9371344463380309,16), (2459988003088405,18));
  (AB60 (-426191175343,12) (-8667579591265495,16) (2590206986913032,16) (440011253563853,15) (8582166810588803,16) (-2642994988444868,16) (-9624325843223963,16) (-8541278067669276,18) (-2713863799152129,16) (6904906741874869,16) (-7034118856310931,16) (-1686248736486401,16) (6981330854779094,16) (-1548047954277872,16) (6990319522551561,16), (2261223900067636,18));
  (AB60 (-3896081432621387,16) (-8735283218851569,16) (2918111813627614,16) (4403981293766706,16) (842138384178241,15) (-3112112297703774,16) (-973000385569172,15) (-3138993770691586,17) (-2286589632903083,16) (7008193730325161,16) (-6811892042064106,16) (-2117391660863623,16) (6617891557987947,16) (-1609491799718305,16) (732209310739432,15), (2292325685602805,18));
  (AB60 (-3502831691168354,16) (-8793233107410012,16) (3226332540531911,16) (4418274228123013,16) (8227458504824602,16) (-3576000474901159,16) (-9809475810667242,16) (-5657746025854108,17) (-1858516456479084,16) (7078832166069513,16) (-6583143270135331,16) (-255975777164393,15) (6233475335766083,16) (-1644315234689271,16) (7644606768654925,16), (2300891297633312,18));
  (AB60 (-3084937137333496,16) (-8843272945884885,16) (3504238357087183,16) (4448940918559034,16) (8000272248304127,16) (-4025241440731963,16) (-9859775279675119,16) (-8430006975807582,17) (-1440201811617306,16) (7110178578065459,16) (-6355536922587937,16) (-3008739106941728,16) (5834533838943157,16) (-164473532571619,15) (7953179275646217,16), (2284808710189927,18));
  (AB60 (-2646594868919572,16) (-8887250124806771,16) (3743303463377051,16) (4500441860819341,16) (7741509673870963,16) (-4451410004341011,16) (-987943090763976,15) (-1145740450935808,16) (-1041212639311318,16) (7098004873260584,16) (-6136127444262709,16) (-3459229221508023,16) (5428020903298749,16) (-1605382229608254,16) (8243745324196392,16), (2293098422407728,18));
  (AB60 (-2194713530232255,16) (-8912058335912212,16) (3969691264760161,16) (4546957237607411,16) (7458291774931304,16) (-4868168411154409,16) (-9873056059620375,16) (-1453766560980908,16) (-6397865501611655,17) (7062881941386664,16) (-5903364794860214,16) (-3907170687446245,16) (5004887648465967,16) (-155492698007109,15) (8516648502367572,16), (2370095042990202,18));
  (AB60 (-1734596997251512,16) (-890022862522865,15) (4216290274137511,16) (4556271124021126,16) (7156338109708849,16) (-5294073885387325,16) (-9844601299243579,16) (-1743890515519801,16) (-206569912648731,16) (7028670882638837,16) (-5628311025106069,16) (-4349701211372395,16) (4550527413856255,16) (-1528027084602781,16) (8772561398158637,16), (2425411305856764,18));
  (AB60 (-1268656987879555,16) (-8852167245637713,16) (4475449083875628,16) (4531792627545051,16) (6835438510423307,16) (-5721855988326718,16) (-9791314849995308,16) (-2016728735214406,16) (2509157564240722,17) (6990512976206273,16) (-531586576611968,15) (-4782708383969123,16) (406945886166859,15) (-1519572744303627,16) (9007241711420679,16), (2437707619736912,18));
  (AB60 (-7977871464585679,17) (-8772155743303724,16) (4734217916844235,16) (4483184329064802,16) (649445502240997,15) (-6141914378556714,16) (-9710461818208223,16) (-2277700720893756,16) (720423974587414,16) (6939701525015282,16) (-4976243901363988,16) (-5203608303652216,16) (3568547439651509,16) (-1518211121045982,16) (9217402245909038,16), (242463085111629,17));
  (AB60 (-3201742471733393,17) (-8663753606672662,16) (4983659488198751,16) (4418354875238285,16) (6130938686492134,16) (-6549025196083169,16) (-9599892930512569,16) (-2532814920180527,16) (1194530997004976,16) (6869199443256508,16) (-4616233442313818,16) (-5612885872243261,16) (3050867734429401,16) (-1514705244178316,16) (9402014363437036,16), (2391949111835084,18));
  (AB60 (-3970783644655332,16) (-8537650189926012,16) (3367700473883336,16) (3996214231552384,16) (8521933222869776,16) (-3377414093724152,16) (-9817993959804899,16) (-1571696705623536,18) (-1899143907707118,16) (7348197738379484,16) (-6450293485921563,16) (-2097070323845265,16) (6440579866080748,16) (-2071639736948213,16) (7363914705435719,16), (2323312044516832,18));
  (AB60 (-3555542329035293,16) (-8595673708802311,16) (3670492097558993,16) (402007705585212,15) (8308575458674864,16) (-3847928574248373,16) (-9888015161193885,16) (-2870982501274465,17) (-1464489933995321,16) (7403470903283665,16) (-6217523063634893,16) (-2555587121856799,16) (6040086586945512,16) (-2091052395039971,16) (7690569153411112,16), (2304814978385206,18));
  (AB60 (-3118042988807208,16) (-8645320746039946,16) (3941603368940301,16) (4059881448165383,16) (8063232566244757,16) (-4301353648503288,16) (-9928541362571847,16) (-5820881797951887,17) (-1041748416193997,16) (7419396637310496,16) (-5986937993631546,16) (-3018133031971386,16) (5627187714068559,16) (-2076294572613211,16) (8001484817105684,16), (2288665254458864,18));
  (AB60 (-2665393699018294,16) (-8683538008513313,16) (4182325200643565,16) (4110315270169718,16) (7790527366463833,16) (-4734236129745509,16) (-9939944370206395,16) (-8930106420494799,17) (-6324855021172919,17) (7399629828763803,16) (-5757619169562831,16) (-3477829768052426,16) (5205708240460887,16) (-2032908196901002,16) (8292640470813283,16), (2321254072826506,18));
  (AB60 (-2204117176945406,16) (-8695498847880992,16) (4419294882308099,16) (4144049236079586,16) (7496554899470499,16) (-5160282993031784,16) (-9925563448927411,16) (-1198943948410494,16) (-2138308440942207,17) (736440016997719,15) (-5506268566619312,16) (-3930218391985365,16) (4765280455895627,16) (-1990286332851186,16) (8563344118387684,16), (2378543077837948,18));
  (AB60 (-173670080427014,15) (-8670452312199829,16) (466981016940904,15) (4142968122118586,16) (7183297323751443,16) (-55889224988091,14) (-9886118416855851,16) (-1487154988448386,16) (2302882720344912,17) (7325623303079241,16) (-5216308247446811,16) (-4373256394153077,16) (4297195918046752,16) (-1966989076304632,16) (8812778291527626,16), (2399319817906809,18));
  (AB60 (-1262848438857379,16) (-8611163294104807,16) (4924741672690815,16) (4113964980996333,16) (6849076365175861,16) (-6013771285900824,16) (-9819189911540752,16) (-1762086928928946,16) (6917796874685461,17) (7276619724758202,16) (-4894448238849937,16) (-4805744668464879,16) (3805418625639928,16) (-1954628126325925,16) (9038706653687149,16), (2385357065847141,18));
  (AB60 (-7796025938757116,17) (-8522282814004858,16) (5173288647827385,16) (4067116853119401,16) (6490487263292325,16) (-6429007356358541,16) (-9722226401679558,16) (-2031795550712533,16) (1161946915564441,16) (7208609950234254,16) (-4548937753852172,16) (-5229063768683843,16) (3293219045321015,16) (-1941549509440153,16) (9240405500946787,16), (2347574973047549,18));
  (AB60 (-2829106908839708,17) (-8407193610879214,16) (5407315149884947,16) (4010480719885786,16) (6103428637510662,16) (-6831120205518209,16) (-9592644292517741,16) (-2303764973368553,16) (1635188803993896,16) (7114030896402179,16) (-4185329142632795,16) (-5645669523879682,16) (2761524086999533,16) (-1918099494877867,16) (9417795869770732,16), (2300255076146756,18));
  (AB60 (-3574105363969895,16) (-8389195366928976,16) (4104530660470089,16) (3630276993588716,16) (8354479390621075,16) (-4125986313781008,16) (-9943726248365513,16) (-3471597630790164,18) (-1058821561244245,16) (7700091677750903,16) (-5839195587895425,16) (-2571455432344471,16) (5817739934584506,16) (-251528380272565,15) (7734807654058805,16), (2290193880261363,18));
  (AB60 (-3121621833193081,16) (-8435004853486395,16) (4371060540897738,16) (3673897807188248,16) (8093679530387429,16) (-4582011191793939,16) (-9974226741023066,16) (-3413253230989665,17) (-6311085029309799,17) (770363302498702,15) (-5603166200125327,16) (-3042789304257268,16) (5392215549229127,16) (-2490513330262101,16) (8044958348085987,16), (2280319858402094,18));
  (AB60 (-2661137355864076,16) (-8462275025921567,16) (4616085934954948,16) (3715744672239761,16) (781049185961708,15) (-5018910085026147,16) (-9976503941850732,16) (-6517831663044871,17) (-2110635031427792,17) (7680047440890222,16) (-5360418006895784,16) (-3504681169096981,16) (4957593856824585,16) (-2450073852721296,16) (8331830607194709,16), (2313426359167245,18));
  (AB60 (-2193987488208075,16) (-8460545564029703,16) (4858558187421834,16) (3737466629970388,16) (7506622993494076,16) (-544811475864852,15) (-9951983655996821,16) (-9539225705356275,17) (2192100367110137,17) (7642102246856595,16) (-5093425468574988,16) (-3956676666681402,16) (4503868897348301,16) (-2413197524919088,16) (8596024817392223,16), (2346218962406428,18));
  (AB60 (-1718581677201532,16) (-8424278739228807,16) (5106662779405419,16) (3730982331208277,16) (718054673607012,15) (-5875331430253479,16) (-9899786999567044,16) (-1243732003158686,16) (6688408387069643,17) (759391310745501,15) (-4793124220161624,16) (-4399823169915242,16) (4024455569313565,16) (-2387422515908496,16) (8837645110613697,16), (2346152792794158,18));
  (AB60 (-1231678838548189,16) (-8357155790678782,16) (5351720688619379,16) (3704611022265059,16) (6828799649268258,16) (-6296296730925723,16) (-9817551096331213,16) (-1528356141410525,16) (1131290403008234,16) (7527975569473913,16) (-4465830407711834,16) (-4835901425273293,16) (352125436540549,15) (-2362969241556424,16) (9056331710884438,16), (2322099378552558,18));
  (AB60 (-7318183475753261,17) (-8262286919106931,16) (5585611584464731,16) (36653804315308,14) (6449245843114476,16) (-670613259242775,15) (-9703280628387868,16) (-1813041075992456,16) (1599758451616013,16) (7437950940003076,16) (-4117669043923136,16) (-5265138883146814,16) (2997148035960118,16) (-233157679919134,15) (9250992015995532,16), (2299615952268512,18));
  (AB60 (-2283096643329151,17) (-8138445936477618,16) (5806338987365717,16) (3610420010470359,16) (6048186788862007,16) (-7098190185887548,16) (-9557862130353896,16) (-2090259147615612,16) (2068353981540912,16) (7326499850220463,16) (-375152314298818,15) (-567877399201127,15) (2459671944466348,16) (-2296663645873827,16) (9416758997836074,16), (2303247711062705,18));
  (AB60 (-3103687007247103,16) (-8209517327017961,16) (4792802125942338,16) (3286145939741879,16) (8096751505185167,16) (-4862495236604319,16) (-9997132126604368,16) (-1127658218327936,17) (-2112655027239661,17) (7966182243851423,16) (-520433000066203,15) (-3074880437017912,16) (5134636890000048,16) (-2892421504523138,16) (8078948065684216,16), (22652003536671,16));
  (AB60 (-2639019692858774,16) (-8224442063723624,16) (5039258655909329,16) (3318582137266396,16) (7804449375601752,16) (-5298828412195079,16) (-9988844660342755,16) (-4199926881218716,17) (2158436783095515,17) (7937848105053853,16) (-4949586004433427,16) (-3534425815575948,16) (4690016248147676,16) (-2854863371168325,16) (8357840793175725,16), (2285401884298191,18));
  (AB60 (-2164902300455265,16) (-8210994371277311,16) (5281360569430553,16) (333316210036301,15) (7488970107244174,16) (-572759610530516,15) (-9952505873797753,16) (-7220242640331376,17) (6529225024217088,17) (7892498405760425,16) (-46711453043672,14) (-3986084602784718,16) (4224909768492593,16) (-2817824802876974,16) (8614522669793563,16), (2304393388757354,18));
  (AB60 (-1678623079525612,16) (-816595123605656,15) (5522632068790233,16) (3326354232088325,16) (7147597379450765,16) (-6152009364747151,16) (-9886432418325405,16) (-1018353856605795,16) (1105173950389981,16) (7830632444272764,16) (-4363800349535171,16) (-4431528182478306,16) (3734423053578254,16) (-2783797029915593,16) (8848986300878559,16), (231104366566946,17));
  (AB60 (-1182488625281142,16) (-8090470963019215,16) (5757256312482852,16) (3301291264471223,16) (6780978916546765,16) (-6566566905200484,16) (-978936573868796,15) (-130949204647245,15) (1566380865060515,16) (7749055530481626,16) (-4032109426205107,16) (-4867672129531739,16) (3222798833487476,16) (-2748869490341657,16) (9058547576954076,16), (2324232377637188,18));
  (AB60 (-6882292179003251,17) (-7983254188479457,16) (5982808128776446,16) (3254509720150058,16) (639720561342297,15) (-6963040055969693,16) (-9662666897639662,16) (-1586048575056486,16) (2029117626659429,16) (7651269273870018,16) (-3679858768863216,16) (-5283627346809487,16) (2699626841669969,16) (-2717346844559754,16) (9237317848926504,16), (2345634774880184,18));
  (AB60 (-2079901649626715,17) (-7844266550196471,16) (6198727480761479,16) (3182508711498833,16) (6005912988270188,16) (-7334892465371357,16) (-950978118353294,15) (-1838353561926284,16) (2486869120536055,16) (7542882630334028,16) (-3311053702771461,16) (-5669377832034888,16) (2174888718161584,16) (-2694859285498726,16) (9381236192260312,16), (2346746419774492,18));
  (AB60 (-2605213591238099,16) (-7971363980937444,16) (5447037582708736,16) (2920394863903198,16) (7776571241812965,16) (-5567426116249355,16) (-9977542993950255,16) (-1947927391244792,17) (6408522393333468,17) (8172639707487456,16) (-4530505411241519,16) (-3561247103236545,16) (4410116877700899,16) (-3246065830571446,16) (8367432446611934,16), (2272588656000705,18));
  (AB60 (-2124558644261549,16) (-794757589527388,15) (5685269382883728,16) (2930564545296375,16) (7449436853301373,16) (-5993136241946047,16) (-9928883381426137,16) (-4981390419725066,17) (1081264210497414,16) (8117694886207596,16) (-4243613998542409,16) (-401182875579379,15) (393574713948009,15) (-3205822854758963,16) (8615833928180102,16), (2299804426484354,18));
  (AB60 (-1637515534670512,16) (-7890298639639883,16) (5921294643151087,16) (2916718239820485,16) (709970788935639,15) (-6409906598017566,16) (-9850053140503905,16) (-7905907502834934,17) (153343385733306,15) (8047422132688078,16) (-3928758497352818,16) (-4450152097153545,16) (3440146542486339,16) (-3170949392003572,16) (8838012882971571,16), (2335520732515869,18));
  (AB60 (-1155000775713876,16) (-779874630679914,15) (6151872011858431,16) (2876467422878312,16) (6734821408352196,16) (-6809413760575923,16) (-9742169171160413,16) (-1063924898446944,16) (1989523473336339,16) (7964414536289799,16) (-3590297159301981,16) (-4865990896214651,16) (2932755410584489,16) (-3144524249050215,16) (9028339434736744,16), (2364377001967212,18));
  (AB60 (-6851504238322047,17) (-767552729304162,15) (6373134995470889,16) (2811341398456613,16) (636146900415047,15) (-7185267681204148,16) (-9607922643262201,16) (-131405828889115,15) (2441530932526954,16) (7870418105036353,16) (-3234787647791312,16) (-5252872330983567,16) (2422654962058053,16) (-3126681356359158,16) (9184476393927503,16), (236302834761665,17));
  (AB60 (-2299151695737838,17) (-7526288019985672,16) (6580435217751179,16) (2727629609190496,16) (5982615602111148,16) (-7534477239493367,16) (-9450160216267469,16) (-1543672417874525,16) (2882975434021073,16) (776439240906715,15) (-286972499851629,15) (-5610605043211569,16) (1915682976774103,16) (-3112890603594857,16) (9308064826941675,16), (2318953664002077,18));
  (AB60 (-2096244970278451,16) (-7662015128865186,16) (6074477853249882,16) (2513686203595899,16) (7404022258369328,16) (-6233926216071473,16) (-9883714697223878,16) (-2579928704958578,17) (1498540444116882,16) (8330171186349924,16) (-3809236843973995,16) (-4012226647712781,16) (3649788481152405,16) (-3594785414395333,16) (8588164056845782,16), (2325526472846642,18));
  (AB60 (-1625974236766498,16) (-7586925950689571,16) (6308308996880602,16) (2481343859155184,16) (7058278451109201,16) (-6635031119688917,16) (-9794560199189151,16) (-5286474995803708,17) (1946053012034153,16) (8261005356455415,16) (-348625120230855,15) (-4427396871189337,16) (3159529079500235,16) (-3572027248800652,16) (8789652856035786,16), (2352071432724955,18));
  (AB60 (-1166717257267065,16) (-7479035696720746,16) (6534737629681243,16) (2422762705217287,16) (6702756918472923,16) (-7014504299383642,16) (-9678571255150632,16) (-7762787782478239,17) (2392206035736469,16) (8181221556650706,16) (-3143833625469388,16) (-4814968740953756,16) (266406695576699,15) (-3558923293003534,16) (895750033489853,15), (235116601776231,17));
  (AB60 (-7204442839858945,17) (-7345754560895346,16) (6746914106816336,16) (2346753695611513,16) (6340640068286869,16) (-736810902583348,15) (-9538926856931714,16) (-1005114492608476,16) (2828183034185597,16) (8088553309819374,16) (-2792012750115377,16) (-517493672979711,15) (2170817831098235,16) (-3548627318171492,16) (9093667802427851,16), (2311556156452951,18));
  (AB60 (-2857053892634196,17) (-7195450170030463,16) (6938578332854246,16) (226366448263872,15) (59730042219676,14) (-7694091478166685,16) (-937881845682678,15) (-1222445948062863,16) (3247058708731648,16) (7979796867430103,16) (-2440240123972533,16) (-5510723191370368,16) (1684726978660095,16) (-3532764097995068,16) (9202242815492967,16), (223237619159804,17));
  (AB60 (-1647842723811813,16) (-72572528715351,14) (6679587945088828,16) (2022235527288916,16) (7025865393842892,16) (-6822593270873722,16) (-9720246283807651,16) (-231387477692209,16) (2337364331312256,16) (8470435994685536,16) (-3040658338718822,16) (-4359599858601171,16) (2897653012933928,16) (-3985207055124069,16) (8701823472377744,16), (2318517530818111,18));
  (AB60 (-1210899755574531,16) (-7138395095102419,16) (6897610981214241,16) (1952088850936505,16) (6680315042077931,16) (-7180720023551728,16) (-9598077038064746,16) (-4580800530244871,17) (2768949229652894,16) (8391619779126258,16) (-2700466056850506,16) (-47210380805894,14) (2417357014513019,16) (-3979848985227426,16) (8849699832150746,16), (2286966421131902,18));
  (AB60 (-7848853298700388,17) (-7002143429910599,16) (7096051183997663,16) (1874284534284298,16) (6328857694265492,16) (-7512164652766815,16) (-9455421529412819,16) (-6732857356451069,17) (3184602018980298,16) (8297049982636854,16) (-2359370345415155,16) (-5058886553264597,16) (1943256876646003,16) (-3969487348850337,16) (8970335718281961,16), (2228752304846454,18));
  (AB60 (-3618884140991144,17) (-6856762545335837,16) (7270064935928732,16) (1800375287581923,16) (5967728765152892,16) (-7819518029228595,16) (-9294099563558704,16) (-8890337801829454,17) (3581805723423805,16) (8181406443327709,16) (-2024034627629972,16) (-5382181011005728,16) (1474581534330109,16) (-394369413752292,15) (9070440223510655,16), (2168857470589597,18));
  (AB60 (-1266642856004854,16) (-6778538316532934,16) (7242032461031001,16) (147152229627227,15) (6651915858851617,16) (-73202894436171,14) (-949638309392151,15) (-126622457681317,16) (3130922369956253,16) (8586932299621953,16) (-2254350632890509,16) (-4602444666228523,16) (217609365030441,15) (-4397565225961108,16) (8713554757303271,16), (2226025522699159,18));
  (AB60 (-8483486617185734,17) (-6642734510401531,16) (7426599677677587,16) (1398631115570709,16) (6302641250508216,16) (-7636788871636406,16) (-9349539100500861,16) (-3400932598933155,17) (3531353165966368,16) (8485137533354981,16) (-1922939422823275,16) (-4929984281537078,16) (1712750228864454,16) (-4379701827684941,16) (8825230793248295,16), (2193748049441023,18));
  (AB60 (-4196330460150281,17) (-6501821794954246,16) (7586186225854866,16) (1337317470968009,16) (5934661629386901,16) (-7936710485240502,16) (-9182851182062811,16) (-5671601655673441,17) (3918363627163929,16) (8356343531255531,16) (-1596664956207944,16) (-5255681098131938,16) (1246140696822308,16) (-4337996673178957,16) (8923503696822874,16), (2164085463367854,18));
  (AB60 (-8734818840964033,17) (-6262196237264827,16) (7747381989042599,16) (9226114370723591,17) (6231832503673597,16) (-7766147808427325,16) (-9209834919043831,16) (-3036373359122923,18) (3895897689575961,16) (8639629692523728,16) (-1462452930001233,16) (-481850912664832,15) (1443687110616506,16) (-4769379573672365,16) (8669993426114957,16), (2181365454327903,18));
  (AB60 (-4350966248997192,17) (-6128599809924775,16) (7889927458271774,16) (8787254175271335,17) (5854422137692954,16) (-8059378578667367,16) (-9037557378377297,16) (-2741776722318208,17) (4271695592687711,16) (8494475203567086,16) (-1147629920105524,16) (-5150421010214844,16) (9781787997099302,17) (-470679221758743,15) (8768652875798907,16), (2115901100967538,18));
  (AB60 (-4113977625632198,17) (-5748272876001337,16) (8172399330917774,16) (4371218794508847,17) (5732374497434185,16) (-8182225069238288,16) (-8863779010528389,16) (-1589837856715208,18) (4629597055260352,16) (8593622831801507,16) (-6913796796106136,17) (-5066718934711236,16) (6815539412901007,17) (-5040994817823571,16) (8609521210368659,16), (198657307482744,17))].

(** ahrens_beylkin/ahrens_beylkin_5592.hpp:1-11202. *)
Definition ab_5592 : coded := [  (AB12 (5257311121191336,16) (8506508083520399,16), (1970778766866983,18));
  (AB60 (-2758520310527588,17) (-9376358142844372,16) (346522923254438,15) (5767775501106679,16) (5982162774737784,16) (-5562957334491713,16) (-9403490664707356,16) (-3394195368106588,16) (-2319506884779512,17) (5838809365544471,16) (-5938261432162976,16) (-5535824812628728,16) (3840533330215644,16) (-4390134257480767,18) (9233004733651059,16), (2311580492110719,18));
  (AB60 (-1064588398968434,16) (-9434017193286238,16) (3141014348512512,16) (5732797153042091,16) (6548905516688919,16) (-492411142598885,15) (-9531763316145928,16) (-2885111676597319,16) (-906431849912931,16) (5988699824957284,16) (-6390748967633416,16) (-4826365303129159,16) (4607651890157078,16) (-1581565490555026,17) (8873811501554603,16), (2253586454407039,18));
  (AB60 (-7828561408034743,17) (-9322369629297388,16) (3532783712252983,16) (5533647750160915,16) (6386218941246677,16) (-5347424633559712,16) (-9550263165732017,16) (-2936150688050711,16) (-4141166530358318,17) (6130280774363186,16) (-6017479453479035,16) (-5119531097125083,16) (4202838532172306,16) (-3687394877676424,17) (9066431462413898,16), (227947725750917,17));
  (AB60 (-4771789507236438,17) (-919271509531195,15) (3907209928505261,16) (533600136717024,15) (6189797696648057,16) (-5763114946287965,16) (-9538124105938724,16) (-3002917398663892,16) (8170456849095098,18) (6240293897011608,16) (-5630914177433463,16) (-541770593566119,15) (3775009159650759,16) (-5588835192145948,17) (9243211295675501,16), (2289159718659912,18));
  (AB60 (-1609615056551587,17) (-9043755069668308,16) (4264338827244617,16) (5134642290016316,16) (5969851295740877,16) (-6164115837678343,16) (-949846079863618,15) (-3073903773927432,16) (5747678186941552,17) (6325077343333502,16) (-5234121971391562,16) (-5709410108710471,16) (3334344960957837,16) (-7357293243493139,17) (9398981117260934,16), (2274538847629261,18));
  (AB60 (-2096309174646483,16) (-9484131337448201,16) (2378390341875359,16) (5835833097512032,16) (7172978451373951,16) (-3806761378666658,16) (-9509813760247156,16) (-2311152886074249,16) (-2054754141644329,16) (5903070553313141,16) (-7131423418371797,16) (-3781078955867703,16) (5703052381580498,16) (-4155503300215415,18) (821422343938739,15), (2360659191908252,18));
  (AB60 (-1814857487469972,16) (-9430162367214696,16) (2788965763171339,16) (5673856927209264,16) (7045169550889012,16) (-4262972386584946,16) (-9584466302374283,16) (-2384992816325684,16) (-1565188475783903,16) (6077829874054919,16) (-6795500539202943,16) (-4108668451425361,16) (5321493915789336,16) (-2496690116860692,17) (8462822690380603,16), (2298859163423427,18));
  (AB60 (-1558443213716966,16) (-9347573500620732,16) (3192823891183575,16) (5484348434772451,16) (6921230637397772,16) (-4692386249016102,16) (-9640343201569728,16) (-242634286322296,15) (-1084731886705347,16) (6250829462733067,16) (-6447519310386153,16) (-4399616548067105,16) (4947956952553627,16) (-4737113270116189,17) (8677172325956026,16), (2234247423899663,18));
  (AB60 (-1292549638048887,16) (-9246216239925132,16) (3582848123731235,16) (5289502205669148,16) (6775963701714649,16) (-5109548153141013,16) (-967118993786097,15) (-2470252538210483,16) (-6049277504639721,17) (64020977911899,14) (-6088341814129734,16) (-4684574455205175,16) (4561641784719958,16) (-6876218875849154,17) (8872350329400382,16), (2227840915862247,18));
  (AB60 (-1005036396859587,16) (-9129223352482186,16) (3955652009654211,16) (5097297506180638,16) (6600066896082428,16) (-5518756662575504,16) (-9674096169024802,16) (-2529156456399758,16) (-1234136601477499,17) (652379305943509,15) (-5718444159370591,16) (-4973883846032888,16) (4155339506449299,16) (-8816227367118375,17) (9052949515834849,16), (2234993152263031,18));
  (AB60 (-7035296427803035,17) (-8995240538996667,16) (4311692670787235,16) (4904053513479499,16) (6399174016349296,16) (-5916150018839059,16) (-9650551415598033,16) (-2596066522647371,16) (3567856287581942,17) (6619679661619362,16) (-5338858744810798,16) (-5260839142237693,16) (3734401396758975,16) (-1060315271538498,16) (9215746184266733,16), (2240730458602599,18));
  (AB60 (-3919845804804629,17) (-8842526480441172,16) (4653608656877178,16) (4705819970547413,16) (6176429587507637,16) (-6301347154010593,16) (-9601688421227386,16) (-2666096892933536,16) (8363652426769656,17) (6693331734491055,16) (-4948079764350208,16) (-5542185213224379,16) (3300341267216794,16) (-1228349823157429,16) (9359428627424591,16), (2257477710877888,18));
  (AB60 (-7256111154240515,18) (-8667141813853799,16) (4987523199308331,16) (4495680803813926,16) (5933503507721024,16) (-6677004585447076,16) (-9528049236316936,16) (-2733638306132776,16) (1320416359170014,16) (6749565696989481,16) (-4540526037008605,16) (-581609716298394,15) (2851044650869859,16) (-1392977470712419,16) (9483204003122256,16), (2285514193837553,18));
  (AB60 (-2900602132696703,16) (-9356034250423074,16) (2012742003513037,16) (5666484353866323,16) (7646625028861195,16) (-3069215003120778,16) (-9471897063226357,16) (-1709409221561879,16) (-2713132163548827,16) (5969817135817481,16) (-7459155059713319,16) (-2953352190317497,16) (6402682060105578,16) (-1874699691478762,17) (7679226357379361,16), (2374964651000747,18));
  (AB60 (-2600927211219592,16) (-9345663091476624,16) (2427706535508166,16) (5543216287554122,16) (752722843757435,15) (-3551560957940423,16) (-9578384241860474,16) (-1818434653902273,16) (-2224376479997548,16) (6152488169160015,16) (-7150677706352307,16) (-3318839807556574,16) (6026823283920051,16) (-3765507312220438,17) (7970922823062289,16), (2362388661675585,18));
  (AB60 (-231495905422727,15) (-9305904387222905,16) (2835684769701432,16) (5395430723402613,16) (7402068194291421,16) (-4012320245945292,16) (-966183887118081,15) (-1903836192931484,16) (-1739044961415227,16) (6327279300172561,16) (-6826154101479378,16) (-3656385761987387,16) (5649518625235519,16) (-5759140928120436,17) (8231115493104045,16), (230287605688293,17));
  (AB60 (-2054459651062869,16) (-9236676656245696,16) (323465606983501,15) (5220437405095576,16) (7279994796627428,16) (-444395196424945,15) (-9724819367802688,16) (-1956681859618268,16) (-1264628152403119,16) (6498411615312318,16) (-6490163297967678,16) (-3955809252692457,16) (5280867403553239,16) (-7898314986597497,17) (8455093474930586,16), (2217132354240489,18));
  (AB60 (-1799290934641122,16) (-9146488277868881,16) (3619986783860604,16) (5033659587087979,16) (7147538518509527,16) (-4855405676948107,16) (-9765669324206362,16) (-1998949759359353,16) (-7974349564773532,17) (6654696611589229,16) (-6145682540345758,16) (-4236224630610626,16) (4910263647258254,16) (-1001855978163769,16) (8653646370948583,16), (2173123370254892,18));
  (AB60 (-1529527831861826,16) (-9041212606661757,16) (3989613917749508,16) (4847037596256853,16) (6990878814255974,16) (-5256789889738753,16) (-9781951700835904,16) (-2050333792405783,16) (-3309868006922471,17) (6786317721600579,16) (-5792337783086395,16) (-4516050795564606,16) (4525161811097151,16) (-1198541031169578,16) (8836651514006362,16), (2175131898305196,18));
  (AB60 (-1243109688851895,16) (-8919700636140619,16) (4346679061434738,16) (4658707848930033,16) (6808744881300727,16) (-5651321466672982,16) (-9773670949819548,16) (-2110955754839893,16) (1386433040640205,17) (6894431155524877,16) (-542699188838481,15) (-4797351152994053,16) (4122349483146566,16) (-1381752992915916,16) (9005386910364771,16), (221191531068265,17));
  (AB60 (-9400000656484768,17) (-8779069717197696,16) (4695139484313881,16) (4464370858859514,16) (6600888778035848,16) (-604132933836307,15) (-9740462333171286,16) (-2178180939161848,16) (6155658635299662,17) (6981329404011547,16) (-5045322848857405,16) (-5079936722389481,16) (3699132994808216,16) (-1555565929178443,16) (9159510343173395,16), (2269735135413506,18));
  (AB60 (-6211413375117845,17) (-861674963168272,15) (5036448076147494,16) (4260929621031715,16) (6367236760613764,16) (-6426723488598469,16) (-9681264155579062,16) (-2249512871068956,16) (110127934367041,15) (7047864826110253,16) (-4644816079431568,16) (-5362208964702125,16) (3254540666980594,16) (-1722420681182195,16) (9297377697179209,16), (2324382667718393,18));
  (AB60 (-2917891491289797,17) (-8429792120725532,16) (5371542040588002,16) (4043906258565922,16) (6110856217323493,16) (-6804723246622906,16) (-9595783910864045,16) (-2318935903402039,16) (159482519791847,15) (7096512395751885,16) (-4224241870276043,16) (-5638731456484392,16) (279106066424114,15) (-1886614347047449,16) (9415448299153925,16), (2357007954786878,18));
  (AB60 (-3763091177566991,16) (-9190155865427085,16) (1174810605363101,16) (5684727848152931,16) (8002519088976789,16) (-1908810499498745,16) (-9185256704017298,16) (-1187636776450296,16) (-3771018187244399,16) (5671901677065736,16) (-8010446098654197,16) (-1913709660908532,16) (7276446204518553,16) (7927009677407297,19) (6859538453516032,16), (2188552576936593,18));
  (AB60 (-3642419139565046,16) (-9168050421372624,16) (1636958851926178,16) (5473059755451589,16) (8036652299568701,16) (-2336201346008796,16) (-9361157436902112,16) (-1131398121803924,16) (-3329965424972281,16) (5978620485573842,16) (-7724198584975934,16) (-2143094330479308,16) (7024956090893316,16) (-3124537145927655,17) (7110018607377767,16), (2320361531004208,18));
  (AB60 (-3381690612587455,16) (-9179878288479201,16) (2072197676247625,16) (5345578834541718,16) (796612861720587,15) (-2822336226928555,16) (-9507776248804842,16) (-1213749671273331,16) (-2851140567938803,16) (620402683951601,15) (-7435578572557218,16) (-2494438266602914,16) (6685440021876287,16) (-5305500446486522,17) (7417776510789342,16), (2389037940126448,18));
  (AB60 (-3085532836622591,16) (-9179588129139734,16) (2492919752715803,16) (5226500838260354,16) (7856397135301656,16) (-3310696760515487,16) (-9626384757412795,16) (-1323190993838078,16) (-2362600706017927,16) (6396229597138079,16) (-7133465004696992,16) (-2863900132242427,16) (6315687996897308,16) (-7229321306046642,17) (7719420590976157,16), (238150986440193,17));
  (AB60 (-2794855814198707,16) (-9151284144956372,16) (2905646137455456,16) (5087063381480956,16) (773462195910623,15) (-3781191518887563,16) (-9720025405766474,16) (-1416662185850141,16) (-1874613123403494,16) (657604733308627,15) (-6814379268311017,16) (-3212450258077462,16) (593883388687891,15) (-9202426907952128,17) (7992709518936412,16), (2346878356817553,18));
  (AB60 (-2523870775459486,16) (-9092022517714303,16) (3311374766793634,16) (4919994385450492,16) (7611136685493765,16) (-4226612544564101,16) (-9791207074690643,16) (-1480885832220539,16) (-1392566397862731,16) (6750483320023587,16) (-6479832307897009,16) (-3527427987587761,16) (5564594530126542,16) (-1131304377596755,16) (8231369152244127,16), (2276164913492728,18));
  (AB60 (-2264408458451586,16) (-9008912675421181,16) (3702964587992772,16) (4737140465391307,16) (7480680250062692,16) (-4647464169574005,16) (-9839586445119913,16) (-1528232425358489,16) (-920350065516034,16) (6911872628025592,16) (-6136621857127141,16) (-3816790399875273,16) (5192122275545908,16) (-1344058392935552,16) (8440105053384079,16), (2188108045682524,18));
  (AB60 (-2002921482914825,16) (-891126389073612,15) (4071569894149041,16) (4554642205271464,16) (7334213754522284,16) (-5046240480291843,16) (-9864085652659208,16) (-1577050136213836,16) (-4612234869027084,17) (7049161963206668,16) (-5792515758510167,16) (-4093418718368755,16) (4817845172367365,16) (-1541697996012117,16) (8626212099420504,16), (2112540560614311,18));
  (AB60 (-1734527429628216,16) (-8801127104988626,16) (4419454296369843,16) (4374535796440245,16) (7169512203714692,16) (-5427847761907938,16) (-9865986998739317,16) (-1631614901273934,16) (-1154792828299703,18) (7162375191536153,16) (-5446532702369473,16) (-4362987868157248,16) (4438139236831378,16) (-1722979501345219,16) (8793990092810088,16), (2105989935314904,18));
  (AB60 (-1450894097002409,16) (-8673883901965195,16) (4760109701940977,16) (4188913699942597,16) (6981694725484667,16) (-5805940128400636,16) (-9845725267907649,16) (-1692189176480527,16) (4451850625155856,17) (7256834225403046,16) (-5085615565966672,16) (-4634098762458183,16) (4039785139507012,16) (-1896079159517995,16) (8949023401883573,16), (2191897878934009,18));
  (AB60 (-1145393075180615,16) (-8524942427497574,16) (5100336391962796,16) (3992709178461965,16) (6765204298954793,16) (-6187914366701366,16) (-9800937421365145,16) (-175973812854278,15) (9192101943718292,17) (7333307441881981,16) (-4700601029402349,16) (-4911919372833795,16) (3613023054663779,16) (-2064603269552444,16) (9093045570424761,16), (2290323577630596,18));
  (AB60 (-8220364432819341,17) (-8352626960411982,16) (5436715823557019,16) (378503601589949,15) (652139251588292,15) (-6568480951645513,16) (-972979830139582,15) (-1831234444529062,16) (1406273594762186,16) (7390517394927447,16) (-42930824778388,14) (-5191309610661676,16) (3161317349750306,16) (-222831003804412,15) (9221751839456509,16), (235254440442922,17));
  (AB60 (-4874310821848971,17) (-8156221445621781,16) (5765280797159789,16) (3565256872831823,16) (6254020495550963,16) (-6940905637735896,16) (-9631786645955021,16) (-1902200950070818,16) (1900083564570833,16) (7428336719920793,16) (-3866505848795233,16) (-5465340437402656,16) (2690881008219125,16) (-238751464675573,15) (9330537669991611,16), (2372845444104017,18));
  (AB60 (-149047946995652,16) (-7932425253287597,16) (6087233715777766,16) (3327791630031428,16) (5967853615647466,16) (-730140576117341,15) (-9507142043005898,16) (-1964571637640132,16) (239889734142368,15) (7450453708169061,16) (-3419908327228133,16) (-5726688971455108,16) (2205736281832489,16) (-2547945288419332,16) (9415025345809193,16), (2365570236905733,18));
  (AB60 (-4417528449942335,16) (-8930922134331217,16) (850924335333528,16) (5434714250279566,16) (8302266736849043,16) (-1239454738188586,16) (-9015821313947097,16) (-6286553974821735,17) (-428015869170686,15) (5656983188130922,16) (-8164896978613568,16) (-1154555558572707,16) (777636657575851,15) (-1373697582354751,17) (6285638585613095,16), (216708061053178,17));
  (AB60 (-4178042563688273,16) (-899627715570542,15) (1269235074263989,16) (5352437412539256,16) (8270461222902717,16) (-1717813990312269,16) (-9203844797606344,16) (-7258159328027028,17) (-3842191064127911,16) (5895856554000541,16) (-7934609723342355,16) (-1510246348411345,16) (7486030807294075,16) (-335851499560362,16) (6621672486803245,16), (2275796512683371,18));
  (AB60 (-4061098378075672,16) (-8972357738163945,16) (17332849107982,14) (5137199019733178,16) (8307290966304035,16) (-2144318780595797,16) (-9380380759839214,16) (-6650667718599099,17) (-3400903260812651,16) (6205417158671468,16) (-7647095849041015,16) (-1736295758920527,16) (7236061979243418,16) (-6601951172630209,17) (6870483930531378,16), (2197932359969642,18));
  (AB60 (-382700969162317,15) (-8981876854454193,16) (2163304183799028,16) (5002227892387737,16) (8255552062184193,16) (-2612197592293595,16) (-9530754140885139,16) (-72632479227,12) (-2938907586525089,16) (6439207283916766,16) (-7367449957086111,16) (-2063320305862649,16) (6918556548591543,16) (-888102105098082,16) (7165532076186766,16), (2333627211273023,18));
  (AB60 (-3540639851463533,16) (-8988624318136156,16) (258234434373877,15) (4886659772491267,16) (8156738257406567,16) (-3096478204036915,16) (-965723988635688,15) (-8318860607295889,17) (-2458797136675077,16) (6637118055500448,16) (-707489554261811,15) (-2427862635816191,16) (6560761682319965,16) (-1081842714788456,16) (7469004116230037,16), (2367538691826158,18));
  (AB60 (-3251319512354436,16) (-8969253813800112,16) (2996899639997218,16) (4753115958767605,16) (8041092565732963,16) (-3570534838343238,16) (-9759441565685598,16) (-9281612480671486,17) (-1972768872309852,16) (6821854350697674,16) (-676254192568838,15) (-2780347086457753,16) (6188906727342359,16) (-1278550640044584,16) (7750015598764822,16), (2365158651115353,18));
  (AB60 (-2973121522528263,16) (-8918658236271656,16) (3408531014508007,16) (459233549610871,15) (7917928965540165,16) (-4027015717356963,16) (-9838356664223019,16) (-100072927073149,15) (-148501820670311,15) (7000137239885227,16) (-6429825649715012,16) (-3107317289405599,16) (5811340946866056,16) (-1488103315825153,16) (8000866510616716,16), (2343597448397431,18));
  (AB60 (-2700711388573255,16) (-8840028417414421,16) (3815764087956202,16) (4409285460496539,16) (7784071568669023,16) (-4468381311134089,16) (-9894180980394937,16) (-1055956848745397,16) (-9950567123429657,17) (7169092699707343,16) (-6078416892438734,16) (-3414228748153573,16) (5425799669260847,16) (-1705654676230289,16) (8225049548452741,16), (231835073475541,17));
  (AB60 (-242215252313818,15) (-8740552793510391,16) (4211402856354762,16) (421706802938609,15) (7631234003714958,16) (-489699957280724,15) (-9925443470976564,16) (-1109318789795432,16) (-5049591340450232,17) (731915209594542,15) (-5714040614621801,16) (-3712108895341066,16) (5028443898169325,16) (-1917193389093158,16) (8428470885740852,16), (2281620844705177,18));
  (AB60 (-2138725264878704,16) (-8626207157614101,16) (4584147065190728,16) (4025772201766674,16) (7459948012250959,16) (-5304934856715555,16) (-9931724173250563,16) (-1166259145363143,16) (-2635436068758068,18) (7443660121594259,16) (-5347577108059834,16) (-3999417841079093,16) (4626789316535008,16) (-2112370904191123,16) (8609919266957402,16), (2183470479790092,18));
  (AB60 (-1864752227751256,16) (-8503994595269644,16) (491983486030999,15) (3843718588817169,16) (7280926121538213,16) (-5675732747644472,16) (-991603370647452,15) (-122306847373143,15) (4199750476224268,17) (7540484975395728,16) (-499619884616453,15) (-4263693636439596,16) (4240300958830048,16) (-2284727275373683,16) (8763553449127158,16), (2003244383261502,18));
  (AB60 (-1601450789724433,16) (-8377314649306588,16) (5220723573854895,16) (3672152621907754,16) (7097550536450614,16) (-6011661293182243,16) (-988262721512271,15) (-1279764112855974,16) (8341961054583666,17) (7613112082906676,16) (-4661903641267815,16) (-4506348727366121,16) (3870965921940467,16) (-2435646895182799,16) (889287619576265,15), (1966625453021549,18));
  (AB60 (-1319577585700227,16) (-8231312684951892,16) (5523061332075503,16) (3489969282724773,16) (6889936847290159,16) (-6352077191438316,16) (-9828574413555544,16) (-1341375837661734,16) (1264846180109891,16) (7671654777138542,16) (-4305513081480041,16) (-4754815462834664,16) (3476497222117228,16) (-2584423765810118,16) (9013030614800276,16), (2154490106899073,18));
  (AB60 (-1006887593152581,16) (-8057681113097481,16) (5836090511154496,16) (3289610322463221,16) (6646880879491579,16) (-6708013006859235,16) (-9747991589036589,16) (-1410800233605901,16) (1728092208456906,16) (7714900600011816,16) (-3911901077882092,16) (-5017702530920127,16) (3039978582177353,16) (-2734979801609487,16) (9125700833617717,16), (2285627541587888,18));
  (AB60 (-6758816901989048,17) (-7858894544866819,16) (6146621874942075,16) (3075809377868462,16) (6375657663345091,16) (-7063312681089904,16) (-9640149109727186,16) (-1483236881521728,16) (2206248738361074,16) (7739194371288809,16) (-3493527234785112,16) (-5282058116229537,16) (2576836428637283,16) (-2882130428559979,16) (9222431252810537,16), (2316394851214915,18));
  (AB60 (-3406728265132473,17) (-7633241036066926,16) (6451168367867902,16) (2844563843490081,16) (6085751283449702,16) (-7407569632227512,16) (-9506279597186666,16) (-1547489752617223,16) (2689967227617691,16) (7748242458740759,16) (-3055111229318764,16) (-5534531071107771,16) (2098709964959154,16) (-3030640054130938,16) (9295732211357983,16), (2301119506798375,18));
  (AB60 (-1599565525297942,18) (-7373814701773349,16) (6754746544684281,16) (2583225205455,13) (5787179582825396,16) (-7735340975938348,16) (-9347857608757949,16) (-1586635118947953,16) (3178072863498749,16) (7751336631191328,16) (-2593111064073667,16) (-576129806895375,15) (16125166328196,14) (-3194068518751729,16) (9337971750139281,16), (2334285598294513,18));
  (AB60 (-5196890153499688,16) (-8530952717692913,16) (4638733242447472,17) (5063821689369103,16) (8613193551356362,16) (-4130456937776102,17) (-8739549764276316,16) (8224083366344741,18) (-4859373042174897,16) (5609935847277299,16) (-827567644003157,15) (-204448647194207,16) (8326504070498707,16) (-3375171113247914,17) (5527695013613851,16), (2181478878002943,18));
  (AB60 (-4950618752074745,16) (-8646654899086272,16) (8524863797816751,17) (5039222240902962,16) (8591894931468612,16) (-8863299009922326,17) (-8951359274809418,16) (-5475996761766026,18) (-4457596715633876,16) (5836948653066977,16) (-8098872895027743,16) (-5816255252690865,17) (8065029373817185,16) (-4930220364408687,17) (5891708620684637,16), (1727751777297519,18));
  (AB60 (-4712325238167381,16) (-874743091140846,15) (112979790222256,15) (5055732731723207,16) (853519340839955,15) (-1260967892769475,16) (-9097907797177152,16) (-2122375030089107,17) (-4145241724722423,16) (5973293130936856,16) (-7968109894954591,16) (-9104910070007834,17) (7836939904407676,16) (-5670835134449577,17) (6185530633945767,16), (1711744794451662,18));
  (AB60 (-4553626535192639,16) (-8778622769009349,16) (1483329921972894,16) (495324206093774,15) (8531646791666718,16) (-1635969470375364,16) (-9250867953733104,16) (-2469759773426309,17) (-3789517775286131,16) (6189596005568003,16) (-7767538031760211,16) (-1163724285651609,16) (761489848335774,15) (-764108759906508,16) (6436571982910634,16), (1970021952282244,18));
  (AB60 (-4432959934361582,16) (-8761999586439442,16) (1891092136195381,16) (4773200546937099,16) (8551719323514687,16) (-2021052485846143,16) (-940401259333444,15) (-2102802629247547,17) (-3394161067985954,16) (6454012420207725,16) (-751292045713906,15) (-1379039478951145,16) (7382960107488297,16) (-1038798866375628,16) (666429268313248,15), (1905885157136389,18));
  (AB60 (-4237964633231996,16) (-8765069374093901,16) (2283246512051629,16) (4639863731262858,16) (8516682071462903,16) (-2436758307451493,16) (-9542316429771842,16) (-2483873026309983,17) (-2980352479489305,16) (6674722940683488,16) (-7259069917720213,16) (-1659511251773552,16) (710555812232035,15) (-125761215374269,15) (6923110243314486,16), (2144356177221827,18));
  (AB60 (-3971600262489171,16) (-8775687193700453,16) (2685834252763527,16) (4529470974667338,16) (8430904132246236,16) (-2898921903487477,16) (-9669889179377177,16) (-3447830614542172,17) (-2524751056856585,16) (6870522165976648,16) (-698405492661365,15) (-2004719917810753,16) (67709672758897,14) (-1446849205632586,16) (7215305227430865,16), (230052830897742,17));
  (AB60 (-3690236616964198,16) (-8763301589470253,16) (3096239487314373,16) (4401194341150587,16) (8323905551358791,16) (-33678011733893,14) (-9778125484278261,16) (-4393960381114612,17) (-2048217062569294,16) (7058037790353497,16) (-6681885996963888,16) (-2352977278581292,16) (6410324310888961,16) (-1642019554394904,16) (7497433828464959,16), (2342354237091077,18));
  (AB60 (-3413161784707999,16) (-8721467941767798,16) (3505185240771946,16) (4248498164374572,16) (8205201667094568,16) (-3824255345765291,16) (-9863133397198313,16) (-5162662746732288,17) (-1565908274039797,16) (7237417130473289,16) (-6357948156426366,16) (-2682589890334775,16) (6038878051433022,16) (-1847253510668202,16) (7753683405146519,16), (2329963755776001,18));
  (AB60 (-3140430272914805,16) (-8651786137748301,16) (3909513310838906,16) (4074239037736283,16) (807466058209607,15) (-4266196520008154,16) (-9924644996535648,16) (-5771255556522307,17) (-1080901376515476,16) (7406626792922959,16) (-6015131685696741,16) (-2993337661220807,16) (5658448476527493,16) (-2059528896399329,16) (7983752348575189,16), (2314091004404723,18));
  (AB60 (-2861094572556251,16) (-8558614960300263,16) (4308624816367014,16) (3885625697577264,16) (792541990250511,15) (-4699960883592873,16) (-9962504204811894,16) (-6331950577951534,17) (-5895540584960216,17) (7561055456149125,16) (-565387938844488,15) (-3296071639081242,16) (5262543321219021,16) (-227154051406023,15) (8194250513944278,16), (2329708225033847,18));
  (AB60 (-256731187823091,15) (-8444062547960082,16) (4701778111101413,16) (3687158047080001,16) (7751959553439989,16) (-5129521285430413,16) (-9975622158649449,16) (-6921029945200922,17) (-891963723389564,17) (7696833163661323,16) (-5273844047548035,16) (-3597961674741045,16) (4846100873219036,16) (-2478115505891954,16) (8388936158181415,16), (2363645072680295,18));
  (AB60 (-2259430762012437,16) (-8308297404493014,16) (508597747440613,15) (3480362554277669,16) (7553720058927774,16) (-5552331921106123,16) (-996274503483456,15) (-7545773455652391,17) (4175217364869068,17) (7811762683118559,16) (-487676756042843,15) (-3897884290764576,16) (4410413113728437,16) (-2676952498499344,16) (8566340028683799,16), (2393051121547602,18));
  (AB60 (-193927272166119,15) (-8152733565170455,16) (5456386783061099,16) (3268238385582336,16) (7331387614985616,16) (-5964006496797407,16) (-9923161624085565,16) (-8213459501848384,17) (9253400522999608,17) (7903279218458598,16) (-4466774841024466,16) (-4193578437882297,16) (3959155127288158,16) (-286461277396115,15) (8724625168643435,16), (2409604538825462,18));
  (AB60 (-1609911310282872,16) (-7979353562348354,16) (5808450938078235,16) (3053717212713131,16) (708703244148874,15) (-6359935719648879,16) (-9857148059419059,16) (-8923211208596143,17) (1428424009865043,16) (7969847029931751,16) (-4048697121340824,16) (-4482141222578174,16) (349721233977018,15) (-3038335320147915,16) (8862168150791365,16), (2402784344009826,18));
  (AB60 (-1273187427387458,16) (-7791043253727413,16) (6138292824009871,16) (2840503432083584,16) (6822388691713518,16) (-6736954266692101,16) (-9765669360267941,16) (-9686545620138956,17) (1921824728067989,16) (8010141694079559,16) (-3627376536258071,16) (-4762328160151572,16) (3028715093575841,16) (-3195012155455446,16) (8978796256093454,16), (2366094973783111,18));
  (AB60 (-9327219334676329,17) (-7588864269970266,16) (6445088741576571,16) (262874886315473,15) (6540661981588511,16) (-7092913382881915,16) (-9650291461666817,16) (-1048202288381754,16) (2402737328030633,16) (8025635316349548,16) (-3205202720090246,16) (-5031486191185363,16) (2557378078784902,16) (-3335459261498265,16) (9073837604731302,16), (2297574260799181,18));
  (AB60 (-5993263513253554,17) (-7367359986418204,16) (6735192258215871,16) (2407521275846109,16) (6249834064779328,16) (-7425861261097747,16) (-9513117589534509,16) (-1117525921638876,16) (2872582382135334,16) (8025187612423103,16) (-2777925331318639,16) (-5280103657981442,16) (2087256328436762,16) (-3471908733460689,16) (9142713534061979,16), (2212534106317879,18));
  (AB60 (-3013780223763382,17) (-7112195583702462,16) (7023236096472317,16) (214913811565218,15) (5970217043002316,16) (-7729017649048013,16) (-9358636073415302,16) (-1141978540700147,16) (3333439043682994,16) (8030395671424352,16) (-2335399976942984,16) (-5482577159335175,16) (1629618424367288,16) (-3634817066059332,16) (9172374212124498,16), (2164387572780377,18));
  (AB60 (-387129653454204,15) (-8506431600651088,16) (3557201788637718,16) (3906950412657626,16) (8484396292144909,16) (-3570820358247125,16) (-9856745040172006,16) (-2203530850617837,18) (-1686443493931419,16) (7442116892789165,16) (-6299543251534288,16) (-2220506918726207,16) (628592468192488,15) (-2184853040610621,16) (7464152201295343,16), (2334731757666473,18));
  (AB60 (-3598529564448182,16) (-8447981911359961,16) (3960074064853747,16) (374251711186032,15) (8358992713102523,16) (-4015072414008447,16) (-9926604757064399,16) (-8898919825743798,18) (-120606754355631,15) (7613601978456629,16) (-5966530692210651,16) (-2536449568304009,16) (5911532343055951,16) (-2392462020891872,16) (7702591176714066,16), (2286825642017641,18));
  (AB60 (-332627760040345,15) (-83665600980002,14) (4351614579854832,16) (3565005707280685,16) (8219018013880152,16) (-4442800602612019,16) (-997237290020229,15) (-1475420841200488,17) (-7280179068707564,17) (7769078203015468,16) (-5620758320347458,16) (-2836987800409929,16) (5529572297590272,16) (-2598259693532693,16) (7916620287135517,16), (2259357298527929,18));
  (AB60 (-3045777551410328,16) (-8264630651174131,16) (4734883241115663,16) (3377588004002622,16) (8059560513649607,16) (-4861623556183434,16) (-9994865294061298,16) (-2050701375245237,17) (-2461990907063557,17) (7907401107593761,16) (-5259982052945635,16) (-3131388913296267,16) (5133241737877865,16) (-2799578460703972,16) (8112471245118286,16), (2279868297539674,18));
  (AB60 (-2752319556651202,16) (-8141304381105751,16) (5113110602389083,16) (3179384782543482,16) (7877363556091169,16) (-5276235003266782,16) (-999352241884405,15) (-2639408250145805,17) (244632182985001,16) (8028554559917984,16) (-4880411816454966,16) (-3424016965528483,16) (4717287415577268,16) (-2996951739636203,16) (8292495384932564,16), (2326579536073635,18));
  (AB60 (-2445037190918457,16) (-7996594807477669,16) (548418313151984,15) (2971731486747389,16) (7671079830974697,16) (-56853624508458,14) (-9967030706012402,16) (-3255149765029719,17) (7431950655636786,17) (8130399641764258,16) (-4482847574492562,16) (-3714926552311068,16) (4281668255166601,16) (-3188232256482136,16) (845591461826723,15), (2367794990015213,18));
  (AB60 (-212604260030624,15) (-7832418263460004,16) (5842359712299583,16) (2758396331782333,16) (7441602164494954,16) (-6083897344810627,16) (-991472263260138,15) (-3908160989650499,17) (1243196643886916,16) (8209939945116866,16) (-4072362920301797,16) (-4001592975669249,16) (3830825287790754,16) (-3369239244193156,16) (8600756044081916,16), (2387871905799952,18));
  (AB60 (-179643199255931,15) (-7653023644627687,16) (6180943390039982,16) (254582647689743,15) (7189872382325028,16) (-6467186612075443,16) (-9837025896816763,16) (-4631512623026592,17) (1737357882988936,16) (8263618604634753,16) (-3656082506776782,16) (-4283184359886366,16) (3369839284741321,16) (-3533789875548246,16) (8726769866937412,16), (2370085434965056,18));
  (AB60 (-1458885492156332,16) (-7463018372329149,16) (6494228968480659,16) (2339773798383045,16) (6918599458788715,16) (-6830698361166938,16) (-9735643586710435,16) (-5444189135404343,17) (2218299348402606,16) (828958385332327,15) (-3241414618229776,16) (-4558073146785651,16) (2904945225543497,16) (-3677184840558938,16) (8834002766863703,16), (2302556683899476,18));
  (AB60 (-112200254904652,15) (-7264311935716561,16) (6780183063940016,16) (2140142421078076,16) (6635066889499591,16) (-7169077889754601,16) (-9613761195792861,16) (-6292450462169696,17) (2679486208600225,16) (8291080438801122,16) (-2833578131852846,16) (-4819628629678301,16) (244468330603826,15) (-3801488757646745,16) (8920325485018091,16), (2180463836431699,18));
  (AB60 (-8103112958817979,17) (-7047723504897505,16) (7047906710668181,16) (1927374770622297,16) (6357340309916817,16) (-7474586990427993,16) (-9476081403613402,16) (-690383194980688,16) (3118854321089798,16) (8284898286309791,16) (-2428174692945221,16) (-5046229091712096,16) (200149441318541,15) (-3929165616971597,16) (8975281481290478,16), (2057122959459487,18));
  (AB60 (-5466364046806046,17) (-6782803939228027,16) (7327670800675384,16) (1654648317220792,16) (6098014917338416,16) (-775089369132596,15) (-9320158995476832,16) (-6847890218896113,17) (3558890317856363,16) (8297530096006565,16) (-1992488194801447,16) (-5213538635077155,16) (1569265304150872,16) (-4105526722536968,16) (8982319117896176,16), (2212614372983835,18));
  (AB60 (-2289797469798917,17) (-6522448020861176,16) (7576624584248395,16) (1417700368495273,16) (578777827363677,15) (-8030675458539371,16) (-9135842219112592,16) (-734669747224405,16) (3999580891792682,16) (8259655205519263,16) (-1559217634864197,16) (-5417281260287954,16) (1105166760573221,16) (-4228560638772573,16) (8994324952743668,16), (2298073239734409,18));
  (AB60 (-1884025937458774,16) (-7256840402946811,16) (6617304106140305,16) (1980059125862607,16) (7197488628465222,16) (-6653985520062546,16) (-9761755297038818,16) (-5935177448159072,18) (2169011500107934,16) (8538011457521321,16) (-3144451190898513,16) (-4149070625970541,16) (3107769776976271,16) (-4053037437566708,16) (8597363232002911,16), (2352740105606889,18));
  (AB60 (-1531022773948989,16) (-7059319960986133,16) (6915343155192827,16) (1780326183646348,16) (6905241980281925,16) (-7010568584185978,16) (-9641893450689797,16) (-1540779807042083,17) (2647668910835966,16) (8541591358134967,16) (-2726550295496971,16) (-4427995094482314,16) (263132486650382,15) (-4178691684784955,16) (8695669338839175,16), (2319686668703834,18));
  (AB60 (-1186087304799095,16) (-6839573339770068,16) (7198154863248007,16) (1567732500528499,16) (6603703637166189,16) (-7343930356373534,16) (-9498929631767103,16) (-2358697026038784,17) (3116841563847999,16) (8530017661172629,16) (-2300774768519096,16) (-4684574064376498,16) (215499927539357,15) (-4302928868647093,16) (8765887363776507,16), (2233549117064381,18));
  (AB60 (-919888573631243,16) (-6567423777081252,16) (7484834663793883,16) (1286478910840513,16) (6340858488738638,16) (-762485971266054,15) (-9339835979001165,16) (-2265652883426143,17) (3565968599900113,16) (8544748286291782,16) (-1855001315207282,16) (-4852447510740626,16) (1714976266340626,16) (-4485857173531356,16) (8771313574634397,16), (2092540690356809,18));
  (AB60 (-6428217011913204,17) (-6309287505571377,16) (7731731464071836,16) (1039812252347714,16) (6063933851744171,16) (-7883368361401024,16) (-9168829376461814,16) (-2453536538272054,17) (3984014238162872,16) (8526190062592345,16) (-1437097912389979,16) (-5023826490510587,16) (1285461015060791,16) (-4626835939354192,16) (877154371641955,15), (2183788337277621,18));
  (AB60 (-285544484763407,16) (-6090001108315714,16) (7926559836898639,16) (8753963754984261,17) (5725452591513082,16) (-8151863210831027,16) (-8978432409280928,16) (-364548516802631,16) (4388035534367387,16) (8437407695594434,16) (-1051872572382288,16) (-5263431909865813,16) (8265691984498999,17) (-4673580019130794,16) (8801956212397065,16), (2044427102813238,18));
  (AB60 (8228019995567184,18) (-5890453005516868,16) (8080581251277197,16) (7506119404784051,17) (5375697353765958,16) (-8398717739960364,16) (-878034123158186,15) (-5147556517509102,17) (4758217573416967,16) (8316437540004692,16) (-6997599803046624,17) (-5508829513895372,16) (3816234916214956,17) (-4675937373461296,16) (8831193191755602,16), (1891506956117462,18))].

(** ahrens_beylkin/ahrens_beylkin_5772.hpp:1-11562. *)
Definition ab_5772 : coded := [  (AB12 (5257311121191336,16) (8506508083520399,16), (1650328271142747,18));
  (AB60 (-9184641620601106,17) (-9451400345827377,16) (3134877204278562,16) (5795083863475401,16) (6437483620145362,16) (-499758018001184,15) (-9497603137355803,16) (-3013916725682014,16) (-8437064749919894,17) (591604434207195,15) (-6362725933077241,16) (-4951377388483412,16) (4500022957343964,16) (-7475768706812121,18) (8929961067753963,16), (2197440448386917,18));
  (AB60 (-5641964833676304,17) (-9365042643726488,16) (3460875410837552,16) (5671694644874858,16) (6208435182437421,16) (-5411766111055714,16) (-9481262658766771,16) (-3156607461289067,16) (-3761485488594285,17) (5975962594423344,16) (-6020387247929219,16) (-529554609601543,15) (4069496547711058,16) (-1880479345082019,17) (913257005571241,15), (2183781689523374,18));
  (AB60 (-19303884214489,15) (-9260136380062214,16) (376996156851388,15) (5546974634645864,16) (5951222086712008,16) (-5814983067664649,16) (-9436240768754213,16) (-3308914293350206,16) (9190404432678587,18) (6008021909809538,16) (-5666279200240332,16) (-563887867897265,15) (3621257701089564,16) (-2849428864716759,17) (9316936203159745,16), (2179832682396533,18));
  (AB60 (-240581473111628,15) (-9449004442865492,16) (2219993359956757,16) (5790970856991662,16) (7356862899849589,16) (-3513007942816235,16) (-9497839491413469,16) (-2092141543015903,16) (-2326797962723403,16) (5918822673932516,16) (-7277846131456712,16) (-3464172894268258,16) (5984831548597234,16) (-7901676839287749,18) (8010964216948419,16), (2257018399927781,18));
  (AB60 (-2065625767659713,16) (-9439466654272494,16) (2574812511787581,16) (5710969219022636,16) (7186520500663359,16) (-3967209809541368,16) (-9562408663261512,16) (-2252946153609135,16) (-1866701418470286,16) (6032835577201081,16) (-6987596151473932,16) (-3844267800552349,16) (5595198853720145,16) (-1989243491894274,17) (8285781730810217,16), (2256738619210206,18));
  (AB60 (-17305880507975,14) (-9403989396561033,16) (2927464504960659,16) (5609473866300712,16) (7006706124100195,16) (-4409067048003032,16) (-9606500607178655,16) (-2397283272460838,16) (-14029180289153,14) (6139655098800532,16) (-6679036102217996,16) (-4206555837385411,16) (5197433559175623,16) (-3276700218821998,17) (853693837126137,15), (2235122384990998,18));
  (AB60 (-1393705929748272,16) (-9346202323490402,16) (3272015572971362,16) (5494549908631322,16) (6811741361980321,16) (-483839859034433,15) (-9627923116509389,16) (-2534460961510081,16) (-9378721113059778,17) (6232104520092603,16) (-6355907543538027,16) (-4556677797325344,16) (4789524526165058,16) (-4558338184422941,17) (8766565481602684,16), (2207878972359292,18));
  (AB60 (-1044789481004061,16) (-9270202817636032,16) (360163222168453,15) (537607780475337,15) (6593319418483401,16) (-5256037146281207,16) (-9623425436786772,16) (-2676883399152631,16) (-4732632776229034,17) (6300826627285269,16) (-6021793215102242,16) (-4902814527130467,16) (4367388290505565,16) (-571526203381158,16) (89777100264379,14), (2188671966063364,18));
  (AB60 (-6807095901423814,17) (-9177442819463134,16) (3912950005989438,16) (5257881371267288,16) (6348595086381048,16) (-5661274054032258,16) (-9591533040432728,16) (-2828847733082087,16) (-1069753820462411,18) (6341983644174639,16) (-5678583034443291,16) (-5247183833062664,16) (3930258986400471,16) (-6700120519377573,17) (9170831377256726,16), (2178147008564334,18));
  (AB60 (-3054840818700831,17) (-9065642455546111,16) (4209608811270218,16) (5135054633019841,16) (6080803703869999,16) (-6054340610743862,16) (-9533462989907826,16) (-2984838751676113,16) (451465443362308,16) (6359824692613946,16) (-5323854178637608,16) (-5586520076382149,16) (3479122379163963,16) (-7569495252323911,17) (9344663444290059,16), (2181461275725858,18));
  (AB60 (-3839526819023065,16) (-9141360411666219,16) (1301369905147736,16) (5558351934733958,16) (8079068069439916,16) (-1957902678632327,16) (-9232679914754716,16) (-1062292342226303,16) (-3691768759190128,16) (5797429497655392,16) (-7931310009606979,16) (-1866583175543831,16) (7274777236122388,16) (-1477580598329373,17) (6859721839881695,16), (2036380883059372,18));
  (AB60 (-352816070868339,15) (-9210379578730449,16) (164954236969162,15) (5536320801121966,16) (7969268386752278,16) (-2416591270152025,16) (-9366386406551838,16) (-124111119197817,15) (-327573635879133,15) (5944751978835415,16) (-7716844036860218,16) (-2260584442330636,16) (6949795136399812,16) (-2524243498920603,17) (7185863170813586,16), (2124779153103625,18));
  (AB60 (-3205998142115155,16) (-9258524581553196,16) (2000324595041862,16) (5499433521945712,16) (7841103565816386,16) (-287633895913561,15) (-9481173936683757,16) (-141742101573681,15) (-2845743917940663,16) (6082337101250765,16) (-7480849341641894,16) (-265368960400505,15) (6604834977548146,16) (-3602542241744919,17) (7499758116987575,16), (2180305820979477,18));
  (AB60 (-2875429645700852,16) (-9284889274351152,16) (2350050109181419,16) (5448051532597949,16) (7694921508046858,16) (-3332704229774222,16) (-9575214895081563,16) (-1589967766304294,16) (-2405672923554137,16) (6208133875475074,16) (-7225164785900144,16) (-3042378609043812,16) (624251066530734,15) (-4697567221467145,17) (7798101641779368,16), (2208452222003693,18));
  (AB60 (-2543090317257884,16) (-9286917392346996,16) (269923266614645,15) (5377799536428702,16) (7534970746676755,16) (-3781995239647027,16) (-9648748455101278,16) (-1751946645670241,16) (-1957635359535958,16) (6325085556904912,16) (-6949515788954829,16) (-3420164176892744,16) (5866753215454251,16) (-585454957721926,16) (8077032202575153,16), (2217784855595589,18));
  (AB60 (-2212673210639087,16) (-9263797914158287,16) (3047314468274759,16) (5287159085786209,16) (73636611453859,14) (-4221663574649495,16) (-970198080423228,15) (-1900136768772387,16) (-1503678401210707,16) (6434336785288581,16) (-6654666335957521,16) (-3783480684575502,16) (5480317229582785,16) (-7089948094283793,17) (8334473554060969,16), (2211880512050825,18));
  (AB60 (-1880164513197125,16) (-9218016564949443,16) (3390155160406659,16) (5181451688471934,16) (7177708884005479,16) (-4651134654737504,16) (-9733612422475817,16) (-2040307680943963,16) (-1045912891260804,16) (653129916793463,15) (-6343457262069158,16) (-413553879721113,15) (5082477767738313,16) (-8342516219363215,17) (8571606848878592,16), (2197902571365418,18));
  (AB60 (-1538057270757924,16) (-9153241322451695,16) (3721901815581844,16) (5068891040701369,16) (6971066044000719,16) (-5070560307074313,16) (-974136452625551,15) (-2182175278450976,16) (-5864539374308705,17) (6608617577832238,16) (-6019462710673665,16) (-4482437103270498,16) (4670804219181197,16) (-9516033333270535,17) (8790792856283213,16), (2184654540068533,18));
  (AB60 (-1182258102362473,16) (-9071815131329694,16) (4037875184100655,16) (495497717365571,15) (6740146515265535,16) (-5478925639329734,16) (-9723528048491326,16) (-2331668616064159,16) (-127764451487608,16) (6661183741692206,16) (-5685652864390671,16) (-4827212722168102,16) (4244602409161591,16) (-1054493650874865,16) (8992852357756365,16), (2176470158705066,18));
  (AB60 (-8137793583068813,17) (-8973378827959504,16) (4337768500729581,16) (483926006703043,15) (6485494928911336,16) (-5875365310404961,16) (-9679971870536743,16) (-2487883899048169,16) (3295122007972923,17) (6689144668711843,16) (-5342203369807162,16) (-5168772267827723,16) (3804606560131782,16) (-1143291559104174,16) (9177028567760011,16), (2181766079058509,18));
  (AB60 (-4367066634972082,17) (-8854103657665979,16) (4627541000289794,16) (4714400048286843,16) (6210343752415403,16) (-6261474479828851,16) (-9611840609731475,16) (-2643759905250577,16) (7893374794765132,17) (669818114332606,15) (-4984299609441681,16) (-5503737527763356,16) (3350366129902623,16) (-1226044142973721,16) (9341941048576637,16), (2205198527933615,18));
  (AB60 (-5527656344620985,18) (-8709310489610546,16) (4913741476420316,16) (4572028059677243,16) (5917804546202824,16) (-6638987029243628,16) (-9519932331088606,16) (-2791505943407721,16) (1256337128088323,16) (6694263592689838,16) (-4606190854668291,16) (-5828365187765566,16) (2880945301844979,16) (-1311613691534533,16) (9485769536097559,16), (2229901567574522,18));
  (AB60 (-5065792040124546,16) (-8613901371303335,16) (3720943048063237,17) (5217329614483081,16) (8520245999777047,16) (-4299765076385693,17) (-8720255580025045,16) (-9365537152628877,18) (-489370731556622,15) (5495768547763116,16) (-8348161275218721,16) (-3236222989168602,17) (8290279072386475,16) (-1720847245583259,17) (5589423919289405,16), (1897018462517341,18));
  (AB60 (-4833405752792625,16) (-8723381198378243,16) (7353973732969994,17) (5196060432927836,16) (8499248279875461,16) (-8739191349294288,17) (-891866684286995,15) (-2241329185027819,17) (-4517426942490115,16) (5707324887722054,16) (-818326946957295,15) (-6786334904377218,17) (8044747707940522,16) (-3159788103025105,17) (5931457806224836,16), (1913503041368885,18));
  (AB60 (-4561951551923299,16) (-883382911778833,15) (1073341118014054,16) (5200326765628517,16) (8439291538143028,16) (-1317178752073969,16) (-90931089977615,14) (-3945375796453017,17) (-4142427893527718,16) (5879130303997269,16) (-8019767879747446,16) (-1057898872100799,16) (7775930245687531,16) (-4195236583955821,17) (627366788364257,15), (189684106484528,17));
  (AB60 (-427454860897664,15) (-8929932050086803,16) (1408739780913562,16) (5199188733221383,16) (8358473025941626,16) (-1761920881013128,16) (-9249744841046093,16) (-5714590241451767,17) (-3757080643167544,16) (6036469489989769,16) (-784100506013253,15) (-1442108090053839,16) (7487823960032963,16) (-517467965809096,16) (6607928514134945,16), (1972455051203293,18));
  (AB60 (-3980258488752685,16) (-9004278448543251,16) (1755138736343008,16) (5177077403754347,16) (8264603680693453,16) (-2212282883494871,16) (-9392151170156805,16) (-7396747678497979,17) (-335266724187303,15) (6192541372247556,16) (-7637012433813797,16) (-1824410161881317,16) (7179868286661935,16) (-627591246879656,16) (6932216140097354,16), (2066536285185511,18));
  (AB60 (-3674329820899875,16) (-9059111589177391,16) (2105183503183933,16) (5140953120394862,16) (8152688541396973,16) (-2665383754898501,16) (-9516997338772231,16) (-9064230477804183,17) (-2933455115091201,16) (6339713575798376,16) (-7411813835588298,16) (-2207498005303661,16) (685161358387373,15) (-7408747058086744,17) (7246136623578795,16), (2124671285947395,18));
  (AB60 (-3357785983387207,16) (-9094771261193192,16) (2451613549551154,16) (5094404803141948,16) (8021481805082035,16) (-3114942913194737,16) (-9621244217374385,16) (-1073289456111157,16) (-2505934846128403,16) (6472728896581944,16) (-7169630667823231,16) (-2588469957013544,16) (6506301304179647,16) (-8518511372588039,17) (7546018352693101,16), (2149391550236224,18));
  (AB60 (-3036488039461014,16) (-9108882398920071,16) (2794280198701329,16) (5033774153728793,16) (7874491695044378,16) (-3557175609093415,16) (-9704707167249561,16) (-1234390703875693,16) (-2072423312964868,16) (6593663648554429,16) (-6910426968548231,16) (-2961350840763925,16) (6147531558156146,16) (-9640647264961462,17) (7828054352430122,16), (2161379465715542,18));
  (AB60 (-2713958847827778,16) (-9099471879031007,16) (3135927118895022,16) (4955004424512474,16) (7714429542302256,16) (-3991930358850967,16) (-9768250355433566,16) (-1385042336728751,16) (-1631852542064067,16) (6705889206678745,16) (-6632323236538545,16) (-3323151882448407,16) (57763199965826,14) (-1082106305763711,16) (8090931543407496,16), (2172749252976595,18));
  (AB60 (-2387494784267606,16) (-9067310056189745,16) (3476169875022695,16) (4859746528892777,16) (7539374449265164,16) (-4420486012723285,16) (-981146932855595,15) (-1527935606924581,16) (-1183419788535696,16) (6807980796990891,16) (-6335299453533254,16) (-3676326740357081,16) (5390983315832665,16) (-120407499573191,15) (8335916403915472,16), (2182560190508206,18));
  (AB60 (-2051256574594494,16) (-9014974424017718,16) (3810850639882031,16) (475396905157178,15) (7344606251427337,16) (-4843194944268938,16) (-9832565974199893,16) (-1670368172590381,16) (-7283656574850184,17) (6894451518863431,16) (-6021715334317861,16) (-4025603394086762,16) (4989371029930956,16) (-1322890917109475,16) (8564819691453812,16), (2189456808907234,18));
  (AB60 (-1701066422298718,16) (-8944793223271273,16) (4134857581567731,16) (4643402504961563,16) (7126329517860415,16) (-5258729958819718,16) (-9829576952631084,16) (-1818463705410858,16) (-2694562755016565,17) (6959796381118436,16) (-5694719371063353,16) (-4373946229459907,16) (4570846993811367,16) (-1431610146797062,16) (8778260086529294,16), (2195825699102845,18));
  (AB60 (-1336307544989427,16) (-8857517954677125,16) (4445071183656868,16) (4530405220373389,16) (688345702790281,15) (-5665107932266513,16) (-9801359886256652,16) (-1974060926774317,16) (1908607803135992,17) (700141547725594,15) (-5356288702599783,16) (-4721266000686988,16) (4136251953990138,16) (-1527168325303026,16) (8975476404030257,16), (2208384050485131,18));
  (AB60 (-959643220462745,16) (-8751308913374914,16) (4742749960951416,16) (4412036589809861,16) (6617612468583628,16) (-6061446885507245,16) (-9747878678080661,16) (-2133696444791287,16) (6528405309916378,17) (7021090105969989,16) (-5005128717129246,16) (-5064877120801499,16) (3686431792573417,16) (-1612483751454383,16) (9154786550761276,16), (2232167573683433,18));
  (AB60 (-5757994046517225,17) (-8622114819214028,16) (503265249047583,15) (4281179369569952,16) (633206405966167,15) (-64479816958417,14) (-9669695462822501,16) (-2290050759552359,16) (1119221682663276,16) (7023781100493423,16) (-4637042972346671,16) (-5400401052233228,16) (32217137669808,14) (-1695021087314998,16) (9313831860045781,16), (2257794901151642,18));
  (AB60 (-1888977197044912,17) (-8466977266218256,16) (5317387857287981,16) (4132861965125549,16) (6029473312133711,16) (-6823848148624493,16) (-9566995033588257,16) (-2437503954084546,16) (1590968416128944,16) (7012745868328984,16) (-4249607176300276,16) (-5723830381254493,16) (2743146884963764,16) (-1779866135833435,16) (945024982241353,15), (226893864429889,17));
  (AB60 (-4755136182635917,16) (-8678965316367641,16) (1436746644984514,16) (4833639221038194,16) (8630447770414895,16) (-1466732137434046,16) (-9209221648026132,16) (-4851754595274561,18) (-3897163415262641,16) (6221868320069963,16) (-7772475003041619,16) (-936475805775554,16) (7742489510592087,16) (-8579727673732766,17) (6270385866022709,16), (1953709045007011,18));
  (AB60 (-44698935669036,14) (-8764880383900986,16) (1787994227189092,16) (4815666995424501,16) (8551180652668486,16) (-1920067924477494,16) (-936620737305452,15) (-2136997312324994,17) (-3496926060100541,16) (6389961491381094,16) (-7578213145865428,16) (-131874093532396,15) (7446139448577026,16) (-9729675068030583,17) (6603661222613594,16), (2045238188734067,18));
  (AB60 (-417625267906947,15) (-8829359256666148,16) (2145070786078838,16) (4780033244408878,16) (8456202345539767,16) (-2375694440291865,16) (-9506170131760455,16) (-373156911126381,16) (-308114967921132,15) (6551947119361335,16) (-7361099345681618,16) (-1698883565197558,16) (713047569146859,15) (-1095102999858149,16) (6925104030487716,16), (2098967780188127,18));
  (AB60 (-3871737827722278,16) (-8875520410318155,16) (249695487332275,15) (4735536622677192,16) (8341663395594816,16) (-2826896653554326,16) (-9625357069060995,16) (-5338570147233383,17) (-2658476627865706,16) (6698634481276604,16) (-7128402195738245,16) (-2077059994811486,16) (6798460415506669,16) (-1213261199856571,16) (7232491495999942,16), (2123125899649744,18));
  (AB60 (-3558095266759381,16) (-8902840372149859,16) (2842427022930061,16) (4681823742777876,16) (8208337979844308,16) (-3271653106643005,16) (-9723274575775358,16) (-6945023923055513,17) (-2230604839760371,16) (6829748373402386,16) (-6880847552845297,16) (-2451218903017506,16) (6451621469132354,16) (-132749042699901,15) (7524250765707937,16), (2148636815867526,18));
  (AB60 (-3237481421755039,16) (-8908572121404558,16) (3186856884380669,16) (4613321021345356,16) (8058256485789695,16) (-3712380848356124,16) (-9801051462316973,16) (-8503156356148618,17) (-1793419513901647,16) (6949862270111163,16) (-6614194577936303,16) (-2819901507443709,16) (6088670613960848,16) (-1444061907853392,16) (7800177905726026,16), (2184180105427734,18));
  (AB60 (-2909622432224717,16) (-8891153506124299,16) (353291475023504,15) (452751413216143,15) (7891241445447064,16) (-4150894389494518,16) (-9858674439940482,16) (-9999120606772348,17) (-1344140676483095,16) (7060516821719235,16) (-6325759689705442,16) (-3183373455678335,16) (5707780050445964,16) (-1565481755741622,16) (806042888239647,15), (2215101685863609,18));
  (AB60 (-2571650617163951,16) (-885173419042275,15) (3877294794743002,16) (4427872248071788,16) (7704526131868944,16) (-4586308367097033,16) (-9894534531411755,16) (-1147208058553806,16) (-8843642219637599,17) (7157958984260985,16) (-6017239736668754,16) (-3543508026108028,16) (5308226164314722,16) (-1687286395200191,16) (8305167042814789,16), (2233854091179923,18));
  (AB60 (-2220543045898028,16) (-8792573487675271,16) (4214242523294526,16) (4320034576249035,16) (7495016362825818,16) (-5016176928796079,16) (-990664817539076,15) (-1297557124849454,16) (-4179323351684436,17) (7236719974694107,16) (-5692405652096234,16) (-3902102241080591,16) (4890471246594681,16) (-1802610710729584,16) (853427709954356,15), (2244343999491773,18));
  (AB60 (-1855433217763625,16) (-8715200907826794,16) (4539013186876013,16) (4207878654169087,16) (7261309671448639,16) (-543756738690332,15) (-9893612633478606,16) (-1453891236378155,16) (5127700708242156,18) (7293000604666945,16) (-5354599446602593,16) (-4259155661251509,16) (4456045246575285,16) (-1906710224846047,16) (87468918410451,14), (2253562606223166,18));
  (AB60 (-1478233893558135,16) (-861947307006085,15) (4849691593331657,16) (409165500480009,15) (7004289996396802,16) (-5847929630909564,16) (-9854945387672769,16) (-1615183073664048,16) (5208023084975553,17) (7326163524467699,16) (-5005253794341111,16) (-4612457313297645,16) (4007015756763204,16) (-199903620205569,15) (8941346598131747,16), (2266883273821679,18));
  (AB60 (-1092923813569803,16) (-8503259607206896,16) (5147824160766922,16) (3967637417478812,16) (6726588892069426,16) (-624586704953846,15) (-9790925642146026,16) (-177667071513747,15) (9905635971205189,17) (7338790863108264,16) (-4643101481379104,16) (-495820101459933,15) (3545058592607565,16) (-2083487410690322,16) (9115461578245734,16), (2282449376549867,18));
  (AB60 (-7036027140609888,17) (-8363595502857577,16) (543647068283703,15) (3830630358537966,16) (6430986134810283,16) (-6630888959266713,16) (-9701951433241361,16) (-1932609368047294,16) (1461902670344963,16) (7334491673327702,16) (-4265480750404331,16) (-5292533028882929,16) (3071062473974648,16) (-2165505384405951,16) (9267101041374997,16), (2290849962856446,18));
  (AB60 (-312686143472447,16) (-8199144533422664,16) (5716314922721243,16) (3678464473276214,16) (6118979127006083,16) (-7001927846108429,16) (-9588030060474555,16) (-2080165406416581,16) (1934577845780324,16) (7314613989580876,16) (-3871715137753312,16) (-5613042319056538,16) (2586102214366127,16) (-2247263989252771,16) (9394779395997457,16), (2283863020320032,18));
  (AB60 (-4365439072841753,16) (-8632440136927108,16) (2534545123622074,16) (4367523350470875,16) (8631151982510319,16) (-2535341246834408,16) (-9600058196925981,16) (-1288154416788966,19) (-2799800163635341,16) (6900780319676161,16) (-7065513073303907,16) (-1567723186835535,16) (7064716950091573,16) (-1565638909206412,16) (6902068474092949,16), (2142415072631033,18));
  (AB60 (-4055592377831069,16) (-867071447460167,15) (2893247477284241,16) (4314884657676171,16) (8510463032636948,16) (-2992288315164621,16) (-9714626068975017,16) (-1602514419647219,17) (-2366507936884898,16) (7047880692995689,16) (-6821378591690777,16) (-1948376720791272,16) (6722337753810398,16) (-1689084440946171,16) (7208132134960411,16), (2175464887125075,18));
  (AB60 (-3734783227232932,16) (-8689308585361061,16) (3247662321416764,16) (4251855666695363,16) (8369740243127456,16) (-344516641864559,15) (-98077409631551,14) (-3195683422336052,17) (-1925121625843813,16) (7179949645878522,16) (-6560078641738337,16) (-2326734040851551,16) (6362574544509511,16) (-1809661601389119,16) (7499517988112127,16), (2211866292178795,18));
  (AB60 (-3405134043758878,16) (-8685457928506719,16) (3601094655264436,16) (4173891452812166,16) (8210339720608482,16) (-3894733856419486,16) (-987947468336896,15) (-4751182078982379,17) (-1473174351254921,16) (7299867900178364,16) (-6278380028104524,16) (-2700717101557245,16) (5984740826949474,16) (-1931959692503957,16) (7774986108076601,16), (2241940737225828,18));
  (AB60 (-3066115900232099,16) (-8658835977046037,16) (3952656424350226,16) (4081335324865373,16) (8031395866583561,16) (-4340435738521025,16) (-9928955589005518,16) (-6274401104624756,17) (-101101919830383,15) (7406551638753124,16) (-5976299164655292,16) (-3070316126561543,16) (5588519850484494,16) (-2055096701928269,16) (80339917492156,14), (226030519492317,17));
  (AB60 (-2715566546583347,16) (-8611105206848552,16) (4298204909920321,16) (3978271785480573,16) (783071045143751,15) (-4780515393406505,16) (-9954789119901577,16) (-7803947554110417,17) (-5414403051270935,17) (7496081939989853,16) (-5656584209981257,16) (-343683148035348,15) (5174273726495072,16) (-2174126241456253,16) (8276476695400894,16), (2270062007551715,18));
  (AB60 (-2352460303952856,16) (-8543970673975636,16) (4633194971137126,16) (3868669776605013,16) (7606901685812049,16) (-5212335455625696,16) (-9955765172769913,16) (-9370689881635873,17) (-6812881977359396,18) (7564795759578552,16) (-5322570201632787,16) (-3800540956831419,16) (4743429717144217,16) (-2284331484179262,16) (8501864747742139,16), (2276135975894357,18));
  (AB60 (-1978155575113705,16) (-8458120906701826,16) (4954502119109452,16) (3754228804217408,16) (7360447284606958,16) (-5632901726118288,16) (-9931298303782224,16) (-1097673622094867,16) (4054955248204809,17) (7611057301231993,16) (-4976796184672773,16) (-4159724329037889,16) (4298396577663937,16) (-2383651099934186,16) (8708730923326859,16), (228251979923189,17));
  (AB60 (-1595655552250404,16) (-835303099597359,15) (5261250472927221,16) (36340341110056,14) (7093243764723854,16) (-6039841800432681,16) (-9881453949561055,16) (-1259787231249736,16) (877384735839617,16) (7635497352683086,16) (-4620203476633833,16) (-4511418846845217,16) (3841612149128373,16) (-2473040288090021,16) (8895284583932821,16), (2290059676977331,18));
  (AB60 (-1208007399294911,16) (-8227136832493552,16) (5554722104901082,16) (3505237644372007,16) (6807370461051656,16) (-6432185978536282,16) (-980654938069871,15) (-1419766371441896,16) (1347535785959117,16) (7640193377831194,16) (-4251827275797628,16) (-4852773430331124,16) (3374363402162428,16) (-2555543185254028,16) (9059959749273089,16), (2294744472688197,18));
  (AB60 (-8173797077197083,17) (-8078616247461782,16) (5836767079441715,16) (3364770074966672,16) (6504242417889081,16) (-6809783617115979,16) (-9706705595493622,16) (-15743738295727,14) (1816924194117466,16) (7627163324835686,16) (-3869938516051907,16) (-5181694269084138,16) (2896921978377643,16) (-2634303901837174,16) (9201537154408387,16), (2290241216731189,18));
  (AB60 (-4249548969303767,17) (-7907072207635008,16) (6107177943929664,16) (3212048534767382,16) (6184553609623148,16) (-7171752983754809,16) (-9581863048685726,16) (-1722518598011859,16) (2284913607936709,16) (7596707880685186,16) (-3474685104756063,16) (-549696214270409,15) (2410110064930917,16) (-2709868504867086,16) (9319226478697045,16), (2271832534966756,18));
  (AB60 (-3152089095332053,18) (-7714343275771428,16) (6363011414180683,16) (304978861246843,15) (5848951236728388,16) (-7515887096652752,16) (-9432281008613944,16) (-186539203904304,15) (2748160751341807,16) (7547407987606073,16) (-3069269594433262,16) (-5797949363810236,16) (1916393911961192,16) (-2779681642295127,16) (9412800026649113,16), (2235324011294594,18));
  (AB60 (-3528173896647674,16) (-8438168529840359,16) (4043426865546819,16) (3714642616093095,16) (832292452338442,15) (-4114651578536301,16) (-9938600867988335,16) (-1152440064559387,17) (-1100423375704771,16) (7642825475183975,16) (-5895174002441517,16) (-2614219240388324,16) (5823949289452034,16) (-2427750520942903,16) (7758069481639914,16), (2256444306767827,18));
  (AB60 (-3181457696226467,16) (-8401737952923715,16) (4391938785721246,16) (3618054898320697,16) (8131906042636374,16) (-4558704077528135,16) (-9976242674079837,16) (-2698319102873407,17) (-6338555419486851,17) (7740161773754601,16) (-5584303888358592,16) (-2984199356372012,16) (5417538596551703,16) (-2547602154277782,16) (8009993684041943,16), (2265633625618433,18));
  (AB60 (-2823367874801145,16) (-8345111132987892,16) (4731565705094076,16) (3513085219301906,16) (7918842371456102,16) (-4995014288063047,16) (-9989588233767648,16) (-426268761531791,16) (-1625480320186146,17) (7818382162864191,16) (-5258022528673572,16) (-3350537187283292,16) (4994573945704601,16) (-266081984278253,15) (8244650924395982,16), (2271594684402715,18));
  (AB60 (-2455015862226734,16) (-8269083148382936,16) (5059166038127675,16) (3401604152989328,16) (7684059411338985,16) (-5420730591846318,16) (-9978053436893253,16) (-5850237370439515,17) (3101561503466726,17) (7875746454073052,16) (-4918887398765578,16) (-3711760303336001,16) (4557322845046936,16) (-2765172012573406,16) (8460770191117003,16), (2276140962316241,18));
  (AB60 (-2078834764439773,16) (-8173958902911339,16) (5372601034477908,16) (328417587582939,15) (7429017128034983,16) (-5833000370991169,16) (-9941567451725959,16) (-7449417748763563,17) (7812159463471599,17) (7911835135430941,16) (-456896641724805,15) (-4065391822176549,16) (410856708073479,15) (-2860050710786932,16) (8656776910307298,16), (2280291705033647,18));
  (AB60 (-1696865869701496,16) (-8059697960766976,16) (5671147591224446,16) (3160498433264782,16) (7155123289443724,16) (-623020548346448,15) (-9880366806314402,16) (-9045746713232518,17) (1249038204652272,16) (7927071353165975,16) (-4209219215089957,16) (-4409536637917054,16) (3650161322849922,16) (-2945904074353768,16) (8831646024489227,16), (2282541873891456,18));
  (AB60 (-1310323741880408,16) (-792557503632652,15) (5955527855280539,16) (3029248662567708,16) (6863221011232551,16) (-661209875087387,15) (-9794601126596283,16) (-1062354025093969,16) (1713823998036399,16) (7922422492754279,16) (-3839073271315744,16) (-4743072660604107,16) (3182502375722412,16) (-3024147739916807,16) (8984776517848247,16), (227886494391609,17));
  (AB60 (-9203344678445291,17) (-7770361124968647,16) (6226915163616196,16) (2888497629648988,16) (6553969395568032,16) (-6978686596020041,16) (-9684210775411151,16) (-1216391729400615,16) (2176339315928548,16) (789902106386457,15) (-3457295611794954,16) (-5064836945577537,16) (270552417939111,15) (-3096673783773077,16) (9115412793265184,16), (2265157350623567,18));
  (AB60 (-5284063628874412,17) (-7594049646377596,16) (6484689405361862,16) (2738083971297529,16) (6228393780200581,16) (-7328711147594935,16) (-9549346468795541,16) (-1365655866177015,16) (2635330353879461,16) (7857117510482376,16) (-3064657063433679,16) (-5373414325176991,16) (2220635321200606,16) (-3163736716766902,16) (9222773376659391,16), (2237909605783822,18));
  (AB60 (-1363781423826318,17) (-7399357086781264,16) (67253933494317,14) (2581365792281376,16) (5888271617070112,16) (-7659295529619292,16) (-9391045469028115,16) (-1511085469711152,16) (3086241355091065,16) (7795673672001924,16) (-2665652119596415,16) (-5667607147372441,16) (1731749939408823,16) (-3222619497473697,16) (9306759141713076,16), (2190861812100224,18));
  (AB60 (-2907770757836763,16) (-8054335971907282,16) (5164546569788078,16) (3035270814866332,16) (7975536603095458,16) (-5213247258005823,16) (-9996918544490568,16) (-7879936881182362,18) (2353938705562047,17) (8121018015842586,16) (-4832371974702491,16) (-3270664685422536,16) (4783671286484745,16) (-3143164628392968,16) (819981738465441,15), (2264349110857798,18));
  (AB60 (-2538375377914668,16) (-7968082122287412,16) (5483276186120877,16) (2920274626566713,16) (77320554063424,14) (-5629148718827911,16) (-9972353072444714,16) (-2360267159450117,17) (7046031421038942,17) (8167524096742579,16) (-4489076886323838,16) (-3624877768670608,16) (4343204353616804,16) (-3242978520018562,16) (840355081268759,15), (2263643664803056,18));
  (AB60 (-2163873195224565,16) (-786330840042066,15) (5786711829256967,16) (2799520622326305,16) (7470456685610363,16) (-6029507541548411,16) (-992357963357689,15) (-3928517148102968,17) (1169715686065875,16) (8193380736772976,16) (-4136867804319923,16) (-3969236308392181,16) (3894072092028479,16) (-333358888129044,15) (8586232451583272,16), (2261509401640624,18));
  (AB60 (-1784332751313315,16) (-774093730325911,15) (6074046945785176,16) (2674137214059387,16) (7191007901940698,16) (-6413922007212837,16) (-9850962447395806,16) (-549929401318412,16) (1629759649016754,16) (8198254758526151,16) (-3776915501610629,16) (-4303896863076141,16) (3437040440182969,16) (-3414092400330069,16) (8748184159844563,16), (2255365006585464,18));
  (AB60 (-1399864330820585,16) (-7600593937707917,16) (6345971292826175,16) (2543442148492944,16) (6893823977605968,16) (-6782779150396585,16) (-9754577177404866,16) (-706769960101948,16) (2085353762206692,16) (818264348121717,15) (-3408605884578692,16) (-4628795910699636,16) (2971798027008281,16) (-3485218093027276,16) (8889413441319118,16), (2242114586763266,18));
  (AB60 (-1012014356206512,16) (-7440828694017939,16) (6603778864340569,16) (240513779890374,15) (6579831055906786,16) (-7135904668926644,16) (-9634375932482776,16) (-860997638111153,16) (2537219631558066,16) (8147919025133156,16) (-3030597068142208,16) (-4942357430461806,16) (2498471263556133,16) (-3549233987764578,16) (9008916663244308,16), (2219606481545403,18));
  (AB60 (-6234414324361452,17) (-7261897875212761,16) (6846616684925654,16) (2259036452379388,16) (6251044561057775,16) (-7471358390713911,16) (-9490961132545501,16) (-1010853314154986,16) (2983258681001782,16) (8094799823150056,16) (-2644344447619847,16) (-5242295133381171,16) (201960274183159,15) (-3606700113437927,16) (9105653137305043,16), (2182688685729153,18));
  (AB60 (-2360330632980901,17) (-7068368333177784,16) (706982726094207,15) (2110578245778025,16) (5909835696957809,16) (-7785839807202031,16) (-9326281962307069,16) (-1158532636219974,16) (3417347932294719,16) (8021872870500121,16) (-2256454701365,13) (-5527926178072745,16) (1540442155105039,16) (-3653380995592809,16) (9180405506720094,16), (2119004458303967,18));
  (AB60 (-2240252789135672,16) (-7528956145470288,16) (6188383213760685,16) (2304585681170021,16) (7489196231598483,16) (-6212956191923229,16) (-9877521262008303,16) (-3975991387180508,18) (1559805394215194,16) (8453208981058902,16) (-3689138048247617,16) (-3864391075385215,16) (3664565070085073,16) (-3800058183350866,16) (8492968894930706,16), (2241889059468529,18));
  (AB60 (-1861413290160983,16) (-7400158704509899,16) (6463187426593665,16) (2180052099508242,16) (7203229090198495,16) (-658489662162952,15) (-9793656206532164,16) (-1969296143114036,17) (2011347020099012,16) (8446309911790503,16) (-33304687799385,14) (-4191399119607254,16) (3208759584902645,16) (-3872760310259996,16) (8643239526101907,16), (2220600947226811,18));
  (AB60 (-1478417144830513,16) (-7255372220744416,16) (67211499525246,14) (2052288428307919,16) (6900700262387853,16) (-6940349277645443,16) (-9687150425888351,16) (-3546719583565627,17) (2456282644193589,16) (8418766422475956,16) (-2966000473363752,16) (-4508571072501508,16) (2746801148242909,16) (-3934699789024102,16) (8773438380832519,16), (2194492576840889,18));
  (AB60 (-1093870245766172,16) (-7092359661039843,16) (6964329280259677,16) (1917650360287889,16) (6583235551009141,16) (-7278985284750691,16) (-955802863171326,15) (-5091241100307015,17) (2895665953789385,16) (8372855530516864,16) (-2593699351453584,16) (-4813316314077273,16) (2279043346962569,16) (-3989536199555557,16) (8881979640547565,16), (2163082513775353,18));
  (AB60 (-7099100695634715,17) (-6912699909539054,16) (7191008806404783,16) (1777613024655852,16) (6252823193403261,16) (-759883504536137,15) (-9407370383006661,16) (-6598767161357935,17) (332655154723791,15) (830874511492484,15) (-2216361576601879,16) (-5104164571893762,16) (1808535337645293,16) (-4036461616801382,16) (8968621831060635,16), (2112734524233056,18));
  (AB60 (-326515427565173,16) (-6724468719601832,16) (7394248313024011,16) (1642186499745379,16) (5911339278979448,16) (-7896789944581833,16) (-9238232444855871,16) (-8131294406223832,17) (3740839719582416,16) (8223305372147006,16) (-184398413183186,15) (-5383026219327794,16) (1341442500274037,16) (-4067355147147588,16) (9036434812769389,16), (2022483023626398,18));
  (AB60 (5376092591422503,18) (-6523896314931367,16) (7578646754854707,16) (1505232650633045,16) (5560385296382393,16) (-8174129312853002,16) (-9050653326006095,16) (-9635110185489736,17) (414213965114523,15) (8120368386938778,16) (-1472006571151389,16) (-5647372301778274,16) (8765240131530924,17) (-4088378725231005,16) (9083879405487751,16), (1935097021654398,18));
  (AB60 (-1186614257614563,16) (-6736412924869105,16) (7294702701912005,16) (1435837215019638,16) (6582384666416001,16) (-7389897400863976,16) (-9463907859672667,16) (-1540282584531035,17) (3226565251040777,16) (8576511658478539,16) (-2169205157760661,16) (-4662402466060415,16) (207401045880869,15) (-441317950865534,15) (8730539916931642,16), (2104584051112534,18));
  (AB60 (-804936805827257,16) (-6559712594866305,16) (7504814948509856,16) (1305772340808788,16) (6250179211473982,16) (-7696117100099064,16) (-9308065594115662,16) (-309533383392323,16) (3641991760040918,16) (850105390592632,15) (-1803250645605807,16) (-4947764100849706,16) (1611948494016599,16) (-4446928565868175,16) (8810587289318643,16), (2033193407384862,18));
  (AB60 (-4215795112400517,17) (-638186164085725,15) (7687269522571548,16) (1189124528463868,16) (5907492732317308,16) (-7980445631255423,16) (-9136944517942337,16) (-4743689085399421,17) (4036238225706468,16) (8402025142495475,16) (-1449674995370789,16) (-5225362754170336,16) (1156498886686914,16) (-4457817736946519,16) (8876394051035417,16), (1926713090398176,18));
  (AB60 (-4362491021220572,18) (-6185929873543504,16) (7856994875065849,16) (1062544117541787,16) (5556203171623723,16) (-8246187380475648,16) (-8946500669874942,16) (-6297267019197823,17) (4423072466602423,16) (8289812290687855,16) (-1089505794809093,16) (-5485616584144211,16) (7003132893992936,17) (-446669737681463,15) (8919538992607636,16), (1899826523638872,18));
  (AB60 (-5503195420497063,17) (-6052483790471676,16) (79413215756394,14) (7558433660207862,17) (5925463081759698,16) (-8019824690898502,16) (-9037281123320181,16) (-1270207087119778,17) (4279183992029209,16) (8570144232948208,16) (-1095959547680782,16) (-5035027358049995,16) (101745643242168,15) (-4829503534078916,16) (8697164941660185,16), (1912777159035442,18));
  (AB60 (-1741811615944099,17) (-5848810311795074,16) (8109320493086041,16) (6233017535419882,17) (5571238520923999,16) (-8280869294162543,16) (-8840272124693312,16) (-2775717908710758,17) (4666105727722317,16) (8455050455756953,16) (-7309516316072714,17) (-5289407481264305,16) (5594028305307688,17) (-4840286889316727,16) (8732622246628029,16), (1949327022631948,18))].

(** ahrens_beylkin/ahrens_beylkin_6192.hpp:1-12402. *)
Definition ab_6192 : coded := [  (AB12 (5257311121191336,16) (8506508083520399,16), (1847097544393316,18));
  (AB60 (-5383328543202991,17) (-9373140553085663,16) (3443026852939193,16) (5695162571026353,16) (6186044513965829,16) (-5412760530525414,16) (-9470897425196236,16) (-3187096039119833,16) (-3801589126115128,17) (5951093384845714,16) (-6027870572257044,16) (-531500365841484,15) (4058136894670822,16) (-1581739417087863,17) (9138189423965546,16), (2009339104777465,18));
  (AB60 (-1948424744902152,17) (-9267861460087231,16) (3750837288761579,16) (556222914249885,15) (5950634068494847,16) (-5800996565177829,16) (-9433485702947516,16) (-3317227391592384,16) (7314317981869378,18) (5995839039668045,16) (-5682648414185938,16) (-5635372322317544,16) (3632489137769687,16) (-267985654308909,16) (9313066431260429,16), (1991473489637177,18));
  (AB60 (-1646573098717428,16) (-9442719942369546,16) (2850234572900371,16) (5705384550065699,16) (6934236511509025,16) (-440056259338812,15) (-9573257262934676,16) (-2508483430860521,16) (-1435359277242708,16) (6047135692105549,16) (-6723022690034305,16) (-427002527282299,15) (5172694669546556,16) (-2112138214747203,17) (8555619122966069,16), (2115815525060007,18));
  (AB60 (-1338273799372441,16) (-9374413311926127,16) (3213938128697479,16) (556354127016142,15) (6763054403419236,16) (-4827846690979565,16) (-9604578093124525,16) (-2611358908506892,16) (-9658593603802515,17) (6166120490352007,16) (-6390639964427046,16) (-4597681909781168,16) (477673140214496,15) (-37241443899219,15) (8777479398858898,16), (2087446491274159,18));
  (AB60 (-101452584805537,15) (-9291739155657649,16) (3554478972626791,16) (5426429669631003,16) (6565032638828356,16) (-5239676277373131,16) (-9607920098821323,16) (-2726706516829293,16) (-5029343354215464,17) (6254202125428501,16) (-6053441126194533,16) (-4923495334209457,16) (4368243821448193,16) (-5115915126338232,17) (8980908642257793,16), (2043361338634691,18));
  (AB60 (-672043844107707,16) (-9198310671797048,16) (3865156899364045,16) (530133823454788,15) (6337249394575795,16) (-5633390012582964,16) (-9581841071500623,16) (-2861061277221253,16) (-5147862166849005,18) (6305433856690671,16) (-5716684172136578,16) (-524985961287939,15) (3948451058917659,16) (-6205652224392169,17) (9166495133911924,16), (1995932043036728,18));
  (AB60 (-3190915168121935,17) (-9086442894409048,16) (4163500466019167,16) (5170731785528975,16) (6087964307154403,16) (-6016662147481304,16) (-9531441654459836,16) (-2998478587254644,16) (4009316019015411,17) (6335753664293498,16) (-5367941188440669,16) (-5571663387430515,16) (3514779506978531,16) (-7200231187137346,17) (9334232251548142,16), (2002597368373164,18));
  (AB60 (3059112274473369,18) (-8946079852146984,16) (446841352856011,15) (5012777045947304,16) (5829106906115991,16) (-6394808751221156,16) (-9462284220897149,16) (-3116972946030993,16) (8658273365236856,17) (6364217628476422,16) (-4993870692337039,16) (-587860438247099,15) (3067475469675994,16) (-8352362137789519,17) (9481190574507414,16), (2048178850664284,18));
  (AB60 (-2707131493565627,16) (-9383302921904185,16) (2150596510814969,16) (5679403634261689,16) (7546337715139609,16) (-3285903444746455,16) (-9503099420115483,16) (-1836965206764576,16) (-2513296687726532,16) (5993034938312082,16) (-7352502909300513,16) (-3166106946535158,16) (6217195975369028,16) (-1938348058390951,17) (7830000145076659,16), (212219292808913,17));
  (AB60 (-2417856939685867,16) (-936484118916823,15) (2540416761256126,16) (5558948406701192,16) (742353990078049,15) (-3740206939883711,16) (-9593682936617988,16) (-194130128838774,15) (-2047583214267239,16) (6158063879569579,16) (-7053266175361862,16) (-3511365192433953,16) (5853475996734278,16) (-3702737254186284,17) (8099365167957318,16), (2134640614295435,18));
  (AB60 (-2120670407292616,16) (-9325367112804072,16) (2922376641548045,16) (5427868956948249,16) (7281406001572533,16) (-418561407997214,15) (-9660891989139213,16) (-2043961111231538,16) (-1577779753311251,16) (6306284487264756,16) (-6738515347591169,16) (-3850089203636998,16) (5475277909167073,16) (-5428906539813651,17) (8350245598496294,16), (2130593684681712,18));
  (AB60 (-1815159338612098,16) (-9266167825787055,16) (3292921256240133,16) (528911153254249,15) (7119147294645807,16) (-4619852919029277,16) (-9703862955041679,16) (-2147020531141248,16) (-1106953742767837,16) (6435012257641375,16) (-6410941698801546,16) (-4182157789774653,16) (5084010036012402,16) (-7082055958442608,17) (8582032788782623,16), (2111403377845404,18));
  (AB60 (-1496454673745611,16) (-9190968165102603,16) (3645096376983111,16) (5150671326336367,16) (693253807154565,15) (-5040882936016914,16) (-9720627554317901,16) (-2258430093556953,16) (-6394477795347503,17) (6537337609762525,16) (-6075531177334789,16) (-4511223546801617,16) (4679744618300987,16) (-8570068942108605,17) (8795767703319478,16), (207300824214162,17));
  (AB60 (-1160201607861671,16) (-9105240466216505,16) (3968441543161325,16) (5023551489728565,16) (6717558928789874,16) (-5444109887601587,16) (-9709037060350679,16) (-2387681537426631,16) (-1832381962611516,17) (6604311495463258,16) (-5740595517189354,16) (-4840313293467413,16) (4264927172749092,16) (-9769634116005194,17) (8991993032889889,16), (2010163050365439,18));
  (AB60 (-8097522071953843,17) (-9009232110791059,16) (4263571054507417,16) (490660916338874,15) (6477235264817126,16) (-5828431164726839,16) (-9670634604408151,16) (-2531996845973933,16) (260419507721007,16) (6638183371922224,16) (-5407063549900735,16) (-5167028671109747,16) (3842203439681312,16) (-1070171714916391,16) (9170180217896157,16), (1980342891542578,18));
  (AB60 (-4621235480599668,17) (-8887921272184528,16) (4559747502414824,16) (4767801572805097,16) (6226865908278527,16) (-6204370163253953,16) (-9613157134922675,16) (-2661055363906001,16) (7113327277107086,17) (6666493711313919,16) (-5053409632507851,16) (-5479134300515806,16) (3408786971668723,16) (-1173456275770675,16) (9327549075219921,16), (203065875520835,17));
  (AB60 (-1235075542110862,17) (-8735248319776286,16) (486622879403531,15) (4595684010581655,16) (5971291266052214,16) (-6574448196681807,16) (-9538244670986787,16) (-2763957053724073,16) (1175767834889651,16) (6697955750892893,16) (-4672015876951477,16) (-5771451845471306,16) (296379647430498,15) (-1299275389100737,16) (9461912804616965,16), (2085453021605337,18));
  (AB60 (-3677097670436562,16) (-919555852466187,15) (1385877390532234,16) (5610138753813327,16) (8000873433485108,16) (-2124233382732239,16) (-9268587484628416,16) (-1194685091176761,16) (-3558934331047634,16) (5801331053168801,16) (-7882710094096181,16) (-2051204422765693,16) (7144354101896176,16) (-1181633393889273,17) (6996016144345562,16), (2022944177458545,18));
  (AB60 (-3435041840253066,16) (-9217920676778912,16) (1797338574760649,16) (5497298887906842,16) (7943375727789866,16) (-2585050673425379,16) (-9417610072721871,16) (-1274544948989045,16) (-3111937610424422,16) (6020092513678446,16) (-7620271497961223,16) (-238536127748242,15) (6832559399296492,16) (-3231042298286441,17) (729463746266749,15), (2083392923824101,18));
  (AB60 (-316962434630005,15) (-9225466443257629,16) (2200965789754445,16) (5383608449962702,16) (785714901664214,15) (-3046632466801608,16) (-9543509817299746,16) (-136831742661549,15) (-265501935720321,15) (6216256813101657,16) (-73425440275453,14) (-2728589092759492,16) (6496877350498137,16) (-5146049890968395,17) (7584574239717148,16), (2117635703983583,18));
  (AB60 (-2886983276307944,16) (-9215577065696052,16) (2595855717973398,16) (5265503705278,13) (7745570597656578,16) (-3504369678903979,16) (-9645613212962236,16) (-1470006468039474,16) (-2191170173640204,16) (6391352955211923,16) (-7049757494988838,16) (-3074333531637796,16) (6141243534058257,16) (-6958131026677404,17) (7861359423251397,16), (2133866644164596,18));
  (AB60 (-2594374453848937,16) (-9185669861582114,16) (2982061432505719,16) (5138626510473296,16) (7613235614641437,16) (-3953879242189403,16) (-9724099535002105,16) (-1572434246940677,16) (-1723176941703885,16) (654825369603834,15) (-6742038102496385,16) (-3415449568769411,16) (5770220292812702,16) (-8711975121450516,17) (8120687942979017,16), (2135446357078292,18));
  (AB60 (-2293047195136341,16) (-9136104614873281,16) (335760733662656,15) (5003869675305652,16) (7460724184661358,16) (-4393049386583949,16) (-9778658116334084,16) (-1675380430211922,16) (-1253373790182506,16) (668609658172029,15) (-6421050779707523,16) (-3750495885123146,16) (5385608729750134,16) (-1039673404953835,16) (8361477011932212,16), (2122361201533053,18));
  (AB60 (-1979964761012425,16) (-9069749123203689,16) (3717444066464878,16) (4867016382740253,16) (7285453093700387,16) (-4820199658689404,16) (-9808145968037872,16) (-1784296029503302,16) (-7852135688850329,17) (680016441970183,15) (-6090701901572995,16) (-408180281385522,15) (4987946309348469,16) (-1194751192127392,16) (8584460449205131,16), (2089474055163982,18));
  (AB60 (-1651954260152251,16) (-8991438797728116,16) (4052786136607061,16) (4737351782623623,16) (7084558260036091,16) (-5231303121386408,16) (-9811101799864961,16) (-1906880537692025,16) (-3257116633740592,17) (6883257381538659,16) (-57583156632579,14) (-4411640119249564,16) (4579798678478553,16) (-1326242596778192,16) (8790137919230684,16), (2025550796983861,18));
  (AB60 (-1309322365171796,16) (-8905833846851168,16) (4355662801037411,16) (4622536668710216,16) (6858154795252114,16) (-5621198052976776,16) (-9787405193654198,16) (-2047679051599054,16) (1170900374635289,17) (6930520418148572,16) (-5431742392616788,16) (-4739626706173745,16) (4166207140677423,16) (-1426412402635325,16) (8978199469747628,16), (1960788703404076,18));
  (AB60 (-9634858106684763,17) (-8803802978033279,16) (4643785978769142,16) (4502799745637442,16) (6616386669366323,16) (-5995683605071152,16) (-9742052703077948,16) (-2187416308666956,16) (554634134389041,16) (6959169415739628,16) (-5098266724308806,16) (-5057433880026483,16) (3746369098006797,16) (-1518119945057518,16) (9146585724406583,16), (1996967610862429,18));
  (AB60 (-6256876906818976,17) (-8669132305405831,16) (4945165314233502,16) (4347544574849512,16) (6368898249727466,16) (-636678814272275,15) (-9679406148266857,16) (-2300234055678366,16) (1008969725012212,16) (6992475833404648,16) (-4734240834033356,16) (-5356514299861724,16) (3312618005544107,16) (-163465741569411,15) (9292709889083014,16), (2074163270985927,18));
  (AB60 (-2920913282160406,17) (-850397123944533,15) (525329951693863,15) (4162946309589435,16) (6111651295434731,16) (-6731834554301426,16) (-9596768195184679,16) (-2392319944010599,16) (1476091288972641,16) (7023925882517467,16) (-434346867824605,15) (-5639037598562077,16) (2864933640883254,16) (-1768182617188682,16) (9416245826528066,16), (2116029836898719,18));
  (AB60 (4056114714431159,18) (-831404296662669,15) (555653168284206,15) (3960470294322401,16) (5841269545743276,16) (-7084789703425358,16) (-9491933809606591,16) (-2472773420883414,16) (1946428566123056,16) (7044228556281047,16) (-3935402126764531,16) (-5906898860445458,16) (2407144106181232,16) (-1905867418978745,16) (9517001977164461,16), (2130080290034835,18));
  (AB60 (-4333869802962764,16) (-8987150136128125,16) (6698544331865841,17) (5596590554009584,16) (8206745793681396,16) (-1152170841786675,16) (-8944923828243966,16) (-7804043424467291,17) (-4402193404338751,16) (5486040644749439,16) (-8275069395057382,16) (-1194397149670834,16) (7792752986457291,16) (6832360137598637,18) (6266444987196168,16), (1040047262169469,18));
  (AB60 (-4262099009676167,16) (-8988831021829199,16) (1017560264907428,16) (5446275898072263,16) (8256969456108321,16) (-1469875587582645,16) (-9097958214376829,16) (-7318615657208778,17) (-4085527503037248,16) (5731974597258812,16) (-8080397949469401,16) (-1360748395035015,16) (7628082626794184,16) (-1765715066389198,17) (646383616297969,15), (1756160328500426,18));
  (AB60 (-4094605097963251,16) (-901109751707979,15) (142629962820292,15) (5311678654661042,16) (8258904692231833,16) (-1891180360052754,16) (-9268583403913845,16) (-7521928248479567,17) (-3677984181442343,16) (5985785458016005,16) (-7842283775710924,16) (-1633694473218699,16) (737740304386109,15) (-4166209165209091,17) (6737978282863962,16), (1946498802971675,18));
  (AB60 (-3872896738810989,16) (-903486141427622,15) (1836287035114585,16) (5194421998662734,16) (8218113886696304,16) (-2341064767386414,16) (-9424290853281134,16) (-8167475275799149,17) (-3242786670281234,16) (6213961506197404,16) (-7588003818166549,16) (-19516353283815,14) (7083226085894719,16) (-6301100685297556,17) (7030709033777318,16), (2046520322132164,18));
  (AB60 (-362146994388869,15) (-9047352653024945,16) (224284761348455,15) (5078942486378479,16) (8146585084096529,16) (-2799552587045924,16) (-9559981614422415,16) (-9007675689284153,17) (-2792018860730026,16) (6421022530934615,16) (-7317134000937865,16) (-2286923625648454,16) (6760429027376491,16) (-8294510831586645,17) (732179009986303,15), (2097557270911765,18));
  (AB60 (-3348691705419355,16) (-9044699974854872,16) (2641905794481681,16) (4961560445542405,16) (8047892274066606,16) (-3257966833816465,16) (-9673071531818098,16) (-9968077007882659,17) (-2331965168689166,16) (660665853923582,15) (-7031165737336417,16) (-2629595276853239,16) (6415104698001634,16) (-101672653673019,15) (7603466240024086,16), (2121562875761567,18));
  (AB60 (-3063341091485086,16) (-9023590902911095,16) (3031624741639226,16) (4837801563086647,16) (7926914019768162,16) (-3709408330097855,16) (-9762675218397857,16) (-1096676883142933,16) (-1867477548475554,16) (677274942158294,15) (-6731050476758631,16) (-2970324014611093,16) (6053266888300002,16) (-1195863543009531,16) (7869426304725873,16), (2128482974298349,18));
  (AB60 (-2768252404604054,16) (-8983596005306275,16) (3410539757552904,16) (4707174922373248,16) (778527598777239,15) (-4151142257788215,16) (-9828588755410084,16) (-1198320017533884,16) (-1401025414688843,16) (6919394662392269,16) (-641804899785718,15) (-3306149507684406,16) (5677446497621869,16) (-136722698991521,15) (8117714679926153,16), (2119822055271319,18));
  (AB60 (-2462118688905043,16) (-8926765960538882,16) (3775025966468159,16) (4573555866609854,16) (7621826019607156,16) (-4581523203241246,16) (-9870254867157658,16) (-1304939940931725,16) (-9355215699873858,17) (7043641892146288,16) (-6095228900689499,16) (-3638034296622468,16) (5288731663916413,16) (-1526597118917657,16) (8348581833078014,16), (2090673503665746,18));
  (AB60 (-2143208596162157,16) (-885712979307252,15) (4117998147401694,16) (4444281571574903,16) (7434988483673591,16) (-4996929813415512,16) (-9886855476385756,16) (-1422141309398929,16) (-4770774414726286,17) (7140138409577668,16) (-5768857328984064,16) (-3967204130102275,16) (4889925662970245,16) (-1666131154689528,16) (8562279718976596,16), (2029132734516991,18));
  (AB60 (-1811465540169316,16) (-8779824851339397,16) (4430944388793682,16) (4327781681335315,16) (7224655949658831,16) (-5392091628279115,16) (-9878273343402822,16) (-1555168901680566,16) (-3413854511962498,18) (7203557168448431,16) (-5447328954609141,16) (-4293643136215691,16) (4486181715123707,16) (-1777326995049691,16) (8758726070128997,16), (1950815495210063,18));
  (AB60 (-1471211847721222,16) (-8692190684238498,16) (4720313210790379,16) (4217343913229732,16) (6994987730158286,16) (-5769242322218677,16) (-9846916050563362,16) (-1697202954080212,16) (3971730426640811,17) (7240454169939901,16) (-5126602839772982,16) (-4614516955893813,16) (4077673728344685,16) (-1868384890385303,16) (8937657124020112,16), (1961772740240857,18));
  (AB60 (-1131980063024074,16) (-8577147177834773,16) (5015093959905139,16) (4081709773402818,16) (6754113959195325,16) (-6141790451644437,16) (-9796405886844083,16) (-1823033218639448,16) (8408219692323078,17) (7273770514668509,16) (-4781311926938944,16) (-4922531742635126,16) (3654615435199647,16) (-1972802032256381,16) (9096803733307958,16), (2055957316688863,18));
  (AB60 (-797514297881752,16) (-8427864233302976,16) (5323070111287903,16) (3910304864080477,16) (6504053863532134,16) (-6512050307715787,16) (-9726265917973311,16) (-1923810369770842,16) (1303343758964974,16) (7309564605597539,16) (-4403195806685408,16) (-5213648623045452,16) (3214215610257525,16) (-2100858056846726,16) (923337497536838,15), (2113873689195208,18));
  (AB60 (-4648560007028855,17) (-8251476306938292,16) (5630013113186018,16) (3716929600247936,16) (6241584288503237,16) (-6872194694296012,16) (-9634239521742681,16) (-2009892018435056,16) (1772501879243687,16) (7337050694998898,16) (-4004226408556664,16) (-5489431479491623,16) (276204482744667,15) (-2237357879946573,16) (9346942713433953,16), (2129507090200143,18));
  (AB60 (-1332250723087115,17) (-8052820531046548,16) (5927422085094288,16) (350998880830078,15) (5965865770225374,16) (-7217231060265181,16) (-9519748516235514,16) (-2086954760821175,16) (2240314266775437,16) (7350456132573893,16) (-3592326431141226,16) (-5750303075076216,16) (2302517455970332,16) (-2373539339084148,16) (9437410893395068,16), (2125699292306193,18));
  (AB60 (-5173026090012083,16) (-8546439278438613,16) (4451704527661009,17) (5093076417108631,16) (8595850893682383,16) (-414632395106419,16) (-8735352818192172,16) (4941161524376942,18) (-4867357561755771,16) (5587658485118502,16) (-8290182365426071,16) (-2257188553528606,17) (8320720423085753,16) (-305668528256312,16) (5538246869874732,16), (2079260139508902,18));
  (AB60 (-5070870633948449,16) (-8571971210131006,16) (8986548761590415,17) (4918557744042313,16) (8666105753017719,16) (-8404765291396186,17) (-8951183024535223,16) (9413454288671238,18) (-4457293029306911,16) (5911347163088068,16) (-8052528148376181,16) (-4612647147354029,17) (8110706495395604,16) (-6135776046415382,17) (5817212620201355,16), (2032399906216074,18));
  (AB60 (-4666931188845553,16) (-8790950529600637,16) (9689902294114766,17) (5185372211518868,16) (8470536356426274,16) (-1167017078910428,16) (-9038684538793851,16) (-3204141731743638,17) (-4266089141801654,16) (5833948267755982,16) (-8069694309382375,16) (-9192830697172144,17) (7871667459883422,16) (-400842047043899,16) (6154362440930345,16), (2008315186895682,18));
  (AB60 (-4513585839362835,16) (-8810726525942572,16) (1413732986017951,16) (5026386269335479,16) (8493798430773918,16) (-160960532082194,15) (-9229668715219884,16) (-3169280951686543,17) (-3835723137790851,16) (6123191160184775,16) (-7815935729201934,16) (-1190663131544628,16) (7620063394397945,16) (-6778627015719836,17) (6440119255353429,16), (1997600372122923,18));
  (AB60 (-4310439586698429,16) (-8833022489896979,16) (1843318817350178,16) (489240681183134,15) (8473346964426377,16) (-2065610517012488,16) (-9399723800214196,16) (-3596755254706015,17) (-3393497605136069,16) (6376050103710916,16) (-7556404982864018,16) (-1498909206695271,16) (7334113283201708,16) (-9169419815623592,17) (6735725629181518,16), (2049212285436648,18));
  (AB60 (-4072478735702245,16) (-884958765583456,15) (2258254916734075,16) (4771874209851281,16) (8417337481232607,16) (-2525400216281158,16) (-9547059403710544,16) (-4322501746019529,17) (-2943945741446106,16) (6597878951983404,16) (-7288804486976468,16) (-1827928468405175,16) (7021659187429385,16) (-1128532994256139,16) (7030129126585356,16), (2090000892198497,18));
  (AB60 (-3810374013761874,16) (-8853670426917258,16) (2663375648829697,16) (4653611688379011,16) (8332520883409443,16) (-2985463779939018,16) (-9671927987562905,16) (-5211495435078151,17) (-2486405469085639,16) (6795837793700892,16) (-7008552338733208,16) (-2167206219293372,16) (6686464207623887,16) (-1323968544676235,16) (7316987337208707,16), (2108686868773164,18));
  (AB60 (-3534433882015875,16) (-8840690538852972,16) (3057771726256512,16) (4531182889776087,16) (8224665773804428,16) (-3438495968968181,16) (-9773354886107646,16) (-6160247650485438,17) (-2025351268062579,16) (6972929850984055,16) (-6715583159851133,16) (-2505831621713508,16) (6334858917139464,16) (-1509082613953296,16) (7588954616032599,16), (2114051174333605,18));
  (AB60 (-3248072534301256,16) (-8810123256483888,16) (3439731532762337,16) (4403964058590659,16) (8095743007165113,16) (-3881242807732965,16) (-9851114815476181,16) (-7143802493187755,17) (-1563712809849986,16) (712931534203422,15) (-6411383282713843,16) (-2840251248740672,16) (5969872007743217,16) (-168435972445127,15) (7843695591352996,16), (2105291499435946,18));
  (AB60 (-2951164245102048,16) (-8763422329232312,16) (3806975003587992,16) (4274310186511585,16) (7945673165364741,16) (-4312371781129958,16) (-9905204999956067,16) (-817749163867571,16) (-1103721076105382,16) (7263536026232005,16) (-6098229996368075,16) (-3170589110406203,16) (5592833218826109,16) (-1847443168996666,16) (8081285190099576,16), (207732263733751,17));
  (AB60 (-2642959665405585,16) (-8703621197399942,16) (4154725292869504,16) (414729536280598,15) (7773890605916721,16) (-4729330398786678,16) (-9935459559791185,16) (-9297305914832212,17) (-6498033264105445,17) (7372290064192263,16) (-5780734266921681,16) (-3497492036395436,16) (5206129161004507,16) (-199315633899504,15) (8302020655675484,16), (2023209368293599,18));
  (AB60 (-2322057598272496,16) (-863504280952782,15) (4477062004029749,16) (4029810118264648,16) (7579593707799386,16) (-5129365422293467,16) (-9941982641861749,16) (-1055449101728434,16) (-20738452830511,15) (7451423020565963,16) (-5464920637831999,16) (-3822425589959538,16) (4812617219568281,16) (-2114673069967386,16) (8506872122294397,16), (1959803606479031,18));
  (AB60 (-1986729934333638,16) (-8557504348828402,16) (4777240153876047,16) (3920613057759154,16) (7362298848281625,16) (-5515917776754787,16) (-9925719837520237,16) (-1195205500546777,16) (2270892303037978,17) (7502647711088425,16) (-5148479683644189,16) (-4147702288062952,16) (440980206076545,15) (-2213819164637436,16) (8697853211635201,16), (1964977976488013,18));
  (AB60 (-1643878146948406,16) (-8458478025854564,16) (5074624530358964,16) (3797753920195262,16) (7127309590443046,16) (-5897331868194302,16) (-9888351018731536,16) (-1331168435411518,16) (6697049551220688,17) (7541210015142708,16) (-4813726488372571,16) (-4467458875317331,16) (3991019150537234,16) (-2313583102070475,16) (8872378450554226,16), (2049226473681494,18));
  (AB60 (-1304822996829135,16) (-832679068942031,15) (5381634859550494,16) (3642485265897418,16) (688203595291791,15) (-6274542392116376,16) (-9830545086790814,16) (-1444754736502401,16) (1128302728848454,16) (7579365388945511,16) (-444891022724032,15) (-4770787994745873,16) (3556002694674438,16) (-243312572567759,15) (9024120125447912,16), (2111590889237574,18));
  (AB60 (-9709924993143054,17) (-8164778235618587,16) (5691534936152495,16) (3459623696143164,16) (6626719570515024,16) (-6642107467877789,16) (-9751264999693108,16) (-1538058665103564,16) (1595997007660105,16) (7613099967192094,16) (-4059730063540614,16) (-5055620703803269,16) (3109157531815319,16) (-256698950697441,15) (9151158632295658,16), (2127970612456781,18));
  (AB60 (-6395222501178131,17) (-7979813410157249,16) (5992794776285835,16) (326178402904809,15) (6359166503378575,16) (-6994409648437437,16) (-9649825292468545,16) (-1620646906778674,16) (2062613737078052,16) (7633931898555251,16) (-365703051618271,15) (-5324397766126142,16) (2655415644031107,16) (-2702135987195866,16) (9254578805333924,16), (2117554959825171,18));
  (AB60 (-3104034477021358,17) (-7774954920839379,16) (6281220078819891,16) (3053540681595701,16) (6079602874487785,16) (-7329005266361863,16) (-9526600641320662,16) (-1695352046351593,16) (2523818864284879,16) (7639408714063999,16) (-3245380562500771,16) (-5577359545880579,16) (21975953749588,14) (-2834222311987014,16) (9334760760415591,16), (2098357616263376,18));
  (AB60 (1092361226391204,18) (-7545646617483989,16) (6562247922682253,16) (2826807967580771,16) (5791832050191039,16) (-7646164935233986,16) (-9382304726604,13) (-175381456729295,15) (2982698858533204,16) (7635241322970073,16) (-2820056803921748,16) (-5809506826113974,16) (1736139791370015,16) (-2971775246269291,16) (9389055890263023,16), (2091219837790057,18));
  (AB60 (-4523025098557002,16) (-8632270036525619,16) (2241909448288538,16) (4465006814000069,16) (8668127308350766,16) (-2219748435556753,16) (-9502299505165678,16) (3585727182514762,18) (-3115287847083376,16) (6742773534113755,16) (-726039005687714,15) (-1349718966916694,16) (7282551069608925,16) (-1407737251473626,16) (6706916262288607,16), (2102204613204189,18));
  (AB60 (-4271864824635654,16) (-8642815345247199,16) (2655732258342345,16) (4344239535893418,16) (8598085313763941,16) (-2683376938116852,16) (-9640129451205707,16) (-4473003148325729,18) (-2658176703735075,16) (6955241762752505,16) (-6984397192863361,16) (-1686062832158343,16) (6956752513088855,16) (-161368812090058,15) (6999971794235763,16), (2101225993823065,18));
  (AB60 (-4006312856228283,16) (-8637698874779379,16) (3056078442490476,16) (4221987203387266,16) (8504404797733685,16) (-3138458712603763,16) (-9754103160592492,16) (-1332940770456955,17) (-2199932776596616,16) (7144771568832047,16) (-6698024718102016,16) (-202205442679065,15) (6615644447988729,16) (-1806380079631668,16) (7278065645877742,16), (2098316632556732,18));
  (AB60 (-3730199523674544,16) (-8615700533057821,16) (3443154925100725,16) (409597564191394,15) (8389638459712875,16) (-3582868969995174,16) (-9844520657464202,16) (-2260620733449468,17) (-1741926796325147,16) (7313068493669718,16) (-6401365732363476,16) (-2354048845588793,16) (6261651687469028,16) (-1988272727349398,16) (7539130567014665,16), (209313459262009,17));
  (AB60 (-3442364272683561,16) (-8578535536054891,16) (3815606933476666,16) (3968628507691097,16) (8253286351756771,16) (-4016621984186082,16) (-9911733563344515,16) (-3252491842981196,17) (-1285204550794639,16) (7458986256869643,16) (-609612662986785,15) (-2683423956896458,16) (5895111579158433,16) (-2157159721888922,16) (7784235441167763,16), (2077496846367605,18));
  (AB60 (-3141419936087788,16) (-8528127548341018,16) (4171632930205775,16) (3842831504982764,16) (8094631358661534,16) (-4439548309421268,16) (-9955968728627315,16) (-4334961896794839,17) (-8311243758477929,17) (7580968245509055,16) (-5784335798421539,16) (-3011707129134971,16) (5516420419206046,16) (-2310295560239995,16) (801446443518854,15), (204798907942978,17));
  (AB60 (-2824552928167453,16) (-846743711561166,15) (4508260135478293,16) (372333560127661,15) (7911958875130715,16) (-4851564568106505,16) (-997726544938543,15) (-5554782404809454,17) (-3815993669438735,17) (7676117496273958,16) (-5469005313907136,16) (-3341736234332736,16) (5125700881278924,16) (-2442953561223579,16) (8231595736754903,16), (201244019980725,17));
  (AB60 (-2488978403477409,16) (-8397770386697794,16) (4825187979687905,16) (3612208342546492,16) (7703576107171627,16) (-5254223639230821,16) (-9975669572847885,16) (-6941942795261669,17) (6411611053423708,18) (774320204270823,15) (-515048159315998,15) (-3676324453080729,16) (4721445933617064,16) (-2553094514011646,16) (8437396322234397,16), (2002240400742945,18));
  (AB60 (-2144029657044355,16) (-8310664405017807,16) (5131860673954846,16) (3494996800758348,16) (7475720792518196,16) (-5647884205169227,16) (-9951940675654386,16) (-8349436124996112,17) (5116111337743005,17) (7791913862213583,16) (-482008000169954,15) (-4006607934532648,16) (4304056470485159,16) (-2655640790818656,16) (8626857474713194,16), (204197660605559,17));
  (AB60 (-1803498589308358,16) (-8195289280526035,16) (5439175162362196,16) (3353229007155774,16) (7237503208896756,16) (-6031119508580333,16) (-9907027596373023,16) (-9577860716292794,17) (9661521855775707,17) (783461809788869,15) (-4467852434010827,16) (-4319381192733344,16) (3875908087792691,16) (-2769650774885929,16) (879240416951797,15), (2089279362784636,18));
  (AB60 (-1469780875711678,16) (-8050314373504791,16) (5747363105384449,16) (3184972316931858,16) (6990267765617801,16) (-6402507938717641,16) (-9840709959520709,16) (-1060046607886989,16) (1427140035769864,16) (7872288814429319,16) (-409334685413626,15) (-4612112352701722,16) (3438202020803068,16) (-2896920911481542,16) (8932335422316308,16), (2107044981072498,18));
  (AB60 (-1140833795324232,16) (-7880054742179374,16) (6050060785785748,16) (2997530779622677,16) (6732552899073505,16) (-6759255926978324,16) (-9752665626433341,16) (-1147501843105869,16) (1889114263101681,16) (7900089722302556,16) (-3702604840647593,16) (-4886645042724358,16) (2993409699455016,16) (-3029948058425913,16) (9047591565408425,16), (2096979450981084,18));
  (AB60 (-8143197922718544,17) (-7690778770697343,16) (6339464107959394,16) (280060001682464,15) (6463190080741947,16) (-7098155642556785,16) (-9643341434119794,16) (-1227588689955395,16) (2344992962309693,16) (791247543482864,15) (-33038773261604,14) (-5145592979134334,16) (2545185791563009,16) (-3159312754581548,16) (9140064124784034,16), (2068499493116147,18));
  (AB60 (-4920851900876445,17) (-7483201315635205,16) (6615100168203951,16) (2594424266158562,16) (6183884310746327,16) (-741812223938599,15) (-951364980719713,15) (-1299317004888878,16) (2793249481665504,16) (7910207429473635,16) (-2898549638993179,16) (-5387673747824065,16) (209552756781114,15) (-3285334671753148,16) (9209524434362513,16), (2042086111964262,18));
  (AB60 (-1819932529191196,17) (-7249361340055166,16) (688575621244359,15) (236573940823399,15) (5899731993268669,16) (-7719873020971963,16) (-9363973636704752,16) (-1349629346786497,16) (3239521316088387,16) (7901866273891083,16) (-2478217424261162,16) (-5605260724322377,16) (1644100615732788,16) (-3421514569007507,16) (925149562067758,15), (2040328557700477,18));
  (AB60 (-358009365149327,15) (-8321312545464039,16) (4235408713127976,16) (3508069128456592,16) (8365826148724206,16) (-4207897793351464,16) (-9956097401115129,16) (4451360326016676,18) (-9349561907562169,17) (7787991444844734,16) (-5720688687987153,16) (-2573112937700375,16) (5748199607763664,16) (-2645137460737053,16) (7743477841584567,16), (2056763136487122,18));
  (AB60 (-3266640136449802,16) (-8267761521017987,16) (4579648638324731,16) (3389487940110164,16) (819183740291261,15) (-4626572323879716,16) (-9988031211775467,16) (-7592411810537753,18) (-4831853069879281,17) (7893212460329517,16) (-5408382573450735,16) (-2906302633122236,16) (5361458887895751,16) (-2783454829461874,16) (7969136578434896,16), (2034435559320872,18));
  (AB60 (-2934502294157409,16) (-820585883714275,15) (4904342670579935,16) (3279696838473451,16) (7992516876024405,16) (-5036195253777631,16) (-9997661666907207,16) (-2133419611183454,17) (-3530441446027687,18) (7970697547935041,16) (-5093318996327272,16) (-3244392424013174,16) (4961466413129576,16) (-2899197879697133,16) (8184039509053386,16), (1997602871422441,18));
  (AB60 (-2597487084610104,16) (-8129148546263647,16) (5212485468379104,16) (3167708937722178,16) (7776732059912436,16) (-5430290835139967,16) (-9985529709729201,16) (-352416486351212,16) (4062007339522356,17) (8027777919750071,16) (-4773044241350096,16) (-3573909671674414,16) (4555238874589234,16) (-3003687818562339,16) (8380194406101282,16), (1983914633736341,18));
  (AB60 (-2268474318842814,16) (-8028181771265809,16) (5513830040204903,16) (3037023350957193,16) (7553192347398289,16) (-5807389648451762,16) (-9952847622813221,16) (-4749894238675204,17) (8457004459471572,17) (8075863967294575,16) (-4439017582608318,16) (-388272379690435,15) (4145457974361459,16) (-3114174764789971,16) (8550853391162095,16), (2004550845433065,18));
  (AB60 (-1945924328310278,16) (-7901273788048924,16) (5812336108208231,16) (2884773030421249,16) (7321033379850618,16) (-6170944402120898,16) (-9899756513060541,16) (-5802404081983057,17) (128768864668803,15) (8116868730431175,16) (-408742040485231,15) (-4172461677109279,16) (3728812110939644,16) (-3233612974998308,16) (8697109138629481,16), (2024448411898888,18));
  (AB60 (-1627198576945605,16) (-7750144227366135,16) (6106348274231463,16) (2713992238181445,16) (7078468805964446,16) (-6521466514065616,16) (-9826004539410754,16) (-6716754214016885,17) (1731613963839551,16) (814866509101122,15) (-371965626517929,15) (-4445606202020997,16) (3304538025345138,16) (-3358812540785156,16) (8820340512412909,16), (2025144369394164,18));
  (AB60 (-1311024546898618,16) (-7578547925982593,16) (6391152163030874,16) (2530469118255103,16) (6824889733487738,16) (-6856938541892506,16) (-9731879011354754,16) (-7536581924948543,17) (2173138338265241,16) (8167963088791123,16) (-3340726848323879,16) (-4703607456520344,16) (2874940469462248,16) (-3484162885163858,16) (8921621281285977,16), (2003872695400624,18));
  (AB60 (-9966548662820435,17) (-7391329900689801,16) (666145039587365,15) (2341003011545274,16) (6560477054204243,16) (-7174945694651323,16) (-9618419989834209,16) (-8308528464855576,17) (2606852593961642,16) (8171600560933368,16) (-2956969593960559,16) (-4947855605506916,16) (2443474295182886,16) (-3603507460243685,16) (9002453407418924,16), (1972510112920924,18));
  (AB60 (-688052844671222,16) (-7185273297817859,16) (6920869231433686,16) (2139953569414894,16) (6287949301635665,16) (-7475445959995164,16) (-9486062844911448,16) (-8973239961821951,17) (3034702843486681,16) (8163498804666386,16) (-2565193613477761,16) (-5174656412901575,16) (2010616884916284,16) (-3722755688157903,16) (906082280084858,15), (1958188057148445,18));
  (AB60 (-3948270251478293,17) (-6950016074659621,16) (7179233119364894,16) (1911056295287065,16) (6012934850976127,16) (-7758381165820637,16) (-9334305935870327,16) (-9370812236834938,17) (3463035009322864,16) (8153208190968466,16) (-2155072816505433,16) (-5374091304609929,16) (1575924770049691,16) (-3857862034470694,16) (909028941465196,15), (1961273924599917,18));
  (AB60 (-11013088659459,15) (-6702596483484066,16) (7420449552918268,16) (1678257369553929,16) (5733441018356362,16) (-8019420570749902,16) (-9166771553598814,16) (-969155465127704,16) (3876988131081227,16) (8129551457344493,16) (-1746322000680545,16) (-5555245500635155,16) (1147350982848911,16) (-3987119017675816,16) (9098706922472196,16), (1894886159786715,18));
  (AB60 (-2245549290438426,16) (-7657462287769707,16) (6026672356748474,16) (2487768053764643,16) (7507762859321139,16) (-6119191691626121,16) (-9902266195417273,16) (-1496994284485687,17) (1386619730213914,16) (8364740982064547,16) (-3875593838668799,16) (-3874387783978557,16) (3783074503791151,16) (-363216902065234,15) (8514440410513116,16), (2059361997186457,18));
  (AB60 (-1922184443713278,16) (-7504466774765932,16) (6323621224486875,16) (2315442882833794,16) (7261419693026722,16) (-6473832581868182,16) (-9827039426181785,16) (-2430470817392105,17) (1835817047618534,16) (8396017025581459,16) (-3503418201694909,16) (-4151259930452328,16) (3353206844313603,16) (-3758001491331812,16) (863906410732067,15), (2044780537720357,18));
  (AB60 (-1601563180957388,16) (-7332040295524156,16) (6608795690760284,16) (2132437116659779,16) (7003942159518651,16) (-6811571490457172,16) (-9731053288382128,16) (-328098136005504,16) (228012138093942,15) (8413134671414559,16) (-3122257597621844,16) (-4412558497599199,16) (2919481797924956,16) (-3881684561896808,16) (8741232807420064,16), (2017258020210736,18));
  (AB60 (-1283355704833849,16) (-7143866045356154,16) (6878820833607883,16) (1943519896805638,16) (6735862136561978,16) (-7130981116785495,16) (-9615498175656917,16) (-4080039087941764,17) (2715829089679094,16) (8414336821619344,16) (-2736677342049034,16) (-4659348986484733,16) (2484517058871421,16) (-3999184794512943,16) (882234073041352,15), (1973528315508013,18));
  (AB60 (-9775941485859763,17) (-69414651516524,14) (7131645758802507,16) (1747847188632435,16) (6465422592965754,16) (-7425856240162321,16) (-9483679358464091,16) (-4760425586866456,17) (3135794844718194,16) (8403450388748297,16) (-2352033599661583,16) (-488364203335063,15) (205782311830177,15) (-4113388993304171,16) (8879492947434943,16), (1878492836753668,18));
  (AB60 (-7047023811956211,17) (-6719972241608204,16) (737193106492135,15) (1532841200962333,16) (6208154303589153,16) (-768825194666901,15) (-9340302289415562,16) (-5118179380190512,17) (353508069789932,15) (8392954327864631,16) (-1968371224494212,16) (-5067921898861654,16) (1652050342746551,16) (-4239783079094941,16) (8904772265883683,16), (179689885257999,17));
  (AB60 (-4335877456159611,17) (-6482744434512335,16) (7601712061348483,16) (1309808405087792,16) (5941210285313896,16) (-7936398571621875,16) (-9179492430332383,16) (-541534149198439,16) (3929842170714036,16) (8369986317237836,16) (-1577780368983899,16) (-5239650575801827,16) (1243093858710507,16) (-4363429916329997,16) (8911520466436276,16), (1894210983671234,18));
  (AB60 (-1029725261715465,16) (-6497711811049504,16) (7531228791235385,16) (1172942278664905,16) (6409198826807381,16) (-75859328239427,14) (-9340576280714827,16) (-8851298424212348,18) (3570126075612473,16) (8615658085658165,16) (-1809347489479443,16) (-4743068354277377,16) (1754643456772127,16) (-4599851337327938,16) (8704171069900289,16), (206695202213758,17));
  (AB60 (-7293619121387519,17) (-622221519649122,15) (7794361375358153,16) (9113119230396914,17) (6109763905501026,16) (-7863860095268898,16) (-9156443750199208,16) (-1124512909901944,17) (4018319618521219,16) (8593222007407649,16) (-1362082374841055,16) (-492963154156091,15) (129258365493031,15) (-4747681530659971,16) (8705673298397845,16), (2068951576951916,18));
  (AB60 (-219618382632193,16) (-6174579546291705,16) (7862972414585093,16) (9959877662669081,17) (5694756879380646,16) (-8159519131308748,16) (-8994691805872976,16) (-4798226669110603,17) (4343419105460569,16) (8379137513940941,16) (-1131719391287883,16) (-5339406871727478,16) (8351726745642282,17) (-4563037488092762,16) (8858960180852001,16), (1304004618763264,18));
  (AB60 (8136958806457014,18) (-5888337310229758,16) (8082132312149708,16) (747843382050328,16) (53758555107865,14) (-8398863482821348,16) (-8779686523125554,16) (-5124817994432579,17) (4759670887875224,16) (8317493894756778,16) (-6975542109758459,17) (-5507514269925552,16) (3808230403042057,17) (-4678301299810654,16) (8829975694200036,16), (2125378862758286,18))].

(** ahrens_beylkin/ahrens_beylkin_6312.hpp:1-12642. *)
Definition ab_6312 : coded := [  (AB12 (5257311121191336,16) (8506508083520399,16), (1516397851937168,18));
  (AB60 (-4984916636782062,16) (-8664554850339062,16) (275853892122692,16) (533142122024877,15) (8450403240499013,16) (-4082068657493495,17) (-8688123024987591,16) (-2141516098400503,17) (-4946782529147949,16) (5393123502531412,16) (-8412269132864899,16) (-3846386911008208,17) (8279916159238242,16) (-3813410763411303,18) (5607275112371463,16), (1821381861806486,18));
  (AB60 (-4684390720659103,16) (-8816884420740295,16) (5648297863161605,17) (5403038099684563,16) (8372735914576532,16) (-839328659177858,16) (-8862980567952663,16) (-4441485061637628,17) (-4609805587719073,16) (5523719379836961,16) (-8298150781636503,16) (-7932325119654902,17) (8023651908774805,16) (-745851329400299,17) (5967867886000724,16), (1957334753531761,18));
  (AB60 (-4356768226103963,16) (-8961077988221683,16) (8471433839792193,17) (5479777265982079,16) (8267020231903621,16) (-1276094667539273,16) (-9019551494799134,16) (-6940577563180614,17) (-4262156105020257,16) (5632862893643237,16) (-8172408110819914,16) (-1217621160961822,16) (774345682725986,15) (-9461212108370667,18) (6326920649961298,16), (2012967845928036,18));
  (AB60 (-4008803305834033,16) (-9093110925504488,16) (1115719387482822,16) (555983322811904,15) (8134521715964246,16) (-1708160100227587,16) (-9153129312820234,16) (-9585892095402423,17) (-39116915152072,14) (571696340606162,15) (-8037409925337412,16) (-164814171291184,15) (7444969212592647,16) (-9711179062683328,18) (6675552615601862,16), (1993422102491366,18));
  (AB60 (-364622513105942,15) (-9211068730952172,16) (1364278244093138,16) (5643026486835038,16) (7976977624300969,16) (-2126988493217553,16) (-9260795792556937,16) (-1234091106651203,16) (-356576505522225,15) (5773213624276973,16) (-7896517548463799,16) (-2077261431612788,16) (7133807299339384,16) (-8046007583716945,18) (7007304730928176,16), (1895503958967418,18));
  (AB60 (-3281403120106788,16) (-9308598332329492,16) (1606981845170019,16) (571331399257187,15) (7805594755535661,16) (-2535889140841269,16) (-9348314496757837,16) (-1503003576793832,16) (-3217141016158946,16) (5817292260948057,16) (-7741332651587818,16) (-2496172976412924,16) (6812425355916568,16) (-642621039478421,17) (7320295837741889,16), (1828067215245549,18));
  (AB60 (-2927461469475957,16) (-9378067870230145,16) (1865961512489127,16) (5749400180727365,16) (7634013832507699,16) (-294384618601809,15) (-9424632382108347,16) (-1744054037722446,16) (-2852118506587478,16) (5871307655494047,16) (-755867086961922,15) (-2897281674139888,16) (6480786196090257,16) (-7534296288847962,18) (7615361693216492,16), (1848967950241147,18));
  (AB60 (-2571753809630257,16) (-9425471128780776,16) (2132270232210804,16) (5764515574544401,16) (7452235840082733,16) (-3351796708426906,16) (-9486217071803731,16) (-1973235288698043,16) (-2473464809140451,16) (5923550518057162,16) (-7353946839592926,16) (-329105076540395,15) (6134420363376825,16) (-9828900048980599,18) (7896785806755205,16), (1918725258201406,18));
  (AB60 (-2199196848214904,16) (-9456242343156962,16) (2396458631040176,16) (5772442242947641,16) (7247855239068096,16) (-3761316921684047,16) (-9528079274136271,16) (-2208387104088866,16) (-2082962252242902,16) (5960513769898951,16) (-7131620643096095,16) (-3689479990704739,16) (5766762352452224,16) (-1162345959720012,17) (8168900873987817,16), (2005012110210234,18));
  (AB60 (-1808520628364687,16) (-9469683322556063,16) (2656002806339435,16) (5774269727284808,16) (701871558856916,15) (-4170784171272652,16) (-9547999751308937,16) (-2450967733986903,16) (-1681801984765029,16) (5979304799637339,16) (-6891996944969502,16) (-4092467742519779,16) (5377215580036284,16) (-1267186435996582,17) (8430272533624242,16), (207123257586289,17));
  (AB60 (-1405754753640871,16) (-9463826097192944,16) (2908581986932095,16) (5767703042173781,16) (6767993797710173,16) (-4574697975982233,16) (-9545089246702669,16) (-2695832299482772,16) (-1274268215701272,16) (5980452729623105,16) (-6636507259770574,16) (-4493434826472508,16) (4970391270720436,16) (-1314865379395989,17) (8676285029105876,16), (2093123209212996,18));
  (AB60 (-9980918239098287,17) (-9439260508349487,16) (3147089729664238,16) (5754549965220098,16) (6499607710953591,16) (-496389507357861,15) (-9518494365953984,16) (-2939652797395896,16) (-8698887492459843,17) (5961986897488438,16) (-6371404636289747,16) (-4884661215974114,16) (4554599292375374,16) (-1282030746638443,17) (8901639694884335,16), (2037552879498057,18));
  (AB60 (-5963623681844596,17) (-9402075411177926,16) (3353405714842281,16) (5745449826041935,16) (6219764351176214,16) (-5320182112698044,16) (-946742775403359,15) (-3182311060001712,16) (-4906200561995563,17) (5916544480882504,16) (-611402203919131,15) (-5254829769842378,16) (4147245641335546,16) (-1057423119849032,17) (9098855540884216,16), (1814627907102573,18));
  (AB60 (-2375694898246351,17) (-9350813998280866,16) (3536359470848384,16) (5723374690723381,16) (5960399928464496,16) (-5631750601930759,16) (-9406560180973361,16) (-339041406981637,15) (-1473702714851167,17) (5869320091755394,16) (-5870200710124978,16) (-5576004419238264,16) (3774809579042602,16) (-9019921833951844,18) (9259734161571764,16), (1513050964167043,18));
  (AB60 (-4789560145460744,16) (-8719898617398141,16) (1011672731327694,16) (5068654324509542,16) (8547408928683736,16) (-1118277221662085,16) (-9040438016893866,16) (-1724896887144053,17) (-4270916502343181,16) (590783736712283,15) (-8028765285566172,16) (-7977378221663606,17) (7922160795231781,16) (-5186436431175637,17) (6080327055837236,16), (2015235428428242,18));
  (AB60 (-4452273129595233,16) (-8860050366633487,16) (1294902112208517,16) (5144652200876356,16) (8432136567482666,16) (-155936738433882,15) (-9191210434372593,16) (-4279137991508201,17) (-3916444884276642,16) (6011640513934053,16) (-7896308322164076,16) (-1228207316599714,16) (7631843050033773,16) (-5358282453185909,17) (6439554313084873,16), (200995285552237,17));
  (AB60 (-409948815414003,15) (-8988797536892221,16) (1547809973745457,16) (5231373471600694,16) (8289253939334565,16) (-1980151693648466,16) (-9312806461082257,16) (-6995435975576553,17) (-3575230702142264,16) (6079639847788495,16) (-77649964873368,14) (-165614276945843,15) (7332654767433792,16) (-5242574519977658,17) (6779183445346151,16), (1916253107337844,18));
  (AB60 (-3738415360557514,16) (-9104109441354588,16) (1771847022681669,16) (5324221866919817,16) (8124027120841958,16) (-2377571208531342,16) (-9406536646490723,16) (-9800823205126298,17) (-324907786352461,15) (6115986569088856,16) (-7634689623809054,16) (-2075144003395207,16) (702896543795938,15) (-4893374970329037,17) (7096068889601486,16), (1823012317661964,18));
  (AB60 (-3380692170715524,16) (-9193087055117546,16) (2014465399030963,16) (5385439625341524,16) (795408498929884,15) (-2780210787838257,16) (-9489287691375342,16) (-1239002065818706,16) (-2901429473761064,16) (6160902958553781,16) (-747482229234438,15) (-248401015158046,15) (6709076903537086,16) (-4792626969544599,17) (7399905024372486,16), (1876159304738506,18));
  (AB60 (-3022162414039293,16) (-9253375977498896,16) (2289446955536326,16) (5407515397669976,16) (7779146758449161,16) (-3200570720117275,16) (-9564761444605018,16) (-1474229219049734,16) (-2518330144658824,16) (6222733134156568,16) (-7275314489068693,16) (-2889185253011153,16) (6364190724487743,16) (-503832269380469,16) (7696962353206302,16), (1954610366112239,18));
  (AB60 (-265059462904911,15) (-929319589176705,15) (2571158927351641,16) (5413695159244033,16) (7585505849773733,16) (-3626569415553246,16) (-9623011657745942,16) (-1707690041993317,16) (-211694150966968,15) (6277164044602356,16) (-7051852730394302,16) (-3296753649574353,16) (5996442242192697,16) (-5336531193794301,17) (7984854086595673,16), (2021183633688142,18));
  (AB60 (-2263398950696151,16) (-9315555915416208,16) (2845600670639091,16) (5414213971486703,16) (7368245140303941,16) (-4049104916317375,16) (-9658672123756863,16) (-1947310775112268,16) (-1708225263509982,16) (6312503867013526,16) (-6813071453117772,16) (-3705988707976721,16) (5609567207439488,16) (-5551736871861688,17) (8259814642125795,16), (2070085999144082,18));
  (AB60 (-1865353491103847,16) (-9319762059232527,16) (3108454843248744,16) (5409192538557872,16) (7129549077246888,16) (-446208090871713,15) (-9670499240342068,16) (-2190212981985639,16) (-1297848810950283,16) (6327434399820977,16) (-6562044397093324,16) (-4111343727607589,16) (5208418331624938,16) (-5675046801535641,17) (8517647381806616,16), (2084620695919056,18));
  (AB60 (-1463423866086257,16) (-9306204545081853,16) (3354541332770699,16) (5399384119120706,16) (6873647330337928,16) (-4857944371061222,16) (-9658371141080485,16) (-2432557214743926,16) (-8936063440581166,17) (6321368237147479,16) (-6303829808309787,16) (-4505777775062589,16) (4800426770019264,16) (-5698175220281401,17) (8753925451891404,16), (2034938281294905,18));
  (AB60 (-1067417583701785,16) (-9279838508492697,16) (3570044391642811,16) (5392674689145757,16) (6606682607246335,16) (-5222145595840421,16) (-9622419427705556,16) (-2673155901246362,16) (-513110012518196,16) (6289563179542205,16) (-6052375036062745,16) (-487956467662756,15) (4400273831865136,16) (-554307571183589,16) (8962719080788567,16), (1868784650606071,18));
  (AB60 (-6874169978527564,17) (-9248563166443092,16) (3740526330260922,16) (5399558075513468,16) (6336299820664214,16) (-5540404062142755,16) (-9564931474891806,16) (-2912263345778877,16) (-1755223218194265,17) (6227821059995512,16) (-5824405144630884,16) (-5224035753694041,16) (402452741274905,15) (-5118946760333299,17) (9140084405774389,16), (1704051959161231,18));
  (AB60 (-3124516174056032,17) (-9194279884863865,16) (3920151959499571,16) (5381699838446546,16) (6061312186850623,16) (-5856432482527272,16) (-9494957517342658,16) (-3132967698013243,16) (1740550116019328,17) (6168884099932874,16) (-5574805557843087,16) (-5555754850048479,16) (3638525034815387,16) (-486506629007536,16) (9301851797946117,16), (1754319751268218,18));
  (AB60 (-455632940883181,15) (-8733887721101433,16) (1720194056904044,16) (4797783345582332,16) (8584660981472143,16) (-1812421254025276,16) (-9333943841085149,16) (-1492267396292899,17) (-3585418211540772,16) (6368750662857086,16) (-7613749784181105,16) (-121236513404156,15) (7521522587059873,16) (-9709111972910378,17) (6517977402486376,16), (1967774780363785,18));
  (AB60 (-419970564547556,15) (-8862890265849089,16) (1952344392487701,16) (4896276232284002,16) (8432385967638013,16) (-2218410681085066,16) (-9444181456420415,16) (-4305042982110762,17) (-3259156741770262,16) (6418116326560627,16) (-7491837063932715,16) (-163711949051374,15) (7225770775335348,16) (-9405489037052983,17) (6848620624771703,16), (1864692848467966,18));
  (AB60 (-3834512238961255,16) (-8976285403137375,16) (2173204143811446,16) (4990435918614433,16) (8261885280710866,16) (-2614727701038114,16) (-9533498956381392,16) (-7144001224265091,17) (-2932921770820335,16) (6449239939999369,16) (-7360294812569946,16) (-2057514147794097,16) (6918771255343278,16) (-9015904681409194,17) (7163640062425878,16), (1896019078096887,18));
  (AB60 (-3471117619741828,16) (-9056452397035977,16) (243557230443671,15) (5036403411756938,16) (808905257546334,15) (-3033458274879183,16) (-961724438414273,15) (-9673998215726366,17) (-2563737123984507,16) (6504575894621011,16) (-718167207970602,15) (-247266628777243,15) (6583786109263546,16) (-90738049575732,15) (7471975716193647,16), (1981296335516909,18));
  (AB60 (-3101817691636184,16) (-9108308478687516,16) (272349842388827,15) (5048512757155037,16) (7905184762465161,16) (-3467069773184769,16) (-968903994138021,15) (-1203123716222354,16) (-2162174446662963,16) (6568887464820953,16) (-696554151749194,15) (-2886338310492074,16) (6221970168195441,16) (-9396432449732213,17) (7772011181043308,16), (2032649035096543,18));
  (AB60 (-2720079270561962,16) (-9139660459685989,16) (3011274720697468,16) (5047952553703318,16) (7700955649201823,16) (-3900443193354658,16) (-9740328715702099,16) (-1438704810484166,16) (-1748177616364771,16) (662052246391662,15) (-6729053995004631,16) (-3299774937338547,16) (5839885522347441,16) (-971901654197191,16) (8059227274400785,16), (2065744546965661,18));
  (AB60 (-2327981235779655,16) (-9152917053595198,16) (3287037081607695,16) (5041961139217035,16) (747558522848674,15) (-4323685159936616,16) (-9767769749708539,16) (-1677331825108458,16) (-1333128675393759,16) (6651666395716271,16) (-6480732668100844,16) (-3708832463823276,16) (5444084589771923,16) (-9948525603858956,17) (8328998220824729,16), (2075560846186624,18));
  (AB60 (-1930974363522972,16) (-9149090384971735,16) (3544782522953248,16) (5032674449006994,16) (7232134309234155,16) (-472952653269969,15) (-9770864760022134,16) (-191695607573758,15) (-9249222913577025,17) (6660500896222662,16) (-6226082237068886,16) (-4107752157649291,16) (5041338227322444,16) (-1006052072165269,16) (8577456971960242,16), (2042358174599266,18));
  (AB60 (-1534914738581538,16) (-9131508217730662,16) (3776187815085812,16) (5025136685737411,16) (6974432426107493,16) (-5109333970618517,16) (-9749953979099775,16) (-2157075791623169,16) (-5342484764880073,17) (6644248709200056,16) (-5973766164013962,16) (-4490888209249404,16) (4640620008481258,16) (-1000666262093531,16) (8801324500823224,16), (1947750575683596,18));
  (AB60 (-1139554593670406,16) (-9106879511347904,16) (397066252580554,15) (5030147292040508,16) (6702360987373014,16) (-5456736700200752,16) (-9705093288770434,16) (-240451852397489,15) (-1716243692622873,17) (6596291293871157,16) (-5734430762964895,16) (-4858522922778221,16) (4248356588569684,16) (-9679302244081191,17) (9000809817846048,16), (1860970156727542,18));
  (AB60 (-7348569389209977,17) (-9071579739575893,16) (4143238625500085,16) (5040359579833374,16) (6410632768839611,16) (-5787794295676179,16) (-963776477045534,15) (-2660946970736282,16) (181249684963357,16) (6522651234597177,16) (-5494526144955256,16) (-5221609264796732,16) (3849970474779162,16) (-9161066238843547,17) (9183598205333459,16), (1919591800054568,18));
  (AB60 (-3108457318390984,17) (-9007071466025343,16) (4333132647047572,16) (5024250948273189,16) (609402683951802,15) (-613349323697434,15) (-9549496822855159,16) (-2913044626507322,16) (5668169318713345,17) (6444338968813439,16) (-5216364175807587,16) (-5591067880144523,16) (3416003585880819,16) (-8776626637104329,17) (9357383595320761,16), (2004598203467052,18));
  (AB60 (-4282799423422224,16) (-8724730286021457,16) (2353021575530961,16) (4558486479626981,16) (8554346315028515,16) (-2458324660742775,16) (-9558423665831328,16) (-1703839709929424,17) (-2933855198694077,16) (6741124084164999,16) (-7205402090300368,16) (-1624631280932904,16) (7100099005088554,16) (-1348944224728147,16) (6911508055157941,16), (186674108792428,17));
  (AB60 (-3919172696512158,16) (-8828398170637426,16) (2588333656157832,16) (4637066357962913,16) (838471548755275,15) (-286254463452391,15) (-9647581948345836,16) (-4436826830846766,17) (-2593705501147412,16) (6781717331036069,16) (-7059248292188003,16) (-20433608568155,14) (6785037313821926,16) (-1325467195364746,16) (7225400014120745,16), (1968389985872372,18));
  (AB60 (-3552632090559249,16) (-8898126258494924,16) (2863940348019098,16) (4668941496462206,16) (8208209103685694,16) (-3290332599112825,16) (-9728529225970514,16) (-6899171548092296,17) (-220901186482497,15) (6842964689672074,16) (-6864588877951415,16) (-2459929631637235,16) (6438196626857688,16) (-1343620225734278,16) (7532881844481304,16), (2037891078592648,18));
  (AB60 (-31763426047419,14) (-8941836995353096,16) (3155059239671446,16) (4675024625513116,16) (8015600568188108,16) (-3727504833277674,16) (-9793171554829428,16) (-9262364271649873,17) (-1798854351711775,16) (6903847438019575,16) (-6638112315157984,16) (-2876170273801341,16) (6065666721551755,16) (-1377488253030126,16) (7830083865184562,16), (2065583911900142,18));
  (AB60 (-2790068606235344,16) (-8964723880933769,16) (3442272928039808,16) (4669298890735703,16) (7803295692424412,16) (-4160075024030811,16) (-9835929048373,13) (-1161428188509357,16) (-1380429034144124,16) (6950143630266155,16) (-6393656120333192,16) (-3288869856591579,16) (567585402434219,15) (-140963957209122,15) (8111571818775511,16), (2071834766242633,18));
  (AB60 (-2396983343463385,16) (-8969830036508505,16) (3714380159233694,16) (4658846268209521,16) (7571921871122147,16) (-4578334918593472,16) (-9854643604170951,16) (-1397908165386358,16) (-9653249172784938,17) (6975318262056858,16) (-6140263444937256,16) (-3693521350931027,16) (5276308685577478,16) (-1431658426184891,16) (8373226427443216,16), (2054574938972503,18));
  (AB60 (-1999749982594968,16) (-8960346212112958,16) (396398735696576,15) (464912195347684,15) (7322944285266665,16) (-4975957401001338,16) (-98490227686883,14) (-1637401926846294,16) (-5618411090508451,17) (6975707383596306,16) (-5885035411722541,16) (-4087280844425995,16) (4873065367686963,16) (-1437908873544123,16) (8613109310442599,16), (200992626662645,17));
  (AB60 (-1595314936747783,16) (-8941418457231118,16) (4184017952312837,16) (4648771082726121,16) (7054278775859245,16) (-5350334416919301,16) (-9818747888709476,16) (-1887139681371874,16) (-1757660972851777,17) (6945649353667085,16) (-563472993639664,15) (-4473004985440943,16) (4468413471790175,16) (-1419548839462605,16) (8832789035038958,16), (1969832859692391,18));
  (AB60 (-1177155046721503,16) (-8914347021454676,16) (4375925408077729,16) (4660134615622483,16) (6761747265752414,16) (-5706305221276448,16) (-9763581852602571,16) (-2152599755702262,16) (1969357745060691,17) (688346026799795,15) (-5387656444524842,16) (-4857070390128552,16) (4057276631326124,16) (-1374090821227572,16) (9036060023700212,16), (1999681109429689,18));
  (AB60 (-7460465054609426,17) (-8868768667807052,16) (4559425065577177,16) (4664730989865906,16) (6446888465257927,16) (-6056229347433015,16) (-9685238153006029,16) (-2421880202549125,16) (5750288723681321,17) (6802275852893959,16) (-5125813087428852,16) (-5239759862234038,16) (3629008805573014,16) (-1321075377829075,16) (9224156055443082,16), (2067504276823021,18));
  (AB60 (-3080084834041576,17) (-8792584497129143,16) (475348173815734,15) (4641429557792969,16) (6114382985591771,16) (-640870130100878,15) (-9585271007517386,16) (-2678201511537372,16) (9745852328275673,17) (6716709784412938,16) (-4831789269360046,16) (-5616014790620536,16) (3176569706508607,16) (-1282593716231725,16) (9394911295950309,16), (2095131267472723,18));
  (AB60 (-3999661602299208,16) (-8657411214002712,16) (3008643903613956,16) (4263707440754073,16) (8494221911249641,16) (-310950043931575,15) (-9744278158086804,16) (-1631893027530708,17) (-2241073945522415,16) (7109162041614958,16) (-6735634254472848,16) (-2022633495231658,16) (6634777718771053,16) (-1758587656776793,16) (7272351344368029,16), (2039687451710804,18));
  (AB60 (-362537697876679,15) (-8718922598509746,16) (329196453246748,15) (428747119114578,15) (8309725871504939,16) (-3544862017841663,16) (-9820041918522543,16) (-4091967270048074,17) (-1843728493316914,16) (7170238996608453,16) (-6528077386055062,16) (-2443742697828867,16) (6275179900680879,16) (-1781648485449876,16) (757943572361326,15), (2080404475018625,18));
  (AB60 (-3241637804270983,16) (-8755113129671265,16) (3583263656581669,16) (4289682310160428,16) (8107386003308998,16) (-3983581036108848,16) (-9876388308998144,16) (-6477271263622658,17) (-1427376453378459,16) (7225218840379831,16) (-6293124652416474,16) (-2862305856781969,16) (5892807272889296,16) (-1814261350892524,16) (7872945966742096,16), (208600252228762,17));
  (AB60 (-2849768230966953,16) (-8770149098394062,16) (3868243247484484,16) (4280451226662059,16) (7885938379927967,16) (-4414715524713495,16) (-990994810094378,15) (-8842107184660952,17) (-1005534704498281,16) (7264483755680448,16) (-6041704853459295,16) (-3274916522163778,16) (5495232576230284,16) (-1844233526468671,16) (8148694474146543,16), (2075982384713415,18));
  (AB60 (-2450459382997821,16) (-87684504821118,14) (4136366153404612,16) (4268408784289466,16) (7644895962286042,16) (-4830761034870499,16) (-9919242124437828,16) (-1123554519825759,16) (-5884393917449959,17) (728122041786832,15) (-5782875971033217,16) (-3679969392544471,16) (5088481089567329,16) (-1862019991252825,16) (8404774937694078,16), (2055528690027621,18));
  (AB60 (-2040761482835833,16) (-875518914765742,15) (437972094532465,15) (4262606357097548,16) (7382013497633942,16) (-5228390169562889,16) (-9903587261746378,16) (-1373175650023476,16) (-1826143016236179,17) (7269151652398722,16) (-5523866316421727,16) (-407999205547393,15) (4675197092183489,16) (-1858147181212215,16) (8642327302422198,16), (2036786601068465,18));
  (AB60 (-1617606826594156,16) (-8733183926981966,16) (4595089406318428,16) (4267881509136813,16) (7095224093647265,16) (-5607404255526386,16) (-9862706914724286,16) (-16379598333347,14) (2099997586472514,17) (7225011082120542,16) (-5267617508405859,16) (-4477881267784064,16) (4255302659197901,16) (-1827606585241407,16) (8862970915455242,16), (2047096717982301,18));
  (AB60 (-1184664669906563,16) (-869758284537951,15) (479047202973102,15) (427517480139381,15) (6787542541544486,16) (-5970941857383242,16) (-979780986239826,15) (-1910040303835025,16) (5955400389706827,17) (7155606527289804,16) (-500733783266724,15) (-4870714840364492,16) (3826868005015018,16) (-1780204708877245,16) (9065646831124829,16), (2087278130257648,18));
  (AB60 (-7474189444227432,17) (-8640709493970972,16) (497790160231376,15) (4270564867178177,16) (6463285566382503,16) (-6323623597480724,16) (-9710396780980761,16) (-2177423927588469,16) (983371443292759,16) (7071042541903467,16) (-4732495178667001,16) (-5253936310470936,16) (3386773183500036,16) (-1730790387715502,16) (9248466469491937,16), (2108362139589115,18));
  (AB60 (-3091865738931792,17) (-8555728836801632,16) (5167582387697868,16) (4242394928621829,16) (6124872388744272,16) (-6669934294369159,16) (-9601065127850813,16) (-2430856448057359,16) (1382203074698149,16) (6979120868262338,16) (-4433482740152945,16) (-5624598003319978,16) (2931130833481654,16) (-1691389648591328,16) (9409977316319698,16), (2089862212737911,18));
  (AB60 (-3674358388320333,16) (-8521483197317069,16) (372604543075133,15) (3895562823119282,16) (8384771338149108,16) (-3810538006382318,16) (-9892486624700862,16) (-1367118591679601,17) (-1456028244120757,16) (7484896394702651,16) (-6166441193949532,16) (-2439534578998525,16) (6081948618318544,16) (-2218330144199576,16) (7621608253870612,16), (2100816536090008,18));
  (AB60 (-3283390087937346,16) (-8549985441617604,16) (4014610626021137,16) (389515487458157,15) (8171894010351145,16) (-4248283981398903,16) (-9939012173272492,16) (-378091431266458,16) (-1035897624837556,16) (7531674069336248,16) (-5924401547251356,16) (-2859257249744014,16) (569072819187359,15) (-224749246309979,15) (7909765500602707,16), (2094652542180355,18));
  (AB60 (-2883306938786572,16) (-8557797489395145,16) (429542119322976,15) (3884702162640793,16) (7938901204881426,16) (-4677920132570264,16) (-9962105044039068,16) (-6188962845137188,17) (-6110895847144535,17) (7561227071356835,16) (-5666683850809308,16) (-327361257792634,15) (5284184911468804,16) (-2272217354072118,16) (8180123355870553,16), (2080963092042437,18));
  (AB60 (-2471870919792639,16) (-8550736939996642,16) (4557932858090426,16) (3874874947724547,16) (7683632764381716,16) (-5093832710407408,16) (-9960508050049289,16) (-8671041756149257,17) (-1908133473697867,17) (7565703630200047,16) (-5402575191958864,16) (-368406160035476,15) (4866675339641882,16) (-2281057572422853,16) (8432807805814974,16), (2070137446722313,18));
  (AB60 (-2048198643297842,16) (-853280704096649,15) (4795423476526924,16) (3872545978965892,16) (7405298380238322,16) (-5492262151466806,16) (-9933825832762305,16) (-1127508660728168,16) (2186973807050991,17) (7540460794764648,16) (-5138402356235381,16) (-4091243359670991,16) (4441563681295499,16) (-2266896024002941,16) (8667969455492817,16), (2073671006000187,18));
  (AB60 (-1616972167943626,16) (-8502619916347143,16) (5009077316855131,16) (3874553471282284,16) (7107357938517566,16) (-5871396642364212,16) (-9882974546789179,16) (-1395261977829577,16) (6164885406398901,17) (7488368810307838,16) (-4873897229934049,16) (-4491042011922174,16) (4011577904424968,16) (-2233460708583517,16) (8883630788137415,16), (2094524536210485,18));
  (AB60 (-1182575195905477,16) (-8456187985310629,16) (5205228204710844,16) (387314985272905,15) (6793321398124577,16) (-6232936274348365,16) (-9809249722762045,16) (-1662866587186052,16) (10067246841679,14) (7415511470253843,16) (-46040215180512,14) (-487987453689695,15) (3576313448413679,16) (-2189299880073377,16) (9078378057439894,16), (2110280471430359,18));
  (AB60 (-7470778948066645,17) (-8391381809676122,16) (5387632684521834,16) (3864094382438748,16) (6464959676825678,16) (-6578227039303473,16) (-9713446598194818,16) (-1926422132850444,16) (1392067868346029,16) (7325304934110137,16) (-4325813913672985,16) (-5256162250784776,16) (3135219558891346,16) (-2139145763152693,16) (9251727066960581,16), (2086648471410268,18));
  (AB60 (-3127280208353862,17) (-8302183052422696,16) (5565604886178118,16) (38371664636772,14) (6123960303489702,16) (-6911820580086938,16) (-9596047895966072,16) (-2178222748932994,16) (1780789272866362,16) (7224548600922324,16) (-4030443009787953,16) (-5617955736543562,16) (2684227315879134,16) (-2093517293701748,16) (9402771349855319,16), (2030373753607541,18));
  (AB60 (-3300787290548249,16) (-832778676813639,15) (4444408937868746,16) (3495117184422541,16) (8207684288691919,16) (-4518636352298565,16) (-9979524857483779,16) (-120102479444472,16) (-6282189214713643,17) (7819423642846814,16) (-5535115919615033,16) (-2866898262951176,16) (5460888505185214,16) (-2672568369076885,16) (7939526122291286,16), (209193044912561,17));
  (AB60 (-2890172610128897,16) (-8329630851514435,16) (4718490453647188,16) (3486455235714619,16) (796110792200143,15) (-4946250149719906,16) (-9991170595775464,16) (-3685229295130043,17) (-201744830255743,16) (7836422759848802,16) (-5272680142128277,16) (-3284710405458877,16) (5044920446055557,16) (-2688427779873154,16) (8204945689361807,16), (2082481807368398,18));
  (AB60 (-2468425251079634,16) (-8316340903729788,16) (4974469896660676,16) (3478040821874715,16) (7692364165407302,16) (-5360108729133271,16) (-9978081422391097,16) (-6239767383224856,17) (2203273885972453,17) (7828533980212905,16) (-5003611525730421,16) (-369836821047196,15) (4617972693257827,16) (-268875263967688,15) (8452510718535391,16), (2084420554219168,18));
  (AB60 (-2040697836393331,16) (-8289235676253626,16) (5208082588060954,16) (347148092660809,15) (7404963095972297,16) (-5754593097994385,16) (-9940784138328494,16) (-8842725802813284,17) (6315637093114247,17) (7795290934387715,16) (-4732701550267541,16) (-4103044635919515,16) (418619104033411,15) (-2672261545704755,16) (8679563514669044,16), (2097197601487661,18));
  (AB60 (-1610400816415413,16) (-8248247432901561,16) (541968850545134,15) (3465486874273575,16) (7101741197089163,16) (-6128268327497103,16) (-988045781978022,15) (-1146506235812398,16) (1030571066344871,16) (7738669143912517,16) (-446076931432888,15) (-4496057940618445,16) (3752189492283116,16) (-2640971882760283,16) (8885175379724914,16), (2107610303967554,18));
  (AB60 (-1178786632704492,16) (-8193271309864487,16) (5610772435013621,16) (3458844409450538,16) (678411810752191,15) (-6481677009417092,16) (-9798147048959573,16) (-1409153202342576,16) (1417956860871467,16) (7660463642121583,16) (-4187374613945952,16) (-4876801270322005,16) (3316470039542482,16) (-2596743493575959,16) (9069616844464159,16), (2090894006764175,18));
  (AB60 (-7477925740777537,17) (-812619657736171,15) (5779769498191861,16) (3453265767963812,16) (6454122187888391,16) (-6813168302604601,16) (-9695196493470499,16) (-1672074389473318,16) (1790902618532,13) (7560960876682354,16) (-3915426995278637,16) (-5244168386495812,16) (2882028190865897,16) (-2538695192609754,16) (9233035266155674,16), (2018444185497478,18));
  (AB60 (-3202988786844663,17) (-8037691464489624,16) (5940784842929772,16) (343325877205694,15) (6113776444770187,16) (-7129829716582808,16) (-9571999208572191,16) (-1923915019719437,16) (2162263200443302,16) (7450128595267275,16) (-3631214365642419,16) (-5595521972500241,16) (2442169491989383,16) (-2482562079127768,16) (9374043614986711,16), (1936293247473497,18));
  (AB60 (-2880041451453462,16) (-8085002295140634,16) (513206577563855,15) (3084889615506542,16) (7958399167222816,16) (-5210310811773813,16) (-9996918897151913,16) (-1266031279178175,17) (213504594255992,16) (8090352263227275,16) (-4864853121513362,16) (-3298394209762534,16) (47866080853781,14) (-3093546045709454,16) (8216955391145092,16), (2085793530265236,18));
  (AB60 (-245676993409127,15) (-8061120847977986,16) (5383550145140272,16) (307062502625062,15) (7681737536856309,16) (-5618021926177945,16) (-9972542493198137,16) (-3793833111216779,17) (6359752547071751,17) (8074791860269215,16) (-4588992348057864,16) (-3706600280957795,16) (4354520567020191,16) (-3092745188798445,16) (8454175171390892,16), (2096265406790896,18));
  (AB60 (-2031029839544839,16) (-8022540990953329,16) (5613711235836063,16) (3055893645330864,16) (7389140325137993,16) (-6005174375806753,16) (-9924850354170883,16) (-633400665815335,16) (1046971367258334,16) (8036204215351592,16) (-431113911833482,15) (-4102865012589199,16) (391967597836413,15) (-3078001206803173,16) (8669604881166928,16), (210502427462876,17));
  (AB60 (-1603453168907274,16) (-7972270563653061,16) (5819951889408719,16) (3044232146169398,16) (7081820185428758,16) (-6370280488446538,16) (-9855172593331538,16) (-8904503782243041,17) (1443146312598664,16) (7973733657353812,16) (-4035220703922819,16) (-4487378458768062,16) (3484892104885,13) (-3046599481505938,16) (8864184035578117,16), (2094139889858172,18));
  (AB60 (-1176135566450377,16) (-7913342454776959,16) (599964301627647,15) (3038761142363117,16) (6762176540548038,16) (-671110267796029,15) (-976529591408353,15) (-1151165914228921,16) (1820388076290602,16) (7887238244410667,16) (-376565289780706,15) (-4859149218653718,16) (305419323612324,15) (-2996523642740978,16) (9038404158639587,16), (2034774336307247,18));
  (AB60 (-751900318828856,16) (-7851357376468289,16) (6147424928986288,16) (3045819105386746,16) (6433637598943597,16) (-7023623938019486,16) (-9657943987561148,16) (-1417719777524691,16) (217121822153988,15) (7775524256848342,16) (-3510519058574861,16) (-5217037326926626,16) (2634320049541662,16) (-2923118540368736,16) (9193244034373033,16), (1914044705920163,18));
  (AB60 (-3334090356588015,17) (-7764981846782937,16) (6292368022777476,16) (303278920557489,15) (6096673153217328,16) (-7323439499127955,16) (-953121534454583,15) (-1668308693565609,16) (2524416795790172,16) (7656848534786757,16) (-3238847321768354,16) (-5557206001365061,16) (2207775845417875,16) (-2857825831448974,16) (9325157228352365,16), (185677854272943,17));
  (AB60 (-2446061313703267,16) (-7783210689997297,16) (5782595905362578,16) (2649577251109866,16) (7657430923427723,16) (-5860332076199602,16) (-9943922186907281,16) (-1257797665695743,17) (1050043328179751,16) (830639338990287,15) (-4161326281544704,16) (-3699620579289618,16) (4083590110707679,16) (-3496104641883018,16) (8432173156472443,16), (2102855578679364,18));
  (AB60 (-2021984504706769,16) (-773449639258446,15) (6007424091557354,16) (2628799404436674,16) (7359464159671519,16) (-6239206758374318,16) (-9885878644628433,16) (-3750322329129404,17) (1459025101893672,16) (8261191263081087,16) (-3878454553071078,16) (-4087824506330345,16) (3646671886254115,16) (-3481009606600441,16) (8636223495994028,16), (2099815560526889,18));
  (AB60 (-159673821570934,15) (-7678102960800527,16) (6204608125727163,16) (2615992472762529,16) (7048169186763634,16) (-6593928608743459,16) (-9807439086933926,16) (-6299337740368928,17) (1848600009847532,16) (8190666824452799,16) (-3602830961206762,16) (-446459248261006,15) (3213510478190466,16) (-3445338225556872,16) (8820600598489692,16), (2060383986314141,18));
  (AB60 (-1173735974886118,16) (-7621814993798756,16) (6366339612490258,16) (2620303688570791,16) (67277869797134,14) (-6918879312089578,16) (-9712052027359164,16) (-8940280140853549,17) (2208338589958377,16) (8092615286975695,16) (-3345712414868905,16) (-4828642278529169,16) (2793172715269586,16) (-3382074564844495,16) (898664330106105,15), (1948858373654789,18));
  (AB60 (-7555912851242662,17) (-7569718994348089,16) (649064219907784,15) (2645219661626516,16) (6401864431563415,16) (-7212416012795416,16) (-9602842956514365,16) (-1167854562784674,16) (2534072389002623,16) (7968007297919683,16) (-3112200757436526,16) (-517929205062914,15) (2390426943718949,16) (-328966367412689,15) (9135861860704356,16), (1833068936441355,18));
  (AB60 (-3438623541201785,17) (-7477740501380109,16) (6630622570727314,16) (262804854862978,15) (6066035796539897,16) (-7503104060396703,16) (-9471189741654916,16) (-1411704704840212,16) (2881606271492115,16) (7846966414516882,16) (-2840567170927603,16) (-5509654820121895,16) (1968085681258214,16) (-3225468625612294,16) (9258671119357094,16), (1843878967855074,18));
  (AB60 (-2016036373676238,16) (-7428373163091434,16) (638395406389154,15) (2194713596809983,16) (7317944566179331,16) (-6452202690113182,16) (-9824646662189523,16) (-1104285969121036,17) (186121559420511,15) (8468239063789421,16) (-3440692598297982,16) (-4055929191015094,16) (3372443972076341,16) (-3877251967881348,16) (8578667660701524,16), (2083375361437628,18));
  (AB60 (-1591926439039819,16) (-7370462314878967,16) (6568261221787314,16) (2186766334785445,16) (7002831041443727,16) (-6795469844097699,16) (-9738892203488955,16) (-3676312734352414,17) (2240273620702267,16) (8387396283137517,16) (-3170630981701641,16) (-4427039955487713,16) (2943422359391255,16) (-3832200059742086,16) (8755027556572759,16), (2010428425089087,18));
  (AB60 (-1170411698364063,16) (-7324757599170545,16) (6706568613659738,16) (2210891965366401,16) (6681705429539535,16) (-7103996711031065,16) (-964081478944562,15) (-6430521696310101,17) (2577047555389591,16) (8274408409395129,16) (-2934246175785881,16) (-4787939520755991,16) (2536818078414554,16) (-3747459253753653,16) (8917460579026139,16), (1864896875399533,18));
  (AB60 (-7545944091410459,17) (-7275064984264679,16) (6819385364709861,16) (2242776028812399,16) (6355318161874913,16) (-7387820161991449,16) (-9528526386092071,16) (-9197468223897652,17) (2891582731351658,16) (8142414571132495,16) (-2709141021382209,16) (-5134358760164057,16) (2140706224100622,16) (-3646177140492704,16) (906216139352226,15), (1842356703547528,18));
  (AB60 (-3423609881689429,17) (-7168212699209902,16) (6964159364393228,16) (2211330847203306,16) (6013125802377566,16) (-7678042326595255,16) (-9387080938706941,16) (-1155086896832336,16) (3247843239894909,16) (8020403314764197,16) (-2422921574313713,16) (-5459174087098215,16) (1709038612111686,16) (-3590204228063852,16) (9175490211596533,16), (1892108673172616,18));
  (AB60 (-1601832667753077,16) (-7056837883566791,16) (6901823758223302,16) (176319637876216,15) (6957109625612362,16) (-6963459211277957,16) (-9655007169946781,16) (-9972825795442859,18) (2602093546135806,16) (8565291879031034,16) (-2753183411723479,16) (-4365289924897966,16) (2691547958668825,16) (-4203926213888884,16) (8665020136985462,16), (1927373681396,15));
  (AB60 (-1182064990548733,16) (-7023387314376549,16) (7019597779814282,16) (1806962634965688,16) (6637179330637124,16) (-7258287440491813,16) (-955711675585041,15) (-3862079837394242,17) (2917595364052263,16) (8440352431040546,16) (-2537518976036128,16) (-4724557999017951,16) (2298829315358598,16) (-4099660354600996,16) (882656041477997,15), (1841548338104647,18));
  (AB60 (-7629736371868065,17) (-6960728181038671,16) (7139056969842166,16) (182604708661303,15) (6303712656755673,16) (-7545114894985391,16) (-9436647696756772,16) (-6570155242829984,17) (324314829265426,15) (8308088532172196,16) (-2297590726914607,16) (-5069195379267289,16) (1891532801771382,16) (-4006121929841067,16) (8965104056455195,16), (192588853539189,17));
  (AB60 (-3382353675538161,17) (-6840873143696631,16) (7286154779304782,16) (1786784763288569,16) (5945620382749431,16) (-7839451414092335,16) (-9281980495938923,16) (-8952527609471994,17) (3611559298561474,16) (8177686781646152,16) (-1995825716634141,16) (-5398344061850043,16) (1442529081846587,16) (-394979466611529,15) (9072939542593351,16), (1975949163418669,18));
  (AB60 (-1200752388927325,16) (-6707081395967344,16) (7319375167892002,16) (1395402353832766,16) (6586781101746807,16) (-7393724838576906,16) (-9456883310154488,16) (-120300294220537,16) (3248520570556996,16) (8594477227504231,16) (-2137508142262486,16) (-4643922924389762,16) (2063158471577582,16) (-4449272959484321,16) (8714777521724768,16), (191316378232689,17));
  (AB60 (-7730421628234127,17) (-662622968907167,15) (7449529241647586,16) (1397084640586212,16) (624055022739056,15) (-7687892257729275,16) (-9324380213595398,16) (-3856794616811105,17) (3592657092619335,16) (8460934420552688,16) (-1874850971947812,16) (-4989741733205548,16) (1636487955866123,16) (-4365699255442748,16) (8846613882233798,16), (1999827537974612,18));
  (AB60 (-3400608831889982,17) (-6497446096557358,16) (7593915512965381,16) (1354501963639823,16) (5870487029254582,16) (-798139752611343,15) (-9158586660660313,16) (-6269590673027764,17) (3965754998370651,16) (8321458409302428,16) (-1564671147694932,16) (-5320256962010474,16) (1177189134546883,16) (-430581588155965,15) (8948417476605205,16), (2023692811361172,18));
  (AB60 (-7827163748483952,17) (-6273907100741118,16) (7747608971019018,16) (9600203185160058,17) (6164327237215138,16) (-7815333051160648,16) (-9191374612742434,16) (-10957986352598,15) (3937845220643326,16) (8598049426009043,16) (-1443765641723417,16) (-4897865539159332,16) (1376041561581787,16) (-4720561595491721,16) (8707629289535023,16), (2022050549395,15));
  (AB60 (-3511381258774023,17) (-6139920620267958,16) (7885307653691366,16) (9161386507951766,17) (5790731092207242,16) (-8101118650548424,16) (-9018461601024716,16) (-3491895280607164,17) (4306439018996489,16) (8452256776425826,16) (-113315394733335,15) (-5222577669791666,16) (9173429504762923,17) (-4657577144873892,16) (8801446304486543,16), (2012810920846318,18));
  (AB60 (-3724975180806184,17) (-5772588588936327,16) (81571114116399,14) (4764585007150354,17) (5708337168164419,16) (-819682097350241,15) (-8863786039253736,16) (-6425142077190723,18) (4629165022469965,16) (8569318491583029,16) (-7066746276138361,17) (-5105623523185,13) (6669650657513264,17) (-5001662540550583,16) (8633569912354936,16), (1956469008982908,18))].

(** ahrens_beylkin/ahrens_beylkin_6912.hpp:1-13842. *)
Definition ab_6912 : coded := [  (AB12 (5257311121191336,16) (8506508083520399,16), (1538167585480575,18));
  (AB60 (-1127199143401744,16) (-9488712357711516,16) (2948518252228928,16) (5853946734653706,16) (6567421690076108,16) (-4753975175845483,16) (-9499112369594678,16) (-2921290667635407,16) (-1110371570691385,16) (5881174319247227,16) (-655059411736575,15) (-4743575163962321,16) (4745137193749195,16) (-1682757271035902,18) (8802464986882634,16), (1918031968397247,18));
  (AB60 (-8001412637851618,17) (-9426598991083291,16) (3240216878435109,16) (5758913095316299,16) (6361909456741481,16) (-5134299175624436,16) (-9493644470571934,16) (-306468953434181,15) (-6916593991805053,17) (5934440439409597,16) (-6253427592136824,16) (-5067253696135794,16) (4359345294947498,16) (-1084818646046565,17) (8999129973751407,16), (1789052068687636,18));
  (AB60 (-4853368317092959,17) (-934821834258163,15) (3517849055773534,16) (565396564939511,15) (6153830058019614,16) (-5492089588897332,16) (-9471769363157176,16) (-3194388284562016,16) (-2854270810733242,17) (5977426420606627,16) (-5953920307383642,16) (-5368538568321785,16) (3979679774259845,16) (-1999097506359717,17) (9171814705168644,16), (1654245310951276,18));
  (AB60 (-1497428620949287,17) (-9266571723153801,16) (3756091795323698,16) (557249501679024,15) (5915126578985371,16) (-5827398805850579,16) (-9421132990461292,16) (-335144514416843,15) (1003425217528487,17) (5977141667945508,16) (-5665041195137595,16) (-5672837538543088,16) (3593734184610713,16) (-2500853838477774,17) (9328586812113938,16), (1604589504356033,18));
  (AB60 (-324716302248859,15) (-9324210190503566,16) (1585886701089403,16) (5747072595241856,16) (777918110574082,15) (-2540767189079922,16) (-9339816411241045,16) (-1545029084762746,16) (-3221911626899414,16) (5787930211568512,16) (-7753929710151642,16) (-2525160968342442,16) (6799049222161123,16) (-2525139558917669,18) (7332959296331258,16), (173389910128734,17));
  (AB60 (-2940959883208658,16) (-9367603306297501,16) (1897040658816111,16) (5721223358263132,16) (7649305981033939,16) (-2959006808607025,16) (-9435877184452115,16) (-1718297325263561,16) (-2830490427810722,16) (5899966691815682,16) (-7538836525636003,16) (-289073293045241,15) (647687037584509,15) (-1104694553979355,17) (7618264017079244,16), (1881602628228305,18));
  (AB60 (-2610106636709008,16) (-9397295751996595,16) (2208659297971133,16) (569167500767326,15) (7492781760084043,16) (-3385713677022832,16) (-9513468921392234,16) (-1904513991912552,16) (-2422134500046066,16) (599582031373184,15) (-7304809623421101,16) (-3269540507627194,16) (6127755244369402,16) (-1879721366629419,17) (7900334305644393,16), (1938141309728959,18));
  (AB60 (-2265733566738903,16) (-9409595818139307,16) (2515145710253756,16) (5654799895099174,16) (7315037637084848,16) (-3809653857559568,16) (-95702459590491,14) (-2094558181054459,16) (-2005796178449399,16) (6075387424298471,16) (-7055100248795344,16) (-3649003716649776,16) (5760592101489532,16) (-2599373882895039,17) (816994560535293,15), (1960363605740209,18));
  (AB60 (-1914409001653787,16) (-940291270792546,15) (2814297564494707,16) (5608382479393104,16) (7119911545141909,16) (-4225269879450473,16) (-9605849875278604,16) (-2283001162783551,16) (-1586049767295774,16) (6139678881104259,16) (-6791552310783897,16) (-4022332712097329,16) (5380579995828131,16) (-3283592343580122,17) (842268004388781,15), (1956719193245211,18));
  (AB60 (-1565044049149847,16) (-9375659521880551,16) (3106065944887714,16) (554840970609812,15) (6913804156267465,16) (-4627576236222901,16) (-9621726067251201,16) (-2461855365613086,16) (-1166900015245868,16) (6192620285372747,16) (-6515660122363486,16) (-4381509690852252,16) (4994149831028299,16) (-3981440339039787,17) (8654475650985834,16), (1919652435383098,18));
  (AB60 (-1228243925099016,16) (-9327117366590943,16) (3390619189808107,16) (5470938617104341,16) (6704987843042887,16) (-5011184358265374,16) (-9620654299099219,16) (-2622129523548057,16) (-7532911913472425,17) (623942828336439,15) (-6230035109291112,16) (-4717647425757098,16) (4609469940833846,16) (-4749527337517739,17) (8861557806912447,16), (1830525704913683,18));
  (AB60 (-9056195335465828,17) (-9261016468306663,16) (3662434604769298,16) (5381250579357891,16) (6494924360891037,16) (-5371973543164981,16) (-9603388836734803,16) (-2766092107415626,16) (-351649404621051,16) (6277593076711563,16) (-5940954231965505,16) (-5029601174736841,16) (4231415293569823,16) (-5539701289255318,17) (9043685184127189,16), (1704617482553116,18));
  (AB60 (-5820351294437705,17) (-9185887263900661,16) (3909054909182141,16) (5297152703995605,16) (6271784341875661,16) (-5710069561708976,16) (-9565925105820441,16) (-2914102922024999,16) (3287901579359212,18) (6292104691152746,16) (-5656870196638299,16) (-5330031719789197,16) (3855855544111465,16) (-6149141452373626,17) (9206207613177746,16), (1622605425211922,18));
  (AB60 (-2448202306520683,17) (-9103983915169463,16) (4130077472275691,16) (5224585355912137,16) (6026319811767363,16) (-6032178494133659,16) (-9505970051864394,16) (-30776641034021,14) (4056070015265913,17) (6276998724785727,16) (-5375892579588704,16) (-5630192357438728,16) (3473791557730735,16) (-6504272321786596,17) (9354662828187827,16), (1671024847189319,18));
  (AB60 (-5054408028945,13) (-862183105975903,15) (3420360418301162,17) (5242291851610573,16) (8505712471415448,16) (-4138012761521072,17) (-8708123848339062,16) (-1161185883435819,17) (-4914783364038499,16) (5468209305097107,16) (-8366087806508946,16) (-3275084875720746,17) (8294322572186955,16) (-1396246649065016,17) (5584327893440689,16), (1715749248685255,18));
  (AB60 (-4817339621343624,16) (-8736501930806226,16) (683207864161372,16) (5237734790660139,16) (8476683427462354,16) (-843784530134014,16) (-8898222276163419,16) (-2598185033438733,17) (-4555670605883316,16) (5661124151477638,16) (-8215014412002046,16) (-6820641847768223,17) (8054437746029405,16) (-2616690154603072,17) (592094265482151,15), (1810465858610633,18));
  (AB60 (-4586559796258809,16) (-8824766166127609,16) (1042579180931488,16) (5200771286555674,16) (844516258884342,15) (-1277187093944165,16) (-9078000313008899,16) (-3796035772841889,17) (-4176818339492799,16) (5863746890202973,16) (-803542113207741,15) (-1023952947062875,16) (7800813219064734,16) (-4097414567660098,17) (6243350467487162,16), (1815590526083244,18));
  (AB60 (-4322420218164089,16) (-8909781243299383,16) (1390137278888967,16) (5177394498305294,16) (8381378078665144,16) (-1716708394395933,16) (-9238934385679404,16) (-5284031646342389,17) (-3789839246289382,16) (6039128612560022,16) (-7848797106790436,16) (-1387555252015912,16) (752222599128347,15) (-5325809718747071,17) (6567531777194261,16), (1822135610614992,18));
  (AB60 (-3951371596736627,16) (-9042742739346676,16) (1617240320575765,16) (5286071417122156,16) (8217852885570041,16) (-2127050287184657,16) (-9345393686662099,16) (-8248898537766362,17) (-346167207725292,15) (6078421883921284,16) (-7728153366086333,16) (-1824399339869235,16) (7218343399477442,16) (-4896995194837066,17) (690331173769792,15), (1169045240572648,18));
  (AB60 (-3650711917045716,16) (-9147325596932002,16) (1731686150101393,16) (5406366762013984,16) (8062271230228185,16) (-2402286628365844,16) (-9394316959983916,16) (-1085054366703817,16) (-3251071496700054,16) (605299854541156,15) (-7662630809882524,16) (-215529526531393,15) (6992030331618072,16) (-3996404203456619,17) (7138052912115377,16), (1519921811256369,18));
  (AB60 (-3360283377601607,16) (-9197826098462013,16) (2026941213914555,16) (5389342348409364,16) (7943798689324938,16) (-2801972775585237,16) (-9493052901513009,16) (-1254027409137075,16) (-2882596375875123,16) (6162256153186845,16) (-7466111687598455,16) (-2506745972534241,16) (6691080125927772,16) (-4776870017264834,17) (7416283562323919,16), (1859476491070166,18));
  (AB60 (-3040232622306404,16) (-9233458088620388,16) (2345258477855837,16) (5357911724469004,16) (7801053628468559,16) (-323053311986661,15) (-9582137296616421,16) (-1432404460151827,16) (-2476057812598427,16) (6270765742173015,16) (-7236878818760584,16) (-2881853911870577,16) (635160417674981,15) (-5641748097079761,17) (7703170202324842,16), (1922158105625508,18));
  (AB60 (-2704605542611181,16) (-9253814730722418,16) (2655564306949024,16) (5322942150729622,16) (7635593712917109,16) (-3655679897262154,16) (-9650044609173708,16) (-161822101780531,15) (-2063492131918756,16) (6360285439873336,16) (-6994480302224684,16) (-3259450018810865,16) (5994364711911553,16) (-641113410692425,16) (7978506457678646,16), (1939466443753068,18));
  (AB60 (-2361439942958747,16) (-925664759563648,15) (295602379658831,15) (5281048243945694,16) (7452230431790213,16) (-4071214933728991,16) (-9696522187674123,16) (-1804417163846267,16) (-1649707902254346,16) (6432654876687738,16) (-6740498391085813,16) (-3631340341691348,16) (5625307253945132,16) (-7117320407044005,17) (8237072040534005,16), (1926195586093919,18));
  (AB60 (-2020072174945338,16) (-9240906843126758,16) (3244217798586381,16) (5229705148310032,16) (7257244574174991,16) (-4470188502999308,16) (-9722396210740556,16) (-1983662268951766,16) (-1241006012924521,16) (6490260677944646,16) (-6478178412154174,16) (-3988699135385511,16) (5252207707741248,16) (-7790661620208172,17) (8473922946896413,16), (1872601853381043,18));
  (AB60 (-1690981496001497,16) (-9206943589342202,16) (3517495035227635,16) (5167284292977466,16) (7058470305624728,16) (-484532454848613,15) (-9729863367081171,16) (-2148473283717474,16) (-8448795222303056,17) (6536306044487628,16) (-6212368331853536,16) (-4322404770747161,16) (4884538818595042,16) (-8461019737711918,17) (8684779328205101,16), (1772494389512857,18));
  (AB60 (-1377534175694446,16) (-9157193104940999,16) (3774680653196353,16) (5095303045450315,16) (6859485581115591,16) (-5194741999126814,16) (-9721346639890405,16) (-2297707523825408,16) (-4647145812729059,17) (657227617482126,15) (-5946665986694052,16) (-4630588464177409,16) (4526604640763591,16) (-9128195944215399,17) (8869983698646667,16), (1677437199069349,18));
  (AB60 (-1062669995941305,16) (-909421920477734,15) (4020685207173664,16) (5018652195490836,16) (664928774656616,15) (-5531735948512015,16) (-9696103578980939,16) (-2444931458211179,16) (-8880062118242011,18) (6594405944453321,16) (-5675418371807275,16) (-4929851574308416,16) (4164367630468924,16) (-9738693747588849,17) (90393374026645,14), (1678359655260569,18));
  (AB60 (-7241378521390036,17) (-9017067650335558,16) (4262407226013427,16) (4939986452962205,16) (6411529923603133,16) (-5872718100104202,16) (-9649935484137881,16) (-2605537726732426,16) (2998638133396737,17) (6596855952243205,16) (-5387528258124455,16) (-5239850266301879,16) (377721738403368,15) (-1024001665478677,16) (9202393678975631,16), (1763758729383989,18));
  (AB60 (-3597950047393964,17) (-8922452181859308,16) (4501154809268245,16) (4856655271032199,16) (6143239694631454,16) (-6218802588333192,16) (-958017562221182,15) (-2779212487227855,16) (7044238769484816,17) (6578597593072588,16) (-5079020812943575,16) (-556107914798068,15) (3361373033878628,16) (-1064218881687878,16) (9357810080300444,16), (1865953071899312,18));
  (AB60 (-5026043428127996,16) (-8582196420460897,16) (1041533513238793,16) (486924316283924,15) (8679104313854349,16) (-9816411413434885,17) (-9017042343594175,16) (9690789339345172,18) (-4322447944629029,16) (6007684569471485,16) (-7975508830355381,16) (-5467952182102109,17) (8035401202250686,16) (-7035954834989672,17) (5910776676078033,16), (1788126282644028,18));
  (AB60 (-4788860357890556,16) (-8667857684866617,16) (1391064206829815,16) (4837072834188998,16) (8638060735832381,16) (-1409479734094022,16) (-9187815509572164,16) (-2979694903423605,18) (-3947550924800523,16) (6198340091984578,16) (-7796751302742347,16) (-8895219093884756,17) (7778335775478141,16) (-8413094330900332,17) (6228137041018814,16), (172733729834544,17));
  (AB60 (-4541078225995865,16) (-8748268520970914,16) (1687129642432858,16) (4830662738985666,16) (8569295449327632,16) (-1797741083779377,16) (-9324333070656046,16) (-1789730716432824,17) (-360898620489142,15) (6338819309775242,16) (-7637203428223187,16) (-1221676534094246,16) (7526591986876668,16) (-9320920211044448,17) (6517792381418525,16), (142030800648475,17));
  (AB60 (-4155062540189586,16) (-8907867608124516,16) (1839932053973539,16) (5002665314018758,16) (8384020284939397,16) (-2163687504617593,16) (-9410567243210937,16) (-5238473231851186,17) (-3341677444487587,16) (6318750044807179,16) (-7570635189237398,16) (-1660987869531172,16) (7246879738593344,16) (-8133850957019989,17) (6842597367992297,16), (1623690020998827,18));
  (AB60 (-3802550489262236,16) (-9002323714648552,16) (2121032181106125,16) (504746406031142,15) (823292481468415,15) (-2596546852190906,16) (-9518601687719149,16) (-7693988999644022,17) (-296719518119111,15) (6399097341453143,16) (-7397569506613024,16) (-208026887912031,15) (6922054835528243,16) (-8353553080711269,17) (7168496241417545,16), (1908519356656145,18));
  (AB60 (-3485632869298413,16) (-9047882004211772,16) (2446670132716559,16) (5019435445383185,16) (8099939880159237,16) (-3032530584748795,16) (-9620345163629983,16) (-9479421240525356,17) (-25593680200526,14) (6518163454047208,16) (-7173675030913425,16) (-2460067425330585,16) (6587814578881188,16) (-9262648492458132,17) (7466105578099744,16), (1914707348795547,18));
  (AB60 (-3162183053583565,16) (-9075657599053114,16) (2762795229541702,16) (4983795315109464,16) (7949839307106545,16) (-3458589199121033,16) (-970092715041474,15) (-1125818291946568,16) (-2150475667350057,16) (6620772252704599,16) (-6938131920873037,16) (-2833319647759407,16) (6242337951293706,16) (-1011707386233508,16) (7746590544651166,16), (1895206913337236,18));
  (AB60 (-2835992622658625,16) (-9088315250551958,16) (3059358061883334,16) (4946552540668383,16) (7783917485928736,16) (-386552021526987,15) (-9758650435198702,16) (-1304397764623222,16) (-1751367510045257,16) (6701512837928495,16) (-6699292373315369,16) (-3195185030623126,16) (5893130219928832,16) (-1084625112613368,16) (8005910602551717,16), (1833042534847322,18));
  (AB60 (-2518674930277086,16) (-9084761364415028,16) (3335174290382094,16) (4903825831699891,16) (7610657039038285,16) (-4246220866428155,16) (-9795626835605495,16) (-1474104325376743,16) (-1368470436462202,16) (6764895796705241,16) (-6460452545223402,16) (-3535355395237688,16) (554940596917734,15) (-1150204493814884,16) (8239000122081984,16), (1739944722629533,18));
  (AB60 (-2211319350245445,16) (-9066322864922163,16) (3593307173095511,16) (4854820428448426,16) (7432549349295726,16) (-4603034735672056,16) (-9814798119975955,16) (-1633773515626437,16) (-1000260947830162,16) (6814354085917501,16) (-6221490946880444,16) (-3854559480618264,16) (5211763384303899,16) (-1211058402415282,16) (8448127601543937,16), (1702244965606805,18));
  (AB60 (-1897022349797771,16) (-9031809094675576,16) (385067924939267,15) (4795335278049807,16) (7240553194982582,16) (-4957736277951713,16) (-9818438817035692,16) (-1791255899692994,16) (-6242287224582103,17) (6854758627749483,16) (-5967759567643022,16) (-4171106555591597,16) (4860702539083979,16) (-127279362733956,15) (8646014527442477,16), (1771004445912787,18));
  (AB60 (-1561161888508393,16) (-8978946768650933,16) (4115979650533015,16) (4723705147640536,16) (7024387543615402,16) (-5323963684629628,16) (-9804535907212712,16) (-195455922503553,15) (-2253306015726875,17) (6885125573138021,16) (-5688556256679697,16) (-4498374546067848,16) (4480572222583085,16) (-1335831286935706,16) (8839684798173552,16), (1845938525390689,18));
  (AB60 (-1202757370973232,16) (-8907871410483624,16) (4382145780420597,16) (4643873996837225,16) (6781144376447321,16) (-5696535372248287,16) (-9769364712738745,16) (-2126727034036303,16) (1911680731559408,17) (6899292743221519,16) (-5387218932318149,16) (-4835042069993166,16) (4072829340490459,16) (-1393925444129172,16) (9026019777257822,16), (1893061556476244,18));
  (AB60 (-8279987023212311,17) (-8818658660427056,16) (464173217450439,15) (4557712966287438,16) (6513568476970643,16) (-6066356255014184,16) (-9711176481467155,16) (-2305090183456413,16) (6161254676866462,17) (6894354957335415,16) (-5069444306962765,16) (-5173838433974084,16) (3644820226452971,16) (-1444124170007877,16) (9199445140791828,16), (1930538249461609,18));
  (AB60 (-4447425257960209,17) (-8710370058842763,16) (4891999338078869,16) (4463404737266863,16) (6226700222848965,16) (-6426991713555913,16) (-9630270072530149,16) (-2483669835993798,16) (1043686962601664,16) (6871734239351934,16) (-473827073445128,15) (-5507091699868527,16) (3203278358974236,16) (-1488429488397685,16) (9355404075345732,16), (1959280134465391,18));
  (AB60 (-5831558088897263,18) (-8579097847805256,16) (5137672567496766,16) (4353779166000065,16) (5924355354769123,16) (-6778393659571728,16) (-952749274455991,15) (-2654742493036132,16) (1476219596817007,16) (68367092404607,14) (-4389820177063144,16) (-5829998762817072,16) (2749099084988184,16) (-1534535177705979,16) (9491451733496832,16), (1967161262050889,18));
  (AB60 (-4540091597036729,16) (-868194751356176,15) (2002836903563359,16) (4619459171457858,16) (8632895654964865,16) (-2033152619387593,16) (-9428226994027707,16) (-4905185859689434,18) (-3332586032536213,16) (6573244216424323,16) (-7425390090464348,16) (-1286873138921646,16) (7395074374640114,16) (-1207505564500517,16) (6622296075021217,16), (1350940654429651,18));
  (AB60 (-4226738604737699,16) (-8785230221055211,16) (2225850563330392,16) (4688341207020243,16) (8499944123549199,16) (-2402167068106924,16) (-952645988963984,15) (-2852860975060124,17) (-3027403807497949,16) (6628905672844623,16) (-7300609326309448,16) (-1660937399522295,16) (7124292821532916,16) (-119933479723975,15) (6914191770350635,16), (1657340246496306,18));
  (AB60 (-3939107327718191,16) (-8839032400337509,16) (252090057053042,15) (4673226033506812,16) (8385322088383057,16) (-2801308964364589,16) (-9628628817900845,16) (-4537103119544513,17) (-2661513486705559,16) (674041629208278,15) (-7107728247370424,16) (-2011712546801253,16) (6827319853536256,16) (-1277593841012633,16) (7194126604037231,16), (1774212142942348,18));
  (AB60 (-3645569172278759,16) (-8874029262698653,16) (2821600619311453,16) (4641897344044521,16) (8258264588598367,16) (-3202164116976931,16) (-9716583620163068,16) (-6157646741002847,17) (-2282287584532005,16) (684773328925569,15) (-6894983000851614,16) (-2359609759512516,16) (6514419503186137,16) (-1363281587746753,16) (7463497963355974,16), (1756950590548505,18));
  (AB60 (-3350472339469469,16) (-8894872350796335,16) (3107343071739725,16) (4607078466640957,16) (8118247053732982,16) (-3587323901847861,16) (-978512732253919,15) (-7766252970633526,17) (-1910009536535952,16) (693779624131733,15) (-6677784250799464,16) (-2697068930105005,16) (6197803420691329,16) (-1440462802933517,16) (7714421538380682,16), (1720469728241553,18));
  (AB60 (-3047155777928467,16) (-8903598994209957,16) (3382420230447511,16) (4570329862304079,16) (7962225639282828,16) (-3964220959895995,16) (-983599593252701,15) (-9413733549271285,17) (-1538505840725136,16) (7011376737824462,16) (-6453575702079498,16) (-3031824021578943,16) (5871774972631014,16) (-150864993720333,15) (795275009275159,15), (1764652358229194,18));
  (AB60 (-2726363048241337,16) (-8897271596703497,16) (3661352572981386,16) (4524875124069502,16) (7785730004664563,16) (-4348323056770617,16) (-9871212726535803,16) (-1111541592038934,16) (-1150493197131191,16) (7074686105011954,16) (-6209860153554417,16) (-337438192693831,15) (5522889669765186,16) (-1575869851110146,16) (8186227697050887,16), (185013554578324,17));
  (AB60 (-2386658405446612,16) (-8873837760638846,16) (3944472721869323,16) (4469331185697476,16) (7586675194999571,16) (-4739982936480912,16) (-9888839921668432,16) (-1287162565639275,16) (-7443504102461491,17) (7126641341927523,16) (-5944367199799109,16) (-3724980775451326,16) (514885698518752,15) (-1642307995200463,16) (8413803907566798,16), (1913088018835523,18));
  (AB60 (-2031736937686487,16) (-8831641167031323,16) (4227784208404911,16) (4403214446302841,16) (7365987463150495,16) (-5133608013140437,16) (-9886681138396628,16) (-1465653703880829,16) (-3246464045277085,17) (7165344950826923,16) (-5658896929991717,16) (-4078568041775132,16) (4753073125256191,16) (-1707090533158778,16) (8630998654707752,16), (1943652772434161,18));
  (AB60 (-1663549190605954,16) (-8770662678095533,16) (4506448743467118,16) (4328325815899888,16) (7123740151237639,16) (-5524302841903158,16) (-9862904501118862,16) (-1646922526857894,16) (1037352029799409,17) (7187852032509112,16) (-5356455757651745,16) (-4432061018879829,16) (4338601659215704,16) (-1767284393585894,16) (8834774559367006,16), (1957531305152361,18));
  (AB60 (-1285444420245134,16) (-8690712924964568,16) (4776938506859228,16) (424524102492053,15) (6861458023488637,16) (-5907480210058693,16) (-9816627874140155,16) (-182925490147593,15) (5363242359625762,17) (7192924630303827,16) (-5039689367280926,16) (-4781565260883106,16) (3909147664081461,16) (-182176865620771,15) (9022179531779758,16), (1967932226927565,18));
  (AB60 (-9016657275291347,17) (-859148058422779,15) (5037207588201649,16) (4153419972329906,16) (6581785937879168,16) (-6279267186653797,16) (-9747887626635462,16) (-2009694646348623,16) (9694401719162191,17) (7180932914182931,16) (-4710680038433813,16) (-5122860144246125,16) (3468620439981664,16) (-1871105899445354,16) (9190627560531555,16), (1976591447384605,18));
  (AB60 (-514435702417631,16) (-8473345607002433,16) (528561918155013,15) (4053301629941946,16) (6286206182163483,16) (-6637345684235496,16) (-9656859560612598,16) (-2187139424838949,16) (1400530100683384,16) (7151781386653127,16) (-4371240379062468,16) (-545383173062533,15) (3019513876377102,16) (-1914965803101015,16) (9338920811492076,16), (1980478084992401,18));
  (AB60 (-1263285740374422,17) (-8333562460169466,16) (5525918730295978,16) (3939996612561482,16) (5976585990552467,16) (-6982610299203017,16) (-9543990695362906,16) (-2356976469617,13) (1832185451448096,16) (7108938873240459,16) (-4018071965066928,16) (-5772182064009577,16) (2561380396159889,16) (-1958514025485538,16) (9465915342857459,16), (1974926315890358,18));
  (AB60 (-4145605636653595,16) (-8646328962369946,16) (2838124271385697,16) (4294902340118208,16) (85540585252205,14) (-2895150537700866,16) (-9695151798908974,16) (-9227043714944519,18) (-2448574638956371,16) (7040756174354461,16) (-6857027527523277,16) (-1846327701161837,16) (6800001261208108,16) (-1697030997697224,16) (7133026611503906,16), (1849545821439758,18));
  (AB60 (-3838907516275267,16) (-8679119676494476,16) (3152089897603126,16) (4259222703333686,16) (8419350604904603,16) (-3312636013071673,16) (-9783887925662368,16) (-2597690715898728,17) (-2051354939429905,16) (715154352934694,15) (-6631798028059241,16) (-2207867763903781,16) (6471251912590695,16) (-1787552576845362,16) (7411312600936812,16), (1857969127132749,18));
  (AB60 (-3518966625918207,16) (-8697924831981131,16) (3458753749962526,16) (4219971639840337,16) (8264679907093162,16) (-3726513838996686,16) (-9853566369896852,16) (-4332449248879695,17) (-1649099338759371,16) (7245480464914894,16) (-6394812619934326,16) (-2570872301080966,16) (6127052530900166,16) (-1869867287158836,16) (7678725389802863,16), (1889483021754667,18));
  (AB60 (-3184393503157655,16) (-8701781390261947,16) (376013811623166,15) (4175788258688853,16) (8089065735075274,16) (-4138817216576186,16) (-990398979342629,15) (-6127156551866735,17) (-1239179445277011,16) (732321071973384,15) (-6143851677194629,16) (-2936608813411842,16) (5765172576850105,16) (-1945214057880644,16) (7935926374920513,16), (1928329892846017,18));
  (AB60 (-2837611046332871,16) (-8688218972384625,16) (4057439418848484,16) (4123327053342828,16) (7893602780172673,16) (-4548539233646489,16) (-9934506545677179,16) (-7946161922119521,17) (-821075392988893,16) (738615027997936,15) (-5877067126828696,16) (-3302251660353936,16) (5385967312030689,16) (-2016535653343978,16) (8180766472191312,16), (1955000512851929,18));
  (AB60 (-2479489028357682,16) (-8656965242780964,16) (4348457996064375,16) (4063198755962105,16) (7678178802807593,16) (-4953381283695427,16) (-994406524628398,15) (-978786439973371,16) (-3969174757696939,17) (7432870312053109,16) (-5595607250219604,16) (-3666281280192411,16) (4990683962588553,16) (-2082571552587988,16) (8411656752026481,16), (1969733948157647,18));
  (AB60 (-2110689729270074,16) (-8607448052103895,16) (4632151432875081,16) (3995257039716939,16) (7442721400160759,16) (-5351992091378809,16) (-993188646498624,15) (-1164726651943137,16) (322966387795256,17) (7462681820648883,16) (-5299735032111159,16) (-4027553678496465,16) (4579894373607431,16) (-21429863680496,14) (8627408472592021,16), (1976544559937096,18));
  (AB60 (-1733979837618864,16) (-8538641380068529,16) (4907638668984573,16) (3918257413128567,16) (7188683597539317,16) (-5741958461965064,16) (-9897554557568622,16) (-1349957782529211,16) (4647878713364047,17) (7475938299583929,16) (-4989915888584048,16) (-4383045284464971,16) (4155596095603557,16) (-2198767708955269,16) (8825896082113139,16), (1980562797902009,18));
  (AB60 (-1352499043606565,16) (-845006525592561,15) (5173697276381967,16) (3831452568079833,16) (6917987721269786,16) (-6120573266199411,16) (-9841040223162383,16) (-1532077534655824,16) (898145730882805,16) (7473072309805976,16) (-4667342946780416,16) (-4729598298962638,16) (3720466956962972,16) (-225064477448937,15) (9005149844461799,16), (1982542266328877,18));
  (AB60 (-9676598213668521,17) (-8342332168619127,16) (542854754594033,15) (3735791394587334,16) (663153277103715,15) (-6485879721578837,16) (-976238559968003,15) (-1710799397581976,16) (1330034895930597,16) (7453539542945689,16) (-4333838053739701,16) (-5065826290517932,16) (3276505878101195,16) (-2297694717297449,16) (9164338940527664,16), (1981102733355773,18));
  (AB60 (-5808469726227646,17) (-821640123378556,15) (5670393951026869,16) (3632519669550695,16) (6330363784544042,16) (-6836029198713282,16) (-9661896791920912,16) (-1886037449241518,16) (1758013971027234,16) (7416876171336045,16) (-3991502840894043,16) (-5390533640577929,16) (282586759320763,15) (-2338860943649999,16) (9302913620577563,16), (197385402166043,17));
  (AB60 (-1947812400824972,17) (-8069770033483669,16) (590261568079787,15) (3517082544016123,16) (6016474906784594,16) (-7171621858032421,16) (-9540079651555831,16) (-2053295126699076,16) (2184229695944136,16) (7366403098114918,16) (-363746397075796,15) (-570131223996026,15) (2368457793523409,16) (-2379010936026634,16) (9419698224813994,16), (1959458035540041,18));
  (AB60 (-3916753419437803,16) (-8475057194936497,16) (3582240666660657,16) (3855001596290501,16) (8513221920508802,16) (-355865356908566,15) (-9857929001716094,16) (3816472557230531,18) (-1679219833984438,16) (7475406988523464,16) (-6275688335055437,16) (-2175781762306063,16) (6299275432630433,16) (-2237533585453365,16) (7437242262951158,16), (1867587646022201,18));
  (AB60 (-3591198383655459,16) (-8485432634262285,16) (3885965411403843,16) (3812135169318666,16) (8348886191357273,16) (-3970355754162037,16) (-9917583242165267,16) (-1365464429050121,17) (-127393002305961,15) (7561554137817497,16) (-6031617830761424,16) (-2538205146259055,16) (5947227488003229,16) (-2317268360595849,16) (7698100580722509,16), (1897994794230285,18));
  (AB60 (-325299917825509,15) (-8480014182796229,16) (4184179227261484,16) (3763153944023427,16) (8164721198028655,16) (-4379041008262248,16) (-9957797228822035,16) (-3152929847675738,17) (-8618959817869856,17) (7632040186517338,16) (-5773618001560551,16) (-2901257962236442,16) (5578756220559787,16) (-2391103196468105,16) (7947333171284912,16), (1927465777852679,18));
  (AB60 (-2902450176099745,16) (-8458102126085633,16) (4476191617878334,16) (3707746121481604,16) (7960401860837165,16) (-4783787298011725,16) (-9977750598842698,16) (-497700265248468,16) (-4436072962269443,17) (768623747411147,15) (-5501558980964364,16) (-326413882525466,15) (5193963300830973,16) (-2458842879872801,16) (8183937739359938,16), (1948220848027962,18));
  (AB60 (-2540147038281147,16) (-8419477327340348,16) (4760257824773083,16) (3646422726146297,16) (7735761351312015,16) (-5182817536609901,16) (-9976577756999508,16) (-6837159760283325,17) (-2070561919555872,18) (7722964574891047,16) (-5216319932226426,16) (-3625717106950739,16) (4793760220389608,16) (-2519441419085588,16) (840668055091938,15), (1960232843930225,18));
  (AB60 (-216946940140434,15) (-8362205288073288,16) (503655886856189,15) (3576483840412012,16) (7492622542104681,16) (-5573990561600956,16) (-9953848536594674,16) (-869582745968607,16) (4058634726675575,17) (7743459963005296,16) (-4917289668032783,16) (-3982347313079569,16) (4379857974993718,16) (-2575332874071898,16) (8613042708973903,16), (1967727034453302,18));
  (AB60 (-1793560129226927,16) (-8285171069231415,16) (5304628395695429,16) (3496289438099707,16) (723282648270742,15) (-5955013118044212,16) (-990939895452403,15) (-1052344586523996,16) (8344957946518901,17) (774857324727114,15) (-4604770558828602,16) (-4330785232751597,16) (3954385836479818,16) (-2628055923878818,16) (8800917833795135,16), (1971692821014081,18));
  (AB60 (-1413586013526804,16) (-8188831023733135,16) (5562806939586087,16) (3406677891281344,16) (6957032500579479,16) (-6324100294186972,16) (-9843129033248466,16) (-1231798523153657,16) (1263124393390297,16) (7737686307713775,16) (-4280322093662378,16) (-4669802284671641,16) (3519028739061494,16) (-26767104069171,14) (8969484830867431,16), (1970349479658872,18));
  (AB60 (-1031042772859352,16) (-8074006640008806,16) (5809248452048527,16) (3308774619698021,16) (6666290941404439,16) (-6679264600282828,16) (-9755242549228564,16) (-1407715698604367,16) (168925407136505,15) (771030737314218,15) (-3945994097180038,16) (-4998028691063071,16) (3075977948945736,16) (-2720296844224402,16) (9118023071746547,16), (1962833590802838,18));
  (AB60 (-6478704040423977,17) (-7942096950372621,16) (6041801053530963,16) (3204187912057748,16) (6362205844382702,16) (-7018227455556395,16) (-964639489559204,15) (-1579891105989918,16) (2109741598279228,16) (7666097859598793,16) (-3604593842061077,16) (-5313929510336977,16) (2628167440035645,16) (-2757612002321626,16) (9245988965588711,16), (1946076835087746,18));
  (AB60 (-2665938120705284,17) (-7790808521819189,16) (6263563707324705,16) (3088732621885541,16) (6046630816383336,16) (-7341524811703864,16) (-9517060366260234,16) (-1744177705435853,16) (2526540345377278,16) (7608118623774393,16) (-325349665893553,15) (-561527296726282,15) (217553555455637,15) (-2793134157447807,16) (9352296329210246,16), (1919675758585656,18));
  (AB60 (-3272614284697282,16) (-8236399564832324,16) (4631599934366654,16) (3336293823222772,16) (8197043445635663,16) (-4655923353695483,16) (-9990480617600772,16) (-3935611919666121,18) (-4344515222957363,17) (7928537638392765,16) (-5358880683234117,16) (-2901842300927036,16) (5334557263905288,16) (-2838162762401546,16) (7967893757589426,16), (1860391384381429,18));
  (AB60 (-2928000084272664,16) (-8206484875107881,16) (4907180606124545,16) (3280793639409439,16) (7988446467021444,16) (-5041935753174883,16) (-9997577816677048,16) (-2180384080864367,17) (-2995082780372316,18) (7969935837447548,16) (-5090397210552502,16) (-3250842811605716,16) (4955642063502165,16) (-2898049256468941,16) (8187974245533984,16), (1883431146759668,18));
  (AB60 (-2573042551817027,16) (-8159874080046986,16) (5176476313508668,16) (3218124770201975,16) (7761191343546906,16) (-5422875795393535,16) (-9984828835233328,16) (-3986827365000799,17) (3797962700052178,17) (7995918347210562,16) (-480835252172466,15) (-3597921040207193,16) (4561953039839793,16) (-2952838821822245,16) (8394601083710642,16), (1904528038105919,18));
  (AB60 (-2210526951204948,16) (-8094480107269978,16) (5439941395916611,16) (3145510875006886,16) (7516628263425639,16) (-5797073475874208,16) (-9951633059815834,16) (-5778518438443388,17) (7944096483214673,17) (8007600427079157,16) (-4511691663899224,16) (-3939920523328352,16) (4154559583941626,16) (-3004936599526415,16) (8585452270923496,16), (192238733823344,17));
  (AB60 (-1841375773552949,16) (-8010326009208049,16) (5695964579136472,16) (3063491175306551,16) (725501715274959,15) (-6162771124431616,16) (-9897488568559375,16) (-755308856458459,16) (1212117389773738,16) (8004146897984564,16) (-4201523989422903,16) (-4275608565080289,16) (373471744412776,15) (-3053493163326687,16) (8759455754443023,16), (1931487486693517,18));
  (AB60 (-1467613561209423,16) (-7907751757615056,16) (5942522408446618,16) (2972726823396782,16) (6977540604665036,16) (-6517424517683957,16) (-9822284295021098,16) (-9302111529500201,17) (1630165156881133,16) (7985038078893381,16) (-387976188657448,15) (-4602891980277916,16) (330485977733714,15) (-3097778718090556,16) (8915249231843401,16), (1930102942866606,18));
  (AB60 (-1092093059901161,16) (-7787648292861972,16) (6177367304539997,16) (2874180847921988,16) (6686257468928982,16) (-6858064268627835,16) (-9726498782358777,16) (-1101390823932989,16) (2045032931209042,16) (7950157328528996,16) (-354913147781878,15) (-491921377913103,15) (2868434513730941,16) (-3137125991110202,16) (9051548152461985,16), (1918169894893577,18));
  (AB60 (-7165315930846877,17) (-7652790584801575,16) (6396982002576206,16) (2771326196939241,16) (6382857679719586,16) (-7181843701348769,16) (-9611149078054892,16) (-1269932905081989,16) (2452159011156211,16) (7898375294433457,16) (-3214167075478687,16) (-5223485208095452,16) (2429305376706123,16) (-3168690604240899,16) (9168308199515447,16), (1888045438949083,18));
  (AB60 (-3431158325265036,17) (-7501308981947518,16) (6603986302440605,16) (2660664671942876,16) (6068985028600327,16) (-7489211188509788,16) (-9476708220963078,16) (-143232395334719,15) (2853147277551351,16) (7832327021036292,16) (-2872721918522472,16) (-5513811949494227,16) (198749703245329,15) (-3196263110077855,16) (9264650974383483,16), (1835458487371581,18));
  (AB60 (-2553216493532054,16) (-7870735517705569,16) (5615390275616107,16) (2770876367426434,16) (7736214317651826,16) (-5698528949456744,16) (-9964241216682176,16) (-134521200053743,16) (8341468830537023,17) (8251745442988798,16) (-434885094106607,15) (-3605023250480137,16) (4265712267225432,16) (-3387363376585756,16) (838626664304254,15), (1842592197521919,18));
  (AB60 (-2202456356746065,16) (-779689517609754,15) (586153662528656,15) (2696455944576013,16) (7491586640390194,16) (-6050227677409161,16) (-9919185457069905,16) (-3053085357073464,17) (1231481451860784,16) (8252684034155227,16) (-4057648831783345,16) (-3927937396436797,16) (3868957779660744,16) (-3433937808606849,16) (8557992569862572,16), (1839754744196762,18));
  (AB60 (-1847051176690013,16) (-770649059916923,15) (6099049482960793,16) (2614386917160824,16) (72322510307757,14) (-6392145655038075,16) (-9854976806276533,16) (-4742395683935293,17) (1629272530769948,16) (8239196831728087,16) (-3755927323315739,16) (-4243659447930772,16) (3462831151238458,16) (-3476323707459961,16) (8713436400121617,16), (1845812818553443,18));
  (AB60 (-1487489728273228,16) (-7598765678625085,16) (632820151936007,15) (2523770205606138,16) (6958309121755381,16) (-6724025439823277,16) (-9771290934955409,16) (-6404565568697039,17) (2027729977886814,16) (8211515168096505,16) (-3443089415595338,16) (-4551500183492953,16) (3047265495132132,16) (-3515219706160042,16) (8851971724966209,16), (1851218607046001,18));
  (AB60 (-1124485287707391,16) (-7475473809577717,16) (6546206852830672,16) (2427196862711681,16) (6670353778687158,16) (-7043798396944402,16) (-9668373843194724,16) (-8051200308905594,17) (2423701500615714,16) (8168283684651793,16) (-3122166990364053,16) (-4850898363327395,16) (2624575446250322,16) (-3548186788323104,16) (8973403715542353,16), (1842936528682935,18));
  (AB60 (-7578246943511076,17) (-7341994762037253,16) (6746911489477923,16) (2332162081049532,16) (6369000747297939,16) (-7348254861437034,16) (-954743498915044,15) (-9729940147393129,17) (2810652553274315,16) (8106079555788142,16) (-2800523499672517,16) (-5142814634323848,16) (2199180127713405,16) (-3568477247625423,16) (9079073570527454,16), (179452594759967,17));
  (AB60 (-3858081556024685,17) (-7196515207487205,16) (6932627275101122,16) (2236568188934722,16) (6052682601867985,16) (-7639554702814154,16) (-9407638017335078,16) (-1143832605619221,16) (319186370403156,15) (8025362858416623,16) (-2475010742233956,16) (-5428431892966282,16) (1768083314520923,16) (-3577671859634028,16) (9169195464035844,16), (1695758601693063,18));
  (AB60 (3948856431097976,18) (-7062933260675166,16) (7079082879055529,16) (2186694235950066,16) (5687076624943421,16) (-7929409043584831,16) (-9241371840094473,16) (-1375856635731744,16) (3564276228215457,16) (7889920479273851,16) (-2162288961038944,16) (-5750970464165522,16) (1311962796509643,16) (-3524787663904477,16) (9265777115005596,16), (1275899528593041,18));
  (AB60 (-1815440614933048,16) (-7372814316772147,16) (6507363861353627,16) (2150048145669954,16) (7166015489885064,16) (-663517256520345,15) (-9779416011609213,16) (-2067988268870829,17) (2078522724696429,16) (8450613180136497,16) (-3272052150255587,16) (-4228570870366382,16) (3144243446405764,16) (-3893963339629476,16) (865741200702358,15), (1844288024047695,18));
  (AB60 (-1455706352856625,16) (-7255325474474003,16) (6726155757466628,16) (2056765727985362,16) (6883850351387669,16) (-6955740009509032,16) (-9682597489156531,16) (-3714751230863327,17) (2471702266841141,16) (8411446362365657,16) (-2956441731689904,16) (-4528467994826503,16) (2726857479647499,16) (-3927408619697766,16) (8782921485451989,16), (1826886190818058,18));
  (AB60 (-1091127131534991,16) (-7129098837114886,16) (6927148861795551,16) (1966810856238941,16) (6587896531852738,16) (-7261630281237355,16) (-9568313371370294,16) (-541202305262147,16) (2855604890743005,16) (8352757412772346,16) (-2641164509574743,16) (-4822415746981946,16) (230668309013294,15) (-3946732022277996,16) (8893959718034493,16), (1783311083962834,18));
  (AB60 (-7132459519846486,17) (-70124839476104,14) (709340180001697,15) (1906112666057453,16) (6275251774265004,16) (-7549036340744378,16) (-944032470673921,15) (-7372321733453957,17) (3215082915558114,16) (8262282292729026,16) (-2346922906722241,16) (-5121195581615567,16) (1891288365994833,16) (-3928328867542762,16) (8999514466074422,16), (1562010094407618,18));
  (AB60 (-2342267721895537,17) (-6926046495006678,16) (7209370136717588,16) (1926224196788486,16) (588033457772725,15) (-7855655644037093,16) (-9280354439794397,16) (-1045711917279428,16) (3575123502460887,16) (8089882416226647,16) (-2070984303076809,16) (-5501347699249374,16) (1424698795757304,16) (-3809350274650441,16) (9135594333506074,16), (1426751163879231,18));
  (AB60 (1686034122171413,17) (-6775027410687068,16) (7353269781112864,16) (1856578741730203,16) (5523396006137886,16) (-8126820530511027,16) (-9105645883473664,16) (-1251631404549181,16) (3939623315994227,16) (7958217118293887,16) (-1752376102360801,16) (-579620205772443,15) (9788253529626369,17) (-3771019903777086,16) (9209848522843067,16), (1681902691468247,18));
  (AB60 (-1476582281414205,16) (-6918373942491144,16) (7067942186950397,16) (1606821980891022,16) (6837881381529899,16) (-7117689325465969,16) (-9587342204941259,16) (-8049256096124488,18) (2841899082124832,16) (8594271606880174,16) (-2519400017990863,16) (-4448721063015854,16) (246965287947529,15) (-4318481363539037,16) (8674764167841419,16), (1852633886193499,18));
  (AB60 (-1073181542384877,16) (-6806622746256472,16) (7246941987295636,16) (1551571147726298,16) (6510961710290825,16) (-7429670556671411,16) (-9461775804314824,16) (-2956610359656469,17) (322294635088676,15) (8502852099056287,16) (-2214833817019188,16) (-4774517498613058,16) (2032105247643413,16) (-4296127893271637,16) (8798513135021935,16), (172402001423857,17));
  (AB60 (-598783214298095,16) (-6781116733148244,16) (732515627913096,15) (1638426349227207,16) (613858193959156,15) (-7722264620503387,16) (-9333651006687302,16) (-6425347935566844,17) (3531303997737122,16) (8321047834801483,16) (-2008494727556342,16) (-516973034696433,15) (1611386386183914,16) (-4130087212035217,16) (8963582628358168,16), (1331147966227247,18));
  (AB60 (-2694950816094576,17) (-6637076101075726,16) (7475064764235675,16) (1548696416494456,16) (5846486197662562,16) (-7963676195707508,16) (-9190318300965702,16) (-7905899034131653,17) (3861737579323076,16) (8233171277316965,16) (-1715253536730027,16) (-5410433995817532,16) (1226642105258195,16) (-4131232660932534,16) (9023761180730131,16), (1583555454685591,18));
  (AB60 (7206376343019137,18) (-6464397695852193,16) (7629309879921062,16) (1437421581960691,16) (5531484446880753,16) (-8205881976340504,16) (-9022193606724663,16) (-9329132489714397,17) (4210664483507344,16) (8133818212910313,16) (-1392883726803601,16) (-5648086065468035,16) (8163116303841583,17) (-4138600720077153,16) (9066731461881753,16), (1734951736608498,18));
  (AB60 (-8084054479899461,17) (-6538197813502357,16) (7523194134353651,16) (1278105054757518,16) (6247907492017537,16) (-7702603419636403,16) (-9300921232659541,16) (-2902903214848195,17) (3661774945721701,16) (851100886762635,15) (-177772709830589,15) (-4939880000479219,16) (1598317813023138,16) (-4470180393711647,16) (8801299189111169,16), (1802077601201123,18));
  (AB60 (-4418681245698233,17) (-6351708595485098,16) (7711066753603543,16) (114656206049844,15) (5916183791415273,16) (-7980235885462333,16) (-9130718333631306,16) (-4355248040698258,17) (4054664086817685,16) (8422104010032156,16) (-1419651580027763,16) (-5201226147316126,16) (1150482448168972,16) (-4496532211387509,16) (8857628814101982,16), (1826520228208403,18));
  (AB60 (-8136833591554338,18) (-615426444728488,15) (7881523222499295,16) (1012998715879451,16) (5578485207515206,16) (-8237374362693528,16) (-894481033558257,15) (-5757792397696737,17) (4433829758516387,16) (8318742698609072,16) (-1063287113083275,16) (-5446828474395838,16) (7074359728890417,17) (-4515198094431931,16) (8894521938378745,16), (1844279636657182,18));
  (AB60 (-203150815359256,16) (-580953441701696,15) (8136832283125557,16) (5688188768429583,17) (5583539126419746,16) (-8276505054012046,16) (-883120526870279,15) (-2259952905972143,17) (4686015325483258,16) (8479655869371301,16) (-6943729855772326,17) (-5254834202326216,16) (5547002146907448,17) (-4889166140842514,16) (8705651159968516,16), (177616217976786,17))].

(** ahrens_beylkin/ahrens_beylkin_7512.hpp:1-15042. *)
Definition ab_7512 : coded := [  (AB12 (5257311121191336,16) (8506508083520399,16), (1277675511770038,18));
  (AB60 (-7742317119628571,17) (-9421417730799913,16) (3261510876566273,16) (5752080860458915,16) (6344937766159627,16) (-5162880060422045,16) (-9492093250186252,16) (-3076479964640286,16) (-6598763194232089,17) (5937111772384902,16) (-6230582373619978,16) (-5092204541035705,16) (4329213189764207,16) (-1143553925396482,17) (9013591737025187,16), (1600796147084784,18));
  (AB60 (-4645309945804447,17) (-9344520853737838,16) (3530459030938154,16) (5651098687756673,16) (6139045734402794,16) (-5511551604779337,16) (-9468653662173334,16) (-3205475119335045,16) (-2636798914128319,17) (5976082599359782,16) (-5938194631235181,16) (-538741879634384,15) (3957102057393997,16) (-2008511031676128,17) (9181557718694826,16), (1493708094342836,18));
  (AB60 (-1358911713154444,17) (-9271247606393691,16) (3745063605667836,16) (5586072388474642,16) (5902850369343036,16) (-5826847585776378,16) (-9415121356786457,16) (-3368397237050655,16) (9690144690896981,18) (5962738757091822,16) (-5670057751118621,16) (-5682973835383611,16) (3588273771010079,16) (-2327926182244142,17) (9331135994142478,16), (1412688091879298,18));
  (AB60 (-2421488431663192,16) (-9445564740880641,16) (2217588893630595,16) (5784546872959673,16) (7367080318007173,16) (-3502162912053608,16) (-9498697920722797,16) (-2078484422873468,16) (-2335517140748222,16) (5923651343716799,16) (-7281109027092203,16) (-3449029732211451,16) (599653500866919,15) (-8597129091497019,18) (8002135766590268,16), (1696096182331634,18));
  (AB60 (-2118305383251365,16) (-9445732118842941,16) (2508172051982704,16) (573307941976526,15) (72116789026267,14) (-3888892872280358,16) (-955043619714918,15) (-223405321621624,15) (-194889062579114,15) (6007198255531724,16) (-7042264145166476,16) (-378418879397412,15) (5661543324868822,16) (-1694147574602248,17) (8241251471747963,16), (1714964704091331,18));
  (AB60 (-1811249392804119,16) (-9427236015602558,16) (2801177742163593,16) (5666498432096463,16) (7044561074224511,16) (-427375184007789,15) (-9587089861115611,16) (-2382674941378047,16) (-1552600437531625,16) (6085001232882008,16) (-6785912118952018,16) (-4113897994564837,16) (5313338021037721,16) (-2586489552724935,17) (8467676174260056,16), (1723471691773569,18));
  (AB60 (-1497904241739582,16) (-9391051546239086,16) (3092641870385098,16) (5588321494122148,16) (6863034656097703,16) (-4655042232626282,16) (-9606719097794947,16) (-2528016890141383,16) (-1148946813051728,16) (6152946474365864,16) (-6514077227409849,16) (-443937468107042,15) (4951676865168665,16) (-3489574286878538,17) (8680963364507247,16), (1710575164251402,18));
  (AB60 (-1181971033995502,16) (-9336924643634916,16) (3380056608087887,16) (5498453271491415,16) (6669191909027247,16) (-502880611097613,15) (-9609008152306379,16) (-266773273460767,15) (-7417306691867478,17) (6210777144971632,16) (-6228951544218492,16) (-4756722602304667,16) (4580202041330249,16) (-4402403648087541,17) (8878509879579302,16), (1665773234100382,18));
  (AB60 (-8651672592025809,17) (-9266951558294829,16) (3657197619738497,16) (5401171100770277,16) (64635470111059,14) (-5389796914117264,16) (-9593071492649559,16) (-2803404547188929,16) (-3374941210077431,17) (6254964173319845,16) (-5935873872911062,16) (-5063676979762534,16) (4203274578532296,16) (-5276731381948378,17) (9058368720508774,16), (1585779361172045,18));
  (AB60 (-5395421650445218,17) (-9192119690259762,16) (3900490975771876,16) (5319607857682177,16) (6237876623752383,16) (-5726313601902152,16) (-9553554229815273,16) (-2954243066507379,16) (4527120466446376,18) (6265855766946674,16) (-5653063254043398,16) (-5364879062346641,16) (3827240627913121,16) (-5848133697089856,17) (9220098833454053,16), (1484133004353106,18));
  (AB60 (-2070839207067217,17) (-9118289947484564,16) (4100476153251802,16) (5262620999767187,16) (5993796201239832,16) (-6031519486067536,16) (-9491082054539332,16) (-3124493746244732,16) (3961063792455811,17) (6238603406774257,16) (-539060590128753,15) (-5658727379012768,16) (3459562568471796,16) (-6031902999523028,17) (9363097153018989,16), (1489858881395684,18));
  (AB60 (-3954682836181365,16) (-910746604710113,15) (1189346823307915,16) (5551357192400724,16) (8120667025992209,16) (-1799222158418353,16) (-9184832423194556,16) (-986799021108921,16) (-3829501410075796,16) (5753904994599718,16) (-799548559988664,15) (-1721855782324928,16) (7385610264776202,16) (-125181426105569,16) (674070401570864,15), (1689957305452532,18));
  (AB60 (-3692896204359962,16) (-9169540362350901,16) (1510644619704283,16) (5521823988286784,16) (8039200828915102,16) (-2209232870195305,16) (-9314803979211,13) (-1130339533435799,16) (-3457854734951578,16) (5902129074555267,16) (-7804159359506718,16) (-2063969253335206,16) (7105571109015696,16) (-2350414694083838,17) (7032468607991067,16), (1663124795252923,18));
  (AB60 (-3411696253315448,16) (-9223843175419669,16) (1811365714144254,16) (5502290903371956,16) (7931784624986055,16) (-2609901813767148,16) (-9422200861355827,16) (-1292058550433614,16) (-3090746775540966,16) (6021598067082595,16) (-7610835147211573,16) (-2411544127830989,16) (681229904758868,15) (-3209494777744815,17) (731365661751621,15), (1644401347242469,18));
  (AB60 (-3116120474830814,16) (-9269387582765098,16) (2090035173584501,16) (5491140311870376,16) (7801544599519412,16) (-2997212027378378,16) (-9507043851939782,16) (-1467842983245686,16) (-2731584553666682,16) (6113332502209191,16) (-741700867835528,15) (-2759555758203694,16) (6509831824561404,16) (-3845359211641317,17) (7581175485454877,16), (1622412112750018,18));
  (AB60 (-2820578211703209,16) (-9298411130400139,16) (2363025391678202,16) (5469453327959787,16) (7661316276599744,16) (-3374805654134386,16) (-9575691922397969,16) (-1637094853800394,16) (-2371928465823231,16) (6195383865837595,16) (-7212666530719767,16) (-3097524862136556,16) (6200886268263583,16) (-4486497458799781,17) (7832478719637989,16), (1628103078484736,18));
  (AB60 (-2527882479149,13) (-9307189506903915,16) (2643110601959209,16) (5426960534134135,16) (7515460732884165,16) (-3750459882924594,16) (-9632388427772773,16) (-179172877401975,15) (-2001699572078399,16) (6278342362073595,16) (-6989277825813565,16) (-3425260962055736,16) (588192854484818,15) (-5261829070706005,17) (8070071136093344,16), (1663664528697194,18));
  (AB60 (-2228623269241319,16) (-9298001360131308,16) (2929233522748312,16) (5368941888438427,16) (7357177717963358,16) (-4128728499777469,16) (-9675540339696782,16) (-194082364216795,15) (-1617752368226431,16) (6357351769018788,16) (-674630681694847,15) (-3751189520211995,16) (5546811839919312,16) (-6108709010148881,17) (8298175411186738,16), (1699831540199737,18));
  (AB60 (-1919128627564644,16) (-9272242727288067,16) (3215969545427225,16) (5300373809323,13) (7182518280664587,16) (-4507490280562101,16) (-9702430075368114,16) (-208972444662348,15) (-1223070876840946,16) (6426618908126746,16) (-6486460529940888,16) (-4077302932482054,16) (5194939794806013,16) (-6960577507236977,17) (8516343354750225,16), (1713342487734862,18));
  (AB60 (-1602497471629306,16) (-9229849403727036,16) (3498840070357796,16) (5222486035781408,16) (6992573432195107,16) (-488155266297797,15) (-9711724010491886,16) (-2237275971531928,16) (-8228079795682887,17) (6484050134607277,16) (-621288394013409,15) (-439967805621312,15) (4830171347513916,16) (-7796894920610174,17) (8721326106139204,16), (169428874259669,17));
  (AB60 (-1282480815546283,16) (-9171584064338075,16) (3773233190320419,16) (5137042411264101,16) (6789333986454432,16) (-5245544708154595,16) (-9702892335511807,16) (-2382250077883643,16) (-4228059742832385,17) (6528025523700878,16) (-5929659145191388,16) (-4714236436980862,16) (4457347627357213,16) (-8596748412630445,17) (891027560158452,15), (1639540292318482,18));
  (AB60 (-96000482542229,15) (-9101599330565638,16) (4029799047224692,16) (5051791205069458,16) (6572736273239808,16) (-5592722369546029,16) (-9674905863769034,16) (-2528863057325831,16) (-3237536872682486,18) (655272719496832,15) (-5645106816544342,16) (-5019415836342633,16) (4082183494223005,16) (-9276294566954651,17) (9081590252294149,16), (1553706248622747,18));
  (AB60 (-6359800264287628,17) (-9029196273410853,16) (4250781582510118,16) (4982853803231749,16) (6342680534540983,16) (-5911139620443234,16) (-96266926582409,14) (-268651573886987,15) (3307894323814391,17) (6547119646871997,16) (-5375911075730782,16) (-5313643235613188,16) (3715553037797665,16) (-9667694588102019,17) (9233635385741867,16), (1492685641178475,18));
  (AB60 (-3126218652999928,17) (-8944549462799083,16) (4460639245318656,16) (4909367430581543,16) (6103604465819736,16) (-621643981362086,15) (-9563217614281986,16) (-2840944996979347,16) (6884042315564132,17) (6529061678920852,16) (-510257836896333,15) (-5597771662137957,16) (3346777800661127,16) (-1001026096856406,16) (9370006675900199,16), (1591677010336722,18));
  (AB60 (1176432418051066,18) (-8825313334037411,16) (4702521255320176,16) (4792203216359118,16) (5856298113132682,16) (-6537473574955076,16) (-9487453719481067,16) (-2969015220904729,16) (1083129973152302,16) (6525709250774565,16) (-4784932464160891,16) (-587533318951142,15) (2949980144525991,16) (-1071365648971791,16) (9494724471679294,16), (1680175023252294,18));
  (AB60 (-5080018743676854,16) (-8607444852572506,16) (3245037346702186,17) (5231505173001794,16) (8513821090415334,16) (-3823664018379869,17) (-8695633154750848,16) (-9362376215717175,18) (-493732707334215,15) (5462385145514841,16) (-837112942008063,15) (-2941780996596445,17) (8313266752912861,16) (-1426916703347044,17) (5556008907672013,16), (1519787044664108,18));
  (AB60 (-4853355529461031,16) (-8719795189565402,16) (6403998412570762,17) (5234493236851709,16) (8484239132003751,16) (-7859814910861032,17) (-8874431754802944,16) (-235556057561651,16) (-4603148311003148,16) (5639337020547134,16) (-8234031913545867,16) (-6313449258485612,17) (8088450263716841,16) (-2502072184578833,17) (5874893078108785,16), (161957456414345,17));
  (AB60 (-4605834074143716,16) (-8824708601112377,16) (9543639698301383,17) (5238876241610003,16) (8433467025306308,16) (-1196164561490357,16) (-9039802215803361,16) (-3912415758060683,17) (-425780529481063,15) (5801998635634074,16) (-8085438245973223,16) (-9810709467993729,17) (7843637654313004,16) (-3480287793330859,17) (6193240211440141,16), (1666451425334772,18));
  (AB60 (-4354092331157172,16) (-891143964893306,15) (1275979370986117,16) (5226027909435305,16) (837255382555688,15) (-1609029125888069,16) (-9192984331231817,16) (-5388858233761806,17) (-3898543465845992,16) (5963121457045242,16) (-79170049602457,14) (-1327484443589312,16) (7583955205343748,16) (-4555488653111795,17) (6502007280421421,16), (1684329065344377,18));
  (AB60 (-4095861433491242,16) (-8981417949128162,16) (159939074047512,15) (5200733594637583,16) (8298569400316173,16) (-2021414352809471,16) (-9331505914220157,16) (-6828485488119897,17) (-3529407206920107,16) (6117275786300713,16) (-7732115173745038,16) (-1671326387717476,16) (7310091561410686,16) (-5664542265711351,17) (6800124335112703,16), (1675781154101774,18));
  (AB60 (-3824182302164645,16) (-9039965614785326,16) (191171425775655,15) (5175891361091438,16) (8204563473467433,16) (-242802117536545,15) (-9451080260761558,16) (-8354021413178923,17) (-315898483170222,15) (6252203477530095,16) (-7539366003005009,16) (-2016906529389217,16) (7023059085396108,16) (-6651974704624249,17) (7087605618847987,16), (1646196426938438,18));
  (AB60 (-3539628599552727,16) (-9090243922284231,16) (2199657884900057,16) (5160527482654105,16) (8088473320200836,16) (-2818786165918041,16) (-9547796149628939,16) (-1001770602083394,16) (-2799293544080771,16) (6358414765470768,16) (-7348138264728882,16) (-2361233938573334,16) (6729009983710897,16) (-7403350554719554,17) (7360185367554162,16), (1600957525685021,18));
  (AB60 (-3249933523138192,16) (-9128697928479906,16) (247079060742695,15) (51455917677036,14) (7957116702284524,16) (-3194867625796975,16) (-9624951753607645,16) (-1171581226195383,16) (-2446977967034364,16) (6444801148935168,16) (-7154161146180695,16) (-2698613800669236,16) (643008412781067,15) (-8029555561038285,17) (7616382375130549,16), (1603942063176612,18));
  (AB60 (-2958511091054466,16) (-9148305382172642,16) (2748767134301989,16) (5112520751575873,16) (781705419987479,15) (-3571525612525544,16) (-9689748296243057,16) (-1331251182297852,16) (-2082438053120745,16) (653003670358001,15) (-6940981161941069,16) (-3030082698455129,16) (6118222683717514,16) (-876073037933721,16) (7861287885877862,16), (1661589177150246,18));
  (AB60 (-2659502750540603,16) (-9148915396143293,16) (3037168450066471,16) (506121226404133,15) (7664577285695869,16) (-3954539853119775,16) (-9742043807115727,16) (-1484338110447424,16) (-1699800821893989,16) (6614042603660377,16) (-6704875357049256,16) (-3361411442147341,16) (5787503953995953,16) (-9597019286466137,17) (8098380714107801,16), (1711760344154867,18));
  (AB60 (-2349931397074179,16) (-9132629732619757,16) (3327596218881518,16) (4998485810271372,16) (7495733084210359,16) (-4339253983669313,16) (-9778419503775259,16) (-1636896648409399,16) (-1305021597757561,16) (6689185380743492,16) (-6450823284893741,16) (-3693464212513811,16) (5439165520105945,16) (-1044909799316618,16) (832608202915289,15), (1733372881244437,18));
  (AB60 (-2031919543249908,16) (-9100486463992848,16) (3612817333943419,16) (4928141869410875,16) (7310522627449086,16) (-4719075823560624,16) (-9796754543487899,16) (-1789963836543761,16) (-9053341253453015,17) (6750995366810533,16) (-618393720954448,15) (-4022807744065574,16) (5077678719927274,16) (-1126585417904606,16) (8540959203354294,16), (1722854252465746,18));
  (AB60 (-1709314804182806,16) (-9053353481715841,16) (3887805761005191,16) (4852206619059947,16) (7110939517157925,16) (-5088283611324417,16) (-9796427026523483,16) (-1942413964557916,16) (-5069965525431729,17) (6797598415507222,16) (-5908621265518292,16) (-4345210066516774,16) (4708143415199067,16) (-1202318251639633,16) (8740012380065139,16), (1677592449979112,18));
  (AB60 (-1386427790523805,16) (-8993266909374339,16) (4147163883718101,16) (4773694074029085,16) (6899821217221539,16) (-544098447507058,15) (-9777717455238316,16) (-20934456921528,14) (-1171601448224814,17) (6827412265594386,16) (-5630553571520215,16) (-4656533929206603,16) (4336732980167736,16) (-1269267645701324,16) (8920857957747186,16), (160032834507991,17));
  (AB60 (-1068768637251362,16) (-8923938356082194,16) (4384182685161842,16) (469725877227838,15) (6681408124791801,16) (-5770142588898468,16) (-9741976801371471,16) (-2242530231290393,16) (2548453713308099,17) (683891122614983,15) (-5357794116209629,16) (-4952104143609191,16) (3971834212473003,16) (-1323614008582172,16) (9081441457440222,16), (1523813357504066,18));
  (AB60 (-7501378805848616,17) (-8847684909973108,16) (4599539639349335,16) (4626352280143227,16) (6452052663364273,16) (-6080121792298865,16) (-9689502625942816,16) (-2395632246608835,16) (6119517961859307,17) (6830259672883726,16) (-508996298659348,15) (-5238304076329158,16) (3609380833643951,16) (-1362089676770792,16) (9225891919492561,16), (15637503118571,16));
  (AB60 (-4242323904953359,17) (-8748300980859922,16) (482568718703771,15) (4533585553676476,16) (6208581054237084,16) (-6395320423596013,16) (-9621462777168921,16) (-2539719926622838,16) (9885730736105373,17) (6819552814091349,16) (-4795775590131211,16) (-5522158627287013,16) (3226142353572909,16) (-1412805464105873,16) (9359272740714186,16), (1676051842555942,18));
  (AB60 (-8812128900624827,18) (-8618532697686543,16) (5070811451565892,16) (4409902717352471,16) (5947524883020509,16) (-6721585065246081,16) (-9535176120656678,16) (-2671007814666034,16) (1395038924923475,16) (680970635425233,15) (-4464364669090785,16) (-5804941642275947,16) (2813591055410596,16) (-1483160213929723,16) (9480714168918364,16), (1724144664703846,18));
  (AB60 (-4781072869942449,16) (-8683913259985521,16) (131567195962668,15) (4890164657035678,16) (8616490827668438,16) (-1357341314402827,16) (-9160702152976797,16) (-6742243231708267,18) (-4009612235624128,16) (6138414184345276,16) (-7845030193350118,16) (-8805524214115504,17) (7803360838573971,16) (-7714606343183213,17) (6205836616662358,16), (1689042024883829,18));
  (AB60 (-4524910126877904,16) (-8765456467218035,16) (1640719739926151,16) (4872769248245532,16) (8550467706916166,16) (-177359010099191,15) (-9310037242620827,16) (-214988760301869,16) (-3643759922656414,16) (6298500227869814,16) (-7669317502694676,16) (-1229009325589118,16) (7536447141628917,16) (-8811502042214901,17) (6513488988171683,16), (1689788390442039,18));
  (AB60 (-4259052748877175,16) (-8832428629380867,16) (196180381006231,15) (4848563278399408,16) (8468091085410179,16) (-2186976795613855,16) (-9442606447146483,16) (-3643375439706883,17) (-3271764300551169,16) (644602954449103,15) (-7480802637084173,16) (-1576798977848239,16) (7255629651532628,16) (-9872884483260058,17) (6810367088461718,16), (166851349476375,17));
  (AB60 (-3981955996841567,16) (-8888364801633992,16) (2267376808625202,16) (4826657698536128,16) (8366310439631879,16) (-259002414831765,15) (-9555018654915888,16) (-5220543620021136,17) (-2903287403500374,16) (6571980145159216,16) (-7287641846290686,16) (-1923370295035754,16) (6964994506598238,16) (-1078668593341193,16) (709403450716133,15), (1634591146514759,18));
  (AB60 (-369231189895221,15) (-8935611119182081,16) (2553759340189571,16) (4811194455140195,16) (8244103670038542,16) (-2981134447234017,16) (-9646928045947899,16) (-6915074491435388,17) (-2541376934671996,16) (6673446346186227,16) (-7093168705758328,16) (-2269817520468199,16) (6665793598713882,16) (-1150934964280214,16) (7364953795329766,16), (1638132820766215,18));
  (AB60 (-3394321229196867,16) (-8967745777954446,16) (2838682626678032,16) (4786814478070822,16) (8107137621045576,16) (-3370567718643117,16) (-9723302993127839,16) (-8606081569088703,17) (-2171803974601099,16) (6764888947839983,16) (-6884620366449807,16) (-2615010503469723,16) (6352735274484723,16) (-1222517254595768,16) (7625497104748854,16), (1692024239448272,18));
  (AB60 (-3090922946069828,16) (-897930380520594,15) (3133416428640332,16) (4742553443108016,16) (7958540021180457,16) (-3764283141653037,16) (-978626530902646,15) (-1020763784025483,16) (-1785231805275499,16) (6855206087722865,16) (-6652848880386127,16) (-2957321637832517,16) (6021982167373423,16) (-1305691140794329,16) (7875969871748348,16), (1737401269029166,18));
  (AB60 (-2779925420731503,16) (-8972327291162082,16) (3430649739544809,16) (4684396189770897,16) (7795299625315086,16) (-4158092842737207,16) (-9833134325517626,16) (-1177027665846996,16) (-1387110381389234,16) (6938018263468709,16) (-6402484585972817,16) (-3297285808381663,16) (567504148278042,15) (-1392815039342269,16) (8115045929315705,16), (1756124241146803,18));
  (AB60 (-246149735523327,15) (-8949267654587474,16) (372177903921418,15) (4618575585788136,16) (7616119991712085,16) (-4545709606893657,16) (-9861643653754451,16) (-1333147662875389,16) (-9852419780614559,17) (7007206962126927,16) (-613986461454027,15) (-363333360772668,15) (5315934046860794,16) (-1476255377171814,16) (8340354625002316,16), (174608426467789,17));
  (AB60 (-2138569874638469,16) (-8912141175626902,16) (4000032319492475,16) (4549203072683061,16) (7422287924826487,16) (-4920812266736653,16) (-9870944262018712,16) (-1489853250800415,16) (-5871938923382187,17) (7059382141375121,16) (-5870911942526237,16) (-3962009180344843,16) (4950131995282059,16) (-155137598230025,15) (8549235392175536,16), (1698800401506476,18));
  (AB60 (-1817171886571597,16) (-8862820026274431,16) (4260083041036021,16) (4478593504173615,16) (7217971008202659,16) (-5276655640566267,16) (-9861750534511651,16) (-1644849018071772,16) (-2008683718445682,17) (7093827527137864,16) (-5601667493475631,16) (-4277725132329046,16) (4585094893945384,16) (-1616303514727029,16) (8738676545209635,16), (1612839980290213,18));
  (AB60 (-1505521923792384,16) (-8802598182952206,16) (4499740988820023,16) (4406349170396445,16) (7009788349059124,16) (-5607758401531001,16) (-983655387892829,15) (-1792809833893083,16) (1674535351584727,17) (7113280325323386,16) (-5336812890108267,16) (-4573802705554917,16) (4228795477397289,16) (-1672975458950857,16) (8906090159216468,16), (153174387601193,17));
  (AB60 (-1195736385305746,16) (-8731973806261125,16) (4724706122461538,16) (433245927861943,15) (6793372444903358,16) (-5922827654417455,16) (-979617112878486,15) (-1938601361357767,16) (5261710532742905,17) (7118564039723201,16) (-5071465006323321,16) (-4858630331893721,16) (3873343474367404,16) (-1721907438580036,16) (9057165401080968,16), (1555107210334559,18));
  (AB60 (-8711204709985389,17) (-8645371049225694,16) (4949617010054163,16) (4250252566787218,16) (6556952561552625,16) (-6240330618169773,16) (-9738251636214296,16) (-2088418487673069,16) (8971974643939538,17) (7111451089168311,16) (-4788634626160132,16) (-5147450031181172,16) (3497921018044522,16) (-1768317935392493,16) (9199869576841381,16), (1665655883012743,18));
  (AB60 (-5324127679361715,17) (-8533452366897172,16) (5186205486329635,16) (4146080649029631,16) (63000827923276,14) (-6566503792853523,16) (-966133532198823,15) (-2233369574569572,16) (1292540188732833,16) (7098916560789694,16) (-4475129835658596,16) (-5438620837762465,16) (3094831529134708,16) (-1824952956669004,16) (9332286135359267,16), (1735510216323577,18));
  (AB60 (-1847706411295212,17) (-8396056861764266,16) (5428820220287071,16) (4021045308591568,16) (6025108727092521,16) (-6894146753077373,16) (-9564060065219792,16) (-2370948134671745,16) (1705098241030279,16) (7078917394206894,16) (-4135239844932721,16) (-5726143549621846,16) (266991331214242,15) (-18898688821598,14) (9449865528878638,16), (1744471521264387,18));
  (AB60 (-440261231424199,15) (-8671297313688364,16) (2329293392448823,16) (4490098169082113,16) (8617228081862328,16) (-236271001546291,15) (-9540355611021318,16) (-5406923182603557,18) (-2996446450952157,16) (67653223297049,14) (-7211062218572496,16) (-1493651718129956,16) (7177645595558408,16) (-1406165863289833,16) (6819391561530936,16), (1666288788179861,18));
  (AB60 (-4117822578754084,16) (-872454275306198,15) (2631708752863194,16) (4469971822290453,16) (850690255144394,15) (-2766217794781523,16) (-9646634888465412,16) (-2176402016180402,17) (-2625846162912361,16) (6884040373535607,16) (-7014926135602217,16) (-1844125659378091,16) (6880417093683888,16) (-1491976415841722,16) (7101680575153647,16), (1653459977821309,18));
  (AB60 (-382230855971424,15) (-8766105900781738,16) (292324214026393,15) (4449149275394439,16) (8378697032959066,16) (-3162673988121457,16) (-9734708021051427,16) (-3874088678226722,17) (-225507740754267,15) (6984982547835696,16) (-6811465880787496,16) (-2194071867851768,16) (657203403292997,15) (-1567231152171569,16) (7372391415658369,16), (1683575043147414,18));
  (AB60 (-3520764870714663,16) (-8789051787292175,16) (3218195675442654,16) (4413418244390402,16) (8237361662188307,16) (-3559158924014526,16) (-9807566276331348,16) (-5516901251038678,17) (-187277380941505,15) (7079923794729189,16) (-6589370600888693,16) (-2540644434975353,16) (6248407352316822,16) (-1647991061299613,16) (7631613919833057,16), (1728398049861335,18));
  (AB60 (-3213380570592962,16) (-8792226211429067,16) (3517235214709888,16) (436145361037254,15) (8082678051277877,16) (-3955760094338277,16) (-986466723649741,15) (-7095481601511894,17) (-1478134541102606,16) (7169140664931238,16) (-6347432021787521,16) (-2883319069269935,16) (5908907142159133,16) (-1735246029490356,16) (7878688825082428,16), (1749369647306033,18));
  (AB60 (-290038519637164,15) (-877851314147864,15) (3811229819566784,16) (4300083091104279,16) (7913452268552197,16) (-434586684137298,15) (-9903849542495775,16) (-8650608729264433,17) (-1079552650748434,16) (7246252037744619,16) (-6092619722928991,16) (-3220530440355845,16) (5557982701122796,16) (-1820832545623206,16) (8111312910671064,16), (1735962502539329,18));
  (AB60 (-2585443201278246,16) (-8751187304975008,16) (4090501705929036,16) (4235662510532414,16) (7731295682964558,16) (-4720829393172754,16) (-9924055990833741,16) (-1019891622010449,16) (-6877018032183926,17) (7306272594451,13) (-5833554284904705,16) (-3547960707314021,16) (5203226597660987,16) (-1897741398059853,16) (8326164216461449,16), (1675530635786208,18));
  (AB60 (-2275218200306328,16) (-8713702022301578,16) (434681253420621,15) (417304566305238,15) (7540780145541542,16) (-5071718120192227,16) (-9926020376870267,16) (-1172921876760035,16) (-3136458974288424,17) (7346936320498555,16) (-5579207842664057,16) (-3859399765623538,16) (485430225667804,15) (-1961572302877486,16) (851985819725859,15), (157556057186838,17));
  (AB60 (-1972415928878253,16) (-8665775078531578,16) (4584093988108049,16) (4109202271909689,16) (7345168491841558,16) (-5400273744449465,16) (-9912316344016193,16) (-1320606586690019,16) (4453020705516107,18) (7372689673327718,16) (-5328222355908144,16) (-415373247896485,15) (4512042599566728,16) (-2016946135933414,16) (8693296260017738,16), (1538115474633967,18));
  (AB60 (-1661391909059744,16) (-8603189987727425,16) (4819221820955889,16) (403711766121344,15) (7134910724948033,16) (-5726668310330192,16) (-9883136150602325,16) (-1468279262779393,16) (4096044862418526,17) (7388060219389936,16) (-5063914329646436,16) (-4446722147455292,16) (4156467840272133,16) (-2070996395301597,16) (8856339482169329,16), (1613539079669498,18));
  (AB60 (-1330451127324227,16) (-8522712325867757,16) (5058979581724312,16) (3954397310405201,16) (690102440007316,15) (-606123783901069,15) (-9835640909186499,16) (-1621687925794596,16) (7939119452867463,17) (7391688966334917,16) (-4776661327462187,16) (-4748309255691948,16) (377440307017581,15) (-2124363072610973,16) (9013376892129513,16), (1705167656010584,18));
  (AB60 (-984944908840953,16) (-842275939158194,15) (5299717705507202,16) (3859931919212443,16) (6645919701957913,16) (-6397865026254664,16) (-9768379055429521,16) (-1776839689624027,16) (1192313443194641,16) (7382809935095618,16) (-4468661349922319,16) (-5052245362407084,16) (3370514029174856,16) (-2177258352035594,16) (9159649624719645,16), (1760167602698212,18));
  (AB60 (-631871423590436,16) (-8301098285784758,16) (5540081746128945,16) (3750429703962805,16) (637372327261721,15) (-6731265013333766,16) (-9681029466390422,16) (-1927375013167548,16) (1600904128765297,16) (7363136436924201,16) (-4140947720261476,16) (-5351333832728102,16) (2949764453056656,16) (-2232775552355733,16) (929051145009175,15), (1771048939362523,18));
  (AB60 (-2748525371159728,17) (-8158280593661247,16) (5776410116839974,16) (362704848181539,15) (6086509562887444,16) (-7056835030765588,16) (-9573326808487177,16) (-2071771030773803,16) (2014740334124268,16) (7331687567881562,16) (-3796916691647204,16) (-5641788815939658,16) (2516491777721589,16) (-2289592871240241,16) (9403458598655364,16), (1747923936743787,18));
  (AB60 (-3969065604486322,16) (-8576311190834939,16) (3270077152796707,16) (4076834202459808,16) (8509706534367402,16) (-3311241094302655,16) (-979992880240721,15) (-6660465646753734,18) (-1989210719729422,16) (7280306698788978,16) (-6529851649610502,16) (-2087623482730386,16) (6488687708104554,16) (-1979854884756899,16) (7346911355256515,16), (1713716657633122,18));
  (AB60 (-3665875099463702,16) (-8591710288934011,16) (3569856308895,13) (403309377505597,15) (8364756666114268,16) (-3710121361667525,16) (-9868585493931439,16) (-2269536228197431,17) (-1599847618385873,16) (7375996461131227,16) (-6298729185036439,16) (-2433246156670097,16) (6158464132263914,16) (-2066027481077829,16) (760295008395097,15), (1733663688823431,18));
  (AB60 (-33600629392906,14) (-8588838507189902,16) (3865466354971642,16) (3977466586362531,16) (8207262068521304,16) (-4101293563374975,16) (-9919566042154638,16) (-3815764386685979,17) (-1206900557952292,16) (7461356502665575,16) (-6054099687182997,16) (-2770566028410239,16) (5818272478779664,16) (-2153162381338308,16) (7842932941334173,16), (1713107135095674,18));
  (AB60 (-305502817557872,15) (-8571389437831446,16) (4147057505201933,16) (3916815343462485,16) (8038775677010768,16) (-447623091226502,15) (-9951984097760649,16) (-5326137608206786,17) (-821179091126668,16) (7531259087843739,16) (-5804926592558716,16) (-3095636252335817,16) (5475753185495629,16) (-2233849084452052,16) (8063872848664418,16), (1656769637033132,18));
  (AB60 (-2751183851421971,16) (-8543521642941301,16) (4408993689297883,16) (3857194791561433,16) (7859969290005888,16) (-4831452276501932,16) (-9966513610337935,16) (-683552352935413,16) (-448734482456135,16) (7582636127923903,16) (-5557519921040052,16) (-3408460309105298,16) (5135061333836003,16) (-2302449368965836,16) (8266188480859317,16), (1605342996774303,18));
  (AB60 (-2440367731941604,16) (-8505483351653876,16) (4658471668652385,16) (3797729640840778,16) (7666587556919748,16) (-5176937782817431,16) (-9964431512881567,16) (-8388957947341281,17) (-7974001925103827,18) (7617305514759035,16) (-5305959844229182,16) (-371798962158974,15) (4787493730064136,16) (-2360627712690566,16) (8456201309493163,16), (162690068487832,17));
  (AB60 (-2115117587933046,16) (-8451127867433943,16) (490965531962252,15) (3728671126805849,16) (7453896937742875,16) (-5525977928804257,16) (-9945541005973686,16) (-9972309296910671,17) (3028936634586638,17) (7641095516737302,16) (-5035885686351166,16) (-4031564790264513,16) (441956307716943,15) (-241801125139171,15) (8638326446428369,16), (1693676357253067,18));
  (AB60 (-1776364249927718,16) (-8377489417562509,16) (5163545401195473,16) (3646831866978842,16) (7221476855368892,16) (-587800045605298,15) (-9908230751029857,16) (-1156012562193617,16) (7004272556067892,17) (7654364705980699,16) (-4744685349834385,16) (-4347259122585631,16) (4030230294976878,16) (-2476791505534507,16) (8810377268174315,16), (174774805506327,17));
  (AB60 (-1427930784292974,16) (-828565651238319,15) (5413770389854974,16) (3555096854006294,16) (697099558158483,15) (-6226275528769934,16) (-9851377002136621,16) (-131466093079836,15) (1105458185010209,16) (7654206313062908,16) (-4437606612281647,16) (-4660555039016503,16) (3625101473366687,16) (-2533388969303182,16) (8968867243861268,16), (1778020697348549,18));
  (AB60 (-1072347167861858,16) (-8176581206605072,16) (565628776879071,15) (3455475768895803,16) (6703726731604106,16) (-6566561894823689,16) (-977451053516483,15) (-1472854475000966,16) (1513156797368128,16) (7638909062685547,16) (-411822276637412,15) (-4968632566263931,16) (3207948640341141,16) (-2585503965229987,16) (9111763537686512,16), (1785794897839444,18));
  (AB60 (-7122899115465318,17) (-8048905307833,13) (5891329767331549,16) (3345926608896134,16) (6421228314851926,16) (-6897289471700077,16) (-9677475751407095,16) (-1627676992981074,16) (1922792419229848,16) (7609579383246609,16) (-3786145984075547,16) (-5268719028125981,16) (2780186279707019,16) (-2635082330776379,16) (9237256376227683,16), (1771063118410756,18));
  (AB60 (-3494263527962849,17) (-790313081817934,15) (6117060118612162,16) (322725840007288,15) (612453279904871,15) (-7216294146758127,16) (-9560275881278057,16) (-177859801913063,15) (2331890683586529,16) (7565720499554411,16) (-3443215762665895,16) (-5559149083659409,16) (2343981734519931,16) (-2681317036382814,16) (9344318518685042,16), (1735551600482719,18));
  (AB60 (1702679940399274,18) (-7748073588568578,16) (6321951103435403,16) (3112609225477609,16) (5813852152775636,16) (-7517365692524064,16) (-9424037188161718,16) (-1934221435792942,16) (2728792867453314,16) (7500338893120071,16) (-3102086084726315,16) (-5841402092930923,16) (1906671495637655,16) (-2711766068049321,16) (9434560328913012,16), (1677851851141011,18));
  (AB60 (-3483668858877205,16) (-8369003678113502,16) (4221827651315467,16) (3583239495754695,16) (8307465640241739,16) (-4259860250321195,16) (-9958092907405836,16) (-6153803787176257,18) (-9124684747258342,17) (7743529109198399,16) (-5736265256090368,16) (-2670771021028861,16) (5698232657084641,16) (-2571200384151371,16) (7805067147070162,16), (1704636429541713,18));
  (AB60 (-3174760998687778,16) (-8347475432738727,16) (4498949488606689,16) (352271963923635,15) (8132425166200502,16) (-4631857862617036,16) (-9983779331189646,16) (-2150502665382251,17) (-5271656750702337,17) (7806618861304815,16) (-5484829842582958,16) (-2995553964166117,16) (535192146857261,15) (-2647595323617544,16) (802166912784304,15), (1664941626850961,18));
  (AB60 (-2858866404968601,16) (-8316470887409019,16) (4760587658831645,16) (3464434147939666,16) (7942209439762341,16) (-4991893954156031,16) (-9991898414337127,16) (-3742614476466781,17) (-1479677207117423,17) (7850760359124632,16) (-5231310755505482,16) (-3316466427227923,16) (5000004460181096,16) (-2710898684256859,16) (8225021806771311,16), (1661155830109257,18));
  (AB60 (-253226206301505,15) (-8271766077740436,16) (5016526168511172,16) (3401224234448015,16) (7734717920856951,16) (-5348440183060652,16) (-9982774426324416,16) (-5370481568834851,17) (2362076000286572,17) (7880702246075701,16) (-4966248257813244,16) (-3637431834476672,16) (4634334243263764,16) (-2768469663043707,16) (8417750402959187,16), (1698680721863054,18));
  (AB60 (-2196422900456396,16) (-8207604344136196,16) (5273609520287539,16) (3324554634292717,16) (7510380588837999,16) (-5704517498825664,16) (-9955628160730936,16) (-6972237552981965,17) (6319390479382062,17) (790094039928206,15) (-4682018640443397,16) (-3956493682230924,16) (4251110661905272,16) (-2828361948394602,16) (8598164154580257,16), (1743318490217618,18));
  (AB60 (-1852288781370202,16) (-8124535255524979,16) (5528196193347497,16) (3236400284510911,16) (7269107302364314,16) (-6056879743327541,16) (-9909373901725317,16) (-8554279531606654,17) (1035640812616292,16) (7909168524697743,16) (-4381177708377819,16) (-4272041097127204,16) (3852494158397775,16) (-2887929593986494,16) (8764596477858408,16), (1773498226998299,18));
  (AB60 (-1499890969520427,16) (-8025289961683106,16) (5774517132233608,16) (3141845598380171,16) (7010506193062566,16) (-6401687992472811,16) (-9843346329196435,16) (-1014783768620541,16) (1441786026579311,16) (7901578961993239,16) (-4068829196962828,16) (-4583631624959482,16) (3441658336723624,16) (-2941676996099737,16) (8916362730613779,16), (1783642306021447,18));
  (AB60 (-1140831829609713,16) (-7910773344210003,16) (6009839251850739,16) (3042494025115593,16) (6735481472266621,16) (-6736209575413238,16) (-9757406123112863,16) (-1175291871943381,16) (1847082771394785,16) (7877041405022951,16) (-3747566871262124,16) (-4889576796510378,16) (3021196547699626,16) (-2987914601004498,16) (9052333276966332,16), (1775389684714244,18));
  (AB60 (-7774598448988586,17) (-7779677161993325,16) (6234755764641413,16) (2936264847964696,16) (6445462295015316,16) (-7059345900729242,16) (-9651517221641825,16) (-1334214866978008,16) (2251240993116045,16) (78368057456281,14) (-3416761457000412,16) (-5187505841080742,16) (2592171320912584,16) (-3028700838014904,16) (9171020612606109,16), (1751936230548423,18));
  (AB60 (-4115822324744798,17) (-7632772211149179,16) (6447587799993125,16) (2824062628598573,16) (6141777329151679,16) (-7369073314119718,16) (-9526022237426488,16) (-14909948819975,14) (2651760659243837,16) (7780655546594198,16) (-3078434437433363,16) (-547582328784241,15) (2156948923306769,16) (-3063342891718316,16) (9271650428591698,16), (1715632082163812,18));
  (AB60 (-4373934100595548,18) (-7480105184920703,16) (6636724590682574,16) (2719653719278119,16) (5826299148163963,16) (-7658832932197998,16) (-9383410709347896,16) (-165380603675674,15) (3035873688492686,16) (7702572273203953,16) (-2746686118665322,16) (-5755527407770805,16) (1724577777149898,16) (-3079613029498641,16) (9356378309960693,16), (1664808439404526,18));
  (AB60 (-2927788085333116,16) (-8070218490500634,16) (5128316531081434,16) (3060049367296809,16) (7988476522851438,16) (-5178835845395932,16) (-9997838446971087,16) (-8174196764919603,18) (1911665216286693,17) (8106623930729048,16) (-4869521915889652,16) (-3251215888925479,16) (4819002601575155,16) (-3118954606961785,16) (8188365898378244,16), (1677167233522246,18));
  (AB60 (-2599267501585937,16) (-8016344416115545,16) (5383496137029571,16) (2990392965968841,16) (7774615585261324,16) (-5532892770558254,16) (-9980324764831542,16) (-2417288308542207,17) (5785194558734166,17) (8132160272144191,16) (-459682862780197,15) (-3568912421842257,16) (4447431994273288,16) (-3177786957459354,16) (8373889102998412,16), (1709933259273847,18));
  (AB60 (-2263740096944682,16) (-7942804369579124,16) (5638026207821285,16) (2907316453270562,16) (7545052307013916,16) (-5883850501581958,16) (-9944410982699642,16) (-3977520625652071,17) (9749274351908777,17) (8147590598526639,16) (-4306384774878357,16) (-388224388846144,15) (4060560481117684,16) (-323866753213556,15) (8545342661091847,16), (1747966958291233,18));
  (AB60 (-1918531921466779,16) (-7852765959190121,16) (5886705535059303,16) (2816809378320185,16) (7297599959526899,16) (-6229816992249487,16) (-9889232849347601,16) (-5551659996632217,17) (1376540723771822,16) (8148348913716266,16) (-4002527314288298,16) (-4193350102092007,16) (3659415857098114,16) (-3295072645238601,16) (8703514913379488,16), (1768968631669233,18));
  (AB60 (-1564419923552381,16) (-7748878064957639,16) (6124334987344398,16) (2723374205501347,16) (703260492730595,15) (-6567016131641674,16) (-9814573878278628,16) (-7162731376516897,17) (1777946112819338,16) (8131436055194056,16) (-369023889093423,15) (-4501320318320685,16) (3247557746636954,16) (-3342366036371719,16) (8847709192845745,16), (1766870896861049,18));
  (AB60 (-1204017324767795,16) (-7631678249020364,16) (6348844728380785,16) (2627673219993615,16) (6751810517486648,16) (-6892632892072889,16) (-9720641578124618,16) (-8798677315337158,17) (217599634297502,15) (8096650216840684,16) (-3371796849743833,16) (-4803669562968635,16) (2828008686051729,16) (-3380013667742815,16) (89765179483744,14), (1746603359108014,18));
  (AB60 (-8408785012178327,17) (-7499306186406428,16) (6561503643884985,16) (252646858180064,15) (6457554225506579,16) (-7205341763567943,16) (-9607663719847316,16) (-1041751960899849,16) (2570515648326416,16) (8046220264785776,16) (-304616007596233,15) (-5096984230127056,16) (2402321956279372,16) (-3411394149544248,16) (9087972225685624,16), (1718078108684187,18));
  (AB60 (-4787470460683983,17) (-7352655141723191,16) (6760862639691203,16) (2420050670344857,16) (6152863519436984,16) (-7502374641681454,16) (-9476795256519942,16) (-1199791622286207,16) (2958183856539848,16) (7981121687749853,16) (-2715932616828738,16) (-5378234526884704,16) (1974420614838487,16) (-3436930902608246,16) (918091331003606,15), (1683261701905448,18));
  (AB60 (-1179423253686882,17) (-7202749719965381,16) (6935883943624291,16) (2322758774974217,16) (5840098215154295,16) (-7778048888418734,16) (-9331535084388557,16) (-1362651504811087,16) (3326504749021341,16) (7895991213787421,16) (-2395651140764266,16) (-5649263523995558,16) (1553486195969823,16) (-3444447074390029,16) (9258642718598508,16), (1646428999757159,18));
  (AB60 (-2335793369296787,16) (-7662948301558398,16) (598525627384429,15) (2485027419594214,16) (7570716586195777,16) (-6042258608779095,16) (-9913883386360554,16) (-9223171536262105,18) (1306296104382727,16) (8378051978075882,16) (-3928627112516263,16) (-379132352397694,15) (3871624777581458,16) (-3642089473679514,16) (8470283693438504,16), (1740666346130927,18));
  (AB60 (-1989933959335514,16) (-7568563097684223,16) (622551326991244,15) (2395416122950912,16) (731796133873806,15) (-6380393674581676,16) (-9850776215100351,16) (-2506017589461621,17) (1702764434214636,16) (8370327633917191,16) (-3625262945187911,16) (-4098180557165548,16) (3470382540518675,16) (-369269839355015,15) (8620929392863352,16), (1749473176931602,18));
  (AB60 (-1636148032587416,16) (-7463232586984609,16) (6451602821627456,16) (2306483037647077,16) (7048942770008906,16) (-6707648009711413,16) (-9769280954039826,16) (-4142898169757032,17) (2095116605009119,16) (834379604229883,15) (-3317678132412371,16) (-4401599642656196,16) (3061632944328413,16) (-3731264637596535,16) (8758085859274533,16), (1728126210071532,18));
  (AB60 (-1279048172751372,16) (-7346524948811184,16) (6662777720161179,16) (2216827051102802,16) (6766945728058248,16) (-7020977377759672,16) (-9670100015272776,16) (-5795792207529364,17) (2480575260195279,16) (8300025550511044,16) (-3007322295111596,16) (-4697402311298081,16) (2649122637513103,16) (-3759623432946651,16) (887960477126398,15), (1693668401121781,18));
  (AB60 (-9241685339275482,17) (-7214744483733193,16) (6862461260753292,16) (2120036484386221,16) (6475657444293058,16) (-7319242171771829,16) (-9553665310439898,16) (-7390870394401351,17) (2860284860678903,16) (8243410705699378,16) (-2691204049686606,16) (-4980321345065125,16) (2234423138668069,16) (-3784453394606452,16) (8982497745139513,16), (1666304902196936,18));
  (AB60 (-5732423042789115,17) (-7069454117610114,16) (7049412155604919,16) (2017460830381233,16) (6176877981296602,16) (-7601054545393728,16) (-9421156213819828,16) (-8925761363135117,17) (3231891618802781,16) (817429684967264,15) (-2371744058214909,16) (-5249352449184014,16) (18201016684261,14) (-3805133923081693,16) (9066872985986152,16), (1644669587729366,18));
  (AB60 (-2213255784025806,17) (-691952078178581,15) (7216040960165003,16) (1921596060296579,16) (5868695833907156,16) (-7865486494180347,16) (-9274423750494106,16) (-1050824947878654,16) (3588987465175473,16) (8086812072582928,16) (-2058382790329103,16) (-5510583525472051,16) (1408937256313759,16) (-3810313043578054,16) (9137637020461582,16), (1652199365882974,18));
  (AB60 (-1737824303391381,16) (-7177379997378446,16) (6742787484696077,16) (1898211407632198,16) (7078255315600448,16) (-6804049907158897,16) (-9715033378299758,16) (-9912468177799767,18) (2368185118605386,16) (8541874210550278,16) (-2972245893603681,16) (-4266396526237585,16) (2910983471140861,16) (-4106009421996767,16) (8640998892328275,16), (1670499552338162,18));
  (AB60 (-1388091578996322,16) (-7062612904945728,16) (6942096277293593,16) (1813781838487494,16) (6799521855900421,16) (-7104695487739459,16) (-9613765891098324,16) (-263091049045307,16) (2739760663099368,16) (8492787066735781,16) (-2671669613804731,16) (-4553542501586862,16) (2509070403358866,16) (-412785224209569,15) (8755878115781087,16), (1648783062151196,18));
  (AB60 (-1040261882069882,16) (-6929511333695441,16) (7134404522656315,16) (1717431570185201,16) (6510997450289009,16) (-7393060327365201,16) (-9494753293161637,16) (-4185138834064326,17) (3110386797713804,16) (8433322209435083,16) (-2360348770505322,16) (-4827818367899004,16) (2101692965796436,16) (-4150648679783686,16) (8851836092841515,16), (1655132666794151,18));
  (AB60 (-690798248891993,16) (-6781047852933868,16) (7317116084602508,16) (1613956511799914,16) (6210504669461462,16) (-7669731164038023,16) (-9358009393586583,16) (-5705431834724065,17) (3478813111585394,16) (8360529412930016,16) (-2040893308984075,16) (-5092769623385307,16) (168827822954856,15) (-4169611360477387,16) (8931072596402422,16), (1669945372184451,18));
  (AB60 (-3366108920343634,17) (-66230444569598,14) (7484782911247185,16) (1511745578427352,16) (5896771279409985,16) (-7933644420090358,16) (-9204565461935195,16) (-7262731775498155,17) (3840377836687612,16) (8270255312124721,16) (-171978255068801,15) (-5352123415114963,16) (1270921041844837,16) (-4176988728721975,16) (8996528489674537,16), (1700154702064555,18));
  (AB60 (1267464220529053,18) (-6434985310075825,16) (7654462973491564,16) (1382697667497758,16) (5572597795718897,16) (-8187447768837683,16) (-9029327281311208,16) (-8623875143569286,17) (4210408130104543,16) (8174773126632393,16) (-1374864307819644,16) (-55931057976023,14) (8418795124735245,17) (-4197733487899252,16) (9037160640989321,16), (1704416945173919,18));
  (AB60 (-1142904901905866,16) (-6624792547079369,16) (740310016772441,15) (1304842633290154,16) (6524709525022828,16) (-7464954877052158,16) (-9414296876301254,16) (-1000830220565403,17) (3370607914540119,16) (8607859778958024,16) (-2011196708576843,16) (-4675450547830273,16) (1949341999249096,16) (-4513512816445985,16) (8707942801014563,16), (1688329002233356,18));
  (AB60 (-7901135042658976,17) (-6469239407628155,16) (7584501442887831,16) (1197315399704075,16) (621757479596398,15) (-7740038726661834,16) (-9270133843198516,16) (-2516646116641743,17) (3741828891387398,16) (8530152230927731,16) (-1685632400310685,16) (-4939144291091473,16) (1530095116536682,16) (-4531942395653296,16) (8781816842591906,16), (1700654384123419,18));
  (AB60 (-4364047830701882,17) (-6303873099781447,16) (7750531259672805,16) (1089818343874666,16) (5900041310494183,16) (-8000113031190019,16) (-9110062592337872,16) (-4038317892872635,17) (4104105194758928,16) (8436517814260208,16) (-1359531332665067,16) (-5193923538633595,16) (1109949561147853,16) (-4540509977829116,16) (8840349603547472,16), (1702862978235812,18));
  (AB60 (-8693565318630921,18) (-6113752675739911,16) (7912930583044954,16) (9627999283047622,17) (5572438784184918,16) (-8247480966608414,16) (-8929459699853028,16) (-5413138915549928,17) (4468974014190534,16) (8334416619794723,16) (-1016529116808074,16) (-5431773942495297,16) (6819787332446142,17) (-4555909667376844,16) (8875730511349716,16), (1673447993508961,18));
  (AB60 (-530040792054007,16) (-5972144427113558,16) (8003283557419119,16) (6661329432302977,17) (5888034852084522,16) (-8055266133566373,16) (-8996999725562709,16) (-8410957502903663,18) (4364277891886925,16) (858530692562038,15) (-9937161681435892,17) (-5030410835117223,16) (9417335919963352,17) (-4894318683940932,16) (8669416500649416,16), (1667637794210321,18));
  (AB60 (-1823471383311152,17) (-578665024927305,15) (8153614438623561,16) (5483428082341887,17) (5560452485537664,16) (-8293412344791248,16) (-8814653976097657,16) (-2261977637353864,17) (4717065809732452,16) (8475759483122364,16) (-6610395374740967,17) (-526540861796664,15) (5212416313064095,17) (-4899412948063567,16) (870195724685775,15), (1617905605574807,18))].

(** ahrens_beylkin/ahrens_beylkin_15012.hpp:1-30042. *)
Definition ab_15012 : coded := [  (AB12 (5257311121191336,16) (8506508083520399,16), (3981165763719497,19));
  (AB60 (8838076075755241,17) (-943747483223883,15) (3186369862971072,16) (6315004162280236,16) (4988364479855186,16) (-5936071280443187,16) (-8955150884253904,16) (-4449110352383645,16) (1033910661478775,17) (5052263672867663,16) (-5768781021282832,16) (-6418395228428112,16) (3019079603810718,16) (7804165414276465,17) (9501374025251307,16), (9050157591734876,19));
  (AB60 (633952514721404,16) (-9392989705572018,16) (3371920609993138,16) (6109030095475775,16) (5225597266920678,16) (-5947510781538977,16) (-9089146504117618,16) (-416739243865134,15) (1423238875176026,17) (5313558266817573,16) (-5717225894124479,16) (-6251353982993378,16) (3141635722578641,16) (4916286272038014,17) (9480950705468913,16), (9120671859395081,19));
  (AB60 (3731740718677869,17) (-9342371191095834,16) (3546948214996694,16) (5899980083924345,16) (5465348706148643,16) (-5943079885841636,16) (-9216294038786552,16) (-3877022484947191,16) (1691769542265715,17) (5569905813973849,16) (-5669345823789858,16) (-6069157038150917,16) (3273214152944916,16) (2039971176412154,17) (944692829892104,15), (9157224646384686,19));
  (AB60 (1042747503182598,17) (-9284182110376127,16) (3713904861169433,16) (5686331345513981,16) (5705390727689471,16) (-5925719574315018,16) (-9335790866818321,16) (-3578791382686656,16) (1877794723588436,17) (5821444823996759,16) (-5621886005648887,16) (-5874110817872825,16) (3410071292503302,16) (-8350472204058377,18) (9400236206683414,16), (9155896378279104,19));
  (AB60 (2114658976926501,16) (-9460171458061511,16) (245629261192198,15) (7078758734489426,16) (3778326839631196,16) (-5967865704907592,16) (-8228120224055749,16) (-5681844618430315,16) (1211582044239284,17) (3853206727981091,16) (-5771827612133769,16) (-7199916938913354,16) (2260254519148157,16) (1993500772502573,16) (9535051346411407,16), (9030034550420842,19));
  (AB60 (1882484833849319,16) (-9449961598605678,16) (2674785343762245,16) (6889506662894056,16) (402857270459321,15) (-6025387946493153,16) (-8400852396031223,16) (-5421388894012468,16) (184990486173552,16) (4142903112643833,16) (-5726067052268977,16) (-7074497149067608,16) (2375464449538071,16) (1697494347675768,16) (9564292006656301,16), (9103057175424783,19));
  (AB60 (1648263053572947,16) (-9430514706381584,16) (2889398082464069,16) (6694088916687919,16) (4274657642645717,16) (-6075892988989068,16) (-856480440964322,15) (-5155857063735867,16) (2475143690395141,17) (4427629935416122,16) (-567540632717915,15) (-6941603285727433,16) (2488911420654151,16) (1400748684533432,16) (9583486999151989,16), (9118184842890347,19));
  (AB60 (141335769648279,15) (-9401688797299849,16) (3100107704664368,16) (6492823707851765,16) (4515399968198719,16) (-6120000279897794,16) (-8719428317828511,16) (-488628882910113,15) (3094370515173658,17) (4706642583415003,16) (-5619320613164143,16) (-6802260759369131,16) (2599428037930718,16) (1103920644965424,16) (9592931412516134,16), (9106954357572217,19));
  (AB60 (1174454882033894,16) (-9364994074163375,16) (3304170352895203,16) (6287280699446344,16) (4753387869744128,16) (-6154299729956193,16) (-8865598016991352,16) (-4611606204419247,16) (3664150876818733,17) (49798448479223,14) (-5561427664096149,16) (-6653695787128217,16) (2711298287035159,16) (8080397943520204,17) (9591451052341546,16), (9121734037171104,19));
  (AB60 (9264473145035425,17) (-9322518228124621,16) (3497477556716175,16) (607962486313958,15) (499252749470618,15) (-6173559000940857,16) (-9004526490706503,16) (-4329990733418441,16) (4119258752193954,17) (5247111686437315,16) (-5507048933990327,16) (-6491550738358975,16) (2830967489765646,16) (5145214392841472,17) (9577102419855755,16), (916603390171001,18));
  (AB60 (6679634553826043,17) (-9275003550026077,16) (3678061169866129,16) (5871016969260637,16) (5233691395826334,16) (-6175729440309626,16) (-9136254020457492,16) (-4041312154199744,16) (4434620006175747,17) (5507765984927022,16) (-5458192850591363,16) (-6314478969878211,16) (2960524580147866,16) (2245014547650297,17) (9549078139126765,16), (9192728562943838,19));
  (AB60 (4013093181104777,17) (-9221592046890883,16) (3847231595825304,16) (5660820282512088,16) (5474989909499312,16) (-61627590590563,14) (-9260029079743074,16) (-3746602137391571,16) (4635017436920195,17) (5761449740945822,16) (-5412797483917769,16) (-6124322026204108,16) (3097270020686775,16) (-6219242558154182,18) (9508051878337394,16), (9174723531587964,19));
  (AB60 (1299928362840811,17) (-9160552739315948,16) (4008413074113732,16) (5447006302476495,16) (5713777716333021,16) (-6138637189891382,16) (-9375079385472664,16) (-3446775022982927,16) (4771042412581701,17) (60086443536073,14) (-5366666311358932,16) (-5924110543734665,16) (3236442195581283,16) (-347111404974089,16) (9455419376590227,16), (913090421596936,18));
  (AB60 (3282914604484131,16) (-9269283817889091,16) (1817374260598028,16) (7604797407925262,16) (2540307734499571,16) (-5976110189617899,16) (-739321886078868,15) (-6728976083389522,16) (2473777387930493,17) (2693195585133768,16) (-5575844600190651,16) (-7852175146718311,16) (1417108671170781,16) (3035536865691081,16) (9422171668523289,16), (6303865282089546,19));
  (AB60 (3063709831345026,16) (-9321054681572353,16) (1931740586222169,16) (7521759753498329,16) (277887469126092,15) (-5975030180754092,16) (-7560023532282064,16) (-6542179990311432,16) (2143015765460502,17) (2911320349409066,16) (-5628282946059896,16) (-7736061330044379,16) (1584993351527973,16) (2849408254798975,16) (9453500339720499,16), (7226869763341427,19));
  (AB60 (2845611920657346,16) (-935758546850232,15) (2082807479506215,16) (7408384373460378,16) (3020267238222103,16) (-5999485543343722,16) (-7732506967208485,16) (-6337318230280217,16) (2161796711771796,17) (3153873622686376,16) (-5649699487702269,16) (-7624564044637557,16) (1733021423864762,16) (2629432249480166,16) (9491191852966593,16), (8408851787852587,19));
  (AB60 (2633280278490836,16) (-9368390056116391,16) (2301978004102285,16) (7241926120286348,16) (3265176855751644,16) (-6073971202514722,16) (-7916447410376508,16) (-6103213200364748,16) (2839877279682569,17) (3440690924023885,16) (-5614469406274223,16) (-7525913848254605,16) (1842476207861786,16) (2349292550522579,16) (9543904124388634,16), (8902779967872518,19));
  (AB60 (2411319143339978,16) (-936790880024074,15) (2535315502917588,16) (7056278263844281,16) (3516611810800489,16) (-6151615920661598,16) (-8101316578454484,16) (-5851296989440251,16) (3619298786035718,17) (3740296777321619,16) (-5566001075536895,16) (-7418208142447853,16) (1949700657792886,16) (2049389264736406,16) (959159376676187,15), (9042385130858285,19));
  (AB60 (2180877036875304,16) (-9360343885708515,16) (2761835927659211,16) (6865687379938762,16) (3769259594702052,16) (-6217316053466813,16) (-8279667173524877,16) (-5591084291006463,16) (4323053857116896,17) (4036439016591509,16) (-5517831245865666,16) (-7297992765650452,16) (2062351120058064,16) (1748571651163614,16) (9627523307597973,16), (9124182381315797,19));
  (AB60 (1946541971665628,16) (-934456090997132,15) (298163642189655,15) (6670604919699142,16) (4018871245057394,16) (-6273093648347394,16) (-84492122425781,14) (-5325689664913926,16) (497837396041472,16) (4326551676681766,16) (-5467575820681551,16) (-7168442315740615,16) (2176118594230706,16) (1448704575624156,16) (9652241341595692,16), (9162510098756005,19));
  (AB60 (1710778345763551,16) (-9319448230131043,16) (3197048973283626,16) (6469727092181324,16) (4263617824327767,16) (-6321724005425224,16) (-8609456900565756,16) (-5055830405803277,16) (5619882428091876,17) (4610945659661674,16) (-541240792728213,15) (-7031715334990511,16) (2287732895140532,16) (1148790102954363,16) (966677606546495,15), (9171713217896995,19));
  (AB60 (1471820970174262,16) (-9285717150101287,16) (3407227617883803,16) (6263506862910213,16) (4505021635132008,16) (-6361859935998999,16) (-8761099095871477,16) (-4780695514969279,16) (6229711273185955,17) (4890038965824738,16) (-5353871477987674,16) (-6886477990228809,16) (2399239159872478,16) (8488498428556662,17) (9670734480794017,16), (9185422768911841,19));
  (AB60 (1225282197993083,16) (-9245223937522992,16) (3608949692131092,16) (6053701458277574,16) (4746564634392744,16) (-6389274045271501,16) (-8905385106238761,16) (-4498659303130247,16) (675411418278158,16) (5163991847278417,16) (-529643541410767,15) (-6729112876555732,16) (251611106096726,15) (5498707797149255,17) (9662651150408665,16), (9222172203519755,19));
  (AB60 (9690397807372383,17) (-919961900335257,15) (3798417051417995,16) (5842889350251128,16) (4989615271446226,16) (-6400342450500016,16) (-9042406880722764,16) (-4210003731906345,16) (7146652228786946,17) (5431302669762778,16) (-5243989829304769,16) (-6557554573129823,16) (2642064430222748,16) (2543745578585438,17) (9641306401669123,16), (9248904842442367,19));
  (AB60 (7046938183966271,17) (-9149378624343424,16) (3973949850051108,16) (5632790235754684,16) (5232598075717434,16) (-639465335557643,15) (-9171215354374731,16) (-391678054862599,15) (7400263897904381,17) (5689959537179803,16) (-5197265504323623,16) (-6372816625545122,16) (2776561998798301,16) (-3533257139381102,18) (9606740085805793,16), (9221349169397773,19));
  (AB60 (4355300989584904,17) (-9093613209377018,16) (4137210694555574,16) (5422868481520704,16) (547292376699674,15) (-637491983265449,15) (-9290906771796326,16) (-3620689442380278,16) (7547577887144788,17) (5939389733696,13) (-5153696077240751,16) (-6177626270235183,16) (2915986939141836,16) (-3192276897559884,17) (9560079176076278,16), (9133688685584314,19));
  (AB60 (1649703663795124,17) (-9030148208817022,16) (4292925355164629,16) (5210059331854677,16) (5708197164768201,16) (-6346004009349999,16) (-9401027393460245,16) (-332195104404882,15) (7650654928520972,17) (6181033642970487,16) (-5108102038295617,16) (-5975124824706775,16) (3055023384110246,16) (-6000951264725848,17) (9502984687019307,16), (9046745068136713,19));
  (AB60 (4145389834813027,16) (-9044506259301297,16) (1006304945276772,16) (8095002704133329,16) (1479527634591828,16) (-5681718859513659,16) (-6539315834877339,16) (-7564978624709469,16) (9190657980428835,18) (1536329024700633,16) (-5533010889600566,16) (-8186909283937618,16) (8575969753636793,17) (4053483255008739,16) (9101307649410102,16), (8577598581775286,19));
  (AB60 (3961777651042623,16) (-9096499035556899,16) (1248207971378011,16) (7959374945498875,16) (172882154582019,15) (-5801683078182801,16) (-6759069672662824,16) (-7367677489736708,16) (1797374955779997,17) (1839905427140178,16) (-5510861701284814,16) (-8139112441076876,16) (9573865944800233,17) (3782040155464624,16) (9207582916876886,16), (8601210353890139,19));
  (AB60 (3776211222616732,16) (-9141042684600734,16) (147701301297275,15) (782366581380038,15) (1971924410775557,16) (-5907771775564685,16) (-6966851942497193,16) (-7169118273825177,16) (2582967038678459,17) (2131560552947953,16) (-5489838929524444,16) (-8081962517668226,16) (1059080166932509,16) (3517914518748886,16) (930067882677313,15), (8443192695772459,19));
  (AB60 (359305544996927,15) (-9173812337840227,16) (1712051320357118,16) (767605962011278,15) (2209116201395868,16) (-6016470253994808,16) (-7167480548925842,16) (-6964696136444359,16) (3467424227964138,17) (2423414804025538,16) (-5455429228568723,16) (-8022802042909193,16) (1151010294931034,16) (3246313027172856,16) (9388110940469897,16), (8377486371037826,19));
  (AB60 (3500189224030181,16) (-9157588987026312,16) (1971608313199509,16) (7504458915158777,16) (2356342402774251,16) (-6175009868136407,16) (-7312831320851515,16) (-680124658425206,15) (5153086191524273,17) (2674820644106227,16) (-5341223007652005,16) (-8019767534311205,16) (1137821452715107,16) (2984880604877754,16) (9476067228358287,16), (6687017805090115,19));
  (AB60 (3326474594736417,16) (-9197982783421639,16) (2081268720384833,16) (742862720669394,15) (2550964317672456,16) (-6189352056066006,16) (-7454021564818634,16) (-6647018465749183,16) (5046860679750714,17) (2862877461329589,16) (-5372752844433801,16) (-793331327466901,15) (1264669508752627,16) (2821788526761346,16) (9509895927078772,16), (5208976179794597,19));
  (AB60 (3144616163806104,16) (-9234513178746863,16) (2198898709326987,16) (7343168577124375,16) (2752705742159317,16) (-6204876013669919,16) (-7598587615646882,16) (-6481807436587547,16) (4976329996455246,17) (3060259849863815,16) (-5399688906319896,16) (-78408015767699,14) (1393711601976963,16) (264698316416058,15) (9542067286451361,16), (7394127595990697,19));
  (AB60 (2930378612954914,16) (-9261180745141472,16) (2375586746586471,16) (7210196028860208,16) (2993960951044435,16) (-6248941594304557,16) (-777470919273477,15) (-6267219794097036,16) (5252171178510495,17) (3318562981349643,16) (-5399122446148299,16) (-7735413146711259,16) (1525767598430213,16) (2405161495103864,16) (958578277544668,15), (872750686201565,18));
  (AB60 (2708865610976737,16) (-9268195894770409,16) (2600498405657763,16) (7034964292506188,16) (3246177833820354,16) (-6322310248190633,16) (-7961291679624578,16) (-6022018060950055,16) (5942501708302766,17) (3613444637213896,16) (-5360793273966814,16) (-7629214463336464,16) (1638981431433945,16) (211461544014646,15) (9635462698163951,16), (9027579373961562,19));
  (AB60 (2480882025108779,16) (-9263416277794891,16) (2834491707833487,16) (684365004758679,15) (3500538527680525,16) (-6396146030414689,16) (-8144872341824382,16) (-5762877750114367,16) (6710399187984081,17) (3915264005305911,16) (-5310380633990895,16) (-7514689966385198,16) (1748726311409693,16) (180984210631037,15) (9678141755420278,16), (9116821640663597,19));
  (AB60 (2248005290618997,16) (-9250479260453137,16) (3061879433497566,16) (6647527049316863,16) (3752737926348892,16) (-6459670439329182,16) (-8320062806322304,16) (-5497741334104245,16) (7425598441431515,17) (4211665148710184,16) (-5258183372824737,16) (-7390086893460014,16) (1860392366993123,16) (1505445446475845,16) (9709406482814429,16), (9166025175002105,19));
  (AB60 (2012568603643752,16) (-9229100585789328,16) (3282265984500726,16) (6447284125320363,16) (4000624059470953,16) (-6513642187146466,16) (-8485714308078335,16) (-5228476526318375,16) (8097443395370957,17) (4501073583502714,16) (-520344832357761,15) (-7257028464857459,16) (1972072120931869,16) (1202824264106656,16) (9729550109821089,16), (9190675017162181,19));
  (AB60 (1774029441147986,16) (-9199021018640351,16) (3497260619478222,16) (6241739271789492,16) (4245003508086991,16) (-6559011821862339,16) (-8642589399595277,16) (-495401751055336,15) (873704169117923,16) (4784982380714354,16) (-5145328780117054,16) (-7115443440907414,16) (2083577577732937,16) (9003252720300634,17) (9738999891267713,16), (9212290392924486,19));
  (AB60 (1528903583718269,16) (-9161403048083846,16) (3705556371485051,16) (6031409762605454,16) (448887243445633,15) (-6593339104181258,16) (-8792051753831095,16) (-4672530613627516,16) (9312806358285546,17) (506443552046299,15) (-5086495382346043,16) (-6962690398434009,16) (2198712649649837,16) (597622947889714,16) (9736966134090506,16), (9246195316658863,19));
  (AB60 (1275098544455092,16) (-9117575241628747,16) (3904349550842881,16) (5818125662287865,16) (4733721592038088,16) (-661372010799518,15) (-8934420973651982,16) (-4383853649590659,16) (9787487136840795,17) (5338621563540088,16) (-50300714228091,14) (-6796874375971945,16) (2320700865656801,16) (2963498307710125,17) (9722475213130747,16), (9283594963748264,19));
  (AB60 (1013629807381782,16) (-9068951952969925,16) (4089824579161086,16) (560525279802797,15) (497825753528124,15) (-6618012766882153,16) (-9068619704217106,16) (-4090694417688686,16) (1013092217607001,16) (5604382959500371,16) (-497879512505602,15) (-6618345015634971,16) (2450606937334953,16) (5375897747805498,20) (9695077377189056,16), (9274466966503525,19));
  (AB60 (7471823075200201,17) (-9016447084512003,16) (4259741843295678,16) (5395480029524793,16) (5220072978804445,16) (-6606030074632935,16) (-9193437810980523,16) (-3796374105707557,16) (1033559318639621,16) (5858847767112915,16) (-4933695967684845,16) (-6429039348164415,16) (2587407736347588,16) (-2863770111196012,17) (9655221872820472,16), (9171877051367955,19));
  (AB60 (4786852541165241,17) (-895918582418061,15) (441631631513104,15) (5187897308438409,16) (5457045200464183,16) (-6580758253969547,16) (-9308369866612057,16) (-3502140623716426,16) (1043676903099691,16) (6102072999853023,16) (-4892053551481017,16) (-62315742115381,14) (2727611612642509,16) (-564991648983167,16) (960421362356945,15), (9012698836140731,19));
  (AB60 (2112637312854597,17) (-8893612608490747,16) (4567167875821706,16) (4976783887007737,16) (5687222845132611,16) (-6548825730756767,16) (-9413383596304904,16) (-3206389763358136,16) (1052270855934873,16) (6337561999471306,16) (-4846215720483198,16) (-6029054742942609,16) (2864557865548138,16) (-8410071246494129,17) (9543951762829442,16), (8935900037217823,19));
  (AB60 (-5186561837046513,18) (-8814424114637399,16) (4722630356584109,16) (4753676368577712,16) (5908545262339679,16) (-6518562254493635,16) (-95083614401623,14) (-2905878852297721,16) (1070948560391023,16) (6570427872864101,16) (-4785731083578191,16) (-5824624928968736,16) (2989799185668664,16) (-1122814178761488,16) (9476306725161822,16), (9003144829386575,19));
  (AB60 (5064543385810437,16) (-8622055362176512,16) (1027697660161539,17) (8489034406399024,16) (2454836174253045,17) (-5279775813474409,16) (-5461744222485856,16) (-8376571744751207,16) (-4894745323396022,18) (2152324276639711,17) (-5358974456469702,16) (-8440086953165065,16) (1819684090114475,17) (5113490839044398,16) (8591804172415178,16), (7492812901157928,19));
  (AB60 (4844645009922632,16) (-8745973289441807,16) (1933027371823352,17) (8476067294696495,16) (5133203308282441,17) (-5281362083187899,16) (-5675214752319072,16) (-8232652958613563,16) (-1239466743858601,17) (4367170732652666,17) (-5481912015136736,16) (-8352120620310635,16) (3938526691311729,17) (4968591684308493,16) (866937003187883,15), (7430350747023361,19));
  (AB60 (4726587156495266,16) (-8801663038821692,16) (4360064255192777,17) (8363287521160349,16) (7116755795539484,17) (-5435893643907149,16) (-5878102433176834,16) (-8089987459267743,16) (-3833271608342151,19) (709306487411883,16) (-5442096007657556,16) (-8359454249552006,16) (4422087892696853,17) (4730420428103608,16) (8799293946679626,16), (8465895583047502,19));
  (AB60 (4634671755712289,16) (-882682360072458,15) (7791038688739274,17) (8183690700763759,16) (9046399225067875,17) (-5675282647132184,16) (-6098409897908342,16) (-7922183678217792,16) (2200056491846618,17) (1040610891419894,16) (-5319306029034415,16) (-8403696349948421,16) (423127250776159,16) (4414666106527628,16) (8962794569637686,16), (8392957216200445,19));
  (AB60 (4436184259357768,16) (-8904333540910574,16) (1016421865782768,16) (8066402551608312,16) (117730994443738,15) (-5791985080275653,16) (-63411117647507,14) (-7727023596473194,16) (2888043048272163,17) (1355800820917885,16) (-5324689898967933,16) (-8355206856435529,16) (5491266844750463,17) (4147379954530552,16) (9082824417391079,16), (8646302364729172,19));
  (AB60 (4259687731284525,16) (-8956525817904769,16) (1278947108034337,16) (7922823942923148,16) (1427319534902041,16) (-5932252499239282,16) (-656913925156272,15) (-7529206283002728,16) (3968151226581834,17) (1672564767954757,16) (-5290192143528383,16) (-8319639065581332,16) (6368867523234377,17) (3862872608626342,16) (9201771050957486,16), (8668822759438217,19));
  (AB60 (4080030779390844,16) (-9002323242231377,16) (1520370047588445,16) (7783646316432171,16) (1670167565459111,16) (-6051891466639193,16) (-678241866721135,15) (-7332155676772266,16) (4881497252270496,17) (1971860687248349,16) (-5262048619622905,16) (-8271796041659221,16) (7305272005721565,17) (3591881054163795,16) (9304016364020615,16), (8497337293311811,19));
  (AB60 (3893739152383477,16) (-9044740934628529,16) (1741107934233556,16) (7650026728466045,16) (1910301262092156,16) (-6150434142546705,16) (-6984671523200406,16) (-7134439672536373,16) (560476825508783,16) (2256694990163228,16) (-524356358896685,15) (-8210503553974827,16) (8342373806537015,17) (3333262326874694,16) (9391134662699602,16), (8022600000281429,19));
  (AB60 (3754878750431586,16) (-9058378267483586,16) (1961292617825908,16) (7508056996658687,16) (2097501162675608,16) (-6263351260108203,16) (-7148706923083141,16) (-6960877104807978,16) (6649656078499602,17) (2508472509676618,16) (-5187414305257233,16) (-8173022604508647,16) (8853556629749387,17) (3089913142581625,16) (9469349614484596,16), (6690428512437002,19));
  (AB60 (3700778179727193,16) (-9028533454348606,16) (2188566774892442,16) (7353556961352237,16) (2196578614129155,16) (-641094707575242,15) (-7254917036349307,16) (-6831954840219451,16) (8310065323994843,17) (2710168896025227,16) (-5066350261456863,16) (-8184563493751721,16) (8439699605968858,17) (2869771647327708,16) (9542123736244679,16), (6737481642011321,19));
  (AB60 (3469391818353824,16) (-9094284490496654,16) (2292882469000881,16) (7283090502008595,16) (2448884953080344,16) (-6399965251946988,16) (-7431770906976011,16) (-664539953741631,15) (7793883334590372,17) (2930573433593165,16) (-513888843797513,15) (-8062478835467631,16) (1031805655029022,16) (2690003484894786,16) (9575972971009475,16), (7926442506366471,19));
  (AB60 (3240688403518325,16) (-9133034261936059,16) (2466905722074501,16) (7156754857238656,16) (270706093068971,15) (-6438375651585131,16) (-7620804998991197,16) (-642597333124635,15) (7938500572913368,17) (3197687248066807,16) (-5153899276916697,16) (-7950604914529993,16) (1182429347406066,16) (2446838346226988,16) (9623660579313157,16), (8707443970558708,19));
  (AB60 (3009842756438683,16) (-9156415256115973,16) (2664752566202021,16) (7005411828786737,16) (2966647516463433,16) (-6490239411774901,16) (-780997927071698,15) (-618976773965254,15) (8312635683871564,17) (3480396655336218,16) (-5145226704514959,16) (-7836675397173893,16) (1319739858942079,16) (2178579188051527,16) (9670164394988758,16), (9001965225551568,19));
  (AB60 (2780614523568666,16) (-915947069018419,15) (2893489164827778,16) (6822680008012866,16) (3224308265690803,16) (-6561621271915923,16) (-7997654887663612,16) (-5935162424493386,16) (900757066423635,16) (3781006748347257,16) (-5104165722835834,16) (-77234370744365,14) (143603361574769,15) (1879857457145031,16) (9716169172840644,16), (9085367521655571,19));
  (AB60 (2549576185119898,16) (-9149468746541705,16) (3128399420202932,16) (6625738365008916,16) (3478812497090646,16) (-6633057720880688,16) (-8178413045900458,16) (-5670656249451058,16) (9783750565130182,17) (408348153576079,15) (-5050013625697526,16) (-7604113421521935,16) (1545355325019769,16) (157120112860688,15) (9754137785211848,16), (9132624134868488,19));
  (AB60 (2315843805211291,16) (-9130824564344813,16) (3356323918369894,16) (6424465378154467,16) (3729016416841938,16) (-6694824954232776,16) (-8349519112267892,16) (-5401808147502876,16) (1051665028155231,16) (4378981149021485,16) (-4993195193897998,16) (-7476130406309698,16) (1654694158035115,16) (1264178777056061,16) (9780789296524361,16), (9170986155387284,19));
  (AB60 (2078526165312623,16) (-9104385220714782,16) (3576296790388216,16) (621975388003485,15) (3975766104525025,16) (-6745957719545932,16) (-8511450853753881,16) (-5128619116189757,16) (1119138206471983,16) (4667431554233308,16) (-4935154063365665,16) (-7338892086506832,16) (176549313420795,15) (9593879588406398,17) (9796050670423065,16), (9200524260185167,19));
  (AB60 (1834941582648055,16) (-9070382400176235,16) (3789611128182185,16) (6010316075854418,16) (4221746516721291,16) (-6786232903229714,16) (-866587093858958,15) (-4848635883454944,16) (1180428288961951,16) (4951291320581659,16) (-4876259810407396,16) (-7190744364816369,16) (1879638035359866,16) (6545132936861045,17) (9799927204036603,16), (9233542186508289,19));
  (AB60 (158338653318678,15) (-9029401757769417,16) (3995346165642384,16) (5796559735672435,16) (4468344128466453,16) (-6814234805198636,16) (-8813319206476526,16) (-4561057629302965,16) (123375762081909,15) (5230848272011855,16) (-4817973040834142,16) (-7030317356491526,16) (1999084401277892,16) (3496289123676896,17) (979190590131482,15), (9267477940979168,19));
  (AB60 (1325089124900819,16) (-8982054757562555,16) (4191280370390109,16) (5580469816735181,16) (4714184620315756,16) (-682896917477931,15) (-895280006981373,15) (-4267870137246799,16) (1277754045792954,16) (5503880049878491,16) (-476151969942362,15) (-6858223862528136,16) (212383089503442,15) (4733507910786453,18) (977175018712529,15), (929091060465408,18));
  (AB60 (1062246223029899,16) (-8930472208945319,16) (4372447722605043,16) (5366932058654258,16) (4957021511131864,16) (-6828175306475746,16) (-9082875511005621,16) (-3973450697813455,16) (1308839945761185,16) (5765929083445845,16) (-4710427788400579,16) (-6675772004415443,16) (2254700204529876,16) (-2465937227312857,17) (9739379781259301,16), (9229365900727715,19));
  (AB60 (7966572576421403,17) (-8876667227607531,16) (4535428992296599,16) (5159840775700905,16) (5195348989079624,16) (-6810608787111737,16) (-9202908505390379,16) (-3681318238527906,16) (1324526733627985,16) (6013951529469598,16) (-466747951309378,15) (-6484367509328889,16) (2392299718278641,16) (-5278694759858445,17) (9695269767997503,16), (9039758243740316,19));
  (AB60 (5304453526291472,17) (-8818710117892069,16) (4684973808300553,16) (4955916078240322,16) (542795227904823,15) (-6780577400326184,16) (-9313056629441638,16) (-3390757838843838,16) (1330314810536293,16) (6250132047697037,16) (-4628082821141085,16) (-6286230888776615,16) (2532479229115455,16) (-7998694579071457,17) (9640889886540874,16), (8869716512297442,19));
  (AB60 (2665521833632623,17) (-8750292071521946,16) (4833356866258113,16) (4744825713023556,16) (5653090201084944,16) (-6747532892207929,16) (-9413444270187679,16) (-3097201870437002,16) (133955498051864,15) (6480980708844666,16) (-4580087403929566,16) (-6084380693542196,16) (266591137797975,15) (-1073002797155378,16) (9578182579281669,16), (8887385051833638,19));
  (AB60 (7217137607051748,19) (-8665742794735425,16) (4990475901997307,16) (4517725456995878,16) (5869174474128678,16) (-6718850175993489,16) (-9503740922650542,16) (-2796568320606747,16) (1363126591082494,16) (6711633038386438,16) (-4513265020653235,16) (-5880852048078372,16) (2784890746657052,16) (-1355909453475442,16) (9508201358993185,16), (9015829510207414,19));
  (AB60 (5129120884799017,16) (-8552128774474322,16) (7437824775610603,17) (8131911797458552,16) (3563598509159603,17) (-5809046236260267,16) (-5705723235806887,16) (-8195768923558362,16) (5235399774691516,17) (6799253514612501,17) (-4961940758245826,16) (-8655451774927704,16) (-103323000453381,16) (4605580907329865,16) (8875694275019612,16), (8602747019087614,19));
  (AB60 (487877525999598,15) (-8703896167115948,16) (6631315665201526,17) (8217658600286504,16) (6098549100463812,17) (-5665524169733069,16) (-5865541232657034,16) (-8094041257069566,16) (2862205039054792,17) (7867489097370894,17) (-5202409666136882,16) (-8503879104191983,16) (2000170629239651,17) (4592554756090501,16) (8880790166806656,16), (7837105088018938,19));
  (AB60 (4696587705912008,16) (-8764092717946159,16) (1064303881379417,16) (8009473425105715,16) (9113150758432755,17) (-5917587370294256,16) (-6171126473086616,16) (-7852777642102884,16) (5010801900480842,17) (1220999664382248,16) (-5106822591707199,16) (-85105536151538,14) (2535391027923596,17) (4195507515863923,16) (9073777306485132,16), (748641726753984,18));
  (AB60 (4529808909926998,16) (-8818116765845218,16) (1312115827000596,16) (787773634288963,15) (1149832082652134,16) (-6051376396624141,16) (-639027630101323,15) (-7668284683193083,16) (6014805185664986,17) (1521567486697143,16) (-5078160474012634,16) (-8479216861456129,16) (338899904389089,16) (39283283913605,14) (9189852169890226,16), (8495563920802737,19));
  (AB60 (4360379011488103,16) (-8860161971357086,16) (1576269240165449,16) (7727318204125452,16) (1389554246390442,16) (-6193358730812361,16) (-6608725011359585,16) (-7470607724966642,16) (7174774866844101,17) (1832979719324258,16) (-5032455771194135,16) (-8444795690809861,16) (4153662805472236,17) (3642901524803693,16) (9303587444290901,16), (8820848964256175,19));
  (AB60 (4171976425319365,16) (-8906326820815749,16) (1808854683880793,16) (7590154029112269,16) (1636930419866753,16) (-630158873736343,15) (-6820585481882407,16) (-7269396400948996,16) (7971760471845037,17) (2129612312044065,16) (-5011730798001615,16) (-8387330076296773,16) (518996744518976,16) (3374800378134862,16) (9399008712993062,16), (8153349130021601,19));
  (AB60 (4008678872171854,16) (-8934356938839021,16) (202676091071987,15) (7453416038465466,16) (1850392701787968,16) (-6404891584306138,16) (-7002677156199535,16) (-7083964237051052,16) (8831553284801576,17) (2396212712134284,16) (-4975916245479665,16) (-8336571366945623,16) (5977855718933974,17) (3125523543691696,16) (9480176949185336,16), (7455859162631361,19));
  (AB60 (3966555212069972,16) (-8899343571817444,16) (2251249373204148,16) (7299828471435829,16) (1936335525113622,16) (-6554625010006125,16) (-7099611905327687,16) (-6963008046703822,16) (1054528205060054,16) (2588069797936154,16) (-4848362532123539,16) (-8354356676495883,16) (5449868953215616,17) (2912027007009917,16) (9551077844639977,16), (6162224358346867,19));
  (AB60 (3785142356871766,16) (-8933775549753459,16) (2420816342650252,16) (7186841386758628,16) (2152716672178562,16) (-661174120870575,15) (-7268311100605245,16) (-6781058877574896,16) (1090364271095336,16) (2826598851833984,16) (-4847494757954992,16) (-8277205657853964,16) (6565698918994942,17) (269477808577643,15) (9607657729408881,16), (7136027219931315,19));
  (AB60 (3548628229216901,16) (-8991144993685609,16) (256252793025308,15) (7089311563201046,16) (2416536631696316,16) (-6625859360681734,16) (-7458666634360728,16) (-6574608361989293,16) (106902615680557,15) (3077231131464833,16) (-4896138704107648,16) (-8158337720006615,16) (8328072736789933,17) (2479602072411332,16) (9651839493454125,16), (8631125092349353,19));
  (AB60 (3315355460566476,16) (-9024724869976153,16) (2750047125291848,16) (6950633406431843,16) (2679994822043167,16) (-6671305944357183,16) (-7651678172306048,16) (-6344730047932985,16) (1093719235595445,16) (3355950483790707,16) (-4901631047014199,16) (-8044352642027288,16) (9803722279488646,17) (2221636224971031,16) (9700680531723692,16), (889830736756232,18));
  (AB60 (308000394540295,15) (-9044137896584368,16) (2952481228368564,16) (6792394205494362,16) (2942660288858217,16) (-6723401771539724,16) (-7841328310120127,16) (-6101477607726151,16) (1133817152509603,16) (3643397826136774,16) (-4888847081751563,16) (-7926211358003965,16) (1117926538580403,16) (1946186792893347,16) (9744875433862926,16), (8983364391300927,19));
  (AB60 (2848214376624573,16) (-9042212247856884,16) (3182149042627647,16) (660437549994773,15) (3200190422422027,16) (-6792717093765093,16) (-8026231250575296,16) (-5842021825434857,16) (120432259109895,15) (394450271714052,15) (-484408220794765,15) (-7808698091046681,16) (1233514156810204,16) (1643891785525623,16) (9786524542575377,16), (9029714308177656,19));
  (AB60 (2616897202656985,16) (-902619065094445,15) (3417562196000103,16) (6402226241235547,16) (345206581388786,15) (-6862560802836045,16) (-8202457020929111,16) (-557412483705659,15) (1284068191615837,16) (424566360017906,15) (-4784894824929009,16) (-7686294432851384,16) (1339896218093066,16) (1332829011041148,16) (981978843723565,15), (9089863486373102,19));
  (AB60 (2382267752288413,16) (-9002047233124825,16) (3645263497882751,16) (6196338667431109,16) (3700176889630115,16) (-6921999574107562,16) (-8369279724096806,16) (-530187034349471,15) (1358428415704472,16) (453973182181915,15) (-4724016226214055,16) (-7554767083135582,16) (1447280149989244,16) (102383933658394,15) (9841602165313861,16), (9147862971504678,19));
  (AB60 (2140745125854469,16) (-8971638001304665,16) (3863537482628631,16) (5987965493635611,16) (3947818553747581,16) (-6968428654561628,16) (-852844972723551,15) (-5023819447557083,16) (1423651434995173,16) (482768352870716,15) (-4664912244606878,16) (-7411616928630783,16) (1560021072673881,16) (7170936908592966,17) (9851502976264243,16), (9183551844637984,19));
  (AB60 (1891281891708557,16) (-893432858710248,15) (407441106220012,15) (5775256374887302,16) (4196147362294537,16) (-7002768103988035,16) (-8680790945704336,16) (-4738181224807943,16) (1481049370498878,16) (5111486212279479,16) (-4606379883504216,16) (-7256305745386179,16) (1678022841716301,16) (4102325212096791,17) (9849667437087422,16), (9215208342727945,19));
  (AB60 (1635621308218781,16) (-888973481679814,15) (4277541095431769,16) (5558610775161857,16) (4443454866313938,16) (-7025493228328206,16) (-8825282309390853,16) (-4446279950484202,16) (1531334960573635,16) (5389871920109425,16) (-4547741213959083,16) (-7089945735735493,16) (1799789081062647,16) (1042863476451453,17) (9836151870593627,16), (9234302224829667,19));
  (AB60 (1376589346352689,16) (-8838268576526558,16) (4471018937635077,16) (5340189512741004,16) (4687070946689915,16) (-7036600166892126,16) (-8960429445779118,16) (-4151197629836643,16) (1574249784898563,16) (5660010820539437,16) (-4489410508144041,16) (-6914439297639567,16) (1923829278886991,16) (-1976604385458736,17) (9811208450376081,16), (9249612127911194,19));
  (AB60 (1115060942538603,16) (-8784144988810851,16) (4647088971600837,16) (5127550872209269,16) (4925998708725005,16) (-7031554506262861,16) (-9085494281793755,16) (-3858146280085847,16) (160265434107069,15) (5916493563724258,16) (-4438405310192918,16) (-6730205213279958,16) (2053939775530893,16) (-487593398532087,16) (9774639843810105,16), (9127980701582027,19));
  (AB60 (8510245911825608,17) (-8730357344305339,16) (4801730707352961,16) (4925123166139077,16) (5160501706239089,16) (-7008022826608348,16) (-9200891750879231,16) (-3569855638066252,16) (1612365253895379,16) (6156998235425787,16) (-439916104352627,15) (-6537488420034456,16) (2192868924270884,16) (-7613406627128182,17) (9726853873492038,16), (8881108778462125,19));
  (AB60 (5866096775597893,17) (-8671350866363325,16) (4946065430078054,16) (472350985946761,15) (5389516508155537,16) (-6974350608897665,16) (-9307030570684098,16) (-3281834358207789,16) (1615161045109283,16) (6387740931337875,16) (-4360965140606043,16) (-6338670904576893,16) (2332679961786433,16) (-1028551367549493,16) (9669575289545664,16), (8801805477110575,19));
  (AB60 (3249670053678035,17) (-8598476972917872,16) (5095153598432867,16) (4509157524885566,16) (561082370737167,15) (-6941624863140035,16) (-9403470468778861,16) (-2987653265546202,16) (162747384239348,15) (6616657857772231,16) (-4308316870345994,16) (-6136631367279046,16) (2461845605638826,16) (-1302506837025677,16) (9604311123318432,16), (8904742793081678,19));
  (AB60 (6773653732180295,18) (-8507797847363143,16) (5254787107953538,16) (4276491230419159,16) (5822917432028145,16) (-6914134460359501,16) (-9489414856027597,16) (-2684880415334999,16) (1656026221275889,16) (6846397923037699,16) (-4234627748074059,16) (-5932517451695049,16) (2575280395668096,16) (-1588289683954086,16) (9531278338372697,16), (902979785876335,18));
  (AB60 (4819688738715175,16) (-8664681560199659,16) (1301496800702225,16) (784849196055819,15) (8353153124233083,17) (-6140311252199241,16) (-6171257305539326,16) (-782936624777635,15) (7852435463013836,17) (1320622513484065,16) (-48697605048371,14) (-8633735506859573,16) (3094605334008497,18) (4034445192413792,16) (9149988761260416,16), (8496963856684523,19));
  (AB60 (4654315928194685,16) (-8711394204644871,16) (1564913496597494,16) (7703471926960548,16) (1073861284398275,16) (-6285168431506131,16) (-6391859985553712,16) (-7637532920246597,16) (9012307236367427,17) (1630852503311445,16) (-4826946488956217,16) (-860470265059729,15) (1066915540475808,17) (3753085204557943,16) (9268385423558042,16), (8386242155955882,19));
  (AB60 (4503928142808046,16) (-8741984173424557,16) (1814481743092562,16) (7556963226882295,16) (1287943372335653,16) (-6421332311693999,16) (-6587864294832294,16) (-7454040801088904,16) (1018488963403967,16) (1917404168885953,16) (-4773382551739732,16) (-8575452190286262,16) (1665319831382951,17) (3485439179404078,16) (9371444969974857,16), (7540858563074899,19));
  (AB60 (4341555328570797,16) (-8787989327213162,16) (1980439575888665,16) (7461027302704261,16) (1493592106056008,16) (-648862498600657,15) (-6758238121497956,16) (-7294397221157154,16) (1057348889017515,16) (2147069657435773,16) (-4777798545609291,16) (-8518376191721776,16) (2696131354913862,17) (3284206439553283,16) (9441466878592927,16), (6169291469779424,19));
  (AB60 (4240594213663543,16) (-8786192240699171,16) (2195492342168598,16) (7320848345756731,16) (1640827779997866,16) (-6611570440887568,16) (-6895509331385126,16) (-7145364460701304,16) (1181405004444882,16) (2370976227224024,16) (-4700016989216527,16) (-8502253350201613,16) (283938890497558,16) (3059189209218661,16) (9516340687925329,16), (7988183971600775,19));
  (AB60 (4094582420322682,16) (-8782342788934889,16) (2470799453785716,16) (7134960392530352,16) (1842103652469615,16) (-6760103130173476,16) (-7075168740818842,16) (-6940239136465275,16) (133231678575917,15) (2665520709850794,16) (-4604369287033127,16) (-8467277178289523,16) (3150656106453668,17) (2762265634563512,16) (9605759846316069,16), (8685722447817036,19));
  (AB60 (3854443748040294,16) (-8833037017274349,16) (2668467808435052,16) (7002931776707138,16) (2122809914359211,16) (-6815616230267345,16) (-728922234112875,15) (-6710227102915138,16) (1356499129705805,16) (2961172482227051,16) (-4620754532693699,16) (-8359430906412942,16) (4736061108614058,17) (2497944618334489,16) (9671399585142189,16), (8340774877903528,19));
  (AB60 (3617733350317303,16) (-8878139585795006,16) (2844405544422527,16) (6878304117494914,16) (2391231683494676,16) (-6853535109934414,16) (-7486827489187319,16) (-6486907902300331,16) (1366543089047187,16) (3235801759617111,16) (-4642421944764791,16) (-8244847206542102,16) (6332923792529048,17) (2251190261270116,16) (9722709661917442,16), (8913728341380717,19));
  (AB60 (3380077845661535,16) (-8909152037573214,16) (3033493650672955,16) (6735410075150118,16) (2657436689722608,16) (-6897266223634001,16) (-7679900732583722,16) (-6251715347850606,16) (1391107453473375,16) (3517188377972466,16) (-4646407081910768,16) (-8126517528623493,16) (7826345089497214,17) (198897039218816,15) (9768903725823073,16), (8831315519870383,19));
  (AB60 (314345911815032,15) (-8924640241351076,16) (3235654699589344,16) (6573740562772216,16) (2919080563071316,16) (-694729470223212,15) (-7866630685098891,16) (-600555967827976,15) (143156369571209,15) (3803835584081799,16) (-4630975985509547,16) (-8005304258484306,16) (9193359828667709,17) (171189542243823,15) (980939526236156,15), (8811596155795205,19));
  (AB60 (2912533540369331,16) (-8916637347590748,16) (3465649547743328,16) (6380908733668761,16) (3172974149750092,16) (-7015428623940765,16) (-8046513560089779,16) (-5743663197840655,16) (1504643677772972,16) (4102895083571434,16) (-4580864012346451,16) (-7885552411441733,16) (1031084936149014,16) (1407889862596358,16) (9846558281412089,16), (8889204335541206,19));
  (AB60 (2681723180946854,16) (-8894244956862959,16) (3701454771855264,16) (6173565973429993,16) (3421375279249753,16) (-7083874248618905,16) (-8217624671041617,16) (-5472869677613206,16) (1586928561010254,16) (4402151067672051,16) (-4516169899186352,16) (-7760494534440248,16) (1133750422422712,16) (10947946199366,14) (9875020745285257,16), (9009442563461158,19));
  (AB60 (2443751531918941,16) (-8865574280733732,16) (3928062006007083,16) (5963530008396264,16) (3669588535829367,16) (-7139357801417922,16) (-8381270507617817,16) (-5195985744904366,16) (1660131566137573,16) (4695606269498981,16) (-4453208501610735,16) (-7623661574533837,16) (1241912706199896,16) (7836199657813682,17) (9891592014403346,16), (90912601185,14));
  (AB60 (2196615326743399,16) (-8831983959722082,16) (414378334876811,15) (5752124909146238,16) (3919392326198429,16) (-7179931951134095,16) (-8538325325777971,16) (-4912591633523653,16) (1721465675931966,16) (4983316624390696,16) (-4394541977009861,16) (-7473590585078205,16) (1358393374643877,16) (4751496508114332,17) (9895908257914349,16), (9121176974593083,19));
  (AB60 (1943326868098919,16) (-8790951832182561,16) (4352315081421717,16) (5536392916124422,16) (4168230779207507,16) (-7209313812670003,16) (-8687665941810123,16) (-4622721052975054,16) (1776206786918019,16) (5265986944571085,16) (-4335350860388407,16) (-7312599703042441,16) (147835212914012,15) (1671200811808995,17) (9888707997546139,16), (9154111678537707,19));
  (AB60 (1687030083927219,16) (-8742390888817847,16) (455242034999397,15) (5317853591480659,16) (4413134690176492,16) (-7228047826760493,16) (-882763200956402,15) (-4329256198641354,16) (1824953114533661,16) (5541017742833274,16) (-427521165957005,15) (-714280670601432,15) (1599584182803527,16) (-1379230306064422,17) (9870273941474629,16), (9080244247567901,19));
  (AB60 (14300346948796,14) (-86858239526938,14) (4744624646297245,16) (509657188799323,15) (4652159253279584,16) (-7237566529755859,16) (-8957386487763297,16) (-4033664699414216,16) (1869432106693132,16) (5807531834876259,16) (-4212761841466052,16) (-6966003994686362,16) (1719819958007438,16) (-4393974118135318,17) (9841196534290475,16), (9184839587109512,19));
  (AB60 (1170124476174848,16) (-8630161581175284,16) (4914378881716657,16) (4886346291186355,16) (4887056795075903,16) (-7227744862978479,16) (-9077548475558789,16) (-3743104786099381,16) (1894011677408619,16) (6057620386803632,16) (-4163169593842132,16) (-6780357968594974,16) (184980361258031,15) (-7238872012337712,17) (9800725172903012,16), (9007145284404315,19));
  (AB60 (9063889869948835,17) (-85774628771151,14) (5060196596572781,16) (4689304538415668,16) (5119134087783654,16) (-7197561332651888,16) (-9189321933997024,16) (-3458328789331445,16) (1896397737354295,16) (6291172345657005,16) (-4129125337424244,16) (-6585702275769962,16) (1991760601345136,16) (-990008750359411,16) (9749501134988449,16), (8760177912924556,19));
  (AB60 (6430275614176915,17) (-8515800131452232,16) (5202659288903643,16) (4486803826922993,16) (5345389976901629,16) (-7162080522693723,16) (-9292050227167542,16) (-3170410154550604,16) (1899026600055421,16) (6519052961276032,16) (-4089390938263899,16) (-6385830426978414,16) (2129969704473818,16) (-125599903863773,15) (9689463115826635,16), (8794255478500326,19));
  (AB60 (3830880890918788,17) (-8437626813059612,16) (5353475252537685,16) (4267826587562126,16) (556320346411171,15) (-7129966580243787,16) (-9384540380355781,16) (-2874423348947902,16) (1915226425385492,16) (6746878491151909,16) (-4031065127818097,16) (-6183053012947618,16) (2254573800111994,16) (-1532138336293613,16) (9621301840099811,16), (8887232457220831,19));
  (AB60 (1280584880338727,17) (-834093209808304,15) (5514748657809395,16) (4030153736448395,16) (5771015610917691,16) (-7103044395126314,16) (-9465757896104936,16) (-2569916487165349,16) (1948064860656024,16) (6974985907092441,16) (-395100923829554,15) (-5978218597104419,16) (2362713500978622,16) (-1820006372622151,16) (954490239425779,15), (8975135202809019,19));
  (AB60 (455914688466972,15) (-863883668504745,15) (2141186683380218,16) (7327226215357555,16) (129265410626814,15) (-6681377204628184,16) (-6650705164308689,16) (-734618257877931,15) (1342282510009389,16) (2122230319958463,16) (-4509518480928471,16) (-8669508725366944,16) (-3067204031949449,18) (3216864374660331,16) (9468412898737772,16), (9317481392564855,19));
  (AB60 (4397661038732543,16) (-8650972637763517,16) (241272663372392,15) (715137256143033,15) (1513277335648297,16) (-6824064931771575,16) (-6846195202216371,16) (-7137695302115219,16) (147746980588839,15) (2426403893039031,16) (-4433468568492451,16) (-862884236731872,15) (2213027044479604,18) (2920191232844154,16) (9564099195154251,16), (8783172335333259,19));
  (AB60 (4282656095285398,16) (-8632989611827084,16) (2670270984675615,16) (6972513330399326,16) (1676912357615291,16) (-6969363156148546,16) (-6995957286061657,16) (-6956077254211793,16) (1633882151514647,16) (2686707060863148,16) (-4325686301386042,16) (-8606395481913973,16) (2659412991311139,18) (2648773943770751,16) (9642784315074941,16), (6793133208204159,19));
  (AB60 (4087149135883463,16) (-8693921179942206,16) (2776859099414192,16) (6908098974155314,16) (1898484133200197,16) (-6976670162710962,16) (-7158960990503764,16) (-6795437046742008,16) (1603531377994088,16) (2889521026827498,16) (-4382101891089571,16) (-8511630352149402,16) (1822908277928028,17) (2483617757889375,16) (9684958073569506,16), (6800869321144865,19));
  (AB60 (3890162975887353,16) (-8721424084533357,16) (2967051391323843,16) (6774381074313943,16) (213037338698849,15) (-7040544743980274,16) (-7337179524762965,16) (-6591050697544866,16) (1650408229436723,16) (315038176809292,15) (-4370128133439121,16) (-8424789303750666,16) (2966347807826904,17) (223975474645063,15) (9741432465637786,16), (822339958500287,18));
  (AB60 (3665586431658497,16) (-8759559140040761,16) (3135857105189821,16) (6651432156663163,16) (2383290989893517,16) (-7076607543364236,16) (-752183225838759,15) (-6376268150147245,16) (1662902268354245,16) (3411021111705739,16) (-4385975153197768,16) (-8314334425017408,16) (4452247150233531,17) (2002684163304251,16) (9787289261852984,16), (8419223165065065,19));
  (AB60 (3433617814389038,16) (-8787957750447617,16) (3313920228529635,16) (6513693308531114,16) (264018137981308,15) (-711345498081525,15) (-7705521023391196,16) (-6147776370634537,16) (1682198399340557,16) (3679837166426212,16) (-439160079486156,15) (-8195891707871671,16) (5920660425759457,17) (1751419415048481,16) (982761353706075,15), (8367779402379814,19));
  (AB60 (3201755393720515,16) (-8798546955789392,16) (351202703086847,15) (6351557326096633,16) (2894274989785694,16) (-7161067784681919,16) (-7884790699982522,16) (-5904271966003698,16) (1723266714392157,16) (3959312390961404,16) (-4372763669114053,16) (-8074824040488789,16) (7237229153006032,17) (1478488679328359,16) (9863584356965103,16), (8477720552967729,19));
  (AB60 (2973926496955613,16) (-8783599044218385,16) (374221178196948,15) (6153968835144719,16) (3142249483228871,16) (-7228757553080297,16) (-8058192961951719,16) (-5641349560989514,16) (1800194800202245,16) (4254831056124685,16) (-4315981179982239,16) (-7954163635346964,16) (8294354088714215,17) (1173731696753368,16) (9896180617114199,16), (8691982873972075,19));
  (AB60 (2741088957740904,16) (-8755484208780379,16) (3978432806463911,16) (5941162186688312,16) (338955790266045,15) (-72947576447732,14) (-822550885108132,15) (-5365926306119928,16) (1883570815783945,16) (4553668687032295,16) (-424707604461741,15) (-7824733002472257,16) (9307512063081211,17) (8575181419569596,17) (9919594993152223,16), (8887392090169714,19));
  (AB60 (2497783069394586,16) (-87230030297103,14) (4203605343263171,16) (5727112438093147,16) (3639738052166566,16) (-734523587320717,15) (-8387002947946427,16) (-5083264977543734,16) (1954123516877896,16) (4847452803812584,16) (-4183397604683256,16) (-7681235954971043,16) (1041767074739257,16) (5436595525166901,17) (9930717781356319,16), (8982422191795171,19));
  (AB60 (2247076360519708,16) (-8685737240438086,16) (4416855942869372,16) (551286584781388,15) (3889829204953011,16) (-7380890115717885,16) (-854095222456566,15) (-4795908035485075,16) (201280928377643,15) (5133813755198177,16) (-4124096281696289,16) (-752567513159031,15) (1160062108847776,16) (234267076743278,16) (9929721790683252,16), (9018655041507054,19));
  (AB60 (1993810906669255,16) (-8639774356396106,16) (462374492581576,15) (5293973272712366,16) (4135676030864504,16) (-7407430779665778,16) (-8685475291066281,16) (-4504098325531602,16) (2067756572283237,16) (5413619872996522,16) (-4061730365250522,16) (-7361729844995603,16) (1278044511400503,16) (-7394566561398214,18) (9917718198528125,16), (9073647677129775,19));
  (AB60 (1741249390239056,16) (-8581614493364935,16) (4829486851443018,16) (5066004191613962,16) (4374500409740307,16) (-7429626349671407,16) (-8819339736999213,16) (-4207114083624629,16) (2125896914423167,16) (5688376959432351,16) (-3989852885556195,16) (-7191901106037129,16) (1389713387327808,16) (-3846475241841111,17) (989549104305698,15), (8785905372084889,19));
  (AB60 (1719625654204188,16) (-8642641542784183,16) (472732850268985,15) (5159773184170624,16) (4390939238502004,16) (-7355025036782483,16) (-8824314584636012,16) (-4251702304282179,16) (201357881076003,15) (5635399382578296,16) (-4096986081946162,16) (-7173351994930655,16) (1469289547853528,16) (-2939531565558418,17) (9887101686860474,16), (5828047536183022,20));
  (AB60 (1225424585823202,16) (-8469229584401293,16) (5174020180784177,16) (4643417594995882,16) (4842085642046043,16) (-7415718419248011,16) (-9060083731091557,16) (-362714394235525,15) (2181446677561865,16) (6190293833424809,16) (-388606355030738,15) (-6824864272557747,16) (1644365311843546,16) (-956022091738663,16) (9817437775780059,16), (8877273764867237,19));
  (AB60 (9612356799539519,17) (-8417931958244411,16) (5311727356891625,16) (4451424493971226,16) (5072724001205734,16) (-7379179573778125,16) (-9169075529452192,16) (-3345207957038677,16) (2176611508599118,16) (6417943893824173,16) (-3857348172560567,16) (-6628036002570344,16) (1789895955674067,16) (-1215375828645166,16) (976315185086285,15), (8666903246673643,19));
  (AB60 (6994425748943414,17) (-8352084473366652,16) (5454673687231241,16) (4245781076024858,16) (5295768175128742,16) (-734358103991253,15) (-9268175478792652,16) (-305631629823791,15) (2181708958461673,16) (6644138465018189,16) (-3813501791561411,16) (-642749003448653,15) (1924594438880122,16) (-1482266383567331,16) (9700454763256099,16), (875015472494826,18));
  (AB60 (4415747566337977,17) (-8269499977369349,16) (5605388644741072,16) (4023925798391335,16) (5509668857582296,16) (-7311058079979152,16) (-9356406234958757,16) (-2759831119787052,16) (2200226023998409,16) (6869483323345354,16) (-3751017590217685,16) (-6224151822389744,16) (2045348154979605,16) (-1758651267364611,16) (9629314443132407,16), (8737121420493089,19));
  (AB60 (1906509583239982,17) (-8167048199993808,16) (5767406341768198,16) (3782492002906202,16) (5711510807791139,16) (-7285011910795729,16) (-943206957244243,15) (-2455537392202669,16) (2237498535440906,16) (7094360952471731,16) (-3664663230674232,16) (-6019990538347109,16) (2147057661646701,16) (-2046847577116908,16) (95498983446744,14), (8812420126419084,19));
  (AB60 (-5059311798164145,18) (-8047988955474666,16) (5935260239363619,16) (3527695582584334,16) (5899021449984174,16) (-7263395198475819,16) (-949422408845744,15) (-2148967505490492,16) (2289464482908712,16) (731398831645746,15) (-3558963849093821,16) (-5817160065493046,16) (2230828889981621,16) (-2340057600890353,16) (9462955821947953,16), (8903652807591532,19));
  (AB60 (4386904937424543,16) (-8505827429153461,16) (2899304195054529,16) (6787335022250004,16) (1599767335627337,16) (-7167484061202951,16) (-6975382860561434,16) (-6906060093526124,16) (1910593607544974,16) (2780579123778409,16) (-4076078665506906,16) (-8697928629794978,16) (-1921012006415167,17) (2476311329879569,16) (9686639217304532,16), (6951803531470731,19));
  (AB60 (416883033352889,15) (-8568927444749667,16) (3032216367092783,16) (670453916254819,15) (1848815523937716,16) (-7185473942357911,16) (-7160276690188558,16) (-6720111920811951,16) (188958553437083,15) (3016643608829021,16) (-4128060323095776,16) (-8594124696919019,16) (-251972521693522,17) (227924479915806,15) (9736755529640972,16), (8073373360442371,19));
  (AB60 (3959672016993148,16) (-8590944780316151,16) (3242940841181056,16) (6552355849823795,16) (2094154267937227,16) (-7258178195619075,16) (-7348084800201236,16) (-6496790512378924,16) (1948682325910195,16) (3298506178625928,16) (-4105143959020179,16) (-8501038175733991,16) (8990660458215992,18) (2010989691082952,16) (9795296691004852,16), (861746366083542,18));
  (AB60 (3727035696142831,16) (-8633552765486969,16) (3401613082822533,16) (6435601736450715,16) (235269741680219,15) (-7283395166731299,16) (-7533780081772853,16) (-628085534868478,15) (1947566113994702,16) (3556359470588468,16) (-4132166998950319,16) (-8383167850445417,16) (250384915041553,16) (1779469582148129,16) (9837214819273248,16), (8054576262533715,19));
  (AB60 (3493305330784226,16) (-866174895529457,15) (3573642805509238,16) (6300171416841058,16) (2609047457230368,16) (-731441805507032,15) (-771483279484445,15) (-6052701498064201,16) (1961162798679382,16) (3821112724286094,16) (-4141189989335212,16) (-8261334215520441,16) (4004147397741298,17) (1532142532104843,16) (9873814222350296,16), (8011756131862065,19));
  (AB60 (3262476759411236,16) (-8666917705096395,16) (37736961837684,14) (6132996382799282,16) (2860195962823522,16) (-7362447583706043,16) (-7890371041744925,16) (-5806721742272873,16) (2005997864258234,16) (4099970824294808,16) (-4116674857976524,16) (-8138994247057515,16) (5279234580388809,17) (1256478895153003,16) (9906692566567682,16), (8268014255146197,19));
  (AB60 (3032321016499797,16) (-8645763729316441,16) (4006968778232482,16) (5928124123750035,16) (3107904078313226,16) (-7429554267479099,16) (-8061015448985012,16) (-5537859651003215,16) (2086178424060493,16) (4397233250979302,16) (-405404667075253,15) (-8014302547810528,16) (6314611815059124,17) (946142592439304,16) (9935092901982517,16), (8523969576496296,19));
  (AB60 (2793890783296919,16) (-8612296308069233,16) (424529464148551,15) (5708206485544153,16) (3357711220267798,16) (-7492806822525148,16) (-8226781662097101,16) (-5254585087801436,16) (2170114982953127,16) (4698916039228229,16) (-398148702061159,15) (-787832146849728,15) (7339748395719529,17) (6237758003437925,17) (9953501127029664,16), (8736125687389461,19));
  (AB60 (2547416354447176,16) (-8574867524951302,16) (4470158481153726,16) (5489329256895435,16) (3607885578205016,16) (-7539922145750052,16) (-8385097847503459,16) (-4966981946746286,16) (224036256630246,15) (4992505791302876,16) (-3914939366349732,16) (-7729691823197895,16) (8451757017534067,17) (3070537881447158,17) (9959487738049162,16), (8856022852093443,19));
  (AB60 (2297320507264277,16) (-8532489249895996,16) (4681767367919115,16) (5271956201798588,16) (3854418973442196,16) (-757297380052818,15) (-8533901413176229,16) (-46780702764538,14) (2299605435449359,16) (5275653293263902,16) (-3852134045257115,16) (-7571561637247947,16) (9609276126480494,17) (-22849281850817,17) (9953723569717702,16), (891623024079532,18));
  (AB60 (2046813618310039,16) (-8480633347057525,16) (4887679617638258,16) (5049636884389179,16) (409478573690813,15) (-7598282510188081,16) (-8672316117275678,16) (-4385847610149394,16) (2356962855580748,16) (5551468891878043,16) (-3784636499637421,16) (-7406599739969927,16) (1074033607087597,16) (-3101492372707096,17) (9937316502027437,16), (8991413708349919,19));
  (AB60 (1796503846161945,16) (-8418010203685495,16) (5090155021349765,16) (4820386021852393,16) (4328547365437829,16) (-7617582051116436,16) (-8800240605354164,16) (-4089462838247667,16) (2414965627595375,16) (5821078204954492,16) (-3710085584004398,16) (-7235351649447768,16) (1182658554237727,16) (-61846178143343,15) (9910541043202158,16), (9066296446886261,19));
  (AB60 (148514767193381,15) (-8524756498097003,16) (5012271245723092,16) (4849473126791129,16) (4609745538642984,16) (-7431881084994012,16) (-8943872632946349,16) (-3915010959454019,16) (2163291823353537,16) (5946733413060202,16) (-3931601387223256,16) (-7012764950144665,16) (1511991547952336,16) (-678144151419727,16) (9861744372514222,16), (9124307149711009,19));
  (AB60 (1281996259435842,16) (-8302834073029698,16) (5423968284063762,16) (4401308355415298,16) (4790358652632563,16) (-7594797478517766,16) (-903295937769748,15) (-3512475420397135,16) (2463363818434686,16) (6312801219081924,16) (-3608991093633719,16) (-6864672173849984,16) (1438161899179714,16) (-1181367558998844,16) (9825276639479059,16), (8703063143698054,19));
  (AB60 (101767948252472,15) (-8252434324620481,16) (5555326830050049,16) (4213176453482927,16) (501958756591361,15) (-7553336007350825,16) (-9139542773679294,16) (-323284675870687,15) (2453051104809085,16) (6535656524826106,16) (-3584215943629245,16) (-6666227558292012,16) (1586206766328469,16) (-1435371622284365,16) (9768503283532975,16), (8560628563373574,19));
  (AB60 (7579248435070536,17) (-8182424729087837,16) (5698550296733955,16) (400465716976156,15) (5238987170678931,16) (-7517694751593663,16) (-9234784152290211,16) (-2943437558408906,16) (2460678158629729,16) (6759769908086609,16) (-3536233855556256,16) (-6465335328391288,16) (1717089400696548,16) (-1702753315122676,16) (9703207466495515,16), (855650337675311,18));
  (AB60 (5030759890486741,17) (-8098547508563135,16) (5844693559185847,16) (3784974814665568,16) (544838636638143,15) (-7482583220718384,16) (-9318750313695365,16) (-2650161142181705,16) (2477405600920587,16) (697950723166971,15) (-3474056754509517,16) (-6262380415586154,16) (1836167092976981,16) (-1974329611871913,16) (9629668373851415,16), (8297174489587888,19));
  (AB60 (2622502588724656,17) (-798902406359459,15) (6008886694973363,16) (3539852675202564,16) (5639195221610521,16) (-7461160787064324,16) (-9386659796634285,16) (-2349828841984069,16) (2523672378822066,16) (7198910528191859,16) (-3377773101660921,16) (-6063525054024629,16) (1925499009569961,16) (-22614221199496,14) (9548739370175927,16), (8525525237502984,19));
  (AB60 (3127566347167566,18) (-7863090185435011,16) (6178254977628393,16) (3281910811028683,16) (5815428333127352,16) (-7443779599821093,16) (-9440836365610877,16) (-2047661852307659,16) (2584122608616544,16) (7412503936349418,16) (-3262581387982484,16) (-5866033419645227,16) (1997056765789784,16) (-2552846945144868,16) (9460165788657077,16), (8782140341536397,19));
  (AB60 (402864268162299,15) (-8450448331897411,16) (3515673638684026,16) (6323638544136183,16) (2052386673280819,16) (-7469893205826608,16) (-734947407704868,15) (-6398061658616593,16) (2247228916539155,16) (3441250524203617,16) (-3833800438364653,16) (-8570867460675338,16) (-120419128777927,16) (1781413765083835,16) (983931218282021,15), (8801601937428713,19));
  (AB60 (3785235893415883,16) (-8509905158386609,16) (3640536145468281,16) (62340920397032,14) (2317619951287782,16) (-7467578871488537,16) (-753522374760439,15) (-6192285207098827,16) (2208168242567556,16) (3682342978072655,16) (-3894687602136109,16) (-8442260282270756,16) (6764487611585318,18) (1577067650848327,16) (9874628185171481,16), (714965795970511,18));
  (AB60 (3551971495667894,16) (-8532770592805192,16) (3817764333287443,16) (6091893807735252,16) (257253405237623,15) (-7501393096261628,16) (-7714419029629137,16) (-5960236540428961,16) (222785085170243,15) (3949421600593734,16) (-3896654696341694,16) (-8319744659437683,16) (2130259333675093,17) (1324120643965464,16) (9909658141022696,16), (777748412068667,18));
  (AB60 (33189030430283,14) (-8531298396696139,16) (4025149718644933,16) (5914987970666924,16) (282443990182027,15) (-7552182237464288,16) (-7888942803354912,16) (-5706858494875869,16) (227954986013859,15) (4233279194435987,16) (-386379308470998,15) (-8194537830805514,16) (3367605658906252,17) (103935318288971,15) (9940137689311856,16), (8188731761043977,19));
  (AB60 (3082792053070894,16) (-850479454942091,15) (4262025672102801,16) (570214562262048,15) (3075404476794139,16) (-7617573275167405,16) (-8058901025677399,16) (-5429390072626771,16) (2361321176290435,16) (4534781222096511,16) (-3796875353574598,16) (-8063466798910915,16) (4413277505099938,17) (7214708767804587,17) (9964171294723281,16), (8408109847019131,19));
  (AB60 (2841991968095052,16) (-8464336809328298,16) (4503119366787124,16) (5474456457484924,16) (3324489016634322,16) (-7679719999673125,16) (-82211281922351,14) (-5139847792693976,16) (2448472159281398,16) (4837728031578072,16) (-3718008825447976,16) (-7922928616766323,16) (5414081925619754,17) (3935198088136534,17) (9977575824272048,16), (86204937950388,17));
  (AB60 (2597338174813134,16) (-8419857722259576,16) (4728618227618314,16) (5250120509874042,16) (3569861529812357,16) (-7726080719858271,16) (-8373495465180224,16) (-4849996192447219,16) (2522322467063581,16) (5128742545045137,16) (-364487723756191,15) (-7772442976937624,16) (6474147453219523,17) (7501570774955254,18) (9978738737492356,16), (8772604118201276,19));
  (AB60 (2350076848611805,16) (-8371602642436382,16) (4938968313602649,16) (5029498335392094,16) (3810774356186714,16) (-7757715211356878,16) (-8516039280378406,16) (-4560828286249669,16) (2583780238022761,16) (5407638362745073,16) (-3577070966775757,16) (-7613278573414854,16) (7583240690215275,17) (-2337033894109564,17) (9968466648994743,16), (8835676231086629,19));
  (AB60 (2101926751722597,16) (-8313790325438469,16) (5144200069499494,16) (4803428713413613,16) (4046045943584452,16) (-7781811152781687,16) (-864856660848588,15) (-4267744381854017,16) (2643606156320664,16) (567988440105909,15) (-3504366538986386,16) (-7447034869734276,16) (8667554557041932,17) (-5416794045980661,17) (9947628782913107,16), (8913041968975015,19));
  (AB60 (1853051652775917,16) (-8244734617332908,16) (5347013246841344,16) (4569248248275423,16) (4275534992538094,16) (-780011352309787,15) (-8771012590792081,16) (-3969199624794815,16) (2704587301363274,16) (5947061870321952,16) (-3423999343950737,16) (-7273835549638696,16) (9708990676942117,17) (-8515356485873569,17) (9916261495116767,16), (9054492949384875,19));
  (AB60 (1542440444778458,16) (-8355898470014429,16) (5272555190144732,16) (4600426580688725,16) (4559397859904744,16) (-761892160550223,15) (-8919701150337865,16) (-3796500610109685,16) (2454692344490069,16) (6076481160723772,16) (-3647145960193133,16) (-7055118925178794,16) (1300779544835635,16) (-9122518997116114,17) (9872981770833458,16), (9057120482402177,19));
  (AB60 (1335346303813391,16) (-8132315891956884,16) (5664122922599529,16) (4159765000172922,16) (4736150334129587,16) (-7763068668758545,16) (-8998598520264233,16) (-3396165557827297,16) (2737021040278274,16) (6427722364945154,16) (-3334475597664704,16) (-6896786040451196,16) (1235529851505688,16) (-1401674736464883,16) (9823887922772452,16), (8411974071545659,19));
  (AB60 (1072037442837657,16) (-8081658893402839,16) (5791159232125888,16) (3973897559884481,16) (4963099556697764,16) (-7718534898142951,16) (-9102501215124175,16) (-3118559336705075,16) (2723795016537134,16) (6646497455305295,16) (-3311341982998287,16) (-6697692576421616,16) (1383966316981223,16) (-1651757573699477,16) (9765056792010369,16), (8287246195445352,19));
  (AB60 (8164293170868027,17) (-8011768991802372,16) (5928321920425306,16) (376978684284746,15) (5177331525208974,16) (-768010061376617,15) (-9193527695901256,16) (-2834437466593398,16) (2728555066819827,16) (6863671296679368,16) (-326520577547595,15) (-6498341909667286,16) (1513427082135086,16) (-1912125749733024,16) (9698108763272765,16), (7812298635371079,19));
  (AB60 (5703668133021452,17) (-7933645165817304,16) (6060689406427894,16) (3564362101610745,16) (5378242162134165,16) (-7640015317657646,16) (-9272545431362947,16) (-2555403003683138,16) (2736752950501257,16) (70696485043555,14) (-3211856024935054,16) (-6301115052112002,16) (1632530113705301,16) (-2166386137199112,16) (9625051508038638,16), (7206451907650637,19));
  (AB60 (3465082754843729,17) (-7810710113614757,16) (6234800681344753,16) (3308673825194466,16) (5551683340324994,16) (-7630956008733829,16) (-9329320614906764,16) (-2259026773289762,16) (2803671682247357,16) (7284447733249456,16) (-3094519933562011,16) (-6112345507441822,16) (1698364606172935,16) (-2457163406762984,16) (9543474506539219,16), (8190354226375377,19));
  (AB60 (8604303683308367,18) (-7678813019483212,16) (6405343644772515,16) (3036207167632318,16) (5749156271742285,16) (-759793710149699,15) (-9388373291146729,16) (-1929656747740927,16) (2852169662201157,16) (7511894064663907,16) (-2983029646374213,16) (-5888376829833474,16) (1790436189649738,16) (-2766126625368073,16) (9441550812404833,16), (8149209135224331,19));
  (AB60 (3605278288762171,16) (-8399820805435982,16) (4055240917275436,16) (588206958334279,15) (2536317357381125,16) (-767908534132554,15) (-7709125979261147,16) (-5863503448054856,16) (2487710584157586,16) (407380705256337,15) (-3653885061985711,16) (-8369780167500377,16) (3004063793560581,18) (1117567704604585,16) (9937310500618226,16), (790236768510755,18));
  (AB60 (3368137132237189,16) (-8390623704192314,16) (4272363059606603,16) (5692787253540144,16) (2790664464289158,16) (-7733328205480779,16) (-7883527086653564,16) (-5599959239903156,16) (2547637569479386,16) (4365191073243591,16) (-3611164027046961,16) (-824042482301953,15) (1501988811727844,17) (8204995627578029,17) (9965150313146747,16), (8307327731890049,19));
  (AB60 (3130285756916993,16) (-8357764686658454,16) (4510995513463466,16) (5473387405898961,16) (3040402243942887,16) (-7797306233563852,16) (-8049759927088034,16) (-5317362442715567,16) (2631923587235312,16) (4667020476646859,16) (-3538764413624568,16) (-8105310993134273,16) (2524536935241816,17) (4983621696816803,17) (9984382919362427,16), (8458351978001854,19));
  (AB60 (2892234986359995,16) (-8308979032470412,16) (4753508622232873,16) (5239100694568267,16) (3283537207721975,16) (-7859402478412699,16) (-8205109791779075,16) (-5025441824748437,16) (2724171024535769,16) (4967167492052704,16) (-3451601169546202,16) (-7963271719104036,16) (3457073133663756,17) (1680639618242265,17) (999260931680114,15), (8611349552520452,19));
  (AB60 (2650807059296153,16) (-8256998916420674,16) (497947696335805,15) (5009458394372416,16) (3522694503206865,16) (-790543800381281,15) (-8350646497467286,16) (-4734304413213808,16) (2802332028393782,16) (5254630944516657,16) (-3371169534109236,16) (-7811790422766198,16) (4452084936544753,17) (-1515249690976291,17) (9988935357730466,16), (8732065515423341,19));
  (AB60 (2405021583852578,16) (-8203706246855308,16) (5187974074386883,16) (4786143274621419,16) (375932194561455,15) (-7934754631620123,16) (-8487732266510304,16) (-4444384301240757,16) (2864585337343707,16) (5529733047767545,16) (-329975819212342,15) (-7650728611965126,16) (5529776348901812,17) (-4595637534911298,17) (9974117349008302,16), (8741952082810153,19));
  (AB60 (2157369683843099,16) (-8140693243464867,16) (5392111790666082,16) (4556567180080173,16) (3991252063239408,16) (-7956607474363895,16) (-8615351179832605,16) (-4149441180225459,16) (2925382357915984,16) (5799237790520796,16) (-3223239389166523,16) (-7481949537996156,16) (6587437054687109,17) (-7680126740728849,17) (9948678970746255,16), (8771579931827286,19));
  (AB60 (1909727466068879,16) (-8063998887477702,16) (5596861883957878,16) (4315619442251081,16) (4216522906376892,16) (-7974732811177027,16) (-873220484292918,15) (-3847475981100811,16) (2990907413474468,16) (6065005345108148,16) (-3135342958971303,16) (-7306526855725549,16) (7574720317521534,17) (-1081179947405589,16) (9912481326208958,16), (8961106032208114,19));
  (AB60 (1598790617098718,16) (-8179202746918117,16) (5526708874862528,16) (4347813056394458,16) (4503999559074351,16) (-7798109360511939,16) (-8886414988995559,16) (-3675203187843765,16) (2743084062040039,16) (6199318743413221,16) (-3359706114133031,16) (-7090897118434497,16) (108830562848362,15) (-1144293444941321,16) (9874521931256987,16), (9030120729793107,19));
  (AB60 (1399090130651627,16) (-7967252606808923,16) (5879237425517839,16) (3938366671661219,16) (4668522889495256,16) (-7917964510517017,16) (-8952918843111821,16) (-3298729717313667,16) (2993931602552901,16) (651887437986539,15) (-3073681417593982,16) (-693229827421412,15) (1034954332594804,16) (-1594841471901274,16) (9817604097179058,16), (7238161328437449,19));
  (AB60 (1150746140227714,16) (-7917242196789585,16) (5999421581963169,16) (3761072808345371,16) (4881571139985646,16) (-7875569473732316,16) (-904929416322506,15) (-3035671056803938,16) (2982444698951469,16) (6724823333504601,16) (-3049872581261891,16) (-674351750729684,15) (1173724689492745,16) (-1831698558723755,16) (9760494390308539,16), (7158726857095232,19));
  (AB60 (9076376859494649,17) (-78660953684216,14) (6107432970237214,16) (3590563817002066,16) (5086053951351693,16) (-7825593056118839,16) (-9137045847852208,16) (-2780041417069907,16) (2964078759686164,16) (6917955370169374,16) (-3029612877614994,16) (-655464257668823,15) (1311452791733369,16) (-2056441073736699,16) (969799678723928,15), (614022890161875,18));
  (AB60 (6528458888026741,17) (-7793897293027613,16) (6231288569085073,16) (3391491552277545,16) (5294359292466262,16) (-7776088009603942,16) (-9219299172666932,16) (-2499538000561351,16) (2959194577687078,16) (7123242120801268,16) (-2988010603581858,16) (-6350686129964623,16) (144321116306299,15) (-2306348688884404,16) (9622780121362619,16), (6368721044942161,19));
  (AB60 (3566551447599348,17) (-7649518549849609,16) (6430992385567177,16) (3083306813693225,16) (5523505139518902,16) (-774494093368963,15) (-9293874197536248,16) (-2126013410330706,16) (3017278472309766,16) (7388285788929696,16) (-2862881811969071,16) (-6100585286002991,16) (1548933263846618,16) (-2660623327549831,16) (9514299199260402,16), (6140873276107382,19));
  (AB60 (535136847454474,17) (-7499363145362062,16) (661488387649626,15) (2776206931356904,16) (5750499625944516,16) (-7695740973181066,16) (-9358017531817231,16) (-1748863519417546,16) (3060879655368993,16) (7642227288435619,16) (-2743133655320971,16) (-5837086586725897,16) (1662276558636165,16) (-3007365970623546,16) (9391090807853165,16), (7971339956381937,19));
  (AB60 (3181449966281403,16) (-8200648534592659,16) (4756862382299001,16) (5239154944566526,16) (299642849385436,15) (-7973247252408632,16) (-8029773114196413,16) (-5204220040738299,16) (2904967728238351,16) (4791797286127229,16) (-3272910731897413,16) (-8144122672804878,16) (5652586178778126,18) (2764822380430525,17) (9996017326865528,16), (8579559131653463,19));
  (AB60 (2945644515271284,16) (-8144871979462863,16) (4998423634288405,16) (5000382245855752,16) (3233957365570113,16) (-8033535781522692,16) (-8178297450931795,16) (-4910914613892751,16) (2999728064198006,16) (5087891266251406,16) (-317987381664339,15) (-8000110310053758,16) (144761669409104,16) (-5408354892672209,18) (9998805880144157,16), (8626157689254348,19));
  (AB60 (2704811611001374,16) (-8086861994298572,16) (5223663200682207,16) (4766409938593424,16) (3469393139168329,16) (-8077415895146762,16) (-8318407630511423,16) (-4617468855130243,16) (3079460320340486,16) (5372604284145388,16) (-3094744429829216,16) (-784587025893391,15) (2409917353646616,17) (-3746487093391124,17) (9990073139275631,16), (8661641276247789,19));
  (AB60 (2458044544305241,16) (-8030625728716984,16) (5428357709609791,16) (4542311372312782,16) (3704167838900619,16) (-8102255736411452,16) (-8451514007680688,16) (-4326457889816364,16) (3139056085134964,16) (5644211192106211,16) (-3023156298070897,16) (-7681367457447746,16) (3492582712692367,17) (-6810115408297229,17) (9970669081922574,16), (852820599793679,18));
  (AB60 (2218663233918963,16) (-796698129440541,15) (5621809540446078,16) (4320123134894093,16) (3925789073304436,16) (-811940368815816,15) (-8570723387188494,16) (-4041192221100974,16) (3195538460480984,16) (5900740454239197,16) (-2948913846742415,16) (-7515661595375077,16) (4513196990303333,17) (-9768752265620211,17) (994193267534017,15), (650339054611093,18));
  (AB60 (2167926858662275,16) (-7951361491498704,16) (5663562798009945,16) (4270931417924546,16) (3971928227824477,16) (-8122987810922538,16) (-8594641732157414,16) (-3979433263674227,16) (3208776152339282,16) (5955060952260264,16) (-293107893414747,15) (-7479707570263827,16) (471653921234876,16) (-1040849293677007,16) (9934494215934491,16), (219330201187887,18));
  (AB60 (1659174131262348,16) (-7995641569714362,16) (5772075631071155,16) (4095285098481478,16) (4439190178857139,16) (-7970083469957757,16) (-8841934723177923,16) (-3556451390857224,16) (3028505218012719,16) (6310909338695408,16) (-3069859092106768,16) (-7123790316494196,16) (8718512532201662,17) (-1369331086750371,16) (9867360729552633,16), (8804177906783174,19));
  (AB60 (1440952142914328,16) (-7826554260968744,16) (6055469042274314,16) (374935958362574,15) (4618765201759832,16) (-8037991709605471,16) (-8914271225417003,16) (-3207789059208912,16) (3200915161531472,16) (6597039566691142,16) (-2858802183142689,16) (-6950274745157212,16) (8762795158115323,17) (-1759963018617144,16) (9804828625900054,16), (5300925680097182,19));
  (AB60 (1186684443881227,16) (-7766861002538451,16) (6186085207778641,16) (3557185600232011,16) (4834988077064007,16) (-7998082326417435,16) (-9009859487771287,16) (-2931872925474444,16) (3197898240952589,16) (6811397882536208,16) (-2823774279992645,16) (-6755083841184599,16) (1011777161353852,16) (-2011213797071362,16) (9743270808010651,16), (5869288275421425,19));
  (AB60 (9121866429011007,17) (-7725068553161196,16) (628420491211679,15) (3389490460858772,16) (5066485894410387,16) (-7927299357125853,16) (-9109933023579019,16) (-2658582658750809,16) (315294442584926,15) (7015112714224753,16) (-2825728111462228,16) (-6542434886708032,16) (1182633666453165,16) (-2240757782948159,16) (9673695372975561,16), (6478552475914435,19));
  (AB60 (6246840853830649,17) (-7635917721816265,16) (6426704469564585,16) (3157272968314836,16) (5298539718638552,16) (-7871283520084772,16) (-9197901440881546,16) (-2337378003177714,16) (3152026832704656,16) (7246599434701707,16) (-2771196971316961,16) (-6309299801019492,16) (1326617920796774,16) (-2527342747321591,16) (9583977437879422,16), (7946850347482078,19));
  (AB60 (3633008436248857,17) (-7487372047396231,16) (6618706242226724,16) (2860324243188979,16) (5495062176758433,16) (-7850021458402791,16) (-9254498215914013,16) (-1992309870637799,16) (3222571046696031,16) (7486720614777904,16) (-2635791973687289,16) (-6082895289885009,16) (1404476757511223,16) (-2859270203071145,16) (9479030485415703,16), (833525017299302,18));
  (AB60 (1655201957744871,17) (-7321369832936578,16) (6809562895968948,16) (2569479722371872,16) (5631046924293948,16) (-7854239905472676,16) (-927674551152765,15) (-169032290864263,15) (3329384504509732,16) (768871970969819,15) (-2467182615558702,16) (-5898864226881604,16) (1422505606054973,16) (-3163864308735245,16) (937904261834082,15), (8067591527661732,19));
  (AB60 (-102995599780737,16) (-730243460044027,15) (6831093676177964,16) (2460419463300736,16) (5845466526894816,16) (-7731549466152511,16) (-9355167920834877,16) (-1456968073545453,16) (3218396682457166,16) (7834545065933247,16) (-2524074244656913,16) (-5678816145757902,16) (1623618454682366,16) (-3321392282237903,16) (9291513139478701,16), (5931752758787402,19));
  (AB60 (2751916523368286,16) (-7911224991439672,16) (5462552021100849,16) (4519428426670091,16) (3417286668391049,16) (-8239958648090603,16) (-8281202502126894,16) (-4493938323048623,16) (335055271073329,15) (5488042124722317,16) (-2818650481026045,16) (-786998113740338,15) (4124385403629123,18) (-5986361873650035,17) (998198044777094,15), (8529631768450166,19));
  (AB60 (2500122032180655,16) (-7854472342133618,16) (5661859593001481,16) (4296052006088404,16) (3654205793023711,16) (-8257767082160634,16) (-8412751207179783,16) (-4200266549109907,16) (3403436211026065,16) (5757645049979979,16) (-2750891614178301,16) (-769948821711447,15) (154984125019149,16) (-9033141788454098,17) (9957911599089886,16), (8268470500527259,19));
  (AB60 (2247827548278151,16) (-778831195664351,15) (5855720978599097,16) (4067633153960771,16) (3885142588045578,16) (-8268012312240086,16) (-8534120306875627,16) (-3903169368597933,16) (34545708080472,14) (6020184763961935,16) (-2678399328276528,16) (-7522203962007971,16) (2661079946355396,17) (-1206743259769049,16) (9923354132559868,16), (7749136317282423,19));
  (AB60 (195803909754942,15) (-7873431834825394,16) (5845951935726627,16) (405183154735651,15) (4159127508283278,16) (-8141518254090442,16) (-8687648769496424,16) (-3714304326542115,16) (3275469772062901,16) (6183479156541022,16) (-2841696833769798,16) (-732730131941941,15) (5461305154059826,17) (-1317430674513481,16) (9897783483083137,16), (883375725135002,18));
  (AB60 (1709927436168595,16) (-780220176860939,15) (6016792810538385,16) (3832114056002154,16) (4377031759385683,16) (-8133664293485426,16) (-8792113592692382,16) (-3425170009223707,16) (3311638413400281,16) (6423736857316832,16) (-2775320782153997,16) (-7143752469402436,16) (6584492992069552,17) (-1601710977231686,16) (984890686654054,15), (8703578485422408,19));
  (AB60 (1463532065418276,16) (-7697120706271356,16) (6213888213235031,16) (3572413632538224,16) (4584735099435427,16) (-8137448304355602,16) (-8881789285719426,16) (-3112385606835929,16) (3380366092369309,16) (6673916238937326,16) (-2667901072484395,16) (-6952779724907533,16) (7443409813638235,17) (-1916834026951032,16) (9786301845773255,16), (6555046348509442,19));
  (AB60 (1196429494666057,16) (-7629511730862926,16) (6352881803789374,16) (3365680793579682,16) (4809972512301479,16) (-8095452873473666,16) (-8979128504522572,16) (-2819539218561447,16) (3380155306234338,16) (6899023378807609,16) (-2626246700733198,16) (-674583609981402,15) (8836756310489055,17) (-2183725811568281,16) (9718562597369056,16), (6675112681251181,19));
  (AB60 (9269674172410852,17) (-7557971438220626,16) (6482113786907372,16) (3159919128226612,16) (5032136644956947,16) (-804316553911139,15) (-9069135544815288,16) (-2525834793263679,16) (3372082304290117,16) (7116198121870304,16) (-2587021757907916,16) (-6532001432516729,16) (1025970005703898,16) (-2445114887049031,16) (9642032915133983,16), (8190763925246143,19));
  (AB60 (6785730807007842,17) (-7441836513211806,16) (6645194345147161,16) (2907665649836678,16) (5225419085968378,16) (-8015015648441196,16) (-9133478767260029,16) (-2216417427243427,16) (3415707744556294,16) (7336442567740412,16) (-2488284422112869,16) (-6323373394392973,16) (1118463118818833,16) (-273713466385551,15) (9552859994983839,16), (8916824089339863,19));
  (AB60 (4707297567252949,17) (-7288516597688051,16) (6830515302768829,16) (2626739634515191,16) (5374175234788985,16) (-8013643331110248,16) (-9166327948111819,16) (-1914341362899066,16) (350909234617129,15) (7542913574384954,16) (-2335812645342989,16) (-6135831980686481,16) (115268461700157,15) (-3038362589445995,16) (945725493728402,15), (8714181141832737,19));
  (AB60 (2642175365207939,17) (-7121228088695469,16) (7015575500425433,16) (2335054503358953,16) (5514789622042514,16) (-8008409073652223,16) (-9187334585790767,16) (-1606438466652955,16) (3607248073197972,16) (774419153713143,15) (-2171759085365335,16) (-5942302576556925,16) (1178925512138544,16) (-3343030536677178,16) (9350630003784385,16), (8644939974421625,19));
  (AB60 (-358182140013473,17) (-713034400356386,15) (7011199002052834,16) (2251901536761672,16) (5760729188196176,16) (-7857667509445474,16) (-9285237412483656,16) (-1369614815367684,16) (3450872563764008,16) (7893485723446821,16) (-2274038410430821,16) (-5702774100525679,16) (1427569903038181,16) (-3486690777765355,16) (9263100538814506,16), (7986849078646997,19));
  (AB60 (2283054558215337,16) (-762642903976843,15) (6051879211087161,16) (3849473751597418,16) (3836318107333202,16) (-8394296588464688,16) (-8490347647537125,16) (-3790110932435228,16) (3680904229098575,16) (6111242030249351,16) (-2438468436449964,16) (-7530377980695993,16) (9605105907243698,18) (-1397849670883238,16) (9901352962684579,16), (6746005257020439,19));
  (AB60 (2007614668641131,16) (-7675760766793099,16) (6087050188163128,16) (378668286177707,15) (4094687952065074,16) (-8300274903853303,16) (-863295894840712,15) (-3581072814728026,16) (3556393860462212,16) (6292660235212172,16) (-2545908760243993,16) (-7343076722239282,16) (332684044553818,16) (-1548779191821081,16) (9873733049940198,16), (8828756507212523,19));
  (AB60 (1756493997242057,16) (-7602208203337197,16) (6254690981236821,16) (3565756636323396,16) (4312876415148086,16) (-8287609826613163,16) (-8734874626229462,16) (-3289331788189112,16) (3589186767397503,16) (6531115829371106,16) (-248018364499264,15) (-7154943403720899,16) (4472647996162991,17) (-1832692770155445,16) (9820447617560217,16), (8791657955250837,19));
  (AB60 (1498852971736971,16) (-7529949455861294,16) (6407284991421051,16) (3351385621201766,16) (4532337151878689,16) (-8259911280377182,16) (-8832328531950584,16) (-2997612303982605,16) (3606146583086127,16) (6761058308640212,16) (-2425043540529533,16) (-6957532204287893,16) (5724172515734009,17) (-2107293611349156,16) (9758670612622817,16), (7711864815974861,19));
  (AB60 (1238241174671948,16) (-7461699905246918,16) (6541390778526014,16) (3148584207116114,16) (4750492716591162,16) (-8217008971658319,16) (-8924699853425269,16) (-2711207188655756,16) (3605424816363855,16) (6978767796986373,16) (-2383309074899255,16) (-6754009023479969,16) (7076908817669492,17) (-2367183641691907,16) (9689974985642128,16), (7785705748106874,19));
  (AB60 (9948611563121125,17) (-7361484478963036,16) (6694684275277486,16) (2915652914013713,16) (494465387001698,15) (-8188367736657255,16) (-8995479180603291,16) (-2416830608946056,16) (3638720121003288,16) (7193506580345141,16) (-2300794905325805,16) (-6554373035017,13) (8071114439460365,17) (-2643858964691175,16) (9610337189291198,16), (8555144013396917,19));
  (AB60 (7817909144103176,17) (-7228570702220107,16) (6865607662046425,16) (265681939071442,15) (5103392659587374,16) (-8179039924538428,16) (-9039253695559409,16) (-2125178042632735,16) (3711537540484707,16) (7397249010128111,16) (-2173646033512984,16) (-6368356931199127,16) (8602137710209809,17) (-2929746626074389,16) (9522427052760846,16), (8816462624992061,19));
  (AB60 (5739145599371338,17) (-7074557933634535,16) (7044235382320838,16) (2378669257179825,16) (5249760780023351,16) (-8172022045826614,16) (-9068205934821076,16) (-1824797153611184,16) (3799704787460247,16) (7598107485889479,16) (-2023970552500238,16) (-6178374044640073,16) (8961838889944632,17) (-3225790227523114,16) (9422904639500664,16), (8827414216506,16));
  (AB60 (3542880273369724,17) (-690919856228852,15) (7220627065605586,16) (2088826542950273,16) (5399270719440907,16) (-8153813793045219,16) (-9090491565854458,16) (-1509927842847612,16) (3883694246529008,16) (7799525765708247,16) (-1869864500248873,16) (-5972520789479281,16) (9366777728092386,17) (-3529406219192035,16) (9309453608555859,16), (8644800460017291,19));
  (AB60 (5360851068186536,18) (-6931361394888247,16) (7207867600132186,16) (2020221303396767,16) (5649664082904777,16) (-8000000102227349,16) (-9194957021841299,16) (-128169731198347,15) (3716183171877531,16) (7946391591545483,16) (-1987089421709112,16) (-5736404475274297,16) (119495691961395,15) (-3662574661195665,16) (9228088903528954,16), (8493820763000142,19));
  (AB60 (1799750581693014,16) (-7395686123333238,16) (6485732388006141,16) (3296523080215831,16) (4246015784302682,16) (-8432335710884429,16) (-8669948437463295,16) (-3149670339030556,16) (3861550316538541,16) (6632585129191415,16) (-2184216049457154,16) (-7158073396754372,16) (2376127265788661,17) (-2061799734845527,16) (9782255468221972,16), (867390644831501,18));
  (AB60 (1541235135405699,16) (-7348684486633665,16) (6604652191697961,16) (3119152389305325,16) (4468406595616262,16) (-8384761825391581,16) (-8771268882667018,16) (-2880277891017403,16) (3843025040052904,16) (6843526689985883,16) (-2166616690969057,16) (-6962177429358229,16) (3865070572754366,17) (-2301789904647205,16) (9723804581003286,16), (7357371519236563,19));
  (AB60 (1300750970425189,16) (-7268050603666756,16) (6744144670414273,16) (2909858274447452,16) (4665750976990934,16) (-8352454288611093,16) (-8850094634239549,16) (-2602299626675821,16) (3860551983590847,16) (7051703318185905,16) (-2105949963825276,16) (-67704102580383,14) (4976403456284562,17) (-2559801013165658,16) (9654002944861725,16), (7961977691952049,19));
  (AB60 (1092370803792531,16) (-7144848633775349,16) (691070647817285,15) (2662511870405371,16) (4824203517352948,16) (-8344944035948351,16) (-8898096063516394,16) (-2320645116422401,16) (3929184735801935,16) (7252573232155819,16) (-1987389585343544,16) (-6591696606207306,16) (5531520275680436,17) (-2836813932009404,16) (9573218348578221,16), (8584560036591712,19));
  (AB60 (8853134859078154,17) (-7005434182913067,16) (7080968291169144,16) (2400608073862114,16) (4974622974609182,16) (-8336078642635188,16) (-8934422540041578,16) (-2030811208303886,16) (4006482211644565,16) (7450765156727372,16) (-1853454248872433,16) (-6407090285506679,16) (5983438974063891,17) (-3121168725736749,16) (9481576365031258,16), (8872764972751375,19));
  (AB60 (6623628215461284,17) (-6853464480875233,16) (7251985941934459,16) (2123257632705806,16) (5131856360390616,16) (-8315998275701776,16) (-8965880838040475,16) (-1721608120484617,16) (4080324285830728,16) (7653635454155647,16) (-1713894896106017,16) (-6203581918536534,16) (6498825623386999,17) (-34179614642846,14) (9375243574640264,16), (8802269497987143,19));
  (AB60 (4267486632229,14) (-6691757912483783,16) (7418777636453875,16) (1836229644478133,16) (5293160402520828,16) (-8283158434191952,16) (-8991262102406673,16) (-1398597509962956,16) (4147424599790929,16) (7856409770969052,16) (-1572484465952799,16) (-5983654244269062,16) (708103668214722,16) (-3720675936568029,16) (9255007280932008,16), (8543221207476178,19));
  (AB60 (1282600835755792,17) (-6718104523557576,16) (7406120506818425,16) (1771635021660881,16) (5543904773461886,16) (-8131815861959195,16) (-9098486437429696,16) (-117419975009569,15) (3979798926426195,16) (8003555778383616,16) (-169236593061127,15) (-5751433948087075,16) (9666705754705011,17) (-3851538842850615,16) (9177755528479307,16), (8589994421264172,19));
  (AB60 (139695785622043,15) (-705618576658514,15) (6946851889552943,16) (266683197385523,15) (4544625528462222,16) (-8499081481505686,16) (-8750316427412759,16) (-2511560238122918,16) (4138118846822837,16) (7102123625285256,16) (-1803464537859815,16) (-6804950820678067,16) (2512349459070724,17) (-2741160990602407,16) (9613683863408173,16), (8084150193371469,19));
  (AB60 (1201542004188648,16) (-6917357136471969,16) (7120847355383393,16) (2407132700624575,16) (4687073514555403,16) (-849923843828005,15) (-8785386258508715,16) (-2230283621916565,16) (4224076615618729,16) (7297696434091402,16) (-1664538903125322,16) (-6631209316243304,16) (2861478202286649,17) (-3022534611430081,16) (9527980056007967,16), (8932077432546377,19));
  (AB60 (9754410694447026,17) (-6778959737669238,16) (7286578044260555,16) (2142432477297357,16) (4852007913158461,16) (-8477499766491839,16) (-8826154786618541,16) (-1926951824510777,16) (4287872240245179,16) (7502058697047136,16) (-1539576742357985,16) (-6430304717542537,16) (3486550201267018,17) (-3312431170800476,16) (9429010521557913,16), (8932643401331205,19));
  (AB60 (7351348375835652,17) (-6630308775744771,16) (7449737063068257,16) (1866333103967132,16) (5022513167223216,16) (-8443409396097399,16) (-8861731851094612,16) (-1607795608521556,16) (4345653216780426,16) (7708274558513833,16) (-1411994788026355,16) (-6211986320747558,16) (4183224549972136,17) (-361051837919686,15) (9316070167035388,16), (8665540037680336,19));
  (AB60 (5080705133050961,17) (-6471935434988806,16) (7606307650814957,16) (158975435094796,15) (5175408366435782,16) (-8407605446514991,16) (-8882057155858762,16) (-1296527068553023,16) (4407729374697074,16) (7899534933209894,16) (-1275749505043805,16) (-5997483725645033,16) (4744517093437718,17) (-3899658861391977,16) (9196062001762918,16), (8139479233331957,19));
  (AB60 (2138320449925942,17) (-6494099504168592,16) (7601377999184854,16) (1519225598286544,16) (5423010976159294,16) (-8263347114454693,16) (-8988448125782078,16) (-1071088528009298,16) (4249772894554664,16) (80495150694621,14) (-1387070126597224,16) (-5768998492841209,16) (725101011327384,16) (-403594084956207,15) (9120603597471397,16), (8593981503131493,19));
  (AB60 (6497057209680641,19) (-6313125997844806,16) (7755281937078989,16) (1231792952438469,16) (5547820683952814,16) (-8228266632835147,16) (-8983059487335022,16) (-7653053138919917,17) (4326540190906462,16) (8221769575625466,16) (-1227777550256034,16) (-555833314334493,15) (7547928544998758,17) (-4320043133696781,16) (8987074889517458,16), (8133115775692221,19));
  (AB60 (1042878909004785,16) (-6550569559235605,16) (7483477936813125,16) (1880050433807934,16) (4744099878662952,16) (-8599937599053191,16) (-8718993758705693,16) (-1806469680572653,16) (4551462965775169,16) (7557058690048406,16) (-1235515821892568,16) (-6431513399583103,16) (1190561596525026,17) (-3508584056770385,16) (9363528370621059,16), (8606147588313469,19));
  (AB60 (817252344025087,16) (-6402883765930798,16) (7637746924726254,16) (1613713180278864,16) (4900464446431747,16) (-8566293129531155,16) (-8746370379012093,16) (-150241931949905,15) (4609093336170996,16) (7749040785506067,16) (-1108623454285838,16) (-622280651644986,15) (1800772494809376,17) (-3791840992145909,16) (9251460105005118,16), (8243886726568444,19));
  (AB60 (5962152336426153,17) (-626638916163447,15) (7770257027288257,16) (1368727450985935,16) (505198779658856,15) (-8520798346870897,16) (-8770503199272596,16) (-121440136504591,15) (4647956858246836,16) (7924583113228282,16) (-1000246171984339,16) (-6016684309232772,16) (2497048524016986,17) (-4051741624604221,16) (9138984478274191,16), (6922515782807186,19));
  (AB60 (3098613409067334,17) (-6262124852360049,16) (779036445122217,15) (1266735621085892,16) (528773434328878,15) (-8392570904143528,16) (-8865595231828084,16) (-974390509071269,16) (45223649035896,14) (8082709563236794,16) (-1075230780605913,16) (-5789100524675493,16) (4730243276845561,17) (-4212503562682867,16) (9057100072308063,16), (862409080112351,18));
  (AB60 (4257429976259254,18) (-6109102705622196,16) (7916883955266699,16) (9970821137472331,17) (5466559705451308,16) (-8313997368605637,16) (-8887653704713423,16) (-6425430001708876,17) (4538364255767177,16) (8271423068843045,16) (-9707697494467243,17) (-553544636951441,15) (5736563361077863,17) (-4495789956004584,16) (8913966069013932,16), (6325460823014626,19));
  (AB60 (6580244575891131,17) (-5883999041649528,16) (8058880759204841,16) (9341555800873441,17) (4899977662156389,16) (-8667039417388159,16) (-85863548590734,14) (-9840213794931388,17) (5030528019876943,16) (8009014959799047,16) (-5274740998685585,17) (-5964683599964288,16) (-8068455831476003,18) (-437250356228783,15) (8993036339292185,16), (7124570616496074,19));
  (AB60 (5327335931745034,17) (-6059418778906871,16) (7937231191072498,16) (1098180906399452,16) (5051458185425139,16) (-8560185097164723,16) (-8706164629941249,16) (-1007960593481731,16) (4815258339730893,16) (8027451503990221,16) (-7689334388687503,17) (-5913439246130345,16) (1459795327765251,17) (-428252474655639,15) (9035412097471951,16), (7531899500685329,19));
  (AB60 (2636574348849135,17) (-6022883660094193,16) (7978430746331029,16) (964874491066616,16) (5263609173591778,16) (-8447688185780143,16) (-8780355981252156,16) (-7592744865024142,17) (4725341373555564,16) (818403075089523,15) (-8019252349211273,17) (-569021586462218,15) (332667795472012,16) (-4461683938670651,16) (8943305237397644,16), (7329616433844201,19));
  (AB60 (3714746436055622,17) (-5522682741845069,16) (8328384112304424,16) (4185441143951739,17) (5034424297650635,16) (-8630144426110729,16) (-8517344270992607,16) (-4882584441944329,17) (5216938782568015,16) (8258669782505166,16) (-1889601586881827,17) (-5635482896963189,16) (-1128001551181206,17) (-4845464138962453,16) (8746928226699598,16), (9016878947045281,19))].

(** All transcribed files of quadratures/s2/ahrens_beylkin/, by suffix (each entry cites its lines 1 ff. above). *)
Definition ab_grids : list (Z * coded) := [
  (72, ab_72); (132, ab_132); (192, ab_192); (312, ab_312); (372, ab_372); (432, ab_432); (492, ab_492); (552, ab_552); (612, ab_612); (672, ab_672); (732, ab_732); (792, ab_792); (912, ab_912); (972, ab_972); (1032, ab_1032); (1092, ab_1092); (1272, ab_1272); (1332, ab_1332); (1392, ab_1392); (1512, ab_1512); (1572, ab_1572); (1632, ab_1632); (1692, ab_1692); (1812, ab_1812); (1932, ab_1932); (1992, ab_1992); (2112, ab_2112); (2172, ab_2172); (2232, ab_2232); (2292, ab_2292); (2412, ab_2412); (2472, ab_2472); (2712, ab_2712); (2772, ab_2772); (2832, ab_2832); (3012, ab_3012); (3312, ab_3312); (3372, ab_3372); (3432, ab_3432); (3492, ab_3492); (3612, ab_3612); (3792, ab_3792); (4212, ab_4212); (4332, ab_4332); (4572, ab_4572); (4692, ab_4692); (4992, ab_4992); (5232, ab_5232); (5472, ab_5472); (5592, ab_5592); (5772, ab_5772); (6192, ab_6192); (6312, ab_6312); (6912, ab_6912); (7512, ab_7512); (15012, ab_15012)].
