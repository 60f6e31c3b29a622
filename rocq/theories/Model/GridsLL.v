(** Generated by tools/gen_grids.py from the text of the repository: quadratures/s2/lebedev_laikov/lebedev_laikov_*.hpp.
    Each definition transcribes the arrays of one file, named in its comment, in the order of the file. *)
From Coq Require Import ZArith List.
From Verif Require Import Model.GridCode.
Import ListNotations.
Local Open Scope Z_scope.

(** lebedev_laikov/lebedev_laikov_6.hpp:1-33. *)
Definition ll_6 : coded := [  (LL6 (1,0), (1666666666666667,16))].

(** lebedev_laikov/lebedev_laikov_14.hpp:1-49. *)
Definition ll_14 : coded := [  (LL6 (1,0), (6666666666666667,17));
  (LL8 (5773502691896257,16), (75,3))].

(** lebedev_laikov/lebedev_laikov_26.hpp:1-73. *)
Definition ll_26 : coded := [  (LL6 (1,0), (4761904761904762,17));
  (LL12 (7071067811865476,16), (380952380952381,16));
  (LL8 (5773502691896257,16), (3214285714285714,17))].

(** lebedev_laikov/lebedev_laikov_38.hpp:1-97. *)
Definition ll_38 : coded := [  (LL6 (1,0), (9523809523809525,18));
  (LL8 (5773502691896257,16), (3214285714285714,17));
  (LL24o (4597008433809831,16) (8880738339771153,16), (2857142857142857,17))].

(** lebedev_laikov/lebedev_laikov_50.hpp:1-121. *)
Definition ll_50 : coded := [  (LL6 (1,0), (126984126984127,16));
  (LL12 (7071067811865476,16), (2257495590828924,17));
  (LL8 (5773502691896257,16), (2109375,8));
  (LL24 (3015113445777636,16) (9045340337332909,16), (2017333553791887,17))].

(** lebedev_laikov/lebedev_laikov_74.hpp:1-169. *)
Definition ll_74 : coded := [  (LL6 (1,0), (5130671797338464,19));
  (LL12 (7071067811865476,16), (1660406956574204,17));
  (LL8 (5773502691896257,16), (-2958603896103896,17));
  (LL24 (4803844614152614,16) (7337993857053428,16), (2657620708215946,17));
  (LL24o (3207726489807764,16) (9471562213625879,16), (1652217099371571,17))].

(** lebedev_laikov/lebedev_laikov_86.hpp:1-193. *)
Definition ll_86 : coded := [  (LL6 (1,0), (1154401154401154,17));
  (LL8 (5773502691896257,16), (1194390908585628,17));
  (LL24 (3696028464541502,16) (8525183117012676,16), (111105557106034,16));
  (LL24 (6943540066026664,16) (189063552885395,15), (1187650129453714,17));
  (LL24o (3742430390903412,16) (9273306571511725,16), (1181230374690448,17))].

(** lebedev_laikov/lebedev_laikov_110.hpp:1-241. *)
Definition ll_110 : coded := [  (LL6 (1,0), (3828270494937162,18));
  (LL8 (5773502691896257,16), (9793737512487513,18));
  (LL24 (1851156353447362,16) (9651240350865941,16), (8211737283191111,18));
  (LL24 (6904210483822922,16) (2159572918458484,16), (9942814891178103,18));
  (LL24 (3956894730559419,16) (8287699812525923,16), (9595471336070962,18));
  (LL24o (4783690288121502,16) (8781589106040661,16), (9694996361663029,18))].

(** lebedev_laikov/lebedev_laikov_146.hpp:1-313. *)
Definition ll_146 : coded := [  (LL6 (1,0), (5996313688621381,19));
  (LL12 (7071067811865476,16), (7372999718620756,18));
  (LL8 (5773502691896257,16), (7210515360144488,18));
  (LL24 (6764410400114264,16) (2912988822095268,16), (7116355493117555,18));
  (LL24 (4174961227965453,16) (8070898183595826,16), (6753829486314477,18));
  (LL24 (1574676672039082,16) (9748886436771732,16), (7574394159054034,18));
  (LL48 (1403553811713183,16) (4493328323269557,16) (8822700112603227,16), (6991087353303262,18))].

(** lebedev_laikov/lebedev_laikov_170.hpp:1-361. *)
Definition ll_170 : coded := [  (LL6 (1,0), (5544842902037365,18));
  (LL12 (7071067811865476,16), (6071332770670752,18));
  (LL8 (5773502691896257,16), (6383674773515093,18));
  (LL24 (2551252621114134,16) (9326425903126906,16), (518338758774779,17));
  (LL24 (6743601460362766,16) (3007935951377015,16), (6317929009813725,18));
  (LL24 (431891069671941,15) (7917955593934921,16), (6201670006589077,18));
  (LL24o (2613931360335988,16) (9652324219764484,16), (5477143385137348,18));
  (LL48 (4990453161796037,16) (1446630744325115,16) (8544158046846588,16), (5968383987681156,18))].

(** lebedev_laikov/lebedev_laikov_194.hpp:1-409. *)
Definition ll_194 : coded := [  (LL6 (1,0), (1782340447244611,18));
  (LL12 (7071067811865476,16), (5716905949977102,18));
  (LL8 (5773502691896257,16), (5573383178848738,18));
  (LL24 (6712973442695226,16) (3141969941825863,16), (5608704082587997,18));
  (LL24 (2892465627575439,16) (9125090968674737,16), (5158237711805383,18));
  (LL24 (4446933178717437,16) (7774932193147671,16), (5518771467273614,18));
  (LL24 (1299335447650067,16) (9829723027072532,16), (4106777028169394,18));
  (LL24o (3457702197611283,16) (9383192181375916,16), (5051846064614808,18));
  (LL48 (159041710538353,15) (8360360154824589,16) (525118572443642,15), (5530248916233094,18))].

(** lebedev_laikov/lebedev_laikov_230.hpp:1-481. *)
Definition ll_230 : coded := [  (LL6 (1,0), (-5522639919727325,17));
  (LL8 (5773502691896257,16), (4450274607445226,18));
  (LL24 (4492044687397611,16) (7722892531483641,16), (4496841067921404,18));
  (LL24 (2520419490210201,16) (9343177788458117,16), (504915345047875,17));
  (LL24 (6981906658447242,16) (1583022054634783,16), (3976408018051883,18));
  (LL24 (658740524346096,15) (3634856849567271,16), (4401400650381014,18));
  (LL24 (403854405009766,16) (9983676839677275,16), (1724544350544401,17));
  (LL24o (5823842309715584,16) (8129136531733653,16), (4231083095357343,18));
  (LL24o (3545877390518688,16) (935022745880593,15), (5198069864064399,18));
  (LL48 (2272181808998187,16) (4864661535886647,16) (8436365210688943,16), (4695720972568883,18))].

(** lebedev_laikov/lebedev_laikov_266.hpp:1-553. *)
Definition ll_266 : coded := [  (LL6 (1,0), (-1313769127326952,18));
  (LL12 (7071067811865476,16), (-2522728704859336,18));
  (LL8 (5773502691896257,16), (4186853881700583,18));
  (LL24 (7039373391585475,16) (945750764037131,16), (5315167977810885,18));
  (LL24 (1012526248572414,16) (9896948074629054,16), (4047142377086219,18));
  (LL24 (4647448726420539,16) (7536739392508157,16), (411248239440699,17));
  (LL24 (3277420654971629,16) (8860983449974991,16), (3595584899758782,18));
  (LL24 (6620338663699974,16) (3513151285646334,16), (4256131351428158,18));
  (LL24o (8506508083520399,16) (5257311121191337,16), (422958270064724,17));
  (LL48 (3233484542692899,16) (1153112011009701,16) (9392279297499158,16), (4080914225780505,18));
  (LL48 (2314790158712601,16) (5244939240922365,16) (8193433888191203,16), (4071467593830964,18))].

(** lebedev_laikov/lebedev_laikov_302.hpp:1-625. *)
Definition ll_302 : coded := [  (LL6 (1,0), (8545911725128148,19));
  (LL8 (5773502691896257,16), (3599119285025571,18));
  (LL24 (3515640345570105,16) (8676436245440834,16), (3449788424305883,18));
  (LL24 (6566329410219612,16) (3710341783848209,16), (3604822601419882,18));
  (LL24 (4729054132581005,16) (7434520429875557,16), (3576729661743367,18));
  (LL24 (9618308522614784,17) (9907056213794081,16), (2352101413689164,18));
  (LL24 (2219645236294178,16) (9494543172264431,16), (3108953122413675,18));
  (LL24 (7011766416089545,16) (1292386727105144,16), (3650045807677255,18));
  (LL24o (2644152887060663,16) (964408914879206,15), (2982344963171804,18));
  (LL24o (5718955891878961,16) (8203264198277593,16), (360082093221646,17));
  (LL48 (2510034751770465,16) (8000727494073951,16) (5448677372580774,16), (3571540554273387,18));
  (LL48 (1233548532583327,16) (4127724083168531,16) (9024425295330004,16), (339231220500617,17))].

(** lebedev_laikov/lebedev_laikov_350.hpp:1-721. *)
Definition ll_350 : coded := [  (LL6 (1,0), (3006796749453936,18));
  (LL8 (5773502691896257,16), (3050627745650771,18));
  (LL24 (7068965463912316,16) (2438330166935553,17), (1621104600288991,18));
  (LL24 (4794682625712025,16) (7349968505877456,16), (3005701484901752,18));
  (LL24 (1927533154878019,16) (9621290551360144,16), (2990992529653774,18));
  (LL24 (6930357961327123,16) (1985013112233654,16), (2982170644107595,18));
  (LL24 (3608302115520091,16) (860001812127547,15), (2721564237310992,18));
  (LL24 (6498486161496169,16) (3941998886058389,16), (3033513795811141,18));
  (LL24o (1932945013230339,16) (9811407828432572,16), (3007949555218533,18));
  (LL24o (3800494919899303,16) (924966152698679,15), (2881964603055307,18));
  (LL48 (2899558825499574,16) (7934537856582315,16) (5351230477182762,16), (2958357626535696,18));
  (LL48 (9684121455103957,17) (8280801506686862,16) (5521820743493993,16), (3036020026407088,18));
  (LL48 (1833434647041659,16) (9074658265305127,16) (3780091898744867,16), (2832187403926303,18))].

(** lebedev_laikov/lebedev_laikov_434.hpp:1-889. *)
Definition ll_434 : coded := [  (LL6 (1,0), (5265897968224436,19));
  (LL12 (7071067811865476,16), (2548219972002607,18));
  (LL8 (5773502691896257,16), (2512317418927307,18));
  (LL24 (6909346307509111,16) (2126468247075519,16), (2530403801186355,18));
  (LL24 (1774836054609158,16) (9679871587914728,16), (2014279020918528,18));
  (LL24 (4914342637784746,16) (7190165010408435,16), (2501725168402936,18));
  (LL24 (6456664707424256,16) (4077126648977697,16), (2513267174597564,18));
  (LL24 (2861289010307638,16) (9144728011208725,16), (2302694782227416,18));
  (LL24 (7568084367178018,17) (9942559126312779,16), (1462495621594614,18));
  (LL24 (3927259763368002,16) (8315844004192323,16), (244537343731298,17));
  (LL24o (8818132877794288,16) (471598691151316,15), (2417442375638981,18));
  (LL24o (9776428111182649,16) (2102725228573068,16), (1910951282179532,18));
  (LL48 (2054823696403044,16) (8689460322872412,16) (4502330382582625,16), (2416930044324775,18));
  (LL48 (5905157048925271,16) (7999278543857286,16) (1068018260758049,16), (2512236854563495,18));
  (LL48 (5550152361076807,16) (7717462626915901,16) (3104284035166545,16), (2496644054553086,18));
  (LL48 (9371809858553722,16) (3344363145343455,16) (9921769636429248,17), (2236607760437849,18))].

(** lebedev_laikov/lebedev_laikov_590.hpp:1-1201. *)
Definition ll_590 : coded := [  (LL6 (1,0), (3095121295306187,19));
  (LL8 (5773502691896257,16), (1852379698597489,18));
  (LL24 (7040954938227469,16) (9219040707689825,17), (1871790639277744,18));
  (LL24 (6807744066455244,16) (2703560883591648,16), (1858812585438317,18));
  (LL24 (6372546939258752,16) (4333738687771544,16), (1852028828296213,18));
  (LL24 (5044419707800358,16) (700768575373573,15), (1846715956151242,18));
  (LL24 (4215761784010967,16) (8028368773352738,16), (1818471778162769,18));
  (LL24 (3317920736472123,16) (8830787279341326,16), (1749564657281154,18));
  (LL24 (2384736701421887,16) (9414141582204025,16), (1617210647254411,18));
  (LL24 (1459036449157763,16) (9784805837626939,16), (1384737234851692,18));
  (LL24 (6095034115507196,17) (9962781297540164,16), (976433116505105,18));
  (LL24o (6116843442009876,16) (791101929626902,15), (1857161196774078,18));
  (LL24o (3964755348199858,16) (918045287711454,15), (1705153996395864,18));
  (LL24o (1724782009907724,16) (9850133350280019,16), (1300321685886048,18));
  (LL48 (561026380862206,15) (3518280927733519,16) (7493106119041159,16), (1842866472905286,18));
  (LL48 (474239284255198,15) (263471665593795,15) (8400474883590504,16), (1802658934377451,18));
  (LL48 (598412649788538,15) (1816640840360209,16) (7803207424799203,16), (184983056044366,17));
  (LL48 (3791035407695563,16) (1720795225656878,16) (9092134750923736,16), (1713904507106709,18));
  (LL48 (2778673190586244,16) (8213021581932511,17) (9571020743100725,16), (1555213603396808,18));
  (LL48 (5033564271075117,16) (8999205842074876,17) (8593798558907212,16), (1802239128008525,18))].

(** lebedev_laikov/lebedev_laikov_770.hpp:1-1561. *)
Definition ll_770 : coded := [  (LL6 (1,0), (2192942088181184,19));
  (LL12 (7071067811865476,16), (143643361731908,17));
  (LL8 (5773502691896257,16), (1421940344335877,18));
  (LL24 (508720441050236,16) (997408677652823,15), (6798123511050502,19));
  (LL24 (1228198790178831,16) (9847997535723012,16), (9913184235294911,19));
  (LL24 (2026890814408786,16) (9580366759833914,16), (1180207833238949,18));
  (LL24 (2847745156464294,16) (9153179504831548,16), (1296599602080921,18));
  (LL24 (3656719078978026,16) (8559019286978865,16), (1365871427428316,18));
  (LL24 (4428264886713469,16) (7796213195276351,16), (1402988604775325,18));
  (LL24 (5140619627249735,16) (6866444472641543,16), (1418645563595609,18));
  (LL24 (6306401219166803,16) (4523119203136584,16), (1421376741851662,18));
  (LL24 (6716883332022612,16) (3125213050016533,16), (1423996475490962,18));
  (LL24 (6979792685336881,16) (160155803498829,15), (1431554042178567,18));
  (LL24o (1446865674195309,16) (9894775374955985,16), (9254401499865368,19));
  (LL24o (3390263475411216,16) (9407768787937587,16), (1250239995053509,18));
  (LL24o (5335804651263506,16) (8457493051936533,16), (139436584332923,17));
  (LL48 (6944024393349413,17) (2355187894242326,16) (9693858634984321,16), (1127089094671749,18));
  (LL48 (226900410952946,15) (410218247404573,15) (8833103605221128,16), (134575376091067,17));
  (LL48 (8025574607775339,17) (6214302417481605,16) (7793481057026609,16), (1424957283316783,18));
  (LL48 (1467999527896572,16) (3245284345717394,16) (9344148270524022,16), (126152334123775,17));
  (LL48 (1571507769824727,16) (522448218969663,15) (8380641334583124,16), (1392547106052696,18));
  (LL48 (2365702993157246,16) (6017546634089558,16) (7628406246046698,16), (1418761677877656,18));
  (LL48 (7714815866765733,17) (4346575516141163,16) (8972853361328333,16), (1338366684479554,18));
  (LL48 (306293666621073,15) (4908826589037616,16) (8156092232039754,16), (1393700862676131,18));
  (LL48 (3822477379524787,16) (56487681490995,14) (7313007936597657,16), (1415914757466932,18))].

(** lebedev_laikov/lebedev_laikov_974.hpp:1-1969. *)
Definition ll_974 : coded := [  (LL6 (1,0), (1438294190527431,19));
  (LL8 (5773502691896257,16), (1125772288287004,18));
  (LL24 (4292963545341347,17) (9981553450238465,16), (4948029341949241,19));
  (LL24 (1051426854086404,16) (9888832243546856,16), (735799010912547,18));
  (LL24 (1750024867623087,16) (9688902204347074,16), (8889132771304384,19));
  (LL24 (2477653379650257,16) (9366027304071631,16), (9888347838921435,19));
  (LL24 (3206567123955957,16) (8912679426476061,16), (1053299681709471,18));
  (LL24 (3916520749849983,16) (8325967237023519,16), (1092778807014578,18));
  (LL24 (4590825874187624,16) (7605829053152514,16), (1114389394063227,18));
  (LL24 (5214563888415861,16) (6754009691084143,16), (1123724788051555,18));
  (LL24 (6253170244654199,16) (4668589056957432,16), (1125239325243814,18));
  (LL24 (663792674452317,15) (3446136542374379,16), (1126153271815905,18));
  (LL24 (6910410398498301,16) (2119541518501843,16), (1130286931123841,18));
  (LL24 (705290700745776,15) (7162440144995555,17), (1134986534363955,18));
  (LL24o (123668676265799,15) (9923235654314901,16), (6823367927109931,19));
  (LL24o (2940777114468387,16) (9557815124965484,16), (9454158160447096,19));
  (LL24o (4697753849207649,16) (8827859807011816,16), (1074429975385679,18));
  (LL24o (6334563241139567,16) (7737784472573748,16), (1129300086569132,18));
  (LL48 (5974048614181342,17) (2029128752777523,16) (97737272284531,14), (8436884500901954,19));
  (LL48 (1375760408473636,16) (4602621942484054,16) (8770584618658027,16), (1075255720448885,18));
  (LL48 (3391016526336286,16) (5030673999662036,16) (7949422999642084,16), (1108577236864462,18));
  (LL48 (127167519143982,15) (2817606422442134,16) (9510201693743899,16), (9566475323783357,19));
  (LL48 (2693120740413512,16) (4331561291720157,16) (860143461601762,15), (1080663250717391,18));
  (LL48 (1419786452601918,16) (6256167358580814,16) (7671021862205583,16), (1126797131196295,18));
  (LL48 (6709284600738255,17) (3798395216859157,16) (922616110730809,15), (1022568715358061,18));
  (LL48 (7057738183256172,17) (551750542142352,15) (8310175524134743,16), (1108960267713108,18));
  (LL48 (2783888477882155,16) (6029619156159187,16) (7476206108340857,16), (1122790653435766,18));
  (LL48 (1979578938917407,16) (3589606329589096,16) (9121183784091215,16), (103240184711746,17));
  (LL48 (2087307061103274,16) (5348666438135476,16) (8187485362810218,16), (1107249382283854,18));
  (LL48 (4055122137872836,16) (5674997546074373,16) (7165918454670238,16), (1121780048519972,18))].

(** lebedev_laikov/lebedev_laikov_1202.hpp:1-2425. *)
Definition ll_1202 : coded := [  (LL6 (1,0), (1105189233267572,19));
  (LL12 (7071067811865476,16), (9205232738090741,19));
  (LL8 (5773502691896257,16), (9133159786443561,19));
  (LL24 (3712636449657089,17) (9986206817999193,16), (3690421898017899,19));
  (LL24 (9140060412262223,17) (9916107397220139,16), (560399092868066,18));
  (LL24 (1531077852469906,16) (9762766063946851,16), (6865297629282609,19));
  (LL24 (2180928891660612,16) (9512470674805785,16), (772033855114563,18));
  (LL24 (2839874532200175,16) (9158068862086683,16), (8301545958894795,19));
  (LL24 (3491177600963764,16) (8696169151819541,16), (8686692550179628,19));
  (LL24 (4121431461444309,16) (8125737222999156,16), (892707628584689,18));
  (LL24 (4718993627149127,16) (7447294696321065,16), (9060820238568219,19));
  (LL24 (5273145452842337,16) (6662422537361044,16), (9119777254940867,19));
  (LL24 (6209475332444019,16) (4783809380769523,16), (9128720138604181,19));
  (LL24 (6569722711857291,16) (3698308664594258,16), (9130714935691735,19));
  (LL24 (6841788309070143,16) (2525839557007183,16), (9152873784554116,19));
  (LL24 (7012604330123631,16) (1283261866597231,16), (9187436274321654,19));
  (LL24o (1072382215478166,16) (9942333548213224,16), (5176977312965694,19));
  (LL24o (2582068959496968,16) (966089643296119,15), (7331143682101417,19));
  (LL24o (4172752955306717,16) (9087801316819105,16), (8463232836379928,19));
  (LL24o (5700366911792503,16) (8216192370614335,16), (9031122694253992,19));
  (LL48 (9827986018263947,16) (1771774022615325,16) (5210639477011254,17), (6485778453163257,19));
  (LL48 (9624249230326228,16) (2475716463426288,16) (1115640957156485,16), (7435030910982369,19));
  (LL48 (9402007994128811,16) (3354616289066489,16) (5905888853235372,17), (7998527891839054,19));
  (LL48 (9320822040143202,16) (3173615246611977,16) (1746551677578629,16), (8101731497468018,19));
  (LL48 (9043674199393299,16) (4090268427085357,16) (1217235051095989,16), (848338957459433,18));
  (LL48 (8912407560074747,16) (3854291150669224,16) (2390278479381724,16), (8556299257311812,19));
  (LL48 (8676435628462708,16) (4932221184851285,16) (6266250624154199,17), (880320867973826,18));
  (LL48 (8581979986041619,16) (4785320675922435,16) (1857505194547337,16), (881104818242572,18));
  (LL48 (8396753624049856,16) (4507422593157064,16) (3029466973528983,16), (8850282341265444,19));
  (LL48 (8165288564022188,16) (56321230207621,14) (1267774800684282,16), (9021342299040653,19));
  (LL48 (8015469370783529,16) (54343035696939,14) (2494112162362238,16), (9010091677105086,19));
  (LL48 (7773563069070351,16) (5123518486419871,16) (3649832260597654,16), (9022692938426915,19));
  (LL48 (7661621213900394,16) (6394279634749102,16) (6424549224220785,17), (9158016174693465,19));
  (LL48 (755358414353351,15) (6269805509024392,16) (1906018222779231,16), (9131578003189435,19));
  (LL48 (7344305757559503,16) (603116169309631,15) (3112275947149608,16), (9107813579482705,19));
  (LL48 (7043837184021765,16) (5693702498468441,16) (4238644781522338,16), (9105760258970126,19))].

(** lebedev_laikov/lebedev_laikov_1454.hpp:1-2929. *)
Definition ll_1454 : coded := [  (LL6 (1,0), (7777160743261247,20));
  (LL8 (5773502691896257,16), (7557646413004701,19));
  (LL24 (3229290663413854,17) (9989566238642384,16), (2841633806090617,19));
  (LL24 (8036733271462222,17) (993520097262594,15), (4374419127053555,19));
  (LL24 (1354289960531653,16) (9814876331651171,16), (5417174740872172,19));
  (LL24 (1938963861114426,16) (9616695809402753,16), (6148000891358593,19));
  (LL24 (2537343715011275,16) (9334011664005224,16), (6664394485800704,19));
  (LL24 (313525143475257,15) (8963280475460081,16), (702503935692322,18));
  (LL24 (3721558339375338,16) (8502941082546188,16), (7268511789249627,19));
  (LL24 (4286809575195696,16) (795276853253136,15), (7422637534208629,19));
  (LL24 (4822510128282994,16) (7313466491699806,16), (7509545035841214,19));
  (LL24 (5320679333566263,16) (6586405913601268,16), (7548535057718401,19));
  (LL24 (6172998195394274,16) (4877313457152214,16), (7554088969774001,19));
  (LL24 (6510679849127481,16) (3901550435958854,16), (7553147174442808,19));
  (LL24 (677731525168736,15) (2852366729313007,16), (7564767653292297,19));
  (LL24 (6963109410648741,16) (1740751179999567,16), (758799180851873,18));
  (LL24 (7058935009831749,16) (5855536302878518,17), (7608261832033027,19));
  (LL24o (9955546194091857,16) (9418598501386242,17), (4021680447874916,19));
  (LL24o (9734115901794209,16) (2290630395859863,16), (5804871793945964,19));
  (LL24o (9275693732388626,16) (3736509839800554,16), (6792151955945159,19));
  (LL24o (8568022422795103,16) (5156451470001471,16), (7336741211286294,19));
  (LL24o (7623495553719372,16) (6471654776208398,16), (7581866300989608,19));
  (LL48 (5707522908892223,16) (4387028039889501,16) (6941049432304436,16), (7538257859800743,19));
  (LL48 (5196463388403083,16) (3858908414762617,16) (7622702545650107,16), (7483517247053123,19));
  (LL48 (4646337531215351,16) (3301937372343854,16) (8216371287565978,16), (7371763661112059,19));
  (LL48 (4063901697557691,16) (2725423573563777,16) (8721053224080826,16), (7183448895756934,19));
  (LL48 (3456329466643087,16) (213951023749525,15) (9136535588595259,16), (6895815529822191,19));
  (LL48 (2831395121050332,16) (1555922309786647,16) (9463736441511913,16), (6480105801792886,19));
  (LL48 (219768202292533,15) (9892878979686097,17) (9705230712406773,16), (5897558896594636,19));
  (LL48 (1564696098650355,16) (459864291067551,16) (9866116305450149,16), (5095708849247346,19));
  (LL48 (6027356673721295,16) (3376625140173426,16) (7229756163972347,16), (7536906428909755,19));
  (LL48 (5496032320255096,16) (2822301309727988,16) (7863093796453089,16), (7472505965575118,19));
  (LL48 (4921707755234567,16) (224863234259254,15) (8409544896123137,16), (7343017132279698,19));
  (LL48 (4309422998598483,16) (1666224723456479,16) (8868628337578075,16), (7130871582177445,19));
  (LL48 (3664108182313672,16) (1086964901822169,16) (9240823476861179,16), (6817022032112776,19));
  (LL48 (2990189057758436,16) (5251989784120085,17) (9528007946676823,16), (6380941145604121,19));
  (LL48 (6268724013144998,16) (2297523657550023,16) (7444762205068556,16), (755038137792031,18));
  (LL48 (5707324144834607,16) (17230806070938,14) (8028539364494963,16), (7478646640144802,19));
  (LL48 (5096360901960365,16) (1140238465390513,16) (8528010424419851,16), (733591872060122,18));
  (LL48 (4438729938312456,16) (5611522095882537,17) (8943309495505728,16), (7110120527658118,19));
  (LL48 (6419978471082389,16) (1164174423140873,16) (7578164312242328,16), (7571363978689501,19));
  (LL48 (5817218061802611,16) (5797589531445219,17) (8113190098702621,16), (7489908329079233,19))].

(** lebedev_laikov/lebedev_laikov_1730.hpp:1-3481. *)
Definition ll_1730 : coded := [  (LL6 (1,0), (6309049437420976,20));
  (LL12 (7071067811865476,16), (6398287705571748,19));
  (LL8 (5773502691896257,16), (6357185073530719,19));
  (LL24 (2860923126194662,17) (9991811766507619,16), (2221207162188168,19));
  (LL24 (7142556767711522,17) (9948853082461333,16), (3475784022286848,19));
  (LL24 (1209199540995559,16) (985269876430373,15), (4350742443589804,19));
  (LL24 (1738673106594379,16) (9692988788645682,16), (4978569136522127,19));
  (LL24 (2284645438467734,16) (9463656293472262,16), (5435036221998053,19));
  (LL24 (2834807671701512,16) (9161207940491499,16), (5765913388219542,19));
  (LL24 (3379680145467339,16) (8783821732518695,16), (6001200359226003,19));
  (LL24 (3911355454819537,16) (8330822109018228,16), (6162178172717512,19));
  (LL24 (4422860353001403,16) (7802346608277321,16), (6265218152438484,19));
  (LL24 (4907781568726057,16) (7199122178942764,16), (6323987160974212,19));
  (LL24 (5360006153211468,16) (6522320758370473,16), (6350767851540569,19));
  (LL24 (6142105973596603,16) (4954701647750129,16), (6354362775297107,19));
  (LL24 (6459300387977503,16) (4068768486378568,16), (6352302462706236,19));
  (LL24 (6718056125089225,16) (3120167271205552,16), (6358117881417972,19));
  (LL24 (6910888533186254,16) (2116421357799413,16), (6373101590310116,19));
  (LL24 (7030467416823252,16) (1070072802183662,16), (6390428961368665,19));
  (LL24o (8354951166354646,17) (9965036272391501,16), (3186913449946576,19));
  (LL24o (2050143009099486,16) (9787589776969634,16), (4678028558591711,19));
  (LL24o (3370208290706637,16) (9414971910592843,16), (5538829697598626,19));
  (LL24o (4689051484233963,16) (8832485277553723,16), (6044475907190476,19));
  (LL24o (5939400424557334,16) (8045093075705723,16), (6313575103509012,19));
  (LL48 (1394983311832261,16) (4097581162050343,17) (9893741448305267,16), (407862643185563,18));
  (LL48 (1967999180485014,16) (8851987391293348,17) (9764394626286576,16), (4759933057812725,19));
  (LL48 (2546183732548967,16) (1397680182969819,16) (95688786441378,14), (526815118641344,18));
  (LL48 (3121281074713875,16) (1929452542226526,16) (9302409222342811,16), (5643048560507316,19));
  (LL48 (3685981078502492,16) (2467898337061562,16) (8962311157667445,16), (5914501076613073,19));
  (LL48 (4233760321547856,16) (3003104124785409,16) (854731765850456,15), (6104561257874195,19));
  (LL48 (4758671236059246,16) (3526684328175033,16) (8057142528000046,16), (6230252860707806,19));
  (LL48 (5255178579796463,16) (4031134861145713,16) (7492199264949122,16), (6305618761760796,19));
  (LL48 (5718025633734589,16) (4509426448342351,16) (685341199395926,15), (6343092767597889,19));
  (LL48 (2686927772723415,16) (4711322502423248,17) (9620730406104788,16), (5176268945737827,19));
  (LL48 (3306006819904809,16) (9784487303942695,17) (9386850216591971,16), (5564840313313692,19));
  (LL48 (3904906850594983,16) (1505395810025273,16) (9082152054625309,16), (585642667103898,18));
  (LL48 (447995795190439,15) (203972815629605,15) (8704566950605972,16), (6066386925777091,19));
  (LL48 (502707684891978,15) (2571529941121107,16) (8253225558348229,16), (6208824962234458,19));
  (LL48 (5542087392260217,16) (309219137581567,15) (7728105837259319,16), (6296314297822907,19));
  (LL48 (6020850887375186,16) (3593807506130276,16) (7129789772558173,16), (6340423756791859,19));
  (LL48 (4019851409179594,16) (5063389934378671,17) (9142451283536662,16), (5829627677107342,19));
  (LL48 (46356145674498,14) (1032422269160612,16) (8800294417812876,16), (604869337608111,18));
  (LL48 (5215860931591575,16) (1566322094006254,16) (8386979780595905,16), (6202362317732461,19));
  (LL48 (5758202499099271,16) (2098082827491099,16) (7901971426698141,16), (6299005328403779,19));
  (LL48 (6259893683876795,16) (2618824114553391,16) (7345440172215213,16), (6347722390609352,19));
  (LL48 (5313795124811891,16) (5263245019338556,17) (8454972731487043,16), (6203778981238834,19));
  (LL48 (5893317955931995,16) (1061059730982005,16) (8008929748573023,16), (6308414671239979,19));
  (LL48 (6426246321215801,16) (1594171564034221,16) (7494129385291201,16), (6362706466959498,19));
  (LL48 (6511904367376113,16) (535478953656554,16) (7570228781241607,16), (6375414170333233,19))].

(** lebedev_laikov/lebedev_laikov_2030.hpp:1-4081. *)
Definition ll_2030 : coded := [  (LL6 (1,0), (4656031899197431,20));
  (LL8 (5773502691896257,16), (5421549195295507,19));
  (LL24 (2540835336814348,17) (9993542070548556,16), (1778522133346553,19));
  (LL24 (6399322800504915,17) (995896447196689,15), (2811325405682796,19));
  (LL24 (1088269469804125,16) (9880857205839203,16), (3548896312631459,19));
  (LL24 (1570670798818287,16) (9750178792385248,16), (4090310897173364,19));
  (LL24 (2071163932282514,16) (9561409934273505,16), (4493286134169965,19));
  (LL24 (2578914044450844,16) (9311197812455086,16), (4793728447962723,19));
  (LL24 (3085687558169623,16) (8997614383085907,16), (5015415319164265,19));
  (LL24 (3584719706267024,16) (8619719789819256,16), (5175127372677937,19));
  (LL24 (4070135594428709,16) (8177285153761541,16), (5285522262081019,19));
  (LL24 (4536618626222638,16) (767060511826933,15), (5356832703713962,19));
  (LL24 (4979195686463577,16) (7100367640608831,16), (539791473617517,18));
  (LL24 (5393075111126999,16) (6467571545138485,16), (541689944159993,18));
  (LL24 (6115617676843916,16) (5019804862875492,16), (5419308476889938,19));
  (LL24 (6414308435160159,16) (4208716502363455,16), (5416936902030596,19));
  (LL24 (6664099412721607,16) (3343584608579102,16), (5419544338703164,19));
  (LL24 (6859161771214913,16) (2429773568176217,16), (5428983656630974,19));
  (LL24 (699362559350389,15) (1475941094954238,16), (5442286500098193,19));
  (LL24 (706239338771938,15) (4951760032505124,17), (5452250345057301,19));
  (LL24o (7479028168349763,17) (9971992848802606,16), (256800249772853,18));
  (LL24o (1848951153969366,16) (9827582593406954,16), (3827211700292145,19));
  (LL24o (3059529066581305,16) (9520466474429923,16), (4579491561917824,19));
  (LL24o (4285556101021362,16) (9035154060944317,16), (5042003969083574,19));
  (LL24o (5468758653496526,16) (837213705034783,15), (5312708889976024,19));
  (LL24o (6565821978343439,16) (7542544779363412,16), (5438401790747117,19));
  (LL48 (1253901572367117,16) (3681917226439641,17) (9914240550954558,16), (3316041873197344,19));
  (LL48 (1775721510383941,16) (7982487607213301,17) (9808649857832964,16), (3899113567153771,19));
  (LL48 (2305693358216114,16) (1264640966592335,16) (9648028884880813,16), (4343343327201309,19));
  (LL48 (2836502845992063,16) (1751585683418957,16) (9427947772358557,16), (4679415262318919,19));
  (LL48 (336179474623259,15) (224799590763267,15) (9145755872724229,16), (4930847981631031,19));
  (LL48 (3875979172264824,16) (2745299257422246,16) (8800006672916001,16), (5115031867540091,19));
  (LL48 (4374019316999074,16) (3236373482441118,16) (8390103795345497,16), (5245217148457367,19));
  (LL48 (4851275843340022,16) (3714967859436741,16) (7916068247253655,16), (5332041499895321,19));
  (LL48 (5303391803806868,16) (4175353646321745,16) (7378377687775399,16), (5384583126021542,19));
  (LL48 (5726197380596287,16) (4612084406355461,16) (6777856666167043,16), (5411067210798852,19));
  (LL48 (2431520732564863,16) (4258040133043952,17) (9690531351239782,16), (4259797391468714,19));
  (LL48 (3002096800895869,16) (8869424306722722,17) (9497407431648068,16), (4604931368460021,19));
  (LL48 (3558554457457432,16) (1368811706510655,16) (9244622473926625,16), (4871814878255202,19));
  (LL48 (4097782537048887,16) (1860739985015033,16) (8930051790847769,16), (5072242910074885,19));
  (LL48 (4616337666067458,16) (2354235077395853,16) (8552602162687435,16), (521706984523535,18));
  (LL48 (5110707008417874,16) (2842074921347011,16) (8111922337865347,16), (531578596628031,18));
  (LL48 (5577415286163795,16) (3317784414984102,16) (7608202501337292,16), (5376833708758905,19));
  (LL48 (601306043136695,15) (37752990020407,14) (7042032497363215,16), (5408032092069521,19));
  (LL48 (3661596767261781,16) (4599367887164592,17) (9294146935806603,16), (4842744917904866,19));
  (LL48 (4237633153506581,16) (9404893773654421,17) (9008770448144665,16), (504892607618813,18));
  (LL48 (4786328454658452,16) (1431377109091971,16) (8662691238621768,16), (5202607980478373,19));
  (LL48 (5305702076789774,16) (192418638884357,15) (8255121574715772,16), (5309932388325743,19));
  (LL48 (5793436224231788,16) (241159094477519,15) (7785905588358828,16), (5377419770895208,19));
  (LL48 (6247069017094747,16) (2886871491583605,16) (7255349866597524,16), (5411696331677717,19));
  (LL48 (4874315552535204,16) (4804978774953206,17) (8718381138952112,16), (519799629328242,18));
  (LL48 (5427337322059053,16) (9716857199366664,17) (8342651644067133,16), (5311120836622945,19));
  (LL48 (59434937472467,14) (1465205839795055,16) (7907468237272272,16), (5384309319956951,19));
  (LL48 (6421314033564943,16) (1953579449803574,16) (7412843814329767,16), (5421859504051886,19));
  (LL48 (602062837471398,15) (4916375015738108,17) (7969336643700978,16), (5390948355046314,19));
  (LL48 (6529222529856881,16) (9861621540127005,17) (7509776119272954,16), (5433312705027845,19))].

(** lebedev_laikov/lebedev_laikov_2354.hpp:1-4729. *)
Definition ll_2354 : coded := [  (LL6 (1,0), (3922616270665292,20));
  (LL12 (7071067811865476,16), (4703831750854424,19));
  (LL8 (5773502691896257,16), (4678202801282136,19));
  (LL24 (2290024646530589,17) (9994754411308246,16), (14378322289799,17));
  (LL24 (5779086652271284,17) (9966546199627572,16), (2303572493577644,19));
  (LL24 (9863103576375984,17) (990224135016076,15), (2933110752447454,19));
  (LL24 (1428155792982185,16) (9793913521261195,16), (3402905998359838,19));
  (LL24 (1888978116601463,16) (9636572178425354,16), (3759138466870372,19));
  (LL24 (235909168297021,15) (942705536541934,15), (4030638447899798,19));
  (LL24 (2831228833706171,16) (9163421117813019,16), (4236591432242211,19));
  (LL24 (3299495857966693,16) (884458332351057,15), (4390522656946746,19));
  (LL24 (3758840802660796,16) (8470078608873987,16), (4502523466626247,19));
  (LL24 (420475183100948,15) (8039908213359456,16), (4580577727783541,19));
  (LL24 (4633068518751051,16) (7554426000770402,16), (4631391616615899,19));
  (LL24 (5039849474507313,16) (7014259372778905,16), (4660928953698676,19));
  (LL24 (5421265793440747,16) (6420261240303118,16), (4674751807936953,19));
  (LL24 (609266023055731,15) (5075330790201827,16), (467641490393292,18));
  (LL24 (6374654204984869,16) (4327535965620328,16), (467408649234787,18));
  (LL24 (6615136472609892,16) (3532695698399839,16), (4674928539483207,19));
  (LL24 (6809487285958127,16) (2694766372943906,16), (4680748979686447,19));
  (LL24 (6952980021665196,16) (1819927920729089,16), (469044980638904,18));
  (LL24 (70412454976954,14) (9174550029121442,17), (4699877075860818,19));
  (LL24o (6744033088306065,17) (9977233092247486,16), (2099942281069176,19));
  (LL24o (1678684485334166,16) (9858094055074661,16), (3172269150712804,19));
  (LL24o (2793559049539613,16) (9601876266477054,16), (3832051358546523,19));
  (LL24o (3935264218057639,16) (9193133064090566,16), (4252193818146985,19));
  (LL24o (5052629268232558,16) (8629654539887429,16), (4513807963755,16));
  (LL24o (6107905315437531,16) (791792224372341,15), (4657797469114178,19));
  (LL48 (1135081039843524,16) (3331954884662588,17) (992978206203205,15), (2733362800522836,19));
  (LL48 (1612866626099378,16) (7247167465436538,17) (984243094381129,15), (3235485368463559,19));
  (LL48 (2100786550168205,16) (1151539110849745,16) (9708792589545611,16), (3624908726013453,19));
  (LL48 (2592282009459942,16) (1599491097143677,16) (952479407722752,15), (3925540070712828,19));
  (LL48 (3081740561320203,16) (2058699956028027,16) (9287875408497039,16), (4156129781116235,19));
  (LL48 (3564289781578164,16) (2521624953502911,16) (8996512988197645,16), (4330644984623263,19));
  (LL48 (4035587288240703,16) (2982090785797674,16) (8649923108574472,16), (4459677725921312,19));
  (LL48 (4491671196373903,16) (3434762087235733,16) (824786634638032,15), (4551593004456795,19));
  (LL48 (4928854782917489,16) (3874831357203437,16) (7790511695783812,16), (4613341462749918,19));
  (LL48 (5343646791958988,16) (4297814821746926,16) (7278339557945813,16), (4651019618269806,19));
  (LL48 (573268321653099,15) (4699402260943537,16) (6712075798792998,16), (4670249536100625,19));
  (LL48 (2214131583218986,16) (3873602040643895,17) (9744104546057548,16), (3549555576441708,19));
  (LL48 (2741796504750071,16) (8089496256902012,17) (9582700685591509,16), (385610824524901,18));
  (LL48 (3259797439149485,16) (1251732177620872,16) (9370532920342522,16), (4098622845756882,19));
  (LL48 (3765441148826891,16) (1706260286403185,16) (9105499919815746,16), (428632860426895,18));
  (LL48 (4255773574530558,16) (2165115147300408,16) (8786391049871257,16), (4427802198993945,19));
  (LL48 (472779511705843,15) (2622089812225259,16) (8412645145716238,16), (4530473511488561,19));
  (LL48 (5178546895819012,16) (3071721431296201,16) (7984183082590159,16), (4600805475703138,19));
  (LL48 (560514119209746,15) (3508998998801138,16) (7501287772313823,16), (4644599059958017,19));
  (LL48 (6004763319352512,16) (3929160876166931,16) (6964518094438246,16), (4667274455712508,19));
  (LL48 (3352842634946949,16) (4202563457288019,17) (9411792117825206,16), (4069360518020356,19));
  (LL48 (389197162981467,15) (861430975887085,16) (9171177323904492,16), (4260442819919195,19));
  (LL48 (4409875565542281,16) (1314500879380001,16) (8878349223506719,16), (4408678508029063,19));
  (LL48 (4904893058592484,16) (1772189657383859,16) (8532371762999602,16), (4518748115548597,19));
  (LL48 (5375056138769549,16) (2228277110050294,16) (8132868659083441,16), (4595564875375116,19));
  (LL48 (5818255708669969,16) (2677179935014386,16) (7679883339223694,16), (4643988774315846,19));
  (LL48 (6232334858144959,16) (3113675035544165,16) (717377376204326,15), (4668827491646946,19));
  (LL48 (4489485354492058,16) (4409162378368174,17) (8924691262055687,16), (4400541823741973,19));
  (LL48 (501513687593315,15) (8939009917748489,17) (8605192800429251,16), (4514512890193797,19));
  (LL48 (5511300550512623,16) (1351806029383365,16) (8233965429903264,16), (4596198627347549,19));
  (LL48 (5976720409858,13) (1808370355053196,16) (7810800842509787,16), (4648659016801781,19));
  (LL48 (6409956378989354,16) (2257852192301602,16) (7335840967276521,16), (4675502017157673,19));
  (LL48 (5581222330827514,16) (453217342163716,16) (8285200741963609,16), (4598494476455523,19));
  (LL48 (6074705984161695,16) (9117488031840314,17) (7890922717013681,16), (4654916955152048,19));
  (LL48 (6532272537379032,16) (1369294213140155,16) (7446774392665899,16), (4684709779505137,19));
  (LL48 (6594761494500487,16) (4589901487275583,17) (7503229229740002,16), (4691445539106986,19))].

(** lebedev_laikov/lebedev_laikov_2702.hpp:1-5425. *)
Definition ll_2702 : coded := [  (LL6 (1,0), (2998675149888161,20));
  (LL8 (5773502691896257,16), (4077860529495355,19));
  (LL24 (2065562538818703,17) (9995732540837844,16), (1185349192520667,19));
  (LL24 (5250918173022379,17) (9972389742022946,16), (1913408643425751,19));
  (LL24 (8993480082038376,17) (9918787542854196,16), (2452886577209897,19));
  (LL24 (1306023924436019,16) (982795009234385,15), (2862408183288702,19));
  (LL24 (1732060388531418,16) (9695356291594486,16), (3178032258257357,19));
  (LL24 (2168727084820249,16) (9518048416725675,16), (342294566763369,18));
  (LL24 (2609528309173586,16) (9294123089740274,16), (3612790520235922,19));
  (LL24 (3049252927938952,16) (9022422798944387,16), (3758638229818521,19));
  (LL24 (3483484138084404,16) (8702337417006347,16), (3868711798859953,19));
  (LL24 (3908321549106406,16) (8333669380145879,16), (3949429933189938,19));
  (LL24 (4320210071894814,16) (7916537745087635,16), (4006068107541156,19));
  (LL24 (4715824795890053,16) (7451308139443508,16), (4043192149672723,19));
  (LL24 (5091984794078454,16) (6938543198233158,16), (4064947495808078,19));
  (LL24 (5445580145650804,16) (6378974349735821,16), (4075245619813152,19));
  (LL24 (6072575796841768,16) (5123245688352563,16), (4076423540893566,19));
  (LL24 (6339484505755802,16) (4429658271533395,16), (4074280862251555,19));
  (LL24 (6570718257486958,16) (3694769703439593,16), (4074163756012244,19));
  (LL24 (6762557330090709,16) (2921581201074658,16), (4077647795071246,19));
  (LL24 (691116169692379,15) (2114636611322844,16), (408451755278253,18));
  (LL24 (7012841911659961,16) (1280662580124421,16), (4092468459224052,19));
  (LL24 (706455927241002,15) (4289575424342192,17), (4097872687240906,19));
  (LL24o (6123554989894765,17) (9981233427931507,16), (1738986811745028,19));
  (LL24o (1533070348312393,16) (9881786038319456,16), (2659616045280191,19));
  (LL24o (2563902605244206,16) (9665733465744955,16), (3240596008171533,19));
  (LL24o (3629346991663361,16) (9318145760509658,16), (3621195964432943,19));
  (LL24o (4683949968987538,16) (8835191717672098,16), (3868838330760539,19));
  (LL24o (5694479240657953,16) (8220274093831399,16), (4018911532693111,19));
  (LL24o (6634465430993955,16) (748223686105607,15), (4089929432983252,19));
  (LL48 (1033958573552305,16) (3034544009063584,17) (9941772734012191,16), (2279907527706409,19));
  (LL48 (1473521412414395,16) (6618803044247135,17) (9868670078068825,16), (2715205490578897,19));
  (LL48 (1924552158705967,16) (1054431128987715,16) (9756242821016802,16), (3057917896703976,19));
  (LL48 (2381094362890328,16) (1468263551238858,16) (960075995841555,15), (3326913052452555,19));
  (LL48 (283812170793676,15) (1894486108187886,16) (9399786569748338,16), (3537334711890037,19));
  (LL48 (3291323133373415,16) (2326374238761579,16) (9151785341284371,16), (3700567500783129,19));
  (LL48 (373689697874146,15) (2758485808485768,16) (8855865684090718,16), (3825245372589122,19));
  (LL48 (4171406040760013,16) (3186179331996921,16) (8511617525915185,16), (3918125171518296,19));
  (LL48 (4591677985256915,16) (3605329796303794,16) (8118995648452525,16), (3984720419937579,19));
  (LL48 (4994733831718418,16) (4012147253586509,16) (7678236019153467,16), (4029746003338211,19));
  (LL48 (5377731830445096,16) (4403050025570692,16) (718979490890662,15), (4057428632156627,19));
  (LL48 (5737917830001331,16) (4774565904277483,16) (6654308333843854,16), (4071719274114857,19));
  (LL48 (2027323586271389,16) (3544122504976147,17) (9785926171458935,16), (2990236950664119,19));
  (LL48 (2516942375187273,16) (7418304388646328,17) (9649595259903938,16), (3262951734212878,19));
  (LL48 (3000227995257181,16) (1150502745727186,16) (9469687186414834,16), (3482634608242413,19));
  (LL48 (3474806691046342,16) (1571963371209364,16) (9244168411460041,16), (3656596681700892,19));
  (LL48 (3938103180359209,16) (19996318772471,14) (8971778847939907,16), (3791740467794218,19));
  (LL48 (4387519590455703,16) (2428073457846535,16) (8651828195628285,16), (3894034450156905,19));
  (LL48 (4820503960077787,16) (2852575132906155,16) (828405436256908,15), (3968600245508371,19));
  (LL48 (5234573778475101,16) (3268884208674639,16) (7868521677416825,16), (401993135142005,18));
  (LL48 (5627318647235282,16) (3673033321675939,16) (7405545966391424,16), (4052108801278599,19));
  (LL48 (5996390607156954,16) (406121155183029,15) (6895640682175955,16), (4068978613940934,19));
  (LL48 (3084780753791947,16) (3860125523100059,17) (9504479049926614,16), (3454275351319704,19));
  (LL48 (3589988275920223,16) (7928938987104867,17) (9299639963146048,16), (362996353700792,18));
  (LL48 (4078628415881973,16) (1212614643030087,16) (9049550042552896,16), (3770187233889873,19));
  (LL48 (4549287258889735,16) (1638770827382693,16) (8753194594627893,16), (3878608613694378,19));
  (LL48 (5000278512957279,16) (2065965798260176,16) (8410053514293291,16), (3959065270221274,19));
  (LL48 (5429785044928199,16) (2489436378852235,16) (8019983845465098,16), (401528697546357,18));
  (LL48 (5835939850491711,16) (2904811368946891,16) (7583131079724237,16), (4050866785614717,19));
  (LL48 (6216870353444856,16) (3307941957666609,16) (7099862182688284,16), (4069320185051913,19));
  (LL48 (4151104662709091,16) (4064829146052554,17) (9088624853043988,16), (3760120964062763,19));
  (LL48 (4649804275009218,16) (8258424547294756,17) (8814607446963955,16), (3870969564418064,19));
  (LL48 (5124695757009662,16) (1251841962027289,16) (8495315479733219,16), (3955287790534055,19));
  (LL48 (5574711100606224,16) (1679107505976331,16) (8130387083537394,16), (4015361911302668,19));
  (LL48 (5998597333287227,16) (2102805057358715,16) (7719782440187416,16), (4053836986719548,19));
  (LL48 (63950071485166,14) (2518418087774107,16) (726370799974736,15), (4073578673299117,19));
  (LL48 (5188456224746252,16) (4194321676077518,17) (8538383843601067,16), (3954628379231406,19));
  (LL48 (5664190707942778,16) (8457661551921498,17) (819765961935394,15), (401764550884753,18));
  (LL48 (6110464353283153,16) (1273652932519396,16) (781281214382764,15), (4059030348651293,19));
  (LL48 (6526430302051563,16) (1698173239076354,16) (7383895663032358,16), (408056580948488,18));
  (LL48 (6167551880377548,16) (4266398851548864,17) (7859979784404436,16), (4063018753664651,19));
  (LL48 (6607195418355383,16) (8551925814238349,17) (745745361047196,15), (4087191292799671,19))].

(** lebedev_laikov/lebedev_laikov_3074.hpp:1-6169. *)
Definition ll_3074 : coded := [  (LL6 (1,0), (2599095953754734,20));
  (LL12 (7071067811865476,16), (3603134089687541,19));
  (LL8 (5773502691896257,16), (3586067974412447,19));
  (LL24 (1886108518723392,17) (9996441961673762,16), (983152847438588,19));
  (LL24 (4800217244625303,17) (9976931306172657,16), (160502310795445,18));
  (LL24 (8244922058397242,17) (9931788620637226,16), (2072200131464099,19));
  (LL24 (1200408362484023,16) (9854848528848977,16), (2431297618814187,19));
  (LL24 (1595773530809965,16) (974202307925477,15), (2711819064496707,19));
  (LL24 (2002635973434064,16) (9590562982214109,16), (2932762038321116,19));
  (LL24 (2415127590139982,16) (9398633807457831,16), (3107032514197368,19));
  (LL24 (2828584158458477,16) (9165054463397122,16), (3243808058921213,19));
  (LL24 (3239091015338138,16) (8889126998120316,16), (334989909137403,18));
  (LL24 (3643225097962194,16) (8570520507597933,16), (3430580688505218,19));
  (LL24 (4037897083691802,16) (8209188405867323,16), (3490124109290343,19));
  (LL24 (4420247515194127,16) (7805307412833931,16), (3532148948561955,19));
  (LL24 (4787572538464938,16) (7359232186707577,16), (3559862669062833,19));
  (LL24 (5137265251275234,16) (6871463561431438,16), (3576224317551411,19));
  (LL24 (5466764056654611,16) (6342632063878406,16), (3584050533086076,19));
  (LL24 (6054859420813535,16) (5165012564202642,16), (3584903581373224,19));
  (LL24 (6308106701764562,16) (4518360286465217,16), (3582991879040586,19));
  (LL24 (6530369230179583,16) (3835173455666306,16), (3582371187963125,19));
  (LL24 (6718609524611158,16) (3117783204715888,16), (358435363112235,18));
  (LL24 (6869676499894013,16) (2369618022721783,16), (3589120166517785,19));
  (LL24 (6980467077240748,16) (1595668752315468,16), (3595445704531601,19));
  (LL24 (7048241721250522,16) (8028557016344541,17), (3600943557111074,19));
  (LL24o (5591105222058232,17) (998435753686529,15), (1456447096742039,19));
  (LL24o (1407384078513916,16) (9900468173553488,16), (2252370188283782,19));
  (LL24o (2364035438976309,16) (9716549616158201,16), (2766135443474897,19));
  (LL24o (336060273781817,15) (9418404813903946,16), (3110729491500851,19));
  (LL24o (4356292630054665,16) (9001261829395444,16), (3342506712303391,19));
  (LL24o (5321569415256174,16) (8466457284992942,16), (349198183402686,18));
  (LL24o (6232956305040555,16) (7819862895182703,16), (3576003604348932,19));
  (LL48 (9469870086838469,17) (277874838730947,16) (9951180893712277,16), (1921921305788564,19));
  (LL48 (1353170300568141,16) (6076569878628364,17) (9889372230974107,16), (2301458216495632,19));
  (LL48 (1771679481726077,16) (970307276271104,16) (9793858055110161,16), (2604248549522893,19));
  (LL48 (2197066664231751,16) (1354112458524762,16) (9661225466916171,16), (2845275425870697,19));
  (LL48 (2624783557374927,16) (17509964797441,14) (948917923768215,15), (303687089797484,18));
  (LL48 (3050969521214442,16) (2154896907449802,16) (9276206352754546,16), (3188414832298066,19));
  (LL48 (3472252637196021,16) (2560954625740152,16) (9021362038427756,16), (3307046414722089,19));
  (LL48 (388561021902636,15) (2965070050624096,16) (872412705207174,15), (339833096903136,18));
  (LL48 (4288273776062765,16) (3363641488734497,16) (8384308197865604,16), (3466757899705373,19));
  (LL48 (4677662471302948,16) (3753400029836788,16) (8001966134681225,16), (3516095923230054,19));
  (LL48 (505133358955336,15) (4131297522144286,16) (7577361661592672,16), (3549645184048486,19));
  (LL48 (5406942145810492,16) (4494423776081795,16) (7110916365198574,16), (3570415969441392,19));
  (LL48 (5742204122576458,16) (4839938958841502,16) (6603187312908378,16), (3581251798496118,19));
  (LL48 (1865407027225188,16) (3259144851070796,17) (9819064943831275,16), (2543491329913348,19));
  (LL48 (2321186453689432,16) (6835679505297343,17) (9702825789645884,16), (2786711051330776,19));
  (LL48 (2773159142523882,16) (1062284864451989,16) (9548881569953228,16), (2985552361083679,19));
  (LL48 (3219200192237254,16) (1454404409323047,16) (9355290371572723,16), (3145867929154039,19));
  (LL48 (3657032593944029,16) (185401828258251,15) (9120785537149791,16), (3273290662067609,19));
  (LL48 (4084376778363622,16) (225629741201475,15) (8844602213830735,16), (3372705511943501,19));
  (LL48 (4499004945751427,16) (2657104425000896,16) (8526356230696959,16), (344827443785151,18));
  (LL48 (4898758141326335,16) (3052755487631557,16) (8165956931402735,16), (3503592783048583,19));
  (LL48 (5281547442266309,16) (3439863920645423,16) (7763542543358162,16), (3541854792663162,19));
  (LL48 (5645346989813992,16) (3815229456121914,16) (7319431778610808,16), (3565995517909428,19));
  (LL48 (5988181252159848,16) (4175752420966734,16) (683408933290104,15), (3578802078302898,19));
  (LL48 (2850425424471603,16) (3562149509862536,17) (9578527329825799,16), (2958644592860982,19));
  (LL48 (3324619433027876,16) (7330318886871096,17) (9402636325823795,16), (3119548129116835,19));
  (LL48 (3785848333076282,16) (1123226296008472,16) (9187258300869668,16), (3250745225005984,19));
  (LL48 (4232891028562115,16) (1521084193337708,16) (8931345722627499,16), (3355153415935208,19));
  (LL48 (4664287050829722,16) (192184445922361,15) (8634288632076975,16), (3435847568549328,19));
  (LL48 (5078458493735726,16) (2321360989678303,16) (8295814757032803,16), (3495786831622488,19));
  (LL48 (547377981620418,15) (271588648636052,15) (7915914041784439,16), (3537767805534621,19));
  (LL48 (5848617133811376,16) (3101924707571355,16) (7494780899442383,16), (3564459815421428,19));
  (LL48 (6201348281584887,16) (3476121052890973,16) (7032770571839545,16), (3578464061225468,19));
  (LL48 (3852191185387871,16) (3763224880035108,17) (9220575061038375,16), (3239748762836212,19));
  (LL48 (4325025061073423,16) (7659581935637134,17) (8983733425853611,16), (3345491784174287,19));
  (LL48 (477848622973449,15) (11633813060839,14) (8707043889225113,16), (3429126177301782,19));
  (LL48 (5211663693009,13) (1563890598752899,16) (8390042177850127,16), (3492420343097421,19));
  (LL48 (5623469504853703,16) (19633208101492,14) (8032556387876498,16), (3537399050235257,19));
  (LL48 (6012718188659246,16) (2357847407258738,16) (7634643121184481,16), (3566209152659172,19));
  (LL48 (6378179206390117,16) (274384612124406,15) (7196536561020632,16), (3581084321919782,19));
  (LL48 (4836936460214534,16) (3895902610739024,17) (8743698594320578,16), (3426522117591512,19));
  (LL48 (5293792562683797,16) (787124681931264,16) (8447259617081052,16), (3491848770121379,19));
  (LL48 (5726281253100033,16) (1187963808202981,16) (811162406678188,15), (3539318235231476,19));
  (LL48 (6133658776169068,16) (1587914708061787,16) (7736714864685478,16), (3570231438458694,19));
  (LL48 (6515085491865307,16) (1983058575227646,16) (7322645677683872,16), (3586207335051714,19));
  (LL48 (5778692716064976,16) (3977209689791542,17) (8151596685566078,16), (3541196205164025,19));
  (LL48 (6207904288086192,16) (7990157592981152,17) (7798942118412877,16), (3574296911573953,19));
  (LL48 (6608688171046802,16) (1199671308754309,16) (7408510606648128,16), (3591993279818963,19));
  (LL48 (6656263089489129,16) (4015955957805969,17) (7452038825781455,16), (3595855034661997,19))].

(** lebedev_laikov/lebedev_laikov_3470.hpp:1-6961. *)
Definition ll_3470 : coded := [  (LL6 (1,0), (204038273082633,19));
  (LL8 (5773502691896257,16), (3178149703889544,19));
  (LL24 (1721420832906233,17) (9997036271131596,16), (8288115128076111,20));
  (LL24 (440887537498177,16) (9980542888969397,16), (1360883192522954,19));
  (LL24 (7594680813878681,17) (994215351252967,15), (1766854454542662,19));
  (LL24 (1108335359204799,16) (9876395367899805,16), (2083153161230153,19));
  (LL24 (1476517054388567,16) (9779560050237404,16), (2333279544657158,19));
  (LL24 (1856731870860615,16) (9649098067667303,16), (2532809539930247,19));
  (LL24 (2243634099428821,16) (9483259569143958,16), (2692472184211158,19));
  (LL24 (2633006881662727,16) (928087008433118,15), (2819949946811885,19));
  (LL24 (3021340904916283,16) (9041183455309338,16), (292095359397303,18));
  (LL24 (3405594048030089,16) (8763781053862771,16), (2999889782948352,19));
  (LL24 (3783044434007372,16) (8448499844389634,16), (3060292120496902,19));
  (LL24 (415119476740791,15) (8095379176177628,16), (3105109167522192,19));
  (LL24 (4507705766443257,16) (7704620525785058,16), (3136902387550312,19));
  (LL24 (4850346056573187,16) (7276557308437134,16), (3157984652454632,19));
  (LL24 (5176950817792469,16) (6811634198950776,16), (3170516518425422,19));
  (LL24 (5485384240820989,16) (6310397726063349,16), (3176568425633755,19));
  (LL24 (6039117238943308,16) (5201742587690736,16), (3177198411207062,19));
  (LL24 (6279956655573113,16) (4596116709597997,16), (3175519492394733,19));
  (LL24 (6493636169568952,16) (3957951312804612,16), (3174654952634756,19));
  (LL24 (6677644117704504,16) (328909380750578,15), (3175676415467654,19));
  (LL24 (6829368572115624,16) (2592190157453503,16), (317892341783541,18));
  (LL24 (6946195818184121,16) (1871023065299532,16), (3183788287531909,19));
  (LL24 (7025711542057026,16) (1130820346303235,16), (3188755151918807,19));
  (LL24 (7066004767140119,16) (3783559983748276,17), (3191916889313849,19));
  (LL24o (5132537689946062,17) (9986819842603192,16), (1231779611744508,19));
  (LL24o (1297994661331225,16) (9915402657439366,16), (192466137383988,18));
  (LL24o (2188852049401307,16) (9757506172472129,16), (2380881867403424,19));
  (LL24o (3123174824903457,16) (949977784019654,15), (2693100663037885,19));
  (LL24o (4064037620738195,16) (9136935931548641,16), (2908673382834366,19));
  (LL24o (4984958396944782,16) (8668920912127974,16), (3053914619381535,19));
  (LL24o (5864975046021365,16) (8099510337640584,16), (3143916684147777,19));
  (LL24o (6686711634580175,16) (7435582527009578,16), (3187042244055363,19));
  (LL48 (8715738780835949,17) (2557175233367578,17) (9958662938532503,16), (163521953586979,18));
  (LL48 (1248383123134007,16) (5604823383376681,17) (9905927474309799,16), (196810991769607,18));
  (LL48 (1638062693383378,16) (8968568601900764,17) (9824072393100307,16), (2236754342249974,19));
  (LL48 (2035586203373176,16) (1254086651976279,16) (9709977110064251,16), (2453186687017181,19));
  (LL48 (2436798975293774,16) (1624780150162012,16) (9561490480968263,16), (2627551791580541,19));
  (LL48 (2838207507773806,16) (2003422342683208,16) (937714653077652,15), (276765486015222,18));
  (LL48 (3236787502217692,16) (2385628026255263,16) (9155980864212898,16), (2879467027765895,19));
  (LL48 (3629849554840691,16) (2767731148783578,16) (8897407290737902,16), (2967639918918702,19));
  (LL48 (4014948081992087,16) (3146542308245309,16) (860113151866255,15), (3035900684660351,19));
  (LL48 (4389818379260225,16) (3519196415895088,16) (8267088434476814,16), (3087338237298308,19));
  (LL48 (4752331143674377,16) (3883050984023654,16) (7895395098178148,16), (3124608838860167,19));
  (LL48 (5100457318374018,16) (4235613423908649,16) (7486315119379479,16), (3150084294226743,19));
  (LL48 (5432238388954868,16) (457448471719622,15) (7040232642299773,16), (3165958398598402,19));
  (LL48 (5745758685072442,16) (4897311639255524,16) (6557636452329985,16), (3174320440957372,19));
  (LL48 (1723981437592809,16) (3010630597881105,17) (9845671588919999,16), (2182188909812599,19));
  (LL48 (2149553257844597,16) (6326031554204695,17) (9745729015288787,16), (2399727933921445,19));
  (LL48 (2573256081247422,16) (9848566980258631,17) (9612929336298939,16), (2579796133514652,19));
  (LL48 (2993163751238106,16) (1350835952384266,16) (9445433446275524,16), (2727114052623535,19));
  (LL48 (3407238005148,13) (1725184055442181,16) (9241994868594288,16), (2846327656281355,19));
  (LL48 (3813454978483264,16) (2103559279730725,16) (9001810900243348,16), (2941491102051334,19));
  (LL48 (4209848104423343,16) (248227877455486,15) (8724418090799959,16), (3016049492136107,19));
  (LL48 (45945196999963,14) (2858099509982883,16) (8409616871022217,16), (3072949726175648,19));
  (LL48 (496564016618593,15) (3228075659915428,16) (8057415545559415,16), (311476814288646,18));
  (LL48 (5321441655571562,16) (3589459907204151,16) (7667987759570417,16), (3143823673666223,19));
  (LL48 (5660208438582166,16) (393963008886431,15) (7241640366292587,16), (3162269764661535,19));
  (LL48 (5980264315964364,16) (4276029922949089,16) (6778790954827217,16), (3172164663759821,19));
  (LL48 (2644215852350733,16) (3300939429072552,17) (963842105923128,15), (2554575398967435,19));
  (LL48 (3090113743443063,16) (6803887650078501,17) (9486214639203321,16), (2701704069135677,19));
  (LL48 (3525871079197808,16) (1044326136206709,16) (9299334172622901,16), (282369341346894,18));
  (LL48 (3950418005354029,16) (1416751597517679,16) (9076729173766606,16), (2922898463214289,19));
  (LL48 (4362475663430163,16) (1793408610504821,16) (8817737331183478,16), (3001829062162428,19));
  (LL48 (4760661812145854,16) (2170630750175722,16) (8521998665616402,16), (3062890864542953,19));
  (LL48 (5143551042512103,16) (2545145157815807,16) (818939062438222,15), (3108328279264746,19));
  (LL48 (5509709026935597,16) (2913940101706601,16) (7819978230287506,16), (3140243146201245,19));
  (LL48 (5857711030329428,16) (3274169910910705,16) (7413975511130579,16), (316063803097713,18));
  (LL48 (6186149917404392,16) (3623081329317265,16) (6971716494562172,16), (3171462882206275,19));
  (LL48 (3586894569557064,16) (349735438645004,16) (9328015462564254,16), (2812388416031796,19));
  (LL48 (4035266610019441,16) (7129736739757095,17) (9121857920746178,16), (2912137500288045,19));
  (LL48 (446777531233251,15) (1084758620193165,16) (888044382305461,15), (2993241256502206,19));
  (LL48 (4883638346608543,16) (1460915689241772,16) (8603243681801754,16), (3057101738983822,19));
  (LL48 (5281908348434601,16) (183779083236998,15) (8289992102239527,16), (3105319326251432,19));
  (LL48 (5661542687149311,16) (2212075390874021,16) (7940633278692305,16), (3139565514428167,19));
  (LL48 (6021450102031451,16) (2580682841160985,16) (7555277277643931,16), (3161543006806366,19));
  (LL48 (636052078361005,15) (2940656362094121,16) (713416536963785,15), (3172985960613294,19));
  (LL48 (4521611065087196,16) (3631055365867002,17) (8911968791764315,16), (2989400336901431,19));
  (LL48 (4959365651560963,16) (7348318468484349,17) (8652439799904685,16), (3054555883947677,19));
  (LL48 (5376815804038283,16) (1111087643812648,16) (8357950469894579,16), (3104764960807702,19));
  (LL48 (5773314480243767,16) (1488226085145408,16) (8028326290809338,16), (3141015825977616,19));
  (LL48 (6148113245575056,16) (1862892274135151,16) (7663572006222171,16), (3164520621159896,19));
  (LL48 (650040746284238,15) (2231909701714456,16) (7263833829350447,16), (3176652305912204,19));
  (LL48 (5425151448707213,16) (3718201306118944,17) (839222744860158,15), (3105097161023939,19));
  (LL48 (5841860556907931,16) (7483616335067346,17) (8081622368011172,16), (314301411789055,18));
  (LL48 (62346321868515,14) (112599083426612,15) (773702178721399,15), (31681728662872,17));
  (LL48 (6602934551848842,16) (1501303813157619,16) (7358487763433402,16), (3181401865570968,19));
  (LL48 (6278573968375105,16) (376755993024572,16) (7774160008988916,16), (3170663659156037,19));
  (LL48 (6665611711264577,16) (7548443301360158,17) (7416187062899238,16), (318544794462551,18))].

(** lebedev_laikov/lebedev_laikov_3890.hpp:1-7801. *)
Definition ll_3890 : coded := [  (LL6 (1,0), (180739525219692,19));
  (LL12 (7071067811865476,16), (2848008782238827,19));
  (LL8 (5773502691896257,16), (2836065837530581,19));
  (LL24 (1587876419858352,17) (9997478330534413,16), (7013149266673816,20));
  (LL24 (4069193593751206,17) (9983427931824393,16), (1162798021956766,19));
  (LL24 (7025888115257997,17) (9950514455234841,16), (1518728583972105,19));
  (LL24 (1027495450028704,16) (9893862046761144,16), (1798796108216934,19));
  (LL24 (1371457730893426,16) (9810107409439782,16), (2022593385972785,19));
  (LL24 (1727758532671953,16) (9696891301110812,16), (2203093105575464,19));
  (LL24 (2091492038929037,16) (9552555789012327,16), (2349294234299855,19));
  (LL24 (2458813281751915,16) (9375951924522691,16), (2467682058747003,19));
  (LL24 (2826545859450066,16) (9166312072412295,16), (2563092683572224,19));
  (LL24 (3191957291799622,16) (8923161844024485,16), (2639253896763318,19));
  (LL24 (3552621469299578,16) (8646257074118454,16), (2699137479265108,19));
  (LL24 (390632950340623,15) (8335537152555681,16), (2745196420166739,19));
  (LL24 (4251028614093031,16) (7991089502960442,16), (2779529197397593,19));
  (LL24 (458477752011187,15) (7613122236123212,16), (2803996086684265,19));
  (LL24 (4905711358710193,16) (7201943635578077,16), (2820302356715842,19));
  (LL24 (5212011669847385,16) (6757948557569031,16), (2830056747491068,19));
  (LL24 (5501878488737995,16) (6281613342949742,16), (2834808950776839,19));
  (LL24 (6025037877479342,16) (5234294331605593,16), (2835282339078929,19));
  (LL24 (6254572689549016,16) (4664830215805841,16), (28338192670658,17));
  (LL24 (6460107179528248,16) (4066205904527605,16), (2832858336906784,19));
  (LL24 (6639541138154251,16) (3439910892670724,16), (2833268235451244,19));
  (LL24 (6790688515667495,16) (2788027791533507,16), (2835432677029253,19));
  (LL24 (6911338580371512,16) (2113480081509306,16), (2839091722743049,19));
  (LL24 (699938595612649,15) (1420279012855752,16), (2843308178875841,19));
  (LL24 (7053037748656896,16) (7136645094452454,17), (2846703550533846,19));
  (LL24o (4732224387180115,17) (998879675053476,15), (10511934069719,17));
  (LL24o (1202100529326803,16) (9927484793108082,16), (1657871838796974,19));
  (LL24o (2034304820664855,16) (9790893927350032,16), (2064648113714232,19));
  (LL24o (2912285643573002,16) (9566535022161293,16), (2347942745819741,19));
  (LL24o (3802361792726768,16) (9248894247271491,16), (2547775326597726,19));
  (LL24o (4680598511056146,16) (883696766873677,15), (2686876684847025,19));
  (LL24o (5528151052155599,16) (8333039418156556,16), (2778665755515867,19));
  (LL24o (6329386307803041,16) (7742019695570104,16), (2830996616782929,19));
  (LL48 (8056516651369069,17) (2363454684003124,17) (9964690974336774,16), (1403063340168372,19));
  (LL48 (1156476077139389,16) (5191291632545936,17) (991932800117341,15), (1696504125939477,19));
  (LL48 (1520473382760421,16) (832271573699452,16) (9848628570513203,16), (193578724274539,18));
  (LL48 (1892986699745931,16) (1165855667993712,16) (9749737530620604,16), (2130614510521968,19));
  (LL48 (2270194446777792,16) (1513077167409504,16) (9620645230923096,16), (2289381265931048,19));
  (LL48 (2648908185093273,16) (1868882025807859,16) (9459945316996191,16), (2418630292816186,19));
  (LL48 (3026389259574136,16) (2229277629776224,16) (9266676281111454,16), (2523400495631193,19));
  (LL48 (3400220296151384,16) (2590951840746235,16) (9040214073603229,16), (2607623973449605,19));
  (LL48 (376821795333551,15) (2951047291750847,16) (878019665713758,15), (2674441032689209,19));
  (LL48 (4128372900921884,16) (330701971416993,15) (8486469100929153,16), (2726432360343356,19));
  (LL48 (447880713181563,15) (3656544101087634,16) (8159042340421986,16), (2765787685924545,19));
  (LL48 (4817742034089257,16) (3997448951939695,16) (7798061526405504,16), (2794428690642224,19));
  (LL48 (5143472814653344,16) (4327667110812024,16) (7403781789255942,16), (2814099002062895,19));
  (LL48 (545434621390565,15) (4645196123532293,16) (6976550748957085,16), (2826429531578994,19));
  (LL48 (5748739313170252,16) (4948063555703345,16) (6516798551277397,16), (2832983542550884,19));
  (LL48 (1599598738286342,16) (2792357590048985,17) (9867284898459439,16), (1886695565284976,19));
  (LL48 (1998097412500951,16) (5877141038139065,17) (9780705437867722,16), (2081867882748234,19));
  (LL48 (2396228952566202,16) (9164573914691378,17) (9665308720186079,16), (2245148680600796,19));
  (LL48 (2792228341097746,16) (1259049641962687,16) (9519362105217143,16), (2380370491511872,19));
  (LL48 (3184251107546741,16) (1610594823400863,16) (9341655591966646,16), (2491398041852455,19));
  (LL48 (3570481164426244,16) (1967151653460898,16) (9131373315485654,16), (258163240588123,18));
  (LL48 (3949164710492144,16) (2325404606175168,16) (8888002672534635,16), (2653965506227417,19));
  (LL48 (4318617293970503,16) (2682461141151439,16) (8611268599598517,16), (2710857216747087,19));
  (LL48 (4677221009931678,16) (3035720116011973,16) (8301084688249719,16), (2754434093903659,19));
  (LL48 (5023417939270955,16) (3382781859197439,16) (7957515887542762,16), (278657993251938,18));
  (LL48 (5355701836636128,16) (3721383065625942,16) (7580749693527999,16), (2809011080679474,19));
  (LL48 (5672608451328771,16) (4049346360466055,16) (7171074355415212,16), (2823336184560987,19));
  (LL48 (5972704202540162,16) (4364538098633802,16) (6728864071634463,16), (2831101175806309,19));
  (LL48 (2461687022333596,16) (3070423166833368,17) (9687405329593682,16), (2221679970354546,19));
  (LL48 (2881774566286831,16) (6338034669281885,17) (9554772028385196,16), (2356185734270703,19));
  (LL48 (3293963604116978,16) (9742862487067941,17) (9391515856363846,16), (246922834480559,18));
  (LL48 (3697303822241377,16) (132379953228229,15) (9196602592499499,16), (2562726348642046,19));
  (LL48 (4090663023135127,16) (1678497018129336,16) (8969343554089446,16), (2638756726753028,19));
  (LL48 (4472819355411712,16) (2035095105326114,16) (8709321151854033,16), (2699311157390862,19));
  (LL48 (4842513377231437,16) (2390692566672091,16) (8416332529254853,16), (2746233268403837,19));
  (LL48 (5198477629962928,16) (2742649818076149,16) (8090346241427612,16), (2781225674454771,19));
  (LL48 (5539453011883145,16) (3088503806580094,16) (7731468461157881,16), (2805881254045684,19));
  (LL48 (5864196762401251,16) (3425904245906614,16) (7339916650052759,16), (2821719877004913,19));
  (LL48 (617148446666839,15) (3752562294789468,16) (6915999978412029,16), (2830222502333124,19));
  (LL48 (3350337830565727,16) (3261589934634747,17) (9416414218377558,16), (245799595674487,18));
  (LL48 (3775773224758284,16) (6658438928081573,17) (9235810114202679,16), (2551474407503706,19));
  (LL48 (4188155229848973,16) (1014565797157954,16) (9023857934050488,16), (2629065335195311,19));
  (LL48 (4586805892009344,16) (1368573320843822,16) (8779989679635328,16), (2691900449925075,19));
  (LL48 (4970895714224235,16) (1724614851951608,16) (8503875552401685,16), (2741275485754276,19));
  (LL48 (5339505133960747,16) (2079779381416412,16) (8195376907076452,16), (2778530970122595,19));
  (LL48 (569166579253144,15) (2431385788322288,16) (785450849222737,15), (2805010567646741,19));
  (LL48 (6026387682680377,16) (2776901883049853,16) (7481408118125384,16), (282205583403104,18));
  (LL48 (6342676150163307,16) (3113881356386632,16) (7076312751178917,16), (2831016901243473,19));
  (LL48 (4237951119537067,16) (3394877848664351,17) (9051216401807052,16), (2624474901131803,19));
  (LL48 (4656918683234929,16) (6880219556291448,17) (8822682934703575,16), (2688034163039377,19));
  (LL48 (505885706918598,15) (1041946859721635,16) (8562844848241924,16), (2738932751287636,19));
  (LL48 (5443204666713995,16) (1398039738736393,16) (8271457419655672,16), (2777944791242523,19));
  (LL48 (5809298813759742,16) (1753373381196155,16) (7948441927734164,16), (2806011661660987,19));
  (LL48 (6156416039447128,16) (210521579351401,15) (7593853304612707,16), (282418145659746,18));
  (LL48 (6483801351066604,16) (2450953312157051,16) (7207853210320897,16), (2833585216577828,19));
  (LL48 (5103616577251688,16) (3485560643800719,17) (8592532019281955,16), (2738165236962878,19));
  (LL48 (5506738792580681,16) (7026308631512033,17) (83175800411198,14), (277836520820318,18));
  (LL48 (5889573040995292,16) (1059035061296403,16) (8011951955280711,16), (2807852940418966,19));
  (LL48 (625164158951693,15) (1414823925236026,16) (7675627055609331,16), (2827245949674705,19));
  (LL48 (6592414921570178,16) (176720790821453,15) (7308696307208481,16), (2837342344829828,19));
  (LL48 (5930314017533383,16) (3542189339561672,17) (8043998048251504,16), (2809233907610981,19));
  (LL48 (6309812253390175,16) (7109574040369548,17) (7725335520002496,16), (2829930809742694,19));
  (LL48 (666629601135323,15) (106725979228273,15) (7377089807288009,16), (2841097874111479,19));
  (LL48 (6703715271049921,16) (3569455268820809,17) (7411665902854159,16), (2843455206008783,19))].

(** lebedev_laikov/lebedev_laikov_4334.hpp:1-8689. *)
Definition ll_4334 : coded := [  (LL6 (1,0), (1449063022537883,20));
  (LL8 (5773502691896257,16), (2546377329828424,19));
  (LL24 (1462896151831013,17) (9997859705805996,16), (6018432961087496,20));
  (LL24 (3769840812493139,17) (9985778187250567,16), (1002286583263673,19));
  (LL24 (6524701904096891,17) (9957337259591718,16), (1315222931028093,19));
  (LL24 (9560543416134648,17) (9908174412663722,16), (1564213746876724,19));
  (LL24 (1278335898929198,16) (9835228246411862,16), (1765118841507736,19));
  (LL24 (1613096104466031,16) (973631562324851,15), (192873709931108,18));
  (LL24 (1955806225745371,16) (9609872216354975,16), (206265853426327,18));
  (LL24 (2302935218498028,16) (9454786023956485,16), (2172395445953787,19));
  (LL24 (2651584344113027,16) (927028591425903,15), (2262076188876047,19));
  (LL24 (2999276825183209,16) (9055864235501648,16), (2334885699462397,19));
  (LL24 (3343828669718798,16) (8811221235171276,16), (2393355273179203,19));
  (LL24 (3683265013750518,16) (8536223853494166,16), (2439559200468863,19));
  (LL24 (4015763206518108,16) (8230874299753995,16), (2475251866060002,19));
  (LL24 (433961202639977,15) (7895285613621141,16), (2501965558158773,19));
  (LL24 (4653180651114582,16) (7529662652216615,16), (2521081407925925,19));
  (LL24 (4954893331080803,16) (7134287922085986,16), (2533881002388081,19));
  (LL24 (524320706892493,15) (6709512595170479,16), (2541582900848261,19));
  (LL24 (5516590479041704,16) (6255754069102528,16), (254536573752586,18));
  (LL24 (6012371927804177,16) (5263341866486024,16), (2545726993066799,19));
  (LL24 (6231574466449818,16) (4725987657430065,16), (2544456197465555,19));
  (LL24 (6429416514181271,16) (4162355892321836,16), (2543481596881064,19));
  (LL24 (6604124272943594,16) (3573665509674133,16), (2543506451429194,19));
  (LL24 (675385147040825,15) (2961584142199686,16), (2544905675493763,19));
  (LL24 (6876717970626161,16) (2328411455248931,16), (2547611407344429,19));
  (LL24 (6970895061319234,16) (167727281267843,15), (2551060375448869,19));
  (LL24 (703474691255331,15) (1012260713770586,16), (2554291933816039,19));
  (LL24 (7067017217542295,16) (3384306338402507,17), (2556255710686343,19));
  (LL24o (4382223501131123,17) (9990393444297444,16), (9041339695118196,20));
  (LL24o (1117474077400006,16) (9937366436150928,16), (1438426330079022,19));
  (LL24o (189715325291144,15) (9818391392431224,16), (1802523089820518,19));
  (LL24o (2724023009910331,16) (9621834473814183,16), (2060052290565496,19));
  (LL24o (3567163308709902,16) (9342127484090218,16), (2245002248967466,19));
  (LL24o (4404784483028087,16) (8977631851333345,16), (237705984773115,18));
  (LL24o (5219833154161411,16) (8529556954655813,16), (2468118955882525,19));
  (LL24o (5998179868977553,16) (8001364774798886,16), (2525410872966528,19));
  (LL24o (6727803154548222,16) (739842312345347,15), (2553101409933397,19));
  (LL48 (7476563943166085,17) (2193168509461185,17) (9969599291592846,16), (1212879733668632,19));
  (LL48 (1075341482001416,16) (4826419281533887,17) (9930291912440207,16), (1472872881270931,19));
  (LL48 (1416344885203259,16) (7751191883575742,17) (9868797161255188,16), (1686846601010828,19));
  (LL48 (1766325315388586,16) (108755813924768,15) (9782500302784229,16), (1862698414660208,19));
  (LL48 (2121744174481514,16) (1413661374253096,16) (9669527557073231,16), (2007430956991861,19));
  (LL48 (2479669443408145,16) (174876821425888,15) (9528538669923408,16), (2126568125394796,19));
  (LL48 (2837600452294113,16) (2089216406612073,16) (9358589556096751,16), (2224394603372113,19));
  (LL48 (3193344933193984,16) (2431987685545972,16) (9159038379382252,16), (2304264522673135,19));
  (LL48 (3544935442438745,16) (277449705437777,15) (8929479201173532,16), (2368854288424087,19));
  (LL48 (3890571932288154,16) (3114460356156915,16) (8669693577608067,16), (2420352089461772,19));
  (LL48 (422858121425909,15) (3449806851913012,16) (8379614167663637,16), (2460597113081295,19));
  (LL48 (4557387211304052,16) (3778618641248256,16) (8059296679627413,16), (2491181912257687,19));
  (LL48 (4875487950541643,16) (4099086391698978,16) (7708897975554709,16), (2513528194205857,19));
  (LL48 (5181436529962997,16) (4409474925853973,16) (7328659247381483,16), (252894309669322,18));
  (LL48 (5473824095600661,16) (4708094517711291,16) (6918894115588017,16), (2538660368488136,19));
  (LL48 (5751263398976174,16) (4993275140354637,16) (6479982460494272,16), (2543868648299022,19));
  (LL48 (1489515746840028,16) (2599381993267017,17) (9885027818496334,16), (1642595537825183,19));
  (LL48 (1863656444351767,16) (547928653246219,16) (9809513690717696,16), (1818246659849308,19));
  (LL48 (2238602880356348,16) (8556763251425253,17) (9708577402001327,16), (196656564949242,18));
  (LL48 (261272337572816,15) (1177257802267011,16) (9580591872578912,16), (2090677905657991,19));
  (LL48 (298433299020619,15) (15081684561927,14) (9424393057980568,16), (2193820409510504,19));
  (LL48 (3351786584663333,16) (1844801892177727,16) (9239168397073861,16), (2278870827661928,19));
  (LL48 (371350552220912,15) (2184145236087598,16) (9024377337201621,16), (234828319228209,18));
  (LL48 (4067981098954663,16) (2523590641486229,16) (8779693619526295,16), (2404139755581477,19));
  (LL48 (4413769993687534,16) (2860812976901373,16) (8504962289982022,16), (2448227407760734,19));
  (LL48 (4749487182516394,16) (3193686757808996,16) (8200166851723686,16), (2482110455592573,19));
  (LL48 (5073798105075426,16) (3520226949547602,16) (7865403677664091,16), (2507192397774103,19));
  (LL48 (5385410448878654,16) (383854439566789,15) (7500862031766432,16), (252476596853488,18));
  (LL48 (568306535367053,15) (4146810037640963,16) (7106809037650428,16), (2536052388539425,19));
  (LL48 (596552762066351,15) (4443224094681121,16) (6683579867970899,16), (2542230588033068,19));
  (LL48 (2299227700856157,16) (2865757664057584,17) (9727868538879658,16), (1944817013047896,19));
  (LL48 (2695752998553267,16) (5923421684485993,17) (9611557965609356,16), (2067862362746635,19));
  (LL48 (3086178716611389,16) (9117817776057716,17) (9468059723045738,16), (2172440734649114,19));
  (LL48 (3469649871659077,16) (1240593814082605,16) (9296367933583315,16), (2260125991723423,19));
  (LL48 (3845153566319655,16) (1575272058259175,16) (9095785397308312,16), (2332655008689523,19));
  (LL48 (4211600033403215,16) (1912845163525413,16) (8865858590064217,16), (2391699681532458,19));
  (LL48 (4567867834329882,16) (2250710177858171,16) (8606328319520472,16), (2438801528273928,19));
  (LL48 (4912829319232061,16) (258652130344091,15) (8317091776993939,16), (2475370504260665,19));
  (LL48 (5245364793303812,16) (2918112242865407,16) (7998172861548311,16), (2502707235640574,19));
  (LL48 (5564369788915756,16) (324343923906789,15) (7649698736203689,16), (2522031701054241,19));
  (LL48 (5868757697775288,16) (3560536787835351,16) (7271881521812249,16), (2534511269978784,19));
  (LL48 (6157458853519617,16) (3867480821242581,16) (6865004920940239,16), (2541284914955151,19));
  (LL48 (3138461110672113,16) (3051374637507278,17) (948983419165027,15), (2161509250688394,19));
  (LL48 (3542495872050569,16) (6237111233730755,17) (9330686332263312,16), (2248778513437852,19));
  (LL48 (3935751553120181,16) (9516223952401907,17) (9143537309432789,16), (2322388803404617,19));
  (LL48 (4317634668111147,16) (1285467341508517,16) (8927799537771879,16), (2383265471001355,19));
  (LL48 (4687413842250821,16) (1622318931656033,16) (8683100411458214,16), (2432476675019525,19));
  (LL48 (5044274237060283,16) (1959581153836453,16) (8409241292938316,16), (2471122223750674,19));
  (LL48 (5387354077925727,16) (2294888081183837,16) (8106164613052057,16), (250029175248687,18));
  (LL48 (5715768898356105,16) (2626031152713945,16) (7773927339868884,16), (2521055942764682,19));
  (LL48 (6028627200136111,16) (2950904075286713,16) (7412679624820927,16), (2534472785575503,19));
  (LL48 (6325039812653463,16) (3267458451113286,16) (7022648121513494,16), (2541599713080121,19));
  (LL48 (3981986708423407,16) (3183291458749821,17) (9167466847980735,16), (2317380975862936,19));
  (LL48 (43827911821333,14) (6459548193880908,17) (8965148287960656,16), (2378550733719775,19));
  (LL48 (4769233057218166,16) (9795757037087952,17) (8734692180417171,16), (2428884456739118,19));
  (LL48 (5140823911194238,16) (1316307235126655,16) (8475804668398559,16), (2469002655757292,19));
  (LL48 (5496977833862983,16) (1653556486358704,16) (8188344499374711,16), (2499657574265851,19));
  (LL48 (5837047306512727,16) (198893172412651,15) (7872295048986393,16), (2521676168486082,19));
  (LL48 (6160349566926879,16) (232017458143895,15) (7527740904475154,16), (2535935662645334,19));
  (LL48 (646618535320944,15) (2645106562168662,16) (7154848583493014,16), (2543356743363214,19));
  (LL48 (4810835158795404,16) (3275917807743992,17) (8760624903513849,16), (2427353285201535,19));
  (LL48 (5199925041324341,16) (6612546183967181,17) (8516074324138855,16), (2468258039744386,19));
  (LL48 (5571717692207494,16) (9981498331474142,17) (8243764847988435,16), (250006095644031,18));
  (LL48 (5925789250836379,16) (1335687001410374,16) (7943611394632507,16), (2523238365420979,19));
  (LL48 (626165852385967,15) (1671444402896463,16) (7615635635887632,16), (2538399260252846,19));
  (LL48 (6578811126669331,16) (2003106382156076,16) (7259945521929032,16), (2546255927268069,19));
  (LL48 (56096246129981,14) (3337500940231335,17) (8271681967773269,16), (2500583360048449,19));
  (LL48 (597995965998467,15) (6708750335901803,17) (7986864788780477,16), (2524777638260203,19));
  (LL48 (6330523711054002,16) (100879212642485,15) (7675077067329441,16), (2540951193860656,19));
  (LL48 (6660960998103972,16) (1345050343171794,16) (7336377727194203,16), (2549524085027472,19));
  (LL48 (6365384364585819,16) (3372799460737052,17) (7705071325371551,16), (2542569507009158,19));
  (LL48 (6710994302899275,16) (6755249309678028,17) (7382832893550715,16), (2552114127580376,19))].

(** lebedev_laikov/lebedev_laikov_4802.hpp:1-9625. *)
Definition ll_4802 : coded := [  (LL6 (1,0), (9687521879420705,20));
  (LL12 (7071067811865476,16), (2307897895367918,19));
  (LL8 (5773502691896257,16), (2297310852498558,19));
  (LL24 (2335728608887064,17) (9994542882859252,16), (7386265944001918,20));
  (LL24 (4352987836550653,17) (9981033510508661,16), (825797769854221,19));
  (LL24 (64392005210888,15) (9958450378095188,16), (970604476205763,19));
  (LL24 (900394363199318,16) (9918597682204767,16), (1302393847117003,19));
  (LL24 (1196706615548473,16) (9855748908764115,16), (1541957004600968,19));
  (LL24 (1511715412838134,16) (9768798954895902,16), (1704459770092199,19));
  (LL24 (1835982828503801,16) (9657035471969561,16), (1827374890942906,19));
  (LL24 (2165081259155405,16) (9519708308688249,16), (1926360817436107,19));
  (LL24 (2496208720417563,16) (9356168235352688,16), (2008010239494833,19));
  (LL24 (28272006735679,14) (9165908176648642,16), (2075635983209175,19));
  (LL24 (3156190823994346,16) (8948570777787244,16), (2131306638690909,19));
  (LL24 (3481476793749115,16) (8703943857193287,16), (2176562329937335,19));
  (LL24 (3801466086947226,16) (8431945871480693,16), (2212682262991018,19));
  (LL24 (4114652119634011,16) (8132605724414695,16), (2240799515668565,19));
  (LL24 (4419598786519751,16) (7806042091379363,16), (2261959816187525,19));
  (LL24 (4714925949329543,16) (7452445678076279,16), (2277156368808855,19));
  (LL24 (4999293972879466,16) (707206614402482,15), (2287351772128336,19));
  (LL24 (5271387221431248,16) (6665204687289257,16), (2293490814084085,19));
  (LL24 (5529896780837761,16) (6232213345719186,16), (2296505312376273,19));
  (LL24 (6000856099481712,16) (5289560676145635,16), (2296793832318756,19));
  (LL24 (6210562192785175,16) (4780986770437124,16), (2295785443842974,19));
  (LL24 (640116587993424,15) (4248546899250545,16), (2295017931529102,19));
  (LL24 (6571144029244333,16) (3693254972764958,16), (2295059638184868,19));
  (LL24 (6718910821718863,16) (3116484355740985,16), (2296232343237362,19));
  (LL24 (684284559109901,15) (2520104845587514,16), (2298530178740771,19));
  (LL24 (6941353476269816,16) (1906626296617636,16), (2301579790280501,19));
  (LL24 (7012965242212991,16) (1279311151762924,16), (2304690404996513,19));
  (LL24 (7056471428242644,16) (6422008757315989,17), (2307027995907102,19));
  (LL24o (4595557643585895,17) (9989434843846011,16), (9312274696671092,20));
  (LL24o (1049316742435023,16) (994479433543226,15), (1199919385876926,19));
  (LL24o (1773548879549274,16) (9841469624596192,16), (159803913887769,18));
  (LL24o (2559071411236127,16) (9667013681183757,16), (18222537635749,17));
  (LL24o (3358156837985898,16) (9419277183069227,16), (198857959365504,18));
  (LL24o (4155835743763893,16) (9095549970774413,16), (2112620102533307,19));
  (LL24o (4937894296167472,16) (8695815080823461,16), (2201594887699007,19));
  (LL24o (5691569694793316,16) (8222288878974657,16), (2261622590895036,19));
  (LL24o (6405840854894251,16) (7678880318234402,16), (2296458453435705,19));
  (LL48 (7345133894143348,17) (2177844081486067,17) (9970609812460742,16), (1006006990267,16));
  (LL48 (1009859834044931,16) (4590362185775188,17) (9938282993838362,16), (1227676689635876,19));
  (LL48 (1324289619748758,16) (7255063095690877,17) (98853375055079,14), (1467864280270117,19));
  (LL48 (1654272109607127,16) (1017825451960684,16) (9809557336430478,16), (1644178912101232,19));
  (LL48 (1990767186776461,16) (1325652320980364,16) (9709762712442231,16), (1777664890718961,19));
  (LL48 (2330125945523278,16) (1642765374496765,16) (9584979655813243,16), (188482566451669,18));
  (LL48 (2670080611108287,16) (1965360374337889,16) (9434406612456664,16), (1973269246453848,19));
  (LL48 (3008753376294316,16) (2290726770542238,16) (9257428043650067,16), (2046767775855328,19));
  (LL48 (334447559616786,15) (2616645495370823,16) (9053598695446646,16), (210760012591804,18));
  (LL48 (3675709724070786,16) (2941150728843141,16) (8822629450146761,16), (2157416362266829,19));
  (LL48 (4001000887587812,16) (3262440400919066,16) (8564372395451553,16), (2197557816920721,19));
  (LL48 (4318956350436028,16) (3578835350611916,16) (8278801457713477,16), (2229192611835437,19));
  (LL48 (4628239056795531,16) (3888751854043678,16) (796599097732506,15), (2253385110212775,19));
  (LL48 (4927563229773636,16) (419067800322284,15) (7626095887797835,16), (2271137107548774,19));
  (LL48 (5215687136707969,16) (4483151836883852,16) (725933587178772,15), (2283414092917525,19));
  (LL48 (5491402346984905,16) (476474067608788,15) (686598474751891,15), (2291161673130077,19));
  (LL48 (5753520160126075,16) (5034021310998277,16) (6446366046652797,16), (2295313908576598,19));
  (LL48 (1388326356417754,16) (2435436510372806,17) (990016345411101,15), (1438204721359031,19));
  (LL48 (1743686900537244,16) (5118897057342652,17) (9833489966540776,16), (1607738025495257,19));
  (LL48 (2099737037950268,16) (8014695048539634,17) (9744164972138402,16), (1741483853528379,19));
  (LL48 (2454492590908548,16) (1105117874155699,16) (9630897185901043,16), (1851918467519151,19));
  (LL48 (2807219257864278,16) (1417950531570966,16) (9492572692810604,16), (1944628638070613,19));
  (LL48 (3156842271975842,16) (1736604945719597,16) (9328373391560215,16), (2022495446275152,19));
  (LL48 (3502090945177752,16) (2058466324693981,16) (9137728131313869,16), (2087462382438514,19));
  (LL48 (3841684849519686,16) (2381284261195919,16) (8920254636743926,16), (2141074754818308,19));
  (LL48 (4174372367906016,16) (2703031270422569,16) (8675726902408839,16), (2184640913748162,19));
  (LL48 (4498926465011892,16) (3021845683091309,16) (8404053148927488,16), (2219309165220329,19));
  (LL48 (4814146229807701,16) (333599335516572,15) (8105254123858083,16), (2246123118340624,19));
  (LL48 (5118863625734701,16) (3643833735518232,16) (7779441553802525,16), (2266062766915125,19));
  (LL48 (5411947455119144,16) (3943789541958179,16) (7426799363909781,16), (2280072952230796,19));
  (LL48 (5692301500357246,16) (4234320144403542,16) (7047569548697551,16), (2289082025202583,19));
  (LL48 (5958857204139576,16) (451389794741926,15) (6642043822571337,16), (2294012695120025,19));
  (LL48 (2156270284785766,16) (2681225755444491,17) (9761076208258663,16), (1722434488736947,19));
  (LL48 (253238505490971,15) (5557495747805614,17) (9658062349343225,16), (1830237421455091,19));
  (LL48 (2902564617771537,16) (8569368062950249,17) (9531042857404307,16), (1923855349997633,19));
  (LL48 (3266979823143256,16) (1167367450324135,16) (9378917638571019,16), (2004067861936271,19));
  (LL48 (3625039627493614,16) (1483861994003304,16) (9200936978474176,16), (2071817297354263,19));
  (LL48 (3975838937548699,16) (1803821503011405,16) (8996606734093989,16), (2128250834102103,19));
  (LL48 (4318396099009774,16) (2124962965666424,16) (8765613927535443,16), (2174513719440102,19));
  (LL48 (4651706555732742,16) (2445221837805913,16) (8507791504454614,16), (2211661839150214,19));
  (LL48 (4974752649620969,16) (2762701224322987,16) (8223096619900159,16), (2240665257813102,19));
  (LL48 (5286517579627517,16) (3075627775211328,16) (7911589326338788,16), (226243951663262,18));
  (LL48 (5586001195731894,16) (3382311089826877,16) (7573411538594478,16), (2277874557231869,19));
  (LL48 (5872229902021319,16) (3681108834741399,16) (7208769223979604,16), (2287854314454994,19));
  (LL48 (6144258616235123,16) (3970397446872839,16) (681791978323932,15), (2293268499615575,19));
  (LL48 (2951676508064861,16) (2867499538750441,17) (9550150797536691,16), (1912628201529828,19));
  (LL48 (3335085485472725,16) (586787934190351,16) (9409191502189642,16), (1992499672238701,19));
  (LL48 (3709561760636381,16) (8961099205022284,17) (9243167127905986,16), (2061275533454027,19));
  (LL48 (4074722861667498,16) (1211627927626297,16) (9051441397125666,16), (2119318215968572,19));
  (LL48 (4429923648839117,16) (1530748903554898,16) (8833605394159364,16), (2167416581882652,19));
  (LL48 (4774428052721736,16) (1851176436721877,16) (8589411072332575,16), (22064307305166,17));
  (LL48 (5107446539535904,16) (2170829107658179,16) (8318743344467764,16), (2237186938699523,19));
  (LL48 (5428151370542935,16) (2487786689026271,16) (8021601466563678,16), (2260480075032884,19));
  (LL48 (5735699292556964,16) (2800239952795016,16) (7698078320732527,16), (2277098884558542,19));
  (LL48 (6029253794562865,16) (3106445702878119,16) (7348339525077714,16), (2287845715109671,19));
  (LL48 (6307998987073145,16) (3404689500841194,16) (6972606268960404,16), (2293547268236294,19));
  (LL48 (3752652273692719,16) (2997145098184479,17) (926432793705799,15), (2056073839852528,19));
  (LL48 (4135383879344028,16) (6086725898678011,17) (9084498767064981,16), (2114235865831876,19));
  (LL48 (4506113885153907,16) (9238849548435643,17) (8879266537515184,16), (2163175629770551,19));
  (LL48 (4864401554606072,16) (1242786603851851,16) (8648299195381275,16), (220339215811165,18));
  (LL48 (5209708076611709,16) (1563086731483386,16) (8391406415276721,16), (2235473176847839,19));
  (LL48 (5541422135830122,16) (1882696509388506,16) (810851987517255,15), (2260024141501235,19));
  (LL48 (5858880915113817,16) (2199672979126059,16) (7799676480945718,16), (2277675929329182,19));
  (LL48 (6161399390603444,16) (2512165482924867,16) (746499712899291,15), (2289102112284834,19));
  (LL48 (644829648225509,15) (2818368701871888,16) (7104665392349283,16), (2295027954625118,19));
  (LL48 (4544796274917948,16) (3088970405060312,17) (8902213738046203,16), (2161281589879992,19));
  (LL48 (4919389072146628,16) (6240947677636835,17) (8683899865710931,16), (2201980477395102,19));
  (LL48 (5279313026985183,16) (9430706144280313,17) (8440347847056239,16), (2234952066593166,19));
  (LL48 (5624169925571135,16) (1263547818770374,16) (817142334957514,15), (2260540098520838,19));
  (LL48 (5953484627093287,16) (1583430788822594,16) (7877104019369844,16), (2279157981899988,19));
  (LL48 (6266730715339185,16) (1900748462555988,16) (7557462631301294,16), (2291296918565571,19));
  (LL48 (6563363204278871,16) (2213599519592567,16) (7212644495299747,16), (2297533752536649,19));
  (LL48 (5314574716585696,16) (3152508811515374,17) (8464981539481421,16), (2234927356465995,19));
  (LL48 (5674614932298185,16) (6343865291465561,17) (8209524901099688,16), (2261288012985219,19));
  (LL48 (6017706004970264,16) (9551503504223952,17) (7929369599522575,16), (2280818160923688,19));
  (LL48 (6343471270264178,16) (1275440099801196,16) (7624540956356132,16), (2293773295180159,19));
  (LL48 (6651494599127802,16) (159325203767196,15) (7295146848571853,16), (2300528767338634,19));
  (LL48 (6050184986005704,16) (3192538338496105,17) (795571106970857,15), (2281893855065666,19));
  (LL48 (63901635508804,14) (6402824353962305,17) (7665236343122283,16), (2295720444840727,19));
  (LL48 (6711199107088448,16) (9609805077002909,17) (7350940280592362,16), (2303227649026753,19));
  (LL48 (6741354429572275,16) (3211853196273233,17) (7379090760069439,16), (2304831913227114,19))].

(** lebedev_laikov/lebedev_laikov_5294.hpp:1-10609. *)
Definition ll_5294 : coded := [  (LL6 (1,0), (9080510764308163,20));
  (LL8 (5773502691896257,16), (2084824361987793,19));
  (LL24 (230326168626145,16) (9994693577698718,16), (5011105657239616,20));
  (LL24 (3757208620162394,17) (9985873405350758,16), (5942520409683854,20));
  (LL24 (5821912033821852,17) (9966047702344636,16), (9564394826109721,20));
  (LL24 (8403127529194872,17) (9929136364989745,16), (1185530657126338,19));
  (LL24 (1122927798060578,16) (9873098111569926,16), (1364510114230331,19));
  (LL24 (1420125319192987,16) (9796248677711996,16), (1505828825605415,19));
  (LL24 (1726396437341978,16) (969737648450682,15), (1619298749867023,19));
  (LL24 (2038170058115696,16) (9575579649734074,16), (1712450504267789,19));
  (LL24 (2352849892876508,16) (9430174694202754,16), (1789891098164999,19));
  (LL24 (2668363354312461,16) (9260651921907265,16), (1854474955629795,19));
  (LL24 (2982941279900452,16) (9066648920154111,16), (1908148636673661,19));
  (LL24 (3295002922087076,16) (8847932610891387,16), (1952377405281833,19));
  (LL24 (3603094918363593,16) (8604383418846752,16), (1988349254282232,19));
  (LL24 (390585789517392,15) (8335979138974324,16), (201707980716005,18));
  (LL24 (4202005758160837,16) (8042779072980082,16), (2039473082709094,19));
  (LL24 (4490310061597227,16) (7724909779501468,16), (2056360279288953,19));
  (LL24 (4769586160311491,16) (7382553468734933,16), (2068525823066865,19));
  (LL24 (503867988704975,15) (7015939708384091,16), (2076724877534488,19));
  (LL24 (5296454286519962,16) (6625341046437433,16), (2081694278237885,19));
  (LL24 (554177620716485,15) (6211073412817074,16), (2084157631219326,19));
  (LL24 (5990467321921213,16) (5313059620405945,16), (2084381531128593,19));
  (LL24 (6191467096294587,16) (4830266078696177,16), (2083476277129307,19));
  (LL24 (6375251212901849,16) (4325776686883755,16), (2082686194459732,19));
  (LL24 (6540514381131168,16) (3800439877229048,16), (2082475686112415,19));
  (LL24 (6685899064391509,16) (3255381298947556,16), (2083139860289915,19));
  (LL24 (6810013009681648,16) (2692108024566139,16), (2084745561831237,19));
  (LL24 (691146957873034,15) (2112623138321196,16), (208709131337589,18));
  (LL24 (6988956915141736,16) (1519527056878228,16), (2089718413297697,19));
  (LL24 (7041335794868721,16) (9160679275037245,17), (2092003303479793,19));
  (LL24 (7067754398018568,16) (3060972697989934,17), (2093336148263241,19));
  (LL24o (3840368707853623,17) (9992623063133993,16), (7591708117365266,20));
  (LL24o (9835485954117398,17) (9951514063722344,16), (1083383968169186,19));
  (LL24o (1665774947612998,16) (9860283658389596,16), (140301939529251,18));
  (LL24o (240570233536291,15) (9706317338395105,16), (1615970179286436,19));
  (LL24o (3165270770189046,16) (9485834752481558,16), (1771144187504911,19));
  (LL24o (3927386145645443,16) (9196501403413813,16), (1887760022988168,19));
  (LL24o (4678825918374656,16) (8837906314594286,16), (1973474670768214,19));
  (LL24o (5408022024266935,16) (8411497951319001,16), (2033787661234659,19));
  (LL24o (6104967445752438,16) (7920187654740445,16), (2072343626517331,19));
  (LL24o (6760910702685738,16) (7368180675737359,16), (2091177834226918,19));
  (LL48 (6655644120217392,17) (1936508874588424,17) (997594724060009,15), (9316684484675566,20));
  (LL48 (9446246161270182,17) (4252442002115869,17) (9946197851681481,16), (1116193688682976,19));
  (LL48 (1242651925452509,16) (6806529315354375,17) (9899117525262613,16), (1298623551559414,19));
  (LL48 (1553438064846751,16) (9560957491205369,17) (9832228185777566,16), (1450236832456426,19));
  (LL48 (187113711054267,15) (1245931657452888,16) (9744049477425016,16), (1572719958149914,19));
  (LL48 (2192612628836257,16) (1545385828778978,16) (9633495341778957,16), (1673234785867195,19));
  (LL48 (2515682807206955,16) (1851004249723368,16) (9499743327113073,16), (1756860118725188,19));
  (LL48 (283853586628729,15) (2160182608272384,16) (9342179897364329,16), (1826776290439367,19));
  (LL48 (3159578817528521,16) (2470799012277111,16) (9160361015634456,16), (1885116347992865,19));
  (LL48 (3477370882791392,16) (2781014208986402,16) (8953985241942849,16), (1933457860170574,19));
  (LL48 (379057696089054,15) (3089172523515731,16) (872287449316573,15), (1973060671902064,19));
  (LL48 (40979383178102,14) (3393750055472244,16) (8466957074675946,16), (2004987099616311,19));
  (LL48 (4398256572859637,16) (369332247098773,15) (8186251171604381,16), (2030170909281499,19));
  (LL48 (469038411471848,15) (3986541005609877,16) (7880849425473597,16), (204946146011908,18));
  (LL48 (4973216048301053,16) (4272112491408562,16) (7550905707110359,16), (2063653565200186,19));
  (LL48 (5245681526132446,16) (4548781735309936,16) (7196624906920153,16), (2073507927381027,19));
  (LL48 (5506733911803888,16) (4815315355023251,16) (6818256350143074,16), (2079764593256122,19));
  (LL48 (5755339829522474,16) (5070486445801855,16) (6416091539999401,16), (2083150534968778,19));
  (LL48 (1305472386056362,16) (2284970375722366,17) (9911787475176465,16), (1262715121590664,19));
  (LL48 (1637327908216477,16) (4812254338288384,17) (9853302969198283,16), (1414386128545972,19));
  (LL48 (1972734634149637,16) (7531734457511935,17) (9774510106590599,16), (1538740401313898,19));
  (LL48 (230869465311013,15) (1039043639882017,16) (9674208872725533,16), (1642434942331432,19));
  (LL48 (264389921833816,15) (1334526587117626,16) (9551378733541407,16), (1729790609237496,19));
  (LL48 (2977171599622171,16) (1636414868936382,16) (940524298692634,15), (1803505190260828,19));
  (LL48 (330729390303231,15) (1942195406166568,16) (9235241417701586,16), (1865475350079657,19));
  (LL48 (3633069198219073,16) (2249752879943753,16) (9040985575706699,16), (1917182669679069,19));
  (LL48 (3953346955922727,16) (2557218821820032,16) (8822226461808033,16), (1959851709034382,19));
  (LL48 (4267018394184914,16) (2862897925213193,16) (8578832641653384,16), (1994529548117882,19));
  (LL48 (4573009622571704,16) (3165224536636518,16) (83107723241911,14), (2022138911146548,19));
  (LL48 (4870279559856109,16) (3462730221636496,16) (8018096807909783,16), (2043518024208592,19));
  (LL48 (5157819581450322,16) (3754016870282835,16) (7700925561439969,16), (205945031301811,18));
  (LL48 (5434651666465393,16) (4037733784993613,16) (7359433887583071,16), (2070685715318472,19));
  (LL48 (5699823887764627,16) (4312557784139123,16) (6993843936414995,16), (2077955310694373,19));
  (LL48 (5952403350947741,16) (457717536712211,15) (660441973274236,15), (2081980387824712,19));
  (LL48 (2025152599210369,16) (2520253617719557,17) (978954749551455,15), (1521318610377956,19));
  (LL48 (2381066653274425,16) (5223254506119,14) (9698334790896198,16), (1622772720185755,19));
  (LL48 (2732823383651612,16) (806066968858862,16) (9585506371365138,16), (1710498139420709,19));
  (LL48 (3080137692611118,16) (1099335754081255,16) (9450090618314454,16), (1785911149448736,19));
  (LL48 (3422405614587601,16) (1399120955959857,16) (9291372361488547,16), (1850125313687736,19));
  (LL48 (375880877389042,15) (1702977801651705,16) (9108854110611604,16), (1904229703933298,19));
  (LL48 (4088458383438932,16) (200879925660168,15) (890220386160441,15), (1949259956121987,19));
  (LL48 (4410450550841152,16) (2314703052180836,16) (8671221120396464,16), (198616154536396,18));
  (LL48 (4723879420561312,16) (2618972111375892,16) (8415815367499018,16), (201579058564137,18));
  (LL48 (5027843561874343,16) (292001319560027,15) (8135988695594348,16), (2038934198707418,19));
  (LL48 (5321453674452458,16) (3216322555190551,16) (7831819712661225,16), (2056334060538251,19));
  (LL48 (560383911383403,15) (3506456615934198,16) (7503449152678728,16), (2068705959462289,19));
  (LL48 (5874150706875146,16) (3789007181306267,16) (7151068315498583,16), (2076753906106002,19));
  (LL48 (6131559381660038,16) (4062580170572782,16) (6774911210255498,16), (2081179391734803,19));
  (LL48 (2778497016394506,16) (2696271276876226,17) (9602460910719801,16), (1700345216228943,19));
  (LL48 (3143733562261912,16) (5523469316960465,17) (9476911530480486,16), (177490677999041,18));
  (LL48 (3501485810261827,16) (8445193201626464,17) (9328793289510016,16), (1839659377002642,19));
  (LL48 (3851430322303653,16) (1143263119336083,16) (9157479670324468,16), (1894987462975169,19));
  (LL48 (4193013979470415,16) (1446177898344475,16) (8962544463170358,16), (1941548809452595,19));
  (LL48 (4525585960458567,16) (1751165438438091,16) (8743711530106665,16), (1980078427252384,19));
  (LL48 (4848447779622947,16) (205633830674566,15) (8500825071513923,16), (2011296284744488,19));
  (LL48 (5160871208276894,16) (2359965487229226,16) (8233830898838372,16), (2035888456966776,19));
  (LL48 (5462112185696926,16) (2660430223139146,16) (7942760319855369,16), (2054516325352142,19));
  (LL48 (5751425068101756,16) (2956193664498032,16) (7627714513797197,16), (2067831033092635,19));
  (LL48 (6028073872853597,16) (3245763905312779,16) (7288850530391509,16), (2076485320284876,19));
  (LL48 (6291338275278409,16) (3527670026206972,16) (6926370398139114,16), (2081141439525255,19));
  (LL48 (3541797528439391,16) (282385347943555,16) (9347509228816382,16), (1834383015469222,19));
  (LL48 (3908234972074657,16) (5741296374713106,17) (9186733617691855,16), (1889540591777677,19));
  (LL48 (426440845010759,15) (8724646633650199,17) (9002978728278233,16), (1936677023597375,19));
  (LL48 (4609949666553286,16) (1175034422915616,16) (8795888708755278,16), (1976176495066504,19));
  (LL48 (4944389496536006,16) (1479755652628428,16) (8565239968328887,16), (2008536004560983,19));
  (LL48 (5267194884346086,16) (1784740659484352,16) (8310918049692331,16), (2034280351712291,19));
  (LL48 (557778781022099,15) (2088245700431244,16) (8032901906458249,16), (2053944466027758,19));
  (LL48 (587556376353667,15) (2388628136570763,16) (7731248675718385,16), (206807764288236,18));
  (LL48 (6159910016391269,16) (2684308928769185,16) (7406078190573777,16), (2077250949661599,19));
  (LL48 (6430219602956267,16) (2973740761960252,16) (7057559191279447,16), (208206244070532,18));
  (LL48 (4300647036213646,16) (2916399920493977,17) (9023268874689716,16), (1934374486546626,19));
  (LL48 (4661486308935531,16) (5898803024755659,17) (8827377108765544,16), (19741070104843,17));
  (LL48 (5009658555287261,16) (8924162698525409,17) (8608537295077464,16), (2007129290388658,19));
  (LL48 (5344824270447704,16) (1197185199637321,16) (8366576427416563,16), (2033736947471293,19));
  (LL48 (5666575997416371,16) (1502300756161382,16) (8101420178187377,16), (2054287125902493,19));
  (LL48 (5974457471404752,16) (1806004191913564,16) (7813079212523484,16), (2069184936818894,19));
  (LL48 (6267984444116886,16) (2106621764786252,16) (75016342051874,14), (2078883689808782,19));
  (LL48 (6546664713575417,16) (2402526932671914,16) (7167220204919936,16), (2083886366116359,19));
  (LL48 (5042711004437253,16) (2982529203607657,17) (8630301902090315,16), (2006593275470817,19));
  (LL48 (539212745677438,15) (6008728062339922,17) (8400232934902957,16), (2033728426135397,19));
  (LL48 (5726819437668618,16) (9058227674571398,17) (8147577814436459,16), (2055008781377608,19));
  (LL48 (6046469254207278,16) (12112192358034,14) (7872303190346895,16), (2070651783518502,19));
  (LL48 (6350716157434952,16) (151528640479158,15) (757445122759058,15), (208095333509432,18));
  (LL48 (6639177679185454,16) (1816314681255552,16) (7254124393947293,16), (2086284998988521,19));
  (LL48 (5757276040972253,16) (302699175257544,16) (817081059610032,15), (2055549387644668,19));
  (LL48 (6090265823139756,16) (607840229787077,16) (7908172510671997,16), (2071871850267654,19));
  (LL48 (6406735344387661,16) (9135459984176636,17) (7623593374239538,16), (2082856600431965,19));
  (LL48 (6706397927793709,16) (121802415596659,15) (7317147257611133,16), (2088705858819358,19));
  (LL48 (6435019674426665,16) (3052608357660639,17) (7648355222653374,16), (2083995867536322,19));
  (LL48 (6747218676375681,16) (6112185773983089,17) (7355368922345799,16), (2090509712889637,19))].

(** lebedev_laikov/lebedev_laikov_5810.hpp:1-11641. *)
Definition ll_5810 : coded := [  (LL6 (1,0), (9735347946175486,21));
  (LL12 (7071067811865476,16), (1907581241803167,19));
  (LL8 (5773502691896257,16), (1901059546737578,19));
  (LL24 (1182361662400277,17) (9998601923168344,16), (3926424538919212,20));
  (LL24 (3062145009138958,17) (9990618867660807,16), (6667905467294381,20));
  (LL24 (5329794036834243,17) (9971552833460721,16), (8868891315019136,20));
  (LL24 (784816553286222,16) (9938215431121217,16), (1066306000958872,19));
  (LL24 (1054038157636201,16) (9888276246368412,16), (1214506743336128,19));
  (LL24 (1335577797766211,16) (9820003253167888,16), (1338054681640871,19));
  (LL24 (1625769955502252,16) (9732098648471069,16), (1441677023628504,19));
  (LL24 (1921787193412792,16) (9623589141607676,16), (1528880200826557,19));
  (LL24 (2221340534690548,16) (9493750178821929,16), (1602330623773609,19));
  (LL24 (2522504912791132,16) (9342052126266969,16), (1664102653445244,19));
  (LL24 (2823610860679697,16) (9168121040589686,16), (1715845854011323,19));
  (LL24 (312317396626756,15) (8971709355126096,16), (1758901000133069,19));
  (LL24 (3419847036953789,16) (8752673448020141,16), (1794382485256736,19));
  (LL24 (3712386456999758,16) (8510956091284314,16), (1823238106757407,19));
  (LL24 (3999627649876828,16) (8246572459190639,16), (1846293252959976,19));
  (LL24 (4280466458648093,16) (7959598846221919,16), (1864284079323098,19));
  (LL24 (4553844360185711,16) (7650163598669611,16), (1877882694626914,19));
  (LL24 (4818736094437834,16) (7318440059488363,16), (1887716321852025,19));
  (LL24 (5074138709260629,16) (6964641607316614,16), (1894381638175673,19));
  (LL24 (5319061304570707,16) (6589019174083282,16), (1898454899533629,19));
  (LL24 (5552514978677286,16) (6191861983533608,16), (1900497929577815,19));
  (LL24 (5981009025246183,16) (5334328643779589,16), (1900671501924092,19));
  (LL24 (6173990192228116,16) (4874801556221757,16), (189983755553351,18));
  (LL24 (6351365239411131,16) (4395488504273442,16), (1899014113156229,19));
  (LL24 (65120102282272,14) (3897107334283811,16), (1898581257705106,19));
  (LL24 (665475836394812,15) (3380589036680602,16), (1898804756095753,19));
  (LL24 (677841041485337,15) (2847157265697618,16), (1899793610426402,19));
  (LL24 (688176088748411,15) (2298419930079757,16), (1901464554844117,19));
  (LL24 (6963645267094598,16) (173645880692345,15), (1903533246259542,19));
  (LL24 (7023010617153579,16) (1163891637007593,16), (1905556158463228,19));
  (LL24 (7059004636628753,16) (5838724861710244,17), (1907037155663528,19));
  (LL24o (3552470312472575,17) (9993687985262999,16), (5992997844249967,20));
  (LL24o (9151176620841284,17) (9958039950941233,16), (9749059382456977,20));
  (LL24o (156619793006898,15) (9876589697048654,16), (1241680804599158,19));
  (LL24o (2265467599271907,16) (9740002903318313,16), (143762615429936,18));
  (LL24o (2988242318581361,16) (9543081674461321,16), (1584200054793902,19));
  (LL24o (3717482419703886,16) (9283335847592317,16), (1694436550982744,19));
  (LL24o (4440094491758889,16) (896022102987713,15), (1776617014018108,19));
  (LL24o (5145337096756643,16) (8574701520212813,16), (1836132434440077,19));
  (LL24o (582405367286023,15) (8128985103667202,16), (1876494727075983,19));
  (LL24o (646828396104337,15) (762635578761633,15), (1899906535336482,19));
  (LL48 (6095964259104373,17) (1787828275342931,17) (997980104501568,15), (814325282076735,19));
  (LL48 (8811962270959388,17) (3953888740792096,17) (9953248758450994,16), (9998859890887728,20));
  (LL48 (1165936722428831,16) (637812179772299,16) (9911295938605911,16), (1156199403068359,19));
  (LL48 (1460232857031785,16) (8985890813745037,17) (9851916446361049,16), (1287632092635513,19));
  (LL48 (1761197110181755,16) (1172606510576162,16) (97735959968909,14), (1398378643365139,19));
  (LL48 (2066471190463718,16) (1456102876970995,16) (967519825278326,15), (1491876468417391,19));
  (LL48 (2374076026328152,16) (1746153823011775,16) (9555873055226052,16), (1570855679175456,19));
  (LL48 (2682305474337051,16) (2040383070295584,16) (9414991995152872,16), (1637483948103775,19));
  (LL48 (2989653312142369,16) (2336788634003698,16) (9252102028900638,16), (1693500566632843,19));
  (LL48 (3294762752772209,16) (2633632752654219,16) (9066891249325308,16), (1740322769393633,19));
  (LL48 (3596390887276086,16) (2929369098051601,16) (885916301200615,15), (1779126637278296,19));
  (LL48 (3893383046398812,16) (3222592785275512,16) (8628815920756713,16), (1810908108835412,19));
  (LL48 (4184653789358347,16) (3512004791195743,16) (8375828019355877,16), (183652913260019,18));
  (LL48 (4469172319076166,16) (3796385677684537,16) (8100244105499234,16), (1856752841777379,19));
  (LL48 (4745950813276976,16) (4074575378263879,16) (780216549201575,15), (1872270566606832,19));
  (LL48 (5014034601410262,16) (4345456906027828,16) (7481741862274833,16), (1883722645591307,19));
  (LL48 (5272493404551239,16) (4607942515205134,16) (7139165152560114,16), (1891714324525297,19));
  (LL48 (5520413051846366,16) (486096128418172,15) (6774665684053399,16), (1896827480450146,19));
  (LL48 (5756887237503077,16) (5103447395342789,16) (6388511095524769,16), (1899628417059528,19));
  (LL48 (1225039430588352,16) (2136455922655793,17) (9922380458055882,16), (1123301829001669,19));
  (LL48 (1539113217321372,16) (4520926166137188,17) (9870498607986833,16), (1253698826711277,19));
  (LL48 (1856213098637712,16) (7086468177864819,17) (9800627154426745,16), (1366266117678531,19));
  (LL48 (2174998728035131,16) (9785239488772918,17) (9711429936652952,16), (1462736856106918,19));
  (LL48 (249412833693833,15) (125810639626721,15) (9601900443899258,16), (1545076466685412,19));
  (LL48 (281232156214348,15) (1544529125047001,16) (9471286988207273,16), (1615096280814007,19));
  (LL48 (3128372276456111,16) (1835433512202753,16) (931903807923242,15), (1674366639741759,19));
  (LL48 (3441145160177973,16) (2128813258619585,16) (9144762112625412,16), (17242250024379,17));
  (LL48 (374956771485351,15) (2422913734880829,16) (8948197080141567,16), (1765810822987288,19));
  (LL48 (405262173201561,15) (2716163748391453,16) (8729187338413519,16), (1800104126010751,19));
  (LL48 (4349335453522385,16) (300712767124028,15) (8487665419984122,16), (1827960437331284,19));
  (LL48 (4638776641524965,16) (3294470677216479,16) (8223637530132463,16), (1850140300716308,19));
  (LL48 (4920046410462687,16) (3576932543699155,16) (7937171844978482,16), (1867333507394938,19));
  (LL48 (5192273554861704,16) (3853307059757764,16) (7628389085167639,16), (1880178688638289,19));
  (LL48 (5454609081136522,16) (4122425044452694,16) (7297455140311051,16), (1889278925654758,19));
  (LL48 (570622066142414,15) (4383139587781027,16) (694457580541555,15), (1895213832507346,19));
  (LL48 (5946286755181518,16) (4634312536300553,16) (6569993998554366,16), (189854827739742,18));
  (LL48 (1905370790924295,16) (2371311537781979,17) (9813935549258531,16), (1349105935937341,19));
  (LL48 (2242518717748009,16) (4917878059254806,17) (9732895486672649,16), (1444060068369326,19));
  (LL48 (2577190808025936,16) (7595498960495142,17) (9632298349534123,16), (1526797390930008,19));
  (LL48 (2908724534927187,16) (10369910831911,14) (9511254968367464,16), (1598208771406474,19));
  (LL48 (3236354020056219,16) (1321348584450234,16) (9369100841342104,16), (1659354368615331,19));
  (LL48 (3559267359304543,16) (1610316571314789,16) (9205351509048323,16), (171127991094644,18));
  (LL48 (3876637123676956,16) (1901912080395707,16) (9019668233908303,16), (175495272560144,18));
  (LL48 (4187636705218842,16) (219438495013795,15) (8811831450709435,16), (1791247850802529,19));
  (LL48 (4491449019883107,16) (2486155334763858,16) (8581719953087277,16), (1820954300877716,19));
  (LL48 (4787270932425445,16) (2775768931812335,16) (8329294319252971,16), (1844788524548449,19));
  (LL48 (5074315153055574,16) (306186378659112,15) (8054583532364195,16), (186340948170622,18));
  (LL48 (5351810507738336,16) (3343144718152556,16) (77576741155291,14), (1877433008795068,19));
  (LL48 (5619001025975381,16) (3618362729028427,16) (7438701407588932,16), (1887444543705232,19));
  (LL48 (5875144035268046,16) (3886297583620408,16) (709784288755397,15), (1894009829375006,19));
  (LL48 (6119507308734495,16) (4145742277792031,16) (6735313746550552,16), (1897683345035198,19));
  (LL48 (2619733870119463,16) (2540047186389353,17) (9647407737452485,16), (1517327037467653,19));
  (LL48 (2968149743237949,16) (5208107018543989,17) (9535137299197659,16), (1587740557483543,19));
  (LL48 (3310451504860488,16) (7971828470885599,17) (9402415133478988,16), (1649093382274097,19));
  (LL48 (3646215567376676,16) (1080465999177927,16) (9248659646718568,16), (1701915216193265,19));
  (LL48 (397491678527936,15) (1368413849366629,16) (9073449183577654,16), (1746847753144065,19));
  (LL48 (4295967403772029,16) (1659073184763559,16) (8876493690265695,16), (178455551200757,18));
  (LL48 (4608742854473447,16) (1950703730454614,16) (8657611925775514,16), (1815687562112174,19));
  (LL48 (4912598858949903,16) (2241721144376724,16) (8416713061635072,16), (1840864370663302,19));
  (LL48 (5206882758945558,16) (2530655255406489,16) (8153781693967469,16), (1860676785390006,19));
  (LL48 (549094091401982,15) (2816118409731066,16) (7868865546005788,16), (1875690583743703,19));
  (LL48 (5764123302025542,16) (3096780504593238,16) (7562065396795865,16), (1886453236347225,19));
  (LL48 (6025786004213506,16) (3371348366394987,16) (7233527025167632,16), (1893501123329645,19));
  (LL48 (6275291964794956,16) (3638547827694396,16) (6883435222485954,16), (1897366184519868,19));
  (LL48 (3348189479861771,16) (2664841935537443,17) (9419055864656977,16), (1643908815152736,19));
  (LL48 (3699515545855295,16) (5424000066843495,17) (927466371135492,15), (1696300350907768,19));
  (LL48 (4042003071474669,16) (8251992715430854,17) (9109404883549425,16), (1741553103844483,19));
  (LL48 (4375320100182624,16) (111269518248371,15) (892291899838923,15), (1780015282386092,19));
  (LL48 (4699054490335947,16) (1402964116467816,16) (8714962913561781,16), (1812116787077125,19));
  (LL48 (5012739879431952,16) (1694275117584291,16) (8485391607173312,16), (1838323158085421,19));
  (LL48 (5315874883754966,16) (1985038235312689,16) (8234142179037827,16), (1859113119837737,19));
  (LL48 (5607937109622116,16) (2273765660020893,16) (7961220452784415,16), (1874969220221698,19));
  (LL48 (5888393223495521,16) (2559041492849764,16) (7666689760474548,16), (1886375612681076,19));
  (LL48 (6156705979160163,16) (2839497251976899,16) (7350661660162923,16), (1893819575809276,19));
  (LL48 (6412338809078123,16) (311379106050069,15) (7013288545977311,16), (1897794748256767,19));
  (LL48 (4076051259257167,16) (2757792290858463,17) (9127417594736909,16), (1738963926584846,19));
  (LL48 (442378812579152,15) (5584136834984293,17) (8950881117308378,16), (1777442359873466,19));
  (LL48 (4760480917328258,16) (8457772087727143,17) (8753426891730698,16), (1810010815068719,19));
  (LL48 (5085838725946297,16) (1135975846359248,16) (853485813181176,15), (1836920318248129,19));
  (LL48 (5399513637391218,16) (1427286904765053,16) (8295065073350085,16), (1858489473214328,19));
  (LL48 (570111843363638,15) (1718112740057635,16) (8034011278191182,16), (1875079342496592,19));
  (LL48 (5990240530606021,16) (2006944855985351,16) (775172179135183,15), (188708023910231,18));
  (LL48 (6266452685139695,16) (2292335090598907,16) (7448272992936981,16), (1894905752176822,19));
  (LL48 (6529320971415942,16) (2572871512353714,16) (7123784095068203,16), (1898991061200695,19));
  (LL48 (4791583834610126,16) (2826094197735932,17) (8772733682938184,16), (1809065016458791,19));
  (LL48 (5130373952796941,16) (5699871359683649,17) (8564717027975487,16), (1836297121596799,19));
  (LL48 (5456252429628476,16) (8602712528554395,17) (8336020801058733,16), (1858426916241869,19));
  (LL48 (5768956329682385,16) (1151748137221281,16) (8086570292443197,16), (1875654101134641,19));
  (LL48 (6068186944699046,16) (1442811654136362,16) (781635476004463,15), (1888240751833503,19));
  (LL48 (6353622248024907,16) (173193032165768,15) (7525417044279051,16), (1896497383866979,19));
  (LL48 (6624927035731797,16) (2017619958756061,16) (7213844430902229,16), (1900775530219121,19));
  (LL48 (5484933508028488,16) (2874219755907391,17) (8356607745996807,16), (1858525041478814,19));
  (LL48 (5810207682142106,16) (5778312123713695,17) (8118349449265306,16), (1876248690077947,19));
  (LL48 (6120955197181353,16) (8695262371439526,17) (7859887505366528,16), (1889404439064607,19));
  (LL48 (6416944284294319,16) (1160893767057166,16) (758123681953481,15), (189816853926529,18));
  (LL48 (669792639173126,15) (1450378826743251,16) (7282457230213215,16), (1902779940661772,19));
  (LL48 (6147594390585488,16) (2904957622341456,17) (7881795190244787,16), (1890125641731815,19));
  (LL48 (6455390026356783,16) (5823809152617197,17) (761503592093644,15), (1899434637795751,19));
  (LL48 (6747258588365477,16) (8740384899884715,17) (7328748751304481,16), (1904520856831751,19));
  (LL48 (6772135750395347,16) (2919946135808105,17) (7352068860113937,16), (1905534498734563,19))].

(** All transcribed files of quadratures/s2/lebedev_laikov/, by suffix (each entry cites its lines 1 ff. above). *)
Definition ll_grids : list (Z * coded) := [
  (6, ll_6); (14, ll_14); (26, ll_26); (38, ll_38); (50, ll_50); (74, ll_74); (86, ll_86); (110, ll_110); (146, ll_146); (170, ll_170); (194, ll_194); (230, ll_230); (266, ll_266); (302, ll_302); (350, ll_350); (434, ll_434); (590, ll_590); (770, ll_770); (974, ll_974); (1202, ll_1202); (1454, ll_1454); (1730, ll_1730); (2030, ll_2030); (2354, ll_2354); (2702, ll_2702); (3074, ll_3074); (3470, ll_3470); (3890, ll_3890); (4334, ll_4334); (4802, ll_4802); (5294, ll_5294); (5810, ll_5810)].
