(** Generated by tools/gen_grids.py from the text of the repository: quadratures/s2/delley/delley_*.hpp.
    Each definition transcribes the arrays of one file, named in its comment, in the order of the file. *)
From Coq Require Import ZArith List.
From Verif Require Import Model.GridCode.
Import ListNotations.
Local Open Scope Z_scope.

(** delley/delley_14.hpp:1-42. *)
Definition de_14 : coded := [  (DE6 (1,0), (66666666666666666,18));
  (DE8 (57735026918962584,17), (74999999999999997,18))].

(** delley/delley_26.hpp:1-64. *)
Definition de_26 : coded := [  (DE6 (1,0), (47619047619047616,18));
  (DE8 (57735026918962584,17), (3214285714285714,17));
  (DE12 (70710678118654746,17), (38095238095238092,18))].

(** delley/delley_50.hpp:1-108. *)
Definition de_50 : coded := [  (DE6 (1,0), (12698412698412698,18));
  (DE8 (57735026918962584,17), (21093750000000001,18));
  (DE12 (70710678118654746,17), (22574955908289243,18));
  (DE24 (90453403373329089,17) (30151134457776363,17), (2017333553791887,17))].

(** delley/delley_110.hpp:1-218. *)
Definition de_110 : coded := [  (DE6 (1,0), (38282704949371615,19));
  (DE8 (57735026918962584,17), (97937375124875128,19));
  (DE24 (96512403508659406,17) (18511563534473616,17), (82117372831911114,19));
  (DE24 (82876998125259216,17) (39568947305594193,17), (95954713360709622,19));
  (DE24 (21595729184584844,17) (69042104838229224,17), (9942814891178103,18));
  (DE24o (47836902881215021,17) (87815891060406615,17), (96949963616630285,19))].

(** delley/delley_194.hpp:1-372. *)
Definition de_194 : coded := [  (DE6 (1,0), (17823404472446112,19));
  (DE8 (57735026918962584,17), (55733831788487382,19));
  (DE12 (70710678118654746,17), (57169059499771017,19));
  (DE24 (77749321931476711,17) (44469331787174371,17), (55187714672736135,19));
  (DE24 (91250909686747372,17) (28924656275754385,17), (51582377118053833,19));
  (DE24 (31419699418258629,17) (67129734426952259,17), (56087040825879972,19));
  (DE24 (98297230270725333,17) (12993354476500668,17), (41067770281693937,19));
  (DE24o (34577021976112826,17) (93831921813759156,17), (50518460646148088,19));
  (DE48 (15904171053835295,17) (52511857244364202,17) (83603601548245887,17), (55302489162330935,19))].

(** delley/delley_302.hpp:1-570. *)
Definition de_302 : coded := [  (DE6 (1,0), (85459117251281483,20));
  (DE8 (57735026918962584,17), (35991192850255713,19));
  (DE24 (12923867271051442,17) (70117664160895454,17), (36500458076772556,19));
  (DE24 (37103417838482139,17) (65663294102196113,17), (36048226014198815,19));
  (DE24 (74345204298755574,17) (47290541325810048,17), (3576729661743367,18));
  (DE24 (86764362454408339,17) (35156403455701052,17), (34497884243058835,19));
  (DE24 (94945431722644302,17) (22196452362941785,17), (31089531224136754,19));
  (DE24 (9907056213794081,16) (96183085226147838,18), (23521014136891642,19));
  (DE24o (57189558918789607,17) (82032641982775933,17), (36008209322164605,19));
  (DE24o (26441528870606623,17) (96440891487920599,17), (29823449631718041,19));
  (DE48 (25100347517704652,17) (54486773725807736,17) (80007274940739526,17), (3571540554273387,18));
  (DE48 (12335485325833274,17) (41277240831685308,17) (90244252953300041,17), (33923122050061702,19))].

(** delley/delley_434.hpp:1-812. *)
Definition de_434 : coded := [  (DE6 (1,0), (52658979682244358,20));
  (DE8 (57735026918962584,17), (25123174189273074,19));
  (DE12 (70710678118654746,17), (25482199720026073,19));
  (DE24 (21264682470755186,17) (69093463075091111,17), (25304038011863552,19));
  (DE24 (40771266489776975,17) (64566647074242556,17), (25132671745975643,19));
  (DE24 (71901650104084347,17) (49143426377847466,17), (25017251684029359,19));
  (DE24 (83158440041923232,17) (39272597633680023,17), (24453734373129799,19));
  (DE24 (91447280112087248,17) (28612890103076383,17), (23026947822274157,19));
  (DE24 (96798715879147279,17) (17748360546091577,17), (20142790209185281,19));
  (DE24 (99425591263127788,17) (75680843671780185,18), (14624956215946137,19));
  (DE24o (21027252285730696,17) (9776428111182649,16), (19109512821795323,19));
  (DE24o (47159869115131592,17) (8818132877794288,16), (2417442375638981,18));
  (DE48 (99217696364292368,18) (33443631453434547,17) (93718098585537224,17), (22366077604378488,19));
  (DE48 (20548236964030436,17) (45023303825826255,17) (86894603228724121,17), (24169300443247755,19));
  (DE48 (31042840351665413,17) (55501523610768067,17) (77174626269159008,17), (24966440545530861,19));
  (DE48 (10680182607580482,17) (59051570489252714,17) (79992785438572855,17), (25122368545634952,19))].

(** delley/delley_590.hpp:1-1098. *)
Definition de_590 : coded := [  (DE6 (1,0), (30951212953061872,20));
  (DE8 (57735026918962584,17), (1852379698597489,18));
  (DE24 (99627812975401642,17) (6095034115507196,17), (97643311650510501,20));
  (DE24 (97848058376269387,17) (14590364491577631,17), (13847372348516919,19));
  (DE24 (94141415822040253,17) (23847367014218873,17), (16172106472544111,19));
  (DE24 (88307872793413256,17) (3317920736472123,16), (17495646572811541,19));
  (DE24 (80283687733527387,17) (42157617840109662,17), (18184717781627687,19));
  (DE24 (70076857537357296,17) (50444197078003583,17), (18467159561512418,19));
  (DE24 (43337386877715439,17) (63725469392587519,17), (1852028828296213,18));
  (DE24 (27035608835916519,17) (68077440664552424,17), (1858812585438317,18));
  (DE24 (92190407076898254,18) (70409549382274694,17), (18717906392777437,19));
  (DE24o (17247820099077235,17) (98501333502800192,17), (13003216858860477,19));
  (DE24o (39647553481998576,17) (91804528771145399,17), (17051539963958641,19));
  (DE24o (6116843442009875,16) (79110192962690196,17), (18571611967740779,19));
  (DE48 (82130215819325114,18) (27786731905862444,17) (95710207431007255,17), (15552136033968086,19));
  (DE48 (89992058420748755,18) (50335642710751172,17) (85937985589072119,17), (18022391280085254,19));
  (DE48 (18166408403602094,17) (59841264978853792,17) (78032074247992034,17), (18498305604436602,19));
  (DE48 (17207952256568781,17) (37910354076955632,17) (9092134750923736,16), (17139045071067087,19));
  (DE48 (26347166559379498,17) (47423928425519801,17) (84004748835905041,17), (18026589343774512,19));
  (DE48 (35182809277335192,17) (56102638086220602,17) (74931061190411596,17), (18428664729052855,19))].

(** delley/delley_770.hpp:1-1428. *)
Definition de_770 : coded := [  (DE6 (1,0), (2192942088181184,19));
  (DE8 (57735026918962584,17), (14219403443358773,19));
  (DE12 (70710678118654746,17), (14364336173190797,19));
  (DE24 (99740867765282304,17) (50872044105023606,18), (67981235110505021,20));
  (DE24 (98479975357230121,17) (12281987901788308,17), (99131842352949114,20));
  (DE24 (95803667598339137,17) (2026890814408786,16), (11802078332389487,19));
  (DE24 (91531795048315479,17) (28477451564642942,17), (12965996020809208,19));
  (DE24 (85590192869788639,17) (36567190789780263,17), (13658714274283163,19));
  (DE24 (77962131952763514,17) (44282648867134689,17), (14029886047753253,19));
  (DE24 (6866444472641543,16) (51406196272497351,17), (14186455635956095,19));
  (DE24 (45231192031365841,17) (63064012191668029,17), (14213767418516617,19));
  (DE24 (31252130500165326,17) (67168833320226118,17), (14239964754909616,19));
  (DE24 (16015580349882902,17) (69797926853368808,17), (14315540421785669,19));
  (DE24o (14468656741953093,17) (98947753749559852,17), (92544014998653678,20));
  (DE24o (3390263475411216,16) (94077687879375871,17), (12502399950535092,19));
  (DE24o (5335804651263506,16) (84574930519365332,17), (13943658433292301,19));
  (DE48 (69440243933494128,18) (23551878942423263,17) (96938586349843214,17), (11270890946717487,19));
  (DE48 (226900410952946,15) (41021824740457302,17) (88331036052211276,17), (13457537609106701,19));
  (DE48 (8025574607775339,17) (62143024174816042,17) (779348105702661,15), (14249572833167827,19));
  (DE48 (14679995278965721,17) (32452843457173947,17) (9344148270524022,16), (12615233412377499,19));
  (DE48 (15715077698247271,17) (52244821896966298,17) (83806413345831243,17), (1392547106052696,18));
  (DE48 (23657029931572457,17) (60175466340895578,17) (76284062460466984,17), (14187616778776565,19));
  (DE48 (77148158667657327,18) (43465755161411629,17) (89728533613283334,17), (13383666844795541,19));
  (DE48 (30629366662107305,17) (49088265890376159,17) (81560922320397544,17), (13937008626761314,19));
  (DE48 (38224773795247868,17) (56487681490995001,17) (73130079365976575,17), (14159147574669319,19))].

(** delley/delley_974.hpp:1-1802. *)
Definition de_974 : coded := [  (DE6 (1,0), (1438294190527431,19));
  (DE8 (57735026918962584,17), (1125772288287004,18));
  (DE24 (99815534502384651,17) (42929635453413474,18), (49480293419492413,20));
  (DE24 (98888322435468556,17) (10514268540864043,17), (735799010912547,18));
  (DE24 (96889022043470741,17) (17500248676230873,17), (88891327713043846,20));
  (DE24 (93660273040716313,17) (24776533796502567,17), (98883478389214354,20));
  (DE24 (891267942647606,15) (32065671239559573,17), (10532996817094705,19));
  (DE24 (83259672370235183,17) (39165207498499838,17), (10927788070145784,19));
  (DE24 (76058290531525152,17) (45908258741876234,17), (11143893940632273,19));
  (DE24 (6754009691084143,16) (52145638884158607,17), (11237247880515552,19));
  (DE24 (46685890569574318,17) (62531702446541992,17), (11252393252438135,19));
  (DE24 (34461365423743795,17) (66379267445231704,17), (1126153271815905,18));
  (DE24 (21195415185018429,17) (69104103984983012,17), (11302869311238409,19));
  (DE24 (71624401449955549,18) (70529070074577604,17), (11349865343639549,19));
  (DE24o (12366867626579899,17) (99232356543149025,17), (68233679271099306,20));
  (DE24o (2940777114468387,16) (95578151249654841,17), (94541581604470958,20));
  (DE24o (46977538492076493,17) (88278598070118164,17), (10744299753856791,19));
  (DE24o (63345632411395669,17) (77377844725737477,17), (11293000865691316,19));
  (DE48 (59740486141813418,18) (20291287527775229,17) (97737272284530996,17), (84368845009019546,20));
  (DE48 (13757604084736366,17) (46026219424840537,17) (87705846186580272,17), (10752557204488846,19));
  (DE48 (33910165263362857,17) (50306739996620353,17) (79494229996420851,17), (1108577236864462,18));
  (DE48 (12716751914398194,17) (28176064224421343,17) (95102016937438993,17), (95664753237833578,20));
  (DE48 (26931207404135127,17) (43315612917201574,17) (86014346160176203,17), (10806632507173908,19));
  (DE48 (14197864526019183,17) (62561673585808142,17) (76710218622055826,17), (11267971311962946,19));
  (DE48 (67092846007382551,18) (37983952168591567,17) (92261611073080907,17), (10225687153580612,19));
  (DE48 (70577381832561722,18) (55175054214235209,17) (83101755241347419,17), (11089602677131075,19));
  (DE48 (27838884778821549,17) (60296191561591872,17) (74762061083408571,17), (11227906534357658,19));
  (DE48 (19795789389174068,17) (35896063295890956,17) (91211837840912158,17), (10324018471174598,19));
  (DE48 (2087307061103274,16) (53486664381354765,17) (81874853628102184,17), (11072493822838539,19));
  (DE48 (40551221378728358,17) (5674997546074374,16) (71659184546702359,17), (11217800485199721,19))].

(** delley/delley_1202.hpp:1-2220. *)
Definition de_1202 : coded := [  (DE6 (1,0), (11051892332675715,20));
  (DE8 (57735026918962584,17), (91331597864435614,20));
  (DE12 (70710678118654746,17), (92052327380907418,20));
  (DE24 (99862068179991925,17) (37126364496570891,18), (36904218980178988,20));
  (DE24 (99161073972201386,17) (91400604122622228,18), (56039909286806605,20));
  (DE24 (97627660639468505,17) (15310778524699062,17), (68652976292826089,20));
  (DE24 (95124706748057852,17) (21809288916606115,17), (77203385511456302,20));
  (DE24 (91580688620866835,17) (28398745322001745,17), (83015459588947952,20));
  (DE24 (86961691518195405,17) (34911776009637646,17), (86866925501796288,20));
  (DE24 (81257372229991565,17) (41214314614443093,17), (89270762858468904,20));
  (DE24 (74472946963210651,17) (47189936271491267,17), (9060820238568219,19));
  (DE24 (66624225373610446,17) (5273145452842336,16), (91197772549408669,20));
  (DE24 (47838093807695226,17) (62094753324440188,17), (91287201386041814,20));
  (DE24 (36983086645942581,17) (6569722711857291,16), (91307149356917349,20));
  (DE24 (25258395570071762,17) (68417883090701437,17), (91528737845541163,20));
  (DE24 (12832618665972312,17) (70126043301236307,17), (91874362743216544,20));
  (DE24o (10723822154781661,17) (99423335482132236,17), (51769773129656943,20));
  (DE24o (25820689594969681,17) (96608964329611902,17), (73311436821014173,20));
  (DE24o (41727529553067166,17) (90878013168191052,17), (84632328363799282,20));
  (DE24o (57003669117925038,17) (82161923706143336,17), (90311226942539917,20));
  (DE48 (52106394770112842,18) (17717740226153253,17) (98279860182639467,17), (64857784531632563,20));
  (DE48 (11156409571564867,17) (24757164634262877,17) (96242492303262273,17), (74350309109823688,20));
  (DE48 (17465516775786261,17) (31736152466119766,17) (93208220401432018,17), (81017314974680173,20));
  (DE48 (23902784793817239,17) (38542911506692235,17) (89124075600747465,17), (85562992573118128,20));
  (DE48 (3029466973528982,16) (45074225931570644,17) (83967536240498564,17), (88502823412654448,20));
  (DE48 (36498322605976535,17) (51235184864198713,17) (77735630690703506,17), (90226929384269153,20));
  (DE48 (42386447815223405,17) (56937024984684415,17) (7043837184021764,16), (91057602589701258,20));
  (DE48 (59058888532355087,18) (33546162890664882,17) (94020079941288115,17), (79985278918390538,20));
  (DE48 (1217235051095987,16) (40902684270853573,17) (9043674199393299,16), (84833895745943305,20));
  (DE48 (1857505194547335,16) (47853206759224354,17) (8581979986041619,16), (88110481824257207,20));
  (DE48 (24941121623622364,17) (54343035696939002,17) (80154693707835289,17), (9010091677105086,19));
  (DE48 (31122759471496081,17) (60311616930963097,17) (73443057575595028,17), (91078135794827046,20));
  (DE48 (62662506241541696,18) (49322211848512848,17) (86764356284627075,17), (88032086797382603,20));
  (DE48 (12677748006842826,17) (56321230207620998,17) (81652885640221884,17), (90213422990406537,20));
  (DE48 (19060182227792369,17) (6269805509024392,16) (75535841435335105,17), (91315780031894355,20));
  (DE48 (64245492242205882,18) (63942796347491027,17) (76616212139003936,17), (91580161746934654,20))].

(** delley/delley_1454.hpp:1-2682. *)
Definition de_1454 : coded := [  (DE6 (1,0), (77771607432612467,21));
  (DE8 (57735026918962584,17), (75576464130047011,20));
  (DE24 (99895662386423845,17) (32292906634138537,18), (28416338060906167,20));
  (DE24 (99352009726259405,17) (80367332714622222,18), (43744191270535547,20));
  (DE24 (98148763316511711,17) (13542899605316533,17), (54171747408721712,20));
  (DE24 (96166958094027533,17) (19389638611144255,17), (61480008913585927,20));
  (DE24 (9334011664005224,16) (25373437150112749,17), (66643944858007056,20));
  (DE24 (89632804754600814,17) (31352514347525701,17), (70250393569232206,20));
  (DE24 (85029410825461882,17) (37215583393753382,17), (72685117892496267,20));
  (DE24 (79527685325313591,17) (42868095751956964,17), (74226375342086287,20));
  (DE24 (7313466491699806,16) (48225101282829941,17), (75095450358412142,20));
  (DE24 (65864059136012676,17) (53206793335662628,17), (75485350577184009,20));
  (DE24 (48773134571522136,17) (61729981953942736,17), (75540889697740007,20));
  (DE24 (39015504359588543,17) (65106798491274809,17), (75531471744428084,20));
  (DE24 (28523667293130073,17) (67773152516873603,17), (75647676532922964,20));
  (DE24 (17407511799995667,17) (69631094106487412,17), (75879918085187297,20));
  (DE24 (58555363028788027,18) (70589350098317483,17), (76082618320330261,20));
  (DE24o (94185985013861342,18) (99555461940918577,17), (40216804478749164,20));
  (DE24o (22906303958598631,17) (97341159017942092,17), (58048717939459637,20));
  (DE24o (37365098398005542,17) (92756937323886257,17), (67921519559451589,20));
  (DE24o (51564514700014719,17) (8568022422795103,16), (73367412112862939,20));
  (DE24o (64716547762083976,17) (76234955537193716,17), (75818663009896085,20));
  (DE48 (43870280398895006,17) (5707522908892223,16) (69410494323044358,17), (75382578598007428,20));
  (DE48 (38589084147626168,17) (51964633884030831,17) (76227025456501063,17), (74835172470531233,20));
  (DE48 (33019373723438539,17) (46463375312153515,17) (82163712875659778,17), (73717636611120589,20));
  (DE48 (27254235735637772,17) (40639016975576914,17) (87210532240808258,17), (71834488957569348,20));
  (DE48 (21395102374952499,17) (34563294666430866,17) (91365355885952604,17), (68958155298221913,20));
  (DE48 (15559223097866473,17) (28313951210503319,17) (9463736441511913,16), (64801058017928859,20));
  (DE48 (98928789796860969,18) (21976820229253297,17) (97052307124067727,17), (58975588965946358,20));
  (DE48 (45986429106755107,18) (15646960986503544,17) (98661163054501488,17), (50957088492473461,20));
  (DE48 (33766251401734265,17) (60273566737212947,17) (72297561639723473,17), (75369064289097548,20));
  (DE48 (28223013097279875,17) (54960323202550965,17) (78630937964530889,17), (74725059655751181,20));
  (DE48 (22486323425925403,17) (49217077552345673,17) (84095448961231367,17), (73430171322796977,20));
  (DE48 (16662247234564795,17) (43094229985984828,17) (8868628337578075,16), (71308715821774451,20));
  (DE48 (10869649018221689,17) (36641081823136723,17) (92408234768611786,17), (68170220321127752,20));
  (DE48 (52519897841200848,18) (29901890577584361,17) (9528007946676823,16), (63809411456041212,20));
  (DE48 (22975236575500232,17) (62687240131449984,17) (74447622050685558,17), (75503813779203091,20));
  (DE48 (17230806070938004,17) (57073241448346079,17) (80285393644949621,17), (74786466401448022,20));
  (DE48 (1140238465390513,16) (50963609019603651,17) (85280104244198507,17), (73359187206012194,20));
  (DE48 (56115220958825367,18) (44387299383124557,17) (8943309495505728,16), (71101205276581181,20));
  (DE48 (11641744231408728,17) (64199784710823893,17) (75781643122423292,17), (75713639786895008,20));
  (DE48 (57975895314452193,18) (58172180618026104,17) (81131900987026218,17), (74899083290792345,20))].

(** delley/delley_1730.hpp:1-3188. *)
Definition de_1730 : coded := [  (DE6 (1,0), (63090494374209763,21));
  (DE8 (57735026918962584,17), (63571850735307206,20));
  (DE12 (70710678118654746,17), (63982877055717487,20));
  (DE24 (99918117665076189,17) (28609231261946626,18), (22212071621881678,20));
  (DE24 (9948853082461333,16) (7142556767711522,17), (34757840222868485,20));
  (DE24 (985269876430373,15) (12091995409955592,17), (4350742443589804,19));
  (DE24 (96929887886456834,17) (17386731065943786,17), (49785691365221267,20));
  (DE24 (94636562934722612,17) (22846454384677342,17), (54350362219980522,20));
  (DE24 (91612079404915003,17) (28348076717015114,17), (5765913388219541,19));
  (DE24 (87838217325186951,17) (33796801454673386,17), (60012003592260028,20));
  (DE24 (83308221090182277,17) (39113554548195367,17), (61621781727175121,20));
  (DE24 (78023466082773207,17) (44228603530014027,17), (62652181524384856,20));
  (DE24 (7199122178942764,16) (49077815687260568,17), (63239871609742121,20));
  (DE24 (65223207583704734,17) (53600061532114684,17), (63507678515405694,20));
  (DE24 (49547016477501293,17) (61421059735966033,17), (63543627752971066,20));
  (DE24 (40687684863785684,17) (64593003879775035,17), (63523024627062344,20));
  (DE24 (31201672712055523,17) (67180561250892246,17), (63581178814179717,20));
  (DE24 (21164213577994129,17) (69108885331862535,17), (63731015903101176,20));
  (DE24 (10700728021836615,17) (70304674168232517,17), (63904289613686657,20));
  (DE24o (83549511663546461,18) (99650362723915009,17), (31869134499465759,20));
  (DE24o (2050143009099486,16) (97875897769696341,17), (4678028558591711,19));
  (DE24o (33702082907066366,17) (94149719105928431,17), (55388296975986259,20));
  (DE24o (46890514842339626,17) (88324852775537233,17), (60444759071904761,20));
  (DE24o (5939400424557334,16) (80450930757057226,17), (63135751035090122,20));
  (DE48 (40975811620503434,18) (1394983311832261,16) (98937414483052666,17), (40786264318556302,20));
  (DE48 (88519873912933478,18) (19679991804850139,17) (97643946262865755,17), (4759933057812725,19));
  (DE48 (13976801829698185,17) (25461837325489672,17) (95688786441378004,17), (52681511864134396,20));
  (DE48 (19294525422265257,17) (31212810747138753,17) (93024092223428112,17), (56430485605073167,20));
  (DE48 (2467898337061562,16) (36859810785024921,17) (89623111576674452,17), (59145010766130726,20));
  (DE48 (3003104124785409,16) (42337603215478559,17) (85473176585045596,17), (61045612578741943,20));
  (DE48 (35266843281750326,17) (47586712360592465,17) (80571425280000464,17), (6230252860707806,19));
  (DE48 (40311348611457132,17) (52551785797964634,17) (7492199264949122,16), (63056187617607968,20));
  (DE48 (45094264483423507,17) (57180256337345892,17) (68534119939592597,17), (63430927675978892,20));
  (DE48 (47113225024232479,18) (26869277727234153,17) (96207304061047871,17), (51762689457378254,20));
  (DE48 (97844873039426947,18) (33060068199048093,17) (93868502165919709,17), (55648403133136924,20));
  (DE48 (15053958100252732,17) (3904906850594983,16) (90821520546253087,17), (58564266710389799,20));
  (DE48 (20397281562960498,17) (44799579519043903,17) (87045669506059709,17), (606638692577709,18));
  (DE48 (25715299411211068,17) (50270768489197803,17) (82532255583482295,17), (62088249622344581,20));
  (DE48 (30921913758156705,17) (55420873922602176,17) (7728105837259317,16), (62963142978229066,20));
  (DE48 (35938075061302766,17) (60208508873751865,17) (71297897725581727,17), (63404237567918592,20));
  (DE48 (5063389934378671,17) (40198514091795945,17) (91424512835366623,17), (5829627677107342,19));
  (DE48 (10324222691606119,17) (46356145674498006,17) (8800294417812875,16), (60486933760811102,20));
  (DE48 (15663220940062542,17) (52158609315915749,17) (83869797805959045,17), (62023623177324613,20));
  (DE48 (20980828274910987,17) (57582024990992708,17) (79019714266981422,17), (62990053284037791,20));
  (DE48 (26188241145533914,17) (62598936838767949,17) (73454401722152129,17), (63477223906093525,20));
  (DE48 (52632450193385562,18) (53137951248118909,17) (84549727314870426,17), (6203778981238834,19));
  (DE48 (10610597309820054,17) (58933179559319948,17) (80089297485730226,17), (63084146712399783,20));
  (DE48 (15941715640342213,17) (64262463212158005,17) (74941293852912005,17), (63627064669594981,20));
  (DE48 (535478953656554,16) (65119043673761134,17) (75702287812416069,17), (63754141703332328,20))].

(** delley/delley_2030.hpp:1-3738. *)
Definition de_2030 : coded := [  (DE6 (1,0), (46560318991974309,21));
  (DE8 (57735026918962584,17), (54215491952955069,20));
  (DE24 (99935420705485556,17) (25408353368143479,18), (17785221333465532,20));
  (DE24 (99589644719668902,17) (63993228005049155,18), (28113254056827966,20));
  (DE24 (98808572058392019,17) (10882694698041254,17), (35488963126314587,20));
  (DE24 (97501787923852479,17) (15706707988182869,17), (40903108971733639,20));
  (DE24 (95614099342735048,17) (20711639322825143,17), (44932861341699648,20));
  (DE24 (93111978124550865,17) (25789140444508435,17), (47937284479627232,20));
  (DE24 (89976143830859068,17) (3085687558169623,16), (50154153191642658,20));
  (DE24 (86197197898192557,17) (35847197062670239,17), (51751273726779372,20));
  (DE24 (8177285153761541,16) (40701355944287093,17), (5285522262081019,19));
  (DE24 (76706051182693302,17) (45366186262226377,17), (53568327037139618,20));
  (DE24 (71003676406088312,17) (49791956864635772,17), (53979147361751703,20));
  (DE24 (64675715451384852,17) (53930751111269992,17), (54168994415999306,20));
  (DE24 (50198048628754921,17) (61156176768439163,17), (5419308476889938,19));
  (DE24 (42087165023634548,17) (64143084351601587,17), (54169369020305963,20));
  (DE24 (33435846085791021,17) (66640994127216069,17), (54195443387031639,20));
  (DE24 (24297735681762234,17) (68591617712149122,17), (54289836566309745,20));
  (DE24 (14759410949542376,17) (69936255935038905,17), (54422865000981931,20));
  (DE24 (49517600325051238,18) (70623933877193801,17), (54522503450573007,20));
  (DE24o (74790281683497634,18) (99719928488026055,17), (25680024977285302,20));
  (DE24o (18489511539693662,17) (98275825934069538,17), (38272117002921449,20));
  (DE24o (30595290665813052,17) (95204664744299228,17), (45794915619178236,20));
  (DE24o (42855561010213616,17) (90351540609443171,17), (50420039690835742,20));
  (DE24o (5468758653496526,16) (83721370503478298,17), (53127088899760245,20));
  (DE24o (65658219783434391,17) (75425447793634115,17), (54384017907471163,20));
  (DE48 (36819172264396412,18) (12539015723671168,17) (99142405509545584,17), (33160418731973437,20));
  (DE48 (79824876072133011,18) (17757215103839408,17) (98086498578329639,17), (38991135671537707,20));
  (DE48 (1264640966592335,16) (23056933582161135,17) (96480288848808138,17), (43433433272013089,20));
  (DE48 (17515856834189575,17) (28365028459920633,17) (9427947772358557,16), (46794152623189187,20));
  (DE48 (22479959076326697,17) (33617947462325898,17) (91457558727242294,17), (49308479816310307,20));
  (DE48 (27452992574222462,17) (38759791722648235,17) (88000066729160009,17), (51150318675400913,20));
  (DE48 (32363734824411183,17) (43740193169990738,17) (8390103795345496,16), (52452171484573666,20));
  (DE48 (37149678594367408,17) (48512758433400222,17) (79160682472536548,17), (53320414998953209,20));
  (DE48 (4175353646321745,16) (53033918038068684,17) (73783776877753993,17), (53845831260215425,20));
  (DE48 (46120844063554606,17) (57261973805962874,17) (67778566661670425,17), (54110672107988522,20));
  (DE48 (42580401330439527,18) (24315207325648627,17) (96905313512397817,17), (42597973914687142,20));
  (DE48 (88694243067227202,18) (30020968008958687,17) (94974074316480683,17), (46049313684600211,20));
  (DE48 (13688117065106556,17) (35585544574574318,17) (92446224739266247,17), (48718148782552016,20));
  (DE48 (18607399850150333,17) (40977825370488868,17) (89300517908477695,17), (50722429100748842,20));
  (DE48 (23542350773958534,17) (46163376660674582,17) (85526021626874349,17), (521706984523535,18));
  (DE48 (28420749213470109,17) (51107070084178741,17) (81119223378653471,17), (53157859662803094,20));
  (DE48 (33177844149841024,17) (55774152861637949,17) (76082025013372923,17), (5376833708758905,19));
  (DE48 (37752990020407001,17) (601306043136695,15) (70420324973632153,17), (54080320920695207,20));
  (DE48 (45993678871645918,18) (36615967672617811,17) (92941469358066031,17), (48427449179048657,20));
  (DE48 (94048937736544214,18) (42376331535065809,17) (90087704481446651,17), (50489260761881307,20));
  (DE48 (14313771090919708,17) (47863284546584522,17) (8662691238621768,16), (52026079804783727,20));
  (DE48 (19241863888435695,17) (53057020767897745,17) (82551215747157725,17), (53099323883257427,20));
  (DE48 (24115909447751899,17) (57934362242317883,17) (7785905588358828,16), (53774197708952084,20));
  (DE48 (28868714915836047,17) (62470690170947474,17) (72553498665975247,17), (54116963316777178,20));
  (DE48 (48049787749532058,18) (48743155525352044,17) (87183811389521115,17), (51979962932824201,20));
  (DE48 (97168571993666658,18) (54273373220590526,17) (83426516440671328,17), (53111208366229447,20));
  (DE48 (14652058397950549,17) (59434937472466998,17) (79074682372722715,17), (53843093199569504,20));
  (DE48 (19535794498035736,17) (64213140335649432,17) (74128438143297659,17), (54218595040518862,20));
  (DE48 (4916375015738108,17) (60206283747139799,17) (79693366437009772,17), (53909483550463135,20));
  (DE48 (98616215401270052,18) (65292225298568807,17) (7509776119272954,16), (54333127050278454,20))].

(** delley/delley_2354.hpp:1-4332. *)
Definition de_2354 : coded := [  (DE6 (1,0), (3922616270665292,20));
  (DE8 (57735026918962584,17), (46782028012821362,20));
  (DE12 (70710678118654746,17), (4703831750854424,19));
  (DE24 (99947544113082376,17) (22900246465325493,18), (1437832228982218,19));
  (DE24 (99665461996275573,17) (57790866522725186,18), (23035724935773936,20));
  (DE24 (99022413501607498,17) (98631035763764724,18), (29331107524471685,20));
  (DE24 (97939135212611894,17) (14281557929822025,17), (34029059983597189,20));
  (DE24 (96365721784253522,17) (18889781166014699,17), (37591384668703268,20));
  (DE24 (94270553654193379,17) (23590916829702133,17), (40306384478997793,20));
  (DE24 (91634211178130176,17) (28312288337061725,17), (42365914322422019,20));
  (DE24 (88445833235105686,17) (32994958579666944,17), (43905226569467416,20));
  (DE24 (84700786088739866,17) (37588408026607967,17), (45025234666262444,20));
  (DE24 (80399082133594557,17) (42047518310094806,17), (45805777277835389,20));
  (DE24 (75544260007704001,17) (46330685187510517,17), (46313916166158977,20));
  (DE24 (70142593727789049,17) (5039849474507313,16), (46609289536986759,20));
  (DE24 (64202612403031178,17) (54212657934407471,17), (4674751807936953,19));
  (DE24 (50753307902018241,17) (60926602305573108,17), (46764149039329192,20));
  (DE24 (43275359656203283,17) (63746542049848687,17), (46740864923478702,20));
  (DE24 (35326956983998392,17) (66151364726098916,17), (46749285394832071,20));
  (DE24 (26947663729439059,17) (68094872859581268,17), (46807489796864466,20));
  (DE24 (18199279207290886,17) (6952980021665196,16), (46904498063890401,20));
  (DE24 (91745500291212603,18) (70412454976954009,17), (46998770758608179,20));
  (DE24o (67440330883093577,18) (99772330922474639,17), (20999422810690399,20));
  (DE24o (1678684485334179,16) (98580940550746587,17), (3172269150712765,19));
  (DE24o (27935590495396151,17) (96018762664770541,17), (38320513585465203,20));
  (DE24o (39352642180576397,17) (91931330640905662,17), (4252193818146983,19));
  (DE24o (5052629268232558,16) (86296545398874291,17), (45138079637550003,20));
  (DE24o (61079053154375318,17) (79179222437234087,17), (46577974691141779,20));
  (DE48 (3331954884663154,17) (11350810398436161,17) (99297820620320376,17), (2733362800522474,19));
  (DE48 (72471674654367935,18) (16128666260994101,17) (98424309438112823,17), (32354853684633827,20));
  (DE48 (11515391108497548,17) (21007865501682177,17) (97087925895456062,17), (36249087260133823,20));
  (DE48 (15994910971436813,17) (25922820094599469,17) (95247940772275175,17), (39255400707127985,20));
  (DE48 (20586999560280289,17) (30817405613202054,17) (92878754084970372,17), (41561297811162223,20));
  (DE48 (25216249535029123,17) (35642897815781649,17) (89965129881976447,17), (4330644984623256,19));
  (DE48 (29820907857976747,17) (4035587288240704,16) (8649923108574471,16), (44596777259213086,20));
  (DE48 (34347620872357332,17) (44916711963739037,17) (82478663463803203,17), (45515930044567936,20));
  (DE48 (38748313572034371,17) (49288547829174895,17) (77905116957838116,17), (46133414627499167,20));
  (DE48 (42978148217469259,17) (53436467919589881,17) (72783395579458143,17), (46510196182698052,20));
  (DE48 (46994022609435365,17) (57326832165309904,17) (67120757987929991,17), (46702495361006246,20));
  (DE48 (38736020406439142,18) (22141315832189909,17) (97441045460575471,17), (35495555764416989,20));
  (DE48 (80894962569020276,18) (27417965047500736,17) (95827006855915076,17), (38561082452490028,20));
  (DE48 (12517321776208734,17) (32597974391494866,17) (93705329203425225,17), (40986228457568771,20));
  (DE48 (17062602864031859,17) (37654411488268913,17) (91054999198157449,17), (42863286042689464,20));
  (DE48 (21651151473004088,17) (42557735745305586,17) (87863910498712561,17), (44278021989939431,20));
  (DE48 (26220898122252589,17) (47277951170584304,17) (84126451457162366,17), (45304735114885597,20));
  (DE48 (3071721431296201,16) (51785468958190128,17) (79841830825901583,17), (46008054757031377,20));
  (DE48 (35089989988011383,17) (56051411920974592,17) (75012877723138238,17), (46445990599580168,20));
  (DE48 (39291608761669305,17) (60047633193525118,17) (69645180944382445,17), (4667274455712508,19));
  (DE48 (42025634572880222,18) (33528426349469503,17) (94117921178252051,17), (40693605180203531,20));
  (DE48 (86143097588708528,18) (389197162981467,15) (91711773239044925,17), (42604428199191933,20));
  (DE48 (13145008793800012,17) (44098755655422811,17) (88783492235067185,17), (44086785080290616,20));
  (DE48 (17721896573838586,17) (49048930585924844,17) (85323717629996021,17), (45187481155485967,20));
  (DE48 (22282771100502935,17) (53750561387695484,17) (8132868659083442,16), (45955648753751157,20));
  (DE48 (2677179935014386,16) (58182557086699693,17) (76798833392236943,17), (46439887743158456,20));
  (DE48 (31136750355441645,17) (62323348581449589,17) (71737737620432596,17), (46688274916469453,20));
  (DE48 (44091623783681748,18) (44894853544920577,17) (89246912620556884,17), (44005418237419723,20));
  (DE48 (89390099177484889,18) (50151368759331505,17) (86051928004292511,17), (45145128901937973,20));
  (DE48 (13518060293833647,17) (55113005505126234,17) (82339654299032639,17), (45961986273475487,20));
  (DE48 (18083703550531963,17) (59767204098579996,17) (78108008425097875,17), (46486590168017808,20));
  (DE48 (22578521923016018,17) (64099563789893543,17) (73358409672765212,17), (46755020171576725,20));
  (DE48 (45321734216371604,18) (55812223308275144,17) (82852007419636087,17), (45984944764555232,20));
  (DE48 (91174880318403137,18) (60747059841616946,17) (7890922717013682,16), (46549169551520479,20));
  (DE48 (1369294213140155,16) (65322725373790325,17) (74467743926659002,17), (46847097795051367,20));
  (DE48 (45899014872755828,18) (65947614945004862,17) (75032292297400038,17), (46914455391069862,20))].

(** delley/delley_2702.hpp:1-4970. *)
Definition de_2702 : coded := [  (DE6 (1,0), (29986751498881611,21));
  (DE8 (57735026918962584,17), (40778605294953548,20));
  (DE24 (99957325408378439,17) (20655625388187032,18), (11853491925206671,20));
  (DE24 (99723897420229457,17) (52509181730223793,18), (1913408643425751,19));
  (DE24 (99187875428541961,17) (89934800820383756,18), (24528865772098968,20));
  (DE24 (98279500923438501,17) (13060239244360189,17), (28624081832887021,20));
  (DE24 (96953562915944858,17) (17320603885314181,17), (31780322582573568,20));
  (DE24 (95180484167256751,17) (21687270848202489,17), (34229456676336902,20));
  (DE24 (92941230897402738,17) (2609528309173586,16), (36127905202359219,20));
  (DE24 (90224227989443873,17) (30492529279389519,17), (37586382298185209,20));
  (DE24 (87023374170063472,17) (34834841380844039,17), (38687117988599532,20));
  (DE24 (83336693801458794,17) (39083215491064061,17), (3949429933189938,19));
  (DE24 (79165377450876351,17) (43202100718948139,17), (40060681075411561,20));
  (DE24 (74513081394435077,17) (47158247958900529,17), (40431921496727232,20));
  (DE24 (6938543198233158,16) (50919847940784535,17), (40649474958080783,20));
  (DE24 (63789743497358209,17) (54455801456508035,17), (4075245619813152,19));
  (DE24 (51232456883525634,17) (60725757968417682,17), (40764235408935657,20));
  (DE24 (44296582715333949,17) (63394845057558025,17), (40742808622515548,20));
  (DE24 (36947697034395932,17) (65707182574869583,17), (4074163756012244,19));
  (DE24 (29215812010746578,17) (67625573300907094,17), (40776477950712461,20));
  (DE24 (2114636611322844,16) (69111616969237899,17), (40845175527825302,20));
  (DE24 (12806625801244212,17) (70128419116599605,17), (40924684592240519,20));
  (DE24 (42895754243421923,18) (70645592724100204,17), (40978726872409061,20));
  (DE24o (61235549898947653,18) (99812334279315074,17), (17389868117450281,20));
  (DE24o (15330703483123931,17) (98817860383194556,17), (26596160452801911,20));
  (DE24o (2563902605244206,16) (96657334657449545,17), (32405960081715332,20));
  (DE24o (36293469916633608,17) (93181457605096585,17), (36211959644329432,20));
  (DE24o (4683949968987538,16) (88351917176720984,17), (38688383307605392,20));
  (DE24o (56944792406579525,17) (8220274093831399,16), (40189115326931112,20));
  (DE24o (66344654309939555,17) (74822368610560697,17), (4089929432983252,19));
  (DE48 (3034544009063584,17) (10339585735523051,17) (99417727340121909,17), (2279907527706409,19));
  (DE48 (66188030442471346,18) (1473521412414395,16) (98686700780688252,17), (27152054905788968,20));
  (DE48 (10544311289877149,17) (19245521587059669,17) (97562428210168017,17), (30579178967039762,20));
  (DE48 (14682635512388581,17) (23810943628903281,17) (96007599584155501,17), (33269130524525548,20));
  (DE48 (18944861081878861,17) (28381217079367599,17) (93997865697483385,17), (35373347118900368,20));
  (DE48 (23263742387615791,17) (3291323133373415,16) (91517853412843708,17), (37005675007831289,20));
  (DE48 (27584858084857677,17) (37368969787414602,17) (88558656840907179,17), (38252453725891219,20));
  (DE48 (31861793319969212,17) (41714060407600129,17) (85116175259151849,17), (39181251715182962,20));
  (DE48 (36053297963037939,17) (45916779852569151,17) (8118995648452525,16), (39847204199375789,20));
  (DE48 (40121472535865088,17) (49947338317184181,17) (76782360191534671,17), (40297460033382107,20));
  (DE48 (44030500255706922,17) (53777318304450961,17) (71897949089066215,17), (40574286321566269,20));
  (DE48 (4774565904277483,16) (57379178300013312,17) (66543083338438536,17), (40717192741148572,20));
  (DE48 (35441225049761473,18) (2027323586271389,16) (97859261714589352,17), (29902369506641191,20));
  (DE48 (74183043886463282,18) (25169423751872733,17) (96495952599039381,17), (32629517342128779,20));
  (DE48 (1150502745727186,16) (30002279952571809,17) (94696871864148335,17), (34826346082424131,20));
  (DE48 (15719633712093639,17) (34748066910463421,17) (92441684114600409,17), (36565966817008919,20));
  (DE48 (19996318772471,14) (39381031803592093,17) (89717788479399074,17), (37917404677942178,20));
  (DE48 (24280734578465349,17) (43875195904557029,17) (8651828195628285,16), (3894034450156905,19));
  (DE48 (28525751329061549,17) (48205039600777871,17) (82840543625690799,17), (39686002455083708,20));
  (DE48 (32688842086746389,17) (52345737784751012,17) (78685216774168254,17), (40199313514200502,20));
  (DE48 (36730333216759392,17) (56273186472352821,17) (74055459663914247,17), (40521088012785989,20));
  (DE48 (40612115518302899,17) (59963906071569539,17) (68956406821759553,17), (4068978613940934,19));
  (DE48 (38601255231000588,18) (30847807537919469,17) (95044790499266141,17), (3454275351319704,19));
  (DE48 (79289389871048666,18) (35899882759202228,17) (9299639963146048,16), (362996353700792,18));
  (DE48 (1212614643030087,16) (4078628415881973,16) (90495500425528963,17), (37701872338898729,20));
  (DE48 (16387708273826929,17) (45492872588897348,17) (87531945946278933,17), (38786086136943782,20));
  (DE48 (20659657982601759,17) (50002785129572791,17) (84100535142932908,17), (3959065270221274,19));
  (DE48 (2489436378852235,16) (54297850449281992,17) (80199838454650973,17), (401528697546357,18));
  (DE48 (29048113689468907,17) (58359398504917115,17) (75831310797242368,17), (40508667856147169,20));
  (DE48 (33079419576666091,17) (62168703534448555,17) (70998621826882835,17), (40693201850519129,20));
  (DE48 (40648291460525537,18) (41511046627090908,17) (90886248530439884,17), (3760120964062763,19));
  (DE48 (82584245472947557,18) (46498042750092178,17) (88146074469639546,17), (38709695644180642,20));
  (DE48 (12518419620272889,17) (51246957570096618,17) (84953154797332187,17), (39552877905340552,20));
  (DE48 (16791075059763311,17) (55747111006062244,17) (81303870835373937,17), (4015361911302668,19));
  (DE48 (21028050573587151,17) (59985973332872267,17) (7719782440187416,16), (40538369867195481,20));
  (DE48 (25184180877741069,17) (63950071485166005,17) (72637079997473597,17), (40735786732991168,20));
  (DE48 (41943216760775177,18) (51884562247462518,17) (85383838436010673,17), (39546283792314061,20));
  (DE48 (84576615519214984,18) (56641907079427778,17) (81976596193539397,17), (401764550884753,18));
  (DE48 (1273652932519396,16) (61104643532831526,17) (78128121438276399,17), (40590303486512928,20));
  (DE48 (1698173239076354,16) (65264303020515635,17) (73838956630323582,17), (408056580948488,18));
  (DE48 (42663988515488638,18) (61675518803775475,17) (78599797844044361,17), (4063018753664651,19));
  (DE48 (85519258142383495,18) (66071954183553827,17) (74574536104719602,17), (40871912927996709,20))].

(** delley/delley_3074.hpp:1-5652. *)
Definition de_3074 : coded := [  (DE6 (1,0), (25990959537547339,21));
  (DE8 (57735026918962584,17), (35860679744124469,20));
  (DE12 (70710678118654746,17), (36031340896875412,20));
  (DE24 (99964419616737621,17) (18861085187233919,18), (98315284743858805,21));
  (DE24 (99769313061726572,17) (4800217244625303,17), (16050231079544499,20));
  (DE24 (99317886206372263,17) (82449220583972416,18), (20722001314640989,20));
  (DE24 (98548485288489773,17) (1200408362484023,16), (24312976188141871,20));
  (DE24 (97420230792547702,17) (15957735308099649,17), (2711819064496707,19));
  (DE24 (95905629822141092,17) (2002635973434064,16), (29327620383211159,20));
  (DE24 (93986338074578313,17) (24151275901399821,17), (31070325141973682,20));
  (DE24 (9165054463397122,16) (2828584158458477,16), (3243808058921213,19));
  (DE24 (88891269981203158,17) (3239091015338138,16), (334989909137403,18));
  (DE24 (85705205075979329,17) (36432250979621938,17), (34305806885052178,20));
  (DE24 (82091884058673226,17) (40378970836918021,17), (34901241092903429,20));
  (DE24 (78053074128339306,17) (44202475151941267,17), (35321489485619551,20));
  (DE24 (73592321867075772,17) (47875725384649381,17), (35598626690628329,20));
  (DE24 (68714635614314379,17) (51372652512752337,17), (35762243175514112,20));
  (DE24 (63426320638784062,17) (54667640566546105,17), (35840505330860759,20));
  (DE24 (51650125642026423,17) (60548594208135353,17), (35849035813732242,20));
  (DE24 (45183602864652173,17) (6308106701764562,16), (3582991879040586,19));
  (DE24 (38351734556663059,17) (65303692301795835,17), (35823711879631249,20));
  (DE24 (31177832047158877,17) (67186095246111577,17), (35843536311223499,20));
  (DE24 (23696180227217825,17) (6869676499894013,16), (3589120166517785,19));
  (DE24 (15956687523154681,17) (69804670772407484,17), (35954457045316008,20));
  (DE24 (80285570163445411,18) (70482417212505222,17), (36009435571110742,20));
  (DE24o (55911052220582319,18) (99843575368652904,17), (1456447096742039,19));
  (DE24o (14073840785139161,17) (99004681735534883,17), (22523701882837821,20));
  (DE24o (23640354389763091,17) (9716549616158201,16), (27661354434748971,20));
  (DE24o (33606027378181702,17) (94184048139039456,17), (3110729491500851,19));
  (DE24o (4356292630054665,16) (90012618293954438,17), (33425067123033913,20));
  (DE24o (53215694152561743,17) (8466457284992942,16), (349198183402686,18));
  (DE24o (62329563050405545,17) (78198628951827032,17), (35760036043489321,20));
  (DE48 (27787483873094699,18) (94698700868384694,18) (9951180893712277,16), (19219213057885639,20));
  (DE48 (60765698786283642,18) (13531703005681411,17) (98893722309741072,17), (23014582164956321,20));
  (DE48 (97030727627110402,18) (1771679481726077,16) (97938580551101606,17), (26042485495228929,20));
  (DE48 (13541124585247619,17) (2197066664231751,16) (96612254669161712,17), (2845275425870697,19));
  (DE48 (17509964797440999,17) (26247835573749267,17) (94891792376821504,17), (30368708979748398,20));
  (DE48 (2154896907449802,16) (30509695212144422,17) (92762063527545457,17), (31884148322980658,20));
  (DE48 (25609546257401522,17) (34722526371960211,17) (9021362038427756,16), (33070464147220893,20));
  (DE48 (29650700506240962,17) (38856102190263597,17) (87241270520717396,17), (33983309690313601,20));
  (DE48 (33636414887344968,17) (42882737760627648,17) (83843081978656042,17), (34667578997053729,20));
  (DE48 (37534000298367881,17) (4677662471302948,16) (80019661346812254,17), (35160959232300538,20));
  (DE48 (4131297522144286,16) (50513335895533595,17) (75773616615926709,17), (3549645184048486,19));
  (DE48 (44944237760817951,17) (54069421458104916,17) (71109163651985741,17), (35704159694413919,20));
  (DE48 (4839938958841502,16) (57422041225764575,17) (66031873129083785,17), (35812517984961181,20));
  (DE48 (32591448510707957,18) (1865407027225188,16) (98190649438312749,17), (25434913299133481,20));
  (DE48 (68356795052973429,18) (23211864536894319,17) (97028257896458836,17), (27867110513307762,20));
  (DE48 (1062284864451989,16) (27731591425238822,17) (95488815699532281,17), (29855523610836787,20));
  (DE48 (14544044093230471,17) (32192001922372537,17) (93552903715727231,17), (31458679291540391,20));
  (DE48 (18540182825825099,17) (3657032593944029,16) (91207855371497915,17), (32732906620676089,20));
  (DE48 (225629741201475,15) (4084376778363622,16) (88446022138307345,17), (33727055119435012,20));
  (DE48 (26571044250008963,17) (4499004945751427,16) (85263562306969598,17), (34482744378515101,20));
  (DE48 (30527554876315571,17) (48987581413263348,17) (81659569314027347,17), (35035927830485828,20));
  (DE48 (34398639206454229,17) (52815474422663089,17) (77635425433581617,17), (35418547926631622,20));
  (DE48 (38152294561219141,17) (56453469898139919,17) (73194317786108076,17), (35659955179094278,20));
  (DE48 (4175752420966734,16) (59881812521598476,17) (68340893329010399,17), (3578802078302898,19));
  (DE48 (35621495098625361,18) (28504254244716032,17) (95785273298257989,17), (29586445928609821,20));
  (DE48 (73303188868710956,18) (33246194330278761,17) (94026363258237955,17), (31195481291168353,20));
  (DE48 (1123226296008472,16) (37858483330762821,17) (91872583008696684,17), (32507452250059841,20));
  (DE48 (15210841933377081,17) (42328910285621152,17) (89313457226274995,17), (33551534159352082,20));
  (DE48 (192184445922361,15) (46642870508297218,17) (86342886320769752,17), (34358475685493281,20));
  (DE48 (2321360989678303,16) (50784584937357258,17) (82958147570328034,17), (3495786831622488,19));
  (DE48 (27158864863605198,17) (54737798162041795,17) (79159140417844398,17), (35377678055346212,20));
  (DE48 (31019247075713552,17) (58486171338113757,17) (74947808994423826,17), (3564459815421428,19));
  (DE48 (34761210528909731,17) (62013482815848875,17) (7032770571839545,16), (35784640612254682,20));
  (DE48 (37632248800351077,18) (3852191185387871,16) (92205750610383752,17), (32397487628362123,20));
  (DE48 (76595819356371345,18) (43250250610734231,17) (89837334258536106,17), (33454917841742868,20));
  (DE48 (11633813060839,14) (47784862297344899,17) (87070438892251123,17), (34291261773017822,20));
  (DE48 (15638905987528989,17) (52116636930089999,17) (83900421778501266,17), (3492420343097421,19));
  (DE48 (19633208101492,14) (56234695048537031,17) (80325563878764983,17), (35373990502352568,20));
  (DE48 (2357847407258738,16) (60127181886592462,17) (76346431211844812,17), (35662091526591719,20));
  (DE48 (27438461212440601,17) (63781792063901166,17) (71965365610206322,17), (35810843219197822,20));
  (DE48 (38959026107390243,18) (48369364602145343,17) (87436985943205781,17), (34265221175915121,20));
  (DE48 (78712468193126398,18) (52937925626837967,17) (84472596170810521,17), (34918487701213788,20));
  (DE48 (1187963808202981,16) (57262812531000329,17) (81116240667818795,17), (35393182352314761,20));
  (DE48 (1587914708061787,16) (61336587761690675,17) (77367148646854778,17), (35702314384586939,20));
  (DE48 (19830585752276461,17) (65150854918653067,17) (73226456776838722,17), (3586207335051714,19));
  (DE48 (39772096897915422,18) (57786927160649759,17) (81515966855660782,17), (35411962051640249,20));
  (DE48 (79901575929811522,18) (62079042880861923,17) (77989421184128771,17), (3574296911573953,19));
  (DE48 (1199671308754309,16) (66086881710468015,17) (74085106066481277,17), (3591993279818963,19));
  (DE48 (40159559578059688,18) (66562630894891295,17) (74520388257814552,17), (35958550346619971,20))].

(** delley/delley_3470.hpp:1-6378. *)
Definition de_3470 : coded := [  (DE6 (1,0), (20403827308263299,21));
  (DE8 (57735026918962584,17), (31781497038895439,20));
  (DE24 (99970362711315963,17) (17214208329062331,18), (82881151280761106,21));
  (DE24 (9980542888969397,16) (44088753749817702,18), (13608831925229539,20));
  (DE24 (99421535125296701,17) (75946808138786806,18), (17668544545426621,20));
  (DE24 (98763953678998051,17) (1108335359204799,16), (20831531612301531,20));
  (DE24 (97795600502374036,17) (1476517054388567,16), (2333279544657158,19));
  (DE24 (96490980676673033,17) (18567318708606151,17), (2532809539930247,19));
  (DE24 (94832595691439581,17) (22436340994288209,17), (26924721842111579,20));
  (DE24 (92808700843311798,17) (26330068816627272,17), (28199499468118847,20));
  (DE24 (90411834553093384,17) (30213409049162832,17), (29209535939730302,20));
  (DE24 (87637810538627714,17) (34055940480300889,17), (29998897829483523,20));
  (DE24 (84484998443896342,17) (37830444340073721,17), (30602921204969018,20));
  (DE24 (80953791761776284,17) (41511947674079103,17), (31051091675221918,20));
  (DE24 (77046205257850575,17) (45077057664432568,17), (31369023875503119,20));
  (DE24 (72765573084371338,17) (48503460565731871,17), (3157984652454632,19));
  (DE24 (68116341989507756,17) (51769508177924695,17), (31705165184254218,20));
  (DE24 (63103977260633493,17) (54853842408209885,17), (3176568425633755,19));
  (DE24 (52017425876907364,17) (60391172389433079,17), (31771984112070618,20));
  (DE24 (45961167095979966,17) (62799566555731134,17), (31755194923947328,20));
  (DE24 (39579513128046123,17) (64936361695689515,17), (31746549526347559,20));
  (DE24 (32890938075057802,17) (66776441177045043,17), (31756764154676541,20));
  (DE24 (25921901574535028,17) (68293685721156239,17), (31789234178354099,20));
  (DE24 (18710230652995319,17) (6946195818184121,16), (31837882875319088,20));
  (DE24 (11308203463032347,17) (7025711542057026,16), (31887551519188068,20));
  (DE24 (37835599837482761,18) (70660047671401194,17), (3191916889313849,19));
  (DE24o (51325376899460623,18) (99868198426031918,17), (1231779611744508,19));
  (DE24o (12979946613312249,17) (99154026574393661,17), (192466137383988,18));
  (DE24o (2188852049401307,16) (9757506172472129,16), (23808818674034239,20));
  (DE24o (31231748249034569,17) (94997778401965405,17), (2693100663037885,19));
  (DE24o (40640376207381951,17) (91369359315486409,17), (29086733828343657,20));
  (DE24o (49849583969447819,17) (86689209121279742,17), (30539146193815349,20));
  (DE24o (58649750460213645,17) (80995103376405841,17), (3143916684147777,19));
  (DE24o (66867116345801747,17) (74355825270095777,17), (31870422440553631,20));
  (DE48 (25571752333675781,18) (87157387808359493,18) (99586629385325032,17), (16352195358697899,20));
  (DE48 (56048233833766808,18) (1248383123134007,16) (99059274743097991,17), (19681099176960701,20));
  (DE48 (89685686019007643,18) (16380626933833781,17) (98240723931003071,17), (22367543422499741,20));
  (DE48 (12540866519762789,17) (20355862033731759,17) (97099771100642507,17), (24531866870171809,20));
  (DE48 (16247801501620121,17) (24367989752937741,17) (95614904809682633,17), (2627551791580541,19));
  (DE48 (20034223426832079,17) (28382075077738061,17) (93771465307765201,17), (27676548601522199,20));
  (DE48 (23856280262552629,17) (32367875022176917,17) (91559808642128981,17), (2879467027765895,19));
  (DE48 (27677311487835782,17) (36298495548406912,17) (8897407290737902,16), (2967639918918702,19));
  (DE48 (31465423082453092,17) (40149480819920869,17) (86011315186625503,17), (3035900684660351,19));
  (DE48 (35191964158950878,17) (43898183792602252,17) (82670884344768136,17), (30873382372983082,20));
  (DE48 (38830509840236538,17) (4752331143674377,16) (78953950981781473,17), (31246088388601671,20));
  (DE48 (4235613423908649,16) (51004573183740176,17) (74863151193794786,17), (31500842942267432,20));
  (DE48 (457448471719622,15) (54322383889548675,17) (7040232642299773,16), (31659583985984018,20));
  (DE48 (48973116392555238,17) (57457586850724418,17) (65576364523299846,17), (31743204409573719,20));
  (DE48 (30106305978811049,18) (17239814375928089,17) (98456715889199986,17), (21821889098125991,20));
  (DE48 (63260315542046947,18) (21495532578445969,17) (97457290152887865,17), (23997279339214449,20));
  (DE48 (98485669802586315,18) (2573256081247422,16) (96129293362989388,17), (25797961335146519,20));
  (DE48 (13508359523842661,17) (2993163751238106,16) (94454334462755241,17), (27271140526235349,20));
  (DE48 (1725184055442181,16) (3407238005148,13) (92419948685942876,17), (28463276562813548,20));
  (DE48 (21035592797307251,17) (38134549784832639,17) (90018109002433477,17), (29414911020513338,20));
  (DE48 (248227877455486,15) (42098481044233432,17) (87244180907999591,17), (30160494921361067,20));
  (DE48 (28580995099828832,17) (45945196999963001,17) (84096168710222174,17), (30729497261756478,20));
  (DE48 (32280756599154281,17) (49656401661859301,17) (80574155455594154,17), (31147681428864599,20));
  (DE48 (35894599072041511,17) (53214416555715616,17) (76679877595704171,17), (3143823673666223,19));
  (DE48 (39396300888643099,17) (5660208438582166,16) (72416403662925866,17), (3162269764661535,19));
  (DE48 (42760299229490889,17) (59802643159643643,17) (67787909548272163,17), (3172164663759821,19));
  (DE48 (33009394290725518,18) (26442158523507331,17) (96384210592312802,17), (25545753989674353,20));
  (DE48 (68038876500785009,18) (30901137434430631,17) (94862146392033209,17), (2701704069135677,19));
  (DE48 (1044326136206709,16) (35258710791978082,17) (92993341726229006,17), (28236934134689398,20));
  (DE48 (14167515975176789,17) (39504180053540289,17) (90767291737666056,17), (29228984632142889,20));
  (DE48 (17934086105048211,17) (43624756634301631,17) (88177373311834784,17), (3001829062162428,19));
  (DE48 (21706307501757219,17) (47606618121458538,17) (85219986656164015,17), (30628908645429528,20));
  (DE48 (25451451578158069,17) (51435510425121034,17) (8189390624382219,16), (31083282792647459,20));
  (DE48 (29139401017066008,17) (55097090269355975,17) (78199782302875054,17), (31402431462012448,20));
  (DE48 (32741699109107048,17) (58577110303294277,17) (74139755111305794,17), (31606380309771301,20));
  (DE48 (36230813293172648,17) (61861499174043921,17) (69717164945621735,17), (31714628822062752,20));
  (DE48 (34973543864500398,18) (35868945695570642,17) (93280154625642542,17), (28123884160317962,20));
  (DE48 (71297367397570949,18) (40352666100194412,17) (91218579207461781,17), (29121375002880449,20));
  (DE48 (1084758620193165,16) (44677753123325098,17) (88804438230546101,17), (2993241256502206,19));
  (DE48 (14609156892417721,17) (48836383466085431,17) (86032436818017544,17), (30571017389838218,20));
  (DE48 (18377908323699799,17) (52819083484346008,17) (82899921022395273,17), (3105319326251432,19));
  (DE48 (22120753908740209,17) (56615426871493113,17) (79406332786923051,17), (3139565514428167,19));
  (DE48 (2580682841160985,16) (60214501020314515,17) (75552772776439303,17), (31615430068063661,20));
  (DE48 (29406563620941212,17) (63605207836100497,17) (71341653696378504,17), (3172985960613294,19));
  (DE48 (36310553658670017,18) (4521611065087196,16) (89119687917643153,17), (2989400336901431,19));
  (DE48 (73483184684843494,18) (4959365651560963,16) (86524397999046854,17), (30545558839476769,20));
  (DE48 (1111087643812648,16) (5376815804038283,16) (83579504698945795,17), (31047649608077023,20));
  (DE48 (14882260851454079,17) (57733144802437675,17) (80283262908093367,17), (3141015825977616,19));
  (DE48 (18628922741351511,17) (61481132455750565,17) (76635720062221713,17), (3164520621159896,19));
  (DE48 (2231909701714456,16) (65004074628423802,17) (72638338293504467,17), (3176652305912204,19));
  (DE48 (37182013061189442,18) (54251514487072128,17) (83922274486015802,17), (3105097161023939,19));
  (DE48 (7483616335067346,17) (58418605569079307,17) (80816223680111721,17), (31430141178905502,20));
  (DE48 (112599083426612,15) (62346321868514998,17) (77370217872139901,17), (31681728662872,17));
  (DE48 (1501303813157619,16) (66029345518488425,17) (73584877634334023,17), (31814018655709682,20));
  (DE48 (37675599302457202,18) (62785739683751052,17) (77741600089889173,17), (31706636591560371,20));
  (DE48 (75484433013601582,18) (66656117112645774,17) (74161870628992377,17), (31854479446255101,20))].

(** All transcribed files of quadratures/s2/delley/, by suffix (each entry cites its lines 1 ff. above). *)
Definition de_grids : list (Z * coded) := [
  (14, de_14); (26, de_26); (50, de_50); (110, de_110); (194, de_194); (302, de_302); (434, de_434); (590, de_590); (770, de_770); (974, de_974); (1202, de_1202); (1454, de_1454); (1730, de_1730); (2030, de_2030); (2354, de_2354); (2702, de_2702); (3074, de_3074); (3470, de_3470)].
