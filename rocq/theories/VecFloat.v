(** Rounding of FloatModel.v against CPython's floats: operands and results are (m, e) for m * 2^e.
    Generated by tools/mkfloats.py (which only computes with Python numbers); do not edit. *)
From Verif Require Import Base Vec FloatSpec FloatModel.
Open Scope Z_scope.

Definition me (p : Z * Z) : Qc := Qcmult (qz (fst p)) (p2 (snd p)).
Definition ok3 (f : Qc -> Qc -> Qc) (c : (Z * Z) * (Z * Z) * (Z * Z)) : bool :=
  let '(a, b, r) := c in qeqb (f (me a) (me b)) (me r).

Example fadd_0 : True.
Proof. agrees (forallb (ok3 fadd) [((3602879701896397, -55), (3602879701896397, -54), (1351079888211149, -52));
  ((1, 0), (3, 0), (4, 0));
  ((1, 0), (1, -53), (1, 0));
  ((1, 0), (1, -54), (1, 0));
  ((1, 0), (3, -53), (2251799813685249, -51));
  ((4503599627370497, -52), (1, -53), (2251799813685249, -51));
  ((1, -1074), (3, 0), (3, 0));
  ((1, -1074), (2, 0), (2, 0));
  ((1, -1022), (3, 0), (3, 0));
  ((3, -1023), (5, -1074), (6755399441055749, -1074));
  ((-3602879701896397, -55), (5404319552844595, -54), (7205759403792793, -55));
  ((10000000000000000, 0), (1, 0), (10000000000000000, 0));
  ((10000000000000000, 0), (-3, 0), (9999999999999996, 0));
  ((17521, -1), (168, 0), (17857, -1));
  ((2448832297382707, -49), (100, 0), (3671489227469619, -45));
  ((9007199254740991, 0), (2, 0), (9007199254740992, 0));
  ((1152921504606846848, 964), (3, 0), (1152921504606846848, 964));
  ((7410365347303871, -35), (-5580534205734661, -34), (-3750703064165451, -35));
  ((-601569928120545, -33), (7413122113840375, -57), (-2406277945056139, -35));
  ((-6100093254968787, -64), (4634886414368379, -60), (2126815292966415, -59))]). exact I. Qed.
Example fadd_1 : True.
Proof. agrees (forallb (ok3 fadd) [((2368733956967777, -68), (820739746613423, -50), (6565990260930973, -53));
  ((-1635690384418121, -59), (8635819974809853, -71), (-3267164059864167, -60));
  ((-751619690220343, -70), (-175334614244947, -68), (-1452958147200131, -70));
  ((-6112492778749235, -60), (2926988698913011, -52), (1451555886998011, -51));
  ((-50998281740955, -43), (418519185536541, -34), (6694713272280251, -38));
  ((1473327755387801, -52), (502109130070863, -59), (2954500965932959, -53));
  ((1680436422299053, -71), (1957461811104711, -41), (3914923625339479, -42));
  ((-5569407552353595, -60), (-4535078032716677, -64), (-5852849929398387, -60));
  ((308203507856647, -52), (2050643480974729, -39), (8202724413892987, -41));
  ((6643973683812675, -73), (-587588049453431, -34), (-4700704395530765, -37));
  ((2117874719095, -49), (-3644950995963955, -52), (-3628007998211195, -52));
  ((4671771967343171, -49), (-3189335851317657, -73), (4671771777243941, -49));
  ((-1686691166138879, -41), (-6050200804601863, -73), (-6746764670190205, -43));
  ((6545074693828267, -40), (-7193914441280781, -34), (-3545823824594857, -33));
  ((3112167457348633, -36), (-8206483985503653, -47), (6216320770180173, -37));
  ((1485459214647537, -54), (3182659203011387, -72), (5941885422115585, -56));
  ((4151425244676601, -62), (2436091725690329, -55), (2468524735414365, -55));
  ((7473402373565445, -37), (4449405483615329, -36), (2046526667599513, -34));
  ((-3903444380720047, -32), (-4179230686366553, -69), (-3903444380750455, -32));
  ((130490261011379, -28), (5385661317303779, -73), (2087844176184513, -32))]). exact I. Qed.
Example fadd_2 : True.
Proof. agrees (forallb (ok3 fadd) [((5600304404502255, -51), (-8258544304930801, -44), (-8214791926770627, -44));
  ((-6731808170224601, -63), (5170798417363479, -56), (5118206166033599, -56));
  ((-1709319771796655, -49), (-5859661605620359, -71), (-1709321168848849, -49));
  ((-6277097760433295, -67), (-3886060829309375, -48), (-7772145603846413, -49));
  ((2828446208819331, -66), (-5554931723790115, -43), (-1388732846653263, -41));
  ((-6223562408781405, -46), (471940560917989, -69), (-3111781176260853, -45));
  ((7063152242010479, -34), (8845136589876305, -34), (248567012998231, -28));
  ((-564695432352325, -34), (2795431612973111, -52), (-2258739074507979, -36));
  ((-1157871516565607, -52), (-5527466808931985, -36), (-2763742238324609, -35));
  ((-6118717783492583, -57), (1545501262314923, -65), (-6112680669186665, -57));
  ((-8356634206459203, -67), (1879460572203907, -51), (7517332240341113, -53));
  ((3723879209918271, -36), (4586053448590579, -71), (7447758420103485, -37));
  ((-2209397040866173, -56), (-6869772844841431, -62), (-4633474483133641, -57));
  ((-7944617056368691, -73), (-243266012884705, -47), (-1946129050149795, -50));
  ((8769166767795239, -40), (-108096778804829, -28), (-6781175612762255, -34));
  ((-3500378479094763, -36), (4017975890182029, -72), (-1750189239518147, -35));
  ((8792214547152069, -60), (3383273315293279, -70), (8795518524999035, -60));
  ((7846019317563381, -1062), (762, 0), (762, 0));
  ((2218887535327569, -1073), (109, -1073), (1109443767663839, -1072));
  ((5691863034972049, -1055), (705, 0), (705, 0))]). exact I. Qed.
Example fadd_3 : True.
Proof. agrees (forallb (ok3 fadd) [((2044853822793299, -1042), (437, -9), (437, -9));
  ((553622623827969, -1048), (221, -3), (221, -3));
  ((563967978870857, -1045), (143, -8), (143, -8));
  ((3780743374206213, -1053), (583, 0), (583, 0));
  ((19150342753057, -1051), (115, -1071), (19150342753057, -1051));
  ((3305463455094401, -1049), (131, -1), (131, -1));
  ((2977450124503771, -1055), (51, -8), (51, -8))]). exact I. Qed.
Example fsub_0 : True.
Proof. agrees (forallb (ok3 fsub) [((3602879701896397, -55), (3602879701896397, -54), (-3602879701896397, -55));
  ((1, 0), (3, 0), (-2, 0));
  ((1, 0), (1, -53), (9007199254740991, -53));
  ((1, 0), (1, -54), (1, 0));
  ((1, 0), (3, -53), (9007199254740989, -53));
  ((4503599627370497, -52), (1, -53), (1, 0));
  ((1, -1074), (3, 0), (-3, 0));
  ((1, -1074), (2, 0), (-2, 0));
  ((1, -1022), (3, 0), (-3, 0));
  ((3, -1023), (5, -1074), (6755399441055739, -1074));
  ((-3602879701896397, -55), (5404319552844595, -54), (-3602879701896397, -53));
  ((10000000000000000, 0), (1, 0), (10000000000000000, 0));
  ((10000000000000000, 0), (-3, 0), (10000000000000004, 0));
  ((17521, -1), (168, 0), (17185, -1));
  ((2448832297382707, -49), (100, 0), (-3365385190296781, -45));
  ((9007199254740991, 0), (2, 0), (9007199254740989, 0));
  ((1152921504606846848, 964), (3, 0), (1152921504606846848, 964));
  ((1887329900342249, -55), (-8290758131486827, -70), (7550331656804969, -57));
  ((8147765062870331, -36), (-1948985448067485, -49), (8148002976133035, -36));
  ((-7461270568635661, -58), (4031022899746061, -56), (-368521283869061, -52))]). exact I. Qed.
Example fsub_1 : True.
Proof. agrees (forallb (ok3 fsub) [((-1270520477187071, -51), (3372646668606561, -55), (-1481310893974981, -51));
  ((1649010747453961, -42), (-4377239614819395, -73), (103063171843267, -38));
  ((-2009376530631501, -59), (-294097614356945, -67), (-8032910847301677, -61));
  ((1675896424989225, -62), (333747342012549, -50), (-2666705500895335, -53));
  ((41590057352021, -53), (2391444955465101, -58), (-1060563120200429, -58));
  ((-2439653398058249, -49), (96820995371215, -47), (-2826937379543109, -49));
  ((-5201700268180847, -36), (6055695942100367, -56), (-5201706043342535, -36));
  ((7527692624444519, -40), (4616250367865667, -60), (7527688222045105, -40));
  ((-5386168088744207, -39), (6297212447277911, -72), (-5386168089477299, -39));
  ((6927795959010747, -73), (-6248080084242643, -73), (6587938021626695, -72));
  ((2702405060875375, -46), (-6071293828795583, -75), (2702405072184041, -46));
  ((5036240596140021, -59), (4384327231342535, -42), (-4384288807876073, -42));
  ((-4513241603134983, -46), (-5299223815277965, -60), (-2256459082090707, -45));
  ((-7729473129670697, -73), (2198792243499465, -49), (-8795170816847861, -51));
  ((-1627151176620375, -54), (-2517385716152343, -35), (2517382612607771, -35));
  ((5835604910562535, -58), (4098257818578625, -43), (-8196159460099721, -44));
  ((-2118701747716861, -68), (-6799569396743537, -66), (3134946979907161, -65));
  ((6192290842998253, -34), (-6490498331861649, -35), (4718770004464539, -33));
  ((225054716158473, -29), (2481634118817117, -55), (7201749733735775, -34));
  ((505156871160455, -51), (5567728163186559, -69), (4041085055704441, -54))]). exact I. Qed.
Example fsub_2 : True.
Proof. agrees (forallb (ok3 fsub) [((6444508585187225, -50), (-7740563497776825, -48), (292240332627301, -43));
  ((-445887999387449, -39), (-5319882036577105, -76), (-1783551997394967, -41));
  ((-4117672099322629, -37), (-6543183308767559, -43), (-3921323105589, -27));
  ((-4340757637797339, -37), (5333810676948775, -50), (-2170704368866745, -36));
  ((-3990492257402073, -40), (-7516944309527415, -50), (-248946968217175, -36));
  ((2983009834044055, -38), (2800410204676053, -48), (2980275058453551, -38));
  ((-2201705471733077, -66), (1205769338275025, -48), (-4823110948459471, -50));
  ((-2104719939726683, -58), (1772338917161389, -72), (-526207028677355, -56));
  ((5030295649064633, -67), (8485859331360321, -74), (1240999968259595, -65));
  ((28144214791243, -25), (8892651912866309, -38), (432938975892571, -29));
  ((7123728845943009, -75), (-2257139519927783, -39), (2257139520031447, -39));
  ((4843061905077429, -39), (6513949298815231, -36), (-738570820085069, -33));
  ((4458415577486623, -63), (-2316354960363921, -72), (557867463533573, -60));
  ((467363040221355, -47), (8746744035034501, -60), (7460725159098253, -51));
  ((7599814231516327, -34), (1822520259456765, -49), (7599758612611925, -34));
  ((-6932516107616369, -63), (-1905636160523579, -68), (-6872964977600007, -63));
  ((66826162776593, -51), (-8545579206647379, -44), (8546101286044071, -44));
  ((1716270060388215, -1060), (167, -8), (-167, -8));
  ((1431646335175329, -1052), (17, -6), (-17, -6));
  ((1538743580230881, -1064), (275, 0), (-275, 0))]). exact I. Qed.
Example fsub_3 : True.
Proof. agrees (forallb (ok3 fsub) [((6712112383195981, -1071), (99, -3), (-99, -3));
  ((2014465416982459, -1049), (59, -1070), (2014465416982459, -1049));
  ((3478387250462701, -1066), (821, 0), (-821, 0));
  ((2785843743626669, -1050), (81, 0), (-81, 0));
  ((4116152704624635, -1064), (431, -1073), (2058076352312317, -1063));
  ((21584522715243, -1072), (57, -6), (-57, -6));
  ((111719285737661, -1049), (891, -10), (-891, -10))]). exact I. Qed.
Example fmul_0 : True.
Proof. agrees (forallb (ok3 fmul) [((3602879701896397, -55), (3602879701896397, -54), (1441151880758559, -56));
  ((1, 0), (3, 0), (3, 0));
  ((1, 0), (1, -53), (1, -53));
  ((1, 0), (1, -54), (1, -54));
  ((1, 0), (3, -53), (3, -53));
  ((4503599627370497, -52), (1, -53), (4503599627370497, -105));
  ((1, -1074), (3, 0), (3, -1074));
  ((1, -1074), (2, 0), (1, -1073));
  ((1, -1022), (3, 0), (3, -1022));
  ((3, -1023), (5, -1074), (0, 0));
  ((-3602879701896397, -55), (5404319552844595, -54), (-1080863910568919, -55));
  ((10000000000000000, 0), (1, 0), (10000000000000000, 0));
  ((10000000000000000, 0), (-3, 0), (-30000000000000000, 0));
  ((17521, -1), (168, 0), (1471764, 0));
  ((2448832297382707, -49), (100, 0), (7652600929320959, -44));
  ((9007199254740991, 0), (2, 0), (18014398509481982, 0));
  ((-827136579392367, -51), (7478623977108651, -73), (-2747066332181531, -73));
  ((4854997455921521, -73), (423129145451023, -69), (7298307468385317, -94));
  ((-570908854010611, -72), (-6870706082047795, -64), (3483921538412497, -86));
  ((6065824098210811, -42), (6228639680993187, -66), (8389252109895067, -56))]). exact I. Qed.
Example fmul_1 : True.
Proof. agrees (forallb (ok3 fmul) [((-1109219018224353, -35), (-6964582822224359, -60), (6861398312105657, -45));
  ((526662933404393, -50), (391099970529809, -69), (5854242821601499, -74));
  ((8469454164242151, -59), (-14256073131165, -63), (-6863340214891085, -78));
  ((2930887751547303, -62), (6226050545120401, -37), (8103675634178039, -48));
  ((-8360840436524463, -40), (8819410856161181, -48), (-8186527779287549, -35));
  ((-481027708147135, -48), (-5202040237697587, -61), (8890046008605337, -61));
  ((-4751690542000217, -70), (-1113809004710107, -68), (146895709853703, -83));
  ((6158978559032555, -44), (1386948656911079, -76), (3793493093160165, -69));
  ((-5628155409314687, -56), (8105052980329937, -34), (-5064448613148593, -37));
  ((345366501092225, -42), (1797099737019873, -54), (8820081352046021, -50));
  ((-3000181838982569, -70), (-236811206961105, -46), (5048240456007489, -69));
  ((-2798798254922941, -55), (2365835646887301, -72), (-2940535228620551, -76));
  ((-4554821275835285, -61), (-6605014103792157, -67), (1670034042563753, -74));
  ((-3176059929519779, -72), (6546932339856367, -43), (-4617073271683253, -63));
  ((4687819311741621, -56), (-4388576264909033, -38), (-4568090920129881, -42));
  ((4480005743352281, -63), (-7809987081699017, -70), (-3884535691058701, -80));
  ((-4319128788538769, -48), (-1608455992727107, -54), (3085144843277977, -51));
  ((-66252405516349, -50), (-2419023136445105, -35), (2277518288297977, -39));
  ((5744364790496081, -73), (8308099975988585, -64), (2649256202080239, -83));
  ((-1334348721802303, -67), (461062032248951, -43), (-273211468294825, -59))]). exact I. Qed.
Example fmul_2 : True.
Proof. agrees (forallb (ok3 fmul) [((1617521247884251, -42), (1314201251072839, -68), (7552175587500125, -62));
  ((4687485028732387, -44), (-4963618543803303, -60), (-161446464616691, -47));
  ((-5097458642672819, -60), (-6692659893537703, -59), (7575175379589075, -67));
  ((-2714109534869127, -70), (-3021497793560071, -49), (7283663424473213, -69));
  ((1240998661909439, -34), (4709512955493149, -56), (5190958130907011, -40));
  ((-2756688186518265, -65), (-1220660483237027, -48), (5977405830551399, -64));
  ((-17090473240315, -44), (-8009072090409981, -57), (60786412455063, -50));
  ((880679503254915, -51), (-1801809071459981, -58), (-1409376009687669, -59));
  ((585946415373427, -60), (1780125002393007, -52), (7411371882915287, -65));
  ((329419177928125, -65), (7976220504377051, -40), (4667413125370499, -56));
  ((4028564538831079, -49), (-8398157140637195, -40), (-1878082025913553, -35));
  ((-6441979836825369, -63), (-5195030782630403, -66), (3715503854961019, -76));
  ((6820913756575253, -60), (-4286465849001183, -60), (-50719175173183, -61));
  ((-1658291263131989, -51), (-486368849440907, -29), (2865410002383633, -32));
  ((978265725192125, -46), (-5339947136986847, -37), (-4639743929903561, -33));
  ((3595703887516159, -52), (-6617283475646273, -43), (-1320820781535045, -41));
  ((102380565473183, -1048), (381, 0), (1218968607665085, -1043));
  ((700108404166421, -1056), (47, -1074), (0, 0));
  ((680904983501803, -1071), (691, -10), (3675822996873015, -1074));
  ((6737450641327769, -1054), (120, 0), (6316359976244783, -1047))]). exact I. Qed.
Example fmul_3 : True.
Proof. agrees (forallb (ok3 fmul) [((4139372305797933, -1064), (329, -1074), (0, 0));
  ((1233000367599387, -1060), (149, -10), (2870578980817323, -1064));
  ((3198519830761287, -1068), (75, -1), (3748265426673383, -1063));
  ((1172322404124483, -1045), (580, 0), (664010736711133, -1035));
  ((242988376317381, -1046), (567, -10), (8610900585747189, -1052));
  ((8976043215987809, -1046), (143, -9), (2506980820090345, -1046))]). exact I. Qed.
Example fdiv_0 : True.
Proof. agrees (forallb (ok3 fdiv) [((3602879701896397, -55), (3602879701896397, -54), (1, -1));
  ((1, 0), (3, 0), (6004799503160661, -54));
  ((1, 0), (1, -53), (9007199254740992, 0));
  ((1, 0), (1, -54), (18014398509481984, 0));
  ((1, 0), (3, -53), (6004799503160661, -1));
  ((4503599627370497, -52), (1, -53), (9007199254740994, 0));
  ((1, -1074), (3, 0), (0, 0));
  ((1, -1074), (2, 0), (0, 0));
  ((1, -1022), (3, 0), (1501199875790165, -1074));
  ((3, -1023), (5, -1074), (5404319552844595, -2));
  ((-3602879701896397, -55), (5404319552844595, -54), (-3002399751580331, -53));
  ((10000000000000000, 0), (1, 0), (10000000000000000, 0));
  ((10000000000000000, 0), (-3, 0), (-6666666666666667, -1));
  ((17521, -1), (168, 0), (7338873611528875, -47));
  ((2448832297382707, -49), (100, 0), (3134505340649865, -56));
  ((9007199254740991, 0), (2, 0), (9007199254740991, -1));
  ((1152921504606846848, 964), (3, 0), (768614336404564608, 963));
  ((1341560874301043, -37), (-2663909334339205, -56), (-567010011913161, -31));
  ((-8484408707148739, -60), (-1912571301639075, -49), (624329336428329, -58));
  ((-3061713725712341, -42), (-4631914144180629, -69), (5953794636524903, -26))]). exact I. Qed.
Example fdiv_1 : True.
Proof. agrees (forallb (ok3 fdiv) [((3645795717883143, -75), (4380034947183159, -42), (7497293713186839, -86));
  ((2306567028976325, -50), (348140687321795, -65), (58277526550869, -28));
  ((-7441410062602303, -34), (-2144499520124527, -38), (3906870958765795, -46));
  ((4693152111070283, -43), (149072424469205, -48), (4430748630629415, -42));
  ((-7930299154005865, -71), (-6093295144279363, -80), (5861342913685707, -43));
  ((50113473628643, -49), (7452717091152373, -43), (7752461378897841, -66));
  ((-3182278236200245, -50), (-359826285983967, -49), (4978689591683711, -50));
  ((731783247815437, -39), (5580285395919581, -66), (4724717147388091, -28));
  ((-1582271754858755, -48), (-4273906228893189, -52), (6669232410769241, -50));
  ((397456191601159, -64), (1535678529987307, -34), (4662391305049687, -84));
  ((-8293834221185627, -71), (-1738780547309297, -44), (5370446081566383, -77));
  ((-5765492909151125, -43), (5213395764021143, -67), (-1245132390315253, -26));
  ((708368728663333, -41), (7945568458450333, -36), (3212063840750095, -60));
  ((1753471324575239, -58), (2055670888952603, -52), (3841535552408153, -58));
  ((-668873057510857, -57), (520779686762605, -40), (-180758805566735, -64));
  ((7889608853381383, -43), (4922950818493583, -62), (7217549149325039, -33));
  ((-4228442412886401, -65), (-4201949195161933, -32), (4531994745904803, -85));
  ((6084566556665359, -46), (-4931366993757557, -56), (-5556765844439663, -42));
  ((-3574775471652347, -47), (5287641460691431, -59), (-6089428567254441, -41));
  ((-1935625326572853, -55), (201572665742045, -50), (-1351448351670051, -52))]). exact I. Qed.
Example fdiv_2 : True.
Proof. agrees (forallb (ok3 fdiv) [((689994251027925, -68), (8515020626929981, -70), (5839014114872467, -54));
  ((-2314535109997033, -71), (3391497472173027, -36), (-6146983475261025, -88));
  ((-1374320263216187, -64), (-6272369786064231, -61), (7894162412502585, -58));
  ((-4995212253777903, -33), (-8038261224323521, -63), (5597338881368325, -23));
  ((2439962337402107, -61), (6049338166372235, -38), (7265993846802585, -77));
  ((3014646450756019, -49), (2638879675102679, -49), (5144895676893765, -52));
  ((-5953672668001659, -68), (-7763238909469015, -61), (3453836513570869, -59));
  ((4652815772759703, -44), (-1875762375870921, -52), (-5585574071101351, -43));
  ((4527943512682011, -68), (3310331295325119, -33), (6160122023214775, -87));
  ((4818577769085615, -51), (-8847719919231317, -37), (-38323688976179, -60));
  ((-1143723189408147, -40), (-4925960459611823, -38), (8365266220654035, -57));
  ((-1414495472763437, -52), (8271581170212227, -44), (-3080582129566999, -62));
  ((2372287999560157, -65), (1759978650286469, -71), (6070434632315359, -46));
  ((-3040125005892455, -32), (-5510943258322555, -62), (4968842973667077, -23));
  ((-7130962015860091, -47), (37559487666319, -53), (-6680027777437949, -39));
  ((-1737128311196135, -64), (-3138099283912479, -59), (4986031165491859, -58));
  ((-4656399396653351, -34), (-6793426385504603, -74), (6173779591518627, -13));
  ((3220525348525443, -1045), (271, 0), (6084534975811907, -1054));
  ((24213222912973, -1067), (85, -8), (2333584965918527, -1072));
  ((5140954192734243, -1074), (219, -1074), (6009517229862859, -8))]). exact I. Qed.
Example fdiv_3 : True.
Proof. agrees (forallb (ok3 fdiv) [((4410770736926717, -1074), (473, -10), (4774449508047525, -1073));
  ((7744367171442301, -1058), (83, -1), (5971560228582015, -1063));
  ((3715514602350227, -1053), (489, -1073), (995909877217278080, 3));
  ((5094217750655035, -1050), (177, -2), (3683954079569743, -1055));
  ((1795929484141015, -1061), (983, -3), (7483344015301727, -1070));
  ((1113224241536393, -1064), (909, -3), (5016244767143087, -1073));
  ((139262869915613, -1053), (205, -1074), (712330258949433216, 1))]). exact I. Qed.
Example draws : True.
Proof. agrees (forallb (fun p => qeqb (frand_of (fst p)) (me (snd p))) [(1, (2251799875061255, -82));
  (64, (2251799875061255, -76));
  (65539, (4503805908558337, -67));
  (123456, (8483831951158517, -67));
  (2147483584, (9007199231809557, -53));
  (2147483589, (9007199252781077, -53));
  (2147483590, (4503599628487691, -52));
  (2147483647, (2251799874012679, -51));
  (1799495960, (1886908327183329, -51));
  (1535655885, (6441007796637865, -53));
  (1353959645, (2839459254824539, -52));
  (358021668, (3003303510217451, -54));
  (867031294, (7273185847339773, -54));
  (195956647, (3287607082963157, -55));
  (1463763805, (3069735274853359, -52));
  (1802142525, (1889683451800409, -51));
  (770432259, (6462854387459757, -54));
  (1213689400, (2545291221964331, -52));
  (51760630, (6947194347804299, -58));
  (1396762292, (2929222914032519, -52));
  (1673297886, (7018320207735639, -53));
  (1520312984, (3188327501923967, -52));
  (1661772897, (6969980898955427, -53));
  (791594864, (415023699368893, -50));
  (2041262286, (8561674804579563, -53));
  (1532964440, (3214859528900447, -52));
  (1523815248, (6391344564152575, -53));
  (797153010, (6687004299173889, -54));
  (1912146119, (2005030583526503, -51));
  (1647222694, (3454476461324155, -52));
  (1561652166, (1637511026248307, -51));
  (1291566442, (5417222441600467, -53));
  (1084259890, (4547715717621017, -53));
  (407427003, (3417745509937337, -54));
  (1530617155, (1604968457666977, -51));
  (650973423, (5460761012805989, -54));
  (189178895, (793473817641337, -53));
  (85888749, (5763896532874331, -57));
  (1952943649, (1023904947754897, -50));
  (831352902, (3486946897311903, -53));
  (2086559386, (8751664617476405, -53));
  (793953558, (6660165349799539, -54));
  (1168509293, (2450541667626533, -52));
  (1821599627, (3820171405086507, -52));
  (1940054122, (8137176985911415, -53));
  (1290827961, (5414125027703819, -53));
  (1531574127, (6423887662264799, -53));
  (1265420967, (331722523014817, -49))]). exact I. Qed.
Example literals : True.
Proof. agrees (forallb (fun p => qeqb (fl (fst p)) (me (snd p))) [(qq 1 10, (3602879701896397, -55));
  (qq 2 10, (3602879701896397, -54));
  (qq 1 1000, (1152921504606847, -60));
  (qq 4656613 10000000000000000, (2251799875061255, -82));
  (qq 668 10000, (2406723640866793, -55));
  (qq 2417 10000, (8708160239483591, -55));
  (qq 383 1000, (431219664320725, -50))]). exact I. Qed.
Example scaling : True.
Proof. agrees (veq (frescale (map me [(2924598560018127, -46); (6081752450115385, -46); (3127719728058679, -47); (628146642841061, -43); (1298068522343285, -44); (2964472515531445, -45); (6094856689268369, -47); (6979641103464857, -47); (6979866668526919, -49); (8807958491862913, -47); (5566336826823485, -46); (3785618390676127, -46); (7210049478799225, -47); (8002924041438703, -47); (3855228844244553, -47); (4912006351294389, -46); (3026609848206255, -45); (5464558925969121, -47); (191826502775679, -41); (7258716191529019, -50); (356034937466235, -42); (2834340772770065, -46); (9003694879638569, -48); (5876807609932069, -48)]) (me (2850, 0))) (map me [(1492974399855555, -40); (6209331317064445, -41); (3193330905480473, -42); (2565293903751637, -40); (5301194084168163, -41); (3026659203946551, -40); (6222710448034727, -42); (7126055267966775, -42); (7126285564779311, -44); (8992725855175259, -42); (2841551827670037, -40); (7730061037665029, -42); (920162124188457, -39); (4085401969760419, -41); (3936101213156695, -42); (2507523540039273, -40); (3090100011329171, -40); (5579190726896547, -42); (2850, 0); (1852746150860217, -43); (2908028770077587, -40); (5787595291965527, -42); (4596284133890707, -42); (750010910424789, -40)])). exact I. Qed.
