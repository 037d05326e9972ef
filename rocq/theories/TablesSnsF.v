(* Generated by tools/gen_tables.py from /repo/src/tables/spec_noise_shape_quant_tables.rs. Do not edit. (m, e) stands for m * 10^e. *)
From Coq Require Import ZArith List.
Import ListNotations.
Local Open Scope Z_scope.

(* /repo/src/tables/spec_noise_shape_quant_tables.rs:8 *)
Definition LFCB : list (list (Z * Z)) := [
  [(2262833655926780, -15); (8133112690613385, -16); (-5301934948714359, -16); (-1356648359034418, -15); (-1599521765631959, -15); (-1440987684300950, -15); (-1143816483058210, -15); (-7552037679090641, -16)];
  [(2945164791913764, -15); (2411433179566788, -15); (9604551064007274, -16); (-4432264880769172, -16); (-1229136124255896, -15); (-1555900391181699, -15); (-1496886559523759, -15); (-1116899865014692, -15)];
  [(-2186107070099790, -15); (-1971521356752276, -15); (-1787186196810059, -15); (-1918658956855768, -15); (-1793991218365963, -15); (-1357384042572884, -15); (-7054442793538694, -16); (-4781729447777114, -17)];
  [(6936882365289195, -16); (9556098571582197, -16); (5752307870387333, -16); (-1146034194628886, -16); (-6460506374360290, -16); (-9523513704496247, -16); (-1074052472261504, -15); (-7580877070949045, -16)];
  [(-1297521323152956, -15); (-7403690571778526, -16); (-3453724836421064, -16); (-3132856962479401, -16); (-4029772428244766, -16); (-3720208534652272, -16); (-7834141773237381, -17); (9704413039922949, -17)];
  [(9146520378306716, -16); (1742930434352573, -15); (1909066268599861, -15); (1544084838426651, -15); (1093449607614550, -15); (6474795495182776, -16); (3617907524496421, -17); (-2970928071788889, -16)];
  [(-2514288125789621, -15); (-2891752713843728, -15); (-2004506667594338, -15); (-7509122739031269, -16); (4412021049046914, -16); (1201909876010087, -15); (1327428572572904, -15); (1220490811409839, -15)];
  [(-9221884048123851, -16); (6324951414405520, -16); (1087364312546411, -15); (6086286245358197, -16); (1311745675473482, -16); (-2961491577437521, -16); (-2070135165256287, -16); (1349249166420795, -16)];
  [(7903222883692664, -16); (6284012618761988, -16); (3931179235404499, -16); (4800077108669007, -16); (4478151380501427, -16); (2097342145522343, -16); (6566919964280205, -18); (-8612423420618573, -17)];
  [(1447755801787238, -15); (2723999516749523, -15); (2310832687375278, -15); (9350512695665294, -16); (-2747439113836877, -16); (-9020776968286019, -16); (-9406815119454044, -16); (-6336970389743102, -16)];
  [(7933545264174744, -16); (1439311855234535, -17); (-5678348447296789, -16); (-6547604679167449, -16); (-4794589984757430, -16); (-1738946619028885, -16); (6801627055154381, -17); (2951259483697938, -16)];
  [(2724253473850336, -15); (2959475724048243, -15); (1849535592684608, -15); (5632849223223643, -16); (1399170881250724, -16); (3596410933662221, -16); (6894613547745887, -16); (6397901768331046, -16)];
  [(-5308301983754000, -16); (-2126906828121638, -16); (5766136283770966, -18); (4248714843837454, -16); (4731289521586675, -16); (8588941993212806, -16); (1191111608544352, -15); (9961896696383581, -16)];
  [(1687284108450062, -15); (2436145092376558, -15); (2330194290782250, -15); (1779837778350905, -15); (1444112953900818, -15); (1519951770097301, -15); (1471993937504249, -15); (9776824738917613, -16)];
  [(-2951832728018580, -15); (-1593934967733454, -15); (-1099187728780224, -16); (3886090729192574, -16); (5129326495175837, -16); (6281125970634966, -16); (8226217964306339, -16); (8758914246550805, -16)];
  [(1018783427856281, -16); (5898573242289165, -16); (6190476467934656, -16); (1267313138517963, -15); (2419610477698038, -15); (2251742525721865, -15); (5265370309912005, -16); (-3965915132279989, -16)];
  [(2682545754984259, -15); (1327380108994199, -15); (1301852738040482, -16); (-3385330885113471, -16); (-3682192358996665, -16); (-1916899467159607, -16); (-1547823771539079, -16); (-2342071777743923, -16)];
  [(4826979236804030, -15); (3119478044924880, -15); (1395136713851784, -15); (2502953159187215, -16); (-3936138393797931, -16); (-6434581730547007, -16); (-6425707368569433, -16); (-7231932234440720, -16)];
  [(8784199364703349, -17); (-5695868402385010, -16); (-1145060156688110, -15); (-1669684881725975, -15); (-1845344176036817, -15); (-1564680273288019, -15); (-1117467590764198, -15); (-5339816633667862, -16)];
  [(1391023082043259, -15); (1981464791994655, -15); (1112657963887701, -15); (-2201075094207434, -16); (-7749656115523655, -16); (-5940638741491173, -16); (1369376806289231, -16); (8182428912643381, -16)];
  [(3845858938891820, -16); (-1605887855365100, -16); (-5393668095577095, -16); (-5293090787898571, -16); (1904335474379324, -16); (2560629181065215, -15); (2818963982452484, -15); (6566708756961611, -16)];
  [(1932273994417191, -15); (3010301804120569, -15); (3065438938262036, -15); (2501101608700079, -15); (1930895929789344, -15); (5721538109618367, -16); (-8117417940810907, -16); (-1176418108619025, -15)];
  [(1750804628998837, -16); (-7505228322489846, -16); (-1039438933422309, -15); (-1135775089376484, -15); (-1041979038374938, -15); (-1520600989933816, -17); (2070483917167066, -15); (3429489180816891, -15)];
  [(-1188170202505555, -15); (3667928736626364, -16); (1309578304090959, -15); (1683306872804914, -15); (1251009242251268, -15); (9423757516286146, -16); (8262504833741330, -16); (4399527411209563, -16)];
  [(2533222033270612, -15); (2112746426959081, -15); (1262884115020644, -15); (7615135124304274, -16); (5221179379761699, -16); (1186800697571213, -16); (-4523468275073703, -16); (-7003524261611032, -16)];
  [(3998898374856063, -15); (4079017514519560, -15); (2822856611024964, -15); (1726072128495800, -15); (6471443773486192, -16); (-3311485212172380, -16); (-8840425708487493, -16); (-1126973406454781, -15)];
  [(5079025931863813, -16); (1588384497895265, -15); (1728990238692094, -15); (1006922302417256, -15); (3771212318163816, -16); (4763707668994976, -16); (1087547403721699, -15); (1087562660992209, -15)];
  [(3168568251075689, -15); (3258534581594065, -15); (2422305913285988, -15); (1794460776432612, -15); (1521779106530886, -15); (1171967065376021, -15); (4893945969806952, -16); (-6227957157187685, -17)];
  [(1894147667317636, -15); (1251086946092320, -15); (5904512107206275, -16); (6083585832937136, -16); (8781710100110816, -16); (1119125109509496, -15); (1018576615503421, -15); (6204538910117241, -16)];
  [(9488806045171881, -16); (2132394392499823, -15); (2723453503442780, -15); (2769860768665877, -15); (2542869732549456, -15); (2020462638250194, -15); (8300458594009102, -16); (-2755691738882634, -17)];
  [(-1880267570456275, -15); (-1264310727587049, -15); (3114249769686986, -16); (1836702103064300, -15); (2256341918398738, -15); (2048189984634735, -15); (2195268374585677, -15); (2026596138366193, -15)];
  [(2463757462771289, -16); (9556217733930993, -16); (1520467767417663, -15); (1976474004194571, -15); (1940438671774617, -15); (2233758472826862, -15); (1988359777584072, -15); (1272326725547010, -15)]].

(* /repo/src/tables/spec_noise_shape_quant_tables.rs:141 *)
Definition HFCB : list (list (Z * Z)) := [
  [(2320284191244650, -16); (-1008902706044547, -15); (-2142235027894714, -15); (-2375338135706641, -15); (-2230419330496551, -15); (-2175958812236960, -15); (-2290659135409999, -15); (-2532863979798455, -15)];
  [(-1295039366736175, -15); (-1799299653843385, -15); (-1887031475315188, -15); (-1809916596873323, -15); (-1763400384792061, -15); (-1834184284679500, -15); (-1804809806874051, -15); (-1736795453174010, -15)];
  [(1392857160458027, -16); (-2581851261717519, -16); (-6508045726701103, -16); (-1068157317819692, -15); (-1619287415243023, -15); (-2187625664417564, -15); (-2637575869390537, -15); (-2978977495750963, -15)];
  [(-3165131021857248, -16); (-4777476572098050, -16); (-5511620758797545, -16); (-4847882833811970, -16); (-2383883944558142, -16); (-1430245072855038, -16); (6831866736490735, -17); (8830617172880660, -17)];
  [(8795184052264962, -16); (2983400960071886, -16); (-9153863964057101, -16); (-2206459747397620, -15); (-2741421809599509, -15); (-2861390742768913, -15); (-2888415971052714, -15); (-2951826082625207, -15)];
  [(-2967019224553751, -16); (-9750049191745525, -16); (-1358575002469926, -15); (-9837211058374442, -16); (-6529569391008090, -16); (-9899869929218105, -16); (-1614672245988999, -15); (-2407123023851163, -15)];
  [(3409811004696971, -16); (2688997889460545, -16); (5633356848280326, -17); (4991140468266853, -17); (-9541307274143691, -17); (-7601661460838854, -16); (-2327581201770068, -15); (-3771554853856562, -15)];
  [(-1412297590775968, -15); (-1485221193498518, -15); (-1186035798347001, -15); (-6250016344413516, -16); (1539024974683036, -16); (5763864978107553, -16); (7950926037988714, -16); (5965646321449126, -16)];
  [(-2288395118273794, -16); (-3337190697846616, -16); (-8093213593246560, -16); (-1635878769237973, -15); (-1884863973309819, -15); (-1644966913163562, -15); (-1405157780466116, -15); (-1466664713261457, -15)];
  [(-1071486285444486, -15); (-1417670154562606, -15); (-1548917622654407, -15); (-1452960624755303, -15); (-1031829700622701, -15); (-6906426402725842, -16); (-4288438045321706, -16); (-4949602154088736, -16)];
  [(-5909885111880511, -16); (-7117377585376282, -17); (3457195229473127, -16); (3005494609962507, -16); (-1118652182958568, -15); (-2440891511480490, -15); (-2228547324507349, -15); (-1895092282108533, -15)];
  [(-8484340988361639, -16); (-5832268107088888, -16); (9004236881428734, -17); (8450250075568864, -16); (1065723845017161, -15); (7375829993777555, -16); (2565904524599121, -16); (-4919633597623784, -16)];
  [(1140691455623824, -15); (9640168923982929, -16); (3814612059847975, -16); (-4828493406089983, -16); (-1816327212605887, -15); (-2802795127285548, -15); (-3233857248338638, -15); (-3459087144914729, -15)];
  [(-3762832379674643, -16); (4256754620961052, -17); (5165476965923055, -16); (2517168818646298, -16); (-2161799675243032, -16); (-5340740911245042, -16); (-6407860962621957, -16); (-8697450323741350, -16)];
  [(6650041205984020, -16); (1097907646907945, -15); (1383426671120792, -15); (1343273586282854, -15); (8229788368559223, -16); (2158767985156789, -16); (-4049257530802925, -16); (-1070256058705229, -15)];
  [(-8262659539826793, -16); (-6711812327666034, -16); (-2284955927794715, -16); (5189808525519373, -16); (1367218963402784, -15); (2180230382530922, -15); (2535960927501071, -15); (2201210988600361, -15)];
  [(1410083268321729, -15); (7544419078354684, -16); (-1305505849586310, -15); (-1871337113509707, -15); (-1240086851563054, -15); (-1267129248662737, -15); (-2036708130039070, -15); (-2896851622423807, -15)];
  [(3613868175743476, -16); (-2199917054278258, -17); (-5793688336338242, -16); (-8794279609410701, -16); (-8506850234081188, -16); (-7793970501558157, -16); (-7321829272918255, -16); (-8883485148212548, -16)];
  [(4374692393303287, -16); (3054404196059607, -16); (-7387865664783739, -18); (-4956498547102520, -16); (-8066512711183929, -16); (-1224318919844005, -15); (-1701577700431810, -15); (-2244919137556108, -15)];
  [(6481003189965029, -16); (6822991336406795, -16); (2532474643329756, -16); (7358421437884688, -17); (3142167093890103, -16); (2347298809236790, -16); (1446001344798368, -16); (-6821201788801744, -17)];
  [(1119198330913041, -15); (1234655325360046, -15); (5891702380853181, -16); (-1371924596531664, -15); (-2370957072415767, -15); (-2007797826823599, -15); (-1666885402243946, -15); (-1926318462584058, -15)];
  [(1418474970871759, -16); (-1106600706331509, -16); (-2828245925436287, -16); (-6598134746141936, -18); (2859292796272158, -16); (4604455299529710, -17); (-6025964155778858, -16); (-2265687286325748, -15)];
  [(5040469553902519, -16); (8269821629590972, -16); (1119812362918282, -15); (1179140443327336, -15); (1079874291972597, -15); (6975362390675000, -16); (-9125488173710808, -16); (-3576847470627726, -15)];
  [(-5010760504793567, -16); (-3256780060814170, -16); (2807981949470768, -17); (2620545547631326, -16); (3605908060857668, -16); (6356237220536995, -16); (9590124671781544, -16); (1307451566886533, -15)];
  [(3749709827096420, -15); (1523426118470452, -15); (-4577156618978547, -16); (-7987110082431923, -16); (-3868193293091003, -16); (-3759010622312032, -16); (-6578368999305377, -16); (-1281639642436027, -15)];
  [(-1152589909805491, -15); (-1108008859062412, -15); (-5626151165124718, -16); (-2205621237656746, -16); (-3498428803366437, -16); (-7534327702504950, -16); (-9885965933963837, -16); (-1287904717914711, -15)];
  [(1028272464221398, -15); (1097705193898282, -15); (7686455457647760, -16); (2060819777407656, -16); (-3428057350919982, -16); (-7549394046253397, -16); (-1041961776319998, -15); (-1503356529555287, -15)];
  [(1288319717078174, -16); (6894393952648783, -16); (1123469050095749, -15); (1309345231065936, -15); (1355119647139345, -15); (1423113814707990, -15); (1157064491909045, -15); (4063194375168383, -16)];
  [(1340330303347565, -15); (1389968250677893, -15); (1044679217088833, -15); (6358227462443666, -16); (-2747337555184823, -16); (-1549233724306950, -15); (-2442397102780069, -15); (-3024576069445502, -15)];
  [(2138431054193125, -15); (4247112673031041, -15); (2897341098304393, -15); (9327306580268148, -16); (-2928222497298096, -16); (-8104042968531823, -16); (-7888680987564828, -16); (-9353531487613377, -16)];
  [(5648304873553961, -16); (1591849779587432, -15); (2397716990151462, -15); (3036973436007040, -15); (2664243503371508, -15); (1393044850326060, -15); (4038340235957454, -16); (-6562709713281135, -16)];
  [(-4224605475860865, -16); (3261496250498011, -16); (1391713133422612, -15); (2231466146364735, -15); (2611794421696881, -15); (2665403401965702, -15); (2401035541057067, -15); (1759203796708810, -15)]].

(* /repo/src/tables/spec_noise_shape_quant_tables.rs:272 *)
Definition SNS_VQ_REG_ADJ_GAINS : list (Z * Z) := [
  (2176513671875, -12); (294287109375, -11)].

(* /repo/src/tables/spec_noise_shape_quant_tables.rs:273 *)
Definition SNS_VQ_REG_LF_ADJ_GAINS : list (Z * Z) := [
  (1524658203125, -12); (3672607421875, -12); (4360595703125, -12); (513037109375, -11)].

(* /repo/src/tables/spec_noise_shape_quant_tables.rs:275 *)
Definition SNS_VQ_NEAR_ADJ_GAINS : list (Z * Z) := [
  (1733154296875, -12); (22294921875, -10); (2747314453125, -12); (3615234375, -9)].

(* /repo/src/tables/spec_noise_shape_quant_tables.rs:276 *)
Definition SNS_VQ_FAR_ADJ_GAINS : list (Z * Z) := [
  (105859375, -8); (1237060546875, -12); (1439208984375, -12); (1989501953125, -12); (2498779296875, -12); (3131103515625, -12); (41181640625, -10); (485400390625, -11)].

(* /repo/src/tables/spec_noise_shape_quant_tables.rs:310 *)
Definition D : list (list (Z * Z)) := [
  [(2500000000000000, -16); (3518509343815957, -16); (3467599613305369, -16); (3383295002935882, -16); (3266407412190941, -16); (3118062532466678, -16); (2939689006048397, -16); (2733004667504394, -16); (2500000000000001, -16); (2242918965856591, -16); (1964237395967756, -16); (1666639146194367, -16); (1352990250365493, -16); (1026311318805893, -16); (6897484482073578, -17); (3465429229977293, -17)];
  [(2500000000000000, -16); (3383295002935882, -16); (2939689006048397, -16); (2242918965856591, -16); (1352990250365493, -16); (3465429229977286, -17); (-6897484482073579, -17); (-1666639146194366, -16); (-2500000000000001, -16); (-3118062532466678, -16); (-3467599613305369, -16); (-3518509343815956, -16); (-3266407412190941, -16); (-2733004667504394, -16); (-1964237395967756, -16); (-1026311318805893, -16)];
  [(2500000000000000, -16); (3118062532466678, -16); (1964237395967756, -16); (3465429229977286, -17); (-1352990250365493, -16); (-2733004667504394, -16); (-3467599613305369, -16); (-3383295002935882, -16); (-2500000000000001, -16); (-1026311318805894, -16); (6897484482073574, -17); (2242918965856590, -16); (3266407412190941, -16); (3518509343815957, -16); (2939689006048397, -16); (1666639146194367, -16)];
  [(2500000000000000, -16); (2733004667504394, -16); (6897484482073575, -17); (-1666639146194366, -16); (-3266407412190941, -16); (-3383295002935882, -16); (-1964237395967755, -16); (3465429229977288, -17); (2500000000000001, -16); (3518509343815957, -16); (2939689006048397, -16); (1026311318805893, -16); (-1352990250365493, -16); (-3118062532466679, -16); (-3467599613305369, -16); (-2242918965856590, -16)];
  [(2500000000000000, -16); (2242918965856591, -16); (-6897484482073575, -17); (-3118062532466678, -16); (-3266407412190941, -16); (-1026311318805894, -16); (1964237395967755, -16); (3518509343815957, -16); (2500000000000001, -16); (-3465429229977282, -17); (-2939689006048397, -16); (-3383295002935882, -16); (-1352990250365493, -16); (1666639146194367, -16); (3467599613305369, -16); (2733004667504394, -16)];
  [(2500000000000000, -16); (1666639146194366, -16); (-1964237395967756, -16); (-3518509343815956, -16); (-1352990250365493, -16); (2242918965856591, -16); (3467599613305369, -16); (1026311318805894, -16); (-2500000000000001, -16); (-3383295002935882, -16); (-6897484482073574, -17); (2733004667504394, -16); (3266407412190941, -16); (3465429229977289, -17); (-2939689006048397, -16); (-3118062532466677, -16)];
  [(2500000000000000, -16); (1026311318805894, -16); (-2939689006048397, -16); (-2733004667504393, -16); (1352990250365493, -16); (3518509343815957, -16); (6897484482073579, -17); (-3118062532466678, -16); (-2500000000000001, -16); (1666639146194366, -16); (3467599613305369, -16); (3465429229977293, -17); (-3266407412190941, -16); (-2242918965856591, -16); (1964237395967756, -16); (3383295002935882, -16)];
  [(2500000000000000, -16); (3465429229977287, -17); (-3467599613305369, -16); (-1026311318805893, -16); (3266407412190941, -16); (1666639146194366, -16); (-2939689006048397, -16); (-2242918965856591, -16); (2500000000000001, -16); (2733004667504393, -16); (-1964237395967756, -16); (-3118062532466678, -16); (1352990250365493, -16); (3383295002935882, -16); (-6897484482073578, -17); (-3518509343815956, -16)];
  [(2500000000000000, -16); (-3465429229977287, -17); (-3467599613305369, -16); (1026311318805893, -16); (3266407412190941, -16); (-1666639146194366, -16); (-2939689006048397, -16); (2242918965856591, -16); (2500000000000001, -16); (-2733004667504393, -16); (-1964237395967756, -16); (3118062532466678, -16); (1352990250365493, -16); (-3383295002935882, -16); (-6897484482073578, -17); (3518509343815956, -16)];
  [(2500000000000000, -16); (-1026311318805894, -16); (-2939689006048397, -16); (2733004667504393, -16); (1352990250365493, -16); (-3518509343815957, -16); (6897484482073579, -17); (3118062532466678, -16); (-2500000000000001, -16); (-1666639146194366, -16); (3467599613305369, -16); (-3465429229977293, -17); (-3266407412190941, -16); (2242918965856591, -16); (1964237395967756, -16); (-3383295002935882, -16)];
  [(2500000000000000, -16); (-1666639146194366, -16); (-1964237395967756, -16); (3518509343815956, -16); (-1352990250365493, -16); (-2242918965856591, -16); (3467599613305369, -16); (-1026311318805894, -16); (-2500000000000001, -16); (3383295002935882, -16); (-6897484482073574, -17); (-2733004667504394, -16); (3266407412190941, -16); (-3465429229977289, -17); (-2939689006048397, -16); (3118062532466677, -16)];
  [(2500000000000000, -16); (-2242918965856591, -16); (-6897484482073575, -17); (3118062532466678, -16); (-3266407412190941, -16); (1026311318805894, -16); (1964237395967755, -16); (-3518509343815957, -16); (2500000000000001, -16); (3465429229977282, -17); (-2939689006048397, -16); (3383295002935882, -16); (-1352990250365493, -16); (-1666639146194367, -16); (3467599613305369, -16); (-2733004667504394, -16)];
  [(2500000000000000, -16); (-2733004667504394, -16); (6897484482073575, -17); (1666639146194366, -16); (-3266407412190941, -16); (3383295002935882, -16); (-1964237395967755, -16); (-3465429229977288, -17); (2500000000000001, -16); (-3518509343815957, -16); (2939689006048397, -16); (-1026311318805893, -16); (-1352990250365493, -16); (3118062532466679, -16); (-3467599613305369, -16); (2242918965856590, -16)];
  [(2500000000000000, -16); (-3118062532466678, -16); (1964237395967756, -16); (-3465429229977286, -17); (-1352990250365493, -16); (2733004667504394, -16); (-3467599613305369, -16); (3383295002935882, -16); (-2500000000000001, -16); (1026311318805894, -16); (6897484482073574, -17); (-2242918965856590, -16); (3266407412190941, -16); (-3518509343815957, -16); (2939689006048397, -16); (-1666639146194367, -16)];
  [(2500000000000000, -16); (-3383295002935882, -16); (2939689006048397, -16); (-2242918965856591, -16); (1352990250365493, -16); (-3465429229977286, -17); (-6897484482073579, -17); (1666639146194366, -16); (-2500000000000001, -16); (3118062532466678, -16); (-3467599613305369, -16); (3518509343815956, -16); (-3266407412190941, -16); (2733004667504394, -16); (-1964237395967756, -16); (1026311318805893, -16)];
  [(2500000000000000, -16); (-3518509343815957, -16); (3467599613305369, -16); (-3383295002935882, -16); (3266407412190941, -16); (-3118062532466678, -16); (2939689006048397, -16); (-2733004667504394, -16); (2500000000000001, -16); (-2242918965856591, -16); (1964237395967756, -16); (-1666639146194367, -16); (1352990250365493, -16); (-1026311318805893, -16); (6897484482073578, -17); (-3465429229977293, -17)]].

