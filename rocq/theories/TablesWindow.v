(* Generated by tools/gen_tables.py from /repo/src/tables/mdct_windows.rs. Do not edit. (m, e) stands for m * 10^e. *)
From Coq Require Import ZArith List.
Import ListNotations.
Local Open Scope Z_scope.

(* /repo/src/tables/mdct_windows.rs:6 *)
Definition W_N80_10MS : list (Z * Z) := [
  (-7078546706512391, -19); (-2098197727900724, -18); (-4525198076002370, -18); (-8233976327300612, -18); (-1337713096257934, -17); (-1999721557401502, -17); (-2800909464274782, -17); (-3721502082245055, -17);
  (-4731768261606175, -17); (-5794654834034055, -17); (-6867606753531441, -17); (-7904647440788692, -17); (-8859705468085925, -17); (-9688303623049199, -17); (-1034961241263523, -16); (-1080766457616878, -16);
  (-1103242262600913, -16); (-1099809851424550, -16); (-1068172142230882, -16); (-1006190418791648, -16); (-9116452506492527, -17); (-7820617483254730, -17); (-6146688124166948, -17); (-4063362855701623, -17);
  (-1536329520788766, -17); (1470155068746303, -17); (4989736509080558, -17); (9050369257152079, -17); (1366911019414417, -16); (1884686389218322, -16); (2456456803467095, -16); (3077789078889820, -16);
  (3741642373060188, -16); (4438114799213576, -16); (5154735456539700, -16); (5876661722564289, -16); (6587619767809000, -16); (7270576699841359, -16); (7908752989295335, -16); (8486643364959733, -16);
  (8991320235484349, -16); (9413348145272842, -16); (9747634827941575, -16); (9994114730415857, -16); (1015760373791603, -15); (1024736164069697, -15); (1027634294456205, -15); (1025991493983836, -15);
  (1021427210603284, -15); (1015439859549357, -15); (1009366925499550, -15); (1003508162416449, -15); (9988898206257559, -16); (9953133902427869, -16); (9925943919208190, -16); (9905771957917731, -16);
  (9891371616557014, -16); (9881790747212391, -16); (9876249269174586, -16); (9874056275509585, -16); (9874524849192456, -16); (9876951134084213, -16); (9880640617030884, -16); (9884926873551375, -16);
  (9889230031022089, -16); (9893074965384659, -16); (9896146331889107, -16); (9898319269347060, -16); (9899693102025342, -16); (9900603352632121, -16); (9901575015155720, -16); (9903255289051605, -16);
  (9906303787150326, -16); (9911298894709990, -16); (9918665491182922, -16); (9928619727154252, -16); (9941156069136238, -16); (9956033775539884, -16); (9972793109558521, -16); (9990784840729244, -16);
  (1000922365901945, -15); (1002728111386909, -15); (1004416038098237, -15); (1005919224127911, -15); (1007189345025525, -15); (1008200146369426, -15); (1008949493525753, -15); (1009458241425143, -15);
  (1009768980817384, -15); (1009940336228694, -15); (1010039453539107, -15); (1010132323996401, -15); (1010272524848519, -15); (1010494354532353, -15); (1010808068774316, -15); (1011201071127927, -15);
  (1011641272406023, -15); (1012080125934687, -15); (1012458183122033, -15); (1012706955800289, -15); (1012755013843985, -15); (1012530134411619, -15); (1011962331100864, -15); (1010982135506986, -15);
  (1009512438049510, -15); (1007460860286395, -15); (1004708677491086, -15); (1001111413242302, -15); (9965041017623596, -16); (9907199995730845, -16); (9823765865983288, -16); (9708821747608998, -16);
  (9546732976073705, -16); (9321553861564006, -16); (9018003682081348, -16); (8623984077953557, -16); (8132817365236141, -16); (7544551974836834, -16); (6866580716267418, -16); (6113488038789190, -16);
  (5306181649316597, -16); (4471309850999502, -16); (3639114681156236, -16); (2841647033392408, -16); (2110209448747969, -16); (1472287968327703, -16); (9482665349502291, -17); (5482436608328477, -17);
  (2701461405056264, -17); (9996743588367519, -18); (0, -15); (0, -15); (0, -15); (0, -15); (0, -15); (0, -15);
  (0, -15); (0, -15); (0, -15); (0, -15); (0, -15); (0, -15); (0, -15); (0, -15);
  (0, -15); (0, -15); (0, -15); (0, -15); (0, -15); (0, -15); (0, -15); (0, -15);
  (0, -15); (0, -15); (0, -15); (0, -15); (0, -15); (0, -15); (0, -15); (0, -15)].

(* /repo/src/tables/mdct_windows.rs:44 *)
Definition W_N160_10MS : list (Z * Z) := [
  (-4619898752628163, -19); (-9747166718929050, -19); (-1664473096973725, -18); (-2597106916737789, -18); (-3806285163352241, -18); (-5324608721716763, -18); (-7175885277771099, -18); (-9382480860899108, -18);
  (-1195270300743193, -17); (-1489528159506296, -17); (-1820666399965468, -17); (-2187570925786862, -17); (-2588471937157619, -17); (-3020862738245264, -17); (-3481597793538342, -17); (-3967067992672979, -17);
  (-4472698045914417, -17); (-4994225863256500, -17); (-5526334794593565, -17); (-6063717235243996, -17); (-6600961519440657, -17); (-7131966266443390, -17); (-7651178225890490, -17); (-8152964005319532, -17);
  (-8631137544905677, -17); (-9080411291245728, -17); (-9495377758870335, -17); (-9870736514214426, -17); (-1020202684361974, -16); (-1048438825017798, -16); (-1071382314127799, -16); (-1088690135027248, -16);
  (-1099969655786929, -16); (-1104898474883336, -16); (-1103225838568563, -16); (-1094621746650760, -16); (-1078834293141886, -16); (-1055612509762041, -16); (-1024650162703341, -16); (-9857014566194629, -17);
  (-9384684920715425, -17); (-8826309993000785, -17); (-8178792716809512, -17); (-7438785600211463, -17); (-6602189797715241, -17); (-5665655641133161, -17); (-4624456893420224, -17); (-3474585776145929, -17);
  (-2211581608120528, -17); (-8310425696208936, -18); (6717697635290676, -18); (2300642061077823, -17); (4060106462625085, -17); (5953239090915557, -17); (7983354189816511, -17); (1015233140203748, -16);
  (1246171387327525, -16); (1491152519299797, -16); (1750067399059861, -16); (2022699854906251, -16); (2308655379767671, -16); (2607365124918583, -16); (2918144694729168, -16); (3240095704645023, -16);
  (3572175180786021, -16); (3913146885756875, -16); (4261571642320424, -16); (4615925445090212, -16); (4974471592901086, -16); (5335326819631583, -16); (5696546730080154, -16); (6056083823929643, -16);
  (6411830842823245, -16); (6761653499550255, -16); (7103400549562944, -16); (7434943718765665, -16); (7754281892901473, -16); (8059437233154637, -16); (8348589373399948, -16); (8620108336276733, -16);
  (8872599706865123, -16); (9104863121445679, -16); (9315962496426278, -16); (9505220861927248, -16); (9672366712325431, -16); (9817397501303696, -16); (9940557180662704, -16); (1004247514102417, -15);
  (1012407428282884, -15); (1018650990561848, -15); (1023118841384460, -15); (1025972450969440, -15); (1027397523939210, -15); (1027585830688143, -15); (1026738673647482, -15); (1025061777648234, -15);
  (1022756514615106, -15); (1020009139549275, -15); (1016996499560845, -15); (1013915946100629, -15); (1011044869639164, -15); (1007773858455400, -15); (1004848753962734, -15); (1002245009135684, -15);
  (9999393169239009, -16); (9979055415627330, -16); (9961203379971326, -16); (9945597525471822, -16); (9932031606606762, -16); (9920297273323891, -16); (9910230654424902, -16); (9901668953434221, -16);
  (9894488374513719, -16); (9888556356037892, -16); (9883778520531268, -16); (9880051626345804, -16); (9877295459610343, -16); (9875412739766566, -16); (9874329809802893, -16); (9873949921033299, -16);
  (9874197049003676, -16); (9874973205882319, -16); (9876201238703241, -16); (9877781920433015, -16); (9879637979933339, -16); (9881678007807095, -16); (9883835200189653, -16); (9886022219397892, -16);
  (9888182771263505, -16); (9890247977602895, -16); (9892178658748239, -16); (9893923680007577, -16); (9895463342815009, -16); (9896772011542693, -16); (9897859195209235, -16); (9898725363809847, -16);
  (9899410789223559, -16); (9899945557067980, -16); (9900394023736973, -16); (9900814722948890, -16); (9901293790312005, -16); (9901902265696609, -16); (9902734448815004, -16); (9903862280081246, -16);
  (9905379830873822, -16); (9907348826312993, -16); (9909842592301273, -16); (9912905118607647, -16); (9916586940166509, -16); (9920906151219310, -16); (9925887208794144, -16); (9931516528513824, -16);
  (9937790866568735, -16); (9944668184371617, -16); (9952116634297566, -16); (9960068616185641, -16); (9968461329825753, -16); (9977203369515556, -16); (9986213520769593, -16); (9995382582242990, -16);
  (1000461955079660, -15); (1001380551217109, -15); (1002284871786226, -15); (1003163845364970, -15); (1004009147462043, -15); (1004811375053364, -15); (1005563968008037, -15); (1006259855360867, -15);
  (1006895570408563, -15); (1007466616298057, -15); (1007972441990187, -15); (1008411468616852, -15); (1008786009787269, -15); (1009097763850333, -15); (1009351762546296, -15); (1009552401900961, -15);
  (1009707093778162, -15); (1009822090220407, -15); (1009906958448099, -15); (1009969021400474, -15); (1010017890428877, -15); (1010060809299530, -15); (1010106564965965, -15); (1010161131093372, -15);
  (1010231078494249, -15); (1010319484524512, -15); (1010430470494512, -15); (1010564099281000, -15); (1010721360243234, -15); (1010899655674578, -15); (1011096993993037, -15); (1011308167670753, -15);
  (1011529185153809, -15); (1011753008569803, -15); (1011973876511603, -15); (1012182837094955, -15); (1012373028737774, -15); (1012535058602453, -15); (1012660975529858, -15); (1012740575296603, -15);
  (1012765922449960, -15); (1012726958954961, -15); (1012615904116265, -15); (1012422888521601, -15); (1012140460211194, -15); (1011758810583150, -15); (1011269960947744, -15); (1010663676735228, -15);
  (1009930754807923, -15); (1009058249873833, -15); (1008034308295421, -15); (1006843352506855, -15); (1005470005637052, -15); (1003894772403371, -15); (1002098854400575, -15); (1000060686758758, -15);
  (9977600196406868, -16); (9951746430061121, -16); (9922861082472264, -16); (9890757868707590, -16); (9847362453480265, -16); (9798613526271561, -16); (9741378617337759, -16); (9673331975559332, -16);
  (9592539757044516, -16); (9496984081652284, -16); (9384634163826711, -16); (9253567968750328, -16); (9101986790930605, -16); (8928338316495705, -16); (8731437835983047, -16); (8510420440685049, -16);
  (8264839911291133, -16); (7994681492797084, -16); (7700431275216928, -16); (7383028603058783, -16); (7043814340356083, -16); (6684616478236647, -16); (6307755329382612, -16); (5915799587176216, -16);
  (5511703155400274, -16); (5098915423728179, -16); (4681017110047964, -16); (4261772971493010, -16); (3845172335531009, -16); (3435228672445613, -16); (3036004651973099, -16); (2651434678028531, -16);
  (2285283969438072, -16); (1941021906320984, -16); (1621735416384830, -16); (1330015240938615, -16); (1067840430193724, -16); (8365057236623041, -17); (6365188111381356, -17); (4676538412257621, -17);
  (3288072750732215, -17); (2183057564646270, -17); (1336381425803019, -17); (6758124889697787, -18); (0, -15); (0, -15); (0, -15); (0, -15);
  (0, -15); (0, -15); (0, -15); (0, -15); (0, -15); (0, -15); (0, -15); (0, -15);
  (0, -15); (0, -15); (0, -15); (0, -15); (0, -15); (0, -15); (0, -15); (0, -15);
  (0, -15); (0, -15); (0, -15); (0, -15); (0, -15); (0, -15); (0, -15); (0, -15);
  (0, -15); (0, -15); (0, -15); (0, -15); (0, -15); (0, -15); (0, -15); (0, -15);
  (0, -15); (0, -15); (0, -15); (0, -15); (0, -15); (0, -15); (0, -15); (0, -15);
  (0, -15); (0, -15); (0, -15); (0, -15); (0, -15); (0, -15); (0, -15); (0, -15);
  (0, -15); (0, -15); (0, -15); (0, -15); (0, -15); (0, -15); (0, -15); (0, -15)].

(* /repo/src/tables/mdct_windows.rs:115 *)
Definition W_N240_10MS : list (Z * Z) := [
  (-3613496418928369, -19); (-7078546706512391, -19); (-1074443637110903, -18); (-1533478537964509, -18); (-2098197727900724, -18); (-2778420871815740, -18); (-3584129920673041, -18); (-4525198076002370, -18);
  (-5609327243712055, -18); (-6843234536105624, -18); (-8233976327300612, -18); (-9785314755557023, -18); (-1149880303071551, -17); (-1337713096257934, -17); (-1542181679511618, -17); (-1762979910961727, -17);
  (-1999721557401502, -17); (-2252080561390149, -17); (-2519406300389030, -17); (-2800909464274782, -17); (-3095765092956728, -17); (-3402996266948349, -17); (-3721502082245055, -17); (-4050053247568393, -17);
  (-4387219218706189, -17); (-4731768261606175, -17); (-5082325342672667, -17); (-5437166635159518, -17); (-5794654834034055, -17); (-6153426201732499, -17); (-6511708163113709, -17); (-6867606753531441, -17);
  (-7219447805250771, -17); (-7565695975592170, -17); (-7904647440788692, -17); (-8234442557322251, -17); (-8553324579905185, -17); (-8859705468085925, -17); (-9152091100798199, -17); (-9428847446755965, -17);
  (-9688303623049198, -17); (-9929123258537813, -17); (-1015008467688577, -16); (-1034961241263523, -16); (-1052637003544443, -16); (-1067939984687745, -16); (-1080766457616878, -16); (-1090997300590506, -16);
  (-1098524491515805, -16); (-1103242262600913, -16); (-1105084619148789, -16); (-1103977408741932, -16); (-1099809851424550, -16); (-1092492774392824, -16); (-1081974227416502, -16); (-1068172142230882, -16);
  (-1050995803285455, -16); (-1030360111111103, -16); (-1006190418791648, -16); (-9784120023411771, -17); (-9469304216883027, -17); (-9116452506492527, -17); (-8724644532866996, -17); (-8293043914044632, -17);
  (-7820617483254730, -17); (-7306142427456862, -17); (-6748468182105991, -17); (-6146688124166948, -17); (-5499497258200362, -17); (-4805444424454820, -17); (-4063362855701623, -17); (-3272045590229335, -17);
  (-2430122582451853, -17); (-1536329520788766, -17); (-5891434269890659, -18); (4126595858583295, -18); (1470155068746303, -17); (2584738191459814, -17); (3757652772246801, -17); (4989736509080558, -17);
  (6282034030592902, -17); (7635397728566121, -17); (9050369257152079, -17); (1052747118478660, -16); (1206703467513333, -16); (1366911019414417, -16); (1533343890681390, -16); (1705954709184399, -16);
  (1884686389218322, -16); (2069449962574092, -16); (2260093000067393, -16); (2456456803467095, -16); (2658346019332584, -16); (2865543814049772, -16); (3077789078889820, -16); (3294769437072290, -16);
  (3516171481750350, -16); (3741642373060188, -16); (3970739591211551, -16); (4203043046885219, -16); (4438114799213576, -16); (4675442291623012, -16); (4914498631045615, -16); (5154735456539700, -16);
  (5395557644293222, -16); (5636399817032525, -16); (5876661722564289, -16); (6115695310143157, -16); (6352890592874099, -16); (6587619767809000, -16); (6819230974423550, -16); (7047092819314779, -16);
  (7270576699841359, -16); (7489068963384272, -16); (7701990187606995, -16); (7908752989295335, -16); (8108788692151807, -16); (8301579139160681, -16); (8486643364959733, -16); (8663548164329093, -16);
  (8831896853053627, -16); (8991320235484349, -16); (9141540563656075, -16); (9282282546151819, -16); (9413348145272842, -16); (9534619388400459, -16); (9646048250501910, -16); (9747634827941575, -16);
  (9839435385219192, -16); (9921529097154242, -16); (9994114730415857, -16); (1005746084650236, -15); (1011183971347815, -15); (1015760373791603, -15); (1019515072412387, -15); (1022490937034641, -15);
  (1024736164069697, -15); (1026304095700693, -15); (1027250978292214, -15); (1027634294456205, -15); (1027511063644843, -15); (1026942795115598, -15); (1025991493983836, -15); (1024716149969084, -15);
  (1023175976163407, -15); (1021427210603284, -15); (1019521566634239, -15); (1017510118327508, -15); (1015439859549357, -15); (1013460916839174, -15); (1011654901040475, -15); (1009366925499550, -15);
  (1007263182132894, -15); (1005313192386866, -15); (1003508162416449, -15); (1001840787319378, -15); (1000303927234380, -15); (9988898206257559, -16); (9975915283480670, -16); (9964015284765968, -16);
  (9953133902427869, -16); (9943201078053212, -16); (9934158959186011, -16); (9925943919208190, -16); (9918510277326026, -16); (9911797988363887, -16); (9905771957917731, -16); (9900381047643838, -16);
  (9895594394179152, -16); (9891371616557014, -16); (9887684373604154, -16); (9884497924570929, -16); (9881790747212391, -16); (9879528358230726, -16); (9877691368590689, -16); (9876249269174586, -16);
  (9875179947346887, -16); (9874458127312921, -16); (9874056275509585, -16); (9873951115886979, -16); (9874115368168944, -16); (9874524849192456, -16); (9875149888347144, -16); (9875968894760857, -16);
  (9876951134084213, -16); (9878075819424549, -16); (9879311998177238, -16); (9880640617030884, -16); (9882032571565917, -16); (9883471084085503, -16); (9884926873551375, -16); (9886386592120545, -16);
  (9887825578295630, -16); (9889230031022089, -16); (9890581715933395, -16); (9891867674284610, -16); (9893074965384659, -16); (9894196399062921, -16); (9895220757174378, -16); (9896146331889107, -16);
  (9896970346678272, -16); (9897692596535289, -16); (9898319269347060, -16); (9898852572653667, -16); (9899307640365727, -16); (9899693102025343, -16); (9900025692522435, -16); (9900321562263099, -16);
  (9900603352632121, -16); (9900889812894406, -16); (9901206586012907, -16); (9901575015155720, -16); (9902023946214220, -16); (9902575406142213, -16); (9903255289051605, -16); (9904087914462694, -16);
  (9905096491583045, -16); (9906303787150326, -16); (9907727108894024, -16); (9909387444078919, -16); (9911298894709990, -16); (9913476318763218, -16); (9915928560402563, -16); (9918665491182922, -16);
  (9921691315380984, -16); (9925010851461232, -16); (9928619727154252, -16); (9932519181564613, -16); (9936700207375173, -16); (9941156069136238, -16); (9945873147903244, -16); (9950837402063278, -16);
  (9956033775539884, -16); (9961439922621166, -16); (9967034533921340, -16); (9972793109558521, -16); (9978690858367024, -16); (9984697087896268, -16); (9990784840729244, -16); (9996919011206490, -16);
  (1000308193833526, -15); (1000922365901945, -15); (1001532636590676, -15); (1002135464655177, -15); (1002728111386909, -15); (1003307449770187, -15); (1003870934089686, -15); (1004416038098237, -15);
  (1004940548815171, -15); (1005442141810160, -15); (1005919224127911, -15); (1006370303149314, -15); (1006793927824538, -15); (1007189345025525, -15); (1007555573455895, -15); (1007892674961336, -15);
  (1008200146369426, -15); (1008478423284851, -15); (1008727884997619, -15); (1008949493525753, -15); (1009144112734761, -15); (1009313224929575, -15); (1009458241425143, -15); (1009581280555682, -15);
  (1009684090687164, -15); (1009768980817384, -15); (1009838308708799, -15); (1009894548257807, -15); (1009940336228694, -15); (1009977916643680, -15); (1010010230290263, -15); (1010039453539107, -15);
  (1010068202038694, -15); (1010098388689342, -15); (1010132323996401, -15); (1010171656775640, -15); (1010218096148412, -15); (1010272524848519, -15); (1010336490294771, -15); (1010410221483215, -15);
  (1010494354532353, -15); (1010588873699422, -15); (1010693501186928, -15); (1010808068774316, -15); (1010931436739342, -15); (1011062876503041, -15); (1011201071127927, -15); (1011344700694417, -15);
  (1011491904228184, -15); (1011641272406023, -15); (1011790282474963, -15); (1011937567254485, -15); (1012080125934687, -15); (1012216235487353, -15); (1012342907951334, -15); (1012458183122033, -15);
  (1012558879696851, -15); (1012642857380847, -15); (1012706955800289, -15); (1012748952907404, -15); (1012765799894453, -15); (1012755013843985, -15); (1012713798678211, -15); (1012639775003457, -15);
  (1012530134411619, -15); (1012382309473470, -15); (1012194068117524, -15); (1011962331100864, -15); (1011685173724601, -15); (1011359143572147, -15); (1010982135506986, -15); (1010550715971368, -15);
  (1010062133151922, -15); (1009512438049510, -15); (1008898689394160, -15); (1008215923600973, -15); (1007460860286395, -15); (1006627741823389, -15); (1005712337656749, -15); (1004708677491086, -15);
  (1003611467285588, -15); (1002414286392268, -15); (1001111413242302, -15); (9996961651093181, -16); (9981625949525345, -16); (9965041017623596, -16); (9947148884277037, -16); (9927891912841345, -16);
  (9907199995730845, -16); (9884793707533194, -16); (9855347660016696, -16); (9823765865983286, -16); (9789747333404933, -16); (9751623811486372, -16); (9708821747608998, -16); (9660805524695870, -16);
  (9606976399184645, -16); (9546732976073706, -16); (9479479345282376, -16); (9404609052933396, -16); (9321553861564006, -16); (9229775478442888, -16); (9128745354570823, -16); (9018003682081348, -16);
  (8897163275605041, -16); (8765908974996186, -16); (8623984077953557, -16); (8471200801854385, -16); (8307479727020245, -16); (8132817365236141, -16); (7947291447585267, -16); (7751108841891807, -16);
  (7544551974836834, -16); (7327963552921717, -16); (7101790843209148, -16); (6866580716267418, -16); (6622962432368731, -16); (6371684119604742, -16); (6113488038789190, -16); (5849206604934815, -16);
  (5579747428663487, -16); (5306181649316717, -16); (5029523957059122, -16); (4750868825511614, -16); (4471309850999535, -16); (4192049917945288, -16); (3914252910998820, -16); (3639114681156252, -16);
  (3367837772954476, -16); (3101627843160973, -16); (2841647033392418, -16); (2589033711808454, -16); (2344880603710975, -16); (2110209448747974, -16); (1885997642296488, -16); (1673100807904834, -16);
  (1472287968327706, -16); (1284223074167396, -16); (1109422548710344, -16); (9482665349502306, -17); (8009914366829558, -17); (6676765847398403, -17); (5482436608328485, -17); (4424588851571281, -17);
  (3499361000717621, -17); (2701461405056267, -17); (2024370180670145, -17); (1460796755137538, -17); (9996743588367531, -18); (5305235098871444, -18); (0, -15); (0, -15);
  (0, -15); (0, -15); (0, -15); (0, -15); (0, -15); (0, -15); (0, -15); (0, -15);
  (0, -15); (0, -15); (0, -15); (0, -15); (0, -15); (0, -15); (0, -15); (0, -15);
  (0, -15); (0, -15); (0, -15); (0, -15); (0, -15); (0, -15); (0, -15); (0, -15);
  (0, -15); (0, -15); (0, -15); (0, -15); (0, -15); (0, -15); (0, -15); (0, -15);
  (0, -15); (0, -15); (0, -15); (0, -15); (0, -15); (0, -15); (0, -15); (0, -15);
  (0, -15); (0, -15); (0, -15); (0, -15); (0, -15); (0, -15); (0, -15); (0, -15);
  (0, -15); (0, -15); (0, -15); (0, -15); (0, -15); (0, -15); (0, -15); (0, -15);
  (0, -15); (0, -15); (0, -15); (0, -15); (0, -15); (0, -15); (0, -15); (0, -15);
  (0, -15); (0, -15); (0, -15); (0, -15); (0, -15); (0, -15); (0, -15); (0, -15);
  (0, -15); (0, -15); (0, -15); (0, -15); (0, -15); (0, -15); (0, -15); (0, -15);
  (0, -15); (0, -15); (0, -15); (0, -15); (0, -15); (0, -15); (0, -15); (0, -15)].

(* /repo/src/tables/mdct_windows.rs:219 *)
Definition W_N320_10MS : list (Z * Z) := [
  (-3021153494057143, -19); (-5867737487939294, -19); (-8366504004139796, -19); (-1126635355725494, -18); (-1470492941694331, -18); (-1873473391018495, -18); (-2339292362082021, -18); (-2872008069419264, -18);
  (-3476256385086407, -18); (-4155963816705528, -18); (-4914563787665504, -18); (-5755172503953251, -18); (-6680623380533122, -18); (-7693816924650567, -18); (-8796760749750191, -18); (-9990503073705982, -18);
  (-1127574117138621, -17); (-1265334152129685, -17); (-1412438986522702, -17); (-1568889620430290, -17); (-1734512089366117, -17); (-1909097368362797, -17); (-2092546711168754, -17); (-2284684792818856, -17);
  (-2485207716234951, -17); (-2693746704328349, -17); (-2909952486193999, -17); (-3133504629493832, -17); (-3363960728361352, -17); (-3600820974457969, -17); (-3843601741746971, -17); (-4091746034850161, -17);
  (-4344654894948344, -17); (-4601786724624048, -17); (-4862598509282497, -17); (-5126474204655663, -17); (-5392644753556616, -17); (-5660384311081047, -17); (-5929116747072080, -17); (-6198268202511926, -17);
  (-6467025548071184, -17); (-6734542216184526, -17); (-7000099017198280, -17); (-7263057011354321, -17); (-7522784961377151, -17); (-7778525942347714, -17); (-8029480247839878, -17); (-8274924535373614, -17);
  (-8514125464087215, -17); (-8746379123238275, -17); (-8971069341834263, -17); (-9187564084638347, -17); (-9395176975347193, -17); (-9593137735886889, -17); (-9780843257659243, -17); (-9957851303827886, -17);
  (-1012361165314596, -16); (-1027741036495644, -16); (-1041861222641119, -16); (-1054680247057000, -16); (-1066160875985523, -16); (-1076255384835563, -16); (-1084912299471198, -16); (-1092087422379003, -16);
  (-1097736146613313, -16); (-1101808861640070, -16); (-1104271876052675, -16); (-1105108362290460, -16); (-1104281465492726, -16); (-1101739218186236, -16); (-1097437360338336, -16); (-1091353125572511, -16);
  (-1083467335729228, -16); (-1073739938306107, -16); (-1062130155324388, -16); (-1048606145834788, -16); (-1033132401525343, -16); (-1015673163469357, -16); (-9962005506126154, -17); (-9746803229469267, -17);
  (-9510723623306666, -17); (-9253303383231506, -17); (-8974125216128212, -17); (-8672877689119252, -17); (-8349213839083708, -17); (-8002639902061687, -17); (-7632679536516856, -17); (-7238806162166744, -17);
  (-6820576796149519, -17); (-6377611429172260, -17); (-5909386001558149, -17); (-5415316322402774, -17); (-4894812724598650, -17); (-4347347112195197, -17); (-3772461300253332, -17); (-3169587609244436, -17);
  (-2538179830690266, -17); (-1877689096555516, -17); (-1187461378850388, -17); (-4669099247423082, -18); (2844096748870385, -18); (1066976124794342, -17); (1881355950582949, -17); (2728156010437695, -17);
  (3607810469851272, -17); (4520702759803914, -17); (5467238802204326, -17); (6447866054615346, -17); (7462862199422061, -17); (8512490568723846, -17); (9596983987496970, -17); (1071650779014335, -16);
  (1187115850305241, -16); (1306101067250375, -16); (1428596447589721, -16); (1554584725339102, -16); (1684041609371527, -16); (1816947894623263, -16); (1953273880886783, -16); (2092963206850239, -16);
  (2235945635254679, -16); (2382160219461597, -16); (2531529721334063, -16); (2683961570569586, -16); (2839361392493072, -16); (2997624255177811, -16); (3158619077906196, -16); (3322210551086769, -16);
  (3488264676990591, -16); (3656640377499646, -16); (3827152968157059, -16); (3999611859760947, -16); (4173843265025887, -16); (4349669624916473, -16); (4526876397402144, -16); (4705242008503956, -16);
  (4884539254831315, -16); (5064545550235134, -16); (5245006748662190, -16); (5425674372882107, -16); (5606312044701524, -16); (5786672646386708, -16); (5966477035050948, -16); (6145458904162185, -16);
  (6323361944662236, -16); (6499926319211774, -16); (6674874032292857, -16); (6847932667399612, -16); (7018835463513400, -16); (7187322544823347, -16); (7353128213893310, -16); (7516001985652684, -16);
  (7675699252273948, -16); (7831974571624924, -16); (7984583859818390, -16); (8133295347030278, -16); (8277892271515950, -16); (8418178561101360, -16); (8553961300139363, -16); (8685068980898102, -16);
  (8811334436653052, -16); (8932596784799233, -16); (9048748835980528, -16); (9159657608120536, -16); (9265215299450000, -16); (9365339988633418, -16); (9459977028429117, -16); (9549088408436811, -16);
  (9632658122557368, -16); (9710688896122810, -16); (9783204156360773, -16); (9850226760127131, -16); (9911792082081333, -16); (9967989944502682, -16); (1001894024615659, -15); (1006474342231823, -15);
  (1010552057109195, -15); (1014142538208007, -15); (1017262593268930, -15); (1019928842669923, -15); (1022159867011177, -15); (1023976320927187, -15); (1025400734608122, -15); (1026455340400072, -15);
  (1027164510654160, -15); (1027552729180790, -15); (1027644462380432, -15); (1027463246660797, -15); (1027035903410657, -15); (1026389068000259, -15); (1025548201799728, -15); (1024537134749709, -15);
  (1023380803775376, -15); (1022103695693341, -15); (1020728359657958, -15); (1019275334687329, -15); (1017765178792830, -15); (1016217355867531, -15); (1014665311686846, -15); (1013249071090664, -15);
  (1011948006992127, -15); (1010189090179223, -15); (1008557961167850, -15); (1007011287608451, -15); (1005548764575910, -15); (1004168417268956, -15); (1002867268893035, -15); (1001641769115897, -15);
  (1000489068954641, -15); (9994060799749374, -16); (9983898865406841, -16); (9974370849972721, -16); (9965444836911705, -16); (9957098545943852, -16); (9949302413030897, -16); (9942024045863540, -16);
  (9935241604969254, -16); (9928930430130044, -16); (9923068103443909, -16); (9917633778190438, -16); (9912597642374404, -16); (9907954498484041, -16); (9903677893656558, -16); (9899751611066148, -16);
  (9896160337369861, -16); (9892890160408989, -16); (9889928511129679, -16); (9887260333430423, -16); (9884868721088945, -16); (9882751039537586, -16); (9880892168751595, -16); (9879277114724612, -16);
  (9877898261218510, -16); (9876743442038471, -16); (9875807496078497, -16); (9875072021876561, -16); (9874529447589979, -16); (9874169741527905, -16); (9873984685207834, -16); (9873958301311858, -16);
  (9874080027710336, -16); (9874343401290739, -16); (9874736235387018, -16); (9875243137719285, -16); (9875856201221135, -16); (9876563785063032, -16); (9877358921155149, -16); (9878225576787804, -16);
  (9879150968481590, -16); (9880132731565830, -16); (9881156946084619, -16); (9882211314188272, -16); (9883289032519310, -16); (9884378310018685, -16); (9885476787868710, -16); (9886568414746639, -16);
  (9887645868459630, -16); (9888708540445242, -16); (9889744320992592, -16); (9890747269455915, -16); (9891710038703801, -16); (9892631024032380, -16); (9893507219573624, -16); (9894330645494204, -16);
  (9895096919388534, -16); (9895810813422480, -16); (9896467469067676, -16); (9897067365020641, -16); (9897606930400666, -16); (9898094478563998, -16); (9898530133261707, -16); (9898914705684924, -16);
  (9899254194103574, -16); (9899554202030650, -16); (9899824494486951, -16); (9900065116928948, -16); (9900284805353695, -16); (9900497484789281, -16); (9900709561632662, -16); (9900928358611601, -16);
  (9901163920607219, -16); (9901427479709606, -16); (9901734275350572, -16); (9902087332329851, -16); (9902498637985275, -16); (9902983686695558, -16); (9903548501470234, -16); (9904205084933333, -16);
  (9904959297726740, -16); (9905825150202904, -16); (9906812569810133, -16); (9907922087340426, -16); (9909165464981378, -16); (9910550740962871, -16); (9912084614290896, -16); (9913768610980639, -16);
  (9915605826937839, -16); (9917604214872976, -16); (9919767175562684, -16); (9922091101818779, -16); (9924579135466506, -16); (9927231225056266, -16); (9930049538427406, -16); (9933027281437943, -16);
  (9936161084869942, -16); (9939453714404443, -16); (9942895145656371, -16); (9946481676207727, -16); (9950203031067961, -16); (9954058173659507, -16); (9958038713694317, -16); (9962130271017117, -16);
  (9966324689957675, -16); (9970615306490058, -16); (9974990583293081, -16); (9979437430375855, -16); (9983940572002874, -16); (9988493116887893, -16); (9993083430214909, -16); (9997689221333534, -16);
  (1000231131275969, -15); (1000692135698996, -15); (1001152013920163, -15); (1001608526000461, -15); (1002060493867275, -15); (1002507212061815, -15); (1002947129400411, -15); (1003378909587027, -15);
  (1003801368578070, -15); (1004213810320699, -15); (1004615386562846, -15); (1005004618375781, -15); (1005380628601598, -15); (1005743282364652, -15); (1006091510392348, -15); (1006424907424988, -15);
  (1006742427727669, -15); (1007044321511378, -15); (1007330218597112, -15); (1007599401798709, -15); (1007852064386603, -15); (1008088176165563, -15); (1008308033204578, -15); (1008511247273756, -15);
  (1008698144207627, -15); (1008869515256392, -15); (1009025659761512, -15); (1009166718967367, -15); (1009293362609020, -15); (1009406398832440, -15); (1009507017171120, -15); (1009595264293017, -15);
  (1009672145744679, -15); (1009739084785160, -15); (1009796675060142, -15); (1009846137382005, -15); (1009888083631667, -15); (1009924092276850, -15); (1009955384765721, -15); (1009982268770147, -15);
  (1010006298177305, -15); (1010028618428735, -15); (1010050254076988, -15); (1010071952131355, -15); (1010094366238073, -15); (1010118917317053, -15); (1010146497096682, -15); (1010177110711677, -15);
  (1010211755260102, -15); (1010251003469427, -15); (1010295468653759, -15); (1010345234996637, -15); (1010400316698172, -15); (1010461564316351, -15); (1010528615445659, -15); (1010601521285347, -15);
  (1010679788081867, -15); (1010763905869062, -15); (1010853429760676, -15); (1010947547074519, -15); (1011045953108263, -15); (1011148486293359, -15); (1011254397791134, -15); (1011363082075863, -15);
  (1011473302008831, -15); (1011584996312149, -15); (1011697416504599, -15); (1011808919793469, -15); (1011919264025716, -15); (1012027240794153, -15); (1012132151631041, -15); (1012232734564333, -15);
  (1012327560477901, -15); (1012416383754384, -15); (1012497890726292, -15); (1012570434021054, -15); (1012633295255708, -15); (1012685277016726, -15); (1012725564992284, -15); (1012752577651415, -15);
  (1012765062889864, -15); (1012762356719162, -15); (1012743376077777, -15); (1012706484200181, -15); (1012650842226435, -15); (1012575427778520, -15); (1012479473490919, -15); (1012361105121003, -15);
  (1012219809594718, -15); (1012054359992419, -15); (1011864000215460, -15); (1011647223869087, -15); (1011402518267713, -15); (1011129654652857, -15); (1010826951260377, -15); (1010492924436361, -15);
  (1010126353960416, -15); (1009725892479312, -15); (1009290060983833, -15); (1008817301052548, -15); (1008305027555130, -15); (1007752833675443, -15); (1007157827358150, -15); (1006518049344503, -15);
  (1005831403532018, -15); (1005095592119373, -15); (1004308630055050, -15); (1003467498305776, -15); (1002569500413888, -15); (1001612710105563, -15); (1000594272975683, -15); (9995111701168786, -16);
  (9983609218719522, -16); (9971409288327860, -16); (9958488863050556, -16); (9944818543153893, -16); (9930375282832211, -16); (9915146560759479, -16); (9899136802423638, -16); (9881930623810997, -16);
  (9859422591203311, -16); (9835667898378924, -16); (9811423034808365, -16); (9785214441250228, -16); (9756636036109838, -16); (9725453442532574, -16); (9691456634185092, -16); (9654406178310209, -16);
  (9614043615076308, -16); (9570113065179300, -16); (9522367669696690, -16); (9470548839544214, -16); (9414403740008491, -16); (9353691612846549, -16); (9288190093977164, -16); (9217662887169115, -16);
  (9141896283466009, -16); (9060694681113471, -16); (8973891675497357, -16); (8881332000806269, -16); (8782893885841422, -16); (8678469565343039, -16); (8567970644671067, -16); (8451334654019180, -16);
  (8328542805780399, -16); (8199594783897041, -16); (8064511006873497, -16); (7923346478686025, -16); (7776204488292163, -16); (7623206183595970, -16); (7464486491227057, -16); (7300205729992958, -16);
  (7130567383226717, -16); (6955805444755916, -16); (6776173229836567, -16); (6591955305148172, -16); (6403486426892321, -16); (6211072197441818, -16); (6015049275244730, -16); (5815787608870452, -16);
  (5613674511156324, -16); (5409188627354076, -16); (5202736834971303, -16); (4994780733459294, -16); (4785774177949064, -16); (4576172599874928, -16); (4366490208265804, -16); (4157221460415995, -16);
  (3948856590950757, -16); (3741903189229770, -16); (3536868899553974, -16); (3334260017756462, -16); (3134586473252229, -16); (2938337904395871, -16); (2745992637590817, -16); (2558030636168172, -16);
  (2374902188466697, -16); (2197036032185785, -16); (2024855415115456, -16); (1858749915117319, -16); (1699067802117410, -16); (1546132267478873, -16); (1400238206749695, -16); (1261637395672913, -16);
  (1130534434072719, -16); (1007084973747940, -16); (8914024389873081, -17); (7835612100141792, -17); (6835821233920988, -17); (5914211536028976, -17); (5069893012340832, -17); (4301717763585550, -17);
  (3608020726673359, -17); (2986316337017630, -17); (2433722657129812, -17); (1947675241971700, -17); (1525710171255895, -17); (1163787492636240, -17); (8433087782643718, -18); (4449668997344735, -18);
  (0, -15); (0, -15); (0, -15); (0, -15); (0, -15); (0, -15); (0, -15); (0, -15);
  (0, -15); (0, -15); (0, -15); (0, -15); (0, -15); (0, -15); (0, -15); (0, -15);
  (0, -15); (0, -15); (0, -15); (0, -15); (0, -15); (0, -15); (0, -15); (0, -15);
  (0, -15); (0, -15); (0, -15); (0, -15); (0, -15); (0, -15); (0, -15); (0, -15);
  (0, -15); (0, -15); (0, -15); (0, -15); (0, -15); (0, -15); (0, -15); (0, -15);
  (0, -15); (0, -15); (0, -15); (0, -15); (0, -15); (0, -15); (0, -15); (0, -15);
  (0, -15); (0, -15); (0, -15); (0, -15); (0, -15); (0, -15); (0, -15); (0, -15);
  (0, -15); (0, -15); (0, -15); (0, -15); (0, -15); (0, -15); (0, -15); (0, -15);
  (0, -15); (0, -15); (0, -15); (0, -15); (0, -15); (0, -15); (0, -15); (0, -15);
  (0, -15); (0, -15); (0, -15); (0, -15); (0, -15); (0, -15); (0, -15); (0, -15);
  (0, -15); (0, -15); (0, -15); (0, -15); (0, -15); (0, -15); (0, -15); (0, -15);
  (0, -15); (0, -15); (0, -15); (0, -15); (0, -15); (0, -15); (0, -15); (0, -15);
  (0, -15); (0, -15); (0, -15); (0, -15); (0, -15); (0, -15); (0, -15); (0, -15);
  (0, -15); (0, -15); (0, -15); (0, -15); (0, -15); (0, -15); (0, -15); (0, -15);
  (0, -15); (0, -15); (0, -15); (0, -15); (0, -15); (0, -15); (0, -15); (0, -15)].

(* /repo/src/tables/mdct_windows.rs:356 *)
Definition W_N480_10MS : list (Z * Z) := [
  (-2353032150516754, -19); (-4619898752628163, -19); (-6262931535610879, -19); (-7929180432976445, -19); (-9747166718929050, -19); (-1180256894474562, -18); (-1409209039594871, -18); (-1664473096973725, -18);
  (-1946591608170231, -18); (-2257081732588478, -18); (-2597106916737789, -18); (-2967607624839524, -18); (-3370454877988472, -18); (-3806285163352241, -18); (-4276873767639064, -18); (-4782469904501813, -18);
  (-5324608721716763, -18); (-5903403814095400, -18); (-6520419726599805, -18); (-7175885277771099, -18); (-7871422820642307, -18); (-8606586039759667, -18); (-9382480860899108, -18); (-1019827182163307, -17);
  (-1105520547739066, -17); (-1195270300743193, -17); (-1289205910303846, -17); (-1387263484323160, -17); (-1489528159506296, -17); (-1595856621933800, -17); (-1706288556735433, -17); (-1820666399965468, -17);
  (-1939065975232718, -17); (-2061355417582714, -17); (-2187570925786862, -17); (-2317526315266411, -17); (-2451227449041489, -17); (-2588471937157619, -17); (-2729263737090799, -17); (-2873390902713615, -17);
  (-3020862738245264, -17); (-3171440372994384, -17); (-3325098858986303, -17); (-3481597793538342, -17); (-3640892406933019, -17); (-3802742318209150, -17); (-3967067992672979, -17); (-4133575417353826, -17);
  (-4302203371734278, -17); (-4472698045914417, -17); (-4645022292934329, -17); (-4818891490266687, -17); (-4994225863256500, -17); (-5170690802826666, -17); (-5348162036097223, -17); (-5526334794593565, -17);
  (-5705123152423822, -17); (-5884271749745559, -17); (-6063717235243996, -17); (-6243104027829089, -17); (-6422303545004304, -17); (-6600961519440657, -17); (-6778962269634495, -17); (-6955996868581379, -17);
  (-7131966266443390, -17); (-7306581273272733, -17); (-7479758913001458, -17); (-7651178225890490, -17); (-7820711420768856, -17); (-7988010693411644, -17); (-8152964005319532, -17); (-8315237353264004, -17);
  (-8474728946770714, -17); (-8631137544905677, -17); (-8784374452959058, -17); (-8934164364321417, -17); (-9080411291245728, -17); (-9222795761428432, -17); (-9361232867223340, -17); (-9495377758870335, -17);
  (-9625155313139856, -17); (-9750284620437569, -17); (-9870736514214426, -17); (-9986271288271026, -17); (-1009680221406219, -16); (-1020202684361974, -16); (-1030183804850491, -16); (-1039596356759290, -16);
  (-1048438825017798, -16); (-1056686838192766, -16); (-1064342821660323, -16); (-1071382314127799, -16); (-1077799961121537, -16); (-1083570625865931, -16); (-1088690135027248, -16); (-1093135588677235, -16);
  (-1096903559498340, -16); (-1099969655786929, -16); (-1102332261219973, -16); (-1103972812085189, -16); (-1104898474883336, -16); (-1105086416532167, -16); (-1104537426996073, -16); (-1103225838568563, -16);
  (-1101145827722143, -16); (-1098276928170364, -16); (-1094621746650760, -16); (-1090163960055733, -16); (-1084908852561722, -16); (-1078834293141886, -16); (-1071937180231978, -16); (-1064196358069465, -16);
  (-1055612509762041, -16); (-1046162812518618, -16); (-1035849043557610, -16); (-1024650162703341, -16); (-1012568997532046, -16); (-9995864571932928, -17); (-9857014566194627, -17); (-9708911135857967, -17);
  (-9551545820689084, -17); (-9384684920715425, -17); (-9208300062891550, -17); (-9022171021406450, -17); (-8826309993000785, -17); (-8620493821803937, -17); (-8404742152815330, -17); (-8178792716809512, -17);
  (-7942625026703617, -17); (-7695980775819990, -17); (-7438785600211463, -17); (-7170797002873608, -17); (-6891994783815969, -17); (-6602189797715241, -17); (-6301349420724424, -17); (-5989191912667712, -17);
  (-5665655641133161, -17); (-5330406164482222, -17); (-4983427241976235, -17); (-4624456893420224, -17); (-4253455686336916, -17); (-3870195772538443, -17); (-3474585776145929, -17); (-3066341518682682, -17);
  (-2645425077642105, -17); (-2211581608120528, -17); (-1764740541599136, -17); (-1304581363895818, -17); (-8310425696208936, -18); (-3438268661133170, -18); (1570315476576933, -18); (6717697635290676, -18);
  (1200477020244778, -17); (1743398319747869, -17); (2300642061077823, -17); (2872481423270595, -17); (3458896350634671, -17); (4060106462625085, -17); (4676102915752826, -17); (5307133911821893, -17);
  (5953239090915557, -17); (6614647812869151, -17); (7291293184312803, -17); (7983354189816511, -17); (8690807412770696, -17); (9413813765275064, -17); (1015233140203748, -16); (1090651518336202, -16);
  (1167626546016197, -16); (1246171387327525, -16); (1326272948938113, -16); (1407938190608664, -16); (1491152519299797, -16); (1575921408388593, -16); (1662224799248571, -16); (1750067399059861, -16);
  (1839431938620024, -16); (1930318183054904, -16); (2022699854906251, -16); (2116567430906184, -16); (2211888523410642, -16); (2308655379767671, -16); (2406837992341654, -16); (2506420640291662, -16);
  (2607365124918583, -16); (2709659073501196, -16); (2813259021832532, -16); (2918144694729168, -16); (3024270279840051, -16); (3131603499997996, -16); (3240095704645023, -16); (3349719592361666, -16);
  (3460422935204829, -16); (3572175180786021, -16); (3684915649120530, -16); (3798595119591716, -16); (3913146885756875, -16); (4028532873867052, -16); (4144688328137527, -16); (4261571642320424, -16);
  (4379113897565727, -16); (4497256320417501, -16); (4615925445090212, -16); (4735067030065239, -16); (4854600184866710, -16); (4974471592901086, -16); (5094597228333853, -16); (5214909841729947, -16);
  (5335326819631583, -16); (5455789811615239, -16); (5576217157959890, -16); (5696546730080154, -16); (5816685576268035, -16); (5936560624526468, -16); (6056083823929643, -16); (6175192060085208, -16);
  (6293796611336280, -16); (6411830842823245, -16); (6529203544876097, -16); (6645840786371451, -16); (6761653499550255, -16); (6876573952173626, -16); (6990511539119996, -16); (7103400549562944, -16);
  (7215149331458728, -16); (7325691772738999, -16); (7434943718765665, -16); (7542846327442048, -16); (7649313654540612, -16); (7754281892901473, -16); (7857670170752049, -16); (7959414651061612, -16);
  (8059437233154637, -16); (8157687070715176, -16); (8254086223972127, -16); (8348589373399948, -16); (8441125827416620, -16); (8531651194538425, -16); (8620108336276733, -16); (8706456337542150, -16);
  (8790631561061171, -16); (8872599706865123, -16); (8952313288619367, -16); (9029751680353524, -16); (9104863121445679, -16); (9177625550620636, -16); (9247997426966093, -16); (9315962496426278, -16);
  (9381494858921667, -16); (9444588390359354, -16); (9505220861927248, -16); (9563402921286364, -16); (9619114522936701, -16); (9672366712325431, -16); (9723156637834687, -16); (9771501187120180, -16);
  (9817397501303696, -16); (9860865871353246, -16); (9901906380163595, -16); (9940557180662704, -16); (9976842395284637, -16); (1001080961257010, -15); (1004247514102417, -15); (1007188578458507, -15);
  (1009906654565108, -15); (1012407428282884, -15); (1014694702432600, -15); (1016774659209400, -15); (1018650990561848, -15); (1020330464463111, -15); (1021817328911793, -15); (1023118841384460, -15);
  (1024240262467000, -15); (1025189721888128, -15); (1025972450969440, -15); (1026596938589443, -15); (1027069179375841, -15); (1027397523939210, -15); (1027587902203109, -15); (1027648951922701, -15);
  (1027585830688143, -15); (1027408519661012, -15); (1027122986826984, -15); (1026738673647482, -15); (1026261663878092, -15); (1025701002415063, -15); (1025061777648234, -15); (1024353980976701, -15);
  (1023582385618774, -15); (1022756514615106, -15); (1021880604350422, -15); (1020963871317665, -15); (1020009139549275, -15); (1019027285501251, -15); (1018019442784231, -15); (1016996499560845, -15);
  (1015957433206324, -15); (1014923441259795, -15); (1013915946100629, -15); (1013047565149327, -15); (1012216130365610, -15); (1011044869639164, -15); (1009914592130044, -15); (1008824888092573, -15);
  (1007773858455400, -15); (1006761700412993, -15); (1005786648810854, -15); (1004848753962734, -15); (1003946083413733, -15); (1003078846506546, -15); (1002245009135684, -15); (1001444733905817, -15);
  (1000676188436651, -15); (9999393169239009, -16); (9992320848298057, -16); (9985548127155425, -16); (9979055415627330, -16); (9972842679758880, -16); (9966890948441745, -16); (9961203379971326, -16);
  (9955761256313581, -16); (9950565724564597, -16); (9945597525471822, -16); (9940860378486615, -16); (9936337788972491, -16); (9932031606606759, -16); (9927921871265732, -16); (9924015177880798, -16);
  (9920297273323891, -16); (9916767775088281, -16); (9913408767719142, -16); (9910230654424902, -16); (9907216425865902, -16); (9904366799536263, -16); (9901668953434221, -16); (9899131011580791, -16);
  (9896735637374597, -16); (9894488374513719, -16); (9892374835404283, -16); (9890401927796704, -16); (9888556356037892, -16); (9886843467692753, -16); (9885247606051014, -16); (9883778520531268, -16);
  (9882423270582524, -16); (9881185638915363, -16); (9880051626345804, -16); (9879032023766432, -16); (9878111744348976, -16); (9877295459610343, -16); (9876571983429736, -16); (9875949843246187, -16);
  (9875412739766566, -16); (9874969061399389, -16); (9874606249127551, -16); (9874329809802893, -16); (9874126414437681, -16); (9874004750404033, -16); (9873949921033299, -16); (9873969162747074, -16);
  (9874049060317581, -16); (9874197049003676, -16); (9874399717110517, -16); (9874663281231737, -16); (9874973205882319, -16); (9875338926695315, -16); (9875746535410983, -16); (9876201238703241, -16);
  (9876689801932402, -16); (9877221556193183, -16); (9877781920433015, -16); (9878376489591358, -16); (9878991990245439, -16); (9879637979933339, -16); (9880300303653743, -16); (9880984675859855, -16);
  (9881678007807095, -16); (9882390300097154, -16); (9883107693992456, -16); (9883835200189653, -16); (9884560159878955, -16); (9885294200392185, -16); (9886022219397892, -16); (9886749404176028, -16);
  (9887466261142505, -16); (9888182771263505, -16); (9888882480852147, -16); (9889574384705896, -16); (9890247977602895, -16); (9890911247701029, -16); (9891551701556196, -16); (9892178658748239, -16);
  (9892779555818088, -16); (9893365186903538, -16); (9893923680007577, -16); (9894462830852175, -16); (9894972124952000, -16); (9895463342815009, -16); (9895923617530382, -16); (9896362652966239, -16);
  (9896772011542693, -16); (9897162195263046, -16); (9897520286480039, -16); (9897859195209235, -16); (9898170267411330, -16); (9898462068764986, -16); (9898725363809847, -16); (9898975138787787, -16);
  (9899200050208486, -16); (9899410789223559, -16); (9899600605054418, -16); (9899782261038060, -16); (9899945557067980, -16); (9900103500807507, -16); (9900248320990181, -16); (9900394023736973, -16);
  (9900532105829365, -16); (9900674746047259, -16); (9900814722948890, -16); (9900966926051257, -16); (9901122448734595, -16); (9901293790312005, -16); (9901474648912307, -16); (9901680598867444, -16);
  (9901902265696609, -16); (9902151896501201, -16); (9902424418296485, -16); (9902734448815004, -16); (9903071270768942, -16); (9903448913950654, -16); (9903862280081246, -16); (9904324484666853, -16);
  (9904825650601110, -16); (9905379830873822, -16); (9905980602136440, -16); (9906640366554630, -16); (9907348826312993, -16); (9908120376822228, -16); (9908947858311721, -16); (9909842592301273, -16);
  (9910795247770178, -16); (9911819240108124, -16); (9912905118607647, -16); (9914064705361564, -16); (9915288011543961, -16); (9916586940166509, -16); (9917952720685562, -16); (9919396217291009, -16);
  (9920906151219310, -16); (9922495028313456, -16); (9924152398352751, -16); (9925887208794144, -16); (9927688708468421, -16); (9929569112537944, -16); (9931516528513824, -16); (9933539244159140, -16);
  (9935626893131695, -16); (9937790866568735, -16); (9940016434044485, -16); (9942312024833810, -16); (9944668184371617, -16); (9947093441694513, -16); (9949572854565533, -16); (9952116634297566, -16);
  (9954712635321227, -16); (9957367951478069, -16); (9960068616185641, -16); (9962823025614079, -16); (9965617986382630, -16); (9968461329825753, -16); (9971338271912752, -16); (9974256691222113, -16);
  (9977203369515556, -16); (9980185087055744, -16); (9983185871761977, -16); (9986213520769593, -16); (9989255426466267, -16); (9992317314100975, -16); (9995382582242990, -16); (9998461160718275, -16);
  (1000153907612080, -15); (1000461955079660, -15); (1000768859280338, -15); (1001075613053728, -15); (1001380551217109, -15); (1001684244734497, -15); (1001985425397567, -15); (1002284871786226, -15);
  (1002580975161843, -15); (1002874411368430, -15); (1003163845364970, -15); (1003450063374329, -15); (1003731570287893, -15); (1004009147462043, -15); (1004281457582935, -15); (1004549339226336, -15);
  (1004811375053364, -15); (1005068272394360, -15); (1005318795748286, -15); (1005563968008037, -15); (1005802269635282, -15); (1006034554002353, -15); (1006259855360867, -15); (1006479018139540, -15);
  (1006690541428116, -15); (1006895570408563, -15); (1007093045696527, -15); (1007283799246233, -15); (1007466616298057, -15); (1007642728426847, -15); (1007811036585595, -15); (1007972441990187, -15);
  (1008125875904472, -15); (1008272602383284, -15); (1008411468616852, -15); (1008543573152632, -15); (1008668018334797, -15); (1008786009787269, -15); (1008896526233555, -15); (1009000766336071, -15);
  (1009097763850333, -15); (1009188880897370, -15); (1009273163797313, -15); (1009351762546296, -15); (1009423944949143, -15); (1009491175244507, -15); (1009552401900961, -15); (1009608886895764, -15);
  (1009659973830751, -15); (1009707093778162, -15); (1009749238562067, -15); (1009787744284661, -15); (1009822090220407, -15); (1009853706282597, -15); (1009881498943010, -15); (1009906958448099, -15);
  (1009929567021562, -15); (1009950573483366, -15); (1009969021400474, -15); (1009986499185054, -15); (1010002363879044, -15); (1010017890428877, -15); (1010032170180360, -15); (1010046722045583, -15);
  (1010060809299530, -15); (1010075674445289, -15); (1010090449982098, -15); (1010106564965965, -15); (1010123226584120, -15); (1010141762173145, -15); (1010161131093372, -15); (1010182635897876, -15);
  (1010205587931660, -15); (1010231078494249, -15); (1010257950227988, -15); (1010287732968580, -15); (1010319484524512, -15); (1010354079663767, -15); (1010390635488037, -15); (1010430470494512, -15);
  (1010472266495074, -15); (1010517096381509, -15); (1010564099281000, -15); (1010614266894512, -15); (1010666285876455, -15); (1010721360243234, -15); (1010778416755264, -15); (1010838252644461, -15);
  (1010899655674578, -15); (1010963729626641, -15); (1011029191301694, -15); (1011096993993037, -15); (1011165861239173, -15); (1011236610341260, -15); (1011308167670753, -15); (1011381453638912, -15);
  (1011454785713102, -15); (1011529185153809, -15); (1011603680910505, -15); (1011678803938046, -15); (1011753008569803, -15); (1011827484797985, -15); (1011900936547881, -15); (1011973876511603, -15);
  (1012044885003304, -15); (1012114985644919, -15); (1012182837094955, -15); (1012249023976742, -15); (1012312095063070, -15); (1012373028737774, -15); (1012430463679316, -15); (1012484972246822, -15);
  (1012535058602453, -15); (1012581678169188, -15); (1012623472898504, -15); (1012660975529858, -15); (1012692758750213, -15); (1012719789201144, -15); (1012740575296603, -15); (1012755753887085, -15);
  (1012763948841204, -15); (1012765922449960, -15); (1012760298661069, -15); (1012747819936584, -15); (1012726958954961, -15); (1012698607692183, -15); (1012661400539405, -15); (1012615904116265, -15);
  (1012560833005713, -15); (1012497050269805, -15); (1012422888521601, -15); (1012339226241367, -15); (1012244921966297, -15); (1012140460211194, -15); (1012024302085441, -15); (1011897560567707, -15);
  (1011758810583150, -15); (1011608449127642, -15); (1011445162723270, -15); (1011269960947744, -15); (1011081255645969, -15); (1010879608424312, -15); (1010663676735228, -15); (1010434184200640, -15);
  (1010189681124657, -15); (1009930754807923, -15); (1009655660215271, -15); (1009365251564694, -15); (1009058249873833, -15); (1008734758578989, -15); (1008393079963091, -15); (1008034308295421, -15);
  (1007656661215973, -15); (1007260142622887, -15); (1006843352506855, -15); (1006407009542103, -15); (1005949145170711, -15); (1005470005637052, -15); (1004967986424467, -15); (1004443531995945, -15);
  (1003894772403371, -15); (1003321903663793, -15); (1002723127308148, -15); (1002098854400575, -15); (1001447278873483, -15); (1000768505317086, -15); (1000060686758758, -15); (9993242684851855, -16);
  (9985573503390627, -16); (9977600196406868, -16); (9969306036935497, -16); (9960694269553644, -16); (9951746430061121, -16); (9942466438407230, -16); (9932837131068657, -16); (9922861082472264, -16);
  (9912523092989319, -16); (9901827419790691, -16); (9890757868707590, -16); (9879313024174022, -16); (9863553220272523, -16); (9847362453480265, -16); (9831750948772566, -16); (9815583336011345, -16);
  (9798613526271561, -16); (9780617486993630, -16); (9761574317374303, -16); (9741378617337759, -16); (9719990112065752, -16); (9697327413658168, -16); (9673331975559332, -16); (9647915124057732, -16);
  (9621011497566145, -16); (9592539757044516, -16); (9562427177295731, -16); (9530600909726344, -16); (9496984081652284, -16); (9461498120176854, -16); (9424071613625743, -16); (9384634163826711, -16);
  (9343112966094085, -16); (9299449872197452, -16); (9253567968750328, -16); (9205404627076625, -16); (9154896280575360, -16); (9101986790930605, -16); (9046620597741508, -16); (8988755194372424, -16);
  (8928338316495705, -16); (8865337190368053, -16); (8799712722567934, -16); (8731437835983047, -16); (8660476534563131, -16); (8586812520174252, -16); (8510420440685049, -16); (8431297226886574, -16);
  (8349435141989714, -16); (8264839911291133, -16); (8177505366573690, -16); (8087449817124315, -16); (7994681492797084, -16); (7899235162194718, -16); (7801137731566502, -16); (7700431275216928, -16);
  (7597145736971065, -16); (7491330971820804, -16); (7383028603058783, -16); (7272298755824693, -16); (7159201919962611, -16); (7043814340356083, -16); (6926196927377140, -16); (6806438831866077, -16);
  (6684616478236647, -16); (6560830137986515, -16); (6435179268559957, -16); (6307755329382612, -16); (6178641647786525, -16); (6047954625702541, -16); (5915799587176216, -16); (5782289366005894, -16);
  (5647535885752191, -16); (5511703155400274, -16); (5374905090437071, -16); (5237263500445715, -16); (5098915423728255, -16); (4960008074926423, -16); (4820662943337458, -16); (4681017110048007, -16);
  (4541216995958746, -16); (4401421815729068, -16); (4261772971493010, -16); (4122417888542512, -16); (3983499612526493, -16); (3845172335531009, -16); (3707583717376236, -16); (3570886786795506, -16);
  (3435228672445627, -16); (3300763764703638, -16); (3167640325043893, -16); (3036004651973109, -16); (2905996158436682, -16); (2777758503744847, -16); (2651434678028531, -16); (2527161881181577, -16);
  (2405069849650012, -16); (2285283969438072, -16); (2167933432162879, -16); (2053139897833021, -16); (1941021906320988, -16); (1831680872008943, -16); (1725221947208913, -16); (1621735416384834, -16);
  (1521320683467849, -16); (1424052801149985, -16); (1330015240938615, -16); (1239260664828526, -16); (1151858295527293, -16); (1067840430193724, -16); (9872637505002878, -17); (9101379000888035, -17);
  (8365057236623055, -17); (7663508305536153, -17); (6997033405748826, -17); (6365188111381365, -17); (5768176015814392, -17); (5205244216987966, -17); (4676538412257621, -17); (4180950541438362, -17);
  (3718640251368464, -17); (3288072750732215, -17); (2889548499582958, -17); (2520980565928884, -17); (2183057564646272, -17); (1872896194002638, -17); (1592127815153420, -17); (1336381425803020, -17);
  (1108558877807282, -17); (8943474189364638, -18); (6758124889697787, -18); (3504438130619497, -18); (0, -15); (0, -15); (0, -15); (0, -15);
  (0, -15); (0, -15); (0, -15); (0, -15); (0, -15); (0, -15); (0, -15); (0, -15);
  (0, -15); (0, -15); (0, -15); (0, -15); (0, -15); (0, -15); (0, -15); (0, -15);
  (0, -15); (0, -15); (0, -15); (0, -15); (0, -15); (0, -15); (0, -15); (0, -15);
  (0, -15); (0, -15); (0, -15); (0, -15); (0, -15); (0, -15); (0, -15); (0, -15);
  (0, -15); (0, -15); (0, -15); (0, -15); (0, -15); (0, -15); (0, -15); (0, -15);
  (0, -15); (0, -15); (0, -15); (0, -15); (0, -15); (0, -15); (0, -15); (0, -15);
  (0, -15); (0, -15); (0, -15); (0, -15); (0, -15); (0, -15); (0, -15); (0, -15);
  (0, -15); (0, -15); (0, -15); (0, -15); (0, -15); (0, -15); (0, -15); (0, -15);
  (0, -15); (0, -15); (0, -15); (0, -15); (0, -15); (0, -15); (0, -15); (0, -15);
  (0, -15); (0, -15); (0, -15); (0, -15); (0, -15); (0, -15); (0, -15); (0, -15);
  (0, -15); (0, -15); (0, -15); (0, -15); (0, -15); (0, -15); (0, -15); (0, -15);
  (0, -15); (0, -15); (0, -15); (0, -15); (0, -15); (0, -15); (0, -15); (0, -15);
  (0, -15); (0, -15); (0, -15); (0, -15); (0, -15); (0, -15); (0, -15); (0, -15);
  (0, -15); (0, -15); (0, -15); (0, -15); (0, -15); (0, -15); (0, -15); (0, -15);
  (0, -15); (0, -15); (0, -15); (0, -15); (0, -15); (0, -15); (0, -15); (0, -15);
  (0, -15); (0, -15); (0, -15); (0, -15); (0, -15); (0, -15); (0, -15); (0, -15);
  (0, -15); (0, -15); (0, -15); (0, -15); (0, -15); (0, -15); (0, -15); (0, -15);
  (0, -15); (0, -15); (0, -15); (0, -15); (0, -15); (0, -15); (0, -15); (0, -15);
  (0, -15); (0, -15); (0, -15); (0, -15); (0, -15); (0, -15); (0, -15); (0, -15);
  (0, -15); (0, -15); (0, -15); (0, -15); (0, -15); (0, -15); (0, -15); (0, -15);
  (0, -15); (0, -15); (0, -15); (0, -15); (0, -15); (0, -15); (0, -15); (0, -15);
  (0, -15); (0, -15); (0, -15); (0, -15); (0, -15); (0, -15); (0, -15); (0, -15)].

(* /repo/src/tables/mdct_windows.rs:560 *)
Definition W_N60_7P5MS : list (Z * Z) := [
  (2950608593187313, -18); (7175411316438510, -18); (1376953735371754, -17); (2309535564877266, -17); (3540362298325999, -17); (5082893035710152, -17); (6946962925951473, -17); (9138842778133426, -17);
  (1166045748296231, -16); (1450735459839195, -16); (1767111740534608, -16); (2113429529554800, -16); (2487686144599148, -16); (2887011017469859, -16); (3308238711499938, -16); (3748145444067251, -16);
  (4203080130472308, -16); (4669049179648736, -16); (5141853413578332, -16); (5617100406669413, -16); (6090263461524341, -16); (6556710162134097, -16); (7012183842298189, -16); (7452406787622362, -16);
  (7873692060484326, -16); (8272238334368036, -16); (8645136750188277, -16); (8989774146126214, -16); (9304075179845523, -16); (9585999373974852, -16); (9834477193784226, -16); (1004882833289021, -15);
  (1022853807278541, -15); (1037404947967044, -15); (1048597914202596, -15); (1056561843427440, -15); (1061493706243562, -15); (1063625783716980, -15); (1063259727973876, -15); (1060745048351166, -15);
  (1056435897894500, -15); (1050695001011264, -15); (1043924345068839, -15); (1036477246028582, -15); (1028728673666003, -15); (1021064859918030, -15); (1014006582262175, -15); (1007274550102931, -15);
  (1001722497437142, -15); (9973095916665831, -16); (9939851582601669, -16); (9916833348089591, -16); (9903253250249126, -16); (9898226125376152, -16); (9900747339893667, -16); (9909753143689592, -16);
  (9924128512256524, -16); (9942731493578623, -16); (9964391574315900, -16); (9987916157534086, -16); (1001209846205687, -15); (1003573567479612, -15); (1005759836364722, -15); (1007645153692818, -15);
  (1009106872290545, -15); (1010024764464639, -15); (1010282031682720, -15); (1009769188700535, -15); (1008386412173240, -15); (1006051238984656, -15); (1002697666156926, -15); (9982804644584213, -16);
  (9927779867939798, -16); (9861868921689572, -16); (9776341643922554, -16); (9674472695701162, -16); (9551297254161167, -16); (9403898774115922, -16); (9229592799642977, -16); (9026073499372684, -16);
  (8792026885629480, -16); (8526417497265664, -16); (8228812716163106, -16); (7899717151715774, -16); (7540303276706357, -16); (7152557417328465, -16); (6739369112409073, -16); (6304147162292445, -16);
  (5850788579084674, -16); (5383985182966198, -16); (4908337531732809, -16); (4428858232573716, -16); (3950910240537553, -16); (3480043431985102, -16); (3021967102409465, -16); (2582274305805284, -16);
  (2166414164389013, -16); (1779221215201146, -16); (1424805471287674, -16); (1106521943353717, -16); (8269959669528287, -17); (5883345162013132, -17); (3920308484545646, -17); (2386291074479415, -17);
  (1269762234246248, -17); (5356653610215987, -18); (0, -15); (0, -15); (0, -15); (0, -15); (0, -15); (0, -15);
  (0, -15); (0, -15); (0, -15); (0, -15); (0, -15); (0, -15); (0, -15); (0, -15)].

(* /repo/src/tables/mdct_windows.rs:588 *)
Definition W_N120_7P5MS : list (Z * Z) := [
  (2208248743046650, -18); (3810144195090351, -18); (5915524734289813, -18); (8583614568030036, -18); (1187597226083452, -17); (1583353014097089, -17); (2049186515516006, -17); (2588835928921542, -17);
  (3204158944817544, -17); (3896167212395468, -17); (4667421691393490, -17); (5518493372761350, -17); (6450383844383757, -17); (7464110714806732, -17); (8560001618878993, -17); (9738467025048170, -17);
  (1099936025389733, -16); (1234192774722812, -16); (1376554565476283, -16); (1526904374639564, -16); (1685133626404965, -16); (1850931046131430, -16); (2024104194879864, -16); (2204503651331880, -16);
  (2391679406203077, -16); (2585261682883327, -16); (2784985387736362, -16); (2990384315995911, -16); (3201048623655521, -16); (3416586222430363, -16); (3636600340252121, -16); (3860626951895035, -16);
  (4088152724594432, -16); (4318710458458660, -16); (4551769877048139, -16); (4786765926352632, -16); (5023248131381035, -16); (5260609162248473, -16); (5498312828850233, -16); (5735768827770059, -16);
  (5972413384410342, -16); (6207702424193973, -16); (6440996624336124, -16); (6671763816763950, -16); (6899588537658654, -16); (7123799800931302, -16); (7343963718694788, -16); (7559666880505324, -16);
  (7770369811015168, -16); (7975581136897942, -16); (8174908555311138, -16); (8367969496408532, -16); (8554473095679163, -16); (8734007983991156, -16); (8906357189698083, -16); (9071287701238782, -16);
  (9228487835702877, -16); (9377633225341820, -16); (9518602062527468, -16); (9651306001536289, -16); (9775565405467248, -16); (9891262086779957, -16); (9998469191683163, -16); (1009700729703874, -15);
  (1018682286908352, -15); (1026814550859190, -15); (1034089812751720, -15); (1040511956629397, -15); (1046108368522362, -15); (1050885649534276, -15); (1054862887578656, -15); (1058072205849552, -15);
  (1060534138670111, -15); (1062276617517642, -15); (1063338150260194, -15); (1063755566766962, -15); (1063566320618061, -15); (1062821557530121, -15); (1061559958917576, -15); (1059817091581481, -15);
  (1057658760384513, -15); (1055120057365395, -15); (1052239850719546, -15); (1049087785713381, -15); (1045698595146235, -15); (1042108306824389, -15); (1038380985588667, -15); (1034552762539362, -15);
  (1030671997181282, -15); (1026791666942681, -15); (1022955584022344, -15); (1019207332137853, -15); (1015872887197225, -15); (1012210174593533, -15); (1008845591036958, -15); (1005778512486221, -15);
  (1003002618498964, -15); (1000514601809148, -15); (9983092287560527, -16); (9963786013745719, -16); (9947181322797367, -16); (9933162157118496, -16); (9921669569649387, -16); (9912586027088507, -16);
  (9905811038723256, -16); (9901231181863754, -16); (9898737119947000, -16); (9898187066647253, -16); (9899468001787191, -16); (9902431753677082, -16); (9906955635514434, -16); (9912885401035934, -16);
  (9920094690635668, -16); (9928426927501408, -16); (9937750666306635, -16); (9947903979828719, -16); (9958755336221258, -16); (9970143670156726, -16); (9981928706842119, -16); (9993945064762333, -16);
  (1000605860368296, -15); (1001810400944408, -15); (1002994573682287, -15); (1004141548053574, -15); (1005236884099094, -15); (1006263925890636, -15); (1007208903587772, -15); (1008054893814649, -15);
  (1008788016348394, -15); (1009391822060050, -15); (1009852958217732, -15); (1010155293011166, -15); (1010286018304889, -15); (1010229878703309, -15); (1009975407736885, -15); (1009508455280294, -15);
  (1008818483155921, -15); (1007894884001199, -15); (1006728757854175, -15); (1005309913983530, -15); (1003634560818982, -15); (1001693634792953, -15); (9994856628696702, -16); (9970063702291652, -16);
  (9942546868773952, -16); (9912319673936767, -16); (9879371153343368, -16); (9843751246861034, -16); (9798909633127684, -16); (9752698788428587, -16); (9701804980040253, -16); (9645800268203278, -16);
  (9584255335155275, -16); (9516840138455831, -16); (9443202322315050, -16); (9362906241698766, -16); (9275805069442316, -16); (9181534137230351, -16); (9079765240138057, -16); (8970500584793123, -16);
  (8853513603848177, -16); (8728579265043998, -16); (8595798186504622, -16); (8455026150386550, -16); (8306199433014801, -16); (8149466481575340, -16); (7984893775294407, -16); (7812624496601451, -16);
  (7632917692550881, -16); (7445908434203883, -16); (7251992870809165, -16); (7051536683608545, -16); (6844905446038185, -16); (6632452099313783, -16); (6414771616618185, -16); (6192353336355413, -16);
  (5965591325427860, -16); (5735199893648143, -16); (5501738510234542, -16); (5265685382300127, -16); (5027811586638018, -16); (4788608890561979, -16); (4548778943490807, -16); (4308981228989757, -16);
  (4069939642056274, -16); (3832340305827807, -16); (3596800983344559, -16); (3364081000913040, -16); (3134964181526467, -16); (2910105654938709, -16); (2690195851087463, -16); (2475843475618672, -16);
  (2267884333851992, -16); (2066777706538489, -16); (1873103432384193, -16); (1687396441250691, -16); (1510123820588979, -16); (1341718422797088, -16); (1182546623256353, -16); (1032907339774596, -16);
  (8931173602725516, -17); (7634297866041775, -17); (6440772914585903, -17); (5352437147393933, -17); (4370844528199230, -17); (3496670991534089, -17); (2729846292648297, -17); (2068958080348781, -17);
  (1511251252352759, -17); (1052287538118900, -17); (6855473143120779, -18); (4023511190940974, -18); (0, -15); (0, -15); (0, -15); (0, -15);
  (0, -15); (0, -15); (0, -15); (0, -15); (0, -15); (0, -15); (0, -15); (0, -15);
  (0, -15); (0, -15); (0, -15); (0, -15); (0, -15); (0, -15); (0, -15); (0, -15);
  (0, -15); (0, -15); (0, -15); (0, -15); (0, -15); (0, -15); (0, -15); (0, -15)].

(* /repo/src/tables/mdct_windows.rs:640 *)
Definition W_N180_7P5MS : list (Z * Z) := [
  (1970849076512990, -18); (2950608593187313, -18); (4124477213467950, -18); (5526886639437362, -18); (7175411316438510, -18); (9087577304291669, -18); (1128191051703656, -17); (1376953735371754, -17);
  (1656002661605294, -17); (1966508945492317, -17); (2309535564877266, -17); (2686128938982976, -17); (3096325597431720, -17); (3540362298325999, -17); (4019156101100901, -17); (4533314033337320, -17);
  (5082893035710152, -17); (5668154478534839, -17); (6289353044640154, -17); (6946962925951473, -17); (7641063136809326, -17); (8371600156519982, -17); (9138842778133426, -17); (9942940076792395, -17);
  (1078347249723074, -16); (1166045748296231, -16); (1257365027864348, -16); (1352268113395951, -16); (1450735459839195, -16); (1552738186648721, -16); (1658221942341435, -16); (1767111740534608, -16);
  (1879287758848813, -16); (1994731798188807, -16); (2113429529554800, -16); (2235245540318082, -16); (2360030996517997, -16); (2487686144599148, -16); (2618138107489893, -16); (2751291608544314, -16);
  (2887011017469859, -16); (3025140336309949, -16); (3165588052366450, -16); (3308238711499938, -16); (3452955666730954, -16); (3599639915662127, -16); (3748145444067251, -16); (3898318165532388, -16);
  (4050010096015846, -16); (4203080130472308, -16); (4357395152859960, -16); (4512778173547499, -16); (4669049179648736, -16); (4826090405673480, -16); (4983754662664123, -16); (5141853413578332, -16);
  (5300214783136831, -16); (5458693517886994, -16); (5617100406669413, -16); (5775281514417204, -16); (5933046964262578, -16); (6090263461524341, -16); (6246741889386914, -16); (6402275547146322, -16);
  (6556710162134097, -16); (6709959346439072, -16); (6861845587972498, -16); (7012183842298189, -16); (7160784485622184, -16); (7307560841550591, -16); (7452406787622362, -16); (7595151215738793, -16);
  (7735619554086122, -16); (7873692060484326, -16); (8009231377307978, -16); (8142113863131932, -16); (8272238334368036, -16); (8399523741938065, -16); (8523861023610134, -16); (8645136750188277, -16);
  (8763240788355384, -16); (8878142883924764, -16); (8989774146126214, -16); (9098033189281092, -16); (9202843119253094, -16); (9304075179845523, -16); (9401696522166354, -16); (9495677949302647, -16);
  (9585999373974852, -16); (9672602600117832, -16); (9755451659417252, -16); (9834477193784226, -16); (9909719572606611, -16); (9981192686440387, -16); (1004882833289021, -15); (1011257731140136, -15);
  (1017244362189382, -15); (1022853807278541, -15); (1028087338709125, -15); (1032937063258800, -15); (1037404947967044, -15); (1041501641198980, -15); (1045232355730946, -15); (1048597914202596, -15);
  (1051603395002874, -15); (1054255050268478, -15); (1056561843427440, -15); (1058534002822506, -15); (1060174135407872, -15); (1061493706243562, -15); (1062499430330238, -15); (1063205771472337, -15);
  (1063625783716980, -15); (1063764865344437, -15); (1063637778334477, -15); (1063259727973876, -15); (1062646953245063, -15); (1061804962699513, -15); (1060745048351166, -15); (1059484915739590, -15);
  (1058045332777575, -15); (1056435897894500, -15); (1054662178717384, -15); (1052740474459255, -15); (1050695001011264, -15); (1048538935354313, -15); (1046278982648917, -15); (1043924345068839, -15);
  (1041495397384132, -15); (1039010026880522, -15); (1036477246028582, -15); (1033907928361672, -15); (1031319893754215, -15); (1028728673666003, -15); (1026148319362665, -15); (1023589880840269, -15);
  (1021064859918030, -15); (1018562619376553, -15); (1016557703375972, -15); (1014006582262175, -15); (1011629525863078, -15); (1009385901800645, -15); (1007274550102931, -15); (1005296164582239, -15);
  (1003445259887302, -15); (1001722497437142, -15); (1000127924463537, -15); (9986575334669062, -16); (9973095916665831, -16); (9960835710929218, -16); (9949765689814285, -16); (9939851582601669, -16);
  (9931075300522219, -16); (9923413052310536, -16); (9916833348089591, -16); (9911300696314259, -16); (9906783251641723, -16); (9903253250249126, -16); (9900675621816006, -16); (9899012818722897, -16);
  (9898226125376152, -16); (9898278454016073, -16); (9899132411259368, -16); (9900747339893667, -16); (9903082558387314, -16); (9906098517881138, -16); (9909753143689592, -16); (9914003304461825, -16);
  (9918809661701072, -16); (9924128512256524, -16); (9929917790758115, -16); (9936133813858116, -16); (9942731493578623, -16); (9949669577858075, -16); (9956903701113655, -16); (9964391574315900, -16);
  (9972085721948355, -16); (9979942749676792, -16); (9987916157534086, -16); (9995960619759856, -16); (1000404101255877, -15); (1001209846205687, -15); (1002009756050340, -15); (1002799241686241, -15);
  (1003573567479612, -15); (1004328283187225, -15); (1005058501867633, -15); (1005759836364722, -15); (1006427669689071, -15); (1007057682723931, -15); (1007645153692818, -15); (1008185492117307, -15);
  (1008674265369618, -15); (1009106872290545, -15); (1009479158919060, -15); (1009786593319936, -15); (1010024764464639, -15); (1010189538289831, -15); (1010276690684798, -15); (1010282031682720, -15);
  (1010201742651156, -15); (1010032080837507, -15); (1009769188700535, -15); (1009409386073207, -15); (1008949310126241, -15); (1008386412173240, -15); (1007717803066923, -15); (1006940305796912, -15);
  (1006051238984656, -15); (1005048793283357, -15); (1003931827630468, -15); (1002697666156926, -15); (1001344271172154, -15); (9998720918990379, -16); (9982804644584213, -16); (9965665691741982, -16);
  (9947317370056415, -16); (9927779867939798, -16); (9907013741881066, -16); (9885041652445283, -16); (9861868921689572, -16); (9837119886839835, -16); (9805846431095010, -16); (9776341643922554, -16);
  (9744550331507363, -16); (9710629155613092, -16); (9674472695701162, -16); (9635939262874074, -16); (9594913983473223, -16); (9551297254161167, -16); (9505013259120755, -16); (9455928103144016, -16);
  (9403898774115922, -16); (9348867604141315, -16); (9290805587106350, -16); (9229592799642976, -16); (9165095791928667, -16); (9097244560733702, -16); (9026073499372684, -16); (8951550837577193, -16);
  (8873561542082500, -16); (8792026885629480, -16); (8706996978416294, -16); (8618474244579353, -16); (8526417497265664, -16); (8430778332415034, -16); (8331549046805315, -16); (8228812716163106, -16);
  (8122575969197091, -16); (8012854392434710, -16); (7899717151715774, -16); (7783181771724644, -16); (7663377104116385, -16); (7540303276706357, -16); (7414079909457567, -16); (7284775008035390, -16);
  (7152557417328465, -16); (7017517394571592, -16); (6879756318118113, -16); (6739369112409073, -16); (6596525732013095, -16); (6451394890668392, -16); (6304147162292445, -16); (6154836219271654, -16);
  (6003658519413984, -16); (5850788579084674, -16); (5696495364564049, -16); (5540848098312343, -16); (5383985182966198, -16); (5226147377537511, -16); (5067568049662954, -16); (4908337531732726, -16);
  (4748660326525270, -16); (4588765658108130, -16); (4428858232573716, -16); (4269065392300330, -16); (4109709733914872, -16); (3950910240537540, -16); (3792913270170828, -16); (3635874169858631, -16);
  (3480043431985094, -16); (3325632006175457, -16); (3172874848823412, -16); (3021967102409465, -16); (2873094025754711, -16); (2726439916003860, -16); (2582274305805277, -16); (2440728561740129, -16);
  (2302089773823469, -16); (2166414164389010, -16); (2033984806897052, -16); (1904861615463941, -16); (1779221215201146, -16); (1657266744835887, -16); (1539063966799855, -16); (1424805471287671, -16);
  (1314539801011583, -16); (1208417782380949, -16); (1106521943353716, -16); (1008917341936222, -16); (9157188508647542, -17); (8269959669528287, -17); (7428155288862677, -17); (6632423815331720, -17);
  (5883345162013123, -17); (5181406762377953, -17); (4526983455651076, -17); (3920308484545643, -17); (3361441594214110, -17); (2850233081562859, -17); (2386291074479415, -17); (1968942265531783, -17);
  (1597205270240860, -17); (1269762234246247, -17); (9849377394464552, -18); (7407244632998355, -18); (5356653610215985, -18); (3832265518746914, -18); (0, -15); (0, -15);
  (0, -15); (0, -15); (0, -15); (0, -15); (0, -15); (0, -15); (0, -15); (0, -15);
  (0, -15); (0, -15); (0, -15); (0, -15); (0, -15); (0, -15); (0, -15); (0, -15);
  (0, -15); (0, -15); (0, -15); (0, -15); (0, -15); (0, -15); (0, -15); (0, -15);
  (0, -15); (0, -15); (0, -15); (0, -15); (0, -15); (0, -15); (0, -15); (0, -15);
  (0, -15); (0, -15); (0, -15); (0, -15); (0, -15); (0, -15); (0, -15); (0, -15)].

(* /repo/src/tables/mdct_windows.rs:716 *)
Definition W_N240_7P5MS : list (Z * Z) := [
  (1848330370601890, -18); (2564818394430541, -18); (3367621175255762, -18); (4287366172947020, -18); (5338301429131479, -18); (6526792229804446, -18); (7861125872744963, -18); (9346281793294168, -18);
  (1099168677073023, -17); (1280111724327587, -17); (1478059105262588, -17); (1693070430750747, -17); (1925923070409017, -17); (2176969372101092, -17); (2446859826144651, -17); (2735565427385896, -17);
  (3043192302576378, -17); (3369804639006632, -17); (3715835772551574, -17); (4081481795207546, -17); (4467080684234739, -17); (4872629952625619, -17); (5298206325441551, -17); (5743824696664848, -17);
  (6209685798752235, -17); (6696097666085293, -17); (7202983636789818, -17); (7730391464771366, -17); (8278255740953620, -17); (8846821015931731, -17); (9436075664518449, -17); (1004602720036002, -16);
  (1067638237504515, -16); (1132736794406103, -16); (1199864202730101, -16); (1269035206805856, -16); (1340208531277774, -16); (1413395568701277, -16); (1488572112889720, -16); (1565736853381255, -16);
  (1644846220563571, -16); (1725890765381433, -16); (1808790898204713, -16); (1893543196006846, -16); (1980122435284018, -16); (2068541409946420, -16); (2158753187570538, -16); (2250686723708130, -16);
  (2344274072499690, -16); (2439483137105153, -16); (2536279928378056, -16); (2634640609879333, -16); (2734504944781370, -16); (2835821889865098, -16); (2938534694786572, -16); (3042573734615632, -16);
  (3147909140113310, -16); (3254491234269504, -16); (3362274096618026, -16); (3471187602907065, -16); (3581201769604495, -16); (3692246633783371, -16); (3804277928712796, -16); (3917200227416179, -16);
  (4030970221548365, -16); (4145519552168687, -16); (4260817186124239, -16); (4376763184816823, -16); (4493301956572350, -16); (4610348550393067, -16); (4727860432828289, -16); (4845767771787368, -16);
  (4964017067665196, -16); (5082524575564947, -16); (5201220784839651, -16); (5320020770005417, -16); (5438880897441558, -16); (5557716011811357, -16); (5676457387746829, -16); (5795027863150121, -16);
  (5913350345927856, -16); (6031383674734400, -16); (6149041716859808, -16); (6266239411056014, -16); (6382888344252021, -16); (6498933747767719, -16); (6614323601501731, -16); (6729025139063478, -16);
  (6842937498334491, -16); (6956004595358826, -16); (7068117836489756, -16); (7179234245192330, -16); (7289313857272890, -16); (7398327727973596, -16); (7506189823719328, -16); (7612840534177552, -16);
  (7718189187016244, -16); (7822209919639922, -16); (7924813304551203, -16); (8025994477230463, -16); (8125652295019083, -16); (8223771289200885, -16); (8320305183749199, -16); (8415232076745133, -16);
  (8508483129483138, -16); (8600024117819522, -16); (8689798808251054, -16); (8777783467294870, -16); (8863959039558345, -16); (8948294207910807, -16); (9030776256602892, -16); (9111326521556180, -16);
  (9189935853649371, -16); (9266529369336567, -16); (9341114204165168, -16); (9413643442928993, -16); (9484129673709889, -16); (9552556295973936, -16); (9618920131378678, -16); (9683163629086772, -16);
  (9745301563621191, -16); (9805283381417256, -16); (9863139277672938, -16); (9918860486198928, -16); (9972463447664014, -16); (1002391896644578, -15); (1007319464375827, -15); (1012027073435850, -15);
  (1016516541512393, -15); (1020794302688699, -15); (1024860815794490, -15); (1028714705809749, -15); (1032351702719174, -15); (1035773750472822, -15); (1038984315074006, -15); (1041987855398911, -15);
  (1044785643573356, -15); (1047378184121997, -15); (1049767431495211, -15); (1051954045543143, -15); (1053942898562160, -15); (1055734631473796, -15); (1057341767323983, -15); (1058757264938716, -15);
  (1059986744473714, -15); (1061036716870687, -15); (1061906510844496, -15); (1062603694906377, -15); (1063132893292572, -15); (1063502373941053, -15); (1063709808061891, -15); (1063763223461893, -15);
  (1063667646046172, -15); (1063430118187021, -15); (1063056564385666, -15); (1062554210368898, -15); (1061922346664364, -15); (1061167017783231, -15); (1060294689234573, -15); (1059314689493745, -15);
  (1058234647303768, -15); (1057058907527535, -15); (1055789482473656, -15); (1054429786866560, -15); (1052987925902714, -15); (1051475051645344, -15); (1049899300533228, -15); (1048262129495776, -15);
  (1046566906015578, -15); (1044816992642391, -15); (1043021249196200, -15); (1041187680907488, -15); (1039323391025476, -15); (1037431684165083, -15); (1035517573311265, -15); (1033585105989712, -15);
  (1031643708543028, -15); (1029699545977279, -15); (1027759438517856, -15); (1025827187037112, -15); (1023907910886626, -15); (1022008050685529, -15); (1020139101207016, -15); (1018263100813380, -15);
  (1016879010849981, -15); (1014921948187593, -15); (1013096623369458, -15); (1011342052440818, -15); (1009659122960534, -15); (1008050363886717, -15); (1006517540250988, -15); (1005057992517306, -15);
  (1003669560904293, -15); (1002353273092562, -15); (1001109808447114, -15); (9999375230640204, -16); (9988345237783536, -16); (9978006059268592, -16); (9968357558473706, -16); (9959388811568640, -16);
  (9951084589555501, -16); (9943434110903315, -16); (9936429211981983, -16); (9930058324270904, -16); (9924309837770386, -16); (9919174926403282, -16); (9914638980147298, -16); (9910682139572967, -16);
  (9907292184488009, -16); (9904462245644213, -16); (9902178185518503, -16); (9900419630667118, -16); (9899170852600004, -16); (9898419746989491, -16); (9898150482937847, -16); (9898343291371600, -16);
  (9898982107247224, -16); (9900054030605746, -16); (9901541892638673, -16); (9903424269195302, -16); (9905684589910844, -16); (9908309527413479, -16); (9911280379271901, -16); (9914575656842904, -16);
  (9918178809274675, -16); (9922075589719793, -16); (9926247572992801, -16); (9930673584123647, -16); (9935333982795475, -16); (9940214100660039, -16); (9945296851337717, -16); (9950559636181178, -16);
  (9955983505434736, -16); (9961555801042186, -16); (9967256267769223, -16); (9973060922083319, -16); (9978952138542876, -16); (9984914406319209, -16); (9990928899877792, -16); (9996970625756828, -16);
  (1000303029223210, -15); (1000907933607887, -15); (1001510838557739, -15); (1002109225614564, -15); (1002701184533730, -15); (1003285129964668, -15); (1003859256498246, -15); (1004421109631332, -15);
  (1004968601327613, -15); (1005500403806944, -15); (1006014548452834, -15); (1006508690831783, -15); (1006981038626341, -15); (1007430041056790, -15); (1007853640055005, -15); (1008249618432853, -15);
  (1008616036239346, -15); (1008951378362138, -15); (1009253896674588, -15); (1009521341935844, -15); (1009751751331617, -15); (1009943714668776, -15); (1010095497366507, -15); (1010204876790192, -15);
  (1010270073045154, -15); (1010289752336835, -15); (1010262269696272, -15); (1010185615431975, -15); (1010058196828792, -15); (1009878817836722, -15); (1009645930489341, -15); (1009357533197330, -15);
  (1009012281815637, -15); (1008609594360786, -15); (1008148366592626, -15); (1007626743165711, -15); (1007043430506158, -15); (1006397749801444, -15); (1005688767931258, -15); (1004915585834316, -15);
  (1004077678781271, -15); (1003174288376062, -15); (1002204242070086, -15); (1001166836141424, -15); (1000062480839591, -15); (9988914218622672, -16); (9976522518001048, -16); (9963438555404762, -16);
  (9949674620221296, -16); (9935246630184282, -16); (9920139269077016, -16); (9904332831340030, -16); (9887851470099116, -16); (9870726808604894, -16); (9852974426119764, -16); (9834011611313795, -16);
  (9809494177655508, -16); (9787827290446353, -16); (9764682383490441, -16); (9740428502007106, -16); (9714988482797869, -16); (9688299679017578, -16); (9660309739278938, -16); (9630951038651144, -16);
  (9600181976898812, -16); (9567957384046786, -16); (9534262666962353, -16); (9499034823039632, -16); (9462221151684139, -16); (9423758195026390, -16); (9383617015143452, -16); (9341777978631194, -16);
  (9298231239088762, -16); (9252923195046721, -16); (9205801200661107, -16); (9156797929682001, -16); (9105906042938267, -16); (9053150301587091, -16); (8998527561071954, -16); (8941994971184931, -16);
  (8883501524279332, -16); (8823016313374981, -16); (8760548741525249, -16); (8696123849407055, -16); (8629727993296973, -16); (8561351975749198, -16); (8490981786073120, -16); (8418570243421116, -16);
  (8344140550191105, -16); (8267746168752393, -16); (8189392440268611, -16); (8109048914872936, -16); (8026753184506191, -16); (7942537505258295, -16); (7856416615920516, -16); (7768386086617421, -16);
  (7678531932560713, -16); (7586851806705738, -16); (7493306577133620, -16); (7398091711550503, -16); (7301099443577747, -16); (7202477806201014, -16); (7102241609901638, -16); (7000443258461506, -16);
  (6897118895404929, -16); (6792311541046628, -16); (6686081789247391, -16); (6578509967842496, -16); (6469657182336516, -16); (6359596166227444, -16); (6248403358991607, -16); (6136035026791002, -16);
  (6022650906421884, -16); (5908290833732823, -16); (5793094079430561, -16); (5677111240020907, -16); (5560374156751429, -16); (5442936643492620, -16); (5324897680536480, -16); (5206360841136255, -16);
  (5087432727680400, -16); (4968111660413653, -16); (4848498807089364, -16); (4728681073650310, -16); (4608759183794885, -16); (4488810806327018, -16); (4368910387727512, -16); (4249120223507826, -16);
  (4129606031641687, -16); (4010358962877044, -16); (3891578667449375, -16); (3773221988116735, -16); (3655437668630012, -16); (3538323564250667, -16); (3421961154339837, -16); (3306448201086834, -16);
  (3191875589898712, -16); (3078333093391901, -16); (2965881816516454, -16); (2854637165360221, -16); (2744624088577634, -16); (2636095844768899, -16); (2528831011433226, -16); (2423234889711821, -16);
  (2319257462841697, -16); (2216908373695833, -16); (2116380576950307, -16); (2017669202945304, -16); (1920822358183417, -16); (1825891600132626, -16); (1733059967407588, -16); (1642292000450303, -16);
  (1553626542479246, -16); (1467170785977411, -16); (1382993914151456, -16); (1301050780767305, -16); (1221453099291547, -16); (1144234581921691, -16); (1069410759923033, -16); (9970258934460623, -17);
  (9271242833748693, -17); (8597374270620267, -17); (7948933111952143, -17); (7326165794605345, -17); (6729341023108891, -17); (6158740810076327, -17); (5614580025932222, -17); (5097007470356519, -17);
  (4606170471457775, -17); (4142201169265410, -17); (3705141887506228, -17); (3294946662279392, -17); (2911533269413120, -17); (2554764013238235, -17); (2224377112828603, -17); (1920006589797908, -17);
  (1641222045266977, -17); (1387476111201306, -17); (1158063529909875, -17); (9522136642215920, -18); (7691373795814687, -18); (6072078331193099, -18); (4625812168742676, -18); (3606851641625968, -18);
  (0, -15); (0, -15); (0, -15); (0, -15); (0, -15); (0, -15); (0, -15); (0, -15);
  (0, -15); (0, -15); (0, -15); (0, -15); (0, -15); (0, -15); (0, -15); (0, -15);
  (0, -15); (0, -15); (0, -15); (0, -15); (0, -15); (0, -15); (0, -15); (0, -15);
  (0, -15); (0, -15); (0, -15); (0, -15); (0, -15); (0, -15); (0, -15); (0, -15);
  (0, -15); (0, -15); (0, -15); (0, -15); (0, -15); (0, -15); (0, -15); (0, -15);
  (0, -15); (0, -15); (0, -15); (0, -15); (0, -15); (0, -15); (0, -15); (0, -15);
  (0, -15); (0, -15); (0, -15); (0, -15); (0, -15); (0, -15); (0, -15); (0, -15)].

(* /repo/src/tables/mdct_windows.rs:816 *)
Definition W_N360_7P5MS : list (Z * Z) := [
  (1721526681611966, -18); (2208248743046650, -18); (2689017522595345, -18); (3226133417706577, -18); (3810144195090351, -18); (4453719317184182, -18); (5153692399681317, -18); (5915524734289813, -18);
  (6738691584410875, -18); (7628618406907552, -18); (8583614568030036, -18); (9609384374613759, -18); (1070607532160120, -17); (1187597226083452, -17); (1311901297315944, -17); (1443901078588673, -17);
  (1583353014097089, -17); (1730630810758647, -17); (1885847112173313, -17); (2049186515516006, -17); (2220614764140174, -17); (2400571662419946, -17); (2588835928921542, -17); (2785523259150068, -17);
  (2990591454016386, -17); (3204158944817544, -17); (3426100132985917, -17); (3656809727321165, -17); (3896167212395468, -17); (4144358235567028, -17); (4401407955156517, -17); (4667421691393490, -17);
  (4942146249896087, -17); (5225884889914327, -17); (5518493372761350, -17); (5820051428449914, -17); (6130598448769178, -17); (6450383844383757, -17); (6779139227807153, -17); (7117078328947134, -17);
  (7464110714806732, -17); (7820280530933912, -17); (8185495207937329, -17); (8560001618878993, -17); (8943576174662307, -17); (9336425891679158, -17); (9738467025048170, -17); (1014967178422148, -16);
  (1056987601379146, -16); (1099936025389733, -16); (1143782870006880, -16); (1188535076446910, -16); (1234192774722812, -16); (1280759966861818, -16); (1328205805921621, -16); (1376554565476283, -16);
  (1425786478649834, -16); (1475905216894996, -16); (1526904374639564, -16); (1578788527293271, -16); (1631525285166384, -16); (1685133626404965, -16); (1739579689655531, -16); (1794847365410843, -16);
  (1850931046131430, -16); (1907848350801405, -16); (1965564972779563, -16); (2024104194879864, -16); (2083454334275949, -16); (2143598248322309, -16); (2204503651331880, -16); (2266172963796335, -16);
  (2328562792793315, -16); (2391679406203077, -16); (2455506417347264, -16); (2520039508016560, -16); (2585261682883327, -16); (2651184076263592, -16); (2717759113203786, -16); (2784985387736362, -16);
  (2852846062288917, -16); (2921324591263930, -16); (2990384315995911, -16); (3060042559686472, -16); (3130265290443111, -16); (3201048623655521, -16); (3272373243719107, -16); (3344232095441687, -16);
  (3416586222430363, -16); (3489449761645191, -16); (3562792519116003, -16); (3636600340252121, -16); (3710851463600319, -16); (3785543267164805, -16); (3860626951895035, -16); (3936105536140438, -16);
  (4011952247532815, -16); (4088152724594432, -16); (4164684603494585, -16); (4241554113955093, -16); (4318710458458660, -16); (4396147439144481, -16); (4473840194903529, -16); (4551769877048139, -16);
  (4629901375019677, -16); (4708246187885389, -16); (4786765926352632, -16); (4865454331135768, -16); (4944287144003222, -16); (5023248131381035, -16); (5102294714645887, -16); (5181429265558146, -16);
  (5260609162248473, -16); (5339828176544869, -16); (5419068167854945, -16); (5498312828850233, -16); (5577512337479950, -16); (5656676362338563, -16); (5735768827770059, -16); (5814766655477682, -16);
  (5893646610908023, -16); (5972413384410342, -16); (6051020131945327, -16); (6129461702965266, -16); (6207702424193973, -16); (6285720938000074, -16); (6363485261821292, -16); (6440996624336124, -16);
  (6518209733012164, -16); (6595138217057872, -16); (6671763816763950, -16); (6748067951703918, -16); (6824007108459023, -16); (6899588537658654, -16); (6974757223488888, -16); (7049501447553026, -16);
  (7123799800931302, -16); (7197654340542331, -16); (7271038329243241, -16); (7343963718694788, -16); (7416385606661200, -16); (7488296394277816, -16); (7559666880505324, -16); (7630492594418218, -16);
  (7700722734566787, -16); (7770369811015168, -16); (7839411079555614, -16); (7907812565704104, -16); (7975581136897942, -16); (8042713809653173, -16); (8109149005929875, -16); (8174908555311138, -16);
  (8239970937711972, -16); (8304327850184938, -16); (8367969496408532, -16); (8430892979726279, -16); (8493058471422328, -16); (8554473095679163, -16); (8615110365133289, -16); (8674962806836773, -16);
  (8734007983991156, -16); (8792275183442975, -16); (8849724383046952, -16); (8906357189698083, -16); (8962171727097513, -16); (9017164138681113, -16); (9071287701238782, -16); (9124565781610174, -16);
  (9176972608396821, -16); (9228487835702877, -16); (9279099172570797, -16); (9328825964768623, -16); (9377633225341820, -16); (9425533559491475, -16); (9472524281763984, -16); (9518602062527468, -16);
  (9563760599307146, -16); (9608006016536426, -16); (9651306001536289, -16); (9693666888567923, -16); (9735088121912839, -16); (9775565405467248, -16); (9815072260762016, -16); (9853645802900605, -16);
  (9891262086779957, -16); (9927942006806012, -16); (9963675450849775, -16); (9998469191683163, -16); (1003228124845146, -15); (1006513411821911, -15); (1009700729703874, -15); (1012790289606342, -15);
  (1015782934360887, -15); (1018682286908352, -15); (1021486570410198, -15); (1024197718428813, -15); (1026814550859190, -15); (1029335981099974, -15); (1031760429936344, -15); (1034089812751720, -15);
  (1036323258515780, -15); (1038463607653629, -15); (1040511956629397, -15); (1042468314695544, -15); (1044333310154580, -15); (1046108368522362, -15); (1047790183156567, -15); (1049383335559126, -15);
  (1050885649534276, -15); (1052299234616223, -15); (1053625218490635, -15); (1054862887578656, -15); (1056015206502275, -15); (1057087459299065, -15); (1058072205849552, -15); (1058975241719203, -15);
  (1059794467230661, -15); (1060534138670111, -15); (1061194118632638, -15); (1061773655564821, -15); (1062276617517642, -15); (1062703237255151, -15); (1063055685508735, -15); (1063338150260194, -15);
  (1063547997184066, -15); (1063686067900426, -15); (1063755566766962, -15); (1063757434953141, -15); (1063693583520601, -15); (1063566320618061, -15); (1063377073891492, -15); (1063127819699189, -15);
  (1062821557530121, -15); (1062457815392427, -15); (1062036342819983, -15); (1061559958917576, -15); (1061029510184661, -15); (1060447965083549, -15); (1059817091581481, -15); (1059141628118411, -15);
  (1058421358875364, -15); (1057658760384513, -15); (1056853774077034, -15); (1056007614360998, -15); (1055120057365395, -15); (1054195045438248, -15); (1053233455551333, -15); (1052239850719546, -15);
  (1051216675517538, -15); (1050166369287038, -15); (1049087785713381, -15); (1047983664181190, -15); (1046853337647985, -15); (1045698595146235, -15); (1044520564730305, -15); (1043323481681635, -15);
  (1042108306824389, -15); (1040879073476582, -15); (1039636032987793, -15); (1038380985588667, -15); (1037114029603682, -15); (1035838134533162, -15); (1034552762539362, -15); (1033262000621490, -15);
  (1031967497567261, -15); (1030671997181282, -15); (1029375639312502, -15); (1028082437365047, -15); (1026791666942681, -15); (1025506352493464, -15); (1024226550306258, -15); (1022955584022344, -15);
  (1021692989563247, -15); (1020444748460154, -15); (1019207332137853, -15); (1017999919156420, -15); (1017160217193961, -15); (1015872887197225, -15); (1014617829299498, -15); (1013397380801344, -15);
  (1012210174593533, -15); (1011056516187721, -15); (1009934436494794, -15); (1008845591036958, -15); (1007789557609578, -15); (1006767901472734, -15); (1005778512486221, -15); (1004821733696763, -15);
  (1003895920161236, -15); (1003002618498964, -15); (1002140907258662, -15); (1001312127031557, -15); (1000514601809148, -15); (9997489875663875, -16); (9990134860651736, -16); (9983092287560527, -16);
  (9976349335738018, -16); (9969918851181095, -16); (9963786013745719, -16); (9957959823242557, -16); (9952422174315529, -16); (9947181322797367, -16); (9942221216035205, -16); (9937553132700969, -16);
  (9933162157118496, -16); (9929058092648040, -16); (9925224215680564, -16); (9921669569649387, -16); (9918377038474807, -16); (9915355084098528, -16); (9912586027088507, -16); (9910078784250421, -16);
  (9907817226664765, -16); (9905811038723256, -16); (9904043360106435, -16); (9902522665150607, -16); (9901231181863754, -16); (9900177259420802, -16); (9899343252516752, -16); (9898737119947000, -16);
  (9898341100636087, -16); (9898163585163330, -16); (9898187066647253, -16); (9898419976335596, -16); (9898844376083749, -16); (9899468001787191, -16); (9900272871794666, -16); (9901266804330273, -16);
  (9902431753677082, -16); (9903775935673591, -16); (9905281337320039, -16); (9906955635514434, -16); (9908780432538649, -16); (9910763016962206, -16); (9912885401035934, -16); (9915156019790364, -16);
  (9917556658638569, -16); (9920094690635668, -16); (9922751554325331, -16); (9925534864640656, -16); (9928426927501408, -16); (9931435333387140, -16); (9934540796611835, -16); (9937750666306635, -16);
  (9941046890713076, -16); (9944437415635388, -16); (9947903979828719, -16); (9951453611435701, -16); (9955067995758305, -16); (9958755336221258, -16); (9962496814968456, -16); (9966299185765186, -16);
  (9970143670156726, -16); (9974037994063020, -16); (9977964044701016, -16); (9981928706842119, -16); (9985912855613679, -16); (9989924362978263, -16); (9993945064762333, -16); (9997982470741876, -16);
  (1000201793638269, -15); (1000605860368296, -15); (1001008579910682, -15); (1001410701714506, -15); (1001810400944408, -15); (1002208462087081, -15); (1002602958395831, -15); (1002994573682287, -15);
  (1003381477277237, -15); (1003764436338408, -15); (1004141548053574, -15); (1004513480396200, -15); (1004878321344784, -15); (1005236884099094, -15); (1005587302935534, -15); (1005930271724399, -15);
  (1006263925890636, -15); (1006589051746658, -15); (1006903802351948, -15); (1007208903587772, -15); (1007502380110983, -15); (1007784982346051, -15); (1008054893814649, -15); (1008312868199207, -15);
  (1008556999006399, -15); (1008788016348394, -15); (1009004047709048, -15); (1009205932867561, -15); (1009391822060050, -15); (1009562440424896, -15); (1009715896739930, -15); (1009852958217732, -15);
  (1009971774079105, -15); (1010073169648632, -15); (1010155293011166, -15); (1010218932642345, -15); (1010262246288524, -15); (1010286018304889, -15); (1010288415013601, -15); (1010270296641665, -15);
  (1010229878703309, -15); (1010168022758243, -15); (1010082924574326, -15); (1009975407736885, -15); (1009843687123529, -15); (1009688632854747, -15); (1009508455280294, -15); (1009304044596942, -15);
  (1009073713509976, -15); (1008818483155921, -15); (1008536750845889, -15); (1008229467503460, -15); (1007894884001199, -15); (1007533913863759, -15); (1007144877861525, -15); (1006728757854175, -15);
  (1006283927891016, -15); (1005811456284196, -15); (1005309913983530, -15); (1004780527277797, -15); (1004221766054862, -15); (1003634560818982, -15); (1003017190938855, -15); (1002370673225852, -15);
  (1001693634792953, -15); (1000987488105603, -15); (1000251075456674, -15); (9994856628696702, -16); (9986895923896904, -16); (9978636664333774, -16); (9970063702291652, -16); (9961191991291183, -16);
  (9952014038559622, -16); (9942546868773952, -16); (9932775951012806, -16); (9922706506028359, -16); (9912319673936767, -16); (9901632857185525, -16); (9890643935223216, -16); (9879371153343368, -16);
  (9867797361083076, -16); (9855927730842358, -16); (9843751246861034, -16); (9831292878900623, -16); (9813484629113276, -16); (9798909633127684, -16); (9784004589849064, -16); (9768604354115724, -16);
  (9752698788428587, -16); (9736273532416118, -16); (9719313409832228, -16); (9701804980040253, -16); (9683726519652567, -16); (9665069522597068, -16); (9645800268203277, -16); (9625923175883123, -16);
  (9605409863432730, -16); (9584255335155275, -16); (9562443932750193, -16); (9539984159028931, -16); (9516840138455831, -16); (9493011853637791, -16); (9468468843298323, -16); (9443202322315050, -16);
  (9417184043233268, -16); (9390425796467096, -16); (9362906241698766, -16); (9334640497363101, -16); (9305608538768808, -16); (9275805069442316, -16); (9245195917195164, -16); (9213784714413848, -16);
  (9181534137230349, -16); (9148446956130220, -16); (9114516516017124, -16); (9079765240138057, -16); (9044175450831859, -16); (9007763077278617, -16); (8970500584793123, -16); (8932383978549314, -16);
  (8893386805647778, -16); (8853513603848177, -16); (8812740229566767, -16); (8771096379139661, -16); (8728579265043998, -16); (8685195050926551, -16); (8640927964490425, -16); (8595798186504622, -16);
  (8549760065595760, -16); (8502852201263446, -16); (8455026150386550, -16); (8406304703204051, -16); (8356679254927833, -16); (8306199433014801, -16); (8254820069905587, -16); (8202589087059164, -16);
  (8149466481575340, -16); (8095466959213909, -16); (8040599778581757, -16); (7984893775294406, -16); (7928314173180783, -16); (7870906681120101, -16); (7812624496601451, -16); (7753539468965313, -16);
  (7693636129738075, -16); (7632917692550881, -16); (7571390164385375, -16); (7509017111797436, -16); (7445908434203883, -16); (7382051359832217, -16); (7317380750199757, -16); (7251992870809165, -16);
  (7185882252895927, -16); (7119056866892599, -16); (7051536683608545, -16); (6983326341551366, -16); (6914441012238667, -16); (6844905446038185, -16); (6774701192768717, -16); (6703883753752553, -16);
  (6632452099313783, -16); (6560457800753937, -16); (6487886269109083, -16); (6414771616618185, -16); (6341143226974428, -16); (6267020002885999, -16); (6192353336355413, -16); (6117205957668128, -16);
  (6041616120083719, -16); (5965591325427860, -16); (5889144007425270, -16); (5812347834141942, -16); (5735199893648143, -16); (5657706158383411, -16); (5579880671567978, -16); (5501738510234542, -16);
  (5423301939386325, -16); (5344607980557825, -16); (5265685382300127, -16); (5186563241060174, -16); (5107288126105302, -16); (5027811586638018, -16); (4948194909906872, -16); (4868451392486417, -16);
  (4788608890561871, -16); (4708699282370115, -16); (4628751440565413, -16); (4548778943490807, -16); (4468825120278060, -16); (4388893249911809, -16); (4308981228989757, -16); (4229183223777856, -16);
  (4149508779761170, -16); (4069939642056243, -16); (3990526483957498, -16); (3911346135115557, -16); (3832340305827807, -16); (3753546526584436, -16); (3675020596488621, -16); (3596800983344559, -16);
  (3518873119772211, -16); (3441301658282572, -16); (3364081000913025, -16); (3287289661673846, -16); (3210905051632958, -16); (3134964181526467, -16); (3059515649397201, -16); (2984543187240678, -16);
  (2910105654938703, -16); (2836211093775042, -16); (2762854150573731, -16); (2690195851087454, -16); (2618124452057962, -16); (2546592323719683, -16); (2475843475618672, -16); (2405786941912602, -16);
  (2336470086662776, -16); (2267884333851989, -16); (2200019917678347, -16); (2133013251703927, -16); (2066777706538484, -16); (2001404091043453, -16); (1936836302775967, -16); (1873103432384193, -16);
  (1810273838836248, -16); (1748394760623094, -16); (1687396441250690, -16); (1627372734819174, -16); (1568252770506826, -16); (1510123820588976, -16); (1452982295367473, -16); (1396874693829809, -16);
  (1341718422797088, -16); (1287625441360194, -16); (1234555620731477, -16); (1182546623256352, -16); (1131596767663045, -16); (1081714392735899, -16); (1032907339774594, -16); (9852029779063426, -17);
  (9386000226048140, -17); (8931173602725516, -17); (8487521028829931, -17); (8055237373221881, -17); (7634297866041770, -17); (7224892456088809, -17); (6826991195487858, -17); (6440772914585895, -17);
  (6066200028414472, -17); (5703437111472432, -17); (5352437147393933, -17); (5013346896851077, -17); (4686107896077298, -17); (4370844528199226, -17); (4067483652594974, -17); (3776122690656316, -17);
  (3496670991534084, -17); (3229192748331241, -17); (2973576687031024, -17); (2729846292648297, -17); (2497871856111264, -17); (2277625418320712, -17); (2068958080348780, -17); (1871781693470649, -17);
  (1685934175287805, -17); (1511251252352758, -17); (1347570944951177, -17); (1194627091218482, -17); (1052287538118900, -17); (9201309412840026, -18); (7981243163732707, -18); (6855473143120775, -18);
  (5826573343851640, -18); (4878385254226555, -18); (4023511190940970, -18); (3154186627586960, -18); (0, -15); (0, -15); (0, -15); (0, -15);
  (0, -15); (0, -15); (0, -15); (0, -15); (0, -15); (0, -15); (0, -15); (0, -15);
  (0, -15); (0, -15); (0, -15); (0, -15); (0, -15); (0, -15); (0, -15); (0, -15);
  (0, -15); (0, -15); (0, -15); (0, -15); (0, -15); (0, -15); (0, -15); (0, -15);
  (0, -15); (0, -15); (0, -15); (0, -15); (0, -15); (0, -15); (0, -15); (0, -15);
  (0, -15); (0, -15); (0, -15); (0, -15); (0, -15); (0, -15); (0, -15); (0, -15);
  (0, -15); (0, -15); (0, -15); (0, -15); (0, -15); (0, -15); (0, -15); (0, -15);
  (0, -15); (0, -15); (0, -15); (0, -15); (0, -15); (0, -15); (0, -15); (0, -15);
  (0, -15); (0, -15); (0, -15); (0, -15); (0, -15); (0, -15); (0, -15); (0, -15);
  (0, -15); (0, -15); (0, -15); (0, -15); (0, -15); (0, -15); (0, -15); (0, -15);
  (0, -15); (0, -15); (0, -15); (0, -15); (0, -15); (0, -15); (0, -15); (0, -15)].

