(* Generated by tools/gen_tables.py from /repo/src/tables/long_term_post_filter_coef.rs. Do not edit. (m, e) stands for m * 10^e. *)
From Coq Require Import ZArith List.
Import ListNotations.
Local Open Scope Z_scope.

(* /repo/src/tables/long_term_post_filter_coef.rs:6 *)
Definition TAB_RESAMP_FILTER : list (Z * Z) := [
  (-2043055832879108, -20); (-4463458936757081, -20); (-7163663994481459, -20); (-1001011132655914, -19); (-1283728480660395, -19); (-1545438297704662, -19); (-1765445671257668, -19); (-1922569599584802, -19);
  (-1996438192500382, -19); (-1968886856400547, -19); (-1825383318834690, -19); (-1556394266046803, -19); (-1158603651792638, -19); (-6358930335348977, -20); (2810064795067786, -34); (7292180213001337, -20);
  (1523970757644272, -19); (2349207769898906, -19); (3163786496265269, -19); (3922117380894736, -19); (4576238491064392, -19); (5078242936704864, -19); (5382955231045915, -19); (5450729176175875, -19);
  (5250221548270982, -19); (4760984242947349, -19); (3975713799264791, -19); (2902002172907180, -19); (1563446669975615, -19); (-5818801416923580, -34); (-1732527127898052, -19); (-3563859653300760, -19);
  (-5411552308801147, -19); (-7184140229675020, -19); (-8785052315963854, -19); (-1011714513697282, -18); (-1108767055632304, -18); (-1161345220483996, -18); (-1162601694464620, -18); (-1107640974148221, -18);
  (-9939415631563015, -19); (-8216921898513225, -19); (-5940177657925908, -19); (-3170746535382728, -19); (9746950818779534, -34); (3452937604228947, -19); (7044808705458705, -19); (1061334465662964, -18);
  (1398374734488549, -18); (1697630799350524, -18); (1941486748731660, -18); (2113575906669355, -18); (2199682452179964, -18); (2188606246517629, -18); (2072945458973295, -18); (1849752491313908, -18);
  (1521021876908738, -18); (1093974255016849, -18); (5811080624426164, -19); (-1422482656398999, -33); (-6271537303228204, -19); (-1274251404913447, -18); (-1912238389850182, -18); (-2510269249380764, -18);
  (-3037038298629825, -18); (-3462226871101535, -18); (-3758006719596473, -18); (-3900532466948409, -18); (-3871352309895838, -18); (-3658665583679722, -18); (-3258358512646846, -18); (-2674755551508349, -18);
  (-1921033054368456, -18); (-1019254326838640, -18); (1869623690895593, -33); (1098415446732263, -18); (2231131973532823, -18); (3348309272768835, -18); (4397022774386510, -18); (5323426722644900, -18);
  (6075105310368700, -18); (6603520247552113, -18); (6866453987193027, -18); (6830342695906946, -18); (6472392343549424, -18); (5782375213956374, -18); (4764012726389739, -18); (3435863514113467, -18);
  (1831652835406657, -18); (-2251898372838663, -33); (-1996476188279370, -18); (-4082668858919100, -18); (-6173080374929424, -18); (-8174448945974208, -18); (-9988823864332691, -18); (-1151698705819990, -17);
  (-1266210056063963, -17); (-1333344579518481, -17); (-1345011199343934, -17); (-1294448809639154, -17); (-1176541543002924, -17); (-9880867320401294, -18); (-7280036402392082, -18); (-3974730209151807, -18);
  (2509617777250391, -33); (4586044219717467, -18); (9703248998383679, -18); (1525124770818010, -17); (2111205854013017, -17); (2715337236094137, -17); (3323242450843114, -17); (3920032029020130, -17);
  (4490666443426786, -17); (5020433088017846, -17); (5495420172681558, -17); (5902970324375908, -17); (6232097270672976, -17); (6473850225260731, -17); (6621612450840858, -17); (6671322871619612, -17);
  (6621612450840858, -17); (6473850225260731, -17); (6232097270672976, -17); (5902970324375908, -17); (5495420172681558, -17); (5020433088017846, -17); (4490666443426786, -17); (3920032029020130, -17);
  (3323242450843114, -17); (2715337236094137, -17); (2111205854013017, -17); (1525124770818010, -17); (9703248998383679, -18); (4586044219717467, -18); (2509617777250391, -33); (-3974730209151807, -18);
  (-7280036402392082, -18); (-9880867320401294, -18); (-1176541543002924, -17); (-1294448809639154, -17); (-1345011199343934, -17); (-1333344579518481, -17); (-1266210056063963, -17); (-1151698705819990, -17);
  (-9988823864332691, -18); (-8174448945974208, -18); (-6173080374929424, -18); (-4082668858919100, -18); (-1996476188279370, -18); (-2251898372838663, -33); (1831652835406657, -18); (3435863514113467, -18);
  (4764012726389739, -18); (5782375213956374, -18); (6472392343549424, -18); (6830342695906946, -18); (6866453987193027, -18); (6603520247552113, -18); (6075105310368700, -18); (5323426722644900, -18);
  (4397022774386510, -18); (3348309272768835, -18); (2231131973532823, -18); (1098415446732263, -18); (1869623690895593, -33); (-1019254326838640, -18); (-1921033054368456, -18); (-2674755551508349, -18);
  (-3258358512646846, -18); (-3658665583679722, -18); (-3871352309895838, -18); (-3900532466948409, -18); (-3758006719596473, -18); (-3462226871101535, -18); (-3037038298629825, -18); (-2510269249380764, -18);
  (-1912238389850182, -18); (-1274251404913447, -18); (-6271537303228204, -19); (-1422482656398999, -33); (5811080624426164, -19); (1093974255016849, -18); (1521021876908738, -18); (1849752491313908, -18);
  (2072945458973295, -18); (2188606246517629, -18); (2199682452179964, -18); (2113575906669355, -18); (1941486748731660, -18); (1697630799350524, -18); (1398374734488549, -18); (1061334465662964, -18);
  (7044808705458705, -19); (3452937604228947, -19); (9746950818779534, -34); (-3170746535382728, -19); (-5940177657925908, -19); (-8216921898513225, -19); (-9939415631563015, -19); (-1107640974148221, -18);
  (-1162601694464620, -18); (-1161345220483996, -18); (-1108767055632304, -18); (-1011714513697282, -18); (-8785052315963854, -19); (-7184140229675020, -19); (-5411552308801147, -19); (-3563859653300760, -19);
  (-1732527127898052, -19); (-5818801416923580, -34); (1563446669975615, -19); (2902002172907180, -19); (3975713799264791, -19); (4760984242947349, -19); (5250221548270982, -19); (5450729176175875, -19);
  (5382955231045915, -19); (5078242936704864, -19); (4576238491064392, -19); (3922117380894736, -19); (3163786496265269, -19); (2349207769898906, -19); (1523970757644272, -19); (7292180213001337, -20);
  (2810064795067786, -34); (-6358930335348977, -20); (-1158603651792638, -19); (-1556394266046803, -19); (-1825383318834690, -19); (-1968886856400547, -19); (-1996438192500382, -19); (-1922569599584802, -19);
  (-1765445671257668, -19); (-1545438297704662, -19); (-1283728480660395, -19); (-1001011132655914, -19); (-7163663994481459, -20); (-4463458936757081, -20); (-2043055832879108, -20)].

(* /repo/src/tables/long_term_post_filter_coef.rs:66 *)
Definition TAB_LTPF_INTERP_R : list (Z * Z) := [
  (-2874561161519444, -18); (-3001251025861499, -18); (2745471654059321, -18); (1535727698935322, -17); (2868234046665657, -17); (2950385026557377, -17); (4598334491135473, -18); (-4729632459043440, -17);
  (-1058359163062837, -16); (-1303050213607112, -16); (-7544046357555201, -17); (8357885725250529, -17); (3301825710764459, -16); (6032970076366158, -16); (8174886856243178, -16); (8986382851273982, -16);
  (8174886856243178, -16); (6032970076366158, -16); (3301825710764459, -16); (8357885725250529, -17); (-7544046357555201, -17); (-1303050213607112, -16); (-1058359163062837, -16); (-4729632459043440, -17);
  (4598334491135473, -18); (2950385026557377, -17); (2868234046665657, -17); (1535727698935322, -17); (2745471654059321, -18); (-3001251025861499, -18); (-2874561161519444, -18)].

(* /repo/src/tables/long_term_post_filter_coef.rs:80 *)
Definition TAB_LTPF_INTERP_X12K8 : list (Z * Z) := [
  (6698858366939680, -18); (3967114782344967, -17); (1069991860896389, -16); (2098804630681809, -16); (3356906254147840, -16); (4592209296082350, -16); (5500750019177116, -16); (5835275754221211, -16);
  (5500750019177116, -16); (4592209296082350, -16); (3356906254147840, -16); (2098804630681809, -16); (1069991860896389, -16); (3967114782344967, -17); (6698858366939680, -18)].

(* /repo/src/tables/long_term_post_filter_coef.rs:87 *)
Definition TAB_LTPF_NUM_8000 : list (list (Z * Z)) := [
  [(6023618207009578, -16); (4197609261363617, -16); (-1883424527883687, -17)];
  [(5994768582584314, -16); (4197609261363620, -16); (-1594928283631041, -17)];
  [(5967764663733787, -16); (4197609261363617, -16); (-1324889095125780, -17)];
  [(5942410120098895, -16); (4197609261363618, -16); (-1071343658776831, -17)]].

(* /repo/src/tables/long_term_post_filter_coef.rs:95 *)
Definition TAB_LTPF_NUM_16000 : list (list (Z * Z)) := [
  [(6023618207009578, -16); (4197609261363617, -16); (-1883424527883687, -17)];
  [(5994768582584314, -16); (4197609261363620, -16); (-1594928283631041, -17)];
  [(5967764663733787, -16); (4197609261363617, -16); (-1324889095125780, -17)];
  [(5942410120098895, -16); (4197609261363618, -16); (-1071343658776831, -17)]].

(* /repo/src/tables/long_term_post_filter_coef.rs:103 *)
Definition TAB_LTPF_NUM_24000 : list (list (Z * Z)) := [
  [(3989695588963494, -16); (5142508607708275, -16); (1004382966157454, -16); (-1278893956818042, -17); (-1572280075461383, -18)];
  [(3948634911286333, -16); (5123819208048688, -16); (1043194926386267, -16); (-1091999960222166, -17); (-1347408330627317, -18)];
  [(3909844475885914, -16); (5106053522688359, -16); (1079832524685944, -16); (-9143431066188848, -18); (-1132124620551895, -18)];
  [(3873093888199928, -16); (5089122083363975, -16); (1114517380217371, -16); (-7450287133750717, -18); (-9255514050963111, -19)]].

(* /repo/src/tables/long_term_post_filter_coef.rs:123 *)
Definition TAB_LTPF_NUM_32000 : list (list (Z * Z)) := [
  [(2982379446702096, -16); (4652809203721290, -16); (2105997428614279, -16); (3766780380806063, -17); (-1015696155796564, -17); (-2535880996101096, -18); (-3182946168719958, -19)];
  [(2943834154510240, -16); (4619294002718798, -16); (2129465770091844, -16); (4066175002688857, -17); (-8693272297010050, -18); (-2178307114679820, -18); (-2742888063983188, -19)];
  [(2907439213122688, -16); (4587461910960279, -16); (2151456974108970, -16); (4350104772529774, -17); (-7295495347716925, -18); (-1834395637237086, -18); (-2316920186482416, -19)];
  [(2872975852589158, -16); (4557148886861379, -16); (2172126950911401, -16); (4620088878229615, -17); (-5957463802125952, -18); (-1502934284345198, -18); (-1903851911308866, -19)]].

(* /repo/src/tables/long_term_post_filter_coef.rs:143 *)
Definition TAB_LTPF_NUM_48000 : list (list (Z * Z)) := [
  [(1981363739883217, -16); (3524494903964904, -16); (2513695269649414, -16); (1424146237314458, -16); (5704731023952599, -17); (9293366241586384, -18); (-7226025368953745, -18); (-3172679890356356, -18); (-1121835963567014, -18); (-2902957238400140, -19); (-4270815593769240, -20)];
  [(1950709426598375, -16); (3484660408341632, -16); (2509988459466574, -16); (1441167412482088, -16); (5928947317677285, -17); (1108923827452231, -17); (-6192908108653504, -18); (-2726705509251737, -18); (-9667125826217151, -19); (-2508100923165204, -19); (-3699938766131869, -20)];
  [(1921810055196015, -16); (3446945561091513, -16); (2506220094626024, -16); (1457102447664837, -16); (6141132133664525, -17); (1279941396562798, -17); (-5203721087886321, -18); (-2297324511109085, -18); (-8165608133217555, -19); (-2123855748277408, -19); (-3141271330981649, -20)];
  [(1894485314175868, -16); (3411139251108252, -16); (2502406876894361, -16); (1472065631098081, -16); (6342477229539051, -17); (1443203434150312, -17); (-4254449144657098, -18); (-1883081472613493, -18); (-6709619060722140, -19); (-1749363341966872, -19); (-2593864735284285, -20)]].

(* /repo/src/tables/long_term_post_filter_coef.rs:167 *)
Definition TAB_LTPF_DEN_8000 : list (list (Z * Z)) := [
  [(0, -15); (2098804630681809, -16); (5835275754221211, -16); (2098804630681809, -16); (0, -15)];
  [(0, -15); (1069991860896389, -16); (5500750019177116, -16); (3356906254147840, -16); (6698858366939680, -18)];
  [(0, -15); (3967114782344967, -17); (4592209296082350, -16); (4592209296082350, -16); (3967114782344967, -17)];
  [(0, -15); (6698858366939680, -18); (3356906254147840, -16); (5500750019177116, -16); (1069991860896389, -16)]].

(* /repo/src/tables/long_term_post_filter_coef.rs:186 *)
Definition TAB_LTPF_DEN_16000 : list (list (Z * Z)) := [
  [(0, -15); (2098804630681809, -16); (5835275754221211, -16); (2098804630681809, -16); (0, -15)];
  [(0, -15); (1069991860896389, -16); (5500750019177116, -16); (3356906254147840, -16); (6698858366939680, -18)];
  [(0, -15); (3967114782344967, -17); (4592209296082350, -16); (4592209296082350, -16); (3967114782344967, -17)];
  [(0, -15); (6698858366939680, -18); (3356906254147840, -16); (5500750019177116, -16); (1069991860896389, -16)]].

(* /repo/src/tables/long_term_post_filter_coef.rs:205 *)
Definition TAB_LTPF_DEN_24000 : list (list (Z * Z)) := [
  [(0, -15); (6322231627323796, -17); (2507309606013235, -16); (3713909428901578, -16); (2507309606013235, -16); (6322231627323796, -17); (0, -15)];
  [(0, -15); (3459272174099855, -17); (1986515602645028, -16); (3626411726581452, -16); (2986750548992179, -16); (1013092873505928, -16); (4263543712369752, -18)];
  [(0, -15); (1535746784963907, -17); (1474344878058222, -16); (3374259553990717, -16); (3374259553990717, -16); (1474344878058222, -16); (1535746784963907, -17)];
  [(0, -15); (4263543712369752, -18); (1013092873505928, -16); (2986750548992179, -16); (3626411726581452, -16); (1986515602645028, -16); (3459272174099855, -17)]].

(* /repo/src/tables/long_term_post_filter_coef.rs:225 *)
Definition TAB_LTPF_DEN_32000 : list (list (Z * Z)) := [
  [(0, -15); (2900401878228730, -17); (1129857420560927, -16); (2212024028097570, -16); (2723909472446145, -16); (2212024028097570, -16); (1129857420560927, -16); (2900401878228730, -17); (0, -15)];
  [(0, -15); (1703153418385261, -17); (8722503785537784, -17); (1961407762232199, -16); (2689237982237257, -16); (2424999102756389, -16); (1405773364650031, -16); (4474877169485788, -17); (3127030243100724, -18)];
  [(0, -15); (8563673748488349, -18); (6426222944493845, -17); (1687676705918012, -16); (2587445937795505, -16); (2587445937795505, -16); (1687676705918012, -16); (6426222944493845, -17); (8563673748488349, -18)];
  [(0, -15); (3127030243100724, -18); (4474877169485788, -17); (1405773364650031, -16); (2424999102756389, -16); (2689237982237257, -16); (1961407762232199, -16); (8722503785537784, -17); (1703153418385261, -17)]].

(* /repo/src/tables/long_term_post_filter_coef.rs:249 *)
Definition TAB_LTPF_DEN_48000 : list (list (Z * Z)) := [
  [(0, -15); (1082359386659387, -17); (3608969221303979, -17); (7676401468099964, -17); (1241530577501703, -16); (1627596438300696, -16); (1776771417779109, -16); (1627596438300696, -16); (1241530577501703, -16); (7676401468099964, -17); (3608969221303979, -17); (1082359386659387, -17); (0, -15)];
  [(0, -15); (7041404930459358, -18); (2819702319820420, -17); (6547044935127551, -17); (1124647986743299, -16); (1548418956489015, -16); (1767122381341857, -16); (1691507213057663, -16); (1352901577989766, -16); (8851425011427483, -17); (4499353848562444, -17); (1557613714732002, -17); (2039721956502016, -18)];
  [(0, -15); (4146998467444788, -18); (2135757310741917, -17); (5482735584552816, -17); (1004971444643720, -16); (1456060342830002, -16); (1738439838565869, -16); (1738439838565869, -16); (1456060342830002, -16); (1004971444643720, -16); (5482735584552816, -17); (2135757310741917, -17); (4146998467444788, -18)];
  [(0, -15); (2039721956502016, -18); (1557613714732002, -17); (4499353848562444, -17); (8851425011427483, -17); (1352901577989766, -16); (1691507213057663, -16); (1767122381341857, -16); (1548418956489015, -16); (1124647986743299, -16); (6547044935127551, -17); (2819702319820420, -17); (7041404930459358, -18)]].

