(** Certificates for the bounds of PropsCov.v: rows of integer factors (scaled by 2^40) and weights, found outside Coq and
    checked there. *)
From Coq Require Import ZArith List.
Import ListNotations.
Local Open Scope Z_scope.

Definition factor_sy : list (list Z) := [
  [1099511942349];
  [];
  [];
  [];
  [];
  [];
  [];
  [];
  [];
  [];
  [];
  [];
  [];
  [];
  [];
  [];
  [];
  [];
  [];
  [];
  [];
  [];
  [];
  [];
  [];
  [];
  [];
  [];
  [];
  [];
  [];
  [];
  [];
  [];
  [];
  [];
  [];
  [0;10995119285];
  [-3920503198;0;2091483243];
  [4949966456;0;-628115581;2374723888];
  [-7886886704;0;3351247013;-1109532457;169737501];
  [8268571330;0;-1601869228;3222995582;59637770;229177334];
  [-9454691695;0;3760630292;-1462173731;49980220;-315011169;17366671];
  [8191164632;0;-1373373621;3007293395;433908276;925494420;-59248539;474169909];
  [-7896129837;0;3050534073;-823035086;-384889408;-1074143145;75893367;-561571606;11949861];
  [5296862229;0;-268879549;2030967016;724127881;1599014731;-93955626;615320594;-28376356;265634215];
  [-4321791788;0;1747730665;325480188;-651085327;-1694937377;102926957;-648375449;33459401;-294626865;8375936];
  [1069994062;0;1058412604;880542195;554403939;1528309995;-237770;63292842;-49140474;553941537;-76541974;351940297];
  [48798130;0;406372253;1485819191;-425312759;-1511854827;-3233530;-21305889;53013098;-577979081;84962074;-374568492;5233478];
  [-3506105621;0;2241939374;-129763940;25066187;604458592;189031857;-550294090;-5793212;329171609;-179862106;711700302;-74495355;269641365];
  [4528154352;0;-720805268;2445562051;138388944;-500520204;-197640635;607171829;5707525;-317427973;187700572;-728123227;80915225;-279245173;5854260];
  [-7992683281;0;3197396997;-942228318;-531226716;-834746111;301664296;-746682039;79544304;-235541531;-169834836;460964802;-180628380;507157193;-13475168;243974783];
  [8811681319;0;-1601502949;3192761890;697425243;969424740;-304047840;781674989;-81741551;267446026;170015704;-448154411;186312330;-511872931;14545179;-248645162;10151046];
  [-12191538784;0;3985309705;-1619317603;-892381573;-2391489367;206115463;-561538187;119969139;-681273569;1839972;-285957155;-162707967;239735590;-23044796;414788062;-8518876;191487257];
  [12799623602;0;-2324902954;3814143510;1045624226;2515712364;-199193748;573837171;-118881130;711294487;-5448115;318826078;161073836;-228729631;24882748;-414760422;8809331;-192655443;14484862];
  [-15996423711;0;4679555665;-2226040993;-1026187491;-3812916171;-57792133;-276738418;79713642;-876337246;258947548;-1073244408;46192818;-391618564;-12271510;98072741;-5299992;285950033;-10426445;146452432];
  [16385718704;0;-2962173528;4371785038;1162950099;3898769489;69895215;277081798;-77970890;894472906;-266292776;1103444077;-49773232;409672532;12906295;-88985961;6159073;-283617817;11770623;-145177414;18306221];
  [-19313511018;0;5298724436;-2771815459;-1047155125;-4962726332;-365397744;-80493828;-4907652;-935391887;501822490;-1637648925;353680847;-995493143;21209592;-502111420;6115933;-18645426;-1972914;180726054;-12005974;106546966];
  [19511753266;0;-3535881273;4878279833;1171602629;5003516216;374416032;77295514;7990596;943256255;-507605862;1655567530;-356517882;1009335937;-20957696;512663939;-6917125;24712990;4025990;-177950258;11994786;-103453147;22548900];
  [-22114713417;0;5828665083;-3239333857;-1045580578;-5816786328;-616606357;4545555;-89787329;-976342041;681352882;-1980503940;639578526;-1398159709;66897969;-1022309670;24526233;-498007029;17928684;-95815115;7399359;100891038;-8463006;76651581];
  [22134349635;0;-4025592241;5310902663;1160888418;5811097875;622178021;-7846449;92420084;976143570;-680750483;1982926431;-638762455;1401347817;-64911561;1025617799;-26706412;501291437;-16236593;98479786;-7395798;-98800253;8398298;-72036273;24762013];
  [-24446741678;0;6270618534;-3627879774;-1060637885;-6437177494;-786775897;27308268;-147720640;-1036200638;799395564;-2193975364;840569062;-1630324389;106282479;-1338070737;43455552;-864729183;38484442;-440032249;30190558;-115690655;12945873;52256157;-12185448;66704688];
  [24295830745;0;-4430329717;5667089154;1168618764;6386624173;787789063;-30172782;152232536;1029074208;-790826814;2181260546;-833760666;1621358264;-105302779;1331278027;-41338146;860440723;-34171395;438996616;-29265255;115528571;-12676856;-50683557;8961383;-61986716;26856270];
  [-26362432138;0;6638120060;-3949485915;-1095983331;-6903261753;-890986740;27247675;-184466254;-1105726144;871478221;-2345906900;969864927;-1767223115;133532458;-1502189706;54205341;-1064300134;49870479;-660982601;43228300;-336102860;38401501;-87064956;5060021;78186225;-14364953;90362934];
  [26070874845;0;-4767733073;5962507469;1198420691;6815932481;886501509;-29957382;183819967;1092411786;-859606734;2320361594;-954970828;1749581956;-131083531;1487226707;-53714029;1053871043;-47730539;654643316;-44154340;333625878;-34782339;86358247;-8375865;-75646580;15320378;-84240588;30076833];
  [-27981856954;0;6959630225;-4229751127;-1144890925;-7288720282;-956352087;22399010;-201197663;-1172811597;926345585;-2471290819;1045751641;-1866759604;149706174;-1596785385;63129429;-1162829757;53062969;-763567538;49943385;-455779326;52110032;-203554025;25409753;33824584;-8604074;165704997;-28076061;82067273];
  [27552696629;0;-5059900237;6217251413;1241864971;7165877179;946672518;-25000887;201451253;1153918846;-908385630;2433996255;-1027757136;1839411876;-149572792;1573271186;-63282282;1145808564;-53228706;752167048;-52198298;449396332;-50496229;201283652;-26525560;-32314626;7295735;-161017427;26780772;-74306290;29898404];
  [-29368923949;0;7246597580;-4479343449;-1198057459;-7626566197;-1003637800;19000115;-213155802;-1232273934;967397057;-2583724532;1095573781;-1951801630;159501900;-1667008551;66465997;-1219480640;61503599;-807659315;58195120;-501965211;54452381;-251467063;33782455;2181222;-2414938;197109581;-33509476;136247114;-27147761;58048160];
  [28811196365;0;-5319363182;6442933223;1289643907;7470687937;989002442;-21625040;212263604;1207834922;-945015618;2535265265;-1074350546;1915540481;-156197263;1636122155;-65354401;1196972564;-59480883;792917977;-52755318;492912638;-50454024;247460267;-31682816;-3525178;3579094;-193004288;29345266;-135760326;29251278;-44516161;32146698];
  [-30602597837;0;7511368586;-4709416808;-1251046996;-7937666978;-1042107992;18323931;-220298783;-1284264886;1008392393;-2688037192;1137627171;-2029942127;167825324;-1730575478;72563005;-1263894996;64468645;-835149572;58690769;-519096005;54357047;-262196746;37627133;-4949060;-2287954;204939920;-33284091;152387272;-33476835;67952934;-22962158;38479523];
  [29913824914;0;-5555893801;6648462990;1337080476;7747931535;1022509577;-20793630;219594272;1254601846;-980599095;2628363281;-1113082889;1984946340;-162554293;1692113328;-68912514;1236086981;-62713069;816719120;-54540750;507768874;-53151493;257825688;-33279372;4655265;1218260;-198228018;32702764;-149576089;29700369;-69020800;20265714;-21950936;30177088];
  [];
  [];
  [];
  [];
  [];
  [];
  [];
  [];
  [];
  [];
  [];
  [];
  [];
  [];
  [];
  [];
  [];
  [];
  [];
  [];
  [];
  [];
  [];
  [];
  [];
  [];
  [];
  [];
  [];
  [];
  [];
  [];
  [];
  []].

Definition weight_sy : list Z := [4096;1;1;1;1;1;1;1;1;1;1;1;1;1;1;1;1;1;1;1;1;1;1;1;1;1;1;1;1;1;1;1;1;1;1;1;1;409600;1013527;814993;521096;499233;437896;505741;523692;752758;889163;1819497;1951338;1039619;844600;512321;466498;340571;324610;259725;253593;214735;212561;187346;187178;169497;170545;157286;159039;148284;150587;141343;144073;135673;138790;1;1;1;1;1;1;1;1;1;1;1;1;1;1;1;1;1;1;1;1;1;1;1;1;1;1;1;1;1;1;1;1;1;1].

Definition factor_nv : list (list Z) := [
  [];
  [54975599063];
  [-5497556633;54700030744];
  [];
  [];
  [];
  [];
  [];
  [];
  [];
  [];
  [];
  [];
  [];
  [];
  [];
  [];
  [];
  [];
  [];
  [];
  [];
  [];
  [];
  [];
  [];
  [];
  [];
  [];
  [];
  [];
  [];
  [];
  [];
  [];
  [];
  [];
  [];
  [];
  [];
  [];
  [];
  [];
  [];
  [];
  [];
  [];
  [];
  [];
  [];
  [];
  [];
  [];
  [];
  [];
  [];
  [];
  [];
  [];
  [];
  [];
  [];
  [];
  [];
  [];
  [];
  [];
  [];
  [];
  [];
  [];
  [-769028953;-77290271;3073581404];
  [13182984562;1324939003;-49245786067;4390415384];
  [-16219900065;-1630160312;36359306417;3170792349;15948786681];
  [26032006991;2616313570;-55126910935;-4848260230;-27687947980;393759081];
  [-25925976945;-2605657155;36019176850;14008875667;3020480213;18499596887;20663093398];
  [29302820659;2945042514;-36073610677;-20059360421;272960110;-24989516386;-27779782892;434865434];
  [-17273451087;-1736046110;45747493284;20970198664;-12908051408;-8301788871;-9714990889;29606148760;31321516830];
  [14641623453;1471537640;-47862525929;-25454737111;17580848109;12809310246;14235131409;-34805060235;-36934530255;536852971];
  [220124749;22123356;45387767081;23869030623;-11923051521;-294124091;-4824546804;11765539082;-24471606838;-13146525598;34992020012];
  [-4417143540;-443939362;-47688088048;-26080669392;13830385147;2258048511;6164836172;-11058576860;29336493190;15474855312;-38793551769;336671383];
  [-3646521708;-366489001;37488029659;8998056506;3105974767;-5558764011;-1606297;-10841900478;-24050490564;8995696114;-16580843499;-8816866734;40364902418];
  [1378060197;138500178;-39227481975;-8835760350;-2867507670;7530323292;119604497;13128636740;26097966721;-9005946223;18891140981;9714064939;-42914070619;165757510];
  [5209914165;523615760;107234168479;38760326526;-11628312514;-29078309067;8377334492;4374560754;1062871997;-2684231843;-28578473361;-7632603035;-21299957010;3337575108;36810279323];
  [-7266751584;-730335574;-111557520637;-39871590466;12840125364;31368198689;-8690037885;-3619221401;-1408591461;3564103854;30186888974;7952463694;23095623469;-3343881662;-38103787018;173899346];
  [30561503135;3071544787;78887897491;30670020371;-9649627871;-20533383782;5191663016;2683312182;5295232262;-22826806065;2377563251;-1029003859;-33497406582;-3715691655;-10928900876;-1880143105;44589964182];
  [-32586124564;-3275026774;-80365835296;-30912273707;10531352531;21561265012;-5124931025;-1895204279;-5713766535;24033229469;-2547296940;956122055;34713307976;3929656029;11852594358;1977640171;-45495749205;172807930];
  [34908886057;3508472947;46042047646;16462757384;-8300759366;-10985156751;-5654028510;-11422166147;3596502529;-26509417944;9778189206;-1388625888;-1827575156;-8914132881;-38425966719;-4260083413;2455234076;-4691756130;44649538356];
  [-36090323117;-3627211768;-46378246620;-16362591728;8982453484;11498879122;5989882825;12392625398;-3861213235;27311799909;-10053923171;1322540925;1854612659;9080844124;39324231013;4328866681;-1873526133;4828014136;-45039471812;163029555];
  [27625076559;2776422989;68293027247;26537076323;-18685274866;-22204521744;-11466587047;-26252352198;4163207972;-29142741952;6599069388;-2375037147;8460064935;-5432966571;-16442234298;-4897964778;-41077150199;-8026838789;11962911850;-3859009557;37213708784];
  [-28112477362;-2825408583;-68746740625;-26588222990;19282333514;22686686628;11729465296;27064308260;-4348262844;29610762834;-6737336886;2323016656;-8548340021;5439009961;16613174503;4900364260;41833611722;8086932523;-11480814376;3988718845;-37240788264;166751919];
  [21720732857;2183014477;125924984928;51922524896;-34228902571;-45305490227;-11989031802;-39774302818;6168377662;-38121191070;7264148291;-1844901224;5383885527;-821535614;326957297;-1620339596;-40923384705;-5241229320;-43086482438;-8183381243;9057319690;-4427639196;26503627072];
  [-21864576651;-2197471313;-126162594987;-51940496584;34620083080;45626840258;12113243967;40262101961;-6279606719;38325984879;-7335353328;1791133038;-5400956054;783336473;-324160465;1562683388;41247424726;5218435667;43630553204;8263754278;-8668755783;4517032106;-26389446314;217373177];
  [17479475980;1756752378;210452744722;85853467815;-51498470396;-70388066757;-10801980264;-48923721636;6117130167;-48687474122;10002380333;-2973294070;1547526913;105900124;153717716;3924014028;-35496185244;395522521;-63056637171;-10638426464;-39119482145;-10417839047;6846953015;-7702691644;19685204965];
  [-17454160149;-1754208043;-209532252511;-85419040692;51512234888;70255329330;10825313010;49011684109;-6162531057;48567389716;-9996691764;2910607545;-1548030843;-136204869;-161778797;-3951997556;35515167858;-431907914;63137906789;10641884645;39277245374;10430365730;-6625549114;7731401315;-19590302773;334719097];
  [15560826997;1563921016;270776613389;109257776713;-63321277784;-86975528560;-9898889087;-54576559328;5758238164;-56283255347;11781807787;-4006107979;-57641926;-11130969;-3317439398;7967913034;-35163828464;4548692249;-68156326435;-11849390147;-60823220532;-14516751492;-23905774627;-15437608054;15041478654;-7865077475;19285750130];
  [-15442260635;-1552004656;-268227268406;-108185422433;62909388833;86300420196;9854701532;54296579163;-5757965495;55818506746;-11699277926;3931832970;55701338;-4254928;3280984444;-7942050779;34965403524;-4556356070;67803270589;11784257626;60527021429;14437638235;23847344472;15345094137;-14869862488;7837948944;-19190054688;390334717];
  [16123559616;1620477738;304837021930;122213432764;-70189503348;-96337698798;-9591222118;-58382885386;5822338402;-61467337815;12705392647;-4473574835;-283355602;-79276651;-5201143666;9811397896;-36920464232;6364784854;-71286870582;-12613457760;-67341894835;-16502293384;-37121238756;-19037338314;3674621672;-14339530917;29696870373;-3032104868;14499305967];
  [-15918790402;-1599897670;-300608634376;-120478633248;69362874122;95120128344;9492705226;57760765474;-5786256588;60665019760;-12553383202;4374431496;277091440;60997111;5124247758;-9724625701;36509835816;-6319144908;70527439681;12462742495;66636614820;16322606901;36749385782;18810058366;-3603174955;14172436876;-29368975464;2989373660;-14359309022;398228245];
  [16693289993;1677737761;317556181262;127100660728;-73652445054;-101029022610;-9825824434;-61651721832;6266449143;-64077702112;13283513504;-4358610310;-247502516;-29057837;-5833887244;10573664675;-38916008742;6987158009;-74569540881;-13258172588;-70314093297;-17545077118;-40606019316;-20421255402;-105907539;-16590285051;31674979202;-4741472035;22532423919;-655198624;5745981692];
  [-16417060962;-1649975716;-311998370420;-124843857002;72487665619;99362796634;9683768804;60731301233;-6192254532;62994867749;-13070190316;4261524634;246596055;14617962;5734718165;-10428276525;38323981554;-6877153958;73463867454;13040799857;69284507124;17271965612;40024883100;20120844248;134546604;16361957304;-31172932373;4698154452;-22183890555;667409141;-5644085297;438582048];
  [17411918882;1749962639;327050041555;130956329190;-76423827471;-104849904274;-10257788176;-64634593612;6699732688;-66264739246;13834534491;-4283403912;-234378663;16904851;-6098944111;11057187057;-40776338765;7286111950;-77872047000;-13847092140;-73051679443;-18296861518;-42039664215;-21214990600;-408923182;-17352409125;32585932875;-5180288744;24177447881;-884223459;8041866554;-358077168;2136658720];
  [-17063785874;-1714973976;-320247497164;-128202781438;74942819896;102761710020;10067925637;63432806134;-6594849557;64919917030;-13567802160;4171178344;229256875;-25446711;5970834429;-10857671678;40004706962;-7141710414;76425424176;13568676615;71708549657;17930064103;41278661018;20837356459;428642927;17028640427;-31962310713;5065458236;-23726939615;875184750;-7895733096;311858911;-2065621119;400137480];
  [18231345179;1832318031;336811350881;135031725528;-79077098686;-108571726957;-10704682738;-67385782484;7065761417;-68480535778;14362786455;-4281110129;-235904383;28142457;-6295564722;11479460402;-42496596953;7540414916;-81034317049;-14351323813;-75806332120;-18962522269;-43352963197;-21937794758;-198411504;-17867281711;33579394060;-5314092551;24687057379;-912809477;8309924381;-381424960;2801179083;-266186541;880996660];
  [-17808060835;-1789776379;-328771791950;-131774260720;77280450872;106048875958;10470180756;65890973633;-6926151648;66877281827;-14034954073;4171792574;231511612;-66089613;6148839552;-11229513328;41544280419;-7382653958;79238150706;14023022032;74137743205;18511224277;42409631690;21470809135;220773129;17436850323;-32828832175;5201843258;-24139524750;892841729;-8129101284;373209984;-2744053261;232834733;-751351483;408392196]].

Definition weight_nv : list Z := [1;81920;81920;1;1;1;1;1;1;1;1;1;1;1;1;1;1;1;1;1;1;1;1;1;1;1;1;1;1;1;1;1;1;1;1;1;1;1;1;1;1;1;1;1;1;1;1;1;1;1;1;1;1;1;1;1;1;1;1;1;1;1;1;1;1;1;1;1;1;1;1;1421021;87986;104646;67033;82905;71500;63554;56264;64142;58454;68686;64264;34744;33281;40347;39281;49179;48265;40431;39983;26006;25900;16772;16826;13280;13396;11849;12009;11339;11535;10980;11208;10641;10898].

Definition weight_R17_111 : list Z := [1;1;1;1;1;1;1;1;1;1;1;1;1;1;1;1;1;1;1;1;1;1;1;1;1;1;1;1;1;1;1;1;1;1;1;1;1;1;1;1;1;1;1;1;1;1;1;1;1;1;1;1;1;1;1;1;1;1;1;1;1;1;1;1;1;1;1;1;1;1;1;1;1;1;1;1;1;1;1;1;1;1;1;1;1;1;1;1;1;1;1;1;1;1;1;1;1;1;1;1;1;1;1;1;1;60501301465757;986505514870;138;31849446757098136;3194;96].

Definition weight_R17_112 : list Z := [1;1;1;1;1;1;1;1;1;1;1;1;1;1;1;1;1;1;1;1;1;1;1;1;1;1;1;1;1;1;1;1;1;1;1;1;1;1;1;1;1;1;1;1;1;1;1;1;1;1;1;1;1;1;1;1;1;1;1;1;1;1;1;1;1;1;1;1;1;1;1;1;1;1;1;1;1;1;1;1;1;1;1;1;1;1;1;1;1;1;1;1;1;1;1;1;1;1;1;1;1;1;1;1;1;60501302453699;991183609917;172;31881114538688732;3188;768;1091].

Definition weight_R19 : list Z := [1;1;1;1;1;1;1;1;1;1;1;1;1;1;1;1;1;1;1;1;1;1;1;1;1;1;1;1;1;1;1;1;1;1;1;1;1;1;1;1;1;1;1;1;1;1;1;1;1;1;1;1;1;1;1;1;1;1;1;1;1;1;1;1;1;1;1;1;1;1;1;1;1;1;1;1;1;1;1;1;1;1;1;1;1;1;1;1;1;1;1;1;1;1;1;1;1;1;1;1;1;1;1;1;1;66359487743340;994074680601;6370;2178;37873541946143288;5525052824492416;91053949035228;10680669211684;3242533724089;422088813001;196;4112;686;120;1609;145;44;840;159;27;457;137;28519810274193;19137881247383;3707682127701;7;11;11;11;11].

