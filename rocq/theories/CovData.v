(** Contents of the variable Cov_p of the three files loaded by /repo/pyrtlib/uncertainty/covariance_matrix/__init__.py
    (lines 31-39 and 90-93), one definition per module attribute.  Generated by reading the HDF5 structure of the files.
    The pair (m, e) is the binary64 number m / 2^e exactly as stored; [o] is the number 0. *)

From Coq Require Import ZArith List.
Import ListNotations.
Local Open Scope Z_scope.

Definition o : Z * Z := (0, 0).

(** R17_111: lines 31-34, file R17/Cov_parameters_Cimini_et_al_2018_V1.1.nc (111 x 111). *)
Definition cov_R17_111 : list (list (Z * Z)) := [
  [(1,0);o;o;o;o;o;o;o;o;o;o;o;o;o;o;o;o;o;o;o;o;o;o;o;o;o;o;o;o;o;o;o;o;o;o;o;o;o;(-7657235,31);(4833953,30);
   (-962755,27);(8074779,30);(-2308275,28);(15998373,31);(-15422133,31);(10345437,31);(-4220501,30);(8359331,33);
   (762471,34);(-13695729,32);(4422027,30);(-7805357,30);(1075645,27);(-11905803,30);(3124909,28);(-1952689,27);
   (16001683,30);(-2357607,27);(4763613,28);(-10798203,29);(10807791,29);(-11936889,29);(5931601,28);(-12872285,29);
   (12729923,29);(-3415755,27);(13453469,29);(-14340299,29);(14067971,29);(-14942679,29);(3651591,27);o;o;o;o;o;o;o;o;
   o;o;o;o;o;o;o;o;o;o;o;o;o;o;o;o;o;o;o;o;o;o;o;o;o;o;o;o;o;o;o;o];
  [o;(10737419,32);(-8589935,35);o;o;o;o;o;o;o;o;o;o;o;o;o;o;o;o;o;o;o;o;o;o;o;o;o;o;o;o;o;o;o;o;o;o;o;o;o;o;o;o;o;o;
   o;o;o;o;o;o;o;o;o;o;o;o;o;o;o;o;o;o;o;o;o;o;o;o;o;o;(-9612865,38);(5149605,33);(-12671801,34);(2542189,31);
   (-5063669,32);(5723209,32);(-1686861,31);(2859693,32);(11006241,40);(-6901789,35);(-1424423,33);(8612879,37);
   (16280987,36);(-11354303,35);(11938091,33);(-12728959,33);(213067,27);(-14097787,33);(10791049,33);(-171585,27);
   (1060583,30);(-8540853,33);(13655845,34);(-13636067,34);(3039225,32);(-6032135,33);(12596535,34);(-12436559,34);
   (13041637,34);(-12825833,34);(6801533,33);(-13331087,34);(14243243,34);(-1739069,31);o;o;o;o;o;o];
  [o;(-8589935,35);(10737419,32);o;o;o;o;o;o;o;o;o;o;o;o;o;o;o;o;o;o;o;o;o;o;o;o;o;o;o;o;o;o;o;o;o;o;o;(-16024217,38);
   (-4673369,36);(-14758547,38);(-4920335,36);(-3580513,36);(-9748993,37);(-3745111,36);(-4615881,36);(-16212833,38);
   (-8597191,37);(-8750717,37);(-8001835,37);(-9322061,37);(-3734045,36);(-9821959,37);(-13951501,38);(-10283685,37);
   (-13029901,38);(-10715207,37);(-12196741,38);(-11106963,37);(-5738483,37);(-5721907,36);(-10872495,38);
   (-11724047,37);(-5188161,37);(-2988499,35);(-9958043,38);(-1518173,34);(-9600263,38);(-769231,33);(-9281501,38);
   (-6225079,36);o;o;o;o;o;o;o;o;o;o;o;o;o;o;o;o;o;o;o;o;o;o;o;o;o;o;o;o;o;o;o;o;o;o;o;o;o;o;o;o];
  [o;o;o;(6635203,35);o;o;o;o;o;o;o;o;o;o;o;o;o;o;o;o;o;o;o;o;o;o;o;o;o;o;o;o;o;o;o;o;o;o;o;o;o;o;o;o;o;o;o;o;o;o;o;o;
   o;o;o;o;o;o;o;o;o;o;o;o;o;o;o;o;o;o;o;o;o;o;o;o;o;o;o;o;o;o;o;o;o;o;o;o;o;o;o;o;o;o;o;o;o;o;o;o;o;o;o;o;o;o;o;o;o;
   o;o];
  [o;o;o;o;(6635203,35);o;o;o;o;o;o;o;o;o;o;o;o;o;o;o;o;o;o;o;o;o;o;o;o;o;o;o;o;o;o;o;o;o;(376173,40);(-12303425,45);
   (4737263,43);(-12856301,44);(15058071,44);(-1233621,40);(10337171,43);(-11709361,43);(5761969,42);(-4597061,42);
   (16749965,44);(-2866849,45);(-8690371,47);(2895937,41);(-12898959,43);(11448031,42);(-5992451,41);(7568235,41);
   (-1934383,39);(8588417,41);(-8668749,41);(1155939,38);(-9252101,41);(9837227,41);(-1221843,38);(10412643,41);
   (-10296309,41);(342849,36);(-10802075,41);(5744695,40);(-11270571,41);(11970049,41);(-11700191,41);o;o;o;o;o;o;o;o;
   o;o;o;o;o;o;o;o;o;o;o;o;o;o;o;o;o;o;o;o;o;o;o;o;o;o;o;o;o;o;o;o];
  [o;o;o;o;o;(6635203,35);o;o;o;o;o;o;o;o;o;o;o;o;o;o;o;o;o;o;o;o;o;o;o;o;o;o;o;o;o;o;o;o;(8627345,42);(-11871279,42);
   (9476821,41);(-9965175,41);(11445823,41);(-11562783,41);(5774477,40);(-4761311,40);(8566821,41);(-2950029,41);
   (743411,40);(6408727,41);(-7942491,41);(14658809,41);(-15896443,41);(9691731,40);(-5055645,39);(2692955,38);
   (-11009895,40);(11432921,40);(-11540859,40);(1515641,37);(-12131377,40);(1613605,37);(-6413193,39);(13698521,40);
   (-13544831,40);(14453543,40);(-1778769,37);(7572359,39);(-7427857,39);(15782117,40);(-60257,32);o;o;o;o;o;o;o;o;o;
   o;o;o;o;o;o;o;o;o;o;o;o;o;o;o;o;o;o;o;o;o;o;o;o;o;o;o;o;o;o;o];
  [o;o;o;o;o;o;(6635203,35);o;o;o;o;o;o;o;o;o;o;o;o;o;o;o;o;o;o;o;o;o;o;o;o;o;o;o;o;o;o;o;(689335,38);(-14000559,42);
   (5633571,40);(-10274355,41);(11484127,41);(-12999021,42);(10695291,42);(3557013,42);(-7307353,42);(119745,35);
   (-2276273,39);(8239197,41);(-9001395,41);(5775755,41);(-6074419,41);(6143331,42);(-1578019,40);(4711691,43);
   (-2371611,42);(13027681,48);(-11761867,48);(-7159297,45);(7298745,45);(-11446421,45);(5747097,44);(-13525357,45);
   (13472949,45);(-7270869,44);(3601383,43);(-15067239,45);(7429995,44);(-7684285,44);(7551429,44);o;o;o;o;o;o;o;o;o;
   o;o;o;o;o;o;o;o;o;o;o;o;o;o;o;o;o;o;o;o;o;o;o;o;o;o;o;o;o;o;o];
  [o;o;o;o;o;o;o;(6635203,35);o;o;o;o;o;o;o;o;o;o;o;o;o;o;o;o;o;o;o;o;o;o;o;o;o;o;o;o;o;o;(68417,34);(-2833539,39);
   (9134305,40);(-2136255,38);(9630933,40);(-3456789,40);(8738261,42);(835133,38);(-9892137,41);(11563293,41);
   (-6773685,40);(9526487,41);(-1301955,38);(2811511,40);(-5931803,41);(5170573,42);(-5328703,42);(6563207,44);
   (-13210523,45);(-1475587,45);(6573429,47);(-2239817,43);(2275371,43);(-1621989,42);(3256329,43);(-15222623,45);
   (473775,40);(-16450417,45);(8147993,44);(-8544699,44);(4213813,43);(-1087133,41);(4274595,43);o;o;o;o;o;o;o;o;o;o;
   o;o;o;o;o;o;o;o;o;o;o;o;o;o;o;o;o;o;o;o;o;o;o;o;o;o;o;o;o;o];
  [o;o;o;o;o;o;o;o;(6635203,35);o;o;o;o;o;o;o;o;o;o;o;o;o;o;o;o;o;o;o;o;o;o;o;o;o;o;o;o;o;(15537235,42);(-2648751,39);
   (8566207,40);(-1969819,38);(4441655,39);(-11061455,42);(12195781,43);(6999309,41);(-9983675,41);(10667731,41);
   (-12431005,41);(16544365,42);(-4514809,40);(9084949,42);(-4790423,41);(13496131,44);(-13917651,44);(-10057361,50);
   (6236981,49);(-961879,41);(7791971,44);(-5946147,43);(5963389,43);(-14369005,44);(7155531,43);(-497547,39);
   (1971571,41);(-1059521,40);(2089941,41);(-4420483,42);(8686201,43);(-1140159,40);(4465389,42);o;o;o;o;o;o;o;o;o;o;
   o;o;o;o;o;o;o;o;o;o;o;o;o;o;o;o;o;o;o;o;o;o;o;o;o;o;o;o;o;o];
  [o;o;o;o;o;o;o;o;o;(6635203,35);o;o;o;o;o;o;o;o;o;o;o;o;o;o;o;o;o;o;o;o;o;o;o;o;o;o;o;o;(16012079,42);(-9789521,41);
   (982973,37);(-14247025,41);(7928225,40);(-2131735,39);(13606013,42);(10537041,43);(-10459969,42);(1165409,38);
   (-11210995,41);(9782085,41);(-337117,36);(14885203,42);(-15770307,42);(5136777,41);(-10626731,42);(14737989,43);
   (-3745859,41);(11965709,43);(-751431,39);(2753309,41);(-10973341,43);(5493795,42);(-10876591,43);(5684861,42);
   (-11209241,43);(11936713,43);(-5861401,42);(1569789,40);(-6145951,42);(13189525,43);(-1608015,40);o;o;o;o;o;o;o;o;
   o;o;o;o;o;o;o;o;o;o;o;o;o;o;o;o;o;o;o;o;o;o;o;o;o;o;o;o;o;o;o;o];
  [o;o;o;o;o;o;o;o;o;o;(6635203,35);o;o;o;o;o;o;o;o;o;o;o;o;o;o;o;o;o;o;o;o;o;o;o;o;o;o;o;(15880467,42);(-1369359,38);
   (8826077,40);(-4315137,39);(2460059,38);(-2688027,39);(2245983,39);(2940803,42);(-137115,36);(4794391,40);
   (-11860091,41);(11435633,41);(-6387555,40);(9959081,41);(-10641027,41);(16262365,42);(-8465081,41);(14271899,42);
   (-3646015,40);(13832813,42);(-3489593,40);(3573609,40);(-14294139,42);(15135979,42);(-7515189,41);(16057677,42);
   (-15869751,42);(8482197,41);(-16694875,42);(4451811,40);(-4365147,40);(9296801,41);(-4541633,40);o;o;o;o;o;o;o;o;o;
   o;o;o;o;o;o;o;o;o;o;o;o;o;o;o;o;o;o;o;o;o;o;o;o;o;o;o;o;o;o;o];
  [o;o;o;o;o;o;o;o;o;o;o;(6635203,35);o;o;o;o;o;o;o;o;o;o;o;o;o;o;o;o;o;o;o;o;o;o;o;o;o;o;(13519955,42);
   (-15598953,42);(12416889,41);(-3075885,39);(108181,34);(-6509135,40);(12606129,41);(-1431567,39);(1973029,40);
   (11921873,42);(-16082343,42);(6393947,40);(-14316093,41);(3374739,39);(-14361805,41);(11869065,41);(-1538061,38);
   (10409109,41);(-1325815,38);(9844411,41);(-1239569,38);(2494059,39);(-9965429,41);(10465981,41);(-5192897,40);
   (11067901,41);(-5466539,40);(11683229,41);(-11493503,41);(1532669,38);(-3004809,39);(200011,35);(-1562967,38);o;o;
   o;o;o;o;o;o;o;o;o;o;o;o;o;o;o;o;o;o;o;o;o;o;o;o;o;o;o;o;o;o;o;o;o;o;o;o;o;o];
  [o;o;o;o;o;o;o;o;o;o;o;o;(6635203,35);o;o;o;o;o;o;o;o;o;o;o;o;o;o;o;o;o;o;o;o;o;o;o;o;o;(3968513,40);(-1365397,38);
   (2191997,38);(-8773917,40);(5014351,39);(-15891189,41);(7507369,40);(-11267541,42);(12284927,43);(3682013,40);
   (-4911,30);(3750867,39);(-2120971,38);(16425321,41);(-4396131,39);(15370035,41);(-1000021,37);(1826119,38);
   (-14925513,41);(14748481,41);(-930149,37);(3881155,39);(-15526507,41);(4141499,39);(-16454051,41);(1101491,37);
   (-8710473,40);(4656321,39);(-9166417,40);(9767957,40);(-9579487,40);(636679,36);(-9954819,40);o;o;o;o;o;o;o;o;o;o;
   o;o;o;o;o;o;o;o;o;o;o;o;o;o;o;o;o;o;o;o;o;o;o;o;o;o;o;o;o;o];
  [o;o;o;o;o;o;o;o;o;o;o;o;o;(6635203,35);o;o;o;o;o;o;o;o;o;(12394583,37);(12394583,37);(12394583,37);(12394583,37);
   (12394583,37);(12394583,37);(12394583,37);(12394583,37);(12394583,37);(12394583,37);(12394583,37);(12394583,37);
   (12394583,37);(12394583,37);o;(1382319,39);(-12170487,42);(9554871,41);(-5629385,40);(12973045,41);(-15639615,41);
   (16064093,41);(-14100933,41);(13193037,41);(-14365691,43);(13873839,44);(531679,37);(-1305199,38);(3962169,39);
   (-8667573,40);(10406843,40);(-2733547,38);(13574505,40);(-13917893,40);(8738235,39);(-8829457,39);(2620561,37);
   (-5245263,38);(11727257,39);(-11653703,39);(1573679,36);(-778089,35);(13276985,39);(-13072859,39);(6942535,38);
   (-13621019,39);(7226983,38);(-14128323,39);o;o;o;o;o;o;o;o;o;o;o;o;o;o;o;o;o;o;o;o;o;o;o;o;o;o;o;o;o;o;o;o;o;o;o;o;
   o;o;o;o];
  [o;o;o;o;o;o;o;o;o;o;o;o;o;o;(6635203,35);o;o;o;o;o;o;o;o;(12394583,37);(12394583,37);(12394583,37);(12394583,37);
   (12394583,37);(12394583,37);(12394583,37);(12394583,37);(12394583,37);(12394583,37);(12394583,37);(12394583,37);
   (12394583,37);(12394583,37);o;(3626541,40);(-10091005,41);(8065519,40);(-8453831,40);(9711883,40);(-4840975,39);
   (4824679,39);(-7166267,40);(1567635,38);(-6692701,43);(-14786693,45);(5503,30);(-13721965,41);(9649837,40);
   (-2641833,38);(1557635,37);(-13103709,40);(16078925,40);(-2061671,37);(5106645,38);(-5161477,38);(12154267,39);
   (-6083117,38);(13563663,39);(-6740203,38);(14560265,39);(-14399681,39);(3840507,37);(-7563473,38);(8034717,38);
   (-7882401,38);(8364189,38);(-8176215,38);o;o;o;o;o;o;o;o;o;o;o;o;o;o;o;o;o;o;o;o;o;o;o;o;o;o;o;o;o;o;o;o;o;o;o;o;o;
   o;o;o];
  [o;o;o;o;o;o;o;o;o;o;o;o;o;o;o;(6635203,35);o;o;o;o;o;o;o;(8263055,39);(8263055,39);(4957833,38);(4957833,38);
   (11568277,39);(11568277,39);(13220889,39);(13220889,39);(14873499,39);(14873499,39);(8263055,38);(8263055,38);
   (9089361,38);(9089361,38);o;(4503955,41);(-1176523,39);(7325909,41);(-9102379,41);(10559099,41);(-13126801,41);
   (13585489,41);(-6760389,40);(12974085,41);(-12066547,42);(4604703,41);(14818259,42);(-4585231,40);(9271371,40);
   (-9999527,40);(2935331,38);(-12221303,40);(6218379,39);(-3175063,38);(813755,36);(-13136785,40);(6945807,39);
   (-13894109,40);(14884585,40);(-7392889,39);(15833565,40);(-7826527,39);(16711923,40);(-8225651,39);(8754381,39);
   (-2146581,37);(4561051,38);(-2228805,37);o;o;o;o;o;o;o;o;o;o;o;o;o;o;o;o;o;o;o;o;o;o;o;o;o;o;o;o;o;o;o;o;o;o;o;o;o;
   o;o;o];
  [o;o;o;o;o;o;o;o;o;o;o;o;o;o;o;o;(6635203,35);o;o;o;o;o;o;(8263055,39);(8263055,39);(4957833,38);(4957833,38);
   (11568277,39);(11568277,39);(13220889,39);(13220889,39);(14873499,39);(14873499,39);(8263055,38);(8263055,38);
   (9089361,38);(9089361,38);o;(1557147,39);(-1076251,38);(13742167,41);(-14421925,41);(517549,36);(-4335169,39);
   (4357557,39);(-14861897,41);(13547147,41);(-2256483,40);(2333833,41);(10574257,41);(-12908117,41);(11352777,40);
   (-12278973,40);(14185385,40);(-3699155,38);(7681351,39);(-15706441,40);(8211209,39);(-4145037,38);(8858099,39);
   (-8863069,39);(4765935,38);(-9471059,39);(5076535,38);(-10039187,39);(10718943,39);(-5276657,38);(5614565,38);
   (-2753723,37);(11699193,39);(-11435101,39);o;o;o;o;o;o;o;o;o;o;o;o;o;o;o;o;o;o;o;o;o;o;o;o;o;o;o;o;o;o;o;o;o;o;o;o;
   o;o;o;o];
  [o;o;o;o;o;o;o;o;o;o;o;o;o;o;o;o;o;(6635203,35);o;o;o;o;o;(8263055,38);(8263055,38);(4957833,37);(4957833,37);
   (11568277,38);(11568277,38);(13220889,38);(13220889,38);(14873499,38);(14873499,38);(8263055,37);(8263055,37);
   (9089361,37);(9089361,37);o;(12001647,43);(-1534895,40);(9454925,42);(-12911265,42);(7568183,41);(-9911527,41);
   (1298061,38);(-2964339,39);(5841099,40);(-4674315,40);(8529779,41);(-8855207,46);(-4038391,43);(6263749,40);
   (-13862133,41);(5759409,39);(-12049785,40);(14568679,40);(-7449391,39);(16524869,40);(-8342053,39);(9088073,39);
   (-9093691,39);(4913643,38);(-9765297,39);(10469609,39);(-10352897,39);(5522059,38);(-10874107,39);(5781099,38);
   (-11342171,39);(6020853,38);(-11770389,39);o;o;o;o;o;o;o;o;o;o;o;o;o;o;o;o;o;o;o;o;o;o;o;o;o;o;o;o;o;o;o;o;o;o;o;o;
   o;o;o;o];
  [o;o;o;o;o;o;o;o;o;o;o;o;o;o;o;o;o;o;(6635203,35);o;o;o;o;(8263055,38);(8263055,38);(4957833,37);(4957833,37);
   (11568277,38);(11568277,38);(13220889,38);(13220889,38);(14873499,38);(14873499,38);(8263055,37);(8263055,37);
   (9089361,37);(9089361,37);o;(8694047,42);(-12128675,42);(9649339,41);(-10736153,41);(12417653,41);(-6890379,40);
   (7022547,40);(-13861655,41);(6570351,40);(-8873747,41);(14903793,42);(4656347,42);(-16526527,43);(1043007,37);
   (-4601999,39);(14095913,40);(-14758741,40);(4408413,38);(-9022253,39);(5006859,38);(-2528431,37);(1378877,36);
   (-5520017,38);(11934023,39);(-5930133,38);(6357805,38);(-6287487,38);(1676705,36);(-13208043,39);(14042711,39);
   (-13776239,39);(914059,35);(-223377,33);o;o;o;o;o;o;o;o;o;o;o;o;o;o;o;o;o;o;o;o;o;o;o;o;o;o;o;o;o;o;o;o;o;o;o;o;o;
   o;o;o];
  [o;o;o;o;o;o;o;o;o;o;o;o;o;o;o;o;o;o;o;(6635203,35);o;o;o;(12394583,38);(12394583,38);(14873499,38);(14873499,38);
   (542263,33);(542263,33);(10791489,37);(4957833,36);(12030947,37);(12030947,37);(6635203,36);(6635203,36);
   (14509865,37);(14509865,37);o;(12033253,44);(-6230279,43);(2367001,41);(-932723,39);(8871231,42);(-3126703,40);
   (13306447,42);(-265609,36);(8552947,41);(-9024453,41);(2172703,39);(-10568279,42);(4555127,41);(16448359,43);
   (-5071483,41);(8243397,40);(-4357023,39);(3417147,38);(-7004035,39);(4357553,38);(-8804787,39);(9992073,39);
   (-5000805,38);(10928109,39);(-10861807,39);(11663797,39);(-11535941,39);(12298015,39);(-12110511,39);(6433203,38);
   (-12623121,39);(209285,33);(-6546925,38);o;o;o;o;o;o;o;o;o;o;o;o;o;o;o;o;o;o;o;o;o;o;o;o;o;o;o;o;o;o;o;o;o;o;o;o;o;
   o;o;o];
  [o;o;o;o;o;o;o;o;o;o;o;o;o;o;o;o;o;o;o;o;(6635203,35);o;o;(12394583,38);(12394583,38);(14873499,38);(14873499,38);
   (542263,33);(542263,33);(10791489,37);(4957833,36);(12030947,37);(12030947,37);(6635203,36);(6635203,36);
   (14509865,37);(14509865,37);o;(10209233,43);(-7236965,42);(11474729,42);(-13891909,42);(16223869,42);(-4697637,40);
   (4844099,40);(-10437287,41);(10115981,41);(-4580889,40);(8387697,41);(-3596433,41);(9861465,43);(7402875,41);
   (-4340445,40);(10552483,40);(-11139019,40);(16497327,40);(-4227403,38);(2588165,37);(-10460849,39);(11806935,39);
   (-11819335,39);(12886015,39);(-6404289,38);(6871591,38);(-212391,33);(7243857,38);(-3566801,37);(15157343,39);
   (-7435523,38);(15780049,39);(-15426429,39);o;o;o;o;o;o;o;o;o;o;o;o;o;o;o;o;o;o;o;o;o;o;o;o;o;o;o;o;o;o;o;o;o;o;o;o;
   o;o;o;o];
  [o;o;o;o;o;o;o;o;o;o;o;o;o;o;o;o;o;o;o;o;o;(6635203,35);o;(8263055,37);(8263055,37);(4957833,36);(4957833,36);
   (11568277,37);(11568277,37);(13323927,37);(13220889,37);(14997145,37);(14997145,37);(16670363,37);(16670363,37);
   (9171791,36);(9171791,36);o;(12375705,46);(-7073169,45);(10254413,45);(-3209241,42);(15756009,44);(-13254765,43);
   (1814551,40);(-10664887,42);(11016887,42);(-3506849,40);(13956277,42);(-13172213,42);(3135329,40);(-1739559,41);
   (4689641,43);(8108721,41);(-2200701,39);(1280559,37);(-10540453,40);(7810781,39);(-7898283,39);(4801875,38);
   (-2403975,37);(10718759,39);(-10655733,39);(2869731,37);(-11354765,39);(12095081,39);(-5956039,38);(790179,35);
   (-6202507,38);(13155055,39);(-401909,34);o;o;o;o;o;o;o;o;o;o;o;o;o;o;o;o;o;o;o;o;o;o;o;o;o;o;o;o;o;o;o;o;o;o;o;o;o;
   o;o;o];
  [o;o;o;o;o;o;o;o;o;o;o;o;o;o;o;o;o;o;o;o;o;o;(6635203,35);(8263055,37);(8263055,37);(4957833,36);(4957833,36);
   (11568277,37);(11568277,37);(13323927,37);(13220889,37);(14997145,37);(14997145,37);(16670363,37);(16670363,37);
   (9171791,36);(9171791,36);o;(10125735,44);(-14863523,44);(2931883,41);(-15967425,43);(4716353,41);(-11534727,42);
   (3013381,40);(-3504877,40);(13849187,42);(-14950779,42);(7123159,41);(-11380317,42);(5073695,41);(575189,41);
   (-11157519,44);(2979285,39);(-12808085,41);(6414155,39);(-13189361,40);(9353341,39);(-9457665,39);(11328633,39);
   (-2835777,37);(12575311,39);(-6250739,38);(1680471,36);(-13298383,39);(7080167,38);(-6973031,38);(14802329,39);
   (-7261907,38);(15403903,39);(-1882455,36);o;o;o;o;o;o;o;o;o;o;o;o;o;o;o;o;o;o;o;o;o;o;o;o;o;o;o;o;o;o;o;o;o;o;o;o;
   o;o;o;o];
  [o;o;o;o;o;o;o;o;o;o;o;o;o;(12394583,37);(12394583,37);(8263055,39);(8263055,39);(8263055,38);(8263055,38);
   (12394583,38);(12394583,38);(8263055,37);(8263055,37);(1099323,33);(15837523,37);(5164409,35);(5164409,35);
   (3184719,34);(3184719,34);(15251973,36);(15148935,36);(4420659,34);(4420659,34);(10056651,35);(10056651,35);
   (11271983,35);(11271983,35);o;(1145033,38);(-11597731,41);(9171173,40);(-10597589,40);(12269345,40);(-3493711,38);
   (1786627,37);(-6675831,39);(6288505,39);(-13799819,41);(2694277,39);(2946845,40);(-2341751,39);(13248707,40);
   (-462659,35);(11679529,39);(-6150249,38);(519847,34);(-2131829,36);(5274437,37);(-10659669,38);(12328381,38);
   (-12340305,38);(13649941,38);(-6783265,37);(14640459,38);(-14479347,38);(7728757,37);(-15221263,38);(8087625,37);
   (-1983609,35);(1052411,34);(-8230207,37);o;o;o;o;o;o;o;o;o;o;o;o;o;o;o;o;o;o;o;o;o;o;o;o;o;o;o;o;o;o;o;o;o;o;o;o;o;
   o;o;o];
  [o;o;o;o;o;o;o;o;o;o;o;o;o;(12394583,37);(12394583,37);(8263055,39);(8263055,39);(8263055,38);(8263055,38);
   (12394583,38);(12394583,38);(8263055,37);(8263055,37);(15837523,37);(1099323,33);(5164409,35);(5164409,35);
   (3184719,34);(3184719,34);(15251973,36);(15148935,36);(4420659,34);(4420659,34);(10056651,35);(10056651,35);
   (11271983,35);(11271983,35);o;(4603311,40);(-11662407,41);(4611511,39);(-10654141,40);(1541813,37);(-14033985,40);
   (14350957,40);(-13393755,40);(12613047,40);(-6915545,40);(674605,37);(2961475,40);(-9410405,41);(6493,29);
   (-3715035,38);(5862291,38);(-1543505,36);(8350639,38);(-8561269,38);(10591903,38);(-167237,32);(96707,31);
   (-12390483,38);(3426129,36);(-851299,34);(3674551,36);(-7268233,37);(7759047,37);(-15280925,38);(4059633,36);
   (-7965481,37);(8452231,37);(-16524825,38);o;o;o;o;o;o;o;o;o;o;o;o;o;o;o;o;o;o;o;o;o;o;o;o;o;o;o;o;o;o;o;o;o;o;o;o;
   o;o;o;o];
  [o;o;o;o;o;o;o;o;o;o;o;o;o;(12394583,37);(12394583,37);(4957833,38);(4957833,38);(4957833,37);(4957833,37);
   (14873499,38);(14873499,38);(4957833,36);(4957833,36);(5164409,35);(5164409,35);(14509863,36);(13634041,36);
   (66169,28);(66169,28);(10199521,35);(5061121,34);(11867587,35);(11867587,35);(13535653,35);(13535653,35);
   (15203721,35);(15203721,35);o;(2427753,39);(-6166157,40);(9744569,40);(-11413137,40);(13234587,40);(-15272897,40);
   (15665733,40);(-7511805,39);(14247621,40);(-8585795,40);(3498143,39);(7702821,42);(-15239293,42);(6866335,39);
   (-1934329,37);(13012299,39);(-6863819,38);(600865,34);(-4930475,37);(3112491,36);(-6291425,37);(7357883,37);
   (-14731111,38);(511781,33);(-4069409,36);(8797729,37);(-8701193,37);(9291423,37);(-571853,33);(9721947,37);
   (-2384501,35);(5059703,36);(-4946161,36);o;o;o;o;o;o;o;o;o;o;o;o;o;o;o;o;o;o;o;o;o;o;o;o;o;o;o;o;o;o;o;o;o;o;o;o;o;
   o;o;o];
  [o;o;o;o;o;o;o;o;o;o;o;o;o;(12394583,37);(12394583,37);(4957833,38);(4957833,38);(4957833,37);(4957833,37);
   (14873499,38);(14873499,38);(4957833,36);(4957833,36);(5164409,35);(5164409,35);(13634041,36);(14509863,36);
   (66169,28);(66169,28);(10199521,35);(5061121,34);(11867587,35);(11867587,35);(13535653,35);(13535653,35);
   (15203721,35);(15203721,35);o;(4871305,40);(-12373139,41);(9777127,40);(-5724639,39);(6638099,39);(-3827709,38);
   (3925721,38);(-3762757,38);(14271181,40);(-8597245,40);(7003095,40);(7729825,42);(-15284179,42);(6880369,39);
   (-7753299,39);(13039869,39);(-13756841,39);(9635325,38);(-9883027,38);(12479529,38);(-12612755,38);(3688111,36);
   (-14767841,38);(4104663,36);(-16319051,38);(4409997,36);(-8723217,37);(4657385,36);(-9172641,37);(9746299,37);
   (-9561897,37);(10144743,37);(-9917091,37);o;o;o;o;o;o;o;o;o;o;o;o;o;o;o;o;o;o;o;o;o;o;o;o;o;o;o;o;o;o;o;o;o;o;o;o;
   o;o;o;o];
  [o;o;o;o;o;o;o;o;o;o;o;o;o;(12394583,37);(12394583,37);(11568277,39);(11568277,39);(11568277,38);(11568277,38);
   (542263,33);(542263,33);(11568277,37);(11568277,37);(3184719,34);(3184719,34);(66169,28);(66169,28);(1375967,32);
   (330307,30);(12773055,35);(12670017,35);(14893855,35);(14893855,35);(8507329,34);(8507329,34);(9567729,34);
   (9567729,34);o;(10274029,41);(-13080325,41);(10328347,40);(-12242607,40);(14216183,40);(-16590699,40);(1066185,36);
   (-2089881,37);(15941259,40);(-5147631,39);(4313097,39);(55671,36);(-11698453,42);(14230067,40);(-4040121,38);
   (14373459,39);(-7592289,38);(5339,27);(-11219199,38);(14376991,38);(-14532145,38);(8562253,37);(-8571633,37);
   (597595,33);(-4751903,36);(10285095,37);(-10172471,37);(5432329,36);(-10699069,37);(5683707,36);(-5576251,36);
   (11831157,37);(-11565813,37);o;o;o;o;o;o;o;o;o;o;o;o;o;o;o;o;o;o;o;o;o;o;o;o;o;o;o;o;o;o;o;o;o;o;o;o;o;o;o;o];
  [o;o;o;o;o;o;o;o;o;o;o;o;o;(12394583,37);(12394583,37);(11568277,39);(11568277,39);(11568277,38);(11568277,38);
   (542263,33);(542263,33);(11568277,37);(11568277,37);(3184719,34);(3184719,34);(66169,28);(66169,28);(330307,30);
   (1375967,32);(12773055,35);(12670017,35);(14893855,35);(14893855,35);(8507329,34);(8507329,34);(9567729,34);
   (9567729,34);o;(5145727,40);(-13101795,41);(10345417,40);(-3065427,38);(3559537,38);(-16610743,40);(8539281,39);
   (-8366793,39);(7976875,39);(-10301651,40);(2157537,38);(7147891,43);(-5859399,41);(7121815,39);(-4044023,38);
   (14387287,39);(-7599639,38);(5472721,37);(-5615347,37);(14393041,38);(-14548391,38);(4286377,36);(-1072769,34);
   (598377,33);(-9516247,37);(10298957,37);(-5093091,36);(2719825,35);(-5356745,36);(5691335,36);(-697967,33);
   (5923505,36);(-90479,30);o;o;o;o;o;o;o;o;o;o;o;o;o;o;o;o;o;o;o;o;o;o;o;o;o;o;o;o;o;o;o;o;o;o;o;o;o;o;o;o];
  [o;o;o;o;o;o;o;o;o;o;o;o;o;(12394583,37);(12394583,37);(13220889,39);(13220889,39);(13220889,38);(13220889,38);
   (10791489,37);(10791489,37);(13323927,37);(13323927,37);(15251973,36);(15251973,36);(10199521,35);(10199521,35);
   (12773055,35);(12773055,35);(15395079,35);(7673295,34);(2249865,32);(2249865,32);(2575345,32);(2575345,32);
   (11603299,34);(11603299,34);o;(5499579,40);(-7016331,40);(11072389,40);(-6638279,39);(7718633,39);(-9098107,39);
   (9375311,39);(-9373969,39);(8980377,39);(-6155187,39);(5269751,39);(-8786847,45);(-7774531,42);(7480097,39);
   (-2139899,37);(16077933,39);(-8501671,38);(12521963,38);(-12851125,38);(2079055,35);(-8406557,37);(9948393,37);
   (-155619,31);(5563865,36);(-5530399,36);(5987947,36);(-11844939,37);(3162935,35);(-3114767,35);(13236679,37);
   (-6493283,36);(3444007,35);(-13467185,37);o;o;o;o;o;o;o;o;o;o;o;o;o;o;o;o;o;o;o;o;o;o;o;o;o;o;o;o;o;o;o;o;o;o;o;o;
   o;o;o;o];
  [o;o;o;o;o;o;o;o;o;o;o;o;o;(12394583,37);(12394583,37);(13220889,39);(13220889,39);(13220889,38);(13220889,38);
   (4957833,36);(4957833,36);(13220889,37);(13220889,37);(15148935,36);(15148935,36);(5061121,34);(5061121,34);
   (12670017,35);(12670017,35);(7673295,34);(1956963,32);(8960063,34);(8960063,34);(5123415,33);(5123415,33);
   (11533597,34);(11533597,34);o;(2712491,39);(-3460943,39);(2731065,38);(-13087199,40);(15215375,40);(-8963575,39);
   (4617775,38);(-576037,35);(4413147,38);(-12021563,40);(10271321,40);(-9943053,46);(-8121225,42);(3682759,38);
   (-1053263,36);(3937565,37);(-8329179,38);(12272225,38);(-12595457,38);(2041357,35);(-8254279,37);(1222815,34);
   (-4896809,36);(10951087,37);(-10885241,37);(5894913,36);(-1457615,34);(3114077,35);(-95833,30);(6516099,36);
   (-3196489,35);(6781509,36);(-6629481,36);o;o;o;o;o;o;o;o;o;o;o;o;o;o;o;o;o;o;o;o;o;o;o;o;o;o;o;o;o;o;o;o;o;o;o;o;o;
   o;o;o];
  [o;o;o;o;o;o;o;o;o;o;o;o;o;(12394583,37);(12394583,37);(14873499,39);(14873499,39);(14873499,38);(14873499,38);
   (12030947,37);(12030947,37);(14997145,37);(14997145,37);(4420659,34);(4420659,34);(11867587,35);(11867587,35);
   (14893855,35);(14893855,35);(2249865,32);(8960063,34);(10537217,34);(10537217,34);(6037487,33);(6037487,33);
   (3403183,32);(3403183,32);o;(11561569,41);(-7390397,40);(11656049,40);(-14110077,40);(8212061,39);(-9762673,39);
   (10078327,39);(-2558079,37);(9838399,39);(-14051587,40);(6100767,39);(-10762597,43);(-16375693,44);(3858967,38);
   (-8892711,39);(2181091,36);(-9235717,38);(13863985,38);(-7115849,37);(9299675,37);(-9401381,37);(11179131,37);
   (-11192093,37);(12529953,37);(-12454813,37);(13493927,37);(-6673275,36);(14257071,37);(-3510025,35);(3728923,35);
   (-7316989,36);(7761349,36);(-7587409,36);o;o;o;o;o;o;o;o;o;o;o;o;o;o;o;o;o;o;o;o;o;o;o;o;o;o;o;o;o;o;o;o;o;o;o;o;o;
   o;o;o];
  [o;o;o;o;o;o;o;o;o;o;o;o;o;(12394583,37);(12394583,37);(14873499,39);(14873499,39);(14873499,38);(14873499,38);
   (12030947,37);(12030947,37);(14997145,37);(14997145,37);(4420659,34);(4420659,34);(11867587,35);(11867587,35);
   (14893855,35);(14893855,35);(2249865,32);(8960063,34);(10537217,34);(10537217,34);(6037487,33);(6037487,33);
   (3403183,32);(3403183,32);o;(11561569,41);(-7390397,40);(11656049,40);(-14110077,40);(8212061,39);(-9762673,39);
   (10078327,39);(-2558079,37);(9838399,39);(-14051587,40);(6100767,39);(-10762597,43);(-16375693,44);(3858967,38);
   (-8892711,39);(2181091,36);(-9235717,38);(13863985,38);(-7115849,37);(9299675,37);(-9401381,37);(11179131,37);
   (-11192093,37);(12529953,37);(-12454813,37);(13493927,37);(-6673275,36);(14257071,37);(-3510025,35);(3728923,35);
   (-7316989,36);(7761349,36);(-7587409,36);o;o;o;o;o;o;o;o;o;o;o;o;o;o;o;o;o;o;o;o;o;o;o;o;o;o;o;o;o;o;o;o;o;o;o;o;o;
   o;o;o];
  [o;o;o;o;o;o;o;o;o;o;o;o;o;(12394583,37);(12394583,37);(8263055,38);(8263055,38);(8263055,37);(8263055,37);
   (6635203,36);(6635203,36);(16670363,37);(16670363,37);(10056651,35);(10056651,35);(13535653,35);(13535653,35);
   (8507329,34);(8507329,34);(2575345,32);(5123415,33);(6037487,33);(6037487,33);(13848569,34);(13848569,34);
   (15622165,34);(15622165,34);o;(3030995,39);(-15528929,41);(6119855,39);(-14943599,40);(4352743,38);(-1303405,36);
   (10781347,39);(-2772665,37);(10696425,39);(-493525,35);(13863571,40);(-9664239,42);(-6612949,46);(15911541,40);
   (-9225823,39);(2352441,36);(-2492441,36);(15206007,38);(-7806135,37);(1285391,34);(-10396207,37);(12409871,37);
   (-6212285,36);(13932175,37);(-13848831,37);(15011963,37);(-3712041,35);(3965601,35);(-3905283,35);(8297353,36);
   (-16281397,37);(4317343,35);(-8441223,36);o;o;o;o;o;o;o;o;o;o;o;o;o;o;o;o;o;o;o;o;o;o;o;o;o;o;o;o;o;o;o;o;o;o;o;o;
   o;o;o;o];
  [o;o;o;o;o;o;o;o;o;o;o;o;o;(12394583,37);(12394583,37);(8263055,38);(8263055,38);(8263055,37);(8263055,37);
   (6635203,36);(6635203,36);(16670363,37);(16670363,37);(10056651,35);(10056651,35);(13535653,35);(13535653,35);
   (8507329,34);(8507329,34);(2575345,32);(5123415,33);(6037487,33);(6037487,33);(13848569,34);(13848569,34);
   (15622165,34);(15622165,34);o;(3030995,39);(-15528929,41);(6119855,39);(-14943599,40);(4352743,38);(-1303405,36);
   (10781347,39);(-2772665,37);(10696425,39);(-493525,35);(13863571,40);(-9664239,42);(-6612949,46);(15911541,40);
   (-9225823,39);(2352441,36);(-2492441,36);(15206007,38);(-7806135,37);(1285391,34);(-10396207,37);(12409871,37);
   (-6212285,36);(13932175,37);(-13848831,37);(15011963,37);(-3712041,35);(3965601,35);(-3905283,35);(8297353,36);
   (-16281397,37);(4317343,35);(-8441223,36);o;o;o;o;o;o;o;o;o;o;o;o;o;o;o;o;o;o;o;o;o;o;o;o;o;o;o;o;o;o;o;o;o;o;o;o;
   o;o;o;o];
  [o;o;o;o;o;o;o;o;o;o;o;o;o;(12394583,37);(12394583,37);(9089361,38);(9089361,38);(9089361,37);(9089361,37);
   (14509865,37);(14509865,37);(9171791,36);(9171791,36);(11271983,35);(11271983,35);(15203721,35);(15203721,35);
   (9567729,34);(9567729,34);(11603299,34);(11533597,34);(3403183,32);(3403183,32);(15622165,34);(15622165,34);
   (4407899,32);(4407899,32);o;(1585799,38);(-8138531,40);(12823371,40);(-15777125,40);(2299729,37);(-5545903,38);
   (11484365,39);(-5974505,38);(11554449,39);(-8767007,39);(15525605,40);(-1743397,39);(13069233,44);(16387215,40);
   (-4779467,38);(10095163,38);(-10703815,38);(258563,32);(-1062053,34);(11266581,37);(-5695517,36);(13640607,37);
   (-6828523,36);(15334397,37);(-7621423,36);(8264999,36);(-8174889,36);(2183467,34);(-2150271,34);(2284215,34);
   (-4482203,35);(9508023,36);(-9295039,36);o;o;o;o;o;o;o;o;o;o;o;o;o;o;o;o;o;o;o;o;o;o;o;o;o;o;o;o;o;o;o;o;o;o;o;o;o;
   o;o;o];
  [o;o;o;o;o;o;o;o;o;o;o;o;o;(12394583,37);(12394583,37);(9089361,38);(9089361,38);(9089361,37);(9089361,37);
   (14509865,37);(14509865,37);(9171791,36);(9171791,36);(11271983,35);(11271983,35);(15203721,35);(15203721,35);
   (9567729,34);(9567729,34);(11603299,34);(11533597,34);(3403183,32);(3403183,32);(15622165,34);(15622165,34);
   (4407899,32);(4407899,32);o;(1585799,38);(-8138531,40);(12823371,40);(-15777125,40);(2299729,37);(-5545903,38);
   (11484365,39);(-5974505,38);(11554449,39);(-8767007,39);(15525605,40);(-1743397,39);(13069233,44);(16387215,40);
   (-4779467,38);(10095163,38);(-10703815,38);(258563,32);(-1062053,34);(11266581,37);(-5695517,36);(13640607,37);
   (-6828523,36);(15334397,37);(-7621423,36);(8264999,36);(-8174889,36);(2183467,34);(-2150271,34);(2284215,34);
   (-4482203,35);(9508023,36);(-9295039,36);o;o;o;o;o;o;o;o;o;o;o;o;o;o;o;o;o;o;o;o;o;o;o;o;o;o;o;o;o;o;o;o;o;o;o;o;o;
   o;o;o];
  [o;o;o;o;o;o;o;o;o;o;o;o;o;o;o;o;o;o;o;o;o;o;o;o;o;o;o;o;o;o;o;o;o;o;o;o;o;(13743895,37);o;o;o;o;o;o;o;o;o;o;o;o;o;
   o;o;o;o;o;o;o;o;o;o;o;o;o;o;o;o;o;o;o;o;o;o;o;o;o;o;o;o;o;o;o;o;o;o;o;o;o;o;o;o;o;o;o;o;o;o;o;o;o;o;o;o;o;o;o;o;o;
   o;o;o];
  [(-7657235,31);o;(-16024217,38);o;(376173,40);(8627345,42);(689335,38);(68417,34);(15537235,42);(16012079,42);
   (15880467,42);(13519955,42);(3968513,40);(1382319,39);(3626541,40);(4503955,41);(1557147,39);(12001647,43);
   (8694047,42);(12033253,44);(10209233,43);(12375705,46);(10125735,44);(1145033,38);(4603311,40);(2427753,39);
   (4871305,40);(10274029,41);(5145727,40);(5499579,40);(2712491,39);(11561569,41);(11561569,41);(3030995,39);
   (3030995,39);(1585799,38);(1585799,38);o;(8978821,39);(-9422389,39);(4312101,37);(-16265059,39);(10216455,38);
   (-7954867,38);(4244719,37);(-2424795,37);(9367317,39);(-7207793,42);(74875,37);(16766241,40);(-8758523,39);
   (2161337,36);(-4308247,37);(12762979,38);(-6257717,37);(8242437,37);(-16015201,38);(9868117,37);(-9537317,37);
   (5621323,36);(-5411337,36);(6193569,36);(-11882303,37);(13328363,37);(-12753683,37);(7063301,36);(-13483615,37);
   (14813065,37);(-7053117,36);(15425881,37);(-14653927,37);o;o;o;o;o;o;o;o;o;o;o;o;o;o;o;o;o;o;o;o;o;o;o;o;o;o;o;o;o;
   o;o;o;o;o;o;o;o;o;o;o];
  [(4833953,30);o;(-4673369,36);o;(-12303425,45);(-11871279,42);(-14000559,42);(-2833539,39);(-2648751,39);
   (-9789521,41);(-1369359,38);(-15598953,42);(-1365397,38);(-12170487,42);(-10091005,41);(-1176523,39);(-1076251,38);
   (-1534895,40);(-12128675,42);(-6230279,43);(-7236965,42);(-7073169,45);(-14863523,44);(-11597731,41);
   (-11662407,41);(-6166157,40);(-12373139,41);(-13080325,41);(-13101795,41);(-7016331,40);(-3460943,39);
   (-7390397,40);(-7390397,40);(-15528929,41);(-15528929,41);(-8138531,40);(-8138531,40);o;(-9422389,39);(6943081,38);
   (-9954335,38);(11275241,38);(-11967763,38);(11039019,38);(-9767097,38);(7096597,38);(-4938005,38);(12228473,41);
   (12786443,42);(-4336347,38);(13039651,39);(-2490275,36);(5935065,37);(-1895625,35);(4199339,36);(-9937059,37);
   (10612795,37);(-374853,32);(12549667,37);(-6867861,36);(14177289,37);(-15184519,37);(15518717,37);(-8187817,36);
   (16621465,37);(-8692791,36);(548281,32);(-2281753,34);(2291583,34);(-9514645,36);(9512771,36);o;o;o;o;o;o;o;o;o;o;
   o;o;o;o;o;o;o;o;o;o;o;o;o;o;o;o;o;o;o;o;o;o;o;o;o;o;o;o;o;o];
  [(-962755,27);o;(-14758547,38);o;(4737263,43);(9476821,41);(5633571,40);(9134305,40);(8566207,40);(982973,37);
   (8826077,40);(12416889,41);(2191997,38);(9554871,41);(8065519,40);(7325909,41);(13742167,41);(9454925,42);
   (9649339,41);(2367001,41);(11474729,42);(10254413,45);(2931883,41);(9171173,40);(4611511,39);(9744569,40);
   (9777127,40);(10328347,40);(10345417,40);(11072389,40);(2731065,38);(11656049,40);(11656049,40);(6119855,39);
   (6119855,39);(12823371,40);(12823371,40);o;(4312101,37);(-9954335,38);(8491687,37);(-2107397,35);(315487,32);
   (-16477393,38);(8338569,37);(-10188011,38);(8974647,38);(-10504313,41);(-2705811,42);(16058849,39);(-4640535,37);
   (8493307,37);(-8900299,37);(1579597,34);(-3205825,35);(8193411,36);(-16349591,37);(614543,32);(-4858701,35);
   (5609485,35);(-11013835,36);(6186505,35);(-3020589,34);(6660899,35);(-6480379,35);(7063133,35);(-13696389,36);
   (14818007,36);(-3580949,34);(7717761,35);(-14875687,36);o;o;o;o;o;o;o;o;o;o;o;o;o;o;o;o;o;o;o;o;o;o;o;o;o;o;o;o;o;
   o;o;o;o;o;o;o;o;o;o;o];
  [(8074779,30);o;(-4920335,36);o;(-12856301,44);(-9965175,41);(-10274355,41);(-2136255,38);(-1969819,38);
   (-14247025,41);(-4315137,39);(-3075885,39);(-8773917,40);(-5629385,40);(-8453831,40);(-9102379,41);(-14421925,41);
   (-12911265,42);(-10736153,41);(-932723,39);(-13891909,42);(-3209241,42);(-15967425,43);(-10597589,40);
   (-10654141,40);(-11413137,40);(-5724639,39);(-12242607,40);(-3065427,38);(-6638279,39);(-13087199,40);
   (-14110077,40);(-14110077,40);(-14943599,40);(-14943599,40);(-15777125,40);(-15777125,40);o;(-16265059,39);
   (11275241,38);(-2107397,35);(1156465,34);(-10116153,37);(9078993,37);(-2077571,35);(11637811,38);(-4310201,37);
   (2358589,38);(15168465,42);(-14942991,39);(5271839,37);(-8466221,37);(4887365,36);(-3211963,35);(1740697,34);
   (-525351,32);(2206727,34);(-10136111,36);(10455641,36);(-5798871,35);(1477829,33);(-12813387,36);(12948191,36);
   (-13812363,36);(13873025,36);(-3664831,34);(7323741,35);(-15387703,36);(15308099,36);(-16038039,36);(7944657,35);o;
   o;o;o;o;o;o;o;o;o;o;o;o;o;o;o;o;o;o;o;o;o;o;o;o;o;o;o;o;o;o;o;o;o;o;o;o;o;o;o];
  [(-2308275,28);o;(-3580513,36);o;(15058071,44);(11445823,41);(11484127,41);(9630933,40);(4441655,39);(7928225,40);
   (2460059,38);(108181,34);(5014351,39);(12973045,41);(9711883,40);(10559099,41);(517549,36);(7568183,41);
   (12417653,41);(8871231,42);(16223869,42);(15756009,44);(4716353,41);(12269345,40);(1541813,37);(13234587,40);
   (6638099,39);(14216183,40);(3559537,38);(7718633,39);(15215375,40);(8212061,39);(8212061,39);(4352743,38);
   (4352743,38);(2299729,37);(2299729,37);o;(10216455,38);(-5983881,37);(315487,32);(-10116153,37);(6012525,36);
   (-2480583,35);(2491199,35);(-3099679,36);(10791391,38);(-3582227,39);(-73981,37);(9455133,38);(-5563569,37);
   (5071111,36);(-1339779,34);(15158385,37);(-15470529,37);(9847725,36);(-9869307,36);(2957099,34);(-2933387,34);
   (13501057,36);(-3324479,34);(14892043,36);(-3646455,34);(8017519,35);(-15643979,36);(8502049,35);(-16530077,36);
   (4459375,34);(-2160743,33);(9290813,35);(-8975489,35);o;o;o;o;o;o;o;o;o;o;o;o;o;o;o;o;o;o;o;o;o;o;o;o;o;o;o;o;o;o;
   o;o;o;o;o;o;o;o;o;o];
  [(15998373,31);o;(-9748993,37);o;(-1233621,40);(-11562783,41);(-12999021,42);(-3456789,40);(-11061455,42);
   (-2131735,39);(-2688027,39);(-6509135,40);(-15891189,41);(-15639615,41);(-4840975,39);(-13126801,41);(-4335169,39);
   (-9911527,41);(-6890379,40);(-3126703,40);(-4697637,40);(-13254765,43);(-11534727,42);(-3493711,38);(-14033985,40);
   (-15272897,40);(-3827709,38);(-16590699,40);(-16610743,40);(-9098107,39);(-8963575,39);(-9762673,39);(-9762673,39);
   (-1303405,36);(-1303405,36);(-5545903,38);(-5545903,38);o;(-7954867,38);(11039019,38);(-16477393,38);(9078993,37);
   (-2480583,35);(9015169,37);(-8273563,37);(5906699,37);(-4432273,37);(10590137,40);(9881609,42);(-14501975,39);
   (5153623,37);(-8420687,37);(2431973,35);(-6428137,36);(13934927,37);(-2106793,34);(69133,29);(-10167969,36);
   (10487841,36);(-2908823,34);(11860235,36);(-12853861,36);(3247111,34);(-6927271,35);(13914763,36);(-14702973,36);
   (1836311,33);(-15432897,36);(3838115,34);(-8042437,35);(3983781,34);o;o;o;o;o;o;o;o;o;o;o;o;o;o;o;o;o;o;o;o;o;o;o;
   o;o;o;o;o;o;o;o;o;o;o;o;o;o;o;o;o];
  [(-15422133,31);o;(-3745111,36);o;(10337171,43);(5774477,40);(10695291,42);(8738261,42);(12195781,43);(13606013,42);
   (2245983,39);(12606129,41);(7507369,40);(16064093,41);(4824679,39);(13585489,41);(4357557,39);(1298061,38);
   (7022547,40);(13306447,42);(4844099,40);(1814551,40);(3013381,40);(1786627,37);(14350957,40);(15665733,40);
   (3925721,38);(1066185,36);(8539281,39);(9375311,39);(4617775,38);(10078327,39);(10078327,39);(10781347,39);
   (10781347,39);(11484365,39);(11484365,39);o;(4244719,37);(-9767097,38);(8338569,37);(-2077571,35);(2491199,35);
   (-16547125,38);(525483,33);(-10610573,38);(9466153,38);(-3563383,39);(10415203,43);(15595543,39);(-9058125,38);
   (133555,31);(-8965813,37);(12846697,37);(-13044693,37);(16718747,37);(-16689771,37);(10044139,36);(-620691,32);
   (5731731,35);(-5629289,35);(12641699,36);(-1543679,33);(6804537,35);(-3311225,34);(14429271,36);(-6997395,35);
   (3783743,34);(-14634783,36);(15765379,36);(-15198163,36);o;o;o;o;o;o;o;o;o;o;o;o;o;o;o;o;o;o;o;o;o;o;o;o;o;o;o;o;o;
   o;o;o;o;o;o;o;o;o;o;o];
  [(10345437,31);o;(-4615881,36);o;(-11709361,43);(-4761311,40);(3557013,42);(835133,38);(6999309,41);(10537041,43);
   (2940803,42);(-1431567,39);(-11267541,42);(-14100933,41);(-7166267,40);(-6760389,40);(-14861897,41);(-2964339,39);
   (-13861655,41);(-265609,36);(-10437287,41);(-10664887,42);(-3504877,40);(-6675831,39);(-13393755,40);(-7511805,39);
   (-3762757,38);(-2089881,37);(-8366793,39);(-9373969,39);(-576037,35);(-2558079,37);(-2558079,37);(-2772665,37);
   (-2772665,37);(-5974505,38);(-5974505,38);o;(-2424795,37);(7096597,38);(-10188011,38);(11637811,38);(-3099679,36);
   (5906699,37);(-2652643,36);(8138585,38);(-5995927,38);(9280607,40);(995209,42);(-8513685,39);(3268865,37);
   (-10773319,38);(6392307,37);(-2101977,35);(9266991,37);(-11112889,37);(11817561,37);(-6725285,36);(438125,32);
   (-15409013,37);(3963047,35);(-8514387,36);(271121,31);(-4589093,35);(9290219,36);(-9740907,36);(4902303,35);
   (-10225383,36);(10243911,36);(-5329245,35);(10630943,36);o;o;o;o;o;o;o;o;o;o;o;o;o;o;o;o;o;o;o;o;o;o;o;o;o;o;o;o;o;
   o;o;o;o;o;o;o;o;o;o;o];
  [(-4220501,30);o;(-16212833,38);o;(5761969,42);(8566821,41);(-7307353,42);(-9892137,41);(-9983675,41);
   (-10459969,42);(-137115,36);(1973029,40);(12284927,43);(13193037,41);(1567635,38);(12974085,41);(13547147,41);
   (5841099,40);(6570351,40);(8552947,41);(10115981,41);(11016887,42);(13849187,42);(6288505,39);(12613047,40);
   (14247621,40);(14271181,40);(15941259,40);(7976875,39);(8980377,39);(4413147,38);(9838399,39);(9838399,39);
   (10696425,39);(10696425,39);(11554449,39);(11554449,39);o;(9367317,39);(-4938005,38);(8974647,38);(-4310201,37);
   (10791391,38);(-4432273,37);(9466153,38);(-5995927,38);(5833061,38);(-10269613,41);(14583231,42);(16612339,40);
   (-8910327,39);(1198565,35);(-2419113,36);(7315973,37);(-14481453,38);(9567269,37);(-9365067,37);(11506819,37);
   (-5596499,36);(13127599,37);(-6354723,36);(1808215,34);(-6974113,36);(15561547,37);(-14962327,37);(16490455,37);
   (-15811365,37);(8645233,36);(-4134183,35);(4501481,35);(-2147007,34);o;o;o;o;o;o;o;o;o;o;o;o;o;o;o;o;o;o;o;o;o;o;o;
   o;o;o;o;o;o;o;o;o;o;o;o;o;o;o;o;o];
  [(8359331,33);o;(-8597191,37);o;(-4597061,42);(-2950029,41);(119745,35);(11563293,41);(10667731,41);(1165409,38);
   (4794391,40);(11921873,42);(3682013,40);(-14365691,43);(-6692701,43);(-12066547,42);(-2256483,40);(-4674315,40);
   (-8873747,41);(-9024453,41);(-4580889,40);(-3506849,40);(-14950779,42);(-13799819,41);(-6915545,40);(-8585795,40);
   (-8597245,40);(-5147631,39);(-10301651,40);(-6155187,39);(-12021563,40);(-14051587,40);(-14051587,40);(-493525,35);
   (-493525,35);(-8767007,39);(-8767007,39);o;(-450487,38);(1528559,38);(-1313039,38);(9434357,40);(-14328909,41);
   (10590137,40);(-3563383,39);(9280607,40);(-5134807,40);(5572077,40);(-4431697,42);(-16669059,47);(2337001,39);
   (-13777717,41);(11317725,40);(-3392865,38);(8897889,39);(-9742479,39);(11721477,39);(-1523439,36);(14040537,39);
   (-14142887,39);(7937533,38);(-15706813,39);(4330865,37);(-8483593,38);(9244417,38);(-2253937,36);(2432565,36);
   (-9475333,38);(10146583,38);(-2472035,36);(2628819,36);o;o;o;o;o;o;o;o;o;o;o;o;o;o;o;o;o;o;o;o;o;o;o;o;o;o;o;o;o;o;
   o;o;o;o;o;o;o;o;o;o];
  [(762471,34);o;(-8750717,37);o;(16749965,44);(743411,40);(-2276273,39);(-6773685,40);(-12431005,41);(-11210995,41);
   (-11860091,41);(-16082343,42);(-4911,30);(13873839,44);(-14786693,45);(4604703,41);(2333833,41);(8529779,41);
   (14903793,42);(2172703,39);(8387697,41);(13956277,42);(7123159,41);(2694277,39);(674605,37);(3498143,39);
   (7003095,40);(4313097,39);(2157537,38);(5269751,39);(10271321,40);(6100767,39);(6100767,39);(13863571,40);
   (13863571,40);(15525605,40);(15525605,40);o;(4792001,43);(12786443,42);(-2705811,42);(15168471,42);(-1183695,41);
   (1235201,39);(10415201,43);(497605,41);(14583229,42);(-553963,39);(4844563,40);(-12209783,44);(8585891,41);
   (14035721,44);(10075391,42);(2848121,40);(16030401,45);(9014251,41);(-9174339,43);(11353835,41);(-9139061,42);
   (6438981,40);(-752395,38);(13888353,41);(-6956513,41);(14615911,41);(-7624295,41);(15214339,41);(-16330753,42);
   (15744189,41);(-4320923,40);(16237155,41);(-9080451,41);o;o;o;o;o;o;o;o;o;o;o;o;o;o;o;o;o;o;o;o;o;o;o;o;o;o;o;o;o;
   o;o;o;o;o;o;o;o;o;o;o];
  [(-13695729,32);o;(-8001835,37);o;(-2866849,45);(6408727,41);(8239197,41);(9526487,41);(16544365,42);(9782085,41);
   (11435633,41);(6393947,40);(3750867,39);(531679,37);(5503,30);(14818259,42);(10574257,41);(-8855207,46);
   (4656347,42);(-10568279,42);(-3596433,41);(-13172213,42);(-11380317,42);(2946845,40);(2961475,40);(7702821,42);
   (7729825,42);(55671,36);(7147891,43);(-8786847,45);(-9943053,46);(-10762597,43);(-10762597,43);(-9664239,42);
   (-9664239,42);(-1743397,39);(-1743397,39);o;(16766241,40);(-4336347,38);(16058849,39);(-7471495,38);(9455133,38);
   (-14501975,39);(15595543,39);(-8513685,39);(16612339,40);(-16669059,47);(-3052445,42);(2133443,37);(-8739291,39);
   (8116033,38);(-4001385,37);(5731839,37);(-5570837,37);(7215455,37);(-13908349,38);(1066455,34);(-16373125,38);
   (604569,33);(-9251397,37);(10642559,37);(-5074105,36);(11448561,37);(-340451,32);(1516869,34);(-5761151,36);
   (1590663,34);(-753621,33);(6625819,36);(-3132111,35);o;o;o;o;o;o;o;o;o;o;o;o;o;o;o;o;o;o;o;o;o;o;o;o;o;o;o;o;o;o;o;
   o;o;o;o;o;o;o;o;o];
  [(4422027,30);o;(-9322061,37);o;(-8690371,47);(-7942491,41);(-9001395,41);(-1301955,38);(-4514809,40);(-337117,36);
   (-6387555,40);(-14316093,41);(-2120971,38);(-1305199,38);(-13721965,41);(-4585231,40);(-12908117,41);(-4038391,43);
   (-16526527,43);(4555127,41);(9861465,43);(3135329,40);(5073695,41);(-2341751,39);(-9410405,41);(-15239293,42);
   (-15284179,42);(-11698453,42);(-5859399,41);(-7774531,42);(-8121225,42);(-16375693,44);(-16375693,44);
   (-6612949,46);(-6612949,46);(13069233,44);(13069233,44);o;(-8758523,39);(13039651,39);(-4640535,37);(10543677,38);
   (-11127137,38);(5153623,37);(-9058125,38);(3268865,37);(-8910327,39);(2337001,39);(8585891,41);(-8739291,39);
   (12929667,39);(-9417451,38);(5620687,37);(-13869995,38);(15427973,38);(-8915289,37);(4782321,36);(-10663821,37);
   (2800983,35);(-6085025,36);(788117,33);(-420087,32);(1723431,34);(-1812255,34);(3691099,35);(-15395847,37);
   (15585565,37);(-8084053,36);(8143087,36);(-8428457,36);(8450943,36);o;o;o;o;o;o;o;o;o;o;o;o;o;o;o;o;o;o;o;o;o;o;o;
   o;o;o;o;o;o;o;o;o;o;o;o;o;o;o;o;o];
  [(-7805357,30);o;(-3734045,36);o;(2895937,41);(14658809,41);(5775755,41);(2811511,40);(9084949,42);(14885203,42);
   (9959081,41);(3374739,39);(16425321,41);(3962169,39);(9649837,40);(9271371,40);(11352777,40);(6263749,40);
   (1043007,37);(16448359,43);(7402875,41);(-1739559,41);(575189,41);(13248707,40);(6493,29);(6866335,39);
   (6880369,39);(14230067,40);(7121815,39);(7480097,39);(3682759,38);(3858967,38);(3858967,38);(15911541,40);
   (15911541,40);(16387215,40);(16387215,40);o;(2161337,36);(-2490275,36);(8493307,37);(-8466221,37);(5071111,36);
   (-8420687,37);(133555,31);(-5386659,37);(1198565,35);(-13777717,41);(14035723,44);(8116033,38);(-9417451,38);
   (8785071,37);(-4608415,36);(13068719,37);(-13272995,37);(8431159,36);(-4208759,35);(10075929,36);(-4981407,35);
   (358443,31);(-11265115,36);(6318737,35);(-12345101,36);(6800883,35);(-13237565,36);(7210927,35);(-13987395,36);
   (15127991,36);(-914241,32);(7879313,35);(-7595745,35);o;o;o;o;o;o;o;o;o;o;o;o;o;o;o;o;o;o;o;o;o;o;o;o;o;o;o;o;o;o;
   o;o;o;o;o;o;o;o;o;o];
  [(1075645,27);o;(-9821959,37);o;(-12898959,43);(-15896443,41);(-6074419,41);(-5931803,41);(-4790423,41);
   (-15770307,42);(-10641027,41);(-14361805,41);(-4396131,39);(-8667573,40);(-2641833,38);(-9999527,40);
   (-12278973,40);(-13862133,41);(-4601999,39);(-5071483,41);(-4340445,40);(4689641,43);(-11157519,44);(-462659,35);
   (-3715035,38);(-1934329,37);(-7753299,39);(-4040121,38);(-4044023,38);(-2139899,37);(-1053263,36);(-8892711,39);
   (-8892711,39);(-9225823,39);(-9225823,39);(-4779467,38);(-4779467,38);o;(-4308247,37);(5935065,37);(-8900299,37);
   (4887365,36);(-1339779,34);(2431973,35);(-8965813,37);(6392307,37);(-2419113,36);(11317725,40);(39357,34);
   (-16005539,39);(5620687,37);(-4608415,36);(10595691,37);(-13954265,37);(15082965,37);(-9077845,36);(9514617,36);
   (-1362417,33);(1403293,33);(-6221003,35);(3166869,34);(-13732339,36);(13861369,36);(-7398805,35);(14847297,36);
   (-7851659,35);(15675403,36);(-2060393,33);(511959,31);(-8589809,35);(8502581,35);o;o;o;o;o;o;o;o;o;o;o;o;o;o;o;o;o;
   o;o;o;o;o;o;o;o;o;o;o;o;o;o;o;o;o;o;o;o;o;o;o];
  [(-11905803,30);o;(-13951501,38);o;(11448031,42);(9691731,40);(6143331,42);(5170573,42);(13496131,44);(5136777,41);
   (16262365,42);(11869065,41);(15370035,41);(10406843,40);(1557635,37);(2935331,38);(14185385,40);(5759409,39);
   (14095913,40);(8243397,40);(10552483,40);(8108721,41);(2979285,39);(11679529,39);(5862291,38);(13012299,39);
   (13039869,39);(14373459,39);(14387287,39);(16077933,39);(3937565,37);(2181091,36);(2181091,36);(2352441,36);
   (2352441,36);(10095163,38);(10095163,38);o;(12762979,38);(-1895625,35);(1579597,34);(-3211963,35);(15158385,37);
   (-6428137,36);(12846697,37);(-2101977,35);(7315973,37);(-13571461,40);(11392487,42);(5731839,37);(-3467499,36);
   (13068719,37);(-13954265,37);(1242493,33);(-10213751,36);(3245209,34);(-3269555,34);(15599931,36);(-15543553,36);
   (8897777,35);(-8798075,35);(9809409,35);(-9641713,35);(10559487,35);(-645991,31);(5598323,34);(-10918325,35);
   (11745425,35);(-5707993,34);(3058965,33);(-2963569,33);o;o;o;o;o;o;o;o;o;o;o;o;o;o;o;o;o;o;o;o;o;o;o;o;o;o;o;o;o;o;
   o;o;o;o;o;o;o;o;o;o];
  [(3124909,28);o;(-10283685,37);o;(-5992451,41);(-5055645,39);(-1578019,40);(-5328703,42);(-13917651,44);
   (-10626731,42);(-8465081,41);(-1538061,38);(-1000021,37);(-2733547,38);(-13103709,40);(-12221303,40);(-3699155,38);
   (-12049785,40);(-14758741,40);(-4357023,39);(-11139019,40);(-2200701,39);(-12808085,41);(-6150249,38);
   (-1543505,36);(-6863819,38);(-13756841,39);(-7592289,38);(-7599639,38);(-8501671,38);(-8329179,38);(-9235717,38);
   (-9235717,38);(-2492441,36);(-2492441,36);(-10703815,38);(-10703815,38);o;(-6257717,37);(4199339,36);(-3205825,35);
   (1740697,34);(-15470529,37);(13934927,37);(-13044693,37);(9266991,37);(-14481453,38);(8897889,39);(16030399,45);
   (-5570837,37);(15427973,38);(-3318249,35);(15082965,37);(-10213751,36);(10941465,36);(-13409721,36);(13952263,36);
   (-8081499,35);(16544093,36);(-2308849,33);(9350835,35);(-10193319,35);(10237339,35);(-5490645,34);(10966555,35);
   (-5825273,34);(11578365,35);(-12226943,35);(6050535,34);(-12742063,35);(12561419,35);o;o;o;o;o;o;o;o;o;o;o;o;o;o;o;
   o;o;o;o;o;o;o;o;o;o;o;o;o;o;o;o;o;o;o;o;o;o;o;o;o];
  [(-1952689,27);o;(-13029901,38);o;(7568235,41);(2692955,38);(4711691,43);(6563207,44);(-10057361,50);(14737989,43);
   (14271899,42);(10409109,41);(1826119,38);(13574505,40);(16078925,40);(6218379,39);(7681351,39);(14568679,40);
   (4408413,38);(3417147,38);(16497327,40);(1280559,37);(6414155,39);(519847,34);(8350639,38);(600865,34);
   (9635325,38);(5339,27);(5472721,37);(12521963,38);(12272225,38);(13863985,38);(13863985,38);(15206007,38);
   (15206007,38);(258563,32);(258563,32);o;(8242437,37);(-9937059,37);(8193411,36);(-525351,32);(9847725,36);
   (-2106793,34);(16718747,37);(-11112889,37);(2391817,35);(-9742479,39);(9014253,41);(7215455,37);(-8915289,37);
   (1053895,33);(-9077845,36);(3245209,34);(-13409721,36);(4272807,34);(-8644849,35);(5159081,34);(-5157995,34);
   (11794973,35);(-11697931,35);(6506313,34);(-6412617,34);(14010017,35);(-13748295,35);(1856961,32);(-14521313,35);
   (15583889,35);(-7590807,34);(16234903,35);(-1970421,32);o;o;o;o;o;o;o;o;o;o;o;o;o;o;o;o;o;o;o;o;o;o;o;o;o;o;o;o;o;
   o;o;o;o;o;o;o;o;o;o;o];
  [(16001683,30);o;(-10715207,37);o;(-1934383,39);(-11009895,40);(-2371611,42);(-13210523,45);(6236981,49);
   (-3745859,41);(-3646015,40);(-1325815,38);(-14925513,41);(-13917893,40);(-2061671,37);(-3175063,38);(-15706441,40);
   (-7449391,39);(-9022253,39);(-7004035,39);(-4227403,38);(-10540453,40);(-13189361,40);(-2131829,36);(-8561269,38);
   (-4930475,37);(-9883027,38);(-11219199,38);(-5615347,37);(-12851125,38);(-12595457,38);(-7115849,37);(-7115849,37);
   (-7806135,37);(-7806135,37);(-1062053,34);(-1062053,34);o;(-16015201,38);(5306397,36);(-16349591,37);(2206727,34);
   (-9869307,36);(69133,29);(-16689771,37);(5908781,36);(-9365067,37);(11721477,39);(-9174343,43);(-13908349,38);
   (4782321,36);(-4208759,35);(9514617,36);(-3269555,34);(1744033,33);(-540303,31);(8963871,35);(-10461237,35);
   (5338193,34);(-11974607,35);(12092569,35);(-6611151,34);(13247703,35);(-14244197,35);(7096723,34);(-7555291,34);
   (14985399,35);(-15856595,35);(15661855,35);(-8261767,34);(8128919,34);o;o;o;o;o;o;o;o;o;o;o;o;o;o;o;o;o;o;o;o;o;o;
   o;o;o;o;o;o;o;o;o;o;o;o;o;o;o;o;o;o];
  [(-2357607,27);o;(-12196741,38);o;(8588417,41);(11432921,40);(13027681,48);(-1475587,45);(-961879,41);(11965709,43);
   (13832813,42);(9844411,41);(14748481,41);(8738235,39);(5106645,38);(813755,36);(8211209,39);(16524869,40);
   (5006859,38);(4357553,38);(2588165,37);(7810781,39);(9353341,39);(5274437,37);(10591903,38);(3112491,36);
   (12479529,38);(14376991,38);(14393041,38);(2079055,35);(2041357,35);(9299675,37);(9299675,37);(1285391,34);
   (1285391,34);(11266581,37);(11266581,37);o;(9868117,37);(-374853,32);(9832689,36);(-10136111,36);(2957099,34);
   (-10167969,36);(10044139,36);(-13450571,37);(2876705,35);(-12187511,39);(11353835,41);(1066455,34);(-2665955,35);
   (10075929,36);(-1362417,33);(15599931,36);(-8081499,35);(10318163,35);(-10461237,35);(3125379,33);(-12522027,35);
   (3579697,33);(-14224113,35);(15809831,35);(-975329,31);(4256435,33);(-4182685,33);(4513549,33);(-8835417,34);
   (4734795,33);(-9236625,34);(9865215,34);(-9590141,34);o;o;o;o;o;o;o;o;o;o;o;o;o;o;o;o;o;o;o;o;o;o;o;o;o;o;o;o;o;o;
   o;o;o;o;o;o;o;o;o;o];
  [(4763613,28);o;(-11106963,37);o;(-8668749,41);(-11540859,40);(-11761867,48);(6573429,47);(7791971,44);(-751431,39);
   (-3489593,40);(-1239569,38);(-930149,37);(-8829457,39);(-5161477,38);(-13136785,40);(-4145037,38);(-8342053,39);
   (-2528431,37);(-8804787,39);(-10460849,39);(-7898283,39);(-9457665,39);(-10659669,38);(-167237,32);(-6291425,37);
   (-12612755,38);(-14532145,38);(-14548391,38);(-8406557,37);(-8254279,37);(-9401381,37);(-9401381,37);
   (-10396207,37);(-10396207,37);(-5695517,36);(-5695517,36);o;(-9537317,37);(6274833,36);(-4858701,35);(10455641,36);
   (-11733547,36);(10487841,36);(-620691,32);(438125,32);(-5596499,36);(7020269,38);(-9139059,42);(-16373125,38);
   (2800983,35);(-4981407,35);(11226343,36);(-15543553,36);(4136023,34);(-5157995,34);(5338193,34);(-3130507,33);
   (12758605,35);(-7179119,34);(3619611,33);(-15864801,35);(7936991,34);(-267083,29);(8505565,34);(-9066195,34);
   (4490233,33);(-9513249,34);(9385811,34);(-9912951,34);(9742969,34);o;o;o;o;o;o;o;o;o;o;o;o;o;o;o;o;o;o;o;o;o;o;o;o;
   o;o;o;o;o;o;o;o;o;o;o;o;o;o;o;o];
  [(-10798203,29);o;(-5738483,37);o;(1155939,38);(1515641,37);(-7159297,45);(-2239817,43);(-5946147,43);(2753309,41);
   (3573609,40);(2494059,39);(3881155,39);(2620561,37);(12154267,39);(6945807,39);(8858099,39);(9088073,39);
   (1378877,36);(9992073,39);(11806935,39);(4801875,38);(11328633,39);(12328381,38);(96707,31);(7357883,37);
   (3688111,36);(8562253,37);(4286377,36);(9948393,37);(1222815,34);(11179131,37);(11179131,37);(12409871,37);
   (12409871,37);(13640607,37);(13640607,37);o;(5621323,36);(-6867861,36);(5609485,35);(-5798871,35);(13501057,36);
   (-2908823,34);(11463461,36);(-15409013,37);(13127599,37);(-14142887,39);(3219491,39);(604569,33);(-6085025,36);
   (11470175,36);(-6221003,35);(8897777,35);(-2308849,33);(5897487,34);(-11974607,35);(3579697,33);(-7179119,34);
   (16424083,35);(-16331413,35);(9074281,34);(-8964821,34);(9775075,34);(-9613651,34);(10366315,34);(-2538531,32);
   (5437269,33);(-5307459,33);(5664427,33);(-11020861,34);o;o;o;o;o;o;o;o;o;o;o;o;o;o;o;o;o;o;o;o;o;o;o;o;o;o;o;o;o;o;
   o;o;o;o;o;o;o;o;o;o];
  [(10807791,29);o;(-5721907,36);o;(-9252101,41);(-12131377,40);(7298745,45);(2275371,43);(5963389,43);(-10973341,43);
   (-14294139,42);(-9965429,41);(-15526507,41);(-5245263,38);(-6083117,38);(-13894109,40);(-8863069,39);(-9093691,39);
   (-5520017,38);(-5000805,38);(-11819335,39);(-2403975,37);(-2835777,37);(-12340305,38);(-12390483,38);
   (-14731111,38);(-14767841,38);(-8571633,37);(-1072769,34);(-155619,31);(-4896809,36);(-11192093,37);(-11192093,37);
   (-6212285,36);(-6212285,36);(-6828523,36);(-6828523,36);o;(-5411337,36);(14177289,37);(-11013835,36);(1477829,33);
   (-3324479,34);(11860235,36);(-5629289,35);(3963047,35);(-12709447,37);(1984383,36);(-6019161,41);(-9251397,37);
   (788117,33);(-11265115,36);(3166869,34);(-8798075,35);(9350835,35);(-11697931,35);(1511571,32);(-14224113,35);
   (3619611,33);(-16331413,35);(16453505,35);(-282149,29);(9026631,34);(-9730221,34);(1209509,31);(-2580501,32);
   (10217043,34);(-338459,29);(667391,30);(-5642707,33);(5542283,33);o;o;o;o;o;o;o;o;o;o;o;o;o;o;o;o;o;o;o;o;o;o;o;o;
   o;o;o;o;o;o;o;o;o;o;o;o;o;o;o;o];
  [(-11936889,29);o;(-10872495,38);o;(9837227,41);(1613605,37);(-11446421,45);(-1621989,42);(-14369005,44);
   (5493795,42);(15135979,42);(10465981,41);(4141499,39);(11727257,39);(13563663,39);(14884585,40);(4765935,38);
   (4913643,38);(11934023,39);(10928109,39);(12886015,39);(10718759,39);(12575311,39);(13649941,38);(3426129,36);
   (511781,33);(4104663,36);(597595,33);(598377,33);(5563865,36);(10951087,37);(12529953,37);(12529953,37);
   (13932175,37);(13932175,37);(15334397,37);(15334397,37);o;(12387139,37);(-7592259,36);(6186505,35);(-12813387,36);
   (7446021,35);(-12853861,36);(12641699,36);(-8514387,36);(14465719,37);(-7853407,38);(13888351,41);(10642559,37);
   (-420087,32);(12637473,36);(-13732339,36);(4904705,34);(-10193319,35);(6506313,34);(-6611151,34);(15809831,35);
   (-15864801,35);(9074281,34);(-282149,29);(5016345,33);(-9917347,34);(5405273,33);(-10637693,34);(1433187,31);
   (-2809117,32);(12027829,34);(-11746327,34);(6265165,33);(-6097657,33);o;o;o;o;o;o;o;o;o;o;o;o;o;o;o;o;o;o;o;o;o;o;
   o;o;o;o;o;o;o;o;o;o;o;o;o;o;o;o;o;o];
  [(5931601,28);o;(-11724047,37);o;(-1221843,38);(-6413193,39);(5747097,44);(3256329,43);(7155531,43);(-10876591,43);
   (-7515189,41);(-5192897,40);(-16454051,41);(-11653703,39);(-6740203,38);(-7392889,39);(-9471059,39);(-9765297,39);
   (-5930133,38);(-10861807,39);(-6404289,38);(-10655733,39);(-6250739,38);(-6783265,37);(-851299,34);(-4069409,36);
   (-16319051,38);(-4751903,36);(-9516247,37);(-5530399,36);(-10885241,37);(-12454813,37);(-12454813,37);
   (-13848831,37);(-13848831,37);(-7621423,36);(-7621423,36);o;(-11882303,37);(15518717,37);(-3020589,34);
   (12948191,36);(-3646455,34);(3247111,34);(-1543679,33);(271121,31);(-6974113,36);(4330865,37);(-13913015,42);
   (-5074105,36);(1723431,34);(-12345101,36);(13861369,36);(-9641713,35);(10237339,35);(-6412617,34);(13247703,35);
   (-975329,31);(7936991,34);(-8964821,34);(9026631,34);(-9917347,34);(4954879,33);(-10690423,34);(10625679,34);
   (-354417,29);(5610385,33);(-11900213,34);(11727489,34);(-6199809,33);(12173709,34);o;o;o;o;o;o;o;o;o;o;o;o;o;o;o;o;
   o;o;o;o;o;o;o;o;o;o;o;o;o;o;o;o;o;o;o;o;o;o;o;o];
  [(-12872285,29);o;(-5188161,37);o;(10412643,41);(13698521,40);(-13525357,45);(-15222623,45);(-497547,39);
   (5684861,42);(16057677,42);(11067901,41);(1101491,37);(1573679,36);(14560265,39);(15833565,40);(5076535,38);
   (10469609,39);(6357805,38);(11663797,39);(6871591,38);(2869731,37);(1680471,36);(14640459,38);(3674551,36);
   (8797729,37);(4409997,36);(10285095,37);(10298957,37);(5987947,36);(5894913,36);(13493927,37);(13493927,37);
   (15011963,37);(15011963,37);(8264999,36);(8264999,36);o;(6664181,36);(-8187817,36);(6660899,35);(-13812363,36);
   (8017519,35);(-6927271,35);(6804537,35);(-4589093,35);(15561547,37);(-8483593,38);(7307957,40);(11448561,37);
   (-1812255,34);(6800883,35);(-14797609,36);(10559487,35);(-5490645,34);(14010017,35);(-14244197,35);(8512869,34);
   (-267083,29);(9775075,34);(-9730221,34);(5405273,33);(-10690423,34);(11650943,34);(-2867203,32);(12357891,34);
   (-12115189,34);(1620539,31);(-6332519,33);(6752989,33);(-6574507,33);o;o;o;o;o;o;o;o;o;o;o;o;o;o;o;o;o;o;o;o;o;o;o;
   o;o;o;o;o;o;o;o;o;o;o;o;o;o;o;o;o];
  [(12729923,29);o;(-2988499,35);o;(-10296309,41);(-13544831,40);(13472949,45);(473775,40);(1971571,41);
   (-11209241,43);(-15869751,42);(-5466539,40);(-8710473,40);(-778089,35);(-14399681,39);(-7826527,39);(-10039187,39);
   (-10352897,39);(-6287487,38);(-11535941,39);(-212391,33);(-11354765,39);(-13298383,39);(-14479347,38);
   (-7268233,37);(-8701193,37);(-8723217,37);(-10172471,37);(-5093091,36);(-11844939,37);(-1457615,34);(-6673275,36);
   (-6673275,36);(-3712041,35);(-3712041,35);(-8174889,36);(-8174889,36);o;(-12753683,37);(16621465,37);(-6480379,35);
   (13873025,36);(-15643979,36);(13914763,36);(-3311225,34);(9290219,36);(-7481163,36);(9244417,38);(-15248595,42);
   (-340451,32);(3691099,35);(-13237565,36);(14847297,36);(-645991,31);(10966555,35);(-13748295,35);(14193447,35);
   (-4182685,33);(8505565,34);(-4806825,33);(1209509,31);(-10637693,34);(10625679,34);(-2867203,32);(11395475,34);
   (-760497,30);(12034713,34);(-6383837,33);(6289243,33);(-6651677,33);(13057115,34);o;o;o;o;o;o;o;o;o;o;o;o;o;o;o;o;
   o;o;o;o;o;o;o;o;o;o;o;o;o;o;o;o;o;o;o;o;o;o;o;o];
  [(-3415755,27);o;(-9958043,38);o;(342849,36);(14453543,40);(-7270869,44);(-16450417,45);(-1059521,40);(11936713,43);
   (8482197,41);(11683229,41);(4656321,39);(13276985,39);(3840507,37);(16711923,40);(10718943,39);(5522059,38);
   (1676705,36);(12298015,39);(7243857,38);(12095081,39);(7080167,38);(7728757,37);(7759047,37);(9291423,37);
   (4657385,36);(5432329,36);(2719825,35);(3162935,35);(3114077,35);(14257071,37);(14257071,37);(3965601,35);
   (3965601,35);(2183467,34);(2183467,34);o;(14126603,37);(-8692791,36);(14126265,36);(-3664831,34);(8502049,35);
   (-14702973,36);(14429271,36);(-4870453,35);(16490455,37);(-2253937,36);(7607169,40);(1516869,34);(-1924481,34);
   (14421853,36);(-7851659,35);(5598323,34);(-5825273,34);(1856961,32);(-7555291,34);(4513549,33);(-9066195,34);
   (10366315,34);(-2580501,32);(1433187,31);(-354417,29);(12357891,34);(-12167953,34);(13108483,34);(-12854277,34);
   (13752057,34);(-13437831,34);(14326713,34);(-13951283,34);o;o;o;o;o;o;o;o;o;o;o;o;o;o;o;o;o;o;o;o;o;o;o;o;o;o;o;o;
   o;o;o;o;o;o;o;o;o;o;o;o];
  [(13453469,29);o;(-1518173,34);o;(-10802075,41);(-1778769,37);(3601383,43);(8147993,44);(2089941,41);(-5861401,42);
   (-16694875,42);(-11493503,41);(-9166417,40);(-13072859,39);(-7563473,38);(-8225651,39);(-5276657,38);
   (-10874107,39);(-13208043,39);(-12110511,39);(-3566801,37);(-5956039,38);(-6973031,38);(-15221263,38);
   (-15280925,38);(-571853,33);(-9172641,37);(-10699069,37);(-5356745,36);(-3114767,35);(-95833,30);(-3510025,35);
   (-3510025,35);(-3905283,35);(-3905283,35);(-2150271,34);(-2150271,34);o;(-13483615,37);(548281,32);(-13696389,36);
   (7323741,35);(-16530077,36);(1836311,33);(-6997395,35);(9804607,36);(-15811365,37);(2432565,36);(-16330757,42);
   (-5761151,36);(15585565,37);(-13987395,36);(15675403,36);(-10918325,35);(11578365,35);(-14521313,35);(14985399,35);
   (-8835417,34);(4490233,33);(-2538531,32);(10217043,34);(-2809117,32);(5610385,33);(-12115189,34);(12034713,34);
   (-12854277,34);(6355259,33);(-6743993,33);(13285129,34);(-7026917,33);(13790709,34);o;o;o;o;o;o;o;o;o;o;o;o;o;o;o;
   o;o;o;o;o;o;o;o;o;o;o;o;o;o;o;o;o;o;o;o;o;o;o;o;o];
  [(-14340299,29);o;(-9600263,38);o;(5744695,40);(7572359,39);(-15067239,45);(-8544699,44);(-4420483,42);(1569789,40);
   (4451811,40);(1532669,38);(9767957,40);(6942535,38);(8034717,38);(8754381,39);(5614565,38);(5781099,38);
   (14042711,39);(6433203,38);(15157343,39);(790179,35);(14802329,39);(8087625,37);(4059633,36);(9721947,37);
   (9746299,37);(5683707,36);(5691335,36);(13236679,37);(6516099,36);(3728923,35);(3728923,35);(8297353,36);
   (8297353,36);(2284215,34);(2284215,34);o;(14813065,37);(-2281753,34);(14818007,36);(-15387703,36);(4459375,34);
   (-15432897,36);(3783743,34);(-10225383,36);(540327,32);(-9475333,38);(7872095,40);(1590663,34);(-8084053,36);
   (15127991,36);(-2060393,33);(11745425,35);(-12226943,35);(15583889,35);(-3964149,33);(4734795,33);(-9513249,34);
   (5437269,33);(-338459,29);(12027829,34);(-11900213,34);(1620539,31);(-6383837,33);(6876029,33);(-13487987,34);
   (14427441,34);(-14100393,34);(3757601,32);(-14639143,34);o;o;o;o;o;o;o;o;o;o;o;o;o;o;o;o;o;o;o;o;o;o;o;o;o;o;o;o;o;
   o;o;o;o;o;o;o;o;o;o;o];
  [(14067971,29);o;(-769231,33);o;(-11270571,41);(-7427857,39);(7429995,44);(4213813,43);(8686201,43);(-6145951,42);
   (-4365147,40);(-3004809,39);(-9579487,40);(-13621019,39);(-7882401,38);(-2146581,37);(-2753723,37);(-11342171,39);
   (-13776239,39);(-12623121,39);(-7435523,38);(-6202507,38);(-7261907,38);(-1983609,35);(-7965481,37);(-2384501,35);
   (-9561897,37);(-5576251,36);(-697967,33);(-6493283,36);(-3196489,35);(-7316989,36);(-7316989,36);(-16281397,37);
   (-16281397,37);(-4482203,35);(-4482203,35);o;(-7053117,36);(2291583,34);(-3580949,34);(15308099,36);(-2160743,33);
   (3838115,34);(-14634783,36);(10243911,36);(-4134183,35);(10146583,38);(-8641843,41);(-753621,33);(8143087,36);
   (-14627855,36);(511959,31);(-5707993,34);(6050535,34);(-7590807,34);(7830927,34);(-9236625,34);(9385811,34);
   (-5307459,33);(667391,30);(-11746327,34);(11727489,34);(-6332519,33);(6289243,33);(-13437831,34);(1660641,31);
   (-14100393,34);(6942955,33);(-14691911,34);(7207215,33);o;o;o;o;o;o;o;o;o;o;o;o;o;o;o;o;o;o;o;o;o;o;o;o;o;o;o;o;o;
   o;o;o;o;o;o;o;o;o;o;o];
  [(-14942679,29);o;(-9281501,38);o;(11970049,41);(15782117,40);(-7684285,44);(-1087133,41);(-1140159,40);
   (13189525,43);(9296801,41);(200011,35);(636679,36);(7226983,38);(8364189,38);(4561051,38);(11699193,39);
   (6020853,38);(914059,35);(209285,33);(15780049,39);(13155055,39);(15403903,39);(1052411,34);(8452231,37);
   (5059703,36);(10144743,37);(11831157,37);(5923505,36);(3444007,35);(6781509,36);(7761349,36);(7761349,36);
   (4317343,35);(4317343,35);(9508023,36);(9508023,36);o;(15425881,37);(-9514645,36);(7717761,35);(-16038039,36);
   (9290813,35);(-16084875,36);(15765379,36);(-5329245,35);(4501481,35);(-2472035,36);(4059287,39);(6625819,36);
   (-8428457,36);(7879313,35);(-8589809,35);(3058965,33);(-12742063,35);(8117451,34);(-8261767,34);(9865215,34);
   (-9912951,34);(5664427,33);(-5642707,33);(6265165,33);(-6199809,33);(6752989,33);(-6651677,33);(1790839,31);
   (-7026917,33);(3757601,32);(-14691911,34);(1957329,31);(-15253235,34);o;o;o;o;o;o;o;o;o;o;o;o;o;o;o;o;o;o;o;o;o;o;
   o;o;o;o;o;o;o;o;o;o;o;o;o;o;o;o;o;o];
  [(3651591,27);o;(-6225079,36);o;(-11700191,41);(-60257,32);(7551429,44);(4274595,43);(4465389,42);(-1608015,40);
   (-4541633,40);(-1562967,38);(-9954819,40);(-14128323,39);(-8176215,38);(-2228805,37);(-11435101,39);(-11770389,39);
   (-223377,33);(-6546925,38);(-15426429,39);(-401909,34);(-1882455,36);(-8230207,37);(-16524825,38);(-4946161,36);
   (-9917091,37);(-11565813,37);(-90479,30);(-13467185,37);(-6629481,36);(-7587409,36);(-7587409,36);(-8441223,36);
   (-8441223,36);(-9295039,36);(-9295039,36);o;(-14653927,37);(9512771,36);(-14875687,36);(7944657,35);(-4487745,34);
   (15935123,36);(-3799541,34);(10630943,36);(-8588027,36);(2628819,36);(-9080449,41);(-3132111,35);(8450943,36);
   (-15191491,36);(8502581,35);(-2963569,33);(12561419,35);(-1970421,32);(8128919,34);(-9590141,34);(9742969,34);
   (-11020861,34);(5542283,33);(-6097657,33);(12173709,34);(-6574507,33);(13057115,34);(-13951283,34);(13790709,34);
   (-7319571,33);(14414431,34);(-7626617,33);(14963125,34);o;o;o;o;o;o;o;o;o;o;o;o;o;o;o;o;o;o;o;o;o;o;o;o;o;o;o;o;o;
   o;o;o;o;o;o;o;o;o;o;o];
  [o;(-9612865,38);o;o;o;o;o;o;o;o;o;o;o;o;o;o;o;o;o;o;o;o;o;o;o;o;o;o;o;o;o;o;o;o;o;o;o;o;o;o;o;o;o;o;o;o;o;o;o;o;o;
   o;o;o;o;o;o;o;o;o;o;o;o;o;o;o;o;o;o;o;o;(570951,36);(-4592989,35);(14137283,37);(-10780845,36);(1859449,34);
   (-15192827,37);(8755399,36);(-1126089,33);(15840215,37);(-16273361,37);(13421313,37);(-13828791,37);(9252571,35);
   (-9584833,35);(777079,32);(-393815,31);(6502709,36);(-203415,31);(1338983,33);(-2692403,34);(5260405,34);
   (-10538391,35);(4499623,33);(-1119915,31);(11655265,34);(-11545223,34);(13136751,34);(-12954323,34);(3421503,32);
   (-6723153,33);(7046377,33);(-6899737,33);(14510065,34);(-110653,27);o;o;o;o;o;o];
  [o;(5149605,33);o;o;o;o;o;o;o;o;o;o;o;o;o;o;o;o;o;o;o;o;o;o;o;o;o;o;o;o;o;o;o;o;o;o;o;o;o;o;o;o;o;o;o;o;o;o;o;o;o;o;
   o;o;o;o;o;o;o;o;o;o;o;o;o;o;o;o;o;o;o;(-4592989,35);(9307997,32);(-3539583,31);(10800705,32);(-14619573,33);
   (14769377,33);(-1061737,29);(8669477,32);(-3779075,31);(3863777,31);(-6590923,32);(6790465,32);(-4477557,30);
   (9275993,31);(-1484715,29);(6018367,31);(-6147071,32);(12303123,33);(-10227465,32);(10282989,32);(-10096949,31);
   (632137,27);(-8663487,30);(8625219,30);(-11233423,30);(11127501,30);(-12666017,30);(6245129,29);(-13196545,30);
   (12965519,30);(-13588263,30);(13305581,30);(-6994815,29);(853481,26);o;o;o;o;o;o];
  [o;(-12671801,34);o;o;o;o;o;o;o;o;o;o;o;o;o;o;o;o;o;o;o;o;o;o;o;o;o;o;o;o;o;o;o;o;o;o;o;o;o;o;o;o;o;o;o;o;o;o;o;o;o;
   o;o;o;o;o;o;o;o;o;o;o;o;o;o;o;o;o;o;o;o;(14137283,37);(-3539583,31);(13160377,33);(-2564917,30);(12981537,33);
   (-3287951,31);(12839331,33);(-12650867,33);(5443421,32);(-2706555,31);(2666045,31);(-10818805,33);(13326391,32);
   (-6854495,31);(16420259,33);(-16471927,33);(14522525,34);(-14262151,34);(6453935,32);(-6450919,32);(6823705,31);
   (-1705971,29);(6054199,30);(-6023423,30);(1982157,28);(-15701681,31);(4479783,29);(-2208205,28);(2331683,28);
   (-4580707,29);(4797233,29);(-4696539,29);(4935831,29);(-1204309,27);o;o;o;o;o;o];
  [o;(2542189,31);o;o;o;o;o;o;o;o;o;o;o;o;o;o;o;o;o;o;o;o;o;o;o;o;o;o;o;o;o;o;o;o;o;o;o;o;o;o;o;o;o;o;o;o;o;o;o;o;o;o;
   o;o;o;o;o;o;o;o;o;o;o;o;o;o;o;o;o;o;o;(-10780845,36);(10800705,32);(-2564917,30);(16036123,32);(-4994429,31);
   (10086149,32);(-9676395,32);(4734331,31);(-16214681,33);(4009501,31);(-16301955,33);(16512477,33);(-10039791,31);
   (10318653,31);(-3050747,30);(12222183,32);(-5238613,32);(10252053,33);(-9444635,32);(9430787,32);(-10112009,31);
   (5054849,30);(-9023943,30);(8977209,30);(-1479775,27);(5860711,29);(-6691451,29);(3298271,28);(-3482471,28);
   (6841277,29);(-7163865,29);(109583,23);(-14740133,30);(14385655,30);o;o;o;o;o;o];
  [o;(-5063669,32);o;o;o;o;o;o;o;o;o;o;o;o;o;o;o;o;o;o;o;o;o;o;o;o;o;o;o;o;o;o;o;o;o;o;o;o;o;o;o;o;o;o;o;o;o;o;o;o;o;
   o;o;o;o;o;o;o;o;o;o;o;o;o;o;o;o;o;o;o;o;(1859449,34);(-14619573,33);(12981537,33);(-4994429,31);(10483687,32);
   (-751225,28);(7107561,32);(-834791,29);(6474107,32);(-6240125,32);(10504299,33);(-2557405,31);(6872867,31);
   (-7011185,31);(7706047,32);(-3818473,31);(8948711,34);(-1049781,31);(4988093,32);(-4945957,32);(12452331,32);
   (-3108953,30);(11802811,31);(-5868857,30);(7879395,30);(-15600523,31);(8950539,30);(-2205619,28);(4657161,29);
   (-4573987,29);(1196395,27);(-4684571,29);(4919307,29);(-2400327,28);o;o;o;o;o;o];
  [o;(5723209,32);o;o;o;o;o;o;o;o;o;o;o;o;o;o;o;o;o;o;o;o;o;o;o;o;o;o;o;o;o;o;o;o;o;o;o;o;o;o;o;o;o;o;o;o;o;o;o;o;o;o;
   o;o;o;o;o;o;o;o;o;o;o;o;o;o;o;o;o;o;o;(-15192827,37);(14769377,33);(-3287951,31);(10086149,32);(-751225,28);
   (14095269,32);(-1861187,30);(13817715,33);(-873233,29);(13386495,33);(-10698415,33);(1284777,30);(-14207171,32);
   (3613515,30);(-15553633,33);(15349643,33);(-15163701,35);(13844649,35);(-9388547,33);(4637895,32);(-1555475,29);
   (12420751,32);(-12031045,31);(11962727,31);(-16149751,31);(7993073,30);(-2296281,28);(9053137,30);(-9556927,30);
   (9385759,30);(-9817271,30);(4804811,29);(-10089161,30);(9845435,30);o;o;o;o;o;o];
  [o;(-1686861,31);o;o;o;o;o;o;o;o;o;o;o;o;o;o;o;o;o;o;o;o;o;o;o;o;o;o;o;o;o;o;o;o;o;o;o;o;o;o;o;o;o;o;o;o;o;o;o;o;o;
   o;o;o;o;o;o;o;o;o;o;o;o;o;o;o;o;o;o;o;o;(8755399,36);(-1061737,29);(12839331,33);(-9676395,32);(7107561,32);
   (-1861187,30);(8919879,31);(-10014577,31);(16755551,33);(-16464385,33);(199637,28);(-5857983,33);(10836707,31);
   (-11201355,31);(7476201,31);(-15121887,32);(13288579,33);(-13207241,33);(5486837,31);(-2751719,30);(2851343,29);
   (-11417279,31);(4982795,29);(-2479705,28);(12973741,30);(-6424647,29);(3659269,28);(-14432181,30);(15238793,30);
   (-14970489,30);(7841257,29);(-3838723,28);(8070949,29);(-15755323,30);o;o;o;o;o;o];
  [o;(2859693,32);o;o;o;o;o;o;o;o;o;o;o;o;o;o;o;o;o;o;o;o;o;o;o;o;o;o;o;o;o;o;o;o;o;o;o;o;o;o;o;o;o;o;o;o;o;o;o;o;o;o;
   o;o;o;o;o;o;o;o;o;o;o;o;o;o;o;o;o;o;o;(-1126089,33);(8669477,32);(-12650867,33);(4734331,31);(-834791,29);
   (13817715,33);(-10014577,31);(11381025,31);(-9135701,32);(4530643,31);(-5850541,33);(10585279,34);(-11888607,31);
   (12311257,31);(-8463397,31);(8579313,31);(-15796135,33);(15766617,33);(-3168543,30);(6363821,31);(-50267,23);
   (12885591,31);(-11110863,30);(2764989,28);(-14408605,30);(7135649,29);(-8119411,29);(2001525,27);(-2113463,27);
   (16610607,30);(-4351069,28);(8520601,29);(-559939,25);(4372335,28);o;o;o;o;o;o];
  [o;(11006241,40);o;o;o;o;o;o;o;o;o;o;o;o;o;o;o;o;o;o;o;o;o;o;o;o;o;o;o;o;o;o;o;o;o;o;o;o;o;o;o;o;o;o;o;o;o;o;o;o;o;
   o;o;o;o;o;o;o;o;o;o;o;o;o;o;o;o;o;o;o;o;(15840215,37);(-3779075,31);(5443421,32);(-16214681,33);(6474107,32);
   (-873233,29);(16755551,33);(-9135701,32);(2189319,29);(-9578457,31);(5835709,32);(-11826291,33);(8812433,31);
   (-9122871,31);(8350167,31);(-8504239,31);(10971499,32);(-11061495,32);(15017851,32);(-15115055,32);(3364125,29);
   (-3370043,29);(2788149,28);(-1387875,27);(7149289,29);(-14163263,30);(8034167,29);(-7922379,29);(8364167,29);
   (-16434965,30);(2153401,27);(-4217085,28);(554495,25);(-4329915,28);o;o;o;o;o;o];
  [o;(-6901789,35);o;o;o;o;o;o;o;o;o;o;o;o;o;o;o;o;o;o;o;o;o;o;o;o;o;o;o;o;o;o;o;o;o;o;o;o;o;o;o;o;o;o;o;o;o;o;o;o;o;
   o;o;o;o;o;o;o;o;o;o;o;o;o;o;o;o;o;o;o;o;(-16273361,37);(3863777,31);(-2706555,31);(4009501,31);(-6240125,32);
   (13386495,33);(-16464385,33);(4530643,31);(-9578457,31);(5272129,30);(-12661413,33);(12964201,33);(-2342755,29);
   (9721259,31);(-4588539,30);(9363585,31);(-12482253,32);(12609951,32);(-8431853,31);(4246385,30);(-14845649,31);
   (14875135,31);(-12179545,30);(757907,26);(-1945317,27);(15416095,30);(-4368285,28);(4307667,28);(-9096325,29);
   (8937079,29);(-4684859,28);(4587389,28);(-4826283,28);(4711005,28);o;o;o;o;o;o];
  [o;(-1424423,33);o;o;o;o;o;o;o;o;o;o;o;o;o;o;o;o;o;o;o;o;o;o;o;o;o;o;o;o;o;o;o;o;o;o;o;o;o;o;o;o;o;o;o;o;o;o;o;o;o;
   o;o;o;o;o;o;o;o;o;o;o;o;o;o;o;o;o;o;o;o;(13421313,37);(-6590923,32);(2666045,31);(-16301955,33);(10504299,33);
   (-10698415,33);(199637,28);(-5850541,33);(5835709,32);(-12661413,33);(3818435,30);(-8149981,31);(14421625,32);
   (-7428289,31);(10378591,33);(-5147345,32);(9635529,33);(-9626865,33);(5218871,31);(-1312469,29);(9426263,31);
   (-4721051,30);(15449129,31);(-7690281,30);(9901459,30);(-9807923,30);(5570171,29);(-10985505,30);(11607649,30);
   (-11404237,30);(11957201,30);(-11708257,30);(6158139,29);(-12021971,30);o;o;o;o;o;o];
  [o;(8612879,37);o;o;o;o;o;o;o;o;o;o;o;o;o;o;o;o;o;o;o;o;o;o;o;o;o;o;o;o;o;o;o;o;o;o;o;o;o;o;o;o;o;o;o;o;o;o;o;o;o;o;
   o;o;o;o;o;o;o;o;o;o;o;o;o;o;o;o;o;o;o;(-13828791,37);(6790465,32);(-10818805,33);(16512477,33);(-2557405,31);
   (1284777,30);(-5857983,33);(10585279,34);(-11826291,33);(12964201,33);(-8149981,31);(8724007,31);(-7667523,31);
   (15831299,32);(-5679169,32);(11322943,33);(-5441863,32);(10913819,33);(-2865171,30);(11538165,32);(-5100333,30);
   (5110199,30);(-8281327,30);(8245461,30);(-10581215,30);(1310241,27);(-11895357,30);(11730557,30);(-6198173,29);
   (12179567,30);(-6386439,29);(12507353,30);(-13159053,30);(12844933,30);o;o;o;o;o;o];
  [o;(16280987,36);o;o;o;o;o;o;o;o;o;o;o;o;o;o;o;o;o;o;o;o;o;o;o;o;o;o;o;o;o;o;o;o;o;o;o;o;o;o;o;o;o;o;o;o;o;o;o;o;o;
   o;o;o;o;o;o;o;o;o;o;o;o;o;o;o;o;o;o;o;o;(9252571,35);(-4477557,30);(13326391,32);(-10039791,31);(6872867,31);
   (-14207171,32);(10836707,31);(-11888607,31);(8812433,31);(-2342755,29);(14421625,32);(-7667523,31);(1865415,27);
   (-7787857,29);(4831339,29);(-9843977,30);(7955505,31);(-3991251,30);(7334549,30);(-7385461,30);(1874199,27);
   (-7512577,29);(6256239,28);(-12459115,29);(15999269,29);(-15849835,29);(4490757,27);(-8857377,28);(1169401,25);
   (-4595931,27);(1204875,25);(-1179855,25);(4965647,27);(-9694409,28);o;o;o;o;o;o];
  [o;(-11354303,35);o;o;o;o;o;o;o;o;o;o;o;o;o;o;o;o;o;o;o;o;o;o;o;o;o;o;o;o;o;o;o;o;o;o;o;o;o;o;o;o;o;o;o;o;o;o;o;o;o;
   o;o;o;o;o;o;o;o;o;o;o;o;o;o;o;o;o;o;o;o;(-9584833,35);(9275993,31);(-6854495,31);(10318653,31);(-7011185,31);
   (3613515,30);(-11201355,31);(12311257,31);(-9122871,31);(9721259,31);(-7428289,31);(15831299,32);(-7787857,29);
   (8131849,29);(-5080777,29);(10357753,30);(-8480415,31);(4258731,30);(-7737299,30);(15585743,31);(-7867333,29);
   (15768829,30);(-6550515,28);(6522759,28);(-8369717,28);(16583359,29);(-9395217,28);(4632735,27);(-9786543,28);
   (4807879,27);(-10084049,28);(9874729,28);(-5195167,27);(10142567,28);o;o;o;o;o;o];
  [o;(11938091,33);o;o;o;o;o;o;o;o;o;o;o;o;o;o;o;o;o;o;o;o;o;o;o;o;o;o;o;o;o;o;o;o;o;o;o;o;o;o;o;o;o;o;o;o;o;o;o;o;o;
   o;o;o;o;o;o;o;o;o;o;o;o;o;o;o;o;o;o;o;o;(777079,32);(-1484715,29);(16420259,33);(-3050747,30);(7706047,32);
   (-15553633,33);(7476201,31);(-8463397,31);(8350167,31);(-4588539,30);(10378591,33);(-5679169,32);(4831339,29);
   (-5080777,29);(11066001,30);(-11364391,30);(11974433,31);(-12113945,31);(11297507,31);(-11371531,31);(10842857,30);
   (-10862657,30);(9350891,29);(-2327357,27);(12076597,29);(-11962455,29);(6797587,28);(-13406211,29);(3539673,27);
   (-13910603,29);(14583337,29);(-14279749,29);(15023469,29);(-7332257,28);o;o;o;o;o;o];
  [o;(-12728959,33);o;o;o;o;o;o;o;o;o;o;o;o;o;o;o;o;o;o;o;o;o;o;o;o;o;o;o;o;o;o;o;o;o;o;o;o;o;o;o;o;o;o;o;o;o;o;o;o;o;
   o;o;o;o;o;o;o;o;o;o;o;o;o;o;o;o;o;o;o;o;(-393815,31);(6018367,31);(-16471927,33);(12222183,32);(-3818473,31);
   (15349643,33);(-15121887,32);(8579313,31);(-8504239,31);(9363585,31);(-5147345,32);(11322943,33);(-9843977,30);
   (10357753,30);(-11364391,30);(364843,25);(-388053,26);(12568465,31);(-11711717,31);(11791791,31);(-11161711,30);
   (11183019,30);(-1199545,26);(9554127,29);(-1547829,26);(12265835,29);(-6968287,28);(6871527,28);(-3628753,27);
   (7130421,28);(-14951443,29);(915021,25);(-3850881,27);(7517803,28);o;o;o;o;o;o];
  [o;(213067,27);o;o;o;o;o;o;o;o;o;o;o;o;o;o;o;o;o;o;o;o;o;o;o;o;o;o;o;o;o;o;o;o;o;o;o;o;o;o;o;o;o;o;o;o;o;o;o;o;o;o;
   o;o;o;o;o;o;o;o;o;o;o;o;o;o;o;o;o;o;o;(6502709,36);(-6147071,32);(14522525,34);(-5238613,32);(8948711,34);
   (-15163701,35);(13288579,33);(-15796135,33);(10971499,32);(-12482253,32);(9635529,33);(-5441863,32);(7955505,31);
   (-8480415,31);(11974433,31);(-388053,26);(7448433,30);(-15176773,31);(1627805,28);(-13124855,31);(13892779,31);
   (-13910729,31);(10679245,30);(-10627427,30);(13812349,30);(-13677397,30);(15644847,30);(-15423677,30);(8154407,29);
   (-4004983,28);(8397105,29);(-4110483,28);(8648701,29);(-4220491,28);o;o;o;o;o;o];
  [o;(-14097787,33);o;o;o;o;o;o;o;o;o;o;o;o;o;o;o;o;o;o;o;o;o;o;o;o;o;o;o;o;o;o;o;o;o;o;o;o;o;o;o;o;o;o;o;o;o;o;o;o;o;
   o;o;o;o;o;o;o;o;o;o;o;o;o;o;o;o;o;o;o;o;(-203415,31);(12303123,33);(-14262151,34);(10252053,33);(-1049781,31);
   (13844649,35);(-13207241,33);(15766617,33);(-11061495,32);(12609951,32);(-9626865,33);(10913819,33);(-3991251,30);
   (4258731,30);(-12113945,31);(12568465,31);(-15176773,31);(1933301,28);(-13340329,31);(13448357,31);(-14239619,31);
   (14260041,31);(-5448827,29);(1355687,27);(-7035001,29);(13933079,30);(-7964381,29);(15704009,30);(-2075787,27);
   (254883,24);(-4275727,28);(16744479,30);(-8808545,29);(67165,22);o;o;o;o;o;o];
  [o;(10791049,33);o;o;o;o;o;o;o;o;o;o;o;o;o;o;o;o;o;o;o;o;o;o;o;o;o;o;o;o;o;o;o;o;o;o;o;o;o;o;o;o;o;o;o;o;o;o;o;o;o;
   o;o;o;o;o;o;o;o;o;o;o;o;o;o;o;o;o;o;o;o;(1338983,33);(-10227465,32);(6453935,32);(-9444635,32);(4988093,32);
   (-9388547,33);(5486837,31);(-3168543,30);(15017851,32);(-8431853,31);(5218871,31);(-2865171,30);(7334549,30);
   (-7737299,30);(11297507,31);(-11711717,31);(1627805,28);(-13340329,31);(11020271,30);(-11143053,30);(14414055,30);
   (-7228493,29);(9710435,29);(-4836237,28);(11825145,29);(-5858297,28);(3297975,27);(-13010769,29);(13764487,29);
   (-13525151,29);(14206967,29);(-6956439,28);(14654657,29);(-7152925,28);o;o;o;o;o;o];
  [o;(-171585,27);o;o;o;o;o;o;o;o;o;o;o;o;o;o;o;o;o;o;o;o;o;o;o;o;o;o;o;o;o;o;o;o;o;o;o;o;o;o;o;o;o;o;o;o;o;o;o;o;o;o;
   o;o;o;o;o;o;o;o;o;o;o;o;o;o;o;o;o;o;o;(-2692403,34);(10282989,32);(-6450919,32);(9430787,32);(-4945957,32);
   (4637895,32);(-2751719,30);(6363821,31);(-15115055,32);(4246385,30);(-1312469,29);(11538165,32);(-7385461,30);
   (15585743,31);(-11371531,31);(11791791,31);(-13124855,31);(13448357,31);(-11143053,30);(5634213,29);(-14611781,30);
   (916011,26);(-9843779,29);(2451407,27);(-2995547,27);(5936231,28);(-13363971,29);(13180693,29);(-6972293,28);
   (6851151,28);(-14393829,29);(440501,24);(-14848133,29);(14494851,29);o;o;o;o;o;o];
  [o;(1060583,30);o;o;o;o;o;o;o;o;o;o;o;o;o;o;o;o;o;o;o;o;o;o;o;o;o;o;o;o;o;o;o;o;o;o;o;o;o;o;o;o;o;o;o;o;o;o;o;o;o;o;
   o;o;o;o;o;o;o;o;o;o;o;o;o;o;o;o;o;o;o;(5260405,34);(-10096949,31);(6823705,31);(-10112009,31);(12452331,32);
   (-1555475,29);(2851343,29);(-50267,23);(3364125,29);(-14845649,31);(9426263,31);(-5100333,30);(1874199,27);
   (-7867333,29);(10842857,30);(-11161711,30);(13892779,31);(-14239619,31);(14414055,30);(-14611781,30);(13317815,29);
   (-13372365,29);(4937297,27);(-9841635,28);(6006033,27);(-5953399,27);(6648283,27);(-13118177,28);(13862163,28);
   (-13624679,28);(14318365,28);(-14025047,28);(7389601,27);(-7214953,27);o;o;o;o;o;o];
  [o;(-8540853,33);o;o;o;o;o;o;o;o;o;o;o;o;o;o;o;o;o;o;o;o;o;o;o;o;o;o;o;o;o;o;o;o;o;o;o;o;o;o;o;o;o;o;o;o;o;o;o;o;o;
   o;o;o;o;o;o;o;o;o;o;o;o;o;o;o;o;o;o;o;o;(-10538391,35);(632137,27);(-1705971,29);(5054849,30);(-3108953,30);
   (12420751,32);(-11417279,31);(12885591,31);(-3370043,29);(14875135,31);(-4721051,30);(5110199,30);(-7512577,29);
   (15768829,30);(-10862657,30);(11183019,30);(-13910729,31);(14260041,31);(-7228493,29);(916011,26);(-13372365,29);
   (13427469,29);(-9918385,28);(4942703,27);(-6033005,27);(11960371,28);(-13355953,28);(6588425,27);(-13924393,28);
   (13685915,28);(-3595745,26);(7044201,27);(-3711535,26);(7247657,27);o;o;o;o;o;o];
  [o;(13655845,34);o;o;o;o;o;o;o;o;o;o;o;o;o;o;o;o;o;o;o;o;o;o;o;o;o;o;o;o;o;o;o;o;o;o;o;o;o;o;o;o;o;o;o;o;o;o;o;o;o;
   o;o;o;o;o;o;o;o;o;o;o;o;o;o;o;o;o;o;o;o;(4499623,33);(-8663487,30);(6054199,30);(-9023943,30);(11802811,31);
   (-12031045,31);(4982795,29);(-11110863,30);(2788149,28);(-12179545,30);(15449129,31);(-8281327,30);(6256239,28);
   (-6550515,28);(9350891,29);(-1199545,26);(10679245,30);(-5448827,29);(9710435,29);(-9843779,29);(4937297,27);
   (-9918385,28);(8005061,27);(-15958561,28);(5006673,26);(-4963183,26);(5562545,26);(-10976567,27);(5797917,26);
   (-11397839,27);(11973999,27);(-5864641,26);(12357587,27);(-3016497,25);o;o;o;o;o;o];
  [o;(-13636067,34);o;o;o;o;o;o;o;o;o;o;o;o;o;o;o;o;o;o;o;o;o;o;o;o;o;o;o;o;o;o;o;o;o;o;o;o;o;o;o;o;o;o;o;o;o;o;o;o;o;
   o;o;o;o;o;o;o;o;o;o;o;o;o;o;o;o;o;o;o;o;(-1119915,31);(8625219,30);(-6023423,30);(8977209,30);(-5868857,30);
   (11962727,31);(-2479705,28);(2764989,28);(-1387875,27);(757907,26);(-7690281,30);(8245461,30);(-12459115,29);
   (6522759,28);(-2327357,27);(9554127,29);(-10627427,30);(1355687,27);(-4836237,28);(2451407,27);(-9841635,28);
   (4942703,27);(-15958561,28);(3976817,26);(-9981567,27);(9894903,27);(-11089897,27);(2735469,25);(-5779673,26);
   (11362003,27);(-11936459,27);(5846267,26);(-12318935,27);(12028267,27);o;o;o;o;o;o];
  [o;(3039225,32);o;o;o;o;o;o;o;o;o;o;o;o;o;o;o;o;o;o;o;o;o;o;o;o;o;o;o;o;o;o;o;o;o;o;o;o;o;o;o;o;o;o;o;o;o;o;o;o;o;o;
   o;o;o;o;o;o;o;o;o;o;o;o;o;o;o;o;o;o;o;(11655265,34);(-11233423,30);(1982157,28);(-1479775,27);(7879395,30);
   (-16149751,31);(12973741,30);(-14408605,30);(7149289,29);(-1945317,27);(9901459,30);(-10581215,30);(15999269,29);
   (-8369717,28);(12076597,29);(-1547829,26);(13812349,30);(-7035001,29);(11825145,29);(-2995547,27);(6006033,27);
   (-6033005,27);(5006673,26);(-9981567,27);(6384111,26);(-6328825,26);(14277781,27);(-3521867,25);(14895393,27);
   (-1830169,24);(15379057,27);(-15065013,27);(3967275,25);(-7747427,26);o;o;o;o;o;o];
  [o;(-6032135,33);o;o;o;o;o;o;o;o;o;o;o;o;o;o;o;o;o;o;o;o;o;o;o;o;o;o;o;o;o;o;o;o;o;o;o;o;o;o;o;o;o;o;o;o;o;o;o;o;o;
   o;o;o;o;o;o;o;o;o;o;o;o;o;o;o;o;o;o;o;o;(-11545223,34);(11127501,30);(-15701681,31);(5860711,29);(-15600523,31);
   (7993073,30);(-6424647,29);(7135649,29);(-14163263,30);(15416095,30);(-9807923,30);(1310241,27);(-15849835,29);
   (16583359,29);(-11962455,29);(12265835,29);(-13677397,30);(13933079,30);(-5858297,28);(5936231,28);(-5953399,27);
   (11960371,28);(-4963183,26);(9894903,27);(-6328825,26);(6274035,26);(-3538571,25);(13965643,27);(-3691687,25);
   (14514925,27);(-15246353,27);(7467519,26);(-983265,23);(7680619,26);o;o;o;o;o;o];
  [o;(12596535,34);o;o;o;o;o;o;o;o;o;o;o;o;o;o;o;o;o;o;o;o;o;o;o;o;o;o;o;o;o;o;o;o;o;o;o;o;o;o;o;o;o;o;o;o;o;o;o;o;o;
   o;o;o;o;o;o;o;o;o;o;o;o;o;o;o;o;o;o;o;o;(13136751,34);(-12666017,30);(4479783,29);(-6691451,29);(8950539,30);
   (-2296281,28);(3659269,28);(-8119411,29);(8034167,29);(-4368285,28);(5570171,29);(-11895357,30);(4490757,27);
   (-9395217,28);(6797587,28);(-6968287,28);(15644847,30);(-7964381,29);(3297975,27);(-13363971,29);(6648283,27);
   (-13355953,28);(5562545,26);(-11089897,27);(14277781,27);(-3538571,25);(16038499,27);(-1978103,24);(8376979,26);
   (-16468329,27);(270295,21);(-8472867,26);(8924125,26);(-8713707,26);o;o;o;o;o;o];
  [o;(-12436559,34);o;o;o;o;o;o;o;o;o;o;o;o;o;o;o;o;o;o;o;o;o;o;o;o;o;o;o;o;o;o;o;o;o;o;o;o;o;o;o;o;o;o;o;o;o;o;o;o;o;
   o;o;o;o;o;o;o;o;o;o;o;o;o;o;o;o;o;o;o;o;(-12954323,34);(6245129,29);(-2208205,28);(3298271,28);(-2205619,28);
   (9053137,30);(-14432181,30);(2001525,27);(-7922379,29);(4307667,28);(-10985505,30);(11730557,30);(-8857377,28);
   (4632735,27);(-13406211,29);(6871527,28);(-15423677,30);(15704009,30);(-13010769,29);(13180693,29);(-13118177,28);
   (6588425,27);(-10976567,27);(2735469,25);(-3521867,25);(13965643,27);(-1978103,24);(15614017,27);(-16530911,27);
   (1015569,23);(-8534339,26);(2090031,24);(-4402699,25);(4298893,25);o;o;o;o;o;o];
  [o;(13041637,34);o;o;o;o;o;o;o;o;o;o;o;o;o;o;o;o;o;o;o;o;o;o;o;o;o;o;o;o;o;o;o;o;o;o;o;o;o;o;o;o;o;o;o;o;o;o;o;o;o;
   o;o;o;o;o;o;o;o;o;o;o;o;o;o;o;o;o;o;o;o;(3421503,32);(-13196545,30);(2331683,28);(-3482471,28);(4657161,29);
   (-9556927,30);(15238793,30);(-2113463,27);(8364167,29);(-9096325,29);(11607649,30);(-6198173,29);(1169401,25);
   (-9786543,28);(3539673,27);(-3628753,27);(8154407,29);(-2075787,27);(13764487,29);(-6972293,28);(13862163,28);
   (-13924393,28);(5797917,26);(-5779673,26);(14895393,27);(-3691687,25);(8376979,26);(-16530911,27);(4378529,25);
   (-8607833,26);(4521597,25);(-4429323,25);(9330311,26);(-9110367,26);o;o;o;o;o;o];
  [o;(-12825833,34);o;o;o;o;o;o;o;o;o;o;o;o;o;o;o;o;o;o;o;o;o;o;o;o;o;o;o;o;o;o;o;o;o;o;o;o;o;o;o;o;o;o;o;o;o;o;o;o;o;
   o;o;o;o;o;o;o;o;o;o;o;o;o;o;o;o;o;o;o;o;(-6723153,33);(12965519,30);(-4580707,29);(6841277,29);(-4573987,29);
   (9385759,30);(-14970489,30);(16610607,30);(-16434965,30);(8937079,29);(-11404237,30);(12179567,30);(-4595931,27);
   (4807879,27);(-13910603,29);(7130421,28);(-4004983,28);(254883,24);(-13525151,29);(6851151,28);(-13624679,28);
   (13685915,28);(-11397839,27);(11362003,27);(-1830169,24);(14514925,27);(-16468329,27);(1015569,23);(-8607833,26);
   (1057645,23);(-555571,22);(4353869,25);(-9171387,26);(8955195,26);o;o;o;o;o;o];
  [o;(6801533,33);o;o;o;o;o;o;o;o;o;o;o;o;o;o;o;o;o;o;o;o;o;o;o;o;o;o;o;o;o;o;o;o;o;o;o;o;o;o;o;o;o;o;o;o;o;o;o;o;o;o;
   o;o;o;o;o;o;o;o;o;o;o;o;o;o;o;o;o;o;o;(7046377,33);(-13588263,30);(4797233,29);(-7163865,29);(1196395,27);
   (-9817271,30);(7841257,29);(-4351069,28);(2153401,27);(-4684859,28);(11957201,30);(-6386439,29);(1204875,25);
   (-10084049,28);(14583337,29);(-14951443,29);(8397105,29);(-4275727,28);(14206967,29);(-14393829,29);(14318365,28);
   (-3595745,26);(11973999,27);(-11936459,27);(15379057,27);(-15246353,27);(270295,21);(-8534339,26);(4521597,25);
   (-555571,22);(9339447,26);(-9148891,26);(1204523,23);(-2352265,24);o;o;o;o;o;o];
  [o;(-13331087,34);o;o;o;o;o;o;o;o;o;o;o;o;o;o;o;o;o;o;o;o;o;o;o;o;o;o;o;o;o;o;o;o;o;o;o;o;o;o;o;o;o;o;o;o;o;o;o;o;o;
   o;o;o;o;o;o;o;o;o;o;o;o;o;o;o;o;o;o;o;o;(-6899737,33);(13305581,30);(-4696539,29);(109583,23);(-4684571,29);
   (4804811,29);(-3838723,28);(8520601,29);(-4217085,28);(4587389,28);(-11708257,30);(12507353,30);(-1179855,25);
   (9874729,28);(-14279749,29);(915021,25);(-4110483,28);(16744479,30);(-6956439,28);(440501,24);(-14025047,28);
   (7044201,27);(-5864641,26);(5846267,26);(-15065013,27);(7467519,26);(-8472867,26);(2090031,24);(-4429323,25);
   (4353869,25);(-9148891,26);(2240557,24);(-9439595,26);(9217109,26);o;o;o;o;o;o];
  [o;(14243243,34);o;o;o;o;o;o;o;o;o;o;o;o;o;o;o;o;o;o;o;o;o;o;o;o;o;o;o;o;o;o;o;o;o;o;o;o;o;o;o;o;o;o;o;o;o;o;o;o;o;
   o;o;o;o;o;o;o;o;o;o;o;o;o;o;o;o;o;o;o;o;(14510065,34);(-6994815,29);(4935831,29);(-14740133,30);(4919307,29);
   (-10089161,30);(8070949,29);(-559939,25);(554495,25);(-4826283,28);(6158139,29);(-13159053,30);(4965647,27);
   (-5195167,27);(15023469,29);(-3850881,27);(8648701,29);(-8808545,29);(14654657,29);(-14848133,29);(7389601,27);
   (-3711535,26);(12357587,27);(-12318935,27);(3967275,25);(-983265,23);(8924125,26);(-4402699,25);(9330311,26);
   (-9171387,26);(1204523,23);(-9439595,26);(19419,17);(-9708201,26);o;o;o;o;o;o];
  [o;(-1739069,31);o;o;o;o;o;o;o;o;o;o;o;o;o;o;o;o;o;o;o;o;o;o;o;o;o;o;o;o;o;o;o;o;o;o;o;o;o;o;o;o;o;o;o;o;o;o;o;o;o;
   o;o;o;o;o;o;o;o;o;o;o;o;o;o;o;o;o;o;o;o;(-110653,27);(853481,26);(-1204309,27);(14385655,30);(-2400327,28);
   (9845435,30);(-15755323,30);(4372335,28);(-4329915,28);(4711005,28);(-12021971,30);(12844933,30);(-9694409,28);
   (10142567,28);(-7332257,28);(7517803,28);(-4220491,28);(67165,22);(-7152925,28);(14494851,29);(-7214953,27);
   (7247657,27);(-3016497,25);(12028267,27);(-7747427,26);(7680619,26);(-8713707,26);(4298893,25);(-9110367,26);
   (8955195,26);(-2352265,24);(9217109,26);(-9708201,26);(1184925,23);o;o;o;o;o;o];
  [o;o;o;o;o;o;o;o;o;o;o;o;o;o;o;o;o;o;o;o;o;o;o;o;o;o;o;o;o;o;o;o;o;o;o;o;o;o;o;o;o;o;o;o;o;o;o;o;o;o;o;o;o;o;o;o;o;
   o;o;o;o;o;o;o;o;o;o;o;o;o;o;o;o;o;o;o;o;o;o;o;o;o;o;o;o;o;o;o;o;o;o;o;o;o;o;o;o;o;o;o;o;o;o;o;o;
   (190388171656469,115);(-1627490085410191,113);(-1667667418945911,99);(-8371417196605839,150);
   (-2386315763448841,86);(-1275047951511955,107)];
  [o;o;o;o;o;o;o;o;o;o;o;o;o;o;o;o;o;o;o;o;o;o;o;o;o;o;o;o;o;o;o;o;o;o;o;o;o;o;o;o;o;o;o;o;o;o;o;o;o;o;o;o;o;o;o;o;o;
   o;o;o;o;o;o;o;o;o;o;o;o;o;o;o;o;o;o;o;o;o;o;o;o;o;o;o;o;o;o;o;o;o;o;o;o;o;o;o;o;o;o;o;o;o;o;o;o;
   (-6509960341640765,115);(6834360740046467,109);o;(-8237790121855041,148);o;o];
  [o;o;o;o;o;o;o;o;o;o;o;o;o;o;o;o;o;o;o;o;o;o;o;o;o;o;o;o;o;o;o;o;o;o;o;o;o;o;o;o;o;o;o;o;o;o;o;o;o;o;o;o;o;o;o;o;o;
   o;o;o;o;o;o;o;o;o;o;o;o;o;o;o;o;o;o;o;o;o;o;o;o;o;o;o;o;o;o;o;o;o;o;o;o;o;o;o;o;o;o;o;o;o;o;o;o;
   (-1667667418945911,99);o;(3507767095934579,61);o;o;(5965097184507881,70)];
  [o;o;o;o;o;o;o;o;o;o;o;o;o;o;o;o;o;o;o;o;o;o;o;o;o;o;o;o;o;o;o;o;o;o;o;o;o;o;o;o;o;o;o;o;o;o;o;o;o;o;o;o;o;o;o;o;o;
   o;o;o;o;o;o;o;o;o;o;o;o;o;o;o;o;o;o;o;o;o;o;o;o;o;o;o;o;o;o;o;o;o;o;o;o;o;o;o;o;o;o;o;o;o;o;o;o;
   (-8371417196605839,150);(-8237790121855041,148);o;(6071802434022919,158);o;o];
  [o;o;o;o;o;o;o;o;o;o;o;o;o;o;o;o;o;o;o;o;o;o;o;o;o;o;o;o;o;o;o;o;o;o;o;o;o;o;o;o;o;o;o;o;o;o;o;o;o;o;o;o;o;o;o;o;o;
   o;o;o;o;o;o;o;o;o;o;o;o;o;o;o;o;o;o;o;o;o;o;o;o;o;o;o;o;o;o;o;o;o;o;o;o;o;o;o;o;o;o;o;o;o;o;o;o;
   (-2386315763448841,86);o;o;o;(1441151880758559,51);o];
  [o;o;o;o;o;o;o;o;o;o;o;o;o;o;o;o;o;o;o;o;o;o;o;o;o;o;o;o;o;o;o;o;o;o;o;o;o;o;o;o;o;o;o;o;o;o;o;o;o;o;o;o;o;o;o;o;o;
   o;o;o;o;o;o;o;o;o;o;o;o;o;o;o;o;o;o;o;o;o;o;o;o;o;o;o;o;o;o;o;o;o;o;o;o;o;o;o;o;o;o;o;o;o;o;o;o;
   (-1275047951511955,107);o;(5965097184507881,70);o;o;(8296133499200617,66)]].

(** R17_112: lines 36-39, file R17/Cov_parameters_Cimini_et_al_2019_V2.0.nc (112 x 112). *)
Definition cov_R17_112 : list (list (Z * Z)) := [
  [(1,0);o;o;o;o;o;o;o;o;o;o;o;o;o;o;o;o;o;o;o;o;o;o;o;o;o;o;o;o;o;o;o;o;o;o;o;o;o;(-7657235,31);(4833953,30);
   (-962755,27);(8074779,30);(-2308275,28);(15998373,31);(-15422133,31);(10345437,31);(-4220501,30);(8359331,33);
   (762471,34);(-13695729,32);(4422027,30);(-7805357,30);(1075645,27);(-11905803,30);(3124909,28);(-1952689,27);
   (16001683,30);(-2357607,27);(4763613,28);(-10798203,29);(10807791,29);(-11936889,29);(5931601,28);(-12872285,29);
   (12729923,29);(-3415755,27);(13453469,29);(-14340299,29);(14067971,29);(-14942679,29);(3651591,27);o;o;o;o;o;o;o;o;
   o;o;o;o;o;o;o;o;o;o;o;o;o;o;o;o;o;o;o;o;o;o;o;o;o;o;o;o;o;o;o;o;o];
  [o;(10737419,32);(-8589935,35);o;o;o;o;o;o;o;o;o;o;o;o;o;o;o;o;o;o;o;o;o;o;o;o;o;o;o;o;o;o;o;o;o;o;o;o;o;o;o;o;o;o;
   o;o;o;o;o;o;o;o;o;o;o;o;o;o;o;o;o;o;o;o;o;o;o;o;o;o;(-9612865,38);(5149605,33);(-12671801,34);(2542189,31);
   (-5063669,32);(5723209,32);(-1686861,31);(2859693,32);(11006241,40);(-6901789,35);(-1424423,33);(8612879,37);
   (16280987,36);(-11354303,35);(11938091,33);(-12728959,33);(213067,27);(-14097787,33);(10791049,33);(-171585,27);
   (1060583,30);(-8540853,33);(13655845,34);(-13636067,34);(3039225,32);(-6032135,33);(12596535,34);(-12436559,34);
   (13041637,34);(-12825833,34);(6801533,33);(-13331087,34);(14243243,34);(-1739069,31);o;o;o;o;o;o;o];
  [o;(-8589935,35);(10737419,32);o;o;o;o;o;o;o;o;o;o;o;o;o;o;o;o;o;o;o;o;o;o;o;o;o;o;o;o;o;o;o;o;o;o;o;(-16024217,38);
   (-4673369,36);(-14758547,38);(-4920335,36);(-3580513,36);(-9748993,37);(-3745111,36);(-4615881,36);(-16212833,38);
   (-8597191,37);(-8750717,37);(-8001835,37);(-9322061,37);(-3734045,36);(-9821959,37);(-13951501,38);(-10283685,37);
   (-13029901,38);(-10715207,37);(-12196741,38);(-11106963,37);(-5738483,37);(-5721907,36);(-10872495,38);
   (-11724047,37);(-5188161,37);(-2988499,35);(-9958043,38);(-1518173,34);(-9600263,38);(-769231,33);(-9281501,38);
   (-6225079,36);o;o;o;o;o;o;o;o;o;o;o;o;o;o;o;o;o;o;o;o;o;o;o;o;o;o;o;o;o;o;o;o;o;o;o;o;o;o;o;o;o];
  [o;o;o;(6635203,35);o;o;o;o;o;o;o;o;o;o;o;o;o;o;o;o;o;o;o;o;o;o;o;o;o;o;o;o;o;o;o;o;o;o;o;o;o;o;o;o;o;o;o;o;o;o;o;o;
   o;o;o;o;o;o;o;o;o;o;o;o;o;o;o;o;o;o;o;o;o;o;o;o;o;o;o;o;o;o;o;o;o;o;o;o;o;o;o;o;o;o;o;o;o;o;o;o;o;o;o;o;o;o;o;o;o;
   o;o;o];
  [o;o;o;o;(6635203,35);o;o;o;o;o;o;o;o;o;o;o;o;o;o;o;o;o;o;o;o;o;o;o;o;o;o;o;o;o;o;o;o;o;(376173,40);(-12303425,45);
   (4737263,43);(-12856301,44);(15058071,44);(-1233621,40);(10337171,43);(-11709361,43);(5761969,42);(-4597061,42);
   (16749965,44);(-2866849,45);(-8690371,47);(2895937,41);(-12898959,43);(11448031,42);(-5992451,41);(7568235,41);
   (-1934383,39);(8588417,41);(-8668749,41);(1155939,38);(-9252101,41);(9837227,41);(-1221843,38);(10412643,41);
   (-10296309,41);(342849,36);(-10802075,41);(5744695,40);(-11270571,41);(11970049,41);(-11700191,41);o;o;o;o;o;o;o;o;
   o;o;o;o;o;o;o;o;o;o;o;o;o;o;o;o;o;o;o;o;o;o;o;o;o;o;o;o;o;o;o;o;o];
  [o;o;o;o;o;(6635203,35);o;o;o;o;o;o;o;o;o;o;o;o;o;o;o;o;o;o;o;o;o;o;o;o;o;o;o;o;o;o;o;o;(8627345,42);(-11871279,42);
   (9476821,41);(-9965175,41);(11445823,41);(-11562783,41);(5774477,40);(-4761311,40);(8566821,41);(-2950029,41);
   (743411,40);(6408727,41);(-7942491,41);(14658809,41);(-15896443,41);(9691731,40);(-5055645,39);(2692955,38);
   (-11009895,40);(11432921,40);(-11540859,40);(1515641,37);(-12131377,40);(1613605,37);(-6413193,39);(13698521,40);
   (-13544831,40);(14453543,40);(-1778769,37);(7572359,39);(-7427857,39);(15782117,40);(-60257,32);o;o;o;o;o;o;o;o;o;
   o;o;o;o;o;o;o;o;o;o;o;o;o;o;o;o;o;o;o;o;o;o;o;o;o;o;o;o;o;o;o;o];
  [o;o;o;o;o;o;(6635203,35);o;o;o;o;o;o;o;o;o;o;o;o;o;o;o;o;o;o;o;o;o;o;o;o;o;o;o;o;o;o;o;(689335,38);(-14000559,42);
   (5633571,40);(-10274355,41);(11484127,41);(-12999021,42);(10695291,42);(3557013,42);(-7307353,42);(119745,35);
   (-2276273,39);(8239197,41);(-9001395,41);(5775755,41);(-6074419,41);(6143331,42);(-1578019,40);(4711691,43);
   (-2371611,42);(13027681,48);(-11761867,48);(-7159297,45);(7298745,45);(-11446421,45);(5747097,44);(-13525357,45);
   (13472949,45);(-7270869,44);(3601383,43);(-15067239,45);(7429995,44);(-7684285,44);(7551429,44);o;o;o;o;o;o;o;o;o;
   o;o;o;o;o;o;o;o;o;o;o;o;o;o;o;o;o;o;o;o;o;o;o;o;o;o;o;o;o;o;o;o];
  [o;o;o;o;o;o;o;(6635203,35);o;o;o;o;o;o;o;o;o;o;o;o;o;o;o;o;o;o;o;o;o;o;o;o;o;o;o;o;o;o;(68417,34);(-2833539,39);
   (9134305,40);(-2136255,38);(9630933,40);(-3456789,40);(8738261,42);(835133,38);(-9892137,41);(11563293,41);
   (-6773685,40);(9526487,41);(-1301955,38);(2811511,40);(-5931803,41);(5170573,42);(-5328703,42);(6563207,44);
   (-13210523,45);(-1475587,45);(6573429,47);(-2239817,43);(2275371,43);(-1621989,42);(3256329,43);(-15222623,45);
   (473775,40);(-16450417,45);(8147993,44);(-8544699,44);(4213813,43);(-1087133,41);(4274595,43);o;o;o;o;o;o;o;o;o;o;
   o;o;o;o;o;o;o;o;o;o;o;o;o;o;o;o;o;o;o;o;o;o;o;o;o;o;o;o;o;o;o];
  [o;o;o;o;o;o;o;o;(6635203,35);o;o;o;o;o;o;o;o;o;o;o;o;o;o;o;o;o;o;o;o;o;o;o;o;o;o;o;o;o;(15537235,42);(-2648751,39);
   (8566207,40);(-1969819,38);(4441655,39);(-11061455,42);(12195781,43);(6999309,41);(-9983675,41);(10667731,41);
   (-12431005,41);(16544365,42);(-4514809,40);(9084949,42);(-4790423,41);(13496131,44);(-13917651,44);(-10057361,50);
   (6236981,49);(-961879,41);(7791971,44);(-5946147,43);(5963389,43);(-14369005,44);(7155531,43);(-497547,39);
   (1971571,41);(-1059521,40);(2089941,41);(-4420483,42);(8686201,43);(-1140159,40);(4465389,42);o;o;o;o;o;o;o;o;o;o;
   o;o;o;o;o;o;o;o;o;o;o;o;o;o;o;o;o;o;o;o;o;o;o;o;o;o;o;o;o;o;o];
  [o;o;o;o;o;o;o;o;o;(6635203,35);o;o;o;o;o;o;o;o;o;o;o;o;o;o;o;o;o;o;o;o;o;o;o;o;o;o;o;o;(16012079,42);(-9789521,41);
   (982973,37);(-14247025,41);(7928225,40);(-2131735,39);(13606013,42);(10537041,43);(-10459969,42);(1165409,38);
   (-11210995,41);(9782085,41);(-337117,36);(14885203,42);(-15770307,42);(5136777,41);(-10626731,42);(14737989,43);
   (-3745859,41);(11965709,43);(-751431,39);(2753309,41);(-10973341,43);(5493795,42);(-10876591,43);(5684861,42);
   (-11209241,43);(11936713,43);(-5861401,42);(1569789,40);(-6145951,42);(13189525,43);(-1608015,40);o;o;o;o;o;o;o;o;
   o;o;o;o;o;o;o;o;o;o;o;o;o;o;o;o;o;o;o;o;o;o;o;o;o;o;o;o;o;o;o;o;o];
  [o;o;o;o;o;o;o;o;o;o;(6635203,35);o;o;o;o;o;o;o;o;o;o;o;o;o;o;o;o;o;o;o;o;o;o;o;o;o;o;o;(15880467,42);(-1369359,38);
   (8826077,40);(-4315137,39);(2460059,38);(-2688027,39);(2245983,39);(2940803,42);(-137115,36);(4794391,40);
   (-11860091,41);(11435633,41);(-6387555,40);(9959081,41);(-10641027,41);(16262365,42);(-8465081,41);(14271899,42);
   (-3646015,40);(13832813,42);(-3489593,40);(3573609,40);(-14294139,42);(15135979,42);(-7515189,41);(16057677,42);
   (-15869751,42);(8482197,41);(-16694875,42);(4451811,40);(-4365147,40);(9296801,41);(-4541633,40);o;o;o;o;o;o;o;o;o;
   o;o;o;o;o;o;o;o;o;o;o;o;o;o;o;o;o;o;o;o;o;o;o;o;o;o;o;o;o;o;o;o];
  [o;o;o;o;o;o;o;o;o;o;o;(6635203,35);o;o;o;o;o;o;o;o;o;o;o;o;o;o;o;o;o;o;o;o;o;o;o;o;o;o;(13519955,42);
   (-15598953,42);(12416889,41);(-3075885,39);(108181,34);(-6509135,40);(12606129,41);(-1431567,39);(1973029,40);
   (11921873,42);(-16082343,42);(6393947,40);(-14316093,41);(3374739,39);(-14361805,41);(11869065,41);(-1538061,38);
   (10409109,41);(-1325815,38);(9844411,41);(-1239569,38);(2494059,39);(-9965429,41);(10465981,41);(-5192897,40);
   (11067901,41);(-5466539,40);(11683229,41);(-11493503,41);(1532669,38);(-3004809,39);(200011,35);(-1562967,38);o;o;
   o;o;o;o;o;o;o;o;o;o;o;o;o;o;o;o;o;o;o;o;o;o;o;o;o;o;o;o;o;o;o;o;o;o;o;o;o;o;o];
  [o;o;o;o;o;o;o;o;o;o;o;o;(6635203,35);o;o;o;o;o;o;o;o;o;o;o;o;o;o;o;o;o;o;o;o;o;o;o;o;o;(3968513,40);(-1365397,38);
   (2191997,38);(-8773917,40);(5014351,39);(-15891189,41);(7507369,40);(-11267541,42);(12284927,43);(3682013,40);
   (-4911,30);(3750867,39);(-2120971,38);(16425321,41);(-4396131,39);(15370035,41);(-1000021,37);(1826119,38);
   (-14925513,41);(14748481,41);(-930149,37);(3881155,39);(-15526507,41);(4141499,39);(-16454051,41);(1101491,37);
   (-8710473,40);(4656321,39);(-9166417,40);(9767957,40);(-9579487,40);(636679,36);(-9954819,40);o;o;o;o;o;o;o;o;o;o;
   o;o;o;o;o;o;o;o;o;o;o;o;o;o;o;o;o;o;o;o;o;o;o;o;o;o;o;o;o;o;o];
  [o;o;o;o;o;o;o;o;o;o;o;o;o;(6635203,35);o;o;o;o;o;o;o;o;o;(12394583,37);(12394583,37);(12394583,37);(12394583,37);
   (12394583,37);(12394583,37);(12394583,37);(12394583,37);(12394583,37);(12394583,37);(12394583,37);(12394583,37);
   (12394583,37);(12394583,37);o;(1382319,39);(-12170487,42);(9554871,41);(-5629385,40);(12973045,41);(-15639615,41);
   (16064093,41);(-14100933,41);(13193037,41);(-14365691,43);(13873839,44);(531679,37);(-1305199,38);(3962169,39);
   (-8667573,40);(10406843,40);(-2733547,38);(13574505,40);(-13917893,40);(8738235,39);(-8829457,39);(2620561,37);
   (-5245263,38);(11727257,39);(-11653703,39);(1573679,36);(-778089,35);(13276985,39);(-13072859,39);(6942535,38);
   (-13621019,39);(7226983,38);(-14128323,39);o;o;o;o;o;o;o;o;o;o;o;o;o;o;o;o;o;o;o;o;o;o;o;o;o;o;o;o;o;o;o;o;o;o;o;o;
   o;o;o;o;o];
  [o;o;o;o;o;o;o;o;o;o;o;o;o;o;(6635203,35);o;o;o;o;o;o;o;o;(12394583,37);(12394583,37);(12394583,37);(12394583,37);
   (12394583,37);(12394583,37);(12394583,37);(12394583,37);(12394583,37);(12394583,37);(12394583,37);(12394583,37);
   (12394583,37);(12394583,37);o;(3626541,40);(-10091005,41);(8065519,40);(-8453831,40);(9711883,40);(-4840975,39);
   (4824679,39);(-7166267,40);(1567635,38);(-6692701,43);(-14786693,45);(5503,30);(-13721965,41);(9649837,40);
   (-2641833,38);(1557635,37);(-13103709,40);(16078925,40);(-2061671,37);(5106645,38);(-5161477,38);(12154267,39);
   (-6083117,38);(13563663,39);(-6740203,38);(14560265,39);(-14399681,39);(3840507,37);(-7563473,38);(8034717,38);
   (-7882401,38);(8364189,38);(-8176215,38);o;o;o;o;o;o;o;o;o;o;o;o;o;o;o;o;o;o;o;o;o;o;o;o;o;o;o;o;o;o;o;o;o;o;o;o;o;
   o;o;o;o];
  [o;o;o;o;o;o;o;o;o;o;o;o;o;o;o;(6635203,35);o;o;o;o;o;o;o;(8263055,39);(8263055,39);(4957833,38);(4957833,38);
   (11568277,39);(11568277,39);(13220889,39);(13220889,39);(14873499,39);(14873499,39);(8263055,38);(8263055,38);
   (9089361,38);(9089361,38);o;(4503955,41);(-1176523,39);(7325909,41);(-9102379,41);(10559099,41);(-13126801,41);
   (13585489,41);(-6760389,40);(12974085,41);(-12066547,42);(4604703,41);(14818259,42);(-4585231,40);(9271371,40);
   (-9999527,40);(2935331,38);(-12221303,40);(6218379,39);(-3175063,38);(813755,36);(-13136785,40);(6945807,39);
   (-13894109,40);(14884585,40);(-7392889,39);(15833565,40);(-7826527,39);(16711923,40);(-8225651,39);(8754381,39);
   (-2146581,37);(4561051,38);(-2228805,37);o;o;o;o;o;o;o;o;o;o;o;o;o;o;o;o;o;o;o;o;o;o;o;o;o;o;o;o;o;o;o;o;o;o;o;o;o;
   o;o;o;o];
  [o;o;o;o;o;o;o;o;o;o;o;o;o;o;o;o;(6635203,35);o;o;o;o;o;o;(8263055,39);(8263055,39);(4957833,38);(4957833,38);
   (11568277,39);(11568277,39);(13220889,39);(13220889,39);(14873499,39);(14873499,39);(8263055,38);(8263055,38);
   (9089361,38);(9089361,38);o;(1557147,39);(-1076251,38);(13742167,41);(-14421925,41);(517549,36);(-4335169,39);
   (4357557,39);(-14861897,41);(13547147,41);(-2256483,40);(2333833,41);(10574257,41);(-12908117,41);(11352777,40);
   (-12278973,40);(14185385,40);(-3699155,38);(7681351,39);(-15706441,40);(8211209,39);(-4145037,38);(8858099,39);
   (-8863069,39);(4765935,38);(-9471059,39);(5076535,38);(-10039187,39);(10718943,39);(-5276657,38);(5614565,38);
   (-2753723,37);(11699193,39);(-11435101,39);o;o;o;o;o;o;o;o;o;o;o;o;o;o;o;o;o;o;o;o;o;o;o;o;o;o;o;o;o;o;o;o;o;o;o;o;
   o;o;o;o;o];
  [o;o;o;o;o;o;o;o;o;o;o;o;o;o;o;o;o;(6635203,35);o;o;o;o;o;(8263055,38);(8263055,38);(4957833,37);(4957833,37);
   (11568277,38);(11568277,38);(13220889,38);(13220889,38);(14873499,38);(14873499,38);(8263055,37);(8263055,37);
   (9089361,37);(9089361,37);o;(12001647,43);(-1534895,40);(9454925,42);(-12911265,42);(7568183,41);(-9911527,41);
   (1298061,38);(-2964339,39);(5841099,40);(-4674315,40);(8529779,41);(-8855207,46);(-4038391,43);(6263749,40);
   (-13862133,41);(5759409,39);(-12049785,40);(14568679,40);(-7449391,39);(16524869,40);(-8342053,39);(9088073,39);
   (-9093691,39);(4913643,38);(-9765297,39);(10469609,39);(-10352897,39);(5522059,38);(-10874107,39);(5781099,38);
   (-11342171,39);(6020853,38);(-11770389,39);o;o;o;o;o;o;o;o;o;o;o;o;o;o;o;o;o;o;o;o;o;o;o;o;o;o;o;o;o;o;o;o;o;o;o;o;
   o;o;o;o;o];
  [o;o;o;o;o;o;o;o;o;o;o;o;o;o;o;o;o;o;(6635203,35);o;o;o;o;(8263055,38);(8263055,38);(4957833,37);(4957833,37);
   (11568277,38);(11568277,38);(13220889,38);(13220889,38);(14873499,38);(14873499,38);(8263055,37);(8263055,37);
   (9089361,37);(9089361,37);o;(8694047,42);(-12128675,42);(9649339,41);(-10736153,41);(12417653,41);(-6890379,40);
   (7022547,40);(-13861655,41);(6570351,40);(-8873747,41);(14903793,42);(4656347,42);(-16526527,43);(1043007,37);
   (-4601999,39);(14095913,40);(-14758741,40);(4408413,38);(-9022253,39);(5006859,38);(-2528431,37);(1378877,36);
   (-5520017,38);(11934023,39);(-5930133,38);(6357805,38);(-6287487,38);(1676705,36);(-13208043,39);(14042711,39);
   (-13776239,39);(914059,35);(-223377,33);o;o;o;o;o;o;o;o;o;o;o;o;o;o;o;o;o;o;o;o;o;o;o;o;o;o;o;o;o;o;o;o;o;o;o;o;o;
   o;o;o;o];
  [o;o;o;o;o;o;o;o;o;o;o;o;o;o;o;o;o;o;o;(6635203,35);o;o;o;(12394583,38);(12394583,38);(14873499,38);(14873499,38);
   (542263,33);(542263,33);(10791489,37);(4957833,36);(12030947,37);(12030947,37);(6635203,36);(6635203,36);
   (14509865,37);(14509865,37);o;(12033253,44);(-6230279,43);(2367001,41);(-932723,39);(8871231,42);(-3126703,40);
   (13306447,42);(-265609,36);(8552947,41);(-9024453,41);(2172703,39);(-10568279,42);(4555127,41);(16448359,43);
   (-5071483,41);(8243397,40);(-4357023,39);(3417147,38);(-7004035,39);(4357553,38);(-8804787,39);(9992073,39);
   (-5000805,38);(10928109,39);(-10861807,39);(11663797,39);(-11535941,39);(12298015,39);(-12110511,39);(6433203,38);
   (-12623121,39);(209285,33);(-6546925,38);o;o;o;o;o;o;o;o;o;o;o;o;o;o;o;o;o;o;o;o;o;o;o;o;o;o;o;o;o;o;o;o;o;o;o;o;o;
   o;o;o;o];
  [o;o;o;o;o;o;o;o;o;o;o;o;o;o;o;o;o;o;o;o;(6635203,35);o;o;(12394583,38);(12394583,38);(14873499,38);(14873499,38);
   (542263,33);(542263,33);(10791489,37);(4957833,36);(12030947,37);(12030947,37);(6635203,36);(6635203,36);
   (14509865,37);(14509865,37);o;(10209233,43);(-7236965,42);(11474729,42);(-13891909,42);(16223869,42);(-4697637,40);
   (4844099,40);(-10437287,41);(10115981,41);(-4580889,40);(8387697,41);(-3596433,41);(9861465,43);(7402875,41);
   (-4340445,40);(10552483,40);(-11139019,40);(16497327,40);(-4227403,38);(2588165,37);(-10460849,39);(11806935,39);
   (-11819335,39);(12886015,39);(-6404289,38);(6871591,38);(-212391,33);(7243857,38);(-3566801,37);(15157343,39);
   (-7435523,38);(15780049,39);(-15426429,39);o;o;o;o;o;o;o;o;o;o;o;o;o;o;o;o;o;o;o;o;o;o;o;o;o;o;o;o;o;o;o;o;o;o;o;o;
   o;o;o;o;o];
  [o;o;o;o;o;o;o;o;o;o;o;o;o;o;o;o;o;o;o;o;o;(6635203,35);o;(8263055,37);(8263055,37);(4957833,36);(4957833,36);
   (11568277,37);(11568277,37);(13323927,37);(13220889,37);(14997145,37);(14997145,37);(16670363,37);(16670363,37);
   (9171791,36);(9171791,36);o;(12375705,46);(-7073169,45);(10254413,45);(-3209241,42);(15756009,44);(-13254765,43);
   (1814551,40);(-10664887,42);(11016887,42);(-3506849,40);(13956277,42);(-13172213,42);(3135329,40);(-1739559,41);
   (4689641,43);(8108721,41);(-2200701,39);(1280559,37);(-10540453,40);(7810781,39);(-7898283,39);(4801875,38);
   (-2403975,37);(10718759,39);(-10655733,39);(2869731,37);(-11354765,39);(12095081,39);(-5956039,38);(790179,35);
   (-6202507,38);(13155055,39);(-401909,34);o;o;o;o;o;o;o;o;o;o;o;o;o;o;o;o;o;o;o;o;o;o;o;o;o;o;o;o;o;o;o;o;o;o;o;o;o;
   o;o;o;o];
  [o;o;o;o;o;o;o;o;o;o;o;o;o;o;o;o;o;o;o;o;o;o;(6635203,35);(8263055,37);(8263055,37);(4957833,36);(4957833,36);
   (11568277,37);(11568277,37);(13323927,37);(13220889,37);(14997145,37);(14997145,37);(16670363,37);(16670363,37);
   (9171791,36);(9171791,36);o;(10125735,44);(-14863523,44);(2931883,41);(-15967425,43);(4716353,41);(-11534727,42);
   (3013381,40);(-3504877,40);(13849187,42);(-14950779,42);(7123159,41);(-11380317,42);(5073695,41);(575189,41);
   (-11157519,44);(2979285,39);(-12808085,41);(6414155,39);(-13189361,40);(9353341,39);(-9457665,39);(11328633,39);
   (-2835777,37);(12575311,39);(-6250739,38);(1680471,36);(-13298383,39);(7080167,38);(-6973031,38);(14802329,39);
   (-7261907,38);(15403903,39);(-1882455,36);o;o;o;o;o;o;o;o;o;o;o;o;o;o;o;o;o;o;o;o;o;o;o;o;o;o;o;o;o;o;o;o;o;o;o;o;
   o;o;o;o;o];
  [o;o;o;o;o;o;o;o;o;o;o;o;o;(12394583,37);(12394583,37);(8263055,39);(8263055,39);(8263055,38);(8263055,38);
   (12394583,38);(12394583,38);(8263055,37);(8263055,37);(1099323,33);(15837523,37);(5164409,35);(5164409,35);
   (3184719,34);(3184719,34);(15251973,36);(15148935,36);(4420659,34);(4420659,34);(10056651,35);(10056651,35);
   (11271983,35);(11271983,35);o;(1145033,38);(-11597731,41);(9171173,40);(-10597589,40);(12269345,40);(-3493711,38);
   (1786627,37);(-6675831,39);(6288505,39);(-13799819,41);(2694277,39);(2946845,40);(-2341751,39);(13248707,40);
   (-462659,35);(11679529,39);(-6150249,38);(519847,34);(-2131829,36);(5274437,37);(-10659669,38);(12328381,38);
   (-12340305,38);(13649941,38);(-6783265,37);(14640459,38);(-14479347,38);(7728757,37);(-15221263,38);(8087625,37);
   (-1983609,35);(1052411,34);(-8230207,37);o;o;o;o;o;o;o;o;o;o;o;o;o;o;o;o;o;o;o;o;o;o;o;o;o;o;o;o;o;o;o;o;o;o;o;o;o;
   o;o;o;o];
  [o;o;o;o;o;o;o;o;o;o;o;o;o;(12394583,37);(12394583,37);(8263055,39);(8263055,39);(8263055,38);(8263055,38);
   (12394583,38);(12394583,38);(8263055,37);(8263055,37);(15837523,37);(1099323,33);(5164409,35);(5164409,35);
   (3184719,34);(3184719,34);(15251973,36);(15148935,36);(4420659,34);(4420659,34);(10056651,35);(10056651,35);
   (11271983,35);(11271983,35);o;(4603311,40);(-11662407,41);(4611511,39);(-10654141,40);(1541813,37);(-14033985,40);
   (14350957,40);(-13393755,40);(12613047,40);(-6915545,40);(674605,37);(2961475,40);(-9410405,41);(6493,29);
   (-3715035,38);(5862291,38);(-1543505,36);(8350639,38);(-8561269,38);(10591903,38);(-167237,32);(96707,31);
   (-12390483,38);(3426129,36);(-851299,34);(3674551,36);(-7268233,37);(7759047,37);(-15280925,38);(4059633,36);
   (-7965481,37);(8452231,37);(-16524825,38);o;o;o;o;o;o;o;o;o;o;o;o;o;o;o;o;o;o;o;o;o;o;o;o;o;o;o;o;o;o;o;o;o;o;o;o;
   o;o;o;o;o];
  [o;o;o;o;o;o;o;o;o;o;o;o;o;(12394583,37);(12394583,37);(4957833,38);(4957833,38);(4957833,37);(4957833,37);
   (14873499,38);(14873499,38);(4957833,36);(4957833,36);(5164409,35);(5164409,35);(14509863,36);(13634041,36);
   (66169,28);(66169,28);(10199521,35);(5061121,34);(11867587,35);(11867587,35);(13535653,35);(13535653,35);
   (15203721,35);(15203721,35);o;(2427753,39);(-6166157,40);(9744569,40);(-11413137,40);(13234587,40);(-15272897,40);
   (15665733,40);(-7511805,39);(14247621,40);(-8585795,40);(3498143,39);(7702821,42);(-15239293,42);(6866335,39);
   (-1934329,37);(13012299,39);(-6863819,38);(600865,34);(-4930475,37);(3112491,36);(-6291425,37);(7357883,37);
   (-14731111,38);(511781,33);(-4069409,36);(8797729,37);(-8701193,37);(9291423,37);(-571853,33);(9721947,37);
   (-2384501,35);(5059703,36);(-4946161,36);o;o;o;o;o;o;o;o;o;o;o;o;o;o;o;o;o;o;o;o;o;o;o;o;o;o;o;o;o;o;o;o;o;o;o;o;o;
   o;o;o;o];
  [o;o;o;o;o;o;o;o;o;o;o;o;o;(12394583,37);(12394583,37);(4957833,38);(4957833,38);(4957833,37);(4957833,37);
   (14873499,38);(14873499,38);(4957833,36);(4957833,36);(5164409,35);(5164409,35);(13634041,36);(14509863,36);
   (66169,28);(66169,28);(10199521,35);(5061121,34);(11867587,35);(11867587,35);(13535653,35);(13535653,35);
   (15203721,35);(15203721,35);o;(4871305,40);(-12373139,41);(9777127,40);(-5724639,39);(6638099,39);(-3827709,38);
   (3925721,38);(-3762757,38);(14271181,40);(-8597245,40);(7003095,40);(7729825,42);(-15284179,42);(6880369,39);
   (-7753299,39);(13039869,39);(-13756841,39);(9635325,38);(-9883027,38);(12479529,38);(-12612755,38);(3688111,36);
   (-14767841,38);(4104663,36);(-16319051,38);(4409997,36);(-8723217,37);(4657385,36);(-9172641,37);(9746299,37);
   (-9561897,37);(10144743,37);(-9917091,37);o;o;o;o;o;o;o;o;o;o;o;o;o;o;o;o;o;o;o;o;o;o;o;o;o;o;o;o;o;o;o;o;o;o;o;o;
   o;o;o;o;o];
  [o;o;o;o;o;o;o;o;o;o;o;o;o;(12394583,37);(12394583,37);(11568277,39);(11568277,39);(11568277,38);(11568277,38);
   (542263,33);(542263,33);(11568277,37);(11568277,37);(3184719,34);(3184719,34);(66169,28);(66169,28);(1375967,32);
   (330307,30);(12773055,35);(12670017,35);(14893855,35);(14893855,35);(8507329,34);(8507329,34);(9567729,34);
   (9567729,34);o;(10274029,41);(-13080325,41);(10328347,40);(-12242607,40);(14216183,40);(-16590699,40);(1066185,36);
   (-2089881,37);(15941259,40);(-5147631,39);(4313097,39);(55671,36);(-11698453,42);(14230067,40);(-4040121,38);
   (14373459,39);(-7592289,38);(5339,27);(-11219199,38);(14376991,38);(-14532145,38);(8562253,37);(-8571633,37);
   (597595,33);(-4751903,36);(10285095,37);(-10172471,37);(5432329,36);(-10699069,37);(5683707,36);(-5576251,36);
   (11831157,37);(-11565813,37);o;o;o;o;o;o;o;o;o;o;o;o;o;o;o;o;o;o;o;o;o;o;o;o;o;o;o;o;o;o;o;o;o;o;o;o;o;o;o;o;o];
  [o;o;o;o;o;o;o;o;o;o;o;o;o;(12394583,37);(12394583,37);(11568277,39);(11568277,39);(11568277,38);(11568277,38);
   (542263,33);(542263,33);(11568277,37);(11568277,37);(3184719,34);(3184719,34);(66169,28);(66169,28);(330307,30);
   (1375967,32);(12773055,35);(12670017,35);(14893855,35);(14893855,35);(8507329,34);(8507329,34);(9567729,34);
   (9567729,34);o;(5145727,40);(-13101795,41);(10345417,40);(-3065427,38);(3559537,38);(-16610743,40);(8539281,39);
   (-8366793,39);(7976875,39);(-10301651,40);(2157537,38);(7147891,43);(-5859399,41);(7121815,39);(-4044023,38);
   (14387287,39);(-7599639,38);(5472721,37);(-5615347,37);(14393041,38);(-14548391,38);(4286377,36);(-1072769,34);
   (598377,33);(-9516247,37);(10298957,37);(-5093091,36);(2719825,35);(-5356745,36);(5691335,36);(-697967,33);
   (5923505,36);(-90479,30);o;o;o;o;o;o;o;o;o;o;o;o;o;o;o;o;o;o;o;o;o;o;o;o;o;o;o;o;o;o;o;o;o;o;o;o;o;o;o;o;o];
  [o;o;o;o;o;o;o;o;o;o;o;o;o;(12394583,37);(12394583,37);(13220889,39);(13220889,39);(13220889,38);(13220889,38);
   (10791489,37);(10791489,37);(13323927,37);(13323927,37);(15251973,36);(15251973,36);(10199521,35);(10199521,35);
   (12773055,35);(12773055,35);(15395079,35);(7673295,34);(2249865,32);(2249865,32);(2575345,32);(2575345,32);
   (11603299,34);(11603299,34);o;(5499579,40);(-7016331,40);(11072389,40);(-6638279,39);(7718633,39);(-9098107,39);
   (9375311,39);(-9373969,39);(8980377,39);(-6155187,39);(5269751,39);(-8786847,45);(-7774531,42);(7480097,39);
   (-2139899,37);(16077933,39);(-8501671,38);(12521963,38);(-12851125,38);(2079055,35);(-8406557,37);(9948393,37);
   (-155619,31);(5563865,36);(-5530399,36);(5987947,36);(-11844939,37);(3162935,35);(-3114767,35);(13236679,37);
   (-6493283,36);(3444007,35);(-13467185,37);o;o;o;o;o;o;o;o;o;o;o;o;o;o;o;o;o;o;o;o;o;o;o;o;o;o;o;o;o;o;o;o;o;o;o;o;
   o;o;o;o;o];
  [o;o;o;o;o;o;o;o;o;o;o;o;o;(12394583,37);(12394583,37);(13220889,39);(13220889,39);(13220889,38);(13220889,38);
   (4957833,36);(4957833,36);(13220889,37);(13220889,37);(15148935,36);(15148935,36);(5061121,34);(5061121,34);
   (12670017,35);(12670017,35);(7673295,34);(1956963,32);(8960063,34);(8960063,34);(5123415,33);(5123415,33);
   (11533597,34);(11533597,34);o;(2712491,39);(-3460943,39);(2731065,38);(-13087199,40);(15215375,40);(-8963575,39);
   (4617775,38);(-576037,35);(4413147,38);(-12021563,40);(10271321,40);(-9943053,46);(-8121225,42);(3682759,38);
   (-1053263,36);(3937565,37);(-8329179,38);(12272225,38);(-12595457,38);(2041357,35);(-8254279,37);(1222815,34);
   (-4896809,36);(10951087,37);(-10885241,37);(5894913,36);(-1457615,34);(3114077,35);(-95833,30);(6516099,36);
   (-3196489,35);(6781509,36);(-6629481,36);o;o;o;o;o;o;o;o;o;o;o;o;o;o;o;o;o;o;o;o;o;o;o;o;o;o;o;o;o;o;o;o;o;o;o;o;o;
   o;o;o;o];
  [o;o;o;o;o;o;o;o;o;o;o;o;o;(12394583,37);(12394583,37);(14873499,39);(14873499,39);(14873499,38);(14873499,38);
   (12030947,37);(12030947,37);(14997145,37);(14997145,37);(4420659,34);(4420659,34);(11867587,35);(11867587,35);
   (14893855,35);(14893855,35);(2249865,32);(8960063,34);(10537217,34);(10537217,34);(6037487,33);(6037487,33);
   (3403183,32);(3403183,32);o;(11561569,41);(-7390397,40);(11656049,40);(-14110077,40);(8212061,39);(-9762673,39);
   (10078327,39);(-2558079,37);(9838399,39);(-14051587,40);(6100767,39);(-10762597,43);(-16375693,44);(3858967,38);
   (-8892711,39);(2181091,36);(-9235717,38);(13863985,38);(-7115849,37);(9299675,37);(-9401381,37);(11179131,37);
   (-11192093,37);(12529953,37);(-12454813,37);(13493927,37);(-6673275,36);(14257071,37);(-3510025,35);(3728923,35);
   (-7316989,36);(7761349,36);(-7587409,36);o;o;o;o;o;o;o;o;o;o;o;o;o;o;o;o;o;o;o;o;o;o;o;o;o;o;o;o;o;o;o;o;o;o;o;o;o;
   o;o;o;o];
  [o;o;o;o;o;o;o;o;o;o;o;o;o;(12394583,37);(12394583,37);(14873499,39);(14873499,39);(14873499,38);(14873499,38);
   (12030947,37);(12030947,37);(14997145,37);(14997145,37);(4420659,34);(4420659,34);(11867587,35);(11867587,35);
   (14893855,35);(14893855,35);(2249865,32);(8960063,34);(10537217,34);(10537217,34);(6037487,33);(6037487,33);
   (3403183,32);(3403183,32);o;(11561569,41);(-7390397,40);(11656049,40);(-14110077,40);(8212061,39);(-9762673,39);
   (10078327,39);(-2558079,37);(9838399,39);(-14051587,40);(6100767,39);(-10762597,43);(-16375693,44);(3858967,38);
   (-8892711,39);(2181091,36);(-9235717,38);(13863985,38);(-7115849,37);(9299675,37);(-9401381,37);(11179131,37);
   (-11192093,37);(12529953,37);(-12454813,37);(13493927,37);(-6673275,36);(14257071,37);(-3510025,35);(3728923,35);
   (-7316989,36);(7761349,36);(-7587409,36);o;o;o;o;o;o;o;o;o;o;o;o;o;o;o;o;o;o;o;o;o;o;o;o;o;o;o;o;o;o;o;o;o;o;o;o;o;
   o;o;o;o];
  [o;o;o;o;o;o;o;o;o;o;o;o;o;(12394583,37);(12394583,37);(8263055,38);(8263055,38);(8263055,37);(8263055,37);
   (6635203,36);(6635203,36);(16670363,37);(16670363,37);(10056651,35);(10056651,35);(13535653,35);(13535653,35);
   (8507329,34);(8507329,34);(2575345,32);(5123415,33);(6037487,33);(6037487,33);(13848569,34);(13848569,34);
   (15622165,34);(15622165,34);o;(3030995,39);(-15528929,41);(6119855,39);(-14943599,40);(4352743,38);(-1303405,36);
   (10781347,39);(-2772665,37);(10696425,39);(-493525,35);(13863571,40);(-9664239,42);(-6612949,46);(15911541,40);
   (-9225823,39);(2352441,36);(-2492441,36);(15206007,38);(-7806135,37);(1285391,34);(-10396207,37);(12409871,37);
   (-6212285,36);(13932175,37);(-13848831,37);(15011963,37);(-3712041,35);(3965601,35);(-3905283,35);(8297353,36);
   (-16281397,37);(4317343,35);(-8441223,36);o;o;o;o;o;o;o;o;o;o;o;o;o;o;o;o;o;o;o;o;o;o;o;o;o;o;o;o;o;o;o;o;o;o;o;o;
   o;o;o;o;o];
  [o;o;o;o;o;o;o;o;o;o;o;o;o;(12394583,37);(12394583,37);(8263055,38);(8263055,38);(8263055,37);(8263055,37);
   (6635203,36);(6635203,36);(16670363,37);(16670363,37);(10056651,35);(10056651,35);(13535653,35);(13535653,35);
   (8507329,34);(8507329,34);(2575345,32);(5123415,33);(6037487,33);(6037487,33);(13848569,34);(13848569,34);
   (15622165,34);(15622165,34);o;(3030995,39);(-15528929,41);(6119855,39);(-14943599,40);(4352743,38);(-1303405,36);
   (10781347,39);(-2772665,37);(10696425,39);(-493525,35);(13863571,40);(-9664239,42);(-6612949,46);(15911541,40);
   (-9225823,39);(2352441,36);(-2492441,36);(15206007,38);(-7806135,37);(1285391,34);(-10396207,37);(12409871,37);
   (-6212285,36);(13932175,37);(-13848831,37);(15011963,37);(-3712041,35);(3965601,35);(-3905283,35);(8297353,36);
   (-16281397,37);(4317343,35);(-8441223,36);o;o;o;o;o;o;o;o;o;o;o;o;o;o;o;o;o;o;o;o;o;o;o;o;o;o;o;o;o;o;o;o;o;o;o;o;
   o;o;o;o;o];
  [o;o;o;o;o;o;o;o;o;o;o;o;o;(12394583,37);(12394583,37);(9089361,38);(9089361,38);(9089361,37);(9089361,37);
   (14509865,37);(14509865,37);(9171791,36);(9171791,36);(11271983,35);(11271983,35);(15203721,35);(15203721,35);
   (9567729,34);(9567729,34);(11603299,34);(11533597,34);(3403183,32);(3403183,32);(15622165,34);(15622165,34);
   (4407899,32);(4407899,32);o;(1585799,38);(-8138531,40);(12823371,40);(-15777125,40);(2299729,37);(-5545903,38);
   (11484365,39);(-5974505,38);(11554449,39);(-8767007,39);(15525605,40);(-1743397,39);(13069233,44);(16387215,40);
   (-4779467,38);(10095163,38);(-10703815,38);(258563,32);(-1062053,34);(11266581,37);(-5695517,36);(13640607,37);
   (-6828523,36);(15334397,37);(-7621423,36);(8264999,36);(-8174889,36);(2183467,34);(-2150271,34);(2284215,34);
   (-4482203,35);(9508023,36);(-9295039,36);o;o;o;o;o;o;o;o;o;o;o;o;o;o;o;o;o;o;o;o;o;o;o;o;o;o;o;o;o;o;o;o;o;o;o;o;o;
   o;o;o;o];
  [o;o;o;o;o;o;o;o;o;o;o;o;o;(12394583,37);(12394583,37);(9089361,38);(9089361,38);(9089361,37);(9089361,37);
   (14509865,37);(14509865,37);(9171791,36);(9171791,36);(11271983,35);(11271983,35);(15203721,35);(15203721,35);
   (9567729,34);(9567729,34);(11603299,34);(11533597,34);(3403183,32);(3403183,32);(15622165,34);(15622165,34);
   (4407899,32);(4407899,32);o;(1585799,38);(-8138531,40);(12823371,40);(-15777125,40);(2299729,37);(-5545903,38);
   (11484365,39);(-5974505,38);(11554449,39);(-8767007,39);(15525605,40);(-1743397,39);(13069233,44);(16387215,40);
   (-4779467,38);(10095163,38);(-10703815,38);(258563,32);(-1062053,34);(11266581,37);(-5695517,36);(13640607,37);
   (-6828523,36);(15334397,37);(-7621423,36);(8264999,36);(-8174889,36);(2183467,34);(-2150271,34);(2284215,34);
   (-4482203,35);(9508023,36);(-9295039,36);o;o;o;o;o;o;o;o;o;o;o;o;o;o;o;o;o;o;o;o;o;o;o;o;o;o;o;o;o;o;o;o;o;o;o;o;o;
   o;o;o;o];
  [o;o;o;o;o;o;o;o;o;o;o;o;o;o;o;o;o;o;o;o;o;o;o;o;o;o;o;o;o;o;o;o;o;o;o;o;o;(13743895,37);o;o;o;o;o;o;o;o;o;o;o;o;o;
   o;o;o;o;o;o;o;o;o;o;o;o;o;o;o;o;o;o;o;o;o;o;o;o;o;o;o;o;o;o;o;o;o;o;o;o;o;o;o;o;o;o;o;o;o;o;o;o;o;o;o;o;o;o;o;o;o;
   o;o;o;o];
  [(-7657235,31);o;(-16024217,38);o;(376173,40);(8627345,42);(689335,38);(68417,34);(15537235,42);(16012079,42);
   (15880467,42);(13519955,42);(3968513,40);(1382319,39);(3626541,40);(4503955,41);(1557147,39);(12001647,43);
   (8694047,42);(12033253,44);(10209233,43);(12375705,46);(10125735,44);(1145033,38);(4603311,40);(2427753,39);
   (4871305,40);(10274029,41);(5145727,40);(5499579,40);(2712491,39);(11561569,41);(11561569,41);(3030995,39);
   (3030995,39);(1585799,38);(1585799,38);o;(8978821,39);(-9422389,39);(4312101,37);(-16265059,39);(10216455,38);
   (-7954867,38);(4244719,37);(-2424795,37);(9367317,39);(-7207793,42);(74875,37);(16766241,40);(-8758523,39);
   (2161337,36);(-4308247,37);(12762979,38);(-6257717,37);(8242437,37);(-16015201,38);(9868117,37);(-9537317,37);
   (5621323,36);(-5411337,36);(6193569,36);(-11882303,37);(13328363,37);(-12753683,37);(7063301,36);(-13483615,37);
   (14813065,37);(-7053117,36);(15425881,37);(-14653927,37);o;o;o;o;o;o;o;o;o;o;o;o;o;o;o;o;o;o;o;o;o;o;o;o;o;o;o;o;o;
   o;o;o;o;o;o;o;o;o;o;o;o];
  [(4833953,30);o;(-4673369,36);o;(-12303425,45);(-11871279,42);(-14000559,42);(-2833539,39);(-2648751,39);
   (-9789521,41);(-1369359,38);(-15598953,42);(-1365397,38);(-12170487,42);(-10091005,41);(-1176523,39);(-1076251,38);
   (-1534895,40);(-12128675,42);(-6230279,43);(-7236965,42);(-7073169,45);(-14863523,44);(-11597731,41);
   (-11662407,41);(-6166157,40);(-12373139,41);(-13080325,41);(-13101795,41);(-7016331,40);(-3460943,39);
   (-7390397,40);(-7390397,40);(-15528929,41);(-15528929,41);(-8138531,40);(-8138531,40);o;(-9422389,39);(6943081,38);
   (-9954335,38);(11275241,38);(-11967763,38);(11039019,38);(-9767097,38);(7096597,38);(-4938005,38);(12228473,41);
   (12786443,42);(-4336347,38);(13039651,39);(-2490275,36);(5935065,37);(-1895625,35);(4199339,36);(-9937059,37);
   (10612795,37);(-374853,32);(12549667,37);(-6867861,36);(14177289,37);(-15184519,37);(15518717,37);(-8187817,36);
   (16621465,37);(-8692791,36);(548281,32);(-2281753,34);(2291583,34);(-9514645,36);(9512771,36);o;o;o;o;o;o;o;o;o;o;
   o;o;o;o;o;o;o;o;o;o;o;o;o;o;o;o;o;o;o;o;o;o;o;o;o;o;o;o;o;o;o];
  [(-962755,27);o;(-14758547,38);o;(4737263,43);(9476821,41);(5633571,40);(9134305,40);(8566207,40);(982973,37);
   (8826077,40);(12416889,41);(2191997,38);(9554871,41);(8065519,40);(7325909,41);(13742167,41);(9454925,42);
   (9649339,41);(2367001,41);(11474729,42);(10254413,45);(2931883,41);(9171173,40);(4611511,39);(9744569,40);
   (9777127,40);(10328347,40);(10345417,40);(11072389,40);(2731065,38);(11656049,40);(11656049,40);(6119855,39);
   (6119855,39);(12823371,40);(12823371,40);o;(4312101,37);(-9954335,38);(8491687,37);(-2107397,35);(315487,32);
   (-16477393,38);(8338569,37);(-10188011,38);(8974647,38);(-10504313,41);(-2705811,42);(16058849,39);(-4640535,37);
   (8493307,37);(-8900299,37);(1579597,34);(-3205825,35);(8193411,36);(-16349591,37);(614543,32);(-4858701,35);
   (5609485,35);(-11013835,36);(6186505,35);(-3020589,34);(6660899,35);(-6480379,35);(7063133,35);(-13696389,36);
   (14818007,36);(-3580949,34);(7717761,35);(-14875687,36);o;o;o;o;o;o;o;o;o;o;o;o;o;o;o;o;o;o;o;o;o;o;o;o;o;o;o;o;o;
   o;o;o;o;o;o;o;o;o;o;o;o];
  [(8074779,30);o;(-4920335,36);o;(-12856301,44);(-9965175,41);(-10274355,41);(-2136255,38);(-1969819,38);
   (-14247025,41);(-4315137,39);(-3075885,39);(-8773917,40);(-5629385,40);(-8453831,40);(-9102379,41);(-14421925,41);
   (-12911265,42);(-10736153,41);(-932723,39);(-13891909,42);(-3209241,42);(-15967425,43);(-10597589,40);
   (-10654141,40);(-11413137,40);(-5724639,39);(-12242607,40);(-3065427,38);(-6638279,39);(-13087199,40);
   (-14110077,40);(-14110077,40);(-14943599,40);(-14943599,40);(-15777125,40);(-15777125,40);o;(-16265059,39);
   (11275241,38);(-2107397,35);(1156465,34);(-10116153,37);(9078993,37);(-2077571,35);(11637811,38);(-4310201,37);
   (2358589,38);(15168465,42);(-14942991,39);(5271839,37);(-8466221,37);(4887365,36);(-3211963,35);(1740697,34);
   (-525351,32);(2206727,34);(-10136111,36);(10455641,36);(-5798871,35);(1477829,33);(-12813387,36);(12948191,36);
   (-13812363,36);(13873025,36);(-3664831,34);(7323741,35);(-15387703,36);(15308099,36);(-16038039,36);(7944657,35);o;
   o;o;o;o;o;o;o;o;o;o;o;o;o;o;o;o;o;o;o;o;o;o;o;o;o;o;o;o;o;o;o;o;o;o;o;o;o;o;o;o];
  [(-2308275,28);o;(-3580513,36);o;(15058071,44);(11445823,41);(11484127,41);(9630933,40);(4441655,39);(7928225,40);
   (2460059,38);(108181,34);(5014351,39);(12973045,41);(9711883,40);(10559099,41);(517549,36);(7568183,41);
   (12417653,41);(8871231,42);(16223869,42);(15756009,44);(4716353,41);(12269345,40);(1541813,37);(13234587,40);
   (6638099,39);(14216183,40);(3559537,38);(7718633,39);(15215375,40);(8212061,39);(8212061,39);(4352743,38);
   (4352743,38);(2299729,37);(2299729,37);o;(10216455,38);(-5983881,37);(315487,32);(-10116153,37);(6012525,36);
   (-2480583,35);(2491199,35);(-3099679,36);(10791391,38);(-3582227,39);(-73981,37);(9455133,38);(-5563569,37);
   (5071111,36);(-1339779,34);(15158385,37);(-15470529,37);(9847725,36);(-9869307,36);(2957099,34);(-2933387,34);
   (13501057,36);(-3324479,34);(14892043,36);(-3646455,34);(8017519,35);(-15643979,36);(8502049,35);(-16530077,36);
   (4459375,34);(-2160743,33);(9290813,35);(-8975489,35);o;o;o;o;o;o;o;o;o;o;o;o;o;o;o;o;o;o;o;o;o;o;o;o;o;o;o;o;o;o;
   o;o;o;o;o;o;o;o;o;o;o];
  [(15998373,31);o;(-9748993,37);o;(-1233621,40);(-11562783,41);(-12999021,42);(-3456789,40);(-11061455,42);
   (-2131735,39);(-2688027,39);(-6509135,40);(-15891189,41);(-15639615,41);(-4840975,39);(-13126801,41);(-4335169,39);
   (-9911527,41);(-6890379,40);(-3126703,40);(-4697637,40);(-13254765,43);(-11534727,42);(-3493711,38);(-14033985,40);
   (-15272897,40);(-3827709,38);(-16590699,40);(-16610743,40);(-9098107,39);(-8963575,39);(-9762673,39);(-9762673,39);
   (-1303405,36);(-1303405,36);(-5545903,38);(-5545903,38);o;(-7954867,38);(11039019,38);(-16477393,38);(9078993,37);
   (-2480583,35);(9015169,37);(-8273563,37);(5906699,37);(-4432273,37);(10590137,40);(9881609,42);(-14501975,39);
   (5153623,37);(-8420687,37);(2431973,35);(-6428137,36);(13934927,37);(-2106793,34);(69133,29);(-10167969,36);
   (10487841,36);(-2908823,34);(11860235,36);(-12853861,36);(3247111,34);(-6927271,35);(13914763,36);(-14702973,36);
   (1836311,33);(-15432897,36);(3838115,34);(-8042437,35);(3983781,34);o;o;o;o;o;o;o;o;o;o;o;o;o;o;o;o;o;o;o;o;o;o;o;
   o;o;o;o;o;o;o;o;o;o;o;o;o;o;o;o;o;o];
  [(-15422133,31);o;(-3745111,36);o;(10337171,43);(5774477,40);(10695291,42);(8738261,42);(12195781,43);(13606013,42);
   (2245983,39);(12606129,41);(7507369,40);(16064093,41);(4824679,39);(13585489,41);(4357557,39);(1298061,38);
   (7022547,40);(13306447,42);(4844099,40);(1814551,40);(3013381,40);(1786627,37);(14350957,40);(15665733,40);
   (3925721,38);(1066185,36);(8539281,39);(9375311,39);(4617775,38);(10078327,39);(10078327,39);(10781347,39);
   (10781347,39);(11484365,39);(11484365,39);o;(4244719,37);(-9767097,38);(8338569,37);(-2077571,35);(2491199,35);
   (-16547125,38);(525483,33);(-10610573,38);(9466153,38);(-3563383,39);(10415203,43);(15595543,39);(-9058125,38);
   (133555,31);(-8965813,37);(12846697,37);(-13044693,37);(16718747,37);(-16689771,37);(10044139,36);(-620691,32);
   (5731731,35);(-5629289,35);(12641699,36);(-1543679,33);(6804537,35);(-3311225,34);(14429271,36);(-6997395,35);
   (3783743,34);(-14634783,36);(15765379,36);(-15198163,36);o;o;o;o;o;o;o;o;o;o;o;o;o;o;o;o;o;o;o;o;o;o;o;o;o;o;o;o;o;
   o;o;o;o;o;o;o;o;o;o;o;o];
  [(10345437,31);o;(-4615881,36);o;(-11709361,43);(-4761311,40);(3557013,42);(835133,38);(6999309,41);(10537041,43);
   (2940803,42);(-1431567,39);(-11267541,42);(-14100933,41);(-7166267,40);(-6760389,40);(-14861897,41);(-2964339,39);
   (-13861655,41);(-265609,36);(-10437287,41);(-10664887,42);(-3504877,40);(-6675831,39);(-13393755,40);(-7511805,39);
   (-3762757,38);(-2089881,37);(-8366793,39);(-9373969,39);(-576037,35);(-2558079,37);(-2558079,37);(-2772665,37);
   (-2772665,37);(-5974505,38);(-5974505,38);o;(-2424795,37);(7096597,38);(-10188011,38);(11637811,38);(-3099679,36);
   (5906699,37);(-2652643,36);(8138585,38);(-5995927,38);(9280607,40);(995209,42);(-8513685,39);(3268865,37);
   (-10773319,38);(6392307,37);(-2101977,35);(9266991,37);(-11112889,37);(11817561,37);(-6725285,36);(438125,32);
   (-15409013,37);(3963047,35);(-8514387,36);(271121,31);(-4589093,35);(9290219,36);(-9740907,36);(4902303,35);
   (-10225383,36);(10243911,36);(-5329245,35);(10630943,36);o;o;o;o;o;o;o;o;o;o;o;o;o;o;o;o;o;o;o;o;o;o;o;o;o;o;o;o;o;
   o;o;o;o;o;o;o;o;o;o;o;o];
  [(-4220501,30);o;(-16212833,38);o;(5761969,42);(8566821,41);(-7307353,42);(-9892137,41);(-9983675,41);
   (-10459969,42);(-137115,36);(1973029,40);(12284927,43);(13193037,41);(1567635,38);(12974085,41);(13547147,41);
   (5841099,40);(6570351,40);(8552947,41);(10115981,41);(11016887,42);(13849187,42);(6288505,39);(12613047,40);
   (14247621,40);(14271181,40);(15941259,40);(7976875,39);(8980377,39);(4413147,38);(9838399,39);(9838399,39);
   (10696425,39);(10696425,39);(11554449,39);(11554449,39);o;(9367317,39);(-4938005,38);(8974647,38);(-4310201,37);
   (10791391,38);(-4432273,37);(9466153,38);(-5995927,38);(5833061,38);(-10269613,41);(14583231,42);(16612339,40);
   (-8910327,39);(1198565,35);(-2419113,36);(7315973,37);(-14481453,38);(9567269,37);(-9365067,37);(11506819,37);
   (-5596499,36);(13127599,37);(-6354723,36);(1808215,34);(-6974113,36);(15561547,37);(-14962327,37);(16490455,37);
   (-15811365,37);(8645233,36);(-4134183,35);(4501481,35);(-2147007,34);o;o;o;o;o;o;o;o;o;o;o;o;o;o;o;o;o;o;o;o;o;o;o;
   o;o;o;o;o;o;o;o;o;o;o;o;o;o;o;o;o;o];
  [(8359331,33);o;(-8597191,37);o;(-4597061,42);(-2950029,41);(119745,35);(11563293,41);(10667731,41);(1165409,38);
   (4794391,40);(11921873,42);(3682013,40);(-14365691,43);(-6692701,43);(-12066547,42);(-2256483,40);(-4674315,40);
   (-8873747,41);(-9024453,41);(-4580889,40);(-3506849,40);(-14950779,42);(-13799819,41);(-6915545,40);(-8585795,40);
   (-8597245,40);(-5147631,39);(-10301651,40);(-6155187,39);(-12021563,40);(-14051587,40);(-14051587,40);(-493525,35);
   (-493525,35);(-8767007,39);(-8767007,39);o;(-450487,38);(1528559,38);(-1313039,38);(9434357,40);(-14328909,41);
   (10590137,40);(-3563383,39);(9280607,40);(-5134807,40);(5572077,40);(-4431697,42);(-16669059,47);(2337001,39);
   (-13777717,41);(11317725,40);(-3392865,38);(8897889,39);(-9742479,39);(11721477,39);(-1523439,36);(14040537,39);
   (-14142887,39);(7937533,38);(-15706813,39);(4330865,37);(-8483593,38);(9244417,38);(-2253937,36);(2432565,36);
   (-9475333,38);(10146583,38);(-2472035,36);(2628819,36);o;o;o;o;o;o;o;o;o;o;o;o;o;o;o;o;o;o;o;o;o;o;o;o;o;o;o;o;o;o;
   o;o;o;o;o;o;o;o;o;o;o];
  [(762471,34);o;(-8750717,37);o;(16749965,44);(743411,40);(-2276273,39);(-6773685,40);(-12431005,41);(-11210995,41);
   (-11860091,41);(-16082343,42);(-4911,30);(13873839,44);(-14786693,45);(4604703,41);(2333833,41);(8529779,41);
   (14903793,42);(2172703,39);(8387697,41);(13956277,42);(7123159,41);(2694277,39);(674605,37);(3498143,39);
   (7003095,40);(4313097,39);(2157537,38);(5269751,39);(10271321,40);(6100767,39);(6100767,39);(13863571,40);
   (13863571,40);(15525605,40);(15525605,40);o;(4792001,43);(12786443,42);(-2705811,42);(15168471,42);(-1183695,41);
   (1235201,39);(10415201,43);(497605,41);(14583229,42);(-553963,39);(4844563,40);(-12209783,44);(8585891,41);
   (14035721,44);(10075391,42);(2848121,40);(16030401,45);(9014251,41);(-9174339,43);(11353835,41);(-9139061,42);
   (6438981,40);(-752395,38);(13888353,41);(-6956513,41);(14615911,41);(-7624295,41);(15214339,41);(-16330753,42);
   (15744189,41);(-4320923,40);(16237155,41);(-9080451,41);o;o;o;o;o;o;o;o;o;o;o;o;o;o;o;o;o;o;o;o;o;o;o;o;o;o;o;o;o;
   o;o;o;o;o;o;o;o;o;o;o;o];
  [(-13695729,32);o;(-8001835,37);o;(-2866849,45);(6408727,41);(8239197,41);(9526487,41);(16544365,42);(9782085,41);
   (11435633,41);(6393947,40);(3750867,39);(531679,37);(5503,30);(14818259,42);(10574257,41);(-8855207,46);
   (4656347,42);(-10568279,42);(-3596433,41);(-13172213,42);(-11380317,42);(2946845,40);(2961475,40);(7702821,42);
   (7729825,42);(55671,36);(7147891,43);(-8786847,45);(-9943053,46);(-10762597,43);(-10762597,43);(-9664239,42);
   (-9664239,42);(-1743397,39);(-1743397,39);o;(16766241,40);(-4336347,38);(16058849,39);(-7471495,38);(9455133,38);
   (-14501975,39);(15595543,39);(-8513685,39);(16612339,40);(-16669059,47);(-3052445,42);(2133443,37);(-8739291,39);
   (8116033,38);(-4001385,37);(5731839,37);(-5570837,37);(7215455,37);(-13908349,38);(1066455,34);(-16373125,38);
   (604569,33);(-9251397,37);(10642559,37);(-5074105,36);(11448561,37);(-340451,32);(1516869,34);(-5761151,36);
   (1590663,34);(-753621,33);(6625819,36);(-3132111,35);o;o;o;o;o;o;o;o;o;o;o;o;o;o;o;o;o;o;o;o;o;o;o;o;o;o;o;o;o;o;o;
   o;o;o;o;o;o;o;o;o;o];
  [(4422027,30);o;(-9322061,37);o;(-8690371,47);(-7942491,41);(-9001395,41);(-1301955,38);(-4514809,40);(-337117,36);
   (-6387555,40);(-14316093,41);(-2120971,38);(-1305199,38);(-13721965,41);(-4585231,40);(-12908117,41);(-4038391,43);
   (-16526527,43);(4555127,41);(9861465,43);(3135329,40);(5073695,41);(-2341751,39);(-9410405,41);(-15239293,42);
   (-15284179,42);(-11698453,42);(-5859399,41);(-7774531,42);(-8121225,42);(-16375693,44);(-16375693,44);
   (-6612949,46);(-6612949,46);(13069233,44);(13069233,44);o;(-8758523,39);(13039651,39);(-4640535,37);(10543677,38);
   (-11127137,38);(5153623,37);(-9058125,38);(3268865,37);(-8910327,39);(2337001,39);(8585891,41);(-8739291,39);
   (12929667,39);(-9417451,38);(5620687,37);(-13869995,38);(15427973,38);(-8915289,37);(4782321,36);(-10663821,37);
   (2800983,35);(-6085025,36);(788117,33);(-420087,32);(1723431,34);(-1812255,34);(3691099,35);(-15395847,37);
   (15585565,37);(-8084053,36);(8143087,36);(-8428457,36);(8450943,36);o;o;o;o;o;o;o;o;o;o;o;o;o;o;o;o;o;o;o;o;o;o;o;
   o;o;o;o;o;o;o;o;o;o;o;o;o;o;o;o;o;o];
  [(-7805357,30);o;(-3734045,36);o;(2895937,41);(14658809,41);(5775755,41);(2811511,40);(9084949,42);(14885203,42);
   (9959081,41);(3374739,39);(16425321,41);(3962169,39);(9649837,40);(9271371,40);(11352777,40);(6263749,40);
   (1043007,37);(16448359,43);(7402875,41);(-1739559,41);(575189,41);(13248707,40);(6493,29);(6866335,39);
   (6880369,39);(14230067,40);(7121815,39);(7480097,39);(3682759,38);(3858967,38);(3858967,38);(15911541,40);
   (15911541,40);(16387215,40);(16387215,40);o;(2161337,36);(-2490275,36);(8493307,37);(-8466221,37);(5071111,36);
   (-8420687,37);(133555,31);(-5386659,37);(1198565,35);(-13777717,41);(14035723,44);(8116033,38);(-9417451,38);
   (8785071,37);(-4608415,36);(13068719,37);(-13272995,37);(8431159,36);(-4208759,35);(10075929,36);(-4981407,35);
   (358443,31);(-11265115,36);(6318737,35);(-12345101,36);(6800883,35);(-13237565,36);(7210927,35);(-13987395,36);
   (15127991,36);(-914241,32);(7879313,35);(-7595745,35);o;o;o;o;o;o;o;o;o;o;o;o;o;o;o;o;o;o;o;o;o;o;o;o;o;o;o;o;o;o;
   o;o;o;o;o;o;o;o;o;o;o];
  [(1075645,27);o;(-9821959,37);o;(-12898959,43);(-15896443,41);(-6074419,41);(-5931803,41);(-4790423,41);
   (-15770307,42);(-10641027,41);(-14361805,41);(-4396131,39);(-8667573,40);(-2641833,38);(-9999527,40);
   (-12278973,40);(-13862133,41);(-4601999,39);(-5071483,41);(-4340445,40);(4689641,43);(-11157519,44);(-462659,35);
   (-3715035,38);(-1934329,37);(-7753299,39);(-4040121,38);(-4044023,38);(-2139899,37);(-1053263,36);(-8892711,39);
   (-8892711,39);(-9225823,39);(-9225823,39);(-4779467,38);(-4779467,38);o;(-4308247,37);(5935065,37);(-8900299,37);
   (4887365,36);(-1339779,34);(2431973,35);(-8965813,37);(6392307,37);(-2419113,36);(11317725,40);(39357,34);
   (-16005539,39);(5620687,37);(-4608415,36);(10595691,37);(-13954265,37);(15082965,37);(-9077845,36);(9514617,36);
   (-1362417,33);(1403293,33);(-6221003,35);(3166869,34);(-13732339,36);(13861369,36);(-7398805,35);(14847297,36);
   (-7851659,35);(15675403,36);(-2060393,33);(511959,31);(-8589809,35);(8502581,35);o;o;o;o;o;o;o;o;o;o;o;o;o;o;o;o;o;
   o;o;o;o;o;o;o;o;o;o;o;o;o;o;o;o;o;o;o;o;o;o;o;o];
  [(-11905803,30);o;(-13951501,38);o;(11448031,42);(9691731,40);(6143331,42);(5170573,42);(13496131,44);(5136777,41);
   (16262365,42);(11869065,41);(15370035,41);(10406843,40);(1557635,37);(2935331,38);(14185385,40);(5759409,39);
   (14095913,40);(8243397,40);(10552483,40);(8108721,41);(2979285,39);(11679529,39);(5862291,38);(13012299,39);
   (13039869,39);(14373459,39);(14387287,39);(16077933,39);(3937565,37);(2181091,36);(2181091,36);(2352441,36);
   (2352441,36);(10095163,38);(10095163,38);o;(12762979,38);(-1895625,35);(1579597,34);(-3211963,35);(15158385,37);
   (-6428137,36);(12846697,37);(-2101977,35);(7315973,37);(-13571461,40);(11392487,42);(5731839,37);(-3467499,36);
   (13068719,37);(-13954265,37);(1242493,33);(-10213751,36);(3245209,34);(-3269555,34);(15599931,36);(-15543553,36);
   (8897777,35);(-8798075,35);(9809409,35);(-9641713,35);(10559487,35);(-645991,31);(5598323,34);(-10918325,35);
   (11745425,35);(-5707993,34);(3058965,33);(-2963569,33);o;o;o;o;o;o;o;o;o;o;o;o;o;o;o;o;o;o;o;o;o;o;o;o;o;o;o;o;o;o;
   o;o;o;o;o;o;o;o;o;o;o];
  [(3124909,28);o;(-10283685,37);o;(-5992451,41);(-5055645,39);(-1578019,40);(-5328703,42);(-13917651,44);
   (-10626731,42);(-8465081,41);(-1538061,38);(-1000021,37);(-2733547,38);(-13103709,40);(-12221303,40);(-3699155,38);
   (-12049785,40);(-14758741,40);(-4357023,39);(-11139019,40);(-2200701,39);(-12808085,41);(-6150249,38);
   (-1543505,36);(-6863819,38);(-13756841,39);(-7592289,38);(-7599639,38);(-8501671,38);(-8329179,38);(-9235717,38);
   (-9235717,38);(-2492441,36);(-2492441,36);(-10703815,38);(-10703815,38);o;(-6257717,37);(4199339,36);(-3205825,35);
   (1740697,34);(-15470529,37);(13934927,37);(-13044693,37);(9266991,37);(-14481453,38);(8897889,39);(16030399,45);
   (-5570837,37);(15427973,38);(-3318249,35);(15082965,37);(-10213751,36);(10941465,36);(-13409721,36);(13952263,36);
   (-8081499,35);(16544093,36);(-2308849,33);(9350835,35);(-10193319,35);(10237339,35);(-5490645,34);(10966555,35);
   (-5825273,34);(11578365,35);(-12226943,35);(6050535,34);(-12742063,35);(12561419,35);o;o;o;o;o;o;o;o;o;o;o;o;o;o;o;
   o;o;o;o;o;o;o;o;o;o;o;o;o;o;o;o;o;o;o;o;o;o;o;o;o;o];
  [(-1952689,27);o;(-13029901,38);o;(7568235,41);(2692955,38);(4711691,43);(6563207,44);(-10057361,50);(14737989,43);
   (14271899,42);(10409109,41);(1826119,38);(13574505,40);(16078925,40);(6218379,39);(7681351,39);(14568679,40);
   (4408413,38);(3417147,38);(16497327,40);(1280559,37);(6414155,39);(519847,34);(8350639,38);(600865,34);
   (9635325,38);(5339,27);(5472721,37);(12521963,38);(12272225,38);(13863985,38);(13863985,38);(15206007,38);
   (15206007,38);(258563,32);(258563,32);o;(8242437,37);(-9937059,37);(8193411,36);(-525351,32);(9847725,36);
   (-2106793,34);(16718747,37);(-11112889,37);(2391817,35);(-9742479,39);(9014253,41);(7215455,37);(-8915289,37);
   (1053895,33);(-9077845,36);(3245209,34);(-13409721,36);(4272807,34);(-8644849,35);(5159081,34);(-5157995,34);
   (11794973,35);(-11697931,35);(6506313,34);(-6412617,34);(14010017,35);(-13748295,35);(1856961,32);(-14521313,35);
   (15583889,35);(-7590807,34);(16234903,35);(-1970421,32);o;o;o;o;o;o;o;o;o;o;o;o;o;o;o;o;o;o;o;o;o;o;o;o;o;o;o;o;o;
   o;o;o;o;o;o;o;o;o;o;o;o];
  [(16001683,30);o;(-10715207,37);o;(-1934383,39);(-11009895,40);(-2371611,42);(-13210523,45);(6236981,49);
   (-3745859,41);(-3646015,40);(-1325815,38);(-14925513,41);(-13917893,40);(-2061671,37);(-3175063,38);(-15706441,40);
   (-7449391,39);(-9022253,39);(-7004035,39);(-4227403,38);(-10540453,40);(-13189361,40);(-2131829,36);(-8561269,38);
   (-4930475,37);(-9883027,38);(-11219199,38);(-5615347,37);(-12851125,38);(-12595457,38);(-7115849,37);(-7115849,37);
   (-7806135,37);(-7806135,37);(-1062053,34);(-1062053,34);o;(-16015201,38);(5306397,36);(-16349591,37);(2206727,34);
   (-9869307,36);(69133,29);(-16689771,37);(5908781,36);(-9365067,37);(11721477,39);(-9174343,43);(-13908349,38);
   (4782321,36);(-4208759,35);(9514617,36);(-3269555,34);(1744033,33);(-540303,31);(8963871,35);(-10461237,35);
   (5338193,34);(-11974607,35);(12092569,35);(-6611151,34);(13247703,35);(-14244197,35);(7096723,34);(-7555291,34);
   (14985399,35);(-15856595,35);(15661855,35);(-8261767,34);(8128919,34);o;o;o;o;o;o;o;o;o;o;o;o;o;o;o;o;o;o;o;o;o;o;
   o;o;o;o;o;o;o;o;o;o;o;o;o;o;o;o;o;o;o];
  [(-2357607,27);o;(-12196741,38);o;(8588417,41);(11432921,40);(13027681,48);(-1475587,45);(-961879,41);(11965709,43);
   (13832813,42);(9844411,41);(14748481,41);(8738235,39);(5106645,38);(813755,36);(8211209,39);(16524869,40);
   (5006859,38);(4357553,38);(2588165,37);(7810781,39);(9353341,39);(5274437,37);(10591903,38);(3112491,36);
   (12479529,38);(14376991,38);(14393041,38);(2079055,35);(2041357,35);(9299675,37);(9299675,37);(1285391,34);
   (1285391,34);(11266581,37);(11266581,37);o;(9868117,37);(-374853,32);(9832689,36);(-10136111,36);(2957099,34);
   (-10167969,36);(10044139,36);(-13450571,37);(2876705,35);(-12187511,39);(11353835,41);(1066455,34);(-2665955,35);
   (10075929,36);(-1362417,33);(15599931,36);(-8081499,35);(10318163,35);(-10461237,35);(3125379,33);(-12522027,35);
   (3579697,33);(-14224113,35);(15809831,35);(-975329,31);(4256435,33);(-4182685,33);(4513549,33);(-8835417,34);
   (4734795,33);(-9236625,34);(9865215,34);(-9590141,34);o;o;o;o;o;o;o;o;o;o;o;o;o;o;o;o;o;o;o;o;o;o;o;o;o;o;o;o;o;o;
   o;o;o;o;o;o;o;o;o;o;o];
  [(4763613,28);o;(-11106963,37);o;(-8668749,41);(-11540859,40);(-11761867,48);(6573429,47);(7791971,44);(-751431,39);
   (-3489593,40);(-1239569,38);(-930149,37);(-8829457,39);(-5161477,38);(-13136785,40);(-4145037,38);(-8342053,39);
   (-2528431,37);(-8804787,39);(-10460849,39);(-7898283,39);(-9457665,39);(-10659669,38);(-167237,32);(-6291425,37);
   (-12612755,38);(-14532145,38);(-14548391,38);(-8406557,37);(-8254279,37);(-9401381,37);(-9401381,37);
   (-10396207,37);(-10396207,37);(-5695517,36);(-5695517,36);o;(-9537317,37);(6274833,36);(-4858701,35);(10455641,36);
   (-11733547,36);(10487841,36);(-620691,32);(438125,32);(-5596499,36);(7020269,38);(-9139059,42);(-16373125,38);
   (2800983,35);(-4981407,35);(11226343,36);(-15543553,36);(4136023,34);(-5157995,34);(5338193,34);(-3130507,33);
   (12758605,35);(-7179119,34);(3619611,33);(-15864801,35);(7936991,34);(-267083,29);(8505565,34);(-9066195,34);
   (4490233,33);(-9513249,34);(9385811,34);(-9912951,34);(9742969,34);o;o;o;o;o;o;o;o;o;o;o;o;o;o;o;o;o;o;o;o;o;o;o;o;
   o;o;o;o;o;o;o;o;o;o;o;o;o;o;o;o;o];
  [(-10798203,29);o;(-5738483,37);o;(1155939,38);(1515641,37);(-7159297,45);(-2239817,43);(-5946147,43);(2753309,41);
   (3573609,40);(2494059,39);(3881155,39);(2620561,37);(12154267,39);(6945807,39);(8858099,39);(9088073,39);
   (1378877,36);(9992073,39);(11806935,39);(4801875,38);(11328633,39);(12328381,38);(96707,31);(7357883,37);
   (3688111,36);(8562253,37);(4286377,36);(9948393,37);(1222815,34);(11179131,37);(11179131,37);(12409871,37);
   (12409871,37);(13640607,37);(13640607,37);o;(5621323,36);(-6867861,36);(5609485,35);(-5798871,35);(13501057,36);
   (-2908823,34);(11463461,36);(-15409013,37);(13127599,37);(-14142887,39);(3219491,39);(604569,33);(-6085025,36);
   (11470175,36);(-6221003,35);(8897777,35);(-2308849,33);(5897487,34);(-11974607,35);(3579697,33);(-7179119,34);
   (16424083,35);(-16331413,35);(9074281,34);(-8964821,34);(9775075,34);(-9613651,34);(10366315,34);(-2538531,32);
   (5437269,33);(-5307459,33);(5664427,33);(-11020861,34);o;o;o;o;o;o;o;o;o;o;o;o;o;o;o;o;o;o;o;o;o;o;o;o;o;o;o;o;o;o;
   o;o;o;o;o;o;o;o;o;o;o];
  [(10807791,29);o;(-5721907,36);o;(-9252101,41);(-12131377,40);(7298745,45);(2275371,43);(5963389,43);(-10973341,43);
   (-14294139,42);(-9965429,41);(-15526507,41);(-5245263,38);(-6083117,38);(-13894109,40);(-8863069,39);(-9093691,39);
   (-5520017,38);(-5000805,38);(-11819335,39);(-2403975,37);(-2835777,37);(-12340305,38);(-12390483,38);
   (-14731111,38);(-14767841,38);(-8571633,37);(-1072769,34);(-155619,31);(-4896809,36);(-11192093,37);(-11192093,37);
   (-6212285,36);(-6212285,36);(-6828523,36);(-6828523,36);o;(-5411337,36);(14177289,37);(-11013835,36);(1477829,33);
   (-3324479,34);(11860235,36);(-5629289,35);(3963047,35);(-12709447,37);(1984383,36);(-6019161,41);(-9251397,37);
   (788117,33);(-11265115,36);(3166869,34);(-8798075,35);(9350835,35);(-11697931,35);(1511571,32);(-14224113,35);
   (3619611,33);(-16331413,35);(16453505,35);(-282149,29);(9026631,34);(-9730221,34);(1209509,31);(-2580501,32);
   (10217043,34);(-338459,29);(667391,30);(-5642707,33);(5542283,33);o;o;o;o;o;o;o;o;o;o;o;o;o;o;o;o;o;o;o;o;o;o;o;o;
   o;o;o;o;o;o;o;o;o;o;o;o;o;o;o;o;o];
  [(-11936889,29);o;(-10872495,38);o;(9837227,41);(1613605,37);(-11446421,45);(-1621989,42);(-14369005,44);
   (5493795,42);(15135979,42);(10465981,41);(4141499,39);(11727257,39);(13563663,39);(14884585,40);(4765935,38);
   (4913643,38);(11934023,39);(10928109,39);(12886015,39);(10718759,39);(12575311,39);(13649941,38);(3426129,36);
   (511781,33);(4104663,36);(597595,33);(598377,33);(5563865,36);(10951087,37);(12529953,37);(12529953,37);
   (13932175,37);(13932175,37);(15334397,37);(15334397,37);o;(12387139,37);(-7592259,36);(6186505,35);(-12813387,36);
   (7446021,35);(-12853861,36);(12641699,36);(-8514387,36);(14465719,37);(-7853407,38);(13888351,41);(10642559,37);
   (-420087,32);(12637473,36);(-13732339,36);(4904705,34);(-10193319,35);(6506313,34);(-6611151,34);(15809831,35);
   (-15864801,35);(9074281,34);(-282149,29);(5016345,33);(-9917347,34);(5405273,33);(-10637693,34);(1433187,31);
   (-2809117,32);(12027829,34);(-11746327,34);(6265165,33);(-6097657,33);o;o;o;o;o;o;o;o;o;o;o;o;o;o;o;o;o;o;o;o;o;o;
   o;o;o;o;o;o;o;o;o;o;o;o;o;o;o;o;o;o;o];
  [(5931601,28);o;(-11724047,37);o;(-1221843,38);(-6413193,39);(5747097,44);(3256329,43);(7155531,43);(-10876591,43);
   (-7515189,41);(-5192897,40);(-16454051,41);(-11653703,39);(-6740203,38);(-7392889,39);(-9471059,39);(-9765297,39);
   (-5930133,38);(-10861807,39);(-6404289,38);(-10655733,39);(-6250739,38);(-6783265,37);(-851299,34);(-4069409,36);
   (-16319051,38);(-4751903,36);(-9516247,37);(-5530399,36);(-10885241,37);(-12454813,37);(-12454813,37);
   (-13848831,37);(-13848831,37);(-7621423,36);(-7621423,36);o;(-11882303,37);(15518717,37);(-3020589,34);
   (12948191,36);(-3646455,34);(3247111,34);(-1543679,33);(271121,31);(-6974113,36);(4330865,37);(-13913015,42);
   (-5074105,36);(1723431,34);(-12345101,36);(13861369,36);(-9641713,35);(10237339,35);(-6412617,34);(13247703,35);
   (-975329,31);(7936991,34);(-8964821,34);(9026631,34);(-9917347,34);(4954879,33);(-10690423,34);(10625679,34);
   (-354417,29);(5610385,33);(-11900213,34);(11727489,34);(-6199809,33);(12173709,34);o;o;o;o;o;o;o;o;o;o;o;o;o;o;o;o;
   o;o;o;o;o;o;o;o;o;o;o;o;o;o;o;o;o;o;o;o;o;o;o;o;o];
  [(-12872285,29);o;(-5188161,37);o;(10412643,41);(13698521,40);(-13525357,45);(-15222623,45);(-497547,39);
   (5684861,42);(16057677,42);(11067901,41);(1101491,37);(1573679,36);(14560265,39);(15833565,40);(5076535,38);
   (10469609,39);(6357805,38);(11663797,39);(6871591,38);(2869731,37);(1680471,36);(14640459,38);(3674551,36);
   (8797729,37);(4409997,36);(10285095,37);(10298957,37);(5987947,36);(5894913,36);(13493927,37);(13493927,37);
   (15011963,37);(15011963,37);(8264999,36);(8264999,36);o;(6664181,36);(-8187817,36);(6660899,35);(-13812363,36);
   (8017519,35);(-6927271,35);(6804537,35);(-4589093,35);(15561547,37);(-8483593,38);(7307957,40);(11448561,37);
   (-1812255,34);(6800883,35);(-14797609,36);(10559487,35);(-5490645,34);(14010017,35);(-14244197,35);(8512869,34);
   (-267083,29);(9775075,34);(-9730221,34);(5405273,33);(-10690423,34);(11650943,34);(-2867203,32);(12357891,34);
   (-12115189,34);(1620539,31);(-6332519,33);(6752989,33);(-6574507,33);o;o;o;o;o;o;o;o;o;o;o;o;o;o;o;o;o;o;o;o;o;o;o;
   o;o;o;o;o;o;o;o;o;o;o;o;o;o;o;o;o;o];
  [(12729923,29);o;(-2988499,35);o;(-10296309,41);(-13544831,40);(13472949,45);(473775,40);(1971571,41);
   (-11209241,43);(-15869751,42);(-5466539,40);(-8710473,40);(-778089,35);(-14399681,39);(-7826527,39);(-10039187,39);
   (-10352897,39);(-6287487,38);(-11535941,39);(-212391,33);(-11354765,39);(-13298383,39);(-14479347,38);
   (-7268233,37);(-8701193,37);(-8723217,37);(-10172471,37);(-5093091,36);(-11844939,37);(-1457615,34);(-6673275,36);
   (-6673275,36);(-3712041,35);(-3712041,35);(-8174889,36);(-8174889,36);o;(-12753683,37);(16621465,37);(-6480379,35);
   (13873025,36);(-15643979,36);(13914763,36);(-3311225,34);(9290219,36);(-7481163,36);(9244417,38);(-15248595,42);
   (-340451,32);(3691099,35);(-13237565,36);(14847297,36);(-645991,31);(10966555,35);(-13748295,35);(14193447,35);
   (-4182685,33);(8505565,34);(-4806825,33);(1209509,31);(-10637693,34);(10625679,34);(-2867203,32);(11395475,34);
   (-760497,30);(12034713,34);(-6383837,33);(6289243,33);(-6651677,33);(13057115,34);o;o;o;o;o;o;o;o;o;o;o;o;o;o;o;o;
   o;o;o;o;o;o;o;o;o;o;o;o;o;o;o;o;o;o;o;o;o;o;o;o;o];
  [(-3415755,27);o;(-9958043,38);o;(342849,36);(14453543,40);(-7270869,44);(-16450417,45);(-1059521,40);(11936713,43);
   (8482197,41);(11683229,41);(4656321,39);(13276985,39);(3840507,37);(16711923,40);(10718943,39);(5522059,38);
   (1676705,36);(12298015,39);(7243857,38);(12095081,39);(7080167,38);(7728757,37);(7759047,37);(9291423,37);
   (4657385,36);(5432329,36);(2719825,35);(3162935,35);(3114077,35);(14257071,37);(14257071,37);(3965601,35);
   (3965601,35);(2183467,34);(2183467,34);o;(14126603,37);(-8692791,36);(14126265,36);(-3664831,34);(8502049,35);
   (-14702973,36);(14429271,36);(-4870453,35);(16490455,37);(-2253937,36);(7607169,40);(1516869,34);(-1924481,34);
   (14421853,36);(-7851659,35);(5598323,34);(-5825273,34);(1856961,32);(-7555291,34);(4513549,33);(-9066195,34);
   (10366315,34);(-2580501,32);(1433187,31);(-354417,29);(12357891,34);(-12167953,34);(13108483,34);(-12854277,34);
   (13752057,34);(-13437831,34);(14326713,34);(-13951283,34);o;o;o;o;o;o;o;o;o;o;o;o;o;o;o;o;o;o;o;o;o;o;o;o;o;o;o;o;
   o;o;o;o;o;o;o;o;o;o;o;o;o];
  [(13453469,29);o;(-1518173,34);o;(-10802075,41);(-1778769,37);(3601383,43);(8147993,44);(2089941,41);(-5861401,42);
   (-16694875,42);(-11493503,41);(-9166417,40);(-13072859,39);(-7563473,38);(-8225651,39);(-5276657,38);
   (-10874107,39);(-13208043,39);(-12110511,39);(-3566801,37);(-5956039,38);(-6973031,38);(-15221263,38);
   (-15280925,38);(-571853,33);(-9172641,37);(-10699069,37);(-5356745,36);(-3114767,35);(-95833,30);(-3510025,35);
   (-3510025,35);(-3905283,35);(-3905283,35);(-2150271,34);(-2150271,34);o;(-13483615,37);(548281,32);(-13696389,36);
   (7323741,35);(-16530077,36);(1836311,33);(-6997395,35);(9804607,36);(-15811365,37);(2432565,36);(-16330757,42);
   (-5761151,36);(15585565,37);(-13987395,36);(15675403,36);(-10918325,35);(11578365,35);(-14521313,35);(14985399,35);
   (-8835417,34);(4490233,33);(-2538531,32);(10217043,34);(-2809117,32);(5610385,33);(-12115189,34);(12034713,34);
   (-12854277,34);(6355259,33);(-6743993,33);(13285129,34);(-7026917,33);(13790709,34);o;o;o;o;o;o;o;o;o;o;o;o;o;o;o;
   o;o;o;o;o;o;o;o;o;o;o;o;o;o;o;o;o;o;o;o;o;o;o;o;o;o];
  [(-14340299,29);o;(-9600263,38);o;(5744695,40);(7572359,39);(-15067239,45);(-8544699,44);(-4420483,42);(1569789,40);
   (4451811,40);(1532669,38);(9767957,40);(6942535,38);(8034717,38);(8754381,39);(5614565,38);(5781099,38);
   (14042711,39);(6433203,38);(15157343,39);(790179,35);(14802329,39);(8087625,37);(4059633,36);(9721947,37);
   (9746299,37);(5683707,36);(5691335,36);(13236679,37);(6516099,36);(3728923,35);(3728923,35);(8297353,36);
   (8297353,36);(2284215,34);(2284215,34);o;(14813065,37);(-2281753,34);(14818007,36);(-15387703,36);(4459375,34);
   (-15432897,36);(3783743,34);(-10225383,36);(540327,32);(-9475333,38);(7872095,40);(1590663,34);(-8084053,36);
   (15127991,36);(-2060393,33);(11745425,35);(-12226943,35);(15583889,35);(-3964149,33);(4734795,33);(-9513249,34);
   (5437269,33);(-338459,29);(12027829,34);(-11900213,34);(1620539,31);(-6383837,33);(6876029,33);(-13487987,34);
   (14427441,34);(-14100393,34);(3757601,32);(-14639143,34);o;o;o;o;o;o;o;o;o;o;o;o;o;o;o;o;o;o;o;o;o;o;o;o;o;o;o;o;o;
   o;o;o;o;o;o;o;o;o;o;o;o];
  [(14067971,29);o;(-769231,33);o;(-11270571,41);(-7427857,39);(7429995,44);(4213813,43);(8686201,43);(-6145951,42);
   (-4365147,40);(-3004809,39);(-9579487,40);(-13621019,39);(-7882401,38);(-2146581,37);(-2753723,37);(-11342171,39);
   (-13776239,39);(-12623121,39);(-7435523,38);(-6202507,38);(-7261907,38);(-1983609,35);(-7965481,37);(-2384501,35);
   (-9561897,37);(-5576251,36);(-697967,33);(-6493283,36);(-3196489,35);(-7316989,36);(-7316989,36);(-16281397,37);
   (-16281397,37);(-4482203,35);(-4482203,35);o;(-7053117,36);(2291583,34);(-3580949,34);(15308099,36);(-2160743,33);
   (3838115,34);(-14634783,36);(10243911,36);(-4134183,35);(10146583,38);(-8641843,41);(-753621,33);(8143087,36);
   (-14627855,36);(511959,31);(-5707993,34);(6050535,34);(-7590807,34);(7830927,34);(-9236625,34);(9385811,34);
   (-5307459,33);(667391,30);(-11746327,34);(11727489,34);(-6332519,33);(6289243,33);(-13437831,34);(1660641,31);
   (-14100393,34);(6942955,33);(-14691911,34);(7207215,33);o;o;o;o;o;o;o;o;o;o;o;o;o;o;o;o;o;o;o;o;o;o;o;o;o;o;o;o;o;
   o;o;o;o;o;o;o;o;o;o;o;o];
  [(-14942679,29);o;(-9281501,38);o;(11970049,41);(15782117,40);(-7684285,44);(-1087133,41);(-1140159,40);
   (13189525,43);(9296801,41);(200011,35);(636679,36);(7226983,38);(8364189,38);(4561051,38);(11699193,39);
   (6020853,38);(914059,35);(209285,33);(15780049,39);(13155055,39);(15403903,39);(1052411,34);(8452231,37);
   (5059703,36);(10144743,37);(11831157,37);(5923505,36);(3444007,35);(6781509,36);(7761349,36);(7761349,36);
   (4317343,35);(4317343,35);(9508023,36);(9508023,36);o;(15425881,37);(-9514645,36);(7717761,35);(-16038039,36);
   (9290813,35);(-16084875,36);(15765379,36);(-5329245,35);(4501481,35);(-2472035,36);(4059287,39);(6625819,36);
   (-8428457,36);(7879313,35);(-8589809,35);(3058965,33);(-12742063,35);(8117451,34);(-8261767,34);(9865215,34);
   (-9912951,34);(5664427,33);(-5642707,33);(6265165,33);(-6199809,33);(6752989,33);(-6651677,33);(1790839,31);
   (-7026917,33);(3757601,32);(-14691911,34);(1957329,31);(-15253235,34);o;o;o;o;o;o;o;o;o;o;o;o;o;o;o;o;o;o;o;o;o;o;
   o;o;o;o;o;o;o;o;o;o;o;o;o;o;o;o;o;o;o];
  [(3651591,27);o;(-6225079,36);o;(-11700191,41);(-60257,32);(7551429,44);(4274595,43);(4465389,42);(-1608015,40);
   (-4541633,40);(-1562967,38);(-9954819,40);(-14128323,39);(-8176215,38);(-2228805,37);(-11435101,39);(-11770389,39);
   (-223377,33);(-6546925,38);(-15426429,39);(-401909,34);(-1882455,36);(-8230207,37);(-16524825,38);(-4946161,36);
   (-9917091,37);(-11565813,37);(-90479,30);(-13467185,37);(-6629481,36);(-7587409,36);(-7587409,36);(-8441223,36);
   (-8441223,36);(-9295039,36);(-9295039,36);o;(-14653927,37);(9512771,36);(-14875687,36);(7944657,35);(-4487745,34);
   (15935123,36);(-3799541,34);(10630943,36);(-8588027,36);(2628819,36);(-9080449,41);(-3132111,35);(8450943,36);
   (-15191491,36);(8502581,35);(-2963569,33);(12561419,35);(-1970421,32);(8128919,34);(-9590141,34);(9742969,34);
   (-11020861,34);(5542283,33);(-6097657,33);(12173709,34);(-6574507,33);(13057115,34);(-13951283,34);(13790709,34);
   (-7319571,33);(14414431,34);(-7626617,33);(14963125,34);o;o;o;o;o;o;o;o;o;o;o;o;o;o;o;o;o;o;o;o;o;o;o;o;o;o;o;o;o;
   o;o;o;o;o;o;o;o;o;o;o;o];
  [o;(-9612865,38);o;o;o;o;o;o;o;o;o;o;o;o;o;o;o;o;o;o;o;o;o;o;o;o;o;o;o;o;o;o;o;o;o;o;o;o;o;o;o;o;o;o;o;o;o;o;o;o;o;
   o;o;o;o;o;o;o;o;o;o;o;o;o;o;o;o;o;o;o;o;(570951,36);(-4592989,35);(14137283,37);(-10780845,36);(1859449,34);
   (-15192827,37);(8755399,36);(-1126089,33);(15840215,37);(-16273361,37);(13421313,37);(-13828791,37);(9252571,35);
   (-9584833,35);(777079,32);(-393815,31);(6502709,36);(-203415,31);(1338983,33);(-2692403,34);(5260405,34);
   (-10538391,35);(4499623,33);(-1119915,31);(11655265,34);(-11545223,34);(13136751,34);(-12954323,34);(3421503,32);
   (-6723153,33);(7046377,33);(-6899737,33);(14510065,34);(-110653,27);o;o;o;o;o;o;o];
  [o;(5149605,33);o;o;o;o;o;o;o;o;o;o;o;o;o;o;o;o;o;o;o;o;o;o;o;o;o;o;o;o;o;o;o;o;o;o;o;o;o;o;o;o;o;o;o;o;o;o;o;o;o;o;
   o;o;o;o;o;o;o;o;o;o;o;o;o;o;o;o;o;o;o;(-4592989,35);(9307997,32);(-3539583,31);(10800705,32);(-14619573,33);
   (14769377,33);(-1061737,29);(8669477,32);(-3779075,31);(3863777,31);(-6590923,32);(6790465,32);(-4477557,30);
   (9275993,31);(-1484715,29);(6018367,31);(-6147071,32);(12303123,33);(-10227465,32);(10282989,32);(-10096949,31);
   (632137,27);(-8663487,30);(8625219,30);(-11233423,30);(11127501,30);(-12666017,30);(6245129,29);(-13196545,30);
   (12965519,30);(-13588263,30);(13305581,30);(-6994815,29);(853481,26);o;o;o;o;o;o;o];
  [o;(-12671801,34);o;o;o;o;o;o;o;o;o;o;o;o;o;o;o;o;o;o;o;o;o;o;o;o;o;o;o;o;o;o;o;o;o;o;o;o;o;o;o;o;o;o;o;o;o;o;o;o;o;
   o;o;o;o;o;o;o;o;o;o;o;o;o;o;o;o;o;o;o;o;(14137283,37);(-3539583,31);(13160377,33);(-2564917,30);(12981537,33);
   (-3287951,31);(12839331,33);(-12650867,33);(5443421,32);(-2706555,31);(2666045,31);(-10818805,33);(13326391,32);
   (-6854495,31);(16420259,33);(-16471927,33);(14522525,34);(-14262151,34);(6453935,32);(-6450919,32);(6823705,31);
   (-1705971,29);(6054199,30);(-6023423,30);(1982157,28);(-15701681,31);(4479783,29);(-2208205,28);(2331683,28);
   (-4580707,29);(4797233,29);(-4696539,29);(4935831,29);(-1204309,27);o;o;o;o;o;o;o];
  [o;(2542189,31);o;o;o;o;o;o;o;o;o;o;o;o;o;o;o;o;o;o;o;o;o;o;o;o;o;o;o;o;o;o;o;o;o;o;o;o;o;o;o;o;o;o;o;o;o;o;o;o;o;o;
   o;o;o;o;o;o;o;o;o;o;o;o;o;o;o;o;o;o;o;(-10780845,36);(10800705,32);(-2564917,30);(16036123,32);(-4994429,31);
   (10086149,32);(-9676395,32);(4734331,31);(-16214681,33);(4009501,31);(-16301955,33);(16512477,33);(-10039791,31);
   (10318653,31);(-3050747,30);(12222183,32);(-5238613,32);(10252053,33);(-9444635,32);(9430787,32);(-10112009,31);
   (5054849,30);(-9023943,30);(8977209,30);(-1479775,27);(5860711,29);(-6691451,29);(3298271,28);(-3482471,28);
   (6841277,29);(-7163865,29);(109583,23);(-14740133,30);(14385655,30);o;o;o;o;o;o;o];
  [o;(-5063669,32);o;o;o;o;o;o;o;o;o;o;o;o;o;o;o;o;o;o;o;o;o;o;o;o;o;o;o;o;o;o;o;o;o;o;o;o;o;o;o;o;o;o;o;o;o;o;o;o;o;
   o;o;o;o;o;o;o;o;o;o;o;o;o;o;o;o;o;o;o;o;(1859449,34);(-14619573,33);(12981537,33);(-4994429,31);(10483687,32);
   (-751225,28);(7107561,32);(-834791,29);(6474107,32);(-6240125,32);(10504299,33);(-2557405,31);(6872867,31);
   (-7011185,31);(7706047,32);(-3818473,31);(8948711,34);(-1049781,31);(4988093,32);(-4945957,32);(12452331,32);
   (-3108953,30);(11802811,31);(-5868857,30);(7879395,30);(-15600523,31);(8950539,30);(-2205619,28);(4657161,29);
   (-4573987,29);(1196395,27);(-4684571,29);(4919307,29);(-2400327,28);o;o;o;o;o;o;o];
  [o;(5723209,32);o;o;o;o;o;o;o;o;o;o;o;o;o;o;o;o;o;o;o;o;o;o;o;o;o;o;o;o;o;o;o;o;o;o;o;o;o;o;o;o;o;o;o;o;o;o;o;o;o;o;
   o;o;o;o;o;o;o;o;o;o;o;o;o;o;o;o;o;o;o;(-15192827,37);(14769377,33);(-3287951,31);(10086149,32);(-751225,28);
   (14095269,32);(-1861187,30);(13817715,33);(-873233,29);(13386495,33);(-10698415,33);(1284777,30);(-14207171,32);
   (3613515,30);(-15553633,33);(15349643,33);(-15163701,35);(13844649,35);(-9388547,33);(4637895,32);(-1555475,29);
   (12420751,32);(-12031045,31);(11962727,31);(-16149751,31);(7993073,30);(-2296281,28);(9053137,30);(-9556927,30);
   (9385759,30);(-9817271,30);(4804811,29);(-10089161,30);(9845435,30);o;o;o;o;o;o;o];
  [o;(-1686861,31);o;o;o;o;o;o;o;o;o;o;o;o;o;o;o;o;o;o;o;o;o;o;o;o;o;o;o;o;o;o;o;o;o;o;o;o;o;o;o;o;o;o;o;o;o;o;o;o;o;
   o;o;o;o;o;o;o;o;o;o;o;o;o;o;o;o;o;o;o;o;(8755399,36);(-1061737,29);(12839331,33);(-9676395,32);(7107561,32);
   (-1861187,30);(8919879,31);(-10014577,31);(16755551,33);(-16464385,33);(199637,28);(-5857983,33);(10836707,31);
   (-11201355,31);(7476201,31);(-15121887,32);(13288579,33);(-13207241,33);(5486837,31);(-2751719,30);(2851343,29);
   (-11417279,31);(4982795,29);(-2479705,28);(12973741,30);(-6424647,29);(3659269,28);(-14432181,30);(15238793,30);
   (-14970489,30);(7841257,29);(-3838723,28);(8070949,29);(-15755323,30);o;o;o;o;o;o;o];
  [o;(2859693,32);o;o;o;o;o;o;o;o;o;o;o;o;o;o;o;o;o;o;o;o;o;o;o;o;o;o;o;o;o;o;o;o;o;o;o;o;o;o;o;o;o;o;o;o;o;o;o;o;o;o;
   o;o;o;o;o;o;o;o;o;o;o;o;o;o;o;o;o;o;o;(-1126089,33);(8669477,32);(-12650867,33);(4734331,31);(-834791,29);
   (13817715,33);(-10014577,31);(11381025,31);(-9135701,32);(4530643,31);(-5850541,33);(10585279,34);(-11888607,31);
   (12311257,31);(-8463397,31);(8579313,31);(-15796135,33);(15766617,33);(-3168543,30);(6363821,31);(-50267,23);
   (12885591,31);(-11110863,30);(2764989,28);(-14408605,30);(7135649,29);(-8119411,29);(2001525,27);(-2113463,27);
   (16610607,30);(-4351069,28);(8520601,29);(-559939,25);(4372335,28);o;o;o;o;o;o;o];
  [o;(11006241,40);o;o;o;o;o;o;o;o;o;o;o;o;o;o;o;o;o;o;o;o;o;o;o;o;o;o;o;o;o;o;o;o;o;o;o;o;o;o;o;o;o;o;o;o;o;o;o;o;o;
   o;o;o;o;o;o;o;o;o;o;o;o;o;o;o;o;o;o;o;o;(15840215,37);(-3779075,31);(5443421,32);(-16214681,33);(6474107,32);
   (-873233,29);(16755551,33);(-9135701,32);(2189319,29);(-9578457,31);(5835709,32);(-11826291,33);(8812433,31);
   (-9122871,31);(8350167,31);(-8504239,31);(10971499,32);(-11061495,32);(15017851,32);(-15115055,32);(3364125,29);
   (-3370043,29);(2788149,28);(-1387875,27);(7149289,29);(-14163263,30);(8034167,29);(-7922379,29);(8364167,29);
   (-16434965,30);(2153401,27);(-4217085,28);(554495,25);(-4329915,28);o;o;o;o;o;o;o];
  [o;(-6901789,35);o;o;o;o;o;o;o;o;o;o;o;o;o;o;o;o;o;o;o;o;o;o;o;o;o;o;o;o;o;o;o;o;o;o;o;o;o;o;o;o;o;o;o;o;o;o;o;o;o;
   o;o;o;o;o;o;o;o;o;o;o;o;o;o;o;o;o;o;o;o;(-16273361,37);(3863777,31);(-2706555,31);(4009501,31);(-6240125,32);
   (13386495,33);(-16464385,33);(4530643,31);(-9578457,31);(5272129,30);(-12661413,33);(12964201,33);(-2342755,29);
   (9721259,31);(-4588539,30);(9363585,31);(-12482253,32);(12609951,32);(-8431853,31);(4246385,30);(-14845649,31);
   (14875135,31);(-12179545,30);(757907,26);(-1945317,27);(15416095,30);(-4368285,28);(4307667,28);(-9096325,29);
   (8937079,29);(-4684859,28);(4587389,28);(-4826283,28);(4711005,28);o;o;o;o;o;o;o];
  [o;(-1424423,33);o;o;o;o;o;o;o;o;o;o;o;o;o;o;o;o;o;o;o;o;o;o;o;o;o;o;o;o;o;o;o;o;o;o;o;o;o;o;o;o;o;o;o;o;o;o;o;o;o;
   o;o;o;o;o;o;o;o;o;o;o;o;o;o;o;o;o;o;o;o;(13421313,37);(-6590923,32);(2666045,31);(-16301955,33);(10504299,33);
   (-10698415,33);(199637,28);(-5850541,33);(5835709,32);(-12661413,33);(3818435,30);(-8149981,31);(14421625,32);
   (-7428289,31);(10378591,33);(-5147345,32);(9635529,33);(-9626865,33);(5218871,31);(-1312469,29);(9426263,31);
   (-4721051,30);(15449129,31);(-7690281,30);(9901459,30);(-9807923,30);(5570171,29);(-10985505,30);(11607649,30);
   (-11404237,30);(11957201,30);(-11708257,30);(6158139,29);(-12021971,30);o;o;o;o;o;o;o];
  [o;(8612879,37);o;o;o;o;o;o;o;o;o;o;o;o;o;o;o;o;o;o;o;o;o;o;o;o;o;o;o;o;o;o;o;o;o;o;o;o;o;o;o;o;o;o;o;o;o;o;o;o;o;o;
   o;o;o;o;o;o;o;o;o;o;o;o;o;o;o;o;o;o;o;(-13828791,37);(6790465,32);(-10818805,33);(16512477,33);(-2557405,31);
   (1284777,30);(-5857983,33);(10585279,34);(-11826291,33);(12964201,33);(-8149981,31);(8724007,31);(-7667523,31);
   (15831299,32);(-5679169,32);(11322943,33);(-5441863,32);(10913819,33);(-2865171,30);(11538165,32);(-5100333,30);
   (5110199,30);(-8281327,30);(8245461,30);(-10581215,30);(1310241,27);(-11895357,30);(11730557,30);(-6198173,29);
   (12179567,30);(-6386439,29);(12507353,30);(-13159053,30);(12844933,30);o;o;o;o;o;o;o];
  [o;(16280987,36);o;o;o;o;o;o;o;o;o;o;o;o;o;o;o;o;o;o;o;o;o;o;o;o;o;o;o;o;o;o;o;o;o;o;o;o;o;o;o;o;o;o;o;o;o;o;o;o;o;
   o;o;o;o;o;o;o;o;o;o;o;o;o;o;o;o;o;o;o;o;(9252571,35);(-4477557,30);(13326391,32);(-10039791,31);(6872867,31);
   (-14207171,32);(10836707,31);(-11888607,31);(8812433,31);(-2342755,29);(14421625,32);(-7667523,31);(1865415,27);
   (-7787857,29);(4831339,29);(-9843977,30);(7955505,31);(-3991251,30);(7334549,30);(-7385461,30);(1874199,27);
   (-7512577,29);(6256239,28);(-12459115,29);(15999269,29);(-15849835,29);(4490757,27);(-8857377,28);(1169401,25);
   (-4595931,27);(1204875,25);(-1179855,25);(4965647,27);(-9694409,28);o;o;o;o;o;o;o];
  [o;(-11354303,35);o;o;o;o;o;o;o;o;o;o;o;o;o;o;o;o;o;o;o;o;o;o;o;o;o;o;o;o;o;o;o;o;o;o;o;o;o;o;o;o;o;o;o;o;o;o;o;o;o;
   o;o;o;o;o;o;o;o;o;o;o;o;o;o;o;o;o;o;o;o;(-9584833,35);(9275993,31);(-6854495,31);(10318653,31);(-7011185,31);
   (3613515,30);(-11201355,31);(12311257,31);(-9122871,31);(9721259,31);(-7428289,31);(15831299,32);(-7787857,29);
   (8131849,29);(-5080777,29);(10357753,30);(-8480415,31);(4258731,30);(-7737299,30);(15585743,31);(-7867333,29);
   (15768829,30);(-6550515,28);(6522759,28);(-8369717,28);(16583359,29);(-9395217,28);(4632735,27);(-9786543,28);
   (4807879,27);(-10084049,28);(9874729,28);(-5195167,27);(10142567,28);o;o;o;o;o;o;o];
  [o;(11938091,33);o;o;o;o;o;o;o;o;o;o;o;o;o;o;o;o;o;o;o;o;o;o;o;o;o;o;o;o;o;o;o;o;o;o;o;o;o;o;o;o;o;o;o;o;o;o;o;o;o;
   o;o;o;o;o;o;o;o;o;o;o;o;o;o;o;o;o;o;o;o;(777079,32);(-1484715,29);(16420259,33);(-3050747,30);(7706047,32);
   (-15553633,33);(7476201,31);(-8463397,31);(8350167,31);(-4588539,30);(10378591,33);(-5679169,32);(4831339,29);
   (-5080777,29);(11066001,30);(-11364391,30);(11974433,31);(-12113945,31);(11297507,31);(-11371531,31);(10842857,30);
   (-10862657,30);(9350891,29);(-2327357,27);(12076597,29);(-11962455,29);(6797587,28);(-13406211,29);(3539673,27);
   (-13910603,29);(14583337,29);(-14279749,29);(15023469,29);(-7332257,28);o;o;o;o;o;o;o];
  [o;(-12728959,33);o;o;o;o;o;o;o;o;o;o;o;o;o;o;o;o;o;o;o;o;o;o;o;o;o;o;o;o;o;o;o;o;o;o;o;o;o;o;o;o;o;o;o;o;o;o;o;o;o;
   o;o;o;o;o;o;o;o;o;o;o;o;o;o;o;o;o;o;o;o;(-393815,31);(6018367,31);(-16471927,33);(12222183,32);(-3818473,31);
   (15349643,33);(-15121887,32);(8579313,31);(-8504239,31);(9363585,31);(-5147345,32);(11322943,33);(-9843977,30);
   (10357753,30);(-11364391,30);(364843,25);(-388053,26);(12568465,31);(-11711717,31);(11791791,31);(-11161711,30);
   (11183019,30);(-1199545,26);(9554127,29);(-1547829,26);(12265835,29);(-6968287,28);(6871527,28);(-3628753,27);
   (7130421,28);(-14951443,29);(915021,25);(-3850881,27);(7517803,28);o;o;o;o;o;o;o];
  [o;(213067,27);o;o;o;o;o;o;o;o;o;o;o;o;o;o;o;o;o;o;o;o;o;o;o;o;o;o;o;o;o;o;o;o;o;o;o;o;o;o;o;o;o;o;o;o;o;o;o;o;o;o;
   o;o;o;o;o;o;o;o;o;o;o;o;o;o;o;o;o;o;o;(6502709,36);(-6147071,32);(14522525,34);(-5238613,32);(8948711,34);
   (-15163701,35);(13288579,33);(-15796135,33);(10971499,32);(-12482253,32);(9635529,33);(-5441863,32);(7955505,31);
   (-8480415,31);(11974433,31);(-388053,26);(7448433,30);(-15176773,31);(1627805,28);(-13124855,31);(13892779,31);
   (-13910729,31);(10679245,30);(-10627427,30);(13812349,30);(-13677397,30);(15644847,30);(-15423677,30);(8154407,29);
   (-4004983,28);(8397105,29);(-4110483,28);(8648701,29);(-4220491,28);o;o;o;o;o;o;o];
  [o;(-14097787,33);o;o;o;o;o;o;o;o;o;o;o;o;o;o;o;o;o;o;o;o;o;o;o;o;o;o;o;o;o;o;o;o;o;o;o;o;o;o;o;o;o;o;o;o;o;o;o;o;o;
   o;o;o;o;o;o;o;o;o;o;o;o;o;o;o;o;o;o;o;o;(-203415,31);(12303123,33);(-14262151,34);(10252053,33);(-1049781,31);
   (13844649,35);(-13207241,33);(15766617,33);(-11061495,32);(12609951,32);(-9626865,33);(10913819,33);(-3991251,30);
   (4258731,30);(-12113945,31);(12568465,31);(-15176773,31);(1933301,28);(-13340329,31);(13448357,31);(-14239619,31);
   (14260041,31);(-5448827,29);(1355687,27);(-7035001,29);(13933079,30);(-7964381,29);(15704009,30);(-2075787,27);
   (254883,24);(-4275727,28);(16744479,30);(-8808545,29);(67165,22);o;o;o;o;o;o;o];
  [o;(10791049,33);o;o;o;o;o;o;o;o;o;o;o;o;o;o;o;o;o;o;o;o;o;o;o;o;o;o;o;o;o;o;o;o;o;o;o;o;o;o;o;o;o;o;o;o;o;o;o;o;o;
   o;o;o;o;o;o;o;o;o;o;o;o;o;o;o;o;o;o;o;o;(1338983,33);(-10227465,32);(6453935,32);(-9444635,32);(4988093,32);
   (-9388547,33);(5486837,31);(-3168543,30);(15017851,32);(-8431853,31);(5218871,31);(-2865171,30);(7334549,30);
   (-7737299,30);(11297507,31);(-11711717,31);(1627805,28);(-13340329,31);(11020271,30);(-11143053,30);(14414055,30);
   (-7228493,29);(9710435,29);(-4836237,28);(11825145,29);(-5858297,28);(3297975,27);(-13010769,29);(13764487,29);
   (-13525151,29);(14206967,29);(-6956439,28);(14654657,29);(-7152925,28);o;o;o;o;o;o;o];
  [o;(-171585,27);o;o;o;o;o;o;o;o;o;o;o;o;o;o;o;o;o;o;o;o;o;o;o;o;o;o;o;o;o;o;o;o;o;o;o;o;o;o;o;o;o;o;o;o;o;o;o;o;o;o;
   o;o;o;o;o;o;o;o;o;o;o;o;o;o;o;o;o;o;o;(-2692403,34);(10282989,32);(-6450919,32);(9430787,32);(-4945957,32);
   (4637895,32);(-2751719,30);(6363821,31);(-15115055,32);(4246385,30);(-1312469,29);(11538165,32);(-7385461,30);
   (15585743,31);(-11371531,31);(11791791,31);(-13124855,31);(13448357,31);(-11143053,30);(5634213,29);(-14611781,30);
   (916011,26);(-9843779,29);(2451407,27);(-2995547,27);(5936231,28);(-13363971,29);(13180693,29);(-6972293,28);
   (6851151,28);(-14393829,29);(440501,24);(-14848133,29);(14494851,29);o;o;o;o;o;o;o];
  [o;(1060583,30);o;o;o;o;o;o;o;o;o;o;o;o;o;o;o;o;o;o;o;o;o;o;o;o;o;o;o;o;o;o;o;o;o;o;o;o;o;o;o;o;o;o;o;o;o;o;o;o;o;o;
   o;o;o;o;o;o;o;o;o;o;o;o;o;o;o;o;o;o;o;(5260405,34);(-10096949,31);(6823705,31);(-10112009,31);(12452331,32);
   (-1555475,29);(2851343,29);(-50267,23);(3364125,29);(-14845649,31);(9426263,31);(-5100333,30);(1874199,27);
   (-7867333,29);(10842857,30);(-11161711,30);(13892779,31);(-14239619,31);(14414055,30);(-14611781,30);(13317815,29);
   (-13372365,29);(4937297,27);(-9841635,28);(6006033,27);(-5953399,27);(6648283,27);(-13118177,28);(13862163,28);
   (-13624679,28);(14318365,28);(-14025047,28);(7389601,27);(-7214953,27);o;o;o;o;o;o;o];
  [o;(-8540853,33);o;o;o;o;o;o;o;o;o;o;o;o;o;o;o;o;o;o;o;o;o;o;o;o;o;o;o;o;o;o;o;o;o;o;o;o;o;o;o;o;o;o;o;o;o;o;o;o;o;
   o;o;o;o;o;o;o;o;o;o;o;o;o;o;o;o;o;o;o;o;(-10538391,35);(632137,27);(-1705971,29);(5054849,30);(-3108953,30);
   (12420751,32);(-11417279,31);(12885591,31);(-3370043,29);(14875135,31);(-4721051,30);(5110199,30);(-7512577,29);
   (15768829,30);(-10862657,30);(11183019,30);(-13910729,31);(14260041,31);(-7228493,29);(916011,26);(-13372365,29);
   (13427469,29);(-9918385,28);(4942703,27);(-6033005,27);(11960371,28);(-13355953,28);(6588425,27);(-13924393,28);
   (13685915,28);(-3595745,26);(7044201,27);(-3711535,26);(7247657,27);o;o;o;o;o;o;o];
  [o;(13655845,34);o;o;o;o;o;o;o;o;o;o;o;o;o;o;o;o;o;o;o;o;o;o;o;o;o;o;o;o;o;o;o;o;o;o;o;o;o;o;o;o;o;o;o;o;o;o;o;o;o;
   o;o;o;o;o;o;o;o;o;o;o;o;o;o;o;o;o;o;o;o;(4499623,33);(-8663487,30);(6054199,30);(-9023943,30);(11802811,31);
   (-12031045,31);(4982795,29);(-11110863,30);(2788149,28);(-12179545,30);(15449129,31);(-8281327,30);(6256239,28);
   (-6550515,28);(9350891,29);(-1199545,26);(10679245,30);(-5448827,29);(9710435,29);(-9843779,29);(4937297,27);
   (-9918385,28);(8005061,27);(-15958561,28);(5006673,26);(-4963183,26);(5562545,26);(-10976567,27);(5797917,26);
   (-11397839,27);(11973999,27);(-5864641,26);(12357587,27);(-3016497,25);o;o;o;o;o;o;o];
  [o;(-13636067,34);o;o;o;o;o;o;o;o;o;o;o;o;o;o;o;o;o;o;o;o;o;o;o;o;o;o;o;o;o;o;o;o;o;o;o;o;o;o;o;o;o;o;o;o;o;o;o;o;o;
   o;o;o;o;o;o;o;o;o;o;o;o;o;o;o;o;o;o;o;o;(-1119915,31);(8625219,30);(-6023423,30);(8977209,30);(-5868857,30);
   (11962727,31);(-2479705,28);(2764989,28);(-1387875,27);(757907,26);(-7690281,30);(8245461,30);(-12459115,29);
   (6522759,28);(-2327357,27);(9554127,29);(-10627427,30);(1355687,27);(-4836237,28);(2451407,27);(-9841635,28);
   (4942703,27);(-15958561,28);(3976817,26);(-9981567,27);(9894903,27);(-11089897,27);(2735469,25);(-5779673,26);
   (11362003,27);(-11936459,27);(5846267,26);(-12318935,27);(12028267,27);o;o;o;o;o;o;o];
  [o;(3039225,32);o;o;o;o;o;o;o;o;o;o;o;o;o;o;o;o;o;o;o;o;o;o;o;o;o;o;o;o;o;o;o;o;o;o;o;o;o;o;o;o;o;o;o;o;o;o;o;o;o;o;
   o;o;o;o;o;o;o;o;o;o;o;o;o;o;o;o;o;o;o;(11655265,34);(-11233423,30);(1982157,28);(-1479775,27);(7879395,30);
   (-16149751,31);(12973741,30);(-14408605,30);(7149289,29);(-1945317,27);(9901459,30);(-10581215,30);(15999269,29);
   (-8369717,28);(12076597,29);(-1547829,26);(13812349,30);(-7035001,29);(11825145,29);(-2995547,27);(6006033,27);
   (-6033005,27);(5006673,26);(-9981567,27);(6384111,26);(-6328825,26);(14277781,27);(-3521867,25);(14895393,27);
   (-1830169,24);(15379057,27);(-15065013,27);(3967275,25);(-7747427,26);o;o;o;o;o;o;o];
  [o;(-6032135,33);o;o;o;o;o;o;o;o;o;o;o;o;o;o;o;o;o;o;o;o;o;o;o;o;o;o;o;o;o;o;o;o;o;o;o;o;o;o;o;o;o;o;o;o;o;o;o;o;o;
   o;o;o;o;o;o;o;o;o;o;o;o;o;o;o;o;o;o;o;o;(-11545223,34);(11127501,30);(-15701681,31);(5860711,29);(-15600523,31);
   (7993073,30);(-6424647,29);(7135649,29);(-14163263,30);(15416095,30);(-9807923,30);(1310241,27);(-15849835,29);
   (16583359,29);(-11962455,29);(12265835,29);(-13677397,30);(13933079,30);(-5858297,28);(5936231,28);(-5953399,27);
   (11960371,28);(-4963183,26);(9894903,27);(-6328825,26);(6274035,26);(-3538571,25);(13965643,27);(-3691687,25);
   (14514925,27);(-15246353,27);(7467519,26);(-983265,23);(7680619,26);o;o;o;o;o;o;o];
  [o;(12596535,34);o;o;o;o;o;o;o;o;o;o;o;o;o;o;o;o;o;o;o;o;o;o;o;o;o;o;o;o;o;o;o;o;o;o;o;o;o;o;o;o;o;o;o;o;o;o;o;o;o;
   o;o;o;o;o;o;o;o;o;o;o;o;o;o;o;o;o;o;o;o;(13136751,34);(-12666017,30);(4479783,29);(-6691451,29);(8950539,30);
   (-2296281,28);(3659269,28);(-8119411,29);(8034167,29);(-4368285,28);(5570171,29);(-11895357,30);(4490757,27);
   (-9395217,28);(6797587,28);(-6968287,28);(15644847,30);(-7964381,29);(3297975,27);(-13363971,29);(6648283,27);
   (-13355953,28);(5562545,26);(-11089897,27);(14277781,27);(-3538571,25);(16038499,27);(-1978103,24);(8376979,26);
   (-16468329,27);(270295,21);(-8472867,26);(8924125,26);(-8713707,26);o;o;o;o;o;o;o];
  [o;(-12436559,34);o;o;o;o;o;o;o;o;o;o;o;o;o;o;o;o;o;o;o;o;o;o;o;o;o;o;o;o;o;o;o;o;o;o;o;o;o;o;o;o;o;o;o;o;o;o;o;o;o;
   o;o;o;o;o;o;o;o;o;o;o;o;o;o;o;o;o;o;o;o;(-12954323,34);(6245129,29);(-2208205,28);(3298271,28);(-2205619,28);
   (9053137,30);(-14432181,30);(2001525,27);(-7922379,29);(4307667,28);(-10985505,30);(11730557,30);(-8857377,28);
   (4632735,27);(-13406211,29);(6871527,28);(-15423677,30);(15704009,30);(-13010769,29);(13180693,29);(-13118177,28);
   (6588425,27);(-10976567,27);(2735469,25);(-3521867,25);(13965643,27);(-1978103,24);(15614017,27);(-16530911,27);
   (1015569,23);(-8534339,26);(2090031,24);(-4402699,25);(4298893,25);o;o;o;o;o;o;o];
  [o;(13041637,34);o;o;o;o;o;o;o;o;o;o;o;o;o;o;o;o;o;o;o;o;o;o;o;o;o;o;o;o;o;o;o;o;o;o;o;o;o;o;o;o;o;o;o;o;o;o;o;o;o;
   o;o;o;o;o;o;o;o;o;o;o;o;o;o;o;o;o;o;o;o;(3421503,32);(-13196545,30);(2331683,28);(-3482471,28);(4657161,29);
   (-9556927,30);(15238793,30);(-2113463,27);(8364167,29);(-9096325,29);(11607649,30);(-6198173,29);(1169401,25);
   (-9786543,28);(3539673,27);(-3628753,27);(8154407,29);(-2075787,27);(13764487,29);(-6972293,28);(13862163,28);
   (-13924393,28);(5797917,26);(-5779673,26);(14895393,27);(-3691687,25);(8376979,26);(-16530911,27);(4378529,25);
   (-8607833,26);(4521597,25);(-4429323,25);(9330311,26);(-9110367,26);o;o;o;o;o;o;o];
  [o;(-12825833,34);o;o;o;o;o;o;o;o;o;o;o;o;o;o;o;o;o;o;o;o;o;o;o;o;o;o;o;o;o;o;o;o;o;o;o;o;o;o;o;o;o;o;o;o;o;o;o;o;o;
   o;o;o;o;o;o;o;o;o;o;o;o;o;o;o;o;o;o;o;o;(-6723153,33);(12965519,30);(-4580707,29);(6841277,29);(-4573987,29);
   (9385759,30);(-14970489,30);(16610607,30);(-16434965,30);(8937079,29);(-11404237,30);(12179567,30);(-4595931,27);
   (4807879,27);(-13910603,29);(7130421,28);(-4004983,28);(254883,24);(-13525151,29);(6851151,28);(-13624679,28);
   (13685915,28);(-11397839,27);(11362003,27);(-1830169,24);(14514925,27);(-16468329,27);(1015569,23);(-8607833,26);
   (1057645,23);(-555571,22);(4353869,25);(-9171387,26);(8955195,26);o;o;o;o;o;o;o];
  [o;(6801533,33);o;o;o;o;o;o;o;o;o;o;o;o;o;o;o;o;o;o;o;o;o;o;o;o;o;o;o;o;o;o;o;o;o;o;o;o;o;o;o;o;o;o;o;o;o;o;o;o;o;o;
   o;o;o;o;o;o;o;o;o;o;o;o;o;o;o;o;o;o;o;(7046377,33);(-13588263,30);(4797233,29);(-7163865,29);(1196395,27);
   (-9817271,30);(7841257,29);(-4351069,28);(2153401,27);(-4684859,28);(11957201,30);(-6386439,29);(1204875,25);
   (-10084049,28);(14583337,29);(-14951443,29);(8397105,29);(-4275727,28);(14206967,29);(-14393829,29);(14318365,28);
   (-3595745,26);(11973999,27);(-11936459,27);(15379057,27);(-15246353,27);(270295,21);(-8534339,26);(4521597,25);
   (-555571,22);(9339447,26);(-9148891,26);(1204523,23);(-2352265,24);o;o;o;o;o;o;o];
  [o;(-13331087,34);o;o;o;o;o;o;o;o;o;o;o;o;o;o;o;o;o;o;o;o;o;o;o;o;o;o;o;o;o;o;o;o;o;o;o;o;o;o;o;o;o;o;o;o;o;o;o;o;o;
   o;o;o;o;o;o;o;o;o;o;o;o;o;o;o;o;o;o;o;o;(-6899737,33);(13305581,30);(-4696539,29);(109583,23);(-4684571,29);
   (4804811,29);(-3838723,28);(8520601,29);(-4217085,28);(4587389,28);(-11708257,30);(12507353,30);(-1179855,25);
   (9874729,28);(-14279749,29);(915021,25);(-4110483,28);(16744479,30);(-6956439,28);(440501,24);(-14025047,28);
   (7044201,27);(-5864641,26);(5846267,26);(-15065013,27);(7467519,26);(-8472867,26);(2090031,24);(-4429323,25);
   (4353869,25);(-9148891,26);(2240557,24);(-9439595,26);(9217109,26);o;o;o;o;o;o;o];
  [o;(14243243,34);o;o;o;o;o;o;o;o;o;o;o;o;o;o;o;o;o;o;o;o;o;o;o;o;o;o;o;o;o;o;o;o;o;o;o;o;o;o;o;o;o;o;o;o;o;o;o;o;o;
   o;o;o;o;o;o;o;o;o;o;o;o;o;o;o;o;o;o;o;o;(14510065,34);(-6994815,29);(4935831,29);(-14740133,30);(4919307,29);
   (-10089161,30);(8070949,29);(-559939,25);(554495,25);(-4826283,28);(6158139,29);(-13159053,30);(4965647,27);
   (-5195167,27);(15023469,29);(-3850881,27);(8648701,29);(-8808545,29);(14654657,29);(-14848133,29);(7389601,27);
   (-3711535,26);(12357587,27);(-12318935,27);(3967275,25);(-983265,23);(8924125,26);(-4402699,25);(9330311,26);
   (-9171387,26);(1204523,23);(-9439595,26);(19419,17);(-9708201,26);o;o;o;o;o;o;o];
  [o;(-1739069,31);o;o;o;o;o;o;o;o;o;o;o;o;o;o;o;o;o;o;o;o;o;o;o;o;o;o;o;o;o;o;o;o;o;o;o;o;o;o;o;o;o;o;o;o;o;o;o;o;o;
   o;o;o;o;o;o;o;o;o;o;o;o;o;o;o;o;o;o;o;o;(-110653,27);(853481,26);(-1204309,27);(14385655,30);(-2400327,28);
   (9845435,30);(-15755323,30);(4372335,28);(-4329915,28);(4711005,28);(-12021971,30);(12844933,30);(-9694409,28);
   (10142567,28);(-7332257,28);(7517803,28);(-4220491,28);(67165,22);(-7152925,28);(14494851,29);(-7214953,27);
   (7247657,27);(-3016497,25);(12028267,27);(-7747427,26);(7680619,26);(-8713707,26);(4298893,25);(-9110367,26);
   (8955195,26);(-2352265,24);(9217109,26);(-9708201,26);(1184925,23);o;o;o;o;o;o;o];
  [o;o;o;o;o;o;o;o;o;o;o;o;o;o;o;o;o;o;o;o;o;o;o;o;o;o;o;o;o;o;o;o;o;o;o;o;o;o;o;o;o;o;o;o;o;o;o;o;o;o;o;o;o;o;o;o;o;
   o;o;o;o;o;o;o;o;o;o;o;o;o;o;o;o;o;o;o;o;o;o;o;o;o;o;o;o;o;o;o;o;o;o;o;o;o;o;o;o;o;o;o;o;o;o;o;o;
   (6092421294037437,120);(-6509955458910071,115);(-596954010427859,100);(-4201785374834161,149);
   (-1193157821643231,85);(-707538556017709,112);o];
  [o;o;o;o;o;o;o;o;o;o;o;o;o;o;o;o;o;o;o;o;o;o;o;o;o;o;o;o;o;o;o;o;o;o;o;o;o;o;o;o;o;o;o;o;o;o;o;o;o;o;o;o;o;o;o;o;o;
   o;o;o;o;o;o;o;o;o;o;o;o;o;o;o;o;o;o;o;o;o;o;o;o;o;o;o;o;o;o;o;o;o;o;o;o;o;o;o;o;o;o;o;o;o;o;o;o;
   (-6509955458910071,115);(7070722928570533,109);o;(-8244220577407301,148);o;o;(-7003661114342977,84)];
  [o;o;o;o;o;o;o;o;o;o;o;o;o;o;o;o;o;o;o;o;o;o;o;o;o;o;o;o;o;o;o;o;o;o;o;o;o;o;o;o;o;o;o;o;o;o;o;o;o;o;o;o;o;o;o;o;o;
   o;o;o;o;o;o;o;o;o;o;o;o;o;o;o;o;o;o;o;o;o;o;o;o;o;o;o;o;o;o;o;o;o;o;o;o;o;o;o;o;o;o;o;o;o;o;o;o;
   (-596954010427859,100);o;(5022956433231763,64);o;o;(5826833004502867,72);o];
  [o;o;o;o;o;o;o;o;o;o;o;o;o;o;o;o;o;o;o;o;o;o;o;o;o;o;o;o;o;o;o;o;o;o;o;o;o;o;o;o;o;o;o;o;o;o;o;o;o;o;o;o;o;o;o;o;o;
   o;o;o;o;o;o;o;o;o;o;o;o;o;o;o;o;o;o;o;o;o;o;o;o;o;o;o;o;o;o;o;o;o;o;o;o;o;o;o;o;o;o;o;o;o;o;o;o;
   (-4201785374834161,149);(-8244220577407301,148);o;(6071802434022919,158);o;o;o];
  [o;o;o;o;o;o;o;o;o;o;o;o;o;o;o;o;o;o;o;o;o;o;o;o;o;o;o;o;o;o;o;o;o;o;o;o;o;o;o;o;o;o;o;o;o;o;o;o;o;o;o;o;o;o;o;o;o;
   o;o;o;o;o;o;o;o;o;o;o;o;o;o;o;o;o;o;o;o;o;o;o;o;o;o;o;o;o;o;o;o;o;o;o;o;o;o;o;o;o;o;o;o;o;o;o;o;
   (-1193157821643231,85);o;o;o;(1441151880758559,51);o;o];
  [o;o;o;o;o;o;o;o;o;o;o;o;o;o;o;o;o;o;o;o;o;o;o;o;o;o;o;o;o;o;o;o;o;o;o;o;o;o;o;o;o;o;o;o;o;o;o;o;o;o;o;o;o;o;o;o;o;
   o;o;o;o;o;o;o;o;o;o;o;o;o;o;o;o;o;o;o;o;o;o;o;o;o;o;o;o;o;o;o;o;o;o;o;o;o;o;o;o;o;o;o;o;o;o;o;o;
   (-707538556017709,112);o;(5826833004502867,72);o;o;(4573018558455415,71);o];
  [o;o;o;o;o;o;o;o;o;o;o;o;o;o;o;o;o;o;o;o;o;o;o;o;o;o;o;o;o;o;o;o;o;o;o;o;o;o;o;o;o;o;o;o;o;o;o;o;o;o;o;o;o;o;o;o;o;
   o;o;o;o;o;o;o;o;o;o;o;o;o;o;o;o;o;o;o;o;o;o;o;o;o;o;o;o;o;o;o;o;o;o;o;o;o;o;o;o;o;o;o;o;o;o;o;o;o;
   (-7003661114342977,84);o;o;o;o;(3242591731706757,53)]].

(** R19: lines 90-93, file R19/Cov_parameters_Gallucci_et_al_ACPD_2023_V1.0.nc (135 x 135). *)
Definition cov_R19 : list (list (Z * Z)) := [
  [(1,0);o;o;o;o;o;o;o;o;o;o;o;o;o;o;o;o;o;o;o;o;o;o;o;o;o;o;o;o;o;o;o;o;o;o;o;o;o;(-7657235,31);(4833953,30);
   (-962755,27);(8074779,30);(-2308275,28);(15998373,31);(-15422133,31);(10345437,31);(-4220501,30);(8359331,33);
   (762471,34);(-13695729,32);(4422027,30);(-7805357,30);(1075645,27);(-11905803,30);(3124909,28);(-1952689,27);
   (16001683,30);(-2357607,27);(4763613,28);(-10798203,29);(10807791,29);(-11936889,29);(5931601,28);(-12872285,29);
   (12729923,29);(-3415755,27);(13453469,29);(-14340299,29);(14067971,29);(-14942679,29);(3651591,27);o;o;o;o;o;o;o;o;
   o;o;o;o;o;o;o;o;o;o;o;o;o;o;o;o;o;o;o;o;o;o;o;o;o;o;o;o;o;o;o;o;o;o;o;o;o;o;o;o;o;o;o;o;o;o;o;o;o;o;o;o;o;o;o;o];
  [o;(10737419,32);(-8589935,35);o;o;o;o;o;o;o;o;o;o;o;o;o;o;o;o;o;o;o;o;o;o;o;o;o;o;o;o;o;o;o;o;o;o;o;o;o;o;o;o;o;o;
   o;o;o;o;o;o;o;o;o;o;o;o;o;o;o;o;o;o;o;o;o;o;o;o;o;o;(-9612865,38);(5149605,33);(-12671801,34);(2542189,31);
   (-5063669,32);(5723209,32);(-1686861,31);(2859693,32);(11006241,40);(-6901789,35);(-1424423,33);(8612879,37);
   (16280987,36);(-11354303,35);(11938091,33);(-12728959,33);(213067,27);(-14097787,33);(10791049,33);(-171585,27);
   (1060583,30);(-8540853,33);(13655845,34);(-13636067,34);(3039225,32);(-6032135,33);(12596535,34);(-12436559,34);
   (13041637,34);(-12825833,34);(6801533,33);(-13331087,34);(14243243,34);(-1739069,31);o;o;o;o;o;o;o;o;o;o;o;o;o;o;o;
   o;o;o;o;o;o;o;o;o;o;o;o;o;o;o];
  [o;(-8589935,35);(10737419,32);o;o;o;o;o;o;o;o;o;o;o;o;o;o;o;o;o;o;o;o;o;o;o;o;o;o;o;o;o;o;o;o;o;o;o;(-16024217,38);
   (-4673369,36);(-14758547,38);(-4920335,36);(-3580513,36);(-9748993,37);(-3745111,36);(-4615881,36);(-16212833,38);
   (-8597191,37);(-8750717,37);(-8001835,37);(-9322061,37);(-3734045,36);(-9821959,37);(-13951501,38);(-10283685,37);
   (-13029901,38);(-10715207,37);(-12196741,38);(-11106963,37);(-5738483,37);(-5721907,36);(-10872495,38);
   (-11724047,37);(-5188161,37);(-2988499,35);(-9958043,38);(-1518173,34);(-9600263,38);(-769231,33);(-9281501,38);
   (-6225079,36);o;o;o;o;o;o;o;o;o;o;o;o;o;o;o;o;o;o;o;o;o;o;o;o;o;o;o;o;o;o;o;o;o;o;o;o;o;o;o;o;o;o;o;o;o;o;o;o;o;o;
   o;o;o;o;o;o;o;o;o;o;o;o;o;o];
  [o;o;o;(6635203,35);o;o;o;o;o;o;o;o;o;o;o;o;o;o;o;o;o;o;o;o;o;o;o;o;o;o;o;o;o;o;o;o;o;o;o;o;o;o;o;o;o;o;o;o;o;o;o;o;
   o;o;o;o;o;o;o;o;o;o;o;o;o;o;o;o;o;o;o;o;o;o;o;o;o;o;o;o;o;o;o;o;o;o;o;o;o;o;o;o;o;o;o;o;o;o;o;o;o;o;o;o;o;o;o;o;o;
   o;o;o;o;o;o;o;o;o;o;o;o;o;o;o;o;o;o;o;o;o;o;o;o;o;o];
  [o;o;o;o;(6635203,35);o;o;o;o;o;o;o;o;o;o;o;o;o;o;o;o;o;o;o;o;o;o;o;o;o;o;o;o;o;o;o;o;o;(376173,40);(-12303425,45);
   (4737263,43);(-12856301,44);(15058071,44);(-1233621,40);(10337171,43);(-11709361,43);(5761969,42);(-4597061,42);
   (16749965,44);(-2866849,45);(-8690371,47);(2895937,41);(-12898959,43);(11448031,42);(-5992451,41);(7568235,41);
   (-1934383,39);(8588417,41);(-8668749,41);(1155939,38);(-9252101,41);(9837227,41);(-1221843,38);(10412643,41);
   (-10296309,41);(342849,36);(-10802075,41);(5744695,40);(-11270571,41);(11970049,41);(-11700191,41);o;o;o;o;o;o;o;o;
   o;o;o;o;o;o;o;o;o;o;o;o;o;o;o;o;o;o;o;o;o;o;o;o;o;o;o;o;o;o;o;o;o;o;o;o;o;o;o;o;o;o;o;o;o;o;o;o;o;o;o;o;o;o;o;o];
  [o;o;o;o;o;(6635203,35);o;o;o;o;o;o;o;o;o;o;o;o;o;o;o;o;o;o;o;o;o;o;o;o;o;o;o;o;o;o;o;o;(8627345,42);(-11871279,42);
   (9476821,41);(-9965175,41);(11445823,41);(-11562783,41);(5774477,40);(-4761311,40);(8566821,41);(-2950029,41);
   (743411,40);(6408727,41);(-7942491,41);(14658809,41);(-15896443,41);(9691731,40);(-5055645,39);(2692955,38);
   (-11009895,40);(11432921,40);(-11540859,40);(1515641,37);(-12131377,40);(1613605,37);(-6413193,39);(13698521,40);
   (-13544831,40);(14453543,40);(-1778769,37);(7572359,39);(-7427857,39);(15782117,40);(-60257,32);o;o;o;o;o;o;o;o;o;
   o;o;o;o;o;o;o;o;o;o;o;o;o;o;o;o;o;o;o;o;o;o;o;o;o;o;o;o;o;o;o;o;o;o;o;o;o;o;o;o;o;o;o;o;o;o;o;o;o;o;o;o;o;o;o];
  [o;o;o;o;o;o;(6635203,35);o;o;o;o;o;o;o;o;o;o;o;o;o;o;o;o;o;o;o;o;o;o;o;o;o;o;o;o;o;o;o;(689335,38);(-14000559,42);
   (5633571,40);(-10274355,41);(11484127,41);(-12999021,42);(10695291,42);(3557013,42);(-7307353,42);(119745,35);
   (-2276273,39);(8239197,41);(-9001395,41);(5775755,41);(-6074419,41);(6143331,42);(-1578019,40);(4711691,43);
   (-2371611,42);(13027681,48);(-11761867,48);(-7159297,45);(7298745,45);(-11446421,45);(5747097,44);(-13525357,45);
   (13472949,45);(-7270869,44);(3601383,43);(-15067239,45);(7429995,44);(-7684285,44);(7551429,44);o;o;o;o;o;o;o;o;o;
   o;o;o;o;o;o;o;o;o;o;o;o;o;o;o;o;o;o;o;o;o;o;o;o;o;o;o;o;o;o;o;o;o;o;o;o;o;o;o;o;o;o;o;o;o;o;o;o;o;o;o;o;o;o;o];
  [o;o;o;o;o;o;o;(6635203,35);o;o;o;o;o;o;o;o;o;o;o;o;o;o;o;o;o;o;o;o;o;o;o;o;o;o;o;o;o;o;(68417,34);(-2833539,39);
   (9134305,40);(-2136255,38);(9630933,40);(-3456789,40);(8738261,42);(835133,38);(-9892137,41);(11563293,41);
   (-6773685,40);(9526487,41);(-1301955,38);(2811511,40);(-5931803,41);(5170573,42);(-5328703,42);(6563207,44);
   (-13210523,45);(-1475587,45);(6573429,47);(-2239817,43);(2275371,43);(-1621989,42);(3256329,43);(-15222623,45);
   (473775,40);(-16450417,45);(8147993,44);(-8544699,44);(4213813,43);(-1087133,41);(4274595,43);o;o;o;o;o;o;o;o;o;o;
   o;o;o;o;o;o;o;o;o;o;o;o;o;o;o;o;o;o;o;o;o;o;o;o;o;o;o;o;o;o;o;o;o;o;o;o;o;o;o;o;o;o;o;o;o;o;o;o;o;o;o;o;o;o];
  [o;o;o;o;o;o;o;o;(6635203,35);o;o;o;o;o;o;o;o;o;o;o;o;o;o;o;o;o;o;o;o;o;o;o;o;o;o;o;o;o;(15537235,42);(-2648751,39);
   (8566207,40);(-1969819,38);(4441655,39);(-11061455,42);(12195781,43);(6999309,41);(-9983675,41);(10667731,41);
   (-12431005,41);(16544365,42);(-4514809,40);(9084949,42);(-4790423,41);(13496131,44);(-13917651,44);(-10057361,50);
   (6236981,49);(-961879,41);(7791971,44);(-5946147,43);(5963389,43);(-14369005,44);(7155531,43);(-497547,39);
   (1971571,41);(-1059521,40);(2089941,41);(-4420483,42);(8686201,43);(-1140159,40);(4465389,42);o;o;o;o;o;o;o;o;o;o;
   o;o;o;o;o;o;o;o;o;o;o;o;o;o;o;o;o;o;o;o;o;o;o;o;o;o;o;o;o;o;o;o;o;o;o;o;o;o;o;o;o;o;o;o;o;o;o;o;o;o;o;o;o;o];
  [o;o;o;o;o;o;o;o;o;(6635203,35);o;o;o;o;o;o;o;o;o;o;o;o;o;o;o;o;o;o;o;o;o;o;o;o;o;o;o;o;(16012079,42);(-9789521,41);
   (982973,37);(-14247025,41);(7928225,40);(-2131735,39);(13606013,42);(10537041,43);(-10459969,42);(1165409,38);
   (-11210995,41);(9782085,41);(-337117,36);(14885203,42);(-15770307,42);(5136777,41);(-10626731,42);(14737989,43);
   (-3745859,41);(11965709,43);(-751431,39);(2753309,41);(-10973341,43);(5493795,42);(-10876591,43);(5684861,42);
   (-11209241,43);(11936713,43);(-5861401,42);(1569789,40);(-6145951,42);(13189525,43);(-1608015,40);o;o;o;o;o;o;o;o;
   o;o;o;o;o;o;o;o;o;o;o;o;o;o;o;o;o;o;o;o;o;o;o;o;o;o;o;o;o;o;o;o;o;o;o;o;o;o;o;o;o;o;o;o;o;o;o;o;o;o;o;o;o;o;o;o];
  [o;o;o;o;o;o;o;o;o;o;(6635203,35);o;o;o;o;o;o;o;o;o;o;o;o;o;o;o;o;o;o;o;o;o;o;o;o;o;o;o;(15880467,42);(-1369359,38);
   (8826077,40);(-4315137,39);(2460059,38);(-2688027,39);(2245983,39);(2940803,42);(-137115,36);(4794391,40);
   (-11860091,41);(11435633,41);(-6387555,40);(9959081,41);(-10641027,41);(16262365,42);(-8465081,41);(14271899,42);
   (-3646015,40);(13832813,42);(-3489593,40);(3573609,40);(-14294139,42);(15135979,42);(-7515189,41);(16057677,42);
   (-15869751,42);(8482197,41);(-16694875,42);(4451811,40);(-4365147,40);(9296801,41);(-4541633,40);o;o;o;o;o;o;o;o;o;
   o;o;o;o;o;o;o;o;o;o;o;o;o;o;o;o;o;o;o;o;o;o;o;o;o;o;o;o;o;o;o;o;o;o;o;o;o;o;o;o;o;o;o;o;o;o;o;o;o;o;o;o;o;o;o];
  [o;o;o;o;o;o;o;o;o;o;o;(6635203,35);o;o;o;o;o;o;o;o;o;o;o;o;o;o;o;o;o;o;o;o;o;o;o;o;o;o;(13519955,42);
   (-15598953,42);(12416889,41);(-3075885,39);(108181,34);(-6509135,40);(12606129,41);(-1431567,39);(1973029,40);
   (11921873,42);(-16082343,42);(6393947,40);(-14316093,41);(3374739,39);(-14361805,41);(11869065,41);(-1538061,38);
   (10409109,41);(-1325815,38);(9844411,41);(-1239569,38);(2494059,39);(-9965429,41);(10465981,41);(-5192897,40);
   (11067901,41);(-5466539,40);(11683229,41);(-11493503,41);(1532669,38);(-3004809,39);(200011,35);(-1562967,38);o;o;
   o;o;o;o;o;o;o;o;o;o;o;o;o;o;o;o;o;o;o;o;o;o;o;o;o;o;o;o;o;o;o;o;o;o;o;o;o;o;o;o;o;o;o;o;o;o;o;o;o;o;o;o;o;o;o;o;o;
   o;o;o;o;o];
  [o;o;o;o;o;o;o;o;o;o;o;o;(6635203,35);o;o;o;o;o;o;o;o;o;o;o;o;o;o;o;o;o;o;o;o;o;o;o;o;o;(3968513,40);(-1365397,38);
   (2191997,38);(-8773917,40);(5014351,39);(-15891189,41);(7507369,40);(-11267541,42);(12284927,43);(3682013,40);
   (-4911,30);(3750867,39);(-2120971,38);(16425321,41);(-4396131,39);(15370035,41);(-1000021,37);(1826119,38);
   (-14925513,41);(14748481,41);(-930149,37);(3881155,39);(-15526507,41);(4141499,39);(-16454051,41);(1101491,37);
   (-8710473,40);(4656321,39);(-9166417,40);(9767957,40);(-9579487,40);(636679,36);(-9954819,40);o;o;o;o;o;o;o;o;o;o;
   o;o;o;o;o;o;o;o;o;o;o;o;o;o;o;o;o;o;o;o;o;o;o;o;o;o;o;o;o;o;o;o;o;o;o;o;o;o;o;o;o;o;o;o;o;o;o;o;o;o;o;o;o;o];
  [o;o;o;o;o;o;o;o;o;o;o;o;o;(6635203,35);o;o;o;o;o;o;o;o;o;(12394583,37);(12394583,37);(12394583,37);(12394583,37);
   (12394583,37);(12394583,37);(12394583,37);(12394583,37);(12394583,37);(12394583,37);(12394583,37);(12394583,37);
   (12394583,37);(12394583,37);o;(1382319,39);(-12170487,42);(9554871,41);(-5629385,40);(12973045,41);(-15639615,41);
   (16064093,41);(-14100933,41);(13193037,41);(-14365691,43);(13873839,44);(531679,37);(-1305199,38);(3962169,39);
   (-8667573,40);(10406843,40);(-2733547,38);(13574505,40);(-13917893,40);(8738235,39);(-8829457,39);(2620561,37);
   (-5245263,38);(11727257,39);(-11653703,39);(1573679,36);(-778089,35);(13276985,39);(-13072859,39);(6942535,38);
   (-13621019,39);(7226983,38);(-14128323,39);o;o;o;o;o;o;o;o;o;o;o;o;o;o;o;o;o;o;o;o;o;o;o;o;o;o;o;o;o;o;o;o;o;o;o;o;
   o;o;o;o;o;o;o;o;o;o;o;o;o;o;o;o;o;o;o;o;o;o;o;o;o;o;o;o];
  [o;o;o;o;o;o;o;o;o;o;o;o;o;o;(6635203,35);o;o;o;o;o;o;o;o;(12394583,37);(12394583,37);(12394583,37);(12394583,37);
   (12394583,37);(12394583,37);(12394583,37);(12394583,37);(12394583,37);(12394583,37);(12394583,37);(12394583,37);
   (12394583,37);(12394583,37);o;(3626541,40);(-10091005,41);(8065519,40);(-8453831,40);(9711883,40);(-4840975,39);
   (4824679,39);(-7166267,40);(1567635,38);(-6692701,43);(-14786693,45);(5503,30);(-13721965,41);(9649837,40);
   (-2641833,38);(1557635,37);(-13103709,40);(16078925,40);(-2061671,37);(5106645,38);(-5161477,38);(12154267,39);
   (-6083117,38);(13563663,39);(-6740203,38);(14560265,39);(-14399681,39);(3840507,37);(-7563473,38);(8034717,38);
   (-7882401,38);(8364189,38);(-8176215,38);o;o;o;o;o;o;o;o;o;o;o;o;o;o;o;o;o;o;o;o;o;o;o;o;o;o;o;o;o;o;o;o;o;o;o;o;o;
   o;o;o;o;o;o;o;o;o;o;o;o;o;o;o;o;o;o;o;o;o;o;o;o;o;o;o];
  [o;o;o;o;o;o;o;o;o;o;o;o;o;o;o;(6635203,35);o;o;o;o;o;o;o;(8263055,39);(8263055,39);(4957833,38);(4957833,38);
   (11568277,39);(11568277,39);(13220889,39);(13220889,39);(14873499,39);(14873499,39);(8263055,38);(8263055,38);
   (9089361,38);(9089361,38);o;(4503955,41);(-1176523,39);(7325909,41);(-9102379,41);(10559099,41);(-13126801,41);
   (13585489,41);(-6760389,40);(12974085,41);(-12066547,42);(4604703,41);(14818259,42);(-4585231,40);(9271371,40);
   (-9999527,40);(2935331,38);(-12221303,40);(6218379,39);(-3175063,38);(813755,36);(-13136785,40);(6945807,39);
   (-13894109,40);(14884585,40);(-7392889,39);(15833565,40);(-7826527,39);(16711923,40);(-8225651,39);(8754381,39);
   (-2146581,37);(4561051,38);(-2228805,37);o;o;o;o;o;o;o;o;o;o;o;o;o;o;o;o;o;o;o;o;o;o;o;o;o;o;o;o;o;o;o;o;o;o;o;o;o;
   o;o;o;o;o;o;o;o;o;o;o;o;o;o;o;o;o;o;o;o;o;o;o;o;o;o;o];
  [o;o;o;o;o;o;o;o;o;o;o;o;o;o;o;o;(6635203,35);o;o;o;o;o;o;(8263055,39);(8263055,39);(4957833,38);(4957833,38);
   (11568277,39);(11568277,39);(13220889,39);(13220889,39);(14873499,39);(14873499,39);(8263055,38);(8263055,38);
   (9089361,38);(9089361,38);o;(1557147,39);(-1076251,38);(13742167,41);(-14421925,41);(517549,36);(-4335169,39);
   (4357557,39);(-14861897,41);(13547147,41);(-2256483,40);(2333833,41);(10574257,41);(-12908117,41);(11352777,40);
   (-12278973,40);(14185385,40);(-3699155,38);(7681351,39);(-15706441,40);(8211209,39);(-4145037,38);(8858099,39);
   (-8863069,39);(4765935,38);(-9471059,39);(5076535,38);(-10039187,39);(10718943,39);(-5276657,38);(5614565,38);
   (-2753723,37);(11699193,39);(-11435101,39);o;o;o;o;o;o;o;o;o;o;o;o;o;o;o;o;o;o;o;o;o;o;o;o;o;o;o;o;o;o;o;o;o;o;o;o;
   o;o;o;o;o;o;o;o;o;o;o;o;o;o;o;o;o;o;o;o;o;o;o;o;o;o;o;o];
  [o;o;o;o;o;o;o;o;o;o;o;o;o;o;o;o;o;(6635203,35);o;o;o;o;o;(8263055,38);(8263055,38);(4957833,37);(4957833,37);
   (11568277,38);(11568277,38);(13220889,38);(13220889,38);(14873499,38);(14873499,38);(8263055,37);(8263055,37);
   (9089361,37);(9089361,37);o;(12001647,43);(-1534895,40);(9454925,42);(-12911265,42);(7568183,41);(-9911527,41);
   (1298061,38);(-2964339,39);(5841099,40);(-4674315,40);(8529779,41);(-8855207,46);(-4038391,43);(6263749,40);
   (-13862133,41);(5759409,39);(-12049785,40);(14568679,40);(-7449391,39);(16524869,40);(-8342053,39);(9088073,39);
   (-9093691,39);(4913643,38);(-9765297,39);(10469609,39);(-10352897,39);(5522059,38);(-10874107,39);(5781099,38);
   (-11342171,39);(6020853,38);(-11770389,39);o;o;o;o;o;o;o;o;o;o;o;o;o;o;o;o;o;o;o;o;o;o;o;o;o;o;o;o;o;o;o;o;o;o;o;o;
   o;o;o;o;o;o;o;o;o;o;o;o;o;o;o;o;o;o;o;o;o;o;o;o;o;o;o;o];
  [o;o;o;o;o;o;o;o;o;o;o;o;o;o;o;o;o;o;(6635203,35);o;o;o;o;(8263055,38);(8263055,38);(4957833,37);(4957833,37);
   (11568277,38);(11568277,38);(13220889,38);(13220889,38);(14873499,38);(14873499,38);(8263055,37);(8263055,37);
   (9089361,37);(9089361,37);o;(8694047,42);(-12128675,42);(9649339,41);(-10736153,41);(12417653,41);(-6890379,40);
   (7022547,40);(-13861655,41);(6570351,40);(-8873747,41);(14903793,42);(4656347,42);(-16526527,43);(1043007,37);
   (-4601999,39);(14095913,40);(-14758741,40);(4408413,38);(-9022253,39);(5006859,38);(-2528431,37);(1378877,36);
   (-5520017,38);(11934023,39);(-5930133,38);(6357805,38);(-6287487,38);(1676705,36);(-13208043,39);(14042711,39);
   (-13776239,39);(914059,35);(-223377,33);o;o;o;o;o;o;o;o;o;o;o;o;o;o;o;o;o;o;o;o;o;o;o;o;o;o;o;o;o;o;o;o;o;o;o;o;o;
   o;o;o;o;o;o;o;o;o;o;o;o;o;o;o;o;o;o;o;o;o;o;o;o;o;o;o];
  [o;o;o;o;o;o;o;o;o;o;o;o;o;o;o;o;o;o;o;(6635203,35);o;o;o;(12394583,38);(12394583,38);(14873499,38);(14873499,38);
   (542263,33);(542263,33);(10791489,37);(4957833,36);(12030947,37);(12030947,37);(6635203,36);(6635203,36);
   (14509865,37);(14509865,37);o;(12033253,44);(-6230279,43);(2367001,41);(-932723,39);(8871231,42);(-3126703,40);
   (13306447,42);(-265609,36);(8552947,41);(-9024453,41);(2172703,39);(-10568279,42);(4555127,41);(16448359,43);
   (-5071483,41);(8243397,40);(-4357023,39);(3417147,38);(-7004035,39);(4357553,38);(-8804787,39);(9992073,39);
   (-5000805,38);(10928109,39);(-10861807,39);(11663797,39);(-11535941,39);(12298015,39);(-12110511,39);(6433203,38);
   (-12623121,39);(209285,33);(-6546925,38);o;o;o;o;o;o;o;o;o;o;o;o;o;o;o;o;o;o;o;o;o;o;o;o;o;o;o;o;o;o;o;o;o;o;o;o;o;
   o;o;o;o;o;o;o;o;o;o;o;o;o;o;o;o;o;o;o;o;o;o;o;o;o;o;o];
  [o;o;o;o;o;o;o;o;o;o;o;o;o;o;o;o;o;o;o;o;(6635203,35);o;o;(12394583,38);(12394583,38);(14873499,38);(14873499,38);
   (542263,33);(542263,33);(10791489,37);(4957833,36);(12030947,37);(12030947,37);(6635203,36);(6635203,36);
   (14509865,37);(14509865,37);o;(10209233,43);(-7236965,42);(11474729,42);(-13891909,42);(16223869,42);(-4697637,40);
   (4844099,40);(-10437287,41);(10115981,41);(-4580889,40);(8387697,41);(-3596433,41);(9861465,43);(7402875,41);
   (-4340445,40);(10552483,40);(-11139019,40);(16497327,40);(-4227403,38);(2588165,37);(-10460849,39);(11806935,39);
   (-11819335,39);(12886015,39);(-6404289,38);(6871591,38);(-212391,33);(7243857,38);(-3566801,37);(15157343,39);
   (-7435523,38);(15780049,39);(-15426429,39);o;o;o;o;o;o;o;o;o;o;o;o;o;o;o;o;o;o;o;o;o;o;o;o;o;o;o;o;o;o;o;o;o;o;o;o;
   o;o;o;o;o;o;o;o;o;o;o;o;o;o;o;o;o;o;o;o;o;o;o;o;o;o;o;o];
  [o;o;o;o;o;o;o;o;o;o;o;o;o;o;o;o;o;o;o;o;o;(6635203,35);o;(8263055,37);(8263055,37);(4957833,36);(4957833,36);
   (11568277,37);(11568277,37);(13323927,37);(13220889,37);(14997145,37);(14997145,37);(16670363,37);(16670363,37);
   (9171791,36);(9171791,36);o;(12375705,46);(-7073169,45);(10254413,45);(-3209241,42);(15756009,44);(-13254765,43);
   (1814551,40);(-10664887,42);(11016887,42);(-3506849,40);(13956277,42);(-13172213,42);(3135329,40);(-1739559,41);
   (4689641,43);(8108721,41);(-2200701,39);(1280559,37);(-10540453,40);(7810781,39);(-7898283,39);(4801875,38);
   (-2403975,37);(10718759,39);(-10655733,39);(2869731,37);(-11354765,39);(12095081,39);(-5956039,38);(790179,35);
   (-6202507,38);(13155055,39);(-401909,34);o;o;o;o;o;o;o;o;o;o;o;o;o;o;o;o;o;o;o;o;o;o;o;o;o;o;o;o;o;o;o;o;o;o;o;o;o;
   o;o;o;o;o;o;o;o;o;o;o;o;o;o;o;o;o;o;o;o;o;o;o;o;o;o;o];
  [o;o;o;o;o;o;o;o;o;o;o;o;o;o;o;o;o;o;o;o;o;o;(6635203,35);(8263055,37);(8263055,37);(4957833,36);(4957833,36);
   (11568277,37);(11568277,37);(13323927,37);(13220889,37);(14997145,37);(14997145,37);(16670363,37);(16670363,37);
   (9171791,36);(9171791,36);o;(10125735,44);(-14863523,44);(2931883,41);(-15967425,43);(4716353,41);(-11534727,42);
   (3013381,40);(-3504877,40);(13849187,42);(-14950779,42);(7123159,41);(-11380317,42);(5073695,41);(575189,41);
   (-11157519,44);(2979285,39);(-12808085,41);(6414155,39);(-13189361,40);(9353341,39);(-9457665,39);(11328633,39);
   (-2835777,37);(12575311,39);(-6250739,38);(1680471,36);(-13298383,39);(7080167,38);(-6973031,38);(14802329,39);
   (-7261907,38);(15403903,39);(-1882455,36);o;o;o;o;o;o;o;o;o;o;o;o;o;o;o;o;o;o;o;o;o;o;o;o;o;o;o;o;o;o;o;o;o;o;o;o;
   o;o;o;o;o;o;o;o;o;o;o;o;o;o;o;o;o;o;o;o;o;o;o;o;o;o;o;o];
  [o;o;o;o;o;o;o;o;o;o;o;o;o;(12394583,37);(12394583,37);(8263055,39);(8263055,39);(8263055,38);(8263055,38);
   (12394583,38);(12394583,38);(8263055,37);(8263055,37);(1099323,33);(15837523,37);(5164409,35);(5164409,35);
   (3184719,34);(3184719,34);(15251973,36);(15148935,36);(4420659,34);(4420659,34);(10056651,35);(10056651,35);
   (11271983,35);(11271983,35);o;(1145033,38);(-11597731,41);(9171173,40);(-10597589,40);(12269345,40);(-3493711,38);
   (1786627,37);(-6675831,39);(6288505,39);(-13799819,41);(2694277,39);(2946845,40);(-2341751,39);(13248707,40);
   (-462659,35);(11679529,39);(-6150249,38);(519847,34);(-2131829,36);(5274437,37);(-10659669,38);(12328381,38);
   (-12340305,38);(13649941,38);(-6783265,37);(14640459,38);(-14479347,38);(7728757,37);(-15221263,38);(8087625,37);
   (-1983609,35);(1052411,34);(-8230207,37);o;o;o;o;o;o;o;o;o;o;o;o;o;o;o;o;o;o;o;o;o;o;o;o;o;o;o;o;o;o;o;o;o;o;o;o;o;
   o;o;o;o;o;o;o;o;o;o;o;o;o;o;o;o;o;o;o;o;o;o;o;o;o;o;o];
  [o;o;o;o;o;o;o;o;o;o;o;o;o;(12394583,37);(12394583,37);(8263055,39);(8263055,39);(8263055,38);(8263055,38);
   (12394583,38);(12394583,38);(8263055,37);(8263055,37);(15837523,37);(1099323,33);(5164409,35);(5164409,35);
   (3184719,34);(3184719,34);(15251973,36);(15148935,36);(4420659,34);(4420659,34);(10056651,35);(10056651,35);
   (11271983,35);(11271983,35);o;(4603311,40);(-11662407,41);(4611511,39);(-10654141,40);(1541813,37);(-14033985,40);
   (14350957,40);(-13393755,40);(12613047,40);(-6915545,40);(674605,37);(2961475,40);(-9410405,41);(6493,29);
   (-3715035,38);(5862291,38);(-1543505,36);(8350639,38);(-8561269,38);(10591903,38);(-167237,32);(96707,31);
   (-12390483,38);(3426129,36);(-851299,34);(3674551,36);(-7268233,37);(7759047,37);(-15280925,38);(4059633,36);
   (-7965481,37);(8452231,37);(-16524825,38);o;o;o;o;o;o;o;o;o;o;o;o;o;o;o;o;o;o;o;o;o;o;o;o;o;o;o;o;o;o;o;o;o;o;o;o;
   o;o;o;o;o;o;o;o;o;o;o;o;o;o;o;o;o;o;o;o;o;o;o;o;o;o;o;o];
  [o;o;o;o;o;o;o;o;o;o;o;o;o;(12394583,37);(12394583,37);(4957833,38);(4957833,38);(4957833,37);(4957833,37);
   (14873499,38);(14873499,38);(4957833,36);(4957833,36);(5164409,35);(5164409,35);(14509863,36);(13634041,36);
   (66169,28);(66169,28);(10199521,35);(5061121,34);(11867587,35);(11867587,35);(13535653,35);(13535653,35);
   (15203721,35);(15203721,35);o;(2427753,39);(-6166157,40);(9744569,40);(-11413137,40);(13234587,40);(-15272897,40);
   (15665733,40);(-7511805,39);(14247621,40);(-8585795,40);(3498143,39);(7702821,42);(-15239293,42);(6866335,39);
   (-1934329,37);(13012299,39);(-6863819,38);(600865,34);(-4930475,37);(3112491,36);(-6291425,37);(7357883,37);
   (-14731111,38);(511781,33);(-4069409,36);(8797729,37);(-8701193,37);(9291423,37);(-571853,33);(9721947,37);
   (-2384501,35);(5059703,36);(-4946161,36);o;o;o;o;o;o;o;o;o;o;o;o;o;o;o;o;o;o;o;o;o;o;o;o;o;o;o;o;o;o;o;o;o;o;o;o;o;
   o;o;o;o;o;o;o;o;o;o;o;o;o;o;o;o;o;o;o;o;o;o;o;o;o;o;o];
  [o;o;o;o;o;o;o;o;o;o;o;o;o;(12394583,37);(12394583,37);(4957833,38);(4957833,38);(4957833,37);(4957833,37);
   (14873499,38);(14873499,38);(4957833,36);(4957833,36);(5164409,35);(5164409,35);(13634041,36);(14509863,36);
   (66169,28);(66169,28);(10199521,35);(5061121,34);(11867587,35);(11867587,35);(13535653,35);(13535653,35);
   (15203721,35);(15203721,35);o;(4871305,40);(-12373139,41);(9777127,40);(-5724639,39);(6638099,39);(-3827709,38);
   (3925721,38);(-3762757,38);(14271181,40);(-8597245,40);(7003095,40);(7729825,42);(-15284179,42);(6880369,39);
   (-7753299,39);(13039869,39);(-13756841,39);(9635325,38);(-9883027,38);(12479529,38);(-12612755,38);(3688111,36);
   (-14767841,38);(4104663,36);(-16319051,38);(4409997,36);(-8723217,37);(4657385,36);(-9172641,37);(9746299,37);
   (-9561897,37);(10144743,37);(-9917091,37);o;o;o;o;o;o;o;o;o;o;o;o;o;o;o;o;o;o;o;o;o;o;o;o;o;o;o;o;o;o;o;o;o;o;o;o;
   o;o;o;o;o;o;o;o;o;o;o;o;o;o;o;o;o;o;o;o;o;o;o;o;o;o;o;o];
  [o;o;o;o;o;o;o;o;o;o;o;o;o;(12394583,37);(12394583,37);(11568277,39);(11568277,39);(11568277,38);(11568277,38);
   (542263,33);(542263,33);(11568277,37);(11568277,37);(3184719,34);(3184719,34);(66169,28);(66169,28);(1375967,32);
   (330307,30);(12773055,35);(12670017,35);(14893855,35);(14893855,35);(8507329,34);(8507329,34);(9567729,34);
   (9567729,34);o;(10274029,41);(-13080325,41);(10328347,40);(-12242607,40);(14216183,40);(-16590699,40);(1066185,36);
   (-2089881,37);(15941259,40);(-5147631,39);(4313097,39);(55671,36);(-11698453,42);(14230067,40);(-4040121,38);
   (14373459,39);(-7592289,38);(5339,27);(-11219199,38);(14376991,38);(-14532145,38);(8562253,37);(-8571633,37);
   (597595,33);(-4751903,36);(10285095,37);(-10172471,37);(5432329,36);(-10699069,37);(5683707,36);(-5576251,36);
   (11831157,37);(-11565813,37);o;o;o;o;o;o;o;o;o;o;o;o;o;o;o;o;o;o;o;o;o;o;o;o;o;o;o;o;o;o;o;o;o;o;o;o;o;o;o;o;o;o;o;
   o;o;o;o;o;o;o;o;o;o;o;o;o;o;o;o;o;o;o;o;o];
  [o;o;o;o;o;o;o;o;o;o;o;o;o;(12394583,37);(12394583,37);(11568277,39);(11568277,39);(11568277,38);(11568277,38);
   (542263,33);(542263,33);(11568277,37);(11568277,37);(3184719,34);(3184719,34);(66169,28);(66169,28);(330307,30);
   (1375967,32);(12773055,35);(12670017,35);(14893855,35);(14893855,35);(8507329,34);(8507329,34);(9567729,34);
   (9567729,34);o;(5145727,40);(-13101795,41);(10345417,40);(-3065427,38);(3559537,38);(-16610743,40);(8539281,39);
   (-8366793,39);(7976875,39);(-10301651,40);(2157537,38);(7147891,43);(-5859399,41);(7121815,39);(-4044023,38);
   (14387287,39);(-7599639,38);(5472721,37);(-5615347,37);(14393041,38);(-14548391,38);(4286377,36);(-1072769,34);
   (598377,33);(-9516247,37);(10298957,37);(-5093091,36);(2719825,35);(-5356745,36);(5691335,36);(-697967,33);
   (5923505,36);(-90479,30);o;o;o;o;o;o;o;o;o;o;o;o;o;o;o;o;o;o;o;o;o;o;o;o;o;o;o;o;o;o;o;o;o;o;o;o;o;o;o;o;o;o;o;o;o;
   o;o;o;o;o;o;o;o;o;o;o;o;o;o;o;o;o;o;o];
  [o;o;o;o;o;o;o;o;o;o;o;o;o;(12394583,37);(12394583,37);(13220889,39);(13220889,39);(13220889,38);(13220889,38);
   (10791489,37);(10791489,37);(13323927,37);(13323927,37);(15251973,36);(15251973,36);(10199521,35);(10199521,35);
   (12773055,35);(12773055,35);(15395079,35);(7673295,34);(2249865,32);(2249865,32);(2575345,32);(2575345,32);
   (11603299,34);(11603299,34);o;(5499579,40);(-7016331,40);(11072389,40);(-6638279,39);(7718633,39);(-9098107,39);
   (9375311,39);(-9373969,39);(8980377,39);(-6155187,39);(5269751,39);(-8786847,45);(-7774531,42);(7480097,39);
   (-2139899,37);(16077933,39);(-8501671,38);(12521963,38);(-12851125,38);(2079055,35);(-8406557,37);(9948393,37);
   (-155619,31);(5563865,36);(-5530399,36);(5987947,36);(-11844939,37);(3162935,35);(-3114767,35);(13236679,37);
   (-6493283,36);(3444007,35);(-13467185,37);o;o;o;o;o;o;o;o;o;o;o;o;o;o;o;o;o;o;o;o;o;o;o;o;o;o;o;o;o;o;o;o;o;o;o;o;
   o;o;o;o;o;o;o;o;o;o;o;o;o;o;o;o;o;o;o;o;o;o;o;o;o;o;o;o];
  [o;o;o;o;o;o;o;o;o;o;o;o;o;(12394583,37);(12394583,37);(13220889,39);(13220889,39);(13220889,38);(13220889,38);
   (4957833,36);(4957833,36);(13220889,37);(13220889,37);(15148935,36);(15148935,36);(5061121,34);(5061121,34);
   (12670017,35);(12670017,35);(7673295,34);(1956963,32);(8960063,34);(8960063,34);(5123415,33);(5123415,33);
   (11533597,34);(11533597,34);o;(2712491,39);(-3460943,39);(2731065,38);(-13087199,40);(15215375,40);(-8963575,39);
   (4617775,38);(-576037,35);(4413147,38);(-12021563,40);(10271321,40);(-9943053,46);(-8121225,42);(3682759,38);
   (-1053263,36);(3937565,37);(-8329179,38);(12272225,38);(-12595457,38);(2041357,35);(-8254279,37);(1222815,34);
   (-4896809,36);(10951087,37);(-10885241,37);(5894913,36);(-1457615,34);(3114077,35);(-95833,30);(6516099,36);
   (-3196489,35);(6781509,36);(-6629481,36);o;o;o;o;o;o;o;o;o;o;o;o;o;o;o;o;o;o;o;o;o;o;o;o;o;o;o;o;o;o;o;o;o;o;o;o;o;
   o;o;o;o;o;o;o;o;o;o;o;o;o;o;o;o;o;o;o;o;o;o;o;o;o;o;o];
  [o;o;o;o;o;o;o;o;o;o;o;o;o;(12394583,37);(12394583,37);(14873499,39);(14873499,39);(14873499,38);(14873499,38);
   (12030947,37);(12030947,37);(14997145,37);(14997145,37);(4420659,34);(4420659,34);(11867587,35);(11867587,35);
   (14893855,35);(14893855,35);(2249865,32);(8960063,34);(10537217,34);(10537217,34);(6037487,33);(6037487,33);
   (3403183,32);(3403183,32);o;(11561569,41);(-7390397,40);(11656049,40);(-14110077,40);(8212061,39);(-9762673,39);
   (10078327,39);(-2558079,37);(9838399,39);(-14051587,40);(6100767,39);(-10762597,43);(-16375693,44);(3858967,38);
   (-8892711,39);(2181091,36);(-9235717,38);(13863985,38);(-7115849,37);(9299675,37);(-9401381,37);(11179131,37);
   (-11192093,37);(12529953,37);(-12454813,37);(13493927,37);(-6673275,36);(14257071,37);(-3510025,35);(3728923,35);
   (-7316989,36);(7761349,36);(-7587409,36);o;o;o;o;o;o;o;o;o;o;o;o;o;o;o;o;o;o;o;o;o;o;o;o;o;o;o;o;o;o;o;o;o;o;o;o;o;
   o;o;o;o;o;o;o;o;o;o;o;o;o;o;o;o;o;o;o;o;o;o;o;o;o;o;o];
  [o;o;o;o;o;o;o;o;o;o;o;o;o;(12394583,37);(12394583,37);(14873499,39);(14873499,39);(14873499,38);(14873499,38);
   (12030947,37);(12030947,37);(14997145,37);(14997145,37);(4420659,34);(4420659,34);(11867587,35);(11867587,35);
   (14893855,35);(14893855,35);(2249865,32);(8960063,34);(10537217,34);(10537217,34);(6037487,33);(6037487,33);
   (3403183,32);(3403183,32);o;(11561569,41);(-7390397,40);(11656049,40);(-14110077,40);(8212061,39);(-9762673,39);
   (10078327,39);(-2558079,37);(9838399,39);(-14051587,40);(6100767,39);(-10762597,43);(-16375693,44);(3858967,38);
   (-8892711,39);(2181091,36);(-9235717,38);(13863985,38);(-7115849,37);(9299675,37);(-9401381,37);(11179131,37);
   (-11192093,37);(12529953,37);(-12454813,37);(13493927,37);(-6673275,36);(14257071,37);(-3510025,35);(3728923,35);
   (-7316989,36);(7761349,36);(-7587409,36);o;o;o;o;o;o;o;o;o;o;o;o;o;o;o;o;o;o;o;o;o;o;o;o;o;o;o;o;o;o;o;o;o;o;o;o;o;
   o;o;o;o;o;o;o;o;o;o;o;o;o;o;o;o;o;o;o;o;o;o;o;o;o;o;o];
  [o;o;o;o;o;o;o;o;o;o;o;o;o;(12394583,37);(12394583,37);(8263055,38);(8263055,38);(8263055,37);(8263055,37);
   (6635203,36);(6635203,36);(16670363,37);(16670363,37);(10056651,35);(10056651,35);(13535653,35);(13535653,35);
   (8507329,34);(8507329,34);(2575345,32);(5123415,33);(6037487,33);(6037487,33);(13848569,34);(13848569,34);
   (15622165,34);(15622165,34);o;(3030995,39);(-15528929,41);(6119855,39);(-14943599,40);(4352743,38);(-1303405,36);
   (10781347,39);(-2772665,37);(10696425,39);(-493525,35);(13863571,40);(-9664239,42);(-6612949,46);(15911541,40);
   (-9225823,39);(2352441,36);(-2492441,36);(15206007,38);(-7806135,37);(1285391,34);(-10396207,37);(12409871,37);
   (-6212285,36);(13932175,37);(-13848831,37);(15011963,37);(-3712041,35);(3965601,35);(-3905283,35);(8297353,36);
   (-16281397,37);(4317343,35);(-8441223,36);o;o;o;o;o;o;o;o;o;o;o;o;o;o;o;o;o;o;o;o;o;o;o;o;o;o;o;o;o;o;o;o;o;o;o;o;
   o;o;o;o;o;o;o;o;o;o;o;o;o;o;o;o;o;o;o;o;o;o;o;o;o;o;o;o];
  [o;o;o;o;o;o;o;o;o;o;o;o;o;(12394583,37);(12394583,37);(8263055,38);(8263055,38);(8263055,37);(8263055,37);
   (6635203,36);(6635203,36);(16670363,37);(16670363,37);(10056651,35);(10056651,35);(13535653,35);(13535653,35);
   (8507329,34);(8507329,34);(2575345,32);(5123415,33);(6037487,33);(6037487,33);(13848569,34);(13848569,34);
   (15622165,34);(15622165,34);o;(3030995,39);(-15528929,41);(6119855,39);(-14943599,40);(4352743,38);(-1303405,36);
   (10781347,39);(-2772665,37);(10696425,39);(-493525,35);(13863571,40);(-9664239,42);(-6612949,46);(15911541,40);
   (-9225823,39);(2352441,36);(-2492441,36);(15206007,38);(-7806135,37);(1285391,34);(-10396207,37);(12409871,37);
   (-6212285,36);(13932175,37);(-13848831,37);(15011963,37);(-3712041,35);(3965601,35);(-3905283,35);(8297353,36);
   (-16281397,37);(4317343,35);(-8441223,36);o;o;o;o;o;o;o;o;o;o;o;o;o;o;o;o;o;o;o;o;o;o;o;o;o;o;o;o;o;o;o;o;o;o;o;o;
   o;o;o;o;o;o;o;o;o;o;o;o;o;o;o;o;o;o;o;o;o;o;o;o;o;o;o;o];
  [o;o;o;o;o;o;o;o;o;o;o;o;o;(12394583,37);(12394583,37);(9089361,38);(9089361,38);(9089361,37);(9089361,37);
   (14509865,37);(14509865,37);(9171791,36);(9171791,36);(11271983,35);(11271983,35);(15203721,35);(15203721,35);
   (9567729,34);(9567729,34);(11603299,34);(11533597,34);(3403183,32);(3403183,32);(15622165,34);(15622165,34);
   (4407899,32);(4407899,32);o;(1585799,38);(-8138531,40);(12823371,40);(-15777125,40);(2299729,37);(-5545903,38);
   (11484365,39);(-5974505,38);(11554449,39);(-8767007,39);(15525605,40);(-1743397,39);(13069233,44);(16387215,40);
   (-4779467,38);(10095163,38);(-10703815,38);(258563,32);(-1062053,34);(11266581,37);(-5695517,36);(13640607,37);
   (-6828523,36);(15334397,37);(-7621423,36);(8264999,36);(-8174889,36);(2183467,34);(-2150271,34);(2284215,34);
   (-4482203,35);(9508023,36);(-9295039,36);o;o;o;o;o;o;o;o;o;o;o;o;o;o;o;o;o;o;o;o;o;o;o;o;o;o;o;o;o;o;o;o;o;o;o;o;o;
   o;o;o;o;o;o;o;o;o;o;o;o;o;o;o;o;o;o;o;o;o;o;o;o;o;o;o];
  [o;o;o;o;o;o;o;o;o;o;o;o;o;(12394583,37);(12394583,37);(9089361,38);(9089361,38);(9089361,37);(9089361,37);
   (14509865,37);(14509865,37);(9171791,36);(9171791,36);(11271983,35);(11271983,35);(15203721,35);(15203721,35);
   (9567729,34);(9567729,34);(11603299,34);(11533597,34);(3403183,32);(3403183,32);(15622165,34);(15622165,34);
   (4407899,32);(4407899,32);o;(1585799,38);(-8138531,40);(12823371,40);(-15777125,40);(2299729,37);(-5545903,38);
   (11484365,39);(-5974505,38);(11554449,39);(-8767007,39);(15525605,40);(-1743397,39);(13069233,44);(16387215,40);
   (-4779467,38);(10095163,38);(-10703815,38);(258563,32);(-1062053,34);(11266581,37);(-5695517,36);(13640607,37);
   (-6828523,36);(15334397,37);(-7621423,36);(8264999,36);(-8174889,36);(2183467,34);(-2150271,34);(2284215,34);
   (-4482203,35);(9508023,36);(-9295039,36);o;o;o;o;o;o;o;o;o;o;o;o;o;o;o;o;o;o;o;o;o;o;o;o;o;o;o;o;o;o;o;o;o;o;o;o;o;
   o;o;o;o;o;o;o;o;o;o;o;o;o;o;o;o;o;o;o;o;o;o;o;o;o;o;o];
  [o;o;o;o;o;o;o;o;o;o;o;o;o;o;o;o;o;o;o;o;o;o;o;o;o;o;o;o;o;o;o;o;o;o;o;o;o;(13743895,37);o;o;o;o;o;o;o;o;o;o;o;o;o;
   o;o;o;o;o;o;o;o;o;o;o;o;o;o;o;o;o;o;o;o;o;o;o;o;o;o;o;o;o;o;o;o;o;o;o;o;o;o;o;o;o;o;o;o;o;o;o;o;o;o;o;o;o;o;o;o;o;
   o;o;o;o;o;o;o;o;o;o;o;o;o;o;o;o;o;o;o;o;o;o;o;o;o;o;o];
  [(-7657235,31);o;(-16024217,38);o;(376173,40);(8627345,42);(689335,38);(68417,34);(15537235,42);(16012079,42);
   (15880467,42);(13519955,42);(3968513,40);(1382319,39);(3626541,40);(4503955,41);(1557147,39);(12001647,43);
   (8694047,42);(12033253,44);(10209233,43);(12375705,46);(10125735,44);(1145033,38);(4603311,40);(2427753,39);
   (4871305,40);(10274029,41);(5145727,40);(5499579,40);(2712491,39);(11561569,41);(11561569,41);(3030995,39);
   (3030995,39);(1585799,38);(1585799,38);o;(8978821,39);(-9422389,39);(4312101,37);(-16265059,39);(10216455,38);
   (-7954867,38);(4244719,37);(-2424795,37);(9367317,39);(-7207793,42);(74875,37);(16766241,40);(-8758523,39);
   (2161337,36);(-4308247,37);(12762979,38);(-6257717,37);(8242437,37);(-16015201,38);(9868117,37);(-9537317,37);
   (5621323,36);(-5411337,36);(6193569,36);(-11882303,37);(13328363,37);(-12753683,37);(7063301,36);(-13483615,37);
   (14813065,37);(-7053117,36);(15425881,37);(-14653927,37);o;o;o;o;o;o;o;o;o;o;o;o;o;o;o;o;o;o;o;o;o;o;o;o;o;o;o;o;o;
   o;o;o;o;o;o;o;o;o;o;o;o;o;o;o;o;o;o;o;o;o;o;o;o;o;o;o;o;o;o;o;o;o;o;o];
  [(4833953,30);o;(-4673369,36);o;(-12303425,45);(-11871279,42);(-14000559,42);(-2833539,39);(-2648751,39);
   (-9789521,41);(-1369359,38);(-15598953,42);(-1365397,38);(-12170487,42);(-10091005,41);(-1176523,39);(-1076251,38);
   (-1534895,40);(-12128675,42);(-6230279,43);(-7236965,42);(-7073169,45);(-14863523,44);(-11597731,41);
   (-11662407,41);(-6166157,40);(-12373139,41);(-13080325,41);(-13101795,41);(-7016331,40);(-3460943,39);
   (-7390397,40);(-7390397,40);(-15528929,41);(-15528929,41);(-8138531,40);(-8138531,40);o;(-9422389,39);(6943081,38);
   (-9954335,38);(11275241,38);(-11967763,38);(11039019,38);(-9767097,38);(7096597,38);(-4938005,38);(12228473,41);
   (12786443,42);(-4336347,38);(13039651,39);(-2490275,36);(5935065,37);(-1895625,35);(4199339,36);(-9937059,37);
   (10612795,37);(-374853,32);(12549667,37);(-6867861,36);(14177289,37);(-15184519,37);(15518717,37);(-8187817,36);
   (16621465,37);(-8692791,36);(548281,32);(-2281753,34);(2291583,34);(-9514645,36);(9512771,36);o;o;o;o;o;o;o;o;o;o;
   o;o;o;o;o;o;o;o;o;o;o;o;o;o;o;o;o;o;o;o;o;o;o;o;o;o;o;o;o;o;o;o;o;o;o;o;o;o;o;o;o;o;o;o;o;o;o;o;o;o;o;o;o;o];
  [(-962755,27);o;(-14758547,38);o;(4737263,43);(9476821,41);(5633571,40);(9134305,40);(8566207,40);(982973,37);
   (8826077,40);(12416889,41);(2191997,38);(9554871,41);(8065519,40);(7325909,41);(13742167,41);(9454925,42);
   (9649339,41);(2367001,41);(11474729,42);(10254413,45);(2931883,41);(9171173,40);(4611511,39);(9744569,40);
   (9777127,40);(10328347,40);(10345417,40);(11072389,40);(2731065,38);(11656049,40);(11656049,40);(6119855,39);
   (6119855,39);(12823371,40);(12823371,40);o;(4312101,37);(-9954335,38);(8491687,37);(-2107397,35);(315487,32);
   (-16477393,38);(8338569,37);(-10188011,38);(8974647,38);(-10504313,41);(-2705811,42);(16058849,39);(-4640535,37);
   (8493307,37);(-8900299,37);(1579597,34);(-3205825,35);(8193411,36);(-16349591,37);(614543,32);(-4858701,35);
   (5609485,35);(-11013835,36);(6186505,35);(-3020589,34);(6660899,35);(-6480379,35);(7063133,35);(-13696389,36);
   (14818007,36);(-3580949,34);(7717761,35);(-14875687,36);o;o;o;o;o;o;o;o;o;o;o;o;o;o;o;o;o;o;o;o;o;o;o;o;o;o;o;o;o;
   o;o;o;o;o;o;o;o;o;o;o;o;o;o;o;o;o;o;o;o;o;o;o;o;o;o;o;o;o;o;o;o;o;o;o];
  [(8074779,30);o;(-4920335,36);o;(-12856301,44);(-9965175,41);(-10274355,41);(-2136255,38);(-1969819,38);
   (-14247025,41);(-4315137,39);(-3075885,39);(-8773917,40);(-5629385,40);(-8453831,40);(-9102379,41);(-14421925,41);
   (-12911265,42);(-10736153,41);(-932723,39);(-13891909,42);(-3209241,42);(-15967425,43);(-10597589,40);
   (-10654141,40);(-11413137,40);(-5724639,39);(-12242607,40);(-3065427,38);(-6638279,39);(-13087199,40);
   (-14110077,40);(-14110077,40);(-14943599,40);(-14943599,40);(-15777125,40);(-15777125,40);o;(-16265059,39);
   (11275241,38);(-2107397,35);(1156465,34);(-10116153,37);(9078993,37);(-2077571,35);(11637811,38);(-4310201,37);
   (2358589,38);(15168465,42);(-14942991,39);(5271839,37);(-8466221,37);(4887365,36);(-3211963,35);(1740697,34);
   (-525351,32);(2206727,34);(-10136111,36);(10455641,36);(-5798871,35);(1477829,33);(-12813387,36);(12948191,36);
   (-13812363,36);(13873025,36);(-3664831,34);(7323741,35);(-15387703,36);(15308099,36);(-16038039,36);(7944657,35);o;
   o;o;o;o;o;o;o;o;o;o;o;o;o;o;o;o;o;o;o;o;o;o;o;o;o;o;o;o;o;o;o;o;o;o;o;o;o;o;o;o;o;o;o;o;o;o;o;o;o;o;o;o;o;o;o;o;o;
   o;o;o;o;o;o];
  [(-2308275,28);o;(-3580513,36);o;(15058071,44);(11445823,41);(11484127,41);(9630933,40);(4441655,39);(7928225,40);
   (2460059,38);(108181,34);(5014351,39);(12973045,41);(9711883,40);(10559099,41);(517549,36);(7568183,41);
   (12417653,41);(8871231,42);(16223869,42);(15756009,44);(4716353,41);(12269345,40);(1541813,37);(13234587,40);
   (6638099,39);(14216183,40);(3559537,38);(7718633,39);(15215375,40);(8212061,39);(8212061,39);(4352743,38);
   (4352743,38);(2299729,37);(2299729,37);o;(10216455,38);(-5983881,37);(315487,32);(-10116153,37);(6012525,36);
   (-2480583,35);(2491199,35);(-3099679,36);(10791391,38);(-3582227,39);(-73981,37);(9455133,38);(-5563569,37);
   (5071111,36);(-1339779,34);(15158385,37);(-15470529,37);(9847725,36);(-9869307,36);(2957099,34);(-2933387,34);
   (13501057,36);(-3324479,34);(14892043,36);(-3646455,34);(8017519,35);(-15643979,36);(8502049,35);(-16530077,36);
   (4459375,34);(-2160743,33);(9290813,35);(-8975489,35);o;o;o;o;o;o;o;o;o;o;o;o;o;o;o;o;o;o;o;o;o;o;o;o;o;o;o;o;o;o;
   o;o;o;o;o;o;o;o;o;o;o;o;o;o;o;o;o;o;o;o;o;o;o;o;o;o;o;o;o;o;o;o;o;o];
  [(15998373,31);o;(-9748993,37);o;(-1233621,40);(-11562783,41);(-12999021,42);(-3456789,40);(-11061455,42);
   (-2131735,39);(-2688027,39);(-6509135,40);(-15891189,41);(-15639615,41);(-4840975,39);(-13126801,41);(-4335169,39);
   (-9911527,41);(-6890379,40);(-3126703,40);(-4697637,40);(-13254765,43);(-11534727,42);(-3493711,38);(-14033985,40);
   (-15272897,40);(-3827709,38);(-16590699,40);(-16610743,40);(-9098107,39);(-8963575,39);(-9762673,39);(-9762673,39);
   (-1303405,36);(-1303405,36);(-5545903,38);(-5545903,38);o;(-7954867,38);(11039019,38);(-16477393,38);(9078993,37);
   (-2480583,35);(9015169,37);(-8273563,37);(5906699,37);(-4432273,37);(10590137,40);(9881609,42);(-14501975,39);
   (5153623,37);(-8420687,37);(2431973,35);(-6428137,36);(13934927,37);(-2106793,34);(69133,29);(-10167969,36);
   (10487841,36);(-2908823,34);(11860235,36);(-12853861,36);(3247111,34);(-6927271,35);(13914763,36);(-14702973,36);
   (1836311,33);(-15432897,36);(3838115,34);(-8042437,35);(3983781,34);o;o;o;o;o;o;o;o;o;o;o;o;o;o;o;o;o;o;o;o;o;o;o;
   o;o;o;o;o;o;o;o;o;o;o;o;o;o;o;o;o;o;o;o;o;o;o;o;o;o;o;o;o;o;o;o;o;o;o;o;o;o;o;o;o];
  [(-15422133,31);o;(-3745111,36);o;(10337171,43);(5774477,40);(10695291,42);(8738261,42);(12195781,43);(13606013,42);
   (2245983,39);(12606129,41);(7507369,40);(16064093,41);(4824679,39);(13585489,41);(4357557,39);(1298061,38);
   (7022547,40);(13306447,42);(4844099,40);(1814551,40);(3013381,40);(1786627,37);(14350957,40);(15665733,40);
   (3925721,38);(1066185,36);(8539281,39);(9375311,39);(4617775,38);(10078327,39);(10078327,39);(10781347,39);
   (10781347,39);(11484365,39);(11484365,39);o;(4244719,37);(-9767097,38);(8338569,37);(-2077571,35);(2491199,35);
   (-16547125,38);(525483,33);(-10610573,38);(9466153,38);(-3563383,39);(10415203,43);(15595543,39);(-9058125,38);
   (133555,31);(-8965813,37);(12846697,37);(-13044693,37);(16718747,37);(-16689771,37);(10044139,36);(-620691,32);
   (5731731,35);(-5629289,35);(12641699,36);(-1543679,33);(6804537,35);(-3311225,34);(14429271,36);(-6997395,35);
   (3783743,34);(-14634783,36);(15765379,36);(-15198163,36);o;o;o;o;o;o;o;o;o;o;o;o;o;o;o;o;o;o;o;o;o;o;o;o;o;o;o;o;o;
   o;o;o;o;o;o;o;o;o;o;o;o;o;o;o;o;o;o;o;o;o;o;o;o;o;o;o;o;o;o;o;o;o;o;o];
  [(10345437,31);o;(-4615881,36);o;(-11709361,43);(-4761311,40);(3557013,42);(835133,38);(6999309,41);(10537041,43);
   (2940803,42);(-1431567,39);(-11267541,42);(-14100933,41);(-7166267,40);(-6760389,40);(-14861897,41);(-2964339,39);
   (-13861655,41);(-265609,36);(-10437287,41);(-10664887,42);(-3504877,40);(-6675831,39);(-13393755,40);(-7511805,39);
   (-3762757,38);(-2089881,37);(-8366793,39);(-9373969,39);(-576037,35);(-2558079,37);(-2558079,37);(-2772665,37);
   (-2772665,37);(-5974505,38);(-5974505,38);o;(-2424795,37);(7096597,38);(-10188011,38);(11637811,38);(-3099679,36);
   (5906699,37);(-2652643,36);(8138585,38);(-5995927,38);(9280607,40);(995209,42);(-8513685,39);(3268865,37);
   (-10773319,38);(6392307,37);(-2101977,35);(9266991,37);(-11112889,37);(11817561,37);(-6725285,36);(438125,32);
   (-15409013,37);(3963047,35);(-8514387,36);(271121,31);(-4589093,35);(9290219,36);(-9740907,36);(4902303,35);
   (-10225383,36);(10243911,36);(-5329245,35);(10630943,36);o;o;o;o;o;o;o;o;o;o;o;o;o;o;o;o;o;o;o;o;o;o;o;o;o;o;o;o;o;
   o;o;o;o;o;o;o;o;o;o;o;o;o;o;o;o;o;o;o;o;o;o;o;o;o;o;o;o;o;o;o;o;o;o;o];
  [(-4220501,30);o;(-16212833,38);o;(5761969,42);(8566821,41);(-7307353,42);(-9892137,41);(-9983675,41);
   (-10459969,42);(-137115,36);(1973029,40);(12284927,43);(13193037,41);(1567635,38);(12974085,41);(13547147,41);
   (5841099,40);(6570351,40);(8552947,41);(10115981,41);(11016887,42);(13849187,42);(6288505,39);(12613047,40);
   (14247621,40);(14271181,40);(15941259,40);(7976875,39);(8980377,39);(4413147,38);(9838399,39);(9838399,39);
   (10696425,39);(10696425,39);(11554449,39);(11554449,39);o;(9367317,39);(-4938005,38);(8974647,38);(-4310201,37);
   (10791391,38);(-4432273,37);(9466153,38);(-5995927,38);(5833061,38);(-10269613,41);(14583231,42);(16612339,40);
   (-8910327,39);(1198565,35);(-2419113,36);(7315973,37);(-14481453,38);(9567269,37);(-9365067,37);(11506819,37);
   (-5596499,36);(13127599,37);(-6354723,36);(1808215,34);(-6974113,36);(15561547,37);(-14962327,37);(16490455,37);
   (-15811365,37);(8645233,36);(-4134183,35);(4501481,35);(-2147007,34);o;o;o;o;o;o;o;o;o;o;o;o;o;o;o;o;o;o;o;o;o;o;o;
   o;o;o;o;o;o;o;o;o;o;o;o;o;o;o;o;o;o;o;o;o;o;o;o;o;o;o;o;o;o;o;o;o;o;o;o;o;o;o;o;o];
  [(8359331,33);o;(-8597191,37);o;(-4597061,42);(-2950029,41);(119745,35);(11563293,41);(10667731,41);(1165409,38);
   (4794391,40);(11921873,42);(3682013,40);(-14365691,43);(-6692701,43);(-12066547,42);(-2256483,40);(-4674315,40);
   (-8873747,41);(-9024453,41);(-4580889,40);(-3506849,40);(-14950779,42);(-13799819,41);(-6915545,40);(-8585795,40);
   (-8597245,40);(-5147631,39);(-10301651,40);(-6155187,39);(-12021563,40);(-14051587,40);(-14051587,40);(-493525,35);
   (-493525,35);(-8767007,39);(-8767007,39);o;(-450487,38);(1528559,38);(-1313039,38);(9434357,40);(-14328909,41);
   (10590137,40);(-3563383,39);(9280607,40);(-5134807,40);(5572077,40);(-4431697,42);(-16669059,47);(2337001,39);
   (-13777717,41);(11317725,40);(-3392865,38);(8897889,39);(-9742479,39);(11721477,39);(-1523439,36);(14040537,39);
   (-14142887,39);(7937533,38);(-15706813,39);(4330865,37);(-8483593,38);(9244417,38);(-2253937,36);(2432565,36);
   (-9475333,38);(10146583,38);(-2472035,36);(2628819,36);o;o;o;o;o;o;o;o;o;o;o;o;o;o;o;o;o;o;o;o;o;o;o;o;o;o;o;o;o;o;
   o;o;o;o;o;o;o;o;o;o;o;o;o;o;o;o;o;o;o;o;o;o;o;o;o;o;o;o;o;o;o;o;o;o];
  [(762471,34);o;(-8750717,37);o;(16749965,44);(743411,40);(-2276273,39);(-6773685,40);(-12431005,41);(-11210995,41);
   (-11860091,41);(-16082343,42);(-4911,30);(13873839,44);(-14786693,45);(4604703,41);(2333833,41);(8529779,41);
   (14903793,42);(2172703,39);(8387697,41);(13956277,42);(7123159,41);(2694277,39);(674605,37);(3498143,39);
   (7003095,40);(4313097,39);(2157537,38);(5269751,39);(10271321,40);(6100767,39);(6100767,39);(13863571,40);
   (13863571,40);(15525605,40);(15525605,40);o;(4792001,43);(12786443,42);(-2705811,42);(15168471,42);(-1183695,41);
   (1235201,39);(10415201,43);(497605,41);(14583229,42);(-553963,39);(4844563,40);(-12209783,44);(8585891,41);
   (14035721,44);(10075391,42);(2848121,40);(16030401,45);(9014251,41);(-9174339,43);(11353835,41);(-9139061,42);
   (6438981,40);(-752395,38);(13888353,41);(-6956513,41);(14615911,41);(-7624295,41);(15214339,41);(-16330753,42);
   (15744189,41);(-4320923,40);(16237155,41);(-9080451,41);o;o;o;o;o;o;o;o;o;o;o;o;o;o;o;o;o;o;o;o;o;o;o;o;o;o;o;o;o;
   o;o;o;o;o;o;o;o;o;o;o;o;o;o;o;o;o;o;o;o;o;o;o;o;o;o;o;o;o;o;o;o;o;o;o];
  [(-13695729,32);o;(-8001835,37);o;(-2866849,45);(6408727,41);(8239197,41);(9526487,41);(16544365,42);(9782085,41);
   (11435633,41);(6393947,40);(3750867,39);(531679,37);(5503,30);(14818259,42);(10574257,41);(-8855207,46);
   (4656347,42);(-10568279,42);(-3596433,41);(-13172213,42);(-11380317,42);(2946845,40);(2961475,40);(7702821,42);
   (7729825,42);(55671,36);(7147891,43);(-8786847,45);(-9943053,46);(-10762597,43);(-10762597,43);(-9664239,42);
   (-9664239,42);(-1743397,39);(-1743397,39);o;(16766241,40);(-4336347,38);(16058849,39);(-7471495,38);(9455133,38);
   (-14501975,39);(15595543,39);(-8513685,39);(16612339,40);(-16669059,47);(-3052445,42);(2133443,37);(-8739291,39);
   (8116033,38);(-4001385,37);(5731839,37);(-5570837,37);(7215455,37);(-13908349,38);(1066455,34);(-16373125,38);
   (604569,33);(-9251397,37);(10642559,37);(-5074105,36);(11448561,37);(-340451,32);(1516869,34);(-5761151,36);
   (1590663,34);(-753621,33);(6625819,36);(-3132111,35);o;o;o;o;o;o;o;o;o;o;o;o;o;o;o;o;o;o;o;o;o;o;o;o;o;o;o;o;o;o;o;
   o;o;o;o;o;o;o;o;o;o;o;o;o;o;o;o;o;o;o;o;o;o;o;o;o;o;o;o;o;o;o;o;o];
  [(4422027,30);o;(-9322061,37);o;(-8690371,47);(-7942491,41);(-9001395,41);(-1301955,38);(-4514809,40);(-337117,36);
   (-6387555,40);(-14316093,41);(-2120971,38);(-1305199,38);(-13721965,41);(-4585231,40);(-12908117,41);(-4038391,43);
   (-16526527,43);(4555127,41);(9861465,43);(3135329,40);(5073695,41);(-2341751,39);(-9410405,41);(-15239293,42);
   (-15284179,42);(-11698453,42);(-5859399,41);(-7774531,42);(-8121225,42);(-16375693,44);(-16375693,44);
   (-6612949,46);(-6612949,46);(13069233,44);(13069233,44);o;(-8758523,39);(13039651,39);(-4640535,37);(10543677,38);
   (-11127137,38);(5153623,37);(-9058125,38);(3268865,37);(-8910327,39);(2337001,39);(8585891,41);(-8739291,39);
   (12929667,39);(-9417451,38);(5620687,37);(-13869995,38);(15427973,38);(-8915289,37);(4782321,36);(-10663821,37);
   (2800983,35);(-6085025,36);(788117,33);(-420087,32);(1723431,34);(-1812255,34);(3691099,35);(-15395847,37);
   (15585565,37);(-8084053,36);(8143087,36);(-8428457,36);(8450943,36);o;o;o;o;o;o;o;o;o;o;o;o;o;o;o;o;o;o;o;o;o;o;o;
   o;o;o;o;o;o;o;o;o;o;o;o;o;o;o;o;o;o;o;o;o;o;o;o;o;o;o;o;o;o;o;o;o;o;o;o;o;o;o;o;o];
  [(-7805357,30);o;(-3734045,36);o;(2895937,41);(14658809,41);(5775755,41);(2811511,40);(9084949,42);(14885203,42);
   (9959081,41);(3374739,39);(16425321,41);(3962169,39);(9649837,40);(9271371,40);(11352777,40);(6263749,40);
   (1043007,37);(16448359,43);(7402875,41);(-1739559,41);(575189,41);(13248707,40);(6493,29);(6866335,39);
   (6880369,39);(14230067,40);(7121815,39);(7480097,39);(3682759,38);(3858967,38);(3858967,38);(15911541,40);
   (15911541,40);(16387215,40);(16387215,40);o;(2161337,36);(-2490275,36);(8493307,37);(-8466221,37);(5071111,36);
   (-8420687,37);(133555,31);(-5386659,37);(1198565,35);(-13777717,41);(14035723,44);(8116033,38);(-9417451,38);
   (8785071,37);(-4608415,36);(13068719,37);(-13272995,37);(8431159,36);(-4208759,35);(10075929,36);(-4981407,35);
   (358443,31);(-11265115,36);(6318737,35);(-12345101,36);(6800883,35);(-13237565,36);(7210927,35);(-13987395,36);
   (15127991,36);(-914241,32);(7879313,35);(-7595745,35);o;o;o;o;o;o;o;o;o;o;o;o;o;o;o;o;o;o;o;o;o;o;o;o;o;o;o;o;o;o;
   o;o;o;o;o;o;o;o;o;o;o;o;o;o;o;o;o;o;o;o;o;o;o;o;o;o;o;o;o;o;o;o;o;o];
  [(1075645,27);o;(-9821959,37);o;(-12898959,43);(-15896443,41);(-6074419,41);(-5931803,41);(-4790423,41);
   (-15770307,42);(-10641027,41);(-14361805,41);(-4396131,39);(-8667573,40);(-2641833,38);(-9999527,40);
   (-12278973,40);(-13862133,41);(-4601999,39);(-5071483,41);(-4340445,40);(4689641,43);(-11157519,44);(-462659,35);
   (-3715035,38);(-1934329,37);(-7753299,39);(-4040121,38);(-4044023,38);(-2139899,37);(-1053263,36);(-8892711,39);
   (-8892711,39);(-9225823,39);(-9225823,39);(-4779467,38);(-4779467,38);o;(-4308247,37);(5935065,37);(-8900299,37);
   (4887365,36);(-1339779,34);(2431973,35);(-8965813,37);(6392307,37);(-2419113,36);(11317725,40);(39357,34);
   (-16005539,39);(5620687,37);(-4608415,36);(10595691,37);(-13954265,37);(15082965,37);(-9077845,36);(9514617,36);
   (-1362417,33);(1403293,33);(-6221003,35);(3166869,34);(-13732339,36);(13861369,36);(-7398805,35);(14847297,36);
   (-7851659,35);(15675403,36);(-2060393,33);(511959,31);(-8589809,35);(8502581,35);o;o;o;o;o;o;o;o;o;o;o;o;o;o;o;o;o;
   o;o;o;o;o;o;o;o;o;o;o;o;o;o;o;o;o;o;o;o;o;o;o;o;o;o;o;o;o;o;o;o;o;o;o;o;o;o;o;o;o;o;o;o;o;o;o];
  [(-11905803,30);o;(-13951501,38);o;(11448031,42);(9691731,40);(6143331,42);(5170573,42);(13496131,44);(5136777,41);
   (16262365,42);(11869065,41);(15370035,41);(10406843,40);(1557635,37);(2935331,38);(14185385,40);(5759409,39);
   (14095913,40);(8243397,40);(10552483,40);(8108721,41);(2979285,39);(11679529,39);(5862291,38);(13012299,39);
   (13039869,39);(14373459,39);(14387287,39);(16077933,39);(3937565,37);(2181091,36);(2181091,36);(2352441,36);
   (2352441,36);(10095163,38);(10095163,38);o;(12762979,38);(-1895625,35);(1579597,34);(-3211963,35);(15158385,37);
   (-6428137,36);(12846697,37);(-2101977,35);(7315973,37);(-13571461,40);(11392487,42);(5731839,37);(-3467499,36);
   (13068719,37);(-13954265,37);(1242493,33);(-10213751,36);(3245209,34);(-3269555,34);(15599931,36);(-15543553,36);
   (8897777,35);(-8798075,35);(9809409,35);(-9641713,35);(10559487,35);(-645991,31);(5598323,34);(-10918325,35);
   (11745425,35);(-5707993,34);(3058965,33);(-2963569,33);o;o;o;o;o;o;o;o;o;o;o;o;o;o;o;o;o;o;o;o;o;o;o;o;o;o;o;o;o;o;
   o;o;o;o;o;o;o;o;o;o;o;o;o;o;o;o;o;o;o;o;o;o;o;o;o;o;o;o;o;o;o;o;o;o];
  [(3124909,28);o;(-10283685,37);o;(-5992451,41);(-5055645,39);(-1578019,40);(-5328703,42);(-13917651,44);
   (-10626731,42);(-8465081,41);(-1538061,38);(-1000021,37);(-2733547,38);(-13103709,40);(-12221303,40);(-3699155,38);
   (-12049785,40);(-14758741,40);(-4357023,39);(-11139019,40);(-2200701,39);(-12808085,41);(-6150249,38);
   (-1543505,36);(-6863819,38);(-13756841,39);(-7592289,38);(-7599639,38);(-8501671,38);(-8329179,38);(-9235717,38);
   (-9235717,38);(-2492441,36);(-2492441,36);(-10703815,38);(-10703815,38);o;(-6257717,37);(4199339,36);(-3205825,35);
   (1740697,34);(-15470529,37);(13934927,37);(-13044693,37);(9266991,37);(-14481453,38);(8897889,39);(16030399,45);
   (-5570837,37);(15427973,38);(-3318249,35);(15082965,37);(-10213751,36);(10941465,36);(-13409721,36);(13952263,36);
   (-8081499,35);(16544093,36);(-2308849,33);(9350835,35);(-10193319,35);(10237339,35);(-5490645,34);(10966555,35);
   (-5825273,34);(11578365,35);(-12226943,35);(6050535,34);(-12742063,35);(12561419,35);o;o;o;o;o;o;o;o;o;o;o;o;o;o;o;
   o;o;o;o;o;o;o;o;o;o;o;o;o;o;o;o;o;o;o;o;o;o;o;o;o;o;o;o;o;o;o;o;o;o;o;o;o;o;o;o;o;o;o;o;o;o;o;o;o];
  [(-1952689,27);o;(-13029901,38);o;(7568235,41);(2692955,38);(4711691,43);(6563207,44);(-10057361,50);(14737989,43);
   (14271899,42);(10409109,41);(1826119,38);(13574505,40);(16078925,40);(6218379,39);(7681351,39);(14568679,40);
   (4408413,38);(3417147,38);(16497327,40);(1280559,37);(6414155,39);(519847,34);(8350639,38);(600865,34);
   (9635325,38);(5339,27);(5472721,37);(12521963,38);(12272225,38);(13863985,38);(13863985,38);(15206007,38);
   (15206007,38);(258563,32);(258563,32);o;(8242437,37);(-9937059,37);(8193411,36);(-525351,32);(9847725,36);
   (-2106793,34);(16718747,37);(-11112889,37);(2391817,35);(-9742479,39);(9014253,41);(7215455,37);(-8915289,37);
   (1053895,33);(-9077845,36);(3245209,34);(-13409721,36);(4272807,34);(-8644849,35);(5159081,34);(-5157995,34);
   (11794973,35);(-11697931,35);(6506313,34);(-6412617,34);(14010017,35);(-13748295,35);(1856961,32);(-14521313,35);
   (15583889,35);(-7590807,34);(16234903,35);(-1970421,32);o;o;o;o;o;o;o;o;o;o;o;o;o;o;o;o;o;o;o;o;o;o;o;o;o;o;o;o;o;
   o;o;o;o;o;o;o;o;o;o;o;o;o;o;o;o;o;o;o;o;o;o;o;o;o;o;o;o;o;o;o;o;o;o;o];
  [(16001683,30);o;(-10715207,37);o;(-1934383,39);(-11009895,40);(-2371611,42);(-13210523,45);(6236981,49);
   (-3745859,41);(-3646015,40);(-1325815,38);(-14925513,41);(-13917893,40);(-2061671,37);(-3175063,38);(-15706441,40);
   (-7449391,39);(-9022253,39);(-7004035,39);(-4227403,38);(-10540453,40);(-13189361,40);(-2131829,36);(-8561269,38);
   (-4930475,37);(-9883027,38);(-11219199,38);(-5615347,37);(-12851125,38);(-12595457,38);(-7115849,37);(-7115849,37);
   (-7806135,37);(-7806135,37);(-1062053,34);(-1062053,34);o;(-16015201,38);(5306397,36);(-16349591,37);(2206727,34);
   (-9869307,36);(69133,29);(-16689771,37);(5908781,36);(-9365067,37);(11721477,39);(-9174343,43);(-13908349,38);
   (4782321,36);(-4208759,35);(9514617,36);(-3269555,34);(1744033,33);(-540303,31);(8963871,35);(-10461237,35);
   (5338193,34);(-11974607,35);(12092569,35);(-6611151,34);(13247703,35);(-14244197,35);(7096723,34);(-7555291,34);
   (14985399,35);(-15856595,35);(15661855,35);(-8261767,34);(8128919,34);o;o;o;o;o;o;o;o;o;o;o;o;o;o;o;o;o;o;o;o;o;o;
   o;o;o;o;o;o;o;o;o;o;o;o;o;o;o;o;o;o;o;o;o;o;o;o;o;o;o;o;o;o;o;o;o;o;o;o;o;o;o;o;o;o];
  [(-2357607,27);o;(-12196741,38);o;(8588417,41);(11432921,40);(13027681,48);(-1475587,45);(-961879,41);(11965709,43);
   (13832813,42);(9844411,41);(14748481,41);(8738235,39);(5106645,38);(813755,36);(8211209,39);(16524869,40);
   (5006859,38);(4357553,38);(2588165,37);(7810781,39);(9353341,39);(5274437,37);(10591903,38);(3112491,36);
   (12479529,38);(14376991,38);(14393041,38);(2079055,35);(2041357,35);(9299675,37);(9299675,37);(1285391,34);
   (1285391,34);(11266581,37);(11266581,37);o;(9868117,37);(-374853,32);(9832689,36);(-10136111,36);(2957099,34);
   (-10167969,36);(10044139,36);(-13450571,37);(2876705,35);(-12187511,39);(11353835,41);(1066455,34);(-2665955,35);
   (10075929,36);(-1362417,33);(15599931,36);(-8081499,35);(10318163,35);(-10461237,35);(3125379,33);(-12522027,35);
   (3579697,33);(-14224113,35);(15809831,35);(-975329,31);(4256435,33);(-4182685,33);(4513549,33);(-8835417,34);
   (4734795,33);(-9236625,34);(9865215,34);(-9590141,34);o;o;o;o;o;o;o;o;o;o;o;o;o;o;o;o;o;o;o;o;o;o;o;o;o;o;o;o;o;o;
   o;o;o;o;o;o;o;o;o;o;o;o;o;o;o;o;o;o;o;o;o;o;o;o;o;o;o;o;o;o;o;o;o;o];
  [(4763613,28);o;(-11106963,37);o;(-8668749,41);(-11540859,40);(-11761867,48);(6573429,47);(7791971,44);(-751431,39);
   (-3489593,40);(-1239569,38);(-930149,37);(-8829457,39);(-5161477,38);(-13136785,40);(-4145037,38);(-8342053,39);
   (-2528431,37);(-8804787,39);(-10460849,39);(-7898283,39);(-9457665,39);(-10659669,38);(-167237,32);(-6291425,37);
   (-12612755,38);(-14532145,38);(-14548391,38);(-8406557,37);(-8254279,37);(-9401381,37);(-9401381,37);
   (-10396207,37);(-10396207,37);(-5695517,36);(-5695517,36);o;(-9537317,37);(6274833,36);(-4858701,35);(10455641,36);
   (-11733547,36);(10487841,36);(-620691,32);(438125,32);(-5596499,36);(7020269,38);(-9139059,42);(-16373125,38);
   (2800983,35);(-4981407,35);(11226343,36);(-15543553,36);(4136023,34);(-5157995,34);(5338193,34);(-3130507,33);
   (12758605,35);(-7179119,34);(3619611,33);(-15864801,35);(7936991,34);(-267083,29);(8505565,34);(-9066195,34);
   (4490233,33);(-9513249,34);(9385811,34);(-9912951,34);(9742969,34);o;o;o;o;o;o;o;o;o;o;o;o;o;o;o;o;o;o;o;o;o;o;o;o;
   o;o;o;o;o;o;o;o;o;o;o;o;o;o;o;o;o;o;o;o;o;o;o;o;o;o;o;o;o;o;o;o;o;o;o;o;o;o;o;o];
  [(-10798203,29);o;(-5738483,37);o;(1155939,38);(1515641,37);(-7159297,45);(-2239817,43);(-5946147,43);(2753309,41);
   (3573609,40);(2494059,39);(3881155,39);(2620561,37);(12154267,39);(6945807,39);(8858099,39);(9088073,39);
   (1378877,36);(9992073,39);(11806935,39);(4801875,38);(11328633,39);(12328381,38);(96707,31);(7357883,37);
   (3688111,36);(8562253,37);(4286377,36);(9948393,37);(1222815,34);(11179131,37);(11179131,37);(12409871,37);
   (12409871,37);(13640607,37);(13640607,37);o;(5621323,36);(-6867861,36);(5609485,35);(-5798871,35);(13501057,36);
   (-2908823,34);(11463461,36);(-15409013,37);(13127599,37);(-14142887,39);(3219491,39);(604569,33);(-6085025,36);
   (11470175,36);(-6221003,35);(8897777,35);(-2308849,33);(5897487,34);(-11974607,35);(3579697,33);(-7179119,34);
   (16424083,35);(-16331413,35);(9074281,34);(-8964821,34);(9775075,34);(-9613651,34);(10366315,34);(-2538531,32);
   (5437269,33);(-5307459,33);(5664427,33);(-11020861,34);o;o;o;o;o;o;o;o;o;o;o;o;o;o;o;o;o;o;o;o;o;o;o;o;o;o;o;o;o;o;
   o;o;o;o;o;o;o;o;o;o;o;o;o;o;o;o;o;o;o;o;o;o;o;o;o;o;o;o;o;o;o;o;o;o];
  [(10807791,29);o;(-5721907,36);o;(-9252101,41);(-12131377,40);(7298745,45);(2275371,43);(5963389,43);(-10973341,43);
   (-14294139,42);(-9965429,41);(-15526507,41);(-5245263,38);(-6083117,38);(-13894109,40);(-8863069,39);(-9093691,39);
   (-5520017,38);(-5000805,38);(-11819335,39);(-2403975,37);(-2835777,37);(-12340305,38);(-12390483,38);
   (-14731111,38);(-14767841,38);(-8571633,37);(-1072769,34);(-155619,31);(-4896809,36);(-11192093,37);(-11192093,37);
   (-6212285,36);(-6212285,36);(-6828523,36);(-6828523,36);o;(-5411337,36);(14177289,37);(-11013835,36);(1477829,33);
   (-3324479,34);(11860235,36);(-5629289,35);(3963047,35);(-12709447,37);(1984383,36);(-6019161,41);(-9251397,37);
   (788117,33);(-11265115,36);(3166869,34);(-8798075,35);(9350835,35);(-11697931,35);(1511571,32);(-14224113,35);
   (3619611,33);(-16331413,35);(16453505,35);(-282149,29);(9026631,34);(-9730221,34);(1209509,31);(-2580501,32);
   (10217043,34);(-338459,29);(667391,30);(-5642707,33);(5542283,33);o;o;o;o;o;o;o;o;o;o;o;o;o;o;o;o;o;o;o;o;o;o;o;o;
   o;o;o;o;o;o;o;o;o;o;o;o;o;o;o;o;o;o;o;o;o;o;o;o;o;o;o;o;o;o;o;o;o;o;o;o;o;o;o;o];
  [(-11936889,29);o;(-10872495,38);o;(9837227,41);(1613605,37);(-11446421,45);(-1621989,42);(-14369005,44);
   (5493795,42);(15135979,42);(10465981,41);(4141499,39);(11727257,39);(13563663,39);(14884585,40);(4765935,38);
   (4913643,38);(11934023,39);(10928109,39);(12886015,39);(10718759,39);(12575311,39);(13649941,38);(3426129,36);
   (511781,33);(4104663,36);(597595,33);(598377,33);(5563865,36);(10951087,37);(12529953,37);(12529953,37);
   (13932175,37);(13932175,37);(15334397,37);(15334397,37);o;(12387139,37);(-7592259,36);(6186505,35);(-12813387,36);
   (7446021,35);(-12853861,36);(12641699,36);(-8514387,36);(14465719,37);(-7853407,38);(13888351,41);(10642559,37);
   (-420087,32);(12637473,36);(-13732339,36);(4904705,34);(-10193319,35);(6506313,34);(-6611151,34);(15809831,35);
   (-15864801,35);(9074281,34);(-282149,29);(5016345,33);(-9917347,34);(5405273,33);(-10637693,34);(1433187,31);
   (-2809117,32);(12027829,34);(-11746327,34);(6265165,33);(-6097657,33);o;o;o;o;o;o;o;o;o;o;o;o;o;o;o;o;o;o;o;o;o;o;
   o;o;o;o;o;o;o;o;o;o;o;o;o;o;o;o;o;o;o;o;o;o;o;o;o;o;o;o;o;o;o;o;o;o;o;o;o;o;o;o;o;o];
  [(5931601,28);o;(-11724047,37);o;(-1221843,38);(-6413193,39);(5747097,44);(3256329,43);(7155531,43);(-10876591,43);
   (-7515189,41);(-5192897,40);(-16454051,41);(-11653703,39);(-6740203,38);(-7392889,39);(-9471059,39);(-9765297,39);
   (-5930133,38);(-10861807,39);(-6404289,38);(-10655733,39);(-6250739,38);(-6783265,37);(-851299,34);(-4069409,36);
   (-16319051,38);(-4751903,36);(-9516247,37);(-5530399,36);(-10885241,37);(-12454813,37);(-12454813,37);
   (-13848831,37);(-13848831,37);(-7621423,36);(-7621423,36);o;(-11882303,37);(15518717,37);(-3020589,34);
   (12948191,36);(-3646455,34);(3247111,34);(-1543679,33);(271121,31);(-6974113,36);(4330865,37);(-13913015,42);
   (-5074105,36);(1723431,34);(-12345101,36);(13861369,36);(-9641713,35);(10237339,35);(-6412617,34);(13247703,35);
   (-975329,31);(7936991,34);(-8964821,34);(9026631,34);(-9917347,34);(4954879,33);(-10690423,34);(10625679,34);
   (-354417,29);(5610385,33);(-11900213,34);(11727489,34);(-6199809,33);(12173709,34);o;o;o;o;o;o;o;o;o;o;o;o;o;o;o;o;
   o;o;o;o;o;o;o;o;o;o;o;o;o;o;o;o;o;o;o;o;o;o;o;o;o;o;o;o;o;o;o;o;o;o;o;o;o;o;o;o;o;o;o;o;o;o;o;o];
  [(-12872285,29);o;(-5188161,37);o;(10412643,41);(13698521,40);(-13525357,45);(-15222623,45);(-497547,39);
   (5684861,42);(16057677,42);(11067901,41);(1101491,37);(1573679,36);(14560265,39);(15833565,40);(5076535,38);
   (10469609,39);(6357805,38);(11663797,39);(6871591,38);(2869731,37);(1680471,36);(14640459,38);(3674551,36);
   (8797729,37);(4409997,36);(10285095,37);(10298957,37);(5987947,36);(5894913,36);(13493927,37);(13493927,37);
   (15011963,37);(15011963,37);(8264999,36);(8264999,36);o;(6664181,36);(-8187817,36);(6660899,35);(-13812363,36);
   (8017519,35);(-6927271,35);(6804537,35);(-4589093,35);(15561547,37);(-8483593,38);(7307957,40);(11448561,37);
   (-1812255,34);(6800883,35);(-14797609,36);(10559487,35);(-5490645,34);(14010017,35);(-14244197,35);(8512869,34);
   (-267083,29);(9775075,34);(-9730221,34);(5405273,33);(-10690423,34);(11650943,34);(-2867203,32);(12357891,34);
   (-12115189,34);(1620539,31);(-6332519,33);(6752989,33);(-6574507,33);o;o;o;o;o;o;o;o;o;o;o;o;o;o;o;o;o;o;o;o;o;o;o;
   o;o;o;o;o;o;o;o;o;o;o;o;o;o;o;o;o;o;o;o;o;o;o;o;o;o;o;o;o;o;o;o;o;o;o;o;o;o;o;o;o];
  [(12729923,29);o;(-2988499,35);o;(-10296309,41);(-13544831,40);(13472949,45);(473775,40);(1971571,41);
   (-11209241,43);(-15869751,42);(-5466539,40);(-8710473,40);(-778089,35);(-14399681,39);(-7826527,39);(-10039187,39);
   (-10352897,39);(-6287487,38);(-11535941,39);(-212391,33);(-11354765,39);(-13298383,39);(-14479347,38);
   (-7268233,37);(-8701193,37);(-8723217,37);(-10172471,37);(-5093091,36);(-11844939,37);(-1457615,34);(-6673275,36);
   (-6673275,36);(-3712041,35);(-3712041,35);(-8174889,36);(-8174889,36);o;(-12753683,37);(16621465,37);(-6480379,35);
   (13873025,36);(-15643979,36);(13914763,36);(-3311225,34);(9290219,36);(-7481163,36);(9244417,38);(-15248595,42);
   (-340451,32);(3691099,35);(-13237565,36);(14847297,36);(-645991,31);(10966555,35);(-13748295,35);(14193447,35);
   (-4182685,33);(8505565,34);(-4806825,33);(1209509,31);(-10637693,34);(10625679,34);(-2867203,32);(11395475,34);
   (-760497,30);(12034713,34);(-6383837,33);(6289243,33);(-6651677,33);(13057115,34);o;o;o;o;o;o;o;o;o;o;o;o;o;o;o;o;
   o;o;o;o;o;o;o;o;o;o;o;o;o;o;o;o;o;o;o;o;o;o;o;o;o;o;o;o;o;o;o;o;o;o;o;o;o;o;o;o;o;o;o;o;o;o;o;o];
  [(-3415755,27);o;(-9958043,38);o;(342849,36);(14453543,40);(-7270869,44);(-16450417,45);(-1059521,40);(11936713,43);
   (8482197,41);(11683229,41);(4656321,39);(13276985,39);(3840507,37);(16711923,40);(10718943,39);(5522059,38);
   (1676705,36);(12298015,39);(7243857,38);(12095081,39);(7080167,38);(7728757,37);(7759047,37);(9291423,37);
   (4657385,36);(5432329,36);(2719825,35);(3162935,35);(3114077,35);(14257071,37);(14257071,37);(3965601,35);
   (3965601,35);(2183467,34);(2183467,34);o;(14126603,37);(-8692791,36);(14126265,36);(-3664831,34);(8502049,35);
   (-14702973,36);(14429271,36);(-4870453,35);(16490455,37);(-2253937,36);(7607169,40);(1516869,34);(-1924481,34);
   (14421853,36);(-7851659,35);(5598323,34);(-5825273,34);(1856961,32);(-7555291,34);(4513549,33);(-9066195,34);
   (10366315,34);(-2580501,32);(1433187,31);(-354417,29);(12357891,34);(-12167953,34);(13108483,34);(-12854277,34);
   (13752057,34);(-13437831,34);(14326713,34);(-13951283,34);o;o;o;o;o;o;o;o;o;o;o;o;o;o;o;o;o;o;o;o;o;o;o;o;o;o;o;o;
   o;o;o;o;o;o;o;o;o;o;o;o;o;o;o;o;o;o;o;o;o;o;o;o;o;o;o;o;o;o;o;o;o;o;o;o];
  [(13453469,29);o;(-1518173,34);o;(-10802075,41);(-1778769,37);(3601383,43);(8147993,44);(2089941,41);(-5861401,42);
   (-16694875,42);(-11493503,41);(-9166417,40);(-13072859,39);(-7563473,38);(-8225651,39);(-5276657,38);
   (-10874107,39);(-13208043,39);(-12110511,39);(-3566801,37);(-5956039,38);(-6973031,38);(-15221263,38);
   (-15280925,38);(-571853,33);(-9172641,37);(-10699069,37);(-5356745,36);(-3114767,35);(-95833,30);(-3510025,35);
   (-3510025,35);(-3905283,35);(-3905283,35);(-2150271,34);(-2150271,34);o;(-13483615,37);(548281,32);(-13696389,36);
   (7323741,35);(-16530077,36);(1836311,33);(-6997395,35);(9804607,36);(-15811365,37);(2432565,36);(-16330757,42);
   (-5761151,36);(15585565,37);(-13987395,36);(15675403,36);(-10918325,35);(11578365,35);(-14521313,35);(14985399,35);
   (-8835417,34);(4490233,33);(-2538531,32);(10217043,34);(-2809117,32);(5610385,33);(-12115189,34);(12034713,34);
   (-12854277,34);(6355259,33);(-6743993,33);(13285129,34);(-7026917,33);(13790709,34);o;o;o;o;o;o;o;o;o;o;o;o;o;o;o;
   o;o;o;o;o;o;o;o;o;o;o;o;o;o;o;o;o;o;o;o;o;o;o;o;o;o;o;o;o;o;o;o;o;o;o;o;o;o;o;o;o;o;o;o;o;o;o;o;o];
  [(-14340299,29);o;(-9600263,38);o;(5744695,40);(7572359,39);(-15067239,45);(-8544699,44);(-4420483,42);(1569789,40);
   (4451811,40);(1532669,38);(9767957,40);(6942535,38);(8034717,38);(8754381,39);(5614565,38);(5781099,38);
   (14042711,39);(6433203,38);(15157343,39);(790179,35);(14802329,39);(8087625,37);(4059633,36);(9721947,37);
   (9746299,37);(5683707,36);(5691335,36);(13236679,37);(6516099,36);(3728923,35);(3728923,35);(8297353,36);
   (8297353,36);(2284215,34);(2284215,34);o;(14813065,37);(-2281753,34);(14818007,36);(-15387703,36);(4459375,34);
   (-15432897,36);(3783743,34);(-10225383,36);(540327,32);(-9475333,38);(7872095,40);(1590663,34);(-8084053,36);
   (15127991,36);(-2060393,33);(11745425,35);(-12226943,35);(15583889,35);(-3964149,33);(4734795,33);(-9513249,34);
   (5437269,33);(-338459,29);(12027829,34);(-11900213,34);(1620539,31);(-6383837,33);(6876029,33);(-13487987,34);
   (14427441,34);(-14100393,34);(3757601,32);(-14639143,34);o;o;o;o;o;o;o;o;o;o;o;o;o;o;o;o;o;o;o;o;o;o;o;o;o;o;o;o;o;
   o;o;o;o;o;o;o;o;o;o;o;o;o;o;o;o;o;o;o;o;o;o;o;o;o;o;o;o;o;o;o;o;o;o;o];
  [(14067971,29);o;(-769231,33);o;(-11270571,41);(-7427857,39);(7429995,44);(4213813,43);(8686201,43);(-6145951,42);
   (-4365147,40);(-3004809,39);(-9579487,40);(-13621019,39);(-7882401,38);(-2146581,37);(-2753723,37);(-11342171,39);
   (-13776239,39);(-12623121,39);(-7435523,38);(-6202507,38);(-7261907,38);(-1983609,35);(-7965481,37);(-2384501,35);
   (-9561897,37);(-5576251,36);(-697967,33);(-6493283,36);(-3196489,35);(-7316989,36);(-7316989,36);(-16281397,37);
   (-16281397,37);(-4482203,35);(-4482203,35);o;(-7053117,36);(2291583,34);(-3580949,34);(15308099,36);(-2160743,33);
   (3838115,34);(-14634783,36);(10243911,36);(-4134183,35);(10146583,38);(-8641843,41);(-753621,33);(8143087,36);
   (-14627855,36);(511959,31);(-5707993,34);(6050535,34);(-7590807,34);(7830927,34);(-9236625,34);(9385811,34);
   (-5307459,33);(667391,30);(-11746327,34);(11727489,34);(-6332519,33);(6289243,33);(-13437831,34);(1660641,31);
   (-14100393,34);(6942955,33);(-14691911,34);(7207215,33);o;o;o;o;o;o;o;o;o;o;o;o;o;o;o;o;o;o;o;o;o;o;o;o;o;o;o;o;o;
   o;o;o;o;o;o;o;o;o;o;o;o;o;o;o;o;o;o;o;o;o;o;o;o;o;o;o;o;o;o;o;o;o;o;o];
  [(-14942679,29);o;(-9281501,38);o;(11970049,41);(15782117,40);(-7684285,44);(-1087133,41);(-1140159,40);
   (13189525,43);(9296801,41);(200011,35);(636679,36);(7226983,38);(8364189,38);(4561051,38);(11699193,39);
   (6020853,38);(914059,35);(209285,33);(15780049,39);(13155055,39);(15403903,39);(1052411,34);(8452231,37);
   (5059703,36);(10144743,37);(11831157,37);(5923505,36);(3444007,35);(6781509,36);(7761349,36);(7761349,36);
   (4317343,35);(4317343,35);(9508023,36);(9508023,36);o;(15425881,37);(-9514645,36);(7717761,35);(-16038039,36);
   (9290813,35);(-16084875,36);(15765379,36);(-5329245,35);(4501481,35);(-2472035,36);(4059287,39);(6625819,36);
   (-8428457,36);(7879313,35);(-8589809,35);(3058965,33);(-12742063,35);(8117451,34);(-8261767,34);(9865215,34);
   (-9912951,34);(5664427,33);(-5642707,33);(6265165,33);(-6199809,33);(6752989,33);(-6651677,33);(1790839,31);
   (-7026917,33);(3757601,32);(-14691911,34);(1957329,31);(-15253235,34);o;o;o;o;o;o;o;o;o;o;o;o;o;o;o;o;o;o;o;o;o;o;
   o;o;o;o;o;o;o;o;o;o;o;o;o;o;o;o;o;o;o;o;o;o;o;o;o;o;o;o;o;o;o;o;o;o;o;o;o;o;o;o;o;o];
  [(3651591,27);o;(-6225079,36);o;(-11700191,41);(-60257,32);(7551429,44);(4274595,43);(4465389,42);(-1608015,40);
   (-4541633,40);(-1562967,38);(-9954819,40);(-14128323,39);(-8176215,38);(-2228805,37);(-11435101,39);(-11770389,39);
   (-223377,33);(-6546925,38);(-15426429,39);(-401909,34);(-1882455,36);(-8230207,37);(-16524825,38);(-4946161,36);
   (-9917091,37);(-11565813,37);(-90479,30);(-13467185,37);(-6629481,36);(-7587409,36);(-7587409,36);(-8441223,36);
   (-8441223,36);(-9295039,36);(-9295039,36);o;(-14653927,37);(9512771,36);(-14875687,36);(7944657,35);(-4487745,34);
   (15935123,36);(-3799541,34);(10630943,36);(-8588027,36);(2628819,36);(-9080449,41);(-3132111,35);(8450943,36);
   (-15191491,36);(8502581,35);(-2963569,33);(12561419,35);(-1970421,32);(8128919,34);(-9590141,34);(9742969,34);
   (-11020861,34);(5542283,33);(-6097657,33);(12173709,34);(-6574507,33);(13057115,34);(-13951283,34);(13790709,34);
   (-7319571,33);(14414431,34);(-7626617,33);(14963125,34);o;o;o;o;o;o;o;o;o;o;o;o;o;o;o;o;o;o;o;o;o;o;o;o;o;o;o;o;o;
   o;o;o;o;o;o;o;o;o;o;o;o;o;o;o;o;o;o;o;o;o;o;o;o;o;o;o;o;o;o;o;o;o;o;o];
  [o;(-9612865,38);o;o;o;o;o;o;o;o;o;o;o;o;o;o;o;o;o;o;o;o;o;o;o;o;o;o;o;o;o;o;o;o;o;o;o;o;o;o;o;o;o;o;o;o;o;o;o;o;o;
   o;o;o;o;o;o;o;o;o;o;o;o;o;o;o;o;o;o;o;o;(570951,36);(-4592989,35);(14137283,37);(-10780845,36);(1859449,34);
   (-15192827,37);(8755399,36);(-1126089,33);(15840215,37);(-16273361,37);(13421313,37);(-13828791,37);(9252571,35);
   (-9584833,35);(777079,32);(-393815,31);(6502709,36);(-203415,31);(1338983,33);(-2692403,34);(5260405,34);
   (-10538391,35);(4499623,33);(-1119915,31);(11655265,34);(-11545223,34);(13136751,34);(-12954323,34);(3421503,32);
   (-6723153,33);(7046377,33);(-6899737,33);(14510065,34);(-110653,27);o;o;o;o;o;o;o;o;o;o;o;o;o;o;o;o;o;o;o;o;o;o;o;
   o;o;o;o;o;o;o];
  [o;(5149605,33);o;o;o;o;o;o;o;o;o;o;o;o;o;o;o;o;o;o;o;o;o;o;o;o;o;o;o;o;o;o;o;o;o;o;o;o;o;o;o;o;o;o;o;o;o;o;o;o;o;o;
   o;o;o;o;o;o;o;o;o;o;o;o;o;o;o;o;o;o;o;(-4592989,35);(9307997,32);(-3539583,31);(10800705,32);(-14619573,33);
   (14769377,33);(-1061737,29);(8669477,32);(-3779075,31);(3863777,31);(-6590923,32);(6790465,32);(-4477557,30);
   (9275993,31);(-1484715,29);(6018367,31);(-6147071,32);(12303123,33);(-10227465,32);(10282989,32);(-10096949,31);
   (632137,27);(-8663487,30);(8625219,30);(-11233423,30);(11127501,30);(-12666017,30);(6245129,29);(-13196545,30);
   (12965519,30);(-13588263,30);(13305581,30);(-6994815,29);(853481,26);o;o;o;o;o;o;o;o;o;o;o;o;o;o;o;o;o;o;o;o;o;o;o;
   o;o;o;o;o;o;o];
  [o;(-12671801,34);o;o;o;o;o;o;o;o;o;o;o;o;o;o;o;o;o;o;o;o;o;o;o;o;o;o;o;o;o;o;o;o;o;o;o;o;o;o;o;o;o;o;o;o;o;o;o;o;o;
   o;o;o;o;o;o;o;o;o;o;o;o;o;o;o;o;o;o;o;o;(14137283,37);(-3539583,31);(13160377,33);(-2564917,30);(12981537,33);
   (-3287951,31);(12839331,33);(-12650867,33);(5443421,32);(-2706555,31);(2666045,31);(-10818805,33);(13326391,32);
   (-6854495,31);(16420259,33);(-16471927,33);(14522525,34);(-14262151,34);(6453935,32);(-6450919,32);(6823705,31);
   (-1705971,29);(6054199,30);(-6023423,30);(1982157,28);(-15701681,31);(4479783,29);(-2208205,28);(2331683,28);
   (-4580707,29);(4797233,29);(-4696539,29);(4935831,29);(-1204309,27);o;o;o;o;o;o;o;o;o;o;o;o;o;o;o;o;o;o;o;o;o;o;o;
   o;o;o;o;o;o;o];
  [o;(2542189,31);o;o;o;o;o;o;o;o;o;o;o;o;o;o;o;o;o;o;o;o;o;o;o;o;o;o;o;o;o;o;o;o;o;o;o;o;o;o;o;o;o;o;o;o;o;o;o;o;o;o;
   o;o;o;o;o;o;o;o;o;o;o;o;o;o;o;o;o;o;o;(-10780845,36);(10800705,32);(-2564917,30);(16036123,32);(-4994429,31);
   (10086149,32);(-9676395,32);(4734331,31);(-16214681,33);(4009501,31);(-16301955,33);(16512477,33);(-10039791,31);
   (10318653,31);(-3050747,30);(12222183,32);(-5238613,32);(10252053,33);(-9444635,32);(9430787,32);(-10112009,31);
   (5054849,30);(-9023943,30);(8977209,30);(-1479775,27);(5860711,29);(-6691451,29);(3298271,28);(-3482471,28);
   (6841277,29);(-7163865,29);(109583,23);(-14740133,30);(14385655,30);o;o;o;o;o;o;o;o;o;o;o;o;o;o;o;o;o;o;o;o;o;o;o;
   o;o;o;o;o;o;o];
  [o;(-5063669,32);o;o;o;o;o;o;o;o;o;o;o;o;o;o;o;o;o;o;o;o;o;o;o;o;o;o;o;o;o;o;o;o;o;o;o;o;o;o;o;o;o;o;o;o;o;o;o;o;o;
   o;o;o;o;o;o;o;o;o;o;o;o;o;o;o;o;o;o;o;o;(1859449,34);(-14619573,33);(12981537,33);(-4994429,31);(10483687,32);
   (-751225,28);(7107561,32);(-834791,29);(6474107,32);(-6240125,32);(10504299,33);(-2557405,31);(6872867,31);
   (-7011185,31);(7706047,32);(-3818473,31);(8948711,34);(-1049781,31);(4988093,32);(-4945957,32);(12452331,32);
   (-3108953,30);(11802811,31);(-5868857,30);(7879395,30);(-15600523,31);(8950539,30);(-2205619,28);(4657161,29);
   (-4573987,29);(1196395,27);(-4684571,29);(4919307,29);(-2400327,28);o;o;o;o;o;o;o;o;o;o;o;o;o;o;o;o;o;o;o;o;o;o;o;
   o;o;o;o;o;o;o];
  [o;(5723209,32);o;o;o;o;o;o;o;o;o;o;o;o;o;o;o;o;o;o;o;o;o;o;o;o;o;o;o;o;o;o;o;o;o;o;o;o;o;o;o;o;o;o;o;o;o;o;o;o;o;o;
   o;o;o;o;o;o;o;o;o;o;o;o;o;o;o;o;o;o;o;(-15192827,37);(14769377,33);(-3287951,31);(10086149,32);(-751225,28);
   (14095269,32);(-1861187,30);(13817715,33);(-873233,29);(13386495,33);(-10698415,33);(1284777,30);(-14207171,32);
   (3613515,30);(-15553633,33);(15349643,33);(-15163701,35);(13844649,35);(-9388547,33);(4637895,32);(-1555475,29);
   (12420751,32);(-12031045,31);(11962727,31);(-16149751,31);(7993073,30);(-2296281,28);(9053137,30);(-9556927,30);
   (9385759,30);(-9817271,30);(4804811,29);(-10089161,30);(9845435,30);o;o;o;o;o;o;o;o;o;o;o;o;o;o;o;o;o;o;o;o;o;o;o;
   o;o;o;o;o;o;o];
  [o;(-1686861,31);o;o;o;o;o;o;o;o;o;o;o;o;o;o;o;o;o;o;o;o;o;o;o;o;o;o;o;o;o;o;o;o;o;o;o;o;o;o;o;o;o;o;o;o;o;o;o;o;o;
   o;o;o;o;o;o;o;o;o;o;o;o;o;o;o;o;o;o;o;o;(8755399,36);(-1061737,29);(12839331,33);(-9676395,32);(7107561,32);
   (-1861187,30);(8919879,31);(-10014577,31);(16755551,33);(-16464385,33);(199637,28);(-5857983,33);(10836707,31);
   (-11201355,31);(7476201,31);(-15121887,32);(13288579,33);(-13207241,33);(5486837,31);(-2751719,30);(2851343,29);
   (-11417279,31);(4982795,29);(-2479705,28);(12973741,30);(-6424647,29);(3659269,28);(-14432181,30);(15238793,30);
   (-14970489,30);(7841257,29);(-3838723,28);(8070949,29);(-15755323,30);o;o;o;o;o;o;o;o;o;o;o;o;o;o;o;o;o;o;o;o;o;o;
   o;o;o;o;o;o;o;o];
  [o;(2859693,32);o;o;o;o;o;o;o;o;o;o;o;o;o;o;o;o;o;o;o;o;o;o;o;o;o;o;o;o;o;o;o;o;o;o;o;o;o;o;o;o;o;o;o;o;o;o;o;o;o;o;
   o;o;o;o;o;o;o;o;o;o;o;o;o;o;o;o;o;o;o;(-1126089,33);(8669477,32);(-12650867,33);(4734331,31);(-834791,29);
   (13817715,33);(-10014577,31);(11381025,31);(-9135701,32);(4530643,31);(-5850541,33);(10585279,34);(-11888607,31);
   (12311257,31);(-8463397,31);(8579313,31);(-15796135,33);(15766617,33);(-3168543,30);(6363821,31);(-50267,23);
   (12885591,31);(-11110863,30);(2764989,28);(-14408605,30);(7135649,29);(-8119411,29);(2001525,27);(-2113463,27);
   (16610607,30);(-4351069,28);(8520601,29);(-559939,25);(4372335,28);o;o;o;o;o;o;o;o;o;o;o;o;o;o;o;o;o;o;o;o;o;o;o;o;
   o;o;o;o;o;o];
  [o;(11006241,40);o;o;o;o;o;o;o;o;o;o;o;o;o;o;o;o;o;o;o;o;o;o;o;o;o;o;o;o;o;o;o;o;o;o;o;o;o;o;o;o;o;o;o;o;o;o;o;o;o;
   o;o;o;o;o;o;o;o;o;o;o;o;o;o;o;o;o;o;o;o;(15840215,37);(-3779075,31);(5443421,32);(-16214681,33);(6474107,32);
   (-873233,29);(16755551,33);(-9135701,32);(2189319,29);(-9578457,31);(5835709,32);(-11826291,33);(8812433,31);
   (-9122871,31);(8350167,31);(-8504239,31);(10971499,32);(-11061495,32);(15017851,32);(-15115055,32);(3364125,29);
   (-3370043,29);(2788149,28);(-1387875,27);(7149289,29);(-14163263,30);(8034167,29);(-7922379,29);(8364167,29);
   (-16434965,30);(2153401,27);(-4217085,28);(554495,25);(-4329915,28);o;o;o;o;o;o;o;o;o;o;o;o;o;o;o;o;o;o;o;o;o;o;o;
   o;o;o;o;o;o;o];
  [o;(-6901789,35);o;o;o;o;o;o;o;o;o;o;o;o;o;o;o;o;o;o;o;o;o;o;o;o;o;o;o;o;o;o;o;o;o;o;o;o;o;o;o;o;o;o;o;o;o;o;o;o;o;
   o;o;o;o;o;o;o;o;o;o;o;o;o;o;o;o;o;o;o;o;(-16273361,37);(3863777,31);(-2706555,31);(4009501,31);(-6240125,32);
   (13386495,33);(-16464385,33);(4530643,31);(-9578457,31);(5272129,30);(-12661413,33);(12964201,33);(-2342755,29);
   (9721259,31);(-4588539,30);(9363585,31);(-12482253,32);(12609951,32);(-8431853,31);(4246385,30);(-14845649,31);
   (14875135,31);(-12179545,30);(757907,26);(-1945317,27);(15416095,30);(-4368285,28);(4307667,28);(-9096325,29);
   (8937079,29);(-4684859,28);(4587389,28);(-4826283,28);(4711005,28);o;o;o;o;o;o;o;o;o;o;o;o;o;o;o;o;o;o;o;o;o;o;o;o;
   o;o;o;o;o;o];
  [o;(-1424423,33);o;o;o;o;o;o;o;o;o;o;o;o;o;o;o;o;o;o;o;o;o;o;o;o;o;o;o;o;o;o;o;o;o;o;o;o;o;o;o;o;o;o;o;o;o;o;o;o;o;
   o;o;o;o;o;o;o;o;o;o;o;o;o;o;o;o;o;o;o;o;(13421313,37);(-6590923,32);(2666045,31);(-16301955,33);(10504299,33);
   (-10698415,33);(199637,28);(-5850541,33);(5835709,32);(-12661413,33);(3818435,30);(-8149981,31);(14421625,32);
   (-7428289,31);(10378591,33);(-5147345,32);(9635529,33);(-9626865,33);(5218871,31);(-1312469,29);(9426263,31);
   (-4721051,30);(15449129,31);(-7690281,30);(9901459,30);(-9807923,30);(5570171,29);(-10985505,30);(11607649,30);
   (-11404237,30);(11957201,30);(-11708257,30);(6158139,29);(-12021971,30);o;o;o;o;o;o;o;o;o;o;o;o;o;o;o;o;o;o;o;o;o;
   o;o;o;o;o;o;o;o;o];
  [o;(8612879,37);o;o;o;o;o;o;o;o;o;o;o;o;o;o;o;o;o;o;o;o;o;o;o;o;o;o;o;o;o;o;o;o;o;o;o;o;o;o;o;o;o;o;o;o;o;o;o;o;o;o;
   o;o;o;o;o;o;o;o;o;o;o;o;o;o;o;o;o;o;o;(-13828791,37);(6790465,32);(-10818805,33);(16512477,33);(-2557405,31);
   (1284777,30);(-5857983,33);(10585279,34);(-11826291,33);(12964201,33);(-8149981,31);(8724007,31);(-7667523,31);
   (15831299,32);(-5679169,32);(11322943,33);(-5441863,32);(10913819,33);(-2865171,30);(11538165,32);(-5100333,30);
   (5110199,30);(-8281327,30);(8245461,30);(-10581215,30);(1310241,27);(-11895357,30);(11730557,30);(-6198173,29);
   (12179567,30);(-6386439,29);(12507353,30);(-13159053,30);(12844933,30);o;o;o;o;o;o;o;o;o;o;o;o;o;o;o;o;o;o;o;o;o;o;
   o;o;o;o;o;o;o;o];
  [o;(16280987,36);o;o;o;o;o;o;o;o;o;o;o;o;o;o;o;o;o;o;o;o;o;o;o;o;o;o;o;o;o;o;o;o;o;o;o;o;o;o;o;o;o;o;o;o;o;o;o;o;o;
   o;o;o;o;o;o;o;o;o;o;o;o;o;o;o;o;o;o;o;o;(9252571,35);(-4477557,30);(13326391,32);(-10039791,31);(6872867,31);
   (-14207171,32);(10836707,31);(-11888607,31);(8812433,31);(-2342755,29);(14421625,32);(-7667523,31);(1865415,27);
   (-7787857,29);(4831339,29);(-9843977,30);(7955505,31);(-3991251,30);(7334549,30);(-7385461,30);(1874199,27);
   (-7512577,29);(6256239,28);(-12459115,29);(15999269,29);(-15849835,29);(4490757,27);(-8857377,28);(1169401,25);
   (-4595931,27);(1204875,25);(-1179855,25);(4965647,27);(-9694409,28);o;o;o;o;o;o;o;o;o;o;o;o;o;o;o;o;o;o;o;o;o;o;o;
   o;o;o;o;o;o;o];
  [o;(-11354303,35);o;o;o;o;o;o;o;o;o;o;o;o;o;o;o;o;o;o;o;o;o;o;o;o;o;o;o;o;o;o;o;o;o;o;o;o;o;o;o;o;o;o;o;o;o;o;o;o;o;
   o;o;o;o;o;o;o;o;o;o;o;o;o;o;o;o;o;o;o;o;(-9584833,35);(9275993,31);(-6854495,31);(10318653,31);(-7011185,31);
   (3613515,30);(-11201355,31);(12311257,31);(-9122871,31);(9721259,31);(-7428289,31);(15831299,32);(-7787857,29);
   (8131849,29);(-5080777,29);(10357753,30);(-8480415,31);(4258731,30);(-7737299,30);(15585743,31);(-7867333,29);
   (15768829,30);(-6550515,28);(6522759,28);(-8369717,28);(16583359,29);(-9395217,28);(4632735,27);(-9786543,28);
   (4807879,27);(-10084049,28);(9874729,28);(-5195167,27);(10142567,28);o;o;o;o;o;o;o;o;o;o;o;o;o;o;o;o;o;o;o;o;o;o;o;
   o;o;o;o;o;o;o];
  [o;(11938091,33);o;o;o;o;o;o;o;o;o;o;o;o;o;o;o;o;o;o;o;o;o;o;o;o;o;o;o;o;o;o;o;o;o;o;o;o;o;o;o;o;o;o;o;o;o;o;o;o;o;
   o;o;o;o;o;o;o;o;o;o;o;o;o;o;o;o;o;o;o;o;(777079,32);(-1484715,29);(16420259,33);(-3050747,30);(7706047,32);
   (-15553633,33);(7476201,31);(-8463397,31);(8350167,31);(-4588539,30);(10378591,33);(-5679169,32);(4831339,29);
   (-5080777,29);(11066001,30);(-11364391,30);(11974433,31);(-12113945,31);(11297507,31);(-11371531,31);(10842857,30);
   (-10862657,30);(9350891,29);(-2327357,27);(12076597,29);(-11962455,29);(6797587,28);(-13406211,29);(3539673,27);
   (-13910603,29);(14583337,29);(-14279749,29);(15023469,29);(-7332257,28);o;o;o;o;o;o;o;o;o;o;o;o;o;o;o;o;o;o;o;o;o;
   o;o;o;o;o;o;o;o;o];
  [o;(-12728959,33);o;o;o;o;o;o;o;o;o;o;o;o;o;o;o;o;o;o;o;o;o;o;o;o;o;o;o;o;o;o;o;o;o;o;o;o;o;o;o;o;o;o;o;o;o;o;o;o;o;
   o;o;o;o;o;o;o;o;o;o;o;o;o;o;o;o;o;o;o;o;(-393815,31);(6018367,31);(-16471927,33);(12222183,32);(-3818473,31);
   (15349643,33);(-15121887,32);(8579313,31);(-8504239,31);(9363585,31);(-5147345,32);(11322943,33);(-9843977,30);
   (10357753,30);(-11364391,30);(364843,25);(-388053,26);(12568465,31);(-11711717,31);(11791791,31);(-11161711,30);
   (11183019,30);(-1199545,26);(9554127,29);(-1547829,26);(12265835,29);(-6968287,28);(6871527,28);(-3628753,27);
   (7130421,28);(-14951443,29);(915021,25);(-3850881,27);(7517803,28);o;o;o;o;o;o;o;o;o;o;o;o;o;o;o;o;o;o;o;o;o;o;o;o;
   o;o;o;o;o;o];
  [o;(213067,27);o;o;o;o;o;o;o;o;o;o;o;o;o;o;o;o;o;o;o;o;o;o;o;o;o;o;o;o;o;o;o;o;o;o;o;o;o;o;o;o;o;o;o;o;o;o;o;o;o;o;
   o;o;o;o;o;o;o;o;o;o;o;o;o;o;o;o;o;o;o;(6502709,36);(-6147071,32);(14522525,34);(-5238613,32);(8948711,34);
   (-15163701,35);(13288579,33);(-15796135,33);(10971499,32);(-12482253,32);(9635529,33);(-5441863,32);(7955505,31);
   (-8480415,31);(11974433,31);(-388053,26);(7448433,30);(-15176773,31);(1627805,28);(-13124855,31);(13892779,31);
   (-13910729,31);(10679245,30);(-10627427,30);(13812349,30);(-13677397,30);(15644847,30);(-15423677,30);(8154407,29);
   (-4004983,28);(8397105,29);(-4110483,28);(8648701,29);(-4220491,28);o;o;o;o;o;o;o;o;o;o;o;o;o;o;o;o;o;o;o;o;o;o;o;
   o;o;o;o;o;o;o];
  [o;(-14097787,33);o;o;o;o;o;o;o;o;o;o;o;o;o;o;o;o;o;o;o;o;o;o;o;o;o;o;o;o;o;o;o;o;o;o;o;o;o;o;o;o;o;o;o;o;o;o;o;o;o;
   o;o;o;o;o;o;o;o;o;o;o;o;o;o;o;o;o;o;o;o;(-203415,31);(12303123,33);(-14262151,34);(10252053,33);(-1049781,31);
   (13844649,35);(-13207241,33);(15766617,33);(-11061495,32);(12609951,32);(-9626865,33);(10913819,33);(-3991251,30);
   (4258731,30);(-12113945,31);(12568465,31);(-15176773,31);(1933301,28);(-13340329,31);(13448357,31);(-14239619,31);
   (14260041,31);(-5448827,29);(1355687,27);(-7035001,29);(13933079,30);(-7964381,29);(15704009,30);(-2075787,27);
   (254883,24);(-4275727,28);(16744479,30);(-8808545,29);(67165,22);o;o;o;o;o;o;o;o;o;o;o;o;o;o;o;o;o;o;o;o;o;o;o;o;o;
   o;o;o;o;o];
  [o;(10791049,33);o;o;o;o;o;o;o;o;o;o;o;o;o;o;o;o;o;o;o;o;o;o;o;o;o;o;o;o;o;o;o;o;o;o;o;o;o;o;o;o;o;o;o;o;o;o;o;o;o;
   o;o;o;o;o;o;o;o;o;o;o;o;o;o;o;o;o;o;o;o;(1338983,33);(-10227465,32);(6453935,32);(-9444635,32);(4988093,32);
   (-9388547,33);(5486837,31);(-3168543,30);(15017851,32);(-8431853,31);(5218871,31);(-2865171,30);(7334549,30);
   (-7737299,30);(11297507,31);(-11711717,31);(1627805,28);(-13340329,31);(11020271,30);(-11143053,30);(14414055,30);
   (-7228493,29);(9710435,29);(-4836237,28);(11825145,29);(-5858297,28);(3297975,27);(-13010769,29);(13764487,29);
   (-13525151,29);(14206967,29);(-6956439,28);(14654657,29);(-7152925,28);o;o;o;o;o;o;o;o;o;o;o;o;o;o;o;o;o;o;o;o;o;o;
   o;o;o;o;o;o;o;o];
  [o;(-171585,27);o;o;o;o;o;o;o;o;o;o;o;o;o;o;o;o;o;o;o;o;o;o;o;o;o;o;o;o;o;o;o;o;o;o;o;o;o;o;o;o;o;o;o;o;o;o;o;o;o;o;
   o;o;o;o;o;o;o;o;o;o;o;o;o;o;o;o;o;o;o;(-2692403,34);(10282989,32);(-6450919,32);(9430787,32);(-4945957,32);
   (4637895,32);(-2751719,30);(6363821,31);(-15115055,32);(4246385,30);(-1312469,29);(11538165,32);(-7385461,30);
   (15585743,31);(-11371531,31);(11791791,31);(-13124855,31);(13448357,31);(-11143053,30);(5634213,29);(-14611781,30);
   (916011,26);(-9843779,29);(2451407,27);(-2995547,27);(5936231,28);(-13363971,29);(13180693,29);(-6972293,28);
   (6851151,28);(-14393829,29);(440501,24);(-14848133,29);(14494851,29);o;o;o;o;o;o;o;o;o;o;o;o;o;o;o;o;o;o;o;o;o;o;o;
   o;o;o;o;o;o;o];
  [o;(1060583,30);o;o;o;o;o;o;o;o;o;o;o;o;o;o;o;o;o;o;o;o;o;o;o;o;o;o;o;o;o;o;o;o;o;o;o;o;o;o;o;o;o;o;o;o;o;o;o;o;o;o;
   o;o;o;o;o;o;o;o;o;o;o;o;o;o;o;o;o;o;o;(5260405,34);(-10096949,31);(6823705,31);(-10112009,31);(12452331,32);
   (-1555475,29);(2851343,29);(-50267,23);(3364125,29);(-14845649,31);(9426263,31);(-5100333,30);(1874199,27);
   (-7867333,29);(10842857,30);(-11161711,30);(13892779,31);(-14239619,31);(14414055,30);(-14611781,30);(13317815,29);
   (-13372365,29);(4937297,27);(-9841635,28);(6006033,27);(-5953399,27);(6648283,27);(-13118177,28);(13862163,28);
   (-13624679,28);(14318365,28);(-14025047,28);(7389601,27);(-7214953,27);o;o;o;o;o;o;o;o;o;o;o;o;o;o;o;o;o;o;o;o;o;o;
   o;o;o;o;o;o;o;o];
  [o;(-8540853,33);o;o;o;o;o;o;o;o;o;o;o;o;o;o;o;o;o;o;o;o;o;o;o;o;o;o;o;o;o;o;o;o;o;o;o;o;o;o;o;o;o;o;o;o;o;o;o;o;o;
   o;o;o;o;o;o;o;o;o;o;o;o;o;o;o;o;o;o;o;o;(-10538391,35);(632137,27);(-1705971,29);(5054849,30);(-3108953,30);
   (12420751,32);(-11417279,31);(12885591,31);(-3370043,29);(14875135,31);(-4721051,30);(5110199,30);(-7512577,29);
   (15768829,30);(-10862657,30);(11183019,30);(-13910729,31);(14260041,31);(-7228493,29);(916011,26);(-13372365,29);
   (13427469,29);(-9918385,28);(4942703,27);(-6033005,27);(11960371,28);(-13355953,28);(6588425,27);(-13924393,28);
   (13685915,28);(-3595745,26);(7044201,27);(-3711535,26);(7247657,27);o;o;o;o;o;o;o;o;o;o;o;o;o;o;o;o;o;o;o;o;o;o;o;
   o;o;o;o;o;o;o];
  [o;(13655845,34);o;o;o;o;o;o;o;o;o;o;o;o;o;o;o;o;o;o;o;o;o;o;o;o;o;o;o;o;o;o;o;o;o;o;o;o;o;o;o;o;o;o;o;o;o;o;o;o;o;
   o;o;o;o;o;o;o;o;o;o;o;o;o;o;o;o;o;o;o;o;(4499623,33);(-8663487,30);(6054199,30);(-9023943,30);(11802811,31);
   (-12031045,31);(4982795,29);(-11110863,30);(2788149,28);(-12179545,30);(15449129,31);(-8281327,30);(6256239,28);
   (-6550515,28);(9350891,29);(-1199545,26);(10679245,30);(-5448827,29);(9710435,29);(-9843779,29);(4937297,27);
   (-9918385,28);(8005061,27);(-15958561,28);(5006673,26);(-4963183,26);(5562545,26);(-10976567,27);(5797917,26);
   (-11397839,27);(11973999,27);(-5864641,26);(12357587,27);(-3016497,25);o;o;o;o;o;o;o;o;o;o;o;o;o;o;o;o;o;o;o;o;o;o;
   o;o;o;o;o;o;o;o];
  [o;(-13636067,34);o;o;o;o;o;o;o;o;o;o;o;o;o;o;o;o;o;o;o;o;o;o;o;o;o;o;o;o;o;o;o;o;o;o;o;o;o;o;o;o;o;o;o;o;o;o;o;o;o;
   o;o;o;o;o;o;o;o;o;o;o;o;o;o;o;o;o;o;o;o;(-1119915,31);(8625219,30);(-6023423,30);(8977209,30);(-5868857,30);
   (11962727,31);(-2479705,28);(2764989,28);(-1387875,27);(757907,26);(-7690281,30);(8245461,30);(-12459115,29);
   (6522759,28);(-2327357,27);(9554127,29);(-10627427,30);(1355687,27);(-4836237,28);(2451407,27);(-9841635,28);
   (4942703,27);(-15958561,28);(3976817,26);(-9981567,27);(9894903,27);(-11089897,27);(2735469,25);(-5779673,26);
   (11362003,27);(-11936459,27);(5846267,26);(-12318935,27);(12028267,27);o;o;o;o;o;o;o;o;o;o;o;o;o;o;o;o;o;o;o;o;o;o;
   o;o;o;o;o;o;o;o];
  [o;(3039225,32);o;o;o;o;o;o;o;o;o;o;o;o;o;o;o;o;o;o;o;o;o;o;o;o;o;o;o;o;o;o;o;o;o;o;o;o;o;o;o;o;o;o;o;o;o;o;o;o;o;o;
   o;o;o;o;o;o;o;o;o;o;o;o;o;o;o;o;o;o;o;(11655265,34);(-11233423,30);(1982157,28);(-1479775,27);(7879395,30);
   (-16149751,31);(12973741,30);(-14408605,30);(7149289,29);(-1945317,27);(9901459,30);(-10581215,30);(15999269,29);
   (-8369717,28);(12076597,29);(-1547829,26);(13812349,30);(-7035001,29);(11825145,29);(-2995547,27);(6006033,27);
   (-6033005,27);(5006673,26);(-9981567,27);(6384111,26);(-6328825,26);(14277781,27);(-3521867,25);(14895393,27);
   (-1830169,24);(15379057,27);(-15065013,27);(3967275,25);(-7747427,26);o;o;o;o;o;o;o;o;o;o;o;o;o;o;o;o;o;o;o;o;o;o;
   o;o;o;o;o;o;o;o];
  [o;(-6032135,33);o;o;o;o;o;o;o;o;o;o;o;o;o;o;o;o;o;o;o;o;o;o;o;o;o;o;o;o;o;o;o;o;o;o;o;o;o;o;o;o;o;o;o;o;o;o;o;o;o;
   o;o;o;o;o;o;o;o;o;o;o;o;o;o;o;o;o;o;o;o;(-11545223,34);(11127501,30);(-15701681,31);(5860711,29);(-15600523,31);
   (7993073,30);(-6424647,29);(7135649,29);(-14163263,30);(15416095,30);(-9807923,30);(1310241,27);(-15849835,29);
   (16583359,29);(-11962455,29);(12265835,29);(-13677397,30);(13933079,30);(-5858297,28);(5936231,28);(-5953399,27);
   (11960371,28);(-4963183,26);(9894903,27);(-6328825,26);(6274035,26);(-3538571,25);(13965643,27);(-3691687,25);
   (14514925,27);(-15246353,27);(7467519,26);(-983265,23);(7680619,26);o;o;o;o;o;o;o;o;o;o;o;o;o;o;o;o;o;o;o;o;o;o;o;
   o;o;o;o;o;o;o];
  [o;(12596535,34);o;o;o;o;o;o;o;o;o;o;o;o;o;o;o;o;o;o;o;o;o;o;o;o;o;o;o;o;o;o;o;o;o;o;o;o;o;o;o;o;o;o;o;o;o;o;o;o;o;
   o;o;o;o;o;o;o;o;o;o;o;o;o;o;o;o;o;o;o;o;(13136751,34);(-12666017,30);(4479783,29);(-6691451,29);(8950539,30);
   (-2296281,28);(3659269,28);(-8119411,29);(8034167,29);(-4368285,28);(5570171,29);(-11895357,30);(4490757,27);
   (-9395217,28);(6797587,28);(-6968287,28);(15644847,30);(-7964381,29);(3297975,27);(-13363971,29);(6648283,27);
   (-13355953,28);(5562545,26);(-11089897,27);(14277781,27);(-3538571,25);(16038499,27);(-1978103,24);(8376979,26);
   (-16468329,27);(270295,21);(-8472867,26);(8924125,26);(-8713707,26);o;o;o;o;o;o;o;o;o;o;o;o;o;o;o;o;o;o;o;o;o;o;o;
   o;o;o;o;o;o;o];
  [o;(-12436559,34);o;o;o;o;o;o;o;o;o;o;o;o;o;o;o;o;o;o;o;o;o;o;o;o;o;o;o;o;o;o;o;o;o;o;o;o;o;o;o;o;o;o;o;o;o;o;o;o;o;
   o;o;o;o;o;o;o;o;o;o;o;o;o;o;o;o;o;o;o;o;(-12954323,34);(6245129,29);(-2208205,28);(3298271,28);(-2205619,28);
   (9053137,30);(-14432181,30);(2001525,27);(-7922379,29);(4307667,28);(-10985505,30);(11730557,30);(-8857377,28);
   (4632735,27);(-13406211,29);(6871527,28);(-15423677,30);(15704009,30);(-13010769,29);(13180693,29);(-13118177,28);
   (6588425,27);(-10976567,27);(2735469,25);(-3521867,25);(13965643,27);(-1978103,24);(15614017,27);(-16530911,27);
   (1015569,23);(-8534339,26);(2090031,24);(-4402699,25);(4298893,25);o;o;o;o;o;o;o;o;o;o;o;o;o;o;o;o;o;o;o;o;o;o;o;o;
   o;o;o;o;o;o];
  [o;(13041637,34);o;o;o;o;o;o;o;o;o;o;o;o;o;o;o;o;o;o;o;o;o;o;o;o;o;o;o;o;o;o;o;o;o;o;o;o;o;o;o;o;o;o;o;o;o;o;o;o;o;
   o;o;o;o;o;o;o;o;o;o;o;o;o;o;o;o;o;o;o;o;(3421503,32);(-13196545,30);(2331683,28);(-3482471,28);(4657161,29);
   (-9556927,30);(15238793,30);(-2113463,27);(8364167,29);(-9096325,29);(11607649,30);(-6198173,29);(1169401,25);
   (-9786543,28);(3539673,27);(-3628753,27);(8154407,29);(-2075787,27);(13764487,29);(-6972293,28);(13862163,28);
   (-13924393,28);(5797917,26);(-5779673,26);(14895393,27);(-3691687,25);(8376979,26);(-16530911,27);(4378529,25);
   (-8607833,26);(4521597,25);(-4429323,25);(9330311,26);(-9110367,26);o;o;o;o;o;o;o;o;o;o;o;o;o;o;o;o;o;o;o;o;o;o;o;
   o;o;o;o;o;o;o];
  [o;(-12825833,34);o;o;o;o;o;o;o;o;o;o;o;o;o;o;o;o;o;o;o;o;o;o;o;o;o;o;o;o;o;o;o;o;o;o;o;o;o;o;o;o;o;o;o;o;o;o;o;o;o;
   o;o;o;o;o;o;o;o;o;o;o;o;o;o;o;o;o;o;o;o;(-6723153,33);(12965519,30);(-4580707,29);(6841277,29);(-4573987,29);
   (9385759,30);(-14970489,30);(16610607,30);(-16434965,30);(8937079,29);(-11404237,30);(12179567,30);(-4595931,27);
   (4807879,27);(-13910603,29);(7130421,28);(-4004983,28);(254883,24);(-13525151,29);(6851151,28);(-13624679,28);
   (13685915,28);(-11397839,27);(11362003,27);(-1830169,24);(14514925,27);(-16468329,27);(1015569,23);(-8607833,26);
   (1057645,23);(-555571,22);(4353869,25);(-9171387,26);(8955195,26);o;o;o;o;o;o;o;o;o;o;o;o;o;o;o;o;o;o;o;o;o;o;o;o;
   o;o;o;o;o;o];
  [o;(6801533,33);o;o;o;o;o;o;o;o;o;o;o;o;o;o;o;o;o;o;o;o;o;o;o;o;o;o;o;o;o;o;o;o;o;o;o;o;o;o;o;o;o;o;o;o;o;o;o;o;o;o;
   o;o;o;o;o;o;o;o;o;o;o;o;o;o;o;o;o;o;o;(7046377,33);(-13588263,30);(4797233,29);(-7163865,29);(1196395,27);
   (-9817271,30);(7841257,29);(-4351069,28);(2153401,27);(-4684859,28);(11957201,30);(-6386439,29);(1204875,25);
   (-10084049,28);(14583337,29);(-14951443,29);(8397105,29);(-4275727,28);(14206967,29);(-14393829,29);(14318365,28);
   (-3595745,26);(11973999,27);(-11936459,27);(15379057,27);(-15246353,27);(270295,21);(-8534339,26);(4521597,25);
   (-555571,22);(9339447,26);(-9148891,26);(1204523,23);(-2352265,24);o;o;o;o;o;o;o;o;o;o;o;o;o;o;o;o;o;o;o;o;o;o;o;o;
   o;o;o;o;o;o];
  [o;(-13331087,34);o;o;o;o;o;o;o;o;o;o;o;o;o;o;o;o;o;o;o;o;o;o;o;o;o;o;o;o;o;o;o;o;o;o;o;o;o;o;o;o;o;o;o;o;o;o;o;o;o;
   o;o;o;o;o;o;o;o;o;o;o;o;o;o;o;o;o;o;o;o;(-6899737,33);(13305581,30);(-4696539,29);(109583,23);(-4684571,29);
   (4804811,29);(-3838723,28);(8520601,29);(-4217085,28);(4587389,28);(-11708257,30);(12507353,30);(-1179855,25);
   (9874729,28);(-14279749,29);(915021,25);(-4110483,28);(16744479,30);(-6956439,28);(440501,24);(-14025047,28);
   (7044201,27);(-5864641,26);(5846267,26);(-15065013,27);(7467519,26);(-8472867,26);(2090031,24);(-4429323,25);
   (4353869,25);(-9148891,26);(2240557,24);(-9439595,26);(9217109,26);o;o;o;o;o;o;o;o;o;o;o;o;o;o;o;o;o;o;o;o;o;o;o;o;
   o;o;o;o;o;o];
  [o;(14243243,34);o;o;o;o;o;o;o;o;o;o;o;o;o;o;o;o;o;o;o;o;o;o;o;o;o;o;o;o;o;o;o;o;o;o;o;o;o;o;o;o;o;o;o;o;o;o;o;o;o;
   o;o;o;o;o;o;o;o;o;o;o;o;o;o;o;o;o;o;o;o;(14510065,34);(-6994815,29);(4935831,29);(-14740133,30);(4919307,29);
   (-10089161,30);(8070949,29);(-559939,25);(554495,25);(-4826283,28);(6158139,29);(-13159053,30);(4965647,27);
   (-5195167,27);(15023469,29);(-3850881,27);(8648701,29);(-8808545,29);(14654657,29);(-14848133,29);(7389601,27);
   (-3711535,26);(12357587,27);(-12318935,27);(3967275,25);(-983265,23);(8924125,26);(-4402699,25);(9330311,26);
   (-9171387,26);(1204523,23);(-9439595,26);(19419,17);(-9708201,26);o;o;o;o;o;o;o;o;o;o;o;o;o;o;o;o;o;o;o;o;o;o;o;o;
   o;o;o;o;o;o];
  [o;(-1739069,31);o;o;o;o;o;o;o;o;o;o;o;o;o;o;o;o;o;o;o;o;o;o;o;o;o;o;o;o;o;o;o;o;o;o;o;o;o;o;o;o;o;o;o;o;o;o;o;o;o;
   o;o;o;o;o;o;o;o;o;o;o;o;o;o;o;o;o;o;o;o;(-110653,27);(853481,26);(-1204309,27);(14385655,30);(-2400327,28);
   (9845435,30);(-15755323,30);(4372335,28);(-4329915,28);(4711005,28);(-12021971,30);(12844933,30);(-9694409,28);
   (10142567,28);(-7332257,28);(7517803,28);(-4220491,28);(67165,22);(-7152925,28);(14494851,29);(-7214953,27);
   (7247657,27);(-3016497,25);(12028267,27);(-7747427,26);(7680619,26);(-8713707,26);(4298893,25);(-9110367,26);
   (8955195,26);(-2352265,24);(9217109,26);(-9708201,26);(1184925,23);o;o;o;o;o;o;o;o;o;o;o;o;o;o;o;o;o;o;o;o;o;o;o;o;
   o;o;o;o;o;o];
  [o;o;o;o;o;o;o;o;o;o;o;o;o;o;o;o;o;o;o;o;o;o;o;o;o;o;o;o;o;o;o;o;o;o;o;o;o;o;o;o;o;o;o;o;o;o;o;o;o;o;o;o;o;o;o;o;o;
   o;o;o;o;o;o;o;o;o;o;o;o;o;o;o;o;o;o;o;o;o;o;o;o;o;o;o;o;o;o;o;o;o;o;o;o;o;o;o;o;o;o;o;o;o;o;o;o;
   (2532114441783839,119);(-5913264965092357,115);(-8702611149915509,89);o;(-1301012334879641,147);
   (-6619331968583909,137);(-6272987290993241,143);(-5441836386067685,137);(-1726664331181011,125);
   (-2846392313753163,130);(-3455982456651871,102);(-7755755954037415,99);(-6539756542336681,104);
   (-7297480386531143,103);(-4782294302023737,100);(-5301165343567543,101);(-7533396805433851,103);
   (-4995443082231829,99);(-2309928942576185,101);(-8149889850883541,103);(-6925864904691963,105);
   (-5665511719085001,108);(-6903419003731867,138);(-857645752274131,141);(-4576949038418871,141);o;o;o;o;o];
  [o;o;o;o;o;o;o;o;o;o;o;o;o;o;o;o;o;o;o;o;o;o;o;o;o;o;o;o;o;o;o;o;o;o;o;o;o;o;o;o;o;o;o;o;o;o;o;o;o;o;o;o;o;o;o;o;o;
   o;o;o;o;o;o;o;o;o;o;o;o;o;o;o;o;o;o;o;o;o;o;o;o;o;o;o;o;o;o;o;o;o;o;o;o;o;o;o;o;o;o;o;o;o;o;o;o;
   (-5913264965092357,115);(3509207671625943,108);o;(-6977707286419473,85);(-557636931074623,144);
   (-495104311922101,131);(-1482028976426471,139);(-2710554104486697,134);(-4455355664866131,124);
   (-3388842148203769,128);o;o;o;o;o;o;(-795818413908963,96);(-5758405158320145,95);(-2166785950785369,97);
   (-1981530986921659,97);(-2188387236083845,99);(-6838624891145507,104);(-3717556961324841,135);
   (-5106806425344157,142);(-3523369644381213,139);o;o;o;o;o];
  [o;o;o;o;o;o;o;o;o;o;o;o;o;o;o;o;o;o;o;o;o;o;o;o;o;o;o;o;o;o;o;o;o;o;o;o;o;o;o;o;o;o;o;o;o;o;o;o;o;o;o;o;o;o;o;o;o;
   o;o;o;o;o;o;o;o;o;o;o;o;o;o;o;o;o;o;o;o;o;o;o;o;o;o;o;o;o;o;o;o;o;o;o;o;o;o;o;o;o;o;o;o;o;o;o;o;
   (-8702611149915509,89);o;(1441151880758559,53);o;o;o;o;o;o;o;o;o;o;o;o;o;o;o;o;o;o;o;o;o;o;o;o;o;o;o];
  [o;o;o;o;o;o;o;o;o;o;o;o;o;o;o;o;o;o;o;o;o;o;o;o;o;o;o;o;o;o;o;o;o;o;o;o;o;o;o;o;o;o;o;o;o;o;o;o;o;o;o;o;o;o;o;o;o;
   o;o;o;o;o;o;o;o;o;o;o;o;o;o;o;o;o;o;o;o;o;o;o;o;o;o;o;o;o;o;o;o;o;o;o;o;o;o;o;o;o;o;o;o;o;o;o;o;o;
   (-6977707286419473,85);o;(3242591731706757,55);o;o;o;o;o;o;o;o;o;o;o;o;o;o;o;o;o;o;o;o;o;o;o;o;o;o];
  [o;o;o;o;o;o;o;o;o;o;o;o;o;o;o;o;o;o;o;o;o;o;o;o;o;o;o;o;o;o;o;o;o;o;o;o;o;o;o;o;o;o;o;o;o;o;o;o;o;o;o;o;o;o;o;o;o;
   o;o;o;o;o;o;o;o;o;o;o;o;o;o;o;o;o;o;o;o;o;o;o;o;o;o;o;o;o;o;o;o;o;o;o;o;o;o;o;o;o;o;o;o;o;o;o;o;
   (-1301012334879641,147);(-8922190897193967,148);o;o;(6511811888980171,158);o;o;o;o;o;o;o;o;o;o;o;o;o;o;o;o;o;o;o;o;
   o;o;o;o;o];
  [o;o;o;o;o;o;o;o;o;o;o;o;o;o;o;o;o;o;o;o;o;o;o;o;o;o;o;o;o;o;o;o;o;o;o;o;o;o;o;o;o;o;o;o;o;o;o;o;o;o;o;o;o;o;o;o;o;
   o;o;o;o;o;o;o;o;o;o;o;o;o;o;o;o;o;o;o;o;o;o;o;o;o;o;o;o;o;o;o;o;o;o;o;o;o;o;o;o;o;o;o;o;o;o;o;o;
   (-6619331968583909,137);(-495104311922101,131);o;o;o;(2998201944989881,142);o;o;o;o;o;o;o;o;o;o;o;o;o;o;o;o;o;o;o;
   o;o;o;o;o];
  [o;o;o;o;o;o;o;o;o;o;o;o;o;o;o;o;o;o;o;o;o;o;o;o;o;o;o;o;o;o;o;o;o;o;o;o;o;o;o;o;o;o;o;o;o;o;o;o;o;o;o;o;o;o;o;o;o;
   o;o;o;o;o;o;o;o;o;o;o;o;o;o;o;o;o;o;o;o;o;o;o;o;o;o;o;o;o;o;o;o;o;o;o;o;o;o;o;o;o;o;o;o;o;o;o;o;
   (-6272987290993241,143);(-1482028976426471,139);o;o;o;o;(8255558581571707,143);o;o;o;o;o;o;o;o;o;o;o;o;o;o;o;o;o;o;
   o;o;o;o;o];
  [o;o;o;o;o;o;o;o;o;o;o;o;o;o;o;o;o;o;o;o;o;o;o;o;o;o;o;o;o;o;o;o;o;o;o;o;o;o;o;o;o;o;o;o;o;o;o;o;o;o;o;o;o;o;o;o;o;
   o;o;o;o;o;o;o;o;o;o;o;o;o;o;o;o;o;o;o;o;o;o;o;o;o;o;o;o;o;o;o;o;o;o;o;o;o;o;o;o;o;o;o;o;o;o;o;o;
   (-5441836386067685,137);(-2710554104486697,134);o;o;o;o;o;(5834557904257315,134);o;o;o;o;o;o;o;o;o;o;o;o;o;o;o;o;o;
   o;o;o;o;o];
  [o;o;o;o;o;o;o;o;o;o;o;o;o;o;o;o;o;o;o;o;o;o;o;o;o;o;o;o;o;o;o;o;o;o;o;o;o;o;o;o;o;o;o;o;o;o;o;o;o;o;o;o;o;o;o;o;o;
   o;o;o;o;o;o;o;o;o;o;o;o;o;o;o;o;o;o;o;o;o;o;o;o;o;o;o;o;o;o;o;o;o;o;o;o;o;o;o;o;o;o;o;o;o;o;o;o;
   (-1726664331181011,125);(-8910711329732263,125);o;o;o;o;o;o;(5242262538896381,122);o;o;o;o;o;o;o;o;o;o;o;o;o;o;o;o;
   o;o;o;o;o];
  [o;o;o;o;o;o;o;o;o;o;o;o;o;o;o;o;o;o;o;o;o;o;o;o;o;o;o;o;o;o;o;o;o;o;o;o;o;o;o;o;o;o;o;o;o;o;o;o;o;o;o;o;o;o;o;o;o;
   o;o;o;o;o;o;o;o;o;o;o;o;o;o;o;o;o;o;o;o;o;o;o;o;o;o;o;o;o;o;o;o;o;o;o;o;o;o;o;o;o;o;o;o;o;o;o;o;
   (-5692784627506327,131);(-3388842148203769,128);o;o;o;o;o;o;o;(4556487231311029,123);o;o;o;o;o;o;o;o;o;o;o;o;o;o;o;
   o;o;o;o;o];
  [o;o;o;o;o;o;o;o;o;o;o;o;o;o;o;o;o;o;o;o;o;o;o;o;o;o;o;o;o;o;o;o;o;o;o;o;o;o;o;o;o;o;o;o;o;o;o;o;o;o;o;o;o;o;o;o;o;
   o;o;o;o;o;o;o;o;o;o;o;o;o;o;o;o;o;o;o;o;o;o;o;o;o;o;o;o;o;o;o;o;o;o;o;o;o;o;o;o;o;o;o;o;o;o;o;o;
   (-6911964913303743,103);o;o;o;o;o;o;o;o;o;(6207422163382047,64);o;o;o;o;o;o;o;o;o;o;o;o;o;o;o;o;o;o;o];
  [o;o;o;o;o;o;o;o;o;o;o;o;o;o;o;o;o;o;o;o;o;o;o;o;o;o;o;o;o;o;o;o;o;o;o;o;o;o;o;o;o;o;o;o;o;o;o;o;o;o;o;o;o;o;o;o;o;
   o;o;o;o;o;o;o;o;o;o;o;o;o;o;o;o;o;o;o;o;o;o;o;o;o;o;o;o;o;o;o;o;o;o;o;o;o;o;o;o;o;o;o;o;o;o;o;o;
   (-3877877977018707,98);o;o;o;o;o;o;o;o;o;o;(126158911684241,59);o;o;o;o;o;o;o;o;o;o;o;o;o;o;o;o;o;o];
  [o;o;o;o;o;o;o;o;o;o;o;o;o;o;o;o;o;o;o;o;o;o;o;o;o;o;o;o;o;o;o;o;o;o;o;o;o;o;o;o;o;o;o;o;o;o;o;o;o;o;o;o;o;o;o;o;o;
   o;o;o;o;o;o;o;o;o;o;o;o;o;o;o;o;o;o;o;o;o;o;o;o;o;o;o;o;o;o;o;o;o;o;o;o;o;o;o;o;o;o;o;o;o;o;o;o;
   (-3269878271168341,103);o;o;o;o;o;o;o;o;o;o;o;(508773659040207,60);o;o;o;o;o;(3463535454295877,61);o;o;o;o;o;o;o;o;
   o;o;o];
  [o;o;o;o;o;o;o;o;o;o;o;o;o;o;o;o;o;o;o;o;o;o;o;o;o;o;o;o;o;o;o;o;o;o;o;o;o;o;o;o;o;o;o;o;o;o;o;o;o;o;o;o;o;o;o;o;o;
   o;o;o;o;o;o;o;o;o;o;o;o;o;o;o;o;o;o;o;o;o;o;o;o;o;o;o;o;o;o;o;o;o;o;o;o;o;o;o;o;o;o;o;o;o;o;o;o;
   (-3648740193265571,102);o;o;o;o;o;o;o;o;o;o;o;o;(2848567298700815,62);o;o;o;o;o;o;o;o;o;o;o;o;o;o;o;o];
  [o;o;o;o;o;o;o;o;o;o;o;o;o;o;o;o;o;o;o;o;o;o;o;o;o;o;o;o;o;o;o;o;o;o;o;o;o;o;o;o;o;o;o;o;o;o;o;o;o;o;o;o;o;o;o;o;o;
   o;o;o;o;o;o;o;o;o;o;o;o;o;o;o;o;o;o;o;o;o;o;o;o;o;o;o;o;o;o;o;o;o;o;o;o;o;o;o;o;o;o;o;o;o;o;o;o;
   (-4782294302023737,100);o;o;o;o;o;o;o;o;o;o;o;o;o;(6540077981711053,65);o;o;o;o;o;o;o;o;o;o;o;o;o;o;o];
  [o;o;o;o;o;o;o;o;o;o;o;o;o;o;o;o;o;o;o;o;o;o;o;o;o;o;o;o;o;o;o;o;o;o;o;o;o;o;o;o;o;o;o;o;o;o;o;o;o;o;o;o;o;o;o;o;o;
   o;o;o;o;o;o;o;o;o;o;o;o;o;o;o;o;o;o;o;o;o;o;o;o;o;o;o;o;o;o;o;o;o;o;o;o;o;o;o;o;o;o;o;o;o;o;o;o;
   (-5301165343567543,101);o;o;o;o;o;o;o;o;o;o;o;o;o;o;(5813402650409823,62);o;o;o;o;o;o;o;o;o;o;o;o;o;o];
  [o;o;o;o;o;o;o;o;o;o;o;o;o;o;o;o;o;o;o;o;o;o;o;o;o;o;o;o;o;o;o;o;o;o;o;o;o;o;o;o;o;o;o;o;o;o;o;o;o;o;o;o;o;o;o;o;o;
   o;o;o;o;o;o;o;o;o;o;o;o;o;o;o;o;o;o;o;o;o;o;o;o;o;o;o;o;o;o;o;o;o;o;o;o;o;o;o;o;o;o;o;o;o;o;o;o;
   (-3766698402716925,102);(-795818413908963,96);o;o;o;o;o;o;o;o;o;o;o;o;o;o;(1441151880758559,59);o;o;o;o;o;o;o;o;o;
   o;o;o;o];
  [o;o;o;o;o;o;o;o;o;o;o;o;o;o;o;o;o;o;o;o;o;o;o;o;o;o;o;o;o;o;o;o;o;o;o;o;o;o;o;o;o;o;o;o;o;o;o;o;o;o;o;o;o;o;o;o;o;
   o;o;o;o;o;o;o;o;o;o;o;o;o;o;o;o;o;o;o;o;o;o;o;o;o;o;o;o;o;o;o;o;o;o;o;o;o;o;o;o;o;o;o;o;o;o;o;o;
   (-1248860770557957,97);(-5758405158320145,95);o;o;o;o;o;o;o;o;o;o;o;o;o;o;o;(4150517416584649,62);o;o;o;o;o;o;o;o;
   o;o;o;o];
  [o;o;o;o;o;o;o;o;o;o;o;o;o;o;o;o;o;o;o;o;o;o;o;o;o;o;o;o;o;o;o;o;o;o;o;o;o;o;o;o;o;o;o;o;o;o;o;o;o;o;o;o;o;o;o;o;o;
   o;o;o;o;o;o;o;o;o;o;o;o;o;o;o;o;o;o;o;o;o;o;o;o;o;o;o;o;o;o;o;o;o;o;o;o;o;o;o;o;o;o;o;o;o;o;o;o;
   (-2309928942576185,101);(-2166785950785369,97);o;o;o;o;o;o;o;o;o;o;(3463535454295877,61);o;o;o;o;o;
   (2334666046828865,58);o;o;o;o;o;o;o;o;o;o;o];
  [o;o;o;o;o;o;o;o;o;o;o;o;o;o;o;o;o;o;o;o;o;o;o;o;o;o;o;o;o;o;o;o;o;o;o;o;o;o;o;o;o;o;o;o;o;o;o;o;o;o;o;o;o;o;o;o;o;
   o;o;o;o;o;o;o;o;o;o;o;o;o;o;o;o;o;o;o;o;o;o;o;o;o;o;o;o;o;o;o;o;o;o;o;o;o;o;o;o;o;o;o;o;o;o;o;o;
   (-8149889850883541,103);(-1981530986921659,97);o;o;o;o;o;o;o;o;o;o;o;o;o;o;o;o;o;(5649315372573551,60);o;o;o;o;o;o;
   o;o;o;o];
  [o;o;o;o;o;o;o;o;o;o;o;o;o;o;o;o;o;o;o;o;o;o;o;o;o;o;o;o;o;o;o;o;o;o;o;o;o;o;o;o;o;o;o;o;o;o;o;o;o;o;o;o;o;o;o;o;o;
   o;o;o;o;o;o;o;o;o;o;o;o;o;o;o;o;o;o;o;o;o;o;o;o;o;o;o;o;o;o;o;o;o;o;o;o;o;o;o;o;o;o;o;o;o;o;o;o;
   (-1731466226172991,103);(-2188387236083845,99);o;o;o;o;o;o;o;o;o;o;o;o;o;o;o;o;o;o;(7231123676894145,67);o;o;o;o;o;
   o;o;o;o];
  [o;o;o;o;o;o;o;o;o;o;o;o;o;o;o;o;o;o;o;o;o;o;o;o;o;o;o;o;o;o;o;o;o;o;o;o;o;o;o;o;o;o;o;o;o;o;o;o;o;o;o;o;o;o;o;o;o;
   o;o;o;o;o;o;o;o;o;o;o;o;o;o;o;o;o;o;o;o;o;o;o;o;o;o;o;o;o;o;o;o;o;o;o;o;o;o;o;o;o;o;o;o;o;o;o;o;
   (-5665511719085001,108);(-6838624891145507,104);o;o;o;o;o;o;o;o;o;o;o;o;o;o;o;o;o;o;o;(4722366482869645,66);o;o;o;
   o;o;o;o;o];
  [o;o;o;o;o;o;o;o;o;o;o;o;o;o;o;o;o;o;o;o;o;o;o;o;o;o;o;o;o;o;o;o;o;o;o;o;o;o;o;o;o;o;o;o;o;o;o;o;o;o;o;o;o;o;o;o;o;
   o;o;o;o;o;o;o;o;o;o;o;o;o;o;o;o;o;o;o;o;o;o;o;o;o;o;o;o;o;o;o;o;o;o;o;o;o;o;o;o;o;o;o;o;o;o;o;o;
   (-6903419003731867,138);(-3717556961324841,135);o;o;o;o;o;o;o;o;o;o;o;o;o;o;o;o;o;o;o;o;(2672399782953035,135);o;o;
   o;o;o;o;o];
  [o;o;o;o;o;o;o;o;o;o;o;o;o;o;o;o;o;o;o;o;o;o;o;o;o;o;o;o;o;o;o;o;o;o;o;o;o;o;o;o;o;o;o;o;o;o;o;o;o;o;o;o;o;o;o;o;o;
   o;o;o;o;o;o;o;o;o;o;o;o;o;o;o;o;o;o;o;o;o;o;o;o;o;o;o;o;o;o;o;o;o;o;o;o;o;o;o;o;o;o;o;o;o;o;o;o;
   (-857645752274131,141);(-5106806425344157,142);o;o;o;o;o;o;o;o;o;o;o;o;o;o;o;o;o;o;o;o;o;(5954200844728803,140);o;
   o;o;o;o;o];
  [o;o;o;o;o;o;o;o;o;o;o;o;o;o;o;o;o;o;o;o;o;o;o;o;o;o;o;o;o;o;o;o;o;o;o;o;o;o;o;o;o;o;o;o;o;o;o;o;o;o;o;o;o;o;o;o;o;
   o;o;o;o;o;o;o;o;o;o;o;o;o;o;o;o;o;o;o;o;o;o;o;o;o;o;o;o;o;o;o;o;o;o;o;o;o;o;o;o;o;o;o;o;o;o;o;o;
   (-4576949038418871,141);(-3523369644381213,139);o;o;o;o;o;o;o;o;o;o;o;o;o;o;o;o;o;o;o;o;o;o;(5035090126855741,135);
   o;o;o;o;o];
  [o;o;o;o;o;o;o;o;o;o;o;o;o;o;o;o;o;o;o;o;o;o;o;o;o;o;o;o;o;o;o;o;o;o;o;o;o;o;o;o;o;o;o;o;o;o;o;o;o;o;o;o;o;o;o;o;o;
   o;o;o;o;o;o;o;o;o;o;o;o;o;o;o;o;o;o;o;o;o;o;o;o;o;o;o;o;o;o;o;o;o;o;o;o;o;o;o;o;o;o;o;o;o;o;o;o;o;o;o;o;o;o;o;o;o;
   o;o;o;o;o;o;o;o;o;o;o;o;o;o;o;o;(8778090693345521,59);o;o;o;o];
  [o;o;o;o;o;o;o;o;o;o;o;o;o;o;o;o;o;o;o;o;o;o;o;o;o;o;o;o;o;o;o;o;o;o;o;o;o;o;o;o;o;o;o;o;o;o;o;o;o;o;o;o;o;o;o;o;o;
   o;o;o;o;o;o;o;o;o;o;o;o;o;o;o;o;o;o;o;o;o;o;o;o;o;o;o;o;o;o;o;o;o;o;o;o;o;o;o;o;o;o;o;o;o;o;o;o;o;o;o;o;o;o;o;o;o;
   o;o;o;o;o;o;o;o;o;o;o;o;o;o;o;o;o;(7847071990730353,60);o;o;o];
  [o;o;o;o;o;o;o;o;o;o;o;o;o;o;o;o;o;o;o;o;o;o;o;o;o;o;o;o;o;o;o;o;o;o;o;o;o;o;o;o;o;o;o;o;o;o;o;o;o;o;o;o;o;o;o;o;o;
   o;o;o;o;o;o;o;o;o;o;o;o;o;o;o;o;o;o;o;o;o;o;o;o;o;o;o;o;o;o;o;o;o;o;o;o;o;o;o;o;o;o;o;o;o;o;o;o;o;o;o;o;o;o;o;o;o;
   o;o;o;o;o;o;o;o;o;o;o;o;o;o;o;o;o;o;(969030524622055,57);o;o];
  [o;o;o;o;o;o;o;o;o;o;o;o;o;o;o;o;o;o;o;o;o;o;o;o;o;o;o;o;o;o;o;o;o;o;o;o;o;o;o;o;o;o;o;o;o;o;o;o;o;o;o;o;o;o;o;o;o;
   o;o;o;o;o;o;o;o;o;o;o;o;o;o;o;o;o;o;o;o;o;o;o;o;o;o;o;o;o;o;o;o;o;o;o;o;o;o;o;o;o;o;o;o;o;o;o;o;o;o;o;o;o;o;o;o;o;
   o;o;o;o;o;o;o;o;o;o;o;o;o;o;o;o;o;o;o;(969030524622055,57);o];
  [o;o;o;o;o;o;o;o;o;o;o;o;o;o;o;o;o;o;o;o;o;o;o;o;o;o;o;o;o;o;o;o;o;o;o;o;o;o;o;o;o;o;o;o;o;o;o;o;o;o;o;o;o;o;o;o;o;
   o;o;o;o;o;o;o;o;o;o;o;o;o;o;o;o;o;o;o;o;o;o;o;o;o;o;o;o;o;o;o;o;o;o;o;o;o;o;o;o;o;o;o;o;o;o;o;o;o;o;o;o;o;o;o;o;o;
   o;o;o;o;o;o;o;o;o;o;o;o;o;o;o;o;o;o;o;o;(461168601842739,56)]].

