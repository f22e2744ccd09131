(** Contents of /repo/pyrtlib/climatology/*.dat, one row per level, generated from the text files.
    Each number is the shortest decimal that denotes the same binary64 value as the text in the file. *)

From Coq Require Import ZArith List.
Import ListNotations.
From Verif Require Import Arith.
Local Open Scope dec_scope.

(** tropical.dat *)
Definition dat_tropical : list (list dec) := [
  [0; 1013; 2.45e19; 299.7; 25930; 330; 0.02869; 0.32; 0.15; 1.7; 209000];
  [1; 904; 2.231e19; 293.7; 19490; 330; 0.0315; 0.32; 0.145; 1.7; 209000];
  [2; 805; 2.028e19; 287.7; 15340; 330; 0.03342; 0.32; 0.1399; 1.7; 209000];
  [3; 715; 1.827e19; 283.7; 8600; 330; 0.03504; 0.32; 0.1349; 1.7; 209000];
  [4; 633; 1.656e19; 277; 4441; 330; 0.03561; 0.32; 0.1312; 1.7; 209000];
  [5; 559; 1.499e19; 270.3; 3346; 330; 0.03767; 0.32; 0.1303; 1.7; 209000];
  [6; 492; 1.353e19; 263.6; 2101; 330; 0.03989; 0.32; 0.1288; 1.7; 209000];
  [7; 432; 1.218e19; 257; 1289; 330; 0.04223; 0.32; 0.1247; 1.699; 209000];
  [8; 378; 1.095e19; 250.3; 763.7; 330; 0.04471; 0.32; 0.1185; 1.697; 209000];
  [9; 329; 9.789e18; 243.6; 409.8; 330; 0.05; 0.3195; 0.1094; 1.693; 209000];
  [10; 286; 8.747e18; 237; 191.2; 330; 0.05595; 0.3179; 0.09962; 1.685; 209000];
  [11; 247; 7.78e18; 230.1; 73.06; 330; 0.06613; 0.314; 0.08964; 1.675; 209000];
  [12; 213; 6.904e18; 223.6; 29.05; 330; 0.07815; 0.3095; 0.07814; 1.662; 209000];
  [13; 182; 6.079e18; 217; 9.9; 330; 0.09289; 0.3048; 0.06374; 1.645; 209000];
  [14; 156; 5.377e18; 210.3; 6.22; 330; 0.105; 0.2999; 0.05025; 1.626; 209000];
  [15; 132; 4.697e18; 203.7; 4; 330; 0.1256; 0.2944; 0.03941; 1.605; 209000];
  [16; 111; 4.084e18; 197; 3; 330; 0.1444; 0.2877; 0.03069; 1.582; 209000];
  [17; 93.7; 3.486e18; 194.8; 2.9; 330; 0.25; 0.2783; 0.02489; 1.553; 209000];
  [18; 78.9; 2.877e18; 198.8; 2.75; 330; 0.5; 0.2671; 0.01966; 1.521; 209000];
  [19; 66.6; 2.381e18; 202.7; 2.6; 330; 0.95; 0.2527; 0.01549; 1.48; 209000];
  [20; 56.5; 1.981e18; 206.7; 2.6; 330; 1.4; 0.2365; 0.01331; 1.424; 209000];
  [21; 48; 1.651e18; 210.7; 2.65; 330; 1.8; 0.2194; 0.01232; 1.355; 209000];
  [22; 40.9; 1.381e18; 214.6; 2.8; 330; 2.4; 0.2051; 0.01232; 1.272; 209000];
  [23; 35; 1.169e18; 217; 2.9; 330; 3.4; 0.1967; 0.01307; 1.191; 209000];
  [24; 30; 9.92e17; 219.2; 3.2; 330; 4.3; 0.1875; 0.014; 1.118; 209000];
  [25; 25.7; 8.413e17; 221.4; 3.25; 330; 5.4; 0.1756; 0.01521; 1.055; 209000];
  [27.5; 17.63; 5.629e17; 227; 3.6; 330; 7.8; 0.1588; 0.01722; 0.987; 209000];
  [30; 12.2; 3.807e17; 232.3; 4; 330; 9.3; 0.1416; 0.01995; 0.9136; 209000];
  [32.5; 8.52; 2.598e17; 237.7; 4.3; 330; 9.85; 0.1165; 0.02266; 0.83; 209000];
  [35; 6; 1.789e17; 243.1; 4.6; 330; 9.7; 0.09275; 0.02487; 0.746; 209000];
  [37.5; 4.26; 1.243e17; 248.5; 4.9; 330; 8.8; 0.06693; 0.02738; 0.6618; 209000];
  [40; 3.05; 8.703e16; 254; 5.2; 330; 7.5; 0.04513; 0.03098; 0.5638; 209000];
  [42.5; 2.2; 6.147e16; 259.4; 5.5; 330; 5.9; 0.02751; 0.0351; 0.4614; 209000];
  [45; 1.59; 4.352e16; 264.8; 5.7; 330; 4.5; 0.01591; 0.03987; 0.3631; 209000];
  [47.5; 1.16; 3.119e16; 269.6; 5.9; 330; 3.45; 0.009378; 0.04482; 0.2773; 209000];
  [50; 0.854; 2.291e16; 270.2; 6; 330; 2.8; 0.004752; 0.05092; 0.21; 209000];
  [55; 0.456; 1.255e16; 263.4; 6; 330; 1.8; 0.003; 0.05985; 0.1651; 209000];
  [60; 0.239; 6844000000000000; 253.1; 6; 330; 1.1; 0.002065; 0.0696; 0.15; 209000];
  [65; 0.121; 3716000000000000; 236; 5.4; 330; 0.65; 0.001507; 0.09188; 0.15; 209000];
  [70; 0.058; 1920000000000000; 218.9; 4.5; 330; 0.3; 0.001149; 0.1938; 0.15; 209000];
  [75; 0.026; 933800000000000; 201.8; 3.3; 330; 0.18; 0.000889; 0.5688; 0.15; 209000];
  [80; 0.011; 431400000000000; 184.8; 2.1; 328; 0.33; 0.0007056; 1.549; 0.15; 209000];
  [85; 0.0044; 180100000000000; 177.1; 1.3; 320; 0.5; 0.0005716; 3.849; 0.15; 200000];
  [90; 0.00172; 70430000000000; 177; 0.85; 310; 0.52; 0.0004708; 6.59; 0.14; 190000];
  [95; 0.000688; 27060000000000; 184.3; 0.54; 270; 0.5; 0.0003932; 10.44; 0.13; 180000];
  [100; 0.000289; 10980000000000; 190.7; 0.4; 195; 0.4; 0.0003323; 17.05; 0.12; 160000];
  [105; 0.00013; 4445000000000; 212; 0.34; 110; 0.2; 0.0002837; 24.71; 0.11; 140000];
  [110; 6.47e-05; 1941000000000; 241.6; 0.28; 60; 0.05; 0.0002443; 33.58; 0.095; 120000];
  [115; 3.6e-05; 870600000000; 299.7; 0.24; 40; 0.005; 0.000212; 41.48; 0.06; 94000];
  [120; 2.25e-05; 422500000000; 380; 0.2; 35; 0.0005; 0.0001851; 50; 0.03; 72500]].

(** midlatitude_summer.dat *)
Definition dat_midlatitude_summer : list (list dec) := [
  [0; 1013; 2.496e19; 294.2; 18760; 330; 0.03017; 0.32; 0.15; 1.7; 209000];
  [1; 902; 2.257e19; 289.7; 13780; 330; 0.03337; 0.32; 0.145; 1.7; 209000];
  [2; 802; 2.038e19; 285.2; 9680; 330; 0.03694; 0.32; 0.1399; 1.7; 209000];
  [3; 710; 1.843e19; 279.2; 5984; 330; 0.04222; 0.32; 0.1349; 1.7; 209000];
  [4; 628; 1.666e19; 273.2; 3813; 330; 0.04821; 0.32; 0.1312; 1.697; 209000];
  [5; 554; 1.503e19; 267.2; 2225; 330; 0.05512; 0.32; 0.1303; 1.687; 209000];
  [6; 487; 1.351e19; 261.2; 1510; 330; 0.06408; 0.32; 0.1288; 1.672; 209000];
  [7; 426; 1.212e19; 254.7; 1020; 330; 0.07764; 0.32; 0.1247; 1.649; 209000];
  [8; 372; 1.086e19; 248.2; 646.4; 330; 0.09126; 0.3195; 0.1185; 1.629; 209000];
  [9; 324; 9.716e18; 241.7; 412.9; 330; 0.1111; 0.3163; 0.1094; 1.615; 209000];
  [10; 281; 8.656e18; 235.3; 247.2; 330; 0.1304; 0.3096; 0.09962; 1.579; 209000];
  [11; 243; 7.698e18; 228.8; 95.56; 330; 0.1793; 0.2989; 0.08964; 1.542; 209000];
  [12; 209; 6.814e18; 222.3; 29.44; 330; 0.223; 0.2936; 0.07814; 1.508; 209000];
  [13; 179; 6.012e18; 215.8; 8; 330; 0.3; 0.286; 0.06374; 1.479; 209000];
  [14; 153; 5.141e18; 215.7; 5; 330; 0.44; 0.28; 0.05025; 1.451; 209000];
  [15; 130; 4.368e18; 215.7; 3.4; 330; 0.5; 0.2724; 0.03941; 1.422; 209000];
  [16; 111; 3.73e18; 215.7; 3.3; 330; 0.6; 0.2611; 0.03069; 1.39; 209000];
  [17; 95; 3.192e18; 215.7; 3.2; 330; 0.7; 0.2421; 0.02489; 1.356; 209000];
  [18; 81.2; 2.715e18; 216.8; 3.15; 330; 1; 0.2174; 0.01966; 1.323; 209000];
  [19; 69.5; 2.312e18; 217.9; 3.2; 330; 1.5; 0.1843; 0.01549; 1.281; 209000];
  [20; 59.5; 1.967e18; 219.2; 3.3; 330; 2; 0.1607; 0.01331; 1.224; 209000];
  [21; 51; 1.677e18; 220.4; 3.45; 330; 2.4; 0.1323; 0.01232; 1.154; 209000];
  [22; 43.7; 1.429e18; 221.6; 3.6; 330; 2.9; 0.1146; 0.01232; 1.066; 209000];
  [23; 37.6; 1.223e18; 222.8; 3.85; 330; 3.4; 0.1035; 0.01307; 0.973; 209000];
  [24; 32.2; 1.042e18; 223.9; 4; 330; 4; 0.09622; 0.014; 0.88; 209000];
  [25; 27.7; 8.919e17; 225.1; 4.2; 330; 4.8; 0.08958; 0.01521; 0.7888; 209000];
  [27.5; 19.07; 6.05e17; 228.45; 4.45; 330; 6; 0.08006; 0.01722; 0.7046; 209000];
  [30; 13.2; 4.094e17; 233.7; 4.7; 330; 7; 0.06698; 0.01995; 0.6315; 209000];
  [32.5; 9.3; 2.82e17; 239; 4.85; 330; 8.1; 0.04958; 0.02266; 0.5592; 209000];
  [35; 6.52; 1.927e17; 245.2; 4.95; 330; 8.9; 0.03695; 0.02487; 0.5008; 209000];
  [37.5; 4.64; 1.338e17; 251.3; 5; 330; 8.7; 0.02519; 0.02716; 0.4453; 209000];
  [40; 3.33; 9.373e16; 257.5; 5.1; 330; 7.55; 0.01736; 0.02962; 0.3916; 209000];
  [42.5; 2.41; 6.624e16; 263.7; 5.3; 330; 5.9; 0.01158; 0.03138; 0.3389; 209000];
  [45; 1.76; 4.726e16; 269.9; 5.45; 330; 4.5; 0.007665; 0.03307; 0.2873; 209000];
  [47.5; 1.29; 3.398e16; 275.2; 5.5; 330; 3.5; 0.005321; 0.03487; 0.2384; 209000];
  [50; 0.951; 2.5e16; 275.7; 5.5; 330; 2.8; 0.003215; 0.03645; 0.1944; 209000];
  [55; 0.515; 1.386e16; 269.3; 5.35; 330; 1.8; 0.00203; 0.03923; 0.1574; 209000];
  [60; 0.272; 7668000000000000; 257.1; 5; 330; 1.3; 0.001397; 0.04673; 0.15; 209000];
  [65; 0.139; 4196000000000000; 240.1; 4.4; 330; 0.8; 0.00102; 0.06404; 0.15; 209000];
  [70; 0.067; 2227000000000000; 218.1; 3.7; 330; 0.4; 0.0007772; 0.1177; 0.15; 209000];
  [75; 0.03; 1109000000000000; 196.1; 2.95; 330; 0.19; 0.0006257; 0.2935; 0.15; 209000];
  [80; 0.012; 499600000000000; 174.1; 2.1; 328; 0.2; 0.0005166; 0.6815; 0.15; 209000];
  [85; 0.00448; 196700000000000; 165.1; 1.33; 320; 0.57; 0.0004352; 1.465; 0.15; 200000];
  [90; 0.00164; 72040000000000; 165; 0.85; 310; 0.75; 0.0003727; 2.849; 0.14; 190000];
  [95; 0.000625; 25410000000000; 178.3; 0.54; 270; 0.7; 0.0003237; 5.166; 0.13; 180000];
  [100; 0.000258; 9816000000000; 190.5; 0.4; 195; 0.4; 0.0002844; 10.08; 0.12; 160000];
  [105; 0.000117; 3816000000000; 222.2; 0.34; 110; 0.2; 0.0002524; 18.65; 0.11; 140000];
  [110; 6.11e-05; 1688000000000; 262.4; 0.28; 60; 0.05; 0.000226; 28.63; 0.095; 120000];
  [115; 3.56e-05; 814500000000; 316.8; 0.24; 40; 0.005; 0.0002039; 38.9; 0.06; 94000];
  [120; 2.27e-05; 433000000000; 380; 0.2; 35; 0.0005; 0.0001851; 50; 0.03; 72500]].

(** midlatitude_winter.dat *)
Definition dat_midlatitude_winter : list (list dec) := [
  [0; 1018; 2.711e19; 272.2; 4316; 330; 0.02778; 0.32; 0.15; 1.7; 209000];
  [1; 897.3; 2.42e19; 268.7; 3454; 330; 0.028; 0.32; 0.145; 1.7; 209000];
  [2; 789.7; 2.158e19; 265.2; 2788; 330; 0.02849; 0.32; 0.1399; 1.7; 209000];
  [3; 693.8; 1.922e19; 261.7; 2088; 330; 0.032; 0.32; 0.1349; 1.7; 209000];
  [4; 608.1; 1.724e19; 255.7; 1280; 330; 0.03567; 0.32; 0.1312; 1.697; 209000];
  [5; 531.3; 1.542e19; 249.7; 824.1; 330; 0.0472; 0.32; 0.1303; 1.687; 209000];
  [6; 462.7; 1.376e19; 243.7; 510.3; 330; 0.05837; 0.32; 0.1288; 1.672; 209000];
  [7; 401.6; 1.225e19; 237.7; 232.1; 330; 0.07891; 0.32; 0.1247; 1.649; 209000];
  [8; 347.3; 1.086e19; 231.7; 107.7; 330; 0.1039; 0.3195; 0.1185; 1.629; 209000];
  [9; 299.3; 9.612e18; 225.7; 55.66; 330; 0.1567; 0.3163; 0.1094; 1.615; 209000];
  [10; 256.8; 8.472e18; 219.7; 29.6; 330; 0.237; 0.3096; 0.09962; 1.579; 209000];
  [11; 219.9; 7.271e18; 219.2; 10; 330; 0.3624; 0.2989; 0.08964; 1.542; 209000];
  [12; 188.2; 6.237e18; 218.7; 6; 330; 0.5232; 0.2936; 0.07814; 1.508; 209000];
  [13; 161.1; 5.351e18; 218.2; 5; 330; 0.7036; 0.286; 0.06374; 1.479; 209000];
  [14; 137.8; 4.588e18; 217.7; 4.8; 330; 0.8; 0.28; 0.05025; 1.451; 209000];
  [15; 117.8; 3.931e18; 217.2; 4.7; 330; 0.9; 0.2724; 0.03941; 1.422; 209000];
  [16; 100.7; 3.368e18; 216.7; 4.6; 330; 1.1; 0.2611; 0.03069; 1.39; 209000];
  [17; 86.1; 2.886e18; 216.2; 4.5; 330; 1.4; 0.2421; 0.02489; 1.356; 209000];
  [18; 73.6; 2.473e18; 215.7; 4.5; 330; 1.8; 0.2174; 0.01966; 1.323; 209000];
  [19; 62.8; 2.115e18; 215.2; 4.5; 330; 2.3; 0.1843; 0.01549; 1.281; 209000];
  [20; 53.7; 1.809e18; 215.2; 4.5; 330; 2.9; 0.1621; 0.01331; 1.224; 209000];
  [21; 45.8; 1.543e18; 215.2; 4.5; 330; 3.5; 0.1362; 0.01232; 1.154; 209000];
  [22; 39.1; 1.317e18; 215.2; 4.53; 330; 3.9; 0.123; 0.01232; 1.066; 209000];
  [23; 33.4; 1.125e18; 215.2; 4.55; 330; 4.3; 0.1124; 0.01307; 0.973; 209000];
  [24; 28.6; 9.633e17; 215.2; 4.6; 330; 4.7; 0.1048; 0.014; 0.88; 209000];
  [25; 24.4; 8.218e17; 215.2; 4.65; 330; 5.1; 0.09661; 0.01498; 0.7931; 209000];
  [27.5; 16.46; 5.536e17; 215.5; 4.7; 330; 5.6; 0.08693; 0.01598; 0.713; 209000];
  [30; 11.1; 3.701e17; 217.4; 4.75; 330; 6.1; 0.07524; 0.0171; 0.6438; 209000];
  [32.5; 7.56; 2.486e17; 220.4; 4.8; 330; 6.8; 0.06126; 0.0185; 0.5746; 209000];
  [35; 5.18; 1.647e17; 227.9; 4.85; 330; 7.1; 0.05116; 0.01997; 0.505; 209000];
  [37.5; 3.6; 1.108e17; 235.5; 4.9; 330; 7.2; 0.03968; 0.02147; 0.4481; 209000];
  [40; 2.53; 7.54e16; 243.2; 4.95; 330; 6.9; 0.02995; 0.02331; 0.3931; 209000];
  [42.5; 1.8; 5.202e16; 250.8; 5; 330; 5.9; 0.0208; 0.02622; 0.3395; 209000];
  [45; 1.29; 3.617e16; 258.5; 5; 330; 4.6; 0.01311; 0.03057; 0.2876; 209000];
  [47.5; 0.94; 2.57e16; 265.1; 5; 330; 3.7; 0.008071; 0.03803; 0.2386; 209000];
  [50; 0.683; 1.863e16; 265.7; 4.95; 330; 2.75; 0.004164; 0.06245; 0.1944; 209000];
  [55; 0.362; 1.007e16; 260.6; 4.85; 330; 1.7; 0.002629; 0.148; 0.1574; 209000];
  [60; 0.188; 5433000000000000; 250.8; 4.5; 330; 1; 0.001809; 0.2926; 0.15; 209000];
  [65; 0.095; 2858000000000000; 240.9; 4; 330; 0.55; 0.001321; 0.5586; 0.15; 209000];
  [70; 0.047; 1477000000000000; 230.7; 3.3; 330; 0.32; 0.001007; 1.078; 0.15; 209000];
  [75; 0.0222; 730100000000000; 220.4; 2.7; 330; 0.25; 0.0007883; 1.897; 0.15; 209000];
  [80; 0.0103; 355300000000000; 210.1; 2; 328; 0.23; 0.0006333; 2.96; 0.15; 209000];
  [85; 0.00456; 165400000000000; 199.8; 1.33; 320; 0.55; 0.0005194; 4.526; 0.15; 200000];
  [90; 0.00198; 71940000000000; 199.5; 0.85; 310; 0.8; 0.0004333; 6.862; 0.14; 190000];
  [95; 0.000877; 30520000000000; 208.3; 0.54; 270; 0.8; 0.0003666; 10.54; 0.13; 180000];
  [100; 0.0004074; 13510000000000; 218.6; 0.4; 195; 0.4; 0.000314; 17.09; 0.12; 160000];
  [105; 0.0002; 6114000000000; 237.1; 0.34; 110; 0.2; 0.0002717; 24.73; 0.11; 140000];
  [110; 0.0001057; 2952000000000; 259.5; 0.28; 60; 0.05; 0.0002373; 33.59; 0.095; 120000];
  [115; 5.98e-05; 1479000000000; 293; 0.24; 40; 0.005; 0.0002089; 41.49; 0.06; 94000];
  [120; 3.6e-05; 783600000000; 333; 0.2; 35; 0.0005; 0.0001851; 50; 0.03; 72500]].

(** subarctic_summer.dat *)
Definition dat_subarctic_summer : list (list dec) := [
  [0; 1010; 2.549e19; 287.2; 11940; 330; 0.02412; 0.31; 0.15; 1.7; 209000];
  [1; 896; 2.305e19; 281.7; 8701; 330; 0.0294; 0.31; 0.145; 1.7; 209000];
  [2; 792.9; 2.08e19; 276.3; 6750; 330; 0.03379; 0.31; 0.1399; 1.7; 209000];
  [3; 700; 1.873e19; 270.9; 4820; 330; 0.03887; 0.31; 0.1349; 1.7; 209000];
  [4; 616; 1.682e19; 265.5; 3380; 330; 0.04478; 0.3079; 0.1312; 1.697; 209000];
  [5; 541; 1.508e19; 260.1; 2218; 330; 0.05328; 0.3024; 0.1303; 1.687; 209000];
  [6; 474; 1.357e19; 253.1; 1330; 330; 0.06564; 0.2906; 0.1288; 1.672; 209000];
  [7; 413; 1.216e19; 246.1; 797.1; 330; 0.07738; 0.2822; 0.1247; 1.649; 209000];
  [8; 359; 1.088e19; 239.2; 399.6; 330; 0.09114; 0.2759; 0.1185; 1.629; 209000];
  [9; 310.8; 9.701e18; 232.2; 130; 330; 0.142; 0.2703; 0.1094; 1.615; 209000];
  [10; 267.7; 8.616e18; 225.2; 42.4; 330; 0.189; 0.2651; 0.09962; 1.579; 209000];
  [11; 230; 7.402e18; 225.2; 13.3; 330; 0.305; 0.26; 0.08964; 1.542; 209000];
  [12; 197.7; 6.363e18; 225.2; 6; 330; 0.41; 0.2549; 0.07814; 1.506; 209000];
  [13; 170; 5.471e18; 225.2; 4.45; 330; 0.5; 0.2494; 0.06374; 1.471; 209000];
  [14; 146; 4.699e18; 225.2; 4; 330; 0.6; 0.2433; 0.05025; 1.434; 209000];
  [15; 126; 4.055e18; 225.2; 4; 330; 0.7; 0.2355; 0.03941; 1.389; 209000];
  [16; 108; 3.476e18; 225.2; 4; 330; 0.85; 0.2282; 0.03069; 1.342; 209000];
  [17; 92.8; 2.987e18; 225.2; 4.05; 330; 1; 0.2179; 0.02489; 1.29; 209000];
  [18; 79.8; 2.568e18; 225.2; 4.3; 330; 1.3; 0.2035; 0.01966; 1.23; 209000];
  [19; 68.6; 2.208e18; 225.2; 4.5; 330; 1.7; 0.1817; 0.01549; 1.157; 209000];
  [20; 59; 1.899e18; 225.2; 4.6; 330; 2.1; 0.1567; 0.01331; 1.072; 209000];
  [21; 50.7; 1.632e18; 225.2; 4.7; 330; 2.7; 0.135; 0.01232; 0.9903; 209000];
  [22; 43.6; 1.403e18; 225.2; 4.8; 330; 3.3; 0.1218; 0.01232; 0.917; 209000];
  [23; 37.5; 1.207e18; 225.2; 4.83; 330; 3.7; 0.1102; 0.01307; 0.8574; 209000];
  [24; 32.28; 1.033e18; 226.6; 4.85; 330; 4.2; 0.09893; 0.014; 0.8013; 209000];
  [25; 27.8; 8.834e17; 228.1; 4.9; 330; 4.5; 0.08775; 0.0151; 0.7477; 209000];
  [27.5; 19.23; 6.034e17; 231; 4.95; 330; 5.3; 0.07327; 0.01649; 0.6956; 209000];
  [30; 13.4; 4.131e17; 235.1; 5; 330; 5.7; 0.05941; 0.01808; 0.6442; 209000];
  [32.5; 9.4; 2.839e17; 240; 5; 330; 6.9; 0.04154; 0.01997; 0.5888; 209000];
  [35; 6.61; 1.938e17; 247.2; 5; 330; 7.7; 0.03032; 0.02183; 0.524; 209000];
  [37.5; 4.72; 1.344e17; 254.6; 5; 330; 7.8; 0.01949; 0.02343; 0.4506; 209000];
  [40; 3.4; 9.402e16; 262.1; 5; 330; 7; 0.01274; 0.02496; 0.3708; 209000];
  [42.5; 2.48; 6.67e16; 269.5; 5; 330; 5.4; 0.009001; 0.02647; 0.2992; 209000];
  [45; 1.82; 4.821e16; 273.6; 5; 330; 4.2; 0.006286; 0.02809; 0.2445; 209000];
  [47.5; 1.34; 3.516e16; 276.2; 5; 330; 3.2; 0.004558; 0.02999; 0.2; 209000];
  [50; 0.987; 2.581e16; 277.2; 4.95; 330; 2.5; 0.002795; 0.0322; 0.166; 209000];
  [55; 0.537; 1.421e16; 274; 4.85; 330; 1.7; 0.001765; 0.0365; 0.15; 209000];
  [60; 0.288; 7946000000000000; 262.7; 4.5; 330; 1.2; 0.001214; 0.04589; 0.15; 209000];
  [65; 0.147; 4445000000000000; 239.7; 4; 330; 0.8; 0.0008866; 0.06375; 0.15; 209000];
  [70; 0.071; 2376000000000000; 216.6; 3.3; 330; 0.4; 0.0006756; 0.1176; 0.15; 209000];
  [75; 0.032; 1198000000000000; 193.6; 2.7; 330; 0.2; 0.0005538; 0.3033; 0.15; 209000];
  [80; 0.0125; 531100000000000; 170.6; 2; 328; 0.18; 0.0004649; 0.7894; 0.15; 209000];
  [85; 0.00451; 202200000000000; 161.7; 1.33; 320; 0.65; 0.0003979; 1.823; 0.15; 200000];
  [90; 0.00161; 72210000000000; 161.6; 0.85; 310; 0.9; 0.0003459; 3.402; 0.14; 190000];
  [95; 0.000606; 24840000000000; 176.8; 0.54; 270; 0.8; 0.0003047; 5.916; 0.13; 180000];
  [100; 0.000248; 9441000000000; 190.4; 0.4; 195; 0.4; 0.0002713; 10.43; 0.12; 160000];
  [105; 0.000113; 3624000000000; 226; 0.34; 110; 0.2; 0.0002439; 18.81; 0.11; 140000];
  [110; 6e-05; 1610000000000; 270.1; 0.28; 60; 0.05; 0.000221; 28.69; 0.095; 120000];
  [115; 3.54e-05; 795100000000; 322.7; 0.24; 40; 0.005; 0.0002017; 38.92; 0.06; 94000];
  [120; 2.26e-05; 431100000000; 380; 0.2; 35; 0.0005; 0.0001851; 50; 0.03; 72500]].

(** subarctic_winter.dat *)
Definition dat_subarctic_winter : list (list dec) := [
  [0; 1013; 2.855e19; 257.2; 1405; 330; 0.01802; 0.32; 0.15; 1.7; 209000];
  [1; 887.8; 2.484e19; 259.1; 1615; 330; 0.02072; 0.32; 0.145; 1.7; 209000];
  [2; 777.5; 2.202e19; 255.9; 1427; 330; 0.02336; 0.32; 0.1399; 1.7; 209000];
  [3; 679.8; 1.95e19; 252.7; 1166; 330; 0.02767; 0.32; 0.1349; 1.7; 209000];
  [4; 593.2; 1.736e19; 247.7; 789.8; 330; 0.03253; 0.32; 0.1312; 1.697; 209000];
  [5; 515.8; 1.552e19; 240.9; 430.9; 330; 0.03801; 0.32; 0.1303; 1.687; 209000];
  [6; 446.7; 1.383e19; 234.1; 236.9; 330; 0.04446; 0.32; 0.1288; 1.672; 209000];
  [7; 385.3; 1.229e19; 227.3; 147; 330; 0.07252; 0.32; 0.1247; 1.649; 209000];
  [8; 330.8; 1.087e19; 220.6; 33.84; 330; 0.104; 0.3195; 0.1185; 1.629; 209000];
  [9; 282.9; 9.44e18; 217.2; 29.76; 330; 0.21; 0.3163; 0.1094; 1.615; 209000];
  [10; 241.8; 8.069e18; 217.2; 20; 330; 0.3; 0.3096; 0.09962; 1.579; 209000];
  [11; 206.7; 6.898e18; 217.2; 10; 330; 0.35; 0.2989; 0.08964; 1.542; 209000];
  [12; 176.6; 5.893e18; 217.2; 6; 330; 0.4; 0.2936; 0.07814; 1.506; 209000];
  [13; 151; 5.039e18; 217.2; 4.45; 330; 0.65; 0.286; 0.06374; 1.471; 209000];
  [14; 129.1; 4.308e18; 217.2; 4.5; 330; 0.9; 0.28; 0.05025; 1.434; 209000];
  [15; 110.3; 3.681e18; 217.2; 4.55; 330; 1.2; 0.2724; 0.03941; 1.389; 209000];
  [16; 94.31; 3.156e18; 216.6; 4.6; 330; 1.5; 0.2611; 0.03069; 1.342; 209000];
  [17; 80.58; 2.704e18; 216; 4.65; 330; 1.9; 0.2421; 0.02489; 1.29; 209000];
  [18; 68.82; 2.316e18; 215.4; 4.7; 330; 2.45; 0.2174; 0.01966; 1.23; 209000];
  [19; 58.75; 1.982e18; 214.8; 4.75; 330; 3.1; 0.1843; 0.01549; 1.161; 209000];
  [20; 50.14; 1.697e18; 214.2; 4.8; 330; 3.7; 0.1621; 0.01331; 1.084; 209000];
  [21; 42.77; 1.451e18; 213.6; 4.85; 330; 4; 0.1362; 0.01232; 1.014; 209000];
  [22; 36.47; 1.241e18; 213; 4.9; 330; 4.2; 0.123; 0.01232; 0.9561; 209000];
  [23; 31.09; 1.061e18; 212.4; 4.95; 330; 4.5; 0.1122; 0.01307; 0.9009; 209000];
  [24; 26.49; 9.065e17; 211.8; 5; 330; 4.6; 0.1043; 0.014; 0.8479; 209000];
  [25; 22.56; 7.742e17; 211.2; 5; 330; 4.7; 0.0957; 0.01521; 0.7961; 209000];
  [27.5; 15.13; 5.134e17; 213.6; 5; 330; 4.9; 0.08598; 0.01722; 0.7449; 209000];
  [30; 10.2; 3.423e17; 216; 5; 330; 5.4; 0.07314; 0.02037; 0.6941; 209000];
  [32.5; 6.91; 2.292e17; 218.5; 5; 330; 5.9; 0.0571; 0.02486; 0.6434; 209000];
  [35; 4.701; 1.533e17; 222.3; 5; 330; 6.2; 0.0467; 0.03168; 0.5883; 209000];
  [37.5; 3.23; 1.025e17; 228.5; 5; 330; 6.25; 0.03439; 0.04429; 0.5238; 209000];
  [40; 2.243; 6.927e16; 234.7; 5; 330; 5.9; 0.02471; 0.06472; 0.4505; 209000];
  [42.5; 1.57; 4.726e16; 240.8; 5; 330; 5.1; 0.01631; 0.1041; 0.3708; 209000];
  [45; 1.113; 3.266e16; 247; 5; 330; 4.1; 0.01066; 0.1507; 0.3004; 209000];
  [47.5; 0.79; 2.261e16; 253.2; 5; 330; 3; 0.007064; 0.2163; 0.2453; 209000];
  [50; 0.5719; 1.599e16; 259.3; 4.95; 330; 2.6; 0.003972; 0.3141; 0.198; 209000];
  [55; 0.299; 8364000000000000; 259.1; 4.85; 330; 1.6; 0.002508; 0.4842; 0.159; 209000];
  [60; 0.155; 4478000000000000; 250.9; 4.5; 330; 0.95; 0.001726; 0.7147; 0.15; 209000];
  [65; 0.079; 2305000000000000; 248.4; 4; 330; 0.65; 0.00126; 1.067; 0.15; 209000];
  [70; 0.04; 1181000000000000; 245.4; 3.3; 330; 0.5; 0.0009602; 1.516; 0.15; 209000];
  [75; 0.02; 617600000000000; 234.7; 2.7; 330; 0.33; 0.0007554; 2.166; 0.15; 209000];
  [80; 0.00966; 312700000000000; 223.9; 2; 328; 0.13; 0.0006097; 3.06; 0.15; 209000];
  [85; 0.0045; 153100000000000; 213.1; 1.33; 320; 0.75; 0.0005024; 4.564; 0.15; 200000];
  [90; 0.002022; 72440000000000; 202.3; 0.85; 310; 0.8; 0.000421; 6.877; 0.14; 190000];
  [95; 0.000907; 31160000000000; 211; 0.54; 270; 0.8; 0.0003579; 10.55; 0.13; 180000];
  [100; 0.000423; 14030000000000; 218.5; 0.4; 195; 0.4; 0.000308; 17.1; 0.12; 160000];
  [105; 0.000207; 6412000000000; 234; 0.34; 110; 0.2; 0.0002678; 24.73; 0.11; 140000];
  [110; 0.000108; 3099000000000; 252.6; 0.28; 60; 0.05; 0.000235; 33.59; 0.095; 120000];
  [115; 6e-05; 1507000000000; 288.5; 0.24; 40; 0.005; 0.0002079; 41.49; 0.06; 94000];
  [120; 3.59e-05; 781400000000; 333; 0.2; 35; 0.0005; 0.0001851; 50; 0.03; 72500]].

(** us_standard.dat *)
Definition dat_us_standard : list (list dec) := [
  [0; 1013; 2.548e19; 288.2; 7745; 330; 0.0266; 0.32; 0.15; 1.7; 209000];
  [1; 898.8; 2.313e19; 281.7; 6071; 330; 0.02931; 0.32; 0.145; 1.7; 209000];
  [2; 795; 2.094e19; 275.2; 4631; 330; 0.03237; 0.32; 0.1399; 1.7; 209000];
  [3; 701.2; 1.891e19; 268.7; 3182; 330; 0.03318; 0.32; 0.1349; 1.7; 209000];
  [4; 616.6; 1.704e19; 262.2; 2158; 330; 0.03387; 0.32; 0.1312; 1.7; 209000];
  [5; 540.5; 1.532e19; 255.7; 1397; 330; 0.03768; 0.32; 0.1303; 1.7; 209000];
  [6; 472.2; 1.373e19; 249.2; 925.4; 330; 0.04112; 0.32; 0.1288; 1.7; 209000];
  [7; 411.1; 1.228e19; 242.7; 572; 330; 0.05009; 0.32; 0.1247; 1.699; 209000];
  [8; 356.5; 1.094e19; 236.2; 366.7; 330; 0.05966; 0.32; 0.1185; 1.697; 209000];
  [9; 308; 9.719e18; 229.7; 158.3; 330; 0.09168; 0.3195; 0.1094; 1.693; 209000];
  [10; 265; 8.602e18; 223.3; 69.96; 330; 0.1313; 0.3179; 0.09962; 1.685; 209000];
  [11; 227; 7.589e18; 216.8; 36.13; 330; 0.2149; 0.314; 0.08964; 1.675; 209000];
  [12; 194; 6.489e18; 216.7; 19.06; 330; 0.3095; 0.3095; 0.07814; 1.662; 209000];
  [13; 165.8; 5.546e18; 216.7; 10.85; 330; 0.3846; 0.3048; 0.06374; 1.645; 209000];
  [14; 141.7; 4.739e18; 216.7; 5.927; 330; 0.503; 0.2999; 0.05025; 1.626; 209000];
  [15; 121.1; 4.05e18; 216.7; 5; 330; 0.6505; 0.2944; 0.03941; 1.605; 209000];
  [16; 103.5; 3.462e18; 216.7; 3.95; 330; 0.8701; 0.2877; 0.03069; 1.582; 209000];
  [17; 88.5; 2.96e18; 216.7; 3.85; 330; 1.187; 0.2783; 0.02489; 1.553; 209000];
  [18; 75.65; 2.53e18; 216.7; 3.825; 330; 1.587; 0.2671; 0.01966; 1.521; 209000];
  [19; 64.67; 2.163e18; 216.7; 3.85; 330; 2.03; 0.2527; 0.01549; 1.48; 209000];
  [20; 55.29; 1.849e18; 216.7; 3.9; 330; 2.579; 0.2365; 0.01331; 1.424; 209000];
  [21; 47.29; 1.575e18; 217.6; 3.975; 330; 3.028; 0.2194; 0.01232; 1.355; 209000];
  [22; 40.47; 1.342e18; 218.6; 4.065; 330; 3.647; 0.2051; 0.01232; 1.272; 209000];
  [23; 34.67; 1.144e18; 219.6; 4.2; 330; 4.168; 0.1967; 0.01307; 1.191; 209000];
  [24; 29.72; 9.765e17; 220.6; 4.3; 330; 4.627; 0.1875; 0.014; 1.118; 209000];
  [25; 25.49; 8.337e17; 221.6; 4.425; 330; 5.118; 0.1756; 0.01498; 1.055; 209000];
  [27.5; 17.43; 5.64e17; 224; 4.575; 330; 5.803; 0.1588; 0.01598; 0.987; 209000];
  [30; 11.97; 3.83e17; 226.5; 4.725; 330; 6.553; 0.1416; 0.0171; 0.9136; 209000];
  [32.5; 8.01; 2.524e17; 230; 4.825; 330; 7.373; 0.1165; 0.0185; 0.83; 209000];
  [35; 5.746; 1.761e17; 236.5; 4.9; 330; 7.837; 0.09275; 0.02009; 0.746; 209000];
  [37.5; 4.15; 1.238e17; 242.9; 4.95; 330; 7.8; 0.06693; 0.0222; 0.6618; 209000];
  [40; 2.871; 8.31e16; 250.4; 5.025; 330; 7.3; 0.04513; 0.02497; 0.5638; 209000];
  [42.5; 2.06; 5.803e16; 257.3; 5.15; 330; 6.2; 0.02751; 0.02824; 0.4614; 209000];
  [45; 1.491; 4.09e16; 264.2; 5.225; 330; 5.25; 0.01591; 0.03241; 0.3631; 209000];
  [47.5; 1.09; 2.92e16; 270.6; 5.25; 330; 4.1; 0.009378; 0.03717; 0.2773; 209000];
  [50; 0.7978; 2.136e16; 270.7; 5.225; 330; 3.1; 0.004752; 0.04597; 0.21; 209000];
  [55; 0.425; 1.181e16; 260.8; 5.1; 330; 1.8; 0.003; 0.06639; 0.165; 209000];
  [60; 0.219; 6426000000000000; 247; 4.75; 330; 1.1; 0.002065; 0.1073; 0.15; 209000];
  [65; 0.109; 3386000000000000; 233.3; 4.2; 330; 0.7; 0.001507; 0.1862; 0.15; 209000];
  [70; 0.0522; 1723000000000000; 219.6; 3.5; 330; 0.3; 0.001149; 0.3059; 0.15; 209000];
  [75; 0.024; 834700000000000; 208.4; 2.825; 330; 0.25; 0.000889; 0.6375; 0.15; 209000];
  [80; 0.0105; 383200000000000; 198.6; 2.05; 328; 0.3; 0.0007056; 1.497; 0.15; 209000];
  [85; 0.00446; 171100000000000; 188.9; 1.33; 320; 0.5; 0.0005716; 3.239; 0.15; 200000];
  [90; 0.00184; 71360000000000; 186.9; 0.85; 310; 0.7; 0.0004708; 5.843; 0.14; 190000];
  [95; 0.00076; 29240000000000; 188.4; 0.54; 270; 0.7; 0.0003932; 10.13; 0.13; 180000];
  [100; 0.00032; 11890000000000; 195.1; 0.4; 195; 0.4; 0.0003323; 16.92; 0.12; 160000];
  [105; 0.000145; 5033000000000; 208.8; 0.34; 110; 0.2; 0.0002837; 24.67; 0.11; 140000];
  [110; 7.1e-05; 2144000000000; 240; 0.28; 60; 0.05; 0.0002443; 33.56; 0.095; 120000];
  [115; 4.01e-05; 968800000000; 300; 0.24; 40; 0.005; 0.000212; 41.48; 0.06; 94000];
  [120; 2.54e-05; 511400000000; 360; 0.2; 35; 0.0005; 0.0001851; 50; 0.03; 72500]].

(** gas_minor.dat *)
Definition dat_gas_minor : list (list dec) := [
  [0.0003; 0.0003; 2.3e-05; 0.0005; 5e-05; 4.4e-08; 1e-08; 0.001; 1.7e-06; 3e-06; 1e-08; 0.0006; 0.0024; 7.7e-06; 781000; 0.00017; 0.0007; 0.0002; 0.0003; 0.002; 1e-14];
  [0.0003; 0.000274; 2.3e-05; 0.0005; 5.96e-05; 4.4e-08; 1e-08; 0.000749; 1.7e-06; 3e-06; 1e-08; 0.00059; 0.00107; 1.06e-05; 781000; 0.000165; 0.00067; 0.000195; 0.000172; 0.002; 1e-14];
  [0.0003; 0.000236; 2.3e-05; 0.000463; 6.93e-05; 4.4e-08; 1.23e-08; 0.000561; 1.7e-06; 3e-06; 1e-08; 0.00058; 0.000404; 1.22e-05; 781000; 0.000163; 0.000643; 0.000192; 9.57e-05; 0.002; 1e-14];
  [0.0003; 0.00019; 2.3e-05; 0.00038; 7.91e-05; 4.4e-08; 1.97e-08; 0.000422; 1.7e-06; 3e-06; 1e-08; 0.00057; 0.000227; 1.14e-05; 781000; 0.000161; 0.000622; 0.000189; 6.74e-05; 0.002; 1e-14];
  [0.0003; 0.000146; 2.3e-05; 0.000288; 8.87e-05; 4.4e-08; 3.18e-08; 0.000319; 1.7e-06; 3e-06; 1e-08; 0.000562; 0.00014; 9.8e-06; 781000; 0.00016; 0.000607; 0.000184; 5.07e-05; 0.00198; 1e-14];
  [0.0003; 0.000118; 2.3e-05; 0.000204; 9.75e-05; 4.4e-08; 5.63e-08; 0.000239; 1.7e-06; 3e-06; 1e-08; 0.000555; 0.0001; 8.01e-06; 781000; 0.00016; 0.000602; 0.000177; 3.99e-05; 0.00195; 1e-14];
  [0.0003; 9.71e-05; 2.3e-05; 0.000146; 0.000111; 4.4e-08; 9.18e-08; 0.000179; 1.7e-06; 3e-06; 1e-08; 0.000548; 7.44e-05; 6.42e-06; 781000; 0.00016; 0.0006; 0.000166; 3.19e-05; 0.0019; 1e-14];
  [0.0003; 8.3e-05; 2.3e-05; 9.88e-05; 0.000126; 4.41e-08; 1.53e-07; 0.000132; 1.7e-06; 3e-06; 1e-08; 0.00054; 6.04e-05; 5.42e-06; 781000; 0.00016; 0.0006; 0.000149; 2.8e-05; 0.00185; 1e-14];
  [0.0003; 7.21e-05; 2.3e-05; 6.48e-05; 0.000139; 4.45e-08; 2.41e-07; 9.96e-05; 1.7e-06; 3e-06; 1.01e-08; 0.000532; 5.01e-05; 4.7e-06; 781000; 0.00016; 0.000598; 0.000123; 2.55e-05; 0.00179; 1e-14];
  [0.0003; 6.56e-05; 2.32e-05; 3.77e-05; 0.000153; 4.56e-08; 4.04e-07; 7.48e-05; 1.7e-06; 3e-06; 1.05e-08; 0.000525; 4.22e-05; 4.41e-06; 781000; 0.00016; 0.000594; 9.09e-05; 2.4e-05; 0.00172; 1e-14];
  [0.0003; 6.08e-05; 2.38e-05; 2.03e-05; 0.000174; 4.68e-08; 6.57e-07; 5.68e-05; 1.7e-06; 3e-06; 1.21e-08; 0.000518; 3.63e-05; 4.34e-06; 781000; 0.00016; 0.000588; 5.79e-05; 2.27e-05; 0.00158; 1e-14];
  [0.0003; 5.79e-05; 2.62e-05; 1.09e-05; 0.000202; 4.8e-08; 1.2e-06; 4.59e-05; 1.7e-06; 3e-06; 1.87e-08; 0.000509; 3.43e-05; 4.65e-06; 781000; 0.00016; 0.000579; 3.43e-05; 2.08e-05; 0.0013; 1e-14];
  [0.0003; 5.6e-05; 3.15e-05; 6.3e-06; 0.000241; 4.94e-08; 1.96e-06; 4.36e-05; 1.7e-06; 3e-06; 3.18e-08; 0.000498; 3.39e-05; 5.01e-06; 781000; 0.00016; 0.000566; 1.95e-05; 1.76e-05; 0.000986; 1e-14];
  [0.000299; 5.59e-05; 4.45e-05; 3.12e-06; 0.000276; 5.19e-08; 3.12e-06; 6.51e-05; 1.7e-06; 3e-06; 5.61e-08; 0.000482; 3.5e-05; 5.22e-06; 781000; 0.000159; 0.000548; 1.08e-05; 1.23e-05; 0.000722; 1e-14];
  [0.000295; 5.64e-05; 7.48e-05; 1.11e-06; 0.000333; 5.65e-08; 4.62e-06; 0.000101; 1.7e-06; 3e-06; 9.99e-08; 0.00046; 3.62e-05; 5.6e-06; 781000; 0.000157; 0.000528; 6.59e-06; 7.32e-06; 0.000496; 1e-14];
  [0.000283; 5.75e-05; 0.000171; 4.47e-07; 0.000452; 6.75e-08; 7.09e-06; 0.000163; 1.7e-06; 3e-06; 1.78e-07; 0.000426; 3.62e-05; 6.86e-06; 781000; 0.000155; 0.000503; 4.2e-06; 4.52e-06; 0.000335; 1e-14];
  [0.000268; 5.75e-05; 0.000319; 2.11e-07; 0.000737; 8.25e-08; 1.05e-05; 0.000237; 1.7e-06; 3e-06; 3.16e-07; 0.000388; 3.58e-05; 8.77e-06; 781000; 0.000152; 0.000477; 2.94e-06; 2.59e-06; 0.000214; 1e-14];
  [0.000252; 5.37e-05; 0.000519; 1.1e-07; 0.00131; 1.04e-07; 1.69e-05; 0.000313; 1.7e-06; 3e-06; 5.65e-07; 0.000348; 3.5e-05; 1.2e-05; 781000; 0.000149; 0.000449; 2.3e-06; 1.55e-06; 0.000149; 1e-14];
  [0.00024; 4.78e-05; 0.000771; 6.7e-08; 0.00211; 1.3e-07; 2.57e-05; 0.000385; 1.7e-06; 3e-06; 1.04e-06; 0.000309; 3.42e-05; 1.63e-05; 781000; 0.000145; 0.000421; 2.24e-06; 8.63e-07; 0.000105; 1e-14];
  [0.000244; 3.97e-05; 0.00106; 3.97e-08; 0.00317; 1.64e-07; 4.02e-05; 0.000442; 1.7e-06; 3e-06; 2.04e-06; 0.000274; 3.39e-05; 2.26e-05; 781000; 0.000141; 0.000395; 2.68e-06; 5.3e-07; 7.96e-05; 1e-14];
  [0.000255; 3.19e-05; 0.00139; 2.41e-08; 0.0042; 2.16e-07; 5.77e-05; 0.000489; 1.7e-06; 3e-06; 4.64e-06; 0.000241; 3.43e-05; 3.07e-05; 781000; 0.000137; 0.000369; 3.68e-06; 3.1e-07; 6.01e-05; 1e-14];
  [0.000277; 2.67e-05; 0.00176; 1.92e-08; 0.00494; 3.4e-07; 7.77e-05; 0.000522; 1.7e-06; 3e-06; 8.15e-06; 0.000214; 3.68e-05; 4.29e-05; 781000; 0.000134; 0.000343; 5.62e-06; 1.89e-07; 4.57e-05; 1e-14];
  [0.000307; 2.28e-05; 0.00216; 1.72e-08; 0.00546; 5.09e-07; 9.9e-05; 0.000549; 1.7e-06; 3e-06; 1.07e-05; 0.000188; 4.03e-05; 5.76e-05; 781000; 0.00013; 0.000317; 1.03e-05; 1.04e-07; 3.4e-05; 1e-14];
  [0.00036; 2.07e-05; 0.00258; 1.59e-08; 0.00574; 7.59e-07; 0.000123; 0.000575; 1.7e-06; 3e-06; 1.52e-05; 0.000164; 4.5e-05; 7.65e-05; 781000; 0.000125; 0.000286; 1.97e-05; 5.75e-08; 2.6e-05; 1e-14];
  [0.000451; 1.9e-05; 0.00306; 1.44e-08; 0.00584; 1.16e-06; 0.00015; 0.000604; 1.7e-06; 3e-06; 2.24e-05; 0.000137; 5.06e-05; 9.92e-05; 781000; 0.000119; 0.000248; 3.7e-05; 2.23e-08; 1.89e-05; 1e-14];
  [0.000685; 1.75e-05; 0.00374; 1.23e-08; 0.00561; 2.18e-06; 0.000182; 0.000651; 1.71e-06; 3e-06; 3.97e-05; 0.000108; 5.82e-05; 0.000131; 781000; 0.000113; 0.000191; 6.2e-05; 8.51e-09; 1.22e-05; 1e-14];
  [0.00128; 1.54e-05; 0.00481; 9.37e-09; 0.00482; 5e-06; 0.00023; 0.000751; 1.76e-06; 3e-06; 8.48e-05; 6.7e-05; 7.21e-05; 0.000184; 781000; 0.000105; 0.00011; 0.000103; 4.09e-09; 5.74e-06; 1e-14];
  [0.00245; 1.34e-05; 0.00616; 6.35e-09; 0.00374; 1.17e-05; 0.000283; 0.000988; 1.9e-06; 3e-06; 0.000185; 2.96e-05; 8.73e-05; 0.000245; 781000; 9.73e-05; 4.72e-05; 0.000136; 2.52e-09; 2.14e-06; 1e-14];
  [0.00453; 1.21e-05; 0.00721; 3.68e-09; 0.00259; 3.4e-05; 0.00032; 0.00128; 2.26e-06; 3e-06; 0.000357; 1.21e-05; 0.000101; 0.000296; 781000; 9.04e-05; 1.79e-05; 0.000136; 1.86e-09; 8.49e-07; 1e-14];
  [0.00714; 1.16e-05; 0.00728; 1.82e-09; 0.00164; 8.35e-05; 0.000348; 0.00157; 2.82e-06; 3e-06; 0.000508; 4.31e-06; 0.000111; 0.000321; 781000; 8.46e-05; 7.35e-06; 0.000113; 1.52e-09; 3.42e-07; 1e-14];
  [0.00934; 1.21e-05; 0.00626; 9.26e-10; 0.000968; 0.00017; 0.000372; 0.00169; 3.69e-06; 3e-06; 0.000607; 1.6e-06; 0.000113; 0.000304; 781000; 8.02e-05; 3.03e-06; 8.51e-05; 1.32e-09; 1.34e-07; 1e-14];
  [0.0112; 1.36e-05; 0.00403; 2.94e-10; 0.000533; 0.000285; 0.000395; 0.00174; 4.91e-06; 3e-06; 0.000595; 6.71e-07; 0.000103; 0.000248; 781000; 7.63e-05; 1.32e-06; 6.37e-05; 1.18e-09; 5.39e-08; 1e-14];
  [0.0119; 1.65e-05; 0.00217; 8.72e-11; 0.000252; 0.000406; 0.00041; 0.00176; 6.13e-06; 3e-06; 0.000433; 4.35e-07; 7.95e-05; 0.000164; 781000; 7.3e-05; 8.69e-07; 5.17e-05; 1.08e-09; 2.25e-08; 1e-14];
  [0.0117; 2.1e-05; 0.00115; 2.98e-11; 0.000121; 0.000511; 0.000421; 0.00179; 6.85e-06; 3e-06; 0.000251; 3.34e-07; 4.82e-05; 9.74e-05; 781000; 7e-05; 6.68e-07; 4.44e-05; 9.97e-10; 1.04e-08; 1e-14];
  [0.011; 2.77e-05; 0.000666; 1.3e-11; 7.7e-05; 0.000579; 0.000424; 0.0018; 7.08e-06; 3e-06; 0.000156; 2.8e-07; 1.63e-05; 4.92e-05; 781000; 6.7e-05; 5.6e-07; 3.8e-05; 9.34e-10; 6.57e-09; 1e-14];
  [0.0103; 3.56e-05; 0.000443; 7.13e-12; 5.55e-05; 0.000675; 0.000425; 0.0018; 7.14e-06; 3e-06; 0.000104; 2.47e-07; 5.1e-06; 2.53e-05; 781000; 6.43e-05; 4.94e-07; 3.48e-05; 8.83e-10; 4.74e-09; 1e-14];
  [0.0101; 4.59e-05; 0.000339; 4.8e-12; 4.45e-05; 0.000953; 0.000425; 0.0018; 7.15e-06; 3e-06; 7.69e-05; 2.28e-07; 2e-06; 1.5e-05; 781000; 6.21e-05; 4.56e-07; 3.62e-05; 8.43e-10; 3.79e-09; 1e-14];
  [0.0101; 5.15e-05; 0.000285; 3.66e-12; 3.84e-05; 0.00176; 0.000425; 0.0018; 7.15e-06; 3e-06; 6.3e-05; 2.16e-07; 1.05e-06; 1.05e-05; 781000; 6.02e-05; 4.32e-07; 5.25e-05; 8.1e-10; 3.28e-09; 1e-14];
  [0.0103; 5.11e-05; 0.000253; 3e-12; 3.49e-05; 0.00374; 0.000425; 0.0018; 7.15e-06; 3e-06; 5.52e-05; 2.08e-07; 6.86e-07; 8.34e-06; 781000; 5.88e-05; 4.17e-07; 0.000126; 7.83e-10; 2.98e-09; 1e-14];
  [0.0115; 4.32e-05; 0.000231; 2.57e-12; 3.27e-05; 0.00719; 0.000425; 0.0018; 7.15e-06; 3e-06; 5.04e-05; 2.03e-07; 5.14e-07; 7.11e-06; 781000; 5.75e-05; 4.05e-07; 0.000377; 7.6e-10; 2.79e-09; 1e-14];
  [0.0161; 2.83e-05; 0.000215; 2.27e-12; 3.12e-05; 0.0112; 0.000425; 0.0018; 7.15e-06; 3e-06; 4.72e-05; 1.98e-07; 4.16e-07; 6.33e-06; 781000; 5.62e-05; 3.96e-07; 0.00112; 7.4e-10; 2.66e-09; 1e-14];
  [0.0268; 1.33e-05; 0.000202; 2.04e-12; 3.01e-05; 0.0113; 0.000425; 0.0018; 7.15e-06; 3e-06; 4.49e-05; 1.95e-07; 3.53e-07; 5.78e-06; 781000; 5.5e-05; 3.89e-07; 0.002; 7.23e-10; 2.56e-09; 1e-14];
  [0.0701; 5.56e-06; 0.000192; 1.85e-12; 2.92e-05; 0.0061; 0.000425; 0.0018; 7.15e-06; 3e-06; 4.3e-05; 1.92e-07; 3.09e-07; 5.37e-06; 781000; 5.37e-05; 3.83e-07; 0.00168; 7.07e-10; 2.49e-09; 1e-14];
  [0.213; 2.24e-06; 0.000183; 1.71e-12; 2.84e-05; 0.00151; 0.000425; 0.0018; 7.15e-06; 3e-06; 4.16e-05; 1.89e-07; 2.76e-07; 5.05e-06; 780000; 5.25e-05; 3.78e-07; 0.000431; 6.94e-10; 2.43e-09; 1e-14];
  [0.712; 8.96e-07; 0.000176; 1.59e-12; 2.78e-05; 0.000242; 0.000425; 0.0018; 7.15e-06; 3e-06; 4.03e-05; 1.87e-07; 2.5e-07; 4.78e-06; 779000; 5.12e-05; 3.73e-07; 4.98e-05; 6.81e-10; 2.37e-09; 1e-14];
  [2.08; 3.58e-07; 0.00017; 1.48e-12; 2.73e-05; 4.47e-05; 0.000425; 0.0018; 7.15e-06; 3e-06; 3.93e-05; 1.85e-07; 2.3e-07; 4.56e-06; 777000; 5e-05; 3.69e-07; 6.76e-06; 6.7e-10; 2.33e-09; 1e-14];
  [4.5; 1.43e-07; 0.000164; 1.4e-12; 2.68e-05; 1.77e-05; 0.000425; 0.0018; 7.15e-06; 3e-06; 3.83e-05; 1.83e-07; 2.13e-07; 4.37e-06; 774000; 4.87e-05; 3.66e-07; 8.38e-07; 6.59e-10; 2.29e-09; 1e-14];
  [7.98; 5.73e-08; 0.000159; 1.32e-12; 2.64e-05; 1.19e-05; 0.000425; 0.0018; 7.15e-06; 3e-06; 3.75e-05; 1.81e-07; 1.98e-07; 4.21e-06; 770000; 4.75e-05; 3.62e-07; 9.56e-08; 6.49e-10; 2.25e-09; 1e-14];
  [10; 2.29e-08; 0.000155; 1.25e-12; 2.6e-05; 1.35e-05; 0.000425; 0.0018; 7.15e-06; 3e-06; 3.68e-05; 1.8e-07; 1.86e-07; 4.06e-06; 765000; 4.62e-05; 3.59e-07; 1e-08; 6.4e-10; 2.22e-09; 1e-14];
  [10; 9.17e-09; 0.000151; 1.19e-12; 2.57e-05; 2.2e-05; 0.000425; 0.0018; 7.15e-06; 3e-06; 3.61e-05; 1.78e-07; 1.75e-07; 3.93e-06; 760000; 4.5e-05; 3.56e-07; 1e-09; 6.32e-10; 2.19e-09; 1e-14]].

(** gas_trace.dat *)
Definition dat_gas_trace : list (list dec) := [
  [5e-06; 1.42e-06; 0.0001; 0.00014; 0.00024; 5e-06; 5.78e-05; 1.6e-06; 6e-05; 1.9e-05; 1.2e-05; 4e-06; 0.00013; 4.737e-06; 1.312e-10; 8.851e-07];
  [5e-06; 1.42e-06; 5.48e-05; 0.00014; 0.00024; 5e-06; 5.78e-05; 1.5e-06; 5.994e-05; 1.9e-05; 1.2e-05; 4e-06; 0.00013; 4.162e-06; 4.065e-10; 2.031e-06];
  [5e-06; 1.42e-06; 3e-05; 0.0001399; 0.0002399; 5e-06; 5.78e-05; 1.4e-06; 5.987e-05; 1.899e-05; 1.2e-05; 4e-06; 0.0001299; 3.587e-06; 6.818e-10; 3.177e-06];
  [5e-06; 1.42e-06; 2.45e-05; 0.0001399; 0.0002399; 5e-06; 5.78e-05; 1.35e-06; 5.982e-05; 1.899e-05; 1.2e-05; 4e-06; 0.0001299; 2.891e-06; 5.329e-08; 7.444e-06];
  [5e-06; 1.42e-06; 2e-05; 0.0001398; 0.0002398; 5e-06; 5.78e-05; 1.3e-06; 5.977e-05; 1.898e-05; 1.199e-05; 4e-06; 0.0001298; 2.195e-06; 1.059e-07; 1.171e-05];
  [5e-06; 1.42e-06; 1.61e-05; 0.0001397; 0.0002398; 5e-06; 5.78e-05; 1.25e-06; 5.974e-05; 1.898e-05; 1.199e-05; 4e-06; 0.0001297; 1.717e-06; 1.177e-06; 1.962e-05];
  [5e-06; 1.42e-06; 1.3e-05; 0.0001396; 0.0002397; 5e-06; 5.78e-05; 1.2e-06; 5.97e-05; 1.897e-05; 1.199e-05; 4e-06; 0.0001296; 1.238e-06; 2.248e-06; 2.752e-05];
  [5e-06; 1.42e-06; 1.14e-05; 0.0001396; 0.0002396; 5e-06; 5.78e-05; 1.15e-06; 5.968e-05; 1.896e-05; 1.199e-05; 4e-06; 0.0001295; 9.775e-07; 2.435e-06; 3.284e-05];
  [5e-06; 1.42e-06; 1e-05; 0.0001395; 0.0002395; 5e-06; 5.78e-05; 1.1e-06; 5.966e-05; 1.895e-05; 1.198e-05; 4e-06; 0.0001294; 7.17e-07; 2.622e-06; 3.816e-05];
  [5e-06; 1.42e-06; 8.37e-06; 0.0001394; 0.0002394; 5e-06; 5.78e-05; 1.05e-06; 5.963e-05; 1.894e-05; 1.198e-05; 4e-06; 0.0001293; 6.231e-07; 2.526e-06; 3.576e-05];
  [5e-06; 1.42e-06; 7e-06; 0.0001392; 0.0002393; 5e-06; 5.78e-05; 1e-06; 5.96e-05; 1.893e-05; 1.198e-05; 4e-06; 0.0001292; 5.292e-07; 2.43e-06; 3.336e-05];
  [5e-06; 1.42e-06; 4.58e-06; 0.0001389; 0.000239; 5e-06; 5.86e-05; 8.5e-07; 5.955e-05; 1.89e-05; 1.197e-05; 4e-06; 0.0001289; 5.313e-07; 2.714e-06; 2.928e-05];
  [5e-06; 1.42e-06; 3e-06; 0.0001386; 0.0002387; 5e-06; 6.02e-05; 7e-07; 5.949e-05; 1.887e-05; 1.196e-05; 4e-06; 0.0001285; 5.334e-07; 2.998e-06; 2.519e-05];
  [5e-06; 1.42e-06; 1.73e-06; 0.0001368; 0.000237; 4.58e-06; 6e-05; 5.5e-07; 5.921e-05; 1.871e-05; 1.191e-05; 3.74e-06; 0.0001266; 1.451e-06; 7.354e-06; 2.814e-05];
  [5e-06; 1.42e-06; 1e-06; 0.0001349; 0.0002353; 4.2e-06; 5.8e-05; 4e-07; 5.893e-05; 1.854e-05; 1.185e-05; 3.5e-06; 0.0001247; 2.368e-06; 1.171e-05; 3.109e-05];
  [7.07e-06; 1.42e-06; 5.48e-07; 0.0001292; 0.00023; 4.05e-06; 5.66e-05; 3e-07; 5.808e-05; 1.803e-05; 1.167e-05; 3.24e-06; 0.0001187; 1.037e-05; 3.638e-05; 4.406e-05];
  [1e-05; 1.42e-06; 3e-07; 0.0001234; 0.0002247; 3.9e-06; 5.64e-05; 2e-07; 5.723e-05; 1.751e-05; 1.149e-05; 3e-06; 0.0001127; 1.837e-05; 6.105e-05; 5.703e-05];
  [1.42e-05; 1.42e-06; 1.73e-07; 0.0001138; 0.0002157; 3.75e-06; 5.68e-05; 1.5e-07; 5.582e-05; 1.664e-05; 1.12e-05; 2.79e-06; 0.0001026; 5.571e-05; 0.0001157; 8.127e-05];
  [2.01e-05; 1.42e-06; 1e-07; 0.0001041; 0.0002066; 3.6e-06; 5.74e-05; 1e-07; 5.441e-05; 1.576e-05; 1.09e-05; 2.6e-06; 9.256e-05; 9.304e-05; 0.0001703; 0.0001055];
  [2.5e-05; 1.26e-06; 5.48e-08; 9.216e-05; 0.0001952; 3.45e-06; 5.82e-05; 7.5e-08; 5.265e-05; 1.466e-05; 1.053e-05; 2.45e-06; 8.037e-05; 0.0001748; 0.0002471; 0.0001344];
  [3.12e-05; 1.12e-06; 3e-08; 8.021e-05; 0.0001838; 3.3e-06; 5.89e-05; 5e-08; 5.089e-05; 1.356e-05; 1.015e-05; 2.3e-06; 6.817e-05; 0.0002566; 0.0003239; 0.0001632];
  [3.89e-05; 9.64e-07; 1.73e-08; 6.799e-05; 0.0001712; 3.2e-06; 5.94e-05; 3.5e-08; 4.897e-05; 1.236e-05; 9.731e-06; 2.09e-06; 5.611e-05; 0.0003681; 0.0004204; 0.0001946];
  [4.84e-05; 8.3e-07; 1e-08; 5.576e-05; 0.0001585; 3.1e-06; 5.98e-05; 2e-08; 4.705e-05; 1.116e-05; 9.311e-06; 1.9e-06; 4.405e-05; 0.0004796; 0.0005168; 0.000226];
  [5.71e-05; 8.3e-07; 5.48e-09; 4.48e-05; 0.0001452; 3.05e-06; 6.02e-05; 1.5e-08; 4.502e-05; 9.931e-06; 8.865e-06; 1.74e-06; 3.395e-05; 0.000591; 0.0006318; 0.0002541];
  [6.74e-05; 8.3e-07; 3e-09; 3.384e-05; 0.0001319; 3e-06; 6.06e-05; 1e-08; 4.298e-05; 8.702e-06; 8.419e-06; 1.6e-06; 2.385e-05; 0.0007024; 0.0007468; 0.0002822];
  [7.47e-05; 8.3e-07; 1.73e-09; 2.55e-05; 0.0001183; 2.9e-06; 6.07e-05; 6.5e-09; 4.084e-05; 7.515e-06; 7.949e-06; 1.5e-06; 1.701e-05; 0.0007724; 0.0008576; 0.000301];
  [9.32e-05; 8.3e-07; 1e-09; 9.634e-06; 8.552e-05; 2.57e-06; 5.9e-05; 1e-09; 3.548e-05; 4.787e-06; 6.77e-06; 1.32e-06; 5.027e-06; 0.0008587; 0.0009888; 0.0003016];
  [0.000111; 8.3e-07; 1e-10; 2.441e-06; 5.683e-05; 2.2e-06; 5.64e-05; 3e-10; 3.021e-05; 2.678e-06; 5.62e-06; 1.2e-06; 8.202e-07; 0.0007428; 0.0007845; 0.0002175];
  [0.000117; 8.3e-07; 1e-11; 5.553e-07; 3.498e-05; 2.1e-06; 5.94e-05; 1.5e-10; 2.514e-05; 1.366e-06; 4.547e-06; 1.07e-06; 1.204e-07; 0.0004585; 0.000414; 0.0001151];
  [0.00011; 8.3e-07; 1e-12; 1.024e-07; 2.013e-05; 2.05e-06; 5.94e-05; 1e-11; 2.062e-05; 6.37e-07; 3.623e-06; 9.49e-07; 1.304e-08; 0.0002005; 0.0001556; 4.626e-05];
  [9.31e-05; 8.3e-07; 1e-13; 1.581e-08; 1.111e-05; 1.92e-06; 5.94e-05; 1e-12; 1.686e-05; 2.82e-07; 2.884e-06; 8.24e-07; 1.05e-09; 5.867e-05; 4.229e-05; 1.448e-05];
  [7.38e-05; 8.3e-07; 1e-14; 1.939e-09; 6.014e-06; 1.8e-06; 5.94e-05; 1e-13; 1.392e-05; 1.222e-07; 2.315e-06; 7e-07; 4.864e-11; 8.818e-06; 7.489e-06; 3.333e-06];
  [5.81e-05; 8.3e-07; 1e-15; 3.811e-10; 3.446e-06; 1.67e-06; 5.94e-05; 1e-14; 1.184e-05; 5.93e-08; 1.906e-06; 5.92e-07; 5.081e-12; 1.319e-06; 1.426e-06; 8.857e-07];
  [4.57e-05; 8.3e-07; 1e-15; 7.716e-11; 1.998e-06; 1.55e-06; 5.94e-05; 1e-15; 1.036e-05; 2.949e-08; 1.6e-06; 5.14e-07; 5.372e-13; 1.61e-07; 2.195e-07; 2.244e-07];
  [3.6e-05; 8.3e-07; 1e-15; 1.585e-11; 1.181e-06; 1.42e-06; 5.94e-05; 1e-15; 9.356e-06; 1.507e-08; 1.375e-06; 4.6e-07; 5.548e-14; 1.889e-08; 3.706e-08; 5.992e-08];
  [2.83e-05; 8.3e-07; 1e-15; 3.658e-12; 7.687e-07; 1.3e-06; 5.94e-05; 1e-15; 8.784e-06; 8.617e-09; 1.231e-06; 4.2e-07; 5.688e-15; 1.855e-09; 6.586e-09; 1.669e-08];
  [1.75e-05; 8.3e-07; 1e-15; 4.173e-13; 3.876e-07; 1.08e-06; 5.94e-05; 1e-15; 8.163e-06; 3.55e-09; 1.037e-06; 3.53e-07; 2.281e-16; 7.032e-11; 4.858e-10; 2.49e-09];
  [1.08e-05; 8.3e-07; 1e-15; 3.465e-14; 1.818e-07; 8.97e-07; 5.94e-05; 1e-15; 7.741e-06; 1.304e-09; 8.645e-07; 2.97e-07; 5.092e-18; 2.87e-12; 7.919e-12; 3.659e-10];
  [6.72e-06; 8.3e-07; 1e-15; 3.353e-15; 8.265e-08; 7.46e-07; 5.94e-05; 1e-15; 7.449e-06; 4.61e-10; 7.14e-07; 2.5e-07; 1.699e-19; 2.174e-13; 1.913e-13; 7.913e-11];
  [4.16e-06; 8.3e-07; 1e-15; 2.383e-16; 3.432e-08; 6.2e-07; 5.94e-05; 1e-15; 7.201e-06; 1.427e-10; 5.799e-07; 2.11e-07; 3.184e-21; 3.025e-14; 2.626e-15; 3.168e-11];
  [2.57e-06; 8.3e-07; 1e-15; 2.084e-17; 1.38e-08; 5.15e-07; 5.94e-05; 1e-15; 6.919e-06; 4.322e-11; 4.61e-07; 1.77e-07; 9.6e-23; 3.257e-15; 3.692e-17; 7.075e-12];
  [1e-15; 1e-15; 1e-15; 1.346e-18; 4.984e-09; 1e-07; 1e-15; 1e-15; 6.524e-06; 1.131e-11; 3.53e-07; 1e-09; 1.638e-24; 2.634e-17; 5.125e-19; 2.676e-13];
  [1e-15; 1e-15; 1e-15; 1.08e-19; 1.704e-09; 1e-08; 1e-15; 1e-15; 5.872e-06; 2.861e-12; 2.524e-07; 1e-11; 4.605e-26; 3.313e-20; 2.169e-21; 3.296e-15];
  [1e-15; 1e-15; 1e-15; 6.099e-21; 4.917e-10; 1e-09; 1e-15; 1e-15; 4.867e-06; 5.798e-13; 1.588e-07; 1e-13; 6.985e-28; 2.134e-23; 6.096e-25; 1.497e-18];
  [1e-15; 1e-15; 1e-15; 4.246e-22; 1.272e-10; 1e-10; 1e-15; 1e-15; 3.396e-06; 1.059e-13; 7.585e-08; 1e-15; 1.743e-29; 1.366e-25; 6.336e-28; 2.227e-21];
  [1e-15; 1e-15; 1e-15; 1.923e-23; 2.351e-11; 1e-12; 1e-15; 1e-15; 1.808e-06; 1.182e-14; 2.131e-08; 1e-15; 2.224e-31; 4.128e-28; 9.855e-32; 1.918e-24];
  [1e-15; 1e-15; 1e-15; 1.11e-24; 3.64e-12; 1e-14; 1e-15; 1e-15; 6.935e-07; 9.372e-16; 3.107e-09; 1e-15; 4.283e-33; 3.433e-30; 1e-32; 2.507e-26];
  [1e-15; 1e-15; 1e-15; 5.158e-26; 4.251e-13; 1e-15; 1e-15; 1e-15; 2.066e-07; 3.545e-17; 2.089e-10; 1e-15; 1e-33; 1e-30; 1e-32; 3.283e-28];
  [1e-15; 1e-15; 1e-15; 3.393e-27; 4.981e-14; 1e-15; 1e-15; 1e-15; 5.485e-08; 1.223e-18; 1.084e-11; 1e-15; 1e-33; 1e-30; 1e-32; 1.605e-29];
  [1e-15; 1e-15; 1e-15; 3.738e-28; 8.792e-15; 1e-15; 1e-15; 1e-15; 1.93e-08; 6.979e-20; 8.968e-13; 1e-15; 1e-33; 1e-30; 1e-32; 2.026e-30]].

