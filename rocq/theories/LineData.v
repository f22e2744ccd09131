(** Contents of /repo/pyrtlib/_lineshape/{h2o,o2,o3}_lineshape.nc, one definition per (group, variable).
    Generated by reading the HDF5 structure of the files.  Each number is the shortest decimal that denotes the stored
    binary64 (or binary32, for the scalars) value.  Simplification: of the ozone tables only the columns 0-6 that
    o3ll.py reads are kept. *)

From Coq Require Import ZArith List String.
Import ListNotations.
From Verif Require Import Arith.
Local Open Scope string_scope.
Local Open Scope dec_scope.

(** ** Water vapour *)

Definition h2o_mtx_R98 : list (list dec) := [
  [11.0; 22.2351; 1.31e-14; 2.144; 2.81; 0.69; 13.49; 0.61];
  [11.0; 183.3101; 2.273e-12; 0.668; 2.81; 0.64; 14.91; 0.85];
  [11.0; 321.2256; 8.036e-14; 6.179; 2.3; 0.67; 10.8; 0.54];
  [11.0; 325.1529; 2.694e-12; 1.541; 2.78; 0.68; 13.5; 0.74];
  [11.0; 380.1974; 2.438e-11; 1.048; 2.87; 0.54; 15.41; 0.89];
  [11.0; 439.1508; 2.179e-12; 3.595; 2.1; 0.63; 9.0; 0.52];
  [11.0; 443.0183; 4.624e-13; 5.048; 1.86; 0.6; 7.88; 0.5];
  [11.0; 448.0011; 2.562e-11; 1.405; 2.63; 0.66; 12.75; 0.67];
  [11.0; 470.889; 8.369e-13; 3.597; 2.15; 0.66; 9.83; 0.65];
  [11.0; 474.6891; 3.263e-12; 2.379; 2.3600000000000003; 0.65; 10.95; 0.64];
  [11.0; 488.4911; 6.659e-13; 2.852; 2.6; 0.69; 13.129999999999999; 0.72];
  [11.0; 556.936; 1.531e-09; 0.159; 3.21; 0.69; 13.2; 1.0];
  [11.0; 620.7008; 1.707e-11; 2.391; 2.44; 0.71; 11.4; 0.68];
  [11.0; 752.0332; 1.011e-09; 0.396; 3.0599999999999996; 0.68; 12.53; 0.84];
  [11.0; 916.1712; 4.227e-11; 1.441; 2.67; 0.7; 12.75; 0.78]].
Definition h2o_ctr_R98 : list dec := [300.0; 5.96e-10; 3.0; 1.42e-08; 7.5].
Definition h2o_reftline_R98 : dec := 300.0.
Definition h2o_mtx_R03 : list (list dec) := [
  [11.0; 22.2351; 1.314e-14; 2.144; 2.81; 0.69; 0.0; 13.49; 0.61];
  [11.0; 183.3101; 2.279e-12; 0.668; 2.87; 0.64; -0.017; 14.91; 0.85];
  [11.0; 321.2256; 8.058e-14; 6.179; 2.3; 0.67; 0.0; 10.8; 0.54];
  [11.0; 325.1529; 2.701e-12; 1.541; 2.78; 0.68; 0.0; 13.5; 0.74];
  [11.0; 380.1974; 2.444e-11; 1.048; 2.87; 0.54; 0.0; 15.41; 0.89];
  [11.0; 439.1508; 2.185e-12; 3.595; 2.1; 0.63; 0.0; 9.0; 0.52];
  [11.0; 443.0183; 4.637e-13; 5.048; 1.86; 0.6; 0.0; 7.88; 0.5];
  [11.0; 448.0011; 2.568e-11; 1.405; 2.63; 0.66; 0.0; 12.75; 0.67];
  [11.0; 470.889; 8.392e-13; 3.597; 2.15; 0.66; 0.0; 9.83; 0.65];
  [11.0; 474.6891; 3.272e-12; 2.379; 2.3600000000000003; 0.65; 0.0; 10.95; 0.64];
  [11.0; 488.4911; 6.676e-13; 2.852; 2.6; 0.69; 0.0; 13.129999999999999; 0.72];
  [11.0; 556.936; 1.535e-09; 0.159; 3.21; 0.69; 0.0; 13.2; 1.0];
  [11.0; 620.7008; 1.711e-11; 2.391; 2.44; 0.71; 0.0; 11.4; 0.68];
  [11.0; 752.0332; 1.014e-09; 0.396; 3.0599999999999996; 0.68; 0.0; 12.53; 0.84];
  [11.0; 916.1712; 4.238e-11; 1.441; 2.67; 0.7; 0.0; 12.75; 0.78]].
Definition h2o_ctr_R03 : list dec := h2o_ctr_R98.
Definition h2o_reftline_R03 : dec := 300.0.
Definition h2o_mtx_R16 : list (list dec) := [
  [11.0; 22.23508; 1.317e-14; 2.144; 2.665; 0.76; -0.0088; 13.6; 1.0];
  [11.0; 183.310087; 2.334e-12; 0.668; 2.936; 0.77; -0.024; 14.76; 0.85];
  [11.0; 321.22563; 7.861e-14; 6.179; 2.426; 0.67; -0.059; 10.65; 0.54];
  [11.0; 325.152888; 2.725e-12; 1.541; 2.847; 0.64; -0.0045; 13.95; 0.74];
  [11.0; 380.197353; 2.473e-11; 1.048; 2.831; 0.54; -0.0278; 14.4; 0.89];
  [11.0; 439.150807; 2.152e-12; 3.595; 2.024; 0.63; 0.0182; 9.06; 0.52];
  [11.0; 443.018343; 4.494e-13; 5.048; 1.568; 0.6; 0.0; 7.96; 0.5];
  [11.0; 448.001085; 2.586e-11; 1.405; 2.587; 0.66; -0.0464; 13.01; 0.67];
  [11.0; 470.888999; 8.253e-13; 3.597; 2.153; 0.66; 0.024; 9.7; 0.65];
  [11.0; 474.689092; 3.274e-12; 2.379; 2.34; 0.65; -0.019; 11.24; 0.64];
  [11.0; 488.490108; 6.721e-13; 2.852; 2.61; 0.69; 0.069; 13.58; 0.72];
  [11.0; 556.935985; 1.561e-09; 0.159; 3.115; 0.69; 0.06; 14.24; 1.0];
  [11.0; 620.700807; 1.704e-11; 2.391; 2.468; 0.75; 0.0; 11.94; 0.68];
  [11.0; 752.033113; 1.029e-09; 0.396; 3.114; 0.68; 0.052; 13.58; 0.84];
  [11.0; 916.171582; 4.266e-11; 1.441; 2.698; 0.72; -0.0208; 13.91; 0.78]].
Definition h2o_ctr_R16 : list dec := h2o_ctr_R98.
Definition h2o_reftline_R16 : dec := 296.0.
Definition h2o_mtx_R17 : list (list dec) := h2o_mtx_R16.
Definition h2o_ctr_R17 : list dec := h2o_ctr_R98.
Definition h2o_reftline_R17 : dec := 296.0.
Definition h2o_mtx_R18 : list (list dec) := [
  [11.0; 22.23508; 1.335e-14; 2.172; 2.699; 0.76; 13.29; 1.2; -0.033; 2.6; 0.814; 1.2];
  [11.0; 183.310087; 2.319e-12; 0.677; 2.945; 0.77; 14.78; 0.78; -0.072; 0.77; 0.173; 0.78];
  [11.0; 321.22563; 7.657e-14; 6.262; 2.426; 0.73; 10.65; 0.54; -0.143; 0.73; 0.278; 0.54];
  [11.0; 325.152888; 2.721e-12; 1.561; 2.847; 0.64; 13.95; 0.74; -0.013; 0.64; 1.325; 0.74];
  [11.0; 380.197353; 2.477e-11; 1.062; 2.868; 0.54; 14.4; 0.89; -0.074; 0.54; 0.24; 0.89];
  [11.0; 439.150807; 2.137e-12; 3.643; 2.055; 0.69; 9.06; 0.52; 0.051; 0.69; 0.165; 0.52];
  [11.0; 443.018343; 4.44e-13; 5.116; 1.819; 0.7; 7.96; 0.5; 0.14; 0.7; -0.229; 0.5];
  [11.0; 448.001085; 2.588e-11; 1.424; 2.612; 0.7; 13.01; 0.67; -0.116; 0.7; -0.615; 0.67];
  [11.0; 470.888999; 8.196e-13; 3.645; 2.169; 0.73; 9.7; 0.65; 0.061; 0.73; -0.465; 0.65];
  [11.0; 474.689092; 3.268e-12; 2.411; 2.366; 0.71; 11.24; 0.64; -0.027; 0.71; -0.72; 0.64];
  [11.0; 488.490108; 6.628e-13; 2.89; 2.616; 0.75; 13.58; 0.72; -0.065; 0.75; -0.36; 0.72];
  [11.0; 556.935985; 1.57e-09; 0.161; 3.115; 0.75; 14.24; 1.0; 0.187; 0.75; -1.693; 1.0];
  [11.0; 620.700807; 1.7e-11; 2.423; 2.468; 0.79; 11.94; 0.75; 0.0; 0.79; 0.687; 0.92];
  [11.0; 658.006072; 9.033e-13; 7.921; 3.154; 0.73; 13.84; 1.0; 0.176; 0.73; -1.496; 1.0];
  [11.0; 752.033113; 1.035e-09; 0.402; 3.114; 0.77; 13.58; 0.84; 0.162; 0.77; -0.878; 0.84];
  [11.0; 916.171582; 4.275e-11; 1.461; 2.695; 0.79; 13.55; 0.48; 0.0; 0.79; 0.521; 0.47]].
Definition h2o_ctr_R18 : list dec := [300.0; 5.95e-10; 3.0; 1.42e-08; 7.5].
Definition h2o_reftline_R18 : dec := 296.0.
Definition h2o_mtx_R19 : list (list dec) := [
  [11.0; 22.23508; 1.335e-14; 2.172; 2.699; 0.76; 13.29; 1.2; -0.033; 2.6; 0.814; 1.2; 0.0; 0.0];
  [11.0; 183.310087; 2.319e-12; 0.677; 2.952; 0.57; 14.79; 0.82; -0.073; 2.0; 0.112; 1.43; 0.0; 18.3];
  [11.0; 321.22563; 7.657e-14; 6.262; 2.426; 0.73; 10.65; 0.54; -0.143; 0.73; 0.278; 0.54; 0.0; 0.0];
  [11.0; 325.152888; 2.721e-12; 1.561; 2.847; 0.64; 13.95; 0.74; -0.013; 0.64; 1.325; 0.74; 0.0; 0.0];
  [11.0; 380.197353; 2.477e-11; 1.062; 2.868; 0.54; 14.4; 0.89; -0.074; 0.54; 0.24; 0.89; 0.0; 0.0];
  [11.0; 439.150807; 2.137e-12; 3.643; 2.055; 0.69; 9.06; 0.52; 0.051; 0.69; 0.165; 0.52; 0.0; 0.0];
  [11.0; 443.018343; 4.44e-13; 5.116; 1.819; 0.7; 7.96; 0.5; 0.14; 0.7; -0.229; 0.5; 0.0; 0.0];
  [11.0; 448.001085; 2.588e-11; 1.424; 2.612; 0.7; 13.01; 0.67; -0.116; 0.7; -0.615; 0.67; 0.0; 0.0];
  [11.0; 470.888999; 8.196e-13; 3.645; 2.169; 0.73; 9.7; 0.65; 0.061; 0.73; -0.465; 0.65; 0.0; 0.0];
  [11.0; 474.689092; 3.268e-12; 2.411; 2.366; 0.71; 11.24; 0.64; -0.027; 0.71; -0.72; 0.64; 0.0; 0.0];
  [11.0; 488.490108; 6.628e-13; 2.89; 2.616; 0.75; 13.58; 0.72; -0.065; 0.75; -0.36; 0.72; 0.0; 0.0];
  [11.0; 556.935985; 1.57e-09; 0.161; 3.115; 0.75; 14.24; 1.0; 0.187; 0.75; -1.693; 1.0; 0.0; 0.0];
  [11.0; 620.700807; 1.7e-11; 2.423; 2.468; 0.79; 11.94; 0.75; 0.0; 0.79; 0.687; 0.92; 0.0; 0.0];
  [11.0; 658.006072; 9.033e-13; 7.921; 3.154; 0.73; 13.84; 1.0; 0.176; 0.73; -1.496; 1.0; 0.0; 0.0];
  [11.0; 752.033113; 1.035e-09; 0.402; 3.114; 0.77; 13.58; 0.84; 0.162; 0.77; -0.878; 0.84; 0.0; 0.0];
  [11.0; 916.171582; 4.275e-11; 1.461; 2.695; 0.79; 13.55; 0.48; 0.0; 0.79; 0.521; 0.47; 0.0; 0.0]].
Definition h2o_ctr_R19 : list dec := [300.0; 5.964e-10; 3.0; 1.42e-08; 7.5].
Definition h2o_reftline_R19 : dec := 296.0.
Definition h2o_mtx_R19SD : list (list dec) := [
  [11.0; 22.23508; 1.335e-14; 2.172; 2.74; 0.76; 13.63; 1.2; -0.033; 2.6; 0.814; 1.2; 0.0; 0.0; 0.0; 0.0];
  [11.0; 183.310087; 2.319e-12; 0.677; 3.028; 0.55; 15.01; 0.79; -0.073; 2.0; 0.112; 1.43; 0.0; 18.3; 0.406; 1.499];
  [11.0; 321.22563; 7.657e-14; 6.262; 2.426; 0.73; 10.65; 0.54; -0.143; 0.73; 0.278; 0.54; 0.0; 0.0; 0.0; 0.0];
  [11.0; 325.152888; 2.721e-12; 1.561; 2.847; 0.64; 13.95; 0.74; -0.013; 0.64; 1.325; 0.74; 0.0; 0.0; 0.0; 0.0];
  [11.0; 380.197353; 2.477e-11; 1.062; 2.868; 0.54; 14.4; 0.89; -0.074; 0.54; 0.24; 0.89; 0.0; 0.0; 0.0; 0.0];
  [11.0; 439.150807; 2.137e-12; 3.643; 2.055; 0.69; 9.06; 0.52; 0.051; 0.69; 0.165; 0.52; 0.0; 0.0; 0.0; 0.0];
  [11.0; 443.018343; 4.44e-13; 5.116; 1.819; 0.7; 7.96; 0.5; 0.14; 0.7; -0.229; 0.5; 0.0; 0.0; 0.0; 0.0];
  [11.0; 448.001085; 2.588e-11; 1.424; 2.612; 0.7; 13.01; 0.67; -0.116; 0.7; -0.615; 0.67; 0.0; 0.0; 0.0; 0.0];
  [11.0; 470.888999; 8.196e-13; 3.645; 2.169; 0.73; 9.7; 0.65; 0.061; 0.73; -0.465; 0.65; 0.0; 0.0; 0.0; 0.0];
  [11.0; 474.689092; 3.268e-12; 2.411; 2.366; 0.71; 11.24; 0.64; -0.027; 0.71; -0.72; 0.64; 0.0; 0.0; 0.0; 0.0];
  [11.0; 488.490108; 6.628e-13; 2.89; 2.616; 0.75; 13.58; 0.72; -0.065; 0.75; -0.36; 0.72; 0.0; 0.0; 0.0; 0.0];
  [11.0; 556.935985; 1.57e-09; 0.161; 3.115; 0.75; 14.24; 1.0; 0.187; 0.75; -1.693; 1.0; 0.0; 0.0; 0.0; 0.0];
  [11.0; 620.700807; 1.7e-11; 2.423; 2.468; 0.79; 11.94; 0.75; 0.0; 0.79; 0.687; 0.92; 0.0; 0.0; 0.0; 0.0];
  [11.0; 658.006072; 9.033e-13; 7.921; 3.154; 0.73; 13.84; 1.0; 0.176; 0.73; -1.496; 1.0; 0.0; 0.0; 0.0; 0.0];
  [11.0; 752.033113; 1.035e-09; 0.402; 3.114; 0.77; 13.58; 0.84; 0.162; 0.77; -0.878; 0.84; 0.0; 0.0; 0.0; 0.0];
  [11.0; 916.171582; 4.275e-11; 1.461; 2.695; 0.79; 13.55; 0.48; 0.0; 0.79; 0.521; 0.47; 0.0; 0.0; 0.0; 0.0]].
Definition h2o_ctr_R19SD : list dec := [300.0; 5.929e-10; 3.0; 1.42e-08; 7.5].
Definition h2o_reftline_R19SD : dec := 296.0.
Definition h2o_mtx_R20 : list (list dec) := [
  [11.0; 22.23508; 1.335e-14; 2.172; 2.699; 0.76; 13.29; 1.2; -0.033; 2.6; 0.814; 1.2; 0.0; 0.0];
  [11.0; 183.310087; 2.319e-12; 0.677; 2.959; 0.63; 14.81; 0.83; -0.072; 1.8; 0.108; 1.25; 0.0; 17.3];
  [11.0; 321.22563; 7.657e-14; 6.262; 2.426; 0.73; 10.65; 0.54; -0.143; 0.73; 0.278; 0.54; 0.0; 0.0];
  [11.0; 325.152888; 2.721e-12; 1.561; 2.847; 0.64; 13.95; 0.74; -0.013; 0.64; 1.325; 0.74; 0.0; 0.0];
  [11.0; 380.197353; 2.477e-11; 1.062; 2.868; 0.54; 14.4; 0.89; -0.074; 0.54; 0.24; 0.89; 0.0; 0.0];
  [11.0; 439.150807; 2.137e-12; 3.643; 2.055; 0.69; 9.06; 0.52; 0.051; 0.69; 0.165; 0.52; 0.0; 0.0];
  [11.0; 443.018343; 4.44e-13; 5.116; 1.819; 0.7; 7.96; 0.5; 0.14; 0.7; -0.229; 0.5; 0.0; 0.0];
  [11.0; 448.001085; 2.588e-11; 1.424; 2.612; 0.7; 13.01; 0.67; -0.116; 0.7; -0.615; 0.67; 0.0; 0.0];
  [11.0; 470.888999; 8.196e-13; 3.645; 2.169; 0.73; 9.7; 0.65; 0.061; 0.73; -0.465; 0.65; 0.0; 0.0];
  [11.0; 474.689092; 3.268e-12; 2.411; 2.366; 0.71; 11.24; 0.64; -0.027; 0.71; -0.72; 0.64; 0.0; 0.0];
  [11.0; 488.490108; 6.628e-13; 2.89; 2.616; 0.75; 13.58; 0.72; -0.065; 0.75; -0.36; 0.72; 0.0; 0.0];
  [11.0; 556.935985; 1.57e-09; 0.161; 3.115; 0.75; 14.24; 1.0; 0.187; 0.75; -1.693; 1.0; 0.0; 0.0];
  [11.0; 620.700807; 1.7e-11; 2.423; 2.468; 0.79; 11.94; 0.75; 0.0; 0.79; 0.687; 0.92; 0.0; 0.0];
  [11.0; 658.006072; 9.033e-13; 7.921; 3.154; 0.73; 13.84; 1.0; 0.176; 0.73; -1.496; 1.0; 0.0; 0.0];
  [11.0; 752.033113; 1.035e-09; 0.402; 3.114; 0.77; 13.58; 0.84; 0.162; 0.77; -0.878; 0.84; 0.0; 0.0];
  [11.0; 916.171582; 4.275e-11; 1.461; 2.695; 0.79; 13.55; 0.48; 0.0; 0.79; 0.521; 0.47; 0.0; 0.0]].
Definition h2o_ctr_R20 : list dec := [300.0; 5.954e-10; 3.0; 1.42e-08; 7.5].
Definition h2o_reftline_R20 : dec := 296.0.
Definition h2o_mtx_R20SD : list (list dec) := [
  [11.0; 22.23508; 1.335e-14; 2.172; 2.74; 0.76; 13.63; 1.2; -0.033; 2.6; 0.814; 1.2; 0.0; 0.0; 0.435; 1.91];
  [11.0; 183.310087; 2.319e-12; 0.677; 3.033; 0.62; 15.01; 0.82; -0.074; 1.8; 0.136; 0.98; 0.0; 12.6; 0.413; 1.48];
  [11.0; 321.22563; 7.657e-14; 6.262; 2.426; 0.73; 10.65; 0.54; -0.143; 0.73; 0.278; 0.54; 0.0; 0.0; 0.0; 0.0];
  [11.0; 325.152888; 2.721e-12; 1.561; 2.847; 0.64; 13.95; 0.74; -0.013; 0.64; 1.325; 0.74; 0.0; 0.0; 0.0; 0.0];
  [11.0; 380.197353; 2.477e-11; 1.062; 2.868; 0.54; 14.4; 0.89; -0.074; 0.54; 0.24; 0.89; 0.0; 0.0; 0.0; 0.0];
  [11.0; 439.150807; 2.137e-12; 3.643; 2.055; 0.69; 9.06; 0.52; 0.051; 0.69; 0.165; 0.52; 0.0; 0.0; 0.0; 0.0];
  [11.0; 443.018343; 4.44e-13; 5.116; 1.819; 0.7; 7.96; 0.5; 0.14; 0.7; -0.229; 0.5; 0.0; 0.0; 0.0; 0.0];
  [11.0; 448.001085; 2.588e-11; 1.424; 2.612; 0.7; 13.01; 0.67; -0.116; 0.7; -0.615; 0.67; 0.0; 0.0; 0.0; 0.0];
  [11.0; 470.888999; 8.196e-13; 3.645; 2.169; 0.73; 9.7; 0.65; 0.061; 0.73; -0.465; 0.65; 0.0; 0.0; 0.0; 0.0];
  [11.0; 474.689092; 3.268e-12; 2.411; 2.366; 0.71; 11.24; 0.64; -0.027; 0.71; -0.72; 0.64; 0.0; 0.0; 0.0; 0.0];
  [11.0; 488.490108; 6.628e-13; 2.89; 2.616; 0.75; 13.58; 0.72; -0.065; 0.75; -0.36; 0.72; 0.0; 0.0; 0.0; 0.0];
  [11.0; 556.935985; 1.57e-09; 0.161; 3.115; 0.75; 14.24; 1.0; 0.187; 0.75; -1.693; 1.0; 0.0; 0.0; 0.0; 0.0];
  [11.0; 620.700807; 1.7e-11; 2.423; 2.468; 0.79; 11.94; 0.75; 0.0; 0.79; 0.687; 0.92; 0.0; 0.0; 0.0; 0.0];
  [11.0; 658.006072; 9.033e-13; 7.921; 3.154; 0.73; 13.84; 1.0; 0.176; 0.73; -1.496; 1.0; 0.0; 0.0; 0.0; 0.0];
  [11.0; 752.033113; 1.035e-09; 0.402; 3.114; 0.77; 13.58; 0.84; 0.162; 0.77; -0.878; 0.84; 0.0; 0.0; 0.0; 0.0];
  [11.0; 916.171582; 4.275e-11; 1.461; 2.695; 0.79; 13.55; 0.48; 0.0; 0.79; 0.521; 0.47; 0.0; 0.0; 0.0; 0.0]].
Definition h2o_ctr_R20SD : list dec := [300.0; 5.919e-10; 3.0; 1.42e-08; 7.5].
Definition h2o_reftline_R20SD : dec := 296.0.
Definition h2o_d2air_R20SD : dec := -1.5999999959603883e-05.
Definition h2o_d2self_R20SD : dec := 0.00015999999595806003.
Definition h2o_mtx_R21SD : list (list dec) := [
  [11.0; 22.23508; 1.335e-14; 2.172; 2.74; 0.76; 13.63; 1.2; -0.033; 2.6; 0.814; 0.0; 0.0; 0.0; 0.435; 0.0; 1.91; 0.0; 0.0; 0.0];
  [11.0; 183.310087; 2.319e-12; 0.677; 3.033; 0.62; 15.01; 0.82; -0.074; 1.8; 0.136; 0.98; 0.0; 12.6; 0.407; 0.412; 1.46; 0.571; -0.016; 0.16];
  [11.0; 321.22563; 7.657e-14; 6.262; 2.426; 0.73; 10.65; 0.54; -0.143; 0.0; 0.278; 0.0; 0.0; 0.0; 0.0; 0.0; 0.0; 0.0; 0.0; 0.0];
  [11.0; 325.152888; 2.721e-12; 1.561; 2.847; 0.64; 13.95; 0.74; -0.013; 0.0; 1.325; 0.0; 0.0; 0.0; 0.0; 0.0; 0.0; 0.0; 0.0; 0.0];
  [11.0; 380.197353; 2.477e-11; 1.062; 2.868; 0.54; 14.4; 0.89; -0.074; 0.0; 0.24; 0.0; 0.0; 0.0; 0.0; 0.0; 0.0; 0.0; 0.0; 0.0];
  [11.0; 439.150807; 2.137e-12; 3.643; 2.055; 0.69; 9.06; 0.52; 0.051; 0.0; 0.165; 0.0; 0.0; 0.0; 0.0; 0.0; 0.0; 0.0; 0.0; 0.0];
  [11.0; 443.018343; 4.44e-13; 5.116; 1.819; 0.7; 7.96; 0.5; 0.14; 0.0; -0.229; 0.0; 0.0; 0.0; 0.0; 0.0; 0.0; 0.0; 0.0; 0.0];
  [11.0; 448.001085; 2.588e-11; 1.424; 2.612; 0.7; 13.01; 0.67; -0.116; 0.0; -0.615; 0.0; 0.0; 0.0; 0.0; 0.0; 0.0; 0.0; 0.0; 0.0];
  [11.0; 470.888999; 8.196e-13; 3.645; 2.169; 0.73; 9.7; 0.65; 0.061; 0.0; -0.465; 0.0; 0.0; 0.0; 0.0; 0.0; 0.0; 0.0; 0.0; 0.0];
  [11.0; 474.689092; 3.268e-12; 2.411; 2.366; 0.71; 11.24; 0.64; -0.027; 0.0; -0.72; 0.0; 0.0; 0.0; 0.0; 0.0; 0.0; 0.0; 0.0; 0.0];
  [11.0; 488.490108; 6.628e-13; 2.89; 2.616; 0.75; 13.58; 0.72; -0.065; 0.0; -0.36; 0.0; 0.0; 0.0; 0.0; 0.0; 0.0; 0.0; 0.0; 0.0];
  [11.0; 556.935985; 1.57e-09; 0.161; 3.115; 0.75; 14.24; 1.0; 0.187; 0.0; -1.693; 0.0; 0.0; 0.0; 0.0; 0.0; 0.0; 0.0; 0.0; 0.0];
  [11.0; 620.700807; 1.7e-11; 2.423; 2.468; 0.79; 11.94; 0.75; 0.0; 0.0; 0.687; 0.92; 0.0; 0.0; 0.0; 0.0; 0.0; 0.0; 0.0; 0.0];
  [11.0; 658.006072; 9.033e-13; 7.921; 3.154; 0.73; 13.84; 1.0; 0.176; 0.0; -1.496; 0.0; 0.0; 0.0; 0.0; 0.0; 0.0; 0.0; 0.0; 0.0];
  [11.0; 752.033113; 1.035e-09; 0.402; 3.114; 0.77; 13.58; 0.84; 0.162; 0.0; -0.878; 0.0; 0.0; 0.0; 0.0; 0.0; 0.0; 0.0; 0.0; 0.0];
  [11.0; 916.171582; 4.275e-11; 1.461; 2.695; 0.79; 13.55; 0.48; 0.0; 0.0; 0.521; 0.47; 0.0; 0.0; 0.0; 0.0; 0.0; 0.0; 0.0; 0.0]].
Definition h2o_ctr_R21SD : list dec := [300.0; 5.919e-10; 3.0; 1.416e-08; 7.5].
Definition h2o_reftline_R21SD : dec := 296.0.
Definition h2o_mtx_R22SD : list (list dec) := [
  [11.0; 22.23508; 1.334e-14; 2.172; 2.74; 0.76; 13.63; 1.2; -0.033; 2.6; 0.814; 0.0; 0.0; 0.0; 0.435; 0.0; 1.91; 0.0; 0.0; 0.0];
  [11.0; 183.310087; 2.319e-12; 0.677; 3.033; 0.62; 15.01; 0.82; -0.074; 1.8; 0.136; 0.98; 0.0; 12.6; 0.407; 0.412; 1.46; 0.571; -0.016; 0.16];
  [11.0; 321.22563; 7.654e-14; 6.262; 2.426; 0.73; 10.65; 0.54; -0.143; 0.0; 0.278; 0.0; 0.0; 0.0; 0.0; 0.0; 0.0; 0.0; 0.0; 0.0];
  [11.0; 325.152888; 2.72e-12; 1.561; 2.847; 0.64; 13.95; 0.74; -0.013; 0.0; 1.325; 0.0; 0.0; 0.0; 0.0; 0.0; 0.0; 0.0; 0.0; 0.0];
  [11.0; 380.197353; 2.476e-11; 1.062; 2.868; 0.54; 14.4; 0.89; -0.074; 0.0; 0.24; 0.0; 0.0; 0.0; 0.0; 0.0; 0.0; 0.0; 0.0; 0.0];
  [11.0; 439.150807; 2.136e-12; 3.643; 2.055; 0.69; 9.06; 0.52; 0.051; 0.0; 0.165; 0.0; 0.0; 0.0; 0.0; 0.0; 0.0; 0.0; 0.0; 0.0];
  [11.0; 443.018343; 4.44e-13; 5.116; 1.819; 0.7; 7.96; 0.5; 0.14; 0.0; -0.229; 0.0; 0.0; 0.0; 0.0; 0.0; 0.0; 0.0; 0.0; 0.0];
  [11.0; 448.001085; 2.587e-11; 1.424; 2.612; 0.7; 13.01; 0.67; -0.116; 0.0; -0.615; 0.0; 0.0; 0.0; 0.0; 0.0; 0.0; 0.0; 0.0; 0.0];
  [11.0; 470.888999; 8.193e-13; 3.645; 2.169; 0.73; 9.7; 0.65; 0.061; 0.0; -0.465; 0.0; 0.0; 0.0; 0.0; 0.0; 0.0; 0.0; 0.0; 0.0];
  [11.0; 474.689092; 3.268e-12; 2.411; 2.366; 0.71; 11.24; 0.64; -0.027; 0.0; -0.72; 0.0; 0.0; 0.0; 0.0; 0.0; 0.0; 0.0; 0.0; 0.0];
  [11.0; 488.490108; 6.628e-13; 2.89; 2.616; 0.75; 13.58; 0.72; -0.065; 0.0; -0.36; 0.0; 0.0; 0.0; 0.0; 0.0; 0.0; 0.0; 0.0; 0.0];
  [11.0; 556.935985; 1.57e-09; 0.161; 3.115; 0.75; 14.24; 1.0; 0.187; 0.0; -1.693; 0.0; 0.0; 0.0; 0.0; 0.0; 0.0; 0.0; 0.0; 0.0];
  [11.0; 620.700807; 1.7e-11; 2.423; 2.468; 0.79; 11.94; 0.75; 0.001; 0.0; 0.687; 0.92; 0.0; 0.0; 0.0; 0.0; 0.0; 0.0; 0.0; 0.0];
  [11.0; 658.006072; 9.027e-13; 7.921; 3.154; 0.73; 13.84; 1.0; 0.176; 0.0; -1.496; 0.0; 0.0; 0.0; 0.0; 0.0; 0.0; 0.0; 0.0; 0.0];
  [11.0; 752.033113; 1.035e-09; 0.402; 3.114; 0.77; 13.58; 0.84; 0.162; 0.0; -0.878; 0.0; 0.0; 0.0; 0.0; 0.0; 0.0; 0.0; 0.0; 0.0];
  [11.0; 859.965608; 5.705e-13; 8.163; 3.121; 0.76; 14.08; 0.76; 0.005; 0.0; 0.0; 0.0; 0.0; 0.0; 0.0; 0.0; 0.0; 0.0; 0.0; 0.0];
  [11.0; 916.171582; 4.272e-11; 1.461; 2.695; 0.79; 13.55; 0.48; -0.001; 0.0; 0.521; 0.47; 0.0; 0.0; 0.0; 0.0; 0.0; 0.0; 0.0; 0.0];
  [11.0; 970.315045; 4.806e-11; 1.944; 2.574; 0.7; 25.95; 0.7; -0.003; 0.0; 0.0; 0.0; 0.0; 0.0; 0.0; 0.0; 0.0; 0.0; 0.0; 0.0];
  [11.0; 987.926803; 7.528e-10; 0.261; 2.976; 0.75; 14.35; 0.75; -0.002; 0.0; 0.0; 0.0; 0.0; 0.0; 0.0; 0.0; 0.0; 0.0; 0.0; 0.0];
  [11.0; 1097.36487; 4.89e-09; 0.754; 3.095; 0.75; 15.27; 0.75; 0.002; 0.0; 0.0; 0.0; 0.0; 0.0; 0.0; 0.0; 0.0; 0.0; 0.0; 0.0]].
Definition h2o_ctr_R22SD : list dec := h2o_ctr_R21SD.
Definition h2o_reftline_R22SD : dec := 296.0.
Definition h2o_mtx_R23SD : list (list dec) := h2o_mtx_R22SD.
Definition h2o_ctr_R23SD : list dec := [296.0; 5.547e-10; 3.0; -1.0; 0.0].
Definition h2o_reftline_R23SD : dec := 296.0.
Definition h2o_mtx_R24 : list (list dec) := h2o_mtx_R22SD.
Definition h2o_ctr_R24 : list dec := h2o_ctr_R23SD.
Definition h2o_reftline_R24 : dec := 296.0.
Definition h2o_mtx_MWL24 : list (list dec) := [
  [11.0; 22.23508; 1.334e-14; 2.172; 2.74; 0.76; 13.63; 1.2; -0.033; 2.6; 0.814; 0.0; 0.0; 0.0; 0.435; 0.0; 1.91; 0.0; 0.0; 0.0];
  [11.0; 183.310087; 2.319e-12; 0.677; 3.033; 0.62; 15.01; 0.82; -0.074; 1.8; 0.136; 0.98; 0.0; 12.6; 0.407; 0.412; 1.46; 0.571; -0.016; 0.16];
  [11.0; 321.22563; 7.654e-14; 6.262; 2.426; 0.73; 10.65; 0.54; -0.143; 0.0; 0.278; 0.0; 0.0; 0.0; 0.0; 0.0; 0.0; 0.0; 0.0; 0.0];
  [11.0; 325.152888; 2.72e-12; 1.561; 2.847; 0.64; 13.95; 0.74; -0.013; 0.0; 1.325; 0.0; 0.0; 0.0; 0.0; 0.0; 0.0; 0.0; 0.0; 0.0];
  [11.0; 380.197353; 2.476e-11; 1.062; 2.868; 0.54; 14.4; 0.89; -0.074; 0.0; 0.24; 0.0; 0.0; 0.0; 0.0; 0.0; 0.0; 0.0; 0.0; 0.0];
  [11.0; 439.150807; 2.136e-12; 3.643; 2.055; 0.69; 9.06; 0.52; 0.051; 0.0; 0.165; 0.0; 0.0; 0.0; 0.0; 0.0; 0.0; 0.0; 0.0; 0.0];
  [11.0; 443.018343; 4.44e-13; 5.116; 1.819; 0.7; 7.96; 0.5; 0.14; 0.0; -0.229; 0.0; 0.0; 0.0; 0.0; 0.0; 0.0; 0.0; 0.0; 0.0];
  [11.0; 448.001085; 2.587e-11; 1.424; 2.612; 0.7; 13.01; 0.67; -0.116; 0.0; -0.615; 0.0; 0.0; 0.0; 0.0; 0.0; 0.0; 0.0; 0.0; 0.0];
  [11.0; 470.888999; 8.193e-13; 3.645; 2.169; 0.73; 9.7; 0.65; 0.061; 0.0; -0.465; 0.0; 0.0; 0.0; 0.0; 0.0; 0.0; 0.0; 0.0; 0.0];
  [11.0; 474.689092; 3.268e-12; 2.411; 2.366; 0.71; 11.24; 0.64; -0.027; 0.0; -0.72; 0.0; 0.0; 0.0; 0.0; 0.0; 0.0; 0.0; 0.0; 0.0];
  [11.0; 488.490108; 6.628e-13; 2.89; 2.616; 0.75; 13.58; 0.72; -0.065; 0.0; -0.36; 0.0; 0.0; 0.0; 0.0; 0.0; 0.0; 0.0; 0.0; 0.0];
  [11.0; 556.935985; 1.57e-09; 0.161; 3.115; 0.75; 14.24; 1.0; 0.187; 0.0; -1.693; 0.0; 0.0; 0.0; 0.0; 0.0; 0.0; 0.0; 0.0; 0.0];
  [11.0; 620.700807; 1.7e-11; 2.423; 2.468; 0.79; 11.94; 0.75; 0.001; 0.0; 0.687; 0.92; 0.0; 0.0; 0.0; 0.0; 0.0; 0.0; 0.0; 0.0];
  [11.0; 658.006072; 9.027e-13; 7.921; 3.154; 0.73; 13.84; 1.0; 0.176; 0.0; -1.496; 0.0; 0.0; 0.0; 0.0; 0.0; 0.0; 0.0; 0.0; 0.0];
  [11.0; 752.033113; 1.035e-09; 0.402; 3.114; 0.77; 13.58; 0.84; 0.162; 0.0; -0.878; 0.0; 0.0; 0.0; 0.0; 0.0; 0.0; 0.0; 0.0; 0.0];
  [11.0; 859.965608; 5.705e-13; 8.163; 3.121; 0.76; 14.08; 0.76; 0.005; 0.0; 0.0; 0.0; 0.0; 0.0; 0.0; 0.0; 0.0; 0.0; 0.0; 0.0];
  [11.0; 916.171582; 4.272e-11; 1.461; 2.695; 0.79; 13.55; 0.48; -0.001; 0.0; 0.521; 0.47; 0.0; 0.0; 0.0; 0.0; 0.0; 0.0; 0.0; 0.0];
  [11.0; 970.315045; 4.806e-11; 1.944; 2.574; 0.7; 25.95; 0.7; -0.003; 0.0; 0.0; 0.0; 0.0; 0.0; 0.0; 0.0; 0.0; 0.0; 0.0; 0.0];
  [11.0; 987.926803; 7.528e-10; 0.261; 2.976; 0.75; 14.35; 0.75; -0.002; 0.0; 0.0; 0.0; 0.0; 0.0; 0.0; 0.0; 0.0; 0.0; 0.0; 0.0];
  [11.0; 1000.8535834819955; 3.770106320521408e-16; 15.534782490668702; 3.1628104319; 0.76; 14.2701210008; 0.0; 0.00483; 0.0; 0.00483; 0.0; 0.0; 0.0; 0.0; 0.0; 0.0; 0.0; 0.0; 0.0];
  [11.0; 1068.6774599893295; 5.607197449719195e-16; 12.321259552706108; 1.2591283236000002; 0.42; 7.824583153800001; 0.0; 0.0121; 0.0; 0.0121; 0.0; 0.0; 0.0; 0.0; 0.0; 0.0; 0.0; 0.0; 0.0];
  [11.0; 1077.7630601592148; 7.0576855406522575e-15; 11.035070913772593; 2.548235893; 0.71; 11.1223001918; 0.0; -0.00379; 0.0; -0.00379; 0.0; 0.0; 0.0; 0.0; 0.0; 0.0; 0.0; 0.0; 0.0];
  [11.0; 1097.3648701085617; 4.740974100825301e-09; 0.7437912088608225; 3.13582911068; 0.75; 15.4692908328; 0.0; 0.00236; 0.0; 0.00236; 0.0; 0.0; 0.0; 0.0; 0.0; 0.0; 0.0; 0.0; 0.0];
  [11.0; 1101.1302933602874; 2.9649255566166815e-15; 10.189263446897595; 1.92466758036; 0.62; 9.653317147600001; 0.0; 0.01622; 0.0; 0.01622; 0.0; 0.0; 0.0; 0.0; 0.0; 0.0; 0.0; 0.0; 0.0];
  [11.0; 1109.5978114195143; 7.293135511324758e-14; 6.986242082846662; 2.04758248814; 0.64; 9.953109605600002; 0.0; 0.01314; 0.0; 0.01314; 0.0; 0.0; 0.0; 0.0; 0.0; 0.0; 0.0; 0.0; 0.0];
  [11.0; 1113.3430286595708; 1.4525228437660351e-09; 0.08906744229276567; 3.1328311860999998; 0.75; 14.9896229; 0.0; 0.00643; 0.0; 0.00643; 0.0; 0.0; 0.0; 0.0; 0.0; 0.0; 0.0; 0.0; 0.0];
  [11.0; 1146.6213705428777; 3.2962995894150166e-12; 3.6612395494020964; 2.6651549516200004; 0.69; 13.640556839; 0.0; -0.00065; 0.0; -0.00065; 0.0; 0.0; 0.0; 0.0; 0.0; 0.0; 0.0; 0.0; 0.0];
  [11.0; 1153.1268069229861; 7.342550937268371e-10; 0.7393298605879638; 2.77008231192; 0.74; 15.709124799200001; 0.0; -0.00237; 0.0; -0.00237; 0.0; 0.0; 0.0; 0.0; 0.0; 0.0; 0.0; 0.0; 0.0];
  [11.0; 1153.3705981498317; 5.002585179350303e-14; 8.605181561567248; 1.88569456082; 0.59; 9.3235454438; 0.0; -0.0043; 0.0; -0.0043; 0.0; 0.0; 0.0; 0.0; 0.0; 0.0; 0.0; 0.0; 0.0];
  [11.0; 1155.1719910714621; 6.764099774751978e-16; 13.052506473796647; 1.049273603; 0.5; 4.8566378196; 0.0; 0.0063; 0.0; 0.0063; 0.0; 0.0; 0.0; 0.0; 0.0; 0.0; 0.0; 0.0; 0.0];
  [11.0; 1158.323859078645; 7.080939858743369e-11; 3.0202769257930053; 2.29041437912; 0.65; 12.3514492696; 0.0; -0.00136; 0.0; -0.00136; 0.0; 0.0; 0.0; 0.0; 0.0; 0.0; 0.0; 0.0; 0.0];
  [11.0; 1162.9116130426648; 5.168272195749471e-09; 0.9246130780855957; 2.9859328816799997; 0.75; 14.839726671000001; 0.0; 0.00326; 0.0; 0.00326; 0.0; 0.0; 0.0; 0.0; 0.0; 0.0; 0.0; 0.0; 0.0];
  [11.0; 1168.3584822535754; 3.2236298453802936e-12; 5.927163695557583; 1.7387962564000001; 0.57; 8.4541473156; 0.0; 0.00359; 0.0; 0.00359; 0.0; 0.0; 0.0; 0.0; 0.0; 0.0; 0.0; 0.0; 0.0];
  [11.0; 1172.5258372537417; 5.801952363732251e-12; 4.356288169255125; 2.10154513058; 0.62; 9.1136907232; 0.0; 0.00189; 0.0; 0.00189; 0.0; 0.0; 0.0; 0.0; 0.0; 0.0; 0.0; 0.0; 0.0];
  [11.0; 1190.8289462750324; 1.1159165893972001e-12; 5.928938788286458; 1.87070493792; 0.59; 8.843877511; 0.0; 0.00439; 0.0; 0.00439; 0.0; 0.0; 0.0; 0.0; 0.0; 0.0; 0.0; 0.0; 0.0];
  [11.0; 1196.8381361994136; 6.06937702178003e-16; 14.970843475924758; 1.80475059716; 0.58; 9.983088851400002; 0.0; 0.00664; 0.0; 0.00664; 0.0; 0.0; 0.0; 0.0; 0.0; 0.0; 0.0; 0.0; 0.0];
  [11.0; 1205.7890695971653; 7.02571085327698e-13; 7.7459492565143275; 3.1328311860999998; 0.75; 13.49066061; 0.0; 0.00643; 0.0; 0.00643; 0.0; 0.0; 0.0; 0.0; 0.0; 0.0; 0.0; 0.0; 0.0];
  [11.0; 1207.6386991252878; 1.611814922690147e-09; 1.4180818607560395; 2.7730802365000002; 0.75; 14.8996851626; 0.0; 0.00364; 0.0; 0.00364; 0.0; 0.0; 0.0; 0.0; 0.0; 0.0; 0.0; 0.0; 0.0];
  [11.0; 1214.6620869350827; 2.5251282657185403e-12; 8.404525586408292; 3.0249059012200004; 0.75; 13.6105775932; 0.0; 0.00236; 0.0; 0.00236; 0.0; 0.0; 0.0; 0.0; 0.0; 0.0; 0.0; 0.0; 0.0];
  [11.0; 1215.0685455496393; 4.1189210918880756e-15; 13.16416149823168; 1.9516489015800003; 0.59; 10.5526945216; 0.0; 0.00141; 0.0; 0.00141; 0.0; 0.0; 0.0; 0.0; 0.0; 0.0; 0.0; 0.0; 0.0];
  [11.0; 1215.8014781509576; 1.74203910400037e-13; 7.727297316183926; 1.4929664408399999; 0.53; 7.49481145; 0.0; 0.00434; 0.0; 0.00434; 0.0; 0.0; 0.0; 0.0; 0.0; 0.0; 0.0; 0.0; 0.0];
  [11.0; 1219.9442801488137; 5.261289468113915e-13; 7.727625862336159; 1.5049581391600002; 0.53; 7.5847491874; 0.0; 0.00449; 0.0; 0.00449; 0.0; 0.0; 0.0; 0.0; 0.0; 0.0; 0.0; 0.0; 0.0];
  [11.0; 1222.8238466663954; 6.816421990456978e-15; 11.605853466034096; 2.23045588752; 0.64; 11.1223001918; 0.0; -0.00372; 0.0; -0.00372; 0.0; 0.0; 0.0; 0.0; 0.0; 0.0; 0.0; 0.0; 0.0];
  [11.0; 1228.788727265484; 1.3929336536575625e-09; 0.5548313702350339; 3.1178415632; 0.75; 14.4200172298; 0.0; 0.00246; 0.0; 0.00246; 0.0; 0.0; 0.0; 0.0; 0.0; 0.0; 0.0; 0.0; 0.0];
  [11.0; 1271.4729376015575; 7.516958322951704e-15; 10.681527025513445; 1.98762399654; 0.62; 11.6319473704; 0.0; -0.00442; 0.0; -0.00442; 0.0; 0.0; 0.0; 0.0; 0.0; 0.0; 0.0; 0.0; 0.0];
  [11.0; 1278.265904928134; 2.0769012845123716e-11; 4.364584767239857; 2.7131217449; 0.67; 23.054040020200002; 0.0; 0.004; 0.0; 0.004; 0.0; 0.0; 0.0; 0.0; 0.0; 0.0; 0.0; 0.0; 0.0];
  [11.0; 1296.4110533033045; 2.0135332677140933e-11; 4.144227374288629; 2.9079868426; 0.71; 12.1715737948; 0.0; -0.0036; 0.0; -0.0036; 0.0; 0.0; 0.0; 0.0; 0.0; 0.0; 0.0; 0.0; 0.0];
  [11.0; 1307.9632858591224; 1.5219951190632298e-12; 5.280635873455239; 2.0685679602; 0.63; 9.9231303598; 0.0; 0.00972; 0.0; 0.00972; 0.0; 0.0; 0.0; 0.0; 0.0; 0.0; 0.0; 0.0; 0.0];
  [11.0; 1322.0647436230515; 1.653963374230286e-10; 2.5463736613961125; 2.6231840075; 0.71; 12.3214700238; 0.0; -0.00325; 0.0; -0.00325; 0.0; 0.0; 0.0; 0.0; 0.0; 0.0; 0.0; 0.0; 0.0];
  [11.0; 1332.9796174131613; 4.223565523298077e-16; 15.223996360229759; 3.1328311860999998; 0.75; 13.49066061; 0.0; 0.00643; 0.0; 0.00643; 0.0; 0.0; 0.0; 0.0; 0.0; 0.0; 0.0; 0.0; 0.0];
  [11.0; 1335.2792653999875; 7.673924970066705e-14; 9.747212917710971; 1.27711587108; 0.48; 6.8052887966; 0.0; 0.00466; 0.0; 0.00466; 0.0; 0.0; 0.0; 0.0; 0.0; 0.0; 0.0; 0.0; 0.0];
  [11.0; 1335.9847370121533; 2.5603004218313464e-14; 9.747268875772013; 1.2801137956600002; 0.48; 6.8052887966; 0.0; 0.00469; 0.0; 0.00469; 0.0; 0.0; 0.0; 0.0; 0.0; 0.0; 0.0; 0.0; 0.0];
  [11.0; 1344.6761700582604; 1.1060335042084777e-12; 4.34251574450638; 2.23944966126; 0.66; 10.7325699964; 0.0; 0.00844; 0.0; 0.00844; 0.0; 0.0; 0.0; 0.0; 0.0; 0.0; 0.0; 0.0; 0.0];
  [11.0; 1360.5793505155236; 1.649021831635925e-15; 15.886287852570282; 3.0249059012200004; 0.75; 13.6105775932; 0.0; 0.00236; 0.0; 0.00236; 0.0; 0.0; 0.0; 0.0; 0.0; 0.0; 0.0; 0.0; 0.0];
  [11.0; 1378.1639769319715; 5.615917819003361e-16; 13.887631877310229; 1.0972403962800001; 0.37; 7.644707679000001; 0.0; 0.00996; 0.0; 0.00996; 0.0; 0.0; 0.0; 0.0; 0.0; 0.0; 0.0; 0.0; 0.0];
  [11.0; 1406.675828587799; 2.9067897613889036e-12; 8.614232782737218; 2.9829349571000003; 0.75; 14.0003077886; 0.0; 0.00326; 0.0; 0.00326; 0.0; 0.0; 0.0; 0.0; 0.0; 0.0; 0.0; 0.0; 0.0];
  [11.0; 1410.6180394520075; 4.104387143081131e-09; 2.0289189758207202; 2.8929972197000002; 0.74; 12.8311172024; 0.0; 0.00355; 0.0; 0.00355; 0.0; 0.0; 0.0; 0.0; 0.0; 0.0; 0.0; 0.0; 0.0];
  [11.0; 1421.957749134349; 8.798852607724212e-13; 9.109782880543175; 2.9409640129800003; 0.75; 14.2101625092; 0.0; 0.00364; 0.0; 0.00364; 0.0; 0.0; 0.0; 0.0; 0.0; 0.0; 0.0; 0.0; 0.0];
  [11.0; 1428.4715497240356; 1.910923589137065e-15; 13.180631275642035; 2.28741645454; 0.69; 10.5526945216; 0.0; 0.00496; 0.0; 0.00496; 0.0; 0.0; 0.0; 0.0; 0.0; 0.0; 0.0; 0.0; 0.0];
  [11.0; 1435.008614208463; 2.316420760850817e-13; 6.316993880136515; 1.8737028625; 0.58; 9.9231303598; 0.0; 0.01042; 0.0; 0.01042; 0.0; 0.0; 0.0; 0.0; 0.0; 0.0; 0.0; 0.0; 0.0];
  [11.0; 1440.7816875929232; 2.7175577479224855e-11; 3.288500468098573; 2.6681528761999997; 0.71; 13.0709511688; 0.0; -0.00379; 0.0; -0.00379; 0.0; 0.0; 0.0; 0.0; 0.0; 0.0; 0.0; 0.0; 0.0];
  [11.0; 1473.5701985791038; 1.7586078056402866e-13; 9.734343160858245; 2.7161196694800003; 0.72; 13.700515330600002; 0.0; -0.00049; 0.0; -0.00049; 0.0; 0.0; 0.0; 0.0; 0.0; 0.0; 0.0; 0.0; 0.0];
  [11.0; 1494.057535490891; 7.903561361216428e-13; 8.243419587370605; 3.0338996749600002; 0.75; 13.850411559600001; 0.0; 0.00246; 0.0; 0.00246; 0.0; 0.0; 0.0; 0.0; 0.0; 0.0; 0.0; 0.0; 0.0];
  [11.0; 1529.1308847164728; 3.3515285948814055e-15; 11.97614824349396; 1.10623417002; 0.45; 6.0857868974; 0.0; 0.00485; 0.0; 0.00485; 0.0; 0.0; 0.0; 0.0; 0.0; 0.0; 0.0; 0.0; 0.0];
  [11.0; 1529.245855124116; 1.0051678994882828e-14; 11.976157441126572; 1.1092320946; 0.45; 6.0857868974; 0.0; 0.00485; 0.0; 0.00485; 0.0; 0.0; 0.0; 0.0; 0.0; 0.0; 0.0; 0.0; 0.0];
  [11.0; 1538.6908464926516; 1.7397136721912587e-15; 15.654346246402987; 2.9679453342000004; 0.74; 13.640556839; 0.0; -0.00046; 0.0; -0.00046; 0.0; 0.0; 0.0; 0.0; 0.0; 0.0; 0.0; 0.0; 0.0];
  [11.0; 1541.9670084529214; 4.4357611758794664e-11; 3.049880490871357; 2.698132122; 0.71; 26.9513419742; 0.0; 0.00156; 0.0; 0.00156; 0.0; 0.0; 0.0; 0.0; 0.0; 0.0; 0.0; 0.0; 0.0];
  [11.0; 1574.2321417659255; 6.6013195481141996e-12; 3.503827787297399; 2.6381736304; 0.69; 10.9724039628; 0.0; 0.00679; 0.0; 0.00679; 0.0; 0.0; 0.0; 0.0; 0.0; 0.0; 0.0; 0.0; 0.0];
  [11.0; 1592.0679942621775; 2.131548932026483e-12; 9.724863150133107; 2.8360366526800003; 0.74; 14.390037984; 0.0; 0.00355; 0.0; 0.00355; 0.0; 0.0; 0.0; 0.0; 0.0; 0.0; 0.0; 0.0; 0.0];
  [11.0; 1596.252467411696; 7.618695964600315e-13; 5.892932210321687; 2.23944966126; 0.68; 10.49273603; 0.0; 0.01012; 0.0; 0.01012; 0.0; 0.0; 0.0; 0.0; 0.0; 0.0; 0.0; 0.0; 0.0];
  [11.0; 1602.2192367032696; 2.0021967876446768e-09; 1.19329361442078; 2.88400344596; 0.73; 14.9596436542; 0.0; 0.00055; 0.0; 0.00055; 0.0; 0.0; 0.0; 0.0; 0.0; 0.0; 0.0; 0.0; 0.0];
  [11.0; 1643.9191384619921; 4.249726631150576e-12; 8.175839280243698; 2.9679453342000004; 0.74; 15.229456866400001; 0.0; -0.00046; 0.0; -0.00046; 0.0; 0.0; 0.0; 0.0; 0.0; 0.0; 0.0; 0.0; 0.0];
  [11.0; 1646.633339459741; 3.746852002430297e-15; 11.344768202800758; 2.4732877785; 0.69; 9.983088851400002; 0.0; -0.00065; 0.0; -0.00065; 0.0; 0.0; 0.0; 0.0; 0.0; 0.0; 0.0; 0.0; 0.0];
  [11.0; 1661.0077282774332; 5.270009837398082e-09; 0.5141993567926139; 2.96494740962; 0.74; 15.649166307600002; 0.0; 0.00423; 0.0; 0.00423; 0.0; 0.0; 0.0; 0.0; 0.0; 0.0; 0.0; 0.0; 0.0];
  [11.0; 1669.9048189497285; 1.253989103063173e-08; 0.24772649211814146; 3.1178415632; 0.76; 14.7797681794; 0.0; 0.00598; 0.0; 0.00598; 0.0; 0.0; 0.0; 0.0; 0.0; 0.0; 0.0; 0.0; 0.0];
  [11.0; 1693.4703648617678; 3.07538356754946e-13; 7.449684029463153; 1.6638481419000002; 0.53; 9.0537322316; 0.0; 0.00986; 0.0; 0.00986; 0.0; 0.0; 0.0; 0.0; 0.0; 0.0; 0.0; 0.0; 0.0];
  [11.0; 1713.8829934930213; 2.2841553944994002e-11; 1.697700185817653; 2.6831424991; 0.71; 13.400722872600001; 0.0; 0.00439; 0.0; 0.00439; 0.0; 0.0; 0.0; 0.0; 0.0; 0.0; 0.0; 0.0; 0.0];
  [11.0; 1716.7696950711036; 1.1720176317920059e-08; 0.5186603141361075; 2.9679453342000004; 0.74; 15.439311587; 0.0; -0.00046; 0.0; -0.00046; 0.0; 0.0; 0.0; 0.0; 0.0; 0.0; 0.0; 0.0; 0.0];
  [11.0; 1716.9568255233871; 6.258318356270309e-12; 2.2800168931497558; 2.55423174216; 0.69; 12.6212624818; 0.0; 0.00436; 0.0; 0.00436; 0.0; 0.0; 0.0; 0.0; 0.0; 0.0; 0.0; 0.0; 0.0];
  [11.0; 1719.735751712818; 5.915317164426419e-16; 16.631320480414626; 2.9409640129800003; 0.75; 14.2101625092; 0.0; 0.00364; 0.0; 0.00364; 0.0; 0.0; 0.0; 0.0; 0.0; 0.0; 0.0; 0.0; 0.0];
  [11.0; 1739.3515619699535; 1.0438282033147552e-12; 8.856878245978457; 2.88400344596; 0.73; 14.3600587382; 0.0; 0.00055; 0.0; 0.00055; 0.0; 0.0; 0.0; 0.0; 0.0; 0.0; 0.0; 0.0; 0.0];
  [11.0; 1740.3980774823399; 2.200149170395261e-14; 12.476958295909112; 2.26643098248; 0.67; 10.5526945216; 0.0; -0.00666; 0.0; -0.00666; 0.0; 0.0; 0.0; 0.0; 0.0; 0.0; 0.0; 0.0; 0.0];
  [11.0; 1742.476958303095; 2.0083010461435932e-15; 16.13453215581524; 2.9829349571000003; 0.75; 14.0003077886; 0.0; 0.00326; 0.0; 0.00326; 0.0; 0.0; 0.0; 0.0; 0.0; 0.0; 0.0; 0.0; 0.0]].
Definition h2o_ctr_MWL24 : list dec := h2o_ctr_R21SD.
Definition h2o_reftline_MWL24 : dec := 296.0.

(** ** Oxygen *)

Definition o2_be_R98 : list dec := [0.009; 0.015; 0.083; 0.084; 0.212; 0.212; 0.391; 0.391; 0.626; 0.626; 0.915; 0.915; 1.26; 1.26; 1.66; 1.665; 2.119; 2.115; 2.624; 2.625; 3.194; 3.194; 3.814; 3.814; 4.484; 4.484; 5.224; 5.224; 6.004; 6.004; 6.844; 6.844; 7.744; 7.744; 0.048; 0.044; 0.049; 0.145; 0.141; 0.145].
Definition o2_f_R98 : list dec := [118.7503; 56.2648; 62.4863; 58.4466; 60.3061; 59.591; 59.1642; 60.4348; 58.3239; 61.1506; 57.6125; 61.8002; 56.9682; 62.4112; 56.3634; 62.998; 55.7838; 63.5685; 55.2214; 64.1278; 54.6712; 64.6789; 54.13; 65.2241; 53.5957; 65.7648; 53.0669; 66.3021; 52.5424; 66.8368; 52.0214; 67.3696; 51.5034; 67.9009; 368.4984; 424.7632; 487.2494; 715.3931; 773.8397; 834.1458].
Definition o2_s300_R98 : list dec := [2.936e-15; 8.079e-16; 2.48e-15; 2.228e-15; 3.351e-15; 3.292e-15; 3.721e-15; 3.891e-15; 3.64e-15; 4.005e-15; 3.227e-15; 3.715e-15; 2.627e-15; 3.156e-15; 1.982e-15; 2.477e-15; 1.391e-15; 1.808e-15; 9.124e-16; 1.23e-15; 5.603e-16; 7.842e-16; 3.228e-16; 4.689e-16; 1.748e-16; 2.632e-16; 8.898e-17; 1.389e-16; 4.264e-17; 6.899e-17; 1.924e-17; 3.229e-17; 8.191e-18; 1.423e-17; 6.494e-16; 7.083e-15; 3.025e-15; 1.835e-15; 1.158e-14; 3.993e-15].
Definition o2_v_R98 : list dec := [0.0079; -0.0978; 0.0844; -0.1273; 0.0699; -0.0776; 0.2309; -0.2825; 0.0436; -0.0584; 0.6056; -0.6619; 0.6451; -0.6759; 0.6547; -0.6675; 0.6135; -0.6139; 0.2952; -0.2895; 0.2654; -0.259; 0.375; -0.368; 0.5085; -0.5002; 0.6206; -0.6091; 0.6526; -0.6393; 0.664; -0.6475; 0.6729; -0.6545; 0.0; 0.0; 0.0; 0.0; 0.0; 0.0].
Definition o2_w300_R98 : list dec := [1.63; 1.646; 1.468; 1.449; 1.382; 1.36; 1.319; 1.297; 1.266; 1.248; 1.221; 1.207; 1.181; 1.171; 1.144; 1.139; 1.11; 1.108; 1.079; 1.078; 1.05; 1.05; 1.02; 1.02; 1.0; 1.0; 0.97; 0.97; 0.94; 0.94; 0.92; 0.92; 0.89; 0.89; 1.92; 1.92; 1.92; 1.81; 1.81; 1.81].
Definition o2_wb300_R98 : dec := 0.5600000023841858.
Definition o2_x_R98 : dec := 0.800000011920929.
Definition o2_y300_R98 : list dec := [-0.0233; 0.2408; -0.3486; 0.5227; -0.543; 0.5877; -0.397; 0.3237; -0.1348; 0.0311; 0.0725; -0.1663; 0.2832; -0.3629; 0.397; -0.4599; 0.4695; -0.5199; 0.5187; -0.5597; 0.5903; -0.6246; 0.6656; -0.6942; 0.7086; -0.7325; 0.7348; -0.7546; 0.7702; -0.7864; 0.8083; -0.821; 0.8439; -0.8529; 0.0; 0.0; 0.0; 0.0; 0.0; 0.0].
Definition o2_be_R03 : list dec := o2_be_R98.
Definition o2_f_R03 : list dec := o2_f_R98.
Definition o2_s300_R03 : list dec := o2_s300_R98.
Definition o2_v_R03 : list dec := o2_v_R98.
Definition o2_w300_R03 : list dec := [1.67; 1.646; 1.468; 1.449; 1.382; 1.36; 1.319; 1.297; 1.266; 1.248; 1.221; 1.207; 1.181; 1.171; 1.144; 1.139; 1.11; 1.108; 1.079; 1.078; 1.05; 1.05; 1.02; 1.02; 1.0; 1.0; 0.97; 0.97; 0.94; 0.94; 0.92; 0.92; 0.89; 0.89; 1.64; 1.64; 1.64; 1.81; 1.81; 1.81].
Definition o2_wb300_R03 : dec := 0.5600000023841858.
Definition o2_x_R03 : dec := 0.800000011920929.
Definition o2_y300_R03 : list dec := [-0.036; 0.2408; -0.3486; 0.5227; -0.543; 0.5877; -0.397; 0.3237; -0.1348; 0.0311; 0.0725; -0.1663; 0.2832; -0.3629; 0.397; -0.4599; 0.4695; -0.5199; 0.5187; -0.5597; 0.5903; -0.6246; 0.6656; -0.6942; 0.7086; -0.7325; 0.7348; -0.7546; 0.7702; -0.7864; 0.8083; -0.821; 0.8439; -0.8529; 0.0; 0.0; 0.0; 0.0; 0.0; 0.0].
Definition o2_be_R16 : list dec := [0.01; 0.014; 0.083; 0.083; 0.207; 0.207; 0.387; 0.387; 0.621; 0.621; 0.91; 0.91; 1.255; 1.255; 1.654; 1.654; 2.109; 2.109; 2.618; 2.618; 3.182; 3.182; 3.8; 3.8; 4.474; 4.474; 5.201; 5.201; 5.983; 5.983; 6.819; 6.819; 7.709; 7.709; 8.653; 8.653; 9.651; 9.651; 0.019; 0.048; 0.045; 0.044; 0.049; 0.084; 0.145; 0.136; 0.141; 0.145; 0.201].
Definition o2_dnu0_R16 : list dec := [0.0; 0.00545; -0.0175; 0.0286; -0.043; 0.0491; -0.0229; 0.0162; -0.000866; -0.00609; -0.00115; -0.00256; 0.00221; -0.00447; 0.00605; -0.00746; 0.00675; -0.00762; 0.00732; -0.00784; 0.00802; -0.00833; 0.00696; -0.00714; 0.00517; -0.00526; 0.00368; -0.00376; 0.00277; -0.00283; 0.0023; -0.00235; 0.00209; -0.00211; 0.00194; -0.00197; 0.00199; -0.00199; 0.0; 0.0; 0.0; 0.0; 0.0; 0.0; 0.0; 0.0; 0.0; 0.0; 0.0].
Definition o2_dnu1_R16 : list dec := [0.0; 0.0017; -0.0013; 0.00107; -0.00444; 0.00493; -0.0529; 0.061; -0.0193; 0.0168; 0.0393; -0.0448; 0.0247; -0.0265; 0.0102; -0.0106; 0.0104; -0.0105; 0.0163; -0.0163; 0.00835; -0.00815; 0.000922; -0.00076; -0.00174; 0.00184; -0.0015; 0.00157; -0.000561; 0.000641; -9.39e-05; 0.000173; -3.66e-05; 9.9e-05; -0.000156; 0.000224; -0.000708; 0.000743; 0.0; 0.0; 0.0; 0.0; 0.0; 0.0; 0.0; 0.0; 0.0; 0.0; 0.0].
Definition o2_f_R16 : list dec := [118.7503; 56.2648; 62.4863; 58.4466; 60.3061; 59.591; 59.1642; 60.4348; 58.3239; 61.1506; 57.6125; 61.8002; 56.9682; 62.4112; 56.3634; 62.998; 55.7838; 63.5685; 55.2214; 64.1278; 54.6712; 64.6789; 54.13; 65.2241; 53.5958; 65.7648; 53.0669; 66.3021; 52.5424; 66.8368; 52.0214; 67.3696; 51.5034; 67.9009; 50.9877; 68.431; 50.4742; 68.9603; 233.9461; 368.4982; 401.7398; 424.763; 487.2493; 566.8956; 715.3929; 731.1866; 773.8395; 834.1455; 895.071].
Definition o2_g0_R16 : list dec := [0.0; -0.0835; -0.0947; -0.218; -0.16; -0.162; 0.0197; 0.132; 0.128; 0.166; 0.0883; 0.0713; 0.0735; 0.0582; -0.00369; 0.00439; -0.0213; -0.0634; -0.0868; -0.105; -0.114; -0.134; -0.163; -0.174; -0.186; -0.195; -0.179; -0.186; -0.184; -0.189; -0.197; -0.2; -0.212; -0.214; -0.227; -0.228; -0.215; -0.216; 0.0; 0.0; 0.0; 0.0; 0.0; 0.0; 0.0; 0.0; 0.0; 0.0; 0.0].
Definition o2_g1_R16 : list dec := [0.0; 0.00843; 0.0234; 0.0596; 0.0326; 0.041; 0.0174; 0.039; 0.262; 0.305; 0.126; 0.0799; -0.156; -0.216; -0.253; -0.296; -0.287; -0.324; -0.374; -0.394; -0.393; -0.4; -0.329; -0.328; -0.261; -0.258; -0.237; -0.232; -0.244; -0.239; -0.262; -0.254; -0.278; -0.268; -0.295; -0.283; -0.354; -0.336; 0.0; 0.0; 0.0; 0.0; 0.0; 0.0; 0.0; 0.0; 0.0; 0.0; 0.0].
Definition o2_s300_R16 : list dec := [2.906e-15; 7.957e-16; 2.444e-15; 2.194e-15; 3.301e-15; 3.243e-15; 3.664e-15; 3.834e-15; 3.588e-15; 3.947e-15; 3.179e-15; 3.661e-15; 2.59e-15; 3.111e-15; 1.954e-15; 2.443e-15; 1.373e-15; 1.784e-15; 9.013e-16; 1.217e-15; 5.545e-16; 7.766e-16; 3.201e-16; 4.651e-16; 1.738e-16; 2.619e-16; 8.88e-17; 1.387e-16; 4.272e-17; 6.923e-17; 1.939e-17; 3.255e-17; 8.301e-18; 1.445e-17; 3.356e-18; 6.049e-18; 1.28e-18; 2.394e-18; 3.287e-17; 6.463e-16; 1.334e-17; 7.049e-15; 3.011e-15; 1.797e-17; 1.826e-15; 2.193e-17; 1.153e-14; 3.974e-15; 2.512e-17].
Definition o2_w300_R16 : list dec := [1.688; 1.703; 1.513; 1.491; 1.415; 1.408; 1.353; 1.339; 1.295; 1.292; 1.262; 1.263; 1.223; 1.217; 1.189; 1.174; 1.134; 1.134; 1.089; 1.088; 1.037; 1.038; 0.996; 0.996; 0.955; 0.955; 0.906; 0.906; 0.858; 0.858; 0.811; 0.811; 0.764; 0.764; 0.717; 0.717; 0.669; 0.669; 2.78; 1.64; 1.64; 1.64; 1.6; 1.6; 1.6; 1.6; 1.62; 1.47; 1.47].
Definition o2_wb300_R16 : dec := 0.5600000023841858.
Definition o2_x_R16 : dec := 0.800000011920929.
Definition o2_y0_R16 : list dec := [-0.041; 0.265; -0.354; 0.53; -0.547; 0.589; -0.359; 0.276; -0.0942; -0.0124; 0.0647; -0.155; 0.224; -0.299; 0.365; -0.426; 0.466; -0.515; 0.546; -0.587; 0.608; -0.642; 0.64; -0.668; 0.655; -0.679; 0.669; -0.689; 0.689; -0.706; 0.715; -0.729; 0.743; -0.754; 0.771; -0.78; 0.802; -0.807; 0.0; 0.0; 0.0; 0.0; 0.0; 0.0; 0.0; 0.0; 0.0; 0.0; 0.0].
Definition o2_y1_R16 : list dec := [0.0; -0.0132; 0.0582; -0.0981; 0.114; -0.153; -0.0494; 0.0476; 0.186; -0.235; 0.611; -0.674; 0.628; -0.662; 0.583; -0.598; 0.596; -0.6; 0.617; -0.615; 0.515; -0.509; 0.406; -0.399; 0.348; -0.34; 0.335; -0.327; 0.342; -0.332; 0.346; -0.336; 0.344; -0.334; 0.338; -0.327; 0.32; -0.309; 0.0; 0.0; 0.0; 0.0; 0.0; 0.0; 0.0; 0.0; 0.0; 0.0; 0.0].
Definition o2_be_R17 : list dec := o2_be_R16.
Definition o2_f_R17 : list dec := o2_f_R16.
Definition o2_s300_R17 : list dec := o2_s300_R16.
Definition o2_v_R17 : list dec := [0.0079; -0.0978; 0.0844; -0.1273; 0.0699; -0.0776; 0.2309; -0.2825; 0.0436; -0.0584; 0.6056; -0.6619; 0.6451; -0.6759; 0.6547; -0.6675; 0.6135; -0.6139; 0.2952; -0.2895; 0.2654; -0.259; 0.375; -0.368; 0.5085; -0.5002; 0.6206; -0.6091; 0.6526; -0.6393; 0.664; -0.6475; 0.6729; -0.6545; 0.68; -0.66; 0.685; -0.665; 0.0; 0.0; 0.0; 0.0; 0.0; 0.0; 0.0; 0.0; 0.0; 0.0; 0.0].
Definition o2_w300_R17 : list dec := [1.688; 1.703; 1.513; 1.491; 1.415; 1.408; 1.353; 1.339; 1.295; 1.292; 1.262; 1.263; 1.223; 1.217; 1.189; 1.174; 1.134; 1.134; 1.089; 1.088; 1.037; 1.038; 0.996; 0.996; 0.955; 0.955; 0.906; 0.906; 0.858; 0.858; 0.811; 0.811; 0.764; 0.764; 0.717; 0.717; 0.669; 0.669; 1.65; 1.64; 1.64; 1.64; 1.6; 1.6; 1.6; 1.6; 1.62; 1.47; 1.47].
Definition o2_wb300_R17 : dec := 0.5600000023841858.
Definition o2_x_R17 : dec := 0.800000011920929.
Definition o2_y300_R17 : list dec := [-0.036; 0.2547; -0.3655; 0.5495; -0.5696; 0.6181; -0.4252; 0.3517; -0.1496; 0.043; 0.064; -0.1605; 0.2906; -0.373; 0.4169; -0.4819; 0.4963; -0.5481; 0.5512; -0.5931; 0.6212; -0.6558; 0.692; -0.7208; 0.7312; -0.755; 0.7555; -0.7751; 0.7914; -0.8073; 0.8307; -0.8431; 0.8676; -0.8761; 0.9046; -0.9092; 0.9416; -0.9423; 0.0; 0.0; 0.0; 0.0; 0.0; 0.0; 0.0; 0.0; 0.0; 0.0; 0.0].
Definition o2_be_R18 : list dec := o2_be_R16.
Definition o2_f_R18 : list dec := o2_f_R16.
Definition o2_s300_R18 : list dec := o2_s300_R16.
Definition o2_v_R18 : list dec := o2_v_R17.
Definition o2_w300_R18 : list dec := o2_w300_R17.
Definition o2_wb300_R18 : dec := 0.5600000023841858.
Definition o2_x_R18 : dec := 0.800000011920929.
Definition o2_y300_R18 : list dec := o2_y300_R17.
Definition o2_be_R19 : list dec := o2_be_R16.
Definition o2_f_R19 : list dec := o2_f_R16.
Definition o2_s300_R19 : list dec := o2_s300_R16.
Definition o2_v_R19 : list dec := o2_v_R17.
Definition o2_w300_R19 : list dec := o2_w300_R17.
Definition o2_wb300_R19 : dec := 0.5600000023841858.
Definition o2_x_R19 : dec := 0.800000011920929.
Definition o2_y300_R19 : list dec := o2_y300_R17.
Definition o2_be_R19SD : list dec := o2_be_R16.
Definition o2_f_R19SD : list dec := o2_f_R16.
Definition o2_s300_R19SD : list dec := o2_s300_R16.
Definition o2_v_R19SD : list dec := o2_v_R17.
Definition o2_w300_R19SD : list dec := o2_w300_R17.
Definition o2_wb300_R19SD : dec := 0.5600000023841858.
Definition o2_x_R19SD : dec := 0.800000011920929.
Definition o2_y300_R19SD : list dec := o2_y300_R17.
Definition o2_be_R20 : list dec := o2_be_R16.
Definition o2_dnu0_R20 : list dec := [-0.00028; 0.00596; -0.0195; 0.032; -0.0475; 0.0541; -0.0232; 0.0155; 0.0007; -0.0086; -0.0026; -0.0013; -0.0004; -0.002; 0.005; -0.007; 0.007; -0.008; 0.006; -0.007; 0.006; -0.006; 0.005; -0.0049; 0.004; -0.0041; 0.0036; -0.0037; 0.0033; -0.0034; 0.0032; -0.0032; 0.003; -0.003; 0.0028; -0.0029; 0.0029; -0.0029; 0.0; 0.0; 0.0; 0.0; 0.0; 0.0; 0.0; 0.0; 0.0; 0.0; 0.0].
Definition o2_dnu1_R20 : list dec := [-0.00037; 0.0086; -0.013; 0.019; -0.026; 0.027; 0.005; -0.014; 0.012; -0.018; -0.015; 0.015; 0.003; -0.004; 0.012; -0.013; 0.012; -0.012; 0.009; -0.009; 0.002; -0.002; 0.0005; -0.0005; 0.002; -0.002; 0.002; -0.002; 0.002; -0.002; 0.002; -0.002; 0.002; -0.002; 0.001; -0.001; 0.0004; -0.0004; 0.0; 0.0; 0.0; 0.0; 0.0; 0.0; 0.0; 0.0; 0.0; 0.0; 0.0].
Definition o2_f_R20 : list dec := o2_f_R16.
Definition o2_g0_R20 : list dec := [-0.000695; -0.09; -0.103; -0.239; -0.172; -0.171; 0.028; 0.15; 0.132; 0.17; 0.087; 0.069; 0.083; 0.068; 0.007; 0.016; -0.021; -0.066; -0.095; -0.116; -0.118; -0.14; -0.173; -0.186; -0.217; -0.227; -0.234; -0.242; -0.266; -0.272; -0.301; -0.304; -0.334; -0.333; -0.362; -0.358; -0.348; -0.344; 0.0; 0.0; 0.0; 0.0; 0.0; 0.0; 0.0; 0.0; 0.0; 0.0; 0.0].
Definition o2_g1_R20 : list dec := [0.0; -0.042; 0.004; 0.025; 0.083; 0.167; 0.178; 0.223; 0.054; 0.003; 0.002; -0.044; -0.019; -0.054; -0.177; -0.208; -0.294; -0.334; -0.368; -0.386; -0.374; -0.384; -0.387; -0.389; -0.423; -0.422; -0.46; -0.46; -0.51; -0.5; -0.55; -0.53; -0.58; -0.56; -0.62; -0.59; -0.68; -0.65; 0.0; 0.0; 0.0; 0.0; 0.0; 0.0; 0.0; 0.0; 0.0; 0.0; 0.0].
Definition o2_s300_R20 : list dec := o2_s300_R16.
Definition o2_w300_R20 : list dec := [1.685; 1.703; 1.513; 1.495; 1.433; 1.408; 1.353; 1.353; 1.303; 1.319; 1.262; 1.265; 1.238; 1.217; 1.207; 1.207; 1.137; 1.137; 1.101; 1.101; 1.037; 1.038; 0.996; 0.996; 0.955; 0.955; 0.906; 0.906; 0.858; 0.858; 0.811; 0.811; 0.764; 0.764; 0.717; 0.717; 0.669; 0.669; 1.65; 1.64; 1.64; 1.64; 1.6; 1.6; 1.6; 1.6; 1.62; 1.47; 1.47].
Definition o2_wb300_R20 : dec := 0.5600000023841858.
Definition o2_x_R20 : dec := 0.7540000081062317.
Definition o2_y0_R20 : list dec := [-0.041; 0.277; -0.373; 0.56; -0.573; 0.618; -0.366; 0.278; -0.089; -0.021; 0.0599; -0.152; 0.216; -0.293; 0.374; -0.436; 0.491; -0.542; 0.571; -0.613; 0.636; -0.67; 0.69; -0.718; 0.74; -0.763; 0.788; -0.807; 0.834; -0.849; 0.876; -0.887; 0.915; -0.922; 0.95; -0.955; 0.987; -0.988; 0.0; 0.0; 0.0; 0.0; 0.0; 0.0; 0.0; 0.0; 0.0; 0.0; 0.0].
Definition o2_y1_R20 : list dec := [0.0; 0.11; -0.009; 0.007; 0.049; -0.1; 0.26; -0.346; 0.364; -0.422; 0.315; -0.341; 0.483; -0.503; 0.598; -0.61; 0.63; -0.633; 0.613; -0.611; 0.57; -0.564; 0.58; -0.57; 0.61; -0.6; 0.64; -0.62; 0.65; -0.64; 0.66; -0.64; 0.66; -0.64; 0.66; -0.64; 0.65; -0.63; 0.0; 0.0; 0.0; 0.0; 0.0; 0.0; 0.0; 0.0; 0.0; 0.0; 0.0].
Definition o2_be_R20SD : list dec := o2_be_R16.
Definition o2_dnu0_R20SD : list dec := o2_dnu0_R20.
Definition o2_dnu1_R20SD : list dec := o2_dnu1_R20.
Definition o2_f_R20SD : list dec := o2_f_R16.
Definition o2_g0_R20SD : list dec := o2_g0_R20.
Definition o2_g1_R20SD : list dec := o2_g1_R20.
Definition o2_s300_R20SD : list dec := o2_s300_R16.
Definition o2_w300_R20SD : list dec := o2_w300_R20.
Definition o2_wb300_R20SD : dec := 0.5600000023841858.
Definition o2_x_R20SD : dec := 0.7540000081062317.
Definition o2_y0_R20SD : list dec := o2_y0_R20.
Definition o2_y1_R20SD : list dec := o2_y1_R20.
Definition o2_be_R22 : list dec := o2_be_R16.
Definition o2_dnu0_R22 : list dec := o2_dnu0_R20.
Definition o2_dnu1_R22 : list dec := o2_dnu1_R20.
Definition o2_f_R22 : list dec := o2_f_R16.
Definition o2_g0_R22 : list dec := o2_g0_R20.
Definition o2_g1_R22 : list dec := o2_g1_R20.
Definition o2_s300_R22 : list dec := [2.906e-15; 7.957e-16; 2.444e-15; 2.194e-15; 3.301e-15; 3.243e-15; 3.664e-15; 3.834e-15; 3.588e-15; 3.947e-15; 3.179e-15; 3.661e-15; 2.59e-15; 3.111e-15; 1.954e-15; 2.443e-15; 1.373e-15; 1.784e-15; 9.013e-16; 1.217e-15; 5.545e-16; 7.766e-16; 3.201e-16; 4.651e-16; 1.738e-16; 2.619e-16; 8.88e-17; 1.387e-16; 4.272e-17; 6.923e-17; 1.939e-17; 3.255e-17; 8.301e-18; 1.445e-17; 3.356e-18; 6.049e-18; 1.28e-18; 2.394e-18; 8.299e-18; 6.492e-16; 1.354e-17; 7.082e-15; 3.026e-15; 1.823e-17; 1.835e-15; 2.226e-17; 1.158e-14; 3.992e-15; 2.55e-17].
Definition o2_w300_R22 : list dec := o2_w300_R20.
Definition o2_wb300_R22 : dec := 0.5600000023841858.
Definition o2_x_R22 : dec := 0.7540000081062317.
Definition o2_y0_R22 : list dec := o2_y0_R20.
Definition o2_y1_R22 : list dec := o2_y1_R20.
Definition o2_be_R23 : list dec := [0.0095; 0.0145; 0.0829; 0.0833; 0.2072; 0.2073; 0.3865; 0.3864; 0.6209; 0.6207; 0.9103; 0.91; 1.2548; 1.2543; 1.6542; 1.6536; 2.1084; 2.1078; 2.6175; 2.6168; 3.1814; 3.1806; 3.7998; 3.7989; 4.4729; 4.4719; 5.2003; 5.1992; 5.9821; 5.9809; 6.818; 6.8168; 7.708; 7.7067; 8.652; 8.6506; 9.6496; 9.6481; 0.0187; 0.0485; 0.0448; 0.044; 0.049; 0.0838; 0.1452; 0.1359; 0.1405; 0.1453; 0.201].
Definition o2_dnu0_R23 : list dec := [-0.00028; 0.00597; -0.0195; 0.032; -0.0475; 0.0541; -0.0232; 0.0154; 0.0007; -0.0084; -0.0025; -0.0014; -0.0004; -0.002; 0.005; -0.0066; 0.0072; -0.008; 0.0064; -0.007; 0.0056; -0.006; 0.0047; -0.0049; 0.004; -0.004; 0.0036; -0.0037; 0.0033; -0.0034; 0.0032; -0.0032; 0.003; -0.003; 0.0028; -0.0029; 0.0029; -0.0029; 0.0; 0.0; 0.0; 0.0; 0.0; 0.0; 0.0; 0.0; 0.0; 0.0; 0.0].
Definition o2_dnu1_R23 : list dec := [-0.00039; 0.009; -0.012; 0.016; -0.027; 0.029; 0.006; -0.015; 0.01; -0.014; -0.013; 0.013; 0.004; -0.005; 0.01; -0.01; 0.01; -0.011; 0.008; -0.009; 0.003; -0.003; 0.0009; -0.0009; 0.0017; -0.0016; 0.0024; -0.0023; 0.0024; -0.0024; 0.0024; -0.002; 0.0017; -0.0016; 0.0013; -0.0012; 0.0005; -0.0004; 0.0; 0.0; 0.0; 0.0; 0.0; 0.0; 0.0; 0.0; 0.0; 0.0; 0.0].
Definition o2_f_R23 : list dec := [118.7503; 56.2648; 62.4863; 58.4466; 60.3061; 59.591; 59.1642; 60.4348; 58.3239; 61.1506; 57.6125; 61.8002; 56.9682; 62.4112; 56.3634; 62.998; 55.7838; 63.5685; 55.2214; 64.1278; 54.6712; 64.6789; 54.13; 65.2241; 53.5958; 65.7648; 53.0669; 66.3021; 52.5424; 66.8368; 52.0214; 67.3696; 51.5034; 67.9009; 50.9877; 68.431; 50.4742; 68.9603; 233.9461; 368.4982; 401.7398; 424.763; 487.2493; 566.8956; 715.3929; 731.1867; 773.8395; 834.1456; 895.0711].
Definition o2_g0_R23 : list dec := [0.0; -0.09; -0.103; -0.239; -0.172; -0.171; 0.028; 0.15; 0.132; 0.17; 0.087; 0.069; 0.083; 0.067; 0.007; 0.016; -0.021; -0.066; -0.095; -0.115; -0.118; -0.14; -0.173; -0.186; -0.217; -0.227; -0.234; -0.242; -0.266; -0.272; -0.301; -0.304; -0.334; -0.333; -0.361; -0.358; -0.348; -0.344; 0.0; 0.0; 0.0; 0.0; 0.0; 0.0; 0.0; 0.0; 0.0; 0.0; 0.0].
Definition o2_g1_R23 : list dec := [0.0; -0.045; 0.007; 0.033; 0.081; 0.162; 0.179; 0.225; 0.054; 0.003; 0.0004; -0.047; -0.034; -0.071; -0.18; -0.21; -0.285; -0.323; -0.363; -0.38; -0.378; -0.387; -0.392; -0.394; -0.424; -0.422; -0.465; -0.46; -0.51; -0.5; -0.55; -0.54; -0.58; -0.56; -0.62; -0.59; -0.68; -0.65; 0.0; 0.0; 0.0; 0.0; 0.0; 0.0; 0.0; 0.0; 0.0; 0.0; 0.0].
Definition o2_s300_R23 : list dec := [2.925e-15; 8.011e-16; 2.46e-15; 2.208e-15; 3.323e-15; 3.265e-15; 3.69e-15; 3.859e-15; 3.61e-15; 3.974e-15; 3.2e-15; 3.686e-15; 2.607e-15; 3.131e-15; 1.967e-15; 2.459e-15; 1.382e-15; 1.796e-15; 9.074e-16; 1.225e-15; 5.581e-16; 7.818e-16; 3.222e-16; 4.684e-16; 1.749e-16; 2.636e-16; 8.937e-17; 1.397e-16; 4.301e-17; 6.968e-17; 1.952e-17; 3.277e-17; 8.354e-18; 1.454e-17; 3.377e-18; 6.091e-18; 1.289e-18; 2.409e-18; 8.298e-18; 6.506e-16; 1.347e-17; 7.097e-15; 3.032e-15; 1.815e-17; 1.839e-15; 2.215e-17; 1.16e-14; 3.999e-15; 2.537e-17].
Definition o2_w300_R23 : list dec := [1.708; 1.703; 1.513; 1.495; 1.433; 1.408; 1.353; 1.353; 1.303; 1.319; 1.262; 1.265; 1.238; 1.217; 1.207; 1.207; 1.137; 1.137; 1.101; 1.101; 1.037; 1.038; 0.996; 0.996; 0.955; 0.955; 0.906; 0.906; 0.858; 0.858; 0.811; 0.811; 0.764; 0.764; 0.717; 0.717; 0.669; 0.669; 1.65; 1.64; 1.64; 1.64; 1.6; 1.6; 1.6; 1.6; 1.62; 1.47; 1.47].
Definition o2_wb300_R23 : dec := 0.5600000023841858.
Definition o2_x_R23 : dec := 0.7540000081062317.
Definition o2_y1_R23 : list dec := [0.0; 0.124; -0.002; 0.008; 0.045; -0.093; 0.264; -0.351; 0.359; -0.416; 0.326; -0.353; 0.484; -0.503; 0.579; -0.59; 0.616; -0.619; 0.611; -0.609; 0.574; -0.568; 0.574; -0.566; 0.6; -0.59; 0.63; -0.62; 0.64; -0.63; 0.65; -0.64; 0.65; -0.64; 0.65; -0.64; 0.64; -0.62; 0.0; 0.0; 0.0; 0.0; 0.0; 0.0; 0.0; 0.0; 0.0; 0.0; 0.0].
Definition o2_y300_R23 : list dec := [-0.041; 0.277; -0.372; 0.559; -0.573; 0.618; -0.366; 0.278; -0.089; -0.021; 0.06; -0.152; 0.216; -0.293; 0.373; -0.436; 0.491; -0.542; 0.571; -0.613; 0.636; -0.67; 0.69; -0.718; 0.74; -0.763; 0.788; -0.807; 0.834; -0.849; 0.876; -0.887; 0.915; -0.922; 0.95; -0.955; 0.987; -0.988; 0.0; 0.0; 0.0; 0.0; 0.0; 0.0; 0.0; 0.0; 0.0; 0.0; 0.0].
Definition o2_be_R24 : list dec := o2_be_R23.
Definition o2_dnu0_R24 : list dec := o2_dnu0_R23.
Definition o2_dnu1_R24 : list dec := o2_dnu1_R23.
Definition o2_f_R24 : list dec := o2_f_R23.
Definition o2_g0_R24 : list dec := o2_g0_R23.
Definition o2_g1_R24 : list dec := o2_g1_R23.
Definition o2_s300_R24 : list dec := o2_s300_R23.
Definition o2_w300_R24 : list dec := [1.711; 1.703; 1.513; 1.495; 1.433; 1.408; 1.353; 1.353; 1.303; 1.319; 1.262; 1.265; 1.238; 1.217; 1.207; 1.207; 1.137; 1.137; 1.101; 1.101; 1.037; 1.038; 0.996; 0.996; 0.955; 0.955; 0.906; 0.906; 0.858; 0.858; 0.811; 0.811; 0.764; 0.764; 0.717; 0.717; 0.669; 0.669; 1.65; 1.64; 1.64; 1.64; 1.6; 1.6; 1.6; 1.6; 1.62; 1.47; 1.47].
Definition o2_wb300_R24 : dec := 0.5600000023841858.
Definition o2_x_R24 : dec := 0.7540000081062317.
Definition o2_y1_R24 : list dec := o2_y1_R23.
Definition o2_y300_R24 : list dec := o2_y300_R23.

(** ** Ozone *)

Definition o3_mtx_R18 : list (list dec) := [
  [31.0; 101.737569; 2.272e-13; 0.049; 2.524; 0.76; 0.0];
  [31.0; 110.83627; 3.547e-13; 0.095; 2.468; 0.76; 0.0];
  [31.0; 124.087096; 5.102e-13; 0.156; 2.414; 0.77; 0.0];
  [31.0; 125.388196; 2.998e-13; 0.136; 2.438; 0.77; 0.0];
  [31.0; 142.176573; 7.033e-13; 0.235; 2.37; 0.77; 0.0];
  [31.0; 144.919674; 2.62e-13; 0.444; 2.343; 0.77; 0.0];
  [31.0; 148.745026; 1.502e-13; 0.444; 2.373; 0.77; 0.0];
  [31.0; 154.045357; 1.565e-13; 0.394; 2.394; 0.77; 0.0];
  [31.0; 164.951806; 2.831e-13; 0.026; 2.642; 0.76; 0.0];
  [31.0; 165.785229; 9.282e-13; 0.329; 2.329; 0.77; 0.0];
  [31.0; 175.444542; 1.94e-13; 0.928; 2.249; 0.78; 0.0];
  [31.0; 184.378358; 8.274e-13; 0.208; 2.373; 0.77; 0.0];
  [31.0; 184.7501; 2.672e-13; 1.097; 2.201; 0.79; 0.0];
  [31.0; 193.351146; 2.375e-13; 0.853; 2.266; 0.78; 0.0];
  [31.0; 195.431705; 1.182e-12; 0.439; 2.293; 0.77; 0.0];
  [31.0; 195.722504; 2.28e-13; 0.346; 2.42; 0.77; 0.0];
  [31.0; 208.643559; 6.715e-13; 0.058; 2.553; 0.76; 0.0];
  [31.0; 210.802065; 2.416e-13; 0.304; 2.444; 0.77; 0.0];
  [31.0; 214.95419; 6.428e-13; 0.567; 2.302; 0.78; 0.0];
  [31.0; 226.055505; 3.199e-13; 0.781; 2.287; 0.78; 0.0];
  [31.0; 229.575068; 2.378e-13; 1.49; 2.172; 0.79; 0.0];
  [31.0; 231.280888; 1.453e-12; 0.566; 2.26; 0.78; 0.0];
  [31.0; 235.708822; 2.093e-12; 0.604; 2.26; 0.78; 0.0];
  [31.0; 237.144828; 2.021e-12; 0.475; 2.293; 0.77; 0.0];
  [31.0; 239.093479; 2.133e-12; 0.749; 2.234; 0.78; 0.0];
  [31.0; 242.319246; 1.902e-12; 0.362; 2.329; 0.77; 0.0];
  [31.0; 243.452461; 1.721e-12; 0.296; 2.314; 0.77; 0.0];
  [31.0; 244.156974; 2.796e-13; 0.264; 2.471; 0.77; 0.0];
  [31.0; 247.760479; 3.777e-13; 0.714; 2.308; 0.78; 0.0];
  [31.0; 248.183186; 2.162e-12; 0.912; 2.207; 0.78; 0.0];
  [31.0; 249.790074; 1.265e-12; 0.106; 2.476; 0.77; 0.0];
  [31.0; 249.960956; 1.727e-12; 0.266; 2.37; 0.77; 0.0];
  [31.0; 258.20225; 3.112e-13; 1.393; 2.186; 0.79; 0.0];
  [31.0; 258.714895; 1.482e-12; 0.187; 2.414; 0.77; 0.0];
  [31.0; 262.858027; 5.189e-13; 1.287; 2.172; 0.79; 0.0];
  [31.0; 263.69145; 2.179e-12; 1.09; 2.184; 0.79; 0.0];
  [31.0; 264.926595; 2.77e-13; 0.23; 2.497; 0.77; 0.0];
  [31.0; 267.267974; 1.173e-12; 0.125; 2.468; 0.76; 0.0];
  [31.0; 273.050971; 1.715e-12; 0.708; 2.234; 0.78; 0.0];
  [31.0; 274.477983; 7.983e-13; 0.08; 2.524; 0.76; 0.0];
  [31.0; 276.924289; 4.554e-13; 0.65; 2.329; 0.78; 0.0];
  [31.0; 279.484517; 3.373e-13; 0.051; 2.589; 0.76; 0.0];
  [31.0; 282.836197; 3.861e-13; 1.301; 2.201; 0.79; 0.0];
  [31.0; 286.088945; 1.234e-12; 0.707; 2.263; 0.78; 0.0];
  [31.0; 286.157897; 2.185e-12; 1.285; 2.16; 0.79; 0.0];
  [31.0; 286.295802; 5.939e-13; 0.062; 2.556; 0.76; 0.0];
  [31.0; 288.957959; 2.075e-12; 0.17; 2.405; 0.77; 0.0];
  [31.0; 293.170043; 1.038e-12; 0.098; 2.494; 0.76; 0.0];
  [31.0; 293.547781; 2.672e-13; 0.199; 2.524; 0.77; 0.0];
  [31.0; 300.68584; 5.132e-13; 0.591; 2.349; 0.77; 0.0];
  [31.0; 301.813059; 2.998e-12; 0.399; 2.263; 0.77; 0.0];
  [31.0; 303.165123; 1.444e-12; 0.151; 2.441; 0.77; 0.0];
  [31.0; 310.063348; 4.758e-13; 1.213; 2.216; 0.79; 0.0];
  [31.0; 315.876323; 2.176e-12; 1.496; 2.139; 0.79; 0.0];
  [31.0; 316.326012; 1.825e-12; 0.219; 2.391; 0.77; 0.0];
  [31.0; 316.682765; 2.883e-13; 2.066; 2.124; 0.8; 0.0];
  [31.0; 317.19541; 2.254e-13; 0.173; 2.553; 0.76; 0.0];
  [31.0; 319.995472; 1.954e-12; 0.866; 2.207; 0.78; 0.0];
  [31.0; 326.899692; 3.112e-12; 0.25; 2.343; 0.77; 0.0];
  [31.0; 327.844038; 5.708e-13; 0.536; 2.373; 0.77; 0.0];
  [31.0; 332.703674; 2.173e-12; 0.303; 2.349; 0.77; 0.0];
  [31.0; 332.880552; 8.358e-13; 0.046; 2.689; 0.76; 0.0];
  [31.0; 335.269897; 5.621e-13; 1.129; 2.231; 0.78; 0.0];
  [31.0; 343.18142; 3.633e-13; 1.953; 2.133; 0.8; 0.0];
  [31.0; 343.238381; 8.331e-13; 1.494; 2.145; 0.79; 0.0];
  [31.0; 343.505196; 1.626e-13; 0.15; 2.583; 0.76; 0.0];
  [31.0; 352.32509; 2.482e-12; 0.403; 2.311; 0.77; 0.0];
  [31.0; 352.591906; 6.053e-13; 0.485; 2.394; 0.77; 0.0];
  [31.0; 352.813752; 2.145e-12; 1.723; 2.118; 0.8; 0.0];
  [31.0; 355.017227; 1.055e-12; 0.057; 2.618; 0.76; 0.0];
  [31.0; 357.628419; 2.024e-12; 0.863; 2.225; 0.78; 0.0];
  [31.0; 358.201023; 2.13e-12; 2.027; 2.189; 0.8; 0.0];
  [31.0; 358.85457; 4.554e-12; 0.518; 2.216; 0.78; 0.0];
  [31.0; 359.64902; 2.499e-12; 1.781; 2.118; 0.8; 0.0];
  [31.0; 361.669621; 6.544e-13; 1.05; 2.249; 0.78; 0.0];
  [31.0; 363.468376; 1.813e-12; 2.29; 2.166; 0.81; 0.0];
  [31.0; 364.403729; 3.46e-13; 2.57; 2.077; 0.81; 0.0];
  [31.0; 364.448697; 4.323e-12; 0.345; 2.287; 0.77; 0.0];
  [31.0; 366.778085; 2.912e-12; 1.552; 2.139; 0.79; 0.0];
  [31.0; 368.948582; 4.41e-13; 1.845; 2.145; 0.79; 0.0];
  [31.0; 371.023146; 2.147e-12; 1.039; 2.184; 0.79; 0.0];
  [31.0; 375.178269; 2.739e-12; 0.519; 2.278; 0.78; 0.0];
  [31.0; 376.239535; 1.542e-12; 2.569; 2.145; 0.81; 0.0];
  [31.0; 378.281121; 3.343e-12; 1.339; 2.16; 0.79; 0.0];
  [31.0; 378.694835; 6.227e-13; 0.437; 2.42; 0.77; 0.0];
  [31.0; 387.098018; 7.438e-13; 0.974; 2.266; 0.78; 0.0];
  [31.0; 387.286887; 1.329e-12; 0.07; 2.598; 0.76; 0.0];
  [31.0; 392.653172; 3.804e-12; 1.144; 2.184; 0.79; 0.0];
  [31.0; 395.063503; 5.303e-13; 1.741; 2.157; 0.79; 0.0];
  [31.0; 396.529488; 2.078e-12; 1.966; 2.189; 0.8; 0.0];
  [31.0; 397.027144; 1.312e-12; 2.864; 2.124; 0.82; 0.0];
  [31.0; 400.076033; 1.643e-12; 0.09; 2.565; 0.76; 0.0];
  [31.0; 401.218242; 2.94e-12; 0.651; 2.246; 0.78; 0.0];
  [31.0; 402.396427; 5.708e-12; 0.456; 2.24; 0.78; 0.0];
  [31.0; 403.838428; 6.11e-13; 0.395; 2.444; 0.77; 0.0];
  [31.0; 408.293344; 4.236e-12; 0.965; 2.207; 0.78; 0.0];
  [31.0; 413.012078; 8.274e-13; 0.902; 2.287; 0.78; 0.0];
  [31.0; 414.253218; 6.284e-12; 0.652; 2.178; 0.78; 0.0];
  [31.0; 420.79469; 6.284e-13; 1.641; 2.172; 0.79; 0.0];
  [31.0; 423.6697; 4.584e-12; 0.803; 2.234; 0.78; 0.0];
  [31.0; 424.844886; 2.277e-12; 1.228; 2.16; 0.79; 0.0];
  [31.0; 425.15667; 1.188e-12; 1.717; 2.124; 0.8; 0.0];
  [31.0; 426.068039; 1.113e-12; 3.175; 2.107; 0.82; 0.0];
  [31.0; 427.94474; 3.286e-13; 2.609; 2.095; 0.81; 0.0];
  [31.0; 428.793153; 2.969e-12; 1.034; 2.189; 0.79; 0.0];
  [31.0; 429.419719; 5.708e-13; 0.356; 2.471; 0.77; 0.0];
  [31.0; 430.334086; 3.055e-12; 0.799; 2.219; 0.78; 0.0];
  [31.0; 437.49313; 4.785e-12; 0.658; 2.26; 0.78; 0.0];
  [31.0; 438.479447; 8.994e-13; 0.835; 2.308; 0.78; 0.0];
  [31.0; 441.339467; 7.177e-12; 0.583; 2.195; 0.78; 0.0];
  [31.0; 442.118927; 2.375e-12; 0.139; 2.512; 0.77; 0.0];
  [31.0; 445.458615; 1.966e-12; 0.111; 2.515; 0.76; 0.0];
  [31.0; 446.14514; 1.975e-12; 2.224; 2.166; 0.81; 0.0];
  [31.0; 446.648791; 7.294e-13; 1.544; 2.186; 0.79; 0.0];
  [31.0; 448.876249; 4.842e-12; 0.53; 2.293; 0.77; 0.0];
  [31.0; 452.239921; 4.383e-13; 2.86; 2.068; 0.82; 0.0];
  [31.0; 453.789848; 4.008e-13; 2.484; 2.104; 0.8; 0.0];
  [31.0; 454.66824; 4.986e-13; 0.321; 2.497; 0.77; 0.0];
  [31.0; 457.414339; 4.698e-12; 0.419; 2.329; 0.77; 0.0];
  [31.0; 462.36691; 3.112e-12; 0.962; 2.195; 0.79; 0.0];
  [31.0; 463.188341; 4.266e-12; 0.324; 2.37; 0.77; 0.0];
  [31.0; 463.245302; 9.398e-13; 3.503; 2.092; 0.83; 0.0];
  [31.0; 464.108704; 9.569e-13; 0.771; 2.329; 0.78; 0.0];
  [31.0; 466.64195; 3.633e-12; 0.246; 2.414; 0.77; 0.0];
  [31.0; 467.967033; 7.983e-12; 0.802; 2.142; 0.78; 0.0];
  [31.0; 468.398734; 2.756e-12; 0.185; 2.468; 0.76; 0.0];
  [31.0; 469.103247; 1.623e-12; 0.14; 2.524; 0.76; 0.0];
  [31.0; 469.325093; 9.138e-13; 0.123; 2.556; 0.76; 0.0];
  [31.0; 469.480985; 2.228e-12; 0.16; 2.494; 0.76; 0.0];
  [31.0; 469.954657; 3.259e-12; 0.213; 2.441; 0.77; 0.0];
  [31.0; 470.991939; 4.065e-12; 0.283; 2.391; 0.77; 0.0];
  [31.0; 472.302032; 8.331e-13; 1.452; 2.201; 0.79; 0.0];
  [31.0; 472.898619; 4.671e-12; 0.368; 2.349; 0.77; 0.0];
  [31.0; 473.072499; 7.609e-13; 3.925; 2.074; 0.83; 0.0];
  [31.0; 474.166741; 5.621e-13; 4.287; 2.062; 0.84; 0.0];
  [31.0; 476.019459; 5.132e-12; 0.47; 2.311; 0.77; 0.0];
  [31.0; 479.395122; 1.02e-12; 3.579; 2.092; 0.83; 0.0];
  [31.0; 479.631958; 4.785e-13; 2.364; 2.113; 0.8; 0.0];
  [31.0; 480.012694; 3.948e-13; 0.29; 2.524; 0.77; 0.0];
  [31.0; 480.183576; 2.335e-12; 1.432; 2.139; 0.79; 0.0];
  [31.0; 480.717206; 5.39e-12; 0.589; 2.278; 0.78; 0.0];
  [31.0; 481.199872; 3.199e-12; 0.205; 2.462; 0.77; 0.0];
  [31.0; 481.619582; 8.589e-12; 0.725; 2.16; 0.78; 0.0];
  [31.0; 487.348616; 5.507e-12; 0.723; 2.246; 0.78; 0.0];
  [31.0; 489.537101; 9.944e-13; 0.712; 2.349; 0.77; 0.0];
  [31.0; 491.95043; 1.366e-12; 3.25; 2.107; 0.82; 0.0];
  [31.0; 496.25545; 5.447e-12; 0.874; 2.219; 0.78; 0.0];
  [31.0; 497.097866; 3.085e-12; 1.141; 2.172; 0.79; 0.0];
  [31.0; 497.97326; 9.369e-13; 1.365; 2.216; 0.79; 0.0];
  [31.0; 498.746725; 4.008e-12; 1.222; 2.157; 0.79; 0.0];
  [31.0; 500.434556; 1.839e-12; 2.498; 2.145; 0.81; 0.0];
  [31.0; 505.258217; 2.617e-13; 0.264; 2.553; 0.76; 0.0];
  [31.0; 505.36914; 5.678e-13; 2.247; 2.124; 0.8; 0.0];
  [31.0; 507.737501; 5.303e-12; 1.041; 2.195; 0.79; 0.0];
  [31.0; 507.815447; 1.551e-12; 1.957; 2.104; 0.8; 0.0];
  [31.0; 508.031297; 7.87e-13; 3.845; 2.074; 0.83; 0.0];
  [31.0; 508.193185; 2.641e-12; 0.167; 2.438; 0.77; 0.0];
  [31.0; 509.272438; 1.813e-12; 2.938; 2.124; 0.82; 0.0];
  [31.0; 514.992478; 1.003e-12; 0.657; 2.373; 0.77; 0.0];
  [31.0; 517.429791; 4.092e-12; 0.288; 2.411; 0.77; 0.0];
  [31.0; 520.133919; 9.482e-12; 0.967; 2.113; 0.79; 0.0];
  [31.0; 522.046595; 5.016e-12; 1.224; 2.172; 0.79; 0.0];
  [31.0; 523.308721; 9.887e-12; 0.882; 2.127; 0.79; 0.0];
  [31.0; 523.530567; 1.038e-12; 1.281; 2.231; 0.78; 0.0];
  [31.0; 529.685306; 2.372e-12; 2.642; 2.145; 0.81; 0.0];
  [31.0; 531.076343; 6.631e-13; 2.135; 2.133; 0.8; 0.0];
  [31.0; 534.272131; 2.998e-12; 1.336; 2.151; 0.79; 0.0];
  [31.0; 535.923988; 2.312e-12; 1.651; 2.118; 0.8; 0.0];
  [31.0; 539.371601; 4.698e-12; 1.423; 2.151; 0.79; 0.0];
  [31.0; 540.35492; 9.83e-13; 0.606; 2.394; 0.77; 0.0];
  [31.0; 542.57938; 5.159e-13; 3.166; 2.059; 0.82; 0.0];
  [31.0; 544.857803; 3.517e-12; 0.117; 2.494; 0.76; 0.0];
  [31.0; 549.069887; 1.133e-12; 1.201; 2.249; 0.78; 0.0];
  [31.0; 550.988559; 4.986e-12; 0.387; 2.367; 0.77; 0.0];
  [31.0; 551.435249; 3.055e-12; 2.364; 2.166; 0.81; 0.0];
  [31.0; 556.711597; 7.639e-13; 2.026; 2.145; 0.79; 0.0];
  [31.0; 557.970725; 1.672e-12; 2.787; 2.124; 0.82; 0.0];
  [31.0; 559.478681; 6.485e-13; 4.204; 2.062; 0.84; 0.0];
  [31.0; 559.835434; 4.296e-12; 1.638; 2.13; 0.8; 0.0];
  [31.0; 563.438939; 3.604e-13; 3.081; 2.083; 0.81; 0.0];
  [31.0; 565.702372; 9.255e-13; 0.559; 2.42; 0.77; 0.0];
  [31.0; 566.292964; 1.095e-11; 1.055; 2.098; 0.79; 0.0];
  [31.0; 566.733658; 4.986e-12; 1.425; 2.127; 0.79; 0.0];
  [31.0; 570.09733; 3.948e-12; 0.132; 2.613; 0.76; 0.0];
  [31.0; 570.999705; 1.069e-11; 1.147; 2.086; 0.79; 0.0];
  [31.0; 572.876406; 3.861e-12; 2.103; 2.189; 0.8; 0.0];
  [31.0; 573.601904; 2.837e-12; 1.546; 2.13; 0.8; 0.0];
  [31.0; 574.540254; 1.214e-12; 1.125; 2.266; 0.78; 0.0];
  [31.0; 576.515886; 3.229e-12; 0.24; 2.373; 0.77; 0.0];
  [31.0; 582.142991; 5.822e-12; 0.502; 2.323; 0.78; 0.0];
  [31.0; 582.307877; 8.733e-13; 1.922; 2.157; 0.79; 0.0];
  [31.0; 583.474069; 3.861e-12; 1.868; 2.107; 0.8; 0.0];
  [31.0; 589.104172; 4.296e-13; 2.949; 2.089; 0.81; 0.0];
  [31.0; 590.336319; 1.888e-12; 2.212; 2.089; 0.81; 0.0];
  [31.0; 591.004856; 8.301e-13; 0.516; 2.444; 0.77; 0.0];
  [31.0; 591.247688; 2.211e-12; 1.886; 2.189; 0.8; 0.0];
  [31.0; 592.629731; 4.758e-12; 1.858; 2.118; 0.8; 0.0];
  [31.0; 595.082033; 4.497e-12; 0.15; 2.583; 0.76; 0.0];
  [31.0; 599.977644; 1.277e-12; 1.054; 2.287; 0.78; 0.0];
  [31.0; 607.847196; 9.83e-13; 1.822; 2.172; 0.79; 0.0];
  [31.0; 609.729893; 5.708e-12; 1.631; 2.139; 0.79; 0.0];
  [31.0; 610.263523; 3.403e-12; 2.115; 2.178; 0.81; 0.0];
  [31.0; 610.365453; 1.17e-11; 1.243; 2.074; 0.79; 0.0];
  [31.0; 611.276822; 6.631e-12; 0.634; 2.281; 0.78; 0.0];
  [31.0; 614.730431; 5.072e-13; 2.82; 2.095; 0.81; 0.0];
  [31.0; 614.784394; 2.623e-12; 1.771; 2.107; 0.8; 0.0];
  [31.0; 616.283356; 6.976e-13; 0.477; 2.471; 0.77; 0.0];
  [31.0; 617.305648; 1.482e-12; 3.091; 2.107; 0.82; 0.0];
  [31.0; 620.687307; 5.102e-12; 0.172; 2.553; 0.76; 0.0];
  [31.0; 620.825212; 1.147e-11; 1.343; 2.065; 0.79; 0.0];
  [31.0; 623.68823; 6.631e-12; 1.42; 2.16; 0.79; 0.0];
  [31.0; 625.370065; 1.317e-12; 0.987; 2.308; 0.78; 0.0];
  [31.0; 632.178352; 5.795e-12; 1.643; 2.098; 0.8; 0.0];
  [31.0; 633.353538; 1.092e-12; 1.726; 2.186; 0.79; 0.0];
  [31.0; 634.462771; 7.495e-12; 1.227; 2.184; 0.79; 0.0];
  [31.0; 634.519731; 5.735e-13; 3.489; 2.056; 0.83; 0.0];
  [31.0; 638.902697; 7.351e-12; 0.782; 2.243; 0.78; 0.0];
  [31.0; 640.092873; 2.94e-12; 2.377; 2.157; 0.81; 0.0];
  [31.0; 640.308723; 5.939e-13; 2.695; 2.104; 0.8; 0.0];
  [31.0; 641.534875; 5.276e-13; 0.443; 2.497; 0.77; 0.0];
  [31.0; 642.35031; 8.187e-12; 1.05; 2.207; 0.78; 0.0];
  [31.0; 644.80561; 5.708e-12; 0.199; 2.524; 0.77; 0.0];
  [31.0; 645.669013; 2.05e-12; 2.136; 2.166; 0.81; 0.0];
  [31.0; 647.83951; 8.676e-12; 0.89; 2.234; 0.78; 0.0];
  [31.0; 650.732507; 1.329e-12; 0.923; 2.329; 0.78; 0.0];
  [31.0; 651.475993; 8.85e-12; 0.747; 2.26; 0.78; 0.0];
  [31.0; 651.556937; 3.66e-12; 0.329; 2.314; 0.77; 0.0];
  [31.0; 653.763409; 8.676e-12; 0.62; 2.293; 0.77; 0.0];
  [31.0; 654.713751; 8.676e-12; 0.967; 2.219; 0.78; 0.0];
  [31.0; 654.851656; 8.907e-12; 0.816; 2.246; 0.78; 0.0];
  [31.0; 655.00455; 8.214e-12; 1.135; 2.195; 0.79; 0.0];
  [31.0; 655.121469; 8.157e-12; 0.509; 2.329; 0.77; 0.0];
  [31.0; 655.202413; 8.85e-12; 0.681; 2.278; 0.78; 0.0];
  [31.0; 655.289353; 1.211e-11; 1.446; 2.053; 0.8; 0.0];
  [31.0; 655.607133; 8.475e-12; 0.562; 2.311; 0.77; 0.0];
  [31.0; 655.873948; 7.234e-12; 0.415; 2.37; 0.77; 0.0];
  [31.0; 655.960888; 7.756e-12; 0.46; 2.349; 0.77; 0.0];
  [31.0; 656.005857; 7.582e-12; 1.319; 2.172; 0.79; 0.0];
  [31.0; 656.224705; 6.601e-12; 0.374; 2.391; 0.77; 0.0];
  [31.0; 656.251686; 5.882e-12; 0.337; 2.414; 0.77; 0.0];
  [31.0; 656.383595; 5.046e-12; 0.305; 2.441; 0.77; 0.0];
  [31.0; 656.41957; 4.092e-12; 0.276; 2.468; 0.76; 0.0];
  [31.0; 656.461541; 2.969e-12; 0.251; 2.494; 0.76; 0.0];
  [31.0; 656.476531; 1.652e-12; 0.231; 2.524; 0.76; 0.0];
  [31.0; 657.513813; 2.372e-12; 2.012; 2.178; 0.81; 0.0];
  [31.0; 658.038449; 6.832e-12; 1.52; 2.151; 0.79; 0.0];
  [31.0; 658.814912; 1.196e-12; 1.634; 2.201; 0.79; 0.0];
  [31.0; 661.459081; 6.026e-12; 1.737; 2.13; 0.8; 0.0];
  [31.0; 665.677161; 7.927e-12; 0.946; 2.207; 0.79; 0.0];
  [31.0; 665.851041; 6.859e-13; 2.575; 2.113; 0.8; 0.0];
  [31.0; 666.630501; 5.216e-12; 1.97; 2.107; 0.8; 0.0];
  [31.0; 666.768406; 3.373e-13; 0.412; 2.524; 0.77; 0.0];
  [31.0; 669.856268; 1.185e-11; 1.553; 2.044; 0.8; 0.0];
  [31.0; 671.670013; 6.371e-12; 0.23; 2.497; 0.77; 0.0];
  [31.0; 671.804919; 2.168e-12; 2.484; 2.077; 0.81; 0.0];
  [31.0; 672.794234; 2.519e-12; 2.656; 2.136; 0.82; 0.0];
  [31.0; 673.915458; 4.44e-12; 2.219; 2.178; 0.81; 0.0];
  [31.0; 676.061972; 1.306e-12; 0.864; 2.349; 0.77; 0.0];
  [31.0; 677.144223; 1.28e-12; 3.41; 2.092; 0.83; 0.0];
  [31.0; 683.637727; 3.717e-12; 2.485; 2.157; 0.81; 0.0];
  [31.0; 684.243308; 1.297e-12; 1.546; 2.216; 0.79; 0.0];
  [31.0; 691.357383; 7.84e-13; 2.458; 2.124; 0.8; 0.0];
  [31.0; 691.663172; 8.763e-13; 4.382; 2.062; 0.84; 0.0];
  [31.0; 691.986947; 1.45e-13; 0.385; 2.553; 0.76; 0.0];
  [31.0; 692.367684; 8.358e-12; 1.125; 2.172; 0.79; 0.0];
  [31.0; 693.473918; 6.946e-12; 0.265; 2.471; 0.77; 0.0];
  [31.0; 694.760028; 6.371e-12; 1.877; 2.071; 0.8; 0.0];
  [31.0; 696.091106; 3.055e-12; 2.767; 2.136; 0.82; 0.0];
  [31.0; 698.981105; 1.839e-12; 2.4; 2.145; 0.81; 0.0];
  [31.0; 700.85181; 1.211e-11; 1.665; 2.036; 0.8; 0.0];
  [31.0; 701.364455; 1.248e-12; 0.809; 2.373; 0.77; 0.0];
  [31.0; 701.508356; 2.099e-12; 2.269; 2.157; 0.81; 0.0];
  [31.0; 708.142763; 2.11e-12; 2.949; 2.115; 0.82; 0.0];
  [31.0; 709.638727; 1.384e-12; 1.462; 2.231; 0.78; 0.0];
  [31.0; 711.494443; 2.488e-12; 3.064; 2.115; 0.82; 0.0];
  [31.0; 716.82775; 8.88e-13; 2.346; 2.133; 0.8; 0.0];
  [31.0; 718.296734; 1.179e-11; 1.78; 2.027; 0.8; 0.0];
  [31.0; 718.35969; 1.251e-12; 4.022; 2.074; 0.83; 0.0];
  [31.0; 719.792698; 8.649e-12; 1.321; 2.142; 0.79; 0.0];
  [31.0; 723.006473; 3.948e-13; 3.459; 2.077; 0.81; 0.0];
  [31.0; 723.378216; 7.639e-12; 0.303; 2.444; 0.77; 0.0];
  [31.0; 726.642956; 1.147e-12; 0.758; 2.394; 0.77; 0.0];
  [31.0; 727.086648; 6.053e-13; 3.828; 2.056; 0.83; 0.0];
  [31.0; 730.009625; 1.986e-12; 3.378; 2.098; 0.83; 0.0];
  [31.0; 734.389593; 3.834e-12; 0.434; 2.263; 0.77; 0.0];
  [31.0; 735.004167; 1.453e-12; 1.383; 2.249; 0.78; 0.0];
  [31.0; 736.482144; 1.075e-12; 3.745; 2.074; 0.83; 0.0];
  [31.0; 740.367454; 8.13e-12; 0.347; 2.42; 0.77; 0.0];
  [31.0; 742.265141; 9.944e-13; 2.238; 2.145; 0.79; 0.0];
  [31.0; 743.164518; 1.747e-12; 3.678; 2.092; 0.83; 0.0];
  [31.0; 745.871644; 1.735e-12; 3.258; 2.098; 0.83; 0.0];
  [31.0; 746.501208; 1.816e-12; 2.54; 2.136; 0.82; 0.0];
  [31.0; 746.872951; 1.179e-11; 1.898; 2.018; 0.81; 0.0];
  [31.0; 748.494828; 4.641e-13; 3.323; 2.083; 0.81; 0.0];
  [31.0; 748.710678; 8.733e-12; 1.531; 2.113; 0.8; 0.0];
  [31.0; 751.174972; 1.606e-12; 2.681; 2.124; 0.82; 0.0];
  [31.0; 751.300885; 2.358e-12; 2.771; 2.068; 0.82; 0.0];
  [31.0; 751.720595; 1.56e-12; 3.708; 2.083; 0.83; 0.0];
  [31.0; 751.903468; 1.003e-12; 0.711; 2.42; 0.77; 0.0];
  [31.0; 754.4577; 6.601e-12; 2.127; 2.047; 0.81; 0.0];
  [31.0; 757.248768; 8.532e-12; 0.223; 2.435; 0.76; 0.0];
  [31.0; 760.342626; 1.502e-12; 1.307; 2.266; 0.78; 0.0];
  [31.0; 765.100332; 2.384e-12; 3.352; 2.107; 0.82; 0.0];
  [31.0; 766.3025; 1.139e-11; 2.021; 2.012; 0.81; 0.0];
  [31.0; 767.675549; 1.101e-12; 2.134; 2.157; 0.79; 0.0];
  [31.0; 773.953203; 5.39e-13; 3.19; 2.089; 0.81; 0.0];
  [31.0; 776.267601; 8.763e-12; 0.393; 2.394; 0.77; 0.0];
  [31.0; 776.627352; 1.208e-12; 4.053; 2.068; 0.84; 0.0];
  [31.0; 777.145993; 8.214e-13; 0.668; 2.444; 0.77; 0.0];
  [31.0; 779.715214; 8.619e-12; 1.758; 2.086; 0.8; 0.0];
  [31.0; 782.43733; 9.195e-12; 0.241; 2.583; 0.76; 0.0];
  [31.0; 783.660483; 3.172e-12; 3.042; 2.124; 0.82; 0.0];
  [31.0; 784.691769; 9.081e-12; 0.445; 2.373; 0.77; 0.0];
  [31.0; 785.657101; 1.522e-12; 1.236; 2.287; 0.78; 0.0];
  [31.0; 785.68708; 1.401e-12; 3.583; 2.083; 0.83; 0.0];
  [31.0; 792.264527; 1.536e-12; 2.828; 2.115; 0.82; 0.0];
  [31.0; 793.058977; 1.205e-12; 2.034; 2.172; 0.79; 0.0];
  [31.0; 793.211871; 1.113e-11; 2.148; 2.003; 0.81; 0.0];
  [31.0; 794.662866; 8.793e-13; 4.094; 2.062; 0.84; 0.0];
  [31.0; 798.761029; 4.092e-12; 2.75; 2.145; 0.81; 0.0];
  [31.0; 799.384598; 6.197e-13; 3.061; 2.095; 0.81; 0.0]].
Definition o3_reftline_R18 : dec := 296.0.
Definition o3_mtx_R22 : list (list dec) := [
  [31.0; 101.73687; 2.347e-13; 0.049; 2.524; 0.76; 0.0];
  [31.0; 110.83604; 3.669e-13; 0.095; 2.468; 0.76; 0.0];
  [31.0; 124.08738; 5.285e-13; 0.156; 2.414; 0.77; 0.0];
  [31.0; 125.38944; 3.106e-13; 0.136; 2.438; 0.77; 0.0];
  [31.0; 142.17504; 7.258e-13; 0.235; 2.37; 0.77; 0.0];
  [31.0; 144.91936; 2.709e-13; 0.444; 2.343; 0.77; 0.0];
  [31.0; 148.74487; 1.553e-13; 0.444; 2.373; 0.77; 0.0];
  [31.0; 154.04644; 1.619e-13; 0.394; 2.394; 0.77; 0.0];
  [31.0; 164.95182; 2.927e-13; 0.026; 2.642; 0.76; 0.0];
  [31.0; 165.78445; 9.602e-13; 0.329; 2.329; 0.77; 0.0];
  [31.0; 175.445701; 2.004e-13; 0.928; 2.249; 0.78; 0.0];
  [31.0; 184.37782; 8.553e-13; 0.208; 2.373; 0.77; 0.0];
  [31.0; 184.748694; 2.761e-13; 1.097; 2.201; 0.79; 0.0];
  [31.0; 193.351125; 2.455e-13; 0.853; 2.266; 0.78; 0.0];
  [31.0; 195.430363; 1.223e-12; 0.439; 2.293; 0.77; 0.0];
  [31.0; 195.721181; 2.356e-13; 0.346; 2.42; 0.77; 0.0];
  [31.0; 208.642415; 6.937e-13; 0.058; 2.553; 0.76; 0.0];
  [31.0; 210.803196; 2.496e-13; 0.304; 2.444; 0.77; 0.0];
  [31.0; 214.955677; 6.658e-13; 0.567; 2.302; 0.78; 0.0];
  [31.0; 226.054043; 3.316e-13; 0.781; 2.287; 0.78; 0.0];
  [31.0; 229.574953; 2.456e-13; 1.49; 2.172; 0.79; 0.0];
  [31.0; 231.281511; 1.502e-12; 0.566; 2.26; 0.78; 0.0];
  [31.0; 235.709855; 2.163e-12; 0.604; 2.26; 0.78; 0.0];
  [31.0; 237.146116; 2.089e-12; 0.475; 2.293; 0.77; 0.0];
  [31.0; 239.093279; 2.207e-12; 0.749; 2.234; 0.78; 0.0];
  [31.0; 242.318688; 1.968e-12; 0.362; 2.329; 0.77; 0.0];
  [31.0; 243.453776; 1.778e-12; 0.296; 2.314; 0.77; 0.0];
  [31.0; 244.15839; 2.889e-13; 0.264; 2.471; 0.77; 0.0];
  [31.0; 247.761753; 3.915e-13; 0.714; 2.308; 0.78; 0.0];
  [31.0; 248.18339; 2.234e-12; 0.912; 2.207; 0.78; 0.0];
  [31.0; 249.788552; 1.307e-12; 0.106; 2.476; 0.77; 0.0];
  [31.0; 249.96196; 1.785e-12; 0.266; 2.37; 0.77; 0.0];
  [31.0; 258.20205; 3.226e-13; 1.393; 2.186; 0.79; 0.0];
  [31.0; 258.71618; 1.533e-12; 0.187; 2.414; 0.77; 0.0];
  [31.0; 262.85785; 5.348e-13; 1.287; 2.172; 0.79; 0.0];
  [31.0; 263.6926; 2.252e-12; 1.09; 2.184; 0.79; 0.0];
  [31.0; 264.925894; 2.863e-13; 0.23; 2.497; 0.77; 0.0];
  [31.0; 267.26657; 1.213e-12; 0.125; 2.468; 0.76; 0.0];
  [31.0; 273.0509; 1.775e-12; 0.708; 2.234; 0.78; 0.0];
  [31.0; 274.47838; 8.256e-13; 0.08; 2.524; 0.76; 0.0];
  [31.0; 276.92354; 4.722e-13; 0.65; 2.329; 0.78; 0.0];
  [31.0; 279.48584; 3.481e-13; 0.051; 2.589; 0.76; 0.0];
  [31.0; 282.8372; 3.993e-13; 1.301; 2.201; 0.79; 0.0];
  [31.0; 286.08769; 1.274e-12; 0.707; 2.263; 0.78; 0.0];
  [31.0; 286.15653; 2.261e-12; 1.285; 2.16; 0.79; 0.0];
  [31.0; 286.29475; 6.134e-13; 0.062; 2.556; 0.76; 0.0];
  [31.0; 288.95914; 2.147e-12; 0.17; 2.405; 0.77; 0.0];
  [31.0; 293.17127; 1.072e-12; 0.098; 2.494; 0.76; 0.0];
  [31.0; 293.54823; 2.763e-13; 0.199; 2.524; 0.77; 0.0];
  [31.0; 300.68515; 5.303e-13; 0.591; 2.349; 0.77; 0.0];
  [31.0; 301.812999; 3.088e-12; 0.399; 2.263; 0.77; 0.0];
  [31.0; 303.164919; 1.494e-12; 0.151; 2.441; 0.77; 0.0];
  [31.0; 310.063518; 4.902e-13; 1.213; 2.216; 0.79; 0.0];
  [31.0; 315.875121; 2.252e-12; 1.496; 2.139; 0.79; 0.0];
  [31.0; 316.32725; 1.888e-12; 0.219; 2.391; 0.77; 0.0];
  [31.0; 316.681596; 2.989e-13; 2.066; 2.124; 0.8; 0.0];
  [31.0; 317.195059; 2.332e-13; 0.173; 2.553; 0.76; 0.0];
  [31.0; 319.996539; 2.021e-12; 0.866; 2.207; 0.78; 0.0];
  [31.0; 326.900963; 3.211e-12; 0.25; 2.343; 0.77; 0.0];
  [31.0; 327.844554; 5.894e-13; 0.536; 2.373; 0.77; 0.0];
  [31.0; 332.704519; 2.248e-12; 0.303; 2.349; 0.77; 0.0];
  [31.0; 332.881703; 8.658e-13; 0.046; 2.689; 0.76; 0.0];
  [31.0; 335.271226; 5.801e-13; 1.129; 2.231; 0.78; 0.0];
  [31.0; 343.180602; 3.735e-13; 1.953; 2.133; 0.8; 0.0];
  [31.0; 343.237419; 8.595e-13; 1.494; 2.145; 0.79; 0.0];
  [31.0; 343.505637; 1.681e-13; 0.15; 2.583; 0.76; 0.0];
  [31.0; 352.324077; 2.567e-12; 0.403; 2.311; 0.77; 0.0];
  [31.0; 352.59288; 6.245e-13; 0.485; 2.394; 0.77; 0.0];
  [31.0; 352.815194; 2.217e-12; 1.723; 2.118; 0.8; 0.0];
  [31.0; 355.018144; 1.092e-12; 0.057; 2.618; 0.76; 0.0];
  [31.0; 357.629819; 2.091e-12; 0.863; 2.225; 0.78; 0.0];
  [31.0; 358.199826; 2.204e-12; 2.027; 2.189; 0.8; 0.0];
  [31.0; 358.853347; 4.713e-12; 0.518; 2.216; 0.78; 0.0];
  [31.0; 359.649665; 2.584e-12; 1.781; 2.118; 0.8; 0.0];
  [31.0; 361.669307; 6.763e-13; 1.05; 2.249; 0.78; 0.0];
  [31.0; 363.469275; 1.875e-12; 2.29; 2.166; 0.81; 0.0];
  [31.0; 364.403666; 3.559e-13; 2.57; 2.077; 0.81; 0.0];
  [31.0; 364.449915; 4.482e-12; 0.345; 2.287; 0.77; 0.0];
  [31.0; 366.776946; 3.01e-12; 1.552; 2.139; 0.79; 0.0];
  [31.0; 368.949164; 4.563e-13; 1.845; 2.145; 0.79; 0.0];
  [31.0; 371.022852; 2.22e-12; 1.039; 2.184; 0.79; 0.0];
  [31.0; 375.179181; 2.832e-12; 0.519; 2.278; 0.78; 0.0];
  [31.0; 376.23827; 1.595e-12; 2.569; 2.145; 0.81; 0.0];
  [31.0; 378.281229; 3.469e-12; 1.339; 2.16; 0.79; 0.0];
  [31.0; 378.694868; 6.425e-13; 0.437; 2.42; 0.77; 0.0];
  [31.0; 387.098395; 7.675e-13; 0.974; 2.266; 0.78; 0.0];
  [31.0; 387.287612; 1.375e-12; 0.07; 2.598; 0.76; 0.0];
  [31.0; 392.654029; 3.933e-12; 1.144; 2.184; 0.79; 0.0];
  [31.0; 395.062982; 5.483e-13; 1.741; 2.157; 0.79; 0.0];
  [31.0; 396.529434; 2.149e-12; 1.966; 2.189; 0.8; 0.0];
  [31.0; 397.027615; 1.357e-12; 2.864; 2.124; 0.82; 0.0];
  [31.0; 400.076974; 1.7e-12; 0.09; 2.565; 0.76; 0.0];
  [31.0; 401.21773; 3.037e-12; 0.651; 2.246; 0.78; 0.0];
  [31.0; 402.395327; 5.906e-12; 0.456; 2.24; 0.78; 0.0];
  [31.0; 403.83734; 6.314e-13; 0.395; 2.444; 0.77; 0.0];
  [31.0; 408.293992; 4.368e-12; 0.965; 2.207; 0.78; 0.0];
  [31.0; 413.011868; 8.55e-13; 0.902; 2.287; 0.78; 0.0];
  [31.0; 414.254529; 6.491e-12; 0.652; 2.178; 0.78; 0.0];
  [31.0; 420.794918; 6.473e-13; 1.641; 2.172; 0.79; 0.0];
  [31.0; 423.669481; 4.731e-12; 0.803; 2.234; 0.78; 0.0];
  [31.0; 424.845932; 2.355e-12; 1.228; 2.16; 0.79; 0.0];
  [31.0; 425.157749; 1.225e-12; 1.717; 2.124; 0.8; 0.0];
  [31.0; 426.069358; 1.151e-12; 3.175; 2.107; 0.82; 0.0];
  [31.0; 427.943742; 3.391e-13; 2.609; 2.095; 0.81; 0.0];
  [31.0; 428.792217; 3.07e-12; 1.034; 2.189; 0.79; 0.0];
  [31.0; 429.420061; 5.906e-13; 0.356; 2.471; 0.77; 0.0];
  [31.0; 430.333831; 3.169e-12; 0.799; 2.219; 0.78; 0.0];
  [31.0; 437.493562; 4.965e-12; 0.658; 2.26; 0.78; 0.0];
  [31.0; 438.480736; 9.297e-13; 0.835; 2.308; 0.78; 0.0];
  [31.0; 441.340381; 7.405e-12; 0.583; 2.195; 0.78; 0.0];
  [31.0; 442.117575; 2.456e-12; 0.139; 2.512; 0.77; 0.0];
  [31.0; 445.458708; 2.033e-12; 0.111; 2.515; 0.76; 0.0];
  [31.0; 446.14377; 2.044e-12; 2.224; 2.166; 0.81; 0.0];
  [31.0; 446.6491; 7.525e-13; 1.544; 2.186; 0.79; 0.0];
  [31.0; 448.876279; 5.016e-12; 0.53; 2.293; 0.77; 0.0];
  [31.0; 452.238905; 4.527e-13; 2.86; 2.068; 0.82; 0.0];
  [31.0; 453.789362; 4.122e-13; 2.484; 2.104; 0.8; 0.0];
  [31.0; 454.66868; 5.153e-13; 0.321; 2.497; 0.77; 0.0];
  [31.0; 457.415619; 4.848e-12; 0.419; 2.329; 0.77; 0.0];
  [31.0; 462.365441; 3.223e-12; 0.962; 2.195; 0.79; 0.0];
  [31.0; 463.18961; 4.425e-12; 0.324; 2.37; 0.77; 0.0];
  [31.0; 463.245961; 9.719e-13; 3.503; 2.092; 0.83; 0.0];
  [31.0; 464.108692; 9.896e-13; 0.771; 2.329; 0.78; 0.0];
  [31.0; 466.641249; 3.759e-12; 0.246; 2.414; 0.77; 0.0];
  [31.0; 467.967123; 8.25e-12; 0.802; 2.142; 0.78; 0.0];
  [31.0; 468.399325; 2.849e-12; 0.185; 2.468; 0.76; 0.0];
  [31.0; 469.104212; 1.678e-12; 0.14; 2.524; 0.76; 0.0];
  [31.0; 469.325078; 9.455e-13; 0.123; 2.556; 0.76; 0.0];
  [31.0; 469.482352; 2.305e-12; 0.16; 2.494; 0.76; 0.0];
  [31.0; 469.953884; 3.355e-12; 0.213; 2.441; 0.77; 0.0];
  [31.0; 470.990875; 4.197e-12; 0.283; 2.391; 0.77; 0.0];
  [31.0; 472.300767; 8.604e-13; 1.452; 2.201; 0.79; 0.0];
  [31.0; 472.898853; 4.842e-12; 0.368; 2.349; 0.77; 0.0];
  [31.0; 473.073083; 7.852e-13; 3.925; 2.074; 0.83; 0.0];
  [31.0; 474.165218; 5.825e-13; 4.287; 2.062; 0.84; 0.0];
  [31.0; 476.020613; 5.294e-12; 0.47; 2.311; 0.77; 0.0];
  [31.0; 479.395673; 1.056e-12; 3.579; 2.092; 0.83; 0.0];
  [31.0; 479.632455; 4.944e-13; 2.364; 2.113; 0.8; 0.0];
  [31.0; 480.014178; 4.071e-13; 0.29; 2.524; 0.77; 0.0];
  [31.0; 480.182356; 2.414e-12; 1.432; 2.139; 0.79; 0.0];
  [31.0; 480.717254; 5.573e-12; 0.589; 2.278; 0.78; 0.0];
  [31.0; 481.198946; 3.31e-12; 0.205; 2.462; 0.77; 0.0];
  [31.0; 481.620136; 8.883e-12; 0.725; 2.16; 0.78; 0.0];
  [31.0; 487.348535; 5.681e-12; 0.723; 2.246; 0.78; 0.0];
  [31.0; 489.537095; 1.027e-12; 0.712; 2.349; 0.77; 0.0];
  [31.0; 491.951176; 1.413e-12; 3.25; 2.107; 0.82; 0.0];
  [31.0; 496.25401; 5.639e-12; 0.874; 2.219; 0.78; 0.0];
  [31.0; 497.097872; 3.199e-12; 1.141; 2.172; 0.79; 0.0];
  [31.0; 497.972727; 9.683e-13; 1.365; 2.216; 0.79; 0.0];
  [31.0; 498.747426; 4.125e-12; 1.222; 2.157; 0.79; 0.0];
  [31.0; 500.433486; 1.902e-12; 2.498; 2.145; 0.81; 0.0];
  [31.0; 505.257219; 2.706e-13; 0.264; 2.553; 0.76; 0.0];
  [31.0; 505.369137; 5.852e-13; 2.247; 2.124; 0.8; 0.0];
  [31.0; 507.736143; 5.468e-12; 1.041; 2.195; 0.79; 0.0];
  [31.0; 507.815378; 1.601e-12; 1.957; 2.104; 0.8; 0.0];
  [31.0; 508.031033; 8.127e-13; 3.845; 2.074; 0.83; 0.0];
  [31.0; 508.192897; 2.73e-12; 0.167; 2.438; 0.77; 0.0];
  [31.0; 509.272486; 1.874e-12; 2.938; 2.124; 0.82; 0.0];
  [31.0; 514.992622; 1.038e-12; 0.657; 2.373; 0.77; 0.0];
  [31.0; 517.430402; 4.221e-12; 0.288; 2.411; 0.77; 0.0];
  [31.0; 520.1348; 9.815e-12; 0.967; 2.113; 0.79; 0.0];
  [31.0; 522.046109; 5.198e-12; 1.224; 2.172; 0.79; 0.0];
  [31.0; 523.308826; 1.022e-11; 0.882; 2.127; 0.79; 0.0];
  [31.0; 523.531653; 1.073e-12; 1.281; 2.231; 0.78; 0.0];
  [31.0; 529.683864; 2.452e-12; 2.642; 2.145; 0.81; 0.0];
  [31.0; 531.076224; 6.841e-13; 2.135; 2.133; 0.8; 0.0];
  [31.0; 534.273117; 3.1e-12; 1.336; 2.151; 0.79; 0.0];
  [31.0; 535.922659; 2.391e-12; 1.651; 2.118; 0.8; 0.0];
  [31.0; 539.372692; 4.845e-12; 1.423; 2.151; 0.79; 0.0];
  [31.0; 540.355981; 1.015e-12; 0.606; 2.394; 0.77; 0.0];
  [31.0; 542.580408; 5.33e-13; 3.166; 2.059; 0.82; 0.0];
  [31.0; 544.857488; 3.624e-12; 0.117; 2.494; 0.76; 0.0];
  [31.0; 549.070417; 1.169e-12; 1.201; 2.249; 0.78; 0.0];
  [31.0; 550.98947; 5.144e-12; 0.387; 2.367; 0.77; 0.0];
  [31.0; 551.435738; 3.157e-12; 2.364; 2.166; 0.81; 0.0];
  [31.0; 556.710376; 7.897e-13; 2.026; 2.145; 0.79; 0.0];
  [31.0; 557.970086; 1.73e-12; 2.787; 2.124; 0.82; 0.0];
  [31.0; 559.477407; 6.712e-13; 4.204; 2.062; 0.84; 0.0];
  [31.0; 559.834394; 4.434e-12; 1.638; 2.13; 0.8; 0.0];
  [31.0; 563.437719; 3.723e-13; 3.081; 2.083; 0.81; 0.0];
  [31.0; 565.703479; 9.569e-13; 0.559; 2.42; 0.77; 0.0];
  [31.0; 566.293566; 1.132e-11; 1.055; 2.098; 0.79; 0.0];
  [31.0; 566.734984; 5.141e-12; 1.425; 2.127; 0.79; 0.0];
  [31.0; 570.097138; 4.092e-12; 0.132; 2.613; 0.76; 0.0];
  [31.0; 570.999366; 1.105e-11; 1.147; 2.086; 0.79; 0.0];
  [31.0; 572.877215; 3.984e-12; 2.103; 2.189; 0.8; 0.0];
  [31.0; 573.602803; 2.934e-12; 1.546; 2.13; 0.8; 0.0];
  [31.0; 574.540446; 1.253e-12; 1.125; 2.266; 0.78; 0.0];
  [31.0; 576.514876; 3.352e-12; 0.24; 2.373; 0.77; 0.0];
  [31.0; 582.144118; 6.035e-12; 0.502; 2.323; 0.78; 0.0];
  [31.0; 582.306369; 9.003e-13; 1.922; 2.157; 0.79; 0.0];
  [31.0; 583.475002; 3.987e-12; 1.868; 2.107; 0.8; 0.0];
  [31.0; 589.104307; 4.437e-13; 2.949; 2.089; 0.81; 0.0];
  [31.0; 590.337545; 1.95e-12; 2.212; 2.089; 0.81; 0.0];
  [31.0; 591.00434; 8.583e-13; 0.516; 2.444; 0.77; 0.0];
  [31.0; 591.248914; 2.289e-12; 1.886; 2.189; 0.8; 0.0];
  [31.0; 592.630753; 4.911e-12; 1.858; 2.118; 0.8; 0.0];
  [31.0; 595.080912; 4.65e-12; 0.15; 2.583; 0.76; 0.0];
  [31.0; 599.978756; 1.318e-12; 1.054; 2.287; 0.78; 0.0];
  [31.0; 607.848509; 1.014e-12; 1.822; 2.172; 0.79; 0.0];
  [31.0; 609.730588; 5.894e-12; 1.631; 2.139; 0.79; 0.0];
  [31.0; 610.262561; 3.523e-12; 2.115; 2.178; 0.81; 0.0];
  [31.0; 610.365186; 1.21e-11; 1.243; 2.074; 0.79; 0.0];
  [31.0; 611.276642; 6.859e-12; 0.634; 2.281; 0.78; 0.0];
  [31.0; 614.729529; 5.237e-13; 2.82; 2.095; 0.81; 0.0];
  [31.0; 614.78419; 2.716e-12; 1.771; 2.107; 0.8; 0.0];
  [31.0; 616.282394; 7.198e-13; 0.477; 2.471; 0.77; 0.0];
  [31.0; 617.30432; 1.534e-12; 3.091; 2.107; 0.82; 0.0];
  [31.0; 620.686696; 5.264e-12; 0.172; 2.553; 0.76; 0.0];
  [31.0; 620.825694; 1.187e-11; 1.343; 2.065; 0.79; 0.0];
  [31.0; 623.687732; 6.868e-12; 1.42; 2.16; 0.79; 0.0];
  [31.0; 625.371112; 1.36e-12; 0.987; 2.308; 0.78; 0.0];
  [31.0; 632.176937; 5.99e-12; 1.643; 2.098; 0.8; 0.0];
  [31.0; 633.352693; 1.127e-12; 1.726; 2.186; 0.79; 0.0];
  [31.0; 634.461604; 7.759e-12; 1.227; 2.184; 0.79; 0.0];
  [31.0; 634.520172; 5.912e-13; 3.489; 2.056; 0.83; 0.0];
  [31.0; 638.903096; 7.588e-12; 0.782; 2.243; 0.78; 0.0];
  [31.0; 640.092417; 3.058e-12; 2.377; 2.157; 0.81; 0.0];
  [31.0; 640.309803; 6.119e-13; 2.695; 2.104; 0.8; 0.0];
  [31.0; 641.534128; 5.459e-13; 0.443; 2.497; 0.77; 0.0];
  [31.0; 642.349702; 8.478e-12; 1.05; 2.207; 0.78; 0.0];
  [31.0; 644.804927; 5.903e-12; 0.199; 2.524; 0.77; 0.0];
  [31.0; 645.670188; 2.12e-12; 2.136; 2.166; 0.81; 0.0];
  [31.0; 647.839918; 8.964e-12; 0.89; 2.234; 0.78; 0.0];
  [31.0; 650.732726; 1.372e-12; 0.923; 2.329; 0.78; 0.0];
  [31.0; 651.475846; 9.147e-12; 0.747; 2.26; 0.78; 0.0];
  [31.0; 651.556975; 3.792e-12; 0.329; 2.314; 0.77; 0.0];
  [31.0; 653.76245; 8.982e-12; 0.62; 2.293; 0.77; 0.0];
  [31.0; 654.713487; 8.967e-12; 0.967; 2.219; 0.78; 0.0];
  [31.0; 654.853038; 9.213e-12; 0.816; 2.246; 0.78; 0.0];
  [31.0; 655.005257; 8.484e-12; 1.135; 2.195; 0.79; 0.0];
  [31.0; 655.12033; 8.43e-12; 0.509; 2.329; 0.77; 0.0];
  [31.0; 655.203576; 9.168e-12; 0.681; 2.278; 0.78; 0.0];
  [31.0; 655.290198; 1.25e-11; 1.446; 2.053; 0.8; 0.0];
  [31.0; 655.606308; 8.781e-12; 0.562; 2.311; 0.77; 0.0];
  [31.0; 655.87259; 7.474e-12; 0.415; 2.37; 0.77; 0.0];
  [31.0; 655.962099; 8.013e-12; 0.46; 2.349; 0.77; 0.0];
  [31.0; 656.005734; 7.834e-12; 1.319; 2.172; 0.79; 0.0];
  [31.0; 656.223761; 6.841e-12; 0.374; 2.391; 0.77; 0.0];
  [31.0; 656.252556; 6.089e-12; 0.337; 2.414; 0.77; 0.0];
  [31.0; 656.383997; 5.222e-12; 0.305; 2.441; 0.77; 0.0];
  [31.0; 656.419753; 4.224e-12; 0.276; 2.468; 0.76; 0.0];
  [31.0; 656.461535; 3.073e-12; 0.251; 2.494; 0.76; 0.0];
  [31.0; 656.4777; 1.708e-12; 0.231; 2.524; 0.76; 0.0];
  [31.0; 657.515114; 2.456e-12; 2.012; 2.178; 0.81; 0.0];
  [31.0; 658.038638; 7.066e-12; 1.52; 2.151; 0.79; 0.0];
  [31.0; 658.814978; 1.237e-12; 1.634; 2.201; 0.79; 0.0];
  [31.0; 661.458302; 6.242e-12; 1.737; 2.13; 0.8; 0.0];
  [31.0; 664.486652; 6.221e-13; 4.76; 2.05; 0.76; 0.0];
  [31.0; 665.677713; 8.187e-12; 0.946; 2.207; 0.79; 0.0];
  [31.0; 665.852066; 7.072e-13; 2.575; 2.113; 0.8; 0.0];
  [31.0; 666.6309; 5.411e-12; 1.97; 2.107; 0.8; 0.0];
  [31.0; 666.767731; 3.478e-13; 0.412; 2.524; 0.77; 0.0];
  [31.0; 669.857129; 1.225e-11; 1.553; 2.044; 0.8; 0.0];
  [31.0; 671.669215; 6.58e-12; 0.23; 2.497; 0.77; 0.0];
  [31.0; 671.80443; 2.238e-12; 2.484; 2.077; 0.81; 0.0];
  [31.0; 672.794525; 2.607e-12; 2.656; 2.136; 0.82; 0.0];
  [31.0; 673.914355; 4.608e-12; 2.219; 2.178; 0.81; 0.0];
  [31.0; 676.061525; 1.35e-12; 0.864; 2.349; 0.77; 0.0];
  [31.0; 677.143207; 1.324e-12; 3.41; 2.092; 0.83; 0.0];
  [31.0; 683.639008; 3.855e-12; 2.485; 2.157; 0.81; 0.0];
  [31.0; 684.243095; 1.339e-12; 1.546; 2.216; 0.79; 0.0];
  [31.0; 691.356502; 8.088e-13; 2.458; 2.124; 0.8; 0.0];
  [31.0; 691.664263; 9.054e-13; 4.382; 2.062; 0.84; 0.0];
  [31.0; 691.98594; 1.498e-13; 0.385; 2.553; 0.76; 0.0];
  [31.0; 692.368592; 8.643e-12; 1.125; 2.172; 0.79; 0.0];
  [31.0; 693.473708; 7.198e-12; 0.265; 2.471; 0.77; 0.0];
  [31.0; 694.760945; 6.571e-12; 1.877; 2.071; 0.8; 0.0];
  [31.0; 696.090387; 3.172e-12; 2.767; 2.136; 0.82; 0.0];
  [31.0; 698.980629; 1.905e-12; 2.4; 2.145; 0.81; 0.0];
  [31.0; 700.853031; 1.252e-11; 1.665; 2.036; 0.8; 0.0];
  [31.0; 701.364503; 1.289e-12; 0.809; 2.373; 0.77; 0.0];
  [31.0; 701.508233; 2.172e-12; 2.269; 2.157; 0.81; 0.0];
  [31.0; 708.143315; 2.184e-12; 2.949; 2.115; 0.82; 0.0];
  [31.0; 709.637738; 1.429e-12; 1.462; 2.231; 0.78; 0.0];
  [31.0; 711.495174; 2.572e-12; 3.064; 2.115; 0.82; 0.0];
  [31.0; 716.827325; 9.156e-13; 2.346; 2.133; 0.8; 0.0];
  [31.0; 718.296209; 1.22e-11; 1.78; 2.027; 0.8; 0.0];
  [31.0; 718.358629; 1.293e-12; 4.022; 2.074; 0.83; 0.0];
  [31.0; 719.79235; 8.925e-12; 1.321; 2.142; 0.79; 0.0];
  [31.0; 723.005064; 4.074e-13; 3.459; 2.077; 0.81; 0.0];
  [31.0; 723.377268; 7.888e-12; 0.303; 2.444; 0.77; 0.0];
  [31.0; 726.643687; 1.185e-12; 0.758; 2.394; 0.77; 0.0];
  [31.0; 727.086648; 6.23e-13; 3.828; 2.056; 0.83; 0.0];
  [31.0; 730.010947; 2.053e-12; 3.378; 2.098; 0.83; 0.0];
  [31.0; 734.389536; 3.975e-12; 0.434; 2.263; 0.77; 0.0];
  [31.0; 735.003391; 1.501e-12; 1.383; 2.249; 0.78; 0.0];
  [31.0; 736.482135; 1.113e-12; 3.745; 2.074; 0.83; 0.0];
  [31.0; 740.367298; 8.394e-12; 0.347; 2.42; 0.77; 0.0];
  [31.0; 742.266034; 1.025e-12; 2.238; 2.145; 0.79; 0.0];
  [31.0; 743.16441; 1.807e-12; 3.678; 2.092; 0.83; 0.0];
  [31.0; 745.872141; 1.797e-12; 3.258; 2.098; 0.83; 0.0];
  [31.0; 746.501271; 1.88e-12; 2.54; 2.136; 0.82; 0.0];
  [31.0; 746.874117; 1.217e-11; 1.898; 2.018; 0.81; 0.0];
  [31.0; 748.493332; 4.779e-13; 3.323; 2.083; 0.81; 0.0];
  [31.0; 748.710657; 9.018e-12; 1.531; 2.113; 0.8; 0.0];
  [31.0; 751.176124; 1.662e-12; 2.681; 2.124; 0.82; 0.0];
  [31.0; 751.301743; 2.433e-12; 2.771; 2.068; 0.82; 0.0];
  [31.0; 751.719932; 1.614e-12; 3.708; 2.083; 0.83; 0.0];
  [31.0; 751.903093; 1.038e-12; 0.711; 2.42; 0.77; 0.0];
  [31.0; 754.45636; 6.829e-12; 2.127; 2.047; 0.81; 0.0];
  [31.0; 757.249769; 8.835e-12; 0.223; 2.435; 0.76; 0.0];
  [31.0; 760.342107; 1.551e-12; 1.307; 2.266; 0.78; 0.0];
  [31.0; 765.101585; 2.465e-12; 3.352; 2.107; 0.82; 0.0];
  [31.0; 766.301328; 1.176e-11; 2.021; 2.012; 0.81; 0.0];
  [31.0; 767.675651; 1.136e-12; 2.134; 2.157; 0.79; 0.0];
  [31.0; 773.952037; 5.552e-13; 3.19; 2.089; 0.81; 0.0];
  [31.0; 776.268051; 9.072e-12; 0.393; 2.394; 0.77; 0.0];
  [31.0; 776.626962; 1.25e-12; 4.053; 2.068; 0.84; 0.0];
  [31.0; 777.145477; 8.502e-13; 0.668; 2.444; 0.77; 0.0];
  [31.0; 779.714558; 8.91e-12; 1.758; 2.086; 0.8; 0.0];
  [31.0; 782.438253; 9.503e-12; 0.241; 2.583; 0.76; 0.0];
  [31.0; 783.660591; 3.277e-12; 3.042; 2.124; 0.82; 0.0];
  [31.0; 784.69137; 9.384e-12; 0.445; 2.373; 0.77; 0.0];
  [31.0; 785.657074; 1.573e-12; 1.236; 2.287; 0.78; 0.0];
  [31.0; 785.688309; 1.451e-12; 3.583; 2.083; 0.83; 0.0];
  [31.0; 792.263885; 1.591e-12; 2.828; 2.115; 0.82; 0.0];
  [31.0; 793.058131; 1.244e-12; 2.034; 2.172; 0.79; 0.0];
  [31.0; 793.213061; 1.15e-11; 2.148; 2.003; 0.81; 0.0];
  [31.0; 794.663334; 9.09e-13; 4.094; 2.062; 0.84; 0.0];
  [31.0; 798.761395; 4.239e-12; 2.75; 2.145; 0.81; 0.0];
  [31.0; 799.383308; 6.392e-13; 3.061; 2.095; 0.81; 0.0];
  [31.0; 802.366363; 1.411e-12; 2.976; 2.107; 0.82; 0.0];
  [31.0; 802.373798; 6.29e-13; 0.629; 2.471; 0.77; 0.0];
  [31.0; 804.661559; 9.542e-13; 4.414; 2.056; 0.76; 0.0];
  [31.0; 807.624102; 1.028e-11; 0.264; 2.553; 0.76; 0.0];
  [31.0; 810.646133; 5.339e-12; 2.474; 2.166; 0.81; 0.0];
  [31.0; 810.950657; 1.562e-12; 1.168; 2.308; 0.78; 0.0];
  [31.0; 811.463446; 6.766e-12; 2.391; 2.027; 0.81; 0.0];
  [31.0; 813.140329; 8.601e-12; 2.0; 2.059; 0.81; 0.0];
  [31.0; 813.99105; 1.1e-11; 2.278; 1.997; 0.81; 0.0];
  [31.0; 818.415896; 1.346e-12; 1.938; 2.186; 0.79; 0.0];
  [31.0; 819.262819; 6.281e-13; 4.183; 2.059; 0.84; 0.0];
  [31.0; 819.745746; 6.55e-12; 2.215; 2.189; 0.8; 0.0];
  [31.0; 824.78887; 7.291e-13; 2.937; 2.104; 0.8; 0.0];
  [31.0; 825.715207; 1.008e-11; 0.561; 2.329; 0.78; 0.0];
  [31.0; 825.844664; 3.9e-12; 0.556; 2.216; 0.78; 0.0];
  [31.0; 826.560139; 7.825e-12; 1.973; 2.118; 0.8; 0.0];
  [31.0; 827.288866; 1.151e-12; 3.923; 2.068; 0.84; 0.0];
  [31.0; 827.590595; 3.903e-13; 0.594; 2.497; 0.77; 0.0];
  [31.0; 828.006287; 2.513e-12; 3.074; 2.059; 0.82; 0.0];
  [31.0; 830.556649; 4.065e-12; 2.89; 2.136; 0.82; 0.0];
  [31.0; 830.941786; 1.001e-11; 0.499; 2.349; 0.77; 0.0];
  [31.0; 831.008841; 5.049e-12; 2.608; 2.157; 0.81; 0.0];
  [31.0; 831.078476; 3.211e-12; 3.189; 2.115; 0.82; 0.0];
  [31.0; 831.573892; 9.108e-12; 1.748; 2.139; 0.79; 0.0];
  [31.0; 832.117908; 6.152e-12; 2.341; 2.178; 0.81; 0.0];
  [31.0; 832.789599; 1.112e-11; 0.29; 2.524; 0.77; 0.0];
  [31.0; 832.921139; 2.494e-12; 3.505; 2.098; 0.83; 0.0];
  [31.0; 833.608956; 7.342e-12; 2.091; 2.107; 0.8; 0.0];
  [31.0; 835.210195; 1.033e-11; 1.539; 2.16; 0.79; 0.0];
  [31.0; 835.257493; 8.58e-12; 1.858; 2.13; 0.8; 0.0];
  [31.0; 835.683951; 7.168e-13; 4.791; 2.044; 0.76; 0.0];
  [31.0; 836.225418; 1.513e-12; 1.105; 2.329; 0.78; 0.0];
  [31.0; 836.445259; 1.903e-12; 3.837; 2.083; 0.83; 0.0];
  [31.0; 836.892717; 9.803e-12; 1.641; 2.151; 0.79; 0.0];
  [31.0; 837.814336; 1.141e-11; 1.346; 2.184; 0.79; 0.0];
  [31.0; 838.396104; 1.093e-11; 1.44; 2.172; 0.79; 0.0];
  [31.0; 838.60074; 1.319e-12; 3.13; 2.098; 0.83; 0.0];
  [31.0; 839.655446; 1.226e-11; 1.17; 2.207; 0.78; 0.0];
  [31.0; 839.696187; 1.189e-11; 1.256; 2.195; 0.79; 0.0];
  [31.0; 839.76454; 1.059e-11; 2.412; 1.988; 0.82; 0.0];
  [31.0; 840.76067; 1.258e-11; 1.088; 2.219; 0.78; 0.0];
  [31.0; 840.937121; 1.278e-11; 1.011; 2.234; 0.78; 0.0];
  [31.0; 841.587314; 1.29e-11; 0.937; 2.246; 0.78; 0.0];
  [31.0; 841.810833; 1.289e-11; 0.868; 2.26; 0.78; 0.0];
  [31.0; 842.007497; 1.43e-12; 4.184; 2.068; 0.84; 0.0];
  [31.0; 842.19479; 1.277e-11; 0.802; 2.278; 0.78; 0.0];
  [31.0; 842.388731; 1.251e-11; 0.741; 2.293; 0.77; 0.0];
  [31.0; 842.614418; 1.211e-11; 0.684; 2.311; 0.77; 0.0];
  [31.0; 842.754343; 1.156e-11; 0.63; 2.329; 0.77; 0.0];
  [31.0; 842.883377; 1.085e-11; 0.581; 2.349; 0.77; 0.0];
  [31.0; 842.970701; 9.974e-12; 0.536; 2.37; 0.77; 0.0];
  [31.0; 843.03956; 8.922e-12; 0.496; 2.391; 0.77; 0.0];
  [31.0; 843.086058; 7.678e-12; 0.459; 2.414; 0.77; 0.0];
  [31.0; 843.117977; 6.221e-12; 0.426; 2.441; 0.77; 0.0];
  [31.0; 843.137559; 4.518e-12; 0.398; 2.468; 0.76; 0.0];
  [31.0; 843.148495; 2.49e-12; 0.373; 2.494; 0.76; 0.0];
  [31.0; 843.750952; 1.438e-12; 1.846; 2.201; 0.79; 0.0];
  [31.0; 849.05116; 8.103e-12; 2.257; 2.039; 0.81; 0.0];
  [31.0; 849.942539; 1.058e-12; 4.549; 2.056; 0.76; 0.0];
  [31.0; 850.170579; 8.241e-13; 2.816; 2.113; 0.8; 0.0];
  [31.0; 851.35708; 7.225e-13; 4.458; 2.05; 0.76; 0.0];
  [31.0; 852.707426; 1.169e-12; 3.286; 2.092; 0.83; 0.0];
  [31.0; 852.798236; 1.63e-13; 0.564; 2.524; 0.77; 0.0];
  [31.0; 857.967878; 1.198e-11; 0.321; 2.497; 0.77; 0.0];
  [31.0; 860.546279; 7.705e-13; 4.929; 2.044; 0.76; 0.0];
  [31.0; 861.451296; 1.002e-11; 2.55; 1.982; 0.82; 0.0];
  [31.0; 861.483613; 1.423e-12; 1.046; 2.349; 0.77; 0.0];
  [31.0; 862.915332; 1.044e-11; 0.693; 2.287; 0.78; 0.0];
  [31.0; 865.518799; 1.7e-13; 0.386; 2.329; 0.77; 0.0];
  [31.0; 866.126148; 6.428e-12; 2.671; 2.009; 0.82; 0.0];
  [31.0; 869.065395; 1.516e-12; 1.758; 2.216; 0.79; 0.0];
  [31.0; 870.375215; 8.958e-13; 4.279; 2.056; 0.76; 0.0];
  [31.0; 875.530113; 9.228e-13; 2.7; 2.124; 0.8; 0.0];
  [31.0; 881.452828; 2.908e-13; 0.495; 2.293; 0.77; 0.0];
  [31.0; 883.056208; 1.283e-11; 0.356; 2.471; 0.77; 0.0];
  [31.0; 885.351389; 1.071e-12; 3.448; 2.083; 0.83; 0.0];
  [31.0; 886.451744; 9.494e-12; 2.691; 1.973; 0.82; 0.0];
  [31.0; 886.727436; 1.289e-12; 0.991; 2.373; 0.77; 0.0];
  [31.0; 887.285182; 7.453e-12; 2.529; 2.018; 0.82; 0.0];
  [31.0; 888.159056; 1.061e-11; 0.622; 2.308; 0.78; 0.0];
  [31.0; 894.36113; 1.575e-12; 1.674; 2.231; 0.78; 0.0];
  [31.0; 896.063816; 1.05e-11; 0.841; 2.249; 0.78; 0.0];
  [31.0; 900.869159; 1.023e-12; 2.588; 2.133; 0.8; 0.0];
  [31.0; 901.285163; 2.471e-12; 3.392; 2.056; 0.83; 0.0];
  [31.0; 902.359497; 9.446e-13; 3.612; 2.074; 0.83; 0.0];
  [31.0; 904.484881; 4.248e-13; 0.62; 2.26; 0.78; 0.0];
  [31.0; 906.278354; 4.512e-13; 3.73; 2.077; 0.81; 0.0];
  [31.0; 908.258962; 1.365e-11; 0.395; 2.444; 0.77; 0.0];
  [31.0; 908.742767; 8.889e-12; 2.837; 1.968; 0.82; 0.0];
  [31.0; 910.011582; 6.068e-13; 4.554; 2.056; 0.76; 0.0];
  [31.0; 911.958902; 1.112e-12; 0.94; 2.394; 0.77; 0.0];
  [31.0; 914.665299; 6.838e-13; 4.649; 2.044; 0.76; 0.0];
  [31.0; 918.660756; 4.485e-13; 3.804; 2.444; 0.77; 0.0];
  [31.0; 918.845249; 5.885e-12; 2.966; 1.991; 0.82; 0.0];
  [31.0; 919.640022; 1.61e-12; 1.595; 2.249; 0.78; 0.0];
  [31.0; 925.230438; 1.029e-11; 1.007; 2.216; 0.79; 0.0];
  [31.0; 926.189297; 1.123e-12; 2.479; 2.145; 0.79; 0.0];
  [31.0; 926.398691; 3.621e-12; 0.694; 2.178; 0.78; 0.0];
  [31.0; 927.539506; 6.694e-12; 2.817; 2.0; 0.82; 0.0];
  [31.0; 931.623758; 5.195e-13; 3.593; 2.083; 0.81; 0.0];
  [31.0; 932.387791; 8.511e-13; 3.781; 2.068; 0.84; 0.0];
  [31.0; 933.139791; 1.441e-11; 0.437; 2.42; 0.77; 0.0];
  [31.0; 933.219709; 8.31e-12; 2.986; 1.959; 0.83; 0.0];
  [31.0; 935.813643; 5.426e-13; 0.762; 2.234; 0.78; 0.0];
  [31.0; 937.179899; 8.964e-13; 0.893; 2.42; 0.77; 0.0];
  [31.0; 943.413888; 4.734e-13; 3.847; 2.42; 0.77; 0.0];
  [31.0; 944.903821; 1.616e-12; 1.519; 2.266; 0.78; 0.0];
  [31.0; 948.850439; 1.08e-11; 0.761; 2.266; 0.78; 0.0];
  [31.0; 950.722064; 9.875e-12; 1.189; 2.186; 0.79; 0.0];
  [31.0; 951.465543; 7.468e-13; 3.952; 2.062; 0.84; 0.0];
  [31.0; 951.492075; 1.219e-12; 2.375; 2.157; 0.79; 0.0];
  [31.0; 955.907412; 7.693e-12; 3.139; 1.953; 0.83; 0.0];
  [31.0; 956.951292; 5.936e-13; 3.461; 2.089; 0.81; 0.0];
  [31.0; 958.489507; 1.512e-11; 0.484; 2.394; 0.77; 0.0];
  [31.0; 958.537677; 9.827e-13; 4.891; 2.05; 0.76; 0.0];
  [31.0; 962.392175; 6.523e-13; 0.85; 2.444; 0.77; 0.0];
  [31.0; 968.674401; 4.965e-13; 3.894; 2.394; 0.77; 0.0];
  [31.0; 969.109025; 1.62e-11; 0.363; 2.385; 0.76; 0.0];
  [31.0; 969.454086; 5.87e-12; 3.119; 1.985; 0.83; 0.0];
  [31.0; 970.014098; 5.21e-12; 3.277; 1.979; 0.83; 0.0];
  [31.0; 970.154203; 1.588e-12; 1.448; 2.287; 0.78; 0.0];
  [31.0; 970.775544; 2.319e-12; 3.726; 2.056; 0.83; 0.0];
  [31.0; 973.008479; 9.309e-12; 1.387; 2.157; 0.79; 0.0];
  [31.0; 973.785313; 1.394e-12; 4.517; 2.062; 0.84; 0.0];
  [31.0; 976.473948; 6.17e-13; 0.919; 2.207; 0.78; 0.0];
  [31.0; 976.778957; 1.308e-12; 2.275; 2.172; 0.79; 0.0];
  [31.0; 979.61044; 6.637e-13; 4.129; 2.056; 0.76; 0.0];
  [31.0; 980.029595; 7.102e-12; 3.296; 1.944; 0.83; 0.0];
  [31.0; 982.262218; 6.721e-13; 3.332; 2.095; 0.81; 0.0];
  [31.0; 982.882048; 1.572e-11; 0.536; 2.373; 0.77; 0.0];
  [31.0; 983.239757; 5.342e-13; 3.775; 2.385; 0.76; 0.0];
  [31.0; 986.019274; 1.93e-12; 4.16; 2.074; 0.83; 0.0];
  [31.0; 987.59734; 3.972e-13; 0.811; 2.471; 0.77; 0.0];
  [31.0; 992.669939; 8.64e-12; 1.602; 2.133; 0.8; 0.0];
  [31.0; 992.938361; 5.156e-13; 3.945; 2.373; 0.77; 0.0];
  [31.0; 994.300111; 1.696e-11; 0.385; 2.553; 0.76; 0.0];
  [31.0; 995.392744; 1.523e-12; 1.38; 2.308; 0.78; 0.0];
  [31.0; 995.715267; 2.61e-12; 3.819; 2.092; 0.83; 0.0];
  [31.0; 998.610485; 8.949e-13; 5.08; 2.044; 0.76; 0.0];
  [31.0; 1000.143603; 5.78e-13; 4.308; 2.05; 0.76; 0.0];
  [31.0; 1000.613929; 1.25e-12; 4.699; 2.056; 0.76; 0.0]].
Definition o3_reftline_R22 : dec := 296.0.
Definition o3_mtx_R23 : list (list dec) := [
  [31.0; 96.22834; 1.237e-13; 0.02; 2.589; 0.76; 0.0];
  [31.0; 101.73687; 2.347e-13; 0.049; 2.524; 0.76; 0.0];
  [31.0; 110.83604; 3.669e-13; 0.095; 2.468; 0.76; 0.0];
  [31.0; 124.08738; 5.285e-13; 0.156; 2.414; 0.77; 0.0];
  [31.0; 125.38944; 3.106e-13; 0.136; 2.438; 0.77; 0.0];
  [31.0; 142.17504; 7.258e-13; 0.235; 2.37; 0.77; 0.0];
  [31.0; 144.91936; 2.709e-13; 0.444; 2.343; 0.77; 0.0];
  [31.0; 148.74487; 1.553e-13; 0.444; 2.373; 0.77; 0.0];
  [31.0; 154.04644; 1.619e-13; 0.394; 2.394; 0.77; 0.0];
  [31.0; 164.95182; 2.927e-13; 0.026; 2.642; 0.76; 0.0];
  [31.0; 165.78445; 9.602e-13; 0.329; 2.329; 0.77; 0.0];
  [31.0; 175.445701; 2.004e-13; 0.928; 2.249; 0.78; 0.0];
  [31.0; 184.37782; 8.553e-13; 0.208; 2.373; 0.77; 0.0];
  [31.0; 184.748694; 2.761e-13; 1.097; 2.201; 0.79; 0.0];
  [31.0; 193.351125; 2.455e-13; 0.853; 2.266; 0.78; 0.0];
  [31.0; 195.430363; 1.223e-12; 0.439; 2.293; 0.77; 0.0];
  [31.0; 195.721181; 2.356e-13; 0.346; 2.42; 0.77; 0.0];
  [31.0; 208.642415; 6.937e-13; 0.058; 2.553; 0.76; 0.0];
  [31.0; 210.803196; 2.496e-13; 0.304; 2.444; 0.77; 0.0];
  [31.0; 214.955677; 6.658e-13; 0.567; 2.302; 0.78; 0.0];
  [31.0; 226.054043; 3.316e-13; 0.781; 2.287; 0.78; 0.0];
  [31.0; 229.574953; 2.456e-13; 1.49; 2.172; 0.79; 0.0];
  [31.0; 231.281511; 1.502e-12; 0.566; 2.26; 0.78; 0.0];
  [31.0; 235.709855; 2.163e-12; 0.604; 2.26; 0.78; 0.0];
  [31.0; 237.146116; 2.089e-12; 0.475; 2.293; 0.77; 0.0];
  [31.0; 239.093279; 2.207e-12; 0.749; 2.234; 0.78; 0.0];
  [31.0; 242.318688; 1.968e-12; 0.362; 2.329; 0.77; 0.0];
  [31.0; 243.453776; 1.778e-12; 0.296; 2.314; 0.77; 0.0];
  [31.0; 244.15839; 2.889e-13; 0.264; 2.471; 0.77; 0.0];
  [31.0; 247.761753; 3.915e-13; 0.714; 2.308; 0.78; 0.0];
  [31.0; 248.18339; 2.234e-12; 0.912; 2.207; 0.78; 0.0];
  [31.0; 249.788552; 1.307e-12; 0.106; 2.476; 0.77; 0.0];
  [31.0; 249.96196; 1.785e-12; 0.266; 2.37; 0.77; 0.0];
  [31.0; 258.20205; 3.226e-13; 1.393; 2.186; 0.79; 0.0];
  [31.0; 258.71618; 1.533e-12; 0.187; 2.414; 0.77; 0.0];
  [31.0; 262.85785; 5.348e-13; 1.287; 2.172; 0.79; 0.0];
  [31.0; 263.6926; 2.252e-12; 1.09; 2.184; 0.79; 0.0];
  [31.0; 264.925894; 2.863e-13; 0.23; 2.497; 0.77; 0.0];
  [31.0; 267.26657; 1.213e-12; 0.125; 2.468; 0.76; 0.0];
  [31.0; 273.0509; 1.775e-12; 0.708; 2.234; 0.78; 0.0];
  [31.0; 274.47838; 8.256e-13; 0.08; 2.524; 0.76; 0.0];
  [31.0; 276.92354; 4.722e-13; 0.65; 2.329; 0.78; 0.0];
  [31.0; 279.48584; 3.481e-13; 0.051; 2.589; 0.76; 0.0];
  [31.0; 282.8372; 3.993e-13; 1.301; 2.201; 0.79; 0.0];
  [31.0; 286.08769; 1.274e-12; 0.707; 2.263; 0.78; 0.0];
  [31.0; 286.15653; 2.261e-12; 1.285; 2.16; 0.79; 0.0];
  [31.0; 286.29475; 6.134e-13; 0.062; 2.556; 0.76; 0.0];
  [31.0; 288.95914; 2.147e-12; 0.17; 2.405; 0.77; 0.0];
  [31.0; 293.17127; 1.072e-12; 0.098; 2.494; 0.76; 0.0];
  [31.0; 293.54823; 2.763e-13; 0.199; 2.524; 0.77; 0.0];
  [31.0; 300.68515; 5.303e-13; 0.591; 2.349; 0.77; 0.0];
  [31.0; 301.812999; 3.088e-12; 0.399; 2.263; 0.77; 0.0];
  [31.0; 303.164919; 1.494e-12; 0.151; 2.441; 0.77; 0.0];
  [31.0; 310.063518; 4.902e-13; 1.213; 2.216; 0.79; 0.0];
  [31.0; 315.875121; 2.252e-12; 1.496; 2.139; 0.79; 0.0];
  [31.0; 316.32725; 1.888e-12; 0.219; 2.391; 0.77; 0.0];
  [31.0; 316.681596; 2.989e-13; 2.066; 2.124; 0.8; 0.0];
  [31.0; 317.195059; 2.332e-13; 0.173; 2.553; 0.76; 0.0];
  [31.0; 319.996539; 2.021e-12; 0.866; 2.207; 0.78; 0.0];
  [31.0; 326.900963; 3.211e-12; 0.25; 2.343; 0.77; 0.0];
  [31.0; 327.844554; 5.894e-13; 0.536; 2.373; 0.77; 0.0];
  [31.0; 332.704519; 2.248e-12; 0.303; 2.349; 0.77; 0.0];
  [31.0; 332.881703; 8.658e-13; 0.046; 2.689; 0.76; 0.0];
  [31.0; 335.271226; 5.801e-13; 1.129; 2.231; 0.78; 0.0];
  [31.0; 343.180602; 3.735e-13; 1.953; 2.133; 0.8; 0.0];
  [31.0; 343.237419; 8.595e-13; 1.494; 2.145; 0.79; 0.0];
  [31.0; 343.505637; 1.681e-13; 0.15; 2.583; 0.76; 0.0];
  [31.0; 352.324077; 2.567e-12; 0.403; 2.311; 0.77; 0.0];
  [31.0; 352.59288; 6.245e-13; 0.485; 2.394; 0.77; 0.0];
  [31.0; 352.815194; 2.217e-12; 1.723; 2.118; 0.8; 0.0];
  [31.0; 355.018144; 1.092e-12; 0.057; 2.618; 0.76; 0.0];
  [31.0; 357.629819; 2.091e-12; 0.863; 2.225; 0.78; 0.0];
  [31.0; 358.199826; 2.204e-12; 2.027; 2.189; 0.8; 0.0];
  [31.0; 358.853347; 4.713e-12; 0.518; 2.216; 0.78; 0.0];
  [31.0; 359.649665; 2.584e-12; 1.781; 2.118; 0.8; 0.0];
  [31.0; 361.669307; 6.763e-13; 1.05; 2.249; 0.78; 0.0];
  [31.0; 363.469275; 1.875e-12; 2.29; 2.166; 0.81; 0.0];
  [31.0; 364.403666; 3.559e-13; 2.57; 2.077; 0.81; 0.0];
  [31.0; 364.449915; 4.482e-12; 0.345; 2.287; 0.77; 0.0];
  [31.0; 366.776946; 3.01e-12; 1.552; 2.139; 0.79; 0.0];
  [31.0; 368.949164; 4.563e-13; 1.845; 2.145; 0.79; 0.0];
  [31.0; 371.022852; 2.22e-12; 1.039; 2.184; 0.79; 0.0];
  [31.0; 375.179181; 2.832e-12; 0.519; 2.278; 0.78; 0.0];
  [31.0; 376.23827; 1.595e-12; 2.569; 2.145; 0.81; 0.0];
  [31.0; 378.281229; 3.469e-12; 1.339; 2.16; 0.79; 0.0];
  [31.0; 378.694868; 6.425e-13; 0.437; 2.42; 0.77; 0.0];
  [31.0; 387.098395; 7.675e-13; 0.974; 2.266; 0.78; 0.0];
  [31.0; 387.287612; 1.375e-12; 0.07; 2.598; 0.76; 0.0];
  [31.0; 392.654029; 3.933e-12; 1.144; 2.184; 0.79; 0.0];
  [31.0; 395.062982; 5.483e-13; 1.741; 2.157; 0.79; 0.0];
  [31.0; 396.529434; 2.149e-12; 1.966; 2.189; 0.8; 0.0];
  [31.0; 397.027615; 1.357e-12; 2.864; 2.124; 0.82; 0.0];
  [31.0; 400.076974; 1.7e-12; 0.09; 2.565; 0.76; 0.0];
  [31.0; 401.21773; 3.037e-12; 0.651; 2.246; 0.78; 0.0];
  [31.0; 402.395327; 5.906e-12; 0.456; 2.24; 0.78; 0.0];
  [31.0; 403.83734; 6.314e-13; 0.395; 2.444; 0.77; 0.0];
  [31.0; 408.293992; 4.368e-12; 0.965; 2.207; 0.78; 0.0];
  [31.0; 413.011868; 8.55e-13; 0.902; 2.287; 0.78; 0.0];
  [31.0; 414.254529; 6.491e-12; 0.652; 2.178; 0.78; 0.0];
  [31.0; 420.794918; 6.473e-13; 1.641; 2.172; 0.79; 0.0];
  [31.0; 423.669481; 4.731e-12; 0.803; 2.234; 0.78; 0.0];
  [31.0; 424.845932; 2.355e-12; 1.228; 2.16; 0.79; 0.0];
  [31.0; 425.157749; 1.225e-12; 1.717; 2.124; 0.8; 0.0];
  [31.0; 426.069358; 1.151e-12; 3.175; 2.107; 0.82; 0.0];
  [31.0; 427.943742; 3.391e-13; 2.609; 2.095; 0.81; 0.0];
  [31.0; 428.792217; 3.07e-12; 1.034; 2.189; 0.79; 0.0];
  [31.0; 429.420061; 5.906e-13; 0.356; 2.471; 0.77; 0.0];
  [31.0; 430.333831; 3.169e-12; 0.799; 2.219; 0.78; 0.0];
  [31.0; 437.493562; 4.965e-12; 0.658; 2.26; 0.78; 0.0];
  [31.0; 438.480736; 9.297e-13; 0.835; 2.308; 0.78; 0.0];
  [31.0; 441.340381; 7.405e-12; 0.583; 2.195; 0.78; 0.0];
  [31.0; 442.117575; 2.456e-12; 0.139; 2.512; 0.77; 0.0];
  [31.0; 445.458708; 2.033e-12; 0.111; 2.515; 0.76; 0.0];
  [31.0; 446.14377; 2.044e-12; 2.224; 2.166; 0.81; 0.0];
  [31.0; 446.6491; 7.525e-13; 1.544; 2.186; 0.79; 0.0];
  [31.0; 448.876279; 5.016e-12; 0.53; 2.293; 0.77; 0.0];
  [31.0; 452.238905; 4.527e-13; 2.86; 2.068; 0.82; 0.0];
  [31.0; 453.789362; 4.122e-13; 2.484; 2.104; 0.8; 0.0];
  [31.0; 454.66868; 5.153e-13; 0.321; 2.497; 0.77; 0.0];
  [31.0; 457.415619; 4.848e-12; 0.419; 2.329; 0.77; 0.0];
  [31.0; 462.365441; 3.223e-12; 0.962; 2.195; 0.79; 0.0];
  [31.0; 463.18961; 4.425e-12; 0.324; 2.37; 0.77; 0.0];
  [31.0; 463.245961; 9.719e-13; 3.503; 2.092; 0.83; 0.0];
  [31.0; 464.108692; 9.896e-13; 0.771; 2.329; 0.78; 0.0];
  [31.0; 466.641249; 3.759e-12; 0.246; 2.414; 0.77; 0.0];
  [31.0; 467.967123; 8.25e-12; 0.802; 2.142; 0.78; 0.0];
  [31.0; 468.399325; 2.849e-12; 0.185; 2.468; 0.76; 0.0];
  [31.0; 469.104212; 1.678e-12; 0.14; 2.524; 0.76; 0.0];
  [31.0; 469.325078; 9.455e-13; 0.123; 2.556; 0.76; 0.0];
  [31.0; 469.482352; 2.305e-12; 0.16; 2.494; 0.76; 0.0];
  [31.0; 469.953884; 3.355e-12; 0.213; 2.441; 0.77; 0.0];
  [31.0; 470.990875; 4.197e-12; 0.283; 2.391; 0.77; 0.0];
  [31.0; 472.300767; 8.604e-13; 1.452; 2.201; 0.79; 0.0];
  [31.0; 472.898853; 4.842e-12; 0.368; 2.349; 0.77; 0.0];
  [31.0; 473.073083; 7.852e-13; 3.925; 2.074; 0.83; 0.0];
  [31.0; 474.165218; 5.825e-13; 4.287; 2.062; 0.84; 0.0];
  [31.0; 476.020613; 5.294e-12; 0.47; 2.311; 0.77; 0.0];
  [31.0; 479.395673; 1.056e-12; 3.579; 2.092; 0.83; 0.0];
  [31.0; 479.632455; 4.944e-13; 2.364; 2.113; 0.8; 0.0];
  [31.0; 480.014178; 4.071e-13; 0.29; 2.524; 0.77; 0.0];
  [31.0; 480.182356; 2.414e-12; 1.432; 2.139; 0.79; 0.0];
  [31.0; 480.717254; 5.573e-12; 0.589; 2.278; 0.78; 0.0];
  [31.0; 481.198946; 3.31e-12; 0.205; 2.462; 0.77; 0.0];
  [31.0; 481.620136; 8.883e-12; 0.725; 2.16; 0.78; 0.0];
  [31.0; 487.348535; 5.681e-12; 0.723; 2.246; 0.78; 0.0];
  [31.0; 489.537095; 1.027e-12; 0.712; 2.349; 0.77; 0.0];
  [31.0; 491.951176; 1.413e-12; 3.25; 2.107; 0.82; 0.0];
  [31.0; 496.25401; 5.639e-12; 0.874; 2.219; 0.78; 0.0];
  [31.0; 497.097872; 3.199e-12; 1.141; 2.172; 0.79; 0.0];
  [31.0; 497.972727; 9.683e-13; 1.365; 2.216; 0.79; 0.0];
  [31.0; 498.747426; 4.125e-12; 1.222; 2.157; 0.79; 0.0];
  [31.0; 500.433486; 1.902e-12; 2.498; 2.145; 0.81; 0.0];
  [31.0; 505.257219; 2.706e-13; 0.264; 2.553; 0.76; 0.0];
  [31.0; 505.369137; 5.852e-13; 2.247; 2.124; 0.8; 0.0];
  [31.0; 507.736143; 5.468e-12; 1.041; 2.195; 0.79; 0.0];
  [31.0; 507.815378; 1.601e-12; 1.957; 2.104; 0.8; 0.0];
  [31.0; 508.031033; 8.127e-13; 3.845; 2.074; 0.83; 0.0];
  [31.0; 508.192897; 2.73e-12; 0.167; 2.438; 0.77; 0.0];
  [31.0; 509.272486; 1.874e-12; 2.938; 2.124; 0.82; 0.0];
  [31.0; 514.992622; 1.038e-12; 0.657; 2.373; 0.77; 0.0];
  [31.0; 517.430402; 4.221e-12; 0.288; 2.411; 0.77; 0.0];
  [31.0; 520.1348; 9.815e-12; 0.967; 2.113; 0.79; 0.0];
  [31.0; 522.046109; 5.198e-12; 1.224; 2.172; 0.79; 0.0];
  [31.0; 523.308826; 1.022e-11; 0.882; 2.127; 0.79; 0.0];
  [31.0; 523.531653; 1.073e-12; 1.281; 2.231; 0.78; 0.0];
  [31.0; 529.683864; 2.452e-12; 2.642; 2.145; 0.81; 0.0];
  [31.0; 531.076224; 6.841e-13; 2.135; 2.133; 0.8; 0.0];
  [31.0; 534.273117; 3.1e-12; 1.336; 2.151; 0.79; 0.0];
  [31.0; 535.922659; 2.391e-12; 1.651; 2.118; 0.8; 0.0];
  [31.0; 539.372692; 4.845e-12; 1.423; 2.151; 0.79; 0.0];
  [31.0; 540.355981; 1.015e-12; 0.606; 2.394; 0.77; 0.0];
  [31.0; 542.580408; 5.33e-13; 3.166; 2.059; 0.82; 0.0];
  [31.0; 544.857488; 3.624e-12; 0.117; 2.494; 0.76; 0.0];
  [31.0; 549.070417; 1.169e-12; 1.201; 2.249; 0.78; 0.0];
  [31.0; 550.98947; 5.144e-12; 0.387; 2.367; 0.77; 0.0];
  [31.0; 551.435738; 3.157e-12; 2.364; 2.166; 0.81; 0.0];
  [31.0; 556.710376; 7.897e-13; 2.026; 2.145; 0.79; 0.0];
  [31.0; 557.970086; 1.73e-12; 2.787; 2.124; 0.82; 0.0];
  [31.0; 559.477407; 6.712e-13; 4.204; 2.062; 0.84; 0.0];
  [31.0; 559.834394; 4.434e-12; 1.638; 2.13; 0.8; 0.0];
  [31.0; 563.437719; 3.723e-13; 3.081; 2.083; 0.81; 0.0];
  [31.0; 565.703479; 9.569e-13; 0.559; 2.42; 0.77; 0.0];
  [31.0; 566.293566; 1.132e-11; 1.055; 2.098; 0.79; 0.0];
  [31.0; 566.734984; 5.141e-12; 1.425; 2.127; 0.79; 0.0];
  [31.0; 570.097138; 4.092e-12; 0.132; 2.613; 0.76; 0.0];
  [31.0; 570.999366; 1.105e-11; 1.147; 2.086; 0.79; 0.0];
  [31.0; 572.877215; 3.984e-12; 2.103; 2.189; 0.8; 0.0];
  [31.0; 573.602803; 2.934e-12; 1.546; 2.13; 0.8; 0.0];
  [31.0; 574.540446; 1.253e-12; 1.125; 2.266; 0.78; 0.0];
  [31.0; 576.514876; 3.352e-12; 0.24; 2.373; 0.77; 0.0];
  [31.0; 582.144118; 6.035e-12; 0.502; 2.323; 0.78; 0.0];
  [31.0; 582.306369; 9.003e-13; 1.922; 2.157; 0.79; 0.0];
  [31.0; 583.475002; 3.987e-12; 1.868; 2.107; 0.8; 0.0];
  [31.0; 589.104307; 4.437e-13; 2.949; 2.089; 0.81; 0.0];
  [31.0; 590.337545; 1.95e-12; 2.212; 2.089; 0.81; 0.0];
  [31.0; 591.00434; 8.583e-13; 0.516; 2.444; 0.77; 0.0];
  [31.0; 591.248914; 2.289e-12; 1.886; 2.189; 0.8; 0.0];
  [31.0; 592.630753; 4.911e-12; 1.858; 2.118; 0.8; 0.0];
  [31.0; 595.080912; 4.65e-12; 0.15; 2.583; 0.76; 0.0];
  [31.0; 599.978756; 1.318e-12; 1.054; 2.287; 0.78; 0.0];
  [31.0; 607.848509; 1.014e-12; 1.822; 2.172; 0.79; 0.0];
  [31.0; 609.730588; 5.894e-12; 1.631; 2.139; 0.79; 0.0];
  [31.0; 610.262561; 3.523e-12; 2.115; 2.178; 0.81; 0.0];
  [31.0; 610.365186; 1.21e-11; 1.243; 2.074; 0.79; 0.0];
  [31.0; 611.276642; 6.859e-12; 0.634; 2.281; 0.78; 0.0];
  [31.0; 614.729529; 5.237e-13; 2.82; 2.095; 0.81; 0.0];
  [31.0; 614.78419; 2.716e-12; 1.771; 2.107; 0.8; 0.0];
  [31.0; 616.282394; 7.198e-13; 0.477; 2.471; 0.77; 0.0];
  [31.0; 617.30432; 1.534e-12; 3.091; 2.107; 0.82; 0.0];
  [31.0; 620.686696; 5.264e-12; 0.172; 2.553; 0.76; 0.0];
  [31.0; 620.825694; 1.187e-11; 1.343; 2.065; 0.79; 0.0];
  [31.0; 623.687732; 6.868e-12; 1.42; 2.16; 0.79; 0.0];
  [31.0; 625.371112; 1.36e-12; 0.987; 2.308; 0.78; 0.0];
  [31.0; 632.176937; 5.99e-12; 1.643; 2.098; 0.8; 0.0];
  [31.0; 633.352693; 1.127e-12; 1.726; 2.186; 0.79; 0.0];
  [31.0; 634.461604; 7.759e-12; 1.227; 2.184; 0.79; 0.0];
  [31.0; 634.520172; 5.912e-13; 3.489; 2.056; 0.83; 0.0];
  [31.0; 638.903096; 7.588e-12; 0.782; 2.243; 0.78; 0.0];
  [31.0; 640.092417; 3.058e-12; 2.377; 2.157; 0.81; 0.0];
  [31.0; 640.309803; 6.119e-13; 2.695; 2.104; 0.8; 0.0];
  [31.0; 641.534128; 5.459e-13; 0.443; 2.497; 0.77; 0.0];
  [31.0; 642.349702; 8.478e-12; 1.05; 2.207; 0.78; 0.0];
  [31.0; 644.804927; 5.903e-12; 0.199; 2.524; 0.77; 0.0];
  [31.0; 645.670188; 2.12e-12; 2.136; 2.166; 0.81; 0.0];
  [31.0; 647.839918; 8.964e-12; 0.89; 2.234; 0.78; 0.0];
  [31.0; 650.732726; 1.372e-12; 0.923; 2.329; 0.78; 0.0];
  [31.0; 651.475846; 9.147e-12; 0.747; 2.26; 0.78; 0.0];
  [31.0; 651.556975; 3.792e-12; 0.329; 2.314; 0.77; 0.0];
  [31.0; 653.76245; 8.982e-12; 0.62; 2.293; 0.77; 0.0];
  [31.0; 654.713487; 8.967e-12; 0.967; 2.219; 0.78; 0.0];
  [31.0; 654.853038; 9.213e-12; 0.816; 2.246; 0.78; 0.0];
  [31.0; 655.005257; 8.484e-12; 1.135; 2.195; 0.79; 0.0];
  [31.0; 655.12033; 8.43e-12; 0.509; 2.329; 0.77; 0.0];
  [31.0; 655.203576; 9.168e-12; 0.681; 2.278; 0.78; 0.0];
  [31.0; 655.290198; 1.25e-11; 1.446; 2.053; 0.8; 0.0];
  [31.0; 655.606308; 8.781e-12; 0.562; 2.311; 0.77; 0.0];
  [31.0; 655.87259; 7.474e-12; 0.415; 2.37; 0.77; 0.0];
  [31.0; 655.962099; 8.013e-12; 0.46; 2.349; 0.77; 0.0];
  [31.0; 656.005734; 7.834e-12; 1.319; 2.172; 0.79; 0.0];
  [31.0; 656.223761; 6.841e-12; 0.374; 2.391; 0.77; 0.0];
  [31.0; 656.252556; 6.089e-12; 0.337; 2.414; 0.77; 0.0];
  [31.0; 656.383997; 5.222e-12; 0.305; 2.441; 0.77; 0.0];
  [31.0; 656.419753; 4.224e-12; 0.276; 2.468; 0.76; 0.0];
  [31.0; 656.461535; 3.073e-12; 0.251; 2.494; 0.76; 0.0];
  [31.0; 656.4777; 1.708e-12; 0.231; 2.524; 0.76; 0.0];
  [31.0; 657.515114; 2.456e-12; 2.012; 2.178; 0.81; 0.0];
  [31.0; 658.038638; 7.066e-12; 1.52; 2.151; 0.79; 0.0];
  [31.0; 658.814978; 1.237e-12; 1.634; 2.201; 0.79; 0.0];
  [31.0; 661.458302; 6.242e-12; 1.737; 2.13; 0.8; 0.0];
  [31.0; 664.486652; 6.221e-13; 4.76; 2.05; 0.76; 0.0];
  [31.0; 665.677713; 8.187e-12; 0.946; 2.207; 0.79; 0.0];
  [31.0; 665.852066; 7.072e-13; 2.575; 2.113; 0.8; 0.0];
  [31.0; 666.6309; 5.411e-12; 1.97; 2.107; 0.8; 0.0];
  [31.0; 666.767731; 3.478e-13; 0.412; 2.524; 0.77; 0.0];
  [31.0; 669.857129; 1.225e-11; 1.553; 2.044; 0.8; 0.0];
  [31.0; 671.669215; 6.58e-12; 0.23; 2.497; 0.77; 0.0];
  [31.0; 671.80443; 2.238e-12; 2.484; 2.077; 0.81; 0.0];
  [31.0; 672.794525; 2.607e-12; 2.656; 2.136; 0.82; 0.0];
  [31.0; 673.914355; 4.608e-12; 2.219; 2.178; 0.81; 0.0];
  [31.0; 676.061525; 1.35e-12; 0.864; 2.349; 0.77; 0.0];
  [31.0; 677.143207; 1.324e-12; 3.41; 2.092; 0.83; 0.0];
  [31.0; 683.639008; 3.855e-12; 2.485; 2.157; 0.81; 0.0];
  [31.0; 684.243095; 1.339e-12; 1.546; 2.216; 0.79; 0.0];
  [31.0; 691.356502; 8.088e-13; 2.458; 2.124; 0.8; 0.0];
  [31.0; 691.664263; 9.054e-13; 4.382; 2.062; 0.84; 0.0];
  [31.0; 691.98594; 1.498e-13; 0.385; 2.553; 0.76; 0.0];
  [31.0; 692.368592; 8.643e-12; 1.125; 2.172; 0.79; 0.0];
  [31.0; 693.473708; 7.198e-12; 0.265; 2.471; 0.77; 0.0];
  [31.0; 694.760945; 6.571e-12; 1.877; 2.071; 0.8; 0.0];
  [31.0; 696.090387; 3.172e-12; 2.767; 2.136; 0.82; 0.0];
  [31.0; 698.980629; 1.905e-12; 2.4; 2.145; 0.81; 0.0];
  [31.0; 700.853031; 1.252e-11; 1.665; 2.036; 0.8; 0.0];
  [31.0; 701.364503; 1.289e-12; 0.809; 2.373; 0.77; 0.0];
  [31.0; 701.508233; 2.172e-12; 2.269; 2.157; 0.81; 0.0];
  [31.0; 708.143315; 2.184e-12; 2.949; 2.115; 0.82; 0.0];
  [31.0; 709.637738; 1.429e-12; 1.462; 2.231; 0.78; 0.0];
  [31.0; 711.495174; 2.572e-12; 3.064; 2.115; 0.82; 0.0];
  [31.0; 716.827325; 9.156e-13; 2.346; 2.133; 0.8; 0.0];
  [31.0; 718.296209; 1.22e-11; 1.78; 2.027; 0.8; 0.0];
  [31.0; 718.358629; 1.293e-12; 4.022; 2.074; 0.83; 0.0];
  [31.0; 719.79235; 8.925e-12; 1.321; 2.142; 0.79; 0.0];
  [31.0; 723.005064; 4.074e-13; 3.459; 2.077; 0.81; 0.0];
  [31.0; 723.377268; 7.888e-12; 0.303; 2.444; 0.77; 0.0];
  [31.0; 726.643687; 1.185e-12; 0.758; 2.394; 0.77; 0.0];
  [31.0; 727.086648; 6.23e-13; 3.828; 2.056; 0.83; 0.0];
  [31.0; 730.010947; 2.053e-12; 3.378; 2.098; 0.83; 0.0];
  [31.0; 734.389536; 3.975e-12; 0.434; 2.263; 0.77; 0.0];
  [31.0; 735.003391; 1.501e-12; 1.383; 2.249; 0.78; 0.0];
  [31.0; 736.482135; 1.113e-12; 3.745; 2.074; 0.83; 0.0];
  [31.0; 740.367298; 8.394e-12; 0.347; 2.42; 0.77; 0.0];
  [31.0; 742.266034; 1.025e-12; 2.238; 2.145; 0.79; 0.0];
  [31.0; 743.16441; 1.807e-12; 3.678; 2.092; 0.83; 0.0];
  [31.0; 745.872141; 1.797e-12; 3.258; 2.098; 0.83; 0.0];
  [31.0; 746.501271; 1.88e-12; 2.54; 2.136; 0.82; 0.0];
  [31.0; 746.874117; 1.217e-11; 1.898; 2.018; 0.81; 0.0];
  [31.0; 748.493332; 4.779e-13; 3.323; 2.083; 0.81; 0.0];
  [31.0; 748.710657; 9.018e-12; 1.531; 2.113; 0.8; 0.0];
  [31.0; 751.176124; 1.662e-12; 2.681; 2.124; 0.82; 0.0];
  [31.0; 751.301743; 2.433e-12; 2.771; 2.068; 0.82; 0.0];
  [31.0; 751.719932; 1.614e-12; 3.708; 2.083; 0.83; 0.0];
  [31.0; 751.903093; 1.038e-12; 0.711; 2.42; 0.77; 0.0];
  [31.0; 754.45636; 6.829e-12; 2.127; 2.047; 0.81; 0.0];
  [31.0; 757.249769; 8.835e-12; 0.223; 2.435; 0.76; 0.0];
  [31.0; 760.342107; 1.551e-12; 1.307; 2.266; 0.78; 0.0];
  [31.0; 765.101585; 2.465e-12; 3.352; 2.107; 0.82; 0.0];
  [31.0; 766.301328; 1.176e-11; 2.021; 2.012; 0.81; 0.0];
  [31.0; 767.675651; 1.136e-12; 2.134; 2.157; 0.79; 0.0];
  [31.0; 773.952037; 5.552e-13; 3.19; 2.089; 0.81; 0.0];
  [31.0; 776.268051; 9.072e-12; 0.393; 2.394; 0.77; 0.0];
  [31.0; 776.626962; 1.25e-12; 4.053; 2.068; 0.84; 0.0];
  [31.0; 777.145477; 8.502e-13; 0.668; 2.444; 0.77; 0.0];
  [31.0; 779.714558; 8.91e-12; 1.758; 2.086; 0.8; 0.0];
  [31.0; 782.438253; 9.503e-12; 0.241; 2.583; 0.76; 0.0];
  [31.0; 783.660591; 3.277e-12; 3.042; 2.124; 0.82; 0.0];
  [31.0; 784.69137; 9.384e-12; 0.445; 2.373; 0.77; 0.0];
  [31.0; 785.657074; 1.573e-12; 1.236; 2.287; 0.78; 0.0];
  [31.0; 785.688309; 1.451e-12; 3.583; 2.083; 0.83; 0.0];
  [31.0; 792.263885; 1.591e-12; 2.828; 2.115; 0.82; 0.0];
  [31.0; 793.058131; 1.244e-12; 2.034; 2.172; 0.79; 0.0];
  [31.0; 793.213061; 1.15e-11; 2.148; 2.003; 0.81; 0.0];
  [31.0; 794.663334; 9.09e-13; 4.094; 2.062; 0.84; 0.0];
  [31.0; 798.761395; 4.239e-12; 2.75; 2.145; 0.81; 0.0];
  [31.0; 799.383308; 6.392e-13; 3.061; 2.095; 0.81; 0.0];
  [31.0; 802.366363; 1.411e-12; 2.976; 2.107; 0.82; 0.0];
  [31.0; 802.373798; 6.29e-13; 0.629; 2.471; 0.77; 0.0];
  [31.0; 804.661559; 9.542e-13; 4.414; 2.056; 0.76; 0.0];
  [31.0; 807.624102; 1.028e-11; 0.264; 2.553; 0.76; 0.0];
  [31.0; 810.646133; 5.339e-12; 2.474; 2.166; 0.81; 0.0];
  [31.0; 810.950657; 1.562e-12; 1.168; 2.308; 0.78; 0.0];
  [31.0; 811.463446; 6.766e-12; 2.391; 2.027; 0.81; 0.0];
  [31.0; 813.140329; 8.601e-12; 2.0; 2.059; 0.81; 0.0];
  [31.0; 813.99105; 1.1e-11; 2.278; 1.997; 0.81; 0.0];
  [31.0; 818.415896; 1.346e-12; 1.938; 2.186; 0.79; 0.0];
  [31.0; 819.262819; 6.281e-13; 4.183; 2.059; 0.84; 0.0];
  [31.0; 819.745746; 6.55e-12; 2.215; 2.189; 0.8; 0.0];
  [31.0; 824.78887; 7.291e-13; 2.937; 2.104; 0.8; 0.0];
  [31.0; 825.715207; 1.008e-11; 0.561; 2.329; 0.78; 0.0];
  [31.0; 825.844664; 3.9e-12; 0.556; 2.216; 0.78; 0.0];
  [31.0; 826.560139; 7.825e-12; 1.973; 2.118; 0.8; 0.0];
  [31.0; 827.288866; 1.151e-12; 3.923; 2.068; 0.84; 0.0];
  [31.0; 827.590595; 3.903e-13; 0.594; 2.497; 0.77; 0.0];
  [31.0; 828.006287; 2.513e-12; 3.074; 2.059; 0.82; 0.0];
  [31.0; 830.556649; 4.065e-12; 2.89; 2.136; 0.82; 0.0];
  [31.0; 830.941786; 1.001e-11; 0.499; 2.349; 0.77; 0.0];
  [31.0; 831.008841; 5.049e-12; 2.608; 2.157; 0.81; 0.0];
  [31.0; 831.078476; 3.211e-12; 3.189; 2.115; 0.82; 0.0];
  [31.0; 831.573892; 9.108e-12; 1.748; 2.139; 0.79; 0.0];
  [31.0; 832.117908; 6.152e-12; 2.341; 2.178; 0.81; 0.0];
  [31.0; 832.789599; 1.112e-11; 0.29; 2.524; 0.77; 0.0];
  [31.0; 832.921139; 2.494e-12; 3.505; 2.098; 0.83; 0.0];
  [31.0; 833.608956; 7.342e-12; 2.091; 2.107; 0.8; 0.0];
  [31.0; 835.210195; 1.033e-11; 1.539; 2.16; 0.79; 0.0];
  [31.0; 835.257493; 8.58e-12; 1.858; 2.13; 0.8; 0.0];
  [31.0; 835.683951; 7.168e-13; 4.791; 2.044; 0.76; 0.0];
  [31.0; 836.225418; 1.513e-12; 1.105; 2.329; 0.78; 0.0];
  [31.0; 836.445259; 1.903e-12; 3.837; 2.083; 0.83; 0.0];
  [31.0; 836.892717; 9.803e-12; 1.641; 2.151; 0.79; 0.0];
  [31.0; 837.814336; 1.141e-11; 1.346; 2.184; 0.79; 0.0];
  [31.0; 838.396104; 1.093e-11; 1.44; 2.172; 0.79; 0.0];
  [31.0; 838.60074; 1.319e-12; 3.13; 2.098; 0.83; 0.0];
  [31.0; 839.655446; 1.226e-11; 1.17; 2.207; 0.78; 0.0];
  [31.0; 839.696187; 1.189e-11; 1.256; 2.195; 0.79; 0.0];
  [31.0; 839.76454; 1.059e-11; 2.412; 1.988; 0.82; 0.0];
  [31.0; 840.76067; 1.258e-11; 1.088; 2.219; 0.78; 0.0];
  [31.0; 840.937121; 1.278e-11; 1.011; 2.234; 0.78; 0.0];
  [31.0; 841.587314; 1.29e-11; 0.937; 2.246; 0.78; 0.0];
  [31.0; 841.810833; 1.289e-11; 0.868; 2.26; 0.78; 0.0];
  [31.0; 842.007497; 1.43e-12; 4.184; 2.068; 0.84; 0.0];
  [31.0; 842.19479; 1.277e-11; 0.802; 2.278; 0.78; 0.0];
  [31.0; 842.388731; 1.251e-11; 0.741; 2.293; 0.77; 0.0];
  [31.0; 842.614418; 1.211e-11; 0.684; 2.311; 0.77; 0.0];
  [31.0; 842.754343; 1.156e-11; 0.63; 2.329; 0.77; 0.0];
  [31.0; 842.883377; 1.085e-11; 0.581; 2.349; 0.77; 0.0];
  [31.0; 842.970701; 9.974e-12; 0.536; 2.37; 0.77; 0.0];
  [31.0; 843.03956; 8.922e-12; 0.496; 2.391; 0.77; 0.0];
  [31.0; 843.086058; 7.678e-12; 0.459; 2.414; 0.77; 0.0];
  [31.0; 843.117977; 6.221e-12; 0.426; 2.441; 0.77; 0.0];
  [31.0; 843.137559; 4.518e-12; 0.398; 2.468; 0.76; 0.0];
  [31.0; 843.148495; 2.49e-12; 0.373; 2.494; 0.76; 0.0];
  [31.0; 843.750952; 1.438e-12; 1.846; 2.201; 0.79; 0.0];
  [31.0; 849.05116; 8.103e-12; 2.257; 2.039; 0.81; 0.0];
  [31.0; 849.942539; 1.058e-12; 4.549; 2.056; 0.76; 0.0];
  [31.0; 850.170579; 8.241e-13; 2.816; 2.113; 0.8; 0.0];
  [31.0; 851.35708; 7.225e-13; 4.458; 2.05; 0.76; 0.0];
  [31.0; 852.707426; 1.169e-12; 3.286; 2.092; 0.83; 0.0];
  [31.0; 852.798236; 1.63e-13; 0.564; 2.524; 0.77; 0.0];
  [31.0; 857.967878; 1.198e-11; 0.321; 2.497; 0.77; 0.0];
  [31.0; 860.546279; 7.705e-13; 4.929; 2.044; 0.76; 0.0];
  [31.0; 861.451296; 1.002e-11; 2.55; 1.982; 0.82; 0.0];
  [31.0; 861.483613; 1.423e-12; 1.046; 2.349; 0.77; 0.0];
  [31.0; 862.915332; 1.044e-11; 0.693; 2.287; 0.78; 0.0];
  [31.0; 865.518799; 1.7e-13; 0.386; 2.329; 0.77; 0.0];
  [31.0; 866.126148; 6.428e-12; 2.671; 2.009; 0.82; 0.0];
  [31.0; 869.065395; 1.516e-12; 1.758; 2.216; 0.79; 0.0];
  [31.0; 870.375215; 8.958e-13; 4.279; 2.056; 0.76; 0.0];
  [31.0; 875.530113; 9.228e-13; 2.7; 2.124; 0.8; 0.0];
  [31.0; 881.452828; 2.908e-13; 0.495; 2.293; 0.77; 0.0];
  [31.0; 883.056208; 1.283e-11; 0.356; 2.471; 0.77; 0.0];
  [31.0; 885.351389; 1.071e-12; 3.448; 2.083; 0.83; 0.0];
  [31.0; 886.451744; 9.494e-12; 2.691; 1.973; 0.82; 0.0];
  [31.0; 886.727436; 1.289e-12; 0.991; 2.373; 0.77; 0.0];
  [31.0; 887.285182; 7.453e-12; 2.529; 2.018; 0.82; 0.0];
  [31.0; 888.159056; 1.061e-11; 0.622; 2.308; 0.78; 0.0];
  [31.0; 894.36113; 1.575e-12; 1.674; 2.231; 0.78; 0.0];
  [31.0; 896.063816; 1.05e-11; 0.841; 2.249; 0.78; 0.0];
  [31.0; 900.869159; 1.023e-12; 2.588; 2.133; 0.8; 0.0];
  [31.0; 901.285163; 2.471e-12; 3.392; 2.056; 0.83; 0.0];
  [31.0; 902.359497; 9.446e-13; 3.612; 2.074; 0.83; 0.0];
  [31.0; 904.484881; 4.248e-13; 0.62; 2.26; 0.78; 0.0];
  [31.0; 906.278354; 4.512e-13; 3.73; 2.077; 0.81; 0.0];
  [31.0; 908.258962; 1.365e-11; 0.395; 2.444; 0.77; 0.0];
  [31.0; 908.742767; 8.889e-12; 2.837; 1.968; 0.82; 0.0];
  [31.0; 910.011582; 6.068e-13; 4.554; 2.056; 0.76; 0.0];
  [31.0; 911.958902; 1.112e-12; 0.94; 2.394; 0.77; 0.0];
  [31.0; 914.665299; 6.838e-13; 4.649; 2.044; 0.76; 0.0];
  [31.0; 918.660756; 4.485e-13; 3.804; 2.444; 0.77; 0.0];
  [31.0; 918.845249; 5.885e-12; 2.966; 1.991; 0.82; 0.0];
  [31.0; 919.640022; 1.61e-12; 1.595; 2.249; 0.78; 0.0];
  [31.0; 925.230438; 1.029e-11; 1.007; 2.216; 0.79; 0.0];
  [31.0; 926.189297; 1.123e-12; 2.479; 2.145; 0.79; 0.0];
  [31.0; 926.398691; 3.621e-12; 0.694; 2.178; 0.78; 0.0];
  [31.0; 927.539506; 6.694e-12; 2.817; 2.0; 0.82; 0.0];
  [31.0; 931.623758; 5.195e-13; 3.593; 2.083; 0.81; 0.0];
  [31.0; 932.387791; 8.511e-13; 3.781; 2.068; 0.84; 0.0];
  [31.0; 933.139791; 1.441e-11; 0.437; 2.42; 0.77; 0.0];
  [31.0; 933.219709; 8.31e-12; 2.986; 1.959; 0.83; 0.0];
  [31.0; 935.813643; 5.426e-13; 0.762; 2.234; 0.78; 0.0];
  [31.0; 937.179899; 8.964e-13; 0.893; 2.42; 0.77; 0.0];
  [31.0; 943.413888; 4.734e-13; 3.847; 2.42; 0.77; 0.0];
  [31.0; 944.903821; 1.616e-12; 1.519; 2.266; 0.78; 0.0];
  [31.0; 948.850439; 1.08e-11; 0.761; 2.266; 0.78; 0.0];
  [31.0; 950.722064; 9.875e-12; 1.189; 2.186; 0.79; 0.0];
  [31.0; 951.465543; 7.468e-13; 3.952; 2.062; 0.84; 0.0];
  [31.0; 951.492075; 1.219e-12; 2.375; 2.157; 0.79; 0.0];
  [31.0; 955.907412; 7.693e-12; 3.139; 1.953; 0.83; 0.0];
  [31.0; 956.951292; 5.936e-13; 3.461; 2.089; 0.81; 0.0];
  [31.0; 958.489507; 1.512e-11; 0.484; 2.394; 0.77; 0.0];
  [31.0; 958.537677; 9.827e-13; 4.891; 2.05; 0.76; 0.0];
  [31.0; 962.392175; 6.523e-13; 0.85; 2.444; 0.77; 0.0];
  [31.0; 968.674401; 4.965e-13; 3.894; 2.394; 0.77; 0.0];
  [31.0; 969.109025; 1.62e-11; 0.363; 2.385; 0.76; 0.0];
  [31.0; 969.454086; 5.87e-12; 3.119; 1.985; 0.83; 0.0];
  [31.0; 970.014098; 5.21e-12; 3.277; 1.979; 0.83; 0.0];
  [31.0; 970.154203; 1.588e-12; 1.448; 2.287; 0.78; 0.0];
  [31.0; 970.775544; 2.319e-12; 3.726; 2.056; 0.83; 0.0];
  [31.0; 973.008479; 9.309e-12; 1.387; 2.157; 0.79; 0.0];
  [31.0; 973.785313; 1.394e-12; 4.517; 2.062; 0.84; 0.0];
  [31.0; 976.473948; 6.17e-13; 0.919; 2.207; 0.78; 0.0];
  [31.0; 976.778957; 1.308e-12; 2.275; 2.172; 0.79; 0.0];
  [31.0; 979.61044; 6.637e-13; 4.129; 2.056; 0.76; 0.0];
  [31.0; 980.029595; 7.102e-12; 3.296; 1.944; 0.83; 0.0];
  [31.0; 982.262218; 6.721e-13; 3.332; 2.095; 0.81; 0.0];
  [31.0; 982.882048; 1.572e-11; 0.536; 2.373; 0.77; 0.0];
  [31.0; 983.239757; 5.342e-13; 3.775; 2.385; 0.76; 0.0];
  [31.0; 986.019274; 1.93e-12; 4.16; 2.074; 0.83; 0.0];
  [31.0; 987.59734; 3.972e-13; 0.811; 2.471; 0.77; 0.0];
  [31.0; 992.669939; 8.64e-12; 1.602; 2.133; 0.8; 0.0];
  [31.0; 992.938361; 5.156e-13; 3.945; 2.373; 0.77; 0.0];
  [31.0; 994.300111; 1.696e-11; 0.385; 2.553; 0.76; 0.0];
  [31.0; 995.392744; 1.523e-12; 1.38; 2.308; 0.78; 0.0];
  [31.0; 995.715267; 2.61e-12; 3.819; 2.092; 0.83; 0.0];
  [31.0; 998.610485; 8.949e-13; 5.08; 2.044; 0.76; 0.0];
  [31.0; 1000.143603; 5.78e-13; 4.308; 2.05; 0.76; 0.0];
  [31.0; 1000.613929; 1.25e-12; 4.699; 2.056; 0.76; 0.0]].
Definition o3_reftline_R23 : dec := 296.0.
