(** The engine data files in ADRpy/data/engine_data as lists of lines, without byte order
    mark.  Written by tools/shipped.py; the metadata files are left out. *)
From Coq Require Import String List.
Import ListNotations.
Open Scope string_scope.

(* ADRpy/data/engine_data/Jet_CSVs/ATF3-6A_Sea_level_thrust_polynomial.csv *)
Definition lines_ATF3_6A_Sea_level_thrust_polynomial : list string := [
  "19990.617922991547,-21898.228346440395,45553.68198049941,-299128.97634146106,1191628.4016584845,-2638501.469605483,3044744.0897528497,-1426346.7357628834";
  "0,0.598730034,,,,,,";
  ""].

(* ADRpy/data/engine_data/Jet_CSVs/ATF3-6A_TSFC_data.csv *)
Definition lines_ATF3_6A_TSFC_data : list string := [
  "Altitude (m),Mach Number,TSFC (g/(kNs)),Thrust (N)";
  "0,0.060727566,14.91013052,18783.58993";
  "0,0.095700217,15.53474437,18111.2823";
  "0,0.13067409,16.14407678,17506.19708";
  "0,0.163704163,16.72966012,16920.99506";
  "0,0.196077243,17.42066437,16342.96439";
  "0,0.23364113,18.08318357,15711.18616";
  "0,0.26472331,18.69621062,15169.04797";
  "0,0.293862034,19.28117705,14687.72907";
  "0,0.328835902,19.89057893,14125.46077";
  "0,0.355542955,20.46988509,13690.80758";
  "0,0.379330652,21.05929583,13317.97038";
  "0,0.424000314,22.07779722,12635.3675";
  "0,0.453134405,22.72072393,12190.99691";
  "0,0.478379792,23.32996036,11808.73322";
  "0,0.501680846,23.92210604,11460.19293";
  "0,0.524983366,24.495914,11122.5154";
  "0,0.549254977,25.1167438,10788.46409";
  "0,0.589250362,26.1787312,10198.7546";
  "0,0.034973318,14.45967907,19292.30504";
  "6096,0.152126631,15.52036898,11273.33669";
  "6096,0.184382274,16.05779067,11031.02477";
  "6096,0.222081847,16.64558786,10784.40763";
  "6096,0.258998135,17.29599988,10549.3884";
  "6096,0.299808514,17.91271704,10299.928";
  "6096,0.338675118,18.5053656,10081.9145";
  "6096,0.369767962,18.98498577,9896.310975";
  "6096,0.412526778,19.56744508,9676.541676";
  "6096,0.457225641,20.22060914,9509.734266";
  "6096,0.498042514,20.75608614,9303.668354";
  "6096,0.538855034,21.34601763,9132.81618";
  "6096,0.576061425,21.84448267,9042.038765";
  "6096,0.624378014,22.44404527,8923.53141";
  "6096,0.667139703,22.99055849,8866.638805";
  "6096,0.70990499,23.49206096,8779.133029";
  "6096,0.752669878,23.99856461,8675.5638";
  "6096,0.801460768,24.56187038,8565.761158";
  "12192,0.419595381,19.67673303,4723.425445";
  "12192,0.462614912,20.2058234,4660.156229";
  "12192,0.503893714,20.57964471,4645.597817";
  "12192,0.54667039,20.93867164,4623.731424";
  "12192,0.58944647,21.30514183,4637.019487";
  "12192,0.63222435,21.64910663,4623.695638";
  "12192,0.675002029,21.99557203,4632.575312";
  "12192,0.720261756,22.32249582,4660.44265";
  "12192,0.760561186,22.64099148,4673.994239";
  "12192,0.803933903,22.94541187,4727.716925";
  "12192,0.846123941,23.24140017,4807.26077";
  "12192,0.888906218,23.53035182,4925.990337";
  "12192,0.931691093,23.7867957,4983.354439";
  "12192,0.95891888,23.93687807,5055.072715";
  ""].

(* ADRpy/data/engine_data/Jet_CSVs/ATF3-6A_Thrust_data.csv *)
Definition lines_ATF3_6A_Thrust_data : list string := [
  "Altitude (m),Mach Number,Thrust (N)";
  "0,0.00265161,19931.47164";
  "0,0.058296156,18831.57739";
  "0,0.101145488,18012.69686";
  "0,0.143992018,17276.9888";
  "0,0.186839856,16502.44943";
  "0,0.229685971,15779.07294";
  "0,0.272532749,15036.01842";
  "0,0.315377803,14344.12678";
  "0,0.358223001,13647.96658";
  "0,0.40016824,12999.35035";
  "0,0.443910845,12331.42156";
  "0,0.486754441,11682.82158";
  "0,0.529597242,11057.83525";
  "0,0.574061978,10435.82998";
  "0,0.598730034,10046.6512";
  "6096,0.099274665,11708.99645";
  "6096,0.155873891,11243.9159";
  "6096,0.199818623,10925.36475";
  "6096,0.241536957,10662.99628";
  "6096,0.284367959,10388.2789";
  "6096,0.327197769,10148.98197";
  "6096,0.368081255,9906.107763";
  "6096,0.424537497,9627.307817";
  "6096,0.467364656,9466.723011";
  "6096,0.510193997,9241.33189";
  "6096,0.553020695,9094.390519";
  "6096,0.595845732,8996.775412";
  "6096,0.638670902,8895.224698";
  "6096,0.681494216,8848.772472";
  "6096,0.724319651,8739.350546";
  "6096,0.767144555,8645.671045";
  "6096,0.823739965,8512.322466";
  "12192,0.404646165,4756.019212";
  "12192,0.455847732,4665.072096";
  "12192,0.498670036,4648.603612";
  "12192,0.541492637,4623.330522";
  "12192,0.576528175,4636.3337";
  "12192,0.627136083,4624.880617";
  "12192,0.669957673,4629.591271";
  "12192,0.712778468,4657.915561";
  "12192,0.755599793,4670.497427";
  "12192,0.804907712,4729.11213";
  "12192,0.84123913,4794.051313";
  "12192,0.884056744,4916.830152";
  "12192,0.926876558,4974.277928";
  "12192,0.96340153,5068.533357";
  ""].

(* ADRpy/data/engine_data/Jet_CSVs/F404-400_Sea_level_thrust_polynomial.csv *)
Definition lines_F404_400_Sea_level_thrust_polynomial : list string := [
  "60206.058997520755,24678.06291456525,-146694.89007022016,949254.6129763456,-2561259.6507548974,3419415.4413553006,-2249470.2355250414,576367.6816317304";
  "0,1.220319573,,,,,,";
  ""].

(* ADRpy/data/engine_data/Jet_CSVs/F404-400_Thrust_data.csv *)
Definition lines_F404_400_Thrust_data : list string := [
  "Altitude (m),Mach Number,Thrust (N)";
  "0,0.034139646,60914.17901";
  "0,0.119277275,62204.79116";
  "0,0.171793162,63190.03749";
  "0,0.224310851,64273.69341";
  "0,0.274443958,65449.31";
  "0,0.322191095,66641.11188";
  "0,0.369937044,67767.96342";
  "0,0.417683587,68927.29014";
  "0,0.467815288,70026.14725";
  "0,0.520332166,71065.51886";
  "0,0.572846972,71991.71944";
  "0,0.625359885,72814.58996";
  "0,0.677870366,73504.60755";
  "0,0.730378234,74051.93123";
  "0,0.782882858,74422.11766";
  "0,0.83538514,74664.37163";
  "0,0.887881656,74591.71493";
  "0,0.940371594,74159.86325";
  "0,0.985693122,73203.00356";
  "0,1.016692719,72009.31907";
  "0,1.04053378,70829.9111";
  "0,1.083451666,68924.09641";
  "0,1.11683533,67610.35766";
  "0,1.14926766,66469.79885";
  "0,1.190766599,65263.71523";
  "0,1.220319573,64493.4497";
  "1524,0.034687721,52304.44112";
  "1524,0.109572553,53485.49277";
  "1524,0.162086999,54392.01144";
  "1524,0.214602435,55352.65538";
  "1524,0.267118592,56352.66315";
  "1524,0.31963511,57372.35284";
  "1524,0.372152168,58421.56541";
  "1524,0.424671118,59574.10804";
  "1524,0.477190699,60761.09402";
  "1524,0.52971037,61953.00049";
  "1524,0.582230041,63144.90695";
  "1524,0.632363445,64336.76112";
  "1524,0.680109988,65496.08783";
  "1524,0.727857621,66714.95234";
  "1524,0.77321771,67864.0031";
  "1524,0.818578372,69044.32623";
  "1524,0.863939232,70235.47442";
  "1524,0.906913175,71391.08819";
  "1524,0.949886018,72486.56277";
  "1524,1.026266113,73556.52692";
  "1524,1.07876362,73537.99549";
  "1524,1.131249774,72899.48368";
  "1524,1.192406806,71580.76974";
  "3048,0.033659294,47032.39242";
  "3048,0.109471282,47954.8741";
  "3048,0.161982394,48679.33504";
  "3048,0.214494587,49462.84173";
  "3048,0.267007861,50305.39417";
  "3048,0.319522396,51216.83331";
  "3048,0.37203594,52074.14719";
  "3048,0.424550656,52995.4273";
  "3048,0.477067444,54029.87843";
  "3048,0.529584682,55088.93195";
  "3048,0.582102641,56187.34931";
  "3048,0.632233613,57246.35054";
  "3048,0.679980453,58421.91483";
  "3048,0.72534052,59569.7628";
  "3048,0.765927233,60672.70249";
  "3048,0.806514993,61832.7744";
  "3048,0.847102422,62974.80456";
  "3048,0.885304121,64146.10028";
  "3048,0.923506192,65337.69297";
  "3048,0.959321907,66524.40076";
  "3048,0.995138048,67734.30509";
  "3048,1.033341729,69013.85135";
  "3048,1.085873417,70862.02673";
  "3048,1.121690265,72110.59197";
  "3048,1.157510526,73545.50279";
  "3048,1.202873453,74849.56231";
  "3048,1.255384205,75554.34133";
  "3048,1.307877296,75294.70642";
  "3048,1.350808113,74095.05079";
  "3048,1.37942032,72839.97203";
  "3048,1.403261381,71660.56406";
  "3048,1.42996398,70372.9683";
  "3048,1.443779847,69036.3774";
  "3048,1.46284446,67643.07001";
  "3048,1.481474504,64875.48474";
  "4572,0.034461846,39968.96023";
  "4572,0.109336495,40593.83716";
  "4572,0.161844813,41165.76324";
  "4572,0.214353762,41772.13268";
  "4572,0.266864153,42457.22978";
  "4572,0.319375896,43216.13407";
  "4572,0.371888809,44039.0046";
  "4572,0.424402534,44906.15943";
  "4572,0.4769177,45852.04193";
  "4572,0.529434037,46861.89067";
  "4572,0.581952356,47979.98994";
  "4572,0.632084157,49084.25958";
  "4572,0.679830799,50248.99882";
  "4572,0.727578135,51451.62575";
  "4572,0.772939325,52660.81569";
  "4572,0.813526699,53799.83889";
  "4572,0.851727531,54923.775";
  "4572,0.889930345,56155.96164";
  "4572,0.92813415,57442.27356";
  "4572,0.963950592,58668.60878";
  "4572,0.997380696,59891.02561";
  "4572,1.028422928,61025.75876";
  "4572,1.059466246,62219.77196";
  "4572,1.090510626,63471.77653";
  "4572,1.119167135,64636.09741";
  "4572,1.14398191,65740.8138";
  "4572,1.178870273,67175.27863";
  "4572,1.224233104,68474.07597";
  "4572,1.274364508,69556.6955";
  "4572,1.326877782,70399.24793";
  "4572,1.374610323,70793.93217";
  "4572,1.450968064,70643.07075";
  "4572,1.489131203,69708.52437";
  "4572,1.504881399,68519.37028";
  "6096,0.03341225,33540.78386";
  "6096,0.109216123,34020.0769";
  "6096,0.161721648,34439.46813";
  "6096,0.214229516,34986.79181";
  "6096,0.266739096,35627.6046";
  "6096,0.319249938,36337.3041";
  "6096,0.371762671,37150.33366";
  "6096,0.424277807,38094.57601";
  "6096,0.47679458,39128.20705";
  "6096,0.529313034,40253.68705";
  "6096,0.577060412,41458.6102";
  "6096,0.622420953,42632.31802";
  "6096,0.667783475,43914.27639";
  "6096,0.708372143,45123.96314";
  "6096,0.746573595,46281.72754";
  "6096,0.784776037,47493.61721";
  "6096,0.822978232,48691.97556";
  "6096,0.861181046,49924.16221";
  "6096,0.89699793,51174.66049";
  "6096,0.93042676,52327.48769";
  "6096,0.966242564,53519.02809";
  "6096,0.999672101,54710.5162";
  "6096,1.030714806,55871.02328";
  "6096,1.064144909,57093.44011";
  "6096,1.09757473,58300.39258";
  "6096,1.131004551,59507.34505";
  "6096,1.164434655,60729.76188";
  "6096,1.200251184,61960.92971";
  "6096,1.238453875,63186.3507";
  "6096,1.276657432,64459.1313";
  "6096,1.31724599,65662.80413";
  "6096,1.364990565,66714.6457";
  "6096,1.417493567,66996.26351";
  "6096,1.466415158,66529.33543";
  "6096,1.510522139,65041.59244";
  "6096,1.536748806,63826.15324";
  "6096,1.560590264,62668.39538";
  "6096,1.586816766,61443.93531";
  "6096,1.615428675,60172.61897";
  "6096,1.644041576,58955.4279";
  "6096,1.672656129,57828.44561";
  "6096,1.703654612,56573.93462";
  "6096,1.737040117,55360.71423";
  "6096,1.776426396,54149.14182";
  "9144,0.1889207,22702.61481";
  "9144,0.26174483,23518.20061";
  "9144,0.31425486,24183.61579";
  "9144,0.366765251,24868.7129";
  "9144,0.419277083,25632.53767";
  "9144,0.471789547,26430.80579";
  "9144,0.52430282,27273.35823";
  "9144,0.576817085,28170.03594";
  "9144,0.629333062,29160.20276";
  "9144,0.681850391,30224.17676";
  "9144,0.73436871,31342.27604";
  "9144,0.784502151,32536.0984";
  "9144,0.829863286,33742.28138";
  "9144,0.872837119,34891.88123";
  "9144,0.913425195,36069.24317";
  "9144,0.951627142,37254.0702";
  "9144,0.989828841,38425.36592";
  "9144,1.025645088,39641.06939";
  "9144,1.059074909,40848.02185";
  "9144,1.090117825,42020.12721";
  "9144,1.121161025,43207.69693";
  "9144,1.152205028,44439.08234";
  "9144,1.180862197,45639.48674";
  "9144,1.207132802,46823.60126";
  "9144,1.233404002,48040.19094";
  "9144,1.262061502,49258.63709";
  "9144,1.290719002,50477.08324";
  "9144,1.321761895,51647.8999";
  "9144,1.362349751,52813.25547";
  "9144,1.412481642,53922.44559";
  "9144,1.464996537,54853.56665";
  "9144,1.517504856,55425.49273";
  "9144,1.570005786,55593.93951";
  "9144,1.622499329,55358.907";
  "9144,1.672596333,54562.88756";
  "9144,1.715525595,53278.35366";
  "9144,1.75129811,52105.77952";
  "9144,1.782297372,50893.79553";
  "9144,1.813295737,49632.84106";
  "9144,1.846678269,48257.24485";
  "9144,1.877677507,47043.97217";
  "9144,1.908677028,45846.16384";
  "9144,1.942062109,44609.74691";
  "9144,1.987348423,43077.37431";
  "10668,0.23218327,18287.9277";
  "10668,0.290295337,18893.57766";
  "10668,0.342803656,19465.50374";
  "10668,0.395312695,20076.79366";
  "10668,0.447823266,20771.73172";
  "10668,0.500334918,21525.71553";
  "10668,0.552847111,22309.22222";
  "10668,0.605359574,23107.49034";
  "10668,0.657873028,23959.88374";
  "10668,0.710388194,24905.76624";
  "10668,0.762905072,25945.13785";
  "10668,0.815424112,27102.60096";
  "10668,0.865557913,28316.10524";
  "10668,0.910918993,29519.28127";
  "10668,0.953893102,30683.91591";
  "10668,0.994480834,31842.48435";
  "10668,1.032682781,33027.31138";
  "10668,1.070885719,34266.26369";
  "10668,1.106702125,35490.66586";
  "10668,1.140131662,36682.15397";
  "10668,1.173562474,37943.23171";
  "10668,1.204606099,39153.99797";
  "10668,1.235649157,40333.83551";
  "10668,1.269080818,41641.30634";
  "10668,1.297738191,42852.79353";
  "10668,1.324009292,44063.97068";
  "10668,1.355052963,45277.31434";
  "10668,1.390868201,46437.92601";
  "10668,1.436228982,47624.75511";
  "10668,1.488746581,48703.49055";
  "10668,1.541258593,49477.15628";
  "10668,1.59376547,49970.35469";
  "10668,1.646266941,50168.32435";
  "10668,1.698762826,50061.2243";
  "10668,1.751247179,49324.3029";
  "10668,1.796564261,48124.69957";
  "10668,1.832337449,46988.85329";
  "10668,1.865722388,45744.70417";
  "10668,1.896719903,44437.35661";
  "10668,1.922945414,43158.77127";
  "10668,1.957568114,41470.18507";
  "12192,0.217521053,13689.20981";
  "12192,0.285435678,14135.36965";
  "12192,0.337941114,14549.8404";
  "12192,0.39044718,14998.75449";
  "12192,0.442954057,15491.95291";
  "12192,0.495462015,16044.19707";
  "12192,0.547970604,16630.88459";
  "12192,0.600480724,17301.22025";
  "12192,0.652992467,18060.12455";
  "12192,0.70550565,18897.7565";
  "12192,0.758019555,19774.7523";
  "12192,0.810535802,20779.68055";
  "12192,0.863053311,21853.49551";
  "12192,0.915572171,23001.11767";
  "12192,0.965705098,24166.89329";
  "12192,1.013452632,25380.34528";
  "12192,1.058814284,26614.79368";
  "12192,1.099402732,27812.45259";
  "12192,1.137604679,28997.27963";
  "12192,1.175806874,30195.63798";
  "12192,1.214009069,31393.99633";
  "12192,1.249826306,32663.82507";
  "12192,1.283256269,33878.50972";
  "12192,1.316686656,35116.39092";
  "12192,1.352502973,36335.96048";
  "12192,1.397864103,37541.85643";
  "12192,1.450381611,38615.6714";
  "12192,1.502893083,39359.81425";
  "12192,1.555400141,39862.85362";
  "12192,1.607903684,40173.9943";
  "12192,1.660403713,40293.23629";
  "12192,1.712899959,40205.81816";
  "12192,1.76539287,39936.34229";
  "12192,1.817879385,39317.51239";
  "12192,1.867972677,38318.7692";
  "12192,1.908517605,37139.7273";
  "12192,1.939517599,35967.69291";
  "12192,1.965742663,34664.7512";
  "12192,1.987612125,33450.72594";
  "13716,0.424670369,11477.28504";
  "13716,0.495387323,11965.11978";
  "13716,0.547893209,12404.19292";
  "13716,0.600400446,12917.07325";
  "13716,0.652908314,13464.39694";
  "13716,0.705418525,14139.65308";
  "13716,0.757929456,14854.27306";
  "13716,0.81044219,15667.30262";
  "13716,0.862956094,16544.29842";
  "13716,0.915472071,17534.46523";
  "13716,0.96798967,18613.20067";
  "13716,1.018121597,19724.35898";
  "13716,1.065868139,20883.6857";
  "13716,1.113615773,22102.55021";
  "13716,1.158974937,23201.08404";
  "13716,1.204335532,24377.79882";
  "13716,1.252082174,25542.53806";
  "13716,1.302215308,26719.63079";
  "13716,1.354734709,27896.77582";
  "13716,1.407249425,28818.05592";
  "13716,1.459762608,29655.68788";
  "13716,1.512272819,30330.94403";
  "13716,1.564780867,30888.10867";
  "13716,1.617286843,31332.10229";
  "13716,1.669789756,31608.79962";
  "13716,1.722286361,31541.0634";
  "13716,1.774774678,31020.64309";
  "13716,1.827253805,29998.33389";
  "13716,1.874958566,28875.87037";
  "13716,1.913117973,27737.49899";
  "13716,1.946503761,26539.74296";
  "13716,1.981413837,24975.93355";
  "15240,0.492842402,9063.949525";
  "15240,0.562157831,9511.264902";
  "15240,0.614662996,9910.974209";
  "15240,0.667168612,10335.28591";
  "15240,0.719675398,10823.56385";
  "15240,0.772183176,11365.96705";
  "15240,0.824691765,11952.65457";
  "15240,0.877201886,12622.99023";
  "15240,0.929712547,13322.84877";
  "15240,0.982224379,14086.67355";
  "15240,1.034737473,14919.38503";
  "15240,1.087251017,15776.6989";
  "15240,1.139766273,16727.50188";
  "15240,1.192282881,17752.11205";
  "15240,1.244800209,18816.08606";
  "15240,1.297316366,19816.09383";
  "15240,1.349833785,20884.98832";
  "15240,1.4023485,21806.26842";
  "15240,1.454860603,22584.85463";
  "15240,1.507369192,23171.54215";
  "15240,1.559874898,23600.77433";
  "15240,1.612378351,23906.99453";
  "15240,1.66487838,24026.23652";
  "15240,1.717377238,24081.51228";
  "15240,1.769871952,23910.446";
  "15240,1.822360719,23414.62808";
  "15240,1.874841828,22500.56944";
  "15240,1.917772992,21319.8928";
  "15240,1.940919111,20438.08787";
  "18288,0.618129267,5266.961898";
  "18288,0.690946766,5720.399337";
  "18288,0.74345121,6080.74481";
  "18288,0.795956105,6465.692679";
  "18288,0.848462081,6909.686299";
  "18288,0.900968597,7383.202795";
  "18288,0.953475474,7876.401208";
  "18288,1.005983162,8413.883933";
  "18288,1.058489949,8902.161867";
  "18288,1.110997006,9405.201238";
  "18288,1.163503883,9898.399651";
  "18288,1.216011571,10435.88238";
  "18288,1.268518087,10909.39887";
  "18288,1.321024604,11382.91537";
  "18288,1.37353058,11826.90899";
  "18288,1.426035024,12187.25446";
  "18288,1.478537667,12449.19035";
  "18288,1.531040579,12725.88768";
  "18288,1.58354187,12914.01638";
  "18288,1.63604253,13067.70172";
  "18288,1.688541118,13108.21604";
  "18288,1.741038895,13104.44605";
  "18288,1.793536492,13090.8351";
  "18288,1.846030034,12855.80259";
  "18288,1.898519071,12374.74611";
  "18288,1.951003334,11632.90424";
  "18288,1.989300732,10919.57062";
  ""].

(* ADRpy/data/engine_data/Jet_CSVs/FJ-44_Sea_level_thrust_polynomial.csv *)
Definition lines_FJ_44_Sea_level_thrust_polynomial : list string := [
  "8526.756233351993,-11334.63479512831,31226.40910362144,-171637.93528085636,723795.4501107973,-1844694.6289663175,2470653.960548433,-1327549.1279245391";
  "0,0.510536663,,,,,,";
  ""].

(* ADRpy/data/engine_data/Jet_CSVs/FJ-44_TSFC_data.csv *)
Definition lines_FJ_44_TSFC_data : list string := [
  "TSFC (g/(kNs)),Mach Number,Thrust (N)";
  "14.1628,0.044477652,7895.950687";
  "14.1628,0.048281848,7606.496081";
  "14.1628,0.05132742,7349.558768";
  "14.1628,0.057955761,6656.985298";
  "14.1628,0.054374129,7079.609338";
  "14.1628,0.056662215,6842.177201";
  "14.1628,0.058969167,6388.743922";
  "14.1628,0.059755805,6035.477946";
  "14.1628,0.060533938,5779.585979";
  "14.1628,0.060561877,5459.704771";
  "14.1628,0.060585649,5187.534658";
  "14.1628,0.060684185,5099.300956";
  "14.1628,0.040748814,8110.915052";
  "16.99536,0.20632344,6656.07533";
  "16.99536,0.210116838,6490.235835";
  "16.99536,0.213910805,6317.890281";
  "16.99536,0.218462163,6127.123894";
  "16.99536,0.223771197,5914.683644";
  "16.99536,0.227566015,5732.579002";
  "16.99536,0.232117752,5537.475243";
  "16.99536,0.238943653,5264.337779";
  "16.99536,0.24349608,5061.333806";
  "16.99536,0.249568066,4766.806293";
  "16.99536,0.253364306,4568.436505";
  "16.99536,0.256401638,4405.83704";
  "16.99536,0.262473589,4111.722611";
  "16.99536,0.267032018,3839.99194";
  "16.99536,0.270830815,3612.34489";
  "16.99536,0.273872978,3394.443927";
  "16.99536,0.278431818,3118.014437";
  "16.99536,0.281473128,2909.872562";
  "16.99536,0.284510745,2744.020067";
  "16.99536,0.286042197,2516.334019";
  "16.99536,0.28908436,2298.433057";
  "16.99536,0.291149431,2212.270011";
  "16.99536,0.202689237,6827.469735";
  "19.82792,0.365873896,5736.584355";
  "19.82792,0.380257186,5468.456427";
  "19.82792,0.397669569,5132.06688";
  "19.82792,0.410540348,4874.756384";
  "19.82792,0.418724019,4696.269804";
  "19.82792,0.432500727,4386.09463";
  "19.82792,0.443103547,4135.793366";
  "19.82792,0.455221339,3846.48175";
  "19.82792,0.467340267,3544.158017";
  "19.82792,0.47205462,1487.237191";
  "19.82792,0.476429535,3316.60196";
  "19.82792,0.486276042,3072.360018";
  "19.82792,0.493198035,1699.048067";
  "19.82792,0.499152988,2744.458788";
  "19.82792,0.50369819,2624.174701";
  "19.82792,0.512032339,2389.015243";
  "19.82792,0.512069465,1963.952756";
  "19.82792,0.518853456,2170.637104";
  "19.82792,0.51810492,2087.67186";
  "19.82792,0.361560837,5822.184529";
  "19.82792,0.464288555,1416.897888";
  "22.66048,0.523343822,4841.455352";
  "22.66048,0.534123369,4731.037596";
  "22.66048,0.553414551,4516.669144";
  "22.66048,0.577168395,4261.714521";
  "22.66048,0.600317473,4008.376013";
  "22.66048,0.629064164,3699.832202";
  "22.66048,0.653120804,3439.352629";
  "22.66048,0.675966849,3194.24993";
  "22.66048,0.700174967,2930.08619";
  "22.66048,0.72060073,2705.327543";
  "22.66048,0.723726181,1533.855277";
  "22.66048,0.731269184,1703.576526";
  "22.66048,0.744052253,2450.476155";
  "22.66048,0.745601984,2013.511892";
  "22.66048,0.755997606,2308.174491";
  "22.66048,0.753898533,2208.836637";
  "22.66048,0.720727328,1463.645269";
  "22.66048,0.749687094,2383.455534";
  "22.66048,0.511519505,4971.980754";
  ""].

(* ADRpy/data/engine_data/Jet_CSVs/FJ-44_Thrust_data.csv *)
Definition lines_FJ_44_Thrust_data : list string := [
  "Altitude (m),Mach Number,Thrust (N)";
  "0,0.012691766,8388.419378";
  "0,0.027064616,8239.822201";
  "0,0.042949799,8082.431699";
  "0,0.056564475,7961.219258";
  "0,0.073204273,7817.189033";
  "0,0.089843866,7675.524646";
  "0,0.106483148,7537.40902";
  "0,0.123121862,7405.799451";
  "0,0.139760215,7278.330102";
  "0,0.156398412,7152.635132";
  "0,0.173036041,7033.44622";
  "0,0.189673516,6916.031689";
  "0,0.207229658,6795.744892";
  "0,0.222947689,6690.074523";
  "0,0.239584388,6581.531889";
  "0,0.256221294,6470.623416";
  "0,0.272857839,6363.855161";
  "0,0.289494331,6257.678367";
  "0,0.306130566,6154.458872";
  "0,0.322766645,6053.013756";
  "0,0.339402931,5949.202801";
  "0,0.353014062,5868.575773";
  "0,0.372674677,5751.044249";
  "0,0.389310601,5651.373513";
  "0,0.405946319,5554.068617";
  "0,0.422582037,5456.76372";
  "0,0.43921729,5364.781962";
  "0,0.455852439,5273.983124";
  "0,0.472487796,5180.818447";
  "0,0.48912279,5091.793988";
  "0,0.005901338,8460.993858";
  "0,0.510536663,4978.011956";
  "3048,0.0324786,6825.791813";
  "3048,0.046846573,6733.031733";
  "3048,0.070289013,6582.168846";
  "3048,0.08692535,6477.766431";
  "3048,0.103561792,6372.181096";
  "3048,0.120197819,6271.327441";
  "3048,0.13683364,6172.839624";
  "3048,0.153469565,6073.168888";
  "3048,0.170105231,5976.455452";
  "3048,0.186740794,5880.924935";
  "3048,0.203376305,5785.985878";
  "3048,0.217743128,5706.38578";
  "3048,0.244207829,5565.481842";
  "3048,0.26084272,5477.640303";
  "3048,0.277477457,5391.573144";
  "3048,0.29411178,5310.237664";
  "3048,0.310746103,5228.902184";
  "3048,0.327380322,5148.749623";
  "3048,0.344014077,5073.920201";
  "3048,0.360647677,5000.865159";
  "3048,0.37728107,4930.175956";
  "3048,0.393914308,4861.261133";
  "3048,0.405254802,4818.27955";
  "3048,0.430203756,4725.257863";
  "3048,0.446382161,4671.949781";
  "3048,0.462711702,4618.880882";
  "3048,0.480099492,4564.055803";
  "3048,0.496732472,4498.098279";
  "3048,0.51336447,4443.378492";
  "3048,0.529996314,4390.433085";
  "3048,0.546628054,4338.670598";
  "3048,0.563259742,4287.499571";
  "3048,0.595010729,4194.594876";
  "3048,0.611642211,4145.789688";
  "3048,0.628273434,4099.941799";
  "3048,0.644904709,4053.502451";
  "3048,0.661535829,4008.837482";
  "3048,0.678167156,3961.806674";
  "3048,0.694798328,3916.550245";
  "3048,0.706137402,3889.833808";
  "3048,0.009968622,6975.595064";
  "6096,0.023546481,5254.126972";
  "6096,0.040179668,5185.803609";
  "6096,0.051520627,5137.498887";
  "6096,0.074958534,5038.536603";
  "6096,0.091591514,4972.579079";
  "6096,0.108224958,4901.298416";
  "6096,0.124101795,4839.468112";
  "6096,0.140146589,4777.574979";
  "6096,0.158123433,4708.748983";
  "6096,0.174907363,4645.159899";
  "6096,0.19306885,4577.52";
  "6096,0.209533522,4515.634089";
  "6096,0.227526806,4450.882883";
  "6096,0.244310115,4394.391317";
  "6096,0.262238448,4331.582365";
  "6096,0.277574525,4280.220065";
  "6096,0.296172113,4219.14631";
  "6096,0.31234993,4172.58087";
  "6096,0.328982083,4116.086704";
  "6096,0.345613978,4062.549837";
  "6096,0.362245512,4013.153189";
  "6096,0.378876735,3967.305301";
  "6096,0.3955077,3924.414711";
  "6096,0.412138459,3883.889961";
  "6096,0.428768959,3846.322511";
  "6096,0.444643181,3814.420076";
  "6096,0.469588239,3765.994462";
  "6096,0.486217965,3737.29891";
  "6096,0.502847793,3707.420437";
  "6096,0.519477157,3682.865104";
  "6096,0.536107037,3652.395172";
  "6096,0.552736401,3627.839838";
  "6096,0.569365661,3604.467424";
  "6096,0.585995128,3578.729171";
  "6096,0.60262444,3554.765297";
  "6096,0.619253856,3529.618504";
  "6096,0.63512735,3506.055653";
  "6096,0.663095281,3460.580189";
  "6096,0.679725316,3428.335877";
  "6096,0.696354887,3401.414704";
  "6096,0.712984818,3370.353312";
  "6096,0.729614285,3344.615059";
  "6096,0.746243959,3316.510966";
  "6096,0.762873581,3288.998333";
  "6096,0.779503203,3261.4857";
  "6096,0.797157114,3227.785962";
  "6096,0.011138602,5307.148784";
  "9144,0.194184409,3082.612294";
  "9144,0.219297737,3050.310156";
  "9144,0.234792821,3032.684977";
  "9144,0.251820542,3014.182539";
  "9144,0.268113222,2998.559043";
  "9144,0.294769542,2971.258296";
  "9144,0.312456401,2953.582096";
  "9144,0.329084524,2943.221799";
  "9144,0.348735981,2930.547659";
  "9144,0.365363847,2923.144661";
  "9144,0.381991505,2918.107503";
  "9144,0.398619578,2908.338666";
  "9144,0.415247082,2905.075888";
  "9144,0.431875257,2894.124131";
  "9144,0.448503019,2887.904053";
  "9144,0.465130885,2880.501055";
  "9144,0.481002695,2876.219796";
  "9144,0.505944225,2868.190891";
  "9144,0.522571935,2862.562273";
  "9144,0.539199749,2855.750735";
  "9144,0.555827305,2851.896496";
  "9144,0.572455222,2843.902039";
  "9144,0.589083294,2834.133202";
  "9144,0.605710798,2830.870423";
  "9144,0.622338663,2823.467426";
  "9144,0.638966374,2817.838808";
  "9144,0.655594653,2805.704131";
  "9144,0.67222288,2794.160915";
  "9144,0.688851262,2780.843318";
  "9144,0.703212371,2766.673468";
  "9144,0.734353454,2734.190784";
  "9144,0.75083129,2713.891362";
  "9144,0.767460292,2693.476247";
  "9144,0.780566416,2671.926045";
  "10999.9272,0.249343666,2268.605319";
  "10999.9272,0.27170686,2235.439332";
  "10999.9272,0.28581641,2217.050996";
  "10999.9272,0.304964503,2198.749322";
  "10999.9272,0.321592885,2185.431725";
  "10999.9272,0.338220957,2175.662888";
  "10999.9272,0.354848461,2172.40011";
  "10999.9272,0.371476482,2163.222733";
  "10999.9272,0.388103676,2163.508713";
  "10999.9272,0.40473087,2163.794694";
  "10999.9272,0.421358064,2164.080674";
  "10999.9272,0.437985258,2164.366655";
  "10999.9272,0.454612451,2164.652635";
  "10999.9272,0.471239232,2169.670295";
  "10999.9272,0.487865703,2178.236714";
  "10999.9272,0.503737115,2178.509695";
  "10999.9272,0.533211614,2190.254398";
  "10999.9272,0.549838136,2198.229357";
  "10999.9272,0.56646471,2205.612856";
  "10999.9272,0.583091284,2212.996355";
  "10999.9272,0.599717755,2221.562773";
  "10999.9272,0.616343916,2233.677951";
  "10999.9272,0.632970128,2245.201669";
  "10999.9272,0.649898788,2255.192791";
  "10999.9272,0.666222553,2268.249105";
  "10999.9272,0.682848869,2278.589903";
  "10999.9272,0.699475288,2287.747782";
  "10999.9272,0.71610181,2295.722741";
  "10999.9272,0.732728694,2299.55748";
  "10999.9272,0.744065417,2299.752467";
  "10999.9272,0.769005692,2306.096037";
  "10999.9272,0.786656581,2306.991085";
  "12192,0.315333129,1796.734348";
  "12192,0.338255053,1785.29938";
  "12192,0.35185912,1785.533364";
  "12192,0.372350334,1772.873668";
  "12192,0.388137771,1773.145205";
  "12192,0.404764965,1773.431185";
  "12192,0.420636377,1773.704167";
  "12192,0.434995848,1778.288522";
  "12192,0.45464541,1787.301244";
  "12192,0.471272604,1787.587225";
  "12192,0.494700696,1801.002314";
  "12192,0.515408314,1810.466972";
  "12192,0.531732545,1818.200147";
  "12192,0.548358912,1827.949485";
  "12192,0.558939854,1828.131473";
  "12192,0.577833256,1841.468568";
  "12192,0.598994003,1854.84466";
  "12192,0.620910531,1868.233752";
  "12192,0.638832539,1877.836386";
  "12192,0.651644321,1883.943186";
  "12192,0.67078984,1895.115927";
  "12192,0.687416465,1901.907966";
  "12192,0.705554654,1908.726004";
  "12192,0.719914503,1908.972987";
  "12192,0.753923536,1922.570064";
  "12192,0.77055073,1922.856045";
  "12192,0.787177924,1923.142025";
  "12192,0.798514648,1923.337012";
  "13716,0.396877427,1421.967838";
  "13716,0.417795491,1417.773372";
  "13716,0.435028049,1409.611875";
  "13716,0.449387898,1409.858859";
  "13716,0.474328689,1410.28783";
  "13716,0.490955625,1413.531109";
  "13716,0.507581941,1423.871908";
  "13716,0.524209135,1424.157888";
  "13716,0.540836329,1424.443869";
  "13716,0.557463471,1425.321309";
  "13716,0.574089735,1436.253567";
  "13716,0.590716774,1438.313928";
  "13716,0.606000356,1438.576799";
  "13716,0.624574764,1450.607193";
  "13716,0.640597219,1452.183986";
  "13716,0.657224413,1452.469967";
  "13716,0.673851607,1452.755948";
  "13716,0.690478801,1453.041928";
  "13716,0.706098287,1453.310577";
  "13716,0.735825694,1453.821875";
  "13716,0.752452888,1454.107856";
  "13716,0.769080721,1447.074521";
  "13716,0.785708412,1441.6677";
  "13716,0.807175074,1432.277815";
  ""].

(* ADRpy/data/engine_data/Jet_CSVs/J52_Sea_level_thrust_polynomial.csv *)
Definition lines_J52_Sea_level_thrust_polynomial : list string := [
  "36641.580708920155,-25294.28862223804,45326.8438150463,9187.496083250477,-181083.5707803226,355466.25806617836,-306384.2103587093,96453.78427228938";
  "0,0.955730393553312,,,,,,";
  ""].

(* ADRpy/data/engine_data/Jet_CSVs/J52_TSFC_data.csv *)
Definition lines_J52_TSFC_data : list string := [
  "TSFC (g/(kNs)),Velocity (m/s),Thrust (N),Mach Number";
  "24.07676,56.14903724,33578.08071,";
  "24.07676,58.21359174,30619.97489,0.173263931";
  "24.07676,60.96633108,27817.66638,0.183669894";
  "24.07676,64.75134766,24870.29493,0.197707813";
  "24.07676,70.06824899,21734.2633,0.217325438";
  "24.07676,73.6977505,19561.12262,0.231449959";
  "24.07676,78.17095191,17350.07011,0.249098253";
  "24.07676,81.26778366,15558.78994,0.26226646";
  "24.07676,86.42916992,14020.84007,0.282043619";
  "24.07676,90.92563737,12551.62263,0.300276069";
  "24.07676,94.3432955,7915.041033,";
  "24.07676,99.16058933,10295.99468,0.334310298";
  "24.07676,98.4724045,8958.603103,";
  "24.07676,95.00576524,11626.4461,0.316245917";
  "24.07676,99.72019871,9642.392666,0.337954959";
  "25.49304,97.40706499,32613.81983,";
  "25.49304,97.09603483,31269.56464,0.287035065";
  "25.49304,99.16058933,29431.6593,0.295506847";
  "25.49304,101.2251438,27675.32337,0.304124339";
  "25.49304,103.9778832,25666.6172,0.315389619";
  "25.49304,107.7628998,23435.69704,0.330589855";
  "25.49304,112.0707899,21378.33549,0.347659626";
  "25.49304,117.7415798,19040.84444,0.370316741";
  "25.49304,121.8706888,17481.75984,0.387095938";
  "25.49304,124.2364773,6510.352137,0.421041416";
  "25.49304,128.7525372,15537.20024,0.414582948";
  "25.49304,133.6681431,7198.515746,0.453005634";
  "25.49304,134.2580158,14569.31838,0.43566179";
  "25.49304,140.7957718,8314.053775,0.477161397";
  "25.49304,141.1398642,13077.27477,0.464213712";
  "25.49304,146.7357538,10189.36537,0.497292187";
  "25.49304,146.7114674,11498.02483,0.490454157";
  "26.90932,134.6253743,32274.93791,";
  "26.90932,138.7312173,29692.92981,0.412791652";
  "26.90932,142.1721414,27746.23549,0.427180336";
  "26.90932,147.3335277,25598.55431,0.447653729";
  "26.90932,153.5271912,23376.16381,0.472333656";
  "26.90932,155.2709193,2473.211191,";
  "26.90932,159.3767623,21660.54768,0.495296833";
  "26.90932,169.6664725,4025.209465,0.57500513";
  "26.90932,170.3877196,19431.4934,0.53686837";
  "26.90932,176.4106839,4767.704302,0.597861479";
  "26.90932,178.3018452,17980.49134,0.567447982";
  "26.90932,180.7104921,5444.666059,0.612433668";
  "26.90932,188.2805253,16144.19909,0.607602352";
  "26.90932,190.6891722,6907.331011,0.646251735";
  "26.90932,194.808485,7587.8156,0.660212219";
  "26.90932,197.9151129,14301.37175,0.649351196";
  "26.90932,199.9796674,8494.60503,0.677737522";
  "26.90932,203.5298807,12197.80636,0.682169788";
  "26.90932,203.764684,10172.21888,0.690565065";
  "26.90932,204.4528689,11211.36422,0.692166009";
  "28.3256,184.3069313,32248.48004,";
  "28.3256,186.9041556,30687.714,0.553910158";
  "28.3256,191.377357,28883.48889,0.573052759";
  "28.3256,197.9151129,26865.60924,0.599937027";
  "28.3256,206.8615158,24893.64523,0.635122441";
  "28.3256,216.152011,23397.96649,0.670570243";
  "28.3256,221.1578822,2535.338532,";
  "28.3256,227.1629684,22019.91152,0.711594175";
  "28.3256,228.0231994,3498.934277,0.772777954";
  "28.3256,235.4211864,4470.790313,0.79784997";
  "28.3256,237.8298333,21194.82225,0.750150754";
  "28.3256,242.3030347,5154.866596,0.821172775";
  "28.3256,250.2171603,19926.65979,0.796946742";
  "28.3256,254.0021769,6462.952741,0.860821544";
  "28.3256,261.8171157,18156.54471,0.845528308";
  "28.3256,265.4564134,7858.601109,0.899640319";
  "28.3256,269.830428,15693.03818,0.889895611";
  "28.3256,270.5186129,8966.504506,0.916796276";
  "28.3256,273.959537,13131.7622,0.924919545";
  "28.3256,271.7064052,14825.1458,0.902976821";
  "28.3256,273.6154446,11620.00894,0.927291538";
  "28.3256,273.6154446,10420.93868,0.927291538";
  "29.74188,232.7247753,32454.81277,";
  "29.74188,243.6794044,30691.15882,0.725161603";
  "29.74188,254.3462693,29325.915,0.765126671";
  "29.74188,265.701319,28035.96896,0.807263076";
  "29.74188,284.2823095,26312.64496,0.876449181";
  "29.74188,294.1152708,25597.99922,0.912303423";
  "29.74188,300.8085418,25119.85456,0.937062441";
  "29.74188,303.5514849,3915.428168,1.028745742";
  "29.74188,308.3687787,24504.80753,0.965473698";
  "29.74188,315.250627,4950.438452,1.06839451";
  "29.74188,319.379736,23736.19256,1.006622896";
  "29.74188,322.4435055,5481.189047,1.092771407";
  "29.74188,329.047386,6145.237585,1.11515217";
  "29.74188,331.0788782,22539.97436,1.05434632";
  "29.74188,339.3370962,6951.785191,1.150024329";
  "29.74188,342.1559601,21157.78921,1.103387748";
  "29.74188,346.563037,20318.24432,1.125933533";
  "29.74188,350.0039611,7857.496743,1.186174677";
  "29.74188,354.4771626,18724.39903,1.167561839";
  "29.74188,361.7031033,8857.31851,";
  "29.74188,362.7353806,15803.74432,1.222168714";
  "29.74188,365.4881199,13173.19281,1.238650989";
  "29.74188,367.5526744,10086.53918,";
  "29.74188,368.5849516,11555.75744,1.249146251";
  "29.74188,295.0863216,3261.395067,1.000057031";
  "31.15816,295.9814517,31462.7737,0.874004012";
  "31.15816,300.7987455,31197.18268,0.889915326";
  "31.15816,315.250627,30092.67051,0.940801063";
  "31.15816,334.5198024,28650.26717,1.012825789";
  "31.15816,355.8535322,26916.06949,1.095014209";
  "31.15816,359.9826412,26616.11989,1.11010022";
  "31.15816,379.9400014,24727.92795,1.191206258";
  "31.15816,386.1336649,24075.00696,1.218129264";
  "31.15816,401.2737312,22604.42174,1.28304377";
  "31.15816,406.4351175,22015.36506,";
  "31.15816,419.1665369,20325.80729,";
  "31.15816,427.8484417,19041.8263,";
  "31.15816,433.1249335,18141.88575,";
  "31.15816,284.5862306,32158.05169,";
  ""].

(* ADRpy/data/engine_data/Jet_CSVs/J52_Thrust_data.csv *)
Definition lines_J52_Thrust_data : list string := [
  "Altitude (m),Velocity (m/s),Thrust (N),Mach Number";
  "0,-0.18464666,36674.15568,-0.0005426092334779769";
  "0,10.38474582,35892.62569,0.030516982918910227";
  "0,17.95477898,35415.94517,0.05276255124032188";
  "0,25.52481215,34978.195510000005,0.07500811959111987";
  "0,33.09484532,34618.30755,0.09725368794191788";
  "0,40.66487849,34269.542689999995,0.11949925629271589";
  "0,48.23491166,33948.58558,0.1417448246435139";
  "0,56.21785573,33666.04059,0.16520378763109383";
  "0,63.37497799,33434.58703,0.18623596131572354";
  "0,70.94501116,33191.491630000004,0.2084815296665216";
  "0,78.51504433,33004.01173,0.23072709801731955";
  "0,86.0850775,32822.093389999995,0.25297266636811755";
  "0,92.62283342,32702.64895,0.2721847481269607";
  "0,102.6015135,32551.073910000003,0.30150845183939584";
  "0,110.1715467,32447.01727,0.3237540202783529";
  "0,117.7415798,32409.699230000002,0.3459995884234464";
  "0,125.311613,32322.32724,0.3682451568624035";
  "0,131.8493689,32286.306060000003,0.38745723856247394";
  "0,141.1398642,32280.1959,0.41475861803699976";
  "0,148.70989730000002,32265.124060000002,0.4370041861820933";
  "0,156.2799305,32250.05223,0.45924975462105033";
  "0,163.8499637,32246.103489999998,0.48149532306000736";
  "0,171.4199968,32236.593210000003,0.5037408912051009";
  "0,178.30184519999997,32234.744939999997,0.5239641353473758";
  "0,189.3128025,32247.48365,0.5563213255636069";
  "0,196.8828357,32326.958169999998,0.5785668940025639";
  "0,204.4528689,32317.447889999996,0.6008124624415211";
  "0,212.022902,32330.183810000002,0.6230580305866146";
  "0,219.5929352,32420.781430000003,0.6453035990255717";
  "0,227.16296839999998,32433.51734,0.6675491674645286";
  "0,241.6148499,32476.5384,0.7100179797518972";
  "0,249.184883,32500.397419999998,0.7322635478969908";
  "0,256.7549162,32490.887130000003,0.7545091163359479";
  "0,264.3249494,32386.830489999997,0.7767546847749048";
  "0,271.8949825,32338.38935,0.7990002529199984";
  "0,279.4650157,32223.20961,0.8212458213589554";
  "0,284.97049439999995,32130.645160000004,0.8374244166140026";
  "0,298.04600619999997,31921.788660000002,0.8758485800141435";
  "0,305.6160394,31728.747219999997,0.8980941484531005";
  "0,313.1860725,31468.96717,0.9203397165981942";
  "0,320.7561057,31187.09925,0.9425852850371511";
  "0,325.2293071,31012.16892,0.9557303935533119";
  "4572,47.65938342,22203.63091,0.14788710611525122";
  "4572,57.86949933,21934.655880000002,0.17956910421675298";
  "4572,64.75134766,21773.37651,0.20092348526862128";
  "4572,75.07412016,21557.10237,0.2329550568619388";
  "4572,82.64415333,21458.60728,0.25644487604071486";
  "4572,90.2141865,21387.91994,0.27993469521949105";
  "4572,97.78421967,21350.601909999998,0.3034245143982672";
  "4572,105.0101604,21320.39001,0.3258466144515294";
  "4572,117.053395,21359.76321,0.36321678136211644";
  "4572,124.6234282,21422.55308,0.38670660063398266";
  "4572,132.1934613,21474.21985,0.4101964195955487";
  "4572,139.7634945,21587.06367,0.43368623886741486";
  "4572,147.3335277,21683.222840000002,0.45717605813928097";
  "4572,152.8390063,21798.66038,0.4742595627821836";
  "4572,163.8499637,22018.41236,0.5084265726885889";
  "4572,171.4199968,22164.625480000002,0.531916391650155";
  "4572,178.99003000000002,22355.331009999998,0.5554062109220212";
  "4572,186.5600632,22507.10568,0.5788960301938874";
  "4572,194.1300964,22697.81121,0.6023858494657536";
  "4572,201.7001295,22916.32449,0.6258756684273197";
  "4572,209.2701627,23134.83777,0.6493654876991858";
  "4572,217.7577756,23409.66765,0.6757025575380023";
  "4572,224.41022900000002,23605.233640000002,0.6963451259326181";
  "4572,231.9802622,23857.11622,0.7198349452044842";
  "4572,239.55029539999998,24120.1219,0.7433247644763503";
  "4572,247.12032850000003,24366.44293,0.7668145834379165";
  "4572,254.6903617,24579.394659999998,0.7903044027097826";
  "4572,262.2603949,24814.5926,0.8137942219816487";
  "4572,269.830428,24999.736569999997,0.8372840409432148";
  "4572,277.4004612,25196.00365,0.8607738602150811";
  "4572,284.97049439999995,25358.90143,0.8842636794869471";
  "4572,290.13188060000004,25449.744280000003,0.900279465128456";
  "4572,300.1105607,25684.69698,0.9312433177203795";
  "4572,307.68059389999996,25786.4177,0.9547331369922455";
  "4572,315.250627,25899.26153,0.9782229559538117";
  "4572,322.8206602,25989.85915,1.001712775225678";
  "4572,330.3906934,26041.52592,1.025202594497544";
  "4572,337.96072660000004,26093.19269,1.0486924137694102";
  "4572,345.53075970000003,26094.8055,1.0721822327309765";
  "4572,353.10079289999993,26063.04902,1.0956720520028422";
  "4572,360.67082610000006,26009.04633,1.119161871274709";
  "4572,366.8644896,25855.87037,1.138380814230699";
  "4572,379.25181660000004,25685.37918,1.1768187001426802";
  "4572,386.8218497,25542.39169,1.200308519104246";
  "4572,394.3918829,25293.73474,1.2237983383761122";
  "4572,400.30757850000003,25060.74335,1.2421547467088228";
  "7620,75.18677675,15656.472569999998,0.2427968689332951";
  "7620,85.39689267,15391.205240000001,0.27576788170944777";
  "7620,92.96692583,15322.37175,0.30021340828229975";
  "7620,100.536959,15196.06891,0.3246589348874443";
  "7620,108.10699220000001,15175.435519999999,0.34910446158946634";
  "7620,115.6770253,15126.994380000002,0.37354998796856337";
  "7620,123.2470585,15134.16875,0.39799551467058536";
  "7620,130.54891999999998,15164.2429,0.4215750480169802";
  "7620,139.7634945,15224.65005,0.45133120905832436";
  "7620,147.3335277,15287.439919999999,0.4757767357603463";
  "7620,154.9035608,15405.845290000001,0.5002222621394434";
  "7620,162.473594,15535.373759999999,0.5246677888414654";
  "7620,170.04362719999997,15642.65604,0.5491133155434873";
  "7620,177.61366040000001,15805.55381,0.5735588422455095";
  "7620,183.119139,15936.56369,0.5913374068261391";
  "7620,196.8828357,16248.51605,0.6357838189235632";
  "7620,204.4528689,16439.221569999998,0.6602293456255852";
  "7620,212.022902,16629.9271,0.6846748720046822";
  "7620,219.5929352,16854.001930000002,0.7091203987067043";
  "7620,227.16296839999998,17072.515209999998,0.7335659254087262";
  "7620,234.7330015,17313.2747,0.7580114517878234";
  "7620,242.3030347,17531.78798,0.7824569784898454";
  "7620,249.8730679,17772.547459999998,0.8069025051918673";
  "7620,256.7549162,18017.87921,0.829125711079117";
  "7620,267.5938273,18328.77092,0.8641272604403393";
  "7620,274.64772189999996,18570.09389,0.8869060467734756";
  "7620,282.21775499999995,18833.099580000002,0.9113515731525726";
  "7620,289.78778819999997,19112.78991,0.9357970998545947";
  "7620,297.3578214,19392.48025,0.9602426265566167";
  "7620,304.92785449999997,19649.92438,0.9846881529357138";
  "7620,312.4978877,19912.93006,1.009133679637736";
  "7620,320.0679209,20203.7435,1.0335792063397578";
  "7620,327.637954,20488.99538,1.0580247327188548";
  "7620,335.2079872,20746.43951,1.0824702594208768";
  "7620,349.6598687,21206.57685,1.1291389920101484";
  "7620,357.22990189999996,21391.720830000002,1.1535845187121705";
  "7620,364.7999351,21504.56465,1.1780300454141925";
  "7620,372.3699682,21639.65467,1.2024755717932896";
  "7620,379.94000139999997,21746.93695,1.2269210984953116";
  "7620,387.51003460000004,21748.549759999998,1.2513666251973337";
  "7620,395.0800677,21683.42397,1.2758121515764305";
  "7620,402.6501009,21627.56744,1.3002576782784525";
  "7620,410.2201341,21466.04144,1.3247032049804746";
  "7620,416.6684994,21225.67994,1.3455265860622831";
  "10668,90.51542043,10219.79002,0.30524320871392374";
  "10668,103.97788320000001,10303.14327,0.35064238283900534";
  "10668,111.5479163,10360.37159,0.37617064291377994";
  "10668,119.11794950000001,10400.91526,0.4016989033257825";
  "10668,126.6879827,10485.95133,0.42722716373778497";
  "10668,134.2580158,10548.7412,0.4527554238125596";
  "10668,140.4516793,10618.82177,0.4736421822394995";
  "10668,153.52719119999998,10769.24142,0.5177364502545245";
  "10668,161.0972243,10882.08524,0.5432647103292992";
  "10668,168.6672575,10994.92907,0.5687929707413018";
  "10668,176.2372907,11079.96514,0.5943212311533042";
  "10668,183.8073239,11237.30136,0.6198494915653068";
  "10668,191.37735700000002,11366.82984,0.6453777516400815";
  "10668,198.6032978,11487.89212,0.6697456366401252";
  "10668,209.9583475,11727.233390000001,0.7080380269209011";
  "10668,217.5283807,11873.44651,0.7335662873329036";
  "10668,225.0984139,12041.905840000001,0.7590945477449061";
  "10668,232.66844700000001,12232.61137,0.7846228078196809";
  "10668,240.23848019999997,12395.50914,0.8101510682316831";
  "10668,247.8085134,12586.214670000001,0.8356793286436858";
  "10668,255.3785465,12771.35865,0.8612075887184604";
  "10668,262.9485797,12973.18728,0.8867358491304629";
  "10668,268.7981508,13118.78106,0.9064622321454441";
  "10668,279.4650157,13425.16935,0.9424338716023026";
  "10668,287.03504889999994,13649.244180000002,0.9679621320143049";
  "10668,294.605082,13856.63436,0.9934903920890797";
  "10668,302.1751152,14069.58609,1.0190186525010823";
  "10668,309.74514839999995,14293.660919999998,1.0445469129130847";
  "10668,317.3151815,14506.61265,1.0700751729878595";
  "10668,324.8852147,14741.810580000001,1.095603433399862";
  "10668,332.45524789999996,14949.20076,1.1211316938118643";
  "10668,340.02528110000003,15178.837140000001,1.1466599542238671";
  "10668,347.5953142,15363.981119999999,1.1721882142986417";
  "10668,355.1653474,15571.3713,1.1977164747106441";
  "10668,359.2944564,15605.11472,1.2116409803286041";
  "10668,370.30541370000003,15975.028559999999,1.2487729951974214";
  "10668,377.8754469,16187.980290000001,1.2743012556094238";
  "10668,385.44548010000005,16356.43962,1.2998295160214266";
  "10668,393.0155132,16558.26824,1.325357776096201";
  "10668,400.58554639999994,16682.23517,1.3508860365082034";
  "10668,409.3531681,16853.67394,1.3804528989034073";
  "13716,137.01075519999998,6557.651299,0.46433385427486684";
  "13716,144.58078830000002,6575.9487659999995,0.48998893982767855";
  "13716,152.1508215,6644.300186,0.5156440257193933";
  "13716,159.7208547,6701.528506000001,0.541299111611108";
  "13716,167.2908878,6730.949073999999,0.5669541971639196";
  "13716,174.860921,6843.792897,0.5926092830556343";
  "13716,182.4309542,6901.021216,0.618264368947349";
  "13716,187.7809178,6944.037301,0.6363955675893244";
  "13716,201.7001295,7143.767636,0.6835682235439192";
  "13716,209.2701627,7217.680606999999,0.7092233094356339";
  "13716,216.84019590000003,7330.5244299999995,0.7348783953273488";
  "13716,224.41022900000002,7465.6144540000005,0.7605334808801604";
  "13716,231.9802622,7561.773627,0.786188566771875";
  "13716,239.55029539999998,7674.61745,0.8118436526635897";
  "13716,247.12032850000003,7804.1459239999995,0.8374987382164014";
  "13716,254.6903617,7922.551298,0.8631538241081161";
  "13716,260.8840252,8002.960454000001,0.8841443488361819";
  "13716,274.64772189999996,8242.294851,0.9307899594559622";
  "13716,282.21775499999995,8382.946426,0.9564450450087737";
  "13716,289.78778819999997,8506.91335,0.9821001309004885";
  "13716,297.3578214,8653.126476000001,1.0077552167922033";
  "13716,304.92785449999997,8788.2165,1.0334103023450147";
  "13716,312.4978877,8912.183423999999,1.0590653882367296";
  "13716,320.0679209,9097.327401999999,1.0847204741284444";
  "13716,327.637954,9215.732776,1.110375559681256";
  "13716,335.2079872,9367.507452,1.1360306455729707";
  "13716,342.7780204,9508.159027,1.1616857314646856";
  "13716,350.3480536,9659.933703,1.1873408173564004";
  "13716,357.9180867,9789.462177,1.2129959029092119";
  "13716,362.0471957,9912.190407,1.2269895860612556";
  "13716,375.81089239999994,10145.16875,1.273635196681036";
  "13716,383.3809256,10296.94342,1.299290282572751";
  "13716,390.9509587,10437.595,1.3249453681255625";
  "13716,398.52099189999996,10556.00037,1.3506004540172771";
  "13716,408.38701539999994,10719.50895,1.3840367248518852";
  "13716,267.7426075,8123.727062999999,0.9073883047546176";
  "13716,194.38602269999998,7042.418111,0.6587804804498499";
  "13716,124.2352527,6493.523883,0.4210372655693753";
  "13716,130.6468823,6485.468908,0.4427664844179611";
  "16764,155.3933721,3915.066865,0.5266331339509438";
  "16764,163.8499637,3948.7768579999997,0.5552927947631519";
  "16764,177.61366040000001,4059.559425,0.6019384053829324";
  "16764,185.1836935,4139.0339460000005,0.6275934909357439";
  "16764,192.7537267,4196.262265,0.6532485768274586";
  "16764,200.32375990000003,4242.367484,0.6789036627191735";
  "16764,207.893793,4316.280455,0.704558748271985";
  "16764,215.4638262,4373.508774,0.7302138341636997";
  "16764,223.0338594,4458.544845,0.7558689200554145";
  "16764,229.22752290000003,4520.680336,0.7768594447834803";
  "16764,243.6794044,4638.385068,0.8258373358156337";
  "16764,251.2494375,4712.298039,0.8514924213684452";
  "16764,258.8194707,4775.087909000001,0.87714750726016";
  "16764,266.38950389999997,4843.439329,0.9028025931518746";
  "16764,273.959537,4928.4754,0.9284576787046863";
  "16764,281.5295702,4996.826821,0.954112764596401";
  "16764,289.0996034,5070.739791,0.9797678504881157";
  "16764,296.6696365,5166.898963000001,1.0054229360409275";
  "16764,304.2396697,5229.688833,1.031078021932642";
  "16764,311.8097029,5331.4095560000005,1.0567331078243567";
  "16764,320.464668,5403.801183,1.086065062805782";
  "16764,331.07887819999996,5512.978921,1.1220369624209268";
  "16764,338.6489114,5620.261194,1.1476920483126416";
  "16764,346.21894460000004,5710.858816,1.1733471342043567";
  "16764,353.7889777,5779.210236,1.199002219757168";
  "16764,361.3590109,5875.369408,1.2246573056488828";
  "16764,368.9290441,5949.282379,1.2503123915405976";
  "16764,376.4990772,6039.88,1.275967477093409";
  "16764,384.0691104,6130.477621999999,1.301622562985124";
  "16764,390.26277389999996,6197.380156,1.3226130877131894";
  "16764,405.40284019999996,6365.068777,1.3739232591577157";
  "16764,411.0968962,6387.947667,1.3932205980058776";
  "16764,171.1910101,3987.0154520000006,0.5801718370277305";
  "19812,205.75331780000002,2745.050793,0.6973046090028091";
  "19812,215.80791859999997,2788.432451,0.731379974369886";
  "19812,228.539338,2872.147969,0.774527164032204";
  "19812,236.10937119999997,2862.637684,0.8001822499239187";
  "19812,243.6794044,2947.6737550000003,0.8258373358156337";
  "19812,251.2494375,2954.848121,0.8514924213684452";
  "19812,258.8194707,3006.51489,0.87714750726016";
  "19812,266.38950389999997,3058.181659,0.9028025931518746";
  "19812,273.959537,3115.409979,0.9284576787046863";
  "19812,281.5295702,3161.515198,0.954112764596401";
  "19812,289.0996034,3202.058866,0.9797678504881157";
  "19812,296.6696365,3264.848736,1.0054229360409275";
  "19812,304.2396697,3272.023102,1.031078021932642";
  "19812,311.8097029,3345.936072,1.0567331078243567";
  "19812,319.379736,3386.4797409999996,1.0823881933771684";
  "19812,326.9497692,3438.14651,1.108043279268883";
  "19812,334.51980239999995,3478.6901780000003,1.1336983651605976";
  "19812,342.0898356,3558.1646990000004,1.1593534510523127";
  "19812,349.6598687,3593.1468170000003,1.1850085366051242";
  "19812,357.22990189999996,3628.128935,1.2106636224968388";
  "19812,364.7999351,3668.672604,1.2363187083885538";
  "19812,369.9613213,3708.0711090000004,1.253810812159157";
  "19812,380.62818619999996,3793.387772,1.2899611602454528";
  "19812,388.19821939999997,3867.300743,1.3156162461371677";
  "19812,395.7682526,3913.405961,1.3412713320288823";
  "19812,403.3382857,3942.826529,1.366926417581694";
  "19812,410.6634133,4013.07464,1.3917515105212825";
  ""].

(* ADRpy/data/engine_data/Jet_CSVs/J60_Sea_level_thrust_polynomial.csv *)
Definition lines_J60_Sea_level_thrust_polynomial : list string := [
  "11449.568557711225,-8501.59868490997,11861.934521107667,3880.3238863920856,-27196.127523295054,22117.668101575957,2622.5201938353935,-6624.640750105998";
  "0,0.8464497682454413,,,,,,";
  ""].

(* ADRpy/data/engine_data/Jet_CSVs/J60_TSFC_data.csv *)
Definition lines_J60_TSFC_data : list string := [
  "TSFC (g/(kNs)),TAS (m/s),Thrust (N),Mach Number";
  "26.90932,24.55558883,2684.535205,0.08321968";
  "26.90932,29.59112385,10550.63996,0.087260795";
  "26.90932,32.50987785,3184.709535,0.110177021";
  "26.90932,36.7541406,8716.877909,0.111113438";
  "26.90932,37.06122168,3879.756126,0.123973379";
  "26.90932,38.9628169,4522.055145,0.12801961";
  "26.90932,39.76706233,7735.580582,0.122067389";
  "26.90932,40.86368291,5114.912594,0.13221967";
  "26.90932,41.64629482,6861.671483,0.129788435";
  "26.90932,42.01329345,6086.998625,0.132950673";
  "26.90932,16.73402339,2349.648529,0.056712143";
  "26.90932,28.45982482,10820.08666,";
  "28.3256,44.79116559,2235.464793,0.1517987";
  "28.3256,57.0231947,2602.798784,0.19325344";
  "28.3256,65.80844376,2996.283337,0.223026932";
  "28.3256,67.42249289,9800.188839,0.199414771";
  "28.3256,69.90348034,9220.195636,0.208540281";
  "28.3256,72.3008496,3344.157125,0.245029904";
  "28.3256,73.45481831,8277.0748,0.222398318";
  "28.3256,75.33573205,7517.155984,0.231043484";
  "28.3256,76.79357827,3730.402717,0.257377818";
  "28.3256,77.59429913,6704.960571,0.24149131";
  "28.3256,78.46651006,5974.118073,0.24781242";
  "28.3256,79.46696864,5386.07735,0.254246396";
  "28.3256,79.83514213,4691.060353,0.259863522";
  "28.3256,80.20615146,4188.316125,0.264903775";
  "28.3256,65.84522559,10241.48858,";
  "28.3256,50.39981794,2395.833985,0.170806603";
  "29.74188,88.12540668,2313.176216,0.298659836";
  "29.74188,94.289336,9712.892016,0.278178526";
  "29.74188,98.34568867,2504.63511,0.333296701";
  "29.74188,100.3353343,9116.807397,0.298720394";
  "29.74188,106.0024274,8488.124683,0.318876495";
  "29.74188,107.4319677,2782.214509,0.364090392";
  "29.74188,110.1572178,7954.008729,0.334424318";
  "29.74188,113.9335486,7417.508972,0.349211257";
  "29.74188,115.3846698,3174.794568,0.391042356";
  "29.74188,119.5973967,6568.811276,0.372451511";
  "29.74188,122.2027671,3612.686216,0.412143035";
  "29.74188,121.8586174,5936.528238,0.384342732";
  "29.74188,124.1178934,5172.401016,0.398401227";
  "29.74188,123.9539237,4318.117405,0.408044576";
  "29.74188,91.28146814,9987.583308,";
  "29.74188,79.23108998,2182.46536,0.268516711";
  "31.15816,129.2738697,9741.812377,0.379963814";
  "31.15816,133.6396842,9320.539168,0.395551596";
  "31.15816,139.3078873,8767.117509,0.416301701";
  "31.15816,144.1328622,2357.106533,";
  "31.15816,144.220642,8308.635409,0.434529478";
  "31.15816,152.1575484,7630.256147,0.464298864";
  "31.15816,153.5977492,2647.134626,";
  "31.15816,159.7168055,7004.428158,0.49359083";
  "31.15816,163.4424286,3029.908182,0.553911645";
  "31.15816,165.762111,6361.374048,0.519126747";
  "31.15816,171.3950928,3419.924604,0.58086348";
  "31.15816,171.4315538,5892.003057,0.542433971";
  "31.15816,177.47897,5392.054822,0.568564976";
  "31.15816,177.4579645,3967.862957,0.594604048";
  "31.15816,179.3552114,4315.343731,0.59357975";
  "31.15816,180.4980901,4831.010832,0.587431845";
  "31.15816,139.1269039,2217.769715,";
  "32.57444,166.9720331,9633.588391,";
  "32.57444,174.1290328,9180.897521,0.515971034";
  "32.57444,181.6902506,8688.012418,0.543413326";
  "32.57444,189.6298916,8195.039039,0.572791679";
  "32.57444,196.8130753,7728.611049,0.600286239";
  "32.57444,203.6185652,7311.712904,0.626695588";
  "32.57444,214.2045911,6643.42805,0.669218997";
  "32.57444,224.4133668,6054.749996,0.71107231";
  "32.57444,225.4448716,2470.006637,";
  "32.57444,233.1105214,5606.862645,0.747416092";
  "32.57444,231.9341555,2820.741902,";
  "32.57444,237.2377907,3206.798331,0.8040065";
  "32.57444,240.2934326,5121.952925,0.781867981";
  "32.57444,242.5413855,3590.108006,0.821980553";
  "32.57444,245.5847926,4675.742942,0.811357023";
  "32.57444,247.1730686,4091.313333,0.83358154";
  "33.99072,210.8387609,9354.719219,0.622491885";
  "33.99072,219.1583765,8966.858236,0.652208308";
  "33.99072,230.1256747,8491.66038,0.691792305";
  "33.99072,240.3368009,8062.352908,0.729610082";
  "33.99072,251.6820996,7558.422057,0.773297945";
  "33.99072,264.1622567,7026.366447,0.822397209";
  "33.99072,276.2641903,6507.936686,0.871577485";
  "33.99072,288.7446755,5998.129782,0.923936875";
  "33.99072,298.5781684,5622.459205,0.967285896";
  "33.99072,308.4104163,5162.371727,1.016613551";
  "33.99072,311.2649131,2859.706026,";
  "33.99072,316.3499855,4664.53267,1.062795587";
  "33.99072,317.8423105,3215.463115,";
  "33.99072,319.9386978,4236.083337,1.084282533";
  "33.99072,321.6337524,3703.502539,1.090027127";
  "33.99072,205.8527302,9585.344762,0.605003417";
  "35.407,259.2774004,9376.380957,0.765888764";
  "35.407,271.0023254,8953.94042,0.808456188";
  "35.407,294.4523537,8121.145062,0.897319394";
  "35.407,308.0679951,7603.40858,0.951615239";
  "35.407,324.3310652,6981.135313,1.018135525";
  "35.407,337.9462137,6429.979992,1.077603451";
  "35.407,351.1826873,5861.843834,1.14191305";
  "35.407,361.7703869,5307.039153,1.201183958";
  "35.407,370.0863119,4668.948896,1.254234409";
  "35.407,373.8600257,3955.008842,1.267023647";
  "35.407,374.6096607,3465.910107,1.269564184";
  "35.407,374.3571883,3089.82769,";
  "35.407,252.8111409,9609.289068,";
  "36.82328,297.878142,9475.049572,0.879527744";
  "36.82328,311.495946,9103.943965,0.928804106";
  "36.82328,325.113191,8694.933155,0.98012009";
  "36.82328,342.1342011,8146.64569,1.046844596";
  "36.82328,359.154374,7541.59198,1.116989888";
  "36.82328,368.6097126,7184.229812,1.157741196";
  "36.82328,379.5776132,6749.88011,1.20774236";
  "36.82328,393.9490447,6160.368359,1.278679976";
  "36.82328,405.2925974,5538.052418,1.345178361";
  "36.82328,411.339021,4970.808714,1.390318205";
  "36.82328,415.8702534,4302.288222,1.409397659";
  "36.82328,415.4788665,3423.41527,";
  "36.82328,290.154115,9670.374824,";
  "36.82328,414.7456254,3178.121767,";
  "38.23956,429.5084468,6222.685179,1.398963996";
  "38.23956,436.3258011,5701.112537,1.447684";
  "38.23956,441.2376443,5180.828476,";
  "38.23956,443.8797592,4716.009147,";
  "38.23956,445.7638937,4174.457262,";
  "38.23956,446.889521,3520.465021,";
  "38.23956,426.8140513,6462.738637,1.378336796";
  "38.23956,446.9592685,3184.566569,";
  "39.65584,460.5853334,6331.468656,";
  "39.65584,464.3345372,6062.645139,";
  "39.65584,468.1132988,5690.950612,";
  "39.65584,470.7569706,5331.685109,";
  "39.65584,472.6451389,5063.631428,";
  "39.65584,474.9067444,4457.442551,";
  "39.65584,476.7893191,3810.140644,";
  "39.65584,457.1058423,6560.367673,";
  "39.65584,476.7687179,3177.612833,";
  "42.4884,527.8721803,3509.814252,";
  "42.4884,528.6363186,4004.053391,";
  "42.4884,529.4078707,5000.948482,";
  "42.4884,529.4016723,4580.695145,";
  "42.4884,527.0925057,3186.812716,";
  "42.4884,529.6874367,5266.153817,";
  "45.32096,571.4113734,4892.266726,";
  "45.32096,571.026995,4488.582187,";
  "45.32096,571.9978287,5270.243322,";
  "45.32096,569.8841071,3218.708712,";
  ""].

(* ADRpy/data/engine_data/Jet_CSVs/J60_Thrust_data.csv *)
Definition lines_J60_Thrust_data : list string := [
  "TAS (m/s),Thrust (N),Altitude (m),Mach Number";
  "2.112619174,11397.27695,0,0.006208217742119012";
  "15.21897272,11091.35937,0,0.04472301379251291";
  "23.54178331,10920.117390000001,0,0.06918072060736831";
  "31.86479278,10762.35946,0,0.09363901185805566";
  "40.18793483,10613.59092,0,0.1180976927130401";
  "48.51125367,10476.80821,0,0.14255689308939787";
  "56.83483767,10358.00425,0,0.16701687267434975";
  "65.15859846,10251.18612,0,0.19147737178067495";
  "73.48260231,10160.84852,0,0.2159385851517494";
  "81.80662827,10072.00915,0,0.2403998634960551";
  "90.13083101,9995.155612999999,0,0.2648616613323478";
  "98.45518843,9928.789681999999,0,0.28932391371678257";
  "106.7797668,9877.406045,0,0.3137868153927351";
  "115.1043894,9829.018866,0,0.3382498470445367";
  "123.4290341,9782.129916,0,0.3627129436401832";
  "131.7537893,9742.732114,0,0.3871763649550546";
  "140.0786549,9710.825458,0,0.4116401106952872";
  "148.4035206,9678.918802,0,0.43610385672938334";
  "156.72856299999998,9658.997981,0,0.4605681220203756";
  "163.91827,9634.847299,0,0.48169605037933566";
  "174.1356046,9626.470934,0,0.5117210727409316";
  "182.4606691,9608.048343,0,0.5361854029757689";
  "190.7859104,9601.611585999999,0,0.5606502527613659";
  "199.1111297,9593.6766,0,0.5851150378969814";
  "207.43643730000002,9591.734531999999,0,0.6095800825141133";
  "215.7617449,9589.792463,0,0.6340451271312452";
  "224.0870525,9587.850395,0,0.658510171748377";
  "232.41236009999997,9585.908326,0,0.6829752163655087";
  "240.7377119,9586.962716,0,0.7074403908703306";
  "249.0631963,9597.006483,0,0.7319059550382221";
  "257.3887912,9614.541395999999,0,0.7563718439253386";
  "265.7142977,9626.083392,0,0.780837473037075";
  "274.0398042,9637.625387,0,0.8053031021488115";
  "282.3653107,9649.167383,0,0.8297687312605482";
  "288.0417673,9655.334392,0,0.8464497682454413";
  "6.840343675,7478.073983,4572,0.021225592073123647";
  "15.16392768,7359.2700239999995,4572,0.04705368011527992";
  "23.48797573,7271.928881,4572,0.07288320808945445";
  "31.81204589,7186.085968,4572,0.09871280467097725";
  "39.50562452,7114.873065999999,4572,0.12258598551417245";
  "48.46053975,7038.371812,4572,0.15037309486893485";
  "56.78500766,6979.497028,4572,0.17620392566903614";
  "65.10960815,6929.611620000001,4572,0.20203516786498696";
  "71.54224428,6890.4054909999995,4572,0.2219956430892405";
  "84.02945806,6836.802295,4572,0.26074347776206025";
  "92.35434582,6806.393868000001,4572,0.28657561135705834";
  "100.6792999,6780.48013,4572,0.31240795074307115";
  "109.00456329999999,6775.541603,4572,0.33824124994929944";
  "114.68073259999998,6762.231629999999,4572,0.35585440797527945";
  "126.41178159999998,6755.000391,4572,0.39225586271122515";
  "134.7372439,6763.5459280000005,4572,0.4180897791043178";
  "143.0626841,6770.593236,4572,0.44392362692109216";
  "151.3880801,6774.644084999999,4572,0.46975733758523";
  "157.8216112,6796.116246,4572,0.4897205899021327";
  "168.0394025,6818.703287,4572,0.5214264047451437";
  "176.36499730000003,6836.238201,4572,0.5472607322858458";
  "184.69072480000003,6862.762490000001,4572,0.5730954715947575";
  "193.0164081,6886.2903209999995,4572,0.5989300737510326";
  "201.34217969999997,6915.811068999999,4572,0.6247649499022805";
  "209.8841869,6944.853308,4572,0.6512708052989227";
  "217.9937673,6977.849023999999,4572,0.6764348399780133";
  "226.3194284,6999.878625,4572,0.7022693732476701";
  "234.6453548,7039.886979000001,4572,0.7281047297434461";
  "242.9711486,7070.9059560000005,4572,0.7539396747813124";
  "251.2970528,7109.416081,4572,0.77977496239047";
  "258.3615173,7146.222819,4572,0.8016960015686753";
  "267.9489497,7192.429247,4572,0.8314458122243583";
  "276.27487599999995,7232.4376010000005,4572,0.8572811684098339";
  "284.60078030000005,7270.947725,4572,0.8831164563292919";
  "292.9267508,7313.952537,4572,0.908951949667404";
  "301.2527214,7356.95735,4572,0.9347874433158164";
  "308.99016639999996,7409.088856,4572,0.9587967415413519";
  "317.90472880000004,7447.461662999999,4572,0.9864586360312961";
  "326.2307214,7491.964704999999,4572,1.0122941979457265";
  "334.55658139999997,7527.478370000001,4572,1.0381293484022476";
  "342.88246360000005,7564.490265,4572,1.0639645677453873";
  "350.4514333,7597.184023999999,4572,1.087451086975875";
  "364.07561410000005,7658.429956,4572,1.1297269312508023";
  "372.4014742,7693.943622,4572,1.1555620820176231";
  "380.72726800000004,7724.9625989999995,4572,1.1813970270554897";
  "389.0529954,7751.486889,4572,1.2072317660541012";
  "397.37883339999996,7785.502325,4572,1.2330668482446039";
  "405.7044062,7801.539009,4572,1.258901107519288";
  "414.0301557,7829.561528,4572,1.2847359150942177";
  "422.3557506,7847.096441,4572,1.31057024294522";
  "426.89702639999996,7859.521195,4572,1.3246618255033649";
  "2.0600172580000002,7551.206684999999,4572,0.00639223525299008";
  "2.030580068,5592.8569210000005,7620,0.0065572498774361596";
  "15.89213538,5417.388214,7620,0.05131967185876261";
  "24.21624973,5334.54176,7620,0.07820031481467588";
  "32.54051876,5262.182911,7620,0.10508145727091765";
  "46.91902662,5152.454143999999,7620,0.15151324806238514";
  "55.24356082,5098.0740479999995,7620,0.17839524681874405";
  "63.5682939,5057.178016,7620,0.20527788780826386";
  "71.89307117,5019.278443,7620,0.23216067149832362";
  "80.21806942,4996.3611630000005,7620,0.25904416878796055";
  "88.54302347,4970.447425,7620,0.285927523344765";
  "96.86799962,4946.031916,7620,0.31281094926798575";
  "105.1931747,4935.100471,7620,0.3396950175858299";
  "113.51848229999999,4933.158402,7620,0.36657951384383125";
  "119.95167450000001,4931.6577130000005,7620,0.3873538971984961";
  "130.1694511,4953.245935,7620,0.42034964822249365";
  "138.4949355,4963.289702,7620,0.4472347154118248";
  "146.82061869999998,4986.817532,7620,0.4741204245759769";
  "155.14625780000003,5007.3489039999995,7620,0.5010059913302217";
  "163.4720295,5036.869652,7620,0.5278919862829636";
  "171.797779,5064.892171,7620,0.5547779095463644";
  "180.12357649999998,5096.160854,7620,0.5816639878137461";
  "188.4494108,5129.926585,7620,0.6085501849175132";
  "196.77531499999998,5168.4367090000005,7620,0.6354366077458274";
  "205.101153,5202.452145,7620,0.6623228167978182";
  "213.42716769999996,5248.453417000001,7620,0.6892095964582134";
  "221.75311609999997,5289.96,7620,0.7160961620193602";
  "230.07895409999998,5323.975436,7620,0.7429823710713508";
  "238.85905879999999,5368.672193,7620,0.7713355206837461";
  "246.7309173,5411.48329,7620,0.7967557166158179";
  "255.05695409999998,5458.982790999999,7620,0.8236425676426296";
  "263.3830351,5509.47875,7620,0.8505295614022735";
  "271.7091383,5561.472939,7620,0.8774166268512588";
  "280.0351088,5604.477750999999,7620,0.9043032637788218";
  "288.3613445,5665.461316,7620,0.9311907571033792";
  "297.94897579999997,5725.151808,7620,0.9621516116678337";
  "305.0135066,5766.453235,7620,0.9849647449455924";
  "313.3397865,5830.433258,7620,1.0118523810029822";
  "321.6658233,5877.932759,7620,1.038739232029794";
  "329.99197069999997,5932.923406,7620,1.0656264402116113";
  "338.3180959,5986.415824000001,7620,1.0925135767040879";
  "346.6442929,6044.777486999999,7620,1.1194009450566857";
  "354.9704347,6099.393577000001,7620,1.1462881351547056";
  "363.2964716,6146.893078,7620,1.1731749865044423";
  "371.62250839999996,6194.392579,7620,1.2000618375312537";
  "379.9485673,6243.390308,7620,1.2269487599244815";
  "386.76070669999996,6277.330782999999,7620,1.2489468583741152";
  "398.87128989999997,6345.350801,7620,1.288054954358775";
  "407.19712789999994,6379.3662380000005,7620,1.3149411634107653";
  "415.5230542,6419.374591,7620,1.341827657605496";
  "421.9566221,6443.343801,7620,1.3626032541892366";
  "435.2023357,6501.681551,7620,1.4053769695668832";
  "443.5281074,6531.2022990000005,7620,1.4322629645196252";
  "457.1618999,6560.5461700000005,7620,1.476289883530836";
  "5.299722859,3807.946346,10668,0.017872141598532808";
  "16.62396708,3721.216021,10668,0.056060647223950995";
  "24.94854548,3669.832383,10668,0.08413344421186";
  "30.24596026,3634.1372460000002,10668,0.10199780232514159";
  "43.11177022,3592.181904,10668,0.14538489699075222";
  "51.43676847,3569.2646240000004,10668,0.17345910982980095";
  "59.76194350000001,3558.3331789999997,10668,0.2015339188202478";
  "68.08718482,3551.8964229999997,10668,0.22960895135903817";
  "81.71034917,3544.2238039999997,10668,0.27555005597167165";
  "90.03583357,3554.2675710000003,10668,0.3036259082439265";
  "98.36122957,3558.3184200000005,10668,0.3317014624067595";
  "106.68682450000001,3575.853333,10668,0.35977768741696";
  "115.012353,3588.8935579999998,10668,0.3878536884066978";
  "124.34732659999999,3623.1730020000005,10668,0.41933381943174647";
  "131.6637638,3638.945678,10668,0.4440068834983166";
  "139.98938080000002,3657.978821,10668,0.4720831829347042";
  "148.3150861,3683.0048810000003,10668,0.5001597801432857";
  "156.6407031,3702.0380229999996,10668,0.5282360795796732";
  "164.966519,3734.5552299999995,10668,0.5563130497622598";
  "171.40019740000002,3766.015587,10668,0.5780092052827239";
  "183.8886891,3799.059989,10668,0.6201238776821436";
  "192.214505,3831.577196,10668,0.6482008478647303";
  "200.54036509999997,3867.090861,10668,0.6762779671020278";
  "208.866203,3901.1062979999997,10668,0.7043550114747422";
  "217.19204100000002,3935.1217340000003,10668,0.7324320561846843";
  "225.5179673,3975.1300880000003,10668,0.7605093986668203";
  "233.8440483,4025.6260469999997,10668,0.7885872628404446";
  "242.1698863,4059.641483,10668,0.8166643075503867";
  "250.4960557,4116.13036,10668,0.8447424698334327";
  "258.8220484,4160.633402,10668,0.8728200362348632";
  "267.1481736,4214.12582,10668,0.9008980494631983";
  "275.47432089999995,4269.116467,10668,0.9289761372188887";
  "283.8004903,4325.605344,10668,0.9570542995019349";
  "292.12661560000004,4379.097761999999,10668,0.985132313067498";
  "300.4528955,4443.077785,10668,1.0132108479873214";
  "308.7790428,4498.0684329999995,10668,1.041288935743012";
  "316.0959441,4545.303926,10668,1.0659635648840466";
  "325.4313153,4606.551498,10668,1.0974450367270376";
  "333.7574185,4658.545687,10668,1.1255229757652454";
  "342.0834553,4706.045187,10668,1.1536006908841587";
  "350.4096468,4764.032293,10668,1.1816789276945603";
  "358.73563939999997,4808.5353350000005,10668,1.2097564937587626";
  "365.8001666,4849.587056,10668,1.2335800471414975";
  "375.3876468,4899.039648,10668,1.2659117007517509";
  "383.71344060000007,4930.058626,10668,1.2939885964069824";
  "392.03945530000004,4976.059897,10668,1.32206623699854";
  "400.3653375,5013.071792,10668,1.350143430763193";
  "407.429581,5034.896236,10668,1.3739660274305094";
  "417.01694710000004,5076.607976,10668,1.406297296263783";
  "425.34258619999997,5097.139348,10668,1.4343736702275258";
  "433.6685125,5137.147702,10668,1.4624510127096622";
  "441.9942068,5161.424647,10668,1.4905275728231797";
  "450.31987910000004,5184.2033630000005,10668,1.51860405874657";
  "458.6454961,5203.236506,10668,1.5466803581829573";
  "465.4572882,5213.633376,10668,1.569651618414844";
  "476.8100245,5213.981559000001,10668,1.6079362072664747";
  "485.13553099999996,5225.523555,10668,1.6360121340660847";
  "493.4608608,5225.079715999999,10668,1.6640874649840793";
  "501.7863893,5238.119941,10668,1.6921634659738174";
  "510.1117191000001,5237.676102,10668,1.720238796891812";
  "518.4371593000001,5244.723409,10668,1.748314500109356";
  "526.762732,5260.760093,10668,1.7763906501538045";
  "535.0880618,5260.316254,10668,1.804465981071799";
  "543.4134136,5261.370644,10668,1.8325413861799211";
  "551.7388096,5265.421493,10668,1.860616940342754";
  "560.064073,5260.482966,10668,1.8886920473414543";
  "568.3896016,5273.523190999999,10668,1.91676804866842";
  "576.7149755,5276.075811,10668,1.9448435283038978";
  "584.9111647000001,5265.816554999999,10668,1.9724833611494978";
  "7.780020137,2381.9222839999998,13716,0.026366738372297423";
  "18.87402108,2331.827744,13716,0.06396466424076383";
  "27.19870996,2287.935253,13716,0.09217730249421333";
  "35.52342094,2245.540992,13716,0.12039001564527335";
  "43.06438095,2223.8679469999997,13716,0.14594657156137372";
  "52.93032988,2204.024569,13716,0.17938258967585455";
  "61.25541652,2187.100206,13716,0.20759657595073205";
  "69.58056945,2174.670532,13716,0.2358107868845508";
  "77.90587707,2172.7284640000003,13716,0.2640255220677528";
  "86.23118468,2170.786395,13716,0.2922402572170645";
  "94.5564923,2168.844327,13716,0.32045499240026654";
  "102.8817999,2166.9022579999996,13716,0.3486697275156879";
  "111.20730640000001,2178.444254,13716,0.37688513670960394";
  "119.532835,2191.4844789999997,13716,0.4051006208011305";
  "127.8582973,2200.030016,13716,0.4333158801998255";
  "133.9132698,2212.401313,13716,0.4538363766699692";
  "148.29360730000002,2226.725937,13716,0.5025718027859798";
  "156.6192243,2245.7590800000003,13716,0.5307875864679483";
  "164.9448634,2266.2904519999997,13716,0.5590034450475274";
  "173.2704362,2282.327136,13716,0.587219078934275";
  "181.59618569999998,2310.349655,13716,0.6154353116630035";
  "189.92189109999998,2335.3757149999997,13716,0.6436513949354141";
  "198.2475523,2357.405316,13716,0.6718673284126038";
  "206.57332390000002,2386.926064,13716,0.7000836360389429";
  "214.8991619,2420.9415,13716,0.7283001686970165";
  "220.95446580000004,2455.7862379999997,13716,0.748821788292415";
  "232.3077281,2491.79228,13716,0.7872983592350187";
  "240.6335219,2522.8112579999997,13716,0.8155147420978714";
  "248.95949240000002,2565.81607,13716,0.8437317238027052";
  "257.2854409,2607.322653,13716,0.8719486309488316";
  "265.6113451,2645.832777,13716,0.9001653879608336";
  "273.9372273,2682.8446719999997,13716,0.9283820704141285";
  "282.2632641,2730.344173,13716,0.9565992768117936";
  "290.5891021,2764.359609,13716,0.9848158094698672";
  "298.91494,2798.375045,13716,1.013032341789038";
  "305.3486368,2831.083927,13716,1.0348363470878852";
  "320.1081127,2893.812966,13716,1.0848566854308126";
  "328.43403900000004,2933.821319,13716,1.1130735173404254";
  "336.7597665,2960.345609,13716,1.1412896755104465";
  "345.0855603,2991.364586,13716,1.1695060583732992";
  "353.4113098,3019.3871050000002,13716,1.1977222911020278";
  "361.7370815,3048.907853,13716,1.22593859906727";
  "370.0626543,3064.9445370000003,13716,1.2541542329540176";
  "378.38838169999997,3091.468827,13716,1.2823703907851354";
  "386.7139987,3110.501969,13716,1.3105861744671041";
  "395.0396599,3132.531571,13716,1.3388021079442938";
  "403.3652106,3147.070025,13716,1.3670176669334309";
  "411.6906729,3155.615562,13716,1.3952329263321257";
  "420.0161794,3167.157558,13716,1.4234483355260417";
  "428.34166380000005,3177.2013239999997,13716,1.4516636698223475";
  "436.66699349999993,3176.757485,13716,1.479878479835379";
  "444.9923674,3179.310105,13716,1.508093439643632";
  "453.317675,3177.368036,13716,1.5363081747590535";
  "461.64291629999997,3170.9312800000002,13716,1.5645226851816432";
  "469.968224,3168.989211,13716,1.592737420635968";
  "478.29353160000005,3167.0471420000003,13716,1.6209521557513895";
  "486.6188392,3165.105074,13716,1.6491668908668107";
  "494.94414680000006,3163.163005,13716,1.6773816259822323";
  "503.2695428,3167.213854,13716,1.7055966606880955";
  "511.5951377,3184.748768,13716,1.7338123694724537";
  "519.9205337000001,3188.799617,13716,1.7620274041783173";
  "528.2458634,3188.3557769999998,13716,1.7902422141913488";
  "536.5713478,3198.3995440000003,13716,1.8184575484876544";
  "544.8969647999999,3217.432686,13716,1.8466733321696225";
  "553.2222724,3215.490618,13716,1.8748880672850443";
  "561.5475799999999,3213.5485489999996,13716,1.9031028024004655";
  "569.8728876,3211.606481,13716,1.931317537515887";
  "578.1981952000001,3209.664412,13716,1.959532272631309";
  "588.9144738,3207.1645949999997,13716,1.9958500853355572";
  ""].

(* ADRpy/data/engine_data/Jet_CSVs/JT8D-9_Sea_level_take_off_thrust_polynomial.csv *)
Definition lines_JT8D_9_Sea_level_take_off_thrust_polynomial : list string := [
  "67965.96706809467,-106535.97563030694,640992.6130222493,-4466238.808452494,22023713.453063685,-62256668.174850576,90636670.75147733,-52757841.905313544";
  "0.000272148,0.467408107,,,,,,";
  ""].

(* ADRpy/data/engine_data/Jet_CSVs/JT8D-9_Sea_level_thrust_polynomial.csv *)
Definition lines_JT8D_9_Sea_level_thrust_polynomial : list string := [
  "51839.98008390952,-51545.446556477575,57541.00119768832,8005.512380364577,-140146.62194137223,211029.68662425922,-136973.63120387663,33807.456798616884";
  "0,0.98527989,,,,,,";
  ""].

(* ADRpy/data/engine_data/Jet_CSVs/JT8D-9_TSFC_data.csv *)
Definition lines_JT8D_9_TSFC_data : list string := [
  "TSFC (g/(kNs)),Mach Number,Thrust (N)";
  "16.99536,0.12311725,46292.92747";
  "16.99536,0.127102004,41665.72182";
  "16.99536,0.129356399,38341.24354";
  "16.99536,0.131022561,35106.54833";
  "16.99536,0.130352215,32725.20975";
  "16.99536,0.130859827,30209.23451";
  "16.99536,0.13136296,27558.47082";
  "16.99536,0.134190657,23694.91461";
  "18.41164,0.232376264,42802.46814";
  "18.41164,0.249378282,38491.43856";
  "18.41164,0.25933345,35617.24175";
  "18.41164,0.269875358,32608.33238";
  "18.41164,0.275694981,29823.46328";
  "18.41164,0.276233945,28251.00721";
  "18.41164,0.277355171,26409.05013";
  "18.41164,0.280814397,23758.66591";
  "18.41164,0.290775537,21064.18704";
  "18.41164,0.30014098,18234.84382";
  "18.41164,0.300641127,15494.22116";
  "18.41164,0.297031109,13606.72744";
  "18.41164,0.283982494,12347.03219";
  "18.41164,0.273904902,11537.01127";
  "18.41164,0.263246542,11041.42084";
  "18.41164,0.248446664,10455.44018";
  "18.41164,0.195801323,9639.954852";
  "18.41164,0.223596069,9868.169312";
  "18.41164,0.242349348,40467.42514";
  "19.82792,0.349343517,39986.9377";
  "19.82792,0.366969599,36664.43267";
  "19.82792,0.375186942,34868.31581";
  "19.82792,0.384583737,32982.49177";
  "19.82792,0.389858423,31590.3608";
  "19.82792,0.39454637,30332.94238";
  "19.82792,0.39803247,28491.28888";
  "19.82792,0.398544561,26110.10209";
  "19.82792,0.400828815,23684.2135";
  "19.82792,0.399089498,24717.36397";
  "19.82792,0.405512283,22292.00664";
  "19.82792,0.410804885,21439.02948";
  "19.82792,0.419634349,20272.0013";
  "19.82792,0.429647743,19150.05439";
  "19.82792,0.437885988,17982.95031";
  "19.82792,0.44020458,16590.43987";
  "19.82792,0.440171735,15601.9912";
  "19.82792,0.433015898,13758.9716";
  "19.82792,0.419949367,11960.12254";
  "19.82792,0.405716821,10655.34603";
  "21.2442,0.445061233,38202.05321";
  "21.2442,0.475726973,35869.66652";
  "21.2442,0.492237801,34568.83651";
  "21.2442,0.513466436,32909.17778";
  "21.2442,0.534692084,31159.66008";
  "21.2442,0.545887916,30037.86496";
  "21.2442,0.549406862,29184.66012";
  "21.2442,0.557633163,27658.12016";
  "21.2442,0.567032944,25862.15509";
  "21.2442,0.573469166,23841.16312";
  "21.2442,0.575777308,22134.14629";
  "21.2442,0.579874035,20876.65198";
  "21.2442,0.585166638,20023.67482";
  "21.2442,0.592189599,17867.97029";
  "21.2442,0.596844701,15622.10322";
  "21.2442,0.596216157,14498.79021";
  "21.2442,0.58907525,13105.06546";
  "21.2442,0.57364683,11395.77179";
  "21.2442,0.556465655,10315.26322";
  "21.2442,0.542851201,9819.293319";
  "22.66048,0.546703081,36777.36354";
  "22.66048,0.572077712,35342.88349";
  "22.66048,0.595677193,33863.24628";
  "22.66048,0.63462746,31756.56953";
  "22.66048,0.669443674,29784.14998";
  "22.66048,0.707202546,27407.74454";
  "22.66048,0.733753642,25793.69834";
  "22.66048,0.763838613,23775.74215";
  "22.66048,0.787423165,21846.81009";
  "22.66048,0.801570611,20590.60599";
  "22.66048,0.813353183,19334.09831";
  "22.66048,0.823359112,17987.50397";
  "22.66048,0.823339703,17403.42067";
  "22.66048,0.822106505,15875.66641";
  "22.66048,0.817939607,15021.47494";
  "22.66048,0.80489547,13896.56815";
  "22.66048,0.79541059,13131.5526";
  "22.66048,0.776454266,12005.88687";
  "22.66048,0.752173987,10789.67911";
  "22.66048,0.736770948,9844.186682";
  "24.07676,0.640671029,35711.12312";
  "24.07676,0.663692728,34635.77537";
  "24.07676,0.702065213,32933.38809";
  "24.07676,0.732763798,31589.45006";
  "24.07676,0.777043992,29753.03328";
  "24.07676,0.829590796,27603.17262";
  "24.07676,0.880369917,25632.80221";
  "24.07676,0.925835534,23886.39618";
  "24.07676,0.96775981,22319.25273";
  ""].

(* ADRpy/data/engine_data/Jet_CSVs/JT8D-9_Thrust_SL_TO_data.csv *)
Definition lines_JT8D_9_Thrust_SL_TO_data : list string := [
  "Altitude (m),Mach Number,Thrust (N)";
  "0,0.000272148,67933.07711";
  "0,0.028565548,65375.73942";
  "0,0.060415218,63088.434";
  "0,0.095234419,61205.87342";
  "0,0.135373095,59279.0664";
  "0,0.178478316,57667.14525";
  "0,0.22159548,56414.65997";
  "0,0.266495259,55431.97929";
  "0,0.310215586,54539.00578";
  "0,0.353941885,53825.75021";
  "0,0.395899007,53247.05542";
  "0,0.4284026,52846.86425";
  "0,0.467408107,52402.57843";
  ""].

(* ADRpy/data/engine_data/Jet_CSVs/JT8D-9_Thrust_data.csv *)
Definition lines_JT8D_9_Thrust_data : list string := [
  "Altitude (m),Mach Number,Thrust (N)";
  "0,-0.000262337,51848.32163";
  "0,0.02984055,50369.51925";
  "0,0.065258434,48711.68199";
  "0,0.100091072,47233.48677";
  "0,0.134929681,45935.00948";
  "0,0.167407894,44771.01708";
  "0,0.201071531,43697.03543";
  "0,0.234739646,42757.84223";
  "0,0.267816543,41818.57314";
  "0,0.296171155,41103.34432";
  "0,0.332210117,40344.17264";
  "0,0.367659354,39629.85455";
  "0,0.403110084,38960.46595";
  "0,0.436790143,38380.70863";
  "0,0.476972115,37756.85666";
  "0,0.511244887,37222.10472";
  "0,0.545522137,36822.14124";
  "0,0.58157155,36377.47595";
  "0,0.616440019,35977.58836";
  "0,0.649536324,35622.40257";
  "0,0.689136036,35268.05161";
  "0,0.732284553,34959.08551";
  "0,0.778978889,34605.64529";
  "0,0.824492281,34296.98277";
  "0,0.874145697,34033.78099";
  "0,0.918481131,33859.75513";
  "0,0.95217612,33729.29266";
  "0,0.98527989,33598.75429";
  "4572,0.001014158,36887.03095";
  "4572,0.037635381,35858.35825";
  "4572,0.078401107,35009.93476";
  "4572,0.115621014,34205.98539";
  "4572,0.158754602,33447.72444";
  "4572,0.20602672,32689.99475";
  "4572,0.254484262,32022.27583";
  "4572,0.301168148,31354.32921";
  "4572,0.347265293,30821.09516";
  "4572,0.390999057,30332.48702";
  "4572,0.432369439,29888.50478";
  "4572,0.47906079,29445.20559";
  "4572,0.521615102,29046.30463";
  "4572,0.56771822,28692.78851";
  "4572,0.615003775,28339.42419";
  "4572,0.667020573,28031.5965";
  "4572,0.720811028,27723.9965";
  "4572,0.993322555,26545.88774";
  "4572,0.935981803,26763.1734";
  "4572,0.770464444,27460.79472";
  "4572,0.820710572,27242.59833";
  "4572,0.880413213,26935.75727";
  "7620,0.013058,25701.18307";
  "7620,0.047324799,24986.71319";
  "7620,0.081003366,24362.02639";
  "7620,0.118823449,23827.72981";
  "7620,0.156056793,23428.1458";
  "7620,0.273091229,22634.44217";
  "7620,0.314472062,22504.96632";
  "7620,0.375946867,22153.42346";
  "7620,0.436840904,22116.3111";
  "7620,0.489460865,22167.99519";
  "7620,0.537943787,22264.0775";
  "7620,0.586431189,22494.94826";
  "7620,0.63373466,22680.73775";
  "7620,0.742530851,23054.1382";
  "7620,0.673943506,22865.61651";
  "7620,0.711785984,23005.26221";
  "7620,0.195065286,23073.71895";
  "7620,0.234076765,22809.15108";
  "10668,0.203090035,15481.69858";
  "10668,0.250381562,15308.05219";
  "10668,0.292944832,15178.72814";
  "10668,0.339055415,15049.85945";
  "10668,0.388716296,15011.30509";
  "10668,0.434831358,15017.22486";
  "10668,0.477399107,15022.68925";
  "10668,0.528838123,15119.15103";
  "10668,0.596835743,15352.52631";
  "10668,0.648868964,15538.92296";
  "10668,0.705043702,15815.70983";
  "10668,0.767133613,16183.11462";
  "10668,0.819764024,16549.3051";
  "10668,0.871211998,16915.34379";
  "10668,0.931532732,17417.30935";
  "10668,0.984757349,17873.43469";
  "13716,0.200532566,9685.491492";
  "13716,0.249009517,9601.855864";
  "13716,0.302213231,9428.968421";
  "13716,0.355418439,9301.010464";
  "13716,0.413356382,9263.51863";
  "13716,0.471884051,9181.173207";
  "13716,0.750958704,9801.078663";
  "13716,0.993394218,10910.503";
  "13716,0.946680473,10679.85992";
  "13716,0.816001723,10079.00395";
  "13716,0.876904718,10311.4685";
  "13716,0.532188362,9188.914435";
  "13716,0.595454739,9376.753074";
  "13716,0.689465984,9613.467707";
  "13716,0.648076193,9473.366645";
  ""].

(* ADRpy/data/engine_data/Jet_CSVs/JT9D-3_Sea_level_take_off_thrust_polynomial.csv *)
Definition lines_JT9D_3_Sea_level_take_off_thrust_polynomial : list string := [
  "191539.39357655382,-129621.01041257434,275596.87274076353,-1103777.5839464732,3060950.795227874,-4723686.014227428,3745952.26602139,-1194602.5848008303";
  "-0.000961375,0.84988463,,,,,,";
  ""].

(* ADRpy/data/engine_data/Jet_CSVs/JT9D-3_Sea_level_thrust_polynomial.csv *)
Definition lines_JT9D_3_Sea_level_thrust_polynomial : list string := [
  "146870.3750282164,-193057.60841929194,299694.65181337605,-530762.3924876993,572280.7957029099,-54445.76265257204,-440277.3837837482,263365.92674926505";
  "0,0.797362129,,,,,,";
  ""].

(* ADRpy/data/engine_data/Jet_CSVs/JT9D-3_TSFC_data.csv *)
Definition lines_JT9D_3_TSFC_data : list string := [
  "TSFC (g/(kNs)),Mach Number,Thrust (N)";
  "14.1628,0.386360984,97633.70132";
  "14.1628,0.400530431,92781.90527";
  "14.1628,0.420144551,87318.08956";
  "14.1628,0.435403918,82102.36773";
  "14.1628,0.445213194,78827.03572";
  "14.1628,0.45338636,76399.49469";
  "14.1628,0.459927355,73853.65724";
  "15.57908,0.457678072,91608.79914";
  "15.57908,0.488722312,85765.44911";
  "15.57908,0.527393526,77978.42324";
  "15.57908,0.556811505,70567.64569";
  "15.57908,0.582963173,63403.31901";
  "15.57908,0.596043193,58794.68781";
  "15.57908,0.612941133,52127.37038";
  "15.57908,0.622756812,47282.14635";
  "15.57908,0.629852863,42078.74706";
  "15.57908,0.630410382,38817.3806";
  "15.57908,0.628246796,35560.12165";
  "15.57908,0.624450546,32305.32721";
  "15.57908,0.621195563,29774.27681";
  "15.57908,0.616309886,26762.64723";
  "16.99536,0.577442654,82612.52102";
  "16.99536,0.599227255,78715.31133";
  "16.99536,0.624820912,74933.11203";
  "16.99536,0.649327604,70790.27297";
  "16.99536,0.68527131,64577.24664";
  "16.99536,0.723395841,57394.84689";
  "16.99536,0.753896352,51431.55743";
  "16.99536,0.776231577,45963.63421";
  "16.99536,0.786583105,43170.5244";
  "16.99536,0.795305909,39413.79169";
  "16.99536,0.800221136,35179.76581";
  "16.99536,0.801325338,31313.77322";
  "16.99536,0.800792445,28537.09347";
  "16.99536,0.799712868,26365.03983";
  "18.41164,0.927061083,26052.04723";
  "18.41164,0.92922073,30275.39358";
  "18.41164,0.930834677,34861.8442";
  "18.41164,0.930816455,39329.9984";
  "18.41164,0.931347871,42468.96093";
  "18.41164,0.926441016,44650.0511";
  "18.41164,0.918815026,46352.20508";
  "18.41164,0.904113178,48306.56045";
  "18.41164,0.876344608,51609.00206";
  "18.41164,0.825710381,56998.8825";
  "18.41164,0.808831156,59077.2848";
  "18.41164,0.764185823,63854.32409";
  "18.41164,0.722262088,68506.49495";
  "18.41164,0.677072534,73284.35574";
  "18.41164,0.64985114,75861.4103";
  "18.41164,0.631884458,77699.93376";
  "19.82792,0.973761158,51220.43119";
  "19.82792,0.959060788,52812.50379";
  "19.82792,0.91823042,56255.42239";
  "19.82792,0.833850056,62783.08433";
  "19.82792,0.793019688,66226.00293";
  "19.82792,0.748924486,69553.08962";
  "19.82792,0.711361414,72508.03551";
  "19.82792,0.673252644,75826.08567";
  "21.2442,0.975374121,56048.40366";
  "21.2442,0.963942032,56910.98169";
  "21.2442,0.928013101,59501.18029";
  "21.2442,0.90133839,61473.60873";
  "21.2442,0.874118473,63688.38051";
  "21.2442,0.843633229,65908.08131";
  "21.2442,0.81641479,67760.57032";
  "21.2442,0.796273194,69119.3361";
  ""].

(* ADRpy/data/engine_data/Jet_CSVs/JT9D-3_Thrust_SL_TO_data.csv *)
Definition lines_JT9D_3_Thrust_SL_TO_data : list string := [
  "Altitude (m),Mach Number,Thrust (N)";
  "0,-0.000961375,191686.7454";
  "0,0.043142199,186306.723";
  "0,0.096497531,180912.735";
  "0,0.152029255,175636.222";
  "0,0.205926345,170845.2171";
  "0,0.261454622,166414.0306";
  "0,0.31317138,162471.6382";
  "0,0.369241907,158522.6738";
  "0,0.423677801,155059.2177";
  "0,0.479745866,151714.0579";
  "0,0.53690188,148488.0161";
  "0,0.603310144,145127.2477";
  "0,0.665363163,142135.3342";
  "0,0.84988463,134369.6674";
  "0,0.791643621,136752.0258";
  "0,0.72959208,139381.6565";
  ""].

(* ADRpy/data/engine_data/Jet_CSVs/JT9D-3_Thrust_data.csv *)
Definition lines_JT9D_3_Thrust_data : list string := [
  "Altitude (m),Mach Number,Thrust (N)";
  "0,-0.000779147,147005.2033";
  "0,0.047691493,138358.064";
  "0,0.096158686,130556.251";
  "0,0.14788825,123474.0746";
  "0,0.195804327,117363.7362";
  "0,0.250251548,111122.7787";
  "0,0.3046968,105364.865";
  "0,0.360229016,99967.59102";
  "0,0.423926025,94195.71174";
  "0,0.476732211,90010.15452";
  "0,0.532259502,85820.4898";
  "0,0.797362129,68996.93217";
  "0,0.743471933,72097.28407";
  "0,0.695024933,74947.89909";
  "0,0.590507899,81626.71756";
  "0,0.636778507,78658.62763";
  "4572,0.395695482,77331.90046";
  "4572,0.447408301,74355.5955";
  "4572,0.499662878,71982.27366";
  "4572,0.549739094,69974.52061";
  "4572,0.601446988,68205.82489";
  "4572,0.653699595,66315.54675";
  "4572,0.703774333,64670.07646";
  "4572,0.753848086,63266.12803";
  "4572,0.80990827,61853.14306";
  "4572,0.860526737,60327.6122";
  "4572,0.905157295,59173.40064";
  "4572,0.948698918,58141.59302";
  "4572,0.993874189,56865.79903";
  "7620,0.605296921,58297.67856";
  "7620,0.651560634,57020.24158";
  "7620,0.701089181,55858.63649";
  "7620,0.748439859,54941.83927";
  "7620,0.801232747,54016.82702";
  "7620,0.85130453,53095.92228";
  "7620,0.901919549,52415.71789";
  "7620,0.946548629,51623.78911";
  "7620,0.992809387,51070.91767";
  "10668,0.602641811,42119.8222";
  "10668,0.660329734,41911.98197";
  "10668,0.719106098,41702.49874";
  "10668,0.999921199,42003.16879";
  "10668,0.947675979,42082.03307";
  "10668,0.883459374,41816.68764";
  "10668,0.826316658,41782.18452";
  "10668,0.771895539,41622.81296";
  "13716,0.605970671,26536.73394";
  "13716,0.999443466,25701.2655";
  "13716,0.942299765,25908.28423";
  "13716,0.883523893,25997.00654";
  "13716,0.826380684,26083.26434";
  "13716,0.76651637,26173.62966";
  "13716,0.71427115,26252.49394";
  "13716,0.657672162,26337.93024";
  ""].

(* ADRpy/data/engine_data/Jet_CSVs/TF30_Sea_level_thrust_polynomial.csv *)
Definition lines_TF30_Sea_level_thrust_polynomial : list string := [
  "53040.21649714472,-38980.26785622635,39579.66867380147,7993.083753889554,-118430.37392602584,177440.3826183967,-112254.34754042722,26252.02520047006";
  "0,1.188096176,,,,,,";
  ""].

(* ADRpy/data/engine_data/Jet_CSVs/TF30_TSFC_data.csv *)
Definition lines_TF30_TSFC_data : list string := [
  "TSFC (g/(kNs)),Mach Number,Thrust (N)";
  "18.41164,0.043096811,30952.05345";
  "18.41164,0.047830543,33221.8478";
  "18.41164,0.054888887,35779.29533";
  "18.41164,0.063131931,38929.60876";
  "18.41164,0.067852564,40936.75747";
  "18.41164,0.076074904,43671.92135";
  "18.41164,0.083133248,46229.36887";
  "18.41164,0.087792613,47008.01378";
  "18.41164,0.090740283,48502.59758";
  "18.41164,0.09565939,49703.6878";
  "18.41164,0.042556364,29982.30027";
  "19.82792,0.18278679,29325.9704";
  "19.82792,0.186318328,30652.13982";
  "19.82792,0.191072662,33335.02614";
  "19.82792,0.193495998,35602.2044";
  "19.82792,0.194774081,38067.47955";
  "19.82792,0.198311422,39510.00382";
  "19.82792,0.203045436,41785.44646";
  "19.82792,0.206614101,43856.06095";
  "19.82792,0.208994292,45258.1224";
  "19.82792,0.211582748,46477.19541";
  "19.82792,0.181650712,28211.30844";
  "21.2442,0.317975436,30089.93498";
  "21.2442,0.317885012,28276.83282";
  "21.2442,0.320554419,35477.99703";
  "21.2442,0.320458079,33546.28071";
  "21.2442,0.319214222,31767.27321";
  "21.2442,0.322277543,39146.29036";
  "21.2442,0.321807149,37434.92578";
  "21.2442,0.324663762,40669.22528";
  "21.2442,0.325539986,42797.36561";
  "21.2442,0.32635798,43980.71195";
  "21.2442,0.318413712,27196.59987";
  "22.66048,0.452710591,39775.53824";
  "22.66048,0.449835376,41841.67204";
  "22.66048,0.458171199,38605.36259";
  "22.66048,0.461083881,27522.79641";
  "22.66048,0.462117312,25082.5288";
  "22.66048,0.463862304,36909.85014";
  "22.66048,0.46368878,33430.50145";
  "22.66048,0.463582581,31301.09486";
  "22.66048,0.462332808,29403.4732";
  "22.66048,0.468381948,34886.94156";
  "22.66048,0.473543677,22576.87387";
  "22.66048,0.494197079,19789.98928";
  "22.66048,0.503397496,18974.99591";
  "22.66048,0.522953453,17344.80427";
  "22.66048,0.548949801,15807.87828";
  "22.66048,0.570170028,14460.01034";
  "22.66048,0.582844052,13809.61487";
  "24.07676,0.576017794,39067.39271";
  "24.07676,0.588634986,37277.45407";
  "24.07676,0.60123908,35224.86978";
  "24.07676,0.611534619,33206.58504";
  "24.07676,0.618364789,31188.91497";
  "24.07676,0.62290387,29555.73863";
  "24.07676,0.629149472,27397.66972";
  "24.07676,0.632835768,24878.39134";
  "24.07676,0.636501534,24263.65323";
  "24.07676,0.643324522,22101.95169";
  "24.07676,0.651321646,20321.30505";
  "24.07676,0.659292911,18022.14508";
  "24.07676,0.670110819,9632.848461";
  "24.07676,0.68002152,16743.23378";
  "24.07676,0.691317579,11624.79938";
  "24.07676,0.698346659,13595.46992";
  "24.07676,0.699574979,15062.96397";
  "24.07676,0.68457367,10853.66369";
  "24.07676,0.571682242,39906.61588";
  "25.49304,0.708775347,37408.64925";
  "25.49304,0.731762868,35100.04774";
  "25.49304,0.747841795,33236.63143";
  "25.49304,0.755886075,32401.50909";
  "25.49304,0.773102885,30192.21235";
  "25.49304,0.788021618,28227.33165";
  "25.49304,0.802936295,26181.11553";
  "25.49304,0.820108358,23074.58739";
  "25.49304,0.828112032,21425.26357";
  "25.49304,0.838034887,11934.28676";
  "25.49304,0.843042005,19685.74978";
  "25.49304,0.84986964,17617.24507";
  "25.49304,0.847314742,12712.1121";
  "25.49304,0.854363438,15076.10558";
  "25.49304,0.830185721,11117.44079";
  "25.49304,0.699924313,38254.83912";
  "26.90932,0.826527715,35981.32525";
  "26.90932,0.858804049,34630.16482";
  "26.90932,0.88991326,33038.59197";
  "26.90932,0.935999643,30653.87689";
  "26.90932,0.971710457,28682.76641";
  "26.90932,0.991294048,27606.67235";
  "26.90932,0.806631078,36936.30821";
  "26.90932,0.998137206,27171.60257";
  "28.3256,0.947050856,34523.00874";
  "28.3256,0.970797198,33532.59595";
  "28.3256,0.999618474,32388.77772";
  "28.3256,1.048415735,30316.21759";
  "28.3256,1.071080414,29254.82755";
  "28.3256,1.09182331,28262.40575";
  "28.3256,1.106803777,27535.34854";
  "28.3256,1.119538888,26911.14441";
  "28.3256,0.92353447,35547.1874";
  ""].

(* ADRpy/data/engine_data/Jet_CSVs/TF30_Thrust_data.csv *)
Definition lines_TF30_Thrust_data : list string := [
  "Altitude (m),Mach Number,Thrust (N)";
  "0,0.010080432,52688.79076";
  "0,0.03719585,51601.38928";
  "0,0.062564758,50718.82879";
  "0,0.083324962,50073.43593";
  "0,0.117925829,49008.34421";
  "0,0.14330165,48264.42365";
  "0,0.168680468,47580.58039";
  "0,0.191754214,47000.87012";
  "0,0.228670788,46044.88682";
  "0,0.254054446,45458.09151";
  "0,0.279439948,44908.26684";
  "0,0.303673784,44427.96703";
  "0,0.346373449,43620.89579";
  "0,0.371762639,43145.01242";
  "0,0.397154594,42724.58503";
  "0,0.42254701,42313.40029";
  "0,0.44793862,41886.04089";
  "0,0.473331381,41481.78815";
  "0,0.498723797,41070.60341";
  "0,0.524114831,40631.69069";
  "0,0.549509091,40257.4766";
  "0,0.574904733,39910.9905";
  "0,0.600300146,39559.88306";
  "0,0.625695789,39213.39696";
  "0,0.651092353,38885.39617";
  "0,0.676488457,38548.15273";
  "0,0.706043279,38215.71728";
  "0,0.727281126,37882.90851";
  "0,0.752679534,37591.87837";
  "0,0.774613958,37329.1909";
  "0,0.805776225,36801.44843";
  "0,0.832973514,36550.66459";
  "0,0.856580417,36367.27075";
  "0,0.881978134,36062.37663";
  "0,0.904200734,35787.50694";
  "0,0.9535531,35194.72712";
  "0,0.978950126,34875.969";
  "0,1.004347151,34557.21088";
  "0,1.027768445,34328.58986";
  "0,1.055143968,33975.15062";
  "0,1.080539381,33624.04318";
  "0,1.105935254,33282.17841";
  "0,1.131328822,32894.10032";
  "0,1.156724696,32552.23555";
  "0,1.188096176,32092.85259";
  "3048,0.016822578,42149.12071";
  "3048,0.050521922,40863.57889";
  "3048,0.08742961,39729.41761";
  "3048,0.11280958,39068.68101";
  "3048,0.138193008,38477.26436";
  "3048,0.163581967,37996.75966";
  "3048,0.18204821,37678.30663";
  "3048,0.214367721,37192.87551";
  "3048,0.239768204,36943.43736";
  "3048,0.265165921,36638.54323";
  "3048,0.290566634,36393.7264";
  "3048,0.309037672,36171.39705";
  "3048,0.341364604,35834.77279";
  "3048,0.366764395,35571.47064";
  "3048,0.392167413,35372.86713";
  "3048,0.417569279,35151.15696";
  "3048,0.442973219,34971.03876";
  "3048,0.484542192,34654.03349";
  "3048,0.509947745,34506.26462";
  "3048,0.535354451,34381.60239";
  "3048,0.560762079,34275.4255";
  "3048,0.586168784,34150.76327";
  "3048,0.615428549,34078.56339";
  "3048,0.636985423,33966.13746";
  "3048,0.662392359,33846.09657";
  "3048,0.687799986,33739.91968";
  "3048,0.713206923,33619.87879";
  "3048,0.731683768,33514.00697";
  "3048,0.764020565,33375.17567";
  "3048,0.789427962,33264.37744";
  "3048,0.814834207,33130.47256";
  "3048,0.84023999,32987.32502";
  "3048,0.865644391,32816.44949";
  "3048,0.8852746,32675.09662";
  "3048,0.92337932,32381.04246";
  "3048,0.948779572,32126.98297";
  "3048,0.974179363,31863.68082";
  "3048,0.998424309,31606.12916";
  "3048,1.052684143,30976.31664";
  "3048,1.078079555,30625.20921";
  "3048,1.103473815,30250.99512";
  "3048,1.128864848,29812.08239";
  "3048,1.154254729,29350.06302";
  "3048,1.179642305,28841.83033";
  "3048,1.203398977,28311.39657";
  "6096,0.012567068,30450.23523";
  "6096,0.036507172,30072.08075";
  "6096,0.063824485,29654.39275";
  "6096,0.089220358,29312.52797";
  "6096,0.114616692,28979.90586";
  "6096,0.140014179,28670.3904";
  "6096,0.164258433,28398.97475";
  "6096,0.197739197,28036.26615";
  "6096,0.223141062,27814.55598";
  "6096,0.248542928,27592.84581";
  "6096,0.273947559,27426.59161";
  "6096,0.298198405,27287.34602";
  "6096,0.340925774,27035.75875";
  "6096,0.366333632,26934.20319";
  "6096,0.391742642,26855.75427";
  "6096,0.417151653,26777.30536";
  "6096,0.441408007,26748.50958";
  "6096,0.474902945,26670.01283";
  "6096,0.500314952,26651.64121";
  "6096,0.52572765,26647.1336";
  "6096,0.551139657,26628.76199";
  "6096,0.576553046,26638.11836";
  "6096,0.601965744,26633.61074";
  "6096,0.623220001,26629.84073";
  "6096,0.652791371,26629.21684";
  "6096,0.678207066,26684.78652";
  "6096,0.703621147,26708.00689";
  "6096,0.729035689,26740.46992";
  "6096,0.754450461,26777.55428";
  "6096,0.779866386,26837.74529";
  "6096,0.816835842,26942.1007";
  "6096,0.842251306,26993.04905";
  "6096,0.867666078,27030.13341";
  "6096,0.893082003,27090.32443";
  "6096,0.91849885,27169.00076";
  "6096,0.94391247,27182.97847";
  "6096,0.969325168,27178.47085";
  "6096,0.994738527,27187.21105";
  "6096,1.020150795,27174.07695";
  "6096,1.045562571,27151.08401";
  "6096,1.070969508,27031.04312";
  "6096,1.096378749,26957.21553";
  "6096,1.125945601,26866.01355";
  "6096,1.147194926,26763.34706";
  "6096,1.172604397,26694.14081";
  "6096,1.186462873,26631.60481";
  "9144,0.407222073,17687.90438";
  "9144,0.442128978,18043.10367";
  "9144,0.467553661,18278.90526";
  "9144,0.489510672,18469.10821";
  "9144,0.523023518,18749.68887";
  "9144,0.548446818,18957.76247";
  "9144,0.573870349,19170.45741";
  "9144,0.599292957,19364.66702";
  "9144,0.624716949,19586.60461";
  "9144,0.648213009,19754.19795";
  "9144,0.675561014,19951.91718";
  "9144,0.700983623,20146.12679";
  "9144,0.726403696,20289.50176";
  "9144,0.751824692,20451.36206";
  "9144,0.777246609,20631.70767";
  "9144,0.80266576,20756.59732";
  "9144,0.819998074,20863.28055";
  "9144,0.855817766,21075.2868";
  "9144,0.881237839,21218.66177";
  "9144,0.906657682,21357.41541";
  "9144,0.932075912,21463.81973";
  "9144,0.957495525,21597.95204";
  "9144,0.982914676,21722.84169";
  "9144,1.00024601,21809.88426";
  "10668,0.411136374,14223.76895";
  "10668,0.444255302,14354.87182";
  "10668,0.469675837,14507.48946";
  "10668,0.495094988,14632.3791";
  "10668,0.520515984,14794.2394";
  "10668,0.541316982,14966.82211";
  "10668,0.580606331,15264.20344";
  "10668,0.606030322,15486.14104";
  "10668,0.631454314,15708.07863";
  "10668,0.656878305,15930.01623";
  "10668,0.676526031,16139.88451";
  "10668,0.712351389,16465.49847";
  "10668,0.737776072,16701.30006";
  "10668,0.763201446,16950.96565";
  "10668,0.788625899,17182.1459";
  "10668,0.814051273,17431.81148";
  "10668,0.834853589,17630.8018";
  "10668,0.874146921,18008.06614";
  "10668,0.899568378,18179.1691";
  "10668,0.924990065,18354.89338";
  "10668,0.950409447,18484.40436";
  "10668,0.975828598,18609.29401";
  "10668,1.010161358,18738.33303";
  "10999.9272,0.406409309,13266.6896";
  "10999.9272,0.441902879,13509.57805";
  "10999.9272,0.467323644,13666.81702";
  "10999.9272,0.492745562,13847.16263";
  "10999.9272,0.518168631,14050.61491";
  "10999.9272,0.54359147,14249.44585";
  "10999.9272,0.569011032,14382.55119";
  "10999.9272,0.594438993,14684.07838";
  "10999.9272,0.619862523,14896.77331";
  "10999.9272,0.645286976,15127.95357";
  "10999.9272,0.670710737,15345.26984";
  "10999.9272,0.700295613,15615.45593";
  "10999.9272,0.721559181,15798.38769";
  "10999.9272,0.746984095,16038.81061";
  "10999.9272,0.77241016,16302.34018";
  "10999.9272,0.797835996,16561.24843";
  "10999.9272,0.823260448,16792.42869";
  "10999.9272,0.844833263,16999.64482";
  "10999.9272,0.874109584,17259.41053";
  "10999.9272,0.899534728,17504.45478";
  "10999.9272,0.924955493,17661.69375";
  "10999.9272,0.950374414,17781.96206";
  "10999.9272,0.975794026,17916.09437";
  "10999.9272,1.010686513,17982.18345";
  "12192,0.611954237,11888.73907";
  "12192,0.647454786,12271.56129";
  "12192,0.672880391,12525.8482";
  "12192,0.702351287,12826.78664";
  "12192,0.72373137,13029.8007";
  "12192,0.749155362,13251.73829";
  "12192,0.774579584,13478.29722";
  "12192,0.800003114,13690.99215";
  "12192,0.825427797,13926.79374";
  "12192,0.852776302,14134.52586";
  "12192,0.876273015,14315.21297";
  "12192,0.901696546,14527.9079";
  "12192,0.927118463,14708.25352";
  "12192,0.952539689,14874.73514";
  "12192,0.977961375,15050.45943";
  "12192,0.994138701,15160.04333";
  "13716,0.602579809,9214.627608";
  "13716,0.629785028,9525.349178";
  "13716,0.656571447,9777.176267";
  "13716,0.6912402,10073.26456";
  "13716,0.71666373,10285.95949";
  "13716,0.742087261,10498.65443";
  "13716,0.767508487,10665.13605";
  "13716,0.792930865,10854.72433";
  "13716,0.813731436,11018.72457";
  "13716,0.850704975,11204.94355";
  "13716,0.876126661,11380.66784";
  "13716,0.901546965,11528.66414";
  "13716,0.926967039,11672.03911";
  "13716,0.952386651,11806.17142";
  "13716,0.984944424,11971.57198";
  ""].

(* ADRpy/data/engine_data/Jet_CSVs/TFE731-2_Sea_level_thrust_polynomial.csv *)
Definition lines_TFE731_2_Sea_level_thrust_polynomial : list string := [
  "12996.010495445247,-13162.71259157205,3742.2751145247194,1513.0480300265694,154831.57876099987,-612291.9392106003,896917.2795427477,-470871.29446639726";
  "0,0.598858428,,,,,,";
  ""].

(* ADRpy/data/engine_data/Jet_CSVs/TFE731-2_Thrust_data.csv *)
Definition lines_TFE731_2_Thrust_data : list string := [
  "Altitude (m),Mach Number,Thrust (N)";
  "0,0.016378458,12782.9652";
  "0,0.038937141,12483.56918";
  "0,0.062687862,12187.53969";
  "0,0.086440238,11898.18689";
  "0,0.111380828,11596.77006";
  "0,0.136323403,11303.36526";
  "0,0.161270129,11026.71287";
  "0,0.187409281,10754.99166";
  "0,0.21355114,10494.19594";
  "0,0.23969721,10250.39542";
  "0,0.265847191,10022.37617";
  "0,0.29200018,9806.496351";
  "0,0.318157381,9607.611738";
  "0,0.344315182,9411.155012";
  "0,0.370473586,9217.126172";
  "0,0.3966359,9038.878596";
  "0,0.422801222,8872.770453";
  "0,0.44896895,8716.373856";
  "0,0.475136679,8559.977259";
  "0,0.501306814,8413.292209";
  "0,0.52747755,8269.035046";
  "0,0.553650092,8132.061542";
  "0,0.579822332,7993.874095";
  "0,0.598858428,7900.392934";
  "0,0.000218776,12993.92928";
  "3048,0.023069557,10942.21628";
  "3048,0.049208709,10670.49507";
  "3048,0.075351771,10414.55512";
  "3048,0.101500549,10181.6801";
  "3048,0.127652034,9959.730562";
  "3048,0.153806226,9748.706516";
  "3048,0.17996493,9555.89162";
  "3048,0.206124838,9367.932497";
  "3048,0.232287152,9189.684921";
  "3048,0.258451872,9021.148891";
  "3048,0.284619601,8864.752294";
  "3048,0.310789736,8718.067244";
  "3048,0.336958968,8567.740364";
  "3048,0.36313181,8431.980804";
  "3048,0.389304652,8296.221244";
  "3048,0.415477495,8160.461684";
  "3048,0.441652142,8031.985783";
  "3048,0.467826488,7902.29594";
  "3048,0.494001736,7776.247926";
  "3048,0.520177286,7651.413856";
  "3048,0.546353738,7530.221615";
  "3048,0.572531393,7413.885148";
  "3048,0.598708747,7296.334738";
  "3048,0.624887304,7183.640101";
  "3048,0.651067366,7077.01518";
  "3048,0.667727214,7008.390449";
  "3048,-0.000220051,11222.98326";
  "6096,0.249793919,7440.824577";
  "6096,0.284224642,7270.844716";
  "6096,0.310402297,7154.508249";
  "6096,0.336582058,7046.669385";
  "6096,0.362763323,6944.900238";
  "6096,0.388946392,6850.41475";
  "6096,0.415130665,6760.785036";
  "6096,0.441316141,6676.011095";
  "6096,0.46750282,6596.092928";
  "6096,0.493691004,6522.244477";
  "6096,0.519879187,6448.396026";
  "6096,0.54606737,6374.547575";
  "6096,0.572257057,6306.768841";
  "6096,0.598447346,6241.417993";
  "6096,0.624638839,6180.922919";
  "6096,0.650829729,6117.999958";
  "6096,0.677021522,6058.718827";
  "6096,0.703214518,6004.293469";
  "6096,0.729405108,5940.156565";
  "6096,0.755598104,5885.731207";
  "6096,0.782267637,5831.53024";
  "6096,0.807984999,5780.522321";
  "6096,0.822274494,5760.547309";
  "9144,0.30081895,5546.298702";
  "9144,0.33617988,5423.627167";
  "9144,0.362368966,5353.420546";
  "9144,0.388557149,5279.572095";
  "9144,0.414747438,5214.221247";
  "9144,0.44093893,5153.726173";
  "9144,0.467131626,5098.086872";
  "9144,0.49332763,5055.800947";
  "9144,0.519525138,5019.584739";
  "9144,0.545722646,4983.368531";
  "9144,0.571921659,4953.22204";
  "9144,0.598121573,4926.717378";
  "9144,0.624321488,4900.212717";
  "9144,0.650522305,4877.349885";
  "9144,0.676724025,4858.128884";
  "9144,0.702925444,4837.693939";
  "9144,0.729128968,4825.756597";
  "9144,0.755330086,4804.107709";
  "9144,0.781534513,4795.812198";
  "9144,0.807737435,4781.446969";
  "9144,0.833941261,4770.723571";
  "9144,0.860145387,4761.214116";
  "9144,0.886347708,4744.421001";
  "9144,0.912553639,4742.195206";
  "9144,0.929230332,4741.551301";
  "12192,0.348904598,3605.216017";
  "12192,0.383366438,3560.812327";
  "12192,0.409566353,3534.307666";
  "12192,0.435765967,3506.589061";
  "12192,0.461966784,3483.72623";
  "12192,0.488171211,3475.430718";
  "12192,0.514371126,3448.926057";
  "12192,0.540576756,3445.486318";
  "12192,0.566777573,3422.623487";
  "12192,0.592981699,3413.114032";
  "12192,0.619183418,3393.89303";
  "12192,0.645389048,3390.453292";
  "12192,0.67159528,3389.44144";
  "12192,0.697799105,3378.718042";
  "12192,0.724004134,3372.850417";
  "12192,0.750207658,3360.913075";
  "12192,0.77641389,3359.901224";
  "12192,0.802621024,3362.531202";
  "12192,0.828826654,3359.091464";
  "12192,0.855032585,3356.865669";
  "12192,0.881242125,3369.207193";
  "12192,0.907447755,3365.767455";
  "12192,0.933653686,3363.54166";
  "12192,0.949139031,3362.314455";
  "15240,0.437226926,2103.200748";
  "15240,0.47353278,2087.23148";
  "15240,0.499732996,2061.940762";
  "15240,0.525938927,2059.714967";
  "15240,0.55214215,2046.563682";
  "15240,0.578344772,2030.98451";
  "15240,0.604551004,2029.972658";
  "15240,0.630756935,2027.746863";
  "15240,0.656963467,2027.948955";
  "15240,0.683169398,2025.72316";
  "15240,0.709375931,2025.925251";
  "15240,0.735582162,2024.9134";
  "15240,0.761788394,2023.901548";
  "15240,0.787994626,2022.889696";
  "15240,0.814201158,2023.091788";
  "15240,0.840409796,2031.791483";
  "15240,0.866619637,2045.346951";
  "15240,0.89282617,2045.549042";
  "15240,0.919032402,2044.537191";
  "15240,0.945238633,2043.525339";
  "15240,0.977328762,2042.286304";
  ""].

(* ADRpy/data/engine_data/Jet_CSVs/TFE731-5_Sea_level_take_off_thrust_polynomial.csv *)
Definition lines_TFE731_5_Sea_level_take_off_thrust_polynomial : list string := [
  "19260.010001221915,-20368.437290926868,17777.923912976803,-80788.63668878577,374236.0274389862,-709900.3520808402,540671.4401397856,-113064.28071855425";
  "-0.001442636,0.599376265,,,,,,";
  ""].

(* ADRpy/data/engine_data/Jet_CSVs/TFE731-5_TSFC_data.csv *)
Definition lines_TFE731_5_TSFC_data : list string := [
  "Altitude (m),Mach Number,Thrust (N),TSFC (g/(kNs))";
  "6096,0.242474328,9633.574336,17.31506501";
  "6096,0.283869565,9336.618191,18.02885542";
  "6096,0.323513668,9097.792665,18.66549244";
  "6096,0.352585993,8941.997842,19.13411899";
  "6096,0.381658332,8816.931788,19.53278737";
  "6096,0.423945337,8658.35126,20.12182074";
  "6096,0.45301765,8539.658983,20.56670372";
  "6096,0.482089948,8432.142423,21.01529346";
  "6096,0.521733992,8314.359552,21.56895619";
  "6096,0.55080629,8229.596844,21.98204502";
  "6096,0.579878567,8166.090346,22.37292584";
  "6096,0.619522584,8078.150884,22.91567546";
  "6096,0.645055387,8039.788535,23.22078944";
  "6096,0.689119781,7965.138819,23.8793083";
  "6096,0.722596935,7930.546981,24.26245098";
  "6096,0.751669165,7891.182987,24.676144";
  "6096,0.780741389,7854.507661,25.0935671";
  "6096,0.830583508,7832.278409,25.73412048";
  "9144,0.290214458,6938.456868,17.80498232";
  "9144,0.331446665,6759.023686,18.48736892";
  "9144,0.360519005,6678.109844,18.87937914";
  "9144,0.385626954,6618.160994,19.1647372";
  "9144,0.426592525,6535.705611,19.64518844";
  "9144,0.455664855,6439.729842,20.12715673";
  "9144,0.482094242,6393.880051,20.45266363";
  "9144,0.518857204,6316.410773,20.96692754";
  "9144,0.553453563,6267.579751,21.40316362";
  "9144,0.582525864,6224.045255,21.80017133";
  "9144,0.611598156,6192.050043,22.17694465";
  "9144,0.640670463,6181.103315,22.45485557";
  "9144,0.669742746,6160.68,22.81039767";
  "9144,0.698059882,6144.081061,23.18658678";
  "9144,0.727887277,6146.919771,23.48757498";
  "9144,0.75695953,6144.222008,23.83197608";
  "9144,0.784710308,6134.800799,24.20504037";
  "9144,0.823032795,6118.029959,24.76378655";
  "9144,0.852105016,6139.173993,25.07036433";
  "9144,0.881177217,6143.240482,25.4793341";
  "9144,0.920821159,6184.284736,25.83223194";
  "9144,0.961523226,6224.062419,26.41126665";
  "12192,0.389595258,4369.765919,19.42487727";
  "12192,0.431882344,4314.237057,19.93523848";
  "12192,0.460954695,4281.53822,20.31956031";
  "12192,0.483419698,4268.132611,20.55313394";
  "12192,0.521742356,4261.240176,20.86077094";
  "12192,0.550814684,4259.285407,21.16390982";
  "12192,0.577244093,4257.513528,21.38785328";
  "12192,0.619531108,4254.662584,21.84519571";
  "12192,0.650585623,4252.546439,22.21285242";
  "12192,0.677675755,4250.666155,22.47670545";
  "12192,0.722605679,4255.961834,22.99532979";
  "12192,0.751677983,4253.953346,23.36047492";
  "12192,0.780750275,4259.894937,23.71182158";
  "12192,0.825680149,4265.800444,24.35222492";
  "12192,0.854752423,4278.511356,24.70714272";
  "12192,0.870610052,4294.919529,24.78106052";
  "12192,0.923468643,4345.107468,25.48269363";
  ""].

(* ADRpy/data/engine_data/Jet_CSVs/TFE731-5_Thrust_SL_TO_data.csv *)
Definition lines_TFE731_5_Thrust_SL_TO_data : list string := [
  "Altitude (m),Mach Number,Thrust (N)";
  "0,-0.001442636,19286.02739";
  "0,0.037971976,18522.68639";
  "0,0.062246223,18039.82057";
  "0,0.088819773,17546.39517";
  "0,0.122723694,16939.67674";
  "0,0.151862951,16443.47767";
  "0,0.178356072,16016.03532";
  "0,0.228695312,15222.813";
  "0,0.257843519,14799.92182";
  "0,0.279043212,14500.5338";
  "0,0.318800214,14001.25649";
  "0,0.347961411,13684.77998";
  "0,0.381499824,13330.1001";
  "0,0.422193246,12906.50574";
  "0,0.45135935,12630.23033";
  "0,0.47654925,12399.74429";
  "0,0.518795617,12020.15884";
  "0,0.548718894,11773.79395";
  "0,0.599376265,11351.62316";
  ""].

(* ADRpy/data/engine_data/Jet_CSVs/TFE731-5_Thrust_data.csv *)
Definition lines_TFE731_5_Thrust_data : list string := [
  "Altitude (m),Mach Number,Thrust (N)";
  "6096,0.237197832,9673.770209";
  "6096,0.27709103,9381.36795";
  "6096,0.314440487,9150.714776";
  "6096,0.344373337,8982.774039";
  "6096,0.382166541,8814.95215";
  "6096,0.426982259,8646.4092";
  "6096,0.456167513,8526.996888";
  "6096,0.484027726,8425.803667";
  "6096,0.522504528,8312.073122";
  "6096,0.551694015,8227.34411";
  "6096,0.580886101,8163.898032";
  "6096,0.620693333,8076.090778";
  "6096,0.649887728,8031.562863";
  "6096,0.679080679,7975.211096";
  "6096,0.712701227,7946.545166";
  "6096,0.737471779,7905.07343";
  "6096,0.766668194,7877.098909";
  "6096,0.79055448,7840.359865";
  "6096,0.825062469,7832.973718";
  "6096,0.84098923,7829.53874";
  "9144,0.282421198,6979.841343";
  "9144,0.323228478,6785.985162";
  "9144,0.352417966,6701.25615";
  "9144,0.380281527,6627.494266";
  "9144,0.418764218,6562.005038";
  "9144,0.447951342,6457.914803";
  "9144,0.477144636,6404.370866";
  "9144,0.510127351,6328.170476";
  "9144,0.535531406,6298.761643";
  "9144,0.564724934,6247.139418";
  "9144,0.589496785,6216.309148";
  "9144,0.6231169,6184.096063";
  "9144,0.652315914,6177.404475";
  "9144,0.681512329,6149.429954";
  "9144,0.721329954,6146.754435";
  "9144,0.750529545,6144.792388";
  "9144,0.779728559,6138.100801";
  "9144,0.819543873,6116.507119";
  "9144,0.848746351,6138.192776";
  "9144,0.87794652,6140.96027";
  "9144,0.910943132,6178.606685";
  "9144,0.936352342,6191.425896";
  "9144,0.965199903,6230.083063";
  "12192,0.358686323,4376.246548";
  "12192,0.392614654,4367.463585";
  "12192,0.426454366,4322.032333";
  "12192,0.454745702,4287.052829";
  "12192,0.479538588,4269.774164";
  "12192,0.522010025,4261.221369";
  "12192,0.551209616,4259.259322";
  "12192,0.579081953,4257.386459";
  "12192,0.620226831,4254.621757";
  "12192,0.649426423,4252.65971";
  "12192,0.678626014,4250.697663";
  "12192,0.723753667,4255.956391";
  "12192,0.752953258,4253.994344";
  "12192,0.782153858,4260.294708";
  "12192,0.815778617,4266.127911";
  "12192,0.840554483,4268.194467";
  "12192,0.869757468,4294.03137";
  "12192,0.890996203,4314.465656";
  "12192,0.922511827,4344.00681";
  "12192,0.963958771,4404.105647";
  ""].

(* ADRpy/data/engine_data/Turboprop_CSVs/T56-A_BSFC_data.csv *)
Definition lines_T56_A_BSFC_data : list string := [
  "Altitude (m),TAS (m/s),BSFC (g/(kWh)),Mach Number";
  "3048,25.29361749,326.6428841,0.07702379145725595";
  "3048,38.77680409,325.3142867,0.11808261403446366";
  "3048,48.49576629999999,324.5064343,0.14767866998573087";
  "3048,58.21472850000001,323.3620744,0.17727472590654628";
  "3048,67.93369071,322.31385960000006,0.20687078185781346";
  "3048,77.65265292,321.12142719999997,0.2364668378090807";
  "3048,87.37161513,319.73670489999995,0.2660628937603479";
  "3048,97.09057734,318.35198260000004,0.29565894971161516";
  "3048,106.8095395,316.4865354,0.3252550055106231";
  "3048,116.52850179999999,315.00566810000004,0.3548510617359571";
  "3048,126.247464,313.23636580000004,0.3844471176567725";
  "3048,135.9664262,311.3228461,0.41404317357758785";
  "3048,145.6853884,309.6016163,0.4436392294984032";
  "3048,155.40435060000001,307.832314,0.4732352854192186";
  "3048,165.1233128,305.8226493,0.5028313413400339";
  "3048,174.842275,303.57262210000005,0.5324273972608493";
  "3048,180.1435271,302.1574148,0.5485707004627014";
  "9144,11.4991474,306.0496678,0.037929254064176014";
  "9144,24.64013178,305.9492793,0.0812740097981871";
  "9144,34.35909399,304.9972094,0.11333142884676939";
  "9144,44.078056200000006,304.7662269,0.1453888478953517";
  "9144,53.79701841,304.05451949999997,0.17744626694393398";
  "9144,63.51598062,303.19859460000004,0.2095036859925163";
  "9144,73.23494283,302.1503798,0.24156110504109857";
  "9144,82.95390503,301.1021649,0.2736185240566965";
  "9144,92.67286724,300.19816749999995,0.3056759431052788";
  "9144,102.3918294,299.0057352,0.33773336198893905";
  "9144,112.11079170000001,297.81330289999994,0.36979078133438104";
  "9144,121.82975390000001,296.38050810000004,0.4018482003499789";
  "9144,131.54871609999998,294.9957857,0.4339056193655767";
  "9144,141.2676783,293.5149184,0.4659630383811747";
  "9144,150.9866405,292.03405110000006,0.49802045739677253";
  "9144,160.7056027,290.36089389999995,0.5300778764123704";
  "9144,170.4245649,288.68773660000005,0.5621352954279684";
  "9144,180.1435271,287.0626518,0.5941927144435663";
  "9144,189.86248930000002,285.4856395,0.6262501334591642";
  "9144,199.5814515,283.5240473,0.658307552474762";
  "9144,209.30041369999998,281.947035,0.6903649714903599";
  "9144,219.0193759,280.1296602,0.7224223905059578";
  "9144,228.7383382,278.3122855,0.7544798098513997";
  "9144,238.4573004,277.0237081,0.7865372288669977";
  "9144,248.17626260000003,275.7832033,0.8185946478825956";
  "9144,257.8952248,274.5426985,0.8506520668981934";
  "9144,267.614187,273.39833860000005,0.8827094859137914";
  "9144,277.33314920000004,271.96554380000003,0.9147669049293894";
  "9144,287.05211139999994,270.96540150000004,0.946824323944987";
  "9144,296.7710736,270.0133316,0.978881742960585";
  "9144,305.99219189999997,269.5189344,1.0092970534693033";
  ""].

(* ADRpy/data/engine_data/Turboprop_CSVs/T56-A_Power_data.csv *)
Definition lines_T56_A_Power_data : list string := [
  "Altitude (m),TAS (m/s),Power (W),Mach Number";
  "0,0.959862567,3398351.374,0.0028206862324185733";
  "0,11.81927591,3403924.58,0.03473254399397107";
  "0,20.02656552,3410194.4960000003,0.05885077675384803";
  "0,27.98514939,3420974.403,0.08223815399246634";
  "0,36.44114475,3435549.764,0.10708724230298833";
  "0,44.64843436,3450199.005,0.1312054750628653";
  "0,52.85572398,3469284.358,0.15532370785212862";
  "0,61.06301359,3488862.613,0.17944194061200558";
  "0,69.2703032,3512876.982,0.20356017337188256";
  "0,77.47759282,3538370.055,0.22767840616114587";
  "0,85.68488243,3570270.847,0.25179663892102283";
  "0,93.89217204,3600200.0330000003,0.27591487168089984";
  "0,102.0994617,3634072.43,0.3000331045877086";
  "0,107.32228229999998,3657658.9439999997,0.3153810707104588";
  "3048,1.163872085,2751163.6610000003,0.0035442079723631364";
  "3048,11.81927591,2742943.702,0.03599190361867092";
  "3048,20.02656552,2740834.292,0.060984634041666784";
  "3048,28.23385514,2743160.9960000003,0.08597736449511453";
  "3048,36.44114475,2750416.7139999997,0.1109700949181104";
  "3048,44.64843436,2759644.038,0.1359628253411063";
  "3048,52.85572398,2774293.2789999996,0.16095555579455403";
  "3048,61.06301359,2793378.6319999998,0.18594828621754989";
  "3048,69.2703032,2810985.2810000004,0.21094101664054576";
  "3048,77.47759282,2835985.453,0.2359337470939935";
  "3048,85.68488243,2860492.723,0.2609264775169894";
  "3048,93.89217204,2888943.204,0.28591920793998526";
  "3048,102.0994617,2917886.587,0.3109119385152405";
  "3048,110.3067513,2950773.182,0.3359046689077845";
  "3048,118.5140409,2989081.693,0.3608973993003285";
  "3048,126.7213305,3028868.909,0.38589012969287245";
  "3048,134.9286201,3068656.124,0.41088286008541647";
  "3048,143.13590969999998,3113865.256,0.43587559047796043";
  "3048,151.3431993,3160060.191,0.4608683208705045";
  "3048,159.550489,3208719.633,0.4858610515675672";
  "3048,167.7577786,3258364.878,0.5108537819601112";
  "3048,175.9650682,3309981.729,0.5358465123526551";
  "3048,184.17235780000001,3365541.792,0.5608392427451993";
  "3048,192.3796474,3418637.347,0.5858319731377433";
  "3048,200.586937,3469761.297,0.6108247035302873";
  "3048,208.79422659999997,3526800.064,0.6358174339228312";
  "3048,218.4995037,3594613.1539999996,0.6653718161570381";
  "6096,50.61737226,2137636.583,0.16016540492196463";
  "6096,58.82466188,2149328.415,0.18613522134283658";
  "6096,67.03195149,2163484.754,0.21210503773206615";
  "6096,75.2392411,2182077.206,0.23807485412129575";
  "6096,83.44653072,2200669.6580000003,0.2640446705421677";
  "6096,91.65382033,2222712.421,0.2900144869313973";
  "6096,99.86110994,2246726.789,0.3159843033206269";
  "6096,108.0683996,2274684.369,0.3419541198680684";
  "6096,116.2756892,2306092.26,0.36792393622565556";
  "6096,124.4829788,2338485.953,0.3938937525832428";
  "6096,132.6902684,2372851.252,0.41986356894083";
  "6096,140.897558,2409681.059,0.4458333852984172";
  "6096,149.1048476,2449961.176,0.47180320165600437";
  "6096,157.3121372,2490241.293,0.4977730180135916";
  "6096,165.5194269,2531507.213,0.5237428346876026";
  "6096,173.7267165,2572280.232,0.5497126510451898";
  "6096,181.9340061,2615517.7569999998,0.5756824674027771";
  "6096,190.1412957,2659741.086,0.6016522837603642";
  "6096,198.34858530000002,2702978.6119999997,0.6276221001179515";
  "6096,206.55587490000002,2747694.8419999997,0.6535919164755387";
  "6096,214.7631645,2795368.482,0.6795617328331258";
  "6096,222.97045409999998,2841070.515,0.705531549190713";
  "6096,231.1777438,2888251.253,0.731501365864724";
  "6096,239.38503340000003,2935431.99,0.7574711822223114";
  "6096,247.592323,2985570.137,0.7834409985798985";
  "6096,255.79961260000002,3036694.086,0.8094108149374857";
  "6096,264.0069022,3083874.8239999996,0.8353806312950729";
  "6096,272.2141918,3131548.463,0.86135044765266";
  "6096,280.4214814,3178729.2010000004,0.8873202640102473";
  "6096,288.6287711,3228867.347,0.9132900806842582";
  "6096,296.83606069999996,3277526.789,0.9392598970418453";
  "6096,302.0588813,3308342.525,0.9557861436422607";
  "6096,39.37383688,2122252.4069999997,0.12458818476043472";
  "9144,60.64924157,1568049.761,0.2000479176663233";
  "9144,71.50865492,1580038.2880000002,0.23586704699934277";
  "9144,79.71594453,1590744.3159999999,0.2629383038471298";
  "9144,87.92323414,1604407.754,0.2900095606949168";
  "9144,96.13052376,1619056.994,0.3170808175756882";
  "9144,104.3378134,1638635.249,0.3441520745224284";
  "9144,112.545103,1661170.9130000002,0.371223331337231";
  "9144,120.7523926,1685185.281,0.39829458815203356";
  "9144,128.9596822,1710678.354,0.4253658449668362";
  "9144,137.1669718,1740114.639,0.45243710178163876";
  "9144,145.3742614,1769550.9230000002,0.47950835859644136";
  "9144,153.58155109999998,1800958.814,0.506579615741088";
  "9144,161.78884069999998,1834831.2119999998,0.5336508725558906";
  "9144,169.9961303,1869689.4119999998,0.5607221293706932";
  "9144,178.2034199,1904054.7119999998,0.5877933861854958";
  "9144,186.4107095,1940884.519,0.6148646430002984";
  "9144,194.6179991,1977714.325,0.641935899815101";
  "9144,202.8252887,2012079.625,0.6690071566299035";
  "9144,211.03257830000004,2051373.939,0.6960784134447063";
  "9144,219.23986800000003,2090668.253,0.723149670589353";
  "9144,227.4471576,2129469.665,0.7502209274041555";
  "9144,235.6544472,2168271.078,0.7772921842189581";
  "9144,243.86173680000002,2208058.294,0.8043634410337607";
  "9144,252.06902639999998,2249324.213,0.8314346978485632";
  "9144,260.276316,2292068.838,0.8585059546633659";
  "9144,268.48360560000003,2332841.856,0.8855772114781685";
  "9144,276.6908953,2374600.6780000003,0.9126484686228151";
  "9144,284.8981849,2416359.499,0.9397197254376176";
  "9144,293.1054745,2459597.025,0.9667909822524203";
  "9144,301.31276410000004,2500370.044,0.993862239067223";
  "9144,306.53558480000004,2525435.262,1.0110894026447537";
  "12192,79.50618203,1060398.449,0.26944900702707075";
  "12192,90.16158586,1065001.529,0.30556051317866284";
  "12192,98.36887547,1074228.854,0.33337528153169044";
  "12192,106.57616509999998,1084934.882,0.36119004995249854";
  "12192,114.78345470000001,1098598.3190000001,0.3890048182716359";
  "12192,122.9907443,1115219.166,0.4168195865907732";
  "12192,131.1980339,1132825.815,0.44463435490991043";
  "12192,139.4053235,1152404.07,0.4724491232290477";
  "12192,147.6126132,1172475.227,0.5002638918870882";
  "12192,155.81990280000002,1195503.7920000001,0.5280786602062255";
  "12192,164.02719240000002,1218039.456,0.5558934285253627";
  "12192,172.234482,1241068.021,0.5837081968445";
  "12192,180.4417716,1266561.094,0.6115229651636372";
  "12192,188.6490612,1290575.462,0.6393377334827745";
  "12192,196.8563508,1315575.634,0.6671525018019118";
  "12192,205.0636404,1341068.707,0.694967270121049";
  "12192,213.2709301,1369519.188,0.7227820387790894";
  "12192,221.47821969999998,1397969.67,0.7505968070982266";
  "12192,229.68550930000004,1425434.3480000002,0.7784115754173642";
  "12192,237.8927989,1454377.7319999998,0.8062263437365013";
  "12192,246.10008849999997,1483321.115,0.8340411120556385";
  "12192,254.3073781,1512264.4980000001,0.8618558803747758";
  "12192,262.51466769999996,1543672.388,0.8896706486939129";
  "12192,270.72195739999995,1572615.771,0.9174854173519533";
  "12192,278.92924700000003,1601559.155,0.9453001856710909";
  "12192,287.13653660000006,1630995.439,0.9731149539902283";
  "12192,295.3438262,1659938.822,1.0009297223093654";
  "12192,306.6112586,1704950.7969999998,1.039115412961434";
  "15240,95.17464402,651557.2539,0.3225499284529527";
  "15240,105.83004779999999,660604.049,0.35866143443509313";
  "15240,114.0373375,668845.5701,0.3864762030931337";
  "15240,122.24462709999999,678565.7957,0.4142909714122709";
  "15240,130.45191670000003,689764.7257,0.44210573973140826";
  "15240,138.65920630000002,700470.7543,0.4699205080505455";
  "15240,146.8664959,712655.4872,0.4977352763696827";
  "15240,155.07378549999999,727304.7275,0.5255500446888199";
  "15240,163.28107509999998,739982.3620000001,0.5533648130079571";
  "15240,171.4883648,752167.0949,0.5811795816659977";
  "15240,179.6956544,769280.8426,0.608994349985135";
  "15240,187.902944,785901.6889,0.6368091183042722";
  "15240,196.1102336,802522.5351,0.6646238866234094";
  "15240,204.31752319999998,819143.3814,0.6924386549425467";
  "15240,212.5248128,836750.0305,0.7202534232616841";
  "15240,220.73210240000003,852385.0738,0.7480681915808214";
  "15240,228.939392,870977.526,0.7758829598999586";
  "15240,237.1466817,890555.781,0.803697728557999";
  "15240,245.3539713,909148.2332,0.8315124968771364";
  "15240,253.5612609,924783.2765,0.8593272651962736";
  "15240,261.7685505,944361.5315,0.8871420335154109";
  "15240,269.9758401,966404.2940000001,0.9149568018345482";
  "15240,278.1831297,984503.8447,0.9427715701536853";
  "15240,286.3904193,1003096.297,0.9705863384728227";
  "15240,294.597709,1022181.65,0.9984011071308632";
  "15240,302.8049986,1041759.905,1.0262158754500004";
  "15240,306.634713,1049367.229,1.039194900677094";
  ""].

(* ADRpy/data/engine_data/Turboprop_CSVs/T56-A_Thrust_data.csv *)
Definition lines_T56_A_Thrust_data : list string := [
  "Altitude (m),TAS (m/s),Thrust (N),Mach Number";
  "0,-0.094431845,3534.0763869999996,-0.0002775007738096163";
  "0,12.86235998,3364.2378689999996,0.037797787891021735";
  "0,22.70130937,3238.501698,0.06671087403477602";
  "0,32.54025877,3114.166921,0.09562396020791666";
  "0,42.37920816,2984.226568,0.12453704635167094";
  "0,52.21815756,2861.993882,0.1534501325248116";
  "0,62.05710696,2739.761195,0.18236321869795222";
  "0,71.89605635,2620.3312960000003,0.21127630484170648";
  "0,81.73500575,2500.901398,0.24018939101484715";
  "0,91.57395514,2390.580559,0.2691024771586014";
  "0,101.41290450000001,2276.7562359999997,0.2980155632141967";
  "0,111.25185390000001,2166.4353969999997,0.32692864938733734";
  "0,121.0908033,2053.31177,0.35584173556047793";
  "0,130.9297527,1949.9979010000002,0.3847548217336186";
  "0,140.76870209999998,1838.275668,0.41366790790675917";
  "0,150.6076515,1737.06389,0.44258099407989987";
  "0,160.44660090000002,1630.947233,0.47149408025304057";
  "0,170.2855503,1528.33406,0.5004071664261812";
  "0,180.1244997,1424.3194939999998,0.5293202525993218";
  "0,189.9634491,1318.903534,0.5582333387724624";
  "0,197.46547560000002,1237.858232,0.5802790603072927";
  "0,217.6913974,1016.280316,0.6397156725064166";
  "0,228.2970182,909.4295950999999,0.6708817264867382";
  "0,237.36929619999998,825.7686062000001,0.6975418448526979";
  "0,246.60626150000002,733.3702859,0.7246859191679099";
  "0,257.3368567,631.6448027,0.7562192273589947";
  "3048,0.521364581,2752.954872,0.0015876525679262826";
  "3048,15.54570981,2609.820842,0.0473395911412772";
  "3048,25.02687923,2521.1437530000003,0.07621152361458639";
  "3048,35.2236086,2429.819587,0.10726246984050548";
  "3048,45.062558,2344.723838,0.13722390920534558";
  "3048,54.90150739,2261.029482,0.16718534853973377";
  "3048,64.74045679,2178.7365210000003,0.19714678790457385";
  "3048,74.57940619,2098.54565,0.22710822726941396";
  "3048,84.41835558,2023.2596579999997,0.25706966660380215";
  "3048,94.25730498,1944.470181,0.28703110596864223";
  "3048,104.0962544,1867.082098,0.3169925453943861";
  "3048,113.9352038,1793.1974989999999,0.3469539847592261";
  "3048,123.77415320000001,1720.714295,0.37691542412406626";
  "3048,133.6131026,1648.23109,0.4068768634889063";
  "3048,143.452052,1576.448583,0.4368383028537464";
  "3048,153.2910014,1505.366772,0.46679974221858644";
  "3048,163.1299507,1437.788446,0.49676118127890784";
  "3048,172.96890009999998,1366.706635,0.5267226206437479";
  "3048,182.8078495,1304.033188,0.556684060008588";
  "3048,192.199574,1240.3164800000002,0.5852836159874035";
  "3048,236.47484619999997,959.7574301000001,0.7201100928246651";
  "3048,252.57494530000002,864.4626478,0.7691379029435552";
  "3048,262.41389469999996,807.3947757,0.7990993423083951";
  "3048,270.46394419999996,760.0476832,0.8236132472155807";
  "3048,284.7751433,671.0702954,0.8671935225722978";
  "3048,291.0362929,634.244779,0.8862598930218288";
  "6096,1.0016141729999999,2104.069861,0.0031693454723428524";
  "6096,14.65125987,1991.261165,0.04636007095828409";
  "6096,24.49020926,1920.880051,0.07749284697363204";
  "6096,34.32915866,1853.301725,0.10862562302062236";
  "6096,44.16810805,1789.2268829999998,0.13975839903597032";
  "6096,54.00705745,1733.5604050000002,0.17089117508296064";
  "6096,63.84600685,1679.996018,0.20202395112995097";
  "6096,73.68495624,1627.833024,0.23315672714529895";
  "6096,83.52390564,1579.173515,0.2642895031922892";
  "6096,93.36285503,1532.616097,0.2954222792076372";
  "6096,103.20180440000001,1488.16077,0.32655505515970046";
  "6096,113.04075379999999,1445.106836,0.3576878312066907";
  "6096,122.87970320000001,1404.1549929999999,0.38882060725368106";
  "6096,132.71865259999998,1362.502454,0.41995338330067133";
  "6096,142.557602,1320.8499140000001,0.4510861593476617";
  "6096,152.3965514,1283.401556,0.482218935394652";
  "6096,162.2355008,1248.0552890000001,0.5133517114416424";
  "6096,172.07445019999997,1212.0083240000001,0.5444844874886327";
  "6096,181.9133996,1178.764148,0.575617263535623";
  "6096,191.752349,1143.417881,0.6067500395826134";
  "6096,205.0847461,1100.0741369999998,0.6489369150516389";
  "6096,240.76672050000002,992.3644499,0.7618431688341456";
  "6096,253.9309441,954.2499356000001,0.803497903349937";
  "6096,291.69148010000004,846.1784015000001,0.9229812204104269";
  "6096,307.2806923,825.5531422,0.9723091956281477";
  "6096,274.0237064,891.0473866000001,0.8670761822311466";
  "6096,224.83108149999998,1036.931896,0.7114190168253258";
  "9144,58.57169825,1285.0310060000002,0.19319526453713462";
  "9144,71.89605635,1233.652074,0.237144867584832";
  "9144,81.73500575,1197.60511,0.2695980572462822";
  "9144,91.57395514,1168.565115,0.30205124687474805";
  "9144,101.41290450000001,1139.52512,0.3345044364042607";
  "9144,111.25185390000001,1113.9886099999999,0.3669576260657109";
  "9144,121.0908033,1093.356978,0.3994108157271611";
  "9144,130.9297527,1073.426043,0.4318640053886113";
  "9144,140.76870209999998,1051.393017,0.46431719505006147";
  "9144,150.6076515,1036.366961,0.49677038471151175";
  "9144,160.44660090000002,1019.238814,0.5292235743729621";
  "9144,170.2855503,1000.709273,0.5616767640344122";
  "9144,180.1244997,987.0846103,0.5941299536958624";
  "9144,189.9634491,974.8613417000001,0.6265831433573126";
  "9144,199.8023985,960.5359822,0.6590363330187629";
  "9144,209.6413479,949.0134105000001,0.691489522680213";
  "9144,219.03307230000001,938.1292515,0.7224675672670945";
  "9144,233.6754787,924.3040299,0.7707646742731771";
  "9144,239.15819610000003,919.0427963,0.7888490916645639";
  "9144,254.3638451,908.2951333999999,0.8390040209014639";
  "9144,261.07221969999995,905.7384714,0.8611311957006201";
  "9144,293.85151030000003,876.43315,0.9692517369862166";
  "12192,78.61716332,826.7785075,0.2664360940368884";
  "12192,91.57395514,811.9103781,0.31034707807631995";
  "12192,101.41290450000001,800.3878063999999,0.34369159378003344";
  "12192,111.25185390000001,788.1645377,0.37703610961930817";
  "12192,121.0908033,780.1454506,0.41038062545858284";
  "12192,130.9297527,772.1263636,0.4437251412978575";
  "12192,140.76870209999998,762.7058826,0.4770696571371322";
  "12192,150.6076515,758.8909771000001,0.5104141729764069";
  "12192,160.44660090000002,750.1711931,0.5437586888156817";
  "12192,170.2855503,746.3562876,0.5771032046549563";
  "12192,180.1244997,738.3372006,0.610447720494231";
  "12192,189.9634491,736.6243857999999,0.6437922363335057";
  "12192,199.8023985,734.9115711000001,0.6771367521727805";
  "12192,209.6413479,733.1987564,0.7104812680120551";
  "12192,219.48029730000002,731.4859417,0.7438257838513299";
  "12192,229.31924669999998,729.7731269999999,0.7771702996906046";
  "12192,237.81652119999998,729.2573362,0.8059678361588697";
  "12192,253.9805095,728.9791779,0.8607481121805354";
  "12192,264.2027945,725.802511,0.8953917646924671";
  "12192,283.8806933,735.2520837999999,0.9620807963710166";
  "12192,293.71964269999995,733.9773085,0.9954253122102911";
  "12192,303.5585921,739.9721601,1.028769828049566";
  "12192,318.9403725,745.7027841,1.0808991763501117";
  "15240,103.3153348,522.5806377,0.35013899122995484";
  "15240,116.61855359999998,510.4549882,0.39522402744224966";
  "15240,126.457503,506.64008269999994,0.42856854328152444";
  "15240,136.2964524,498.6209956999999,0.4619130591207991";
  "15240,146.1354018,491.30260549999997,0.4952575749600739";
  "15240,155.9743512,488.18839689999993,0.5286020907993486";
  "15240,165.81330060000002,486.47558219999996,0.5619466066386233";
  "15240,175.65225,484.7627675,0.5952911224778981";
  "15240,185.4911994,487.25413439999994,0.6286356383171727";
  "15240,195.33014880000002,489.04480430000007,0.6619801541564475";
  "15240,205.16909819999998,487.33198960000004,0.6953246699957221";
  "15240,215.00804759999997,489.8233563999999,0.7286691858349967";
  "15240,224.84699700000002,491.61402639999994,0.7620137016742716";
  "15240,234.6859464,491.30260549999997,0.7953582175135463";
  "15240,244.5248958,495.8960632,0.828702733352821";
  "15240,254.3638451,500.48952080000004,0.8620472488531924";
  "15240,264.2027945,502.2801907,0.8953917646924671";
  "15240,274.0417439,508.27504220000003,0.9287362805317417";
  "15240,283.8806933,512.1678029,0.9620807963710166";
  "15240,293.71964269999995,523.067533,0.9954253122102911";
  "15240,303.5585921,530.4637783,1.028769828049566";
  "15240,313.3975415,537.8600237,1.0621143438888407";
  "15240,325.45988339999997,545.1806303,1.1029940083927863";
  ""].

(* ADRpy/data/engine_data/Turboprop_CSVs/Tyne_RTy11_Airflow_data.csv *)
Definition lines_Tyne_RTy11_Airflow_data : list string := [
  "Altitude (m),TAS (m/s),Intake Airflow (kg/s),Mach Number";
  "0,0.0,18.367456,0.0";
  "1524,0.0,15.69818982,0.0";
  "3048,0.0,13.48331337,0.0";
  "4572,0.0,11.56090929,0.0";
  "6096,0.0,9.897062449,0.0";
  "7620,0.0,8.266583713,0.0";
  "0,51.4444,18.51205113,0.15117634107616373";
  "1524,51.4444,16.13161053,0.15384388474110552";
  "3048,51.4444,13.46690283,0.15665781056467057";
  "4572,51.4444,11.64095628,0.1596320156891243";
  "6096,51.4444,9.944835366,0.16278231739577698";
  "7620,51.4444,8.314356631,0.16612680825092035";
  "9144,51.4444,6.9431644939999995,0.16968629498384347";
  "10668,51.4444,5.669706263999999,0.17348484547455112";
  "0,102.8888,18.78774827,0.30235268215232747";
  "1524,102.8888,16.60149911,0.30768776948221105";
  "3048,102.8888,14.09797942,0.31331562112934114";
  "4572,102.8888,12.04629672,0.3192640313782486";
  "6096,102.8888,10.25371828,0.32556463479155395";
  "7620,102.8888,8.816154604,0.3322536165018407";
  "9144,102.8888,7.251682725,0.33937258996768693";
  "10668,102.8888,5.97676578,0.34696969094910224";
  "0,154.3332,19.51747047,0.45352902322849115";
  "1524,154.3332,17.17058031,0.4615316542233166";
  "3048,154.3332,14.76315348,0.4699734316940117";
  "4572,154.3332,12.71037674,0.4788960470673729";
  "6096,154.3332,10.88443019,0.4883469521873309";
  "7620,154.3332,9.221859725,0.49838042475276106";
  "9144,154.3332,7.65592913,0.5090588849515304";
  "10668,154.3332,6.250639529,0.5204545364236534";
  "0,205.7776,6.726180632,0.6047053643046549";
  "1524,205.7776,8.322014885,0.6153755389644221";
  "3048,205.7776,9.792217305,0.6266312422586823";
  "4572,205.7776,11.74416037,0.6385280627564972";
  "6096,205.7776,13.95575471,0.6511292695831079";
  "7620,205.7776,15.68688478,0.6645072330036814";
  "9144,205.7776,18.192410199999998,0.6787451799353739";
  "10668,205.7776,20.92677154,0.6939393818982045";
  ""].

(* ADRpy/data/engine_data/Turboprop_CSVs/Tyne_RTy11_BSFC_data.csv *)
Definition lines_Tyne_RTy11_BSFC_data : list string := [
  "Altitude (m),TAS (m/s),BSFC (g/(kWh)),Mach Number";
  "0,0.0,318.4970739,0.0";
  "1524,0.0,309.7860998,0.0";
  "3048,0.0,302.2453695,0.0";
  "4572,0.0,296.9981959,0.0";
  "6096,0.0,292.3944294,0.0";
  "7620,0.0,290.9849896,0.0";
  "0,51.4444,315.9930852,0.15117634107616373";
  "1524,51.4444,307.00658139999996,0.15384388474110552";
  "3048,51.4444,299.8942845,0.15665781056467057";
  "4572,51.4444,294.25349730000005,0.1596320156891243";
  "6096,51.4444,290.34612430000004,0.16278231739577698";
  "7620,51.4444,288.6611548,0.16612680825092035";
  "9144,51.4444,296.5107205,0.16968629498384347";
  "10668,51.4444,288.9336566,0.17348484547455112";
  "0,102.8888,309.6937519,0.30235268215232747";
  "1524,102.8888,300.3015233,0.30768776948221105";
  "3048,102.8888,294.32465049999996,0.31331562112934114";
  "4572,102.8888,288.1161512,0.3192640313782486";
  "6096,102.8888,284.4827939,0.32556463479155395";
  "7620,102.8888,282.1831815,0.3322536165018407";
  "9144,102.8888,281.9000824,0.33937258996768693";
  "10668,102.8888,282.25433480000004,0.34696969094910224";
  "0,154.3332,301.503559,0.45352902322849115";
  "1524,154.3332,290.49902810000003,0.4615316542233166";
  "3048,154.3332,284.53578039999996,0.4699734316940117";
  "4572,154.3332,279.33856549999996,0.4788960470673729";
  "6096,154.3332,275.2752609,0.4883469521873309";
  "7620,154.3332,272.3791724,0.49838042475276106";
  "9144,154.3332,270.8107731,0.5090588849515304";
  "10668,154.3332,270.8713291,0.5204545364236534";
  "0,205.7776,290.7018905,0.6047053643046549";
  "1524,205.7776,277.220621,0.6153755389644221";
  "3048,205.7776,271.996156,0.6266312422586823";
  "4572,205.7776,267.6739747,0.6385280627564972";
  "6096,205.7776,264.0799787,0.6511292695831079";
  "7620,205.7776,261.9090477,0.6645072330036814";
  "9144,205.7776,260.0560355,0.6787451799353739";
  "10668,205.7776,258.8464303,0.6939393818982045";
  ""].

(* ADRpy/data/engine_data/Turboprop_CSVs/Tyne_RTy11_Power_data.csv *)
Definition lines_Tyne_RTy11_Power_data : list string := [
  "Altitude (m),TAS (m/s),Power (W),Mach Number";
  "0,0,3042596.842,0";
  "1524,0,2786140.287,0";
  "3048,0,2536960.336,0";
  "4572,0,2265793.473,0";
  "6096,0,1973992.906,0";
  "7620,0,1652928.822,0";
  "0,51.4444,3090634.782,0.151176341";
  "1524,51.4444,2837090.833,0.153843885";
  "3048,51.4444,2579202.522,0.156657811";
  "4572,51.4444,2322706.692,0.159632016";
  "6096,51.4444,2020648.184,0.162782317";
  "7620,51.4444,1705360.218,0.166126808";
  "9144,51.4444,1392965.22,0.169686295";
  "10668,51.4444,1093907.686,0.173484845";
  "0,102.8888,3199122.445,0.302352682";
  "1524,102.8888,2949824.67,0.307687769";
  "3048,102.8888,2680187.75,0.313315621";
  "4572,102.8888,2423623.19,0.319264031";
  "6096,102.8888,2136392.813,0.325564635";
  "7620,102.8888,1831343.15,0.332253617";
  "9144,102.8888,1513113.123,0.33937259";
  "10668,102.8888,1193382.609,0.346969691";
  "0,154.3332,3276443.539,0.453529023";
  "1524,154.3332,3138983.374,0.461531654";
  "3048,154.3332,2842936.632,0.469973432";
  "4572,154.3332,2580487.949,0.478896047";
  "6096,154.3332,2291835.635,0.488346952";
  "7620,154.3332,1997181.375,0.498380425";
  "9144,154.3332,1693661.655,0.509058885";
  "10668,154.3332,1360632.952,0.520454536";
  "0,205.7776,3420147.571,0.604705364";
  "1524,205.7776,3434056.292,0.615375539";
  "3048,205.7776,3102783.362,0.626631242";
  "4572,205.7776,2815327.156,0.638528063";
  "6096,205.7776,2495793.016,0.65112927";
  "7620,205.7776,2218614.387,0.664507233";
  "9144,205.7776,1928383.037,0.67874518";
  "10668,205.7776,1610300.29,0.693939382";
  ""].

(* ADRpy/data/engine_data/Turboprop_CSVs/Tyne_RTy11_Thrust_data.csv *)
Definition lines_Tyne_RTy11_Thrust_data : list string := [
  "Altitude (m),TAS (m/s),Thrust (N),Mach Number";
  "0,0.0,4297.468247999999,0.0";
  "1524,0.0,3885.5918799999995,0.0";
  "3048,0.0,3471.6390539999998,0.0";
  "4572,0.0,3067.721682,0.0";
  "6096,0.0,2663.877298,0.0";
  "7620,0.0,2265.896734,0.0";
  "0,51.4444,3403.3474170000004,0.15117634107616373";
  "1524,51.4444,3098.90695,0.15384388474110552";
  "3048,51.4444,2789.0132,0.15665781056467057";
  "4572,51.4444,2495.23461,0.1596320156891243";
  "6096,51.4444,2180.132266,0.16278231739577698";
  "7620,51.4444,1880.725614,0.16612680825092035";
  "9144,51.4444,1597.608902,0.16968629498384347";
  "10668,51.4444,1298.516851,0.17348484547455112";
  "0,102.8888,2603.490428,0.30235268215232747";
  "1524,102.8888,2423.154195,0.30768776948221105";
  "3048,102.8888,2223.521716,0.31331562112934114";
  "4572,102.8888,2011.1788780000002,0.3192640313782486";
  "6096,102.8888,1811.2527710000002,0.32556463479155395";
  "7620,102.8888,1586.031787,0.3322536165018407";
  "9144,102.8888,1367.103062,0.33937258996768693";
  "10668,102.8888,1103.037906,0.34696969094910224";
  "0,154.3332,1835.626021,0.45352902322849115";
  "1524,154.3332,1769.808859,0.4615316542233166";
  "3048,154.3332,1685.4085469999998,0.4699734316940117";
  "4572,154.3332,1589.0109710000002,0.4788960470673729";
  "6096,154.3332,1478.8963130000002,0.4883469521873309";
  "7620,154.3332,1343.654565,0.49838042475276106";
  "9144,154.3332,1194.989362,0.5090588849515304";
  "10668,154.3332,1007.396093,0.5204545364236534";
  "0,205.7776,918.3835567,0.6047053643046549";
  "1524,205.7776,1116.924938,0.6153755389644221";
  "3048,205.7776,1148.2601539999998,0.6266312422586823";
  "4572,205.7776,1147.9662859999999,0.6385280627564972";
  "6096,205.7776,1134.290911,0.6511292695831079";
  "7620,205.7776,1082.861979,0.6645072330036814";
  "9144,205.7776,1029.83907,0.6787451799353739";
  "10668,205.7776,931.8475156,0.6939393818982045";
  ""].

(* ADRpy/data/engine_data/Piston_CSVs/IO-540_BSFC_best_power_data.csv *)
Definition lines_IO_540_BSFC_best_power_data : list string := [
  "Speed (RPM),Power (W),BSFC (g/(kWh))";
  "2700,97579.37143,462.5324743";
  "2700,103400.7503,448.0981233";
  "2700,107572.9254,439.191526";
  "2700,111546.4967,431.4841042";
  "2700,115520.1544,424.4892242";
  "2700,119493.812,417.9595608";
  "2700,123268.886,412.3424218";
  "2700,127043.9119,406.9670015";
  "2700,131017.6905,401.768164";
  "2700,134792.8508,397.240981";
  "2700,138568.0322,392.9976339";
  "2700,142343.3365,389.1898285";
  "2700,145919.9399,385.7631729";
  "2700,149297.9375,382.8317922";
  "2700,152676.0023,380.1374367";
  "2700,156252.8361,377.5040895";
  "2700,159829.6507,374.9593174";
  "2700,163207.6915,372.5659184";
  "2700,166586.0394,370.719203";
  "2700,169964.2458,368.7427741";
  "2700,173143.8655,367.138143";
  "2700,176323.5716,365.7108575";
  "2700,179503.2562,364.3047982";
  "2700,182881.3809,362.4776641";
  "2700,186259.832,361.1440812";
  "2700,189439.4734,359.8328208";
  "2700,192619.0715,358.5101667";
  "2700,195798.6697,357.2304701";
  "2700,198779.7508,356.3229514";
  "2700,201760.8103,355.4161467";
  "2700,204940.5596,354.4214283";
  "2700,208120.3089,353.4571053";
  "2700,211300.0582,352.5218056";
  "2700,214479.6564,351.4423451";
  "2700,217348.0215,350.4256005";
  "2600,98443.83427,447.5431414";
  "2600,104587.4669,433.0481976";
  "2600,108759.441,424.3654524";
  "2600,112733.116,417.4859268";
  "2600,116706.7391,410.9665924";
  "2600,120680.5004,405.155831";
  "2600,124654.2444,399.6817493";
  "2600,128429.3644,394.9150454";
  "2600,132204.5343,390.5126253";
  "2600,135979.7541,386.4441535";
  "2600,139556.2616,382.7639043";
  "2600,143132.7882,379.3002786";
  "2600,146709.4109,376.1650652";
  "2600,150286.0527,373.2102286";
  "2600,153664.1031,370.7218658";
  "2600,157042.3071,368.5790268";
  "2600,160619.1216,366.2455142";
  "2600,163997.1816,364.0716707";
  "2600,167375.376,362.1813607";
  "2600,170952.4401,360.4787505";
  "2600,173535.7601,359.1308794";
  "2600,185062.0787,354.5470378";
  "2600,188241.7417,353.3668451";
  "2600,191421.4478,352.2808884";
  "2600,194601.2403,351.3386784";
  "2600,197780.9464,350.3202465";
  "2600,200960.8037,349.5175012";
  "2600,203941.9157,348.7825894";
  "2600,206923.1387,348.1997558";
  "2600,210102.8664,347.3136247";
  "2600,213530.0884,346.3447887";
  "2400,98358.48175,421.9206712";
  "2400,103981.5399,411.060098";
  "2400,108153.7103,403.6194985";
  "2400,112326.0016,396.9941651";
  "2400,116299.7457,391.4057165";
  "2400,120273.4206,386.0464353";
  "2400,124048.6635,381.7678578";
  "2400,127625.1709,377.8746052";
  "2400,131201.7935,374.4076844";
  "2400,134778.2818,370.8816381";
  "2400,138355.154,368.2145956";
  "2400,141931.7958,365.2861838";
  "2400,145707.1999,362.4513642";
  "2400,149482.435,359.4841443";
  "2400,152065.6015,357.7165781";
  "2400,164783.5838,351.088339";
  "2400,167963.1603,349.7057068";
  "2400,171142.7585,348.4052239";
  "2400,174521.0968,347.0967597";
  "2400,177899.5503,345.9958908";
  "2400,181079.278,345.0064291";
  "2400,184259.0273,344.0797019";
  "2400,187438.7766,343.184417";
  "2400,190618.5044,342.29137";
  "2400,193798.2537,341.4548059";
  "2400,196977.895,340.5115546";
  "2400,199958.8774,339.7382267";
  "2400,203026.2,339.0357815";
  "2200,97629.81527,401.164602";
  "2200,103575.203,390.6419361";
  "2200,107548.8434,384.5984532";
  "2200,111522.4838,378.9856391";
  "2200,115297.6652,374.4835963";
  "2200,119072.9292,370.4360766";
  "2200,122848.2085,366.6678117";
  "2200,137552.9375,355.7532855";
  "2200,139738.9308,354.5976959";
  "2200,151860.9828,348.3532045";
  "2200,155239.2828,346.8230365";
  "2200,158418.8161,345.3762184";
  "2200,161598.5223,344.2470772";
  "2200,164778.3148,343.2893699";
  "2200,167958.172,342.4620022";
  "2200,171138.0293,341.6653806";
  "2200,173845.5536,341.1771532";
  "2000,141520.447,341.5743367";
  "2000,145468.8402,339.9992003";
  "2000,126974.0145,348.8302578";
  "2000,118106.499,355.7709452";
  "2000,113592.0025,359.4525239";
  "2000,108594.1955,364.7513168";
  "2000,102951.1801,370.5702282";
  "2000,97953.6534,377.7098457";
  "2000,123265.7833,351.616287";
  ""].

(* ADRpy/data/engine_data/Piston_CSVs/IO-540_BSFC_data.csv *)
Definition lines_IO_540_BSFC_data : list string := [
  "Speed (RPM),Power (W),BSFC (g/(kWh))";
  "2000,97760.07222,323.6745298";
  "2000,102749.3307,317.99159";
  "2000,121226.9416,304.5020268";
  "2000,125200.6319,302.1417666";
  "2000,127783.4672,300.5653887";
  "2000,138711.9889,296.553001";
  "2000,142487.2375,295.2091082";
  "2000,144350.4396,294.5260487";
  "2200,97605.40735,340.1864215";
  "2200,103748.9929,331.8208373";
  "2200,107126.3078,327.8819224";
  "2200,113484.0645,322.0880812";
  "2200,117656.3793,318.7029855";
  "2200,126994.6595,312.397812";
  "2200,130968.2826,309.776798";
  "2200,134942.0266,307.5287537";
  "2200,137326.0623,305.8679858";
  "2200,142492.2129,303.7271205";
  "2200,151256.9163,300.2836354";
  "2200,159381.5435,297.6848041";
  "2200,162759.6947,297.0540611";
  "2200,166224.2535,296.628931";
  "2400,97774.89657,360.6576707";
  "2400,103757.1909,351.0930393";
  "2400,107134.4561,346.433667";
  "2400,114882.3274,336.8384894";
  "2400,119252.9964,332.129059";
  "2400,123425.162,328.2679022";
  "2400,132762.8893,320.548229";
  "2400,136935.2906,317.8405013";
  "2400,140909.0001,315.4004386";
  "2400,143293.1048,313.7954985";
  "2400,161375.1933,307.1396937";
  "2400,166042.7653,305.347724";
  "2600,116876.1866,349.6623246";
  "2600,121048.1748,344.7634534";
  "2600,125220.2195,340.3011423";
  "2600,127802.9454,337.7448472";
  "2600,135353.0452,331.9015458";
  "2600,139326.7029,328.9420081";
  "2600,143300.4124,326.2348216";
  "2600,146280.7636,324.4161816";
  "2600,154825.0509,320.5579355";
  "2600,158600.2496,318.7024159";
  "2600,166945.6193,315.1813564";
  "2600,98599.28232,378.6938967";
  "2600,103757.0248,368.9941974";
  "2600,109559.5551,359.3296924";
  "2700,98420.49665,389.7327106";
  "2700,103769.0908,379.0623774";
  "2700,135357.0531,339.1238983";
  "2700,138337.1798,336.5271741";
  "2700,146086.2415,331.4945302";
  "2700,149464.0599,329.5004762";
  "2700,157014.5703,325.4974435";
  "2700,159597.6312,324.2020342";
  "2700,163174.3498,322.734346";
  "2700,111175.8701,366.6983188";
  "2700,122298.1809,351.896861";
  ""].

(* ADRpy/data/engine_data/Piston_CSVs/IO-540_Power_data.csv *)
Definition lines_IO_540_Power_data : list string := [
  "Altitude (m),Power (W),Speed (RPM)";
  "807.4387844,137841.3413,2000";
  "6173.721989,74666.77354,2000";
  "5468.216744,82974.42241,2000";
  "4657.157158,92652.11046,2000";
  "3890.540066,101781.9166,2000";
  "1440.728392,130355.1811,2000";
  "2207.336375,121408.8937,2000";
  "3040.608099,111640.7834,2000";
  "162.6036014,154227.4913,2100";
  "951.4738215,144181.4287,2100";
  "1762.560734,133953.1844,2100";
  "2529.205153,124272.8221,2100";
  "3290.293121,114683.8849,2100";
  "4062.498544,104820.3382,2100";
  "4745.809869,96236.07414,2100";
  "6418.009967,74589.72241,2100";
  "5479.124693,86920.74365,2100";
  "-10.0152742,164494.1775,2200";
  "634.4191156,156182.8516,2200";
  "1262.197818,147870.5228,2200";
  "3578.873295,117087.0109,2200";
  "2801.088649,127500.7795,2200";
  "2023.308558,137822.7888,2200";
  "4201.090992,108957.8666,2200";
  "4806.648447,100919.4788,2200";
  "5428.884362,92423.29704,2200";
  "6056.667618,84019.20891,2200";
  "6740.015379,74700.86991,2200";
  "-10.32953246,170825.5737,2300";
  "678.5701243,161507.569,2300";
  "1434.138077,151275.982,2300";
  "2056.383101,142596.2815,2300";
  "2595.285923,135196.1979,2300";
  "3056.416656,128709.0281,2300";
  "3567.550889,121490.7919,2300";
  "4134.226854,113817.1016,2300";
  "6778.75568,77180.71271,2300";
  "4806.470823,104498.094,2300";
  "5517.596281,94814.38897,2300";
  "6167.623557,85677.56304,2300";
  "-10.6483452,177248.7292,2400";
  "506.042338,169939.0679,2400";
  "1067.184625,161898.0059,2400";
  "1528.315358,155410.8361,2400";
  "1911.674003,149836.58,2400";
  "2372.804736,143349.4102,2400";
  "2978.398626,134576.9475,2400";
  "3489.537414,127266.9519,2400";
  "3972.898503,120322.3224,2400";
  "4484.03729,113012.3268,2400";
  "4978.515835,105793.0878,2400";
  "5495.215627,98299.90772,2400";
  "6023.023766,90715.63687,2400";
  "6450.838569,84318.22075,2400";
  "6867.517699,78562.45163,2400";
  "-10.90794985,182479.013,2500";
  "583.5912575,173522.363,2500";
  "1216.9674,164292.7749,2500";
  "1744.784647,156524.9853,2500";
  "2317.048944,148117.5544,2500";
  "2961.537988,138705.1161,2500";
  "3683.812783,128104.486,2500";
  "4417.205033,117229.2463,2500";
  "5122.819586,106719.3726,2500";
  "5756.209392,97214.50642,2500";
  "6228.475798,90085.68961,2500";
  "6828.526902,81129.3739,2500";
  "5.579222782,185875.1124,2575";
  "505.6278815,178289.1701,2575";
  "1016.780332,170703.8964,2575";
  "1677.943281,160925.4235,2575";
  "2289.098177,151969.7764,2575";
  "2950.261126,142191.3034,2575";
  "3628.093426,132138.5552,2575";
  "4300.364722,122268.9915,2575";
  "6706.148358,85893.50675,2575";
  "6122.752943,94850.8253,2575";
  "5467.137335,104721.3919,2575";
  "4817.082732,114408.774,2575";
  ""].

(* ADRpy/data/engine_data/Piston_CSVs/Wasp_Major_B13_BSFC_data.csv *)
Definition lines_Wasp_Major_B13_BSFC_data : list string := [
  "BSFC (g/(kWh)),Power (W),Speed (RPM)";
  "273.72465,598641.6544,1238.962363";
  "273.72465,624135.7635,1266.479976";
  "273.72465,647984.4282,1293.666984";
  "273.72465,667641.0442,1314.70655";
  "273.72465,687295.599,1336.142774";
  "273.72465,705312.2742,1355.792646";
  "273.72465,723332.8142,1374.698785";
  "273.72465,742987.8327,1396.045761";
  "273.72465,762645.0156,1416.976247";
  "273.72465,782299.5703,1438.412471";
  "273.72465,801955.671,1459.551201";
  "273.72465,821614.0906,1480.243692";
  "273.72465,841270.9642,1501.233677";
  "273.72465,860931.7027,1521.479928";
  "273.72465,880591.6682,1541.874926";
  "273.72465,900253.9526,1561.823684";
  "273.72465,919916.237,1581.772442";
  "273.72465,941219.9345,1602.827568";
  "273.72465,962525.0675,1623.60645";
  "273.72465,982194.3086,1642.216489";
  "273.72465,1001862.004,1661.124022";
  "273.72465,1021531.245,1679.734061";
  "273.72465,1042845.322,1698.791733";
  "273.72465,1065799.487,1719.210766";
  "273.72465,1088755.64,1739.247309";
  "273.72465,1111713.118,1759.028857";
  "273.72465,1134676.559,1777.662932";
  "273.72465,1160924.049,1798.274581";
  "273.72465,1188825.303,1817.615486";
  "273.72465,1218375.311,1836.650374";
  "273.72465,1252865.772,1855.884165";
  "273.72465,1289015.91,1872.709654";
  "273.72465,1325177.432,1887.344512";
  "273.72465,1361363.408,1897.273569";
  "273.72465,1397593.653,1898.683504";
  "273.72465,1430945.753,1892.226223";
  "279.80742,598993.1406,1415.603555";
  "279.80742,624151.8078,1442.294887";
  "279.80742,642168.483,1461.944759";
  "279.80742,660183.6123,1481.892124";
  "279.80742,678198.1232,1501.958486";
  "279.80742,694572.281,1520.714485";
  "279.80742,712588.0287,1540.542853";
  "279.80742,732242.5834,1561.979077";
  "279.80742,750259.2586,1581.628949";
  "279.80742,768275.1609,1601.427567";
  "279.80742,787930.4886,1622.715045";
  "279.80742,807585.8163,1644.002522";
  "279.80742,827247.3277,1664.100027";
  "279.80742,846904.2014,1685.090011";
  "279.80742,866564.1669,1705.485009";
  "279.80742,886223.3594,1726.028754";
  "279.80742,905884.8709,1746.126258";
  "279.80742,925546.3823,1766.223763";
  "279.80742,945209.4397,1786.023775";
  "279.80742,964873.27,1805.67504";
  "279.80742,984536.3273,1825.475051";
  "279.80742,1004714.756,1844.721568";
  "279.80742,1023864.761,1864.628835";
  "279.80742,1043529.364,1884.131353";
  "279.80742,1063193.195,1903.782618";
  "279.80742,1082860.89,1922.690151";
  "279.80742,1102527.039,1941.895176";
  "279.80742,1122196.28,1960.505215";
  "279.80742,1140226.714,1977.507398";
  "279.80742,1161198.715,1998.998285";
  "279.80742,1187764.797,2021.695781";
  "279.80742,1209079.537,2040.625956";
  "279.80742,1235332.356,2060.211962";
  "279.80742,1268172.397,2080.072701";
  "279.80742,1304321.27,2097.141594";
  "279.80742,1340496.705,2109.099013";
  "279.80742,1376710.929,2113.59206";
  "279.80742,1412970.266,2109.403715";
  "279.80742,1447635.318,2095.039712";
  "279.80742,1478209.024,2075.564809";
  "279.80742,1497247.542,2057.061882";
  "279.80742,1513818.806,2037.887506";
  "279.80742,1528754.045,2016.569786";
  "279.80742,1536604.643,2000.774357";
  "285.89019,598184.8229,1579.943405";
  "285.89019,628212.0944,1611.870157";
  "285.89019,646227.2237,1631.817522";
  "285.89019,665881.7784,1653.253746";
  "285.89019,685532.4684,1675.433703";
  "285.89019,705190.115,1696.274941";
  "285.89019,724846.2157,1717.413671";
  "285.89019,744500.7704,1738.849895";
  "285.89019,764156.0981,1760.137373";
  "285.89019,782172.4641,1779.846743";
  "285.89019,800195.7353,1798.227311";
  "285.89019,819853.2788,1819.088382";
  "285.89019,839510.9255,1839.929619";
  "285.89019,859170.118,1860.473364";
  "285.89019,878831.6294,1880.570868";
  "285.89019,898490.049,1901.263359";
  "285.89019,918154.6523,1920.765878";
  "285.89019,937821.5745,1939.822157";
  "285.89019,959128.6951,1960.218548";
  "285.89019,980438.1346,1980.168699";
  "285.89019,1001746.426,2000.339845";
  "285.89019,1024698.868,2021.090371";
  "285.89019,1047652.371,2041.636902";
  "285.89019,1070606.537,2062.055936";
  "285.89019,1093565.34,2081.58249";
  "285.89019,1116523.48,2101.236542";
  "285.89019,1139483.609,2120.508102";
  "285.89019,1164087.414,2140.450415";
  "285.89019,1190339.864,2160.107252";
  "285.89019,1219885.466,2179.989996";
  "285.89019,1254369.476,2200.465144";
  "285.89019,1290512.025,2218.751054";
  "285.89019,1326675.655,2232.98024";
  "285.89019,1362862.474,2242.747028";
  "285.89019,1399093.563,2243.994694";
  "285.89019,1433732.264,2234.701597";
  "285.89019,1459961.297,2213.582854";
  "285.89019,1478307.817,2194.042086";
  "285.89019,1493419.762,2177.173978";
  "291.97296,598377.5876,1699.650159";
  "291.97296,624279.6251,1734.67254";
  "291.97296,640639.8696,1756.105978";
  "291.97296,657004.7519,1776.646936";
  "291.97296,673372.4169,1796.652407";
  "291.97296,689738.2267,1817.014869";
  "291.97296,706106.8192,1836.841844";
  "291.97296,722478.1944,1856.133331";
  "291.97296,740488.3767,1877.032674";
  "291.97296,758501.3417,1897.396529";
  "291.97296,774874.572,1916.331024";
  "291.97296,792888.1553,1936.575883";
  "291.97296,812542.7101,1958.012106";
  "291.97296,830562.4771,1977.066992";
  "291.97296,850224.3198,1997.100748";
  "291.97296,871527.2443,2018.304621";
  "291.97296,892830.8314,2039.380996";
  "291.97296,914141.4856,2059.097403";
  "291.97296,933812.2726,2077.409949";
  "291.97296,955123.4789,2097.020108";
  "291.97296,978076.3192,2117.694136";
  "291.97296,1001032.472,2137.730678";
  "291.97296,1023989.95,2157.512227";
  "291.97296,1046949.416,2176.911284";
  "291.97296,1069910.207,2196.055347";
  "291.97296,1092873.647,2214.689422";
  "291.97296,1115837.751,2233.196";
  "291.97296,1140443.461,2252.771758";
  "291.97296,1168341.328,2272.764669";
  "291.97296,1199083.068,2292.993248";
  "291.97296,1232368.895,2313.516063";
  "291.97296,1266863.698,2331.914169";
  "291.97296,1303019.318,2347.684909";
  "291.97296,1339207.823,2357.12716";
  "291.97296,1375451.982,2355.859657";
  "291.97296,1408466.291,2342.184805";
  "291.97296,1434925.38,2322.076726";
  "291.97296,1456438.882,2302.757783";
  "291.97296,1474653.746,2284.269034";
  "291.97296,1491776.844,2264.559634";
  "291.97296,1506155.379,2244.714041";
  "291.97296,1519436.97,2224.644399";
  "291.97296,1531069.474,2204.94523";
  "291.97296,1542708.741,2183.944529";
  "291.97296,1554350.713,2162.423215";
  "291.97296,1564334.129,2143.094519";
  "291.97296,1574320.637,2123.170837";
  "291.97296,1584314.875,2101.75969";
  "291.97296,1598564.365,2073.059235";
  "298.05573,599017.8319,1824.510913";
  "298.05573,630207.8253,1861.767183";
  "298.05573,644933.6686,1880.744909";
  "298.05573,659657.8113,1900.049878";
  "298.05573,676026.713,1919.817354";
  "298.05573,692393.4504,1940.00132";
  "298.05573,708758.3327,1960.542278";
  "298.05573,725128.7803,1980.012261";
  "298.05573,741498.3004,1999.66074";
  "298.05573,757871.5307,2018.595235";
  "298.05573,775884.8048,2038.899592";
  "298.05573,793899.3157,2058.965954";
  "298.05573,811917.3823,2078.348083";
  "298.05573,831570.3911,2100.0818";
  "298.05573,851234.2214,2119.733065";
  "298.05573,870898.8247,2139.235583";
  "298.05573,892200.3137,2160.715699";
  "298.05573,913513.8389,2179.879619";
  "298.05573,936472.7525,2199.384923";
  "298.05573,962720.5655,2219.934241";
  "298.05573,988969.5381,2240.260438";
  "298.05573,1015219.67,2260.363515";
  "298.05573,1041472.121,2280.020353";
  "298.05573,1067723.992,2299.78875";
  "298.05573,1093979.921,2318.776228";
  "298.05573,1120237.589,2337.429026";
  "298.05573,1148135.907,2357.335168";
  "298.05573,1172754.859,2374.362757";
  "298.05573,1205579.605,2397.166694";
  "298.05573,1236769.491,2417.603177";
  "298.05573,1269612.015,2436.986124";
  "298.05573,1305779.018,2450.566233";
  "298.05573,1341994.928,2454.734741";
  "298.05573,1378261.854,2449.085976";
  "298.05573,1412934.032,2433.3508";
  "298.05573,1457245.783,2401.974866";
  "298.05573,1436062.379,2420.250856";
  "298.05573,1474735.582,2383.368403";
  "298.05573,1493413.323,2363.084079";
  "298.05573,615583.4548,1843.360352";
  "304.1385,599225.3004,1939.823994";
  "304.1385,629629.9575,1972.97012";
  "304.1385,645991.1296,1994.225061";
  "304.1385,662356.9394,2014.587524";
  "304.1385,678719.039,2035.66397";
  "304.1385,695085.7764,2055.847936";
  "304.1385,711452.5138,2076.031903";
  "304.1385,727824.8165,2095.144894";
  "304.1385,744197.1193,2114.257885";
  "304.1385,760573.1322,2132.656892";
  "304.1385,776946.3625,2151.591388";
  "304.1385,793321.4479,2170.168891";
  "304.1385,811336.8864,2190.056758";
  "304.1385,830997.6249,2210.303009";
  "304.1385,850663.0011,2229.656781";
  "304.1385,871972.6615,2249.564433";
  "304.1385,894929.477,2269.473479";
  "304.1385,917887.6176,2289.12753";
  "304.1385,940849.7334,2308.016599";
  "304.1385,963812.5118,2326.778171";
  "304.1385,986775.2901,2345.539743";
  "304.1385,1011380.42,2365.227061";
  "304.1385,1035982.436,2385.513616";
  "304.1385,1065532.47,2404.543482";
  "304.1385,1091770.886,2426.901197";
  "304.1385,1119667.142,2447.203996";
  "304.1385,1147567.521,2466.71348";
  "304.1385,1178761.592,2486.344748";
  "304.1385,1213252.475,2505.497404";
  "304.1385,1249408.937,2521.105876";
  "304.1385,1285588.167,2532.333085";
  "304.1385,1321793.115,2538.61109";
  "304.1385,1358038.96,2537.019049";
  "304.1385,1394340.037,2524.79839";
  "304.1385,1424095.017,2504.389164";
  "304.1385,1445611.39,2484.517734";
  "304.1385,1463830.272,2465.255503";
  "304.1385,1482602.69,2445.131006";
  "304.1385,1496979.293,2425.657279";
  "304.1385,1508629.064,2402.635112";
  "304.1385,1531840.861,2373.476488";
  "304.1385,1545137.525,2350.506288";
  "304.1385,1556774.666,2329.91464";
  "304.1385,1566762.72,2309.693465";
  "304.1385,1576752.32,2289.174797";
  "304.1385,1586746.557,2267.76365";
  "304.1385,1596753.162,2243.972557";
  "304.1385,1606755.129,2221.073944";
  "304.1385,1615102.985,2199.512657";
  "304.1385,1623453.546,2177.430757";
  "304.1385,1630147.676,2157.132422";
  "304.1385,1640368.897,2121.804174";
  "304.1385,1637048.235,2138.47991";
  "316.30404,598639.6428,2143.82399";
  "316.30404,628565.1225,2177.883396";
  "316.30404,646577.3145,2198.395998";
  "316.30404,664591.0524,2218.611107";
  "316.30404,682607.573,2238.290728";
  "316.30404,702262.1278,2259.726952";
  "316.30404,721924.4122,2279.67571";
  "316.30404,741588.2425,2299.326976";
  "316.30404,761251.2998,2319.126987";
  "316.30404,780918.222,2338.183266";
  "316.30404,802228.3241,2358.00592";
  "316.30404,828874.4035,2392.478314";
  "316.30404,820258.2501,2375.105851";
  "316.30404,854687.5105,2406.116893";
  "316.30404,877640.3507,2426.79092";
  "316.30404,900599.8164,2446.189978";
  "316.30404,925200.8056,2466.674153";
  "316.30404,951447.4592,2487.44659";
  "316.30404,977699.3303,2507.214987";
  "316.30404,1005597.326,2527.183107";
  "316.30404,1038158.591,2548.623769";
  "316.30404,1487265.844,2546.164482";
  "316.30404,1508025.89,2518.708011";
  "316.30404,1521300.524,2499.977088";
  "316.30404,1534584.434,2479.461206";
  "316.30404,1547870.663,2458.499085";
  "316.30404,1561162.689,2436.421364";
  "316.30404,1579466.677,2400.781685";
  "316.30404,1571122.143,2421.703813";
  "316.30404,1596076.046,2374.274553";
  "316.30404,1599242.044,2398.969271";
  "316.30404,1606059.462,2354.945858";
  "316.30404,1616039.786,2336.212149";
  "316.30404,1626030.932,2315.395988";
  "316.30404,1636017.44,2295.472306";
  "316.30404,1646008.586,2274.656145";
  "316.30404,1656009.007,2252.055025";
  "316.30404,1666004.79,2230.346384";
  "316.30404,1675993.231,2210.050836";
  "316.30404,1689313.511,2182.535907";
  "328.46958,595745.5421,2282.717232";
  "328.46958,629485.0732,2317.825563";
  "328.46958,649145.0387,2338.220561";
  "328.46958,668806.5501,2358.318066";
  "328.46958,688469.6075,2378.118078";
  "328.46958,708133.4378,2397.769343";
  "328.46958,727803.4518,2416.230635";
  "328.46958,747468.0551,2435.733154";
  "328.46958,767137.2962,2454.343193";
  "328.46958,788447.5087,2474.144598";
  "328.46958,811395.7111,2495.711105";
  "328.46958,834347.2263,2516.640127";
  "328.46958,857302.0542,2536.931664";
  "328.46958,872981.321,2550.064243";
  "328.46958,1544899.269,2549.485667";
  "328.46958,1568959.731,2520.856884";
  "328.46958,1585550.009,2498.023342";
  "328.46958,1600489.19,2475.947014";
  "328.46958,1613771.941,2455.654252";
  "328.46958,1627065.127,2433.353412";
  "328.46958,1646183.895,2399.407403";
  "328.46958,1637017.624,2419.974579";
  "328.46958,1661986.986,2369.570389";
  "328.46958,1671968.856,2350.539186";
  "328.46958,1681956.91,2330.318012";
  "328.46958,1691949.602,2309.204357";
  "328.46958,1701940.747,2288.388196";
  "328.46958,1711936.531,2266.679556";
  "328.46958,1730041.746,2231.008472";
  "340.63512,596408.9542,2411.815635";
  "340.63512,628831.9187,2443.516416";
  "340.63512,650130.868,2465.485271";
  "340.63512,671437.6573,2485.945411";
  "340.63512,692744.2259,2506.448049";
  "340.63512,715694.416,2527.632065";
  "340.63512,742678.9031,2549.720755";
  "352.80066,1631745.348,2547.513662";
  "352.80066,1648032.143,2519.198294";
  "352.80066,1658009.376,2501.059571";
  "352.80066,1667988.154,2482.623355";
  "352.80066,1679632.638,2460.618615";
  "352.80066,1692942.056,2435.194096";
  "352.80066,1713643.714,2399.208595";
  "352.80066,1702899.192,2420.922784";
  "352.80066,1727880.921,2368.138649";
  "352.80066,1737865.883,2348.51246";
  "352.80066,1747858.574,2327.398806";
  "352.80066,1759501.899,2305.617185";
  "352.80066,1770723.646,2284.322664";
  "377.13174,1696399.542,2548.319092";
  "377.13174,1712617.356,2522.106969";
  "377.13174,1727174.797,2498.437018";
  "377.13174,1740506.266,2474.354846";
  "377.13174,1752144.566,2453.540078";
  "377.13174,1763750.912,2433.289147";
  "377.13174,1783751.946,2397.974053";
  "377.13174,1773755.057,2415.557041";
  "377.13174,1805552.101,2358.019089";
  "377.13174,1816163.775,2340.205589";
  "377.13174,1794987.355,2377.183109";
  "401.46282,1766814.531,2547.154137";
  "401.46282,1781151.415,2525.851638";
  "401.46282,1796371.952,2500.879102";
  "401.46282,1811249.37,2476.841486";
  "401.46282,1824626.349,2452.262656";
  "401.46282,1837924.172,2429.069336";
  "401.46282,1849586.685,2411.025231";
  "401.46282,1858736.152,2394.640161";
  "425.7939,1881006.677,2549.213396";
  "425.7939,1895110.05,2518.514786";
  "425.7939,1905118.201,2494.4262";
  "425.7939,1916658.315,2470.555886";
  "437.95944,1975962.354,2548.723042";
  ""].

(* ADRpy/data/engine_data/Piston_CSVs/Wasp_Major_B13_Power_data.csv *)
Definition lines_Wasp_Major_B13_Power_data : list string := [
  "Speed (RPM),Altitude (m),Power (W)";
  "1200,6.485369977,704170.1617";
  "1200,294.5147226,683006.023";
  "1200,495.8287857,668761.8073";
  "1200,695.0470634,654517.5917";
  "1200,893.4776541,640831.7578";
  "1200,1092.266302,626587.5421";
  "1200,1292.431801,612157.1992";
  "1200,1510.171077,596825.1302";
  "1400,3.554192957,932332.4884";
  "1400,296.393258,905242.0061";
  "1400,497.6411146,886158.4809";
  "1400,696.8049954,866888.8284";
  "1400,895.1877642,847619.1759";
  "1400,1093.940851,828163.3962";
  "1400,1294.081281,808893.7437";
  "1400,1496.488566,789251.8366";
  "1400,1701.940775,770912.8206";
  "1400,1911.073107,751829.2954";
  "1400,2124.440949,732559.6429";
  "1400,2342.505757,713476.1177";
  "1400,2565.63899,694206.4652";
  "1400,2794.143153,674936.8127";
  "1400,3028.252518,655481.0329";
  "1400,3268.151399,636211.3804";
  "1400,3513.970606,616755.6006";
  "1400,3773.34935,595882.8841";
  "1600,5.391768604,1142852.677";
  "1600,298.1094773,1108306.878";
  "1600,499.2919238,1084197.916";
  "1600,698.4134273,1061205.718";
  "1600,896.760906,1037841.265";
  "1600,1095.487151,1014290.685";
  "1600,1295.607616,990926.2323";
  "1600,1497.997235,966817.2703";
  "1600,1703.439096,944383.4539";
  "1600,1912.54941,919529.9828";
  "1600,2125.918466,896910.0391";
  "1600,2343.984308,874290.0954";
  "1600,2567.110573,850553.3879";
  "1600,2795.611097,827188.9351";
  "1600,3029.7199,804010.6095";
  "1600,3269.611735,780460.0294";
  "1600,3515.428264,757281.7038";
  "1600,3767.259297,733731.1237";
  "1600,4025.176522,709994.4163";
  "1600,4289.241893,687002.218";
  "1600,4559.490301,664010.0197";
  "1600,4835.954048,640087.185";
  "1600,5118.700708,616536.6049";
  "1600,5369.320227,594892.8759";
  "1800,2.393692806,1363402.196";
  "1800,299.9371078,1324586.788";
  "1800,501.0589411,1296196.899";
  "1800,700.1219464,1267620.882";
  "1800,898.4264312,1239230.992";
  "1800,1097.123229,1211213.357";
  "1800,1297.213687,1182451.213";
  "1800,1504.217253,1153041.588";
  "1800,1705.005144,1125671.433";
  "1800,1914.116059,1097467.671";
  "1800,2127.456456,1067961.018";
  "1800,2345.504167,1039571.128";
  "1800,2568.626191,1011553.493";
  "1800,2797.118756,983535.8579";
  "1800,3031.215092,955332.0955";
  "1800,3271.096786,927128.3332";
  "1800,3516.897716,898924.5708";
  "1800,3768.715067,870720.8084";
  "1800,4026.616588,842330.9188";
  "1800,4290.659979,814313.2837";
  "1800,4560.892523,787040.1578";
  "1800,4837.334079,758464.1408";
  "1800,5120.056412,730260.3785";
  "1800,5409.129301,702242.7434";
  "1800,5704.65054,674225.1083";
  "1800,6006.739795,644811.5186";
  "1800,6315.615217,616700.8199";
  "1800,6515.810446,599266.2312";
  "1800,142.9504482,1344545.718";
  "2000,1.021268885,1551641.056";
  "2000,301.4625366,1505130.259";
  "2000,502.5295237,1472645.569";
  "2000,701.5515754,1440347.006";
  "2000,899.821061,1407862.316";
  "2000,1098.493401,1376122.135";
  "2000,1298.563899,1343451.318";
  "2000,1500.935984,1312641.773";
  "2000,1706.335004,1279598.701";
  "2000,1915.437076,1247486.266";
  "2000,2128.777077,1214815.449";
  "2000,2346.820546,1182703.013";
  "2000,2569.938755,1150962.832";
  "2000,2798.427382,1119222.652";
  "2000,3032.513687,1086737.962";
  "2000,3272.393561,1055183.908";
  "2000,3518.189693,1023443.727";
  "2000,3770.002878,991889.6736";
  "2000,4027.896804,959963.3654";
  "2000,4291.924794,927850.93";
  "2000,4562.125736,895229.7467";
  "2000,4838.558008,863439.9319";
  "2000,5121.268013,831885.8783";
  "2000,5410.320351,799959.5701";
  "2000,5705.814775,767661.0074";
  "2000,6007.907491,736479.2084";
  "2000,6316.75224,703994.5184";
  "2000,6632.615489,672254.3376";
  "2000,6955.783225,639769.6476";
  "2000,7385.033016,596475.6585";
  "2200,432.4568047,1726872.426";
  "2200,721.5428377,1673555.541";
  "2200,919.7580215,1635673.159";
  "2200,1118.483408,1598535.287";
  "2200,1318.708036,1561397.415";
  "2200,1521.293789,1523659.799";
  "2200,1672.865511,1492591.649";
  "2200,1859.813081,1462117.905";
  "2200,2071.941211,1424607.778";
  "2200,2288.652135,1386911.524";
  "2200,2510.346146,1349773.652";
  "2200,2737.33031,1312077.398";
  "2200,2969.860322,1274381.144";
  "2200,3208.136724,1237429.399";
  "2200,3452.293312,1200105.399";
  "2200,3702.4375,1162595.273";
  "2200,3958.649109,1125271.273";
  "2200,4220.979564,1087761.146";
  "2200,4489.485499,1051181.656";
  "2200,4708.160467,1018675.512";
  "2200,4967.898569,986425.2782";
  "2200,5253.447713,948915.1514";
  "2200,5545.384807,911591.1519";
  "2200,5843.826067,874453.2796";
  "2200,6148.919856,836757.0255";
  "2200,6460.896493,800177.5352";
  "2200,6780.005911,763225.7902";
  "2200,7106.581115,725529.5361";
  "2200,7441.054331,688205.5366";
  "2200,7783.909542,649764.7733";
  "2200,8271.016759,595650.7082";
  "2200,8034.514589,622603.7651";
  "2200,576.2133192,1702195.403";
  "2400,951.6575856,1870645.423";
  "2400,1229.394442,1810666.647";
  "2400,1430.775216,1766642.065";
  "2400,1628.72075,1724652.358";
  "2400,1842.619822,1680454.174";
  "2400,2054.350749,1638290.865";
  "2400,2270.608046,1593894.028";
  "2400,2491.835352,1552102.974";
  "2400,2718.300512,1506961.628";
  "2400,2950.315162,1464426.064";
  "2400,3188.041106,1420773.737";
  "2400,3431.650744,1378424.301";
  "2400,3681.224176,1334585.846";
  "2400,3936.874456,1292608.664";
  "2400,4198.614494,1248397.955";
  "2400,4466.550395,1207537.537";
  "2400,4740.636213,1162210.064";
  "2400,5021.013654,1120605.137";
  "2400,5307.67537,1076580.555";
  "2400,5600.763579,1034603.373";
  "2400,5900.348935,990392.664";
  "2400,6206.656196,948601.6096";
  "2400,6519.845105,904577.0276";
  "2400,6840.250073,862413.7186";
  "2400,7168.176065,818575.2639";
  "2400,7504.104145,776598.0822";
  "2400,7848.506999,732945.7548";
  "2400,8202.045512,690410.1912";
  "2400,8565.410126,646385.6093";
  "2400,8777.558813,621325.7988";
  "2400,9018.430092,595826.1569";
  "2400,1076.097479,1842891.028";
  "2550,12.95652837,2010047.677";
  "2550,305.7248283,2009721.339";
  "2550,507.0041973,2009622.797";
  "2550,706.2653846,2009896.51";
  "2550,904.79941,2009797.969";
  "2550,1103.756664,2009513.3";
  "2550,1304.16097,2010717.649";
  "2550,1506.867614,2010432.98";
  "2550,1712.653525,2010706.693";
  "2550,1912.379656,1991534.583";
  "2550,2105.927122,1944969.016";
  "2550,2293.342097,1899795.61";
  "2550,2474.31611,1856947.07";
  "2550,2669.162996,1812456.131";
  "2550,2878.676085,1765481.083";
  "2550,3092.874359,1718915.516";
  "2550,3300.810713,1674606.568";
  "2550,3513.155767,1629478.659";
  "2550,3729.972374,1583744.114";
  "2550,3951.333413,1539939.433";
  "2550,4189.27646,1494295.196";
  "2550,4420.017822,1449645.014";
  "2550,4642.876375,1407706.43";
  "2550,4882.632914,1363010.751";
  "2550,5140.072622,1316649.923";
  "2550,5389.482045,1271635.76";
  "2550,5643.68729,1226803.587";
  "2550,5902.780424,1182744.877";
  "2550,6152.833353,1140806.293";
  "2550,6421.761506,1096338.102";
  "2550,6710.572452,1050386.755";
  "2550,6990.587842,1006328.045";
  "2550,7261.170435,964161.9714";
  "2550,7537.178245,921995.8982";
  "2550,7818.909857,880057.3139";
  "2550,8122.870074,835407.1325";
  "2550,8450.634545,788841.565";
  "2550,8787.007222,742685.4776";
  "2550,9118.625002,696041.5975";
  "2550,9452.355163,653658.1014";
  "2550,9896.176907,595982.6332";
  "2550,1839.562455,2009072.087";
  "2700,12.43316147,2474623.543";
  "2700,236.418165,2474516.668";
  "2700,528.8929238,2455481.76";
  "2700,709.5588216,2407857.335";
  "2700,871.6355585,2364553.817";
  "2700,1042.905613,2318720.694";
  "2700,1215.025045,2272933.068";
  "2700,1379.406005,2229402.061";
  "2700,1545.516028,2184278.632";
  "2700,1723.207545,2139719.446";
  "2700,1903.662186,2092202.904";
  "2700,2077.529285,2049354.364";
  "2700,2254.460303,2005368.38";
  "2700,2434.687196,1961837.373";
  "2700,2618.386848,1918078.878";
  "2700,2805.708784,1873865.405";
  "2700,2996.800234,1831585.587";
  "2700,3191.721831,1787258.369";
  "2700,3390.582192,1743954.851";
  "2700,3593.434257,1700878.823";
  "2700,3800.317189,1657347.816";
  "2700,4011.273446,1614044.298";
  "2700,4226.330914,1570968.269";
  "2700,4445.503002,1527209.774";
  "2700,4681.350613,1481217.408";
  "2700,4921.847933,1435361.535";
  "2700,5154.010682,1392058.017";
  "2700,5403.678843,1346247.643";
  "2700,5658.141549,1300209.779";
  "2700,5903.717999,1256906.261";
  "2700,6153.756831,1212541.128";
  "2700,6408.392366,1168479.314";
  "2700,6667.778083,1125403.286";
  "2700,6932.066532,1081644.79";
  "2700,7201.481235,1038341.272";
  "2700,7476.255069,994582.7768";
  "2700,7756.683405,951051.7702";
  "2700,8043.089511,907293.2746";
  "2700,8335.860524,863989.7569";
  "2700,8635.414072,820458.7503";
  "2700,8942.238861,777155.2326";
  "2700,9256.863233,733396.737";
  "2700,9579.897955,689865.7304";
  "2700,9911.995733,645879.746";
  "2700,10303.80347,596805.5218";
  "2700,458.6240416,2472998.085";
  ""].

(* ADRpy/data/engine_data/Electric_CSVs/JMX57_Efficiency_data.csv *)
Definition lines_JMX57_Efficiency_data : list string := [
  "Efficiency,Speed (RPM),Torque (Nm)";
  "0.8,253.5427473,615.3985649";
  "0.8,262.6406381,624.7067957";
  "0.8,258.4281108,620.1923059";
  "0.84,252.2921377,477.6725761";
  "0.84,272.7412444,496.6467505";
  "0.84,281.8361851,506.5550578";
  "0.84,290.929654,515.9051563";
  "0.84,300.0253306,526.092568";
  "0.84,309.1199033,535.8613231";
  "0.84,318.214476,545.6300782";
  "0.84,327.3094167,555.5383855";
  "0.84,337.9156427,565.3769334";
  "0.84,348.5251802,576.4714512";
  "0.84,357.6182811,585.6819975";
  "0.84,365.2004647,595.1018553";
  "0.84,371.2700752,604.1030399";
  "0.84,378.8535467,614.0113305";
  "0.84,387.9510935,625.2439119";
  "0.84,1444.404627,27.62470214";
  "0.84,1477.656949,27.62506912";
  "0.84,1510.910677,28.15827183";
  "0.84,1544.163802,28.46311637";
  "0.84,1577.416928,28.76796091";
  "0.84,1610.670655,29.30116362";
  "0.84,1643.92338,29.45376938";
  "0.84,1677.177408,30.10115117";
  "0.84,1710.429831,30.13957784";
  "0.84,1743.68386,30.78695964";
  "0.84,1776.936684,30.97762509";
  "0.84,1810.189308,31.09217115";
  "0.84,1843.443337,31.73955295";
  "0.84,1876.69586,31.81603932";
  "0.84,1909.948584,31.96864508";
  "0.84,1943.202713,32.65408656";
  "0.84,1976.455036,32.65445354";
  "0.84,2009.707559,32.73093991";
  "0.84,2042.961788,33.45444109";
  "0.84,2070.168335,33.49280105";
  "0.84,2157.835757,34.33108182";
  "0.84,2191.088079,34.3314488";
  "0.84,2224.005501,34.70395132";
  "0.84,2257.594932,35.16949605";
  "0.84,2290.847255,35.16986303";
  "0.84,2324.10018,35.39858818";
  "0.84,2357.354008,35.96985058";
  "0.84,2390.606531,36.04633695";
  "0.84,2423.859958,36.46536057";
  "0.84,2457.113284,36.8463245";
  "0.84,2490.365707,36.88475118";
  "0.84,2523.619234,37.3418345";
  "0.84,2556.87246,37.68473873";
  "0.84,2590.124782,37.68510571";
  "0.84,2623.377105,37.68547269";
  "0.84,2657.538075,38.35570031";
  "0.84,2689.883958,38.52351994";
  "0.84,2723.136281,38.52388692";
  "0.84,2756.388704,38.56231359";
  "0.84,2789.642532,39.13357599";
  "0.84,2822.895456,39.36230114";
  "0.84,2856.147779,39.36266812";
  "0.84,2889.400102,39.3630351";
  "0.84,2922.654532,40.16265567";
  "0.84,2955.906955,40.20108235";
  "0.84,2998.22089,40.82916629";
  "0.84,1398.981112,27.13991725";
  "0.84,264.2380939,488.216648";
  "0.88,251.909647,331.6031507";
  "0.88,274.5351842,30.54238763";
  "0.88,279.9137925,350.7101057";
  "0.88,292.0303837,360.1300136";
  "0.88,307.7892129,31.18976942";
  "0.88,304.1480789,369.9685782";
  "0.88,316.2646701,379.3884861";
  "0.88,326.870804,389.1921459";
  "0.88,336.9767025,400.3564343";
  "0.88,341.0434422,31.9132706";
  "0.88,352.6301743,413.614067";
  "0.88,363.2373201,423.8014954";
  "0.88,374.2974709,32.56065239";
  "0.88,372.3329967,433.9889072";
  "0.88,381.4275694,443.7576623";
  "0.88,390.5243499,454.3637306";
  "0.88,399.6203945,464.6906946";
  "0.88,408.7193828,476.1340763";
  "0.88,417.8205789,488.4147712";
  "0.88,426.9200987,500.0597283";
  "0.88,434.5045105,510.3246524";
  "0.88,440.5752249,519.7444936";
  "0.88,450.3066076,34.01319671";
  "0.88,448.1599843,530.141217";
  "0.88,455.7462155,541.0961492";
  "0.88,463.3324467,552.0510814";
  "0.88,472.431435,563.4944631";
  "0.88,486.151712,34.65517";
  "0.88,481.5318951,575.4960536";
  "0.88,489.1166545,585.892777";
  "0.88,498.2136189,596.5686215";
  "0.88,503.5350228,607.920961";
  "0.88,519.4054396,35.18837271";
  "0.88,517.9178116,616.7913036";
  "0.88,552.6589665,35.64545602";
  "0.88,585.9128948,36.25477812";
  "0.88,619.166221,36.63574205";
  "0.88,652.4202497,37.28312384";
  "0.88,685.6735759,37.66408777";
  "0.88,718.9275042,38.27340987";
  "0.88,752.1804289,38.50213502";
  "0.88,785.4338555,38.92115864";
  "0.88,818.687282,39.34018226";
  "0.88,851.9403072,39.60696711";
  "0.88,885.1940348,40.14016982";
  "0.88,918.4476115,40.61616032";
  "0.88,951.7005868,40.86403798";
  "0.88,984.9540297,41.28928222";
  "0.88,1018.207289,41.64487302";
  "0.88,1051.460164,41.85469098";
  "0.88,1084.71349,42.23565491";
  "0.88,1117.966515,42.50243976";
  "0.88,1151.220042,42.95952307";
  "0.88,1184.473067,43.22630792";
  "0.88,1217.726193,43.53115246";
  "0.88,1250.979519,43.91211638";
  "0.88,1273.651934,44.05521312";
  "0.88,1337.512336,44.3697877";
  "0.88,1371.899364,44.78882384";
  "0.88,1405.152489,45.09366838";
  "0.88,1438.405113,45.20821444";
  "0.88,1471.658339,45.55111867";
  "0.88,1504.911465,45.85596321";
  "0.88,1538.164289,46.04662867";
  "0.88,1571.416913,46.16117473";
  "0.88,1604.67064,46.69437744";
  "0.88,1637.923465,46.88504289";
  "0.88,1671.175988,46.96152926";
  "0.88,1704.429214,47.3044335";
  "0.88,1737.682339,47.60927804";
  "0.88,1770.935565,47.95218227";
  "0.88,1804.18839,48.14284772";
  "0.88,1837.441114,48.29545348";
  "0.88,1870.69434,48.63835772";
  "0.88,1903.947565,48.98126195";
  "0.88,1937.200289,49.13386771";
  "0.88,1970.453315,49.40065255";
  "0.88,2003.706039,49.55325831";
  "0.88,2036.959064,49.82004316";
  "0.88,2070.21229,50.16294739";
  "0.88,2103.464813,50.23943376";
  "0.88,2136.717687,50.4490064";
  "0.88,2157.877889,50.30993304";
  "0.88,2221.792706,50.78910314";
  "0.88,2257.63688,51.0784485";
  "0.88,2290.889404,51.15493487";
  "0.88,2324.142629,51.4978391";
  "0.88,2357.395755,51.80268364";
  "0.88,2390.648379,51.9172297";
  "0.88,2423.900701,51.91759668";
  "0.88,2457.153726,52.18438153";
  "0.88,2490.406551,52.37504698";
  "0.88,2523.659877,52.75601091";
  "0.88,2556.9122,52.75637789";
  "0.88,2590.164522,52.75674487";
  "0.88,2623.417949,53.17576849";
  "0.88,2656.670272,53.17613547";
  "0.88,2689.923698,53.5951591";
  "0.88,2723.176021,53.59552608";
  "0.88,2756.429146,53.90037061";
  "0.88,2789.68177,54.01491668";
  "0.88,2822.934494,54.16752244";
  "0.88,2856.187519,54.43430728";
  "0.88,2889.440845,54.81527121";
  "0.88,2922.693268,54.85369788";
  "0.88,2955.945591,54.85406486";
  "0.88,2984.664334,55.16837428";
  "0.88,269.8942924,341.772755";
  "0.88,529.7062591,625.0400733";
  "0.9,249.5335939,44.67177301";
  "0.9,251.7093398,257.9271645";
  "0.9,281.2255126,274.9542027";
  "0.9,296.365815,284.6672037";
  "0.9,291.75081,44.83405235";
  "0.9,311.5065589,294.5476673";
  "0.9,326.6484068,304.8467875";
  "0.9,338.0555273,45.19607074";
  "0.9,340.2790062,315.2296224";
  "0.9,352.3972533,325.2775153";
  "0.9,371.3078499,45.19643772";
  "0.9,364.5146724,335.0114157";
  "0.9,376.6334714,345.2686369";
  "0.9,387.2405253,355.4211772";
  "0.9,404.56228,45.99605829";
  "0.9,396.3339941,364.7712757";
  "0.9,405.4252552,373.2840609";
  "0.9,414.5198279,383.052816";
  "0.9,423.6151917,393.1216083";
  "0.9,437.814703,46.03448497";
  "0.9,432.7115491,403.5671917";
  "0.9,441.8090655,414.4523645";
  "0.9,450.9043742,424.500224";
  "0.9,458.4904214,435.3853801";
  "0.9,471.0670256,46.03485195";
  "0.9,466.0753647,445.8518796";
  "0.9,475.1761928,457.9930224";
  "0.9,482.763344,469.2968351";
  "0.9,490.351231,480.8797523";
  "0.9,489.2046562,46.03505212";
  "0.9,497.9392232,492.5025416";
  "0.9,508.5449981,502.1700383";
  "0.9,523.6845057,511.5816065";
  "0.9,538.8250288,521.3783388";
  "0.9,553.965552,531.175071";
  "0.9,569.1056336,540.8043406";
  "0.9,576.8724796,47.02557168";
  "0.9,584.243949,549.7637596";
  "0.9,599.3822644,558.7231786";
  "0.9,610.1266087,47.71101317";
  "0.9,614.5196966,567.3476722";
  "0.9,629.6569081,575.8884346";
  "0.9,643.379132,47.78749954";
  "0.9,644.7963274,585.2665102";
  "0.9,658.4268716,595.6284122";
  "0.9,676.6331607,48.43488133";
  "0.9,670.5445667,605.4669768";
  "0.9,682.6614339,614.9915489";
  "0.9,694.3674812,625.210228";
  "0.9,709.8857844,48.54942739";
  "0.9,743.1398131,49.19680918";
  "0.9,776.3926375,49.38747464";
  "0.9,809.6449601,49.38784162";
  "0.9,845.922429,50.22555525";
  "0.9,879.1747516,50.22592223";
  "0.9,909.4041359,50.22625584";
  "0.9,945.6816047,51.06396947";
  "0.9,978.9339274,51.06433645";
  "0.9,1012.18635,51.10276313";
  "0.9,1045.440178,51.67402553";
  "0.9,1078.693103,51.90275068";
  "0.9,1111.945426,51.90311766";
  "0.9,1142.17481,51.90345128";
  "0.9,1178.452279,52.74116491";
  "0.9,1211.704602,52.74153189";
  "0.9,1244.956924,52.74189887";
  "0.9,1277.202337,53.02135915";
  "0.9,1311.463777,53.57994611";
  "0.9,1344.7161,53.58031309";
  "0.9,1367.388138,53.58056331";
  "0.9,1468.658783,54.41899421";
  "0.9,1501.911005,54.3813015";
  "0.9,1535.164833,54.9525639";
  "0.9,1568.417959,55.25740844";
  "0.9,1601.670281,55.25777542";
  "0.9,1634.318679,55.50932971";
  "0.9,1668.177135,56.09582266";
  "0.9,1701.429457,56.09618964";
  "0.9,1734.68178,56.09655662";
  "0.9,1773.377158,56.76683429";
  "0.9,1801.188633,56.93460387";
  "0.9,1834.440956,56.93497085";
  "0.9,1867.693278,56.93533783";
  "0.9,1900.945601,56.93570481";
  "0.9,1934.199529,57.54502691";
  "0.9,1967.452454,57.77375206";
  "0.9,2000.704877,57.81217873";
  "0.9,2033.957099,57.77448602";
  "0.9,2067.209422,57.774853";
  "0.9,2105.501815,58.47303665";
  "0.9,2133.716275,58.61290024";
  "0.9,2166.968598,58.61326722";
  "0.9,2200.22092,58.6136342";
  "0.9,2233.473243,58.61400118";
  "0.9,2257.65675,58.61426808";
  "0.9,2351.370049,59.45261558";
  "0.9,2384.622372,59.45298256";
  "0.9,2417.874695,59.45334954";
  "0.9,2451.128021,59.83431347";
  "0.9,2484.381247,60.1772177";
  "0.9,2517.63387,60.29176377";
  "0.9,2550.886193,60.29213075";
  "0.9,2584.138516,60.29249773";
  "0.9,2616.383928,60.57195801";
  "0.9,2650.645369,61.13054497";
  "0.9,2683.897691,61.13091195";
  "0.9,2717.150014,61.13127893";
  "0.9,2750.402437,61.16970561";
  "0.9,2783.656767,61.93126648";
  "0.9,2816.90919,61.96969316";
  "0.9,2850.161512,61.97006014";
  "0.9,2883.413835,61.97042712";
  "0.9,2916.666158,61.9707941";
  "0.9,2960.455823,62.0550087";
  "0.9,2998.421137,62.44750226";
  "0.9,271.056637,266.9909527";
  "0.92,264.3581879,183.4914979";
  "0.92,274.6113527,59.42969602";
  "0.92,282.5212079,193.1208009";
  "0.92,299.1704038,201.856953";
  "0.92,319.9532212,58.59288316";
  "0.92,315.819894,210.7047469";
  "0.92,333.9827301,220.2642737";
  "0.92,353.2055439,58.59325014";
  "0.92,349.1220757,229.6144389";
  "0.92,362.7505777,239.2018262";
  "0.92,377.8935295,249.919603";
  "0.92,386.4578665,58.59361712";
  "0.92,391.5224178,259.6535201";
  "0.92,403.6384571,268.8640997";
  "0.92,419.7101892,58.5939841";
  "0.92,415.7594639,279.9586342";
  "0.92,426.3632061,288.8552047";
  "0.92,436.969708,298.7984167";
  "0.92,452.9625118,58.59435108";
  "0.92,447.574922,308.253196";
  "0.92,456.6713346,318.7197122";
  "0.92,465.7670112,328.9071239";
  "0.92,474.860848,338.3967746";
  "0.92,486.2148345,58.59471806";
  "0.92,483.9583644,349.2819474";
  "0.92,493.0562488,360.3066724";
  "0.92,505.1812664,372.922326";
  "0.92,519.4671571,58.59508504";
  "0.92,521.8300943,381.5189259";
  "0.92,538.478407,389.9201527";
  "0.92,552.7194798,58.59545202";
  "0.92,556.6422997,399.8803938";
  "0.92,576.3184185,410.1277304";
  "0.92,585.9718024,58.595819";
  "0.92,594.4816225,419.8268095";
  "0.92,611.1329157,429.3584092";
  "0.92,619.2241251,58.59618598";
  "0.92,626.2736597,439.2388728";
  "0.92,641.4148452,449.2867991";
  "0.92,650.2097959,58.80585626";
  "0.92,656.5555891,459.1672627";
  "0.92,671.6976577,469.5501142";
  "0.92,685.7309782,59.43423322";
  "0.92,686.8414926,480.6028164";
  "0.92,710.739161,499.5821808";
  "0.92,697.4416471,488.1387528";
  "0.92,718.9833008,59.4346002";
  "0.92,730.7615831,513.7818392";
  "0.92,742.8784503,523.3064112";
  "0.92,752.2356235,59.43496718";
  "0.92,759.5328397,534.0122432";
  "0.92,780.7191135,543.7611957";
  "0.92,785.4879461,59.43533416";
  "0.92,803.415457,552.9793681";
  "0.92,818.7415734,59.93047718";
  "0.92,827.6238019,562.3994094";
  "0.92,851.9947992,60.27338141";
  "0.92,860.9103452,575.3781324";
  "0.92,885.2471219,60.27374839";
  "0.92,883.606255,584.4318325";
  "0.92,903.2816642,594.4100327";
  "0.92,918.4994445,60.27411537";
  "0.92,921.4450522,604.1788879";
  "0.92,939.6088081,614.0872952";
  "0.92,951.7527707,60.6550793";
  "0.92,953.2320851,621.6930411";
  "0.92,985.0062976,61.11216262";
  "0.92,1018.25862,61.1125296";
  "0.92,1051.510943,61.11289658";
  "0.92,1084.764269,61.4938605";
  "0.92,1118.017796,61.95094382";
  "0.92,1151.270119,61.9513108";
  "0.92,1184.522441,61.95167778";
  "0.92,1216.565809,62.03576275";
  "0.92,1251.029294,62.78972503";
  "0.92,1284.281617,62.79009201";
  "0.92,1317.53394,62.79045899";
  "0.92,1350.786262,62.79082597";
  "0.92,1382.527116,62.79117627";
  "0.92,1417.293115,63.62887322";
  "0.92,1450.545438,63.62924019";
  "0.92,1483.798062,63.74378626";
  "0.92,1517.050083,63.62997415";
  "0.92,1550.302406,63.63034113";
  "0.92,1583.556736,64.39190201";
  "0.92,1616.809259,64.46838838";
  "0.92,1650.061582,64.46875536";
  "0.92,1683.313904,64.46912234";
  "0.92,1716.566227,64.46948932";
  "0.92,1753.221287,65.20254296";
  "0.92,1783.07308,65.30753657";
  "0.92,1816.326105,65.57432141";
  "0.92,1849.580034,66.18364351";
  "0.92,1882.834163,66.869085";
  "0.92,1916.088191,67.51646679";
  "0.92,1946.990388,67.91432019";
  "0.92,1982.595847,68.65899159";
  "0.92,2015.849474,69.15413461";
  "0.92,2049.1027,69.49703884";
  "0.92,2082.35713,70.29665941";
  "0.92,2113.930634,70.52113717";
  "0.92,2148.864084,71.17276635";
  "0.92,2182.117711,71.66790937";
  "0.92,2215.371238,72.12499268";
  "0.92,2248.625367,72.81043417";
  "0.92,2281.542889,73.22099638";
  "0.92,2315.13232,73.68654111";
  "0.92,2348.386349,74.3339229";
  "0.92,2381.639475,74.63876744";
  "0.92,2414.893704,75.36226862";
  "0.92,2447.239587,75.53008825";
  "0.92,2481.400557,76.20031587";
  "0.92,2513.394978,76.82865392";
  "0.92,2547.90741,77.03836312";
  "0.92,2581.160335,77.26708827";
  "0.92,2614.414263,77.87641036";
  "0.92,2647.667088,78.06707582";
  "0.92,2680.921116,78.71445761";
  "0.92,2714.174342,79.05736184";
  "0.92,2747.427969,79.55250486";
  "0.92,2780.681898,80.16182695";
  "0.92,2813.934822,80.3905521";
  "0.92,2853.23523,81.22829909";
  "0.92,2886.487552,81.22866607";
  "0.92,2919.741882,81.99022695";
  "0.92,2952.994405,82.06671332";
  "0.92,2982.36167,82.66511833";
  "0.94,411.7925259,113.0192588";
  "0.94,415.3612352,128.9282501";
  "0.94,428.893207,101.9060169";
  "0.94,418.4178423,141.6973111";
  "0.94,426.0003939,151.2567212";
  "0.94,435.0938628,160.6068197";
  "0.94,445.7015605,171.0035764";
  "0.94,462.132283,96.88250418";
  "0.94,456.3103622,181.8189898";
  "0.94,465.403831,191.1690882";
  "0.94,474.4969319,200.3796345";
  "0.94,483.5911367,210.0088374";
  "0.94,495.3729646,92.46794656";
  "0.94,494.9487736,218.2076551";
  "0.94,505.6668121,229.5065184";
  "0.94,528.6199685,90.45114971";
  "0.94,527.4982104,238.2512005";
  "0.94,551.7077972,248.1422306";
  "0.94,561.8721908,90.413457";
  "0.94,574.4040816,257.337975";
  "0.94,595.1228074,89.76680916";
  "0.94,595.5884631,266.3692304";
  "0.94,615.2630049,276.018486";
  "0.94,628.3746283,89.57687767";
  "0.94,633.4241851,284.9500279";
  "0.94,651.5853653,293.8815698";
  "0.94,661.6259474,89.1966477";
  "0.94,669.7470055,302.987552";
  "0.94,686.3983907,312.5540398";
  "0.94,694.8770658,88.74029834";
  "0.94,701.5367061,321.5134588";
  "0.94,718.1891768,331.4916256";
  "0.94,728.1291878,88.66454593";
  "0.94,734.8417947,341.5256133";
  "0.94,751.4933823,351.1688548";
  "0.94,761.3804065,88.24625627";
  "0.94,774.1897674,360.4028099";
  "0.94,794.6340338,88.74139928";
  "0.94,799.9098422,369.9217174";
  "0.94,824.1170833,378.9231021";
  "0.94,827.8863564,88.74176626";
  "0.94,846.8121652,387.6628098";
  "0.94,861.1386791,88.74213324";
  "0.94,867.9963889,396.6342571";
  "0.94,890.6923776,405.7178613";
  "0.94,894.3914032,88.894739";
  "0.94,914.9022404,415.7135555";
  "0.94,927.6453315,89.5040611";
  "0.94,937.5999834,425.4625247";
  "0.94,960.8978548,89.58054747";
  "0.94,957.2748932,435.2513326";
  "0.94,975.4369933,444.531755";
  "0.94,994.1505789,89.73315323";
  "0.94,994.6769008,453.1243963";
  "0.94,1013.269325,461.8266786";
  "0.94,1027.403203,89.84769929";
  "0.94,1046.551785,473.2570365";
  "0.94,1060.657031,90.4189617";
  "0.94,1073.78313,482.7003699";
  "0.94,1093.909353,90.41932868";
  "0.94,1107.447955,495.8360933";
  "0.94,1093.45072,489.7130856";
  "0.94,1127.163181,90.99059108";
  "0.94,1132.78383,502.9535356";
  "0.94,1155.479582,511.9474277";
  "0.94,1160.416206,91.25737592";
  "0.94,1178.17565,521.0609359";
  "0.94,1193.669131,91.48610107";
  "0.94,1202.384547,530.6903056";
  "0.94,1226.922859,92.01930378";
  "0.94,1226.593581,540.3720073";
  "0.94,1255.337062,550.0680315";
  "0.94,1260.175683,92.20996923";
  "0.94,1288.948589,558.9137572";
  "0.94,1293.429511,92.78123164";
  "0.94,1321.883855,566.0538373";
  "0.94,1326.682235,92.93383739";
  "0.94,1355.157052,573.9706208";
  "0.94,1359.936063,93.5050998";
  "0.94,1388.430348,581.925464";
  "0.94,1393.189088,93.77188464";
  "0.94,1418.682301,590.4850002";
  "0.94,1426.441511,93.81031132";
  "0.94,1445.911806,599.2305725";
  "0.94,1459.695941,94.60993189";
  "0.94,1474.653638,608.3017834";
  "0.94,1492.948063,94.53417948";
  "0.94,1506.419681,617.8551171";
  "0.94,1526.20159,94.9912628";
  "0.94,1527.594801,623.3740064";
  "0.94,1559.455117,95.44834611";
  "0.94,1592.70764,95.52483248";
  "0.94,1625.96187,96.24833367";
  "0.94,1659.214293,96.28676034";
  "0.94,1692.46782,96.74384366";
  "0.94,1725.721146,97.12480759";
  "0.94,1758.97397,97.31547304";
  "0.94,1792.227798,97.88673544";
  "0.94,1825.481024,98.22963968";
  "0.94,1858.73435,98.6106036";
  "0.94,1891.987175,98.80126906";
  "0.94,1916.926969,99.01087262";
  "0.94,1958.567094,99.51824903";
  "0.94,1997.189255,99.93071474";
  "0.94,2040.899546,100.4154695";
  "0.94,2085.046607,100.7791609";
  "0.94,2126.133718,101.0217506";
  "0.94,2166.346648,101.2643305";
  "0.94,2247.647967,102.2337725";
  "0.94,2322.828109,102.4767383";
  "0.94,2365.664538,103.0825515";
  "0.94,2413.309916,104.051622";
  "0.94,2473.63027,104.7786962";
  "0.94,2530.45486,105.8689361";
  "0.94,2580.285051,106.5958946";
  "0.94,2623.996937,107.6859898";
  "0.94,2672.516177,108.5340018";
  "0.94,2717.975466,109.260912";
  "0.94,2765.621483,110.4721187";
  "0.94,2811.080133,110.9568927";
  "0.94,2853.043659,112.0469686";
  "0.94,2891.509825,112.8948697";
  "0.94,2929.101492,113.6216931";
  "0.94,2964.507708,114.3484924";
  "0.94,2998.602335,114.9542091";
  "0.94,2285.675447,102.4763283";
  "0.94,2207.871169,101.6279931";
  "0.95,672.1377919,145.1379711";
  "0.95,675.4327379,166.4008888";
  "0.95,671.7178792,155.7251037";
  "0.95,678.9916962,178.6117465";
  "0.95,687.5882413,190.5784434";
  "0.95,698.1307865,200.5358321";
  "0.95,721.5981006,135.1482456";
  "0.95,716.3608541,211.323197";
  "0.95,729.9896873,221.0361813";
  "0.95,749.4006476,130.7207423";
  "0.95,745.1297689,230.6654509";
  "0.95,766.3146234,239.8761306";
  "0.95,782.6482536,128.9323036";
  "0.95,792.0335177,248.9473081";
  "0.95,815.897666,127.8289394";
  "0.95,819.2651077,258.4836763";
  "0.95,844.9851211,267.9793252";
  "0.95,849.1469781,126.6875156";
  "0.95,865.4150429,276.6829907";
  "0.95,882.3965912,125.6602708";
  "0.95,889.2060696,285.555639";
  "0.95,915.6460036,124.5569066";
  "0.95,914.5854237,295.5590989";
  "0.95,937.2793819,303.8726739";
  "0.95,948.8953156,123.4154827";
  "0.95,958.4656558,313.6216264";
  "0.95,980.6332789,122.3197138";
  "0.95,982.2943199,322.3538705";
  "0.95,1003.858391,332.0762458";
  "0.95,1032.601009,341.4451681";
  "0.95,1061.342179,350.265185";
  "0.95,1088.571561,358.96424";
  "0.95,1115.801066,367.7098123";
  "0.95,1143.030326,376.3623499";
  "0.95,1170.259953,385.1544396";
  "0.95,1188.414142,391.4344895";
  "0.95,1224.721048,403.4363802";
  "0.95,1253.463617,412.7866955";
  "0.95,1285.226247,421.0459996";
  "0.95,1316.989589,429.5755275";
  "0.95,1347.242928,438.6607103";
  "0.95,1377.495273,447.3691021";
  "0.95,1409.260753,456.7093015";
  "0.95,1441.026655,466.2093517";
  "0.95,1471.279773,475.2108031";
  "0.95,1515.144734,487.4817325";
  "0.95,1548.416977,495.0369489";
  "0.95,1581.689605,502.7380608";
  "0.95,1614.963771,511.0227547";
  "0.95,1648.238573,519.5484933";
  "0.95,1681.512973,527.9219932";
  "0.95,1714.787374,536.295493";
  "0.95,1747.305212,544.354992";
  "0.95,1781.328949,550.3021947";
  "0.95,1814.595221,555.5928592";
  "0.95,1847.861593,560.9215835";
  "0.95,1881.127765,566.1741884";
  "0.95,1914.394137,571.5029126";
  "0.95,1947.660609,576.8696966";
  "0.95,1980.926881,582.1603611";
  "0.95,2014.193253,587.4890854";
  "0.95,2047.459927,592.9319887";
  "0.95,2080.726533,598.3495189";
  "0.95,2113.992236,603.4245119";
  "0.95,2147.255972,607.7535348";
  "0.95,2180.521983,612.9452442";
  "0.95,2213.79259,619.8800876";
  "0.95,2236.473861,623.3818297";
  "0.95,1010.298152,122.0752827";
  "0.95,1036.523241,121.9545041";
  "0.95,1063.622191,121.712667";
  "0.95,1095.966542,121.5919558";
  "0.95,1130.933114,121.3502056";
  "0.95,1163.277465,121.2294944";
  "0.95,1191.251233,121.2298032";
  "0.95,1220.09982,121.4722577";
  "0.95,1250.696449,121.5936635";
  "0.95,1292.657421,121.7151946";
  "0.95,1322.380508,122.0787269";
  "0.95,1352.977455,122.3212008";
  "0.95,1386.196625,122.4426355";
  "0.95,1419.416433,122.8062063";
  "0.95,1457.007142,123.1698255";
  "0.95,1489.353727,123.896591";
  "0.95,1527.819255,124.5023559";
  "0.95,1563.662242,125.1080919";
  "0.95,1599.505548,125.834896";
  "0.95,1641.467478,126.3196314";
  "0.95,1682.555227,126.8043572";
  "0.95,1718.397576,127.167957";
  "0.95,1754.240563,127.773693";
  "0.95,1792.705133,128.0162537";
  "0.95,1828.547482,128.3798535";
  "0.95,1867.01301,128.9856184";
  "0.95,1908.100759,129.4703442";
  "0.95,1945.692426,130.1971676";
  "0.95,1986.343724,130.9240248";
  "0.95,2026.120203,131.4087361";
  "0.95,2066.33441,132.1355884";
  "0.95,2103.050939,132.4991979";
  "0.95,2141.517106,133.347099";
  "0.95,2177.358816,133.4685626";
  "0.95,2214.076302,134.1953764";
  "0.95,2251.667969,134.9221997";
  "0.95,2290.570906,135.6490376";
  "0.95,2329.473524,136.2548074";
  "0.95,2370.561912,136.9816693";
  "0.95,2414.272522,137.5874922";
  "0.95,2454.049639,138.3143396";
  "0.95,2499.070881,138.6780408";
  "0.95,2542.78149,139.2838636";
  "0.95,2580.372838,139.8896189";
  "0.95,2619.712227,140.3743254";
  "0.95,2659.051935,140.9801";
  "0.95,2699.265823,141.5858842";
  "0.95,2738.168122,142.0705859";
  "0.95,2777.945559,142.9185015";
  "0.95,2816.411087,143.5242664";
  "0.95,2854.002434,144.1300217";
  "0.95,2890.719602,144.7357673";
  "0.95,2927.873859,145.3415178";
  "0.95,2961.968486,145.9472345";
  "0.95,2996.937292,146.5529608";
  "0.95,695.9820065,140.2873111";
  "0.955,956.9691855,205.6711912";
  "0.955,943.4207342,185.0557007";
  "0.955,965.2162522,216.6835708";
  "0.955,974.9184089,227.1855887";
  "0.955,987.1146143,172.8232215";
  "0.955,991.0664211,235.067293";
  "0.955,1183.648925,303.8989174";
  "0.955,1212.394165,314.2623818";
  "0.955,1239.62551,323.7057152";
  "0.955,1269.878031,332.4809229";
  "0.955,1303.153737,341.3491988";
  "0.955,1331.891838,349.0052233";
  "0.955,1375.757145,361.4074586";
  "0.955,1407.52099,370.127285";
  "0.955,1439.285818,379.2200964";
  "0.955,1472.560519,387.7077754";
  "0.955,1505.836132,396.5412538";
  "0.955,1539.107213,403.6555215";
  "0.955,1572.377499,410.4685738";
  "0.955,1605.648487,417.548044";
  "0.955,1637.709999,424.5133218";
  "0.955,1669.169454,432.438241";
  "0.955,1699.417683,439.5856416";
  "0.955,1732.692686,448.1874996";
  "0.955,1765.964677,455.6475668";
  "0.955,1799.23406,462.1180819";
  "0.955,1832.503945,468.7788954";
  "0.955,1865.773127,475.1732912";
  "0.955,1899.04261,481.681866";
  "0.955,1929.287215,487.4545866";
  "0.955,1965.581878,494.8133937";
  "0.955,1998.849275,500.5306715";
  "0.955,2032.117733,506.6504937";
  "0.955,2065.385008,512.3217552";
  "0.955,2098.650878,517.460181";
  "0.955,2131.91705,522.7127859";
  "0.955,2165.183824,528.1937489";
  "0.955,2198.450095,533.4844135";
  "0.955,2231.716668,538.8892571";
  "0.955,2264.981937,543.7993247";
  "0.955,2298.243793,547.4153627";
  "0.955,2331.504746,550.6888635";
  "0.955,2364.7659,554.0384836";
  "0.955,2398.026853,557.3119843";
  "0.955,2431.288006,560.6616045";
  "0.955,2464.548859,563.8970455";
  "0.955,2497.809612,567.0944268";
  "0.955,2531.069461,569.9492709";
  "0.955,2564.32921,572.7660553";
  "0.955,2597.588457,575.3925413";
  "0.955,2630.848205,578.2093257";
  "0.955,2664.107453,580.8358116";
  "0.955,2697.367201,583.652596";
  "0.955,2730.627552,586.6977385";
  "0.955,2763.887502,589.5906423";
  "0.955,2797.147853,592.6357849";
  "0.955,2830.406021,594.8532784";
  "0.955,2863.665778,597.6730851";
  "0.955,2896.92439,600.0585263";
  "0.955,2930.183436,602.6088929";
  "0.955,2963.443185,605.4256773";
  "0.955,2989.143249,607.3555874";
  "0.955,964.2620119,178.8557065";
  "0.955,1012.513776,244.0312247";
  "0.955,1033.661081,252.1026637";
  "0.955,1053.348227,258.9634058";
  "0.955,1074.494467,266.6312845";
  "0.955,1103.661476,277.1241738";
  "0.955,1128.086691,285.0947589";
  "0.955,1153.607557,294.1751469";
  "0.955,1023.967869,167.5566775";
  "0.955,1066.939354,164.1268893";
  "0.955,1106.997969,161.1006293";
  "0.955,1141.958795,158.6796534";
  "0.955,1181.652902,155.5524993";
  "0.955,1215.520205,152.8288412";
  "0.955,1248.296379,150.7105114";
  "0.955,1283.262525,150.307337";
  "0.955,1321.87109,149.9042028";
  "0.955,1361.572911,149.7028608";
  "0.955,1399.089548,149.6023848";
  "0.955,1444.254465,149.199323";
  "0.955,1490.148929,149.1998295";
  "0.955,1530.21579,149.3011617";
  "0.955,1568.097733,149.60425";
  "0.955,1605.980208,150.1091184";
  "0.955,1647.505367,150.7149171";
  "0.955,1684.659093,151.1188875";
  "0.955,1723.270051,151.6237639";
  "0.955,1757.509842,152.0277021";
  "0.955,1798.305986,152.4317126";
  "0.955,1835.460509,153.1383532";
  "0.955,1874.800483,153.8450178";
  "0.955,1918.511093,154.4508406";
  "0.955,1960.037316,155.4601996";
  "0.955,1997.921121,156.4695184";
  "0.955,2039.445747,156.873537";
  "0.955,2076.600271,157.5801775";
  "0.955,2114.48381,158.4886063";
  "0.955,2147.99565,159.0943165";
  "0.955,2188.792857,159.9018874";
  "0.955,2228.861049,160.50767";
  "0.955,2268.201289,161.3152247";
  "0.955,2306.813577,162.3245516";
  "0.955,2343.968367,163.1320822";
  "0.955,2383.309139,164.141417";
  "0.955,2419.007494,165.1507117";
  "0.955,2459.074621,165.3529341";
  "0.955,2508.613897,166.2614914";
  "0.955,2554.511287,167.3717887";
  "0.955,2605.508329,168.5830324";
  "0.955,2645.57652,169.188815";
  "0.955,2683.460059,170.0972437";
  "0.955,2724.986548,171.2074928";
  "0.955,2770.155189,172.216892";
  "0.955,2815.32383,173.2262912";
  "0.955,2859.034971,174.0338942";
  "0.955,2899.832711,175.0432451";
  "0.955,2940.629918,175.850816";
  "0.955,2973.413008,176.3556281";
  "0.955,2995.997062,176.7594376";
  "0.955,949.7234662,195.1689377";
  "0.958,1430.022416,305.422248";
  "0.958,1460.276097,314.6372567";
  "0.958,1505.655788,328.1447199";
  "0.958,1538.930088,336.4801601";
  "0.958,1572.203887,344.6253017";
  "0.958,1605.477585,352.7323837";
  "0.958,1638.750982,360.7252866";
  "0.958,1672.023877,368.527891";
  "0.958,1705.296973,376.4066149";
  "0.958,1738.57037,384.3995178";
  "0.958,1771.839552,390.7939135";
  "0.958,1801.075506,396.1860261";
  "0.958,1838.375005,402.4789737";
  "0.958,1871.643084,408.4547128";
  "0.958,1904.910861,414.3162728";
  "0.958,1938.178738,420.2158925";
  "0.958,1971.447318,426.38193";
  "0.958,2004.716701,432.8524451";
  "0.958,2037.982973,438.1431097";
  "0.958,2071.249546,443.5479533";
  "0.958,2098.46779,448.0229863";
  "0.958,2140.807035,454.8905097";
  "0.958,2174.073808,460.3714728";
  "0.958,2207.340482,465.8143761";
  "0.958,2240.606252,470.9147422";
  "0.958,2273.870516,475.4442129";
  "0.958,2307.133677,479.5550269";
  "0.958,2340.397039,483.7419603";
  "0.958,2373.6604,487.9288937";
  "0.958,2406.923862,492.1538868";
  "0.958,2440.187425,496.4169396";
  "0.958,2473.450485,500.489694";
  "0.958,2506.712261,504.0752842";
  "0.958,2539.973796,507.5695312";
  "0.958,2573.234649,510.8049722";
  "0.958,2606.495502,514.0404132";
  "0.958,2639.756154,517.1997349";
  "0.958,2673.017006,520.4351759";
  "0.958,2706.277658,523.5944976";
  "0.958,2739.538411,526.7918789";
  "0.958,2772.797959,529.5325439";
  "0.958,2806.057106,532.1209702";
  "0.958,2839.315349,534.3668592";
  "0.958,2872.574429,536.9299123";
  "0.958,2905.834144,539.7340101";
  "0.958,2939.093291,542.3224363";
  "0.958,2972.351936,544.7205641";
  "0.958,2992.004799,546.1480195";
  "0.958,1398.781886,295.3206386";
  "0.958,1369.605173,286.8056466";
  "0.958,1344.204864,278.2697758";
  "0.958,1316.737554,268.7715361";
  "0.958,1294.181313,259.9079411";
  "0.958,1273.989593,250.2633378";
  "0.958,1254.098648,240.1096707";
  "0.958,1239.173667,232.3131087";
  "0.958,1230.341373,224.516614";
  "0.958,1238.127226,217.3758137";
  "0.958,1251.75402,210.2420514";
  "0.958,1277.594232,204.1962933";
  "0.958,1308.695501,197.8437582";
  "0.958,1337.052838,191.6027693";
  "0.958,1367.751524,185.3408856";
  "0.958,1411.402956,183.6607486";
  "0.958,1456.966929,181.6528772";
  "0.958,1495.73598,180.6700385";
  "0.958,1534.279417,180.056794";
  "0.958,1580.905396,179.7923148";
  "0.958,1637.551358,179.4442638";
  "0.958,1689.791911,179.2705023";
  "0.958,1739.514825,179.096713";
  "0.958,1792.385247,179.0972965";
  "0.958,1840.221311,179.4465005";
  "0.958,1884.279996,179.4469868";
  "0.958,1935.892519,179.7962325";
  "0.958,1984.987402,180.1454504";
  "0.958,2036.600384,180.6690341";
  "0.958,2086.953627,180.8439279";
  "0.958,2142.343527,181.5418913";
  "0.958,2201.510346,182.4142345";
  "0.958,2253.124248,183.2864944";
  "0.958,2304.73677,183.63574";
  "0.958,2363.904508,184.8567593";
  "0.958,2411.74287,186.0776536";
  "0.958,2462.10025,187.8215898";
  "0.958,2509.938612,189.042484";
  "0.958,2571.62399,190.2635311";
  "0.958,2610.649236,190.9613139";
  "0.958,2662.266355,193.0539401";
  "0.958,2716.401113,195.1465941";
  "0.958,2765.498754,196.5418402";
  "0.958,2805.784199,197.7626511";
  "0.958,2847.328003,198.8091379";
  "0.958,2894.538335,200.5530393";
  "0.958,2935.453189,201.7738572";
  "0.958,2972.591584,202.9946333";
  "0.958,2997.139026,203.1692423";
  "0.96,1683.949043,305.348931";
  "0.96,1717.226454,314.8642217";
  "0.96,1750.503364,324.1892139";
  "0.96,1783.776961,332.2582362";
  "0.96,1817.049856,340.0608407";
  "0.96,1850.321648,347.4447884";
  "0.96,1883.591532,354.105602";
  "0.96,1916.861818,360.9186544";
  "0.96,1950.131887,367.6492441";
  "0.96,1983.401731,374.2946525";
  "0.96,2016.670201,380.4190056";
  "0.96,2049.93674,385.8111627";
  "0.96,2083.202109,390.75929";
  "0.96,2116.467979,395.8977158";
  "0.96,2149.732846,400.6555447";
  "0.96,2182.997954,405.5047168";
  "0.96,2216.264386,410.8562768";
  "0.96,2249.529353,415.6521654";
  "0.96,2287.83317,420.682811";
  "0.96,2316.056177,424.0640919";
  "0.96,2349.319037,428.0607268";
  "0.96,2382.581896,432.0573618";
  "0.96,2415.844857,436.0920564";
  "0.96,2449.107716,440.0886913";
  "0.96,2482.370543,444.0726397";
  "0.96,2515.632461,447.7122385";
  "0.96,2548.893386,450.974865";
  "0.96,2582.153937,454.096127";
  "0.96,2615.41479,457.331568";
  "0.96,2648.675342,460.45283";
  "0.96,2681.936194,463.688271";
  "0.96,2715.196646,466.7714733";
  "0.96,2748.456997,469.8166158";
  "0.96,2781.71514,472.0244451";
  "0.96,2814.972681,474.0039162";
  "0.96,2848.231225,476.3639843";
  "0.96,2881.489067,478.4576345";
  "0.96,2914.747311,480.7035235";
  "0.96,2948.005253,482.8352334";
  "0.96,2979.751436,484.8565535";
  "0.96,1656.039607,297.3527726";
  "0.96,1628.822626,287.310601";
  "0.96,1601.608293,278.2726165";
  "0.96,1585.879911,271.3268153";
  "0.96,1568.427521,264.2898874";
  "0.96,1568.275153,255.571111";
  "0.96,1569.847116,249.4531545";
  "0.96,1570.150996,243.1374394";
  "0.96,1570.454439,236.6562646";
  "0.96,1570.119584,231.2243395";
  "0.96,1571.561867,225.6552236";
  "0.96,1599.383043,223.04046";
  "0.96,1629.478057,220.7929613";
  "0.96,1658.844917,218.6705583";
  "0.96,1687.16409,217.0525941";
  "0.96,1715.482104,214.9947492";
  "0.96,1746.262722,213.0620352";
  "0.96,1781.796384,212.3925172";
  "0.96,1818.277276,211.7996862";
  "0.96,1852.893016,211.1180514";
  "0.96,1887.509022,210.5373066";
  "0.96,1926.32086,209.8678249";
  "0.96,1964.083915,209.2871148";
  "0.96,1995.553873,209.085682";
  "0.96,2033.726379,209.0739965";
  "0.96,2076.969727,209.2883607";
  "0.96,2116.191782,209.4784669";
  "0.96,2148.711788,209.6684991";
  "0.96,2184.379673,210.1733431";
  "0.96,2220.047196,210.5409766";
  "0.96,2258.863098,211.4130952";
  "0.96,2293.481403,211.7040406";
  "0.96,2329.149458,212.2734543";
  "0.96,2366.91528,212.742001";
  "0.96,2407.828279,213.2590097";
  "0.96,2444.545382,213.8405417";
  "0.96,2480.213969,214.6117355";
  "0.96,2516.930775,215.0802706";
  "0.96,2551.54991,215.6859931";
  "0.96,2589.316998,216.6347766";
  "0.96,2623.937133,217.6198458";
  "0.96,2664.850738,218.3668838";
  "0.96,2706.813721,219.2511439";
  "0.96,2744.580075,219.9214708";
  "0.96,2779.200476,221.00743";
  "0.96,2812.7702,221.4638236";
  "0.96,2847.390569,222.5376761";
  "0.96,2880.960592,223.1070666";
  "0.96,2908.237144,223.9144882";
  "0.96,2939.709901,224.7744189";
  "0.96,2970.132938,225.3679883";
  "0.96,2994.261878,225.9614882";
  "0.962,2200.716957,310.8621682";
  "0.962,2222.061787,316.6205391";
  "0.962,2258.362137,326.1358632";
  "0.962,2291.63453,333.7481691";
  "0.962,2324.907024,341.3985348";
  "0.962,2358.174901,347.2981544";
  "0.962,2391.439266,351.8656848";
  "0.962,2424.702829,356.1287376";
  "0.962,2457.966893,360.5820889";
  "0.962,2491.231157,365.1115596";
  "0.962,2524.493214,368.8037169";
  "0.962,2555.16259,371.8923277";
  "0.962,2591.016726,375.9596735";
  "0.962,2624.278382,379.4995921";
  "0.962,2657.540338,383.1536898";
  "0.962,2690.80089,386.2749518";
  "0.962,2724.060037,388.863378";
  "0.962,2757.318682,391.2615058";
  "0.962,2790.575219,392.8603799";
  "0.962,2823.831757,394.4592541";
  "0.962,2857.089378,396.4691729";
  "0.962,2890.345735,397.9995397";
  "0.962,2923.60167,399.3700557";
  "0.962,2956.858107,400.9308701";
  "0.962,3000.686787,402.4649142";
  "0.962,2178.885143,304.6516133";
  "0.962,2183.744247,296.8146617";
  "0.962,2188.949415,288.2372875";
  "0.962,2194.216599,280.7059422";
  "0.962,2199.484886,273.5930082";
  "0.962,2206.512211,265.2248598";
  "0.962,2243.264778,263.3424145";
  "0.962,2284.803618,262.5060504";
  "0.962,2325.588269,262.0880892";
  "0.962,2372.415255,261.6701947";
  "0.962,2419.998083,261.4615141";
  "0.962,2466.069225,260.8344056";
  "0.962,2512.142574,261.0441198";
  "0.962,2555.95115,261.6722202";
  "0.962,2593.716289,261.8818426";
  "0.962,2639.034897,262.3007541";
  "0.962,2679.821847,262.7544831";
  "0.962,2723.630332,263.3477159";
  "0.962,2769.075282,263.9409668";
  "0.962,2818.80316,265.6500285";
  "0.962,2858.838587,267.5333211";
  "0.962,2896.609794,270.0442058";
  "0.962,2929.092304,271.9274151";
  "0.962,2965.351824,274.0198718";
  "0.962,2997.961595,276.4260967";
  ""].

(* ADRpy/data/engine_data/Electric_CSVs/YASA_750R_Efficiency_data.csv *)
Definition lines_YASA_750R_Efficiency_data : list string := [
  "Efficiency,Speed (RPM),Torque (Nm)";
  "0.5,127.2350069,221.3141025";
  "0.5,127.2357886,201.3587082";
  "0.5,123.2093982,189.7012969";
  "0.5,123.209909,176.6611382";
  "0.5,123.2104198,163.6209796";
  "0.5,123.2109306,150.5808209";
  "0.5,123.2114414,137.5406622";
  "0.5,123.2119522,124.5005036";
  "0.5,123.2126952,105.5330001";
  "0.5,131.2606427,252.2353845";
  "0.5,129.2479738,232.9713639";
  "0.5,128.5823277,92.69081917";
  "0.5,133.2733348,270.9066706";
  "0.5,134.2876333,77.23075262";
  "0.5,146.790805,302.3226045";
  "0.5,139.313141,282.7618099";
  "0.5,147.364908,331.9593715";
  "0.5,143.3387575,314.1770373";
  "0.5,149.3890005,59.5980256";
  "0.5,150.0486213,353.6931691";
  "0.5,155.4169013,375.377772";
  "0.5,161.4561537,401.3696287";
  "0.5,171.5372481,44.569621";
  "0.5,167.4957146,419.4879957";
  "0.5,169.508666,431.5404134";
  "0.5,175.5483561,446.3592251";
  "0.5,196.6872047,499.9291776";
  "0.5,184.9431174,477.3796958";
  "0.5,207.7792865,33.98007616";
  "0.5,199.7065361,520.4528339";
  "0.5,207.759313,543.8664455";
  "0.5,203.7330116,529.9368854";
  "0.5,215.8121055,566.8849008";
  "0.5,229.0417578,603.0483342";
  "0.5,219.8383643,581.9011408";
  "0.5,252.0749017,26.38559457";
  "0.5,239.9708388,626.8516711";
  "0.5,269.4982252,698.9797768";
  "0.5,251.0437569,650.1173238";
  "0.5,260.1034836,667.4554818";
  "0.5,264.1298198,680.4959402";
  "0.5,296.3703874,22.09605677";
  "0.5,282.2491804,717.5431942";
  "0.5,292.3156711,733.5477746";
  "0.5,304.3955118,751.4294973";
  "0.5,312.4486758,764.9642008";
  "0.5,335.8580726,800.1594497";
  "0.5,324.528501,783.2410799";
  "0.5,340.6658105,19.40510592";
  "0.5,384.9612506,16.28307544";
  "0.5,429.2566047,15.35236639";
  "0.5,466.3036491,14.04033086";
  "0.5,517.8473349,12.93413711";
  "0.5,562.1426335,13.4223985";
  "0.5,606.4379848,12.56353605";
  "0.5,650.7333277,11.92021342";
  "0.5,695.0286896,10.79192621";
  "0.5,739.3240326,10.14860358";
  "0.5,783.6193628,9.828590663";
  "0.5,827.9147205,8.808073359";
  "0.5,872.2100507,8.488060446";
  "0.5,916.5053704,8.437472299";
  "0.5,960.8006817,8.602423964";
  "0.5,1005.095989,8.875145536";
  "0.5,1049.391302,8.986212248";
  "0.5,1093.68662,8.989509054";
  "0.5,1137.981937,8.992805859";
  "0.5,1182.277255,8.996102665";
  "0.5,1226.572572,8.999399471";
  "0.5,1270.867896,8.841041418";
  "0.5,1315.163248,7.982178973";
  "0.5,1359.458572,7.823820919";
  "0.5,1403.753855,8.689276976";
  "0.5,1448.04916,9.0158835";
  "0.5,1492.344478,9.019180306";
  "0.5,1536.639836,7.998663002";
  "0.5,1580.935153,8.001959808";
  "0.5,1625.230441,8.759645958";
  "0.5,1669.525795,7.84689856";
  "0.5,1713.821112,7.850195366";
  "0.5,1758.116409,8.392341703";
  "0.5,1802.411747,7.856788978";
  "0.5,1846.707057,8.075625596";
  "0.5,1891.002359,8.456117074";
  "0.5,1935.297677,8.45941388";
  "0.5,1979.593003,8.247170873";
  "0.5,2023.888318,8.304352632";
  "0.5,2068.183644,8.092109625";
  "0.5,2112.47897,7.879866619";
  "0.5,2156.774275,8.206473143";
  "0.5,2201.069597,8.102000043";
  "0.5,2245.364911,8.213066755";
  "0.5,2289.660241,7.893053842";
  "0.5,2333.955558,7.896350648";
  "0.5,2378.25087,8.061302313";
  "0.5,2422.546189,8.010714166";
  "0.5,2466.841511,7.906241065";
  "0.5,2511.136829,7.909537871";
  "0.5,2555.432142,8.020604583";
  "0.5,2599.727464,7.916131483";
  "0.5,2644.022775,8.081083148";
  "0.5,2688.318076,8.515459579";
  "0.5,2732.613396,8.464871432";
  "0.5,2776.908711,8.522053191";
  "0.5,2821.203993,9.441394201";
  "0.5,2853.418782,9.120482159";
  "0.5,2962.143699,7.943105349";
  "0.5,3006.43901,8.108057014";
  "0.5,3050.734311,8.542433445";
  "0.5,3095.029628,8.545730251";
  "0.5,3139.324946,8.549027057";
  "0.5,3183.620263,8.552323863";
  "0.5,3227.915581,8.555620669";
  "0.5,3258.287889,8.089096937";
  "0.55,154.7528631,194.0503642";
  "0.55,149.3846006,171.9212105";
  "0.55,149.3851114,158.8810518";
  "0.55,149.3856222,145.8408931";
  "0.55,149.386133,132.8007345";
  "0.55,148.71558,117.7847442";
  "0.55,157.4360192,230.0097894";
  "0.55,155.4233387,211.042136";
  "0.55,158.4479185,97.58310152";
  "0.55,171.5271777,301.6470347";
  "0.55,163.4752914,255.4978218";
  "0.55,163.4821022,81.62903961";
  "0.55,165.4881344,270.3163338";
  "0.55,171.5278942,283.356942";
  "0.55,175.5632703,65.62610764";
  "0.55,183.6060903,343.2240241";
  "0.55,179.5800327,323.0707519";
  "0.55,187.6322098,361.796671";
  "0.55,197.4101336,401.6686719";
  "0.55,193.6717451,380.567046";
  "0.55,203.7518459,49.13042912";
  "0.55,209.1062662,424.6281249";
  "0.55,213.8034147,446.0657051";
  "0.55,235.6089208,503.6613623";
  "0.55,239.9939215,37.5927657";
  "0.55,229.9092124,486.6692161";
  "0.55,246.0150914,525.1981565";
  "0.55,250.0413116,541.2022873";
  "0.55,258.0944542,555.2803307";
  "0.55,266.1473879,574.6929845";
  "0.55,285.0949397,29.14157329";
  "0.55,277.5560681,593.0686027";
  "0.55,288.2934584,615.2404942";
  "0.55,298.3599702,630.708791";
  "0.55,307.4195924,650.7142542";
  "0.55,332.6119272,24.23619063";
  "0.55,318.4926381,670.7198673";
  "0.55,328.5591714,685.6377678";
  "0.55,344.6659689,700.7207663";
  "0.55,348.6921606,717.4493503";
  "0.55,360.7719665,736.2201748";
  "0.55,378.1154061,21.50222173";
  "0.55,372.8518576,752.8176395";
  "0.55,384.9319034,765.463541";
  "0.55,399.0251967,782.6044955";
  "0.55,421.2027256,20.0756812";
  "0.55,413.3052847,800.1492749";
  "0.55,465.4981607,17.07938228";
  "0.55,509.7934307,18.29509053";
  "0.55,554.0888106,16.70878122";
  "0.55,598.3841934,15.04703297";
  "0.55,642.6795313,14.53303423";
  "0.55,686.9748977,13.28799629";
  "0.55,731.2702463,12.50098045";
  "0.55,775.5655783,12.1360634";
  "0.55,819.8609588,10.53179244";
  "0.55,864.156281,10.41833852";
  "0.55,908.4515739,11.05029311";
  "0.55,952.7469049,10.71231854";
  "0.55,997.0422373,10.33842068";
  "0.55,1041.337554,10.36865996";
  "0.55,1085.632874,10.30011016";
  "0.55,1129.928196,10.19563706";
  "0.55,1174.223507,10.37855038";
  "0.55,1218.518824,10.38184718";
  "0.55,1262.814127,10.75156167";
  "0.55,1307.109425,11.26679815";
  "0.55,1351.404738,11.39282203";
  "0.55,1395.70006,11.26437832";
  "0.55,1439.995378,11.26767512";
  "0.55,1484.290711,10.87761177";
  "0.55,1528.586043,10.50371391";
  "0.55,1572.881361,10.50701071";
  "0.55,1617.176657,11.07071103";
  "0.55,1661.471966,11.28415915";
  "0.55,1705.767283,11.28745596";
  "0.55,1750.062606,11.1572487";
  "0.55,1794.357931,10.98811365";
  "0.55,1838.653255,10.82315879";
  "0.55,1882.948572,10.82645559";
  "0.55,1927.24389,10.8297524";
  "0.55,1971.5392,11.02164654";
  "0.55,2015.834519,10.99800087";
  "0.55,2060.129831,11.13601006";
  "0.55,2104.425149,11.13930687";
  "0.55,2148.720466,11.14260367";
  "0.55,2193.015784,11.14590048";
  "0.55,2237.311101,11.14919728";
  "0.55,2281.606419,11.15249409";
  "0.55,2325.901716,11.68925193";
  "0.55,2370.197029,11.81109563";
  "0.55,2414.492346,11.81439244";
  "0.55,2458.787664,11.81768925";
  "0.55,2503.082985,11.72399314";
  "0.55,2547.378299,11.82428286";
  "0.55,2591.673623,11.67252162";
  "0.55,2635.968946,11.52076037";
  "0.55,2680.264266,11.46478373";
  "0.55,2724.559607,10.87534605";
  "0.55,2768.854925,10.87864286";
  "0.55,2813.150242,10.88193966";
  "0.55,2843.351595,10.88418748";
  "0.55,2994.358364,10.78586052";
  "0.55,3038.653677,10.8987234";
  "0.55,3082.948995,10.90202021";
  "0.55,3127.244312,10.90531701";
  "0.55,3171.53963,10.90861382";
  "0.55,3215.834947,10.91191062";
  "0.55,3256.477048,10.67784173";
  "0.55,406.3828355,791.6305499";
  "0.6,186.6044849,190.8611899";
  "0.6,206.5607275,302.1492327";
  "0.6,186.2971795,176.6658337";
  "0.6,185.6266652,160.6619527";
  "0.6,185.627176,147.621794";
  "0.6,185.6276868,134.5816353";
  "0.6,184.9571571,118.9729106";
  "0.6,191.4185491,101.9499159";
  "0.6,193.6777124,228.2342833";
  "0.6,195.6966774,86.76846948";
  "0.6,199.7172554,246.8070801";
  "0.6,203.7434756,262.8112109";
  "0.6,207.7695951,281.3838578";
  "0.6,209.7911781,73.08723078";
  "0.6,223.8748801,335.0769221";
  "0.6,219.8485264,322.4810146";
  "0.6,229.9259919,58.31976174";
  "0.6,229.9143438,355.674895";
  "0.6,227.9030564,301.1431725";
  "0.6,234.6117748,369.9008723";
  "0.6,271.2461441,459.5991451";
  "0.6,248.0336608,393.8335261";
  "0.6,264.1546555,46.48558123";
  "0.6,252.059642,415.9378827";
  "0.6,260.1126666,433.0289931";
  "0.6,268.1657687,448.1443219";
  "0.6,292.7655007,500.0845121";
  "0.6,308.4503763,36.19685198";
  "0.6,297.9237439,516.9037371";
  "0.6,308.4309034,533.3035066";
  "0.6,312.45717,548.1221684";
  "0.6,324.5369449,567.6833056";
  "0.6,332.5901282,580.7240637";
  "0.6,352.7459113,30.64999861";
  "0.6,354.449374,600.6663002";
  "0.6,360.77644,622.0199974";
  "0.6,368.8296001,635.65349";
  "0.6,380.9094447,653.4364236";
  "0.6,397.0414019,26.23472926";
  "0.6,390.9759431,669.2434258";
  "0.6,403.0559677,682.4326673";
  "0.6,416.5739449,700.9048794";
  "0.6,441.3368314,23.38212354";
  "0.6,429.2289546,721.2093296";
  "0.6,441.3089927,734.0528092";
  "0.6,455.4023673,749.119193";
  "0.6,472.0258572,763.9684292";
  "0.6,485.6321722,22.79268586";
  "0.6,488.6227569,777.165416";
  "0.6,515.362368,800.7119594";
  "0.6,499.9468194,788.7423016";
  "0.6,529.9275869,20.31727482";
  "0.6,576.6390865,18.4347781";
  "0.6,618.5183466,17.1446562";
  "0.6,662.8137064,16.07025394";
  "0.6,707.1090092,16.45074542";
  "0.6,751.404376,15.19672665";
  "0.6,795.6996823,15.48740987";
  "0.6,839.995002,15.43682173";
  "0.6,884.2903534,14.57795928";
  "0.6,928.5856815,14.31183132";
  "0.6,972.881016,13.8840485";
  "0.6,1017.176346,13.56403559";
  "0.6,1061.47166,13.6751023";
  "0.6,1105.76704,12.06185051";
  "0.6,1150.062362,11.95737741";
  "0.6,1194.357642,12.93060338";
  "0.6,1238.652966,12.77224532";
  "0.6,1282.948292,12.56000231";
  "0.6,1327.243609,12.56329912";
  "0.6,1371.538948,12.0277464";
  "0.6,1415.834268,11.97715825";
  "0.6,1460.129585,11.98045505";
  "0.6,1504.424903,11.98375186";
  "0.6,1548.720221,11.98704867";
  "0.6,1593.015551,11.66703575";
  "0.6,1637.310889,11.13148303";
  "0.6,1681.606218,10.86535507";
  "0.6,1725.901527,11.08419168";
  "0.6,1770.19683,11.46468316";
  "0.6,1814.492126,12.0068295";
  "0.6,1858.787444,12.01012631";
  "0.6,1903.082765,11.90565321";
  "0.6,1947.378113,11.15456067";
  "0.6,1991.673443,10.83454775";
  "0.6,2035.96876,10.83784456";
  "0.6,2080.264078,10.84114137";
  "0.6,2124.559396,10.84443817";
  "0.6,2168.854688,11.49435442";
  "0.6,2213.149984,12.03650075";
  "0.6,2257.445302,12.03979756";
  "0.6,2301.740619,12.04309436";
  "0.6,2346.035937,12.04639117";
  "0.6,2390.331255,12.04968798";
  "0.6,2434.626572,12.05298478";
  "0.6,2478.92189,12.05628159";
  "0.6,2523.217207,12.05957839";
  "0.6,2567.512525,12.0628752";
  "0.6,2611.807843,12.06617201";
  "0.6,2656.10316,12.06946881";
  "0.6,2700.398478,12.07276562";
  "0.6,2744.693795,12.07606242";
  "0.6,2788.989104,12.29489904";
  "0.6,2833.28443,12.08265603";
  "0.6,2882.609341,12.08632718";
  "0.6,2987.915362,11.97561799";
  "0.6,3030.599936,12.09734181";
  "0.6,3074.895254,12.10063861";
  "0.6,3119.190571,12.10393542";
  "0.6,3163.485889,12.10723222";
  "0.6,3207.781206,12.11052903";
  "0.6,3258.177483,12.11427992";
  "0.6,191.076338,211.2663952";
  "0.65,235.0658815,199.3909521";
  "0.65,235.3892583,102.7470294";
  "0.65,233.9481565,177.8548492";
  "0.65,233.9486673,164.8146906";
  "0.65,233.9491781,151.7745319";
  "0.65,233.9496889,138.7343732";
  "0.65,233.2791592,123.1256485";
  "0.65,239.9868017,219.3467127";
  "0.65,244.0130528,234.5605309";
  "0.65,252.0659885,253.9237901";
  "0.65,254.0861822,81.09244313";
  "0.65,264.6479864,302.4054681";
  "0.65,256.0923092,267.3594048";
  "0.65,260.1185913,281.7829104";
  "0.65,274.2209767,66.8189195";
  "0.65,276.2243542,323.2755231";
  "0.65,280.2505976,338.6869194";
  "0.65,288.3036028,356.2719753";
  "0.65,306.4362747,53.50454908";
  "0.65,308.4361008,400.6248316";
  "0.65,296.3564901,376.870098";
  "0.65,318.5023784,422.0677509";
  "0.65,328.5689156,436.8868623";
  "0.65,332.595159,452.2982586";
  "0.65,348.7185829,42.93546822";
  "0.65,344.6749649,471.0690831";
  "0.65,356.7550958,481.5416248";
  "0.65,368.0290354,512.9969073";
  "0.65,393.0141601,36.31091579";
  "0.65,380.9141426,533.5064795";
  "0.65,390.9806624,548.7701418";
  "0.65,401.0471473,564.9229058";
  "0.65,415.1404038,583.0023566";
  "0.65,437.309655,31.78787653";
  "0.65,435.2739154,601.4774132";
  "0.65,443.3270744,615.1391312";
  "0.65,453.3936281,629.5348609";
  "0.65,466.4803702,642.5759936";
  "0.65,481.6050824,28.98915577";
  "0.65,477.5535959,657.9879144";
  "0.65,489.633634,670.831394";
  "0.65,513.981652,698.3860265";
  "0.65,499.7003011,682.3340149";
  "0.65,525.9005393,25.43604567";
  "0.65,529.9003864,714.696743";
  "0.65,543.9937861,729.1209978";
  "0.65,570.1958991,24.36164341";
  "0.65,560.1006344,742.9032734";
  "0.65,578.2209412,755.7965971";
  "0.65,600.3679305,772.8887565";
  "0.65,614.4912821,22.69450667";
  "0.65,620.5016627,785.7328356";
  "0.65,643.3401118,800.5523138";
  "0.65,658.7866736,20.81183011";
  "0.65,703.0820228,20.00685262";
  "0.65,747.3773615,19.47129989";
  "0.65,791.6726875,19.25905689";
  "0.65,835.968022,18.83127407";
  "0.65,880.2634599,15.76312854";
  "0.65,924.5588091,14.95815105";
  "0.65,968.8541246,15.01533281";
  "0.65,1013.149451,14.8030898";
  "0.65,1057.444787,14.32142203";
  "0.65,1101.740077,15.02522323";
  "0.65,1146.035408,14.70521031";
  "0.65,1190.33074,14.33131245";
  "0.65,1234.626072,13.95741458";
  "0.65,1278.921373,14.39179101";
  "0.65,1323.216646,15.52667184";
  "0.65,1367.511964,15.52996864";
  "0.65,1411.807281,15.53326545";
  "0.65,1456.10261,15.26713749";
  "0.65,1500.397978,13.97719542";
  "0.65,1544.693327,13.17221793";
  "0.65,1588.988626,13.66047931";
  "0.65,1633.283928,14.04097079";
  "0.65,1677.579235,14.31369236";
  "0.65,1721.874551,14.37087412";
  "0.65,1766.169869,14.37417092";
  "0.65,1810.465165,14.91631726";
  "0.65,1854.76048,14.98427601";
  "0.65,1899.055821,14.38406134";
  "0.65,1943.351139,14.38735815";
  "0.65,1987.646456,14.39065495";
  "0.65,2031.941801,13.69344737";
  "0.65,2076.237106,14.02005389";
  "0.65,2120.532409,14.40054537";
  "0.65,2164.827746,13.9188776";
  "0.65,2209.123091,13.22167001";
  "0.65,2253.418408,13.22496682";
  "0.65,2297.713726,13.22826362";
  "0.65,2342.009039,13.33933034";
  "0.65,2386.304323,14.20478639";
  "0.65,2430.599651,13.93865843";
  "0.65,2474.89496,14.15749505";
  "0.65,2519.190314,13.24474765";
  "0.65,2563.485631,13.24804446";
  "0.65,2607.780949,13.25134127";
  "0.65,2652.076267,13.25463807";
  "0.65,2696.371584,13.25793488";
  "0.65,2740.666902,13.26123168";
  "0.65,2784.962219,13.26452849";
  "0.65,2829.257537,13.2678253";
  "0.65,2859.458872,13.71462398";
  "0.65,3006.438803,13.38878242";
  "0.65,3050.734125,13.28430932";
  "0.65,3095.029442,13.28760613";
  "0.65,3139.32476,13.29090294";
  "0.65,3183.620078,13.29419974";
  "0.65,3227.915395,13.29749655";
  "0.65,3259.940174,13.29988008";
  "0.7,297.8050983,200.885057";
  "0.7,306.2476115,102.3640947";
  "0.7,294.3506765,182.6012208";
  "0.7,294.3511873,169.5610621";
  "0.7,294.3516982,156.5209034";
  "0.7,294.352209,143.4807448";
  "0.7,293.6817257,126.6865511";
  "0.7,296.3666541,117.4005773";
  "0.7,308.442923,226.4646216";
  "0.7,339.2662631,301.2996447";
  "0.7,312.4689652,247.0130501";
  "0.7,322.5425221,82.62876894";
  "0.7,322.5354249,263.8079431";
  "0.7,328.5748751,284.7516778";
  "0.7,348.7175664,68.8849221";
  "0.7,350.7209163,326.047162";
  "0.7,354.7471771,341.0140075";
  "0.7,364.8136794,356.7222206";
  "0.7,384.959704,55.76278446";
  "0.7,374.8800173,376.6289697";
  "0.7,385.3108567,400.9121021";
  "0.7,401.9050333,421.8230544";
  "0.7,411.5219974,436.063208";
  "0.7,429.2553847,46.49786932";
  "0.7,422.7964819,453.608988";
  "0.7,453.6880929,498.9131372";
  "0.7,438.9032246,470.0882055";
  "0.7,445.3457078,482.1409529";
  "0.7,473.5509371,40.50646509";
  "0.7,476.8818431,527.7490744";
  "0.7,487.5979185,540.5259215";
  "0.7,503.9937976,562.4056777";
  "0.7,517.8463955,36.91567512";
  "0.7,519.838642,577.527355";
  "0.7,546.9416032,598.3867869";
  "0.7,529.9054403,585.6782035";
  "0.7,562.1418778,32.71321173";
  "0.7,558.0922242,614.9218694";
  "0.7,576.2124942,628.7536894";
  "0.7,588.2925168,641.9923253";
  "0.7,606.4372587,31.09995994";
  "0.7,607.2180943,657.4048306";
  "0.7,620.5061149,672.0759981";
  "0.7,650.9958438,696.8902721";
  "0.7,632.5862555,682.3015671";
  "0.7,650.7326734,28.6245489";
  "0.7,670.8870691,711.5190037";
  "0.7,695.0280733,26.52633253";
  "0.7,690.9737267,728.5392027";
  "0.7,711.1074883,740.6324847";
  "0.7,739.3234515,24.98213176";
  "0.7,731.2412081,753.7926889";
  "0.7,755.4017637,767.2410923";
  "0.7,783.6188131,23.86023247";
  "0.7,781.5756725,782.4847843";
  "0.7,817.320081,800.5652524";
  "0.7,827.9141626,23.04918855";
  "0.7,872.2095083,22.33649341";
  "0.7,916.5048617,21.42374601";
  "0.7,960.8001934,21.0678098";
  "0.7,1005.095548,20.13710075";
  "0.7,1049.390861,20.24816746";
  "0.7,1093.686224,19.08395695";
  "0.7,1137.981566,18.47655762";
  "0.7,1182.27689,18.31045579";
  "0.7,1226.572248,17.27848356";
  "0.7,1270.867581,16.88538699";
  "0.7,1315.162929,16.1188069";
  "0.7,1359.458215,16.930378";
  "0.7,1403.753518,17.31086948";
  "0.7,1448.048835,17.31416629";
  "0.7,1492.344178,16.67084366";
  "0.7,1536.639482,17.0281038";
  "0.7,1580.934817,16.58483343";
  "0.7,1625.230176,15.54108479";
  "0.7,1669.525467,16.21423237";
  "0.7,1713.820776,16.44081276";
  "0.7,1758.116085,16.66739316";
  "0.7,1802.411405,16.58615139";
  "0.7,1846.70674,16.15836857";
  "0.7,1891.002051,16.32332024";
  "0.7,1935.297372,16.2340132";
  "0.7,1979.592694,16.14502766";
  "0.7,2023.888013,16.09443951";
  "0.7,2068.18333,16.12096765";
  "0.7,2112.478645,16.17814941";
  "0.7,2156.77398,15.73487903";
  "0.7,2201.069311,15.40712234";
  "0.7,2245.364627,15.44913803";
  "0.7,2289.659945,15.45243484";
  "0.7,2333.955271,15.23244806";
  "0.7,2378.250589,15.23574486";
  "0.7,2422.545897,15.46232526";
  "0.7,2466.841217,15.42690318";
  "0.7,2511.136538,15.32243008";
  "0.7,2555.431871,14.94853221";
  "0.7,2599.72718,15.17511261";
  "0.7,2644.022497,15.19389697";
  "0.7,2688.31782,15.03553891";
  "0.7,2732.613138,15.03883572";
  "0.7,2776.90845,15.18829983";
  "0.7,2821.203771,15.09931428";
  "0.7,2849.391703,15.0475273";
  "0.7,3002.411884,15.22057112";
  "0.7,3046.707205,15.15449542";
  "0.7,3091.002526,15.06550988";
  "0.7,3135.297843,15.06880668";
  "0.7,3179.593161,15.07210349";
  "0.7,3223.888478,15.07540029";
  "0.7,3256.627158,15.07783696";
  "0.7,494.9633102,551.8925897";
  "0.75,392.6721399,200.9586104";
  "0.75,400.0156781,103.3429336";
  "0.75,383.6125303,180.6320827";
  "0.75,382.9420083,164.8257798";
  "0.75,382.9425191,151.7856212";
  "0.75,382.9430299,138.7454625";
  "0.75,384.9570416,123.7296721";
  "0.75,397.0336975,222.9148083";
  "0.75,406.6973642,242.4757656";
  "0.75,416.0670369,87.68420205";
  "0.75,435.2857075,300.4473262";
  "0.75,417.1664003,262.0367829";
  "0.75,421.1926514,277.250601";
  "0.75,433.2728133,286.9328301";
  "0.75,451.4020796,71.10473447";
  "0.75,449.3789864,317.9538003";
  "0.75,457.4321194,332.2788164";
  "0.75,469.5120337,348.2835466";
  "0.75,489.657523,60.98843655";
  "0.75,479.5784954,365.0290451";
  "0.75,491.2557609,380.1150069";
  "0.75,509.1761653,404.8575172";
  "0.75,497.6983145,390.369793";
  "0.75,520.6135803,54.21677775";
  "0.75,521.8581237,422.8731989";
  "0.75,536.3542328,436.6652335";
  "0.75,558.1144059,48.66285816";
  "0.75,546.0180915,451.3262524";
  "0.75,560.1115066,465.3553509";
  "0.75,595.2165815,499.0845559";
  "0.75,574.2049141,479.5820275";
  "0.75,602.4098776,44.73255338";
  "0.75,606.4183786,513.0739236";
  "0.75,616.4851828,521.0765884";
  "0.75,646.7053725,40.20951412";
  "0.75,648.6985719,556.4948715";
  "0.75,664.8054203,570.2771471";
  "0.75,691.000802,37.35690841";
  "0.75,684.9390944,584.6030624";
  "0.75,709.0995697,600.1028917";
  "0.75,735.2962567,33.85768326";
  "0.75,731.2465299,617.9379449";
  "0.75,751.3801986,632.4021649";
  "0.75,779.5916208,32.6755111";
  "0.75,769.5005761,643.4876485";
  "0.75,787.6208237,657.8924451";
  "0.75,807.7545853,669.9857272";
  "0.75,823.8869785,31.65499379";
  "0.75,844.4984875,697.4864027";
  "0.75,828.6936745,683.1459912";
  "0.75,868.1823826,29.44900752";
  "0.75,872.1825742,709.9144831";
  "0.75,896.3429961,726.7762844";
  "0.75,912.4777318,28.64403003";
  "0.75,926.5438352,739.8927827";
  "0.75,956.7730832,27.78516758";
  "0.75,956.7446869,752.6917447";
  "0.75,988.9589587,765.5743568";
  "0.75,1001.068449,26.54911047";
  "0.75,1013.119535,778.4940035";
  "0.75,1045.363824,25.09751354";
  "0.75,1043.320383,791.3952827";
  "0.75,1077.548288,798.9058004";
  "0.75,1089.659169,24.40030595";
  "0.75,1133.954486,24.40360276";
  "0.75,1178.249851,23.20346894";
  "0.75,1222.545194,22.55116548";
  "0.75,1266.840509,22.63528972";
  "0.75,1311.135826,22.63858652";
  "0.75,1355.431182,21.67195417";
  "0.75,1399.726508,21.45971117";
  "0.75,1444.021826,21.46300797";
  "0.75,1488.317143,21.46630478";
  "0.75,1532.612484,20.8768671";
  "0.75,1576.907848,19.69469494";
  "0.75,1621.203166,19.69799174";
  "0.75,1665.498483,19.70128855";
  "0.75,1709.793801,19.70458535";
  "0.75,1754.089118,19.70788216";
  "0.75,1798.384436,19.71117896";
  "0.75,1842.679758,19.60670586";
  "0.75,1886.975132,18.15510893";
  "0.75,1931.270448,18.21229069";
  "0.75,1975.565739,18.89813024";
  "0.75,2019.861063,18.73977219";
  "0.75,2064.156388,18.54549083";
  "0.75,2108.451705,18.54878764";
  "0.75,2152.747023,18.55208444";
  "0.75,2197.042341,18.55538125";
  "0.75,2241.337629,19.3130674";
  "0.75,2285.632976,18.56197486";
  "0.75,2329.928293,18.56527167";
  "0.75,2374.223611,18.56856847";
  "0.75,2418.518929,18.57186528";
  "0.75,2462.814246,18.57516208";
  "0.75,2507.109553,18.84788365";
  "0.75,2551.404881,18.58175569";
  "0.75,2595.700199,18.5850525";
  "0.75,2639.995516,18.58834931";
  "0.75,2684.290834,18.59164611";
  "0.75,2728.586152,18.59494292";
  "0.75,2772.881469,18.59823972";
  "0.75,2817.176787,18.60153653";
  "0.75,2853.41841,18.60423392";
  "0.75,3010.465433,18.93923231";
  "0.75,3054.760763,18.6192194";
  "0.75,3099.056081,18.6225162";
  "0.75,3143.351398,18.62581301";
  "0.75,3187.646716,18.62910982";
  "0.75,3231.942029,18.74017653";
  "0.8,519.8541928,180.5434338";
  "0.8,517.841431,163.6503511";
  "0.8,517.8421275,145.8683166";
  "0.8,528.3099052,197.5555429";
  "0.8,525.8964834,128.9759832";
  "0.8,536.9667661,219.5169999";
  "0.8,539.9911156,111.9359157";
  "0.8,546.0264425,238.139416";
  "0.8,558.1124509,98.57110178";
  "0.8,558.106291,255.8235606";
  "0.8,592.8721175,300.3997816";
  "0.8,568.1728165,270.9390393";
  "0.8,586.3009344,84.42660338";
  "0.8,578.2394233,283.9799472";
  "0.8,606.4259364,320.1388487";
  "0.8,626.5698708,72.53898748";
  "0.8,618.505959,333.3774847";
  "0.8,632.5992871,349.6293375";
  "0.8,648.7059207,368.8944071";
  "0.8,670.8655324,63.75903692";
  "0.8,664.8126646,385.3439879";
  "0.8,679.5771009,402.4355978";
  "0.8,701.0529878,418.5398164";
  "0.8,715.1610927,57.56556411";
  "0.8,717.1598768,431.2848067";
  "0.8,733.2667716,443.8816133";
  "0.8,759.4565771,53.31194961";
  "0.8,749.3736606,456.6266036";
  "0.8,795.1129263,494.0321377";
  "0.8,763.4671358,469.1244713";
  "0.8,777.5605974,481.9681008";
  "0.8,803.7520762,48.68114045";
  "0.8,811.5574828,503.8642766";
  "0.8,831.9215373,520.1442477";
  "0.8,848.0474951,46.0979595";
  "0.8,852.0551875,535.0826552";
  "0.8,870.1754733,548.50944";
  "0.8,892.3429625,42.27542463";
  "0.8,882.2557068,556.3640711";
  "0.8,936.6383561,40.33886312";
  "0.8,939.9725631,589.1663417";
  "0.8,953.1712442,600.1109589";
  "0.8,980.933737,38.72561133";
  "0.8,988.9650548,609.9533291";
  "0.8,1003.461265,621.1589715";
  "0.8,1025.70909,634.0653039";
  "0.8,1025.229105,37.43566926";
  "0.8,1057.419943,648.5473208";
  "0.8,1069.524461,36.46903691";
  "0.8,1085.607335,662.2669883";
  "0.8,1113.819854,34.5324754";
  "0.8,1113.79473,675.9019794";
  "0.8,1141.982157,688.7325452";
  "0.8,1158.115202,33.78138287";
  "0.8,1174.196406,702.2182411";
  "0.8,1202.410561,32.70698061";
  "0.8,1208.424005,717.5380356";
  "0.8,1242.651678,731.0170602";
  "0.8,1246.705879,32.71027741";
  "0.8,1282.91965,743.7249319";
  "0.8,1291.001258,31.15091058";
  "0.8,1327.214428,757.5227767";
  "0.8,1335.296584,30.93866757";
  "0.8,1369.495807,770.6738522";
  "0.8,1379.591948,29.75649541";
  "0.8,1411.777253,782.1006092";
  "0.8,1423.887274,29.5442524";
  "0.8,1456.072082,794.5872535";
  "0.8,1468.182596,29.4397793";
  "0.8,1488.286669,799.4303161";
  "0.8,1512.477957,28.31149209";
  "0.8,1556.773288,27.99147918";
  "0.8,1601.068605,27.99477598";
  "0.8,1645.363935,27.67654442";
  "0.8,1689.659308,26.27705109";
  "0.8,1733.954632,26.11869304";
  "0.8,1778.249969,25.63702527";
  "0.8,1822.54528,25.80197693";
  "0.8,1866.840625,25.10476935";
  "0.8,1911.135968,24.46144671";
  "0.8,1955.431285,24.46474352";
  "0.8,1999.726603,24.46804032";
  "0.8,2044.02192,24.47133713";
  "0.8,2088.317238,24.47463394";
  "0.8,2132.612556,24.47793074";
  "0.8,2176.907852,25.02007708";
  "0.8,2221.203168,25.07725884";
  "0.8,2265.498485,25.08055564";
  "0.8,2309.793803,25.08385245";
  "0.8,2354.08912,25.08714926";
  "0.8,2398.384438,25.09044606";
  "0.8,2442.679753,25.14762782";
  "0.8,2486.975067,25.25869453";
  "0.8,2531.270391,25.10033648";
  "0.8,2575.565708,25.10363329";
  "0.8,2619.861026,25.10693009";
  "0.8,2664.156343,25.1102269";
  "0.8,2708.451661,25.1135237";
  "0.8,2752.746979,25.11682051";
  "0.8,2797.042296,25.12011732";
  "0.8,2841.337609,25.23118403";
  "0.8,2885.632921,25.37817404";
  "0.8,2909.794014,25.12850918";
  "0.8,3022.545742,24.86747629";
  "0.8,3066.841049,25.14019786";
  "0.8,3111.136366,25.14349467";
  "0.8,3155.431684,25.14679147";
  "0.8,3199.727001,25.15008828";
  "0.8,3237.982048,25.15293552";
  "0.82,602.4036966,202.523092";
  "0.82,598.3783256,164.8418143";
  "0.82,600.3910526,182.6239987";
  "0.82,602.4060898,141.4291018";
  "0.82,612.4739736,121.8696131";
  "0.82,618.5103241,221.9434015";
  "0.82,630.5954165,105.7604385";
  "0.82,630.5902229,238.3432881";
  "0.82,638.643321,253.5574059";
  "0.82,656.7704289,92.82892017";
  "0.82,652.7367033,268.4262116";
  "0.82,679.715325,300.4299545";
  "0.82,666.830074,283.5913845";
  "0.82,695.0259498,80.73459542";
  "0.82,695.0166489,318.1696607";
  "0.82,707.0967102,330.4204059";
  "0.82,721.190108,344.8940552";
  "0.82,739.3216326,71.41579533";
  "0.82,737.2968229,362.0845541";
  "0.82,780.7931912,399.4004274";
  "0.82,751.390209,376.8545707";
  "0.82,761.4569822,385.6475481";
  "0.82,783.6172457,63.87519869";
  "0.82,799.7109078,414.279471";
  "0.82,827.91273,59.6215842";
  "0.82,819.8445393,429.6920661";
  "0.82,839.9782684,442.6151765";
  "0.82,858.0985601,455.8937776";
  "0.82,872.2082333,54.88300512";
  "0.82,878.2322768,469.133013";
  "0.82,898.3659567,483.3107446";
  "0.82,916.5037029,51.0065853";
  "0.82,923.5467936,500.0447949";
  "0.82,960.7991049,48.85448398";
  "0.82,952.7269907,519.0863169";
  "0.82,978.1288053,532.735919";
  "0.82,1005.094503,46.81015257";
  "0.82,997.0212846,545.2226185";
  "0.82,1017.15502,557.9744944";
  "0.82,1045.342384,572.4129701";
  "0.82,1049.389926,44.11920171";
  "0.82,1093.685322,42.12875525";
  "0.82,1110.173405,603.4797168";
  "0.82,1137.980683,41.00046804";
  "0.82,1148.427919,617.0798931";
  "0.82,1182.276064,39.38721625";
  "0.82,1182.252842,632.2140753";
  "0.82,1212.453694,645.0024527";
  "0.82,1226.571424,38.31281399";
  "0.82,1244.66796,658.0450091";
  "0.82,1270.866775,37.45395155";
  "0.82,1276.882208,671.5321163";
  "0.82,1309.096485,684.2783054";
  "0.82,1315.162127,36.59508911";
  "0.82,1341.31078,696.5651253";
  "0.82,1359.457457,36.27507619";
  "0.82,1375.538542,707.7566339";
  "0.82,1403.752821,35.09290403";
  "0.82,1413.793028,722.0729212";
  "0.82,1448.048189,33.80296196";
  "0.82,1456.074439,734.4157225";
  "0.82,1492.343546,32.79793221";
  "0.82,1500.369304,745.9734928";
  "0.82,1536.638867,32.73185651";
  "0.82,1544.664196,756.8384566";
  "0.82,1580.934184,32.73515331";
  "0.82,1588.959098,767.4570892";
  "0.82,1625.229517,32.36125545";
  "0.82,1633.254001,778.0218368";
  "0.82,1669.524863,31.63339424";
  "0.82,1677.548905,788.5865844";
  "0.82,1713.820207,30.96684028";
  "0.82,1726.212474,800.5599396";
  "0.82,1758.11551,31.34733175";
  "0.82,1802.410819,31.56616837";
  "0.82,1846.706216,29.52183696";
  "0.82,1891.001547,29.20182404";
  "0.82,1935.296864,29.20512085";
  "0.82,1979.592173,29.42395747";
  "0.82,2023.887499,29.21171446";
  "0.82,2068.182817,29.21501127";
  "0.82,2112.478124,29.48773284";
  "0.82,2156.773471,28.7366403";
  "0.82,2201.068816,28.03943272";
  "0.82,2245.364134,28.04272952";
  "0.82,2289.659451,28.04602633";
  "0.82,2333.954769,28.04932313";
  "0.82,2378.250086,28.06810749";
  "0.82,2422.545408,27.94814684";
  "0.82,2466.840722,28.05921355";
  "0.82,2511.136034,28.20620356";
  "0.82,2555.431359,28.01192221";
  "0.82,2599.726671,28.14622025";
  "0.82,2644.02198,28.37280065";
  "0.82,2688.317294,28.46837981";
  "0.82,2732.612625,28.14062312";
  "0.82,2776.907933,28.38269107";
  "0.82,2821.203242,28.60927146";
  "0.82,2865.498562,28.55093954";
  "0.82,2899.726774,28.24163227";
  "0.82,3018.518745,28.69300825";
  "0.82,3062.814079,28.27296921";
  "0.82,3107.1094,28.18398367";
  "0.82,3151.404707,28.46444901";
  "0.82,3195.70002,28.57551573";
  "0.82,3255.456795,28.58532216";
  "0.84,703.0758614,177.2970309";
  "0.84,701.0631344,159.5148465";
  "0.84,701.0635988,147.6601568";
  "0.84,712.4710058,198.5373826";
  "0.84,708.4466238,135.6084384";
  "0.84,717.1684213,213.1585162";
  "0.84,721.1988789,120.9886036";
  "0.84,727.234885,229.8546202";
  "0.84,743.3471016,106.5952716";
  "0.84,741.3281105,248.7243836";
  "0.84,755.4214367,265.0256309";
  "0.84,777.575808,93.66773973";
  "0.84,769.5148209,279.845042";
  "0.84,785.6215822,295.8500719";
  "0.84,801.7284015,310.3732657";
  "0.84,819.858162,81.92935539";
  "0.84,817.8352325,324.6000921";
  "0.84,833.9420112,340.1605712";
  "0.84,850.0488944,353.0537451";
  "0.84,864.1537941,73.90379417";
  "0.84,866.1556557,369.058775";
  "0.84,882.2625215,382.3964998";
  "0.84,908.4493692,67.33312669";
  "0.84,902.3961946,396.7506405";
  "0.84,926.5567285,410.7522628";
  "0.84,952.7448451,63.29505201";
  "0.84,948.7038401,424.7226872";
  "0.84,968.8376063,436.6974223";
  "0.84,997.0403316,58.98755256";
  "0.84,995.2353082,449.9160071";
  "0.84,1017.158624,465.9821024";
  "0.84,1041.335774,55.81163713";
  "0.84,1039.305799,478.3323859";
  "0.84,1061.452946,491.3873648";
  "0.84,1082.090064,503.4773914";
  "0.84,1085.63115,54.30615525";
  "0.84,1111.78749,518.0509912";
  "0.84,1129.926582,51.39966458";
  "0.84,1137.961485,531.1072107";
  "0.84,1164.135504,543.5424702";
  "0.84,1174.221999,48.87036859";
  "0.84,1190.309465,557.4454533";
  "0.84,1218.51738,47.2571168";
  "0.84,1222.523667,572.0968604";
  "0.84,1256.751377,584.6209239";
  "0.84,1262.812756,45.75163492";
  "0.84,1282.925392,597.1542669";
  "0.84,1307.10812,44.56946275";
  "0.84,1351.403489,43.27952068";
  "0.84,1377.55508,628.2403549";
  "0.84,1395.698863,41.82792375";
  "0.84,1413.796232,640.2755623";
  "0.84,1439.994212,41.02294626";
  "0.84,1448.023952,652.5279559";
  "0.84,1484.289536,40.86458821";
  "0.84,1487.559789,664.7852349";
  "0.84,1526.546499,677.3298595";
  "0.84,1528.58494,38.65860194";
  "0.84,1564.80108,689.2203261";
  "0.84,1572.880258,38.66189874";
  "0.84,1605.069048,702.0527319";
  "0.84,1617.175582,38.50354069";
  "0.84,1647.350466,714.2069358";
  "0.84,1661.47094,37.48302338";
  "0.84,1689.631897,726.0270529";
  "0.84,1705.766257,37.48632019";
  "0.84,1733.926856,735.1907918";
  "0.84,1750.061585,37.22019223";
  "0.84,1778.22184,743.7079112";
  "0.84,1794.356939,36.30744483";
  "0.84,1822.516792,753.0333049";
  "0.84,1838.652256,36.31074164";
  "0.84,1866.811768,761.7659641";
  "0.84,1882.947574,36.31403844";
  "0.84,1911.106746,770.4447384";
  "0.84,1927.242946,34.91632647";
  "0.84,1955.401745,778.5846631";
  "0.84,1971.538302,33.94969412";
  "0.84,1999.696746,786.6707029";
  "0.84,2015.83362,33.95299092";
  "0.84,2043.99175,794.6669344";
  "0.84,2060.128937,33.95628773";
  "0.84,2078.219746,799.8693799";
  "0.84,2104.424259,33.85181463";
  "0.84,2148.719619,32.77741237";
  "0.84,2193.014936,32.78070917";
  "0.84,2237.310254,32.78400598";
  "0.84,2281.605572,32.78730279";
  "0.84,2325.900889,32.79059959";
  "0.84,2370.196207,32.7938964";
  "0.84,2414.491524,32.7971932";
  "0.84,2458.786842,32.80049001";
  "0.84,2503.082168,32.588247";
  "0.84,2547.377477,32.80708362";
  "0.84,2591.672795,32.81038043";
  "0.84,2635.968112,32.81367723";
  "0.84,2680.26343,32.81697404";
  "0.84,2724.558747,32.82027084";
  "0.84,2768.854065,32.82356765";
  "0.84,2813.149383,32.82686446";
  "0.84,2845.364159,32.82926213";
  "0.84,3018.518591,32.62660983";
  "0.84,3062.8139,32.84544645";
  "0.84,3107.109217,32.84874326";
  "0.84,3151.404535,32.85204006";
  "0.84,3195.699853,32.85533687";
  "0.84,3237.981726,33.39194486";
  "0.86,835.9618489,176.4178196";
  "0.86,833.2779847,158.5367962";
  "0.86,844.1085269,197.8161409";
  "0.86,844.0167853,144.7071241";
  "0.86,854.0811457,215.0950934";
  "0.86,860.1248866,126.5029066";
  "0.86,864.1476461,230.8527011";
  "0.86,876.2277074,243.1034463";
  "0.86,890.3269195,109.1465017";
  "0.86,890.3211322,256.885572";
  "0.86,906.4279399,271.705133";
  "0.86,928.582406,97.92870548";
  "0.86,924.5482235,285.1911912";
  "0.86,938.6416396,299.1955924";
  "0.86,956.761825,315.1859538";
  "0.86,972.8781453,87.16758481";
  "0.86,974.8821108,328.6127386";
  "0.86,992.8448807,342.0858824";
  "0.86,1015.831458,80.08578351";
  "0.86,1013.136097,355.6936729";
  "0.86,1031.256373,369.3674303";
  "0.86,1049.37667,382.5274846";
  "0.86,1061.469298,73.9723649";
  "0.86,1075.838251,396.7212112";
  "0.86,1095.68446,406.8085831";
  "0.86,1105.764799,69.28767078";
  "0.86,1119.845008,420.4479787";
  "0.86,1150.060237,66.21952525";
  "0.86,1144.005602,432.8972012";
  "0.86,1172.193039,445.4702097";
  "0.86,1194.35567,63.25914963";
  "0.86,1200.38044,458.9817144";
  "0.86,1228.567836,472.5920083";
  "0.86,1238.651091,60.62208374";
  "0.86,1258.768648,486.4070865";
  "0.86,1282.946557,56.85343382";
  "0.86,1294.204359,500.2746303";
  "0.86,1316.485763,512.5933113";
  "0.86,1327.241904,56.10234128";
  "0.86,1343.330963,524.009682";
  "0.86,1371.537293,54.27354968";
  "0.86,1373.531837,536.2476631";
  "0.86,1407.759514,549.5867366";
  "0.86,1415.832695,52.12144836";
  "0.86,1441.987177,563.2962691";
  "0.86,1460.128047,51.26258591";
  "0.86,1480.241718,576.2286184";
  "0.86,1504.423434,49.48767926";
  "0.86,1518.496324,587.4929397";
  "0.86,1548.718781,48.73658673";
  "0.86,1556.750911,599.2258677";
  "0.86,1593.014128,47.98549419";
  "0.86,1601.045785,610.5450047";
  "0.86,1637.309486,46.96497688";
  "0.86,1645.340588,623.6962301";
  "0.86,1681.604846,45.89057463";
  "0.86,1669.501392,630.8108421";
  "0.86,1725.900167,45.78610153";
  "0.86,1762.117916,655.2815042";
  "0.86,1770.195531,44.60392936";
  "0.86,1806.412811,666.0617916";
  "0.86,1814.490872,44.01449168";
  "0.86,1850.707681,677.4886985";
  "0.86,1858.78619,44.01778849";
  "0.86,1895.002598,687.7301364";
  "0.86,1903.08156,42.67396146";
  "0.86,1939.297482,698.7978103";
  "0.86,1947.376895,42.24617865";
  "0.86,1982.075533,707.7218683";
  "0.86,1991.672223,41.98005069";
  "0.86,2027.887379,717.6461759";
  "0.86,2035.967568,41.2828431";
  "0.86,2072.18238,725.7322156";
  "0.86,2080.262894,41.07060009";
  "0.86,2116.477398,733.3871758";
  "0.86,2124.558211,41.0738969";
  "0.86,2160.772443,740.3416316";
  "0.86,2168.853529,41.0771937";
  "0.86,2205.067514,746.6494679";
  "0.86,2213.148847,41.08049051";
  "0.86,2249.362588,752.8495343";
  "0.86,2257.444164,41.08378732";
  "0.86,2293.657682,758.5646361";
  "0.86,2301.739566,38.931686";
  "0.86,2337.952755,764.8185875";
  "0.86,2346.034892,38.71944299";
  "0.86,2382.247845,770.6414593";
  "0.86,2390.33021,38.72273979";
  "0.86,2426.542934,776.464331";
  "0.86,2434.625527,38.7260366";
  "0.86,2470.838083,780.7784241";
  "0.86,2478.920841,38.83710331";
  "0.86,2515.133383,781.2266566";
  "0.86,2523.21615,39.05593993";
  "0.86,2559.428857,777.2286108";
  "0.86,2567.51148,38.73592702";
  "0.86,2603.724572,767.1015364";
  "0.86,2611.806796,38.79310878";
  "0.86,2648.020301,756.5972673";
  "0.86,2656.102092,39.33525511";
  "0.86,2692.316024,746.2546531";
  "0.86,2700.39741,39.33855192";
  "0.86,2736.61181,734.2954903";
  "0.86,2744.692727,39.34184873";
  "0.86,2784.263312,722.0761333";
  "0.86,2788.988045,39.34514553";
  "0.86,2831.914875,708.315068";
  "0.86,2827.243095,39.27390096";
  "0.86,2865.975609,700.1757363";
  "0.86,2905.741076,691.1641923";
  "0.86,2950.842169,680.8144534";
  "0.86,2966.169401,37.17599215";
  "0.86,2999.701685,669.6351659";
  "0.86,3010.464688,37.96062078";
  "0.86,3044.668557,659.068081";
  "0.86,3054.76002,37.58672291";
  "0.86,3099.055338,37.59001972";
  "0.86,3088.964328,647.5130554";
  "0.86,3143.350655,37.59331652";
  "0.86,3187.645939,38.45877258";
  "0.86,3231.941219,39.42122155";
  "0.86,3256.10228,39.97264633";
  "0.88,1030.400359,193.7062677";
  "0.88,1029.250925,165.7629849";
  "0.88,1041.329623,212.8298247";
  "0.88,1043.345732,144.2774089";
  "0.88,1053.409674,225.3345989";
  "0.88,1063.480569,128.9172053";
  "0.88,1069.516459,240.7468944";
  "0.88,1093.682433,115.8792945";
  "0.88,1087.636649,256.6038905";
  "0.88,1105.756926,270.2677691";
  "0.88,1133.951381,103.6791459";
  "0.88,1125.890613,284.2578015";
  "0.88,1146.024232,299.9972987";
  "0.88,1178.247016,95.5889227";
  "0.88,1178.238292,318.2846572";
  "0.88,1200.385377,332.9268473";
  "0.88,1222.542603,88.6949455";
  "0.88,1222.5325,346.6206623";
  "0.88,1244.67967,359.1092506";
  "0.88,1266.838122,83.57917175";
  "0.88,1268.840183,373.6330437";
  "0.88,1295.014169,386.9150668";
  "0.88,1311.133606,79.32555726";
  "0.88,1329.241786,401.7845242";
  "0.88,1355.42905,76.09575687";
  "0.88,1361.456004,416.0533824";
  "0.88,1389.643509,426.8893495";
  "0.88,1399.724513,72.38099191";
  "0.88,1421.857769,440.0800895";
  "0.88,1444.019924,70.01335078";
  "0.88,1456.085482,452.5135964";
  "0.88,1488.315317,68.07678927";
  "0.88,1492.326617,464.9825349";
  "0.88,1526.554315,477.8006135";
  "0.88,1532.610732,65.60137823";
  "0.88,1562.79538,492.0437569";
  "0.88,1576.906124,63.71870167";
  "0.88,1603.063332,505.2943698";
  "0.88,1621.201534,61.35106054";
  "0.88,1641.317905,517.3988794";
  "0.88,1665.496875,60.76162286";
  "0.88,1681.585838,531.1245779";
  "0.88,1709.792228,59.84887546";
  "0.88,1725.880621,544.7607679";
  "0.88,1754.087616,58.07396881";
  "0.88,1770.175426,557.8581083";
  "0.88,1798.382996,56.46071703";
  "0.88,1814.470262,570.1471744";
  "0.88,1842.678322,56.24847402";
  "0.88,1858.765177,580.4424973";
  "0.88,1886.973678,55.28184167";
  "0.88,1903.060114,590.1450857";
  "0.88,1931.268996,55.28513847";
  "0.88,1947.355019,600.6990563";
  "0.88,1975.564379,53.61800173";
  "0.88,1991.650011,609.0114129";
  "0.88,2019.8597,53.51352863";
  "0.88,2035.944982,617.851842";
  "0.88,2064.155069,52.22358656";
  "0.88,2080.23996,626.5306163";
  "0.88,2108.450405,51.74191879";
  "0.88,2124.53494,635.1555056";
  "0.88,2152.745723,51.74521559";
  "0.88,2156.749481,641.160687";
  "0.88,2197.041078,50.77858324";
  "0.88,2241.336404,50.56634024";
  "0.88,2269.50037,662.3243115";
  "0.88,2285.631722,50.56963704";
  "0.88,2313.795405,669.5481921";
  "0.88,2329.927044,50.46516394";
  "0.88,2358.090446,676.6104177";
  "0.88,2374.222427,48.7980272";
  "0.88,2402.385468,684.157608";
  "0.88,2418.517744,48.801324";
  "0.88,2446.680538,690.4654443";
  "0.88,2462.813062,48.80462081";
  "0.88,2490.97557,697.7647638";
  "0.88,2507.108373,48.96957248";
  "0.88,2535.27067,703.3235992";
  "0.88,2551.403697,48.81121442";
  "0.88,2579.565772,708.8231613";
  "0.88,2595.699015,48.81451123";
  "0.88,2623.861055,709.7155598";
  "0.88,2639.994332,48.81780803";
  "0.88,2668.15639,709.287777";
  "0.88,2684.289705,47.42009606";
  "0.88,2712.451927,703.6870387";
  "0.88,2728.585037,47.04619819";
  "0.88,2756.747508,696.9547163";
  "0.88,2772.880355,47.049495";
  "0.88,2801.043136,689.036925";
  "0.88,2817.175672,47.0527918";
  "0.88,2845.338831,679.3948152";
  "0.88,2849.390449,47.05518948";
  "0.88,2889.634438,672.0158734";
  "0.88,2933.930131,662.4276486";
  "0.88,2978.225809,653.2320141";
  "0.88,2986.303234,47.44257428";
  "0.88,3022.521432,645.4604819";
  "0.88,3030.598566,47.06867641";
  "0.88,3066.817108,636.3033367";
  "0.88,3074.893884,47.07197322";
  "0.88,3111.112801,626.7151118";
  "0.88,3119.189201,47.07527002";
  "0.88,3155.40844,618.5278958";
  "0.88,3163.484519,47.07856683";
  "0.88,3199.704078,610.3406797";
  "0.88,3207.779836,47.08186364";
  "0.88,3255.445478,600.6765716";
  "0.88,3256.763554,47.2548621";
  "0.9,1324.307637,200.3521429";
  "0.9,1322.404924,177.6987669";
  "0.9,1331.264675,160.1544856";
  "0.9,1341.329471,219.4286833";
  "0.9,1349.386032,146.2265739";
  "0.9,1359.449688,234.6040348";
  "0.9,1381.601361,132.1218908";
  "0.9,1379.583324,249.8980831";
  "0.9,1399.717067,262.4655527";
  "0.9,1423.883698,120.8253631";
  "0.9,1423.877593,276.6760433";
  "0.9,1455.420499,295.3071892";
  "0.9,1468.17937,111.7759877";
  "0.9,1488.691962,313.1963357";
  "0.9,1512.47495,105.0975504";
  "0.9,1522.864132,327.5850069";
  "0.9,1556.770451,100.4128562";
  "0.9,1552.734151,341.7170747";
  "0.9,1582.934945,355.9978728";
  "0.9,1601.065993,94.69357101";
  "0.9,1615.14919,369.5590719";
  "0.9,1645.361434,91.52843257";
  "0.9,1649.376864,382.9804695";
  "0.9,1689.644742,398.1155589";
  "0.9,1689.656883,88.19086228";
  "0.9,1728.092483,409.082237";
  "0.9,1733.952335,84.74552209";
  "0.9,1770.180796,420.7747874";
  "0.9,1778.247735,82.64730572";
  "0.9,1812.462194,433.4408984";
  "0.9,1822.543148,80.22577963";
  "0.9,1854.743634,445.0293103";
  "0.9,1866.838539,78.34310308";
  "0.9,1899.03847,457.3183764";
  "0.9,1911.133893,77.43035568";
  "0.9,1943.333326,469.1224779";
  "0.9,1955.429288,75.43990922";
  "0.9,1987.628226,479.7770338";
  "0.9,1999.724638,74.63493172";
  "0.9,2031.923117,490.6830528";
  "0.9,2044.020017,73.07556489";
  "0.9,2076.21801,501.5172252";
  "0.9,2088.315374,72.05504758";
  "0.9,2120.512938,511.4712767";
  "0.9,2132.610723,71.25007009";
  "0.9,2164.807847,521.8923311";
  "0.9,2176.906085,70.12178288";
  "0.9,2209.102785,531.5949195";
  "0.9,2221.201403,70.12507969";
  "0.9,2253.397775,539.950384";
  "0.9,2265.496799,68.13463323";
  "0.9,2297.692694,550.137937";
  "0.9,2309.792131,67.76073536";
  "0.9,2341.987684,558.4934015";
  "0.9,2354.087474,67.11741273";
  "0.9,2386.282673,566.902751";
  "0.9,2398.382813,66.58186";
  "0.9,2430.577733,573.4800121";
  "0.9,2442.678153,65.99242232";
  "0.9,2474.872801,579.8417334";
  "0.9,2486.973522,64.70248025";
  "0.9,2519.167897,585.5029503";
  "0.9,2531.268835,64.81354697";
  "0.9,2563.462972,591.7030167";
  "0.9,2575.564153,64.81684377";
  "0.9,2607.758063,597.4791882";
  "0.9,2619.859523,63.47301675";
  "0.9,2652.053158,603.1871054";
  "0.9,2664.154857,63.04523393";
  "0.9,2696.348286,608.0310671";
  "0.9,2708.450175,63.04853073";
  "0.9,2740.643421,612.6774507";
  "0.9,2752.745493,63.05182754";
  "0.9,2782.925229,614.8898808";
  "0.9,2797.04081,63.05512435";
  "0.9,2841.336128,63.05842115";
  "0.9,2885.631445,63.06171796";
  "0.9,2921.851631,610.3199997";
  "0.9,2929.92678,62.63393514";
  "0.9,2966.147093,606.6591197";
  "0.9,2974.222127,61.8828426";
  "0.9,3010.442595,601.9528716";
  "0.9,3018.517455,61.61671464";
  "0.9,3054.738132,596.3413563";
  "0.9,3099.033774,588.0787013";
  "0.9,3143.329357,581.292494";
  "0.9,3163.483938,61.89692895";
  "0.9,3187.624964,573.9135522";
  "0.9,3212.330006,61.90056446";
  "0.9,3229.907109,567.5043897";
  "0.9,3255.659699,62.10136756";
  "0.9,3256.964849,564.1554735";
  "0.92,1845.692774,201.345482";
  "0.92,1854.75403,179.6351389";
  "0.92,1864.819593,219.3194619";
  "0.92,1880.929112,164.9372718";
  "0.92,1882.939842,233.6946219";
  "0.92,1905.086951,247.7243198";
  "0.92,1919.184697,151.199456";
  "0.92,1931.260905,261.8107683";
  "0.92,1963.480429,140.641302";
  "0.92,1961.461804,273.4136767";
  "0.92,1994.347221,286.1928455";
  "0.92,2007.776014,133.8012097";
  "0.92,2025.084986,298.9788166";
  "0.92,2052.071553,128.1465864";
  "0.92,2064.144917,311.3826701";
  "0.92,2096.367027,124.1623967";
  "0.92,2104.412833,325.5310661";
  "0.92,2140.662526,119.5315876";
  "0.92,2146.694212,338.6875301";
  "0.92,2184.957998,115.6012828";
  "0.92,2188.975627,350.917173";
  "0.92,2229.253411,113.1797567";
  "0.92,2233.270472,362.9906993";
  "0.92,2273.548863,109.7344165";
  "0.92,2277.565304,375.3875353";
  "0.92,2317.844287,107.0165232";
  "0.92,2321.860193,386.3294776";
  "0.92,2362.139688,104.9021413";
  "0.92,2366.155163,395.2130147";
  "0.92,2406.435038,104.0863868";
  "0.92,2410.450187,402.6965694";
  "0.92,2450.730423,102.3653651";
  "0.92,2454.745195,410.6091509";
  "0.92,2490.998871,102.9243181";
  "0.92,2499.040185,418.9753925";
  "0.92,2543.335221,426.166942";
  "0.92,2587.630241,433.7680172";
  "0.92,2621.468885,98.61798079";
  "0.92,2631.925276,440.9918978";
  "0.92,2664.153467,98.54464108";
  "0.92,2676.220338,447.5152739";
  "0.92,2708.448823,97.55286241";
  "0.92,2720.515402,453.9847651";
  "0.92,2752.744179,96.58084157";
  "0.92,2764.810464,460.5081412";
  "0.92,2797.039528,95.7902334";
  "0.92,2809.105577,465.7382785";
  "0.92,2841.334914,94.04226922";
  "0.92,2853.40065,471.9922299";
  "0.92,2885.630244,93.72225631";
  "0.92,2897.695748,477.5995618";
  "0.92,2929.925602,92.70173901";
  "0.92,2941.990852,483.0452389";
  "0.92,2974.22092,92.70503581";
  "0.92,2986.28605,486.119978";
  "0.92,3018.516264,92.03263241";
  "0.92,3030.581287,488.170903";
  "0.92,3062.811648,90.34069148";
  "0.92,3074.876586,488.6591644";
  "0.92,3107.106965,90.34398829";
  "0.92,3119.171922,488.1774967";
  "0.92,3151.402283,90.3472851";
  "0.92,3163.467371,484.8399264";
  "0.92,3195.6976,90.3505819";
  "0.92,3207.762775,482.6339401";
  "0.92,3257.046762,90.29829412";
  "0.92,3256.746676,478.1183965";
  "0.93,2337.898255,203.8170314";
  "0.93,2357.534418,185.5490988";
  "0.93,2356.094655,226.4688403";
  "0.93,2376.228393,239.1647358";
  "0.93,2394.351771,173.6509622";
  "0.93,2406.4292,253.096244";
  "0.93,2438.64745,164.4399321";
  "0.93,2444.683699,267.1073829";
  "0.93,2482.943078,156.5086695";
  "0.93,2486.599045,279.1269327";
  "0.93,2527.233053,292.9136425";
  "0.93,2527.238619,150.8136325";
  "0.93,2571.527961,303.3590735";
  "0.93,2571.534106,146.5061331";
  "0.93,2611.796032,313.566056";
  "0.93,2615.829575,142.6297132";
  "0.93,2652.064117,323.4164285";
  "0.93,2660.125028,139.184373";
  "0.93,2696.359065,332.8495921";
  "0.93,2704.420442,136.708962";
  "0.93,2740.654013,342.2827557";
  "0.93,2732.608417,135.5615143";
  "0.93,2784.948995,350.8537601";
  "0.93,2829.243996,358.9397999";
  "0.93,2856.53078,129.0686199";
  "0.93,2873.538995,367.0797246";
  "0.93,2901.736298,127.78023";
  "0.93,2917.834021,374.5191449";
  "0.93,2946.03165,126.9154297";
  "0.93,2962.129062,381.5813706";
  "0.93,2992.495325,125.5096599";
  "0.93,3005.561232,388.0088666";
  "0.93,3034.622361,124.9851339";
  "0.93,3050.719212,393.9707265";
  "0.93,3078.917719,123.9646166";
  "0.93,3095.014354,398.4572514";
  "0.93,3123.213085,122.7285595";
  "0.93,3139.309585,400.6698313";
  "0.93,3167.508453,121.4386175";
  "0.93,3183.604848,402.0741369";
  "0.93,3211.803792,120.9045492";
  "0.93,3227.900162,402.1852036";
  "0.93,3255.850565,119.723843";
  "0.93,3257.715268,402.1782937";
  ""].

(* ADRpy/data/engine_data/Jet_CSVs: files by name *)
Definition jet_lines : list (string * list string) :=
  [("ATF3-6A_Sea_level_thrust_polynomial.csv", lines_ATF3_6A_Sea_level_thrust_polynomial);
   ("ATF3-6A_TSFC_data.csv", lines_ATF3_6A_TSFC_data);
   ("ATF3-6A_Thrust_data.csv", lines_ATF3_6A_Thrust_data);
   ("F404-400_Sea_level_thrust_polynomial.csv", lines_F404_400_Sea_level_thrust_polynomial);
   ("F404-400_Thrust_data.csv", lines_F404_400_Thrust_data);
   ("FJ-44_Sea_level_thrust_polynomial.csv", lines_FJ_44_Sea_level_thrust_polynomial);
   ("FJ-44_TSFC_data.csv", lines_FJ_44_TSFC_data);
   ("FJ-44_Thrust_data.csv", lines_FJ_44_Thrust_data);
   ("J52_Sea_level_thrust_polynomial.csv", lines_J52_Sea_level_thrust_polynomial);
   ("J52_TSFC_data.csv", lines_J52_TSFC_data);
   ("J52_Thrust_data.csv", lines_J52_Thrust_data);
   ("J60_Sea_level_thrust_polynomial.csv", lines_J60_Sea_level_thrust_polynomial);
   ("J60_TSFC_data.csv", lines_J60_TSFC_data);
   ("J60_Thrust_data.csv", lines_J60_Thrust_data);
   ("JT8D-9_Sea_level_take_off_thrust_polynomial.csv", lines_JT8D_9_Sea_level_take_off_thrust_polynomial);
   ("JT8D-9_Sea_level_thrust_polynomial.csv", lines_JT8D_9_Sea_level_thrust_polynomial);
   ("JT8D-9_TSFC_data.csv", lines_JT8D_9_TSFC_data);
   ("JT8D-9_Thrust_SL_TO_data.csv", lines_JT8D_9_Thrust_SL_TO_data);
   ("JT8D-9_Thrust_data.csv", lines_JT8D_9_Thrust_data);
   ("JT9D-3_Sea_level_take_off_thrust_polynomial.csv", lines_JT9D_3_Sea_level_take_off_thrust_polynomial);
   ("JT9D-3_Sea_level_thrust_polynomial.csv", lines_JT9D_3_Sea_level_thrust_polynomial);
   ("JT9D-3_TSFC_data.csv", lines_JT9D_3_TSFC_data);
   ("JT9D-3_Thrust_SL_TO_data.csv", lines_JT9D_3_Thrust_SL_TO_data);
   ("JT9D-3_Thrust_data.csv", lines_JT9D_3_Thrust_data);
   ("TF30_Sea_level_thrust_polynomial.csv", lines_TF30_Sea_level_thrust_polynomial);
   ("TF30_TSFC_data.csv", lines_TF30_TSFC_data);
   ("TF30_Thrust_data.csv", lines_TF30_Thrust_data);
   ("TFE731-2_Sea_level_thrust_polynomial.csv", lines_TFE731_2_Sea_level_thrust_polynomial);
   ("TFE731-2_Thrust_data.csv", lines_TFE731_2_Thrust_data);
   ("TFE731-5_Sea_level_take_off_thrust_polynomial.csv", lines_TFE731_5_Sea_level_take_off_thrust_polynomial);
   ("TFE731-5_TSFC_data.csv", lines_TFE731_5_TSFC_data);
   ("TFE731-5_Thrust_SL_TO_data.csv", lines_TFE731_5_Thrust_SL_TO_data);
   ("TFE731-5_Thrust_data.csv", lines_TFE731_5_Thrust_data)].

(* ADRpy/data/engine_data/Turboprop_CSVs: files by name *)
Definition turboprop_lines : list (string * list string) :=
  [("T56-A_BSFC_data.csv", lines_T56_A_BSFC_data);
   ("T56-A_Power_data.csv", lines_T56_A_Power_data);
   ("T56-A_Thrust_data.csv", lines_T56_A_Thrust_data);
   ("Tyne_RTy11_Airflow_data.csv", lines_Tyne_RTy11_Airflow_data);
   ("Tyne_RTy11_BSFC_data.csv", lines_Tyne_RTy11_BSFC_data);
   ("Tyne_RTy11_Power_data.csv", lines_Tyne_RTy11_Power_data);
   ("Tyne_RTy11_Thrust_data.csv", lines_Tyne_RTy11_Thrust_data)].

(* ADRpy/data/engine_data/Piston_CSVs: files by name *)
Definition piston_lines : list (string * list string) :=
  [("IO-540_BSFC_best_power_data.csv", lines_IO_540_BSFC_best_power_data);
   ("IO-540_BSFC_data.csv", lines_IO_540_BSFC_data);
   ("IO-540_Power_data.csv", lines_IO_540_Power_data);
   ("Wasp_Major_B13_BSFC_data.csv", lines_Wasp_Major_B13_BSFC_data);
   ("Wasp_Major_B13_Power_data.csv", lines_Wasp_Major_B13_Power_data)].

(* ADRpy/data/engine_data/Electric_CSVs: files by name *)
Definition electric_lines : list (string * list string) :=
  [("JMX57_Efficiency_data.csv", lines_JMX57_Efficiency_data);
   ("YASA_750R_Efficiency_data.csv", lines_YASA_750R_Efficiency_data)].
