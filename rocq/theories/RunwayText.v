(** The rows of ADRpy/data/runways.csv after the header, in order: runs of rows with the same
    third field (the airport), and for each row its fields 3, 4, 11, 12, 17 and 18, joined by
    commas, without the commas at the end.  Written by tools/runways.py. *)
From Coq Require Import String List.
Import ListNotations.
Open Scope string_scope.

(* ADRpy/data/runways.csv *)
Definition airports_0 : list (string * list string) := [
  ("00A", ["80,80"]);
  ("00AK", ["2500,70"]);
  ("00AL", ["2300,200"]);
  ("00AR", ["40,40"]);
  ("00AS", ["1450,60"]);
  ("00AZ", ["1700,60"]);
  ("00CA", ["6000,80,,50"]);
  ("00CO", ["3900,20"]);
  ("00FA", ["3200,100"]);
  ("00FD", ["74,74"]);
  ("00FL", ["4090,100"]);
  ("00GA", ["2600,80"]);
  ("00GE", ["125,95"]);
  ("00HI", ["1155,45"]);
  ("00ID", ["3300,40"; "2700,40"]);
  ("00IL", ["2500,75"]);
  ("00IN", ["40,40"]);
  ("00IS", ["1600,70"]);
  ("00KS", ["2600,85"]);
  ("00KY", ["2100,100"]);
  ("00LA", ["40,40"]);
  ("00LL", ["25,25"]);
  ("00LS", ["2600,100"]);
  ("00MD", ["1700,75"]);
  ("00MI", ["100,100"]);
  ("00MN", ["2949,200"]);
  ("00MO", ["2400,25"]);
  ("00MT", ["2000,75"]);
  ("00N", ["1900,150"]);
  ("00NC", ["2650,36"]);
  ("00NJ", ["50,50"]);
  ("00NY", ["2350,80"]);
  ("00OH", ["2695,90"]);
  ("00OI", ["42,42"]);
  ("00PA", ["80,80"]);
  ("00PN", ["500,75"]);
  ("00PS", ["3100,100"]);
  ("00S", ["2600,90"]);
  ("00SC", ["2900,100"]);
  ("00TA", ["85,85"]);
  ("00TE", ["48,48"]);
  ("00TN", ["1800,150"]);
  ("00TS", ["1200,45"]);
  ("00TX", ["50,50"]);
  ("00VA", ["1300,100,,,,270"]);
  ("00VI", ["1500,50"]);
  ("00W", ["3400,50"]);
  ("00WA", ["1105,70"]);
  ("00WI", ["1000,60,,87.2"]);
  ("00WN", ["1440,50"]);
  ("00WV", ["1800,100"]);
  ("00XS", ["1475,75"]);
  ("01A", ["1175,40"]);
  ("01AK", ["40,40"]);
  ("01AL", ["2500,160"]);
  ("01AR", ["55,55"]);
  ("01AZ", ["210,150"]);
  ("01C", ["2517,120,815,,815"]);
  ("01CA", ["20,20"]);
  ("01CL", ["3100,50"]);
  ("01CN", ["60,60"]);
  ("01CO", ["125,40"]);
  ("01CT", ["70,70"]);
  ("01FA", ["2000,100"; "1500,100"]);
  ("01FD", ["110,110"]);
  ("01FL", ["3000,50"]);
  ("01GA", ["65,65"]);
  ("01GE", ["2560,75"]);
  ("01IA", ["2575,50"]);
  ("01ID", ["2894,100"]);
  ("01IL", ["416,216"]);
  ("01IN", ["45,45"]);
  ("01IS", ["1300,100"]);
  ("01J", ["3365,125,59,,59"]);
  ("01K", ["2460,110,1157"]);
  ("01KS", ["2400,100"]);
  ("01KY", ["40,40"]);
  ("01LA", ["2000,60"]);
  ("01LL", ["1600,70"]);
  ("01LS", ["1800,150,,92.2"]);
  ("01MA", ["32,32"]);
  ("01MD", ["3500,100"]);
  ("01ME", ["5000,500"; "5000,500"]);
  ("01MI", ["50,50"]);
  ("01MN", ["10000,600"; "10000,600"]);
  ("01MO", ["37,37"]);
  ("01MT", ["5000,70,,148"]);
  ("01NC", ["3200,75"; "2000,75"]);
  ("01NE", ["2750,50"]);
  ("01NH", ["600,50"]);
  ("01NJ", ["125,80"]);
  ("01NM", ["2700,70"; "200,70"]);
  ("01NV", ["2000,60"]);
  ("01NY", ["100,75"]);
  ("01OI", ["30,30"]);
  ("01OK", ["2640,25"]);
  ("01OR", ["4800,60"]);
  ("01PA", ["60,60"]);
  ("01PN", ["1700,100"]);
  ("01PS", ["1200,120"]);
  ("01SC", ["2580,118"]);
  ("01TA", ["30,30"]);
  ("01TE", ["2433,55"]);
  ("01TN", ["2700,100"]);
  ("01TX", ["500,60"; "700,60"]);
  ("01U", ["2700,75"; "3400,80"]);
  ("01UT", ["3200,40"]);
  ("01VA", ["1500,60"]);
  ("01WA", ["36,36"]);
  ("01WI", ["2300,120,,9.6"]);
  ("01WN", ["40,40"]);
  ("01WT", ["28,28"]);
  ("01WY", ["4360,75"; "2600,65"]);
  ("01XA", ["50,50"]);
  ("01XS", ["50,50"]);
  ("02AK", ["2200,45"]);
  ("02AL", ["2000,150"]);
  ("02AR", ["4400,45"]);
  ("02AZ", ["4500,80"]);
  ("02CA", ["55,55"]);
  ("02CD", ["2500,100"]);
  ("02CL", ["3000,60"]);
  ("02CO", ["2670,50"]);
  ("02CT", ["50,50"]);
  ("02FA", ["2485,150"]);
  ("02FL", ["1800,100"]);
  ("02GA", ["1200,100"; "1500,100"]);
  ("02GE", ["3400,100"]);
  ("02HI", ["100,100"]);
  ("02IA", ["50,50"]);
  ("02ID", ["2000,100"]);
  ("02II", ["1100,100"]);
  ("02IN", ["1020,150"]);
  ("02IS", ["40,40"]);
  ("02KS", ["1650,100"; "1950,150"]);
  ("02KY", ["100,100"]);
  ("02LA", ["20,20"]);
  ("02LS", ["24,24"]);
  ("02MA", ["50,50"]);
  ("02ME", ["2400,60"]);
  ("02MI", ["2000,100"]);
  ("02MN", ["1897,192"; "2500,192"; "2553,82"]);
  ("02MO", ["2200,50"]);
  ("02MS", ["2150,60"]);
  ("02MU", ["1900,125"]);
  ("02NC", ["100,100"]);
  ("02NH", ["3000,300"; "20,20"]);
  ("02NV", ["2200,50"]);
  ("02NY", ["25,25"]);
  ("02OH", ["2750,50"]);
  ("02OI", ["1500,75"]);
  ("02OR", ["2000,30"]);
  ("02P", ["100,100"]);
  ("02PA", ["60,50"]);
  ("02PN", ["40,40"]);
  ("02PR", ["2000,50"]);
  ("02PS", ["500,100"]);
  ("02SC", ["3600,150"]);
  ("02T", ["4050,60"]);
  ("02TA", ["32,32"]);
  ("02TE", ["40,40"]);
  ("02TN", ["1600,120"]);
  ("02TX", ["4800,80"]);
  ("02UT", ["4000,30"; "4000,50"]);
  ("02VA", ["3000,80"]);
  ("02WA", ["2650,50"]);
  ("02WI", ["2200,60"]);
  ("02WN", ["1500,30"]);
  ("02XS", ["1500,40"; "1320,40"]);
  ("03AK", ["1000,70"; "6000,500"; "2600,500"]);
  ("03AL", ["50,50"]);
  ("03AR", ["117,117"]);
  ("03AZ", ["3600,60"]);
  ("03CA", ["40,40"]);
  ("03CO", ["4000,30,4900,140,4950"]);
  ("03FA", ["2000,200"]);
  ("03FD", ["2000,50"]);
  ("03FL", ["50,40"]);
  ("03GA", ["1990,65"; "1955,60"]);
  ("03I", ["2375,90,,58,,238"]);
  ("03ID", ["1800,100"]);
  ("03II", ["1000,200"]);
  ("03IL", ["2600,105"]);
  ("03IS", ["40,40"]);
  ("03KS", ["25,25"]);
  ("03KY", ["2300,80"]);
  ("03LA", ["60,60"]);
  ("03LS", ["40,40"]);
  ("03M", ["3800,200"]);
  ("03MA", ["1600,60"]);
  ("03MD", ["50,50"]);
  ("03ME", ["2400,90"]);
  ("03MI", ["20,20"]);
  ("03MN", ["1940,75"]);
  ("03MO", ["2200,50"]);
  ("03MS", ["60,60"]);
  ("03MU", ["2400,24"]);
  ("03N", ["2400,50"]);
  ("03NC", ["2750,40"]);
  ("03ND", ["2600,50"]);
  ("03NE", ["2200,200"]);
  ("03NH", ["12,80"]);
  ("03NV", ["3200,30"]);
  ("03NY", ["2000,75"]);
  ("03OH", ["2100,60"; "2200,60"]);
  ("03OI", ["60,60"]);
  ("03OK", ["1200,50"]);
  ("03OR", ["2950,60"]);
  ("03PA", ["130,80"]);
  ("03PN", ["100,100"]);
  ("03PR", ["2926,65"]);
  ("03PS", ["675,90"; "925,90"; "1130,90"]);
  ("03S", ["2115,100"]);
  ("03SC", ["40,40"]);
  ("03TE", ["3500,100"]);
  ("03TN", ["20,20"]);
  ("03TS", ["90,90"]);
  ("03TX", ["150,150"]);
  ("03UT", ["5000,35"; "3250,35"]);
  ("03WA", ["2800,60"]);
  ("03WI", ["1500,60"]);
  ("03WN", ["2000,70"]);
  ("03XS", ["3200,50"; "1600,50"]);
  ("04AA", ["1300,100"; "825,68"]);
  ("04AL", ["100,100"]);
  ("04AR", ["40,40"]);
  ("04CA", ["5000,150,,91.2"]);
  ("04CL", ["1900,100"]);
  ("04CT", ["50,100"]);
  ("04FA", ["2620,212"]);
  ("04FL", ["3000,100"]);
  ("04I", ["2382,120,920,,920"]);
  ("04IA", ["2310,84"]);
  ("04ID", ["3000,25"]);
  ("04II", ["1372,72"]);
  ("04IL", ["1700,70"]);
  ("04IN", ["4000,1000"]);
  ("04IS", ["2200,150"]);
  ("04KS", ["400,60"]);
  ("04KY", ["1700,30"]);
  ("04LA", ["40,40"]);
  ("04LL", ["3700,70"]);
  ("04LS", ["60,60"]);
  ("04MA", ["2100,300"]);
  ("04MD", ["50,50"]);
  ("04ME", ["1950,120"]);
  ("04MI", ["2000,100"]);
  ("04MN", ["2500,150"]);
  ("04MO", ["2600,150"]);
  ("04MS", ["3400,100,,180"]);
  ("04MT", ["2100,100"; "1900,100"]);
  ("04NC", ["91,35"]);
  ("04NE", ["2500,100"]);
  ("04NJ", ["3500,50"]);
  ("04NV", ["3240,45,,33.5"]);
  ("04NY", ["5200,50"]);
  ("04OG", ["50,100"]);
  ("04OH", ["2200,70"]);
  ("04OK", ["45,45"]);
  ("04PA", ["100,100"]);
  ("04PN", ["70,70"]);
  ("04SC", ["50,50"]);
  ("04TA", ["60,40"]);
  ("04TE", ["30,30"]);
  ("04TN", ["3000,50"]);
  ("04TS", ["20,20"]);
  ("04TX", ["2000,50"]);
  ("04UT", ["3700,50"]);
  ("04V", ["7745,55,,118,,298"]);
  ("04VA", ["50,50"]);
  ("04VG", ["3500,80"; "1800,70"]);
  ("04VT", ["1300,40"]);
  ("04W", ["2751,75,1021,66,1009,246"]);
  ("04WA", ["1800,60"]);
  ("04WI", ["1800,100"]);
  ("04WN", ["4100,60,,,,336.5"]);
  ("04WV", ["40,40"]);
  ("04XS", ["80,60"]);
  ("05AK", ["2000,75"]);
  ("05AL", ["1600,50"; "1600,50"; "1600,50"; "1600,50"; "1600,50"; "1600,50"]);
  ("05AR", ["2000,100,,,,263"]);
  ("05AZ", ["40,40"]);
  ("05B", ["4000,200"]);
  ("05CA", ["78,78"]);
  ("05CL", ["3700,60,618,116,618"]);
  ("05CO", ["2650,60"]);
  ("05CT", ["50,50"]);
  ("05FA", ["2950,100"]);
  ("05FD", ["95,95"]);
  ("05FL", ["3200,60"; "1600,50"]);
  ("05GA", ["2200,60"]);
  ("05IA", ["2450,65"]);
  ("05ID", ["2000,70"]);
  ("05II", ["1800,100"]);
  ("05IL", ["3200,70"]);
  ("05IN", ["2000,100"]);
  ("05IS", ["2000,100"]);
  ("05KS", ["2350,50"]);
  ("05KY", ["1270,150"]);
  ("05LA", ["2200,70"]);
  ("05LL", ["120,120"]);
  ("05LS", ["2300,100,,22.4"]);
  ("05MA", ["100,40,,,,188"]);
  ("05MD", ["2700,80"]);
  ("05ME", ["900,40"]);
  ("05MO", ["30,30"]);
  ("05MS", ["40,40"]);
  ("05NC", ["40,40"]);
  ("05NE", ["3210,80"]);
  ("05NH", ["100,100"]);
  ("05NJ", ["60,60"]);
  ("05NY", ["75,75"]);
  ("05OI", ["2000,100"]);
  ("05OK", ["2200,90"]);
  ("05OR", ["2600,50"; "75,75"]);
  ("05PA", ["70,70"]);
  ("05PN", ["120,120"]);
  ("05PS", ["2319,100"]);
  ("05S", ["2940,45"]);
  ("05TA", ["1700,40"]);
  ("05TE", ["1500,50"]);
  ("05TS", ["1700,90"]);
  ("05TX", ["2075,50"]);
  ("05UT", ["3950,50,,149"]);
  ("05V", ["6160,52,7696,41,7720,221"]);
  ("05VA", ["2000,40"]);
  ("05VT", ["80,80"]);
  ("05WA", ["40,40,2220"]);
  ("05WI", ["1800,60"]);
  ("05WN", ["1700,50,,,,292.2"]);
  ("05XS", ["2600,100"]);
  ("05Y", ["3280,200,1440,,1455"]);
  ("06AK", ["2000,40"]);
  ("06AL", ["1600,75"; "1600,75"; "1600,75"; "1600,75"; "1600,75"; "1600,75"; "1600,75"]);
  ("06AR", ["2900,125"]);
  ("06AZ", ["80,80"]);
  ("06B", ["15000,4000"]);
  ("06CA", ["20,20"]);
  ("06CL", ["46,46"]);
  ("06CO", ["4500,75"]);
  ("06FA", ["7003,150,28,90,28,270"]);
  ("06FD", ["3400,120"]);
  ("06FL", ["200,100"]);
  ("06GA", ["300,300"]);
  ("06I", ["16000,3500"]);
  ("06IA", ["1750,100"]);
  ("06ID", ["2200,80"]);
  ("06IL", ["2580,70"]);
  ("06IN", ["1600,75"]);
  ("06IS", ["2600,70"]);
  ("06KS", ["25,25"]);
  ("06KY", ["60,60"]);
  ("06LA", ["39,39"]);
  ("06LL", ["40,40"]);
  ("06LS", ["40,40"]);
  ("06MA", ["15,15"]);
  ("06MD", ["60,60"]);
  ("06MI", ["45,45"; "45,45"]);
  ("06MN", ["1500,60,,120.6"]);
  ("06MO", ["3000,30,,156.6"]);
  ("06MT", ["2200,60"]);
  ("06N", ["2811,60,503,62,521,242"]);
  ("06NC", ["2600,90"]);
  ("06ND", ["2800,50"]);
  ("06NE", ["130,95"]);
  ("06NH", ["1900,150"]);
  ("06NY", ["2000,75"]);
  ("06O1", ["40,40"]);
  ("06OH", ["2400,100"]);
  ("06OI", ["2256,45"]);
  ("06OK", ["300,100"]);
  ("06OR", ["1000,80"]);
  ("06PA", ["2965,100"]);
  ("06PN", ["15,15"; "80,80"]);
  ("06R", ["2480,30"]);
  ("06SN", ["2400,75"]);
  ("06TA", ["1900,15"]);
  ("06TE", ["3500,50,,83.9"]);
  ("06TN", ["2000,50"]);
  ("06TX", ["1680,60"]);
  ("06VA", ["2000,100"]);
  ("06WA", ["60,40"]);
  ("06WN", ["2845,30,,,,273.9"]);
  ("06XS", ["1750,100"]);
  ("06Y", ["2997,60,1055,,1068"]);
  ("07AL", ["6000,1200"]);
  ("07AR", ["3000,60"]);
  ("07B", ["3186,100,363,,322"]);
  ("07CA", ["40,40"]);
  ("07CL", ["2220,50,100,,100"]);
  ("07CO", ["3100,75"]);
  ("07D", ["2244,65,770,177,770,357"]);
  ("07FA", ["4500,70,,40"]);
  ("07FL", ["67,65"]);
  ("07GA", ["1700,80"]);
  ("07I", ["15000,4000"]);
  ("07ID", ["3000,75"]);
  ("07II", ["60,60"]);
  ("07IN", ["1860,80"]);
  ("07K", ["3700,60,1715,,1716"]);
  ("07KS", ["2000,45"]);
  ("07KY", ["2000,100"]);
  ("07LA", ["30,15"]);
  ("07LS", ["50,50"]);
  ("07MA", ["120,60"]);
  ("07MD", ["1000,70"]);
  ("07ME", ["900,200"]);
  ("07MI", ["2904,100"]);
  ("07MN", ["2600,50"]);
  ("07MO", ["2700,40"]);
  ("07MT", ["13500,300,2757,120,2748,300"]);
  ("07N", ["2200,100"]);
  ("07NC", ["2000,50"]);
  ("07NH", ["2500,200"; "2500,200"]);
  ("07NJ", ["45,45"]);
  ("07NY", ["50,50"]);
  ("07OH", ["30,30"]);
  ("07OK", ["2400,80"]);
  ("07OR", ["1200,100"]);
  ("07PN", ["1600,100"]);
  ("07TA", ["2200,125"; "200,200"]);
  ("07TE", ["5000,100,39,134"]);
  ("07TN", ["1800,75"]);
  ("07TS", ["2500,75"]);
  ("07TX", ["400,50"]);
  ("07VA", ["1600,50"]);
  ("07VT", ["526,20"; "595,20"]);
  ("07WA", ["53,53"]);
  ("07WI", ["1500,50"]);
  ("07XS", ["30,30"]);
  ("07Y", ["2850,150"]);
  ("08AK", ["1200,80"]);
  ("08AR", ["50,50"]);
  ("08AZ", ["42,42"]);
  ("08B", ["1935,100,56,,57"]);
  ("08CA", ["60,60"]);
  ("08CL", ["2000,50"]);
  ("08CN", ["50,50,,,,334"]);
  ("08CO", ["2600,75"]);
  ("08CT", ["4700,1400"]);
  ("08F", ["2584,80"]);
  ("08FA", ["3390,75"]);
  ("08FD", ["4138,104"]);
  ("08FL", ["2500,100"]);
  ("08G", ["60,56"]);
  ("08GA", ["5000,150"]);
  ("08ID", ["2500,60"]);
  ("08II", ["30,30"]);
  ("08IL", ["2200,75"]);
  ("08IN", ["5000,1600"]);
  ("08IS", ["1320,70"]);
  ("08KS", ["2700,99"]);
  ("08KY", ["2500,60"]);
  ("08LA", ["30,15"]);
  ("08LL", ["2190,100"]);
  ("08LS", ["2000,60"]);
  ("08MA", ["1000,18"]);
  ("08MD", ["45,45"]);
  ("08ME", ["2300,90"]);
  ("08MI", ["60,60"]);
  ("08MN", ["11088,6000"]);
  ("08MO", ["2640,50"; "2140,48"]);
  ("08MS", ["3725,50,,70"]);
  ("08MT", ["2600,80"]);
  ("08N", ["2635,120"]);
  ("08NC", ["3200,50,,,,190"]);
  ("08ND", ["1300,75"]);
  ("08NE", ["3000,100"]);
  ("08NH", ["80,80"]);
  ("08NJ", ["90,90"]);
  ("08NY", ["550,60"; "500,40"]);
  ("08OH", ["3000,50"]);
  ("08OK", ["1800,50"]);
  ("08OR", ["2800,20"]);
  ("08PA", ["200,150"]);
  ("08PN", ["50,50"]);
  ("08R", ["2129,30,130,,127"]);
  ("08TA", ["200,100"]);
  ("08TE", ["3100,50,,166"]);
  ("08TX", ["2100,30"; "1800,100"]);
  ("08U", ["3600,50"]);
  ("08VA", ["1800,50"]);
  ("08WA", ["100,100"]);
  ("08XS", ["2350,100"]);
  ("09AK", ["1300,60"]);
  ("09AR", ["135,100"]);
  ("09AZ", ["2350,80"]);
  ("09CA", ["65,65"]);
  ("09CL", ["3000,50,2240,26,2310"]);
  ("09CN", ["50,50"]);
  ("09CO", ["3250,65"]);
  ("09FA", ["4800,50,,180"]);
  ("09FD", ["2649,100"]);
  ("09FL", ["3000,150"]);
  ("09GA", ["2400,70"]);
  ("09I", ["5000,1000"; "5000,1000"]);
  ("09IA", ["2700,80"]);
  ("09ID", ["2300,100"]);
  ("09II", ["1600,100"]);
  ("09IL", ["40,40"]);
  ("09IN", ["2200,70"; "2200,50"]);
  ("09IS", ["39,31"]);
  ("09KS", ["2500,60"]);
  ("09KY", ["50,50"]);
  ("09LA", ["50,50"]);
  ("09LL", ["2300,80"]);
  ("09LS", ["40,40"]);
  ("09MA", ["1700,50"; "2000,100"]);
  ("09ME", ["2000,100"]);
  ("09MI", ["40,40"]);
  ("09MO", ["1320,50"]);
  ("09N", ["1863,75"]);
  ("09NC", ["2400,80"]);
  ("09NE", ["2500,50"]);
  ("09NJ", ["100,100"]);
  ("09NR", ["1800,35"; "24,24"; "24,24"]);
  ("09NY", ["100,100"]);
  ("09OK", ["2500,50"]);
  ("09OR", ["50,50"]);
  ("09PA", ["2300,200"]);
  ("09S", ["1765,150,2621,,2603"]);
  ("09TA", ["2400,40"]);
  ("09TE", ["2815,45"]);
  ("09TN", ["80,80"]);
  ("09TS", ["4200,42,,90"]);
  ("09TX", ["2340,120"; "1220,120"; "5200,120"]);
  ("09VA", ["1100,50"]);
  ("09VG", ["96,60"]);
  ("09W", ["60,60"]);
  ("09WA", ["60,60"]);
  ("09WI", ["2500,100"]);
  ("09XS", ["90,90"]);
  ("09Y", ["8000,500"]);
  ("0AA7", ["2539,100"]);
  ("0AK", ["2541,55,305,91,288,271"]);
  ("0AK0", ["1050,70,,,,220.6"]);
  ("0AK1", ["3000,2000"; "2200,50"]);
  ("0AK2", ["1000,150"]);
  ("0AK3", ["900,100"]);
  ("0AK5", ["1550,120"]);
  ("0AK6", ["1700,60"]);
  ("0AK7", ["2400,75"]);
  ("0AK8", ["150,150"]);
  ("0AK9", ["2000,30"]);
  ("0AL0", ["90,90"]);
  ("0AL1", ["2640,70"]);
  ("0AL2", ["24,21"]);
  ("0AL3", ["24,24"]);
  ("0AL4", ["30,30"]);
  ("0AL5", ["2200,100"]);
  ("0AL6", ["49,49"]);
  ("0AL7", ["30,30"]);
  ("0AL8", ["55,55"]);
  ("0AL9", ["2200,50"]);
  ("0AR0", ["60,60"]);
  ("0AR2", ["2800,60"]);
  ("0AR3", ["2000,50"]);
  ("0AR4", ["11,11"]);
  ("0AR5", ["42,42"]);
  ("0AR6", ["20,20"]);
  ("0AR7", ["2200,50"]);
  ("0AR8", ["30,30"]);
  ("0AR9", ["10,10"]);
  ("0AZ0", ["40,40"]);
  ("0AZ1", ["2000,40"; "3250,50"; "2500,75"]);
  ("0AZ2", ["1500,100,,131"; "3500,100,,183"]);
  ("0AZ4", ["2900,130"]);
  ("0AZ5", ["1400,60"]);
  ("0AZ6", ["40,45"; "40,45"; "40,45"]);
  ("0AZ7", ["50,50"]);
  ("0B2", ["1730,30,,348,,168"]);
  ("0B7", ["2575,30"]);
  ("0C1", ["2375,35,,19,,199"]);
  ("0C2", ["2640,100,760,,755"]);
  ("0C5", ["3800,100,960,180,960"]);
  ("0C7", ["3980,200,727,,715"]);
  ("0C8", ["2831,180,640,,640"]);
  ("0CA0", ["86,86"]);
  ("0CA1", ["2482,30,190,94,190,274"]);
  ("0CA2", ["45,45"]);
  ("0CA3", ["2100,20"]);
  ("0CA4", ["3600,50"]);
  ("0CA5", ["1400,30"]);
  ("0CA6", ["2400,40"]);
  ("0CA7", ["85,85"]);
  ("0CA8", ["2250,50"]);
  ("0CA9", ["3300,60,,173"]);
  ("0CD0", ["50,50"]);
  ("0CD1", ["45,45"]);
  ("0CD2", ["2500,50"; "5000,100"]);
  ("0CD4", ["25,25"]);
  ("0CD5", ["4500,70"]);
  ("0CD6", ["40,40"]);
  ("0CD7", ["956,300"]);
  ("0CD8", ["50,50"]);
  ("0CD9", ["50,50"]);
  ("0CL0", ["3720,75"]);
  ("0CL1", ["3360,100"; "2040,100"]);
  ("0CL2", ["113,55"]);
  ("0CL3", ["1800,50"; "2400,50"]);
  ("0CL4", ["50,50"]);
  ("0CL5", ["58,58"]);
  ("0CL6", ["1900,70"]);
  ("0CL7", ["65,65"]);
  ("0CL8", ["3500,80"; "80,80"]);
  ("0CL9", ["20,20"]);
  ("0CO0", ["100,100"]);
  ("0CO1", ["2500,60"]);
  ("0CO2", ["4000,40,8980,121.1,8900"]);
  ("0CO3", ["4200,30"]);
  ("0CO4", ["120,108"]);
  ("0CO6", ["4500,150"; "4000,150"]);
  ("0CO7", ["152,64"]);
  ("0CO8", ["2000,30"]);
  ("0CO9", ["2600,50"]);
  ("0CT0", ["36,36"]);
  ("0CT1", ["50,50"]);
  ("0CT2", ["40,40"]);
  ("0CT3", ["60,60"]);
  ("0CT5", ["50,50"]);
  ("0CT6", ["65,65"]);
  ("0CT7", ["66,48"]);
  ("0CT8", ["60,60"]);
  ("0CT9", ["60,75"]);
  ("0D7", ["1955,110,949,,949"]);
  ("0E9", ["3270,80"; "3000,100"]);
  ("0FA0", ["200,150"]);
  ("0FA1", ["1800,75"]);
  ("0FA2", ["50,50"]);
  ("0FD0", ["4000,75"]);
  ("0FD1", ["50,40"]);
  ("0FD2", ["48,48"]);
  ("0FD3", ["2100,50"; "4000,40"]);
  ("0FD5", ["2100,100"]);
  ("0FD6", ["3000,100"]);
  ("0FD9", ["1975,60"]);
  ("0FL0", ["2300,100"]);
  ("0FL1", ["2575,50"]);
  ("0FL2", ["2000,100"]);
  ("0FL3", ["60,60"]);
  ("0FL4", ["100,100"]);
  ("0FL5", ["2000,100"]);
  ("0FL6", ["500,60"]);
  ("0FL7", ["35,35"]);
  ("0FL8", ["2000,100"]);
  ("0FL9", ["3400,116"; "2750,100"]);
  ("0G0", ["2830,50,588,91,588,271"]);
  ("0G5", ["3000,2000"; "15000,1500"]);
  ("0GA0", ["2150,50"]);
  ("0GA1", ["2000,75"]);
  ("0GA2", ["2600,60"]);
  ("0GA3", ["2000,100"]);
  ("0GA5", ["100,100"]);
  ("0GA6", ["2100,150"]);
  ("0GA8", ["3000,100"]);
  ("0GA9", ["4400,100"]);
  ("0GE0", ["2000,30"]);
  ("0GE1", ["3000,40"]);
  ("0GE3", ["2000,50"]);
  ("0GE4", ["1045,80"; "1000,80"]);
  ("0GE5", ["2500,200"]);
  ("0GE7", ["3000,90"]);
  ("0GE9", ["2000,100"]);
  ("0H7", ["2680,115"]);
  ("0I2", ["2941,40,645,91,631,271"]);
  ("0IA0", ["65,65"]);
  ("0IA1", ["42,42"]);
  ("0IA2", ["60,50"]);
  ("0IA4", ["3000,100"]);
  ("0IA5", ["2000,60"]);
  ("0IA6", ["2600,80"]);
  ("0IA7", ["145,145"; "45,40"]);
  ("0IA8", ["1280,70"]);
  ("0IA9", ["50,50"]);
  ("0ID0", ["3000,80"]);
  ("0ID1", ["1900,75"]);
  ("0ID2", ["6507,75,,110"]);
  ("0ID3", ["2640,50"]);
  ("0ID4", ["3150,80"]);
  ("0ID5", ["1460,40"]);
  ("0ID6", ["40,40"]);
  ("0ID7", ["2600,50"]);
  ("0ID8", ["800,50"]);
  ("0II0", ["1500,50"]);
  ("0II1", ["1300,60"]);
  ("0II2", ["1300,75"]);
  ("0II3", ["2400,50"]);
  ("0II6", ["3000,100"]);
  ("0II7", ["2500,100"]);
  ("0II8", ["1400,100"]);
  ("0II9", ["1600,75"]);
  ("0IL0", ["30,30"]);
  ("0IL1", ["90,90"]);
  ("0IL2", ["1600,100"]);
  ("0IL3", ["1800,200"]);
  ("0IL4", ["40,40"]);
  ("0IL6", ["40,40"; "40,40"]);
  ("0IL8", ["1600,100"]);
  ("0IL9", ["2800,100"]);
  ("0IN1", ["2000,75"]);
  ("0IN2", ["1300,60"; "2900,60"]);
  ("0IN3", ["2200,50"]);
  ("0IN4", ["2440,30"]);
  ("0IN5", ["1200,150"]);
  ("0IN7", ["50,50"]);
  ("0IN8", ["50,50"]);
  ("0IN9", ["2400,100"]);
  ("0IS0", ["40,40"]);
  ("0IS2", ["60,60,,,,220"]);
  ("0IS3", ["2500,60"]);
  ("0IS4", ["2415,60"]);
  ("0IS6", ["100,100"]);
  ("0IS9", ["500,500"]);
  ("0J0", ["2915,80"]);
  ("0J8", ["3200,170"]);
  ("0K6", ["1575,150"]);
  ("0KS0", ["2600,100"]);
  ("0KS4", ["2000,65"]);
  ("0KS6", ["2295,100"]);
  ("0KS7", ["2000,75"]);
  ("0KS8", ["1700,60"]);
  ("0KS9", ["3000,150"]);
  ("0KY0", ["2300,70"]);
  ("0KY1", ["3200,75,,98"]);
  ("0KY2", ["35,35"]);
  ("0KY3", ["30,30"]);
  ("0KY4", ["1675,75"]);
  ("0KY5", ["2800,100"]);
  ("0KY6", ["80,20"]);
  ("0KY7", ["2200,60"]);
  ("0KY8", ["2300,60"]);
  ("0L4", ["6100,80"]);
  ("0L6", ["50,50"]);
  ("0LA0", ["25,25"]);
  ("0LA1", ["3000,100"]);
  ("0LA3", ["2700,180"]);
  ("0LA4", ["40,40"]);
  ("0LA5", ["400,400"]);
  ("0LA7", ["750,25"]);
  ("0LA8", ["50,50"]);
  ("0LA9", ["2200,100"]);
  ("0LL0", ["2030,70"]);
  ("0LL1", ["2500,120"]);
  ("0LL2", ["2600,75"]);
  ("0LL3", ["2000,100"]);
  ("0LL4", ["2143,100"]);
  ("0LL5", ["2230,70"]);
  ("0LL6", ["2600,70"]);
  ("0LL7", ["40,40"]);
  ("0LL9", ["100,100"]);
  ("0LS0", ["3000,144"]);
  ("0LS3", ["100,100"]);
  ("0LS4", ["1700,60"]);
  ("0LS5", ["650,250"]);
  ("0LS7", ["3000,100"]);
  ("0LS8", ["2500,140"]);
  ("0LS9", ["1530,75"]);
  ("0MA1", ["60,60"]);
  ("0MA2", ["60,60"]);
  ("0MA3", ["1600,1600"]);
  ("0MA4", ["40,40"]);
  ("0MA5", ["100,100"]);
  ("0MA6", ["50,50"]);
  ("0MA9", ["25,25"]);
  ("0MD0", ["79,64"]);
  ("0MD1", ["3000,50"]);
  ("0MD2", ["2200,30"; "75,75"]);
  ("0MD3", ["90,90,,,,260"]);
  ("0MD4", ["2600,100,,,,320"]);
  ("0MD5", ["90,90"]);
  ("0MD6", ["1800,60"]);
  ("0MD7", ["100,100"]);
  ("0MD9", ["55,55"]);
  ("0ME4", ["2000,110"]);
  ("0MI1", ["3500,50"]);
  ("0MI3", ["1800,100"; "2400,100"; "3700,150"]);
  ("0MI4", ["3000,100"]);
  ("0MI6", ["2200,300"]);
  ("0MI7", ["35,35"]);
  ("0MI9", ["50,50"]);
  ("0MN0", ["5500,700"]);
  ("0MN2", ["11000,3000"]);
  ("0MN3", ["5000,100"; "5000,100"]);
  ("0MN4", ["5000,300"]);
  ("0MN5", ["2800,60"]);
  ("0MN6", ["2500,150"]);
  ("0MN7", ["120,100"]);
  ("0MN8", ["1650,50"]);
  ("0MN9", ["50,50"]);
  ("0MO0", ["1685,120"]);
  ("0MO1", ["2100,50"]);
  ("0MO2", ["1200,40"]);
  ("0MO4", ["18,18"]);
  ("0MO5", ["1800,60"]);
  ("0MO7", ["65,65"]);
  ("0MO8", ["2600,130"]);
  ("0MO9", ["50,50"]);
  ("0MS0", ["3200,100,,40,,310.3"]);
  ("0MS2", ["2300,75"]);
  ("0MS3", ["30,30"]);
  ("0MS5", ["2700,60"]);
  ("0MS6", ["240,150"]);
  ("0MS7", ["2100,60"]);
  ("0MS8", ["4000,75"]);
  ("0MS9", ["3200,50"]);
  ("0MT1", ["1500,30"]);
  ("0MT2", ["30,30"]);
  ("0MT3", ["40,40"]);
  ("0MT4", ["1000,60"]);
  ("0MT5", ["750,40"]);
  ("0MT6", ["2400,50"]);
  ("0MT7", ["3800,50"]);
  ("0MT8", ["100,60"]);
  ("0MT9", ["1700,52"]);
  ("0MU1", ["2000,75"]);
  ("0MU2", ["20,20"]);
  ("0MU3", ["60,60"]);
  ("0MU4", ["1700,60"]);
  ("0MU5", ["30,30"]);
  ("0MU6", ["60,60"]);
  ("0MU7", ["2600,60"]);
  ("0MU8", ["800,60"]);
  ("0MY0", ["200,60"]);
  ("0MY1", ["30,30"]);
  ("0N0", ["2780,20"]);
  ("0N4", ["2533,28"]);
  ("0N5", ["60,60"]);
  ("0N6", ["2048,40"]);
  ("0NA1", ["2600,50"]);
  ("0NA5", ["2200,60"]);
  ("0NA9", ["2200,50"]);
  ("0NC0", ["50,50"]);
  ("0NC2", ["78,65"]);
  ("0NC3", ["70,70"]);
  ("0NC4", ["70,70"]);
  ("0NC5", ["40,40"]);
  ("0NC6", ["200,150"]);
  ("0NC7", ["1700,75"]);
  ("0NC8", ["2300,100"]);
  ("0NC9", ["60,60"]);
  ("0ND0", ["2600,50"]);
  ("0ND6", ["1600,25"]);
  ("0ND7", ["2600,60"]);
  ("0NE0", ["2300,100"; "1800,100"]);
  ("0NE1", ["2500,50"]);
  ("0NE2", ["2000,50"]);
  ("0NE3", ["40,40"]);
  ("0NE4", ["30,30"]);
  ("0NE6", ["3500,100,,175.9"]);
  ("0NJ0", ["51,44"]);
  ("0NJ1", ["200,200"]);
  ("0NJ2", ["200,100"]);
  ("0NJ3", ["305,140"]);
  ("0NJ4", ["40,35"]);
  ("0NJ6", ["2950,100"]);
  ("0NJ7", ["75,75"]);
  ("0NJ8", ["75,75"]);
  ("0NJ9", ["85,85"]);
  ("0NK0", ["1400,40"]);
  ("0NK1", ["2100,100"]);
  ("0NK2", ["3000,100"]);
  ("0NK3", ["2700,75"]);
  ("0NK4", ["40,40"]);
  ("0NK5", ["50,50"]);
  ("0NK7", ["50,50"]);
  ("0NK8", ["2500,50"]);
  ("0NK9", ["1700,60"]);
  ("0NM0", ["4210,250"]);
  ("0NM7", ["4000,60"; "7500,60"]);
  ("0NV1", ["40,40"]);
  ("0NY0", ["3000,150"]);
  ("0NY1", ["1360,125"]);
  ("0NY3", ["1600,100"]);
  ("0NY5", ["100,75"]);
  ("0NY6", ["25,25"]);
  ("0NY7", ["2000,75"]);
  ("0NY8", ["1700,100"]);
  ("0O0", ["15840,4000"]);
  ("0O4", ["2702,50,293,180,293,360"]);
  ("0O9", ["2990,50"]);
  ("0OH1", ["40,40"]);
  ("0OH2", ["2370,80"]);
  ("0OH3", ["70,70"]);
  ("0OH6", ["800,50"]);
  ("0OH7", ["1300,70"; "2200,70"]);
  ("0OH8", ["3000,50,,24.8"]);
  ("0OH9", ["1100,75"]);
  ("0OI0", ["12,12"]);
  ("0OI1", ["30,30"]);
  ("0OI2", ["2200,80"]);
  ("0OI3", ["1900,70"]);
  ("0OI6", ["2600,50"]);
  ("0OI9", ["1100,100"]);
  ("0OK0", ["2400,50"]);
  ("0OK1", ["3200,135"]);
  ("0OK2", ["100,100"]);
  ("0OK3", ["5000,30,,170.4"]);
  ("0OK4", ["2350,40"]);
  ("0OK5", ["2000,100"]);
  ("0OK6", ["2400,90"]);
  ("0OK7", ["50,50"]);
  ("0OK8", ["2500,100"]);
  ("0OK9", ["3000,100"; "2600,100"]);
  ("0OR0", ["40,40"]);
  ("0OR2", ["50,50"]);
  ("0OR3", ["1950,100"]);
  ("0OR4", ["60,60"]);
  ("0OR5", ["1700,100"]);
  ("0OR6", ["2900,40"]);
  ("0OR7", ["1900,50"]);
  ("0OR8", ["2500,75"]);
  ("0OR9", ["1900,25"]);
  ("0P1", ["2590,128"]);
  ("0P2", ["1000,100"; "1000,100"]);
  ("0PA0", ["2450,300"; "2450,300"; "1800,200"]);
  ("0PA1", ["80,80"]);
  ("0PA2", ["500,100"]);
  ("0PA3", ["1277,100"]);
  ("0PA4", ["1515,100"]);
  ("0PA5", ["2550,125"]);
  ("0PA6", ["1800,100"]);
  ("0PA7", ["1200,100"]);
  ("0PA8", ["90,90"]);
  ("0PA9", ["200,200"]);
  ("0PN0", ["2000,200"]);
  ("0PN1", ["7500,800"]);
  ("0PN3", ["80,80"]);
  ("0PN4", ["500,100"]);
  ("0PN5", ["2400,100"]);
  ("0PN6", ["1730,100"]);
  ("0PN7", ["2800,100"]);
  ("0PN8", ["2000,100"]);
  ("0PN9", ["1800,75"]);
  ("0PS0", ["2200,100"]);
  ("0PS1", ["90,90"]);
  ("0PS2", ["70,70"]);
  ("0PS3", ["1272,100"]);
  ("0PS4", ["2400,100"]);
  ("0PS5", ["30,30"]);
  ("0PS6", ["120,40"]);
  ("0PS7", ["1900,150"]);
  ("0PS8", ["65,60"]);
  ("0PS9", ["35,35"]);
  ("0Q3", ["2700,45,5,,5"; "1500,50"]);
  ("0Q4", ["2490,50,305,,296"]);
  ("0Q9", ["2480,40"]);
  ("0R2", ["2940,125"]);
  ("0R7", ["5000,75,177,180,165"]);
  ("0R9", ["2600,120"]);
  ("0S1", ["2830,100"]);
  ("0S2", ["3500,240"]);
  ("0S5", ["2400,30"]);
  ("0SD0", ["3000,100"]);
  ("0SD1", ["1726,60"]);
  ("0SD2", ["40,40"]);
  ("0SD3", ["3700,50"]);
  ("0SD4", ["60,60"]);
  ("0SD5", ["16,16"]);
  ("0SD7", ["2000,50"]);
  ("0SD9", ["20,20"]);
  ("0T3", ["2600,70"]);
  ("0T7", ["2300,195"]);
  ("0TA0", ["100,100"]);
  ("0TA1", ["2000,60"]);
  ("0TA2", ["2300,60"; "4000,60"]);
  ("0TA3", ["2500,130"; "1500,100"]);
  ("0TA4", ["1742,50"]);
  ("0TA5", ["200,150"]);
  ("0TA6", ["50,50"; "20,15"; "20,15"]);
  ("0TA7", ["5000,100,4680,58.5,4702"; "5200,100,4688,128.5,4702"; "5100,100,,158.5,4702"]);
  ("0TA8", ["2680,45"]);
  ("0TA9", ["35,35"]);
  ("0TE0", ["2650,50"; "3250,50"]);
  ("0TE1", ["100,100"]);
  ("0TE2", ["800,200"]);
  ("0TE3", ["2600,400"]);
  ("0TE4", ["3000,40,,164.6"]);
  ("0TE5", ["5992,77,,170"]);
  ("0TE6", ["2575,50"]);
  ("0TE7", ["6291,60,1515,175,1433,355"]);
  ("0TE8", ["150,150"]);
  ("0TE9", ["150,150"]);
  ("0TN0", ["1750,100"]);
  ("0TN1", ["8000,800"; "5000,500"; "7000,700"]);
  ("0TN2", ["1200,100"]);
  ("0TN3", ["30,30"]);
  ("0TN4", ["50,50"]);
  ("0TN5", ["2350,100"]);
  ("0TN6", ["1050,75"]);
  ("0TN7", ["45,45"]);
  ("0TN8", ["75,75"]);
  ("0TN9", ["46,46"]);
  ("0TS1", ["1750,75"]);
  ("0TS2", ["600,50"; "600,50"; "600,50"]);
  ("0TS3", ["20,20"]);
  ("0TS4", ["1800,60"]);
  ("0TS5", ["3200,180"]);
  ("0TS6", ["20,20"]);
  ("0TS7", ["2800,100"]);
  ("0TS8", ["910,910"])].

(* ADRpy/data/runways.csv *)
Definition airports_1 : list (string * list string) := [
  ("0TS9", ["1260,70"]);
  ("0TX0", ["2800,200"]);
  ("0TX1", ["3500,50,,185.4"]);
  ("0TX2", ["100,100"]);
  ("0TX3", ["20,20"]);
  ("0TX4", ["50,50"]);
  ("0TX5", ["1800,50"]);
  ("0TX6", ["2283,80"]);
  ("0TX7", ["2250,50"]);
  ("0TX8", ["1800,55"]);
  ("0TX9", ["2300,100"; "2000,100"]);
  ("0U0", ["4000,100"]);
  ("0U1", ["2850,135"]);
  ("0U2", ["4700,100"]);
  ("0U3", ["2150,15"]);
  ("0U7", ["2500,140"]);
  ("0U8", ["4950,200"]);
  ("0U9", ["2875,60"]);
  ("0VA1", ["2000,50"]);
  ("0VA2", ["2000,70"]);
  ("0VA3", ["2200,70"]);
  ("0VA4", ["2100,90"]);
  ("0VA5", ["3900,60,,30"]);
  ("0VA6", ["100,100"]);
  ("0VA8", ["1800,80"]);
  ("0VA9", ["1000,30"]);
  ("0VI1", ["3000,60"]);
  ("0W0", ["9500,300"]);
  ("0W7", ["10000,4000,307,,307"]);
  ("0WA0", ["48,16"]);
  ("0WA1", ["2000,50"]);
  ("0WA2", ["2364,60"]);
  ("0WA3", ["40,40"]);
  ("0WA4", ["100,50"]);
  ("0WA5", ["24,12"; "24,12"]);
  ("0WA6", ["70,70"]);
  ("0WA7", ["20,20"]);
  ("0WA8", ["40,40"]);
  ("0WA9", ["100,100"]);
  ("0WI0", ["43,44"]);
  ("0WI1", ["10000,4000"; "3200,40,,39.3"]);
  ("0WI2", ["2600,60"]);
  ("0WI3", ["60,60"]);
  ("0WI4", ["3200,40,,82.8"]);
  ("0WI5", ["2000,100"]);
  ("0WI6", ["1300,60"]);
  ("0WI7", ["2100,150"; "1500,100"]);
  ("0WI8", ["1200,100"; "1400,200"]);
  ("0WI9", ["2600,70"]);
  ("0WN0", ["1050,28"]);
  ("0WN1", ["1800,40"]);
  ("0WN2", ["1200,50,,,,206.5"]);
  ("0WN4", ["100,100"]);
  ("0WN5", ["150,50"]);
  ("0WN6", ["12,12"]);
  ("0WN7", ["40,40"]);
  ("0WN8", ["38,10"]);
  ("0WN9", ["1055,100,,,,352.1"]);
  ("0WY0", ["2000,30,,,,189.9"]);
  ("0WY1", ["3400,70,,,,196.9"]);
  ("0XA0", ["61,54"; "56,56"]);
  ("0XA2", ["40,40"]);
  ("0XA3", ["27,27"; "30,27"]);
  ("0XA4", ["5000,75,,156,,336"]);
  ("0XA5", ["3800,75,,136"]);
  ("0XA6", ["50,50"]);
  ("0XA7", ["2400,100"; "150,150"]);
  ("0XA8", ["1000,130"; "1000,150"; "20,24"]);
  ("0XA9", ["46,46"]);
  ("0XS0", ["3300,150"; "2500,150"]);
  ("0XS1", ["1500,60"]);
  ("0XS2", ["3700,30"]);
  ("0XS3", ["30,30"]);
  ("0XS4", ["50,50"]);
  ("0XS5", ["26,26"]);
  ("0XS6", ["3000,75"]);
  ("0XS7", ["6000,60,,140"]);
  ("0XS8", ["3200,30"]);
  ("0XS9", ["1200,100"]);
  ("0Y4", ["2500,90,1452,,1452"]);
  ("0Y6", ["3380,100"]);
  ("0Z2", ["1000,22"]);
  ("0Z3", ["1400,100"]);
  ("10AK", ["800,80"]);
  ("10AL", ["65,65"]);
  ("10AZ", ["3407,150,860,90,860"]);
  ("10CA", ["30,30"]);
  ("10CL", ["2300,40"]);
  ("10CN", ["60,60"]);
  ("10D", ["3248,200,1030,,1030"]);
  ("10F", ["3600,200"]);
  ("10FA", ["2575,30"]);
  ("10FD", ["1500,100"]);
  ("10FL", ["100,100"]);
  ("10GA", ["2100,150"]);
  ("10IA", ["2405,85"]);
  ("10ID", ["3000,40"]);
  ("10II", ["40,40"]);
  ("10IL", ["300,200"]);
  ("10IN", ["2600,100"; "40,20"]);
  ("10KS", ["64,64"]);
  ("10KY", ["30,30"]);
  ("10LA", ["2144,150"; "50,50"]);
  ("10MA", ["4000,800"]);
  ("10MI", ["100,100"]);
  ("10MN", ["4000,500"; "4000,1000"]);
  ("10MS", ["50,50"]);
  ("10MT", ["1500,60"; "2000,60"; "1600,60"]);
  ("10MU", ["65,65"]);
  ("10NC", ["2450,80"]);
  ("10ND", ["1300,50"; "1800,50"]);
  ("10NE", ["67,60"]);
  ("10NH", ["45,12"]);
  ("10NJ", ["75,75"]);
  ("10NY", ["50,30"]);
  ("10OH", ["1400,100"]);
  ("10OK", ["2600,150"]);
  ("10OR", ["1000,100"]);
  ("10PA", ["30,30"]);
  ("10PN", ["200,75"]);
  ("10TA", ["300,200"]);
  ("10TE", ["1975,50"]);
  ("10TN", ["1200,120"]);
  ("10TS", ["900,60"]);
  ("10TX", ["50,50"]);
  ("10UT", ["100,30"]);
  ("10VA", ["1800,20"]);
  ("10WA", ["2200,60"]);
  ("10WI", ["2100,200"]);
  ("10WY", ["4500,100,,,,290"]);
  ("10XS", ["3000,75"]);
  ("11AK", ["2400,30"; "1000,30"]);
  ("11AL", ["1600,75"; "1482,75"; "1238,75"; "1000,75"; "1600,75"]);
  ("11AR", ["60,60"]);
  ("11AZ", ["3850,150"]);
  ("11CA", ["1800,40"]);
  ("11CL", ["5875,80"]);
  ("11FA", ["2465,130"]);
  ("11FD", ["30,22"]);
  ("11FL", ["3000,200"]);
  ("11G", ["2530,60,630,,630"]);
  ("11GA", ["24,24"]);
  ("11GE", ["50,50"]);
  ("11II", ["4220,72,,176.9"]);
  ("11IL", ["44,44"]);
  ("11IN", ["2700,90"]);
  ("11IS", ["40,40"]);
  ("11KS", ["1600,70"; "2000,70"]);
  ("11KY", ["85,85"]);
  ("11LA", ["2000,100"; "2000,100"; "48,48"]);
  ("11LL", ["2250,100"]);
  ("11LS", ["1800,90,,70.3"; "1300,100,,91.9"]);
  ("11M", ["3000,60,450,,450"]);
  ("11MA", ["1200,42"]);
  ("11MD", ["2500,75"]);
  ("11MI", ["50,50"]);
  ("11MO", ["2100,70"]);
  ("11N", ["2900,50"]);
  ("11NC", ["40,40"]);
  ("11NE", ["2500,100"]);
  ("11NJ", ["100,100"]);
  ("11NK", ["2400,50"]);
  ("11NY", ["1600,50"]);
  ("11OA", ["2300,100"]);
  ("11OG", ["2400,60"]);
  ("11OR", ["2225,40"]);
  ("11PN", ["2500,100"]);
  ("11S", ["2997,50,312,,355"]);
  ("11TA", ["180,90"]);
  ("11TE", ["1900,50"]);
  ("11TN", ["2800,75"; "2600,75"]);
  ("11TS", ["2370,50"]);
  ("11TX", ["2000,80"]);
  ("11VA", ["45,45"]);
  ("11VG", ["1800,70"]);
  ("11WA", ["2400,50"]);
  ("11WI", ["100,100"]);
  ("11WN", ["3000,350"; "1800,350"]);
  ("11Y", ["500,20,,,,206.7"; "1000,60"]);
  ("12A", ["3133,40,,181,,1"]);
  ("12AL", ["1600,75"; "1600,75"; "1600,75"; "1600,75"]);
  ("12AR", ["2600,100,,,,294"]);
  ("12AZ", ["2400,100"]);
  ("12CA", ["1800,100"]);
  ("12CL", ["2790,40"]);
  ("12CO", ["1400,50"]);
  ("12FA", ["1800,80"]);
  ("12FD", ["40,40"]);
  ("12FL", ["2463,200"; "2721,200"]);
  ("12GA", ["50,50"]);
  ("12GE", ["2100,75"]);
  ("12I", ["16000,2000"; "25000,2000"]);
  ("12IA", ["1350,200"]);
  ("12ID", ["2000,100"]);
  ("12II", ["2500,75"]);
  ("12IL", ["1300,100"]);
  ("12IN", ["1930,50"]);
  ("12IS", ["50,50"]);
  ("12JY", ["320,220"]);
  ("12KS", ["2600,50"]);
  ("12KY", ["2500,100"]);
  ("12LA", ["3500,85"]);
  ("12LL", ["2200,120"]);
  ("12LS", ["2100,70"]);
  ("12MA", ["400,200"]);
  ("12MD", ["40,40"]);
  ("12ME", ["1500,50"]);
  ("12MI", ["1852,100"]);
  ("12MO", ["3000,50"]);
  ("12MS", ["1100,75"]);
  ("12MT", ["1780,55"; "1640,85"]);
  ("12NC", ["3575,150,,0.5"; "3678,150,,46.6"; "3500,150,,90.5"]);
  ("12ND", ["2000,100"]);
  ("12NE", ["2000,40"]);
  ("12NH", ["1800,200,,,,313"]);
  ("12NK", ["2600,125"]);
  ("12NM", ["5000,60"]);
  ("12NY", ["300,150"]);
  ("12OA", ["60,60"]);
  ("12OH", ["1030,100"]);
  ("12OK", ["3350,50,,24.8"]);
  ("12OR", ["2200,75"]);
  ("12PA", ["180,150"]);
  ("12PN", ["60,60"]);
  ("12PS", ["65,65"]);
  ("12S", ["2104,29"]);
  ("12SC", ["2400,100"]);
  ("12T", ["40,40"]);
  ("12TA", ["20,20"]);
  ("12TE", ["2300,200"]);
  ("12TN", ["2600,40"]);
  ("12TS", ["1600,50"; "1600,50"]);
  ("12TX", ["2000,100"]);
  ("12VA", ["2150,50"]);
  ("12WA", ["1550,200"]);
  ("12WI", ["60,50"]);
  ("12WT", ["2200,80"]);
  ("12WY", ["2500,50,,,,217.5"]);
  ("12XS", ["2450,40"]);
  ("13AK", ["980,45"]);
  ("13AL", ["1600,50"; "1600,100"; "1600,50"; "1600,50"; "1600,100"; "1600,100"]);
  ("13AR", ["40,40"]);
  ("13AZ", ["1100,75"]);
  ("13CA", ["20,20"; "20,20"; "20,20"]);
  ("13CL", ["1950,50"]);
  ("13CO", ["15,15"]);
  ("13D", ["18,18"]);
  ("13FA", ["2300,100"]);
  ("13FD", ["40,40"]);
  ("13FL", ["500,200"; "300,100"]);
  ("13GA", ["3400,150"]);
  ("13GE", ["2600,60"]);
  ("13IA", ["850,60"]);
  ("13ID", ["1600,100"]);
  ("13II", ["50,50"]);
  ("13IN", ["2200,60"]);
  ("13JY", ["50,50"]);
  ("13KS", ["2000,75"]);
  ("13KY", ["2000,100"]);
  ("13LA", ["50,20"; "50,20"; "50,20"; "50,20"]);
  ("13LL", ["25,25"]);
  ("13LS", ["2200,40"]);
  ("13M", ["900,250"]);
  ("13MA", ["2475,55,403,28,414,208"]);
  ("13ME", ["2100,100,1179,,1159"]);
  ("13MI", ["60,60"]);
  ("13MN", ["1600,80"]);
  ("13MO", ["2000,100"]);
  ("13MS", ["3000,100"]);
  ("13MT", ["2300,60"]);
  ("13N", ["1924,135"]);
  ("13NC", ["4000,150,,0.3"; "4200,150,,44.6"; "4100,150,,90.6"]);
  ("13NE", ["2600,200"]);
  ("13NJ", ["50,50"]);
  ("13NK", ["75,75"]);
  ("13NM", ["3840,50"]);
  ("13NY", ["60,60"]);
  ("13OH", ["2250,90"]);
  ("13OI", ["25,25"]);
  ("13OK", ["40,40"]);
  ("13OR", ["1950,40"]);
  ("13PA", ["2075,50"]);
  ("13PN", ["880,100"]);
  ("13PS", ["80,80"]);
  ("13Q", ["5200,45"]);
  ("13S", ["5000,4000"]);
  ("13SC", ["20,20"]);
  ("13TA", ["35,35"]);
  ("13TE", ["2330,100"]);
  ("13TN", ["37,37"]);
  ("13TS", ["3000,30"]);
  ("13TX", ["2100,100"; "2700,100"; "1800,100"]);
  ("13VA", ["65,65"]);
  ("13VG", ["80,80"]);
  ("13W", ["1750,24"]);
  ("13WA", ["20,20"]);
  ("13WI", ["2440,68"; "2400,68"]);
  ("13XS", ["48,48"]);
  ("13Y", ["3000,150,1130,,1125"]);
  ("13Z", ["10000,2000"]);
  ("14AK", ["1300,80"]);
  ("14AL", ["1600,75"; "1600,75"; "1600,75"; "1600,75"; "1600,75"]);
  ("14AR", ["2500,25,,90.7"; "1300,25,,180.6"]);
  ("14AZ", ["4300,50,,71.1"]);
  ("14CA", ["40,40"]);
  ("14CL", ["65,65"]);
  ("14CT", ["80,25"]);
  ("14FA", ["2000,60"; "2000,60"]);
  ("14FD", ["2500,100"]);
  ("14FL", ["2000,60"]);
  ("14GA", ["20,20"]);
  ("14GE", ["50,50"]);
  ("14I", ["1220,80,1050,,1050"]);
  ("14ID", ["1900,50"]);
  ("14IS", ["40,40"]);
  ("14KS", ["2600,100"]);
  ("14KY", ["2240,75"]);
  ("14L", ["50,40"]);
  ("14LL", ["40,40"]);
  ("14LS", ["400,150"]);
  ("14MA", ["40,40"]);
  ("14ME", ["1100,60"]);
  ("14MI", ["900,8"]);
  ("14MN", ["52,52"]);
  ("14MO", ["1900,100"]);
  ("14MS", ["1600,75,,30"; "3500,75,,79.6"]);
  ("14N", ["2020,100"]);
  ("14NC", ["5000,150,,52.3"; "5000,150"]);
  ("14ND", ["2120,100"]);
  ("14NH", ["50,50"]);
  ("14NJ", ["200,200"]);
  ("14NK", ["1800,50"]);
  ("14NY", ["44,44"]);
  ("14OH", ["2000,60"]);
  ("14OI", ["2500,80,1050,,1050"]);
  ("14P", ["4553,80"]);
  ("14PA", ["1300,100"]);
  ("14PS", ["1140,100"]);
  ("14S", ["2318,50,6,137,8,317"]);
  ("14SN", ["40,40"]);
  ("14TA", ["1500,30"]);
  ("14TE", ["2700,100"]);
  ("14TN", ["150,150"]);
  ("14TS", ["6044,70,,160"]);
  ("14TX", ["2000,40"]);
  ("14VA", ["1900,50"]);
  ("14WA", ["2600,50"]);
  ("14WI", ["90,90"]);
  ("14WS", ["2450,60,,140.3"]);
  ("14WV", ["30,30"]);
  ("14XS", ["1800,100"]);
  ("15A", ["2000,180"]);
  ("15AK", ["2095,40"]);
  ("15AL", ["500,100"; "500,100"; "700,100"; "650,100"]);
  ("15AR", ["2500,120,,144.7"]);
  ("15AZ", ["4000,65"]);
  ("15CA", ["100,100"]);
  ("15CL", ["2300,50"]);
  ("15CO", ["50,35"]);
  ("15FD", ["2190,80"]);
  ("15FL", ["2292,50,,90"; "3513,25,,180"]);
  ("15G", ["2410,37,1210,,1210"]);
  ("15GA", ["2500,75"]);
  ("15ID", ["1600,200"]);
  ("15II", ["250,300"]);
  ("15IL", ["2900,100"]);
  ("15IN", ["1500,75"]);
  ("15KS", ["2300,50"]);
  ("15KY", ["2540,100"]);
  ("15LA", ["835,102"]);
  ("15LL", ["2500,70"]);
  ("15LS", ["44,44"]);
  ("15MA", ["700,20"]);
  ("15ME", ["2600,60"]);
  ("15MI", ["30,30"]);
  ("15MN", ["2500,120,,49.8,,271.9"; "2000,90"]);
  ("15MO", ["2295,75"]);
  ("15MT", ["1500,100"]);
  ("15N", ["2035,70"; "2842,70"]);
  ("15NC", ["1800,50"]);
  ("15NE", ["2900,60"]);
  ("15NH", ["20,20"]);
  ("15NJ", ["100,100"]);
  ("15NK", ["2700,100"]);
  ("15NY", ["50,50"]);
  ("15OH", ["50,50"]);
  ("15OI", ["400,330"]);
  ("15OK", ["1350,50,,,,266"]);
  ("15OR", ["60,60"]);
  ("15PA", ["1600,100"]);
  ("15PN", ["66,66"]);
  ("15PS", ["50,47"]);
  ("15S", ["400,100"; "100,100"]);
  ("15TA", ["3200,75"]);
  ("15TE", ["60,60"]);
  ("15TN", ["40,40"]);
  ("15TS", ["20,20"]);
  ("15TX", ["1550,50"]);
  ("15VA", ["1950,125"]);
  ("15W", ["1880,50"]);
  ("15WA", ["2000,50"]);
  ("15WI", ["2600,100"]);
  ("15XS", ["1915,70"]);
  ("16A", ["2420,75,11,196,12,16"; "3000,300"]);
  ("16AK", ["1200,60"]);
  ("16AL", ["1600,75"; "1600,75"; "1600,75"; "1600,75"; "1600,75"; "1600,75"]);
  ("16AR", ["2000,100"]);
  ("16AZ", ["2900,50"]);
  ("16CA", ["150,100"]);
  ("16CL", ["40,40"]);
  ("16CO", ["1900,65"]);
  ("16DE", ["50,50"]);
  ("16FA", ["2680,200"]);
  ("16FD", ["3400,200"]);
  ("16FL", ["3000,200"]);
  ("16GA", ["25,25"]);
  ("16IA", ["2400,60"]);
  ("16ID", ["75,75"]);
  ("16II", ["2600,125"]);
  ("16IL", ["2000,120"; "2000,120"]);
  ("16IN", ["70,70"]);
  ("16IS", ["2200,70"]);
  ("16K", ["10000,1000"]);
  ("16KY", ["2400,30"]);
  ("16LA", ["65,65"]);
  ("16LL", ["100,100"]);
  ("16LS", ["2700,75"]);
  ("16MA", ["225,75"]);
  ("16MD", ["1800,50"]);
  ("16MI", ["1300,80"]);
  ("16MO", ["1900,60"]);
  ("16MS", ["50,50"]);
  ("16MT", ["3300,40"]);
  ("16NC", ["1524,66"; "2600,100"]);
  ("16NE", ["4990,70"]);
  ("16NH", ["3700,350"; "3300,350"]);
  ("16NJ", ["15000,4000"]);
  ("16NK", ["50,50"]);
  ("16NY", ["25,25"]);
  ("16OH", ["30,30"]);
  ("16OI", ["2600,100"]);
  ("16OK", ["1800,100"]);
  ("16PA", ["2500,100"]);
  ("16PN", ["100,100"]);
  ("16S", ["2600,60,614,,619"]);
  ("16SC", ["3800,200"]);
  ("16TA", ["5600,75"]);
  ("16TE", ["2700,30"]);
  ("16TN", ["75,75"]);
  ("16TS", ["1500,30"]);
  ("16TX", ["1900,50"]);
  ("16VA", ["50,50"]);
  ("16W", ["3400,50"]);
  ("16WA", ["1515,40"]);
  ("16WI", ["10000,4000"; "10000,4000"]);
  ("16X", ["3000,60,,170"]);
  ("16XS", ["2000,100"]);
  ("16Z", ["4000,350"]);
  ("17AK", ["150,50,20"]);
  ("17AL", ["2000,75"; "2000,75"; "2000,75,,,,228"; "2000,75,,,,215.6"; "1000,75,,,,315"; "200,75,,,,356"]);
  ("17AR", ["2200,80"]);
  ("17AZ", ["42,42,,,,281.3"]);
  ("17CA", ["65,65,,,,218.1"]);
  ("17CL", ["1300,30"]);
  ("17CO", ["2500,40"]);
  ("17FA", ["5000,400"; "6000,400"; "2500,94,,,,326"]);
  ("17FD", ["20,20,,,,304.9"]);
  ("17FL", ["3640,100,,90"; "7550,210,,180,,255"]);
  ("17GA", ["2500,50"]);
  ("17ID", ["2725,55,,,,301"]);
  ("17II", ["2600,75"]);
  ("17IN", ["3100,60"]);
  ("17KS", ["2500,50"]);
  ("17KY", ["2000,75"]);
  ("17LA", ["20,20"; "35,35"; "35,35"; "35,35"]);
  ("17LS", ["2640,80"]);
  ("17MA", ["200,50,,,,286.4"]);
  ("17ME", ["1600,60"]);
  ("17MI", ["25,25"]);
  ("17MO", ["3000,75"]);
  ("17MS", ["60,60,,,,283.9"]);
  ("17MT", ["3000,60"; "2600,60"]);
  ("17NC", ["2100,90"]);
  ("17NE", ["40,40"]);
  ("17NH", ["12,12"]);
  ("17NJ", ["50,50"]);
  ("17NK", ["2800,60"]);
  ("17NY", ["100,100"]);
  ("17OH", ["2900,60"]);
  ("17OI", ["1920,90"]);
  ("17OR", ["2300,100"]);
  ("17PN", ["60,60"]);
  ("17PS", ["2170,100"]);
  ("17S", ["2285,40"]);
  ("17TA", ["100,100"]);
  ("17TE", ["1950,30"]);
  ("17TN", ["1000,50"; "1500,50"]);
  ("17TS", ["50,50"]);
  ("17TX", ["3200,30,,175.5"]);
  ("17U", ["5000,50"]);
  ("17WA", ["20,20"]);
  ("17WI", ["2500,70"]);
  ("17XS", ["6295,80,1313,20.2,1422"]);
  ("18AA", ["1651,47"]);
  ("18AK", ["120,120,25"]);
  ("18AL", ["1000,75"; "1000,75"; "1000,75"; "1000,75"]);
  ("18AR", ["1450,55"]);
  ("18AZ", ["4037,50,2490,72.6,2568"]);
  ("18CA", ["50,50"]);
  ("18CL", ["2600,50"]);
  ("18CO", ["60,60"]);
  ("18FA", ["2080,35"]);
  ("18FD", ["2935,70"]);
  ("18FL", ["75,75"]);
  ("18GA", ["2600,22"]);
  ("18ID", ["45,45"]);
  ("18II", ["2600,70"]);
  ("18IL", ["44,44"]);
  ("18IN", ["1700,75"; "3400,75"]);
  ("18IS", ["88,66"]);
  ("18JY", ["2283,100"]);
  ("18K", ["2310,100"]);
  ("18KS", ["2500,200"]);
  ("18KY", ["40,40"]);
  ("18LA", ["3000,2000"]);
  ("18LS", ["100,100"]);
  ("18MA", ["40,40"]);
  ("18MD", ["46,46"]);
  ("18ME", ["1500,50,,,,287"]);
  ("18MI", ["50,50"]);
  ("18MN", ["2600,50"]);
  ("18MO", ["2600,60"]);
  ("18MT", ["1200,60"]);
  ("18NC", ["750,50"]);
  ("18NE", ["3700,100"]);
  ("18NJ", ["100,100"]);
  ("18NY", ["2000,40"]);
  ("18OH", ["2600,50"]);
  ("18OI", ["2520,60"]);
  ("18OK", ["50,50"]);
  ("18OR", ["1200,50"]);
  ("18PA", ["1600,50"]);
  ("18PN", ["1640,50"]);
  ("18TA", ["4500,48,,160"]);
  ("18TE", ["5093,40,359,91,349,271"]);
  ("18TN", ["50,50,,,,255"]);
  ("18TS", ["55,55"]);
  ("18TX", ["3500,60"]);
  ("18VA", ["50,50"]);
  ("18WA", ["75,75"]);
  ("18WI", ["2300,100"]);
  ("18WV", ["1700,60,,,,340"]);
  ("18XS", ["2400,40"]);
  ("18Y", ["2900,150,1100,,1100"]);
  ("19AK", ["3430,55"]);
  ("19AL", ["1300,50"; "1300,50"; "1350,50"; "1270,75"]);
  ("19AR", ["1700,50,,92.4"]);
  ("19AZ", ["3300,60,,182.6"]);
  ("19CA", ["85,85"]);
  ("19CL", ["3800,100"]);
  ("19CO", ["55,55"]);
  ("19FD", ["19,19"]);
  ("19FL", ["47,47"]);
  ("19GA", ["3000,65"]);
  ("19IA", ["2300,100"]);
  ("19ID", ["43,50"]);
  ("19II", ["30,30"]);
  ("19IN", ["1200,50"]);
  ("19KS", ["25,25"]);
  ("19KY", ["2200,60"]);
  ("19LA", ["20,20"]);
  ("19LL", ["1940,70"]);
  ("19LS", ["40,40"]);
  ("19MA", ["200,200"]);
  ("19MI", ["60,60"]);
  ("19MO", ["15,15"]);
  ("19NC", ["2400,100"]);
  ("19ND", ["2600,80"]);
  ("19NE", ["4000,500"]);
  ("19NH", ["20,20"]);
  ("19NK", ["1600,100"]);
  ("19NY", ["2500,60"]);
  ("19OH", ["1800,100"]);
  ("19OI", ["25,25"]);
  ("19OR", ["2500,40"]);
  ("19P", ["4000,1000"]);
  ("19PA", ["500,100"]);
  ("19PN", ["60,60"]);
  ("19SC", ["2200,100"]);
  ("19T", ["13000,1200"]);
  ("19TA", ["3100,50"]);
  ("19TE", ["2900,125"]);
  ("19TN", ["2200,40"]);
  ("19TS", ["24,20"]);
  ("19TX", ["3200,80"]);
  ("19VA", ["1600,50"]);
  ("19WA", ["2300,100"]);
  ("19WI", ["2200,50"]);
  ("19XS", ["2500,35"]);
  ("1A1", ["2275,75"]);
  ("1A2", ["3100,85,973,,973"]);
  ("1A8", ["3170,48"; "3770,42"]);
  ("1AK0", ["70,70,20"]);
  ("1AK1", ["2250,60"]);
  ("1AK2", ["1160,50"]);
  ("1AK4", ["2100,60"]);
  ("1AK5", ["40,40"; "40,40"; "40,40"]);
  ("1AK6", ["1800,50"]);
  ("1AK7", ["40,40"]);
  ("1AK8", ["950,35"]);
  ("1AK9", ["150,100"]);
  ("1AL0", ["40,40"]);
  ("1AL1", ["51,51"]);
  ("1AL2", ["2900,250"]);
  ("1AL3", ["150,150"]);
  ("1AL4", ["2400,100"]);
  ("1AL5", ["1300,75"]);
  ("1AL6", ["50,50"]);
  ("1AL7", ["50,50"]);
  ("1AL8", ["2000,100"]);
  ("1AR0", ["4090,35"]);
  ("1AR1", ["3400,60,,,,299"]);
  ("1AR2", ["2640,200"]);
  ("1AR3", ["2600,70,,184"]);
  ("1AR5", ["2500,80"]);
  ("1AR6", ["2600,50,,,,337.1"]);
  ("1AR7", ["40,40"]);
  ("1AR8", ["1600,75"]);
  ("1AR9", ["2500,100"; "3800,100"]);
  ("1AZ0", ["4500,75,,101.7,,241.6"]);
  ("1AZ1", ["100,100"]);
  ("1AZ3", ["120,120,,,,264.9"]);
  ("1AZ5", ["20,20"]);
  ("1AZ6", ["70,70"]);
  ("1AZ7", ["25,25"]);
  ("1AZ8", ["2600,50"]);
  ("1B5", ["2305,150"]);
  ("1B8", ["2130,65"; "2100,63,,,,205"]);
  ("1C3", ["2400,87"]);
  ("1C8", ["2540,260,740,,740"]);
  ("1C9", ["2500,100"; "3000,60"]);
  ("1CA0", ["146,124,1800,,,192"]);
  ("1CA1", ["5600,85,,,,180"]);
  ("1CA2", ["65,65"]);
  ("1CA3", ["110,55"]);
  ("1CA4", ["2250,50"]);
  ("1CA5", ["36,36,808,,,299.1"]);
  ("1CA6", ["2340,60"]);
  ("1CA7", ["57,57"]);
  ("1CA8", ["40,40,775,,,226"]);
  ("1CA9", ["150,60,,,,297"]);
  ("1CD0", ["14,14"]);
  ("1CD1", ["2800,60"]);
  ("1CD2", ["3000,24,,80,,223"]);
  ("1CD4", ["5400,150"]);
  ("1CD5", ["42,42"]);
  ("1CL0", ["100,100,,,,182.7"]);
  ("1CL1", ["2900,80,,,,199"]);
  ("1CL2", ["1900,50"; "1300,50"]);
  ("1CL3", ["71,71"]);
  ("1CL4", ["40,40"]);
  ("1CL5", ["38,38"]);
  ("1CL6", ["45,45"]);
  ("1CL8", ["48,48"]);
  ("1CL9", ["65,65"]);
  ("1CO0", ["84,84"]);
  ("1CO1", ["20,20,7881"]);
  ("1CO2", ["2500,60"]);
  ("1CO3", ["3000,30"; "5000,50"]);
  ("1CO4", ["3300,100,,,,287"]);
  ("1CO5", ["3780,45,4232,94.6,4238"; "2500,44,4252,193,4240"]);
  ("1CO6", ["350,200,10076"]);
  ("1CO7", ["600,30"]);
  ("1CO8", ["2200,100"]);
  ("1CO9", ["92,92"]);
  ("1CT0", ["100,100"]);
  ("1CT2", ["48,72"]);
  ("1CT3", ["100,100,,,,205"]);
  ("1D2", ["2303,75,696,177,685,357"]);
  ("1D4", ["2315,110,1092,,1100"]);
  ("1D5", ["1700,80"; "1060,90"]);
  ("1D6", ["2580,165,,,,203"; "2776,50,1078,,1077"]);
  ("1DE5", ["1100,60"]);
  ("1DS", ["2900,60"]);
  ("1E2", ["4700,80"]);
  ("1E4", ["3700,50"]);
  ("1E6", ["2000,75"]);
  ("1E7", ["6200,150,,23,,203"; "1600,102,,89,,269"]);
  ("1E8", ["2200,55"]);
  ("1E9", ["3865,24"]);
  ("1F1", ["2500,48,817,151,817,331"]);
  ("1F2", ["2000,100"; "2400,100"]);
  ("1F6", ["1360,100"]);
  ("1F7", ["2630,30"]);
  ("1FA1", ["1800,200"]);
  ("1FA3", ["2700,100"]);
  ("1FA5", ["50,50"]);
  ("1FA9", ["2650,25"]);
  ("1FD0", ["2300,100"]);
  ("1FD3", ["50,50"]);
  ("1FD4", ["4000,100"]);
  ("1FD6", ["70,70"]);
  ("1FD7", ["30,30"]);
  ("1FD8", ["30,30"]);
  ("1FL0", ["5250,100"; "5250,100"]);
  ("1FL1", ["20,20"]);
  ("1FL2", ["40,40"]);
  ("1FL3", ["2600,100"]);
  ("1FL4", ["12,12"]);
  ("1FL5", ["3000,100"]);
  ("1FL6", ["65,65"]);
  ("1FL7", ["60,60,,,,205.7"]);
  ("1FL8", ["50,50"]);
  ("1FL9", ["100,100"]);
  ("1G8", ["2268,145,1084,,1084"]);
  ("1GA0", ["3744,41"]);
  ("1GA1", ["90,90"]);
  ("1GA2", ["3040,60"]);
  ("1GA3", ["200,74"]);
  ("1GA4", ["2000,100"]);
  ("1GA5", ["3150,75"]);
  ("1GA7", ["30,30"]);
  ("1GA8", ["3000,70"]);
  ("1GA9", ["2000,300"]);
  ("1GE1", ["200,200"]);
  ("1GE2", ["2400,150"]);
  ("1GE3", ["2000,80"]);
  ("1GE4", ["2400,40"]);
  ("1GE5", ["1000,40"]);
  ("1GE6", ["2885,53"]);
  ("1GE7", ["3000,50"]);
  ("1GE8", ["62,62"; "62,62"]);
  ("1GE9", ["2900,100"]);
  ("1H1", ["2220,75"; "1550,97"]);
  ("1H4", ["1801,75,840,180,800,360"]);
  ("1H6", ["2580,40"; "2580,80"]);
  ("1H9", ["3600,100,,9,,189"]);
  ("1I1", ["2390,95"]);
  ("1I3", ["2160,150"]);
  ("1I6", ["50,50"]);
  ("1I8", ["1800,75"]);
  ("1I9", ["2891,60,670,,667"]);
  ("1IA2", ["100,100"]);
  ("1IA3", ["60,60"]);
  ("1IA4", ["1200,60"]);
  ("1IA5", ["60,60"]);
  ("1IA7", ["48,48"; "30,60"]);
  ("1ID2", ["30,30"]);
  ("1ID3", ["1800,45"]);
  ("1ID4", ["2940,50,,,,360"]);
  ("1ID5", ["40,40"]);
  ("1ID6", ["50,32"]);
  ("1ID7", ["2300,80"]);
  ("1ID8", ["30,30"]);
  ("1ID9", ["400,20"]);
  ("1II0", ["1700,100"]);
  ("1II2", ["2000,150"]);
  ("1II3", ["1600,150"]);
  ("1II4", ["1050,60"]);
  ("1II5", ["1900,60"]);
  ("1II6", ["50,50"]);
  ("1II7", ["50,40"]);
  ("1IL0", ["2650,70"]);
  ("1IL1", ["2100,102"]);
  ("1IL2", ["1320,70"]);
  ("1IL3", ["50,50"]);
  ("1IL4", ["2600,100"]);
  ("1IL6", ["1400,86"]);
  ("1IL7", ["50,50"]);
  ("1IL8", ["2540,100"]);
  ("1IL9", ["2200,70"; "3000,70"]);
  ("1IN0", ["1240,75"; "1900,100"]);
  ("1IN1", ["700,30"]);
  ("1IN2", ["16,16"]);
  ("1IN3", ["2000,70"]);
  ("1IN4", ["2000,30"]);
  ("1IN5", ["2200,100"]);
  ("1IN6", ["1200,66"; "1300,66"]);
  ("1IN7", ["8000,2500"]);
  ("1IS2", ["2375,70"]);
  ("1IS3", ["2280,80,,,,273.1"]);
  ("1IS4", ["2000,70"]);
  ("1IS5", ["1600,70"]);
  ("1IS7", ["36,36"]);
  ("1IS8", ["50,50"]);
  ("1J9", ["2100,65"]);
  ("1JY2", ["2600,100"]);
  ("1JY4", ["55,55"]);
  ("1JY5", ["35,35"]);
  ("1K1", ["4600,60,1364,176,1349,356"]);
  ("1K5", ["2507,50,1543,180,1543"]);
  ("1K6", ["2150,150"; "2550,100"]);
  ("1K8", ["4744,60,,,,359"]);
  ("1KC", ["4000,140"]);
  ("1KS1", ["2000,80"]);
  ("1KS2", ["1500,75"]);
  ("1KS3", ["1000,30"; "1100,30"]);
  ("1KS4", ["1900,55,,,,341"]);
  ("1KS5", ["1500,50"]);
  ("1KS6", ["2500,60"]);
  ("1KS7", ["3500,100"]);
  ("1KS8", ["2500,80"; "2500,80"]);
  ("1KS9", ["1500,40"]);
  ("1KY0", ["100,100"]);
  ("1KY1", ["31,31"]);
  ("1KY2", ["50,50"]);
  ("1KY3", ["50,40,,,,330"]);
  ("1KY4", ["75,75"]);
  ("1KY6", ["40,40"]);
  ("1KY7", ["2000,125"]);
  ("1KY8", ["40,40"]);
  ("1L4", ["4140,65,,,,321"]);
  ("1LA1", ["4000,100"]);
  ("1LA2", ["300,200,,,,341.5"]);
  ("1LA3", ["4000,150"]);
  ("1LA5", ["1900,70"]);
  ("1LA6", ["50,50"]);
  ("1LA7", ["37,30"]);
  ("1LA8", ["40,40"]);
  ("1LA9", ["50,50"; "50,50"; "24,24"; "24,24"; "24,24"; "24,24"; "24,24"; "24,24"]);
  ("1LL0", ["1370,70"]);
  ("1LL1", ["100,100"]);
  ("1LL2", ["2800,70,,,,351"]);
  ("1LL6", ["1650,100"]);
  ("1LL7", ["2000,100"]);
  ("1LL8", ["1961,110"]);
  ("1LL9", ["60,40"]);
  ("1LS0", ["4000,200,,174,,354"]);
  ("1LS1", ["50,50"]);
  ("1LS2", ["40,40"]);
  ("1LS5", ["2380,85"]);
  ("1LS8", ["2500,90"; "2500,90"]);
  ("1M3", ["2700,100"]);
  ("1M7", ["2700,60"]);
  ("1M8", ["2466,50,65,,73"]);
  ("1MA0", ["40,40"]);
  ("1MA1", ["40,40"]);
  ("1MA2", ["120,120"]);
  ("1MA4", ["132,132"]);
  ("1MA5", ["1500,30"]);
  ("1MA6", ["50,50"]);
  ("1MA7", ["80,60"]);
  ("1MA8", ["30,30,,,,224"]);
  ("1MA9", ["40,40,,,,269"]);
  ("1MD0", ["50,50"]);
  ("1MD1", ["1600,75"]);
  ("1MD3", ["1800,75"]);
  ("1MD4", ["67,67"; "40,40"]);
  ("1MD5", ["100,66"]);
  ("1MD6", ["4000,500"]);
  ("1MD7", ["35,35"]);
  ("1MD8", ["1900,100"]);
  ("1MD9", ["51,51"]);
  ("1ME", ["15000,1100"]);
  ("1ME1", ["70,70"]);
  ("1MI0", ["7500,500"]);
  ("1MI1", ["2000,70"]);
  ("1MI2", ["64,64"]);
  ("1MI3", ["3900,60"]);
  ("1MI5", ["2450,60"]);
  ("1MI7", ["1800,100"]);
  ("1MI8", ["1800,200"; "2600,200"]);
  ("1MI9", ["1150,120"]);
  ("1MN0", ["2600,80"]);
  ("1MN2", ["1650,75"]);
  ("1MN3", ["50,50"]);
  ("1MN5", ["2700,100"]);
  ("1MN6", ["50,50"]);
  ("1MN7", ["55,55"]);
  ("1MN8", ["2800,150"]);
  ("1MN9", ["45,45"]);
  ("1MO1", ["110,70"]);
  ("1MO3", ["3200,50,,154.5,,334.5"]);
  ("1MO4", ["2400,100"]);
  ("1MO6", ["5000,150"]);
  ("1MO7", ["1600,100"]);
  ("1MO8", ["2640,120"]);
  ("1MS0", ["1400,50"; "2300,50"]);
  ("1MS1", ["40,40"]);
  ("1MS2", ["2400,50"]);
  ("1MS3", ["35,35"]);
  ("1MS4", ["120,80"]);
  ("1MS6", ["3000,120"]);
  ("1MS7", ["23,23"]);
  ("1MS8", ["6300,150,,133"]);
  ("1MS9", ["2750,100"]);
  ("1MT0", ["4000,100"]);
  ("1MT1", ["40,40"]);
  ("1MT2", ["1000,60"]);
  ("1MT3", ["1800,100"]);
  ("1MT4", ["1320,20"]);
  ("1MT5", ["40,40"]);
  ("1MT6", ["1095,40"]);
  ("1MT7", ["3100,50"]);
  ("1MT8", ["45,45"]);
  ("1MT9", ["1900,40"; "800,40"]);
  ("1MU0", ["2636,60"]);
  ("1MU1", ["1480,200"]);
  ("1MU2", ["1400,60"]);
  ("1MU3", ["50,50"]);
  ("1MU4", ["2600,75"]);
  ("1MU7", ["1000,40"]);
  ("1MU8", ["2000,40"]);
  ("1MU9", ["100,100"]);
  ("1MY1", ["4500,60,,93.9"]);
  ("1N2", ["2400,25"]);
  ("1N3", ["3350,125"]);
  ("1N5", ["2270,95"; "3134,95"]);
  ("1NA5", ["2300,60"]);
  ("1NA8", ["2250,80"]);
  ("1NC0", ["2300,46"]);
  ("1NC1", ["1600,125"]);
  ("1NC2", ["1700,60"]);
  ("1NC3", ["2500,100"]);
  ("1NC4", ["3000,75"]);
  ("1NC5", ["2000,75"]);
  ("1NC6", ["2800,70"]);
  ("1NC8", ["2250,150"]);
  ("1NC9", ["1200,75"]);
  ("1ND4", ["1500,60"; "2500,150"]);
  ("1ND7", ["2000,66"]);
  ("1NE0", ["2000,100"; "2500,100"]);
  ("1NE1", ["2400,850"]);
  ("1NE2", ["2500,100"]);
  ("1NE5", ["1400,75"]);
  ("1NE6", ["1800,75"; "1900,75"]);
  ("1NJ0", ["40,40"]);
  ("1NJ1", ["85,85"]);
  ("1NJ2", ["75,75"]);
  ("1NJ4", ["100,100"]);
  ("1NJ5", ["125,125"]);
  ("1NJ6", ["100,100"]);
  ("1NJ7", ["20,20"]);
  ("1NJ9", ["30,30"]);
  ("1NK0", ["1735,100"]);
  ("1NK1", ["100,100"]);
  ("1NK2", ["80,40"]);
  ("1NK3", ["110,110"]);
  ("1NK4", ["50,25"]);
  ("1NK5", ["1200,30"]);
  ("1NK6", ["2400,70"]);
  ("1NK7", ["2800,100"]);
  ("1NK8", ["2000,145"; "1700,145"]);
  ("1NK9", ["100,100"]);
  ("1NM0", ["3700,50"]);
  ("1NV1", ["2650,35"]);
  ("1NV2", ["100,100"]);
  ("1NY0", ["100,66"]);
  ("1NY2", ["1800,50"]);
  ("1NY3", ["2200,150"]);
  ("1NY4", ["3000,100"]);
  ("1NY5", ["1570,40"]);
  ("1NY6", ["100,100"]);
  ("1NY7", ["2150,90"]);
  ("1NY8", ["2000,100"]);
  ("1NY9", ["1800,60"]);
  ("1O0", ["9000,1000"; "3200,1000"]);
  ("1O6", ["2700,60"]);
  ("1OA1", ["2237,58"]);
  ("1OA2", ["2140,80"]);
  ("1OA3", ["2845,120"]);
  ("1OA4", ["1400,50"]);
  ("1OA5", ["2400,100"]);
  ("1OA6", ["2970,150"]);
  ("1OA7", ["2950,135"]);
  ("1OA8", ["2500,80"]);
  ("1OH0", ["40,40"]);
  ("1OH1", ["2100,60"]);
  ("1OH2", ["3000,80"]);
  ("1OH3", ["3400,150"]);
  ("1OH4", ["2400,70"]);
  ("1OH5", ["50,50"]);
  ("1OH6", ["35,35"]);
  ("1OH7", ["1800,80"]);
  ("1OH8", ["1800,75"]);
  ("1OH9", ["3200,80"]);
  ("1OI0", ["25,25"]);
  ("1OI1", ["2550,150"]);
  ("1OI4", ["200,200"]);
  ("1OI6", ["1320,50"]);
  ("1OI7", ["2100,50"]);
  ("1OI9", ["2165,60"]);
  ("1OK0", ["1968,70"]);
  ("1OK2", ["2640,125"]);
  ("1OK3", ["2640,100,,164.3"]);
  ("1OK4", ["40,40"]);
  ("1OK5", ["2600,20"]);
  ("1OK6", ["1500,50"]);
  ("1OK7", ["2350,75"]);
  ("1OK8", ["2400,100"]);
  ("1OK9", ["1100,50"; "2200,150"]);
  ("1OL2", ["2375,60"]);
  ("1OR0", ["1800,100"]);
  ("1OR1", ["70,30"]);
  ("1OR2", ["80,80"]);
  ("1OR3", ["3050,200"]);
  ("1OR4", ["2000,200"]);
  ("1OR6", ["2100,125"]);
  ("1OR7", ["2500,66"]);
  ("1OR9", ["100,100"])].

(* ADRpy/data/runways.csv *)
Definition airports_2 : list (string * list string) := [
  ("1P1", ["2380,90"]);
  ("1PA0", ["2300,100"]);
  ("1PA1", ["60,60"]);
  ("1PA2", ["40,38"]);
  ("1PA3", ["1200,100"]);
  ("1PA4", ["1885,100"]);
  ("1PA5", ["1400,130,920,,922"]);
  ("1PA6", ["1600,100"]);
  ("1PA7", ["65,65"]);
  ("1PA8", ["40,40"]);
  ("1PA9", ["1350,110"]);
  ("1PN0", ["1200,100"]);
  ("1PN1", ["1500,150"]);
  ("1PN2", ["60,60"]);
  ("1PS0", ["2064,150"]);
  ("1PS1", ["60,60"]);
  ("1PS3", ["35,35"]);
  ("1PS4", ["2800,195"]);
  ("1PS5", ["61,51"]);
  ("1PS6", ["65,65"]);
  ("1PS7", ["70,35"]);
  ("1PS8", ["60,60"]);
  ("1PS9", ["1761,100"]);
  ("1Q1", ["2000,50,,,,218.7"]);
  ("1Q5", ["4050,200"]);
  ("1RL", ["2265,125"]);
  ("1S1", ["3650,175"]);
  ("1S2", ["2491,40,544,111,553,291"]);
  ("1S4", ["2435,38,,,,296.3"]);
  ("1S6", ["2950,48,,,,270"]);
  ("1S7", ["2600,165"]);
  ("1S8", ["5000,50"]);
  ("1SC2", ["2100,75"]);
  ("1SD0", ["2600,50"]);
  ("1SD1", ["2600,90"]);
  ("1SD3", ["5300,150"]);
  ("1SD4", ["2200,50,,,,240.6"]);
  ("1SD5", ["4300,90"]);
  ("1SD6", ["1800,200"]);
  ("1SD7", ["50,50"]);
  ("1SD8", ["2200,25"]);
  ("1SD9", ["67,52"]);
  ("1T8", ["2890,40,,,,329"]);
  ("1T9", ["2800,125"]);
  ("1TA0", ["70,70"]);
  ("1TA1", ["35,35"]);
  ("1TA2", ["3000,100"]);
  ("1TA3", ["40,40"]);
  ("1TA4", ["2300,50"]);
  ("1TA5", ["3600,25"]);
  ("1TA6", ["10,10"]);
  ("1TA7", ["2600,40"]);
  ("1TA9", ["20,20"]);
  ("1TE0", ["4000,20"]);
  ("1TE1", ["4000,50,650,136.2,,240.3"]);
  ("1TE2", ["2300,150"]);
  ("1TE3", ["1960,30"]);
  ("1TE4", ["3000,200"]);
  ("1TE5", ["2500,35"]);
  ("1TE6", ["2600,60"]);
  ("1TE7", ["2200,70"]);
  ("1TE8", ["1100,200"; "2500,300"]);
  ("1TE9", ["1800,150"]);
  ("1TN0", ["2600,75"]);
  ("1TN2", ["3000,60"]);
  ("1TN3", ["1900,50"]);
  ("1TN4", ["50,50"]);
  ("1TN5", ["40,40"]);
  ("1TN7", ["20,20"]);
  ("1TN9", ["100,100"]);
  ("1TS0", ["2300,60"]);
  ("1TS1", ["2000,40"]);
  ("1TS2", ["2500,100"]);
  ("1TS3", ["450,30"; "425,30"; "475,30"]);
  ("1TS4", ["100,100"]);
  ("1TS5", ["40,40"]);
  ("1TS6", ["4000,50"]);
  ("1TS7", ["30,30"]);
  ("1TS8", ["2000,75"]);
  ("1TS9", ["2700,125"]);
  ("1TX0", ["1475,25,,,,345"]);
  ("1TX2", ["2600,50"; "1600,50"]);
  ("1TX3", ["4000,50"]);
  ("1TX4", ["2400,50"]);
  ("1TX5", ["3400,80"]);
  ("1TX6", ["3000,40,,75.7,,349"; "1900,100,,125.7,,268"]);
  ("1TX7", ["2300,50"]);
  ("1TX8", ["2800,50"]);
  ("1TX9", ["2600,60"]);
  ("1U0", ["2250,120"]);
  ("1U1", ["4100,250"; "2300,200"]);
  ("1U3", ["2500,45"]);
  ("1U4", ["2400,150"]);
  ("1U6", ["3800,40"]);
  ("1U9", ["2300,125"]);
  ("1UT9", ["52,51"]);
  ("1VA0", ["1800,100"]);
  ("1VA1", ["5000,100,2964,,2902"]);
  ("1VA2", ["40,40"]);
  ("1VA3", ["1750,100"]);
  ("1VA4", ["42,42"]);
  ("1VA5", ["1400,50"; "6000,50"]);
  ("1VA7", ["1800,110"]);
  ("1VA8", ["3000,60,,127.2,,284"]);
  ("1VA9", ["2000,40"]);
  ("1VG2", ["2800,50"]);
  ("1W1", ["2710,40,410,,429"]);
  ("1W3", ["2120,190"; "2100,195"]);
  ("1W5", ["2000,60"]);
  ("1WA0", ["45,45,,,,357.4"]);
  ("1WA1", ["30,30"]);
  ("1WA2", ["2200,85"; "1800,85"]);
  ("1WA3", ["200,130"]);
  ("1WA4", ["50,50"]);
  ("1WA5", ["40,40"]);
  ("1WA6", ["3000,25,,88,,268"]);
  ("1WA7", ["450,450"]);
  ("1WA8", ["40,40"]);
  ("1WA9", ["2100,60,,,,327.7"]);
  ("1WF", ["2428,100"]);
  ("1WI0", ["1700,75"]);
  ("1WI1", ["2000,150"]);
  ("1WI2", ["1898,120"]);
  ("1WI3", ["1800,100,,,,314"]);
  ("1WI4", ["100,80"]);
  ("1WI5", ["10000,1000"; "5000,1000"; "5000,1000"]);
  ("1WI6", ["3000,115,,,,276"]);
  ("1WI7", ["1800,60"]);
  ("1WI8", ["2600,100,,176.9"]);
  ("1WI9", ["1950,80"]);
  ("1WN0", ["2200,40"]);
  ("1WN1", ["2600,100"]);
  ("1WN2", ["2676,105"; "1950,100"; "2500,110"]);
  ("1WN3", ["1600,50,,30.7"; "2000,60,,124"]);
  ("1WN5", ["1000,85"]);
  ("1WT6", ["40,40"]);
  ("1XA0", ["1600,50"]);
  ("1XA1", ["2000,80"]);
  ("1XA2", ["8000,200"; "8000,200"; "8000,200"]);
  ("1XA3", ["54,54"]);
  ("1XA4", ["1970,60"]);
  ("1XA5", ["2500,100"]);
  ("1XA6", ["2483,125"]);
  ("1XA7", ["2400,150"; "2200,100"]);
  ("1XA8", ["2060,150"]);
  ("1XA9", ["60,60"]);
  ("1XS0", ["3600,40"]);
  ("1XS1", ["2800,100"]);
  ("1XS2", ["2400,100"; "2400,100"]);
  ("1XS3", ["50,50"]);
  ("1XS5", ["95,95"]);
  ("1XS6", ["48,48"]);
  ("1XS7", ["2500,30"]);
  ("1XS8", ["4500,50,,160"]);
  ("1XS9", ["4000,100"]);
  ("1Y3", ["2600,40,,,,216"]);
  ("1Y5", ["2300,105"; "2900,75,1173,,1167"]);
  ("1Y9", ["2800,28,,181,,1"]);
  ("1Z1", ["4600,40"]);
  ("1Z9", ["8000,4000"]);
  ("20AK", ["1300,75,,,,289"]);
  ("20AL", ["1600,75"; "1600,75"; "1600,75"]);
  ("20AR", ["2000,55,,73.8,,252"]);
  ("20AZ", ["4700,110"]);
  ("20CA", ["150,125"]);
  ("20CL", ["3500,30"]);
  ("20CO", ["40,32"]);
  ("20CT", ["25,25"; "25,25"]);
  ("20E", ["100,100"]);
  ("20FD", ["3070,100,,,,268"]);
  ("20FL", ["3800,150"]);
  ("20GA", ["4500,50,1064,97,1094,277"]);
  ("20ID", ["1200,60"]);
  ("20II", ["1800,75"]);
  ("20IL", ["54,46"]);
  ("20IN", ["2500,60"]);
  ("20IS", ["2000,75"]);
  ("20K", ["1650,30"]);
  ("20KS", ["2340,50"]);
  ("20KY", ["1800,100"]);
  ("20LA", ["40,40"]);
  ("20MA", ["42,42"]);
  ("20ME", ["22,22,,,,26"]);
  ("20MI", ["90,60"]);
  ("20MO", ["3000,60"]);
  ("20NC", ["2000,50"]);
  ("20NE", ["40,40"]);
  ("20NJ", ["45,45,,,,336"; "45,45"]);
  ("20NY", ["1960,82"]);
  ("20OH", ["2240,50,,,,358"]);
  ("20OI", ["45,45"]);
  ("20OR", ["2640,150"]);
  ("20PA", ["360,120"]);
  ("20PN", ["60,60"]);
  ("20TA", ["2300,50,,,,307.1"]);
  ("20TE", ["2200,100"]);
  ("20TS", ["1900,50"]);
  ("20TX", ["60,50"]);
  ("20VA", ["2600,150"]);
  ("20VG", ["2100,60"]);
  ("20WA", ["1800,100"]);
  ("20WI", ["1800,40"]);
  ("20XS", ["1800,80"]);
  ("21AK", ["2300,50"]);
  ("21AL", ["2000,50"; "2000,100"; "2000,100"; "2000,50"]);
  ("21AR", ["2500,100"]);
  ("21AZ", ["4000,50,6026,133.1,6066"]);
  ("21CA", ["75,75,40"]);
  ("21CL", ["100,95"]);
  ("21FA", ["2010,45"]);
  ("21FD", ["2260,70"]);
  ("21FL", ["2305,200"; "1828,200"]);
  ("21GA", ["46,46"]);
  ("21GE", ["1600,120"]);
  ("21H", ["5000,2500"]);
  ("21II", ["30,30"]);
  ("21IL", ["50,50"]);
  ("21IN", ["2283,75"]);
  ("21JY", ["4000,250"]);
  ("21KS", ["60,60"]);
  ("21KY", ["1700,60"]);
  ("21LA", ["1850,100"]);
  ("21LS", ["2500,200"]);
  ("21M", ["10000,3000"]);
  ("21MA", ["100,100,,,,314"]);
  ("21MI", ["500,500"]);
  ("21MN", ["10560,2000"; "6580,1500"]);
  ("21MO", ["2000,60"]);
  ("21MU", ["2800,60,1000,,1000"]);
  ("21N", ["2200,60"]);
  ("21NC", ["50,50"]);
  ("21ND", ["2500,40"]);
  ("21NH", ["1450,80"]);
  ("21NJ", ["200,150"]);
  ("21NK", ["2112,250"]);
  ("21NY", ["50,50"]);
  ("21OG", ["1800,40"]);
  ("21OH", ["32,20"]);
  ("21OI", ["2650,30"; "1860,50"; "100,100"]);
  ("21OK", ["38,30"]);
  ("21OR", ["46,46"]);
  ("21PA", ["100,100"]);
  ("21PN", ["40,40"]);
  ("21SC", ["2200,70"]);
  ("21TA", ["45,45"]);
  ("21TE", ["2600,90"]);
  ("21TN", ["1500,60"]);
  ("21TS", ["40,40"]);
  ("21TX", ["2800,75"]);
  ("21VA", ["1800,60"]);
  ("21W", ["2875,30"]);
  ("21WA", ["46,46"]);
  ("21WI", ["86,56"]);
  ("21XS", ["2500,24"]);
  ("22AK", ["2500,50"]);
  ("22AL", ["1600,75"; "1600,75"; "1600,75,,,,270"; "1600,75,,,,358"; "1600,75"; "1600,75,,,,303"; "1600,75"]);
  ("22AR", ["40,40"]);
  ("22AZ", ["86,86"]);
  ("22CA", ["10000,2400"]);
  ("22CD", ["65,65"]);
  ("22CL", ["1600,20"]);
  ("22CN", ["65,65,422"]);
  ("22CO", ["2800,50"]);
  ("22D", ["2260,100"]);
  ("22FA", ["2525,50"]);
  ("22FD", ["20,20"]);
  ("22FL", ["1900,70"]);
  ("22GA", ["2340,60"]);
  ("22GE", ["100,100,,,,320"]);
  ("22ID", ["1600,75"]);
  ("22II", ["2250,100"]);
  ("22IL", ["1900,100"]);
  ("22IN", ["1800,100"]);
  ("22JY", ["30,30"]);
  ("22KS", ["83,83"]);
  ("22KY", ["250,125"]);
  ("22LA", ["3100,100"]);
  ("22LS", ["2700,100"]);
  ("22MA", ["30,50"]);
  ("22MD", ["1180,40"]);
  ("22MI", ["100,100"]);
  ("22MN", ["10000,5000"]);
  ("22MS", ["3000,75"]);
  ("22MT", ["2650,80"]);
  ("22NA", ["40,40,,,,278.2"]);
  ("22NC", ["2500,100"]);
  ("22NJ", ["100,100"]);
  ("22NK", ["100,100"]);
  ("22NR", ["850,50"]);
  ("22NY", ["50,50"]);
  ("22OG", ["1300,30"; "100,100"]);
  ("22OH", ["250,100"]);
  ("22OI", ["2500,140"]);
  ("22OK", ["2000,40"]);
  ("22OR", ["2000,50"]);
  ("22PA", ["65,65"]);
  ("22PN", ["50,50"]);
  ("22PS", ["50,50"]);
  ("22SC", ["35,35"]);
  ("22TA", ["4600,50"]);
  ("22TE", ["2300,95"]);
  ("22TN", ["60,35"]);
  ("22TS", ["33,33"]);
  ("22TX", ["40,40,,,,297"]);
  ("22VA", ["70,70"]);
  ("22VG", ["600,100"]);
  ("22WA", ["2200,50"]);
  ("22WI", ["75,75,,,,5"]);
  ("22WN", ["1800,75"]);
  ("22WV", ["30,30"]);
  ("22WY", ["2100,30"]);
  ("22XA", ["310,170"]);
  ("22XS", ["3488,75,720,153.5,720,205"]);
  ("22Y", ["2720,150,1225,101,1225,281"]);
  ("23AK", ["1100,60"]);
  ("23AL", ["1600,75"; "1600,75"; "1600,75,,,,302"; "1600,75,,,,0.4"]);
  ("23AR", ["2600,80"]);
  ("23AZ", ["2000,75"; "4900,140,2455"; "2600,72"]);
  ("23CA", ["2800,60"]);
  ("23CD", ["3200,60"]);
  ("23CL", ["50,50"]);
  ("23CN", ["1800,100"; "1400,100"]);
  ("23CO", ["4000,40"]);
  ("23CT", ["8,8"]);
  ("23D", ["2606,159,1025,,1024"]);
  ("23DE", ["3000,50,,,,265"]);
  ("23FA", ["50,40"; "40,50"]);
  ("23FD", ["5000,75"]);
  ("23FL", ["2188,100"]);
  ("23GA", ["100,100"]);
  ("23GE", ["2000,90"]);
  ("23IA", ["40,40"]);
  ("23IL", ["40,40"; "40,40"]);
  ("23IN", ["50,50"]);
  ("23IS", ["1600,70"]);
  ("23JY", ["40,40"]);
  ("23KY", ["2600,75"]);
  ("23LA", ["2400,50"]);
  ("23LL", ["45,45"]);
  ("23LS", ["100,100"]);
  ("23MA", ["100,60"]);
  ("23MD", ["3000,100"]);
  ("23MI", ["1500,75,,,,230.8"]);
  ("23MN", ["1500,100"]);
  ("23MT", ["1725,150"]);
  ("23N", ["2740,150"]);
  ("23NC", ["40,40"]);
  ("23ND", ["4000,60,,80,,260"]);
  ("23NE", ["2210,21"]);
  ("23NH", ["1800,40"]);
  ("23NJ", ["860,130"]);
  ("23NK", ["2000,75"]);
  ("23NR", ["3300,23"]);
  ("23NY", ["1900,100"; "1500,75"]);
  ("23OA", ["1446,75"]);
  ("23OH", ["20,20"]);
  ("23OI", ["30,30"]);
  ("23OK", ["40,40"]);
  ("23OR", ["100,100"]);
  ("23PA", ["1800,100"]);
  ("23PN", ["60,60"]);
  ("23S", ["4575,75"]);
  ("23TA", ["2000,150"]);
  ("23TE", ["40,40"]);
  ("23TS", ["3300,50"]);
  ("23TX", ["3200,30"]);
  ("23VA", ["1800,25"]);
  ("23VG", ["1500,60"]);
  ("23VT", ["2270,70"]);
  ("23WA", ["120,120"]);
  ("23WI", ["45,45"]);
  ("23WN", ["2300,150"]);
  ("23WV", ["1600,250"]);
  ("23WY", ["40,40,,,,358.4"]);
  ("23XA", ["30,30"]);
  ("23XS", ["2200,50,720,152,720"]);
  ("23Y", ["3415,150,1080,,1080"]);
  ("24AK", ["1300,200"]);
  ("24AL", ["1600,75"; "1600,75"; "1600,75"; "1600,75"; "1600,75"]);
  ("24AR", ["2500,20,,185.8"]);
  ("24AZ", ["3950,35"]);
  ("24C", ["2700,100,681,,681,320"; "2394,48,681,,681"; "1940,100,681,,681"]);
  ("24CA", ["50,50"]);
  ("24CD", ["36,36,,,,294"]);
  ("24CL", ["7000,80,205,157.1,202"]);
  ("24CN", ["126,120"]);
  ("24CO", ["50,50"]);
  ("24CT", ["1700,50,,,,265"]);
  ("24FA", ["15000,4000"; "15000,4000"]);
  ("24FD", ["100,100"]);
  ("24FL", ["3150,50"]);
  ("24GA", ["25,25"]);
  ("24IA", ["2600,190,970,,982"]);
  ("24II", ["50,50,,,,306"]);
  ("24K", ["1500,150"]);
  ("24KY", ["2200,80"]);
  ("24LA", ["400,200"]);
  ("24LL", ["1800,70"]);
  ("24LS", ["65,35"]);
  ("24M", ["2543,100"]);
  ("24MA", ["100,100"]);
  ("24MD", ["112,62"]);
  ("24ME", ["1700,100"]);
  ("24MN", ["2500,75"]);
  ("24MO", ["2800,36"]);
  ("24MT", ["2600,50"]);
  ("24MU", ["1500,50"]);
  ("24NC", ["2500,60"]);
  ("24NE", ["1500,50"; "2300,20"]);
  ("24NH", ["20,20"]);
  ("24NK", ["50,50"]);
  ("24NY", ["2500,100"]);
  ("24OH", ["1600,160"]);
  ("24OI", ["2000,75"]);
  ("24OK", ["40,40"]);
  ("24OR", ["75,75"]);
  ("24PA", ["1515,110"]);
  ("24PN", ["45,45"; "45,45"]);
  ("24S", ["2800,30"]);
  ("24SC", ["2600,180"]);
  ("24TA", ["2500,70"]);
  ("24TE", ["65,50"]);
  ("24TS", ["30,30"]);
  ("24TX", ["4200,100"]);
  ("24VA", ["2000,75"]);
  ("24WA", ["40,40"]);
  ("24WI", ["1800,40"]);
  ("24XA", ["2000,100"]);
  ("24XS", ["25,25"]);
  ("25A", ["2650,30"]);
  ("25AK", ["2000,30"; "1200,30"]);
  ("25AL", ["1600,75"; "1600,75"; "1600,75"; "1600,75"; "1600,75"; "1600,75"; "1600,75"]);
  ("25AR", ["2550,75,,8.3,,188.3"]);
  ("25AZ", ["2640,80"]);
  ("25CA", ["2300,40"]);
  ("25CD", ["1750,100,,,,267"; "2863,100"; "1717,100"; "2634,100"]);
  ("25CL", ["2900,50"]);
  ("25CN", ["45,45,,,,270"]);
  ("25CO", ["4225,40"]);
  ("25FA", ["50,50"]);
  ("25FD", ["40,40"]);
  ("25FL", ["3000,100"]);
  ("25GA", ["2000,75"]);
  ("25GE", ["100,100"]);
  ("25II", ["80,80"]);
  ("25IL", ["2640,100"]);
  ("25IN", ["2635,120"]);
  ("25IS", ["50,50"]);
  ("25JY", ["25,25"]);
  ("25KS", ["2240,50"]);
  ("25KY", ["50,50"]);
  ("25LA", ["300,150"]);
  ("25LS", ["50,50"]);
  ("25MA", ["300,100"]);
  ("25MD", ["2000,85"]);
  ("25MI", ["2400,80"]);
  ("25MN", ["6200,570"]);
  ("25MO", ["1900,40"]);
  ("25MS", ["60,60"]);
  ("25MT", ["500,30"; "800,30"; "750,30"]);
  ("25NC", ["3100,60,,173"]);
  ("25NE", ["2640,100"; "1600,50"]);
  ("25NH", ["40,40,,,,8"]);
  ("25NK", ["2700,100"]);
  ("25NM", ["4000,80"]);
  ("25NR", ["30,30"]);
  ("25NY", ["30,30"]);
  ("25OH", ["2400,50"]);
  ("25OI", ["2000,75"]);
  ("25OR", ["50,50"]);
  ("25PA", ["65,65"]);
  ("25PN", ["70,70"]);
  ("25SC", ["1950,60,,,,326"]);
  ("25TA", ["3600,75,,90"]);
  ("25TE", ["1975,80"]);
  ("25TN", ["45,45"]);
  ("25TS", ["6500,75,3961,180"]);
  ("25TX", ["3000,100"]);
  ("25U", ["3300,120"]);
  ("25VA", ["2700,100"]);
  ("25WA", ["2600,50"]);
  ("25WI", ["30,30"]);
  ("25WN", ["2640,100,,,,242.9"]);
  ("25XA", ["4400,70"]);
  ("25XS", ["2035,24"]);
  ("25Y", ["2500,196,1401,,1390"]);
  ("26AL", ["2700,200"]);
  ("26AR", ["3009,60,,105.5"]);
  ("26AZ", ["2000,50"]);
  ("26CA", ["2200,50"]);
  ("26CL", ["300,300,875"]);
  ("26CN", ["20,20"]);
  ("26CO", ["100,100"]);
  ("26FA", ["40,40,,,,267.1"]);
  ("26FD", ["2029,100"]);
  ("26FL", ["40,40"]);
  ("26GA", ["1200,30"]);
  ("26ID", ["2100,100"]);
  ("26IL", ["2200,150"]);
  ("26IN", ["2600,70"]);
  ("26IS", ["2300,70"]);
  ("26JY", ["80,80,,,,305"]);
  ("26KS", ["20,16"]);
  ("26KY", ["50,50"]);
  ("26LL", ["1900,100"]);
  ("26LS", ["500,200"]);
  ("26MA", ["2820,25"]);
  ("26MI", ["2700,65"]);
  ("26MN", ["2600,60"]);
  ("26MO", ["1500,90"]);
  ("26MT", ["1980,40"; "3400,40"]);
  ("26N", ["2973,60,5,47,4,227"]);
  ("26NC", ["1500,50"]);
  ("26ND", ["2000,60"]);
  ("26NH", ["40,40"]);
  ("26NJ", ["45,45"]);
  ("26NK", ["50,50"]);
  ("26NV", ["2600,25"]);
  ("26NY", ["30,30"]);
  ("26OG", ["1275,35"]);
  ("26OH", ["1620,100"]);
  ("26OR", ["900,60"]);
  ("26PA", ["70,70"]);
  ("26PN", ["40,40"]);
  ("26SD", ["20,20"]);
  ("26TA", ["50,50"]);
  ("26TE", ["80,80"]);
  ("26TS", ["40,40"]);
  ("26TX", ["1600,50"; "2160,50"]);
  ("26VA", ["50,50"]);
  ("26W", ["2155,100"]);
  ("26WA", ["75,75"]);
  ("26WI", ["3000,200"]);
  ("26XA", ["40,40"]);
  ("26XS", ["2000,150"]);
  ("27AK", ["75,75"]);
  ("27AL", ["2000,60"]);
  ("27AR", ["60,60"]);
  ("27AZ", ["3906,40,2180,184.9,2200"]);
  ("27C", ["2010,100,1022,,1022"; "2027,100,1022,,1022"]);
  ("27CA", ["2600,80"; "2900,80"]);
  ("27CL", ["2000,60"]);
  ("27CN", ["20,20"]);
  ("27CO", ["1800,40"]);
  ("27FA", ["80,56"]);
  ("27FD", ["100,100"]);
  ("27GA", ["1250,40"]);
  ("27IA", ["1800,60,750,90,735,270"]);
  ("27II", ["80,80"]);
  ("27IL", ["40,40"]);
  ("27IN", ["100,100"]);
  ("27IS", ["1800,70"]);
  ("27JY", ["50,50,,,,272"]);
  ("27KS", ["3000,150"]);
  ("27KY", ["100,100,,,,271.9"]);
  ("27LA", ["40,40"]);
  ("27LL", ["1950,85"; "2350,85"]);
  ("27LS", ["50,50"]);
  ("27MA", ["3500,75"]);
  ("27MI", ["2000,100"]);
  ("27MN", ["2506,83"]);
  ("27MO", ["2500,100"]);
  ("27MT", ["1000,100"]);
  ("27NC", ["90,90"]);
  ("27NE", ["2600,100"]);
  ("27NH", ["100,100,,,,313"]);
  ("27NJ", ["300,300"]);
  ("27NK", ["2500,30"]);
  ("27NY", ["80,80"]);
  ("27OH", ["2580,70"]);
  ("27OI", ["1836,65"; "2800,75"]);
  ("27OK", ["2440,150"]);
  ("27OR", ["70,70"]);
  ("27SC", ["40,40"]);
  ("27SD", ["35,35"]);
  ("27TA", ["400,400"]);
  ("27TE", ["40,40"]);
  ("27TN", ["74,62"]);
  ("27TS", ["50,30"]);
  ("27TX", ["50,50"]);
  ("27VA", ["55,55"]);
  ("27W", ["2473,100,1936,109,,289"]);
  ("27WA", ["1200,30"]);
  ("27XA", ["1578,60"]);
  ("27XS", ["4100,150"]);
  ("28A", ["2350,35"]);
  ("28AK", ["2175,50"]);
  ("28AL", ["2600,60"]);
  ("28AR", ["3100,75"]);
  ("28AZ", ["3500,75"]);
  ("28CA", ["2210,60"]);
  ("28CL", ["60,60"]);
  ("28CN", ["40,40"]);
  ("28CO", ["30,30"; "30,30"]);
  ("28FA", ["50,50"]);
  ("28FD", ["50,50"]);
  ("28FL", ["2400,100"]);
  ("28GA", ["20,20"]);
  ("28II", ["4000,40"]);
  ("28IL", ["2500,70"]);
  ("28IN", ["2300,75"]);
  ("28IS", ["2000,80"]);
  ("28KS", ["1400,75"; "2200,75"]);
  ("28KY", ["2100,70"]);
  ("28LA", ["40,40"]);
  ("28LL", ["1900,70"]);
  ("28LS", ["34,34"]);
  ("28M", ["1860,60,70,,70"]);
  ("28MA", ["1600,50"]);
  ("28MI", ["2600,60"]);
  ("28MN", ["7000,2000"]);
  ("28MO", ["3250,100"]);
  ("28MT", ["3200,40"]);
  ("28N", ["2251,100"; "1800,100"]);
  ("28NC", ["1000,1000"]);
  ("28NH", ["40,40"]);
  ("28NK", ["2000,100"]);
  ("28NR", ["1450,75"]);
  ("28NY", ["2100,100"]);
  ("28OH", ["2600,75"]);
  ("28OI", ["50,50"]);
  ("28OK", ["2300,125"]);
  ("28OR", ["1000,60"]);
  ("28PA", ["1800,100"]);
  ("28PN", ["45,45"]);
  ("28TA", ["10280,34,,140"]);
  ("28TE", ["2600,200"]);
  ("28TN", ["40,40"]);
  ("28TX", ["2000,20"]);
  ("28U", ["1840,30"]);
  ("28VA", ["300,300"]);
  ("28WA", ["1400,50"]);
  ("28WI", ["3000,60"]);
  ("28XA", ["40,40"]);
  ("28XS", ["1400,30"]);
  ("29A", ["4000,200"]);
  ("29AK", ["1800,75"]);
  ("29AR", ["40,40"]);
  ("29AZ", ["5500,60,737,45.5,732,340"; "3000,150,,191.4"]);
  ("29C", ["1800,85"]);
  ("29CA", ["100,65"]);
  ("29CL", ["50,50,500"]);
  ("29CN", ["1300,60"]);
  ("29CO", ["30,25"]);
  ("29F", ["3900,60"]);
  ("29FA", ["4000,200"]);
  ("29FD", ["60,60"]);
  ("29FL", ["50,50"]);
  ("29GA", ["1800,140"]);
  ("29IL", ["100,100"]);
  ("29IN", ["1950,75"]);
  ("29IS", ["50,50"]);
  ("29KS", ["2600,80"]);
  ("29KY", ["1700,25"]);
  ("29LA", ["48,48"]);
  ("29LL", ["40,40"]);
  ("29LS", ["4000,250"; "4000,250"]);
  ("29MA", ["45,45"]);
  ("29MD", ["2200,75"]);
  ("29ME", ["5000,200,,,,291"]);
  ("29MI", ["2100,150"]);
  ("29MN", ["3000,60"]);
  ("29MO", ["1200,60"]);
  ("29MT", ["3500,40"]);
  ("29N", ["2086,190,,96,,276"]);
  ("29NC", ["1843,50"]);
  ("29NE", ["2400,60"]);
  ("29NJ", ["100,100"]);
  ("29NY", ["50,50"]);
  ("29OH", ["1450,75"]);
  ("29OI", ["30,30"]);
  ("29OK", ["4000,40,,175.4"]);
  ("29OR", ["2500,70"]);
  ("29PN", ["65,65"]);
  ("29RI", ["30,30"]);
  ("29SC", ["1800,70"]);
  ("29TA", ["2700,40"]);
  ("29TE", ["20,20"]);
  ("29TN", ["50,50,,,,240"]);
  ("29TS", ["50,50"]);
  ("29TX", ["3000,30,,150"]);
  ("29VA", ["2500,120"]);
  ("29VT", ["10000,2000"; "10000,2000"]);
  ("29WA", ["45,45"]);
  ("29WI", ["2100,100"]);
  ("29XA", ["40,40,,,,202"]);
  ("29XS", ["118,103"]);
  ("2A4", ["4100,200"]);
  ("2A7", ["40,40"]);
  ("2A8", ["2631,112"]);
  ("2AK", ["1500,55"]);
  ("2AK0", ["1400,60"]);
  ("2AK1", ["1530,50"]);
  ("2AK2", ["3988,190"]);
  ("2AK3", ["50,50,48"]);
  ("2AK4", ["1200,70"]);
  ("2AK5", ["1700,60,15,,,251"]);
  ("2AK6", ["5500,125"]);
  ("2AK7", ["1000,25"]);
  ("2AK8", ["3200,75"]);
  ("2AK9", ["1800,60"]);
  ("2AL1", ["2900,100"]);
  ("2AL2", ["50,50"]);
  ("2AL3", ["2750,80,,,,309"]);
  ("2AL4", ["90,50"]);
  ("2AL5", ["1925,100"]);
  ("2AL6", ["2100,150"]);
  ("2AL7", ["2600,90"]);
  ("2AL8", ["2400,100"]);
  ("2AN2", ["42,42"]);
  ("2AR0", ["2505,150"]);
  ("2AR1", ["850,55"]);
  ("2AR2", ["2600,60"]);
  ("2AR3", ["40,40"]);
  ("2AR4", ["2600,100"]);
  ("2AR5", ["1100,50"]);
  ("2AR6", ["1980,150"]);
  ("2AR7", ["800,60"; "1000,60"; "1000,60"]);
  ("2AR9", ["40,40"]);
  ("2AZ0", ["197,110"]);
  ("2AZ1", ["2200,40"]);
  ("2AZ2", ["100,100,,,,342"]);
  ("2AZ4", ["2300,75"]);
  ("2AZ5", ["1650,70"]);
  ("2AZ6", ["20,20"]);
  ("2AZ8", ["500,50"; "900,50"]);
  ("2AZ9", ["5480,100,,,,207.4"; "4480,100"]);
  ("2B1", ["2035,50,91,,94"; "2700,60,98,,95"; "2060,60,103,,89"]);
  ("2B2", ["2105,50"; "2300,100"]);
  ("2B6", ["3203,80,,,,319.6"; "2670,80,,,,186"]);
  ("2B9", ["2900,80"; "2300,80"]);
  ("2C4", ["3000,150"]);
  ("2C5", ["3300,100,740,,740"]);
  ("2C6", ["2809,150,658,19,654,199"]);
  ("2CA0", ["230,100"]);
  ("2CA1", ["40,40"]);
  ("2CA2", ["1400,100"; "1050,450"; "1300,100"]);
  ("2CA3", ["2600,200"; "1400,200"]);
  ("2CA4", ["2200,50"]);
  ("2CA5", ["44,44"]);
  ("2CA6", ["50,50"]);
  ("2CA7", ["60,60"]);
  ("2CA8", ["2600,55"; "2400,55"]);
  ("2CA9", ["3000,65"]);
  ("2CD2", ["45,45,,,,210"; "42,42"]);
  ("2CD3", ["2785,65,,,,4"; "3980,65"]);
  ("2CD4", ["1400,60"]);
  ("2CD5", ["86,86"]);
  ("2CD6", ["500,30"]);
  ("2CD7", ["25,25"]);
  ("2CD8", ["55,55"]);
  ("2CD9", ["2200,50,,,,357"; "1900,50"]);
  ("2CL0", ["65,65"]);
  ("2CL1", ["30,30"]);
  ("2CL2", ["1500,36"]);
  ("2CL3", ["5000,60"]);
  ("2CL4", ["45,45"]);
  ("2CL5", ["37,37"]);
  ("2CL6", ["60,60"]);
  ("2CL7", ["50,50,,,,224"]);
  ("2CL8", ["75,75"]);
  ("2CL9", ["4000,40,,85.6"]);
  ("2CN2", ["25,25"]);
  ("2CN3", ["1400,60,,,,238"]);
  ("2CN4", ["5002,60,,176.2,,268.8"]);
  ("2CN6", ["104,104,,,,5"]);
  ("2CN7", ["48,48,,,,341"]);
  ("2CN8", ["3170,75,,,,235"]);
  ("2CO0", ["150,100"]);
  ("2CO1", ["3100,30,,,,270"]);
  ("2CO3", ["2500,60"]);
  ("2CO4", ["40,40"]);
  ("2CO5", ["3800,50"]);
  ("2CO6", ["75,75"]);
  ("2CO7", ["60,60"]);
  ("2CO8", ["50,50"]);
  ("2CO9", ["20,20"]);
  ("2D1", ["2088,130,1056,,1067"; "3500,80"]);
  ("2D3", ["3000,20"]);
  ("2D6", ["20,20"]);
  ("2D7", ["3175,115,984,92,972,272"]);
  ("2DE2", ["2400,75"]);
  ("2E2", ["2700,90,,,,311.7"]);
  ("2E6", ["2070,140"]);
  ("2E8", ["2113,100,,49,,229"]);
  ("2F2", ["47,17"]);
  ("2F6", ["2900,60,670,180,670"; "2600,40,670,180,670,0"]);
  ("2FA0", ["50,50"]);
  ("2FA2", ["4000,65"]);
  ("2FA3", ["150,150"]);
  ("2FA4", ["4000,50"]);
  ("2FA5", ["2870,80"]);
  ("2FA6", ["4100,100"]);
  ("2FA8", ["40,40"]);
  ("2FA9", ["800,50"]);
  ("2FD0", ["3335,50"]);
  ("2FD1", ["1600,100"]);
  ("2FD2", ["2400,100"]);
  ("2FD3", ["28,28"; "28,32"]);
  ("2FD4", ["30,30"]);
  ("2FD5", ["35,35"]);
  ("2FD6", ["1800,100"]);
  ("2FD7", ["32,32"; "28,28"; "28,28"]);
  ("2FD9", ["112,92"]);
  ("2FL0", ["3500,75"]);
  ("2FL1", ["42,42"]);
  ("2FL2", ["100,65"]);
  ("2FL3", ["2500,100"]);
  ("2FL4", ["20,20"]);
  ("2FL5", ["68,36"]);
  ("2FL7", ["330,150"]);
  ("2FL8", ["3150,120"]);
  ("2FL9", ["30,30"]);
  ("2G6", ["2500,150"]);
  ("2G8", ["2667,70"]);
  ("2GA0", ["3900,75"]);
  ("2GA1", ["1400,80"; "2000,200"]);
  ("2GA2", ["3000,50"]);
  ("2GA3", ["2000,75"]);
  ("2GA5", ["3200,80"]);
  ("2GA6", ["1000,30"]);
  ("2GA8", ["1600,100"]);
  ("2GA9", ["2800,100"]);
  ("2GE1", ["30,30"]);
  ("2GE2", ["40,40"]);
  ("2GE3", ["2500,100"]);
  ("2GE5", ["600,300"]);
  ("2GE6", ["500,100"]);
  ("2GE7", ["2500,50"]);
  ("2GE8", ["1500,75"]);
  ("2H3", ["2420,45"]);
  ("2H4", ["2400,100,785,,785"; "2600,100,785,,785"]);
  ("2H5", ["4400,100,,169,,349"]);
  ("2H8", ["2861,80"]);
  ("2I2", ["2500,50"]);
  ("2IA0", ["100,100"]);
  ("2IA1", ["60,60"]);
  ("2IA2", ["70,70"]);
  ("2IA3", ["30,30"]);
  ("2IA4", ["48,48"]);
  ("2IA5", ["25,25"]);
  ("2IA6", ["72,60"]);
  ("2IA7", ["60,60"]);
  ("2IA8", ["25,25"]);
  ("2IA9", ["2000,80"]);
  ("2ID2", ["2100,60"]);
  ("2ID3", ["2500,40"]);
  ("2ID4", ["4200,50,2335,44,2350,224"]);
  ("2ID5", ["1300,30,,,,254"]);
  ("2ID6", ["1500,40"]);
  ("2ID7", ["1800,100"]);
  ("2ID9", ["22,10"]);
  ("2IG3", ["50,50"]);
  ("2IG4", ["5800,100,,179.5,,335"]);
  ("2IG5", ["50,50"]);
  ("2IG6", ["46,46"]);
  ("2II0", ["2350,100"]);
  ("2II1", ["1000,30"]);
  ("2II2", ["2800,100"]);
  ("2II3", ["2200,150"]);
  ("2II4", ["30,30"]);
  ("2II5", ["150,100"]);
  ("2II6", ["2085,75"]);
  ("2II7", ["16,16"]);
  ("2II8", ["30,30"]);
  ("2II9", ["300,300"]);
  ("2IL0", ["2640,125"]);
  ("2IL1", ["1700,60"]);
  ("2IL2", ["2410,100"]);
  ("2IL3", ["2150,200,575,,575"]);
  ("2IL4", ["1840,70"]);
  ("2IL5", ["2300,70"]);
  ("2IL6", ["2000,100"]);
  ("2IL7", ["2400,75"]);
  ("2IL8", ["25,25"]);
  ("2IL9", ["3400,40,,39.4"]);
  ("2IN0", ["2050,75"]);
  ("2IN2", ["1760,65"; "1700,50"]);
  ("2IN3", ["1980,62"]);
  ("2IN4", ["1650,100"]);
  ("2IN5", ["2650,60"]);
  ("2IN6", ["2000,85"]);
  ("2IN7", ["40,40"]);
  ("2IN8", ["50,50"]);
  ("2IN9", ["1300,50"]);
  ("2IS1", ["250,80"]);
  ("2IS3", ["1900,80"]);
  ("2IS4", ["1900,100"]);
  ("2IS5", ["1800,80"]);
  ("2IS6", ["1600,90"]);
  ("2IS7", ["1900,90"]);
  ("2IS9", ["2415,70"]);
  ("2J0", ["2590,70,11,,11,282"]);
  ("2J8", ["2600,200"]);
  ("2J9", ["2684,75,221,136,207,316"]);
  ("2JY3", ["30,30"]);
  ("2JY4", ["60,60"]);
  ("2JY5", ["25,25"]);
  ("2JY6", ["40,40"]);
  ("2JY7", ["220,200"]);
  ("2JY9", ["20,20"]);
  ("2K0", ["2797,100,737,179,722,360"]);
  ("2K1", ["1220,30,1061,157,1061,337"; "2320,430,1061,180,1061"]);
  ("2K2", ["2528,39,1308,179,1336,359"]);
  ("2K5", ["1900,40"]);
  ("2K6", ["2510,40"]);
  ("2K8", ["3200,60"]);
  ("2KL", ["2649,110"]);
  ("2KS1", ["2500,50"; "1250,40"]);
  ("2KS2", ["1500,40"]);
  ("2KS3", ["2300,60"]);
  ("2KS4", ["1900,40"]);
  ("2KS5", ["2500,150"; "2250,150"; "3200,150"]);
  ("2KS8", ["1900,40"]);
  ("2KS9", ["2100,100"]);
  ("2KY0", ["24,24"]);
  ("2KY1", ["1100,45,,,,260.7"]);
  ("2KY2", ["50,50"]);
  ("2KY3", ["2000,80"]);
  ("2KY4", ["2930,85"]);
  ("2KY5", ["3060,40,,156"]);
  ("2KY6", ["60,60"]);
  ("2KY7", ["40,40"]);
  ("2KY8", ["2000,60"]);
  ("2KY9", ["50,50"]);
  ("2L1", ["2800,50,1130,,1130,301"]);
  ("2LA0", ["3100,75"]);
  ("2LA1", ["20,20"]);
  ("2LA2", ["61,59"]);
  ("2LA4", ["5000,100"]);
  ("2LA5", ["2200,100"]);
  ("2LA6", ["2600,50"]);
  ("2LA7", ["2700,20"]);
  ("2LA9", ["30,30"]);
  ("2LL1", ["2160,80"]);
  ("2LL2", ["1200,100,,,,228.1"]);
  ("2LL3", ["2640,100"]);
  ("2LL5", ["1600,70"]);
  ("2LL6", ["100,100"]);
  ("2LL7", ["2450,70"]);
  ("2LL8", ["25,25"]);
  ("2LL9", ["2200,80"]);
  ("2LS0", ["35,35"]);
  ("2LS2", ["3000,75"]);
  ("2LS3", ["3300,100"]);
  ("2M1", ["4400,70"]);
  ("2M5", ["15000,2000"]);
  ("2M7", ["2800,90,,,,228"]);
  ("2MA2", ["32,32"]);
  ("2MA3", ["460,190,,,,323.2"]);
  ("2MA4", ["26,24"]);
  ("2MA5", ["60,24"]);
  ("2MA6", ["2000,150"; "2000,150"]);
  ("2MA7", ["3000,150"]);
  ("2MA8", ["20,15"]);
  ("2MA9", ["26,24"]);
  ("2MD0", ["2150,40"]);
  ("2MD1", ["1100,40"]);
  ("2MD2", ["50,50"]);
  ("2MD3", ["1000,50"]);
  ("2MD4", ["2100,100"]);
  ("2MD5", ["40,40"]);
  ("2MD6", ["2000,150"]);
  ("2MD7", ["90,70,,,,245.2"]);
  ("2MD8", ["2034,50"]);
  ("2MI0", ["2400,75"]);
  ("2MI1", ["64,36,,,,242"]);
  ("2MI2", ["20,20"]);
  ("2MI3", ["1500,100"]);
  ("2MI4", ["1900,125"]);
  ("2MI5", ["3050,50,,,,222.5"]);
  ("2MI7", ["3800,100"]);
  ("2MI8", ["2300,50,,,,316.5"]);
  ("2MI9", ["1800,100"; "1450,100"]);
  ("2MN0", ["2600,60"; "2200,72"]);
  ("2MN1", ["2600,60"]);
  ("2MN2", ["1700,60"]);
  ("2MN3", ["45,45"]);
  ("2MN5", ["5000,3000"]);
  ("2MN6", ["1600,80"]);
  ("2MN7", ["2300,80"]);
  ("2MN8", ["2500,40"]);
  ("2MN9", ["2000,65"]);
  ("2MO0", ["1100,40"; "1500,60"]);
  ("2MO1", ["1800,75"]);
  ("2MO2", ["1400,30"]);
  ("2MO3", ["30,30"]);
  ("2MO4", ["2500,60"]);
  ("2MO5", ["2700,100"]);
  ("2MO6", ["1400,100"]);
  ("2MO7", ["3400,50"]);
  ("2MO8", ["1320,100"]);
  ("2MO9", ["1320,100"]);
  ("2MS0", ["30,30"]);
  ("2MS1", ["100,100,,,,235.6"]);
  ("2MS2", ["20,20"]);
  ("2MS3", ["25,25"]);
  ("2MS4", ["150,150"]);
  ("2MS5", ["200,100"]);
  ("2MS6", ["20,20"])].

(* ADRpy/data/runways.csv *)
Definition airports_3 : list (string * list string) := [
  ("2MS7", ["1000,100"]);
  ("2MS8", ["2000,100"]);
  ("2MS9", ["2500,150"]);
  ("2MT0", ["1500,50"]);
  ("2MT1", ["2500,65"]);
  ("2MT2", ["2390,100"]);
  ("2MT3", ["40,40"]);
  ("2MT4", ["75,75"]);
  ("2MT5", ["2300,45"]);
  ("2MT6", ["75,75"]);
  ("2MT7", ["52,52"]);
  ("2MT8", ["3000,100,,,,277"]);
  ("2MT9", ["1500,75"]);
  ("2MU0", ["45,41"]);
  ("2MU1", ["60,60"]);
  ("2MU9", ["2300,50"]);
  ("2MY2", ["1320,60"]);
  ("2MY3", ["80,80"]);
  ("2MY4", ["1200,70,,,,249"]);
  ("2N2", ["1900,40"]);
  ("2N5", ["2500,100"]);
  ("2N6", ["1830,50"; "1590,70"]);
  ("2N7", ["5500,150"]);
  ("2NA0", ["1320,100"]);
  ("2NA7", ["1200,30"]);
  ("2NC0", ["2900,50"]);
  ("2NC1", ["1800,100"]);
  ("2NC2", ["50,50"]);
  ("2NC3", ["20,20"]);
  ("2NC4", ["1350,40"]);
  ("2NC5", ["110,110"]);
  ("2NC6", ["1780,200"]);
  ("2NC7", ["3000,100"]);
  ("2NC8", ["1300,100"]);
  ("2NC9", ["90,90"]);
  ("2ND0", ["3175,120"; "2700,75"]);
  ("2ND1", ["2400,80"]);
  ("2ND2", ["2600,70"]);
  ("2ND3", ["1900,60"]);
  ("2ND4", ["50,37"]);
  ("2ND7", ["4000,60"; "2800,60"]);
  ("2ND9", ["5280,75"]);
  ("2NE0", ["3030,200"]);
  ("2NE4", ["2000,60"; "1300,60"; "1800,60"]);
  ("2NE5", ["2000,50"]);
  ("2NE6", ["2640,60"]);
  ("2NE7", ["2600,100"; "3500,60"]);
  ("2NH2", ["100,50"]);
  ("2NH3", ["80,80"]);
  ("2NH4", ["100,75"]);
  ("2NH5", ["800,30"; "1200,40"]);
  ("2NH6", ["35,35"]);
  ("2NH9", ["400,300"]);
  ("2NJ0", ["42,42"]);
  ("2NJ1", ["2600,75"]);
  ("2NJ2", ["70,70"]);
  ("2NJ3", ["2000,100"]);
  ("2NJ4", ["94,94"]);
  ("2NJ5", ["2000,50"]);
  ("2NJ6", ["2200,65"]);
  ("2NJ7", ["100,100"]);
  ("2NJ8", ["40,40"]);
  ("2NJ9", ["30,30"]);
  ("2NK0", ["15000,4000"]);
  ("2NK1", ["1850,90"]);
  ("2NK2", ["125,125"]);
  ("2NK3", ["1100,200"]);
  ("2NK4", ["30,30"]);
  ("2NK5", ["30,30"]);
  ("2NK6", ["100,100"]);
  ("2NK7", ["2300,50"]);
  ("2NK8", ["40,28"]);
  ("2NK9", ["2800,100"]);
  ("2NR4", ["40,40,,,,217.8"]);
  ("2NV2", ["4000,40"]);
  ("2NV3", ["30,30"]);
  ("2NV8", ["46,46"]);
  ("2NY0", ["1475,50"]);
  ("2NY2", ["220,155"]);
  ("2NY3", ["25,25"]);
  ("2NY4", ["2130,85"]);
  ("2NY5", ["48,48"]);
  ("2NY6", ["50,50"]);
  ("2NY7", ["2000,100"]);
  ("2NY8", ["800,200"]);
  ("2NY9", ["5000,150"; "2400,70"]);
  ("2OA1", ["2100,100"]);
  ("2OA2", ["2900,65"]);
  ("2OA3", ["200,200"]);
  ("2OA4", ["1987,150"]);
  ("2OA5", ["2500,85"]);
  ("2OA6", ["2090,52"]);
  ("2OA7", ["2600,50"]);
  ("2OG2", ["200,200,,,,238"]);
  ("2OG3", ["3000,300"]);
  ("2OG4", ["2500,50"]);
  ("2OG5", ["700,50"]);
  ("2OH0", ["2200,60"]);
  ("2OH1", ["50,50"]);
  ("2OH2", ["2000,55"]);
  ("2OH4", ["2200,150"]);
  ("2OH5", ["35,35"]);
  ("2OH6", ["1975,60"]);
  ("2OH7", ["1850,50"]);
  ("2OH8", ["2500,75"]);
  ("2OH9", ["2800,150"]);
  ("2OI2", ["1400,80"]);
  ("2OI3", ["50,50"]);
  ("2OI4", ["2000,60"]);
  ("2OI5", ["30,30"]);
  ("2OI6", ["85,85"]);
  ("2OI7", ["75,75"]);
  ("2OI8", ["2300,80"]);
  ("2OI9", ["100,100"]);
  ("2OK", ["175,175"]);
  ("2OK2", ["2702,30"]);
  ("2OK4", ["1325,75"]);
  ("2OK5", ["2600,100"]);
  ("2OK7", ["2500,150"]);
  ("2OL2", ["2000,100,,,,266"]);
  ("2OR0", ["1150,50"]);
  ("2OR1", ["4185,70,,57"]);
  ("2OR2", ["60,60"]);
  ("2OR3", ["2500,100"]);
  ("2OR4", ["5100,80"]);
  ("2OR6", ["1900,50"]);
  ("2OR9", ["80,80"]);
  ("2P2", ["1300,125"; "2230,150"]);
  ("2P4", ["2200,100"]);
  ("2P5", ["100,100"]);
  ("2P7", ["2843,50,1163,5,1187,185"]);
  ("2PA0", ["925,125"]);
  ("2PA1", ["2000,140"]);
  ("2PA3", ["1200,200"]);
  ("2PA4", ["1900,100"]);
  ("2PA5", ["2750,45"]);
  ("2PA6", ["1050,100"]);
  ("2PA7", ["1300,40"]);
  ("2PA8", ["1600,80"]);
  ("2PA9", ["200,400"]);
  ("2PN0", ["2000,160"]);
  ("2PN1", ["1600,60"]);
  ("2PN2", ["60,60"]);
  ("2PN3", ["1980,100"]);
  ("2PN4", ["1000,150"; "540,100"]);
  ("2PN5", ["2000,100"]);
  ("2PN7", ["1600,100"]);
  ("2PN8", ["52,52"]);
  ("2PN9", ["60,60"]);
  ("2PS0", ["60,60"]);
  ("2PS2", ["64,64"]);
  ("2PS3", ["1800,100"]);
  ("2PS4", ["65,65"]);
  ("2PS5", ["65,65"]);
  ("2PS6", ["50,50"]);
  ("2PS7", ["10,10"]);
  ("2PS8", ["48,30"]);
  ("2PS9", ["100,45"]);
  ("2Q5", ["1700,40,4939,60,4937,240"]);
  ("2Q9", ["2870,50"]);
  ("2R3", ["5000,500"]);
  ("2RI7", ["50,150"]);
  ("2S0", ["2701,36,1597,,1597"]);
  ("2S1", ["2001,60,324,187,308,7"; "98,98"]);
  ("2S2", ["4500,60"]);
  ("2S3", ["2496,110"]);
  ("2S5", ["2978,50,2640,,2640"]);
  ("2S6", ["2755,50,181,,162"]);
  ("2SC3", ["5000,200"]);
  ("2SC4", ["5000,200"]);
  ("2SC5", ["3100,40,,80"]);
  ("2SC6", ["130,100"]);
  ("2SC7", ["1900,100"]);
  ("2SC8", ["3350,90"]);
  ("2SC9", ["3000,70,,,,280"]);
  ("2SD0", ["2000,50"]);
  ("2SD1", ["60,60"]);
  ("2SD3", ["3000,100"]);
  ("2SD4", ["2800,50"]);
  ("2SD5", ["80,80"]);
  ("2SD6", ["40,40"]);
  ("2SD7", ["2600,75"]);
  ("2SD8", ["2550,75"]);
  ("2SD9", ["2500,28,,180"]);
  ("2T2", ["2000,100"]);
  ("2T5", ["2900,60"]);
  ("2T7", ["90,50"]);
  ("2TA1", ["1500,200"]);
  ("2TA2", ["40,40"]);
  ("2TA3", ["2800,50"; "4000,50"]);
  ("2TA4", ["2050,40"]);
  ("2TA5", ["32,20"; "32,20"; "32,20"; "32,20"]);
  ("2TA6", ["4700,72,,14.7"]);
  ("2TA7", ["48,18"]);
  ("2TA8", ["5500,75,196,133,173"]);
  ("2TE0", ["2700,140"]);
  ("2TE1", ["100,100"]);
  ("2TE2", ["2800,150"]);
  ("2TE3", ["1960,30"]);
  ("2TE4", ["1500,200"]);
  ("2TE5", ["2300,50"]);
  ("2TE6", ["3300,210"]);
  ("2TE7", ["2300,50"; "2600,50"]);
  ("2TE8", ["3600,38,,60,,240"]);
  ("2TE9", ["40,40"]);
  ("2TN0", ["50,50"]);
  ("2TN1", ["60,60"]);
  ("2TN2", ["2390,100"]);
  ("2TN4", ["2785,40"]);
  ("2TN5", ["50,50"]);
  ("2TN6", ["40,40"]);
  ("2TN7", ["2400,60"]);
  ("2TN8", ["2075,50,,,,319"]);
  ("2TN9", ["50,50"]);
  ("2TS0", ["1250,60"]);
  ("2TS1", ["25,25"]);
  ("2TS2", ["1900,120"]);
  ("2TS3", ["2100,50"]);
  ("2TS4", ["3000,60,,,,306"]);
  ("2TS5", ["2300,50"]);
  ("2TS6", ["3200,36,,174.9"]);
  ("2TS7", ["20,20"]);
  ("2TS8", ["4200,25,,155.5,,229"]);
  ("2TS9", ["80,80"]);
  ("2TX0", ["3800,60"]);
  ("2TX1", ["2588,80"]);
  ("2TX2", ["2000,40"]);
  ("2TX3", ["5280,50,,180"]);
  ("2TX4", ["4800,60,,170,,270"]);
  ("2TX5", ["2300,80"]);
  ("2TX6", ["2200,100"; "3400,100"]);
  ("2TX7", ["2300,50"]);
  ("2TX8", ["3300,250"]);
  ("2TX9", ["80,80"]);
  ("2U0", ["5400,150"]);
  ("2U4", ["2800,50"]);
  ("2U5", ["2000,15"]);
  ("2U7", ["4300,150"]);
  ("2U8", ["2100,75"]);
  ("2UT2", ["2300,40"]);
  ("2UT3", ["3000,50"]);
  ("2UT4", ["40,40"]);
  ("2V3", ["2413,100,717,180,731,360"]);
  ("2VA", ["3500,100"]);
  ("2VA0", ["1800,70"]);
  ("2VA1", ["2400,60"]);
  ("2VA2", ["2900,60"]);
  ("2VA3", ["3200,100"]);
  ("2VA4", ["58,58"]);
  ("2VA5", ["2400,200"]);
  ("2VA6", ["3200,60"]);
  ("2VA7", ["50,50"]);
  ("2VA8", ["1400,25,,,,307.4"]);
  ("2VA9", ["3250,50,,19.8,,263.3"]);
  ("2VE2", ["60,60"]);
  ("2VG2", ["5100,100,557,126.6,519,306.6"]);
  ("2VG3", ["1400,75"]);
  ("2VG4", ["50,50"]);
  ("2VG5", ["40,15"]);
  ("2VG6", ["25,25"]);
  ("2VG7", ["1500,70"]);
  ("2VG8", ["2300,70"]);
  ("2VG9", ["40,40"]);
  ("2VT2", ["10000,100"]);
  ("2W1", ["2055,30,,,,259.1"]);
  ("2W2", ["1840,30,760,125,799,305"]);
  ("2W3", ["2990,36,,,,285"]);
  ("2WA0", ["30,30"]);
  ("2WA1", ["2335,24,,,,299.2"]);
  ("2WA2", ["15000,1000"]);
  ("2WA3", ["1560,50"]);
  ("2WA5", ["20,20"]);
  ("2WA6", ["1800,30"]);
  ("2WA8", ["3000,60"]);
  ("2WA9", ["2600,60"]);
  ("2WI0", ["3500,150"]);
  ("2WI1", ["1800,75,,,,261.3"]);
  ("2WI2", ["1600,300"]);
  ("2WI3", ["120,90,,,,350"]);
  ("2WI4", ["2200,70"]);
  ("2WI5", ["2000,60"]);
  ("2WI6", ["2500,100"]);
  ("2WI7", ["2114,50"]);
  ("2WI8", ["2500,80"]);
  ("2WI9", ["2500,60"]);
  ("2WN2", ["1980,65,,182.9,,209"]);
  ("2WN3", ["2500,60,,88,,270"; "1001,60,,183,,330"]);
  ("2WN4", ["1000,60"]);
  ("2WN5", ["2500,100,,105.5"]);
  ("2WN6", ["2500,60"]);
  ("2WN7", ["2200,66"]);
  ("2WN8", ["3000,125,,,,238"]);
  ("2WN9", ["2730,100"]);
  ("2WS2", ["1765,80,,,,342"]);
  ("2WS3", ["1300,100,,,,233"]);
  ("2WV2", ["40,40"]);
  ("2WV3", ["3100,75"]);
  ("2WV5", ["1540,40"]);
  ("2WV6", ["50,50"]);
  ("2WY3", ["2960,100"]);
  ("2WY4", ["50,50,,,,292.2"]);
  ("2WY8", ["1240,50"]);
  ("2X2", ["3600,400"]);
  ("2XA0", ["3200,39,1479,180,,338"]);
  ("2XA1", ["5500,75"]);
  ("2XA2", ["2400,100"]);
  ("2XA3", ["50,50"]);
  ("2XA4", ["2500,40"]);
  ("2XA5", ["1876,95"]);
  ("2XA6", ["15,15"]);
  ("2XA7", ["2100,40"]);
  ("2XA8", ["40,40"]);
  ("2XA9", ["45,45"]);
  ("2XS0", ["50,50"]);
  ("2XS1", ["4600,75,,185.6,,308"]);
  ("2XS2", ["5000,50,,156.4"]);
  ("2XS3", ["4250,75,,160,,316.9"]);
  ("2XS4", ["1200,45"]);
  ("2XS5", ["3000,50,,170,,311.1"]);
  ("2XS6", ["2150,45,,,,223.7"]);
  ("2XS7", ["2720,50"]);
  ("2XS8", ["3300,80,,156.3,,344.6"]);
  ("2XS9", ["70,70"]);
  ("2Y0", ["1985,105,,,,250.4"]);
  ("2Y1", ["2480,90,,,1179"]);
  ("2Y2", ["2030,50,,,,191"]);
  ("2Y3", ["7500,2000"]);
  ("2Z1", ["5000,500"]);
  ("2Z2", ["1500,35"]);
  ("2Z3", ["950,40"]);
  ("2Z5", ["3000,300"; "5000,300"]);
  ("2Z6", ["4000,500"]);
  ("30AK", ["2400,150,,,,302"]);
  ("30AR", ["3000,125"]);
  ("30AZ", ["4500,120"]);
  ("30CA", ["125,120,,,,175.8"]);
  ("30CL", ["66,65,84,,,234"]);
  ("30CO", ["1150,30"]);
  ("30F", ["2815,30"; "2600,75"]);
  ("30FA", ["41,40"]);
  ("30FD", ["44,44,,,,252.4"]);
  ("30FL", ["60,60"]);
  ("30GA", ["4200,40,,140,,318.7"]);
  ("30ID", ["2800,100"]);
  ("30II", ["85,80"]);
  ("30IL", ["40,40,,,,243"]);
  ("30IN", ["2000,70"]);
  ("30IS", ["2800,100"]);
  ("30KS", ["2600,60"]);
  ("30KY", ["60,60"]);
  ("30LA", ["3000,280"; "5000,800"; "48,48"; "48,48"; "48,48"]);
  ("30LL", ["1960,80"]);
  ("30LS", ["50,50"]);
  ("30M", ["2508,80,195,,195,212.9"]);
  ("30MA", ["45,45"]);
  ("30MI", ["1200,135"]);
  ("30MN", ["70,70"]);
  ("30MO", ["1500,150"]);
  ("30NC", ["2700,50"]);
  ("30NE", ["2600,60"]);
  ("30NJ", ["40,40"]);
  ("30NM", ["50,50"]);
  ("30NY", ["2175,130,,,,239.1"]);
  ("30OH", ["200,200"]);
  ("30OR", ["1200,60"]);
  ("30PA", ["1700,100"]);
  ("30PN", ["45,45"]);
  ("30TA", ["4800,50"]);
  ("30TE", ["2500,80"; "4270,60,,,,227"]);
  ("30TS", ["2040,60"]);
  ("30VA", ["65,60"]);
  ("30W", ["10000,250"]);
  ("30WA", ["1600,30"]);
  ("30WI", ["1200,40"]);
  ("30XA", ["40,40"]);
  ("30XS", ["2700,75,,,,306"]);
  ("31A", ["2424,25,,,,219.1"; "2000,100"]);
  ("31AK", ["2400,100"]);
  ("31AR", ["40,40"]);
  ("31AZ", ["4800,140"]);
  ("31CA", ["42,42"]);
  ("31CL", ["60,60"]);
  ("31CT", ["45,45,,,,3"]);
  ("31D", ["1960,120"]);
  ("31FA", ["4060,80"]);
  ("31FD", ["20,20,,,,180"]);
  ("31FL", ["3000,150"]);
  ("31GA", ["40,30"]);
  ("31II", ["2100,60"]);
  ("31IL", ["40,40,,,,175.5"]);
  ("31IN", ["3000,100,,,,251.7"]);
  ("31IS", ["42,42,,,,241"]);
  ("31KS", ["2400,75"]);
  ("31KY", ["2800,75"]);
  ("31LA", ["40,40,,,,333"]);
  ("31LS", ["65,65"]);
  ("31MA", ["1300,50"]);
  ("31MI", ["1100,50"]);
  ("31MN", ["10000,2000"]);
  ("31MO", ["2200,50"; "1300,50"]);
  ("31NC", ["50,50"]);
  ("31NY", ["100,100"]);
  ("31OH", ["200,200"]);
  ("31OK", ["30,20"]);
  ("31OR", ["115,115"]);
  ("31PA", ["150,150"]);
  ("31PN", ["61,61"]);
  ("31TA", ["1700,30"]);
  ("31TE", ["100,100"]);
  ("31TS", ["1150,40"; "1900,50"]);
  ("31TX", ["1950,120"]);
  ("31VA", ["5921,60,23,13,29,359.9"]);
  ("31WA", ["40,40"]);
  ("31WI", ["4548,50,,60.4,,201"]);
  ("31WN", ["1850,55"]);
  ("31XS", ["2325,60"]);
  ("32AK", ["1410,100"; "1600,50"]);
  ("32AR", ["40,40"]);
  ("32AZ", ["60,60"]);
  ("32CA", ["2540,30"]);
  ("32CL", ["2500,50"]);
  ("32CN", ["52,52,209,,,280"]);
  ("32CO", ["3240,50"]);
  ("32FA", ["5000,100"]);
  ("32FD", ["50,50"]);
  ("32FL", ["170,100,,,,270"]);
  ("32GA", ["2700,175"]);
  ("32II", ["2000,100"]);
  ("32IL", ["50,36,,,,3"]);
  ("32IN", ["50,50,,,,268.8"]);
  ("32IS", ["1800,70"]);
  ("32KS", ["2800,50"]);
  ("32KY", ["50,50"]);
  ("32LA", ["30,30,,,,355"]);
  ("32LL", ["2300,100"]);
  ("32LS", ["2000,50"]);
  ("32MA", ["350,100,,,,251.3"]);
  ("32MD", ["2800,75"]);
  ("32MI", ["66,66"]);
  ("32MN", ["2100,200"]);
  ("32MO", ["2000,50"]);
  ("32MS", ["2500,150"]);
  ("32NC", ["2000,200"]);
  ("32NE", ["2000,50"]);
  ("32NJ", ["20,20"]);
  ("32NK", ["1600,100,,,,269"]);
  ("32NY", ["100,100"]);
  ("32OH", ["1800,75"]);
  ("32OR", ["2433,125"]);
  ("32PN", ["1800,100"]);
  ("32TA", ["2600,100"]);
  ("32TE", ["2000,50,,,,197"]);
  ("32TN", ["25,25"]);
  ("32TS", ["60,60"]);
  ("32TX", ["1866,100"]);
  ("32VA", ["1890,75"]);
  ("32WA", ["2000,100"]);
  ("32WI", ["2050,50"]);
  ("32WN", ["800,80,,,,198.5"]);
  ("32XA", ["50,50"]);
  ("32XS", ["50,50"]);
  ("33A", ["2770,30,,,,298"]);
  ("33AK", ["1240,38"]);
  ("33AR", ["2300,100"]);
  ("33AZ", ["4000,50"]);
  ("33C", ["2995,100,634,,634,254.1"]);
  ("33CA", ["2300,90"; "1370,60"]);
  ("33CL", ["2200,50"]);
  ("33CN", ["40,40,98,,,314.2"]);
  ("33CO", ["7400,40"]);
  ("33CT", ["1450,100,,,,318"]);
  ("33FA", ["4000,230"]);
  ("33FD", ["2500,100"]);
  ("33FL", ["3800,100,,,,241.1"]);
  ("33GA", ["2000,50"]);
  ("33II", ["40,40"]);
  ("33IL", ["1835,105,,,,323"]);
  ("33IN", ["40,40"]);
  ("33IS", ["1850,200"]);
  ("33KS", ["2500,80"; "2000,80"]);
  ("33KY", ["1300,200"]);
  ("33LA", ["2600,100"]);
  ("33LS", ["40,40"]);
  ("33MA", ["40,100,,,,350.1"]);
  ("33MI", ["1500,125"]);
  ("33MO", ["1800,40"]);
  ("33MT", ["30,30"]);
  ("33NC", ["1800,150"]);
  ("33NE", ["3585,30"; "1450,30"]);
  ("33NJ", ["75,75"]);
  ("33NR", ["3500,75"]);
  ("33NY", ["3000,100"]);
  ("33OH", ["1875,65"]);
  ("33OI", ["2400,45"]);
  ("33OK", ["2625,60"]);
  ("33OR", ["3200,50"]);
  ("33PA", ["1200,100"]);
  ("33SC", ["40,40"]);
  ("33TA", ["2579,200"]);
  ("33TE", ["50,50"]);
  ("33TN", ["40,40,,,,329"]);
  ("33TS", ["60,60"]);
  ("33TX", ["20,20"]);
  ("33VA", ["1600,60"]);
  ("33WA", ["2500,30"]);
  ("33WI", ["125,60,,,,276"]);
  ("33XS", ["30,30"]);
  ("34AK", ["1200,50"]);
  ("34AR", ["2700,80"]);
  ("34AZ", ["5200,200,1175,45.6,1179,270"; "8560,75,1165,134.8,1175"]);
  ("34CA", ["1800,30"]);
  ("34CD", ["1800,66"]);
  ("34CL", ["115,100"]);
  ("34CN", ["4100,100"]);
  ("34CO", ["2400,30"]);
  ("34FA", ["5350,300"]);
  ("34FD", ["3335,100"]);
  ("34FL", ["2300,50"]);
  ("34G", ["3608,100,820,,820,354.3"]);
  ("34GA", ["25,25"]);
  ("34ID", ["2000,35"]);
  ("34II", ["1250,120"]);
  ("34IL", ["2000,90"]);
  ("34IN", ["2600,100"]);
  ("34IS", ["2600,70,,,,316.8"]);
  ("34KS", ["80,80,,,,259.4"]);
  ("34KY", ["1620,50,,,,349"; "2440,50,,,,224.1"]);
  ("34LA", ["3000,60"]);
  ("34LL", ["40,40"]);
  ("34MA", ["16,20"]);
  ("34MI", ["1300,150,,,,360"]);
  ("34MN", ["5000,2000"]);
  ("34MO", ["20,20"]);
  ("34MS", ["1000,60"]);
  ("34NC", ["40,40"; "40,40"; "60,60"]);
  ("34ND", ["2600,60"]);
  ("34NE", ["2640,40"]);
  ("34NH", ["200,80"]);
  ("34NY", ["1300,80"; "2200,60"]);
  ("34OH", ["2000,80"]);
  ("34OI", ["2300,75"]);
  ("34OR", ["106,106"]);
  ("34PA", ["1700,100"]);
  ("34PN", ["1230,100"]);
  ("34TA", ["1400,100"]);
  ("34TE", ["3030,40"]);
  ("34TS", ["2600,45"]);
  ("34TX", ["300,300"]);
  ("34U", ["2975,100,625,,625"]);
  ("34VA", ["50,50"]);
  ("34WA", ["50,50"]);
  ("34WI", ["1200,60"]);
  ("34XS", ["880,50"]);
  ("35AK", ["50,50"]);
  ("35AR", ["1200,80"]);
  ("35AZ", ["3500,50,,25.6,,202"]);
  ("35C", ["2200,100,890,,890,262"]);
  ("35CA", ["62,62,,,,250"; "40,40,,,,321"]);
  ("35CL", ["2600,35"]);
  ("35CN", ["2600,50"]);
  ("35CO", ["4900,40"; "5250,55"; "1900,55"]);
  ("35FA", ["3400,200,,,,258"; "4600,200,,,,319"]);
  ("35FD", ["2000,120"]);
  ("35FL", ["96,87"]);
  ("35GA", ["40,40"]);
  ("35II", ["2000,60"]);
  ("35IL", ["2000,75"]);
  ("35IN", ["2900,100"]);
  ("35IS", ["2620,90,,,,347"]);
  ("35JY", ["150,150"]);
  ("35KS", ["1320,150"]);
  ("35KY", ["2000,100,,,,285.5"]);
  ("35LA", ["1600,65,,,,341.2"]);
  ("35LL", ["42,42"]);
  ("35LS", ["42,42"]);
  ("35M", ["75,75,,,,260.7"]);
  ("35MA", ["75,120,,,,326"]);
  ("35ME", ["1700,30"]);
  ("35MI", ["2600,100"]);
  ("35MN", ["2300,150"]);
  ("35MO", ["400,400"]);
  ("35NC", ["2100,100"]);
  ("35NE", ["2800,125"]);
  ("35NH", ["1500,100,,,,253"]);
  ("35NJ", ["80,80"]);
  ("35NY", ["1600,50,,,,309"]);
  ("35OH", ["24,24"]);
  ("35OI", ["60,60"]);
  ("35OL", ["2500,50"]);
  ("35PA", ["60,60"]);
  ("35PN", ["60,50"]);
  ("35TA", ["40,40"]);
  ("35TE", ["50,50"]);
  ("35TS", ["3055,50"]);
  ("35TX", ["2700,75"]);
  ("35VA", ["60,60"]);
  ("35WA", ["1800,100"]);
  ("35WI", ["2350,130"]);
  ("35XS", ["40,40"]);
  ("36AK", ["1300,75"; "2100,100"; "2000,75"]);
  ("36AL", ["3000,60"]);
  ("36AR", ["3000,65"]);
  ("36AZ", ["2390,100"; "2460,60"]);
  ("36CA", ["3300,30,,173.1"]);
  ("36CL", ["40,40,,,,336.2"]);
  ("36CN", ["4200,40,,119.9,,299.9"]);
  ("36CO", ["3000,60"]);
  ("36FA", ["60,20"]);
  ("36FD", ["50,50,,,,275.8"]);
  ("36FL", ["60,60"]);
  ("36GA", ["1500,100"]);
  ("36H", ["5000,5000"]);
  ("36ID", ["24,24"]);
  ("36II", ["1800,100"]);
  ("36IL", ["40,40,,,,216"]);
  ("36IN", ["1200,100"]);
  ("36IS", ["2300,70"]);
  ("36KS", ["2690,50"]);
  ("36KY", ["2100,100"; "2250,90"]);
  ("36LA", ["50,50"]);
  ("36LL", ["40,40,,,,307"]);
  ("36LS", ["600,125,,,,293.8"]);
  ("36MI", ["4258,75,,59.9,,241"; "4278,75,,128.1,,331"]);
  ("36MO", ["2750,150"]);
  ("36NC", ["3200,32,,43,,226"]);
  ("36NE", ["2600,75"]);
  ("36NH", ["87,40"]);
  ("36NJ", ["1800,200"]);
  ("36NY", ["1900,50"]);
  ("36OH", ["1800,80"]);
  ("36OI", ["2600,60,,,,201.1"]);
  ("36OK", ["2000,100"]);
  ("36OR", ["1600,25"]);
  ("36PA", ["45,45"]);
  ("36PN", ["150,75"]);
  ("36TA", ["20,20"]);
  ("36TE", ["45,45"]);
  ("36TN", ["1800,60"]);
  ("36TS", ["50,50"]);
  ("36TX", ["2000,75"]);
  ("36VA", ["50,50"]);
  ("36VT", ["2500,100"]);
  ("36WA", ["1780,50"]);
  ("36WI", ["3200,60,,180,,221.3"]);
  ("36XS", ["2500,200"]);
  ("37AR", ["2400,60"]);
  ("37AZ", ["2800,80"]);
  ("37CA", ["2200,40"]);
  ("37CL", ["1700,50"]);
  ("37CN", ["2640,50"]);
  ("37CO", ["20,20,,,,292"]);
  ("37FA", ["700,50"]);
  ("37FL", ["2400,100"]);
  ("37I", ["3450,100,,114,,294"]);
  ("37ID", ["2248,75"]);
  ("37II", ["1550,90"]);
  ("37IL", ["1600,85"]);
  ("37IN", ["1900,200"]);
  ("37IS", ["1900,70"]);
  ("37KS", ["2600,60"]);
  ("37KY", ["180,40"]);
  ("37LA", ["2200,120"]);
  ("37LL", ["1750,70"]);
  ("37LS", ["50,50,,,,279"]);
  ("37M", ["2648,47"]);
  ("37MA", ["100,100"]);
  ("37MI", ["2550,150,,,,262"; "2550,150,,,,309"]);
  ("37MN", ["2000,50,,,,223.5"; "1450,50"]);
  ("37MO", ["2640,60"]);
  ("37N", ["3200,60,1717,,1700"]);
  ("37NC", ["48,50"]);
  ("37ND", ["1600,50"]);
  ("37NE", ["2000,60"]);
  ("37NJ", ["51,51"]);
  ("37NY", ["120,75"]);
  ("37OH", ["90,90"]);
  ("37OI", ["2300,100,,,,9.3"]);
  ("37OK", ["60,60"]);
  ("37OR", ["4500,40"]);
  ("37PA", ["2500,100"]);
  ("37PN", ["79,45"]);
  ("37S", ["2700,100"; "4100,125,,,,1"]);
  ("37TA", ["40,40"]);
  ("37TE", ["2700,60"; "2130,100"]);
  ("37TN", ["90,90"]);
  ("37TS", ["1600,100"]);
  ("37TX", ["2200,100"]);
  ("37VA", ["40,40"]);
  ("37VT", ["1600,50"]);
  ("37WA", ["3000,50"]);
  ("37WI", ["1800,75"]);
  ("37X", ["4190,50"; "3030,53,224,,228,345.1"]);
  ("37XS", ["2067,80"]);
  ("38AK", ["1500,400"; "1500,80"]);
  ("38AR", ["2000,50"]);
  ("38AZ", ["7500,75,,32.9,,228.5"]);
  ("38C", ["3450,100,889,180,889,336.2"]);
  ("38CA", ["4000,100,,155.7"]);
  ("38CL", ["2380,35,,,,242"]);
  ("38CN", ["2745,95"]);
  ("38CO", ["87,77,,,,243.3"]);
  ("38FA", ["2400,50,,,,329.3"]);
  ("38FD", ["60,60,,,,211"]);
  ("38FL", ["60,60"]);
  ("38GA", ["60,60,,,,350"]);
  ("38I", ["2534,75,1150,,1150"]);
  ("38ID", ["2000,35,,,,205.9"]);
  ("38II", ["2400,80"]);
  ("38IL", ["120,80,,,,351.9"]);
  ("38IN", ["2000,125"; "90,90"]);
  ("38IS", ["1740,70"]);
  ("38K", ["2904,50,,,,205.4"]);
  ("38KY", ["30,30"]);
  ("38LA", ["3000,100"]);
  ("38LL", ["44,44,,,,212"]);
  ("38LS", ["3000,250"]);
  ("38MI", ["2400,60,,,,338.5"]);
  ("38MN", ["2400,50"]);
  ("38MO", ["2900,60,,,,244.7"]);
  ("38N", ["2600,125,,,,298.3"]);
  ("38NC", ["45,45"]);
  ("38ND", ["1800,50"]);
  ("38NE", ["2940,24"]);
  ("38NJ", ["480,200"]);
  ("38NY", ["1950,50,,,,299.5"]);
  ("38OH", ["2550,60"]);
  ("38OI", ["3000,90"]);
  ("38OK", ["40,40"]);
  ("38OR", ["90,90"]);
  ("38PA", ["3100,100"]);
  ("38PN", ["2000,150"]);
  ("38SC", ["2300,100,,,,237"]);
  ("38TA", ["20,20"]);
  ("38TE", ["150,120"]);
  ("38TN", ["1900,50"]);
  ("38TS", ["50,50"]);
  ("38TX", ["40,40"]);
  ("38V", ["2700,200"]);
  ("38VA", ["80,80"]);
  ("38W", ["2425,40,,,,189.3"]);
  ("38WA", ["2200,40,,,,258.9"]);
  ("38WI", ["2270,165"]);
  ("38WV", ["1800,50,,,,223.9"]);
  ("38XS", ["6000,75,,145.9,,285"]);
  ("39AK", ["1200,100"]);
  ("39B", ["15000,1100"]);
  ("39CA", ["65,65,,,,360"]);
  ("39CL", ["50,50"]);
  ("39CO", ["2500,25"]);
  ("39FA", ["3000,100"]);
  ("39FD", ["3100,50"]);
  ("39FL", ["550,150,,,,282"]);
  ("39G", ["2105,100,726,,726,252"]);
  ("39GA", ["60,60"]);
  ("39IA", ["2400,100,,,,234.8"]);
  ("39ID", ["4500,175"]);
  ("39II", ["2500,100"]);
  ("39IN", ["4000,100,,,,265.9"]);
  ("39K", ["2170,60"]);
  ("39KY", ["60,45,,,,270"]);
  ("39LA", ["1000,200,,,,336.1"]);
  ("39LL", ["2500,100,,,,272"]);
  ("39MI", ["1625,120"]);
  ("39MN", ["2000,100"]);
  ("39MO", ["1190,40"; "1190,40"]);
  ("39NC", ["40,40"]);
  ("39NJ", ["50,50"]);
  ("39NY", ["25,25"]);
  ("39OH", ["1700,50"]);
  ("39OK", ["4000,150"]);
  ("39OR", ["150,120"]);
  ("39P", ["1810,40,,90,,270"]);
  ("39PA", ["1600,200"]);
  ("39PN", ["2000,250"]);
  ("39R", ["2100,75"]);
  ("39T", ["2509,50,,,,319.2"]);
  ("39TA", ["2380,20"; "1375,80"]);
  ("39TE", ["2700,75,,90,,356"; "4000,50,,180"]);
  ("39TN", ["3000,50"]);
  ("39TS", ["50,50"]);
  ("39TX", ["60,60"]);
  ("39WA", ["2400,50"]);
  ("39WI", ["2200,30"]);
  ("39XS", ["50,50"]);
  ("39Z", ["1925,70,,,,229.2"]);
  ("3A0", ["2704,75,,,,317"]);
  ("3A3", ["6000,400"]);
  ("3A9", ["2400,250,1803,,1818"; "3000,250,1801,,1810,309.3"]);
  ("3AK0", ["900,75"]);
  ("3AK1", ["2300,60"]);
  ("3AK2", ["700,50,,82,,262"]);
  ("3AK3", ["2100,30"]);
  ("3AK4", ["1860,30"]);
  ("3AK5", ["4100,150,,,,286.2"; "40,20,35"]);
  ("3AK6", ["700,25"]);
  ("3AK7", ["1080,100"]);
  ("3AK8", ["1320,80"]);
  ("3AK9", ["1850,50"]);
  ("3AL0", ["50,50"]);
  ("3AL1", ["1800,150"]);
  ("3AL2", ["50,50"]);
  ("3AL3", ["20,20"]);
  ("3AL5", ["1700,75"]);
  ("3AL6", ["1000,50"]);
  ("3AL7", ["2000,60"]);
  ("3AL8", ["2669,30"]);
  ("3AL9", ["50,50"]);
  ("3AR0", ["2700,42,,,,214.2"]);
  ("3AR1", ["40,40"]);
  ("3AR2", ["2000,30"; "2400,30"]);
  ("3AR3", ["2200,30"]);
  ("3AR4", ["3400,60"]);
  ("3AR5", ["2640,60"]);
  ("3AR6", ["2600,50"]);
  ("3AR7", ["1953,60"]);
  ("3AR8", ["2500,100"]);
  ("3AR9", ["2640,80"]);
  ("3AZ0", ["40,40"]);
  ("3AZ1", ["38,38"]);
  ("3AZ2", ["5300,100"]);
  ("3AZ3", ["50,50"]);
  ("3AZ4", ["55,55"]);
  ("3AZ5", ["4790,30,,83.5"]);
  ("3AZ6", ["50,50"]);
  ("3AZ7", ["20,20"]);
  ("3AZ8", ["3300,60"]);
  ("3AZ9", ["50,50,,,,342"]);
  ("3B3", ["3086,40,459,140,449,314.7"; "50,50"]);
  ("3B8", ["1800,20"]);
  ("3C1", ["2243,40,755,,750,328.3"; "3140,100,752,,753"]);
  ("3C3", ["4000,200"]);
  ("3C5", ["2600,200,720,,720,241"]);
  ("3CA0", ["20,20"]);
  ("3CA1", ["45,45"]);
  ("3CA2", ["90,90"]);
  ("3CA3", ["2590,50"]);
  ("3CA6", ["65,65,559"]);
  ("3CA7", ["3400,50"]);
  ("3CA8", ["65,65"]);
  ("3CA9", ["2400,60"]);
  ("3CL0", ["40,40"; "40,40"]);
  ("3CL1", ["67,63,,,,229.3"]);
  ("3CL3", ["65,65,,,,284.5"]);
  ("3CL4", ["100,100,,,,282.6"]);
  ("3CL5", ["50,50,,,,0.9"]);
  ("3CL6", ["25,20"]);
  ("3CL7", ["50,50"]);
  ("3CL8", ["88,65"]);
  ("3CL9", ["30,30"]);
  ("3CO0", ["2500,40"; "2000,30"; "2700,40"]);
  ("3CO1", ["2600,80"]);
  ("3CO2", ["4000,100"]);
  ("3CO3", ["100,100"]);
  ("3CO4", ["3000,75,,,,353"]);
  ("3CO5", ["20,20,,,,308"]);
  ("3CO7", ["2500,60"]);
  ("3CO8", ["50,45"]);
  ("3CO9", ["40,40"]);
  ("3D1", ["1270,80,731,,731"; "2620,60,731"]);
  ("3D2", ["1980,80"; "2700,60,762,136,750,316"]);
  ("3D8", ["2703,30,684,91,690,271"]);
  ("3DA", ["1633,130,733"; "2510,50,733,181,733,1"]);
  ("3E7", ["3500,40"; "4100,40"]);
  ("3EV", ["2105,142,380,,380"]);
  ("3EX", ["2000,47,992,27,990,207"]);
  ("3F5", ["2070,80"; "1900,80"]);
  ("3FA2", ["64,64,,,,319"]);
  ("3FA3", ["20,20,,,,355"]);
  ("3FA4", ["40,40"]);
  ("3FD0", ["3400,100"]);
  ("3FD2", ["40,40"]);
  ("3FD3", ["80,70"]);
  ("3FD4", ["1100,70"; "1600,70"]);
  ("3FD5", ["59,45"]);
  ("3FD6", ["3000,60"]);
  ("3FD7", ["60,60"]);
  ("3FD8", ["40,40"]);
  ("3FD9", ["1800,100"]);
  ("3FK", ["2400,35,735,,721"]);
  ("3FL0", ["2760,75"]);
  ("3FL1", ["2643,100"]);
  ("3FL2", ["40,40"]);
  ("3FL3", ["65,65"]);
  ("3FL4", ["25,25"]);
  ("3FL5", ["2620,100"]);
  ("3FL6", ["40,40"]);
  ("3FL7", ["50,50,,,,233"]);
  ("3FL8", ["2500,100"]);
  ("3FL9", ["65,65,,,,265.5"]);
  ("3G8", ["2568,120,635,,635,295.4"]);
  ("3G9", ["2580,38,,,,231"]);
  ("3GA0", ["1100,50"]);
  ("3GA1", ["1750,75"]);
  ("3GA2", ["50,50,,,,306.7"]);
  ("3GA3", ["1500,30,,,,355.1"]);
  ("3GA4", ["35,35"]);
  ("3GA5", ["1800,60"]);
  ("3GA6", ["2300,75,,,,262.5"]);
  ("3GA7", ["1650,75"]);
  ("3GA8", ["1500,150"]);
  ("3GA9", ["2350,100"]);
  ("3GE1", ["300,300,,,,233"]);
  ("3GE2", ["250,100,,,,272"]);
  ("3GE3", ["3000,40,,70,,202"]);
  ("3GE4", ["1200,75"]);
  ("3GE5", ["70,70,,,,223.9"]);
  ("3GE6", ["30,30"]);
  ("3GE7", ["2450,75"]);
  ("3GE8", ["3200,140,,,,271"]);
  ("3GE9", ["1500,40,,,,271"]);
  ("3H3", ["4000,800"]);
  ("3H5", ["2000,200"]);
  ("3IA0", ["36,30"]);
  ("3IA1", ["2500,90,,,,231"]);
  ("3IA2", ["40,30,,,,340"]);
  ("3IA3", ["60,60"]);
  ("3IA6", ["30,30,,,,186.9"]);
  ("3IA8", ["40,40"]);
  ("3IA9", ["2400,90,,,,316"]);
  ("3ID2", ["1700,70"]);
  ("3ID4", ["40,40,,,,339"]);
  ("3IG3", ["605,100"]);
  ("3II1", ["3000,80"]);
  ("3II2", ["900,150"]);
  ("3II3", ["2600,50"]);
  ("3II4", ["30,30"]);
  ("3II5", ["1848,75"]);
  ("3II6", ["14,14"]);
  ("3II7", ["50,50,,,,256"]);
  ("3II8", ["1650,50"]);
  ("3II9", ["2000,65"]);
  ("3IL0", ["60,60,,,,255.6"]);
  ("3IL1", ["2500,200"]);
  ("3IL2", ["2600,135"]);
  ("3IL3", ["50,50,,,,240"]);
  ("3IL4", ["100,100,,,,360"]);
  ("3IL6", ["40,40"]);
  ("3IL7", ["800,60,,,,260"]);
  ("3IL8", ["40,40"]);
  ("3IL9", ["1995,70"]);
  ("3IN2", ["1500,65"]);
  ("3IN4", ["2600,75"]);
  ("3IN5", ["1300,75"]);
  ("3IN6", ["2570,120,,,,302.4"]);
  ("3IN7", ["1500,110"; "1330,85"; "2100,125"]);
  ("3IN8", ["2020,75,,,,231"]);
  ("3IS1", ["2600,100,,,,189"]);
  ("3IS2", ["2250,80"]);
  ("3IS3", ["2000,100"]);
  ("3IS4", ["2900,100,,,,198"]);
  ("3IS5", ["2950,100"]);
  ("3IS6", ["1775,70"]);
  ("3IS7", ["1600,70"]);
  ("3IS8", ["2614,190"; "1932,190"]);
  ("3IS9", ["40,40,,,,325"]);
  ("3J6", ["2500,50,,,,233"]);
  ("3JY2", ["50,50,,,,229"]);
  ("3K4", ["4150,200,631,,632"]);
  ("3K9", ["5500,800"]);
  ("3KK", ["2644,300,624,,619"; "2564,200,619,,624"]);
  ("3KS0", ["50,50"]);
  ("3KS1", ["2800,300"]);
  ("3KS3", ["1900,30"]);
  ("3KS4", ["3700,100"]);
  ("3KS5", ["2400,100"]);
  ("3KS6", ["40,40"]);
  ("3KS7", ["2300,125"]);
  ("3KS8", ["2300,65"]);
  ("3KY0", ["2035,60"]);
  ("3KY1", ["2800,90"]);
  ("3KY2", ["2150,70"]);
  ("3KY3", ["1500,200"]);
  ("3KY4", ["3300,100"]);
  ("3KY5", ["50,50"]);
  ("3KY6", ["1300,100"]);
  ("3KY7", ["1800,75"]);
  ("3KY8", ["40,40"]);
  ("3KY9", ["3000,75"]);
  ("3L7", ["2200,90"]);
  ("3LA0", ["1200,110"]);
  ("3LA1", ["2000,85"]);
  ("3LA3", ["1880,100"]);
  ("3LA4", ["4002,60,2,122,7,302"]);
  ("3LA5", ["50,50"]);
  ("3LA6", ["2100,180"]);
  ("3LA7", ["65,65"]);
  ("3LA8", ["2250,75"]);
  ("3LA9", ["1900,208"]);
  ("3LL0", ["1320,100"]);
  ("3LL1", ["1800,150"]);
  ("3LL2", ["40,40"]);
  ("3LL3", ["1423,70"]);
  ("3LL4", ["2000,100"]);
  ("3LL5", ["1750,70"]);
  ("3LL6", ["2215,100"]);
  ("3LL7", ["300,120"; "60,60"]);
  ("3LL8", ["1800,60"]);
  ("3LL9", ["1600,100"]);
  ("3LS7", ["1725,105"]);
  ("3M0", ["3200,55"])].

(* ADRpy/data/runways.csv *)
Definition airports_4 : list (string * list string) := [
  ("3M5", ["2180,160"]);
  ("3MA0", ["60,20"]);
  ("3MA1", ["18,18"]);
  ("3MA2", ["2200,100"]);
  ("3MA3", ["150,150,,,,323.1"]);
  ("3MA4", ["30,30,,,,215"]);
  ("3MA5", ["2150,50"]);
  ("3MA6", ["50,50,,,,233"]);
  ("3MA7", ["100,100,,,,202"]);
  ("3MA8", ["50,50,,,,225"]);
  ("3MA9", ["500,200,,,,200"]);
  ("3MD0", ["2600,24,,,,192"]);
  ("3MD1", ["62,50,,,,243.2"]);
  ("3MD2", ["40,40,,,,210"]);
  ("3MD4", ["1800,50"]);
  ("3MD5", ["2500,75"]);
  ("3MD6", ["2200,100"]);
  ("3MD7", ["26,26"]);
  ("3MD8", ["2700,75"]);
  ("3ME8", ["5000,500"]);
  ("3MI0", ["1320,50"]);
  ("3MI2", ["4200,145,,,,222"]);
  ("3MI3", ["40,30"]);
  ("3MI6", ["50,50"]);
  ("3MI7", ["2500,80"; "2045,100"]);
  ("3MI8", ["40,30,,,,226"]);
  ("3MI9", ["3000,150"; "5000,150"; "5000,200"]);
  ("3MN0", ["8000,2000"]);
  ("3MN1", ["3400,150"]);
  ("3MN2", ["40,40,,,,204"]);
  ("3MN6", ["50,50"]);
  ("3MN7", ["2200,75"]);
  ("3MN8", ["1200,100,,,,260"]);
  ("3MN9", ["2100,100,,,,226.8"]);
  ("3MO", ["2430,74,,,,220"]);
  ("3MO1", ["25,25"; "25,25"; "25,25"]);
  ("3MO2", ["1500,1500"]);
  ("3MO3", ["60,55"; "70,100"]);
  ("3MO4", ["2600,100,,176.4,,356.4"]);
  ("3MO5", ["2600,65"]);
  ("3MO6", ["2200,60"]);
  ("3MO7", ["2400,60,,,,241"]);
  ("3MO8", ["1738,120"]);
  ("3MO9", ["450,150"]);
  ("3MS0", ["50,50"]);
  ("3MS1", ["3200,60"]);
  ("3MS3", ["3500,75"]);
  ("3MS4", ["100,100,,,,225"]);
  ("3MS5", ["2100,75"]);
  ("3MS6", ["2100,120,,,,257"]);
  ("3MS8", ["3600,60"]);
  ("3MS9", ["2550,200"]);
  ("3MT3", ["2850,60"]);
  ("3N5", ["2546,45"]);
  ("3N8", ["3210,150,,,,267"]);
  ("3N9", ["3650,40"]);
  ("3NA0", ["2600,50"]);
  ("3NA2", ["1200,20"]);
  ("3NA6", ["1950,100"]);
  ("3NA7", ["200,200"]);
  ("3NC0", ["1750,50"]);
  ("3NC1", ["1800,75"]);
  ("3NC2", ["100,50"]);
  ("3NC3", ["1800,50"]);
  ("3NC4", ["4000,100"]);
  ("3NC5", ["2000,75"]);
  ("3NC6", ["2300,23"]);
  ("3NC7", ["1300,60"]);
  ("3NC8", ["45,45"]);
  ("3NC9", ["1600,50,,,,273"]);
  ("3ND5", ["2400,80"]);
  ("3NE2", ["900,150"; "3200,100"]);
  ("3NE3", ["2500,100"]);
  ("3NE6", ["1200,50"; "2600,50"]);
  ("3NE7", ["2800,45"]);
  ("3NH9", ["20,20"]);
  ("3NJ0", ["50,50"]);
  ("3NJ1", ["2568,100"]);
  ("3NJ2", ["75,75"]);
  ("3NJ3", ["100,100"]);
  ("3NJ4", ["50,50"]);
  ("3NJ6", ["4010,60,,,,306"]);
  ("3NJ8", ["30,30"]);
  ("3NJ9", ["1965,70"]);
  ("3NK0", ["2300,60"]);
  ("3NK1", ["50,50"]);
  ("3NK2", ["80,80"]);
  ("3NK3", ["75,75"]);
  ("3NK4", ["2000,50"]);
  ("3NK5", ["1950,50"]);
  ("3NK6", ["1600,65,,,,201.8"]);
  ("3NK7", ["40,40"]);
  ("3NK8", ["1300,40"]);
  ("3NK9", ["110,66"]);
  ("3NO", ["2480,40"]);
  ("3NP", ["2740,200,963,,963"; "2500,160,963,,963"]);
  ("3NR3", ["2903,50"]);
  ("3NY0", ["2200,50"]);
  ("3NY1", ["120,65"]);
  ("3NY2", ["100,100"]);
  ("3NY3", ["3500,75"]);
  ("3NY4", ["1530,75"]);
  ("3NY5", ["1500,30"]);
  ("3NY6", ["3000,50"]);
  ("3NY7", ["2200,40"]);
  ("3NY8", ["55,45"]);
  ("3NY9", ["1800,50"]);
  ("3O5", ["2900,50,1058,174,1058,354"]);
  ("3O8", ["2820,30"]);
  ("3OA9", ["48,48"]);
  ("3OG3", ["2300,40"]);
  ("3OH0", ["2000,30"; "2000,150"]);
  ("3OH1", ["2400,100"]);
  ("3OH2", ["30,30"]);
  ("3OH3", ["2200,40"]);
  ("3OH4", ["2120,50"]);
  ("3OH5", ["800,60"]);
  ("3OH6", ["2460,60"]);
  ("3OH7", ["1900,100"]);
  ("3OH8", ["2300,100"]);
  ("3OH9", ["1700,80"]);
  ("3OI4", ["120,70"]);
  ("3OI5", ["95,50"]);
  ("3OI6", ["2000,75"]);
  ("3OI7", ["300,300"]);
  ("3OI8", ["50,50"]);
  ("3OI9", ["80,80"]);
  ("3OK0", ["2600,80"]);
  ("3OK1", ["2440,100"]);
  ("3OK3", ["20,20"]);
  ("3OK4", ["55,55"]);
  ("3OK5", ["2400,50,,185.9"]);
  ("3OK6", ["100,100"]);
  ("3OK7", ["2200,30"]);
  ("3OK8", ["2230,75"; "2640,75"]);
  ("3OK9", ["1500,35"]);
  ("3OL8", ["4600,40,,34,,214"]);
  ("3OR0", ["40,40"]);
  ("3OR1", ["2000,50"]);
  ("3OR2", ["2200,50"]);
  ("3OR3", ["40,40"]);
  ("3OR4", ["50,50"]);
  ("3OR5", ["25,25"]);
  ("3OR7", ["60,60"]);
  ("3OR8", ["3000,150"]);
  ("3OR9", ["1950,60"]);
  ("3PA0", ["2000,100"]);
  ("3PA2", ["2000,150"]);
  ("3PA4", ["2000,100"]);
  ("3PA5", ["60,60"]);
  ("3PA6", ["1200,100"]);
  ("3PA7", ["80,80"]);
  ("3PA8", ["1500,100"]);
  ("3PA9", ["2800,75,,,,260"; "2800,75"]);
  ("3PN0", ["1500,100"]);
  ("3PN1", ["1800,60"]);
  ("3PN2", ["1200,100"]);
  ("3PN4", ["60,60"]);
  ("3PN5", ["32,32"]);
  ("3PN6", ["2000,100"]);
  ("3PN7", ["2200,80"]);
  ("3PN8", ["44,44"]);
  ("3PN9", ["700,100"]);
  ("3PS0", ["50,50"]);
  ("3PS1", ["60,60"]);
  ("3PS2", ["65,65"]);
  ("3PS3", ["35,35"]);
  ("3PS4", ["1400,100,,,,225"]);
  ("3PS5", ["65,65"]);
  ("3PS6", ["65,65"]);
  ("3PS7", ["65,65"]);
  ("3PS8", ["1500,100"]);
  ("3PS9", ["1855,100,,,,244"]);
  ("3Q0", ["4600,165"]);
  ("3R8", ["2844,100,605,,600,257"]);
  ("3RU", ["2750,120"]);
  ("3S2", ["1808,40,418,121,418,301"]);
  ("3S5", ["2777,120"]);
  ("3S6", ["5350,60"]);
  ("3S7", ["2350,50"]);
  ("3SC2", ["4400,80"]);
  ("3SC3", ["40,40"]);
  ("3SC4", ["3033,50,,59.9"]);
  ("3SC7", ["2750,120"]);
  ("3SD3", ["1600,45"]);
  ("3SD4", ["2300,120"]);
  ("3SD5", ["40,60"]);
  ("3SD6", ["2400,75"]);
  ("3T0", ["3000,60,640,,640"]);
  ("3T2", ["2910,80,,,,247"]);
  ("3T4", ["3300,75,,,,248"]);
  ("3T6", ["1800,22"]);
  ("3T7", ["1852,75,,,,228.4"]);
  ("3T8", ["2450,60"]);
  ("3TA", ["1580,260"; "1900,80"; "2560,100,,,,221"]);
  ("3TA0", ["4000,30,2241,190,,271"]);
  ("3TA1", ["2800,70"]);
  ("3TA2", ["2500,50"]);
  ("3TA3", ["40,15"]);
  ("3TA4", ["3200,75"]);
  ("3TA5", ["3450,30,,10,,285.6"]);
  ("3TA6", ["4280,36,,150"]);
  ("3TA7", ["2500,70"]);
  ("3TA8", ["2700,20"]);
  ("3TA9", ["2900,30"]);
  ("3TE", ["1820,100,,88,,268"; "2660,75,812,179,797,359"]);
  ("3TE0", ["5000,40"]);
  ("3TE1", ["2500,100"]);
  ("3TE2", ["30,25"]);
  ("3TE4", ["2500,75"]);
  ("3TE5", ["2300,18"]);
  ("3TE6", ["2100,80"]);
  ("3TE8", ["3600,120"]);
  ("3TE9", ["3700,160"]);
  ("3TN0", ["750,30"]);
  ("3TN1", ["50,50"]);
  ("3TN3", ["2900,75"]);
  ("3TN4", ["1200,80,,,,229"]);
  ("3TN5", ["50,50"]);
  ("3TN6", ["3000,40,,,,229"]);
  ("3TN7", ["20,20"; "20,20"]);
  ("3TN8", ["1300,75"]);
  ("3TN9", ["2000,100"]);
  ("3TS0", ["2025,50"; "2400,75"]);
  ("3TS1", ["3000,50,,20"]);
  ("3TS2", ["90,90"]);
  ("3TS3", ["1800,100"]);
  ("3TS4", ["40,40"]);
  ("3TS5", ["2900,100"; "2900,100"; "4200,100"]);
  ("3TS6", ["24,24"]);
  ("3TS7", ["2075,60"]);
  ("3TS8", ["60,60"]);
  ("3TS9", ["3000,80"]);
  ("3TX0", ["100,20"]);
  ("3TX1", ["1900,30"]);
  ("3TX2", ["2700,150"]);
  ("3TX3", ["2500,150,,,,268"]);
  ("3TX4", ["1900,100"]);
  ("3TX5", ["2200,150"]);
  ("3TX6", ["2600,110"]);
  ("3TX7", ["2800,100"]);
  ("3TX8", ["2700,60"]);
  ("3TX9", ["2800,50"]);
  ("3U0", ["5250,120"]);
  ("3U1", ["2765,50"]);
  ("3U2", ["3400,150,,191,,11"]);
  ("3U5", ["3650,75"]);
  ("3U9", ["3675,72"]);
  ("3VA0", ["1200,50"]);
  ("3VA1", ["2100,125"]);
  ("3VA2", ["2100,100"]);
  ("3VA3", ["2000,150"; "2500,150"]);
  ("3VA4", ["2000,50"]);
  ("3VA5", ["1700,100,,,,252.7"]);
  ("3VA6", ["200,12"]);
  ("3VA7", ["2000,75"]);
  ("3VA8", ["2600,75"]);
  ("3VA9", ["60,60"]);
  ("3VG2", ["2800,60"]);
  ("3VG3", ["2200,75"]);
  ("3VG4", ["2500,40,,,,334.5"]);
  ("3VG5", ["60,60"]);
  ("3VG6", ["16,16,,,,263.8"]);
  ("3VG7", ["2000,100"; "2470,35,,,,283.7"]);
  ("3VG8", ["200,200,,,,327.4"]);
  ("3VG9", ["1800,100,,,,353"]);
  ("3VS", ["2805,39"; "50,50"]);
  ("3W2", ["2870,75,592,,594,214.1"]);
  ("3W3", ["2400,75,,,,214.1"]);
  ("3W5", ["2609,60,264,,264"; "40,40"]);
  ("3W6", ["2850,135"]);
  ("3W9", ["2085,67,578,,580"]);
  ("3WA0", ["1600,50"]);
  ("3WA1", ["800,60"]);
  ("3WA2", ["2000,30"]);
  ("3WA3", ["2450,60"]);
  ("3WA4", ["1800,60"]);
  ("3WA5", ["500,125"]);
  ("3WA6", ["60,60"]);
  ("3WA7", ["50,50"]);
  ("3WA8", ["40,40"]);
  ("3WA9", ["3200,80"]);
  ("3WI0", ["1100,60"; "1700,60"]);
  ("3WI1", ["1600,100"]);
  ("3WI2", ["3000,90"]);
  ("3WI3", ["2450,75"]);
  ("3WI4", ["2400,75"]);
  ("3WI5", ["1600,100"]);
  ("3WI6", ["1500,50"; "1500,50"]);
  ("3WI7", ["2040,80,,,,268"]);
  ("3WI8", ["2000,100"]);
  ("3WI9", ["2600,100,,,,244"]);
  ("3WN2", ["2000,50,,,,317.5"]);
  ("3WN3", ["50,50,,,,317.5"]);
  ("3WN4", ["1400,250"]);
  ("3WN6", ["2000,100"]);
  ("3WN7", ["850,300"; "850,300"]);
  ("3WN8", ["2650,75,,,,279"]);
  ("3WN9", ["2100,100,,,,265.7"]);
  ("3WV2", ["48,48"]);
  ("3X5", ["1804,60,594,2,587,182"; "1900,150,,22,,182"]);
  ("3XA0", ["2000,20"]);
  ("3XA1", ["2500,60"]);
  ("3XA2", ["44,44"]);
  ("3XA4", ["60,60"]);
  ("3XA5", ["60,60"]);
  ("3XA6", ["42,42"; "42,42"]);
  ("3XA7", ["2000,50"]);
  ("3XA8", ["2500,80"]);
  ("3XA9", ["20,20"; "20,30"]);
  ("3XS0", ["2200,215,,,,267.7"]);
  ("3XS1", ["2640,100"]);
  ("3XS2", ["100,50"]);
  ("3XS3", ["60,40"; "60,40"]);
  ("3XS4", ["2400,70"]);
  ("3XS5", ["2000,75"]);
  ("3XS6", ["40,40"]);
  ("3XS7", ["2000,60"; "1550,60"; "1000,60"]);
  ("3XS8", ["4200,100,,,,273"]);
  ("3XS9", ["70,70"]);
  ("3Y4", ["2045,95,,,,273"]);
  ("3Y7", ["3000,150,2386,,2383,232"]);
  ("3Z1", ["1190,30"]);
  ("3Z8", ["5000,1500,91,,91"]);
  ("3Z9", ["5000,4000"]);
  ("40AK", ["1500,75"]);
  ("40AR", ["3150,40"]);
  ("40AZ", ["2000,75"]);
  ("40C", ["2600,200,656,,656,266"; "1975,200,656,,656"]);
  ("40CA", ["50,50,,,,212"]);
  ("40D", ["3400,120,1636,,1638"]);
  ("40FD", ["60,60,,,,273"]);
  ("40FL", ["3300,80"]);
  ("40GA", ["50,50"]);
  ("40I", ["3142,150,,,,293"]);
  ("40II", ["2100,75"]);
  ("40IL", ["2640,135"]);
  ("40IN", ["2600,75"]);
  ("40IS", ["40,40,,,,241"]);
  ("40KS", ["2400,80"]);
  ("40KY", ["2000,40"]);
  ("40LA", ["4800,130"]);
  ("40ME", ["2900,80"]);
  ("40MN", ["2200,80"]);
  ("40MO", ["2300,50"]);
  ("40MT", ["1460,250"; "960,250"]);
  ("40NC", ["25,25"]);
  ("40ND", ["500,200"]);
  ("40NE", ["3200,125"]);
  ("40NJ", ["100,100"]);
  ("40NY", ["100,100"]);
  ("40OH", ["1300,100"]);
  ("40OI", ["2600,60"]);
  ("40OK", ["2300,65"]);
  ("40OR", ["60,60"]);
  ("40PA", ["70,70"]);
  ("40PN", ["2200,150,,,,228.1"]);
  ("40TA", ["2700,100"]);
  ("40TE", ["1200,100"; "1000,100"; "1300,100"]);
  ("40TS", ["2400,100"]);
  ("40TX", ["21,21"]);
  ("40VA", ["50,50"]);
  ("40WA", ["32,32"]);
  ("40WI", ["2500,50"; "2250,50"]);
  ("40X", ["2480,75"]);
  ("40XS", ["3000,100,,,,261"]);
  ("41AK", ["1900,50"]);
  ("41AR", ["3000,20"]);
  ("41AZ", ["2950,35"]);
  ("41C", ["2200,75,740,,740"; "1800,100,740,,740"]);
  ("41CA", ["1500,50"]);
  ("41CO", ["1700,60"]);
  ("41FD", ["60,60"]);
  ("41FL", ["360,140,,,,238.6"]);
  ("41G", ["1988,100,856,,856"]);
  ("41GA", ["25,25"]);
  ("41ID", ["1800,25"]);
  ("41IL", ["1200,50"; "1600,50"]);
  ("41IN", ["51,54"]);
  ("41KS", ["1600,100"; "1600,100"; "2600,150"]);
  ("41KY", ["120,62"]);
  ("41LA", ["50,50"]);
  ("41MA", ["100,100"]);
  ("41MN", ["2200,150"]);
  ("41MO", ["2100,30"]);
  ("41MT", ["775,200"]);
  ("41NC", ["2000,100"]);
  ("41NJ", ["25,25"]);
  ("41NY", ["1800,75"]);
  ("41OH", ["1600,75"]);
  ("41OI", ["60,60"]);
  ("41OK", ["50,50"; "20,20"]);
  ("41OR", ["53,53"]);
  ("41PA", ["1200,100"; "1276,100"]);
  ("41PN", ["180,110"]);
  ("41TA", ["2700,80"]);
  ("41TE", ["90,90"]);
  ("41TN", ["3058,80"]);
  ("41TS", ["2000,150"]);
  ("41TX", ["2800,30"]);
  ("41WA", ["40,40"]);
  ("41WI", ["3200,100"]);
  ("41XS", ["2500,50"]);
  ("42AK", ["1400,50"]);
  ("42AR", ["60,60"]);
  ("42B", ["2120,50,,,,334"; "4500,1000"]);
  ("42C", ["2917,60,915,,915,277"]);
  ("42CA", ["40,40"]);
  ("42CL", ["100,75,60,,,301"]);
  ("42CN", ["3110,60"]);
  ("42FD", ["40,40"]);
  ("42FL", ["6600,3300"]);
  ("42GA", ["25,25"]);
  ("42II", ["2150,75"]);
  ("42IL", ["100,100"]);
  ("42IN", ["40,40"]);
  ("42KY", ["3000,32,,179,,240"]);
  ("42L", ["105,75,15"]);
  ("42LA", ["70,70"]);
  ("42MA", ["40,40"]);
  ("42MD", ["2400,100"]);
  ("42MI", ["2260,100"]);
  ("42MN", ["1700,200"]);
  ("42MO", ["2225,35"]);
  ("42MS", ["45,45,,,,275"]);
  ("42N", ["3600,100,689,,689"]);
  ("42NC", ["1200,50"]);
  ("42NJ", ["25,25"]);
  ("42NY", ["1150,80"]);
  ("42OH", ["2200,75,,,,262"]);
  ("42OI", ["40,40"]);
  ("42OK", ["60,50"]);
  ("42OR", ["1650,50"]);
  ("42PA", ["65,65"]);
  ("42PN", ["65,65"]);
  ("42TA", ["50,50"]);
  ("42TE", ["2370,80"; "2500,65"]);
  ("42TN", ["2800,100,,,,324"]);
  ("42TS", ["50,50"]);
  ("42TX", ["2100,100"]);
  ("42VA", ["5000,190"]);
  ("42VT", ["700,30"]);
  ("42WA", ["1100,40"]);
  ("42WI", ["50,50"]);
  ("42XS", ["4000,75"]);
  ("43AK", ["2800,100"]);
  ("43AR", ["1300,60"]);
  ("43AZ", ["50,50,,,,270"]);
  ("43CL", ["2800,85,,,,268.9"; "2860,85"]);
  ("43CN", ["1100,10"]);
  ("43CO", ["2600,75"; "2000,75"]);
  ("43FD", ["4500,4500"]);
  ("43FL", ["3280,75"]);
  ("43G", ["2253,80,,,,267"; "2157,160,696,,696"]);
  ("43GA", ["55,50"]);
  ("43I", ["14500,1000"]);
  ("43IG", ["2000,75,,,,292.3"]);
  ("43II", ["20,20"]);
  ("43IN", ["2600,90"]);
  ("43IS", ["150,150,,,,235"]);
  ("43K", ["2745,95"; "2722,50"; "2573,40"; "2310,67"]);
  ("43KS", ["2800,50"]);
  ("43KY", ["150,150,,,,345"]);
  ("43L", ["50,50,850,,,345"]);
  ("43LA", ["1600,100"]);
  ("43MI", ["3000,68,720,,720,210"]);
  ("43MO", ["2500,30"]);
  ("43NC", ["3000,100,,6,,212"]);
  ("43NE", ["3400,50"]);
  ("43NY", ["1500,50,1993,20,1993,200"]);
  ("43OA", ["1400,100"]);
  ("43OI", ["2300,80"]);
  ("43OK", ["4200,60"]);
  ("43PA", ["3200,100"]);
  ("43PN", ["100,100"]);
  ("43TA", ["3452,100"]);
  ("43TE", ["30,30"]);
  ("43TN", ["1350,20"]);
  ("43TX", ["1925,90"]);
  ("43WA", ["400,400,35"]);
  ("43WI", ["800,90,,,,215"; "90,90,,,,358"]);
  ("43XS", ["30,30"]);
  ("43Y", ["2201,148,1410,,1420,340"; "3199,147,1420,,1427,233"]);
  ("44A", ["2800,60"]);
  ("44AK", ["1600,50"]);
  ("44AR", ["37,37"]);
  ("44AZ", ["2640,100"]);
  ("44B", ["2926,75,478,,517"]);
  ("44CA", ["2640,660"]);
  ("44CN", ["43,36,509,,,279"]);
  ("44CO", ["2640,80"]);
  ("44FD", ["424,424"]);
  ("44FL", ["37,37,,,,269"]);
  ("44G", ["2602,92,691,89,691,270"]);
  ("44GA", ["3000,100"]);
  ("44ID", ["2100,50"]);
  ("44II", ["1600,75"]);
  ("44IL", ["100,100,,,,350"]);
  ("44IS", ["1520,70"]);
  ("44KS", ["2000,75"; "1650,75"; "2600,100"]);
  ("44KY", ["2300,30"]);
  ("44L", ["50,40"]);
  ("44LA", ["3400,160"]);
  ("44LL", ["30,30"]);
  ("44M", ["2600,75,,,,253"]);
  ("44MD", ["60,60"]);
  ("44MI", ["2033,100"]);
  ("44MN", ["70,70"]);
  ("44MO", ["1200,45"]);
  ("44MU", ["1800,60"]);
  ("44NC", ["2200,200"]);
  ("44ND", ["2500,30"; "1600,25"]);
  ("44NY", ["2000,50"]);
  ("44OH", ["50,50"]);
  ("44OI", ["42,42"]);
  ("44OK", ["2500,60"]);
  ("44OR", ["2000,60"]);
  ("44PA", ["2100,100"]);
  ("44PN", ["50,50"]);
  ("44T", ["2015,116"]);
  ("44TA", ["20,20"]);
  ("44TE", ["2600,100"]);
  ("44TN", ["1121,120"]);
  ("44TS", ["3000,100"]);
  ("44TX", ["2500,14"]);
  ("44VA", ["2800,100,,,,302"]);
  ("44WA", ["40,40"]);
  ("44WI", ["1550,60,,,,342"]);
  ("44WY", ["3258,70,,,,265.9"]);
  ("44XS", ["50,50"]);
  ("45AK", ["2600,40"]);
  ("45AR", ["2230,150"; "1480,150"]);
  ("45CA", ["80,80"]);
  ("45CL", ["2600,50"]);
  ("45CN", ["2700,60,2892,111,2930,291"]);
  ("45CO", ["15,15"]);
  ("45FD", ["40,40"]);
  ("45FL", ["2300,50,,,,293"]);
  ("45IA", ["50,50"]);
  ("45II", ["2000,150"]);
  ("45IL", ["50,50"]);
  ("45IN", ["2000,50"]);
  ("45IS", ["30,30"]);
  ("45KS", ["2200,100"]);
  ("45KY", ["60,60"]);
  ("45L", ["50,40"]);
  ("45LA", ["800,200"]);
  ("45MI", ["2150,80,630,,630"]);
  ("45MN", ["1700,75"]);
  ("45MO", ["2100,20"; "50,50"]);
  ("45MT", ["2600,40,,,,348"]);
  ("45NC", ["1750,50"]);
  ("45NH", ["35,35"]);
  ("45NY", ["60,60"]);
  ("45OG", ["2000,35,,,,327"]);
  ("45OH", ["1600,80"]);
  ("45OI", ["2100,60"]);
  ("45OK", ["2000,50"]);
  ("45OR", ["1750,30"]);
  ("45PA", ["27,27"]);
  ("45S", ["3000,55,4492"]);
  ("45TA", ["50,50"]);
  ("45TE", ["2000,150"]);
  ("45TN", ["1800,25"]);
  ("45TS", ["100,50"]);
  ("45TX", ["2500,75,,,,214.7"]);
  ("45WA", ["40,40"]);
  ("45WI", ["2000,80"]);
  ("45XS", ["3600,150"]);
  ("46AK", ["1250,100"]);
  ("46AR", ["4000,100"]);
  ("46CA", ["2500,20"]);
  ("46CL", ["36,36"]);
  ("46CN", ["4500,250,,84,,334.1"]);
  ("46CO", ["2500,50"]);
  ("46FD", ["2400,65"]);
  ("46FL", ["32,32,,,,227"]);
  ("46GA", ["45,45"]);
  ("46IA", ["2600,80,,,,284"]);
  ("46II", ["40,40,,,,2"]);
  ("46IL", ["44,44"]);
  ("46IN", ["2200,125"]);
  ("46KS", ["2648,50"]);
  ("46KY", ["20,20"]);
  ("46LL", ["80,80,,,,272"]);
  ("46LS", ["2600,100,,,,304"]);
  ("46ME", ["60,60,,,,221"]);
  ("46MI", ["2400,100"]);
  ("46MS", ["2400,40"]);
  ("46N", ["2664,30,323,1,316,181"]);
  ("46NC", ["1500,300"]);
  ("46NE", ["2100,60"; "2800,60"]);
  ("46NJ", ["2300,60,,,,250"]);
  ("46NY", ["2200,60"]);
  ("46OH", ["1400,60"]);
  ("46OK", ["2600,80"]);
  ("46OR", ["250,70"]);
  ("46PA", ["65,65"]);
  ("46PN", ["60,60"]);
  ("46SC", ["1500,100"]);
  ("46TA", ["4000,60,,,,312"]);
  ("46TE", ["3500,100"; "5000,100"]);
  ("46TN", ["40,40"]);
  ("46TS", ["2570,35"; "1900,20"]);
  ("46TX", ["2200,50"]);
  ("46VA", ["1450,50"]);
  ("46WA", ["70,60"]);
  ("46WI", ["40,40,,,,5"]);
  ("46XS", ["2000,40"]);
  ("47AK", ["1400,50"]);
  ("47AR", ["1350,50"]);
  ("47AZ", ["3200,60"]);
  ("47CA", ["50,50,,,,293"]);
  ("47CL", ["25,25,,,,197"]);
  ("47CN", ["150,60,,,,219"]);
  ("47CO", ["2700,25"; "2200,25"]);
  ("47FD", ["2400,100"]);
  ("47FL", ["3000,100"]);
  ("47G", ["2300,100,790,,790"; "2200,100,790,,790"]);
  ("47GA", ["2500,80"]);
  ("47II", ["2400,80"]);
  ("47IL", ["2300,70"]);
  ("47IN", ["2600,70"]);
  ("47IS", ["1600,80"]);
  ("47KS", ["2100,50,1011,,980,217"]);
  ("47KY", ["75,75"]);
  ("47LA", ["74,42"]);
  ("47M", ["2000,150"]);
  ("47MA", ["50,50,,,,309"]);
  ("47MI", ["2270,80"]);
  ("47MN", ["2100,115"]);
  ("47MO", ["1800,60"]);
  ("47NC", ["2890,150"]);
  ("47NE", ["39,39"]);
  ("47NJ", ["85,85"]);
  ("47NY", ["1800,60"]);
  ("47OH", ["3000,50,,83.1,,244.4"]);
  ("47OI", ["45,45"]);
  ("47OK", ["1950,50"; "2500,50"; "1700,50"; "1220,50"]);
  ("47OR", ["3400,70"]);
  ("47PA", ["1200,100"]);
  ("47PN", ["150,80"]);
  ("47TA", ["2540,70"]);
  ("47TE", ["2300,40"]);
  ("47TN", ["50,50"]);
  ("47TS", ["2600,40"]);
  ("47TX", ["4000,30,,115.5,,245"]);
  ("47VA", ["60,60"]);
  ("47WA", ["75,75"]);
  ("47WI", ["2100,30"]);
  ("47XS", ["2200,40"]);
  ("47Y", ["3260,150,1389,,1379,215"]);
  ("48AK", ["1320,45"]);
  ("48AZ", ["2300,75"]);
  ("48CA", ["50,50"]);
  ("48CL", ["66,66,,,,197"]);
  ("48CN", ["2100,100"]);
  ("48CO", ["2600,50"]);
  ("48FD", ["40,40"]);
  ("48FL", ["2380,100"]);
  ("48G", ["1986,95"]);
  ("48GA", ["25,25"]);
  ("48II", ["1500,50"]);
  ("48IL", ["2152,102"]);
  ("48IN", ["350,275,,,,234.8"]);
  ("48IS", ["2600,75"]);
  ("48KY", ["30,30"]);
  ("48LA", ["90,60"]);
  ("48LL", ["2300,200"]);
  ("48MD", ["2050,80"]);
  ("48MI", ["80,70"]);
  ("48MO", ["30,30"]);
  ("48MT", ["75,45,,,,7"]);
  ("48NC", ["1200,200"]);
  ("48ND", ["2500,80"]);
  ("48NE", ["25,25"]);
  ("48NH", ["5000,500"; "5000,500"; "5000,500"]);
  ("48NJ", ["145,115"]);
  ("48NY", ["50,50"]);
  ("48OH", ["2100,30"]);
  ("48OI", ["100,64"]);
  ("48OR", ["2600,20"]);
  ("48P", ["1000,100"]);
  ("48PA", ["100,100"]);
  ("48SN", ["30,30"]);
  ("48T", ["1700,60"]);
  ("48TA", ["30,30"]);
  ("48TE", ["5000,75"]);
  ("48TS", ["2200,75"]);
  ("48TX", ["3900,150"]);
  ("48U", ["5800,130"]);
  ("48VA", ["1500,50"; "900,30"]);
  ("48VT", ["4000,300"]);
  ("48WA", ["2400,36"]);
  ("48WI", ["2400,50"]);
  ("48X", ["3405,100,,,,226"]);
  ("48XS", ["5000,40,,138.2,,355.3"]);
  ("48Y", ["3298,75,1078,153,1066,333"]);
  ("49AK", ["2800,60"]);
  ("49C", ["2250,75,755,,755"]);
  ("49CA", ["48,48"]);
  ("49CL", ["3000,50"]);
  ("49CN", ["3750,40,,,,231.1"]);
  ("49CO", ["2640,60"]);
  ("49F", ["3000,35"]);
  ("49FD", ["2200,75"]);
  ("49FL", ["2400,100"]);
  ("49G", ["1800,100,859,,859"]);
  ("49GA", ["30,30"]);
  ("49II", ["1900,60"]);
  ("49IL", ["2200,100,,90,,251"]);
  ("49IN", ["2200,100"]);
  ("49IS", ["42,40"]);
  ("49K", ["3230,80"]);
  ("49KS", ["2200,100"]);
  ("49KY", ["20,20,,,,216"]);
  ("49LA", ["64,68,,,,270.2"]);
  ("49LL", ["30,30,,,,240.2"]);
  ("49MI", ["48,24"]);
  ("49MN", ["2200,75"]);
  ("49MO", ["200,200"]);
  ("49N", ["2300,100"]);
  ("49NC", ["50,50"]);
  ("49NJ", ["1000,100"]);
  ("49NY", ["1400,200"]);
  ("49OH", ["2300,50"]);
  ("49OI", ["32,23"]);
  ("49OK", ["30,30"]);
  ("49OR", ["2600,30"]);
  ("49PA", ["1800,100"]);
  ("49PN", ["46,46"]);
  ("49S", ["3860,110"]);
  ("49T", ["60,60"; "60,60"]);
  ("49TA", ["3500,150"]);
  ("49TE", ["1100,75"]);
  ("49TS", ["20,20"]);
  ("49TX", ["60,60"]);
  ("49U", ["4650,90"; "2950,75"]);
  ("49VA", ["50,50"]);
  ("49WA", ["3230,300"]);
  ("49WI", ["2200,66"]);
  ("49XS", ["3600,70"]);
  ("4A2", ["3000,75,,,,217"]);
  ("4A3", ["5000,2500"]);
  ("4AA4", ["46,46"]);
  ("4AK", ["1415,50"]);
  ("4AK0", ["2700,75"]);
  ("4AK1", ["5000,150"]);
  ("4AK2", ["900,60"]);
  ("4AK3", ["1150,30"]);
  ("4AK5", ["2300,40"]);
  ("4AK6", ["3800,70,,82"; "2600,100,,201.5,,193"; "2800,100"]);
  ("4AK7", ["1200,25"; "1150,35"]);
  ("4AK8", ["2500,75"]);
  ("4AK9", ["1700,60"]);
  ("4AL0", ["60,60"]);
  ("4AL3", ["75,75"]);
  ("4AL4", ["20,20"]);
  ("4AL5", ["50,50"]);
  ("4AL6", ["1600,160"]);
  ("4AL7", ["3000,100"]);
  ("4AL8", ["2600,200,639,,637"]);
  ("4AL9", ["2909,30,,,,252"]);
  ("4AR0", ["44,44,,,,210"]);
  ("4AR1", ["3000,30,,88.9,,268.3"]);
  ("4AR2", ["3700,100,,92.7,,296.8"]);
  ("4AR3", ["50,40"]);
  ("4AR5", ["3900,300,,,,277"]);
  ("4AR6", ["2600,30"]);
  ("4AR8", ["45,45,,,,266.4"]);
  ("4AR9", ["1350,90,,,,266"]);
  ("4AZ0", ["4000,200"]);
  ("4AZ1", ["30,30"]);
  ("4AZ2", ["3500,50"]);
  ("4AZ3", ["20,20"; "20,20"]);
  ("4AZ4", ["20,20,,,,310"]);
  ("4AZ5", ["30,25"]);
  ("4AZ6", ["1500,40,,,,228"]);
  ("4AZ7", ["7335,70,2896,144.2,2805,303"]);
  ("4AZ8", ["1650,75"; "850,75"; "1650,75"]);
  ("4AZ9", ["2640,70"]);
  ("4B0", ["2854,60,184,353,195,173"]);
  ("4B1", ["2600,45"]);
  ("4B9", ["2205,50"]);
  ("4C1", ["2745,100,725,,725"]);
  ("4C2", ["2340,100,900,,900,300.5"]);
  ("4C3", ["65,65"]);
  ("4C4", ["2450,75"]);
  ("4C7", ["2725,100,1070"]);
  ("4CA0", ["205,105"]);
  ("4CA1", ["60,60"]);
  ("4CA2", ["1880,20"]);
  ("4CA3", ["2200,400,,,,207"]);
  ("4CA4", ["64,94"]);
  ("4CA5", ["50,45"]);
  ("4CA6", ["70,70,,,,268"]);
  ("4CA7", ["2700,60"]);
  ("4CA8", ["2610,50,,,,202"; "2610,40"]);
  ("4CA9", ["50,50,,,,305"]);
  ("4CL1", ["74,40,,,,206"]);
  ("4CL2", ["50,50"]);
  ("4CL3", ["2384,60"]);
  ("4CL4", ["3530,100"; "2200,100"]);
  ("4CL5", ["40,40,,,,257.7"]);
  ("4CL6", ["26,26"]);
  ("4CL7", ["60,60"]);
  ("4CL8", ["55,55"]);
  ("4CL9", ["70,70"; "104,104"]);
  ("4CO0", ["3165,100"]);
  ("4CO1", ["75,75"]);
  ("4CO2", ["3500,24"; "3500,24"; "2100,50"; "2000,50"]);
  ("4CO3", ["3200,100"]);
  ("4CO4", ["82,54"]);
  ("4CO5", ["70,70,,,,270"]);
  ("4CO6", ["60,60"]);
  ("4CO7", ["2500,60"]);
  ("4CO8", ["1400,50"]);
  ("4CO9", ["36,36"]);
  ("4D1", ["2740,90,920,,921"]);
  ("4D5", ["300,300"]);
  ("4D8", ["2873,50,1437,90,1436,270"; "1990,100,1434,180,1435,234"]);
  ("4D9", ["3280,120"]);
  ("4E8", ["4000,120"]);
  ("4E9", ["90,90"]);
  ("4F1", ["2900,42,,,,281.2"]);
  ("4FA3", ["2000,100"]);
  ("4FD2", ["2400,100"]);
  ("4FD3", ["1320,85,,,,237.8"]);
  ("4FD4", ["4000,100"]);
  ("4FD5", ["2000,100"]);
  ("4FD6", ["100,100"]);
  ("4FD7", ["1800,135"]);
  ("4FD8", ["100,100"]);
  ("4FD9", ["81,81,,,,257.6"]);
  ("4FL0", ["4700,75,,,,321.6"]);
  ("4FL1", ["2500,250"]);
  ("4FL2", ["1800,50"]);
  ("4FL3", ["4800,200,,,,247.8"]);
  ("4FL4", ["2000,150"]);
  ("4FL5", ["3000,60"]);
  ("4FL7", ["40,40"]);
  ("4FL8", ["4000,90"]);
  ("4FL9", ["1980,75,,,,262"]);
  ("4G0", ["2280,28"]);
  ("4G1", ["2551,118,1202,41,1202,221"; "2703,75,1162,141,1202,321"]);
  ("4G2", ["2465,30,,,,317.7"]);
  ("4G3", ["2912,50,1056,91,1067,271"]);
  ("4G7", ["2859,75,1029,37,1009,217"]);
  ("4GA1", ["2800,50"]);
  ("4GA2", ["63,63,,,,208"]);
  ("4GA3", ["30,30,,,,257.9"]);
  ("4GA4", ["1300,150"]);
  ("4GA6", ["1500,50"]);
  ("4GA7", ["2000,80"]);
  ("4GA8", ["3000,60"]);
  ("4GA9", ["1400,100"]);
  ("4GE0", ["1875,80"; "3400,135"]);
  ("4GE1", ["2000,100"]);
  ("4GE3", ["4017,70"]);
  ("4H1", ["25,25,,,,227"]);
  ("4IA0", ["60,60,,,,330.1"]);
  ("4IA1", ["50,50"]);
  ("4IA2", ["2300,66"]);
  ("4IA3", ["60,60"]);
  ("4IA4", ["3000,90"]);
  ("4IA5", ["50,50"]);
  ("4IA7", ["1700,100"]);
  ("4IA8", ["3000,130"]);
  ("4II0", ["2300,100"]);
  ("4II2", ["1320,330,,,,310.6"; "1320,330"]);
  ("4II3", ["1150,50"]);
  ("4II4", ["2200,70"]);
  ("4II5", ["30,30"]);
  ("4II6", ["3000,100,,,,320"]);
  ("4II8", ["3500,100"]);
  ("4II9", ["2400,75"]);
  ("4IL0", ["30,30,,,,323.5"]);
  ("4IL2", ["1600,150"]);
  ("4IL3", ["750,70,,,,307"]);
  ("4IL4", ["2800,100,,,,226"]);
  ("4IL5", ["2040,100"]);
  ("4IL6", ["32,32"]);
  ("4IL7", ["40,40,,,,359"]);
  ("4IL8", ["1900,80"]);
  ("4IL9", ["2280,140,,,,290.3"]);
  ("4IN1", ["2700,500"]);
  ("4IN2", ["2500,1000"]);
  ("4IN3", ["50,50"]);
  ("4IN4", ["2300,75,,,,238.6"]);
  ("4IN5", ["1700,70"]);
  ("4IN6", ["20,20,,,,299"]);
  ("4IN7", ["4030,50,,,,253"]);
  ("4IN8", ["3660,100,,,,292"]);
  ("4IN9", ["2150,80"]);
  ("4IS0", ["40,40"]);
  ("4IS2", ["41,41"]);
  ("4IS3", ["38,30"]);
  ("4IS4", ["40,40"]);
  ("4IS5", ["1600,70"]);
  ("4IS6", ["1800,70"]);
  ("4IS7", ["2200,70"]);
  ("4IS8", ["1320,70"]);
  ("4IS9", ["2769,100"]);
  ("4K0", ["3000,60"]);
  ("4K5", ["2085,80"]);
  ("4KA", ["1778,30,14,101,11,281"]);
  ("4KS1", ["2600,30"]);
  ("4KS2", ["1700,50,,,,227"]);
  ("4KS6", ["1200,40"]);
  ("4KS7", ["2687,40"]);
  ("4KS8", ["3000,100"]);
  ("4KY0", ["1300,100"]);
  ("4KY1", ["1700,50"]);
  ("4KY2", ["50,50,,,,223.7"]);
  ("4KY3", ["50,50"]);
  ("4KY4", ["2000,75"]);
  ("4KY5", ["750,70"]);
  ("4KY6", ["40,40,,,,230"]);
  ("4KY7", ["1600,60"]);
  ("4KY8", ["2100,85"]);
  ("4KY9", ["43,43,,,,330.9"]);
  ("4LA0", ["15000,200"; "15000,100"]);
  ("4LA1", ["25,25"]);
  ("4LA2", ["24,24"]);
  ("4LA3", ["3000,75,,157.4"]);
  ("4LA4", ["900,25"]);
  ("4LA5", ["25,25"]);
  ("4LA6", ["24,24"]);
  ("4LA7", ["112,72"]);
  ("4LA8", ["2000,30"]);
  ("4LA9", ["1000,192"]);
  ("4LL0", ["2600,70"]);
  ("4LL1", ["3000,100"]);
  ("4LL3", ["2000,100"]);
  ("4LL4", ["1000,200"]);
  ("4LL7", ["2800,100"]);
  ("4LL8", ["2600,125"]);
  ("4LL9", ["1980,75"]);
  ("4M0", ["2537,100,,,,239.8"]);
  ("4M5", ["2980,50,135,18,135,198"]);
  ("4M8", ["2420,30,212,181,205,1"]);
  ("4MA0", ["100,100,,,,196"]);
  ("4MA1", ["75,75,,,,306"]);
  ("4MA2", ["50,50"]);
  ("4MA3", ["25,25"]);
  ("4MA4", ["50,50,,,,211.7"]);
  ("4MA6", ["50,50,,,,355.5"]);
  ("4MA7", ["145,60,,,,256"]);
  ("4MA8", ["100,100,,,,300"]);
  ("4MA9", ["90,90"]);
  ("4MD", ["45,45"]);
  ("4MD0", ["1600,60,,,,269.7"]);
  ("4MD1", ["3000,50"]);
  ("4MD2", ["1883,75"]);
  ("4MD3", ["1775,40,,,,202.9"]);
  ("4MD4", ["1750,80"]);
  ("4MD6", ["1800,50"]);
  ("4MD7", ["1600,100,,,,233"]);
  ("4MD8", ["2800,90"]);
  ("4MD9", ["2600,120"]);
  ("4ME4", ["10000,500"]);
  ("4MI0", ["2400,175"]);
  ("4MI1", ["2300,100,830,,830,224"]);
  ("4MI3", ["1600,100"]);
  ("4MI4", ["2607,55"]);
  ("4MI5", ["200,200,,,,221.3"]);
  ("4MI6", ["2300,50"]);
  ("4MI7", ["1760,25"; "100,100"]);
  ("4MI9", ["40,40"]);
  ("4MN0", ["2350,150"]);
  ("4MN2", ["1800,75"]);
  ("4MN3", ["200,85,,,,283.4"]);
  ("4MN4", ["2240,118"]);
  ("4MN5", ["2250,100,1115,,1122"]);
  ("4MN7", ["2850,75,,,,228"]);
  ("4MN8", ["3960,200"]);
  ("4MO", ["2360,75,,,,331"]);
  ("4MO0", ["2200,65"]);
  ("4MO2", ["2000,60"]);
  ("4MO3", ["1800,50"]);
  ("4MO4", ["1850,36"]);
  ("4MO6", ["2300,100"]);
  ("4MO7", ["2200,40"]);
  ("4MO8", ["2100,80"]);
  ("4MO9", ["2600,60"]);
  ("4MS0", ["2300,70"]);
  ("4MS1", ["200,200,,,,271"]);
  ("4MS2", ["2700,150"]);
  ("4MS3", ["3000,80"]);
  ("4MS4", ["1500,50"]);
  ("4MS5", ["2450,100,,,,221"]);
  ("4MS6", ["40,40,,,,221"]);
  ("4MS7", ["1550,50"]);
  ("4MS8", ["45,45,,,,212"]);
  ("4MS9", ["2100,100,,,,276"]);
  ("4MT1", ["2800,100"]);
  ("4N0", ["2697,125,,,,243"]);
  ("4N2", ["2130,175"]);
  ("4N4", ["2600,100,1084,,1086"]);
  ("4N7", ["2665,200,,,,202"])].

(* ADRpy/data/runways.csv *)
Definition airports_5 : list (string * list string) := [
  ("4NA0", ["1800,80"]);
  ("4NA1", ["2000,50"]);
  ("4NA3", ["2600,50"]);
  ("4NA5", ["1760,36"]);
  ("4NA6", ["2000,60"; "1500,60"]);
  ("4NC0", ["2000,60"]);
  ("4NC1", ["100,100"]);
  ("4NC2", ["2000,150"]);
  ("4NC3", ["2400,75"]);
  ("4NC4", ["55,55"]);
  ("4NC5", ["2750,100,,,,235.4"]);
  ("4NC6", ["2680,160"]);
  ("4NC7", ["1700,75"]);
  ("4NC8", ["2600,75"]);
  ("4NC9", ["900,50"]);
  ("4ND1", ["3440,165"]);
  ("4ND4", ["2300,45"]);
  ("4ND8", ["3300,150"]);
  ("4NE0", ["2600,75"]);
  ("4NE1", ["4000,60"; "2600,60"]);
  ("4NE3", ["80,80"]);
  ("4NE8", ["2640,150"; "3000,100"]);
  ("4NE9", ["3100,80"]);
  ("4NJ0", ["3600,150,,,,215"]);
  ("4NJ1", ["100,100"]);
  ("4NJ3", ["100,100"]);
  ("4NJ4", ["85,85"]);
  ("4NJ5", ["300,100"]);
  ("4NJ6", ["48,48"]);
  ("4NJ8", ["1700,200"]);
  ("4NK0", ["45,45"]);
  ("4NK1", ["2000,34"]);
  ("4NK2", ["2000,75,,,,229"]);
  ("4NK3", ["2000,30"; "50,50"]);
  ("4NK4", ["2900,60"]);
  ("4NK5", ["2600,92"]);
  ("4NK6", ["3100,75,,,,248"]);
  ("4NK7", ["40,40"]);
  ("4NK8", ["2000,50"]);
  ("4NK9", ["70,70"]);
  ("4NY0", ["1800,75"]);
  ("4NY1", ["2000,150"]);
  ("4NY2", ["5000,500"; "10000,500"; "10000,500"]);
  ("4NY3", ["50,50"]);
  ("4NY4", ["1500,100"]);
  ("4NY5", ["30,30"]);
  ("4NY6", ["600,600"]);
  ("4NY8", ["1115,150"]);
  ("4NY9", ["75,40"]);
  ("4O1", ["2125,30"]);
  ("4O6", ["10000,800"; "4000,200"]);
  ("4O7", ["2215,75"]);
  ("4OA8", ["2000,100,,,,266"]);
  ("4OH0", ["100,100"]);
  ("4OH1", ["2200,80"]);
  ("4OH2", ["40,40"]);
  ("4OH3", ["3000,85"]);
  ("4OH4", ["1900,120"; "2800,120"]);
  ("4OH5", ["120,72"]);
  ("4OH6", ["1000,1000"]);
  ("4OH7", ["24,36"]);
  ("4OH8", ["1800,100"]);
  ("4OH9", ["50,50"]);
  ("4OI0", ["40,40"]);
  ("4OI1", ["15,15"]);
  ("4OI3", ["100,100"]);
  ("4OI5", ["60,60"]);
  ("4OI7", ["2900,100"]);
  ("4OI8", ["3400,75"]);
  ("4OI9", ["1600,100"]);
  ("4OK3", ["40,40"]);
  ("4OK4", ["2600,50"]);
  ("4OK5", ["3300,75"]);
  ("4OK8", ["1600,25"]);
  ("4OK9", ["17,17"]);
  ("4OR0", ["2500,60"]);
  ("4OR1", ["200,100"]);
  ("4OR2", ["60,50"]);
  ("4OR3", ["1700,100"]);
  ("4OR4", ["1600,40"]);
  ("4OR5", ["1500,30"]);
  ("4OR6", ["1850,50"]);
  ("4OR7", ["2200,60"]);
  ("4OR8", ["1050,75"]);
  ("4P2", ["100,100"]);
  ("4P5", ["2640,1000"; "9000,1000"]);
  ("4PA0", ["2870,50,456,100.4,478"]);
  ("4PA1", ["1200,100"]);
  ("4PA2", ["60,60"]);
  ("4PA4", ["100,100"]);
  ("4PA5", ["2200,30"]);
  ("4PA6", ["3100,100,,,,243"]);
  ("4PA7", ["1500,100,,,,340"]);
  ("4PA8", ["1500,100"]);
  ("4PA9", ["72,72"]);
  ("4PN0", ["2000,100"]);
  ("4PN3", ["60,50"]);
  ("4PN4", ["50,50"]);
  ("4PN5", ["65,65"]);
  ("4PN6", ["100,100"]);
  ("4PN7", ["1600,100"]);
  ("4PN8", ["1600,120"]);
  ("4PS2", ["60,55"]);
  ("4PS3", ["1400,400"]);
  ("4PS4", ["2500,100"]);
  ("4PS5", ["2700,100"]);
  ("4PS7", ["1887,100"]);
  ("4PS8", ["32,32"]);
  ("4PS9", ["50,50"]);
  ("4R6", ["2210,90,1090,,1090"]);
  ("4S4", ["2000,45"]);
  ("4S5", ["2600,50,835,180,837"]);
  ("4S6", ["2509,140,2961,,2964"]);
  ("4S7", ["2800,30"]);
  ("4SC4", ["850,50"]);
  ("4SC7", ["4200,200"]);
  ("4SD4", ["2400,100"]);
  ("4T7", ["101,35"]);
  ("4TA0", ["3200,35,,170,,221"]);
  ("4TA1", ["1800,40"]);
  ("4TA3", ["2600,75"]);
  ("4TA4", ["2250,100"]);
  ("4TA5", ["1800,50"]);
  ("4TA6", ["3000,60,,150,,215"]);
  ("4TA7", ["50,50"]);
  ("4TA8", ["3300,50"]);
  ("4TA9", ["100,100"]);
  ("4TE0", ["5350,42,,137,,317"]);
  ("4TE1", ["1900,80"; "1900,80"]);
  ("4TE2", ["2200,50"]);
  ("4TE3", ["3000,60"; "2000,60"]);
  ("4TE4", ["3200,75"; "3600,60"; "3300,75"]);
  ("4TE5", ["90,90"]);
  ("4TE7", ["3800,60,,,,280.3"]);
  ("4TE8", ["6000,75,,153,,333"]);
  ("4TE9", ["4400,150,,80,,221"]);
  ("4TN0", ["1200,50,,,,221"]);
  ("4TN1", ["30,30"]);
  ("4TN2", ["2200,75"]);
  ("4TN3", ["4000,60,,,,259"]);
  ("4TN4", ["2600,100"]);
  ("4TN5", ["20,20"]);
  ("4TN7", ["50,50"]);
  ("4TN8", ["60,60"]);
  ("4TN9", ["2250,100"]);
  ("4TS0", ["63,63"]);
  ("4TS1", ["25,25"]);
  ("4TS2", ["30,30"]);
  ("4TS3", ["60,60"]);
  ("4TS4", ["25,25"]);
  ("4TS5", ["2200,60,,,,253"]);
  ("4TS6", ["90,90"]);
  ("4TS7", ["4500,100"]);
  ("4TS8", ["3000,150,,135,,315"]);
  ("4TS9", ["50,50"]);
  ("4TX0", ["3500,50,,,,269.4"]);
  ("4TX1", ["40,40"]);
  ("4TX2", ["2600,110,,,,269"]);
  ("4TX3", ["2450,60"]);
  ("4TX4", ["2000,30"]);
  ("4TX5", ["3200,50"]);
  ("4TX6", ["2780,50"]);
  ("4TX7", ["2500,90"]);
  ("4TX8", ["2600,100"]);
  ("4TX9", ["54,54"]);
  ("4U4", ["3650,50"; "2254,55"]);
  ("4U7", ["2600,65"]);
  ("4U8", ["1225,70,,,,293.7"]);
  ("4V6", ["2750,300,,,,319.4"]);
  ("4V8", ["2650,75,1948,350,1950,170"]);
  ("4VA1", ["2400,100"]);
  ("4VA2", ["50,50"]);
  ("4VA3", ["2250,50"]);
  ("4VA4", ["2000,75"]);
  ("4VA5", ["2000,100"]);
  ("4VA6", ["2450,60"]);
  ("4VA7", ["125,60"]);
  ("4VA8", ["1600,100"]);
  ("4VA9", ["1800,50"]);
  ("4VG2", ["1600,40"]);
  ("4W0", ["2344,200"]);
  ("4W4", ["1950,70,,,,297.9"]);
  ("4W6", ["2539,,74,,67"]);
  ("4W7", ["2200,150"]);
  ("4W8", ["2280,30,,88,,268"]);
  ("4W9", ["2800,85,,,,263.3"]);
  ("4WA0", ["3700,65,,90,,263.3"]);
  ("4WA1", ["2000,60"]);
  ("4WA2", ["2600,40"]);
  ("4WA3", ["40,40"]);
  ("4WA4", ["1850,75"]);
  ("4WA6", ["2600,26"]);
  ("4WA7", ["40,40"]);
  ("4WA8", ["2200,80"]);
  ("4WA9", ["2460,28,,,,298"]);
  ("4WI0", ["2800,100,,,,301.2"]);
  ("4WI1", ["2600,70"]);
  ("4WI2", ["900,70"; "2300,70"]);
  ("4WI3", ["2650,120,,,,257.8"; "1800,100"]);
  ("4WI4", ["2500,70,,161.8,,224"]);
  ("4WI5", ["1800,100"]);
  ("4WI6", ["1200,15"]);
  ("4WI8", ["2500,50,,,,289"]);
  ("4WN2", ["1200,60"]);
  ("4WN3", ["2500,150"]);
  ("4WN4", ["3100,100,,,,329"; "6000,600"; "2000,100"]);
  ("4WN5", ["2552,65"]);
  ("4WN6", ["50,50,,,,196"]);
  ("4WN7", ["107,75"]);
  ("4WN8", ["50,59,,,,180"]);
  ("4WN9", ["1600,70,,,,203"]);
  ("4WV4", ["2000,60"]);
  ("4XA2", ["2400,100"]);
  ("4XA3", ["2500,50"]);
  ("4XA4", ["3000,60"]);
  ("4XA5", ["1849,50"]);
  ("4XA6", ["40,40"]);
  ("4XA7", ["30,30,,,,6"]);
  ("4XA8", ["40,40"]);
  ("4XS0", ["5200,200"; "3650,200"]);
  ("4XS1", ["2500,100"]);
  ("4XS2", ["1182,95"]);
  ("4XS3", ["120,120"]);
  ("4XS4", ["65,65,,,,245"]);
  ("4XS5", ["4000,60"]);
  ("4XS6", ["2085,100"]);
  ("4XS8", ["2100,40"]);
  ("4XS9", ["2350,30"]);
  ("4Y1", ["2206,60"]);
  ("4Y8", ["2500,65,,,,249"]);
  ("4Y9", ["2400,100,1010,,1010"]);
  ("4Z2", ["1400,45"; "1200,60"]);
  ("4Z5", ["900,12"]);
  ("4Z7", ["10000,1000"]);
  ("4Z9", ["1000,35"]);
  ("50AK", ["2500,40,,,,360"]);
  ("50AR", ["30,30,,,,355.5"]);
  ("50AZ", ["2500,45"]);
  ("50CA", ["40,40"]);
  ("50CL", ["50,30,58,,,307"]);
  ("50FD", ["2100,100,,,,334"]);
  ("50FL", ["2640,60"]);
  ("50G", ["2800,150,644,,644"; "2200,150,644,,644"]);
  ("50GA", ["2000,100"]);
  ("50II", ["3200,80"]);
  ("50IL", ["1700,70"]);
  ("50IS", ["40,35"]);
  ("50K", ["3375,125"]);
  ("50KY", ["2200,60"]);
  ("50LA", ["12,12"]);
  ("50LS", ["40,40"]);
  ("50M", ["2200,145"]);
  ("50MI", ["4000,300"]);
  ("50MO", ["35,35"]);
  ("50NC", ["2450,90"]);
  ("50NJ", ["50,50"]);
  ("50NM", ["5200,75"]);
  ("50NY", ["2500,90"]);
  ("50OG", ["50,100"]);
  ("50OH", ["2000,40"]);
  ("50OI", ["1900,75"]);
  ("50OK", ["50,50"]);
  ("50OR", ["4300,40"]);
  ("50PA", ["2700,100"]);
  ("50PN", ["60,60"]);
  ("50S", ["2700,50,2228,,2228"]);
  ("50SC", ["54,54"]);
  ("50TA", ["2500,40"]);
  ("50TE", ["2400,60"]);
  ("50TN", ["2600,30"]);
  ("50TS", ["900,250"]);
  ("50TX", ["3500,40,,135.6"]);
  ("50VA", ["40,40"]);
  ("50WA", ["800,50"]);
  ("50WY", ["25,25"]);
  ("50XS", ["4608,75,,136.7,,313.8"]);
  ("51AK", ["2550,70"]);
  ("51AZ", ["60,40"]);
  ("51CA", ["3010,100"]);
  ("51CL", ["2400,100"; "1600,100"]);
  ("51CO", ["2600,100"]);
  ("51FD", ["1920,110"]);
  ("51FL", ["3180,90,,,,359.1"]);
  ("51G", ["1933,100,,31,,211"; "1895,140,,139,,319"; "1802,100,,179,,359"]);
  ("51GA", ["1800,100"]);
  ("51IN", ["2600,50"]);
  ("51IS", ["1600,70"]);
  ("51K", ["2440,75"]);
  ("51KS", ["1900,100"]);
  ("51KY", ["32,32"]);
  ("51LA", ["3550,110"]);
  ("51LS", ["3600,150,,,,304"]);
  ("51M", ["2800,90"]);
  ("51MI", ["2000,100"]);
  ("51MN", ["20,20"]);
  ("51NC", ["2300,100"]);
  ("51NJ", ["120,120"]);
  ("51NY", ["1350,100"]);
  ("51OH", ["2500,80"]);
  ("51OI", ["2600,60"]);
  ("51OK", ["1800,50"; "1200,50"]);
  ("51OR", ["48,48"]);
  ("51PA", ["2300,100"]);
  ("51PN", ["60,60"]);
  ("51SC", ["4000,75,,,,229.4"]);
  ("51TA", ["40,40"]);
  ("51TE", ["2100,90"]);
  ("51TN", ["2000,50"]);
  ("51TS", ["30,30"]);
  ("51TX", ["2500,30"]);
  ("51VA", ["2000,50"]);
  ("51WA", ["2650,75"]);
  ("51WI", ["1200,100"]);
  ("51WT", ["3850,100"]);
  ("51XS", ["450,450"]);
  ("51Z", ["2000,65"]);
  ("52AK", ["2700,100"]);
  ("52AR", ["2200,50,,181.9,,260"]);
  ("52AZ", ["4800,45"]);
  ("52B", ["6000,1200,,122,,302"; "5000,1000,,162,,342"]);
  ("52CA", ["3300,50"]);
  ("52CL", ["5100,100"; "3930,100"]);
  ("52CN", ["2000,100"]);
  ("52CO", ["2200,100"]);
  ("52FA", ["1400,70,,,,194"]);
  ("52FD", ["20,20"]);
  ("52FL", ["2000,120"]);
  ("52GA", ["20,20"]);
  ("52I", ["2565,100,,,,360"]);
  ("52IL", ["1885,105,,,,270.3"]);
  ("52IN", ["2500,100"]);
  ("52IS", ["60,40"]);
  ("52K", ["2200,61,1177,,1166"]);
  ("52KS", ["1800,60"]);
  ("52KY", ["1300,50"]);
  ("52MN", ["3000,100"]);
  ("52MO", ["600,50"]);
  ("52NC", ["2400,75"]);
  ("52ND", ["3340,70"]);
  ("52NE", ["1800,40"]);
  ("52NJ", ["85,85"]);
  ("52NM", ["4950,60"]);
  ("52NY", ["2000,80"]);
  ("52OH", ["30,30"]);
  ("52OI", ["30,30"]);
  ("52OK", ["60,45"]);
  ("52OR", ["650,75"]);
  ("52PA", ["2600,100"]);
  ("52PN", ["400,400"]);
  ("52S", ["2610,60,,,,271"]);
  ("52TA", ["2175,100,,,,311"]);
  ("52TE", ["2500,50"]);
  ("52TS", ["1800,60"]);
  ("52TX", ["39,32"]);
  ("52U", ["2200,60"]);
  ("52VA", ["190,125"]);
  ("52WA", ["2400,25"]);
  ("52WI", ["2500,75,,,,346"]);
  ("52XS", ["60,60"]);
  ("52Y", ["2765,154,1350,,1350"]);
  ("52Z", ["5000,1000,1300,,1300"]);
  ("53AK", ["1200,60"]);
  ("53CA", ["25,25,,,,296"]);
  ("53CL", ["3200,60"]);
  ("53CN", ["1800,60"]);
  ("53CO", ["2800,50"]);
  ("53FD", ["1800,100"]);
  ("53FL", ["30,30,,,,294.8"]);
  ("53GA", ["2800,75,,,,331.6"]);
  ("53IA", ["2500,130"]);
  ("53II", ["2600,80"]);
  ("53IL", ["2200,70"]);
  ("53IN", ["2300,50"]);
  ("53IS", ["40,40,,,,245"]);
  ("53K", ["2560,40,1092,180,1105"]);
  ("53KS", ["1370,50"]);
  ("53KY", ["1445,75"]);
  ("53LA", ["4000,100"]);
  ("53M", ["2400,100,,,,263.2"]);
  ("53MI", ["30,30,,,,328"]);
  ("53MN", ["1000,60"]);
  ("53MO", ["30,18"]);
  ("53NC", ["2000,40"]);
  ("53ND", ["2000,75"]);
  ("53NE", ["2000,60,,,,4.6"]);
  ("53NY", ["1900,80"]);
  ("53OH", ["3400,100"]);
  ("53OI", ["50,175"]);
  ("53OK", ["3000,100,,,,294"]);
  ("53OR", ["90,90"]);
  ("53PA", ["16,16"]);
  ("53PN", ["70,70"]);
  ("53TA", ["1800,75"]);
  ("53TE", ["45,45"]);
  ("53TS", ["3200,65,,,,242.2"]);
  ("53TX", ["2880,100"]);
  ("53U", ["3500,95"]);
  ("53VA", ["2600,50"]);
  ("53W", ["3700,105,,,,326"]);
  ("53WA", ["2000,50"]);
  ("53WI", ["2200,50"]);
  ("53WT", ["40,40"]);
  ("53XS", ["2600,60"]);
  ("54AK", ["4500,500"]);
  ("54AR", ["2600,75"]);
  ("54AZ", ["1050,80"; "2100,80"; "3700,100,,,,263.1"]);
  ("54CA", ["65,65,,,,341.8"]);
  ("54CL", ["3500,100"]);
  ("54CN", ["1800,60"]);
  ("54CO", ["40,40,,,,196.9"]);
  ("54FD", ["20,20,,,,187"]);
  ("54FL", ["60,60"]);
  ("54II", ["2500,100"]);
  ("54IL", ["2407,18,,,,186"; "1800,130"]);
  ("54IN", ["60,60"]);
  ("54KS", ["1800,200"]);
  ("54KY", ["2750,60,,,,285.3"]);
  ("54L", ["405,134,,,,353.4"]);
  ("54LA", ["1800,25"]);
  ("54LL", ["30,30"]);
  ("54M", ["3106,100,303,,305,193.1"]);
  ("54ME", ["1500,25"]);
  ("54MI", ["2600,100,,,,239"]);
  ("54NC", ["2700,85"]);
  ("54NH", ["20,20"]);
  ("54NY", ["1750,60,,78.8,,298"]);
  ("54OH", ["1475,75"]);
  ("54OI", ["30,30"]);
  ("54OK", ["1000,30"]);
  ("54OR", ["60,60"]);
  ("54PA", ["150,150"]);
  ("54PN", ["100,100"]);
  ("54TA", ["2900,30"]);
  ("54TS", ["1500,75"]);
  ("54TX", ["2000,70"]);
  ("54U", ["20,20"]);
  ("54UT", ["40,40"]);
  ("54VA", ["55,55"]);
  ("54WA", ["20,20"]);
  ("54WI", ["1300,100"]);
  ("54X", ["1950,60"; "1950,60"]);
  ("55AK", ["1700,25"]);
  ("55AZ", ["2400,50"]);
  ("55CA", ["150,150,,,,343.5"]);
  ("55CN", ["100,70,556,,,213.7"]);
  ("55CO", ["50,50"]);
  ("55FD", ["2120,100,,,,333"]);
  ("55FL", ["50,50"]);
  ("55G", ["2570,75,780,,780,301"; "2585,140,780,,780,318"]);
  ("55GA", ["40,40,,,,283.2"]);
  ("55GE", ["2000,30"]);
  ("55H", ["2460,75"]);
  ("55II", ["53,53,,,,309.6"]);
  ("55IL", ["2200,70"]);
  ("55IN", ["2000,45"]);
  ("55IS", ["1578,50"]);
  ("55KY", ["30,30"]);
  ("55LL", ["3000,100,,,,205.6"]);
  ("55ME", ["1300,30"]);
  ("55MI", ["30,30"]);
  ("55MO", ["2000,80"]);
  ("55NC", ["75,75"]);
  ("55ND", ["2500,50"]);
  ("55NE", ["30,30"]);
  ("55NM", ["5000,50"; "5000,40"]);
  ("55NY", ["1850,150"]);
  ("55OH", ["100,100"]);
  ("55OI", ["3000,100"]);
  ("55OK", ["1700,60"]);
  ("55OR", ["2200,40"]);
  ("55PA", ["1800,100"]);
  ("55S", ["2356,38"]);
  ("55T", ["5000,80,,,,1"]);
  ("55TA", ["40,40"]);
  ("55TE", ["2000,100"]);
  ("55TN", ["40,40"]);
  ("55TX", ["2200,30"]);
  ("55VA", ["30,30"]);
  ("55WA", ["2050,30"]);
  ("55WI", ["2600,100"]);
  ("55XS", ["4316,60,,16.9,,337.7"]);
  ("56AK", ["1570,300"]);
  ("56AZ", ["2900,60"]);
  ("56CA", ["70,75"]);
  ("56CL", ["2400,50"]);
  ("56CO", ["100,75,,,,316.5"]);
  ("56FD", ["4400,150,,180,,293"]);
  ("56FL", ["2900,200,,,,293"]);
  ("56G", ["3569,100,745,,745,293"; "2390,100,,,,293"]);
  ("56GA", ["50,50,,,,331"]);
  ("56II", ["40,40"]);
  ("56IL", ["2200,70"]);
  ("56IN", ["2400,100"]);
  ("56IS", ["2190,70"]);
  ("56KY", ["50,40,,,,298.2"]);
  ("56LA", ["3500,100,,184.1"]);
  ("56LL", ["3200,100,,,,332.5"]);
  ("56MI", ["60,60"]);
  ("56MN", ["2000,100"]);
  ("56MO", ["1000,75"; "2000,75"]);
  ("56MU", ["30,30"; "45,45"]);
  ("56NC", ["1500,80"]);
  ("56NE", ["2600,150"]);
  ("56NJ", ["15,15"]);
  ("56NY", ["3003,36"]);
  ("56OH", ["1500,75"]);
  ("56OI", ["1200,150"]);
  ("56OR", ["52,52"]);
  ("56PA", ["2200,100"; "1800,100"]);
  ("56PN", ["90,90"]);
  ("56S", ["2211,50,12,,10,256"]);
  ("56TA", ["60,60"]);
  ("56TE", ["3000,100"]);
  ("56TS", ["650,25"; "1050,40"; "850,40"; "75,50"; "75,50"]);
  ("56TX", ["1700,125"]);
  ("56VA", ["250,250"]);
  ("56WA", ["40,40"]);
  ("56WI", ["1490,80,,94.3,,323"]);
  ("56XS", ["30,30"]);
  ("57A", ["6000,400"]);
  ("57AK", ["5000,200"; "2400,200"]);
  ("57AL", ["1400,75"]);
  ("57AZ", ["4500,44,,21.9,,265"; "44,44"]);
  ("57B", ["2400,50,71,,88,271"]);
  ("57CA", ["100,100,,,,259.4"]);
  ("57CL", ["2290,50,,,,281.6"; "1900,45,2450,,,278"; "2400,40"]);
  ("57CN", ["2100,30"]);
  ("57D", ["2500,60,632,,632,254.2"; "2187,123,632,,632,257.8"]);
  ("57FA", ["5280,5280"; "5100,60,,170,,269"; "13300,5280"]);
  ("57FL", ["40,40,,,,261.4"]);
  ("57GA", ["3100,30,,180,,0"]);
  ("57II", ["1800,80"]);
  ("57IN", ["40,40"]);
  ("57IS", ["1600,70"]);
  ("57K", ["2870,35,,36,,216"]);
  ("57KY", ["3000,150"]);
  ("57LA", ["40,40,,,,273"]);
  ("57ME", ["950,100"; "3000,1000"]);
  ("57MI", ["60,60,,,,248"]);
  ("57MN", ["14000,100"; "5200,100"; "14000,100"]);
  ("57MO", ["120,95"]);
  ("57NC", ["2265,50"]);
  ("57ND", ["2800,60"]);
  ("57NE", ["2400,50"]);
  ("57NM", ["2000,50"]);
  ("57NY", ["100,100"]);
  ("57OH", ["2300,100"]);
  ("57OI", ["1500,100"]);
  ("57OK", ["30,30"]);
  ("57OR", ["2000,50"]);
  ("57PA", ["2100,100"]);
  ("57PN", ["1400,100"]);
  ("57TA", ["20,20"]);
  ("57TE", ["3600,50"]);
  ("57TX", ["2650,75"]);
  ("57VA", ["2400,50"]);
  ("57WA", ["2600,40,,,,193"]);
  ("57WI", ["47,47,,,,317"]);
  ("57XS", ["1600,60"]);
  ("58A", ["4000,1500"]);
  ("58AK", ["3578,150"]);
  ("58AZ", ["3068,50"]);
  ("58C", ["2305,135,842,,840,326.1"]);
  ("58CA", ["600,210"]);
  ("58CL", ["2650,45,,95.8"; "2000,100"]);
  ("58CN", ["100,60,6650"]);
  ("58CO", ["200,100"]);
  ("58F", ["3340,130"]);
  ("58FD", ["2300,50"]);
  ("58FL", ["60,60"]);
  ("58GA", ["52,52"]);
  ("58II", ["2350,80"]);
  ("58IL", ["2200,200"]);
  ("58IN", ["3400,100"]);
  ("58IS", ["50,50"]);
  ("58J", ["3090,150,,,,357"]);
  ("58KS", ["2400,60"]);
  ("58KY", ["2500,100"]);
  ("58LA", ["2600,150"]);
  ("58MA", ["60,60"]);
  ("58MI", ["40,40,,,,11"]);
  ("58MN", ["2380,105"]);
  ("58MO", ["100,100"]);
  ("58N", ["1950,40"]);
  ("58NC", ["2000,80"]);
  ("58NE", ["75,75"]);
  ("58NJ", ["5000,200"]);
  ("58NY", ["40,40"]);
  ("58OH", ["1500,150"; "988,150"]);
  ("58OI", ["20,20"]);
  ("58OK", ["20,20"]);
  ("58OR", ["1900,50"]);
  ("58S", ["2560,75"]);
  ("58TE", ["1500,50"; "2750,150"]);
  ("58TS", ["100,100"]);
  ("58TX", ["2675,80"]);
  ("58VA", ["2490,50"]);
  ("58WA", ["2600,28"]);
  ("58WI", ["1800,70"]);
  ("58XS", ["3410,50"; "2870,50"]);
  ("59AK", ["1500,75"]);
  ("59AS", ["1350,50,,,,337.3"]);
  ("59AZ", ["1500,25"]);
  ("59B", ["2900,60,1178,,1175"]);
  ("59CA", ["1320,50"]);
  ("59CN", ["2500,75"]);
  ("59CO", ["2400,80"]);
  ("59FD", ["5600,50,,100"]);
  ("59FL", ["71,71"]);
  ("59GA", ["60,60"]);
  ("59ID", ["633,35"]);
  ("59II", ["1700,50"; "1300,100"; "800,40"]);
  ("59IL", ["2200,85"]);
  ("59IN", ["2000,100"]);
  ("59IS", ["40,40"]);
  ("59KS", ["2300,50"]);
  ("59KY", ["1750,110"]);
  ("59L", ["50,50,360"]);
  ("59LA", ["30,30"]);
  ("59M", ["2600,100"; "3300,100"]);
  ("59MI", ["50,50"]);
  ("59MN", ["2550,100"]);
  ("59MO", ["75,62"]);
  ("59NC", ["2200,170"]);
  ("59NE", ["1650,80"]);
  ("59NJ", ["250,250"]);
  ("59NM", ["2500,30"]);
  ("59NY", ["2000,50"]);
  ("59OH", ["1900,75"]);
  ("59OI", ["100,100"]);
  ("59OK", ["50,50"]);
  ("59OR", ["60,60"]);
  ("59PN", ["2320,100"]);
  ("59TA", ["100,60"]);
  ("59TE", ["2500,70"]);
  ("59TN", ["100,100"]);
  ("59TS", ["3000,60"]);
  ("59TX", ["3000,100"]);
  ("59VA", ["15,15"]);
  ("59WA", ["1400,90"]);
  ("59WI", ["2000,80"]);
  ("59XS", ["80,80"]);
  ("5A2", ["2833,130"]);
  ("5A8", ["2040,80"]);
  ("5AK", ["2200,600"]);
  ("5AK0", ["4500,100"]);
  ("5AK1", ["40,40"]);
  ("5AK2", ["1800,50"]);
  ("5AK3", ["2550,45"]);
  ("5AK5", ["2000,60"]);
  ("5AK6", ["1600,20"]);
  ("5AK8", ["1000,22"]);
  ("5AK9", ["1000,50"]);
  ("5AL", ["4395,200"]);
  ("5AL1", ["3000,100"]);
  ("5AL2", ["50,30"]);
  ("5AL3", ["2500,100"]);
  ("5AL4", ["2020,60"]);
  ("5AL5", ["3000,50,,180"]);
  ("5AL6", ["30,30"]);
  ("5AL7", ["1320,40"]);
  ("5AL8", ["2300,70"]);
  ("5AR1", ["3200,85,,154.6"]);
  ("5AR2", ["2600,60"]);
  ("5AR5", ["60,40"]);
  ("5AR6", ["40,40"]);
  ("5AR7", ["2600,44"]);
  ("5AR9", ["50,50"]);
  ("5AZ0", ["30,30"]);
  ("5AZ1", ["24,24"]);
  ("5AZ2", ["12,12,,,,166.6"]);
  ("5AZ3", ["5000,80,,92.5,,224"]);
  ("5AZ4", ["50,50,,,,268"]);
  ("5AZ5", ["90,90,,,,229"]);
  ("5AZ6", ["2700,65"]);
  ("5AZ7", ["2100,100"]);
  ("5AZ8", ["80,80"]);
  ("5AZ9", ["3000,50"]);
  ("5B1", ["2650,120"]);
  ("5B4", ["2900,200,1955,,1950,276"]);
  ("5B6", ["2298,40,38,,41,288"]);
  ("5B7", ["2670,50"]);
  ("5B9", ["2511,58,582,352,546,172"]);
  ("5BK", ["2250,40"]);
  ("5BL", ["3000,600"]);
  ("5C5", ["8000,350"]);
  ("5CA0", ["64,56"]);
  ("5CA1", ["90,90"]);
  ("5CA2", ["65,65"]);
  ("5CA3", ["72,72"]);
  ("5CA4", ["2604,60"]);
  ("5CA5", ["14,14"]);
  ("5CA6", ["215,146"]);
  ("5CA7", ["3000,40,,175.3,,217"]);
  ("5CA8", ["1481,40"]);
  ("5CA9", ["3000,500"]);
  ("5CD", ["2529,70"]);
  ("5CL0", ["2800,50"]);
  ("5CL1", ["1800,24"]);
  ("5CL2", ["50,84"]);
  ("5CL3", ["1800,125"]);
  ("5CL4", ["74,74,,,,338"]);
  ("5CL5", ["50,50"]);
  ("5CL6", ["70,70,,,,307"]);
  ("5CL7", ["2200,30"]);
  ("5CL8", ["2000,100,,174,,354"]);
  ("5CL9", ["2000,50"]);
  ("5CO0", ["2860,40,,,,221.8"; "2340,30"]);
  ("5CO1", ["3000,110"]);
  ("5CO2", ["50,50"]);
  ("5CO3", ["40,40"]);
  ("5CO4", ["3000,45"]);
  ("5CO5", ["15,15"]);
  ("5CO6", ["2500,50"]);
  ("5CO7", ["2140,30"]);
  ("5CO8", ["2300,50"]);
  ("5CO9", ["50,50,,,,194"]);
  ("5CT0", ["1800,40"]);
  ("5CT1", ["150,150,,,,313"]);
  ("5CT3", ["20,20,,,,346"]);
  ("5CT4", ["90,75,,,,179"]);
  ("5CT5", ["1600,100"]);
  ("5CT6", ["1100,45"]);
  ("5CT7", ["1800,100"]);
  ("5CT8", ["50,50,,,,318"]);
  ("5D1", ["120,75"]);
  ("5D2", ["3300,100,,,,188"]);
  ("5D5", ["3663,120,628,,628,234"; "2670,150,628,,628,284"]);
  ("5D6", ["2530,75,1280,,1280"]);
  ("5D7", ["40,40"]);
  ("5D9", ["2576,80,805,,805,184"]);
  ("5E9", ["3470,90,,,,227"]);
  ("5F5", ["3000,40,,184,,227"]);
  ("5F8", ["2900,50"]);
  ("5FA1", ["2400,100"]);
  ("5FD0", ["2800,75"]);
  ("5FD1", ["2100,80"]);
  ("5FD2", ["120,75,,,,270"]);
  ("5FD3", ["2100,50,,,,270"]);
  ("5FD4", ["55,55"]);
  ("5FD5", ["2000,75"]);
  ("5FD6", ["50,50"]);
  ("5FD7", ["2500,50"]);
  ("5FD8", ["118,118,,,,226"]);
  ("5FD9", ["54,54"]);
  ("5FL0", ["1534,100"]);
  ("5FL1", ["3000,50"]);
  ("5FL2", ["80,80"]);
  ("5FL3", ["40,40"]);
  ("5FL4", ["2650,100"]);
  ("5FL5", ["40,40"]);
  ("5FL6", ["2640,70,,,,303"]);
  ("5FL7", ["2600,100,,,,203"]);
  ("5FL8", ["2850,350,,,,252"]);
  ("5FL9", ["2415,100"]);
  ("5G0", ["2640,60,780,93,770,273"]);
  ("5G2", ["4490,50,,,,337"]);
  ("5G3", ["2250,200,1775,160,1787,340"]);
  ("5G4", ["2290,70"]);
  ("5G8", ["2605,50,,,,265"]);
  ("5GA0", ["1800,50"]);
  ("5GA2", ["1800,100,,,,325"]);
  ("5GA3", ["2500,100"; "3500,100"]);
  ("5GA4", ["2000,100"]);
  ("5GA5", ["2800,100"]);
  ("5GA6", ["2900,80"]);
  ("5GA7", ["2500,50"]);
  ("5GE1", ["2700,100"]);
  ("5H3", ["2130,150,1790,,1793"; "3000,150,1798,,1792,244"]);
  ("5HO", ["2000,90"]);
  ("5I2", ["2143,93,710,,710,217"]);
  ("5I6", ["2720,75,770,,780,179"]);
  ("5IA0", ["75,75"]);
  ("5IA2", ["60,60"]);
  ("5IA3", ["1870,66,,,,314.6"]);
  ("5IA4", ["60,60"]);
  ("5IA5", ["2600,82"]);
  ("5IA6", ["2500,100"]);
  ("5IA7", ["2200,120,,,,214"]);
  ("5IA8", ["40,40"]);
  ("5II1", ["2800,100"]);
  ("5II2", ["2500,60"]);
  ("5II3", ["21,18"]);
  ("5II4", ["40,25"]);
  ("5II7", ["30,30"]);
  ("5II8", ["1800,100"]);
  ("5II9", ["2450,200,,,,298"]);
  ("5IL0", ["40,40"]);
  ("5IL1", ["20,20"]);
  ("5IL2", ["1320,70"]);
  ("5IL3", ["45,45,,,,333"]);
  ("5IL6", ["55,55,,,,220"; "35,35,,,,306"]);
  ("5IL7", ["50,50,,,,336"]);
  ("5IL8", ["46,46"]);
  ("5IL9", ["50,50,,,,231"]);
  ("5IN1", ["40,40,,,,321"]);
  ("5IN3", ["2270,50,,,,171"]);
  ("5IN4", ["1800,60"]);
  ("5IN5", ["1190,100"]);
  ("5IN6", ["2800,200,,,,229"]);
  ("5IN7", ["4000,1000"]);
  ("5IN8", ["3300,1000"]);
  ("5IN9", ["1900,80"]);
  ("5IS1", ["35,35,,,,333"]);
  ("5IS2", ["40,40"]);
  ("5IS3", ["1825,80"]);
  ("5IS4", ["1990,70,,,,344"]);
  ("5IS6", ["200,70,,,,208"]);
  ("5IS7", ["2640,70,,,,251"]);
  ("5IS8", ["65,65,,,,237"; "48,48,,,,189"]);
  ("5IS9", ["1800,70"]);
  ("5J5", ["2900,150"]);
  ("5K0", ["3460,70"; "2270,75"]);
  ("5K2", ["5000,60,,170,,304"]);
  ("5K3", ["3200,175"]);
  ("5K4", ["3565,100,665,,665,172"]);
  ("5K6", ["2849,38,849,,852,224"; "1517,45,852,,850"]);
  ("5K9", ["2900,110,1970,,1982"]);
  ("5KE", ["3893,1000,0,,0"]);
  ("5KO", ["1000,40"]);
  ("5KS", ["2165,40"]);
  ("5KS0", ["400,400"]);
  ("5KS1", ["1650,60,,,,251"]);
  ("5KS2", ["4000,100"; "1000,100"]);
  ("5KS3", ["2200,30"]);
  ("5KS4", ["1500,25"; "2640,25"]);
  ("5KS7", ["25,25"]);
  ("5KS8", ["2600,75"]);
  ("5KS9", ["2625,40"]);
  ("5KY2", ["1900,65,,,,259.4"]);
  ("5KY3", ["2915,60,338,47,337,227"; "2900,60"]);
  ("5KY4", ["2930,75,,137,,317"]);
  ("5KY5", ["3100,40,,181.1"]);
  ("5KY6", ["1600,50"]);
  ("5KY7", ["3380,60,,166,,210"]);
  ("5KY8", ["1400,60"]);
  ("5KY9", ["1850,50"]);
  ("5L6", ["4000,1000,330,,330"]);
  ("5LA0", ["1000,85"]);
  ("5LA1", ["2800,75"]);
  ("5LA2", ["700,100"]);
  ("5LA3", ["40,40"; "30,30"; "30,30"; "40,40"]);
  ("5LA4", ["35,35"; "35,35"; "35,35"; "35,35"; "35,35"; "35,35"]);
  ("5LA5", ["35,25"]);
  ("5LA6", ["5000,75"]);
  ("5LA7", ["35,20"; "35,20"; "35,20"; "35,20"; "35,20"; "35,20"]);
  ("5LA8", ["12,12"]);
  ("5LL0", ["1940,100"]);
  ("5LL1", ["1780,100"; "2102,100"]);
  ("5LL2", ["1800,100"; "1250,100"]);
  ("5LL3", ["2350,120"]);
  ("5LL5", ["1800,100"]);
  ("5LL7", ["2000,70"]);
  ("5LL8", ["3450,50"]);
  ("5LL9", ["40,40"]);
  ("5LS0", ["40,40"]);
  ("5LS6", ["2200,20"]);
  ("5LS9", ["3275,50"]);
  ("5M1", ["3204,60,187,181,187,1"]);
  ("5M7", ["1570,60"; "2250,60"]);
  ("5MA0", ["60,50"]);
  ("5MA2", ["65,40"]);
  ("5MA3", ["1800,60"]);
  ("5MA4", ["30,90"]);
  ("5MA5", ["100,100"]);
  ("5MA6", ["60,60"]);
  ("5MA7", ["35,35"]);
  ("5MA8", ["4000,600"]);
  ("5MA9", ["1150,40"; "1550,40"]);
  ("5MD1", ["1200,120"; "90,90"]);
  ("5MD3", ["20,20"]);
  ("5MD5", ["3000,60"]);
  ("5MD6", ["50,50"]);
  ("5MD7", ["2200,50"]);
  ("5MD8", ["2000,40"]);
  ("5MD9", ["60,60"; "60,60"]);
  ("5ME", ["7200,600"]);
  ("5MI0", ["80,80"]);
  ("5MI1", ["1600,90"]);
  ("5MI5", ["125,125"]);
  ("5MI6", ["60,20"]);
  ("5MI7", ["3000,100"]);
  ("5MI8", ["1314,50"]);
  ("5MI9", ["40,40"]);
  ("5MN0", ["1400,50"]);
  ("5MN1", ["2228,50"]);
  ("5MN2", ["2500,150"]);
  ("5MN3", ["50,50"]);
  ("5MN4", ["2100,25,,93.3"]);
  ("5MN5", ["1650,50"]);
  ("5MN6", ["5000,500"]);
  ("5MN7", ["10000,2600"; "1800,50"; "2400,50"]);
  ("5MN8", ["2640,80"; "3200,80"]);
  ("5MN9", ["2400,75"]);
  ("5MO", ["2100,20,,182,,2"]);
  ("5MO0", ["50,50"]);
  ("5MO1", ["2600,100"]);
  ("5MO4", ["40,40"]);
  ("5MO5", ["52,50"; "52,50"]);
  ("5MO7", ["60,60"]);
  ("5MO8", ["100,100"]);
  ("5MO9", ["1950,80"]);
  ("5MS1", ["3670,75,,180"]);
  ("5MS2", ["2000,20"]);
  ("5MS3", ["2000,60"]);
  ("5MS4", ["2300,125"]);
  ("5MS5", ["5000,125,,30"]);
  ("5MS6", ["1200,50"]);
  ("5MS7", ["50,50"]);
  ("5MS8", ["2500,70"]);
  ("5MS9", ["60,60"]);
  ("5N4", ["2157,23,1140,,1125"; "2861,40,1135,,1137"]);
  ("5N5", ["3350,75"]);
  ("5N7", ["3600,100"]);
  ("5NA0", ["2000,60"; "1100,60"]);
  ("5NA2", ["2400,25"]);
  ("5NC0", ["20,20"]);
  ("5NC1", ["2100,75"]);
  ("5NC3", ["2538,36"]);
  ("5NC4", ["50,50"]);
  ("5NC5", ["3500,44"]);
  ("5NC6", ["30,30"]);
  ("5NC7", ["50,50"]);
  ("5NC8", ["40,40"]);
  ("5NC9", ["25,25"]);
  ("5ND0", ["1400,50"; "1600,35"]);
  ("5ND3", ["1600,40"; "1600,40"]);
  ("5ND9", ["4400,60"]);
  ("5NE2", ["2400,80"]);
  ("5NE3", ["2000,200"]);
  ("5NE4", ["1800,100"]);
  ("5NE5", ["3400,50"]);
  ("5NE9", ["2600,60"]);
  ("5NJ0", ["200,200"]);
  ("5NJ2", ["2800,100"]);
  ("5NJ3", ["100,100"]);
  ("5NJ4", ["138,138"]);
  ("5NJ5", ["100,100"]);
  ("5NJ6", ["200,100"]);
  ("5NJ7", ["100,100"]);
  ("5NJ8", ["75,75"]);
  ("5NJ9", ["88,88"]);
  ("5NK", ["1950,50"; "2000,300"; "1850,45"]);
  ("5NK0", ["3000,150"]);
  ("5NK1", ["2000,70"]);
  ("5NK2", ["83,73"]);
  ("5NK3", ["84,78"]);
  ("5NK4", ["40,40"]);
  ("5NK5", ["1650,70"]);
  ("5NK6", ["250,250"]);
  ("5NK7", ["60,60"]);
  ("5NK8", ["150,150"]);
  ("5NK9", ["1500,150"]);
  ("5NY1", ["3000,75"]);
  ("5NY2", ["40,40"]);
  ("5NY3", ["2000,70"]);
  ("5NY4", ["2000,50"]);
  ("5NY5", ["2400,20"]);
  ("5NY6", ["200,150"]);
  ("5NY7", ["1500,100"]);
  ("5NY8", ["75,75"]);
  ("5O1", ["2565,50"]);
  ("5OH0", ["1000,75"]);
  ("5OH1", ["50,30"]);
  ("5OH2", ["75,75"]);
  ("5OH3", ["34,34"]);
  ("5OH4", ["3600,100"]);
  ("5OH5", ["60,60"]);
  ("5OH6", ["2800,60"]);
  ("5OH7", ["2640,100"]);
  ("5OH8", ["40,40"]);
  ("5OH9", ["2640,50,,,,327"]);
  ("5OI0", ["1650,50"]);
  ("5OI3", ["1850,100"]);
  ("5OI5", ["2600,50"]);
  ("5OI7", ["2600,40"]);
  ("5OI8", ["1900,100"]);
  ("5OI9", ["1700,50"]);
  ("5OK1", ["40,40"]);
  ("5OK2", ["3600,50,,,,356"]);
  ("5OK3", ["4000,100"]);
  ("5OK4", ["2645,100"]);
  ("5OK5", ["42,42"]);
  ("5OK7", ["25,25"]);
  ("5OR0", ["2400,50"]);
  ("5OR1", ["40,40"]);
  ("5OR2", ["1450,50"]);
  ("5OR3", ["1300,80"]);
  ("5OR4", ["2600,60"]);
  ("5OR5", ["2640,100"]);
  ("5OR6", ["60,60"]);
  ("5OR7", ["75,75"]);
  ("5OR8", ["2500,50"]);
  ("5OR9", ["1700,125"]);
  ("5P3", ["3600,150,1960,143,1963,323"]);
  ("5P5", ["3350,150,1756,,1742"]);
  ("5PA0", ["2000,75"]);
  ("5PA1", ["1600,100"]);
  ("5PA2", ["1835,100"]);
  ("5PA4", ["60,60"])].

(* ADRpy/data/runways.csv *)
Definition airports_6 : list (string * list string) := [
  ("5PA5", ["65,62"]);
  ("5PA6", ["1650,100"]);
  ("5PA7", ["100,100"]);
  ("5PA8", ["1800,60"]);
  ("5PA9", ["1550,100"]);
  ("5PN2", ["50,50"]);
  ("5PN3", ["65,65"]);
  ("5PN4", ["60,60"]);
  ("5PN5", ["1400,100"]);
  ("5PN6", ["60,60"]);
  ("5PN7", ["1200,100"]);
  ("5PN8", ["1420,100"]);
  ("5PN9", ["45,45"]);
  ("5PS0", ["60,60"]);
  ("5PS1", ["45,47"]);
  ("5PS2", ["65,65"]);
  ("5PS3", ["65,65"]);
  ("5PS5", ["1700,100"]);
  ("5PS6", ["40,40"]);
  ("5PS7", ["65,65"]);
  ("5PS8", ["40,40"]);
  ("5PS9", ["1476,100"]);
  ("5Q2", ["40,40"; "40,40"]);
  ("5QC", ["2960,64,416,,336"]);
  ("5R7", ["2000,150"]);
  ("5S1", ["2300,100"]);
  ("5S4", ["1750,40"]);
  ("5S5", ["2500,32"]);
  ("5SC5", ["40,40"]);
  ("5T0", ["3110,100"]);
  ("5T4", ["2230,200,1718,,1719"]);
  ("5TA0", ["3700,80"]);
  ("5TA1", ["2200,60"]);
  ("5TA2", ["2600,150"]);
  ("5TA3", ["2200,75"]);
  ("5TA4", ["3100,100"; "2500,100"]);
  ("5TA5", ["2600,150"]);
  ("5TA6", ["2600,90"]);
  ("5TA7", ["1400,75"]);
  ("5TA8", ["2000,75"]);
  ("5TA9", ["2675,60"]);
  ("5TE0", ["5500,80,,156.7,,270"]);
  ("5TE1", ["1800,75"; "3722,75"; "2400,75"; "1600,75"]);
  ("5TE2", ["2800,100"]);
  ("5TE3", ["2200,50"]);
  ("5TE4", ["4300,35,,18.3"]);
  ("5TE5", ["4000,30,,167.9"]);
  ("5TE6", ["1800,100"]);
  ("5TE7", ["1600,40"; "1600,40"]);
  ("5TE8", ["2100,150"; "4500,150"]);
  ("5TE9", ["90,90"]);
  ("5TN0", ["150,150"]);
  ("5TN1", ["60,50"]);
  ("5TN2", ["40,40"]);
  ("5TN3", ["20,20"]);
  ("5TN4", ["2000,50"]);
  ("5TN5", ["35,35"]);
  ("5TN6", ["150,75"]);
  ("5TN7", ["30,30"]);
  ("5TN8", ["40,40"]);
  ("5TN9", ["2500,100"]);
  ("5TS1", ["4500,50,,120"]);
  ("5TS2", ["1500,65"]);
  ("5TS3", ["2500,50"]);
  ("5TS4", ["1520,35"]);
  ("5TS5", ["2000,100"]);
  ("5TS6", ["50,50"]);
  ("5TS7", ["2500,60"]);
  ("5TS8", ["1800,40"]);
  ("5TS9", ["3700,80"]);
  ("5TX0", ["2600,40"]);
  ("5TX1", ["1750,40"]);
  ("5TX2", ["2400,100"]);
  ("5TX3", ["57,55"]);
  ("5TX4", ["2300,70"]);
  ("5TX5", ["525,260"]);
  ("5TX6", ["1900,100"]);
  ("5TX7", ["20,20"]);
  ("5TX8", ["2500,60"; "2100,60"]);
  ("5U0", ["2550,180"]);
  ("5U6", ["3000,95"]);
  ("5U8", ["2900,75"]);
  ("5V4", ["4565,50,,180"]);
  ("5V6", ["3000,70"; "2150,70"]);
  ("5V8", ["1600,100,2462,52,,232"; "2600,150,2449,,2466"]);
  ("5VA0", ["40,40"]);
  ("5VA1", ["72,70"]);
  ("5VA2", ["55,50"]);
  ("5VA3", ["40,40"]);
  ("5VA4", ["120,60"]);
  ("5VA5", ["1400,60"]);
  ("5VA6", ["50,50"]);
  ("5VA7", ["20,20"]);
  ("5VA8", ["40,40"]);
  ("5VA9", ["2000,60"]);
  ("5WA0", ["2650,60"]);
  ("5WA1", ["1400,15"]);
  ("5WA2", ["1800,90"]);
  ("5WA3", ["115,64"]);
  ("5WA4", ["100,75"]);
  ("5WA5", ["1400,60"]);
  ("5WA6", ["20,20"]);
  ("5WA7", ["2300,80"]);
  ("5WA8", ["3700,40,,79"]);
  ("5WA9", ["2800,60"]);
  ("5WI0", ["2500,60"]);
  ("5WI1", ["2400,150"]);
  ("5WI2", ["1070,50"]);
  ("5WI3", ["2000,70"]);
  ("5WI4", ["2600,75"]);
  ("5WI5", ["2200,75"]);
  ("5WI6", ["2200,70"]);
  ("5WI7", ["30,30"]);
  ("5WI8", ["1900,50"]);
  ("5WN2", ["1900,120"]);
  ("5WN8", ["2400,75"]);
  ("5WN9", ["2600,100"]);
  ("5WV5", ["80,80"]);
  ("5XS0", ["1500,50"]);
  ("5XS1", ["50,50"]);
  ("5XS2", ["2600,50"]);
  ("5XS3", ["2700,80"]);
  ("5XS5", ["2000,50"]);
  ("5XS6", ["3000,40"]);
  ("5XS7", ["2680,50"]);
  ("5XS8", ["3150,60"]);
  ("5XS9", ["4000,150"]);
  ("5Y0", ["2140,60,,32,,212"]);
  ("5Y2", ["2750,104,1165,,1165,320.6"]);
  ("5Y3", ["2523,140,801,180,821,360"]);
  ("5Y4", ["2200,100,1051,,1051,265"; "2600,100,1051,,1051,270.4"]);
  ("5Y5", ["2500,100,,,,270.5"]);
  ("5Y7", ["4000,120,982,,963,285.7"]);
  ("5Z1", ["10000,1000"]);
  ("5Z4", ["200,100,,,,307"]);
  ("5Z5", ["1850,35"]);
  ("5Z7", ["800,75"]);
  ("5Z9", ["5000,4000,36,,36"]);
  ("60A", ["3000,80,,55,,235"]);
  ("60AK", ["100,50"]);
  ("60AZ", ["1900,50"]);
  ("60B", ["4000,4000"; "5500,200"]);
  ("60CA", ["100,100"]);
  ("60CL", ["1400,24"; "1200,20"]);
  ("60CN", ["50,50"]);
  ("60FD", ["40,40"]);
  ("60FL", ["44,44"]);
  ("60G", ["2653,100,931,83,931,263"]);
  ("60GA", ["45,45"; "45,45"]);
  ("60II", ["40,40"]);
  ("60IS", ["4000,100"]);
  ("60KS", ["1200,75"]);
  ("60KY", ["60,60"]);
  ("60L", ["50,50,1127,,,343"]);
  ("60LL", ["42,42"]);
  ("60M", ["1949,50,1043,,1042,312"]);
  ("60MA", ["20,20,,,,223"; "20,20,,,,252"]);
  ("60MI", ["2020,75"]);
  ("60MN", ["2600,100"]);
  ("60MO", ["50,50"]);
  ("60NC", ["2800,75,,,,312"]);
  ("60NE", ["40,40"]);
  ("60NY", ["125,100"]);
  ("60OH", ["125,250"]);
  ("60OI", ["2000,60"]);
  ("60OK", ["2640,25"]);
  ("60OR", ["2000,100"]);
  ("60PA", ["60,60"]);
  ("60PN", ["70,70"]);
  ("60TA", ["3800,40,,160,,242"]);
  ("60TE", ["3000,50,,160,,288"]);
  ("60TS", ["40,40"]);
  ("60TX", ["3600,40,,,,213.7"]);
  ("60VA", ["30,30"]);
  ("60WA", ["60,60"]);
  ("60WI", ["60,60"]);
  ("60XS", ["12,10"]);
  ("61AK", ["20,20,,,,208"; "20,20,,,,203"]);
  ("61AR", ["2800,24"]);
  ("61AZ", ["1550,40"; "1578,40"]);
  ("61CA", ["1300,80"]);
  ("61CO", ["20,20"]);
  ("61D", ["2550,150,722,7,722,187"; "2650,50,722,89,722,269"]);
  ("61FD", ["60,60,,,,220"]);
  ("61FL", ["110,90"]);
  ("61G", ["2175,100,700,,700,280"]);
  ("61GA", ["2500,200"]);
  ("61II", ["1200,50"]);
  ("61IN", ["2550,60"]);
  ("61IS", ["2400,100,,,,227"]);
  ("61J", ["80,80"]);
  ("61K", ["1790,95"; "3160,81,,,,211"]);
  ("61KS", ["2300,35"]);
  ("61KY", ["1900,60,,,,300"]);
  ("61L", ["100,100,1375,,,246"]);
  ("61LA", ["40,40"]);
  ("61LL", ["1600,70"]);
  ("61MA", ["1700,60"]);
  ("61MI", ["20,20,,,,235"]);
  ("61MN", ["3000,80"]);
  ("61MO", ["2600,75"]);
  ("61MU", ["2100,20"]);
  ("61NC", ["4000,200"]);
  ("61ND", ["2000,60"]);
  ("61NE", ["45,45"; "45,45"]);
  ("61NH", ["100,100"]);
  ("61NJ", ["2000,80"]);
  ("61NY", ["1600,50"]);
  ("61OH", ["2250,80,,,,347.6"; "1600,90,,,,205"]);
  ("61OI", ["30,30"]);
  ("61OK", ["2000,100"]);
  ("61OR", ["1800,100"]);
  ("61PN", ["2800,55"]);
  ("61TA", ["4000,100"]);
  ("61TE", ["2400,20"]);
  ("61TS", ["53,53"]);
  ("61TX", ["1800,80"]);
  ("61VA", ["3000,150"]);
  ("61WA", ["2500,100"]);
  ("61WI", ["2000,50"]);
  ("61XS", ["2800,80"]);
  ("61Y", ["2960,100,430,,450"; "1125,100,,,,348"]);
  ("62AK", ["2000,800"]);
  ("62AL", ["2467,110,,,,233"]);
  ("62AR", ["1100,100"]);
  ("62C", ["2425,70,790,,790,340.1"; "1200,80,790,,790"]);
  ("62CA", ["65,65"]);
  ("62CL", ["3750,50,,,,339.9"]);
  ("62CN", ["100,100,,,,185"]);
  ("62CO", ["2500,50"]);
  ("62FD", ["2500,110"]);
  ("62FL", ["3200,48,,90,,251"]);
  ("62GA", ["2930,130"]);
  ("62IA", ["2200,100"]);
  ("62II", ["67,67"]);
  ("62IL", ["1925,80"]);
  ("62IN", ["1600,90"]);
  ("62IS", ["2640,100"]);
  ("62K", ["2400,100,,,,184.7"]);
  ("62KY", ["44,44,,,,225.8"]);
  ("62LA", ["2600,30"]);
  ("62LS", ["40,40"]);
  ("62MD", ["1700,60"]);
  ("62MN", ["2000,200"; "1300,200"; "1800,200"]);
  ("62MO", ["2600,100"]);
  ("62NC", ["2200,100"]);
  ("62ND", ["1700,80"; "2600,100"]);
  ("62NH", ["35,33"]);
  ("62NJ", ["1800,100,,,,5"]);
  ("62NM", ["2200,50,,49,,269"; "3210,30,,110,,336"]);
  ("62NY", ["155,105"]);
  ("62OH", ["3400,60"]);
  ("62OI", ["36,36"]);
  ("62OK", ["2900,150"]);
  ("62OR", ["110,110"]);
  ("62PA", ["2600,70,,,,304.1"]);
  ("62TA", ["1550,50"]);
  ("62TE", ["90,90"]);
  ("62TS", ["20,20"]);
  ("62TX", ["2400,35"]);
  ("62VA", ["2200,200,,,,305"]);
  ("62WA", ["60,60"]);
  ("62WI", ["75,75"]);
  ("62XS", ["2400,60,,,,329"]);
  ("63A", ["9000,1100"]);
  ("63AK", ["1200,25"]);
  ("63AR", ["2200,21"; "2900,100"]);
  ("63AZ", ["60,45,,,,226"]);
  ("63CA", ["3000,100"]);
  ("63CL", ["2800,110"]);
  ("63CN", ["1860,25"]);
  ("63CO", ["2500,60"]);
  ("63FD", ["2290,70"]);
  ("63FL", ["60,60,,,,295"]);
  ("63GA", ["2700,100"]);
  ("63IA", ["40,40,,,,233.8"]);
  ("63II", ["1650,75"]);
  ("63IL", ["2525,50"]);
  ("63IS", ["1780,135"]);
  ("63K", ["2000,56,,,,226"]);
  ("63KY", ["40,40"]);
  ("63MI", ["50,50"]);
  ("63MN", ["2000,75"]);
  ("63MO", ["20,20"]);
  ("63NC", ["2800,100"]);
  ("63ND", ["2500,32"]);
  ("63NJ", ["150,150"]);
  ("63NY", ["3200,60,,165.4,,292.9"]);
  ("63OH", ["2800,75"]);
  ("63OI", ["2000,40,,,,342"]);
  ("63OK", ["100,100"]);
  ("63OR", ["2300,100"]);
  ("63PN", ["50,50"]);
  ("63S", ["2695,40,1869,,1888,324"]);
  ("63TA", ["3080,60"]);
  ("63TE", ["2000,100"]);
  ("63TS", ["50,50"]);
  ("63TX", ["1400,30"]);
  ("63VA", ["30,30"]);
  ("63WA", ["1600,200"]);
  ("63WI", ["2250,50"]);
  ("63XS", ["4100,40,,170,,318"]);
  ("63Y", ["2600,160,1742,,1742,254"]);
  ("64AK", ["1200,30"]);
  ("64AZ", ["24,24,,,,260.1"]);
  ("64C", ["1775,130,870,,860"]);
  ("64CA", ["65,32,,,,341.1"]);
  ("64CL", ["1200,900"]);
  ("64CO", ["1450,40,,,,195"]);
  ("64CT", ["2200,75,,,,265"]);
  ("64F", ["3000,60"]);
  ("64FA", ["1980,120"; "3300,120,,,,261"]);
  ("64FD", ["46,46"]);
  ("64FL", ["20,20"]);
  ("64G", ["2600,30,,,,338"]);
  ("64GA", ["2050,150"]);
  ("64I", ["4080,100,473,,464,196"]);
  ("64II", ["45,45"]);
  ("64IL", ["2640,125"]);
  ("64IN", ["2600,70"]);
  ("64IS", ["12,12"]);
  ("64KY", ["1600,100"]);
  ("64LL", ["75,75,,,,278"]);
  ("64ME", ["90,90,,,,245"]);
  ("64MI", ["12,12"]);
  ("64MN", ["11,11,,,,180"]);
  ("64MO", ["3260,80"]);
  ("64NC", ["1800,50"]);
  ("64ND", ["2660,45"]);
  ("64NE", ["50,50"]);
  ("64NJ", ["1000,210"]);
  ("64NY", ["1900,150"; "1320,150"; "50,50"]);
  ("64OG", ["5180,65"]);
  ("64OH", ["2100,100"]);
  ("64OI", ["50,50"]);
  ("64OK", ["20,20"]);
  ("64OR", ["2300,50"]);
  ("64PA", ["80,80"]);
  ("64PN", ["60,60"]);
  ("64TA", ["50,50"]);
  ("64TE", ["2700,60"]);
  ("64TS", ["64,64"]);
  ("64TX", ["45,45"]);
  ("64V", ["2800,50,,,,288"]);
  ("64WA", ["150,150"]);
  ("64WI", ["2700,50"]);
  ("64XS", ["50,50"]);
  ("65AK", ["2700,75"]);
  ("65AR", ["2600,100,,,,256"]);
  ("65AZ", ["40,40,,,,244"]);
  ("65B", ["2024,100,82,,81,321"]);
  ("65CA", ["20,20,,,,238"]);
  ("65CL", ["2400,100"]);
  ("65CN", ["2900,25"]);
  ("65CO", ["1400,40"]);
  ("65FD", ["20,20,,,,286"]);
  ("65FL", ["50,50,,,,226.2"; "50,50,,,,353"]);
  ("65G", ["3050,110,908,,908,253.1"; "2000,113,,,,282"]);
  ("65GA", ["50,50,,,,230.1"]);
  ("65IL", ["2400,100,,,,227.7"]);
  ("65IN", ["60,60,,,,277.1"]);
  ("65IS", ["2300,90"]);
  ("65KS", ["2235,75,,,,310"; "1800,80,,,,276"]);
  ("65KY", ["40,40"]);
  ("65LA", ["3200,40,,21.2,,344.3"; "5000,100"]);
  ("65MI", ["150,150"]);
  ("65MN", ["3000,100"]);
  ("65MO", ["30,30"]);
  ("65NC", ["200,100"]);
  ("65NM", ["3600,40"]);
  ("65NY", ["2600,75"]);
  ("65OH", ["2500,20"]);
  ("65OI", ["25,25"]);
  ("65OK", ["30,30"]);
  ("65OR", ["150,150"]);
  ("65PA", ["1710,100,,,,301"]);
  ("65TE", ["2500,50"]);
  ("65TN", ["2200,60"]);
  ("65TS", ["1600,120"]);
  ("65TX", ["5000,100"]);
  ("65WA", ["1300,100"]);
  ("65WN", ["1800,75"]);
  ("65XS", ["2200,100"]);
  ("66AK", ["1700,200"]);
  ("66AZ", ["40,40"]);
  ("66B", ["1635,50"]);
  ("66CA", ["1800,65"]);
  ("66CL", ["2200,100"]);
  ("66CN", ["100,100,1080"]);
  ("66CO", ["15,15"]);
  ("66FD", ["1340,60"]);
  ("66FL", ["48,48"]);
  ("66G", ["2530,100,645,,645"]);
  ("66GA", ["1700,60"]);
  ("66II", ["2000,90"]);
  ("66IL", ["2000,100"]);
  ("66IN", ["1025,75"]);
  ("66KS", ["2640,150"]);
  ("66KY", ["2400,150"]);
  ("66LA", ["1600,80"]);
  ("66MI", ["2200,60,,,,246"]);
  ("66MN", ["2500,100"]);
  ("66MO", ["900,75"]);
  ("66NC", ["2800,70"]);
  ("66NJ", ["150,150"]);
  ("66NY", ["2800,60"]);
  ("66OH", ["45,45"]);
  ("66OI", ["3000,100"]);
  ("66OK", ["2000,40"]);
  ("66OR", ["50,50"]);
  ("66PA", ["50,50"]);
  ("66S", ["3100,120"]);
  ("66TA", ["50,50"]);
  ("66TE", ["2800,50"]);
  ("66TS", ["50,50"]);
  ("66TX", ["3750,50"]);
  ("66VA", ["60,60"]);
  ("66VT", ["1100,60"]);
  ("66WA", ["1800,60"]);
  ("66WI", ["1150,200"]);
  ("66XS", ["2200,50"]);
  ("67AK", ["2640,240"]);
  ("67AR", ["3100,50"]);
  ("67AZ", ["35,35"]);
  ("67CA", ["3000,20,,105"]);
  ("67CL", ["2000,75"]);
  ("67CN", ["114,50,,,,325.7"]);
  ("67CO", ["1400,75"]);
  ("67D", ["2850,100,864,,864"]);
  ("67FD", ["40,40"]);
  ("67FL", ["3400,130"]);
  ("67GA", ["2300,50"]);
  ("67II", ["1800,80"]);
  ("67IL", ["2000,75"]);
  ("67IS", ["30,30"]);
  ("67KS", ["2240,70"]);
  ("67KY", ["1500,100"]);
  ("67LA", ["20,20"]);
  ("67LL", ["1600,70"]);
  ("67ME", ["300,300,,,,245"]);
  ("67MN", ["2700,90"]);
  ("67MO", ["2640,100"]);
  ("67NC", ["3000,100"]);
  ("67ND", ["2600,66"]);
  ("67NE", ["2765,93"]);
  ("67NJ", ["2100,50"]);
  ("67NY", ["325,100"]);
  ("67OG", ["1500,60,,,,310"]);
  ("67OH", ["2450,90"]);
  ("67OI", ["30,30"]);
  ("67OK", ["1000,75"]);
  ("67OR", ["1960,90"]);
  ("67PA", ["60,60"]);
  ("67PN", ["2100,100"]);
  ("67S", ["4400,175"]);
  ("67TA", ["400,150"]);
  ("67TE", ["2400,100"]);
  ("67TS", ["50,14"]);
  ("67TX", ["2764,30,95,,96"]);
  ("67VA", ["1800,30"]);
  ("67WA", ["2000,25"]);
  ("67WI", ["2600,80"]);
  ("67XS", ["80,80"]);
  ("68A", ["9000,360"]);
  ("68AK", ["20,20"]);
  ("68AZ", ["3000,50"; "1850,50"]);
  ("68C", ["2530,60,871,,870"; "1800,120,871,,876"; "1745,130,871,,876"]);
  ("68CA", ["3000,75,,166.5"]);
  ("68CL", ["4500,50,,175,,355"]);
  ("68CN", ["2600,150"]);
  ("68FD", ["5280,50"]);
  ("68FL", ["50,50"]);
  ("68G", ["3068,100,773,,773"]);
  ("68GA", ["40,40"]);
  ("68ID", ["780,30"]);
  ("68II", ["30,40"]);
  ("68IL", ["2540,120"]);
  ("68IN", ["1200,50"]);
  ("68IS", ["3000,40,747,90,738"]);
  ("68JY", ["10000,1000"]);
  ("68KS", ["1300,50"; "2600,50"]);
  ("68KY", ["2400,75"]);
  ("68LA", ["3000,70"]);
  ("68MI", ["1665,125"; "1850,125"]);
  ("68MN", ["2200,60"]);
  ("68MO", ["100,75"]);
  ("68NC", ["2150,150"]);
  ("68NE", ["1700,60"]);
  ("68NJ", ["75,75"]);
  ("68NM", ["2700,60"]);
  ("68NY", ["2000,55"]);
  ("68OI", ["40,40"]);
  ("68OK", ["60,60"]);
  ("68OR", ["2000,60"]);
  ("68PA", ["1800,100"]);
  ("68R", ["2580,100,,,,261"]);
  ("68TA", ["20,20"]);
  ("68TE", ["2630,100"]);
  ("68TS", ["3600,31,,24.3"]);
  ("68TX", ["3000,110,,,,250.6"; "5000,120,,,,248"]);
  ("68VA", ["48,48"]);
  ("68WA", ["2000,50,,,,228.8"]);
  ("68WI", ["56,56,,,,226"]);
  ("68XS", ["1900,75"; "2500,100"]);
  ("68Y", ["2912,198,1113,,1119"]);
  ("69AK", ["2000,200"]);
  ("69AZ", ["50,50"]);
  ("69CA", ["60,60"]);
  ("69CL", ["2600,50"]);
  ("69CO", ["87,71,,,,261.2"]);
  ("69CT", ["60,8,,,,208"]);
  ("69FD", ["1965,50,,,,332.6"]);
  ("69FL", ["2300,150,,,,179"]);
  ("69G", ["2471,100,921,,921,202"]);
  ("69GA", ["180,180,,,,202"]);
  ("69GE", ["2500,75"]);
  ("69II", ["2000,85"]);
  ("69IL", ["2600,145"]);
  ("69IN", ["50,50"]);
  ("69KS", ["2600,80"]);
  ("69KY", ["30,30"]);
  ("69LA", ["48,48"]);
  ("69LL", ["2275,90"]);
  ("69MI", ["2625,50"]);
  ("69MN", ["2500,50"]);
  ("69MO", ["1800,60"]);
  ("69MT", ["2949,60"]);
  ("69MY", ["2600,80"]);
  ("69N", ["2455,50,,1,,181"]);
  ("69NC", ["2200,120"]);
  ("69ND", ["1500,40"]);
  ("69NY", ["100,100"]);
  ("69OH", ["1500,75"]);
  ("69OI", ["2400,60"]);
  ("69OK", ["2100,50"]);
  ("69OR", ["800,45"]);
  ("69PA", ["1100,80"]);
  ("69S", ["1975,40,,185,,5"]);
  ("69TA", ["2400,50"]);
  ("69TE", ["2000,75"]);
  ("69TS", ["1500,100"]);
  ("69TX", ["4390,60,,140"]);
  ("69VA", ["3000,80,,15.6,,195.6"]);
  ("69WA", ["96,62"]);
  ("69WI", ["130,80,,,,247"]);
  ("69XA", ["2400,40"]);
  ("69XS", ["2800,30"]);
  ("6A5", ["2550,150"]);
  ("6A6", ["2600,250,1731,,1755"]);
  ("6A7", ["1200,100"]);
  ("6AK", ["2100,25"]);
  ("6AK1", ["2000,75"]);
  ("6AK2", ["1600,60"]);
  ("6AK3", ["1900,50"]);
  ("6AK5", ["900,50"; "2800,75,,,,207.8"]);
  ("6AK7", ["2000,65"]);
  ("6AK8", ["1200,100"]);
  ("6AK9", ["1320,100"]);
  ("6AL3", ["1300,75"]);
  ("6AL6", ["2500,150"]);
  ("6AL8", ["40,40"]);
  ("6AR0", ["2500,60"]);
  ("6AR1", ["1200,100"]);
  ("6AR2", ["2300,40"]);
  ("6AR3", ["60,60"]);
  ("6AR4", ["40,40,,,,234"]);
  ("6AR7", ["40,40"]);
  ("6AR8", ["1400,75,,97.1,,277.1"; "2500,85,,185.8,,5.8"]);
  ("6AR9", ["3000,150,,92.1,,202.7"]);
  ("6AZ0", ["68,68"]);
  ("6AZ2", ["3400,80"; "5000,80"]);
  ("6AZ5", ["3000,30"]);
  ("6AZ6", ["40,40,,,,212"]);
  ("6AZ7", ["175,60,,,,344"]);
  ("6AZ8", ["2650,35"]);
  ("6B0", ["2500,50"]);
  ("6B3", ["1900,80"]);
  ("6B4", ["2550,30,,,,199"]);
  ("6B6", ["2770,48,267,17,268,197"; "1600,70"]);
  ("6C0", ["2750,100,979,180,,360"]);
  ("6C2", ["3112,150,,,,353"]);
  ("6CA0", ["50,50,,,,234.4"]);
  ("6CA1", ["2300,40"]);
  ("6CA2", ["65,65"]);
  ("6CA3", ["150,100"]);
  ("6CA4", ["45,45"]);
  ("6CA5", ["2800,40"; "3000,60,,,,208"]);
  ("6CA6", ["4000,33"]);
  ("6CA8", ["1800,90"]);
  ("6CA9", ["82,65"]);
  ("6CL0", ["1000,150"]);
  ("6CL2", ["25,25,,,,352.6"]);
  ("6CL3", ["40,40"]);
  ("6CL4", ["1100,75"]);
  ("6CL5", ["75,75,,,,239"]);
  ("6CL6", ["800,40"]);
  ("6CL7", ["35,30"]);
  ("6CL8", ["1700,30,,,,212.4"]);
  ("6CL9", ["2500,50"]);
  ("6CO0", ["6750,110"]);
  ("6CO1", ["4000,100"]);
  ("6CO2", ["2400,60"]);
  ("6CO3", ["4800,25"]);
  ("6CO4", ["610,12"]);
  ("6CO5", ["15,15"]);
  ("6CO6", ["2600,35,,,,194"]);
  ("6CO7", ["25,25,,,,178"]);
  ("6CO8", ["60,60,,,,1"]);
  ("6CO9", ["65,55,,,,229"]);
  ("6D3", ["3200,100,1594,130,1595,310"]);
  ("6D5", ["50,50"]);
  ("6D7", ["1725,60,706,,706,264"; "2480,70,706,,706,230.8"]);
  ("6F1", ["3300,60,683,19,684,199"]);
  ("6F7", ["1845,100"; "3600,100"; "5000,80"]);
  ("6FA8", ["50,50"]);
  ("6FD0", ["2600,100"]);
  ("6FD1", ["35,30"]);
  ("6FD2", ["2800,120"]);
  ("6FD4", ["100,75"]);
  ("6FD5", ["3000,80,,,,202"]);
  ("6FD6", ["2500,50"]);
  ("6FD7", ["2750,105"]);
  ("6FD8", ["60,60"]);
  ("6FD9", ["200,100,,,,176"]);
  ("6FL0", ["3000,200,,,,234"]);
  ("6FL1", ["40,40"]);
  ("6FL2", ["1800,60"]);
  ("6FL3", ["4000,50,,10"]);
  ("6FL4", ["1800,200"]);
  ("6FL5", ["30,30"]);
  ("6FL6", ["65,65"]);
  ("6FL7", ["465,160"]);
  ("6FL8", ["2600,75,,,,327"]);
  ("6FL9", ["2200,50"]);
  ("6G6", ["2750,100"]);
  ("6G8", ["2822,100,995,,995"]);
  ("6GA0", ["2500,100"]);
  ("6GA1", ["2200,100"]);
  ("6GA2", ["100,150"]);
  ("6GA3", ["50,50"]);
  ("6GA4", ["3000,100"]);
  ("6GA5", ["2000,100"]);
  ("6GA6", ["50,50"]);
  ("6GA7", ["60,60"]);
  ("6GA8", ["2200,40"]);
  ("6GA9", ["30,30,,,,253.7"]);
  ("6GE2", ["1800,60,,,,301"]);
  ("6H4", ["2105,55,,94,,274"]);
  ("6H8", ["3800,100,1995,,,340"]);
  ("6IA0", ["50,50"]);
  ("6IA1", ["100,100"]);
  ("6IA2", ["70,65,,,,332"]);
  ("6IA3", ["40,40"]);
  ("6IA4", ["36,36"]);
  ("6IA7", ["1500,100"]);
  ("6IA8", ["30,30,,,,305"]);
  ("6IA9", ["50,50,,,,276"]);
  ("6ID1", ["2200,40"]);
  ("6II0", ["2700,100,,,,295"]);
  ("6II1", ["12,10"]);
  ("6II2", ["1400,167"]);
  ("6II4", ["3400,30,,86.6"]);
  ("6II5", ["70,70,,,,235"]);
  ("6II6", ["1700,75"]);
  ("6II7", ["1800,75"]);
  ("6II8", ["2200,100"]);
  ("6IL0", ["2640,100"]);
  ("6IL1", ["40,40"]);
  ("6IL2", ["2000,70,,,,227"]);
  ("6IL3", ["1500,70"; "1200,70"]);
  ("6IL4", ["2200,80"]);
  ("6IL5", ["1850,100"]);
  ("6IL6", ["3000,105"; "2100,105"]);
  ("6IL7", ["100,100,,,,323.1"]);
  ("6IL8", ["100,100,,,,345"]);
  ("6IN0", ["14,20"]);
  ("6IN2", ["2600,100"]);
  ("6IN3", ["2600,80,,,,317"]);
  ("6IN4", ["2400,70"]);
  ("6IN5", ["2140,60"]);
  ("6IN6", ["3000,100"]);
  ("6IN7", ["3500,500"]);
  ("6IN8", ["1800,75,,,,341"]);
  ("6IN9", ["2500,1000"]);
  ("6IS0", ["2200,100,,,,337"]);
  ("6IS1", ["100,100"]);
  ("6IS2", ["36,36,,,,332"]);
  ("6IS4", ["44,44"]);
  ("6IS5", ["1000,350"]);
  ("6IS7", ["88,88"]);
  ("6IS8", ["2260,70"]);
  ("6IS9", ["70,70"]);
  ("6J6", ["2640,85"; "1584,56"]);
  ("6J8", ["4990,75,86,,86"; "2825,75,,,,270.1"]);
  ("6JY8", ["80,80"; "80,80"]);
  ("6K2", ["2300,46"]);
  ("6K7", ["2250,60,,,,326"]);
  ("6K9", ["2275,100,,,,273"]);
  ("6KS0", ["40,40"]);
  ("6KS1", ["2600,75"]);
  ("6KS2", ["2600,100"]);
  ("6KS4", ["3003,88"]);
  ("6KS5", ["2500,92"]);
  ("6KS7", ["2000,50"]);
  ("6KS8", ["2650,50"]);
  ("6KS9", ["40,40,,,,197.4"]);
  ("6KY3", ["2060,50,,,,271"]);
  ("6KY4", ["1800,75"]);
  ("6KY6", ["1500,80"]);
  ("6LA0", ["600,150,,,,338.8"]);
  ("6LA1", ["3500,75"]);
  ("6LA3", ["100,100,,,,342"]);
  ("6LA4", ["2500,65"]);
  ("6LA5", ["2500,115"]);
  ("6LA6", ["3000,75"]);
  ("6LA7", ["50,40,,,,310"]);
  ("6LA9", ["20,20"]);
  ("6LL0", ["2150,75"]);
  ("6LL1", ["1775,70"]);
  ("6LL2", ["1600,100"]);
  ("6LL4", ["1900,100"]);
  ("6LL5", ["2200,100"]);
  ("6LL6", ["2400,100"]);
  ("6LL7", ["100,100,,,,322.6"]);
  ("6LL8", ["4000,50"]);
  ("6LL9", ["20,15"]);
  ("6M8", ["2700,60,219,,219,189"]);
  ("6MA0", ["3000,200"]);
  ("6MA1", ["25,25"]);
  ("6MA2", ["2000,75"]);
  ("6MA3", ["150,150,,,,342.5"]);
  ("6MA4", ["70,70,,,,286.5"]);
  ("6MA5", ["25,25,,,,345"]);
  ("6MA6", ["70,70,,,,329.3"]);
  ("6MA7", ["32,32"]);
  ("6MA8", ["3500,200"; "3500,200"]);
  ("6MA9", ["2500,100"; "2500,100"]);
  ("6MD1", ["1488,75,,,,304"]);
  ("6MD2", ["3250,50"]);
  ("6MD3", ["1400,50"]);
  ("6MD4", ["2200,50"]);
  ("6MD6", ["42,42,,,,298"]);
  ("6MD7", ["2450,65,,,,240"]);
  ("6MD8", ["2750,105"]);
  ("6MD9", ["40,40"]);
  ("6MI0", ["2100,60"]);
  ("6MI1", ["1980,75"]);
  ("6MI2", ["1850,150"]);
  ("6MI3", ["2100,75"]);
  ("6MI4", ["20,20"]);
  ("6MI5", ["90,90,,,,350.9"]);
  ("6MI6", ["1200,50"; "2000,50"]);
  ("6MI7", ["2000,75"]);
  ("6MI8", ["20,20"]);
  ("6MI9", ["650,110"; "550,110"]);
  ("6MN0", ["3700,130,,182.7,,254.3"]);
  ("6MN2", ["2100,100"]);
  ("6MN4", ["4000,300"; "6000,300"]);
  ("6MN5", ["4000,2000"]);
  ("6MN6", ["5000,200"; "5000,200"]);
  ("6MN8", ["2600,150"]);
  ("6MN9", ["2000,75"]);
  ("6MO0", ["2200,150"]);
  ("6MO1", ["400,30"]);
  ("6MO2", ["1600,90"]);
  ("6MO3", ["2550,100"]);
  ("6MO4", ["2340,50"]);
  ("6MO5", ["40,40"]);
  ("6MO6", ["1800,100"]);
  ("6MO7", ["2700,50"]);
  ("6MO9", ["1400,60"; "2200,60"]);
  ("6MS1", ["4000,65"; "2800,60"]);
  ("6MS2", ["2700,50"]);
  ("6MU4", ["2200,65"]);
  ("6MU9", ["2500,100"]);
  ("6N5", ["37,37"; "44,44"; "44,44"; "44,44"]);
  ("6N6", ["5000,400"]);
  ("6N7", ["10000,1000"]);
  ("6N9", ["1850,75"]);
  ("6NA0", ["1600,60"; "2640,60"]);
  ("6NA2", ["4000,80"]);
  ("6NA5", ["3800,100"]);
  ("6NA6", ["1600,40"]);
  ("6NC0", ["2800,54,,,,259"]);
  ("6NC1", ["3000,40,,31,,234"]);
  ("6NC2", ["1550,100"]);
  ("6NC3", ["3000,300"]);
  ("6NC4", ["1400,40"; "1200,40"]);
  ("6NC5", ["1800,75"]);
  ("6NC6", ["25,25"]);
  ("6NC7", ["3000,80"]);
  ("6NC8", ["2500,60"]);
  ("6NC9", ["3000,60"; "1000,100"]);
  ("6ND2", ["3500,60"]);
  ("6ND3", ["2500,75"; "2500,75"]);
  ("6ND6", ["2200,40"]);
  ("6ND9", ["3100,75"]);
  ("6NE0", ["3020,80"]);
  ("6NE7", ["2100,125"]);
  ("6NE8", ["2600,100"]);
  ("6NJ1", ["1300,100"]);
  ("6NJ2", ["100,100"]);
  ("6NJ3", ["100,100"]);
  ("6NJ5", ["75,75"]);
  ("6NJ6", ["80,80"]);
  ("6NJ7", ["5000,500"]);
  ("6NJ9", ["2000,70"]);
  ("6NK", ["2660,43"]);
  ("6NK0", ["1600,54"]);
  ("6NK1", ["900,60"]);
  ("6NK2", ["2200,100"]);
  ("6NK3", ["40,40"]);
  ("6NK4", ["1800,50"]);
  ("6NK5", ["45,45"]);
  ("6NK6", ["60,50"]);
  ("6NK7", ["50,50"]);
  ("6NK8", ["2386,418,,,,308"]);
  ("6NK9", ["40,40"]);
  ("6NY1", ["1700,50"]);
  ("6NY2", ["1350,75"]);
  ("6NY3", ["1600,50"]);
  ("6NY4", ["2000,50,,,,239.8"]);
  ("6NY5", ["50,50"]);
  ("6NY6", ["3500,500"; "2000,500"; "4500,500"]);
  ("6NY7", ["2600,75"]);
  ("6NY8", ["60,60"]);
  ("6NY9", ["50,50"]);
  ("6OG3", ["3200,80"]);
  ("6OH0", ["40,40"]);
  ("6OH1", ["1350,50"]);
  ("6OH2", ["25,25"]);
  ("6OH3", ["2400,75"]);
  ("6OH4", ["1000,40"; "1770,50"]);
  ("6OH5", ["60,60"]);
  ("6OH6", ["2500,50"; "1575,40"]);
  ("6OH7", ["2100,50"]);
  ("6OH8", ["25,25"]);
  ("6OH9", ["2800,100"]);
  ("6OI0", ["1800,80"]);
  ("6OI4", ["40,25"]);
  ("6OI5", ["2400,80"]);
  ("6OI6", ["118,110"]);
  ("6OI8", ["55,55"]);
  ("6OI9", ["75,75"]);
  ("6OK0", ["2600,100"]);
  ("6OK1", ["1970,40,,,,255.7"]);
  ("6OK2", ["1986,100"]);
  ("6OK3", ["2013,60"]);
  ("6OK4", ["48,48"]);
  ("6OK6", ["2400,120"]);
  ("6OK7", ["2300,50"]);
  ("6OK8", ["2500,50,,,,358.9"]);
  ("6OK9", ["2670,100"]);
  ("6OR0", ["1500,100"]);
  ("6OR1", ["1600,60"]);
  ("6OR2", ["2450,75,,,,348"]);
  ("6OR3", ["80,80"]);
  ("6OR4", ["1700,100,,,,219.4"]);
  ("6OR5", ["50,50"]);
  ("6OR6", ["1100,50"]);
  ("6OR7", ["2300,55"]);
  ("6OR9", ["2800,100"]);
  ("6P3", ["2223,30,954,,933,352"]);
  ("6PA0", ["2500,200"]);
  ("6PA1", ["500,100"]);
  ("6PA2", ["45,45"]);
  ("6PA3", ["2273,140"]);
  ("6PA4", ["2000,100,,,,270"]);
  ("6PA5", ["2400,30,,,,360"]);
  ("6PA6", ["1600,100"]);
  ("6PA7", ["2144,185"]);
  ("6PA8", ["1550,100"]);
  ("6PN2", ["70,70"]);
  ("6PN3", ["106,76"]);
  ("6PN4", ["60,60"]);
  ("6PN5", ["1300,100"]);
  ("6PN6", ["33,33"]);
  ("6PN7", ["60,60"]);
  ("6PN8", ["200,200"]);
  ("6PN9", ["2000,120"]);
  ("6PS0", ["40,40"]);
  ("6PS2", ["100,100"]);
  ("6PS3", ["1600,100"]);
  ("6PS4", ["50,50"]);
  ("6PS5", ["40,40"]);
  ("6PS6", ["65,65"]);
  ("6PS8", ["1475,100"]);
  ("6PS9", ["95,95"]);
  ("6Q0", ["27,27"]);
  ("6R1", ["2700,50,18,72,18,252"; "2200,150,18,87,18,267"]);
  ("6R4", ["1550,25,615,166,599,346"]);
  ("6R5", ["1420,75"; "1500,80"; "830,60"]);
  ("6R7", ["2750,60"]);
  ("6S4", ["1940,50"]);
  ("6S6", ["2500,60"]);
  ("6S9", ["2630,100"]);
  ("6SC1", ["2500,90"]);
  ("6T2", ["50,50"]);
  ("6TA0", ["4200,105"]);
  ("6TA1", ["30,30"]);
  ("6TA2", ["2600,60,,,,359"]);
  ("6TA3", ["2500,50"]);
  ("6TA4", ["6300,64"]);
  ("6TA5", ["40,20"; "40,20"; "40,20"; "40,20"; "40,20"; "40,20"]);
  ("6TA6", ["60,60"]);
  ("6TA7", ["1800,70"]);
  ("6TA8", ["2200,75"]);
  ("6TE0", ["2500,150"; "1350,100"]);
  ("6TE1", ["4000,300"]);
  ("6TE2", ["1200,100"]);
  ("6TE3", ["2700,60"]);
  ("6TE5", ["5440,65"]);
  ("6TE6", ["5086,75,,10,,298"]);
  ("6TE7", ["4000,34"]);
  ("6TE8", ["3455,25"; "2190,25,1714,180,1744,0"]);
  ("6TE9", ["2840,35"]);
  ("6TN0", ["20,20"]);
  ("6TN1", ["3370,60,,,,197"]);
  ("6TN2", ["20,20"]);
  ("6TN3", ["200,200"]);
  ("6TN4", ["1800,100"]);
  ("6TN5", ["50,50"]);
  ("6TN6", ["40,40"]);
  ("6TN7", ["3000,200"]);
  ("6TN8", ["40,40"]);
  ("6TN9", ["1400,60"]);
  ("6TS0", ["2600,50"]);
  ("6TS1", ["2000,30"]);
  ("6TS2", ["1900,50"]);
  ("6TS4", ["2600,90"]);
  ("6TS5", ["30,30"]);
  ("6TS6", ["2600,40"]);
  ("6TS7", ["100,100"]);
  ("6TS8", ["2300,30"]);
  ("6TS9", ["30,30"]);
  ("6TX0", ["100,70"]);
  ("6TX1", ["20,20"]);
  ("6TX2", ["2360,100"]);
  ("6TX3", ["3800,100"]);
  ("6TX4", ["3000,50"]);
  ("6TX5", ["38,38"]);
  ("6TX6", ["2500,50"]);
  ("6TX7", ["2600,65"]);
  ("6TX8", ["1900,100"]);
  ("6TX9", ["5000,60"]);
  ("6U5", ["2200,75,,,,224"; "2160,200"; "1960,75"]);
  ("6U6", ["3140,60"; "1230,50"]);
  ("6VA0", ["1400,40"]);
  ("6VA1", ["25,25"]);
  ("6VA2", ["4000,100"]);
  ("6VA3", ["40,40"]);
  ("6VA4", ["1400,60"]);
  ("6VA6", ["30,30"]);
  ("6VA7", ["75,75"]);
  ("6VA8", ["50,50"]);
  ("6VA9", ["2800,100"]);
  ("6W0", ["2265,45"]);
  ("6W4", ["1735,150"]);
  ("6W6", ["2550,100"]);
  ("6WA0", ["50,50"]);
  ("6WA1", ["80,80"]);
  ("6WA2", ["1800,40,,,,299"; "5000,100"]);
  ("6WA3", ["2554,60"]);
  ("6WA4", ["4500,40,,,,242"]);
  ("6WA5", ["1000,30"]);
  ("6WA6", ["3000,60"]);
  ("6WA7", ["45,45"]);
  ("6WA8", ["16,12"]);
  ("6WA9", ["40,40"]);
  ("6WI0", ["2000,110"]);
  ("6WI1", ["1400,80"]);
  ("6WI2", ["1700,100,,,,340"]);
  ("6WI3", ["2000,60"]);
  ("6WI4", ["2600,60"]);
  ("6WI5", ["2800,50"]);
  ("6WI6", ["1340,100"]);
  ("6WI7", ["1800,70"]);
  ("6WI8", ["40,40"]);
  ("6WI9", ["2500,75"]);
  ("6WN5", ["3000,100"]);
  ("6WN6", ["2800,75"]);
  ("6X0", ["2700,30"]);
  ("6XS0", ["50,50"]);
  ("6XS1", ["60,60"; "50,50"]);
  ("6XS2", ["2200,80"; "2850,90"]);
  ("6XS3", ["1980,30"]);
  ("6XS4", ["2600,100"; "1600,150"]);
  ("6XS5", ["3100,100"]);
  ("6XS6", ["90,90"]);
  ("6XS7", ["1900,40"; "3200,100"]);
  ("6XS8", ["1700,50"]);
  ("6XS9", ["1700,50"]);
  ("6Y0", ["2797,100,1213,,1213"; "2599,100,1213,,1213"]);
  ("6Y2", ["50,50"]);
  ("6Y6", ["2600,120,1198,,1198"; "2600,110,1198,,1198"]);
  ("6Y8", ["2512,30"; "3500,140,644,,644"]);
  ("6Y9", ["2000,100"]);
  ("70AK", ["2800,50"]);
  ("70AR", ["2400,75"]);
  ("70AZ", ["20,20"; "20,20"])].

(* ADRpy/data/runways.csv *)
Definition airports_7 : list (string * list string) := [
  ("70B", ["4000,500"]);
  ("70CA", ["50,50"]);
  ("70CL", ["1625,50"]);
  ("70CO", ["30,30"]);
  ("70D", ["2400,50"]);
  ("70FD", ["50,50"]);
  ("70FL", ["50,50"]);
  ("70II", ["1500,80,,,,316.2"]);
  ("70IL", ["1205,70"]);
  ("70IN", ["2700,80"]);
  ("70IS", ["60,60"]);
  ("70K", ["2100,70"]);
  ("70KY", ["2700,60"]);
  ("70LA", ["2500,200"]);
  ("70LL", ["3600,80"]);
  ("70MA", ["50,50"]);
  ("70MD", ["2200,75"; "2200,140"]);
  ("70MN", ["2000,100"]);
  ("70MO", ["1425,50"]);
  ("70MY", ["4500,1000"; "10000,1000"]);
  ("70N", ["2478,42,1729,39,1669,219"]);
  ("70NC", ["3000,75"]);
  ("70NJ", ["1600,50"]);
  ("70NY", ["150,150"]);
  ("70OH", ["2660,50"]);
  ("70OI", ["21,21"]);
  ("70OK", ["2640,125"]);
  ("70OR", ["1600,75"]);
  ("70PA", ["80,80"]);
  ("70PN", ["2000,120"]);
  ("70S", ["2481,30,,180,,360"]);
  ("70TA", ["150,150"]);
  ("70TE", ["3180,50"]);
  ("70TS", ["65,65"]);
  ("70TX", ["20,20"]);
  ("70VA", ["1800,50"]);
  ("70WA", ["50,50"]);
  ("70WI", ["2600,100"]);
  ("70XS", ["2950,100"]);
  ("71AK", ["2000,100"]);
  ("71AL", ["1800,60"]);
  ("71AZ", ["60,40"]);
  ("71CA", ["100,65"]);
  ("71CL", ["2570,40"]);
  ("71CO", ["35,35"]);
  ("71FD", ["15,15"]);
  ("71FL", ["60,60"]);
  ("71GA", ["100,70"]);
  ("71IL", ["44,48"]);
  ("71IN", ["1700,75"]);
  ("71K", ["2520,30"]);
  ("71KS", ["1900,50"]);
  ("71KY", ["1600,100"]);
  ("71LL", ["2600,70"]);
  ("71ME", ["1100,50"]);
  ("71MN", ["6000,2000"]);
  ("71MO", ["3000,80"]);
  ("71NC", ["3000,200"; "1000,200"]);
  ("71NY", ["90,60"]);
  ("71OH", ["1300,50"]);
  ("71OK", ["1940,165"]);
  ("71OR", ["1500,25"]);
  ("71PA", ["32,32"]);
  ("71PN", ["2000,100"]);
  ("71TA", ["2000,60"; "4400,80"]);
  ("71TE", ["3450,40,1442,185.9,1442"]);
  ("71TX", ["1500,50"]);
  ("71VA", ["40,40"]);
  ("71WI", ["12,12"]);
  ("71XS", ["2200,30"]);
  ("72AK", ["300,300"]);
  ("72AZ", ["50,50"]);
  ("72CA", ["30,25"]);
  ("72CL", ["3200,30,,183.1"]);
  ("72CO", ["3000,50"]);
  ("72FD", ["160,70"]);
  ("72FL", ["1800,200"]);
  ("72GA", ["2600,150"]);
  ("72II", ["50,50,,,,282"]);
  ("72IL", ["60,44"]);
  ("72IN", ["2640,80"]);
  ("72IS", ["1800,70"]);
  ("72K", ["2550,50"]);
  ("72KS", ["1700,65"]);
  ("72KY", ["1500,50"]);
  ("72LA", ["20,20"]);
  ("72LL", ["2641,70"]);
  ("72ME", ["1200,25,,,,360"]);
  ("72MI", ["5000,75,1642,94,1613,274"]);
  ("72MU", ["40,40"]);
  ("72NC", ["36,26"]);
  ("72ND", ["2600,75"]);
  ("72NE", ["1800,80"]);
  ("72NM", ["4752,80"]);
  ("72NY", ["60,60"]);
  ("72OH", ["2000,75"]);
  ("72OI", ["400,100"]);
  ("72OK", ["60,60"]);
  ("72OR", ["2000,60"]);
  ("72PA", ["90,90"]);
  ("72PN", ["65,65"]);
  ("72S", ["2800,45,2169,39,2159,219"]);
  ("72TA", ["6000,75,,60"; "5000,75,,180"]);
  ("72TE", ["5100,50,,150"]);
  ("72TN", ["40,40"]);
  ("72TS", ["3335,100"]);
  ("72TX", ["70,70"]);
  ("72VA", ["127,81"; "44,44"]);
  ("72WA", ["200,50"]);
  ("72WI", ["1500,40"]);
  ("72XS", ["1750,50"; "1900,50"]);
  ("73AK", ["150,150"]);
  ("73AR", ["4000,50,,182.9"]);
  ("73AZ", ["4800,60,5043,72.7,5115"]);
  ("73CA", ["3200,50"]);
  ("73CL", ["2000,30"]);
  ("73F", ["3000,80"]);
  ("73FD", ["2400,100,,180,,0"]);
  ("73FL", ["30,30"]);
  ("73GA", ["40,75"]);
  ("73IA", ["3250,60"]);
  ("73II", ["800,60"]);
  ("73IL", ["50,50"]);
  ("73IN", ["1320,150"]);
  ("73KS", ["1385,144"; "2046,144"; "1685,144"]);
  ("73KY", ["2150,80"]);
  ("73MI", ["40,40"]);
  ("73MO", ["48,48"]);
  ("73MU", ["1800,60"; "1800,60"]);
  ("73NC", ["850,450"]);
  ("73NY", ["1500,40,,,,318"]);
  ("73OH", ["4000,60,,81.6"]);
  ("73OI", ["2200,80"]);
  ("73OR", ["1300,50"]);
  ("73PA", ["2220,125"]);
  ("73PN", ["1500,90"]);
  ("73S", ["2260,40,2520,59,2520,239"]);
  ("73TA", ["3190,100"]);
  ("73TE", ["2900,50"]);
  ("73TS", ["365,320"]);
  ("73TX", ["1345,115"; "1440,90"]);
  ("73U", ["100,100"]);
  ("73VA", ["70,70"]);
  ("73WA", ["2600,60"]);
  ("73WI", ["3200,100"; "2700,100"]);
  ("73WT", ["2700,40,,,,228.9"]);
  ("73XS", ["2280,30"]);
  ("74AZ", ["4800,50,,,,360"]);
  ("74CA", ["75,75"]);
  ("74CL", ["2600,44"]);
  ("74CO", ["2500,40"]);
  ("74FD", ["2600,100"]);
  ("74FL", ["6395,100"]);
  ("74GA", ["3100,100"]);
  ("74II", ["54,54"]);
  ("74IL", ["40,40"]);
  ("74IN", ["2000,100"]);
  ("74IS", ["40,40"]);
  ("74KS", ["2500,125"]);
  ("74KY", ["2500,40"]);
  ("74L", ["40,30"]);
  ("74LA", ["20,20"]);
  ("74LL", ["16,16"]);
  ("74ME", ["3500,200,,,,310"]);
  ("74MO", ["230,150"]);
  ("74MU", ["1800,40"]);
  ("74N", ["2325,60,786,42,791,222"]);
  ("74NC", ["2000,150"]);
  ("74NJ", ["100,100"]);
  ("74NY", ["1575,50"]);
  ("74OH", ["40,40"]);
  ("74OI", ["45,32"]);
  ("74OK", ["2700,100"]);
  ("74OR", ["1300,80"]);
  ("74PA", ["1200,100"]);
  ("74PN", ["70,78"]);
  ("74R", ["2360,80"; "2250,100"]);
  ("74TA", ["5200,100"]);
  ("74TE", ["4191,50,952,180,921"]);
  ("74TS", ["20,20"]);
  ("74TX", ["4170,200"; "5500,200"]);
  ("74VA", ["60,60"]);
  ("74WA", ["2600,50"]);
  ("74WI", ["100,100"]);
  ("74WT", ["800,50,,,,226.8"]);
  ("74XS", ["4700,50"]);
  ("75AK", ["2640,90"]);
  ("75AR", ["2700,150"; "3000,150"]);
  ("75AZ", ["50,50"]);
  ("75B", ["2500,200"]);
  ("75C", ["2800,50"]);
  ("75CA", ["45,45"]);
  ("75CO", ["30,30,,,,246"]);
  ("75D", ["2100,73"]);
  ("75DC", ["1800,40"]);
  ("75FD", ["60,60"]);
  ("75FL", ["3850,150,,90"]);
  ("75G", ["2480,100,1005,,1005"]);
  ("75IA", ["40,40"]);
  ("75II", ["860,50"]);
  ("75IL", ["40,40"]);
  ("75IN", ["50,50"]);
  ("75IS", ["1800,100"]);
  ("75K", ["2255,48"]);
  ("75KS", ["2640,40"]);
  ("75KY", ["2800,70"]);
  ("75LA", ["30,25"]);
  ("75LL", ["2400,80"]);
  ("75MI", ["1347,60"]);
  ("75MN", ["2000,80"]);
  ("75MO", ["72,35"]);
  ("75MU", ["20,20"]);
  ("75NC", ["1600,100"]);
  ("75ND", ["1700,50"; "3200,75"]);
  ("75NE", ["2500,66"]);
  ("75NY", ["3000,50"]);
  ("75OH", ["2600,70"]);
  ("75OI", ["2000,80"]);
  ("75OR", ["25,20"]);
  ("75PA", ["2200,100"; "1950,100"]);
  ("75PN", ["5000,500"]);
  ("75RI", ["20,20"]);
  ("75TA", ["4725,50,,160"]);
  ("75TE", ["1970,100"]);
  ("75TN", ["400,50"]);
  ("75TS", ["1600,36"]);
  ("75TX", ["4250,50,,154,1725"]);
  ("75U", ["15000,4000"]);
  ("75VA", ["50,50"]);
  ("75WA", ["1600,40"]);
  ("75WI", ["900,60"]);
  ("75WT", ["500,40,,,,338.1"]);
  ("75WV", ["1700,30,,,,212.3"]);
  ("75XS", ["2100,100"]);
  ("76AK", ["3000,75"]);
  ("76AZ", ["40,40"]);
  ("76B", ["15000,3960"]);
  ("76CA", ["200,50"]);
  ("76CL", ["2350,50"]);
  ("76CN", ["40,40"]);
  ("76CO", ["2640,40"]);
  ("76FD", ["2800,55"]);
  ("76FL", ["42,42"]);
  ("76GA", ["3600,50"]);
  ("76II", ["1150,40"]);
  ("76IL", ["50,50"]);
  ("76IS", ["12,12"]);
  ("76KY", ["1400,100"]);
  ("76LA", ["61,41"]);
  ("76LL", ["75,75"]);
  ("76MI", ["1200,75"]);
  ("76MN", ["2200,40"]);
  ("76MU", ["16,16"]);
  ("76N", ["2007,50"]);
  ("76NC", ["3000,70"]);
  ("76NE", ["30,30"]);
  ("76NH", ["50,50"]);
  ("76OH", ["100,100"]);
  ("76OI", ["2400,50"]);
  ("76OK", ["4500,150"]);
  ("76OR", ["60,60"]);
  ("76PA", ["65,65"]);
  ("76PN", ["100,80"]);
  ("76T", ["3730,170"]);
  ("76TA", ["3500,50,,30"]);
  ("76TE", ["4800,60"]);
  ("76TS", ["50,50"]);
  ("76TX", ["3000,200"]);
  ("76V", ["4397,70,4665,,4662"]);
  ("76VA", ["59,53"]);
  ("76WA", ["2500,75"]);
  ("76WI", ["20,20"]);
  ("76XS", ["60,60"]);
  ("76Z", ["800,30"]);
  ("77AK", ["1700,130"]);
  ("77AZ", ["45,45"]);
  ("77CA", ["1700,95"]);
  ("77CL", ["3400,100"]);
  ("77CO", ["63,63"]);
  ("77FD", ["60,60"]);
  ("77FL", ["75,75"]);
  ("77GA", ["2400,150"]);
  ("77IL", ["15,15"]);
  ("77IN", ["80,90"]);
  ("77IS", ["25,25"]);
  ("77KS", ["2300,60"]);
  ("77KY", ["1600,75"]);
  ("77LA", ["60,50"]);
  ("77LL", ["3400,70"]);
  ("77MD", ["60,60"]);
  ("77ME", ["4000,300"]);
  ("77MI", ["2801,100,887,,887"]);
  ("77MN", ["3600,50"; "2600,50"]);
  ("77MO", ["2500,100"]);
  ("77NC", ["3500,90,,170"]);
  ("77NE", ["30,30"]);
  ("77NJ", ["20,20"]);
  ("77NY", ["3800,75"]);
  ("77OH", ["1500,75"]);
  ("77OI", ["80,80"; "128,62"]);
  ("77OK", ["100,100"]);
  ("77OR", ["20,20"]);
  ("77PA", ["1800,100"]);
  ("77PN", ["1930,80"]);
  ("77T", ["3450,55"; "2620,55"; "2350,60"]);
  ("77TA", ["2600,100"]);
  ("77TE", ["385,150"]);
  ("77TN", ["1500,25"]);
  ("77TS", ["2000,45"]);
  ("77TX", ["2900,100"]);
  ("77VA", ["2400,50"]);
  ("77WA", ["40,40"]);
  ("77XS", ["3900,60,,60"; "1700,60,,150"]);
  ("78A", ["1650,200"; "2600,200"]);
  ("78AK", ["1300,200"]);
  ("78AR", ["2700,150"]);
  ("78B", ["3000,500"; "4000,500"]);
  ("78CA", ["30,30"]);
  ("78CO", ["100,100"]);
  ("78FD", ["2000,100"]);
  ("78FL", ["2760,100"]);
  ("78GA", ["2500,50"]);
  ("78I", ["3630,100"]);
  ("78II", ["1850,100"]);
  ("78IL", ["40,40"]);
  ("78IN", ["100,150"]);
  ("78IS", ["40,40"]);
  ("78K", ["5000,2000"]);
  ("78KS", ["2860,45"]);
  ("78KY", ["40,40"]);
  ("78ME", ["1900,60"]);
  ("78MI", ["2285,100,598,,598"]);
  ("78MN", ["3000,100"]);
  ("78MO", ["1800,70"; "1300,70"]);
  ("78MU", ["2400,120"]);
  ("78NC", ["2780,90"]);
  ("78NE", ["2600,60"]);
  ("78NJ", ["50,50"]);
  ("78NY", ["3750,75"]);
  ("78OH", ["1800,50"; "2700,100"]);
  ("78OI", ["23,23"]);
  ("78OK", ["50,50"]);
  ("78OR", ["2500,32"]);
  ("78PA", ["45,45"]);
  ("78PN", ["50,50"]);
  ("78TA", ["3000,100"]);
  ("78TE", ["1000,40"; "1350,40"]);
  ("78TS", ["50,50"]);
  ("78TX", ["64,62"]);
  ("78U", ["3000,150"]);
  ("78WA", ["1600,100"]);
  ("78WI", ["40,40"]);
  ("78XS", ["2600,100"]);
  ("78Z", ["6000,600"]);
  ("79AK", ["1500,100,,,,225"]);
  ("79AR", ["2600,75"]);
  ("79C", ["2450,20"]);
  ("79CA", ["65,65"]);
  ("79CL", ["2100,75"]);
  ("79CO", ["43,43"]);
  ("79F", ["2580,35"]);
  ("79FD", ["2200,100"]);
  ("79FL", ["1900,100"]);
  ("79GA", ["1700,90"]);
  ("79II", ["2600,80"]);
  ("79IL", ["1600,100"]);
  ("79IN", ["50,50"]);
  ("79IS", ["3200,80"; "3200,80"]);
  ("79KY", ["5488,100,905,93.6,898"]);
  ("79LA", ["50,50"]);
  ("79MI", ["2000,125"]);
  ("79MN", ["2640,100"]);
  ("79MO", ["3000,75"; "2000,50"]);
  ("79MU", ["2000,35"]);
  ("79N", ["3322,150"]);
  ("79NC", ["2459,40"]);
  ("79ND", ["2800,100"]);
  ("79NE", ["40,40"]);
  ("79NJ", ["40,40"]);
  ("79NY", ["1750,60"]);
  ("79OH", ["1800,100"]);
  ("79OI", ["2800,100"]);
  ("79OR", ["80,80"]);
  ("79PA", ["1800,100"]);
  ("79PN", ["55,55"]);
  ("79TA", ["4000,100"]);
  ("79TE", ["3400,100"]);
  ("79TS", ["1000,75"]);
  ("79TX", ["3000,100,,185.4,,5.4"]);
  ("79UT", ["45,45"]);
  ("79VA", ["30,30"]);
  ("79WA", ["2200,27"]);
  ("79WI", ["65,65"]);
  ("79XS", ["3530,190"]);
  ("7A7", ["40,40"]);
  ("7A9", ["3255,230,525,181,524,1"]);
  ("7AK0", ["2000,50"]);
  ("7AK2", ["3000,270"; "2500,100"]);
  ("7AK3", ["1488,150"; "2712,160"]);
  ("7AK4", ["1915,120"]);
  ("7AK5", ["1400,120"]);
  ("7AK6", ["1690,40"]);
  ("7AK7", ["20,20"; "20,20"; "20,20"; "20,20"]);
  ("7AK8", ["1300,65"]);
  ("7AK9", ["1400,25"]);
  ("7AL2", ["1000,50"]);
  ("7AL9", ["2500,100"]);
  ("7AR0", ["2100,75,,71.8"; "2100,75"]);
  ("7AR1", ["2000,18,,91.3"]);
  ("7AR2", ["1600,75,,186.8"]);
  ("7AR3", ["2400,40"]);
  ("7AR4", ["2000,50,,,,234"]);
  ("7AR5", ["30,30"]);
  ("7AZ0", ["155,155"]);
  ("7B1", ["225,82"]);
  ("7B3", ["2100,170"]);
  ("7B4", ["3250,50"]);
  ("7B9", ["1800,50,,175,,355"]);
  ("7C3", ["2650,120,1147,179,1016,359"]);
  ("7C5", ["2600,105,,,,308.8"]);
  ("7CA1", ["4000,75"]);
  ("7CA2", ["2700,60,,174.3,,275"]);
  ("7CA3", ["75,75"]);
  ("7CA4", ["50,50"]);
  ("7CA5", ["96,81"]);
  ("7CA7", ["21,21"]);
  ("7CA8", ["95,95"]);
  ("7CA9", ["65,65"]);
  ("7CL1", ["65,65"]);
  ("7CL2", ["400,200,340"]);
  ("7CL3", ["206,80"]);
  ("7CL4", ["1000,78"]);
  ("7CL5", ["65,65"]);
  ("7CL6", ["99,99"]);
  ("7CL7", ["99,99"]);
  ("7CL8", ["4450,60"]);
  ("7CL9", ["2000,100"]);
  ("7CO0", ["4200,50,,90.7,5050"; "2000,100,,181"]);
  ("7CO1", ["3900,35"]);
  ("7CO4", ["2800,60"; "2200,60"; "2600,60"; "1000,60"]);
  ("7CO5", ["800,40"; "1000,40"]);
  ("7CO6", ["2200,75"]);
  ("7CO7", ["60,40"]);
  ("7CO8", ["1300,30"; "2950,50"]);
  ("7CO9", ["50,50"]);
  ("7D8", ["2800,100,1110,,1110"]);
  ("7E3", ["2640,60,1133,,1100"]);
  ("7F2", ["2400,200,2328,,2341"]);
  ("7FA0", ["40,40"]);
  ("7FA1", ["2700,100"]);
  ("7FA8", ["4642,85"; "180,90"]);
  ("7FD1", ["100,100"]);
  ("7FD2", ["2100,100"; "2000,100"]);
  ("7FD3", ["60,50"]);
  ("7FD4", ["150,100"]);
  ("7FD5", ["45,45"]);
  ("7FD6", ["1800,100"]);
  ("7FD7", ["20,20"]);
  ("7FD9", ["2000,65"]);
  ("7FL0", ["200,65"]);
  ("7FL1", ["25,25"]);
  ("7FL2", ["1900,75"]);
  ("7FL3", ["2625,135"]);
  ("7FL4", ["2600,72"]);
  ("7FL5", ["50,50"]);
  ("7FL6", ["4000,176,24,50,24"]);
  ("7FL7", ["1825,100"]);
  ("7FL8", ["2000,75"]);
  ("7FL9", ["42,42"]);
  ("7G1", ["1200,24"; "2030,20"]);
  ("7G2", ["3100,80,1900,,1900"]);
  ("7G4", ["3415,89"]);
  ("7GA0", ["40,40"]);
  ("7GA1", ["21,21"]);
  ("7GA2", ["2500,100"]);
  ("7GA3", ["2000,80"]);
  ("7GA4", ["2400,60"]);
  ("7GA5", ["1300,35"]);
  ("7GA6", ["37,37"]);
  ("7GA7", ["40,40"]);
  ("7GA8", ["39,39"]);
  ("7GA9", ["2350,100"]);
  ("7GE1", ["2500,100"]);
  ("7GE5", ["2000,75"]);
  ("7I2", ["2800,50,991,,991"]);
  ("7IA1", ["2400,70"]);
  ("7IA3", ["2120,150"]);
  ("7IA5", ["40,40"]);
  ("7IA6", ["60,60"]);
  ("7IA7", ["1500,16"]);
  ("7IA9", ["40,40"]);
  ("7ID7", ["45,45"]);
  ("7II0", ["900,60"]);
  ("7II1", ["25,25"]);
  ("7II2", ["65,65"]);
  ("7II3", ["2200,60"]);
  ("7II5", ["30,30"]);
  ("7II7", ["650,65"]);
  ("7II9", ["1800,100"]);
  ("7IL0", ["2415,75"]);
  ("7IL3", ["1320,70"]);
  ("7IL4", ["50,50"]);
  ("7IL7", ["1900,70"]);
  ("7IL8", ["3000,100"]);
  ("7IL9", ["2000,118"]);
  ("7IN2", ["2400,100"]);
  ("7IN3", ["2400,80"]);
  ("7IN4", ["60,60"]);
  ("7IN5", ["40,40"]);
  ("7IN6", ["1700,90"]);
  ("7IN7", ["685,60"]);
  ("7IN8", ["2600,100"]);
  ("7IN9", ["2100,75"]);
  ("7IS1", ["60,60"]);
  ("7IS2", ["2500,100,,,,238.9"]);
  ("7IS3", ["2300,102,,,,248"]);
  ("7IS4", ["40,40"]);
  ("7IS5", ["2300,100"]);
  ("7IS6", ["40,40"]);
  ("7IS7", ["2420,70"]);
  ("7IS8", ["50,50"]);
  ("7IS9", ["2000,100"]);
  ("7K2", ["2000,2000"]);
  ("7K6", ["2100,80"; "1400,1600"]);
  ("7K7", ["5300,36"]);
  ("7KA", ["3701,75,62,,40"; "8000,4000"]);
  ("7KS0", ["1600,60"]);
  ("7KS2", ["2000,40"]);
  ("7KS3", ["2700,90"]);
  ("7KS4", ["1600,70"]);
  ("7KS5", ["2000,90"]);
  ("7KS6", ["2000,125"]);
  ("7KS8", ["2600,55"]);
  ("7KS9", ["3600,92"]);
  ("7KY2", ["1800,50"]);
  ("7KY3", ["2000,60"]);
  ("7L1", ["75,75"]);
  ("7L5", ["30,20"]);
  ("7L9", ["40,30"]);
  ("7LA0", ["3000,178"]);
  ("7LA1", ["2200,60"]);
  ("7LA2", ["30,30"]);
  ("7LA3", ["3100,50"]);
  ("7LA5", ["700,200"]);
  ("7LA6", ["500,20"]);
  ("7LA7", ["5000,75"; "45,45"]);
  ("7LA8", ["40,40"]);
  ("7LL1", ["40,40"]);
  ("7LL2", ["42,42"]);
  ("7LL3", ["3365,100"]);
  ("7LL4", ["2200,100"]);
  ("7LL6", ["2200,165"]);
  ("7LL7", ["1900,100"]);
  ("7LL8", ["2200,70"]);
  ("7LL9", ["1912,70"]);
  ("7LS3", ["1700,1000"]);
  ("7LS4", ["400,400"]);
  ("7LS6", ["100,100"]);
  ("7M0", ["2400,20"]);
  ("7M6", ["2700,60,430,39,430,219"]);
  ("7M7", ["2550,50,275,180,274,360"]);
  ("7MA0", ["32,32"]);
  ("7MA1", ["10,10"]);
  ("7MA2", ["4000,150"; "2100,150"]);
  ("7MD0", ["1182,50"]);
  ("7MD1", ["2500,50"]);
  ("7MD2", ["60,60"]);
  ("7MD3", ["60,60"]);
  ("7MD4", ["24,24"]);
  ("7MD5", ["45,45"]);
  ("7MD7", ["2000,75"; "2600,100"]);
  ("7MD8", ["2300,60"]);
  ("7MD9", ["1920,86"]);
  ("7MI0", ["90,50"]);
  ("7MI1", ["350,250"]);
  ("7MI3", ["3200,80"]);
  ("7MI4", ["3370,60,,172.2"]);
  ("7MI5", ["2650,125"; "2580,200"]);
  ("7MI6", ["1800,60"]);
  ("7MI7", ["2000,100"]);
  ("7MI8", ["1400,50"]);
  ("7MI9", ["75,75"]);
  ("7MN1", ["40,50"]);
  ("7MN2", ["3000,400"; "5000,600"]);
  ("7MN3", ["3000,100"]);
  ("7MN4", ["2500,50"; "1250,50"]);
  ("7MN5", ["15000,4000"]);
  ("7MN6", ["2500,80"]);
  ("7MN7", ["60,60"]);
  ("7MN8", ["3500,100,,183.6"]);
  ("7MN9", ["52,52"]);
  ("7MO", ["2475,100"]);
  ("7MO0", ["35,35"]);
  ("7MO1", ["2000,100"]);
  ("7MO2", ["1800,150"]);
  ("7MO3", ["2250,45"]);
  ("7MO4", ["2500,50"]);
  ("7MO5", ["2300,50"]);
  ("7MO6", ["3500,100"]);
  ("7MS1", ["3800,80"]);
  ("7MS3", ["2100,100"]);
  ("7MY9", ["2600,95"]);
  ("7N0", ["80,80"]);
  ("7N3", ["6000,300"; "6000,300"]);
  ("7N4", ["3800,90,820,,820"]);
  ("7N6", ["2600,100,2145,180,2145,0"]);
  ("7N7", ["2419,60,38,63,35,243"]);
  ("7N8", ["2420,85"]);
  ("7NA2", ["1830,50"]);
  ("7NA4", ["2000,60"]);
  ("7NA9", ["3900,100"]);
  ("7NC0", ["2900,75"]);
  ("7NC1", ["4000,125"]);
  ("7NC2", ["3450,55,,170"]);
  ("7NC3", ["3480,100,,,,281.1"]);
  ("7NC4", ["40,40"; "40,40"]);
  ("7NC5", ["2500,80"]);
  ("7NC6", ["2400,100"]);
  ("7NC7", ["1700,40"]);
  ("7NC9", ["1400,75"]);
  ("7ND1", ["1500,50"]);
  ("7ND2", ["2200,50"]);
  ("7ND5", ["3600,60"]);
  ("7ND8", ["3400,50"]);
  ("7NE5", ["3000,40"]);
  ("7NJ0", ["100,100"]);
  ("7NJ1", ["75,75"]);
  ("7NJ2", ["1725,60"]);
  ("7NJ3", ["40,40"]);
  ("7NJ5", ["88,88"]);
  ("7NJ6", ["1000,50"]);
  ("7NJ7", ["2000,70"]);
  ("7NJ8", ["50,50"]);
  ("7NJ9", ["2000,60"]);
  ("7NK0", ["3000,75"]);
  ("7NK1", ["2400,50"]);
  ("7NK2", ["87,87"]);
  ("7NK4", ["1800,45"]);
  ("7NK5", ["50,50"]);
  ("7NK6", ["2200,150"]);
  ("7NK7", ["1060,60"]);
  ("7NK8", ["45,45"]);
  ("7NK9", ["45,45"]);
  ("7NM1", ["2000,60"]);
  ("7NY0", ["1000,35"]);
  ("7NY1", ["1100,50"]);
  ("7NY2", ["2100,100"]);
  ("7NY3", ["64,64"]);
  ("7NY4", ["2400,60"]);
  ("7NY5", ["60,60"]);
  ("7NY6", ["2000,30"]);
  ("7NY7", ["40,40"]);
  ("7NY8", ["1200,40"]);
  ("7OA7", ["2250,50"; "2615,150"; "3500,75"]);
  ("7OH0", ["45,45,,,,234"]);
  ("7OH1", ["1500,50"]);
  ("7OH2", ["1820,100"]);
  ("7OH3", ["2400,100,,,,340"]);
  ("7OH4", ["60,60"]);
  ("7OH5", ["2850,150"]);
  ("7OH6", ["40,20"]);
  ("7OH7", ["1400,50"]);
  ("7OH8", ["2100,40"]);
  ("7OH9", ["40,40"]);
  ("7OI0", ["2400,100"]);
  ("7OI1", ["1320,58"; "1158,75"]);
  ("7OI4", ["10,10"]);
  ("7OI5", ["2650,75,,,,214"]);
  ("7OI7", ["1260,60"]);
  ("7OI9", ["2000,65,,,,345"]);
  ("7OK2", ["2640,300"]);
  ("7OK3", ["30,30"]);
  ("7OK6", ["35,35"]);
  ("7OK7", ["50,50"]);
  ("7OK9", ["100,100"]);
  ("7OR0", ["2000,40"]);
  ("7OR1", ["1500,30"]);
  ("7OR2", ["2000,50"]);
  ("7OR3", ["1500,50"]);
  ("7OR4", ["2700,300"]);
  ("7OR5", ["60,60"; "50,50"]);
  ("7OR6", ["1150,25"]);
  ("7OR7", ["1750,80"]);
  ("7OR8", ["3200,70"]);
  ("7OR9", ["1300,50"]);
  ("7P5", ["2080,55"]);
  ("7PA0", ["2000,100"]);
  ("7PA1", ["1900,100,,,,260"]);
  ("7PA2", ["60,60"]);
  ("7PA3", ["4000,50,,,,10.9"]);
  ("7PA4", ["1700,100"]);
  ("7PA5", ["500,100"]);
  ("7PA6", ["2250,80,,,,261"]);
  ("7PA9", ["65,65"]);
  ("7PN0", ["2000,150"]);
  ("7PN2", ["30,30"]);
  ("7PN3", ["200,200"]);
  ("7PN4", ["75,75"]);
  ("7PN5", ["100,100"]);
  ("7PN6", ["60,60"]);
  ("7PN7", ["40,40"]);
  ("7PN9", ["50,50"]);
  ("7PS0", ["45,45"]);
  ("7PS1", ["40,40"]);
  ("7PS2", ["85,85"]);
  ("7PS3", ["50,50,,,,222"]);
  ("7PS5", ["37,37"]);
  ("7PS6", ["20,20"]);
  ("7PS7", ["1500,75"]);
  ("7PS8", ["65,65"]);
  ("7PS9", ["40,40"]);
  ("7Q7", ["3000,150,2130,,2151,344.3"]);
  ("7R9", ["2060,50"]);
  ("7S3", ["2465,48,,,,319"]);
  ("7S4", ["3445,60,,,,323"]);
  ("7S8", ["2900,80"]);
  ("7T0", ["2400,60"]);
  ("7T3", ["8000,150"; "8000,150"]);
  ("7TA0", ["2200,50"]);
  ("7TA1", ["20,20"]);
  ("7TA2", ["100,100"]);
  ("7TA3", ["3800,50"]);
  ("7TA4", ["80,80"]);
  ("7TA5", ["2800,75"]);
  ("7TA6", ["50,20"; "50,20"; "50,20"; "50,20"; "50,20"]);
  ("7TA7", ["3500,50"]);
  ("7TA8", ["2300,100"]);
  ("7TA9", ["18,18"]);
  ("7TE0", ["2100,150"]);
  ("7TE1", ["5000,75,,170,,355"]);
  ("7TE2", ["4100,35,,125,,296"]);
  ("7TE3", ["2290,110"]);
  ("7TE4", ["3000,60"]);
  ("7TE5", ["2200,60"]);
  ("7TE6", ["3300,60,,170,,343.4"]);
  ("7TE7", ["5000,300,,100,,276.1"; "5150,300,,145,,237.7"; "5000,300,,178,,216.6"]);
  ("7TE8", ["3000,60,2168,168,,323"]);
  ("7TE9", ["3400,45"]);
  ("7TN0", ["1500,50,,,,237.6"]);
  ("7TN1", ["3400,250"]);
  ("7TN2", ["45,41"]);
  ("7TN3", ["2075,100"]);
  ("7TN4", ["3000,80,,,,321.1"]);
  ("7TN5", ["1300,75,,,,275.6"]);
  ("7TN6", ["50,48"]);
  ("7TN7", ["30,30"]);
  ("7TN8", ["80,85"]);
  ("7TN9", ["80,90"]);
  ("7TS0", ["3300,100,,,,322.4"]);
  ("7TS1", ["375,145"]);
  ("7TS2", ["1300,26,,,,247.1"]);
  ("7TS3", ["2350,50"]);
  ("7TS4", ["2400,90"]);
  ("7TS5", ["30,30"]);
  ("7TS6", ["20,20"]);
  ("7TS7", ["2300,90"]);
  ("7TS8", ["3800,30"]);
  ("7TS9", ["2977,100"]);
  ("7TX0", ["3798,45,982,180,982,360"]);
  ("7TX1", ["60,60"]);
  ("7TX2", ["20,20"]);
  ("7TX3", ["20,20"]);
  ("7TX4", ["2000,30,,,,323"]);
  ("7TX5", ["4055,30,,67.8,,270"; "6080,50,,177.8,,8"]);
  ("7TX6", ["200,65"]);
  ("7TX7", ["2650,150"]);
  ("7TX8", ["3600,25,,,,230"]);
  ("7TX9", ["2000,40"]);
  ("7U4", ["3000,75"]);
  ("7U8", ["2690,75,,,,0.5"]);
  ("7VA0", ["80,80"]);
  ("7VA1", ["50,50"]);
  ("7VA2", ["100,100"]);
  ("7VA3", ["100,100"]);
  ("7VA4", ["100,100"]);
  ("7VA5", ["1700,40"]);
  ("7VA8", ["45,45"]);
  ("7VA9", ["2300,75"]);
  ("7VG0", ["2215,70,,,,248.2"; "2000,70"]);
  ("7W1", ["2080,50,,120,,300"]);
  ("7W4", ["2560,25,,,,352.3"]);
  ("7W7", ["1770,120,705,,710,285.5"]);
  ("7WA0", ["1400,50"]);
  ("7WA1", ["140,96"]);
  ("7WA2", ["40,40"; "40,40"]);
  ("7WA3", ["1320,50"]);
  ("7WA4", ["2800,50"]);
  ("7WA5", ["2000,55"]);
  ("7WA6", ["100,100"]);
  ("7WA7", ["2300,40,,,,296"]);
  ("7WA8", ["42,32"]);
  ("7WA9", ["98,64"]);
  ("7WI0", ["2100,50"]);
  ("7WI1", ["3500,150"]);
  ("7WI2", ["2800,60,,,,259.5"]);
  ("7WI3", ["60,55"]);
  ("7WI4", ["2400,100"]);
  ("7WI5", ["2500,90,,,,188.1"]);
  ("7WI6", ["1200,30,,61,,197.7"]);
  ("7WI8", ["1800,60,,,,219.2"]);
  ("7WI9", ["2600,90,,,,210.4"]);
  ("7XS0", ["2700,22,,,,355"]);
  ("7XS1", ["1900,40"]);
  ("7XS3", ["2600,50"]);
  ("7XS4", ["20,20"]);
  ("7XS5", ["2800,50"]);
  ("7XS6", ["2500,75"]);
  ("7XS7", ["3300,40,,155.9,,312"]);
  ("7XS8", ["50,40"]);
  ("7XS9", ["30,30"]);
  ("7Y2", ["2900,75,793,,793,360"; "2475,150,793,,793,338.8"]);
  ("7Y3", ["3588,145,1353,,1346,323.7"]);
  ("7Y7", ["2505,110,950,,955,270"]);
  ("7Y9", ["2602,200,,,,199"; "2850,100,,,785"]);
  ("80AK", ["4000,1500"]);
  ("80C", ["2000,60"]);
  ("80CA", ["1800,40,,,,346"]);
  ("80CL", ["150,150,,,,284"]);
  ("80CO", ["2100,60"]);
  ("80E", ["4000,100"]);
  ("80FD", ["4600,55,,140,,233.2"]);
  ("80FL", ["60,40,,,,304.5"]);
  ("80G", ["3000,100,844,77,844,257"]);
  ("80GA", ["2000,50"]);
  ("80IN", ["2500,50,,,,177"]);
  ("80KS", ["1720,100"]);
  ("80KY", ["1700,100,,,,272"]);
  ("80L", ["50,50,,,,303.5"]);
  ("80LA", ["1600,50"]);
  ("80MA", ["20,20"]);
  ("80MO", ["2800,100"]);
  ("80MU", ["75,75"]);
  ("80NC", ["2400,30,777,90,754,270"]);
  ("80ND", ["2000,75"; "2000,75"]);
  ("80OH", ["2300,75"]);
  ("80OI", ["60,60"]);
  ("80OK", ["2200,30"]);
  ("80OR", ["2500,80"]);
  ("80PA", ["60,60"]);
  ("80PN", ["2719,100,,,,271.4"]);
  ("80S", ["3460,100"]);
  ("80TA", ["50,50"]);
  ("80TE", ["60,60"]);
  ("80TN", ["1700,100"]);
  ("80TS", ["2550,100"]);
  ("80TX", ["1000,100"]);
  ("80V", ["2680,50"; "3170,80"]);
  ("80VA", ["2000,90,,,,360"]);
  ("80WA", ["1600,75,,106,,286"]);
  ("80WI", ["2800,100"]);
  ("80XS", ["3500,75,,,,201.3"]);
  ("81AK", ["1650,85"]);
  ("81AR", ["2400,80"]);
  ("81CL", ["400,60"]);
  ("81CO", ["2000,60"]);
  ("81D", ["2261,90,34,163,30,343"; "2200,80,34,178,30,358"]);
  ("81FD", ["72,50"]);
  ("81FL", ["1800,100"]);
  ("81GA", ["1650,60"]);
  ("81II", ["60,60"]);
  ("81IL", ["2640,70"]);
  ("81IN", ["6400,1400"]);
  ("81KS", ["1720,63"]);
  ("81L", ["100,100,,,,260"]);
  ("81LA", ["600,100,,,,347"]);
  ("81LL", ["1600,70"]);
  ("81LS", ["70,70"]);
  ("81MN", ["2300,80"]);
  ("81MO", ["60,60"]);
  ("81MU", ["100,100"; "70,70"]);
  ("81NC", ["3300,50"]);
  ("81ND", ["2400,50"]);
  ("81NE", ["2182,150"]);
  ("81NM", ["6000,50,,179.6,5056,236.5"]);
  ("81OH", ["2200,50"]);
  ("81OI", ["250,200"]);
  ("81OK", ["2200,35"]);
  ("81OR", ["2000,80"]);
  ("81PA", ["150,150"]);
  ("81PN", ["70,70"]);
  ("81TA", ["12,12"]);
  ("81TE", ["2100,200"; "1300,200"; "2100,200"; "1800,200"]);
  ("81TS", ["2300,50"]);
  ("81TX", ["2500,100,,,,253.9"]);
  ("81VA", ["1600,30"]);
  ("81WA", ["60,60"]);
  ("81WI", ["2450,45"; "2450,50"]);
  ("81XS", ["80,54"]);
  ("82AK", ["1000,100"]);
  ("82CA", ["20,20,,,,276.6"]);
  ("82CD", ["100,100"; "100,100"; "100,100"]);
  ("82CL", ["1850,60"]);
  ("82CO", ["25,25"; "25,25"]);
  ("82D", ["1744,90,740,,740"]);
  ("82FD", ["25,15"]);
  ("82FL", ["1800,100"]);
  ("82GA", ["3500,50,,,,357.2"]);
  ("82IN", ["2165,80"]);
  ("82IS", ["3150,50,880,134.1,880,193"]);
  ("82KY", ["1500,80,,,,230"]);
  ("82LA", ["1200,200"]);
  ("82LL", ["1700,70,,,,278.1"]);
  ("82MO", ["60,60"]);
  ("82MU", ["200,200"]);
  ("82NC", ["1400,60"]);
  ("82NH", ["20,20"]);
  ("82NM", ["3000,40"]);
  ("82OI", ["3000,100"]);
  ("82OK", ["40,40"]);
  ("82OR", ["2265,30"]);
  ("82PA", ["1200,200"]);
  ("82TA", ["50,50"]);
  ("82TE", ["2700,75"]);
  ("82TS", ["2950,30,,,,333.9"; "3270,50"]);
  ("82TX", ["50,50"]);
  ("82VA", ["2200,100"]);
  ("82WA", ["40,40"]);
  ("82WI", ["1650,110"]);
  ("82XS", ["2600,120"]);
  ("83AK", ["1500,80"]);
  ("83B", ["6000,300"]);
  ("83CA", ["65,65"]);
  ("83CO", ["60,60,,,,251.8"]);
  ("83FD", ["2700,100"]);
  ("83FL", ["3150,60,,120,,324"]);
  ("83GA", ["3450,100"]);
  ("83IA", ["40,40,,,,303"]);
  ("83IL", ["2200,90"; "1800,70"]);
  ("83IN", ["3300,75"; "2200,60"]);
  ("83IS", ["2800,89"]);
  ("83J", ["2526,230,,,,360"]);
  ("83KS", ["2600,40"]);
  ("83KY", ["60,60,,,,359"]);
  ("83L", ["65,65"]);
  ("83LL", ["1600,70"]);
  ("83MN", ["5000,500"; "7500,500"]);
  ("83MO", ["45,45"]);
  ("83NC", ["110,100"]);
  ("83NY", ["50,50"]);
  ("83OH", ["2400,60"]);
  ("83OI", ["50,50"]);
  ("83OK", ["1747,28,,,,263.6"]);
  ("83OR", ["2200,35"]);
  ("83PA", ["60,60"]);
  ("83PN", ["56,48"]);
  ("83Q", ["12000,4000"]);
  ("83TA", ["3900,150"]);
  ("83TE", ["4100,150,,,,293.1"]);
  ("83TS", ["2500,60"]);
  ("83TX", ["4500,300,,40,,220"; "4500,300,,131,,311"; "4500,300,,180,,360"; "7000,150,,180,,360"; "7000,150,,180,,286"]);
  ("83V", ["3710,80,,,,190"]);
  ("83WA", ["1400,40"]);
  ("83WI", ["2600,50"]);
  ("83XS", ["25,25"]);
  ("84AL", ["1800,60"]);
  ("84C", ["2540,80,800,,770"]);
  ("84CA", ["50,50"]);
  ("84CL", ["100,50"]);
  ("84CO", ["40,40"]);
  ("84FD", ["25,25"]);
  ("84FL", ["100,100,,,,2"]);
  ("84GA", ["48,48"]);
  ("84ID", ["500,30"]);
  ("84IL", ["2400,70,,,,319.5"]);
  ("84IN", ["50,50"]);
  ("84IS", ["100,100"]);
  ("84K", ["7000,200"]);
  ("84KY", ["2000,75"]);
  ("84L", ["20,20,,,,191.1"]);
  ("84LA", ["800,75"]);
  ("84MI", ["1930,115,945,,945,261.2"; "2100,125,945,,945,280.2"]);
  ("84MN", ["2950,50"]);
  ("84MO", ["86,86"]);
  ("84MT", ["1202,35,,,,348"]);
  ("84NC", ["2155,132"]);
  ("84ND", ["1850,50"; "1550,50"]);
  ("84NK", ["40,40"]);
  ("84NM", ["5000,40"]);
  ("84NY", ["2000,35,,,,272.5"]);
  ("84OH", ["2000,100"]);
  ("84OI", ["20,20"]);
  ("84OK", ["2800,80"]);
  ("84OL", ["2570,30"]);
  ("84OR", ["1500,40"]);
  ("84PA", ["50,50"]);
  ("84PN", ["500,30"]);
  ("84TA", ["25,25"]);
  ("84TE", ["4500,50"]);
  ("84TS", ["50,50"]);
  ("84TX", ["900,80"]);
  ("84U", ["80,30"]);
  ("84VA", ["100,100"]);
  ("84WA", ["1800,50"]);
  ("84WI", ["50,50"]);
  ("84XS", ["1820,60"]);
  ("84Y", ["2700,50,,,,228"]);
  ("85AK", ["3400,200"]);
  ("85B", ["6000,200"]);
  ("85CA", ["60,60,,,,276"]);
  ("85CO", ["30,30,,,,270"])].

(* ADRpy/data/runways.csv *)
Definition airports_8 : list (string * list string) := [
  ("85FA", ["2200,50,,,,10"]);
  ("85FD", ["25,25"]);
  ("85FL", ["2200,100"]);
  ("85GA", ["1000,125"]);
  ("85IL", ["2640,80,,,,354"]);
  ("85IN", ["2300,100"]);
  ("85KS", ["1250,60"]);
  ("85KY", ["3100,60"]);
  ("85LL", ["2300,100"]);
  ("85MA", ["45,45,,,,358"]);
  ("85MI", ["2700,60,,,,305.4"]);
  ("85MN", ["2300,50"]);
  ("85N", ["2875,75"]);
  ("85NC", ["800,70"]);
  ("85NE", ["2400,70,,,,320"]);
  ("85NM", ["43,43"]);
  ("85NY", ["2700,60"]);
  ("85OI", ["20,20,,,,313"]);
  ("85OL", ["1430,50"; "2000,55"; "2065,120"]);
  ("85OR", ["2600,80"]);
  ("85PA", ["1440,75,,,,355.5"]);
  ("85PN", ["1470,100"]);
  ("85TA", ["2400,50"]);
  ("85TE", ["2600,100"]);
  ("85TS", ["50,50"]);
  ("85TX", ["3800,50,,180,,360"]);
  ("85U", ["1650,15"]);
  ("85V", ["4500,80"]);
  ("85VA", ["2200,300"]);
  ("85WA", ["2100,50,,,,354"]);
  ("85WI", ["2640,100,,,,322"]);
  ("85XS", ["30,30"]);
  ("86AK", ["1150,200"]);
  ("86CA", ["30,30"]);
  ("86CL", ["3100,50"]);
  ("86CN", ["54,54,,,,304"]);
  ("86CO", ["2600,80"]);
  ("86FD", ["2600,60,,,,306"]);
  ("86FL", ["40,40"]);
  ("86GA", ["2000,100"]);
  ("86IL", ["2072,100,,,,212"]);
  ("86IN", ["50,50"]);
  ("86IS", ["2200,134"]);
  ("86KY", ["900,50"; "1200,75"]);
  ("86LA", ["1850,100"]);
  ("86MI", ["2460,100,,,,279"]);
  ("86MN", ["100,100,,,,206"]);
  ("86MO", ["100,100"]);
  ("86NC", ["2900,100,,,,356.8"]);
  ("86NE", ["2200,65"]);
  ("86NY", ["33,33"]);
  ("86OH", ["2500,70"]);
  ("86OI", ["30,30"]);
  ("86OK", ["60,60"]);
  ("86OR", ["25,25"]);
  ("86PA", ["20,20"; "20,20"]);
  ("86PN", ["1535,100"]);
  ("86TA", ["3376,60"]);
  ("86TE", ["2000,40"]);
  ("86TS", ["3450,110"]);
  ("86TX", ["1700,80"]);
  ("86VA", ["30,30"]);
  ("86WA", ["2500,24,,,,208.5"]);
  ("86XS", ["2600,175"]);
  ("87AK", ["1100,50"]);
  ("87B", ["5000,500"; "5000,500"]);
  ("87CA", ["2500,35"]);
  ("87CL", ["80,60,,,,344.6"]);
  ("87CN", ["20,20,,,,168.1"]);
  ("87CO", ["2400,15"]);
  ("87FD", ["85,85"]);
  ("87FL", ["29,29,,,,250"]);
  ("87GA", ["400,200,,,,311"]);
  ("87IL", ["1800,100"]);
  ("87IN", ["1320,50"]);
  ("87KS", ["1650,100"]);
  ("87KY", ["23,23"]);
  ("87MN", ["2300,75"]);
  ("87MO", ["3000,85,,182.3,,259"]);
  ("87N", ["44,44"]);
  ("87NC", ["2000,50"]);
  ("87NE", ["2000,24,,,,360"]);
  ("87NJ", ["44,41"]);
  ("87OH", ["2640,50"]);
  ("87OI", ["2100,80"]);
  ("87OK", ["30,30"]);
  ("87OR", ["1700,50"]);
  ("87PA", ["2600,100"]);
  ("87TA", ["2100,40"]);
  ("87TE", ["2100,80"]);
  ("87TS", ["62,62"]);
  ("87TX", ["3200,50"]);
  ("87VA", ["1000,50"]);
  ("87WA", ["60,60"]);
  ("87WI", ["1200,30"]);
  ("87XS", ["3800,75"]);
  ("88AK", ["1300,100"]);
  ("88AZ", ["3800,40"]);
  ("88C", ["2800,200,849,,850,322.3"]);
  ("88CA", ["54,54,,,,360"]);
  ("88CL", ["80,80,,,,1"]);
  ("88CO", ["3800,30"]);
  ("88D", ["2500,70,609,,609"]);
  ("88FD", ["54,54"]);
  ("88FL", ["40,40,,,,315"]);
  ("88G", ["2306,110,673,,673,318"]);
  ("88GA", ["2000,40"]);
  ("88IL", ["1900,70"]);
  ("88IN", ["1300,50"]);
  ("88IS", ["2200,150"]);
  ("88KY", ["60,60"]);
  ("88LA", ["1000,60"; "800,60"; "400,60"]);
  ("88LL", ["1600,70"]);
  ("88MN", ["1600,60"]);
  ("88MO", ["2400,30,,,,346.5"]);
  ("88NC", ["2000,40"]);
  ("88ND", ["2000,50"]);
  ("88NE", ["1400,50"]);
  ("88NV", ["5280,50"]);
  ("88NY", ["1800,65"]);
  ("88OH", ["2600,60"]);
  ("88OI", ["50,90"]);
  ("88OK", ["1600,75"]);
  ("88OL", ["2500,80"]);
  ("88OR", ["2000,50"]);
  ("88PA", ["1300,100"]);
  ("88TA", ["4000,75"]);
  ("88TE", ["2000,60"]);
  ("88TN", ["3000,50"]);
  ("88TS", ["600,600"]);
  ("88TX", ["40,40"]);
  ("88VA", ["2200,50"]);
  ("88VT", ["2350,50"]);
  ("88WA", ["16,16"]);
  ("88WI", ["2200,100"; "2000,150"]);
  ("88XS", ["2200,110"]);
  ("89AK", ["2000,200"]);
  ("89CA", ["2500,50"]);
  ("89CL", ["35,35,15,,,7"]);
  ("89CO", ["3200,60"]);
  ("89D", ["2203,50,598,,598,216"; "2270,35,598,180,598,315"]);
  ("89FD", ["250,250,,,,257.6"]);
  ("89FL", ["5000,1000"]);
  ("89GE", ["2690,40,,,,219"]);
  ("89IL", ["60,60,,,,359.8"]);
  ("89IN", ["3000,95"]);
  ("89IS", ["1200,70"]);
  ("89KS", ["20,20"]);
  ("89KY", ["40,40"]);
  ("89LA", ["24,24"]);
  ("89MO", ["2460,40,,,,297.3"]);
  ("89NC", ["2642,118"]);
  ("89ND", ["1700,70"]);
  ("89NJ", ["2200,100"]);
  ("89NY", ["4280,60,,48,,0.2"]);
  ("89OH", ["40,40"]);
  ("89OI", ["1700,75"]);
  ("89OK", ["1970,75"]);
  ("89OR", ["1250,40"]);
  ("89PA", ["26,26"]);
  ("89TA", ["3200,500"]);
  ("89TE", ["7500,100,,78.1,,330"]);
  ("89TN", ["48,20"; "48,20"; "48,20"; "48,20"; "48,20"]);
  ("89TS", ["5200,75,215,180,215,253"]);
  ("89TX", ["2800,50"]);
  ("89VA", ["1500,40"]);
  ("89WA", ["1400,70"]);
  ("89WI", ["1584,50"]);
  ("89XS", ["290,113"]);
  ("89Y", ["2300,70,,,,303.2"]);
  ("8A4", ["60,60,,,,225.8"]);
  ("8A7", ["2943,50,773,88,818,268"]);
  ("8AK1", ["1200,100"]);
  ("8AK2", ["2600,60"]);
  ("8AK3", ["3000,70"]);
  ("8AK6", ["2600,50"]);
  ("8AK8", ["1500,50"]);
  ("8AK9", ["2035,80"]);
  ("8AL9", ["50,50"]);
  ("8AN6", ["750,28"]);
  ("8AR1", ["1800,100,,135.6,,322"]);
  ("8AZ5", ["2500,60"]);
  ("8B2", ["2660,60,,,,238.6"]);
  ("8C2", ["2130,120,,,,229.8"]);
  ("8C5", ["1850,100,,,,358"]);
  ("8C6", ["2555,100,,,,9"]);
  ("8CA0", ["2600,80"]);
  ("8CA1", ["100,100,,,,337.2"]);
  ("8CA2", ["40,40"]);
  ("8CA3", ["100,100,,,,270.1"]);
  ("8CA4", ["65,65,,,,286.4"]);
  ("8CA5", ["2500,150,,,,315.6"]);
  ("8CA6", ["65,65,,,,322.8"]);
  ("8CA7", ["58,55,,,,269"]);
  ("8CA8", ["3488,50,56,181,53,197"]);
  ("8CA9", ["100,100,,,,244"]);
  ("8CL0", ["2600,100"]);
  ("8CL1", ["1345,30"]);
  ("8CL2", ["3000,40"]);
  ("8CL3", ["100,100,,,,188"]);
  ("8CL4", ["40,40,,,,265.9"]);
  ("8CL5", ["40,40"]);
  ("8CL6", ["1700,75"]);
  ("8CL7", ["690,177,,,,289"]);
  ("8CL8", ["42,39"]);
  ("8CO0", ["2550,50"]);
  ("8CO1", ["20,20,,,,240"]);
  ("8CO2", ["3800,50"]);
  ("8CO3", ["20,20,,,,215"]);
  ("8CO4", ["2600,40"]);
  ("8CO5", ["2200,50,,,,260"]);
  ("8CO6", ["50,50,,,,225"]);
  ("8CO7", ["3400,150"]);
  ("8CO8", ["2700,40"]);
  ("8CO9", ["4400,50"]);
  ("8D4", ["4033,75,775,63,775,243"]);
  ("8D6", ["3700,150,2270,,2246,360"]);
  ("8D8", ["2600,250,1475,,1471"]);
  ("8D9", ["2672,150,1563,,1582,5.7"; "1932,150,1583,,1581"]);
  ("8FA0", ["7000,7000"]);
  ("8FD1", ["2500,100"]);
  ("8FD3", ["4000,100,,,,0.6"]);
  ("8FD4", ["69,69,,,,316"]);
  ("8FD5", ["3400,70"]);
  ("8FD8", ["30,30,,,,343.7"]);
  ("8FL0", ["2390,50,,,,190.5"; "2140,50,,,,270.2"]);
  ("8FL1", ["2800,100"]);
  ("8FL2", ["2200,100"]);
  ("8FL3", ["3000,100"]);
  ("8FL4", ["30,30,,,,270"]);
  ("8FL5", ["30,30,,,,360"]);
  ("8FL6", ["2000,150"]);
  ("8FL7", ["25,25,,,,271"]);
  ("8FL8", ["80,80"]);
  ("8FL9", ["200,100,,,,360"]);
  ("8G3", ["3150,80"]);
  ("8G8", ["1850,100,1327,,1327"]);
  ("8GA0", ["20,20"]);
  ("8GA1", ["2350,65,1070,57,1070,237"]);
  ("8GA2", ["40,40"]);
  ("8GA3", ["3100,75"]);
  ("8GA4", ["40,40,,,,210"]);
  ("8GA6", ["2500,145,,,,244"]);
  ("8GA7", ["3800,60"]);
  ("8GA8", ["2000,60"]);
  ("8GA9", ["2970,150"]);
  ("8GE8", ["40,40"]);
  ("8I1", ["1670,50,484,,480,318.2"]);
  ("8I3", ["2048,110,840,,840,317"]);
  ("8IA0", ["30,30,,,,270"]);
  ("8IA1", ["60,60"]);
  ("8IA2", ["2450,70,,,,355"]);
  ("8IA9", ["1760,60"]);
  ("8ID8", ["2100,75"]);
  ("8II0", ["1800,80"]);
  ("8II1", ["1320,66,,,,270"]);
  ("8II2", ["2500,100,,,,359.8"]);
  ("8II3", ["2600,85"]);
  ("8II4", ["16,12"]);
  ("8II5", ["1700,50"]);
  ("8II6", ["100,100,,,,187"]);
  ("8II7", ["100,100,,,,217.5"]);
  ("8II8", ["100,100,,,,355"]);
  ("8II9", ["50,16"]);
  ("8IL0", ["1950,78"]);
  ("8IL1", ["1980,75"]);
  ("8IL2", ["2000,75"]);
  ("8IL3", ["2550,70"]);
  ("8IL4", ["40,40,,,,283.6"]);
  ("8IL5", ["1800,70"]);
  ("8IL6", ["2080,90"]);
  ("8IL7", ["3500,300"; "4000,400"; "2500,200"]);
  ("8IL8", ["40,40,,,,314.9"]);
  ("8IL9", ["5280,0"]);
  ("8IN1", ["40,40"]);
  ("8IN2", ["2347,61"]);
  ("8IN4", ["50,50,,,,270"]);
  ("8IN5", ["50,50"]);
  ("8IN6", ["50,50"]);
  ("8IN7", ["2200,100,,,,322"]);
  ("8IN8", ["40,40"]);
  ("8IN9", ["2000,60"]);
  ("8IS0", ["30,30"]);
  ("8IS1", ["3200,80"]);
  ("8IS2", ["2000,55"]);
  ("8IS3", ["30,30"]);
  ("8IS4", ["40,40"]);
  ("8IS5", ["2585,100"]);
  ("8IS6", ["45,45,,,,326"]);
  ("8IS8", ["40,40,,,,236.3"]);
  ("8IS9", ["40,40"]);
  ("8K0", ["2560,150"]);
  ("8K4", ["2514,60"]);
  ("8K5", ["2765,160,1112,180,1130,330"]);
  ("8K7", ["2600,130"; "2400,290,,,,338"]);
  ("8K8", ["2800,32,,,,308.5"; "2450,50"]);
  ("8K9", ["10000,2000"]);
  ("8KA", ["1200,12"]);
  ("8KS0", ["2800,70"]);
  ("8KS1", ["2000,40"]);
  ("8KS2", ["1000,40"; "1800,40"]);
  ("8KS3", ["2540,50"]);
  ("8KS4", ["1200,30"]);
  ("8KS5", ["2000,50"]);
  ("8KS6", ["80,80"]);
  ("8KS7", ["1800,80"]);
  ("8KS8", ["1400,60,,,,262.7"; "2400,60"]);
  ("8KS9", ["2500,50,,,,357.6"]);
  ("8KT8", ["1494,88"]);
  ("8KY0", ["700,60"]);
  ("8KY3", ["945,50"]);
  ("8KY6", ["2000,65"]);
  ("8LA0", ["40,25"; "40,25"; "40,25"; "40,25"; "40,25"; "40,25"; "40,25"]);
  ("8LA1", ["10000,400"; "80,80"]);
  ("8LA3", ["40,40,,,,226.9"]);
  ("8LA4", ["60,60"]);
  ("8LA5", ["40,40"]);
  ("8LA7", ["20,20"]);
  ("8LA8", ["24,24,,,,315"]);
  ("8LL0", ["2100,70"]);
  ("8LL1", ["1895,70"]);
  ("8LL2", ["1500,70"]);
  ("8LL4", ["40,40"]);
  ("8LL5", ["40,40,,,,217.3"]);
  ("8LL6", ["35,35"]);
  ("8LL7", ["1900,60"]);
  ("8LL8", ["40,40,,,,319.7"]);
  ("8M2", ["2330,160,245,9,245,189"]);
  ("8M6", ["2230,100,1461,145,1463,325"; "2500,90,1473,,1473"]);
  ("8M7", ["2875,80"]);
  ("8MD0", ["1785,50"]);
  ("8MD1", ["80,80"]);
  ("8MD2", ["20,20"]);
  ("8MD3", ["40,38,,,,357.5"]);
  ("8MD4", ["2300,50"]);
  ("8MD5", ["2000,50"]);
  ("8MD6", ["2200,30"]);
  ("8MD7", ["2000,80,,,,190"]);
  ("8MI0", ["2600,75"]);
  ("8MI1", ["50,50,,,,305"]);
  ("8MI2", ["30,30,,,,354"]);
  ("8MI3", ["2000,100"]);
  ("8MI4", ["2500,100"]);
  ("8MI6", ["40,40"]);
  ("8MI7", ["2000,100"]);
  ("8MI8", ["2640,70"]);
  ("8MI9", ["1500,50"]);
  ("8MN1", ["2200,75"]);
  ("8MN3", ["2300,50,,,,232"]);
  ("8MN4", ["2100,110"]);
  ("8MN5", ["2000,30"]);
  ("8MN7", ["40,40,,,,220"]);
  ("8MN8", ["2800,100"; "1600,75"]);
  ("8MO0", ["100,100"]);
  ("8MO2", ["35,35"]);
  ("8MO3", ["2200,80"; "2400,80,,,,309"]);
  ("8MO5", ["2000,100"]);
  ("8MO6", ["30,30"]);
  ("8MO7", ["2600,100"]);
  ("8MO9", ["135,90"]);
  ("8MS2", ["3900,90"]);
  ("8N0", ["60,60"]);
  ("8N1", ["2720,100,,,,322.4"]);
  ("8N4", ["2405,100,,,,360"]);
  ("8N7", ["1800,100"; "1850,120"]);
  ("8NA0", ["2100,50"]);
  ("8NA5", ["2800,60"]);
  ("8NA7", ["40,40"]);
  ("8NA9", ["2000,40"; "2500,80,,,,246"]);
  ("8NC0", ["40,40"]);
  ("8NC1", ["2400,150"]);
  ("8NC2", ["2500,120"]);
  ("8NC3", ["4000,120"]);
  ("8NC4", ["2000,60"]);
  ("8NC5", ["3600,80"]);
  ("8NC6", ["2200,75"]);
  ("8NC7", ["2200,75"]);
  ("8NC8", ["3200,150,,136.7,,271"]);
  ("8NC9", ["2400,100"]);
  ("8ND0", ["2550,60"]);
  ("8ND4", ["2500,200"]);
  ("8ND5", ["2500,65"]);
  ("8ND6", ["2600,60"]);
  ("8NE2", ["1720,90"]);
  ("8NE3", ["3300,60"]);
  ("8NE4", ["1800,75"]);
  ("8NE5", ["3000,170"]);
  ("8NE6", ["2000,125"]);
  ("8NE9", ["3350,75"]);
  ("8NJ0", ["980,100"]);
  ("8NJ1", ["62,62"]);
  ("8NJ2", ["92,92,,,,1.1"]);
  ("8NJ3", ["100,100,,,,243"]);
  ("8NJ4", ["100,100,,,,0.6"]);
  ("8NJ6", ["80,80,,,,228"]);
  ("8NJ7", ["20,20,,,,203.2"]);
  ("8NJ8", ["200,100,,,,360"]);
  ("8NK2", ["500,100"]);
  ("8NK3", ["2400,100"]);
  ("8NK4", ["2800,75"]);
  ("8NK5", ["60,50"]);
  ("8NK6", ["1200,75"]);
  ("8NY1", ["60,60,,,,333"]);
  ("8NY2", ["110,95,,,,360"]);
  ("8NY3", ["1800,65"]);
  ("8NY5", ["1820,100"]);
  ("8NY7", ["800,40"; "1860,40"]);
  ("8NY9", ["50,50,,,,356"]);
  ("8OA3", ["40,40"]);
  ("8OA5", ["4000,36"; "3000,36"]);
  ("8OA6", ["2600,55,,,,276"]);
  ("8OA7", ["2260,65,680,,680"]);
  ("8OA9", ["1250,30"]);
  ("8OH0", ["45,45"]);
  ("8OH1", ["65,65,,,,228"]);
  ("8OH2", ["250,150,,,,318"]);
  ("8OH3", ["1800,65"]);
  ("8OH4", ["2611,50"]);
  ("8OH5", ["2640,130,1045,,1045"]);
  ("8OH6", ["75,75,,,,210.1"]);
  ("8OH7", ["2300,70,,,,273.8"]);
  ("8OH8", ["2600,75"]);
  ("8OH9", ["120,120"]);
  ("8OI0", ["1500,100"]);
  ("8OI3", ["2700,120"]);
  ("8OI4", ["72,72,,,,233"]);
  ("8OI5", ["1600,80"]);
  ("8OI6", ["30,30"]);
  ("8OI8", ["45,45,,,,196.9"]);
  ("8OI9", ["1950,65"]);
  ("8OK0", ["2200,45"]);
  ("8OK1", ["1700,60"; "600,40"]);
  ("8OK2", ["2400,200,,,,280"]);
  ("8OK3", ["30,25"]);
  ("8OK5", ["60,60"]);
  ("8OK8", ["65,65"]);
  ("8OK9", ["60,40"]);
  ("8OL1", ["2500,80"]);
  ("8OR0", ["50,50"; "100,50"]);
  ("8OR1", ["60,60"]);
  ("8OR2", ["3000,50"]);
  ("8OR3", ["1800,60"]);
  ("8OR5", ["2400,20"]);
  ("8OR6", ["1800,80"]);
  ("8OR7", ["1600,50"]);
  ("8OR8", ["60,60"]);
  ("8OR9", ["60,60,,,,1"]);
  ("8PA0", ["2000,100,,,,360"]);
  ("8PA1", ["1800,125,,,,270"]);
  ("8PA2", ["60,60"]);
  ("8PA3", ["3500,100"]);
  ("8PA4", ["1800,100,,,,269"]);
  ("8PA5", ["34,34"]);
  ("8PA6", ["500,100,,,,280"]);
  ("8PA8", ["1800,80"]);
  ("8PA9", ["30,30"]);
  ("8PN0", ["1800,100"]);
  ("8PN2", ["1600,50"]);
  ("8PN3", ["1900,150"]);
  ("8PN4", ["50,50"]);
  ("8PN5", ["50,50"]);
  ("8PN6", ["80,80,,,,349"]);
  ("8PN7", ["70,70"]);
  ("8PN8", ["100,60,,,,306"]);
  ("8PN9", ["1500,150,,,,351"]);
  ("8PS0", ["1750,100"]);
  ("8PS1", ["65,65,,,,360"]);
  ("8PS2", ["1856,65"]);
  ("8PS3", ["100,100,,,,0.3"]);
  ("8PS5", ["80,80"]);
  ("8PS7", ["64,64"]);
  ("8PS9", ["30,30,,,,259"]);
  ("8S2", ["1800,50,853,,,3"]);
  ("8S3", ["2800,150"]);
  ("8S4", ["2850,50,,,,296"]);
  ("8TA0", ["4050,60,,110,,270.2"]);
  ("8TA1", ["3100,60"]);
  ("8TA2", ["50,48"]);
  ("8TA3", ["4500,75"; "3400,75"]);
  ("8TA4", ["2500,70"]);
  ("8TA5", ["1500,25"]);
  ("8TA6", ["50,50"]);
  ("8TA7", ["2600,75"]);
  ("8TA8", ["2600,30"]);
  ("8TA9", ["2000,150"]);
  ("8TE2", ["2600,40"; "3300,50"]);
  ("8TE4", ["3000,30,,76.2,,8"]);
  ("8TE5", ["25,25"]);
  ("8TE6", ["5800,75,,30,,324.7"]);
  ("8TE7", ["1700,30"]);
  ("8TE8", ["2550,22"]);
  ("8TE9", ["20,20"]);
  ("8TN0", ["40,40"]);
  ("8TN1", ["1400,30"]);
  ("8TN2", ["3000,60"]);
  ("8TN3", ["1300,50"]);
  ("8TN4", ["2200,65"]);
  ("8TN5", ["1900,150"]);
  ("8TN6", ["2000,75"]);
  ("8TN7", ["2560,30"]);
  ("8TN8", ["1500,30"]);
  ("8TN9", ["1716,60"]);
  ("8TS0", ["3000,80"]);
  ("8TS1", ["2200,50"]);
  ("8TS2", ["3180,30"]);
  ("8TS3", ["2500,50"]);
  ("8TS4", ["30,30,,,,270"]);
  ("8TS5", ["1200,40"]);
  ("8TS6", ["1835,40"]);
  ("8TS7", ["3000,200"]);
  ("8TS8", ["4400,100"]);
  ("8TS9", ["5000,150,,130,,300"]);
  ("8TX0", ["2500,70"]);
  ("8TX1", ["50,50"]);
  ("8TX2", ["3000,20"]);
  ("8TX3", ["1350,110,,,,288"; "1550,100,,,,328"]);
  ("8TX4", ["50,50,,,,340"]);
  ("8TX5", ["20,20"]);
  ("8TX6", ["2000,40"]);
  ("8TX8", ["3800,60"]);
  ("8TX9", ["40,40,,,,357.5"]);
  ("8U0", ["3440,100"]);
  ("8U1", ["2400,60"]);
  ("8U3", ["3330,75"]);
  ("8U4", ["3800,78"]);
  ("8U5", ["2700,140"; "1470,100"]);
  ("8U9", ["3200,75,,,,340"]);
  ("8V6", ["4200,50,,21,,201"]);
  ("8VA0", ["90,90"]);
  ("8VA1", ["1800,30"]);
  ("8VA2", ["2300,75,,,,240"]);
  ("8VA3", ["100,100"]);
  ("8VA4", ["2709,100,,,,360"]);
  ("8VA5", ["64,64"]);
  ("8VA6", ["1400,120"]);
  ("8VA7", ["30,30"]);
  ("8VA8", ["55,55"]);
  ("8VA9", ["40,40"]);
  ("8W3", ["2575,46,2272,52,2272,232"]);
  ("8W9", ["2480,35,,,,283.7"; "2750,45,,,,344.7"]);
  ("8WA0", ["2200,60"]);
  ("8WA1", ["75,75"]);
  ("8WA2", ["50,50"]);
  ("8WA3", ["118,118"]);
  ("8WA5", ["3400,50"]);
  ("8WA6", ["2500,22,,,,347"]);
  ("8WA7", ["2000,80"]);
  ("8WA8", ["50,50"]);
  ("8WA9", ["30,30"]);
  ("8WI0", ["1800,60"]);
  ("8WI1", ["2000,100,900,,900"]);
  ("8WI2", ["2400,125"; "2400,125"]);
  ("8WI3", ["2600,100"]);
  ("8WI4", ["35,35,,,,261.1"]);
  ("8WI5", ["1300,75,,,,333"]);
  ("8WI6", ["2250,75"]);
  ("8WI8", ["2200,100"]);
  ("8WI9", ["50,50"]);
  ("8WN4", ["40,40,,,,180.7"]);
  ("8WN8", ["1000,100"]);
  ("8WT0", ["40,40"]);
  ("8XS0", ["2275,16"]);
  ("8XS3", ["2700,75"]);
  ("8XS4", ["50,50"]);
  ("8XS5", ["20,20"]);
  ("8XS6", ["1450,90"]);
  ("8XS7", ["75,75,,,,340"]);
  ("8XS8", ["6500,150,,85,,222"; "6500,150,3330,179,3325"; "10500,150,3333,180,3326,360"]);
  ("8XS9", ["2331,28"]);
  ("8Y4", ["5500,1000"; "6500,1000"]);
  ("8Y5", ["2600,200,1307,,1307"]);
  ("90AK", ["62,55"]);
  ("90CA", ["1800,60"]);
  ("90CL", ["2400,75"]);
  ("90FD", ["2350,100"]);
  ("90FL", ["4700,100"]);
  ("90GA", ["30,30"]);
  ("90IA", ["2400,25"]);
  ("90ID", ["80,80,,,,5"]);
  ("90IL", ["2600,70"]);
  ("90IN", ["2000,90,,,,242"]);
  ("90KS", ["2600,100"]);
  ("90LA", ["1000,35"]);
  ("90ME", ["1600,80,,,,304.1"; "5000,600"]);
  ("90MN", ["1800,60"]);
  ("90MO", ["60,60"]);
  ("90MT", ["25,25,,,,287"]);
  ("90NC", ["50,50"]);
  ("90NJ", ["60,60,,,,209"]);
  ("90NY", ["1425,80"]);
  ("90OH", ["100,50,,,,274"]);
  ("90OI", ["1625,75"]);
  ("90OR", ["40,40"]);
  ("90PA", ["2900,100"]);
  ("90PN", ["2000,100,,,,237"]);
  ("90TA", ["200,200"]);
  ("90TE", ["3657,75"]);
  ("90TS", ["1500,60"]);
  ("90TX", ["4640,150"]);
  ("90VA", ["1400,50"]);
  ("90WA", ["2700,300"]);
  ("90WI", ["3000,150"]);
  ("90XS", ["35,35"]);
  ("91AK", ["5000,200"]);
  ("91C", ["2936,32,831,,820,263.2"]);
  ("91CA", ["20,20,,,,266"]);
  ("91CL", ["3300,50"]);
  ("91CO", ["100,100"]);
  ("91FD", ["160,130,,,,263.8"]);
  ("91FL", ["3000,1000"]);
  ("91GA", ["1800,65"]);
  ("91I", ["86,86"]);
  ("91ID", ["20,20"]);
  ("91IN", ["1050,35"]);
  ("91IS", ["2450,100"]);
  ("91KS", ["2400,80"]);
  ("91KY", ["20,20"]);
  ("91LA", ["2480,75"]);
  ("91LS", ["2000,70"]);
  ("91MN", ["90,90"]);
  ("91MO", ["30,30"]);
  ("91N", ["3200,100,1891,,1910,326.1"]);
  ("91NC", ["50,50"]);
  ("91NJ", ["50,50,,,,238"]);
  ("91NY", ["2100,50"]);
  ("91OH", ["1650,150,,,,0.2"]);
  ("91OI", ["4000,50"]);
  ("91OK", ["2300,100"]);
  ("91OR", ["1900,30"]);
  ("91PN", ["80,80,,,,341.8"]);
  ("91TA", ["2230,60"]);
  ("91TE", ["2100,50"]);
  ("91TS", ["3200,30,,150,,255"]);
  ("91TX", ["4750,50,,150,,9"]);
  ("91VA", ["1850,70"]);
  ("91WA", ["2500,20"]);
  ("91WI", ["2600,200"]);
  ("91XS", ["1000,1000,,,,1"; "40,20"; "40,20"; "40,20"; "40,20"; "40,20"; "40,20"]);
  ("92A", ["2600,200,,,,315"]);
  ("92AK", ["40,40"]);
  ("92B", ["15800,2640"; "25000,4000"]);
  ("92C", ["1610,80"; "2555,30,782,114,774,294"]);
  ("92CA", ["3600,50,192,155,187"]);
  ("92CL", ["2400,50,,,,270"]);
  ("92CO", ["4000,200"]);
  ("92D", ["2670,95,843,,843"; "1410,95,843,,843"]);
  ("92FD", ["25,10"]);
  ("92FL", ["2000,50"]);
  ("92G", ["1820,55"]);
  ("92GA", ["110,110,,,,341"]);
  ("92GE", ["2600,80"]);
  ("92IL", ["1800,100"]);
  ("92IN", ["2000,52"]);
  ("92IS", ["1320,100"]);
  ("92KY", ["2200,75"]);
  ("92LA", ["50,50"]);
  ("92MA", ["450,100,,,,353.3"]);
  ("92MI", ["2180,75"]);
  ("92MN", ["3100,60"]);
  ("92MO", ["100,60"]);
  ("92NC", ["50,50"]);
  ("92NH", ["400,125"]);
  ("92NJ", ["2200,100"]);
  ("92NY", ["850,50"; "3000,50"]);
  ("92OI", ["45,41"]);
  ("92OR", ["220,140,,,,259"]);
  ("92PA", ["1285,100"]);
  ("92R", ["40,40"]);
  ("92TA", ["1500,50"]);
  ("92TE", ["2650,75"]);
  ("92TS", ["48,48"]);
  ("92TX", ["100,100,,,,279"]);
  ("92VA", ["3100,65"]);
  ("92WA", ["25,20"]);
  ("92WI", ["2000,60,,,,183.5"]);
  ("92XS", ["3000,20,,140,,316.1"]);
  ("93AR", ["2600,110"]);
  ("93B", ["2099,60,32,,25"]);
  ("93CA", ["70,70,,,,4.3"]);
  ("93CL", ["75,75,,,,325.1"]);
  ("93CO", ["2600,50"]);
  ("93FD", ["3000,100"]);
  ("93GA", ["50,50,,,,360"]);
  ("93IA", ["2600,60"]);
  ("93IL", ["1800,125,,170,,205"]);
  ("93IN", ["1500,120,,,,270"]);
  ("93IS", ["40,40,,,,325"]);
  ("93KY", ["1880,65"]);
  ("93LA", ["40,40"]);
  ("93LL", ["1600,70"]);
  ("93MD", ["2200,50"]);
  ("93MN", ["2200,85"]);
  ("93MS", ["3150,75,,180,,257"]);
  ("93MT", ["1372,30"]);
  ("93NC", ["50,50"]);
  ("93NH", ["250,75"]);
  ("93OG", ["50,50,,,,214"]);
  ("93OH", ["2284,75"]);
  ("93OI", ["170,225,,,,221.6"]);
  ("93OK", ["2200,150"]);
  ("93OR", ["42,42,,,,203.1"]);
  ("93PA", ["2000,100"]);
  ("93TA", ["80,80,,,,360"]);
  ("93TE", ["4050,75"; "2200,75"; "5200,75"]);
  ("93TS", ["2550,150"; "3500,100"]);
  ("93TX", ["50,50"]);
  ("93VA", ["1400,75"]);
  ("93WA", ["2500,20"]);
  ("93XS", ["2600,50"]);
  ("94C", ["1092,65,940,,940"]);
  ("94CA", ["65,65,,,,268.3"]);
  ("94CL", ["54,54,1223,,,254"; "51,51"]);
  ("94CO", ["20,20"]);
  ("94D", ["5000,600"]);
  ("94FD", ["30,30"]);
  ("94FL", ["3200,50,,90,,259.5"]);
  ("94GA", ["3800,75"]);
  ("94IN", ["310,150,,,,340.2"]);
  ("94IS", ["1700,70"]);
  ("94KS", ["2600,200"]);
  ("94KY", ["1600,65"]);
  ("94LA", ["30,30"]);
  ("94MN", ["3000,50"]);
  ("94MO", ["1700,50"]);
  ("94NC", ["2600,65"]);
  ("94NJ", ["50,50,,,,359.8"]);
  ("94NY", ["1400,60"]);
  ("94OH", ["40,40,,,,312"]);
  ("94OI", ["20,20"]);
  ("94OK", ["60,60"]);
  ("94OR", ["2350,50"]);
  ("94PA", ["200,200,,,,319"]);
  ("94PN", ["60,60,,,,360"]);
  ("94TA", ["3024,90"]);
  ("94TE", ["40,40,,,,304"]);
  ("94TS", ["36,36,,,,248.1"]);
  ("94TX", ["3800,50,,170,,314.9"]);
  ("94VA", ["2200,50"]);
  ("94WA", ["1700,50"]);
  ("94WI", ["400,400"]);
  ("94XS", ["2000,40"]);
  ("94Z", ["1950,110"]);
  ("95CA", ["2000,50"]);
  ("95CL", ["79,79"]);
  ("95CO", ["3500,60"]);
  ("95FD", ["1850,100"]);
  ("95FL", ["250,250,,,,342.1"]);
  ("95GA", ["2480,50"]);
  ("95IL", ["2750,100"]);
  ("95IN", ["2000,150"]);
  ("95IS", ["1760,70,,,,205"]);
  ("95KY", ["1880,70"]);
  ("95LA", ["20,20"]);
  ("95MI", ["4000,80,942,,974"]);
  ("95MN", ["7800,600"; "6720,600"; "5440,500"]);
  ("95MO", ["2000,60,,,,219"]);
  ("95NJ", ["75,75,,,,322"]);
  ("95NY", ["1500,40"]);
  ("95OH", ["3050,85,,,,347"]);
  ("95OI", ["20,20,,,,223.1"]);
  ("95OK", ["2500,50"]);
  ("95OR", ["2500,100"]);
  ("95PA", ["600,200,,,,360"; "1200,400,,,,353.5"]);
  ("95PN", ["60,60,,,,328.3"]);
  ("95TA", ["2700,100"]);
  ("95TE", ["50,50,,,,313"]);
  ("95TS", ["2200,50"]);
  ("95TX", ["4000,75,,180,,360"]);
  ("95VA", ["1200,75"]);
  ("95WA", ["2100,40"]);
  ("95WI", ["1295,100,,,,353.4"]);
  ("95XS", ["450,400"; "50,25"; "25,15"]);
  ("95Z", ["4100,60,,,,254.1"]);
  ("96AK", ["2000,1400"]);
  ("96C", ["2500,36,822,,822"]);
  ("96CA", ["35,35"]);
  ("96CL", ["100,100,,,,360"]);
  ("96CO", ["1200,100"; "2400,100"]);
  ("96FD", ["2550,50"]);
  ("96FL", ["3300,100,,,,211.3"]);
  ("96G", ["2465,50,770,,768"]);
  ("96GA", ["3000,200"]);
  ("96ID", ["2550,125"]);
  ("96IL", ["2400,70,,,,333"]);
  ("96IN", ["50,50"]);
  ("96IS", ["2640,70"]);
  ("96KY", ["1400,100"]);
  ("96LA", ["50,50"]);
  ("96LL", ["2640,80"]);
  ("96M", ["5280,2640"]);
  ("96MO", ["100,100"]);
  ("96MU", ["2200,60"]);
  ("96NJ", ["40,40,,,,340"]);
  ("96NY", ["30,30"]);
  ("96OH", ["25,25,,,,360"]);
  ("96OI", ["60,40"]);
  ("96OK", ["4000,35"]);
  ("96OR", ["4800,90,,136,,7"]);
  ("96PN", ["60,60,,,,195.3"]);
  ("96TA", ["20,20"]);
  ("96TS", ["2175,60"]);
  ("96TX", ["3000,90"]);
  ("96VE", ["1600,40,,,,194"]);
  ("96WA", ["1100,20"]);
  ("96WI", ["1300,60"; "10000,4000"]);
  ("96WY", ["1500,50"; "800,50"]);
  ("96XS", ["35,35"]);
  ("96Z", ["10000,1000"]);
  ("97AK", ["1800,150"]);
  ("97CA", ["3200,50"]);
  ("97CL", ["1900,180"]);
  ("97CO", ["2500,30"]);
  ("97F", ["2600,34"]);
  ("97FD", ["31,31"]);
  ("97FL", ["3700,125"]);
  ("97G", ["1528,100"]);
  ("97GA", ["2300,150"]);
  ("97IA", ["2000,75,,,,200.8"]);
  ("97IL", ["50,50,,,,234"]);
  ("97IN", ["40,40"]);
  ("97IS", ["50,50"]);
  ("97KS", ["2000,60"]);
  ("97KY", ["80,80,,,,312.8"]);
  ("97LA", ["2400,10,,,,177.3"]);
  ("97MN", ["90,105,,,,346"]);
  ("97MO", ["2650,100,,,,270"]);
  ("97MT", ["3400,50,,36,,303"]);
  ("97NC", ["50,50,,,,2"]);
  ("97ND", ["2640,100,,,,343.2"]);
  ("97NY", ["2550,75"]);
  ("97OG", ["3000,20"]);
  ("97OH", ["24,24"]);
  ("97OI", ["37,37,,,,269"]);
  ("97OK", ["30,30"; "30,30"]);
  ("97OR", ["2500,50"]);
  ("97PA", ["2000,100,,,,288.8"]);
  ("97PN", ["1600,100"]);
  ("97TA", ["300,300,,,,277.1"]);
  ("97TE", ["20,20"; "20,20,,,,306"; "20,20"]);
  ("97TN", ["1600,50,,,,222"]);
  ("97TS", ["2500,150,,,,8"]);
  ("97TX", ["3600,710"]);
  ("97VA", ["1600,50"]);
  ("97WA", ["2200,50"; "50,50"]);
  ("97WI", ["1740,150,,,,194.3"]);
  ("97WY", ["20,20,,,,314"]);
  ("97XS", ["1100,100"; "3150,100"]);
  ("97Y", ["2500,75"]);
  ("98AK", ["2000,120"]);
  ("98CA", ["65,65,,,,307"]);
  ("98CL", ["1900,85"]);
  ("98CO", ["40,40"]);
  ("98FD", ["1800,100"]);
  ("98FL", ["2000,500"]);
  ("98G", ["2150,130,584,,584,330"; "2178,50,584,,584,326.1"]);
  ("98GA", ["2700,30"]);
  ("98IA", ["40,40,,,,321"]);
  ("98ID", ["30,30,,,,7"]);
  ("98IL", ["40,40"]);
  ("98IN", ["1600,100"]);
  ("98KS", ["2440,100,,350,,170"]);
  ("98KY", ["40,40"]);
  ("98L", ["125,100,,,,12.9"]);
  ("98LA", ["20,20,,,,247.7"]);
  ("98LL", ["2250,90"]);
  ("98ME", ["2200,50"]);
  ("98MI", ["30,30,,,,278"]);
  ("98MN", ["1400,100"]);
  ("98MO", ["2828,50,,,,245"]);
  ("98MT", ["2500,40"]);
  ("98NC", ["40,40"]);
  ("98ND", ["2000,75"]);
  ("98NH", ["50,40"]);
  ("98NJ", ["36,36,,,,360"]);
  ("98NM", ["5200,50"]);
  ("98NY", ["1400,75"; "1750,75"]);
  ("98OH", ["2400,130"]);
  ("98OI", ["100,100"]);
  ("98OK", ["2008,51"]);
  ("98OL", ["2020,50"]);
  ("98OR", ["1300,50"]);
  ("98PA", ["1200,100,,,,226"]);
  ("98PN", ["60,60,,,,328.4"]);
  ("98TA", ["40,40"]);
  ("98TE", ["1040,50"]);
  ("98TN", ["3000,50,,,,279"]);
  ("98TS", ["1800,600"; "1900,800"; "1000,1000"]);
  ("98TX", ["30,30,,,,225"]);
  ("98VA", ["2500,50"]);
  ("98WA", ["60,60"]);
  ("98WI", ["70,70,,,,309"]);
  ("98WY", ["20,20,,,,3"]);
  ("98XS", ["25,25"]);
  ("99A", ["3800,75"]);
  ("99AK", ["1200,100"]);
  ("99AZ", ["3820,100"]);
  ("99C", ["15000,4000"]);
  ("99CA", ["50,50"]);
  ("99CL", ["3700,150,2858,60.1,2846,197.4"; "3200,150,2858,90,2853,226"; "3700,150,2846,178.7,2865,271"]);
  ("99CN", ["86,50"]);
  ("99CO", ["1500,50"]);
  ("99F", ["2600,100"]);
  ("99FD", ["30,30,,,,350"]);
  ("99FL", ["2640,100,,,,334"]);
  ("99GA", ["220,180,,,,194.2"]);
  ("99HI", ["16,16,,,,329.2"]);
  ("99IA", ["1700,60"]);
  ("99ID", ["42,42,,,,332.7"]);
  ("99IL", ["1600,80"]);
  ("99IN", ["1400,75"]);
  ("99KS", ["2750,60"]);
  ("99KY", ["1200,50"]);
  ("99LA", ["2000,50"]);
  ("99MI", ["2600,100"; "2600,100"]);
  ("99MN", ["91,51"]);
  ("99MO", ["40,40"]);
  ("99MT", ["1600,50,,,,315"]);
  ("99NA", ["50,50"]);
  ("99NC", ["50,50"]);
  ("99NJ", ["75,75,,,,226"]);
  ("99NY", ["1700,100"]);
  ("99OH", ["40,40"]);
  ("99OI", ["60,60,,,,0.4"]);
  ("99OK", ["40,40,,,,340"]);
  ("99OR", ["1885,80"]);
  ("99PA", ["1602,100"]);
  ("99SC", ["2640,110"]);
  ("99TA", ["20,20"]);
  ("99TE", ["2300,75"]);
  ("99TN", ["50,50,,,,328"]);
  ("99TS", ["20,20"]);
  ("99TX", ["3450,50"]);
  ("99UT", ["2400,50"]);
  ("99VA", ["2400,40"]);
  ("99WA", ["50,50"]);
  ("99WY", ["2700,100"]);
  ("99XS", ["3000,50,,,,342.2"]);
  ("99Y", ["2800,100"]);
  ("99Z", ["5500,500"]);
  ("9A2", ["2600,50"]);
  ("9A3", ["3401,60,244,106,205,286"]);
  ("9A8", ["3100,60"]);
  ("9A9", ["3340,180,,,,275.4"]);
  ("9AA1", ["1250,100"]);
  ("9AA9", ["1100,100"]);
  ("9AK", ["780,30"]);
  ("9AK0", ["1040,55"]);
  ("9AK1", ["3000,200"; "2200,75"]);
  ("9AK2", ["2600,75"]);
  ("9AK3", ["4100,75"]);
  ("9AK4", ["2800,60,,,,328.1"]);
  ("9AK5", ["1800,70"]);
  ("9AK6", ["1600,75"]);
  ("9AK7", ["1200,100"]);
  ("9AK8", ["2000,80"]);
  ("9AL6", ["20,20"]);
  ("9AL9", ["24,24,,,,269.9"]);
  ("9AR9", ["3000,100,,,,290"]);
  ("9B1", ["1659,45,278,,273"]);
  ("9B8", ["2000,60"]);
  ("9C0", ["9000,2000"]);
  ("9CA0", ["2940,40"]);
  ("9CA1", ["20,20,,,,348"]);
  ("9CA2", ["50,50"]);
  ("9CA3", ["40,40"]);
  ("9CA4", ["40,40,,,,360"]);
  ("9CA5", ["185,87"]);
  ("9CA6", ["5300,100"]);
  ("9CA7", ["3018,28,,78.2,,201"]);
  ("9CA8", ["50,50"; "50,50,,,,268"]);
  ("9CA9", ["75,75"]);
  ("9CL0", ["2075,60,,,,269.3"]);
  ("9CL1", ["2200,70"]);
  ("9CL2", ["3000,50,,84.2,,359.3"]);
  ("9CL3", ["1960,50"]);
  ("9CL4", ["3000,120"; "3000,120"]);
  ("9CL5", ["2150,45"]);
  ("9CL6", ["48,48,,,,263"; "48,48,376"; "40,40,376"]);
  ("9CL7", ["2300,100"]);
  ("9CL8", ["28,28,,,,240.3"]);
  ("9CL9", ["2500,100"]);
  ("9CO0", ["50,50"]);
  ("9CO1", ["60,60"]);
  ("9CO2", ["2500,80"]);
  ("9CO3", ["2600,75"]);
  ("9CO4", ["100,100,,,,202"]);
  ("9CO5", ["5280,50,,,,268"]);
  ("9CO6", ["3000,75"]);
  ("9CO7", ["2600,33"]);
  ("9CO8", ["1400,40,,,,330.6"]);
  ("9CO9", ["2000,50"]);
  ("9F1", ["3028,40"; "2788,40"]);
  ("9F5", ["48,48,,,,220.6"]);
  ("9FA8", ["75,75,,,,310.9"]);
  ("9FD0", ["5000,100"; "5000,100"]);
  ("9FD1", ["40,40"]);
  ("9FD2", ["2300,150"]);
  ("9FD3", ["70,70"]);
  ("9FD5", ["2500,100,,,,196.8"]);
  ("9FD6", ["30,30"])].

(* ADRpy/data/runways.csv *)
Definition airports_9 : list (string * list string) := [
  ("9FD7", ["3000,60"]);
  ("9FD8", ["50,50"]);
  ("9FD9", ["2560,100,,,,178.2"]);
  ("9FL0", ["3000,75"]);
  ("9FL1", ["3415,100,,,,269"]);
  ("9FL2", ["3150,250"]);
  ("9FL3", ["4600,500"]);
  ("9FL4", ["60,60"]);
  ("9FL5", ["3000,100"]);
  ("9FL6", ["90,24,,,,293.3"]);
  ("9FL7", ["2060,150"]);
  ("9FL8", ["3000,100"]);
  ("9FL9", ["30,30,,,,308"]);
  ("9G0", ["2668,59,662,48,669,228"]);
  ("9G1", ["3550,100,1063,,1055,211.5"]);
  ("9G5", ["2530,35,,,,256.4"]);
  ("9G6", ["2659,36,653,91,669,271"]);
  ("9G9", ["2000,60,1904,,1892"; "2000,40,1887,,1900"]);
  ("9GA0", ["2300,90,,,,358"]);
  ("9GA1", ["2600,100"]);
  ("9GA2", ["2378,60"]);
  ("9GA3", ["2600,110"]);
  ("9GA4", ["60,12"]);
  ("9GA5", ["1600,60"]);
  ("9GA6", ["2000,100,,,,0.3"]);
  ("9GA7", ["40,40"]);
  ("9GA8", ["1500,90"]);
  ("9GA9", ["2900,50"]);
  ("9GE6", ["15,15,,,,15"]);
  ("9GE7", ["2100,120"]);
  ("9GE8", ["30,30,,,,275"]);
  ("9GE9", ["20,20,,,,228"]);
  ("9I0", ["2235,100,,,499,225.9"]);
  ("9I3", ["2400,60"]);
  ("9II0", ["1750,75"]);
  ("9II2", ["1630,70"]);
  ("9II3", ["3000,60,,,,316"]);
  ("9II4", ["2400,70,,,,250.6"]);
  ("9II5", ["48,98"]);
  ("9II6", ["50,50,,,,227"]);
  ("9II7", ["30,30"]);
  ("9II8", ["1800,100"]);
  ("9IL0", ["1900,70"]);
  ("9IL1", ["25,25,,,,284"]);
  ("9IL2", ["2664,134"]);
  ("9IL3", ["2000,100,,,,250"]);
  ("9IL4", ["1385,100"]);
  ("9IL5", ["140,140"]);
  ("9IL6", ["2300,105"]);
  ("9IL7", ["2250,75"]);
  ("9IL8", ["40,40,,,,317"]);
  ("9IN1", ["50,50,,,,290.9"]);
  ("9IN2", ["2000,150"]);
  ("9IN3", ["2000,60"]);
  ("9IN4", ["2000,100"]);
  ("9IN5", ["40,40,,,,20.7"]);
  ("9IN6", ["1200,100"]);
  ("9IN7", ["2000,60"]);
  ("9IN8", ["2300,75,,,,224"; "2100,75"]);
  ("9IN9", ["2400,60,,,,224"]);
  ("9IS0", ["3408,70,,90.7,,208.4"]);
  ("9IS2", ["3177,100,750,180,755,360"]);
  ("9IS3", ["48,48"]);
  ("9IS4", ["40,40,,,,179.8"]);
  ("9IS5", ["680,75"]);
  ("9IS6", ["192,80,,,,218"]);
  ("9IS7", ["60,60,,,,270"]);
  ("9IS8", ["60,20,,,,16"]);
  ("9IS9", ["2100,70"]);
  ("9K0", ["2300,155,,,,317.5"]);
  ("9K5", ["2455,132,,,,224"]);
  ("9K6", ["1800,60"]);
  ("9KS0", ["200,100,,,,1.2"]);
  ("9KS1", ["2600,60"]);
  ("9KS2", ["55,55"]);
  ("9KS3", ["100,100"]);
  ("9KS4", ["2600,50"]);
  ("9KS5", ["2200,70"]);
  ("9KS6", ["2600,100,,,,225"]);
  ("9KS7", ["2500,100"]);
  ("9KY9", ["3070,75,,124,,360"]);
  ("9LA1", ["2600,70"]);
  ("9LA4", ["40,40"; "40,40"; "40,40"]);
  ("9LA5", ["36,24"]);
  ("9LA6", ["2500,100"]);
  ("9LA8", ["200,200,,,,281"]);
  ("9LA9", ["2400,150"]);
  ("9LL0", ["1500,70"]);
  ("9LL2", ["1780,100,,,,359.5"]);
  ("9LL3", ["2276,70"]);
  ("9LL5", ["2200,100"]);
  ("9LL7", ["300,150,,,,303"]);
  ("9LL8", ["100,100,,,,181.2"]);
  ("9LL9", ["1791,90"]);
  ("9LS1", ["2500,180"]);
  ("9LS5", ["2500,60"]);
  ("9LS9", ["2360,100"]);
  ("9M0", ["5000,300"; "5000,300"; "5000,300"]);
  ("9MA8", ["40,40,,,,310.6"]);
  ("9MD9", ["1650,100"]);
  ("9MI0", ["80,60"]);
  ("9MI1", ["22,22"]);
  ("9MI2", ["2550,80,,,,336"]);
  ("9MI3", ["30,30,,,,270"]);
  ("9MI5", ["1320,100"]);
  ("9MI6", ["2500,250,,,,270"; "1800,100,,,,270"]);
  ("9MI7", ["20,20"]);
  ("9MI8", ["30,30"]);
  ("9MI9", ["150,80"]);
  ("9MN0", ["3600,200"]);
  ("9MN1", ["2100,75"]);
  ("9MN2", ["6000,500"; "12000,500"]);
  ("9MN3", ["2780,50"]);
  ("9MN4", ["45,45,,,,333.2"]);
  ("9MN5", ["2000,60"]);
  ("9MN6", ["2500,75"]);
  ("9MN7", ["45,45,,,,352"]);
  ("9MN8", ["4400,100"]);
  ("9MN9", ["2600,50"]);
  ("9MO0", ["50,30"]);
  ("9MO1", ["74,72"]);
  ("9MO2", ["30,30"]);
  ("9MO3", ["1800,50"]);
  ("9MO4", ["1960,25"]);
  ("9MO5", ["2300,60"]);
  ("9MO6", ["1800,40"]);
  ("9MO7", ["40,40"]);
  ("9MO8", ["50,50"]);
  ("9MO9", ["2800,40"]);
  ("9MS9", ["2000,75"]);
  ("9MT8", ["2900,75"]);
  ("9MT9", ["2500,50"]);
  ("9N1", ["1340,200"; "3058,120,,,,270"]);
  ("9N2", ["9100,250"]);
  ("9N3", ["2500,50,1184,24,1203,204"]);
  ("9N7", ["3410,150,,,,225"]);
  ("9NA2", ["30,30"]);
  ("9NA4", ["2600,75"]);
  ("9NC0", ["3000,36,270,8,313,213"]);
  ("9NC1", ["40,40"]);
  ("9NC2", ["2850,65"]);
  ("9NC3", ["2650,100"]);
  ("9NC4", ["2000,40"]);
  ("9NC5", ["40,40"]);
  ("9NC6", ["3200,75"]);
  ("9NC7", ["2300,80"]);
  ("9NC8", ["3800,80"]);
  ("9NC9", ["1500,50"]);
  ("9ND1", ["2640,50"]);
  ("9ND8", ["2100,40"]);
  ("9NE1", ["2600,50,,,,274.2"]);
  ("9NE2", ["2340,80"]);
  ("9NE3", ["2900,30"]);
  ("9NE4", ["2600,60,,,,224.6"]);
  ("9NE6", ["1800,50,1216,0,1238,180"]);
  ("9NE8", ["2000,100"]);
  ("9NJ1", ["20,20"]);
  ("9NJ2", ["20,20"]);
  ("9NJ3", ["44,44"]);
  ("9NJ4", ["50,50,,,,308.3"]);
  ("9NJ5", ["1350,150"]);
  ("9NJ6", ["2400,100,,,,210"]);
  ("9NJ8", ["1850,100"]);
  ("9NR7", ["2200,70"]);
  ("9NR8", ["2780,50"]);
  ("9NR9", ["104,60,,,,5"]);
  ("9NY1", ["40,40"]);
  ("9NY2", ["60,60,,,,208"]);
  ("9NY3", ["100,100"; "70,70"]);
  ("9NY4", ["2500,90,,,,270.1"]);
  ("9NY5", ["150,100"]);
  ("9NY6", ["1700,65"]);
  ("9NY7", ["1800,100"]);
  ("9NY8", ["100,100,,,,235.9"]);
  ("9NY9", ["50,50,,,,332.1"]);
  ("9OA2", ["75,75,,,,341.3"]);
  ("9OA3", ["2000,50"]);
  ("9OA4", ["2200,67"]);
  ("9OA5", ["2764,25,905,3,914,183"]);
  ("9OA6", ["75,75,,,,225"]);
  ("9OA8", ["1700,50"]);
  ("9OA9", ["2000,45,,,,229.1"]);
  ("9OH1", ["2500,80"]);
  ("9OH2", ["2400,40"]);
  ("9OH3", ["25,25"]);
  ("9OH4", ["1700,60"; "970,50"]);
  ("9OH5", ["60,60,,,,324"]);
  ("9OH6", ["2500,70"]);
  ("9OH7", ["2200,75,,,,0.1"]);
  ("9OH8", ["2300,79"]);
  ("9OH9", ["3000,100"]);
  ("9OI1", ["100,75,,,,251.1"]);
  ("9OI3", ["2900,75"]);
  ("9OI4", ["25,25"]);
  ("9OI5", ["3500,72,,154.1,,260"]);
  ("9OI6", ["2000,75"]);
  ("9OI7", ["3150,65"]);
  ("9OI8", ["1500,60"]);
  ("9OI9", ["90,60,,,,360"]);
  ("9OK0", ["100,100"]);
  ("9OK1", ["80,80"; "80,80,,,,179"; "80,80,,,,224"; "80,80,,,,315"]);
  ("9OK2", ["20,20"]);
  ("9OK3", ["2200,50,,,,270"]);
  ("9OK5", ["2500,100,,,,225"]);
  ("9OK6", ["30,30"]);
  ("9OK7", ["1500,50"]);
  ("9OR0", ["1800,40"]);
  ("9OR1", ["3100,80"]);
  ("9OR2", ["50,50"]);
  ("9OR3", ["30,30"]);
  ("9OR4", ["1500,36"]);
  ("9OR5", ["100,100,,,,11"]);
  ("9OR6", ["50,50,,,,217"]);
  ("9OR7", ["40,40,,,,11"]);
  ("9OR8", ["1820,60"]);
  ("9PA0", ["2000,100"]);
  ("9PA2", ["1800,75"]);
  ("9PA4", ["60,60"]);
  ("9PA5", ["600,200"]);
  ("9PA6", ["100,100,,,,223.9"]);
  ("9PA7", ["1825,35"]);
  ("9PA8", ["40,40,,,,206"]);
  ("9PA9", ["20,20,,,,315"]);
  ("9PN1", ["1500,100"]);
  ("9PN2", ["52,50"]);
  ("9PN5", ["140,90,,,,316"]);
  ("9PN6", ["400,300,,,,330"]);
  ("9PN7", ["2400,100"]);
  ("9PN8", ["2000,100"]);
  ("9PN9", ["30,30"]);
  ("9PS0", ["60,60,,,,315.5"]);
  ("9PS1", ["88,88"]);
  ("9PS2", ["2100,100"]);
  ("9PS3", ["65,65,,,,237.5"]);
  ("9PS4", ["150,150,,,,309.3"]);
  ("9PS5", ["42,42,,,,252"]);
  ("9PS6", ["20,20,,,,219.9"]);
  ("9PS7", ["85,85,,,,358.4"]);
  ("9PS8", ["2000,100"]);
  ("9PS9", ["40,40"]);
  ("9R5", ["2650,20"; "1400,60"]);
  ("9R7", ["500,200"]);
  ("9S3", ["2150,100"]);
  ("9S7", ["2405,150"]);
  ("9SD7", ["1500,40"; "3000,40"]);
  ("9SD8", ["2600,100"]);
  ("9SD9", ["3500,70,,170,,267.8"]);
  ("9TA0", ["100,100"]);
  ("9TA1", ["2500,90"]);
  ("9TA2", ["5000,40,,180,,360"]);
  ("9TA3", ["3000,300"]);
  ("9TA4", ["60,60"]);
  ("9TA5", ["85,85"]);
  ("9TA6", ["45,45,,,,323.3"]);
  ("9TA7", ["35,35,,,,359.6"; "35,35,,,,223.9"]);
  ("9TA8", ["2000,60"]);
  ("9TA9", ["41,16"]);
  ("9TE0", ["2600,80"]);
  ("9TE1", ["40,40,,,,230"; "31,14"; "35,13"; "19,19"; "34,13"]);
  ("9TE2", ["5300,80,2344,,2327"]);
  ("9TE3", ["2600,40"]);
  ("9TE4", ["10000,1000"; "2300,105"; "1800,105"; "1900,4000"]);
  ("9TE5", ["2200,100"; "1650,60"]);
  ("9TE6", ["2984,50"]);
  ("9TE7", ["2800,100"]);
  ("9TE8", ["35,35"; "35,35"]);
  ("9TE9", ["200,150"; "200,150"]);
  ("9TN0", ["50,50,,,,277"]);
  ("9TN1", ["2000,60"]);
  ("9TN2", ["1900,50,,10,,1"]);
  ("9TN4", ["2250,80"]);
  ("9TN5", ["1650,150"]);
  ("9TN6", ["30,30,,,,237.9"]);
  ("9TN7", ["1200,60"]);
  ("9TN8", ["40,40,,,,329.5"]);
  ("9TN9", ["1500,50,,,,359.9"]);
  ("9TS0", ["100,100,,,,180.9"]);
  ("9TS1", ["60,60"; "60,60"]);
  ("9TS2", ["20,20"]);
  ("9TS3", ["3000,25,,170,,187.5"]);
  ("9TS4", ["329,284,,,,274"]);
  ("9TS5", ["100,100"]);
  ("9TS6", ["1800,80,,,,356.9"]);
  ("9TS7", ["35,35"]);
  ("9TS8", ["70,37"]);
  ("9TS9", ["60,60,,,,0.2"]);
  ("9TX0", ["40,40"]);
  ("9TX1", ["2900,80,,,,202"]);
  ("9TX2", ["2000,50"]);
  ("9TX3", ["2560,100"]);
  ("9TX4", ["2100,100"]);
  ("9TX5", ["3600,60,1168,104.3,1144,316.6"]);
  ("9TX6", ["5000,50"]);
  ("9TX7", ["1200,150"]);
  ("9TX8", ["50,50"]);
  ("9TX9", ["3500,90"]);
  ("9U1", ["3100,78"]);
  ("9V2", ["2260,300"; "2360,280,,,,344.3"]);
  ("9V3", ["2800,50"]);
  ("9VA0", ["3700,150"]);
  ("9VA1", ["2200,150"]);
  ("9VA2", ["35,35"]);
  ("9VA3", ["1800,75"]);
  ("9VA4", ["1550,90"]);
  ("9VA5", ["600,165"]);
  ("9VA7", ["50,50"]);
  ("9VA8", ["35,35"]);
  ("9VA9", ["30,30"]);
  ("9VG", ["3000,100"; "1455,140"]);
  ("9VG9", ["1500,70"]);
  ("9W3", ["1500,50"]);
  ("9W8", ["2493,100,,,,340.4"]);
  ("9W9", ["2598,125,192,,192"]);
  ("9WA0", ["60,60"]);
  ("9WA1", ["40,40"]);
  ("9WA2", ["36,36"]);
  ("9WA3", ["3750,60"; "5000,100"]);
  ("9WA4", ["2100,30,,,,329.3"]);
  ("9WA5", ["40,40"]);
  ("9WA6", ["52,36,670,,,285"]);
  ("9WA7", ["2000,100"]);
  ("9WA8", ["150,150"]);
  ("9WA9", ["100,100,,,,200"]);
  ("9WI0", ["50,50,,,,200"]);
  ("9WI1", ["1500,60,,,,257"]);
  ("9WI2", ["1500,150"]);
  ("9WI3", ["1336,50"]);
  ("9WI4", ["2000,80"]);
  ("9WI5", ["1700,50"]);
  ("9WI6", ["1800,100"]);
  ("9WI8", ["2000,80"]);
  ("9WI9", ["2500,75"]);
  ("9WN1", ["3403,32,750,180,,1.9"]);
  ("9WN2", ["3500,50,,40.5,,272.5"]);
  ("9WN3", ["1900,175"; "1700,295"]);
  ("9WN4", ["2200,70"]);
  ("9WN5", ["1875,105"]);
  ("9WN6", ["6000,4000"]);
  ("9WN9", ["2600,40"]);
  ("9WS2", ["2200,65"]);
  ("9WY0", ["45,45,,,,202"]);
  ("9X9", ["3950,100,165,92,165,272"]);
  ("9XS0", ["2000,60"]);
  ("9XS1", ["3044,100"]);
  ("9XS2", ["1150,30"]);
  ("9XS3", ["2750,125"]);
  ("9XS4", ["1800,100"]);
  ("9XS5", ["3600,60"]);
  ("9XS6", ["2900,20"]);
  ("9XS7", ["1800,65"]);
  ("9XS8", ["40,40,,,,315.4"]);
  ("9XS9", ["1800,75"]);
  ("9Y0", ["2531,150,,,,202"]);
  ("9Y2", ["2618,160,1230,,1230"]);
  ("9Y5", ["6500,1000"; "6500,1000"; "4500,1000"]);
  ("9Y7", ["2010,260"]);
  ("9Z3", ["2100,250,130,,130,269"]);
  ("9Z7", ["600,50"; "800,50"]);
  ("9Z8", ["3281,59,,,,309"]);
  ("9Z9", ["2200,50"]);
  ("A05", ["4500,100"]);
  ("A13", ["1000,15"]);
  ("A23", ["10000,1000"]);
  ("A26", ["2850,40,,,,313"]);
  ("A27", ["2000,1000"]);
  ("A28", ["3660,50,,181,,1"]);
  ("A29", ["4000,200"]);
  ("A43", ["3000,1000"]);
  ("A51", ["4230,65,,,,223.8"]);
  ("A57", ["1860,12"]);
  ("A61", ["3025,75,,,,1.9"]);
  ("A63", ["3000,60,,,,270.9"]);
  ("A67", ["2000,10"]);
  ("A68", ["2150,10"]);
  ("A69", ["1800,10"]);
  ("A70", ["1800,10"]);
  ("A77", ["1560,16"]);
  ("A79", ["2800,60"]);
  ("AA00", ["650,20"]);
  ("AA01", ["3800,500"]);
  ("AA02", ["5500,200"]);
  ("AA03", ["80,80,,,,339"]);
  ("AA04", ["50,50"]);
  ("AA05", ["1104,14,,,,353"]);
  ("AA06", ["1600,35"]);
  ("AA07", ["50,50,,,,322.7"]);
  ("AA09", ["2100,30"]);
  ("AA11", ["1950,200"]);
  ("AA12", ["2500,900"]);
  ("AA22", ["2350,60"]);
  ("AA27", ["65,65,,,,304"]);
  ("AA30", ["1285,60,,,,329"]);
  ("AA33", ["1700,100,,,,354"]);
  ("AA44", ["55,55"]);
  ("AA50", ["5000,150"]);
  ("AA76", ["2450,75,,,,245"]);
  ("AA85", ["2500,200"]);
  ("ADC", ["1552,98"]);
  ("AEK", ["1969,98"]);
  ("AFR", ["2073,98"]);
  ("AGAF", ["1501,131"]);
  ("AGAR", ["2822,66"]);
  ("AGAT", ["2769,49,12,,17"]);
  ("AGEV", ["2297,82"]);
  ("AGGA", ["3100,,28,,29"]);
  ("AGGB", ["2187,59"]);
  ("AGGC", ["2164,82"]);
  ("AGGE", ["5413,,3,,6"]);
  ("AGGF", ["1854,82"]);
  ("AGGH", ["7218,148,28,68,14,248"]);
  ("AGGI", ["1953,72"]);
  ("AGGJ", ["2461,98"]);
  ("AGGK", ["4377,,8,,7"]);
  ("AGGL", ["2999,,8,,11"]);
  ("AGGM", ["4593,98,7,78.9,9,258.9"]);
  ("AGGN", ["3609,,9,,14"]);
  ("AGGO", ["3281,,35,,35"]);
  ("AGGP", ["2156,79"]);
  ("AGGQ", ["2644,62"]);
  ("AGGR", ["2206,66"]);
  ("AGGS", ["3002,,11,,10"]);
  ("AGGT", ["2655,75"]);
  ("AGGU", ["2001,98"]);
  ("AGGV", ["2789,79,20,,20"]);
  ("AGKG", ["2428,148"]);
  ("AGKU", ["1821,66"]);
  ("AGKW", ["1896,66"]);
  ("AGNA", ["2657,66"]);
  ("AGRC", ["2461,75"]);
  ("AHJ", ["11800,150,11571,163,11587,343"]);
  ("AIE", ["3281"]);
  ("AIH", ["2526,98"]);
  ("AK0", ["1000,25"]);
  ("AK00", ["2500,75"]);
  ("AK01", ["1750,50,,,,228"]);
  ("AK02", ["1400,65"]);
  ("AK05", ["800,50"]);
  ("AK06", ["4000,150"]);
  ("AK07", ["1900,40"; "1800,40"]);
  ("AK08", ["1650,30"]);
  ("AK09", ["2380,100,,,,218"]);
  ("AK1", ["1806,50"]);
  ("AK10", ["1875,70"]);
  ("AK11", ["1540,70"]);
  ("AK12", ["1078,50,,,,251.1"]);
  ("AK13", ["3000,60,,,,240.6"]);
  ("AK14", ["2000,120"]);
  ("AK16", ["1600,100"]);
  ("AK17", ["1555,75"]);
  ("AK18", ["1100,60"]);
  ("AK19", ["2500,75"]);
  ("AK20", ["3500,170,,,,9"]);
  ("AK21", ["1000,50"]);
  ("AK22", ["4000,50"; "3400,100"]);
  ("AK24", ["1400,22"]);
  ("AK25", ["1200,50"]);
  ("AK26", ["1150,35"]);
  ("AK27", ["1800,30"]);
  ("AK28", ["4700,60"; "4000,200"]);
  ("AK29", ["1600,50"]);
  ("AK30", ["1600,200"]);
  ("AK31", ["2000,35"]);
  ("AK32", ["50,50,,,,230"]);
  ("AK33", ["970,50"; "1090,35"]);
  ("AK34", ["4000,500"]);
  ("AK35", ["300,300,,,,354"]);
  ("AK36", ["3000,70"]);
  ("AK37", ["30,30,,,,311"]);
  ("AK38", ["130,130,,,,269"]);
  ("AK39", ["2500,50"]);
  ("AK40", ["4200,100"]);
  ("AK41", ["1800,70"]);
  ("AK42", ["52,52,,,,280"]);
  ("AK43", ["4000,500"]);
  ("AK44", ["1600,30"]);
  ("AK45", ["3120,150"]);
  ("AK46", ["1000,40"]);
  ("AK47", ["1100,50"]);
  ("AK48", ["104,104,,,,358"]);
  ("AK49", ["2200,45"]);
  ("AK5", ["3500,500"]);
  ("AK50", ["2000,26"]);
  ("AK51", ["4200,100"]);
  ("AK52", ["1320,50"]);
  ("AK53", ["1800,75,,,,298"]);
  ("AK54", ["900,80"]);
  ("AK55", ["2000,40"]);
  ("AK56", ["2000,2000,304,,304,270.1"]);
  ("AK57", ["5000,600"]);
  ("AK58", ["2800,60"]);
  ("AK59", ["1800,100"]);
  ("AK60", ["4700,125"]);
  ("AK61", ["750,50"]);
  ("AK62", ["10000,1000"; "10000,300"]);
  ("AK63", ["1800,100"]);
  ("AK64", ["1950,12"]);
  ("AK65", ["1300,100"]);
  ("AK66", ["1150,60"]);
  ("AK67", ["1400,100"]);
  ("AK68", ["1200,30"]);
  ("AK69", ["1800,40"]);
  ("AK71", ["5000,100,,,,227"]);
  ("AK72", ["1950,150"]);
  ("AK73", ["1500,60"]);
  ("AK74", ["62,62,,,,310.2"]);
  ("AK75", ["3880,90"]);
  ("AK76", ["1500,10"]);
  ("AK77", ["5500,75"]);
  ("AK79", ["1300,60"]);
  ("AK8", ["3800,2000,,,,232"; "4000,1600"]);
  ("AK80", ["1800,100"]);
  ("AK81", ["8000,700"]);
  ("AK82", ["100,90"]);
  ("AK83", ["2100,175,,,,2"]);
  ("AK84", ["2400,80"]);
  ("AK85", ["800,100"]);
  ("AK86", ["850,70"]);
  ("AK87", ["50,50"]);
  ("AK88", ["1300,125"]);
  ("AK89", ["1000,20"]);
  ("AK90", ["1800,30"]);
  ("AK91", ["50,50,228,,,314"]);
  ("AK92", ["600,50"]);
  ("AK93", ["1600,35"]);
  ("AK94", ["100,100,,,,312"]);
  ("AK95", ["1000,80"]);
  ("AK97", ["2612,100"]);
  ("AK98", ["1220,70"]);
  ("AK99", ["1200,75"]);
  ("AL-LA10", ["3855,228,,142,,322"]);
  ("AL00", ["1800,200"]);
  ("AL01", ["3000,100"]);
  ("AL02", ["2000,100"]);
  ("AL03", ["2002,60,,,,307"]);
  ("AL05", ["5000,75,,40,,188.4"]);
  ("AL06", ["25,25"]);
  ("AL07", ["40,40,,,,276.8"]);
  ("AL08", ["2400,100,,,,8.2"]);
  ("AL09", ["2450,80"]);
  ("AL10", ["2500,60"]);
  ("AL11", ["45,45,,,,314.7"]);
  ("AL12", ["4600,50,,90,,215"]);
  ("AL13", ["50,50"]);
  ("AL14", ["50,50"]);
  ("AL15", ["2600,80"]);
  ("AL16", ["2500,100"]);
  ("AL17", ["3300,100"]);
  ("AL18", ["1550,100"]);
  ("AL19", ["40,40"]);
  ("AL20", ["40,40,,,,360"]);
  ("AL21", ["80,45"]);
  ("AL22", ["50,50"]);
  ("AL24", ["50,50"]);
  ("AL25", ["1600,100"]);
  ("AL26", ["50,50"]);
  ("AL27", ["2000,50"]);
  ("AL28", ["20,20,,,,247.8"]);
  ("AL29", ["2500,100"]);
  ("AL32", ["2600,75,,,,359.4"]);
  ("AL33", ["2100,100"]);
  ("AL34", ["3500,30"]);
  ("AL35", ["1450,50"]);
  ("AL36", ["30,30"]);
  ("AL37", ["1800,50"]);
  ("AL38", ["60,60,,,,332"]);
  ("AL39", ["50,50"]);
  ("AL40", ["1500,15"]);
  ("AL41", ["3300,90,,,,232"]);
  ("AL42", ["50,50"]);
  ("AL43", ["3000,50"]);
  ("AL45", ["19,19"]);
  ("AL46", ["6200,1200"; "6500,1000"; "11000,1100"]);
  ("AL47", ["30,30"]);
  ("AL48", ["60,60"]);
  ("AL49", ["70,70"; "70,70"]);
  ("AL50", ["20,20"]);
  ("AL51", ["2000,100"]);
  ("AL52", ["60,60"]);
  ("AL53", ["40,40"]);
  ("AL54", ["2200,80"]);
  ("AL55", ["2032,100"]);
  ("AL56", ["2000,100"]);
  ("AL58", ["3200,150"]);
  ("AL59", ["60,60"]);
  ("AL60", ["2600,100"]);
  ("AL61", ["1015,150"]);
  ("AL62", ["2600,80,,,,213"]);
  ("AL63", ["30,30"]);
  ("AL65", ["40,40"]);
  ("AL66", ["64,64"]);
  ("AL69", ["2000,60"]);
  ("AL70", ["150,150,,,,327.4"]);
  ("AL71", ["4500,60,,80,,205.6"]);
  ("AL73", ["5300,46,,140,,323.3"]);
  ("AL74", ["1800,100"]);
  ("AL75", ["4330,300"]);
  ("AL76", ["3200,100,,,,327.4"]);
  ("AL77", ["2100,60"]);
  ("AL78", ["2200,140"]);
  ("AL79", ["2500,200"]);
  ("AL81", ["1700,100"]);
  ("AL82", ["50,50,,,,215.4"]);
  ("AL83", ["20,20"]);
  ("AL84", ["2750,140"]);
  ("AL86", ["30,30"]);
  ("AL87", ["44,40"]);
  ("AL88", ["1320,95"]);
  ("AL89", ["2250,100,,,,208"]);
  ("AL90", ["50,50"]);
  ("AL91", ["70,70"]);
  ("AL92", ["3400,75"]);
  ("AL93", ["2450,80,,,,275"]);
  ("AL94", ["2600,70"]);
  ("AL95", ["50,50"; "50,50"]);
  ("AL96", ["3000,300"]);
  ("AL97", ["2000,100"]);
  ("ALZ", ["10000,1000"]);
  ("AM-0002", [""]);
  ("AM-0007", [""]);
  ("AMC", ["8398"]);
  ("AMF", ["2300,98"]);
  ("AMU", ["1900,98"]);
  ("AN01", ["2500,35"]);
  ("ANG", ["7000,150"]);
  ("ANYN", ["7054,148,22,130.3,20,310.3"]);
  ("APR", ["2034,98"]);
  ("AQY", ["2088,73,134,,164,346.2"]);
  ("AR-0005", ["3281,98"; "2736,98"]);
  ("AR-0008", ["3839,164"]);
  ("AR-0009", ["3937,98"; "2953,131"]);
  ("AR-0010", ["3215,98"; "2953,75"]);
  ("AR-0011", ["3773,128"]);
  ("AR-0012", ["1575,66"]);
  ("AR-0013", ["2953,66"]);
  ("AR-0014", ["3609,66"]);
  ("AR-0017", ["3117,98"]);
  ("AR-0018", ["5741,164"; "2461,164"]);
  ("AR-0019", ["2592,66"; "2434,66"]);
  ("AR-0020", ["66,66"]);
  ("AR-0021", ["3182,164"]);
  ("AR-0022", ["2887,98"]);
  ("AR-0023", ["2953,131"; "3609,131"]);
  ("AR-0024", ["2625,131"; "3425,98"]);
  ("AR-0025", ["3281,92"]);
  ("AR-0026", ["2625,98"; "3281,98"; "2625,98"]);
  ("AR-0027", ["3445,98"; "3117,98"]);
  ("AR-0028", ["3281,98"; "2953,98"]);
  ("AR-0029", ["1929,98"]);
  ("AR-0030", ["2362,59"]);
  ("AR-0031", ["3937,262"]);
  ("AR-0032", ["2461,98"]);
  ("AR-0033", ["2297,75"]);
  ("AR-0034", ["2625,98"]);
  ("AR-0035", ["2461,98"]);
  ("AR-0036", ["3488,131"]);
  ("AR-0038", ["3445,98"]);
  ("AR-0040", ["2297,98"]);
  ("AR-0041", ["2625,75"]);
  ("AR-0044", ["3264,98"]);
  ("AR-0045", ["46,46"]);
  ("AR-0046", ["59,59"]);
  ("AR-0047", ["1804,66"]);
  ("AR-0048", ["2461,98"]);
  ("AR-0049", ["3740,98"]);
  ("AR-0050", ["39,66"]);
  ("AR-0051", ["82,82"]);
  ("AR-0052", ["2953,197"]);
  ("AR-0053", ["2297,66"; "2887,85"]);
  ("AR-0054", ["98,59"]);
  ("AR-0056", ["2461,66"]);
  ("AR-0058", ["2461,131"]);
  ("AR-0060", ["3018,98"]);
  ("AR-0061", ["3281,98"]);
  ("AR-0062", ["1968,59"]);
  ("AR-0063", ["4265,98"]);
  ("AR-0066", ["2461,59"]);
  ("AR-0067", ["1381,59"]);
  ("AR-0068", ["2625,49"]);
  ("AR-0069", ["49,66"]);
  ("AR-0070", ["1640,89"]);
  ("AR-0071", ["2133,59"]);
  ("AR-0073", ["56,56"]);
  ("AR-0075", ["69,69"]);
  ("AR-0076", ["2756,92"]);
  ("AR-0077", ["3609,197"]);
  ("AR-0078", ["2756,82"]);
  ("AR-0079", ["2329,98"]);
  ("AR-0080", ["3100,98"]);
  ("AR-0081", ["3314,98"; "2828,75"]);
  ("AR-0082", ["2625,75"; "2625,75"; "2625,75"]);
  ("AR-0083", ["3609,98"]);
  ("AR-0084", ["2625,66"]);
  ("AR-0085", ["2953,59"]);
  ("AR-0086", ["2552,59"]);
  ("AR-0087", ["62,62"]);
  ("AR-0088", ["3166,98"]);
  ("AR-0092", ["49,49"]);
  ("AR-0093", ["59,59"]);
  ("AR-0094", ["2133,49"]);
  ("AR-0096", ["3281,105"; "2625,98"]);
  ("AR-0097", ["2953,75"]);
  ("AR-0098", ["2461,164"]);
  ("AR-0099", ["2133,98"]);
  ("AR-0100", ["3934,75"]);
  ("AR-0101", ["3281,98"; "2953,98"]);
  ("AR-0102", ["2953,98"]);
  ("AR-0104", ["56,89"]);
  ("AR-0105", ["79,79"]);
  ("AR-0107", ["3609,98"]);
  ("AR-0108", ["2493,98"]);
  ("AR-0109", ["46,59"]);
  ("AR-0110", ["3937,98"]);
  ("AR-0111", ["2592,98"]);
  ("AR-0113", ["3445,98"; "3445,98"]);
  ("AR-0114", ["2953,98"; "3281,98"]);
  ("AR-0115", ["4265,98"; "4265,98"]);
  ("AR-0116", ["3294,98"]);
  ("AR-0117", ["2133,66"]);
  ("AR-0118", ["2621,66"]);
  ("AR-0119", ["5249,148"]);
  ("AR-0120", ["56,56"]);
  ("AR-0121", ["2461,66"]);
  ("AR-0122", ["3117,75"]);
  ("AR-0123", ["66,98"]);
  ("AR-0124", ["4593,98"]);
  ("AR-0125", ["3117,98"]);
  ("AR-0126", ["49,66"]);
  ("AR-0127", ["1968,49"]);
  ("AR-0128", ["3281,98"; "3281,98"]);
  ("AR-0129", ["59,59"]);
  ("AR-0130", ["2621,75"]);
  ("AR-0132", ["2461,59"]);
  ("AR-0133", ["59,49"]);
  ("AR-0134", ["3281,98"; "7431,148"]);
  ("AR-0135", ["1837,66"]);
  ("AR-0136", ["2592,98"]);
  ("AR-0137", ["3858,72"]);
  ("AR-0138", ["2621,75"]);
  ("AR-0139", ["2953,98"]);
  ("AR-0140", ["2461,98"; "2953,98"]);
  ("AR-0141", ["3133,98"; "3077,98"]);
  ("AR-0142", ["3150,131"]);
  ("AR-0143", ["5085,59"]);
  ("AR-0144", ["79,79"]);
  ("AR-0145", ["59,59"]);
  ("AR-0146", ["49,66"]);
  ("AR-0147", ["2789,98"]);
  ("AR-0150", ["2949,75"]);
  ("AR-0152", ["59,82"]);
  ("AR-0153", ["2953,66"]);
  ("AR-0154", ["43,66"]);
  ("AR-0155", ["56,72"]);
  ("AR-0156", ["62,62"]);
  ("AR-0157", ["3051,98"]);
  ("AR-0158", ["3182,66"]);
  ("AR-0159", ["49,69"]);
  ("AR-0160", ["2461,98"]);
  ("AR-0161", ["3609,75"]);
  ("AR-0162", ["3281,98"]);
  ("AR-0163", ["66,66"]);
  ("AR-0164", ["1804,49"]);
  ("AR-0165", ["4199,66"; "2625,98"]);
  ("AR-0166", ["2379,131"]);
  ("AR-0167", ["2231,98"]);
  ("AR-0168", ["4528,98"]);
  ("AR-0169", ["3281,98"; "2625,98"]);
  ("AR-0170", ["1870,66"]);
  ("AR-0172", ["2264,98"; "3937,98"]);
  ("AR-0173", ["3412,95"]);
  ("AR-0174", ["3934,98"]);
  ("AR-0175", ["1050,49"]);
  ("AR-0176", ["3478,148"; "2953,148"]);
  ("AR-0177", ["2461,59"]);
  ("AR-0178", ["1916,59"]);
  ("AR-0179", ["2461,98"]);
  ("AR-0180", ["3934,98"; "3934,98"]);
  ("AR-0181", ["3937,197"]);
  ("AR-0182", ["2762,92"]);
  ("AR-0184", ["2297,82"]);
  ("AR-0185", ["66,66"]);
  ("AR-0186", ["46,46"]);
  ("AR-0187", ["59,59"]);
  ("AR-0188", ["39,39"]);
  ("AR-0189", ["39,39"]);
  ("AR-0190", ["46,46"]);
  ("AR-0191", ["49,49"]);
  ("AR-0192", ["33,33"]);
  ("AR-0193", ["2782,75"; "2454,59"]);
  ("AR-0194", ["56,89"]);
  ("AR-0195", ["49,59"]);
  ("AR-0196", ["49,59"]);
  ("AR-0197", ["49,66"]);
  ("AR-0198", ["3609,98"]);
  ("AR-0199", ["2953,75"]);
  ("AR-0200", ["2559,75"]);
  ("AR-0201", ["3937,131"]);
  ("AR-0202", ["3182,115"]);
  ("AR-0203", ["2461,98"]);
  ("AR-0205", ["2182,66"]);
  ("AR-0206", ["33,49"]);
  ("AR-0207", ["3412,59"]);
  ("AR-0208", ["2067,66"]);
  ("AR-0209", ["2953,75"]);
  ("AR-0210", ["2625,98"]);
  ("AR-0211", ["3281,98"]);
  ("AR-0212", ["4921,82"]);
  ("AR-0213", ["2297,66"]);
  ("AR-0214", ["1837,92"]);
  ("AR-0215", ["52,52"]);
  ("AR-0216", ["4429,164"]);
  ("AR-0217", ["3661,82"]);
  ("AR-0218", ["3068,98"; "2753,98"; "2953,98"]);
  ("AR-0219", ["2388,66"]);
  ("AR-0220", ["43,43"]);
  ("AR-0221", ["59,59"]);
  ("AR-0224", ["3937,98"]);
  ("AR-0225", ["3215,98"]);
  ("AR-0226", ["49,49"]);
  ("AR-0227", ["4593,197"]);
  ("AR-0228", ["33,49"]);
  ("AR-0229", ["2625,98"]);
  ("AR-0230", ["3281,131"]);
  ("AR-0231", ["3937,98"]);
  ("AR-0232", ["2428,92"]);
  ("AR-0233", ["66,66"]);
  ("AR-0234", ["2215,95"]);
  ("AR-0235", ["3281,98"]);
  ("AR-0236", ["75,75"]);
  ("AR-0237", ["2133,72"]);
  ("AR-0238", ["3937,197"]);
  ("AR-0240", ["2461,98"]);
  ("AR-0241", ["3117,98"; "1968,98"]);
  ("AR-0242", ["66,66"]);
  ("AR-0243", ["59,49"]);
  ("AR-0244", ["3937,98"]);
  ("AR-0245", ["2461,98"]);
  ("AR-0246", ["3934,98"]);
  ("AR-0247", ["2625,98"]);
  ("AR-0248", ["3937,131"]);
  ("AR-0249", ["656,49"]);
  ("AR-0250", ["82,59"]);
  ("AR-0251", ["3445,102"]);
  ("AR-0252", ["2789,85"]);
  ("AR-0253", ["2674,98"]);
  ("AR-0255", ["2297,98"; "3012,98"; "2297,98"]);
  ("AR-0256", ["1903,82"]);
  ("AR-0257", ["1968,98"; "2953,98"]);
  ("AR-0258", ["1968,82"]);
  ("AR-0259", ["59,66"]);
  ("AR-0260", ["4806,98"]);
  ("AR-0262", ["2625,98"]);
  ("AR-0263", ["82,82"]);
  ("AR-0264", ["4921,98"; "4199,98"]);
  ("AR-0265", ["72,59"]);
  ("AR-0266", ["2133,98"]);
  ("AR-0267", ["2887,59"]);
  ("AR-0268", ["33,49"]);
  ("AR-0270", ["66,66"]);
  ("AR-0271", ["2621,75"; "2165,98"]);
  ("AR-0272", ["2444,49"]);
  ("AR-0273", ["2953,98"]);
  ("AR-0274", ["3871,131"]);
  ("AR-0275", ["43,43"]);
  ("AR-0276", ["3353,79"]);
  ("AR-0277", ["3281,98"]);
  ("AR-0278", ["3445,164"; "2165,164"]);
  ("AR-0279", ["56,56"]);
  ("AR-0280", ["2838,148"]);
  ("AR-0281", ["2690,98"]);
  ("AR-0282", ["2953,98"]);
  ("AR-0283", ["56,56"]);
  ("AR-0284", ["59,59"]);
  ("AR-0285", ["2457,98"]);
  ("AR-0286", ["49,49"]);
  ("AR-0287", ["66,66"]);
  ("AR-0289", ["1686,98"]);
  ("AR-0290", ["3934,197"]);
  ("AR-0291", ["1968,66"]);
  ("AR-0292", ["2953,98"; "2165,98"]);
  ("AR-0293", ["2789,75"; "2621,75"]);
  ("AR-0296", ["2625,98"]);
  ("AR-0297", ["98,66"]);
  ("AR-0298", ["1060,75"]);
  ("AR-0299", ["79,92"]);
  ("AR-0300", ["59,82"]);
  ("AR-0301", ["46,59"]);
  ("AR-0304", ["3379,75"; "2953,75"]);
  ("AR-0305", ["2953,82"]);
  ("AR-0306", ["2635,98"]);
  ("AR-0308", ["2854,98"; "3281,98"]);
  ("AR-0309", ["49,49"]);
  ("AR-0310", ["59,59"]);
  ("AR-0311", ["2297,98"]);
  ("AR-0312", ["4429,98"]);
  ("AR-0313", ["2953,75"]);
  ("AR-0314", ["2953,82"]);
  ("AR-0315", ["3117,72"]);
  ("AR-0316", ["4593,66"; "3937,66"]);
  ("AR-0317", ["49,49"]);
  ("AR-0318", ["3281,98"]);
  ("AR-0319", ["3609,98"]);
  ("AR-0320", ["3419,118"]);
  ("AR-0321", ["2461,164"]);
  ("AR-0322", ["2789,131"; "3970,148"]);
  ("AR-0323", ["2723,75"]);
  ("AR-0324", ["2247,98"]);
  ("AR-0325", ["1312,59"]);
  ("AR-0327", ["2461,98"]);
  ("AR-0328", ["4954,141"]);
  ("AR-0329", ["82,66"]);
  ("AR-0330", ["49,62"]);
  ("AR-0331", ["2297,98"]);
  ("AR-0332", ["3609,98"]);
  ("AR-0333", ["3937,164"; "2297,148"]);
  ("AR-0334", ["2461,82"]);
  ("AR-0335", ["6138,98"]);
  ("AR-0336", ["2461,82"]);
  ("AR-0339", ["33,49"]);
  ("AR-0340", ["69,59"]);
  ("AR-0343", ["66,66"]);
  ("AR-0344", ["2461,75"; "1968,59"]);
  ("AR-0345", ["3609,98"]);
  ("AR-0346", ["4331,79"]);
  ("AR-0347", ["72,49"]);
  ("AR-0348", ["66,66"]);
  ("AR-0349", ["2297,72"]);
  ("AR-0350", ["66,49"]);
  ("AR-0351", ["98,98"]);
  ("AR-0352", ["2953,98"]);
  ("AR-0353", ["66,66"]);
  ("AR-0354", ["2789,98"; "3304,98"]);
  ("AR-0355", ["2461,59"]);
  ("AR-0356", ["3445,115"]);
  ("AR-0357", ["43,39"]);
  ("AR-0358", ["43,43"]);
  ("AR-0359", ["52,62"]);
  ("AR-0360", ["59,49"]);
  ("AR-0361", ["49,59"]);
  ("AR-0362", ["52,62"]);
  ("AR-0363", ["49,59"]);
  ("AR-0364", ["49,59"]);
  ("AR-0365", ["59,49"]);
  ("AR-0366", ["49,59"]);
  ("AR-0367", ["59,49"]);
  ("AR-0368", ["59,49"]);
  ("AR-0369", ["3281,131"]);
  ("AR-0370", ["2461,66"]);
  ("AR-0371", ["49,66"]);
  ("AR-0372", ["2444,98"]);
  ("AR-0373", ["2946,75"]);
  ("AR-0374", ["3937,164"]);
  ("AR-0375", ["2625,131"; "3445,131"]);
  ("AR-0376", ["2953,95"]);
  ("AR-0377", ["2953,75"]);
  ("AR-0378", ["0,0"; "3937,98"]);
  ("AR-0379", ["2428,98"]);
  ("AR-0380", ["4199,115"]);
  ("AR-0381", ["3445,197"; "5905,197"]);
  ("AR-0382", ["4111,75"]);
  ("AR-0383", ["3937,131"; "4429,131"]);
  ("AR-0384", ["1968,66"]);
  ("AR-0385", ["1968,72"]);
  ("AR-0386", ["3051,89"]);
  ("AR-0388", ["1968,66"]);
  ("AR-0389", ["2067,66"]);
  ("AR-0390", ["2625,131"; "5577,164"]);
  ("AR-0391", ["2461,59"]);
  ("AR-0392", ["3281,66"]);
  ("AR-0393", ["2625,98"; "2625,98"]);
  ("AR-0394", ["2297,164"]);
  ("AR-0395", ["2559,59"]);
  ("AR-0396", ["2133,164"]);
  ("AR-0397", ["2500,98"]);
  ("AR-0398", ["2625,82"]);
  ("AR-0399", ["3773,75"]);
  ("AR-0400", ["2625,66"]);
  ("AR-0401", ["1739,59"]);
  ("AR-0402", ["2461,98"]);
  ("AR-0403", ["2621,98"]);
  ("AR-0404", ["3163,82"]);
  ("AR-0405", ["2953,98"]);
  ("AR-0406", ["1968,66"]);
  ("AR-0407", ["1837,49"]);
  ("AR-0408", ["2841,59"]);
  ("AR-0409", ["4265,98"]);
  ("AR-0410", ["5741,125"]);
  ("AR-0411", ["2782,56"]);
  ("AR-0412", ["2953,82"]);
  ("AR-0413", ["3937,82"]);
  ("AR-0414", ["2953,82"]);
  ("AR-0415", ["4429,75"]);
  ("AR-0416", ["4724,98"]);
  ("AR-0417", ["3996,75"]);
  ("AR-0418", ["2297,92"]);
  ("AR-0419", ["2618,66"]);
  ("AR-0420", ["656,49"]);
  ("AR-0421", ["3281,49"]);
  ("AR-0422", ["1968,59"]);
  ("AR-0423", ["1959,49"]);
  ("AR-0424", ["4101,164"; "3937,164"])].

(* ADRpy/data/runways.csv *)
Definition airports_10 : list (string * list string) := [
  ("AR-0425", ["2457,59"]);
  ("AR-0426", ["2297,49"]);
  ("AR-0427", ["2428,92"; "2582,131"]);
  ("AR-0428", ["2949,75"]);
  ("AR-0429", ["3937,98"]);
  ("AR-0430", ["2789,82"]);
  ("AR-0431", ["1968,66"]);
  ("AR-0432", ["1804,66"]);
  ("AR-0433", ["2133,98"]);
  ("AR-0434", ["3274,75"]);
  ("AR-0435", ["3934,98"]);
  ("AR-0436", ["3379,75"]);
  ("AR-0437", ["2215,82"]);
  ("AR-0438", ["3117,75"]);
  ("AR-0439", ["2598,49"]);
  ("AR-0440", ["3051,49"]);
  ("AR-0441", ["5905,98"]);
  ("AR-0442", ["2133,98"]);
  ("AR-0443", ["2182,98"]);
  ("AR-0444", ["2133,66"]);
  ("AR-0445", ["2165,59"]);
  ("AR-0446", ["2953,75"]);
  ("AR-0447", ["2461,98"; "2329,98"]);
  ("AR-0448", ["3117,82"]);
  ("AR-0449", ["2215,49"]);
  ("AR-0450", ["1968,49"]);
  ("AR-0451", ["3937,98"]);
  ("AR-0452", ["3520,82"]);
  ("AR-0453", ["2953,98"]);
  ("AR-0454", ["3051,98"; "3051,98"]);
  ("AR-0455", ["2559,98"]);
  ("AR-0456", ["1093,59"]);
  ("AR-0457", ["2461,82"]);
  ("AR-0458", ["2592,66"]);
  ("AR-0459", ["1968,66"]);
  ("AR-0460", ["1968,98"]);
  ("AR-0461", ["1804,66"]);
  ("AR-0462", ["5905,108,308,30,308,210"]);
  ("AR-0463", ["3839,98"]);
  ("AR-0464", ["2625,59"]);
  ("AR-0465", ["1890,49"]);
  ("AR-0466", ["2297,75"]);
  ("AR-0467", ["66,66"]);
  ("AR-0468", ["82,82"]);
  ("AR-0469", ["82,59"]);
  ("AR-0470", ["59,46"]);
  ("AR-0471", ["59,59"]);
  ("AR-0472", ["98,98"]);
  ("AR-0473", ["43,59"]);
  ("AR-0474", ["56,56"]);
  ("AR-0475", ["46,46"]);
  ("AR-0476", ["36,43"]);
  ("AR-0477", ["89,89"]);
  ("AR-0478", ["98,98"]);
  ("AR-0479", ["62,62"]);
  ("AR-0480", ["72,72"]);
  ("AR-0481", ["59,59"]);
  ("AR-0482", ["59,59"]);
  ("AR-0483", ["69,69"]);
  ("AR-0484", ["2041,115"]);
  ("AR-0485", ["4593,98"]);
  ("AR-0486", ["2608,98"]);
  ("AR-0487", ["59,46"]);
  ("AR-0488", ["59,46"]);
  ("AR-0489", ["89,89"]);
  ("AR-0490", ["75,75"]);
  ("AR-0491", ["49,49"]);
  ("AR-0492", ["2195,98"]);
  ("AR-0494", ["5250,82,,107,,287"]);
  ("AR-0513", ["3281,85,208,70,204,250"]);
  ("AR-0596", ["2215,75"; "2756,75"; "3281,98"]);
  ("AR02", ["40,40"]);
  ("AR03", ["2600,40,,93"]);
  ("AR04", ["1000,90"]);
  ("AR05", ["3000,50,,183.1,,230"]);
  ("AR06", ["2640,50,,102.4,,229.9"]);
  ("AR07", ["40,40,,,,273.3"]);
  ("AR08", ["800,50"]);
  ("AR09", ["2600,100,,183.8,,268"]);
  ("AR10", ["2600,60,,91.9,,317"]);
  ("AR11", ["1800,100"]);
  ("AR12", ["2300,110"]);
  ("AR13", ["2000,50"]);
  ("AR17", ["2442,150"]);
  ("AR19", ["1500,50"]);
  ("AR20", ["50,50"]);
  ("AR21", ["40,40"]);
  ("AR22", ["2500,75"]);
  ("AR23", ["3700,70,,,,358"]);
  ("AR24", ["40,40"]);
  ("AR27", ["2100,45"]);
  ("AR28", ["2640,70"]);
  ("AR29", ["25,25"]);
  ("AR30", ["25,25"]);
  ("AR31", ["30,30,,,,270.6"]);
  ("AR32", ["60,60,,,,274.2"]);
  ("AR33", ["150,150,,,,274.2"]);
  ("AR34", ["2000,100"]);
  ("AR35", ["2000,150"; "1600,200"]);
  ("AR36", ["60,60,,,,359.4"]);
  ("AR37", ["100,100"]);
  ("AR40", ["40,40"]);
  ("AR41", ["30,30,,,,310.8"]);
  ("AR42", ["96,90,,,,195"]);
  ("AR43", ["2300,50"]);
  ("AR44", ["2500,150"]);
  ("AR45", ["40,40"]);
  ("AR46", ["2640,90,,,,281.7"]);
  ("AR47", ["31,31"]);
  ("AR48", ["40,40"]);
  ("AR49", ["45,45,,,,273.2"]);
  ("AR50", ["2600,60"]);
  ("AR51", ["30,30"]);
  ("AR52", ["30,30"]);
  ("AR53", ["40,40"]);
  ("AR54", ["2500,60"]);
  ("AR55", ["2800,110"]);
  ("AR56", ["2905,100"]);
  ("AR59", ["40,40"]);
  ("AR60", ["50,50,,,,269.4"]);
  ("AR61", ["40,40"]);
  ("AR62", ["27,27,,,,309.9"; "44,44,,,,270"; "44,44,,,,7"]);
  ("AR63", ["50,50,,,,357.5"]);
  ("AR65", ["70,70"]);
  ("AR66", ["30,30"]);
  ("AR67", ["300,300,,,,232.3"]);
  ("AR68", ["30,30"]);
  ("AR69", ["50,50,,,,250"]);
  ("AR70", ["30,30,,,,200"]);
  ("AR71", ["40,40"]);
  ("AR72", ["60,60"; "60,60,,,,289"; "40,40"]);
  ("AR73", ["40,40"]);
  ("AR74", ["36,36"]);
  ("AR75", ["60,60,,,,335"]);
  ("AR76", ["40,40"]);
  ("AR77", ["40,40"]);
  ("AR78", ["40,40"]);
  ("AR79", ["3750,150"]);
  ("AR80", ["42,42"]);
  ("AR81", ["2800,60"]);
  ("AR82", ["1700,50"]);
  ("AR83", ["1130,50"]);
  ("AR85", ["40,40,,,,222.1"]);
  ("AR87", ["30,30"]);
  ("AR88", ["2700,50"]);
  ("AR89", ["2100,100,,,,270"]);
  ("AR90", ["20,20,,,,223.9"]);
  ("AR91", ["2050,100"]);
  ("AR92", ["145,75,,,,313.9"]);
  ("AR93", ["2400,90"]);
  ("AR95", ["40,40"]);
  ("AR97", ["2500,60"]);
  ("ATN", ["3494"]);
  ("ATP", ["2769,98"]);
  ("AU-0006", ["2461"; "2953"]);
  ("AU-0007", ["2986"]);
  ("AU-0014", ["2089"]);
  ("AU-0015", ["3937"; "1969"]);
  ("AU-0016", ["2953"]);
  ("AU-0017", [""]);
  ("AU-0018", ["2953"; "3018"]);
  ("AU-0032", ["3799,161"]);
  ("AU-0038", ["1683"]);
  ("AU-0050", [""]);
  ("AU-0053", ["2297"; "2953"]);
  ("AU-0054", ["3057"]);
  ("AU-0115", ["4933,59"]);
  ("AU-HIS", [""]);
  ("AU-MWY", ["1123,79"; "3306,236"]);
  ("AUI", ["3015"]);
  ("AUJ", ["2461,147"]);
  ("AUP", ["2981,148"]);
  ("AUV", ["2625,98"]);
  ("AYAQ", ["2559,59"]);
  ("AYAU", ["2001,98"]);
  ("AYBB", ["1969,98"]);
  ("AYBK", ["5125,98,11,48,9,228"]);
  ("AYBR", ["1982"]);
  ("AYBS", ["1640,98"]);
  ("AYBT", ["1969,98"]);
  ("AYBW", ["1969,98"]);
  ("AYBX", ["1969,98"]);
  ("AYCH", ["3330,89,4974,35.6,4974,215.6"]);
  ("AYDO", ["2051,98"]);
  ("AYDP", ["1706,98"]);
  ("AYDQ", ["1936,98"]);
  ("AYDS", ["1509,98"]);
  ("AYDU", ["4593,98,13,135,19,315"]);
  ("AYDW", ["2129,98"]);
  ("AYDY", ["1969,98"]);
  ("AYEB", ["1640,148"]);
  ("AYED", ["2415,98"]);
  ("AYEG", ["1969,98"]);
  ("AYEK", ["1476,98"]);
  ("AYEL", ["1739,98"]);
  ("AYEM", ["1969,98"]);
  ("AYEN", ["1312,98"]);
  ("AYEO", ["1804,98"]);
  ("AYEY", ["1936,98"]);
  ("AYFE", ["2165,98"]);
  ("AYFK", ["1969,98"]);
  ("AYFO", ["1998,98"]);
  ("AYFS", ["1532,98"]);
  ("AYFU", ["2500,98"]);
  ("AYGA", ["3983,59,5199,176,5199,356"; "5400,98,5199,176,5199,356"]);
  ("AYGD", ["1706"]);
  ("AYGE", ["1969,98"]);
  ("AYGH", ["1969,98"]);
  ("AYGM", ["1837,98"]);
  ("AYGN", ["5546,98,65,101.3,65,281.3"]);
  ("AYGO", ["2001,98"]);
  ("AYGQ", ["1969,98"]);
  ("AYGR", ["5485,98,310,38.1,252,218.1"]);
  ("AYGY", ["2625,75"]);
  ("AYHA", ["1982,98"]);
  ("AYHB", ["1969,98"]);
  ("AYHE", ["1404,98"]);
  ("AYHH", ["1348,98"]);
  ("AYHJ", ["1969,98"]);
  ("AYHK", ["5212,98,7,133,66,313"]);
  ("AYHN", ["1968,98"]);
  ("AYHO", ["1641,98"]);
  ("AYHQ", ["1585,98"]);
  ("AYHT", ["1509,98"]);
  ("AYHW", ["1969,98"]);
  ("AYHX", ["1969,98"]);
  ("AYIB", ["1969,98"]);
  ("AYII", ["1640"]);
  ("AYIM", ["1391"]);
  ("AYIN", ["1640,98"]);
  ("AYIP", ["1509,98"]);
  ("AYIR", ["1837,98"]);
  ("AYIS", ["1345,98"]);
  ("AYIU", ["3478,196"]);
  ("AYKA", ["5348,,9,,19"]);
  ("AYKI", ["3691,,97,,102"]);
  ("AYKJ", ["1273"]);
  ("AYKM", ["3044,60,8,146,9,326"]);
  ("AYKR", ["2953,,64,159.6,150,339.6"]);
  ("AYKV", ["5592,98,13,124.9,7,304.9"]);
  ("AYKY", ["3937,,195,,143"]);
  ("AYLE", ["1969,98,1600,29,1450,209"]);
  ("AYLH", ["1969,98"]);
  ("AYLO", ["1640"]);
  ("AYLS", ["2520"]);
  ("AYLX", ["2015,98"]);
  ("AYLZ", ["2044,147"]);
  ("AYMB", ["1998"]);
  ("AYMD", ["5174,105,20,75,7,255"]);
  ("AYMH", ["3599,59,5363,85,5363,265"; "7185,98,5363,121,5363,301"]);
  ("AYMN", ["4411,98,5695,172.8,5665,352.8"]);
  ("AYMO", ["6136,148,4,161,8,341"]);
  ("AYMR", ["5774,,2741,,2741"]);
  ("AYMS", ["3937,,36,,8"]);
  ("AYMY", ["1969,98"]);
  ("AYNM", ["1499,98"]);
  ("AYNO", ["1627"]);
  ("AYNT", ["1476,98"]);
  ("AYNZ", ["8004,98,239,95,216,275"]);
  ("AYOD", ["1870,98"]);
  ("AYOE", ["2014"]);
  ("AYOH", ["2182,98"]);
  ("AYOJ", ["2215,98"]);
  ("AYOK", ["1224"]);
  ("AYOS", ["1968"]);
  ("AYOU", ["1381,98"]);
  ("AYOX", ["1969,98"]);
  ("AYPA", ["1680,98"]);
  ("AYPC", ["2396,98"]);
  ("AYPI", ["1969,98"]);
  ("AYPO", ["1706"]);
  ("AYPQ", ["2001,98"]);
  ("AYPY", ["9022,148,103,148.4,128,328.4"; "6777,148,104,148.5,146,328.5"]);
  ("AYQB", ["1378,98"]);
  ("AYQM", ["1706,98"]);
  ("AYQV", ["2021,98"]);
  ("AYQW", ["1942,49"]);
  ("AYRG", ["1952,98"]);
  ("AYRR", ["1969,98"]);
  ("AYRT", ["2014,98"]);
  ("AYRV", ["1969,98"]);
  ("AYSB", ["2953,82"]);
  ("AYSI", ["1181,98"]);
  ("AYSR", ["2159,98"]);
  ("AYSX", ["1263"]);
  ("AYTA", ["5197,,5490,,5490"]);
  ("AYTB", ["4232,,1568,,1568"]);
  ("AYTD", ["2953,82"]);
  ("AYTK", ["5643,92,15,106.4,50,286.4"]);
  ("AYTM", ["1854,98"]);
  ("AYTQ", ["1969,30"]);
  ("AYTS", ["1804,98"]);
  ("AYTT", ["1909,98"]);
  ("AYTW", ["1529,98"]);
  ("AYTZ", ["1411,98"]);
  ("AYU", ["4200"]);
  ("AYUA", ["1844,98"]);
  ("AYUC", ["1598,98"]);
  ("AYUE", ["1575,98"]);
  ("AYUG", ["1594,98"]);
  ("AYUN", ["1998,98"]);
  ("AYUO", ["1969,98"]);
  ("AYUQ", ["2172"]);
  ("AYUS", ["2165,98"]);
  ("AYUT", ["1575,98"]);
  ("AYUV", ["1903,98"]);
  ("AYUX", ["1499,98"]);
  ("AYUZ", ["2756,98"]);
  ("AYVA", ["2953,98"]);
  ("AYVB", ["1558,98"]);
  ("AYVL", ["5250,82,,143,,323"]);
  ("AYVM", ["2500,98"]);
  ("AYVN", ["5775,85,11,130,22,310"]);
  ("AYVO", ["1969,98"]);
  ("AYVP", ["2625,98"]);
  ("AYWB", ["2379,98"]);
  ("AYWD", ["5052,75,5889,139,5889,319"]);
  ("AYWK", ["5234,98,16,103.9,19,283.9"]);
  ("AYWN", ["1440,98"]);
  ("AYWO", ["1394,98"]);
  ("AYXB", ["2448,98"]);
  ("AYXI", ["1384,98"]);
  ("AYXY", ["1299,98"]);
  ("AYYD", ["1991,98"]);
  ("AYYI", ["1969,98"]);
  ("AYYN", ["1558,98"]);
  ("AYYQ", ["1493,98"]);
  ("AYYT", ["1500"]);
  ("AYYU", ["1995"]);
  ("AYYV", ["1969,98"]);
  ("AYYW", ["1188"]);
  ("AYZQ", ["1969,98"]);
  ("AYZU", ["2090,98"]);
  ("AYZW", ["1476,98"]);
  ("AYZZ", ["1378,98"]);
  ("AZ00", ["1000,30"]);
  ("AZ01", ["2200,50"]);
  ("AZ02", ["50,50,,,,262.6"]);
  ("AZ03", ["3820,40,4210,,,0.2"]);
  ("AZ04", ["1400,50"]);
  ("AZ05", ["2750,36"]);
  ("AZ06", ["6595,150"; "5193,150"; "5349,150"]);
  ("AZ07", ["20,20,,,,226.1"]);
  ("AZ08", ["50,50,1163,,,225"]);
  ("AZ09", ["1400,50"]);
  ("AZ10", ["56,56"]);
  ("AZ11", ["25,25,,,,315.8"]);
  ("AZ12", ["100,100,,,,359.1"]);
  ("AZ13", ["2000,90"]);
  ("AZ14", ["1950,75"]);
  ("AZ15", ["30,30,,,,325.1"]);
  ("AZ16", ["40,40,,,,231.6"]);
  ("AZ17", ["1000,45"]);
  ("AZ18", ["300,200"]);
  ("AZ19", ["750,250"]);
  ("AZ20", ["300,300,,,,354"]);
  ("AZ21", ["4000,175"]);
  ("AZ22", ["80,80,,,,335"]);
  ("AZ23", ["200,200,,,,233.8"]);
  ("AZ24", ["60,40"]);
  ("AZ25", ["2700,75"]);
  ("AZ26", ["3120,50,,,,0.1"; "2400,50"]);
  ("AZ27", ["4200,75"]);
  ("AZ28", ["2600,40,,,,253.5"]);
  ("AZ29", ["150,150,,,,244"]);
  ("AZ30", ["400,400,,,,332"]);
  ("AZ31", ["3960,100"]);
  ("AZ32", ["4700,60"]);
  ("AZ33", ["30,30"]);
  ("AZ34", ["1320,60"]);
  ("AZ35", ["50,50,,,,314"]);
  ("AZ36", ["50,50"]);
  ("AZ37", ["100,100,,,,307"]);
  ("AZ38", ["1500,50"]);
  ("AZ39", ["900,200,,,,270"]);
  ("AZ40", ["1200,50"; "1200,50"]);
  ("AZ41", ["30,30"]);
  ("AZ42", ["100,100,,,,263.9"]);
  ("AZ43", ["2000,50"]);
  ("AZ44", ["210,105,,,,221"]);
  ("AZ45", ["4500,150"; "3100,125"; "1650,120"; "1950,110"]);
  ("AZ46", ["2200,50"]);
  ("AZ47", ["40,40,,,,225.6"]);
  ("AZ48", ["129,69"]);
  ("AZ49", ["2600,75"]);
  ("AZ50", ["2044,150"; "4055,200"]);
  ("AZ51", ["30,30,,,,225"]);
  ("AZ52", ["30,20,,,,315"]);
  ("AZ53", ["20,20"]);
  ("AZ54", ["20,20"]);
  ("AZ55", ["20,15"]);
  ("AZ56", ["20,20"]);
  ("AZ57", ["5250,75"]);
  ("AZ58", ["70,50,,,,335"]);
  ("AZ59", ["20,20"]);
  ("AZ60", ["2800,100"; "1750,100"]);
  ("AZ61", ["2640,80"]);
  ("AZ62", ["50,50,,,,269"]);
  ("AZ63", ["2800,75,,,,354.6"]);
  ("AZ64", ["2500,75"]);
  ("AZ65", ["20,20"]);
  ("AZ66", ["60,60,,,,325.5"]);
  ("AZ67", ["5120,100,,,,287"; "5000,100,,,,259"; "5000,100,,,,251.1"; "5000,100,,,,296.6"; "5000,130,,,,183"]);
  ("AZ68", ["40,40"]);
  ("AZ70", ["40,20,,,,315.3"]);
  ("AZ72", ["40,40"]);
  ("AZ73", ["40,40,,,,317.5"]);
  ("AZ74", ["1500,100"; "1200,100"; "3600,100"]);
  ("AZ75", ["64,64,,,,314"]);
  ("AZ76", ["60,60,,,,334"]);
  ("AZ77", ["3200,100,6923,133.9,6958,360"]);
  ("AZ78", ["2000,60"]);
  ("AZ79", ["375,60"]);
  ("AZ80", ["100,100"]);
  ("AZ81", ["90,90"; "90,90"; "90,90"; "90,90"; "90,90"; "120,120"]);
  ("AZ82", ["3420,50,,41.2,,255"]);
  ("AZ83", ["36,36,,,,309"]);
  ("AZ84", ["60,60,,,,224"]);
  ("AZ85", ["3075,60"]);
  ("AZ86", ["2500,50"]);
  ("AZ87", ["80,60,,,,231"]);
  ("AZ89", ["60,60"]);
  ("AZ90", ["2700,24"]);
  ("AZ91", ["60,60,,,,330"]);
  ("AZ92", ["40,40,,,,312"]);
  ("AZ93", ["60,60"]);
  ("AZ94", ["80,40,,,,315.1"]);
  ("AZ95", ["40,40"]);
  ("AZ96", ["40,40"]);
  ("AZ97", ["4250,40"]);
  ("AZ98", ["40,40"]);
  ("AZ99", ["40,40,,,,298"]);
  ("AZB", ["2871"]);
  ("AZU", ["4500,60,,,,221"]);
  ("B01", ["2500,36,,143,,323"]);
  ("B04", ["2600,103"; "9999,750"]);
  ("B06", ["3000,90"]);
  ("B10", ["2201,120,316,,324,211.4"]);
  ("B18", ["2600,100"]);
  ("B25", ["2920,46,910,,910,322"]);
  ("B70", ["2550,90"]);
  ("BA-0001", [""]);
  ("BBG", ["7140,150,1255,145,1302,325"]);
  ("BCP", ["1345,98"]);
  ("BDH", ["2980,250,1125,35,1123,215"; "5500,100,1123,130,1126,310"]);
  ("BDZ", ["1542,98"]);
  ("BE-0006", ["538"]);
  ("BE-0010", ["69,69"]);
  ("BG-JAM", ["8193,260,,119,,299"]);
  ("BGAA", ["2621,,71,,66"]);
  ("BGBW", ["6004,148,11,41,112,221"]);
  ("BGCO", ["3281,98,45,157.1,9,337.1"]);
  ("BGGH", ["3117,98,271,19,281,199"]);
  ("BGJN", ["2772,,95,,82"]);
  ("BGKK", ["3934,,115,,104"]);
  ("BGMQ", ["2621,,84,,89"]);
  ("BGNS", ["197,66"; "197,66"]);
  ("BGSF", ["9219,197,100,61.6,165,241.6"]);
  ("BGSS", ["2621,,33,,17"]);
  ("BGTL", ["9997,140"; "9997,140,167,84.9,251,264.9"]);
  ("BGUK", ["2621,,407,,395"]);
  ("BGUQ", ["2953,,272,,260"]);
  ("BIAR", ["6365,148,7,355,5,175"]);
  ("BIBD", ["3084,98,11,28,26,208"]);
  ("BIBL", ["3182,,131,,131"]);
  ("BIEG", ["6562,148,76,25,76,205"]);
  ("BIFZ", ["2510,115"]);
  ("BIGJ", ["3041,,98,,98"]);
  ("BIGR", ["3379,,81,160,75,340"]);
  ("BIHK", ["3280,,72,,90"]);
  ("BIHN", ["4921,148,24,168,7,348"]);
  ("BIHU", ["5266,157,48,12,45,192"]);
  ("BIIS", ["4593,148,8,62,8,242"]);
  ("BIKF", ["10019,197,135,1,161,181"; "10056,197,111,90,171,270"]);
  ("BIKR", ["6191,90,8,351,8,171"]);
  ("BINF", ["3648,,5,,5"]);
  ("BIPA", ["4593,148,11,119.1,11,299.1"]);
  ("BIRG", ["3533,,63,,63"]);
  ("BIRK", ["5141,148,23,355,29,175"; "3150,98,27,46,39,226"; "4035,148,17,117,38,297"]);
  ("BISF", ["3271,,45,,45"; "3478,,45,,45"]);
  ("BISI", ["3556,105,10,43,10,223"]);
  ("BISS", ["2578,59"]);
  ("BIST", ["3675,,42,,42"]);
  ("BITE", ["3117,,65,,65"]);
  ("BITN", ["3934,98,51,2.7,64,182.7"]);
  ("BIVM", ["3806,148,291,19,299,199"; "3953,148,298,110,326,290"]);
  ("BIVO", ["3061,,9,,8"]);
  ("BKPR", ["8165,148,1789,176,1786,356"]);
  ("BMH", ["2395,98"]);
  ("BMZ", ["1549,98"]);
  ("BNF", ["10000,1000"]);
  ("BNT", ["2198,148"]);
  ("BOF", ["100,100,,,,315.6"]);
  ("BOK", ["2900,60,,,,315.6"]);
  ("BOT", ["2297,98"]);
  ("BOV", ["2024"]);
  ("BPF", ["2028,49"]);
  ("BQV", ["10000,4000"]);
  ("BR-0001", ["325"]);
  ("BR-0030", ["3513,33,38,86,31,266"]);
  ("BR-0032", ["3688,66,,80,,260"]);
  ("BR-0039", ["4707,75,1742,138,1705,318"]);
  ("BR-0042", ["2625,98"]);
  ("BR-0062", ["1640,59"]);
  ("BR-0063", ["3920,80"]);
  ("BR-0096", ["2598,59"]);
  ("BR-0097", ["3000,66"]);
  ("BR-0125", ["3909,59"]);
  ("BR-0131", ["4101,75"]);
  ("BR-0139", ["1739,39"]);
  ("BR-0159", ["3281,59"]);
  ("BR-0172", ["4265,98"]);
  ("BR-0175", ["3900,66"]);
  ("BR-0176", ["3300,75"]);
  ("BR-0177", ["5249,98"]);
  ("BR-0178", ["1804,59"]);
  ("BR-0181", ["3609,75"]);
  ("BR-0187", ["64,64"]);
  ("BR-0188", ["66,66"]);
  ("BR-0191", ["2953,59"]);
  ("BR-0192", ["1969,131"]);
  ("BR-0199", ["3232,82"]);
  ("BR-0251", ["3281,75"]);
  ("BR-0252", ["1969,59"]);
  ("BR-0284", ["2953,59"]);
  ("BR-0285", ["75,75"]);
  ("BR-ALT", ["3280,75"]);
  ("BSP", ["2772,98"]);
  ("BW-0022", ["3353,66,3179,151,3173,331"]);
  ("BWP", ["2500,59"]);
  ("BXZ", ["1969,98"]);
  ("BY-0022", ["7742,79,690,77,672,257"]);
  ("BYA", ["2500,60,,,,196.3"]);
  ("C00", ["2480,45,742,,719,305"]);
  ("C01", ["2400,80"]);
  ("C07", ["2600,60,,85,,265"]);
  ("C11", ["2600,95"]);
  ("C23", ["6000,40"]);
  ("C25", ["2800,50,992,107,983,287"]);
  ("C37", ["1480,100,793,,793"; "2430,155,793,,793,315"; "1380,100,793,,793"]);
  ("C39", ["10000,4000"]);
  ("C40", ["2600,100,843,,845,206"; "2230,100,841,,845,322.7"]);
  ("C43", ["2314,100"]);
  ("C44", ["1756,60,772,,756,287"]);
  ("C45", ["2784,40,495,25,501,205"; "2188,40,496,180,495,360"]);
  ("C54", ["65,65"]);
  ("C55", ["2640,200,920,,920,360"]);
  ("C56", ["5001,75,790,89,772,269"]);
  ("C59", ["4423,80,979,185,967,5"]);
  ("C66", ["2899,60,753,23,748,203"]);
  ("C72", ["3800,125,,,,239.1"; "2065,50"]);
  ("C82", ["2590,184,769,,769,359.1"]);
  ("C86", ["2600,100,945,,949,229"]);
  ("C89", ["2343,120,787,,770,263"; "2272,38,788,,771,297"]);
  ("C92", ["2521,40,857,,859,360"]);
  ("C94", ["3400,100,,,,294.7"]);
  ("C97", ["3041,100,672,180,650,360"]);
  ("C98", ["2000,140,640,,644,270.5"]);
  ("CA-0069", ["2500"]);
  ("CA-0088", ["2800,50"]);
  ("CA-0120", ["5002,100,,111,,291"]);
  ("CA-0159", ["1678,50,,355,,175"; "3246,65,,82,,262"]);
  ("CA-0304", ["1267"]);
  ("CA-0307", ["3300"]);
  ("CA-0380", ["2033,120"]);
  ("CA-0393", ["1400,70"]);
  ("CA-0411", ["2920,82"]);
  ("CA-0412", ["6400,150,,126,,306"]);
  ("CA-0426", [""]);
  ("CA-0428", ["3000,50"]);
  ("CA-0430", ["2200,120,,12,,192"; "3200,120,,152,,332"]);
  ("CA-0444", ["2480,75,,299,,119"]);
  ("CA-0452", ["2000"]);
  ("CA-0454", ["2000,22"]);
  ("CA-0457", ["1200,20"; "800,20"]);
  ("CA-0464", ["4000,25"]);
  ("CA-0497", ["3187,150"; "2998,150"; "3076,150"]);
  ("CA-0508", ["3000,75"]);
  ("CA-0516", ["2192,80"]);
  ("CA-0524", ["1000,50,1190,,1200"]);
  ("CA-0526", ["5384,80,394,,394"]);
  ("CA-0527", ["5528,80,94,,94"]);
  ("CA-0534", ["3000,70,650,360,650,180"]);
  ("CA-0536", ["1685,50"]);
  ("CA-0537", ["1800,50"]);
  ("CA-0561", ["2700,130"]);
  ("CA-0564", ["1753,60"]);
  ("CA-0601", ["2110,25,230,67,227,247"]);
  ("CA-0682", ["2100,50"]);
  ("CA-0683", ["2000,75"]);
  ("CA-0684", ["2000,50"; "2100,50"]);
  ("CA00", ["60,60"]);
  ("CA01", ["39,39,,,,0.5"]);
  ("CA02", ["2500,35,,,,0.5"]);
  ("CA03", ["3000,30"]);
  ("CA04", ["2600,150"]);
  ("CA05", ["2600,60,,,,248"]);
  ("CA06", ["2200,80"]);
  ("CA07", ["2100,35"]);
  ("CA08", ["35,35,,,,360"]);
  ("CA09", ["1500,50"]);
  ("CA10", ["3000,100"]);
  ("CA11", ["2800,75"]);
  ("CA12", ["70,70"]);
  ("CA13", ["2000,75"]);
  ("CA14", ["50,50,17,,,0.3"]);
  ("CA15", ["44,44,,,,0.3"]);
  ("CA16", ["2500,200"]);
  ("CA17", ["2485,40"]);
  ("CA18", ["3100,35"]);
  ("CA19", ["2250,30"]);
  ("CA20", ["4000,100,,25.7,,297.8"]);
  ("CA21", ["1700,100"]);
  ("CA22", ["2000,30"]);
  ("CA23", ["54,54,,,,225"]);
  ("CA24", ["32,32"; "98,98,,,,228"]);
  ("CA25", ["300,150,,,,260"]);
  ("CA26", ["100,60,,,,330.4"]);
  ("CA27", ["60,60"]);
  ("CA28", ["46,46,,,,270"]);
  ("CA29", ["36,36,,,,230"]);
  ("CA30", ["150,150,10,,,319"]);
  ("CA31", ["25,25,,,,201.4"]);
  ("CA32", ["2500,30"]);
  ("CA33", ["65,65,148,,,243.9"]);
  ("CA34", ["300,100,,,,315.4"]);
  ("CA35", ["2140,30,,,,315.4"]);
  ("CA36", ["45,45,,,,315.4"]);
  ("CA37", ["80,80,,,,211.5"]);
  ("CA38", ["1800,100"]);
  ("CA39", ["2500,70"; "1500,80"]);
  ("CA40", ["2600,150"]);
  ("CA41", ["2400,100"]);
  ("CA42", ["1800,50,,193.6,,338.6"]);
  ("CA43", ["42,42,,,,268"]);
  ("CA44", ["2800,100"]);
  ("CA45", ["2400,45"]);
  ("CA46", ["62,62,,,,317.5"]);
  ("CA47", ["62,62,,,,231.6"]);
  ("CA48", ["53,53,,,,269.7"]);
  ("CA49", ["1900,50,199,,198,234"]);
  ("CA50", ["150,140,,,,2"]);
  ("CA51", ["2600,40,340,,338,328"]);
  ("CA52", ["20,20"]);
  ("CA53", ["1800,24"]);
  ("CA54", ["1600,30"]);
  ("CA55", ["52,96,,,,242.4"]);
  ("CA56", ["50,50"]);
  ("CA57", ["1600,75"]);
  ("CA58", ["72,72,,,,209.2"]);
  ("CA59", ["2200,50"]);
  ("CA60", ["3000,400,,180,,344.3"]);
  ("CA61", ["85,85,,,,183.2"]);
  ("CA62", ["3500,65,904,112.8,876,292.8"]);
  ("CA63", ["42,42,,,,194"]);
  ("CA64", ["56,56"]);
  ("CA65", ["100,100,,,,276"]);
  ("CA66", ["2200,50"]);
  ("CA67", ["1562,30,96,,,314.9"]);
  ("CA68", ["40,40,,,,315"]);
  ("CA69", ["2880,100,,,,216"]);
  ("CA70", ["5300,90,2984,,,217"; "3800,80,,,,214"]);
  ("CA71", ["3000,50"]);
  ("CA72", ["96,77,,,,270"]);
  ("CA73", ["3220,48,42,178.6,41,315"]);
  ("CA74", ["48,48"]);
  ("CA75", ["2080,75"]);
  ("CA76", ["2000,75,,,,352"]);
  ("CA77", ["50,50"]);
  ("CA78", ["86,86,,,,217"]);
  ("CA79", ["20,20"]);
  ("CA80", ["60,60,1200,,,234"]);
  ("CA81", ["50,50,,,,312"]);
  ("CA82", ["75,75"]);
  ("CA83", ["60,80,,,,349"]);
  ("CA84", ["1500,30"]);
  ("CA85", ["50,50,,,,0.3"]);
  ("CA86", ["30,30,,,,320"]);
  ("CA87", ["105,105,,,,360"]);
  ("CA88", ["2000,45"]);
  ("CA89", ["1850,60"; "2800,100,,,,1.1"; "2800,100,,,,322"]);
  ("CA90", ["5280,49,,93.1,,209"]);
  ("CA91", ["74,40,,,,209"]);
  ("CA92", ["3017,60,1347,181,1283,1"]);
  ("CA94", ["50,50"]);
  ("CA95", ["50,50"]);
  ("CA96", ["42,42"]);
  ("CA97", ["2507,50"]);
  ("CA98", ["60,60,,,,228"]);
  ("CA99", ["50,50"]);
  ("CAA8", ["3000,75,,170,,350"]);
  ("CAD4", ["4000,75,,179,,359"]);
  ("CAD5", ["4000,73,,57,,237"]);
  ("CAE4", ["2900,50"]);
  ("CAF4", ["4000,100"]);
  ("CAG3", ["3200,50"]);
  ("CAH3", ["1800,60"]);
  ("CAH4", ["3950,75,,161,,341"]);
  ("CAJ2", ["2500,60"]);
  ("CAJ3", ["3945,75,2070,168.3,2070,348.3"]);
  ("CAJ4", ["2738,100,,81.5,,261.5"; "3930,75,3615,146.9,3635,326.9"]);
  ("CAJ7", ["4500,50,,87,,267"]);
  ("CAJ9", ["4700,30"]);
  ("CAK3", ["2600,75"]);
  ("CAL3", ["4600,40,,100,,280"]);
  ("CAL4", ["7549,148"]);
  ("CAM3", ["1520,30"]);
  ("CAM4", ["2500,60,,109,,289"]);
  ("CAM5", ["3900,66,,150,,330"]);
  ("CAP3", ["2400,75"]);
  ("CAP6", ["6000,100"]);
  ("CAQ4", ["4800,75"]);
  ("CAQ5", ["3000,75,,141,,321"]);
  ("CAR2", ["2700,75"]);
  ("CAR5", ["1650,75,,43,,223"]);
  ("Cark", ["1640,50"]);
  ("CAS2", ["2750,40"]);
  ("CAS3", ["2700,40"]);
  ("CAT1", ["2000,70"]);
  ("CAT4", ["3565,75,191,126.8,170,306.8"]);
  ("CAT5", ["2400,36"; "3600,75"]);
  ("CAU3", ["3200,50,,200,,20"]);
  ("CAU4", ["5200,180,,42,,222"; "5018,100,,84.1,,264.2"; "3200,180,,172,,352"]);
  ("CAV3", ["1900,46"]);
  ("CAV4", ["2700,75"]);
  ("CAV6", ["1800,60"]);
  ("CAW3", ["3500,60"]);
  ("CAX5", ["3200,65"]);
  ("CAY2", ["1800,60"]);
  ("CAY5", ["2723,90"]);
  ("CAZ5", ["3280,75,,171,,351"]);
  ("CBA8", ["2461,50"]);
  ("CBA9", ["5600,60"]);
  ("CBB7", ["2300,50"]);
  ("CBB9", ["2800,50"]);
  ("CBBC", ["3700,75,141,151,103,331"]);
  ("CBD5", ["2000,75"]);
  ("CBE2", ["3000,100"]);
  ("CBF2", ["2400,60"]);
  ("CBF9", ["2900,150"]);
  ("CBG2", ["2575,40"]);
  ("CBH2", ["4520,100"]);
  ("CBJ4", ["3412,60,,90.2,,270.2"]);
  ("CBK6", ["2700,150"]);
  ("CBK7", ["3000,80"]);
  ("CBL3", ["4000,50"]);
  ("CBL6", ["2600,100"]);
  ("CBL9", ["4000,45"]);
  ("CBM5", ["5000,40"]);
  ("CBM6", ["3500,125"]);
  ("CBN7", ["2135,100"]);
  ("CBN9", ["4500,50"]);
  ("CBQ2", ["1800,100"]);
  ("CBQ8", ["3350,200,515,44,537,224"]);
  ("CBR2", ["3700,60,,89,,269"]);
  ("CBS2", ["1490,59"; "3058,69"]);
  ("CBS4", ["2460,65"]);
  ("CBS7", ["1900,45"]);
  ("CBS8", ["3952,75,247,135.3,229,315.3"]);
  ("CBT3", ["2200,75"]);
  ("CBT6", ["2300,50"]);
  ("CBU2", ["3600,50"]);
  ("CBW2", ["3000,75"]);
  ("CBW3", ["5000,40"]);
  ("CBW4", ["4200,150"]);
  ("CBX7", ["4000,100,3075,33,3075,213"]);
  ("CBZ9", ["3900,75,,103.7,,283.7"]);
  ("CCA3", ["2400,100"; "3600,100"]);
  ("CCA6", ["2200,75"]);
  ("CCA7", ["2500,50"]);
  ("CCA9", ["1800,150"]);
  ("CCC2", ["2999,75,151,127.8,143,307.8"]);
  ("CCD2", ["2800,75"]);
  ("CCD3", ["3000,75"]);
  ("CCD4", ["2500,75"]);
  ("CCE2", [""; ""]);
  ("CCE3", ["4021,53,836,357,837,177"]);
  ("CCE4", ["2500,75"]);
  ("CCE6", ["1200,60,,47,,227"; "900,50,,164,,344"]);
  ("CCF4", ["2400,100"]);
  ("CCF9", ["2400,100"]);
  ("CCG3", ["3000,80"]);
  ("CCG4", ["3000,80,,58,,238"]);
  ("CCH4", ["2500,,172,,209"]);
  ("CCI9", ["1700,75"]);
  ("CCJ3", ["4000,60,942,,958"]);
  ("CCK3", ["3000,75"]);
  ("CCK4", ["2200,75"]);
  ("CCM3", ["3100,60"]);
  ("CCM4", ["2700,50"]);
  ("CCN2", ["3000,75,238,42,221,222"]);
  ("ccn3", ["2550,50"]);
  ("CCN4", ["2600,120,,86,,266"; "3300,120"]);
  ("CCP2", [",,365,,350"; "3930,75,365,41,350,221"]);
  ("CCP4", ["2500,75,335,,335"]);
  ("CCQ3", ["3000,150,134,27,134,207"; "5000,150,142,75.5,142,255.5"; "5000,150,130,138.8,135,318.8"]);
  ("CCR3", ["5400,100,505,159,454,339"]);
  ("CCS3", ["3000,75,100,119.9,100,299.9"]);
  ("CCS4", ["4022,50,58,72,64,252"]);
  ("CCS5", ["2090,260"; "2860,235"]);
  ("CCT2", ["3400,150"]);
  ("CCV4", ["2300,75"]);
  ("CCW3", ["3500,75,119,77,106,257"]);
  ("CCW4", ["2500,100,,20,,200"; "2400,100,,69.9,,249.9"; "1600,150,,129.8,,309.8"]);
  ("CCX3", ["4000,75"]);
  ("CCY3", ["3000,60"]);
  ("CCZ2", ["2500,75"]);
  ("CCZ3", ["3933,75,171,54,199,234"]);
  ("CCZ4", ["2500,75"]);
  ("CCZ5", ["2000,40"]);
  ("CD00", ["100,100,,,,360"]);
  ("CD01", ["3000,85"]);
  ("CD02", ["1600,30"]);
  ("CD03", ["4500,30"; "1000,50"]);
  ("CD04", ["75,30"]);
  ("CD05", ["2600,40"]);
  ("CD06", ["80,30"]);
  ("CD07", ["40,40,,,,331.6"]);
  ("CD09", ["2900,50"]);
  ("CD10", ["3000,80"; "3000,80"]);
  ("CD11", ["300,100,,,,318"]);
  ("CD12", ["50,50"]);
  ("CD13", ["2300,30"]);
  ("CD14", ["2600,60"]);
  ("CD15", ["4100,60"]);
  ("CD16", ["100,100,,,,266"]);
  ("CD17", ["2200,30"]);
  ("CD18", ["100,100,,,,0.3"]);
  ("CD19", ["100,100,,,,352.8"]);
  ("CD20", ["1750,40"]);
  ("CD21", ["100,100"]);
  ("CD22", ["40,40"]);
  ("CD23", ["2150,60"]);
  ("CD24", ["22,22"]);
  ("CD25", ["100,100,,,,333.2"]);
  ("CD26", ["100,100,,,,270"]);
  ("CD27", ["30,30"]);
  ("CD28", ["1800,40"]);
  ("CD29", ["100,100,,,,229.1"]);
  ("CD30", ["100,100,,,,216.1"]);
  ("CD31", ["50,50,,,,220.5"]);
  ("CD32", ["3200,50"]);
  ("CD33", ["100,100,,,,348.8"]);
  ("CD34", ["100,100,,,,347.5"]);
  ("CD35", ["100,100,,,,348.9"]);
  ("CD36", ["100,100"]);
  ("CD37", ["100,100"]);
  ("CD38", ["100,100,,,,318.3"]);
  ("CD39", ["2500,60"]);
  ("CD40", ["100,100"]);
  ("CD41", ["100,100,,,,1.1"]);
  ("CD42", ["100,100,,,,251.9"]);
  ("CD43", ["100,100,,,,199.7"]);
  ("CD44", ["100,100,,,,306.8"]);
  ("CD45", ["2100,300"]);
  ("CD46", ["20,20,,,,225"]);
  ("CD47", ["45,45,,,,318"]);
  ("CD48", ["3500,80"]);
  ("CD49", ["100,100,,,,302"]);
  ("CD50", ["100,100,,,,345"]);
  ("CD52", ["100,100,,,,270"]);
  ("CD53", ["40,40"]);
  ("CD54", ["100,100,,,,309"]);
  ("CD55", ["100,100,,,,344"]);
  ("CD56", ["100,100,,,,251.1"]);
  ("CD57", ["100,100,,,,347"]);
  ("CD59", ["100,100,,,,336"]);
  ("CD62", ["100,100,,,,210.4"]);
  ("CD63", ["100,100,,,,208.3"]);
  ("CD65", ["100,100,,,,240.9"]);
  ("CD66", ["100,100,,,,197.5"]);
  ("CD68", ["100,100,,,,281.1"]);
  ("CD69", ["4400,80"]);
  ("CD70", ["100,100,,,,199.3"]);
  ("CD71", ["500,100"]);
  ("CD72", ["100,100,,,,269"]);
  ("CD74", ["100,100,,,,355.5"]);
  ("CD75", ["100,100,,,,202.7"]);
  ("CD77", ["100,100,,,,241.7"]);
  ("CD78", ["100,100,,,,278"]);
  ("CD79", ["100,100,,,,349"]);
  ("CD80", ["100,100,,,,209"]);
  ("CD81", ["100,100,,,,290.6"]);
  ("CD82", ["3515,150"]);
  ("CD97", ["1375,60"]);
  ("CD99", ["1800,50"]);
  ("CDA4", ["3000,75,68,105,68,285"]);
  ("CDA5", ["3000,75,65,160.2,23,340.2"]);
  ("CDA6", ["1660,50"]);
  ("CDC4", ["3000,100"]);
  ("CDD", ["8000,1000"; "7000,1000"]);
  ("CDD3", ["1800,40"]);
  ("CDE", ["70,70,34,,,223.3"]);
  ("CDH1", ["3080,60,,36.6,,216.6"]);
  ("CDH3", ["1500,70"]);
  ("CDJ4", ["3979,60,1300,116,1300,296"]);
  ("CDK", ["2355,100,,,,270"]);
  ("CDL8", ["1800,60"]);
  ("CDO2", ["2400,75"]);
  ("CDT5", ["5024,74,57,73.1,25,253.1"]);
  ("CDU6", ["3996,50,315,95,325,275"]);
  ("CDU9", ["2400,30,,38.7,,218.7"; "3500,60,,80,,260"]);
  ("CDV2", ["4003,47,857,31.9,883,211.9"]);
  ("CDY3", ["3000,75,76,81,74,261"]);
  ("CDY6", ["1728,30"]);
  ("CEA3", ["1800,50,,59.2,,239.2"; "3650,75,,116.3,,296.3"]);
  ("CEA5", ["3000,75,,90,,270"]);
  ("CEA6", ["3500,75,,63,,243"]);
  ("CEB5", [",,2166,,2166"; "3492,75,,58,,238"]);
  ("CEB8", ["2025,100,,92,,272"]);
  ("CEC3", ["3500,100"]);
  ("CEC4", ["4300,100,4025,39,4006,219"]);
  ("CED2", ["4129,75"]);
  ("CED3", ["2200,75,,60.6,,240.6"; "3000,75,,160.6,,340.6"]);
  ("CED4", ["2950,75,2842,,2842"]);
  ("CED5", ["3000,75,,64,,244"; "2000,75,,149,,329"]);
  ("CED6", ["2350,75"]);
  ("CED8", ["1900,50,,42,,222"]);
  ("CEE4", ["3700,150"]);
  ("CEE5", ["3544,100,,88.4,,268.4"]);
  ("CEE6", ["2900,100"]);
  ("CEE8", ["2950,75"]);
  ("CEF2", ["2000,60"]);
  ("CEF3", ["3000,75,,66,,246"]);
  ("CEF4", ["2914,100,,60.3,,240.3"; "2926,100,,117.3,,297.3"; "5000,100,3653,137.5,3650,317.5"; "2918,100,,179.3,,359.3"]);
  ("CEF6", ["2950,75"]);
  ("CEG2", ["1400,75"; "2800,100"]);
  ("CEG3", ["3000,74,,179.7,,359.7"]);
  ("CEG4", ["3500,75,2597,180,2597,360"]);
  ("CEG5", ["3000,100"]);
  ("CEG8", ["4737,,979,,980"]);
  ("CEH2", ["3014,300"; "2230,200"]);
  ("CEH3", ["3097,75,,178.9,,358.9"]);
  ("CEH4", ["3015,150,,120,,300"; "2931,150,,179,,359"]);
  ("CEH5", ["3540,75,,140,,320"]);
  ("CEH6", ["5001,75,2184,133.8,2197,313.8"]);
  ("CEJ3", ["3000,75,,88,,268"]);
  ("CEJ4", ["3100,100,,48,,228"; "3100,100,,108,,288"; "3100,100,,165,,345"]);
  ("CEJ5", ["4500,100"]);
  ("CEJ6", ["4492,75,,91,,271"]);
  ("CEK6", ["2950,75"]);
  ("CEL3", ["2400,50"]);
  ("CEL4", ["1800,100,,39,,219"; "3535,75,,134,,314"; "1418,60,,169,,349"]);
  ("CEL5", ["3300,75,,88,,268"]);
  ("CEL6", ["2900,75"]);
  ("CEM4", ["3025,100,3015,62,2992,242"; "3025,100,3015,118,3007,298"; "3025,100,3005,180,2992,360"]);
  ("CEM5", ["4500,100,3473,124,3473,304"]);
  ("CEN2", ["2950,75"]);
  ("CEN3", ["3000,75,,130,,310"]);
  ("CEN4", ["3000,75,,78,,258"; "2950,75,,159,,339"]);
  ("CEN5", ["3000,75,,90,,270"]);
  ("CEN6", ["2950,75"]);
  ("CEP3", ["3500,100,,90,,270"]);
  ("CEP5", ["4500,100"]);
  ("CEP6", ["2952,75"]);
  ("CEQ3", ["4500,100,2419,155,2421,335"]);
  ("CEQ4", ["4363,65,4335,,4335"]);
  ("CEQ5", ["5000,100,,104,,284"]);
  ("CER2", ["3000,75,,148,,328"]);
  ("CER3", ["5066,75,,161,,341"]);
  ("CER4", ["5437,100"]);
  ("CER5", ["2200,100"]);
  ("CES2", ["3000,75"]);
  ("CES3", ["3200,75"; "86,86"]);
  ("CES4", ["3000,75,,118,,298"]);
  ("CET2", ["5000,100"]);
  ("CET4", ["3000,100,,153,,333"]);
  ("CET9", ["2500,60,,124.9,,304.9"]);
  ("CEU2", ["3000,75,,90,,270"]);
  ("CEV2", ["3200,100"]);
  ("CEV3", ["4000,100,,147.7,,327.7"]);
  ("CEV5", ["2950,75"]);
  ("CEV7", ["3000,75,,117,,297"]);
  ("CEW3", ["3500,100,,95,,275"]);
  ("CEW5", ["2953,75"]);
  ("CEX3", ["3876,100,2508,134,2497,314"]);
  ("CEX5", ["2460,100"]);
  ("CEX9", ["4000,75"]);
  ("CEY3", ["3000,75,,74,,254"]);
  ("CEZ3", ["2950,75"]);
  ("CEZ4", ["3000,100,,96,,276"]);
  ("CFA5", ["2400,100"]);
  ("CFB3", ["2600,100"; "2800,100"]);
  ("CFB4", ["3000,75"]);
  ("CFB5", ["2000,100"]);
  ("CFB6", ["4560,100,,102,,282"]);
  ("CFB7", ["5000,100"]);
  ("CFC6", ["2500,45"]);
  ("CFC7", ["2950,75"]);
  ("CFD4", ["3000,75,,66,,246"]);
  ("CFD5", ["2940,75"]);
  ("CFD9", ["2500,60"]);
  ("CFE6", ["2800,100"]);
  ("CFF2", ["2400,100"]);
  ("CFF3", ["2400,100"]);
  ("CFF7", ["3406,120,,51,,231"; "5036,120,2159,128,2160,308"]);
  ("CFF9", ["2000,60"]);
  ("CFG3", ["3000,75,,150,,330"]);
  ("CFG4", ["2950,75"]);
  ("CFG5", ["3360,90"])].

(* ADRpy/data/runways.csv *)
Definition airports_11 : list (string * list string) := [
  ("CFG6", ["6890,148"]);
  ("CFG7", ["2000,100"]);
  ("CFH2", ["100,100"]);
  ("CFH4", ["4885,75,52,126,62,306"]);
  ("CFH8", ["2400,90"]);
  ("CFK2", ["2950,75"]);
  ("CFK3", ["2300,50"]);
  ("CFK4", ["2950,78"]);
  ("CFK6", ["3700,200"; "4400,300"]);
  ("CFL2", ["3500,75,,36,,216"]);
  ("CFL9", ["2500,75"]);
  ("CFM2", ["2700,75"]);
  ("CFM4", ["2953,75"]);
  ("CFM5", ["4425,75"]);
  ("CFM6", ["2400,150"]);
  ("CFM7", ["3000,75"]);
  ("CFN4", ["4400,200"]);
  ("CFN5", ["4400,100"]);
  ("CFN7", ["1968,75,,72,,252"; "4285,75,,157,,337"]);
  ("CFP5", ["2200,70"]);
  ("CFP7", ["7349,82,,127.6,,307.6"]);
  ("CFQ4", ["4000,100"]);
  ("CFQ7", ["3000,50"]);
  ("CFR2", ["2700,50"]);
  ("CFR7", ["2868,,4646,,4646"]);
  ("CFS5", ["3000,75,2044,88,2044,268"]);
  ("CFS6", ["5900,100,,153,,333"]);
  ("CFS7", ["2917,,2913,,2874"]);
  ("CFS8", ["3300,75"]);
  ("CFT2", ["2700,55"]);
  ("CFT5", ["3760,,3000,,3000"]);
  ("CFT8", ["3872,75,2021,90.6,2059,270.6"]);
  ("CFT9", ["4300,50,1242,143,1225,323"]);
  ("CFU3", ["2600,450"]);
  ("CFU4", ["3000,75"]);
  ("CFU8", ["3100,65"]);
  ("CFV2", ["2950,75"]);
  ("CFV3", ["3600,75"]);
  ("CFV6", ["4000,100"]);
  ("CFW2", ["2200,50"]);
  ("CFW4", ["2400,75"]);
  ("CFX2", ["3025,50,,178,,358"]);
  ("CFX3", ["3000,50"]);
  ("CFX4", ["5577,100,1612,90,1577,270"]);
  ("CFX6", ["2100,135"; "2950,75"]);
  ("CFX8", ["1057,38"; "2029,55"]);
  ("CFY2", ["3000,75"]);
  ("CFY4", ["1930,75"; "2450,75"]);
  ("CFY6", ["3825,75"]);
  ("CFZ3", ["1700,65"]);
  ("CFZ5", ["2000,60"]);
  ("CGA", ["10000,2000"]);
  ("CGB2", ["1400,65"; "2700,100"]);
  ("CGC", [""; "3543,98"]);
  ("CGL2", ["3000,100"]);
  ("CGV2", ["1885,70,,74,,254"; "2108,70,,168,,348"]);
  ("CGV4", ["2100,75,,134,,314"]);
  ("CGV6", ["2200,75,,39,,219"; "1900,75,,120,,300"]);
  ("CH-0001", ["82,82"]);
  ("CH-0012", ["1738,98"]);
  ("CHD4", ["2300,60,,77,,257"]);
  ("CHF2", ["2800,90,,58,,238"]);
  ("CHG2", ["2000,100"]);
  ("CHP", ["3650,80,,,,231.6"]);
  ("CJA3", ["3937,75,,106.4,,286.4"; "2300,100,,178.3,,358.3"]);
  ("CJA5", ["3665,75"]);
  ("CJB2", ["2300,130"]);
  ("CJB3", ["3000,75,,150,,330"]);
  ("CJB5", ["1525,40"; "2700,80"]);
  ("CJB6", ["2500,65"]);
  ("CJB8", ["3000,75,,91,,271"]);
  ("CJC2", ["2100,60"; "1900,35"]);
  ("CJC3", ["3400,65"]);
  ("CJC4", ["2400,75"]);
  ("CJC5", ["3340,40,,30.3,,210.3"; "3000,75,3020,134,3028,314"]);
  ("CJC6", ["3650,120"]);
  ("CJC8", ["2220,70"]);
  ("CJD3", ["2660,75"; "1800,75"]);
  ("CJD5", ["3000,75,,108,,288"]);
  ("CJE2", ["3000,100"]);
  ("CJE3", ["3000,75,1922,72.3,1934,252.3"; "4000,75,1925,132.4,1926,312.4"]);
  ("CJE4", ["3510,75"]);
  ("CJE5", ["2600,180"]);
  ("CJE6", ["2600,75"]);
  ("CJE7", ["2500,90"]);
  ("CJF3", ["3900,75"]);
  ("CJF5", ["4000,60"]);
  ("CJF8", ["2500,75"]);
  ("CJG2", ["2500,60"]);
  ("CJH2", ["2525,90"]);
  ("CJH3", ["2732,130"]);
  ("CJH4", ["2930,70"]);
  ("CJH8", ["2140,70"]);
  ("CJJ", ["2949,50,1279,154,1265,334"]);
  ("CJJ2", ["2650,100"]);
  ("CJJ4", ["3980,75,1672,90,1684,270"; "2218,100,,178,,358"]);
  ("CJJ5", ["2400,75"]);
  ("CJJ8", ["3000,75,,123,,303"]);
  ("CJK2", ["3600,60"]);
  ("CJK3", ["3150,75"; ",,1436,,1416"]);
  ("CJK4", ["3000,75,,88,,268"]);
  ("CJK5", ["2175,30"; "2650,40"]);
  ("CJK9", ["2525,150"]);
  ("CJL2", ["6000,100,1362,,1362"]);
  ("CJL4", ["3000,75,1501,,1480"]);
  ("CJL5", ["3000,180"; "2500,200"]);
  ("CJL6", ["2000,80,,90,,270"; "3248,75,,180,,360"]);
  ("CJL8", ["6150,,1131,,1121"]);
  ("CJL9", ["2625,90"]);
  ("CJM2", ["2550,100"]);
  ("CJM4", ["2500,75"]);
  ("CJM5", ["3625,60,,89,,269"]);
  ("CJM6", ["2400,100"]);
  ("CJN2", ["2500,75"]);
  ("CJN4", ["2950,150"; "2850,150"]);
  ("CJN7", ["2625,60"]);
  ("CJP2", ["2550,125"; "1600,120"]);
  ("CJP6", ["2870,65"]);
  ("CJP7", ["4250,100"]);
  ("CJP9", ["3320,88"]);
  ("CJQ2", ["3000,65"]);
  ("CJQ3", ["3150,75,2074,112,2070,292"]);
  ("CJQ4", ["3100,75,,73,,253"; "1565,75,,185,,5"]);
  ("CJQ5", ["2900,80"]);
  ("CJQ6", ["3700,120,,25,,205"]);
  ("CJQ9", ["3450,80"]);
  ("CJR2", ["3000,75,,122,,302"]);
  ("CJR3", ["3270,50"; "2798,65"]);
  ("CJR4", ["3000,75,,122,,302"; "1950,50,,180.4,,0.4"]);
  ("CJR5", ["2050,75"; "2695,95"]);
  ("CJR7", ["3400,150"]);
  ("CJR8", ["2600,50"]);
  ("CJR9", ["3050,65"]);
  ("CJS2", ["4625,50"]);
  ("CJS3", ["5280,120,1112,,1112"]);
  ("CJS4", ["2953,75"]);
  ("CJS5", ["3200,75"]);
  ("CJS7", ["1960,125"]);
  ("CJT2", ["2575,110"]);
  ("CJT3", ["3950,110"]);
  ("CJT4", ["2950,85"]);
  ("CJT5", ["2000,40"; "2250,65"]);
  ("CJT8", ["3000,70"]);
  ("CJT9", ["2400,50"; "3400,75"]);
  ("CJU3", ["2400,60"]);
  ("CJU4", ["2500,75"; "1840,75"]);
  ("CJU5", ["2750,75"]);
  ("CJU6", ["2500,45"; "3250,100"]);
  ("CJU7", ["2540,60"]);
  ("CJV2", ["2600,75"]);
  ("CJV4", ["2500,75"]);
  ("CJV5", ["3510,75,,50.8,,230.8"]);
  ("CJV7", ["3500,100"]);
  ("CJV8", ["3000,75"]);
  ("CJV9", ["2165,75"; "2600,75"]);
  ("CJW2", ["2650,75"]);
  ("CJW3", ["2400,200"]);
  ("CJW4", [",,1237,,1241"; "2850,75"]);
  ("CJW5", ["1900,75,,148,,328"; "3400,75,,174.4,,354.4"]);
  ("CJW7", ["5100,100,1562,,1562"]);
  ("CJX", ["1997,60,,148,,327"]);
  ("CJX4", ["2575,75"]);
  ("CJX5", ["2200,80,,87.5,,267.5"; "2900,100,,149.2,,329.2"]);
  ("CJY3", ["2200,160,,90,,270"; "3000,75,1516,143,1514,323"; "2100,200,,180,,360"]);
  ("CJY4", ["3000,75,1001,,995"]);
  ("CJY5", ["2950,100"]);
  ("CJZ2", ["1950,75"; "2800,90"; "2050,75"]);
  ("CJZ3", ["3000,75,1495,90,1495,270"]);
  ("CJZ4", ["2430,120"]);
  ("CJZ5", ["2050,115"]);
  ("CKA4", ["2875,90"]);
  ("CKA8", ["3000,90"]);
  ("CKA9", ["2125,90"]);
  ("CKB2", ["3000,75"]);
  ("CKB6", ["3600,100,696,,712"]);
  ("CKB7", ["3510,75,,140,,320"]);
  ("CKB8", ["2575,100"]);
  ("CKC6", ["4400,90"]);
  ("CKC7", ["2400,150"]);
  ("CKC8", ["2500,100"]);
  ("CKC9", ["2600,100"]);
  ("CKD2", ["2550,60"; "2540,90"]);
  ("CKD5", ["3000,75,,105,,285"]);
  ("CKD7", ["3500,70"]);
  ("CKD9", ["3500,100,1355,,1341"]);
  ("CKE2", ["2500,100"]);
  ("CKE8", ["1065,60,,37,,217"; "3000,75,,126,,306"]);
  ("CKF2", ["2475,75"]);
  ("CKF4", ["2950,100"]);
  ("CKF6", ["2350,60"; "2400,50"]);
  ("CKF9", ["3020,70"]);
  ("CKG2", ["3000,100"]);
  ("CKG5", ["2570,100"]);
  ("CKG8", ["2120,130"]);
  ("CKH2", ["3950,100,,139,,319"]);
  ("CKH3", ["3000,100"]);
  ("CKH7", ["2500,80"]);
  ("CKH8", ["3700,30"]);
  ("CKJ2", ["2050,40"]);
  ("CKJ4", ["2700,100"]);
  ("CKJ7", ["1900,125"; "3000,275"; "2550,200"]);
  ("CKJ8", ["4360,90"]);
  ("CKJ9", ["2000,75"]);
  ("CKK2", ["3500,75"]);
  ("CKK4", ["2215,50"; "2430,75"]);
  ("CKK5", ["2500,150"; "2300,200"]);
  ("CKK7", ["3100,100"; ",,878,,888"]);
  ("CKL2", ["3000,90"]);
  ("CKL3", ["3500,100,814,,819"]);
  ("CKL5", ["3289,75,,108,,288"]);
  ("CKL6", ["2200,40"]);
  ("CKL9", ["2565,80"]);
  ("CKM2", ["3300,115"]);
  ("CKM4", ["3150,50"]);
  ("CKM6", ["2600,75"]);
  ("CKM8", ["4850,100"]);
  ("CKN5", ["2900,100"]);
  ("CKN8", ["2200,50"]);
  ("CKP2", ["3000,50"]);
  ("CKQ2", ["3000,200"]);
  ("CKQ3", ["3500,100"]);
  ("CKQ5", ["3012,75,,90,,270"]);
  ("CKQ6", ["3000,75,,96,,276"]);
  ("CKQ7", ["2800,75"; "2650,75"]);
  ("CKQ8", ["5280,100"]);
  ("CKQ9", ["3950,100"]);
  ("CKR3", ["2600,125"]);
  ("CKR4", ["2680,75"; "2650,84"]);
  ("CKR5", ["2660,65"]);
  ("CKR7", ["2665,70"]);
  ("CKR9", ["3077,100"]);
  ("CKS3", ["2500,75"]);
  ("CKS6", ["1500,40"; "2700,55"]);
  ("CKS7", ["2500,75"]);
  ("CKS8", ["3185,40"]);
  ("CKS9", ["2400,70"]);
  ("CKT5", ["2050,75"; "1870,75"]);
  ("CKT7", ["2700,100"]);
  ("CKU", ["1800,60"; "8000,3000,5,,5,5"]);
  ("CKU2", ["2600,90"; "1750,65"]);
  ("CKU4", ["4000,150"]);
  ("CKU5", ["2300,75"]);
  ("CKU6", ["2200,100"]);
  ("CKU7", ["2600,60"; "3300,75"; "2500,75"]);
  ("CKV6", ["2450,75"]);
  ("CKV7", ["2600,135"]);
  ("CKW6", ["1770,50"]);
  ("CKX", ["2500,60"]);
  ("CKX2", ["2500,100"]);
  ("CKX3", ["2375,75"]);
  ("CKX4", ["1600,90"]);
  ("CKX5", ["2150,75"]);
  ("CKX8", ["3300,65"]);
  ("CKY2", ["2500,65"]);
  ("CKY6", ["2425,100"; "1680,100"]);
  ("CKZ2", ["2400,100"]);
  ("CKZ3", ["3800,70"]);
  ("CKZ6", ["2950,75"]);
  ("CKZ7", ["2900,75"; "1540,75"]);
  ("CL-SC49", ["4472,135,,87.1,,267.1"]);
  ("CL00", ["55,55,,,,316.4"]);
  ("CL01", ["2300,60"]);
  ("CL02", ["44,44"; "44,44"]);
  ("CL03", ["74,70"]);
  ("CL04", ["1950,20,,,,315"]);
  ("CL05", ["40,40,,,,225"]);
  ("CL06", ["42,42"]);
  ("CL07", ["80,80"]);
  ("CL08", ["51,28"]);
  ("CL09", ["80,80,,,,323.9"]);
  ("CL10", ["65,65,,,,227.6"]);
  ("CL11", ["1680,20"]);
  ("CL12", ["70,70,,,,182.5"]);
  ("CL13", ["1462,50,,,,272.4"]);
  ("CL14", ["50,50"; "40,40,,,,323.9"]);
  ("CL15", ["20,20,,,,360"]);
  ("CL16", ["100,100,,,,325.2"]);
  ("CL17", ["40,40"]);
  ("CL18", ["3800,55"]);
  ("CL19", ["65,65"]);
  ("CL20", ["30,30"]);
  ("CL21", ["60,60,,,,232"]);
  ("CL22", ["50,50"]);
  ("CL23", ["2600,30,,,,238.2"]);
  ("CL24", ["2000,64"]);
  ("CL25", ["2350,40"]);
  ("CL26", ["52,52"]);
  ("CL27", ["40,40"]);
  ("CL28", ["15,15"]);
  ("CL29", ["3000,30"]);
  ("CL30", ["100,100,,,,307.2"]);
  ("CL31", ["74,66"]);
  ("CL32", ["65,53"]);
  ("CL33", ["2700,50"]);
  ("CL34", ["40,40,,,,332.2"]);
  ("CL35", ["3500,70,,93.7,,12.6"]);
  ("CL37", ["75,66"]);
  ("CL38", ["61,57,,,,358.8"]);
  ("CL39", ["100,100,,,,358.8"]);
  ("CL40", ["20,20,,,,209.4"]);
  ("CL41", ["68,68,,,,339.6"]);
  ("CL42", ["80,80,,,,202"]);
  ("CL43", ["50,50,,,,302"]);
  ("CL44", ["45,45"]);
  ("CL45", ["100,100"]);
  ("CL46", ["3100,40,,91.9,,261.9"]);
  ("CL47", ["50,40,,,,270"]);
  ("CL48", ["220,80"]);
  ("CL49", ["65,62"]);
  ("CL50", ["50,50"]);
  ("CL51", ["68,57"]);
  ("CL52", ["95,95,,,,316.7"]);
  ("CL53", ["100,100,,,,360"]);
  ("CL54", ["65,65"]);
  ("CL55", ["80,80,,,,225"]);
  ("CL56", ["2156,30,,,172,312"]);
  ("CL57", ["81,81"]);
  ("CL58", ["65,65,,,,359"]);
  ("CL59", ["20,20"]);
  ("CL60", ["40,40"]);
  ("CL61", ["66,66"]);
  ("CL62", ["50,50,,,,347.3"]);
  ("CL63", ["60,60,,,,359.8"]);
  ("CL64", ["50,50"]);
  ("CL65", ["100,100,,,,258.3"]);
  ("CL66", ["20,20"]);
  ("CL67", ["66,60,,,,255"]);
  ("CL68", ["65,60,,,,269.9"]);
  ("CL69", ["60,60,,,,352"]);
  ("CL70", ["40,40"]);
  ("CL71", ["120,60"]);
  ("CL72", ["60,20"]);
  ("CL73", ["65,65,,,,314"]);
  ("CL74", ["2600,100,,,,215.8"]);
  ("CL75", ["32,32,,,,356.6"]);
  ("CL76", ["100,100,,,,227"]);
  ("CL77", ["2200,50"]);
  ("CL78", ["30,30"]);
  ("CL79", ["20,20"]);
  ("CL80", ["52,48"]);
  ("CL81", ["100,100,,,,1"]);
  ("CL82", ["50,50,,,,0.1"]);
  ("CL83", ["80,50,,,,230"]);
  ("CL84", ["2617,40,,,,230"]);
  ("CL85", ["75,83,,,,269"]);
  ("CL86", ["40,40"]);
  ("CL87", ["107,105,306,,,313"]);
  ("CL88", ["2500,50"]);
  ("CL89", ["50,50"]);
  ("CL90", ["1600,25,,,,273.3"]);
  ("CL91", ["60,60,,,,268.3"]);
  ("CL92", ["35,35,,,,320.7"]);
  ("CL93", ["75,75,,,,13.8"]);
  ("CL94", ["65,65,,,,270"]);
  ("CL95", ["20,20"]);
  ("CL96", ["40,40"]);
  ("CL97", ["40,40,,,,353.7"]);
  ("CL98", ["60,60,,,,192"]);
  ("CL99", ["50,50"]);
  ("CLA4", ["1960,60"]);
  ("cla5", ["2000,50"]);
  ("CLA6", ["2400,120,,55,,235"]);
  ("CLB2", ["1980,75,,56,,236"]);
  ("CLC2", ["2000,130"]);
  ("CLF", ["2500,20"]);
  ("CLG3", ["3210,75"]);
  ("CLK3", ["3300,70"]);
  ("CLM2", ["3832,50,576,3,576,183"]);
  ("clv2", ["1950,50"]);
  ("CLW3", ["2200,75,,80,,260"]);
  ("CMA2", ["2000,100,,53,,233"]);
  ("cmb2", ["4529,121,,121,,301"]);
  ("CMB7", ["3308,60"]);
  ("CMF2", ["2000,60,,92,,272"]);
  ("CMF3", ["2600,129"]);
  ("CMN4", ["4495,100,,169,,349"]);
  ("CMN5", ["4004,100"]);
  ("CMN6", ["2336,75,,160,,340"]);
  ("CMT", ["4000,100,64,86,80,266"]);
  ("CMW3", ["1500,90,,47,,229"]);
  ("CMZ2", ["1100,40,,61,,241"; "1800,60,,151,,331"]);
  ("CN-0023", ["2700,106,,123,,237"]);
  ("CN-0036", ["8202,148,19,39,10,219"]);
  ("CN-0080", ["9186,164,65,105,66,285"]);
  ("CN01", ["50,50,,,,225"]);
  ("CN02", ["54,54,,,,299"]);
  ("CN06", ["80,80"]);
  ("CN10", ["63,63,,,,315"]);
  ("CN11", ["40,40,,,,360"]);
  ("CN12", ["2500,40"]);
  ("CN13", ["2260,90,6,,14,360"]);
  ("CN14", ["50,50,,,,267"]);
  ("CN15", ["2180,50,,,,1"]);
  ("CN17", ["80,80,,,,270"]);
  ("CN19", ["1900,75,,,,315"]);
  ("CN20", ["15000,4000"]);
  ("CN22", ["80,50"]);
  ("CN23", ["2640,100"]);
  ("CN25", ["50,50"]);
  ("CN26", ["50,50,,,,265.7"]);
  ("CN27", ["80,80,845,,,322"]);
  ("CN28", ["65,65,,,,242.1"]);
  ("CN29", ["1700,40"]);
  ("CN32", ["55,55,,,,223"]);
  ("CN33", ["40,40,238,,,308"]);
  ("CN34", ["95,95,,,,360"]);
  ("CN35", ["40,40"]);
  ("CN36", ["60,60,2900,,,222"]);
  ("CN37", ["3988,100,,,,307"; "3060,100,,,,223"]);
  ("CN38", ["1385,50"]);
  ("CN39", ["40,40"]);
  ("CN42", ["3400,80"]);
  ("CN43", ["65,65"]);
  ("CN44", ["1800,100"]);
  ("CN45", ["100,100,,,,213"]);
  ("CN46", ["25,25,,,,310.5"]);
  ("CN47", ["40,40,,,,213.6"]);
  ("CN51", ["54,53,,,,290.2"; "54,53,,,,270.9"; "44,44,,,,0.9"]);
  ("CN53", ["54,54"]);
  ("CN95", ["2837,50,-24,,-25"]);
  ("CN98", ["2500,50"]);
  ("CN99", ["2873,34,64,,61"]);
  ("CNA3", ["2100,40,961,58,951,238"]);
  ("CNA4", ["2500,100"; "2000,100"]);
  ("CNA8", ["2000,100"; "2460,80"]);
  ("CNA9", ["2400,75,,47,,227"; "1200,75"]);
  ("CNC3", ["2500,75,926,71,915,251"; "3500,75,935,141,909,321"]);
  ("CNC4", ["2100,40"; "2500,40"]);
  ("CND3", ["86,86,,70,,190"]);
  ("CND4", ["2500,60"]);
  ("CNE3", ["3500,100,800,,794"]);
  ("CNE4", ["2555,100,994,59.2,1006,239.2"; "3999,100,995,129,1002,309"; "2930,100,1002,168,996,348"]);
  ("CNE9", ["1935,70"]);
  ("CNF3", ["2550,100"; "2650,100"; "2550,100"]);
  ("CNF4", ["2642,75,882,9,882,189"; "3500,75,882,119,882,299"]);
  ("CNF9", ["4400,60"]);
  ("CNJ3", ["2350,100"]);
  ("CNJ4", ["1545,100"; "2010,150"]);
  ("CNK4", ["4000,75,818,158.1,831,338.1"]);
  ("CNK9", ["30,30,,151,,331"]);
  ("CNL3", ["4500,90,393,30,393,210"; "2207,75,398,146,396,326"]);
  ("CNL4", ["3800,175"]);
  ("CNL8", ["1985,60"]);
  ("CNM2", ["1800,50"]);
  ("CNM3", ["86,86"]);
  ("CNM5", ["3520,100,866,,862"]);
  ("CNN3", ["2000,100"]);
  ("CNN4", ["1600,40"]);
  ("CNN8", ["2530,100"; "2530,100"; "2530,100"]);
  ("CNP3", ["2600,150,,27.4,,207.4"; "3955,75,353,85.6,345,265.6"; "2500,50,348,146.3,349,326.3"]);
  ("CNP6", ["1800,50"]);
  ("CNP7", ["2000,75"]);
  ("CNP8", ["1800,80"; "2230,80"]);
  ("CNQ3", ["3500,100,582,40.1,585,220.1"; "2570,50,584,139.6,579,319.6"]);
  ("CNQ4", ["2348,75,,5,,185"; "5502,100,894,66,878,246"; "2258,75,,131,,311"]);
  ("CNR4", ["3180,60,,107.3,,287.3"]);
  ("CNR6", ["2240,95"]);
  ("CNR9", ["1850,100"]);
  ("CNS3", ["86,86,,168,,258"]);
  ("CNS4", ["2020,100"]);
  ("CNS6", ["2050,75"]);
  ("CNS8", ["2800,75"]);
  ("CNT3", ["3500,100"]);
  ("CNT6", ["2600,75"]);
  ("CNT7", ["2580,150"; "2550,150"; "2520,150"]);
  ("CNU4", ["3280,150"]);
  ("CNU8", ["2013,50"]);
  ("CNV3", ["86,86,,268,,268"]);
  ("CNV4", ["1775,485"]);
  ("CNV8", ["3014,100,,70,,250"; "3936,100,,118,,298"; "1900,80,,161,,341"]);
  ("CNV9", ["3000,75"]);
  ("CNW3", ["2200,40"]);
  ("CNX3", ["3170,75"]);
  ("CNX8", ["2810,130"]);
  ("CNY3", ["2450,75,727,8,713,188"; "5000,100,718,120,730,300"]);
  ("CNY4", ["2300,50"]);
  ("CNZ4", ["2400,140"; "1700,200"]);
  ("CNZ8", ["2870,75,637,31,630,211"]);
  ("CO-0054", ["8268,66,25,61,21,241"]);
  ("CO00", ["2500,75,,90,,270.9"; "3900,90,4945,155,,325"; "2620,20,,180,,210.5"]);
  ("CO01", ["67,61,,,,317.6"]);
  ("CO02", ["3500,50"]);
  ("CO03", ["2500,50"]);
  ("CO04", ["67,67"]);
  ("CO05", ["120,60"]);
  ("CO06", ["4420,40"]);
  ("CO07", ["2000,200"]);
  ("CO09", ["2300,35"]);
  ("CO10", ["3000,75"]);
  ("CO11", ["2000,20"]);
  ("CO12", ["3950,50,5055,131.7,,4"]);
  ("CO15", ["1700,50,,100.5,,227"; "3800,36,,179.7,7040,359"]);
  ("CO16", ["85,85,,,,359"]);
  ("CO17", ["1500,65"; "2500,65"]);
  ("CO18", ["3300,80"; "4400,80"]);
  ("CO19", ["3000,40"]);
  ("CO20", ["2400,50,,,,231"]);
  ("CO21", ["20,20,,,,274"]);
  ("CO22", ["4000,75"; "1800,75"]);
  ("CO23", ["90,90,,,,218"]);
  ("CO24", ["40,40"]);
  ("CO25", ["3700,48"]);
  ("CO26", ["200,80,,,,246.8"]);
  ("CO27", ["2200,40"]);
  ("CO28", ["100,100,,,,278"]);
  ("CO30", ["40,40,5289,,,345"]);
  ("CO31", ["40,40"]);
  ("CO32", ["68,45,,,,308.6"]);
  ("CO34", ["32,28"]);
  ("CO35", ["42,40,5212,,,360"; "42,4"]);
  ("CO36", ["30,30"]);
  ("CO37", ["48,48,,,,308"]);
  ("CO38", ["3000,80"]);
  ("CO39", ["50,50,,,,206"]);
  ("CO40", ["60,60"]);
  ("CO41", ["60,60,5340,,,250.5"]);
  ("CO42", ["2300,80"; "2000,80"]);
  ("CO43", ["3400,90"]);
  ("CO44", ["75,75,,,,344"]);
  ("CO45", ["20,20,,,,269"]);
  ("CO46", ["100,100,,,,225.4"]);
  ("CO47", ["2500,50"]);
  ("CO48", ["2640,50"]);
  ("CO49", ["3000,75"]);
  ("CO50", ["50,50,,,,195"]);
  ("CO51", ["100,100,,,,292.5"]);
  ("CO52", ["2400,30"]);
  ("CO53", ["2700,55"]);
  ("CO54", ["4000,60"]);
  ("CO55", ["4000,60,,170.5,5160,359.2"]);
  ("CO56", ["4280,40"]);
  ("CO57", ["40,40,,,,298"]);
  ("CO58", ["2800,50"]);
  ("CO59", ["1500,50"]);
  ("CO60", ["2500,75"]);
  ("CO61", ["2800,45"; "5480,50,,,,227"]);
  ("CO62", ["150,100,,,,315"]);
  ("CO63", ["36,36"]);
  ("CO64", ["45,45,,,,360"]);
  ("CO65", ["4200,30"]);
  ("CO66", ["95,90,,,,229.4"]);
  ("CO68", ["63,63"]);
  ("CO71", ["57,57"]);
  ("CO72", ["18,18,,,,352.9"]);
  ("CO73", ["3500,100"]);
  ("CO74", ["40,40,,,,350.5"]);
  ("CO75", ["50,50,,,,270"]);
  ("CO76", ["3000,100"]);
  ("CO78", ["125,125,,,,225"]);
  ("CO79", ["150,150,,,,315.6"]);
  ("CO80", ["3240,40,4424,47.2,4404,360"; "2850,50,4394,129.1,4428,196.6"]);
  ("CO82", ["1200,20"; "3000,30"]);
  ("CO83", ["30,30,,,,355"]);
  ("CO84", ["4250,65"]);
  ("CO85", ["20,20,,,,360"]);
  ("CO86", ["1800,15"]);
  ("CO87", ["17,17,,,,210.5"]);
  ("CO88", ["74,74"]);
  ("CO89", ["2600,50"]);
  ("CO90", ["3500,75,,180,,248.5"]);
  ("CO93", ["5700,75"]);
  ("CO95", ["1500,30"; "4000,60"]);
  ("CO96", ["2000,75"]);
  ("CO97", ["2837,150"]);
  ("CO98", ["1800,50"; "1300,50"]);
  ("CO99", ["50,50,,,,352.5"]);
  ("COB4", ["2730,85,,134,,314"]);
  ("COL2", ["1918,80,,76,,256"]);
  ("CPA4", ["2200,80"]);
  ("CPB5", ["1680,65"]);
  ("CPB9", ["2460,100"]);
  ("CPC3", ["1750,250"; "1900,330"; "2650,200"; "2800,300"; "2550,170"]);
  ("CPC6", ["2450,60"]);
  ("CPC7", ["3500,5000,190,356,190,176"]);
  ("CPD2", ["2805,80"]);
  ("CPD4", ["2500,70"; "1700,120"]);
  ("CPD8", ["1400,50"; "1400,50"; "3200,80"]);
  ("CPE3", ["2000,85"]);
  ("CPE4", ["3745,45,,160.5,,340.5"]);
  ("CPE5", ["2200,75"]);
  ("CPE6", ["3200,150"; "2800,150"]);
  ("CPE7", ["2000,125"; "2550,150"]);
  ("CPF2", ["2850,50,591,102,591,282"; "4415,75,585,172.7,585,352.7"]);
  ("CPF4", ["1500,50"; "2000,75"]);
  ("CPF6", ["2850,25,,27,,207"; "1815,185"]);
  ("CPF7", ["1670,37"]);
  ("CPG4", ["1800,90"]);
  ("CPG5", ["2600,80"]);
  ("CPG6", ["3150,75"]);
  ("CPG7", ["2300,75"]);
  ("CPH2", ["2700,150"]);
  ("CPH9", ["2400,70"]);
  ("CPJ5", ["2350,125"]);
  ("CPK2", ["2000,75"]);
  ("CPK9", ["2400,60,,44,,224"]);
  ("CPL3", ["1800,100"]);
  ("CPL4", ["2340,150"]);
  ("CPL5", ["3100,60,,73,,253"]);
  ("CPM5", ["1800,100"; "3085,80"]);
  ("CPM7", ["2000,60"]);
  ("CPN5", ["2000,90"]);
  ("CPN8", ["1986,125,,78,,258"; "2090,80,,166,,346"]);
  ("CPP3", ["2200,60"]);
  ("CPP6", ["1350,100"; "2800,35"]);
  ("CPQ4", ["1700,50"]);
  ("CPR2", ["2260,50"]);
  ("CPR3", ["3000,75"; "2200,75"]);
  ("CPR5", ["3100,100"]);
  ("CPR7", ["4000,75,1056,121,1062,301"]);
  ("CPR9", ["2170,80,,30,,210"; "1584,80,,134,,314"]);
  ("CPS2", ["2800,50"]);
  ("CPS4", ["3100,100"]);
  ("CPS5", ["2400,50"]);
  ("CPS7", ["3000,80"]);
  ("CPT2", ["3500,75,,50,,230"]);
  ("CPT3", ["2445,200"; "1730,200"; "2600,200"]);
  ("CPU3", ["2200,80"]);
  ("CPU6", ["3000,150,,48.1,,228.1"; "4270,150,,77.5,,257.5"; "2575,150,,137,,317"]);
  ("CPV2", ["2200,65"]);
  ("CPV3", ["2475,200"]);
  ("CPV4", ["1900,80"; "1400,80"]);
  ("CPV7", ["3500,100,1095,,1081"]);
  ("CPV8", ["3500,100"]);
  ("CPV9", ["1591,30"]);
  ("CPY4", ["2500,50"]);
  ("CPY9", ["1900,70,,126,,306"]);
  ("CPZ3", ["4800,60"; "5000,90,360,48,360,228"; "3026,150,,88.1,,268.1"; "3000,150,,143.2,,323.2"]);
  ("CRB2", ["2000,75"]);
  ("CRB5", ["5526,102,94"]);
  ("CRE3", ["1800,50"; "1500,50"]);
  ("CRF5", ["2999,66"]);
  ("CRJ2", ["2100,30,,96,,276"]);
  ("CRL2", ["3000,60"]);
  ("CRL4", ["4920,,2215,,2233"]);
  ("CRML", ["2250,50"]);
  ("CRP2", ["3000,70"]);
  ("crt2", ["2300,80"]);
  ("CSA2", ["1800,50"]);
  ("CSB2", ["1500,40,,88,,268"]);
  ("CSB3", ["2200,50"]);
  ("CSB5", ["2750,150"]);
  ("CSC3", ["4000,75,365,43.5,353,223.5"]);
  ("CSC5", ["2400,85"]);
  ("CSC9", ["1190,35"; "2260,35"]);
  ("CSD3", ["2800,50"]);
  ("CSD4", ["4000,75,815,65.2,809,245.2"]);
  ("CSE3", ["2750,100"]);
  ("CSE4", ["3989,100,221,98.7,210,278.7"]);
  ("CSE5", ["3000,75,,62,,242"]);
  ("CSF3", ["4025,75,1987,,1979"]);
  ("CSG3", ["3250,75,,133.9,,313.9"]);
  ("CSG5", ["3100,30,,2.5,,182.5"; "2550,50,,42.5,,222.5"]);
  ("CSH2", ["1670,75"]);
  ("CSH4", ["3712,100,960,136.5,946,316.5"]);
  ("CSH5", ["3000,75"]);
  ("CSJ2", ["3000,100"]);
  ("CSJ4", ["3000,75,,72.4,,252.4"]);
  ("CSJ5", ["2300,50"]);
  ("CSK3", ["3000,75,,95.7,,275.7"]);
  ("CSK4", ["2800,50"]);
  ("CSK5", ["2400,75"]);
  ("CSL", ["2430,75,,,,325"]);
  ("CSL3", ["3000,40,,13.8,,193.8"; "2000,40,427,143.9,427,323.9"]);
  ("CSL5", ["2000,50"]);
  ("CSL7", ["2960,150"; "2350,150"]);
  ("CSL8", ["80,80,,161,,230"; "80,80,,350,,36"]);
  ("CSL9", ["2900,75"]);
  ("CSM3", ["4500,100,1407,43.7,1384,223.7"]);
  ("CSM4", ["2100,40"]);
  ("CSM5", ["3000,75"]);
  ("CSN5", ["2000,60"]);
  ("CSN7", ["2500,40"]);
  ("CSP", ["50,50,84,,,9"]);
  ("CSP3", ["2345,65,,81,,261"]);
  ("CSP5", ["2000,50"]);
  ("CSP6", ["2600,60"]);
  ("CSQ2", ["3238,75"]);
  ("CSQ3", ["3750,40,,33,,213"]);
  ("CSR", ["5000,150,245,,286,198"]);
  ("CSR3", ["4000,75,470,44.8,486,224.8"]);
  ("CSR8", ["4700,100,1048,163.3,1045,343.3"]);
  ("CSS3", ["3000,75,,55.6,,235.6"]);
  ("CSS4", ["1950,100"]);
  ("CST3", ["2825,50"; "2275,65"]);
  ("CST7", ["2600,100"]);
  ("CSU2", ["3792,100,43,,43"]);
  ("CSU3", ["3800,75,,4.3,,184.3"]);
  ("CSU4", ["1800,100"]);
  ("CSU5", ["2500,75"]);
  ("csv8", ["2400,30"]);
  ("CSW5", ["1000,100"; "800,100"]);
  ("CSX3", ["2600,26"]);
  ("CSX5", ["1900,50"]);
  ("CSX7", ["3100,90"]);
  ("CSY3", ["4000,75,,13.1,,193.1"]);
  ("CSY4", ["2400,70"]);
  ("CSZ3", ["3300,150"]);
  ("CSZ4", ["1800,75"]);
  ("CT00", ["200,200,,,,316.5"]);
  ("CT01", ["1400,150"]);
  ("CT02", ["45,45,,,,313"]);
  ("CT03", ["45,45,,,,360"]);
  ("CT04", ["1800,100"]);
  ("CT05", ["2600,200,,,,2"]);
  ("CT06", ["80,60,,,,346"]);
  ("CT07", ["1500,75"]);
  ("CT08", ["1900,60"]);
  ("CT09", ["1360,120"]);
  ("CT10", ["60,30"]);
  ("CT11", ["1250,200"]);
  ("CT12", ["40,40,,,,262"]);
  ("CT13", ["1700,90"]);
  ("CT14", ["2400,100,,,,222"]);
  ("CT15", ["1800,180"]);
  ("CT16", ["5000,200"]);
  ("CT17", ["93,93,,,,225"]);
  ("CT18", ["500,200,,,,360"]);
  ("CT19", ["1800,100"]);
  ("CT20", ["1600,200"]);
  ("CT21", ["50,50"]);
  ("CT23", ["80,80,,,,360"]);
  ("CT24", ["3100,75"]);
  ("CT25", ["30,30,,,,360"]);
  ("CT27", ["40,40,,,,220.3"]);
  ("CT28", ["100,100,,,,0.5"]);
  ("CT29", ["2500,45,,,,315"]);
  ("CT31", ["2600,60"]);
  ("CT32", ["2000,200"]);
  ("CT34", ["60,60,,,,204"]);
  ("CT35", ["60,60,,,,270"]);
  ("CT36", ["2150,50"]);
  ("CT37", ["750,150,,,,360"; "600,150,,,,305"]);
  ("CT38", ["43,43,,,,305.4"]);
  ("CT39", ["1400,50"]);
  ("CT40", ["60,60,,,,271"]);
  ("CT41", ["150,90,,,,265.9"]);
  ("CT42", ["1600,40"]);
  ("CT43", ["1725,150"]);
  ("CT44", ["2000,100"]);
  ("CT45", ["60,60,,,,258.4"]);
  ("CT46", ["100,100,,,,0.1"]);
  ("CT47", ["60,60"]);
  ("CT48", ["1800,30"]);
  ("CT49", ["75,75,,,,305.8"]);
  ("CT50", ["30,30"]);
  ("CT51", ["2000,100"]);
  ("CT52", ["2000,200"]);
  ("CT53", ["20,20"]);
  ("CT54", ["100,100,,,,281"]);
  ("CT55", ["100,100,,,,6"]);
  ("CT56", ["40,40"]);
  ("CT57", ["100,75,,,,245"]);
  ("CT58", ["100,100,,,,1.4"]);
  ("CT59", ["2700,200"]);
  ("CT60", ["20,16,,,,296"]);
  ("CT62", ["30,30,,,,208"]);
  ("CT65", ["100,90,,,,224"]);
  ("CT66", ["1400,50"]);
  ("CT68", ["100,100,,,,315"]);
  ("CT69", ["50,25"]);
  ("CT70", ["130,100,,,,360"]);
  ("CT71", ["80,80,,,,0"]);
  ("CT73", ["50,50,,,,218.1"]);
  ("CT74", ["1300,200"]);
  ("CT75", ["55,55"]);
  ("CT76", ["325,140,,,,233"]);
  ("CT77", ["100,100,,,,306"]);
  ("CT78", ["2900,100"]);
  ("CT79", ["40,40"]);
  ("CT80", ["1700,50"]);
  ("CT82", ["4000,2000"]);
  ("CT83", ["80,80,,,,191"]);
  ("CT84", ["50,50,,,,321"]);
  ("CT85", ["2000,50,,,,204"]);
  ("CT86", ["800,600,,,,308"]);
  ("CT87", ["5000,500"]);
  ("CT88", ["110,110"]);
  ("CT89", ["35,35,,,,313.3"]);
  ("CT90", ["32,32"]);
  ("CT91", ["37,37,,,,228.9"]);
  ("CT92", ["18,18,,,,228.9"]);
  ("CT93", ["42,42"]);
  ("CT95", ["64,64"]);
  ("CT96", ["1800,24,,,,359"]);
  ("CT97", ["60,60,,,,231.2"]);
  ("CT98", ["45,45,,,,231.2"]);
  ("CT99", ["60,60,,,,247"]);
  ("CTA3", ["2500,40"]);
  ("CTA4", ["4489,100,772,90,820,270"]);
  ("CTB6", ["1640,85"]);
  ("CTE5", ["2200,150"]);
  ("CTF3", ["3000,75"]);
  ("CTF4", ["1800,70,,40,,220"]);
  ("CTG3", ["4000,100,63,65.2,82,245.2"]);
  ("CTH2", ["1001,75"]);
  ("CTH3", ["1500,50"]);
  ("CTK2", ["4000,100"]);
  ("CTK6", ["1640,85"]);
  ("CTK7", ["3000,100,,168,,348"]);
  ("CTN6", ["3100,70"]);
  ("CTN7", ["1958"]);
  ("CTP9", ["6529,150,1888,,1856"]);
  ("CTQ2", ["2600,50"]);
  ("CTQ4", ["1400,60"]);
  ("CTQ6", ["1750,75"]);
  ("CTR6", ["2000,40"]);
  ("CTT2", ["1600,50"]);
  ("CTT5", ["3938,100,90,93.2,90,273.2"]);
  ("CTU2", ["4900,150,1544,,1550"]);
  ("CTY5", ["2200,65"]);
  ("cvb2", ["5000"]);
  ("CVF2", ["1920,60,,133,,313"]);
  ("CVH", ["3150,100,224,72,222,252"; "6350,100,202,142,230,322"]);
  ("CWC1", ["1320,75"; "1500,75"]);
  ("cwf2", ["1500,50"]);
  ("CXC", ["2850,75,,,,269.9"]);
  ("CYAB", ["3935,98,,128,,308"]);
  ("CYAC", ["3900,100,1339,,1336"]);
  ("CYAD", ["5000,150,775,,747"]);
  ("CYAG", ["2600,75,1120,34.8,1125,214.8"; "4500,100,1123,126,1119,306"]);
  ("CYAH", ["5000,150,993,,1002"]);
  ("CYAL", ["2900,75"]);
  ("CYAM", ["6000,200,612,33.5,630,213.5"; "6000,200,612,107.8,612,287.8"]);
  ("CYAQ", ["3500,100,672,,633"]);
  ("CYAS", ["3521,,339,,403"]);
  ("CYAT", ["3500,100"]);
  ("CYAU", ["3937,75,317,53.9,314,233.9"]);
  ("CYAV", ["2850,75,758,46,760,226"; "3000,75,757,132,760,312"; "3000,75,755,190,758,10"]);
  ("CYAW", ["5692,200,167,84.8,132,264.8"; "8998,200,136,139,119,319"; "3500,112"]);
  ("CYAX", ["3600,75,,185,,5"]);
  ("CYAY", ["4000,100,108,80,88,260"]);
  ("CYAZ", ["4999,150,75,90,79,270"; "4997,100,79,126,76,306"; "5000,100,80,175,79,355"]);
  ("CYBA", ["3000,190"]);
  ("CYBB", ["5000,100,56,49,25,229"]);
  ("CYBC", ["6000,150,70,80.5,66,260.5"]);
  ("CYBD", ["4200,100,,72,,252"]);
  ("CYBE", [",,1027,,1017"; "3930,100,1027,75,1017,255"]);
  ("CYBF", ["4433,75,,90,,270"]);
  ("CYBG", ["10000,150,519,90.6,511,270.6"; "6000,150,520,163.4,522,343.4"]);
  ("CYBK", ["4200,100,59,162,10,342"]);
  ("CYBL", ["5000,150,346,134.3,297,314.3"]);
  ("CYBP", ["2400,50"; "2800,75"]);
  ("CYBQ", ["3200,100"; ",,923,,872"]);
  ("CYBR", ["2795,100,,20.4,,200.4"; "6500,150,1343,90,1332,270"; "3000,60,1337,150,1331,330"]);
  ("CYBT", ["3500,90,1136,,1136"]);
  ("CYBU", ["2930,75"; "2900,115"]);
  ("CYBV", ["2900,75,728,,728"]);
  ("CYBW", ["3423,100,3935,90,3934,270"; "5000,98,3930,181,3940,1"]);
  ("CYBX", ["4500,150,79,27.5,121,207.5"]);
  ("CYCA", ["2500,75,40,,40"]);
  ("CYCB", ["5000,150,89,127.4,61,307.4"]);
  ("CYCC", ["3500,100,171,83.3,168,263.3"]);
  ("CYCD", ["6602,150,75,181,92,1"]);
  ("CYCE", ["5012,100,819,91,824,271"; "4400,150,822,151,824,331"]);
  ("CYCG", ["5300,150,1615,169,1621,349"]);
  ("CYCH", ["5200,150,69,20.3,90,200.3"; "10006,150,108,72,85,252"; "7500,150,106,79,85,259.1"; "5513,150,107,134.4,68,314.4"]);
  ("CYCK", ["5000,75,650,44,650,224"]);
  ("CYCL", ["6000,150,132,105,114,285"]);
  ("CYCN", ["4500,100,840,119.2,861,299.2"]);
  ("CYCO", ["5500,100,39,121,69,301"]);
  ("CYCP", ["5000,60,,31.6,,211.6"]);
  ("CYCQ", ["4484,100,2000,72,2000,252"]);
  ("CYCR", ["3990,95"]);
  ("CYCS", ["3600,,40,,40"]);
  ("CYCT", ["3000,75,,128,,308"]);
  ("CYCW", ["3990,75,31,81.3,28,261.3"]);
  ("CYCY", ["3500,100,87,18,87,198"]);
  ("CYCZ", ["6003,100,2637,170,2658,350"]);
  ("CYD", ["2208"; "2036"]);
  ("CYDA", ["5000,100,1204,49,1215,229"]);
  ("CYDB", ["5000,100,2647,128,2604,308"]);
  ("CYDC", ["3932,75,2298,50,2288,230"]);
  ("CYDF", ["8005,150,50,47.8,72,227.8"]);
  ("CYDL", ["6000,90,2600,48,2600,228"]);
  ("CYDM", ["5000,100"]);
  ("CYDN", ["2000,60,989,29,982,209"; "2700,75,988,90,982,270"; "5000,150,989,150,998,330"]);
  ("CYDO", ["4971,100,367,93.8,372,273.8"]);
  ("CYDP", ["2000,75"]);
  ("CYDQ", ["5000,150,2146,85,2145,265"]);
  ("CYEA", ["2953,75,2176,,2211"]);
  ("CYEE", ["3998,75,770,149.6,770,329.6"]);
  ("CYEG", ["11000,200,2322,33.9,2337,213.9"; "10200,200,2325,135.1,2372,315.1"]);
  ("CYEK", ["4000,100,32,149,29,329"]);
  ("CYEL", ["4500,100,1086,112.2,1086,292.2"]);
  ("CYEM", ["3500,100,851,11.6,869,191.6"]);
  ("CYEN", ["5000,100,1904,90,1902,270"; "3000,75,,158,,338"]);
  ("CYER", ["3500,100"]);
  ("CYES", ["4499,75,,140,,320"]);
  ("CYET", ["6000,100,3041,91,3020,271"]);
  ("CYEU", ["4836,150,,104,,284"]);
  ("CYEV", ["6000,150,197,85.8,224,265.8"]);
  ("CYEY", ["5000,100,1068,128,1048,308"]);
  ("CYFA", ["3500,100"]);
  ("CYFB", ["8605,200,110,136.9,71,316.9"]);
  ("CYFC", ["8005,200,64,70.7,57,250.7"; "6000,200,53,131.1,57,311.1"]);
  ("CYFD", ["5000,100,807,43.7,809,223.7"; "2600,100,808,98.6,813,278.6"; "2600,100,808,164.6,807,344.6"]);
  ("CYFE", ["5000,100,,70.4,,250.4"]);
  ("CYFH", ["3500,100"]);
  ("CYFJ", ["5587,100,814,11,827,191"]);
  ("CYFO", ["5000,150,997,189,972,9"]);
  ("CYFR", ["4000,100,524,139,525,319"]);
  ("CYFS", ["6000,150,544,156,550,336"]);
  ("CYFT", ["2500,75"]);
  ("CYGB", ["3000,75,,158,,338"]);
  ("CYGD", ["1870,80,702,30,699,210"; "3000,50,702,91.9,712,271.9"; "5000,100,686,122,709,302"]);
  ("CYGE", ["4500,75,2575,161,2575,341"]);
  ("CYGH", ["3000,98,251,90,265,270"]);
  ("CYGK", ["5000,100,301,355.8,297,175.8"; "3933,100,301,54,297,234"]);
  ("CYGL", ["6500,150,595,113,639,293"]);
  ("CYGM", ["6800,150,753,150.3,743,330.3"]);
  ("CYGO", ["3420,100,601,,616"]);
  ("CYGP", ["4500,150,108,84,88,264"]);
  ("CYGQ", ["5000,100,1140,72.4,1139,252.4"]);
  ("CYGR", ["4500,150,22,53,12,233"; "3600,150,9,138.7,35,318.7"]);
  ("CYGT", ["3800,,174,,158"]);
  ("CYGV", ["4500,100,109,63,124,243"]);
  ("CYGW", ["5052,150,32,,26"]);
  ("CYGX", ["5000,150,476,,474"]);
  ("CYHA", ["3520,,100,,91"]);
  ("CYHB", ["5000,100,1106,66,1159,246"; "2000,75,,110,,290"]);
  ("CYHD", ["2000,75,1351,55.8,1351,235.8"; "6000,150,1354,113.6,1352,293.6"]);
  ("CYHE", ["3960,250"]);
  ("CYHF", ["4500,100,825,32.9,819,212.9"]);
  ("CYHH", ["5000,150,802,,784"]);
  ("CYHI", ["4300,100,105,62,110,242"]);
  ("CYHK", ["4400,100,154,127,128,307"]);
  ("CYHM", ["6000,150,771,48.7,755,228.7"; "10000,200,776,108,767,288"]);
  ("CYHN", ["3500,75,1099,59.1,1087,239.1"]);
  ("CYHO", ["2500,75"]);
  ("CYHR", ["4500,150,31,55,39,235"]);
  ("CYHS", ["4000,75,909,360,935,180"; "2500,50,920,80.7,915,260.7"]);
  ("CYHT", ["5000,100"]);
  ("CYHU", ["7840,150,86,47,87,227"; "3920,100,84,47.1,88,227.2"; "2800,150,87,83.7,84,263.8"]);
  ("CYHY", ["4001,150,536,66,531,246"; "6000,150,532,154.3,542,334.3"]);
  ("CYHZ", ["10500,200,449,35,443,215"; "7700,200,435,126,476,306"]);
  ("CYIB", ["3500,100,1385,39.1,1408,219.1"]);
  ("CYID", ["3950,75,460,42.7,499,222.7"]);
  ("CYIF", ["4590,100,19,352.9,13,172.9"]);
  ("CYIK", ["3521,100,103,51,123,231"]);
  ("CYIO", ["4000,100,181,23,170,203"]);
  ("CYIV", ["4000,100,770,,770"]);
  ("CYJA", ["3990,150"]);
  ("CYJF", ["3000,,706,,706"]);
  ("CYJM", ["4000,75,,124,,304"]);
  ("CYJN", ["2474,100,129,360,126,180"; "2765,100,133,45.1,127,225.1"; "4000,100,136,90,128,270"]);
  ("CYJQ", ["2954,100,162,,162"]);
  ("CYJT", ["3900,150,19,355.5,36,175.5"; "10000,200,15,71.7,84,251.7"]);
  ("CYKA", ["2074,50,1129,61,1129,241"; "6000,148,1130,103,1133,283"]);
  ("CYKC", ["5200,100,1341,,1341"]);
  ("CYKD", ["3000,75"; "3000,75,19,153,20,333"]);
  ("CYKF", ["7002,150,1024,64.1,1054,244.1"; "4100,148,1027,129,1025,309"]);
  ("CYKG", ["3511,100,501,,463"]);
  ("CYKJ", ["5200,180,1679,,1679"]);
  ("CYKL", ["5000,150,1688,149,1698,329"]);
  ("CYKM", ["2087,50,766,42.3,772,222.3"; "4085,75,768,121,768,301"]);
  ("CYKO", ["3510,100,41,62.9,75,242.9"]);
  ("CYKQ", ["3500,100,78,,77"]);
  ("CYKX", ["4500,100,1157,71,1136,251"]);
  ("CYKY", ["3507,75,2277,89.8,2277,269.8"; "2281,100,,179.9,,359.9"]);
  ("CYKZ", ["2694,80,624,21,649,201"; "3897,100,640,142,638,322"]);
  ("CYLA", [",,72,,119"; "3521,100"]);
  ("CYLB", ["5700,100,1884,129,1884,309"]);
  ("CYLD", ["3000,75,1460,39.3,1447,219.3"; "5000,100,1470,92.3,1421,272.3"]);
  ("CYLH", ["3500,100,825,,828"]);
  ("CYLI", ["3990,75,,161.5,,341.5"]);
  ("CYLJ", ["5000,100,1576,100,1576,280"; "2290,75,,179,,359"]);
  ("CYLK", ["2996,,596,,596"]);
  ("CYLL", ["5577,150,2193,90,2158,270"; "1500,100,2187,122,,302"]);
  ("CYLQ", ["5000,150,,352.9,,172.9"]);
  ("CYLR", ["3000,75,,183,,3"]);
  ("CYLS", ["6001,100,968,88.8,955,268.8"]);
  ("CYLT", ["5500,150,100,48,96,228"]);
  ("CYLU", ["3521,100,157,,215"]);
  ("CYLW", ["8900,200,1421,175,1370,355"]);
  ("CYM", ["10000,1000"]);
  ("CYMA", ["4856,100,1653,90,1639,270"]);
  ("CYME", ["5500,150,89,71.3,102,251.3"]);
  ("CYMG", ["3600,100,1171,42,1198,222"]);
  ("CYMH", ["2500,75,38,,28"]);
  ("CYMJ", ["3400,100,1891,44,1873,224"; "8326,150,1882,118.5,1880,298.5"; "7280,150,1891,118,1892,298"]);
  ("CYML", ["4500,150,977,127,951,307"]);
  ("CYMM", ["7503,150,1205,90,1207,270"]);
  ("CYMO", ["4000,100,26,43,25,223"; "3500,100,30,127,26,307"]);
  ("CYMT", ["6496,150,1262,28.3,1270,208.3"]);
  ("CYMU", ["3500,100,246,,250"]);
  ("CYMW", ["4920,150,613,17,656,197"]);
  ("CYMX", ["12000,200,256,45.4,238,225.4"; "8852,200,247,98.2,270,278.2"]);
  ("CYMY", ["4000,100,1269,100,1269,280"]);
  ("CYNA", ["4494,100,35,118,39,298"]);
  ("CYNC", ["3510,100,30,,66"]);
  ("CYND", ["6000,150,209,75,211,255"]);
  ("CYNE", ["3922,100,723,,734"]);
  ("CYNH", ["5200,100,,74.1,,254.1"]);
  ("CYNJ", ["2100,75,34,,34"; "2743,75"]);
  ("CYNL", ["6000,100,1605,,1589"]);
  ("CYNM", ["5000,100,908,134.2,918,314.2"]);
  ("CYNN", ["3350,80"]);
  ("CYNR", ["6000,,911,,909"]);
  ("CYOA", ["6411,148,1540,,1522"]);
  ("CYOC", ["4900,100,813,61.1,821,241.1"])].

(* ADRpy/data/runways.csv *)
Definition airports_12 : list (string * list string) := [
  ("CYOD", ["8270,200,1772,52,1767,232"; "12600,200,1772,143,1775,323"; "10000,150,1771,143,1773,323"]);
  ("CYOH", ["3270,75"; ",,646,,663"]);
  ("CYOJ", ["5000,150,1109,154,1098,334"]);
  ("CYOO", ["2654,100,442,35,458,215"; "4000,100,459,109.1,447,289.1"]);
  ("CYOP", ["4539,100,1759,110,1759,290"]);
  ("CYOS", ["3932,75,1007,170.1,1004,350.1"]);
  ("CYOW", ["3300,75,348,25.6,335,205.6"; "8000,200,369,57.2,362,237.2"; "10000,200,349,126.3,366,306.3"]);
  ("CYPA", ["5000,150,1405,91,1401,271"; "2500,100,1402,169.9,1396,349.9"]);
  ("CYPC", ["4000,100,13,20,17,200"]);
  ("CYPD", ["5000,150,334,90,375,270"]);
  ("CYPE", ["5000,150,1873,61.4,1861,241.4"; "1900,150,,102.3,,282.3"]);
  ("CYPG", ["3045,150,869,19,861,199"; "2520,150,866,89,861,269"; "3130,150,869,134,869,314"; "7000,200,878,133,885,313"]);
  ("CYPH", ["3500,100,74,,74"]);
  ("CYPK", ["2500,75,10,95,9,275"; "4700,100,11,96,9,276"; "2500,75,9,202,9,22"]);
  ("CYPL", ["4921,100,1267,90,1227,270"]);
  ("CYPM", ["3500,100,1107,,1114"]);
  ("CYPN", ["4886,150,158,90,158,270"]);
  ("CYPP", ["2975,75"]);
  ("CYPQ", ["7000,100,625,76,628,256"; "1782,100,,118,,298"]);
  ("CYPR", ["6000,200,94,151.5,116,331.5"]);
  ("CYPS", ["3917,100,,83,,263"]);
  ("CYPT", ["3300,75,571,88.3,572,268.3"; "1850,20,571,174.3,570,354.3"]);
  ("CYPU", ["6012,250,2985,66.9,2985,246.9"]);
  ("CYPW", ["3627,150,366,119,425,299"]);
  ("CYPX", ["5013,100,53,343,74,163"]);
  ("CYPY", ["5000,150,705,51,758,231"]);
  ("CYPZ", ["5000,75,2339,136.8,2343,316.8"]);
  ("CYQA", ["2180,100,925,79.4,915,259.4"; "6000,150,909,169,918,349"]);
  ("CYQB", ["9000,150,244,44.1,217,224.1"; "5700,150,239,97.6,231,277.6"]);
  ("CYQD", ["5901,150,887,133,876,313"]);
  ("CYQF", ["3449,100,2968,130,2951,310"; "5528,98,2948,180,2959,360"]);
  ("CYQG", ["9000,200,621,62.1,598,242.1"; "5150,150,622,115.5,619,295.5"]);
  ("CYQH", ["5500,150,2244,109,2255,289"]);
  ("CYQI", ["6000,150,135,42.1,110,222.1"; "5000,150,120,133.2,103,313.2"]);
  ("CYQK", ["5800,150,1325,77,1332,257"]);
  ("CYQL", ["6500,200,3047,69.7,3014,249.7"; "5500,150,3003,140,3016,320"]);
  ("CYQM", ["10001,200,223,43.5,199,223.5"; "8000,200,222,88.5,219,268.5"]);
  ("CYQN", ["3200,300,,53.4,,233.4"; "3500,100,1057,85,1057,265"; "3200,300,,153.3,,333.3"]);
  ("CYQQ", ["10000,200,77,135,84,315"; "5000,200,77,202.7,60,22.7"]);
  ("CYQR", ["6200,150,1893,89,1894,269"; "7900,150,1894,138,1894,318"]);
  ("CYQS", ["2607,75,770,25,771,205"; "5013,100,778,85,773,265"; "2610,75,771,145,774,325"]);
  ("CYQT", ["7318,200,653,70,635,250"; "5300,200,652,120.3,642,300.3"]);
  ("CYQU", ["6200,200,2194,89.4,2192,269.4"; "8502,200,2195,134.6,2188,314.6"]);
  ("CYQV", ["4800,150,1635,44,1597,224"; "3000,100,1608,135,1611,315"]);
  ("CYQW", ["2565,50,1780,78,1791,258"; "5000,150,1787,139,1799,319"]);
  ("CYQX", ["10200,200,424,11,454,191"; "1875,50,,62.7,,242.7"; "8900,200,470,107.3,441,287.3"]);
  ("CYQY", ["7070,200,194,226,194,46"; "5997,150,191,164.9,188,344.9"]);
  ("CYQZ", ["5500,200,1789,150,1783,330"]);
  ("CYRB", ["6500,200,215,167,177,347"]);
  ("CYRC", ["3734,150,532,40.4,541,220.4"; "6087,150,531,105.5,543,285.5"; "3769,150,541,161.2,538,341.2"]);
  ("CYRI", ["6000,150,420,33,425,213"]);
  ("CYRJ", ["5000,150,586,142.6,560,322.6"]);
  ("CYRL", ["5000,150,1236,80.7,1265,260.7"]);
  ("CYRM", ["5500,100,3227,146,3234,326"]);
  ("CYRO", ["3300,100,,76,,256"]);
  ("CYRP", ["2205,65,,27,,207"; "3937,98,381,84,381,264"]);
  ("CYRQ", ["6000,150,190,31.4,199,211.4"]);
  ("CYRS", ["3000,85,729,,729"]);
  ("CYRT", ["6000,150,85,129,94,309"]);
  ("CYRV", ["4800,75,1457,138,1459,318"]);
  ("CYSA", ["5000,100,1208,42,1208,222"; "2829,50,1206,162,1211,342"]);
  ("CYSB", ["6600,200,1129,28.5,1141,208.5"; "5000,150,1127,106.4,1141,286.4"]);
  ("CYSC", ["6000,150,753,118.8,792,298.8"; "6000,150"]);
  ("CYSE", ["2400,75"]);
  ("CYSF", ["5050,100,805,,805"]);
  ("CYSG", ["5108,75,859,46.1,883,226.1"]);
  ("CYSH", ["4000,75,415,50.6,406,230.6"]);
  ("CYSJ", ["7000,200,296,30,304,210"; "5100,200,357,121.2,314,301.2"]);
  ("CYSK", ["3800,,100,,104"]);
  ("CYSL", ["4000,100,775,156.2,788,336.2"]);
  ("CYSM", ["1800,100,671,41,667,221"; "6000,200,666,131,671,311"]);
  ("CYSN", ["2500,75,321,358.3,321,178.3"; "5000,150,321,52.7,319,232.7"; "2000,75,321,95.8,320,275.8"]);
  ("CYSP", ["3933,100,1035,153.2,1035,333.2"]);
  ("CYSQ", ["3950,75,2348,,2348"]);
  ("CYSR", ["6400,150,2106,106,2089,286"]);
  ("CYST", ["3400,75,773,,773"]);
  ("CYSU", ["8000,200,48,36,33,216"; "5300,150,43,94.6,64,274.6"; "5460,150,,157.5,,337.5"]);
  ("CYSW", ["4000,75,,185,,5"]);
  ("CYSY", ["4000,100,281,84,281,264"]);
  ("CYSZ", ["3977,90,41,120,71,300"]);
  ("CYTA", ["5000,100,528,157,525,337"]);
  ("CYTE", ["4000,100,153,127,139,307"]);
  ("CYTF", ["4300,100,429,113.8,445,293.8"]);
  ("CYTH", ["5800,150,716,61,716,241"; "2500,100,729,151,702,331"]);
  ("CYTL", ["3900,100,729,,709"]);
  ("CYTN", ["5000,145,312,46,251,226"; "2200,60,315,81.8,306,261.8"]);
  ("CYTQ", ["3519,100,122,,104"]);
  ("CYTR", ["10000,200,275,50.5,282,230.5"; "3025,150,276,120,268,300"]);
  ("CYTS", ["6000,150,955,21.1,956,201.1"; "4903,150,959,90,962,270"]);
  ("CYTZ", ["2933,150,251,48,250,228"; "3988,150,251,69,250,249"; "2780,150,251,140,251,320"]);
  ("CYUB", ["5000,150,9,124,14,304"]);
  ("CYUL", ["11000,200,96,42.7,106,222.7"; "9600,200,98,41.3,117,221.3"; "7000,200,96,87.5,99,267.5"]);
  ("CYUT", ["3400,100,79,161,42,341"]);
  ("CYUX", ["5410,150,27,124,18,304"]);
  ("CYUY", ["7485,150,974,62,988,242"]);
  ("CYVB", ["5985,150,123,115,98,295"]);
  ("CYVC", ["2396,50,1239,112,1220,292"; "5000,150,1242,189,1222,9.1"]);
  ("CYVD", ["4000,75,1451,,1454"]);
  ("CYVG", ["3300,75,2019,119,2020,299"]);
  ("CYVK", ["3360,75,,71,,251"]);
  ("CYVM", ["3800,100,21,33,21,213"]);
  ("CYVO", ["10000,150,1102,169.1,1100,349.1"]);
  ("CYVP", ["6000,150,73,43,106,223"; "5000,150,129,103,61,283"]);
  ("CYVQ", ["5997,150,238,118.7,235,298.7"]);
  ("CYVR", ["9940,200,13,100,9,280"; "11500,200,9,100.3,6,280.3"; "7300,200,8,142,7,322"; "3500,75,8,99.8,8,279.8"]);
  ("CYVT", ["2297,75,,82,,262"; "5006,100,1444,129,1444,309"]);
  ("CYVV", ["5021,150,717,43.5,721,223.5"; "3100,100,729,99.5,729,279.5"]);
  ("CYVZ", ["3500,100,1077,,1090"]);
  ("CYWA", ["3800,75,,148,,328"]);
  ("CYWG", ["4500,200,,75.4,775,255.4"; "8700,200,783,137.3,773,317.3"; "11000,200,781,189.3,777,9.3"]);
  ("CYWJ", ["3933,,703,,683"]);
  ("CYWK", ["6002,150,1794,157,1808,337"]);
  ("CYWL", ["7000,150,3082,135,3074,315"]);
  ("CYWM", ["4000,100,1966,181,1971,1"]);
  ("CYWP", ["3500,100"]);
  ("CYWV", ["3000,75,,139,,319"]);
  ("CYWY", ["3500,100,474,131.4,489,311.4"]);
  ("CYXC", ["6000,150,3034,178.1,3082,358.1"]);
  ("CYXD", ["5870,200,2200,138.2,2182,318.2"; "5700,200,2191,180,2181,360"]);
  ("CYXE", ["8300,200,1653,101,1642,281"; "6200,150,1645,165.1,1646,345.1"]);
  ("CYXH", ["5000,150,2349,44.6,2349,224.6"; "2820,100,2349,106.8,2350,286.8"]);
  ("CYXJ", ["6700,200,2211,45,2279,225"; "6900,150,2250,135.7,2244,315.7"]);
  ("CYXK", ["4600,150,75,48.5,71,228.5"]);
  ("CYXL", ["2200,50,,31.2,,211.2"; "5300,100,1231,156.2,1258,336.2"]);
  ("CYXN", ["4000,,66,,66"]);
  ("CYXP", ["2920,100,65,62,64,242"]);
  ("CYXQ", ["3370,100,2115,,2131"]);
  ("CYXR", ["5998,150,793,63.3,796,243.3"; "3019,150,797,149.3,772,329.3"]);
  ("CYXS", ["3769,75,2235,31,2227,211"; "5628,150,2267,79,2219,259"; "11450,150,2232,170,2199,350"]);
  ("CYXT", ["5373,150,674,51,713,231"; "7497,150,693,171.9,677,351.9"]);
  ("CYXU", ["6300,200,907,77.9,901,257.9"; "8800,200,912,139,905,319"]);
  ("CYXX", ["5328,200,168,25.4,181,205.4"; "1500,100,,27,,207"; "9600,200,167,86.7,194,266.7"]);
  ("CYXY", ["2075,75,2277,32,2274,212"; "4000,80,2277,158.5,2281,338.5"; "9497,150,2275,158,2305,338"]);
  ("CYXZ", ["4429,100,942,23.6,942,203.6"]);
  ("CYYB", ["10000,200,1149,64.7,1215,244.7"; "2500,75,,118.3,,298.3"; "4474,150,1174,168.2,1173,348.2"]);
  ("CYYC", ["6200,150,3531,90,3557,270"; "8000,200,3547,119.5,3542,299.5"; "14000,200,3606,180,3577,0"; "12675,200,3556,180,3543,360"]);
  ("CYYD", ["5000,150,1704,171,1712,351"]);
  ("CYYE", ["6400,200,1253,57,1247,237"; "4068,77,1250,105,1226,285"; ",,1253,,1253"]);
  ("CYYF", ["6000,148,1129,182,1114,2"]);
  ("CYYG", ["7000,150,155,9.3,160,189.3"; "5000,200,158,78.9,159,258.9"]);
  ("CYYH", ["4020,100,92,152,57,332"]);
  ("CYYJ", ["5027,200,51,43.9,54,223.9"; "7000,200,53,105,56,285"; "5001,200,63,151.9,44,331.9"]);
  ("CYYL", ["2520,80,1170,87,1162,267"; "5000,150,1154,180,1161,360"]);
  ("CYYM", ["3600,300"; "4330,300"]);
  ("CYYN", ["2500,50,2680,49.3,2661,229.3"; "4250,150,2650,136,2667,316"]);
  ("CYYO", ["3000,75,,102,,282"]);
  ("CYYQ", ["4000,100,91,72,85,252"; "9200,160,94,152.6,63,332.6"]);
  ("CYYR", ["11046,209,160,54.8,153,234.8"; "9580,200,154,132.9,149,312.9"]);
  ("CYYT", ["5028,100,445,356.2,440,176.2"; "8502,200,458,85.9,437,265.9"; "7005,200,444,142.2,431,322.2"]);
  ("CYYU", ["3590,75,743,90,743,270"; "5500,100,735,156.1,730,336.1"]);
  ("CYYW", ["4000,100,1048,117,1056,297"; "2940,100,1056,178.7,1058,358.7"]);
  ("CYYY", ["6000,150,142,39,125,219"; "3934,150,131,133,172,313"]);
  ("CYYZ", ["11120,200,564,47,560,227"; "9697,200,529,47,546,227"; "9000,200,525,47,547,227"; "11050,200,557,137,544,317"; "9088,200,551,137,544,317"]);
  ("CYZD", ["3164,150,,78.8,,258.8"; "7003,200,649,139.2,636,319.2"]);
  ("CYZE", ["4900,100,603,97.2,613,277.2"]);
  ("CYZF", ["5000,150,672,116,675,294"; "7500,150,674,176,658,356"]);
  ("CYZG", ["3500,,722,,742"]);
  ("CYZH", ["5561,100,1904,114.7,1912,294.7"]);
  ("CYZP", ["5120,150,17,144,21,324"]);
  ("CYZR", ["2989,75,591,49.2,590,229.2"; "5100,100,590,137,594,317"]);
  ("CYZS", ["5000,100,210,155,184,335"]);
  ("CYZT", ["4000,150,71,92.4,33,272.4"; "5000,150,43,129.3,35,309.3"; "4000,150,42,178.4,71,358.4"]);
  ("CYZU", ["5800,100,2557,125,2556,305"]);
  ("CYZV", ["5900,200,164,29.5,180,209.5"; "6552,150,164,69.5,174,249.5"; "5771,200,170,109.5,174,289.5"]);
  ("CYZW", ["5000,100,2271,106.2,2299,286.2"]);
  ("CYZX", ["8000,200,85,64,86,244"; "8000,200,81,107,92,287"]);
  ("CYZY", ["5000,100,,186,,6"]);
  ("CZ-0049", ["980,67"]);
  ("CZ-0050", ["1100,100"]);
  ("CZ-0058", ["1640,49"]);
  ("CZ-0059", ["1542"]);
  ("CZ-0060", ["2002,115"]);
  ("CZ-0061", ["1313,66"; "1575,115"]);
  ("CZ-0064", ["1493,49"]);
  ("CZ-0065", ["1969,115"]);
  ("CZ-0066", ["1476,66"]);
  ("CZ-0067", ["1526,115"]);
  ("CZ-0069", ["1444,59"]);
  ("CZ-0071", ["2198,49"]);
  ("CZ-0072", ["1641,98"]);
  ("CZ-0073", ["2789,66"]);
  ("CZ-0074", ["2313,115"]);
  ("CZ-0095", ["1640,82"]);
  ("CZ-0097", ["2625,49"]);
  ("CZ-0100", ["1969,98"]);
  ("CZ-0101", ["1870,82"]);
  ("CZ-0102", ["1476,82"]);
  ("CZ-0103", ["1640"]);
  ("CZ-0104", ["1706,49"]);
  ("CZ-0105", ["1936,66"]);
  ("CZ-0129", ["1772,98"]);
  ("CZ-0151", ["984,52"]);
  ("CZ-0156", ["1348"]);
  ("CZ-0157", [""]);
  ("CZAC", ["3395,85,618,,621"]);
  ("CZAM", ["4260,75,1731,158,1751,338"]);
  ("CZBA", ["2464,50,590,80,591,260"; "3775,75,601,131,592,311"]);
  ("CZBB", ["4865,75,,50.1,,230.1"; "5606,100,5,90,5,270"; "3755,100,5,144,5,324"]);
  ("CZBD", ["3000,75"]);
  ("CZBF", ["4500,100,193,82,178,262"]);
  ("CZBM", ["5000,100,345,37.4,375,217.4"; "3200,320,,34.2,,214.2"]);
  ("CZEE", ["2590,75"]);
  ("CZEM", ["3510,100,21,,24"]);
  ("CZFA", ["4000,100,2351,113.7,2334,293.7"]);
  ("CZFD", ["3800,75"]);
  ("CZFG", ["3000,85"]);
  ("CZFM", ["3500,100,111,140,110,320"]);
  ("CZFN", ["3935,100,332,,332"]);
  ("CZGF", ["4300,100,1720,90,1720,270"]);
  ("CZGI", ["3540,80,605,,627"]);
  ("CZGR", ["2800,75"]);
  ("CZHP", ["3933,75,1974,88.5,1972,268.5"]);
  ("CZJG", ["3800,100"]);
  ("CZJN", ["3933,100,,27,,207"; "1950,75,,85,,265"]);
  ("CZK", ["1800,30,,,,309"]);
  ("CZKE", ["3500,100"]);
  ("CZLQ", ["2220,75"]);
  ("CZMD", ["3500,100,896,,911"]);
  ("CZML", ["5293,75,3125,165,3094,345"]);
  ("CZMN", ["2200,75"]);
  ("CZMT", ["5000,100,7,148.3,25,328.3"]);
  ("CZN", ["3000,50"]);
  ("CZNG", ["2500,60"]);
  ("CZNL", ["3100,75,,61,,241"]);
  ("CZO", ["2060,90"]);
  ("CZPB", ["3500,100"]);
  ("CZPC", ["6600,100,3903,89.6,3903,269.6"]);
  ("CZPO", ["3000,65,1267,,1268"]);
  ("CZRJ", ["3500,100,955,,974"]);
  ("CZSJ", ["3500,100,944,,937"]);
  ("CZSN", ["2600,100,949,,920"]);
  ("CZST", ["3900,75,,194,,14"]);
  ("CZTA", ["3000,75"]);
  ("CZTM", ["4000,90"]);
  ("CZUC", ["3512,75,,49.3,,229.3"]);
  ("CZUM", ["5500,150,1436,104.5,1429,284.5"]);
  ("CZVL", ["3500,100,,102.6,,282.6"; "3500,100,,180.9,,0.9"]);
  ("CZWH", ["3500,100"]);
  ("CZWL", ["3800,75"]);
  ("D03", ["2800,120,1959,,1957"]);
  ("D06", ["2600,100,825,,818"]);
  ("D12", ["22,18"; "20,20"]);
  ("D15", ["2582,50,886,,886,214.2"]);
  ("D20", ["2300,110,814,,814,270"]);
  ("D24", ["2940,120,1612,,1610,319.3"]);
  ("D28", ["10000,2000"]);
  ("D29", ["2600,60,798,,798,360"]);
  ("D32", ["2512,198,1141,173,1141,353"]);
  ("D38", ["3200,75,800,123,812,303"]);
  ("D41", ["2700,60,830,,830,270"]);
  ("D43", ["1495,65"; "1425,80,,,,315"]);
  ("D49", ["2560,100,1929,,1926,181.5"]);
  ("D51", ["2500,67,,,,263.6"]);
  ("D52", ["4695,90"]);
  ("D58", ["3300,150,2176,,2181,339"; "2400,120,2193,,2180"]);
  ("D59", ["3430,100,,,,326"]);
  ("D61", ["2900,150,1475,,1484"; "3200,100,1482,,1475,217.9"]);
  ("D63", ["2510,48,,,,306.6"]);
  ("D65", ["3400,150,1580,,1566,269.9"]);
  ("D66", ["2500,60"; "1600,60"]);
  ("D67", ["1245,25"]);
  ("D69", ["1471,50"]);
  ("D70", ["1685,90"]);
  ("D71", ["5000,400"]);
  ("D72", ["3500,200"]);
  ("D75", ["3800,3800"]);
  ("D79", ["1840,80"; "2750,60"]);
  ("D80", ["2408,30,,,,340.4"; "2500,60"]);
  ("D81", ["2500,60,1060,,1060,268"]);
  ("D82", ["2200,60"; "2800,40,1062,,1062"]);
  ("D85", ["2495,80"]);
  ("D88", ["2600,75"]);
  ("D90", ["2050,120,1133,,1133,307"; "3400,140,1133,,1133"]);
  ("D91", ["2450,90,,,,317"]);
  ("D93", ["2275,85,,,,177.5"]);
  ("DA10", ["5490,197,1778,53,1778,233"; "7794,175,1778,95,1778,275"]);
  ("DA11", ["9843,148,,85.5,,265.5"]);
  ("DA12", ["6608,105,,115.4,,295.4"]);
  ("DA13", ["12737,246,,51,,231"; "7740,100,,51,,231"]);
  ("DA14", ["3550,80,,44,,224"; "2275,100,,126.7,,306.7"]);
  ("DA15", ["4248,98,,175.1,,355.1"]);
  ("DA16", ["6565,140,,82.5,,262.5"; "12700,98,,82.5,,262.5"; "7765,140,,82.5,,262.5"]);
  ("DAAB", ["5833,150,,66.4,,246.4"]);
  ("DAAD", ["7218,98,1506,42,1506,222"]);
  ("DAAE", ["7874,148,20,80,10,260"]);
  ("DAAF", ["6285,95,1015,79,1010,259"]);
  ("DAAG", ["11483,197,72,53,82,233"; "11483,148,56,92,82,272"]);
  ("DAAJ", ["7874,148,3140,22,3163,202"; "9843,148,3163,125,3169,305"]);
  ("DAAK", ["11883,148,335,43.9,240,223.9"]);
  ("DAAN", ["8216,98,928,71.3,955,251.3"]);
  ("DAAP", ["9843,148,1765,90,1778,270"]);
  ("DAAQ", ["10696,148,2132,91,2132,271"; "10696,148,2132,91,2132,271"]);
  ("DAAT", ["11811,148,4459,22,4518,202"; "10171,148,4465,82,4472,262"]);
  ("DAAV", ["7874,148,20,171,36,351"]);
  ("DAAY", ["11780,150,,51,,231"; "9436,100,,160,,340"]);
  ("DAAZ", ["4265,70,217,66.9,240,246.9"]);
  ("DABB", ["9843,148,16,6.9,10,186.9"; "7513,148,16,51.8,10,231.8"]);
  ("DABC", ["7874,148,2306,136,2254,316"; "9843,148,2313,159,2316,339"]);
  ("DABS", ["9843,148,2648,113,2671,293"; "7874,98,2654,121.8,2661,301.8"]);
  ("DABT", ["9843,148,2664,54.9,2700,234.9"]);
  ("DAFH", ["9835,148,,79.2,,259.2"; "4695,100,,88.1,,268.1"]);
  ("DAOB", ["9843,148,3245,81,3202,261"]);
  ("DAOE", ["9834,148,,64.2,,244.2"]);
  ("DAOF", ["9840,150,,76,,256"; "9840,150,,76,,256"]);
  ("DAOI", ["5413,98,463,66.4,463,246.4"]);
  ("DAOL", ["9037,140,361,75.6,367,255.6"]);
  ("DAON", ["8530,148,807,70,804,250"]);
  ("DAOO", ["10039,148,295,67,295,247"]);
  ("DAOR", ["12245,148,,60,,240"; "9840,148,2661,180,2654,360"]);
  ("DAOS", ["4868,100,1575,97.7,1588,277.7"]);
  ("DAOV", ["5577,98,1686,80,1686,260"]);
  ("DATM", ["7372,,1302,,1302"]);
  ("DAUA", ["9843,148,915,40,918,220"]);
  ("DAUB", ["9469,148,285,130,236,310"]);
  ("DAUE", ["5906,148,1306,102,1289,282"; "9843,148,1302,180,1293,360"]);
  ("DAUG", ["10171,197,1483,122.4,1421,302.4"; "7874,148,1512,183,1483,3"]);
  ("DAUH", [",,459,,456"; "9843,148,459,184,456,4"]);
  ("DAUI", ["9843,148,896,51,883,231"]);
  ("DAUK", ["9843,148,279,9,259,189"]);
  ("DAUL", ["12486,148,,157,,337"; "12477,148,2510,156.9,2510,336.9"]);
  ("DAUO", ["6562,98,203,18,200,198"; "9843,148,194,130,200,310"]);
  ("DAUT", ["9843,148,1024,56,1020,236"]);
  ("DAUU", ["9843,148,492,15.9,463,195.9"; "10171,148,,179,,359"]);
  ("DAUZ", ["9843,148,1837,47,1841,227"; "7218,98,1841,145,1847,325"]);
  ("DBBB", ["7874,148,16,53,13,233"]);
  ("DBBP", ["5249,,1237,,1263"]);
  ("DBP", ["2585,98"]);
  ("DC01", ["139,66,,,,312.6"]);
  ("DC02", ["20,20"]);
  ("DC03", ["40,40,,,,307"; "70,70,,,,331"]);
  ("DC04", ["300,60,,,,200.6"]);
  ("DC06", ["60,60"]);
  ("DC07", ["60,60"]);
  ("DC08", ["70,70,,,,315"; "100,100,,,,195"]);
  ("DC09", ["100,65,,,,179.2"]);
  ("DC11", ["32,32,,,,312.3"]);
  ("DC13", ["50,50,,,,255.9"]);
  ("DC14", ["50,50,,,,230"]);
  ("DC15", ["24,24"]);
  ("DC16", ["40,40,,,,208"]);
  ("DC17", ["60,60,,,,314.2"]);
  ("DC52", ["75,75,,,,267"]);
  ("DCK", ["4780,75"]);
  ("DDT", ["1200,100"]);
  ("DE-0002", ["2625,,269,,269"]);
  ("DE-0003", ["3610,64"]);
  ("DE-0005", ["1824,32,2374,,2374"]);
  ("DE-0076", ["2942,20,2059,168.29,2059,348.29"]);
  ("DE-0150", [""]);
  ("DE-0190", ["2625,2625"]);
  ("DE-0194", ["1311"]);
  ("DE-0195", ["1000"]);
  ("DE-0201", ["1181"]);
  ("DE-0234", ["1640,98"]);
  ("DE-0240", ["1640"]);
  ("DE-0256", ["4200"]);
  ("DE-0273", [""]);
  ("DE-0276", ["1312,49"]);
  ("DE-0285", ["2625"]);
  ("DE-0293", ["1969"]);
  ("DE-0295", ["2297"]);
  ("DE-0336", ["1477,33"]);
  ("DE-0337", ["1641,99"]);
  ("DE-0338", ["1542,82"]);
  ("DE-0339", ["985,165"]);
  ("DE-0345", ["1149,99"]);
  ("DE-0348", ["1706"]);
  ("DE00", ["2000,50,,,,335"]);
  ("DE02", ["60,60"]);
  ("DE03", ["300,300,,,,359.8"]);
  ("DE04", ["1000,50"]);
  ("DE07", ["2300,150"]);
  ("DE09", ["2243,80"]);
  ("DE14", ["2600,110"]);
  ("DE15", ["2600,75"]);
  ("DE16", ["66,66"]);
  ("DE17", ["2300,100,,,,308"]);
  ("DE19", ["2600,60"]);
  ("DE20", ["3300,100"]);
  ("DE21", ["3000,65"]);
  ("DE23", ["2500,100,,,,270"]);
  ("DE24", ["50,50,,,,277.5"]);
  ("DE25", ["3500,100"]);
  ("DE26", ["120,60"]);
  ("DE27", ["2099,80"; "2180,94"]);
  ("DE28", ["25,25"]);
  ("DE29", ["2600,80"]);
  ("DE30", ["83,75,,,,328.3"]);
  ("DE31", ["80,80,,,,356.6"]);
  ("DE32", ["2335,50"]);
  ("DE33", ["1300,70"]);
  ("DE34", ["3300,100,,,,1.9"]);
  ("DE49", ["4564,60,,143.1,,237"]);
  ("DER", ["1549,98"]);
  ("DFFD", ["9934,148,1034,33,982,213"; "6269,98,1040,35,994,215"]);
  ("DFOO", ["10826,148,1417,53,1483,233"]);
  ("DGAA", ["11165,200,177,22,197,202"]);
  ("DGG", ["5081,300"]);
  ("DGLE", ["7999,148,530,45,538,225"]);
  ("DGLW", ["6612,145,1060,20,1060,200"]);
  ("DGSI", ["6502,148,942,12,942,192"]);
  ("DGSN", ["4227,148,1010,63.2,994,243.2"]);
  ("DGTK", ["5745,148,17,30,22,210"]);
  ("DIAP", ["9843,164,21,23,11,203"]);
  ("DIBK", ["10827,148,1226,24,1199,204"]);
  ("DIBU", ["4921,,1207,,1188"]);
  ("DIDL", ["6562,98,810,28,823,208"]);
  ("DIKO", ["6890,98,1204,80,1204,260"]);
  ("DIMN", ["6726,98,1065,25,1081,205"]);
  ("DISP", ["6234,98,15,20,27,200"]);
  ("DIYO", ["9843,148,651,42,696,222"]);
  ("DK-0005", ["1345,49"]);
  ("DK-0032", ["1804,75,16,,16"]);
  ("DM2", ["64,64,,,,351.9"]);
  ("DN50", ["4170,49,,61,,241"]);
  ("DN51", ["4983,148,,57,,237"]);
  ("DN53", ["8612,102,,46,,226"]);
  ("DN54", ["4950,75,,48,,228"]);
  ("DN55", ["4266,70,,10,,190"]);
  ("DN56", ["5085,98,,125,,305"]);
  ("DN57", ["9947,98,,37,,217"]);
  ("DNAA", ["11842,197,1087,35,1123,215"]);
  ("DNAK", ["9195,148,1100,24,1100,204"]);
  ("DNBB", ["5577,75"]);
  ("DNBC", ["11154,140"]);
  ("DNBE", ["7870,148,234,46,258,226"]);
  ("DNBI", ["3900,65"]);
  ("DNCA", ["8040,148,201,27,211,207"]);
  ("DNDS", ["9840,155"]);
  ("DNEN", ["7879,148,466,80,415,260"]);
  ("DNFB", ["5582,98"]);
  ("DNFD", ["3165,60"]);
  ("DNGU", ["4800,148,,46.8,,226.8"]);
  ("DNIB", ["7875,147,725,40,725,220"]);
  ("DNIL", ["10169,197,1119,49,1097,229"]);
  ("DNIM", ["8858,148,373,167,373,347"]);
  ("DNJO", ["9845,148,4226,95,4241,275"]);
  ("DNKA", ["9843,197,2035,50,2069,230"]);
  ("DNKN", ["8040,148,1533,44,1501,224"; "10831,197,1561,61,1506,241"]);
  ("DNMA", ["9846,197,1097,47,1086,227"]);
  ("DNMK", ["9830,164,,52,,232"]);
  ("DNMM", ["8997,148,135,180,86,360"; "12794,197,64,180,50,360"]);
  ("DNMN", ["11153,145,728,45,834,225"]);
  ("DNPO", ["9846,197,82,28,87,208"]);
  ("DNSO", ["9844,197,1002,77,1010,257"]);
  ("DNYO", ["5160,98,,126.3,,306.3"; "9840,148,573,171,599,351"]);
  ("DNZA", ["5462,98,2150,50,2170,230"]);
  ("DRRM", ["6070,98,1214,83.9,1240,263.9"]);
  ("DRRN", [",,729,,707"; "5315,131,728,87,715,267"; "9843,148,728,87,705,267"]);
  ("DRRT", ["7053,98,1253,59.5,1266,239.5"]);
  ("DRZA", ["9843,98,1657,68,1660,248"]);
  ("DRZD", ["5249,131,1273,41.4,1263,221.4"]);
  ("DRZF", ["5906,98,,88.4,,268.4"]);
  ("DRZI", ["4438,196,2172,11,2171,191"]);
  ("DRZR", ["5988,98,1473,53,1510,233"]);
  ("DT1", ["84,84,,,,351.9"]);
  ("DT70", ["3952,40,,77,,257"]);
  ("DTG", ["2364,21,629,88,623,268"; "2000,92,623,,632,260"]);
  ("DTKA", ["9416,148,196,93,230,273"]);
  ("DTMB", ["9678,148,8,74,8,254"]);
  ("DTTA", ["10499,148,13,12.3,21,192.3"; "9318,148,19,112.5,11,292.5"]);
  ("DTTB", ["9845,166,20,83,20,263"; "3975,164,20,111,20,291"]);
  ("DTTD", ["7812,148,,23,,203"]);
  ("DTTF", ["9514,148,1027,48.5,1060,228.5"]);
  ("DTTG", ["3702,82,,60.7,,240.7"]);
  ("DTTI", ["3407,98,110,126,106,306"]);
  ("DTTJ", ["10171,148,9,88.3,18,268.3"]);
  ("DTTR", ["8858,148,827,115.1,827,295.1"]);
  ("DTTX", ["9843,148,83,148.1,53,328.1"]);
  ("DTTZ", ["10581,148,264,89,287,269"]);
  ("DXNG", ["8202,148,1499,21.8,1515,201.8"]);
  ("DXXX", ["9847,148,61,39,63,219"]);
  ("DZ-0003", ["8450"]);
  ("E07", ["2920,60"; "2990,75"]);
  ("E20", ["7000,2000"; "13000,2000"; "10500,1500"]);
  ("E27", ["2769,35,55,130,58,310"]);
  ("E32", ["3300,75"]);
  ("E36", ["2980,60,,,,314.7"]);
  ("E37", ["1650,48"; "2950,45"]);
  ("E40", ["2175,70"]);
  ("E53", ["2523,65"]);
  ("E55", ["2500,50,,,,247"]);
  ("E61", ["21120,1320"]);
  ("E66", ["32,32,,,,360"; "12,12,,,,309"; "20,20,,,,264"]);
  ("E68", ["1995,25"; "1910,25"; "2520,30"; "3740,20"]);
  ("E70", ["3415,50,,,,266"]);
  ("E79", ["2920,50,,,,193.8"]);
  ("E81", ["3250,75"]);
  ("E85", ["3320,42"; "3100,100"; "3430,90"]);
  ("E92", ["4000,50"]);
  ("E94", ["3700,84"]);
  ("EBAM", ["610,18"]);
  ("EBAR", ["492,98,,85,,265"]);
  ("EBAW", ["4954,148,36,109.8,39,289.8"]);
  ("EBBE", ["10085,148,358,39.4,323,219.4"; "8038,74,370,38.7,327,218.7"]);
  ("EBBL", ["10158,148,193,50,169,230"; "7874,75,,50.1,,230.1"]);
  ("EBBR", ["9800,164,183,14,113,194"; "11936,148,129,65,110,245"; "10535,148,175,70,159,250"]);
  ("EBBT", ["2952,,76,,73"]);
  ("EBBX", ["7874,148,,58.4,,238.4"]);
  ("EBBY", ["827,99"; "981,99"]);
  ("EBBZ", ["689,99"]);
  ("EBCF", ["1969,98"]);
  ("EBCI", ["8366,148,611,66,583,246"]);
  ("EBCV", ["5386,164,178,80,182,260"]);
  ("EBFN", ["8786,164,14,108,20,288"]);
  ("EBFS", ["11105,148,909,78.9,932,258.9"; "7381,74,909,79.6,911,259.6"]);
  ("EBGB", ["2016"]);
  ("EBGG", ["600,18"]);
  ("EBHN", [""]);
  ("EBIS", ["151,50"]);
  ("EBKH", ["2264,59"]);
  ("EBKT", ["6030,148,64,62,61,242"]);
  ("EBLG", ["7677,148,637,45,585,225"; "10784,148,652,45,603,225"]);
  ("EBLN", ["492,98,,70,,250"]);
  ("EBML", ["1311"]);
  ("EBMO", ["670,30"]);
  ("EBNM", ["2284,89,594,64,594,244"]);
  ("EBNO", ["150,30"]);
  ("EBOS", ["10499,148,15,77,13,257"; "2057,148,13,137,13,317"]);
  ("EBSG", ["2296,75"]);
  ("EBSH", ["1969,623"; "2625,492"]);
  ("EBSL", ["9777,148,312,60,295,240"]);
  ("EBSP", ["2625,98,1542,,1521"]);
  ("EBST", ["3597,164,237,57.5,215,237.5"]);
  ("EBSU", ["8528,147,1822,66.6,1822,246.6"]);
  ("EBTN", [""; "2560,,220,,237"]);
  ("EBTX", ["2297,59"]);
  ("EBTY", ["2067,59"]);
  ("EBUL", ["9777,148,,67,,247"]);
  ("EBWE", ["9777,147,94,68,105,248"]);
  ("EBZH", ["1967"]);
  ("EBZR", ["9777,148,53,48.4,79,228.4"]);
  ("EBZU", ["400,18"]);
  ("EBZW", ["2622,76"]);
  ("EC-0003", ["3255,59,,90,,270"]);
  ("EDAB", ["7218,164,568,73,530,253"; "3281,131,,73.3,,253.3"]);
  ("EDAC", ["7333,148,639,41,605,221"]);
  ("EDAD", ["3281,82,187,91,187,271"]);
  ("EDAE", ["3839,75,149,114,149,294"]);
  ("EDAG", ["3281,,2198,,2198"]);
  ("EDAH", ["7562,115,77,106,89,286"; "1969,98,,105.6,,285.6"]);
  ("EDAI", ["3035,,142,,142"]);
  ("EDAJ", ["2460,79"]);
  ("EDAK", ["7874,157,417,115,417,295"]);
  ("EDAL", ["2802,,184,,184"]);
  ("EDAM", ["3740,98,340,81,340,261"]);
  ("EDAN", ["3937,,115,,115"; "2953,,115,,115"]);
  ("EDAO", ["2936,,689,,689"]);
  ("EDAP", ["2625,,279,,279"]);
  ("EDAQ", ["3675,98,347,114.3,347,294.3"]);
  ("EDAR", ["2953,,395,,400"]);
  ("EDAU", ["2461,98,,95.8,,275.8"; "3281,66,322,122,322,302"]);
  ("EDAV", ["8268,164,112,99.9,121,279.9"]);
  ("EDAW", ["3937,,289,,289"]);
  ("EDAX", ["7808,164,220,76,220,256"]);
  ("EDAY", ["3937,92,263,49,263,229"; "3937,131,,49,,229"]);
  ("EDAZ", ["3937,75,131,76,131,256"; "2297,98,,121,,301"]);
  ("EDBA", ["2854,,1145,,1145"]);
  ("EDBD", ["2843,,194,,194"]);
  ("EDBF", ["2969,,135,,135"]);
  ("EDBG", ["2789,,173,,173"]);
  ("EDBH", ["3937,98,7,90,22,270"; "2953,131,,89.9,,269.9"]);
  ("EDBI", ["2625,,1050,,1010"]);
  ("EDBJ", ["3960,75,1228,20,1228,200"; "2000,100,,76,,256"]);
  ("EDBK", ["3281,75,130,140.6,130,320.6"; "3281,98,,141,,321"]);
  ("EDBM", ["3281,98,267,88,249,268"]);
  ("EDBN", ["7522,148,201,89,227,269"]);
  ("EDBO", ["2789,,287,,287"]);
  ("EDBP", ["2625,,144,,144"]);
  ("EDBQ", ["2887,,423,,423"; "2953,,423,,423"]);
  ("EDBR", ["8202,148,517,179,517,359"; "4003,131,,178,,358"]);
  ("EDBS", ["3035,,451,,451"]);
  ("EDBT", ["3937,98,932,70,932,250"]);
  ("EDBU", ["2723,,289,,289"]);
  ("EDBV", ["2953,,49,,49"]);
  ("EDBW", ["4918,262,263,85,263,265"]);
  ("EDBY", ["2953,,105,,105"]);
  ("EDBZ", ["2789,,330,,330"; "2625,,330,,330"]);
  ("EDCA", ["3281,66,18,96,18,276"; "2953,131,,96.1,,276.1"]);
  ("EDCB", ["2247"]);
  ("EDCD", ["8149,148,251,69,271,249"; "6562,164,,71.3,,251.3"]);
  ("EDCE", ["3937,131,211,,219"]);
  ("EDCG", ["2953,,69,,69"]);
  ("EDCI", ["2887,,486,,486"]);
  ("EDCK", ["2625,,304,,304"]);
  ("EDCM", ["3609,92,495,34.1,495,214.1"; "3609,131,,34.1,,214.1"]);
  ("EDCN", ["2789,,110,,110"]);
  ("EDCO", ["4757,98,909,110,909,290"]);
  ("EDCP", ["7874,197,7,137,7,317"]);
  ("EDCQ", ["3445,,525,,525"]);
  ("EDCS", ["3281,,164,,164"]);
  ("EDCT", ["1965,98,492,,492"]);
  ("EDCV", ["2953,,72,,72"]);
  ("EDCW", ["2099,131,43,,43"]);
  ("EDCX", ["3609,,66,,66"]);
  ("EDCY", ["6562,98,375,36,375,216"]);
  ("EDDB", ["8891,148,148,69,145,249"; "9843,148,153,69,150,249"]);
  ("EDDC", ["8228,167,755,41,703,221"]);
  ("EDDE", ["8530,164,1025,98,1016,278"]);
  ("EDDF", ["13123,197,329,69.6,364,249.6"; "9186,148,305,69.6,353,249.6"; "13123,148,328,69.6,362,249.6"; "13123,148,326,179.8,316,359.8"]);
  ("EDDG", ["7119,148,156,71,159,251"]);
  ("EDDH", ["10663,150,32,50.3,43,230.3"; "12028,150,53,152.8,35,332.8"]);
  ("EDDI", ["6870,140,144,86,163,266"; "6037,140,152,88,163,268"]);
  ("EDDK", ["8067,148,231,64,272,244"; "12516,197,230,137.5,302,317.5"; "6112,148,221,137.5,259,317.5"]);
  ("EDDL", ["8858,148,116,53,124,233"; "9842,148,121,53,138,233"]);
  ("EDDM", ["13123,197,1467,83.4,1449,263.4"; "13123,197,1486,83.4,1470,263.4"]);
  ("EDDN", ["8858,148,1022,99,1046,279"]);
  ("EDDP", ["11811,148,418,85.7,448,265.7"; "11811,198,,86,,266"]);
  ("EDDR", ["6562,148,1022,87,1056,267"; "1788,164,,87.7,,267.7"]);
  ("EDDS", ["10974,148,1267,74,1181,254"]);
  ("EDDT", ["9918,151,110,81,117,261"; "7966,151,109,81,122,261"]);
  ("EDDV", ["2559,74,178,92,174,272"; "12467,148,167,93,169,273"; "7677,148,172,93,179,273"]);
  ("EDDW", ["2297,75,,52,13,232"; "6693,148,13,88,14,268"]);
  ("EDEG", ["2657,,984,,1006"]);
  ("EDEL", ["1476,98,295,,295"]);
  ("EDEN", ["2200,60"]);
  ("EDEQ", ["2953,,814,,814"]);
  ("EDEW", ["2690,,1309,,1322"]);
  ("EDFA", ["2100,99"]);
  ("EDFB", ["820,98,397,,397"; "4265,75,397,,397"]);
  ("EDFC", ["2756,,410,,410"]);
  ("EDFE", ["4593,82,371,86,385,266"; "2198,98,,86,,266"]);
  ("EDFG", ["2756,,413,,413"]);
  ("EDFH", ["12467,148,1645,32,1588,212"]);
  ("EDFK", ["2641,,653,,653"]);
  ("EDFM", ["3497,82,309,93,306,273"; "2297,98,,92,,272"]);
  ("EDFP", ["2822,,804,,804"]);
  ("EDFQ", ["4068,98,1164,113,1123,293"]);
  ("EDFR", ["3117,65,1309,,1309"]);
  ("EDFS", ["3215,,685,,685"]);
  ("EDFV", ["2625,66,295,61,295,241"; "3018,98,,61,,241"; "2625,66,,61,,241"]);
  ("EDFW", ["2198,68"]);
  ("EDFX", ["2756,,315,,315"]);
  ("EDFZ", ["3281,72,760,74.3,760,254.3"; "3281,262,,77,,257"]);
  ("EDGB", ["2953,,1833,,1833"]);
  ("EDGE", ["5643,180,1101,105,1101,285"]);
  ("EDGM", ["2017,65,1083,,1083"]);
  ("EDGP", ["2625,,279,,279"]);
  ("EDGS", ["1640,98,,38,,218"; "5315,98,1961,128,1928,308"; "1969,98,,128,,308"]);
  ("EDGZ", ["2543,,317,,317"]);
  ("EDHA", ["6893,147,151,,151"]);
  ("EDHB", ["1640,98,6,,6"]);
  ("EDHE", ["3609,,22,,22"]);
  ("EDHF", ["3412,,82,,82"]);
  ("EDHG", ["3215,,161,,148"]);
  ("EDHI", ["8629,148,16,52,15,232"]);
  ("EDHK", ["4134,98,99,82,89,262"; "1476,115,,81,,261"]);
  ("EDHL", ["6896,197,53,72,47,252"]);
  ("EDHO", ["1969,49"]);
  ("EDHP", ["1640,98"]);
  ("EDHS", ["2132,55,62,,62"]);
  ("EDHW", ["2625,,128,,128"]);
  ("EDJA", ["9780,98,2077,59,2077,239"]);
  ("EDKA", ["1706,65,623,,623"]);
  ("EDKB", ["2625,,197,,197"]);
  ("EDKH", ["3117,,1306,,1306"]);
  ("EDKL", ["3035,,157,,157"]);
  ("EDKM", ["2953,,1436,,1433"]);
  ("EDKP", ["1410,98"]);
  ("EDKR", ["2871,,1530,,1530"]);
  ("EDKU", ["1837,100,,32,,212"]);
  ("EDKV", ["3510,98,1896,58.6,1896,238.6"]);
  ("EDKW", ["2657,,1037,,956"]);
  ("EDKZ", ["3839,66,1548,73,1548,253"]);
  ("EDLA", ["3018,66,793,50,762,230"]);
  ("EDLB", ["2200,50"]);
  ("EDLC", ["1968,98,77,,65"]);
  ("EDLD", ["4593,98,213,84,213,264"]);
  ("EDLE", ["5095,148,386,66,424,246"]);
  ("EDLF", ["1886,131,105,,105"]);
  ("EDLH", ["2953,,190,,190"]);
  ("EDLI", ["4121,66,454,111,454,291"]);
  ("EDLK", ["2099,98,141,,141"]);
  ("EDLM", ["2723,,236,,232"]);
  ("EDLN", ["3937,98,124,129,125,309"]);
  ("EDLO", [",,,220,,40"]);
  ("EDLP", ["7152,148,699,57,674,237"]);
  ("EDLR", ["3904,,800,,800"]);
  ("EDLS", ["3215,66,157,108,157,288"]);
  ("EDLV", ["8005,148,95,92,105,272"]);
  ("EDLW", ["6562,148,418,61,401,241"]);
  ("EDLZ", ["2690,,394,,394"]);
  ("EDMA", ["5230,98,1510,71,1515,251"; "3325,100,,71.5,,251.5"]);
  ("EDMB", ["3215,75,1903,41,1903,221"]);
  ("EDMC", ["2858,,2196,,2216"]);
  ("EDMD", ["2050,98,1608,,1608"]);
  ("EDME", ["3806,75,1342,87,1333,267"]);
  ("EDMJ", ["1437,39,1861,,1861"]);
  ("EDMK", ["2789,,2306,,2340"; "2953,,2340,,2340"]);
  ("EDML", ["2953,,1312,,1312"]);
  ("EDMN", ["3770,66,1857,154,1857,334"]);
  ("EDMO", ["7500,147,1947,42,1890,222"]);
  ("EDMQ", ["2297,66"]);
  ("EDMS", ["4429,98,1053,97,1045,277"]);
  ("EDMT", ["3353,,1903,,1903"]);
  ("EDMV", ["3734,66,991,121,991,301"]);
  ("EDMY", ["2789,,1325,,1325"]);
  ("EDNA", ["2920,,1360,,1360"]);
  ("EDNG", ["1575,46"]);
  ("EDNH", ["2641,,2034,,2034"]);
  ("EDNI", ["2789,,1275,,1275"]);
  ("EDNJ", ["2099,98,1345,,1345"]);
  ("EDNL", ["3346,66,2099,56,2099,236"]);
  ("EDNR", ["2116,49,1298,,1298"]);
  ("EDNS", ["2789,,1805,,1805"]);
  ("EDNU", ["1640,98"]);
  ("EDNW", ["2132,98"]);
  ("EDNX", ["2651,51,1596,,1596"]);
  ("EDNY", ["7729,148,1334,60,1367,240"]);
  ("EDNZ", ["2625,,1902,,1902"]);
  ("EDOA", ["2625,,1878,,1878"]);
  ("EDOB", ["2296,131,1000,,1000"]);
  ("EDOD", ["4199,,335,,335"]);
  ("EDOE", ["3117,,430,,430"; "2625,,430,,430"]);
  ("EDOH", ["2953,,1266,,1266"]);
  ("EDOI", ["2821,131,120,,120"]);
  ("EDOJ", ["3346,,213,,213"]);
  ("EDOK", ["2625,,1535,,1535"]);
  ("EDOM", ["1476,98,171,,171"]);
  ("EDON", ["7874,164,35,82,35,262"]);
  ("EDOP", ["9843,180,147,64,166,244"]);
  ("EDOQ", ["2723,,502,,502"]);
  ("EDOR", ["2756,,131,,131"]);
  ("EDOS", ["2953,,1500,,1500"]);
  ("EDOT", ["1640,98"]);
  ("EDOV", ["6552,171,141,83,183,263"; "2297,131,,83,,263"]);
  ("EDOW", ["2625,,282,,282"]);
  ("EDOX", ["3281,,308,,308"]);
  ("EDOZ", ["2625,,167,,167"]);
  ("EDPA", ["3116,82,1916,88.9,1916,268.9"; "3117,98,,88,,268"]);
  ("EDPF", ["2756,,1270,,1270"]);
  ("EDPU", ["2953,,2100,,2082"]);
  ("EDPY", ["2575,,1649,,1649"]);
  ("EDQA", ["4223,50,810,36,830,216"; "3773,50,807,36,826,216"]);
  ("EDQC", ["2822,70,1491,120,1446,300"]);
  ("EDQD", ["3550,98,1587,60,1597,240"]);
  ("EDQE", ["3190,49,1674,88,1674,268"; "2317,85,,87,,267"]);
  ("EDQF", ["2559,,1370,,1370"]);
  ("EDQG", ["6502,98,979,,979"]);
  ("EDQH", ["2285,62,1076,256,1076,76"]);
  ("EDQK", ["2340,160,1650,85,1653,265"]);
  ("EDQL", ["2300,100,853,44,853,224"]);
  ("EDQM", ["4856,98,1958,87,1896,267"]);
  ("EDQN", ["1970,50"]);
  ("EDQR", ["1700,80,816,140,816,320"]);
  ("EDQT", ["3609,66,718,113,718,293"]);
  ("EDQW", ["1700,35"]);
  ("EDQY", ["2515,,1184,69,1184,249"]);
  ("EDQZ", ["2900,,1792,,1737"]);
  ("EDRB", ["10026,148,1223,55,1223,235"]);
  ("EDRF", ["1968,65,351,,351"]);
  ("EDRI", ["2428,98"]);
  ("EDRJ", ["2625,,1120,,1120"]);
  ("EDRK", ["3855,66,640,58,640,238"]);
  ("EDRL", ["3281,,394,,394"]);
  ("EDRM", ["2400,98,,180,,360"]);
  ("EDRP", ["2625,,1247,,1247"]);
  ("EDRT", ["3937,98,665,46,665,226"]);
  ("EDRY", ["5501,98,312,165,312,345"; "3281,98,,165,,345"]);
  ("EDRZ", ["9677,148,1126,30,1115,210"]);
  ("EDSA", ["3150,,2868,,2900"]);
  ("EDSB", ["9787,148,405,32,404,212"]);
  ("EDSG", ["3609,,2329,,2329"]);
  ("EDSH", ["1640"]);
  ("EDSI", ["2822,,1594,,1594"]);
  ("EDSK", ["2247,98"]);
  ("EDSL", ["2559,,2291,,2291"]);
  ("EDSN", ["4094,98,2648,91,2601,271"]);
  ("EDSP", ["2132,49,1315,,1315"]);
  ("EDST", ["1706,98,1155,,1155"; "2099,98,1155,,1155"]);
  ("EDSW", ["2756,,625,,625"]);
  ("EDSZ", ["2635,,2443,,2406"]);
  ("EDTB", ["3937,98,,35.4,,215.4"; "2592,98,405,35,405,215"]);
  ("EDTD", ["4232,98,2230,178,2219,358"]);
  ("EDTF", ["4068,98,799,160,799,340"]);
  ("EDTG", ["5413,148,695,53,695,233"; "1969,98,,53,,233"]);
  ("EDTH", ["2461,66"]);
  ("EDTL", ["9842,148,511,28,500,208"]);
  ("EDTM", ["5253,98,1820,79,1810,259"]);
  ("EDTO", ["2986,,509,,509"]);
  ("EDTQ", ["2204,65"]);
  ("EDTS", ["2638,,2169,,2169"]);
  ("EDTY", ["5053,98,1311,99,1298,279"; "2460,98,,99,,279"]);
  ("EDTZ", ["2460,164"]);
  ("EDUB", ["4918,98,103,73,103,253"]);
  ("EDUF", ["3937,98,284,80,284,260"]);
  ("EDUS", ["3937,98,399,89,399,269"; "2904,131,,89,,269"]);
  ("EDUT", ["3281,98,202,90,202,270"]);
  ("EDUW", ["7218,197,23,171,23,351"; "1640,98,,170,,350"]);
  ("EDVC", ["2953,,207,,207"]);
  ("EDVE", ["7546,148,273,85,291,265"; "2953,98,,85,,265"]);
  ("EDVH", ["2953,131,79,,79"]);
  ("EDVI", ["2671,,934,,934"]);
  ("EDVJ", ["3117,,656,,742"]);
  ("EDVK", ["4921,98,898,41,872,221"; "2297,98,,41,,221"]);
  ("EDVM", ["4003,75,293,73,293,253"]);
  ("EDVP", ["2953,,217,,250"]);
  ("EDVR", ["1989,32,,111.3,,291.3"]);
  ("EDVU", ["2625,65,246,,246"]);
  ("EDVY", ["2822,,148,,148"]);
  ("EDWA", ["1805,82"]);
  ("EDWB", ["2160,61,10,68,10,248"; "3937,98,10,164,10,344"]);
  ("EDWC", ["2296,65"]);
  ("EDWE", ["4265,98,2,73,2,253"]);
  ("EDWF", ["3937,66,3,79,3,259"]);
  ("EDWG", ["2789,,6,,6"]);
  ("EDWH", ["2552,,26,,26"]);
  ("EDWI", ["4787,98,16,20,16,200"; "2018,49,,161,,341"]);
  ("EDWJ", ["1640,98,8,,8"; "2296,65,8,,8"; "1404,98,8,,8"; "1558,98,8,,8"]);
  ("EDWL", ["1968,49,7,,7"]);
  ("EDWM", ["2789,,59,,59"]);
  ("EDWN", ["2953,65,85,53,85,233"]);
  ("EDWO", ["2625,,287,,287"]);
  ("EDWQ", ["2743,,96,,96"]);
  ("EDWR", ["2657,131,3,49,3,229"; "2854,131,3,122,3,302"; "3281,66,3,132,3,312"]);
  ("EDWU", ["3051,,128,,128"]);
  ("EDWX", ["1870,49"]);
  ("EDWY", ["3281,66,6,86,6,266"]);
  ("EDXA", ["3084,,177,,177"]);
  ("EDXB", ["2362,76"]);
  ("EDXC", ["2887,,54,,54"]);
  ("EDXE", ["3018,,131,,131"]);
  ("EDXF", ["2297,148,,43,,223"; "4003,98,130,108,130,288"; "3937,197,,113,,293"]);
  ("EDXG", ["2520,,236,,236"]);
  ("EDXH", ["1217,66"; "846,39"; "1574,98"]);
  ("EDXI", ["2789,,82,,82"]);
  ("EDXJ", ["4757,98,62,34.4,62,214.4"]);
  ("EDXK", ["2690,,24,,24"]);
  ("EDXL", ["2526,,10,,10"]);
  ("EDXN", ["2871,,72,,72"]);
  ("EDXO", ["2198,98,5,,5"]);
  ("EDXP", ["1673,66"]);
  ("EDXQ", ["2644,,97,,97"]);
  ("EDXR", ["3150,98,23,35,23,215"; "1969,98,,119,,299"]);
  ("EDXS", ["1477,99"]);
  ("EDXT", ["1640,98,80,,80"]);
  ("EDXW", ["5564,148,27,60,51,240"; "6955,148,32,144,31,324"]);
  ("EDXY", ["2165,131,25,,25"; "1984,131,25,,25"]);
  ("EEEI", ["6562,148,,70.7,,250.7"]);
  ("EEKA", ["4987,98,11,147,14,327"]);
  ("EEKE", ["2621,98,11,59,5,239"; "4980,98,14,180,8,360"]);
  ("EEPU", ["8136,148,21,35.3,47,215.3"]);
  ("EERD", ["1969,66"]);
  ("EERI", ["3937"]);
  ("EETN", ["10072,148,129,90.2,131,270.2"]);
  ("EETU", ["5902,101,210,88.4,192,268.4"]);
  ("EFAA", ["2834,65,738,137.9,738,317.9"]);
  ("EFAH", ["2624,75,95,,95"]);
  ("EFAL", ["2460,59,407,79.8,407,259.8"]);
  ("EFET", ["6565,148,999,34.7,1005,214.7"]);
  ("EFEU", ["3281,59,,116,,296"]);
  ("EFFO", ["2690,59,325,42.8,325,222.8"]);
  ("EFG", ["1598,98"]);
  ("EFGE", ["2066,39,46,,46"]);
  ("EFHA", ["8533,197,478,86,473,266"]);
  ("EFHF", ["3360,98,47,96,56,276"; "4396,98,48,186,47,6"]);
  ("EFHK", ["10039,197,133,48,178,228"; "11286,197,150,48,147,228"; "9518,197,162,154.1,146,334.1"]);
  ("EFHL", ["1640,49"]);
  ("EFHM", ["3000,45,,74,,254"]);
  ("EFHN", ["5249,59,20,33.8,20,213.8"]);
  ("EFHP", ["2526,49"]);
  ("EFHV", ["4134,59,430,47,430,227"; "2592,49,394,127,417,307"]);
  ("EFII", ["2165,59,,179,,359"]);
  ("EFIK", ["1520,49,,104,,284"; "3051,49,364,182,381,2"]);
  ("EFIM", ["3609,75,,18,,198"; "4929,49,,96,,276"]);
  ("EFIT", ["4921,98,,19,,199"]);
  ("EFIV", ["8199,148,480,47,463,227"; "2625,148,475,92,468,272"]);
  ("EFJM", ["2723,59,505,94.1,505,274.1"; "2723,49,505,153.6,505,333.7"]);
  ("EFJO", ["8202,171,398,110,364,290"; "3937,98,391,181,371,1"]);
  ("EFJY", ["8533,197,452,134,407,314"]);
  ("EFKA", ["8858,197,151,177,132,357"]);
  ("EFKE", ["8212,157,48,188,31,8"]);
  ("EFKG", ["1968,59"]);
  ("EFKH", ["2788,49"]);
  ("EFKI", ["8199,157,430,80,483,260"]);
  ("EFKJ", ["3806,75,,70,,250"]);
  ("EFKK", ["8202,197,78,11,82,191"; "2297,66,,112,,292"]);
  ("EFKM", ["4593,75,,175,,355"]);
  ("EFKN", ["2296,59"]);
  ("EFKO", ["3937,98,,57,,237"]);
  ("EFKR", ["2296,32"]);
  ("EFKS", ["8202,148,866,132,865,312"]);
  ("EFKT", ["8202,148,632,166,644,346"]);
  ("EFKU", ["4921,148,304,67.1,284,247.1"; "9186,197,306,157.1,316,337.2"]);
  ("EFKV", ["2952,75"]);
  ("EFKY", ["2765,49"]);
  ("EFLA", ["3937,98,,68,,248"; "1640,75,,130,,310"; "1804,75,,185,,5"]);
  ("EFLL", ["1115,49,,40.5,,220.5"]);
  ("EFLN", ["3084,59,,119,,299"]);
  ("EFLP", ["8202,197,348,67,349,247.1"]);
  ("EFMA", ["6243,197,4,23,17,203"]);
  ("EFME", ["3937,72,,46,,226"]);
  ("EFMI", ["5584,144,323,113,316,293"]);
  ("EFMN", ["1312,59"]);
  ("EFNS", ["1443,75,,60.5,,240.5"]);
  ("EFNU", ["3937,59,,39,,219"; "2625,59,,96,,276"]);
  ("EFOP", ["2950,32,331,,331"; "3083,52"]);
  ("EFOU", ["8205,197,47,121,33,301"]);
  ("EFPA", ["2625,59"]);
  ("EFPI", ["3322,59,140,126,146,306"; "3773,59,148,172,145,352"]);
  ("EFPK", ["2427,59"]);
  ("EFPN", ["1640,49"]);
  ("EFPO", ["7713,197,44,126,35,306"; "2628,98,36,174,31,354"]);
  ("EFPU", ["6528,148,,91.8,,271.8"]);
  ("EFPY", ["3281,66,,155.6,,335.6"]);
  ("EFRA", ["1640,49"; "4035,75,,185.5,,5.5"]);
  ("EFRH", ["3281,75,,107,,287"]);
  ("EFRN", ["3101,60,,190,,10"]);
  ("EFRO", ["9849,197,633,37,609,217"]);
  ("EFRU", ["3937,75"]);
  ("EFRV", ["2755,59"]);
  ("EFRY", ["2854,33,,82.7,,262.7"; "3346,59,,82,,262"; "4167,59,,129,,309"; "1575,33,,129.7,,309.7"]);
  ("EFSA", ["7546,148,311,126,289,306"]);
  ("EFSE", ["3609,49,406,42.6,413,222.6"; "4344,49,415,132.9,401,312.9"]);
  ("EFSI", ["5062,98,292,136.2,285,316.2"]);
  ("EFSO", ["4921,98,598,165,597,345"]);
  ("EFSU", ["2624,49"]);
  ("EFTO", ["1181,49,,88.8,,268.8"]);
  ("EFTP", ["8858,148,390,64.3,366,244.4"]);
  ("EFTS", ["3937,59,515,50,515,230"]);
  ("EFTU", ["8202,197,132,85,141,265"]);
  ("EFUT", ["6562,148,328,78,339,258"]);
  ("EFVA", ["8727,157,19,163,11,343"]);
  ("EFVI", ["951,82"]);
  ("EFVL", ["2624,49"]);
  ("EFVP", ["2950,65,295,,295"]);
  ("EFVR", ["6562,148,286,142,255,322"]);
  ("EFVT", ["2427,62,,72.1,,252.1"]);
  ("EFWB", ["2263,49"]);
  ("EFYL", ["4921,98,246,155.1,247,335.1"]);
  ("EG03", ["4265,27"]);
  ("EG19", ["2788,65"]);
  ("EG73", ["3599,151,,102.1,,282.1"]);
  ("EG74", ["9842,197,463,58.4,454,238.4"; "2953,82,,59.8,,239.8"]);
  ("EGAA", ["9121,148,206,65,268,245"; "6401,148,206,162,258,342"]);
  ("EGAB", ["4350,98,154,140.4,154,320.4"]);
  ("EGAC", ["6001,148,13,35,12,215"]);
  ("EGAD", ["3346,59,9,36,9,216"; "1824,59,9,81,9,261"; "2112,59,9,154,9,334"]);
  ("EGAE", ["3955,148,19,17,5,197"; "6076,147,17,73.1,10,253.1"]);
  ("EGAH", ["3280,164,103,79,103,259"]);
  ("EGBB", ["8527,151,305,148,328,328"]);
  ("EGBD", ["1794,65,172,52,174,232"; "1486,65,172,101,174,281"; "1949,65,175,176,172,356"]);
  ("EGBE", ["5988,151,267,47.4,265,227.4"]);
  ("EGBF", ["3592,98,273,82,269,262"; "2788,164"]);
  ("EGBG", ["1608,59,463,37.8,467,217.8"; "1099,98,463,54.8,469,234.8"; "3084,98,450,96,467,276"; "1624,59,464,148.8,463,328.8"; "1371,98,464,150.8,463,330.8"]);
  ("EGBJ", ["3218,112,83,35,86,215"; "4656,112,74,85,87,265"; "2625,59,81,174,88,354"]);
  ("EGBK", ["4160,98,391,26,420,206"; "2201,98,389,26,410,206"; "1975,98,391,54,390,234"; "1476,59,413,146,384,326"]);
  ("EGBL", ["1755"; "1805"]);
  ("EGBM", ["3904,91,412,76,438,256"]);
  ("EGBN", ["2693,75,114,27.8,95,207.8"; "3445,98,127,88,90,268"]);
  ("EGBO", ["2083,59,260,37.3,271,217.3"; "2624,75,257,97,274,277"; "3878,75,277,156.2,278,336.2"]);
  ("EGBP", ["1148,66,,36,,216"; "6591,148,433,80.4,412,260.4"; "1476,66,,86,,266"; "1787,150,433,123,413,303"]);
  ("EGBR", ["2788,164"]);
  ("EGBS", ["2343,59,317,86,301,266"]);
  ("EGBT", ["3002,60,430,86.9,426,266.9"]);
  ("EGBW", ["1932,59,158,46,158,226"; "3009,75,152,175.3,157,355.3"]);
  ("EGCB", ["1745,104"; "1699,98"; "2037,104"; "1299,104"]);
  ("EGCC", ["10000,150,212,51.1,249,231.1"; "9997,150,186,51.1,227,231.1"]);
  ("EGCD", ["7519,151,282,67,288,247"]);
  ("EGCF", ["1,1,11,,11"]);
  ("EGCJ", ["1919,59,23,1,23,19"; "2601,59,26,61,24,241"; "2723,59,26,106,24,286"; "2021,59,26,106,26,286"]);
  ("EGCK", ["3534,75,12,13.2,13,193.2"; "2887,75,12,71,11,251"]);
  ("EGCL", ["2198,59"; "1968,98,6,183,6,363"]);
  ("EGCN", ["9491,197,52,18,26,198"]);
  ("EGCS", ["2691"; "1509"]);
  ("EGCV", ["2621,151,275,48,275,228"; "2542,59,275,181,275,1"]);
  ("EGCW", ["3346,59,233,36,233,216"]);
  ("EGDC", ["6014,151,20,90.2,24,270.2"]);
  ("EGDJ", [""]);
  ("EGDL", ["7828,148,511,60.2,447,240.2"; "5991,148,451,174.9,439,354.9"]);
  ("EGDM", ["10538,150,401,50,378,230"; "6278,150,378,166.6,356,346.6"]);
  ("EGDN", ["2099"; "3582,,416,,445"]);
  ("EGDO", ["4610,151,279,3.5,299,183.5"; "5984,151,283,39,289,219"; "4295,151,284,93.5,285,273.5"; "3005,151,292,129.5,279,309.5"]);
  ("EGDR", ["3372,151,251,63,264,243"; "6006,151,258,112.8,267,292.8"; "3448,151,261,178.5,253,358.5"]);
  ("EGDW", ["4245,,116,,116"; "6007,,146,,107"; "3704,,119,,108"]);
  ("EGDX", ["5988,141,160,73,133,253"]);
  ("EGDY", ["4797,151,75,37,69,217"; "7580,151,53,83.1,69,263.1"]);
  ("EGEA", [""]);
  ("EGEC", ["10003,151,38,106,38,286"]);
  ("EGED", ["1729,59,10,66,10,246"; "1896,98,20,182,10,362"]);
  ("EGEF", ["1761,75,227,62,221,242"]);
  ("EGEL", ["1640,59,20,23,20,203"]);
  ("EGEN", ["1082,159,59,31,57,211"; "1729,59,42,99,55,279"; "1240,98,52,136,59,316"]);
  ("EGEO", ["4068,98,,13,,193"; "2953,98,,39,,219"]);
  ("EGEP", ["1729,59,87,32,89,212"; "1096,59,78,64,89,244"; "1125,101,80,176,91,356"]);
  ("EGER", ["1689,59,39,25,20,205"; "1348,98,25,58,30,248"; "1325,59,20,101,36,281"]);
  ("EGES", ["1532,59,33,26,60,206"; "1397,98,50,105,48,285"; "1266,98,66,165,45,345"]);
  ("EGET", ["5787,59,43,16,20,196"]);
  ("EGEW", ["954,59,13,11,26,191"; "1729,59,29,88,15,268"; "1381,59,25,133,16,313"]);
  ("EGEY", ["4924,59,37,105,44,285"]);
  ("EGFA", ["3031,75,420,72,413,252"]);
  ("EGFC", ["984"]);
  ("EGFE", ["5000,148,141,30,147,210"; "3412,148,148,88.3,138,268.3"]);
  ("EGFF", ["7848,151,205,116.8,213,296.8"]);
  ("EGFH", ["4429,151,261,36,295,216"; "2812,151,256,97,255,277"]);
  ("EGFP", ["2614,98,15,36,14,216"]);
  ("EGGD", ["6598,151,613,86.4,601,266.4"]);
  ("EGGP", ["7500,151,59,86,77,266"]);
  ("EGGW", ["7086,151,515,74,508,254"]);
  ("EGHA", ["2634,98,797,79,811,259"])].

(* ADRpy/data/runways.csv *)
Definition airports_13 : list (string * list string) := [
  ("EGHB", ["1804,59"]);
  ("EGHC", ["1981,59,,23,,203"; "2280,118,,68,,248"; "1571,59,,116"; "2598,118,384,162,387,342"]);
  ("EGHD", ["2641,85,458,48,473,228"; "3809,98,474,123,439,303"]);
  ("EGHE", ["1716,59,,90,,270"; "1968,75,,143,,323"; "1312,147,,177,,357"]);
  ("EGHF", ["4294"; ""; ""]);
  ("EGHG", ["3878,121,193,94,175,274"]);
  ("EGHH", ["7451,151,38,75.3,31,255.3"]);
  ("EGHI", ["5653,121,31,19,44,199"]);
  ("EGHJ", ["6027,75,49,,29"]);
  ("EGHK", ["1224,147,,84,,264"]);
  ("EGHL", ["5896,131,603,86,570,266"]);
  ("EGHN", ["2621,131,49,,24"]);
  ("EGHO", ["3179,75,303,,305"; "2493,101,319,,279"]);
  ("EGHP", ["2953"; "2999,82"]);
  ("EGHQ", ["9006,285,306,121,390,301"]);
  ("EGHR", ["2805,144,103,,105"; "2011,118"; "2382,98"; "4019,151,109,,90"]);
  ("EGHS", ["2460,85"]);
  ("EGHT", ["1187,147,,78,,258"]);
  ("EGHU", ["1968"]);
  ("EGHY", ["1771,59"]);
  ("EGJA", ["1630,121,277,27,285,207"; "2887,75,284,79.5,290,259.5"; "2402,121,268,133.3,277,313.3"]);
  ("EGJB", ["4800,148,303,88,334,268"]);
  ("EGJJ", ["5597,151,270,83,271,263"]);
  ("EGKA", ["3399,59,7,22,7,202"; "2877,164,6,63.5,6,243.5"; "1312,98,7,125,6,305"]);
  ("EGKB", ["5912,148,577,26,517,206"; "2598,59,586,105,598,285"]);
  ("EGKC", ["1995,59"]);
  ("EGKH", [""; "2621,98,67,107,70,287"]);
  ("EGKK", ["8415,148,195,77.7,195,257.7"; "10364,148,196,77.6,196,257.6"]);
  ("EGKL", ["1640,88"]);
  ("EGKR", ["574,98"; "1241,75"; "2943,98,222,,197"; "2792,82,206,,200"]);
  ("EGLA", ["1574,59"; "2001,59,645,132,624,312"]);
  ("EGLC", ["4948,98,16,93,19,273"]);
  ("EGLD", ["2542,59,249,62,241,242"; "1791,59,248,120,244,300"]);
  ("EGLF", ["8005,148,225,62,219,242"]);
  ("EGLG", ["2870,85,250,113,250,293"]);
  ("EGLJ", ["4229,151,224,59,222,239"; "5909,151,219,123.9,240,303.9"; "4167,151,222,178,238,358"]);
  ("EGLK", ["4380,151,322,72,324,252"]);
  ("EGLL", ["12799,164,79,89.6,78,269.6"; "12001,148,75,90,77,270"]);
  ("EGLM", ["3363,148,114,,127"; "3642,148,126,,123"; "3051,98,126,,114"]);
  ("EGLP", ["1755"]);
  ("EGLS", ["2562,164,279,,283"]);
  ("EGLW", ["114,52,18,24,18,204"]);
  ("EGMA", ["2309,98,,65,,245"]);
  ("EGMC", ["5023,121,49,54,37,234"]);
  ("EGMD", ["4938,121,10,33,12,213"; "2264,115,10,138,10,318"]);
  ("EGMF", ["1246,65"]);
  ("EGMH", ["9029,200,171,101.2,172,281.2"]);
  ("EGMJ", ["1,1"]);
  ("EGNA", ["2395,74"; "2838,81,281,,250"]);
  ("EGNB", ["2070,59,12,57.8,11,237.8"; "3458,98,16,113,16,293"]);
  ("EGNC", ["3077,75,149,1,159,181"; "6075,98,143,60,183,240"; "4057,150,,123.4,,303.4"]);
  ("EGNE", ["5522,98,85,26,76,206"; "2662,150,,77.6,,257.6"; "2764,150,,141.6,,321.6"]);
  ("EGNF", ["1847,118,249,56,225,236"; "1253,59,226,178,235,358"]);
  ("EGNG", ["2329,65"]);
  ("EGNH", ["2621,98,33,67.8,29,247.8"; "6132,151,32,95,28,275"; "3533,75,32,127.3,30,307.3"]);
  ("EGNI", ["2622,75"; "2133,75"]);
  ("EGNJ", ["7205,148,121,22,74,202"; "3458,98,87,82,85,262"]);
  ("EGNL", ["3438,151,38,56,24,236"; "1326,151,32,113,30,293"; "3318,151,33,166,44,346"]);
  ("EGNM", ["7382,150,673,137.7,662,317.7"]);
  ("EGNO", ["7946,151,30,71,55,251"; "4189,98,31,133,39,313"]);
  ("EGNR", ["6702,148,31,41,17,221"]);
  ("EGNS", ["3934,151,23,28,52,208"; "5751,151,29,77.9,32,257.9"; "2963,89,,175,18,355"]);
  ("EGNT", ["7642,151,263,65,239,245"]);
  ("EGNU", ["2533,,86,35,86,215"; "1312,65"; "2460,68"]);
  ("EGNV", ["7516,151,115,48,116,228"]);
  ("EGNW", ["1738,59,83,27,75,207"; "1630,59,71,152,79,332"]);
  ("EGNX", ["9491,151,306,88,282,268"]);
  ("EGNY", ["2329,98"]);
  ("EGOD", ["4328,151,,47,,227"; "4207,151,,150.1,,330.1"; "7500,151,20,169.7,29,349.7"]);
  ("EGOE", ["3215,150,265,43,272,223"; "3110,150,264,99,268,279"]);
  ("EGOQ", ["5180,150,187,37,197,217"]);
  ("EGOS", ["4523,151,248,45,238,225"; "6018,151,242,180,237,360"]);
  ("EGOV", ["5377,151,18,6.3,35,186.3"; "2200,151,19,70,36,250"; "7513,151,30,131,22,311"]);
  ("EGOW", ["5405,150,32,33,35,213"; "3505,148,34,83,30,263"; "3291,148,35,162,30,342"]);
  ("EGPA", ["3881,151,,58,17,238"; "4685,151,38,87,39,267"; "2231,59,38,140,,320"]);
  ("EGPB", ["1804,148,8,53,19,233"; "3871,151,20,83.5,15,263.5"; "4678,151,7,143.5,8,323.5"]);
  ("EGPC", ["3399,148,99,75.5,114,255.5"; "5988,148,114,127,114,307"]);
  ("EGPD", ["1893,151,203,46,190,226"; "2165,75,200,139.1,197,319.1"; "6001,151,203,158,215,338"; "853,75,200,179,199,359"]);
  ("EGPE", ["6191,151,30,49.4,21,229.4"; "2297,59,31,110.3,25,290.3"]);
  ("EGPF", ["8720,151,26,46,21,226"; "3622,151,17,90.6,23,270.6"]);
  ("EGPG", ["2690,75,348,76,329,256"]);
  ("EGPH", ["8400,150,110,58.6,100,238.6"; "2621,150,100,70,110,250"; "5730,150,99,119,134,299"]);
  ("EGPI", ["2083,59,33,73,54,253"; "5069,151,23,112,39,292"]);
  ("EGPJ", ["2296,1"]);
  ("EGPK", ["6000,148,48,23.7,60,203.7"; "9800,150,38,121.4,65,301.4"]);
  ("EGPL", ["6024,151,16,55.4,13,235.4"; "4003,151,18,167,13,347"]);
  ("EGPM", ["4462,102,75,55.3,15,235.3"]);
  ("EGPN", ["4593,98,17,91,13,271"]);
  ("EGPO", ["3281,75,26,60,21,240"; "7218,151,16,174.3,15,354.3"]);
  ("EGPR", ["2621,197,4,,1"; "2231,151"; "2776,151,4,,1"]);
  ("EGPT", ["2798,88,390,32,386,212"; "1998,72,392,92,388,272"; "2034,118,394,153,386,333"]);
  ("EGPU", ["4600,98,30,47,20,227"; "2690,62,38,109.5,24,289.5"; "1968,58,33,168,36,348"]);
  ("EGPY", ["3300,100"]);
  ("EGQK", ["7582,151,11,71,22,251"]);
  ("EGQL", ["4803,151,26,37,33,217"; "8491,150,30,82,21,262"]);
  ("EGQS", ["9091,150,20,43.7,24,223.7"; "6066,150,39,96.5,37,276.5"]);
  ("EGSA", ["2828,59,215,22,200,202"]);
  ("EGSC", ["6447,151,35,49.8,47,229.8"; "2949,115,36,52,36,232"; "2293,115,30,102,35,282"]);
  ("EGSD", ["1574,105,6,95,6,275"; "1181,98,6,175,6,355"]);
  ("EGSF", ["3238,75,26,94,26,274"; "2625,141,,150.9,,330.9"]);
  ("EGSG", ["2952,151,185,37,115,217"; "3533,151,185,37,115,217"; "2152,151,90,100,115,280"]);
  ("EGSH", ["4154,148,107,36.5,101,216.5"; "6040,148,117,90,106,270"]);
  ("EGSI", ["2624,68"]);
  ("EGSJ", ["2624,59,130,61,130,241"]);
  ("EGSL", ["0,0"; "2621,,275,87,278,267"; "2621,,275,87,278,267"]);
  ("EGSM", ["3169,59,80,93,80,273"]);
  ("EGSN", ["1864,59,226,63,220,243"; "2077,59,226,184,207,4"]);
  ("EGSO", ["2520,89,201,130,201,310"]);
  ("EGSP", ["3067,98,123,64,107,244"; "1807,59,105,143,105,323"]);
  ("EGSQ", ["5242,59,35,181,25,1"]);
  ("EGSR", ["3080,98,227,61,223,241"; "2552,32,227,61,223,241"]);
  ("EGSS", ["10003,151,324,44,348,224"]);
  ("EGST", ["2920,85,189,49,242,229"]);
  ("EGSU", ["4931,148,124,59.8,106,239.8"; "2887,82,116,59,104,239"]);
  ("EGSV", ["1479,59,174,21,181,201"; "2624,59,155,66,188,246"; "1548,75,177,66,192,246"]);
  ("EGSX", ["6332,148,321,18,321,198"; "3005,148,260,128,270,328"]);
  ("EGSY", ["3973,98,231,98,230,278"]);
  ("EGTA", ["3280,328"]);
  ("EGTB", ["2411,75,513,62.3,513,242.3"; "2001,75,511,62.3,509,242.3"; "2280,98,482,347.4"]);
  ("EGTC", ["5902,151,358,31.7,358,211.7"; "2033,59,,175.5,,355.5"]);
  ("EGTD", ["6168,148"]);
  ("EGTE", ["6834,151,99,76,102,256"; "4393,151,76,120,98,300"]);
  ("EGTF", ["2667,88,78,59,76,239"]);
  ("EGTG", ["8094,299,199,92,185,272"]);
  ("EGTH", ["1,1"]);
  ("EGTK", ["4327,75,248,10.8,258,190.8"; "2887,154,247,22.9,252,202.9"; "2887,148,258,85.8,246,265.8"; "2493,92,270,111.3,250,291.3"]);
  ("EGTO", ["2713,105,415,23,388,203"; "2264,69,,23,,203"; "3159,115,383,161,417,341"]);
  ("EGTP", ["2054,88,,6,,186"; "3084,59,330,44,325,224"; "2461,75,330,87,332,267"]);
  ("EGTR", ["2135,65,330,81,301,261"]);
  ("EGTU", ["3176,150,839,44,826,224"; "2845,150,,82.8,,262.8"; "2113,65,816,169.7,833,349.7"]);
  ("EGTW", ["2788,82"; "2575,65"]);
  ("EGUB", ["5981,150,178,8,203,188"; "4782,100,197,56,226,236"]);
  ("EGUD", ["3500"; "5911"]);
  ("EGUL", ["9000,150,27,55.7,28,235.7"]);
  ("EGUN", ["9221,200,27,103.4,33,283.4"]);
  ("EGUO", ["3593,150,590,5,557,185"; "5459,151,590,64.9,540,244.9"]);
  ("EGUW", ["7953,151,282,48,278,228"]);
  ("EGUY", ["8255,200,134,83,104,263"; "2500,59,129,151,126,331"]);
  ("EGVA", ["9994,200,286,88,255,268"]);
  ("EGVN", ["10007,184,284,74,249,254"]);
  ("EGVO", ["6030,141,395,93,391,273"]);
  ("EGVP", ["3596,147"; "3874,147"]);
  ("EGWC", ["3890,150,258,58,272,238"]);
  ("EGWE", ["3146,150"; "2500,75"; "3169,150"; "2624,150"]);
  ("EGWN", ["3077,148,366,21,319,201"; "2786,148,355,72,337,252"]);
  ("EGWU", ["5545,151,114,69.7,124,249.7"]);
  ("EGXC", ["9003,200,19,72,25,252"]);
  ("EGXD", ["4469,151,114,92.4,96,272.4"; "6096,151,115,151,99,331"]);
  ("EGXE", ["7520,150,111,155.8,132,335.8"]);
  ("EGXG", ["6158,151,29,54.7,29,234.7"; "5466,151,29,155.7,27,335.7"]);
  ("EGXH", ["9012,200,165,81,159,261"]);
  ("EGXJ", ["9004,197,461,41,393,221"]);
  ("EGXP", ["8990,200,196,41,168,221"]);
  ("EGXT", ["9052,200,273,73,244,253"]);
  ("EGXU", ["6020,150,49,32,50,212"; "4394,150,48,96,46,276"]);
  ("EGXW", ["9000,200,227,22,220,202"]);
  ("EGXY", ["5994,150,224,63,186,243"; "4239,150,,120,,300"; "4419,150,223,151,182,331"]);
  ("EGXZ", ["5951,150,80,22,92,202"; "4140,150,87,126,83,306"]);
  ("EGYC", ["7500,1,54,,66"]);
  ("EGYD", ["4803,147,177,8,181,188"; "6831,147,218,83,181,263"; "2354,131,210,90,194,270"]);
  ("EGYE", ["6007,151,366,57.5,323,237.5"; "4206,151,367,103,341,283"; "2657,75,367,177.5,367,357.5"]);
  ("EGYM", ["6086,300,53,8.7,74,188.7"; "9140,200,55,55.4,57,235.4"]);
  ("EGYO", ["2493,59"]);
  ("EGYP", ["5003,75,215,55,202,235"; "8497,150,244,105,208,285"]);
  ("EHAL", ["2625,82,11,,11"]);
  ("EHAM", ["6608,148,-13,41,-14,221"; "11483,148,-11,58,-12,238"; "11329,148,-12,87,-13,267"; "10826,148,-13,183,-12,3"; "11155,148,-12,183,-11,3"; "12467,198,-13,183,-12,3"]);
  ("EHBD", ["3934,75,115,30,111,210"]);
  ("EHBK", ["8202,148,365,33,370,213"]);
  ("EHDL", ["9678,164,144,17.5,158,197.5"]);
  ("EHDR", ["3117,102,14,74.4,14,254.4"]);
  ("EHEH", ["9843,148,73,35,67,215"]);
  ("EHGG", ["4922,148,16,9,12,189"; "8202,148,13,52,13,232"]);
  ("EHGR", ["6549,98,49,17.8,40,197.8"; "9118,148,42,100,38,280"]);
  ("EHHO", ["3543,99,40,,40"]);
  ("EHHV", ["1969,164,3,68,3,248"; "2165,164,3,123,3,303"; "2297,164,3,179,3,359"]);
  ("EHKD", ["4183,98,3,34,2,214"]);
  ("EHLE", ["4101,99,-12,48,-12,228"; "1410,164,,228,,48"]);
  ("EHLW", ["9701,164,4,55.4,4,235.4"; "6559,164,3,91,4,271"]);
  ("EHMZ", ["3281,99,6,88,6,268"]);
  ("EHND", ["2395"]);
  ("EHOW", ["2887,90,3,70,3,250"]);
  ("EHRD", ["7218,148,-15,57,-15,237"]);
  ("EHSB", ["10089,148,44,91.1,66,271.1"]);
  ("EHSE", ["2723,75,30,66,30,246"]);
  ("EHST", ["984,99,,60,,240"]);
  ("EHTE", ["2297,98,17,27,17,207"; "3934,88,17,86,17,266"]);
  ("EHTL", ["4100,700"; "4000,500"; "4100,700"; "3600,560"; "4500,910"; "4500,910"]);
  ("EHTW", ["9801,148,99,56,114,236"; "6558,82,98,112,115,292"]);
  ("EHTX", ["3658,131,,36,,216"; "2067,131,,126,,306"]);
  ("EHVB", ["8006,148,1,52,1,232"; "4920,148,1,163,1,343"]);
  ("EHVK", ["9922,148,71,57.9,64,237.9"; "9931,74,72,57.9,65,237.9"]);
  ("EHWO", ["7996,148,39,69,63,249"]);
  ("EIAB", ["2034,59"]);
  ("EIBN", ["1279,49"]);
  ("EIBR", ["1870,59"; "300,1"]);
  ("EIBT", ["1476,59"]);
  ("EICA", ["1968,59"]);
  ("EICK", ["4298,148,471,63,502,243"; "6998,148,477,160,460,340"]);
  ("EICL", ["2526,59"]);
  ("EICM", ["4003,98,65,75,81,255"]);
  ("EICN", ["1375,29"]);
  ("EIDL", ["4908,98,10,20.2,30,200.2"]);
  ("EIDW", ["8652,148,242,95,202,275"; "4393,200,217,105,216,285"; "6798,200,217,157,202,337"]);
  ("EIER", ["1968,59"]);
  ("EIFR", ["1466,50,87,,106"; "65,65"]);
  ("EIHH", ["1739,66"; "1640,33"]);
  ("EIHN", ["375,18"]);
  ("EIIH", ["1312,65"]);
  ("EIIM", ["520,18"]);
  ("EIIR", ["1706,59"]);
  ("EIKH", ["1988,32"; "1804,59"]);
  ("EIKK", ["3051,75"]);
  ("EIKN", ["7546,148,592,79,665,259"]);
  ("EIKY", ["4035,98,75,58,92,238"; "6562,148,82,71,112,251"]);
  ("EILT", ["1969,0"]);
  ("EIME", ["4800,150,319,41,306,221"; "6001,150,283,108,315,288"]);
  ("EIMH", ["1312,59"]);
  ("EIMN", ["869,65"; "1791,65"]);
  ("EIMY", ["355,19"]);
  ("EINC", ["2263,59,10"]);
  ("EINN", ["463,198,,35,,215"; "10495,148,46,52,15,232"; "805,148,16,80,8,260"; "543,148,11,125,2,305"; "23,148,8,169,4,349"]);
  ("EIRT", ["1476,59"]);
  ("EISG", ["3933,98,11,100,11,280"]);
  ("EITM", ["1837,39"]);
  ("EITT", ["2132,59"]);
  ("EIWF", ["4701,98,86,21,113,201"]);
  ("EIWT", ["3038,23,154,67.2,152,247.2"]);
  ("EKAH", ["9111,75,79,100.3,78,280.3"; "8865,148,81,100.3,75,280.3"]);
  ("EKAT", ["2133,66"]);
  ("EKBI", ["10172,148,215,87,244,267"]);
  ("EKCH", ["11811,148,13,41,14,221"; "10827,148,12,41,8,221"; "10072,148,13,123.2,8,303.2"]);
  ("EKCR", ["2106,98"]);
  ("EKEB", ["8527,148,78,79,97,259"]);
  ("EKEL", ["2133,82"]);
  ("EKFR", ["1400,52"]);
  ("EKGH", ["3346,59,,110,,290"]);
  ("EKGL", ["2592,98"]);
  ("EKGR", ["2296,98,18,,18"]);
  ("EKHE", ["1545,49"]);
  ("EKHG", ["2953,,167,,167"]);
  ("EKHL", ["39,39"]);
  ("EKHM", ["3609,328"]);
  ("EKHO", ["3935,90,,73,,253"]);
  ("EKHV", ["3675,76,81,97,58,277"]);
  ("EKKA", ["2818,50,164,34.1,167,214.1"; "2789,197,,90,,270"; "9816,75,155,89,171,269"; "9607,150,154,89.4,170,269.4"; "2296,60,163,134,166,314"]);
  ("EKLS", ["3045,75,25,65,25,245"]);
  ("EKMB", ["3937,98,16,97,16,277"]);
  ("EKMN", ["1640,59"]);
  ("EKOD", ["6053,148,44,59.8,46,239.8"; "2280,98,,130,,310"]);
  ("EKPB", ["3524,98,88,46,88,226"]);
  ("EKRD", ["2953,,153,,153"]);
  ("EKRK", ["4921,105,127,30.9,146,210.9"; "5709,105,145,116.3,138,296.3"]);
  ("EKRN", ["6568,148,46,113.7,51,293.7"]);
  ("EKSB", ["5895,98,12,139.4,21,319.4"]);
  ("EKSN", ["3934,98,91,86,92,266"]);
  ("EKSP", ["9863,150,126,105,141,285"; "9750,80,124,105,139,285"]);
  ("EKSS", ["2280,98"]);
  ("EKST", ["2953,,15,,16"]);
  ("EKSV", ["3933,98,69,139,72,319"]);
  ("EKTD", ["2871,,6,,6"]);
  ("EKTS", ["5249,148,21,100.1,23,280.1"]);
  ("EKVD", ["3203,75,128,18,143,198"; "2310,75,142,77,141,257"]);
  ("EKVG", ["5902,98,268,118,252,298"]);
  ("EKVH", ["3976,75,112,107.1,103,287.1"; "1804,98,,174.5,,354.5"]);
  ("EKVJ", ["4757,98,17,92.4,13,272.4"]);
  ("EKVO", ["1804,75,16,,16"]);
  ("EKYT", ["8707,148,8,83.3,10,263.3"; "8363,74,7,83.3,10,263.3"]);
  ("ELLX", ["13123,197,1158,60,1214,240"]);
  ("ELUS", ["2625,98"]);
  ("ENAE", ["1968,33"]);
  ("ENAL", ["7592,148,34,64.6,48,244.6"]);
  ("ENAN", ["5486,148,43,32,14,212"; "8097,148,23,150,14,330"]);
  ("ENAS", ["3040,132,,118,,298"]);
  ("ENAT", ["7165,131,8,121.2,7,301.2"]);
  ("ENBL", ["3084,,1034,74,1046,254"]);
  ("ENBM", ["3281,98,,86,,266"]);
  ("ENBN", ["3937,98,14,39,25,219"]);
  ("ENBO", ["11136,148,17,77.8,39,257.8"]);
  ("ENBR", ["9810,148,165,170.5,146,350.5"]);
  ("ENBS", ["3281,98,480,44,489,224"]);
  ("ENBV", ["3372,98,42,62,28,242"]);
  ("ENCN", ["6660,148,41,35,52,215"]);
  ("ENDI", ["3379,148,,76.6,2608,256.6"]);
  ("ENDO", ["2427,82"]);
  ("ENDU", ["8015,148,252,109,219,289"]);
  ("ENEG", ["2618,65"]);
  ("ENEV", ["9236,148,81,177.6,80,357.6"]);
  ("ENFA", ["2624,59"]);
  ("ENFG", ["6722,148,2694,149,2697,329"]);
  ("ENFL", ["3934,98,37,70.9,22,250.9"]);
  ("ENFY", ["2624,72"]);
  ("ENGK", ["3674,98"]);
  ("ENGM", ["11811,148,656,16,675,196"; "9678,148,670,16,681,196"]);
  ("ENGN", ["3281,66"]);
  ("ENGS", ["1936,66"]);
  ("ENHA", ["3097,98,713,,723"]);
  ("ENHD", ["6957,148,61,134,86,314"]);
  ("ENHF", ["2894,,259,46,260,226"]);
  ("ENHK", ["3179,98,19,118.8,10,298.8"]);
  ("ENHN", ["2906,32"]);
  ("ENHS", ["2066,98"]);
  ("ENHT", ["2346,66"]);
  ("ENHV", ["2625,,23,80,44,260"]);
  ("ENJA", ["4921,98"]);
  ("ENJB", ["2624,59"]);
  ("ENKA", ["3937,131"]);
  ("ENKB", ["6037,148,179,72,196,252"]);
  ("ENKJ", ["5321,98,345,123,354,303"]);
  ("ENKL", ["3281,98"]);
  ("ENKR", ["6939,148,281,69,280,249"]);
  ("ENLI", ["9809,148,15,131,25,311"]);
  ("ENLK", ["2881,98,71,24,72,204"]);
  ("ENLU", ["2296,82"]);
  ("ENMH", ["2887,98,30,170,39,350"]);
  ("ENML", ["6922,148,10,71,10,251"]);
  ("ENMS", ["3015,98,222,160.5,237,340.5"]);
  ("ENNA", ["9147,148,15,175.5,25,355.5"]);
  ("ENNK", ["2982,98,93,17,95,197"]);
  ("ENNM", ["2749,98,7,72,7,252"]);
  ("ENNO", ["4570,131,61,127,58,307"]);
  ("ENOL", ["8904,148,18,154,28,334"]);
  ("ENOP", ["3071,60,1827,70,1833,250"]);
  ("ENOV", ["3510,98,241,61,238,241"]);
  ("ENPY", ["100,100,10"]);
  ("ENRA", ["2759,98,226,136,220,316"]);
  ("ENRG", ["2411,164"]);
  ("ENRI", ["2624,59"]);
  ("ENRK", ["3543,59,330,,400"]);
  ("ENRM", ["2887,98,9,40,14,220"]);
  ("ENRO", ["5643,131,2051,136.1,2051,316.2"]);
  ("ENRS", ["2887,98,6,26,7,206"]);
  ("ENRV", ["2001,66"]);
  ("ENRY", ["8012,148,169,117,169,297"]);
  ("ENSB", ["7608,148,63,105.3,73,285.3"]);
  ("ENSD", ["3182,98,181,85,179,265"]);
  ("ENSG", ["3150,98,1619,59,1634,239"]);
  ("ENSH", ["3104,98,27,9,11,189"]);
  ("ENSI", ["1722,78"]);
  ("ENSK", ["3015,98,8,86,11,266"]);
  ("ENSN", ["4596,105,425,9,463,189"]);
  ("ENSO", ["3937,98,153,144.8,152,324.8"]);
  ("ENSR", ["3015,98,11,154.1,16,334.1"]);
  ("ENSS", ["3707,98,42,163.3,24,343.3"]);
  ("ENST", ["3563,98,32,25,56,205"]);
  ("ENSU", ["2034,98"]);
  ("ENTC", ["7848,148,25,13,13,193"]);
  ("ENTO", ["9675,148,282,179,255,359"]);
  ("ENTS", ["2428,98"]);
  ("ENTY", ["3084,98"]);
  ("ENUL", ["1903,82"]);
  ("ENVA", ["9052,148,17,90.2,56,270.2"; "1771,118,30,134,54,314"; "1117,118,30,134,54,314"]);
  ("ENVD", ["3271,98,127,87,87,267"]);
  ("ENVE", ["2624,66"]);
  ("ENVR", ["194,112"]);
  ("ENZV", ["8035,148,7,106.3,27,286.3"; "9369,197,9,179.1,29,359.1"]);
  ("EOD", ["4451,109,593,,573,0.6"]);
  ("EPAR", ["3914,115,,167,,347"]);
  ("EPBC", [",,342,,349"; "4265,295,343,102.6,352,282.6"]);
  ("EPBK", ["2887,,502,,502"; "3116,,502,,502"]);
  ("EPBY", ["8202,197,236,82,233,262"]);
  ("EPCE", ["8214,170,489,76,504,256"]);
  ("EPCH", ["6562,197,,82.9,,262.9"]);
  ("EPDE", ["8202,197,391,121,392,301"]);
  ("EPEL", ["2995,,10,,10"]);
  ("EPGD", ["9186,148,450,112.8,489,292.8"]);
  ("EPGI", ["2920,,115,,115"]);
  ("EPGL", ["2526,,833,,833"]);
  ("EPIW", ["3625,,965,,965"]);
  ("EPKA", ["2953,,1010,,1010"]);
  ("EPKI", ["2400"]);
  ("EPKK", ["8366,197,792,78,779,258"]);
  ("EPKM", ["3640,98,903,49.4,894,229.4"; ",,904,,894"]);
  ("EPKN", ["7546,197,658,112,675,292"]);
  ("EPKP", ["2297,328,651,,651"; "3281,328,651,,651"; "3445,328,651,,651"]);
  ("EPKR", ["3412,,919,,919"; "3035,,919,,919"]);
  ("EPKS", ["5850,185,,75,,255"; "8202,196,272,117.9,274,297.9"]);
  ("EPKT", ["9183,195,970,90,994,270"]);
  ("EPLE", ["5249,131,405,80,407,260"]);
  ("EPLK", ["8200,190,617,107.5,633,287.5"]);
  ("EPLL", [",,587,,607"; "8022,148,586,71,606,251"]);
  ("EPLS", ["3018,,300,,305"; "3018,,300,,305"; "2887,,308,,308"; "2657,,307,,308"]);
  ("EPLU", ["3281,98,512,130,512,310"]);
  ("EPMB", ["8202,197,16,79,16,259"]);
  ("EPMI", ["8216,160,492,125,492,305"]);
  ("EPML", ["8187,148,543,90,544,270"; "2165,82,540,180,545,360"]);
  ("EPMM", ["8245,140,561,90.3,604,270.3"]);
  ("EPMO", ["8202,197,338,82,341,262"]);
  ("EPMR", ["2950,200,,93,,273"; "2950,200,,175,,355"]);
  ("EPNL", ["2625,,833,,833"]);
  ("EPNT", ["5512,,2060,,2060"]);
  ("EPOD", ["2789,,436,,436"; "2789,,436,,436"]);
  ("EPOK", ["1890,100,,87,,267"; "8190,195,141,136,141,316"]);
  ("EPPI", ["7876,195,,35.2,,215.2"]);
  ("EPPK", ["2296,984"; "2460,328,,68,,248"]);
  ("EPPO", ["2296,984"; "8215,164,308,108.2,289,288.2"]);
  ("EPPR", ["6445,197,21,99,7,279"]);
  ("EPPT", ["3117,59"]);
  ("EPPW", ["8940,98,367,107,384,287"; "11565,197,363,107,381,287"]);
  ("EPRA", ["6544,203,622,75,602,255"]);
  ("EPRZ", ["2700,1125,,80.8,,260.8"; "10499,148,688,91,679,271"]);
  ("EPSC", ["8202,197,118,131,154,311"]);
  ("EPSD", [",,3,,3"; "2668,826,3,105.7,3,285.7"]);
  ("EPSK", ["7218,197,217,89,210,269"]);
  ("EPSN", ["8200,190,384,111.1,381,291.1"]);
  ("EPSO", ["8200,190,,108.3,,288.3"]);
  ("EPST", ["2986,,486,,492"]);
  ("EPSW", ["8268,148,632,72,629,252"]);
  ("EPSY", ["6562,197,438,19,462,199"]);
  ("EPTM", ["6573,205,,116,,296"]);
  ("EPTO", ["3900,187,,15.1,,195.1"; ",,164,,164"; "2791,328,,105,,285"; "4163,187,164,104,164,284"]);
  ("EPWA", ["9186,164,361,114.8,344,294.8"; "12106,197,351,151.6,351,331.6"]);
  ("EPWK", ["3281,,217,,214"]);
  ("EPWR", ["8202,197,404,116,400,296"]);
  ("EPWS", ["2526,,404,,377"]);
  ("EPZA", ["2625,,751,,751"]);
  ("EPZG", ["8202,197,194,65,187,245"]);
  ("EPZP", ["2887,,243,,243"]);
  ("ERO", ["70,70,33,,,227.9"]);
  ("ES-0001", ["3937,78,12,80,12,260"]);
  ("ES-0010", ["2953"]);
  ("ES-0011", ["1640"]);
  ("ES-0012", ["1247,82"]);
  ("ES-0014", ["1969"]);
  ("ES-0016", ["1640"]);
  ("ES-0021", ["1658,59"]);
  ("ES-0024", ["1440"]);
  ("ES-0026", ["1640,49"]);
  ("ES-0031", ["1099,98"]);
  ("ES-0039", ["1312,59"]);
  ("ES-0044", ["2953"]);
  ("ES-0048", ["2854"]);
  ("ES-0072", ["3871"]);
  ("ES-0073", ["2625"]);
  ("ES-0088", ["3281,66"]);
  ("ES-0089", ["1476,66"]);
  ("ES-0132", ["1500,100"]);
  ("ES-0175", ["2379"]);
  ("ES-0234", ["820,26"]);
  ("ESCF", ["7265,115,250,18.3,295,198.3"; "6135,121,308,83.2,277,263.2"]);
  ("ESCK", ["7384,125,77,148,88,328"]);
  ("ESCM", ["6250,131,60,33.2,68,213.2"; "6594,131,41,75,61,255"]);
  ("ESDF", ["7648,148,181,8.7,188,188.7"]);
  ("ESFA", ["2723,131"]);
  ("ESFR", ["6517,110,240,184.6,245,4.6"]);
  ("ESGA", ["2493,98"]);
  ("ESGE", ["2624,60,588,,588"]);
  ("ESGF", ["2296,98"]);
  ("ESGG", ["10823,148,478,26,506,206"]);
  ("ESGJ", ["7228,148,733,18.1,739,198.1"; "1969,82,727,114,738,294"]);
  ("ESGK", ["4318,98,781,32.3,773,212.4"]);
  ("ESGL", ["6529,148,200,62.2,190,242.2"]);
  ("ESGP", ["6689,131,57,5,48,185"; "2858,98,56,44,59,224"]);
  ("ESGR", ["5696,98,324,15.7,295,195.7"]);
  ("ESGS", ["2972,115"]);
  ("ESGT", ["5610,98,135,146,134,326"]);
  ("ESGU", ["2148,98"]);
  ("ESGV", ["1837,164"]);
  ("ESIA", ["7472,131,307,62.8,308,242.8"]);
  ("ESIB", ["7428,131,169,5,175,185"; "6342,131,165,112,181,292"]);
  ("ESKB", ["3248,131,36,64.9,52,244.9"]);
  ("ESKK", ["4919,98,397,21.9,394,201.9"]);
  ("ESKM", ["5951,148,631,161.2,617,341.2"]);
  ("ESKN", ["9442,148,113,83.1,127,263.1"; "6690,131,133,161.8,131,341.8"]);
  ("ESKO", ["2296,131"]);
  ("ESKU", ["2526,328"]);
  ("ESKV", ["3773,98,215,4,223,184"]);
  ("ESMA", ["4265,98,423,16,442,196"]);
  ("ESMB", ["2051,164"]);
  ("ESMC", ["3281,98"]);
  ("ESME", ["1969,98"; "2621,66"]);
  ("ESMF", ["1739,98"]);
  ("ESMG", ["3780,98,531,16.9,538,196.9"]);
  ("ESMH", ["1673,164"; "2624,164"]);
  ("ESMI", ["2625,164"]);
  ("ESMJ", ["2625,115"]);
  ("ESMK", ["7267,148,76,7,73,187"]);
  ("ESML", ["3445,295,,118,,298"; "3871,98,,118,,298"]);
  ("ESMO", ["4921,98,76,6,96,186"]);
  ("ESMP", ["3281,98,499,32.3,507,212.3"]);
  ("ESMQ", ["2179,131,9,48,11,228"; "6726,148,17,152.2,15,332.3"]);
  ("ESMS", ["2615,75,232,105.3,228,285.3"; "9186,148,209,173.4,236,353.4"]);
  ("ESMT", ["7419,131,64,6,83,186"]);
  ("ESMU", ["1982,98"]);
  ("ESMV", ["6726,131,556,43.1,555,223.1"]);
  ("ESMX", ["6900,148,610,13.1,563,193.1"]);
  ("ESMY", ["2625,49"]);
  ("ESMZ", ["1969,75"]);
  ("ESNA", ["3281,131,,140,,320"]);
  ("ESNC", ["3281,115,,59,,239"]);
  ("ESND", ["5579,98,1172,87,1176,267"]);
  ("ESNG", ["5623,148,1027,117.9,970,298"]);
  ("ESNH", ["4331,98,93,126.1,80,306.1"]);
  ("ESNJ", ["6562,82,891,144.2,901,324.2"]);
  ("ESNK", ["6565,148,34,171.5,23,351.5"]);
  ("ESNL", ["6564,98,704,142.9,688,322.9"]);
  ("ESNM", ["2460,131,,143,,323"; "3282,59,,180,,360"; "2884,98,,176.4,,356.4"]);
  ("ESNN", ["6857,148,16,160,12,340"]);
  ("ESNO", ["6607,148,353,122,331,302"]);
  ("ESNP", ["3281,82,,163.5,,343.5"]);
  ("ESNQ", ["8209,148,1508,33.7,1432,213.7"]);
  ("ESNR", ["3281,98,,27,,207"; "2953,131,,153,,333"]);
  ("ESNS", ["6890,148,157,106.2,125,286.2"]);
  ("ESNT", ["6562,82,,121,,301"]);
  ("ESNU", ["7551,148,24,138,17,318"]);
  ("ESNV", ["4928,98,1138,103.2,1138,283.2"]);
  ("ESNX", ["8201,148,1241,128.2,1240,308.2"]);
  ("ESNY", ["2625,56,88,31,82,211"; "8281,131,87,129.6,60,309.6"]);
  ("ESNZ", ["8202,148,1194,115,1233,295"; "4034,54,,122,,302"]);
  ("ESOE", ["8535,148,161,11.7,188,191.7"]);
  ("ESOH", ["4951,98,474,176.7,469,356.7"]);
  ("ESOK", ["8255,148,332,25.6,352,205.6"; "1840,170,,26.2,,206.2"]);
  ("ESOW", ["8468,164,5,8.2,21,188.2"]);
  ("ESPA", ["10990,148,65,137.3,21,317.3"]);
  ("ESPE", ["7316,115,597,116.6,591,296.6"]);
  ("ESQO", ["6562,131,33,147.1,33,327.1"]);
  ("ESSA", ["10830,148,98,10,118,190"; "8201,148,137,10.4,98,190.4"; "8202,148,108,75.9,124,255.9"]);
  ("ESSB", ["5472,148,46,125,42,305"]);
  ("ESSD", ["7579,148,503,133,493,313"]);
  ("ESSF", ["6383,131,366,116,358,296"]);
  ("ESSG", ["2687,,894,,894"]);
  ("ESSI", ["1968,82"; "2624,82"]);
  ("ESSK", ["6562,148,210,181,223,1"]);
  ("ESSL", ["6989,131,142,112,172,292"]);
  ("ESSP", ["7228,148,13,90.8,32,270.8"; "1948,115,7,115,8,295"]);
  ("ESST", ["5219,95,349,157.7,393,337.7"]);
  ("ESSU", ["6187,115,129,178.1,130,358.1"]);
  ("ESSV", ["6562,148,140,21,136,201"; "3611,131,142,101,164,281"]);
  ("ESTA", ["613,131,68,41,64,221"; "6381,131,60,136.4,52,316.5"]);
  ("ESTF", ["2624,98"]);
  ("ESTL", ["6596,131,126,113,139,293"; "7449,131,122,113,136,293"; "2588,82,,113,,293"; "2590,82,,113,,293"]);
  ("ESTT", ["2395,98"]);
  ("ESUD", ["7490,131,894,151,904,331"]);
  ("ESUJ", ["2986,,427,,427"]);
  ("ESUK", ["3017,131,,54,,234"; "3014,131,,107,,287"; "3949,131,,171,,351"]);
  ("ESUP", ["4659,98,540,118.2,540,298.2"]);
  ("ESUS", ["3937,,1011,,1011"]);
  ("ESUT", ["5254,98,1503,152.5,1502,332.5"]);
  ("ESVS", ["2750,65"]);
  ("ETAD", ["10007,148,1128,44.7,1197,224.7"]);
  ("ETAR", ["10498,148,761,82.8,776,262.8"; "9278,148,769,86.8,782,266.8"]);
  ("ETEU", ["7005,100,978,78,979,258"]);
  ("ETHA", ["2297,98"]);
  ("ETHB", ["6010,148,225,77.6,213,257.6"]);
  ("ETHC", ["6007,148,127,81,129,261"]);
  ("ETHE", ["1673,98,128,84,125,264"]);
  ("ETHF", ["3413,98,566,119,558,299"]);
  ("ETHL", ["1968,164,,33.5,,213.5"; "5400,98,1761,92.9,1765,272.9"]);
  ("ETHM", ["5342,117,592,76,537,256"]);
  ("ETHN", ["3320,98,1536,75,1535,255"]);
  ("ETHR", ["1755,98,1271,84,1266,264"]);
  ("ETHS", ["1312,148,,64.3,,244.3"; "8005,95,233,91,245,271"; "3281,164,,88.3,,268.3"]);
  ("ETIC", ["3300,73,1350,143,1363,323"]);
  ("ETID", ["3007,75,363,100,368,280"]);
  ("ETIH", ["2187,72,,90,,270"]);
  ("ETIN", ["2625,100,645,64.9,689,245"]);
  ("ETMN", ["8002,148,69,78,39,258"]);
  ("ETNA", ["6892,148,,89,,269"]);
  ("ETND", ["4209,148,127,85,124,265"]);
  ("ETNG", ["10009,147,262,91,289,271"]);
  ("ETNH", ["8005,98,26,79.4,38,259.4"]);
  ("ETNJ", ["8136,98,18,101.6,19,281.6"]);
  ("ETNL", ["8202,148,138,98,110,278"]);
  ("ETNN", ["8003,148,383,67,330,247"]);
  ("ETNS", ["8003,98,64,47.7,65,227.7"; "6554,148,59,74.2,70,254.2"]);
  ("ETNT", ["8005,98,23,77.8,19,257.8"]);
  ("ETNW", ["5573,156,179,26.4,170,206.4"; "6157,153,172,81.4,171,261.4"; "3569,132,169,81.4,167,261.4"]);
  ("ETOI", ["3500,80,1353,102,1353,282"]);
  ("ETOR", ["3004,75,308,49,308,229"]);
  ("ETOU", ["7065,120,454,73.3,459,253.3"]);
  ("ETSA", ["6777,98,2035,72.2,2043,252.2"]);
  ("ETSB", ["8225,148,1550,29.3,1564,209.3"]);
  ("ETSE", ["3937,98,1512,79,1491,259"]);
  ("ETSF", ["9003,151,1703,93,1703,273"]);
  ("ETSH", ["7936,98,254,93.3,263,273.3"]);
  ("ETSI", ["8002,98,1196,68,1191,248"; "9646,197,1201,68.2,1194,248.2"]);
  ("ETSL", ["8012,98,1819,29,1787,209"]);
  ("ETSN", ["8005,98,1249,91,1246,271"]);
  ("ETUO", ["7388,150,211,91.2,235,271.2"]);
  ("EVAD", [""; ""]);
  ("EVLA", ["6568,131,5,70,16,250"]);
  ("EVRA", ["10499,148,31,185.2,34,5.2"]);
  ("EVRS", ["3281,75,4,148.2,4,328.2"]);
  ("EVVA", ["4259,105,19,35.5,12,215.5"]);
  ("EXI", ["1000,1000"]);
  ("EYDR", ["2953,,302,,302"]);
  ("EYKA", ["10335,148,236,85,256,265"]);
  ("EYKD", ["6562,164,161,,158"]);
  ("EYKL", ["1935,138"; "1640,69"]);
  ("EYKS", ["2756,197"; "2756,197,246,94,246,274"]);
  ("EYMM", ["2625,,243,,243"]);
  ("EYMO", ["1280,60"]);
  ("EYNA", ["2953,,262,,262"]);
  ("EYND", ["2650,110"]);
  ("EYPA", ["6562,131,33,13,33,193"]);
  ("EYPP", ["6562,131,190,137,190,317"]);
  ("EYPR", ["2188,59"; "2953,131"; "3609,131"]);
  ("EYRK", ["3609,,459,,459"]);
  ("EYRO", ["2625,,177,,177"]);
  ("EYSA", ["11483,148,443,146.1,437,326.1"; "10761,105,439,146.1,433,326.1"]);
  ("EYSB", ["3281,98,270,104,270,284"]);
  ("EYSE", ["3281,,262,,262"]);
  ("EYVI", ["8251,164,594,22,646,202"]);
  ("EYVP", ["2280,170"; "620,60"]);
  ("F09", ["2000,50,1346,180,1346,0"]);
  ("F13", ["2600,110,,,,300.3"]);
  ("F23", ["2730,75"; "1850,80"]);
  ("F25", ["2326,20,2092,,2108"]);
  ("F50", ["2000,50"]);
  ("F57", ["3600,2200,,,,290"]);
  ("F78", ["3000,30"]);
  ("F81", ["2375,80"; "2585,100"]);
  ("F92", ["2580,375,1067,,1067"]);
  ("F95", ["2859,75,118,177,115,357"]);
  ("FA01", ["40,40"]);
  ("FA04", ["45,45,,,,227.4"]);
  ("FA05", ["3900,2250"]);
  ("FA06", ["50,40"]);
  ("FA08", ["5090,125"; "2500,100"]);
  ("FA09", ["2700,165"]);
  ("FA10", ["60,60"]);
  ("FA11", ["2450,100,,,,342"]);
  ("FA12", ["72,72,,,,212.8"]);
  ("FA14", ["50,50,,,,303"]);
  ("FA15", ["50,50"]);
  ("FA16", ["50,50,,,,270"]);
  ("FA17", ["1800,100"]);
  ("FA18", ["4000,80"]);
  ("FA19", ["50,50"]);
  ("FA20", ["20,20"]);
  ("FA21", ["50,50"]);
  ("FA22", ["93,93"]);
  ("FA23", ["40,40"; "48,46"]);
  ("FA24", ["1800,100"]);
  ("FA25", ["1415,100,,,,239"]);
  ("FA26", ["2500,100,,,,0.1"]);
  ("FA27", ["2400,75,,,,270"]);
  ("FA29", ["2350,100"]);
  ("FA30", ["2500,80"]);
  ("FA31", ["55,55,,,,254.1"]);
  ("FA32", ["2332,50"]);
  ("FA33", ["25,25"]);
  ("FA34", ["50,50,,,,281.4"]);
  ("FA35", ["4000,70"]);
  ("FA36", ["3900,75,,180,,330"]);
  ("FA37", ["4400,100,,180,,313.8"]);
  ("FA38", ["2900,97,,,,358.8"]);
  ("FA39", ["110,110,,,,359"]);
  ("FA40", ["4425,50,,50,,315"]);
  ("FA41", ["30,20"]);
  ("FA42", ["1780,155"; "2000,115"]);
  ("FA43", ["2700,120"]);
  ("FA44", ["3600,150"]);
  ("FA45", ["25,25"]);
  ("FA46", ["1800,100"]);
  ("FA47", ["114,86,,,,225"]);
  ("FA48", ["36,36"]);
  ("FA49", ["5280,150"]);
  ("FA50", ["2500,100"]);
  ("FA51", ["4000,150"]);
  ("FA52", ["62,62"]);
  ("FA53", ["500,20,,,,348"]);
  ("FA54", ["4200,50,,50,,243.1"]);
  ("FA55", ["2650,100"]);
  ("FA56", ["45,45,,,,360"]);
  ("FA57", ["40,40,,,,229"]);
  ("FA58", ["58,47,,,,271.1"]);
  ("FA59", ["48,35,,,,312.7"]);
  ("FA60", ["3000,75,,,,1.1"]);
  ("FA61", ["50,50"]);
  ("FA62", ["3600,200"]);
  ("FA63", ["3400,150"]);
  ("FA64", ["3100,140"; "2300,135"]);
  ("FA65", ["60,60"]);
  ("FA66", ["26,26,,,,0.9"]);
  ("FA67", ["40,40"]);
  ("FA69", ["2500,50"]);
  ("FA70", ["45,45"]);
  ("FA71", ["2200,50"]);
  ("FA72", ["3000,115"]);
  ("FA73", ["7000,2000"; "7000,2000"]);
  ("FA74", ["1860,75"]);
  ("FA76", ["65,65,,,,359.4"]);
  ("FA77", ["2600,100,,,,232"]);
  ("FA78", ["3500,75,,,,6"]);
  ("FA79", ["300,300,,,,312"]);
  ("FA80", ["2110,61,,,,264"]);
  ("FA81", ["2175,95"]);
  ("FA83", ["4000,50"]);
  ("FA88", ["2750,100,,,,305"]);
  ("FA99", ["2100,80"]);
  ("FAAB", ["6063,151,98,346.6,82,166.6"; "5499,118,69,44,80,224"; "4823,115,82,88,80,268"]);
  ("FAAG", ["6824,66,,49,,229"]);
  ("FAAL", ["4757,100,,84,,264"]);
  ("FABA", [""; ""]);
  ("FABB", ["5902,49,5350,159,5300,339"]);
  ("FABE", ["8202,197,1945,57,1950,237"]);
  ("FABL", ["8396,151,4413,360,4421,180"; "7202,151,4457,102,4413,282"]);
  ("FABM", ["3855,49,5517,96,5561,276"; "4301,150,5498,108,5558,288"]);
  ("FABO", ["4003,30,,53,,233"]);
  ("FABR", ["3300,50"]);
  ("FACO", ["4921,,3582,,3600"]);
  ("FACT", ["10502,200,144,346,147,166"; "5581,151,143,136,151,316"]);
  ("FACV", ["4101,49,,67,,247"]);
  ("FADA", ["5171,,4165,,4142"; "4040,,4146,,4177"; "3802,,4146,,4181"; "4483,,4142,,4171"]);
  ("FADK", ["4003,151,,21.9,,201.9"]);
  ("FADN", ["8005,200,33,36,31,216"]);
  ("FADU", ["3215,49,6050,164,5958,344"]);
  ("FADX", ["2410,30,220,,220"]);
  ("FAEC", ["4026,,4276,,4245"]);
  ("FAEL", ["5200,150,394,37,407,217"; "6362,150,435,82,387,262"]);
  ("FAEO", ["5085,33,5792,113,5801,293"]);
  ("FAFB", ["4593,49,,60,,240"]);
  ("FAFK", ["2952,65"; "2296,,399,,399"]);
  ("FAGC", ["6004,75,5247,153,5325,333"]);
  ("FAGG", ["6562,148,622,89,648,269"]);
  ("FAGM", ["5617,50,5438,89,5483,269"; "4898,50,5424,158,5460,338"]);
  ("FAGR", ["4921,75,2582,15,2604,195"; "2801,98,2588,127,2588,307"]);
  ("FAGT", ["3871,131,,20,,200"; "2756,131,,100,,280"; "3937,49,,136,,316"]);
  ("FAGY", ["5328,36,3531,41.8,3472,221.8"]);
  ("FAHA", ["3809,30,4384,59,4398,239"; "2999,98,,130,,310"]);
  ("FAHL", ["3963,,249,,249"]);
  ("FAHR", ["3937,49,5525,135,5585,315"]);
  ("FAHS", ["6939,88,1710,76,1743,256"; "13095,151,1659,164,1734,344"]);
  ("FAHV", ["4298,75,,79,,259"; "3694,75,,124,,304"]);
  ("FAJS", ["14495,200,5558,14,5501,194"; "11155,197,5510,14,5494,194"]);
  ("FAKD", ["2953,82,,31,,211"; "3281,82,,133,,313"; "4921,59,,166,,346"]);
  ("FAKM", ["9843,150,3900,359,3940,179"; "8002,148,3950,80,3915,260"]);
  ("FAKN", ["10171,148,2825,34.2,2827,214.2"]);
  ("FAKP", ["4265,98"]);
  ("FAKR", ["2684,30,5460,63,5499,243"; "2260,104,,138,,318"]);
  ("FAKS", ["2953,98,,8,,188"; "5824,46,,54,,234"; "3937,98,,104,,284"]);
  ("FAKT", ["2658,60"]);
  ("FAKU", ["5578,49,4382,4,4351,184"]);
  ("FAKZ", ["4921,98,259,4,256,184"]);
  ("FALA", ["10000,75,4517,47,4397,227"; "5775,49,4504,65,4410,250"]);
  ("FALC", ["5249,49,,127,,307"]);
  ("FALE", ["12139,197,304,61,304,241"]);
  ("FALI", ["2592,66,,49,,229"; "4154,49,4875,166,4875,346"]);
  ("FALL", ["4462,,4880,,4828"]);
  ("FALM", ["13189,151,3059,90,3069,270"; "1640,49,3000,90,3004,270"]);
  ("FALO", ["3937,59,,81,,261"]);
  ("FALW", ["7680,150,104,1,108,181"; "7689,150,108,1,102,181"; "4935,150,102,46,102,226"; "6533,150,102,136,108,316"]);
  ("FALY", ["3937,49,3486,90,3548,270"]);
  ("FAMB", ["4413,82,4849,359,4886,179"; "5905,48,4878,128,4845,308"]);
  ("FAMD", ["4145,75,1124,141,1098,321"]);
  ("FAMG", ["4495,100,,22,,202"]);
  ("FAMI", ["3281,33,,41,,221"]);
  ("FAMJ", ["4921,49,5573,123,5600,303"]);
  ("FAMM", ["15157,148,4172,23,4148,203"]);
  ("FAMN", ["4041,66,1126,72,1153,252"]);
  ("FAMO", ["3694,,526,,526"]);
  ("FAMS", ["5046,33,,16.5,,196.5"]);
  ("FAMU", ["6059,98,,157,,337"]);
  ("FANC", ["4921,75,4074,90,4054,270"]);
  ("FANS", ["3419,,2901,,2835"]);
  ("FANY", ["3970,56,3900,85,3900,265"]);
  ("FAOB", ["6926,131,52,75,45,255"; "10220,151,52,145,37,325"]);
  ("FAOH", ["5577,98,1040,13,1061,193"]);
  ("FAPA", ["3608,98"; "5996,98"; "3936,98"; "2624,98"]);
  ("FAPE", ["6496,151,226,58,185,238"; "3865,59,211,81,189,261"; "5502,151,192,146,184,326"]);
  ("FAPF", ["4498,,4401,,4383"]);
  ("FAPG", ["4003,66,444,100,465,280"]);
  ("FAPH", ["4491,60,1396,354,1432,174"]);
  ("FAPI", ["7218,82,4228,61,4354,241"]);
  ("FAPJ", ["3610,100,,64,,244"]);
  ("FAPM", ["5043,98,2351,142,2423,322"]);
  ("FAPN", ["9022,98,3408,37,3412,217"]);
  ("FAPP", ["8400,148,4076,359,4013,179"; "7612,148,4014,38,4020,218"]);
  ("FAPS", ["4885,98,,13,,193"; "3281,98,,134.6,,314.6"]);
  ("FAPY", ["4406,66,4643,43,4691,223"; "2387,150,4707,96,4680,276"]);
  ("FAQT", ["3937,66,,95,,275"]);
  ("FARB", ["4265,69,73,34,109,214"]);
  ("FARG", ["4019,50,,145,,325"]);
  ("FARO", ["3728,,3852,25,3786,205"]);
  ("FARS", ["4921,49,,80,,260"; "2395,59,,113,,293"]);
  ("FASB", ["5213,66,,74,,254"]);
  ("FASC", ["3609,59,5250,91,5250,271"]);
  ("FASD", ["4665,82,,358,,178"]);
  ("FASE", ["4921,59"]);
  ("FASH", ["2492"]);
  ("FASI", ["5249,59,,16,,196"; ""; "1818,70,,118,,298"]);
  ("FASK", ["6520,98,,6,,186"; "6589,147,,49,,229"]);
  ("FASS", ["5709,75,,153,,333"]);
  ("FASX", ["1800,150,,40,,220"; "3291,39,,126,,306"]);
  ("FASY", ["3640"]);
  ("FASZ", ["5085,98,,156,,336"]);
  ("FATA", ["3655,25,5205,95,5184,275"]);
  ("FATF", ["4920,33,,10,,190"; "3614,110,,51,,231"; "4593,110,,141,,321"]);
  ("FATP", ["4265,33,4547,351,4497,171"; "3937,49,4484,78,4498,258"]);
  ("FATT", ["4941,62,5313,18,5303,198"]);
  ("FATZ", ["4659,66,1914,49,1808,229"]);
  ("FAUL", ["3395,59,1703,4,1653,184"; "5381,75,1679,34,1720,214"]);
  ("FAUP", ["2736,98,2748,59,2753,239"; "16076,197,2782,153,2711,333"]);
  ("FAUT", ["4921,98,,69,,249"; "6562,75,2397,113,2400,293"]);
  ("FAVB", ["3937,66,,164,,344"]);
  ("FAVG", ["3035,72,20,28,20,208"]);
  ("FAVM", ["5085,49,2300,71,2315,251"]);
  ("FAVR", ["4265,59,328,57,327,237"]);
  ("FAVV", ["5266,72,4854,9,4847,189"; "3724,52,4862,125,4833,305"]);
  ("FAWA", ["3937,75,3640,,3640"]);
  ("FAWB", ["4200,72,4070,44,4073,224"; "5998,98,4038,93,4095,273"]);
  ("FAWI", ["4134,36,5078,19,5019,199"; "1000,30"; "2500"]);
  ("FAWK", ["11001,148,4872,352,4897,172"; "6299,148,4919,44,4940,224"]);
  ("FAWM", ["6578,59,4399,50,4373,230"]);
  ("FAYP", ["5200,75,42,356,52,176"]);
  ("FAZR", ["6480,100,,27,,207"]);
  ("FBFT", ["7218,98,3281,97,3278,277"; "9843,165,3323,121,3278,301"; "4147,72,3271,147,3283,327"]);
  ("FBGH", ["3148,59"]);
  ("FBJW", ["5495,82,,63,,243"]);
  ("FBKD", ["3437,72"]);
  ("FBKE", ["6562,98,3298,71,3263,251"]);
  ("FBKI", ["2861,59"]);
  ("FBMN", ["6562,98,3092,66,3093,246"]);
  ("FBMU", ["4933,59"]);
  ("FBNX", ["2562,59"]);
  ("FBSK", ["9843,148,3292,61.6,3291,241.6"]);
  ("FBSN", ["5381,66,,103,,283"]);
  ("FBSP", ["5840,98,2938,102,2936,282"]);
  ("FBSV", ["7218,66"]);
  ("FBTP", ["9850,148,,64,,244"; "6585,60,,64,,244"]);
  ("FCBB", ["10827,148,1030,50,1047,230"]);
  ("FCBD", ["6725,98"]);
  ("FCOE", ["6726,95"]);
  ("FCOM", ["5906,,1289,,1257"]);
  ("FCOO", ["5905,98,,79.4,,259.4"]);
  ("FCOU", ["6726,98,1158,14,1155,194"]);
  ("FCPL", ["6725,95"]);
  ("FCPP", ["8530,148,54,166,52,346"]);
  ("FD00", ["50,50"]);
  ("FD02", ["3000,130"]);
  ("FD03", ["1800,50"]);
  ("FD04", ["6247,150,,,,214"]);
  ("FD05", ["40,40"]);
  ("FD06", ["40,40,,,,267.3"]);
  ("FD07", ["405,120"]);
  ("FD08", ["5180,85,,,,226"]);
  ("FD09", ["3000,60"]);
  ("FD10", ["120,120,,,,7"]);
  ("FD11", ["50,50,,,,215"]);
  ("FD12", ["3000,100"]);
  ("FD13", ["65,65,,,,316"]);
  ("FD14", ["3000,100,,,,0.3"]);
  ("FD15", ["2700,50,,,,220"]);
  ("FD16", ["3000,75"]);
  ("FD17", ["25,25"]);
  ("FD18", ["54,54"]);
  ("FD19", ["70,63,,,,284.4"]);
  ("FD20", ["3100,60"]);
  ("FD21", ["50,50"]);
  ("FD22", ["4600,150,,50,,239.9"]);
  ("FD23", ["60,60"]);
  ("FD24", ["2873,100"]);
  ("FD25", ["2000,100"]);
  ("FD26", ["1800,50"]);
  ("FD27", ["3250,66"]);
  ("FD28", ["100,42"]);
  ("FD29", ["3000,100,,,,315.3"]);
  ("FD30", ["2600,100"]);
  ("FD31", ["2600,75"]);
  ("FD32", ["60,60,,,,228.6"]);
  ("FD33", ["2600,100,,,,302.8"]);
  ("FD34", ["25,25"]);
  ("FD35", ["4200,175"]);
  ("FD36", ["50,50,,,,351.3"]);
  ("FD37", ["2200,60"]);
  ("FD38", ["4000,100,,,,224.3"]);
  ("FD39", ["2345,100,,,,269.3"]);
  ("FD40", ["4000,135"]);
  ("FD41", ["20,20"]);
  ("FD42", ["3500,100"]);
  ("FD43", ["80,80,,,,212.2"]);
  ("FD44", ["3200,100,,,,196"; "3300,125,43,,43,250.4"]);
  ("FD45", ["40,40"]);
  ("FD46", ["17000,5000"]);
  ("FD47", ["55,55"]);
  ("FD48", ["6425,60,,180,,225"]);
  ("FD49", ["4000,100"]);
  ("FD50", ["3400,75"]);
  ("FD51", ["2550,20,,,,235.9"]);
  ("FD52", ["60,60"]);
  ("FD53", ["2000,50"]);
  ("FD54", ["30,30"]);
  ("FD55", ["2190,100"]);
  ("FD56", ["75,75,,,,253.5"]);
  ("FD57", ["1900,90,,,,360"]);
  ("FD58", ["60,60"]);
  ("FD59", ["2240,80"]);
  ("FD60", ["25,25"]);
  ("FD61", ["2600,100"]);
  ("FD62", ["500,500"]);
  ("FD63", ["2600,200"]);
  ("FD64", ["50,50"; "80,56,,,,288"]);
  ("FD65", ["15,15,,,,271"]);
  ("FD66", ["50,50"]);
  ("FD67", ["60,60,,,,1"]);
  ("FD70", ["3875,66,,,,269"]);
  ("FD71", ["2400,100"]);
  ("FD72", ["2500,75,,,,267"]);
  ("FD73", ["50,50"]);
  ("FD74", ["2640,50,,,,242"]);
  ("FD75", ["50,50,,,,344"]);
  ("FD76", ["60,60"]);
  ("FD77", ["3000,100,,,,332.7"]);
  ("FD78", ["2000,100"]);
  ("FD79", ["2800,100"]);
  ("FD80", ["2400,100"]);
  ("FD81", ["1800,50"]);
  ("FD82", ["1950,100"; "1100,100"]);
  ("FD83", ["1900,100"]);
  ("FD84", ["2350,50"]);
  ("FD85", ["70,45"]);
  ("FD86", ["2800,100,,,,1.8"]);
  ("FD87", ["58,58"]);
  ("FD88", ["3150,165,,,,218"]);
  ("FD89", ["2600,100,,,,201.2"]);
  ("FD90", ["3200,200"]);
  ("FD91", ["68,68"]);
  ("FD92", ["2120,50"]);
  ("FD93", ["2550,200"]);
  ("FD94", ["1400,50"]);
  ("FD95", ["3000,100"; "5000,100"]);
  ("FD96", ["1500,80"]);
  ("FD97", ["48,48"]);
  ("FD98", ["5000,2000"]);
  ("FD99", ["33,33"]);
  ("FDMS", ["8530,148,2027,53,2075,233"]);
  ("FDSK", ["11811,197"]);
  ("FEFF", ["8530,148,1208,165,1182,345"]);
  ("FEFN", ["4921,,1637,,1634"]);
  ("FEFR", ["5906,,1939,,1952"]);
  ("FEFT", ["5446,98,1929,167,1860,347"]);
  ("FEW", ["30,30,,,,306"]);
  ("FGAB", ["6177,100"]);
  ("FGBT", ["10860,200,13,,13"; "7001,148,7,41,12,221"]);
  ("FGSL", ["9647,151,75,42,41,222"]);
  ("FHAW", ["10019,150,263,117,214,297"]);
  ("FHK", ["1800,50,,,,273.1"; "1800,50,,,,257.4"; "1800,50,,,,192"; "1800,50,,,,333.4"; "1800,50,,,,360"; "1800,50,,,,233.9"]);
  ("FHSH", ["6398,148,998,359,1014,179"]);
  ("FIMP", ["11056,148,183,117.1,98,297.1"]);
  ("FIMR", ["4223,98,68,106,81,286"]);
  ("FJ-0001", ["2395,50,19,155,21,335"]);
  ("FJDG", ["12003,200,9,121.7,9,301.7"]);
  ("FKKB", ["5906,,144,,131"]);
  ("FKKC", ["4512,151,151,43,144,223"]);
  ("FKKD", ["9350,148,34,117,14,297"]);
  ("FKKF", ["4495,,410,,381"]);
  ("FKKI", ["6234,,2119,,2133"]);
  ("FKKL", ["6890,148,1390,130,1368,310"]);
  ("FKKM", ["6889,148,3963,38,3963,218"]);
  ("FKKN", ["8858,148,3649,22,3609,202"]);
  ("FKKR", ["11032,148,692,86,787,266"]);
  ("FKKU", ["8203,148,4347,147,4347,327"]);
  ("FKKV", ["8202,148,,171,,351"]);
  ("FKKY", ["6519,148,2428,24,2461,204"]);
  ("FKYS", ["11155,148,2263,10,2276,190"]);
  ("FL00", ["3000,100"]);
  ("FL01", ["3125,50,,,,357.2"]);
  ("FL02", ["1665,100,,,,358.5"]);
  ("FL03", ["2600,175,,50,,230"; "2800,175,,90,,270"; "2800,175,,140,,320"; "6002,175,,180,,2"]);
  ("FL04", ["5000,4000"]);
  ("FL05", ["1958,150"]);
  ("FL06", ["2000,112"]);
  ("FL07", ["2163,100"]);
  ("FL08", ["1800,100"]);
  ("FL09", ["2600,150"]);
  ("FL10", ["2668,50,,,,320"; "3375,50,,,,311"]);
  ("FL11", ["1800,95"]);
  ("FL12", ["5400,100"]);
  ("FL13", ["2800,75"]);
  ("FL14", ["3000,50,,,,0.2"]);
  ("FL15", ["2500,140"]);
  ("FL16", ["3000,50"]);
  ("FL17", ["3300,75,,,,239.4"]);
  ("FL18", ["2600,100"]);
  ("FL19", ["3900,65,,,,320"]);
  ("FL21", ["2000,300,,,,316"]);
  ("FL22", ["45,60,,,,359.5"]);
  ("FL23", ["2500,200"]);
  ("FL24", ["40,40"]);
  ("FL25", ["24,24"]);
  ("FL27", ["3175,150,,,,293.7"]);
  ("FL28", ["4856,100,,,,225"]);
  ("FL29", ["4000,40"]);
  ("FL30", ["60,60,,,,315"]);
  ("FL31", ["1350,100,,,,360"]);
  ("FL32", ["60,60"]);
  ("FL33", ["1950,85"]);
  ("FL34", ["5022,90,119,181,117,1"]);
  ("FL35", ["3000,75"]);
  ("FL36", ["2000,50"]);
  ("FL37", ["4000,100,,,,330.6"]);
  ("FL38", ["80,40"; "40,40"]);
  ("FL39", ["100,100,,,,290"]);
  ("FL40", ["3800,100"]);
  ("FL41", ["3700,60,,90,,315"]);
  ("FL42", ["4500,4500"]);
  ("FL43", ["2400,150"]);
  ("FL44", ["250,135,,,,316"]);
  ("FL45", ["24,24,,,,1"]);
  ("FL46", ["4000,75"])].

(* ADRpy/data/runways.csv *)
Definition airports_14 : list (string * list string) := [
  ("FL47", ["5000,75"]);
  ("FL48", ["1300,150"]);
  ("FL49", ["40,40"]);
  ("FL50", ["3513,150"]);
  ("FL51", ["40,40,,,,289.4"]);
  ("FL52", ["1900,100"]);
  ("FL53", ["24,24,,,,359.2"]);
  ("FL54", ["2900,200"; "4000,175,,,,194.9"]);
  ("FL55", ["4000,1000"]);
  ("FL56", ["3000,125"]);
  ("FL57", ["2500,125"]);
  ("FL58", ["3543,40"]);
  ("FL59", ["2726,400,,60,,266.7"; "4046,400,,140,,359.9"]);
  ("FL60", ["5000,240,,45,,229"]);
  ("FL61", ["3365,60"; "2650,60"]);
  ("FL62", ["2100,100"]);
  ("FL63", ["2830,130"]);
  ("FL64", ["100,100,,,,329.8"]);
  ("FL65", ["2300,50,,,,220"]);
  ("FL66", ["2240,150"]);
  ("FL67", ["3000,36,,90,,221.6"]);
  ("FL68", ["65,65,,,,308.5"]);
  ("FL69", ["50,50,,,,332"]);
  ("FL70", ["36,36"]);
  ("FL71", ["100,100"]);
  ("FL72", ["4000,600"]);
  ("FL73", ["2200,150"]);
  ("FL74", ["2600,200,,,,235"]);
  ("FL75", ["3000,100,,,,359.9"]);
  ("FL77", ["1835,100"]);
  ("FL78", ["2000,90"]);
  ("FL79", ["80,80"]);
  ("FL80", ["3000,100,,,,331"]);
  ("FL81", ["1800,125"]);
  ("FL82", ["3000,75,,,,293"]);
  ("FL83", ["83,73,,,,246"]);
  ("FL84", ["2000,100,,,,283"]);
  ("FL85", ["52,52"]);
  ("FL86", ["2000,100"]);
  ("FL87", ["50,50,,,,190"]);
  ("FL88", ["3700,100"]);
  ("FL89", ["2500,100"]);
  ("FL90", ["1800,100"]);
  ("FL91", ["3900,100"]);
  ("FL92", ["50,50"]);
  ("FL93", ["36,36,,,,355.8"]);
  ("FL94", ["60,60"]);
  ("FL95", ["2200,70"]);
  ("FL96", ["2400,135"]);
  ("FL97", ["2600,100"]);
  ("FL98", ["50,50"]);
  ("FL99", ["2640,300"]);
  ("FLCP", ["4823,,3295,,3363"]);
  ("FLKE", ["4698,75,4636,104,4636,284"]);
  ("FLKS", ["6148,,4498,,4536"]);
  ("FLLC", ["6594,83,,72.1,,252.1"]);
  ("FLLI", ["7520,197,3248,94,3237,274"; "4501,98,3249,140,3246,320"]);
  ("FLLS", ["12998,150,3781,95.2,3749,275.2"; "2700,100,3782,140.6,3782,320.6"]);
  ("FLMF", ["7218,98,1841,83,1853,263"]);
  ("FLMG", ["4800,69,3465,85,3488,265"]);
  ("FLND", ["8250,150,4166,90.5,4130,270.5"; "4000,75,4163,90.4,4145,270.4"]);
  ("FLRZ", ["5574"]);
  ("FLSO", ["6562,100,4145,105.7,4145,285.7"]);
  ("FLT", ["4045,90,,,,231.2"]);
  ("FM43", ["8211,148,184,127,197,307"]);
  ("FMBI", [""]);
  ("FMCH", ["9514,148,66,10,79,190"]);
  ("FMCI", ["4265,98,49,123,43,303"]);
  ("FMCN", ["4446,,36,,20"]);
  ("FMCV", ["4429,92,20,94.9,75,274.9"]);
  ("FMCZ", ["6330,92,10,150,23,330"]);
  ("FMEE", ["10499,148,38,102,31,282"; "8760,148,27,116,65,296"]);
  ("FMEP", ["7000,150,59,129,41,309"]);
  ("FMMA", ["8237,148,4734,106,4738,286"]);
  ("FMMI", ["10171,148,4197,99,4117,279"]);
  ("FMMN", ["3609,98,,147.7,,327.7"]);
  ("FMMS", ["3451,98,,353.9,,173.9"]);
  ("FMMT", ["7218,131,19,354,22,174"]);
  ("FMMV", ["4921,98,13,88,20,268"; "4413,115,20,124,23,304"]);
  ("FMNA", ["4921,98,312,124,374,304"]);
  ("FMNC", ["4101,82,,98,,278"]);
  ("FMND", ["4153,98,1552,5.4,1539,185.4"]);
  ("FMNE", ["4921,98,66,103,72,283"]);
  ("FMNH", ["3914,89,16,163,16,343"]);
  ("FMNL", ["3937,72,202,101,314,281"]);
  ("FMNM", ["7218,148,35,132,87,312"]);
  ("FMNN", ["7185,148,37,43,16,223"]);
  ("FMNQ", ["4046,66,,72,,252"]);
  ("FMNR", ["4265,98,13,128.4,13,308.4"]);
  ("FMNS", ["4577,98,20,151.9,20,331.9"]);
  ("FMNV", ["4236,82,,132,,312"]);
  ("FMNW", ["4921,98,,2,,182"]);
  ("FMNZ", ["4450,44,,140,,320"]);
  ("FMSD", ["4916,98,24,53,23,233"]);
  ("FMSF", ["4101,82,,62,,242"]);
  ("FMSG", ["3445,82,23,108,13,288"]);
  ("FMSK", ["3886,79,33,33.7,33,213.7"]);
  ("FMSM", ["4921,98,13,22,20,202"]);
  ("FMSR", ["4265,98,10,28,16,208"]);
  ("FMST", ["6562,98,16,23,29,203"; "2625,42,16,88,16,268"]);
  ("FMZJ", ["4265"]);
  ("FN18", ["8015,98,,95,,275"]);
  ("FN19", ["9830,148,,72,,252"]);
  ("FNBC", ["5905,98,1860,155,1860,335"]);
  ("FNBG", ["5315,100,118,131,118,311"]);
  ("FNCA", ["8202,98,63,360,85,180"]);
  ("FNCX", ["5906"]);
  ("FNDU", ["6468,80,,40,,220"]);
  ("FNGI", ["10640,95,,114.9,,294.9"]);
  ("FNHU", ["3281,,5571,,5568"; "8727,148,5587,100,5561,280"]);
  ("FNKU", ["8202,98,,70,,250"]);
  ("FNLB", ["4920,98,,151,,331"]);
  ("FNLU", ["12190,148,235,47,232,227"; "8530,197,240,68,223,248"]);
  ("FNLZ", ["4915,66,,31,,211"]);
  ("FNMA", ["7283,98,,123,,303"]);
  ("FNME", ["11483,147,4573,120,4589,300"]);
  ("FNMO", ["8202,148,210,66,210,246"]);
  ("FNNG", ["7874,98,,155,,335"]);
  ("FNPA", ["3379,98,,55,,235"]);
  ("FNSA", ["11155,148,3581,130,3596,310"]);
  ("FNSO", ["6857,174,,55,,235"]);
  ("FNSU", ["3115,60,,44.6,,224.6"]);
  ("FNUB", ["9570,148,5851,87,5774,267"]);
  ("FNUE", ["7875,130,4487,104,4475,284"]);
  ("FNUG", ["6562,55,2723,6,2743,186"]);
  ("FNXA", ["7400,97,,21,,201"]);
  ("FNZG", ["5906,68,,75,,255"]);
  ("FOGK", ["5841,148,,151,,331"]);
  ("FOGM", ["5891,100,,167.6,,347.6"]);
  ("FOGO", ["5906,98,2165,25,2165,205"]);
  ("FOGQ", ["4921,98,,73,,253"]);
  ("FOGR", ["7555,148,82,42,66,222"; ",,82,,66"]);
  ("FOOB", ["5726,98,1932,123,1932,303"]);
  ("FOOD", ["5906,,1873,,1877"]);
  ("FOOG", ["6234,148,11,22,9,202"]);
  ("FOOH", ["5285,98,,135,,315"]);
  ("FOOK", ["5892,148,,58,,238"]);
  ("FOOL", ["9844,148,29,154,28,334"]);
  ("FOON", ["10105,148,1436,144,1410,324"]);
  ("FOOT", ["5906,,269,,266"]);
  ("FPPR", ["4331,98,581,168,591,348"]);
  ("FPST", ["7283,148,39,103,16,283"]);
  ("FQ49", ["3280,75,98,160.1,98,340.1"]);
  ("FQBR", ["3018,148,33,44,33,224"; "7874,148,26,105,30,285"; "5660,148,30,159.9,30,339.9"]);
  ("FQCH", ["7874,148,,5,,185"]);
  ("FQIN", ["2625,98,,47,,227"; "4921,98,16,149,30,329"]);
  ("FQLC", ["8300,148,4491,71,4482,251"]);
  ("FQLU", ["4921,98,30,360,33,180"]);
  ("FQMA", ["12008,148,118,29,145,209"; "5577,148,118,86,128,266"]);
  ("FQMD", ["7714,98,,158.2,,338.2"]);
  ("FQMP", ["6562,88,89,25,85,205"]);
  ("FQMR", ["5660,98,,143,,323"]);
  ("FQNC", ["8202,148,410,4.7,335,184.7"]);
  ("FQNP", ["6562,148,1444,45.8,1381,225.8"; "5135,148,1377,119,1404,299"]);
  ("FQPB", ["2625,98,331,78,331,258"; "5905,148,331,160.8,318,340.8"]);
  ("FQQL", ["2980,98,,85,,265"; "5905,148,36,174,36,354"]);
  ("FQSG", ["2953,75,2904,159,2894,339"]);
  ("FQTT", ["8225,148,,2,,182"]);
  ("FQUG", ["5900,98,4288,158,4268,338"]);
  ("FQVL", ["2461,75,46,89,33,269"; "4823,98,46,156,39,336"]);
  ("FR-0158", ["1970,66,10,98,10,278"]);
  ("FR-0247", ["910,66"]);
  ("FR-0314", ["4921"]);
  ("FR-0320", ["2493,41,,79.43,,259.43"]);
  ("FR-0321", ["6890,148,1016,115,976,295"; ""]);
  ("FR-0335", ["1969,131"; "1427,131"]);
  ("FR-0349", ["3117"]);
  ("FSAL", ["3983,75,,144.9,,324.9"]);
  ("FSAS", ["1210,100"]);
  ("FSDR", ["4531,33,,110,,290"]);
  ("FSFA", ["3035,75,,128,,308"]);
  ("FSIA", ["9800,151,10,125,10,305"]);
  ("FSPP", ["4318,104,10,149,10,329"]);
  ("FSSC", [""]);
  ("FTTA", ["5906,,1194,,1196"]);
  ("FTTC", ["9186,98,1751,92.6,1789,272.6"]);
  ("FTTD", ["5906,115,1383,35,1409,215"]);
  ("FTTI", ["6025,90"]);
  ("FTTJ", ["9186,148,968,46,967,226"]);
  ("FTTY", ["9186,148,741,58,771,238"]);
  ("FUB", ["1985"]);
  ("FV76", ["3704,50,,78,,258"; "5612,65,,119,,299"]);
  ("FV77", ["5108,30,,43,,223"]);
  ("FVBU", ["4419,98,4350,8,4326,188"; "8491,148,4351,115,4359,295"]);
  ("FVCN", ["3569,54,,84,,264"]);
  ("FVCP", ["3937,56,4812,53.8,4843,233.8"; "3035,59,4838,132,4845,312"]);
  ("FVCZ", ["5785,98,1421,130,1410,310"]);
  ("FVDA", ["3000,80,4750,82,4750,262"]);
  ("FVFA", ["7708,98,3490,110,3480,290"]);
  ("FVHA", ["15502,151,4793,46,4887,226"]);
  ("FVKB", ["5413,59,1664,82,1706,262"]);
  ("FVKK", ["3281"]);
  ("FVMD", ["3650,59,,98,,278"]);
  ("FVMT", ["3609,59,,84.2,,264.2"]);
  ("FVMU", ["3117,60,,112.9,,292.9"]);
  ("FVMV", ["3937,59,,88,,268"; "5663,59,3595,162,3587,342"]);
  ("FVOT", ["3642,56,,100.3,,280.3"]);
  ("FVSH", ["3942,60,,144,,324"]);
  ("FVTL", ["8766,100,,116,,296"; "7826,93,,116,,296"]);
  ("FVWN", ["15091,98,3543,68,3530,248"]);
  ("FWB", ["5000,75"]);
  ("FWCL", ["7628,98,2472,97,2555,277"; "4501,98,2468,141,2546,321"]);
  ("FWKA", ["4200,59,1760,138,1760,318"]);
  ("FWKG", ["3937,57,,74,,254"]);
  ("FWKI", ["11614,148,4028,130.9,4022,310.9"]);
  ("FWLE", ["4462,98,3721,80.1,3699,260.1"; "4615,134,3721,163.8,3689,343.8"]);
  ("FWSU", ["4100,75"]);
  ("FWUU", ["4291,62,4115,161.1,4115,341.1"]);
  ("FWZA", ["4100,55,,78.5,,258.5"]);
  ("FXMM", ["10498,148,5325,15,5320,195"; "3314,75,5309,85,5351,265"]);
  ("FXMU", ["4531,98,,21,,201"; "1542,98,,85,,265"]);
  ("FYAA", ["4260,33"]);
  ("FYAK", ["7123,33"]);
  ("FYAR", ["6300,66,1827,81,1905,261"]);
  ("FYEN", ["5735,98,,75,,255"]);
  ("FYGF", ["11680,148,4602,68,4561,248"; "3412,98,4610,158,4586,338"]);
  ("FYKB", ["4930"; "2750"]);
  ("FYKM", ["7520,128,3144,80,3126,260"]);
  ("FYKT", ["7598,148,3439,16,3506,196"; "4705,98,3502,155,3487,335"]);
  ("FYLS", ["4298,,3191,,3169"]);
  ("FYLZ", ["6004,98,420,17,392,197"; "3830,98,421,99,457,279"]);
  ("FYMG", ["4828,33"]);
  ("FYML", ["6562,82,,350,,170"; "4921,98,,98,,278"]);
  ("FYOA", ["9800,98,3599,65,3599,245"; "4423,98,3599,149,3598,329"]);
  ("FYOG", ["5252,59,14,360,14,180"; "3000,47,,48,,228"; "3500,60,,141,,321"]);
  ("FYOS", ["4921,82"]);
  ("FYRC", ["7122,98,,90,,270"; "5403,98,,139,,319"]);
  ("FYRP", ["3948,49,,131,,311"]);
  ("FYRU", ["11004,98,3627,72,3581,252"; "4806,98,,171,,351"]);
  ("FYSA", ["5741,,1870,,1870"]);
  ("FYSL", ["4600,23,,43,,224"]);
  ("FYTM", ["4823,56,,108,,288"]);
  ("FYWB", ["7001,98,248,72.1,299,252.1"]);
  ("FYWE", ["7381,98,5575,351,5510,171"; "3297,98,5572,76,5568,256"]);
  ("FYWH", ["15010,148,5640,64,5500,244"; "5000,98,5574,141,5564,321"]);
  ("FZAA", ["15420,197,998,58,998,238"]);
  ("FZAB", ["5526,98,,70.7,,250.7"]);
  ("FZAG", ["4864,98,,27.9,,207.9"]);
  ("FZAI", ["7874,147,394,45,394,225"]);
  ("FZAR", ["3700,100,1321,71,1342,251"]);
  ("FZBO", ["4528,98,1060,106,1060,286"]);
  ("FZCA", ["5151,95,,46.2,,226.2"]);
  ("FZEA", ["7223,148,1047,173,1021,353"]);
  ("FZFD", ["10499,197,1505,73.1,1485,253.1"]);
  ("FZFK", ["6550,148,,102,,282"]);
  ("FZFP", ["6626,134,,50.1,,230.1"]);
  ("FZGA", ["7200,164,,47.7,,227.7"]);
  ("FZIA", ["7218,98,1289,97.1,1227,277.1"]);
  ("FZIC", ["11483,148,1407,125,1417,305"]);
  ("FZJH", ["8202,148,2415,130,2438,310"]);
  ("FZKA", ["6070,98,4039,96,4113,276"]);
  ("FZKJ", ["6890,98,1380,73,1380,253"]);
  ("FZMA", ["6562,148,5655,164.3,5592,344.3"]);
  ("FZNA", ["6545,148,5045,174,4992,354"]);
  ("FZNP", [""]);
  ("FZOA", ["7218,148,1624,176,1628,356"]);
  ("FZQA", ["10623,164,4290,66,4214,246"]);
  ("FZQM", ["5741,98,4918,101,4918,281"]);
  ("FZRF", ["5741,90,2553,57.8,2547,237.8"]);
  ("FZSA", ["8858,148,3543,121.3,3543,301.3"; "8858,148,3543,121,3543,301"]);
  ("FZSK", ["4035"]);
  ("FZUA", ["7218,148,2101,107.7,2143,287.7"]);
  ("FZWA", ["6558,146,2221,161.3,2221,341.3"]);
  ("G05", ["2505,50,,,,229"]);
  ("GA00", ["3000,100"]);
  ("GA01", ["2263,105"]);
  ("GA03", ["2000,50"]);
  ("GA04", ["4500,100,,,,224.2"]);
  ("GA05", ["400,400,,,,359.1"]);
  ("GA06", ["3900,80"]);
  ("GA07", ["2400,66,,,,314.4"]);
  ("GA09", ["1850,24"]);
  ("GA10", ["2100,60,,,,313.9"]);
  ("GA11", ["40,40,,,,313.9"; "40,40,,,,358.9"]);
  ("GA14", ["5600,75,,90,,282"]);
  ("GA15", ["1900,80"]);
  ("GA16", ["2100,50,,,,0.4"]);
  ("GA17", ["3500,60"]);
  ("GA18", ["2800,60,,,,205"]);
  ("GA19", ["2400,120"]);
  ("GA1A", ["3802,100,154,66,148,246"]);
  ("GA2", ["2400,100,926,128,926,308"]);
  ("GA20", ["3600,75"]);
  ("GA21", ["2000,200"]);
  ("GA22", ["3000,75"]);
  ("GA23", ["2750,150"]);
  ("GA24", ["150,100,,,,315.6"]);
  ("GA25", ["2200,200"]);
  ("GA26", ["40,40"]);
  ("GA27", ["1800,35"]);
  ("GA28", ["90,90"]);
  ("GA29", ["1650,100"]);
  ("GA31", ["3200,75"]);
  ("GA32", ["40,40"]);
  ("GA33", ["105,105,,,,360"]);
  ("GA34", ["2100,75"]);
  ("GA35", ["2700,100"]);
  ("GA36", ["4000,50,,145.7,,358"]);
  ("GA37", ["45,45,,,,236.6"]);
  ("GA38", ["30,30"]);
  ("GA39", ["2640,60"]);
  ("GA40", ["250,250"]);
  ("GA43", ["2300,150"]);
  ("GA44", ["1700,50"]);
  ("GA47", ["2350,90"]);
  ("GA48", ["2000,40"]);
  ("GA49", ["2500,60"]);
  ("GA50", ["2000,45"]);
  ("GA51", ["40,40"]);
  ("GA52", ["40,40,,,,344"]);
  ("GA53", ["850,30"]);
  ("GA54", ["85,85"]);
  ("GA55", ["60,60"]);
  ("GA56", ["60,60"]);
  ("GA57", ["16,16"]);
  ("GA58", ["25,25"]);
  ("GA59", ["2500,75"]);
  ("GA60", ["100,75,,,,261"]);
  ("GA61", ["2400,100"]);
  ("GA62", ["3000,40,,180,,314.9"; "3000,150,,180,,227"]);
  ("GA63", ["1800,100"]);
  ("GA64", ["45,45,,,,171.9"]);
  ("GA65", ["3500,140"]);
  ("GA66", ["45,45"]);
  ("GA67", ["1610,100"]);
  ("GA68", ["2200,100"]);
  ("GA69", ["19,23"]);
  ("GA70", ["40,40"]);
  ("GA71", ["74,74,,,,257.8"]);
  ("GA72", ["1500,60"]);
  ("GA73", ["2400,50"]);
  ("GA74", ["2500,150"]);
  ("GA75", ["2700,200"]);
  ("GA76", ["1550,100"]);
  ("GA78", ["40,40"]);
  ("GA79", ["2000,30"]);
  ("GA80", ["2600,20"]);
  ("GA81", ["3000,100"]);
  ("GA83", ["2000,60"]);
  ("GA84", ["320,55,,,,270"]);
  ("GA85", ["75,28"]);
  ("GA86", ["3000,100"]);
  ("GA87", ["2000,60"]);
  ("GA88", ["4500,175"]);
  ("GA89", ["2700,24"]);
  ("GA90", ["2000,40"]);
  ("GA91", ["1830,100"]);
  ("GA92", ["1100,50"]);
  ("GA94", ["1433,75"]);
  ("GA95", ["1500,75"]);
  ("GA96", ["400,200,,,,229.7"]);
  ("GA98", ["2100,40"]);
  ("GA99", ["3600,75"]);
  ("GAB", ["2800,65"; "5900,65"]);
  ("GABS", ["8879,148,1187,57,1244,237"]);
  ("GAGM", ["4921,,866,,866"]);
  ("GAGO", ["8202,148,836,62,863,242"]);
  ("GAKY", ["5267,98,161,81,161,261"]);
  ("GAMB", ["8340,94,905,47,901,227"]);
  ("GANK", ["1299,98"]);
  ("GANR", ["4921,,761,,761"]);
  ("GASO", ["5255,100,1297,70.6,1289,250.6"]);
  ("GATB", ["6923,98,863,68,860,248"]);
  ("GATS", [",,1585,,1611"; "8201,98,1585,46,1611,226"; "4912,154,,48.8,,228.8"; "3924,154,1601,153,1611,333"; ",,1601,,1611"]);
  ("GAZ", ["3593"]);
  ("GB-0006", ["2296,82"]);
  ("GB-0007", ["2624,131"; "3608,131"]);
  ("GB-0008", ["2133,66"]);
  ("GB-0015", ["3608"]);
  ("GB-0026", ["1512"]);
  ("GB-0031", [""]);
  ("GB-0033", ["2723"]);
  ("GB-0034", [""]);
  ("GB-0035", [""]);
  ("GB-0038", ["2001,39"; "2001,82"; "1804,39"]);
  ("GB-0042", ["2126"]);
  ("GB-0044", ["1312"; "1968"]);
  ("GB-0045", ["1453,91"; "1299,91"]);
  ("GB-0046", ["711,,190,,241"]);
  ("GB-0047", ["2017,82"; "1263,65"]);
  ("GB-0048", ["2132,164"]);
  ("GB-0049", ["1040"]);
  ("GB-0050", ["1640"]);
  ("GB-0051", ["1404"]);
  ("GB-0052", ["2067"]);
  ("GB-0053", [""]);
  ("GB-0054", ["1312"]);
  ("GB-0058", ["2034,65"]);
  ("GB-0059", ["2395,65"]);
  ("GB-0060", ["1443"]);
  ("GB-0061", ["1377,98"]);
  ("GB-0062", ["1968,59"]);
  ("GB-0063", ["1804,59"; "1804,59"]);
  ("GB-0064", ["1706,29"; "1968,33"; "2132,39"; "1148,29"]);
  ("GB-0065", ["2296,98"]);
  ("GB-0067", ["2198"]);
  ("GB-0068", ["2132"]);
  ("GB-0069", ["1115"]);
  ("GB-0071", ["1476,68"]);
  ("GB-0073", ["2297,59"; ""]);
  ("GB-0075", ["3000,60"]);
  ("GB-0077", ["1968,98"; "2299,150"]);
  ("GB-0084", ["2297,36"]);
  ("GB-0157", ["1378"; "1640"]);
  ("GB-0180", ["1740"]);
  ("GB-0200", ["1969"]);
  ("GB-0201", ["1411,49"]);
  ("GB-0202", ["1795"]);
  ("GB-0203", ["1608,66"; "1477,66"; "1477,164"]);
  ("GB-0204", ["820"; "1050"]);
  ("GB-0208", ["1805"]);
  ("GB-0242", ["2363"]);
  ("GB-0248", ["2100"]);
  ("GB-0279", ["1722,82"]);
  ("GB-0286", ["1640,49"]);
  ("GB-0287", ["1969,39"]);
  ("GB-0316", ["1969"]);
  ("GB-0324", ["1476,49"]);
  ("GB-0336", ["984,66"; "984,66"]);
  ("GB-0357", ["1634"]);
  ("GB-0365", ["1640,46"]);
  ("GB-0368", ["1880"]);
  ("GB-0369", ["2133"]);
  ("GB-0388", ["1476"]);
  ("GB-DOC", ["2460,91"]);
  ("GB-ULL", ["2559,91"]);
  ("GBYD", ["11811,148,88,131,74,311"]);
  ("GCFV", ["7874,148,37,2,75,182"]);
  ("GCGM", ["4921,98,716,81.2,712,261.2"]);
  ("GCHI", ["4101,98,71,152.6,103,332.6"]);
  ("GCLA", ["7218,148,103,359,65,179"]);
  ("GCLP", ["10171,148,78,22,33,202"; "10171,148,69,22,27,202"]);
  ("GCRR", ["7874,148,18,27,47,207"]);
  ("GCTS", ["10499,148,188,68.6,209,248.6"]);
  ("GCXO", ["11155,148,2060,111.1,2002,291.1"]);
  ("GDY", ["2256,60,2304,37,2304,217"]);
  ("GE00", ["5000,1000"]);
  ("GE01", ["2500,135"]);
  ("GE02", ["70,70,,,,270"]);
  ("GE03", ["30,30"]);
  ("GE04", ["1600,60"]);
  ("GE05", ["2400,50"]);
  ("GE11", ["2800,100"]);
  ("GE12", ["4693,100"]);
  ("GE14", ["20,20,,,,245"]);
  ("GE22", ["30,30"]);
  ("GE24", ["45,45,,,,258.6"]);
  ("GE25", ["2500,120"]);
  ("GE26", ["2000,75"]);
  ("GE27", ["2800,80"]);
  ("GE28", ["50,50,,,,220.5"]);
  ("GE30", ["1900,75,,,,220"]);
  ("GE33", ["1300,50"]);
  ("GE34", ["20,20"]);
  ("GE35", ["1400,100"]);
  ("GE99", ["5069,50,,50,,274.2"]);
  ("GECE", ["787,112,8,67,8,247"]);
  ("GEML", ["4685,148,156,146.3,133,326.3"]);
  ("GEW", ["1490,98"]);
  ("GF-0001", ["3630,50"]);
  ("GF-0003", ["1940,45"]);
  ("GFD", ["2165,150,896,,897,250"]);
  ("GFLL", ["10498,150,78,107,82,287"]);
  ("GG64", ["3958,70,,134,,314"]);
  ("GGCF", ["6231,74,,50,,230"]);
  ("GGOV", ["10499,148,129,19,86,199"]);
  ("GL-0006", ["15000,200"]);
  ("GLMR", ["6000,100,25,40,10,220"]);
  ("GLP", ["1476,98"]);
  ("GLRB", ["11000,150,29,31,25,211"]);
  ("GMAA", ["9547,148,75,97.5,85,277.5"]);
  ("GMAD", ["10499,148,197,91,253,271"]);
  ("GMAT", ["6562,98,653,27.8,653,207.8"]);
  ("GMFF", ["10499,148,1854,90,1890,270"]);
  ("GMFI", ["6920,115,,25,,205"]);
  ("GMFK", ["10499,148,3428,125.1,3363,305.1"]);
  ("GMFM", ["6420,164,1814,77.4,1814,257.4"; "9252,164,1870,83,1890,263"]);
  ("GMFO", ["9843,148,1535,58,1493,238"]);
  ("GMMA", ["9850,100,,151.5,,331.5"]);
  ("GMMB", ["10085,150,526,141,618,321"]);
  ("GMMC", ["6168,,203,,150"]);
  ("GMMD", ["3937,,1673,,1673"]);
  ("GMME", ["11483,148,273,31,240,211"]);
  ("GMMH", ["9842,148,36,22.7,27,202.7"]);
  ("GMMI", ["6890,148,351,159,421,339"]);
  ("GMML", ["8861,148,223,16,217,196"; "8202,148,202,32,202,212"]);
  ("GMMN", ["12205,148,633,164,656,344"; "12205,148,636,164,656,344"]);
  ("GMMW", ["9842,148,594,78,570,258"]);
  ("GMMX", ["10170,148,1506,96,1545,276"]);
  ("GMMY", ["6035,150,13,19,13,199"; "7995,150,16,63,12,243"]);
  ("GMMZ", ["9842,148,3782,116.8,3710,296.8"]);
  ("GMSL", ["11302,140,174,69,162,249"]);
  ("GMTA", ["8202,148,21,173,96,353"]);
  ("GMTN", ["7546,148,13,54.3,10,234.4"]);
  ("GMTT", ["6562,98,,68.8,,248.8"; "11483,148,20,96,62,276"]);
  ("GNI", ["15000,200"]);
  ("GNU", ["2835,80,9,69,11,249"]);
  ("GO66", ["5230,144,,15,,195"]);
  ("GOC", ["1640,98"]);
  ("GODK", ["4927,50,,28,,208"]);
  ("GOGG", ["5069,98,66,88,75,268"]);
  ("GOGS", ["6573,98,52,136,30,316"]);
  ("GOOK", ["5249,98,,50,,230"]);
  ("GOOY", ["4866,98,63,23,56,203"; "11450,148,64,172.6,75,352.6"]);
  ("GOSS", ["4300,125,,4.3,,184.3"; "6230,100,10,172.6,7,352.6"]);
  ("GOTB", ["5741,98,,59,,239"]);
  ("GOTK", ["5906,148,,103,,283"]);
  ("GOTT", ["6562,98,157,49,161,229"]);
  ("GQNA", ["5245,100,,32.4,935,212.4"]);
  ("GQND", ["5249,96,,64,1316,244"]);
  ("GQNF", ["5208,95,400,61,423,241"]);
  ("GQNI", ["6890,100,728,84,758,264"]);
  ("GQNK", ["8202,148,52,60,66,240"]);
  ("GQNN", ["9876,148,6,38,6,218"]);
  ("GQNO", ["7875,148,9,50,9,230"; "11155,197,9,150,9,330"]);
  ("GQNS", ["5249,98,,56.3,,236.3"]);
  ("GQPA", ["9855,98,745,30,758,210"]);
  ("GQPP", ["7961,148,4,14,7,194"]);
  ("GQPT", ["7515,70,1194,358,1178,178"]);
  ("GR-0001", ["2461,66"]);
  ("GR-0009", ["1936,82"]);
  ("GR-0014", ["2230,65"]);
  ("GR-0019", ["2526,75"]);
  ("GSZ", ["3873,111,1312,181,1233,1"]);
  ("GUBE", ["6000"]);
  ("GUCY", ["10826,148,69,49,52,229"]);
  ("GUFA", ["5249,131,,48.1,,228.1"]);
  ("GUFH", ["7595,148,,84,,264"]);
  ("GULB", ["6562,148,3396,50.8,3396,230.8"]);
  ("GUNZ", ["4921,,1657,,1657"]);
  ("GVAC", ["10735,148,176,357.9,170,177.9"; "4921,148,177,57.7,177,237.7"]);
  ("GVAN", ["1476,98"]);
  ("GVBA", ["4007,98,69,16,69,196"]);
  ("GVE", ["2300,40,453,38,442,218"]);
  ("GVMA", [",,36,,36"; "3924,98,,2,,182"]);
  ("GVNP", [",,312,,324"; "4209,98,,22,,202"; "6876,148,,22,,202"]);
  ("GVSF", ["3937,,525,,525"]);
  ("GVSN", ["4593,98,669,356,669,176"]);
  ("GVSV", ["6561,98,70,54,70,234"]);
  ("H07", ["2692,200,537,,537,256"]);
  ("H11", ["5000,250"]);
  ("H27", ["1895,100,,,,217.4"; "1645,60,,,,185"]);
  ("H28", ["4440,65,,,,239"]);
  ("H43", ["50,50,,,,186"]);
  ("H47", ["2980,60,,,,270"]);
  ("H49", ["2450,150,,,,201.4"]);
  ("H57", ["2050,50,,,,268.7"]);
  ("H63", ["15000,4000"]);
  ("H66", ["2440,45"; "2500,45"]);
  ("H75", ["3340,65,,,,180.3"]);
  ("H77", ["10000,4000"]);
  ("H80", ["2400,90,,,,184"]);
  ("H97", ["2130,100"]);
  ("HAAB", ["12139,148,7617,73.7,7604,253.7"; "12467,148,7617,73.6,7594,253.6"]);
  ("HAAL", ["3839,64,,121,,301"]);
  ("HAAM", ["9170,153,3895,32,3883,212"]);
  ("HAAX", ["7874,148,6926,160,6959,340"]);
  ("HABD", ["9842,148,6008,45,5917,225"]);
  ("HAD", ["3810,30,,,,300"]);
  ("HADC", ["6561,98"]);
  ("HADR", ["8791,148,3661,152,3829,332"]);
  ("HAGM", ["8248,148,1637,179.7,1632,359.7"]);
  ("HAGN", ["9072,145,6512,170,6270,350"]);
  ("HAGO", ["7505,115,822,38.7,834,218.7"]);
  ("HAHM", ["5940"]);
  ("HAJM", ["6562,163,5502,125,5500,305"]);
  ("HALL", ["7990,175,6306,96,6421,276"]);
  ("HAMK", ["11825,142,7396,112,7363,292"]);
  ("HASO", ["8218,148,5100,115,5100,295"]);
  ("HBBA", [",,2582,,2582"; "11811,148,2582,172,2559,352"]);
  ("HBBE", ["3117,,5741,,5741"]);
  ("HCMC", ["3610,215,37,41,20,221"]);
  ("HCMD", ["4017"]);
  ("HCME", ["3445,164,867,57,880,237"]);
  ("HCMF", ["3550,115"; "7874,148"]);
  ("HCMH", ["8000,148,4386,55,4390,235"]);
  ("HCMI", ["13582,164,,46.9,,226.9"]);
  ("HCMK", ["12139,147,,43.1,,223.1"]);
  ("HCMM", ["10335,,13,,30"]);
  ("HDAM", ["10335,150,49,90.8,20,270.8"]);
  ("HDCH", ["7795,98"]);
  ("HE11", ["6562,140,,134.3,,314.3"]);
  ("HE12", ["8481,141,115,47,115,227"; "8646,131,,90,,270"]);
  ("HE13", ["10600,130,,14.8,,194.8"; "11000,130,,19.5,,199.5"]);
  ("HE14", ["9930,98,,132,,312"; "9840,148,,132,,312"; "9530,131,,151,,331"]);
  ("HE17", ["9863,131,,143.1,,323.1"]);
  ("HE18", ["9837,131,,165,,345"; "9864,131,,165,,345"]);
  ("HE19", ["6555,130,,137,,317"]);
  ("HE20", ["7835,148,,138,,318"]);
  ("HE21", ["7000,100,,148,,328"]);
  ("HE22", ["5507,57,,74.9,,254.9"]);
  ("HE23", ["9500,69,,159.2,,339.2"]);
  ("HE24", ["5905,147,,161,,341"]);
  ("HE25", ["9842,115,,157,,337"; "9842,131,,157,,337"]);
  ("HE27", ["9840,125,,111.1,,291.1"]);
  ("HE28", ["9925,132,,152,,332"; "10568,132,,186,,6"]);
  ("HE30", ["7847,130,,153,,333"; "9078,134,,163,,343"]);
  ("HE31", ["5750,102,,139.5,,319.5"]);
  ("HE32", ["9084,131,,139,,319"; "9047,131,,165,,345"]);
  ("HE33", ["6583,98,,129,,309"]);
  ("HE34", ["8805,148,,136,,316"; "8805,130,,136,,316"]);
  ("HE35", ["9752,148,49,90.1,49,270.1"; "9712,148,,111.9,,291.9"]);
  ("HE36", ["8241,148,,146,,326"]);
  ("HE37", ["11480,150,,45,,225"; "5100,150,,96,,276"; "8200,150,,93,,273"; "9960,160,,169,,349"; "5140,150,,169,,349"]);
  ("HE38", ["9886,120,,14,,194"; "9886,105,,14,,194"]);
  ("HE39", ["9855,131,,17.3,,197.3"; "9857,130,,17.4,,197.4"; "9836,146,,17.6,,197.6"]);
  ("HE40", ["9882,130,,158.8,,338.8"; "9882,130,,158.8,,338.8"]);
  ("HE41", ["9855,98,,162,,342"; "9853,136,,162,,342"]);
  ("HE42", ["9054,114,,166,,346"]);
  ("HE44", ["10555,148,,129,,309"]);
  ("HE46", ["2623,196,1576,71.9,1616,251.9"]);
  ("HEAL", ["11479,148,143,130,140,310"]);
  ("HEAR", ["9905,148,101,157,121,337"]);
  ("HEAT", ["9905,148,737,129.8,772,309.8"]);
  ("HEAX", ["7221,148,-8,45.1,-9,225.1"; ""]);
  ("HEAZ", ["3917,164,267,46.9,262,226.9"; "6726,148,224,181,294,1"]);
  ("HEBA", ["11156,148,177,142.8,133,322.8"; "1347,148,,142.6,,322.6"; "1347,148,,142.8,,322.8"]);
  ("HEBL", ["9843,148,616,150,616,330"]);
  ("HEBS", ["11565,152,,9,,189"; "9843,131,,55.8,,235.8"]);
  ("HECA", ["13120,197,382,45,,225"; "10830,197,190,49.4,199,229.4"; "13124,197,382,49.2,375,229.2"]);
  ("HECW", ["9125,147,,106.5,,286.5"; "9757,196,,165,,345"]);
  ("HEDK", ["8166,148,574,149.3,613,329.3"]);
  ("HEGN", ["13124,148,50,165.1,35,345.1"]);
  ("HEGO", ["5249,98,,163.2,,343.2"]);
  ("HEGR", ["7874,98,309,75.5,324,255.5"; "7874,148,278,165.4,302,345.4"]);
  ("HEGS", ["9460,145,,113,,293"; "9473,145,,124,,304"]);
  ("HEKG", ["11483,148,192,179.9,166,359.9"]);
  ("HELX", ["9843,148,294,22.6,272,202.6"]);
  ("HEMA", ["9843,148,247,149.8,233,329.8"]);
  ("HEMM", ["9843,148,94,60,94,240"; "9843,148,94,149.7,94,329.7"]);
  ("HEO", ["1411,98"]);
  ("HEOC", ["6562,115,807,9.9,755,189.9"]);
  ("HEOW", ["11483,148,859,8.7,856,188.7"]);
  ("HEPS", ["7707,148,8,105.8,5,285.8"]);
  ("HESC", ["6939,118,4299,171.5,4368,351.5"]);
  ("HESH", ["10108,148,134,42.8,119,222.8"; "10108,148,114,42.8,117,222.8"]);
  ("HESN", ["11161,148,610,170.9,654,350.9"]);
  ("HETB", [",,2460,,2399"; "13123,148,2460,41.8,2399,221.8"; "13123,148,2460,41.7,2399,221.7"]);
  ("HETR", ["9843,148,19,104.2,115,284.2"]);
  ("HEY", ["467,50,,,,359"]);
  ("HGT", ["570,50,1017,155,1014,335"]);
  ("HHAS", ["9842,148,7661,74.3,7654,254.3"; "5951,148,,119.5,,299.5"]);
  ("HHMS", ["11384,148,194,75,135,255"]);
  ("HHSB", ["11531,148,,120.2,,300.2"]);
  ("HI01", ["3560,60,344,50,288,271"]);
  ("HI03", ["1600,50"]);
  ("HI04", ["86,86,,,,193"]);
  ("HI05", ["1800,35"]);
  ("HI07", ["26,26,,,,180.7"]);
  ("HI12", ["55,55,,,,180.6"]);
  ("HI13", ["2950,40"]);
  ("HI18", ["40,40"]);
  ("HI23", ["1800,40"]);
  ("HI24", ["52,52,,,,269"]);
  ("HI25", ["2000,40"]);
  ("HI27", ["1400,36"]);
  ("HI28", ["1650,70"]);
  ("HI29", ["1965,40"]);
  ("HI33", ["2400,60"]);
  ("HI38", ["61,63"]);
  ("HI40", ["90,90"]);
  ("HI46", ["2000,26"]);
  ("HI49", ["1920,55,,,,204.4"]);
  ("HI50", ["232,80"]);
  ("HI52", ["90,90,,,,218"]);
  ("HI53", ["65,65,,,,315"]);
  ("HI55", ["40,40"]);
  ("HI56", ["30,30,,,,200"]);
  ("HI57", ["60,60,,,,330"]);
  ("HI58", ["125,125,,,,218"]);
  ("HKEL", ["11480,147,6838,79,6838,259"]);
  ("HKJK", ["13507,148,5330,54,5281,234"]);
  ("HKKG", ["3420,49,,79,,259"]);
  ("HKKI", ["6511,98,3749,62,3792,242"]);
  ("HKKT", ["4757,75,,40,,220"]);
  ("HKKU", ["3116,65,,53,,233"]);
  ("HKLK", ["6195,62,1510,92,1510,272"]);
  ("HKLO", [",,1715,,1715"; "1645,64,,83,,263"; "3281,64,,83,,263"]);
  ("HKLU", ["3054,46,,73,,253"; "3054,46,20,74,20,254"; "3293,60,20,152,20,332"]);
  ("HKMA", ["3609,,805,,805"]);
  ("HKML", ["3701,,73,,62"; "4600,,62,,62"]);
  ("HKMO", ["10991,151,190,29,199,209"; "4473,118,177,150,184,330"]);
  ("HKMY", ["4265,,2790,,2790"]);
  ("HKNV", ["3616,55,,185.4,,5.4"]);
  ("HKNW", ["4798,72,5546,70,5479,250"; "5052,76,5517,134,5469,314"]);
  ("HKRE", ["7998,151,5380,57,5380,237"]);
  ("HKWJ", ["9193,104,770,146.4,770,326.4"]);
  ("HL2", ["6000,300"]);
  ("HL50", ["5160,100,,13.4,,193.4"; "2045,105,,91.8,,271.8"]);
  ("HL53", ["3261,80,,128,,308"]);
  ("HL54", ["5905,140,,183.3,,3.3"]);
  ("HL56", ["11013,98,,9.3,,189.3"; "7491,148,,9,,189"]);
  ("HL57", ["5166,131,,59.8,,239.8"; "11975,230,,130,,310"]);
  ("HL58", ["3360,138,,147,,327"]);
  ("HL59", ["11838,148,,150,,330"]);
  ("HL60", ["4275,90,,152,,332"]);
  ("HL62", ["5496,98,,55.7,,235.7"; "5725,98,,168.5,,348.5"]);
  ("HL64", ["3280,100,,151.7,,331.7"]);
  ("HL66", ["11130,148,,132.2,,312.2"]);
  ("HL68", ["11155,148,,142,,322"]);
  ("HL69", ["13729,197,,140.7,,320.7"]);
  ("HL70", ["11811,148,,141,,321"]);
  ("HL71", ["4920,98,,128,,308"]);
  ("HL72", ["6515,70,,113.1,,293.1"]);
  ("HL77", ["10500,148,,97.1,,277.1"; "10500,148,,97.1,,277.1"]);
  ("HL78", ["5855,83,,75.7,,255.7"; "7758,95,,168,,348"]);
  ("HL79", ["12480,100,,59.2,,239.2"]);
  ("HL80", ["6890,100,,133.1,,313.1"]);
  ("HL81", ["7767,100,,89,,269"; "6963,95,,178.9,,358.9"]);
  ("HL82", ["3215,92,,81,,261"; "6160,92,,180,,360"]);
  ("HL83", ["12790,142,,124.4,,304.4"]);
  ("HL84", ["7218,100,,168,,348"]);
  ("HLAM", ["3452,82,,87,,267"; "5700,95,,132,,312"; "3324,79,,141,,321"]);
  ("HLBD", ["7495,155,,172,,352"]);
  ("HLFL", ["7051,148,,165,,345"]);
  ("HLGD", ["11807,148,,134.2,,314.2"; "11807,148,,179.6,,359.6"]);
  ("HLGL", ["3302,73,,90,,270"; "6575,100,,180,,360"]);
  ("HLGN", ["9895,150,,20,,200"; "9835,150,480,89,490,269"; "9865,150,520,149,480,329"]);
  ("HLGT", ["6643,98,,60.8,,240.8"; "11811,148,2296,171.5,2249,351.5"]);
  ("HLKF", ["12007,100,,15,,195"; "12007,148,1355,15,1367,195"]);
  ("HLLB", ["11732,148,372,150.5,433,330.5"; "11731,148,372,150.5,429,330.5"]);
  ("HLLM", ["6000,148,36,29.9,13,210"; "11076,148,32,105.4,29,285.5"]);
  ("HLLQ", ["6214,190,2267,30,2208,210"; "11824,148,2156,102.8,2157,282.8"]);
  ("HLLS", ["5596,98,1409,61,1416,241"; "11778,148,1405,133,1427,313"]);
  ("HLLT", ["11815,145,262,90,263,270"; "8650,145,240,177.3,263,357.3"]);
  ("HLMB", ["7220,100,,146.4,,326.4"]);
  ("HLNF", ["4985,110,,119.5,,299.5"; "6295,98,,179,,359"]);
  ("HLNR", ["9910,148,,146,,326"]);
  ("HLON", ["5905,98,880,132,885,312"]);
  ("HLRA", ["6880,100,,127.4,,307.4"]);
  ("HLSA", ["7220,160,,167,,347"]);
  ("HLTD", ["6516,131,1173,8.4,1154,188.4"; "11811,148,1110,62.3,1120,242.3"]);
  ("HLWA", ["3815,54,,169,,349"; "6918,94,,179,,359"]);
  ("HLZA", ["4505,65,,48,,228"; "7050,95,,118,,298"]);
  ("HLZG", ["5940,100,,146,,326"]);
  ("HLZW", ["5906,148,,59.7,,239.7"]);
  ("HRYG", ["3330,75,5032,10,5081,190"]);
  ("HRYI", ["4000,50,5800,70,5800"]);
  ("HRYR", ["11483,148,4881,100,4877,280"]);
  ("HRYU", ["4000,100,6000,140,6000,320"]);
  ("HRZA", ["4921,148,5189,17,5189,197"]);
  ("HSAK", ["3500,,,176,,356"]);
  ("HSAT", ["5905,,1196,,1181"]);
  ("HSDB", ["4595,100,824,181.2,831,1.2"]);
  ("HSDN", ["9843,148,771,173,773,353"]);
  ("HSDZ", ["9020,148,1582,170,1580,350"]);
  ("HSFA", ["8202,147"]);
  ("HSFS", ["9744,148,2386,52,2404,232"; "5010,148,,184,,4"]);
  ("HSGN", ["5305,,2590,,2611"; "6194,,2621,,2618"]);
  ("HSKA", ["8202,148,1671,22,1667,202"]);
  ("HSLI", ["8375,175,1848,62.6,1829,242.6"]);
  ("HSMN", ["13124"]);
  ("HSMR", ["4921,,840,,850"]);
  ("HSNN", ["9880,148,2106,41.4,2100,221.4"]);
  ("HSOB", ["9843,148,1927,8,1899,188"]);
  ("HSPN", ["8202,148,135,165,136,345"]);
  ("HSSJ", ["7874,148,1503,130.2,1505,310.2"]);
  ("HSSM", ["6562,125,1288,44,1291,224"]);
  ("HSSS", ["9751,148,1265,177,1260,357"]);
  ("HSSW", ["6562,,902,,965"]);
  ("HSWW", ["7644,,1507,,1533"]);
  ("HTAR", ["5377,105,,93,,273"]);
  ("HTBU", ["4535,93"]);
  ("HTDA", ["9843,151,173,45,161,225"; "3280,98,182,135,169,315"]);
  ("HTDO", ["6700,98,3670,91,3684,271"]);
  ("HTIR", ["5508,98,,13,,193"]);
  ("HTKA", ["5797,,2700,,2700"]);
  ("HTKJ", ["11834,148,2932,87,2902,267"]);
  ("HTLM", ["4003,66,,119,,299"]);
  ("HTMB", ["4921,,5600,,5600"]);
  ("HTMT", ["7410,98,355,4,355,184"; "3815,98,355,80,355,260"]);
  ("HTMU", ["5249,108"]);
  ("HTMW", ["10212,148,3730,116,3763,296"]);
  ("HTPE", ["5003,98,74,22,80,202"]);
  ("HTSU", [""]);
  ("HTTG", ["4160,102,128,62,102,242"]);
  ("HTZA", ["8077,148,54,174,51,354"]);
  ("HU-0006", ["2600,160"]);
  ("HU-0021", ["2034,59"]);
  ("HU-0036", ["3281,98,313,129,311,309"]);
  ("HUAJ", ["3710,65,,91.7,,271.7"]);
  ("HUEN", ["7900,150,3778,121,3752,301"; "12000,150,3780,171,3745,351"]);
  ("HUGU", ["10314,98,3510,160,3510,340"]);
  ("HUKF", ["5774,98"]);
  ("HUKS", ["5151,,3146,,3146"]);
  ("HUPA", ["5055"]);
  ("HUSO", ["6100,98,3679,51,3662,231"; "2525,98,3697,90.5,3697,270.5"]);
  ("HWA", ["1358,98"]);
  ("HWI", ["10000,3000"]);
  ("HYL", ["4500,500"; "6000,500"]);
  ("I01", ["100,125,,,,256.9"]);
  ("I04", ["10000,300,,,,309"]);
  ("I08", ["1750,40"]);
  ("I19", ["4500,75,914,63,946,243"]);
  ("I25", ["2695,50,,,,346.5"]);
  ("I27", ["1705,75"]);
  ("I32", ["5500,100,1028,20,1010,200"]);
  ("I38", ["1577,100,,,,356.5"]);
  ("I41", ["2300,75"]);
  ("I42", ["2773,50,810,,802,270"]);
  ("I44", ["2900,52,925,,925"]);
  ("I61", ["4000,200,990,,990,270"]);
  ("I62", ["2500,30,1040,,1040,360"]);
  ("I72", ["3000,100,930,,930"]);
  ("I80", ["3580,100,,,,359.4"]);
  ("I83", ["2738,50,821,,810,306"]);
  ("I91", ["2300,100,395,,390,211.6"]);
  ("I96", ["2600,60,,,,254.4"]);
  ("I99", ["2591,60,894,91,885,271"]);
  ("IA00", ["1900,75,,,,225"]);
  ("IA01", ["2600,75"]);
  ("IA04", ["45,45,,,,320"]);
  ("IA05", ["3000,150"]);
  ("IA08", ["2620,66"]);
  ("IA09", ["54,54,,,,225"]);
  ("IA10", ["60,60"]);
  ("IA11", ["1000,75"]);
  ("IA12", ["2500,70"]);
  ("IA13", ["43,43"]);
  ("IA14", ["500,500,,,,311"]);
  ("IA16", ["1800,75,,,,288.6"]);
  ("IA17", ["2000,70"]);
  ("IA19", ["55,55"]);
  ("IA23", ["2540,160,,,,339.2"]);
  ("IA24", ["4000,60,,136.2,,316.2"]);
  ("IA26", ["2640,80"]);
  ("IA27", ["2350,175"]);
  ("IA28", ["2300,50,,,,216"]);
  ("IA29", ["40,40"]);
  ("IA30", ["1500,66"]);
  ("IA31", ["2390,170"]);
  ("IA32", ["1800,75"]);
  ("IA34", ["50,50"]);
  ("IA35", ["2400,120"]);
  ("IA36", ["1800,60"]);
  ("IA37", ["40,40"]);
  ("IA38", ["1700,200"]);
  ("IA39", ["174,117"]);
  ("IA40", ["30,30"]);
  ("IA41", ["2350,50"]);
  ("IA43", ["60,60"]);
  ("IA44", ["550,40"]);
  ("IA45", ["2500,125"]);
  ("IA46", ["35,35"]);
  ("IA48", ["2100,100"]);
  ("IA49", ["2626,70,,,,325"]);
  ("IA51", ["2600,100"]);
  ("IA52", ["1000,60"]);
  ("IA54", ["2000,100"]);
  ("IA55", ["25,25"]);
  ("IA56", ["2500,80"]);
  ("IA57", ["30,30"]);
  ("IA58", ["2400,100,,,,2"]);
  ("IA59", ["1600,50"; "1300,100"]);
  ("IA60", ["70,70,,,,332.8"; "70,70,,,,257"; "70,70,,,,286"]);
  ("IA62", ["1800,100"]);
  ("IA63", ["1800,70"]);
  ("IA64", ["68,75"; "66,75"; "75,75"; "70,69"]);
  ("IA66", ["2215,100,,,,328"]);
  ("IA67", ["58,58"]);
  ("IA69", ["5000,66"]);
  ("IA70", ["2900,100"]);
  ("IA71", ["50,50"]);
  ("IA72", ["50,50,,,,356.6"]);
  ("IA73", ["50,50,,,,225"]);
  ("IA74", ["50,50"]);
  ("IA75", ["10,10,,,,315"]);
  ("IA78", ["59,59"]);
  ("IA79", ["60,60,,,,270"]);
  ("IA8", ["2700,120"]);
  ("IA80", ["2400,120,,,,359"]);
  ("IA81", ["50,50,,,,179"]);
  ("IA82", ["40,40"; "60,50"]);
  ("IA83", ["2590,80,,,,356"]);
  ("IA84", ["2320,90"]);
  ("IA85", ["1200,75"]);
  ("IA86", ["2000,60"]);
  ("IA87", ["2600,150"]);
  ("IA88", ["100,100,,,,315.7"]);
  ("IA89", ["30,30"]);
  ("IA90", ["40,40,,,,315.7"]);
  ("IA91", ["50,50"]);
  ("IA92", ["50,50"]);
  ("IA95", ["30,30"]);
  ("IA96", ["60,60"]);
  ("IA97", ["2120,80"]);
  ("IA98", ["52,52"]);
  ("IA99", ["40,40"]);
  ("IBN", ["2000,40"]);
  ("ID-0003", [""]);
  ("ID-0010", [""]);
  ("ID-0011", ["4593,98,112,81.3,66,261.3"]);
  ("ID-0012", ["4593,75"]);
  ("ID-0013", ["2233,59,46,141.35,66,321.35"]);
  ("ID-0017", ["9843,197,82,40,82,220"]);
  ("ID-0022", ["1635,79"]);
  ("ID-0023", ["1315,69"]);
  ("ID-0024", ["1968,66"]);
  ("ID-0026", ["1640,88"]);
  ("ID-0027", ["1706,98"]);
  ("ID-0028", ["1479,82"]);
  ("ID-0029", ["1601,79"]);
  ("ID-0030", ["1659,98"]);
  ("ID-0031", ["1745,98"]);
  ("ID-0032", ["1600,98"]);
  ("ID-0033", ["1476,89"]);
  ("ID-0034", ["2247,95"]);
  ("ID-0036", ["2099,75"]);
  ("ID-0038", ["1375,72"]);
  ("ID-0039", ["2625,75"]);
  ("ID-0040", ["1972,85"]);
  ("ID-0042", ["1378,59"]);
  ("ID-0043", ["1440,46"]);
  ("ID-0044", ["2707,112"]);
  ("ID-0045", ["1980,59"]);
  ("ID-0046", ["1620,82"]);
  ("ID-0047", ["1886,85"]);
  ("ID-0049", ["1601,75"]);
  ("ID-0050", ["2411,92"]);
  ("ID-0051", ["1751,59"]);
  ("ID-0052", ["1601,89"]);
  ("ID-0053", ["1650,79"]);
  ("ID-0054", ["1476,92"]);
  ("ID-0055", ["1407,75"]);
  ("ID-0056", ["1332,92"]);
  ("ID-0057", ["1640,89"]);
  ("ID-0058", ["1283,75"]);
  ("ID-0059", ["1801,98"]);
  ("ID-0060", ["1329,92"]);
  ("ID-0061", ["1469,92"]);
  ("ID-0062", ["1640,66"]);
  ("ID-0063", ["1453,46"]);
  ("ID-0064", ["1800,89"]);
  ("ID-0065", ["2296,98"]);
  ("ID-0066", ["2233,66"]);
  ("ID-0067", ["1895,98"]);
  ("ID-0068", ["1909,82"]);
  ("ID-0069", ["2789,95"]);
  ("ID-0070", ["1632,66"]);
  ("ID-0071", ["1385,92"]);
  ("ID-0072", ["1804,98"]);
  ("ID-0073", ["2440,89"]);
  ("ID-0074", ["1500,75"]);
  ("ID-0075", ["1450,69"]);
  ("ID-0076", ["1310,82"]);
  ("ID-0077", ["1710,98"]);
  ("ID-0078", ["2087,101"]);
  ("ID-0079", ["1505,75"]);
  ("ID-0080", ["1335,98"]);
  ("ID-0081", ["2329,72"]);
  ("ID-0082", ["1798,92"]);
  ("ID-0083", ["1788,82"]);
  ("ID-0084", ["2958,75"]);
  ("ID-0085", ["1590,79"]);
  ("ID-0086", ["1274,95"]);
  ("ID-0087", ["1600,89"]);
  ("ID-0088", ["2349,69"]);
  ("ID-0089", ["1903,79"]);
  ("ID-0090", ["1415,85"]);
  ("ID-0091", ["1463,79"]);
  ("ID-0092", ["1350,56"]);
  ("ID-0093", ["1312,49"]);
  ("ID-0094", ["1312,82"]);
  ("ID-0095", ["1476,59"]);
  ("ID-0097", ["1595,66"]);
  ("ID-0098", ["1360,66"]);
  ("ID-0099", ["1411,72"]);
  ("ID-0100", ["1400,59"]);
  ("ID-0101", ["1450,59"]);
  ("ID-0104", ["1719,79"]);
  ("ID-0105", ["1585,95"]);
  ("ID-0106", ["1673,82"]);
  ("ID-0107", ["1378,98"]);
  ("ID-0108", ["1706,56"]);
  ("ID-0109", ["1450,75"]);
  ("ID-0110", ["1640,75"]);
  ("ID-0111", ["1427,56"]);
  ("ID-0113", ["1612,75"]);
  ("ID-0114", ["1295,66"]);
  ("ID-0116", ["1550,79"]);
  ("ID-0117", ["1601,89"]);
  ("ID-0118", ["2090,75"]);
  ("ID-0119", ["2139,89"]);
  ("ID-0124", ["1535,66"]);
  ("ID-0125", ["10980,400,65,54.8,70,234.8"]);
  ("ID-0126", ["1969,66"]);
  ("ID-0128", ["1170,89"]);
  ("ID-0129", ["1640,98"]);
  ("ID-0130", ["1519,108"]);
  ("ID-0136", ["1405,82,,104,,284"]);
  ("ID-0138", ["1400,75"]);
  ("ID-0139", ["2953,75"]);
  ("ID-0141", ["1312,82"]);
  ("ID-0142", ["1738,75"]);
  ("ID-0143", ["1779,49"]);
  ("ID-0145", ["1312,66"]);
  ("ID-0146", ["1624,66"]);
  ("ID-0147", ["1575,66"]);
  ("ID-0148", ["1877,79"]);
  ("ID-0149", ["2198,89"])].

(* ADRpy/data/runways.csv *)
Definition airports_15 : list (string * list string) := [
  ("ID-0150", ["2296,49"]);
  ("ID-0151", ["1388,49"]);
  ("ID-0152", ["1509,89"]);
  ("ID-0153", ["1800,75"]);
  ("ID-0154", ["1374,56"]);
  ("ID-0156", ["1865,85"]);
  ("ID-0157", ["1100,33"]);
  ("ID-0159", ["1319,75"]);
  ("ID-0161", ["1621,98"]);
  ("ID-0164", ["1911,69"]);
  ("ID-0165", ["1968,75"]);
  ("ID-0166", ["1400,66"]);
  ("ID-0167", ["1560,75"]);
  ("ID-0173", ["1132"]);
  ("ID-0175", ["1378,85"]);
  ("ID-0176", ["1450,98"]);
  ("ID-AGD", ["1590,59"]);
  ("ID-DRH", ["1870,56"]);
  ("ID-ELR", ["2227,72"]);
  ("ID-EWE", ["1969,59"]);
  ("ID-IUL", ["2297,59"]);
  ("ID-KBF", ["2402,66"]);
  ("ID-KBX", ["1810,79"]);
  ("ID-KCD", ["2130,49"]);
  ("ID-KMM", ["1992,59,21,131.6,26,311.6"]);
  ("ID-KWB", ["3937,98"]);
  ("ID-LLN", ["2530,98"]);
  ("ID-LWE", ["2953,75"]);
  ("ID-MUF", ["2050,66"]);
  ("ID-OBD", ["2503,66"]);
  ("ID-TBM", ["2953,75"]);
  ("ID-TMY", ["2165,85"; "1100"]);
  ("ID-WA19", ["3009,98,,125.7,,305.7"]);
  ("ID-WA98", ["3020,72,,152.8,,332.8"]);
  ("ID-ZEG", ["2154,30"]);
  ("ID-ZGP", ["1969,56"]);
  ("ID00", ["2800,100"]);
  ("ID01", ["2400,40"]);
  ("ID02", ["200,80"]);
  ("ID03", ["60,60"]);
  ("ID05", ["3500,150"]);
  ("ID06", ["2400,75"]);
  ("ID07", ["1800,40"]);
  ("ID08", ["100,80,,,,338"]);
  ("ID12", ["2700,80,,,,0.9"]);
  ("ID13", ["1400,200"]);
  ("ID14", ["30,30"]);
  ("ID16", ["4000,30"]);
  ("ID17", ["3900,60"]);
  ("ID18", ["95,45,,,,314.6"]);
  ("ID19", ["1900,40"]);
  ("ID20", ["40,40"]);
  ("ID21", ["1800,50"]);
  ("ID22", ["3000,50"]);
  ("ID23", ["2600,80"]);
  ("ID24", ["2000,60"]);
  ("ID25", ["3000,50"]);
  ("ID26", ["2600,24"]);
  ("ID27", ["800,30"]);
  ("ID28", ["1900,200"]);
  ("ID29", ["2600,150"]);
  ("ID30", ["60,60"]);
  ("ID31", ["20,20,,,,300.6"]);
  ("ID32", ["8000,100"; "2700,60,,,,272"]);
  ("ID33", ["3000,100"]);
  ("ID34", ["1800,100"]);
  ("ID35", ["2300,50"]);
  ("ID36", ["3900,120"]);
  ("ID37", ["50,50"]);
  ("ID38", ["100,60,,,,355"]);
  ("ID39", ["1600,100"]);
  ("ID40", ["2892,40,,137,,317"]);
  ("ID41", ["2450,175"]);
  ("ID43", ["2700,100"]);
  ("ID44", ["4300,200"]);
  ("ID45", ["50,50,,,,297"]);
  ("ID46", ["45,45,,,,352"]);
  ("ID47", ["60,60,,,,224.7"]);
  ("ID48", ["2800,100"]);
  ("ID49", ["90,60"]);
  ("ID50", ["2600,40,,,,224"]);
  ("ID52", ["2600,30"]);
  ("ID53", ["22,26,,,,190.5"]);
  ("ID54", ["15000,500"]);
  ("ID55", ["65,65,,,,219.4"]);
  ("ID56", ["5000,50"]);
  ("ID58", ["95,85,,,,324.1"]);
  ("ID59", ["2900,90"]);
  ("ID60", ["2500,40"]);
  ("ID61", ["1800,50,,,,314"]);
  ("ID62", ["3750,30"]);
  ("ID63", ["1800,160"]);
  ("ID64", ["40,40,,,,360"]);
  ("ID65", ["1900,55"]);
  ("ID66", ["50,50"]);
  ("ID67", ["1100,75"]);
  ("ID68", ["2500,100"]);
  ("ID69", ["85,85,,,,230.8"]);
  ("ID70", ["60,45,,,,313.4"]);
  ("ID71", ["150,100,,,,330"]);
  ("ID72", ["2500,100"]);
  ("ID73", ["100,80,,,,280"]);
  ("ID74", ["3300,40,,90,,270"]);
  ("ID75", ["2600,75"]);
  ("ID76", ["1500,50"]);
  ("ID77", ["2450,75"]);
  ("ID78", ["2600,50"]);
  ("ID79", ["2200,35"]);
  ("ID80", ["75,75"]);
  ("ID82", ["3000,100"]);
  ("ID83", ["40,40"]);
  ("ID84", ["2800,100"]);
  ("ID85", ["3000,150"]);
  ("ID86", ["1800,50"]);
  ("ID87", ["2400,120"]);
  ("ID88", ["3300,110"]);
  ("ID89", ["75,40"]);
  ("ID90", ["2000,50"]);
  ("ID91", ["50,50,2717,,,318.9"; "25,25,,,,211"]);
  ("ID92", ["4200,60,,66,,355.4"]);
  ("ID93", ["2100,200"]);
  ("ID94", ["1600,40"]);
  ("ID95", ["1700,50"]);
  ("ID96", ["2600,250"]);
  ("ID97", ["2100,60"]);
  ("ID98", ["20,20"]);
  ("ID99", ["30,30,,,,358.6"]);
  ("IDN", ["1699,98"]);
  ("IE-0005", ["1641,49"]);
  ("IE-0037", ["1181"]);
  ("IE-0038", ["1181"]);
  ("IG00", ["18,18"]);
  ("IG01", ["50,50,,,,203"]);
  ("IG02", ["1800,75"]);
  ("IG03", ["1800,75"]);
  ("IG04", ["1057,75,,,,271.9"]);
  ("IG05", ["2600,200"]);
  ("IG06", ["130,130,,,,1"]);
  ("IG07", ["1280,60"]);
  ("IG22", ["6800,2200"]);
  ("II00", ["1500,300,,,,225"]);
  ("II01", ["1920,50"]);
  ("II02", ["1900,150"]);
  ("II03", ["1800,50,,,,207"]);
  ("II04", ["2600,125"]);
  ("II05", ["2300,100"]);
  ("II06", ["2740,100"]);
  ("II07", ["2600,75"]);
  ("II08", ["2640,60"]);
  ("II09", ["2400,60"]);
  ("II10", ["1280,30"]);
  ("II11", ["1329,40"]);
  ("II12", ["2500,50"]);
  ("II13", ["1870,150"]);
  ("II14", ["1900,50"]);
  ("II15", ["2600,80"]);
  ("II16", ["1800,100"]);
  ("II17", ["1320,100"]);
  ("II18", ["2540,70"]);
  ("II19", ["1500,100"]);
  ("II20", ["2300,23"]);
  ("II21", ["2000,75"]);
  ("II22", ["1350,60"]);
  ("II23", ["40,40"]);
  ("II25", ["2000,100"]);
  ("II26", ["2200,60"]);
  ("II27", ["1800,100"]);
  ("II28", ["1400,50"]);
  ("II29", ["2500,150"]);
  ("II30", ["1900,60"; "2500,65,,,,272"]);
  ("II31", ["2240,100"]);
  ("II32", ["3600,60"]);
  ("II33", ["3000,50"]);
  ("II34", ["1400,100"]);
  ("II36", ["1000,60"]);
  ("II37", ["1800,60"]);
  ("II38", ["1600,75"]);
  ("II39", ["1600,80"; "1600,80"]);
  ("II41", ["50,50,,,,360"]);
  ("II42", ["1600,60"]);
  ("II43", ["1200,100"]);
  ("II44", ["40,40"]);
  ("II45", ["900,75"]);
  ("II46", ["40,40,,,,351"]);
  ("II47", ["50,50"]);
  ("II48", ["35,35"]);
  ("II49", ["1800,50"]);
  ("II50", ["1300,50"]);
  ("II51", ["2800,100,928,,930"]);
  ("II52", ["1250,100"]);
  ("II53", ["2000,60"]);
  ("II54", ["1700,50"]);
  ("II55", ["1700,50"; "1700,50"]);
  ("II56", ["40,40,,,,252.3"]);
  ("II57", ["30,30,,,,359.6"]);
  ("II59", ["1000,50"]);
  ("II61", ["23,23,,,,256"]);
  ("II62", ["1300,50"]);
  ("II64", ["12,12"]);
  ("II65", ["2000,200"]);
  ("II66", ["100,100,,,,263.5"]);
  ("II67", ["1100,125"; "626,125"]);
  ("II68", ["2200,100"]);
  ("II69", ["1800,100"]);
  ("II70", ["1600,50"]);
  ("II72", ["1300,20"]);
  ("II74", ["3000,60,,,,227.3"]);
  ("II77", ["1900,100"]);
  ("II78", ["2000,75"]);
  ("II79", ["2300,60"]);
  ("II81", ["2300,80"]);
  ("II82", ["2700,75"]);
  ("II83", ["2400,100"]);
  ("II84", ["1400,60"]);
  ("II85", ["2200,50"]);
  ("II86", ["2067,100"]);
  ("II87", ["2140,35"]);
  ("II88", ["50,50,,,,12"]);
  ("II89", ["1000,60"]);
  ("II90", ["1500,180"]);
  ("II91", ["1600,75"]);
  ("II92", ["60,50"]);
  ("II93", ["2186,75"]);
  ("II94", ["2640,60"]);
  ("II95", ["2050,90,,,,263"]);
  ("II96", ["2000,100"]);
  ("II97", ["2000,60"]);
  ("IL00", ["20,20,,,,199.6"]);
  ("IL01", ["2600,100"]);
  ("IL02", ["2600,80"]);
  ("IL03", ["40,40"]);
  ("IL04", ["30,30"]);
  ("IL05", ["1800,100"]);
  ("IL07", ["1300,70"]);
  ("IL08", ["40,21"]);
  ("IL11", ["1500,100"]);
  ("IL12", ["2600,70"]);
  ("IL13", ["2450,70"]);
  ("IL14", ["30,30"]);
  ("IL15", ["2625,200,,,,304.9"]);
  ("IL16", ["1600,70"]);
  ("IL17", ["56,56,,,,234"]);
  ("IL19", ["40,40,,,,316"]);
  ("IL20", ["40,40,,,,1.5"]);
  ("IL21", ["75,75,,,,231.8"]);
  ("IL22", ["1882,70,,,,334.8"]);
  ("IL23", ["2000,70"]);
  ("IL24", ["2300,138"]);
  ("IL25", ["40,40,,,,225.3"]);
  ("IL26", ["40,40,,,,226"]);
  ("IL29", ["1900,60"]);
  ("IL31", ["3300,300"]);
  ("IL32", ["2160,150"]);
  ("IL33", ["40,40,,,,251"]);
  ("IL34", ["2800,80"]);
  ("IL35", ["1320,100"]);
  ("IL36", ["2150,70"]);
  ("IL38", ["2600,70"]);
  ("IL40", ["100,100,,,,348"]);
  ("IL41", ["45,45,,,,215"]);
  ("IL42", ["150,60,,,,310"]);
  ("IL43", ["40,40,,,,305.9"]);
  ("IL44", ["60,60,,,,5"]);
  ("IL45", ["1685,100"]);
  ("IL46", ["1800,100"]);
  ("IL47", ["60,60,,,,222"]);
  ("IL49", ["40,40"]);
  ("IL50", ["44,44,,,,343"]);
  ("IL51", ["3000,120"]);
  ("IL52", ["2150,70,,,,255"]);
  ("IL53", ["1412,70"]);
  ("IL54", ["2220,100,,,,218.7"]);
  ("IL55", ["1200,60"]);
  ("IL56", ["2300,60"]);
  ("IL57", ["1800,134"]);
  ("IL58", ["1800,75"]);
  ("IL59", ["2000,250"]);
  ("IL60", ["2000,75"; "2600,75"]);
  ("IL61", ["60,60"]);
  ("IL62", ["150,150,,,,0.2"]);
  ("IL63", ["2640,70"]);
  ("IL64", ["1900,70"]);
  ("IL65", ["1940,145"]);
  ("IL67", ["40,40,,,,360"]);
  ("IL68", ["2500,100,,,,256"]);
  ("IL69", ["75,75,,,,10.7"]);
  ("IL70", ["100,100,,,,244.1"]);
  ("IL71", ["2509,200"]);
  ("IL72", ["2200,75,,,,2.7"]);
  ("IL73", ["40,40,,,,360"]);
  ("IL74", ["40,40"]);
  ("IL75", ["40,40,,,,274"]);
  ("IL76", ["60,60,,,,262.2"]);
  ("IL77", ["75,75,,,,262.3"]);
  ("IL78", ["2000,105"]);
  ("IL79", ["50,50,,,,230.6"]);
  ("IL81", ["2300,70"]);
  ("IL82", ["2000,100"]);
  ("IL83", ["35,35"]);
  ("IL84", ["2300,80"; "2300,80"]);
  ("IL85", ["45,45,,,,226.5"]);
  ("IL86", ["2500,50"]);
  ("IL87", ["2000,200"]);
  ("IL88", ["1300,100"]);
  ("IL89", ["50,50,,,,315.6"]);
  ("IL90", ["120,120"]);
  ("IL91", ["2640,90"]);
  ("IL92", ["56,40,,,,238.5"]);
  ("IL93", ["2800,80"]);
  ("IL94", ["2060,102"]);
  ("IL95", ["1600,70"]);
  ("IL96", ["40,40,,,,271.6"]);
  ("IL97", ["2700,100"]);
  ("IL98", ["100,100,,,,211.7"]);
  ("IL99", ["2200,70"]);
  ("IMA", ["2953"]);
  ("IN-0011", [""]);
  ("IN-0013", ["3000,75,,,1811"]);
  ("IN-0024", [""]);
  ("IN-0025", ["5200"]);
  ("IN-0026", ["3900,45"]);
  ("IN-0033", ["3937,99"]);
  ("IN-0035", ["2786,150"]);
  ("IN-0041", ["1466,65,,43,,223"]);
  ("IN-0044", ["1968,147,,137,,317"]);
  ("IN-0050", ["3958,100,,116,,296"]);
  ("IN-0053", ["3300,75"]);
  ("IN-0064", ["4920,82"]);
  ("IN-0067", [""]);
  ("IN-0069", [""]);
  ("IN-0070", ["5049,100,1626,135,1668,315"]);
  ("IN-0071", ["5783,100,1672,96,1724,276"]);
  ("IN-0072", ["6626,100,773,103,807,283"]);
  ("IN-0073", ["4133,100,619,111,612,291"]);
  ("IN-0074", ["3255,50,1601,4,1658,184"]);
  ("IN-0077", ["3500"]);
  ("IN-0090", ["2398"]);
  ("IN-0092", ["3000,100,400,,400"]);
  ("IN-VA38", ["5780,50,,128.8,,308.8"]);
  ("IN-VA47", ["4645,75,,88.8,,268.8"]);
  ("IN-VA51", ["4135,55,,99.7,,279.7"]);
  ("IN-VA53", ["4115,100,920,95,920,275"]);
  ("IN-VA74", ["3736,49,,81,,261"]);
  ("IN00", ["2400,100,,,,212.6"]);
  ("IN02", ["600,100"]);
  ("IN03", ["2400,60"]);
  ("IN04", ["1708,75,,,,350"]);
  ("IN05", ["1500,75"]);
  ("IN06", ["60,60"]);
  ("IN08", ["1750,40"; "2300,75"]);
  ("IN09", ["2400,120,,,,272"]);
  ("IN10", ["2200,70"]);
  ("IN11", ["2200,125"]);
  ("IN12", ["2500,500"]);
  ("IN13", ["2200,85"]);
  ("IN14", ["2300,70"]);
  ("IN15", ["1706,150"]);
  ("IN16", ["4000,900"]);
  ("IN17", ["70,70,,,,360"]);
  ("IN18", ["2100,100"]);
  ("IN19", ["1800,100"]);
  ("IN20", ["1800,70"]);
  ("IN21", ["2000,100"]);
  ("IN22", ["200,200,,,,236.2"]);
  ("IN23", ["2440,66"]);
  ("IN24", ["60,60"]);
  ("IN25", ["2200,100,,,,248"]);
  ("IN26", ["1800,150"]);
  ("IN27", ["3000,200"]);
  ("IN28", ["40,40"]);
  ("IN29", ["3600,132"]);
  ("IN30", ["2917,100,420,,410,193.7"]);
  ("IN31", ["2200,50"]);
  ("IN32", ["1680,50"]);
  ("IN33", ["2600,150"]);
  ("IN34", ["1600,40"]);
  ("IN36", ["2250,80,,,,271"]);
  ("IN37", ["100,100,,,,245"]);
  ("IN38", ["2600,80"]);
  ("IN39", ["2400,50"]);
  ("IN41", ["1350,60"]);
  ("IN42", ["1900,100"]);
  ("IN43", ["1000,60"; "950,60"]);
  ("IN44", ["2000,80"]);
  ("IN45", ["1900,97,,,,251.1"]);
  ("IN46", ["2081,65"]);
  ("IN47", ["2400,60"]);
  ("IN48", ["54,54"]);
  ("IN49", ["2100,50"]);
  ("IN50", ["1320,50"]);
  ("IN51", ["2600,50"]);
  ("IN52", ["50,50,,,,234.6"]);
  ("IN53", ["2600,50"]);
  ("IN54", ["2300,100,,,,315"]);
  ("IN55", ["2500,100"]);
  ("IN56", ["2800,75,,,,201.1"]);
  ("IN57", ["1200,50"]);
  ("IN58", ["1860,35"]);
  ("IN59", ["5000,1000"]);
  ("IN60", ["2000,100"]);
  ("IN61", ["2500,100"]);
  ("IN62", ["2600,100,,,,295.5"]);
  ("IN63", ["1950,100"]);
  ("IN64", ["1000,150"]);
  ("IN65", ["2600,200"]);
  ("IN66", ["30,30,,,,360"; "30,30,,,,360"]);
  ("IN67", ["2039,50"]);
  ("IN69", ["1000,50"; "800,50"]);
  ("IN70", ["2400,75,,,,360"]);
  ("IN71", ["2100,100,,,,352.4"]);
  ("IN72", ["1060,55"]);
  ("IN75", ["60,30"]);
  ("IN76", ["2600,100,,,,197.9"]);
  ("IN77", ["50,50,,,,201"]);
  ("IN78", ["319,125,,,,203"]);
  ("IN79", ["60,60,,,,242"]);
  ("IN80", ["2300,60"]);
  ("IN81", ["1200,120"]);
  ("IN82", ["2400,100"]);
  ("IN83", ["2200,80"]);
  ("IN85", ["1800,55"]);
  ("IN86", ["1500,80"]);
  ("IN87", ["2640,80"]);
  ("IN88", ["1200,75,,,,271"]);
  ("IN89", ["2640,200"]);
  ("IN90", ["2800,100,,,,352.5"]);
  ("IN91", ["2400,130"]);
  ("IN92", ["2600,100"]);
  ("IN93", ["2300,52"]);
  ("IN94", ["24,24"]);
  ("IN96", ["52,52"]);
  ("IN97", ["200,200,,,,332"]);
  ("IN98", ["2500,100"]);
  ("IN99", ["1200,120"]);
  ("IOK", ["1780"]);
  ("IR-OI21", ["11738,142,,58.9,,238.9"]);
  ("IR-OI24", ["3276,95,,68,,248"]);
  ("IS00", ["2400,100,,,,199"]);
  ("IS02", ["2600,100,,,,333"]);
  ("IS03", ["15000,4000"]);
  ("IS08", ["3400,110"]);
  ("IS09", ["100,100,,,,218"]);
  ("IS11", ["40,40,,,,303"]);
  ("IS12", ["60,60,,,,279"]);
  ("IS13", ["2500,100"]);
  ("IS15", ["2000,75"]);
  ("IS17", ["100,100,,,,270"]);
  ("IS19", ["2000,100"]);
  ("IS20", ["65,65"]);
  ("IS21", ["48,48,,,,269.4"]);
  ("IS22", ["50,50,,,,360"]);
  ("IS23", ["3000,300"]);
  ("IS24", ["1600,100,,,,278"]);
  ("IS25", ["45,45,,,,311"]);
  ("IS26", ["2620,100,,,,1.3"]);
  ("IS27", ["40,40"]);
  ("IS29", ["45,45,,,,323.1"]);
  ("IS30", ["50,50,,,,293.4"]);
  ("IS31", ["45,30"]);
  ("IS33", ["1900,75"]);
  ("IS34", ["2500,70"]);
  ("IS37", ["2160,100"]);
  ("IS38", ["40,40"]);
  ("IS39", ["45,45"]);
  ("IS40", ["2235,70,,,,360"]);
  ("IS41", ["2138,100,,,,360"]);
  ("IS43", ["2950,70"]);
  ("IS44", ["30,30"]);
  ("IS46", ["50,46,,,,244"; "45,45,,,,350.7"]);
  ("IS48", ["100,100,,,,346.5"]);
  ("IS49", ["40,30,,,,352.2"]);
  ("IS50", ["300,300"]);
  ("IS51", ["3100,80"]);
  ("IS52", ["2500,100"]);
  ("IS54", ["1980,104"]);
  ("IS55", ["2525,100"]);
  ("IS56", ["1500,70"]);
  ("IS57", ["2600,70"]);
  ("IS58", ["100,100"]);
  ("IS59", ["1600,70"]);
  ("IS60", ["2500,105"]);
  ("IS62", ["3500,80"]);
  ("IS64", ["2200,70"]);
  ("IS65", ["2988,50,,,,223.9"; "1750,150"]);
  ("IS66", ["2000,70"]);
  ("IS67", ["100,100"]);
  ("IS69", ["1690,70"]);
  ("IS71", ["2450,70"]);
  ("IS73", ["2000,80"]);
  ("IS74", ["10,10"]);
  ("IS76", ["75,125,,,,351"]);
  ("IS77", ["1940,70"]);
  ("IS78", ["2400,70"]);
  ("IS79", ["7250,2500"]);
  ("IS80", ["2300,70"]);
  ("IS81", ["80,70,,,,230.3"]);
  ("IS82", ["2400,70"]);
  ("IS83", ["2000,70,,,,355.9"]);
  ("IS86", ["2300,100"]);
  ("IS88", ["2600,100"]);
  ("IS89", ["50,52,,,,269"]);
  ("IS90", ["10,10,,,,207"]);
  ("IS92", ["20,20"]);
  ("IS93", ["1420,70"]);
  ("IS94", ["1800,50"]);
  ("IS95", ["1900,100"]);
  ("IS96", ["54,44,,,,209"; "50,50,,,,4"]);
  ("IS97", ["4,40,,,,255"]);
  ("IS99", ["40,40,,,,350"]);
  ("IT-0001", ["2133,66"; "1148,66"]);
  ("IT-0002", ["1739,59"]);
  ("IT-0004", ["2100,65"]);
  ("IT-0005", ["1804"]);
  ("IT-0006", ["2822"]);
  ("IT-0007", ["1640"]);
  ("IT-0008", ["1312"]);
  ("IT-0009", ["656"]);
  ("IT-0010", ["1640"]);
  ("IT-0011", ["1969"]);
  ("IT-0012", ["1312"]);
  ("IT-0013", ["2756"]);
  ("IT-0014", ["2362"]);
  ("IT-0015", ["1969"]);
  ("IT-0016", ["1640"]);
  ("IT-0017", ["1640"]);
  ("IT-0018", ["1181"]);
  ("IT-0019", ["1476"]);
  ("IT-0020", ["1115,197"]);
  ("IT-0021", ["1083"]);
  ("IT-0022", ["820"]);
  ("IT-0023", ["2297"]);
  ("IT-0024", ["1509,72"]);
  ("IT-0025", ["1476,98"]);
  ("IT-0026", ["886"]);
  ("IT-0027", ["1640"]);
  ("IT-0028", ["3281,98"]);
  ("IT-0029", ["1969"]);
  ("IT-0030", ["4921,98,,89,,260"]);
  ("IT-0031", ["1640"]);
  ("IT-0032", ["1476"]);
  ("IT-0037", ["1476,82"]);
  ("IT-0043", ["2460,65"]);
  ("IT-0045", ["2625"]);
  ("IT-0048", ["2460,82,,150,,330"]);
  ("IT-0051", ["1476,98"]);
  ("IT-0055", ["1477"]);
  ("IT-0056", ["1575,66"]);
  ("IT-0058", ["1969"]);
  ("IT-0063", ["1378,66"]);
  ("IT-0065", ["1477,82"]);
  ("IT-0070", ["1591,30"]);
  ("IT-0071", ["2133"]);
  ("IT-0073", ["1148,75"]);
  ("IT-0074", ["1969"]);
  ("IT-0076", ["1213,82"]);
  ("IT-0085", ["1200"]);
  ("IT-0087", ["2756,59"]);
  ("IT-0089", ["2625,98"]);
  ("IT-0090", ["2300,100,640,,640"]);
  ("IT-0093", ["1476"]);
  ("IT-0097", ["1640,98"]);
  ("IT-0099", ["1641"]);
  ("IT-0102", ["1411,98"]);
  ("IT-0103", ["2166,82,,148,,328"]);
  ("IT-0113", ["2625,98"]);
  ("IT-0118", ["2625,164"]);
  ("IT-0119", ["2297,82"]);
  ("IT-0120", ["1148,59"]);
  ("IT-0123", ["1640,131"]);
  ("IT-0124", ["1558,66"]);
  ("IT-0125", ["1312,66"]);
  ("IT-0131", ["2300"]);
  ("IT-0136", ["2133"]);
  ("IT-0138", ["951,98"]);
  ("IT-0142", ["1476,66"]);
  ("IT-0146", ["2362,131"]);
  ("IT-0148", ["820,82"]);
  ("IT-0149", ["1477"]);
  ("IT-0150", ["3281,98"]);
  ("IT-0152", ["2133"; "1804"]);
  ("IT-0156", ["1378,85"]);
  ("IT-0157", ["1739,66"]);
  ("IT-0166", ["1083,82"]);
  ("IT-0170", ["1214,36"]);
  ("IT-0171", ["2625,72"]);
  ("IT-0172", ["1640,59"]);
  ("IT-0175", ["2379,66"]);
  ("IT-0176", ["2133,118"]);
  ("IT-0177", ["4600,100,156,128,145,308"]);
  ("IT-0179", ["2789,82"]);
  ("IT-0181", ["2133,98"]);
  ("IT-0183", ["1312,59"]);
  ("IT-0189", ["1967,131"]);
  ("IT-0190", ["1476,98"]);
  ("IT-0192", ["1115,82"]);
  ("IT-0194", ["2133,89"]);
  ("IT-0195", ["1312,98"]);
  ("IT-0196", ["1542,115"]);
  ("IT-0203", ["2133,82"]);
  ("IT-0204", ["984"]);
  ("IT-0211", ["1640,82"]);
  ("IT-0214", ["1804,98"]);
  ("IT-0220", ["2100,56"]);
  ("IT-0222", ["1969,98"]);
  ("IT-0224", ["1969,66"]);
  ("IT-0225", ["2297,98"]);
  ("IT-0226", ["1312,82"]);
  ("IT-0228", ["1312,131"]);
  ("IT-0229", ["1476,66"]);
  ("IT-0230", ["1509,79"]);
  ("IT-0231", ["1398,82"]);
  ("IT-0232", ["2953,52"]);
  ("IT-0236", ["1969,131"]);
  ("IT-0238", ["1312,98"]);
  ("IT-0240", ["656"]);
  ("IT-0241", ["1640"]);
  ("IT-0242", ["3232,66"]);
  ("IT-0245", ["1575,98"]);
  ("IT-0248", ["2690"]);
  ("IT-0252", ["951,82"]);
  ("IT-0254", ["1411,98"]);
  ("IT-0255", ["2953,98"]);
  ("IT-0256", ["2297,98"]);
  ("IT-0257", ["1804,177"]);
  ("IT-0258", ["1378,98"]);
  ("IT-0259", ["1247,82"]);
  ("IT-0260", ["1640,66"; "1312"]);
  ("IT-0262", ["1083,164"]);
  ("IT-0265", ["1969,66"]);
  ("IT-0266", ["1969,82"]);
  ("IT-0267", ["1837,66"]);
  ("IT-0268", ["1640,66"]);
  ("IT-0269", [""]);
  ("IT-0274", ["1476"]);
  ("IT-0278", ["2133,105"]);
  ("IT-0279", ["2723,98"]);
  ("IT-0280", ["2625,131"]);
  ("IT-0281", ["3281,98"]);
  ("IT-0282", ["1430,59"]);
  ("IT-0283", ["1247,82"]);
  ("IT-0284", ["1312,98"]);
  ("IT-0290", ["1640,66"]);
  ("IT-0291", ["1181,197"]);
  ("IT-0293", ["2526,66"]);
  ("IT-0300", ["1969,131"]);
  ("IT-0301", ["1640,98"]);
  ("IT-0303", ["1312,66"]);
  ("IT-0304", ["1312,66"]);
  ("IT-0305", ["1476,49"]);
  ("IT-0306", ["591,92"]);
  ("IT-0308", ["2297,108"]);
  ("IT-0309", ["1509,66"]);
  ("IT-0310", ["1316,66"]);
  ("IT-0311", ["755,131"]);
  ("IT-0312", ["2001,131"]);
  ("IT-0313", ["1312,148"]);
  ("IT-0314", ["1804,82"]);
  ("IT-0315", ["1640,66"]);
  ("IT-0316", ["1312,82"]);
  ("IT-0317", ["1312"]);
  ("IT-0318", ["1706,66"]);
  ("IT-0319", ["1312"]);
  ("IT-0320", ["1542,131"]);
  ("IT-0322", ["1640,82"]);
  ("IT-0323", ["3281,148"]);
  ("IT-0324", ["1148,98"]);
  ("IT-0325", ["2461,82"]);
  ("IT-0327", ["984,98"]);
  ("IT-0328", ["1312,98"]);
  ("IT-0330", ["1017,66"]);
  ("IT-0333", ["1772,98"]);
  ("IT-0335", ["1624,59"]);
  ("IT-0337", ["1020,98"]);
  ("IT-0338", ["1312,82"]);
  ("IT-0339", ["1804,98"]);
  ("IT-0340", ["2297,82"]);
  ("IT-0341", ["1280,33"]);
  ("IT-0342", ["1312,66"]);
  ("IT-0343", ["1247,164"]);
  ("IT-0344", ["984,131"]);
  ("IT-0345", ["1280,82"]);
  ("IT-0346", ["1640,66"]);
  ("IT-0350", ["1312,66"]);
  ("IT-0351", ["755,82"]);
  ("IT-0352", ["1716,82"]);
  ("IT-0353", ["1414,98"]);
  ("IT-0354", ["984,98"]);
  ("IT-0355", ["1903,82"]);
  ("IT-0356", ["1755,125"]);
  ("IT-0357", ["1476,66"]);
  ("IT-0359", ["2297,98"]);
  ("IT-0360", ["1280,59"]);
  ("IT-0361", ["3281,295,56,35,56,215"]);
  ("IT-0366", ["2215,98"]);
  ("IT-0367", ["1509,66"]);
  ("IT-0368", ["1411,69"]);
  ("IT-0370", ["1476,98"]);
  ("IT-0371", ["1312,66"]);
  ("IT-0372", ["2264,131"]);
  ("IT-0373", ["1640,66"]);
  ("IT-0377", ["1247,66"]);
  ("IT-0379", ["1969,82"]);
  ("IT-0382", ["1674,65,327,137,324,317"]);
  ("IT-0383", ["984,33"]);
  ("IT-0385", ["1181,66,95,74,97,254"]);
  ("IT-0387", ["2625,131"]);
  ("IT-0388", ["2625,82"]);
  ("IT-0389", ["3937,197"]);
  ("IT-0390", ["1312,131"]);
  ("IT-0392", ["2231,98"]);
  ("IT-0393", ["2297,98"]);
  ("IT-0394", ["2854,148"]);
  ("IT-0395", ["2362,115"]);
  ("IT-0396", ["984,197"]);
  ("IT-0398", ["1427,82"]);
  ("IT-0399", ["1640,62"]);
  ("IT-0400", ["984,112"]);
  ("IT-0401", ["1083,164"]);
  ("IT-0403", ["1017,75"]);
  ("IT-0404", ["886,98"]);
  ("IT-0405", ["1312,66"]);
  ("IT-0406", ["2297,39"]);
  ("IT-0407", ["1312,66"]);
  ("IT-0408", ["1739,66"]);
  ("IT-0409", ["820,49"]);
  ("IT-0419", ["951,66"]);
  ("IT-0436", ["1640,66"]);
  ("IT-0439", ["2297,98"]);
  ("IT-0448", ["1575,72"]);
  ("IT-0509", ["640"]);
  ("IT-0528", ["1706"]);
  ("ITK", ["2297,98"]);
  ("JB01", ["2675,30,,,,270"]);
  ("JLA", ["2200,60"]);
  ("JMC", ["100,100,2,,,4"]);
  ("JOP", ["3117"]);
  ("JPN", ["82,82,,,,201.4"]);
  ("JRA", ["44,44,,,,328.7"; "44,44,,,,355.3"; "44,44,,,,0.8"; "44,44,,,,226.3"; "44,44,,,,346"; "44,44,,,,360"; "37,37,,,,271"; "37,37,,,,348.2"; "37,37,,,,358"]);
  ("JRB", ["62,62,,,,264.7"]);
  ("JY00", ["20,20,,,,218"]);
  ("JY01", ["40,40"]);
  ("JY02", ["50,50,,,,1.9"]);
  ("JY04", ["2000,100"]);
  ("JY06", ["46,46,,,,2"]);
  ("JY08", ["1165,45,,,,360"]);
  ("JY12", ["25,25"]);
  ("JY13", ["50,50,,,,218"]);
  ("JY14", ["1000,75,,,,222.1"]);
  ("JY15", ["88,88,,,,341"]);
  ("JY16", ["184,60,,,,213.6"]);
  ("JY17", ["2303,100,,,,252"]);
  ("JY18", ["200,200,,,,296"]);
  ("JY19", ["65,65"]);
  ("JY20", ["90,90,,,,359"]);
  ("JY21", ["70,70,,,,276"]);
  ("JY24", ["1800,50"]);
  ("JY25", ["30,30,,,,270"]);
  ("JY26", ["300,300,,,,315"]);
  ("JY27", ["16,16"]);
  ("JY28", ["100,100,,,,293.6"]);
  ("JY30", ["60,60,,,,355"]);
  ("JY31", ["2550,150,,,,357"]);
  ("JY32", ["100,120,,,,220"]);
  ("JY33", ["200,200,,,,262"]);
  ("JY34", ["50,50,,,,262"]);
  ("JY35", ["3500,140"]);
  ("JY36", ["25,25,,,,359"]);
  ("JY39", ["2200,100,,,,295"]);
  ("JY40", ["50,50,,,,360"]);
  ("JY42", ["15000,,,,,262"]);
  ("JY43", ["2150,40"]);
  ("K00", ["2585,40"]);
  ("K00C", ["5010,50,6627,21,6684,201"]);
  ("K00F", ["4400,75,,114,,214.6"]);
  ("K00M", ["3000,50,330,161,358,341"]);
  ("K00R", ["3700,60,150,131,150,311"]);
  ("K00V", ["2084,35,,91,,271"; "6000,60,6874,160,6787,340"; "1800,15"]);
  ("K01", ["1600,80,,,,271"; "4000,100,,,,1"]);
  ("K01G", ["1830,60,,31,,211"; "3500,60,,90,,270"]);
  ("K01M", ["4000,60,577,165,,315.7"]);
  ("K02A", ["4008,100,585,78,566,258"]);
  ("K02C", ["3501,44,840,19,830,233"; "3395,100,830,90,830,310"; "1600,80,,179,,336"]);
  ("K02G", ["3503,75,1142,61,1160,241"]);
  ("K03", ["15000,2000"]);
  ("K03B", ["3000,50,,68.6,,255.3"]);
  ("K03D", ["3300,60,,122,,318.6"]);
  ("K04A", ["4640,80,,40,,220.5"]);
  ("K04G", ["3073,50,1015,16,1044,196"]);
  ("K04M", ["3200,60,383,148,,192.9"]);
  ("K04Y", ["3404,75,1208,161,1199,341"]);
  ("K05C", ["4900,75,634,80,632,260"]);
  ("K05D", ["3000,50,1910,131,1924,311.5"]);
  ("K05U", ["7300,60,,190.9,,1.5"]);
  ("K06A", ["5003,100,264,129,264,309"]);
  ("K06C", ["3800,100,801,105.2,801,228"]);
  ("K06D", ["2400,95,1821,82,1811,262"; "4300,75,1823,150,1816,330"]);
  ("K06M", ["3000,60,450,147,427,359.5"]);
  ("K06U", ["6200,60,,164.3,,359"]);
  ("K07", ["3028,38,956,93,964,273"]);
  ("K07A", ["3660,80,292,139,300,359"]);
  ("K07F", ["3301,75,285,143,296,323"; "2301,50,292,179,294,359"]);
  ("K07R", ["3200,50,55,155.2,,358.8"]);
  ("K07V", ["5798,60,7152,76,7060,256"]);
  ("K08", ["4140,40,,,,314"]);
  ("K08A", ["3011,80,196,89,196,269"; "2876,130,195,180,196,360"]);
  ("K08C", ["3920,49,603,140,603,344.9"]);
  ("K08D", ["3900,60,2245,108,2240,288"]);
  ("K08K", ["3900,150,1809,148.2,1806,240.6"; "3745,60,1814,180,1806,360"]);
  ("K08M", ["3000,50,,175,,1.2"]);
  ("K09A", ["4080,80,116,116,134,296"]);
  ("K09J", ["3715,75,11,174,11,354"]);
  ("K09K", ["3000,50,,167,,333.7"]);
  ("K09M", ["3000,50,,178,,296.8"]);
  ("K09R", ["4000,60,388,163.4,,223"]);
  ("K0A2", ["3917,60,508,96.1,493,223"]);
  ("K0A3", ["4107,75,1080,58,1084,238"]);
  ("K0A4", ["3000,50,,36.6,,314"]);
  ("K0A7", ["3075,40,,143,,314"]);
  ("K0A8", ["4206,80,238,95,251,275"]);
  ("K0A9", ["4529,70,1556,57.6,1592,336"]);
  ("K0B1", ["3818,75,674,126,656,225.8"]);
  ("K0B4", ["2150,125,1387,41,1374,221"; "3950,60,1367,141,1381,321"]);
  ("K0B5", ["3013,75,346,143,356,323"]);
  ("K0B8", ["1792,75,5,61,8,241"; "2328,100,7,101,4,281"]);
  ("K0C0", ["3589,105,899,90,913,270"; "2633,100,912,155,912,335"; "2577,120,913,180,909,360"]);
  ("K0C4", ["3600,60,1345,155,1332,335"]);
  ("K0D8", ["2505,150,2049,53,2062,233"; "4400,75,2059,143,2055,323"]);
  ("K0E0", ["7700,75,,90,,315"]);
  ("K0E8", ["5820,60,6689,194,6696,14"]);
  ("K0F2", ["3603,60,1101,174,1083,354"]);
  ("K0F4", ["2040,100,2068,50,2069,230"; "3200,60,2071,166,2066,346"]);
  ("K0F7", ["3000,50,,191,,11"]);
  ("K0F9", ["3100,50,,180.5,,316.9"]);
  ("K0G3", ["3502,75,1305,159,1301,320.6"]);
  ("K0G6", ["4781,75,730,68,730,248"]);
  ("K0G7", ["3786,75,491,355,484,175"; "1850,60,491,94,468,274"]);
  ("K0H1", ["4000,50,2432,172,2424,352"]);
  ("K0I8", ["3852,75,720,106,720,286"]);
  ("K0J4", ["3197,75,288,38,314,218"]);
  ("K0J6", ["5002,80,354,91,355,271"; "2885,162,356,175,357,355"]);
  ("K0J9", ["3000,50,,170,,286.2"]);
  ("K0K7", ["3417,60,1093,116,1084,296"]);
  ("K0L7", ["4600,75,,31,,212"; "3700,60,2815,31,2833,212"]);
  ("K0L9", ["3400,50,,79.5,,196"]);
  ("K0M0", ["5000,75,162,182,162,2"]);
  ("K0M1", ["3980,75,,154.1,,334.1"]);
  ("K0M2", ["3500,75,,8.1,,276"]);
  ("K0M3", ["4000,75,949,18,968,198"]);
  ("K0M4", ["5001,75,468,35,465,215"]);
  ("K0M5", ["4000,75,755,30,733,210"]);
  ("K0M8", ["3196,75,103,175,103,355"]);
  ("K0M9", ["3000,75,91,179,91,359"]);
  ("K0O2", ["3157,50,916,166,920,346"]);
  ("K0Q5", ["3400,75,69,138.4,52,314.4"]);
  ("K0R0", ["4460,70,243,54,265,234"; "2430,150,,132,,312"]);
  ("K0R1", ["4952,80,282,180,276,360"]);
  ("K0R3", ["5000,75,16,159,14,339"]);
  ("K0R4", ["3700,75,,144,,324"]);
  ("K0R5", ["3002,100,146,89,118,269"]);
  ("K0R6", ["4326,50,174,19,178,233.6"]);
  ("K0S0", ["3197,50,1478,64,,244"]);
  ("K0S7", ["4014,50,1064,166,1058,346"]);
  ("K0S9", ["3000,75,,104,,337"]);
  ("K0V3", ["1275,300,2154,59,2155,239"; "3900,60,2156,166,2153,346"]);
  ("K0V4", ["3798,60,596,53,589,233"]);
  ("K0V6", ["3200,60,2605,124.5,2560,267"]);
  ("K0V7", ["7140,75,,61.8,,267.4"]);
  ("K0VG", ["5000,75,1366,60,1411,240"]);
  ("K0W3", ["2000,75,,357,,177"; "2000,40,408,92,380,272"; "1600,75,,124,,304"]);
  ("K10C", ["2802,36,874,88,848,268"; "2141,125,867,178,855,358"]);
  ("K10G", ["3498,65,1218,87,1183,267"]);
  ("K10U", ["6700,60,,35.6,,195.8"]);
  ("K11", ["2760,35,580,,580"; "1550,110"]);
  ("K11A", ["5010,80,422,97,434,277"]);
  ("K11R", ["5496,75,307,171,249,351"]);
  ("K11V", ["4000,25,4766,91.4,4820,270"; "2400,65,,159.1,,315.1"]);
  ("K12D", ["3400,75,1366,84,1370,307.2"]);
  ("K12G", ["1890,125,1120,25,1118,205"; "3174,50,1118,179,1119,359"]);
  ("K12J", ["5136,150,82,63,83,243"; "5001,150,82,120,99,300"; "3999,150,83,180,96,360"]);
  ("K12K", ["3702,60,1691,145,1650,325"; "3000,200,1682,190,1691,10"]);
  ("K12N", ["1981,50,582,21,582,201"]);
  ("K12V", ["3154,40,567,59,569,239"]);
  ("K12Y", ["3005,75,835,134,866,187"]);
  ("K13", ["1840,120"]);
  ("K13C", ["3500,75,963,89,967,269"]);
  ("K13K", ["2075,55,1206,90,1196,270"; "3503,60,1205,191,1194,11"]);
  ("K14A", ["3147,40,808,134.9,839,317.4"]);
  ("K14F", ["3200,50,1747,166.9,1753,360"]);
  ("K14G", ["4137,60,652,90,660,270"; "2238,130,654,181,657,1"]);
  ("K14J", ["3050,75,254,15,251,292.3"; "1900,100,,87,,267"]);
  ("K14M", ["3000,50,,80,,360"]);
  ("K14Y", ["3000,75,1332,166,1328,346"]);
  ("K15F", ["3420,50,1589,188,1625,8"]);
  ("K15J", ["5000,100,232,47,234,227"; "4000,100,234,145,234,325"]);
  ("K15M", ["4000,75,625,184,620,227.2"]);
  ("K16D", ["4100,75,1376,130,1371,310"]);
  ("K16G", ["4000,75,786,56,781,236"]);
  ("K16J", ["4510,75,333,132,289,348"]);
  ("K17", ["4000,120,,,,222"]);
  ("K17G", ["3895,75,1000,36,999,216"; "2900,75,996,85.5,1008,267"]);
  ("K17J", ["4000,150,147,91,,271"; "4000,150,,131,,311"; "5182,100,147,182,130,2"]);
  ("K17K", ["4210,60,4169,49,4162,229"]);
  ("K17M", ["3104,50,,180,,360"]);
  ("K17N", ["3500,50,137,74,161,254"]);
  ("K17V", ["3860,40,4020,90,4010,270.9"; "1650,30,,180,,308.2"]);
  ("K18A", ["5000,75,828,72,890,271"]);
  ("K18I", ["3000,75,,38.7,,232"]);
  ("K18V", ["2500,90,,96.6,,315"; "4100,40,4965,165,4965,345"]);
  ("K19A", ["5009,75,932,163,950,343"]);
  ("K19M", ["3199,60,324,12,339,192"]);
  ("K19N", ["3094,45,149,38,141,218"]);
  ("K19S", ["2300,100,2908,88,2907,289"; "4500,60,2907,177.2,2905,198.6"]);
  ("K1A0", ["3025,50,,41.9,,341.8"]);
  ("K1A3", ["3500,75,1772,13,1789,208"]);
  ("K1A4", ["3256,75,,50,,310"]);
  ("K1A5", ["4400,75,2020,69,2009,249"]);
  ("K1A6", ["3631,75,1154,98,1140,278"]);
  ("K1A7", ["3500,75,,180,,314"]);
  ("K1A9", ["5400,100,225,89,198,269"]);
  ("K1B0", ["1600,300,533,48.5,520,228.5"; "3009,80,516,139,518,319"]);
  ("K1B1", ["5350,100,198,11,194,191"]);
  ("K1B2", ["3700,50,,19,,6"; "2700,50,,51,,279"; "2600,50,,153.9,,192.1"]);
  ("K1B6", ["3172,90,268,166,237,346"]);
  ("K1B9", ["2200,100,120,25,124,205"; "3500,75,122,123,120,303"]);
  ("K1C1", ["3409,50,779,180,755,360"]);
  ("K1C2", ["2362,50,752,45.9,742,225.9"; "2877,50,740,133,742,313"]);
  ("K1C5", ["3362,50,670,178,653,358"]);
  ("K1D1", ["3607,150,1112,72,1113,252"; "4000,60,1114,137,1115,317"]);
  ("K1D3", ["3100,60,1600,144,1618,1.3"]);
  ("K1D7", ["2200,150,1846,6.1,1854,324"; "3700,60,1857,123,1845,303"]);
  ("K1D8", ["2600,250,1305,23,1302,304.2"; "3300,60,1303,143,1303,304.2"]);
  ("K1F0", ["5000,75,839,179,844,359"]);
  ("K1F4", ["3005,50,862,186,881,6"]);
  ("K1F5", ["1750,150,,90,,229.4"; "4400,50,,180,,270.3"]);
  ("K1G0", ["4199,75,671,91,671,271"; "2628,50,671,179,671,359"]);
  ("K1G1", ["3053,48,756,85,758,265"]);
  ("K1G3", ["4000,60,1116,9,1134,189"; "2400,165,1150,42,1150,222"; "1170,55,1150,89.1,1150,269.1"]);
  ("K1G4", ["5058,60,4762,185,4825,209"]);
  ("K1G5", ["2867,60,1170,1,1190,181"; "3556,75,1169,84,1183,264"]);
  ("K1H0", ["3120,220,,66.3,,270"; "4500,75,451,158,462,338"]);
  ("K1H2", ["3400,60,572,7,581,187"; "5100,75,585,113,573,293"]);
  ("K1H3", ["3400,60,,92.5,,211"]);
  ("K1H5", ["3502,60,1247,170,1223,332.5"]);
  ("K1H8", ["4002,75,652,39,654,219"; "1965,100,653,177,651,0.1"]);
  ("K1I5", ["2275,22,,106,,218"]);
  ("K1I7", ["3750,40,520,180,520,338"]);
  ("K1J0", ["4000,75,83,10,84,190"]);
  ("K1J6", ["3300,72,,90,,340.1"]);
  ("K1K2", ["3010,60,968,15,966,195"]);
  ("K1K4", ["3006,60,1167,136,1156,316"; "1803,60,1168,181,1161,1"]);
  ("K1K7", ["4579,45,,180,,319.1"]);
  ("K1K9", ["3250,40,,30,,250.6"]);
  ("K1L0", ["3999,75,4,172,6,352"]);
  ("K1L1", ["4620,60,4831,182,4799,233.7"]);
  ("K1L3", ["5040,70,,180,,350"]);
  ("K1L7", ["5000,60,5733,139,5714,319"]);
  ("K1L8", ["3410,40,,193.5,,270"]);
  ("K1L9", ["5000,75,,55.8,,315.3"]);
  ("K1M2", ["3000,50,109,32,109,212"]);
  ("K1M4", ["5008,100,930,182,903,2"]);
  ("K1M5", ["5000,100,818,11,771,191"]);
  ("K1M9", ["4800,100,550,20,572,263"]);
  ("K1MO", ["3590,50,1458,81,1476,261"]);
  ("K1N1", ["4830,30,,100.2,,292.8"]);
  ("K1N7", ["3100,70,367,61,372,241"]);
  ("K1O1", ["1540,75,1128,90,1128,270"; "3100,75,1126,181,1128,1"]);
  ("K1O2", ["3597,60,1379,119,1368,299"]);
  ("K1O3", ["3735,42,60,92,54,272"; "2073,26,59,135,58,315"]);
  ("K1O4", ["3100,50,1731,180,1731,360"]);
  ("K1O5", ["2080,100,2516,69,2522,256"; "3360,50,2524,160.1,2517,323"]);
  ("K1O8", ["3062,50,1248,180,1246,360"]);
  ("K1Q2", ["4600,50,5114,181,5116,1"]);
  ("K1Q4", ["3530,60,56,137.9,61,286"]);
  ("K1R1", ["3805,75,,178.7,,181.5"]);
  ("K1R4", ["3100,75,,15"]);
  ("K1R7", ["5000,75,489,48,484,228"]);
  ("K1R8", ["5500,79,206,86,248,266"]);
  ("K1S3", ["4799,75,2727,96,2726,276"]);
  ("K1S5", ["3423,60,746,90,768,270"]);
  ("K1S9", ["3446,48,,190,,240.1"]);
  ("K1T7", ["3000,40,1250,125.6,,293"]);
  ("K1U2", ["3300,40,4772,53,4787,355.6"]);
  ("K1U7", ["5730,75,5926,115,5928,227"; "4590,70,5927,174,5926,298"]);
  ("K1V0", ["4995,60,,71.1,,250"]);
  ("K1V2", ["3975,50,,178.4,,350"]);
  ("K1V6", ["5399,75,5439,120,5378,300"; "3261,35,5408,179,5360,225"]);
  ("K1V8", ["7000,50,7598,125.4,7597,315"]);
  ("K1X1", ["3969,60,2566,191,2537,11"]);
  ("K20A", ["4210,80,,50,,270"]);
  ("K20M", ["3000,50,,179,,315"]);
  ("K20N", ["3100,60,148,140,134,320"]);
  ("K20R", ["3550,100,,136.4,,305"]);
  ("K20U", ["4200,60,2756,133,2748,313"]);
  ("K20V", ["5540,75,7395,104,7410,284"]);
  ("K21", ["7900,500"]);
  ("K21D", ["2497,75,924,39,933,219"; "2850,75,923,137,926,317"]);
  ("K21F", ["3220,75,1055,175.5,,352.4"]);
  ("K22F", ["3300,50,2006,176.8,1988,178.3"]);
  ("K22I", ["3725,75,956,79,958,337.3"]);
  ("K22M", ["3000,50,417,113,439,230"])].

(* ADRpy/data/runways.csv *)
Definition airports_16 : list (string * list string) := [
  ("K22N", ["3000,60,534,69,509,249"]);
  ("K22S", ["4300,60,,149,,175.6"]);
  ("K22W", ["2903,50,,90,,221"]);
  ("K23", ["2337,125,,,,311"]);
  ("K23M", ["3200,60,,160,,202.7"]);
  ("K23R", ["3400,60,674,173,702,353"]);
  ("K24A", ["3003,50,2857,142,2808,216"]);
  ("K24F", ["3200,60,216,53.1,218,216"]);
  ("K24J", ["4037,75,101,69,103,249"]);
  ("K24N", ["7500,75,7536,182,7618,2"]);
  ("K24R", ["3400,60,,126,542,234"]);
  ("K25D", ["2650,150,920,136,920,288.2"]);
  ("K25J", ["3000,60,456,184,460,342"]);
  ("K25M", ["4400,75,437,32,465,212"]);
  ("K26", ["2600,50,,181,,1"]);
  ("K26A", ["3997,80,,90,,353.3"]);
  ("K26R", ["3393,70,61,150,61,330"]);
  ("K26U", ["5900,60,4478,176,4423,0.6"]);
  ("K27", ["2600,21"]);
  ("K27A", ["4000,75,600,99,603,279"]);
  ("K27K", ["5498,100,931,26,947,206"]);
  ("K27R", ["4300,60,,176.8,,328"]);
  ("K28J", ["4999,200,44,60,31,240"; "5999,100,32,87,31,267"; "3000,75,28,119,31,299"; "3510,75,29,165,48,345"]);
  ("K29", ["3000,60"]);
  ("K29D", ["4500,75,1349,92,1297,272"]);
  ("K29S", ["3200,55,,113,,295"]);
  ("K2A0", ["5000,75,711,29,719,209"]);
  ("K2A1", ["3498,75,1694,180,1678,1.7"]);
  ("K2A2", ["4795,50,1270,57,1270,237"]);
  ("K2A5", ["3800,40,721,16,717,196"]);
  ("K2A6", ["4469,50,175,148,176,247"]);
  ("K2B3", ["1950,80,,102.9,,336.8"; "3450,50,,164.6,,214"]);
  ("K2B7", ["4000,100,175,347,198,167"]);
  ("K2C8", ["3299,60,892,166,891,346"]);
  ("K2CB", ["3200,50,196,10,196,270"; "2200,50,196,70,196,314.6"]);
  ("K2D5", ["3505,60,1330,131,1335,311"; "1925,200,,180,,330.4"]);
  ("K2E3", ["3605,35,3423,21,3417,201"]);
  ("K2E5", ["4685,55,3701,89.2,,316"]);
  ("K2E7", ["3100,50,,90,,270"; "3225,50,2816,180,2819,253"]);
  ("K2F0", ["2755,50,,79,,187.7"; "4085,60,2200,150,,233"]);
  ("K2F1", ["3600,60,2369,180,2367,274"]);
  ("K2F4", ["2543,33,,90,,238"; "3278,50,,180,,0.2"]);
  ("K2F5", ["4000,50,2992,75,2991,255"; "5000,75,2992,165,2985,345"]);
  ("K2F7", ["3909,60,515,183,506,3"]);
  ("K2G1", ["2181,38,994,22,968,202"]);
  ("K2G2", ["5000,75,1196,134,1192,314"]);
  ("K2G4", ["5000,75,2933,79,2877,259"]);
  ("K2G9", ["2695,204,,140.1,,247"; "5002,75,2275,56,2202,236"]);
  ("K2GC", ["3500,30,,170,,209.4"]);
  ("K2H0", ["2585,200,617,39,613,299"; "3264,200,,142.3,,218"; "4099,75,618,180,618,360"]);
  ("K2H2", ["3002,60,1434,181,1426,1"]);
  ("K2H9", ["3700,40,1620,156.2,1620,245"]);
  ("K2I0", ["6050,100,439,51,418,231"]);
  ("K2I3", ["3200,75,577,17,577,197"]);
  ("K2IS", ["5950,75,20,135,20,270.5"]);
  ("K2J2", ["3698,75,93,138,96,318"]);
  ("K2J3", ["5000,100,,133,,224.1"]);
  ("K2J5", ["4000,75,237,168,223,348"]);
  ("K2K3", ["2140,60,3324,90,3319,270"; "4100,60,3319,180,3324,265"]);
  ("K2K4", ["4200,75,1620,180,1643,218"]);
  ("K2K7", ["2998,46,822,29,841,209"; "2050,45,840,156,825,196.1"]);
  ("K2K9", ["3710,30,,180,,218"]);
  ("K2L0", ["3000,75"]);
  ("K2M0", ["4099,75,584,,541"]);
  ("K2M2", ["5003,100,936,167,927,347"]);
  ("K2M4", ["3600,75,,162,,275.5"]);
  ("K2M8", ["3500,75,247,184,242,4"; "1600,75"]);
  ("K2MO", ["3195,60,1226,181,1246,1"]);
  ("K2O1", ["4105,60,3418,82,3408,262"]);
  ("K2O3", ["3217,50,1848,174.4,1805,221.8"]);
  ("K2O6", ["3250,60,237,134.6,242,270"]);
  ("K2O7", ["1498,30,3908,68,3880,248"; "3533,60,3894,157,3893,337"]);
  ("K2O8", ["4000,60,1577,180,1587,360"]);
  ("K2R0", ["5000,75,,20,164,270"]);
  ("K2R1", ["3000,75,,37,,217"]);
  ("K2R2", ["4400,100,897,176.4,864,180"]);
  ("K2R4", ["3701,75,79,182,79,2"]);
  ("K2R5", ["3998,80,129,59,131,239"]);
  ("K2R6", ["3005,75,59,180,59,360"]);
  ("K2R7", ["3000,75,,137,,270"]);
  ("K2R9", ["3218,60,289,169,272,349"]);
  ("K2RR", ["4950,75,,160,,360"]);
  ("K2S4", ["2811,60,,187,,230.5"]);
  ("K2S7", ["3735,60,,180,,320.5"]);
  ("K2S8", ["3119,35,,36,,288"]);
  ("K2S9", ["3005,52,,135,,269"]);
  ("K2T1", ["5100,60,3779,78,3767,258"]);
  ("K2V5", ["5040,70,3667,150.2,3618,330.2"; "5400,75,3677,180,3637,360"]);
  ("K2V6", ["2900,40,,129.2,,346"; "4200,75,,169.4,,225.5"]);
  ("K2W5", ["1860,100,,8,,188"; "3000,50,170,167,156,347"]);
  ("K2W6", ["4150,75,142,102,125,282"]);
  ("K2Y4", ["3500,60,,117.3,,360"]);
  ("K30", ["2200,24,,,,267.8"]);
  ("K30K", ["3000,75,,180,,325.2"]);
  ("K31", ["2570,120,,,,325.2"]);
  ("K31E", ["3200,60,,134,,0.5"]);
  ("K32A", ["5325,75,371,106,387,286"]);
  ("K32S", ["3800,60,3535,133,3610,313"]);
  ("K33J", ["3984,98,,110,,315"]);
  ("K33K", ["3290,56,2168,187,2171,7"]);
  ("K33M", ["3000,50,270,150,270,226"]);
  ("K33N", ["3582,60,54,73,44,253"]);
  ("K33R", ["3500,60,332,163.7,340,316"]);
  ("K33S", ["3635,40,,28,,208"]);
  ("K33U", ["4650,150,,45,,270"; "4450,100,,82.1,,313"; "6000,60,6542,123.2,6560,358.9"]);
  ("K33V", ["5901,75,8153,45.8,8150,225.8"]);
  ("K34", ["2154,80,,39,,219"; "2960,39,1029,90,1032,270"; "3373,90,1029,,1049"]);
  ("K34M", ["3000,50,,176.9,,356.9"]);
  ("K34R", ["3210,60,278,179,262,359"]);
  ("K35A", ["3508,60,573,47,610,227"]);
  ("K35D", ["4300,75,704,98,703,278"; "1598,150,700,140,704,320"]);
  ("K35S", ["3450,60,,90,,270"]);
  ("K36K", ["2600,90,,25,,205"; "3400,40,,142,,322"]);
  ("K36S", ["3000,50,1208,58.6,1208,238.6"]);
  ("K36U", ["6898,75,5583,49.8,5637,229.8"]);
  ("K37F", ["3200,50,1473,178,1473,358"]);
  ("K37K", ["4400,75,690,189,690,9"]);
  ("K37T", ["3000,60,733,151,696,331"]);
  ("K37V", ["3000,50,,157.2,,337.2"]);
  ("K38D", ["3404,50,1152,90.1,1162,270.1"; "2593,85,1150,90.5,1162,270.5"]);
  ("K38J", ["3386,50,51,106.4,54,286.4"]);
  ("K38S", ["4400,75,4689,135.6,4642,315.6"]);
  ("K38U", ["5900,75,,142.8,,322.8"]);
  ("K39N", ["3500,75,120,89,128,269"]);
  ("K3A1", ["5500,100,935,17,969,197"]);
  ("K3A2", ["3000,75,,64,,244"]);
  ("K3A4", ["3063,30,677,175,737,355"]);
  ("K3A7", ["3600,80,,155,,335"]);
  ("K3AU", ["4199,60,1327,184,1304,4"]);
  ("K3B0", ["3500,75,689,8,699,188"; "1450,100,,85.9,,265.9"]);
  ("K3B1", ["3000,75,1374,8.3,1396,188.3"; "3999,75,1379,117,1368,297"]);
  ("K3B4", ["2701,50,124,109,106,289"]);
  ("K3B5", ["2151,100,,101,,281"; "2104,50,355,110,350,290"]);
  ("K3BS", ["3800,75,620,60,634,240"; "3000,75,627,180.1,620,0.1"]);
  ("K3C8", ["7001,200,65,35,75,215"; "10001,200,75,131,52,311"]);
  ("K3CK", ["3058,50,885,79.9,886,260"]);
  ("K3CM", ["2619,75,582,45,582,225"; "3800,75,583,176,581,356"]);
  ("K3CU", ["2840,200,,77.8,,257.8"; "3709,75,1346,164.9,1359,344.9"]);
  ("K3DW", ["4035,50,1352,108,1374,288"]);
  ("K3E0", ["4060,50,2720,34,2716,214"]);
  ("K3F2", ["3700,60,1592,180,1612,360"]);
  ("K3F3", ["5070,150,,45.5,,225.5"; "4500,100,317,185.7,324,5.7"]);
  ("K3F4", ["2998,75,,89.6,,269.6"]);
  ("K3F6", ["3186,50,1859,180,1850,360"]);
  ("K3F7", ["3400,45,803,181,851,1"]);
  ("K3F9", ["3203,40,429,180.6,404,0.6"]);
  ("K3FU", ["3000,60,1567,136,1570,316"]);
  ("K3G1", ["3030,60,,91,,271"]);
  ("K3G2", ["3437,92,,163.7,,343.7"]);
  ("K3G3", ["3529,75,965,10.5,973,190.5"; "2155,40,963,90.2,971,270.2"]);
  ("K3G4", ["3502,75,1205,1,1186,181"]);
  ("K3G5", ["4500,50,,50,,230"]);
  ("K3G6", ["2768,45,1185,171.7,1178,351.7"]);
  ("K3GM", ["3750,75,602,90,591,270"; "2060,60,603,180,598,360"]);
  ("K3GV", ["2200,20,818,57,834,237"; "4501,44,817,91,818,271"]);
  ("K3H4", ["3300,60,904,170.7,904,350.7"]);
  ("K3HO", ["3125,40,630,180,610,360"]);
  ("K3I2", ["4000,75,638,64.9,625,244.9"]);
  ("K3I3", ["3557,50,493,84,496,264"; "1978,50,493,179,493,359"]);
  ("K3I4", ["3360,60,,100,,280"]);
  ("K3I7", ["3000,40,1027,23.5,1022,203.5"]);
  ("K3J0", ["3580,60,,112.1,,292.1"]);
  ("K3J1", ["2692,70,65,30,76,210"]);
  ("K3J7", ["5500,75,678,,689"]);
  ("K3JC", ["1927,200,1095,56.6,1085,236.6"; "1915,140,1090,139.1,1091,319.1"; "3495,75,1082,193.7,1098,13.7"]);
  ("K3K3", ["3000,40,3312,138.2,3303,318.2"; "4600,75,3326,,3315"]);
  ("K3K6", ["2662,50,477,137,469,317"]);
  ("K3K7", ["2450,38,,90,,270"; "4300,50,,180,,360"]);
  ("K3K8", ["4500,60,2085,175,2074,355"]);
  ("K3L2", ["3340,45,2581,43.8,2600,223.8"; "3300,105,2585,134,2578,314"]);
  ("K3LF", ["3901,75,682,90,690,270"; "4003,75,685,179.8,680,359.8"]);
  ("K3M2", ["3403,79,,30,,210"]);
  ("K3M3", ["4700,75,,29.8,,209.8"]);
  ("K3M7", ["3991,75,970,6.3,952,186.3"]);
  ("K3M8", ["5144,80,230,7,237,187"]);
  ("K3M9", ["3829,50,197,37.5,235,217.5"]);
  ("K3MY", ["3600,60,786,175,774,355"]);
  ("K3N6", ["3594,50,63,44.2,86,224.2"]);
  ("K3O1", ["3200,60,75,195.7,75,15.7"]);
  ("K3O3", ["3003,60,1133,174,1143,354"]);
  ("K3O4", ["5017,130,,179,,359"]);
  ("K3O9", ["3925,60,,174,,354"]);
  ("K3P3", ["3500,60,2408,103.6,2408,283.6"]);
  ("K3R2", ["4300,150,,44.8,,224.9"; "4000,150,,135.1,,315.2"]);
  ("K3R4", ["1800,75,,23.7,,203.7"; "4000,75,,121.1,,301.1"]);
  ("K3R7", ["5000,75,,78.1,,258.1"; "3598,75,,134.9,,314.9"; "2000,150,,180,,360"]);
  ("K3R9", ["3930,70,882,168.8,909,348.8"]);
  ("K3RC", ["3650,75,1156,90,1156,270"; "2500,100,,174,,354"]);
  ("K3S4", ["4807,75,,197,,17"]);
  ("K3S8", ["3999,75,1095,142,1126,322"]);
  ("K3S9", ["3500,60,2908,90,2904,270"]);
  ("K3SQ", ["3451,49,442,90.8,442,270.8"; "2310,103,440,153.2,442,333.2"; "2145,100,440,180,442,360"]);
  ("K3T3", ["3300,60,952,84,967,264"]);
  ("K3T5", ["5001,75,308,162.5,322,342.5"]);
  ("K3TR", ["3315,50,737,33.8,743,213.8"; "4100,75,742,146,750,326"]);
  ("K3U3", ["4515,60,5030,56.3,4985,236.3"; "6011,75,4994,180,5029,360"]);
  ("K3U4", ["3830,95,,147,,327"]);
  ("K3U7", ["6000,100,,137,,317"]);
  ("K3U8", ["3600,60,,78,,258"; "2975,50,,150,,330"; "1430,55,,186,,6"]);
  ("K3V0", ["4000,50,3980,158,3900,338"]);
  ("K3V5", ["5326,44,4939,128.5,4922,308.5"; "3400,50,,129.5,,309.5"]);
  ("K3V7", ["3770,50,,98,,278"]);
  ("K3W7", ["4199,75,1588,51,1588,231"]);
  ("K3W8", ["2100,150,1930,82,1924,262"; "3100,60,1923,136.4,1934,316.4"]);
  ("K3Y2", ["4248,50,1232,172.7,1195,352.7"]);
  ("K3Y3", ["3000,50,1110,141.8,1093,321.8"]);
  ("K40", ["2000,500"]);
  ("K40G", ["4199,45,5999,21,5989,201"]);
  ("K40J", ["4378,150,42,60,44,240"; "4754,150,43,121,45,301"; "4986,100,43,181,41,1"]);
  ("K40U", ["5300,60,6175,82.7,,262.7"]);
  ("K41A", ["3207,75,,134,,314"]);
  ("K41F", ["4600,60,3183,177.6,,357.6"]);
  ("K41N", ["3000,30,,351.6,,171.6"]);
  ("K41U", ["4584,75,5470,45.4,5509,225.4"]);
  ("K42A", ["4003,75,733,32,706,212"]);
  ("K42I", ["3100,26,,92.9,,272.9"]);
  ("K42J", ["5044,100,176,45,196,225"; "4899,75,186,105,196,285"; "4400,150,,164,,344"]);
  ("K42M", ["4200,49,,90,,270"]);
  ("K42S", ["3030,60,2005,105,2002,285"]);
  ("K42U", ["3904,50,,46.9,,226.9"]);
  ("K42V", ["3500,25,,150,,330"]);
  ("K43", ["2805,49"]);
  ("K43A", ["3500,60,,23,,203"]);
  ("K43B", ["3520,75,216,135,209,315"]);
  ("K43D", ["3125,60,,29,,209"]);
  ("K43U", ["4260,60,,37.7,,217.7"]);
  ("K44C", ["3300,50,803,64,816,244"]);
  ("K44N", ["3828,60,,153,,333"]);
  ("K44U", ["3855,60,,37.3,,217.3"]);
  ("K45G", ["3120,24,969,38.5,973,218.5"]);
  ("K45K", ["3970,20,,166,,346"]);
  ("K45R", ["4302,75,69,139.7,65,319.7"]);
  ("K46D", ["2255,43,,37,,217"; "4200,75,1605,140,1604,320"]);
  ("K46U", ["5625,35,,143.5,,323.5"]);
  ("K47A", ["3412,75,1206,41.8,1215,221.8"]);
  ("K47K", ["3405,50,1489,170,1488,350"]);
  ("K47N", ["3509,50,86,55.7,64,235.7"]);
  ("K47V", ["3400,60,2677,128.3,,308.4"; "2200,290,,177.5,,357.5"]);
  ("K48A", ["3202,50,324,46,333,226"]);
  ("K48D", ["3500,75,826,31.8,857,211.8"; "2500,75,,84,,264"]);
  ("K48I", ["4000,60,1253,10,1275,190"]);
  ("K48K", ["3156,48,2308,180,2281,360"]);
  ("K48S", ["4100,60,2643,125,2600,305"; "1942,120,,174,,354"]);
  ("K49A", ["3500,75,1458,27,1486,207"]);
  ("K49B", ["5100,60,3243,113,3207,293"]);
  ("K49R", ["3975,50,1640,156.3,1615,336.3"]);
  ("K49X", ["5000,75,631,180,631,360"]);
  ("K4A0", ["3000,40,,109.4,,289.4"]);
  ("K4A4", ["4004,75,971,97,954,277"]);
  ("K4A5", ["4003,75,923,52,963,232"]);
  ("K4A6", ["5250,80,650,37,630,217"]);
  ("K4A7", ["4503,75,852,54,874,234"]);
  ("K4A9", ["5001,100,856,40,873,220"]);
  ("K4B6", ["4040,60,273,2,265,182"]);
  ("K4B7", ["3000,60,,146,,326"]);
  ("K4B8", ["3612,75,,19.3,,199.3"]);
  ("K4C8", ["3400,60,958,129,964,309"]);
  ("K4D0", ["3200,75,830,86,840,266"; "2580,120,830,180,830,360"]);
  ("K4E7", ["3500,60,1455,142.3,,322.4"; "2600,50,,180,,360"]);
  ("K4F2", ["4000,75,244,177.8,248,357.8"]);
  ("K4F7", ["3464,50,319,182,308,2"]);
  ("K4F8", ["3000,50,230,17.5,193,197.5"]);
  ("K4F9", ["3750,50,1310,166,1305,346"]);
  ("K4G4", ["4012,50,1012,90.4,1069,270.4"]);
  ("K4G5", ["3805,75,1194,66,1190,246"]);
  ("K4G6", ["5000,75,1192,164.7,1192,344.7"]);
  ("K4G8", ["2580,85,,12.4,,192.4"; "2947,65,807,181.6,810,1.6"; "3152,40,810,181.2,810,1.2"]);
  ("K4I0", ["3515,60,1575,53.8,1576,233.8"]);
  ("K4I3", ["5001,75,1187,97.7,1183,277.7"]);
  ("K4I7", ["5000,100,842,181.1,810,1.1"]);
  ("K4I9", ["3497,75,1075,91,1085,271"]);
  ("K4J1", ["3000,50,81,6,80,186"]);
  ("K4J2", ["4006,75,240,94,234,274"]);
  ("K4J5", ["3600,75,,95,,275"]);
  ("K4J6", ["5000,100,23,33,21,213"; "4000,75,24,127,21,307"]);
  ("K4J8", ["3000,50,,163,,343"]);
  ("K4K3", ["2925,40,691,42.4,689,222.4"; "3100,125,,136,,316"; "2250,125,,180,,360"]);
  ("K4K6", ["3401,50,883,179.5,888,359.5"]);
  ("K4M1", ["3555,75,,73,,253"]);
  ("K4M2", ["3254,50,465,91,444,271"]);
  ("K4M3", ["4500,75,238,91.1,240,271.1"; "4500,150,238,181.1,240,1.1"]);
  ("K4M7", ["3999,75,689,63,655,243"]);
  ("K4M9", ["4299,60,292,180.6,292,0.6"]);
  ("K4N1", ["3470,60,789,48,789,228"]);
  ("K4O4", ["5000,75,472,23.2,460,203.2"]);
  ("K4O5", ["3570,50,,180,1177,360"]);
  ("K4P3", ["3100,60,,108,,288"]);
  ("K4R1", ["3000,75,,153,,333"]);
  ("K4R3", ["5003,80,62,9,34,189"]);
  ("K4R4", ["6604,100,86,7,91,187"]);
  ("K4R5", ["3000,75,624,39,648,219"]);
  ("K4R7", ["5001,75,39,166,42,346"]);
  ("K4R9", ["3000,80,5,123,5,303"]);
  ("K4S1", ["3200,75,,176,,356"]);
  ("K4S2", ["3040,75,,88,,268"]);
  ("K4S3", ["5200,60,4063,167,4121,347"]);
  ("K4S9", ["3600,100,248,160,260,340"]);
  ("K4SD", ["7608,150,4992,96,5050,276"; "9000,150,5041,154,5043,334"]);
  ("K4T2", ["3000,125,,123,,303"; "6000,125,,176,,356"]);
  ("K4U6", ["2500,195,,48,,228"; "4100,75,,138,,318"]);
  ("K4U9", ["7000,70,,157,,337"]);
  ("K4V0", ["2100,60,5237,44.2,5243,224.2"; "6408,75,5234,77.4,5275,257.4"]);
  ("K4V1", ["2500,40,6050,30.1,6026,210.1"; "4896,60,6019,93.8,6019,273.8"]);
  ("K4V4", ["3160,60,,89,1117,269"]);
  ("K4V9", ["3700,60"; "3310,50,1735,,1730"]);
  ("K4X4", ["3600,60,,120,,300"]);
  ("K4Y4", ["4285,40,1286,53,1286,233"]);
  ("K50", ["1600,50,1340,,1325"; "2507,40"]);
  ("K50D", ["2700,145,,16.9,,196.9"; "3700,50,,116.9,,296.9"]);
  ("K50F", ["4092,60,873,171,836,351"]);
  ("K50I", ["3504,50,698,90.3,698,270.3"]);
  ("K50R", ["4001,75,532,182,524,2"]);
  ("K51A", ["3000,60,,100,,280"]);
  ("K51D", ["3600,60,1600,147,1585,327"]);
  ("K51J", ["3700,75,80,6.2,80,186.2"]);
  ("K51R", ["3202,50,287,190.1,260,10.1"]);
  ("K52A", ["3806,50,636,141,694,321"]);
  ("K52F", ["3500,40,643,180,,360"]);
  ("K52J", ["3202,60,211,50.6,188,230.6"]);
  ("K53A", ["4220,75,335,181,337,1"]);
  ("K54F", ["4450,50,1922,180,,360"]);
  ("K54J", ["4100,60,288,90,272,270"; "2700,50,283,180,270,360"]);
  ("K54T", ["5035,40,30,89,27,269"; "3500,100,33,147.5,28,327.5"]);
  ("K55", ["2530,9"]);
  ("K55J", ["5300,100,13,36,14,216"; "4999,100,12,82,14,262"; "5152,100,12,126,15,306"; "3580,150,13,171,13,351"]);
  ("K55K", ["3380,60,,177.3,,357.3"]);
  ("K55M", ["3000,60,,180,,360"]);
  ("K55Y", ["3200,60,1211,161.7,1183,341.7"]);
  ("K56D", ["3997,75,824,180.3,828,0.3"]);
  ("K56F", ["2800,50,,73,,253"; "3300,60,1941,165,,345"]);
  ("K57C", ["3900,75,843,79,860,259"; "2446,150,838,183,828,3"]);
  ("K57S", ["3570,30,,158,,338"]);
  ("K58M", ["3000,70,106,116,62,296"]);
  ("K5A1", ["4210,75,834,90.2,852,270.2"]);
  ("K5A4", ["3200,60,333,180,335,360"]);
  ("K5A6", ["3000,50,363,30,352,210"]);
  ("K5A9", ["3000,75,880,170,873,350"]);
  ("K5B2", ["4700,100,433,39,424,219"; "4000,100,432,128.6,425,308.6"]);
  ("K5B5", ["2500,80,1960,90,1970,270"; "3200,60,1959,129,1985,309"]);
  ("K5C1", ["4340,60,1380,173.6,,353.6"]);
  ("K5C3", ["3850,60,,180,,360"]);
  ("K5C8", ["3700,60,1905,81,1904,261"; "2235,120,1905,188,1905,8"]);
  ("K5F0", ["3000,75,,144.7,,324.7"]);
  ("K5F1", ["2210,60,2545,68,2523,248"; "4200,60,2518,181,2520,1"]);
  ("K5F4", ["3199,60,,122.6,,302.6"]);
  ("K5G6", ["3570,180,,90,,270"]);
  ("K5G7", ["4126,75,850,51.7,846,231.7"]);
  ("K5H4", ["3600,60,1603,120,1604,300"]);
  ("K5I4", ["3760,50,930,52,932,232"; "3590,88,936,88.4,934,268.4"]);
  ("K5J9", ["3694,60,99,73.6,99,253.6"]);
  ("K5K1", ["2900,32,655,179,663,359"]);
  ("K5L0", ["3500,60,1512,165,1510,345"]);
  ("K5M0", ["3599,75,628,181,599,1"]);
  ("K5M3", ["3625,50,,4,,184"]);
  ("K5M4", ["3183,60,193,48,186,228"]);
  ("K5M5", ["3865,75,1154,134,1180,314"]);
  ("K5M8", ["4403,60,,90,,270"]);
  ("K5M9", ["4400,75,650,66,628,246"]);
  ("K5N2", ["3250,60,,93.6,,273.6"]);
  ("K5N8", ["3900,75,932,136,926,316"]);
  ("K5P2", ["3800,60,1996,140,1999,320"]);
  ("K5R1", ["4000,80,,120,,300"]);
  ("K5R2", ["3500,50,20,179,20,359"]);
  ("K5R4", ["3700,75,63,180,74,360"]);
  ("K5R8", ["5000,75,,157.7,,337.7"]);
  ("K5S0", ["3610,47,,108,,288"]);
  ("K5S2", ["3900,30,,148,,328"]);
  ("K5S6", ["5100,150,,160,,340"]);
  ("K5S9", ["3780,32,,178,,358"]);
  ("K5T6", ["8500,100,4110,111.8,4108,291.8"]);
  ("K5T9", ["5506,100,887,,882"]);
  ("K5U1", ["3130,115,,177.5,,357.5"]);
  ("K5U5", ["1525,90,,89,,269"; "3800,40,,196,,16"]);
  ("K5U7", ["3827,50,3242,90,,270"]);
  ("K5V5", ["4840,75,5270,32,,212"]);
  ("K5W1", ["3074,50,,120,,300"]);
  ("K5W4", ["3402,60,292,33.1,304,213.1"]);
  ("K5W5", ["3004,40,244,160,244,340"]);
  ("K5W8", ["5001,75,597,39.9,614,219.9"]);
  ("K5Y1", ["3700,60,760,90,760,270"]);
  ("K60C", ["3085,100,944,60,944,240"]);
  ("K60F", ["4300,50,1344,180,1338,360"]);
  ("K60J", ["4000,75,,56.7,,236.7"]);
  ("K60R", ["3204,60,227,178.2,206,358.2"]);
  ("K61A", ["4303,80,142,179,142,359"]);
  ("K61B", ["2200,60,,103.7,,283.7"; "4800,75,,103.7,,283.7"; "3850,75,,164.7,,344.7"]);
  ("K61C", ["3801,60,798,28,795,208"]);
  ("K61R", ["4000,60"]);
  ("K61S", ["3188,60,631,167,641,347"]);
  ("K62D", ["2907,30,896,35.1,902,215.1"; "2700,140,898,180.4,894,0.4"]);
  ("K62S", ["5200,60,,87,,267"]);
  ("K63", ["1845,120"; "1690,75"]);
  ("K63B", ["2973,50,292,93,279,273"]);
  ("K63C", ["2825,100,,81.1,,261.1"; "3400,60,968,153,976,333"]);
  ("K63F", ["4240,60,2731,165.1,2722,345.1"]);
  ("K63M", ["3198,50,507,67,508,247"]);
  ("K64", ["3030,80"]);
  ("K64S", ["4000,50,,37,,217"]);
  ("K65", ["2000,110"; "2000,110"; "2400,40"]);
  ("K65J", ["3000,50,,116,,296"]);
  ("K65S", ["4000,75,2311,38,2333,218"]);
  ("K66R", ["3800,60,242,160,242,340"]);
  ("K66V", ["3000,45,,42,,222"]);
  ("K66Y", ["3800,75,,180,,360"]);
  ("K67", ["2500,50"]);
  ("K67A", ["3593,78,,150,,330"]);
  ("K67L", ["5100,75,1875,28,1978,208"]);
  ("K67R", ["4000,75,290,162,273,342"]);
  ("K68", ["2660,45"]);
  ("K68F", ["3300,50,525,159,,339"]);
  ("K68J", ["3249,50,154,159,149,339"]);
  ("K68S", ["2271,45,2421,56,2410,236"; "3107,50,2417,73,2415,253"]);
  ("K69K", ["3184,30,,174.6,,354.6"]);
  ("K69V", ["4048,75,5903,90,5872,270"; "3640,80,5915,139.7,5872,319.7"; "2079,100,5902,195.9,5888,15.9"]);
  ("K6A1", ["2400,500,,62,,242"; "4000,70,,180,,360"]);
  ("K6A2", ["3701,75,958,137,937,317"]);
  ("K6A4", ["4498,75,2240,58.2,2240,238.2"]);
  ("K6B9", ["3322,120,,29,,209"; "3134,56,,94,,274"]);
  ("K6D1", ["3500,60,1295,150,1304,330"]);
  ("K6D6", ["4200,75,855,95,837,275"; "1750,200,,185,,5"]);
  ("K6D8", ["2700,100,,57,,237"; "2700,100,,90,,270"; "4202,75,1400,134,1381,314"; "3300,100,,180,,360"]);
  ("K6D9", ["4802,75,605,78.2,604,258.2"]);
  ("K6E5", ["3700,60,,159.3,1729,339.3"]);
  ("K6G0", ["3469,40,776,85.3,780,265.3"]);
  ("K6G1", ["4902,75,1600,177.1,1534,357.1"]);
  ("K6G4", ["3355,90,1041,62.5,1041,242.5"; "2600,65,,83.2,,263.2"]);
  ("K6G5", ["4004,65,1309,86,1312,266"]);
  ("K6I2", ["5000,75,826,105,866,285"]);
  ("K6I4", ["3600,30,,180,,360"]);
  ("K6I6", ["5892,75,928,83.8,,263.8"]);
  ("K6J0", ["4335,60,451,170.7,451,350.7"]);
  ("K6J2", ["3200,60,82,45.9,82,225.9"]);
  ("K6J4", ["3200,60,538,10,523,190"]);
  ("K6J7", ["3200,100,,166,,346"]);
  ("K6K3", ["3700,60,1642,,1644"; "2100,200,,190.4,,10.4"]);
  ("K6K4", ["3620,60,1265,180,1272,360"]);
  ("K6K5", ["3550,30,,38,,218"]);
  ("K6L3", ["1820,100,1240,36.1,1220,216.1"; "3050,50,1224,146.1,1220,326.1"]);
  ("K6L4", ["3600,75,1656,58,1667,238"]);
  ("K6L5", ["3450,60,2038,148,2028,328"]);
  ("K6M0", ["4227,150,,180.2,,0.2"]);
  ("K6M2", ["4524,50,782,125,778,305"]);
  ("K6M6", ["3500,60,664,181,674,1"]);
  ("K6M7", ["4000,50,217,180.9,217,0.9"]);
  ("K6R3", ["4998,75,150,161.8,142,341.8"]);
  ("K6R6", ["4525,75,,44,,224"; "4525,75,2322,136,,316"]);
  ("K6S0", ["5285,75,,75,,255"; "4000,100"]);
  ("K6S1", ["3400,42,,174,,354"]);
  ("K6S2", ["2916,60,51,167,40,347"]);
  ("K6S3", ["3814,75,3575,112,3561,292"]);
  ("K6S5", ["4198,75,3603,181,3641,1"]);
  ("K6S8", ["5200,50,3488,50,3454,230"; "1100,60,3516,98,3491,278"; "2209,50,3517,152,3462,332"]);
  ("K6U7", ["3060,45,,90,,270"]);
  ("K6V0", ["3900,60,3605,131.8,3586,311.8"; "2015,100,3588,173.8,3588,353.8"]);
  ("K6V4", ["3500,60,2799,135,2812,315"]);
  ("K6V5", ["3500,60,,122.8,2782,302.8"]);
  ("K6Y1", ["3500,75,653,96,653,276"]);
  ("K70A", ["3390,80,,180,,360"]);
  ("K70J", ["4000,75,264,121,236,301"]);
  ("K71", ["2700,130"; "2700,370"]);
  ("K71A", ["4462,80,,90,,270"]);
  ("K71J", ["4200,80,356,121,344,301"]);
  ("K71N", ["3250,250,,41.4,,221.4"]);
  ("K72F", ["3090,50,1273,180,,360"]);
  ("K73C", ["3850,45,,177.8,,357.8"]);
  ("K74S", ["3015,60,,198,229,18"]);
  ("K74V", ["6500,75,5172,83,5104,263"]);
  ("K75J", ["3204,50,384,161,390,341"]);
  ("K76F", ["3230,50,518,180,,360"]);
  ("K76G", ["3100,60,613,33,613,213"]);
  ("K77F", ["3204,40,1866,180.4,1871,0.4"]);
  ("K77G", ["3500,75,867,4,891,184"; "3800,75,868,89,876,269"]);
  ("K77S", ["3101,60,538,174,536,354"]);
  ("K78R", ["3800,50,443,173.3,390,353.3"]);
  ("K78Y", ["3050,20,,175.7,,355.7"]);
  ("K79D", ["3200,50,,71.6,,251.6"]);
  ("K79J", ["5001,100,309,107,305,287"]);
  ("K79S", ["4300,75,2869,62,2859,242"; "1700,75,2863,151.7,2866,331.7"]);
  ("K7A0", ["3495,78,180,180,168,360"]);
  ("K7A3", ["3148,80,618,79,624,259"]);
  ("K7A4", ["2996,30,982,180.4,959,0.4"]);
  ("K7A5", ["3697,80,878,113,904,293"]);
  ("K7A6", ["4103,80,622,49,644,229"]);
  ("K7A8", ["3000,60"]);
  ("K7B2", ["3365,50,120,128,119,308"]);
  ("K7B6", ["3242,60,,99,,279"]);
  ("K7D3", ["2800,100,,47.3,,227.3"; "3800,75,818,93.9,828,273.9"]);
  ("K7D9", ["3250,50,820,3.5,820,183.5"]);
  ("K7F3", ["4000,150,541,136.1,536,316.1"; "1400,275,,180,,360"; "4000,75,541,181.1,535,1.1"]);
  ("K7F5", ["3750,50,492,184.3,,4.3"]);
  ("K7F7", ["3000,50,757,145.1,748,325.1"]);
  ("K7G0", ["4205,75,,91,,271"]);
  ("K7G8", ["3500,65,1174,100,1158,280"]);
  ("K7G9", ["3600,60,1290,180,1271,360"]);
  ("K7I4", ["3456,30,655,58,650,238"]);
  ("K7K4", ["5000,75,530,25,535,205"]);
  ("K7K5", ["3700,60,1962,90,1955,270"]);
  ("K7K8", ["3323,50,,145,,325"]);
  ("K7L2", ["3700,60,1765,105.4,1778,285.4"]);
  ("K7L8", ["3750,47,861,100,861,280"]);
  ("K7M1", ["4007,75,141,181.4,141,1.4"]);
  ("K7M2", ["4502,70,804,93,780,273"]);
  ("K7M3", ["4000,50,,77,,257"]);
  ("K7M4", ["3800,50,233,8.9,233,188.9"]);
  ("K7M5", ["3302,60,606,41.6,648,221.6"]);
  ("K7M8", ["3405,60,,178.6,,358.6"]);
  ("K7M9", ["3500,50,787,23.1,761,203.1"]);
  ("K7N1", ["3270,75,,117.7,,297.7"]);
  ("K7S0", ["4800,75,3086,180,3079,360"]);
  ("K7S1", ["3441,110,4766,82,4777,262"; "4300,60,,180,,360"]);
  ("K7S5", ["2935,60,188,179,178,359"]);
  ("K7S6", ["6100,60,,22,,202"; "3200,90,,144,,324"]);
  ("K7S7", ["2280,300,,52,,232"; "3075,150,,88,,268"; "2140,130,,121,,301"]);
  ("K7S9", ["2956,45,,40,,220"]);
  ("K7SP", ["3069,42,2907,88.3,2873,268.3"]);
  ("K7T7", ["2800,45,,74,,254"; "5000,42,2800,165,,345"]);
  ("K7V2", ["4500,60,,61.4,5798,241.4"]);
  ("K7V3", ["2912,85,941,90,949,270"; "2108,100,946,180,946,360"]);
  ("K7V5", ["4300,60,4275,79.5,4280,259.5"]);
  ("K7V6", ["5491,75,4400,152.2,4331,332.2"]);
  ("K7V7", ["3700,60,,160.2,,340.2"]);
  ("K7V8", ["3700,60,3520,138.9,3510,318.9"]);
  ("K7V9", ["3870,40,3915,95.9,3898,275.9"]);
  ("K7W5", ["3956,65,680,101,682,281"]);
  ("K7W6", ["4700,100,8,111,8,291"]);
  ("K7Y4", ["3800,75,,146,,326"]);
  ("K80D", ["2437,100,1142,94,1142,274"; "2978,50,1142,181,1142,1"]);
  ("K80F", ["3299,60,574,179.8,569,359.8"]);
  ("K80T", ["3660,50,1271,106,1260,286"]);
  ("K81B", ["2997,75,345,132,337,312"]);
  ("K81R", ["3800,60,1249,136.3,1240,316.3"]);
  ("K82A", ["3200,75,663,135,681,315"]);
  ("K82C", ["3686,75,897,139,897,319"]);
  ("K82J", ["3200,200,,180,,360"]);
  ("K82V", ["5336,75,5152,89,5129,269"]);
  ("K83D", ["3800,75,623,68.1,608,248.1"]);
  ("K84D", ["4200,60,2430,134.9,2447,314.9"]);
  ("K84R", ["4000,75,322,174,322,354"]);
  ("K86F", ["3000,50,,180,,360"]);
  ("K87", ["2430,130"; "3400,100"]);
  ("K87I", ["5000,100,104,174,104,354"]);
  ("K87K", ["3295,50,,44,,224"; "2430,50,,183.8,,3.8"]);
  ("K87Y", ["2814,57,914,41,914,221"; "2203,56,920,90,902,270"]);
  ("K88J", ["5005,75,161,162.1,155,342.1"]);
  ("K88M", ["4200,75,,198,,18"]);
  ("K88R", ["4185,30,830,180,,360"]);
  ("K8A0", ["6116,100,1002,48,1032,228"]);
  ("K8A1", ["3368,95,615,25,603,205"]);
  ("K8A3", ["3998,75,1366,33.4,1372,213.4"]);
  ("K8A6", ["2700,40,,170.5,,350.5"]);
  ("K8B0", ["3200,75,1816,120.4,1803,300.4"]);
  ("K8B1", ["3260,75,,9.7,,189.7"]);
  ("K8B5", ["3027,40,582,45,589,225"]);
  ("K8C4", ["3000,60,840,110,840,290"]);
  ("K8D1", ["2970,250,992,39,,219"; "3600,75,976,142,976,322"]);
  ("K8D3", ["1932,150,,45,1146,225"; "3400,60,1158,167,1159,347"]);
  ("K8D7", ["2800,100,1788,43.1,1784,223.1"; "3700,60,1792,131.9,1786,311.9"]);
  ("K8F3", ["3600,60,3018,180,3013,360"]);
  ("K8F5", ["3080,50,,173.5,382,353.5"]);
  ("K8F6", ["3400,60,2263,148.3,2253,328.3"]);
  ("K8G1", ["4028,65,966,97.4,936,277.4"]);
  ("K8G2", ["4100,75,1697,133,1766,313"]);
  ("K8G6", ["4173,75,1174,126,1103,306"]);
  ("K8J7", ["3600,60,1533,144.2,1526,324.2"]);
  ("K8K2", ["2138,160,1426,134,1426,314"; "3268,38,1427,175,1424,355"]);
  ("K8M1", ["4000,60,384,147,374,327"]);
  ("K8M8", ["5047,75,,173.4,,353.4"]);
  ("K8M9", ["3800,70,,158.3,,338.3"]);
  ("K8N2", ["4522,50,615,32.8,611,212.8"]);
  ("K8N8", ["1900,350,,78.5,,258.5"]);
  ("K8S0", ["4069,74,,76,,256"]);
  ("K8S1", ["4195,75,2937,199,2939,19"]);
  ("K8T6", ["3800,60,129,136,126,316"]);
  ("K8T8", ["3000,40,,180,,360"]);
  ("K8U2", ["3200,60,,82,,262"]);
  ("K8U6", ["4300,75,2281,91,2283,271"]);
  ("K8U8", ["3999,60,3875,178,3893,358"]);
  ("K8V1", ["6015,60,,31.3,,211.3"; "3775,49,7949,90,,270"]);
  ("K8V2", ["3000,100,2121,60,2127,240"; "4040,50,2128,120,2123,300"]);
  ("K8V3", ["3600,60,1414,153,1416,333"]);
  ("K8V7", ["5000,60,4390,179.4,4389,359.4"]);
  ("K8W2", ["2920,60,,50.5,,230.5"]);
  ("K8WC", ["4000,60,959,19,946,199"]);
  ("K8Y6", ["3000,150,985,180,985,360"]);
  ("K90F", ["3200,50,,180,,360"]);
  ("K91", ["1636,100"; "2223,100"]);
  ("K91F", ["3500,60,,160,,340"]);
  ("K92F", ["3400,60,,180,,360"]);
  ("K93C", ["695,100,,91,728,271"; "3200,60,,162.5,,342.5"]);
  ("K93F", ["4036,60,,187,,7"]);
  ("K93Y", ["2100,150,,15.3,,195.3"; "3100,50,,145.3,,325.3"]);
  ("K94E", ["5400,50,6126,185,,5"]);
  ("K94K", ["3600,60,1482,90,1471,270"]);
  ("K94R", ["2167,20,90,162,90,342"]);
  ("K95D", ["4000,60,1790,114.4,1791,294.4"]);
  ("K95E", ["4000,100,4925,147,4925,327"]);
  ("K95F", ["4000,60,912,187,900,7"]);
  ("K96", ["2660,30,665,,665"]);
  ("K96D", ["3400,60,953,171,952,351"]);
  ("K97M", ["3800,75,,139,,319"]);
  ("K98", ["1790,175"]);
  ("K98D", ["2125,120,,90,,270"; "3100,60,1860,139,1874,319"]);
  ("K99N", ["3603,60,208,43.6,231,223.6"]);
  ("K99V", ["2500,125,,,6470"]);
  ("K9A0", ["3090,50,,155,,335"]);
  ("K9A1", ["4203,75,795,95.5,784,275.5"]);
  ("K9A4", ["5000,150,581,130,571,310"; "5000,150,584,175,580,355"]);
  ("K9A5", ["5412,50,769,20.8,774,200.8"]);
  ("K9C8", ["3800,75,,54,,234"]);
  ("K9D0", ["3700,60,1841,135,1854,315"]);
  ("K9D1", ["3800,60,,134,,314"]);
  ("K9D2", ["2250,100,2874,95.1,2865,275.1"; "3900,60,2889,132.8,2848,312.8"]);
  ("K9D4", ["3786,50,511,357.3,523,177.3"]);
  ("K9D7", ["3500,60,1478,166,1476,346"]);
  ("K9D9", ["2400,170,,90,,270"; "3900,75,797,123,795,303"; "2567,200,,182,,2"]);
  ("K9F0", ["3200,60,1495,163.2,1493,343.2"]);
  ("K9F8", ["3700,60,,141.5,,321.5"]);
  ("K9F9", ["3970,30,760,180,760,360"]);
  ("K9G2", ["4000,75,918,89,906,269"]);
  ("K9G3", ["3270,50,830,60,840,240"; "1955,50,,108.8,,288.8"]);
  ("K9G8", ["3204,50,,67.5,,247.5"; "1636,150,,97,,277"]);
  ("K9K7", ["2229,250,,126,,306"; "3919,48,,176,,356"]);
  ("K9K8", ["3400,60,1607,116.6,1591,296.6"; "4300,75,1599,188,1597,8"]);
  ("K9L2", ["5998,150,2299,75.1,2276,255.1"]);
  ("K9M4", ["3000,75,,10,,190"]);
  ("K9M6", ["3000,60,108,184,108,4"]);
  ("K9M8", ["3000,50,,14.3,,194.3"]);
  ("K9S2", ["4015,75,2385,134,2432,314"]);
  ("K9S4", ["3450,75,,134,,314"]);
  ("K9S5", ["5100,60,4089,40,4080,220"]);
  ("K9S9", ["4155,75,1577,99,1631,279"]);
  ("K9U0", ["3600,60,,80.3,,260.3"; "2680,90,,127,,307"]);
  ("K9U3", ["6000,150,,140.2,,320.2"; "6000,75,,200.2,,20.2"]);
  ("K9U4", ["5500,75,,72.2,,252.2"]);
  ("K9U7", ["5100,80,5100,31,5180,211"]);
  ("K9V5", ["3900,60,3747,150,3749,330"]);
  ("K9V6", ["3709,60,3293,146.1,3276,326.1"]);
  ("K9V7", ["3671,60,4245,179.8,4242,359.8"]);
  ("K9V9", ["4300,75,1687,141,1677,321"; "3400,150,,187,,7"]);
  ("K9X1", ["3594,46,122,174,,354"]);
  ("K9Y1", ["4200,50,2260,133,2240,313"]);
  ("KA08", ["6377,80,,163,,343"]);
  ("KA09", ["4800,50,,182.9,,2.9"]);
  ("KA20", ["3700,42,,192.9,,12.9"]);
  ("KA24", ["4250,45,4394,67.7,4398,247.7"]);
  ("KA30", ["3700,50,2724,177.6,2728,357.6"]);
  ("KA32", ["4365,60,4243,179.9,4242,359.9"]);
  ("KA34", ["5343,40,4414,65,4372,245"]);
  ("KA39", ["5000,50,,41.4,,221.4"]);
  ("KA50", ["3440,60,,90,,270"; "4500,40,,180,,360"; "4500,42,,180,,360"]);
  ("KAAA", ["3999,75,593,35.3,594,215.3"; "3003,135,597,144.4,597,324.4"]);
  ("KAAF", ["5070,150,20,60,20,240"; "5350,150,20,135,19,315"; "5265,150,16,180,20,360"]);
  ("KAAO", ["6101,100,1401,187,1421,7"]);
  ("KAAS", ["5003,75,871,49.8,921,229.8"]);
  ("KAAT", ["2935,60,4359,46,4374,226"; "4301,50,4366,148.4,4374,328.4"]);
  ("KABE", ["7600,150,394,51.3,380,231.3"; "5797,150,383,123.1,380,303.1"]);
  ("KABI", ["3678,100,1751,52,1762,232"; "7198,150,1791,180,1775,360"; "7202,150,1757,180,1785,360"]);
  ("KABQ", ["10000,150,5305,45,5316,225"; "13793,150,5315,90,5355,270"; "6000,150,5312,129,5314,309"; "10000,150,5321,183,5314,3"]);
  ("KABR", ["6901,100,1302,135.1,1301,315.1"; "5500,100,1302,180,1298,360"]);
  ("KABY", ["6601,150,196,42,189,222"; "5200,150,195,162,196,342"]);
  ("KACB", ["5000,100,622,17.4,618,197.4"]);
  ("KACJ", ["6021,100,466,46,462,226"; "3787,75,471,91,459,271"]);
  ("KACK", ["6303,150,29,44.9,48,224.9"; "2696,50,35,107,40,287"; "4000,100,46,135,42,315"]);
  ("KACP", ["4993,75,107,170,107,350"]);
  ("KACQ", ["3398,75,1126,154,1119,334"]);
  ("KACT", ["6596,150,508,14.2,502,194.2"; "5896,150,509,149.2,507,329.2"]);
  ("KACV", ["4499,150,188,29.7,208,209.7"; "6000,150,187,152.7,221,332.7"]);
  ("KACY", ["6144,150,61,27.9,67,207.9"; "10000,150,75,118.1,63,298.1"]);
  ("KACZ", ["3998,75,39,85,31,265"]);
  ("KADC", ["4005,75,1369,163.8,1357,343.8"]);
  ("KADG", ["5001,100,795,47,799,227"; "1810,150,798,107,797,287"]);
  ("KADH", ["3103,50,1004,135,979,315"; "6203,100,1016,180,979,360"]);
  ("KADM", ["6761,150,725,46,738,226"; "7225,150,,85,,265"; "7220,150,762,135,729,315"; "5006,100,753,180.4,725,0.4"]);
  ("KADS", ["7202,100,633,160,639,340"]);
  ("KADT", ["2400,100,,41,,221"; "5001,75,2991,173,2926,353"; "2420,75,,174,,354"]);
  ("KADU", ["3640,60,1287,148,1287,328"]);
  ("KADW", ["9300,200,254,360,273,180"; "9755,150,252,359.9,278,179.9"]);
  ("KAE", ["10000,4000"]);
  ("KAEG", ["7400,100,5837,46.2,5810,226.2"; "5999,100,5806,179.9,5799,359.9"]);
  ("KAEJ", ["8300,75,7946,162.2,7899,342.2"]);
  ("KAEL", ["2899,75,1253,47,1256,227"; "4501,100,1259,168,1255,348"]);
  ("KAEX", ["9352,150,84,144,89,324"; "7001,150,84,189,87,9"]);
  ("KAFF", ["2153,75,6528,95.4,6572,275.4"; "4500,75,6526,169.9,6505,349.9"; "3500,75,6572,170.9,6572,350.9"; "4500,40,6572,169.9,6572,349.9"]);
  ("KAFJ", ["5000,75,1176,85,1168,265"]);
  ("KAFK", ["2550,150,1162,47.7,1162,227.7"; "4500,75,1156,151.5,1157,331.5"]);
  ("KAFN", ["2982,134,1040,148.1,1040,328.1"]);
  ("KAFO", ["7023,75,6188,180,6221,360"]);
  ("KAFP", ["5498,100,297,154.5,295,334.5"]);
  ("KAFW", ["9600,150,715,170.2,664,350.2"; "8220,150,714,170.3,668,350.3"]);
  ("KAGC", ["6501,150,1250,89.9,1250,269.9"; "3825,100,1245,120,1249,300"; "47,45"]);
  ("KAGO", ["4610,100,301,181,317,1"]);
  ("KAGR", ["8000,150,64,50,67,230"; "5384,150,64,135,68,315"]);
  ("KAGS", ["6001,75,134,78,138,258"; "8001,150,144,168,133,348"]);
  ("KAGZ", ["3500,60,,93.3,,273.3"; "2228,150,,145.4,,325.4"; "1912,100,,180,,360"]);
  ("KAHC", ["7167,150,4007,99,4011,279"]);
  ("KAHH", ["4001,75,1078,178,1088,358"]);
  ("KAHN", ["4000,100,775,21,803,201"; "5522,100,755,88,808,268"]);
  ("KAHQ", ["4101,75,1220,24,1224,204"; "3290,150,1222,142,1218,322"]);
  ("KAIA", ["6200,75,3929,89.3,3923,269.3"; "9202,150,3928,134.3,3923,314.3"; "6311,75,3923,179.3,3923,359.3"]);
  ("KAIB", ["4600,75,5936,58.5,5936,238.5"; "4000,80,5897,123.9,5925,303.9"]);
  ("KAID", ["5400,100,880,115,919,295"; "3400,75,912,179.9,908,359.9"]);
  ("KAIG", ["3400,75,1515,83,1521,263"; "4001,75,1519,164,1516,344"]);
  ("KAIK", ["3800,75,528,0,493,180"; "5500,100,515,60,494,240"]);
  ("KAIO", ["5000,75,1146,22,1149,202"; "3911,75,1163,123,1144,303"; "1895,185,,179.6,,359.6"]);
  ("KAIT", ["3400,150,1205,88,1205,268"; "4018,75,1205,164,1205,344"]);
  ("KAIV", ["4970,80,142,62,150,242"]);
  ("KAIY", ["2595,100,7,27,7,207"; "2948,100,7,103,8,283"]);
  ("KAIZ", ["6497,100,863,37.1,869,217.1"]);
  ("KAJG", ["4000,100,428,40.6,428,220.6"; "4500,75,427,130.9,429,310.9"]);
  ("KAJO", ["3199,60,517,91,532,271"]);
  ("KAJR", ["5500,100,1408,57,1447,237"]);
  ("KAJZ", ["5598,75,5111,41.7,5193,221.7"]);
  ("KAK", ["1949"]);
  ("KAKH", ["3769,100,797,28.3,783,208.3"]);
  ("KAKO", ["7000,100,4714,119.3,4668,299.3"]);
  ("KAKQ", ["4337,75,109,16.8,113,196.8"]);
  ("KAKR", ["2336,100,1044,0.9,1043,180.9"; "6337,150,1060,62,1054,242"]);
  ("KALB", ["7200,150,285,358.2,279,178.2"; "7200,150,277,88,278,268"]);
  ("KALI", ["4171,130,178,89,171,269"; "5997,100,178,134,166,314"; "4490,100,173,179,171,359"]);
  ("KALM", ["7006,150,4144,45.6,4200,225.6"; "3512,200,4200,173.2,4200,353.2"]);
  ("KALN", ["8101,150,538,113.3,527,293.3"; "6500,100,533,173.3,544,353.3"]);
  ("KALO", ["5403,129,868,67.8,866,247.8"; "8400,150,873,128,867,308"; "6002,150,870,187.8,867,7.8"]);
  ("KALS", ["8519,100,7539,31.5,7539,211.5"; "3200,100,7535,76.4,7533,256.4"]);
  ("KALW", ["6526,150,1149,36,1191,216"; "4486,150,1121,90,1184,270"; "5948,150,1124,180,1145,360"]);
  ("KALX", ["5425,96,675,178,612,358"]);
  ("KAMA", ["13502,300,3607,46,3603,226"; "7901,150,3602,137.5,3593,317.5"]);
  ("KAMG", ["5000,100,200,150.9,190,330.9"]);
  ("KAMN", ["5000,75,749,90.2,752,270.2"; "3200,75,752,180.3,753,0.3"]);
  ("KAMT", ["3762,65,883,45.1,896,225.1"]);
  ("KAMW", ["5700,100,955,16.6,919,196.6"; "3492,100,925,136.2,920,316.2"]);
  ("KANB", ["7000,150,595,48,612,228"]);
  ("KAND", ["6002,150,751,45.9,747,225.9"; "4995,150,782,165.9,737,345.9"]);
  ("KANE", ["4001,75,905,92.1,910,272.1"; "4855,100,912,182,909,2"]);
  ("KANJ", ["5235,100,716,136,716,316"]);
  ("KANK", ["7347,75,7523,70.6,7385,250.6"]);
  ("KANP", ["2500,48,32,107.5,34,287.5"]);
  ("KANQ", ["4540,75,984,47,995,227"]);
  ("KANW", ["5501,75,2587,134,2583,314"; "6824,110,2587,179.3,2589,359.3"]);
  ("KANY", ["2200,150,1329,104,1336,284"; "3598,70,1340,180,1334,360"]);
  ("KAOC", ["6600,75,5332,70,5323,250"]);
  ("KAOH", ["5149,150,951,90,975,270"; "3994,150,975,135.4,975,315.4"]);
  ("KAOO", ["5466,100,1504,16,1470,196"; "3668,75,1473,108.4,1482,288.4"]);
  ("KAOV", ["3634,50,1277,137,1311,317"]);
  ("KAPA", ["4800,75,5822,110.9,5791,290.9"; "10002,100,5790,178,5883,358"; "7004,77,5800,178,5866,358"]);
  ("KAPC", ["5007,150,14,76.7,35,256.7"; "2510,75,21,200.7,12,20.7"; "5931,150,29,200.7,14,20.7"]);
  ("KAPF", ["5290,150,7,44,8,224"; "5000,100,7,134,8,314"; "1850,100,4,44,5,224"]);
  ("KAPG", ["7997,200,35,28.4,46,208.4"; "4849,149,56,71.4,42,251.4"; "5004,149,57,161.4,43,341.4"]);
  ("KAPH", ["2201,100,216,42.5,211,222.5"]);
  ("KAPN", ["9001,150,683,359.8,683,179.8"; "5031,100,689,59.8,679,239.8"]);
  ("KAPT", ["3500,75,641,38,641,218"]);
  ("KAPV", ["4099,60,2958,90,2976,270"; "6498,150,3062,196,2974,16"]);
  ("KAPY", ["5000,60,421,129.4,408,309.4"]);
  ("KAQ", ["1578,98"]);
  ("KAQO", ["3240,150,1102,137.5,1090,317.5"; "4202,75,1102,179.2,1102,359.2"]);
  ("KAQP", ["2725,157,1019,44,1021,224"; "3500,75,1020,136,1020,316"]);
  ("KAQR", ["3015,40,,181.2,,1.2"]);
  ("KAQW", ["4300,100,653,109.4,650,289.4"]);
  ("KARA", ["8002,200,24,167.5,19,347.5"; "5000,150"]);
  ("KARB", ["3505,75,831,55,826,235"; "2750,110,839,122.2,839,302.2"]);
  ("KARG", ["6001,150,273,45,273,225"; "5003,150,272,135.2,273,315.2"; "5001,150,273,180,272,360"]);
  ("KARM", ["5004,75,100,150.8,97,330.8"]);
  ("KARR", ["6501,100,706,89,706,269"; "5502,100,712,146.7,699,326.7"; "3199,75,700,180,700,360"]);
  ("KART", ["5000,150,310,53.4,324,233.4"; "5000,150,309,93,325,273"]);
  ("KARV", ["3602,75,1622,101,1622,281"; "5150,100,1630,179,1624,359"]);
  ("KARW", ["3434,75,9,60.4,7,240.4"]);
  ("KASD", ["4058,100,28,179.5,27,359.5"]);
  ("KASE", ["7006,100,7680,159.6,7820,339.6"]);
  ("KASG", ["5302,75,1339,187,1353,7"]);
  ("KASH", ["5501,100,199,123,187,303"]);
  ("KASJ", ["4502,75,68,1.2,68,181.2"]);
  ("KASL", ["3298,60,338,21.7,341,201.7"; "5000,100,356,156.7,320,336.7"]);
  ("KASN", ["6001,100,519,35,528,215"]);
  ("KAST", ["5796,100,13,95,12,275"; "4996,100,12,154,15,334"]);
  ("KASW", ["6000,100,839,88.8,847,268.8"; "4020,75,840,179,837,359"]);
  ("KASX", ["5199,100,818,20.7,822,200.7"; "3498,75,823,130.6,809,310.6"]);
  ("KASY", ["2825,150,2015,90,2027,270"; "4300,60,2015,151,2030,331"]);
  ("KATA", ["3800,60,280,52.1,268,232.1"; "2463,150,270,156,262,336"]);
  ("KATL", ["9000,150,1015,90,990,270"; "10000,150,1024,90,995,270"; "11890,150,1019,90,978,270"; "9001,150,1026,90,985,270"; "9000,150,1000,90,998,270"]);
  ("KATS", ["6301,150,3541,45,3520,225"; "5390,150,3534,135,3508,315"]);
  ("KATW", ["8002,150,888,26,878,206"; "6501,150,918,116.2,858,296.2"]);
  ("KATY", ["6900,150,1747,124.6,1732,304.6"; "6895,150,1739,180.3,1742,0.3"]);
  ("KAUG", ["2703,75,351,62,352,242"; "5001,150,311,153.2,347,333.2"]);
  ("KAUH", ["4301,75,1803,168.8,1796,348.8"]);
  ("KAUM", ["5800,100,1231,172,1231,352"]);
  ("KAUN", ["3700,75,1490,84,1536,264"]);
  ("KAUO", ["4000,75,775,107,764,287"; "5264,100,776,181,731,1"]);
  ("KAUS", ["9000,150,492,178.7,474,358.7"; "12248,150,542,178.7,488,358.7"]);
  ("KAUW", ["3085,100,1190,42.8,1201,222.8"; "4950,100,1201,124.9,1190,304.9"; "8000,300"]);
  ("KAVC", ["5002,75,378,358,442,178"]);
  ("KAVK", ["1850,170,1470,90,,270"; "4386,75,1473,180,1468,360"]);
  ("KAVL", ["8001,150,2165,159.8,2111,339.8"]);
  ("KAVO", ["5364,100,156,45,153,225"; "3825,75,154,90,153,270"]);
  ("KAVP", ["7501,150,962,33,912,213"; "4300,150,922,92,935,272"]);
  ("KAVQ", ["3893,75,2019,45.5,2025,225.5"; "6901,100,2011,135.5,2031,315.5"]);
  ("KAVX", ["3000,60,1602,54,1602,234"]);
  ("KAWG", ["3401,50,752,135,753,315"; "4000,75,751,183,751,3"]);
  ("KAWM", ["6003,100,212,180.5,212,0.5"]);
  ("KAWO", ["3500,75,129,127,124,307"; "5333,100,137,179,123,359"]);
  ("KAXA", ["3960,75,1215,131.6,1204,311.6"; "2880,160,,187.5,,7.5"]);
  ("KAXH", ["5003,100,68,94.2,66,274.2"]);
  ("KAXN", ["4099,75,1425,49.2,1418,229.2"; "5100,100,1412,139.3,1422,319.3"]);
  ("KAXQ", ["4100,75,1441,44.6,1457,224.6"]);
  ("KAXS", ["5501,75,1433,180,1409,360"]);
  ("KAXV", ["5001,100,909,76.6,908,256.6"; "2685,80,912,180,912,360"]);
  ("KAXX", ["8900,100,8322,181.8,8380,1.8"]);
  ("KAYS", ["5035,100,141,42.3,137,222.3"; "3528,100,137,128.3,142,308.3"; "6000,150,141,179.2,134,359.2"]);
  ("KAYX", ["6000,150,1065,30,1065,210"]);
  ("KAZC", ["5099,60,4874,28,4874,208"; "6300,75,4874,122.5,4874,302.5"]);
  ("KAZE", ["4508,75,229,141,250,321"]);
  ("KAZO", ["3436,100,874,45,851,225"; "2800,60,874,90.1,862,270.1"; "6500,150,859,171.1,868,351.1"]);
  ("KB16", ["3630,60,398,86.9,398,266.9"; "2800,100,397,88,400,268"]);
  ("KB19", ["3000,75,147,55.9,155,235.9"]);
  ("KB21", ["2800,75,,152.1,,332.1"]);
  ("KBAB", ["12000,300,113,161.3,105,341.3"]);
  ("KBAD", ["11756,300,164,151.4,162,331.4"]);
  ("KBAF", ["9000,150,261,10.1,267,190.1"; "5000,100,262,140.3,247,320.3"]);
  ("KBAK", ["6400,150,650,45,656,225"; "5000,100,654,135,651,315"]);
  ("KBAM", ["7299,150,4531,49.1,4526,229.1"; "7300,100,4532,139.1,4531,319.1"]);
  ("KBAX", ["3496,75,756,28.4,765,208.4"; "5000,75,763,164.8,754,344.8"]);
  ("KBAZ", ["5352,100,649,135.7,642,315.7"; "5364,100,648,180.7,645,0.7"]);
  ("KBBB", ["4000,75,1038,144,1038,324"]);
  ("KBBD", ["3520,110,1818,91,1824,271"; "4604,75,1827,180.1,1792,0.1"]);
  ("KBBP", ["5000,75,138,57,144,237"]);
  ("KBBW", ["4203,75,2547,149,2523,329"]);
  ("KBCB", ["2850,150,,71.1,,251.1"; "4539,100,2113,117.2,2132,297.2"]);
  ("KBCE", ["7395,75,7586,46.5,7586,226.5"]);
  ("KBCK", ["4600,75,823,80,836,260"]);
  ("KBCT", ["6276,150,13,44,13,224"]);
  ("KBDE", ["5499,100,1085,121,1083,301"; "6000,1200"]);
  ("KBDG", ["5781,75,5868,180,5775,360"]);
  ("KBDJ", ["3170,165,1660,,1665"; "2540,160,1665,,1660"]);
  ("KBDL", ["5145,100,171,359,169,179"; "9510,200,173,44,161,224"; "6847,150,169,135,168,315"]);
  ("KBDN", ["5200,75,3403,180,3460,0"]);
  ("KBDQ", ["4000,50,321,90,310,270"]);
  ("KBDR", ["4677,150,6,45,6,225"; "4761,150,9,98,6,278"; "3200,150,8,162.9,6,342.9"]);
  ("KBDU", ["4100,75"; "4100,20"]);
  ("KBE", ["10600,2600"]);
  ("KBEA", ["4551,75,268,131,244,311"; "2530,60,270,189.1,261,9.1"]);
  ("KBEC", ["8000,100,1408,191,1386,11"]);
  ("KBED", ["5106,150,128,37,128,217"; "7001,150,133,97.8,124,277.8"]);
  ("KBEH", ["5109,100,627,90.4,637,270.4"; "3662,100,626,131.9,630,311.9"; "2498,100,630,180,625,360"]);
  ("KBFA", ["5200,60,719,169.3,719,349.3"]);
  ("KBFD", ["4500,100,2128,43.9,2143,223.9"; "6309,150,2109,133.9,2100,313.9"]);
  ("KBFE", ["5217,75,3253,26,3264,206"; "2765,75,3262,135,3250,315"]);
  ("KBFF", ["8001,150,3949,68,3967,248"; "8279,150,3962,136,3944,316"]);
  ("KBFI", ["3710,100,18,150,18,330"; "10000,200,17,150,21,330"]);
  ("KBFK", ["4000,60,1822,180,1822,360"]);
  ("KBFL", ["10857,150,507,135.4,482,315.5"; "3700,75,472,135.5,461,315.5"]);
  ("KBFM", ["9618,150,26,139,19,319"; "7800,150,26,180,25,360"]);
  ("KBFR", ["3089,70,714,57.5,723,237.5"; "4501,100,713,129.3,724,309.3"]);
  ("KBFW", ["3200,75,1089,72,1083,252"]);
  ("KBGD", ["3898,50,3035,39.9,3017,219.9"; "6300,100,2998,178.4,3055,358.4"]);
  ("KBGE", ["5000,150,134,50,,230"; "4500,150,128,50,134,230"; "5502,150,142,90,128,270"; "5100,150,134,90,134,270"; "5003,100,135,139,134,319"]);
  ("KBGF", ["5003,75,971,181.7,975,1.7"]);
  ("KBGM", ["5002,150,1591,87,1572,267"; "7100,150,1634,148,1569,328"]);
  ("KBGR", ["11440,200,192,134,163,314"]);
  ("KBHB", ["5200,100,69,24.5,69,204.5"; "3599,150,,87.8,,267.8"; "3364,75,80,150.8,44,330.8"]);
  ("KBHC", ["5003,75,201,75,202,255"]);
  ("KBHK", ["4898,75,2959,138,2972,318"]);
  ("KBHM", ["10000,150,603,55,621,235"; "7100,150,644,180,633,360"]);
  ("KBID", ["2502,100,108,84,101,264"]);
  ("KBIE", ["4401,100,1319,143.3,1311,323.3"; "5602,100,1324,179.6,1304,359.6"]);
  ("KBIF", ["13554,150,3910,43.9,3946,223.9"]);
  ("KBIH", ["5566,100,4124,90,4100,270"; "7498,100,4123,135.5,4100,315.5"; "5600,100,4113,181,4105,1"]);
  ("KBIJ", ["5500,100,214,50,205,230"]);
  ("KBIL", ["5501,75,3636,84,3534,264"; "10518,150,3584,112,3488,292"; "3801,75,3652,112,3607,292"]);
  ("KBIS", ["6600,100,1661,39,1661,219"; "8794,150,1653,138,1645,318"]);
  ("KBIV", ["6264,100,698,80,688,260"]);
  ("KBIX", ["7630,150,23,35,17,215"]);
  ("KBJC", ["3601,75,5613,34.3,5597,214.3"; "9000,100,5657,124.3,5562,304.3"; "7004,75,5670,124.3,5592,304.3"]);
  ("KBJI", ["5699,150,1383,74,1380,254"; "6598,150,1390,134,1381,314"]);
  ("KBJJ", ["5191,100,1112,90,1134,270"]);
  ("KBKD", ["2399,50,1263,44.7,1254,224.7"; "2400,50,1247,134.6,1273,314.6"; "4998,100,1284,179.6,1283,359.6"]);
  ("KBKE", ["3999,140,3370,97,3369,277"; "5095,100,3366,142,3373,322"; "4359,75,3366,181,3372,1"]);
  ("KBKF", ["11000,150,5589,151.1,5662,331.1"]);
  ("KBKL", ["6198,150,581,57.9,581,237.9"; "5197,100,581,57.9,581,237.9"]);
  ("KBKN", ["3500,60,1026,179.9,1006,359.9"]);
  ("KBKS", ["3071,40,109,149.5,112,329.5"; "5002,75,112,179.9,112,359.9"]);
  ("KBKT", ["4032,75,417,0.9,426,180.9"; "4632,150,429,34.5,438,214.5"]);
  ("KBKV", ["5015,150,68,26,69,206"; "7001,150,71,90,70,270"]);
  ("KBKW", ["6750,150,2495,7.5,2449,187.5"; "5000,100,2486,94,2501,274"]);
  ("KBKX", ["5231,100,1607,129,1629,309"; "3599,60,1607,176.9,1647,356.9"]);
  ("KBLF", ["4742,100,2850,41.9,2856,221.9"]);
  ("KBLH", ["6543,150,395,90.2,393,270.2"; "5800,100,397,180.2,392,0.2"]);
  ("KBLI", ["6701,150,162,180,170,360"]);
  ("KBLM", ["3707,50,150,22,159,202"; "7300,80,159,132,159,312"]);
  ("KBLU", ["3300,50,5283,168,5245,348"]);
  ("KBLV", ["10000,150,442,136.6,442,316.6"; "8001,150,459,136.5,437,316.5"]);
  ("KBMC", ["7501,100,4228,179.5,4229,359.5"]);
  ("KBMG", ["3798,100,831,61.6,841,241.6"; "6500,150,846,171.4,838,351.4"]);
  ("KBMI", ["8000,150,857,17.9,863,197.9"; "3723,100,871,36.3,871,216.3"; "6525,150,871,107.9,871,287.9"]);
  ("KBML", ["5200,100,1158,164.3,1130,344.3"]);
  ("KBMQ", ["5000,75,1259,16.1,1284,196.1"]);
  ("KBMT", ["4000,75,29,132,32,312"; "2300,100,31,169,30,349"]);
  ("KBNA", ["8001,150,569,18,572,198"; "7703,150,599,17.6,555,197.6"; "8000,150,590,18,540,198"; "11030,150,543,133.3,577,313.3"]);
  ("KBNG", ["5200,150,2219,91.1,2094,271.1"]);
  ("KBNL", ["5255,70,242,45.4,240,225.4"; "5119,100,237,160.4,245,340.4"]);
  ("KBNO", ["4600,60,4145,48,4143,228"; "5100,75,4147,135,4144,315"]);
  ("KBNW", ["3298,290,1160,25,1160,205"; "4807,75,1137,149.3,1138,329.3"]);
  ("KBOI", ["5000,75,2884,105,2919,285"; "10000,150,2831,115.1,2871,295.1"; "9763,150,2824,115.1,2858,295.1"]);
  ("KBOS", ["7861,150,14,20,15,200"; "10005,150,18,20,16,200"; "7000,150,17,77,15,257"; "5000,100,17,125,20,305"; "2557,100,15,135,14,315"; "10083,150,17,135,15,315"]);
  ("KBOW", ["5000,100,109,46,123,226"; "5001,150,118,87,115,267"; "4400,150,113,87,113,267"; "5000,150,,139,,319"]);
  ("KBPG", ["4601,75,2547,66.9,2573,246.9"; "8802,100,2550,181.9,2562,1.9"]);
  ("KBPI", ["3300,140,6942,92.5,6925,272.5"; "6803,75,6989,147.7,6945,327.7"]);
  ("KBPK", ["5001,75,928,51.6,912,231.6"]);
  ("KBPP", ["4800,75,2954,125.2,2956,305.2"]);
  ("KBPT", ["6750,150,15,120.9,7,300.9"; "5070,150,15,166,12,346"]);
  ("KBQK", ["8001,150,19,65,20,245"]);
  ("KBQP", ["4000,100,,163.7,,343.7"]);
  ("KBQR", ["3200,75,750,78,750,258"]);
  ("KBRD", ["2800,75,1224,12.7,1221,192.7"; "6500,150,1220,53.4,1222,233.5"; "4080,75,1225,126,1224,306"; "6500,150,1226,163,1232,343"]);
  ("KBRL", ["5350,100,692,119.6,693,299.6"; "6702,150,694,179.5,677,359.5"]);
  ("KBRO", ["3000,75,17,135.4,19,315.4"; "7400,150,17,135.4,20,315.4"; "6000,150,20,182.1,22,2.1"]);
  ("KBRY", ["5003,75,642,22,669,202"]);
  ("KBST", ["3000,150,,82.2,,262.2"; "4000,100,198,134,159,314"]);
  ("KBTA", ["4200,100,1318,137.2,1299,317.2"]);
  ("KBTF", ["4700,70,,180,,360"]);
  ("KBTL", ["10003,150,952,43,929,223"; "4018,150,924,89,930,269"; "4835,100,920,126,930,306"]);
  ("KBTM", ["5545,75,,38,,218"; "5100,75,5520,129,5530,309"; "9001,150,5507,167,5550,347"]);
  ("KBTN", ["2300,120,,25.8,,205.8"; "4200,75,1314,134.9,1318,314.9"]);
  ("KBTP", ["4005,100,1235,72,1243,252"]);
  ("KBTR", ["6900,150,66,43,70,223"; "3799,75,67,43,69,223"; "7004,150,66,133,69,313"]);
  ("KBTV", ["3611,75,333,351,329,171"; "8320,150,306,131,334,311"]);
  ("KBTY", ["5600,60,3170,178.4,3095,358.4"]);
  ("KBUB", ["3212,50,2172,159.1,2182,339.1"]);
  ("KBUF", ["8102,150,679,43.8,721,223.8"; "7161,150,698,126.8,709,306.8"]);
  ("KBUM", ["4000,75,870,181.9,892,1.9"]);
  ("KBUR", ["5801,150,727,90.9,697,270.9"; "6886,150,768,167.1,698,347.1"]);
  ("KBUU", ["2477,130,773,12,775,192"; "4300,75,777,109,776,289"]);
  ("KBUY", ["5000,100,617,52.1,584,232.1"]);
  ("KBVI", ["4501,100,1204,93.8,1253,273.9"]);
  ("KBVN", ["3700,60,1807,153.7,1779,333.7"]);
  ("KBVO", ["6200,100,686,178.8,713,358.8"]);
  ("KBVS", ["3000,60,84,56,97,236"; "5477,100,144,126,98,306"]);
  ("KBVX", ["6002,150,452,80,464,260"; "3078,60,435,181,463,1"]);
  ("KBVY", ["5001,150,69,74.2,90,254.2"; "4634,100,90,140.7,87,320.7"]);
  ("KBWC", ["4402,60,-127,90,-133,270"]);
  ("KBWD", ["4596,100,1380,134.3,1372,314.3"; "5599,150,1384,179.4,1370,359.4"]);
  ("KBWG", ["6500,150,547,29.9,520,209.9"; "3955,150,531,120,531,300"]);
  ("KBWI", ["6000,150,146,33.2,138,213.2"; "10502,200,141,94.2,129,274.2"; "5000,100,142,144.2,114,324.2"; "9501,150,139,144.2,129,324.2"]);
  ("KBWP", ["3280,150,965,38,963,218"; "5100,75,968,157,966,337"]);
  ("KBXA", ["3799,100,118,183,110,3"]);
  ("KBXG", ["4035,75,292,71.1,302,251.1"]);
  ("KBXK", ["3310,300,,60.6,,240.6"; "3400,270,,120.2,,300.2"; "5500,75,1033,182,995,2"]);
  ("KBYG", ["6143,75,4968,138,4902,318"]);
  ("KBYH", ["11602,150,250,180,252,360"]);
  ("KBYI", ["4094,80,4149,37,4138,217"; "4067,75,4149,79,4140,259"]);
  ("KBYS", ["9500,175,2350,52.1,2350,232.1"; "5800,175,2350,140,2350,320"]);
  ("KBYY", ["5107,75,44,133.6,40,313.6"]);
  ("KBZN", ["2650,75,4471,46,4451,226"; "3197,80,4440,135.7,4453,315.7"; "9003,150,4421,136,4458,316"]);
  ("KC02", ["3830,75,835,53.1,835,233.1"]);
  ("KC03", ["3675,50,858,89.4,856,269.4"]);
  ("KC04", ["3500,75,902,76,889,256"; "2240,100,910,136,910,316"]);
  ("KC08", ["7000,55,,148,,328"]);
  ("KC09", ["4001,75,583,179,569,359"]);
  ("KC15", ["5000,75,530,89.5,526,269.5"]);
  ("KC16", ["4001,55,735,89.4,724,269.4"; "3654,140,728,179.3,731,359.3"]);
  ("KC17", ["3775,100,,174,,354"]);
  ("KC20", ["1944,115,,27.6,,207.6"; "4161,75,,131,,311"]);
  ("KC22", ["3401,80,603,89,619,269"]);
  ("KC24", ["6880,60,8680,81.4,8630,261.4"]);
  ("KC27", ["3465,50,,180,,360"]);
  ("KC29", ["2000,120,925,7.5,928,187.5"; "4000,100,928,100,927,280"; "2927,38,925,122,922,302"; "2195,110,927,180,922,360"]);
  ("KC35", ["2510,50,,68.9,,248.9"; "4840,75,881,181,881,1"]);
  ("KC47", ["2560,40,824,43,816,223"; "3775,60,811,178,822,358"]);
  ("KC62", ["4400,75,1000,91.6,1005,271.6"]);
  ("KC65", ["4400,60,797,96,800,276"]);
  ("KC71", ["3127,60,,170,,350"]);
  ("KC73", ["3899,75,781,79.9,785,259.9"; "2803,75,777,121,785,301"]);
  ("KC74", ["3000,50,627,118,627,298"]);
  ("KC75", ["3200,75,539,128,568,308"; "2200,50,553,181,547,1"]);
  ("KC77", ["2709,200,857,90.1,849,270.1"; "3773,50,856,122.5,850,302.5"; "2467,150,850,176,849,356"]);
  ("KC80", ["2500,60,,24.4,,204.4"; "5000,100,,134.9,,314.9"]);
  ("KC81", ["3573,40,779,58.2,778,238.2"; "3270,40,777,90.2,788,270.2"]);
  ("KC83", ["3000,75,79,63.2,49,243.2"; "4500,100,64,135.3,48,315.3"]);
  ("KC91", ["2200,100,,39.8,,219.8"; "4700,100,736,90.1,746,270.1"]);
  ("KCAD", ["5000,100,1307,66,1298,246"; "2005,150,1295,179,1295,359"]);
  ("KCAE", ["8001,150,228,45,209,225"; "8601,150,229,105,210,285"]);
  ("KCAG", ["5600,100,6182,83,6193,263"]);
  ("KCAK", ["7601,150,1208,2,1214,182"; "7597,150,1190,47,1228,227"; "5599,150,,137,,317"]);
  ("KCAO", ["6300,75,4963,30.2,4965,210.2"; "4100,60,4964,130.2,4945,310.2"]);
  ("KCAR", ["4003,100,614,347.3,617,167.3"; "3017,75,620,86,619,266"]);
  ("KCAV", ["1380,110,,90,,270"; "3515,60,1152,145.7,1156,325.7"]);
  ("KCBE", ["5048,150,722,39.1,776,219.1"; "2442,150,723,97,727,277"]);
  ("KCBF", ["4100,75,1232,141,1253,321"; "4000,100,,182,,2"]);
  ("KCBG", ["4000,75,942,163,938,343"]);
  ("KCBK", ["2600,80,3161,46,3170,226"; "2660,90,3167,136,3152,316"; "5109,75,3186,180,3153,360"]);
  ("KCBM", ["12000,300,195,134,214,314"; "8000,150,194,135,219,315"; "6300,175,192,134,207,314"]);
  ("KCC", ["5000,2000"]);
  ("KCCA", ["4012,50,513,132,501,312"]);
  ("KCCB", ["3864,75,1391,69.1,1431,249.1"]);
  ("KCCO", ["5500,100,970,139.5,934,319.5"]);
  ("KCCR", ["5001,150,24,23.5,22,203.5"; "2770,75,23,23.5,22,203.5"; "4602,150,18,153.5,25,333.5"; "2799,75,17,153.5,22,333.5"]);
  ("KCCY", ["2536,160,1125,44.9,1125,224.9"; "4001,75,1116,125.4,1116,305.4"; "1780,170,,180,,360"]);
  ("KCDA", ["3300,60,1178,8.4,1188,188.4"]);
  ("KCDC", ["8653,150,5578,34.3,5600,214.3"; "4822,60,5579,96.8,5622,276.8"]);
  ("KCDH", ["6501,100,130,188.2,123,8.2"]);
  ("KCDI", ["4298,75,798,33.1,799,213.1"]);
  ("KCDN", ["5000,100,286,51.7,297,231.7"; "2998,100,298,134.7,300,314.7"]);
  ("KCDR", ["6001,100,3293,35,3268,215"; "4401,75,3294,125,3284,305"])].

(* ADRpy/data/runways.csv *)
Definition airports_17 : list (string * list string) := [
  ("KCDS", ["4425,60,1942,46.9,1949,226.9"; "4196,150,1948,133.7,1941,313.7"; "5949,75,1948,181.9,1954,1.9"]);
  ("KCDW", ["4553,80,173,30.1,173,210.1"; "3721,75,170,83,173,263"]);
  ("KCEA", ["3873,40,1373,180,1373,360"]);
  ("KCEC", ["5002,150,53,133,50,313"; "5002,150,57,193.2,47,13.2"]);
  ("KCEF", ["11597,301,236,34.2,241,214.2"; "7082,150,241,134.3,240,314.3"]);
  ("KCEK", ["3370,150,,133.8,,313.8"; "4202,75,1499,180.3,1479,0.3"]);
  ("KCEU", ["4399,100,887,67.8,879,247.8"]);
  ("KCEV", ["2833,100,867,36.1,867,216.1"; "6500,100,867,179.4,861,359.4"]);
  ("KCEW", ["8005,150,213,171,153,351"]);
  ("KCEY", ["6200,100,576,50,566,230"]);
  ("KCEZ", ["7205,100,5913,41.5,5909,221.5"]);
  ("KCFD", ["4000,75,357,152,367,332"; "1330,40,349,180,350,360"]);
  ("KCFE", ["2600,60,967,181,954,1"]);
  ("KCFJ", ["4500,75,795,42.9,799,222.9"]);
  ("KCFS", ["4300,75,686,52,701,232"; "2300,110,,120.2,,300.2"]);
  ("KCFT", ["4970,75,3718,81.8,3793,261.8"]);
  ("KCFV", ["4000,75,754,44,752,224"; "5872,100,745,180,742,360"]);
  ("KCGC", ["4555,75,7,91,9,271"; "3020,100,9,180,9,360"]);
  ("KCGE", ["4476,75,19,144,16,324"]);
  ("KCGF", ["5102,100,873,49.5,879,229.5"]);
  ("KCGI", ["3996,100,342,21.2,337,201.2"; "6499,150,338,105.8,341,285.8"]);
  ("KCGS", ["2607,60,47,138.3,40,318.3"]);
  ("KCGZ", ["5200,100,1447,59.9,1464,239.9"]);
  ("KCHA", ["7400,150,681,16.7,667,196.7"; "5000,150,671,145.5,671,325.5"]);
  ("KCHD", ["4401,75,1231,49.6,1236,229.6"; "4870,75,1236,49.6,1243,229.6"]);
  ("KCHK", ["2525,100,,33,,213"; "5100,100,1149,180,1129,360"; "2840,145,1150,180,1150,360"]);
  ("KCHN", ["4000,75,100,180,108,360"]);
  ("KCHO", ["6001,150,639,22,620,202"]);
  ("KCHQ", ["3196,60,313,180.2,313,0.2"]);
  ("KCHS", ["7004,150,21,24.4,41,204.4"; "9001,200,43,147.4,39,327.4"]);
  ("KCHT", ["3614,110,783,25.6,783,205.6"; "3900,74,783,143.3,763,323.3"]);
  ("KCHU", ["3499,77,1175,135,1179,315"]);
  ("KCIC", ["6724,150,238,147.4,205,327.4"; "3005,60,225,147.6,212,327.6"]);
  ("KCID", ["8601,150,852,91,858,271"; "6200,150,869,136,848,316"]);
  ("KCII", ["3700,60,3947,67,3939,247"; "5000,75,3942,160,3941,340"]);
  ("KCIN", ["2620,125,1204,35.4,1204,215.4"; "5500,100,1203,136.6,1204,316.6"]);
  ("KCIR", ["3201,60,319,21,319,201"; "4003,100,321,140.6,319,320.6"]);
  ("KCIU", ["5000,75,793,90.2,800,270.2"; "7201,200,799,150.1,793,330.1"]);
  ("KCJR", ["5000,100,316,28,315,208"]);
  ("KCKA", ["5500,150,1201,140,1155,320"; "7946,150,1202,182,1161,2"]);
  ("KCKB", ["7000,150,1183,23,1217,203"]);
  ("KCKC", ["4199,75,1799,95,1794,275"]);
  ("KCKF", ["5006,100,310,50,307,230"; "5001,150,302,97,309,277"; "5040,150,,135,,315"]);
  ("KCKI", ["5000,75,66,132.2,65,312.2"]);
  ("KCKM", ["5404,100,171,183,172,3"]);
  ("KCKN", ["2089,202,897,71,899,251"; "4300,75,893,133.2,894,313.2"; "2978,202,899,181.3,899,1.3"]);
  ("KCKP", ["1980,100,1213,11,1212,191"; "4000,75,1212,183,1226,3"]);
  ("KCKV", ["4004,100,543,52.1,538,232.1"; "6000,100,538,166.2,549,346.2"]);
  ("KCKZ", ["4215,100,520,69.6,568,249.6"]);
  ("KCL", ["1810,60"]);
  ("KCLE", ["7096,150,770,50,784,230"; "9000,150,770,49.9,780,229.9"; "8999,150,767,50,786,230"; "6017,150,762,93.3,791,273.3"]);
  ("KCLI", ["3299,100,822,43,810,223"; "2000,170,820,88,815,268"; "4600,75,818,137,814,317"]);
  ("KCLK", ["1416,245,,135.6,,315.6"; "4300,75,1604,179.2,1592,359.2"]);
  ("KCLL", ["5149,150,307,49.7,318,229.7"; "5159,150,320,108.8,312,288.8"; "7000,150,321,168.9,305,348.9"]);
  ("KCLM", ["6347,150,284,105,281,285"; "3245,50,227,148,271,328"]);
  ("KCLR", ["3423,50,-184,90.7,-181,270.7"]);
  ("KCLS", ["5000,150,168,178,173,358"]);
  ("KCLT", ["7502,150,706,48.5,747,228.5"; "10000,150,742,176,692,356"; "8676,150,746,176,724,356"; "10000,150,742,176,693,356"]);
  ("KCLW", ["3300,75,71,155,71,335"]);
  ("KCMA", ["6013,150,61,90.6,75,270.6"]);
  ("KCMH", ["8000,150,815,94.2,812,274.2"; "10125,150,803,94.2,814,274.2"]);
  ("KCMI", ["6500,150,751,40,746,220"; "8100,150,754,136,749,316"; "3817,75,743,60,750,240"; "5299,150,752,179.4,750,359.4"]);
  ("KCMR", ["5992,100,,192.3,,12.3"]);
  ("KCMX", ["5196,100,1059,66.9,1074,246.9"; "6501,150,1095,130.8,1061,310.8"]);
  ("KCMY", ["4295,50,836,15,837,195"; "4708,100,830,112,832,292"]);
  ("KCN", ["5000,2000"]);
  ("KCNB", ["4650,75,1193,121.3,1185,301.3"]);
  ("KCNC", ["4000,75,1045,101.7,1034,281.7"; "2800,75,1038,180.1,1050,0.1"]);
  ("KCNH", ["2010,100,537,33.5,545,213.5"; "3100,100,534,93.2,542,273.2"]);
  ("KCNK", ["1665,260,1473,38,1451,218"; "2205,300,1473,132,1455,312"; "3600,60,1472,180,1486,360"]);
  ("KCNM", ["7854,150,3295,44.1,3247,224.1"; "5333,75,3270,90,3239,270"; "4615,150,3241,156.2,3242,336.2"; "5839,100,3269,154,3267,334"]);
  ("KCNO", ["6023,150,604,44.4,652,224.4"; "4858,150,617,89.4,636,269.4"; "7000,150,620,89.4,637,269.4"]);
  ("KCNP", ["4000,55,3681,129.9,3672,309.9"]);
  ("KCNU", ["2200,135,980,90,995,270"; "4255,75,982,187,1002,7"]);
  ("KCNW", ["8600,150,469,177.5,456,357.5"; "6292,150,466,177.5,459,357.5"]);
  ("KCNY", ["7100,75,4551,39.9,4555,219.9"]);
  ("KCOD", ["8268,100,5097,52.3,5076,232.3"]);
  ("KCOE", ["5400,75,2302,32,2317,212"; "7400,100,2286,70,2318,250"]);
  ("KCOF", ["9023,200,5,20,8,200"; "4000,200,4,106,7,286"]);
  ("KCOI", ["3601,75,6,109,3,289"]);
  ("KCOM", ["4503,75,1697,155.2,1680,335.2"]);
  ("KCON", ["3999,150,336,15,346,195"; "3200,75,340,105,346,285"; "6005,100,340,155,332,335"]);
  ("KCOQ", ["3100,75,1276,73,1266,253"; "4003,75,1278,179.2,1272,359.2"]);
  ("KCOS", ["8269,150,6173,135.1,6135,315.1"; "13501,150,6187,180.1,6103,0.1"; "11022,150,6177,180.1,6045,0.1"]);
  ("KCOT", ["5005,75,474,134.5,451,314.5"]);
  ("KCOU", ["6501,150,882,21,886,201"; "4401,75,888,135,886,315"]);
  ("KCPC", ["5500,75,89,42.1,69,222.1"]);
  ("KCPK", ["5500,100,18,36.9,20,216.9"]);
  ("KCPM", ["3322,60,97,90,97,270"; "3322,60,97,90,97,270"]);
  ("KCPR", ["10164,150,5321,43.9,5323,223.9"; "8679,150,5341,88.9,5320,268.9"; "6484,60,5348,133.9,5318,313.9"; "7696,60,5348,178.9,5325,358.9"]);
  ("KCPS", ["2799,75,410,47,409,227"; "3800,75,411,122.3,407,302.3"; "6997,100,413,122.2,408,302.2"]);
  ("KCPT", ["5700,100,854,159.2,845,339.2"]);
  ("KCPU", ["3603,60,1302,146,1325,326"]);
  ("KCQA", ["3795,75,894,82.6,888,262.6"]);
  ("KCQB", ["4000,60,962,180.2,984,0.2"]);
  ("KCQM", ["1570,120,,67,,247"; "3200,75,1327,137,1317,317"]);
  ("KCQW", ["5000,75,239,70.1,188,250.1"]);
  ("KCQX", ["3001,100,54,43.8,67,223.8"]);
  ("KCR", ["3250,100"]);
  ("KCRE", ["5996,100,32,46.1,29,226.1"]);
  ("KCRG", ["4004,100,40,45,40,225"; "3998,100,32,135,40,315"]);
  ("KCRO", ["3800,50,197,146.7,196,326.7"]);
  ("KCRP", ["7508,150,43,135.8,40,315.8"; "6080,150,40,179.1,39,359.1"]);
  ("KCRQ", ["4897,150,331,79.1,326,259.1"]);
  ("KCRS", ["3200,75,438,22,448,202"; "4999,75,449,145.1,432,325.1"]);
  ("KCRT", ["5009,75,178,51.6,183,231.6"]);
  ("KCRW", ["6302,150,946,47.1,897,227.1"; "4751,150,934,141.4,981,321.4"]);
  ("KCRX", ["6500,100,403,174,425,354"]);
  ("KCRZ", ["2684,50,1274,181,1248,1"]);
  ("KCSB", ["4099,60,2413,155,2396,335"]);
  ("KCSG", ["6997,150,376,53.8,391,233.8"; "3997,150,397,127,369,307"]);
  ("KCSM", ["5193,75,1906,180.1,1907,0.1"; "13503,150,1922,180.1,1912,0.1"]);
  ("KCSQ", ["1692,100,,45,1299,225"; "4901,75,1289,165,1294,345"]);
  ("KCSV", ["5418,100,1881,73.5,1867,253.5"]);
  ("KCTB", ["5299,75,3850,64,3836,244"; "5300,75,3854,152,3838,332"]);
  ("KCTJ", ["5652,100,1161,164,1110,344"]);
  ("KCTK", ["3295,60,684,89.6,682,269.6"; "3899,75,682,181.2,671,1.2"]);
  ("KCTY", ["5005,75,42,44,39,224"; "5001,100,41,134,40,314"]);
  ("KCTZ", ["4220,75,142,50.9,144,230.9"]);
  ("KCUB", ["5002,75,193,127,179,307"]);
  ("KCUH", ["2860,80,914,28.5,914,208.5"; "2700,55,914,90,914,270"; "2500,75,914,122.4,914,302.4"; "5201,100,916,179.5,879,359.5"]);
  ("KCUL", ["4001,75,388,180.2,383,0.2"]);
  ("KCUT", ["5500,60,,83.9,,263.9"]);
  ("KCVB", ["4600,75,771,161,761,341"]);
  ("KCVG", ["12000,150,883,90,875,270"; "11000,150,875,180,841,360"; "10000,150,886,180,896,360"; "8000,150,866,180.2,873,0.2"]);
  ("KCVK", ["5156,75,668,41,716,221"]);
  ("KCVN", ["6200,150,4194,45.6,4216,225.6"; "2442,75,4192,90.1,4185,270.1"; "5697,150,4216,130.5,4187,310.5"]);
  ("KCVO", ["3335,75,241,111,244,291"; "5900,150,241,187,245,7"]);
  ("KCVS", ["10000,150,4284,45,4295,225"; "8200,150,4294,135,4270,315"]);
  ("KCVX", ["1280,200,649,45.6,,225.6"; "4550,75,669,84.6,643,264.6"]);
  ("KCWA", ["7645,150,1273,77.4,1260,257.4"; "6501,150,1277,170,1232,350"]);
  ("KCWC", ["4450,75,979,180.3,1003,0.3"]);
  ("KCWF", ["10701,200,15,155,17,335"]);
  ("KCWI", ["5204,100,691,30,707,210"; "3700,100,700,144,691,324"]);
  ("KCWS", ["4875,100,315,79,315,259"; "3278,60,306,183.3,315,3.3"]);
  ("KCWV", ["5002,75,112,89,112,269"]);
  ("KCXE", ["3400,50,503,174.6,486,354.6"]);
  ("KCXL", ["4679,75,4,91,7,271"]);
  ("KCXO", ["3974,100,229,17.1,235,197.1"; "6000,150,231,145.5,242,325.5"]);
  ("KCXP", ["5906,75,4697,107,4686,287"]);
  ("KCXU", ["4005,60,167,79,175,259"]);
  ("KCXY", ["5001,150,336,71.1,347,251.1"; "3925,100,334,116.6,344,296.6"]);
  ("KCYO", ["4351,75,664,3,684,183"]);
  ("KCYS", ["9267,150,6144,95.3,6100,275.3"; "6691,150,6151,135.3,6125,315.3"]);
  ("KCYW", ["4199,75,1208,181,1206,1"]);
  ("KCZD", ["4201,75,2502,137.5,2497,317.5"; "3000,300,2499,190.2,2496,10.2"]);
  ("KCZG", ["3900,75,830,23.6,827,203.6"]);
  ("KCZL", ["6000,75,638,168,647,348"]);
  ("KCZT", ["4997,75,599,134,584,314"]);
  ("KD00", ["3103,60,938,154,954,334"]);
  ("KD02", ["3400,50,,180,,360"]);
  ("KD05", ["2900,120,1926,40.6,1932,220.6"; "3700,60,1935,139.9,1906,319.9"]);
  ("KD07", ["4200,60,,144.4,,324.4"]);
  ("KD09", ["2000,150,1665,33,1679,213"; "3701,60,1677,135.1,1660,315.1"]);
  ("KD11", ["3600,125,,44.6,,224.6"]);
  ("KD14", ["3002,60,1128,144,1135,324"]);
  ("KD17", ["4100,40,,51.6,,231.6"; "2000,70,,141.6,,321.6"]);
  ("KD23", ["3220,60,,75,,255"; "2710,80,,129,,309"]);
  ("KD25", ["3299,120,1607,44,1610,224"; "3500,60,1609,141.3,1610,321.3"]);
  ("KD31", ["3000,50,1500,102,1500,282"]);
  ("KD37", ["2606,200,886,51,884,231"; "3205,75,886,131,885,311"]);
  ("KD39", ["2270,140,1244,91,1244,271"; "3300,60,1234,150,1234,330"]);
  ("KD42", ["3400,75,1070,132,1067,312"]);
  ("KD50", ["2700,100,1947,44.2,1939,224.2"; "3800,60,1950,135.1,1944,315.1"]);
  ("KD54", ["3300,50,,180,,360"]);
  ("KD55", ["2400,150,1600,90,1596,270"; "3600,60,1602,140.1,1608,320.1"]);
  ("KD56", ["3200,56,976,180,975,360"]);
  ("KD57", ["3800,60,2091,118,2091,298"]);
  ("KD60", ["3200,120,2255,41,2236,221"; "4501,75,2239,133,2266,313"]);
  ("KD64", ["3000,60,1492,140.1,1492,320.1"]);
  ("KD68", ["8417,75,7050,44,7019,224"; "4589,60,7030,128,7030,308"]);
  ("KD73", ["4112,60,867,31.4,829,211.4"]);
  ("KD74", ["3588,37,,160.9,,340.9"]);
  ("KD83", ["3240,50,350,142,371,322"]);
  ("KD86", ["3012,60,310,144.8,313,324.8"]);
  ("KD95", ["1900,150,832,90,824,270"; "3800,75,834,180,829,360"]);
  ("KD98", ["2092,50,744,87,738,267"; "4795,50,743,153,725,333"; "4000,75,739,178,729,358"]);
  ("KDAA", ["5618,75,50,133,69,313"]);
  ("KDAB", ["10500,150,28,65,32,245"; "3195,100,28,65,32,245"; "6001,150,31,157,32,337"]);
  ("KDAF", ["2700,60,912,179,919,359"]);
  ("KDAG", ["5119,100,1920,50.4,1906,230.4"; "6400,150,1927,90,1906,270"]);
  ("KDAL", ["7752,150,477,135.6,487,315.6"; "8800,150,476,135.6,476,315.6"; "6147,150,480,185.5,482,5.5"]);
  ("KDAN", ["6500,150,535,16.3,563,196.3"; "4020,100,571,125,526,305"]);
  ("KDAW", ["4001,100,300,131.8,322,311.8"]);
  ("KDAY", ["10900,150,998,55.3,996,235.3"; "7001,150,1006,55.4,1001,235.4"; "8502,150,991,178.5,1007,358.5"]);
  ("KDBN", ["6002,150,291,16,304,196"; "5004,150,304,136,293,316"]);
  ("KDBQ", ["6502,100,1077,135,1062,315"; "6327,150,1073,180,1033,360"]);
  ("KDCA", ["6869,150,12,355.5,13,175.5"; "4911,150,13,26,11,206"; "5204,150,15,142.7,11,322.7"]);
  ("KDCM", ["4998,150,643,54.5,622,234.5"; "4982,100,,107,,287"; "5000,100,657,168.1,636,348.1"]);
  ("KDCU", ["6107,100,588,180,583,360"]);
  ("KDCY", ["4621,75,460,180,467,360"]);
  ("KDDC", ["4649,100,2594,32,2562,212"; "6899,100,2583,154,2590,334"]);
  ("KDDH", ["3704,75,794,119,827,299"]);
  ("KDEC", ["8496,150,672,59.1,682,239.1"; "6799,150,679,119,679,299"; "5299,150,678,179.1,672,359.1"]);
  ("KDED", ["4301,75,78,49,68,229"; "3600,200,,83,,263"; "6001,100,74,117,70,297"; "5999,200,,180,,360"]);
  ("KDEH", ["4001,75,1145,114.7,1157,294.7"]);
  ("KDEN", ["12000,150,5347,90.5,5352,270.5"; "12000,150,5351,90.5,5291,270.5"; "12000,150,5347,180.5,5351,0.5"; "16000,200,5319,180.5,5324,0.5"; "12000,150,5325,180.5,5367,0.5"; "12000,150,5374,180.5,5431,0.5"]);
  ("KDEQ", ["5000,75,355,83.1,355,263.1"]);
  ("KDET", ["4025,100,626,68,624,248"; "5090,100,624,143,625,323"]);
  ("KDEW", ["3200,60,2188,61,2183,241"; "6100,75,2210,180,2185,360"]);
  ("KDFI", ["4197,72,708,114.8,699,294.8"]);
  ("KDFW", ["9000,200,550,135.3,508,315.3"; "9301,150,591,139,577,319"; "13401,150,562,180.3,562,0.3"; "8500,150,524,180.3,575,0.3"; "13401,200,567,180.3,563,0.3"; "13400,200,602,180.2,575,0.2"; "13400,150,607,180.3,582,0.3"]);
  ("KDGL", ["5760,75,4153,35.5,4173,215.5"; "4095,100,4148,190.8,4153,10.8"]);
  ("KDGW", ["4760,75,4898,66.8,4911,246.8"; "6532,100,4909,117.8,4932,297.8"]);
  ("KDHN", ["8498,150,401,135,382,315"; "5000,150,395,180,378,360"]);
  ("KDHT", ["5669,75,3983,45,3982,225"; "6400,75,3990,180,3986,360"]);
  ("KDIJ", ["7302,75,6141,48,6229,228"]);
  ("KDIK", ["4700,75,2571,80,2592,260"; "6400,100,2587,150.4,2589,330.4"]);
  ("KDKB", ["7227,100,915,19.5,905,199.5"; "4201,75,911,90,912,270"]);
  ("KDKK", ["5000,100,674,50,665,230"; "4000,100,661,139,693,319"]);
  ("KDKR", ["4000,75,327,21.4,348,201.4"]);
  ("KDKX", ["3497,75,833,75.1,831,255.1"]);
  ("KDLC", ["3000,60,133,63.9,117,243.9"]);
  ("KDLF", ["8857,150,1081,135.4,1067,315.4"; "8311,150,1078,135.4,1063,315.4"; "6246,150,1076,135.4,1076,315.4"]);
  ("KDLH", ["5699,150,1413,31.5,1416,211.5"; "10152,150,1428,92.3,1419,272.3"]);
  ("KDLL", ["4798,100,976,8.8,967,188.8"; "2740,100,976,135,976,315"]);
  ("KDLN", ["3599,60,5217,50,5223,230"; "6500,75,5153,179,5241,359"]);
  ("KDLO", ["5650,75,313,158.6,311,338.6"]);
  ("KDLS", ["4647,100,212,88,243,268"; "5097,100,211,145,239,325"]);
  ("KDLZ", ["5000,100,943,98,945,278"]);
  ("KDMA", ["13643,200,2589,137.5,2704,317.5"]);
  ("KDMN", ["5675,60,4311,51.6,4303,231.6"; "6627,75,4314,89.7,4292,269.7"]);
  ("KDMO", ["3520,50,909,54,888,234"; "5500,100,882,182,902,2"]);
  ("KDMW", ["5100,100,789,148,774,328"]);
  ("KDNL", ["4002,100,373,45,324,225"; "3738,100,422,104,419,284"]);
  ("KDNN", ["5498,100,708,137,691,317"]);
  ("KDNS", ["1780,175,,62.4,,242.4"; "5000,75,1273,124.3,1258,304.3"; "2025,105,,179,,359"]);
  ("KDNV", ["6002,100,651,29.2,696,209.2"; "2500,150,682,120.4,671,300.4"; "3999,100,682,164.3,656,344.3"]);
  ("KDOV", ["9602,200,24,3.2,21,183.2"; "12903,150,19,125.8,25,305.8"]);
  ("KDPA", ["7570,100,751,14,756,194"; "5100,100,758,14,754,194"; "4751,75,753,96,756,276"; "3401,100,757,148,758,328"]);
  ("KDPG", ["7000,150,,134.9,,314.9"; "13125,200,4336,135,4348,315"]);
  ("KDPL", ["6002,75,136,36,137,216"]);
  ("KDQ", ["1673,98"]);
  ("KDQH", ["6005,100,251,37,257,217"]);
  ("KDRA", ["7515,100,3140,34,3314,214"]);
  ("KDRI", ["4500,150,,45.7,,225.7"; "4501,150,192,90,204,270"; "4220,60,194,135,193,315"; "5495,100,201,179.4,197,359.4"]);
  ("KDRM", ["4000,75,657,72.1,657,252.1"; "2500,150,668,172,668,352"]);
  ("KDRO", ["9201,150,6616,37,6685,217"]);
  ("KDRT", ["6300,100,1002,140.2,995,320.2"]);
  ("KDSM", ["9003,150,916,54,935,234"; "9001,150,912,132,958,312"]);
  ("KDSV", ["3365,100,635,128,660,308"; "2443,100,633,169,651,349"]);
  ("KDTA", ["5935,85,4755,132.2,4755,312.2"; "5500,75,4759,180.3,4753,0.3"]);
  ("KDTL", ["4500,75,1396,140,1361,320"; "1880,250,,180,,360"]);
  ("KDTN", ["3200,75,173,55.3,178,235.3"; "5018,150,178,140.3,179,320.3"]);
  ("KDTO", ["7002,150,640,181.1,627,1.1"]);
  ("KDTS", ["4999,100,22,142,21,322"]);
  ("KDTW", ["8501,200,636,29,632,209"; "10001,150,633,29,632,209"; "10000,150,645,28.7,642,208.7"; "12003,200,637,29,636,209"; "8708,200,638,89,635,269"; "8500,150,636,89,629,269"]);
  ("KDUA", ["3900,150,,48,,228"; "3000,75,690,133,674,313"; "5001,100,698,180,689,360"]);
  ("KDUC", ["6650,100,1113,180,1090,360"]);
  ("KDUG", ["7158,150,,44.7,,224.7"; "5000,75,4113,90.2,4145,270.2"; "7503,150,,135.5,,315.5"; "7311,100,4126,179.8,4082,359.8"]);
  ("KDUH", ["5013,50,669,86.9,669,266.9"]);
  ("KDUJ", ["5504,100,1817,62.3,1817,242.3"]);
  ("KDUX", ["5474,75,3705,23.1,3698,203.1"; "3100,60,3698,151.6,3700,331.6"]);
  ("KDVK", ["2357,75,1014,8,1022,188"; "5000,75,1015,122,1016,302"]);
  ("KDVL", ["4313,75,1449,45,1441,225"; "5509,150,1445,138,1443,318"]);
  ("KDVN", ["4001,100,747,29.6,749,209.6"; "5501,100,751,149.6,743,329.6"]);
  ("KDVO", ["3300,75,2,148,1,328"]);
  ("KDVP", ["2773,60,1615,183,1623,3"]);
  ("KDVT", ["4500,75,1455,86,1477,266"; "8208,100,1445,86,1475,266"]);
  ("KDWA", ["6000,100,96,180.3,98,0.3"]);
  ("KDWH", ["3987,35,150,172.8,144,352.8"; "7009,100,152,172.8,145,352.8"; "2530,100"]);
  ("KDWU", ["5602,100,546,94,545,274"]);
  ("KDXE", ["4500,100,305,181.9,297,1.9"]);
  ("KDXR", ["4422,150,457,69.7,454,249.7"; "3135,100,453,153.2,454,333.2"]);
  ("KDXX", ["3019,135,1082,90,1082,270"; "3302,75,1082,140,1077,320"]);
  ("KDYA", ["5000,100,113,43,106,223"]);
  ("KDYB", ["3701,75,45,49.1,54,229.1"]);
  ("KDYL", ["3004,60,391,36.1,393,216.1"]);
  ("KDYR", ["5698,100,296,40.5,333,220.5"; "4000,75,338,161.5,326,341.5"]);
  ("KDYS", ["13500,300,1789,168.8,1787,348.8"; "3500,60,,161,,341"; "3500,60"]);
  ("KDYT", ["5000,1500"; "10000,2000"; "3050,75,605,138.3,607,318.3"]);
  ("KDZB", ["5978,100,1070,181.1,1117,1.1"]);
  ("KDZJ", ["3800,75,1901,71.9,1851,251.9"]);
  ("KE01", ["2922,75,2615,19.7,2608,199.7"; "4268,75,2606,126.8,2610,306.8"]);
  ("KE05", ["4110,60,4080,112.3,4078,292.3"]);
  ("KE06", ["6000,75,3976,45,3967,225"; "4409,60,3979,138,3970,318"]);
  ("KE11", ["2939,75,3166,26,3168,206"; "3048,75,3166,122,3158,302"; "5816,75,3174,165,3168,345"]);
  ("KE13", ["2290,50,,90,2552,270"; "3685,70,,129,2552,309"; "3395,50,,164,2552,344"]);
  ("KE14", ["3100,35,,71.1,5760,251.1"; "5000,75,,167,,347"]);
  ("KE16", ["3100,75,281,156,271,336"]);
  ("KE19", ["4698,60,3205,30.4,3187,210.4"]);
  ("KE24", ["6288,75,,28.3,,208.3"]);
  ("KE25", ["5050,75,2386,60.9,2379,240.9"]);
  ("KE26", ["4704,60,3110,17.5,3110,197.5"; "2604,50,,101.1,,281.1"]);
  ("KE30", ["3906,60,1735,180.3,1737,0.3"]);
  ("KE34", ["4496,60,2833,19.3,2820,199.3"]);
  ("KE35", ["4200,60,3630,89,3679,269"; "2300,35,,175.5,,355.5"]);
  ("KE38", ["6003,75,4515,22.7,4450,202.7"; "5018,60,4510,61.7,4448,241.7"]);
  ("KE41", ["3460,80,2690,98,2692,278"; "4032,50,2705,169,2700,349"]);
  ("KE42", ["5002,75,3086,29,3090,209"]);
  ("KE45", ["3625,50,2892,110.6,2930,290.6"]);
  ("KE48", ["4450,140,,64.4,,244.4"; "4100,75,,111.6,,291.6"; "3800,120,,157.3,,337.3"]);
  ("KE51", ["4575,60,4136,62.4,,242.4"]);
  ("KE52", ["4200,60,3995,178.2,3981,358.2"]);
  ("KE57", ["5780,50,,43.3,,223.3"; "3960,45,,90,,270"]);
  ("KE60", ["3900,75,1513,37.1,1507,217.1"]);
  ("KE63", ["5200,75,,57.3,,237.3"]);
  ("KE67", ["3400,60,,91.5,,271.5"]);
  ("KE77", ["4200,75,,125.5,,305.5"]);
  ("KE78", ["5830,60,2348,51.6,2409,231.6"]);
  ("KE80", ["6601,60,5194,45,5174,225"]);
  ("KE89", ["4790,60,4230,99.4,,279.4"]);
  ("KE91", ["6900,60,,191.2,,11.2"]);
  ("KE95", ["4000,75,,111.1,,291.1"]);
  ("KE98", ["4340,37,4830,185,,5"]);
  ("KEAG", ["2360,115,,18.1,,198.1"; "3500,60,1131,136.4,1129,316.4"]);
  ("KEAN", ["5900,75,4774,89.4,4766,269.4"]);
  ("KEAR", ["4498,75,2129,141.2,2128,321.2"; "7094,150,2129,187.4,2131,7.4"]);
  ("KEAT", ["4460,150,1205,90,1249,270"; "7000,150,1221,135,1232,315"]);
  ("KEAU", ["8101,150,887,45,913,225"; "4999,100,883,139,888,319"]);
  ("KEB", ["1850,50"]);
  ("KEBG", ["3200,150,,145,,325"; "5000,75,75,143.9,73,323.9"]);
  ("KEBS", ["2655,90,,47.6,,227.6"; "4007,75,1104,144.1,1121,324.1"]);
  ("KECG", ["4518,150,10,2.5,8,182.5"; "7219,150,11,92.4,10,272.4"]);
  ("KECP", ["10000"]);
  ("KECS", ["2220,50,4140,59.9,4155,239.9"; "5300,75,4174,143.9,4174,323.9"; "2666,40,4174,180,4174,360"]);
  ("KECU", ["4050,50,2367,145.2,2369,325.2"]);
  ("KEDE", ["6000,100,18,359.9,19,179.9"; "3757,100,17,44.9,17,224.9"]);
  ("KEDG", ["4618,88,30,355.2,16,175.2"]);
  ("KEDJ", ["5000,100,1104,69.3,1123,249.3"]);
  ("KEDN", ["5100,100,345,52,357,232"]);
  ("KEDU", ["3176,50,61,180,68,0"]);
  ("KEDW", ["12000,200,2312,,2289"; "15024,300,2303,58,2282,238"; "8000,50,2289,77.3,2276,257.3"]);
  ("KEED", ["4235,100,929,29.1,844,209.1"; "5005,100,983,119.2,918,299.2"]);
  ("KEEN", ["6201,100,488,3.2,482,183.2"; "4001,150,472,127.2,478,307.2"]);
  ("KEEO", ["6500,60,6348,39.5,6421,219.5"]);
  ("KEET", ["5000,75,573,157,586,337"]);
  ("KEFC", ["4498,60,3167,152.2,3178,332.2"; "3650,120,3189,192.6,3189,12.6"]);
  ("KEFD", ["8001,150,26,43.8,30,223.8"; "4609,75,31,178.8,30,358.8"; "9001,150,31,178.8,27,358.8"]);
  ("KEFK", ["4000,100,922,29.4,926,209.4"; "4000,100,929,159.6,917,339.6"]);
  ("KEFT", ["3000,75,1085,22,1085,202"; "5000,75,1062,122,1062,302"]);
  ("KEFW", ["3200,75,1042,142.8,1042,322.8"; "1715,150,,191,1043,11"]);
  ("KEG", ["2132"]);
  ("KEGE", ["9000,150,6461,81.9,6547,261.9"; "5013,60,,90,,270"]);
  ("KEGI", ["8000,150,190,181,191,1"; "3500,60"]);
  ("KEGQ", ["2545,120,,44.7,,224.7"; "3401,60,1205,136.7,1205,316.7"; "2177,150,,180,,360"]);
  ("KEGT", ["4201,100,1276,179,1271,359"]);
  ("KEGV", ["5000,76,1641,45,1638,225"; "3400,60,1640,132,1639,312"]);
  ("KEHA", ["4900,60,3622,48.4,3594,228.4"; "4900,60,3605,179,3616,359"]);
  ("KEHO", ["5002,100,836,46.8,839,226.8"]);
  ("KEHR", ["5504,100,385,88,386,268"]);
  ("KEIK", ["2250,50,5083,105.4,5130,285.4"; "4700,60,5072,167.3,5116,347.3"]);
  ("KEIW", ["3203,60,294,179.8,295,359.8"]);
  ("KEK", ["3300,75,130,,130"]);
  ("KEKA", ["2028,50,2,78.2,3,258.3"; "3000,75,3,135,7,315"]);
  ("KEKM", ["2500,100,778,75,778,255"; "6500,120,771,89.9,777,269.9"; "4001,75,778,172,772,352"]);
  ("KEKN", ["4501,140,1973,38.8,1947,218.8"; "4543,140,1940,128.8,1970,308.8"]);
  ("KEKO", ["7214,150,5051,69,5064,249"; "2871,60,5140,134,5084,314"]);
  ("KEKQ", ["4000,75,959,35.8,963,215.8"]);
  ("KEKS", ["6600,75,,176.6,,356.6"]);
  ("KEKX", ["6001,100,750,47,775,227"]);
  ("KEKY", ["5700,100,699,50,700,230"]);
  ("KELA", ["3801,60,184,171.3,184,351.3"]);
  ("KELD", ["6600,150,259,45.9,259,225.9"; "5100,100,277,136,243,316"; "3733,75,275,181,258,1"]);
  ("KELK", ["5400,75,2002,180.1,1974,0.1"]);
  ("KELM", ["2017,150,944,50,,230"; "7000,150,940,50,954,230"; "5404,150,934,89,943,269"]);
  ("KELN", ["5590,150,1710,88,1755,268"; "4300,150,1763,133,1747,313"]);
  ("KELO", ["5600,100,1440,119.8,1455,299.8"]);
  ("KELP", ["12020,150,3917,50,3945,230"; "5493,75,3952,88.3,3949,268.3"; "9025,150,3925,93.3,3958,273.3"]);
  ("KELY", ["4814,60,6240,140.7,6259,320.7"; "6018,150,6225,193.8,6259,13.8"]);
  ("KELZ", ["5302,100,2124,90,2100,270"]);
  ("KEMM", ["2850,60,7283,53.9,7281,233.9"; "3250,60,7282,120.5,7277,300.5"; "8200,75,7285,173.7,7271,353.7"]);
  ("KEMP", ["4999,100,1204,12,1193,192"; "3875,298,1200,63.6,1200,243.6"]);
  ("KEMT", ["3995,75,283,25,294,205"]);
  ("KEMV", ["5044,100,127,146.6,112,326.6"]);
  ("KEND", ["4971,150,1293,135,1284,315"; "9202,150,1276,180,1293,360"; "5024,150,1273,180,1284,360"; "9202,150,1275,180,1307,360"]);
  ("KENL", ["3300,60,522,87,520,267"; "5001,75,519,181,534,1"]);
  ("KENV", ["8000,150,4230,90,4226,270"; "8001,100,4237,135,4224,315"]);
  ("KENW", ["5499,100,742,64,713,244"; "3302,75,729,64,706,244"; "4440,100,716,144,716,324"]);
  ("KEOE", ["3498,60,541,36.9,568,216.9"]);
  ("KEOK", ["5500,100,668,85.7,670,265.7"; "3576,100,668,142,666,322"]);
  ("KEOP", ["4900,75,660,62.1,658,242.1"]);
  ("KEOS", ["5001,100,1254,12,1218,192"]);
  ("KEPH", ["5500,75,1261,43,1276,223"; "3467,150,1261,42,1262,222"; "3843,60,1261,128,1257,308"; "6630,150,1268,180,1253,360"]);
  ("KEPM", ["4000,75,35,127,45,307"]);
  ("KEQA", ["4205,75,1376,43,1378,223"; "4200,75,1378,159,1378,339"]);
  ("KEQY", ["5500,75,679,47,662,227"]);
  ("KERI", ["3508,150,731,10.1,727,190.1"; "8420,150,732,54.4,729,234.4"]);
  ("KERR", ["3680,75"]);
  ("KERV", ["4047,60,1576,33,1617,213"; "6000,100,1575,130.5,1589,310.5"]);
  ("KERY", ["2900,150,853,33.6,852,213.6"; "4300,75,869,110.2,852,290.2"]);
  ("KESC", ["6501,150,609,90.9,593,270.9"; "5000,100,604,180.9,592,0.9"]);
  ("KESF", ["5999,150,96,90.9,90,270.9"; "5601,150,112,145,88,325"]);
  ("KESN", ["5500,100,36,30.5,72,210.5"; "4003,100,33,137.6,51,317.6"]);
  ("KEST", ["2985,90,1317,72.8,1314,252.8"; "4797,75,1316,169.6,1317,349.6"]);
  ("KESW", ["2640,100,2221,,2221"]);
  ("KETB", ["3897,75,886,59,874,239"; "4494,75,882,127,868,307"]);
  ("KETC", ["4000,60,53,83.8,45,263.8"]);
  ("KETH", ["1919,175,,60,,240"; "3300,75,1017,164,1022,344"]);
  ("KETN", ["4020,60,1464,181.8,1445,1.8"]);
  ("KEUF", ["5000,100,283,184,277,4"]);
  ("KEUG", ["5228,150,369,47,364,227"; "6000,150,363,179,374,359"; "8009,150,360,179,366,359"]);
  ("KEUL", ["5500,100,2426,135,2431,315"]);
  ("KEVB", ["4000,100,8,17,9,197"; "5000,75,7,62,10,242"; "4299,100,8,107,10,287"]);
  ("KEVM", ["2685,110,,51,,231"; "4215,100,1376,94,1369,274"; "2506,100,1378,139,1369,319"]);
  ("KEVU", ["4000,75,1138,148.3,1144,328.3"]);
  ("KEVV", ["8021,150,382,38,418,218"; "3500,75,382,91,383,271"; "6286,150,396,181,384,1"]);
  ("KEVW", ["7300,100,7131,66.8,7133,246.8"; "7300,100,7163,66.8,7128,246.8"]);
  ("KEVY", ["3600,200,70,98,70,278"; "4487,65,66,165,66,345"]);
  ("KEWB", ["4997,150,66,38.3,78,218.3"; "5000,150,77,128.6,67,308.6"]);
  ("KEWK", ["3501,60,1532,91,1533,271"; "7003,100,1529,180,1525,360"]);
  ("KEWN", ["6004,150,13,30.6,14,210.6"; "4000,150,12,128,18,308"]);
  ("KEWR", ["11000,150,10,26,10,206"; "10000,150,11,26,10,206"; "6800,150,18,95,10,275"]);
  ("KEX", ["1772,98"]);
  ("KEXX", ["5000,100,733,70.5,702,250.5"]);
  ("KEYE", ["4200,75,818,25.4,823,205.5"]);
  ("KEYF", ["5001,75,129,144.2,122,324.2"]);
  ("KEYQ", ["3455,40,137,90.2,134,270.2"; "2000,33,,164,,344"]);
  ("KEYW", ["4801,100,3,89,3,269"]);
  ("KEZF", ["2910,100,83,45.4,85,225.4"; "1300,150,,144.6,,324.6"]);
  ("KEZI", ["3200,60,855,11.4,837,191.4"; "4500,75,854,91.1,856,271.1"]);
  ("KEZM", ["6506,100,295,15,298,195"]);
  ("KEZS", ["3900,75,811,112.5,811,292.5"; "2225,60,809,165,813,345"; "12000,1000"]);
  ("KEZZ", ["4000,75,1036,174.6,1036,354.6"]);
  ("KF00", ["4000,75,618,179.2,612,359.2"]);
  ("KF01", ["2268,70,1602,64.3,1594,244.3"; "2340,120,1602,118,1599,298"; "4445,60,1601,180,1590,360"]);
  ("KF02", ["3542,60,,59,,239"]);
  ("KF05", ["5099,100,1264,31.9,1255,211.9"; "4304,80,1258,165.7,1259,345.7"]);
  ("KF06", ["1010,135,,47,,227"; "4035,60,2008,135,,315"; "1700,175,,180,,360"]);
  ("KF08", ["3000,40,,180,,360"]);
  ("KF10", ["3501,50,830,181,849,1"]);
  ("KF14", ["3050,100,984,49.4,984,229.4"; "3320,40,1004,141,982,321"; "2000,42,983,172.9,995,352.9"]);
  ("KF17", ["2400,40,,143,,323"; "5501,75,319,170.5,291,350.5"]);
  ("KF21", ["2750,70,,90,,270"; "4670,75,2102,181,2070,1"]);
  ("KF22", ["5200,150,,45,,225"; "5200,150,,135.6,,315.6"; "5098,75,973,180,1000,360"]);
  ("KF24", ["5001,75,278,16.6,262,196.6"]);
  ("KF29", ["3503,75,1343,180,1339,360"; "6014,100,1350,180,1342,360"]);
  ("KF30", ["3500,60,,175,,355"]);
  ("KF31", ["3000,50,,185.3,,5.3"]);
  ("KF32", ["3000,50,,180,,360"]);
  ("KF34", ["3102,60,157,139.8,157,319.8"]);
  ("KF35", ["3202,60,1008,30.5,1008,210.5"]);
  ("KF36", ["1861,100,,39,,219"; "3650,60,,180,,360"]);
  ("KF37", ["4900,75,5348,68.5,5355,248.5"; "2500,90,5339,179.3,5371,359.3"]);
  ("KF41", ["3999,50,500,161.5,477,341.5"]);
  ("KF43", ["3000,60,,180,,360"]);
  ("KF44", ["3988,60,438,180,437,360"]);
  ("KF45", ["3700,75,23,82,23,262"; "4300,100,21,85,21,265"; "4300,75,21,135,21,315"]);
  ("KF46", ["3373,45,559,172.5,563,352.5"]);
  ("KF47", ["3500,65,,140,,320"]);
  ("KF48", ["3200,50,905,145,897,325"]);
  ("KF49", ["4245,75,,189,,9"]);
  ("KF51", ["3213,50,493,18,513,198"]);
  ("KF53", ["3900,60,394,136.5,411,316.5"]);
  ("KF56", ["2140,100,,90,,270"; "1700,80,,133,,313"; "3705,60,1561,180,1554,360"]);
  ("KF62", ["4115,60,2304,85.7,2321,265.8"]);
  ("KF68", ["3100,50,,182,,2"]);
  ("KF69", ["3080,30,695,166,,346"]);
  ("KF70", ["6000,75,1340,192.4,1340,12.4"]);
  ("KF72", ["3100,60,16,105,19,285"; "3240,60,21,195.5,17,15.5"]);
  ("KF75", ["3200,50,1500,16.5,1490,196.5"]);
  ("KF82", ["1500,110,,82,,262"; "3500,50,,180,,360"]);
  ("KF83", ["3235,75,,42,,222"; "4000,75,3327,180,,360"]);
  ("KF84", ["3612,60,598,180,598,360"]);
  ("KF85", ["2710,60,,45,,225"; "1775,39,3746,180,,360"]);
  ("KF86", ["3500,75,,9.9,,189.9"]);
  ("KF87", ["2997,70,,163.6,,343.6"]);
  ("KF88", ["3203,75,249,179.2,256,359.2"]);
  ("KF89", ["3000,75,,180,,360"]);
  ("KF97", ["4010,70,,44.8,,224.8"; "2445,37,,180,,360"]);
  ("KF98", ["5001,75,3676,40.3,3704,220.3"; "3925,60,3687,180.5,3678,0.5"]);
  ("KF99", ["3200,100,,135,,315"; "3250,100,862,180,857,360"]);
  ("KFAF", ["3020,75,10,128,9,308"]);
  ("KFAM", ["4221,75,910,24,945,204"]);
  ("KFAR", ["6300,100,896,90,897,270"; "3800,150,901,137,899,317"; "9000,150,900,180,899,360"]);
  ("KFAT", ["9217,150,333,125.4,333,305.4"; "7205,100,331,125,330,305"]);
  ("KFAY", ["7712,150,184,31.2,158,211.2"; "4801,150,183,91,184,271"]);
  ("KFBG", ["4650,100,242,85.9,225,265.9"]);
  ("KFBL", ["4254,72,1057,127,1048,307"]);
  ("KFBR", ["6402,80,7034,54.4,7002,234.4"; "4042,50,7016,78.4,7000,258.4"]);
  ("KFBY", ["2455,150,1465,119.7,1450,299.7"; "3700,75,1479,180.4,1464,0.4"]);
  ("KFCH", ["3630,75,278,125,279,305"; "3006,75,277,125.8,277,305.8"; "3202,75,276,125.8,277,305.8"]);
  ("KFCI", ["5500,100,237,141,199,321"]);
  ("KFCM", ["3599,75,905,101,899,281"; "3909,75,905,101,898,281"; "2691,75,899,186,905,6"]);
  ("KFCS", ["4573,75,5838,137.2,5823,317.2"]);
  ("KFCT", ["2000,50,,65,,245"]);
  ("KFCY", ["3014,50,249,181.4,242,1.4"]);
  ("KFDK", ["5220,100,303,40,282,220"; "3600,75,294,116,281,296"]);
  ("KFDR", ["4800,60,1233,44,1251,224"; "4319,150,,90,,270"; "4550,75,1250,135,1242,315"; "6099,150,1254,180,1236,0"; "3180,50,1251,180,1233,360"; "6000,150,1253,180,1235,360"]);
  ("KFDW", ["5004,100,577,38.1,561,218.1"]);
  ("KFDY", ["5883,100,795,68.7,810,248.7"; "6500,100,805,180.3,804,0.3"]);
  ("KFEP", ["5504,100,859,53,841,233"; "2285,150,835,126,841,306"; "2496,150,834,179.2,845,359.2"]);
  ("KFES", ["2202,49,432,187.6,430,7.6"]);
  ("KFET", ["2444,50,1202,11,1201,191"; "5500,100,1203,141,1203,321"]);
  ("KFFA", ["3000,60,13,24,9,204"]);
  ("KFFC", ["5219,100,808,128,808,308"]);
  ("KFFL", ["2450,165,791,86,791,266"; "4001,75,799,179.6,791,359.6"]);
  ("KFFM", ["5639,100,1181,133.3,1175,313.3"; "3301,75,1182,179.2,1157,359.2"]);
  ("KFFO", ["12601,300,805,48.9,823,228.9"; "7000,150,808,48.9,818,228.9"]);
  ("KFFT", ["5005,100,803,64,785,244"]);
  ("KFFX", ["3502,75,767,91,770,271"; "6500,100,770,179,754,359"]);
  ("KFFZ", ["3799,75,1366,51.2,1386,231.2"; "5101,100,1365,51.2,1394,231.2"]);
  ("KFGX", ["5001,75,905,67,910,247"]);
  ("KFHR", ["3402,75,113,177,84,357"]);
  ("KFHU", ["4285,75,4648,36.7,4585,216.7"; "12001,150,4719,89.9,4599,269.9"; "5366,100,4612,126.7,4615,306.7"]);
  ("KFIG", ["4500,75,1516,109,1516,289"]);
  ("KFIT", ["3504,75,331,8,342,188"; "4510,100,340,129,329,309"]);
  ("KFKA", ["4000,75,1276,108,1276,288"]);
  ("KFKL", ["5200,150,1527,17,1533,197"; "3698,100,1530,106,1532,286"]);
  ("KFKN", ["4977,100,35,80.8,41,260.8"; "4098,100,34,138.2,31,318.3"]);
  ("KFKR", ["2527,70,857,34.2,857,214.2"; "5000,75,857,90,861,270"]);
  ("KFKS", ["4050,75,623,139.3,606,319.3"]);
  ("KFLD", ["3602,75,808,92,788,272"; "5941,100,783,180,794,360"]);
  ("KFLG", ["6999,150,7011,41,6995,221.1"]);
  ("KFLL", ["9000,150,6,90,5,270"; "8000,150,10,90,65,270"; "6930,150,6,135,6,315"]);
  ("KFLO", ["5999,150,112,1.5,143,181.5"; "6499,150,146,83.6,121,263.6"]);
  ("KFLP", ["5000,75,669,51,719,231"]);
  ("KFLV", ["5905,100,772,159,767,339"]);
  ("KFLX", ["5703,75,3963,48.5,3961,228.5"; "4207,100,3959,146,3959,326"]);
  ("KFME", ["3000,75,115,93.9,150,273.9"]);
  ("KFMH", ["8000,200,112,37.9,125,217.9"; "9500,200,130,126.6,111,306.6"]);
  ("KFMM", ["2467,100,4513,89.9,4510,269.9"; "5219,60,4568,151.6,4567,331.6"; "3800,30,4567,181.2,4503,1.2"]);
  ("KFMN", ["6500,150,5472,64.7,5504,244.7"; "6704,100,5480,88.3,5503,268.3"]);
  ("KFMY", ["6406,150,14,48,17,228"; "4912,150,15,130,15,310"]);
  ("KFMZ", ["3011,60,1636,135,1633,315"; "4316,75,1635,179.8,1634,359.8"]);
  ("KFNB", ["3999,60,983,148.9,979,328.9"]);
  ("KFNL", ["2273,40,4990,70.6,4987,250.6"; "8500,100,4973,160.4,5016,340.4"]);
  ("KFNT", ["7201,150,764,88,763,268"; "7849,150,765,179,779,359"]);
  ("KFOA", ["5003,75,473,29.7,467,209.7"; "2700,100,473,147,473,327"]);
  ("KFOD", ["6548,150,1079,65,1157,245"; "5300,100,1112,127,1142,307"]);
  ("KFOE", ["7000,150,1078,39.8,1043,219.8"; "12802,200,1063,137,1036,317"]);
  ("KFOK", ["5000,150,48,357.5,65,177.5"; "9000,150,49,42.4,66,222.4"; "5000,150,63,132.6,49,312.6"]);
  ("KFOM", ["5050,75,,53.3,4988,233.3"]);
  ("KFOT", ["4005,100,340,127,392,307"]);
  ("KFOZ", ["3100,75,1348,151,1348,331"]);
  ("KFPK", ["3500,75,880,20.6,891,200.6"; "2318,100,,140,,320"]);
  ("KFPR", ["6492,150,23,90,21,270"; "4756,100,23,135,23,315"]);
  ("KFQD", ["5000,100,1072,15,1078,195"]);
  ("KFRG", ["5516,150,63,359.2,79,179.2"; "6827,150,78,132.3,63,312.3"]);
  ("KFRH", ["5500,100,791,75.9,784,255.9"]);
  ("KFRI", ["4500,150,1065,50,1065,230"; "4500,150,,185.1,,5.1"]);
  ("KFRM", ["3300,75,1159,28,1158,208"; "5505,100,1158,134.2,1160,314.2"]);
  ("KFRR", ["3007,75,694,87,704,267"]);
  ("KFSD", ["8999,150,1423,34.9,1429,214.9"; "3152,75,1422,103.2,1421,283.2"; "8000,150,1426,155,1422,335"]);
  ("KFSE", ["3501,75,1265,168,1277,348"]);
  ("KFSI", ["5000,200,1188,179.8,1188,359.8"]);
  ("KFSK", ["4403,75,903,179.9,918,359.9"]);
  ("KFSM", ["5002,150,449,21,447,201"; "8000,150,469,81.2,444,261.2"]);
  ("KFSO", ["3000,60,228,354,228,174"]);
  ("KFST", ["4399,60,3007,37,2957,217"; "5200,150,2995,81,2965,261"; "3900,100,2995,128,3005,308"; "7507,100,2985,127,3010,307"; "3981,150,2964,171,3004,351"]);
  ("KFSU", ["5800,75,4165,45.4,4165,225.4"; "5300,60,4165,90,4165,270"]);
  ("KFSW", ["4002,75,712,166.9,714,346.9"]);
  ("KFTG", ["8000,100,5450,91.2,5485,271.2"; "8000,100,5472,180,5512,360"; "4000,60,5446,179.9,5455,359.9"]);
  ("KFTK", ["1900,90,724,46,743,226"; "4999,150,738,96.6,728,276.6"; "5253,75,754,148.3,754,328.3"; "5185,150,754,176.6,754,356.6"]);
  ("KFTT", ["3203,47,879,57,881,237"; "2487,100,880,122.4,868,302.4"; "4000,75,877,181.9,877,1.9"]);
  ("KFTW", ["3677,100,710,99.8,710,279.8"; "7501,150,710,171.9,674,351.9"; "4006,75,668,171.9,667,351.9"]);
  ("KFTY", ["5796,100,800,79.7,814,259.7"; "2801,60,802,80,810,260"; "4157,100,799,138.9,838,318.9"]);
  ("KFUL", ["3121,75,85,77,95,257"]);
  ("KFVE", ["4600,75,976,116.2,988,296.2"]);
  ("KFVX", ["4400,75,410,20.2,406,200.2"]);
  ("KFWA", ["12000,150,815,44.3,797,224.3"; "4001,75,798,90.1,793,270.1"; "8001,150,802,134.7,796,314.7"]);
  ("KFWC", ["4000,75,436,90,413,270"; "1999,60,417,181,414,1"]);
  ("KFWN", ["3499,75,415,15.9,405,195.9"]);
  ("KFWQ", ["4001,75,1228,67,1223,247"]);
  ("KFWS", ["4000,60,694,180,695,360"; "6002,100,700,180.1,689,0.1"]);
  ("KFXE", ["6001,100,12,84,12,264"; "4000,100,12,129,12,309"]);
  ("KFXY", ["2708,60,1229,94.7,1203,274.7"; "5806,100,1207,154.8,1203,334.8"]);
  ("KFYE", ["5000,75,436,7.8,423,187.8"]);
  ("KFYJ", ["5000,75,12,86,20,266"]);
  ("KFYM", ["5900,100,960,13.8,983,193.8"]);
  ("KFYV", ["6006,100,1250,169,1237,349"]);
  ("KFZG", ["5002,100,356,12,364,192"; "3400,300,365,141,332,321"]);
  ("KFZI", ["4198,100,751,89.9,751,269.9"]);
  ("KFZY", ["3996,100,457,46.8,469,226.8"; "5197,100,447,137,475,317"]);
  ("KG-0001", ["5708,115"]);
  ("KG-0002", ["7037,131"]);
  ("KG-0004", ["5577,115"]);
  ("KG-0006", ["2788,574"]);
  ("KG-0007", [""]);
  ("KG-0014", ["5708,115"]);
  ("KG-0018", ["5249,115"]);
  ("KGAD", ["6802,150,569,61,549,241"; "4806,150,542,180,552,360"]);
  ("KGAF", ["4300,150,,90,,270"; "3899,75,820,180,820,360"]);
  ("KGAG", ["5415,100,2162,180,2222,360"]);
  ("KGAI", ["4202,75,493,127.4,539,307.4"]);
  ("KGAO", ["3800,75,,180.6,,0.6"]);
  ("KGAS", ["3998,75,562,47.9,563,227.9"]);
  ("KGBD", ["4698,75,1887,120,1883,300"; "7850,100,1881,180,1883,360"]);
  ("KGBG", ["5793,150,754,28.1,764,208.1"; "3601,100,758,101,758,281"]);
  ("KGBN", ["5200,150,838,60.7,830,240.7"; "5200,150,835,120.3,855,300.3"; "8500,150,825,181.2,858,1.2"]);
  ("KGBR", ["2579,50,739,96.5,734,276.5"]);
  ("KGCC", ["5803,75,4343,38.3,4317,218.3"; "7500,150,4337,169.7,4365,349.7"]);
  ("KGCD", ["4471,60,3648,110,3695,290"; "5220,60,3675,182,3703,2"]);
  ("KGCK", ["5700,100,2890,135.4,2876,315.4"; "7300,100,2888,180.4,2875,0.4"]);
  ("KGCM", ["5200,75,697,180.1,733,0.1"]);
  ("KGCN", ["8999,150,6533,40.6,6609,220.6"]);
  ("KGCT", ["3400,60,1221,180,1219,360"]);
  ("KGCY", ["6302,100,1564,47.4,1604,227.4"]);
  ("KGDB", ["3700,75,1047,157.1,1038,337.1"]);
  ("KGDJ", ["3603,60,772,149.7,777,329.7"]);
  ("KGDM", ["2999,75,955,164.9,924,344.9"]);
  ("KGDV", ["3000,60,2454,36,2452,216"; "5704,100,2456,136,2452,316"]);
  ("KGDW", ["4700,75,770,87.7,772,267.7"; "2500,150,776,162,776,342"]);
  ("KGED", ["5000,150,49,32.8,49,212.8"; "3109,75,49,90,53,270"]);
  ("KGEG", ["11002,150,2385,45,2322,225"; "8198,150,2376,90,2372,270"]);
  ("KGEO", ["3530,65,956,170,953,350"]);
  ("KGEU", ["7099,100,1043,26.1,1065,206.1"]);
  ("KGEV", ["4293,75,3180,88.9,3102,268.9"]);
  ("KGEY", ["3699,75,3933,87,3916,267"; "6302,100,3904,169,3913,349"]);
  ("KGEZ", ["5000,100,802,6.4,803,186.4"; "2670,190,804,92.2,800,272.2"]);
  ("KGFA", ["100,100"; "100,100"]);
  ("KGFK", ["4206,100,841,90,843,270"; "3300,60,841,90,843,270"; "3900,75,842,180.1,843,0.1"; "7349,150,843,180,845,360"]);
  ("KGFL", ["5000,150,321,358.4,327,178.4"; "4000,100,328,110.5,324,290.5"]);
  ("KGFZ", ["3400,60,1361,74.1,1361,254.1"; "2500,50,1356,142,1361,322"]);
  ("KGGE", ["5001,100,39,41.4,34,221.4"; "4539,150,37,101.4,23,281.4"; "4986,150,,159.7,,339.7"]);
  ("KGGF", ["4800,60,3419,150,3422,330"]);
  ("KGGG", ["10000,150,357,133.8,354,313.8"; "6109,150,354,179,365,359"]);
  ("KGGI", ["5200,75,990,135,1008,315"]);
  ("KGGP", ["4480,75,736,89,738,269"]);
  ("KGGW", ["5000,75,2282,90,2293,270"; "5001,100,2288,134,2282,314"]);
  ("KGHG", ["3001,75,3,46,9,226"]);
  ("KGHM", ["4002,75,764,18.1,768,198.1"]);
  ("KGHW", ["2801,209,1380,58,1393,238"; "4500,75,1390,161,1393,341"]);
  ("KGIF", ["5006,100,142,45,141,225"; "4001,100,143,103,141,283"]);
  ("KGJT", ["5502,75,4784,54.4,4857,234.4"; "10501,150,4820,125.2,4858,305.2"]);
  ("KGKJ", ["5002,75,1393,61.1,1397,241.2"]);
  ("KGKT", ["5506,75,1014,98.8,1003,278.8"]);
  ("KGKY", ["6080,100,628,168,597,348"]);
  ("KGLD", ["3501,75,3656,63.1,3637,243.1"; "5499,100,3644,134.4,3652,314.4"; "1800,40,,180,,360"]);
  ("KGLE", ["4691,150,793,49,812,229"; "3920,150,794,91.1,792,271.1"; "4296,80,826,132.7,792,312.7"; "6000,100,845,181.1,792,1.1"]);
  ("KGLH", ["8001,150,129,180,129,360"; "7019,150,128,180,130,360"]);
  ("KGLR", ["6578,150,1319,90.1,1328,270.1"; "3000,75,1321,173.8,1317,353.8"]);
  ("KGLS", ["3774,150,7,76.3,7,256.3"; "6000,150,5,140.1,5,320.1"; "6001,150,6,180.9,5,0.9"]);
  ("KGLW", ["5301,100,705,71.4,715,251.4"]);
  ("KGLY", ["4001,60,819,44.9,822,224.9"]);
  ("KGMJ", ["5250,75,821,179.9,827,359.9"]);
  ("KGMU", ["5393,100,988,4.7,1048,184.7"; "3998,80,993,91.7,1013,271.7"]);
  ("KGNB", ["5095,70,8162,100.8,8203,280.8"]);
  ("KGNC", ["5376,75,3313,89.7,3283,269.7"; "4998,75,3284,179.4,3265,359.4"]);
  ("KGNF", ["5000,100,193,52,201,232"; "7000,150,208,132,197,312"]);
  ("KGNG", ["4736,75,3661,84,3728,264"]);
  ("KGNT", ["2350,40,6520,91.8,6510,271.8"; "7172,75,6537,145,6515,325"]);
  ("KGNV", ["4158,100,152,61,130,241"; "7504,150,147,102,105,282"]);
  ("KGOK", ["4102,75,1056,164.9,1064,345"]);
  ("KGON", ["5000,150,5,34,6,214"; "4000,100,9,135,6,315"]);
  ("KGOO", ["4350,75,3070,87.3,3150,267.3"]);
  ("KGOP", ["3400,60"]);
  ("KGOV", ["5000,150,1151,46,1158,226"; "5000,150,1153,136.2,1150,316.2"]);
  ("KGPH", ["5504,100,777,187,775,7"]);
  ("KGPI", ["9007,150,2962,35,2976,215"; "3043,150,,90,,270"; "3504,75,2973,136,2970,316"]);
  ("KGPM", ["4001,75,589,180.3,589,0.3"]);
  ("KGPT", ["7000,150,,40,,220"; "9002,150,20,135,22,315"; "4935,150,24,180,26,360"]);
  ("KGPZ", ["3000,60,1302,47,1294,227"; "1450,150,,104.4,,284.4"; "5755,100,1299,165.7,1355,345.7"]);
  ("KGQQ", ["3505,75,1224,47.4,1218,227.4"]);
  ("KGRB", ["7700,150,692,59.9,682,239.9"; "3198,75,,118.3,,298.3"; "8201,150,695,179.9,682,359.9"]);
  ("KGRD", ["5003,100,629,85.2,620,265.2"]);
  ("KGRE", ["3200,250,541,90,541,270"; "4002,75,540,180,531,360"]);
  ("KGRF", ["6125,150,290,167,301,347"]);
  ("KGRI", ["6608,100,1842,135.3,1842,315.3"; "7002,150,1844,180.3,1847,0.3"]);
  ("KGRK", ["10000,200,1019,157.3,970,337.3"]);
  ("KGRN", ["5196,75,3544,48.6,3562,228.6"; "2284,50,3549,122.8,3542,302.8"]);
  ("KGRR", ["5000,100,786,81.3,784,261.3"; "10000,150,792,81.3,790,261.3"; "8501,150,782,171.3,789,351.3"]);
  ("KGSB", ["11758,300,72,73.1,109,253.1"]);
  ("KGSH", ["2585,180,815,44.3,823,224.3"; "5000,75,819,89.3,827,269.3"]);
  ("KGSO", ["9000,150,916,46,856,226"; "10001,150,900,46,886,226"; "6380,150,926,135.1,900,315.1"]);
  ("KGSP", ["11000,150,964,32.2,964,212.2"]);
  ("KGTB", ["10000,150,688,16,663,196"; "4482,150,678,70.4,688,250.4"; "4999,150,666,133.8,690,313.8"]);
  ("KGTE", ["2599,50,2556,38.3,2559,218.3"; "3300,250,2555,148.6,2555,328.6"]);
  ("KGTF", ["10502,150,3677,45,3659,225"; "4294,75,3652,90,3668,270"; "6357,150,3645,180,3669,360"]);
  ("KGTG", ["3315,120,927,55.9,927,235.9"; "3000,60,924,120.8,924,300.8"]);
  ("KGTR", ["8002,150,260,180,256,360"]);
  ("KGTU", ["4100,75,789,120.6,759,300.6"; "5000,100,785,183.6,747,3.6"]);
  ("KGUC", ["9400,150,7658,73.5,7680,253.5"; "3000,150,7660,180,7673,360"]);
  ("KGUP", ["7316,100,6465,73.9,6472,253.9"]);
  ("KGUS", ["12501,200,810,44.4,800,224.4"]);
  ("KGUY", ["1795,200,,68.5,,248.5"; "5900,100,3101,186.1,3107,6.1"]);
  ("KGVL", ["5500,100,1275,41,1238,221"; "4001,100,1274,108,1260,288"]);
  ("KGVQ", ["5500,100,912,91,911,271"]);
  ("KGVT", ["5000,150,,135,,315"; "8030,150,520,181,524,1"]);
  ("KGW", ["1467,98"]);
  ("KGWB", ["5000,100,870,89,879,269"]);
  ("KGWO", ["5005,150,141,52,154,232"; "2689,60,152,87,162,267"; "6503,150,145,181,139,1"]);
  ("KGWR", ["3000,100,1266,62,1251,242"; "5000,60,1254,164,1254,344"]);
  ("KGWS", ["3305,50,5916,152.7,5906,332.7"]);
  ("KGWW", ["5500,100,133,43.3,134,223.3"]);
  ("KGX", ["2315,60"]);
  ("KGXY", ["5801,100,4661,105.4,4645,285.4"; "10000,100,4697,177.8,4653,357.8"; "3599,75,4652,181.1,4639,1.1"]);
  ("KGYB", ["4000,75,483,174.3,438,354.3"]);
  ("KGYH", ["8000,150,955,39.8,918,219.9"]);
  ("KGYI", ["2300,150,730,142.9,742,322.9"; "9000,150,741,181.8,749,1.8"; "8000,150,,181.8,,1.8"]);
  ("KGYL", ["3300,75,992,131,990,311"]);
  ("KGYR", ["8500,150,968,38,968,218"]);
  ("KGYY", ["3603,100,589,21.2,589,201.2"; "7003,150,591,124.1,591,304.1"]);
  ("KGZ", ["1400,15"]);
  ("KGZH", ["4000,150,250,5,257,185"; "4000,150,258,100,243,280"]);
  ("KGZS", ["5001,75,685,153,644,333"]);
  ("KH04", ["3265,60,,180,,360"]);
  ("KH05", ["3000,50,,180,,360"]);
  ("KH17", ["3215,50,,29.2,,209.2"]);
  ("KH19", ["3204,50,,134,,314"]);
  ("KH21", ["4000,75,1050,155,1062,335"]);
  ("KH34", ["1250,60,,36,,216"; "3646,60,1744,126,1744,306"]);
  ("KH35", ["4508,75,449,93.1,481,273.1"]);
  ("KH37", ["3260,40,4040,77.4,4050,257.4"]);
  ("KH58", ["2800,45,,12,,192"; "1725,25,,153.4,,333.4"]);
  ("KH68", ["3405,60,,180,,360"]);
  ("KH70", ["3023,32,3668,53.9,3652,233.9"; "1300,50,3652,180,3656,360"]);
  ("KH71", ["5000,75,621,180,602,360"]);
  ("KH76", ["3200,60,,177.2,,357.2"]);
  ("KH79", ["3300,75,,178.5,,358.5"]);
  ("KH88", ["4000,75,875,14.5,875,194.5"]);
  ("KH92", ["3210,60,819,180,,360"]);
  ("KH96", ["4000,75,443,179,444,359"]);
  ("KHAB", ["5500,100,441,182,408,2"]);
  ("KHAE", ["4400,100,771,170,766,350"]);
  ("KHAF", ["5000,150,59,137,36,317"]);
  ("KHAI", ["2729,60,822,45,821,225"; "4000,75,820,90,822,270"]);
  ("KHAO", ["5500,100,632,110,619,290"]);
  ("KHAX", ["3800,50"]);
  ("KHBC", ["3121,60,1645,140,1647,320"]);
  ("KHBG", ["6099,150,149,131,142,311"]);
  ("KHBI", ["5501,100,669,22,673,202"]);
  ("KHBR", ["5293,150,1564,45.1,1543,225.1"; "5293,150,1539,135.4,1540,315.4"; "5507,100,1541,180.2,1561,0.2"]);
  ("KHBV", ["4999,75,660,134.2,662,314.2"]);
  ("KHBW", ["3081,48,,50.9,,230.9"]);
  ("KHBZ", ["4002,75,620,59.4,632,239.4"]);
  ("KHCD", ["4000,75,1055,152,1060,332"]);
  ("KHCO", ["4007,75,817,140,819,320"]);
  ("KHDC", ["6502,100,43,136,40,316"; "5001,150,44,179.5,41,359.5"]);
  ("KHDE", ["1769,300,2306,126,2310,306"; "4701,75,2306,189.6,2308,9.6"]);
  ("KHDI", ["3300,75,828,26,874,206"]);
  ("KHDN", ["10000,150,6580,113.7,6602,293.7"]);
  ("KHDO", ["5400,150,920,45,926,225"; "6059,150,930,89.9,922,269.9"; "6045,150,927,135,911,315"; "6024,150,927,180,910,360"; "3224,140,928,180,917,360"]);
  ("KHEE", ["3009,60,237,90.1,242,270.1"; "5000,96,240,180.4,237,0.4"]);
  ("KHEF", ["5700,100,192,150.6,177,330.6"; "3702,100,185,150.6,175,330.6"]);
  ("KHEG", ["4000,150,77,20,85,200"; "4000,100,87,65,87,245"; "3500,100,87,110,87,290"; "4000,150,86,155,79,335"]);
  ("KHEI", ["4652,75,2704,135,2698,315"; "1890,100,,179.4,,359.4"]);
  ("KHEQ", ["5000,75,3730,148.7,3724,328.7"]);
  ("KHEZ", ["6500,150,262,136,269,316"; "5000,150,270,181,261,1"]);
  ("KHFD", ["4417,150,12,9,18,189"; "2314,71,14,99,12,279"; "2309,150"]);
  ("KHFF", ["5001,150,376,35.1,376,215.1"; "4740,150,376,109.4,376,289.4"; "4916,150,,163.1,,343.1"]);
  ("KHFJ", ["5000,75,1313,179.2,1298,359.2"]);
  ("KHFY", ["4300,75,821,7.7,820,187.7"]);
  ("KHGR", ["3160,100,690,14.9,703,194.9"; "5461,150,659,80.5,702,260.5"]);
  ("KHHF", ["5000,75,2386,44,2376,224"; "3000,30,2366,185,2394,5"]);
  ("KHHG", ["5001,75,804,92,805,272"]);
  ("KHHR", ["4956,100,64,86.7,61,266.7"]);
  ("KHHW", ["3400,75,568,179.9,571,359.9"]);
  ("KHIB", ["3075,75,1348,49,1350,229"; "6758,150,1353,132,1337,312"]);
  ("KHIE", ["4001,75,1048,87.1,1072,267.1"]);
  ("KHIF", ["13508,200,4783,152.9,4780,332.9"]);
  ("KHIG", ["4400,75,840,165,796,345"]);
  ("KHII", ["8001,100,746,149.8,783,329.8"]);
  ("KHIO", ["4049,100,201,40,204,220"; "3600,60,,144,,324"; "6600,150,196,144,194,324"]);
  ("KHJH", ["2532,150,1468,41.6,1452,221.6"; "3600,60,1462,128.5,1466,308.5"]);
  ("KHJO", ["5175,75,244,152,242,332"]);
  ("KHKA", ["5001,75,255,178.9,254,358.9"]);
  ("KHKS", ["4822,150,311,115,322,295"; "5387,150,342,159,306,339"]);
  ("KHKY", ["4400,150,1143,8.1,1167,188.1"; "6400,150,1136,55,1189,235"]);
  ("KHLB", ["4948,100,975,179.9,974,359.9"]);
  ("KHLC", ["5000,75,2238,181,2188,1"]);
  ("KHLG", ["5001,150,1171,26,1195,206"; "4499,150,1172,151,1191,331"]);
  ("KHLM", ["2999,50,603,50,602,230"; "2244,90,,113,,293"]);
  ("KHLN", ["4644,75,3877,66,3820,246"; "9000,150,3864,103,3845,283"; "2989,75,3811,179.3,3862,359.3"]);
  ("KHLR", ["3803,144,916,163.5,880,343.5"]);
  ("KHLX", ["4204,75,2693,10,2642,190"]);
  ("KHMN", ["10575,300,4056,47.8,4084,227.8"; "12800,150,4051,79.5,4093,259.5"; "12131,150,4083,167.8,4049,347.8"]);
  ("KHMT", ["2045,25,1506,63.8,1510,243.8"; "4314,100,1499,62.8,1508,242.8"]);
  ("KHMY", ["2005,75,1092,175.8,1090,355.8"]);
  ("KHMZ", ["5005,75,1156,127.6,1161,307.6"]);
  ("KHNB", ["5000,75,513,91,528,271"]);
  ("KHND", ["5001,75,2406,180,2475,360"; "6501,100,2402,180.7,2492,0.7"]);
  ("KHNR", ["1700,120,,37.4,,217.4"; "4100,75,1231,156.3,1194,336.3"]);
  ("KHNZ", ["5003,100,525,51.2,507,231.2"]);
  ("KHOB", ["7398,150,3652,45.1,3646,225.1"; "6002,150,3661,135.1,3638,315.1"; "4998,100,3661,180.1,3650,0.1"]);
  ("KHOC", ["3520,75,977,49,931,229"]);
  ("KHOE", ["4000,75,185,135,182,315"]);
  ("KHON", ["7201,100,1288,128.1,1283,308.1"; "5000,75,1282,179.6,1284,359.6"]);
  ("KHOP", ["11800,200,573,44.2,573,224.2"; "4500,150,563,179.1,557,359.1"]);
  ("KHOT", ["6595,150,501,54.1,536,234.2"; "4099,150,520,134.4,505,314.4"]);
  ("KHOU", ["7602,150,42,44,39,224"; "5148,100,45,133.9,40,313.9"; "7602,150,46,133.9,42,313.9"; "6000,150,45,178.9,43,358.9"]);
  ("KHPN", ["4451,150,398,102,387,282"; "6548,150,439,150,380,330"]);
  ("KHPT", ["4018,75,1176,180.4,1158,0.4"]);
  ("KHPY", ["4334,50,34,142.7,27,322.7"]);
  ("KHQG", ["5000,75,3133,25,3128,205"; "2626,35,3132,135.2,3126,315.2"]);
  ("KHQM", ["5000,150,18,80,15,260"]);
  ("KHQU", ["5200,100,452,93,498,273"]);
  ("KHQZ", ["5999,100,446,181,442,1"]);
  ("KHRI", ["4500,75,641,62,638,242"]);
  ("KHRJ", ["4300,75,189,40,198,220"]);
  ("KHRL", ["7257,150,34,135.6,36,315.6"; "5949,150,34,180.6,35,0.6"; "8301,150,34,180.6,36,0.6"]);
  ("KHRO", ["6161,150,1363,186,1351,6"]);
  ("KHRT", ["9600,150,33,176,35,356"]);
  ("KHRU", ["4184,75,1480,180,1480,360"]);
  ("KHRX", ["6100,100,3786,29,3786,209"; "3880,135,3783,151.2,3783,331.2"]);
  ("KHSA", ["8500,150,23,180,13,360"]);
  ("KHSB", ["5013,75,387,63.2,396,243.2"; "2764,75,387,141,382,321"]);
  ("KHSD", ["5000,100,1153,178,1193,358"]);
  ("KHSE", ["3000,75,10,56.6,17,236.6"]);
  ("KHSI", ["4501,75,1939,46.6,1948,226.6"; "6451,100,1961,150.4,1940,330.4"]);
  ("KHSP", ["5600,100,3790,59,3763,239"]);
  ("KHSR", ["4505,100,3148,21.6,3140,201.6"; "3950,250,3145,76,3141,256"]);
  ("KHST", ["11201,300,6,49.3,6,229.3"]);
  ("KHSV", ["10006,150,609,181,589,1"; "12600,150,628,181,611,1"]);
  ("KHTH", ["6000,100,4176,116,4214,296"; "3500,130,4156,164,4210,344"]);
  ("KHTL", ["4000,75,1149,88.8,1145,268.8"; "2200,100,1149,180,1146,360"]);
  ("KHTO", ["4255,100,55,88.9,31,268.9"; "2223,75,42,149.2,30,329.2"]);
  ("KHTS", ["3007,60,828,22.4,827,202.4"; "6509,150,827,112.4,828,292.4"]);
  ("KHTW", ["3001,70,568,81,568,261"]);
  ("KHUA", ["7300,150,685,169,655,349"]);
  ("KHUF", ["9020,150,572,47,583,227"; "7200,150,568,134.9,589,314.9"; "4001,150,569,179.9,574,359.9"]);
  ("KHUL", ["5000,150,493,351.9,478,171.9"; "5001,150,481,31.1,489,211.1"]);
  ("KHUM", ["4999,200,6,125.5,9,305.5"; "6508,150,8,179,6,359"]);
  ("KHUT", ["6000,100,1516,42.4,1543,222.4"; "7004,100,1525,138.3,1515,318.3"; "4252,75,1523,177.3,1517,357.3"]);
  ("KHVC", ["5502,100,537,77.8,564,257.8"]);
  ("KHVE", ["5675,75,4444,93.1,4444,273.1"; "5000,120,4444,185.2,4444,5.2"]);
  ("KHVN", ["5600,150,6,3,9,183"; "3626,100,5,130,5,310"]);
  ("KHVR", ["3699,60,2588,44.9,2581,224.9"; "5205,100,2581,90,2580,270"]);
  ("KHVS", ["5000,75,342,22.4,363,202.4"]);
  ("KHWD", ["3107,75,28,120,37,300"; "5694,150,29,119.8,50,299.8"]);
  ("KHWO", ["3240,100,7,100,7,280"; "3255,100,8,100,8,280"; "3260,100,7,190,7,10"; "3350,100,7,190,7,10"]);
  ("KHWQ", ["4200,60,,96,,276"]);
  ("KHWV", ["4200,100,70,45,81,225"; "4224,150,69,135,60,315"]);
  ("KHWY", ["5000,100,313,139,336,319"]);
  ("KHXD", ["4300,100,19,26.1,13,206.1"]);
  ("KHXF", ["3001,75,1051,110.3,1046,290.3"; "2250,215,1065,178,,358"]);
  ("KHYA", ["5425,150,45,49.7,39,229.7"; "5252,150,54,139.9,44,319.9"]);
  ("KHYI", ["6330,100,588,87.8,580,267.8"; "5603,150,593,132.9,574,312.9"; "5213,100,594,177.9,574,357.9"]);
  ("KHYR", ["5003,100,1209,24.7,1216,204.7"; "1240,120,1210,160,1211,340"]);
  ("KHYS", ["4500,75,1980,48,1992,228"; "6500,100,1998,167.4,1983,347.4"]);
  ("KHYW", ["4400,75,33,31.8,34,211.8"]);
  ("KHYX", ["2951,60,599,44,597,224"; "5000,100,599,90,598,270"]);
  ("KHZD", ["5500,100,496,12.2,496,192.2"]);
  ("KHZE", ["5000,75,1786,152.3,1813,332.3"]);
  ("KHZL", ["4898,100,1596,94.1,1596,274.1"]);
  ("KHZR", ["5002,75,39,184.3,32,4.3"]);
  ("KHZX", ["3397,75,1228,140,1226,320"]);
  ("KHZY", ["5197,100,907,78.6,923,258.6"]);
  ("KI06", ["4000,50,,180,,360"; "4900,60,3488,193.5,3503,13.5"]);
  ("KI10", ["3811,65,876,40.5,879,220.5"]);
  ("KI12", ["2981,50,1034,40,1040,220"; "4785,75,1038,94.2,1043,274.2"]);
  ("KI16", ["3701,60,1724,70,1783,250"]);
  ("KI17", ["3997,75,993,75.5,985,255.5"]);
  ("KI18", ["4001,75,738,29.6,758,209.6"]);
  ("KI22", ["3977,50,1115,72.7,1117,252.7"; "1960,105,1119,91.9,1118,271.9"]);
  ("KI23", ["5097,75,978,34,976,214"]);
  ("KI34", ["3433,40,912,179.5,905,359.5"]);
  ("KI35", ["3460,75,1524,76,1564,256"]);
  ("KI39", ["4500,100,966,174.6,1000,354.6"]);
  ("KI40", ["4099,75,972,37.4,978,217.4"]);
  ("KI43", ["5201,75,722,5,726,185"]);
  ("KI50", ["3000,70,,59,,239"]);
  ("KI53", ["3000,60,,6,,186"]);
  ("KI54", ["3405,110,,90,,270"]);
  ("KI58", ["6252,75,4774,21.4,4790,201.4"; "4408,60,4765,88.7,4783,268.7"]);
  ("KI63", ["5905,75,,180,715,360"]);
  ("KI64", ["3800,55,,23,,203"]);
  ("KI66", ["3578,65,1028,28,,208"]);
  ("KI67", ["3043,60,580,0.3,582,180.3"; "1770,100,,90,,270"]);
  ("KI68", ["4502,65,883,4,898,184"]);
  ("KI69", ["3568,75,844,37,813,217"]);
  ("KI71", ["3500,65,1000,120,1000,300"]);
  ("KI73", ["3500,65,720,91,720,271"]);
  ("KI74", ["4400,100,1057,17.9,1067,197.9"]);
  ("KI75", ["4000,75,1110,179,1110,359"]);
  ("KI76", ["4001,60,769,4.6,779,184.6"]);
  ("KI86", ["3498,75,1051,72.1,1041,252.1"]);
  ("KI93", ["3500,75,,91,,271"]);
  ("KI95", ["4201,75,1023,39.7,1003,219.7"]);
  ("KIAB", ["12000,200,1337,13,1371,193"; "12000,300,1336,13,1364,193"]);
  ("KIAD", ["11501,150,286,1,269,181"; "11501,150,286,0.6,269,180.6"; "11500,150,312,0.7,293,180.7"; "10501,150,310,110.6,288,290.6"]);
  ("KIAG", ["5189,150,583,50,589,230"; "9829,150,585,90,588,270"; "3973,75,583,89,584,269"]);
  ("KIAH", ["9000,150,92,89.9,95,269.9"; "9402,150,95,89.9,92,269.9"; "10000,150,91,90,84,270"; "12001,150,97,152,86,332"; "9999,150,95,152,88,332"]);
  ("KIB", ["10000,4000"]);
  ("KIBM", ["6199,75,4926,104.8,4900,284.8"]);
  ("KICL", ["5000,75,994,24.4,991,204.4"; "2425,255,,141.4,981,321.4"]);
  ("KICR", ["2900,150,,38,,218"; "4500,75,2008,135,,315"]);
  ("KICT", ["10301,150,1313,20,1330,200"; "7301,150,1321,20,1320,200"; "6301,150,1332,150,1322,330"]);
  ("KIDA", ["9002,150,4742,38,4731,218"; "4051,75,4731,182,4731,2"]);
  ("KIDG", ["3172,50,1237,121.7,1244,301.7"]);
  ("KIDI", ["4001,75,1360,96.3,1405,276.3"]);
  ("KIDL", ["4500,75,,45,,225"; "4500,75,,135,,315"; "6991,150,126,180,121,360"]);
  ("KIDP", ["3402,60,821,45.3,820,225.3"; "5501,100,819,180,819,360"]);
  ("KIEN", ["3003,50,3278,76.9,3300,256.9"; "5000,60,3298,129,3331,309"]);
  ("KIER", ["4000,100,115,76.4,117,256.4"; "5003,150,116,166.5,121,346.5"]);
  ("KIFA", ["4001,75,1127,135.3,1137,315.3"]);
  ("KIFP", ["7520,150,622,176.5,695,356.5"]);
  ("KIGM", ["6826,150,3409,44.9,3392,224.9"; "6725,150,3384,90,3446,270"; "6725,75,3358,180,3446,360"]);
  ("KIGQ", ["3395,75,615,90,617,270"; "4002,75,616,180,619,360"]);
  ("KIGX", ["4005,75,512,81.9,492,261.9"]);
  ("KIIB", ["4000,75,963,179.4,978,359.4"]);
  ("KIIY", ["4020,75,645,126,640,306"]);
  ("KIJD", ["4050,150,,31.6,,211.6"; "4278,100,240,74.3,240,254.4"; "2797,75,235,165,246,345"]);
  ("KIJX", ["4001,75,617,45,618,225"; "5000,75,617,135.3,621,315.3"]);
  ("KIKG", ["5999,75,131,140,125,320"]);
  ("KIKK", ["5979,100,625,38.1,629,218.1"; "4399,75,622,161.1,618,341.1"]);
  ("KIKV", ["4200,75,910,45,900,225"; "5500,100,903,180,888,360"]);
  ("KILE", ["5495,100,844,16.8,841,196.8"]);
  ("KILG", ["7012,150,79,5,62,185"; "7181,150,79,77.7,72,257.7"; "4603,150,75,131,74,311"]);
  ("KILL", ["5700,100,1118,108.6,1127,288.6"; "3562,250,1119,187.3,1123,7.3"]);
  ("KILM", ["8016,200,21,48.4,20,228.4"; "7004,150,30,159.2,18,339.2"]);
  ("KILN", ["10701,150,1053,37.3,1077,217.3"; "9000,150,1043,37.3,1077,217.3"]);
  ("KIML", ["3058,300,3270,45.4,3275,225.4"; "5022,100,3272,144,3264,324"]);
  ("KIMM", ["5001,150,33,36,33,216"; "5000,150,35,88,33,268"; "5000,150,36,178,33,358"]);
  ("KIMS", ["4400,75,806,32,817,212"]);
  ("KIMT", ["6500,150,1132,7.7,1182,187.7"; "3812,75,1124,132,1125,312"]);
  ("KIND", ["11200,150,738,44.5,783,224.5"; "10000,150,789,44.6,788,224.6"; "7605,150,788,134.6,781,314.6"]);
  ("KINJ", ["4000,60,686,164.8,676,344.8"]);
  ("KINK", ["3515,100,2818,50.5,2811,230.5"; "5000,100,2822,140.5,2812,320.5"]);
  ("KINL", ["2999,75,1170,41.8,1181,221.8"; "6508,150,1185,136,1164,316"]);
  ("KINS", ["9002,150,3133,92.3,3102,272.3"; "5002,100,3096,144.9,3106,324.9"]);
  ("KINT", ["3938,150,950,31,960,211"; "6655,150,968,145,901,325"]);
  ("KINW", ["7499,150,4938,58.5,4888,238.5"; "7100,150,4897,119.8,4869,299.8"; "6068,150,,184.7,,4.7"]);
  ("KIOB", ["5002,75,1019,27.1,984,207.1"]);
  ("KIOW", ["4355,150,668,70.8,650,250.8"; "3900,150,662,124.7,649,304.7"]);
  ("KIPJ", ["5529,100,875,47.4,867,227.4"]);
  ("KIPL", ["4500,75,-57,90,-57,270"; "5304,100,-58,152.8,-56,332.8"]);
  ("KIPT", ["6474,150,514,77,525,257"; "4280,150,523,106,525,286"]);
  ("KIQ", ["1804,98"]);
  ("KIRK", ["1393,100,,91,,271"; "6005,100,966,180,964,360"]);
  ("KIRS", ["3421,75,913,59,925,239"; "5200,100,909,180,912,360"]);
  ("KISB", ["3000,50,1537,180,1537,360"]);
  ("KISM", ["5000,150,80,58,78,238"; "6000,100,80,148,77,328"]);
  ("KISN", ["3453,60,1915,30.4,1917,210.4"; "6650,100,1982,124.3,1894,304.3"]);
  ("KISO", ["11500,150,93,41.1,87,221.1"]);
  ("KISP", ["7006,150,92,45,99,225"; "5034,150,90,90,82,270"; "3175,75,91,135,81,315"; "5186,150,99,135,79,315"]);
  ("KISQ", ["2501,50,677,359,681,179"; "5000,100,685,90,673,270"]);
  ("KISW", ["5500,100,1010,20,1021,200"; "3640,50,1020,116,1012,296"; "2100,50,,176,,356"]);
  ("KISZ", ["3499,75,856,55,830,235"]);
  ("KITH", ["6601,150,1077,134,1099,314"; "2018,50,,138,,318"]);
  ("KITR", ["5201,75,4219,159.9,4202,339.9"]);
  ("KIWA", ["10201,150,1346,135.7,1378,315.7"; "9301,150,1353,135.7,1380,315.7"; "10401,150,1339,135.7,1372,315.7"]);
  ("KIWD", ["6501,130,1223,90.2,1230,270.2"]);
  ("KIWH", ["4401,75,793,89.3,792,269.3"; "1938,30,790,178.7,792,358.7"]);
  ("KIWI", ["3397,75,70,51.4,56,231.4"]);
  ("KIWS", ["3953,75,111,154.7,110,334.7"]);
  ("KIXA", ["5500,100,142,,140"]);
  ("KIXD", ["5130,100,1061,47,1087,227"; "7339,190,1085,180,1051,360"]);
  ("KIYK", ["6275,75,2442,30.7,2455,210.8"; "4150,75,2455,115.5,2413,295.5"; "7100,75,2455,165.8,2427,345.8"]);
  ("KIZA", ["2804,75,652,98.3,671,278.3"]);
  ("KIZG", ["4200,75,452,126.6,420,306.6"]);
  ("KJAC", ["6300,150,6413,19.5,6451,199.5"]);
  ("KJAN", ["8500,150,305,158,346,338"; "8500,150,305,158,329,338"]);
  ("KJAS", ["5500,70,213,180.9,177,0.9"]);
  ("KJAU", ["4000,75,1134,45.7,1180,225.7"]);
  ("KJAX", ["10000,150,29,71,26,251"; "7701,150,27,131,24,311"]);
  ("KJBR", ["6200,150,254,50.2,258,230.2"; "4099,150,262,134.6,251,314.6"]);
  ("KJCT", ["2255,146,,92.5,1691,272.5"; "5000,75,1751,180.2,1702,0.2"]);
  ("KJDD", ["4001,60,403,182.1,433,2.1"]);
  ("KJDN", ["4300,75,,115,,295"]);
  ("KJEF", ["3401,75,546,91,546,271"; "6001,100,547,123,547,303"]);
  ("KJER", ["5001,75,3961,100,4053,280"]);
  ("KJES", ["5500,100,107,99,66,279"]);
  ("KJFK", ["11351,150,12,30.7,13,210.7"; "8400,200,13,30.6,13,210.6"; "10000,150,13,120.9,13,300.9"; "14572,150,13,120.6,13,300.6"]);
  ("KJFX", ["5003,100,482,92,473,272"]);
  ("KJFZ", ["4300,75,2652,65.6,2652,245.6"]);
  ("KJGG", ["3204,60,48,120.5,22,300.5"]);
  ("KJHW", ["5299,100,1721,59,1719,239"; "4500,100,1723,119,1707,299"]);
  ("KJKA", ["6962,100,14,90,16,270"; "3599,70,16,175,11,355"]);
  ("KJKJ", ["4300,75,914,116,917,296"]);
  ("KJKL", ["4400,75,1353,8,1381,188"]);
  ("KJLN", ["3604,75,981,50.4,976,230.4"; "6502,150,951,138,978,318"; "6500,100,950,182,972,2"]);
  ("KJMR", ["2450,200,1010,117,1008,297"; "3998,75,1000,172,1009,352"]);
  ("KJMS", ["5749,75,1493,44.7,1498,224.7"; "6500,100,1498,134.8,1495,314.8"]);
  ("KJNX", ["5500,100,148,30,165,210"]);
  ("KJOT", ["3228,140,574,44,581,224"; "2937,100,580,127,581,307"]);
  ("KJQF", ["7403,100,640,10.5,700,190.5"]);
  ("KJSD", ["1500,100"; "1300,100"]);
  ("KJSO", ["5011,75,677,140,657,320"]);
  ("KJST", ["4386,100,2270,39.4,2278,219.4"; "3700,100,2268,87,2280,267"; "7003,150,2270,144.1,2260,324.1"]);
  ("KJSV", ["4000,75,527,180.3,518,0.3"]);
  ("KJVL", ["6701,150,804,41.4,805,221.4"; "7300,150,795,134,806,314"; "5000,75,808,179.1,805,359.1"]);
  ("KJVY", ["3899,75,469,138,461,318"; "5500,100,474,180,461,360"]);
  ("KJWG", ["4000,60,1550,180,1533,360"]);
  ("KJWN", ["5500,100,458,14.8,493,194.8"]);
  ("KJWY", ["5000,75,713,184,686,4"]);
  ("KJXI", ["4000,60,415,180.2,415,0.2"]);
  ("KJXN", ["5344,150,994,50.8,990,230.8"; "3501,100,986,133.4,1000,313.4"]);
  ("KJYG", ["4000,75,1061,150,1065,330"]);
  ("KJYL", ["5000,100,169,48,187,228"; "4125,150,,100,,280"; "3787,75,175,145.5,175,325.5"]);
  ("KJYM", ["4000,75,1160,94,1182,274"]);
  ("KJYO", ["5500,100,377,161,387,341"]);
  ("KJYR", ["4700,150,1665,53.8,1664,233.8"; "5900,100,1664,174.3,1668,354.4"]);
  ("KJZI", ["4313,150,10,32.2,11,212.2"; "5000,150,17,89.2,10,269.2"]);
  ("KJZP", ["5000,100,1501,159,1535,339"]);
  ("KK02", ["7000,100,368,17,371,197"]);
  ("KK06", ["4000,60,464,178,465,358"]);
  ("KK09", ["3100,60,,32.2,,212.2"]);
  ("KK15", ["3205,60,875,142.3,857,322.3"]);
  ("KK16", ["3000,23,,47,,227"]);
  ("KK19", ["3300,50,,12.2,,192.2"]);
  ("KK20", ["3250,60,1243,59.3,1242,239.3"; "5000,100,1243,138.9,1253,318.9"]);
  ("KK22", ["5000,100,1170,31,1221,211"]);
  ("KK24", ["5000,75,1011,175.4,959,355.4"]);
  ("KK32", ["3200,30,,165.4,,345.4"]);
  ("KK33", ["2998,60,1220,167.5,1241,347.5"]);
  ("KK36", ["3400,60,,162,,342"]);
  ("KK38", ["3400,60,,180,,360"]);
  ("KK39", ["3198,60,,18.3,,198.3"]);
  ("KK44", ["3025,95,,45.8,,225.8"; "3030,43,2457,178.6,2467,358.6"]);
  ("KK49", ["3564,48,3460,47,3460,227"; "2340,75,3460,182,3460,2"]);
  ("KK51", ["2270,90,,23,,203"; "1690,80,,139,,319"; "3200,42,,170,,350"]);
  ("KK52", ["3515,50,737,91.9,734,271.9"]);
  ("KK57", ["3773,60,913,181,909,1"]);
  ("KK58", ["3200,300,,29,,209"; "2985,300,,151,,331"]);
  ("KK59", ["3000,48,1040,173,1072,353"]);
  ("KK61", ["2381,110,1409,45,1411,225"; "1658,90,1407,91,1413,271"; "3610,60,1416,179,1415,359"]);
  ("KK62", ["4000,75,898,27,879,207"]);
  ("KK74", ["3300,60,946,118,943,298"]);
  ("KK75", ["4000,60,,26.3,,206.3"; "2900,80,,126.3,,306.3"])].

(* ADRpy/data/runways.csv *)
Definition airports_18 : list (string * list string) := [
  ("KK77", ["3000,35,,133.8,,313.8"]);
  ("KK78", ["4100,75,1152,180.1,1149,0.1"]);
  ("KK79", ["4205,75,2462,181,2465,1"]);
  ("KK81", ["3400,60,930,38,931,218"; "2650,60,926,153,939,333"]);
  ("KK82", ["2453,75,1794,151.1,1791,331.1"; "3601,50,1797,180.3,1787,0.3"]);
  ("KK83", ["3100,40,,14,,194"; "1440,70,,124.2,,304.2"]);
  ("KK88", ["4100,75,1009,13,1015,193"; "1170,50,1010,174,1015,354"]);
  ("KK89", ["3300,60,874,20,869,200"]);
  ("KK94", ["3200,50,,177.2,,357.2"]);
  ("KKB", ["4000,1000"]);
  ("KKI", ["5000,300"; "5000,500"]);
  ("KKIC", ["4485,100,366,132.9,370,312.9"]);
  ("KKL", ["10000,1000"]);
  ("KKLS", ["4391,100,20,140,16,320"]);
  ("KKNB", ["6193,75,4823,20.9,4868,200.9"]);
  ("KKU", ["1200,40"]);
  ("KL00", ["3600,50,,90,,270"]);
  ("KL04", ["6000,150,,91.9,59,272"]);
  ("KL05", ["3500,50,2614,188.2,2608,8.2"]);
  ("KL06", ["3065,70,,167.9,,347.9"]);
  ("KL08", ["5011,75,519,88.8,519,268.8"]);
  ("KL09", ["3260,65,25,54.3,15,234.4"]);
  ("KL17", ["1570,60,,48.8,,228.8"; "3550,60,,83.4,,263.4"]);
  ("KL19", ["3380,60,300,138.7,313,318.7"]);
  ("KL22", ["4363,60,3199,71.3,3224,251.3"]);
  ("KL23", ["5712,100,5068,193.9,4975,13.9"]);
  ("KL26", ["3910,50,,47.2,,227.2"]);
  ("KL31", ["2999,75,,180,,360"]);
  ("KL32", ["3000,75"; "2200,120,,137.9,,317.9"]);
  ("KL33", ["3500,75,,180,,360"]);
  ("KL35", ["5850,75,6750,90,6751,270"]);
  ("KL38", ["4000,100,14,171,14,351"]);
  ("KL39", ["3800,75,280,180.1,266,0.1"]);
  ("KL41", ["3715,35,3586,40.8,3603,220.8"]);
  ("KL45", ["4000,75,376,174.6,370,354.6"]);
  ("KL47", ["3010,75,130,30.7,130,210.7"]);
  ("KL62", ["3260,50,,131.6,,311.6"]);
  ("KL64", ["4200,50,559,67.3,520,247.3"]);
  ("KL65", ["5100,50,1413,164.5,,344.5"]);
  ("KL66", ["4500,150,,44.7,,224.7"; "4540,150,,135.4,,315.4"; "4500,75,,180,,360"]);
  ("KL67", ["4500,100,1442,72.3,1439,252.3"; "2650,50,1455,179.6,1412,359.6"]);
  ("KL70", ["4600,50,2639,53,2552,233"]);
  ("KL71", ["6027,60,2453,76,2401,256"]);
  ("KL72", ["5930,60,1716,177,1638,357"]);
  ("KL73", ["3000,60,635,180,,360"]);
  ("KL77", ["4600,50,1713,76,1670,256"]);
  ("KL83", ["2999,75,,83.5,,263.5"]);
  ("KL84", ["3020,60,,172,,352"]);
  ("KL88", ["3940,60,,115.4,,295.4"]);
  ("KL94", ["5190,36,,105.9,,285.9"; "5420,60,,106.5,,286.5"]);
  ("KLAA", ["5001,60,3683,89.6,3689,269.6"; "6304,100,3679,189.6,3706,9.6"]);
  ("KLAF", ["4226,100,593,47.3,603,227.3"; "6600,150,600,100,598,280"]);
  ("KLAL", ["5000,150,130,45,141,225"; "8500,150,132,90,142,270"]);
  ("KLAM", ["5550,113,7171,102.4,7132,282.4"]);
  ("KLAN", ["5001,120,859,53,848,233"; "3601,75,846,90.6,851,270.6"; "7251,150,861,90.6,852,270.6"]);
  ("KLAR", ["8500,150,7283,45.6,7272,225.6"; "6300,100,7273,134.6,7275,314.6"]);
  ("KLAS", ["8985,150,2176,24.9,2083,204.9"; "9775,150,2170,24.8,2080,204.8"; "14510,150,2155,89.9,2044,270"; "10526,150,2157,90,2048,270"]);
  ("KLAW", ["8599,150,1110,176.9,1070,356.9"]);
  ("KLAX", ["8925,150,112,83,117,263"; "10285,150,108,83,111,263"; "12091,150,119,83,94,263"; "11096,200,118,83,95,263"; ""]);
  ("KLBB", ["8001,150,3257,89.7,3255,269.7"; "2891,75,3255,179.6,3262,359.6"; "11500,150,3282,179.7,3243,359.7"]);
  ("KLBE", ["3596,75,1141,19.6,1139,199.6"; "7001,100,1184,45.6,1138,225.7"]);
  ("KLBF", ["8000,150,2776,126,2768,306"; "4436,100,2774,181.1,2773,1.1"]);
  ("KLBL", ["5721,150,2884,45,2876,225"; "7105,150,2875,180,2874,360"]);
  ("KLBO", ["2300,50,1309,91,1317,271"; "5000,75,1306,181.7,1319,1.7"]);
  ("KLBR", ["3000,50,,173.8,,353.8"]);
  ("KLBT", ["4974,150,116,0.2,116,180.2"; "5510,150,124,45,123,225"; "4998,150,122,124.9,126,304.9"]);
  ("KLBX", ["7000,100,25,180,24,360"]);
  ("KLCG", ["3407,60,1431,54,1426,234"; "2000,120,1427,136,1426,316"; "4200,75,1427,181.5,1431,1.5"]);
  ("KLCH", ["5200,100,13,51.8,15,231.8"; "6500,150,12,154.8,11,334.8"]);
  ("KLCI", ["5286,100,545,67.5,518,247.5"]);
  ("KLCK", ["11937,150,742,45.3,741,225.3"; "12102,200,735,45.3,739,225.3"; "3244,60,740,46,740,226"]);
  ("KLCQ", ["4000,75,186,52,195,232"; "8002,150,198,97,196,277"]);
  ("KLDJ", ["4137,100,23,75.6,20,255.6"]);
  ("KLDM", ["3503,75,641,2,637,182"; "5003,75,641,71,646,251"]);
  ("KLEB", ["5496,100,562,59,574,239"; "5200,100,563,168,603,348"]);
  ("KLEE", ["4957,100,68,35,73,215"; "5000,100,75,130,69,310"]);
  ("KLEM", ["4501,75,2566,125.9,2568,305.9"; "1900,60,,185,,5"]);
  ("KLEW", ["5001,100,270,24.3,264,204.3"; "2750,75,256,148,288,328"]);
  ("KLEX", ["7003,150,944,42,972,222"]);
  ("KLFI", ["10000,150,9,67.6,8,247.6"]);
  ("KLFK", ["5398,100,284,75,296,255"; "4309,100,275,160,275,340"]);
  ("KLFT", ["4099,75,42,38.6,42,218.6"; "7651,150,40,38.7,33,218.7"; "5399,148,38,110,37,290"]);
  ("KLGA", ["7000,150,22,32,13,212"; "7000,150,13,122,8,302"]);
  ("KLGB", ["6192,150,52,90.2,39,270.2"; "5420,150,50,89.9,29,269.9"; "10000,200,52,134.7,30,314.7"; "4267,75,40,180.2,33,0.2"; "4470,75,50,179.9,41,359.9"]);
  ("KLGC", ["5000,100,678,24,684,204"; "5600,150,680,127,675,307"]);
  ("KLGD", ["5600,100,2717,135,2707,315"; "3876,60,2714,180,2709,360"]);
  ("KLGF", ["6000,100,365,76,422,256"; "6118,150,406,190.7,360,10.7"]);
  ("KLGU", ["5007,150,4438,64.1,4445,244.1"; "5005,75,4440,122.3,4452,302.3"; "9095,100,4457,182.7,4457,2.7"]);
  ("KLHB", ["4000,75,287,180,287,360"]);
  ("KLHM", ["6001,100,120,165,120,345"]);
  ("KLHQ", ["5004,75,857,94,864,274"]);
  ("KLHV", ["3806,100,556,82.3,555,262.3"; "2200,100,,82.2,,262.2"]);
  ("KLHW", ["5010,100,43,50.6,33,230.6"; "2605,100,42,49,39,229"; "5000,150,37,140.6,33,320.6"; "2518,100,39,141,40,321"]);
  ("KLHX", ["6848,75,4225,89.8,4151,269.8"; "5800,60,4238,135.2,4155,315.2"]);
  ("KLHZ", ["5500,100,366,41,330,221"]);
  ("KLIC", ["4700,60,5374,169.6,5349,349.6"]);
  ("KLIT", ["8273,150,254,46.5,262,226.5"; "7200,150,260,46.5,259,226.5"; "5124,150,258,181.5,253,1.5"]);
  ("KLIU", ["4021,60,3611,17.3,3608,197.3"; "2513,40,3616,135.6,3607,315.6"]);
  ("KLJF", ["4002,100,1139,138.6,1139,318.6"]);
  ("KLKP", ["4200,60,1743,127.1,1745,307.1"]);
  ("KLKR", ["6004,100,459,58.5,486,238.5"]);
  ("KLKU", ["4301,100,469,82,493,262"]);
  ("KLKV", ["5306,100,4733,180,4724,360"]);
  ("KLLJ", ["4600,60,4999,182,5072,2"]);
  ("KLLN", ["2072,55,,91.6,3507,271.6"; "6110,75,3505,181.6,3510,1.6"]);
  ("KLLQ", ["5018,75,268,31.7,243,211.7"]);
  ("KLLR", ["5249,150,544,128.5,572,308.5"]);
  ("KLLU", ["2902,60,1009,32.6,997,212.6"]);
  ("KLMO", ["4800,75,5055,123,5031,303"]);
  ("KLMS", ["4519,75,548,170,562,350"]);
  ("KLMT", ["5162,100,4087,24,4086,204"; "5260,100,4092,90,4089,270"; "10301,150,4091,158,4095,338"]);
  ("KLNA", ["3256,75,13,32,14,212"; "3489,75,12,92,13,272"; "3421,100,14,152,13,332"]);
  ("KLNC", ["5000,100,501,140.3,480,320.3"]);
  ("KLND", ["5000,100,5586,42.4,,222.4"]);
  ("KLNK", ["8649,150,1199,145,1179,325"; "5400,100,1219,180,1176,360"; "12901,200,1195,180,1175,360"]);
  ("KLNL", ["2580,130,1697,46,1703,226"; "4000,75,1704,143,1704,323"]);
  ("KLNN", ["5028,100,624,44.6,620,224.6"; "4272,100,624,90.5,626,270.5"]);
  ("KLNP", ["5280,100,2670,56.2,2684,236.2"]);
  ("KLNR", ["5000,75,716,90,718,270"; "1988,60,,179.6,,359.6"]);
  ("KLNS", ["6934,150,397,68,376,248"; "4102,100,394,119.3,400,299.3"]);
  ("KLOL", ["5529,75,3900,30.4,3904,210.4"; "4922,75,3900,90,3902,270"]);
  ("KLOM", ["3700,75,301,53,280,233"]);
  ("KLOT", ["5100,100,680,13.7,663,193.7"; "5697,75,673,90,666,270"]);
  ("KLOU", ["4357,75,545,60,534,240"; "3579,75,538,143,518,323"]);
  ("KLOZ", ["5650,150,1211,52,1184,232"]);
  ("KLPC", ["4600,100,78,91,88,271"]);
  ("KLPR", ["5002,100,793,65,787,245"]);
  ("KLQK", ["5002,100,963,43.8,1013,223.8"]);
  ("KLQR", ["3176,170,2009,45.1,2008,225.1"; "3083,180,2006,135.3,2006,315.3"; "4201,75,2010,179.9,2012,359.9"]);
  ("KLRD", ["5928,150,505,147.3,467,327.3"; "8236,150,499,182.6,475,2.6"; "7830,150,504,182.6,484,2.6"]);
  ("KLRF", ["3482,60"; "12000,200,286,71,290,251"]);
  ("KLRG", ["2400,100"; "2804,75,196,147,206,327"]);
  ("KLRJ", ["4001,75,1193,188,1196,8"]);
  ("KLRO", ["3700,75,12,167.3,12,347.3"]);
  ("KLRU", ["7499,100,4436,54.6,4452,234.6"; "6069,100,4437,90,4436,270"; "7499,100,4456,135,4436,315"]);
  ("KLRY", ["4000,75,915,177,875,357"]);
  ("KLSB", ["3213,50,4289,21.1,,201.1"; "5011,75,4278,130.2,4277,310.2"]);
  ("KLSE", ["5299,150,647,36,653,216"; "6050,150,653,134,651,314"; "8537,150,652,179,648,359"]);
  ("KLSF", ["10000,150,226,144.7,226,324.7"]);
  ("KLSK", ["5058,75,4964,115.5,4952,295.5"]);
  ("KLSN", ["3005,75,117,153.4,119,333.4"]);
  ("KLSV", ["10123,200,1834,41,1870,221"; "10055,150,1826,41,1866,221"]);
  ("KLTS", ["3501,94,1379,180,1364,360"; "3501,94"; "9000,150,1382,180,1354,360"; "13440,150,1379,180,1346,360"]);
  ("KLTY", ["4607,75,,85,,265"; "1710,60,,180,,360"]);
  ("KLUD", ["3900,60,1041,172.4,1035,352.4"]);
  ("KLUF", ["10012,150,1077,42.6,1084,222.6"; "9904,150,1071,42.6,1084,222.6"]);
  ("KLUG", ["5002,75,717,17.9,709,197.9"]);
  ("KLUK", ["3802,100,483,23,479,203"; "6101,150,481,21,475,201"; "5128,100,482,62,475,242"]);
  ("KLUL", ["5512,150,238,135,234,315"]);
  ("KLUM", ["5075,75,892,91,893,271"; "3470,75,895,183.1,893,3.1"]);
  ("KLUX", ["3898,75,697,67.9,693,247.9"]);
  ("KLVJ", ["4313,75,44,144.7,39,324.7"; "2800,90,43,145,41,325"]);
  ("KLVK", ["5253,100,373,91,400,271"; "2699,75,379,90.6,395,270.6"]);
  ("KLVL", ["1890,70,284,56.9,317,236.9"; "3020,50,329,172.5,312,352.5"]);
  ("KLVM", ["5701,75,4646,54.7,4643,234.7"; "3700,125,4655,95,4647,275"; "2715,120,4656,148.3,4650,328.3"]);
  ("KLVN", ["4098,75,960,118,952,298"]);
  ("KLVS", ["5004,75,6866,35,6861,215"; "8198,75,6840,152,6877,332"]);
  ("KLWA", ["4800,75,651,44,666,224"; "3275,190,666,132,666,312"]);
  ("KLWB", ["7004,150,2288,35.3,2293,215.3"]);
  ("KLWC", ["3901,75,832,19,830,199"; "5700,100,831,153,827,333"]);
  ("KLWL", ["2681,150,5734,27,5711,207"; "5498,150,5708,100.8,5769,280.8"]);
  ("KLWM", ["5000,150,135,38,134,218"; "3901,100,119,123,148,303"]);
  ("KLWS", ["6511,150,1427,99,1434,279"; "5002,100,1370,131,1442,311"]);
  ("KLWT", ["5600,100,4170,38,4131,218"; "6100,100,4128,90,4112,27"; "4102,60,4132,140,4163,320"]);
  ("KLWV", ["1000,200"; "5198,150,426,89.4,430,269.4"; "5199,150,430,180,425,360"]);
  ("KLXL", ["4000,75,1119,131,1122,311"; "2890,170,1117,181.3,1110,1.3"]);
  ("KLXN", ["3200,250,2400,18.2,2406,198.2"; "5489,100,2413,143.1,2403,323.1"]);
  ("KLXT", ["3800,75,993,113.4,1002,293.4"; "4016,75,995,183,992,3"]);
  ("KLXV", ["6400,75,9925,170.3,9919,350.3"]);
  ("KLXY", ["4002,60,544,189,533,9"]);
  ("KLYH", ["5799,150,899,27.8,938,207.8"; "3387,75,918,161.1,918,341.1"]);
  ("KLYO", ["1700,100,1690,146,1680,326"; "2550,150,1691,180,1680,360"; "2999,50,1691,180,1680,360"]);
  ("KLYV", ["4200,75,1431,,1424"]);
  ("KLZD", ["2700,75,231,120,234,300"]);
  ("KLZU", ["6000,100,1061,64,1031,244"]);
  ("KLZZ", ["4200,75,1215,170.7,1157,350.7"]);
  ("KM01", ["3800,75,224,166.5,224,346.5"]);
  ("KM02", ["5001,75,892,172.2,868,352.2"]);
  ("KM04", ["5004,100,280,9,272,189"]);
  ("KM05", ["4000,75,268,179,266,359"]);
  ("KM08", ["4004,75,490,6.9,499,186.9"]);
  ("KM11", ["3000,75,,179,,359"]);
  ("KM12", ["3950,90,,44.5,,224.5"; "3985,48,,180,,360"]);
  ("KM13", ["4000,100,,160,320,340"]);
  ("KM15", ["3600,75,,180,,360"]);
  ("KM16", ["3992,75,238,124,244,304"]);
  ("KM17", ["4000,75,1092,183,,3"]);
  ("KM18", ["5559,150,330,48,351,228"; "5500,150,359,167.6,340,347.6"]);
  ("KM19", ["5002,150,235,43.9,237,223.9"; "5000,150,,86,,266"; "3650,150,,132,,312"; "5002,150,238,181,239,1"]);
  ("KM20", ["4000,60,,23,,203"]);
  ("KM21", ["5000,75,415,55.8,420,235.8"]);
  ("KM22", ["5500,75,688,16,719,196"]);
  ("KM23", ["3000,75,369,132,,312"]);
  ("KM24", ["3000,50,,171,,351"]);
  ("KM25", ["4627,100,520,184,520,4"]);
  ("KM27", ["4000,40,695,93,695,273"]);
  ("KM29", ["4600,75,,18.9,,198.9"]);
  ("KM30", ["4000,75,383,181,373,1"]);
  ("KM31", ["4700,75,,50.3,,230.3"; "4700,75,,135.3,,315.3"; "4700,75,,175.9,,355.9"]);
  ("KM32", ["4000,75,125,13.8,123,193.8"]);
  ("KM33", ["5000,100,584,171.1,542,351.1"]);
  ("KM34", ["4000,100,,89,,269"]);
  ("KM36", ["4004,75,194,27,190,207"]);
  ("KM37", ["3000,60,137,180,133,360"]);
  ("KM40", ["5001,75,225,186.2,223,6.2"]);
  ("KM41", ["3201,60,518,179.1,553,359.1"]);
  ("KM43", ["3200,60,448,123,454,303"]);
  ("KM44", ["3800,75,329,29,337,209"]);
  ("KM45", ["4443,50,5827,184,5871,4"]);
  ("KM46", ["5100,75,3426,75,3382,255"]);
  ("KM48", ["3500,60,,170,,350"]);
  ("KM50", ["4200,100,396,62,366,242"]);
  ("KM51", ["3115,150,,90,,270"; "2700,150,,138,,318"; "2200,150,,184,,4"]);
  ("KM52", ["2160,200,,21.4,,201.4"; "5000,75,514,148.7,507,328.7"]);
  ("KM53", ["4003,75,407,46,421,226"]);
  ("KM54", ["5000,100,589,6.6,550,186.6"; "1801,150,568,46.3,565,226.3"]);
  ("KM55", ["3613,75,463,165,457,345"]);
  ("KM59", ["3000,60,,180,,360"]);
  ("KM60", ["3797,75,198,91,198,271"]);
  ("KM65", ["4024,75,370,168.2,369,348.2"]);
  ("KM66", ["3229,44,,175.3,,355.3"]);
  ("KM70", ["3999,75,271,180.8,271,0.8"]);
  ("KM71", ["3227,50,529,92,559,272"]);
  ("KM72", ["3903,75,,176,,356"]);
  ("KM73", ["3000,50,209,105.6,204,285.6"; "3496,50,209,180.5,203,0.5"]);
  ("KM75", ["4500,75,2254,84.7,2253,264.7"]);
  ("KM77", ["3660,50,,12,540,192"]);
  ("KM78", ["2634,60,536,38,533,218"]);
  ("KM79", ["2200,100,,92,,272"; "4000,75,82,181.9,82,1.9"]);
  ("KM80", ["2400,130,,175,,355"; "3014,75,,182,,2"]);
  ("KM83", ["3850,75,205,180,203,360"]);
  ("KM85", ["4504,58,267,150.1,269,330.1"]);
  ("KM88", ["3500,50,,38,,218"]);
  ("KM89", ["5000,75,179,42.1,181,222.1"]);
  ("KM90", ["3499,50,160,161,161,341"]);
  ("KM91", ["5006,100,700,33.6,707,213.6"]);
  ("KM93", ["3000,75,,72,,252"]);
  ("KM94", ["3665,36,,116,,296"]);
  ("KM95", ["4899,80,364,182,336,2"]);
  ("KM99", ["3980,50,318,179,287,359"]);
  ("KMAC", ["4696,150,409,96,412,276"; "3614,75,451,147,411,327"]);
  ("KMAE", ["3702,150,244,90,253,270"; "5545,150,249,135,253,315"]);
  ("KMAF", ["4605,75,2850,53.7,2853,233.7"; "8302,150,2868,113.6,2853,293.6"; "4339,100,2863,177,2846,357"; "9501,150,2871,175,2850,355"]);
  ("KMAI", ["4996,300,105,40,107,220"; "4895,100,110,82,109,262"; "3117,150,105,82,110,262"; "4992,150,106,140,107,320"; "4896,100,109,180,104,0"; "3120,150,107,179,108,359"]);
  ("KMAL", ["4000,100,790,37.9,790,217.9"; "3245,75,,128.1,,308.1"]);
  ("KMAO", ["4503,100,92,34.6,90,214.6"]);
  ("KMAW", ["5001,150,292,45.6,294,225.6"; "4999,80,292,136,291,316"; "5011,100,294,180.6,292,0.6"]);
  ("KMB", ["1434,98"]);
  ("KMBG", ["4411,75,1702,126.8,1699,306.8"; "2400,250,1715,180,1691,360"]);
  ("KMBL", ["5502,100,616,91,621,271"; "2720,75,618,181,621,1"]);
  ("KMBO", ["4444,75,326,175,326,355"]);
  ("KMBS", ["8002,150,666,45.5,650,225.5"; "6400,150,668,135.7,660,315.7"]);
  ("KMBT", ["3898,100,600,182.5,615,2.5"]);
  ("KMBY", ["3350,60,867,53,860,233"; "4270,100,862,130,864,310"]);
  ("KMCB", ["5000,100,413,156,389,336"]);
  ("KMCC", ["10600,200,75,179.7,70,359.7"]);
  ("KMCD", ["3501,75,725,75.3,738,255.3"]);
  ("KMCE", ["5903,150,155,138.6,155,318.6"]);
  ("KMCF", ["11421,151,8,40.5,14,220.5"]);
  ("KMCI", ["10801,150,1011,12.9,977,192.9"; "9500,150,1016,12.9,978,192.9"; "9500,150,1014,96.1,1026,276.1"]);
  ("KMCK", ["4000,75,2563,46,2556,226"; "6449,100,2583,131.5,2546,311.5"; "1350,160,2558,181.5,2560,1.5"]);
  ("KMCN", ["6501,150,331,48,354,228"; "5001,150,354,130,346,310"]);
  ("KMCO", ["9000,150,90,179.5,90,359.5"; "10000,150,90,179,87,359"; "12005,200,93,179,91,359"; "12004,200,93,179,91,359"]);
  ("KMCW", ["5502,150,1209,124.9,1193,304.9"; "6501,150,1213,179.9,1193,359.9"]);
  ("KMCX", ["4002,60,676,178.8,670,358.8"]);
  ("KMCZ", ["5000,75,66,23.6,76,203.6"]);
  ("KMDA", ["3000,700,,134,,314"; "3000,700,674,180,674,360"]);
  ("KMDD", ["5022,75,2803,75,2790,255"; "3977,75,2800,164.9,2797,344.9"]);
  ("KMDF", ["3500,50,1970,180.1,1966,0.1"]);
  ("KMDH", ["4164,100,411,60.6,405,240.6"; "6506,100,404,181.2,400,1.2"; "3498,60,405,181.2,410,1.2"]);
  ("KMDQ", ["5008,100,718,181,755,1"]);
  ("KMDS", ["2600,200,1710,33.9,1704,213.9"; "5000,75,1717,153.7,1710,333.7"]);
  ("KMDT", ["10001,200,308,116.8,308,296.8"]);
  ("KMDW", ["5507,150,617,43,606,223"; "6446,150,619,43,606,223"; "6522,150,608,134,612,314"; "5141,150,606,134,608,314"; "3859,60,607,134,613,314"]);
  ("KMDZ", ["5001,75,1454,89,1470,269"; "4101,75,1454,156,1450,336"]);
  ("KMEB", ["6489,150,216,45.8,200,225.8"; "3753,150,217,135.2,208,315.2"]);
  ("KMEI", ["10003,150,287,9,293,189"; "4599,150,290,44,297,224"]);
  ("KMEJ", ["2553,80,2529,90,2510,270"; "4800,75,2517,176,2502,356"]);
  ("KMEM", ["8946,150,253,92,292,272"; "11120,150,271,179,341,359"; "9000,150,278,179,335,359"; "9320,150,288,179,321,359"]);
  ("KMER", ["11802,150,188,141,178,321"]);
  ("KMEV", ["5300,75,4700,135,4722,315"; "2200,60"; "7400,100,4708,180,4717,360"]);
  ("KMEY", ["2801,60,1116,24.1,1116,204.1"]);
  ("KMEZ", ["6000,100,1077,91.3,1050,271.3"; "5000,75,1040,174,1079,354"]);
  ("KMF", ["1148"]);
  ("KMFD", ["6795,150,1287,46.9,1276,226.9"; "9001,150,1245,136.9,1290,316.9"]);
  ("KMFE", ["7120,150,107,140.6,102,320.6"; "2638,60,104,188.7,96,8.7"]);
  ("KMFI", ["3600,100,1252,46.9,1248,226.9"; "5000,100,1277,158.6,1254,338.6"]);
  ("KMFR", ["3136,100,1308,113,1320,293"; "8800,150,1298,159,1335,339"]);
  ("KMFV", ["5004,100,46,23,47,203"]);
  ("KMGC", ["4100,75,655,20,642,200"]);
  ("KMGE", ["10000,300,1068,106.2,989,286.2"; "4000,60"]);
  ("KMGG", ["8000,2000"; "2796,60,1028,102,1028,282"]);
  ("KMGJ", ["5006,100,351,16,351,196"; "3672,100,352,66.5,362,246.5"]);
  ("KMGM", ["4010,150,221,33,186,213"; "9010,150,219,96,195,276"]);
  ("KMGN", ["4157,75,679,96,686,276"]);
  ("KMGR", ["5129,100,269,39,294,219"; "3878,75,288,159.3,270,339.3"]);
  ("KMGW", ["2769,75,1241,44.9,1241,224.9"; "5199,150,1236,172.4,1244,352.4"]);
  ("KMGY", ["5000,100,936,22,955,202"]);
  ("KMHE", ["6700,100,1296,134.4,1303,314.4"; "5512,100,1283,179.6,1303,359.6"]);
  ("KMHK", ["7000,150,1054,40,1043,220"; "3800,100,1057,142,1044,322"]);
  ("KMHL", ["3320,150,,95,,275"; "4701,75,770,181,778,1"]);
  ("KMHP", ["3612,75,195,93,196,273"]);
  ("KMHR", ["6040,150,78,54.2,95,234.2"; "11301,150,75,53.6,96,233.6"]);
  ("KMHT", ["6850,150,220,42,238,222"; "9250,150,218,157,265,337"]);
  ("KMHV", ["4743,50,2778,52,2779,232"; "7050,100,2777,90,2751,270"; "9502,200,2791,135,2693,315"]);
  ("KMIA", ["8600,150,8,87.4,8,267.4"; "10506,200,8,87,8,267"; "13000,150,7,87,8,267"; "9354,150,8,119,8,299"]);
  ("KMIB", ["13197,300,1668,125,1648,305"]);
  ("KMIC", ["2499,75,869,53,866,233"; "2122,202,869,53,868,233"; "3263,75,868,142,866,322"; "3266,75,868,142,866,322"]);
  ("KMIE", ["4998,100,937,15.8,934,195.8"; "6500,150,929,136,936,316"]);
  ("KMIO", ["5020,100,808,180,801,360"]);
  ("KMIT", ["4501,100,410,133,410,313"; "2972,100,421,180,412,360"]);
  ("KMIV", ["6002,150,74,90,85,270"; "5057,150,81,135.1,82,315.1"]);
  ("KMIW", ["5006,100,974,127.2,971,307.2"; "2806,50,971,183.5,968,3.5"]);
  ("KMJD", ["5000,75,55,180,52,360"]);
  ("KMJQ", ["2250,300,,48,,228"; "3591,75,1431,139,1445,319"]);
  ("KMJX", ["5949,100,77,49.7,76,229.7"; "3599,75,86,128,76,308"]);
  ("KMKA", ["3600,60,1559,158,1569,338"]);
  ("KMKC", ["7002,150,748,12.7,757,192.7"; "5050,150,743,38.4,743,218.4"]);
  ("KMKE", ["9690,200,704,7,671,187"; "4183,150,677,7.2,670,187.2"; "4800,100,672,71,674,251"; "8012,150,723,72,670,252"; "5868,150,670,132,669,312"]);
  ("KMKG", ["6501,150,622,56.4,627,236.4"; "5001,150,627,137.4,625,317.4"]);
  ("KMKJ", ["5252,75,2558,73.2,2502,253.2"]);
  ("KMKL", ["6006,150,433,22.2,411,202.2"; "3539,100,407,112.3,416,292.3"]);
  ("KMKN", ["4500,75,1385,180,1372,360"]);
  ("KMKO", ["4500,75,611,46.6,596,226.6"; "7201,150,607,136.6,580,316.6"; "1900,60,,180,,360"]);
  ("KMKS", ["4350,75,72,42.8,68,222.8"]);
  ("KMKT", ["3999,75,1007,47.2,1019,227.2"; "5400,100,1019,154.6,1020,334.7"]);
  ("KMKV", ["3802,75,73,36.6,78,216.6"]);
  ("KMKY", ["5000,100,4,168,4,348"]);
  ("KMLB", ["3001,75,25,42,21,222"; "6000,150,31,87,26,267"; "10181,150,32,87,22,267"]);
  ("KMLC", ["5602,100,741,20,770,200"]);
  ("KMLD", ["4950,60,4503,180,4473,360"]);
  ("KMLE", ["3801,75,1051,128.9,1046,308.9"]);
  ("KMLF", ["5000,75,5023,180,5039,360"]);
  ("KMLI", ["4509,150,578,49,586,229"; "10002,150,578,90.9,574,270.9"; "7001,150,585,128.2,580,308.2"]);
  ("KMLJ", ["5500,100,384,91,352,271"]);
  ("KMLS", ["5680,75,2629,52,2626,232"; "5624,100,2630,135,2626,315"]);
  ("KMLT", ["4713,100,401,90.4,395,270.4"; "4008,150,400,139,380,319"]);
  ("KMLU", ["7507,150,76,45,75,225"; "5000,150,79,140,76,320"; "5001,150,79,180,76,360"]);
  ("KMM", ["1992,59,21,131.6,26,311.6"]);
  ("KMMH", ["7000,100,7128,109,7056,289"]);
  ("KMMI", ["5000,75,807,18.6,858,198.6"]);
  ("KMMK", ["3100,75,103,161.7,99,341.8"]);
  ("KMML", ["4000,75,1179,28,1180,208"; "5010,100,1180,130,1178,310"]);
  ("KMMS", ["3348,70,161,17,161,197"]);
  ("KMMT", ["2033,90,,44.5,,224.5"; "9017,150,252,134,244,314"; "4500,150,,181.8,,1.8"]);
  ("KMMU", ["5999,150,183,36.1,184,216.1"; "3998,150,187,113.9,182,293.9"]);
  ("KMMV", ["5420,150,161,57,161,237"; "4676,150,161,186,163,6"]);
  ("KMNF", ["5005,75,1181,99,1139,279"]);
  ("KMNI", ["3602,75,95,12.1,103,192.1"]);
  ("KMNM", ["6000,100,614,31,622,211"; "5100,100,621,140,605,320"]);
  ("KMNN", ["5000,100,989,59.9,993,239.9"; "3498,100,986,119.9,989,299.9"]);
  ("KMNV", ["3501,75,1031,43.8,1001,223.8"]);
  ("KMNZ", ["5000,75,1299,189,1299,9"]);
  ("KMO1", ["3000,60,,146.3,,326.3"]);
  ("KMO3", ["3060,50,1034,16.4,1037,196.4"]);
  ("KMO6", ["5000,75,488,154,485,334"]);
  ("KMO8", ["4000,75,843,181.3,826,1.3"]);
  ("KMOB", ["8521,150,213,144,213,324"; "4365,150,216,180,212,360"]);
  ("KMOD", ["5911,150,97,124.2,79,304.2"; "3459,100,96,124.2,83,304.2"]);
  ("KMOP", ["2500,160,755,57,755,237"; "5000,100,754,91,752,271"]);
  ("KMOR", ["5701,100,1313,49.4,1275,229.4"]);
  ("KMOT", ["6350,100,1713,90.3,1658,270.3"; "7700,150,1702,138.4,1657,318.4"]);
  ("KMOX", ["2640,150,1123,49,1138,229"; "4000,75,1128,144,1124,324"]);
  ("KMPE", ["5000,50,440,185.3,458,5.3"]);
  ("KMPG", ["3302,60,1214,51.6,1194,231.6"]);
  ("KMPI", ["3306,60,2254,100,2223,280"]);
  ("KMPJ", ["5853,75,891,29,920,209"]);
  ("KMPO", ["4000,100,1876,36.6,1916,216.6"; "3948,60,1884,115.3,1879,295.3"]);
  ("KMPR", ["2511,75,1494,90,1493,270"; "5500,100,1497,186,1497,6"]);
  ("KMPV", ["4022,100,1115,32.3,1085,212.3"; "5002,100,1092,152,1157,332"]);
  ("KMPZ", ["1965,120,,31,,211"; "4001,75,725,152.5,730,332.5"]);
  ("KMQB", ["5101,100,705,90.1,679,270.1"; "3719,190,691,180.1,682,0.1"]);
  ("KMQI", ["4300,100,10,38,13,218"; "3303,75,14,158,13,338"]);
  ("KMQJ", ["5500,100,862,69.9,858,249.9"; "3901,75,858,160.1,857,340.1"]);
  ("KMQS", ["5400,100,639,101.7,660,281.7"]);
  ("KMQW", ["4030,75,202,23,185,203"]);
  ("KMQY", ["5546,100,519,4.1,521,184.1"; "8036,150,543,139.1,517,319.1"]);
  ("KMRB", ["9600,150,564,71,547,251"; "5001,150,544,160.6,542,340.6"]);
  ("KMRC", ["6003,100,664,53.7,681,233.7"; "2000,200,,170,,350"]);
  ("KMRF", ["5307,75,4827,45.3,4849,225.3"; "2825,60,4825,90,4836,270"; "6214,75,4840,135.3,4830,315.3"]);
  ("KMRH", ["4191,150,7,25.2,7,205.2"; "4249,100,7,68,8,248"; "4000,100,7,132.7,10,312.7"]);
  ("KMRJ", ["3601,60,1164,41,1171,221"; "5000,75,1129,110.7,1163,290.7"]);
  ("KMRN", ["5500,75,1231,23.6,1268,203.6"]);
  ("KMRT", ["4218,75,1021,83,997,263"]);
  ("KMRY", ["3513,60,198,112.8,256,292.8"; "7616,150,155,112.8,247,292.8"]);
  ("KMSL", ["6693,150,542,114,550,294"; "4000,100,539,181,541,1"]);
  ("KMSN", ["7200,150,860,28.8,887,208.8"; "5846,150,859,137,861,317"; "9005,150,859,181.9,862,1.9"]);
  ("KMSO", ["4612,75,3199,89,3204,269"; "9501,150,3192,130,3205,310"]);
  ("KMSP", ["11006,150,832,45,827,225"; "8000,150,838,121.3,819,301.3"; "10000,200,841,121.3,813,301.3"; "8000,150,840,169.5,833,349.5"]);
  ("KMSS", ["4998,100,203,31,215,211"; "4000,100,203,76,204,256"]);
  ("KMSV", ["6300,150,1403,143,1381,323"]);
  ("KMSY", ["7001,150,3,15,,195"; "3570,150,2,60.4,1,240.4"; "10104,150,4,106,2,286"]);
  ("KMT", ["1900,89"]);
  ("KMTC", ["9000,150,580,1.5,579,181.5"]);
  ("KMTH", ["5008,100,5,67,5,247"]);
  ("KMTJ", ["7500,100,5695,139.4,5755,319.4"; "10000,150,5690,179.8,5730,359.8"]);
  ("KMTN", ["6996,180,22,135,10,315"]);
  ("KMTO", ["5799,100,718,60.1,711,240.1"; "6501,150,715,113,715,293"; "1080,250,,175.6,,355.6"]);
  ("KMTP", ["3481,75,6,47,4,227"]);
  ("KMTV", ["5002,100,941,118,911,298"]);
  ("KMTW", ["3343,100,651,70,638,250"; "5002,100,646,170,650,350"]);
  ("KMUI", ["3967,100,489,59.6,489,239.6"]);
  ("KMUL", ["5000,300,,45,,225"; "4500,75,292,135,283,315"; "2900,300,,180,,360"]);
  ("KMUO", ["10000,500,,90,,270"; "13500,200,2986,135,2996,315"]);
  ("KMUT", ["5500,100,545,58,541,238"; "4000,75,536,125,543,305"]);
  ("KMVC", ["6016,100,413,30,419,210"]);
  ("KMVE", ["2330,165,1031,40,1020,220"; "4000,75,1034,142.8,1019,322.8"]);
  ("KMVI", ["5900,60,7605,28.6,7605,208.6"; "1731,45,,118,,298"; "2449,30,,172.4,,352.4"]);
  ("KMVL", ["3701,75,713,358.3,731,178.3"]);
  ("KMVM", ["2909,60,96,157.3,70,337.3"]);
  ("KMVN", ["6498,150,468,50,468,230"; "3149,100,480,150,458,330"]);
  ("KMVY", ["3177,75,55,355.6,65,175.6"; "5504,100,56,41,62,221"; "3297,75,67,131,56,311"]);
  ("KMWA", ["8012,150,453,22.7,466,202.7"; "5000,100,454,107.7,468,287.7"]);
  ("KMWC", ["3202,75,737,36,738,216"; "2862,275,732,36,736,216"; "4106,75,744,146,744,326"; "3251,275,742,145,733,325"]);
  ("KMWH", ["10000,100,1184,54,1150,234"; "3500,90,1185,108.2,1185,288.2"; "13503,200,1165,162,1163,342"; "2937,75,1164,162,1166,342"; "3307,75,1181,198,1181,18"]);
  ("KMWK", ["4302,75,1242,173.3,1208,353.3"]);
  ("KMWL", ["5996,100,917,135.6,973,315.6"; "4188,100,914,180.6,954,0.6"]);
  ("KMWM", ["3599,75,1407,180,1405,360"]);
  ("KMWO", ["6100,100,642,49.4,650,229.4"; "2984,300,650,85,650,265"]);
  ("KMXA", ["4200,60,240,180,242,360"]);
  ("KMXF", ["3015,60,,7,,187"; "8013,150,171,148,167,328"]);
  ("KMXO", ["2275,90,822,90,833,270"; "4400,75,825,153.8,829,333.8"]);
  ("KMY", ["10000,1000"]);
  ("KMYF", ["3400,150,417,65,425,245"; "4577,150,414,115,422,295"; "3400,60,414,115,421,295"]);
  ("KMYJ", ["5501,100,823,66,810,246"; "3199,50,812,181.7,818,1.7"]);
  ("KMYL", ["6107,75,5021,179,5003,359"]);
  ("KMYR", ["9503,150,22,168,21,348"]);
  ("KMYV", ["3281,60,60,67,62,247"; "6006,150,61,156.8,58,336.8"]);
  ("KMYZ", ["2190,75,1276,34,1273,214"; "4200,60,1277,161,1276,341"]);
  ("KMZH", ["3200,75,1074,39,1071,219"]);
  ("KMZJ", ["6690,150,1877,90,1891,270"; "6849,150,1875,134.6,1893,314.6"]);
  ("KMZZ", ["6000,100,859,37.6,851,217.6"; "3596,100,858,150.4,850,330.4"]);
  ("KN03", ["3400,75,1197,46.2,1163,226.2"]);
  ("KN06", ["3175,270,28,136,30,316"]);
  ("KN12", ["2912,60,43,47.2,33,227.2"]);
  ("KN13", ["2800,50,481,73,477,253"]);
  ("KN14", ["3496,75,34,7.7,49,187.7"]);
  ("KN19", ["2850,40,,53,5877,233"; "4300,50,,94,,274"]);
  ("KN23", ["4204,75,,58,1022,238"]);
  ("KN24", ["6861,75,7667,180.2,7690,0.2"]);
  ("KN27", ["4300,75,730,35,714,215"]);
  ("KN35", ["1985,100,,357.8,,177.8"; "3003,50,1410,56.7,1437,236.7"]);
  ("KN37", ["2595,40,1541,360,1528,180"; "2072,24,1523,138,1532,318"]);
  ("KN38", ["3600,60,1892,91,1881,271"]);
  ("KN40", ["2439,50,551,54.2,558,234.2"]);
  ("KN47", ["2704,75,254,67,244,247"]);
  ("KN51", ["3735,120,,29.4,,209.4"; "3440,200,187,119,152,299"]);
  ("KN52", ["3309,40,602,38,599,218"]);
  ("KN53", ["3087,30,471,67,480,247"]);
  ("KN57", ["3695,50,435,45.6,432,225.6"]);
  ("KN58", ["2750,40,4326,65,4280,245"; "3974,40,4278,163,4331,343"]);
  ("KN59", ["4200,60,,35.5,,215.5"; "4800,32,,90.5,,270.5"; "3700,64,,184.5,,4.5"]);
  ("KN66", ["4200,75,1764,44,1751,224.1"]);
  ("KN68", ["3300,75,683,48,683,228"]);
  ("KN69", ["3315,50,326,47,351,227"]);
  ("KN71", ["3250,50,458,85,400,265"]);
  ("KN73", ["2880,50,54,38,43,218"]);
  ("KN79", ["3297,75,853,72.4,881,252.4"]);
  ("KN81", ["3602,75,65,16.1,58,196.1"]);
  ("KN82", ["3592,60,548,38,537,218"; "1100,110,542,78,534,258"; "2101,120,543,128,532,308"; "1250,150,539,175,536,355"]);
  ("KN87", ["4275,80,107,95.5,117,275.5"]);
  ("KN89", ["3838,75,290,35,290,215"]);
  ("KN94", ["4008,40,502,91.7,510,271.7"]);
  ("KN96", ["3640,40,1069,56,1058,236"]);
  ("KN98", ["4000,75,657,93,657,273"]);
  ("KNBC", ["12202,200,37,41.8,13,221.8"; "6425,150,,90,,270"; "7999,200,32,135.2,22,315.2"; "3941,150,,180,,360"]);
  ("KNBG", ["9999,200,-1,44.2,-1,224.2"; "6000,200,1,140.5,1,320.5"]);
  ("KNBJ", ["4000,150,54,90,49,270"; "4000,150,45,152,49,332"]);
  ("KNCA", ["4790,150,24,360,16,180"; "5114,150,24,45,16,225"]);
  ("KNDY", ["4191,150,20,159,20,339"]);
  ("KNDZ", ["5997,200,162,47,172,227"; "6000,200,175,90,171,270"; "6001,200,170,137,166,317"; "6000,200,172,180,169,360"]);
  ("KNEL", ["5000,150,91,50.5,103,230.5"; "5001,150,99,140.5,91,320.5"]);
  ("KNEN", ["8000,150,95,12,97,288"]);
  ("KNEW", ["3113,75,5,89,5,269"; "3697,75,6,179,7,359"; "6880,150,6,179,7,359"]);
  ("KNFD", ["2850,150,142,47,146,227"; "2850,150,142,109,141,289"; "2850,150,146,166,141,346"]);
  ("KNFE", ["8000,175,13,45.5,13,225.5"]);
  ("KNFG", ["6006,200,62,44.7,78,224.7"]);
  ("KNFJ", ["4000,175,99,45,105,225"; "3600,175,107,113.6,101,293.6"; "8000,150,80,180,85,360"]);
  ("KNFL", ["7004,154,3929,87.8,3927,267.8"; "11079,200,3934,145.2,3927,325.2"; "14005,201,3934,145.2,3926,325.2"]);
  ("KNFW", ["12000,200,622,180.5,650,0.5"]);
  ("KNGP", ["4997,200,17,45,13,225"; "4998,200,13,135,18,315"; "8003,200,9,135,17,315"; "5003,200,13,180,16,360"]);
  ("KNGS", ["4500,150,127,46,144,226"; "4500,150,137,91,150,271"; "4500,150,138,136,113,316"; "4500,150,140,180,113,360"]);
  ("KNGU", ["8369,200,14,90,13,270"]);
  ("KNGW", ["5000,150,29,133,22,313"; "5000,150,,178.9,23,358.9"]);
  ("KNHK", ["5021,75,37,8.1,25,188.1"; "11807,200,39,49.1,20,229.1"; "9742,200,27,126,16,306"]);
  ("KNHL", ["3000,150,61,43,51,223"; "3000,150,60,88,51,268"; "3000,150,59,176,59,356"]);
  ("KNHZ", ["8000,200,64,355,75,175"; "8000,200,62,354.9,74,174.9"; "6000,100"]);
  ("KNID", ["9991,200,2283,42.3,2200,222.3"; "7701,200,2260,90.8,2225,270.8"; "9011,200,2202,154.1,2240,334.1"]);
  ("KNIP", ["8002,200"; "5984,200,12,135,9,315"]);
  ("KNJK", ["9503,200,-47,89.9,-46,269.9"; "6823,200,-46,135.1,-43,315.1"]);
  ("KNJM", ["3997,96,22,40.9,22,220.9"]);
  ("KNJW", ["7976,150,519,134,540,314"]);
  ("KNKL", ["3600,150,4,47,36,227"; "3600,150,34,91,38,271"; "3600,150,31,177,34,357"]);
  ("KNKT", ["7553,200,28,45.5,19,225.5"; "8188,196,23,45.5,29,225.5"; "8984,200,19,135.5,26,315.5"; "8399,200,28,135.5,17,315.5"]);
  ("KNKX", ["12000,200,425,75.4,475,255.4"; "8000,200,430,75.4,478,255.4"; "2800,200,461,110.5,473,290.5"]);
  ("KNLC", ["13502,200,221,156,226,336"; "13502,200,232,156,231,336"]);
  ("KNMM", ["8002,200,255,9,295,189"; "8002,200,271,9,317,189"; "6401,200,300,99,305,279"]);
  ("KNOG", ["8000,200,257,14.6,257,194.6"; "8000,200,257,134.7,257,314.7"]);
  ("KNOW", ["4500,150,9,94,8,274"]);
  ("KNPA", ["7137,200,28,6,16,186"; "8002,200,23,68,16,248"; "8001,200,24,68,15,248"]);
  ("KNQA", ["8000,200,276,38.9,320,218.9"; "4850,150,296,142.2,302,322.3"; "4250,200,,185.6,,5.6"]);
  ("KNQB", ["2915,150,118,43,115,223"; "3000,150,126,91,115,271"; "2915,150,126,157,115,337"]);
  ("KNQI", ["8000,200,48,134.4,37,314.4"; "8000,200,50,134.4,42,314.4"; "8000,200,48,179.4,47,359.4"; "8000,200,48,179.4,48,359.4"]);
  ("KNQX", ["7000,150,4,32,6,212"; "10000,200,5,73,5,253"; "7000,150,4,131,4,311"]);
  ("KNRA", ["5400,200,199,156,193,336"]);
  ("KNRB", ["8001,200,13,43,14,223"]);
  ("KNRN", ["2117,250,2348,92,2351,272"; "4700,60,2382,164.5,2361,344.5"]);
  ("KNRQ", ["1800,150,143,39,142,219"; "1800,150,140,39,141,219"; "1800,150,142,90,141,270"; "1800,150,143,90,140,270"; "1800,150,143,135,140,315"; "1800,150,142,135,140,315"; "1800,150,140,180,140,360"; "1800,150,141,180,143,360"]);
  ("KNRS", ["2241,150,24,105.2,21,285.2"; "4999,340,24,105.1,24,285.1"]);
  ("KNSE", ["6000,200,170,47,183,227"; "6000,200,166,94,161,274"; "6000,200,199,137,160,317"; "6000,200,198,180,177,360"]);
  ("KNSI", ["10002,200,485,132.6,497,312.6"]);
  ("KNTD", ["11102,200,11,43.8,13,223.8"; "5504,200,10,105,12,285"]);
  ("KNTU", ["8001,150,20,42.1,19,222.1"; "11997,200,18,42.1,21,222.1"; "8000,150,18,133.4,20,313.4"; "7999,200,19,133.8,21,313.8"]);
  ("KNUC", ["9301,200,91,67.3,184,247.3"]);
  ("KNUI", ["5000,150,13,66,22,246"; "5000,150,14,142,20,322"]);
  ("KNUN", ["4000,150,65,45,73,225"; "5296,200,80,90,83,270"; "4000,150,68,139,77,319"; "5200,200,85,182,83,2"]);
  ("KNUQ", ["9202,200,1,157.7,27,337.7"; "8127,200,1,157.7,31,337.7"]);
  ("KNUW", ["8000,200,18,87,23,267"; "8001,200,39,155,47,335"]);
  ("KNVD", ["5901,75,892,26.5,880,206.5"; "2581,40,877,135.4,874,315.4"]);
  ("KNVI", ["3000,3000"]);
  ("KNWL", ["5000,200,23,135.3,,315.3"; "5000,200,23,180,,360"]);
  ("KNXP", ["8015,150,2051,112.3,2018,292.3"]);
  ("KNXX", ["8002,200,294,141.7,358,321.7"]);
  ("KNY0", ["4000,75,865,89,881,269"]);
  ("KNY2", ["3970,60,,97,,277"]);
  ("KNYG", ["4279,200,10,15,11,195"]);
  ("KNYL", ["13299,200,193,44.1,193,224.1"; "9239,150,188,44.1,208,224.1"; "6145,150,195,89.1,213,269.1"; "5710,150,196,179.1,183,359.1"]);
  ("KNZJ", ["3900,250,252,,320"; "8000,200,259,,383"; "8000,200,255,,377"; "10000,200,366,,304"; "10000,200,358,,298"]);
  ("KNZX", ["5000,1400,,90,,270"]);
  ("KNZY", ["7500,300,19,122,26,302"; "8000,200,19,195.5,10,15.5"]);
  ("KO02", ["4651,75,4898,90,4891,270"]);
  ("KO05", ["5320,120,4525,70,4501,250"; "5000,100,4527,173,4506,353"]);
  ("KO08", ["3000,60,44,151.1,47,331.1"]);
  ("KO09", ["3670,55,1434,114.4,1416,294.4"]);
  ("KO11", ["4200,60,,178,,358"]);
  ("KO15", ["2985,50,159,135.3,159,315.3"]);
  ("KO16", ["3050,75,532,196.2,546,16.2"]);
  ("KO20", ["4000,60,13,134.4,15,314.4"]);
  ("KO22", ["2600,100,2089,134,2077,314"; "4670,75,2118,190,2071,10"; "100,100"; "78,78"]);
  ("KO24", ["4090,50,6758,161.5,6802,341.5"]);
  ("KO26", ["2391,90,3710,144,3691,323"; "4000,60,3679,180,3674,360"; "30,30"]);
  ("KO27", ["3020,66,221,111.5,234,291.5"]);
  ("KO28", ["3000,75,2053,177,2010,357"]);
  ("KO32", ["3300,50,385,168.6,379,348.6"]);
  ("KO35", ["3000,60,1658,180,1658,360"]);
  ("KO37", ["4500,60,215,165.6,207,345.7"]);
  ("KO41", ["3770,60,113,199.1,125,19.1"]);
  ("KO42", ["3320,50,422,90,425,270"]);
  ("KO43", ["5800,75,4377,25,4371,205"]);
  ("KO46", ["5000,60,2917,157,2938,337.1"]);
  ("KO47", ["2757,60,1040,180,1015,360"]);
  ("KO51", ["3950,50,,180,,360"]);
  ("KO52", ["3045,75,60,187,58,7"]);
  ("KO53", ["3007,60,1092,180.1,1085,0.1"]);
  ("KO54", ["2980,50,2350,195.8,2230,15.8"]);
  ("KO57", ["4239,60,6460,180,6468,360"]);
  ("KO59", ["4415,50,4623,29.7,4564,209.7"]);
  ("KO60", ["3155,60,272,155,269,335"]);
  ("KO61", ["4051,50,1287,144,1267,324"]);
  ("KO65", ["3000,60,1208,179.9,1196,359.9"]);
  ("KO69", ["3600,75,87,125,74,305"]);
  ("KO70", ["3401,60,1691,22,1684,202"]);
  ("KO79", ["3260,50,4983,48.7,4951,228.7"]);
  ("KO81", ["3577,44,4040,128.6,4044,308.6"]);
  ("KO86", ["3215,50,2390,161.3,2388,341.3"]);
  ("KO88", ["4200,75,21,86,21,266"; "2200,60,22,160,21,340"]);
  ("KO89", ["3600,75,3323,33.1,3319,213.1"]);
  ("KOAJ", ["7100,150,90,44,92,224"]);
  ("KOAK", ["5454,150,6,112.2,6,292.2"; "6212,150,8,112,8,292"; "10000,150,8,130,9,310"; "3372,75,2,165,4,345"]);
  ("KOAR", ["3000,75,134,123.2,134,303.2"]);
  ("KOBE", ["5000,150,34,44,34,224"; "4000,150,34,135,34,315"]);
  ("KOBI", ["3304,75,25,360,42,180"; "3073,75,40,120,36,300"]);
  ("KOCF", ["3010,50,88,80,89,260"; "6907,150,81,180,78,360"]);
  ("KOCH", ["3610,75,339,153.9,355,333.9"; "5000,75,337,184.5,327,4.5"]);
  ("KOCQ", ["1845,150,,40,,220"; "3199,75,604,110,601,290"]);
  ("KOCW", ["5000,100,32,37,38,217"; "4000,150,32,92,36,272"; "5000,150,37,155.2,35,335.2"]);
  ("KODO", ["5703,75,2952,30,3004,210"; "3420,60,2971,120,2971,300"; "5003,75,2987,165,2958,345"]);
  ("KODX", ["4500,60,2070,136.1,2059,316.1"; "2086,300,2060,179.1,2058,359.1"]);
  ("KOEA", ["2350,120,,25.7,,205.7"; "3450,150,414,90,414,270"; "2625,135,414,141.9,414,321.9"]);
  ("KOEB", ["3500,75,956,34,955,214"; "5350,75,956,64,952,244"; "2400,190,,162,,342"]);
  ("KOEL", ["2270,110,3040,90,3040,270"; "5000,75,3045,169,3019,349"]);
  ("KOEO", ["2270,150,,45.1,,225.1"; "3862,75,883,103.8,903,283.8"]);
  ("KOFF", ["11700,300,1038,129.1,971,309.1"]);
  ("KOFK", ["5800,100,1573,19.4,1531,199.4"; "5800,100,1543,142,1560,322"]);
  ("KOFP", ["5400,100,204,149.7,202,329.7"]);
  ("KOGA", ["5100,75,3260,89.9,3245,269.9"; "3698,50,3278,144.3,3245,324.3"]);
  ("KOGB", ["4500,100,170,42.3,195,222.3"; "2800,165,195,121.7,195,301.7"; "5401,100,174,167.3,186,347.3"]);
  ("KOGD", ["8103,150,4473,44.8,4415,224.8"; "5600,150,4448,89.8,4429,269.8"; "5195,150,4436,179.8,4457,359.8"]);
  ("KOGM", ["3500,75,639,163,665,343"]);
  ("KOGS", ["5200,150,286,76,297,256"]);
  ("KOIC", ["4724,75,1010,2.6,1023,182.6"]);
  ("KOIN", ["1686,190,2668,42.3,2672,222.3"; "2850,125,2683,135,2651,315"; "3793,50,2703,180.5,2668,0.5"]);
  ("KOJA", ["4399,75,1601,179.9,1598,359.9"]);
  ("KOJC", ["4098,75,1096,180.1,1050,0.1"]);
  ("KOKB", ["2712,75,25,73.5,28,253.5"]);
  ("KOKC", ["7800,150,1279,135.1,1286,315.1"; "9802,150,1286,180,1283,360"; "9800,150,1282,180,1263,360"; "3079,75,1275,180,1271,360"]);
  ("KOKH", ["3244,25,140,90,192,270"]);
  ("KOKK", ["5201,150,830,44.8,819,224.8"; "4001,150,826,135.3,824,315.3"]);
  ("KOKM", ["4300,150,683,45,692,225"; "5150,100,720,179,685,359"]);
  ("KOKS", ["4701,60,3394,133.6,3381,313.6"]);
  ("KOKV", ["5500,100,726,133.8,701,313.8"]);
  ("KOKZ", ["5015,75,407,120.4,436,300.4"]);
  ("KOLD", ["3199,75,126,22,119,202"; "3999,100,125,97,119,277"; "8400,100"]);
  ("KOLE", ["4800,100,2131,32,2114,212"; "2117,105,2135,148,2114,328"]);
  ("KOLF", ["5089,100,1984,120,1983,300"]);
  ("KOLG", ["3100,60,1101,7.7,1100,187.7"]);
  ("KOLM", ["4157,150,206,104,204,284"; "5501,150,196,191,203,11"]);
  ("KOLS", ["7199,90,3836,46.1,3923,226.2"]);
  ("KOLU", ["4135,150,1440,29.8,1439,209.8"; "6800,100,1447,150,1442,330"]);
  ("KOLV", ["6000,100,401,180,394,360"]);
  ("KOLY", ["3599,60,465,35.8,472,215.8"; "4100,75,482,107.2,469,287.2"]);
  ("KOLZ", ["4001,75,1076,135,1059,315"; "1800,85,,182.5,,2.5"]);
  ("KOM", ["2592,147"]);
  ("KOMA", ["8500,150,982,144.4,981,324.4"; "9502,150,983,144.4,980,324.4"; "8153,150,981,180,978,360"]);
  ("KOMH", ["3200,75,445,66,464,246"]);
  ("KOMK", ["4667,150,1305,189,1298,9"]);
  ("KOMN", ["4000,180,,40,,220"; "4004,75,29,79,21,259"; "4000,180,,130,,310"; "3701,100,25,168,27,348"]);
  ("KONA", ["5199,100,655,120,655,300"; "2553,75,655,176,656,356"]);
  ("KONL", ["3030,120,2030,42.8,2027,222.8"; "4409,75,2031,138.9,2031,318.9"]);
  ("KONM", ["4590,60,4875,74,4785,254"; "5841,100,4799,164,4744,344"]);
  ("KONO", ["4307,100,2193,159,2189,339"]);
  ("KONP", ["3000,75,130,37,160,217"; "5398,150,151,177,155,357"]);
  ("KONT", ["12198,150,943,90,930,270"; "10200,150,935,90,924,270"]);
  ("KONX", ["4001,150,13,35,16,215"]);
  ("KONY", ["5098,75,1264,45.3,1269,225.3"; "5096,150,1271,135.3,1243,315.3"; "5101,75,1275,180.3,1261,0.3"]);
  ("KONZ", ["4846,100,579,30,591,210"; "4425,75,581,167,579,347"]);
  ("KOOA", ["1975,75,837,44,840,224"; "4003,75,837,135,835,315"]);
  ("KOPF", ["8002,150,7,87,8,267"; "4306,100,6,87,6,267"; "6800,150,8,122,8,302"]);
  ("KOPL", ["4051,100,70,60,75,240"; "4550,100,,119.6,,299.6"; "5849,100,71,180,71,360"]);
  ("KOPN", ["5701,100,796,118,796,298"]);
  ("KOQN", ["3347,50,459,77,462,257"]);
  ("KOQU", ["4000,100,12,360,12,180"; "4000,75,12,34,10,214"; "2963,100,,90,,270"; "7504,150,19,145,10,325"]);
  ("KOQW", ["3300,60,769,154.7,738,334.7"]);
  ("KOR", ["1640,98"]);
  ("KORB", ["4001,75,1309,138,1308,318"]);
  ("KORC", ["4250,60,1414,165,1393,345"]);
  ("KORD", ["7500,150,656,39,648,219"; "8075,150,661,42,651,222"; "7500,150,668,90,664,270"; "7967,150,660,90,650,270"; "10801,200,669,90,650,270"; "13000,150,672,90,651,270"; "10005,150,653,140,648,320"; "9686,200,666,140,654,320"; "5332,150,646,180,653,360"]);
  ("KORE", ["5000,75,552,1,538,181"; "5000,150,,43.2,,223.3"; "4801,75,534,127,550,307"]);
  ("KORF", ["9001,150,21,38,15,218"; "4875,150,19,128,22,308"]);
  ("KORG", ["4396,75,9,42.2,12,222.2"; "3000,50,13,137.1,10,317.1"]);
  ("KORH", ["7000,150,981,93.9,988,273.9"; "5000,100,1005,138,997,318"]);
  ("KORK", ["5002,75,541,55,518,235"; "3019,75,544,179.7,541,359.7"]);
  ("KORL", ["6003,150,105,67,110,247"; "4638,100,104,130.8,109,310.8"]);
  ("KORS", ["2900,60,31,,31"]);
  ("KOSA", ["5000,75,363,172,341,352"]);
  ("KOSC", ["11800,200,634,58,622,238"]);
  ("KOSH", ["3424,75,790,44.8,775,224.8"; "6178,150,797,90.5,775,270.6"; "3060,75,781,129.4,781,309.4"; "8002,150,789,180.5,808,0.5"]);
  ("KOSU", ["3555,100,903,48.7,892,228.7"; "2994,100,904,87.1,891,267.1"; "5004,100,901,87.1,889,267.1"; "3438,100,900,136.2,893,316.2"]);
  ("KOSX", ["5000,75,480,137,470,317"]);
  ("KOTG", ["5506,100,1574,115,1565,295"; "4201,100,1568,180,1574,360"]);
  ("KOTH", ["5321,150,16,61,13,241"; "4471,150,13,150,17,330"]);
  ("KOTM", ["5178,200,841,45,836,225"; "5885,150,840,135,838,315"]);
  ("KOUN", ["4747,100,1175,36.1,1179,216.1"; "5200,100,1181,179.7,1177,359.7"]);
  ("KOVE", ["6020,100,181,33,185,213"; "3540,100,193,144,177,324"]);
  ("KOVL", ["3498,75,1071,118,1076,298"]);
  ("KOVO", ["5002,75,758,47.7,756,227.7"; "2730,50,752,152.8,757,332.8"]);
  ("KOVS", ["3660,58,672,17,672,197"; "5000,75,672,67.1,672,247.1"]);
  ("KOWA", ["5500,100,1106,124,1145,304"]);
  ("KOWB", ["5000,100,405,52,403,232"; "6494,150,406,177.7,399,357.7"]);
  ("KOWD", ["3995,75,48,89,46,269"; "4008,100,49,155,47,335"]);
  ("KOWI", ["2345,81,962,51.6,962,231.6"; "1900,72,958,131.3,961,311.3"; "4500,75,966,179.8,964,359.8"]);
  ("KOWK", ["3999,100,265,9.3,266,189.3"; "3999,100,263,129.3,257,309.3"]);
  ("KOWP", ["5800,100,883,176,889,356"]);
  ("KOWX", ["4427,65,754,90,763,270"]);
  ("KOXB", ["3201,75,9,10,11,190"; "4072,75,11,133,11,313"]);
  ("KOXC", ["5800,100,725,171,686,351"]);
  ("KOXD", ["4011,70,1041,46,1034,226"]);
  ("KOXI", ["3085,145,681,89.9,683,269.9"; "4400,75,683,180,683,360"]);
  ("KOXR", ["5953,100,34,90.5,41,270.5"]);
  ("KOXV", ["4000,75,924,156,928,336"]);
  ("KOY", ["10000,1000"]);
  ("KOYM", ["4300,75,1902,90,1934,270"]);
  ("KOZA", ["6000,75,2377,167.7,2355,347.7"]);
  ("KOZR", ["4500,150,296,61,295,241"; "4500,150,,134,,314"; "5000,150,301,181,296,1"]);
  ("KOZW", ["5002,100,962,127.4,943,307.4"]);
  ("KP-0002", ["6200,289"]);
  ("KP-0003", ["2973"]);
  ("KP-0004", ["8180,174"]);
  ("KP-0005", ["8170,131"; "9220,79"]);
  ("KP-0006", ["6450,194"]);
  ("KP-0007", ["6620,282"]);
  ("KP-0009", ["3250,236"]);
  ("KP-0010", ["8420,49"]);
  ("KP-0011", ["4310,69"]);
  ("KP-0012", ["2340,92,,33,,213"]);
  ("KP-0013", ["8150,130"]);
  ("KP-0014", ["6290,82"]);
  ("KP-0015", ["8200,140,,58,,238"]);
  ("KP-0016", ["6640,120"]);
  ("KP-0017", ["3070,112"]);
  ("KP-0018", ["8180,190"]);
  ("KP-0019", ["3650,253"]);
  ("KP-0020", ["8180,154,,116,,296"]);
  ("KP-0022", ["8150,164"]);
  ("KP-0023", ["8150,170"]);
  ("KP-0024", ["6520,85"]);
  ("KP-0025", ["8150,161"]);
  ("KP-0027", ["7400,266"]);
  ("KP-0028", ["7400,266"]);
  ("KP-0029", ["10750,197"]);
  ("KP-0030", ["5200,75"]);
  ("KP-0031", ["8500,180"]);
  ("KP-0032", ["8202,196,,34,,214"]);
  ("KP-0033", ["1560,46"]);
  ("KP-0034", ["3910,197"]);
  ("KP-0035", ["9500,135,,126,,306"]);
  ("KP-0036", ["9170,203"]);
  ("KP-0037", ["6400,79"]);
  ("KP-0038", ["8150,131,,101,,281"]);
  ("KP-0039", ["8202,140,,144,,324"]);
  ("KP-0040", ["6563,80,,103,,283"]);
  ("KP-0042", ["2400,125"]);
  ("KP-0043", ["2600,89"]);
  ("KP-0044", ["2950,199"]);
  ("KP-0045", ["1600,102"]);
  ("KP-0046", ["2800,154"]);
  ("KP-0047", ["8850,82"]);
  ("KP-0048", ["2900,141"]);
  ("KP-0049", ["4800,400"]);
  ("KP-0050", ["6650,164"]);
  ("KP-0051", ["1430,16"]);
  ("KP-0052", ["6450,85"]);
  ("KP-0053", ["7850,174"]);
  ("KP-0054", ["9550,207"]);
  ("KP-0055", ["3500,200"]);
  ("KP-0056", ["3750,164,,91,,271"]);
  ("KP-0057", ["3360,82"]);
  ("KP-0058", ["3900,207"]);
  ("KP-0059", ["3530,150"]);
  ("KP-0060", ["4540,105"]);
  ("KP-0061", ["3650,253"]);
  ("KP-0062", ["880,49"]);
  ("KP-0063", ["2850,102"]);
  ("KP-0064", ["2500,128"]);
  ("KP-0065", ["6360,69"]);
  ("KP-0068", ["3550,33"]);
  ("KP-0069", [""]);
  ("KP-0072", ["9514,131"]);
  ("KP-0073", ["1500,62"]);
  ("KP-0075", ["8202,131"]);
  ("KP-0077", ["1850,52"]);
  ("KP-0078", ["8858,66"]);
  ("KP-0081", ["7650,52"]);
  ("KP-0082", ["6100,75"]);
  ("KP-0083", ["6562,82"]);
  ("KP-0085", ["2910,33"]);
  ("KP-0099", ["3020,141"]);
  ("KP01", ["3800,60,,137.9,1458,317.9"]);
  ("KP03", ["5303,72,,62.5,,242.5"]);
  ("KP04", ["2650,110,4740,31.2,4752,211.2"; "5929,60,4780,183.3,4724,3.3"]);
  ("KP08", ["5528,150,1548,60,1574,240"; "5547,150,,119.9,,299.9"; "3861,75,1565,180,1573,360"]);
  ("KP10", ["4200,50,5573,54.9,5560,234.9"]);
  ("KP13", ["6500,100,3261,101.8,3181,281.8"]);
  ("KP14", ["6698,75,5234,39.6,5262,219.6"; "3200,120,,119.8,,299.8"]);
  ("KP19", ["3913,60,1177,180.1,1173,0.1"]);
  ("KP20", ["4780,75,448,26.2,451,206.2"]);
  ("KP23", ["4800,75,5237,53,,233"]);
  ("KP29", ["4430,60,4743,67.2,4730,247.2"]);
  ("KP33", ["6095,75,4182,45,4185,225"; "6100,150,,155.2,,335.2"]);
  ("KP52", ["4250,75,3520,156.5,3550,336.5"]);
  ("KPAE", ["4514,75,572,134,600,314"; "3000,75,597,180,596,360"; "9010,150,558,179,579,359"]);
  ("KPAH", ["6499,150,410,44,381,224"; "5500,150,392,139,402,319"]);
  ("KPAM", ["10004,200,16,134,16,314"; "9135,150,14,134,17,314"]);
  ("KPAN", ["5500,75,5139,72.3,5157,252.3"]);
  ("KPAO", ["2443,70,6,142,6,322"]);
  ("KPB", ["4000,250"]);
  ("KPBF", ["5998,150,204,179.8,199,359.8"]);
  ("KPBG", ["11758,200,234,158,159,338"]);
  ("KPBH", ["5000,75,1465,8,1497,188"; "3950,75,1465,59,1471,239"]);
  ("KPBI", ["10008,150,19,93,16,273"; "3213,75,17,93,14,273"; "6932,150,17,135,16,315"]);
  ("KPBX", ["3600,75,1473,16,1457,196"; "5350,100,1451,84,1465,264"]);
  ("KPCA", ["1500,75"; "1500,75"; "1500,75"; "1500,75"]);
  ("KPCM", ["3950,75,153,94,144,274"]);
  ("KPCW", ["5004,75,589,83,588,263"; "4001,75,586,178,589,358"]);
  ("KPCZ", ["1480,110,,56,,236"; "5200,100,840,93,805,273"; "3900,75,827,123,803,303"]);
  ("KPDC", ["3999,75,651,110,659,290"; "5000,75,651,139,650,319"]);
  ("KPDK", ["3746,150,990,20.5,977,200.5"; "6001,100,996,21,983,201"; "3383,150,1002,86.4,977,266.4"; "3967,150,998,157.4,991,337.4"]);
  ("KPDT", ["6300,150,1486,90,1487,270"; "5581,100,1487,128,1494,308"; "4341,60,1464,180,1496,360"]);
  ("KPDX", ["7001,150,22,45,27,225"; "8000,150,29,119,29,299"; "11000,150,22,119,23,299"]);
  ("KPEA", ["5400,75,881,167,871,347"]);
  ("KPEO", ["5500,100,990,357,916,177"; "3561,50,902,90,901,270"]);
  ("KPEQ", ["5954,80,2613,101.2,2598,281.2"; "6237,80,2608,146.2,2601,326.2"]);
  ("KPEX", ["3300,75,,110,,290"]);
  ("KPEZ", ["4000,75,428,163.1,400,343.1"]);
  ("KPFN", ["4884,150,10,45,13,225"; "6308,150,8,142,20,322"]);
  ("KPGA", ["2201,100,4242,81.9,4247,261.9"; "5950,150,4245,170.1,4316,350.1"]);
  ("KPGD", ["6695,150,23,29,26,209"; "4591,150,20,89,25,269"; "4743,150,18,149,25,329"]);
  ("KPGR", ["4500,75,289,46,285,226"; "2800,100,289,91,289,271"]);
  ("KPGV", ["6500,150,22,7.6,27,187.6"; "4998,150,25,66.7,25,246.7"; "2687,150,26,127.6,25,307.6"]);
  ("KPHD", ["2050,100,,107,,287"; "3950,100,894,139,886,319"]);
  ("KPHF", ["6526,150,37,12.8,43,192.8"; "8003,150,37,57.8,39,237.8"]);
  ("KPHG", ["2743,140,1892,36.5,1899,216.5"; "4503,60,1907,142.7,1885,322.7"]);
  ("KPHH", ["3001,60,17,172.3,26,352.3"]);
  ("KPHK", ["1617,100,,64,,244"; "4116,75,16,174,16,354"]);
  ("KPHL", ["5000,150,9,75.6,36,255.6"; "9500,150,13,75.5,11,255.5"; "10506,200,20,75.5,9,255.5"; "5460,150,9,159.1,9,339.1"]);
  ("KPHN", ["5103,100,640,36.1,649,216.1"; "4001,75,644,94.7,650,274.7"]);
  ("KPHP", ["3600,150,2201,63.2,2198,243.2"; "4000,75,2207,128.2,2192,308.2"]);
  ("KPHT", ["5001,100,580,16.4,568,196.4"]);
  ("KPHX", ["10300,150,1110,90,1134,270"; "7800,150,1111,90,1126,270"; "11489,150,1113,90.1,1135,270.1"]);
  ("KPIA", ["8003,150,643,38.5,656,218.5"; "10104,150,632,127,643,307"]);
  ("KPIB", ["6501,150,298,180,294,360"]);
  ("KPIE", ["5500,150,10,40,5,220"; "5165,150,10,88,5,268"; "8800,150,7,171,10,351"; "4000,75,6,171,8,351"]);
  ("KPIH", ["9060,150,4442,45,4448,225"; "7150,100,4447,180,4442,360"]);
  ("KPIL", ["4999,150,13,34.8,12,214.8"; "5300,150,13,89.9,18,269.9"; "8000,200,14,134.8,19,314.8"; "4200,150,13,179.8,18,359.8"]);
  ("KPIM", ["5002,100,902,88.4,900,268.4"]);
  ("KPIR", ["6887,150,1742,77.2,1700,257.2"; "6900,100,1729,141,1716,321"]);
  ("KPIT", ["9708,150,1139,92,1134,272"; "10502,150,1204,91.9,1175,271.9"; "11500,200,1135,92,1123,272"; "8101,150,1148,136.4,1114,316.4"]);
  ("KPJC", ["4102,75,895,165.4,901,345.4"]);
  ("KPJY", ["4000,60,400,181.3,394,1.3"]);
  ("KPKB", ["6781,150,806,22,858,202"; "4000,150,831,95,838,275"]);
  ("KPKD", ["5498,100,1443,135,1442,315"; "3190,140,1437,180,1442,360"]);
  ("KPKF", ["3200,60,1493,180,1500,360"]);
  ("KPKV", ["2700,60,,55,,235"; "5004,75,30,144.4,29,324.4"]);
  ("KPLB", ["5000,100,346,354.6,363,174.6"; "5000,100,371,129.9,328,309.9"]);
  ("KPLD", ["4002,75,913,89,925,269"]);
  ("KPLK", ["3739,100,938,119,931,299"]);
  ("KPLN", ["5395,150,710,44.7,720,224.7"; "6512,150,718,134.7,707,314.7"]);
  ("KPLR", ["5001,80,483,22,482,202"]);
  ("KPLU", ["3650,60,538,180,536"]);
  ("KPMB", ["3800,75,792,161.1,795,341.1"]);
  ("KPMD", ["12001,150,2543,51.7,2491,231.7"; "12002,150,2540,86.2,2499,266.2"; "6000,75"]);
  ("KPMH", ["5006,100,660,177.8,655,357.8"]);
  ("KPMP", ["4001,150,19,53,14,233"; "3502,100,18,98,12,278"; "4418,150,17,143,13,323"]);
  ("KPMU", ["5000,75,221,12,219,192"]);
  ("KPMV", ["4100,100,1188,167,1201,347"]);
  ("KPMZ", ["3700,75,37,17.4,35,197.4"]);
  ("KPNA", ["7100,100,7086,122.8,7065,302.8"]);
  ("KPNC", ["7201,150,998,180,1005,360"]);
  ("KPNE", ["7000,150,111,48.3,114,228.3"; "5000,150,121,140.8,109,320.8"]);
  ("KPNM", ["3900,75,979,158,979,338"]);
  ("KPNN", ["3999,150,239,38.3,248,218.3"; "4004,100,262,132.3,235,312.3"]);
  ("KPNS", ["7000,150,97,78,114,258"; "7004,150,121,167,103,347"]);
  ("KPNT", ["5001,75,649,59,666,239"]);
  ("KPOB", ["3000,60"; "7501,150,217,41.4,190,221.4"]);
  ("KPOC", ["3661,75,976,93.2,1011,273.2"; "4839,75,963,93.2,1002,273.2"]);
  ("KPOE", ["4109,125,329,160.5,278,340.5"]);
  ("KPOF", ["5008,100,329,181.4,328,1.4"]);
  ("KPOH", ["4100,60,1224,121.1,1221,301.1"; "1950,135,,185,,5"]);
  ("KPOU", ["5001,100,146,50.7,155,230.7"; "1358,100,,50.8,,230.8"; "2743,100,165,139,165,319"]);
  ("KPOV", ["3500,75,1194,85,1192,265"]);
  ("KPOY", ["2176,100,5092,44,5062,224"; "6205,100,4994,145,5092,325"; "2400,100,5010,180,5055,360"]);
  ("KPPA", ["4500,75,3243,60,3238,240"; "4500,150,3241,120.9,3244,300.9"; "5866,100,3238,180,3240,360"]);
  ("KPPF", ["4007,100,864,45,895,225"; "5687,100,899,180,865,360"]);
  ("KPPO", ["5000,75,801,20,812,200"; "2800,60,810,134,800,314"]);
  ("KPPQ", ["4000,60,710,135,695,315"]);
  ("KPQI", ["7440,150,454,346.4,534,166.4"; "5994,150,473,75.6,473,255.6"]);
  ("KPQL", ["6500,100,16,166,17,346"]);
  ("KPQN", ["2539,221,1723,97,1736,277"; "4302,75,1734,184,1729,4"]);
  ("KPR", ["10000,4000"]);
  ("KPRB", ["6009,150,812,28.5,801,208.5"; "4700,100,807,143.8,836,323.8"]);
  ("KPRC", ["4846,60,4970,41.3,4938,221.3"; "7550,150,5022,41.3,4960,221.3"; "4408,75,5024,136.5,5045,316.5"]);
  ("KPRG", ["4502,75,651,91,650,271"]);
  ("KPRN", ["5500,80,451,140,424,320"]);
  ("KPRO", ["2280,235,,52,,232"; "4000,75,1010,140.7,1004,320.7"]);
  ("KPRS", ["5200,75,2891,179,2932,359"]);
  ("KPRX", ["4624,150,530,37.2,546,217.2"; "4624,150,540,141.2,547,321.2"; "6002,150,541,179.2,526,359.2"]);
  ("KPRZ", ["5700,60,4078,22.9,4044,202.9"; "4560,60,4066,89.9,4058,269.9"]);
  ("KPSB", ["5006,100,1867,50,1917,230"; "5711,100,1948,156,1922,336"]);
  ("KPSC", ["7711,150,406,46,398,226"; "4423,75,399,46,400,226"; "7703,150,392,136,399,316"]);
  ("KPSF", ["5001,100,1194,64.2,1144,244.2"; "3496,100,1171,122.9,1142,302.9"]);
  ("KPSK", ["6201,150,2105,52.1,2073,232.1"]);
  ("KPSM", ["11321,150,97,149,84,329"]);
  ("KPSN", ["4003,75,423,90.6,388,270.6"; "5005,100,413,180.5,410,0.5"]);
  ("KPSO", ["8098,100,7624,23.8,7659,203.8"]);
  ("KPSP", ["4952,75,449,143.5,407,323.5"; "10000,150,451,143.5,405,323.5"]);
  ("KPSX", ["5001,150,11,90.2,12,270.2"; "5001,150,12,135.2,14,315.2"; "5001,150,11,180.2,14,0.2"]);
  ("KPTB", ["5001,100,193,42.8,190,222.8"; "3061,50,186,133.1,186,313.1"]);
  ("KPTD", ["3705,60,471,44,468,224"]);
  ("KPTK", ["2451,75,970,41,972,221"; "5000,100,976,88,973,268"; "6200,150,980,88,972,268"; "1856,50,973,178,969,358"]);
  ("KPTN", ["4500,100,,55,,235"; "5399,150,7,59.1,8,239.1"]);
  ("KPTS", ["4001,75,939,40,919,220"; "3008,100,949,110,921,290"; "5500,100,933,169,927,349"]);
  ("KPTT", ["5500,100,1950,180.1,1944,0.1"]);
  ("KPTV", ["5908,150,430,135.4,442,315.4"]);
  ("KPTW", ["3371,75,307,85,305,265"]);
  ("KPUB", ["10496,150,4667,88.3,4646,268.3"; "4073,75,4654,88.3,4641,268.3"; "8268,150,4725,133,4654,313"; "8308,150,4726,178.3,4645,358.3"]);
  ("KPUC", ["3631,75,5855,90.4,5885,270.4"; "4520,75,5857,158.7,5809,338.7"; "8319,100,5953,199,5808,19"]);
  ("KPUJ", ["5505,100,1289,,1282"]);
  ("KPUW", ["6730,100,2538,70,2549,250"]);
  ("KPVB", ["3600,75,999,68.1,1022,248.1"; "4000,75,1018,144.9,1019,324.9"]);
  ("KPVC", ["3500,100,9,59,9,239"]);
  ("KPVD", ["7166,150,51,32,44,212"; "6081,150,54,141.7,30,321.7"]);
  ("KPVE", ["6000,100,446,11.9,488,191.9"]);
  ("KPVF", ["4201,75,2577,62.9,2579,242.9"]);
  ("KPVG", ["3524,70,21,8.7,20,188.7"; "4056,70,20,92.4,16,272.4"]);
  ("KPVJ", ["3499,150,965,134,948,314"; "5000,100,968,180,946,360"]);
  ("KPVU", ["8599,150,4497,145.8,4493,325.8"; "6614,150,4494,191.8,4493,11.8"]);
  ("KPVW", ["5997,100,3373,50.7,3366,230.7"; "4000,100,3372,138,3372,318"]);
  ("KPVZ", ["3794,,683,,697"]);
  ("KPWA", ["4213,100,1270,135.1,1296,315.1"; "7198,150,1290,180,1299,360"; "5000,75,1283,180,1275,360"]);
  ("KPWC", ["3000,75,1295,164,1295,344"]);
  ("KPWD", ["2950,60,,87,,267"; "3900,75,2250,132,2236,312"; "1600,83,,180,,360"]);
  ("KPWG", ["3484,55,568,44,592,224"; "5501,75,591,179,566,359"]);
  ("KPWK", ["3660,50,647,63,641,243"; "4386,75,644,118,640,298"; "5000,150,643,159,645,339"]);
  ("KPWM", ["7200,150,77,95,43,275"; "5001,150,45,163.3,47,343.3"]);
  ("KPWT", ["6000,150,444,33,441,213"; "5122,150,,179,,359"]);
  ("KPXE", ["5002,100,419,179,412,359"]);
  ("KPY", ["10000,2000"]);
  ("KPYG", ["3395,60,550,50.4,575,230.4"]);
  ("KPYM", ["4349,75,135,40,147,220"; "3351,75,145,130,130,310"]);
  ("KPYN", ["3300,60,,30.1,,210.1"]);
  ("KPYP", ["5500,100,585,63,595,243"]);
  ("KPYX", ["3280,144,2915,51.1,2915,231.1"; "5700,75,2915,179.9,2915,359.9"]);
  ("KPZQ", ["4105,75,669,88,670,268"]);
  ("KQA", ["10000,1000"]);
  ("KQL", ["1647,98"]);
  ("KR-0012", ["75,75"]);
  ("KR47", ["4455,65,,84.2,,264.2"]);
  ("KR49", ["3498,60,,187,,7"]);
  ("KRAC", ["6556,100,667,37,665,217"; "4423,100,670,132,658,312"]);
  ("KRAL", ["5401,100,760,103.1,818,283.1"; "2851,48,774,178.6,751,358.6"]);
  ("KRAP", ["3601,75,3173,61.9,3204,241.9"; "8701,150,3191,151.8,3143,331.8"]);
  ("KRAS", ["3482,70,5,125.3,5,305.3"]);
  ("KRAW", ["3300,60,,182.9,,2.9"]);
  ("KRBD", ["6451,150,655,135.1,646,315.1"; "3800,150,651,180.1,659,0.1"]);
  ("KRBE", ["2250,120,2343,35.1,2341,215.1"; "4698,75,2344,140.9,2349,320.9"]);
  ("KRBG", ["4601,100,524,180,504,360"]);
  ("KRBL", ["5700,100,345,168.1,341,348.1"]);
  ("KRBM", ["5000,75,587,39.4,557,219.4"]);
  ("KRBO", ["3700,75,79,134.9,77,314.9"]);
  ("KRBW", ["6002,100,89,44,101,224"; "5408,150,81,88.6,92,268.6"; "5705,100,82,165.6,92,345.6"]);
  ("KRCA", ["13497,300,3279,138,3181,318"]);
  ("KRCK", ["3084,50,474,180,,360"]);
  ("KRCM", ["2801,60,798,137,786,317"; "4206,75,796,188.1,789,8.1"]);
  ("KRCR", ["5001,75,788,105.1,789,285.1"]);
  ("KRCT", ["4506,100,,180,,360"]);
  ("KRCX", ["3200,75,1222,7,1238,187"; "4000,75,1234,140.6,1225,320.6"]);
  ("KRCZ", ["3000,500,358,38.1,358,218.1"; "4492,100,350,130.1,355,310.1"]);
  ("KRDD", ["5067,150,500,140,492,320"; "7003,150,505,180,491,360"]);
  ("KRDG", ["6350,150,344,121.4,330,301.4"; "5151,150,291,172.2,342,352.2"]);
  ("KRDK", ["4100,75,1042,57.9,1043,237.9"; "2050,210,1042,142,1039,322"; "2901,60,1044,174.4,1038,354.4"]);
  ("KRDM", ["7040,150,3070,60,3050,240"; "6998,100,3041,122,3077,302"]);
  ("KRDR", ["12350,150,896,180,911,360"]);
  ("KRDU", ["10000,150,367,45,409,225"; "7500,150,397,45,431,225"; "3570,100,432,135,425,315"]);
  ("KRED", ["4000,75,,175,,355"]);
  ("KREI", ["4505,75,1469,89.7,1571,269.7"]);
  ("KREO", ["6000,150,,46,,226"]);
  ("KRFD", ["8199,150,708,5,736,185"; "10004,150,742,65,735,245"]);
  ("KRFG", ["2650,40,,103.2,,283.2"; "4361,60,,153,,333"]);
  ("KRFI", ["3002,75,434,126,437,306"; "4004,75,435,170,440,350"]);
  ("KRGK", ["5011,100,778,93,777,273"]);
  ("KRHI", ["5600,100,1607,52.7,1608,232.7"; "6800,150,1623,88.3,1600,268.3"; "4504,100,1598,148,1605,328"]);
  ("KRHP", ["5500,75,1682,71.3,1698,251.3"]);
  ("KRHV", ["3100,75,121,142.9,131,322.9"; "3099,75,121,142.9,128,322.9"]);
  ("KRIC", ["6607,150,159,13.4,165,193.4"; "5326,100,157,57.4,159,237.4"; "9003,150,167,147.6,161,327.7"]);
  ("KRID", ["5500,150,1135,55.2,1138,235.2"; "3560,150,1124,100,1137,280"; "5000,100,1127,145,1140,325"]);
  ("KRIF", ["6600,75,5301,25,5275,205"]);
  ("KRIL", ["7000,100,5457,92.8,5544,272.8"]);
  ("KRIR", ["3200,50,,79.2,764,259.2"]);
  ("KRIU", ["3800,75,140,53,141,233"]);
  ("KRIV", ["3010,100,1515,135.4,1501,315.4"; "13300,200,1535,149.3,1488,329.3"]);
  ("KRIW", ["4800,70,5459,24.3,5475,204.3"; "8203,150,5525,114.3,5456,294.3"]);
  ("KRJD", ["3200,50,64,109,64,289"]);
  ("KRK1", ["5500,150,668,102,668,282"]);
  ("KRKD", ["3900,100,50,13,55,193"; "5007,100,45,111,55,291"]);
  ("KRKP", ["4350,150,,100.5,,280.5"; "5608,150,14,145.4,24,325.4"; "4498,150,20,190.5,22,10.5"]);
  ("KRKR", ["4006,75,445,190,448,10"]);
  ("KRKS", ["5223,75,6730,45.2,6744,225.2"; "10000,150,6728,103.2,6760,283.2"]);
  ("KRKW", ["4995,100,1659,39.3,1630,219.3"]);
  ("KRLD", ["4009,75,391,26,389,206"; "3995,100,394,95,387,275"]);
  ("KRME", ["11820,200,504,134,499,314"]);
  ("KRMG", ["6000,150,632,4.9,624,184.9"; "4497,100,644,69.9,627,249.9"; "3596,75,632,134,629,314"]);
  ("KRMN", ["5000,100,211,139.2,171,319.2"]);
  ("KRMY", ["3500,75,939,96.6,937,276.6"]);
  ("KRNC", ["5000,100,1032,50.6,1026,230.6"]);
  ("KRND", ["8351,200,743,150.1,723,330.1"; "8353,200,762,150,728,330"]);
  ("KRNH", ["2110,75,,44.7,,224.7"; "4003,75,996,143.1,996,323.2"]);
  ("KRNM", ["5001,150,1386,100,1395,280"]);
  ("KRNO", ["6102,150,4409,90,4400,270"; "9000,150,4415,180,4408,360"; "11002,150,4415,180,4410,360"]);
  ("KRNP", ["2483,130,,59,,239"; "4300,75,736,103,736,283"; "2599,260,736,176,736,356"]);
  ("KRNT", ["5382,200,24,174,32,354"]);
  ("KRNV", ["4006,75,140,178,140,358"]);
  ("KROA", ["6800,150,1152,49.7,1155,229.7"; "5810,150,1165,147.9,1142,327.9"]);
  ("KROC", ["8001,150,527,32,559,212"; "4400,140,540,62,536,242"; "5500,150,554,87,541,267"]);
  ("KROG", ["6011,100,1358,19,1339,199"]);
  ("KROS", ["4400,75,924,160,918,340"]);
  ("KROW", ["13001,150,3667,45,3624,225"; "7425,200,3665,135.1,3648,315.1"; "9999,100,3663,180.1,3671,0.1"]);
  ("KROX", ["2504,250,1059,69,1059,249"; "4400,75,1059,167,1058,347"]);
  ("KRPB", ["1930,100,1520,141,1523,321"; "3500,60,1537,181.5,1537,1.5"]);
  ("KRPD", ["5700,100,1096,10.7,1107,190.7"; "3500,75,1092,130.7,1100,310.7"]);
  ("KRPH", ["4200,75,1113,39.6,1113,219.6"; "3317,50,1104,183,1123,3"]);
  ("KRPJ", ["4226,75,772,70,781,250"]);
  ("KRPX", ["5098,75,3491,78,3431,258"; "2458,100,3463,168,3481,348"]);
  ("KRQB", ["4300,75,990,90,946,270"; "2700,75,933,143,926,323"]);
  ("KRQE", ["7000,75,6698,34.1,6739,214.1"]);
  ("KRQO", ["5600,75,1412,180,1414,0"; "4630,190,1417,180,1417,0"]);
  ("KRRL", ["5100,75,1318,69,1306,249"; "2997,75,1317,156,1303,336"]);
  ("KRRQ", ["3097,50,1359,172,1357,352"]);
  ("KRRT", ["3000,150,,43.8,,223.8"; "5400,100,1074,139,1074,319"]);
  ("KRSL", ["1602,300,1856,30,1859,210"; "5000,75,1860,174,1863,354"]);
  ("KRSN", ["5003,100,276,180,309,360"]);
  ("KRST", ["7300,150,1315,26,1282,206"; "9033,150,1268,132,1304,312"]);
  ("KRSV", ["5109,75,462,91.8,455,271.8"; "3399,75,456,165.8,452,345.8"]);
  ("KRSW", ["12000,150,27,54,30,234"]);
  ("KRTN", ["6328,75,6332,34.2,6352,214.2"; "4404,75,6342,77.6,6310,257.6"]);
  ("KRU", ["1900,98"]);
  ("KRUE", ["5094,75,367,75,403,255"]);
  ("KRUG", ["3604,60,1532,128.2,1548,308.2"]);
  ("KRUQ", ["5500,100,770,16,767,196"]);
  ("KRUT", ["5000,100,782,359,776,179"; "3170,75,783,119,783,299"]);
  ("KRVJ", ["3802,75,173,108,195,288"])].

(* ADRpy/data/runways.csv *)
Definition airports_19 : list (string * list string) := [
  ("KRVL", ["5001,75,816,48.8,810,228.8"]);
  ("KRVN", ["3502,75,1255,64,1230,244"]);
  ("KRVS", ["5103,100,622,13.3,638,193.3"; "4212,100,619,13.3,630,193.3"; "2807,50,624,133,615,313"]);
  ("KRWF", ["2050,200,1017,56,1018,236"; "4001,100,1016,128,1021,308"]);
  ("KRWI", ["7100,150,159,33.3,151,213.3"]);
  ("KRWL", ["7008,100,6741,54,6813,234"; "4118,60,6813,115.1,6813,295.1"]);
  ("KRWN", ["4200,75,706,90,708,270"]);
  ("KRWV", ["3252,50,391,152.4,365,332.4"]);
  ("KRXE", ["4200,75,4858,186,4854,6"]);
  ("KRYM", ["6100,100,1151,136,1145,316"; "3500,80"]);
  ("KRYN", ["4900,75,2393,70.3,2396,250.3"; "5500,75,2398,70.3,2403,250.3"; "4000,75,2385,167,2417,347"]);
  ("KRYV", ["4430,75,818,53,823,233"; "2801,75,823,113.3,833,293.3"]);
  ("KRYW", ["3808,50,1231,161.3,1210,341.3"]);
  ("KRYY", ["6305,75,1028,88.8,998,268.8"]);
  ("KRZL", ["1930,150,685,90,680,270"; "4001,60,698,180,674,360"]);
  ("KRZN", ["3900,75,989,44,984,224"; "3500,75,986,137,987,317"]);
  ("KRZR", ["5500,100"]);
  ("KRZT", ["5404,100,725,42.4,704,222.4"; "3130,125,725,112.7,725,292.7"]);
  ("KRZZ", ["4006,75,256,46.3,255,226.3"; "2465,150,252,155,220,335"]);
  ("KS01", ["4601,75,3545,70,3525,250"; "2800,100,,165,,345"]);
  ("KS03", ["3603,75,1845,141,1885,321"]);
  ("KS05", ["3600,60,106,178,123,358"]);
  ("KS10", ["3539,60,1254,44,1263,224"]);
  ("KS12", ["3004,75,225,180,226,360"]);
  ("KS17", ["4837,40,540,60,540,240"]);
  ("KS19", ["3598,75,458,177.2,450,357.2"]);
  ("KS20", ["3491,40,,89,,269"]);
  ("KS21", ["5455,70,4158,196,4164,16"]);
  ("KS23", ["4059,45,2108,167,2104,347"]);
  ("KS24", ["5500,100,665,59.6,657,239.6"]);
  ("KS25", ["4401,75,2056,134.1,2109,314.1"; "2320,150,,180,,360"]);
  ("KS27", ["3600,60,,142,,322"]);
  ("KS32", ["3500,60,1422,134.7,1421,314.7"]);
  ("KS33", ["2701,50,2417,55,2424,235"; "5089,75,2430,180,2437,360"]);
  ("KS34", ["1750,100,,90,,270"; "4650,75"]);
  ("KS36", ["3288,40,,171,,351"]);
  ("KS39", ["5000,60,3250,120,3241,300"; "4031,40,3246,172,3240,352"]);
  ("KS40", ["3450,60,696,90,680,270"]);
  ("KS42", ["5000,60,,19.7,5891,199.7"]);
  ("KS45", ["3300,60,59,191,69,11"]);
  ("KS48", ["3095,32,,90,,270"]);
  ("KS50", ["3400,75,57,180,63,360"]);
  ("KS52", ["5048,75,1694,147,,327"]);
  ("KS59", ["5000,75,2581,165,2601,345"]);
  ("KS64", ["2260,100,,88,,268"; "4200,75,,127,,307"]);
  ("KS67", ["5000,75,2537,126,2530,306"]);
  ("KS69", ["4000,75,4574,56,4600,236"]);
  ("KS70", ["4206,45,1136,91.3,1151,271.3"]);
  ("KS71", ["4000,75,2416,100,2409,280"]);
  ("KS72", ["4250,60,2127,108,2125,288"]);
  ("KS73", ["3000,90,1184,156,1194,336"]);
  ("KS75", ["3000,50,2198,148,2228,328"]);
  ("KS78", ["3250,50,2347,116,2350,296"]);
  ("KS80", ["5100,75,3282,91,3310,271"]);
  ("KS83", ["5500,75,2203,87,2218,267"]);
  ("KS84", ["3100,50,3474,90,3404,270"]);
  ("KS85", ["3800,60,,90,,270"]);
  ("KS87", ["4000,60,2103,134,2112,314"]);
  ("KS94", ["3209,60,,90.5,,270.5"]);
  ("KS95", ["3819,60,750,65,740,245"]);
  ("KS97", ["4000,60,,87,,267"]);
  ("KS98", ["4008,150,534,45,496,225"]);
  ("KSAA", ["8800,100,7012,66,6908,246"]);
  ("KSAC", ["5503,150,18,33,24,213"; "3836,100,23,133.2,24,313.3"; "3485,150,22,179.6,17,359.6"]);
  ("KSAD", ["4800,75,3158,92,3177,272"; "6015,100,3163,135,3167,315"]);
  ("KSAF", ["8342,150,6274,35.1,6348,215.1"; "6300,75,6281,111.7,6297,291.7"; "6307,150,6317,166.7,6271,346.7"]);
  ("KSAN", ["9401,200,14,106,13,286"]);
  ("KSAR", ["2450,135,531,90,522,270"; "4001,60,538,180.3,538,0.3"]);
  ("KSAT", ["7505,150,786,40.8,762,220.8"; "5519,100,797,131.6,779,311.6"; "8502,150,809,131.6,778,311.6"]);
  ("KSAV", ["7002,150,29,0,42,180"; "9351,150,17,91,46,271"]);
  ("KSAW", ["12370,150,1180,9,1220,189"]);
  ("KSAZ", ["3304,75,1286,145,1284,325"]);
  ("KSBA", ["6052,150,9,88.5,9,268.5"; "4179,75,9,165.7,8,345.7"; "4183,100,8,165.7,8,345.7"]);
  ("KSBD", ["10001,200,1085,70.4,1159,250.4"]);
  ("KSBM", ["5402,100,742,35,739,215"; "5000,75,749,130,739,310"]);
  ("KSBN", ["4300,75,788,88.8,781,268.8"; "8412,150,790,88.8,770,268.8"; "6001,150,799,179,766,359"]);
  ("KSBO", ["6021,100,324,129,322,309"]);
  ("KSBP", ["2500,100,162,89.8,197,269.8"; "6100,150,162,124,212,304"]);
  ("KSBS", ["4452,100,6871,152.9,6877,332.9"]);
  ("KSBU", ["2290,200,,34,,214"; "3399,75,1092,161,1107,341"]);
  ("KSBX", ["5004,75,3414,65,3443,245"; "3701,60,3417,129,3428,309"]);
  ("KSBY", ["5000,100,45,37,50,217"; "5500,150,46,127,52,307"]);
  ("KSCB", ["3199,60,1323,134.4,1318,314.4"; "4200,75,1318,180,1319,360"]);
  ("KSCD", ["5390,100,569,91,548,271"]);
  ("KSCH", ["7000,150,318,26,378,206"; "4840,150,325,88,320,268"; "2639,50,,134.7,,314.7"]);
  ("KSCK", ["10650,150,27,127.6,32,307.6"; "4454,75,25,127.6,26,307.6"]);
  ("KSCX", ["5502,75,1545,46.3,1522,226.3"]);
  ("KSDA", ["5000,75,961,43,968,223"; "3299,75,952,125,968,305"]);
  ("KSDC", ["3800,60,,89,,269"]);
  ("KSDF", ["7250,150,477,111,480,291"; "8579,150,499,165,472,345"; "10850,150,486,165.4,461,345.4"]);
  ("KSDL", ["8249,100,1448,43.8,1507,223.8"]);
  ("KSDM", ["7972,150,526,95.6,508,275.6"; "3180,75,521,95.6,505,275.6"]);
  ("KSDY", ["5705,100,1981,24,1979,204"; "4022,100,1979,117.1,1965,297.1"]);
  ("KSEA", ["9426,150,430,180,363"; "11900,150,432,180,347,360"; "9426,150,430,180,363,360"]);
  ("KSEE", ["5342,100,359,102.1,376,282.1"; "2738,60,366,102.1,380,282.1"; "4145,100,368,179.6,380,359.6"]);
  ("KSEF", ["5106,300,,45,,225"; "4928,300,,90,,270"; "5190,300,56,135,58,315"; "5190,150,60,180,57,360"]);
  ("KSEG", ["4760,75,450,158.9,443,338.9"]);
  ("KSEM", ["8002,150,166,146,165,326"]);
  ("KSEP", ["2502,50,1303,39,1315,219"; "4200,75,1321,149.2,1289,329.2"]);
  ("KSEQ", ["4850,150,520,90,521,270"; "8350,150,525,132.5,520,312.5"; "5350,150,525,180,515,360"]);
  ("KSER", ["5500,100,571,44,580,224"; "1000,100,,90,,270"; "5502,100,583,134,571,314"; "1200,100,,180,,0"]);
  ("KSET", ["2000,75,434,90.7,436,270.7"; "3801,75,436,181,436,1"]);
  ("KSEZ", ["5129,100,4736,45.8,4827,225.8"]);
  ("KSFB", ["3578,75,52,90,48,270"; "9600,150,55,90,36,270"; "3500,75,46,89.9,28,269.9"; "6003,150,49,180,43,360"]);
  ("KSFF", ["6000,100"; "4500,150,1943,54,1953,234"; "3059,75,1947,54,1950,234"]);
  ("KSFM", ["6000,150,,358.6,,178.6"; "6000,150,238,58.2,233,238.2"; "4999,100,242,120,231,300"]);
  ("KSFO", ["7500,200,10,28,9,208"; "8648,200,12,28,10,208"; "11870,200,5,118,13,298"; "10602,200,6,118,13,298"]);
  ("KSFQ", ["5007,100,67,29.2,69,209.2"; "4700,100,72,63.7,69,243.7"; "3650,150,70,146.4,67,326.4"]);
  ("KSFY", ["4001,60,612,135,613,315"]);
  ("KSFZ", ["5000,150,419,32,420,212"; "3210,75,426,139.7,441,319.7"]);
  ("KSGF", ["7003,150,1264,22,1262,202"; "8000,150,1260,142,1268,322"]);
  ("KSGH", ["9009,150,1051,54.2,1037,234.2"; "5499,100,1042,144.2,1041,324.2"]);
  ("KSGJ", ["2614,75,9,21,6,201"; "2701,60,10,62,6,242"; "5000,1000"; "7996,150,10,126,6,306"; "4001,150,9,162,10,342"; "12000,1000"; "12000,500"]);
  ("KSGR", ["8000,100,82,175.3,75,355.3"]);
  ("KSGS", ["4001,100,820,163,818,343"]);
  ("KSGT", ["5002,150,219,92,219,272"; "6015,100,220,182,223,2"]);
  ("KSGU", ["6606,100,2940,180.1,2868,0.1"]);
  ("KSHD", ["6002,150,1174,38.2,1201,218.2"]);
  ("KSHL", ["4199,75,1419,155.5,1412,335.5"]);
  ("KSHN", ["5005,100,259,68,273,248"]);
  ("KSHR", ["5039,75,4021,68,3939,248"; "6648,150,3962,140.8,3945,320.8"; "8300,100,4014,156.3,3976,336.3"]);
  ("KSHV", ["6202,150,237,60.8,228,240.8"; "8351,200,258,143,220,323"]);
  ("KSIF", ["5199,100,692,124.6,667,304.6"]);
  ("KSIK", ["5502,100,313,24,314,204"]);
  ("KSIV", ["4360,75,537,180.7,535,0.7"]);
  ("KSIY", ["7484,150,2647,191,2628,11"]);
  ("KSJC", ["4599,100,42,139,52,319"; "11000,150,38,139,55,319"; "11000,150,38,138.8,57,318.8"]);
  ("KSJN", ["3400,60,5724,37,5732,217"; "5322,75,5731,148.3,5736,328.3"]);
  ("KSJT", ["5939,150,1917,43.2,1893,223.2"; "4402,75,1903,97.5,1899,277.5"; "8049,150,1899,187.3,1919,7.3"]);
  ("KSJX", ["2130,120,,42.4,,222.4"; "4300,75,669,90.1,667,270.1"; "3300,120,669,132,669,312"]);
  ("KSKA", ["13901,200,2461,67,2414,247"]);
  ("KSKF", ["11550,300,691,162.1,660,342.1"]);
  ("KSKI", ["2350,60,1249,147.4,1236,327.4"; "4100,75,1245,180.3,1235,0.3"]);
  ("KSKX", ["5798,75,7043,56,7088,236"]);
  ("KSKY", ["3559,60,576,85.5,576,265.5"; "2593,40,575,176,578,356"]);
  ("KSLB", ["2037,90,1488,67,1488,247"; "3034,50,1477,134,1467,314"; "5000,75,1480,175,1480,355"]);
  ("KSLC", ["4892,150,4222,153,4224,333"; "12004,150,4226,175,4221,355"; "12000,150,4221,174.9,4226,354.9"; "9596,150,4219,180,4224,360"]);
  ("KSLE", ["5811,150,195,150,214,330"; "5145,100,196,181,211,1"]);
  ("KSLG", ["4999,75,1190,185.3,1174,5.3"]);
  ("KSLH", ["4000,75,641,89.9,627,269.9"; "1500,75,,163.8,,343.8"]);
  ("KSLI", ["5900,150,20,54.4,26,234.4"; "8000,200,20,55.4,35,235.4"; "2500,150,,180,,360"]);
  ("KSLJ", ["5000,60,278,139,256,319"]);
  ("KSLK", ["6573,150,1638,35,1663,215"; "3998,100,1639,79,1638,259"]);
  ("KSLN", ["3648,75,1271,49,1256,229"; "6510,100,1258,132,1272,312"; "12300,150,1245,180,1271,360"; "4300,75,1254,180,1288,360"]);
  ("KSLO", ["4098,75,573,180.4,563,0.4"]);
  ("KSLR", ["5001,75,489,9.7,465,189.7"]);
  ("KSMD", ["3110,100,834,51,826,231"; "2910,100,834,128,826,308"]);
  ("KSME", ["5800,100,914,43,922,223"]);
  ("KSMF", ["8601,150,27,181,22,1"; "8600,150,25,181,22,1"]);
  ("KSMN", ["5150,60,4036,188,4043,8"]);
  ("KSMO", ["4973,150,115,44.6,175,224.6"]);
  ("KSMQ", ["2200,100,101,68.7,101,248.7"; "2733,65,83,109,101,289"; "1900,200,100,166.6,105,346.6"]);
  ("KSMS", ["5501,100,178,43.2,182,223.2"; "3081,120,182,134,182,314"]);
  ("KSMX", ["5130,75,210,35.9,227,215.9"; "6304,150,222,135.5,261,315.5"]);
  ("KSNA", ["5700,150,54,27.8,42,207.8"; "2887,75,52,27.8,40,207.8"]);
  ("KSNC", ["2566,50,400,160.9,408,340.9"]);
  ("KSNH", ["4999,100,473,7.5,454,187.5"]);
  ("KSNK", ["4200,75,2376,90,2430,270"; "5600,100,2418,180,2426,360"]);
  ("KSNL", ["4200,150,,134.5,,314.5"; "5600,100,1069,180,1067,360"]);
  ("KSNS", ["6004,150,71,96.8,84,276.8"; "4825,150,84,147.8,82,327.8"; "1900,50,84,153.2,82,333.2"]);
  ("KSNY", ["4700,75,4295,36,4282,216"; "6600,100,4313,135,4281,315"]);
  ("KSOA", ["4036,60,2139,190,2138,10"]);
  ("KSOP", ["5503,150,455,46.2,431,226.2"; "1999,100,459,137.7,449,317.7"]);
  ("KSOW", ["3937,60,6413,47.6,6401,227.6"; "7200,100,6400,75.9,6402,255.9"]);
  ("KSOY", ["3802,50,1448,179,1444,359"]);
  ("KSP", ["1968"]);
  ("KSPA", ["5202,100,793,41.6,789,221.6"]);
  ("KSPB", ["5100,100,55,169,27,349"]);
  ("KSPF", ["2023,150,3902,41,3862,221"; "3975,100,3931,90,3931,270"; "6400,75,3884,135,3895,315"]);
  ("KSPG", ["3677,75,7,62,6,242"; "3677,75,5,62,6,242"; "2864,150,5,180,5,360"]);
  ("KSPH", ["4000,75,218,181,207,1"]);
  ("KSPI", ["7999,150,587,41.5,597,221.5"; "7000,150,589,127,583,307"; "5300,150,590,180,587,360"]);
  ("KSPS", ["10003,150,1002,158.3,989,338.3"; "6000,150,1019,158.3,999,338.3"; "13101,300,1000,158.3,998,338.3"; "7021,150,1001,180.5,1014,0.5"]);
  ("KSPW", ["6000,100,1339,126.2,1337,306.2"; "5100,75,1337,185.6,1336,5.6"]);
  ("KSPZ", ["5998,75,4265,69,4214,249"]);
  ("KSQI", ["6500,150,647,70.1,647,250.1"; "3899,100,641,180.1,644,0.1"]);
  ("KSQL", ["2600,75,5,137.5,5,317.5"]);
  ("KSRB", ["6000,100,1025,34.7,1023,214.7"]);
  ("KSRC", ["6008,100,235,13,264,193"]);
  ("KSRE", ["2000,150,995,36,1012,216"; "5000,75,1024,166,1000,346"]);
  ("KSRQ", ["5009,150,23,38,25,218"; "9500,150,24,134,28,314"]);
  ("KSRR", ["8099,100,6814,71,6751,251"; "6500,75,6769,130,6718,310"]);
  ("KSSC", ["10016,150,238,34.7,241,214.7"; "8001,150,237,34.7,235,214.7"]);
  ("KSSF", ["4835,100,577,102.5,564,282.5"; "4128,100,571,145.4,556,325.4"]);
  ("KSSI", ["5800,100,12,36,17,216"; "3313,75,18,154,13,334"]);
  ("KSSQ", ["3711,50,1232,137,1227,317"]);
  ("KSTC", ["3000,75,1021,59,1022,239"; "7000,150,1031,136,1017,316"]);
  ("KSTE", ["6028,120,1103,29.6,1110,209.6"; "3635,75,1105,120,1103,300"]);
  ("KSTF", ["5550,150,331,179,322,359"]);
  ("KSTJ", ["4797,75,811,135.8,811,315.8"; "8059,150,826,180,812,360"]);
  ("KSTK", ["2500,150,4028,45,4036,225"; "4692,75,4034,165.8,4024,345.8"]);
  ("KSTL", ["7602,150,551,63,534,243"; "9001,150,618,122.2,556,302.2"; "9003,150,528,122,605,302"; "11019,200,540,122,583,302"]);
  ("KSTP", ["3657,100,700,90.7,700,270.7"; "4115,150,704,127.7,700,307.7"; "6711,150,704,146,703,326"]);
  ("KSTS", ["5202,100,129,29,113,209"; "6000,150,111,157.2,120,337.2"]);
  ("KSUA", ["4652,100,17,68,12,248"; "5826,100,16,110,14,290"; "5000,100,14,154,14,334"]);
  ("KSUD", ["3000,60,901,180,892,360"]);
  ("KSUE", ["4600,75,722,13,704,193"; "3200,75,719,93,715,273"]);
  ("KSUN", ["6952,100,5311,145,5269,325"]);
  ("KSUS", ["5000,75,463,78,463,258"; "7485,150,461,78,462,258"]);
  ("KSUT", ["4000,100,20,41,23,221"]);
  ("KSUU", ["11001,150,36,47.7,53,227.7"; "10992,150,56,47.7,55,227.7"]);
  ("KSUW", ["5100,75,674,36.7,674,216.7"; "4000,75,672,139.3,673,319.3"]);
  ("KSUX", ["9002,150,1093,136,1093,316"; "6600,150,1097,181,1095,1"]);
  ("KSUZ", ["5001,100,390,20,387,200"]);
  ("KSVC", ["4637,80,5446,45.3,5446,225.3"; "6802,100,5386,90.2,5377,270.2"; "4675,75,5446,135,5446,315"; "5473,75,5446,180.4,5446,0.4"]);
  ("KSVE", ["2179,60,4149,89,4131,269"; "4049,75,4147,129,4122,309"]);
  ("KSVH", ["7006,100,954,96.8,959,276.8"]);
  ("KSVN", ["11375,200,18,92,28,272"]);
  ("KSWF", ["11818,150,482,78.3,468,258.3"; "6006,150,471,149.5,437,329.5"]);
  ("KSWI", ["4006,75,745,166.1,711,346.1"]);
  ("KSWO", ["5002,75,960,44.5,984,224.5"; "5003,150,,133,,313"; "7401,100,1000,179.5,964,359.5"]);
  ("KSWT", ["3400,150,1500,46.9,1494,226.9"; "4200,75,1494,174,1505,354"]);
  ("KSWW", ["5659,75,2379,43.4,2337,223.4"; "1675,175,,137.4,,317.4"; "5840,100,2340,173.6,2369,353.6"]);
  ("KSXL", ["3015,50,1808,36.8,1820,216.8"]);
  ("KSYF", ["1799,280,3392,97.7,3386,277.7"; "2833,180,3392,145,3409,325"; "3138,50,3389,145,3413,325"; "2313,280,3380,199.1,3407,19.1"]);
  ("KSYI", ["5003,100,799,179.3,795,359.3"]);
  ("KSYR", ["3261,150,,49,,229"; "9003,150,419,87.3,400,267.3"; "7500,150,416,133.8,402,313.8"]);
  ("KSYV", ["3293,75,392,12,393,192"]);
  ("KSZL", ["12400,200,838,11,870,191"]);
  ("KSZT", ["5502,75,2129,32,2130,212"]);
  ("KSZY", ["5002,75,603,164.9,610,344.9"]);
  ("KT00", ["3005,60,20,129,20,309"; "2300,300,20,180,20,360"]);
  ("KT03", ["6230,75,,160,,340"]);
  ("KT05", ["3200,50,,123,10,303"]);
  ("KT12", ["1983,45,117,43.9,117,223.9"; "3746,50,120,133,115,313"]);
  ("KT15", ["3021,50,410,181,402,1"]);
  ("KT16", ["4800,50,6361,75.4,6271,255.4"]);
  ("KT17", ["4400,75,,154.5,,334.5"]);
  ("KT19", ["3200,60,528,143,564,323"]);
  ("KT20", ["3200,50,340,150,350,330"]);
  ("KT23", ["3700,60,1404,180,1412,360"]);
  ("KT24", ["3700,75,260,180,,360"]);
  ("KT27", ["6885,50,4000,88.6,4007,268.6"]);
  ("KT30", ["5027,60,586,137.2,554,317.2"]);
  ("KT31", ["4305,40,,180,,360"]);
  ("KT35", ["3200,50,,164,402,344"]);
  ("KT36", ["3000,60,,178,,358"]);
  ("KT39", ["3200,60,,180,1065,360"]);
  ("KT41", ["2998,75,23,51.3,24,231.3"; "4165,75,24,126.2,24,306.2"]);
  ("KT42", ["3500,50,2765,142.6,2782,322.6"]);
  ("KT45", ["4405,60,3451,179.9,3452,359.9"]);
  ("KT50", ["4100,60,1930,154,1915,334"]);
  ("KT51", ["3440,50,161,179.5,166,359.5"]);
  ("KT54", ["3200,35,,134.3,,314.3"]);
  ("KT55", ["5500,60,,17.6,3883,197.6"]);
  ("KT59", ["3565,60,2431,180,2470,360"]);
  ("KT60", ["4000,60,1714,180,1744,360"]);
  ("KT65", ["4998,70,68,142,69,322"]);
  ("KT67", ["3740,60,855,141,,321"]);
  ("KT69", ["2800,50,47,40.9,47,220.9"; "4323,55,46,145.8,47,325.8"]);
  ("KT70", ["6303,150,,134,,314"]);
  ("KT74", ["4000,75,600,178.7,548,358.7"]);
  ("KT78", ["3801,75,69,165.8,69,345.8"]);
  ("KT82", ["5002,75,1695,146.7,1677,326.7"]);
  ("KT85", ["3445,60,365,134.2,341,314.2"]);
  ("KT88", ["5420,60,2214,181,2205,1"]);
  ("KT90", ["3600,75,25,180,,360"]);
  ("KT92", ["3000,60,1514,138,1490,318"; "3716,50,1502,181,1498,1"]);
  ("KT93", ["4073,60,2532,180,2601,360"]);
  ("KTAD", ["5498,100,5755,44.9,5734,224.9"; "5500,100,5760,106.1,5748,286.1"]);
  ("KTAN", ["1900,60,35,27,27,207"; "3500,75,36,107.7,43,287.7"]);
  ("KTAZ", ["1920,180,,90,,270"; "3500,60,616,90,616,270"; "4001,75,616,179,620,359"]);
  ("KTB", ["5000,2000"]);
  ("KTBN", ["6038,150,1158,140,1153,320"]);
  ("KTBR", ["4383,100,187,47,187,227"; "6000,100,187,135,159,315"; "4350,150,,178,,358"]);
  ("KTCC", ["7102,100,4040,45,4047,225"; "4599,60,4065,90,4036,270"]);
  ("KTCL", ["6499,150,153,41,164,221"; "4001,100,167,117,165,297"]);
  ("KTCM", ["10108,150,286,180,322,360"; "3000,60"]);
  ("KTCS", ["3301,130,4810,21.4,4810,201.4"; "2932,130,4830,80.1,4810,260.1"; "7108,150,,125.7,,305.7"; "7200,75,4850,144.5,4794,324.5"; "2900,140,4820,166.7,4850,346.7"]);
  ("KTCY", ["4005,100,193,90,171,270"; "4001,100,180,131.5,193,311.5"]);
  ("KTDF", ["5826,100,592,50.5,606,230.5"]);
  ("KTDO", ["4480,150,356,74,374,254"]);
  ("KTDW", ["3000,60,3642,55.9,3626,235.9"; "5099,60,3647,179.9,3640,359.9"]);
  ("KTDZ", ["3664,150,622,39,620,219"; "5830,100,620,134,621,314"]);
  ("KTEB", ["7000,150,9,3.2,7,183.2"; "6013,150,6,48,8,228"]);
  ("KTEL", ["4400,75,608,134,659,314"]);
  ("KTEW", ["4000,75,920,90,915,270"]);
  ("KTEX", ["6870,100,9061,105,9078,285"]);
  ("KTFP", ["5000,75,15,139.7,13,319.7"]);
  ("KTGC", ["4800,75,359,8.9,355,188.9"]);
  ("KTGI", ["2950,75,5,9,5,189"]);
  ("KTHA", ["5000,150,1082,57.8,1079,237.8"; "2693,100,1078,89.2,1075,269.2"; "5000,150,,135,,315"; "5002,150,1077,180,1081,360"]);
  ("KTHM", ["4200,75,,89,,269"]);
  ("KTHP", ["4800,100,4592,22.4,4474,202.4"]);
  ("KTHV", ["5188,100,470,155,480,335"]);
  ("KTIF", ["3600,50,2926,118.2,2914,298.2"]);
  ("KTIK", ["10000,200,1226,131,1277,311"; "11100,200,1260,180.1,1291,0.1"]);
  ("KTIP", ["5200,150,734,43.8,733,223.8"; "5001,75,735,89.6,729,269.6"; "5700,150,737,135.1,727,315.1"; "4894,75,737,180,733,360"]);
  ("KTIW", ["5002,150,289,187,292,7"]);
  ("KTIX", ["5000,100,32,89.1,31,269.1"; "7319,150,30,179,34,359"]);
  ("KTKC", ["2590,200,1340,51,1330,231"; "3100,75,1331,120,1336,300"; "1825,200,1326,179,1336,359"]);
  ("KTKI", ["7001,100,575,182,585,2"]);
  ("KTKO", ["2505,100,,97,,277"; "3540,50,,175,,355"]);
  ("KTKV", ["4000,75,1467,90,1486,270"]);
  ("KTKX", ["5000,75,259,18,258,198"; "3012,75,260,179,258,359"]);
  ("KTLH", ["8000,150,61,89,49,269"; "6076,150,81,179,58,359"]);
  ("KTLR", ["3914,75,271,147,269,327"]);
  ("KTMA", ["3389,75,349,31,341,211"; "3805,75,351,94,339,274"; "5504,100,352,149,340,329"]);
  ("KTMB", ["5001,150,8,87,8,267"; "4999,150,8,87,8,267"; "4001,150,8,127,8,307"]);
  ("KTME", ["6610,100,166,179,163,359"]);
  ("KTMK", ["2910,75,25,30,32,210"; "5001,100,17,155,36,335"]);
  ("KTNP", ["5531,75,1877,90,1787,270"; "3800,50,1854,180.2,1887,0.2"]);
  ("KTNT", ["10499,150,13,90,12,270"]);
  ("KTNU", ["5599,100,952,141.2,945,321.2"]);
  ("KTNX", ["12002,150,5467,157.2,5540,337.2"]);
  ("KTOA", ["5001,150,91,128.5,97,308.5"; "3000,75,94,128.5,103,308.5"]);
  ("KTOB", ["2390,200,,44.7,,224.7"; "4500,75,1295,166,1305,346"]);
  ("KTOC", ["4003,75,994,21,968,201"; "2951,50,972,88,948,268"]);
  ("KTOI", ["5009,100,389,69,394,249"; "5022,100,398,143,366,323"]);
  ("KTOL", ["10600,150,683,67,664,247"; "5599,150,674,157,665,337"]);
  ("KTOP", ["3002,100,878,49.1,879,229.1"; "5099,100,880,134.3,875,314.3"; "4331,75,879,181.7,880,1.7"]);
  ("KTOR", ["3000,60,4196,28.5,4193,208.5"; "5701,75,4203,115.4,4194,295.4"]);
  ("KTPA", ["6999,150,14,92,26,272"; "8300,150,26,182,18,2"; "11002,150,21,182,11,2"]);
  ("KTPF", ["3405,100,7,37,8,217"; "2688,75,7,173,7,353"]);
  ("KTPH", ["5464,50,5426,125,5426,305"; "7057,80,5426,165,5392,345"]);
  ("KTPL", ["4740,100,674,27.6,665,207.6"; "6301,150,682,162.6,669,342.6"]);
  ("KTQE", ["4002,75,1027,153.5,1025,333.5"]);
  ("KTQH", ["4000,75,873,182,851,2"]);
  ("KTQK", ["1900,60,,90,,270"; "4999,70,2960,179,2956,359"]);
  ("KTRI", ["8030,150,1488,42.6,1518,222.6"; "4442,150,1519,89,1509,269"]);
  ("KTRK", ["4650,75,5886,29.9,5891,209.9"; "7000,100,5897,120.1,5889,300.1"]);
  ("KTRL", ["3014,75,472,145.2,469,325.2"; "5006,75,474,179.9,456,359.9"]);
  ("KTRM", ["4995,100,-116,135,-131,315"; "8500,150,-115,180,-135,360"]);
  ("KTRX", ["4310,75,757,179,754,359"]);
  ("KTSO", ["4300,75,1163,64.4,1163,244.4"]);
  ("KTSP", ["4031,75,3962,124,3997,304"]);
  ("KTTA", ["6570,100,246,20.6,230,200.6"]);
  ("KTTD", ["5399,150,28,89,39,269"]);
  ("KTTF", ["5000,100,611,22.5,615,202.5"]);
  ("KTTN", ["6006,150,160,47,192,227"; "4800,150,212,145.7,174,325.7"]);
  ("KTTS", ["15000,300,10,150,10,330"]);
  ("KTUL", ["7372,150,671,89.4,633,269.4"; "9999,200,626,183.1,644,3.1"; "6101,150,634,183.1,677,3.1"]);
  ("KTUP", ["6500,100,342,180,346,360"]);
  ("KTUS", ["7000,150,2564,45,2569,225"; "10996,150,2578,135,2643,315"; "8408,75,2585,135.2,2629,315.2"]);
  ("KTVB", ["3002,50,1220,32.8,1206,212.8"]);
  ("KTVC", ["3204,75,624,50.1,617,230.1"; "6501,150,624,94,608,274"; "5379,150,617,180,624,360"]);
  ("KTVF", ["4997,75,1116,39,1116,219"; "6503,150,1113,135,1112,315"]);
  ("KTVI", ["5500,100,239,40,235,220"; "5000,100,264,133,250,313"]);
  ("KTVK", ["4100,75,1020,158,1020,338"]);
  ("KTVL", ["8544,150,6251,192.9,6259,12.9"]);
  ("KTVR", ["5002,100,85,179,86,359"]);
  ("KTVY", ["6100,100,4270,179.1,4318,359.1"]);
  ("KTWF", ["8703,150,4141,91,4149,271"; "3224,75,4104,136,4145,316"]);
  ("KTWM", ["4400,75,1073,63,1070,243"; "2550,150,1075,143,1040,323"]);
  ("KTWT", ["5052,150,372,48,370,228"; "4999,150,370,106,370,286"; "5000,150,370,183,372,3"]);
  ("KTXK", ["6601,144,338,46,384,226"; "5200,100,362,135,386,315"]);
  ("KTYL", ["7200,75,5820,41,5715,221"]);
  ("KTYQ", ["5500,100,922,179,922,359"]);
  ("KTYR", ["7200,150,541,45.1,525,225.1"; "5200,150,516,135.1,542,315.1"; "4850,150,517,180.2,543,0.2"]);
  ("KTYS", ["9005,150,923,44.8,976,224.8"; "9000,150,938,44.8,962,224.8"]);
  ("KTZR", ["5500,100,902,32.2,904,212.2"]);
  ("KTZT", ["4000,75,771,171.5,771,351.5"]);
  ("KTZV", ["4000,75,1016,34,1037,214"]);
  ("KU00", ["3500,140,6003,130,6008,310"; "2900,90,5998,174,6018,354"]);
  ("KU01", ["4900,50,4413,52,4413,232"]);
  ("KU02", ["4314,75,4481,24,4488,204"]);
  ("KU03", ["3900,60,3603,110,3660,290"]);
  ("KU05", ["3600,60,,179,,359"]);
  ("KU06", ["3400,60,6260,163.3,,343.3"]);
  ("KU07", ["3500,40,,21.7,,201.7"]);
  ("KU08", ["4800,75,,150.2,,330.2"]);
  ("KU09", ["3200,55,,116,,296"]);
  ("KU10", ["3457,50,4727,48,4718,228"; "2437,30,4723,179,4723,359"]);
  ("KU12", ["4500,50,4946,59,4966,239"]);
  ("KU13", ["4505,60,,183.1,,3.1"]);
  ("KU14", ["4927,100,4978,180,5009,360"]);
  ("KU25", ["6100,60,7272,113,7238,293"]);
  ("KU30", ["3500,50,1498,188.1,,8.1"]);
  ("KU34", ["5600,75,,142.5,,322.5"]);
  ("KU36", ["3650,50,4470,81,4450,261"]);
  ("KU42", ["5860,100,4603,172,4598,352"]);
  ("KU43", ["4817,75,,172,,352"]);
  ("KU52", ["2501,50,5839,84.5,5843,264.5"; "5100,75,5786,148.3,5860,328.3"]);
  ("KU55", ["5693,75,6759,196.4,6746,16.4"]);
  ("KU56", ["3500,50,4835,26,4845,206"]);
  ("KU58", ["3550,50,4886,185,4906,5"]);
  ("KU62", ["4400,60,,136,5876,316"]);
  ("KU63", ["5000,110,6335,66,6370,246"]);
  ("KU68", ["5199,75,4080,105.8,4090,285.8"; "1866,65,4080,171.8,4085,351.8"]);
  ("KU69", ["4390,75,,90,,270"; "5800,60,,180,,360"]);
  ("KU70", ["4300,60,4742,136,4738,316"]);
  ("KU76", ["5000,75,3163,116,3155,296"]);
  ("KU77", ["5700,100,,133.3,,313.3"]);
  ("KU78", ["2500,50,5814,148,5834,328"; "3500,50,5819,171,5839,351"]);
  ("KU79", ["4100,200,5750,93,5715,273"; "2700,140,5765,161,5740,341"]);
  ("KU81", ["4550,90,7030,180,6940,360"]);
  ("KU82", ["3600,50,2963,188,2930,8"]);
  ("KU89", ["3050,60,2530,96,2536,276"]);
  ("KU96", ["5700,60,,23.2,,203.2"]);
  ("KUAO", ["5004,100,196,187,196,7"]);
  ("KUBE", ["4050,75,1241,90,1232,271"; "2000,120,1239,186,1230,6"]);
  ("KUBS", ["4500,100,188,179,188,359"]);
  ("KUBX", ["3420,60,1023,186,1019,6"]);
  ("KUCA", ["5399,150,691,77,739,257"; "6002,150,690,137,720,317"]);
  ("KUCP", ["4000,75,1023,39.7,997,219.7"; "2850,100,1016,118.9,1072,298.9"]);
  ("KUCY", ["5000,100,335,6,309,186"]);
  ("KUDD", ["5002,70,73,116,45,296"]);
  ("KUDG", ["5500,100,189,50,183,230"; "4947,150,192,92.5,184,272.5"; "4751,150,192,156.7,187,336.7"]);
  ("KUES", ["5848,100,897,102,906,282"; "3598,75,906,177.9,911,357.9"]);
  ("KUGN", ["6000,150,725,48,723,228"; "3751,75,727,144,712,324"]);
  ("KUIL", ["4210,100,175,58,194,238"]);
  ("KUIN", ["7098,150,756,40.2,747,220.2"; "5125,150,765,135.3,768,315.3"; "5399,150,759,179.3,756,359.3"]);
  ("KUKF", ["6200,100,1249,359,1305,179"]);
  ("KUKI", ["4415,150,614,168.4,602,348.4"]);
  ("KUKL", ["5500,75,1171,179.7,1169,359.7"]);
  ("KUKT", ["3201,50,526,99,504,279"]);
  ("KULM", ["2825,160,1011,50,1011,230"; "4401,75,1004,151,1009,331"]);
  ("KULS", ["4600,60,3071,129.7,3062,309.7"; "6000,100,3065,180,3060,360"]);
  ("KUMP", ["3850,100,786,145.7,811,325.7"]);
  ("KUNI", ["5600,100,763,60.7,761,240.7"]);
  ("KUNO", ["5102,75,1225,180.9,1228,0.9"]);
  ("KUNU", ["4027,75,929,17,932,197"; "5060,100,936,80,935,260"]);
  ("KUNV", ["6701,150,1231,52.6,1192,232.6"]);
  ("KUOS", ["3699,50,1953,64.3,1953,244.3"]);
  ("KUOX", ["5600,100,412,91,451,271"]);
  ("KUP", ["3200"]);
  ("KUSE", ["3882,75,779,89.1,770,269.1"; "2117,75,777,179.9,780,359.9"]);
  ("KUTA", ["7000,150,194,167,194,347"]);
  ("KUTS", ["5006,100,300,185.8,363,5.8"]);
  ("KUUU", ["2999,75,148,23.8,172,203.8"; "2623,75,146,143.6,162,323.6"]);
  ("KUUV", ["4500,75,933,60,924,240"]);
  ("KUVA", ["5255,100,942,155,925,335"]);
  ("KUWL", ["4002,65,1076,91.4,1087,271.4"]);
  ("KUX", ["1640"]);
  ("KUXL", ["5001,75,9,150,10,330"]);
  ("KUYF", ["4001,75,1081,86.6,1053,266.6"]);
  ("KUZA", ["5500,100,667,11.2,661,191.2"]);
  ("KVAD", ["9300,150,233,180.5,209,0.5"; "8000,150,231,180.3,223,0.3"]);
  ("KVAY", ["3911,50,45,69.8,51,249.8"]);
  ("KVBG", ["15000,200,238,136.5,369,316.5"]);
  ("KVBT", ["4082,65,1288,180.4,1290,0.4"]);
  ("KVCB", ["4700,75,116,34,113,214"]);
  ("KVCT", ["4200,75,103,67.4,104,247.4"; "9101,150,115,132.5,103,312.5"; "4643,150,104,132,102,312"; "4899,150,106,179.9,103,359.9"]);
  ("KVCV", ["9138,150,2878,45,2844,225"; "15050,150,2828,180,2885,360"]);
  ("KVDF", ["5000,100,20,42,21,222"; "3259,75,19,180,20,360"]);
  ("KVDI", ["6003,100,272,63,269,243"; "5000,150,272,132,272,312"]);
  ("KVEL", ["4108,60,5278,89.3,5233,269.3"; "6201,150,5262,179,5264,359"]);
  ("KVER", ["3999,75,710,185,711,5"]);
  ("KVES", ["4512,75,1005,88.5,1004,268.5"]);
  ("KVGC", ["5000,75,,158.8,,338.9"]);
  ("KVGT", ["5004,75,2204,88.6,2172,268.6"; "4202,75,2189,134.3,2148,314.3"; "5000,75,2205,134.3,2163,314.3"]);
  ("KVHN", ["6000,75,3956,44.5,3918,224.5"; "5353,75,3957,84.4,3911,264.4"]);
  ("KVIH", ["5500,100,1136,47,1109,227"; "5500,100,1148,137,1148,317"; "5000,75,,181.7,,1.7"]);
  ("KVIQ", ["3400,60,1208,95.7,1237,275.7"]);
  ("KVIS", ["6559,150,292,134.9,295,314.9"]);
  ("KVJI", ["4471,75,2063,56,2088,236"]);
  ("KVKS", ["5000,100,106,8,106,188"]);
  ("KVLA", ["3001,75,532,89.7,537,269.7"; "3752,100,530,179.7,528,359.7"]);
  ("KVLD", ["5598,100,199,36,196,216"; "3636,75,201,126,196,306"; "8002,150,196,171,198,351"]);
  ("KVLL", ["3550,60,729,90,701,270"]);
  ("KVMR", ["4105,75,1145,126,1145,306"]);
  ("KVNC", ["5000,150,12,45,18,225"; "5000,150,17,88,19,268"; "4999,150,15,135,16,315"]);
  ("KVNW", ["4000,75,783,89.5,785,269.5"; "2610,105,785,180.8,785,0.8"]);
  ("KVNY", ["4011,75,791,175.5,772,355.5"; "8001,150,793,175.5,746,355.5"]);
  ("KVOK", ["9000,150,912,89,904,269"]);
  ("KVPC", ["5760,100,755,3.5,736,183.5"]);
  ("KVPS", ["10012,300,50,12,62,192"; "12005,300,87,120,52,300"]);
  ("KVPZ", ["7000,150,771,90,769,270"; "4000,75,771,183.8,771,3.8"]);
  ("KVQQ", ["8002,200,81,90,67,270"; "8003,200,78,90,65,270"; "12504,200,80,180,73,360"; "8003,200,80,180,71,360"]);
  ("KVRB", ["4974,100,23,36,21,216"; "3504,75,20,111,19,291"; "7314,100,23,111,20,291"]);
  ("KVSF", ["5498,100,571,34.5,554,214.5"; "3001,75,576,98,568,278"]);
  ("KVTA", ["4649,75,883,86.9,870,266.9"]);
  ("KVTI", ["4000,60,824,92,838,272"; "2500,50,838,161,839,341"]);
  ("KVTN", ["2807,50,2590,36,2582,216"; "4700,100,2588,145,2582,325"]);
  ("KVUJ", ["3500,75,593,38.1,582,218.1"; "5500,100,609,40.9,609,220.9"]);
  ("KVUO", ["3275,60,28,98,20,278"]);
  ("KVVS", ["3458,100,1223,40.5,1265,220.5"; "2404,100,1227,129,1238,309"]);
  ("KVVV", ["2158,300,1091,46.9,1094,226.9"; "3417,75,1100,168.6,1094,348.6"]);
  ("KVWU", ["3700,150"]);
  ("KVYS", ["6000,100,654,179.6,640,359.6"]);
  ("KW01", ["3053,50,,162,,342"]);
  ("KW03", ["4500,150,156,30.4,156,210.4"; "4500,150,160,90.5,156,270.5"; "4499,150,161,150.6,152,330.6"]);
  ("KW05", ["3100,60,,61.9,,241.9"]);
  ("KW22", ["4200,75,1630,98.2,1634,278.2"]);
  ("KW28", ["3500,100,,110,,290"; "3500,40,,104,,284"]);
  ("KW31", ["3000,50,,18.9,,198.9"]);
  ("KW32", ["3000,60,239,41,238,221"]);
  ("KW35", ["4985,70,409,99.7,411,279.7"]);
  ("KW38", ["5500,100,1156,17.8,1178,197.8"]);
  ("KW40", ["3697,75,167,40.3,168,220.3"]);
  ("KW41", ["3280,165,,42.9,,222.9"; "2490,75,4,131.7,3,311.7"]);
  ("KW43", ["5500,75,4195,142.1,4264,322.1"]);
  ("KW45", ["3125,75,903,34.6,903,214.6"]);
  ("KW63", ["4500,50,368,27.7,421,207.7"]);
  ("KW78", ["4011,75,382,357,419,177"; "2700,200,371,50,382,230"]);
  ("KW81", ["3300,60,,143.7,,323.7"]);
  ("KW90", ["3164,40,,162,,342"]);
  ("KW91", ["3058,50,855,45,892,225"]);
  ("KW94", ["5000,150,,38,,218"]);
  ("KW95", ["2999,60,5,50,5,230"]);
  ("KW96", ["3600,75,123,100,123,280"]);
  ("KW99", ["5000,75,947,122,947,302"]);
  ("KWAL", ["8749,150,34,33,34,213"; "8005,200,20,90,35,270"; "4808,150,31,157,35,337"]);
  ("KWAY", ["3500,75,1065,,1062"]);
  ("KWBW", ["3376,75,545,54,545,234"; "2200,100,,79.9,,259.9"]);
  ("KWDG", ["3149,108,1158,135,1158,315"; "6389,150,1166,180,1145,360"]);
  ("KWDR", ["3610,100,934,46,917,226"; "5500,100,934,129,909,309"]);
  ("KWF", ["10000,1000"]);
  ("KWHP", ["4120,75,998,139,965,319"]);
  ("KWJF", ["7201,150,2350,72.1,2335,252.1"]);
  ("KWK", ["2000,300"]);
  ("KWLD", ["3137,75,1160,140,1152,320"; "5505,100,1157,180,1150,360"]);
  ("KWLW", ["4210,100,138,145.2,129,325.2"; "4506,100,139,178.2,134,358.2"]);
  ("KWMC", ["4800,75,4300,39.5,4304,219.5"; "7000,100,4298,159.6,4300,339.6"]);
  ("KWP", ["10000,500"]);
  ("KWRB", ["12001,300,294,144,274,324"]);
  ("KWRI", ["10001,200,131,45.8,103,225.8"; "7140,150,122,172.8,129,352.8"]);
  ("KWRL", ["2240,60,4212,56.9,4222,236.9"; "2501,60,4182,118.5,4220,298.5"; "7005,100,4161,175,4227,355"]);
  ("KWSD", ["6125,75,3932,101.4,3934,281.4"]);
  ("KWST", ["4010,100,51,53.1,78,233.1"; "3960,75,57,130,78,310"]);
  ("KWVI", ["4501,150,140,32.3,155,212.3"; "3999,100,163,99.8,137,279.8"]);
  ("KWVL", ["5500,100,268,30.7,333,210.7"; "2301,150,308,125.3,299,305.3"]);
  ("KWWD", ["4998,150,23,359.6,17,179.6"; "4998,150,17,89.6,20,269.6"]);
  ("KWWR", ["2501,60,,50,,230"; "5500,150,,120,,300"; "5502,100,2160,180.5,2188,0.5"]);
  ("KWYS", ["8399,150,6644,26.3,6629,206.3"]);
  ("KX04", ["3165,100,,153,,333"]);
  ("KX05", ["3700,75,,180,,360"]);
  ("KX06", ["3700,75,,51,,231"; "2780,140,,132,,312"]);
  ("KX07", ["3999,100,126,59,122,239"; "3999,75,124,167,122,347"]);
  ("KX10", ["3750,50,,90,,270"]);
  ("KX13", ["4000,75,,55,,235"]);
  ("KX14", ["5254,75,19,137,22,317"]);
  ("KX21", ["1805,100,,32,,212"; "3000,70,25,156,30,336"]);
  ("KX26", ["4024,150,18,45,22,225"; "3200,75,18,90,21,270"; "4000,150,,135,,315"; "4000,150,,180,,360"]);
  ("KX35", ["4941,100,63,45,65,225"; "4702,60,64,90,63,270"]);
  ("KX39", ["3541,50,,141,,321"]);
  ("KX40", ["5001,75,,101,,191"]);
  ("KX43", ["3760,50,,27.3,,207.3"; "3250,50,,179,3507,359"]);
  ("KX49", ["3115,100,,141,,321"]);
  ("KX50", ["3845,60,12,180,11,360"]);
  ("KX51", ["3000,75,6,90,7,270"; "1000,500"; "4000,100,7,179,7,359"]);
  ("KX54", ["3013,60,,44.5,,224.5"; "2700,150,4003,180,,360"]);
  ("KX58", ["6300,75,,135,,315"]);
  ("KX59", ["4000,75,,91,,271"; "4000,75,,138,,318"]);
  ("KX60", ["6390,150,74,45,71,225"; "4330,100,70,138.5,65,318.5"]);
  ("KXA", ["2000,2000"]);
  ("KXBP", ["4004,60,809,181,852,1"]);
  ("KXFL", ["5000,200,,13,,193"; "5000,100,29,55,31,235"; "4999,100,30,106,31,286"; "5000,200,,152,,332"; "3000,500,22,173,22,353"]);
  ("KXLL", ["3950,75,386,59.1,387,239.1"; "3159,75,386,135,399,315"]);
  ("KXMR", ["10000,200,10,128,10,308"]);
  ("KXNA", ["8800,150,1287,159.7,1265,339.7"]);
  ("KXNI", ["6000,75"]);
  ("KXNO", ["3500,90,,43.9,,223.9"; "10000,150,,54,,234"]);
  ("KXSA", ["4300,75,135,86,128,266"]);
  ("KXTA", ["5420,,4491,,4491"; "12000,,4491,,4491"]);
  ("KXVG", ["3781,75,1333,129.9,1332,310"]);
  ("KY03", ["1875,100,,23,,203"; "3500,60,,157.1,,337.1"]);
  ("KY14", ["3650,60,,163.3,1505,343.3"]);
  ("KY19", ["2900,120,1924,55.6,1944,235.6"; "4400,75,1937,145.3,1940,325.4"]);
  ("KY23", ["1100,70,1048,76,1052,256"; "3400,60,1054,175,1055,355"]);
  ("KY27", ["3700,60,1630,155.1,1629,335.1"]);
  ("KY31", ["5000,100,881,89,860,269"]);
  ("KY37", ["2500,100,1102,43,1087,223"; "3100,60,1103,134,1085,314"]);
  ("KY43", ["2825,95,,54.7,,234.7"]);
  ("KY47", ["3128,40,921,71,926,251"]);
  ("KY50", ["1190,35,,50,,230"; "2280,150,858,82,856,262"; "3300,60,858,132,856,312"]);
  ("KY51", ["2555,90,1283,22,1257,202"; "3346,60,1269,114,1292,294"]);
  ("KY55", ["2730,100,1615,6,1628,186"; "3100,75,1646,113,1625,293"]);
  ("KY65", ["3006,50,602,97.8,602,277.8"]);
  ("KY70", ["4300,75,815,90.6,804,270.6"; "4290,340,805,179,818,359"]);
  ("KY72", ["3900,75,970,67,970,247"; "2210,200,,180,,360"]);
  ("KY74", ["3200,60,1997,129,2042,309"; "1350,20,,180.1,,0.1"]);
  ("KY8", ["4000,75"]);
  ("KY83", ["3105,75,,89,,269"; "2300,150,775,180,774,360"]);
  ("KY89", ["3500,75,,102,,282"]);
  ("KY93", ["3000,60,875,47,875,227"; "3223,100,875,,875"]);
  ("KY94", ["3250,50,642,92,642,272"; "1800,120,642,174.3,642,354.3"]);
  ("KY95", ["3400,60,,33.1,,213.1"; "2850,150,,173.2,,353.2"]);
  ("KYIP", ["6655,160,716,47,711,227"; "7526,150,715,47,702,227"; "7294,160,716,89,700,269"; "6511,160,715,89,703,269"; "6914,160,715,136,710,316"]);
  ("KYKM", ["3835,150,1073,60,1052,240"; "7603,150,1095,110,1045,290"]);
  ("KYKN", ["3380,75,1274,21,1282,201"; "6095,100,1306,140,1271,320"]);
  ("KYNG", ["5002,150,1123,45,1191,225"; "9003,150,1107,135,1185,315"; "3500,60"]);
  ("KZ-0008", ["8530,138,1250,52,1230,232"]);
  ("KZ-0067", ["10500,197"]);
  ("KZ01", ["5000,60,111,180.8,119,0.8"]);
  ("KZ10", ["3500,60,395,177,386,357"]);
  ("KZ19", ["450,40,40,134,40,314"]);
  ("KZ27", ["100,100"]);
  ("KZ98", ["3800,60,,19.9,,199.9"]);
  ("KZEF", ["4003,75,1067,66.4,1037,246.4"]);
  ("KZER", ["2270,140,,31,,211"; "4594,75,1734,97.8,1708,277.8"]);
  ("KZF", ["1476,98"]);
  ("KZPH", ["5001,100,85,43,87,223"; "5072,100,88,180,80,360"]);
  ("KZR", ["9842"]);
  ("KZUN", ["4807,50,6434,72.3,6449,252.3"]);
  ("KZZV", ["5000,150,896,33.8,869,213.8"; "4999,150,867,152.5,895,332.5"]);
  ("L11", ["15000,4000"]);
  ("L18", ["2160,60,708,194,699,14"]);
  ("L20", ["3850,70"]);
  ("L25", ["2900,110"]);
  ("L36", ["2625,42,45,,44"]);
  ("L37", ["5100,45,5330,,5330"]);
  ("L44", ["2053,100"; "2400,80"]);
  ("L52", ["2325,50"]);
  ("L53", ["1875,22"]);
  ("L54", ["2500,60"]);
  ("L61", ["2380,30"]);
  ("L78", ["2508,100"]);
  ("L80", ["2493,50"; "2355,100"]);
  ("L85", ["3000,1000"]);
  ("L87", ["40,40"]);
  ("L89", ["2640,80"]);
  ("L90", ["2475,150"; "4210,150"]);
  ("L92", ["5000,120"; "2500,70"]);
  ("L93", ["4000,200"; "2000,200"]);
  ("L95", ["1267,75"; "1457,75"]);
  ("LA00", ["50,50"]);
  ("LA01", ["1800,30"]);
  ("LA02", ["40,40"]);
  ("LA03", ["45,45"]);
  ("LA04", ["2650,27"]);
  ("LA05", ["20,20"]);
  ("LA06", ["40,40"]);
  ("LA07", ["300,75"]);
  ("LA08", ["1400,200"]);
  ("LA09", ["500,500"]);
  ("LA10", ["30,30"]);
  ("LA12", ["50,50"]);
  ("LA13", ["3273,150"]);
  ("LA14", ["75,75"]);
  ("LA15", ["2600,80"]);
  ("LA16", ["2817,55"]);
  ("LA17", ["1400,200"]);
  ("LA18", ["50,50"]);
  ("LA19", ["50,50"]);
  ("LA20", ["40,40"]);
  ("LA21", ["4000,70"]);
  ("LA22", ["48,48"]);
  ("LA23", ["40,40"]);
  ("LA24", ["50,50"]);
  ("LA25", ["3000,70"]);
  ("LA26", ["2375,250"]);
  ("LA27", ["20,20"; "20,20"; "20,20"; "40,40"]);
  ("LA28", ["35,35"]);
  ("LA29", ["45,45"]);
  ("LA30", ["500,100,,91.1,,271.1"; "500,100,,182.5,,2.5"]);
  ("LA31", ["2815,100"]);
  ("LA32", ["3000,175,,90,,270"]);
  ("LA33", ["2000,150"]);
  ("LA34", ["1500,250"]);
  ("LA36", ["1000,100"]);
  ("LA37", ["40,40"]);
  ("LA38", ["2000,300"]);
  ("LA39", ["35,35"]);
  ("LA40", ["2900,60"; "3300,30,,182.2,,2.2"; "3300,30"]);
  ("LA41", ["2900,60"]);
  ("LA42", ["3100,20,,173.5,,353.5"]);
  ("LA43", ["100,100"]);
  ("LA44", ["100,75"]);
  ("LA45", ["50,50"]);
  ("LA46", ["3500,250"]);
  ("LA47", ["40,40"]);
  ("LA48", ["2800,50"]);
  ("LA49", ["60,25"]);
  ("LA51", ["1500,100"]);
  ("LA53", ["3000,80"]);
  ("LA54", ["3100,75"]);
  ("LA55", ["50,50"]);
  ("LA56", ["2000,300"]);
  ("LA57", ["2200,50"]);
  ("LA58", ["2500,35"]);
  ("LA59", ["50,50"]);
  ("LA60", ["5000,250"]);
  ("LA61", ["1957,97"]);
  ("LA62", ["40,40"]);
  ("LA63", ["1500,20"]);
  ("LA64", ["10000,500"]);
  ("LA65", ["40,40"]);
  ("LA66", ["24,24"]);
  ("LA67", ["2800,90"]);
  ("LA68", ["2350,60"]);
  ("LA69", ["1500,300"]);
  ("LA71", ["3800,100"]);
  ("LA72", ["40,40"]);
  ("LA73", ["1500,75"]);
  ("LA74", ["30,30"]);
  ("LA75", ["1500,140"]);
  ("LA76", ["4700,100"]);
  ("LA77", ["3400,75"]);
  ("LA78", ["250,250"]);
  ("LA79", ["2400,60"]);
  ("LA80", ["50,50"]);
  ("LA81", ["5100,85"]);
  ("LA82", ["60,60"]);
  ("LA83", ["2100,95"]);
  ("LA84", ["55,55"]);
  ("LA85", ["30,30"]);
  ("LA86", ["20,20"]);
  ("LA87", ["3400,200"]);
  ("LA90", ["2400,110"]);
  ("LA91", ["2700,80"]);
  ("LA93", ["54,54"]);
  ("LA95", ["50,50"]);
  ("LA96", ["40,20"]);
  ("LA97", ["60,60"]);
  ("LA98", ["5000,75"]);
  ("LA99", ["50,50"]);
  ("LAC", ["4480"]);
  ("LAGJ", ["9186,197,19,153,23,333"; "7223,78,,169,,349"]);
  ("LAKO", ["7475,275,,11,,191"]);
  ("LAKU", ["5906,148,,12,,192"]);
  ("LAKV", ["9318,220,,137,,317"]);
  ("LATI", ["8971,148,109,174,126,354"]);
  ("LAVL", ["2813,195,,161.6,,341.6"]);
  ("LB11", ["1455,80,,114.6,,294.6"]);
  ("LB13", ["8187,160,,113.2,,293.2"]);
  ("LB18", ["8200,80,,160,,340"]);
  ("LB19", ["8200,72,,86.3,,266.3"]);
  ("LB22", ["8380,70,,71.7,,251.7"]);
  ("LB27", ["3950,115,,114.2,,294.2"]);
  ("LB29", ["1446,82,,53.2,,233.2"]);
  ("LB30", ["1691,80,,110.9,,290.9"]);
  ("LB31", ["2192,300,,119.7,,299.7"]);
  ("LB32", ["1440,75,,98.2,,278.2"]);
  ("LB33", ["1600,85,,106.9,,286.9"]);
  ("LB34", ["1420,75,,167.2,,347.2"]);
  ("LB35", ["1450,80,,179.7,,359.7"]);
  ("LB36", ["1400,75,,127.3,,307.3"]);
  ("LB37", ["4748,50,,23.2,,203.2"]);
  ("LB38", ["6710,55,,36.9,,216.9"]);
  ("LB39", ["1213,77,,101.2,,281.2"]);
  ("LB42", ["8200,262,,94,,274"]);
  ("LB43", ["8200,262,,158,,338"]);
  ("LB45", ["7523,52,,56.4,,236.4"]);
  ("LBBG", ["10499,148,89,44,121,224"]);
  ("LBGO", ["8038,148,282,98,272,278"]);
  ("LBHS", ["7230,180,,104.8,,284.8"]);
  ("LBHT", ["1969,79,2113,130,2113,310"]);
  ("LBMG", ["8275,190,,110.3,,290.3"]);
  ("LBPD", ["8202,148,564,127,597,307"]);
  ("LBPG", ["9815,270,,80.4,,260.4"]);
  ("LBPL", ["7173,230,,102.5,,282.5"; "7173,190,,102.6,,282.6"]);
  ("LBPS", ["8345,170,,102.6,,282.6"]);
  ("LBRS", ["8210,165,,55.3,,235.3"; "5784,250,,55.3,,235.3"]);
  ("LBSD", ["7225,175,,95,,275"]);
  ("LBSF", ["9186,147,1739,95,1742,275"]);
  ("LBSL", ["8155,148,,90.3,,270.3"]);
  ("LBSZ", ["8200,148,,170,,350"]);
  ("LBTG", ["7260,140,,113,,293"]);
  ("LBVD", ["6888,100,,90,,270"]);
  ("LBWB", ["8095,197,,158.5,,338.5"]);
  ("LBWN", ["8202,180,203,97,217,277"]);
  ("LCEN", ["9039,148,402,107,402,287"; "906,,,163,,343"]);
  ("LCLK", ["9776,148,11,45,6,225"]);
  ("LCP", ["5249,98,,99,,279"]);
  ("LCPH", ["8858,148,41,110,30,290"]);
  ("LCRA", ["9002,200,71,108,76,288"]);
  ("LD57", ["3385,100,,17,,197"]);
  ("LDDP", ["3937,75,,6,,186"]);
  ("LDDU", ["10827,148,519,118,484,298"]);
  ("LDLO", ["2953,97,129,,146"]);
  ("LDOB", ["2953,,290,,290"]);
  ("LDOC", ["3937,98,299,103,299,283"; ",,299,,299"; "3615,148,,102.8,,282.8"]);
  ("LDOS", ["8199,148,291,111,290,291"]);
  ("LDOV", ["2651,,272,,271"]);
  ("LDPL", ["9678,148,169,88,274,268"]);
  ("LDPN", ["2789,,19,,28"]);
  ("LDPV", [",,,1,,19"]);
  ("LDRG", ["5293,98,958,75,1010,255"; "6106,74,,91,,271"]);
  ("LDRI", ["8164,148,264,143.7,246,323.7"]);
  ("LDSB", ["4724,98,1776,35,1701,215"]);
  ("LDSH", ["2454,98,93,102,70,282"]);
  ("LDSJ", ["2625,1640"]);
  ("LDSP", ["8366,148,70,53,50,233"]);
  ("LDSS", ["3609,,979,,974"]);
  ("LDVA", ["5676,98,544,160.3,543,340.3"]);
  ("LDVC", ["3609,,512,,512"]);
  ("LDZA", ["10669,148,353,46.7,348,226.7"]);
  ("LDZD", ["6561,147,289,42,272,222"; "8202,147,243,136,259,316"]);
  ("LDZE", ["2083,125"]);
  ("LDZU", ["9022,98,2254,126.7,2461,306.7"]);
  ("LE83", ["3287,39,,172.3,,352.3"]);
  ("LE84", ["3695,30,,85.1,,265.1"]);
  ("LE85", ["6004,116,,177,,357"]);
  ("LEAB", ["8858,197,2281,87.4,2302,267.4"]);
  ("LEAL", ["9842,148,142,99.7,44,279.7"]);
  ("LEAM", ["10499,148,26,73,70,253"]);
  ("LEAS", ["7218,148,399,109,399,289"]);
  ("LEBA", ["4527,148,293,29,297,209"]);
  ("LEBB", ["6562,148,116,96.6,129,276.7"; "8530,148,119,116.6,128,296.6"]);
  ("LEBE", ["4757,98,,87.6,,267.6"; "2460,98,,147.6,,327.6"]);
  ("LEBG", ["4393,98,2907,55.9,2945,235.9"]);
  ("LEBL", ["8333,148,7,19,12,199"; "11654,148,8,65.6,10,245.6"; "8727,197,8,65.6,8,245.6"]);
  ("LEBZ", ["9350,197,579,126,609,306"]);
  ("LECA", [""; ""]);
  ("LECD", ["3773,75,,69,,249"]);
  ("LECF", ["2657,164"]);
  ("LECI", ["2805,59,2267,,2267"]);
  ("LECN", ["3117,,17,,17"]);
  ("LECO", ["6358,148,327,30.9,286,210.9"]);
  ("LECU", ["4921,98,2267,94,2248,274"; "2698,148,2264,94,2244,274"]);
  ("LEFM", ["3281,59,,151.4,,331.4"]);
  ("LEGA", ["4265,98,2216,181.4,2297,1.3"]);
  ("LEGE", ["7874,148,403,15.8,468,195.8"]);
  ("LEGR", ["9514,148,1842,89.5,1860,269.5"]);
  ("LEGT", ["8136,197,2029,45.2,2001,225.2"; "3018,98,,44.9,,224.9"]);
  ("LEIB", ["9186,148,13,62.1,16,242.1"]);
  ("LEIG", ["2300,305,1080,,1080"]);
  ("LEIZ", ["5015,75,,95,,275"]);
  ("LEJR", ["7546,148,68,21.4,93,201.4"]);
  ("LELA", ["4830,77,,73.8,,253.8"]);
  ("LELC", ["7546,197,11,45.8,5,225.8"; "2867,197,,46.1,,226.1"; "2625,197,,135.9,,315.9"]);
  ("LELL", ["2953,98,485,,445"]);
  ("LELN", ["6890,148,2994,45,3001,225"; "3609,328,3034,59.8,3000,239.8"]);
  ("LELO", ["6562"]);
  ("LELT", ["2650,60"]);
  ("LEMD", ["11483,197,1942,144.2,1876,324.2"; "13084,197,1995,144.2,1909,324.2"; "11483,197,1919,181,1942,1"; "13711,197,1998,181,1985,1.7"]);
  ("LEMG", ["9022,148,52,119,31,299"; "10500,148,52,133,31,313"]);
  ("LEMH", ["7710,148,277,9,298,189"; "6890,148,272,9,298,189"]);
  ("LEMO", ["11801,200,285,19.8,270,199.8"]);
  ("LEMP", ["2789,98"]);
  ("LEMR", ["3281,98,,91.7,,271.7"]);
  ("LEMT", ["3000"]);
  ("LEMU", ["2953,36"]);
  ("LEOC", ["4134,58,,107.3,,287.3"; "2936,328,,167.3,,347.3"]);
  ("LEOS", ["3976,72"]);
  ("LEPA", ["10728,148,15,58.6,8,238.6"; "9842,148,24,58.6,8,238.6"]);
  ("LEPP", ["2,,1468,,1500"; "7241,148,1468,152,1504,332"]);
  ("LEPZ", ["3346,59,,137.2,,317.2"]);
  ("LERE", [""]);
  ("LERI", ["3077,148,250,64.9,221,244.9"]);
  ("LERL", ["13123,197"]);
  ("LERM", ["3281,33,,7,,187"]);
  ("LERO", ["3937,148,,36,,216"]);
  ("LERS", ["8054,148,231,68.9,234,249"; "1117,115,226,111,198,291"]);
  ("LERT", ["12106,200,63,96.9,62,276.9"]);
  ("LESA", ["8202,197,2595,28,2586,208"; "6594,400,2587,74,2588,254"]);
  ("LESB", ["3281,72,,49.1,,229.1"]);
  ("LESL", ["6069,148,,19.5,,199.5"]);
  ("LESO", ["5755,148,10,39,15,219"]);
  ("LEST", ["10499,148,1170,166,1196,346"]);
  ("LESU", ["4396,98,,39,,219"]);
  ("LETI", ["3280,49,,47,,227"; "1969,197,,40.9,,220.9"]);
  ("LETL", ["9268,148"]);
  ("LETO", ["12001,217,1967,43.4,2026,223.4"]);
  ("LEVC", ["5394,148,205,38,188,218"; "8858,148,225,116.3,172,296.3"]);
  ("LEVD", ["9843,197,2768,45.2,2775,225.2"; "2976,197,2770,144,2771,324"]);
  ("LEVF", ["3281,82"]);
  ("LEVT", ["11483,148,1651,35.9,1682,215.9"]);
  ("LEVX", ["7874,148,855,11.4,829,191.4"]);
  ("LEXJ", ["7612,148,11,110.1,12,290.1"]);
  ("LEZG", ["9843,148,823,120,834,300"; "12198,148,834,120,863,300"]);
  ("LEZL", ["11024,148,83,89.7,111,269.7"]);
  ("LF50", ["3150,48,,65,,245"]);
  ("LF51", ["6562,98,,161,,341"]);
  ("LF52", ["7874,148,823,50.4,866,230.4"]);
  ("LFAB", ["2690,,323,,344"]);
  ("LFAC", ["5036,148,11,61,11,241"]);
  ("LFAD", ["2953,,272,,316"]);
  ("LFAE", ["1,1,295,,328"]);
  ("LFAF", ["3232,,253,,256"]);
  ("LFAG", ["4560,98,295,91,291,271"]);
  ("LFAI", ["3133,66,418,53,425,233"; "3133,66,417,53,423,233"]);
  ("LFAJ", ["3281,,568,,581"]);
  ("LFAK", ["0,0"]);
  ("LFAL", ["4708,262,117,84,120,264"]);
  ("LFAM", ["3000,150,31,57,31,237"; ""]);
  ("LFAO", ["3478,66,718,120,718,300"]);
  ("LFAQ", ["3838,82,364,90,355,270"]);
  ("LFAS", ["2789,,505,,476"]);
  ("LFAT", [",,36,,16"; "6070,131,19,133,16,313"]);
  ("LFAV", ["2051,328,177,,177"; "5610,148,162,111,160,291"]);
  ("LFAY", ["4134,82,193,116,205,296"]);
  ("LFBA", ["7103,98,203,112,200,292"]);
  ("LFBC", ["7900,148,74,57,83,237"]);
  ("LFBD", ["10171,148,160,46,151,226"; "7923,148,153,107,160,287"]);
  ("LFBE", ["7234,148,170,94,161,274"]);
  ("LFBF", ["5906,148,534,115,533,295"]);
  ("LFBG", ["7949,148,77,50,101,230"; "6152,197,87,84,96,264"]);
  ("LFBH", ["7398,148,59,93,74,273"]);
  ("LFBI", ["7710,148,417,32,421,212"]);
  ("LFBK", ["6234,148,1346,167,1354,347"]);
  ("LFBL", ["8202,148,1273,34,1275,214"]);
  ("LFBM", ["11821,148,164,87,197,267"]);
  ("LFBN", ["5774,98,144,68,201,248"]);
  ("LFBO", ["9843,148,490,143,497,323"; "11483,148,488,143,497,323"]);
  ("LFBP", ["8202,148,581,125,616,305"]);
  ("LFBR", ["3609,98,619,117,621,297"]);
  ("LFBS", ["2625,,92,,98"]);
  ("LFBT", ["9843,148,1238,20,1170,200"]);
  ("LFBU", ["5938,148,432,97,414,277"]);
  ("LFBV", ["4593,98,346,136,374,316"]);
  ("LFBX", ["5741,98,303,114,324,294"]);
  ("LFBY", ["2625,,101,,106"]);
  ("LFBZ", ["7382,148,242,89,219,269"]);
  ("LFCA", ["2625,,207,,207"]);
  ("LFCB", ["2625,,2028,,2011"]);
  ("LFCC", ["4921,98,884,129,911,309"]);
  ("LFCD", ["3281,,66,,66"]);
  ("LFCF", ["2953,100,1076,111,1086,291"]);
  ("LFCG", ["3609,98,1332,154,1368,334"]);
  ("LFCH", [",,49,,49"; "4593,66,49,71,49,251"; "3871,262,49,73,49,253"]);
  ("LFCI", ["5118,98,553,90,563,270"]);
  ("LFCJ", ["4495,,128,,128"; "4495,,128,,128"]);
  ("LFCK", ["5988,98,704,141,787,321"]);
  ("LFCL", ["3117,76,460,155,460,335"]);
  ("LFCM", ["5577,98,2595,142,2587,322"]);
  ("LFCN", ["2625,,302,,302"; "3117,,299,,302"]);
  ("LFCO", ["3543,,948,,984"]);
  ("LFCP", ["4101,,79,,115"]);
  ("LFCQ", ["3166,66,574,97,581,277"]);
  ("LFCR", ["6693,148,1910,130,1895,310"]);
  ("LFCS", ["2625,,190,,184"]);
  ("LFCT", ["3117,,341,,314"; "3117,,341,,341"]);
  ("LFCU", ["4429,98,2425,100,2396,280"]);
  ("LFCV", ["3363,,1096,,1096"]);
  ("LFCW", ["3412,98,190,103,190,283"]);
  ("LFCX", ["2953,,243,,233"]);
  ("LFCY", ["4117,98,35,102,71,282"]);
  ("LFCZ", ["3412,66,161,82,164,262"]);
  ("LFDA", ["3281,98,256,115,259,295"]);
  ("LFDB", ["3215,66,344,135,351,315"]);
  ("LFDC", ["2559,,148,,147"]);
  ("LFDE", ["2674,,1857,,1854"]);
  ("LFDF", ["3937,,282,,282"]);
  ("LFDG", ["3675,,446,,446"]);
  ("LFDH", ["4921,98,411,4,401,184"; ",,401,,411"]);
  ("LFDI", ["3609,66,151,35,157,215"]);
  ("LFDJ", ["4265,98,1112,92,1099,272"]);
  ("LFDK", ["2526,,7,,7"]);
  ("LFDL", ["2592,,315,,295"]);
  ("LFDM", ["3937,98,105,107,105,287"]);
  ("LFDN", ["7480,148,60,123,53,303"]);
  ("LFDP", ["3281,,20,,10"]);
  ("LFDR", ["3117,,40,,43"]);
  ("LFDT", ["2723,,1076,,1076"]);
  ("LFDU", ["2953,,104,,104"]);
  ("LFDV", ["3494,,496,,493"]);
  ("LFDX", ["2362"]);
  ("LFEB", ["2740,,358,,394"]);
  ("LFEC", ["2733,,120,,139"]);
  ("LFED", ["3675,98,381,94,400,274"]);
  ("LFEF", ["2295,82"]);
  ("LFEH", ["3330,66,617,60,630,240"]);
  ("LFEI", ["2789,,539,,539"]);
  ("LFEJ", ["2625,,538,,541"]);
  ("LFEK", ["3018,,531,,531"; "3117,,531,,518"]);
  ("LFEL", ["2625,,382,,382"]);
  ("LFEM", ["3937,,312,,305"]);
  ("LFEP", ["2789,,1411,,1391"]);
  ("LFEQ", ["2625,,37,,37"]);
  ("LFER", ["2756,,203,,220"]);
  ("LFES", ["4921,98,521,23,574,203"]);
  ("LFET", ["3445,,922,,938"; "3412,,928,,922"]);
  ("LFEU", ["3084,,909,,909"]);
  ("LFEV", ["2821,262,663,75,674,255"; "2625,59,668,75,678,255"]);
  ("LFEW", ["2625,,1722,,1722"]);
  ("LFEX", ["3215,,905,,937"]);
  ("LFEY", ["1886,164,39,35,59,215"; "4035,82,39,142,79,322"; ",,39,,79"]);
  ("LFEZ", ["3084,,1210,,1238"; "3084,,1219,,1221"; "3281,,1229,,1185"]);
  ("LFFB", ["2625,,394,,400"]);
  ("LFFC", ["2953,,489,,512"; "2953,,476,,479"]);
  ("LFFD", ["3609,,489,,476"]);
  ("LFFG", ["3609,,535,,528"]);
  ("LFFH", ["3051,,722,,728"]);
  ("LFFI", ["3937,82,111,73,88,254"]);
  ("LFFK", ["3150,,79,,85"]);
  ("LFFL", ["2559,,475,,497"; "2559,,505,,490"]);
  ("LFFN", ["8038,148,369,99,381,279"]);
  ("LFFP", ["3740,,384,,384"]);
  ("LFFQ", ["3281,,453,,433"]);
  ("LFFR", ["2625,,889,,925"]);
  ("LFFT", ["2559,,1224,,1224"]);
  ("LFFU", ["2625,,551,,551"]);
  ("LFFW", ["2953,,174,,184"]);
  ("LFFZ", ["3117,,354,,354"]);
  ("LFGA", ["5282,98,627,11,612,191"]);
  ("LFGB", ["3281,66,787,22,784,202"]);
  ("LFGC", ["2690,,457,,457"]);
  ("LFGD", ["3018,,860,,876"]);
  ("LFGF", ["3462,98,653,26,653,206"]);
  ("LFGG", ["2592,,1368,,1368"; "3264,,1368,,1368"]);
  ("LFGH", ["2657,,558,,580"]);
  ("LFGI", ["2625,,1555,,1585"]);
  ("LFGJ", ["7318,148,639,55,643,235"]);
  ("LFGK", ["3510,98,679,80,728,260"]);
  ("LFGL", ["3609,,761,,761"]);
  ("LFGM", ["2953,,994,,1030"]);
  ("LFGN", ["1960,330,,132,,312"]);
  ("LFGO", ["3281,,226,,230"; "3281,,226,,230"]);
  ("LFGP", ["3543,,350,,354"; "3675,,350,,353"]);
  ("LFGQ", ["2559,,1053,,1053"]);
  ("LFGR", ["2953,,777,,804"]);
  ("LFGS", ["2953,,1148,,1148"]);
  ("LFGV", ["3281,,516,,512"]);
  ("LFGW", ["3675,66,1204,99.9,1230,279.9"]);
  ("LFGY", ["2854,,1174,,1184"]);
  ("LFGZ", ["3182,,797,,778"]);
  ("LFHA", ["2805,230,1231,176,1239,356"; "2805,230,1232,176,1240,356"]);
  ("LFHD", ["3937,,197,,197"]);
  ("LFHE", ["3068,,584,,594"]);
  ("LFHI", ["2625,,797,,804"]);
  ("LFHJ", ["2904,,650,,650"]);
  ("LFHL", ["2953,,3310,,3333"]);
  ("LFHN", ["2200"]);
  ("LFHO", ["4675,98,919,184,878,4"]);
  ("LFHP", ["4570,98,2713,151,2726,331"; "3084,262,2719,151,2728,331"]);
  ("LFHQ", ["4298,98,3218,9,3190,189"]);
  ("LFHR", ["2854,164,1481,154,1486,334"]);
  ("LFHS", ["3737,98,852,180,851,360"])].

(* ADRpy/data/runways.csv *)
Definition airports_20 : list (string * list string) := [
  ("LFHT", ["2415,59,1830,16,1835,196"]);
  ("LFHV", ["3412,98,1075,181,1044,1"; "3609,262,1073,182,1043,2"]);
  ("LFHX", ["3937,75,1045,51,1000,231"]);
  ("LFHY", ["4265,98,890,83.2,910,263.2"]);
  ("LFIB", ["2625,,791,,791"]);
  ("LFID", ["2789,,414,,444"]);
  ("LFIF", ["4265,66,1666,118,1686,298"]);
  ("LFIG", ["3445,66,1961,93,2007,273"]);
  ("LFIH", ["2756,,279,,285"]);
  ("LFIK", ["2822,,344,,305"]);
  ("LFIL", ["3527,,255,,250"]);
  ("LFIV", ["2625,,16,,16"]);
  ("LFIY", ["2789,,246,,246"]);
  ("LFJA", ["4921,148,965,5,1001,185"]);
  ("LFJB", ["4265,66,576,36,522,216"]);
  ("LFJC", ["2592,,713,,713"]);
  ("LFJF", ["2526,,787,,810"]);
  ("LFJH", ["2920,,811,,811"]);
  ("LFJL", ["8202,148,865,39.1,861,219.1"]);
  ("LFJR", ["5906,148,165,80.4,191,260.4"]);
  ("LFJS", ["2870,180,,70,,250"]);
  ("LFJT", ["2953,,413,,394"]);
  ("LFJU", ["4960,55,746,56.5,746,236.5"; "2170,125,,57.9,,237.9"]);
  ("LFKB", ["8266,148,13,163,26,343"]);
  ("LFKC", ["7579,131,63,179,198,359"]);
  ("LFKF", ["8136,148,40,47.5,86,227.5"]);
  ("LFKG", ["2625,,157,,177"]);
  ("LFKJ", ["7897,148,15,24.9,18,204.9"]);
  ("LFKO", ["4593,98,10,95,13,275"]);
  ("LFKS", ["8619,148,20,179,18,359"]);
  ("LFKT", ["3084,65,1130,126.4,1060,306.4"]);
  ("LFLA", ["5413,98,522,4,509,184"]);
  ("LFLB", ["6628,148,769,176,778,356"]);
  ("LFLC", ["2313,197,1092,8,1083,188"; "9885,148,1089,82,1057,262"; "2953,161,1072,82,1063,262"]);
  ("LFLD", ["5085,148,529,59,518,239"]);
  ("LFLE", ["3281,66,973,144.1,955,324.1"]);
  ("LFLG", ["2953,,718,,722"]);
  ("LFLH", ["4725,98,621,170.7,609,350.7"]);
  ("LFLI", ["4265,98,1576,117,1611,297"]);
  ("LFLJ", ["1725,,6588,223"]);
  ("LFLK", ["2854,,1738,,1755"]);
  ("LFLL", ["8760,148,780,175,821,355"; "13124,148,758,175,813,355"]);
  ("LFLM", ["4036,79,728,174,701,354"]);
  ("LFLN", ["6660,148,782,148.2,796,328.2"; "4921,98,784,148,794,328"]);
  ("LFLO", ["4790,98,1093,15,1068,195"]);
  ("LFLP", ["5348,98,1489,39,1516,219"]);
  ("LFLQ", ["3937,262,239,21,241,201"]);
  ("LFLR", ["2953,328,500,7,509,187"; "2953,328,502,7,508,187"]);
  ("LFLS", ["10007,148,1224,90,1302,270"]);
  ("LFLT", ["3281,98,771,110,751,290"]);
  ("LFLU", ["6890,148,525,7,518,187"; "3914,164"; "1322,196"]);
  ("LFLV", ["7218,148,817,8,810,188"]);
  ("LFLW", ["5577,98,2096,150,2049,330"]);
  ("LFLX", ["11483,148,529,34,518,214"]);
  ("LFLY", ["5971,148,648,163,658,343"]);
  ("LFLZ", ["3084,197,1092,153,1095,333"]);
  ("LFMA", ["5249,98,342,146,361,326"]);
  ("LFMC", ["2625,98,258,88.4,255,268.4"; "4593,98,263,130.2,251,310.2"]);
  ("LFMD", ["2493,98,7,46.5,10,226.5"; "5282,148,13,172.6,13,352.6"]);
  ("LFME", ["2986,,183,,162"; "3100,,183,,162"]);
  ("LFMF", ["2625,,741,,741"; "2723,,741,,741"]);
  ("LFMH", ["7546,148,1291,175,1321,355"]);
  ("LFMI", ["12303,197,77,153,62,333"]);
  ("LFMK", ["6726,148,433,97,404,277"]);
  ("LFML", ["11483,148,8,133.7,53,313.7"; "7776,148,8,134.4,61,314.4"]);
  ("LFMN", ["8995,148,10,45.1,10,225.1"; "9712,148,10,45,12,225"]);
  ("LFMO", [",,195,,187"; "7909,197,195,144,187,324"]);
  ("LFMP", ["4150,66,143,127,131,307"; "8202,148,130,148,135,328"]);
  ("LFMQ", ["5741,98,1372,126.8,1388,306.8"]);
  ("LFMR", ["2625,,3694,,3714"]);
  ("LFMS", ["4576,98,656,13,620,193"]);
  ("LFMT", ["8530,164,17,124,6,304"; "3609,98,10,124,7,304"]);
  ("LFMU", ["5971,98,51,94.4,40,274.4"]);
  ("LFMV", ["6168,148,113,169,123,349"]);
  ("LFMW", ["2657,98,553,110,538,290"]);
  ("LFMY", [",,197,,197"; "6565,148,195,160.1,191,340.1"; ",,197,,197"; ",,197,,197"]);
  ("LFMZ", ["3281,98,207,78,197,258"]);
  ("LFNA", ["2920,,1969,,1982"]);
  ("LFNB", ["4265,98,3320,125,3355,305"]);
  ("LFNC", ["2854,,2959,,2946"]);
  ("LFND", ["3117,,144,,144"]);
  ("LFNE", ["4265,,233,,240"; "4003,,246,,233"]);
  ("LFNF", ["4167,,886,,902"; "3458,,886,,902"]);
  ("LFNG", ["2953,,5,,4"]);
  ("LFNH", ["3937,66,351,132,394,312"]);
  ("LFNJ", ["2953,,2726,,2673"]);
  ("LFNL", ["1805,230"]);
  ("LFNO", ["2592,,3040,,3054"]);
  ("LFNQ", ["3281,,5604,,5577"]);
  ("LFNR", ["3609,,108,,108"; "3117,,108,,108"]);
  ("LFNS", ["3839,,1772,,1755"]);
  ("LFNT", ["3839,,148,,144"; "4429,,148,,144"]);
  ("LFNU", ["3478,,886,,886"]);
  ("LFNV", ["3379,,446,,472"]);
  ("LFNX", ["3199,,1237,,1181"]);
  ("LFOA", ["11493,148,546,60,577,240"]);
  ("LFOB", ["3625,98,332,42,359,222"; "7972,148,352,125,297,305"; ",,359,,359"]);
  ("LFOC", ["7552,148,433,98.5,424,278.5"]);
  ("LFOD", ["4757,98,254,96,267,276"]);
  ("LFOE", ["9826,148,448,39.9,454,219.9"]);
  ("LFOF", ["2543,,479,,479"]);
  ("LFOH", ["7546,130,310,44,300,224.1"]);
  ("LFOI", ["4101,75,220,22,207,202"; "2950,330,213,24,217,204"; "1880,260,210,134,213,314"]);
  ("LFOJ", ["7887,148,412,69,399,249"]);
  ("LFOK", ["12664,148,556,102,586,282"]);
  ("LFOL", ["2510,,787,,787"]);
  ("LFOM", ["4160,,89,,85"]);
  ("LFOP", ["5577,148,499,41.3,512,221.3"; ",,499,,507"]);
  ("LFOQ", [",,390,,387"; "4101,98,397,122,381,302"]);
  ("LFOR", ["2756,,509,,509"]);
  ("LFOS", ["2953,,263,,262"]);
  ("LFOT", ["7887,148,351,15,351,195"]);
  ("LFOU", ["4528,98,433,25,410,205"]);
  ("LFOV", ["5020,98,327,142,323,322"]);
  ("LFOX", ["2295,72"]);
  ("LFOY", ["2920,,407,,423"; "2756,,423,,423"]);
  ("LFOZ", ["4567,98,390,53,396,233"]);
  ("LFPA", ["3199,328,112,53,133,233"; "2723,,148,,140"; "2887,,142,,131"]);
  ("LFPB", ["8743,197,147,26,182,206"; "9843,148,155,69,186,249"; "6053,148,148,86,166,266"]);
  ("LFPC", ["7871,164,281,65.1,291,245.1"]);
  ("LFPD", ["3937,,554,,545"]);
  ("LFPE", ["3757,,186,,210"; "3527,,188,,211"; "3346,,220,,194"; "3346,,210,,190"]);
  ("LFPF", ["3281,,348,,371"]);
  ("LFPG", ["13829,148,338,85,318,265"; "8858,197,336,85.1,316,265.1"; "8858,197,378,85.3,392,265.3"; "13780,148,370,86,387,266"]);
  ("LFPK", ["4593,66,470,91,457,271"; ",,470,,457"; "2132,164,466,91,458,271"; "2165,262,464,91,464,271"]);
  ("LFPL", ["2296,65,354,82,355,262"; "3608,328,365,82,357,262"]);
  ("LFPM", ["4265,98,295,13,302,193"; "6480,148,296,103,300,283"]);
  ("LFPN", ["3609,98,538,70,503,250"; "3445,98,536,70,499,250"]);
  ("LFPO", ["7874,197,287,18,287,198"; "11975,148,283,62,284,242"; "10892,148,277,74,287,254"]);
  ("LFPP", ["2300,60,387,67,387,247"; "2700,180,384,67,385,247"]);
  ("LFPQ", ["2300,60,361,119,371,299"; "2375,180,361,119,371,299"]);
  ("LFPT", ["5541,164,274,45,312,225"; "5413,164,323,118,317,298"]);
  ("LFPU", ["2707,,246,,253"]);
  ("LFPV", ["5948,148,584,88,576,268"]);
  ("LFPX", ["2707,197,425,,419"; "2329,328"]);
  ("LFPY", ["9843,,265,,270"]);
  ("LFPZ", ["3018,,361,,367"; "2838,,366,,369"]);
  ("LFQA", ["3773,98,307,66,306,246"]);
  ("LFQB", ["2559,328,388,51.6,371,231.6"; "5413,98,372,174,374,354"; "2953,328,387,173.7,382,353.7"]);
  ("LFQC", ["3410,66,794,92,794,272"]);
  ("LFQD", ["0,0,328,,335"]);
  ("LFQE", ["7874,148,738,13.6,768,193.6"; ",,738,,768"]);
  ("LFQF", ["3350,98,991,180,997,360"; "2087,164,995,180,998,360"]);
  ("LFQG", ["5348,98,568,121.8,581,301.8"]);
  ("LFQH", ["3133,,905,,873"]);
  ("LFQI", ["8264,164,216,94.2,243,274.2"]);
  ("LFQJ", ["2625,263"; "4265,98,447,48,440,228"]);
  ("LFQK", ["4921,,311,,314"; "4921,,314,,320"]);
  ("LFQL", ["0,0,167,,131"; "0,0"]);
  ("LFQM", ["4593,66,1267,53.2,1261,233.2"]);
  ("LFQN", ["1,1"]);
  ("LFQO", [",,65,,70"; "1,1"; ",,67,,62"]);
  ("LFQP", ["7205,148,996,57,1017,237"]);
  ("LFQQ", ["5184,98,148,15,153,195"; "9268,148,157,78,132,258"]);
  ("LFQR", ["4101,,266,,253"; "3215,,259,,256"]);
  ("LFQS", ["0,0,174,,157"; "0,0,167,,160"]);
  ("LFQT", ["6037,98,61,37,60,217"]);
  ("LFQU", ["2854,,787,,837"]);
  ("LFQV", ["4921,98,492,112.1,482,292.1"]);
  ("LFQW", ["4731,66,1181,82,1249,262"]);
  ("LFQX", ["2953,,1056,,1129"]);
  ("LFQZ", ["2707,,722,,722"]);
  ("LFRB", ["2297,59,311,71,317,251"; "10171,148,289,71,312,251"]);
  ("LFRC", ["8005,148,452,100.7,428,280.7"]);
  ("LFRD", ["4708,148,209,115,213,295"; "7218,148,193,170,198,350"]);
  ("LFRE", ["3117,82,105,107,100,287"]);
  ("LFRF", ["3150,98,44,65,29,245"]);
  ("LFRG", ["8366,148,472,117,466,297"]);
  ("LFRH", ["5479,148,144,16,160,196"; "7884,148,134,72,140,252"]);
  ("LFRI", ["5085,98,288,102,291,282"]);
  ("LFRJ", ["8858,148,330,73,336,253"]);
  ("LFRK", ["3871,98,256,52,214,232"; "6233,148,232,125,233,305"]);
  ("LFRL", ["3635,131,272,51,269,231"; ",,272,,269"; "2133,177,,128,,308"]);
  ("LFRM", ["4658,98,160,20,182,200"]);
  ("LFRN", ["6890,148,80,101,120,281"; "2788,98,110,142,109,322"]);
  ("LFRO", ["5577,148,277,107.1,285,287.1"]);
  ("LFRP", ["2805,,236,,230"]);
  ("LFRQ", ["2657,148,296,33,292,213"; "7054,148,293,94,275,274"]);
  ("LFRS", ["9514,148,73,28,86,208"]);
  ("LFRT", ["7218,148,450,58.7,431,238.7"]);
  ("LFRU", ["5305,118,250,41,262,221"; "26,,249,,269"]);
  ("LFRV", ["5020,148,429,39,437,219"; "3363,197,433,82,440,262"]);
  ("LFRZ", ["7874,148,12,73,11,253"]);
  ("LFSA", ["3182,,807,,807"]);
  ("LFSB", ["5969,197,881,77,884,257"; "12795,197,865,155,882,335"]);
  ("LFSC", ["7973,147,690,14,680,194"]);
  ("LFSD", ["5905,118,719,15,728,195"; "7874,148,726,175.1,710,355.1"]);
  ("LFSF", ["7874,148,625,9.8,621,189.8"]);
  ("LFSG", ["8858,147,1084,85,1034,265"]);
  ("LFSH", ["3264,59,489,29,489,209"; "3159,262,488,28.8,487,208.8"]);
  ("LFSI", ["7913,148,443,113,458,293"]);
  ("LFSJ", ["3609,,507,,512"; "2625,,509,,513"]);
  ("LFSK", ["2953,,409,,409"; "2887,,408,,411"]);
  ("LFSM", ["5578,66,1030,79.4,1037,259.4"]);
  ("LFSN", ["4593,131,700,29,751,209"]);
  ("LFSO", ["7878,148,1105,19,1066,199"]);
  ("LFSP", ["3277,98,2680,21,2680,201"]);
  ("LFSQ", ["9318,148"]);
  ("LFSR", ["8143,157,314,67.5,292,247.5"]);
  ("LFST", ["7874,148,503,48.7,491,228.7"]);
  ("LFSU", ["3018,,1362,,1346"]);
  ("LFSV", ["3937,,1283,,1283"; "3773,,1273,,1323"]);
  ("LFSW", ["3937,,276,,289"; "3281,,290,,272"]);
  ("LFSX", ["7596,118,872,38,913,218"; "7982,148,858,113,885,293"]);
  ("LFTF", ["6471,98,266,110,213,290"]);
  ("LFTH", ["6955,148,6,51,6,231"; "6240,164,12,135,5,315"]);
  ("LFTP", ["2690,,2438,,2523"]);
  ("LFTW", ["8005,148,301,177,309,357"]);
  ("LFTZ", ["3871,98,59,62,56,242"]);
  ("LFVM", ["3280,65,8,98,10,278"]);
  ("LFVP", ["5900,150,27,59,17,239"]);
  ("LFXA", ["6562,98,807,7.4,823,187.4"; "2625,328,823,15,823,195"]);
  ("LFXB", ["2953,,118,,69"; "2953,,92,,49"; "2953,,92,,49"; "2625,,98,,69"]);
  ("LFXI", ["5577,,2736,,2736"]);
  ("LFXU", ["6398,,76,,89"]);
  ("LFYD", ["7874,148,1240,68,1280,248"]);
  ("LFYG", ["2953,59,311,,311"; "2625,328"]);
  ("LFYR", ["2625,,275,,275"; "3117,,275,,289"]);
  ("LFYS", ["2625,,4241,,4330"]);
  ("LG53", ["3412,82,38,133,38,313"]);
  ("LG54", ["8900,160,7,88,50,268"]);
  ("LG55", ["3405,98,17,152,57,332"]);
  ("LG56", ["3330,50,,86.6,,266.6"]);
  ("LGAD", ["10299,148,31,165,55,345"]);
  ("LGAG", ["9875,98,,92.8,,272.8"]);
  ("LGAL", ["8471,148,10,73,24,253"]);
  ("LGAV", ["12467,148,255,36.6,282,216.6"; "13123,148,271,36.6,303,216.6"]);
  ("LGAX", ["5956,98,,128,,308"]);
  ("LGBL", ["9052,148,83,81,19,261"]);
  ("LGEL", ["8985,131,129,180,20,360"]);
  ("LGHI", ["4957,98,8,10,9,190"]);
  ("LGIK", ["4530,98,78,152,78,332"]);
  ("LGIO", ["7874,148,1550,142,1558,322"]);
  ("LGIR", ["8800,148,78,94.8,82,274.8"; "5138,164,57,126,115,306"; "2559,131,78,180.4,115,0.4"]);
  ("LGKA", ["8852,148,2167,122,2119,302"]);
  ("LGKC", ["4794,98,1045,26,1043,206"]);
  ("LGKF", ["7992,148,32,146,50,326"]);
  ("LGKJ", ["2618,,488,,458"]);
  ("LGKL", ["9260,148,26,169,16,349"]);
  ("LGKM", ["5150,98,154,138,203,318"]);
  ("LGKO", ["7841,148,412,148,373,328"]);
  ("LGKP", ["7871,98,36,124,62,304"]);
  ("LGKR", ["7792,148,5,169,5,349"]);
  ("LGKS", ["3221,82,19,93,24,273"]);
  ("LGKV", ["9844,148,11,55,18,235"]);
  ("LGKZ", ["5978,98,2050,143,1968,323"]);
  ("LGLE", ["3320,98,8,144,33,324"]);
  ("LGLM", ["9895,148,13,43,13,223"]);
  ("LGLR", ["9711,148,241,79,224,259"; "9711,98,233,79.1,227,259.1"]);
  ("LGMG", ["3953,125,,82,,262"]);
  ("LGMK", ["6244,98,395,160,388,340"]);
  ("LGML", ["2608,,10,,12"]);
  ("LGMT", ["7894,148,57,148,21,328"]);
  ("LGN", ["2461"]);
  ("LGNX", ["2953,,11,,11"]);
  ("LGPL", ["3245,98,142,150,165,330"]);
  ("LGPZ", ["9419,148,9,68,11,248"]);
  ("LGRD", ["7874,148,203,79.7,139,259.7"; "3937,197,110,142.1,162,322.1"]);
  ("LGRP", ["10846,148,16,70.1,17,250.1"]);
  ("LGRX", ["10999,70,37,183.2,46,3.2"; "10997,148,37,183,46,3"]);
  ("LGSA", ["10982,148,428,111,490,291"]);
  ("LGSK", ["5341,98,9,19,54,199"]);
  ("LGSM", ["6706,148,20,94,10,274"]);
  ("LGSO", ["3542,98,225,181,236,1"]);
  ("LGSP", ["3280,75,,61,,241"]);
  ("LGSR", ["6972,98,123,159,53,339"; ",,126,,57"]);
  ("LGST", ["6804,148,376,50.5,316,230.5"]);
  ("LGSV", ["4275,98,,61,,241"]);
  ("LGSY", ["9849,98,14,176,39,356"]);
  ("LGTG", ["9810,148,483,105,459,285"]);
  ("LGTL", ["9813,148,,20,,200"]);
  ("LGTP", ["6368,98,2113,23,2113,203"]);
  ("LGTS", ["8005,164,9,103.9,19,283.9"; "7907,197,14,166.3,22,346.3"]);
  ("LGTT", ["5789,148,,31,,211"]);
  ("LGZA", ["7310,98,11,163,12,343"]);
  ("LH58", ["6740,62,,40.6,,220.6"]);
  ("LHBP", ["12162,149,495,132.4,417,312.4"; "9875,149,450,132.3,450,312.3"]);
  ("LHDC", ["8087,230,,48,,228"; "8196,131,355,48,359,228"]);
  ("LHEC", ["2789,295"]);
  ("LHER", ["2623"]);
  ("LHFM", ["3232,75,433,158.5,440,338.5"]);
  ("LHGD", ["3280,190"]);
  ("LHKE", ["8200,197,376,123,376,303"]);
  ("lhkk", ["2608,147,322,,322"]);
  ("LHNY", ["3281,197,338,181,338,1"; "3281,66,338,181,338,1"]);
  ("LHOY", ["5249,984,,175,,355"]);
  ("LHP", ["1444"]);
  ("LHPA", ["7869"]);
  ("LHPP", ["4922,98,650,157.3,640,337.3"]);
  ("LHPR", ["4757,98,418,119.5,426,299.5"; "3720,140,,119.2,,299.2"]);
  ("LHSA", ["6562,197,902,159.1,905,339.1"; "5365,200,,161.8,,341.8"]);
  ("LHSK", ["6562,,432,,405"]);
  ("LHSM", ["8202,197,408,165,399,345"; "3100,212,,167,,347"]);
  ("LHSN", ["6562,229,292,21,292,201"]);
  ("LHTA", ["8205,,526,,495"]);
  ("LHTL", [""]);
  ("LHUD", ["3937,,262,,262"; "3862,164,268,167,266,347"; "3888,98,268,168,266,348"; "4921,,262,,262"]);
  ("LHUH", ["2297,102"]);
  ("LIAA", ["2854,59"]);
  ("LIAP", ["4623,85,2210,178,2201,358"]);
  ("LIAT", ["2215"]);
  ("LIBA", ["8727,144,177,114,181,294"]);
  ("LIBC", ["6562,148,520,169,514,349"]);
  ("LIBD", ["9252,148,176,67,108,247"; "512,164,108,123,108,303"]);
  ("LIBF", ["4724,148,260,156,265,336"]);
  ("LIBG", ["5610,148,215,169,195,349"]);
  ("LIBN", ["6240,190,151,146,157,326"]);
  ("LIBP", ["7933,148,46,37.5,27,217.5"]);
  ("LIBR", ["6132,148,46,53,13,233"; "8307,148,29,137,26,317"]);
  ("LIBV", ["9829,98,1126,141,1154,321"; "9846,148,1129,141,1185,321"]);
  ("LICA", ["7920,148,20,99,39,279"]);
  ("LICB", ["8070,148"]);
  ("LICC", ["7989,148,37,84,17,264"]);
  ("LICD", ["5906,148,48,81,70,261"]);
  ("LICG", ["4003,98,620,28,591,208"; "5495,148,635,76,603,256"]);
  ("LICJ", ["6804,148,42,24,22,204"; "10912,197,33,66.9,50,246.9"]);
  ("LICL", ["1312"]);
  ("LICP", ["4016,148,278,174.7,340,354.7"]);
  ("LICR", ["5574,148,38,113,43,293"; "6549,148,84,153,34,333"]);
  ("LICT", ["8852,148,10,128,24,308"]);
  ("LICZ", ["8012,98,81,98,81,278"; "8077,148,80,98,64,278"]);
  ("LIDA", [",,3340,,3407"; "3675,75,3336,76,3409,256"; "3609,295,3324,75.2,3409,255.2"]);
  ("LIDB", ["2664,,1240,,1240"]);
  ("LIDE", ["3976,98,151,110,148,290"; ",,151,,148"]);
  ("LIDG", ["2624,75,62,3,62,21"]);
  ("LIDP", ["4068,75"]);
  ("LIDR", ["3937,98,0,80.9,0,260.9"; "2625,164,,90,,270"]);
  ("LIDT", ["3215,98,610,181,606,1"]);
  ("LIDW", ["2461,164"]);
  ("LIEA", ["9843,148,69,25,87,205"]);
  ("LIED", ["9810,148,97,167,84,347"; "8565,74,92,167,81,347"]);
  ("LIEE", ["9196,148,9,138,4,318"]);
  ("LIEO", ["8025,148,35,53,19,233"]);
  ("LIER", ["3934,98,,133,,313"]);
  ("LIET", ["3898,98,22,121,7,301"]);
  ("LILA", ["2100,100"]);
  ("LILE", ["4860,98,925,156,876,336"]);
  ("LILG", ["2625,,863,,863"]);
  ("LILH", ["3281,98,399,159.6,423,339.6"]);
  ("LILN", ["4659,131,1050,176,1050,356"]);
  ("LILQ", ["2347,163,13,45,13,225"]);
  ("LIMA", ["3524,98,946,101,923,281"; "2461,131,935,101.5,923,281.5"]);
  ("LIMB", ["3543,98,484,180,464,360"]);
  ("LIMC", ["12861,197,745,169.6,691,349.6"; "12861,197,764,169.6,696,349.6"]);
  ("LIME", ["9636,148,779,105,754,285"; "2552,59,782,121,782,301"]);
  ("LIMF", ["10827,197,981,183,933,3"]);
  ("LIMG", ["4688,148,145,94,103,274"]);
  ("LIMJ", ["9564,148,9,105,12,285"]);
  ("LIML", ["1972,72,353,176,349,356"; "8005,197,353,176,337,356"]);
  ("LIMN", ["9818,94,585,168,553,348"]);
  ("LIMP", ["6962,148,158,17,146,197"]);
  ("LIMS", ["9828,148,455,118.4,436,298.4"]);
  ("LIMW", ["4088,98,1790,85,1773,265"]);
  ("LIMZ", ["6903,148,1267,32,1217,212"]);
  ("LINF", ["1804,82"]);
  ("LIPA", ["8551,144,321,48,410,228"]);
  ("LIPB", ["4255,98,771,10,788,190"; "2290,66,773,10.6,782,190.6"]);
  ("LIPC", ["10007,148,18,116,10,296"]);
  ("LIPE", ["9186,150,120,117,120,297"]);
  ("LIPG", ["2296"]);
  ("LIPH", ["7941,144,56,69,51,249"]);
  ("LIPI", ["8365,144,163,59,179,239"]);
  ("LIPK", ["7907,148,97,117,91,297"]);
  ("LIPL", ["9813,148,330,135,312,315"]);
  ("LIPN", ["3327,72,286,74.7,271,254.7"]);
  ("LIPO", ["9810,148,353,135,333,315"]);
  ("LIPQ", ["9843,148,37,90,36,270"]);
  ("LIPR", ["9828,148,21,128,39,308"]);
  ("LIPS", ["9816,105,136,82,137,262"]);
  ("LIPT", ["4921,98,128,179,124,359"]);
  ("LIPU", ["3681,98,44,40,42,220"]);
  ("LIPV", ["3261,147,13,,13"]);
  ("LIPX", ["10064,148,220,46,238,226"]);
  ("LIPY", ["9718,148,47,45,29,225"]);
  ("LIPZ", ["9121,148,7,42,7,222"; "10827,148,7,42,7,222"]);
  ("LIQG", ["3410,115,46,150,46"]);
  ("LIQL", ["2986,,39,,35"]);
  ("LIQS", ["4570,98,634,178,604,358"]);
  ("LIRA", ["7242,154,341,152.7,427,332.7"]);
  ("LIRE", ["8335,148,40,130.1,38,310.1"; "8138,98,,129.9,,309.9"]);
  ("LIRF", ["10849,148,7,70,7,250"; "11818,148,11,163,4,343"; "12795,197,14,163,7,343"; "12795,197,7,163,8,343"]);
  ("LIRG", ["3937,197,288,34.9,256,214.9"; "4797,98,289,181,243,1"]);
  ("LIRH", ["4695,,630,,597"]);
  ("LIRI", ["4577,148,82,48,119,228"]);
  ("LIRJ", ["3114,75,28,160,11,340"]);
  ("LIRL", ["5577,131,93,124.5,57,304.5"]);
  ("LIRM", ["9813,98,18,59.9,29,239.9"]);
  ("LIRN", ["8622,148,284,58.1,223,238.1"]);
  ("LIRP", ["9160,141,2,37,6,217"; "9820,148,3,37,6,217"]);
  ("LIRQ", ["5425,98,123,48,132,228"]);
  ("LIRS", ["9823,148,14,31,15,211"; "7729,80,,31,,211"]);
  ("LIRU", ["3543,98,55,160,55,340"]);
  ("LIRV", ["4265,164,970,38,990,218"; "3297,82,969,38,987,218"; "1936,112,977,39,987,219"]);
  ("LIRZ", ["5564,148,667,14,693,194"]);
  ("LIVV", ["2198,82,770,180,770,360"]);
  ("LJAJ", ["3543,197"]);
  ("LJBL", ["3707,75"; "1968,98,1656,144,1650,324"]);
  ("LJBO", ["2626,130"]);
  ("LJCE", ["7980,150,,89.2,,269.2"]);
  ("LJCL", ["2650,330"]);
  ("LJDI", ["2625,66"; "2625,48"]);
  ("LJLJ", ["10827,148,1273,126.4,1191,306.4"]);
  ("LJMB", ["8202,148,875,146,856,326"; "3937,197,,146,,326"]);
  ("LJMS", ["2953,180"; "3937,98"]);
  ("LJNM", ["4590,164"]);
  ("LJPO", ["2461,197"]);
  ("LJPT", ["3619,328"]);
  ("LJPZ", ["3939,98,5,151,7,331"]);
  ("LJSG", ["3950,70,,142,,322"]);
  ("LJVE", ["2343,60,1247,,1245"]);
  ("LKBA", ["2428,361"]);
  ("LKBO", ["2756,,774,,774"]);
  ("LKBU", ["2395,75,1384,102,1397,282"]);
  ("LKCB", ["3280,91,1585,,1585"]);
  ("LKCH", ["3935"; "2725"]);
  ("LKCM", ["3018,,925,,846"]);
  ("LKCS", ["8202,262,1417,90,1384,270"]);
  ("LKCV", ["7875,197,757,137,787,317"]);
  ("LKER", ["2821,,1575,,1562"; "2821,,1575,,1562"]);
  ("LKFR", ["2625,,1364,,1440"]);
  ("LKHB", ["2625,164"]);
  ("LKHK", ["7874,187,780,155,786,335"; "7874,187,791,155,791,335"]);
  ("LKHN", ["2412,492"]);
  ("LKHO", ["3937,,728,,758"; "5905,,708,,745"]);
  ("LKHS", ["2623,79,1621,,1591"; "3279,164,1621,,1588"; ""]);
  ("LKHV", ["6575,100,1214,65.5,1214,245.5"]);
  ("LKJC", ["3280,328,863,123,863,303"]);
  ("LKJI", ["3018,525,1818,,1821"]);
  ("LKKB", ["6562,148,939,62,916,242"]);
  ("LKKL", ["2953,459,1421,,1421"]);
  ("LKKM", ["2526,,617,,617"]);
  ("LKKO", ["2953,,925,,883"; "2789,,925,,883"]);
  ("LKKU", ["6562,98,574,25,581,205"; "4855,262,571,25,581,205"; "5544,197,571,25,581,205"]);
  ("LKKV", ["7054,98,1987,113,1985,293"]);
  ("LKLB", ["3445,,1303,,1329"]);
  ("LKLN", ["4757,197,1175,56.4,1188,236.4"]);
  ("LKLT", ["2820"; "2625"]);
  ("LKMB", ["2543,,768,,758"; "2953,,778,,742"]);
  ("LKMH", ["3231,200,,66.7,,246.7"; "5094,98,801,66.6,801,246.6"]);
  ("LKMI", ["3279"]);
  ("LKMO", ["3705"; "3705"]);
  ("LKMR", ["2608,,1762,,1755"; "3396,,1762,,1755"]);
  ("LKMT", ["11484,207,842,46.1,808,226.1"]);
  ("LKNA", ["7850,147,1548,129,1496,309"]);
  ("LKNM", ["3051,,974,,991"; "2953,,1001,,984"]);
  ("LKPA", ["4921,,1873,,1972"]);
  ("LKPC", ["8218,95,1207,86,1148,266"]);
  ("LKPD", ["8203,246,735,93,732,273"]);
  ("LKPJ", ["3281,,702,,702"]);
  ("LKPK", ["1969,49"]);
  ("LKPM", ["4700,125,1529,55.7,1460,235.7"; "8202,98,1519,55.8,1476,235.8"]);
  ("LKPN", ["2395,328,1201,69,1247,249"; "2100,302,1237,128,1250,308"]);
  ("LKPO", ["8123,197,663,66,673,246"]);
  ("LKPR", ["6955,197,1247,37,1174,217"; "12189,148,1202,65,1158,245"; "10663,148,1160,127,1232,307"]);
  ("LKRA", ["2789,,814,,863"]);
  ("LKRK", ["3068,,1273,,1214"]);
  ("LKRO", ["4593,,728,,728"]);
  ("LKRY", ["2413,92"]);
  ("LKSB", ["2887,,837,,837"]);
  ("LKSK", ["2881,,1528,,1601"]);
  ("LKSR", ["2613"]);
  ("LKSZ", ["2760,100,765,145,765,325"; "4314,394,765,145,765,325"]);
  ("LKTA", ["3609,,1411,,1391"; "2789,,1440,,1404"]);
  ("LKTB", ["8694,197,764,97,771,277"]);
  ("LKTC", ["2854,98"]);
  ("LKTD", ["3609,,1639,,1586"]);
  ("LKTO", ["4232,,2136,,2116"]);
  ("LKUL", ["2559,98,774,,784"]);
  ("LKUO", ["2910,,1332,,1342"]);
  ("LKVO", ["8203,148,880,106,915,286.1"]);
  ("LKZD", ["3675,,883,,883"]);
  ("LKZN", ["2822,,827,,827"]);
  ("LL01", ["30,30"]);
  ("LL04", ["58,58"]);
  ("LL07", ["2400,80"]);
  ("LL09", ["2000,150"]);
  ("LL10", ["1750,70"; "2575,30,708,,706"]);
  ("LL11", ["110,100"]);
  ("LL12", ["75,75"]);
  ("LL13", ["2275,70"]);
  ("LL18", ["2200,66"]);
  ("LL1A", ["6204,98,,103,,283"]);
  ("LL1B", ["4593,45,,79,,259"]);
  ("LL20", ["2600,100"]);
  ("LL22", ["2772,150"; "1940,25"]);
  ("LL23", ["2300,70"]);
  ("LL24", ["2640,70"]);
  ("LL25", ["40,40"]);
  ("LL26", ["2235,90"]);
  ("LL27", ["2550,150"]);
  ("LL28", ["1600,70"]);
  ("LL29", ["40,40"]);
  ("LL32", ["2630,65"]);
  ("LL34", ["2300,100"]);
  ("LL35", ["50,50"]);
  ("LL36", ["300,150"]);
  ("LL37", ["42,42"]);
  ("LL38", ["2200,70"]);
  ("LL39", ["2100,70"]);
  ("LL40", ["4203,50,777,90,764,270"]);
  ("LL42", ["56,56"]);
  ("LL43", ["2000,80"]);
  ("LL44", ["2600,100"]);
  ("LL45", ["2633,130"]);
  ("LL46", ["2110,90"]);
  ("LL47", ["40,40"]);
  ("LL48", ["2100,105"]);
  ("LL49", ["1600,100"]);
  ("LL51", ["2000,100"]);
  ("LL52", ["2000,100"]);
  ("LL53", ["2400,100"]);
  ("LL54", ["1650,90"]);
  ("LL55", ["2000,100"]);
  ("LL56", ["2400,76"]);
  ("LL59", ["7884,98,,25,,205"; "2636,100,,127,,307"]);
  ("LL60", ["4905,95,,146.8,,326.8"]);
  ("LL64", ["1400,70"]);
  ("LL65", ["1600,100"]);
  ("LL74", ["2500,120"]);
  ("LL75", ["1900,100"]);
  ("LL78", ["1700,100"]);
  ("LL79", ["2400,100"]);
  ("LL80", ["2200,90"]);
  ("LL81", ["4300,100"]);
  ("LL82", ["75,75"]);
  ("LL83", ["100,40"; "40,40"]);
  ("LL84", ["40,40"; "40,40"]);
  ("LL87", ["1900,100"]);
  ("LL88", ["2100,100"]);
  ("LL89", ["2000,100"]);
  ("LL90", ["2500,90"]);
  ("LL91", ["1600,70"]);
  ("LL94", ["2200,100"]);
  ("LL95", ["75,75"]);
  ("LL97", ["2000,100"]);
  ("LLBG", ["9094,148,129,29,134,209"; "13327,148,97,80,124,260"; "10209,148,112,121.4,130,301.4"]);
  ("LLBO", ["2625,59,14,188,17,8"]);
  ("LLBS", ["3384,69,,136.5,,316.5"]);
  ("LLEK", ["7830,150,165,151,213,331"; "7835,150,171,151,165,331"; "7880,150,,184,,4"]);
  ("LLES", ["3990,100,,97.8,,277.8"]);
  ("LLET", ["6234,89,16,28,42,208"]);
  ("LLEY", ["3943,60,,11,,191"]);
  ("LLHA", ["4324,98,27,158.8,16,338.8"]);
  ("LLHB", ["7948,131,700,105,720,285"; "9657,112,658,105,722,285"; "5800,75,658,143,688,323"]);
  ("LLHS", ["7905,150,123,53,130,233"; "8005,115,116,111.6,148,291.6"; "8040,150,116,111.6,148,291.6"]);
  ("LLHZ", ["2963,59,96,110,119,290"]);
  ("LLIB", ["3190,100,,54.1,,234.1"; "3655,100,,150.5,,330.5"]);
  ("LLMG", ["7800,70,,91,,271"]);
  ("LLMZ", ["3937,98,-1246,9.6,-1210,189.6"]);
  ("LLNV", ["10991,147,1295,77,1360,257"; "8530,147,1290,76.8,1320,256.8"; "8395,70,1318,77,1426,257"; "2806,70,,146.9,,326.9"]);
  ("LLOV", ["8530,148,1488,22,1432,202"; "9843,148,1492,22,1424,202"]);
  ("LLRD", ["8550,145,131,86,185,266"; "7975,115,128,108,158,288"; "7895,150,164,145,164,325"]);
  ("LLRM", ["8858,148,2108,66.8,2080,246.8"; "9876,148,2133,66.5,2071,246.5"]);
  ("LLSD", ["5712,98,14,27.7,33,207.7"]);
  ("LLTN", ["2224,32,,114,,294"]);
  ("LLYO", ["3346,52,249,27,244,207"]);
  ("LLYT", ["3331,59,,24,,204"]);
  ("LMML", ["7799,148,297,56,247,236"; "11627,197,256,135,230,315"]);
  ("LNC", ["1535"]);
  ("LNM", ["1654"]);
  ("LNQ", ["3700,,,133,,31"]);
  ("LOAA", ["1693,82"]);
  ("LOAB", ["2837,59"; "1935,98"]);
  ("LOAD", ["1644,82"]);
  ("LOAG", ["2965,59"]);
  ("LOAN", ["3500,75,896,97,876,277"]);
  ("LOAR", ["1641,82"]);
  ("LOAS", ["2297,82"]);
  ("LOAU", ["2625,59,685,,685"]);
  ("LOAV", ["3018,98,764,,765"; "3116,75,763,,766"; "2133,82,,306,,126"]);
  ("LOGF", ["2297,59"; "820,98"]);
  ("LOGG", ["2690,59,950,,950"]);
  ("LOGI", ["2575,59,2283,,2283"]);
  ("LOGK", ["1969,98"]);
  ("LOGL", ["2297,98"]);
  ("LOGM", ["1640,59"]);
  ("LOGO", ["2395,98"]);
  ("LOGP", ["2067,98"]);
  ("LOGT", ["2050,98"]);
  ("LOGW", ["1444,98"]);
  ("LOIH", ["2067,59"]);
  ("LOIJ", ["2461,59"]);
  ("LOIK", ["2625,98,1589,,1589"]);
  ("LOIR", ["2100,98"]);
  ("LOKF", ["2296,98"]);
  ("LOKG", ["2028,82"]);
  ("LOKH", ["2320,98,,172,,352"]);
  ("LOKL", ["2034,59"]);
  ("LOKM", ["1312,82"]);
  ("LOKN", ["2329,82"]);
  ("LOKR", ["1312,82"]);
  ("LOKW", ["2427,98"]);
  ("LOLC", ["1942,98"]);
  ("LOLE", ["1394,98"]);
  ("LOLF", ["1312,82"]);
  ("LOLG", ["1575,82"]);
  ("LOLH", ["1476,82"]);
  ("LOLK", ["2437,59"]);
  ("LOLM", ["1526,98"]);
  ("LOLO", ["3084,98,827,,827"]);
  ("LOLS", ["2625,75,1070,,1070"]);
  ("LOLT", ["2723,82,1050,,1050"]);
  ("LOLU", ["1804,59"]);
  ("LOLW", ["4560,98,1042,88.6,1032,268.6"; "3051,164,1043,88.9,1043,268.9"; "2952,148,1043,89,1043,269"]);
  ("LOM", ["6958,100,6223,19,6194,199"]);
  ("LOR", ["2000,75"; "2000,75"; "2000,75"; "2000,75"]);
  ("LOSM", ["2690,82,3642,,3642"]);
  ("LOWG", ["9842,148,1115,169,1089,349"; "2100,98,1112,169,1102,349"; "2493,82,1112,169,1102,349"]);
  ("LOWI", ["6562,148,1907,81,1894,261"]);
  ("LOWK", ["8924,148,1470,106,1445,286"; "2427,90,1470,106,1463,286"]);
  ("LOWL", ["9843,197,978,87,963,267"; "2165,148,971,87,968,267"]);
  ("LOWS", ["9022,148,1411,157,1411,337"]);
  ("LOWW", ["11483,148,575,116,600,296.1"; "11811,148,597,164,586,344"]);
  ("LOWZ", ["2165,59"; "1165,164,,74,,254"; ""]);
  ("LOXA", ["3034,131"]);
  ("LOXN", ["5314,147"]);
  ("LOXT", ["4593,196"]);
  ("LOXZ", ["4625,131,,80.9,,260.9"; "9022,197,2220,81,2220,261"]);
  ("LP77", ["4085,98,,146.1,,326.1"]);
  ("LPAR", ["9810,148,9,33,11,213"]);
  ("LPAV", ["4593,164,26,165,10,345"]);
  ("LPAZ", ["334,148,282,28,299,208"; "1004,148,279,136,299,316"; "10000,197,283,171,283,351"]);
  ("LPBG", ["5600,98,,14,,194"]);
  ("LPBJ", ["11319,197,628,6.4,624,186.4"; "9682,98,633,5.9,617,185.9"]);
  ("LPBR", ["3117,82,236,62,240,242"]);
  ("LPCB", ["2789,131"]);
  ("LPCH", ["2812,75,1142,,1171"]);
  ("LPCO", ["3018,98,587,157.1,542,337.1"]);
  ("LPCS", ["3969,98,326,164,287,344"]);
  ("LPCV", ["3150,75,1568,48,1572,228"]);
  ("LPEV", ["4265,75,807,4,807,184"; "2100,98,,71.5,,251.5"]);
  ("LPFL", ["4593,98,98,166,107,346"]);
  ("LPFR", ["8169,148,24,100,18,280"]);
  ("LPGR", ["4529,98,,76.7,,256.7"]);
  ("LPHB", ["66,66"]);
  ("LPHR", ["5233,148,81,90,117,270"]);
  ("LPIN", ["1400,100,,174,,354"]);
  ("LPJF", ["1969"]);
  ("LPJO", ["2625,82"; "2460,82"]);
  ("LPLA", ["10870,197,158,140.7,180,320.7"]);
  ("LPMA", ["9110,148,147,44.7,192,224.7"]);
  ("LPMI", ["2460,98"]);
  ("LPMR", ["9816,148,173,2,172,182"]);
  ("LPMT", ["7044,148,10,6.5,35,186.5"; "8005,148,18,72.4,46,252.4"]);
  ("LPMU", ["2625,72,2333,26,2343,206"]);
  ("LPOV", ["8005,148,44,176,56,356"]);
  ("LPPD", ["8192,148,259,111.6,187,291.6"]);
  ("LPPI", ["5725,148,110,83,104,263"]);
  ("LPPM", ["2819,98,5,107,5,287"]);
  ("LPPR", ["11417,148,151,172.8,226,352.8"]);
  ("LPPS", [",,240,,341"; "9861,148,240,178,338,358"]);
  ("LPPT", ["12484,148,331,22,347,202"; "7874,148,374,168,332,348"]);
  ("LPSJ", ["4633,148,335,117,318,297"]);
  ("LPST", ["5906,131,420,135,440,315"]);
  ("LPTN", ["7530,148,249,77,257,257"; "3937,74,266,117,256,297"]);
  ("LPVL", ["5906"]);
  ("LPVR", ["3107,98,1798,17.7,1831,197.7"]);
  ("LPVZ", ["4015,97,2060,356,2038,176"]);
  ("LQBI", ["3600,250,744,121,741,301"]);
  ("LQBK", ["8213,148,376,170,401,350"]);
  ("LQJL", ["3940,295,883,,883"]);
  ("LQMO", ["7874,158,155,157.9,138,337.9"]);
  ("LQSA", ["8666,150,1643,117.3,1690,297.3"]);
  ("LQTZ", ["8152,148,763,96,776,276"]);
  ("LQVI", ["2362,98"]);
  ("LR79", ["8202,262,,26.3,,206.3"]);
  ("LR80", ["8202,262,,185,,5"]);
  ("LR81", ["8202,262,,105.5,,285.5"]);
  ("LR82", ["8202,262,,43.5,,223.5"]);
  ("LRAR", ["6562,148,345,95,352,275"]);
  ("LRBC", ["8203,262,607,165,591,345"]);
  ("LRBM", ["5905,98,564,99,604,279"]);
  ("LRBS", ["10499,148,297,74,292,254"]);
  ("LRCK", ["11483,148,353,186,315,6"]);
  ("LRCL", ["6070,98,1036,79,1025,259"; ",,1036,,1025"]);
  ("LRCS", ["6562,148,809,109,864,289"]);
  ("LRCT", ["8202,164,,156,,336"]);
  ("LRCV", ["8203,148,626,89,614,269"]);
  ("LRIA", ["5841,98,397,154,340,334"]);
  ("LROD", ["5906,98,465,11,450,191"]);
  ("LROP", ["11484,148,313,84,303,264"; "11484,148,314,84,303,264"]);
  ("lrpv", ["2500"]);
  ("LRSB", ["6562,98,1496,91,1444,271"]);
  ("LRSM", ["8160,148,414,13,408,193"]);
  ("LRSV", ["5906,98,1375,163,1330,343"]);
  ("LRTC", ["6517,98,200,167,138,347"]);
  ("LRTM", ["6562,98,963,74,963,254"]);
  ("LRTR", ["11483,148,340,110,343,290"]);
  ("LRTZ", ["3117,,162,,162"]);
  ("LS00", ["1000,200"]);
  ("LS01", ["35,35"; "35,35"; "35,35"]);
  ("LS02", ["75,75"]);
  ("LS04", ["2000,100"]);
  ("LS06", ["40,40"]);
  ("LS07", ["54,54"]);
  ("LS08", ["100,100"]);
  ("LS10", ["2000,40"]);
  ("LS11", ["2450,65"]);
  ("LS12", ["24,24"]);
  ("LS13", ["45,45"]);
  ("LS14", ["2400,115"]);
  ("LS15", ["24,24"]);
  ("LS16", ["2640,50"; "1320,50"]);
  ("LS17", ["30,30"]);
  ("LS18", ["2500,140"; "2600,95"]);
  ("LS19", ["80,80"]);
  ("LS22", ["40,40"]);
  ("LS23", ["40,40"]);
  ("LS24", ["66,48"]);
  ("LS25", ["2800,50"]);
  ("LS27", ["60,60"]);
  ("LS28", ["24,24"]);
  ("LS29", ["40,40"]);
  ("LS30", ["65,65"]);
  ("LS31", ["46,46"]);
  ("LS34", ["2985,80"]);
  ("LS35", ["1550,75"]);
  ("LS36", ["1335,75"]);
  ("LS37", ["40,40"]);
  ("LS38", ["2200,45"]);
  ("LS39", ["3000,50"]);
  ("LS40", ["3900,125"]);
  ("LS41", ["1000,75"; "2100,75"]);
  ("LS42", ["60,60"]);
  ("LS45", ["50,50"]);
  ("LS46", ["2500,80"]);
  ("LS47", ["30,30"]);
  ("LS48", ["40,40"]);
  ("LS51", ["40,40"]);
  ("LS52", ["50,50"]);
  ("LS53", ["50,50"]);
  ("LS54", ["1500,60"]);
  ("LS55", ["150,150"]);
  ("LS56", ["25,25"]);
  ("LS57", ["36,27"]);
  ("LS58", ["40,40"]);
  ("LS59", ["500,75"]);
  ("LS60", ["60,60"]);
  ("LS62", ["50,50"]);
  ("LS64", ["30,30"]);
  ("LS66", ["55,40"]);
  ("LS67", ["40,40"]);
  ("LS68", ["2600,150"]);
  ("LS69", ["4000,100"]);
  ("LS71", ["25,25"]);
  ("LS72", ["400,50"; "900,50"; "750,60"]);
  ("LS73", ["25,25"]);
  ("LS74", ["30,30"]);
  ("LS75", ["50,50"; "50,50"; "50,50"]);
  ("LS76", ["2000,100"]);
  ("LS77", ["3000,100"]);
  ("LS78", ["70,70"]);
  ("LS79", ["40,40"]);
  ("LS80", ["50,50"]);
  ("LS81", ["25,25"]);
  ("LS83", ["2750,75"]);
  ("LS84", ["75,75"]);
  ("LS85", ["75,75"]);
  ("LS86", ["1300,75"]);
  ("LS89", ["600,100"]);
  ("LS91", ["1500,100"; "750,100"]);
  ("LS92", ["1200,75"]);
  ("LS93", ["300,75"]);
  ("LS94", ["40,40"]);
  ("LS95", ["100,100"]);
  ("LS96", ["50,50"]);
  ("LS97", ["40,20"]);
  ("LS98", ["50,50"]);
  ("LS99", ["20,20"]);
  ("LSGB", ["2297,98"]);
  ("LSGC", ["3707,89,3368,54.2,3343,234.2"]);
  ("LSGE", ["2625,75,2281,,2293"]);
  ("LSGG", ["12795,164,1411,45.5,1365,225.5"; "2700,98,1378,46.3,1393,226.3"]);
  ("LSGK", ["4593,131,3278,80.6,3297,260.6"]);
  ("LSGL", ["2871,75,2031,,1995"]);
  ("LSGN", ["2295,66"]);
  ("LSGP", ["1837,98"]);
  ("LSGR", ["2953,,2372,,2372"]);
  ("LSGS", [",,1578,,1581"; "1820,98,1578,72.9,1581,252.9"; "6562,131,1580,73,1585,253"]);
  ("LSGT", ["2661,98,2257,,2257"]);
  ("LSGY", ["2844,59,1421,,1421"; "2379,66"]);
  ("LSMA", ["4920,130,1460,10.8,1425,190.8"]);
  ("LSMD", ["7726,130,1427,107.8,1470,287.8"; "2130,98,1428,108.3,1437,288.3"]);
  ("LSME", ["8208,130,1400,37.6,1385,217.6"]);
  ("LSMF", ["4920,130,1485,13,1445,193"]);
  ("LSMM", ["6571,130,1885,95.2,1895,275.2"]);
  ("LSMP", ["9376,130,1463,48.4,1456,228.4"]);
  ("LSPA", ["2559,98,1368,,1368"]);
  ("LSPD", ["2300,100"]);
  ("LSPF", ["1772,98"]);
  ("LSPG", ["2953,131"]);
  ("LSPH", ["2280,98"]);
  ("LSPK", ["1247,66"]);
  ("LSPL", ["1608,98"]);
  ("LSPM", ["6529,131,3241,,3241"]);
  ("LSPN", ["1870,49"]);
  ("LSPV", ["1640,59"]);
  ("LSR", ["3650,100"]);
  ("LSTA", ["2953,131"]);
  ("LSTB", ["1608,164"]);
  ("LSTO", ["1857,98"]);
  ("LSTR", ["2001,131"]);
  ("LSTS", ["6726,131,,135,,315"]);
  ("LSZA", ["4429,98,896,18.9,915,198.9"]);
  ("LSZB", ["4954,98,1668,140.1,1674,320.1"; "2133,98,,140,,320"; "2125,98,,140,,320"]);
  ("LSZC", ["6561,130,1475,62,1435,242"; "2771,130,1475,62,1445,242"]);
  ("LSZE", ["1624,39"]);
  ("LSZF", ["2264,65"; "2264,66"]);
  ("LSZG", ["3281,75,1407,65.6,1405,245.6"; "1640,98,,66,,246"; "2297,66,,70,,250"; ",,1407,,1407"]);
  ("LSZH", ["8202,197,1391,96,1416,276"; "10827,197,1402,137.2,1402,317.2"; "12139,197,1390,155,1388,335"]);
  ("LSZI", ["1739,98"]);
  ("LSZJ", ["1640,98"]);
  ("LSZK", ["1969,59"]);
  ("LSZL", ["2297,98"; "2625,75,650,,650"]);
  ("LSZN", ["2297,98"]);
  ("LSZO", ["1673,98"; "1591,98"]);
  ("LSZP", ["1870,98"]);
  ("LSZQ", ["2625,59"]);
  ("LSZR", [",,1306,,1306"; "1969,75,,97.1,,277.1"; "4922,98,1306,98.7,1306,278.7"]);
  ("LSZS", ["5905,130,5600,29,5574,209"]);
  ("LSZT", ["2018,66"]);
  ("LSZU", ["2215,98"]);
  ("LSZV", ["1509,66"]);
  ("LSZW", ["2625,98,1837,,1837"]);
  ("LSZX", ["1706,49"]);
  ("LSZY", ["2008,98"]);
  ("LT86", ["7050,150,,15.8,,195.8"; "3915,100,,28,,208"]);
  ("LTAB", ["6608,98,2682,60,2691,240"; "2854,98,,90,,270"]);
  ("LTAC", ["12303,148,3100,36.3,3123,216.3"; "12303,197,3097,35.4,3125,215.4"]);
  ("LTAD", ["9045,138,2642,113,2653,293"; "4951,148,2650,113,2653,293"]);
  ("LTAE", ["10991,148,2729,32.8,2767,212.8"]);
  ("LTAF", ["9022,148,54,54,65,234"]);
  ("LTAG", ["10000,148,175,52.9,238,232.9"]);
  ("LTAH", ["12008,148,3310,133,3265,313"; "9843,148,3310,134,3268,314"]);
  ("LTAI", ["11155,148,176,186,176,6"; "11155,148,176,186,158,6"; "9811,148,172,186,176,6"]);
  ("LTAJ", ["9843,157,2315,105,2190,285"; "9842,100,2309,105,2215,285"]);
  ("LTAK", ["3806,98,,68,,248"]);
  ("LTAN", ["10984,148,3367,17,3392,197"; "10984,148,3352,17,3382,197"]);
  ("LTAO", ["7874,135,3002,47,3005,227"]);
  ("LTAP", ["9600,148,1758,54.6,1741,234.6"]);
  ("LTAR", ["12503,98,5236,17.7,5181,197.8"]);
  ("LTAT", ["10990,148,2828,31,2757,211"]);
  ("LTAU", ["9841,145,3449,76,3463,256"]);
  ("LTAV", ["11156,98,3167,113,3185,293"]);
  ("LTAW", ["5298,98,,49,,229"]);
  ("LTAY", ["9842,148,2797,58.9,2774,238.9"]);
  ("LTAZ", ["9842,148,3080,117,3100,297"]);
  ("LTBA", ["8530,197,93,59,90,239"; "9843,148,157,178,100,358"; "9843,148,163,178,102,358"]);
  ("LTBF", ["9810,144,340,182.2,332,2.2"]);
  ("LTBG", ["9865,147,170,181,138,1"]);
  ("LTBH", ["5905,98,12,41.2,21,221.2"]);
  ("LTBI", ["10006,150,2581,90,2570,270"]);
  ("LTBJ", ["10630,147,412,167,364,347"; "10630,147,409,167,366,347"]);
  ("LTBK", ["4453,131,432,168,425,348"]);
  ("LTBL", ["9821,147,13,176,11,356"]);
  ("LTBM", ["3283,95,,148,,328"]);
  ("LTBN", ["4950,132,3022,159,3026,339"]);
  ("LTBO", ["8385,98,2895,90.9,2865,270.9"]);
  ("LTBP", ["4603,130,30,85,42,265"; "4425,130,11,183,37,3"]);
  ("LTBQ", ["9842,98,182,96,173,276"]);
  ("LTBR", ["9818,148,763,74.5,749,254.5"; "9818,98,764,75,755,255"]);
  ("LTBS", ["9842,148,10,15.3,20,195.3"]);
  ("LTBT", ["9815,148,244,139,263,319"; "9815,98,249,139,265,319"]);
  ("LTBU", ["9844,148,500,49,574,229"]);
  ("LTBV", ["5151,98,125,65.6,202,245.6"]);
  ("LTBW", ["2230,91,5,,57"]);
  ("LTBX", ["2506,50,,44.9,,224.9"; "4528,98,,180,,360"]);
  ("LTBY", ["8261,98,2593,93,2580,273"]);
  ("LTCA", ["5643,105,2927,71,2890,251"]);
  ("LTCC", ["11644,148,2251,162.6,2176,342.6"]);
  ("LTCD", ["9842,148,3783,111,3760,291"; "5800,137,,127.1,,307.2"]);
  ("LTCE", ["3051,49,,48.2,,228.2"; "12499,148,5764,88.1,5761,268.1"; "12500,98,5762,88,5757,268"]);
  ("LTCF", ["11483,148,5873,64.4,5869,244.4"]);
  ("LTCG", ["8661,148,104,112.2,95,292.2"]);
  ("LTCH", ["7103,98,1484,151,1458,331"]);
  ("LTCI", ["9022,148,5412,38,5474,218"]);
  ("LTCJ", ["10000,150,1796,26,1822,206"]);
  ("LTCK", ["11649,148,4158,116,4160,296"]);
  ("LTCL", ["5905,98,1946,68.3,2000,248.3"]);
  ("LTCN", ["7546,98,1616,76,1723,256"]);
  ("LTCO", ["6562,98,5419,164.7,5462,344.7"]);
  ("LTCP", ["8212,98,2199,49.4,2207,229.4"]);
  ("LTCR", ["8204,118,1650,37.3,1728,217.3"]);
  ("LTDA", ["9843,148,265,42,267,222"]);
  ("LTF", ["2362,98,,115,,295"]);
  ("LTFA", ["9844,148,13,173,13,353"]);
  ("LTFB", ["5709,98,,88.8,,268.8"]);
  ("LTFC", ["9843,148,2827,49.6,2835,229.6"]);
  ("LTFD", ["9842,147,51,53.7,51,233.7"]);
  ("LTFE", ["9842,148,9,103.6,21,283.6"]);
  ("LTFH", ["9843,148,10,133.5,17,313.5"]);
  ("LTFJ", ["9843,148,293,64.1,304,244.1"]);
  ("LU-0002", ["500"]);
  ("LUBL", ["7245,140,758,153.4,706,333.4"]);
  ("LUBM", ["8235,129,,71,,251"]);
  ("LUCL", ["6463"]);
  ("LUKK", ["11779,145,399,88,279,268"]);
  ("LUZ", ["8268,148,632,72,626,252"]);
  ("LV-1288", ["6562"]);
  ("LW66", ["3478,264,,41.2,,221.2"]);
  ("LW67", ["3006,265,,128,,308"]);
  ("LW68", ["1000,70,,174,,354"]);
  ("LW69", ["994,64,,13,,193"]);
  ("LW70", ["980,80,,137,,317"]);
  ("LW71", ["997,71,,142,,322"]);
  ("LW72", ["980,66,,143.6,,323.6"]);
  ("LW73", ["980,68,,166,,346"]);
  ("LW74", ["3937,320,,169.4,,349.4"; "1000,60,,170.4,,350.4"]);
  ("LW75", ["3952,166,,121,,301"]);
  ("LW76", ["2073,155,,10,,190"]);
  ("LWD", ["2900,60"]);
  ("LWOH", ["8366,140,2284,18,2313,198"]);
  ("LWSK", ["8038,140,781,165.4,768,345.4"]);
  ("LXGB", ["6000,150,10,87.6,11,267.6"]);
  ("LY-0004", ["4610"]);
  ("LY-0005", ["4700"]);
  ("LY87", ["7165,98,,135.3,,315.3"]);
  ("LY88", ["10130,148,3011,107,2941,287"]);
  ("LY89", ["3562,98,1266,156.5,1227,336.5"]);
  ("LYBE", ["11155,148,318,122,335,302"]);
  ("LYBJ", ["3281,164"]);
  ("LYBT", ["3232,191,,125,,305"; "8181,148,,125,,305"; "7999,148,,125,,305"]);
  ("LYCA", ["2130,200"; "722,39"]);
  ("LYDK", ["5904,98,1370,177.5,1323,357.5"]);
  ("LYKI", ["2953,166"]);
  ("LYLE", ["3609,328,732,182,738,2"]);
  ("LYNI", ["8202,148,644,113,646,293"]);
  ("LYNK", ["3937"]);
  ("LYPG", ["7145,50,,85.8,,265.8"; "8202,148,118,184.3,82,4.3"]);
  ("LYTV", ["8208,148,7,139,16,319"]);
  ("LYVA", ["4100,150"]);
  ("LYVR", ["2738,230,,12.2,,192.2"; "3280,72,276,12,276,192.1"; "1520,110,,161.3,,341.3"]);
  ("LZDB", ["3609,,771,,771"; "3609,,771,,771"]);
  ("LZIB", ["9515,197,436,44,430,224"; "10466,148,433,134,434,314"]);
  ("LZJS", ["1785,49"]);
  ("LZKS", ["2790,100,400,,400"]);
  ("LZKZ", ["10171,148,739,13,753,193"]);
  ("LZMA", ["2625,,1378,,1378"; "2625,,1378,,1378"]);
  ("LZMC", ["8158,185,,18,,198"]);
  ("LZNI", ["3543,,443,,440"; "3543,,443,,440"]);
  ("LZNZ", ["3284,226"]);
  ("LZOC", ["2543,99,1181,80,1214,260"]);
  ("LZPE", ["3117,,837,,853"; "3117,,837,,853"]);
  ("LZPP", ["6562,98,535,14,541,194"]);
  ("LZPT", ["3609,164,604,,604"; "3609,164,604,,604"]);
  ("LZRU", ["3083,131"]);
  ("LZSK", ["3937,,1158,,1138"]);
  ("LZSL", ["7874,187,1044,182,1014,2"]);
  ("LZSV", ["4469,,1624,,1624"; "4469,,1624,,1624"]);
  ("LZTN", ["3230,215,666,32.8,663,212.8"; "6562,98,659,42.8,673,222.8"]);
  ("LZTT", ["8530,148,2355,94,2279,274"]);
  ("LZVB", ["3117,,433,,433"; "3117,,433,,433"]);
  ("LZZI", ["3773,98,1017,65,1020,245"]);
  ("M00", ["2500,100"]);
  ("M06", ["8000,200"; "8000,200"]);
  ("M10", ["2578,50"]);
  ("M14", ["10000,500"; "6000,500"]);
  ("M26", ["2400,125"]);
  ("M28", ["3420,175"]);
  ("M35", ["14000,1000"]);
  ("M38", ["2670,40"]);
  ("M47", ["5500,500"; "5500,500"; "6000,500"]);
  ("M49", ["5000,1800"]);
  ("M57", ["7000,1000"]);
  ("M61", ["2200,100"]);
  ("M62", ["55,50"]);
  ("M69", ["6000,2000"]);
  ("M74", ["1850,100"; "2228,50"]);
  ("M84", ["2670,80"]);
  ("M86", ["1750,60,640,,640"]);
  ("M97", ["5500,100"]);
  ("MA07", ["1635,50"]);
  ("MA10", ["20,20"]);
  ("MA12", ["3600,200"; "1500,200"]);
  ("MA13", ["40,40"]);
  ("MA14", ["10,12"]);
  ("MA15", ["40,40"]);
  ("MA16", ["1700,800"]);
  ("MA17", ["100,100"]);
  ("MA18", ["1250,80"]);
  ("MA19", ["3000,100"]);
  ("MA20", ["75,75"]);
  ("MA21", ["100,75"]);
  ("MA22", ["64,60"]);
  ("MA23", ["50,50"]);
  ("MA24", ["285,121"]);
  ("MA25", ["5000,1000"; "6000,1000"; "6000,1000"]);
  ("MA26", ["600,300"; "400,200"]);
  ("MA27", ["70,65"]);
  ("MA28", ["10,10"]);
  ("MA29", ["117,40"]);
  ("MA30", ["2000,300"]);
  ("MA31", ["60,60"]);
  ("MA32", ["40,40"]);
  ("MA33", ["50,50"]);
  ("MA34", ["80,80"]);
  ("MA35", ["100,100"]);
  ("MA36", ["1600,100"]);
  ("MA37", ["100,100"]);
  ("MA38", ["48,24"])].

(* ADRpy/data/runways.csv *)
Definition airports_21 : list (string * list string) := [
  ("MA39", ["80,60"]);
  ("MA40", ["3000,150"; "4000,150"; "4000,150"]);
  ("MA41", ["50,50"]);
  ("MA42", ["90,90"]);
  ("MA43", ["1170,100"]);
  ("MA44", ["2200,200"]);
  ("MA45", ["50,50"]);
  ("MA46", ["15,15"]);
  ("MA47", ["150,60"]);
  ("MA48", ["55,40"]);
  ("MA49", ["100,20"]);
  ("MA50", ["25,25"; "25,25"]);
  ("MA51", ["12,12"]);
  ("MA52", ["1075,30"]);
  ("MA53", ["2030,150"]);
  ("MA54", ["150,75"]);
  ("MA55", ["1820,100"]);
  ("MA56", ["40,40"]);
  ("MA57", ["100,75"]);
  ("MA58", ["120,78"]);
  ("MA59", ["75,75"]);
  ("MA6", ["3200,300"; "4600,500"]);
  ("MA60", ["40,40"]);
  ("MA62", ["60,60"]);
  ("MA63", ["1500,50"]);
  ("MA64", ["2000,150"]);
  ("MA65", ["4000,500"; "5000,500"]);
  ("MA67", ["90,40"]);
  ("MA68", ["60,60"]);
  ("MA69", ["50,50"]);
  ("MA70", ["1000,50"]);
  ("MA71", ["100,100"]);
  ("MA72", ["2000,20"; "2000,20"]);
  ("MA73", ["50,50"]);
  ("MA74", ["2500,400"]);
  ("MA75", ["2400,75"]);
  ("MA76", ["100,100"]);
  ("MA77", ["1800,100"]);
  ("MA78", ["2800,400"]);
  ("MA79", ["50,24"]);
  ("MA80", ["1600,50"]);
  ("MA81", ["34,34"]);
  ("MA82", ["5000,200"]);
  ("MA83", ["40,40"]);
  ("MA84", ["100,100"]);
  ("MA85", ["100,100"]);
  ("MA86", ["1800,150"]);
  ("MA87", ["5000,200"]);
  ("MA88", ["2800,50"]);
  ("MA89", ["2000,100"]);
  ("MA90", ["180,175"]);
  ("MA91", ["26,24"; "26,24"; "26,24"; "26,24"]);
  ("MA92", ["70,70"]);
  ("MA93", ["50,50"]);
  ("MA94", ["36,25"]);
  ("MA95", ["75,75"]);
  ("MA96", ["50,50"]);
  ("MA97", ["2400,60"]);
  ("MA98", ["50,50"]);
  ("MA99", ["20,20"]);
  ("MBGT", ["6362,151,11,104,9,284"]);
  ("MBMC", ["2894,,10,,10"]);
  ("MBNC", ["4245,75,10,69.6,10,249.6"]);
  ("MBPI", ["2533,,6,,6"]);
  ("MBPV", ["7598,148,13,93,3,273"]);
  ("MBSC", ["5991,98,4,97.9,5,277.9"]);
  ("MD00", ["1875,66"]);
  ("MD01", ["4200,500"; "1200,50"; "3600,300"]);
  ("MD02", ["45,45"; "45,45"]);
  ("MD04", ["1600,50"]);
  ("MD05", ["2575,100"]);
  ("MD06", ["1200,50"]);
  ("MD07", ["44,44"]);
  ("MD08", ["55,55"]);
  ("MD09", ["2000,80"]);
  ("MD1", ["3000,100"]);
  ("MD10", ["182,122"]);
  ("MD11", ["2950,100"]);
  ("MD12", ["2100,60"]);
  ("MD13", ["60,60"]);
  ("MD14", ["2600,70"; "2100,60"]);
  ("MD16", ["1460,50"]);
  ("MD17", ["1900,100"]);
  ("MD18", ["2200,100"; "2650,100"; "1800,100"]);
  ("MD19", ["2400,100"]);
  ("MD20", ["1500,100"]);
  ("MD21", ["2250,50"]);
  ("MD22", ["2000,60"]);
  ("MD23", ["2750,70"]);
  ("MD24", ["2400,85"]);
  ("MD25", ["100,100"]);
  ("MD26", ["65,65"]);
  ("MD27", ["330,130"]);
  ("MD28", ["3400,60"]);
  ("MD29", ["50,50"]);
  ("MD30", ["30,30"]);
  ("MD31", ["3261,50,478,,497"]);
  ("MD32", ["100,100"]);
  ("MD33", ["140,140"]);
  ("MD34", ["22,22"]);
  ("MD35", ["2200,100"; "3400,75"]);
  ("MD36", ["40,40"]);
  ("MD37", ["45,40"]);
  ("MD39", ["3000,200"]);
  ("MD40", ["150,100"]);
  ("MD41", ["1835,60"]);
  ("MD42", ["2000,120"]);
  ("MD43", ["1800,100"]);
  ("MD44", ["15,15"]);
  ("MD45", ["2500,100"]);
  ("MD46", ["2200,50"]);
  ("MD47", ["1800,75"; "2400,75"]);
  ("MD48", ["2100,60"]);
  ("MD49", ["45,45"]);
  ("MD50", ["2500,50"]);
  ("MD51", ["60,60"]);
  ("MD52", ["20,20"]);
  ("MD55", ["2300,50"]);
  ("MD56", ["1170,36"]);
  ("MD57", ["3000,100"]);
  ("MD58", ["100,100"]);
  ("MD60", ["58,60"]);
  ("MD61", ["1200,100"]);
  ("MD62", ["2700,100"]);
  ("MD63", ["3000,60"]);
  ("MD64", ["2600,80"]);
  ("MD65", ["48,48"]);
  ("MD66", ["3000,60"]);
  ("MD67", ["40,40"]);
  ("MD68", ["600,200"]);
  ("MD69", ["1800,60"]);
  ("MD70", ["2200,75"]);
  ("MD71", ["32,32"]);
  ("MD72", ["50,50"]);
  ("MD73", ["2500,50"]);
  ("MD74", ["2100,75"]);
  ("MD75", ["600,200"]);
  ("MD76", ["40,40"; "48,45"]);
  ("MD77", ["1400,50"]);
  ("MD78", ["1650,100"]);
  ("MD79", ["100,75"]);
  ("MD80", ["5000,200"]);
  ("MD81", ["5000,150"]);
  ("MD82", ["2000,31"]);
  ("MD83", ["2400,100"]);
  ("MD85", ["2000,60"]);
  ("MD86", ["35,35"]);
  ("MD88", ["1000,45"]);
  ("MD91", ["3200,75"; "2400,100"]);
  ("MD93", ["3800,100"]);
  ("MD95", ["1500,60"]);
  ("MD97", ["2900,24"]);
  ("MD98", ["50,50"]);
  ("MD99", ["4000,60,,130.5,,310.5"]);
  ("MDAB", ["3830,82,57,99.5,57,279.5"]);
  ("MDAN", ["2953,,197,,197"]);
  ("MDBC", ["3281,,312,,312"]);
  ("MDBH", ["9843,148,10,118,10,298"]);
  ("MDCR", ["4950,98,262,109,262,289"]);
  ("MDCY", ["9843,148,12,74,12,254"]);
  ("MDCZ", ["4593,,3953,,3953"]);
  ("MDDJ", ["5249,,66,,66"]);
  ("MDJB", ["5412,100,38,6.4,79,186.4"]);
  ("MDLR", ["9676,148,240,97,217,277"]);
  ("MDMC", ["2625,,115,,115"]);
  ("MDPC", ["10171,148,43,74,37,254"; "10171,148,47,83,36,263"]);
  ("MDPO", ["2953,,30,,30"]);
  ("MDPP", ["10108,151,17,73,15,253"]);
  ("MDR", ["2200,50"]);
  ("MDSD", ["11000,200,39,161,58,341"]);
  ("MDSI", ["7000,200,,26,,206"]);
  ("MDST", ["8595,148,565,103,551,283"]);
  ("ME00", ["1800,40"]);
  ("ME01", ["10000,1000"]);
  ("ME02", ["40,40"]);
  ("ME03", ["2500,40"]);
  ("ME04", ["2600,500"]);
  ("ME05", ["1700,100"]);
  ("ME06", ["600,30"; "1900,30"]);
  ("ME07", ["10000,2000"]);
  ("ME08", ["2000,200"]);
  ("ME09", ["8200,1000"; "7000,3000"]);
  ("ME11", ["3000,500"; "4000,500"]);
  ("ME12", ["3000,200"; "3500,700"]);
  ("ME14", ["1800,150"; "700,150"]);
  ("ME16", ["12101,300,746,347,744,167"]);
  ("ME17", ["1800,75"]);
  ("ME18", ["100,100"]);
  ("ME19", ["1200,100"]);
  ("ME2", ["2950,40"]);
  ("ME20", ["1400,75"]);
  ("ME22", ["2000,100"]);
  ("ME24", ["40,40"]);
  ("ME25", ["3000,75"]);
  ("ME26", ["1100,50"]);
  ("ME27", ["5000,200"; "10000,200"]);
  ("ME28", ["5400,600"; "3100,300"; "2850,200"]);
  ("ME3", ["15000,1500"]);
  ("ME30", ["5000,1000"; "6000,1200"]);
  ("ME32", ["1900,75"; "1500,75"]);
  ("ME33", ["1900,100"]);
  ("ME34", ["2000,100"]);
  ("ME35", ["2600,100"]);
  ("ME36", ["1200,100"]);
  ("ME39", ["1350,75"]);
  ("ME41", ["1045,60"]);
  ("ME42", ["65,40"]);
  ("ME44", ["1400,60"]);
  ("ME45", ["1600,40"]);
  ("ME46", ["1000,200"]);
  ("ME47", ["2300,100"]);
  ("ME5", ["1500,30"]);
  ("ME50", ["3300,1000"; "11000,1000"]);
  ("ME51", ["7000,500"]);
  ("ME55", ["1510,60"]);
  ("ME57", ["5000,300"]);
  ("ME58", ["16,16"]);
  ("ME59", ["100,100"]);
  ("ME6", ["2100,80"]);
  ("ME60", ["1800,250"]);
  ("ME61", ["2000,200"]);
  ("ME62", ["2500,100"]);
  ("ME64", ["4000,28,,153.8,,333.8"]);
  ("ME65", ["30,30"]);
  ("ME66", ["900,300"; "600,225"]);
  ("ME67", ["2600,80"]);
  ("ME68", ["3200,150"]);
  ("ME69", ["1680,50"]);
  ("ME70", ["1600,40"]);
  ("ME72", ["75,75"]);
  ("ME74", ["2400,50"]);
  ("ME75", ["1600,100"]);
  ("ME76", ["70,70"]);
  ("ME79", ["3200,45"; "5000,500"]);
  ("ME80", ["3500,1000"]);
  ("ME85", ["3600,300"]);
  ("ME86", ["26000,3000"]);
  ("ME87", ["60,60"]);
  ("ME88", ["2000,75"]);
  ("ME89", ["1650,100"]);
  ("ME90", ["8000,400"]);
  ("ME91", ["1300,50"]);
  ("ME92", ["1200,50"]);
  ("ME94", ["1800,80"]);
  ("ME95", ["40,40"]);
  ("ME96", ["800,50"]);
  ("MFN", ["1500,50"]);
  ("MG13", ["3919,48,,90.2,,270.2"]);
  ("MGBN", ["3236,33,,102.8,,282.8"]);
  ("MGCB", ["3340,50,,31.4,,211.4"]);
  ("MGGT", ["9800,196,4884,17.4,4952,197.4"]);
  ("MGP", ["2641"]);
  ("MGPB", ["8880,110,,127.7,,307.7"]);
  ("MGPP", ["8000"]);
  ("MGRB", ["4690,70,,88,,268"]);
  ("MGRT", ["5065,100,,49.8,,229.8"]);
  ("MGSJ", ["6595,150,30,156.7,30,336.7"]);
  ("MGTK", ["9842,148,407,110.9,385,290.9"]);
  ("MHAC", ["2624,72"]);
  ("MHAG", ["700,20"]);
  ("MHLC", ["9875,147,46,67,53,247"]);
  ("MHLG", ["2296,72"]);
  ("MHLM", ["9203,148,91,40,83,220"]);
  ("MHML", ["2296,98"]);
  ("MHMN", ["3280,23"]);
  ("MHN", ["2525,25"]);
  ("MHNC", ["4100,98"]);
  ("MHNJ", ["3990,66,,115.2,,295.2"]);
  ("MHPI", ["2296,66"]);
  ("MHRO", ["7349,148,9,66,17,246"]);
  ("MHSC", ["8008,148,2061,170,2036,350"]);
  ("MHSZ", ["2132,98"]);
  ("MHTE", ["4415,98,7,57.6,4,237.6"]);
  ("MHTG", ["6112,148,3337,19,3268,199"]);
  ("MHTJ", ["3515,95,7,61.2,10,241.2"]);
  ("MHY", ["4298"]);
  ("MI00", ["2725,100,970,,970"]);
  ("MI01", ["2300,70"]);
  ("MI02", ["2700,70"]);
  ("MI03", ["10000,4000"]);
  ("MI04", ["1400,250"; "1100,250"]);
  ("MI05", ["2640,200"]);
  ("MI06", ["1900,65"]);
  ("MI07", ["300,150"]);
  ("MI08", ["60,60"; "60,60"]);
  ("MI09", ["2450,100"]);
  ("MI10", ["2190,85"]);
  ("MI11", ["2500,75"]);
  ("MI12", ["84,63"]);
  ("MI13", ["1000,175"]);
  ("MI14", ["60,60"]);
  ("MI15", ["1700,164"]);
  ("MI17", ["55,55"]);
  ("MI18", ["2500,60"]);
  ("MI19", ["1650,100"]);
  ("MI20", ["24,24"]);
  ("MI22", ["900,20"]);
  ("MI23", ["2250,75"]);
  ("MI24", ["1800,40"]);
  ("MI25", ["1318,150"]);
  ("MI27", ["1800,75"]);
  ("MI29", ["2000,50"]);
  ("MI31", ["2200,85"]);
  ("MI32", ["60,60"]);
  ("MI33", ["1800,200"]);
  ("MI34", ["75,75"]);
  ("MI35", ["1700,100"]);
  ("MI36", ["460,100"]);
  ("MI37", ["1300,75"]);
  ("MI38", ["2000,50"]);
  ("MI39", ["1300,70"]);
  ("MI40", ["44,40"]);
  ("MI41", ["2700,40"]);
  ("MI42", ["62,40"]);
  ("MI43", ["2360,50"]);
  ("MI44", ["1950,70"]);
  ("MI45", ["1500,100"]);
  ("MI46", ["100,100"]);
  ("MI47", ["2500,50"]);
  ("MI48", ["2400,100"]);
  ("MI49", ["70,70"]);
  ("MI50", ["2500,75"]);
  ("MI51", ["2600,80,,179,,0"]);
  ("MI53", ["2400,65"]);
  ("MI54", ["35,60"]);
  ("MI55", ["2400,60"]);
  ("MI56", ["100,74"]);
  ("MI57", ["16,16"]);
  ("MI58", ["3300,50"]);
  ("MI59", ["40,40"]);
  ("MI60", ["1320,150"]);
  ("MI61", ["40,40"]);
  ("MI63", ["22,22"]);
  ("MI66", ["35,35"; "35,35"; "35,35"]);
  ("MI67", ["1800,100"]);
  ("MI68", ["1800,70"]);
  ("MI69", ["80,80"]);
  ("MI70", ["1800,50"]);
  ("MI71", ["2660,400"]);
  ("MI72", ["2000,100"]);
  ("MI73", ["2700,60"]);
  ("MI74", ["30,30"]);
  ("MI76", ["1600,90"]);
  ("MI77", ["1900,80"]);
  ("MI78", ["1700,100"]);
  ("MI79", ["180,180"]);
  ("MI80", ["2140,80"]);
  ("MI81", ["20,20"]);
  ("MI82", ["2400,100"]);
  ("MI85", ["100,100"]);
  ("MI86", ["2000,100"]);
  ("MI88", ["2000,75"]);
  ("MI89", ["2500,150"; "2400,150"]);
  ("MI90", ["30,30"]);
  ("MI91", ["50,50"]);
  ("MI92", ["2400,60"]);
  ("MI94", ["1750,75"]);
  ("MI95", ["1200,100"; "1800,100"]);
  ("MI97", ["50,50"]);
  ("MI98", ["1750,90"]);
  ("MI99", ["2300,120"]);
  ("MKBS", ["3000,75,,85.8,,265.8"]);
  ("MKJP", ["8900,150,8,112,17,292"]);
  ("MKJS", ["8735,150,7,65.5,7,245.5"]);
  ("MKKJ", ["3412,76,,86.7,,266.7"]);
  ("MKN", ["3050"]);
  ("MKTP", ["4300,110,13,131.1,16,311.1"]);
  ("ML-0001", ["4946,98,525,88,538,268"]);
  ("MLQ", ["3609"]);
  ("MM10", ["4660,85,,173,,353"]);
  ("MM11", ["5104,46,,68.8,,248.8"]);
  ("MM12", ["4565,30,,17.3,,197.3"]);
  ("MM13", ["6035,65,,141,,321"]);
  ("MM14", ["3390,40,,169.7,,349.7"]);
  ("MM16", ["6900,65,,36.9,,216.9"]);
  ("MM17", ["3075,44,,179.8,,359.8"]);
  ("MM20", ["4090,50,,125.6,,305.6"]);
  ("MM21", ["3370,37,,159.8,,339.8"]);
  ("MM22", ["6775,70,,168.3,,348.3"]);
  ("MM23", ["3834,98,,73.3,,253.3"]);
  ("MM25", ["5000,65,,160.6,,340.6"]);
  ("MM27", ["4595,66,,182,,2"]);
  ("MM28", ["4235,80,,22.1,,202.1"]);
  ("MM29", ["3155,65,,105.1,,285.1"]);
  ("MM30", ["4340,32,,58.3,,238.3"]);
  ("MM31", ["4640,56,,80.7,,260.7"]);
  ("MM32", ["6598,148,,25.7,,205.7"]);
  ("MM35", ["5250,60,841,149,848,329"]);
  ("MM36", ["5265,70,,116.2,,296.2"]);
  ("MM37", ["6710,68,,109,,289"]);
  ("MM38", ["5074,34,150,97,150,277"]);
  ("MM39", ["3300,65,,32.6,,212.6"]);
  ("MM41", ["7612,150,,110,,290"]);
  ("MM42", ["3997,63,,131,,311"]);
  ("MM44", ["3400,31,,28.7,,208.7"]);
  ("MM47", ["5510,75,,96.3,,276.3"]);
  ("MM48", ["5000,98,,56,,236"]);
  ("MM50", ["3894,48,,141.7,,321.7"]);
  ("MM51", ["4193,32,,136.4,,316.4"]);
  ("MM52", ["6460,80,,92.1,,272.1"]);
  ("MM53", ["5142,33,,169.5,,349.5"]);
  ("MM54", ["4100,50,,142.2,,322.2"]);
  ("MM56", ["4169,50,,19.5,,199.5"]);
  ("MM61", ["3350,70,,48.9,,228.9"]);
  ("MM63", ["5590,55,,70,,250"]);
  ("MM64", ["4100,68,,81.9,,261.9"]);
  ("MM65", ["1893,70,,66,,246"; "4950,95,,173.9,,353.9"]);
  ("MM66", ["4930,77,,54.8,,234.8"]);
  ("MM67", ["6570,80,,36,,216"]);
  ("MM68", ["2640,50,,80.4,,260.4"; "6455,60,,105,,285"]);
  ("MM69", ["4741,70,,35,,215"]);
  ("MM72", ["5780,92,,120.3,,300.3"]);
  ("MM73", ["5365,60,,173.7,,353.7"]);
  ("MM75", ["3488,50,,125.6,,305.6"]);
  ("MM77", ["3380,50,,15,,195"]);
  ("MM79", ["4290,65,,148.5,,328.5"]);
  ("MM80", ["8170,95,,163.3,,343.3"]);
  ("MM81", ["4085,100,,193.1,,13.1"]);
  ("MM82", ["4935,40,,35.7,,215.7"]);
  ("MM84", ["4375,50,,102.9,,282.9"]);
  ("MMAA", ["5579,115,11,67,11,247"; "10832,148,13,108,13,288"]);
  ("MMAL", ["9350,108,676,29.9,676,209.9"]);
  ("MMAN", ["6598,148,1473,32,1473,212"; "5049,148,1473,122,1473,302"]);
  ("MMAS", ["3478,98,6112,49,6112,229"; "9843,148,6112,182.6,6112,2.6"]);
  ("MMBT", ["8858,148,464,79.1,464,259.1"]);
  ("MMCA", ["5520,95,,,4967"]);
  ("MMCB", ["9439,148,4277,31,4277,211"]);
  ("MMCC", ["5910,100,,133,,313"]);
  ("MMCE", ["7218,148,10,140,10,320"]);
  ("MMCG", ["2350,95,,60.1,,240.1"; "6075,65,4850,150,4850,330"]);
  ("MMCH", ["4615,65,,156.7,,336.7"]);
  ("MMCL", ["7546,148,102,32.9,109,212.9"]);
  ("MMCM", ["7244,151,39,108.1,26,288.1"]);
  ("MMCN", ["7546,148,205,137,205,317"]);
  ("MMCO", ["5774,,5164,,5164"]);
  ("MMCP", ["8202,148,34,166.1,34,346.1"]);
  ("MMCS", ["8858,148,3887,38.5,3887,218.5"; "5741,98,3899,156,3902,336"]);
  ("MMCT", ["9186,148,102,100.3,102,280.3"]);
  ("MMCU", ["3609,98,4447,55.9,4447,235.9"; "8530,148,4436,190.8,4398,10.8"; "7885,75,4459,190.8,4459,10.8"]);
  ("MMCV", ["7218,148,761,156.5,761,336.5"; "4659,98,,180.8,,0.8"]);
  ("MMCY", ["6284,98,,95,,275"]);
  ("MMCZ", ["10165,148,11,55.2,14,235.2"; "8858,148,10,115.7,15,295.7"]);
  ("MMDA", ["5249,,213,,213"]);
  ("MMDO", ["9514,148,6104,38,6104,218"]);
  ("MMEP", ["7546,148,3020,26.3,3020,206.3"]);
  ("MMES", ["4892,115,66,123.4,66,303.4"]);
  ("MMGD", ["3900"]);
  ("MMGL", ["5964,94,5016,30,5016,210"; "13140,197,5012,113,5011,293"]);
  ("MMGM", ["7710,148,59,29,59,209"]);
  ("MMGR", ["7216,131,,134,,314"]);
  ("MMHC", ["6530,115,,143,,323"]);
  ("MMHO", ["7546,148,626,59,626,239"; "3609,98,616,126,616,306"]);
  ("MMIA", ["7546,148,2467,73.9,2467,253.9"]);
  ("MMIM", ["3437,82,,153.3,,333.3"]);
  ("MMIO", ["3471,148,,40,,220"; "9506,148,4646,180.3,4778,0.3"]);
  ("MMIT", ["7640,148,,179.9,,359.9"]);
  ("MMJA", ["5577,82,3136,86.4,3136,266.4"]);
  ("MMJC", ["4265,131,,47.2,,227.2"]);
  ("MMLC", ["4900,98,,22.6,,202.6"]);
  ("MMLM", ["6562,148,16,100,16,280"]);
  ("MMLO", ["11483,148,5956,134,5956,314"]);
  ("MMLP", ["8202,148,31,187.7,68,7.7"]);
  ("MMLT", ["7218,148,34,173,34,353"]);
  ("MMMA", ["7546,151,26,156.2,26,336.2"]);
  ("MMMD", ["10499,151,38,105,38,285"; "7546,151,38,181,38,1"]);
  ("MMML", ["8530,148,72,118.4,72,298.4"]);
  ("MMMM", ["11155,148,6033,54.7,6033,234.7"]);
  ("MMMT", ["6890,148,33,17.8,32,197.8"]);
  ("MMMV", ["4783,66,1864,72.7,1864,252.7"; "6890,148,1864,72.7,1864,252.7"]);
  ("MMMX", ["12966,148,7309,59.4,7311,239.4"; "12795,148,7316,59.4,7295,239.4"]);
  ("MMMY", ["9843,148,1277,121,1234,301"; "5909,98,1271,165,1254,345"]);
  ("MMMZ", ["8858,197,19,93,37,273"]);
  ("MMNG", ["5905,98,,174.2,,354.2"]);
  ("MMNL", ["6562,148,484,151,484,331"]);
  ("MMOX", ["8038,148,4965,15.7,4989,195.7"]);
  ("MMPA", ["5906,148,497,89.1,497,269.1"]);
  ("MMPB", ["11811,148,7361,177.8,7361,357.8"]);
  ("MMPC", ["6825,85,,33.5,,213.5"]);
  ("MMPE", ["3329,92,30,45.4,30,225.4"; "4805,82,30,122.2,30,302.2"]);
  ("MMPG", ["6655,98,901,126.8,901,306.8"]);
  ("MMPN", ["7874,148,5258,31.3,5258,211.3"]);
  ("MMPP", ["3335,60,,122.9,,302.9"]);
  ("MMPQ", ["4888,82,,101,,281"]);
  ("MMPR", ["10171,148,23,47,23,227"]);
  ("MMPS", ["7546,148,294,92.7,294,272.7"]);
  ("MMQT", ["11483,148,6296,100.8,6296,280.8"]);
  ("MMRX", ["6243,148,139,140.9,139,320.9"]);
  ("MMSC", ["8694,98,7707,111.8,7707,291.8"]);
  ("MMSD", ["9843,148,374,173.7,348,353.7"]);
  ("MMSF", ["4921,98,,140,,320"]);
  ("MMSL", ["4921,98,,119,,299"]);
  ("MMSP", ["3259,98,6035,47.4,6035,227.4"; "9867,148,6035,149.2,6035,329.2"]);
  ("MMTA", ["8175,98,,17.7,,197.7"]);
  ("MMTB", ["7065,135,1909,179.1,1909,359.1"]);
  ("MMTC", ["5637,98,3688,90.9,3688,270.9"; "9022,148,3688,136,3688,316"]);
  ("MMTG", [",,3451,,3441"; "8202,148,,148,,328"; ",,3451,,3451"]);
  ("MMTJ", ["9711,144,487,99,487,279"]);
  ("MMTM", ["3937,98,80,99.6,80,279.6"; "8366,148,80,145,80,325"; "4265,98,80,190.3,80,10.3"]);
  ("MMTN", ["4735,75,164,176,164,356"]);
  ("MMTO", ["13780,148,8463,156.8,8466,336.8"]);
  ("MMTP", ["6562,148,97,55.4,97,235.4"]);
  ("MMUN", ["9186,148,22,123.6,18,303.6"; "11483,197,20,123.6,18,303.6"]);
  ("MMV", ["2165,98"]);
  ("MMVA", ["7218,148,46,87,46,267"]);
  ("MMVR", ["4997,148,90,101,90,281"; "7874,148,89,191,111,11"]);
  ("MMZC", ["9843,148,7141,28,7141,208"; "3281,98,,88,,268"]);
  ("MMZH", ["8202,197,10,91.6,20,271.6"]);
  ("MMZM", ["4921,75,,188.4,,8.4"]);
  ("MMZO", ["7218,148,35,106,35,286"]);
  ("MMZP", ["3935,95,,93.9,,273.9"; "8860,136,,92.9,,272.9"]);
  ("MN00", ["2000,40"]);
  ("MN01", ["2500,75"]);
  ("MN02", ["4000,2000"; "5000,2000"]);
  ("MN03", ["5900,300"]);
  ("MN05", ["6000,1000"]);
  ("MN06", ["2600,150"]);
  ("MN07", ["30,30"]);
  ("MN08", ["2000,100"]);
  ("MN09", ["6000,500"; "12000,1000"]);
  ("MN10", ["100,100"]);
  ("MN11", ["2600,90"]);
  ("MN12", ["2600,80"; "3000,80"]);
  ("MN13", ["2263,150"]);
  ("MN14", ["113,98"]);
  ("MN15", ["2300,75"]);
  ("MN16", ["50,50"]);
  ("MN17", ["2000,200"]);
  ("MN18", ["2600,100"]);
  ("MN19", ["1600,100,,152.6,,332.6"]);
  ("MN20", ["2600,150"]);
  ("MN21", ["5000,3000"; "5300,4000"]);
  ("MN24", ["1900,125"]);
  ("MN25", ["40,40"]);
  ("MN26", ["50,50"]);
  ("MN27", ["50,50"]);
  ("MN28", ["2550,90"]);
  ("MN29", ["4000,300"; "4000,300"]);
  ("MN30", ["4000,2000"]);
  ("MN31", ["2480,50"]);
  ("MN32", ["1900,150"]);
  ("MN33", ["125,125"]);
  ("MN34", ["50,50"]);
  ("MN35", ["6000,6000"]);
  ("MN39", ["150,150"]);
  ("MN40", ["1500,50"]);
  ("MN41", ["1600,100"]);
  ("MN42", ["2300,50"]);
  ("MN43", ["50,50"]);
  ("MN44", ["2800,75,1450,,1450"]);
  ("MN45", ["2500,75"]);
  ("MN46", ["2000,72"]);
  ("MN47", ["2400,60,,74.2,,254.2"]);
  ("MN48", ["50,50"]);
  ("MN49", ["2200,66"]);
  ("MN50", ["2640,100"]);
  ("MN51", ["2615,50"]);
  ("MN52", ["2800,50"]);
  ("MN53", ["3000,80"]);
  ("MN54", ["30000,5000"]);
  ("MN55", ["1900,100"]);
  ("MN56", ["50,22"]);
  ("MN57", ["2590,80"]);
  ("MN58", ["2300,125"]);
  ("MN59", ["44,44"]);
  ("MN60", ["2650,64"]);
  ("MN61", ["2480,80"]);
  ("MN62", ["2300,100"]);
  ("MN63", ["1400,100"; "1400,100"; "2000,100"]);
  ("MN65", ["45,45"]);
  ("MN66", ["1700,45"]);
  ("MN67", ["3400,150"]);
  ("MN69", ["3400,100"]);
  ("MN70", ["50,50"]);
  ("MN71", ["2250,125"]);
  ("MN73", ["5000,1000"]);
  ("MN74", ["2300,75"]);
  ("MN75", ["10000,500"; "10000,500"]);
  ("MN76", ["8100,300"]);
  ("MN77", ["2200,50"]);
  ("MN78", ["5000,500"; "8000,500"]);
  ("MN79", ["1470,50"]);
  ("MN80", ["5500,750"; "7000,750"]);
  ("MN81", ["2600,80"]);
  ("MN83", ["50,50"]);
  ("MN84", ["2000,40"]);
  ("MN85", ["2500,50"]);
  ("MN86", ["2775,150"; "3200,200"]);
  ("MN87", ["1070,120,,183.9,,3.9"]);
  ("MN88", ["2000,150"; "2300,150"]);
  ("MN89", ["3000,150"]);
  ("MN90", ["40,40"]);
  ("MN91", ["1320,135"]);
  ("MN92", ["2000,75"]);
  ("MN94", ["50,50"]);
  ("MN95", ["1200,40"]);
  ("MN96", ["2500,75"]);
  ("MN98", ["3000,150"]);
  ("MN99", ["2046,75,,95,,275"]);
  ("MNBL", ["6625,98,,56.9,,236.9"]);
  ("MNBR", ["3061,75,213,99,218,279"]);
  ("MNCE", ["5003,98,60,34,76,214"]);
  ("MNFC", ["9862,148,,106.1,,286.1"]);
  ("MNLN", ["3048,82,,89,,269"]);
  ("MNMG", ["8012,148,194,96.5,192,276.5"]);
  ("MNMR", ["6680,150,94,51,94,231"]);
  ("MNPC", ["8130,167,,92.1,,272.1"]);
  ("MO00", ["3950,80"]);
  ("MO01", ["2640,50"]);
  ("MO02", ["2560,100"]);
  ("MO05", ["50,50"]);
  ("MO06", ["50,50"]);
  ("MO07", ["2075,50"]);
  ("MO08", ["1000,60"]);
  ("MO09", ["3235,40,,131.4,,311.4"]);
  ("MO10", ["2330,85"]);
  ("MO11", ["2600,60"]);
  ("MO12", ["35,35"]);
  ("MO13", ["1500,100"]);
  ("MO14", ["1900,75"]);
  ("MO15", ["2650,60"]);
  ("MO16", ["500,500"]);
  ("MO17", ["2150,25"]);
  ("MO18", ["2400,200"]);
  ("MO19", ["30,30"]);
  ("MO2", ["2640,70,1380,,1365"]);
  ("MO20", ["40,40"]);
  ("MO21", ["45,45"]);
  ("MO22", ["2200,60"]);
  ("MO23", ["2600,50,,178.9,,358.9"]);
  ("MO24", ["3000,60"]);
  ("MO25", ["1800,60"]);
  ("MO26", ["2400,50"]);
  ("MO27", ["1500,60"]);
  ("MO28", ["20,20"]);
  ("MO29", ["2035,40"]);
  ("MO30", ["2545,45"]);
  ("MO31", ["1500,35"]);
  ("MO32", ["2325,100"]);
  ("MO33", ["2500,60"]);
  ("MO34", ["2500,60"]);
  ("MO35", ["1500,60"]);
  ("MO36", ["2600,50"]);
  ("MO37", ["2300,60"; "2300,60"]);
  ("MO38", ["20,20"; "20,20"; "40,10"]);
  ("MO39", ["2700,75"]);
  ("MO40", ["50,50"]);
  ("MO41", ["50,50"]);
  ("MO42", ["1825,90"]);
  ("MO43", ["2670,75"]);
  ("MO44", ["40,40"]);
  ("MO45", ["1700,75"]);
  ("MO46", ["2000,65"]);
  ("MO47", ["40,40"]);
  ("MO48", ["40,40"]);
  ("MO49", ["2600,40"]);
  ("MO5", ["2600,50"]);
  ("MO50", ["50,50"]);
  ("MO51", ["2700,60"]);
  ("MO52", ["2000,45"]);
  ("MO53", ["2400,200"]);
  ("MO54", ["2640,105"]);
  ("MO55", ["50,50"]);
  ("MO56", ["3000,48,,110,,290"]);
  ("MO57", ["2500,75"]);
  ("MO58", ["2370,100"]);
  ("MO59", ["1400,100"]);
  ("MO62", ["1860,40"]);
  ("MO63", ["40,40"]);
  ("MO64", ["2600,25,1050,,1050"]);
  ("MO65", ["1300,65"]);
  ("MO66", ["2850,80"]);
  ("MO67", ["2400,100"; "3000,100"]);
  ("MO68", ["1000,60"]);
  ("MO69", ["60,60"]);
  ("MO7", ["37,37"]);
  ("MO70", ["20,20"]);
  ("MO71", ["2800,100"; "1500,100"; "3300,100"]);
  ("MO72", ["1900,100"]);
  ("MO73", ["2500,60"]);
  ("MO74", ["2700,150"]);
  ("MO75", ["1000,50"]);
  ("MO76", ["40,40"]);
  ("MO77", ["2200,50"]);
  ("MO78", ["3000,80"]);
  ("MO80", ["2500,200"]);
  ("MO81", ["2300,40"; "2200,40"]);
  ("MO82", ["2050,55"]);
  ("MO83", ["2000,85"]);
  ("MO84", ["3195,47,,88.1,,268.1"]);
  ("MO85", ["2300,75"]);
  ("MO86", ["1400,80"]);
  ("MO87", ["1300,75"]);
  ("MO88", ["2600,100"]);
  ("MO89", ["2900,60"]);
  ("MO91", ["40,40"]);
  ("MO92", ["60,60"]);
  ("MO93", ["470,100"]);
  ("MO94", ["2640,40"]);
  ("MO95", ["1500,200"]);
  ("MO96", ["1900,100"]);
  ("MO97", ["42,42"]);
  ("MO98", ["1950,100"]);
  ("MO99", ["2600,100"]);
  ("MOS", ["3000,60"]);
  ("MP00", ["3346,49,,151.5,,331.5"]);
  ("MP01", ["3117,28,,180,,360"]);
  ("MP02", ["3773,30,,129,,309"]);
  ("MP03", ["3281,39,,49.1,,229.1"]);
  ("MP17", ["3379,33,,96.2,,276.2"]);
  ("MP18", ["3350,39,,182,,2"]);
  ("MP21", ["6562,66,,121.1,,301.1"]);
  ("MP22", ["3215,46,,16,,196"]);
  ("MP23", ["3907,164,,178.8,,358.8"]);
  ("MP24", ["3937,82,,183.4,,3.4"]);
  ("MP26", ["3999,151,60,77,66,257"]);
  ("MP27", ["3202,23,,66,,246"]);
  ("MPBO", ["4921,85,7,87,7,267"]);
  ("MPCE", ["4921,66,,12,,192"]);
  ("MPCH", ["3609,82,18,31.6,19,211.6"]);
  ("MPDA", ["6890,148,35,37.9,89,217.9"]);
  ("MPEJ", ["6001,151,23,181.7,25,1.7"]);
  ("MPG", ["1565"]);
  ("MPHO", ["8500,148,51,180,17,0"]);
  ("MPMG", ["5906,98,17,6,31,186"]);
  ("MPNU", ["3474,36,,161,,341"]);
  ("MPRH", ["4380,164,,165,,345"]);
  ("MPSA", ["3937,82,,175,,355"]);
  ("MPTO", ["8800,200,56,31,135,211"; "10006,148,22,29.5,36,209.5"]);
  ("MPU", ["1969"]);
  ("MPX", ["1969,98"]);
  ("MPZL", ["3435,33,,83.4,,263.4"]);
  ("MQO", ["2359"]);
  ("MRAO", ["3118,39,,19.6,,199.6"]);
  ("MRBA", ["3248,33,,9.7,,189.7"]);
  ("MRBC", ["3281,39,,164.4,,344.4"]);
  ("MRCC", ["3281,66,,180.4,,0.4"]);
  ("MRCH", ["4921,50,,96.4,,276.4"]);
  ("MRCV", ["3281,33,,39.6,,219.7"]);
  ("MRDC", ["3163,39,,91.6,,271.6"]);
  ("MREC", ["3350,33,,79.6,,259.6"]);
  ("MRFI", ["4700,75,,33,,213"]);
  ("MRGF", ["4593,66,,135.1,,315.1"]);
  ("MRGP", ["3609,30,882,36.2,791,216.2"]);
  ("MRIA", ["2625,,2,,2"]);
  ("MRLB", ["9022,148,249,70,269,250"]);
  ("MRLC", ["4265,49,,60,,240"]);
  ("MRLM", ["5906,98,7,146,7,326"]);
  ("MRNS", ["3281,59,,35.8,,215.8"]);
  ("MROC", ["9882,151,2936,69.1,3045,249.1"]);
  ("MRPD", ["3280,65,,83,,263"]);
  ("MRPJ", ["2707,,6,,6"]);
  ("MRPM", ["4593,60,49,32.9,49,212.9"]);
  ("MRPV", ["5250,60,3238,95,3287,275"]);
  ("MRQP", ["3609,36,69,41,105,221"]);
  ("MRSG", ["3215,36,,5.9,,185.9"]);
  ("MRSV", ["3215,36,,81.4,,261.4"]);
  ("MRTM", ["2625,,43,,43"]);
  ("MRUP", ["3281,39,184,43.9,158,223.9"]);
  ("MS00", ["2200,75"]);
  ("MS01", ["40,40"]);
  ("MS02", ["40,40"]);
  ("MS03", ["3900,75"]);
  ("MS04", ["1400,110"]);
  ("MS05", ["40,40"]);
  ("MS06", ["2270,100"]);
  ("MS07", ["50,50"]);
  ("MS08", ["1500,75"]);
  ("MS09", ["3200,150"]);
  ("MS10", ["3300,130,109,32,109,212"]);
  ("MS11", ["3000,70"]);
  ("MS13", ["2600,90"]);
  ("MS14", ["1450,75"]);
  ("MS15", ["2000,208"]);
  ("MS16", ["40,40"]);
  ("MS17", ["70,70"]);
  ("MS18", ["2400,35"]);
  ("MS19", ["40,40"]);
  ("MS20", ["2000,100"]);
  ("MS21", ["3000,65"]);
  ("MS22", ["2300,50"]);
  ("MS23", ["4000,30,,160,,340"]);
  ("MS24", ["2300,50"]);
  ("MS25", ["1700,75"]);
  ("MS26", ["4080,60"]);
  ("MS27", ["2600,80"]);
  ("MS28", ["2750,100"]);
  ("MS29", ["3175,100"]);
  ("MS30", ["2285,25"]);
  ("MS31", ["50,50"]);
  ("MS32", ["50,50"]);
  ("MS33", ["2400,200"]);
  ("MS34", ["2100,90"]);
  ("MS35", ["3200,90"]);
  ("MS36", ["1700,50"]);
  ("MS37", ["5100,90,,177,,357"]);
  ("MS38", ["2000,100"]);
  ("MS39", ["2200,100"]);
  ("MS40", ["2640,150"]);
  ("MS41", ["1900,20"]);
  ("MS42", ["1400,90"]);
  ("MS43", ["2500,120"]);
  ("MS45", ["3400,80"]);
  ("MS46", ["40,40"]);
  ("MS47", ["60,60"]);
  ("MS48", ["2500,80"]);
  ("MS49", ["2700,60"]);
  ("MS50", ["1600,60"]);
  ("MS53", ["3000,100"]);
  ("MS54", ["2600,40"]);
  ("MS55", ["2500,75"]);
  ("MS56", ["25,25"]);
  ("MS57", ["3000,30,,60,,240"]);
  ("MS58", ["1229,50"]);
  ("MS59", ["3000,100"]);
  ("MS60", ["60,60"]);
  ("MS61", ["1800,150"]);
  ("MS62", ["1800,100"]);
  ("MS63", ["2600,100"]);
  ("MS64", ["2100,100"; "900,100"]);
  ("MS65", ["2600,100"]);
  ("MS66", ["1700,100"]);
  ("MS67", ["30,30"]);
  ("MS68", ["1650,55"]);
  ("MS69", ["2800,75"]);
  ("MS70", ["1400,50"]);
  ("MS71", ["3540,80"]);
  ("MS72", ["50,50"]);
  ("MS73", ["1000,25"]);
  ("MS75", ["3700,60"]);
  ("MS76", ["2000,50"]);
  ("MS77", ["2950,130"]);
  ("MS78", ["40,40"]);
  ("MS80", ["3200,80"]);
  ("MS81", ["50,50"]);
  ("MS82", ["2800,100"]);
  ("MS83", ["2240,60"]);
  ("MS84", ["60,60"]);
  ("MS86", ["2400,60"]);
  ("MS87", ["20,20"]);
  ("MS88", ["3800,75,,90,,270"]);
  ("MS89", ["120,120"]);
  ("MS90", ["750,50"]);
  ("MS91", ["40,40"]);
  ("MS92", ["2700,35"]);
  ("MS93", ["4100,50"; "2600,50"]);
  ("MS94", ["50,50"]);
  ("MS95", ["2800,200"; "2000,100"; "1800,100"]);
  ("MS96", ["4000,70"]);
  ("MSET", ["4400,75,,156.5,,336.5"]);
  ("MSLD", ["3280,50,,11.2,,191.2"]);
  ("MSLP", ["10500,148,77,70,99,250"; "2625,75,101,180,123,360"]);
  ("MSSS", ["7349,148,1998,153.5,2021,333.5"]);
  ("MT-0001", ["4800"; "6000"]);
  ("MT01", ["2400,75"]);
  ("MT02", ["2600,75"; "2400,75"; "2600,75"]);
  ("MT03", ["3376,60"]);
  ("MT04", ["3100,70"; "2800,60"]);
  ("MT05", ["2600,60"]);
  ("MT06", ["1467,50"]);
  ("MT08", ["3800,50,,144,,324"]);
  ("MT09", ["2550,60"]);
  ("MT10", ["40,40"]);
  ("MT11", ["2900,75"]);
  ("MT15", ["2800,102,,67.2,,247.2"; "1840,97,,118.6,,298.6"]);
  ("MT16", ["3000,60"]);
  ("MT18", ["1300,30"]);
  ("MT19", ["2300,75"]);
  ("MT20", ["2600,50"; "2600,50"]);
  ("MT22", ["3400,100"]);
  ("MT23", ["40,40"]);
  ("MT24", ["3700,100"; "2640,100"; "2640,100"]);
  ("MT25", ["31,25"]);
  ("MT26", ["1200,50"]);
  ("MT27", ["55,55"]);
  ("MT28", ["40,40"]);
  ("MT29", ["3500,75"; "3000,75"]);
  ("MT30", ["1470,60"]);
  ("MT31", ["75,75"]);
  ("MT32", ["2000,50"]);
  ("MT33", ["2000,40"]);
  ("MT34", ["2500,50"]);
  ("MT35", ["40,40"]);
  ("MT37", ["2600,50"]);
  ("MT38", ["2000,50"]);
  ("MT39", ["3200,50"]);
  ("MT40", ["4600,60"]);
  ("MT41", ["3800,60"]);
  ("MT42", ["1225,50"]);
  ("MT43", ["1770,30"]);
  ("MT44", ["30,30"; "20,20"]);
  ("MT45", ["1100,40"]);
  ("MT47", ["4500,50"]);
  ("MT48", ["6000,50"]);
  ("MT50", ["3000,100"]);
  ("MT51", ["2000,50"; "2640,75"]);
  ("MT52", ["2640,100"]);
  ("MT53", ["3600,40"]);
  ("MT54", ["2600,75"]);
  ("MT55", ["20,20"]);
  ("MT57", ["50,50"]);
  ("MT58", ["2500,200"; "2500,200"]);
  ("MT60", ["2400,75"]);
  ("MT64", ["25,25"]);
  ("MT65", ["2646,50"]);
  ("MT66", ["30,30"]);
  ("MT67", ["30,30"]);
  ("MT70", ["45,45"]);
  ("MT71", ["2500,80"]);
  ("MT72", ["3000,80"]);
  ("MT74", ["4000,30"]);
  ("MT76", ["1500,75"]);
  ("MT77", ["2000,50"; "800,50"; "2040,50"]);
  ("MT78", ["30,28"]);
  ("MT79", ["2600,50"]);
  ("MT80", ["1800,100"]);
  ("MT83", ["1500,100"]);
  ("MT86", ["2900,50"]);
  ("MT87", ["2600,80"; "4000,80"]);
  ("MT88", ["1900,50"]);
  ("MT90", ["3900,75"]);
  ("MT91", ["40,40"]);
  ("MT92", ["5000,100"]);
  ("MT94", ["900,60"]);
  ("MT95", ["4500,120"]);
  ("MT96", ["3100,26"]);
  ("MT97", ["1800,100"]);
  ("MT99", ["36,36"]);
  ("MTCA", ["3220,80,,75,,255"]);
  ("MTCH", ["4886,131,10,39,6,219"]);
  ("MTF", ["4600,80,,86,,266"]);
  ("MTJA", ["3300,95,,5,,185"]);
  ("MTPP", ["9974,141,79,87,122,267"]);
  ("MU00", ["2000,50"]);
  ("MU01", ["60,60"]);
  ("MU02", ["3000,100"]);
  ("MU03", ["3000,36,,84.1,,264.1"]);
  ("MU04", ["4000,100"]);
  ("MU05", ["30,30"]);
  ("MU06", ["20,20"]);
  ("MU07", ["2000,30"]);
  ("MU08", ["35,35"]);
  ("MU09", ["2600,100"]);
  ("MU10", ["171,63"]);
  ("MU11", ["1800,100"]);
  ("MU12", ["3000,300"]);
  ("MU15", ["40,40"]);
  ("MU16", ["2600,100"]);
  ("MU18", ["1900,50"]);
  ("MU19", ["2300,50"]);
  ("MU20", ["2400,30"]);
  ("MU21", ["1800,50"]);
  ("MU22", ["400,300"]);
  ("MU23", ["2000,75"]);
  ("MU24", ["3000,50"]);
  ("MU25", ["2300,60"]);
  ("MU26", ["2731,30"]);
  ("MU27", ["2600,120"; "1700,120"]);
  ("MU28", ["40,40"]);
  ("MU29", ["40,40"]);
  ("MU31", ["43,43"]);
  ("MU32", ["1500,60"]);
  ("MU33", ["2000,100"]);
  ("MU34", ["1800,200"]);
  ("MU35", ["2000,100"]);
  ("MU36", ["65,65"]);
  ("MU37", ["65,30"]);
  ("MU38", ["2600,50"]);
  ("MU39", ["382,303"]);
  ("MU40", ["2600,80"]);
  ("MU41", ["800,50"; "1280,50"]);
  ("MU42", ["1900,50"]);
  ("MU44", ["40,40"]);
  ("MU45", ["35,35"]);
  ("MU46", ["33,33"]);
  ("MU47", ["50,50"]);
  ("MU48", ["3800,150"]);
  ("MU49", ["50,50"]);
  ("MU50", ["50,50"]);
  ("MU51", ["250,150"]);
  ("MU52", ["30,30"]);
  ("MU53", ["30,30"]);
  ("MU54", ["53,53"]);
  ("MU56", ["2700,35"]);
  ("MU58", ["60,60"]);
  ("MU59", ["35,35"]);
  ("MU60", ["40,40"]);
  ("MU61", ["40,40"]);
  ("MU62", ["1200,100"]);
  ("MU63", ["1200,50"]);
  ("MU64", ["55,55"]);
  ("MU65", ["1200,250"]);
  ("MU66", ["50,50"]);
  ("MU67", ["30,30"]);
  ("MU68", ["1700,75"]);
  ("MU70", ["2100,60"]);
  ("MU71", ["1500,100"]);
  ("MU77", ["2500,75"]);
  ("MU78", ["2313,60"]);
  ("MU84", ["1320,120"]);
  ("MU85", ["2100,50"])].

(* ADRpy/data/runways.csv *)
Definition airports_22 : list (string * list string) := [
  ("MU86", ["1600,100"]);
  ("MU87", ["50,50"]);
  ("MU89", ["1400,80"]);
  ("MU90", ["80,70"]);
  ("MU91", ["40,40"; "20,15"]);
  ("MU92", ["40,40"]);
  ("MU93", ["32,32"]);
  ("MU94", ["40,40"]);
  ("MU95", ["40,40"]);
  ("MU96", ["20,20"]);
  ("MU97", ["2000,50"]);
  ("MU98", ["3100,40"]);
  ("MU99", ["27,27"]);
  ("MUBA", ["6070,98,20,155,23,335"]);
  ("MUBR", ["5905,148,10,87.6,13,267.6"]);
  ("MUBY", ["6887,148,171,68,203,248"]);
  ("MUCA", ["11588,148,335,64,253,244"]);
  ("MUCB", ["3269,36,,47,,227"]);
  ("MUCC", ["9842,148,10,71,13,251"]);
  ("MUCF", ["7874,148,98,16,102,196"]);
  ("MUCL", ["9869,148,7,116,10,296"]);
  ("MUCM", ["9842,148,400,68,400,248"]);
  ("MUCU", ["13130,148,197,91,246,269"; "4593,148,187,179,217,359"]);
  ("MUFL", ["3247,90,,76.9,,256.9"]);
  ("MUGM", ["8000,200,56,90.3,43,270.3"]);
  ("MUGT", ["8025,148,56,166,36,346"]);
  ("MUHA", ["13123,148,210,54,210,234"]);
  ("MUHG", ["10624,148,279,46,361,226"]);
  ("MUKW", ["4850,148,16,61,16,241"]);
  ("MULB", ["6775,165,,83,,263"]);
  ("MULM", ["6562,148,131,71,131,251"]);
  ("MUMG", ["9334,148,,93.2,,273.2"]);
  ("MUML", ["5893,127,,65.4,,245.4"]);
  ("MUMO", ["6102,98,16,63,7,243"]);
  ("MUMZ", ["7875,148,112,74,89,254"]);
  ("MUNB", ["3300,100,,55.9,,235.9"]);
  ("MUNG", ["8202,148,79,48,62,228"; "5325,98,69,172,52,352"]);
  ("MUOC", ["5248,65,,77,,257"]);
  ("MUPB", ["7563,148,85,21.9,23,201.9"]);
  ("MUPR", ["3675,123,,74.1,,254.1"]);
  ("MUSA", ["7873,150,,3.9,,183.9"; "11799,185,,53.8,,233.8"; "8144,150,,114.7,,294.7"]);
  ("MUSC", ["9898,148,338,76.1,318,256.1"]);
  ("MUSL", ["5905,98,13,71.5,7,251.5"]);
  ("MUSN", ["5905,98,39,50.2,39,230.2"]);
  ("MUSS", ["5905,95,,26.3,,206.3"]);
  ("MUTD", ["5909,98,59,52,98,232"]);
  ("MUVR", ["11490,148,210,56,210,236"]);
  ("MUVT", ["5971,148,328,44.7,322,224.7"]);
  ("MWCB", ["6000,148,2,84,7,264"]);
  ("MWCR", ["7021,148,8,76,6,256"]);
  ("MX-0001", ["5160,40"]);
  ("MX-0005", ["3362"; "5485"]);
  ("MX-0006", ["3300,60,10,150,10,330"]);
  ("MX-0007", ["4300,100"]);
  ("MX-0013", ["6300,65,1712"]);
  ("MX-0014", ["3209,66,6691,90,6691,270"]);
  ("MX-0070", ["3921,50,7726,37,7723,217"]);
  ("MX-0121", ["2559"]);
  ("MX-0122", ["4364"]);
  ("MX-0126", ["2385,67,144,46,170,226"]);
  ("MX-0130", ["3609"]);
  ("MX-0202", ["2789"]);
  ("MX-0203", ["4987"]);
  ("MX-0204", ["5413"]);
  ("MX-0205", ["3871"]);
  ("MX-0226", ["5325,76,3229,99,3247,279"]);
  ("MX-0241", ["2067"]);
  ("MX-0242", ["2395"]);
  ("MX-0243", ["1903"]);
  ("MX-0433", ["6562,131"]);
  ("MX-0588", ["2034"]);
  ("MX-0595", ["1804"]);
  ("MX-MM69", ["4741,70,,35,,215"]);
  ("MX-SGM", ["4964"]);
  ("MX-XAL", ["5000"]);
  ("MY00", ["2100,150"; "2200,150"]);
  ("MY01", ["2500,75"]);
  ("MY04", ["2200,75"]);
  ("MY07", ["2600,100"]);
  ("MY10", ["1800,100"]);
  ("MY12", ["2200,100"]);
  ("MY13", ["2000,150"]);
  ("MY15", ["2500,75"]);
  ("MY17", ["2500,70"]);
  ("MY18", ["2383,120"]);
  ("MY20", ["90,90"]);
  ("MY21", ["7000,0"; "6500,0"]);
  ("MY22", ["2500,2500"; "2500,2500"; "2100,2000"]);
  ("MY23", ["5000,1000"; "5000,1000"; "3000,1000"]);
  ("MY24", ["2300,150"]);
  ("MY25", ["1940,150"]);
  ("MY26", ["50,50"]);
  ("MY28", ["2200,75"]);
  ("MY29", ["2000,80"]);
  ("MY30", ["60,60"]);
  ("MY32", ["10000,200"]);
  ("MY33", ["3500,200"; "3500,200"]);
  ("MY34", ["3000,200"; "2800,200"; "2500,200"]);
  ("MY35", ["2200,120"]);
  ("MY37", ["2000,80"]);
  ("MY38", ["4000,1000"; "4700,1000"]);
  ("MY42", ["2000,65"]);
  ("MY43", ["2600,75"]);
  ("MY44", ["45,45"]);
  ("MY46", ["2400,60"]);
  ("MY47", ["2100,40"]);
  ("MY49", ["2150,80"]);
  ("MY50", ["2000,60"]);
  ("MY52", ["2000,150"]);
  ("MY54", ["4200,100"]);
  ("MY55", ["4200,60,,131,,311"]);
  ("MY56", ["3000,200"]);
  ("MY57", ["1830,65"]);
  ("MY58", ["2640,150"]);
  ("MY59", ["2600,60"]);
  ("MY60", ["1320,100"]);
  ("MY62", ["1400,50"]);
  ("MY65", ["100,100"]);
  ("MY66", ["3500,100"]);
  ("MY68", ["2200,80"]);
  ("MY71", ["2600,90"]);
  ("MY72", ["2460,160"]);
  ("MY76", ["5600,1000"]);
  ("MY77", ["120,100"]);
  ("MY78", ["2700,150"]);
  ("MY79", ["44,44"]);
  ("MY80", ["2500,90"]);
  ("MY82", ["2000,60"]);
  ("MY83", ["3500,900"; "7000,900"]);
  ("MY84", ["50,50"]);
  ("MY85", ["30,30"]);
  ("MY86", ["4000,1600"]);
  ("MY87", ["60,60"]);
  ("MY88", ["1450,60"]);
  ("MY90", ["3100,75"]);
  ("MY91", ["42,42"]);
  ("MY93", ["5000,300"]);
  ("MY94", ["1200,50"]);
  ("MY95", ["2600,100"]);
  ("MY96", ["4000,3000"]);
  ("MY97", ["2000,60"]);
  ("MY99", ["3600,50"]);
  ("MYAB", ["5000,75,,82.7,,262.7"]);
  ("MYAF", ["4355,100,,90,,270"]);
  ("MYAK", ["5300,100,,101,,281"]);
  ("MYAM", ["4998,100,6,88,5,268"]);
  ("MYAN", ["5025,75,,111.7,,291.7"]);
  ("MYAP", ["5000,150,,126.6,,306.6"]);
  ("MYAS", ["4500,100,,98.7,,278.7"]);
  ("MYAT", ["7001,150,8,133,8,313"]);
  ("MYAX", ["4402,70,,127,,307"]);
  ("MYBC", ["5000,78,,105,,285"]);
  ("MYBG", ["4500,100,,122.8,,302.8"]);
  ("MYBS", ["5430,100,,90,,270"]);
  ("MYCA", ["7015,150,,111.3,,291.3"; "7000,150"]);
  ("MYCB", ["5050,100,,85.7,,265.7"]);
  ("MYCI", ["4061,60,,86.7,,266.7"]);
  ("MYEB", ["2500,80"]);
  ("MYEF", ["7051,150,9,118,8,298"]);
  ("MYEG", ["5000,90,,108.1,,288.1"]);
  ("MYEH", ["6020,100,8,68.2,5,248.2"]);
  ("MYEM", ["8024,150,14,144.8,14,324.8"]);
  ("MYEN", ["3000,60,,25,,205"]);
  ("MYER", ["7213,150,10,87.7,4,267.7"]);
  ("MYES", ["3030,75,,164,,344"]);
  ("MYGF", ["11019,151,6,61,7,241"]);
  ("MYIG", ["7016,89,,95,,275"; "7020,100"]);
  ("MYK", ["2700,100"]);
  ("MYLD", ["4000,100,,92,,272"]);
  ("MYLS", ["4000,75,,123,,303"]);
  ("MYMM", ["7297,150,,56,,236"]);
  ("MYNN", ["8273,150,14,90,13,270"; "11353,150,13,135,14,315"]);
  ("MYRD", ["3800,75,,129.7,,309.7"]);
  ("MYRP", ["4500,100,,90,,270"]);
  ("MYSM", ["8000,150,10,95.1,24,275.1"]);
  ("MZBZ", ["7100,150,14,76.7,15,256.7"]);
  ("N00", ["4000,50"]);
  ("N01", ["65,65"]);
  ("N02", ["55,55"]);
  ("N05", ["2200,50"]);
  ("N07", ["2942,40,180,355,181,175"]);
  ("N08", ["2500,100"]);
  ("N09", ["100,100"]);
  ("N10", ["2880,40,248,76,269,256"]);
  ("N15", ["3700,80"; "3072,60"]);
  ("N16", ["3100,210"]);
  ("N17", ["5150,60"]);
  ("N20", ["2450,50"]);
  ("N21", ["3600,88"]);
  ("N22", ["3610,85"]);
  ("N25", ["2600,70"]);
  ("N29", ["5650,50"]);
  ("N30", ["2420,50,1344,167,,347"]);
  ("N31", ["2221,150,475,90,505,270"; "2460,240,485,155,493,335"]);
  ("N33", ["490,75"]);
  ("N39", ["80,40"]);
  ("N41", ["1600,250"; "2005,135"]);
  ("N42", ["2300,170"]);
  ("N43", ["1956,165,395,166,384,346"]);
  ("N45", ["2864,50"]);
  ("N46", ["100,100"]);
  ("N48", ["65,65"]);
  ("N50", ["2773,100"]);
  ("N56", ["3800,60"]);
  ("N61", ["1400,100"]);
  ("N63", ["2725,30,631,,631"]);
  ("N65", ["2750,60"]);
  ("N72", ["2100,50"; "2150,28"; "2250,80"]);
  ("N74", ["2500,40"]);
  ("N83", ["2000,60"]);
  ("N85", ["2550,60,480,64,480,244"; "1804,100,444,118,459,298"]);
  ("N86", ["3540,71"]);
  ("N88", ["1400,75"]);
  ("N92", ["2000,100"]);
  ("N95", ["50,50"]);
  ("N97", ["2500,75"; "1160,50"]);
  ("NA01", ["2500,50"]);
  ("NA02", ["1770,60"]);
  ("NA05", ["2500,70"]);
  ("NA06", ["1600,50"]);
  ("NA07", ["2640,50"]);
  ("NA10", ["2000,120"]);
  ("NA12", ["1700,70"]);
  ("NA13", ["5000,75"]);
  ("NA17", ["3000,100"]);
  ("NA18", ["2000,60"]);
  ("NA21", ["2600,60"]);
  ("NA22", ["1800,15"]);
  ("NA30", ["1500,50"; "1500,50"]);
  ("NA32", ["2300,40"; "2400,40"]);
  ("NA33", ["2650,60"]);
  ("NA38", ["2640,80"]);
  ("NA39", ["2640,80"]);
  ("NA49", ["2000,45"]);
  ("NA54", ["1000,50"; "2600,30"]);
  ("NA55", ["2600,100"]);
  ("NA56", ["2790,60"]);
  ("NA60", ["2600,60"]);
  ("NA63", ["1400,50"]);
  ("NA65", ["2140,60"]);
  ("NA67", ["2000,60"]);
  ("NA70", ["2000,100"]);
  ("NA71", ["2640,40"; "2100,40"; "2000,40"]);
  ("NA73", ["2600,120"; "2600,120"]);
  ("NA75", ["2640,20"]);
  ("NA79", ["1760,48"]);
  ("NA81", ["2000,16"]);
  ("NA84", ["2460,66"]);
  ("NA86", ["4100,50"]);
  ("NA88", ["2500,60"]);
  ("NA90", ["1000,50"; "1900,50"]);
  ("NA92", ["2275,150"]);
  ("NA98", ["2000,75"]);
  ("NA99", ["2500,40"]);
  ("NBV", ["390,296"]);
  ("NC00", ["2000,24"]);
  ("NC01", ["5291,100,8,,7"]);
  ("NC02", ["2000,75"]);
  ("NC03", ["2365,60"]);
  ("NC04", ["40,40"]);
  ("NC05", ["3850,150,,58.5,,238.5"]);
  ("NC06", ["4600,75,,115.1,,295.1"]);
  ("NC07", ["50,50"]);
  ("NC08", ["2700,50"]);
  ("NC09", ["2000,120"]);
  ("NC10", ["1900,100"]);
  ("NC11", ["1950,100"]);
  ("NC12", ["5815,75,,85,,265"]);
  ("NC13", ["3000,100"]);
  ("NC14", ["2100,40"]);
  ("NC15", ["2500,200"]);
  ("NC16", ["2100,50"]);
  ("NC17", ["2400,60"]);
  ("NC19", ["3400,50,,40.5,,220.5"]);
  ("NC20", ["1840,40"]);
  ("NC21", ["2400,60"]);
  ("NC22", ["1000,50"]);
  ("NC24", ["1000,125"]);
  ("NC25", ["3000,30,,90,,270"]);
  ("NC26", ["3000,100"]);
  ("NC27", ["3200,150"]);
  ("NC28", ["3600,150"]);
  ("NC29", ["2200,50"]);
  ("NC30", ["2060,100"]);
  ("NC31", ["1800,75"]);
  ("NC32", ["2500,150"]);
  ("NC33", ["50,50"]);
  ("NC34", ["2500,120"]);
  ("NC35", ["2180,75"]);
  ("NC36", ["1800,65"]);
  ("NC37", ["2000,50"]);
  ("NC38", ["55,55"]);
  ("NC39", ["2600,100"]);
  ("NC40", ["1500,50"]);
  ("NC41", ["30,30"]);
  ("NC42", ["1700,60"]);
  ("NC43", ["6000,150"; "6000,200"]);
  ("NC44", ["2300,100"]);
  ("NC45", ["3200,75"]);
  ("NC46", ["50,50"]);
  ("NC47", ["1850,50"]);
  ("NC48", ["3000,70"]);
  ("NC49", ["1400,100"]);
  ("NC50", ["1460,20"]);
  ("NC51", ["90,90"]);
  ("NC52", ["3600,200"]);
  ("NC53", ["150,150"]);
  ("NC54", ["2000,100,,1,,181"]);
  ("NC55", ["400,200"]);
  ("NC56", ["1600,100"]);
  ("NC57", ["60,60"]);
  ("NC58", ["2000,60"]);
  ("NC59", ["2700,50"]);
  ("NC60", ["50,50"]);
  ("NC61", ["2150,90"]);
  ("NC62", ["115,115"]);
  ("NC63", ["1500,100"]);
  ("NC64", ["2000,80"]);
  ("NC65", ["3200,75"]);
  ("NC66", ["3400,80"]);
  ("NC67", ["2600,100"]);
  ("NC68", ["50,50"]);
  ("NC69", ["2300,60"]);
  ("NC7", ["4000,100"]);
  ("NC70", ["3300,80"]);
  ("NC71", ["2300,100"]);
  ("NC72", ["2000,35"]);
  ("NC73", ["2750,75"]);
  ("NC74", ["122,122"]);
  ("NC75", ["1200,60"]);
  ("NC76", ["1800,100"]);
  ("NC77", ["2700,100"]);
  ("NC78", ["1700,100"]);
  ("NC79", ["2025,85"]);
  ("NC80", ["75,75"]);
  ("NC81", ["2450,75"]);
  ("NC82", ["2186,66"]);
  ("NC83", ["90,90"]);
  ("NC84", ["500,300"]);
  ("NC85", ["30,10"]);
  ("NC86", ["3300,25,,19.1,,199.1"]);
  ("NC87", ["1400,125"]);
  ("NC88", ["50,50"]);
  ("NC89", ["50,50"]);
  ("NC90", ["40,30"]);
  ("NC91", ["100,100"; "100,100"]);
  ("NC92", ["60,60"]);
  ("NC93", ["1850,50"]);
  ("NC94", ["70,70"]);
  ("NC95", ["100,100"]);
  ("NC96", ["70,70"]);
  ("NC97", ["1600,1000"]);
  ("NC98", ["70,70"]);
  ("NC99", ["2200,100"]);
  ("NCAI", ["4555,180,7,105.8,13,285.8"; "5920,100,14,153.9,10,333.9"]);
  ("NCAT", ["3947,,36,,36"]);
  ("NCL", ["60,60"]);
  ("NCMG", ["3274,,45,,39"]);
  ("NCMH", ["3937,,5,,5"]);
  ("NCMK", ["4921,,25,,25"]);
  ("NCPY", ["7530,,8,,8"]);
  ("NCRG", ["7638,150,21,90,14,270"]);
  ("NCY", ["100,100"]);
  ("ND01", ["2440,50"]);
  ("ND02", ["2600,100,1510,,1510"]);
  ("ND07", ["2600,70"]);
  ("ND09", ["2500,100"]);
  ("ND10", ["2200,75"]);
  ("ND11", ["80,80"]);
  ("ND14", ["2200,100,1154,,1154"; "2600,100,1154,,1154"]);
  ("ND16", ["1700,60"]);
  ("ND18", ["2500,100,1570,,1563"]);
  ("ND20", ["2000,60"; "2600,60"]);
  ("ND22", ["2400,60"]);
  ("ND23", ["2300,70"; "2250,50"; "2800,70"]);
  ("ND24", ["2400,60,1093,,1085"; "2200,150,1094,,1093"]);
  ("ND26", ["2300,40,2100,,2100"]);
  ("ND27", ["20,20"]);
  ("ND28", ["40,40"]);
  ("ND29", ["2400,50"; "1300,50"]);
  ("ND30", ["70,50"]);
  ("ND32", ["2600,75"]);
  ("ND33", ["30,30"]);
  ("ND34", ["1400,100"]);
  ("ND35", ["1800,100"]);
  ("ND36", ["2000,50"]);
  ("ND38", ["2200,100"]);
  ("ND40", ["2500,75"]);
  ("ND41", ["1400,50"]);
  ("ND42", ["2800,70"]);
  ("ND43", ["4000,300"]);
  ("ND44", ["3400,80"]);
  ("ND45", ["40,40"]);
  ("ND46", ["30,30"]);
  ("ND47", ["2450,75"]);
  ("ND48", ["30,30"]);
  ("ND49", ["2310,60"]);
  ("ND50", ["50,50"]);
  ("ND52", ["2244,50"]);
  ("ND53", ["2635,100"]);
  ("ND54", ["2500,40,1781,,1774"]);
  ("ND59", ["2600,50"]);
  ("ND60", ["2000,80"]);
  ("ND62", ["2400,150"; "1200,100"]);
  ("ND68", ["3200,75"]);
  ("ND72", ["2860,150"]);
  ("ND73", ["2300,80"]);
  ("ND74", ["2300,60"]);
  ("ND75", ["3000,60"]);
  ("ND78", ["2600,50"]);
  ("ND80", ["2000,75"; "2000,75"]);
  ("ND81", ["80,80"]);
  ("ND85", ["2300,75"]);
  ("ND86", ["2178,90"]);
  ("ND89", ["2000,75"]);
  ("ND90", ["3000,75"]);
  ("ND92", ["1800,90"; "2600,100"]);
  ("ND96", ["3000,100"]);
  ("ND98", ["2100,100"]);
  ("ND99", ["2640,66"]);
  ("NDI", ["2953"]);
  ("NDN", ["1362"]);
  ("NE01", ["2500,125"]);
  ("NE02", ["40,40"]);
  ("NE04", ["2800,100"]);
  ("NE05", ["45,45"]);
  ("NE06", ["2500,150"; "2500,150"; "2600,150"]);
  ("NE08", ["2600,50"]);
  ("NE09", ["2500,100"]);
  ("NE10", ["35,35"]);
  ("NE14", ["50,50"]);
  ("NE16", ["30,30"]);
  ("NE18", ["1600,80"]);
  ("NE19", ["2000,75"]);
  ("NE20", ["2300,70"]);
  ("NE25", ["1970,75"]);
  ("NE28", ["50,50"]);
  ("NE29", ["2600,100"; "2600,100"]);
  ("NE30", ["3000,20,,177,,357"]);
  ("NE31", ["2640,100"]);
  ("NE32", ["30,30"]);
  ("NE34", ["2300,65"]);
  ("NE35", ["1400,100"]);
  ("NE37", ["1300,60"]);
  ("NE38", ["3545,30"]);
  ("NE40", ["2500,30"]);
  ("NE41", ["48,48"]);
  ("NE42", ["1200,75"]);
  ("NE43", ["1440,50"]);
  ("NE44", ["2600,100"; "1300,100"]);
  ("NE45", ["1600,40"; "1300,40"]);
  ("NE46", ["75,75"]);
  ("NE49", ["2400,65"]);
  ("NE50", ["1200,50"]);
  ("NE53", ["1800,50"]);
  ("NE56", ["2680,50"]);
  ("NE57", ["3400,50"]);
  ("NE59", ["1680,70"]);
  ("NE60", ["30,30"]);
  ("NE62", ["200,200"]);
  ("NE64", ["1380,60"]);
  ("NE65", ["2640,50"]);
  ("NE68", ["30,60"]);
  ("NE69", ["1400,50"; "2200,60"]);
  ("NE71", ["50,50"]);
  ("NE76", ["45,45"]);
  ("NE79", ["1660,40"]);
  ("NE82", ["2300,65"]);
  ("NE83", ["90,60"]);
  ("NE84", ["40,40"]);
  ("NE85", ["2400,80"]);
  ("NE86", ["3200,50"]);
  ("NE87", ["5280,110"]);
  ("NE88", ["2000,100"]);
  ("NE90", ["45,45"]);
  ("NE92", ["2640,75"]);
  ("NE94", ["800,40"]);
  ("NE95", ["2900,100"]);
  ("NFFN", ["10739,150,26,37.8,41,217.8"; "7007,150,17,104.4,59,284.4"]);
  ("NFNA", ["6129,100,17,109.2,10,289.2"]);
  ("NFNL", ["3521,98,33,145.9,44,325.9"]);
  ("NFNM", ["3281,,60,,70"]);
  ("NFNR", ["4806,,25,,25"]);
  ("NFTE", ["2650,65"]);
  ("NFTF", ["8795,147,91,121.9,113,301.9"; "4951,195,98,181.2,126,1.2"]);
  ("NFTL", ["3937,98,10,120.4,25,300.4"]);
  ("NFTO", ["3937,,149,,110"]);
  ("NFTV", ["5593,98,221,96.2,233,276.2"]);
  ("NG-QRW", ["6868,98"]);
  ("NGFU", ["5040,,9,,9"]);
  ("NGTA", ["6598,135,9,97.2,9,277.2"]);
  ("NGTE", ["3365,103,7,153,7,333"]);
  ("NH06", ["100,100"]);
  ("NH07", ["1650,100"]);
  ("NH08", ["60,60"]);
  ("NH09", ["40,40"]);
  ("NH13", ["55,55"]);
  ("NH15", ["2500,300"]);
  ("NH16", ["1926,24"]);
  ("NH17", ["1500,150"]);
  ("NH18", ["2000,100"]);
  ("NH19", ["40,50"]);
  ("NH20", ["1100,70"]);
  ("NH21", ["50,60"]);
  ("NH22", ["100,100"]);
  ("NH24", ["20,20"]);
  ("NH26", ["60,60"]);
  ("NH28", ["20,20"]);
  ("NH29", ["120,120"]);
  ("NH31", ["3000,105"]);
  ("NH32", ["60,60"]);
  ("NH33", ["100,100"]);
  ("NH34", ["60,40"]);
  ("NH35", ["20,20"]);
  ("NH37", ["45,45"]);
  ("NH38", ["2000,40"]);
  ("NH39", ["1300,65"]);
  ("NH40", ["2800,30"]);
  ("NH41", ["20,20"]);
  ("NH42", ["25,25"]);
  ("NH43", ["1750,75"]);
  ("NH44", ["40,40"]);
  ("NH45", ["120,60"]);
  ("NH46", ["130,70"]);
  ("NH49", ["1700,30"]);
  ("NH50", ["370,95"]);
  ("NH51", ["15,15"]);
  ("NH52", ["50,50"]);
  ("NH53", ["100,60"]);
  ("NH55", ["40,40"]);
  ("NH56", ["60,60"]);
  ("NH57", ["60,60"]);
  ("NH58", ["20,20"]);
  ("NH59", ["30,30"; "30,30"; "30,30"]);
  ("NH60", ["940,100"]);
  ("NH61", ["1740,28"]);
  ("NH62", ["33,25"]);
  ("NH63", ["10,10"]);
  ("NH65", ["75,75"]);
  ("NH66", ["40,30"]);
  ("NH67", ["1600,30"]);
  ("NH68", ["4000,250"]);
  ("NH69", ["4000,225"]);
  ("NH70", ["17,17"]);
  ("NH71", ["4500,200"; "4500,200"]);
  ("NH73", ["50,50"]);
  ("NH74", ["30,30"]);
  ("NH75", ["40,40"]);
  ("NH76", ["2700,100"]);
  ("NH77", ["20,20"]);
  ("NH78", ["1500,25"]);
  ("NH79", ["50,50"]);
  ("NH80", ["15,15"]);
  ("NH81", ["40,40"]);
  ("NH82", ["90,90"]);
  ("NH83", ["40,50"]);
  ("NH84", ["2300,75"]);
  ("NH85", ["15,15"]);
  ("NH86", ["2100,45"]);
  ("NH87", ["25,25"]);
  ("NH88", ["1275,75"]);
  ("NH91", ["15,15"]);
  ("NH92", ["75,75"]);
  ("NH93", ["500,500"]);
  ("NH94", ["60,60"]);
  ("NH96", ["1500,150"]);
  ("NIN", ["2400,60"]);
  ("NIUE", ["7660,148,209,109.9,182,289.9"]);
  ("NJ00", ["5500,150"]);
  ("NJ02", ["2200,100"]);
  ("NJ04", ["100,100"]);
  ("NJ05", ["44,44"]);
  ("NJ06", ["1500,50"]);
  ("NJ08", ["50,50"]);
  ("NJ09", ["2000,50"]);
  ("NJ10", ["75,75"]);
  ("NJ12", ["100,100"]);
  ("NJ13", ["100,100"]);
  ("NJ15", ["75,75"]);
  ("NJ17", ["62,61"]);
  ("NJ19", ["50,50"]);
  ("NJ20", ["1800,100"; "1800,100"; "1800,100"]);
  ("NJ22", ["45,45"]);
  ("NJ23", ["35,35"]);
  ("NJ24", ["1800,150,,150,,330"]);
  ("NJ25", ["2207,80"]);
  ("NJ26", ["100,100"]);
  ("NJ27", ["200,200"]);
  ("NJ28", ["100,100"]);
  ("NJ29", ["800,100"]);
  ("NJ33", ["100,100"]);
  ("NJ36", ["360,280"]);
  ("NJ37", ["300,285"]);
  ("NJ38", ["360,210"]);
  ("NJ40", ["45,45"]);
  ("NJ41", ["50,50"]);
  ("NJ44", ["200,200"]);
  ("NJ46", ["2200,100"]);
  ("NJ48", ["62,62"]);
  ("NJ50", ["3000,50"]);
  ("NJ51", ["60,60"]);
  ("NJ53", ["100,100"]);
  ("NJ54", ["75,75"]);
  ("NJ55", ["50,50"]);
  ("NJ56", ["100,100"]);
  ("NJ57", ["62,62"]);
  ("NJ59", ["1300,90"]);
  ("NJ60", ["2800,50"]);
  ("NJ61", ["1800,60"; "2400,60"]);
  ("NJ62", ["35,35"]);
  ("NJ63", ["3200,100"]);
  ("NJ65", ["2250,150"]);
  ("NJ66", ["85,85"]);
  ("NJ68", ["75,75"]);
  ("NJ69", ["1700,150"]);
  ("NJ71", ["475,465"]);
  ("NJ72", ["2200,150"]);
  ("NJ73", ["100,100"]);
  ("NJ74", ["2200,180"]);
  ("NJ76", ["75,75"]);
  ("NJ77", ["100,100"]);
  ("NJ78", ["85,85"]);
  ("NJ79", ["1800,90"]);
  ("NJ82", ["1300,700"]);
  ("NJ84", ["2000,60"]);
  ("NJ85", ["45,45"]);
  ("NJ87", ["64,48"]);
  ("NJ88", ["100,75"]);
  ("NJ89", ["75,75"]);
  ("NJ90", ["150,100"]);
  ("NJ91", ["50,50"]);
  ("NJ92", ["75,75"]);
  ("NJ93", ["42,42"]);
  ("NJ94", ["75,75"]);
  ("NJ95", ["1900,75"]);
  ("NJ97", ["50,50"]);
  ("NK0", ["15000,4000"]);
  ("NK01", ["1800,150"]);
  ("NK04", ["1500,100"]);
  ("NK05", ["1200,30"]);
  ("NK06", ["1200,40"]);
  ("NK07", ["1600,50"]);
  ("NK08", ["2000,40"]);
  ("NK09", ["2700,75"]);
  ("NK10", ["100,40"]);
  ("NK11", ["100,100"]);
  ("NK12", ["1200,75"]);
  ("NK13", ["3000,150"]);
  ("NK14", ["50,50"]);
  ("NK15", ["7000,500"]);
  ("NK16", ["2520,70"]);
  ("NK17", ["2100,100"]);
  ("NK19", ["2230,55"]);
  ("NK22", ["20,20"]);
  ("NK23", ["50,50"]);
  ("NK24", ["1600,60"]);
  ("NK25", ["3000,50"]);
  ("NK26", ["3200,100"]);
  ("NK27", ["2200,60"]);
  ("NK28", ["150,150"]);
  ("NK30", ["5000,500"; "5000,500"]);
  ("NK31", ["1450,60"]);
  ("NK32", ["40,40"]);
  ("NK33", ["100,100"]);
  ("NK34", ["60,60"]);
  ("NK37", ["80,80"]);
  ("NK38", ["800,100"]);
  ("NK39", ["96,96"]);
  ("NK40", ["100,100"]);
  ("NK41", ["110,110"]);
  ("NK42", ["100,100"]);
  ("NK43", ["2800,50"]);
  ("NK44", ["58,58"]);
  ("NK45", ["80,80"]);
  ("NK47", ["2000,40"]);
  ("NK48", ["40,40"]);
  ("NK49", ["480,200"]);
  ("NK50", ["190,144"]);
  ("NK53", ["1000,75"; "550,100"]);
  ("NK54", ["1600,60"]);
  ("NK55", ["50,50"]);
  ("NK56", ["100,100"]);
  ("NK57", ["50,50"]);
  ("NK58", ["60,60"]);
  ("NK59", ["6800,700"]);
  ("NK60", ["12100,1500"; "4200,3000"]);
  ("NK61", ["167,93"]);
  ("NK63", ["90,70"]);
  ("NK64", ["80,80"]);
  ("NK65", ["500,500"]);
  ("NK68", ["1910,70"]);
  ("NK71", ["2200,60"; "1800,70"]);
  ("NK72", ["1200,70"]);
  ("NK73", ["100,100"]);
  ("NK74", ["3000,50"]);
  ("NK75", ["60,50"]);
  ("NK76", ["2300,30"]);
  ("NK77", ["50,50"]);
  ("NK78", ["44,44"]);
  ("NK79", ["2200,50"]);
  ("NK80", ["78,40"]);
  ("NK82", ["2500,50"]);
  ("NK83", ["2000,100"]);
  ("NK84", ["40,36"]);
  ("NK85", ["50,40"]);
  ("NK86", ["100,100"]);
  ("NK87", ["2400,40"]);
  ("NK89", ["1550,90"; "1800,85"; "1400,85"]);
  ("NK90", ["100,48"]);
  ("NK91", ["1650,42"]);
  ("NK92", ["100,100"]);
  ("NK95", ["90,90"]);
  ("NK96", ["90,90"]);
  ("NKD", ["2100,39"]);
  ("NL-0023", [""; ""]);
  ("NL-0041", ["3149,492,,70,,250"]);
  ("NLWF", ["3609,,13,,16"]);
  ("NLWW", ["6890,148,59,90,75,270"]);
  ("NM00", ["40,40"]);
  ("NM01", ["2200,30"]);
  ("NM02", ["2200,50"]);
  ("NM04", ["2400,65"]);
  ("NM06", ["68,68"]);
  ("NM07", ["400,150"]);
  ("NM08", ["5000,70"]);
  ("NM09", ["4000,100"]);
  ("NM10", ["2200,30"; "2200,30"]);
  ("NM11", ["28,28"]);
  ("NM12", ["40,40"]);
  ("NM13", ["5000,50"]);
  ("NM14", ["3100,40"]);
  ("NM15", ["2640,300"]);
  ("NM16", ["5800,100"]);
  ("NM17", ["3580,44"; "2300,44"]);
  ("NM19", ["100,100"]);
  ("NM20", ["2500,75"]);
  ("NM21", ["2890,50"]);
  ("NM22", ["40,40"]);
  ("NM23", ["75,75"]);
  ("NM24", ["3000,45,,21,8030,201"]);
  ("NM25", ["4900,75"]);
  ("NM26", ["2600,100"]);
  ("NM27", ["3500,50"]);
  ("NM28", ["1300,30"]);
  ("NM29", ["3000,60"]);
  ("NM30", ["2700,150"]);
  ("NM31", ["1200,60"]);
  ("NM32", ["8200,70"]);
  ("NM33", ["3000,40"]);
  ("NM34", ["40,40"]);
  ("NM35", ["38,38"]);
  ("NM37", ["3900,60"]);
  ("NM38", ["4300,50"]);
  ("NM39", ["7000,27"]);
  ("NM41", ["3700,100"]);
  ("NM42", ["2640,150"]);
  ("NM43", ["5000,50"]);
  ("NM44", ["3750,60"]);
  ("NM45", ["130,115"]);
  ("NM46", ["45,80"]);
  ("NM47", ["2000,60"; "2400,60"; "2400,60"]);
  ("NM48", ["5000,200"]);
  ("NM49", ["5000,50"]);
  ("NM50", ["30,30"]);
  ("NM51", ["3000,60"]);
  ("NM52", ["2600,40"]);
  ("NM53", ["5600,100"]);
  ("NM54", ["428,227"]);
  ("NM55", ["1850,30"; "2300,30"]);
  ("NM56", ["5100,30"]);
  ("NM57", ["50,50"]);
  ("NM58", ["20,20"]);
  ("NM60", ["60,60"]);
  ("NM61", ["5280,200"; "2640,200"]);
  ("NM62", ["40,40"]);
  ("NM63", ["2600,45"; "2600,45"]);
  ("NM64", ["1800,30"; "1800,50"]);
  ("NM65", ["46,46"]);
  ("NM66", ["3000,30"]);
  ("NM67", ["5445,40,6578,164.8,,344.8"; "5445,40"]);
  ("NM68", ["2500,30,6950,71,,251"]);
  ("NM69", ["3400,30"]);
  ("NM70", ["6000,50"]);
  ("NM71", ["5000,50"]);
  ("NM72", ["2400,35,,92,,272"; "4000,40,6037,150,5927,330"]);
  ("NM73", ["2640,30"; "2600,30"; "2600,30"]);
  ("NM74", ["3600,100"; "1800,100"]);
  ("NM76", ["4000,50"]);
  ("NM77", ["145,115"]);
  ("NM78", ["4800,30,4150,90,,270"]);
  ("NM79", ["2500,25"]);
  ("NM80", ["5000,40"]);
  ("NM83", ["7000,150,,45,,225"; "8810,150,,135,,315"]);
  ("NM84", ["3670,35"]);
  ("NM85", ["54,54"]);
  ("NM86", ["4685,50,,70.7,4519,250.7"]);
  ("NM87", ["2400,100"]);
  ("NM88", ["1100,30"]);
  ("NM89", ["5280,30"]);
  ("NM90", ["5000,30,,180,4107,360"]);
  ("NM91", ["4000,35"]);
  ("NM92", ["2900,70"]);
  ("NM93", ["40,40"]);
  ("NM94", ["40,40"]);
  ("NO-0001", ["1935,59"]);
  ("NO-0002", ["2162,72"]);
  ("NO-0007", ["4265,115,700,,700"]);
  ("NO-0008", ["2624,98"]);
  ("NO-0009", ["2231,131"]);
  ("NO-0010", ["1968,33"]);
  ("NO-0011", ["1558,66"]);
  ("NO-0012", ["1476,49"]);
  ("NO-0013", ["1640,35"]);
  ("NO-0014", ["1952,46"]);
  ("NO-0015", ["2296,82"]);
  ("NO-0016", ["1804,49"]);
  ("NO-0017", ["2067,66"]);
  ("NO-0018", ["1804,39"]);
  ("NO-0019", ["2739,39"]);
  ("NO-0020", ["1640,26"]);
  ("NO-0021", ["1640,66"]);
  ("NO-0022", ["2624,39"]);
  ("NO-0023", ["3937,98"]);
  ("NO-0024", ["1640,72"]);
  ("NO-0025", ["1968,66"]);
  ("NO-0026", ["1591,33"]);
  ("NO-0027", ["1804,49"]);
  ("NO-0029", ["2526,49"]);
  ("NO-0031", ["500"]);
  ("NO-0032", ["1969,98"]);
  ("NO-0033", ["1969,49"]);
  ("NR00", ["30,30"]);
  ("NR01", ["30,30"]);
  ("NR02", ["4900,70"]);
  ("NR04", ["800,100"]);
  ("NR05", ["55,55"]);
  ("NR06", ["25,25"]);
  ("NRC", ["6975,200"; "7950,200"]);
  ("NSAS", ["2000,60,9,98,9,278"]);
  ("NSFA", ["9843,148,58,89,9,269"]);
  ("NSFQ", ["3190,75,,134.1,,314.1"]);
  ("NSTU", ["10000,150,30,60.2,9,240.2"; "3800,100,6,90,5,270"]);
  ("NTAA", ["11360,148,5,54.3,5,234.3"]);
  ("NTAR", ["4757,59,18,108,14,288"]);
  ("NTAT", ["4921,75,5,48.4,7,228.4"]);
  ("NTAV", ["4592,100,7,72.6,7,252.6"]);
  ("NTGA", ["4921,60,7,149.7,7,329.7"]);
  ("NTGB", ["3936,50,9,85.2,8,265.2"]);
  ("NTGC", ["3937,98,5,75.4,5,255.4"]);
  ("NTGE", ["3008,59,12,125.7,5,305.7"]);
  ("NTGF", ["3871,75,7,64.6,13,244.6"]);
  ("NTGI", ["3051,98,14,56.1,8,236.1"]);
  ("NTGJ", ["6562,98,7,136.5,7,316.5"]);
  ("NTGK", ["3543,66,8,28.5,11,208.5"]);
  ("NTGM", ["4920,98,3,123.4,3,303.4"]);
  ("NTGP", ["3051,49,4,112.5,4,292.5"]);
  ("NTGS", ["4250"]);
  ("NTGT", ["3018,65,12,80.2,9,260.2"]);
  ("NTGU", ["4268,98,9,116.5,9,296.5"]);
  ("NTGV", ["3937,98,9,197.1,9,17.1"]);
  ("NTGY", ["2949,60,8,192.2,6,12.2"]);
  ("NTHE", ["4068,80,4,70.8,11,250.8"]);
  ("NTKF", ["3890,75,7,88.5,7,268.5"]);
  ("NTKK", ["4150,75,7,83,10,263"]);
  ("NTKR", ["3452,66,11,86.2,13,266.2"]);
  ("NTMD", ["5578,98,220,68.5,180,248.5"]);
  ("NTMN", ["3986,75,1428,31.3,1481,211.3"]);
  ("NTTB", ["4921,72,10,124.4,10,304.4"; "3000,140,,191.8,,11.8"]);
  ("NTTG", ["6890,98,10,106.5,10,286.5"]);
  ("NTTH", ["4921,66,7,79.5,7,259.5"]);
  ("NTTM", ["3871,66,8,135.1,4,315.1"]);
  ("NTTO", ["11089,148,10,134.8,10,314.8"]);
  ("NTTP", ["3135,75,4,89.1,15,269.1"]);
  ("NTTR", ["4593,98,3,83.9,3,263.9"]);
  ("NUG", ["2799"]);
  ("NV00", ["2520,50"]);
  ("NV02", ["4000,40"]);
  ("NV04", ["2480,80"; "1120,60"; "880,60"]);
  ("NV05", ["2500,40"; "4000,40"]);
  ("NV06", ["4000,40"]);
  ("NV07", ["3700,50"]);
  ("NV08", ["7500,75"]);
  ("NV09", ["3000,100"]);
  ("NV10", ["20,20"]);
  ("NV11", ["9000,200,3919,151.3,3919,331.3"]);
  ("NV12", ["5200,200"]);
  ("NV13", ["2600,50"]);
  ("NV14", ["2100,40"]);
  ("NV15", ["45,45"]);
  ("NV17", ["1580,40"]);
  ("NV21", ["54,54"]);
  ("NV22", ["1800,40"]);
  ("NV23", ["3000,60"; "7000,100"]);
  ("NV25", ["70,70"]);
  ("NV26", ["2100,100"]);
  ("NV27", ["4400,60,,30.9,,210.9"; "4400,60,,144.9,,324.9"]);
  ("NV29", ["35,30"]);
  ("NV30", ["6000,60,,175.6,,355.6"]);
  ("NV31", ["1350,30"]);
  ("NV33", ["3600,100,,188.5,,8.5"]);
  ("NV34", ["50,50"; "41,41"]);
  ("NV35", ["5050,100"]);
  ("NV37", ["150,150"]);
  ("NV38", ["50,50"]);
  ("NV40", ["60,100"]);
  ("NV42", ["3300,50"]);
  ("NV44", ["2600,40"]);
  ("NV47", ["4000,42"]);
  ("NV48", ["80,80"]);
  ("NV49", ["100,100"]);
  ("NV52", ["20,20"]);
  ("NV53", ["60,60"]);
  ("NV54", ["800,25"]);
  ("NV55", ["2000,45"]);
  ("NV56", ["3300,35"]);
  ("NV57", ["40,40"]);
  ("NV58", ["60,60"]);
  ("NV60", ["40,40"]);
  ("NV61", ["60,60"]);
  ("NV62", ["60,60"]);
  ("NV64", ["2500,50"]);
  ("NV67", ["2000,25"]);
  ("NV68", ["3700,28,,175.3,,355.3"]);
  ("NV69", ["40,40"]);
  ("NV72", ["3700,60,6837,196.1,6796,16.1"]);
  ("NV73", ["20,20"]);
  ("NV74", ["5200,150,,163.8,,343.8"]);
  ("NV78", ["75,75"]);
  ("NV83", ["6776,60"]);
  ("NV96", ["2000,40"]);
  ("NV97", ["1441,60"]);
  ("NV98", ["1800,40"]);
  ("NVSA", ["2953,82"]);
  ("NVSC", ["2723,98"]);
  ("NVSD", ["2789,82"]);
  ("NVSE", ["2307,98"]);
  ("NVSF", ["2674,69"]);
  ("NVSG", ["2887,92"]);
  ("NVSH", ["1969,98"]);
  ("NVSI", ["1968,98"]);
  ("NVSM", ["2789,79"]);
  ("NVSN", ["2789,98"]);
  ("NVSO", ["2175,66"]);
  ("NVSP", ["2972,49"]);
  ("NVSQ", ["2802,59"]);
  ("NVSR", ["2165,75"]);
  ("NVSS", ["6523,98,184,129,113,309"]);
  ("NVST", ["2329,75"]);
  ("NVSU", ["2789,98"]);
  ("NVSV", ["2625,98"]);
  ("NVSW", ["2379,115"]);
  ("NVSX", ["2674,98"]);
  ("NVSZ", ["2362,82"]);
  ("NVVA", ["2001,75"]);
  ("NVVB", ["2625,82"]);
  ("NVVD", ["2428,98"]);
  ("NVVF", ["2297,115"]);
  ("NVVI", ["2995,98"]);
  ("NVVK", ["2953,105"]);
  ("NVVV", ["8530,148,51,117.9,70,297.9"; "3310,105,,117.9,,297.9"]);
  ("NVVW", ["4035,98,11,157.6,19,337.6"]);
  ("NWT", ["2310,98"]);
  ("NWWB", ["2625,98"]);
  ("NWWC", ["1969,66,264,107.2,305,287.2"]);
  ("NWWD", ["3281,66,23,99.9,16,279.9"]);
  ("NWWE", ["3608,76,315,114.1,283,294.1"]);
  ("NWWH", ["3281,,10,,10"]);
  ("NWWK", ["3616,85,23,67.5,42,247.5"]);
  ("NWWL", ["3609,98,92,134.9,92,314.9"]);
  ("NWWM", ["4101,98,9,178.6,8,358.6"]);
  ("NWWR", ["3281,82,135,138.9,141,318.9"]);
  ("NWWT", ["2625,98"]);
  ("NWWU", ["3609,98,10,145.6,10,325.6"]);
  ("NWWV", ["3609,98,16,143,23,323"]);
  ("NWWW", ["10663,148,30,121.1,52,301.1"]);
  ("NWWX", ["3135,60,,123.5,,303.5"]);
  ("NX01", ["3500,60,,72.9,,252.9"]);
  ("NXF", ["1513,72,86,98,88,278"]);
  ("NY00", ["1600,75"]);
  ("NY01", ["1925,60"]);
  ("NY02", ["2180,150"]);
  ("NY03", ["1540,110"]);
  ("NY04", ["2300,100"]);
  ("NY05", ["3000,27,,106,,286"; "3000,130,,106,,286"]);
  ("NY06", ["4000,90"]);
  ("NY07", ["1700,50"]);
  ("NY08", ["100,90"]);
  ("NY09", ["1600,90"]);
  ("NY1", ["4000,75"]);
  ("NY10", ["2800,30"; "2722,80"]);
  ("NY11", ["2580,40"]);
  ("NY12", ["40,40"]);
  ("NY13", ["1800,90"]);
  ("NY14", ["60,60"]);
  ("NY15", ["2800,60"]);
  ("NY16", ["2500,60"]);
  ("NY17", ["2050,20"]);
  ("NY18", ["2400,50"; "2100,75"]);
  ("NY19", ["1500,50"]);
  ("NY20", ["2750,20,,116.2,,296.2"])].

(* ADRpy/data/runways.csv *)
Definition airports_23 : list (string * list string) := [
  ("NY21", ["25,25"]);
  ("NY22", ["70,70"]);
  ("NY23", ["2300,150"]);
  ("NY24", ["1800,50"]);
  ("NY25", ["2400,125,,115,,295"]);
  ("NY26", ["2141,60"]);
  ("NY27", ["3745,60"; "3880,60"]);
  ("NY28", ["1250,65"]);
  ("NY29", ["2100,45"]);
  ("NY30", ["60,60"]);
  ("NY31", ["1600,75"]);
  ("NY32", ["2000,100"]);
  ("NY33", ["3025,50,,16,,196"]);
  ("NY34", ["2100,50"]);
  ("NY35", ["2400,23"]);
  ("NY36", ["40,40"]);
  ("NY37", ["2200,90"]);
  ("NY38", ["1800,80"]);
  ("NY39", ["65,65"]);
  ("NY40", ["2000,100"]);
  ("NY41", ["150,50"]);
  ("NY42", ["3000,100"]);
  ("NY43", ["40,40"]);
  ("NY44", ["100,100"]);
  ("NY45", ["75,75"; "75,75"]);
  ("NY46", ["38,38"]);
  ("NY47", ["60,60"]);
  ("NY48", ["2800,100"]);
  ("NY49", ["1470,70"]);
  ("NY50", ["2810,40"]);
  ("NY51", ["1700,40"]);
  ("NY52", ["40,40"]);
  ("NY53", ["2804,50"]);
  ("NY54", ["50,50"]);
  ("NY55", ["3800,75"]);
  ("NY57", ["2000,100"; "1600,50"]);
  ("NY58", ["2500,150"]);
  ("NY59", ["2200,100"]);
  ("NY60", ["1850,130"]);
  ("NY61", ["10000,700"]);
  ("NY62", ["2100,100"]);
  ("NY63", ["1500,90"]);
  ("NY64", ["2800,120"]);
  ("NY65", ["1800,100"]);
  ("NY66", ["2000,175"]);
  ("NY67", ["600,75"; "800,75"]);
  ("NY68", ["3000,75"]);
  ("NY69", ["1850,100"]);
  ("NY70", ["2000,50"]);
  ("NY71", ["1500,50"]);
  ("NY72", ["1400,80"]);
  ("NY73", ["2500,75"]);
  ("NY74", ["2450,50"]);
  ("NY75", ["44,44"]);
  ("NY76", ["1700,50"]);
  ("NY77", ["2100,70"]);
  ("NY78", ["2700,75"]);
  ("NY79", ["1860,60"]);
  ("NY80", ["200,200"]);
  ("NY81", ["1400,25"]);
  ("NY82", ["3380,100"]);
  ("NY83", ["15000,4000"]);
  ("NY84", ["2200,60"]);
  ("NY85", ["1800,40"; "1800,40"]);
  ("NY86", ["1350,80"]);
  ("NY87", ["1450,160"]);
  ("NY88", ["2000,100"]);
  ("NY89", ["1700,50"; "2800,50"; "2800,125"]);
  ("NY9", ["15000,1500"]);
  ("NY90", ["600,360"]);
  ("NY91", ["1200,80"]);
  ("NY92", ["1860,50"]);
  ("NY93", ["50,50"]);
  ("NY94", ["2200,75"]);
  ("NY96", ["2300,50"]);
  ("NY97", ["2100,100"]);
  ("NY99", ["75,75"]);
  ("NZ-0005", ["2305,26"]);
  ("NZ-0022", ["5080,150,985,200,990,20"]);
  ("NZ12", ["2500,100,,27.5,,207.5"]);
  ("NZAA", ["10197,148,15,71,22,251"; "11926,148,15,71.5,23,251.5"]);
  ("NZAG", ["2559,98"]);
  ("NZAP", ["2398,197,1294,130.5,1322,310.5"; "4547,98,1335,196,1324,16"]);
  ("NZAR", ["1700,59,111,47.5,,227.5"; "4630,148,105,47.5,108,227.5"; "1960,59,103,92,,272"]);
  ("NZAS", ["2943,197,280,47,288,227"; "4554,295,292,88,285,268"; "3360,295,298,132,285,312"; "3543,148,298,181,280,1"]);
  ("NZBA", ["2185,76,22,101.4,18,281.4"]);
  ("NZCB", ["2251,197,255,,247"]);
  ("NZCH", ["1690,229,,37.7,,217.7"; "10787,148,123,41,93,221"; "5587,148,115,131,95,311"]);
  ("NZCI", ["4462,148,43,72.1,27,252.1"]);
  ("NZCX", ["2044,39"]);
  ("NZDN", ["6234,150,3,56,4,236"]);
  ("NZFF", ["2395,164,400,,389"; "2461,164,402,,386"; "3281,131,397,,396"]);
  ("NZFG", ["16,16"]);
  ("NZFI", ["3376,46,214,119,214,299"]);
  ("NZFJ", ["2628,30"]);
  ("NZFT", ["1640,39"]);
  ("NZGB", ["3051,,21,,12"]);
  ("NZGM", ["3579,,14,,8"]);
  ("NZGS", ["3773,197,11,47.6,10,227.6"; "3839,197,10,116.8,13,296.8"; ",,12,,15"; "2503,197,11,165.5,14,345.5"; "4298,148,12,165.1,15,345.1"]);
  ("NZGT", ["3166,98,1754,171,1778,351"]);
  ("NZGY", ["2215,98"]);
  ("NZHA", ["3166,,370,,363"]);
  ("NZHK", ["4311,98,117,57.9,108,237.9"; "3858,59,116,147.1,146,327.1"]);
  ("NZHN", ["2362,197,168,95,171,275"; "2346,197,168,95,169,275"; ",,172,,164"; "6430,148,172,196,164,16"; "2871,197,169,196,162,16"]);
  ("NZHS", ["2887,98,67,27.2,70,207.2"; "3525,45,67,27,70,207"; "2887,197,,31.1,,211.1"; "2900,197,,131.1,,311.1"]);
  ("NZHT", ["2297,197"]);
  ("NZIR", ["10000,220,,173.3,,353.3"; "10000,220,,123.5,,303.5"]);
  ("NZKC", ["2297,115"]);
  ("NZKD", ["1796,98"]);
  ("NZKF", ["2753,98"]);
  ("NZKI", ["2018,82,19,,19"; "2297,33,19,,19"]);
  ("NZKK", ["1608,121,485,38.5,479,218.5"; ",,478,,492"; "2247,66,478,168.5,492,348.5"; "3904,98,478,165.5,492,345.5"]);
  ("NZKT", ["4600,98,223,143,270,323"; "4190,98,257,201.3,261,21.3"]);
  ("NZKY", ["2418,197,810,,810"]);
  ("NZLX", ["2139,197,750,33.9,752,213.9"; "3937,197,749,159.6,750,339.6"; "3937,98,749,160.1,750,340.1"]);
  ("NZMC", ["5157,98,2153,155.2,2083,335.2"]);
  ("NZMF", ["2598,,2,,10"]);
  ("NZMJ", ["1312,66"]);
  ("NZMK", ["2562,36"; "2405,98"]);
  ("NZMO", ["3547,98,687,101.8,684,281.8"]);
  ("NZMS", [",,362,,333"; "4101,75,362,78,333,258"; "1476,66,,87,,267"; "3478,98,350,74.2,333,254.2"; "3419,98,364,122.1,341,302.1"]);
  ("NZMT", ["2457,98"]);
  ("NZMW", ["1969,98"]);
  ("NZNE", ["2660,197,205,,212"; "1870,197,196,,206"]);
  ("NZNP", ["4298,148,90,66.5,83,246.5"; "3281,98,,66,,246"; "3937,131,71,156.7,92,336.7"]);
  ("NZNR", ["4000,98,5,88.5,5,268.5"; "1837,115"; ",,6,,5"; "2513,200,5,186,6,6"; "5740,148,6,185.4,5,5.4"]);
  ("NZNS", [",,10,,14"; "2398,197,14,41.7,17,221.7"; "4420,148,10,41.7,14,221.7"; "2200,197,14,82.7,12,262.7"; "1970,197,,186.7,,6.7"]);
  ("NZNV", ["7251,148,5,65,3,245"; "2280,66,,64.6,,244.6"; "1398,66,,92.6,,272.6"; "2996,82,5,140.9,5,320.9"]);
  ("NZOH", ["8028,148,150,109,149,289"; "1887,89,,109,,289"; "6998,148,164,168.2,132,348.2"]);
  ("NZOM", [""; ""; ""]);
  ("NZOU", ["2775,164,92,42.9,85,222.9"; "3107,164,92,136.7,85,316.7"; "4210,98,94,207,99,27"]);
  ("NZOX", ["2799,210"]);
  ("NZPG", ["10000,220,,150,,330"]);
  ("NZPI", ["2493,23"]);
  ("NZPM", [",,121,,151"; "6240,148,121,90.4,151,270.4"; "1995,197,115,90.4,148,270.4"]);
  ("NZPP", ["3366,98,15,134,19,314"; "1345,295,,133.7,,313.7"; ",,17,,15"; "2001,295,,180.7,,0.7"; "4429,148,17,180.7,15,0.7"]);
  ("NZQN", [",,1160,,1171"; "2625,131,,76,,256"; "6204,98,1160,76,1171,256"; "3097,197,1168,164.5,1159,344.5"]);
  ("NZRC", ["2625,52,288,65,281,245"]);
  ("NZRI", ["1788,164,268,,265"; "3412,98,288,,268"]);
  ("NZRO", [",,935,,935"; "2732,164,935,206,935,26"; "5321,98,935,205,935,25"]);
  ("NZRT", ["1690,115,180,,180"; "3871,197,205,,185"; "1913,197,180,,180"]);
  ("NZRU", ["3917,98,2682,144.9,2686,324.9"]);
  ("NZSL", ["2854,,99,,98"]);
  ("NZSP", ["12000,200,9301,128.8,9301,308.8"]);
  ("NZTG", ["2100,197,13,52,13,232"; ",,13,,13"; "2543,197,13,96.8,13,276.8"; "5988,148,13,96,13,276"; "2297,148,13,184,6,4"]);
  ("NZTL", ["3116,36"]);
  ("NZTO", ["2789,,1200,,1221"]);
  ("NZTT", ["2841,,160,,160"]);
  ("NZTU", ["3898,197,86,40,85,220"; "4200,148,86,42.5,85,222.5"; "3652,295,88,133,75,312.9"]);
  ("NZUK", ["3550,51,1575,171.5,1522,351.5"]);
  ("NZWB", ["4675,197,104,88,78,268"; "4675,148,109,86,80,266"; "3878,295,96,126.3,90,306.3"]);
  ("NZWD", ["10000,220,,206,,26"; "10000,220,,295.9,,115.9"]);
  ("NZWF", ["3937,98,1142,138.5,1120,318.5"]);
  ("NZWG", ["3291,164,,55,,235"; "5184,98,,50,,230"; "3445,115,,153,,333"]);
  ("NZWK", [",,19,,20"; "4200,100,19,113.1,20,293.1"; "2461,98,19,113.1,19,293.1"]);
  ("NZWL", ["3271,266,305,64,283,244"; "2008,49,305,64,283,244"; "2087,295,300,134,285,314"; "2264,263,279,194,295,14"]);
  ("NZWN", ["6352,148,41,183,23,3"]);
  ("NZWO", ["3000,98,42,175.4,34,355.4"]);
  ("NZWP", ["6665,148,100,53,58,233"; "5187,148,68,98,53,278"; "2789,148,,99.6,,279.6"]);
  ("NZWR", ["3599,98,133,81,125,261"; "1558,197,,163.8,,343.8"]);
  ("NZWS", ["4200,98,13,57.8,12,237.8"]);
  ("NZWT", ["3822,,10,,12"]);
  ("NZWU", ["2877,197,,106.1,,286.1"; ",,11,,27"; "4521,148,11,131.1,27,311.1"; "1654,1,,128.1,,308.1"; "2756,279,,128.1,,308.1"; "2959,197,,161.1,,341.1"]);
  ("NZYP", ["3461,,430,42,430,222"]);
  ("O03", ["2500,100"]);
  ("O06", ["9000,9000"]);
  ("O07", ["2500,28"]);
  ("O12", ["7000,4000"]);
  ("O13", ["2650,35,2092,176,2097,356"]);
  ("O14", ["3000,150"]);
  ("O18", ["2555,80"]);
  ("O19", ["2270,50"]);
  ("O21", ["2325,50"]);
  ("O23", ["2156,30,,,172"]);
  ("O31", ["2707,60,285,,272"]);
  ("O33", ["2700,60,20,,9"]);
  ("O34", ["45,40"]);
  ("O38", ["2600,26"; "1760,100"]);
  ("O39", ["2920,30"]);
  ("O44", ["2135,80"]);
  ("O45", ["3312,60,2998,180,2992,0"]);
  ("O55", ["2980,35"]);
  ("O63", ["2800,40"]);
  ("O64", ["50,50"]);
  ("O66", ["2870,21"]);
  ("O74", ["2750,110"]);
  ("O85", ["2420,80,719,,715"]);
  ("OA00", ["2100,125"]);
  ("OA03", ["16,16"]);
  ("OA04", ["2200,60"]);
  ("OA05", ["2000,50"]);
  ("OA06", ["75,75"]);
  ("OA07", ["3200,90"]);
  ("OA08", ["50,50"]);
  ("OA09", ["30,30"]);
  ("OA10", ["2400,120"]);
  ("OA11", ["2600,60,,174.8,,354.8"]);
  ("OA12", ["1700,70"]);
  ("OA14", ["2300,70"]);
  ("OA15", ["50,50"]);
  ("OA16", ["2500,50"]);
  ("OA17", ["110,150"]);
  ("OA18", ["50,50"]);
  ("OA19", ["1800,80"]);
  ("OA21", ["25,25"]);
  ("OA22", ["50,50"]);
  ("OA23", ["2600,120"]);
  ("OA51", ["3900,80"]);
  ("OA85", ["2560,78"]);
  ("OAAK", ["2480,60,,78,,258"]);
  ("OAHR", ["8218,150,3206,187.3,3133,7.3"]);
  ("OAIX", ["11820,180,4888,29,4895,209"]);
  ("OAJL", ["7262,148,1814,131,1809,311"]);
  ("OAKB", ["11483,164,5869,107,5872,287"]);
  ("OAKN", ["10532,148,3303,55,3337,235"]);
  ("OAMN", ["5090,76,,143.2,,323.2"]);
  ("OAMS", ["10437,146,1278,65.8,1256,245.8"; "9843,147,1287,66,1252,246"]);
  ("OASD", ["9140,160,3773,182.5,3773,2.5"]);
  ("OASG", ["4582,70,,66,,246"]);
  ("OAUZ", ["6558,148,1450,113,1454,293"]);
  ("OBBI", ["12979,197,6,123,6,303"; "8302,148,7,123,6,303"]);
  ("OBBS", ["12467,147,136,153.8,29,333.8"]);
  ("OE43", ["6726,82,,114,,294"]);
  ("OE45", ["5715,70,,172,,352"]);
  ("OE46", ["5365,133,,115,,295"]);
  ("OE48", ["7235,98,,21,,201"]);
  ("OE49", ["7865,140,,12,,192"]);
  ("OE50", ["7972,148,,145.8,,325.8"]);
  ("OE51", ["4245,60,,175.7,,355.7"]);
  ("OE52", ["6900,150,,33,,213"]);
  ("OE53", ["7531,83,,150.7,,330.7"]);
  ("OE54", ["7315,148,,151.6,,331.6"]);
  ("OE55", ["6915,99,,34,,214"]);
  ("OE56", ["6888,95,,128.4,,308.4"]);
  ("OEAA", ["4956,90,12,149,10,329"]);
  ("OEAB", ["10991,148,6832,129,6858,309"]);
  ("OEAH", ["10039,148,588,164.9,575,344.9"]);
  ("OEBA", ["10991,148,5482,70.8,5430,250.8"]);
  ("OEBH", ["10007,147,3872,186,3886,6"]);
  ("OEBQ", ["6075,111,229,150.2,234,330.2"]);
  ("OEDF", ["13124,197,59,165,72,345"; "13124,197,48,165,56,345"]);
  ("OEDM", ["10006,147,3016,153.8,3031,333.8"]);
  ("OEDR", ["11811,148,84,165,48,345"; "12008,148,68,165,64,345"]);
  ("OEGN", ["10006,148,16,150,20,330"]);
  ("OEGS", ["9843,147,2126,153,2120,333"]);
  ("OEGT", ["10007,147,1672,106,1641,286"]);
  ("OEHL", ["12204,148,3299,184,3331,4"]);
  ("OEHR", ["8006,,919,,911"]);
  ("OEHW", ["8497,98,2091,150,2074,330"]);
  ("OEJB", ["13124,148,19,167,25,347"]);
  ("OEJF", ["8964,148,,155.1,,335.1"]);
  ("OEJN", ["10825,197,26,160,26,340"; "13123,148,30,160,48,340"; "12467,197,13,160,13,340"]);
  ("OEKK", ["12005,148,1352,129.9,1346,309.9"]);
  ("OEKM", ["12467,148,6699,60.2,6695,240.2"; "12467,148,6733,140.9,6778,320.9"]);
  ("OEKR", ["6250,98,1300,162.6,1300,342.6"]);
  ("OEMA", ["13149,147,2151,169,2083,349"; "10039,147,2144,184,2079,4"]);
  ("OENG", ["10007,147,3982,60,3958,240"]);
  ("OEPA", ["9843,148,1171,158.2,1174,338.2"]);
  ("OEPC", ["8005,115,1734,142,1741,322"]);
  ("OEPF", ["8005,115,2534,168.2,2524,348.3"]);
  ("OEPI", ["8008,98,2965,167.7,2967,347.7"]);
  ("OEPJ", ["6398,115,2832,178,2841,358"]);
  ("OEPK", ["6007,98,,163.5,,343.5"]);
  ("OEPS", ["13143,148,1601,175,1651,355"]);
  ("OERB", ["7741,105,,153,,333"]);
  ("OERF", ["9834,147,1459,114,1474,294"]);
  ("OERK", ["13796,197,2033,150,2012,330"; "13796,197,2049,150,2033,330"]);
  ("OERM", ["11058,98,13,164,10,344"]);
  ("OERR", ["10007,148,1813,105,1804,285"]);
  ("OERT", ["7063,98,8,152,8,332"]);
  ("OERY", ["13288,147,2045,8,2082,188"; "11778,147,2053,117.6,2046,297.6"]);
  ("OESB", ["6082,80,,86.3,,266.3"; "10005,98,,87.1,,267.1"]);
  ("OESH", ["11975,147,2336,85,2363,265"]);
  ("OESK", ["12011,147,2261,99.8,2260,279.8"]);
  ("OESL", ["9860,148,,101.2,,281.2"]);
  ("OETB", ["10991,148,2545,65,2551,245"; "10007,148,2530,132.9,2539,312.9"]);
  ("OETF", ["12254,148,4848,74.7,4737,254.7"; "10991,148,4753,172.2,4775,352.2"]);
  ("OETH", ["13170,200,,171,,351"]);
  ("OETN", ["8005,98,20,154.2,26,334.2"]);
  ("OETR", ["9843,148,2794,105.4,2792,285.4"]);
  ("OEUD", ["7171,98,765,179,767,359"]);
  ("OEWD", ["10007,147,2062,102,2052,282"]);
  ("OEWJ", ["10007,148,65,151,66,331"]);
  ("OEYN", ["10532,148,18,103.2,26,283.2"]);
  ("OG00", ["5000,50"]);
  ("OG01", ["1600,60"]);
  ("OG02", ["1300,30"]);
  ("OG03", ["46,46"]);
  ("OG04", ["2600,80"]);
  ("OG05", ["3450,130"]);
  ("OG06", ["3300,80"]);
  ("OG07", ["1900,50"]);
  ("OG09", ["40,37"]);
  ("OG10", ["1750,50"]);
  ("OG11", ["40,40"]);
  ("OG12", ["940,50"; "1725,50"]);
  ("OG13", ["1400,60"]);
  ("OG14", ["5000,50,,167,,347"]);
  ("OG15", ["2400,70"]);
  ("OG16", ["2200,50"]);
  ("OG18", ["1850,100"; "2660,100"]);
  ("OG19", ["2100,50"; "2125,50"]);
  ("OG20", ["2500,160"; "2900,160"]);
  ("OG21", ["3000,35,,88,,268"]);
  ("OG23", ["700,70"]);
  ("OG24", ["1620,40"]);
  ("OG25", ["2100,20"]);
  ("OG26", ["2000,50"]);
  ("OG27", ["2250,50"]);
  ("OG28", ["2660,100"]);
  ("OG29", ["3000,50"]);
  ("OG30", ["1800,250"]);
  ("OG31", ["2600,25"]);
  ("OG32", ["50,50"; "50,50"; "50,50"; "50,50"]);
  ("OG33", ["2175,40"]);
  ("OG34", ["1585,100"]);
  ("OG35", ["80,80"]);
  ("OG36", ["825,70"]);
  ("OG37", ["42,42"]);
  ("OG38", ["44,44"]);
  ("OG39", ["5200,75"; "3200,120"]);
  ("OG40", ["2600,50"]);
  ("OG41", ["1300,30"]);
  ("OG42", ["1335,30"]);
  ("OG43", ["50,50"]);
  ("OG44", ["1425,30"]);
  ("OG45", ["2700,60"]);
  ("OG46", ["80,70"]);
  ("OG47", ["87,54"]);
  ("OG48", ["1890,65"]);
  ("OG49", ["1050,25"]);
  ("OG50", ["2050,60"]);
  ("OG51", ["3800,40"]);
  ("OG52", ["1900,50"]);
  ("OG53", ["3000,50"]);
  ("OG54", ["2000,100"]);
  ("OG55", ["40,40"]);
  ("OG56", ["63,63"]);
  ("OG57", ["45,45"]);
  ("OG58", ["130,130"]);
  ("OG62", ["20,20"]);
  ("OG63", ["1400,100"]);
  ("OGE", ["1804,98"]);
  ("OH02", ["1200,70"; "2305,48"]);
  ("OH03", ["2150,60"]);
  ("OH05", ["23,25"]);
  ("OH07", ["2350,100,1190,,1190"]);
  ("OH10", ["75,75"]);
  ("OH12", ["100,100"]);
  ("OH13", ["1985,50,1285,,1285"]);
  ("OH14", ["2800,100,915,,915"]);
  ("OH15", ["2500,104,1080,,1080"]);
  ("OH16", ["70,70"]);
  ("OH17", ["2095,60"]);
  ("OH18", ["2000,66"]);
  ("OH19", ["2600,70"]);
  ("OH20", ["1800,100"]);
  ("OH21", ["2200,65"]);
  ("OH22", ["3460,200"]);
  ("OH23", ["40,40"]);
  ("OH24", ["1800,100"]);
  ("OH25", ["43,43"]);
  ("OH26", ["2200,75"]);
  ("OH27", ["2110,100"]);
  ("OH28", ["2100,120"]);
  ("OH29", ["2600,100"]);
  ("OH30", ["65,65"]);
  ("OH31", ["40,40"]);
  ("OH32", ["2700,63"]);
  ("OH33", ["2150,65"]);
  ("OH34", ["2800,70"]);
  ("OH35", ["2400,50"]);
  ("OH36", ["2925,45"]);
  ("OH37", ["1000,40"]);
  ("OH38", ["2600,50"]);
  ("OH41", ["280,60"]);
  ("OH42", ["2000,60"]);
  ("OH44", ["3545,110"]);
  ("OH45", ["1900,60"]);
  ("OH46", ["20,20"]);
  ("OH47", ["75,75"]);
  ("OH48", ["2300,75"]);
  ("OH49", ["48,48"]);
  ("OH50", ["2000,40"]);
  ("OH51", ["2100,50"]);
  ("OH52", ["16,16"; "16,16"; "16,16"]);
  ("OH53", ["55,55"]);
  ("OH54", ["108,104"]);
  ("OH55", ["70,65"]);
  ("OH56", ["45,64"; "50,64"]);
  ("OH57", ["1800,60"]);
  ("OH58", ["50,50"]);
  ("OH59", ["2100,100"]);
  ("OH60", ["2000,50"]);
  ("OH61", ["2300,90"]);
  ("OH63", ["2640,50"]);
  ("OH64", ["1500,150"; "1600,150"]);
  ("OH65", ["1800,100"; "2700,80"]);
  ("OH66", ["3200,60"]);
  ("OH68", ["2780,110"]);
  ("OH69", ["100,100"]);
  ("OH70", ["600,600"]);
  ("OH71", ["3200,80"; "1900,100"]);
  ("OH72", ["60,60"]);
  ("OH73", ["65,65"]);
  ("OH74", ["1700,50"]);
  ("OH75", ["40,40"]);
  ("OH76", ["88,28"]);
  ("OH77", ["2800,32"]);
  ("OH78", ["2450,60"]);
  ("OH79", ["100,100"]);
  ("OH80", ["150,100"]);
  ("OH81", ["2100,75"]);
  ("OH82", ["2595,80"]);
  ("OH83", ["60,60"]);
  ("OH84", ["50,50"]);
  ("OH85", ["32,25"]);
  ("OH86", ["2000,50"]);
  ("OH87", ["33,33"]);
  ("OH89", ["160,130"]);
  ("OH90", ["1800,100"]);
  ("OH91", ["1250,100"]);
  ("OH92", ["2000,75"]);
  ("OH93", ["1750,150"]);
  ("OH94", ["2400,100"; "1250,110"]);
  ("OH95", ["1400,75"]);
  ("OH96", ["3000,75"]);
  ("OH97", ["2200,200"]);
  ("OH98", ["1700,75"]);
  ("OI01", ["1800,50"]);
  ("OI03", ["2985,105,,117,,297"]);
  ("OI05", ["100,100"]);
  ("OI06", ["1950,100"]);
  ("OI07", ["2000,70"]);
  ("OI08", ["2600,60"]);
  ("OI11", ["2815,60"]);
  ("OI12", ["2500,60"]);
  ("OI13", ["4470,125,6970,118.5,6898,298.5"]);
  ("OI19", ["3106,70,,114.9,,294.9"]);
  ("OI1C", ["3270,98,,154,,334"]);
  ("OI20", ["7200,100,,150,,330"]);
  ("OI22", ["2200,50"]);
  ("OI23", ["30,30"]);
  ("OI24", [""; "80,40"]);
  ("OI25", ["2600,150"]);
  ("OI26", ["1000,200"]);
  ("OI27", ["2000,50"]);
  ("OI28", ["1500,50"]);
  ("OI29", ["1500,75"]);
  ("OI31", ["1900,120"; "2100,120"]);
  ("OI32", ["1200,100"]);
  ("OI33", ["15,15"]);
  ("OI34", ["1800,100"]);
  ("OI35", ["380,261"]);
  ("OI36", ["2200,100"]);
  ("OI37", ["75,75"]);
  ("OI38", ["2000,50"]);
  ("OI39", ["2600,60"]);
  ("OI40", ["1875,75"]);
  ("OI41", ["2180,80"]);
  ("OI42", ["2000,75"]);
  ("OI43", ["400,100"]);
  ("OI44", ["65,65"]);
  ("OI45", ["2200,100"]);
  ("OI46", ["1820,40"]);
  ("OI47", ["35,35"]);
  ("OI48", ["125,125"]);
  ("OI49", ["2900,60"]);
  ("OI50", ["40,40"]);
  ("OI51", ["40,40"]);
  ("OI52", ["1600,100"]);
  ("OI53", ["97,44"]);
  ("OI54", ["144,100"]);
  ("OI55", ["1240,65"]);
  ("OI56", ["1280,40"]);
  ("OI57", ["2200,75"]);
  ("OI58", ["1700,150"]);
  ("OI59", ["1500,100"]);
  ("OI60", ["1400,60"]);
  ("OI61", ["65,65"]);
  ("OI62", ["2100,75"]);
  ("OI63", ["75,75"]);
  ("OI64", ["2100,150"]);
  ("OI65", ["44,44"]);
  ("OI66", ["2300,38"]);
  ("OI68", ["3000,80"]);
  ("OI69", ["2200,60"]);
  ("OI72", ["1880,26"]);
  ("OI73", ["2700,75"]);
  ("OI75", ["1200,300"]);
  ("OI76", ["3000,85"; "2100,1500"]);
  ("OI77", ["2500,50"]);
  ("OI78", ["2000,100"]);
  ("OI79", ["24,24"]);
  ("OI80", ["200,100"]);
  ("OI81", ["1750,75"]);
  ("OI82", ["1200,50"]);
  ("OI83", ["50,50"]);
  ("OI84", ["1770,50"]);
  ("OI85", ["1550,25"]);
  ("OI86", ["45,45"]);
  ("OI87", ["60,60"]);
  ("OI88", ["1885,66"]);
  ("OI89", ["1500,100"]);
  ("OI90", ["40,40"]);
  ("OI91", ["1600,60"]);
  ("OI92", ["2600,60"]);
  ("OI93", ["30,30"]);
  ("OI94", ["72,70"]);
  ("OI95", ["20,20"]);
  ("OI96", ["30,30"]);
  ("OI97", ["40,40"]);
  ("OI98", ["100,100"]);
  ("OI99", ["2200,65"]);
  ("OIAA", ["7437,115,8,144.6,10,324.6"; "10169,148,10,144.6,10,324.6"]);
  ("OIAD", ["11729,148,463,140.6,474,320.6"; "12641,115,461,140.6,469,320.6"]);
  ("OIAG", ["6933,148,88,136.5,86,316.5"]);
  ("OIAH", ["6070,148,2394,124.6,2394,304.6"]);
  ("OIAI", ["4656,98,1159,122.3,1180,302.3"; "5907,98,1187,137.1,1187,317.1"]);
  ("OIAJ", ["11500,148,,125,,305"; "13500,148,,125,,305"]);
  ("OIAM", ["8874,148,8,137,8,317"]);
  ("OIAW", ["11149,148,66,124.1,59,304.1"]);
  ("OIBA", ["9796,148,14,83,21,263"]);
  ("OIBB", ["14663,148,4,132,62,312"; "14664,148,2,132,68,312"]);
  ("OIBH", ["4500,100,,74.3,,254.3"]);
  ("OIBI", ["11823,148,10,118.5,10,298.5"]);
  ("OIBJ", ["7711,148,2099,114.8,2172,294.8"]);
  ("OIBK", ["12004,215,96,94.9,101,274.9"; "12004,148,95,94.9,98,274.9"]);
  ("OIBL", ["8203,148,57,82,67,262"]);
  ("OIBP", ["13115,148,18,128.8,27,308.8"]);
  ("OIBQ", ["5922,148,9,134.5,17,314.5"]);
  ("OIBS", ["8345,175,42,127.7,12,307.7"]);
  ("OIBV", ["6815,148,73,111.4,73,291.4"]);
  ("OICC", ["11213,148,4307,116,4307,296"]);
  ("OICI", ["9183,148,4341,142,4396,322"]);
  ("OICK", ["10498,148,3782,113,3782,293"]);
  ("OICS", ["8660,148,4479,18,4522,198"]);
  ("OIFE", ["9830,148,5256,77,5227,257"; "1091,40,,92.1,,272.1"]);
  ("OIFH", ["3215,75,5310,70,5310,250"; "4095,165,,76.1,,256.1"]);
  ("OIFK", ["8845,145,3464,110.7,3465,290.7"]);
  ("OIFM", ["14425,148,5057,77.9,5044,257.9"; "14425,148,5059,77.9,5041,257.9"]);
  ("OIFP", ["10920,140,5242,85,5143,265"; "1467,97,,85.9,,265.9"]);
  ("OIFS", ["10819,148,6723,146.7,6705,326.7"]);
  ("OIGG", ["9571,148,-53,93.8,-40,273.8"]);
  ("OIHH", ["10611,148,5700,104.9,5755,284.9"]);
  ("OIHR", ["9811,148,5437,79.2,5440,259.2"]);
  ("OIHS", ["12915,148,5609,59.1,5540,239.1"; "14625,148,5565,130,5490,310"; "14300,148,5546,129.7,5484,309.7"]);
  ("OIIA", ["4579,75,3800,101.8,3800,281.8"]);
  ("OIIC", ["10607,148,3008,112.2,2854,292.2"]);
  ("OIID", ["7550,148,3915,47.2,4046,227.2"]);
  ("OIIE", ["13772,148,3305,109,3256,289"; "13940,148,3305,108.8,3257,288.8"]);
  ("OIIG", ["6000,120,3627,93.8,3617,273.8"]);
  ("OIII", ["1554,130,,89,,269"; "13098,148,3962,109,3797,289"; "13248,197,3949,109,3794,289"]);
  ("OIIK", ["3670,131,4184,99.9,4172,279.9"]);
  ("OIIM", ["3630,65,,139,,319"]);
  ("OIIP", ["12005,197,4164,128,4163,308"]);
  ("OIKB", ["11341,98,15,27.8,22,207.8"; "12008,148,14,27.8,22,207.8"]);
  ("OIKJ", ["7236,98,2663,128.7,2571,308.7"]);
  ("OIKK", ["6657,148,5740,53.3,5741,233.3"; "12620,148,5731,158.3,5738,338.3"]);
  ("OIKM", ["11107,148,3231,122.6,3131,302.6"]);
  ("OIKP", ["8525,115,16,78.8,19,258.8"]);
  ("OIKQ", ["13864,148,14,49.5,45,229.5"]);
  ("OIKR", ["9814,148,5258,112,5298,292"]);
  ("OIKY", ["12356,148,5807,132,5846,312"]);
  ("OIMB", ["7093,82,4870,78.7,4947,258.7"; "9521,148,4917,98.7,4952,278.7"]);
  ("OIMC", ["13076,148,945,145.2,945,325.2"]);
  ("OIMJ", ["9157,148,4219,71.1,4219,251.1"]);
  ("OIMM", ["12503,148,3226,133.6,3257,313.6"; "12877,148,3231,133.6,3263,313.6"]);
  ("OIMN", ["10582,148,3499,70.3,3453,250.3"]);
  ("OIMS", ["10428,148,2975,94.8,2998,274.8"]);
  ("OIMT", ["9977,148,2310,152.2,2312,332.2"]);
  ("OINE", ["7277,92,500,104.9,500,284.9"]);
  ("OING", ["7540,148,-50,133.9,-25,313.9"]);
  ("OINJ", ["3235,98,,78.6,,258.6"]);
  ("OINN", ["6182,115,-61,108.6,-71,288.6"]);
  ("OINR", ["4920,148,-70,130.3,-70,310.3"]);
  ("OINZ", ["8688,148,4,161,35,341"]);
  ("OISF", ["6502,100,4261,140,4261,320"]);
  ("OISJ", ["7899,98,3349,82,3358,262"]);
  ("OISL", ["10334,148,2641,89.1,2623,269.1"]);
  ("OISR", ["10020,148,1345,113.9,1345,293.9"]);
  ("OISS", ["14345,148,4910,114.4,4862,294.4"; "14051,148,4920,114.3,4864,294.3"]);
  ("OISY", ["8522,148,5841,132.5,5939,312.5"]);
  ("OITK", ["9190,98,3843,157,3981,337"]);
  ("OITL", ["10823,148,4305,149.9,4315,329.9"]);
  ("OITM", ["9614,98,4310,85,4310,265"]);
  ("OITP", ["8515,115,251,110.7,251,290.7"]);
  ("OITR", ["10658,148,4343,33,4274,213"]);
  ("OITT", ["11825,148,4449,128.9,4459,308.9"; "11537,98,4448,128.9,4458,308.9"]);
  ("OITZ", ["9840,148,5316,126.5,5382,306.5"]);
  ("OIYY", ["13446,148,3984,133,4054,313"]);
  ("OIZB", ["9848,148,1628,167,1628,347"]);
  ("OIZC", ["12514,150,22,90.9,24,270.9"; "9844,150,24,90.9,24,270.9"]);
  ("OIZH", ["13993,148,4536,173,4564,353"; "13949,98,4475,172.9,4517,352.9"]);
  ("OIZI", ["7711,150,2037,170.9,1980,350.9"]);
  ("OIZS", ["7103,98,3928,132.7,3930,312.7"]);
  ("OJ38", ["4146,80,,105.8,,285.8"]);
  ("OJ40", ["9015,148,,80,,260"; "9777,148,,131.1,,311.1"]);
  ("OJAI", ["12008,200,2360,81.4,2395,261.4"; "12008,200,2357,81.4,2365,261.4"]);
  ("OJAM", ["10745,148,2555,65,2458,245"]);
  ("OJAQ", ["9855,148,175,19,113,199"]);
  ("OJHF", ["9802,140,2220,131,2175,311"]);
  ("OJHR", ["8215,98,,102,,282"]);
  ("OJJR", ["6447,148,2485,116,2464,296"]);
  ("OJMF", ["9819,148,,130.4,,310.4"]);
  ("OK00", ["1123,60"]);
  ("OK01", ["4400,75"]);
  ("OK02", ["2700,75"]);
  ("OK03", ["3240,85,,159.2,,339.2"]);
  ("OK04", ["3000,40"]);
  ("OK06", ["2840,50"]);
  ("OK07", ["2600,165"]);
  ("OK08", ["4000,200"]);
  ("OK09", ["40,40"]);
  ("OK10", ["2600,100"]);
  ("OK11", ["3000,100,,174.9,,354.9"]);
  ("OK12", ["2130,75"]);
  ("OK13", ["2100,100"]);
  ("OK14", ["1000,40,,176.5,,356.5"]);
  ("OK15", ["2600,100"]);
  ("OK16", ["2211,65,,173.3,,353.3"]);
  ("OK17", ["1400,50"]);
  ("OK18", ["1700,50"]);
  ("OK19", ["50,50"]);
  ("OK20", ["2500,100"]);
  ("OK21", ["1900,200"]);
  ("OK22", ["1700,100,,170,,350"; "1700,100"]);
  ("OK23", ["1100,55"]);
  ("OK24", ["2100,55"]);
  ("OK25", ["1700,50"]);
  ("OK26", ["100,75"]);
  ("OK27", ["2000,60"]);
  ("OK28", ["3500,100"]);
  ("OK29", ["1750,60"; "2300,60"]);
  ("OK30", ["3000,150"]);
  ("OK31", ["2000,50"]);
  ("OK32", ["30,24"]);
  ("OK33", ["50,50"]);
  ("OK34", ["2400,80"]);
  ("OK35", ["50,48"]);
  ("OK37", ["2000,25"]);
  ("OK38", ["40,40"]);
  ("OK39", ["3100,60"; "2600,40"; "1900,30"]);
  ("OK41", ["50,50"]);
  ("OK43", ["1350,75"]);
  ("OK45", ["30,30"]);
  ("OK46", ["1500,100"]);
  ("OK47", ["1300,50"]);
  ("OK48", ["2640,105"]);
  ("OK49", ["1900,75"]);
  ("OK50", ["2500,100"]);
  ("OK51", ["2565,10"]);
  ("OK54", ["1500,75"; "2000,60"]);
  ("OK55", ["2300,50"]);
  ("OK56", ["1100,50"]);
  ("OK58", ["2400,50"; "2400,50"]);
  ("OK59", ["2400,50"]);
  ("OK62", ["2600,60"]);
  ("OK63", ["1994,60,1268,177,1283,357"]);
  ("OK64", ["2100,150"]);
  ("OK65", ["20,20"]);
  ("OK66", ["4600,100"]);
  ("OK71", ["2530,55"]);
  ("OK74", ["2200,45"]);
  ("OK75", ["60,60"]);
  ("OK76", ["60,60"]);
  ("OK77", ["1800,60"]);
  ("OK79", ["2600,30"]);
  ("OK80", ["3500,250"]);
  ("OK82", ["2200,30"]);
  ("OK83", ["1800,25"]);
  ("OK84", ["80,80"]);
  ("OK85", ["3000,25"]);
  ("OK86", ["80,80"]);
  ("OK88", ["1357,200"]);
  ("OK90", ["2400,30"]);
  ("OK92", ["30,30"]);
  ("OK93", ["2650,230"]);
  ("OK94", ["2400,130"]);
  ("OK95", ["3000,150"]);
  ("OK96", ["2000,40"]);
  ("OK97", ["2600,100"]);
  ("OK98", ["2000,50"]);
  ("OK99", ["30,30"]);
  ("OKAS", ["9805,132,472,120.2,472,300.2"; "9805,146,447,120,472,300"]);
  ("OKBK", ["11483,148,161,155,206,335"; "11155,148,134,155,170,335"]);
  ("OKDI", ["5215,80,425,181.4,430,1.4"]);
  ("OKV", ["1969,98"]);
  ("OL00", ["60,60"]);
  ("OL02", ["2560,30"]);
  ("OL03", ["2264,25"]);
  ("OL04", ["1840,70"]);
  ("OL05", ["2900,32"]);
  ("OL06", ["30,30"]);
  ("OL07", ["75,75"]);
  ("OL08", ["50,50"]);
  ("OL09", ["2300,30"]);
  ("OL11", ["33,33"]);
  ("OL12", ["2000,30"]);
  ("OL14", ["60,60"]);
  ("OL15", ["30,30"]);
  ("OL16", ["42,42"]);
  ("OL17", ["75,75"]);
  ("OL19", ["2000,50"]);
  ("OL20", ["2000,100"; "3000,100"]);
  ("OL23", ["2000,100"]);
  ("OL92", ["4500,60"]);
  ("OL99", ["840,60"]);
  ("OLBA", ["12467,148,47,32.9,39,212.9"; "11138,148,12,165.8,48,345.8"; "10663,197,85,177,36,357"]);
  ("OLKA", ["9843,148,23,62,23,242"]);
  ("OLQ", ["2018,147"]);
  ("OLRA", ["9740,148,,46.3,,226.3"]);
  ("OM-0003", [",,,45,,225"]);
  ("OM11", ["7080,200,,130.9,,310.9"]);
  ("OMAA", ["13452,197,62,128,72,308"; "13452,148,82,128,88,308"]);
  ("OMAD", ["10499,150,10,128.1,10,308.2"]);
  ("OMAH", ["8205,148,,170,,350"]);
  ("OMAJ", ["7218,151,,134,,314"]);
  ("OMAL", ["13123,148,869,7,842,187"]);
  ("OMAM", [",,76,,76"; "12012,150,77,127,67,307"; "12012,150,60,127,60,307"]);
  ("OMAR", ["3438,72,,131,,311"]);
  ("OMAS", ["3537,98,,147,,327"]);
  ("OMAZ", ["3937,98,10,133,10,313"]);
  ("OMDB", ["13124,197,13,122,34,302"; "13124,151,13,121,34,301"]);
  ("OMDM", ["12970,148,,89,,269"]);
  ("OMDW", ["14764,197,114,120,170,300"]);
  ("OMFJ", ["12303,148,134,112.4,49,292.4"]);
  ("OMRK", ["12336,148,72,164.8,102,344.8"]);
  ("OMRS", ["2625,49,,153,,333"]);
  ("OMSJ", ["13320,148,92,122,111,302"]);
  ("OMU9", ["1900,75"]);
  ("ONB", ["1640,98"]);
  ("OO42", ["4928,100,,157.9,,337.9"]);
  ("OOH", ["9000,5000"]);
  ("OOKB", ["8202,75,,13.9,,193.9"]);
  ("OOMA", ["8446,148,44,66.7,64,246.7"; "10005,148,40,166.8,64,346.8"]);
  ("OOMS", ["13123,,,85,,265"; "11759,148,48,85,26,265"]);
  ("OOMX", ["5782,175,,64.6,,244.6"; "8635,190,,136.2,,316.2"]);
  ("OOSA", ["10965,148,63,71,72,251"; "4196,59,70,174.1,38,354.1"]);
  ("OOTH", ["13123,148,1489,173,1542,353"]);
  ("OP10", ["4833,85,,120.3,,300.3"]);
  ("OP11", ["2713,100,,100.2,,280.2"]);
  ("OP12", ["9120,99,,38.7,,218.7"]);
  ("OP13", ["7875,205,,77.5,,257.5"]);
  ("OP14", ["4910,50,,23.7,,203.7"]);
  ("OP15", ["2830,90,,161.7,,341.7"]);
  ("OP16", ["3935,65,,57.6,,237.6"]);
  ("OP17", ["5243,75,,167.3,,347.3"]);
  ("OP18", ["3405,80,,173,,353"]);
  ("OP19", ["3500,50,,60.8,,240.8"]);
  ("OP1A", ["5470,98,398,171,420,351"]);
  ("OP1Y", ["9000,75,,50,,230"]);
  ("OP21", ["10283,149,,168,,348"]);
  ("OP22", ["10000,150,,24.9,,204.9"]);
  ("OP23", ["4525,148,,21,,201"]);
  ("OP24", ["2903,81,,27,,207"]);
  ("OP25", ["3028,33,,125,,305"]);
  ("OP26", ["3552,40,,163,,343"]);
  ("OP27", ["6256,148,,50.1,,230.1"; "2322,85,,150.1,,330.1"]);
  ("OP28", ["8100,60,,151,,331"]);
  ("OP31", ["3876,72,,29.4,,209.4"]);
  ("OP32", ["3000,65,,66,,246"]);
  ("OP33", ["3862,80,,61,,241"]);
  ("OP34", ["3722,90,,173,,353"]);
  ("OP35", ["5015,100,,181,,1"]);
  ("OP36", ["4945,160,,18.8,,198.8"; "4464,128,,75.4,,255.4"]);
  ("OP37", ["6015,150,,140,,320"]);
  ("OPBG", ["8970,90,,70,,250"; "5020,150,,163,,343"]);
  ("OPBN", ["6001,,1343,,1283"]);
  ("OPBW", ["9345,98,392,78.9,391,258.9"]);
  ("OPCH", ["5741,98,4874,27,4920,207"]);
  ("OPDG", ["6499,98,492,180.8,469,0.8"]);
  ("OPDI", ["5000,75,594,118.8,590,298.8"]);
  ("OPFA", ["9272,151,587,36.2,591,216.2"]);
  ("OPGD", ["4960,75,96,63,96,243"]);
  ("OPGT", ["5400,98,4794,72,4796,252"; "983,49,,90,,270"]);
  ("OPJA", ["10040,148,186,147,191,327"; "10081,80,,147.3,,327.3"]);
  ("OPJI", ["5850,,180,,186"]);
  ("OPKC", ["10500,151,77,74.5,100,254.5"; "11155,151,71,74.3,89,254.3"]);
  ("OPKH", ["6001,,3967,,3935"]);
  ("OPKN", ["2945,93,,161,,341"]);
  ("OPLA", ["11024,151,712,181,707,1"; "9000,151,710,181,705,1"]);
  ("OPLH", ["4390,150,699,137,700,317"]);
  ("OPMA", ["5000,100,952,135.9,944,315.9"]);
  ("OPMF", ["2960,75,2669,132,2691,312"]);
  ("OPMI", ["10348,97,,61.1,,241.1"; "10161,156,,61.1,,241.1"]);
  ("OPMJ", ["6512,98,154,77,152,257"]);
  ("OPMR", ["8622,120,35,45,35,225"; "9022,200,35,89.9,35,269.9"]);
  ("OPMS", ["9950,165,,121,,301"]);
  ("OPMT", ["9046,98,402,183.3,402,3.3"]);
  ("OPNH", ["8999,150,94,21,94,201"]);
  ("OPNK", ["2855,80,,28,,208"]);
  ("OPOK", ["10995,80,,180.1,,0.1"]);
  ("OPOR", ["5000,,9,,2"]);
  ("OPPC", ["3999,,5788,,5629"]);
  ("OPPG", ["5000,75,3260,131.9,3289,311.9"]);
  ("OPPI", ["8999,151,12,58.4,12,238.4"]);
  ("OPPS", ["9000,150,1171,175.9,1211,355.9"]);
  ("OPQS", ["6693,148,1644,142.7,1606,322.7"]);
  ("OPQT", ["12000,150,5194,136,5267,316"; "11970,100,,136.3,,316.3"]);
  ("OPRK", ["9842,148,264,14.6,271,194.6"]);
  ("OPRN", ["10785,150,1659,118.2,1657,298.2"]);
  ("OPRS", ["5840,164,1050,92,1050,272"; "9085,164,1050,92,1050,272"]);
  ("OPRT", ["2958,75,5397,13,5478,193"]);
  ("OPSD", ["11944,100,7256,147,7301,327"; "6501,101,7305,152.6,7315,332.6"]);
  ("OPSF", ["8060,150,,79,,259"]);
  ("OPSK", ["9000,98,196,140.5,192,320.5"]);
  ("OPSS", ["5745,151,3121,52,3121,232"]);
  ("OPST", ["11811,150"]);
  ("OPSU", ["4975,150,,6.3,,186.3"; "6000,100,,6.3,,186.3"]);
  ("OPTH", ["8968,75,,60.7,,240.7"]);
  ("OPTU", ["6000,100,483,83.1,498,263.1"]);
  ("OPWN", ["2993,100,,91.6,,271.6"]);
  ("OPZB", ["6001,98,4645,100,4729,280"]);
  ("OR00", ["1700,20"]);
  ("OR02", ["2500,25"]);
  ("OR03", ["70,70"]);
  ("OR04", ["2300,130"]);
  ("OR05", ["2125,40"]);
  ("OR06", ["2300,60"]);
  ("OR07", ["4400,60,,148,,328"]);
  ("OR08", ["2200,75"]);
  ("OR09", ["3025,94"; "3247,94"]);
  ("OR10", ["5000,50,,197,,17"]);
  ("OR11", ["1500,50"]);
  ("OR12", ["2900,50"]);
  ("OR13", ["1650,30"]);
  ("OR14", ["1500,30"]);
  ("OR15", ["24,24"]);
  ("OR16", ["2640,50"]);
  ("OR17", ["3100,30,,166,3820,346"]);
  ("OR18", ["20,15"]);
  ("OR19", ["1900,25"]);
  ("OR20", ["1250,50"]);
  ("OR21", ["1700,35"]);
  ("OR22", ["1700,60"]);
  ("OR23", ["1900,75"]);
  ("OR24", ["1550,60"]);
  ("OR25", ["2300,45"]);
  ("OR26", ["2800,40"]);
  ("OR27", ["1600,50"]);
  ("OR28", ["2100,100"]);
  ("OR29", ["3375,40,,187,,7"]);
  ("OR30", ["2100,60"]);
  ("OR32", ["4000,32"]);
  ("OR33", ["100,100"]);
  ("OR34", ["2450,60"]);
  ("OR35", ["1450,100"]);
  ("OR36", ["100,100"]);
  ("OR37", ["20,20"]);
  ("OR38", ["2290,75"]);
  ("OR39", ["1600,40"]);
  ("OR40", ["2640,60"]);
  ("OR41", ["2240,100"]);
  ("OR42", ["2200,30"]);
  ("OR43", ["40,40"]);
  ("OR44", ["1500,70"]);
  ("OR45", ["1100,60"]);
  ("OR46", ["2500,50"]);
  ("OR47", ["1600,70"]);
  ("OR48", ["2860,50"]);
  ("OR49", ["62,62"]);
  ("OR50", ["2300,25"]);
  ("OR51", ["2900,30"]);
  ("OR52", ["2350,50"]);
  ("OR53", ["2400,88"]);
  ("OR54", ["2300,60"]);
  ("OR55", ["75,75"]);
  ("OR56", ["1470,40"]);
  ("OR57", ["1743,80"]);
  ("OR59", ["1300,40"]);
  ("OR60", ["2400,60"]);
  ("OR61", ["2470,60"]);
  ("OR63", ["50,50"]);
  ("OR64", ["2800,50"]);
  ("OR65", ["2500,80"]);
  ("OR66", ["1700,75"]);
  ("OR68", ["100,50"]);
  ("OR69", ["53,53"]);
  ("OR70", ["2000,80"]);
  ("OR71", ["25,25"]);
  ("OR72", ["1300,150"]);
  ("OR73", ["1627,120"]);
  ("OR74", ["900,30"]);
  ("OR75", ["100,60"]);
  ("OR77", ["2200,50"]);
  ("OR78", ["3000,40"]);
  ("OR79", ["1600,50"]);
  ("OR81", ["2000,80"]);
  ("OR82", ["70,70"]);
  ("OR83", ["100,100"]);
  ("OR86", ["2500,60"]);
  ("OR87", ["1345,45"]);
  ("OR88", ["21,21"]);
  ("OR89", ["3600,100"]);
  ("OR90", ["2700,70"]);
  ("OR91", ["50,50"]);
  ("OR92", ["500,80"]);
  ("OR93", ["40,40"]);
  ("OR94", ["2050,35"]);
  ("OR95", ["1800,60"]);
  ("OR96", ["3000,130"]);
  ("OR97", ["2500,75"]);
  ("OR98", ["2250,50"]);
  ("OR99", ["70,70"]);
  ("ORAA", ["10125,338,,88.6,,268.6"; "13124,197,595,88.5,557,268.5"; "13123,148,618,88.5,577,268.5"]);
  ("ORAT", ["12087,150,270,119.3,262,299.3"; "13186,200,275,119.4,272,299.4"]);
  ("ORBD", ["11495,149,157,125.7,160,305.7"; "11490,197,159,145.7,160,325.7"]);
  ("ORBI", ["13124,197,113,150,110,330"; "10830,148,114,150,113,330"]);
  ("ORBM", ["8695,147,709,158,705,338"]);
  ("ORBR", ["7333,150,2010,138.9,2079,318.9"]);
  ("ORER", ["9197,95,1282,151.7,1310,331.7"; "4085,105,1341,151.7,1329,331.7"; ",,1401,,1407"; "13890,225,,180.4,,0.4"]);
  ("ORI", ["2200,75"]);
  ("ORKK", ["9809,148,1033,133.3,1059,313.3"; "8535,160,1050,145.3,1061,325.3"]);
  ("ORMM", ["13124,148,10,137.9,10,317.9"]);
  ("ORNI", ["9843,148,103,97,103,277"]);
  ("ORQW", ["11486,197,747,152.5,746,332.5"; "12088,98,734,163.5,744,343.5"]);
  ("ORSH", ["7341,165,438,142.4,427,322.4"; "10225,150,450,142.5,432,322.5"]);
  ("ORSU", ["11481,148,2492,132.9,2440,312.9"]);
  ("ORTF", ["9842,147,996,138.5,971,318.5"]);
  ("ORTI", ["5770,164,121,160.7,121,340.7"]);
  ("ORTL", ["10935,148,19,118.4,20,298.4"; "9991,148,19,118.5,19,298.5"]);
  ("ORUB", ["10174,148,68,109,61,289"; "11666,148,67,108.6,61,288.6"]);
  ("OS57", ["9810,135,,92.6,,272.6"]);
  ("OS58", ["9130,150,,99,,279"]);
  ("OS59", ["9842,131,,93,,273"]);
  ("OS60", ["9868,98,,56,,236"; "9868,150,,56,,236"]);
  ("OS61", ["10335,147,,64.3,,244.4"; "7756,165,,64,,244"]);
  ("OS62", ["10180,130,,100,,280"]);
  ("OS63", ["9820,150,,62.8,,242.8"; "9189,97,,62.8,,242.8"]);
  ("OS64", ["9842,144,,44,,224"]);
  ("OS65", ["9850,148,,111,,291"]);
  ("OS66", ["8305,150,,100,,280"]);
  ("OS67", ["9120,148,2407,60,2346,240"]);
  ("OS68", ["8209,148,,59,,239"; "9820,148,,89.4,,269.4"]);
  ("OS69", ["9995,148,,74.9,,254.9"; "9190,98,,149.9,,329.9"]);
  ("OS70", ["10000,148,,100.5,,280.5"]);
  ("OS71", ["4020,145,,41,,221"; "4935,130,,101,,281"]);
  ("OS72", ["10520,150,,89,,269"; "10115,170,,89.5,,269.5"; "8830,180,,176.4,,356.4"]);
  ("OS73", ["4275,95,,41,,221"]);
  ("OSAP", ["9547,148,1276,97.3,1257,277.3"]);
  ("OSDI", ["9843,148,2002,48,1995,228"; "11811,148,2020,48,2002,228"]);
  ("OSDZ", [",,700,,669"; "9843,148,,110,,290"; "11000,148,,109,,289"]);
  ("OSE", ["1640,98"]);
  ("OSG", ["2297,98"]);
  ("OSKL", ["11860,150,1379,39,1482,219"]);
  ("OSLK", ["9175,148,157,177,128,357"]);
  ("OSPR", ["9449,148,1322,83,1270,263"]);
  ("OTBD", ["15000,151,35,158.2,25,338.2"]);
  ("OTBH", ["12303,148,130,158,125,338"]);
  ("OTBK", ["5249,98,10,140.1,10,320.1"]);
  ("OTY", ["1970"]);
  ("OY74", ["9250,144,,72.1,,252.1"]);
  ("OY75", ["8460,110,,162.1,,342.1"]);
  ("OYAA", ["10171,148,7,77,7,257"]);
  ("OYAB", ["8202"]);
  ("OYAT", ["9482,164,3682,135.1,3735,315.1"]);
  ("OYBA", ["9962,148,,59,,239"]);
  ("OYBN", ["5480,75,,173,,353"]);
  ("OYGD", ["8858,148,134,81.9,120,262"]);
  ("OYHD", ["9843,148,29,26.4,41,206.4"]);
  ("OYKM", ["5906,,51,,51"]);
  ("OYMB", ["9843,,3300,,3300"]);
  ("OYRN", ["9846,148,49,62,46,242"]);
  ("OYSH", ["11483,,5940,,5940"]);
  ("OYSN", ["10669,148,7165,179.6,7216,359.6"]);
  ("OYSQ", ["10827,148,146,26,30,206"]);
  ("OYSY", ["9843,120,2097,68.5,2087,248.5"]);
  ("OYTZ", ["10040,148,4709,8,4838,188"]);
  ("OYZM", ["8186,,3200,,3200"]);
  ("P09", ["2850,75"]);
  ("P15", ["2660,100,1230,,1225"]);
  ("P18", ["600,400"]);
  ("P27", ["2050,60,254,,256"]);
  ("P32", ["1900,100"]);
  ("P34", ["2627,50,540,,540"]);
  ("P37", ["2425,160"; "2900,132"]);
  ("P45", ["2188,161"; "1600,220"]);
  ("P48", ["4200,100"; "4200,100"; "4200,100"; "2400,100"]);
  ("P72", ["68,68"]);
  ("P91", ["2370,100"]);
  ("P96", ["3060,130"]);
  ("P97", ["2450,75"]);
  ("P98", ["60,60"]);
  ("P99", ["74,74"]);
  ("PA-MRF", ["2300"]);
  ("PA01", ["1815,120"]);
  ("PA02", ["1345,104"]);
  ("PA03", ["65,65"]);
  ("PA04", ["65,65"]);
  ("PA05", ["1200,60"]);
  ("PA07", ["1800,95"]);
  ("PA08", ["1750,150"]);
  ("PA09", ["100,100"]);
  ("PA10", ["32,32"]);
  ("PA11", ["60,60"]);
  ("PA12", ["30,30"]);
  ("PA13", ["70,70"]);
  ("PA14", ["50,50"]);
  ("PA15", ["3000,200"])].

(* ADRpy/data/runways.csv *)
Definition airports_24 : list (string * list string) := [
  ("PA16", ["48,48"]);
  ("PA17", ["1600,50"]);
  ("PA18", ["2000,100"]);
  ("PA19", ["500,100"]);
  ("PA20", ["1200,100"]);
  ("PA21", ["2300,220"]);
  ("PA22", ["2110,65"]);
  ("PA23", ["2060,100"]);
  ("PA24", ["75,75"]);
  ("PA25", ["1200,100"]);
  ("PA26", ["500,400"]);
  ("PA27", ["35,35"]);
  ("PA28", ["39,39"]);
  ("PA29", ["65,65"]);
  ("PA30", ["1320,300"; "1340,150"; "1250,100"]);
  ("PA31", ["2150,100"]);
  ("PA32", ["75,75"]);
  ("PA33", ["1430,100"]);
  ("PA34", ["30,30"]);
  ("PA35", ["2200,50"]);
  ("PA36", ["1500,100"]);
  ("PA37", ["65,65"]);
  ("PA38", ["360,200"]);
  ("PA39", ["4500,100,,115.1,,295.1"]);
  ("PA40", ["2200,150"]);
  ("PA41", ["65,65"]);
  ("PA42", ["200,200"]);
  ("PA43", ["1700,100"]);
  ("PA44", ["1700,120"]);
  ("PA45", ["1400,100"]);
  ("PA46", ["80,80"]);
  ("PA47", ["2020,100"]);
  ("PA48", ["50,50"]);
  ("PA49", ["2230,50"]);
  ("PA50", ["65,65"]);
  ("PA51", ["2100,100"]);
  ("PA52", ["1700,100"]);
  ("PA53", ["1600,200"]);
  ("PA54", ["2555,100"]);
  ("PA55", ["1400,200"]);
  ("PA56", ["60,60"]);
  ("PA57", ["65,65"]);
  ("PA58", ["1800,100"]);
  ("PA59", ["60,60"]);
  ("PA60", ["60,60"]);
  ("PA61", ["1350,50"]);
  ("PA62", ["38,38"]);
  ("PA63", ["65,65"]);
  ("PA65", ["1200,50"]);
  ("PA66", ["1800,150"]);
  ("PA67", ["75,75"]);
  ("PA68", ["3000,100"]);
  ("PA69", ["1200,100"]);
  ("PA70", ["1820,100"]);
  ("PA71", ["1990,90"]);
  ("PA72", ["2200,100"]);
  ("PA73", ["1400,100"]);
  ("PA74", ["2200,100"]);
  ("PA75", ["1600,150"]);
  ("PA76", ["1300,100"; "1800,100"]);
  ("PA77", ["2000,125"]);
  ("PA78", ["1800,120"]);
  ("PA79", ["525,285"]);
  ("PA80", ["40,40"]);
  ("PA81", ["2300,100"]);
  ("PA82", ["2200,100"]);
  ("PA83", ["35,35"]);
  ("PA84", ["2300,100"]);
  ("PA85", ["1350,100"]);
  ("PA86", ["1500,100"]);
  ("PA87", ["100,100"]);
  ("PA88", ["3980,50,,45,,225"]);
  ("PA89", ["1095,100"]);
  ("PA90", ["7500,350"]);
  ("PA91", ["65,60"]);
  ("PA92", ["2850,110"]);
  ("PA93", ["60,60"]);
  ("PA94", ["65,65"]);
  ("PA95", ["40,40"]);
  ("PA97", ["40,40"]);
  ("PA98", ["60,60"]);
  ("PA99", ["65,65"]);
  ("PAAK", ["4500,100,56,165,46,345"]);
  ("PAAL", ["3500,100"]);
  ("PAAM", ["3500,100"]);
  ("PAAN", ["2558,100"]);
  ("PAAP", ["3000,300"]);
  ("PAAQ", ["3617,75,230,113,220,293"; "6008,100,240,180,215,360"; "1560,60,,179.8,,359.8"]);
  ("PAAT", ["5800,150,26,18,40,198"]);
  ("PABA", ["4820,100,2,93,0,273"]);
  ("PABE", ["6400,150,125,23,100,203"; "4000,75,117,23,112,203"; "1860,75,123,128,124,308"]);
  ("PABG", ["2400,60"; "5000,100,87,,87"]);
  ("PABI", ["9000,150,1291,30,1225,210"; "4679,164,1272,92,1262,272"; "6115,150,1254,125,1262,305"]);
  ("PABL", ["3200,75,29,122,31,302"]);
  ("PABM", ["4200,145,,91,,271"]);
  ("PABP", ["5100,75"]);
  ("PABR", ["6500,150,44,90,29,270"]);
  ("PABT", ["5190,150,631,32.3,643,212.3"]);
  ("PABU", ["3520,100"]);
  ("PABV", ["3931,100,96,39,81,219"; "2200,50,,24,,204"]);
  ("PACD", ["4235,150,93,95,96,275"; "10415,150,69,158,89,338"]);
  ("PACE", ["2782,60,937,,916"]);
  ("PACI", ["4000,90,524,53,544,233"]);
  ("PACK", ["2500,28"]);
  ("PACL", ["4000,100,552,34,536,214"]);
  ("PACM", ["10000,500"; "3000,75,14,113,14,293"]);
  ("PACR", ["2979,60,610,,613"]);
  ("PACS", ["1900,90"; "3500,120"]);
  ("PACV", ["7500,150,36,114.2,37,294.2"; "1899,30,46,180.7,35,0.7"]);
  ("PACX", ["4000,100,1030,32,1042,212"]);
  ("PACY", ["4350,75"]);
  ("PACZ", ["3990,135,367,37,457,217"]);
  ("PADE", ["3300,75,14,37.9,11,217.9"; "2640,75,21,126.5,12,306.5"]);
  ("PADG", ["6312,100,967,42,969,222"]);
  ("PADK", ["7790,200,17,61,15,241"; "7605,200,6,185,4,5"]);
  ("PADL", ["6400,150,68,26.5,58,206.5"]);
  ("PADM", ["3201,100,70,85,103,265"]);
  ("PADQ", ["7542,150,68,92,15,272"; "5399,150,32,127,25,307"; "5013,150,15,202.3,30,22.3"]);
  ("PADU", ["3900,100,22,135.6,13,315.6"]);
  ("PADY", ["1885,35,28,201,30,21"]);
  ("PAED", ["10000,200,174,80,201,260"; "7500,150,212,180,185,360"]);
  ("PAEE", ["3243,60,11,189,10,9"]);
  ("PAEG", ["3600,75,901,,908"]);
  ("PAEH", ["3950,150,230,162,541,342"]);
  ("PAEI", ["14530,150,534,159,547,339"]);
  ("PAEL", ["10000,1500"]);
  ("PAEM", ["4601,100,6,176.7,6,356.7"]);
  ("PAEN", ["7576,150,89,31,97,211"; "2000,60,,31,,211"; "4600,252"]);
  ("PAEW", ["2202,35,9,151,18,331"]);
  ("PAFA", ["2900,75,433,38,434,218"; "11800,150,431,38,434,218"; "6501,100,433,38,433,218"; "5400,100,423,38,423,218"]);
  ("PAFB", ["8575,150,448,89,454,269"]);
  ("PAFE", ["4000,100,150,130,172,310"]);
  ("PAFK", ["5000,500"]);
  ("PAFL", ["1200,12"]);
  ("PAFM", ["2400,60,334,112,310,292"; "3000,60,310,202,292,22"]);
  ("PAFR", ["4175,100"]);
  ("PAFS", ["4003,75,441,63,441,243"]);
  ("PAFV", ["2700,75"]);
  ("PAFW", ["4970,35,1535,,1535"]);
  ("PAGA", ["2786,80,146,90,148,270"; "7254,150,147,90,152,270"]);
  ("PAGB", ["5182,150,2663,152,2655,332"]);
  ("PAGG", ["2510,60,13,165,18,345"]);
  ("PAGH", ["4000,60,166,117,197,297"]);
  ("PAGK", ["5001,100,1586,171,1546,351"]);
  ("PAGL", ["4000,75,59,36,37,216"]);
  ("PAGM", ["4501,96,27,172,26,352"]);
  ("PAGN", ["10000,900"]);
  ("PAGQ", ["2435,70,155,90,151,270"]);
  ("PAGS", ["3010,60,28,41,30,221"; "6720,150,34,135,26,315"]);
  ("PAGT", ["1600,50,4,,4"]);
  ("PAGY", ["3550,75,19,44,44,224"]);
  ("PAHC", ["4000,100,68,31,70,211"]);
  ("PAHL", ["4000,75,208,51.1,202,231.1"]);
  ("PAHN", ["4000,100,15,110,12,290"]);
  ("PAHO", ["6701,150,64,55,68,235"]);
  ("PAHP", ["3300,75,4,148.6,4,328.6"]);
  ("PAHU", ["3380,100,299,193,297,13"]);
  ("PAHV", ["2912,60,1257,,1275"]);
  ("PAHX", ["3400,50,78,179,78,359"; "5000,1000"]);
  ("PAHY", ["5000,2000"]);
  ("PAI", ["568,410"]);
  ("PAIG", ["3000,75,90,72,73,252"]);
  ("PAII", ["1500,75,80,49.7,79,229.7"; "5600,100,81,140,92,320"]);
  ("PAIK", ["3400,100,166,82,141,262"]);
  ("PAIL", ["5087,100,186,92,167,272"; "4800,100,177,189,172,9"; "2998,400,170,277,170,97"; "2892,400,170,198,170,18"]);
  ("PAIM", ["4100,120,1220,83,1036,263"]);
  ("PAIN", ["3000,68"]);
  ("PAIW", ["4000,75,18,189,17,9"]);
  ("PAJC", ["2600,60,17,,12"]);
  ("PAJN", ["8457,150,21,105,20,285"; "4900,450"]);
  ("PAJV", ["1450,90"]);
  ("PAJZ", ["3000,75,235,106,269,286"]);
  ("PAKD", ["2475,40"]);
  ("PAKF", ["2100,75"]);
  ("PAKH", ["3120,50,44,62,39,242"]);
  ("PAKI", ["2120,35,10,166,8,346"]);
  ("PAKK", ["3000,60,152,24,145,204"]);
  ("PAKL", ["4350,110"; "5000,5000"]);
  ("PAKN", ["8901,150,60,132,73,312"; "4018,100,50,196.3,44,16.3"; "4000,500"]);
  ("PAKO", ["3512,135,46,90,75,270"]);
  ("PAKP", ["4800,100,2048,38,2102,218"]);
  ("PAKT", ["7500,150,82,136,89,316"; "9500,1500"]);
  ("PAKU", ["6000,130,60,,67"]);
  ("PAKV", ["3986,100,177,47,177,227"]);
  ("PAKW", ["5000,100,39,35,80,215"]);
  ("PAKY", ["2000,60"]);
  ("PALB", ["2690,75,87,,72"]);
  ("PALG", ["3172,75,52,81,55,261"]);
  ("PALH", ["4540,188"; "1930,200"; "1370,150"]);
  ("PALP", ["5000,100,18,,17"]);
  ("PALR", ["3000,60"]);
  ("PALU", ["4800,135,15,101,16,281"]);
  ("PAMB", ["3300,75,74,40,100,220"]);
  ("PAMC", ["2000,60,341,68,341,248"; "5936,100,336,179,334,359"]);
  ("PAMD", ["4178,115,100,34,100,214"; "1500,125,99,149,97,329"]);
  ("PAMH", ["4200,100,669,45,676,225"]);
  ("PAMK", ["4001,75,91,32,58,212"]);
  ("PAML", ["2875,30"]);
  ("PAMM", ["5000,5000"; "5000,5000"]);
  ("PAMO", ["3500,75,297,32,337,212"]);
  ("PAMR", ["2000,60,130,66.1,136,246.1"; "4000,100,124,90,137,270"; "2640,75,124,180,117,360"]);
  ("PAMX", ["3500,60"]);
  ("PAMY", ["3070,75,48,67,48,247"]);
  ("PANA", ["3248,60,16,175,16,355"]);
  ("PANC", ["10600,150,128,89.9,92,269.9"; "10900,150,130,89.9,100,269.9"; "11584,150,151,165,121,345"]);
  ("PANI", ["3000,400"; "6000,150,88,121,88,301"]);
  ("PANN", ["4600,100,368,59,364,239"; "2520,60,365,59,365,239"; "3601,100,356,56,356,236"]);
  ("PANO", ["2800,75,305,38,314,218"]);
  ("PANR", ["10500,500"]);
  ("PANT", ["5709,150,93,47.1,94,227.1"; "7493,150,119,147.7,85,327.8"]);
  ("PANU", ["4000,100,356,42,399,222"]);
  ("PANV", ["2960,75,297,187,309,7"]);
  ("PANW", ["3281,98,364,153,321,333"]);
  ("PAOB", ["4000,75,135,106,132,286"]);
  ("PAOC", ["1470,60"; "1920,60"]);
  ("PAOH", ["2997,75,15,78,19,258"]);
  ("PAOM", ["5576,150,12,41.7,36,221.7"; "6001,150,16,109.7,21,289.7"]);
  ("PAOO", ["3218,60,59,176.9,37,356.9"]);
  ("PAOR", ["5100,100,1713,76,1713,256"]);
  ("PAOT", ["5900,150,13,102,14,282"; "3800,90,8,194,8,14"]);
  ("PAOU", ["4000,75,14,96,10,276"]);
  ("PAPB", ["5000,150,125,118,119,298"]);
  ("PAPC", ["4500,120"]);
  ("PAPE", ["3300,75,24,35,27,215"]);
  ("PAPG", ["6000,150,105,70.7,101,250.7"]);
  ("PAPH", ["5000,100,90,70,95,250"; "4000,100,76,147,83,327"]);
  ("PAPK", ["3000,60,13,31,13,211"; "15000,2000"]);
  ("PAPM", ["1924,50,15,108,9,288"; "3304,50,11,154,11,334"]);
  ("PAPN", ["3280,75,36,90,57,270"]);
  ("PAPO", ["4000,75,7,22,12,202"]);
  ("PAPR", ["4968,150,1091,32,1088,212"]);
  ("PAQC", ["5000,1000"]);
  ("PAQH", ["4000,75,38,134,38,314"]);
  ("PAQT", ["4343,90,38,70,38,250"]);
  ("PARC", ["4500,75,2077,45,2092,225"]);
  ("PARS", ["3600,100,51,188,51,8"; "3000,500"]);
  ("PARY", ["4000,100,643,51,653,231"]);
  ("PASA", ["4400,100,52,60,50,240"]);
  ("PASC", ["6500,150,64,75,58,255"]);
  ("PASD", ["4000,150,21,149,21,329"]);
  ("PASH", ["5000,70,11,63,12,243"]);
  ("PASI", ["6500,150,19,136,21,316"]);
  ("PASK", ["3002,60,17,53,10,233"; "2659,60,9,106.3,3,286.3"]);
  ("PASL", ["3100,60,190,167,190,347"]);
  ("PASM", ["1900,60,311,77.4,301,257.4"; "6003,150,282,182.4,303,2.4"]);
  ("PASN", ["6500,150,63,190,36,10"]);
  ("PASO", ["1845,60"]);
  ("PASP", ["2270,10"]);
  ("PAST", ["3840,80"]);
  ("PASV", ["4100,150,1573,182,1383,2"]);
  ("PASW", ["3400,75"]);
  ("PASX", ["5000,132,96,90,113,270"]);
  ("PASY", ["10000,150,98,107,87,287"]);
  ("PATA", ["4400,150,223,89,236,269"]);
  ("PATC", ["4700,100,256,175,240,355"]);
  ("PATE", ["3000,60,277,89,294,269"]);
  ("PATG", ["4400,98,21,46,21,226"; "1200,49,,111.2,,291.2"]);
  ("PATK", ["3500,75,355,207,346,27"]);
  ("PATL", ["3800,150,,178.6,,358.6"]);
  ("PATQ", ["4370,90,96,81,94,261"]);
  ("PATW", ["2080,30"]);
  ("PAUK", ["2200,55"]);
  ("PAUM", ["5583,100,264,83,265,263"]);
  ("PAUN", ["2000,80,16,98,9,278"; "6004,150,21,164,16,344"]);
  ("PAUO", ["4400,75,221,154,221,334"]);
  ("PAVA", ["3200,75,35,33,47,213"; "2000,400"]);
  ("PAVC", ["3500,100,153,88,150,268"]);
  ("PAVD", ["6508,150,39,81,118,261"]);
  ("PAVE", ["4000,75,571,62,573,242"]);
  ("PAVL", ["3000,60,11,137,13,317"]);
  ("PAWB", ["3954,75,358,73,359,253"]);
  ("PAWD", ["4240,100,22,143.7,22,323.7"; "2279,75,,173.7,,353.7"]);
  ("PAWG", ["5999,150,27,121.4,44,301.4"]);
  ("PAWI", ["4494,90,37,67,36,247"]);
  ("PAWM", ["3000,60,222,164,267,344"]);
  ("PAWN", ["4000,60,80,22,88,202"]);
  ("PAWR", ["1480,58"]);
  ("PAWS", ["3700,75,336,56,354,236"; "1690,60,346,56,352,236"]);
  ("PAWT", ["3000,100,,69,,249"]);
  ("PAXK", ["1800,13"]);
  ("PAYA", ["6475,150,18,45,30,225"; "7745,150,32,135,19,315"]);
  ("PCIS", ["6230,140,9,101.7,9,281.7"]);
  ("PCK", ["1040,40"]);
  ("PDI", ["2001,98"]);
  ("PEC", ["10000,2000"]);
  ("PFAK", ["3196,75,30,47,30,227"]);
  ("PFAL", ["4000,100,438,73,441,253"]);
  ("PFC", ["1875,30"]);
  ("PFCB", ["3000,75"]);
  ("PFCL", ["3200,60,61,,80"]);
  ("PFEL", ["3401,60,162,,123"]);
  ("PFKA", ["3000,60,28,,48"]);
  ("PFKK", ["3300,75,109,81,111,261"]);
  ("PFKO", ["4422,100,8,32,9,212"]);
  ("PFKT", ["2110,75,34,55,38,235"; "2990,100,37,130,35,310"]);
  ("PFKU", ["4000,75,149,78,149,258"]);
  ("PFKW", ["3198,75,25,,25"]);
  ("PFNO", ["4000,100,43,75,53,255"]);
  ("PFSH", ["4001,75,19,,24"]);
  ("PFTO", ["2509,50,1639,99,1639,279"]);
  ("PFWS", ["2264,60,162,,128"; "3314,60,157,,156"]);
  ("PFYU", ["5810,150,431,60,433,240"]);
  ("PG-0001", ["1991,98"]);
  ("PG-0002", ["1300"]);
  ("PG-0003", ["1969,98"]);
  ("PG-0004", ["1969,98"]);
  ("PG-0005", ["4265,,,100,,280"]);
  ("PG-0010", ["3445,,,136,,316"]);
  ("PG-0012", ["2395,98"]);
  ("PG-0013", ["1348"]);
  ("PG-0014", ["1772,98"]);
  ("PG-0015", ["1706,98"]);
  ("PG-0016", ["2185,98"]);
  ("PG-0017", ["1969,98"]);
  ("PG-0018", ["1654,98"]);
  ("PG-0019", ["1558,98"]);
  ("PG-0020", ["1624,148"]);
  ("PG-0021", ["1785,151"]);
  ("PG-0022", ["1378,98"]);
  ("PG-0023", ["1969,98"]);
  ("PG-0024", ["1969,98"]);
  ("PG-0026", ["1969,98"]);
  ("PG-0027", ["1900,98"]);
  ("PG-0028", ["1969,98"]);
  ("PG-0030", ["1969,30"]);
  ("PG-0031", ["1460,98"]);
  ("PG-0033", ["1870,98"]);
  ("PG-0035", ["2310,98"]);
  ("PG-0036", ["1811,98"]);
  ("PG-0038", ["1640,98"]);
  ("PG-0039", ["1969,98"]);
  ("PG-0042", ["1969,98"]);
  ("PG-0043", ["2215,98"]);
  ("PG-0044", ["1772,98"]);
  ("PG-0045", ["1549,98"]);
  ("PG-0046", ["1969,98"]);
  ("PG-0047", ["1207,98"]);
  ("PG-0048", ["1969,98"]);
  ("PG-0049", ["2198,98"]);
  ("PG-0051", ["1411,98"]);
  ("PG-0052", ["2297"]);
  ("PG-0054", ["1968,,,179,,359"]);
  ("PG-0055", ["2296,,,32,,212"]);
  ("PG-0056", ["1837,98"]);
  ("PG-0057", ["1772,98"]);
  ("PG-0059", ["1522,98"]);
  ("PG-0060", ["1640"]);
  ("PG-0066", ["2402,49"]);
  ("PG-0067", ["2526,49"]);
  ("PG-0068", ["1916,98"]);
  ("PG-0069", ["1509,98"]);
  ("PG-0072", ["1913"]);
  ("PG-0073", ["1969,147"]);
  ("PG-0074", ["1411"]);
  ("PG-AKG", ["2526,98"]);
  ("PG-AWB", ["2313,98"]);
  ("PG-HYF", ["3097"]);
  ("PG-IHU", ["2648,98"]);
  ("PG-KKD", ["2805,147"]);
  ("PG-KXR", ["2100"]);
  ("PG-OBX", ["1969,98"]);
  ("PG-TFI", ["2887,59"]);
  ("PG-TLO", ["2789,98"]);
  ("PG-UKU", ["2418,147"]);
  ("PG-VMU", ["2953,148"]);
  ("PG-WPM", ["1637,98"]);
  ("PGM", ["1975,45"]);
  ("PGRO", ["6000,150,591,92,607,272"]);
  ("PGSN", ["8700,200,215,68,210,248"]);
  ("PGUA", ["10558,200,540,66,618,246"; "11185,200,558,66,608,246"]);
  ("PGUM", ["12015,150,239,65,297,245"; "10014,150,231,65,284,245"]);
  ("PGWT", ["8600,150,237,79,270,259"]);
  ("PH-0001", ["6890,148,189,86,189,266"]);
  ("PHBK", ["6006,146,23,170,21,350"]);
  ("PHDH", ["9007,75,15,91,15,271"]);
  ("PHHF", ["3000,200,6,72,6,252"]);
  ("PHHI", ["5604,295,836,67,836,247"]);
  ("PHHN", ["3606,100,78,90,53,270"]);
  ("PHJH", ["3000,100,241,28,256,208"]);
  ("PHJR", ["4500,200,13,55,29,235"; "8000,200,11,55,27,235"; "6000,200,30,118,9,298"]);
  ("PHKO", ["11000,150,47,185,37,5"]);
  ("PHLI", ["6500,150,153,45,83,225"; "6500,150,92,180,92,360"]);
  ("PHLU", ["2700,75,24,61,23,241"]);
  ("PHMK", ["4494,100,437,60,445,240"; "3118,100,442,180,430,360"]);
  ("PHMU", ["5197,100,2662,52,2671,232"]);
  ("PHNG", ["7771,200,6,52,17,232"]);
  ("PHNL", ["6952,150,10,53,10,233"; "9000,150,9,53,9,233"; "3000,150,,51,,231"; "12300,150,12,90,9,270"; "12000,200,10,90,10,270"; "5000,300,,91,,271"]);
  ("PHNP", ["4000,150,,51,,231"]);
  ("PHNY", ["5001,150,1305,44,1308,224"]);
  ("PHOG", ["6995,150,54,35,12,215"; "4990,150,20,56,16,236"]);
  ("PHPA", ["2450,60,,100,,280"]);
  ("PHSF", ["3695,90,6081,101,6190,281"]);
  ("PHTO", ["5600,150,34,41,25,221"; "9800,150,27,90,37,270"]);
  ("PHUP", ["3800,75,90,76,77,256"]);
  ("PKMA", ["7700,148,9,62,12,242"]);
  ("PKMJ", ["7897,150,6,76,6,256"]);
  ("PKRO", ["4499,150,14,48,9,228"]);
  ("PKWA", ["6668,198,9,73,9,253"]);
  ("PL-0001", ["6234,443"; "6234,99"]);
  ("PL-0070", ["2470,,,55,,235"]);
  ("PL-0076", ["2027,59,,59,,239"]);
  ("PL-0083", ["1542,89"]);
  ("PL-0127", ["2762,131,,129,,308"]);
  ("PL-0128", ["1493,59,,37,,217"]);
  ("PL-0129", ["1739,112,,91,,271"]);
  ("PL-0131", ["1427,131,,40,,220"]);
  ("PL-0135", ["1181,66,,5,,185"; "755,66,,94,,274"]);
  ("PL-0136", ["1378,82"]);
  ("PL-0137", ["2159,125"; "1627,125"]);
  ("PL-0140", ["2362,164"]);
  ("PLCH", ["6900,98,5,90,5,270"]);
  ("PLE", ["1598,98"]);
  ("PM64", ["3800,100,,68,,248"]);
  ("PMDY", ["7904,200,13,69,7,249"; ",,6,,7"]);
  ("PMP", ["2904,59"]);
  ("PN00", ["2550,250"]);
  ("PN01", ["1800,60"]);
  ("PN02", ["1350,120"]);
  ("PN03", ["48,48"]);
  ("PN04", ["1800,60"]);
  ("PN06", ["2500,100"; "1600,100"]);
  ("PN07", ["70,70"]);
  ("PN08", ["1300,100"]);
  ("PN09", ["80,80"]);
  ("PN10", ["2000,200"]);
  ("PN11", ["2100,120"]);
  ("PN12", ["1450,100"]);
  ("PN13", ["2000,100"; "1550,100"]);
  ("PN14", ["1800,100"]);
  ("PN15", ["1700,100"]);
  ("PN16", ["2500,100"]);
  ("PN18", ["1840,100"]);
  ("PN19", ["7500,500"; "6500,500"]);
  ("PN20", ["80,80"]);
  ("PN21", ["2044,100"]);
  ("PN22", ["50,50"]);
  ("PN23", ["65,65"]);
  ("PN24", ["7900,300"; "9000,300"]);
  ("PN25", ["1750,100"]);
  ("PN26", ["65,65"]);
  ("PN27", ["20,20"]);
  ("PN28", ["75,75"]);
  ("PN29", ["60,60"]);
  ("PN30", ["2200,75"]);
  ("PN31", ["2740,300"]);
  ("PN32", ["100,100"]);
  ("PN33", ["1100,50"]);
  ("PN34", ["41,41"]);
  ("PN35", ["1600,50"]);
  ("PN36", ["1600,100"]);
  ("PN37", ["1500,25"]);
  ("PN38", ["1700,192"]);
  ("PN39", ["60,60"]);
  ("PN40", ["2085,200"]);
  ("PN42", ["300,300"]);
  ("PN43", ["1300,250"]);
  ("PN44", ["80,80"]);
  ("PN45", ["100,70"]);
  ("PN46", ["1280,150"]);
  ("PN47", ["1400,100"]);
  ("PN48", ["1200,110"]);
  ("PN49", ["1400,100"]);
  ("PN50", ["2150,100"]);
  ("PN51", ["32,32"]);
  ("PN52", ["70,70"]);
  ("PN53", ["1200,50"; "1550,50"]);
  ("PN54", ["2100,100"]);
  ("PN55", ["1400,100"]);
  ("PN56", ["2500,60"; "2000,60"]);
  ("PN57", ["2500,150"]);
  ("PN58", ["1400,100"]);
  ("PN59", ["1800,100"]);
  ("PN60", ["65,65"]);
  ("PN61", ["100,100"]);
  ("PN62", ["1300,100"]);
  ("PN63", ["62,62"]);
  ("PN64", ["1280,80"]);
  ("PN65", ["8000,150"]);
  ("PN66", ["2000,100"]);
  ("PN68", ["1200,100"]);
  ("PN69", ["500,100"]);
  ("PN70", ["100,100"]);
  ("PN71", ["1400,100"]);
  ("PN72", ["1850,120"; "3335,120"]);
  ("PN73", ["2000,100"]);
  ("PN74", ["50,50"]);
  ("PN75", ["44,44"]);
  ("PN76", ["60,60"]);
  ("PN77", ["50,50"]);
  ("PN78", ["50,50"]);
  ("PN79", ["35,35"]);
  ("PN80", ["60,60"]);
  ("PN82", ["65,65"]);
  ("PN83", ["1300,100"]);
  ("PN84", ["1400,100"]);
  ("PN85", ["1400,100"]);
  ("PN86", ["40,40"]);
  ("PN87", ["70,70"]);
  ("PN89", ["70,70"]);
  ("PN90", ["2500,100"]);
  ("PN91", ["1800,100"]);
  ("PN95", ["1300,200"]);
  ("PN99", ["1875,100"]);
  ("PO1", ["4400,75"]);
  ("PPIZ", ["3519,80,24,69,15,249"]);
  ("PPX", ["1772"]);
  ("PR03", ["4000,2000"; "6000,2000"]);
  ("PR07", ["1200,25"]);
  ("PR10", ["3000,60,,65.6,,245.6"]);
  ("PR20", ["1600,40"]);
  ("PR24", ["1500,66"]);
  ("PR27", ["4000,150,31,91.8,23,271.8"]);
  ("PR34", ["10000,500"]);
  ("PS00", ["2100,100"]);
  ("PS01", ["50,50"]);
  ("PS02", ["2250,100"]);
  ("PS03", ["2750,35"]);
  ("PS04", ["100,100"]);
  ("PS05", ["2700,100"]);
  ("PS06", ["1300,100"]);
  ("PS07", ["60,60"]);
  ("PS08", ["2600,100"]);
  ("PS10", ["45,45"]);
  ("PS11", ["1800,100"]);
  ("PS12", ["2360,100"]);
  ("PS13", ["100,100"; "100,100"]);
  ("PS14", ["175,65"]);
  ("PS15", ["1200,100"]);
  ("PS16", ["60,40"]);
  ("PS17", ["12,12"]);
  ("PS18", ["1800,60"]);
  ("PS19", ["60,60"]);
  ("PS20", ["2000,100"]);
  ("PS21", ["1850,100"]);
  ("PS22", ["45,45"]);
  ("PS24", ["50,30"]);
  ("PS25", ["3175,55"]);
  ("PS26", ["60,60"]);
  ("PS27", ["1500,100"]);
  ("PS28", ["32,32"]);
  ("PS29", ["100,100"]);
  ("PS30", ["65,65"]);
  ("PS31", ["200,60"]);
  ("PS33", ["50,50"]);
  ("PS34", ["100,100"]);
  ("PS35", ["2400,200"]);
  ("PS38", ["2264,100"]);
  ("PS39", ["1200,125"]);
  ("PS40", ["55,55"]);
  ("PS41", ["50,50"]);
  ("PS43", ["2250,80"]);
  ("PS44", ["30,30"]);
  ("PS46", ["1716,100"]);
  ("PS47", ["1800,60"]);
  ("PS48", ["60,60"]);
  ("PS49", ["2590,100"]);
  ("PS50", ["2185,100"]);
  ("PS52", ["2600,100"]);
  ("PS54", ["1800,100"]);
  ("PS55", ["50,50"]);
  ("PS56", ["70,70"]);
  ("PS57", ["25,25"]);
  ("PS60", ["60,60"]);
  ("PS61", ["1640,100"]);
  ("PS62", ["60,60"]);
  ("PS64", ["1200,50"]);
  ("PS65", ["20,20"]);
  ("PS66", ["2000,90"]);
  ("PS67", ["1865,75"]);
  ("PS68", ["844,100"]);
  ("PS69", ["2900,125"]);
  ("PS70", ["2200,100"]);
  ("PS71", ["30,30"]);
  ("PS72", ["48,48"]);
  ("PS73", ["2500,75"]);
  ("PS74", ["70,70"]);
  ("PS75", ["64,64"]);
  ("PS78", ["96,48"]);
  ("PS80", ["50,50"]);
  ("PS81", ["50,30"]);
  ("PS82", ["1480,100"]);
  ("PS83", ["65,65"]);
  ("PS84", ["65,65"]);
  ("PS85", ["60,60"]);
  ("PS89", ["60,60"]);
  ("PS90", ["200,200"]);
  ("PS91", ["45,36"]);
  ("PS92", ["60,60"]);
  ("PS95", ["25,25"]);
  ("PS98", ["1800,100"]);
  ("PS99", ["2000,100"]);
  ("PT-0017", ["1296,66"]);
  ("PT-0020", ["2296,82"]);
  ("PT-0021", ["1150,100"; "1800,100"]);
  ("PT-0022", ["2132,229"]);
  ("PT-0023", ["886,65"]);
  ("PT-0024", ["760,37"]);
  ("PT-0031", ["1640,39"]);
  ("PTKK", ["6006,150,10,46,10,226"]);
  ("PTPN", ["6001,150,8,90,8,270"]);
  ("PTRO", ["7200,150,176,91,171,271"]);
  ("PTSA", ["5750,150,10,56,11,236"]);
  ("PTYA", ["6000,150,91,72,89,252"]);
  ("PUA", ["2200"]);
  ("PWAK", ["9843,150,14,95,12,275"]);
  ("PWR", ["3000,400"]);
  ("PYL", ["10000,2000"]);
  ("Q51", ["4400,100"]);
  ("QA-0001", ["15912,197,12,156,12,336"; "13944,197,12,156,12,336"]);
  ("R03", ["6100,150"]);
  ("R33", ["2000,30"]);
  ("RAX", ["1355,98"]);
  ("RBP", ["2592"]);
  ("RC0", ["4100,75"]);
  ("RCAY", [",,33,,34"; "7435,145,34,181,33,1"; "8019,145,,181,,1"]);
  ("RCBS", ["9865,148,77,63.5,50,243.5"]);
  ("RCDC", ["7828,148,73,87.9,78,267.9"]);
  ("RCDI", ["3260,100,792,34.7,792,214.7"]);
  ("RCFG", ["5180,98,221,26.2,218,206.2"]);
  ("RCFN", ["7999,148,143,38.8,130,218.8"]);
  ("RCGI", ["3255,75,28,164.4,27,344.4"]);
  ("RCGM", ["10044,,146,,133"]);
  ("RCKH", ["10335,197,20,91.9,30,271.9"]);
  ("RCKU", [",,75,,85"; "5307,74,60,179.4,65,359.4"; "10007,148,75,180,85,360"]);
  ("RCKW", ["5577,98,30,139,46,319"]);
  ("RCLG", ["5249,100"]);
  ("RCLY", ["3852,79,43,130.2,41,310.2"]);
  ("RCMQ", ["12000,148,653,176.5,663,356.5"]);
  ("RCMT", ["3773,98,38,27.1,41,207.1"]);
  ("RCNN", ["10007,148,63,178.7,32,358.7"; "10007,148,56,178.6,25,358.6"]);
  ("RCPO", ["11955,148,17,44.8,26,224.8"]);
  ("RCQC", ["9843,148,103,18.2,39,198.2"]);
  ("RCQS", ["11055,147,41,34.6,121,214.6"]);
  ("RCSP", ["3935"]);
  ("RCSQ", ["8012,148,84,78,97,258"]);
  ("RCSS", ["8547,197,13,92,14,272"]);
  ("RCTP", ["12008,197,73,49.3,62,229.3"; "10991,197,106,49.3,95,229.3"]);
  ("RCWA", ["3051,76,,20.9,,200.9"]);
  ("RCYU", ["9022,148,45,26,52,206"; "9022,148,45,26.3,52,206.3"; "9005,75,42,26.2,48,206.2"]);
  ("RDV", ["4801,75,173,121,174,301"]);
  ("RI01", ["50,50"]);
  ("RI02", ["100,100"]);
  ("RI05", ["300,100"]);
  ("RI06", ["4500,1200"]);
  ("RI07", ["1200,100"]);
  ("RI08", ["100,40"]);
  ("RI09", ["30,30"]);
  ("RI11", ["1600,150"; "1576,100"]);
  ("RI13", ["100,100"]);
  ("RI14", ["75,50"]);
  ("RI15", ["62,56"]);
  ("RI16", ["600,300"]);
  ("RI20", ["700,150"]);
  ("RI21", ["200,200"]);
  ("RI23", ["50,50"]);
  ("RI24", ["150,60"]);
  ("RI25", ["100,100"]);
  ("RI26", ["35,35"]);
  ("RI28", ["3100,100"; "5000,100"; "2200,100"]);
  ("RI30", ["100,200"]);
  ("RI9", ["25,25"]);
  ("RJ04", ["3313,98,63,58.4,63,238.4"]);
  ("RJAA", ["7152,196,135,149.5,141,329.5"; "13123,196,130,150,139,330"]);
  ("RJAF", ["6560,150,2132,171,2182,351"]);
  ("RJAH", ["8860,150,105,19.9,105,199.9"]);
  ("RJAM", ["4500,145,,46,,226"]);
  ("RJAN", ["2625,,89,,92"]);
  ("RJAW", ["8700,200,359,68.1,378,248.1"]);
  ("RJAZ", ["2625,,437,,471"]);
  ("RJBB", ["13123,196,24,51,32,231"; "11483,196,6,51,15,231"]);
  ("RJBD", ["6560,148,298,141,274,321"; "4327,98,,157.2,,337.2"]);
  ("RJBE", ["8202,200,27,84.6,26,264.6"]);
  ("RJBH", ["5906,148,15,28.7,11,208.7"]);
  ("RJBK", ["4327,100,-1,86,2,266"]);
  ("RJBT", ["3937,98,584,3,573,183"]);
  ("RJCA", ["2624,164,377,73.1,377,253.2"]);
  ("RJCB", ["8202,150,470,159.3,505,339.3"]);
  ("RJCC", ["9840,200,62,353,82,173"; "9840,200,57,352.6,77,172.6"]);
  ("RJCH", ["9842,150,92,108,151,288"]);
  ("RJCJ", ["13124,200,70,172.6,85,352.6"; "8860,148,65,172.5,87,352.5"]);
  ("RJCK", ["8202,150,322,159,290,339"]);
  ("RJCM", ["8202,150,102,174.7,135,354.7"]);
  ("RJCN", ["6560,150,234,71,212,251"]);
  ("RJCO", ["4920,148,19,135,25,315"]);
  ("RJCR", ["2625,,98,,79"]);
  ("RJCT", ["4920,150,281,123.2,256,303.2"; "1308,75,,123.6,,303.6"]);
  ("RJCW", ["6560,150,23,68.9,30,249"]);
  ("RJDA", ["3281,99,330,124.5,330,304.5"]);
  ("RJDB", ["4331,100,23,9,52,189"]);
  ("RJDC", ["8200,150,23,62.3,22,242.3"]);
  ("RJDK", ["2625,,251,,277"]);
  ("RJDO", ["2625,,25,,25"]);
  ("RJDT", ["6234,150,205,136,182,316"]);
  ("RJEB", ["6562,148,80,131.9,72,311.9"]);
  ("RJEC", ["8200,200,660,154.2,721,334.2"]);
  ("RJEO", ["4922,147,180,121,141,301"]);
  ("RJER", ["5906,148,98,57,112,237"]);
  ("RJFA", ["5380,150,98,115.7,98,295.7"]);
  ("RJFC", ["4921,148,112,133.9,124,313.9"]);
  ("RJFE", ["6561,150,223,25.8,273,205.8"]);
  ("RJFF", ["9186,197,15,150.2,32,330.2"]);
  ("RJFG", ["6544,147,778,122.7,758,302.7"]);
  ("RJFK", ["9840,150,906,150,859,330"]);
  ("RJFM", ["8200,150,14,85.2,20,265.2"]);
  ("RJFN", ["8860,150,259,101.6,259,281.6"]);
  ("RJFO", ["9840,150,19,0.4,17,180.4"]);
  ("RJFR", ["8202,260,20,170.3,23,350.3"]);
  ("RJFS", ["6562,148,6,99.2,6,279.2"]);
  ("RJFT", ["9840,150,601,64.9,642,244.9"]);
  ("RJFU", ["9840,200,14,138,15,318"; "4350,100,18,174.2,18,354.2"]);
  ("RJFY", ["3937,131,214,79.4,214,259.4"; "7382,148,214,79.4,214,259.4"]);
  ("RJFZ", ["7870,150,55,70,55,250"]);
  ("RJGG", ["11483,197,15,168.8,15,348.8"]);
  ("RJKA", ["6560,150,27,26,14,206"]);
  ("RJKB", ["4430,147,99,34,79,214"]);
  ("RJKI", ["4307,98,21,65.9,18,245.9"]);
  ("RJKN", ["6561,150,17,6,14,186"]);
  ("RJNA", ["8990,150,52,152.5,50,332.5"]);
  ("RJNF", ["4329,100,17,176,19,356"]);
  ("RJNG", ["8860,150,110,92.2,143,272.2"]);
  ("RJNH", ["8366,148,150,90.7,150,270.7"]);
  ("RJNK", ["8860,150,36,55.5,18,235.5"; "8876,148,36,55.5,18,235.5"]);
  ("RJNO", [",,282,,308"; "6531,148,253,60,272,240"]);
  ("RJNT", ["6562,150,95,13.6,63,193.6"]);
  ("RJNW", ["6562,148,710,66.8,702,246.8"]);
  ("RJNY", ["4920,150,20,87.1,20,267.1"]);
  ("RJOA", ["9842,200,1072,90,1067,270"]);
  ("RJOB", ["9843,150,806,59,804,239"]);
  ("RJOC", ["6562,148,6,59.2,15,239.2"]);
  ("RJOF", ["3871,197,,359.4,,179.4"; "4856,148,,109,,289"]);
  ("RJOH", ["8202,98,10,63.9,20,243.9"]);
  ("RJOI", ["8000,150,7,9.2,4,189.2"; "1200,150,,9.3,,189.3"]);
  ("RJOK", ["8203,148,42,131,18,311"]);
  ("RJOM", ["8200,150,25,130.5,17,310.5"]);
  ("RJOO", ["5997,150,50,135,34,315"; "9840,200,46,135,31,315"]);
  ("RJOR", ["6562,150,29,94,65,274"]);
  ("RJOS", ["6560,150,6,102.4,26,282.4"]);
  ("RJOT", ["8200,200,583,72.8,586,252.9"]);
  ("RJOW", ["6562,148,184,104.8,171,284.8"]);
  ("RJOY", ["4890,150,36,87,38,267"; "3940,100,33,127.3,39,307.3"]);
  ("RJOZ", ["2950,150,12,114.4,12,294.4"; "3940,200,12,160.5,12,340.5"]);
  ("RJSA", ["9846,200,647,52,664,232"]);
  ("RJSC", ["6560,150,347,6.6,353,186.6"]);
  ("RJSD", ["3390,85,88,96.4,53,276.4"]);
  ("RJSF", ["8202,197,1200,2.2,1209,182.2"]);
  ("RJSH", ["2548,45,125,47.9,115,227.9"; "7380,148,152,63.5,120,243.5"; "1180,50,,109,,289"]);
  ("RJSI", ["8202,148,283,11,298,191"]);
  ("RJSK", ["8200,200,289,96.6,314,276.6"]);
  ("RJSM", ["10000,150,114,95.1,94,275.1"]);
  ("RJSN", ["4300,150,23,31.9,6,211.9"; "8200,150,29,92.7,12,272.7"]);
  ("RJSR", ["6562,148,259,100.3,292,280.3"]);
  ("RJSS", ["9842,150,11,82.5,15,262.5"; "3940,150,6,117.7,5,297.7"]);
  ("RJST", ["8860,150,7,57.9,7,237.9"; "4920,150,7,139.8,7,319.8"]);
  ("RJSY", ["6560,150,59,79.4,86,259.4"]);
  ("RJTA", ["8000,150,174,359.2,205,179.2"]);
  ("RJTC", ["2953,,299,,313"]);
  ("RJTE", ["984,148,10,85.3,10,265.3"]);
  ("RJTH", ["6563,148,282,69.6,284,249.6"]);
  ("RJTJ", ["6562,148,295,159.9,295,339.9"]);
  ("RJTK", ["6004,150,10,15.4,10,195.4"]);
  ("RJTL", ["7380,150,98,359,98,179"]);
  ("RJTO", ["5905,150,138,19.8,117,199.8"]);
  ("RJTQ", ["4350,100,67,17,61,197"]);
  ("RJTR", ["1910,52,350,9,360,189"]);
  ("RJTT", ["8200,200,19,35.1,35,215.1"; "8200,200,46,57,55,223"; "9840,200,22,149.9,20,329.9"; "9840,200,20,149.9,20,329.9"]);
  ("RJTU", ["5570,150,334,4.3,334,184.3"]);
  ("RJTY", ["11000,200,463,170.3,417,350.3"]);
  ("RJX9", ["1795,148,,60,,240"]);
  ("RK13", ["3600,100,626,173.4,655,353.4"]);
  ("RK14", ["2345,60,,174.6,,354.6"]);
  ("RK15", ["3900,200,,20.6,,200.6"]);
  ("RK16", ["1200,40,855,22,855,202"]);
  ("RK17", ["2000,45,,32,,212"]);
  ("RK18", ["2300,40,,161.2,,341.2"]);
  ("RK19", ["1900,80,,165.2,,345.2"]);
  ("RK1R", ["100,50"]);
  ("RK1W", ["20,20"; "20,20"]);
  ("RK20", ["2000,60,,130,,310"]);
  ("RK21", ["2305,70,,56,,236"]);
  ("RK22", ["1788,50,,2.9,,182.9"]);
  ("RK24", ["1200,50,,70.5,,250.5"]);
  ("RK25", ["1500,80,45,91,45,271"]);
  ("RK27", ["1700,70,,122,,302"]);
  ("RK28", ["1700,60,,82,,262"]);
  ("RK29", ["1650,50,,162.3,,342.3"]);
  ("RK2Y", ["40,40,1936"; "90,,2169"; "45,,2149"; "45,,2097"]);
  ("RK31", ["1870,50,,74.7,,254.7"]);
  ("RK32", ["2735,100,,25.3,,205.3"]);
  ("RK33", ["1000,50,,69.8,,249.8"]);
  ("RK34", ["1300,60,,11,,191"]);
  ("RK35", ["1155,40,128,47.3,138,227.3"]);
  ("RK36", ["1700,70,,12,,192"]);
  ("RK37", ["1500,90,,116.8,,296.8"]);
  ("RK38", ["1900,62,,178,,358"]);
  ("RK39", ["1970,60,,147.8,,327.8"]);
  ("RK3N", ["65,65,2212"; "45,45,2226"]);
  ("RK40", ["1800,60,,60.2,,240.2"]);
  ("RK41", ["1862,30,,127.9,,307.9"]);
  ("RK42", ["1410,42,,71.3,,251.3"]);
  ("RK43", ["1700,80,,48,,228"]);
  ("RK44", ["2400,70,,37.9,,217.9"]);
  ("RK46", ["1504,55"]);
  ("RK48", ["2300,75,,63,,243"]);
  ("RK49", ["1200,70,,69.4,,249.4"]);
  ("RK50", ["1500,50,,27,,207"]);
  ("RK51", ["1600,65"]);
  ("RK52", ["675,75,,15.7,,195.7"; "2001,75,,15.3,,195.3"]);
  ("RK58", ["1600,50,,132.5,,312.5"]);
  ("RK60", ["1700,60,67,145,64,325"]);
  ("RK6D", ["1200,50,,90,,270"]);
  ("RK6J", ["235,75"]);
  ("RK6M", ["60,60"]);
  ("RK6N", ["70,40"]);
  ("RK6O", ["3705,80,953,91,875,271"]);
  ("RK6X", ["1600,70"]);
  ("RK7H", ["1630,50"]);
  ("RK82", ["1300,80,,33,,213"]);
  ("RK8S", ["20,20"]);
  ("RK9X", ["45,45"]);
  ("RKD1", ["1249,100,,38.5,,218.5"]);
  ("RKJB", ["9186"]);
  ("RKJJ", ["9300,150,44,32,48,212"; "9300,150,43,29.9,46,209.9"]);
  ("RKJK", ["9000,150,20,169,29,349"]);
  ("RKJM", ["5249,98,12,50.3,23,230.3"]);
  ("RKJU", ["4800,100,,69,,249"]);
  ("RKJY", ["6890,148,28,158,31,338"]);
  ("RKNC", ["4053,,240,,245"]);
  ("RKND", ["5118,100,92,38,33,218"]);
  ("RKNN", ["9000,150,35,68,20,248"]);
  ("RKNW", ["9000,150,323,26.1,329,206.1"]);
  ("RKNY", ["8202,148,230,141,227,321"]);
  ("RKPC", ["9843,148,86,58.5,76,238.5"; "6268,148,67,125.6,105,305.6"]);
  ("RKPD", ["7589,149,1102,360,1166,180"; "4974,80,1170,142.2,1144,322.2"]);
  ("RKPE", ["3766,78,,169,,349"]);
  ("RKPK", ["9007,150,8,174,8,354"; "10499,197,12,173.9,12,353.9"]);
  ("RKPS", ["9000,150,18,55.1,19,235.1"; "9000,150,19,56,25,236"]);
  ("RKPU", ["6561,148,45,176,31,356"]);
  ("RKRA", ["3915,115,284,177,287,357"]);
  ("RKRB", ["1608,92,,162.9,,342.9"]);
  ("RKRG", ["1600,100,,146.1,,326.1"]);
  ("RKRK", ["1515,76,,160,,340"]);
  ("RKRN", ["5314,98,,89.6,,269.6"; "1640,98,,90,,270"]);
  ("RKRO", ["3640,80,328,35.8,328,215.8"]);
  ("RKRP", ["1620,55,,155,,335"]);
  ("RKRS", ["3680,64"]);
  ("RKSG", ["8217,150,47,132,37,312"]);
  ("RKSI", ["12303,197,23,144.7,23,324.7"; "12303,197,23,144.7,23,324.7"; "13000,197,,153,,333"]);
  ("RKSM", ["9000,150,49,359.1,47,179.1"; "9700,150,56,8,47,188"]);
  ("RKSO", ["9004,150,33,84.1,40,264.1"]);
  ("RKSS", ["11811,148,38,135,42,315"; "10499,197,34,135,41,315"]);
  ("RKSW", ["9000,150,86,142.4,67,322.4"; "9000,150,83,142,66,322"; "7535,143,,158,,338"]);
  ("RKTE", ["4000,120,,156.6,,336.6"]);
  ("RKTH", ["7000,150,63,89.3,62,269.3"]);
  ("RKTI", ["9021,200,281,175.5,281,355.5"; "9330,120,281,175.5,281,355.5"]);
  ("RKTN", ["9000,150,112,124.2,120,304.2"; "9039,150,111,124,111,304"]);
  ("RKTP", ["9000,150,39,24.6,39,204.6"; "9000,150,39,24.6,39,204.6"]);
  ("RKTU", ["9000,200,166,51.8,185,231.8"; "9000,150,191,52,191,232"]);
  ("RKTY", ["9000,150,347,88.8,353,268.8"]);
  ("RKU", ["3117"]);
  ("RKUC", ["3100,120,82,133.2,82,313.2"]);
  ("RKUL", ["3937,150,,103.6,,283.6"; "1476,105,,110.1,,290.1"]);
  ("RKUY", ["1047,100"]);
  ("RMP", ["3500,75,273,139,302,319"]);
  ("RO-0001", ["3281,197"]);
  ("RO-0003", ["3300"]);
  ("RO-0004", ["2560"]);
  ("RO-0023", ["4921,196,1174,,1174"]);
  ("ROAH", ["9840,150,11,178,9,358"]);
  ("RODE", ["4780,150,148,41.9,184,221.9"; "1200,180,,43.2,,223.2"]);
  ("RODN", ["12100,300,63,51,128,231"; "12100,200,74,51,133,231"]);
  ("ROIG", ["4920,150,77,42.2,93,222.2"]);
  ("ROKJ", ["6562,148,22,21.2,19,201.2"]);
  ("ROMD", ["4921,148,167,15.7,149,195.7"]);
  ("ROMY", ["6560,150,124,37.8,150,217.8"]);
  ("RORA", ["2625,,44,,26"]);
  ("RORE", ["4920,150,213,39.2,246,219.2"; "4961,92,,41.6,,221.6"]);
  ("RORH", ["2625,,44,,29"]);
  ("RORK", ["4921,148,70,29,80,209"]);
  ("RORS", ["9842,200,15,166,54,346"]);
  ("RORT", ["4921,148,34,172.4,36,352.4"]);
  ("RORY", ["4340,100,35,138.1,52,318.1"]);
  ("ROTM", ["9000,150,235,55,246,235"]);
  ("ROYN", ["4920,150,71,75.3,48,255.3"]);
  ("RP12", ["3281,53,13,84.2,13,264.2"]);
  ("RP13", ["4265,125,10,60,10,240"]);
  ("RP14", ["3940,100,,90.1,,270.1"]);
  ("RP15", ["3937,49,16,38.7,16,218.7"]);
  ("RP16", ["3540,60,859,117.9,1011,297.9"]);
  ("RP17", ["3937,98,16,170.6,16,350.6"]);
  ("RPBL", ["5010,100,20,41,15,221"]);
  ("RPLA", ["3937,98,,6.4,,186.4"]);
  ("RPLB", ["9003,148,47,67,53,247"]);
  ("RPLC", ["10499,148,484,21,419,201"; "10499,197,466,21.1,393,201.1"]);
  ("RPLI", ["9120,148,24,5.4,22,185.4"]);
  ("RPLL", ["12261,197,16,60.3,75,240.3"; "7408,148,16,134.8,42,314.8"]);
  ("RPLP", ["7480,118,66,57,20,237"]);
  ("RPLS", ["7769,150,5,67.8,6,247.8"]);
  ("RPLU", ["4135,100,,65.3,,245.3"]);
  ("RPLV", ["5249,78,,49,,229"]);
  ("RPMA", ["4396,59,,155,,335"]);
  ("RPMB", ["5577,98,13,15,28,195"]);
  ("RPMC", ["6234,98,,103.5,,283.5"]);
  ("RPMD", ["9842,148,93,49.3,96,229.3"]);
  ("RPME", ["6450,150,128,117,141,297"]);
  ("RPMF", ["3937,98,,52,,232"]);
  ("RPMG", ["6273,98,,17.8,,197.8"]);
  ("RPMH", ["3945,98,16,71,6,251"]);
  ("RPMI", ["4593,60,,20,,200"]);
  ("RPMJ", ["4144,98,,88.7,,268.7"]);
  ("RPML", ["8050,118,599,12.9,597,192.9"]);
  ("RPMN", ["5100,98,1,18.4,16,198.4"]);
  ("RPMO", ["5720,95,13,33,16,213"]);
  ("RPMP", ["5512,98,,17,,197"]);
  ("RPMQ", ["5330,105,,139,,319"]);
  ("RPMR", ["10587,148,505,173,465,353"]);
  ("RPMS", ["5603,98,,172,,352"]);
  ("RPMW", ["4765,98,16,26,13,206"]);
  ("RPMZ", ["8560,144,23,93.8,33,273.8"]);
  ("RPNS", ["4167,98,,9.5,,189.5"]);
  ("RPSB", [""]);
  ("RPSM", ["3642,98,,164.7,,344.7"]);
  ("RPUB", ["5912,115,4211,88.4,4251,268.4"]);
  ("RPUD", ["3773,98,2,58,10,238"]);
  ("RPUF", ["8433,140,151,26.8,151,206.8"]);
  ("RPUG", ["3422,98,7,74,6,254"]);
  ("RPUH", ["6024,98,,105,,285"]);
  ("RPUI", ["2970,99,,14,,32"]);
  ("RPUL", ["4953,148,,31.2,,211.2"]);
  ("RPUM", ["4265,98,13,165,11,345"]);
  ("RPUN", ["4599,98,94,45,141,225"]);
  ("RPUO", ["4101,98,,55,,235"]);
  ("RPUQ", ["3890,90,,15,,195"]);
  ("RPUR", ["3937,98,82,49.6,98,229.6"]);
  ("RPUS", ["3937,98,,5.2,,185.2"]);
  ("RPUT", ["6455,98,,172.1,,352.1"]);
  ("RPUV", ["5118,98,,59.6,,239.6"]);
  ("RPUW", ["4785,95,,162,,342"]);
  ("RPUX", ["2953,30"]);
  ("RPUY", ["6890,118,,126,,306"]);
  ("RPUZ", ["3937,95,,89,,269"]);
  ("RPVA", ["7014,148,4,184,10,4"]);
  ("RPVB", [""]);
  ("RPVC", ["4843,98,11,166,11,346"]);
  ("RPVD", ["6136,118,,93,,273"]);
  ("RPVE", ["3117,98,,64,,244"]);
  ("RPVF", ["4429,98,7,44.2,7,224.2"]);
  ("RPVG", ["7919,148,,66,,246"]);
  ("RPVI", ["8202,148,132,24,8,204"]);
  ("RPVJ", ["4921,98,,38,,218"]);
  ("RPVK", ["7175,148,,49,,229"]);
  ("RPVM", ["10827,148,18,44.8,28,224.8"]);
  ("RPVO", ["6120,118,,184,,4"]);
  ("RPVP", ["8530,148,71,92.5,25,272.5"]);
  ("RPVR", ["6201,148,9,145,10,325"]);
  ("RPVS", ["3937,98,13,180,23,360"]);
  ("RPVT", ["5837,98,,174,,354"]);
  ("RPVU", ["4560,98,10,25,10,205"]);
  ("RPVV", ["3300,98,148,84,148,264"]);
  ("RPVW", ["3935,95,,21,,201"]);
  ("RS-0003", ["2133,82"]);
  ("RS-0010", ["1312"]);
  ("RU-0008", [""]);
  ("RU-0035", ["8202,148"]);
  ("RU-0088", ["3871"; "4823"]);
  ("RU-0104", ["3363,,,50,,230"]);
  ("RU-0184", ["2789,148"]);
  ("RU-0185", ["1312,66"]);
  ("RU-0195", ["6562,131,,12,,192"]);
  ("RU-0204", ["1969,197"]);
  ("RU-0205", ["2001,197"]);
  ("RU-0206", ["1969,262"]);
  ("RU-0208", ["1968,262"]);
  ("RU-0209", [""]);
  ("RU-0211", ["8219,144,151,55,151,235"]);
  ("RU-0218", ["2345,131,797,10,797,290"]);
  ("RU-0231", ["2952,197"]);
  ("RU-0283", ["3609,656"; "2133,656"]);
  ("RU-0408", ["1400,65,,7,,187"]);
  ("RU-6558", ["6562,164,,46,,226"]);
  ("RU-LNX", ["5249"]);
  ("S00", ["1555,100"; "1200,100"; "2675,150"]);
  ("S04", ["2575,135"]);
  ("S09", ["3550,45"]);
  ("S16", ["4500,150"]);
  ("S18", ["2400,75"]);
  ("S28", ["3000,60,2312,112,2313,292"]);
  ("S30", ["2877,50"]);
  ("S31", ["2904,60,209,,163"]);
  ("S35", ["2533,36,1042,,1034"]);
  ("S37", ["2400,50"]);
  ("S43", ["2671,36,15,,22"; "2430,100,15,,22"]);
  ("S44", ["2724,20,373,182,373,2"]);
  ("S49", ["2100,40"; "3872,65"]);
  ("S51", ["2400,50,32,,41"]);
  ("S60", ["10000,1000"; "3000,1000"]);
  ("S63", ["2500,170"]);
  ("S66", ["2900,50"]);
  ("S68", ["2500,50"]);
  ("S74", ["4000,300"]);
  ("S76", ["15000,2000"; "15000,2000"])].

(* ADRpy/data/runways.csv *)
Definition airports_25 : list (string * list string) := [
  ("S77", ["2450,150"]);
  ("S79", ["3600,100"]);
  ("S81", ["4650,40"]);
  ("S82", ["1900,100"]);
  ("S86", ["1930,100"]);
  ("S88", ["2050,100"]);
  ("S89", ["2800,50"]);
  ("S90", ["2600,150"]);
  ("S92", ["2650,50"]);
  ("S93", ["2552,40,1945,,1945"]);
  ("S96", ["15000,4000"]);
  ("SA-0008", ["4125,95,1285,46,1274,226"]);
  ("SA01", ["5085,75,,25.3,,205.3"]);
  ("SA02", ["7242,75,,147.4,,327.4"]);
  ("SA03", ["3281,85,,9.2,,189.2"]);
  ("SA04", ["4150,98,7,164,7,344"]);
  ("SA05", ["5453,79,,180.9,,0.9"; "3650,55,,181,,1"]);
  ("SA06", ["4921,59,,25.1,,205.1"]);
  ("SA07", ["3281,72,,106.1,,286.1"]);
  ("SA10", ["4921,82,,165,,345"]);
  ("SA11", ["6348,75,,62.7,,242.7"]);
  ("SA12", ["2461,66,,181.4,,1.3"]);
  ("SA13", ["4593,75,,46.3,,226.3"]);
  ("SA14", ["5472,102,,178.9,,358.9"; "2031,98,,44,,224"; "1968,98,,96,,276"]);
  ("SA16", ["3901,65,,50,,230"]);
  ("SA17", ["3051,62,,16,,196"; "2782,164,,16,,196"]);
  ("SA20", ["3117,98,,96.1,,276.1"]);
  ("SA21", ["4101,82,,60,,240"]);
  ("SA22", ["3609,59,,176,,356"]);
  ("SA23", ["6070,98,,45.7,,225.7"]);
  ("SA24", ["5873,75,,73,,253"]);
  ("SA25", ["3609,66,,113.4,,293.4"; "3609,66,,74.2,,254.2"]);
  ("SA26", ["3609,98,,182,,2"]);
  ("SA29", ["6562,148,,97,,277"]);
  ("SA30", ["4265,98,,70,,250"]);
  ("SA31", ["3543,98,,183.4,,3.4"; "2654,75,,93.8,,273.8"]);
  ("SA32", ["4921,98,,30,,210"]);
  ("SA33", ["3937,66,,89.4,,269.4"]);
  ("SA34", ["4494,78,,11,,191"; "5323,115,,44,,224"; "5739,131,,131,,311"; "5413,98,128,87,121,267"]);
  ("SA35", ["5020,98,,70.9,,250.9"]);
  ("SA36", ["3281,98,,133.2,,313.2"; "3934,75,,180.5,,0.5"]);
  ("SA38", ["5249,98,,107.6,,287.6"]);
  ("SA39", ["4050,80,,107.8,,287.8"]);
  ("SA40", ["5413,98,,188.6,,8.6"]);
  ("SA42", ["5905,98,,184.3,,4.3"]);
  ("SA44", ["5413,75,,75.2,,255.2"]);
  ("SA45", ["4921,98,,132,,312"]);
  ("SA47", ["3500,1,,90,,270"]);
  ("SAAA", ["2953,75"]);
  ("SAAC", ["5249,98,112,28,82,208"]);
  ("SAAG", [",,75,,75"; "4364,98,75,1,53,181"]);
  ("SAAJ", ["4921,98,,175,,355"]);
  ("SAAN", ["2854,75,,133.3,,313.3"; "3937,98,,44,,224"]);
  ("SAAP", ["6890,148,243,8.4,243,188.4"]);
  ("SAAR", ["9842,148,82,10,77,190"]);
  ("SAAU", ["3904,98"]);
  ("SAAV", ["7628,98,56,24,56,204"]);
  ("SABE", ["6890,131,18,124,15,304"]);
  ("SACA", ["4232,98,,158.7,,338.7"]);
  ("SACC", ["4101,148"]);
  ("SACD", ["3806,164"]);
  ("SACO", ["7218,148,1526,43,1539,223"; "10499,148,1604,178,1522,358"]);
  ("SACT", ["6726,98,1503,7.4,1460,187.4"]);
  ("SACV", ["3609,98"]);
  ("SADF", ["5909,98,10,44,10,224"]);
  ("SADJ", ["7874,131,105,161,105,341"]);
  ("SADL", ["3904,75,,138.8,,318.8"; "4682,148,69,13.9,69,193.9"]);
  ("SADM", ["9350,131,98,13,82,193"]);
  ("SADO", ["5905,98,,176.9,,356.9"]);
  ("SADP", ["6923,164,43,157.3,59,337.3"]);
  ("SADQ", ["3281,98"]);
  ("SADR", ["3445,131"; "2297,164"; "2789,164"]);
  ("SADS", ["2297,98"; "2297,148"]);
  ("SADZ", ["3396,164"; "2133,75"]);
  ("SAEA", ["2953,75"]);
  ("SAEL", ["3281,98"; "3609,98"]);
  ("SAET", ["3934,98,,21,,201"]);
  ("SAEZ", ["10827,197,62,102.3,66,282.3"; "10187,148,62,164,67,344"]);
  ("SAFR", ["3632,144,,11,,191"; "3691,75,,11,,191"; "3606,138,,54,,234"]);
  ("SAHC", ["4921,98,,125,,305"]);
  ("SAHR", ["7073,148,,94.3,,274.3"]);
  ("SAHS", ["4921,98,,102.2,,282.2"]);
  ("SAHZ", ["7218,131,,98.3,,278.3"]);
  ("SAMA", ["4921,98"]);
  ("SAME", ["9301,177,2290,181,2310,1"]);
  ("SAMM", ["8694,98,4692,144.5,4667,324.5"; "4757,66,4678,96.3,4678,276.3"]);
  ("SAMP", ["1640,98"; "2953,98"; "3543,98"]);
  ("SAMR", ["6923,98,2470,108,2422,288"]);
  ("SANC", ["9186,98,1476,11.9,1522,191.9"]);
  ("SANE", ["7946,148,654,27.7,656,207.7"]);
  ("SANI", ["5249,75,,146,,326"]);
  ("SANL", ["9383,98,1437,28,1391,208"]);
  ("SANO", ["6890,112,,173,,353"]);
  ("SANT", ["11483,148,1439,10,1493,190"]);
  ("SANU", ["8071,148,1959,179.6,1958,359.6"]);
  ("SANW", ["4429,148"]);
  ("SAOC", ["6808,131"; "7431,148,1381,178.4,1381,358.4"]);
  ("SAOD", ["3122,131,,15,,195"; "4593,75,,176,,356"]);
  ("SAOE", ["3182,98"]);
  ("SAOL", ["8769,95,,155.3,,335.3"]);
  ("SAOM", ["3937,98,,68.8,,248.8"]);
  ("SAOR", ["7874,148,1590,101,1591,281"; "7874,164,1590,58.4,1591,238.4"]);
  ("SAOS", ["8366,148,2017,14.1,2020,194.1"]);
  ("SAOU", ["9678,98,2297,186.7,2330,6.7"]);
  ("SARC", ["6890,148,202,8,199,188"]);
  ("SARE", ["9088,148,171,20.9,174,200.9"]);
  ("SARF", ["5905,131,193,25,193,205"]);
  ("SARI", ["10827,148,908,114.8,916,294.8"]);
  ("SARL", ["7415,148,230,171,229,351"]);
  ("SARM", ["4068,98,,173,,353"; "4323,98,,173,,353"]);
  ("SARP", ["7218,98,429,359.3,376,179.3"]);
  ("SARV", ["3937,98"]);
  ("SAS", ["5000,75"]);
  ("SASA", ["9842,148,4088,11.3,4039,191.3"; "7874,98,4068,52.2,3983,232.2"]);
  ("SASJ", ["9698,131,3019,149,2903,329"]);
  ("SASO", ["4839,98,1166,10,1168,190"]);
  ("SASQ", ["8858,98,,154,,334"]);
  ("SAST", ["4921,98,1457,7.3,1473,187.3"]);
  ("SATC", ["3937,98"]);
  ("SATD", ["4695,98,,357,,177"]);
  ("SATG", ["7415,148,,38,,218"]);
  ("SATI", ["2297,98"]);
  ("SATO", ["5905,98,,161.3,,341.3"]);
  ("SATR", ["9186,164,,89.6,,269.6"; "4101,112,,7.4,,187.4"]);
  ("SATU", ["7054,98,,1,,181"]);
  ("SAVA", ["3494,66"]);
  ("SAVB", ["4265,98,,189,,9"]);
  ("SAVC", ["9219,164,189,79,105,259"]);
  ("SAVD", ["3478,98"; "3150,98"; "4961,98"]);
  ("SAVE", ["7874,131,2621,57,2559,237"; "3937,98,,90.2,,270.2"]);
  ("SAVH", ["4593,56,,95,,275"]);
  ("SAVJ", ["6890,98,,80,,260"]);
  ("SAVM", ["3219,98,,109,,289"; "3937,98"]);
  ("SAVN", ["5905,98,,125.3,,305.3"]);
  ("SAVO", ["3084,75"; "3084,75"]);
  ("SAVQ", ["3773,98"]);
  ("SAVR", ["4593,131"]);
  ("SAVS", ["4593,98"]);
  ("SAVT", ["8399,148,140,69,134,249"]);
  ("SAVV", ["8366,148,20,105.6,16,285.6"; "4954,148,,25.7,,205.7"]);
  ("SAVY", ["8202,148,,58,,238"]);
  ("SAWB", ["4134,115,760,72,740,252"]);
  ("SAWC", ["8366,148,669,84.6,653,264.6"]);
  ("SAWD", ["4921,98,,65,,245"]);
  ("SAWE", ["6562,131,66,87.5,44,267.5"]);
  ("SAWG", ["11644,148,61,86,51,266"]);
  ("SAWH", ["9186,148,85,86.2,74,266.2"]);
  ("SAWJ", ["6562,131,,78.9,,258.9"]);
  ("SAWM", ["4921,98"]);
  ("SAWO", ["5299,161,17,178.9,20,358.9"]);
  ("SAWP", ["2790,130,,87.3,,267.3"; "5577,98,,111.8,,291.8"; "4405,100,,127.1,,307.1"]);
  ("SAWR", ["4921,98"]);
  ("SAWS", ["3937,98"; "4921,98"]);
  ("SAWT", ["6340,100,,71,,251"; "3937,98"; "3937,98"]);
  ("SAWU", ["6561,98,364,77.9,364,257.9"; "3960,164,,92.3,,272.3"; "2977,150,,124.9,,304.9"; "4227,166,,179.1,,359.1"; "6562,98,,45.1,,225.1"]);
  ("SAZA", ["4593,98"; "1968,98"]);
  ("SAZB", ["8579,197,246,163.9,246,343.9"; "4915,98,246,164.1,246,344.1"; "6660,108,246,60.7,246,240.7"]);
  ("SAZC", ["4265,98,,169.6,,349.6"]);
  ("SAZD", ["3799,75"; "3150,75"]);
  ("SAZE", ["4856,98"; "3642,98"]);
  ("SAZF", ["3478,148,,125,,305"; "7218,148,,42,,222"]);
  ("SAZG", ["2789,164,,32.1,,212.1"; "7710,148,,160,,340"]);
  ("SAZH", ["2953,75,,134,,314"; "3934,98,,175,,355"; "2461,75,,43,,223"]);
  ("SAZI", ["3689,85,,133.9,,313.9"; "3937,98,,15,,195"]);
  ("SAZJ", ["3478,98"; "3379,98"]);
  ("SAZL", ["4921,98,,170,,350"]);
  ("SAZM", ["7218,148,71,123,62,303"]);
  ("SAZN", ["8432,148,895,90.2,886,270.2"]);
  ("SAZO", ["2621,59,,130,,310"; "3609,98,,175,,355"; "4921,98,,183,,3"]);
  ("SAZP", ["4921,98,279,180,279,360"]);
  ("SAZQ", ["2231,98"; "4528,98"]);
  ("SAZR", ["7546,98,620,11.2,629,191.2"]);
  ("SAZS", ["7703,157,2749,115,2772,295"]);
  ("SAZT", ["8366,157,574,5.1,548,185.1"]);
  ("SAZV", ["5709,92,34,102,34,282"]);
  ("SAZW", ["4052,98,,39.4,,219.4"; "5558,98,2133,83.3,2100,263.3"]);
  ("SAZX", ["3934,98"; "2621,98"]);
  ("SAZY", ["8202,148,2568,68,2526,248"]);
  ("SB03", ["3460,30,,147.9,,327.9"]);
  ("SB04", ["3660,70,,161.7,,341.7"]);
  ("SB06", ["4250,100,,121,,301"]);
  ("SB26", ["4758,98,,358.9,,178.9"]);
  ("SB29", ["4921,82,,35.9,,215.9"]);
  ("SBAA", ["5906,98"]);
  ("SBAE", ["6594,148"]);
  ("SBAF", ["6565,171"]);
  ("SBAM", ["5003,148"]);
  ("SBAN", ["10827,148"; "7326,72"]);
  ("SBAQ", ["5907,99,2275,186,2334,6"]);
  ("SBAR", ["7218,148"]);
  ("SBAT", ["8202,98"]);
  ("SBAU", ["6955,115"]);
  ("SBAV", ["4921,98,1060,60,1052,240"; ",,1060,,1053"]);
  ("SBAX", ["6234,98"]);
  ("SBBE", ["6004,148,27,5,54,185"; "9186,148"; "108,108"]);
  ("SBBG", ["3770,148"; "4921,98"]);
  ("SBBH", ["8333,148"]);
  ("SBBI", ["4560,98,3057,155,3057,335"]);
  ("SBBP", ["3997,98"]);
  ("SBBQ", ["5774,98"]);
  ("SBBR", ["10499,148,3448,86,3479,266"; "10827,148,3497,86,3417,266"]);
  ("SBBT", ["5906,98"]);
  ("SBBU", ["4925,115"]);
  ("SBBV", ["8858,148"]);
  ("SBBW", ["5243,98"]);
  ("SBBZ", ["4265,98"]);
  ("SBCA", ["5299,98"]);
  ("SBCB", ["8366,148"]);
  ("SBCC", ["8527,148"]);
  ("SBCD", ["5331,98"]);
  ("SBCF", ["9843,148,2712,139,2712,319"]);
  ("SBCG", ["8530,141"]);
  ("SBCH", ["6768,148"]);
  ("SBCI", ["5906,148"]);
  ("SBCJ", ["6562,148"]);
  ("SBCM", ["4882,98"]);
  ("SBCN", ["6890,98"]);
  ("SBCO", ["9026,148"]);
  ("SBCP", ["5066,148"]);
  ("SBCR", ["5446,98"]);
  ("SBCT", ["5906,148"; "7267,148,2987,136,2987,314"]);
  ("SBCV", ["5020,164"]);
  ("SBCX", ["5479,98"]);
  ("SBCY", ["7546,148,617,153,598,333"]);
  ("SBCZ", ["7874,148"]);
  ("SBDB", ["6562,98"]);
  ("SBDN", ["6923,115"]);
  ("SBEG", ["8858,148"]);
  ("SBEK", ["5249,98"]);
  ("SBES", ["5906,92"]);
  ("SBFI", ["7201,148"]);
  ("SBFL", ["7546,148"; "4921,148"]);
  ("SBFN", ["6053,148"]);
  ("SBFS", ["144,141"]);
  ("SBFU", ["5246,98"]);
  ("SBFZ", ["8350,148,82,105,65,285"]);
  ("SBGL", ["13123,148,16,74,28,254"; "10433,154,16,125,11,305"]);
  ("SBGM", ["5889,148"]);
  ("SBGO", ["8202,148"]);
  ("SBGP", ["9843,148"]);
  ("SBGR", ["12139,148,2445,74,2440,254"; "9843,148,2450,74,2445,254"]);
  ("SBGU", ["5315,98"]);
  ("SBGV", ["4593,98"]);
  ("SBGW", ["5089,98"]);
  ("SBHT", ["6572,125"]);
  ("SBIC", ["4970,98"]);
  ("SBIH", ["5266,98,110,33,110,213"]);
  ("SBIL", ["5174,148"]);
  ("SBIP", ["6575,148"]);
  ("SBIT", ["5741,98"]);
  ("SBIZ", ["5899,148"]);
  ("SBJC", ["4921,98"]);
  ("SBJD", ["4526,98,2425,157,2465,337"]);
  ("SBJF", ["5036,98"]);
  ("SBJP", ["8251,148"]);
  ("SBJR", ["2880,96,10,,10"]);
  ("SBJU", ["5906,148"]);
  ("SBJV", ["5381,148"]);
  ("SBKG", ["5249,138"]);
  ("SBKP", ["10630,148,2139,128,2170,308"]);
  ("SBLE", ["6831,98"]);
  ("SBLJ", ["5020,98"]);
  ("SBLN", ["5577,105"]);
  ("SBLO", ["6890,148"]);
  ("SBLP", ["3973,98"]);
  ("SBLS", ["6037,98"]);
  ("SBMA", ["6562,148"]);
  ("SBMC", ["4183,98"]);
  ("SBMD", ["5906,98"]);
  ("SBME", ["3937,98"]);
  ("SBMG", ["6890,148"]);
  ("SBMK", ["6890,148"]);
  ("SBML", ["4921,115"]);
  ("SBMN", ["7119,148"]);
  ("SBMO", ["8537,148,387,100,364,280"]);
  ("SBMQ", ["6890,148"]);
  ("SBMS", ["6562,98"]);
  ("SBMT", ["5249,147,2379,100,2376,280"]);
  ("SBMY", ["4199,98"]);
  ("SBNF", ["5581,148"]);
  ("SBNM", ["5331,98"]);
  ("SBNT", ["5987,148,166,99,145,279"; "8530,148,149,141,138,321"; "5905,148,161,141,151,321"]);
  ("SBOI", ["3937,98"]);
  ("SBPA", ["7480,138,11,91,11,271"]);
  ("SBPB", ["6890,148"]);
  ("SBPC", ["4970,98"]);
  ("SBPF", ["5577,75"]);
  ("SBPJ", ["8202,148"]);
  ("SBPK", ["4035,125"; "6496,138"]);
  ("SBPL", ["9055,148"]);
  ("SBPN", ["5577,98"]);
  ("SBPP", ["6562,148"]);
  ("SBPR", ["3045,59"]);
  ("SBPS", ["6562,148"]);
  ("SBPV", ["7874,148"]);
  ("SBQV", ["5823,98"]);
  ("SBRB", ["7080,148"]);
  ("SBRF", ["9865,148,23,162,32,342"]);
  ("SBRJ", ["4134,98"; "4341,138"]);
  ("SBRP", ["6890,148"]);
  ("SBRR", [""]);
  ("SBSC", ["8986,148"]);
  ("SBSG", ["9843,197,273,99,264,279"]);
  ("SBSJ", ["8780,148"]);
  ("SBSL", ["7828,148,178,39,143,219"; "4803,148,171,70,131,250"]);
  ("SBSM", ["8858,148"; "4593,98"]);
  ("SBSN", ["7874,148"]);
  ("SBSO", ["5577"]);
  ("SBSP", ["4708,148,2589,176,2629,6"; "6365,148,2615,176,2633,6"]);
  ("SBSR", ["5381,115"]);
  ("SBST", ["4560,148"]);
  ("SBSV", ["9859,148,30,78,64,258"; "4987,148,28,143,34,323"]);
  ("SBTA", ["6170,98,1908,77,1908,257"]);
  ("SBTB", ["5249,98"]);
  ("SBTC", ["6234,98"]);
  ("SBTD", ["5479,98"]);
  ("SBTE", ["7218,148"]);
  ("SBTF", ["7218,148"]);
  ("SBTK", ["3707,46"]);
  ("SBTL", ["5906,98"]);
  ("SBTR", ["4921,98"]);
  ("SBTS", ["5249,98"]);
  ("SBTT", ["7054,98"]);
  ("SBTU", ["6562,148"]);
  ("SBTV", ["4921,75,,126.7,,306.7"]);
  ("SBUA", ["8530,148"]);
  ("SBUF", ["5906,148"]);
  ("SBUG", ["2625,164"; "4921,98"]);
  ("SBUL", ["6398,148"]);
  ("SBUR", ["5771,148"]);
  ("SBVG", ["4921,98"]);
  ("SBVH", ["8530,98"]);
  ("SBVT", ["5741,148"]);
  ("SBYA", ["5249,98"]);
  ("SBYS", ["6923,148"; "6916,148"; "6916,148"]);
  ("SBZM", ["8284,148"]);
  ("SC00", ["7000,400"]);
  ("SC02", ["61,48"]);
  ("SC03", ["2800,100"]);
  ("SC04", ["50,50"]);
  ("SC05", ["2400,100"]);
  ("SC06", ["1200,75"]);
  ("SC07", ["2600,125"]);
  ("SC08", ["1500,70"]);
  ("SC09", ["40,40"]);
  ("SC10", ["1500,50"]);
  ("SC11", ["40,40"]);
  ("SC12", ["2500,100"]);
  ("SC13", ["3300,200"]);
  ("SC14", ["1700,85"]);
  ("SC15", ["3100,150"]);
  ("SC16", ["2600,200"]);
  ("SC17", ["2400,75"]);
  ("SC18", ["30,30"]);
  ("SC19", ["3150,75"]);
  ("SC1A", ["10165,98,,82.3,,262.3"]);
  ("SC20", ["1500,50"]);
  ("SC21", ["1500,80"; "3300,130"]);
  ("SC22", ["65,65"; "50,50"]);
  ("SC23", ["2700,180"; "1500,200"]);
  ("SC24", ["2100,80"]);
  ("SC26", ["1800,100"]);
  ("SC27", ["3000,80"]);
  ("SC29", ["3000,70"]);
  ("SC30", ["50,50"]);
  ("SC31", ["50,42"]);
  ("SC34", ["2600,50"]);
  ("SC35", ["3400,80"]);
  ("SC36", ["1900,28"]);
  ("SC37", ["2700,100"]);
  ("SC38", ["3340,80"]);
  ("SC39", ["2850,85"]);
  ("SC40", ["2700,150"]);
  ("SC41", ["3720,150"]);
  ("SC42", ["3000,30"]);
  ("SC43", ["1400,60"]);
  ("SC44", ["3000,150"]);
  ("SC45", ["3500,100"]);
  ("SC46", ["2600,60"]);
  ("SC47", ["3200,100"]);
  ("SC48", ["3700,100"]);
  ("SC50", ["2300,75"]);
  ("SC51", ["2600,80"]);
  ("SC52", ["1400,75"]);
  ("SC53", ["500,250"]);
  ("SC54", ["88,88"]);
  ("SC55", ["2600,150"]);
  ("SC56", ["2000,75"]);
  ("SC58", ["1740,100"]);
  ("SC59", ["100,50"]);
  ("SC60", ["2800,66"]);
  ("SC61", ["2600,150"]);
  ("SC62", ["40,40"]);
  ("SC63", ["30,30"]);
  ("SC64", ["50,50"]);
  ("SC65", ["2400,100"]);
  ("SC66", ["25,25"]);
  ("SC68", ["50,50"]);
  ("SC69", ["3000,75"]);
  ("SC70", ["1300,80"]);
  ("SC71", ["50,50"]);
  ("SC72", ["3700,50"]);
  ("SC73", ["50,50"]);
  ("SC74", ["1700,75"]);
  ("SC75", ["1800,50"]);
  ("SC76", ["2600,100"]);
  ("SC77", ["90,60"]);
  ("SC78", ["2400,200"]);
  ("SC79", ["4000,200"]);
  ("SC81", ["2250,40"]);
  ("SC82", ["2400,100"]);
  ("SC83", ["50,50"]);
  ("SC84", ["25,25"]);
  ("SC85", ["60,60"]);
  ("SC86", ["2500,75"]);
  ("SC87", ["3000,100"]);
  ("SC88", ["1500,30"]);
  ("SC89", ["2500,125"]);
  ("SC90", ["3200,100"]);
  ("SC91", ["2150,50"]);
  ("SC92", ["2200,50"]);
  ("SC94", ["2660,110"]);
  ("SC95", ["5000,100"]);
  ("SC96", ["1000,75"]);
  ("SC98", ["2700,65"]);
  ("SC99", ["3000,35,,81.2,,261.2"]);
  ("SCAA", ["1969,59"]);
  ("SCAB", ["1673,56"]);
  ("SCAC", ["3937,98"]);
  ("SCAD", ["2297,59"]);
  ("SCAE", ["2625,75"]);
  ("SCAF", ["2297,59"]);
  ("SCAG", ["3281,59"]);
  ("SCAH", ["2460,46"]);
  ("SCAJ", ["1739,98"]);
  ("SCAK", ["2133,82"]);
  ("SCAL", ["1641,49"; "1641,49"]);
  ("SCAM", ["2215,59"]);
  ("SCAN", ["2467,59"]);
  ("SCAO", ["2690,59"]);
  ("SCAP", ["2986,59"]);
  ("SCAQ", ["2756,66"]);
  ("SCAR", ["7119,148,123,19.3,166,199.3"]);
  ("SCAS", ["4167,75"]);
  ("SCAT", ["7218,148,620,175.3,670,355.3"]);
  ("SCAU", ["1946,49"]);
  ("SCAV", ["2362,66"]);
  ("SCAY", ["2067,59"]);
  ("SCAZ", ["1641,49"]);
  ("SCBA", ["8205,148,1722,99.7,1667,279.7"]);
  ("SCBB", ["2146,59"]);
  ("SCBC", ["1969,59"]);
  ("SCBD", ["2461,59"]);
  ("SCBE", ["5380,95,,138,,318"]);
  ("SCBI", ["2625,66"]);
  ("SCBN", ["1969,59"]);
  ("SCBQ", ["6024,131,,28.8,,208.8"]);
  ("SCBR", ["2756,98"]);
  ("SCBS", ["3281,98"]);
  ("SCBT", ["1322,49"]);
  ("SCBV", ["2133,59"]);
  ("SCCA", ["2858,59"; "2297,66"]);
  ("SCCB", ["2953,98"]);
  ("SCCC", ["3937,75,,137,,317"]);
  ("SCCE", ["2330,59"]);
  ("SCCF", ["9478,98,7424,93.6,7613,273.6"]);
  ("SCCG", ["1969,98"]);
  ("SCCH", ["5740,98,499,45,499,225"]);
  ("SCCI", ["5504,148,122,28.7,110,208.7"; "9154,148,139,88.8,112,268.8"; "7875,148,138,138.9,112,318.9"]);
  ("SCCK", ["1903,59"]);
  ("SCCL", ["3936,75,,108.4,,288.4"]);
  ("SCCM", ["2756,59"]);
  ("SCCN", ["2297,59"]);
  ("SCCQ", ["2461,59"]);
  ("SCCR", ["1969,59"]);
  ("SCCS", ["2297,59"]);
  ("SCCT", ["2625,59"]);
  ("SCCU", ["4922,115"]);
  ("SCCV", ["2625,59"]);
  ("SCCY", ["5072,98,1020,45.6,1020,225.6"]);
  ("SCDA", ["10991,148,97,183,156,3"]);
  ("SCDD", ["1936,49"]);
  ("SCDH", ["1641,49"]);
  ("SCDI", ["1969,59"]);
  ("SCDL", ["1476,49"]);
  ("SCDM", ["1870,59"]);
  ("SCDQ", ["3117,98"]);
  ("SCDS", ["1641,52"]);
  ("SCDW", ["3937,98,,52.1,,232.1"; "4905,92,,137.7,,317.7"]);
  ("SCEA", ["1641,49"]);
  ("SCEB", ["1969,59"]);
  ("SCEC", ["4199,100,,23.8,,203.8"]);
  ("SCED", ["2789,59"; "2789,59"]);
  ("SCEG", ["1641,52"]);
  ("SCEK", ["2133,59"]);
  ("SCEL", ["12303,180,1550,178,1555,358"; "12303,148,1551,177,1550,357"]);
  ("SCEO", ["1969,52"]);
  ("SCEP", ["1739,59"]);
  ("SCER", ["3937,164,12,22,10,202"]);
  ("SCES", ["7546,98,,88.8,,268.8"]);
  ("SCEV", ["1706,59"]);
  ("SCEX", ["2133,59"]);
  ("SCEY", ["1805,59"]);
  ("SCFA", ["8527,164,352,6.9,455,186.9"]);
  ("SCFC", ["2559,66"]);
  ("SCFF", ["2297,66"]);
  ("SCFI", ["1641,49"]);
  ("SCFJ", ["1476,49"]);
  ("SCFK", ["1969,59"]);
  ("SCFL", ["2953,64"]);
  ("SCFM", ["2614,98,,46.6,,226.6"; "8202,98,61,110.1,104,290.1"]);
  ("SCFO", ["2133,59"]);
  ("SCFR", ["2690,59"]);
  ("SCFS", ["2067,49"]);
  ("SCFT", ["3110,59,,103,,283"]);
  ("SCFU", ["3117,66"]);
  ("SCFX", ["6562,98,,121,,301"]);
  ("SCGA", ["1641,52"]);
  ("SCGB", ["1641,59"]);
  ("SCGE", ["5577,98,363,185.3,370,5.3"]);
  ("SCGF", ["1641,59"]);
  ("SCGH", ["1969,59"]);
  ("SCGI", ["2297,98"]);
  ("SCGL", ["2625,98"]);
  ("SCGM", ["1854,49"]);
  ("SCGN", ["1887,49"]);
  ("SCGO", ["2625,59"]);
  ("SCGP", ["2625,66"]);
  ("SCGS", ["3117,82"]);
  ("SCGU", ["3937,59"]);
  ("SCGV", ["1821,59"]);
  ("SCGY", ["1965,59"]);
  ("SCGZ", ["4724,95,88,91.4,42,271.4"]);
  ("SCHA", ["5446,92"]);
  ("SCHC", ["3281,98"]);
  ("SCHD", ["1641,49"]);
  ("SCHE", ["2461,66"]);
  ("SCHG", ["1969,59"]);
  ("SCHK", ["1641,82"]);
  ("SCHL", ["2008,59"]);
  ("SCHM", ["2297,59"]);
  ("SCHN", ["2625,82"]);
  ("SCHO", ["1969,98"]);
  ("SCHP", ["3232,59"]);
  ("SCHR", ["3346,75,,87.1,,267.1"]);
  ("SCHT", ["1591,49"]);
  ("SCHU", ["2297,59"]);
  ("SCHW", ["1870,59"]);
  ("SCIA", ["1969,59"]);
  ("SCIB", ["1969,59"]);
  ("SCIC", ["2625,59"]);
  ("SCID", ["2264,98"]);
  ("SCIE", ["7540,148,26,25,16,205"; "6470,98,22,25,15,205"]);
  ("SCIF", ["1969,82"]);
  ("SCIH", ["2231,59"]);
  ("SCII", ["2067,66"]);
  ("SCIK", ["2477,59"]);
  ("SCIL", ["3740,72,,26,,206"]);
  ("SCIM", ["2625,59"]);
  ("SCIO", ["1969,59"]);
  ("SCIP", ["10827,148,127,117.2,227,297.2"]);
  ("SCIR", ["2822,59"]);
  ("SCIS", ["2625,59"]);
  ("SCIT", ["2198,59"]);
  ("SCJC", ["1641,59"]);
  ("SCJK", ["2198,66"]);
  ("SCJO", ["5578,118,,155.3,,335.3"]);
  ("SCKA", ["1870,59"]);
  ("SCKB", ["1641,59"]);
  ("SCKD", ["4134,59"]);
  ("SCKE", ["2083,59"]);
  ("SCKI", ["1969,59"]);
  ("SCKL", ["1476,49"]);
  ("SCKM", ["1772,66"]);
  ("SCKO", ["1969,52"]);
  ("SCKP", ["3393,66,,97.5,,277.5"; "10499,98,,169.9,,349.9"]);
  ("SCKQ", ["2034,66"]);
  ("SCKT", ["1969,66"]);
  ("SCLB", ["2625,59"]);
  ("SCLC", ["1805,33"]);
  ("SCLD", ["3445,75"]);
  ("SCLE", ["7874,98"]);
  ("SCLF", ["1969,66"]);
  ("SCLG", ["2461,59"]);
  ("SCLI", ["2477,33"]);
  ("SCLJ", ["2953,59"]);
  ("SCLK", ["2494,66"]);
  ("SCLL", ["4624,98,,98,,278"]);
  ("SCLM", ["2379,59"]);
  ("SCLN", ["3281,59"]);
  ("SCLO", ["1969,59"]);
  ("SCLQ", ["2526,66"]);
  ("SCLR", ["1641,49"]);
  ("SCLS", ["1739,52"]);
  ("SCLU", ["1969,59"]);
  ("SCLV", ["1641,59"]);
  ("SCLY", ["3143,59"]);
  ("SCMA", ["1969,98"]);
  ("SCMB", ["3281,52,,29.6,,209.6"]);
  ("SCMC", ["1969,66"]);
  ("SCME", ["1837,66"]);
  ("SCMF", ["2461,66"]);
  ("SCMG", ["2674,66"]);
  ("SCMH", ["2297,66"]);
  ("SCMK", ["2625,59"]);
  ("SCML", ["3281,59"]);
  ("SCMN", ["2133,49"]);
  ("SCMO", ["2362,59"]);
  ("SCMP", ["1745,59"]);
  ("SCMR", ["2625,49"]);
  ("SCMS", ["1969,59"]);
  ("SCMU", ["2274,72"]);
  ("SCMV", ["2690,56"]);
  ("SCMZ", ["1739,49"]);
  ("SCNA", ["2854,59"]);
  ("SCND", ["2083,59"]);
  ("SCNE", ["5643,59"]);
  ("SCNG", ["1641,59"]);
  ("SCNH", ["1641,59"]);
  ("SCNI", ["2133,66"]);
  ("SCNK", ["2953,66"]);
  ("SCNM", ["2953,75"]);
  ("SCNO", ["2297,98"]);
  ("SCNR", ["1673,59"]);
  ("SCNT", ["5786,98,,120,,300"]);
  ("SCNY", ["2067,59"]);
  ("SCOA", ["1969,59"]);
  ("SCOB", ["1969,59"]);
  ("SCOC", ["1969,59"]);
  ("SCOE", ["1641,46"]);
  ("SCOH", ["4265,75"]);
  ("SCOL", ["1641,59"]);
  ("SCOM", ["1995,98"]);
  ("SCON", ["3937,79"]);
  ("SCOO", ["1969,59"]);
  ("SCOP", ["1870,59"]);
  ("SCOS", ["1641,49"]);
  ("SCOT", ["3084,39,,70.2,,250.2"]);
  ("SCOV", ["2618,75"]);
  ("SCOY", ["2920,66"]);
  ("SCPA", ["3937,59"]);
  ("SCPB", ["1887,59"]);
  ("SCPC", ["5576,98,,102.6,,282.6"]);
  ("SCPE", ["6560,75,,134,,314"]);
  ("SCPF", ["3281,33"]);
  ("SCPG", ["2198,85"]);
  ("SCPH", ["3445,59"]);
  ("SCPI", ["3281,59"]);
  ("SCPK", ["1969,59"]);
  ("SCPL", ["2198,59"]);
  ("SCPM", ["2100,59"]);
  ("SCPN", ["1247,49"]);
  ("SCPO", ["1641,49"]);
  ("SCPR", ["1969,85"]);
  ("SCPS", ["5289,59"]);
  ("SCPT", ["2198,59"]);
  ("SCPU", ["2080,59"]);
  ("SCPV", ["2559,59"]);
  ("SCPW", ["2001,59"]);
  ("SCPY", ["2953,98"]);
  ("SCQC", ["2625,98"]);
  ("SCQE", ["1969,82"]);
  ("SCQI", ["2395,66"]);
  ("SCQK", ["2385,59"]);
  ("SCQL", ["1969,66"]);
  ("SCQM", ["1969,49"]);
  ("SCQO", ["1969,59"]);
  ("SCQR", ["2011,46"]);
  ("SCQT", ["3590,66,,174.8,,354.8"]);
  ("SCQW", ["1772,59"]);
  ("SCQX", ["2034,59"]);
  ("SCQY", ["3084,59,,91,,271"]);
  ("SCRA", ["3985,98,,97,,277"]);
  ("SCRB", ["2297,59"]);
  ("SCRC", ["2953,59"]);
  ("SCRD", ["2789,66"]);
  ("SCRE", ["2625,59"]);
  ("SCRF", ["2953,59"]);
  ("SCRG", ["5414,75,,36,,216"]);
  ("SCRH", ["1641,49"]);
  ("SCRI", ["1841,66"]);
  ("SCRL", ["1969,148"]);
  ("SCRM", ["4238,125,142,122,127,302"]);
  ("SCRN", ["2165,59"]);
  ("SCRO", ["1969,59"]);
  ("SCRP", ["3019,98"]);
  ("SCRQ", ["1969,59"]);
  ("SCRR", ["1969,59"]);
  ("SCRS", ["3281,59"]);
  ("SCRT", ["2559,66"]);
  ("SCRU", ["1969,69"]);
  ("SCRV", ["2625,59"]);
  ("SCRW", ["2953,49"]);
  ("SCRZ", ["1805,59"]);
  ("SCSA", ["1312,49"]);
  ("SCSB", ["3937,98,106,,98"; "4921,131,106,,106"]);
  ("SCSD", ["3117,59"]);
  ("SCSE", ["6358,148,436,115.9,481,295.9"]);
  ("SCSF", ["3445,98"]);
  ("SCSG", ["1641,49"]);
  ("SCSH", ["2658,92"]);
  ("SCSJ", ["1923,49"]);
  ("SCSK", ["2297,59"]);
  ("SCSM", ["9187,59"]);
  ("SCSN", ["2625,59,234,53,246,233"]);
  ("SCSO", ["2110,98"]);
  ("SCSP", ["2034,59"]);
  ("SCSQ", ["1673,52"]);
  ("SCSR", ["1969,59"]);
  ("SCSS", ["3609,82"]);
  ("SCST", ["3281,59"]);
  ("SCSU", ["1969,59"]);
  ("SCSV", ["2198,59"]);
  ("SCSZ", ["2133,66"]);
  ("SCTA", ["1969,59"]);
  ("SCTB", ["3280,98,2129,12.8,2129,192.8"]);
  ("SCTC", ["5577,147,284,67.2,304,247.2"]);
  ("SCTE", ["8694,148,264,182,294,2"]);
  ("SCTH", ["2576,59"]);
  ("SCTL", ["3660,80,,38.9,,218.9"]);
  ("SCTM", ["2625,59"]);
  ("SCTN", ["4670,65,,137,,317"]);
  ("SCTO", ["3478,59,,18,,198"]);
  ("SCTP", ["2297,59"]);
  ("SCTQ", ["2854,59"]);
  ("SCTR", ["2625,59"]);
  ("SCTS", ["2625,59"]);
  ("SCTT", ["3920,66,,157.1,,337.1"]);
  ("SCTU", ["2083,66"]);
  ("SCTW", ["1641,49"]);
  ("SCUI", ["1969,59"]);
  ("SCUL", ["1969,98"]);
  ("SCUM", ["1641,59"]);
  ("SCUN", ["2786,59"]);
  ("SCUP", ["2756,66"]);
  ("SCUR", ["2625,66"]);
  ("SCUT", ["2756,59"]);
  ("SCUZ", ["2149,56"]);
  ("SCVA", ["1936,49"]);
  ("SCVB", ["2297,66"]);
  ("SCVC", ["2953,59"]);
  ("SCVD", ["6870,148,59,178.4,54,358.4"]);
  ("SCVE", ["2723,66"]);
  ("SCVF", ["2756,59"]);
  ("SCVG", ["1870,59"]);
  ("SCVH", ["3281,66"]);
  ("SCVI", ["3281,59"]);
  ("SCVJ", ["1969,59"]);
  ("SCVK", ["2625,59"]);
  ("SCVL", ["4101,54,,183.1,,3.1"]);
  ("SCVM", ["5760,98,461,52,428,232"]);
  ("SCVN", ["2658,82"]);
  ("SCVO", ["2133,66"]);
  ("SCVQ", ["1969,52"]);
  ("SCVS", ["1969,59"]);
  ("SCVT", ["2182,59"]);
  ("SCVV", ["2297,59"]);
  ("SCXA", ["1969,56"]);
  ("SCXB", ["2625,89"]);
  ("SCXR", ["2133,59"]);
  ("SCYB", ["3281,59"]);
  ("SCYC", ["1641,49"]);
  ("SCYL", ["1969,82"]);
  ("SCYR", ["2297,49"]);
  ("SCYU", ["1641,59"]);
  ("SCZB", ["2461,59"]);
  ("SCZC", ["1476,49"]);
  ("SCZE", ["2149,59"]);
  ("SD00", ["3000,100"]);
  ("SD01", ["2000,20"; "3000,100"]);
  ("SD03", ["1400,100"; "1050,100"]);
  ("SD05", ["2850,100"]);
  ("SD09", ["65,65"]);
  ("SD1", ["93,90"]);
  ("SD13", ["2528,100"]);
  ("SD14", ["3000,50"]);
  ("SD17", ["40,40"]);
  ("SD19", ["3100,75"]);
  ("SD21", ["2100,100"]);
  ("SD22", ["30,30"]);
  ("SD23", ["150,100"]);
  ("SD24", ["3150,60"; "3860,60"]);
  ("SD25", ["2525,75"]);
  ("SD26", ["100,100"]);
  ("SD29", ["2250,94"]);
  ("SD33", ["2000,50,,51,,231"; "4800,30,,121,,301"]);
  ("SD35", ["3000,40"]);
  ("SD36", ["1340,50"; "2000,50"]);
  ("SD40", ["48,48"]);
  ("SD41", ["4750,75"]);
  ("SD42", ["2500,110"]);
  ("SD43", ["1800,100"; "2000,100"; "1800,100"]);
  ("SD44", ["2615,90"; "2640,120"]);
  ("SD45", ["25,25"]);
  ("SD46", ["2400,80"]);
  ("SD47", ["2000,125"]);
  ("SD48", ["1700,50"; "2375,80"]);
  ("SD49", ["2100,60"]);
  ("SD50", ["2250,200,1775,159,1787,339"]);
  ("SD52", ["40,50"]);
  ("SD53", ["1906,75"]);
  ("SD54", ["30,30"]);
  ("SD55", ["2700,30"]);
  ("SD56", ["2300,50"]);
  ("SD57", ["2400,80"; "2600,80"; "2400,80"]);
  ("SD58", ["30,30"]);
  ("SD61", ["2545,75"]);
  ("SD63", ["40,40"]);
  ("SD64", ["40,40"]);
  ("SD65", ["2300,66"]);
  ("SD66", ["4500,200"; "4500,300"]);
  ("SD67", ["30,30"]);
  ("SD68", ["3400,50"]);
  ("SD69", ["100,100"]);
  ("SD70", ["700,100"]);
  ("SD71", ["1200,100"; "2500,100"]);
  ("SD72", ["800,50"; "1300,50"]);
  ("SD74", ["2600,50"]);
  ("SD75", ["3000,75"]);
  ("SD76", ["2100,30"; "1400,50"]);
  ("SD78", ["2900,40"]);
  ("SD79", ["2600,100"]);
  ("SD80", ["40,40"]);
  ("SD83", ["3400,100"]);
  ("SD86", ["20,20"]);
  ("SD87", ["120,80"]);
  ("SD88", ["1400,50"]);
  ("SD90", ["1200,90"]);
  ("SD91", ["20,20"]);
  ("SD92", ["34,30"]);
  ("SD93", ["1500,45"; "4000,48"]);
  ("SD94", ["2600,50"]);
  ("SD96", ["233,75"]);
  ("SD97", ["3000,80"]);
  ("SD98", ["3200,150"]);
  ("SD99", ["1550,100"]);
  ("SDAA", ["3773,98"]);
  ("SDAB", ["66,66"]);
  ("SDAC", ["72,72"]);
  ("SDAD", ["3773,59"]);
  ("SDAE", ["3281,82"]);
  ("SDAF", ["3281,59"]);
  ("SDAG", ["2995,98"]);
  ("SDAH", ["66,66"]);
  ("SDAI", ["3609,59"]);
  ("SDAJ", ["5020,75"]);
  ("SDAL", ["3540,59,,76.4,,256.4"]);
  ("SDAM", ["3937,98"]);
  ("SDAN", ["2625,72"]);
  ("SDAP", ["69,69"]);
  ("SDAQ", ["59,59"]);
  ("SDAR", ["79,79"]);
  ("SDAS", ["4199,66"]);
  ("SDAU", ["62,62"]);
  ("SDAV", ["59,59"]);
  ("SDAW", ["66,66"]);
  ("SDAX", ["66,66"]);
  ("SDAY", ["2297,131"]);
  ("SDAZ", ["79,79"]);
  ("SDBA", ["3609,98"]);
  ("SDBB", ["4265,75"]);
  ("SDBC", ["79,79"]);
  ("SDBF", ["66,66"]);
  ("SDBG", ["59,59"]);
  ("SDBH", ["59,59"]);
  ("SDBI", ["2625,75"]);
  ("SDBJ", ["59,59"]);
  ("SDBK", ["3281,98"]);
  ("SDBL", ["69,69"]);
  ("SDBM", ["66,66"]);
  ("SDBN", ["2001,66"]);
  ("SDBP", ["3937,98"]);
  ("SDBQ", ["59,59"]);
  ("SDBR", ["66,66"]);
  ("SDBS", ["59,59"]);
  ("SDBT", ["59,59"]);
  ("SDBV", ["1969,59"]);
  ("SDBW", ["59,59"]);
  ("SDBY", ["4593,98"]);
  ("SDBZ", ["59,59"]);
  ("SDCA", ["3527,66"]);
  ("SDCB", ["85,85"]);
  ("SDCC", ["2789,66"]);
  ("SDCD", ["3232,66"]);
  ("SDCE", ["3937,66"]);
  ("SDCF", ["59,59"]);
  ("SDCG", ["3937,75"]);
  ("SDCH", ["59,59"]);
  ("SDCI", ["85,85"]);
  ("SDCK", ["59,59"]);
  ("SDCL", ["1969,75"]);
  ("SDCM", ["4265,66"]);
  ("SDCN", ["33,59"]);
  ("SDCO", ["4856,98"]);
  ("SDCP", ["79,79"]);
  ("SDCQ", ["66,66"]);
  ("SDCR", ["1837,59"]);
  ("SDCS", ["98,98"]);
  ("SDCT", ["1640,66"]);
  ("SDCU", ["2592,59"]);
  ("SDCV", ["62,62"]);
  ("SDCW", ["3281,82"]);
  ("SDCX", ["62,62"]);
  ("SDCY", ["75,75"]);
  ("SDCZ", ["3904,75"]);
  ("SDDA", ["79,79"]);
  ("SDDB", ["3281,66"]);
  ("SDDF", ["66,66"]);
  ("SDDG", ["59,59"]);
  ("SDDH", ["79,79"]);
  ("SDDJ", ["2953,98"]);
  ("SDDK", ["2625,66"]);
  ("SDDL", ["2953,75"]);
  ("SDDM", ["59,59"]);
  ("SDDN", ["4921,98"]);
  ("SDDO", ["59,59"]);
  ("SDDP", ["59,59"]);
  ("SDDR", ["4921,98"]);
  ("SDDT", ["85,85"]);
  ("SDDV", ["2493,59"]);
  ("SDDW", ["59,59"]);
  ("SDDX", ["2461,75"]);
  ("SDDY", ["79,79"]);
  ("SDEA", ["66,66"]);
  ("SDEB", ["72,72"]);
  ("SDEC", ["3280,66"]);
  ("SDED", ["1969,66"]);
  ("SDEE", ["3117,131"]);
  ("SDEF", ["62,62"]);
  ("SDEG", ["2953,59"]);
  ("SDEH", ["79,79"]);
  ("SDEJ", ["1903,59"]);
  ("SDEK", ["69,69"]);
  ("SDEL", ["59,59"]);
  ("SDEM", ["2297,98"]);
  ("SDEN", ["3476,75"]);
  ("SDEO", ["4921,82"]);
  ("SDEP", ["3314,59"]);
  ("SDEQ", ["69,69"]);
  ("SDER", ["1640,75"]);
  ("SDES", ["3369,98"]);
  ("SDET", ["2789,98"]);
  ("SDEU", ["59,59"]);
  ("SDEV", ["39,39"]);
  ("SDEW", ["66,66"]);
  ("SDEX", ["2583,66"]);
  ("SDEY", ["69,69"]);
  ("SDEZ", ["75,75"]);
  ("SDFA", ["4593,98"]);
  ("SDFB", ["2625,98"]);
  ("SDFC", ["3281,75"]);
  ("SDFD", ["3281,82"]);
  ("SDFE", ["2625,59"]);
  ("SDFF", ["2461,98"]);
  ("SDFG", ["79,79"]);
  ("SDFH", ["3281,98"]);
  ("SDFI", ["4514,39,,126.5,,306.5"]);
  ("SDFJ", ["69,69"]);
  ("SDFK", ["3937,131"]);
  ("SDFL", ["2133,75"]);
  ("SDFM", ["2953,75"]);
  ("SDFN", ["2461,75"]);
  ("SDFO", ["72,72"]);
  ("SDFP", ["59,59"]);
  ("SDFQ", ["69,69"]);
  ("SDFS", ["69,69"]);
  ("SDFT", ["1640,75"]);
  ("SDFU", ["1969,59"]);
  ("SDFV", ["59,59"]);
  ("SDFW", ["69,69"]);
  ("SDFX", ["3609,66"]);
  ("SDFY", ["2625,98"]);
  ("SDFZ", ["59,59"]);
  ("SDGA", ["59,59"]);
  ("SDGB", ["3445,98"]);
  ("SDGC", ["3281,98"]);
  ("SDGD", ["79,79"]);
  ("SDGE", ["66,66"]);
  ("SDGF", ["1411,66"]);
  ("SDGI", ["79,79"]);
  ("SDGJ", ["2461,59"]);
  ("SDGK", ["1969,75"]);
  ("SDGL", ["69,69"]);
  ("SDGM", ["59,59"]);
  ("SDGO", ["85,85"]);
  ("SDGP", ["2625,75"]);
  ("SDGQ", ["59,59"]);
  ("SDGR", ["2067,66"]);
  ("SDGS", ["59,59"]);
  ("SDGT", ["2297,98"]);
  ("SDGU", ["3281,98"]);
  ("SDGV", ["69,69"]);
  ("SDGW", ["69,69"]);
  ("SDGX", ["69,69"]);
  ("SDGY", ["1969,75"]);
  ("SDGZ", ["69,69"]);
  ("SDHA", ["66,66"]);
  ("SDHB", ["69,69"]);
  ("SDHC", ["1640,59"]);
  ("SDHD", ["62,62"])].

(* ADRpy/data/runways.csv *)
Definition airports_26 : list (string * list string) := [
  ("SDHE", ["1804,98"]);
  ("SDHF", ["64,64"]);
  ("SDHG", ["79,79"]);
  ("SDHH", ["66,66"]);
  ("SDHI", ["69,69"]);
  ("SDHJ", ["79,79"]);
  ("SDHK", ["59,59"]);
  ("SDHL", ["59,59"]);
  ("SDHM", ["66,66"]);
  ("SDHN", ["59,59"]);
  ("SDHO", ["75,75"]);
  ("SDHQ", ["59,59"]);
  ("SDHR", ["2461,75"]);
  ("SDHS", ["62,62"]);
  ("SDHT", ["59,59"]);
  ("SDHU", ["59,59"]);
  ("SDHV", ["62,62"]);
  ("SDHW", ["59,59"]);
  ("SDHX", ["1494,59"]);
  ("SDHY", ["66,66"]);
  ("SDHZ", ["66,66"]);
  ("SDI", ["3806"]);
  ("SDIA", ["69,69"]);
  ("SDIB", ["2789,59"]);
  ("SDID", ["2297,98"]);
  ("SDIE", ["69,69"]);
  ("SDIG", ["3937,59"]);
  ("SDIH", ["2461,75"]);
  ("SDIL", ["3445,59"]);
  ("SDIM", ["2625,98"]);
  ("SDIN", ["1148,66"; "1246,52"; "1312,98"]);
  ("SDIO", ["4265,82"]);
  ("SDIP", ["1969,66"]);
  ("SDIQ", ["62,62"]);
  ("SDIS", ["69,69"]);
  ("SDIT", ["69,69"]);
  ("SDIU", ["2625,98"]);
  ("SDIV", ["3281,98"]);
  ("SDIW", ["59,59"]);
  ("SDIX", ["69,69"]);
  ("SDIY", ["79,79"]);
  ("SDIZ", ["2854,98"]);
  ("SDJA", ["4593,69"]);
  ("SDJB", ["69,69"]);
  ("SDJC", ["3150,75"]);
  ("SDJE", ["66,66"]);
  ("SDJF", ["2297,98"]);
  ("SDJG", ["2723,59"]);
  ("SDJH", ["66,66"]);
  ("SDJI", ["85,85"]);
  ("SDJJ", ["59,59"]);
  ("SDJL", ["3478,62"]);
  ("SDJM", ["59,59"]);
  ("SDJN", ["1969,75"]);
  ("SDJO", ["3281,98"]);
  ("SDJQ", ["4593,75"]);
  ("SDJR", ["1969,66"]);
  ("SDJT", ["59,59"]);
  ("SDJU", ["66,66"]);
  ("SDJV", ["4101,98"]);
  ("SDJW", ["66,66"]);
  ("SDJY", ["59,59"]);
  ("SDJZ", ["3281,98"]);
  ("SDKB", ["2297,66"]);
  ("SDKC", ["1969,59"]);
  ("SDKD", ["59,59"]);
  ("SDKE", ["3707,49"]);
  ("SDKF", ["4593,72"]);
  ("SDKG", ["1969,66"]);
  ("SDKH", ["69,69"]);
  ("SDKI", ["69,69"]);
  ("SDKJ", ["4593,98"]);
  ("SDKK", ["3281,98"]);
  ("SDKM", ["62,62"]);
  ("SDKN", ["2953,66"]);
  ("SDKO", ["3937,75"]);
  ("SDKP", ["2953,115"]);
  ("SDKQ", ["2428,66"]);
  ("SDKR", ["4675,328"]);
  ("SDKS", ["59,59"]);
  ("SDKT", ["62,62"]);
  ("SDKU", ["69,69"]);
  ("SDKV", ["69,69"]);
  ("SDKW", ["2625,66"]);
  ("SDKY", ["69,69"]);
  ("SDLA", ["66,66"]);
  ("SDLB", ["59,59"]);
  ("SDLC", ["3386,118"]);
  ("SDLD", ["66,66"]);
  ("SDLE", ["3937,135"]);
  ("SDLF", ["79,79"]);
  ("SDLG", ["3281,49"]);
  ("SDLH", ["3609,82"]);
  ("SDLI", ["3937,66"]);
  ("SDLJ", ["3281,59"]);
  ("SDLK", ["3937,98"]);
  ("SDLL", ["3609,98"]);
  ("SDLN", ["2100,98"]);
  ("SDLO", ["2461,59"]);
  ("SDLP", ["4134,66"]);
  ("SDLQ", ["2625,262"]);
  ("SDLR", ["3609,115"]);
  ("SDLS", ["62,62"]);
  ("SDLU", ["4593,82"]);
  ("SDLV", ["2461,59"]);
  ("SDLW", ["4265,66"]);
  ("SDLX", ["4265,131"]);
  ("SDLY", ["2461,75"]);
  ("SDMA", ["1969,75"]);
  ("SDMB", ["59,59"]);
  ("SDMC", ["3904,98"]);
  ("SDMD", ["2625,98"]);
  ("SDME", ["3609,66"]);
  ("SDMF", ["66,66"]);
  ("SDMH", ["3281,98"]);
  ("SDMI", ["66,66"]);
  ("SDMJ", ["4921,98"]);
  ("SDMN", ["79,79"]);
  ("SDMO", ["3181,96,,148,,328"]);
  ("SDMP", ["62,62"]);
  ("SDMQ", ["3281,98"]);
  ("SDMR", ["2205,128"]);
  ("SDMS", ["69,69"]);
  ("SDMT", ["59,59"]);
  ("SDMU", ["62,62"]);
  ("SDMV", ["3412,98"]);
  ("SDMW", ["1969,66"]);
  ("SDMX", ["3609,59"]);
  ("SDMY", ["4921,98"]);
  ("SDMZ", ["69,69"]);
  ("SDNA", ["4265,75"]);
  ("SDNB", ["148,148"]);
  ("SDND", ["2461,75"]);
  ("SDNE", ["2133,75"]);
  ("SDNF", ["62,62"]);
  ("SDNG", ["3281,131"]);
  ("SDNH", ["3281,98"]);
  ("SDNI", ["2100,66"]);
  ("SDNJ", ["2887,66"]);
  ("SDNK", ["2953,98"]);
  ("SDNL", ["3937,105"]);
  ("SDNM", ["66,66"]);
  ("SDNN", ["59,59"]);
  ("SDNO", ["3281,66"]);
  ("SDNP", ["59,59"]);
  ("SDNQ", ["3281,66"]);
  ("SDNR", ["59,59"]);
  ("SDNS", ["59,59"]);
  ("SDNU", ["69,69"]);
  ("SDNV", ["2953,59"]);
  ("SDNW", ["3937,66"]);
  ("SDNY", ["3937,98"]);
  ("SDNZ", ["3281,66"]);
  ("SDOA", ["2621,59"]);
  ("SDOB", ["4068,75"]);
  ("SDOC", ["59,59"]);
  ("SDOD", ["2621,59"]);
  ("SDOE", ["2621,59"]);
  ("SDOF", ["66,66"]);
  ("SDOG", ["62,62"]);
  ("SDOH", ["66,66"]);
  ("SDOI", ["2297,98"]);
  ("SDOK", ["62,62"]);
  ("SDOL", ["4593,59"]);
  ("SDON", ["59,59"]);
  ("SDOP", ["66,66"]);
  ("SDOR", ["2953,79"]);
  ("SDOT", ["62,62"]);
  ("SDOU", ["4921,98"]);
  ("SDOV", ["4921,98"]);
  ("SDOW", ["3937,98"]);
  ("SDOX", ["1969,66"]);
  ("SDOY", ["69,69"]);
  ("SDOZ", ["3281,66"]);
  ("SDPA", ["2953,98"]);
  ("SDPB", ["79,79"]);
  ("SDPC", ["2624,66"]);
  ("SDPD", ["2461,98"]);
  ("SDPE", ["66,66"]);
  ("SDPG", ["2395,98"]);
  ("SDPH", ["59,59"]);
  ("SDPJ", ["59,59"]);
  ("SDPK", ["62,62"]);
  ("SDPL", ["79,79"]);
  ("SDPM", ["98,98"]);
  ("SDPN", ["4921,98"]);
  ("SDPO", ["59,59"]);
  ("SDPP", ["3150,66"]);
  ("SDPR", ["79,79"]);
  ("SDPS", ["59,59"]);
  ("SDPT", ["62,62"]);
  ("SDPU", ["92,92"]);
  ("SDPV", ["3937,98"]);
  ("SDPW", ["3937,98"]);
  ("SDPY", ["2822,98"]);
  ("SDQA", ["62,62"]);
  ("SDQB", ["69,69"]);
  ("SDQC", ["69,69"]);
  ("SDQD", ["62,62"]);
  ("SDQE", ["2625,59"]);
  ("SDQF", ["39,39"]);
  ("SDQG", ["3609,66"]);
  ("SDQH", ["2625,66"]);
  ("SDQI", ["72,72"]);
  ("SDQJ", ["66,66"]);
  ("SDQL", ["3609,131"]);
  ("SDQM", ["69,69"]);
  ("SDQN", ["1969,164"]);
  ("SDQO", ["62,62"]);
  ("SDQP", ["59,59"]);
  ("SDQQ", ["3609,59"]);
  ("SDQS", ["59,59"]);
  ("SDQT", ["62,62"]);
  ("SDQV", ["3281,82"]);
  ("SDQW", ["3937,59"]);
  ("SDQX", ["2297,66"]);
  ("SDQY", ["69,69"]);
  ("SDQZ", ["4593,66"]);
  ("SDRA", ["2454,59"]);
  ("SDRB", ["59,59"]);
  ("SDRC", ["2953,59"]);
  ("SDRD", ["2231,98"]);
  ("SDRE", ["59,59"]);
  ("SDRF", ["2789,66"]);
  ("SDRG", ["82,82"]);
  ("SDRH", ["2625,66"]);
  ("SDRI", ["69,69"]);
  ("SDRJ", ["79,79"]);
  ("SDRK", ["3609,131"]);
  ("SDRL", ["59,59"]);
  ("SDRN", ["75,75"]);
  ("SDRO", ["3117,59"]);
  ("SDRQ", ["66,66"]);
  ("SDRR", ["4856,98"]);
  ("SDRS", ["4265,98"]);
  ("SDRU", ["2559,66"]);
  ("SDRV", ["79,79"]);
  ("SDRW", ["3281,98"]);
  ("SDRX", ["2625,131"]);
  ("SDRY", ["2789,66"]);
  ("SDRZ", ["3609,82"]);
  ("SDSB", ["3773,131"]);
  ("SDSC", ["4790,98"]);
  ("SDSE", ["1969,82"]);
  ("SDSF", ["69,69"]);
  ("SDSG", ["59,59"]);
  ("SDSH", ["3281,75"]);
  ("SDSI", ["59,59"]);
  ("SDSJ", ["3281,98"]);
  ("SDSK", ["2969,131"]);
  ("SDSL", ["59,59"]);
  ("SDSM", ["2854,59"]);
  ("SDSN", ["69,69"]);
  ("SDSO", ["2297,75"]);
  ("SDSQ", ["2625,98"]);
  ("SDSR", ["112,112"]);
  ("SDST", ["2625,75"]);
  ("SDSU", ["66,66"]);
  ("SDSV", ["2625,66"]);
  ("SDSZ", ["79,79"]);
  ("SDTA", ["59,59"]);
  ("SDTB", ["2625,98"]);
  ("SDTC", ["59,59"]);
  ("SDTE", ["3740,59"]);
  ("SDTF", ["3609,98"]);
  ("SDTG", ["69,69"]);
  ("SDTH", ["59,59"]);
  ("SDTI", ["2461,75"]);
  ("SDTJ", ["69,69"]);
  ("SDTK", ["2297,75"]);
  ("SDTL", ["79,79"]);
  ("SDTM", ["59,59"]);
  ("SDTN", ["1969,59"]);
  ("SDTO", ["2789,75"]);
  ("SDTP", ["4921,115"]);
  ("SDTQ", ["3281,98"]);
  ("SDTR", ["2461,59"]);
  ("SDTS", ["3150,131"]);
  ("SDTT", ["2198,75"]);
  ("SDTU", ["79,79"]);
  ("SDTV", ["59,59"]);
  ("SDTW", ["2953,115"]);
  ("SDTX", ["2625,98"]);
  ("SDTY", ["5249,98"]);
  ("SDTZ", ["2953,115"]);
  ("SDUA", ["1969,66"]);
  ("SDUB", ["3084,98"]);
  ("SDUD", ["3281,59"]);
  ("SDUE", ["2297,75"]);
  ("SDUF", ["2953,115"]);
  ("SDUH", ["3281,66"]);
  ("SDUI", ["66,66"]);
  ("SDUJ", ["59,59"]);
  ("SDUK", ["3281,82"]);
  ("SDUL", ["2297,66"]);
  ("SDUM", ["66,66"]);
  ("SDUN", ["3937,98"]);
  ("SDUO", ["5184,98"]);
  ("SDUP", ["59,59"]);
  ("SDUQ", ["3934,98"]);
  ("SDUR", ["2625,59"]);
  ("SDUS", ["1969,59"]);
  ("SDUT", ["69,69"]);
  ("SDUU", ["3427,98"]);
  ("SDUW", ["79,79"]);
  ("SDUX", ["59,59"]);
  ("SDUY", ["79,79"]);
  ("SDUZ", ["2953,75"]);
  ("SDVA", ["1969,75"]);
  ("SDVB", ["66,66"]);
  ("SDVC", ["66,66"]);
  ("SDVD", ["62,62"]);
  ("SDVE", ["2526,66"]);
  ("SDVG", ["4921,98"]);
  ("SDVH", ["2428,66"]);
  ("SDVI", ["2297,82"]);
  ("SDVJ", ["3281,59"]);
  ("SDVK", ["69,69"]);
  ("SDVL", ["1640,59"]);
  ("SDVM", ["59,59"]);
  ("SDVN", ["2986,59"]);
  ("SDVO", ["59,59"]);
  ("SDVQ", ["3445,59"]);
  ("SDVR", ["69,69"]);
  ("SDVS", ["2953,75"]);
  ("SDVT", ["62,62"]);
  ("SDVU", ["3281,59"]);
  ("SDVV", ["69,69"]);
  ("SDVW", ["79,79"]);
  ("SDVX", ["66,66"]);
  ("SDVY", ["69,69"]);
  ("SDVZ", ["59,59"]);
  ("SDWA", ["59,59"]);
  ("SDWB", ["69,69"]);
  ("SDWC", ["2625,59"]);
  ("SDWD", ["2953,66"]);
  ("SDWE", ["3281,138"]);
  ("SDWF", ["59,59"]);
  ("SDWG", ["2625,75"]);
  ("SDWH", ["4921,98"]);
  ("SDWI", ["2654,62"]);
  ("SDWJ", ["2953,59"]);
  ("SDWK", ["2365,59"]);
  ("SDWL", ["1345,59"]);
  ("SDWM", ["2953,59"]);
  ("SDWN", ["3281,98"]);
  ("SDWP", ["98,98"]);
  ("SDWR", ["2625,75"]);
  ("SDWS", ["59,59"]);
  ("SDWT", ["79,79"]);
  ("SDWU", ["3937,59"]);
  ("SDWW", ["66,66"]);
  ("SDWX", ["1969,66"]);
  ("SDWY", ["59,59"]);
  ("SDXB", ["3609,75"]);
  ("SDXC", ["66,66"]);
  ("SDXD", ["59,59"]);
  ("SDXE", ["2461,59"]);
  ("SDXF", ["3937,98"]);
  ("SDXG", ["59,59"]);
  ("SDXH", ["66,66"]);
  ("SDXI", ["2625,98"]);
  ("SDXJ", ["4265,75"]);
  ("SDXL", ["69,69"]);
  ("SDXM", ["69,69"]);
  ("SDXO", ["3281,98"]);
  ("SDXP", ["79,79"]);
  ("SDXQ", ["2625,131"]);
  ("SDXR", ["3937,66"]);
  ("SDXS", ["59,59"]);
  ("SDXT", ["2461,115"]);
  ("SDXU", ["2953,82"]);
  ("SDXV", ["69,69"]);
  ("SDXX", ["69,69"]);
  ("SDXY", ["62,62"]);
  ("SDXZ", ["79,79"]);
  ("SDYA", ["59,59"]);
  ("SDYB", ["2625,131"]);
  ("SDYC", ["62,62"]);
  ("SDYD", ["59,59"]);
  ("SDYE", ["79,79"]);
  ("SDYF", ["4265,66"]);
  ("SDYG", ["79,79"]);
  ("SDYH", ["66,66"]);
  ("SDYI", ["2493,66"]);
  ("SDYJ", ["2625,66"]);
  ("SDYK", ["59,59"]);
  ("SDYL", ["69,69"]);
  ("SDYM", ["2871,66"]);
  ("SDYN", ["2625,66"]);
  ("SDYO", ["62,62"]);
  ("SDYP", ["66,66"]);
  ("SDYR", ["59,59"]);
  ("SDYS", ["1804,82"]);
  ("SDYV", ["59,59"]);
  ("SDYW", ["4921,98"]);
  ("SDYX", ["3937,59"]);
  ("SDYY", ["79,79"]);
  ("SDYZ", ["59,59"]);
  ("SDZA", ["3773,98"]);
  ("SDZB", ["69,69"]);
  ("SDZD", ["79,79"]);
  ("SDZH", ["4593,59"]);
  ("SDZM", ["4593,75"]);
  ("SDZR", ["2789,82"]);
  ("SDZS", ["4265,66"]);
  ("SDZT", ["2953,75"]);
  ("SDZU", ["2953,82"]);
  ("SDZV", ["2789,66"]);
  ("SDZW", ["3366,75"]);
  ("SDZX", ["4265,59"]);
  ("SDZY", ["8284,148"]);
  ("SDZZ", ["2297,105"]);
  ("SE-0001", ["2395,115"]);
  ("SE-0004", ["2500,50,650,,625"]);
  ("SE-0005", ["1560,65"; "1330,50"; "2750,60"]);
  ("SE-0006", ["2297,66"]);
  ("SE01", ["3281,52,,78,,258"]);
  ("SE02", ["3235,35,,29,,209"]);
  ("SE03", ["3281,40,,110,,290"]);
  ("SE08", ["4265,39,,169.4,,349.4"]);
  ("SE09", ["4265,49,,179.3,,359.3"]);
  ("SE10", ["3001,59,,29.5,,209.5"]);
  ("SE11", ["3937,49,,9,,189"]);
  ("SE22", ["3280,40,,20.8,,200.8"]);
  ("SE58", ["3150,39,,102.3,,282.3"]);
  ("SE59", ["3073,62,,10.8,,190.8"]);
  ("SE60", ["3281,66,,110,,290"]);
  ("SEAM", ["6316,82,8390,10.5,8502,190.5"]);
  ("SECM", ["3281,36,,22,,202"]);
  ("SECO", ["6760,90,831,154,834,334"]);
  ("SECU", ["6234,118,8306,52,8256,232"]);
  ("SEGS", ["7876,115,145,143.8,207,323.8"]);
  ("SEGU", ["9154,151,16,30.6,14,210.6"]);
  ("SEGZ", ["6601,85,,156,,336"]);
  ("SEIB", ["6365,66,7304,25.6,7234,205.6"]);
  ("SEII", ["4921,98,,171,,351"]);
  ("SEKK", ["3060,65,,179,,359"]);
  ("SELJ", ["3281,49,,29.9,,209.9"]);
  ("SELT", ["12117,148,9190,184,9115,4"]);
  ("SEMA", ["3532,65,1430,12,1508,192"]);
  ("SEMC", ["8202,98,3356,15,3452,195"]);
  ("SEMH", ["5493,115,8,146.4,11,326.4"]);
  ("SEMO", ["4725,75,,84.5,,264.5"]);
  ("SEMT", ["9383,148,37,55.8,48,235.8"]);
  ("SEMX", ["3280,26,,94.4,,274.4"]);
  ("SENL", ["7546,,982,,970"]);
  ("SEPC", ["5255,96,1764,26.1,1796,206.1"]);
  ("SEPS", ["3774,57,,105.9,,285.9"]);
  ("SEPV", ["7451,89,114,128,129,308"]);
  ("SEQE", ["4450,70,,178.3,,358.3"]);
  ("SEQM", ["13445,148,7776,180,7910,360"]);
  ("SEQU", ["10236,151,9217,171,9198,351"]);
  ("SERB", ["5250,95,9151,55.9,9145,235.9"]);
  ("SERO", ["8625,148,20,68,6,248"]);
  ("SESA", ["3641,131,15,82,13,262"; "7995,98,13,129,12,309"]);
  ("SESD", ["3668,82,,108,,288"]);
  ("SESM", ["5052,82,3465,119,3415,299"]);
  ("SEST", ["6214,66,27,169,52,349"]);
  ("SESV", ["7227,98,8,151,10,331"]);
  ("SETA", ["10015,145,56,25.8,56,205.8"]);
  ("SETE", ["3937,49,1709,101,1705,281"]);
  ("SETM", ["6725,98,3923,64,4056,244"]);
  ("SETN", ["7874,148,20,183,32,3"]);
  ("SETR", ["5151,49,814,122,797,302"]);
  ("SETU", ["8071,98,9646,55,9593,235"]);
  ("SFAL", ["3013,63,,89.4,,269.4"; "1110,42,,179.9,,359.9"]);
  ("SFU", ["3543"]);
  ("SG-0002", ["7999"]);
  ("SG67", ["4757,60,,20.5,,200.5"]);
  ("SGAS", ["10997,148,292,10,249,190"]);
  ("SGAY", ["6070,148,223,10.2,223,190.2"]);
  ("SGCO", ["6070,148,249,16,249,196"]);
  ("SGEN", ["4265,,279,,279"]);
  ("SGES", ["11154,148,846,40.8,774,220.8"]);
  ("SGIB", ["4987,75,762,19.3,738,199.3"]);
  ("SGME", ["11483,131,549,357.8,552,177.8"]);
  ("SGNB", ["3215,,213,,213"]);
  ("SGPI", ["4920,62,,5,,185"]);
  ("SGPJ", ["5908,98,1870,14,1873,194"]);
  ("SGST", ["5895,65,,7,,187"]);
  ("SI-0001", ["1082,55"]);
  ("SI-0002", ["1640,98"]);
  ("SI-0003", ["2600,65"]);
  ("SI-0004", ["985,65"]);
  ("SI-0005", ["1804,82"]);
  ("SI-0006", ["984,98"]);
  ("SI-0007", ["1804,82,745,,745"]);
  ("SI-0008", ["494,50"]);
  ("SI-0009", ["1968,98"]);
  ("SI-0010", ["1394,82"]);
  ("SI-0011", ["1804,98"]);
  ("SI-0012", ["1082,49,,90,,270"]);
  ("SI-0013", ["738,98"]);
  ("SI-0014", ["820,98"]);
  ("SI-0015", ["1673,65"]);
  ("SI-0019", ["984"]);
  ("SIAA", ["62,62"]);
  ("SIAB", ["3412,59"]);
  ("SIAC", ["62,62"]);
  ("SIAD", ["2953,98"]);
  ("SIAE", ["62,62"]);
  ("SIAF", ["1969,66"]);
  ("SIAG", ["59,59"]);
  ("SIAH", ["79,79"]);
  ("SIAI", ["4528,66"]);
  ("SIAK", ["66,66"]);
  ("SIAL", ["59,59"]);
  ("SIAM", ["3018,79"]);
  ("SIAN", ["79,79"]);
  ("SIAO", ["3281,59"]);
  ("SIAP", ["2559,75"]);
  ("SIAR", ["2953,59"]);
  ("SIAS", ["62,62"]);
  ("SIAT", ["108,108"]);
  ("SIAU", ["2953,75"]);
  ("SIAV", ["82,92"]);
  ("SIAX", ["1969,66"]);
  ("SIAY", ["2953,66"]);
  ("SIAZ", ["59,59"]);
  ("SIBA", ["1969,66"]);
  ("SIBB", ["66,66"]);
  ("SIBC", ["2297,75"]);
  ("SIBD", ["3609,69"]);
  ("SIBE", ["59,59"]);
  ("SIBF", ["2625,98"]);
  ("SIBG", ["62,62"]);
  ("SIBH", ["79,79"]);
  ("SIBI", ["69,69"]);
  ("SIBK", ["3609,75"]);
  ("SIBL", ["62,62"]);
  ("SIBM", ["69,69"]);
  ("SIBN", ["2625,66"]);
  ("SIBO", ["2297,66"]);
  ("SIBP", ["92,92"]);
  ("SIBQ", ["59,59"]);
  ("SIBR", ["69,69"]);
  ("SIBS", ["62,62"]);
  ("SIBT", ["66,66"]);
  ("SIBU", ["3281,66"]);
  ("SIBV", ["2625,98"]);
  ("SIBW", ["3281,89"]);
  ("SIBX", ["3445,72"]);
  ("SIBY", ["3281,92"]);
  ("SIBZ", ["3937,89"]);
  ("SICA", ["3117,82"]);
  ("SICB", ["3773,98"]);
  ("SICC", ["98,98"]);
  ("SICD", ["59,59"]);
  ("SICE", ["79,79"]);
  ("SICF", ["59,59"]);
  ("SICH", ["2625,66"]);
  ("SICI", ["62,62"]);
  ("SICJ", ["2625,98"]);
  ("SICK", ["3773,75"]);
  ("SICL", ["69,69"]);
  ("SICM", ["2953,98"]);
  ("SICN", ["2625,98"]);
  ("SICO", ["4265,75"]);
  ("SICP", ["2625,66"]);
  ("SICR", ["62,62"]);
  ("SICS", ["98,72"]);
  ("SICT", ["69,69"]);
  ("SICU", ["66,66"]);
  ("SICV", ["59,59"]);
  ("SICW", ["2133,66"]);
  ("SICX", ["62,62"]);
  ("SICY", ["2133,59"]);
  ("SICZ", ["69,69"]);
  ("SIDA", ["59,59"]);
  ("SIDB", ["4692,75"]);
  ("SIDC", ["108,108"]);
  ("SIDD", ["1969,82"]);
  ("SIDE", ["85,85"]);
  ("SIDF", ["59,59"]);
  ("SIDG", ["1969,59"]);
  ("SIDH", ["92,92"]);
  ("SIDK", ["79,59"]);
  ("SIDL", ["59,59"]);
  ("SIDM", ["3281,82"]);
  ("SIDN", ["3609,262"]);
  ("SIDO", ["66,66"]);
  ("SIDP", ["62,62"]);
  ("SIDQ", ["69,69"]);
  ("SIDR", ["1640,59"]);
  ("SIDS", ["1969,98"]);
  ("SIDT", ["79,79"]);
  ("SIDU", ["59,59"]);
  ("SIDV", ["62,62"]);
  ("SIDX", ["69,69"]);
  ("SIDY", ["1640,75"]);
  ("SIDZ", ["2953,59"]);
  ("SIEA", ["3117,75"]);
  ("SIEB", ["2133,59"]);
  ("SIEC", ["3215,98"]);
  ("SIED", ["2625,59"]);
  ("SIEE", ["92,92"]);
  ("SIEF", ["1969,59"]);
  ("SIEG", ["2625,115"]);
  ("SIEH", ["66,66"]);
  ("SIEI", ["66,66"]);
  ("SIEJ", ["3609,75"]);
  ("SIEK", ["62,62"]);
  ("SIEL", ["2953,82"]);
  ("SIEM", ["62,62"]);
  ("SIEN", ["3281,66"]);
  ("SIEO", ["69,69"]);
  ("SIEP", ["82,82"]);
  ("SIER", ["69,69"]);
  ("SIET", ["2297,98"]);
  ("SIEU", ["69,69"]);
  ("SIEV", ["3051,75"]);
  ("SIEY", ["69,69"]);
  ("SIEZ", ["3281,66"]);
  ("SIFA", ["2625,59"]);
  ("SIFB", ["75,75"]);
  ("SIFC", ["2625,82"]);
  ("SIFD", ["3281,98"]);
  ("SIFE", ["1804,66"]);
  ("SIFF", ["3281,85"]);
  ("SIFG", ["59,59"]);
  ("SIFH", ["3937,75"]);
  ("SIFJ", ["1969,59"]);
  ("SIFK", ["69,69"]);
  ("SIFL", ["33,33"]);
  ("SIFM", ["3150,66"]);
  ("SIFN", ["2592,72"]);
  ("SIFQ", ["2461,59"]);
  ("SIFR", ["3478,59"]);
  ("SIFS", ["59,59"]);
  ("SIFT", ["3281,66"]);
  ("SIFU", ["1969,59"]);
  ("SIFV", ["5249,98"]);
  ("SIFW", ["2297,59"]);
  ("SIFX", ["66,66"]);
  ("SIFY", ["2664,131"]);
  ("SIFZ", ["69,69"]);
  ("SIGA", ["62,62"]);
  ("SIGB", ["69,69"]);
  ("SIGC", ["66,66"]);
  ("SIGD", ["69,69"]);
  ("SIGE", ["75,75"]);
  ("SIGF", ["3937,66"]);
  ("SIGG", ["62,62"]);
  ("SIGH", ["69,69"]);
  ("SIGI", ["62,62"]);
  ("SIGJ", ["66,66"]);
  ("SIGK", ["79,79"]);
  ("SIGL", ["2297,75"]);
  ("SIGM", ["2789,98"]);
  ("SIGN", ["3117,164"]);
  ("SIGO", ["4593,59"]);
  ("SIGQ", ["79,79"]);
  ("SIGR", ["62,62"]);
  ("SIGS", ["3609,98"]);
  ("SIGT", ["2297,66"]);
  ("SIGU", ["3937,66"]);
  ("SIGV", ["62,62"]);
  ("SIGW", ["3281,75"]);
  ("SIGX", ["3281,66"]);
  ("SIGY", ["3051,59"]);
  ("SIGZ", ["59,59"]);
  ("SIHA", ["69,69"]);
  ("SIHB", ["2559,59"]);
  ("SIHC", ["66,66"]);
  ("SIHD", ["69,69"]);
  ("SIHE", ["66,66"]);
  ("SIHF", ["92,92"]);
  ("SIHG", ["2789,66"]);
  ("SIHH", ["59,59"]);
  ("SIHI", ["2021,59"]);
  ("SIHJ", ["2149,59"]);
  ("SIHK", ["62,62"]);
  ("SIHL", ["92,92"]);
  ("SIHM", ["66,66"]);
  ("SIHN", ["2625,72"]);
  ("SIHO", ["66,66"]);
  ("SIHQ", ["92,92"]);
  ("SIHR", ["59,59"]);
  ("SIHS", ["59,59"]);
  ("SIHT", ["66,66"]);
  ("SIHU", ["62,62"]);
  ("SIHV", ["3281,82"]);
  ("SIHW", ["1804,59"]);
  ("SIHX", ["62,62"]);
  ("SIHY", ["59,59"]);
  ("SIHZ", ["66,66"]);
  ("SIIA", ["4593,59"]);
  ("SIIB", ["69,69"]);
  ("SIIC", ["75,75"]);
  ("SIID", ["2297,59"]);
  ("SIIE", ["2621,197"]);
  ("SIIF", ["69,69"]);
  ("SIIG", ["3117,75"]);
  ("SIIH", ["69,69"]);
  ("SIII", ["3937,66"]);
  ("SIIK", ["2293,197"]);
  ("SIIL", ["69,69"]);
  ("SIIM", ["3609,262"]);
  ("SIIN", ["2789,66"]);
  ("SIIO", ["85,85"]);
  ("SIIP", ["69,69"]);
  ("SIIQ", ["2625,66"]);
  ("SIIR", ["69,69"]);
  ("SIIS", ["2297,82"]);
  ("SIIU", ["2625,59"]);
  ("SIIW", ["79,79"]);
  ("SIIX", ["3051,98"]);
  ("SIIY", ["62,62"]);
  ("SIIZ", ["2625,66"]);
  ("SIJB", ["59,59"]);
  ("SIJC", ["69,69"]);
  ("SIJD", ["79,79"]);
  ("SIJE", ["2297,98"]);
  ("SIJF", ["79,79"]);
  ("SIJG", ["2953,75"]);
  ("SIJH", ["102,138"]);
  ("SIJI", ["46,46"]);
  ("SIJJ", ["3281,98"]);
  ("SIJK", ["2953,72"]);
  ("SIJL", ["75,75"]);
  ("SIJM", ["3445,66"]);
  ("SIJO", ["3609,59"]);
  ("SIJP", ["66,66"]);
  ("SIJQ", ["66,66"]);
  ("SIJR", ["1640,82"]);
  ("SIJT", ["59,59"]);
  ("SIJU", ["2789,98"]);
  ("SIJW", ["66,66"]);
  ("SIJX", ["79,79"]);
  ("SIJZ", ["2953,82"]);
  ("SIKB", [""]);
  ("SIKC", ["3609,66"]);
  ("SIKD", ["79,79"]);
  ("SIKE", ["66,66"]);
  ("SIKF", ["79,79"]);
  ("SIKH", ["59,59"]);
  ("SIKI", ["69,69"]);
  ("SIKJ", ["2789,59"]);
  ("SIKK", ["2920,59"]);
  ("SIKL", ["66,66"]);
  ("SIKM", ["2953,59"]);
  ("SIKN", ["2690,59"]);
  ("SIKO", ["1969,66"]);
  ("SIKP", ["4921,82"]);
  ("SIKQ", ["2625,66"]);
  ("SIKS", ["79,79"]);
  ("SIKT", ["39,39"]);
  ("SIKU", ["66,66"]);
  ("SIKV", ["66,66"]);
  ("SIKW", ["59,59"]);
  ("SIKX", ["3379,131"]);
  ("SIKY", ["3937,98"]);
  ("SIKZ", ["3937,66"]);
  ("SILA", ["2461,75"]);
  ("SILB", ["2625,59"]);
  ("SILC", ["3281,66"]);
  ("SILD", ["2625,66"]);
  ("SILE", ["62,62"]);
  ("SILF", ["69,69"]);
  ("SILG", ["3608,82"]);
  ("SILH", ["69,69"]);
  ("SILI", ["1640,59"]);
  ("SILJ", ["2789,66"]);
  ("SILK", ["62,62"]);
  ("SILL", ["72,72"]);
  ("SILM", ["3281,115"]);
  ("SILN", ["3937,59"]);
  ("SILO", ["69,69"]);
  ("SILP", ["69,69"]);
  ("SILQ", ["1575,66"]);
  ("SILR", ["69,69"]);
  ("SILS", ["2297,66"]);
  ("SILT", ["3281,66"]);
  ("SILU", ["3937,59"]);
  ("SILV", ["59,59"]);
  ("SILW", ["3281,59"]);
  ("SILX", ["2953,66"]);
  ("SILY", ["2625,98"]);
  ("SILZ", ["2395,59"]);
  ("SIMA", ["1969,98"]);
  ("SIMB", ["62,62"]);
  ("SIMC", ["66,66"]);
  ("SIMD", ["62,62"]);
  ("SIME", ["3445,66"]);
  ("SIMF", ["3609,98"]);
  ("SIMG", ["3937,115"]);
  ("SIMH", ["75,75"]);
  ("SIMI", ["2953,148"]);
  ("SIMJ", ["2913,66"]);
  ("SIMK", ["6562,98"]);
  ("SIML", ["2133,59"]);
  ("SIMM", ["69,69"]);
  ("SIMN", ["66,66"]);
  ("SIMO", ["2625,59"]);
  ("SIMP", ["62,62"]);
  ("SIMQ", ["2953,98"]);
  ("SIMR", ["4265,59"]);
  ("SIMS", ["79,79"]);
  ("SIMT", ["59,59"]);
  ("SIMU", ["3284,108"]);
  ("SIMV", ["2986,98"]);
  ("SIMW", ["3967,72"]);
  ("SIMX", ["2297,59"]);
  ("SIMY", ["2762,131"]);
  ("SIMZ", ["3871,115"]);
  ("SINA", ["2953,164"]);
  ("SINB", ["62,62"]);
  ("SINC", ["3117,59"]);
  ("SIND", ["66,66"]);
  ("SINE", ["62,62"]);
  ("SINF", ["69,69"]);
  ("SING", ["2297,66"]);
  ("SINH", ["3100,141"]);
  ("SINI", ["62,62"]);
  ("SINJ", ["3281,98"]);
  ("SINK", ["3281,75"]);
  ("SINL", ["59,59"]);
  ("SINM", ["2625,98"]);
  ("SINN", ["3445,59"]);
  ("SINO", ["2133,82"]);
  ("SINP", ["3937,98"]);
  ("SINQ", ["3281,82"]);
  ("SINR", ["3281,148"]);
  ("SINS", ["2953,131"]);
  ("SINT", ["2789,98"]);
  ("SINU", ["2789,82"]);
  ("SINV", ["4528,98"]);
  ("SINW", ["72,72"]);
  ("SINX", ["82,82"]);
  ("SINY", ["72,72"]);
  ("SINZ", ["2493,98"]);
  ("SIOA", ["3281,115"]);
  ("SIOB", ["3937,75"]);
  ("SIOC", ["3609,66"]);
  ("SIOD", ["3281,66"]);
  ("SIOE", ["1969,131"]);
  ("SIOF", ["3281,66"]);
  ("SIOG", ["69,69"]);
  ("SIOH", ["98,98"]);
  ("SIOI", ["2297,59"]);
  ("SIOJ", ["3215,66"]);
  ("SIOK", ["3281,82"]);
  ("SIOL", ["2625,66"]);
  ("SIOM", ["1969,75"]);
  ("SION", ["3281,66"]);
  ("SIOO", ["3609,82"]);
  ("SIOP", ["3937,98"]);
  ("SIOQ", ["3281,98"]);
  ("SIOR", ["1969,66"]);
  ("SIOS", ["3937,115"]);
  ("SIOT", ["4265,131"]);
  ("SIOU", ["1575,66"]);
  ("SIOV", ["3609,75"]);
  ("SIOW", ["62,62"]);
  ("SIOX", ["66,66"]);
  ("SIOY", ["39,39"]);
  ("SIOZ", ["3937,98"]);
  ("SIPA", ["3937,59"]);
  ("SIPB", ["1804,59"]);
  ("SIPC", ["1378,66"]);
  ("SIPD", ["59,59"]);
  ("SIPE", ["5906,98"]);
  ("SIPF", ["66,66"]);
  ("SIPG", ["4757,62"]);
  ("SIPH", ["2625,66"]);
  ("SIPJ", ["3281,115"]);
  ("SIPK", ["3937,75"]);
  ("SIPL", ["3937,66"]);
  ("SIPM", ["59,59"]);
  ("SIPN", ["2625,59"]);
  ("SIPO", ["3609,98"]);
  ("SIPP", ["69,69"]);
  ("SIPQ", ["2953,82"]);
  ("SIPR", ["2297,66"]);
  ("SIPS", ["69,69"]);
  ("SIPT", ["62,62"]);
  ("SIPU", ["2953,66"]);
  ("SIPV", ["69,69"]);
  ("SIPX", ["66,66"]);
  ("SIPY", ["2625,75"]);
  ("SIPZ", ["59,59"]);
  ("SIQA", ["2953,59"]);
  ("SIQB", ["3281,82"]);
  ("SIQC", ["3281,66"]);
  ("SIQD", ["2625,98"]);
  ("SIQE", ["5741,98"]);
  ("SIQF", ["66,66"]);
  ("SIQG", ["3281,66"]);
  ("SIQH", ["75,75"]);
  ("SIQI", ["1916,66"]);
  ("SIQJ", ["3937,62"]);
  ("SIQK", ["1640,66"]);
  ("SIQL", ["59,59"]);
  ("SIQM", ["2625,98"]);
  ("SIQN", ["2953,66"]);
  ("SIQO", ["3281,66"]);
  ("SIQP", ["62,62"]);
  ("SIQQ", ["3281,75"]);
  ("SIQR", ["3609,62"]);
  ("SIQS", ["2297,82"]);
  ("SIQT", ["69,69"]);
  ("SIQU", ["3281,82"]);
  ("SIQV", ["3281,75"]);
  ("SIQW", ["3937,75"]);
  ("SIQX", ["3445,66"]);
  ("SIQY", ["3117,72"]);
  ("SIQZ", ["2953,98"]);
  ("SIRA", ["3281,66"]);
  ("SIRB", ["2953,98"]);
  ("SIRC", ["3937,82"]);
  ("SIRD", ["2625,66"]);
  ("SIRE", ["3215,66"]);
  ("SIRF", ["2625,59"]);
  ("SIRG", ["3609,66"]);
  ("SIRH", ["3281,131"]);
  ("SIRI", ["3281,59"]);
  ("SIRJ", ["4678,98"]);
  ("SIRL", ["69,69"]);
  ("SIRN", ["4757,62"]);
  ("SIRP", ["66,66"]);
  ("SIRQ", ["3281,98"]);
  ("SIRR", ["2625,98"]);
  ("SIRS", ["2789,75"]);
  ("SIRT", ["3937,75"]);
  ("SIRU", ["3281,75"]);
  ("SIRV", ["2592,59"]);
  ("SIRW", ["3281,82"]);
  ("SIRX", ["69,69"]);
  ("SIRY", ["79,79"]);
  ("SIRZ", ["62,62"]);
  ("SISA", ["59,59"]);
  ("SISB", ["2625,66"]);
  ("SISC", ["69,69"]);
  ("SISD", ["3937,75"]);
  ("SISE", ["2625,66"]);
  ("SISF", ["3281,131"]);
  ("SISH", ["66,66"]);
  ("SISI", ["2625,66"]);
  ("SISJ", ["2297,98"]);
  ("SISL", ["2625,98"]);
  ("SISM", ["59,59"]);
  ("SISN", ["3478,66"]);
  ("SISO", ["2953,59"]);
  ("SISP", ["1969,59"]);
  ("SISQ", ["66,66"]);
  ("SISR", ["66,66"]);
  ("SISS", ["2789,131"]);
  ("SISU", ["2625,66"]);
  ("SISW", ["3936,66"]);
  ("SISX", ["1312,66"]);
  ("SISY", ["1476,59"]);
  ("SISZ", ["1969,98"]);
  ("SITA", ["1804,59"]);
  ("SITB", ["3281,98"]);
  ("SITC", ["3281,79"]);
  ("SITD", ["1640,59"]);
  ("SITE", ["62,62"]);
  ("SITF", ["2789,131"]);
  ("SITH", ["2625,66"]);
  ("SITI", ["2297,59"]);
  ("SITJ", ["2133,59"]);
  ("SITK", ["79,79"]);
  ("SITL", ["3281,98"]);
  ("SITM", ["79,79"]);
  ("SITN", ["2625,59"]);
  ("SITO", ["1640,98"]);
  ("SITP", ["79,79"]);
  ("SITQ", ["79,79"]);
  ("SITR", ["3609,59"]);
  ("SITT", ["3281,59"]);
  ("SITU", ["2625,66"]);
  ("SITV", ["3117,72"]);
  ("SITW", ["3281,59"]);
  ("SITX", ["2621,197"]);
  ("SITY", ["2621,197"]);
  ("SITZ", ["3871,98"]);
  ("SIUA", ["3084,131"]);
  ("SIUB", ["2887,82"]);
  ("SIUC", ["1640,82"]);
  ("SIUD", ["79,79"]);
  ("SIUE", ["69,69"]);
  ("SIUF", ["3445,75"]);
  ("SIUG", ["2461,98"]);
  ("SIUH", ["1969,59"]);
  ("SIUJ", ["1969,59"]);
  ("SIUK", ["1640,66"]);
  ("SIUL", ["3937,59"]);
  ("SIUM", ["4265,82"]);
  ("SIUN", ["66,66"]);
  ("SIUO", ["6480,164"]);
  ("SIUP", ["95,95"]);
  ("SIUQ", ["3937,59"]);
  ("SIUR", ["2625,131"]);
  ("SIUS", ["2625,98"]);
  ("SIUT", ["2608,72"]);
  ("SIUV", ["3281,131"]);
  ("SIUW", ["4265,72"]);
  ("SIUX", ["2297,66"]);
  ("SIUY", ["3117,98"])].

(* ADRpy/data/runways.csv *)
Definition airports_27 : list (string * list string) := [
  ("SIUZ", ["2953,115"]);
  ("SIVA", ["69,69"]);
  ("SIVB", ["69,69"]);
  ("SIVC", ["2625,62"]);
  ("SIVD", ["1640,66"]);
  ("SIVE", ["2362,66"]);
  ("SIVG", ["1969,66"]);
  ("SIVH", ["69,69"]);
  ("SIVI", ["79,79"]);
  ("SIVJ", ["1640,131"]);
  ("SIVK", ["3937,75"]);
  ("SIVL", ["1985,66"]);
  ("SIVM", ["59,59"]);
  ("SIVN", ["3773,98"]);
  ("SIVO", ["2621,59"]);
  ("SIVP", ["2953,98"]);
  ("SIVQ", ["3609,66"]);
  ("SIVR", ["3937,92"]);
  ("SIVS", ["66,66"]);
  ("SIVT", ["66,66"]);
  ("SIVU", ["3150,59"]);
  ("SIVV", ["3609,98"]);
  ("SIVW", ["1312,59"]);
  ("SIVX", ["89,89"]);
  ("SIVY", ["3609,59"]);
  ("SIVZ", ["2297,66"]);
  ("SIWA", ["4429,75"]);
  ("SIWB", ["3609,82"]);
  ("SIWC", ["3281,66"]);
  ("SIWD", ["2625,59"]);
  ("SIWE", ["3707,59"]);
  ("SIWF", ["3281,66"]);
  ("SIWG", ["4593,75"]);
  ("SIWH", ["4101,66"]);
  ("SIWI", ["3937,98"]);
  ("SIWJ", ["4429,98"]);
  ("SIWK", ["2953,75"]);
  ("SIWL", ["3609,66"]);
  ("SIWM", ["4101,98"]);
  ("SIWN", ["4593,164"]);
  ("SIWP", ["2953,66"]);
  ("SIWQ", ["2789,62"]);
  ("SIWR", ["2625,59"]);
  ("SIWS", ["69,69"]);
  ("SIWT", ["2625,66"]);
  ("SIWU", ["1969,131"]);
  ("SIWV", ["4265,66"]);
  ("SIWW", ["62,62"]);
  ("SIWX", ["75,75"]);
  ("SIWY", ["2297,131"]);
  ("SIWZ", ["3281,79"]);
  ("SIXA", ["1969,98"]);
  ("SIXB", ["2625,66"]);
  ("SIXC", ["62,62"]);
  ("SIXD", ["2526,75"]);
  ("SIXE", ["5249,98"]);
  ("SIXF", ["2625,59"]);
  ("SIXG", ["2625,59"]);
  ("SIXH", ["59,59"]);
  ("SIXI", ["3281,59"]);
  ("SIXL", ["3281,115"]);
  ("SIXM", ["2953,82"]);
  ("SIXN", ["59,59"]);
  ("SIXO", ["3281,82"]);
  ("SIXP", ["4921,98"]);
  ("SIXQ", ["2953,66"]);
  ("SIXR", ["89,89"]);
  ("SIXU", ["62,62"]);
  ("SIXV", ["4265,131"]);
  ("SIXW", ["2953,66"]);
  ("SIXX", ["3642,66"]);
  ("SIXY", ["66,66"]);
  ("SIXZ", ["2461,75"]);
  ("SIYA", ["79,79"]);
  ("SIYB", ["62,62"]);
  ("SIYD", ["69,69"]);
  ("SIYE", ["1969,66"]);
  ("SIYF", ["2625,82"]);
  ("SIYG", ["66,66"]);
  ("SIYH", ["1969,66"]);
  ("SIYK", ["2329,59"]);
  ("SIYL", ["92,92"]);
  ("SIYM", ["66,66"]);
  ("SIYN", ["3379,66"]);
  ("SIYO", ["2625,66"]);
  ("SIYP", ["2297,66"]);
  ("SIYQ", ["4921,75"]);
  ("SIYR", ["2297,66"]);
  ("SIYS", ["1995,79"]);
  ("SIYT", ["2625,59"]);
  ("SIYU", ["69,69"]);
  ("SIYV", ["69,69"]);
  ("SIYW", ["1640,66"]);
  ("SIYX", ["2625,66"]);
  ("SIYY", ["3937,59"]);
  ("SIYZ", ["59,59"]);
  ("SIZ", ["1608,98"]);
  ("SIZA", ["3281,59"]);
  ("SIZB", ["62,62"]);
  ("SIZC", ["2303,82"]);
  ("SIZD", ["62,62"]);
  ("SIZE", ["66,66"]);
  ("SIZF", ["3281,98"]);
  ("SIZG", ["3281,66"]);
  ("SIZH", ["3510,75"]);
  ("SIZI", ["3937,75"]);
  ("SIZJ", ["69,69"]);
  ("SIZK", ["3281,66"]);
  ("SIZM", ["5085,115"]);
  ("SIZN", ["3937,115"]);
  ("SIZO", ["4921,98"]);
  ("SIZP", ["66,66"]);
  ("SIZQ", ["1969,66"]);
  ("SIZR", ["2972,72"]);
  ("SIZS", ["2625,66"]);
  ("SIZT", ["1509,82"]);
  ("SIZV", ["69,69"]);
  ("SIZW", ["59,59"]);
  ("SIZX", ["3937,98"]);
  ("SIZY", ["98,98"]);
  ("SJAA", ["3117,164"]);
  ("SJAC", ["3937,197"]);
  ("SJAD", ["66,66"]);
  ("SJAE", ["3937,98"]);
  ("SJAF", ["2625,66"]);
  ("SJAG", ["3937,197"]);
  ("SJAI", ["2625,66"]);
  ("SJAJ", ["59,59"]);
  ("SJAK", ["3937,59"]);
  ("SJAL", ["1969,75"]);
  ("SJAM", ["69,69"]);
  ("SJAN", ["69,69"]);
  ("SJAO", ["79,79"]);
  ("SJAP", ["66,66"]);
  ("SJAQ", ["4199,148"]);
  ("SJAR", ["3281,98"]);
  ("SJAS", ["2953,66"]);
  ("SJAU", ["459,98"]);
  ("SJAV", ["66,66"]);
  ("SJAW", ["2953,66"]);
  ("SJAX", ["4462,82"]);
  ("SJAY", ["3937,82"]);
  ("SJAZ", ["3281,82"]);
  ("SJBA", ["79,79"]);
  ("SJBE", ["59,59"]);
  ("SJBF", ["2625,59"]);
  ("SJBG", ["66,66"]);
  ("SJBH", ["62,62"]);
  ("SJBI", ["69,69"]);
  ("SJBJ", ["69,69"]);
  ("SJBK", ["3028,79"]);
  ("SJBL", ["69,69"]);
  ("SJBN", ["3281,59"]);
  ("SJBO", ["95,95"]);
  ("SJBP", ["69,69"]);
  ("SJBQ", ["79,79"]);
  ("SJBR", ["1926,59"]);
  ("SJBS", ["1804,66"]);
  ("SJBT", ["1969,98"]);
  ("SJBU", ["3904,98"]);
  ("SJBW", ["2625,98"]);
  ("SJBX", ["2625,66"]);
  ("SJBY", ["4921,98"]);
  ("SJBZ", ["2690,62"]);
  ("SJCA", ["5249,115"]);
  ("SJCB", ["66,66"]);
  ("SJCC", ["59,59"]);
  ("SJCD", ["3609,66"]);
  ("SJCE", ["3937,66"]);
  ("SJCF", ["3281,131"]);
  ("SJCG", ["79,79"]);
  ("SJCI", ["62,62"]);
  ("SJCJ", ["59,59"]);
  ("SJCK", ["79,79"]);
  ("SJCL", ["3150,66"]);
  ("SJCM", ["3281,131"]);
  ("SJCN", ["2625,66"]);
  ("SJCO", ["4265,98"]);
  ("SJCP", ["2953,82"]);
  ("SJCQ", ["4921,75"]);
  ("SJCR", ["59,59"]);
  ("SJCS", ["69,69"]);
  ("SJCT", ["69,69"]);
  ("SJCU", ["69,69"]);
  ("SJCV", ["59,59"]);
  ("SJCW", ["4413,98"]);
  ("SJCX", ["69,69"]);
  ("SJCY", ["5249,98"]);
  ("SJCZ", ["3281,75"]);
  ("SJDA", ["3281,98"]);
  ("SJDB", ["6562,98"]);
  ("SJDC", ["62,62"]);
  ("SJDD", ["3281,157"]);
  ("SJDF", ["85,85"]);
  ("SJDG", ["2297,59"]);
  ("SJDH", ["2621,66"]);
  ("SJDI", ["3281,131"]);
  ("SJDJ", ["1191,75"]);
  ("SJDK", ["66,66"]);
  ("SJDL", ["2621,197"]);
  ("SJDN", ["1804,66"]);
  ("SJDO", ["75,75"]);
  ("SJDP", ["79,79"]);
  ("SJDQ", ["62,62"]);
  ("SJDR", ["66,66"]);
  ("SJDS", ["3543,105"]);
  ("SJDT", ["1870,66"]);
  ("SJDU", ["1161,98"]);
  ("SJDV", ["1640,66"]);
  ("SJDW", ["3937,197"]);
  ("SJDX", ["1873,66"]);
  ("SJDY", ["2621,197"]);
  ("SJDZ", ["59,59"]);
  ("SJEA", ["3609,98"]);
  ("SJEB", ["69,69"]);
  ("SJED", ["2297,82"]);
  ("SJEE", ["3609,197"]);
  ("SJEF", ["1870,98"]);
  ("SJEG", ["3281,82"]);
  ("SJEH", ["3281,82"]);
  ("SJEI", ["69,69"]);
  ("SJEJ", ["2231,66"]);
  ("SJEK", ["3281,66"]);
  ("SJEL", ["2231,59"]);
  ("SJEM", ["3215,66"]);
  ("SJEN", ["2297,98"]);
  ("SJEO", ["85,85"]);
  ("SJEP", ["75,75"]);
  ("SJEQ", ["1969,131"]);
  ("SJER", ["3281,59"]);
  ("SJES", ["1969,131"]);
  ("SJET", ["1969,98"]);
  ("SJEU", ["1969,98"]);
  ("SJEV", ["2625,98"]);
  ("SJEW", ["3281,82"]);
  ("SJEX", ["3281,82"]);
  ("SJEY", ["2625,66"]);
  ("SJFA", ["72,72"]);
  ("SJFB", ["2953,59"]);
  ("SJFC", ["79,79"]);
  ("SJFD", ["62,62"]);
  ("SJFF", ["3510,75"]);
  ("SJFG", ["1969,197"]);
  ("SJFH", ["69,69"]);
  ("SJFI", ["2789,66"]);
  ("SJFJ", ["3215,66"]);
  ("SJFK", ["3937,59"]);
  ("SJFL", ["2625,66"]);
  ("SJFM", ["3182,115"]);
  ("SJFN", ["2953,98"]);
  ("SJFO", ["2625,59"]);
  ("SJFP", ["2953,98"]);
  ("SJFQ", ["2953,66"]);
  ("SJFR", ["3281,66"]);
  ("SJFS", ["69,69"]);
  ("SJFT", ["2953,66"]);
  ("SJFU", ["2953,66"]);
  ("SJFV", ["4160,66"]);
  ("SJFW", ["3281,59"]);
  ("SJFX", ["4921,98"]);
  ("SJFY", ["98,98"]);
  ("SJFZ", ["66,66"]);
  ("SJGA", ["1969,66"]);
  ("SJGB", ["3937,66"]);
  ("SJGC", ["4265,98"]);
  ("SJGD", ["3937,66"]);
  ("SJGE", ["1804,66"]);
  ("SJGF", ["1253,59"]);
  ("SJGG", ["69,69"]);
  ("SJGH", ["1969,59"]);
  ("SJGI", ["1969,131"]);
  ("SJGJ", ["1640,59"]);
  ("SJGK", ["3609,98"]);
  ("SJGL", ["59,59"]);
  ("SJGM", ["62,62"]);
  ("SJGN", ["3937,66"]);
  ("SJGO", ["3215,66"]);
  ("SJGP", ["3786,75"]);
  ("SJGQ", ["62,62"]);
  ("SJGR", ["2953,62"]);
  ("SJGS", ["59,59"]);
  ("SJGT", ["3281,82"]);
  ("SJGU", ["4921,98"]);
  ("SJGV", ["69,69"]);
  ("SJGW", ["3281,75"]);
  ("SJGX", ["2297,59"]);
  ("SJGY", ["2625,98"]);
  ("SJGZ", ["3281,82"]);
  ("SJHA", ["3937,66"]);
  ("SJHB", ["59,59"]);
  ("SJHC", ["66,66"]);
  ("SJHD", ["4265,82"]);
  ("SJHE", ["3937,82"]);
  ("SJHF", ["3281,59"]);
  ("SJHG", ["3609,98"]);
  ("SJHH", ["3281,82"]);
  ("SJHI", ["69,69"]);
  ("SJHJ", ["3117,82"]);
  ("SJHK", ["2625,75"]);
  ("SJHL", ["1640,59"]);
  ("SJHM", ["3937,59"]);
  ("SJHN", ["3281,98"]);
  ("SJHO", ["3937,66"]);
  ("SJHP", ["2559,98"]);
  ("SJHQ", ["3937,75"]);
  ("SJHS", ["3937,98"]);
  ("SJHT", ["2953,98"]);
  ("SJHU", ["2461,75"]);
  ("SJHV", ["79,79"]);
  ("SJHW", ["3937,59"]);
  ("SJHX", ["1640,59"]);
  ("SJHY", ["69,69"]);
  ("SJHZ", ["4265,66"]);
  ("SJIA", ["85,85"]);
  ("SJIB", ["85,85"]);
  ("SJIC", ["2625,66"]);
  ("SJID", ["3937,98"]);
  ("SJIE", ["5249,66"]);
  ("SJIF", ["2625,82"]);
  ("SJIH", ["82,82"]);
  ("SJII", ["3281,59"]);
  ("SJIJ", ["3937,115"]);
  ("SJIL", ["1624,66"]);
  ("SJIM", ["66,66"]);
  ("SJIN", ["69,69"]);
  ("SJIO", ["2625,98"]);
  ("SJIP", ["62,62"]);
  ("SJIQ", ["3117,59"]);
  ("SJIR", ["3117,98"]);
  ("SJIS", ["3609,98"]);
  ("SJIT", ["3701,59"]);
  ("SJIU", ["2362,59"]);
  ("SJIV", ["2231,66"]);
  ("SJIW", ["69,69"]);
  ("SJIX", ["69,69"]);
  ("SJIY", ["3750,66"]);
  ("SJIZ", ["4593,79"]);
  ("SJJA", ["2625,66"]);
  ("SJJB", ["3937,98"]);
  ("SJJC", ["66,66"]);
  ("SJJD", ["2608,66"]);
  ("SJJE", ["85,85"]);
  ("SJJF", ["3215,82"]);
  ("SJJG", ["3281,66"]);
  ("SJJH", ["2231,59"]);
  ("SJJI", ["2953,131"]);
  ("SJJJ", ["3281,98"]);
  ("SJJK", ["3281,98"]);
  ("SJJL", ["3543,98"]);
  ("SJJM", ["4265,66"]);
  ("SJJO", ["2297,75"]);
  ("SJJP", ["2789,66"]);
  ("SJJQ", ["82,82"]);
  ("SJJR", ["3281,66"]);
  ("SJJS", ["85,85"]);
  ("SJJT", ["3281,98"]);
  ("SJJU", ["328,82"]);
  ("SJJV", ["2953,66"]);
  ("SJJW", ["1942,59"]);
  ("SJJX", ["2625,66"]);
  ("SJJY", ["82,82"]);
  ("SJJZ", ["108,108"]);
  ("SJKA", ["5528,82"]);
  ("SJKB", ["3937,66"]);
  ("SJKC", ["3281,115"]);
  ("SJKD", ["59,59"]);
  ("SJKE", ["69,69"]);
  ("SJKF", ["59,59"]);
  ("SJKG", ["2953,66"]);
  ("SJKH", ["2067,59"]);
  ("SJKI", ["3609,66"]);
  ("SJKJ", ["2621,197"]);
  ("SJKK", ["62,62"]);
  ("SJKL", ["2133,82"]);
  ("SJKM", ["2297,66"]);
  ("SJKN", ["2625,98"]);
  ("SJKO", ["1969,66"]);
  ("SJKP", ["2625,66"]);
  ("SJKQ", ["2297,66"]);
  ("SJKR", ["1969,66"]);
  ("SJKS", ["2297,98"]);
  ("SJKT", ["2297,66"]);
  ("SJKU", ["2297,66"]);
  ("SJKV", ["2625,82"]);
  ("SJKW", ["2133,66"]);
  ("SJKX", ["2625,82"]);
  ("SJKZ", ["1969,66"]);
  ("SJLA", ["2297,66"]);
  ("SJLB", ["3609,79"]);
  ("SJLC", ["1969,98"]);
  ("SJLD", ["2920,59"]);
  ("SJLE", ["1969,98"]);
  ("SJLF", ["2461,98"]);
  ("SJLH", ["1969,66"]);
  ("SJLI", ["3150,92"]);
  ("SJLJ", ["2297,98"]);
  ("SJLK", ["1969,66"]);
  ("SJLL", ["2133,66"]);
  ("SJLM", ["1969,66"]);
  ("SJLN", ["2297,66"]);
  ("SJLO", ["2133,66"]);
  ("SJLP", ["1969,66"]);
  ("SJLQ", ["1969,66"]);
  ("SJLS", ["1969,66"]);
  ("SJLT", ["1969,66"]);
  ("SJLU", ["2461,98"]);
  ("SJLV", ["2297,66"]);
  ("SJLW", ["1969,66"]);
  ("SJLX", ["2133,66"]);
  ("SJLZ", ["2625,66"]);
  ("SJMA", ["3281,197"]);
  ("SJMB", ["69,69"]);
  ("SJMC", ["59,59"]);
  ("SJMD", ["1969,98"]);
  ("SJME", ["2297,82"]);
  ("SJMF", ["1969,66"]);
  ("SJMG", ["79,79"]);
  ("SJMH", ["2297,98"]);
  ("SJMI", ["1969,98"]);
  ("SJMJ", ["2953,98"]);
  ("SJMK", ["2297,98"]);
  ("SJML", ["2297,82"]);
  ("SJMM", ["2133,82"]);
  ("SJMN", ["2625,98"]);
  ("SJMO", ["1969,82"]);
  ("SJMP", ["2133,66"]);
  ("SJMQ", ["2133,82"]);
  ("SJMR", ["3281,59"]);
  ("SJMS", ["66,66"]);
  ("SJMT", ["2297,82"]);
  ("SJMU", ["1969,66"]);
  ("SJMV", ["3937,98"]);
  ("SJMW", ["1969,82"]);
  ("SJMX", ["1969,66"]);
  ("SJMZ", ["3281,82"]);
  ("SJNA", ["1969,66"]);
  ("SJNB", ["1969,66"]);
  ("SJNC", ["1969,98"]);
  ("SJND", ["1969,59"]);
  ("SJNE", ["1969,66"]);
  ("SJNF", ["1804,66"]);
  ("SJNG", ["2625,98"]);
  ("SJNH", ["2625,164"]);
  ("SJNI", ["3937,69"]);
  ("SJNJ", ["3937,62"]);
  ("SJNK", ["3215,118"]);
  ("SJNL", ["4980,82"]);
  ("SJNM", ["3937,75"]);
  ("SJNN", ["2461,59"]);
  ("SJNO", ["2625,59"]);
  ("SJNP", ["3445,92"]);
  ("SJNQ", ["4003,98"]);
  ("SJNR", ["3117,66"]);
  ("SJNS", ["4921,66"]);
  ("SJNT", ["62,62"]);
  ("SJNU", ["3281,66"]);
  ("SJNV", ["3773,66"]);
  ("SJNW", ["4921,131"]);
  ("SJNX", ["3146,98"]);
  ("SJNY", ["69,69"]);
  ("SJNZ", ["3773,62"]);
  ("SJOA", ["66,66"]);
  ("SJOC", ["69,69"]);
  ("SJOD", ["79,79"]);
  ("SJOE", ["66,66"]);
  ("SJOF", ["66,66"]);
  ("SJOG", ["4285,59"]);
  ("SJOH", ["3445,59"]);
  ("SJOI", ["3281,59"]);
  ("SJOJ", ["3904,75"]);
  ("SJOK", ["2625,131"]);
  ("SJOL", ["66,66"]);
  ("SJOM", ["3937,66"]);
  ("SJON", ["1969,66"]);
  ("SJOO", ["3215,98"]);
  ("SJOP", ["59,59"]);
  ("SJOQ", ["66,66"]);
  ("SJOR", ["1804,59"]);
  ("SJOS", ["66,66"]);
  ("SJOU", ["3182,59"]);
  ("SJOV", ["72,72"]);
  ("SJOW", ["2953,59"]);
  ("SJOX", ["6562,98"]);
  ("SJOY", ["5906,98"]);
  ("SJOZ", ["79,79"]);
  ("SJPA", ["1969,98"]);
  ("SJPB", ["79,79"]);
  ("SJPC", ["62,62"]);
  ("SJPD", ["72,72"]);
  ("SJPE", ["62,62"]);
  ("SJPF", ["82,82"]);
  ("SJPG", ["1969,66"]);
  ("SJPH", ["3281,75"]);
  ("SJPI", ["2625,59"]);
  ("SJPJ", ["69,69"]);
  ("SJPK", ["4593,82"]);
  ("SJPL", ["2428,131"]);
  ("SJPM", ["69,69"]);
  ("SJPN", ["72,72"]);
  ("SJPO", ["3068,92"]);
  ("SJPP", ["3609,98"]);
  ("SJPQ", ["2251,59"]);
  ("SJPR", ["3937,66"]);
  ("SJPS", ["2953,66"]);
  ("SJPT", ["69,69"]);
  ("SJPU", ["1312,66"]);
  ("SJPV", ["3773,59"]);
  ("SJPW", ["2461,59"]);
  ("SJPX", ["3281,59"]);
  ("SJPY", ["62,62"]);
  ("SJPZ", ["59,59"]);
  ("SJQA", ["3609,66"]);
  ("SJQB", ["2953,66"]);
  ("SJQC", ["79,79"]);
  ("SJQD", ["2625,131"]);
  ("SJQE", ["1969,59"]);
  ("SJQF", ["3937,66"]);
  ("SJQG", ["66,7"]);
  ("SJQH", ["3281,66"]);
  ("SJQI", ["3937,98"]);
  ("SJQJ", ["59,59"]);
  ("SJQK", ["3281,59"]);
  ("SJQM", ["59,59"]);
  ("SJQN", ["4921,98"]);
  ("SJQO", ["72,72"]);
  ("SJQQ", ["2756,59"]);
  ("SJQR", ["3281,131"]);
  ("SJQS", ["1936,79"]);
  ("SJQT", ["2244,69"]);
  ("SJQU", ["69,69"]);
  ("SJQV", ["2953,59"]);
  ("SJQW", ["66,66"]);
  ("SJQX", ["2625,98"]);
  ("SJQY", ["108,108"]);
  ("SJQZ", ["3990,131"]);
  ("SJRA", ["2297,59"]);
  ("SJRB", ["4593,98"]);
  ("SJRC", ["3937,59"]);
  ("SJRD", ["66,66"]);
  ("SJRE", ["79,79"]);
  ("SJRF", ["69,69"]);
  ("SJRG", ["4921,98"]);
  ("SJRH", ["3937,82"]);
  ("SJRI", ["4429,79"]);
  ("SJRJ", ["1969,66"]);
  ("SJRK", ["2772,59"]);
  ("SJRL", ["2133,66"]);
  ("SJRM", ["79,79"]);
  ("SJRN", ["69,69"]);
  ("SJRO", ["3609,66"]);
  ("SJRP", ["3937,98"]);
  ("SJRQ", ["79,79"]);
  ("SJRR", ["2625,59"]);
  ("SJRS", ["3609,66"]);
  ("SJRT", ["2953,66"]);
  ("SJRU", ["79,79"]);
  ("SJRV", ["5249,75"]);
  ("SJRW", ["5249,75"]);
  ("SJRX", ["62,62"]);
  ("SJRY", ["62,62"]);
  ("SJRZ", ["66,66"]);
  ("SJSA", ["2953,98"]);
  ("SJSB", ["69,69"]);
  ("SJSC", ["1969,66"]);
  ("SJSD", ["3937,79"]);
  ("SJSE", ["2297,164"]);
  ("SJSF", ["3609,131"]);
  ("SJSG", ["62,62"]);
  ("SJSH", ["1896,164"]);
  ("SJSJ", ["3281,197"]);
  ("SJSK", ["3609,75"]);
  ("SJSL", ["2297,66"]);
  ("SJSM", ["2625,59"]);
  ("SJSN", ["2625,59"]);
  ("SJSO", ["3609,59"]);
  ("SJSQ", ["92,92"]);
  ("SJSR", ["2953,59"]);
  ("SJSS", ["3281,66"]);
  ("SJST", ["59,59"]);
  ("SJSU", ["2625,98"]);
  ("SJSW", ["66,66"]);
  ("SJSY", ["72,72"]);
  ("SJSZ", ["62,62"]);
  ("SJTA", ["2953,66"]);
  ("SJTB", ["4593,66"]);
  ("SJTC", ["6890,148"]);
  ("SJTD", ["69,69"]);
  ("SJTE", ["66,66"]);
  ("SJTF", ["3937,66"]);
  ("SJTG", ["3773,98"]);
  ("SJTI", ["1969,66"]);
  ("SJTJ", ["2625,59"]);
  ("SJTK", ["1345,66"]);
  ("SJTL", ["3281,66"]);
  ("SJTM", ["3051,66"]);
  ("SJTN", ["3150,66"]);
  ("SJTO", ["4593,66"]);
  ("SJTP", ["3609,66"]);
  ("SJTQ", ["1903,66"]);
  ("SJTR", ["59,59"]);
  ("SJTS", ["3281,75"]);
  ("SJTT", ["3281,62"]);
  ("SJTU", ["3937,98"]);
  ("SJTV", ["4265,98"]);
  ("SJTW", ["59,59"]);
  ("SJTX", ["59,59"]);
  ("SJTY", ["62,62"]);
  ("SJTZ", ["3281,75"]);
  ("SJUA", ["3609,66"]);
  ("SJUB", ["3609,82"]);
  ("SJUC", ["3937,98"]);
  ("SJUD", ["3281,66"]);
  ("SJUE", ["79,79"]);
  ("SJUF", ["95,95"]);
  ("SJUH", ["3281,82"]);
  ("SJUI", ["79,79"]);
  ("SJUJ", ["3937,82"]);
  ("SJUK", ["3281,66"]);
  ("SJUL", ["3281,98"]);
  ("SJUM", ["59,59"]);
  ("SJUN", ["59,59"]);
  ("SJUO", ["59,59"]);
  ("SJUP", ["62,62"]);
  ("SJUQ", ["2887,66"]);
  ("SJUS", ["3937,62"]);
  ("SJUT", ["102,102"]);
  ("SJUU", ["3117,59"]);
  ("SJUV", ["79,79"]);
  ("SJUW", ["69,69"]);
  ("SJUX", ["69,69"]);
  ("SJUY", ["69,69"]);
  ("SJUZ", ["79,79"]);
  ("SJVA", ["59,59"]);
  ("SJVB", ["3281,66"]);
  ("SJVC", ["3281,98"]);
  ("SJVD", ["3281,98"]);
  ("SJVE", ["79,79"]);
  ("SJVF", ["3281,66"]);
  ("SJVG", ["62,62"]);
  ("SJVH", ["62,62"]);
  ("SJVI", ["59,59"]);
  ("SJVJ", ["59,59"]);
  ("SJVL", ["2953,98"]);
  ("SJVM", ["2100,66"]);
  ("SJVN", ["1969,66"]);
  ("SJVO", ["3314,98"]);
  ("SJVP", ["5249,131"]);
  ("SJVQ", ["2625,98"]);
  ("SJVR", ["3281,79"]);
  ("SJVS", ["2625,82"]);
  ("SJVT", ["75,75"]);
  ("SJVU", ["66,66"]);
  ("SJVV", ["2953,66"]);
  ("SJVW", ["3937,66"]);
  ("SJVX", ["2264,59"]);
  ("SJVY", ["1640,59"]);
  ("SJVZ", ["4265,66"]);
  ("SJWA", ["3281,164"]);
  ("SJWB", ["2592,59"]);
  ("SJWC", ["3937,131"]);
  ("SJWD", ["3445,164"]);
  ("SJWE", ["4265,98"]);
  ("SJWF", ["59,59"]);
  ("SJWG", ["1969,66"]);
  ("SJWH", ["3937,66"]);
  ("SJWI", ["3281,66"]);
  ("SJWJ", ["69,69"]);
  ("SJWK", ["59,59"]);
  ("SJWL", ["3937,66"]);
  ("SJWM", ["3281,82"]);
  ("SJWN", ["2953,98"]);
  ("SJWO", ["2953,72"]);
  ("SJWP", ["5577,98"]);
  ("SJWQ", ["2953,131"]);
  ("SJWR", ["69,69"]);
  ("SJWS", ["79,79"]);
  ("SJWT", ["3937,82"]);
  ("SJWU", ["2559,59"]);
  ("SJWV", ["3740,66"]);
  ("SJWW", ["3937,66"]);
  ("SJWX", ["3609,135"]);
  ("SJWY", ["59,59"]);
  ("SJWZ", ["69,69"]);
  ("SJXA", ["1378,59"]);
  ("SJXB", ["2789,66"]);
  ("SJXC", ["4593,98"]);
  ("SJXD", ["59,59"]);
  ("SJXE", ["69,69"]);
  ("SJXF", ["62,62"]);
  ("SJXG", ["3281,98"]);
  ("SJXH", ["1640,98"]);
  ("SJXM", ["2953,98"]);
  ("SJXN", ["2297,59"]);
  ("SJXO", ["59,59"]);
  ("SJXP", ["59,59"]);
  ("SJXQ", ["59,59"]);
  ("SJXR", ["66,66"]);
  ("SJXS", ["4921,98"]);
  ("SJXT", ["69,69"]);
  ("SJXU", ["69,69"]);
  ("SJXV", ["2953,66"]);
  ("SJXW", ["2953,72"]);
  ("SJXX", ["3281,66"]);
  ("SJXY", ["62,62"]);
  ("SJXZ", ["59,59"]);
  ("SJYA", ["66,66"]);
  ("SJYB", ["69,69"]);
  ("SJYD", ["4528,131"]);
  ("SJYE", ["2953,66"]);
  ("SJYF", ["3281,82"]);
  ("SJYG", ["1969,82"]);
  ("SJYI", ["2297,82"]);
  ("SJYJ", ["2133,98"]);
  ("SJYK", ["2625,98"]);
  ("SJYL", ["2953,98"]);
  ("SJYM", ["1969,66"]);
  ("SJYO", ["2297,82"]);
  ("SJYP", ["2625,66"]);
  ("SJYR", ["1969,66"]);
  ("SJYS", ["1969,66"]);
  ("SJYT", ["3281,98"]);
  ("SJYU", ["3281,98"]);
  ("SJYV", ["79,79"]);
  ("SJYW", ["4265,62"]);
  ("SJYY", ["3609,59"]);
  ("SJYZ", ["3281,75"]);
  ("SJZA", ["2264,59"]);
  ("SJZB", ["3937,59"]);
  ("SJZC", ["3281,92"]);
  ("SJZD", ["2625,66"]);
  ("SJZE", ["3445,98"]);
  ("SJZF", ["3937,98"]);
  ("SJZG", ["3773,89"]);
  ("SJZH", ["2953,66"]);
  ("SJZI", ["79,79"]);
  ("SJZJ", ["69,69"]);
  ("SJZK", ["69,69"]);
  ("SJZL", ["79,79"]);
  ("SJZM", ["4429,95"]);
  ("SJZN", ["59,59"]);
  ("SJZO", ["2625,66"]);
  ("SJZP", ["3937,98"]);
  ("SJZQ", ["2841,105"]);
  ("SJZR", ["2953,59"]);
  ("SJZS", ["2953,59"]);
  ("SJZT", ["5577,98"]);
  ("SJZU", ["69,69"]);
  ("SJZV", ["69,69"]);
  ("SJZW", ["3281,66"]);
  ("SJZX", ["2625,82"]);
  ("SJZY", ["69,69"]);
  ("SJZZ", ["3281,59"]);
  ("SK-0001", ["1870,40,1143,168,1143,348"]);
  ("SK-0065", ["1476,39"]);
  ("SK53", ["4198,49,,65,,245"]);
  ("SKAP", [",,1200,,1185"; "8204,164,1241,95,1194,275"]);
  ("SKAR", ["7045,118,3968,13,3979,193"]);
  ("SKAS", ["5331,131,,8.6,834,188.6"; ",,805,,815"]);
  ("SKBC", ["3985,93,,99.7,,279.7"]);
  ("SKBG", ["7381,131,3902,159,3851,339"]);
  ("SKBN", ["4935,98,,26.7,,206.7"]);
  ("SKBO", ["12467,148,8354,127,8354,307"; "12467,148,8350,127,8355,307"]);
  ("SKBQ", ["9842,148,98,40,98,220"]);
  ("SKBS", [",,80,,80"; "3973,78,,174,,354"]);
  ("SKBU", ["3945,76,40,86,48,266"]);
  ("SKCC", ["6341,148,1046,17,1004,197"; "7700,148,1098,148,1026,328"]);
  ("SKCG", ["8530,148,4,2.3,4,182.3"]);
  ("SKCL", ["9842,148,3153,10,3162,190"]);
  ("SKCN", ["3675,45,,39.9,,219.9"]);
  ("SKCO", ["5249,90,10,54,10,234"]);
  ("SKCU", ["3794,66,,14,,194"]);
  ("SKCV", ["4396,98,,50.2,,230.2"]);
  ("SKCZ", ["4930,98,,19.8,,199.8"]);
  ("SKEB", ["4310,40,,184,,4"]);
  ("SKEJ", ["5905,148,401,31,408,211"]);
  ("SKFL", ["4921,98,797,116,803,296"]);
  ("SKGB", ["6233,98,,62,,242"]);
  ("SKGI", ["5249,92,899,12.4,936,192.4"]);
  ("SKGO", ["7218,131,2977,4.8,2979,184.8"]);
  ("SKGP", ["4256,66,164,18,164,198"]);
  ("SKGY", [",,8390,,8390"; "5643,66,8478,103,8478,283"]);
  ("SKIB", ["5905,98,3044,131,2969,311"]);
  ("SKIO", ["4167,66,,55.4,,235.4"]);
  ("SKIP", ["5774,92,9723,61.2,9765,241.2"]);
  ("SKLC", ["7153,98,39,149.5,46,329.5"]);
  ("SKLG", ["3937,82,,117.4,,297.4"]);
  ("SKLM", ["4876,148,,90,,270"; ",,281,,332"]);
  ("SKLP", ["5643,,590,,590"]);
  ("SKLT", ["6168,131,314,20.8,313,200.8"]);
  ("SKMA", ["6070,80,,58.8,,238.8"]);
  ("SKMD", ["8202,125,4915,16,4921,196"]);
  ("SKME", ["1320,65,,40.4,,220.4"; "3785,92,,41,,221"]);
  ("SKMG", ["4921,70,,101.6,,281.6"]);
  ("SKMJ", ["5300,98,,72,,252"]);
  ("SKML", ["3560,82,160,174.2,143,354.2"]);
  ("SKMP", ["4068,48,,15.6,,195.6"]);
  ("SKMR", ["6285,115,20,137.8,18,317.8"]);
  ("SKMU", ["5889,66,526,11,524,191"]);
  ("SKMZ", [",,6791,,6974"; "4835,65,,95,,275"]);
  ("SKNV", ["5880,131,1447,14,1450,194"]);
  ("SKOC", ["3937,98,,6.4,,186.4"]);
  ("SKOT", ["3103,50,,159.7,,339.7"]);
  ("SKPA", ["5382,98,,37,,217"]);
  ("SKPB", ["5540,148,90,82.8,90,262.8"]);
  ("SKPC", ["5907,69,180,60,180,240"]);
  ("SKPD", ["5910,85,460,168.7,460,348.7"]);
  ("SKPE", ["6627,148,4342,73,4418,253"]);
  ("SKPI", ["4912,98,,60,,240"]);
  ("SKPN", ["3310,35,450,71,476,251"]);
  ("SKPP", ["6266,98,5633,70.8,5687,250.8"]);
  ("SKPQ", ["9987,164,566,182.6,566,2.6"]);
  ("SKPR", ["4230,82,,173,,353"]);
  ("SKPS", ["7585,130,5840,16,5840,196"]);
  ("SKPV", ["3832,50,10,169.1,10,349.1"]);
  ("SKPZ", ["4935,98,,33.1,,213.1"]);
  ("SKQU", ["5905,164,,2.8,,182.8"; ",,1531,,1531"]);
  ("SKRG", ["11483,148,7025,180,6967,360"]);
  ("SKRH", ["5413,98,,88.3,,268.3"; ",,38,,38"]);
  ("SKSA", ["3937,98,674,150,667,330"]);
  ("SKSI", ["3930,75,,32.9,,212.9"]);
  ("SKSJ", ["4897,66,605,5.3,601,185.3"]);
  ("SKSM", ["5577,98,8,358.7,22,178.7"]);
  ("SKSO", ["6171,80,,39.9,,219.9"]);
  ("SKSP", ["7808,148,8,59.3,8,239.3"]);
  ("SKSV", [",,920,,920"; "4921,85,,132,,312"]);
  ("SKTB", ["4921,66,194,83.4,194,263.4"]);
  ("SKTD", ["3609,,650,,650"]);
  ("SKTI", ["9280,96,,34.3,,214.3"; "1431,65,,34.5,,214.5"]);
  ("SKTJ", ["3635,66,,34.3,,214.3"]);
  ("SKTM", ["6561,98,1050,59,1050,239"]);
  ("SKTQ", ["6220,79,585,64,571,244"]);
  ("SKUA", ["8110,100,,23.7,,203.7"; "6780,145,279,63.4,282,243.4"]);
  ("SKUC", ["6890,98,420,98,420,278"]);
  ("SKUI", ["4593,98,175,122,204,302"]);
  ("SKUL", ["3495,100,,11.4,,191.4"]);
  ("SKVG", ["4320,40,,165.9,,345.9"]);
  ("SKVL", ["5520,50,482,150.4,566,330.4"]);
  ("SKVP", ["6890,98,449,9.5,483,189.5"]);
  ("SKVV", ["5616,98,1394,39,1365,219"]);
  ("SKYP", ["8448,98,1006,45.1,1028,225.1"]);
  ("SLBJ", ["4921,118,,1.9,,181.9"]);
  ("SLCB", ["8692,148,8337,37.4,8360,217.4"; "12460,148,8360,131.9,8353,311.9"]);
  ("SLCH", ["4801,67,,162.2,,342.2"]);
  ("SLCO", ["6562,98,892,11,835,191"]);
  ("SLET", ["9144,124,1372,143.7,1359,323.7"]);
  ("SLGY", ["5905,,417,,423"]);
  ("SLLP", ["13123,151,13110,91.9,13314,271.9"; "6725,300,13202,98,13307,278"]);
  ("SLMG", ["4593,,464,,464"]);
  ("SLOR", ["6125,120,,93.2,,273.2"; "8075,75,,182,,2"]);
  ("SLPO", ["9130,98,,56,,236"]);
  ("SLPS", ["6562,118,439,31.7,374,211.7"]);
  ("SLRI", ["5906,,462,,462"]);
  ("SLRY", ["4921,,938,,938"]);
  ("SLSA", ["5013,69,,140.2,,320.2"]);
  ("SLSB", ["5906,,636,,636"]);
  ("SLSI", ["3936,,1355,,1355"]);
  ("SLSU", ["9300,98,9527,46,9431,226"]);
  ("SLTJ", ["10007,148,6083,124.3,6047,304.3"]);
  ("SLTR", ["7874,98,509,134.9,509,314.9"]);
  ("SLVM", ["4918,115,,175.3,,355.3"]);
  ("SLVR", ["11483,148,1218,147,1224,327"]);
  ("SLYA", ["6890,118,,20.3,,200.3"]);
  ("SM-0002", ["2133,98"]);
  ("SMH", ["1526,98"]);
  ("SMJP", ["11417,148,56,89.7,57,269.7"]);
  ("SN00", ["1287,30"]);
  ("SN01", ["20,20"]);
  ("SN03", ["2400,148"; "2010,190"; "2285,260"]);
  ("SN04", ["1800,60"]);
  ("SN05", ["2640,150"]);
  ("SN07", ["2400,80"]);
  ("SN08", ["3100,80"]);
  ("SN09", ["2590,90"]);
  ("SN10", ["2200,50"]);
  ("SN11", ["30,30"]);
  ("SN12", ["3500,75"; "3030,50"]);
  ("SN13", ["2623,50"]);
  ("SN14", ["2500,50"; "2000,60"]);
  ("SN16", ["630,50"]);
  ("SN18", ["1100,300"; "2400,300"]);
  ("SN19", ["2800,100"]);
  ("SN20", ["2000,80"]);
  ("SN21", ["2600,70"]);
  ("SN22", ["2200,60"]);
  ("SN25", ["2640,50"]);
  ("SN27", ["2000,30"]);
  ("SN28", ["3000,75"]);
  ("SN29", ["2480,100"; "2650,75"; "2460,100"]);
  ("SN30", ["50,50"]);
  ("SN31", ["40,40"]);
  ("SN32", ["2200,75"]);
  ("SN33", ["1900,75"]);
  ("SN34", ["2600,100"]);
  ("SN35", ["40,40"]);
  ("SN36", ["2400,80"]);
  ("SN37", ["2600,60"]);
  ("SN38", ["40,40"]);
  ("SN40", ["1900,50"]);
  ("SN41", ["1700,100"]);
  ("SN42", ["2640,75"]);
  ("SN43", ["2000,50"]);
  ("SN44", ["3150,100"]);
  ("SN45", ["2640,50"]);
  ("SN46", ["2600,100"; "2600,100"]);
  ("SN47", ["2400,60"]);
  ("SN48", ["2400,75"]);
  ("SN49", ["1800,40"]);
  ("SN50", ["40,40"]);
  ("SN52", ["2400,60,1237,,1222"]);
  ("SN53", ["3200,50"]);
  ("SN54", ["60,60"]);
  ("SN55", ["2200,27"]);
  ("SN56", ["40,40"]);
  ("SN57", ["2100,100"]);
  ("SN58", ["2440,50"]);
  ("SN59", ["1300,50"]);
  ("SN60", ["25,25"]);
  ("SN61", ["2500,100"]);
  ("SN62", ["1900,40"]);
  ("SN63", ["3100,120"]);
  ("SN64", ["2640,70"]);
  ("SN65", ["2100,100"]);
  ("SN67", ["1900,90"]);
  ("SN68", ["2300,60"]);
  ("SN69", ["2200,65"]);
  ("SN70", ["1565,40"; "2300,40"]);
  ("SN71", ["2000,30"]);
  ("SN72", ["2310,100"]);
  ("SN73", ["105,105"]);
  ("SN74", ["50,50"]);
  ("SN75", ["1900,60"]);
  ("SN76", ["4200,35,,46,,226"; "4200,100"; "7000,200,1560,179,1582,359"]);
  ("SN77", ["2600,60"]);
  ("SN78", ["1700,40"]);
  ("SN79", ["75,65"]);
  ("SN80", ["50,50"]);
  ("SN81", ["1400,50"]);
  ("SN83", ["2400,50"]);
  ("SN84", ["2300,75"]);
  ("SN85", ["2300,75"]);
  ("SN88", ["1600,30"; "600,20"]);
  ("SN89", ["2600,100"]);
  ("SN90", ["2300,40"]);
  ("SN91", ["2300,100"]);
  ("SN92", ["2100,60"]);
  ("SN93", ["2300,75"]);
  ("SN94", ["1300,20"]);
  ("SN95", ["3150,95"; "2250,90"]);
  ("SN97", ["2400,75"]);
  ("SN98", ["2150,100"]);
  ("SN99", ["2000,50"; "1500,50"]);
  ("SNAA", ["2625,66"]);
  ("SNAB", ["4085,85"]);
  ("SNAC", ["2953,59"]);
  ("SNAD", ["2625,59"]);
  ("SNAE", ["4265,92"]);
  ("SNAF", ["2100,92"]);
  ("SNAG", ["4921,98"]);
  ("SNAH", ["3609,66"]);
  ("SNAI", ["4593,82"]);
  ("SNAJ", ["2297,59"]);
  ("SNAK", ["89,89"]);
  ("SNAL", ["3051,59"]);
  ("SNAM", ["5315,98"]);
  ("SNAP", ["4921,75"]);
  ("SNAQ", ["79,79"]);
  ("SNAR", ["4593,98"]);
  ("SNAS", ["4921,148"]);
  ("SNAT", ["3937,98"]);
  ("SNAU", ["3182,164"]);
  ("SNAV", ["3281,66"]);
  ("SNAW", ["2297,72"]);
  ("SNAX", ["4593,98"]);
  ("SNAY", ["2953,59"]);
  ("SNAZ", ["3609,82"]);
  ("SNBB", ["5906,98"]);
  ("SNBC", ["5085,98"]);
  ("SNBD", ["3478,75"]);
  ("SNBE", ["2625,66"]);
  ("SNBG", ["3937,98"]);
  ("SNBH", ["79,79"]);
  ("SNBI", ["5249,98"]);
  ("SNBJ", ["3068,98"]);
  ("SNBL", ["3937,98"]);
  ("SNBM", ["3740,75"]);
  ("SNBN", ["2297,59"]);
  ("SNBO", ["3051,82"]);
  ("SNBR", ["5249,98"]);
  ("SNBS", ["3281,75"]);
  ("SNBT", ["3281,98"]);
  ("SNBU", ["5709,98"]);
  ("SNBV", ["4757,89"]);
  ("SNBW", ["5249,98"]);
  ("SNBX", ["4265,98"]);
  ("SNBY", ["3937,98"]);
  ("SNBZ", ["3937,82"]);
  ("SNCA", ["4659,98"]);
  ("SNCB", ["3182,98"]);
  ("SNCC", ["3839,59"]);
  ("SNCD", ["72,72"])].

(* ADRpy/data/runways.csv *)
Definition airports_28 : list (string * list string) := [
  ("SNCE", ["3281,98"]);
  ("SNCF", ["1804,66"]);
  ("SNCG", ["2625,98"]);
  ("SNCH", ["89,89"]);
  ("SNCI", ["4429,98"]);
  ("SNCJ", ["2841,82"]);
  ("SNCL", ["2621,59"]);
  ("SNCM", ["66,66"]);
  ("SNCP", ["3166,98"]);
  ("SNCQ", ["3937,98"]);
  ("SNCR", ["59,59"]);
  ("SNCS", ["3937,98"]);
  ("SNCT", ["3543,75"]);
  ("SNCU", ["2461,98"]);
  ("SNCV", ["3281,82"]);
  ("SNCW", ["98,98"]);
  ("SNCX", ["4265,98"]);
  ("SNCY", ["2297,59"]);
  ("SNCZ", ["3478,98"]);
  ("SNDB", ["2625,59"]);
  ("SNDC", ["3150,98"]);
  ("SNDD", ["2953,66"]);
  ("SNDF", ["2625,59"]);
  ("SNDH", ["3937,75"]);
  ("SNDI", ["2297,66"]);
  ("SNDJ", ["3182,75"]);
  ("SNDN", ["3937,98"]);
  ("SNDO", ["3937,92"]);
  ("SNDP", ["1969,66"]);
  ("SNDQ", ["3937,66"]);
  ("SNDR", ["4984,98"]);
  ("SNDT", ["5282,98"]);
  ("SNDU", ["2231,92"]);
  ("SNDV", ["5052,98"]);
  ("SNDW", ["3937,213"]);
  ("SNDX", ["2625,66"]);
  ("SNDZ", ["62,62"]);
  ("SNEA", ["3937,98"]);
  ("SNEB", ["4265,75"]);
  ("SNEC", ["3117,66"]);
  ("SNED", ["4396,98"]);
  ("SNEE", ["1969,59"]);
  ("SNEF", ["66,66"]);
  ("SNEG", ["3937,82"]);
  ("SNEH", ["1969,66"]);
  ("SNEJ", ["3609,98"]);
  ("SNEK", ["2789,98"]);
  ("SNEL", ["6562,197"]);
  ("SNEM", ["2133,75"]);
  ("SNEN", ["3937,98"]);
  ("SNEO", ["1969,59"]);
  ("SNEQ", ["69,69"]);
  ("SNER", ["74,74"]);
  ("SNES", ["3937,98"]);
  ("SNEU", ["3937,72"]);
  ("SNEV", ["69,69"]);
  ("SNEW", ["4669,62"]);
  ("SNEY", ["3937,66"]);
  ("SNEZ", ["2789,66"]);
  ("SNFA", ["3609,75"]);
  ("SNFB", ["2920,59"]);
  ("SNFC", ["3609,98"]);
  ("SNFD", ["4593,98"]);
  ("SNFE", ["5249,98"]);
  ("SNFF", ["1804,59"]);
  ("SNFG", ["2461,66"]);
  ("SNFH", ["3281,66"]);
  ("SNFI", ["4921,85"]);
  ("SNFJ", ["4265,62"]);
  ("SNFK", ["3281,82"]);
  ("SNFL", ["1312,66"]);
  ("SNFM", ["52,52"]);
  ("SNFN", ["3281,98"]);
  ("SNFO", ["3379,75"]);
  ("SNFP", ["3609,59"]);
  ("SNFQ", ["2625,59"]);
  ("SNFR", ["3609,82"]);
  ("SNFS", ["2953,66"]);
  ("SNFT", ["2297,59"]);
  ("SNFU", ["3281,66"]);
  ("SNFV", ["1969,59"]);
  ("SNFW", ["3609,98"]);
  ("SNFX", ["5249,108"]);
  ("SNFZ", ["3707,59"]);
  ("SNGA", ["3904,98"]);
  ("SNGB", ["3281,98"]);
  ("SNGC", ["1969,66"]);
  ("SNGD", ["5249,118"]);
  ("SNGE", ["59,59"]);
  ("SNGF", ["72,72"]);
  ("SNGG", ["3937,66"]);
  ("SNGH", ["4101,262"]);
  ("SNGI", ["5577,98"]);
  ("SNGJ", ["4206,98"]);
  ("SNGK", ["3937,66"]);
  ("SNGL", ["98,98"]);
  ("SNGM", ["3937,66"]);
  ("SNGN", ["4114,92"]);
  ("SNGO", ["3937,59"]);
  ("SNGP", ["3281,49"]);
  ("SNGQ", ["4921,131"]);
  ("SNGR", ["2953,148"]);
  ("SNGS", ["2625,69"]);
  ("SNGT", ["4265,66"]);
  ("SNGU", ["3281,328"]);
  ("SNGW", ["2953,164"]);
  ("SNGX", ["4856,98"]);
  ("SNGY", ["79,79"]);
  ("SNGZ", ["62,62"]);
  ("SNHA", ["4993,98,,56,,236"]);
  ("SNHB", ["59,59"]);
  ("SNHD", ["3609,82"]);
  ("SNHE", ["2953,75"]);
  ("SNHG", ["3281,59"]);
  ("SNHH", ["98,98"]);
  ("SNHI", ["89,89"]);
  ("SNHJ", ["2690,75"]);
  ("SNHK", ["2953,75"]);
  ("SNHL", ["3773,66"]);
  ("SNHM", ["59,59"]);
  ("SNHN", ["69,69"]);
  ("SNHO", ["3412,75"]);
  ("SNHP", ["4265,75"]);
  ("SNHQ", ["2953,75"]);
  ("SNHR", ["2953,66"]);
  ("SNHS", ["5226,98"]);
  ("SNHT", ["59,59"]);
  ("SNHU", ["3281,66"]);
  ("SNHW", ["2953,66"]);
  ("SNHX", ["3937,98"]);
  ("SNHY", ["59,59"]);
  ("SNHZ", ["59,59"]);
  ("SNIA", ["3822,98"]);
  ("SNIB", ["3937,98"]);
  ("SNIC", ["4593,98"]);
  ("SNID", ["69,69"]);
  ("SNIE", ["3543,98"]);
  ("SNIF", ["1804,59"]);
  ("SNIG", ["4626,98"]);
  ("SNII", ["2297,66"]);
  ("SNIJ", ["98,98"]);
  ("SNIK", ["1969,66"]);
  ("SNIL", ["3051,59"]);
  ("SNIN", ["3937,98"]);
  ("SNIO", ["5315,89"]);
  ("SNIP", ["3478,79"]);
  ("SNIR", ["3281,69"]);
  ("SNIS", ["3281,69"]);
  ("SNIT", ["3937,66"]);
  ("SNIU", ["4265,66"]);
  ("SNIV", ["2625,66"]);
  ("SNIX", ["4265,59"]);
  ("SNIY", ["3609,85"]);
  ("SNIZ", ["4265,59"]);
  ("SNJA", ["3609,98"]);
  ("SNJB", ["4101,98"]);
  ("SNJC", ["3379,89"]);
  ("SNJD", ["4921,98"]);
  ("SNJE", ["4134,98"]);
  ("SNJG", ["3773,164"]);
  ("SNJH", ["3773,98"]);
  ("SNJI", ["3937,59"]);
  ("SNJJ", ["2953,98"]);
  ("SNJK", ["4199,98"]);
  ("SNJL", ["1640,59"]);
  ("SNJM", ["3839,98"]);
  ("SNJN", ["3937,98"]);
  ("SNJO", ["3445,98"]);
  ("SNJP", ["4265,75"]);
  ("SNJQ", ["3707,75"]);
  ("SNJR", ["4593,98"]);
  ("SNJS", ["3609,85"]);
  ("SNJT", ["3543,98"]);
  ("SNJV", ["4790,66"]);
  ("SNJW", ["3543,98"]);
  ("SNJX", ["69,69"]);
  ("SNJY", ["89,89"]);
  ("SNJZ", ["4101,75"]);
  ("SNKA", ["72,72"]);
  ("SNKB", ["2625,66"]);
  ("SNKC", ["3281,75"]);
  ("SNKD", ["3150,75"]);
  ("SNKE", ["4921,98"]);
  ("SNKF", ["3150,98"]);
  ("SNKG", ["59,59"]);
  ("SNKH", ["3445,197"]);
  ("SNKI", ["3937,98"]);
  ("SNKJ", ["4429,66"]);
  ("SNKK", ["3281,59"]);
  ("SNKL", ["3281,164"]);
  ("SNKM", ["62,62"]);
  ("SNKN", ["3412,98"]);
  ("SNKO", ["3609,72"]);
  ("SNKQ", ["2625,59"]);
  ("SNKR", ["3281,66"]);
  ("SNKS", ["2625,115"]);
  ("SNKT", ["3937,59"]);
  ("SNKU", ["2297,262"]);
  ("SNKV", ["1673,59"]);
  ("SNKW", ["3281,79"]);
  ("SNKX", ["2625,59"]);
  ("SNKY", ["2953,59"]);
  ("SNKZ", ["2297,66"]);
  ("SNLA", ["4836,75"]);
  ("SNLB", ["3445,75,,38,,218"]);
  ("SNLC", ["2625,131"]);
  ("SNLD", ["1640,59"]);
  ("SNLE", ["62,62"]);
  ("SNLF", ["2362,59"]);
  ("SNLG", ["4134,66"]);
  ("SNLH", ["2953,148"]);
  ("SNLI", ["3937,98"]);
  ("SNLJ", ["3281,66"]);
  ("SNLK", ["3281,66"]);
  ("SNLL", ["66,66"]);
  ("SNLM", ["1969,98"]);
  ("SNLN", ["4429,131"]);
  ("SNLO", ["3510,98"]);
  ("SNLP", ["69,69"]);
  ("SNLQ", ["4921,66"]);
  ("SNLR", ["69,69"]);
  ("SNLS", ["62,62"]);
  ("SNLT", ["3478,98"]);
  ("SNLU", ["1640,59"]);
  ("SNLV", ["2133,138"]);
  ("SNLX", ["2953,59"]);
  ("SNLY", ["3281,66"]);
  ("SNLZ", ["3294,66"]);
  ("SNMA", ["4675,98"]);
  ("SNMB", ["3281,85"]);
  ("SNMC", ["4324,62"]);
  ("SNMD", ["2297,66"]);
  ("SNME", ["2575,59"]);
  ("SNMF", ["2615,75"]);
  ("SNMG", ["59,59"]);
  ("SNMI", ["5741,118"]);
  ("SNMJ", ["4265,66"]);
  ("SNMK", ["4987,82"]);
  ("SNML", ["3281,59"]);
  ("SNMM", ["3281,75"]);
  ("SNMN", ["2625,66"]);
  ("SNMO", ["3330,59"]);
  ("SNMP", ["3281,75"]);
  ("SNMQ", ["59,59"]);
  ("SNMR", ["2625,98"]);
  ("SNMS", ["4167,59"]);
  ("SNMU", ["4593,59"]);
  ("SNMV", ["3281,82"]);
  ("SNMW", ["3281,66"]);
  ("SNMX", ["89,89"]);
  ("SNMZ", ["4298,92"]);
  ("SNNA", ["92,92"]);
  ("SNNB", ["3445,98"]);
  ("SNNC", ["3281,75"]);
  ("SNND", ["2789,79"]);
  ("SNNE", ["2034,131"]);
  ("SNNF", ["2953,59"]);
  ("SNNH", ["4386,69"]);
  ("SNNI", ["2133,59"]);
  ("SNNJ", ["3937,98"]);
  ("SNNK", ["4101,98"]);
  ("SNNL", ["59,59"]);
  ("SNNM", ["2953,82"]);
  ("SNNO", ["2789,98"]);
  ("SNNP", ["3937,197"]);
  ("SNNQ", ["3281,98"]);
  ("SNNR", ["62,62"]);
  ("SNNS", ["3658,98"]);
  ("SNNT", ["4921,148"]);
  ("SNNU", ["3937,98"]);
  ("SNNV", ["2625,98"]);
  ("SNNX", ["2887,98"]);
  ("SNNY", ["2625,98"]);
  ("SNNZ", ["2953,131"]);
  ("SNOB", ["3389,98"]);
  ("SNOC", ["3281,82"]);
  ("SNOD", ["1906,59"]);
  ("SNOE", ["3937,131"]);
  ("SNOF", ["3543,164"]);
  ("SNOG", ["3937,66"]);
  ("SNOH", ["66,66"]);
  ("SNOI", ["2953,131"]);
  ("SNOJ", ["2297,98"]);
  ("SNOK", ["3117,69"]);
  ("SNOM", ["3609,59"]);
  ("SNON", ["79,79"]);
  ("SNOO", ["2789,59"]);
  ("SNOP", ["3937,98"]);
  ("SNOQ", ["3117,59"]);
  ("SNOR", ["69,69"]);
  ("SNOS", ["4921,75"]);
  ("SNOT", ["3937,115"]);
  ("SNOU", ["3937,79"]);
  ("SNOV", ["1969,59"]);
  ("SNOW", ["3609,66"]);
  ("SNOX", ["5249,98"]);
  ("SNOY", ["4593,92"]);
  ("SNOZ", ["3281,98"]);
  ("SNPA", ["3740,75"]);
  ("SNPB", ["3937,52"]);
  ("SNPC", ["3937,79"]);
  ("SNPD", ["5577,98"]);
  ("SNPE", ["4921,66"]);
  ("SNPF", ["3937,98"]);
  ("SNPG", ["3609,98"]);
  ("SNPH", ["5905,65,,137,,317"]);
  ("SNPI", ["4429,82"]);
  ("SNPJ", ["3937,98"]);
  ("SNPL", ["3609,66"]);
  ("SNPM", ["3281,98"]);
  ("SNPN", ["3609,66"]);
  ("SNPO", ["3937,230"]);
  ("SNPP", ["2690,59"]);
  ("SNPQ", ["3281,125"]);
  ("SNPR", ["66,66"]);
  ("SNPS", ["3789,59"]);
  ("SNPT", ["1969,131"]);
  ("SNPU", ["3855,98"]);
  ("SNPW", ["5906,115"]);
  ("SNPX", ["4856,98"]);
  ("SNPY", ["5249,98"]);
  ("SNPZ", ["3281,98"]);
  ("SNQA", ["2625,59"]);
  ("SNQB", ["2953,59"]);
  ("SNQD", ["3937,98"]);
  ("SNQE", ["2493,59"]);
  ("SNQF", ["66,66"]);
  ("SNQG", ["5906,148"]);
  ("SNQI", ["3609,59"]);
  ("SNQJ", ["2625,66"]);
  ("SNQK", ["59,59"]);
  ("SNQL", ["2395,66"]);
  ("SNQM", ["3937,72"]);
  ("SNQO", ["1969,59"]);
  ("SNQP", ["2953,75"]);
  ("SNQQ", ["62,62"]);
  ("SNQR", ["2625,98"]);
  ("SNQS", ["2953,98"]);
  ("SNQT", ["2789,98"]);
  ("SNQU", ["4593,62"]);
  ("SNQV", ["3937,75"]);
  ("SNQW", ["3232,82"]);
  ("SNQX", ["3937,98"]);
  ("SNQY", ["59,59"]);
  ("SNQZ", ["2854,98"]);
  ("SNRA", ["2986,59"]);
  ("SNRB", ["3150,59"]);
  ("SNRC", ["62,62"]);
  ("SNRD", ["3937,98"]);
  ("SNRE", ["4265,59"]);
  ("SNRG", ["62,62"]);
  ("SNRH", ["4101,59"]);
  ("SNRI", ["89,89"]);
  ("SNRJ", ["3281,492"; "4265,98"]);
  ("SNRM", ["4429,98"]);
  ("SNRN", ["3609,66"]);
  ("SNRO", ["79,79"]);
  ("SNRP", ["3609,33"]);
  ("SNRQ", ["2953,59"]);
  ("SNRR", ["3379,75"]);
  ("SNRS", ["3527,89"]);
  ("SNRU", ["5906,98"]);
  ("SNRV", ["2625,59"]);
  ("SNRW", ["2192,59"]);
  ("SNRX", ["3937,131"]);
  ("SNRY", ["59,59"]);
  ("SNRZ", ["3887,82,3320,11.66,3306,191.66"]);
  ("SNSA", ["3215,72"]);
  ("SNSB", ["2625,98"]);
  ("SNSC", ["3937,98"]);
  ("SNSD", ["3937,66"]);
  ("SNSE", ["3609,82"]);
  ("SNSF", ["3937,131"]);
  ("SNSG", ["4265,98"]);
  ("SNSH", ["4921,98"]);
  ("SNSI", ["2625,59"]);
  ("SNSJ", ["2625,59"]);
  ("SNSL", ["2953,66"]);
  ("SNSM", ["3281,82"]);
  ("SNSN", ["3937,66"]);
  ("SNSO", ["3018,75"]);
  ("SNSP", ["62,62"]);
  ("SNSQ", ["62,62"]);
  ("SNSR", ["3609,98"]);
  ("SNSS", ["4856,98"]);
  ("SNST", ["3937,66"]);
  ("SNSU", ["3543,75"]);
  ("SNSV", ["3609,131"]);
  ("SNSW", ["3609,98"]);
  ("SNSX", ["2789,131"]);
  ("SNSY", ["2625,98"]);
  ("SNSZ", ["3281,98"]);
  ("SNTA", ["3609,66"]);
  ("SNTB", ["3445,66"]);
  ("SNTC", ["2690,59"]);
  ("SNTD", ["4364,75"]);
  ("SNTF", ["4790,98"]);
  ("SNTG", ["3445,66"]);
  ("SNTI", ["4987,98"]);
  ("SNTJ", ["1969,59"]);
  ("SNTK", ["3281,75"]);
  ("SNTL", ["3281,98"]);
  ("SNTM", ["3281,98"]);
  ("SNTO", ["3904,75"]);
  ("SNTP", ["4265,66"]);
  ("SNTQ", ["5249,95"]);
  ("SNTR", ["4068,82"]);
  ("SNTS", ["5249,98"]);
  ("SNTT", ["4921,98"]);
  ("SNTU", ["1969,98"]);
  ("SNTV", ["4921,82"]);
  ("SNTW", ["2625,98"]);
  ("SNTX", ["2198,59"]);
  ("SNTY", ["3740,82"]);
  ("SNTZ", ["59,59"]);
  ("SNUB", ["3543,75"]);
  ("SNUC", ["4921,52"]);
  ("SNUD", ["3937,131"]);
  ("SNUF", ["3281,98"]);
  ("SNUG", ["2625,59"]);
  ("SNUH", ["3658,98"]);
  ("SNUI", ["3937,98"]);
  ("SNUJ", ["3445,66"]);
  ("SNUK", ["3215,59"]);
  ("SNUL", ["3281,66"]);
  ("SNUM", ["3445,66"]);
  ("SNUN", ["3871,98"]);
  ("SNUP", ["2625,98"]);
  ("SNUQ", ["69,69"]);
  ("SNUS", ["2133,66"]);
  ("SNUT", ["4659,66"]);
  ("SNUU", ["3937,82"]);
  ("SNUV", ["2953,66"]);
  ("SNUW", ["3445,66"]);
  ("SNUX", ["3281,66"]);
  ("SNUY", ["2625,66"]);
  ("SNUZ", ["2953,66"]);
  ("SNVA", ["4035,98"]);
  ("SNVB", ["5906,98"]);
  ("SNVC", ["2953,98"]);
  ("SNVD", ["3937,98"]);
  ("SNVF", ["59,59"]);
  ("SNVG", ["3937,98"]);
  ("SNVH", ["2953,66"]);
  ("SNVI", ["4593,98"]);
  ("SNVJ", ["2953,66"]);
  ("SNVK", ["3445,164"]);
  ("SNVL", ["3773,66"]);
  ("SNVM", ["3445,164"]);
  ("SNVN", ["2625,148"]);
  ("SNVO", ["3281,131"]);
  ("SNVP", ["3937,131"]);
  ("SNVQ", ["3281,115"]);
  ("SNVR", ["4265,98"]);
  ("SNVS", ["5249,98"]);
  ("SNVT", ["69,69"]);
  ("SNVU", ["2428,82"]);
  ("SNVV", ["3281,66"]);
  ("SNVW", ["2887,98"]);
  ("SNVX", ["66,66"]);
  ("SNVY", ["3281,131"]);
  ("SNVZ", ["3609,75"]);
  ("SNWA", ["3281,98"]);
  ("SNWB", ["2953,131"]);
  ("SNWC", ["3117,98"]);
  ("SNWD", ["2887,98"]);
  ("SNWE", ["2297,82"]);
  ("SNWF", ["3215,164"]);
  ("SNWG", ["2625,131"]);
  ("SNWH", ["3018,131"]);
  ("SNWI", ["2854,131"]);
  ("SNWJ", ["2953,148"]);
  ("SNWK", ["2625,131"]);
  ("SNWL", ["3117,131"]);
  ("SNWM", ["3281,148"]);
  ("SNWN", ["2789,131"]);
  ("SNWO", ["2953,98"]);
  ("SNWP", ["2297,98"]);
  ("SNWR", ["3117,66"]);
  ("SNWS", ["4921,98"]);
  ("SNWT", ["66,66"]);
  ("SNWU", ["2887,131"]);
  ("SNWV", ["62,62"]);
  ("SNWW", ["79,79"]);
  ("SNWX", ["66,66"]);
  ("SNWZ", ["2297,98"]);
  ("SNXA", ["3937,66"]);
  ("SNXB", ["4921,98"]);
  ("SNXC", ["79,79"]);
  ("SNXD", ["2953,66"]);
  ("SNXE", ["1969,82"]);
  ("SNXF", ["1969,82"]);
  ("SNXG", ["4593,75"]);
  ("SNXH", ["4839,95"]);
  ("SNXI", ["4593,98"]);
  ("SNXJ", ["59,59"]);
  ("SNXK", ["3937,75"]);
  ("SNXL", ["4921,98"]);
  ("SNXM", ["3281,164"]);
  ("SNXN", ["3281,82"]);
  ("SNXO", ["1969,75"]);
  ("SNXP", ["59,59"]);
  ("SNXQ", ["4659,66"]);
  ("SNXR", ["2625,75"]);
  ("SNXS", ["1854,59"]);
  ("SNXU", ["66,66"]);
  ("SNXV", ["3117,82"]);
  ("SNXW", ["3937,328"]);
  ("SNXX", ["7218,98"]);
  ("SNXY", ["3937,66"]);
  ("SNYA", ["3937,98"]);
  ("SNYB", ["5906,98"]);
  ("SNYC", ["1969,66"]);
  ("SNYD", ["3609,82"]);
  ("SNYE", ["5709,98"]);
  ("SNYF", ["3609,59"]);
  ("SNYG", ["66,66"]);
  ("SNYH", ["4593,75"]);
  ("SNYI", ["2789,66"]);
  ("SNYJ", ["1969,82"]);
  ("SNYK", ["66,66"]);
  ("SNYL", ["3150,56"]);
  ("SNYM", ["5085,79"]);
  ("SNYN", ["3117,59"]);
  ("SNYO", ["2625,66"]);
  ("SNYP", ["3150,59"]);
  ("SNYQ", ["1772,66"]);
  ("SNYR", ["3117,59"]);
  ("SNYS", ["4593,75"]);
  ("SNYT", ["4921,98"]);
  ("SNYU", ["5299,98"]);
  ("SNYV", ["3196,66"]);
  ("SNYW", ["2625,39"]);
  ("SNYX", ["1542,66"]);
  ("SNYY", ["59,59"]);
  ("SNYZ", ["2297,59"]);
  ("SNZA", ["4199,98"]);
  ("SNZC", ["2953,98"]);
  ("SNZD", ["3281,131"]);
  ("SNZE", ["2297,59"]);
  ("SNZF", ["2625,59"]);
  ("SNZH", ["4593,98"]);
  ("SNZI", ["62,62"]);
  ("SNZK", ["5118,79"]);
  ("SNZL", ["2953,98"]);
  ("SNZM", ["59,59"]);
  ("SNZO", ["2625,66"]);
  ("SNZP", ["3609,79"]);
  ("SNZQ", ["1969,131"]);
  ("SNZR", ["4921,98"]);
  ("SNZS", ["69,69"]);
  ("SNZT", ["2953,66"]);
  ("SNZU", ["2854,66"]);
  ("SNZV", ["2461,82"]);
  ("SNZW", ["2789,66"]);
  ("SNZY", ["2461,75"]);
  ("SNZZ", ["2625,59"]);
  ("SO-GTA", ["1936,121"]);
  ("SOCA", ["10486,148,18,65.3,25,245.3"]);
  ("SOOA", ["3935,49,,55,,235"]);
  ("SOOG", ["3937,49,,18,,198"]);
  ("SOOY", ["1640,67"]);
  ("SPAB", ["3600,75,,179,,359"]);
  ("SPAC", ["5249,,550,,550"]);
  ("SPAS", ["6749,131,728,119,728,299"]);
  ("SPAY", ["4935,100,,45,,225"]);
  ("SPBC", ["5905,98,,116.7,,296.7"]);
  ("SPBR", ["4429,59,,126.1,,306.1"]);
  ("SPCL", ["9186,148,513,20,513,200"]);
  ("SPDR", ["6075,100,,104.2,,284.2"]);
  ("SPEE", ["3956,92,,122.6,,302.6"]);
  ("SPEO", ["5905,98,69,7.3,69,187.3"]);
  ("SPEP", ["5922,98,,71.1,,251.1"]);
  ("SPEQ", ["5905,98,4470,66,4480,246"]);
  ("SPGB", ["4921,98,,170.8,,350.8"]);
  ("SPGP", ["4219,145,,45.4,,225.4"]);
  ("SPHI", ["8266,148,94,7,97,187"]);
  ("SPHO", ["9186,148,8917,22.6,8994,202.6"]);
  ("SPHY", ["8202,98,11300,31.8,11300,211.8"]);
  ("SPHZ", ["10007,98,9022,161.7,9022,341.7"]);
  ("SPIM", ["11506,148,46,153,113,333"]);
  ("SPJA", ["6168,98,,166,,346"]);
  ("SPJE", ["7874,148,,163.1,,343.1"]);
  ("SPJI", ["6889,98,1148,34.1,1136,214.1"]);
  ("SPJJ", ["9220,148,10900,128,10900,308"]);
  ("SPJL", ["13779,150,12552,112,12546,292"]);
  ("SPJR", ["8201,148,8848,157.7,8758,337.7"]);
  ("SPLC", ["13064,160,,174,,354"]);
  ("SPLN", ["5915,98,,109,,289"]);
  ("SPLO", ["8202,148,72,114.8,72,294.8"]);
  ("SPLP", ["8019,150,250,18,240,198"]);
  ("SPME", ["8202,148,115,141.3,115,321.3"]);
  ("SPMF", ["5775,98,,151.5,,331.5"]);
  ("SPMS", ["5912,98,570,94,587,274"]);
  ("SPNC", ["8202,98,,67.6,,247.6"]);
  ("SPOL", ["3272,148,410,29,410,209"]);
  ("SPPY", ["6496,98,,131.9,,311.9"]);
  ("SPQT", ["8202,148,306,56.7,295,236.7"]);
  ("SPQU", ["9777,148,8270,93,8404,273"]);
  ("SPRM", ["3281,59,,12.6,,192.6"]);
  ("SPRU", ["9920,145,46,17,106,197"]);
  ("SPSO", ["9908,148,11,38,39,218"]);
  ("SPST", ["8530,148,869,171,792,351"]);
  ("SPTN", ["8202,148,1375,20,1538,200"]);
  ("SPTU", ["11482,148,659,2.1,656,182.1"]);
  ("SPUR", ["8202,148,120,12.5,120,192.5"]);
  ("SPYL", ["8038,148,277,169.9,282,349.9"]);
  ("SPZA", ["3355,65,1805,66,1800,246"]);
  ("SPZO", ["11146,148,10860,95.9,10702,275.9"]);
  ("SRV", ["2601,33,221,200,220,20"]);
  ("SS1", ["6000,500"; "3500,500"]);
  ("SSAB", ["3937,59"]);
  ("SSAC", ["1969,62"]);
  ("SSAD", ["5906,75"]);
  ("SSAE", ["3281,59"]);
  ("SSAF", ["3281,98"]);
  ("SSAG", ["2953,66"]);
  ("SSAJ", ["2756,72"]);
  ("SSAK", ["2461,197"; "2625,197"]);
  ("SSAM", ["3281,49"]);
  ("SSAN", ["3281,75"]);
  ("SSAP", ["4593,98"]);
  ("SSAQ", ["3543,115"; "3084,59"]);
  ("SSAR", ["2297,59"]);
  ("SSAU", ["2133,66"]);
  ("SSAV", ["3281,98"]);
  ("SSAW", ["2625,98"]);
  ("SSAY", ["3281,66"]);
  ("SSAZ", ["79,79"]);
  ("SSBA", ["2953,59"]);
  ("SSBB", ["4888,98"]);
  ("SSBC", ["3937,59"]);
  ("SSBD", ["2297,131"]);
  ("SSBE", ["3937,75"]);
  ("SSBF", ["3281,66"]);
  ("SSBG", ["3281,98"]);
  ("SSBH", ["2625,98"]);
  ("SSBJ", ["4331,59"]);
  ("SSBK", ["3707,131"]);
  ("SSBL", ["4590,98,48,167,60,347"]);
  ("SSBM", ["2297,98"]);
  ("SSBN", ["3281,98"]);
  ("SSBO", ["1969,82"]);
  ("SSBP", ["59,59"]);
  ("SSBQ", ["2369,0"]);
  ("SSBR", ["4265,328"]);
  ("SSBS", ["3281,66"]);
  ("SSBT", ["3281,59"]);
  ("SSBU", ["3281,59"]);
  ("SSBV", ["4265,75"]);
  ("SSBW", ["1804,131"]);
  ("SSBX", ["2461,75"]);
  ("SSBY", ["4593,66"]);
  ("SSBZ", ["2625,98"]);
  ("SSCA", ["3937,75"]);
  ("SSCB", ["2789,66"]);
  ("SSCD", ["6562,98"]);
  ("SSCE", ["2100,164"; "1969,164"; "1870,164"]);
  ("SSCF", ["2953,98"]);
  ("SSCH", ["3609,75"]);
  ("SSCI", ["4265,75"]);
  ("SSCJ", ["2625,59"]);
  ("SSCK", ["4856,59"]);
  ("SSCL", ["2953,59"]);
  ("SSCM", ["2625,59"]);
  ("SSCN", ["4134,59"]);
  ("SSCO", ["2625,59"]);
  ("SSCP", ["4593,98"]);
  ("SSCQ", ["3937,59"]);
  ("SSCR", ["4593,98"]);
  ("SSCS", ["3609,66"]);
  ("SSCT", ["3937,75"]);
  ("SSCU", ["2953,66"]);
  ("SSCV", ["2126,59"]);
  ("SSCW", ["3281,82"]);
  ("SSCX", ["3281,98"]);
  ("SSCY", ["59,59"]);
  ("SSCZ", ["3619,131"]);
  ("SSDB", ["3281,98"]);
  ("SSDC", ["4528,75"]);
  ("SSDD", ["89,89"]);
  ("SSDE", ["3937,66"]);
  ("SSDF", ["2297,115"]);
  ("SSDG", ["3281,59"]);
  ("SSDH", ["3281,98"]);
  ("SSDI", ["2953,59"]);
  ("SSDJ", ["1870,66"]);
  ("SSDK", ["4134,138"]);
  ("SSDL", ["3281,69"]);
  ("SSDM", ["2133,66"]);
  ("SSDN", ["2953,59"]);
  ("SSDO", ["5282,98"]);
  ("SSDP", ["3937,66"]);
  ("SSDQ", ["2297,66"]);
  ("SSDR", ["59,59"]);
  ("SSDS", ["3937,66"]);
  ("SSDT", ["3281,66"]);
  ("SSDU", ["3150,197"]);
  ("SSDV", ["3281,115"]);
  ("SSDW", ["4921,59"]);
  ("SSDX", ["1969,59"]);
  ("SSDY", ["3117,59"]);
  ("SSDZ", ["2625,98"]);
  ("SSEA", ["3435,59,,11.7,,191.7"]);
  ("SSEC", ["59,59"]);
  ("SSED", ["2592,66"]);
  ("SSEE", ["1870,59"]);
  ("SSEF", ["1969,66"]);
  ("SSEG", ["2297,98"]);
  ("SSEI", ["3606,131"]);
  ("SSEJ", ["59,59"]);
  ("SSEK", ["2625,98"]);
  ("SSEL", ["2625,98"]);
  ("SSEM", ["59,59"]);
  ("SSEN", ["66,66"]);
  ("SSEO", ["3281,164"]);
  ("SSEP", ["3740,59"]);
  ("SSEQ", ["2953,151"]);
  ("SSER", ["4199,98"]);
  ("SSES", ["1969,197"]);
  ("SSET", ["2625,59"]);
  ("SSEU", ["2953,59"]);
  ("SSEV", ["1969,115"]);
  ("SSEW", ["2625,59"]);
  ("SSEX", ["3937,85"]);
  ("SSEY", ["3281,98"]);
  ("SSEZ", ["2339,98"]);
  ("SSFA", ["5249,98"]);
  ("SSFB", ["4331,98"]);
  ("SSFD", ["3937,59"]);
  ("SSFE", ["3281,59"]);
  ("SSFF", ["2625,59"]);
  ("SSFG", ["3937,75"]);
  ("SSFH", ["2297,59"]);
  ("SSFI", ["6693,98"]);
  ("SSFJ", ["2756,59"]);
  ("SSFK", ["3346,98"]);
  ("SSFL", ["4921,82"]);
  ("SSFM", ["2789,66"]);
  ("SSFN", ["2625,75"]);
  ("SSFO", ["2625,75"]);
  ("SSFP", ["3281,79"]);
  ("SSFQ", ["3609,164"]);
  ("SSFR", ["5643,98"]);
  ("SSFU", ["2953,98"]);
  ("SSFV", ["3655,57,,130.3,,310.3"]);
  ("SSFW", ["3445,262"]);
  ("SSFX", ["2461,59"]);
  ("SSFY", ["85,85"]);
  ("SSGA", ["3937,98"]);
  ("SSGB", ["3248,59"]);
  ("SSGC", ["3937,75"]);
  ("SSGD", ["59,59"]);
  ("SSGE", ["3340,66"]);
  ("SSGF", ["3445,59"]);
  ("SSGG", ["2297,59"]);
  ("SSGH", ["3445,164"]);
  ("SSGI", ["2953,75"]);
  ("SSGJ", ["3445,164"]);
  ("SSGK", ["3609,164"]);
  ("SSGL", ["2756,66"]);
  ("SSGM", ["2625,59"]);
  ("SSGN", ["3281,98"]);
  ("SSGO", ["3921,75"]);
  ("SSGP", ["2297,115"]);
  ("SSGQ", ["2953,131"]);
  ("SSGR", ["3609,75"]);
  ("SSGS", ["2756,66"]);
  ("SSGT", ["2953,82"]);
  ("SSGU", ["2690,131"]);
  ("SSGV", ["59,59"]);
  ("SSGW", ["3281,59"]);
  ("SSGX", ["2953,66"]);
  ("SSGY", ["4265,98"]);
  ("SSGZ", ["3281,59"]);
  ("SSHA", ["3937,131"]);
  ("SSHB", ["2392,98"]);
  ("SSHC", ["1969,82"]);
  ("SSHD", ["2493,66"]);
  ("SSHF", ["2487,98"]);
  ("SSHG", ["3937,75"]);
  ("SSHH", ["59,59"]);
  ("SSHI", ["3117,79"]);
  ("SSHJ", ["2953,79"]);
  ("SSHK", ["4429,66"]);
  ("SSHL", ["2625,75"]);
  ("SSHM", ["59,59"]);
  ("SSHN", ["3281,59"]);
  ("SSHP", ["69,69"]);
  ("SSHQ", ["3281,131"]);
  ("SSHR", ["59,59"]);
  ("SSHS", ["59,59"]);
  ("SSHT", ["3937,59"]);
  ("SSHU", ["2297,66"]);
  ("SSHW", ["3281,59"]);
  ("SSHX", ["4199,59"]);
  ("SSHY", ["98,98"]);
  ("SSHZ", ["3445,59"]);
  ("SSIB", ["2625,66"]);
  ("SSIC", ["2461,75"]);
  ("SSID", ["4593,82"]);
  ("SSIE", ["4921,98"]);
  ("SSIF", ["4265,59"]);
  ("SSIG", ["2969,164"]);
  ("SSIH", ["3281,131"]);
  ("SSII", ["2133,98"]);
  ("SSIJ", ["3642,59"]);
  ("SSIM", ["1969,82"]);
  ("SSIO", ["2822,72"]);
  ("SSIP", ["2953,98"]);
  ("SSIQ", ["3169,75"]);
  ("SSIR", ["2493,82"]);
  ("SSIS", ["3281,79"]);
  ("SSIT", ["66,66"]);
  ("SSIU", ["1969,98"]);
  ("SSIV", ["3609,98"]);
  ("SSIW", ["1640,75"]);
  ("SSIX", ["2953,75"]);
  ("SSIY", ["2953,59"]);
  ("SSIZ", ["62,62"]);
  ("SSJA", ["4134,59"]);
  ("SSJB", ["2625,59"]);
  ("SSJC", ["2297,66"]);
  ("SSJD", ["59,59"]);
  ("SSJE", ["4101,98"]);
  ("SSJF", ["82,82"]);
  ("SSJG", ["2297,59"]);
  ("SSJH", ["3510,75"]);
  ("SSJI", ["3117,59"]);
  ("SSJJ", ["2559,75"]);
  ("SSJK", ["3904,98"]);
  ("SSJL", ["2887,75"]);
  ("SSJM", ["4921,75"]);
  ("SSJO", ["2165,59"]);
  ("SSJP", ["1969,59"]);
  ("SSJQ", ["4265,82"]);
  ("SSJR", ["3937,148"]);
  ("SSJS", ["72,72"]);
  ("SSJT", ["3281,98"]);
  ("SSJU", ["2625,131"]);
  ("SSJV", ["2165,59"]);
  ("SSJW", ["2461,59"]);
  ("SSJX", ["2953,59"]);
  ("SSJY", ["2165,59"]);
  ("SSJZ", ["2822,131"]);
  ("SSKA", ["1969,75"]);
  ("SSKB", ["2461,75"]);
  ("SSKC", ["1969,59"]);
  ("SSKD", ["3668,98"]);
  ("SSKE", ["2461,98"]);
  ("SSKF", ["3281,98"]);
  ("SSKG", ["3609,75"]);
  ("SSKH", ["2625,98"]);
  ("SSKI", ["2953,75"]);
  ("SSKJ", ["3609,75"]);
  ("SSKK", ["2297,89"]);
  ("SSKL", ["2625,66"]);
  ("SSKM", ["4593,98"]);
  ("SSKN", ["3346,98"]);
  ("SSKO", ["2641,72"]);
  ("SSKP", ["2533,62"]);
  ("SSKQ", ["3281,115"]);
  ("SSKR", ["2953,62"]);
  ("SSKS", ["3346,59"]);
  ("SSKT", ["2953,59"]);
  ("SSKU", ["3281,98"]);
  ("SSKV", ["2133,66"]);
  ("SSKW", ["6890,148"]);
  ("SSKX", ["3773,82"]);
  ("SSKY", ["3937,66"]);
  ("SSKZ", ["5118,98"]);
  ("SSLA", ["4921,75"]);
  ("SSLB", ["1837,66"]);
  ("SSLC", ["2953,75"]);
  ("SSLD", ["2625,75"]);
  ("SSLF", ["2625,59"]);
  ("SSLG", ["3937,197"]);
  ("SSLI", ["2625,66"]);
  ("SSLJ", ["3281,66"]);
  ("SSLK", ["3281,59"]);
  ("SSLL", ["2625,98"]);
  ("SSLN", ["3609,75"]);
  ("SSLO", ["3609,75"]);
  ("SSLP", ["3281,98"]);
  ("SSLQ", ["3281,98"]);
  ("SSLR", ["2133,66"]);
  ("SSLS", ["3937,98"]);
  ("SSLT", ["3937,59"]);
  ("SSLU", ["2297,115"]);
  ("SSLV", ["62,62"]);
  ("SSLW", ["1969,118"]);
  ("SSLX", ["3281,82"]);
  ("SSLY", ["59,59"]);
  ("SSLZ", ["3281,82"]);
  ("SSMA", ["1772,59"]);
  ("SSMC", ["2953,98"]);
  ("SSMD", ["3937,59"]);
  ("SSME", ["3281,98"]);
  ("SSMF", ["3018,328"]);
  ("SSMG", ["69,69"]);
  ("SSMH", ["1969,75"]);
  ("SSMI", ["2953,75"]);
  ("SSMJ", ["2625,98"]);
  ("SSMK", ["1312,59"]);
  ("SSML", ["2625,66"]);
  ("SSMN", ["3117,59"]);
  ("SSMP", ["2297,59"]);
  ("SSMQ", ["66,66"]);
  ("SSMR", ["3937,98"]);
  ("SSMS", ["3281,98"]);
  ("SSMT", ["3199,59"]);
  ("SSMU", ["59,59"]);
  ("SSMV", ["2592,59"]);
  ("SSMW", ["1969,59"]);
  ("SSMX", ["2116,59"]);
  ("SSMY", ["3281,59"]);
  ("SSMZ", ["3937,66"]);
  ("SSNA", ["3609,75"]);
  ("SSNB", ["3937,75"]);
  ("SSND", ["4593,66"]);
  ("SSNE", ["1509,59"]);
  ("SSNF", ["2165,59"]);
  ("SSNG", ["3018,75"]);
  ("SSNH", ["3937,262"]);
  ("SSNI", ["3281,98"]);
  ("SSNJ", ["3615,164"]);
  ("SSNK", ["3445,72"]);
  ("SSNL", ["3937,66"]);
  ("SSNM", ["3281,66"]);
  ("SSNN", ["3609,197"]);
  ("SSNO", ["3445,98"]);
  ("SSNP", ["3281,98"]);
  ("SSNQ", ["3937,131"]);
  ("SSNR", ["3281,98"]);
  ("SSNT", ["2625,59"]);
  ("SSNU", ["2953,98"]);
  ("SSNV", ["1804,66"]);
  ("SSNW", ["4921,75"]);
  ("SSNX", ["69,69"]);
  ("SSNY", ["3937,66"]);
  ("SSOA", ["66,66"]);
  ("SSOC", ["2789,66"]);
  ("SSOD", ["3215,66"]);
  ("SSOE", ["4134,59"]);
  ("SSOF", ["2559,66"]);
  ("SSOG", ["3937,75"]);
  ("SSOH", ["66,66"]);
  ("SSOI", ["3822,82"]);
  ("SSOJ", ["2953,98"]);
  ("SSOK", ["3084,59"]);
  ("SSOL", ["4921,98"]);
  ("SSOM", ["59,59"]);
  ("SSON", ["2297,82"]);
  ("SSOO", ["2133,98"]);
  ("SSOP", ["4265,98"]);
  ("SSOQ", ["3150,197"]);
  ("SSOR", ["1969,59"]);
  ("SSOS", ["3281,131"]);
  ("SSOT", ["5577,75"]);
  ("SSOU", ["3937,131"]);
  ("SSOV", ["2953,82"]);
  ("SSOW", ["3281,66"]);
  ("SSOX", ["66,66"]);
  ("SSOY", ["2625,59"]);
  ("SSOZ", ["62,62"]);
  ("SSPB", ["4593,98"]);
  ("SSPC", ["4593,98"]);
  ("SSPD", ["3937,66"]);
  ("SSPE", ["3281,66"]);
  ("SSPF", ["1969,59"]);
  ("SSPG", ["4774,98"]);
  ("SSPI", ["4921,98"]);
  ("SSPJ", ["2625,66"]);
  ("SSPK", ["3937,98"]);
  ("SSPL", ["3281,59"]);
  ("SSPM", ["4265,75"]);
  ("SSPN", ["4331,75"]);
  ("SSPO", ["2428,66"]);
  ("SSPP", ["3281,98"]);
  ("SSPQ", ["3609,75"]);
  ("SSPR", ["2953,59"]);
  ("SSPS", ["3609,98"]);
  ("SSPT", ["3937,59"]);
  ("SSPV", ["3609,75"]);
  ("SSPX", ["2953,75"]);
  ("SSPY", ["2953,98"]);
  ("SSQA", ["3937,75"]);
  ("SSQB", ["2953,59"]);
  ("SSQC", ["3937,75"]);
  ("SSQD", ["69,69"]);
  ("SSQE", ["59,59"]);
  ("SSQF", ["3281,75"]);
  ("SSQG", ["59,59"]);
  ("SSQH", ["69,69"]);
  ("SSQI", ["2756,66"]);
  ("SSQJ", ["59,59"]);
  ("SSQK", ["79,79"]);
  ("SSQL", ["2625,98"]);
  ("SSQM", ["4265,92"]);
  ("SSQN", ["3281,89"])].

(* ADRpy/data/runways.csv *)
Definition airports_29 : list (string * list string) := [
  ("SSQO", ["1969,98"]);
  ("SSQP", ["3281,98"]);
  ("SSQQ", ["75,75"]);
  ("SSQR", ["3281,82"]);
  ("SSQT", ["4659,98"]);
  ("SSQU", ["1969,59"]);
  ("SSQV", ["62,62"]);
  ("SSQW", ["69,69"]);
  ("SSQX", ["69,69"]);
  ("SSQY", ["69,69"]);
  ("SSQZ", ["4265,98"]);
  ("SSRA", ["3904,66"]);
  ("SSRB", ["2625,89"]);
  ("SSRC", ["3281,59"]);
  ("SSRD", ["2493,49"]);
  ("SSRE", ["3937,59"]);
  ("SSRF", ["4265,69"]);
  ("SSRG", ["2297,66"]);
  ("SSRH", ["2953,66"]);
  ("SSRI", ["2789,82"]);
  ("SSRJ", ["3937,82"]);
  ("SSRK", ["4921,69"]);
  ("SSRL", ["3937,131"]);
  ("SSRM", ["2789,98"]);
  ("SSRN", ["3609,62"]);
  ("SSRO", ["1969,66"]);
  ("SSRP", ["66,66"]);
  ("SSRQ", ["2625,82"]);
  ("SSRS", ["1969,59"]);
  ("SSRT", ["2133,52"]);
  ("SSRU", ["3609,59"]);
  ("SSRX", ["3937,98"]);
  ("SSRY", ["1969,98"]);
  ("SSRZ", ["3937,131"]);
  ("SSSA", ["3281,66"]);
  ("SSSB", ["3445,98,,122.4,,302.4"; "4921,98"]);
  ("SSSC", ["3871,59"]);
  ("SSSD", ["4265,197"]);
  ("SSSE", ["59,59"]);
  ("SSSF", ["3609,59,,103,,283"]);
  ("SSSG", ["3281,328"]);
  ("SSSH", ["2297,59"]);
  ("SSSN", ["82,82"]);
  ("SSSO", ["2133,66"]);
  ("SSSP", ["3921,72"]);
  ("SSSQ", ["3445,98"]);
  ("SSSR", ["1640,59"]);
  ("SSSS", ["2297,115"]);
  ("SSST", ["4396,197"]);
  ("SSSW", ["2625,66"]);
  ("SSSX", ["1985,59"]);
  ("SSSY", ["3018,98"]);
  ("SSSZ", ["3773,164"]);
  ("SSTA", ["2461,98"]);
  ("SSTB", ["4495,59"]);
  ("SSTC", ["66,66"]);
  ("SSTD", ["1345,59"]);
  ("SSTF", ["1969,66"]);
  ("SSTG", ["1969,66"]);
  ("SSTH", ["3609,75"]);
  ("SSTI", ["1804,66"]);
  ("SSTJ", ["1969,59"]);
  ("SSTK", ["2625,66"]);
  ("SSTL", ["6562,98,1067,53,1070,233"]);
  ("SSTN", ["2822,98"]);
  ("SSTO", ["4199,98"]);
  ("SSTP", ["3937,82"]);
  ("SSTQ", ["3281,66"]);
  ("SSTS", ["2461,75"]);
  ("SSTT", ["59,59"]);
  ("SSTU", ["3281,98"]);
  ("SSTY", ["4921,131"]);
  ("SSTZ", ["69,69"]);
  ("SSUA", ["2953,98"]);
  ("SSUC", ["2953,66"]);
  ("SSUD", ["79,79"]);
  ("SSUE", ["79,79"]);
  ("SSUG", ["66,66"]);
  ("SSUH", ["66,66"]);
  ("SSUJ", ["66,66"]);
  ("SSUK", ["59,59"]);
  ("SSUL", ["2297,82"]);
  ("SSUM", ["4593,98"]);
  ("SSUN", ["62,62"]);
  ("SSUO", ["69,69"]);
  ("SSUP", ["59,59"]);
  ("SSUQ", ["4757,197"]);
  ("SSUR", ["2362,66"]);
  ("SSUT", ["3937,75"]);
  ("SSUU", ["2953,98"]);
  ("SSUV", ["3281,98"]);
  ("SSUX", ["2625,66"]);
  ("SSUY", ["4331,59"]);
  ("SSUZ", ["4331,59"]);
  ("SSVA", ["1673,59"]);
  ("SSVB", ["1575,66"]);
  ("SSVC", ["3543,98"]);
  ("SSVD", ["2625,59"]);
  ("SSVE", ["2953,98"]);
  ("SSVF", ["3937,82"]);
  ("SSVG", ["1969,82"]);
  ("SSVH", ["3937,98"]);
  ("SSVI", ["4790,59"]);
  ("SSVJ", ["3937,82"]);
  ("SSVK", ["3281,82"]);
  ("SSVL", ["2953,131"]);
  ("SSVM", ["3281,98"]);
  ("SSVN", ["3773,197"]);
  ("SSVO", ["3281,75"]);
  ("SSVP", ["2953,197"]);
  ("SSVQ", ["3281,115"]);
  ("SSVS", ["59,59"]);
  ("SSVU", ["4196,59"]);
  ("SSVV", ["2953,66"]);
  ("SSVW", ["2822,66"]);
  ("SSVX", ["2034,36"]);
  ("SSVY", ["2625,75"]);
  ("SSVZ", ["72,72"]);
  ("SSWA", ["3937,59"]);
  ("SSWB", ["3937,98"]);
  ("SSWC", ["2625,59"]);
  ("SSWE", ["3281,72"]);
  ("SSWF", ["2428,197"]);
  ("SSWG", ["59,59"]);
  ("SSWH", ["2625,98"]);
  ("SSWI", ["79,79"]);
  ("SSWJ", ["66,66"]);
  ("SSWK", ["1969,59"]);
  ("SSWL", ["3281,66"]);
  ("SSWM", ["3740,82"]);
  ("SSWN", ["2625,66"]);
  ("SSWO", ["2297,230"]);
  ("SSWP", ["4921,131"]);
  ("SSWQ", ["3412,66"]);
  ("SSWR", ["3976,98"]);
  ("SSWS", ["2690,328"; "3937,197"]);
  ("SSWT", ["3182,98"]);
  ("SSWU", ["69,69"]);
  ("SSWV", ["2789,79"]);
  ("SSWW", ["1673,98"]);
  ("SSWX", ["1903,98"]);
  ("SSWY", ["79,79"]);
  ("SSWZ", ["2723,66"]);
  ("SSXA", ["2297,82"]);
  ("SSXb", ["2789,66"]);
  ("SSXC", ["2953,98"]);
  ("SSXD", ["3937,197"]);
  ("SSXF", ["59,59"]);
  ("SSXH", ["3937,115"]);
  ("SSXI", ["4265,131"]);
  ("SSXJ", ["98,98"]);
  ("SSXK", ["4593,131"]);
  ("SSXL", ["2953,82"]);
  ("SSXM", ["2953,131"]);
  ("SSXN", ["3609,164"]);
  ("SSXO", ["3281,59"]);
  ("SSXP", ["2526,59"]);
  ("SSXQ", ["2953,131"]);
  ("SSXR", ["3609,82"]);
  ("SSXS", ["62,62"]);
  ("SSXT", ["62,62"]);
  ("SSXU", ["2953,66"]);
  ("SSXV", ["3281,66"]);
  ("SSXW", ["2953,82"]);
  ("SSXX", ["2493,148"]);
  ("SSXY", ["3117,66"]);
  ("SSXZ", ["2953,66"]);
  ("SSYA", ["4593,75"]);
  ("SSYB", ["3281,82"]);
  ("SSYC", ["2625,59"]);
  ("SSYD", ["5906,69"]);
  ("SSYE", ["1969,59"]);
  ("SSYF", ["3937,79"]);
  ("SSYG", ["69,69"]);
  ("SSYH", ["59,59"]);
  ("SSYJ", ["69,69"]);
  ("SSYK", ["59,59"]);
  ("SSYL", ["3937,82"]);
  ("SSYM", ["2789,66"]);
  ("SSYN", ["2297,66"]);
  ("SSYO", ["2297,59"]);
  ("SSYQ", ["2133,59"]);
  ("SSYR", ["3445,148"]);
  ("SSYS", ["2625,82"]);
  ("SSYT", ["3002,98"]);
  ("SSYU", ["2297,59"]);
  ("SSYV", ["3281,82"]);
  ("SSYW", ["3281,98"]);
  ("SSYX", ["69,69"]);
  ("SSYY", ["3281,66"]);
  ("SSYZ", ["4757,98"]);
  ("SSZA", ["1969,66"]);
  ("SSZB", ["1969,66"]);
  ("SSZC", ["3937,131"]);
  ("SSZD", ["66,66"]);
  ("SSZF", ["2165,59"]);
  ("SSZG", ["3281,66"]);
  ("SSZH", ["4265,131"]);
  ("SSZI", ["62,62"]);
  ("SSZJ", ["5118,118"]);
  ("SSZK", ["2953,98"]);
  ("SSZL", ["3281,82"]);
  ("SSZM", ["2297,98"]);
  ("SSZN", ["1312,59"]);
  ("SSZP", ["2953,82"]);
  ("SSZQ", ["4757,66"]);
  ("SSZR", ["3937,98"]);
  ("SSZS", ["3937,328"]);
  ("SSZT", ["3937,98"]);
  ("SSZU", ["3281,131"]);
  ("SSZV", ["3281,115"]);
  ("SSZW", ["4692,98"]);
  ("SSZX", ["5033,98"]);
  ("SSZY", ["2953,82"]);
  ("SSZZ", ["3281,197"]);
  ("SUAA", ["4101,75,174,7,151,187"]);
  ("SUAG", ["4183,,397,,390"]);
  ("SUCA", ["4495,,66,,33"]);
  ("SUCM", ["3478,92,36,,33"]);
  ("SUDU", ["7477,148,272,23.3,305,203.3"; "4764,98,276,86.6,295,266.6"]);
  ("SULS", ["5249,125,95,357.9,75,177.9"; "6998,148,92,72.5,69,252.5"]);
  ("SUME", ["3675,,72,,66"]);
  ("SUMO", ["4921,,364,,335"]);
  ("SUMU", ["7382,148,62,359,51,179"; "10499,148,49,53,105,233"; "5577,148,59,90.8,75,270.8"]);
  ("SUPU", ["4921,,177,,141"; "2953,,135,,157"]);
  ("SURB", ["2815,,62,,62"]);
  ("SURV", ["6004,,669,,719"]);
  ("SUSO", ["5210,148,187,38.9,171,218.9"; "2461,164,157,116,174,296"]);
  ("SUTB", ["3806,,440,,430"]);
  ("SUTR", ["3510,125,466,,466"; "1970,80"]);
  ("SUZ", ["1400"]);
  ("SV02", ["4885,75,,56.5,,236.5"]);
  ("SV73", ["3260,45,,92.9,,272.9"]);
  ("SV74", ["7086,66,,67,,247"]);
  ("SV75", ["5760,70,,3.9,,183.9"]);
  ("SVAC", ["2461,75,,42,,222"; "5990,131,732,105,741,285"]);
  ("SVAE", ["4120,50,,93,,273"]);
  ("SVAJ", ["4420,45,,99.7,,279.7"]);
  ("SVAN", ["4134,131,,90.4,,270.4"]);
  ("SVAS", ["4592,72,,47.2,,227.2"]);
  ("SVAX", ["3345,70,,0.8,,180.8"]);
  ("SVBC", ["9186,131,39,13,20,193"; "9842,131,13,142.6,23,322.6"]);
  ("SVBI", ["3940,130,619,33,619,213"; "6560,135,619,123,602,303"]);
  ("SVBK", ["4199,59,,36.4,,216.4"]);
  ("SVBL", ["10400,157,,81.7,,261.7"]);
  ("SVBM", ["9350,147,2042,81,2001,261"]);
  ("SVBQ", ["4715,98,,179.9,,359.9"]);
  ("SVBS", ["4453,131,,50.8,,230.8"; "6846,131,,104.1,,284.1"]);
  ("SVCB", ["5527,148,,56,,236"; "4605,135,,116,,296"]);
  ("SVCD", ["4920,100,,101.6,,281.6"]);
  ("SVCE", ["3350,50,,108,,288"]);
  ("SVCG", ["3450,70,,92.8,,272.8"]);
  ("SVCJ", ["6575,98,,141.5,,321.5"]);
  ("SVCL", ["4790,115,,83.5,,263.5"]);
  ("SVCN", ["7070,98,,353.7,,173.7"]);
  ("SVCO", ["4860,135,,96.6,,276.6"]);
  ("SVCP", ["6611,148,,167.6,,347.6"]);
  ("SVCR", ["6761,148,50,79,50,259"]);
  ("SVCS", ["6562,98,2145,94.1,2119,274.1"]);
  ("SVCU", ["10171,148,25,62,25,242"]);
  ("SVCZ", ["9842,195,,78.2,,258.2"]);
  ("SVDW", ["5212,131,,74,,254"]);
  ("SVEB", ["3281,42,,91.4,,271.4"]);
  ("SVED", ["4000,125,,87.5,,267.5"]);
  ("SVEN", ["4118,53,,47.7,,227.7"]);
  ("SVEP", ["4137,49,,65.7,,245.7"]);
  ("SVET", ["3937,98,,90.4,,270.4"]);
  ("SVEZ", ["3937,98,,76.5,,256.5"]);
  ("SVFM", ["6475,140,,102.2,,282.2"]);
  ("SVFU", ["3278,50,,74,,254"]);
  ("SVGC", ["3937,49,,28.3,,208.3"; "3937,49,,28,,208"]);
  ("SVGD", ["6792,98,,56,,236"]);
  ("SVGI", ["6585,131,,33,,213"]);
  ("SVGU", ["5905,131,,44.8,,224.8"]);
  ("SVHD", ["3084,49,,117.8,,297.8"]);
  ("SVHG", ["3937,98,10,70,10,250"]);
  ("SVHH", ["4265,66,,114.5,,294.5"]);
  ("SVIE", ["3937,98,,87.4,,267.4"]);
  ("SVJC", ["9186,148,75,85,75,265"]);
  ("SVJM", ["4990,75,,48.8,,228.8"]);
  ("SVLF", ["6643,190,289,360,323,180"; ",,289,,323"]);
  ("SVLM", ["4095,35,,55,,235"; "4095,35,,54.7,,234.7"]);
  ("SVLO", ["9843,148,,71.6,,251.6"]);
  ("SVMC", ["9843,148,216,31,239,211"; "8202,98,229,31,207,211"]);
  ("SVMD", ["5348,148,,59,,239"]);
  ("SVMG", ["10499,150,74,78,33,258"; "9958,100,,78,,258"]);
  ("SVMI", ["9930,148,230,76,101,256"; "11483,148,235,88,147,268"]);
  ("SVMP", ["4659,98,,77,,257"]);
  ("SVMT", ["6890,148,213,49,194,229"]);
  ("SVMZ", ["3905,59,,58.6,,238.6"; "3905,59,,59,,239"]);
  ("SVNX", ["4921,98,,73,,253"]);
  ("SVOE", ["3675,72,,76.3,,256.3"]);
  ("SVOF", ["3609,59,,90.6,,270.6"]);
  ("SVOK", ["3490,60,,84.9,,264.9"]);
  ("SVON", ["6160,95,,56.3,,236.3"]);
  ("SVPA", ["8272,140,245,30,244,210"]);
  ("SVPB", ["3051,70,,73.1,,253.1"]);
  ("SVPC", ["6970,145,,96,,276"]);
  ("SVPE", ["4180,80,,72,,252"]);
  ("SVPF", ["3435,60,,91,,271"]);
  ("SVPM", ["3571,129,,12.5,,192.5"]);
  ("SVPP", ["6080,98,,74.9,,254.9"]);
  ("SVPQ", ["3585,40,,158.2,,338.2"]);
  ("SVPR", ["6726,148,472,64,472,244"]);
  ("SVPT", ["3775,66,,51.6,,231.6"]);
  ("SVQL", ["5905,82,,104,,284"]);
  ("SVQU", ["3720,39,,95,,275"]);
  ("SVRA", ["3281,49,,86,,266"]);
  ("SVRB", ["3910,70,,76,,256"]);
  ("SVRX", ["3835,55,,122.8,,302.8"]);
  ("SVS", ["4000,75,323,,326"]);
  ("SVSA", ["6135,131,,165.5,,345.5"]);
  ("SVSB", ["5560,131,,111,,291"; "5560,131,,111,,291"]);
  ("SVSE", ["5445,98,,102,,282"]);
  ("SVSN", ["4810,72,,78.9,,258.9"]);
  ("SVSO", ["9990,148,1083,110.4,940,290.4"]);
  ("SVSP", ["4921,131,,36,,216"]);
  ("SVSR", ["6420,160,156,108,156,288"]);
  ("SVST", ["6299,148,,68.3,,248.3"; "1785,90,,171.4,,351.4"]);
  ("SVSZ", ["8835,130,32,179,16,359"]);
  ("SVTC", ["5512,131,,65,,245"]);
  ("SVTK", ["4836,64,,63.9,,243.9"]);
  ("SVTM", ["9765,125,,68,,248"]);
  ("SVTY", ["2296"]);
  ("SVUP", ["3645,98,,117.1,,297.1"]);
  ("SVVA", ["9842,164,1415,92.8,1400,272.8"]);
  ("SVVG", ["10645,145,241,81.9,267,261.9"]);
  ("SVVL", ["6791,148,2060,17.7,1817,197.7"]);
  ("SVVP", ["4921,164,,72.5,,252.5"]);
  ("SVVQ", ["3800,44,,122,,302"]);
  ("SVWB", ["3915,50,,89.4,,269.4"]);
  ("SWAA", ["2119,59"]);
  ("SWAE", ["2625,98"]);
  ("SWAF", ["1804,59"]);
  ("SWAH", ["2953,59"]);
  ("SWAK", ["3117,98"]);
  ("SWAN", ["2133,131"]);
  ("SWAO", ["3281,75"]);
  ("SWAP", ["3609,75"]);
  ("SWAQ", ["2625,98"]);
  ("SWAR", ["3937,98"]);
  ("SWAS", ["56,56"]);
  ("SWAT", ["3609,59"]);
  ("SWAU", ["3281,59"]);
  ("SWAV", ["4921,98"]);
  ("SWAW", ["56,56"]);
  ("SWAY", ["3281,164"]);
  ("SWAZ", ["2953,98"]);
  ("SWBA", ["3937,98"]);
  ("SWBB", ["2707,131"]);
  ("SWBC", ["3937,98"]);
  ("SWBF", ["3707,66"]);
  ("SWBG", ["4921,98"]);
  ("SWBH", ["2625,328"]);
  ("SWBI", ["3937,75"]);
  ("SWBJ", ["3084,59"]);
  ("SWBL", ["3937,98"]);
  ("SWBN", ["1969,59"]);
  ("SWBO", ["2953,66"]);
  ("SWBP", ["98,79"]);
  ("SWBQ", ["4134,125"]);
  ("SWBR", ["3937,98"]);
  ("SWBT", ["2625,82"]);
  ("SWBU", ["2953,82"]);
  ("SWBV", ["3740,75"]);
  ("SWBW", ["2592,59"; "3937,66"]);
  ("SWBX", ["3281,98"]);
  ("SWBY", ["3281,98"]);
  ("SWBZ", ["2592,59"]);
  ("SWCA", ["5463,59"]);
  ("SWCB", ["3937,66"]);
  ("SWCC", ["3215,66"]);
  ("SWCD", ["3281,66"]);
  ("SWCE", ["4921,66"]);
  ("SWCF", ["4921,148"]);
  ("SWCG", ["3281,66"]);
  ("SWCH", ["3445,59"]);
  ("SWCJ", ["2953,98"]);
  ("SWCK", ["2953,112"]);
  ("SWCL", ["2428,66"]);
  ("SWCM", ["6234,98"]);
  ("SWCN", ["3609,79"]);
  ("SWCO", ["3281,75"]);
  ("SWCP", ["3937,98"]);
  ("SWCQ", ["4905,66"]);
  ("SWCR", ["1969,66"]);
  ("SWCT", ["3281,59"]);
  ("SWCU", ["3576,92"]);
  ("SWCV", ["3445,98"]);
  ("SWCW", ["3281,328"]);
  ("SWCX", ["2625,328"]);
  ("SWCY", ["2297,66"]);
  ("SWCZ", ["3609,328"]);
  ("SWDA", ["3281,131"]);
  ("SWDB", ["3937,98"]);
  ("SWDC", ["3281,66"]);
  ("SWDE", ["4593,66"]);
  ("SWDF", ["2297,66"]);
  ("SWDG", ["3609,66"]);
  ("SWDI", ["1969,98"]);
  ("SWDJ", ["2953,131"]);
  ("SWDK", ["3281,66"]);
  ("SWDM", ["4856,59"]);
  ("SWDN", ["4167,98"]);
  ("SWDO", ["2625,79"]);
  ("SWDP", ["69,69"]);
  ("SWDQ", ["2297,75"]);
  ("SWDS", ["2625,59"]);
  ("SWDT", ["4921,98"]);
  ("SWDU", ["2953,131"]);
  ("SWDV", ["3773,131"]);
  ("SWDW", ["3281,66"]);
  ("SWDY", ["2608,59"]);
  ("SWDZ", ["2625,66"]);
  ("SWE", ["1549,98"]);
  ("SWEB", ["3937,98"]);
  ("SWEC", ["3806,59"]);
  ("SWED", ["3937,98"]);
  ("SWEF", ["2625,59"]);
  ("SWEG", ["2789,59"]);
  ("SWEI", ["7546,98"]);
  ("SWEK", ["3412,89"]);
  ("SWEL", ["3281,98"]);
  ("SWEM", ["2953,66"]);
  ("SWEN", ["2953,98"]);
  ("SWEO", ["2297,59"]);
  ("SWER", ["2953,98"]);
  ("SWES", ["62,62"]);
  ("SWET", ["3281,59"]);
  ("SWEU", ["2297,59"]);
  ("SWEW", ["4921,98"]);
  ("SWEX", ["2953,66"]);
  ("SWEY", ["2854,164"]);
  ("SWEZ", ["5249,105"]);
  ("SWFA", ["3937,98"]);
  ("SWFC", ["2953,75"]);
  ("SWFD", ["4242,59"]);
  ("SWFE", ["3281,59"]);
  ("SWFF", ["3281,75"]);
  ("SWFG", ["2953,98"]);
  ("SWFH", ["3937,66"]);
  ("SWFJ", ["3084,66"]);
  ("SWFK", ["2953,66"]);
  ("SWFL", ["3904,79"]);
  ("SWFN", ["2621,98"]);
  ("SWFO", ["3609,98"]);
  ("SWFP", ["3281,66"]);
  ("SWFQ", ["5906,98"]);
  ("SWFR", ["4593,98"]);
  ("SWFS", ["3281,66"]);
  ("SWFT", ["3773,92"]);
  ("SWFU", ["3271,98"]);
  ("SWFV", ["1969,59"]);
  ("SWFW", ["3281,131"]);
  ("SWFX", ["4757,98"]);
  ("SWFY", ["3904,79"]);
  ("SWFZ", ["4790,82"]);
  ("SWG", ["2051,98"]);
  ("SWGA", ["2953,82"]);
  ("SWGC", ["3281,98"]);
  ("SWGD", ["2625,62"]);
  ("SWGE", ["2953,75"]);
  ("SWGF", ["2625,59"]);
  ("SWGH", ["3281,59"]);
  ("SWGI", ["5577,98"]);
  ("SWGK", ["2953,131"]);
  ("SWGL", ["2953,98"]);
  ("SWGM", ["2789,59"]);
  ("SWGN", ["5919,148"]);
  ("SWGO", ["3937,105"]);
  ("SWGP", ["3740,66"]);
  ("SWGQ", ["3281,75"]);
  ("SWGR", ["3937,148"]);
  ("SWGS", ["3609,98"]);
  ("SWGT", ["3937,62"]);
  ("SWGU", ["3609,98"]);
  ("SWGV", ["4921,98"]);
  ("SWGW", ["3773,98"]);
  ("SWGX", ["59,59"]);
  ("SWGZ", ["4921,98"]);
  ("SWHA", ["1969,98"]);
  ("SWHB", ["72,72"]);
  ("SWHE", ["3609,98"]);
  ("SWHF", ["3445,66"]);
  ("SWHG", ["3281,66"]);
  ("SWHI", ["62,62"]);
  ("SWHJ", ["4265,59"]);
  ("SWHL", ["3281,66"]);
  ("SWHN", ["2953,59"]);
  ("SWHO", ["2953,75"]);
  ("SWHP", ["5208,60,1504,14,1512,194"]);
  ("SWHQ", ["3281,131"]);
  ("SWHS", ["2625,66"]);
  ("SWHT", ["4987,98"]);
  ("SWHU", ["3934,59"]);
  ("SWHY", ["2953,59"]);
  ("SWHZ", ["2625,66"]);
  ("SWIA", ["4921,82"]);
  ("SWIB", ["3609,59"]);
  ("SWID", ["3937,59"]);
  ("SWIE", ["3773,82"]);
  ("SWIG", ["2395,59"]);
  ("SWII", ["3937,75"]);
  ("SWIJ", ["3281,98"]);
  ("SWIK", ["3281,98"]);
  ("SWIL", ["2625,115"]);
  ("SWIM", ["3609,66"]);
  ("SWIN", ["6562,98"]);
  ("SWIO", ["4364,75"]);
  ("SWIP", ["3625,98"]);
  ("SWIR", ["69,69"]);
  ("SWIU", ["2625,75"]);
  ("SWIV", ["2297,59"]);
  ("SWIW", ["4921,98"]);
  ("SWIX", ["3937,66"]);
  ("SWIY", ["5052,98"]);
  ("SWJA", ["2625,59"]);
  ("SWJB", ["3904,79"]);
  ("SWJC", ["3570,72"]);
  ("SWJD", ["3609,131"]);
  ("SWJE", ["3609,115"]);
  ("SWJF", ["3281,75"]);
  ("SWJG", ["3937,98"]);
  ("SWJI", ["5906,148"]);
  ("SWJJ", ["2625,75"]);
  ("SWJK", ["4101,164"]);
  ("SWJL", ["2625,66"]);
  ("SWJM", ["2953,131"]);
  ("SWJN", ["5249,98"]);
  ("SWJO", ["2953,164"]);
  ("SWJP", ["3937,98"]);
  ("SWJQ", ["2953,131"]);
  ("SWJR", ["3937,98"]);
  ("SWJS", ["3445,98"]);
  ("SWJT", ["4593,131"]);
  ("SWJU", ["5381,98"]);
  ("SWJV", ["3937,98"]);
  ("SWJW", ["4921,75"]);
  ("SWJX", ["1640,59"]);
  ("SWJY", ["3510,66"]);
  ("SWJZ", ["2625,59"]);
  ("SWKA", ["2953,66"]);
  ("SWKB", ["2297,59"]);
  ("SWKC", ["6070,98"]);
  ("SWKE", ["3281,59"]);
  ("SWKG", ["4593,66"]);
  ("SWKH", ["2953,49"]);
  ("SWKJ", ["3609,72"]);
  ("SWKK", ["3937,131"]);
  ("SWKL", ["2625,66"]);
  ("SWKM", ["1969,75"]);
  ("SWKO", ["5249,118"]);
  ("SWKP", ["3281,82"]);
  ("SWKQ", ["5413,148"]);
  ("SWKR", ["2625,82"]);
  ("SWKT", ["4593,98"]);
  ("SWKU", ["3937,98"]);
  ("SWKV", ["3609,98"]);
  ("SWKX", ["3609,98"]);
  ("SWKY", ["2592,66"]);
  ("SWKZ", ["3281,82"]);
  ("SWLA", ["3281,98"]);
  ("SWLB", ["3937,98"]);
  ("SWLC", ["4921,98"]);
  ("SWLD", ["3281,66"]);
  ("SWLE", ["3002,115"]);
  ("SWLF", ["2592,59"]);
  ("SWLG", ["2297,82"]);
  ("SWLI", ["2297,75"]);
  ("SWLK", ["3445,98"]);
  ("SWLM", ["3937,98"]);
  ("SWLN", ["2625,66"]);
  ("SWLO", ["59,59"]);
  ("SWLP", ["3281,105"]);
  ("SWLR", ["5906,98"]);
  ("SWLT", ["3281,98"]);
  ("SWLV", ["3937,59"]);
  ("SWLW", ["62,62"]);
  ("SWMA", ["2625,66"]);
  ("SWMB", ["2625,62"]);
  ("SWMC", ["2625,98"]);
  ("SWMD", ["59,59"]);
  ("SWME", ["3281,59"]);
  ("SWMG", ["3937,59"]);
  ("SWMH", ["2625,66"]);
  ("SWMJ", ["2133,105"]);
  ("SWMK", ["3937,98"]);
  ("SWML", ["2953,148"]);
  ("SWMM", ["3281,131"]);
  ("SWMN", ["3773,98"]);
  ("SWMO", ["3281,98"]);
  ("SWMQ", ["3937,131"]);
  ("SWMR", ["2953,98"]);
  ("SWMT", ["2789,98"]);
  ("SWMU", ["3281,49"]);
  ("SWMV", ["2789,82"]);
  ("SWMW", ["3937,82"]);
  ("SWMX", ["3560,66"]);
  ("SWMY", ["3937,98"]);
  ("SWMZ", ["2789,66"]);
  ("SWNA", ["3937,89"]);
  ("SWNB", ["2789,75"]);
  ("SWNC", ["2592,82"]);
  ("SWND", ["62,62"]);
  ("SWNF", ["3937,98"]);
  ("SWNG", ["2625,59"]);
  ("SWNH", ["4265,75"]);
  ("SWNI", ["3117,164"]);
  ("SWNJ", ["2625,59"]);
  ("SWNK", ["5249,108"]);
  ("SWNL", ["3412,98"]);
  ("SWNM", ["3281,85"]);
  ("SWNN", ["3445,66"]);
  ("SWNO", ["3937,98"]);
  ("SWNQ", ["4593,164"]);
  ("SWNR", ["3937,66"]);
  ("SWNS", ["6043,148"]);
  ("SWNT", ["3084,66"]);
  ("SWNU", ["3281,79"]);
  ("SWNV", ["3609,66"]);
  ("SWNW", ["3609,75"]);
  ("SWNX", ["3281,66"]);
  ("SWNY", ["69,69"]);
  ("SWNZ", ["59,59"]);
  ("SWOA", ["2822,59"]);
  ("SWOB", ["4167,89"]);
  ("SWOC", ["2133,125"]);
  ("SWOE", ["3281,66"]);
  ("SWOF", ["2592,72"]);
  ("SWOG", ["2621,59"]);
  ("SWOH", ["108,108"]);
  ("SWOI", ["3937,112"]);
  ("SWOJ", ["3379,131"]);
  ("SWOK", ["2297,98"]);
  ("SWOL", ["2953,98"]);
  ("SWOM", ["3773,59"]);
  ("SWON", ["59,59"]);
  ("SWOO", ["2953,164"]);
  ("SWOP", ["3937,82"]);
  ("SWOQ", ["3609,75"]);
  ("SWOR", ["2953,105"]);
  ("SWOS", ["3609,262"]);
  ("SWOT", ["3937,98"]);
  ("SWOU", ["72,72"]);
  ("SWOV", ["3281,98"]);
  ("SWOW", ["3609,98"]);
  ("SWOX", ["2625,66"]);
  ("SWOY", ["4101,66"]);
  ("SWOZ", ["3937,98"]);
  ("SWPB", ["4921,98"]);
  ("SWPC", ["3937,98"]);
  ("SWPD", ["2461,59"]);
  ("SWPE", ["3281,66"]);
  ("SWPG", ["4921,197"]);
  ("SWPH", ["2953,98"]);
  ("SWPI", ["5906,98"]);
  ("SWPJ", ["4101,115"]);
  ("SWPK", ["4265,131"]);
  ("SWPL", ["3281,66"]);
  ("SWPM", ["4265,66"]);
  ("SWPN", ["3281,197"]);
  ("SWPO", ["3215,98"]);
  ("SWPP", ["3740,157"]);
  ("SWPQ", ["3330,62"]);
  ("SWPR", ["4757,131"]);
  ("SWPS", ["2625,131"]);
  ("SWPT", ["3281,75"]);
  ("SWPV", ["3609,66"]);
  ("SWPW", ["2625,98"]);
  ("SWPY", ["3609,75"]);
  ("SWPZ", ["4921,82"]);
  ("SWQB", ["75,75"]);
  ("SWQD", ["69,69"]);
  ("SWQE", ["2789,98"]);
  ("SWQG", ["2953,115"]);
  ("SWQH", ["4265,82"]);
  ("SWQI", ["8202,262"]);
  ("SWQJ", ["4429,98"]);
  ("SWQK", ["2887,66"]);
  ("SWQL", ["4068,75"]);
  ("SWQM", ["3281,52"]);
  ("SWQN", ["59,59"]);
  ("SWQP", ["3281,59"]);
  ("SWQQ", ["2953,66"]);
  ("SWQR", ["3773,52"]);
  ("SWQT", ["3937,98"]);
  ("SWQU", ["3379,66"]);
  ("SWQV", ["2297,59"]);
  ("SWQW", ["2953,66"]);
  ("SWQX", ["3609,98"]);
  ("SWQZ", ["2953,164"]);
  ("SWR", ["2297,98"]);
  ("SWRA", ["4921,148"]);
  ("SWRB", ["3937,98"]);
  ("SWRC", ["2789,66"]);
  ("SWRD", ["6070,98"]);
  ("SWRF", ["3117,59"]);
  ("SWRG", ["3281,66"]);
  ("SWRI", ["4134,75"]);
  ("SWRJ", ["3609,98"]);
  ("SWRL", ["3117,66"]);
  ("SWRM", ["2034,59"]);
  ("SWRN", ["62,62"]);
  ("SWRO", ["4265,98"]);
  ("SWRP", ["4593,98"]);
  ("SWRR", ["3609,59"]);
  ("SWRS", ["2789,59"]);
  ("SWRT", ["3937,75"]);
  ("SWRU", ["3904,164"]);
  ("SWRV", ["2461,75"]);
  ("SWRW", ["3937,79"]);
  ("SWRX", ["2953,82"]);
  ("SWRY", ["3937,98"]);
  ("SWRZ", ["4528,98"]);
  ("SWSA", ["4101,98"]);
  ("SWSB", ["3117,59"]);
  ("SWSC", ["2953,98"]);
  ("SWSD", ["3855,98"]);
  ("SWSF", ["3609,59"]);
  ("SWSG", ["4921,75"]);
  ("SWSH", ["3379,66"]);
  ("SWSI", ["5348,98"]);
  ("SWSK", ["4921,197"]);
  ("SWSL", ["66,66"]);
  ("SWSM", ["3937,98"]);
  ("SWSP", ["328,66"]);
  ("SWSQ", ["3937,98"]);
  ("SWSR", ["3281,197"]);
  ("SWSS", ["3248,59"]);
  ("SWST", ["4921,66"]);
  ("SWSU", ["2953,75"]);
  ("SWSV", ["3281,98"]);
  ("SWSW", ["62,62"]);
  ("SWSX", ["2953,98"]);
  ("SWSY", ["3655,98"]);
  ("SWSZ", ["3609,59"]);
  ("SWTA", ["2461,59"]);
  ("SWTB", ["2133,197"]);
  ("SWTC", ["3937,295"]);
  ("SWTD", ["4921,98"]);
  ("SWTE", ["5249,98"]);
  ("SWTF", ["66,66"]);
  ("SWTG", ["5020,75"]);
  ("SWTH", ["3937,98"]);
  ("SWTI", ["4429,59"]);
  ("SWTJ", ["3281,66"]);
  ("SWTK", ["4265,82"]);
  ("SWTL", ["3281,59"]);
  ("SWTM", ["3937,66"]);
  ("SWTN", ["3609,75"]);
  ("SWTO", ["3937,98"]);
  ("SWTP", ["3937,98"]);
  ("SWTQ", ["3609,59"]);
  ("SWTR", ["3281,98"]);
  ("SWTS", ["4921,98"]);
  ("SWTT", ["66,66"]);
  ("SWTU", ["4921,75"]);
  ("SWTV", ["2953,131"]);
  ("SWTW", ["3937,66"]);
  ("SWTX", ["3609,66"]);
  ("SWTY", ["3937,131"]);
  ("SWUA", ["4921,98"]);
  ("SWUB", ["3281,82"]);
  ("SWUC", ["3281,66"]);
  ("SWUE", ["3281,66"]);
  ("SWUF", ["69,69"]);
  ("SWUI", ["3937,98"]);
  ("SWUJ", ["3281,59"]);
  ("SWUK", ["2953,98"]);
  ("SWUL", ["3281,82"]);
  ("SWUM", ["2789,131"]);
  ("SWUN", ["2789,180"]);
  ("SWUO", ["3281,66"]);
  ("SWUP", ["3281,98"]);
  ("SWUQ", ["3543,98"]);
  ("SWUR", ["3609,59"]);
  ("SWUS", ["3281,82"]);
  ("SWUT", ["2461,49"]);
  ("SWUU", ["3281,131"]);
  ("SWUW", ["2297,59"]);
  ("SWUY", ["4331,98"]);
  ("SWUZ", ["3937,66"]);
  ("SWVA", ["59,59"]);
  ("SWVB", ["5250,92,658,174,657,354"]);
  ("SWVC", ["4429,131"]);
  ("SWVD", ["4068,75"]);
  ("SWVE", ["1969,59"]);
  ("SWVF", ["4127,98"]);
  ("SWVH", ["2789,262"]);
  ("SWVI", ["3281,98"]);
  ("SWVJ", ["3281,66"]);
  ("SWVK", ["3281,66"]);
  ("SWVL", ["3609,164"]);
  ("SWVN", ["3806,98"]);
  ("SWVO", ["2625,66"]);
  ("SWVP", ["1969,59"]);
  ("SWVQ", ["69,69"]);
  ("SWVR", ["2543,59"]);
  ("SWVS", ["2841,98"]);
  ("SWVT", ["4987,66"]);
  ("SWVU", ["2953,131"]);
  ("SWVV", ["3071,98"]);
  ("SWVW", ["2620,46,2567,39,2591,219"]);
  ("SWVX", ["3377,75,493,158,506,338"]);
  ("SWVY", ["3510,66"]);
  ("SWVZ", ["2625,66"]);
  ("SWWA", ["4921,75"]);
  ("SWWB", ["3609,66"]);
  ("SWWC", ["66,66"]);
  ("SWWD", ["3281,59"]);
  ("SWWF", ["3609,79"]);
  ("SWWG", ["3280,66"]);
  ("SWWH", ["3350,148,1164,8,1120,188"]);
  ("SWWI", ["3281,59"]);
  ("SWWJ", ["2625,59"]);
  ("SWWK", ["3937,98"]);
  ("SWWL", ["3609,66"]);
  ("SWWM", ["2953,66"]);
  ("SWWN", ["3773,66"]);
  ("SWWP", ["59,59"]);
  ("SWWQ", ["59,59"]);
  ("SWWR", ["62,62"]);
  ("SWWT", ["2625,82"]);
  ("SWWU", ["4724,98"]);
  ("SWWV", ["2625,59"]);
  ("SWWW", ["2625,59"]);
  ("SWWX", ["2625,59"]);
  ("SWWY", ["2625,59"]);
  ("SWWZ", ["1969,66"]);
  ("SWXA", ["2953,98"]);
  ("SWXB", ["3281,131"]);
  ("SWXC", ["3609,59"]);
  ("SWXD", ["2336,59"]);
  ("SWXE", ["5249,75"]);
  ("SWXF", ["2625,59"]);
  ("SWXG", ["3642,148"]);
  ("SWXH", ["3281,98"]);
  ("SWXI", ["59,59"]);
  ("SWXJ", ["1969,59"]);
  ("SWXK", ["4134,66"]);
  ("SWXL", ["2625,66"]);
  ("SWXM", ["4862,59"]);
  ("SWXO", ["3281,98"]);
  ("SWXP", ["4921,98"]);
  ("SWXR", ["2625,59"]);
  ("SWXS", ["2493,59"]);
  ("SWXT", ["2625,59"]);
  ("SWXU", ["3340,98"]);
  ("SWXV", ["4888,148"]);
  ("SWXW", ["1969,59"]);
  ("SWXY", ["3937,59"]);
  ("SWXZ", ["3281,82"]);
  ("SWYA", ["2297,66"]);
  ("SWYB", ["59,59"]);
  ("SWYC", ["3609,79"]);
  ("SWYD", ["59,59"]);
  ("SWYF", ["69,69"]);
  ("SWYG", ["2461,62"]);
  ("SWYH", ["2625,59"]);
  ("SWYI", ["3281,66"]);
  ("SWYJ", ["3117,82"]);
  ("SWYK", ["4528,66"]);
  ("SWYL", ["59,59"]);
  ("SWYM", ["3871,138"]);
  ("SWYN", ["3937,75"]);
  ("SWYO", ["3117,82"]);
  ("SWYP", ["3281,59"]);
  ("SWYQ", ["4593,66"]);
  ("SWYR", ["2953,82"]);
  ("SWYT", ["3281,66"]);
  ("SWYU", ["4101,118"]);
  ("SWYV", ["2887,66"]);
  ("SWYW", ["3281,66"]);
  ("SWYX", ["3937,98"]);
  ("SWYY", ["3773,98"]);
  ("SWYZ", ["85,85"]);
  ("SWZA", ["4921,98"]);
  ("SWZB", ["2461,52"]);
  ("SWZC", ["2953,66"]);
  ("SWZD", ["2953,82"]);
  ("SWZE", ["3281,75"]);
  ("SWZF", ["394,98"]);
  ("SWZG", ["4921,164"]);
  ("SWZH", ["2592,59"]);
  ("SWZJ", ["2625,75"]);
  ("SWZK", ["69,69"]);
  ("SWZL", ["2625,59"]);
  ("SWZM", ["5840,148"]);
  ("SWZN", ["2133,59"]);
  ("SWZO", ["3937,98"]);
  ("SWZP", ["2625,98"]);
  ("SWZQ", ["3937,75"]);
  ("SWZR", ["2625,98"; "2953,131"]);
  ("SWZS", ["3937,75"]);
  ("SWZT", ["3802,75"]);
  ("SWZU", ["3281,98"]);
  ("SWZV", ["2625,66"]);
  ("SWZW", ["3281,115"]);
  ("SWZX", ["62,62"]);
  ("SWZY", ["2953,66"]);
  ("SWZZ", ["69,69"]);
  ("SXH", ["3150"]);
  ("SXP", ["3015,60"; "15000,2000"; "15000,2000"]);
  ("SXS", ["2000,60"; "1300,60"; "2000,60"; "1620,75"; "1000,60"; "1300,50"; "1300,50"; "1300,50"]);
  ("SYCJ", ["7448,148,96,45,71,225"; "5002,148,74,90,81,270"]);
  ("SYGO", ["4000,100"]);
  ("SYL", ["2740,100"]);
  ("SYLD", ["5000,98,,91,,271"]);
  ("SYLT", ["5985,98,,57.3,,237.3"]);
  ("SYN", ["1970,180"; "2550,200"]);
  ("SZN", ["2150,50"]);
  ("SZP", ["2713,60"; "60,60"]);
  ("T13", ["3800,100"]);
  ("T14", ["2800,50"]);
  ("T22", ["100,100"]);
  ("T25", ["3100,60"]);
  ("T26", ["2990,80"]);
  ("T29", ["2500,200"]);
  ("T32", ["1550,60"]);
  ("T33", ["2800,40"]);
  ("T40", ["2450,55"]);
  ("T44", ["4400,200"]);
  ("T48", ["3344,50"]);
  ("T57", ["105,105"]);
  ("T58", ["2500,200"]);
  ("T66", ["4000,200"]);
  ("T71", ["2800,60"]);
  ("T73", ["4400,300"; "2245,600"; "2600,40"; "3000,300"]);
  ("T76", ["3700,60"]);
  ("T79", ["2550,70"]);
  ("T80", ["1580,80"]);
  ("T84", ["2080,25"]);
  ("T87", ["1650,90"; "1400,140"]);
  ("T91", ["2790,45"]);
  ("T94", ["2225,30"]);
  ("T95", ["90,90"]);
  ("TA00", ["3000,50"]);
  ("TA01", ["2400,150"]);
  ("TA02", ["2450,150"]);
  ("TA03", ["3654,62,,94.4,,274.4"]);
  ("TA04", ["50,50"]);
  ("TA05", ["2700,100"]);
  ("TA06", ["2000,50"]);
  ("TA07", ["2400,100"]);
  ("TA08", ["1950,50"]);
  ("TA09", ["100,100"]);
  ("TA10", ["50,50"]);
  ("TA11", ["4300,400"]);
  ("TA12", ["30,20"; "30,20"; "30,20"; "30,20"; "30,20"; "30,20"; "30,20"; "30,20"]);
  ("TA13", ["2600,50"]);
  ("TA14", ["50,50"]);
  ("TA15", ["60,60"]);
  ("TA16", ["2500,60"]);
  ("TA17", ["2016,25"]);
  ("TA18", ["2500,50"]);
  ("TA19", ["2350,30"]);
  ("TA20", ["60,60"]);
  ("TA21", ["2600,100"]);
  ("TA22", ["2500,60"]);
  ("TA23", ["4000,100"]);
  ("TA24", ["4000,50,,160,,340"]);
  ("TA25", ["5500,75"]);
  ("TA26", ["2500,50"]);
  ("TA27", ["2300,100"]);
  ("TA28", ["5000,150"]);
  ("TA29", ["1960,50"]);
  ("TA30", ["1700,80"]);
  ("TA31", ["3800,60"]);
  ("TA32", ["58,50"]);
  ("TA33", ["4200,80"]);
  ("TA34", ["5200,60,,130,,310"]);
  ("TA35", ["1900,90"]);
  ("TA36", ["2500,150"]);
  ("TA37", ["2480,40"]);
  ("TA38", ["120,100"]);
  ("TA39", ["40,40"]);
  ("TA40", ["30,25"]);
  ("TA41", ["60,60"]);
  ("TA42", ["4000,40"]);
  ("TA43", ["1650,80"]);
  ("TA44", ["4000,50"]);
  ("TA45", ["100,100"]);
  ("TA46", ["3200,80"]);
  ("TA47", ["2600,100"]);
  ("TA48", ["200,200"]);
  ("TA49", ["1537,50"]);
  ("TA50", ["4000,50,,50.3,3750,230.3"]);
  ("TA51", ["2800,100"]);
  ("TA52", ["3200,50,,160,,340"]);
  ("TA53", ["3080,100"]);
  ("TA54", ["40,30"]);
  ("TA55", ["2200,100"]);
  ("TA57", ["2000,150"]);
  ("TA58", ["2100,30"]);
  ("TA59", ["1400,75"]);
  ("TA60", ["2040,25"]);
  ("TA61", ["2550,23"]);
  ("TA62", ["68,62"]);
  ("TA63", ["2000,50"; "1375,50"]);
  ("TA64", ["4200,100"])].

(* ADRpy/data/runways.csv *)
Definition airports_30 : list (string * list string) := [
  ("TA65", ["4200,65,,135,,315"]);
  ("TA66", ["2150,100"]);
  ("TA67", ["3000,60"]);
  ("TA68", ["40,20"; "40,20"; "40,20"; "40,20"]);
  ("TA69", ["40,40"]);
  ("TA70", ["3000,70,,170,,350"]);
  ("TA71", ["40,40"]);
  ("TA72", ["65,61"]);
  ("TA73", ["2200,50"]);
  ("TA74", ["50,50"]);
  ("TA75", ["2200,130"]);
  ("TA76", ["52,52"]);
  ("TA77", ["1800,125"]);
  ("TA78", ["3500,60,,170,,350"]);
  ("TA79", ["60,60"]);
  ("TA80", ["3900,60"]);
  ("TA81", ["3200,30,,130,,310"]);
  ("TA83", ["1400,100"]);
  ("TA84", ["3000,125"]);
  ("TA86", ["2000,40"]);
  ("TA87", ["1000,50"]);
  ("TA88", ["120,50"]);
  ("TA89", ["5000,60,,10,,190"]);
  ("TA90", ["4000,100"]);
  ("TA91", ["31,31"]);
  ("TA92", ["200,200"]);
  ("TA93", ["3000,50"]);
  ("TA94", ["400,216"]);
  ("TA95", ["80,80"]);
  ("TA96", ["400,120"]);
  ("TA97", ["900,50"; "1300,50"]);
  ("TA98", ["40,40"]);
  ("TA99", ["29,20"]);
  ("TAPA", ["9003,148,58,58.4,17,238.4"]);
  ("TBE", ["1969,98"]);
  ("TBPB", ["11000,150,169,75.9,160,255.9"]);
  ("TBQ", ["2297,98"]);
  ("TCK", ["2198,98"]);
  ("TCT", ["1717,45"]);
  ("TDB", ["1854,98"]);
  ("TDCF", ["3130,75,13,356.3,13,176.3"]);
  ("TDPD", ["4777,148,71,70,14,250"]);
  ("TDS", ["2953,147"]);
  ("TE00", ["55,55"]);
  ("TE01", ["3100,90"; "1900,85"]);
  ("TE02", ["2500,60"]);
  ("TE03", ["35,35"]);
  ("TE04", ["3000,100"]);
  ("TE05", ["100,100"]);
  ("TE06", ["3000,100"]);
  ("TE07", ["50,50"]);
  ("TE08", ["2100,25"]);
  ("TE09", ["3500,100"]);
  ("TE10", ["2200,60"]);
  ("TE11", ["75,75"]);
  ("TE12", ["3000,50"]);
  ("TE13", ["1500,30"]);
  ("TE14", ["30,30"]);
  ("TE15", ["1880,120"; "2200,160"]);
  ("TE16", ["2100,100"]);
  ("TE17", ["2200,100"]);
  ("TE18", ["80,60"]);
  ("TE19", ["40,40"]);
  ("TE20", ["100,100"; "100,100"]);
  ("TE21", ["3400,50"]);
  ("TE22", ["48,48"]);
  ("TE23", ["50,50"]);
  ("TE24", ["2675,60"]);
  ("TE25", ["20,20"]);
  ("TE26", ["5500,50,,125.8,,305.8"]);
  ("TE27", ["5000,60,,166.3,,346.3"]);
  ("TE28", ["40,40"]);
  ("TE29", ["5000,120"]);
  ("TE30", ["32,32"; "32,32"; "32,32"]);
  ("TE31", ["30,30"]);
  ("TE32", ["3500,50"]);
  ("TE33", ["2500,120"; "3700,120"]);
  ("TE34", ["1600,150"]);
  ("TE35", ["20,20"]);
  ("TE36", ["2000,60"]);
  ("TE37", ["6200,60,,150,,330"]);
  ("TE38", ["1600,30"]);
  ("TE39", ["2100,75"]);
  ("TE40", ["2100,100"]);
  ("TE41", ["50,50"]);
  ("TE42", ["40,40"]);
  ("TE43", ["56,56"; "56,56"]);
  ("TE44", ["150,150"]);
  ("TE45", ["5400,100"]);
  ("TE46", ["70,70"]);
  ("TE47", ["1700,40"; "1500,40"]);
  ("TE48", ["1800,40"]);
  ("TE49", ["50,50"]);
  ("TE50", ["1500,50"]);
  ("TE51", ["3000,60"]);
  ("TE52", ["3050,200"]);
  ("TE53", ["60,60"]);
  ("TE54", ["40,40"]);
  ("TE55", ["3000,100"]);
  ("TE56", ["20,20"; "70,70"]);
  ("TE57", ["1700,20"]);
  ("TE58", ["1500,250"; "3501,250"]);
  ("TE59", ["33,33"]);
  ("TE60", ["88,88"]);
  ("TE61", ["30,30"]);
  ("TE62", ["3300,60,,95.3,,275.3"]);
  ("TE63", ["4200,75"]);
  ("TE64", ["48,48"]);
  ("TE65", ["250,250"]);
  ("TE66", ["60,60"]);
  ("TE67", ["2500,40"]);
  ("TE68", ["2375,75"]);
  ("TE69", ["20,20"]);
  ("TE70", ["2700,80"]);
  ("TE71", ["4000,125"]);
  ("TE72", ["3000,40"]);
  ("TE73", ["2500,100"]);
  ("TE74", ["2700,75"]);
  ("TE75", ["3300,150"]);
  ("TE76", ["1700,40"]);
  ("TE77", ["2461,70"]);
  ("TE78", ["5300,75,,40,,220"]);
  ("TE79", ["38,38"]);
  ("TE80", ["40,40"]);
  ("TE81", ["2400,75"]);
  ("TE82", ["100,80"; "80,60"]);
  ("TE83", ["5117,50,,160,,340"]);
  ("TE84", ["1400,30"]);
  ("TE85", ["2100,16"]);
  ("TE86", ["3100,70"]);
  ("TE87", ["1200,50"]);
  ("TE88", ["3400,100"]);
  ("TE89", ["2130,90"; "1750,70"]);
  ("TE90", ["3600,75"]);
  ("TE91", ["2300,100"]);
  ("TE92", ["1200,80"]);
  ("TE93", ["30,20"]);
  ("TE94", ["50,50"]);
  ("TE95", ["1400,22"]);
  ("TE96", ["2650,80"]);
  ("TE97", ["2000,20"]);
  ("TE98", ["48,48"]);
  ("TE99", ["3300,35,,144.9,,324.9"]);
  ("TEO", ["2756,147"]);
  ("TF8", ["40,40"]);
  ("TFB", ["2133,98"]);
  ("TFFF", ["10826,147,10,80,14,260"]);
  ("TFFG", ["3937,98,7,107.2,7,287.2"]);
  ("TFFM", ["4068,98,13,78.3,16,258.3"]);
  ("TFFR", ["11499,148,5,101,32,281"]);
  ("TGL", ["2313,147"]);
  ("TGPY", ["9003,148,21,90.3,41,270.3"]);
  ("TGPZ", ["2625,,5,,5"]);
  ("TIST", ["7000,150,23,87.5,11,267.5"]);
  ("TISX", ["10004,150,74,84,27,264"]);
  ("TJ-UT44", ["8208,88,,69.1,,249.1"]);
  ("TJ-UT45", ["8270,162,,82.9,,262.9"]);
  ("TJ-UT46", ["2585,72,,42.7,,222.7"]);
  ("TJAB", ["3975,60,7,67.8,23,247.8"]);
  ("TJBQ", ["11702,200,237,72,194,252"]);
  ("TJCP", ["2600,50"]);
  ("TJFA", ["3600,75,,67,,247"]);
  ("TJIG", ["5317,100,9,82.8,7,262.8"]);
  ("TJMZ", ["4998,100,28,76,28,256"]);
  ("TJPS", ["6904,150,23,108,24,288"]);
  ("TJRV", ["11000,150"; "5800,100"]);
  ("TJSJ", ["10002,200,8,67,7,247"; "8016,150,8,90,8,270"]);
  ("TJVQ", ["4301,75,47,77,26,257"]);
  ("TKE", ["10000,7000"]);
  ("TKL", ["5000,500"]);
  ("TKPK", ["7602,148,168,57.1,161,237.1"]);
  ("TKPN", ["3996,98,14,89.4,12,269.4"]);
  ("TL-0003", ["1637,82,,69,,249"]);
  ("TLP", ["1627,98"]);
  ("TLPC", ["5735,148,20,75,10,255"]);
  ("TLPL", ["9003,148,11,90,10,270"]);
  ("TLT", ["2461,30,31,45,33,225"]);
  ("TM-UT50", ["6540,115,,71.3,,251.3"]);
  ("TM-UT51", ["4912,125,,169.2,,349.2"]);
  ("TM-UT52", ["9855,148,,178.4,,358.4"]);
  ("TM-UT55", ["7871,115,,101.9,,281.9"]);
  ("TM-UT56", ["4849,130,,174.1,,354.1"]);
  ("TM-UT58", ["8266,148,,20.5,,200.5"]);
  ("TN-0002", ["10826,196,19,90,13,270"]);
  ("TN00", ["50,50"]);
  ("TN01", ["3000,132"]);
  ("TN03", ["40,40"]);
  ("TN04", ["60,60"]);
  ("TN05", ["45,45"]);
  ("TN06", ["50,50"]);
  ("TN07", ["2400,40"]);
  ("TN08", ["2800,200"]);
  ("TN09", ["2000,50"]);
  ("TN10", ["2300,50"]);
  ("TN11", ["2500,40"]);
  ("TN12", ["3100,75"]);
  ("TN14", ["2600,85"]);
  ("TN15", ["60,60"]);
  ("TN16", ["2870,100"]);
  ("TN17", ["1000,75"]);
  ("TN18", ["1500,35"]);
  ("TN19", ["50,50"]);
  ("TN20", ["2300,100"]);
  ("TN21", ["800,80"]);
  ("TN22", ["30,30"]);
  ("TN23", ["2200,100"]);
  ("TN25", ["42,42"]);
  ("TN27", ["30,30"]);
  ("TN28", ["20,20"]);
  ("TN29", ["58,58"]);
  ("TN30", ["1700,80"]);
  ("TN31", ["40,40"]);
  ("TN32", ["40,40"]);
  ("TN33", ["300,300"]);
  ("TN34", ["90,75"]);
  ("TN35", ["85,44"]);
  ("TN36", ["2700,100"]);
  ("TN37", ["2330,60"]);
  ("TN39", ["2000,75"]);
  ("TN40", ["40,40"]);
  ("TN41", ["1914,75"]);
  ("TN42", ["24,24"]);
  ("TN43", ["3200,110"]);
  ("TN44", ["3120,50,,30,,210"]);
  ("TN45", ["44,44"]);
  ("TN46", ["90,90"]);
  ("TN47", ["2500,50"]);
  ("TN50", ["2900,65"]);
  ("TN52", ["1250,50"]);
  ("TN53", ["1700,100"]);
  ("TN55", ["100,100"]);
  ("TN56", ["1700,75"]);
  ("TN57", ["55,28"; "55,28"; "55,28"; "55,28"; "55,28"; "55,28"]);
  ("TN58", ["1000,50,,20,,200"; "1500,75,,160,,340"]);
  ("TN59", ["12,12"; "12,12"; "12,12"; "12,12"; "12,12"; "12,12"; "12,12"]);
  ("TN60", ["40,40"]);
  ("TN61", ["603,452"]);
  ("TN64", ["1100,50"]);
  ("TN65", ["2400,75,,10,,190"]);
  ("TN66", ["2100,100"]);
  ("TN67", ["2650,75"]);
  ("TN68", ["1500,120"]);
  ("TN69", ["24,24"]);
  ("TN70", ["1300,100"]);
  ("TN71", ["1600,100"]);
  ("TN73", ["2000,50"]);
  ("TN74", ["2100,75"]);
  ("TN75", ["30,30"]);
  ("TN76", ["150,150"]);
  ("TN77", ["3200,200"; "2000,100"]);
  ("TN79", ["1800,100"]);
  ("TN80", ["2000,32"]);
  ("TN83", ["2200,70"]);
  ("TN84", ["100,100"]);
  ("TN85", ["3000,50,,37.9,,217.9"]);
  ("TN86", ["2200,50"]);
  ("TN87", ["2700,35"]);
  ("TN88", ["50,50"]);
  ("TN89", ["2200,60"]);
  ("TN90", ["100,50"]);
  ("TN91", ["40,40"]);
  ("TN92", ["60,60"]);
  ("TN94", ["1700,100"]);
  ("TN95", ["200,100"]);
  ("TN96", ["2700,80"]);
  ("TN97", ["2500,70"]);
  ("TN98", ["2100,150"]);
  ("TN99", ["1400,40"]);
  ("TNCA", ["9000,148,12,103.6,62,283.6"]);
  ("TNCB", ["9449,148,14,91.7,20,271.7"]);
  ("TNCC", ["11188,197,25,102.2,29,282.2"]);
  ("TNCE", ["4265,100,129,50.2,95,230.2"]);
  ("TNCM", ["7708,148,11,81,11,261"; "7152,148,12,81,9,261"]);
  ("TNCS", ["1300"]);
  ("TPO", ["3000,100"]);
  ("TQPF", ["5462,98,122,91,81,271"]);
  ("TR-0026", ["9843,148,3101,120,3059,300"]);
  ("TR-0041", ["885,100,36,64,36,244"]);
  ("TRPG", ["1968"]);
  ("TS00", ["1500,50"]);
  ("TS01", ["1400,30"]);
  ("TS02", ["2800,24"]);
  ("TS03", ["1500,100"]);
  ("TS04", ["3050,50,,150,,330"]);
  ("TS05", ["4470,25,,180,,360"]);
  ("TS06", ["65,65"]);
  ("TS07", ["3580,80"]);
  ("TS08", ["2000,30"; "5000,75"]);
  ("TS09", ["40,40"]);
  ("TS10", ["60,60"]);
  ("TS11", ["1600,40"]);
  ("TS12", ["30,30"]);
  ("TS13", ["30,25"]);
  ("TS14", ["2350,25"]);
  ("TS15", ["5300,60"]);
  ("TS16", ["50,50"]);
  ("TS17", ["60,60"]);
  ("TS18", ["3233,150"]);
  ("TS19", ["50,50"]);
  ("TS20", ["2150,50"]);
  ("TS21", ["3000,75"]);
  ("TS22", ["3935,80"]);
  ("TS23", ["100,100"]);
  ("TS24", ["20,15"; "20,15"]);
  ("TS26", ["30,25"]);
  ("TS27", ["2800,100"]);
  ("TS28", ["30,30"]);
  ("TS29", ["2000,40"]);
  ("TS30", ["40,40"]);
  ("TS31", ["160,70"]);
  ("TS32", ["50,50"]);
  ("TS33", ["30,30"]);
  ("TS34", ["60,60"]);
  ("TS35", ["2900,80"]);
  ("TS36", ["3800,80,,170,,350"]);
  ("TS37", ["50,50"]);
  ("TS38", ["18,18"]);
  ("TS39", ["4000,60"]);
  ("TS40", ["1020,50"]);
  ("TS41", ["30,25"]);
  ("TS42", ["4500,120"]);
  ("TS43", ["40,40"]);
  ("TS44", ["2000,150"]);
  ("TS45", ["997,218"]);
  ("TS46", ["55,55"]);
  ("TS47", ["1800,120"]);
  ("TS48", ["50,50"]);
  ("TS49", ["30,25"]);
  ("TS50", ["2150,100"]);
  ("TS51", ["2550,40"]);
  ("TS52", ["100,100"]);
  ("TS54", ["1421,100"]);
  ("TS55", ["1700,60"; "1900,60"; "1200,60"]);
  ("TS56", ["60,40"]);
  ("TS57", ["2000,50"]);
  ("TS58", ["25,25"]);
  ("TS59", ["65,50"]);
  ("TS60", ["100,100"]);
  ("TS61", ["1800,30"]);
  ("TS62", ["2600,50"]);
  ("TS63", ["1850,75"]);
  ("TS64", ["100,100"]);
  ("TS65", ["3700,30,,170,,350"]);
  ("TS66", ["50,50"]);
  ("TS67", ["700,20"]);
  ("TS68", ["60,60"]);
  ("TS69", ["2600,70"]);
  ("TS70", ["1500,140"]);
  ("TS71", ["2400,70"]);
  ("TS72", ["100,100"]);
  ("TS73", ["2280,60"]);
  ("TS74", ["2300,60"]);
  ("TS75", ["2300,75"]);
  ("TS76", ["2700,22"]);
  ("TS77", ["39,25"]);
  ("TS78", ["4200,75"]);
  ("TS79", ["30,15"]);
  ("TS80", ["2400,75"; "2600,50"]);
  ("TS81", ["100,100"]);
  ("TS82", ["30,30"]);
  ("TS83", ["60,60"]);
  ("TS84", ["50,50"]);
  ("TS85", ["2400,60"]);
  ("TS86", ["55,55"]);
  ("TS87", ["2500,100"]);
  ("TS88", ["60,60"]);
  ("TS89", ["2000,75"]);
  ("TS90", ["1550,30"]);
  ("TS91", ["50,50"; "50,50"; "50,50"; "50,50"]);
  ("TS92", ["1600,50"]);
  ("TS93", ["20,20"]);
  ("TS94", ["3500,100"]);
  ("TS95", ["2500,150"]);
  ("TS96", ["2450,60"]);
  ("TS97", ["100,100"]);
  ("TS98", ["1985,50"]);
  ("TS99", ["50,50"]);
  ("TSG", ["5100,150,,88,,268"; "5000,150,,145,,325"]);
  ("TT01", ["1500,120"]);
  ("TTCP", ["9002,159,29,94.1,20,274.1"]);
  ("TTPP", ["10500,150,30,90,58,270"]);
  ("TUPA", ["2500,,30,,30"]);
  ("TUPJ", ["4642,89,14,61,7,241"]);
  ("TVSA", ["9000,148,136,,52"]);
  ("TVSB", ["3609,98,,103,,283"]);
  ("TVSC", ["5900,98,12,121.7,16,301.7"]);
  ("TVSM", ["3255,75,9,71,8,251"]);
  ("TVSV", ["4595,150,10,61,66,241"]);
  ("TX00", ["2723,210"]);
  ("TX01", ["2640,60"]);
  ("TX02", ["2800,50"]);
  ("TX03", ["1745,50"; "2360,150"]);
  ("TX04", ["1170,60"]);
  ("TX05", ["2300,60"]);
  ("TX06", ["600,400"]);
  ("TX07", ["6000,75,,160,,340"]);
  ("TX08", ["90,90"]);
  ("TX09", ["1630,60"]);
  ("TX10", ["200,200"]);
  ("TX11", ["1200,60"]);
  ("TX12", ["2000,100"]);
  ("TX13", ["6000,100,2772,16,2766,196"]);
  ("TX14", ["25,25"]);
  ("TX15", ["2675,90"; "2465,70"]);
  ("TX16", ["1100,75"; "900,75"]);
  ("TX17", ["100,120"]);
  ("TX18", ["450,75"]);
  ("TX19", ["2175,75"; "2700,75"]);
  ("TX20", ["2300,50"]);
  ("TX21", ["1870,60"]);
  ("TX22", ["2300,60"; "1700,60"]);
  ("TX23", ["4500,300"]);
  ("TX24", ["3000,100"]);
  ("TX25", ["5000,60,391,170,391,350"]);
  ("TX26", ["50,50"]);
  ("TX28", ["100,100"]);
  ("TX29", ["3300,60"]);
  ("TX30", ["60,60"]);
  ("TX31", ["5200,100,,20,,200"]);
  ("TX32", ["2900,100"]);
  ("TX33", ["2150,75"]);
  ("TX34", ["2200,75"]);
  ("TX35", ["3075,63"]);
  ("TX36", ["4000,100"]);
  ("TX37", ["1800,160"]);
  ("TX38", ["2140,65"]);
  ("TX39", ["1800,100"]);
  ("TX40", ["2600,40"]);
  ("TX41", ["2000,100"]);
  ("TX42", ["3500,100"]);
  ("TX43", ["3200,50"]);
  ("TX44", ["51,51"]);
  ("TX45", ["3200,50"]);
  ("TX46", ["2600,75"]);
  ("TX47", ["3000,50"]);
  ("TX48", ["2418,100"]);
  ("TX49", ["3300,110"]);
  ("TX50", ["40,45"; "45,45"]);
  ("TX51", ["2075,50"; "2200,50"; "1620,50"]);
  ("TX52", ["2000,90"]);
  ("TX53", ["30,30"]);
  ("TX54", ["2150,26"]);
  ("TX55", ["60,60"]);
  ("TX56", ["2600,75"]);
  ("TX57", ["94,81"]);
  ("TX58", ["75,25"]);
  ("TX59", ["30,30"]);
  ("TX60", ["65,65"]);
  ("TX61", ["2550,60"]);
  ("TX62", ["2900,80"]);
  ("TX63", ["30,30"]);
  ("TX64", ["4000,50"]);
  ("TX65", ["25,25"]);
  ("TX66", ["1900,80"]);
  ("TX67", ["1600,100"]);
  ("TX68", ["2600,50"]);
  ("TX69", ["50,50"]);
  ("TX70", ["3875,40"]);
  ("TX71", ["40,40"]);
  ("TX72", ["1685,30"; "1750,30"]);
  ("TX73", ["3300,40,,154.2,,334.2"]);
  ("TX74", ["1800,50"]);
  ("TX75", ["2750,40"]);
  ("TX76", ["40,40"]);
  ("TX77", ["50,50"]);
  ("TX78", ["2100,40"]);
  ("TX79", ["5020,60"]);
  ("TX80", ["50,50"]);
  ("TX81", ["1238,50"]);
  ("TX82", ["1972,150"]);
  ("TX83", ["48,48"]);
  ("TX84", ["100,100"]);
  ("TX85", ["210,160"]);
  ("TX86", ["50,50"]);
  ("TX87", ["40,40"]);
  ("TX88", ["60,60"]);
  ("TX89", ["2000,100"]);
  ("TX90", ["100,100"]);
  ("TX91", ["1100,100"]);
  ("TX92", ["1800,30"]);
  ("TX93", ["1600,50"; "3700,100"]);
  ("TX94", ["2500,100"]);
  ("TX95", ["2150,40"]);
  ("TX96", ["1900,200"]);
  ("TX97", ["1600,100"]);
  ("TX98", ["2438,35"]);
  ("TX99", ["2600,125"; "3000,125"; "2800,125"; "2300,125"; "2200,125"]);
  ("TXKF", ["9713,150,11,101.5,12,281.5"]);
  ("TYE", ["3000,90"]);
  ("U37", ["3800,175"]);
  ("U41", ["4600,100"]);
  ("U45", ["2900,50"]);
  ("U46", ["2600,110"]);
  ("U48", ["2700,100"]);
  ("U51", ["3280,30"]);
  ("U53", ["4600,170"]);
  ("U54", ["1900,150"]);
  ("U60", ["3550,110"]);
  ("U61", ["4450,100"]);
  ("U65", ["2650,170"]);
  ("U72", ["2500,75"]);
  ("U74", ["5424,60,4787,70,4747,250"; "4650,75,4787,152,4762,332"]);
  ("U84", ["2500,125"]);
  ("U86", ["2950,40"]);
  ("U87", ["4900,150,7160,155,7160,335"]);
  ("U88", ["3850,125"]);
  ("U91", ["2750,150"]);
  ("U92", ["3450,130"]);
  ("U93", ["4000,100"; "1750,100"]);
  ("U94", ["2800,90"]);
  ("U97", ["3800,25"]);
  ("U98", ["3400,50"]);
  ("U99", ["2250,130"]);
  ("UA30", ["5905,115,,143.8,,323.8"]);
  ("UA34", ["5370,130,,40,,220"]);
  ("UA36", ["8204,157,,88.1,,268.1"; "9844,148,,88,,268"]);
  ("UA66", ["8183,105,,81,,261"]);
  ("UAAA", ["14427,147,2224,56,2234,236"]);
  ("UAAH", ["8208,131,1381,52.5,1444,232.5"]);
  ("UACC", ["11484,147,1165,44.7,1158,224.7"]);
  ("UACK", ["8325,125,,32,,212"]);
  ("UACP", ["8190,128,,66,,246"]);
  ("UADD", ["9514,148,2148,137,2181,317"]);
  ("UAE", ["1903,98"]);
  ("UAFG", ["5708,131"]);
  ("UAFI", ["5577,115"]);
  ("UAFL", ["6562,148,5414,73.8,5423,253.8"]);
  ("UAFM", ["13780,180,2090,80,2055,260"]);
  ("UAFO", ["8576,164,2851,125,2928,305"]);
  ("UAFP", ["6561,115"]);
  ("UAFW", ["8859,164,2516,114.6,2549,294.6"]);
  ("UAII", ["9186,144,1319,106.7,1385,286.7"]);
  ("UAKD", ["8530,138,1250,51.7,1230,231.7"]);
  ("UAKK", ["10831,197,1765,58.4,1752,238.4"]);
  ("UAON", ["14765,275"]);
  ("UARR", ["7874,138,121,52,125,232"]);
  ("UASE", ["4938,115"]);
  ("UASK", ["8234,138,932,130.6,938,310.6"; "6088,200,,130.7,,310.7"]);
  ("UASP", ["8202,148,381,42.8,410,222.8"]);
  ("UASS", ["3270,253,695,23.5,695,203.5"; "10159,145,761,84.1,673,264.1"]);
  ("UATE", ["8700,147,69,122.6,52,302.6"; "9630,150,,122.9,,302.9"]);
  ("UATG", ["9842,144,-73,149.9,-72,329.9"]);
  ("UATT", ["10160,196,719,135,738,315"]);
  ("UAUR", ["8185,148,,91,,271"]);
  ("UAUU", ["8150,157,597,156.8,571,336.8"]);
  ("UB12", ["8218,132,,180,,360"]);
  ("UB13", ["7145,120,,58.6,,238.6"]);
  ("UB14", ["8200,145,,88.2,,268.2"]);
  ("UB16", ["3966,120,,138,,318"]);
  ("UB18", ["8670,130,,179.4,,359.4"]);
  ("UBBB", ["13123,197,-13,167.1,-23,347.1"; "10499,148,10,179,-13,359"]);
  ("UBBG", ["8217,144,1076,128,1083,308"]);
  ("UBBL", ["5172,132,,140.3,,320.3"]);
  ("UBBN", ["10826,138,2863,137.3,2819,317.3"; "10826,148,2862,137.3,2819,317.3"]);
  ("UBI", ["1640,98"]);
  ("UD21", ["3281,250,,60.3,,240.3"; "3252,250,,186.1,,6.1"]);
  ("UDLS", ["6555,92,4836,130.7,4819,310.7"]);
  ("UDSG", ["10564,147,4941,24,5000,204"]);
  ("UDYE", ["9134,132,2900,32.8,2955,212.8"]);
  ("UDYZ", ["12629,184,2800,90,2838,270"]);
  ("UEEE", ["8202,161,322,29.6,318,209.6"; "11155,197,322,36.9,315,216.9"]);
  ("UELL", ["11811,148,2812,68.9,2697,248.9"]);
  ("UERP", ["10170,138,1657,163.7,1640,343.7"]);
  ("UERR", ["9187,148,1123,55.9,1156,235.9"]);
  ("UESK", ["5906,197"]);
  ("UEST", ["9845,194,20,7.7,26,187.7"]);
  ("UG-0001", ["3937,72,6181,172,6250,352"]);
  ("UG0U", ["9802,164,,151.2,,331.2"]);
  ("UG11", ["8182,135,,110.2,,290.2"]);
  ("UG22", ["8170,130,,91.2,,271.2"]);
  ("UG24", ["8131,255,,140.3,,320.3"]);
  ("UG25", ["5551,110,,102.2,,282.2"]);
  ("UG26", ["4692,114,,94.6,,274.6"]);
  ("UG27", ["8205,175,,142.7,,322.7"]);
  ("UG28", ["8862,130,,136,,316"]);
  ("UGB", ["5280,125"]);
  ("UGKO", ["8202,144,197,80.6,223,260.6"]);
  ("UGSB", ["7325,150,86,130.7,105,310.7"]);
  ("UGSS", ["12012,172,20,122.6,53,302.6"]);
  ("UGTB", ["8202,196,1621,133,1572,313"; "9843,147,1624,136,1558,316"]);
  ("UHBB", ["9256,148,565,168.3,638,348.3"]);
  ("UHHH", ["11483,148,225,42,223,222"; "13124,197,228,42,235,222"]);
  ("UHMA", ["11483,196,138,13.7,194,193.7"]);
  ("UHMD", ["7190,240,22,21.5,68,201.5"]);
  ("UHMM", ["11326,195,546,93.2,574,273.2"]);
  ("UHMO", ["7874"]);
  ("UHMP", ["8202,138,8,166.9,9,346.9"]);
  ("UHPP", ["735,50,,118.1,,298.1"; "11155,197,112,157.2,131,337.2"; "8235,197,,157.3,,337.3"]);
  ("UHSS", ["11155,148,44,0.7,49,180.7"]);
  ("UHWW", ["3191,65,,50.5,,230.5"; "11483,197,33,60.9,33,240.9"; "11483,197,32,61.1,44,241.1"; "1975,65,,146.6,,326.6"]);
  ("UIAA", ["9430,184,2272,100.5,2200,280.5"; "5905,245,,101,,281"]);
  ("UIBB", ["10368,197,1606,114.8,1602,294.8"]);
  ("UIII", ["11696,148,1588,113.6,1675,293.6"]);
  ("UIUU", ["9780,150,1690,78,1657,258"; "6700,340,,78,,258"; "4630,315,,135,,315"]);
  ("UK59", ["8202,155,,173,,353"]);
  ("UK61", ["8202,185,,138.8,,318.8"]);
  ("UKBB", ["13123,197,410,183,422,3"; "11483,206,419,183,403,3"]);
  ("UKCC", ["13123,196,732,89.6,791,269.6"]);
  ("UKCM", ["8431,164,236,21.1,246,201.1"; "4624,280,242,111.9,227,291.9"]);
  ("UKCW", ["9450,140,594,100.6,636,280.6"]);
  ("UKDD", ["9320,144,453,90,472,270"]);
  ("UKDE", ["8210,138,339,23.2,373,203.2"]);
  ("UKDR", ["8202,138,406,186,376,6"]);
  ("UKFF", [",,598,,578"; "12142,197,598,13,578,193"]);
  ("UKFK", ["5420,115,170,73,162,253"]);
  ("UKHH", ["7285,165,494,90.4,485,270.4"]);
  ("UKKE", ["8180,138,375,149.6,353,329.6"]);
  ("UKKK", ["7579,148,560,86,587,266"]);
  ("UKKM", ["11483,184,513,154.5,506,334.5"]);
  ("UKLC", ["5446"]);
  ("UKLH", ["7219,140,,166.1,,346.1"]);
  ("UKLI", ["8226,144,919,104,904,284"]);
  ("UKLL", ["10843,148,1071,136,1055,316"]);
  ("UKLN", ["7270,138,801,152.9,827,332.9"]);
  ("UKLR", ["2150,65,,56.1,,236.1"; "8615,138,746,118,751,298"]);
  ("UKLT", ["6465,140,1072,104.4,1022,284.4"]);
  ("UKLU", ["6686,131,373,103,379,283"]);
  ("UKON", ["8438,144,151,50.9,184,230.9"; "5905,250,,51,,231"]);
  ("UKOO", ["1815,197,,75.4,,255.4"; "9183,184,172,163,165,343"; "2950,190,,182,,2"]);
  ("ULAA", ["8202,144,33,96.5,49,276.5"]);
  ("ULAL", ["2132,197"; "5236,118"]);
  ("ULAV", ["1804,197"]);
  ("ULKS", ["8202,157"]);
  ("ULLI", ["11146,197,59,106.4,66,286.4"; "12402,197,66,106.4,79,286.4"]);
  ("ULMM", ["8202,148,241,146,266,326"]);
  ("ULMX", ["2133,328"]);
  ("ULOO", ["6562,144,149,18.1,154,198.1"; "5578,144,,18.4,,198.4"]);
  ("ULPB", ["8202,157,151,23,138,203"]);
  ("ULSL", ["1968,98"]);
  ("UMBB", ["8596,138,453,113.9,463,293.9"]);
  ("UMGG", ["8432,141,460,111.9,467,291.9"]);
  ("UMII", ["8550,138,630,62.2,679,242.2"]);
  ("UMKK", ["8202,148,42,65.8,31,245.8"]);
  ("UMMG", ["2172,92,,88.9,,268.9"; "8399,138,443,178,430,358"]);
  ("UMMM", ["6562,197,748,125.4,719,305.4"]);
  ("UMMS", ["11946,197,640,138.8,670,318.8"]);
  ("UMNV", ["8202,144"]);
  ("UMOO", ["8422,138,625,136.6,616,316.6"]);
  ("UNAA", ["8202,263,,25,,205"; "4265,92,,25.3,,205.3"; "10663,148,831,26,824,206"]);
  ("UNBB", ["9350,164,825,67.2,820,247.2"]);
  ("UNEE", ["10499,197,822,53.6,834,233.6"; "8655,155,,55.2,,235.2"]);
  ("UNKL", ["12139,197,942,113.1,942,293.1"]);
  ("UNNT", ["11801,197,365,81,363,261"; "11818,148,362,170,368,350"]);
  ("UNOO", ["9435,270,,77.1,,257.1"; "8202,148,311,76.9,293,256.9"; "2380,250,,164.6,,344.6"]);
  ("UNTT", ["8202,164,597,25,552,205"]);
  ("UOHH", ["8872,158,95,64.9,46,244.9"]);
  ("UOOO", ["11290,145,538,32,571,212"]);
  ("URB", ["5525,115,1159,93.2,1169,273.2"]);
  ("URKA", ["8202,138,137,42.3,174,222.3"]);
  ("URKG", ["10171,197,90,14,132,194"]);
  ("URKK", ["7218,160,107,53,111,233"; "9835,145,111,53,118,233"]);
  ("URKM", ["2953,,689,,686"; "8579,,646,,679"; "8579,,646,,679"]);
  ("URML", ["8661,138,-2,148.7,12,328.7"; "8688,230,,147.8,,327.8"]);
  ("URMM", ["12795,197,1043,122.2,1046,302.2"]);
  ("URMN", ["7218,138,1462,63.4,1378,243.4"]);
  ("URMO", ["9843,148,1634,101.5,1673,281.5"]);
  ("URMT", ["8631,157,1486,76.1,1434,256.1"]);
  ("URRR", ["8202,148,237,45.7,280,225.7"; "6400,245,,45.9,,225.9"; "4330,280,,91.9,,271.9"]);
  ("URRT", ["9052,131,117,104,69,284"]);
  ("URSS", ["7218,161,52,29.1,89,209.1"; "9482,164,36,65,85,245"]);
  ("URWA", ["8202,138,-74,96,-65,276"; "5906,328,-79,121,-76,301"]);
  ("URWI", ["6562,148,501,97.8,484,277.8"; "7555,280,,97.5,,277.5"]);
  ("URWW", ["1595,350,,84.2,,264.2"; "8101,161,430,120.1,482,300.1"; "5575,330,,120,,300"]);
  ("US-0031", ["50,50"]);
  ("US-0058", ["2200,40,2625,180,2620,360"]);
  ("US-0060", ["1700,60"]);
  ("US-0062", ["6025,100,620,,597"; "1550,25,615,166,599,346"]);
  ("US-0087", ["4025,75,2180,135.5,2105,315.5"]);
  ("US-0112", ["2000,75"]);
  ("US-0119", ["1378,100"]);
  ("US-0219", [",,10,10"]);
  ("US-0238", ["15,15"]);
  ("US-0239", ["2000,100"]);
  ("US-0242", ["2336,50,,122,,302"]);
  ("US-0248", ["3230,50"]);
  ("US-0252", ["4800"]);
  ("US-0257", ["12000,200,,169,,349"]);
  ("US-0272", ["2120,60"]);
  ("US-02AR", ["4400,45"]);
  ("US-0306", ["1049,76"; "1099,75"]);
  ("US-0388", ["3000,150"]);
  ("US-0402", ["1950,35"; "1250,50"]);
  ("US-0408", ["1805,60,1081,,1073"]);
  ("US-0409", ["2582,50"]);
  ("US-0427", ["900,150"]);
  ("US-0478", ["2500,40"]);
  ("US-0499", ["1500,100"]);
  ("US-0501", ["44,44"]);
  ("US-0505", ["1900,75"]);
  ("US-0506", ["1975,102"]);
  ("US-0511", ["85,95"]);
  ("US-0512", ["40,40"]);
  ("US-0513", ["1570,100"]);
  ("US-0514", ["40,40"]);
  ("US-0515", ["1400,60"]);
  ("US-0516", ["40,40"]);
  ("US-0519", ["48,48"]);
  ("US-0524", ["1800,75"]);
  ("US-0533", ["2536,250,1328,180,1352,360"]);
  ("US-0569", ["1000,50"]);
  ("US-0583", ["2000,35"]);
  ("US-0587", ["1940,100"]);
  ("US-0588", ["2600,100"]);
  ("US-0606", ["1700,50"]);
  ("US-0608", ["1000,100"]);
  ("US-0611", ["2000,52"]);
  ("US-0624", ["1140,50"]);
  ("US-0626", ["980,40"]);
  ("US-0627", ["2800,100"]);
  ("US-0634", ["5309,100"]);
  ("US-0637", ["2040,80"]);
  ("US-0642", ["2400,50"]);
  ("US-0643", ["1720,148"]);
  ("US-0645", ["4600,75"]);
  ("US-0647", ["3275,100"]);
  ("US-0651", ["4000,40"]);
  ("US-0654", ["1300,50"]);
  ("US-0657", ["1740,115"]);
  ("US-0658", ["1270,40"]);
  ("US-0661", ["2500,55,1900,,1890"]);
  ("US-0662", ["600,80"]);
  ("US-0663", ["4000,500"]);
  ("US-0665", ["1800,50"]);
  ("US-0668", ["4600,200"]);
  ("US-0671", ["3200,100"]);
  ("US-0674", ["1200,50"]);
  ("US-0676", ["2000,80"]);
  ("US-0678", ["2000,100"]);
  ("US-0682", ["2200,150"]);
  ("US-0688", ["150,150"]);
  ("US-0689", ["1880,60"]);
  ("US-0690", ["1100,60"]);
  ("US-0691", ["1100,40"]);
  ("US-0696", ["5000,75"]);
  ("US-0698", ["2040,186"]);
  ("US-0699", ["1500,75"]);
  ("US-0700", ["800,26"; "10,10"]);
  ("US-0707", ["2250,60"]);
  ("US-0708", ["1800,45"]);
  ("US-0709", ["40,40"]);
  ("US-0710", ["1400,70"]);
  ("US-0711", ["1320,80"]);
  ("US-0712", ["45,45"]);
  ("US-0713", ["3000,75"]);
  ("US-0715", ["2130,100"]);
  ("US-0721", ["1280,80"]);
  ("US-0725", ["2200,70"]);
  ("US-0728", ["800,50"]);
  ("US-0730", ["1031,60"]);
  ("US-0731", ["3000,60,,135,,315"]);
  ("US-0735", ["2400,80"]);
  ("US-0736", ["1600,50"]);
  ("US-0740", ["2845,60"; "2420,60"]);
  ("US-0F3", ["3015,50,1434,167,1420,347"]);
  ("US-20NJ", ["45,45"; "45,45"]);
  ("US-21PN", ["40,40"]);
  ("US-2FA7", ["660,120"]);
  ("US-3NJ9", ["1965,70"]);
  ("US-3T9", ["5500,80,,88.1"]);
  ("US-45AR", ["2230,150"; "1480,150"]);
  ("US-4WI7", ["1550,80"]);
  ("US-58T", ["3000,60"]);
  ("US-7GA6", ["37,37"]);
  ("US-92N", ["78,78"]);
  ("US-93TX", ["50,50"]);
  ("US-CO22", ["4000,75"; "3900,35,5796,89.9,,269.9"; "1800,75"]);
  ("US-FL35", ["3000,75"]);
  ("US-GA46", ["4946,98,525,88,538,268"]);
  ("US-LA36", ["1000,100"]);
  ("US-LA75", ["1500,140"]);
  ("US-LA84", ["55,55"]);
  ("US-NJ77", ["100,100"]);
  ("US-OI05", ["4284,64,,118,,298"]);
  ("US-OI21", ["85,85"]);
  ("US-SC49", ["4472,135,,87,,267"]);
  ("US-TX54", ["2150,26"]);
  ("US-UT73", ["8180,125,,19,,199"]);
  ("US-UT77", ["4716,100,,182,,2"]);
  ("US-VA38", ["5780,50,,129,,309"]);
  ("US-VA47", ["4645,75,,89,,269"]);
  ("US-VA51", ["4135,55,,100,,280"]);
  ("US-VA53", ["4115,100,920,95,920,275"]);
  ("US-VA74", ["3736,49,,81,,261"]);
  ("US0099", ["3900,120"]);
  ("USCC", ["10499,197,759,103.6,737,283.6"]);
  ("USCM", ["10663,148,1430,16.2,1394,196.2"]);
  ("USDD", ["8917,151,212,61.4,170,241.4"]);
  ("USHH", ["9180,141,132,75.4,139,255.4"]);
  ("USNN", ["10499,197,144,42.2,177,222.2"]);
  ("USPP", ["10520,161,383,46,393,226"]);
  ("USRK", ["8225,138,220,189.9,217,9.9"]);
  ("USRR", ["9154,148,180,89.7,194,269.7"]);
  ("USSS", ["8192,140,738,90.1,763,270.1"; "9925,148,735,94.1,761,274.1"]);
  ("USTR", ["9852,148,371,47.8,341,227.8"; "8871,164,310,134.8,344,314.8"]);
  ("USW", ["4549,80"]);
  ("UT00", ["5600,50"]);
  ("UT01", ["70,70"]);
  ("UT03", ["2200,40"]);
  ("UT04", ["1320,300"]);
  ("UT05", ["100,100"]);
  ("UT07", ["3960,100"]);
  ("UT08", ["4700,60"]);
  ("UT09", ["2500,34"]);
  ("UT10", ["5100,100"]);
  ("UT11", ["42,42"]);
  ("UT12", ["30,30"]);
  ("UT13", ["1100,120"]);
  ("UT14", ["60,60"]);
  ("UT15", ["5280,80"]);
  ("UT16", ["60,60"]);
  ("UT17", ["4200,50"]);
  ("UT19", ["40,40"]);
  ("UT1A", ["9525,145,,80,,260"]);
  ("UT1B", ["5012,98,,130.5,,310.5"]);
  ("UT1C", ["6036,160,,157.8,,337.8"]);
  ("UT1E", ["5576,120,,6.1,,186.1"]);
  ("UT1F", ["6600,120,,139.4,,319.4"]);
  ("UT1G", ["8665,148,,153.3,,333.3"]);
  ("UT1H", ["8200,135,,109.1,,289.1"]);
  ("UT1J", ["5217,115,,127.8,,307.8"]);
  ("UT1M", ["7845,124,,21.8,,201.8"]);
  ("UT1N", ["9299,144,,163.9,,343.9"]);
  ("UT1O", ["11675,157,,90.2,,270.2"]);
  ("UT1P", ["3900,190,,34.8,,214.8"]);
  ("UT1Q", ["9845,150,,44.2,,224.2"]);
  ("UT21", ["50,50"; "50,50"; "50,50"]);
  ("UT22", ["75,75"]);
  ("UT23", ["80,80"]);
  ("UT24", ["4200,50"]);
  ("UT25", ["4000,75"]);
  ("UT26", ["3600,40"; "2600,40"]);
  ("UT28", ["4000,50"]);
  ("UT29", ["3650,120"]);
  ("UT30", ["8920,30"]);
  ("UT31", ["40,40"; "40,40"]);
  ("UT32", ["50,50"]);
  ("UT33", ["100,100"]);
  ("UT34", ["100,100"]);
  ("UT35", ["60,60"]);
  ("UT36", ["50,50"]);
  ("UT38", ["250,250"]);
  ("UT39", ["200,150"]);
  ("UT41", ["2600,60"]);
  ("UT42", ["2400,40"]);
  ("UT43", ["3500,40"]);
  ("UT44", ["25,25"]);
  ("UT45", ["100,100"]);
  ("UT46", ["75,75"]);
  ("UT47", ["4400,50,,183.1,3350,3.1"]);
  ("UT49", ["2500,90"]);
  ("UT50", ["80,80"]);
  ("UT51", ["40,40"]);
  ("UT52", ["60,50"]);
  ("UT53", ["5140,60,,131.4,,311.4"]);
  ("UT54", ["2600,80"]);
  ("UT55", ["90,90"]);
  ("UT56", ["85,65"]);
  ("UT58", ["50,50"]);
  ("UT59", ["4500,60"]);
  ("UT60", ["50,50"]);
  ("UT61", ["85,85"]);
  ("UT62", ["75,75"]);
  ("UT63", ["70,70"]);
  ("UT64", ["40,40"]);
  ("UT65", ["3500,45,5460,24,,204"]);
  ("UT67", ["3800,50"]);
  ("UT68", ["3000,50"]);
  ("UT69", ["3900,75"]);
  ("UT70", ["3500,150"]);
  ("UT71", ["20,20"]);
  ("UT72", ["500,200"]);
  ("UT74", ["3160,120"]);
  ("UT75", ["2000,40"]);
  ("UT76", ["100,80"]);
  ("UT78", ["51,51"]);
  ("UT79", ["1800,50"]);
  ("UT80", ["4100,70"]);
  ("UT81", ["50,50"]);
  ("UT82", ["4910,75"]);
  ("UT83", ["4000,48"]);
  ("UT84", ["24,20"]);
  ("UT85", ["12,12"]);
  ("UT86", ["75,75"]);
  ("UT87", ["60,60"]);
  ("UT90", ["917,50"]);
  ("UT97", ["2065,50"; "1290,50"]);
  ("UT98", ["70,70"]);
  ("UT99", ["2600,40"]);
  ("UTAA", ["5907,114,,112.1,,292.1"; "12467,151,682,119,679,299"; "9806,196,689,119.3,679,299.3"]);
  ("UTAK", ["8202,144,230,166.7,279,346.7"]);
  ("UTAM", ["9107,147,728,178.4,725,358.4"; "7994,98,728,178.4,725,358.4"]);
  ("UTAT", ["8858,138,272,90,272,270"; "4921,98,,90,,270"]);
  ("UTAV", ["9022,138,623,154.9,630,334.9"]);
  ("UTDD", ["10170,147,2575,90,2543,270"]);
  ("UTDK", ["9843,137,2149,16.7,2293,196.7"]);
  ("UTDL", ["10450,164,1450,82.2,1401,262.2"]);
  ("UTKA", ["9770,125,,46,,226"]);
  ("UTKF", ["9383,164,,184,,4"]);
  ("UTKN", ["10698,160,,108,,288"]);
  ("UTNM", ["4964,100,,49,,229"]);
  ("UTNN", ["1985,65,,76,,256"; "9175,160,,155,,335"]);
  ("UTNT", ["4930,125,,27,,207"]);
  ("UTNU", ["11065,165,319,139.5,318,319.5"]);
  ("UTSB", ["9843,147,738,10,751,190"]);
  ("UTSL", ["8195,132,,76.9,,256.9"]);
  ("UTSN", ["6098,135,,183,,3"]);
  ("UTSR", ["5000,115,,153,,333"]);
  ("UTSS", ["10170,161,2178,97,2224,277"]);
  ("UTST", ["9843,138,1014,75,1027,255"]);
  ("UTSU", ["4844,115,,91,,271"]);
  ("UTTP", ["10630,197,,82,,262"]);
  ("UTTT", ["13123,197,1368,83.7,1414,263.7"; "12812,148,1368,81,1411,261"]);
  ("UTU", ["1475,450"]);
  ("UUBN", ["2789,984"; "1969,328"]);
  ("UUBP", ["7874,138,663,172.4,643,352.4"]);
  ("UUDD", ["8531,148,585,146.4,538,326.4"; "12448,174,551,145.6,519,325.6"; "11483,197,588,145.6,527,325.6"]);
  ("UUDL", ["9870,135,286,63.4,301,243.4"]);
  ("UUEE", ["11647,197,620,75,622,255"; "12139,197,617,75.1,620,255.1"]);
  ("UUEM", ["8202,160,469,74.6,453,254.6"]);
  ("UUOB", ["7546,138,735,117.3,702,297.3"; "7930,220,,117,,297"]);
  ("UUOK", ["8202,131,656,124,686,304"]);
  ("UUOO", ["7546,161,511,131,487,311"]);
  ("UUWW", ["10039,148,633,14.4,634,194.4"; "9842,197,637,68.3,680,248.3"]);
  ("UUYY", ["8203,164,335,21.6,308,201.6"]);
  ("UWGG", ["1640,72,,67.9,,247.9"; "1969,72,,159.4,,339.4"; "8232,148,253,191,253,11"; "9203,148,256,191,254,11"]);
  ("UWKB", ["6561,131,,12,,192"]);
  ("UWKD", ["12218,144,349,126.4,410,306.4"; "8196,148,371,124.4,408,304.4"]);
  ("UWKE", ["5620,190,,47.2,,227.2"; "8222,138,627,47,623,227"]);
  ("UWKS", ["8241,161,560,71.8,522,251.8"; "4950,270,557,72.7,521,252.7"]);
  ("UWLW", ["16404,323,252,31.3,201,211.3"]);
  ("UWOO", ["8212,138,385,89.9,383,269.9"]);
  ("UWOR", ["1980,160,,16.5,,196.5"; "9550,150,909,76.7,869,256.7"; "5840,300,,76.7,,256.7"; "2030,170,,172,,352"]);
  ("UWSS", ["7485,138,440,131,499,311"]);
  ("UWUU", ["2215,345,,28.7,,208.7"; "2380,300,,60,,240"; "2115,315,,152.3,,332.3"; "8245,164,394,150.9,405,330.9"; "12339,197,370,151.2,448,331.2"]);
  ("UWWW", ["8360,197,477,61.8,410,241.8"; "9846,148,415,160.4,388,340.4"]);
  ("UZ-0135", ["1312,33,1330,69,1324,249"]);
  ("UZ-UT73", ["8180,125,,18.6,,198.6"]);
  ("UZ-UT77", ["4716,100,,182,,2"]);
  ("VA00", ["2000,75"]);
  ("VA01", ["50,12"]);
  ("VA02", ["3000,150"]);
  ("VA03", ["30,30"]);
  ("VA04", ["2100,40"]);
  ("VA06", ["2300,60"]);
  ("VA07", ["2500,50"]);
  ("VA08", ["2600,60"]);
  ("VA10", ["1930,100"]);
  ("VA11", ["1700,80"]);
  ("VA12", ["1500,60"]);
  ("VA13", ["2000,60"]);
  ("VA14", ["2221,100"]);
  ("VA15", ["800,50"]);
  ("VA16", ["2100,100"; "1100,100"]);
  ("VA17", ["2000,75"]);
  ("VA18", ["3000,100"]);
  ("VA19", ["2200,100"]);
  ("VA1B", ["3128,100,,79.1,,259.1"]);
  ("VA1C", ["4887,80,,140.3,,320.3"]);
  ("VA1D", ["4665,85,,84.3,,264.3"]);
  ("VA1E", ["3900,95,,44.1,,224.1"]);
  ("VA1F", ["3540,50,,63.6,,243.6"]);
  ("VA1G", ["3940,95,,70,,250"]);
  ("VA1H", ["3895,98,,173,,353"]);
  ("VA1J", ["3260,75,,172,,352"]);
  ("VA1K", ["9000,150,,60.1,,240.1"]);
  ("VA1L", ["2279,175,,81.5,,261.5"]);
  ("VA1M", ["4200,100,,96,,276"]);
  ("VA1N", ["3610,95,,139.9,,319.9"]);
  ("VA1O", ["3670,50,,143,,323"]);
  ("VA1P", ["5980,148,,51.7,,231.7"; "3555,100,,131,,311"]);
  ("VA20", ["40,40"]);
  ("VA21", ["50,50"]);
  ("VA23", ["2000,60"]);
  ("VA24", ["1600,30"]);
  ("VA25", ["1500,80"]);
  ("VA26", ["900,60"]);
  ("VA27", ["2100,75"]);
  ("VA28", ["2250,60"]);
  ("VA29", ["30,30"]);
  ("VA2A", ["3565,55,,116.4,,296.4"]);
  ("VA2B", ["5124,75,,111.4,,291.4"]);
  ("VA2C", ["7500,150,,44,,224"]);
  ("VA2D", ["3753,75,,77,,257"]);
  ("VA30", ["2300,100"]);
  ("VA31", ["2350,50"]);
  ("VA32", ["2100,75"]);
  ("VA33", ["1800,100"]);
  ("VA34", ["1400,50"]);
  ("VA35", ["400,400"]);
  ("VA36", ["3575,100"]);
  ("VA37", ["1800,75"]);
  ("VA39", ["400,400"]);
  ("VA40", ["700,300"]);
  ("VA41", ["1640,55"]);
  ("VA42", ["4100,50,,79.7,,259.7"]);
  ("VA44", ["2100,80"]);
  ("VA46", ["2700,80"]);
  ("VA48", ["5000,5000"]);
  ("VA50", ["2200,80"]);
  ("VA52", ["1800,30"])].

(* ADRpy/data/runways.csv *)
Definition airports_31 : list (string * list string) := [
  ("VA54", ["100,20"]);
  ("VA55", ["200,200"]);
  ("VA56", ["2000,45"]);
  ("VA57", ["4888,50,,79.6,,259.6"]);
  ("VA58", ["2650,60"]);
  ("VA59", ["1500,150"]);
  ("VA60", ["300,300"]);
  ("VA61", ["3000,50"]);
  ("VA62", ["2200,75"]);
  ("VA63", ["3000,40"]);
  ("VA64", ["2000,120"]);
  ("VA65", ["1250,175"]);
  ("VA66", ["1000,75"]);
  ("VA68", ["1600,60"]);
  ("VA69", ["30,30"]);
  ("VA70", ["30,30"]);
  ("VA71", ["2000,100"]);
  ("VA72", ["2200,100"]);
  ("VA73", ["3100,250"]);
  ("VA78", ["40,21"]);
  ("VA79", ["3200,75"]);
  ("VA81", ["1400,80"]);
  ("VA82", ["75,75"]);
  ("VA83", ["3039,150"]);
  ("VA84", ["50,50"]);
  ("VA85", ["2400,100"]);
  ("VA88", ["60,60"]);
  ("VA91", ["2100,100"]);
  ("VA92", ["1200,125"]);
  ("VA93", ["2100,100"; "1500,60"]);
  ("VA94", ["1600,100"]);
  ("VA95", ["2300,100"]);
  ("VA96", ["1500,30"]);
  ("VA98", ["2500,200"]);
  ("VA99", ["2200,80"]);
  ("VAAH", ["11447,150,180,45,189,225"]);
  ("VAAK", ["4600,145,999,103.3,999,283.3"]);
  ("VAAU", ["7713,148,1911,87.9,1884,267.9"]);
  ("VABB", ["11302,148,15,89.2,22,269.2"; "9596,150,37,134.2,26,314.2"]);
  ("VABI", ["5035,80,,168,,348"]);
  ("VABJ", ["8205,150,268,45.2,244,225.2"]);
  ("VABM", ["4786,148,2478,79.3,2451,259.3"]);
  ("VABO", ["8100,150,124,44,127,224"]);
  ("VABP", ["3420,148,,55.2,,235.2"; "6700,148,1713,117.6,1709,297.6"]);
  ("VABV", ["6300,150,38,67.9,22,247.9"]);
  ("VADN", ["5909,150,,25.3,,205.3"; "3282,80,,94.1,,274.1"]);
  ("VADS", ["3300,65,,52.7,,232.7"]);
  ("VAGN", ["2982,72,,141,,321"]);
  ("VAGO", ["11345,148,110,78.8,183,258.8"]);
  ("VAHB", ["5479,100,,82.8,,262.8"]);
  ("VAID", ["7480,148,1843,65.1,1836,245.1"]);
  ("VAJB", ["6522,150,1574,58.5,1624,238.5"]);
  ("VAJJ", ["3750,,16,,16"]);
  ("VAJM", ["8242,148,69,61,64,241"; "8236,148,69,116,64,296"]);
  ("VAKE", ["4997,94,95,50,95,230"]);
  ("VAKJ", ["7460,148,728,13.4,688,193.4"]);
  ("VAKP", ["4495,150,1995,70,1987,250"]);
  ("VAKS", ["4500,150,166,50.3,161,230.3"]);
  ("VAND", ["7546,148,,99,,278"]);
  ("VANP", ["6358,150,1013,84.3,987,264.3"; "10500,150,1033,143.4,1007,323.4"]);
  ("VANR", ["4520,150,,92,,272"]);
  ("VAOZ", ["9775,150,,84.6,,264.6"]);
  ("VAPO", ["8329,150,,94,,274"; "5893,150,,134,,314"]);
  ("VAPR", ["4500,150,23,88,14,268"]);
  ("VARG", ["4500,148,,43,,223"]);
  ("VARK", ["6040,148,438,47,423,227"]);
  ("VARP", ["6414,150,1015,58,1038,238"]);
  ("VASL", ["4472,145,1578,145,1572,325"]);
  ("VASU", ["7382,100,,43,,223"]);
  ("VAUD", ["7484,150,1680,82,1663,262"]);
  ("VBW", ["2745,60"]);
  ("VCBI", ["10991,148,24,37,27,217"]);
  ("VCCA", ["4876,150,315,46.3,304,226.3"]);
  ("VCCB", ["3592,40,,61.4,,241.4"]);
  ("VCCC", ["6013,100,24,33.3,8,213.3"]);
  ("VCCG", ["3600,151,,65,,245"]);
  ("VCCJ", ["7500,98,33,45.6,25,225.6"]);
  ("VCCK", ["3142,140,,69.7,,249.7"]);
  ("VCCN", ["3200,145,,108.3,,288.3"]);
  ("VCCS", ["5925,145,,39.4,,219.4"]);
  ("VCCT", ["7850,85,6,59.3,4,239.3"]);
  ("VCCV", ["5060,80,,41,,221"]);
  ("VCCW", ["4000,93,,68.8,,248.8"]);
  ("VCRI", ["11483,197"]);
  ("VDBG", ["5250,112,59,69,59,249"]);
  ("VDKH", ["7874,150,,182.3,,2.3"]);
  ("VDPP", ["9843,144,40,45.8,37,225.8"]);
  ("VDRK", ["3937,,1063,,1063"]);
  ("VDSR", ["8366,148,51,47.8,60,227.8"]);
  ("VDST", ["4248,70,203,19,180,199"]);
  ("VDSV", ["4251,112,,27.6,,207.6"]);
  ("VDSY", ["4800,148"]);
  ("VE-0210", ["4943,80,,149.8,,329.8"]);
  ("VE23", ["4010,75,,88.1,,268.1"]);
  ("VE24", ["6595,148,,35,,215"]);
  ("VE36", ["4200,55,,58.6,,238.6"]);
  ("VE41", ["3015,75,,112.8,,292.8"]);
  ("VE44", ["6000,110,,105.9,,285.9"; "9000,148,,106.2,,286.2"]);
  ("VE54", ["3000,100,,88.6,,268.6"]);
  ("VE62", ["9000,150,,42.1,,222.1"]);
  ("VE67", ["4395,80,,104,,284"]);
  ("VE85", ["3491,70,,127.2,,307.2"]);
  ("VE89", ["9000,150,,98.1,,278.1"]);
  ("VE91", ["3980,70,,120,,300"]);
  ("VE96", ["3785,98,,104,,284"]);
  ("VEAN", ["915,95,,53.5,,233.5"]);
  ("VEAT", [",,40,,48"; "7500,148,45,184,46,4"]);
  ("VEAZ", ["3755,70,,7,,187"]);
  ("VEBA", ["2830,100"]);
  ("VEBD", ["9035,150,,181,,1"]);
  ("VEBI", ["6000,150,2911,39,2898,219"]);
  ("VEBK", ["5300,100,,130.8,,310.8"]);
  ("VEBS", ["4524,150,113,51.4,139,231.4"; "7359,150,115,143.9,122,323.9"]);
  ("VECA", ["9003,148,,49.7,,229.7"]);
  ("VECC", ["7871,150,19,6.2,19,186.2"; "11900,150,20,6.2,19,186.2"]);
  ("VECO", ["3500,100,138,44.5,138,224.5"]);
  ("VEDB", ["3728,93,,72,,252"]);
  ("VEDX", ["9000,150,140,172.5,200,352.5"]);
  ("VEGK", ["9000,150,,113.1,,293.2"]);
  ("VEGT", ["9000,150,162,22.8,162,202.8"]);
  ("VEGY", ["7500,148,355,103.7,378,283.7"]);
  ("VEHK", ["4185,55,,148.3,,328.3"]);
  ("VEIM", ["9009,148,2535,34.6,2540,214.6"]);
  ("VEJH", ["6320,148,748,62.8,751,242.8"]);
  ("VEJS", ["4010,100,454,81,455,261"]);
  ("VEJT", ["9000,150,,44,,224"]);
  ("VEKR", ["3300,100,93,26.7,90,206.7"]);
  ("VEKU", ["5993,148,324,57,352,237"]);
  ("VELP", ["8202,148,1374,171.4,1395,351.4"]);
  ("VELR", ["7500,150,330,42.6,330,222.6"]);
  ("VEMN", ["6000,148,358,45.4,360,225.4"]);
  ("VEMR", ["7513,148,469,118,484,298"]);
  ("VEMZ", ["3990,90,,105,,285"; ",,174,,174"]);
  ("VENP", ["3380,96,,1.2,,181.2"]);
  ("VEPH", ["9000,150,233,149,241,329"]);
  ("VEPI", ["6116,150,,17,,197"]);
  ("VEPT", ["6410,148,169,68.3,169,248.3"]);
  ("VEPU", ["8700,150,129,89.8,129,269.8"]);
  ("VERC", ["8855,148,2141,130.2,2075,310.2"]);
  ("VERK", ["5987,98,,89.3,,269.3"]);
  ("VETZ", ["9010,150,,44,,224"]);
  ("VEUK", ["3000,100,,31.3,,211.3"]);
  ("VEVZ", ["6000,150,14,48,9,228"; ",,12,,8"]);
  ("VEZO", ["4010,100,,183.4,,3.4"]);
  ("VG00", ["2000,90"]);
  ("VG01", ["2900,50"]);
  ("VG02", ["40,40"]);
  ("VG04", ["64,64"]);
  ("VG05", ["2300,135"]);
  ("VG06", ["3000,100"]);
  ("VG07", ["1500,75"]);
  ("VG08", ["30,30"]);
  ("VG09", ["5000,80"]);
  ("VG11", ["30,30"]);
  ("VG12", ["1900,50"]);
  ("VG13", ["50,50"]);
  ("VG14", ["40,40"]);
  ("VG15", ["50,50"]);
  ("VG16", ["1900,75"]);
  ("VG17", ["98,98"]);
  ("VG18", ["2240,50"]);
  ("VG19", ["1050,60"; "1660,60"]);
  ("VG20", ["2900,55"]);
  ("VG22", ["2000,40"]);
  ("VG23", ["1975,75"]);
  ("VG24", ["2000,100"]);
  ("VG25", ["2800,100"]);
  ("VG28", ["2300,60"]);
  ("VG29", ["3100,75"]);
  ("VG30", ["3000,60"; "1300,60"]);
  ("VG33", ["3000,50"]);
  ("VG34", ["2375,75"]);
  ("VG35", ["35,35"]);
  ("VG37", ["2550,60"]);
  ("VG39", ["2000,60"]);
  ("VG40", ["2000,80,,152,,332"]);
  ("VG41", ["40,40"]);
  ("VG42", ["2700,75"]);
  ("VG43", ["1125,60"]);
  ("VG44", ["100,100"]);
  ("VG45", ["53,53"]);
  ("VG46", ["40,40"]);
  ("VG47", ["100,70"]);
  ("VG48", ["30,30"]);
  ("VG49", ["40,40"]);
  ("VG50", ["50,50"]);
  ("VG51", ["40,40"]);
  ("VG52", ["1800,60"]);
  ("VG53", ["1976,80"]);
  ("VG55", ["3100,100"]);
  ("VG56", ["2000,200"]);
  ("VG57", ["2450,45"]);
  ("VG58", ["1800,80"]);
  ("VG59", ["38,42"]);
  ("VG62", ["80,80"]);
  ("VG63", ["132,114"]);
  ("VG64", ["2000,75"]);
  ("VGBR", ["5995,100,10,173.9,10,353.9"]);
  ("VGCB", ["6790,125,12,169,12,349"]);
  ("VGEG", ["9646,150,12,48.4,13,228.4"]);
  ("VGIS", ["4700,80,45,154,45,334"]);
  ("VGJR", ["8000,150,20,157.5,20,337.5"]);
  ("VGRJ", ["6000,100,55,170.1,55,350.1"]);
  ("VGSD", ["6000,100,125,159.6,125,339.6"]);
  ("VGSY", ["9478,150,50,113,50,293"]);
  ("VGTJ", ["9315,98,,164.4,,344.4"]);
  ("VGZR", ["10500,150,27,144,27,324"]);
  ("VHHH", ["12467,197,22,70.9,23,250.9"; "12467,197,28,70.9,27,250.9"]);
  ("VHHX", ["11122,200,15,134,15,314"]);
  ("VHSK", ["6180,110,25,111,65,291"]);
  ("VI20", ["3480,80,,89,,269"]);
  ("VI22", ["10000,4000"; "4000,4000"]);
  ("VI32", ["7000,600"]);
  ("VI40", ["3000,150,,133.5,,313.5"]);
  ("VI43", ["8990,148,,50.3,,230.3"]);
  ("VI57", ["10000,145,,107,,287"]);
  ("VI65", ["6004,106,,22,,202"]);
  ("VI66", ["9002,164,,137,,317"]);
  ("VI69", ["4567,135,,104,,284"]);
  ("VI70", ["3825,150,,110.3,,290.3"]);
  ("VI71", ["3068,78,,156,,336"]);
  ("VI73", ["3853,55,,47,,227"]);
  ("VI75", ["2880,80,,92.3,,272.3"]);
  ("VI76", ["4027,150,,84.3,,264.3"]);
  ("VI82", ["3285,75,,157.8,,337.8"]);
  ("VI88", ["4010,105,,160.5,,340.5"]);
  ("VI90", ["4260,75,,108.2,,288.2"]);
  ("VIAG", ["9000,148,549,45.8,550,225.8"; "5964,148,548,116.1,551,296.1"]);
  ("VIAL", ["4800,150,315,64,318,244"; "8110,150,318,119,322,299"]);
  ("VIAM", ["9224,150,,122,,302"; "7952,150,,122,,302"]);
  ("VIAR", ["10791,148,757,157.6,751,337.6"]);
  ("VIAW", ["10500,150,,124,,304"]);
  ("VIAX", ["9039,148,,133,,313"]);
  ("VIBK", ["8960,148,,45,,225"]);
  ("VIBL", ["8990,150,,92,,272"]);
  ("VIBN", ["7238,150,264,93,265,273"]);
  ("VIBR", ["3690,100,3573,158.8,3546,338.8"]);
  ("VIBT", ["9200,150,,130.7,,310.7"]);
  ("VIBW", ["3500,72,,119,,299"]);
  ("VIBY", ["9000,148,,112,,292"]);
  ("VICG", ["9001,168,,114.1,,294.1"]);
  ("VICX", ["9216,150,,88.9,,268.9"]);
  ("VIDD", ["4520,150,706,125,697,305"]);
  ("VIDF", ["4335,50,,142.5,,322.5"]);
  ("VIDN", ["3755,88,1772,79.7,1831,259.7"]);
  ("VIDP", ["9229,150,717,91.5,750,271.5"; "12500,150,719,104.6,777,284.6"; "14534,197,720,113,776,293"]);
  ("VIDX", ["9000,150,,90.3,,270.3"]);
  ("VIGG", ["4620,98,2525,147.5,2471,327.5"]);
  ("VIGR", ["9000,150,,60.8,,240.8"]);
  ("VIHR", ["4000,150,,120,,300"]);
  ("VIHX", ["8985,148,,131,,311"]);
  ("VIJN", ["3630,70,,146.3,,326.3"]);
  ("VIJO", ["9005,150,717,44.8,690,224.8"]);
  ("VIJP", ["9177,148,1262,84,1250,264"; "5223,148,,144.1,,324.1"]);
  ("VIJR", ["9000,150,,43,,223"]);
  ("VIJU", ["6755,150,,177,,357"]);
  ("VIKA", ["3685,135,411,102,409,282"]);
  ("VIKO", ["4078,150,892,76,892,256"]);
  ("VILD", ["4800,98,833,119,833,299"]);
  ("VILH", ["500,85,,59.2,,239.2"; "500,60,,71.8,,251.8"; "9040,150,,68.5,,248.5"]);
  ("VILK", ["8996,148,404,89,399,269"]);
  ("VIPK", ["8970,150,,9.2,,189.2"]);
  ("VIPL", ["3830,150,,149,,329"]);
  ("VIPT", ["3600,100,764,98,764,278"]);
  ("VIRB", ["5650,138,,90,,270"]);
  ("VISA", ["8987,140,,52.9,,232.9"]);
  ("VISM", ["4035,75,5072,146.1,5072,326.1"]);
  ("VISP", ["9000,150,,90,,270"]);
  ("VISR", ["12090,150,5427,136,5495,316"]);
  ("VIST", ["3476,95,,108,,288"]);
  ("VIUT", ["9002,150,,20.3,,200.3"]);
  ("VIUX", ["9000,148,,178.8,,358.8"]);
  ("VKX", ["2665,40"]);
  ("VLHS", ["4922,75,,156.2,,336.2"]);
  ("VLLB", ["7218,148,955,61.2,,241.2"]);
  ("VLPS", ["5332,118,351,147,351,327"]);
  ("VLPV", ["3090,65,,139.1,,319.1"]);
  ("VLSK", ["5358,125,,39.3,,219.3"]);
  ("VLSN", ["3715,80,,76.5,,256.5"]);
  ("VLVT", ["9843,148,563,135.3,563,315.3"]);
  ("VLXK", ["8555,130,,72,,252"]);
  ("VMI", ["3955,60,,158.8,,338.8"]);
  ("VMMC", ["10544,148,20,160.2,20,340.2"]);
  ("VN-0005", ["1970"]);
  ("VN-0010", ["6900,95,10,79,37,259"]);
  ("VNBW", ["4955,110,358,98.7,358,278.7"]);
  ("VNCG", ["3965,95,300,100.6,300,280.6"]);
  ("VNDG", ["2730,,2100,,2100"]);
  ("VNDH", ["5000,,690,,690"]);
  ("VNJP", ["3300,100,256,90,256,270"]);
  ("VNKT", ["10007,148,4313,21.6,4387,201.6"]);
  ("VNLK", ["1616,98,9767,60,9767,240"]);
  ("VNMN", ["2900,,650,,650"]);
  ("VNNG", ["4935,100,500,80.9,500,260.9"]);
  ("VNPK", ["4720,100,,39.1,,219.1"]);
  ("VNSI", ["3911,98,,11.9,,191.9"]);
  ("VNSK", ["3400,,2400,,2400"]);
  ("VNTR", ["4000,,1700,,1700"]);
  ("VNVT", ["4937,100,236,92.2,236,272.2"]);
  ("VO26", ["3967,50,,163.3,,343.3"]);
  ("VO52", ["4893,56,,59.5,,239.5"]);
  ("VO55", ["5260,95,,51,,231"]);
  ("VO80", ["4434,95,,101,,281"]);
  ("VO94", ["3445,98,,47,,227"]);
  ("VO95", ["7200,150,3051,88.7,2989,268.7"]);
  ("VOAR", ["13460,155,256,59,277,239"]);
  ("VOAT", ["4235,98,,35.4,,215.4"]);
  ("VOBG", ["10850,200,2874,85,2893,265"]);
  ("VOBI", ["3630,50,,123,,303"]);
  ("VOBL", ["13123,148,3001,92,2917,272"]);
  ("VOBR", ["6955,148,,18,,198"; "6798,150,,78.2,,258.2"]);
  ("VOBZ", ["7900,150,77,78.7,70,258.7"]);
  ("VOCB", ["8480,150,1323,46,1275,226"]);
  ("VOCC", ["4640,145,,129,,309"; "5960,145,,167,,347"]);
  ("VOCI", ["11155,148,28,87.9,30,267.9"]);
  ("VOCL", ["9383,150,312,101,325,281"]);
  ("VOCP", ["3600,49,,108.4,,288.4"]);
  ("VOCX", ["8914,140,,20,,200"]);
  ("VODG", ["8250,150,,99.4,,279.4"; "6800,150,,99.5,,279.5"]);
  ("VOHK", ["6873,148,,85,,265"]);
  ("VOHS", ["12162,148,1972,90,2028,270"; "13976,197,1969,90,2024,270"]);
  ("VOHY", ["10600,148,1741,88.8,1715,268.8"]);
  ("VOKP", ["6000"]);
  ("VOMD", ["5990,148,459,86.2,426,266.2"; "4603,148,454,126.5,446,306.5"]);
  ("VOML", [",,307,,308"; "5300,150,321,89.2,294,269.2"]);
  ("VOMM", ["12001,148,40,69,52,249"; "6708,148,30,117.6,43,297.6"]);
  ("VONS", ["5050,100,,87.9,,267.9"]);
  ("VOPB", ["10795,148,11,36,58,216"]);
  ("VOPC", ["3983,100,,68,,248"]);
  ("VOPN", ["7315,145,1541,93,1563,273"]);
  ("VORM", ["2385,150"]);
  ("VORY", ["5710,150,146,53.7,146,233.7"]);
  ("VOSM", ["5925,150,1008,34,1008,214"]);
  ("VOSX", ["8255,148,,48.9,,228.9"]);
  ("VOTJ", ["5680,150,251,66,244,246"; "4757,150,253,136,231,316"]);
  ("VOTP", ["7500,148,350,81,332,261"]);
  ("VOTR", ["6115,150,287,85.6,275,265.6"; "4776,150,275,149,280,329"]);
  ("VOTV", ["11148,150,14,136,14,316"]);
  ("VOTX", ["4965,150,,43.1,,223.1"; "5965,150,,119.2,,299.2"]);
  ("VOYK", ["7205,145,3021,90.6,3039,270.6"]);
  ("VQ10", ["4154,120,,123.7,,303.7"]);
  ("VQGP", ["4921,115,980,118.25,868,298.25"]);
  ("VQPR", ["6445,95,7355,151,7328,331"]);
  ("VRMG", ["12000,165,7,99,7,279"]);
  ("VRMH", ["4003,98,5,27,5,207"]);
  ("VRMK", ["4003,98,4,25.4,4,205.4"]);
  ("VRMM", ["10499,148,6,179.1,5,359.1"]);
  ("VRMT", ["4003,98,2,155.2,2,335.2"]);
  ("VT01", ["2000,50"]);
  ("VT03", ["1200,70"]);
  ("VT04", ["84,35"]);
  ("VT06", ["2500,50"]);
  ("VT08", ["90,90"]);
  ("VT09", ["2000,50"]);
  ("VT10", ["2200,200"]);
  ("VT11", ["3700,160"; "2600,200"]);
  ("VT12", ["1800,75"]);
  ("VT13", ["1126,100"]);
  ("VT14", ["1400,90"]);
  ("VT15", ["2500,90"]);
  ("VT16", ["195,125"]);
  ("VT17", ["1600,75"]);
  ("VT20", ["1750,75"]);
  ("VT22", ["1900,80"]);
  ("VT23", ["2500,100"]);
  ("VT25", ["1730,60"]);
  ("VT26", ["2000,40"]);
  ("VT28", ["85,85"]);
  ("VT29", ["1000,300"]);
  ("VT30", ["1050,150"]);
  ("VT31", ["1500,50"]);
  ("VT32", ["75,50"]);
  ("VT33", ["4000,90"]);
  ("VT34", ["1200,90"]);
  ("VT36", ["100,100"]);
  ("VT37", ["85,85"]);
  ("VT38", ["2200,100"]);
  ("VT39", ["2000,100"]);
  ("VT40", ["195,150"]);
  ("VT42", ["1700,150"]);
  ("VT43", ["2000,100"]);
  ("VT44", ["2000,50"]);
  ("VT45", ["1500,500"]);
  ("VT46", ["2000,80"]);
  ("VT47", ["1800,100"]);
  ("VT48", ["1100,50"]);
  ("VT50", ["400,400"]);
  ("VT51", ["90,90"]);
  ("VT52", ["2150,150"]);
  ("VT53", ["960,50"; "1400,50"]);
  ("VT55", ["1300,25"]);
  ("VT56", ["1000,60"]);
  ("VT57", ["3000,2000"]);
  ("VT58", ["3000,2000"]);
  ("VT59", ["1900,175"]);
  ("VT60", ["1125,75"]);
  ("VT61", ["97,97"]);
  ("VT62", ["1390,40"]);
  ("VT63", ["1200,60"]);
  ("VT64", ["1500,60"]);
  ("VT70", ["50,50"]);
  ("VT73", ["1700,50"]);
  ("VT8", ["2250,60"]);
  ("VT88", ["20,20"]);
  ("VT96", ["70,30"]);
  ("VTBD", ["12139,197,7,29,7,209"; "11483,148,7,29,8,209"]);
  ("VTBH", ["3300,98,,9,,189"; "3890,98,,58,,238"]);
  ("VTBI", ["3280,112,80,172.3,80,352.3"]);
  ("VTBK", ["9000,148,30,30,26,210"]);
  ("VTBL", ["4435,148,,46.8,,226.8"; "600,64,,96,,276"; "7252,148,,160.3,,340.3"]);
  ("VTBO", ["4950,150,,51.1,,231.1"]);
  ("VTBP", ["6562,131,10,77.6,10,257.6"; "3281,131,10,179,10,359"]);
  ("VTBS", ["12139,197,,14,,194"; "13123,197,,14,,194"]);
  ("VTBT", ["3031"]);
  ("VTBU", ["11500,197,59,185,25,5"]);
  ("VTBW", ["4922,115,,50,,230"]);
  ("VTCC", ["10171,148,1036,180.2,1007,0.2"]);
  ("VTCH", ["6562,98,865,107,929,287"]);
  ("VTCL", ["6465,95,789,175.4,811,355.4"]);
  ("VTCN", ["6562,148,679,20.7,682,200.7"]);
  ("VTCP", ["4921,98,538,6,535,186"]);
  ("VTCR", ["5065,103,,182,,2"]);
  ("VTCT", ["9843,148,1280,29,1275,209"]);
  ("VTPB", ["6890,148,450,180,449,360"]);
  ("VTPH", ["6890,115,62,159.7,17,339.7"]);
  ("VTPI", ["9843,148,107,181.3,65,1.3"]);
  ("VTPL", ["3281,98,,7.9,,187.9"]);
  ("VTPM", ["4921,98,690,89.1,676,269.1"]);
  ("VTPN", ["4481,98,,53.1,,233.1"]);
  ("VTPO", ["6890,148,179,181,179,1"]);
  ("VTPP", ["9843,148,145,144,145,324"]);
  ("VTPT", ["4921,98,469,90.3,478,270.3"]);
  ("VTPY", ["4899,98,,47.5,,227.5"]);
  ("VTSA", ["3609,131,,173.8,,353.8"]);
  ("VTSB", ["9843,148,20,44.2,18,224.2"]);
  ("VTSC", ["6562,148,18,23,18,203"]);
  ("VTSE", ["6890,148,18,60.1,18,240.1"]);
  ("VTSF", ["6890,148,13,6,13,186"]);
  ("VTSG", ["9842,148,82,140.6,77,320.6"]);
  ("VTSH", ["4954,148,,134.8,,314.8"]);
  ("VTSK", ["4593,131,7,86,8,266"]);
  ("VTSM", ["6759,148,43,174.5,56,354.5"]);
  ("VTSN", ["7546,148,,173,,353"]);
  ("VTSP", ["9843,148,19,84.5,82,264.5"]);
  ("VTSR", ["6562,148,36,23.8,57,203.8"]);
  ("VTSS", ["10007,148,65,83,58,263"]);
  ("VTST", ["6890,148,67,80.9,52,260.9"]);
  ("VTUD", ["10000,148,579,117,579,297"]);
  ("VTUI", ["8530,148,529,45,526,225"]);
  ("VTUJ", ["5053,115,478,7.5,478,187.5"]);
  ("VTUK", ["10007,148,601,32.9,670,212.9"]);
  ("VTUL", ["6890,148,817,16.8,860,196.8"]);
  ("VTUN", ["9843,148,729,62.1,686,242.1"]);
  ("VTUO", ["6890,148,590,35.1,561,215.1"]);
  ("VTUQ", ["6890,148,765,61.3,740,241.3"]);
  ("VTUR", ["3125,98,459,166.6,459,346.6"]);
  ("VTUU", ["9848,148,406,51.5,392,231.5"]);
  ("VTUV", ["6890,148,451,182.5,451,2.5"]);
  ("VTUW", ["8203,148,587,144.8,555,324.8"]);
  ("VTUZ", ["10359,148,,7,,187"]);
  ("VV01", ["10535,150,,128.7,,308.7"]);
  ("VV02", ["10020,155,59,88.3,79,268.3"; "10007,156,59,86.3,79,266.3"]);
  ("VV03", ["8200,131,,46.8,,226.8"]);
  ("VVBM", ["9843,148,1712,90.9,1729,270.9"]);
  ("VVCA", ["10300,150,,134.9,,314.9"]);
  ("VVCI", ["7880,164,13,72.3,13,252.3"]);
  ("VVCR", ["10000,150,,18.8,,198.8"]);
  ("VVCS", ["6046,100,18,110.6,20,290.6"]);
  ("VVCT", ["7886,100,,60,,240"]);
  ("VVDB", ["6003,100,,156.2,,336.2"]);
  ("VVDN", ["10000,148,30,172,36,352"; "10000,148,26,172,28,352"]);
  ("VVGL", ["6571,100,,23.9,,203.9"]);
  ("VVKP", ["7230,150,,67.3,,247.3"]);
  ("VVNB", ["12466,148,40,107,40,287"; "12466,148,38,107.1,39,287.1"]);
  ("VVNS", ["7874,,2195,,2195"]);
  ("VVNT", ["6400,148,20,119.5,20,299.5"]);
  ("VVPB", ["8775,130,,93.1,13,273.1"]);
  ("VVPC", ["10010,148,102,146.7,102,326.7"]);
  ("VVPK", ["5960,115,2434,91,2434,271"]);
  ("VVPQ", ["9843,150,,96,,276"]);
  ("VVPR", ["9990,148,,46.7,,226.7"]);
  ("VVRG", ["4921"]);
  ("VVTH", ["2770,90,,31.6,,211.6"; "9520,150,,29.8,,209.8"; "9300,150,,29.9,,209.9"]);
  ("VVTS", ["10000,148,24,69.1,32,249.1"; "12468,148,24,69,32,249"]);
  ("VVVH", ["7875,148,14,172.6,17,352.6"]);
  ("VY02", ["8500,98,,9.2,,189.2"]);
  ("VYAN", ["8500,100,,181.9,,1.9"]);
  ("VYAS", ["10020,205,,25,,205"]);
  ("VYBG", ["8500,100,,180,,360"]);
  ("VYBM", ["5502,102,,148.1,,328.1"]);
  ("VYBP", ["10024,102,,166,,346"]);
  ("VYCI", ["4443,101,,10,,190"]);
  ("VYCZ", ["6500,100,243,8.1,243,188.1"]);
  ("VYDW", ["7005,100,84,157,84,337"]);
  ("VYEL", ["12000,500,,157.1,,337.1"]);
  ("VYHH", ["8500,100,3858,180,3858,360"]);
  ("VYHL", ["11970,200,,160.6,,340.6"]);
  ("VYKG", ["7815,75,,120.9,,300.9"]);
  ("VYKL", ["5502,102,,93,,273"]);
  ("VYKP", ["4600,100,,179.9,,359.9"]);
  ("VYKT", ["6000,150,,17.8,,197.8"]);
  ("VYLK", ["5200,75,,4,,184"]);
  ("VYLS", ["5285,95,,4.4,,184.4"]);
  ("VYLY", ["3821,61,,182.7,,2.7"]);
  ("VYMD", ["14003,200,300,170.5,300,350.5"]);
  ("VYME", ["8795,180,75,182.5,75,2.5"]);
  ("VYMK", ["6100,100,,38.2,,218.2"]);
  ("VYMM", ["5260,150,150,35,115,215"]);
  ("VYMO", ["4498,102,,115.9,,295.9"]);
  ("VYMS", ["5000,102,,123,,303"]);
  ("VYNP", ["11025,190,,180,,360"]);
  ("VYNS", ["12005,200,,27,,207"]);
  ("VYPA", ["4502,102,,31,,211"]);
  ("VYPN", ["4400,100,,64,,244"]);
  ("VYPT", ["7002,102,,174.1,,354.1"]);
  ("VYPY", ["4502,131,,65,,245"]);
  ("VYST", ["8501,150,,6.6,,186.6"]);
  ("VYSW", ["6001,151,21,104,28,284"]);
  ("VYTD", ["5502,102,,20,,200"]);
  ("VYTL", ["7002,102,1280,37.6,1272,217.6"]);
  ("VYTO", ["12005,200,160,180.2,160,0.2"]);
  ("VYXG", ["6560,102,,40,,220"]);
  ("VYYY", ["11200,200,109,33.1,65,213.1"]);
  ("W00", ["2420,40,168,170,152,350"]);
  ("W04", ["2700,50"]);
  ("W07", ["3100,45"]);
  ("W09", ["3300,50"]);
  ("W10", ["2470,25"]);
  ("W12", ["3150,85"]);
  ("W13", ["2009,50"]);
  ("W16", ["2087,34,,92,,272"]);
  ("W18", ["2324,40,127,23,148,203"]);
  ("W19", ["2190,90,960,,960"; "1950,85,960,,960"]);
  ("W20", ["2513,50,1205,,1205"]);
  ("W23", ["2990,100,908,,900"; "1695,100,901,,904"]);
  ("W24", ["2932,50,938,,801"]);
  ("W27", ["1953,25,,156,,336"]);
  ("W29", ["2903,60,5,103,15,283"]);
  ("W33", ["10000,2000"; "6000,1000"]);
  ("W34", ["1415,110,770,,770"; "2340,110,770,,770"]);
  ("W36", ["5000,200"]);
  ("W37", ["5500,500"]);
  ("W39", ["5000,1000"; "2500,500"]);
  ("W42", ["2200,50"]);
  ("W48", ["2084,30"; "3000,300"]);
  ("W49", ["2500,1000"; "10000,1000"]);
  ("W50", ["2005,25"]);
  ("W52", ["1500,48"; "2565,50,292,,292"]);
  ("W55", ["5000,500"]);
  ("W56", ["2434,50"]);
  ("W57", ["2028,76"; "4000,600"]);
  ("W58", ["1960,50"]);
  ("W73", ["2700,50"]);
  ("W75", ["2270,45,30,356,23,176"]);
  ("W87", ["1920,60,610,,610"; "2575,60,610,,610"]);
  ("W88", ["2460,65"]);
  ("WA00", ["2200,40"]);
  ("WA01", ["3000,40"]);
  ("WA02", ["50,30"]);
  ("WA03", ["45,45"]);
  ("WA04", ["1800,30"]);
  ("WA05", ["2500,28"]);
  ("WA06", ["114,93"]);
  ("WA07", ["1950,120"]);
  ("WA08", ["2600,45"]);
  ("WA09", ["4300,35,,79,,259"; "3593,30"]);
  ("WA10", ["4600,100"]);
  ("WA11", ["50,30"]);
  ("WA12", ["1400,75"]);
  ("WA13", ["1000,100"]);
  ("WA14", ["3070,50,,90,,270"]);
  ("WA15", ["2600,18"]);
  ("WA16", ["1000,60"]);
  ("WA17", ["1000,70"]);
  ("WA18", ["1500,50"]);
  ("WA19", ["3009,98,,126,,306"; "60,60"]);
  ("WA1B", ["5165,95,,143.3,,323.3"]);
  ("WA20", ["2400,30"]);
  ("WA21", ["2000,50"]);
  ("WA22", ["600,100"; "800,60"]);
  ("WA23", ["3500,50"; "5757,62,,91,,271"]);
  ("WA24", ["3400,50,,26.9,,206.9"]);
  ("WA25", ["1470,250"]);
  ("WA26", ["2650,100"]);
  ("WA27", ["80,80"]);
  ("WA28", ["60,60"]);
  ("WA29", ["1700,60"]);
  ("WA30", ["3690,50"; "2400,30"]);
  ("WA31", ["30,30"]);
  ("WA32", ["100,100"]);
  ("WA33", ["36,36"]);
  ("WA34", ["40,40"]);
  ("WA35", ["1200,45"]);
  ("WA37", ["800,40"]);
  ("WA38", ["40,40"]);
  ("WA39", ["2400,95"]);
  ("WA40", ["40,40"]);
  ("WA41", ["2300,100"]);
  ("WA42", ["1200,50"]);
  ("WA43", ["60,60"]);
  ("WA44", ["3078,100,,132,,312"]);
  ("WA45", ["2500,120"]);
  ("WA46", ["2200,60"]);
  ("WA47", ["2000,75"]);
  ("WA49", ["2500,150"]);
  ("WA50", ["36,36"]);
  ("WA51", ["40,40"]);
  ("WA52", ["1800,75"]);
  ("WA53", ["80,80"]);
  ("WA54", ["35,35"]);
  ("WA55", ["40,40"]);
  ("WA56", ["1900,50"]);
  ("WA57", ["1300,40"]);
  ("WA58", ["1500,100"]);
  ("WA59", ["1600,24"]);
  ("WA60", ["75,75"]);
  ("WA61", ["2000,100"]);
  ("WA62", ["2700,60"]);
  ("WA63", ["1200,50"]);
  ("WA65", ["90,45"]);
  ("WA66", ["1550,38"]);
  ("WA67", ["2000,35"]);
  ("WA68", ["2400,70"]);
  ("WA69", ["2050,120"]);
  ("WA70", ["1200,230"]);
  ("WA71", ["300,150"]);
  ("WA72", ["2600,75"]);
  ("WA73", ["900,50"]);
  ("WA74", ["2750,60"]);
  ("WA75", ["12,12"]);
  ("WA76", ["3600,30,,88,,268"]);
  ("WA77", ["1800,25"]);
  ("WA78", ["1800,118"]);
  ("WA79", ["2000,60"]);
  ("WA80", ["1300,40"]);
  ("WA81", ["4000,200"; "2500,200"]);
  ("WA82", ["45,40"]);
  ("WA83", ["4000,500"; "5000,500"]);
  ("WA84", ["2650,75"]);
  ("WA85", ["75,75"]);
  ("WA86", ["75,75"]);
  ("WA87", ["2100,25"]);
  ("WA88", ["2200,45"]);
  ("WA89", ["46,76"]);
  ("WA90", ["1200,200"]);
  ("WA91", ["50,12"]);
  ("WA92", ["100,100"]);
  ("WA94", ["70,60"]);
  ("WA95", ["1800,100"]);
  ("WA96", ["2400,80"]);
  ("WA97", ["2600,120"]);
  ("WA98", ["3020,72,,153,,333"; "110,100"]);
  ("WA99", ["1600,100"]);
  ("WAAA", [",,,29,,209"; "8202,148,44,130.5,36,310.5"]);
  ("WAAL", [",,505,67,505,247"]);
  ("WAAT", ["3500,,2711,123,2711,303"]);
  ("WABB", ["11715,150,36,109.4,25,289.4"]);
  ("WABC", ["1804,66"]);
  ("WABI", ["4593,98,20,160.9,20,340.9"]);
  ("WABL", ["1968,59"]);
  ("WABN", ["1969,59"]);
  ("WABO", ["2133,66"]);
  ("WABP", ["7841,148,103,121.9,103,301.9"]);
  ("WABT", ["3585,,5092,,5092"]);
  ("WABW", ["1541,148"]);
  ("WABY", ["2440,98"]);
  ("WADA", ["6853,131,52,90.2,48,270.2"]);
  ("WADB", ["5405,98,3,138,3,318"]);
  ("WADD", ["9790,148,11,88,12,268"]);
  ("WADL", ["9000"]);
  ("WADS", ["4754,98,16,140.5,16,320.5"]);
  ("WADT", ["5905,98,,99.4,,279.4"]);
  ("WADW", ["5415,98,33,151.4,33,331.4"]);
  ("WAJB", ["2798,75"]);
  ("WAJI", ["2451,72,12,135.8,7,315.8"]);
  ("WAJJ", ["7161,148,292,126.5,289,306.5"]);
  ("WAJK", ["1448,59"]);
  ("WAJL", ["2016,62"]);
  ("WAJM", ["2615,89"]);
  ("WAJU", ["1595,66"]);
  ("WAJW", ["5436,98,,152.7,,332.7"]);
  ("WAKK", ["6070,98,10,160.4,10,340.4"]);
  ("WAKO", ["1968,59"]);
  ("WAKP", ["2005,79"]);
  ("WALE", ["2953,75"]);
  ("WALG", ["3773,75,,29,,209"]);
  ("WALJ", ["2461,59"]);
  ("WALK", ["4625,75,,13.8,,193.8"]);
  ("WALL", ["8185,148,12,67.1,12,247.1"]);
  ("WALQ", ["3937,98,,10.2,,190.2"]);
  ("WALR", ["7382,147,23,56,24,236"]);
  ("WALS", ["3806,79,33,33.5,33,213.5"]);
  ("WALT", ["4501,98,,78.9,,258.9"]);
  ("WALV", ["3281,98,,38.1,,218.1"]);
  ("WALX", ["5690,145,47,69.4,47,249.4"]);
  ("WAMA", ["2460,75"]);
  ("WAMB", ["2133,59"]);
  ("WAMG", ["7407,100,89,97,90,277"]);
  ("WAMH", ["3597,98,,150.4,,330.4"]);
  ("WAMJ", ["2953,75"]);
  ("WAMK", ["2963,75"]);
  ("WAML", ["6781,98,308,155.6,292,335.6"]);
  ("WAMM", ["8693,148,270,181.9,264,1.9"]);
  ("WAMP", ["3650,75,,33,,213"]);
  ("WAMR", ["7880,95,,89,,269"]);
  ("WAMT", ["5875,98,49,141,49,321"]);
  ("WAMW", ["4258,100,60,35,60,215"]);
  ("WAMY", ["2461,69"]);
  ("WAOC", ["5930,98,,91,,271"]);
  ("WAOH", ["4100,75,,117.3,,297.3"]);
  ("WAOI", ["5415,98,79,132.6,79,312.6"]);
  ("WAOM", ["2953,95"]);
  ("WAON", ["4601,94,197,60.1,197,240.1"]);
  ("WAOO", ["8202,148,66,100.4,66,280.4"]);
  ("WAOP", ["6890,98,82,159.2,82,339.2"]);
  ("WAOS", ["6060,98,,133,,313"]);
  ("WAOT", ["1660,82"]);
  ("WAPA", ["2460,75"]);
  ("WAPD", ["2625,75"]);
  ("WAPG", ["2953,75"]);
  ("WAPH", ["4300,75"]);
  ("WAPI", ["2953,75,196,128.95,204,308.95"]);
  ("WAPK", ["4265,59,,41,,221"]);
  ("WAPL", ["4265,98,,92.3,,272.3"]);
  ("WAPO", ["2645,75"]);
  ("WAPP", ["8202,148,31,45.1,33,225.1"]);
  ("WAPQ", ["2789,75,93,109,93,289"]);
  ("WAPR", ["2460,75"]);
  ("WAPV", ["2461,59"]);
  ("WARA", ["6464,131,,166.4,,346.4"; "4921,98,,166.3,,346.3"]);
  ("WARC", ["2953,98"]);
  ("WARI", ["8448,92,,175.9,,355.9"; "10030,186,,175.8,,355.8"]);
  ("WARJ", ["7215,148,350,87.8,350,267.8"; "4385,265,350,88.1,350,268.1"]);
  ("WARQ", ["8530,148,421,77.6,380,257.6"]);
  ("WARR", ["9843,148,11,99.3,8,279.3"]);
  ("WARS", ["6070,148,10,130.2,10,310.2"]);
  ("WART", ["3816,75,18,125.5,8,305.5"]);
  ("WASB", ["1969,59"]);
  ("WASC", ["3445,98"]);
  ("WASF", ["3415,65,,97,,277"]);
  ("WASI", ["1969,75"]);
  ("WASK", ["5249,98,,11,,191"]);
  ("WASO", ["4280,98,,23,,203"]);
  ("WASR", ["6576,95,15,178.3,15,358.3"]);
  ("WASS", ["5414,98,10,40,10,220"]);
  ("WAST", ["1929,49"]);
  ("WASW", ["1755,98"]);
  ("WATB", ["4588,75"]);
  ("WATC", ["5980,98,105,51.1,115,231.1"]);
  ("WATE", ["5440,98,,88.9,,268.9"]);
  ("WATG", ["4186,100,,94.5,,274.5"]);
  ("WATM", ["4586,90,,33,,213"]);
  ("WATO", ["4570,95,,172,,352"]);
  ("WATT", ["8202,148,335,76,335,256"; "4175,210,,125.2,,305.2"]);
  ("WAWB", ["3445,75,,40.8,,220.8"]);
  ("WAWM", ["3133,82,164,18.8,164,198.8"]);
  ("WAWS", ["3340,75,1388,124.5,1388,304.5"]);
  ("WAWT", ["3440,70,,125,,305"]);
  ("WAWW", ["6890,98,164,79.6,120,259.6"]);
  ("WAXX", ["6070,90,,94,,274"]);
  ("WBB", ["3000,60,12,64,10,244"]);
  ("WBC", ["2625"]);
  ("WBGB", ["9006,147,34,167.8,74,347.8"]);
  ("WBGG", ["8051,151,88,68,75,248"]);
  ("WBGJ", ["4922,98,14,36.8,12,216.8"]);
  ("WBGM", ["3274,81,,103,,283"]);
  ("WBGP", ["1401"]);
  ("WBGR", ["9006,197,59,25,58,205"]);
  ("WBGS", ["9036,148,92,130.3,116,310.3"]);
  ("WBGT", ["4912,98,,48.5,,228.5"]);
  ("WBKD", ["4498,98,45,115.8,45,295.8"]);
  ("WBKK", ["9800,150,10,23,10,203"]);
  ("WBKL", ["7546,148,101,145.6,101,325.6"]);
  ("WBKS", ["7000,151,40,81,20,261"]);
  ("WBKW", ["8800,155,57,58.2,40,238.2"]);
  ("WBMU", ["4921,100,90,35,98,215"]);
  ("WBSB", ["12000,150,20,31.1,72,211.1"]);
  ("WEA", ["2889,40"]);
  ("WI00", ["1900,80"]);
  ("WI01", ["50,50"]);
  ("WI02", ["1800,90"]);
  ("WI03", ["2000,100"; "1300,80"]);
  ("WI05", ["1050,18"]);
  ("WI06", ["60,60"]);
  ("WI07", ["3075,150,,90,,270"; "3400,35,,177.6,,357.6"]);
  ("WI08", ["40,40"]);
  ("WI09", ["1700,70,,180,,360"]);
  ("WI10", ["3800,150"; "1400,150"]);
  ("WI11", ["1500,100"]);
  ("WI12", ["2000,50,,178.5,,358.5"]);
  ("WI13", ["1300,60"]);
  ("WI14", ["1950,120"]);
  ("WI15", ["40,40"]);
  ("WI16", ["1800,75"]);
  ("WI18", ["2100,100"]);
  ("WI19", ["1850,75"]);
  ("WI1A", ["4549,94,,72.3,,252.3"]);
  ("WI1B", ["5420,65,,114.4,,294.4"]);
  ("WI1C", ["3360,52,,141.6,,321.6"]);
  ("WI1G", ["3965,145,,97,,277"]);
  ("WI1S", ["3837,100,,89.8,,269.8"]);
  ("WI20", ["1650,100"]);
  ("WI21", ["2620,96"]);
  ("WI22", ["1850,60,,90.3,,270.3"; "2000,60,,105.5,,285.5"]);
  ("WI23", ["2010,80"]);
  ("WI24", ["1370,75,,31.2,,211.2"]);
  ("WI25", ["2790,50"]);
  ("WI26", ["2780,65"]);
  ("WI27", ["1900,65"]);
  ("WI28", ["1750,48"]);
  ("WI29", ["2600,75"]);
  ("WI30", ["60,60"]);
  ("WI31", ["5300,75,1207,178.5,1200,358.5"]);
  ("WI32", ["2000,100,,9.8,,189.8"]);
  ("WI33", ["2076,100,1056,,1056"]);
  ("WI34", ["60,60"]);
  ("WI35", ["12000,5500"]);
  ("WI36", ["2700,75"]);
  ("WI37", ["3300,90"]);
  ("WI38", ["30,30"]);
  ("WI39", ["60,60"]);
  ("WI40", ["2100,75"]);
  ("WI41", ["70,70"]);
  ("WI42", ["2200,80"; "3000,100"]);
  ("WI43", ["2400,50"]);
  ("WI44", ["39,39"]);
  ("WI45", ["30,30"]);
  ("WI46", ["1400,60,1464,,1486"]);
  ("WI47", ["2200,100"]);
  ("WI49", ["1900,75"]);
  ("WI50", ["2000,100"]);
  ("WI51", ["2400,60"]);
  ("WI52", ["2500,75"]);
  ("WI53", ["2000,60"]);
  ("WI54", ["2000,50"]);
  ("WI55", ["1300,60"]);
  ("WI56", ["2000,75"]);
  ("WI57", ["30,30"]);
  ("WI58", ["1500,100"; "1200,100"; "2000,100"]);
  ("WI59", ["300,200"]);
  ("WI60", ["1500,70"; "3000,60"]);
  ("WI61", ["1900,75"]);
  ("WI62", ["1100,50"]);
  ("WI63", ["30,30"]);
  ("WI64", ["60,60"]);
  ("WI65", ["1400,50"]);
  ("WI66", ["2000,70"]);
  ("WI67", ["2500,100"]);
  ("WI68", ["12,12"]);
  ("WI69", ["1750,50"]);
  ("WI70", ["2800,50"; "2200,30"]);
  ("WI71", ["1350,40"]);
  ("WI72", ["1550,100"]);
  ("WI73", ["1200,75"]);
  ("WI75", ["1600,120"]);
  ("WI76", ["1700,50"]);
  ("WI77", ["1200,160"]);
  ("WI78", ["2000,100"]);
  ("WI79", ["2200,60"]);
  ("WI80", ["300,90"; "114,54"]);
  ("WI81", ["1000,100"]);
  ("WI82", ["46,46"]);
  ("WI83", ["50,50"]);
  ("WI84", ["2800,100"]);
  ("WI85", ["100,60"]);
  ("WI86", ["1600,50"]);
  ("WI87", ["1550,80"]);
  ("WI88", ["2800,100"]);
  ("WI89", ["2300,40"]);
  ("WI91", ["2300,100"]);
  ("WI92", ["2100,50"; "3100,70"]);
  ("WI93", ["108,79"]);
  ("WI94", ["100,100"]);
  ("WI95", ["2000,75"]);
  ("WI96", ["40,40"]);
  ("WI97", ["2800,65"]);
  ("WI98", ["1350,85"]);
  ("WI99", ["1400,75"]);
  ("WIAJ", [""]);
  ("WIAK", [""]);
  ("WIAT", ["8202,98,263,139.6,263,319.6"]);
  ("WIBB", ["7360,98,90,182,87,2"]);
  ("WIBD", ["5905,98,,29.8,,209.8"]);
  ("WIBS", ["2626,98"]);
  ("WIBT", ["2953,75"]);
  ("WICB", ["3600,40,,43.8,,223.8"; "5255,150,,43.6,,223.6"; "5975,100,151,119.6,151,299.6"]);
  ("WICC", ["7361,148,2430,109,2430,289"]);
  ("WICD", ["4131,98,,40.8,,220.8"]);
  ("WICM", ["3590,64,,147.7,,327.7"]);
  ("WIDD", ["13270,148,125,42,69,222"]);
  ("WIDE", ["4240,98,,181.1,,1.1"]);
  ("WIDN", ["7380,98,37,43.2,56,223.2"]);
  ("WIDS", ["3839,98,95,143.3,95,323.3"]);
  ("WIHH", ["9843,148,79,65.5,84,245.5"]);
  ("WIHL", ["4570,96,70,132.8,70,312.8"]);
  ("WIHP", ["6516,146,,184,,4"]);
  ("WIII", ["11812,197,29,68.3,21,248.3"; "12008,197,34,68.3,27,248.3"]);
  ("WIIK", [""]);
  ("WIKL", ["4428,99"]);
  ("WIMB", ["4445,98,,92.3,,272.3"]);
  ("WIME", ["4580,75,,113,,293"]);
  ("WIMG", ["7040,148,9,160.1,9,340.1"]);
  ("WIMK", ["9514,148,90,46.7,84,226.7"]);
  ("WIMM", ["12303"]);
  ("WIMN", ["7875,98,4735,93,4630,273"]);
  ("WIMS", ["5655,98,,124.2,,304.2"]);
  ("WIOD", ["6065,98,164,176.2,134,356.2"]);
  ("WIOG", ["3272,75,,99.4,,279.4"]);
  ("WIOI", ["2953,75"]);
  ("WIOK", ["4585,95,,171.7,,351.7"]);
  ("WIOM", ["3905,98,,180.2,,0.2"]);
  ("WION", ["8410,105,,182.2,,2.2"]);
  ("WIOO", ["7380,98,3,157.7,10,337.7"]);
  ("WIOP", ["3294,75,,106,,286"]);
  ("WIOS", ["4256,98,102,81.8,102,261.8"]);
  ("WIPA", ["6562,98,82,129.7,85,309.7"]);
  ("WIPD", ["3302,72,,151.7,,331.7"]);
  ("WIPI", ["4430"]);
  ("WIPK", ["6550,98,109,165,92,345"]);
  ("WIPL", ["7345,98,50,133.4,50,313.4"]);
  ("WIPO", ["6890,125,,29,,209"]);
  ("WIPP", ["8202,148,49,113,39,293"]);
  ("WIPQ", ["4265,66,,32.2,,212.2"]);
  ("WIPR", ["4265,98,61,99,61,279"]);
  ("WIPT", ["9020,148,18,155,16,335"]);
  ("WITA", ["4170,75"]);
  ("WITB", ["6050,98,,97.4,,277.4"]);
  ("WITL", ["3675,69,,154.7,,334.7"]);
  ("WITM", ["6070,98,,62,,242"]);
  ("WITT", ["9843,148,57,168.3,65,348.3"]);
  ("WMAP", ["4101,121,,49,,229"]);
  ("WMBT", ["3255,100,13,26,13,206"]);
  ("WMGK", ["6600,150,19,82,19,262"]);
  ("WMKA", ["9005,151,13,42.5,15,222.5"]);
  ("WMKB", ["8000,150,8,184,8,4"]);
  ("WMKC", ["6982,150,15,99.7,14,279.7"]);
  ("WMKD", ["9200,150,57,183,58,3"]);
  ("WMKE", ["4446,98,18,163,18,343"]);
  ("WMKF", ["517,97,,34.9,,214.9"; "6205,148,110,35.1,111,215.1"]);
  ("WMKI", ["5900,121,130,41.4,102,221.4"]);
  ("WMKJ", ["12467,150,135,160,122,340"]);
  ("WMKK", ["13530,197,55,145.9,70,325.9"; "13288,197,54,146,48,326"; "12993,197,27,146,27,326"]);
  ("WMKL", ["12500,148,21,34,29,214"]);
  ("WMKM", ["7005,148,18,30.07,35,210.07"]);
  ("WMKN", ["6600,150,19,44.6,21,224.6"]);
  ("WMKP", ["10997,150,10,42.2,11,222.2"]);
  ("WMSA", ["12401,148,70,149.7,89,329.7"]);
  ("WN00", ["1300,40"]);
  ("WN01", ["56,56"]);
  ("WN02", ["60,60"]);
  ("WN03", ["2500,100"]);
  ("WN05", ["2100,50"]);
  ("WN06", ["90,90"]);
  ("WN07", ["2550,75"]);
  ("WN08", ["1300,40"]);
  ("WN09", ["1650,90,,178,,358"]);
  ("WN10", ["2600,100"]);
  ("WN11", ["2640,100"; "1900,80"]);
  ("WN12", ["300,100"]);
  ("WN13", ["1850,50"]);
  ("WN14", ["1330,75"]);
  ("WN15", ["2500,110"]);
  ("WN16", ["65,65"]);
  ("WN17", ["1350,50"]);
  ("WN18", ["1700,75"]);
  ("WN19", ["6000,500"]);
  ("WN2", ["5000,200"]);
  ("WN20", ["1350,20"]);
  ("WN21", ["2400,70"]);
  ("WN22", ["16,16"]);
  ("WN23", ["1700,60"]);
  ("WN24", ["1200,100"]);
  ("WN25", ["30,30"]);
  ("WN26", ["2200,40"; "1600,25"]);
  ("WN28", ["1250,100"]);
  ("WN29", ["2360,60"]);
  ("WN30", ["2300,50"]);
  ("WN31", ["1900,24"]);
  ("WN32", ["100,100"]);
  ("WN33", ["1800,50"]);
  ("WN34", ["1380,50"]);
  ("WN35", ["2000,80"]);
  ("WN36", ["2250,65"]);
  ("WN37", ["100,100"]);
  ("WN38", ["20,20"]);
  ("WN39", ["2300,100"; "1700,75"]);
  ("WN40", ["2500,80"]);
  ("WN41", ["2500,50"]);
  ("WN42", ["2400,75"]);
  ("WN43", ["28,28"]);
  ("WN44", ["2200,80"]);
  ("WN45", ["2000,30"]);
  ("WN46", ["2200,60"]);
  ("WN47", ["2600,80"]);
  ("WN48", ["1935,60"]);
  ("WN49", ["3000,75"]);
  ("WN50", ["40,40"]);
  ("WN51", ["2000,120"]);
  ("WN52", ["100,100"]);
  ("WN53", ["3800,30,,171,,351"])].

(* ADRpy/data/runways.csv *)
Definition airports_32 : list (string * list string) := [
  ("WN54", ["3800,60,,28,,208"]);
  ("WN55", ["2400,32"]);
  ("WN56", ["50,50"]);
  ("WN57", ["40,40"]);
  ("WN58", ["100,100"]);
  ("WN59", ["1850,25"]);
  ("WN60", ["500,60"]);
  ("WN61", ["900,15"]);
  ("WN62", ["50,50"]);
  ("WN63", ["1500,100"]);
  ("WN64", ["2500,60"]);
  ("WN65", ["1400,60"]);
  ("WN66", ["7250,2500"]);
  ("WN67", ["46,46"]);
  ("WN68", ["60,60"]);
  ("WN69", ["60,10"]);
  ("WN70", ["50,50"; "200,200"]);
  ("WN71", ["50,50"]);
  ("WN72", ["1700,28"]);
  ("WN73", ["72,72"]);
  ("WN74", ["2000,30"]);
  ("WN75", ["1200,75"]);
  ("WN76", ["2100,60"]);
  ("WN77", ["60,60"]);
  ("WN79", ["18,16"]);
  ("WN80", ["500,100"]);
  ("WN81", ["100,100"]);
  ("WN82", ["50,50"]);
  ("WN83", ["30,30"]);
  ("WN84", ["200,200"]);
  ("WN85", ["2000,70"]);
  ("WN86", ["3800,60"]);
  ("WN87", ["1000,60"]);
  ("WN88", ["2700,150"]);
  ("WN89", ["1400,60"]);
  ("WN90", ["1800,250"; "4500,150"]);
  ("WN91", ["50,50"]);
  ("WN92", ["3300,100"]);
  ("WN93", ["40,30"]);
  ("WN94", ["70,45"]);
  ("WN95", ["2400,80"]);
  ("WN96", ["12,10"]);
  ("WN97", ["60,60"]);
  ("WN98", ["3000,60"]);
  ("WN99", ["1000,60"]);
  ("WNU", ["1525"]);
  ("WPDB", ["3448,98,96,167.4,53,347.4"]);
  ("WPDL", ["6065,98,17,77.2,25,257.2"]);
  ("WPEC", ["8233,182,1692,142,1777,322"]);
  ("WPFL", ["1969,39"]);
  ("WPOC", ["3609,85"]);
  ("WRKA", ["3937,98"]);
  ("WRKL", ["2953,75"]);
  ("WRKS", ["2577,75"]);
  ("WRLA", ["2585,75"]);
  ("WRLB", ["2953,75"]);
  ("WRLC", ["3350,75,62,39.3,42,219.3"]);
  ("WRLF", ["3609,75"]);
  ("WRLN", ["1444,49"]);
  ("WRLP", ["2620,75"]);
  ("WRLW", ["2297,66"]);
  ("WRLY", ["2461,66,34,34,35,214"]);
  ("WS01", ["7800,175"]);
  ("WS02", ["2020,50"]);
  ("WS03", ["20,20"]);
  ("WS04", ["2000,75"]);
  ("WS05", ["1820,60"]);
  ("WS06", ["2000,60"]);
  ("WS07", ["160,150"]);
  ("WS09", ["2200,100"]);
  ("WS10", ["2000,50"]);
  ("WS11", ["2050,25"]);
  ("WS12", ["1978,50"]);
  ("WS13", ["2100,200"; "10000,200"; "1000,150"; "3000,200"]);
  ("WS14", ["1200,50"; "1000,40"]);
  ("WS15", ["2000,150"]);
  ("WS16", ["2525,60"]);
  ("WS17", ["2200,80"]);
  ("WS18", ["60,60"]);
  ("WS19", ["2000,90"]);
  ("WS20", ["4100,60,905,108.8,918,288.8"]);
  ("WS21", ["65,60"]);
  ("WS22", ["1700,60"]);
  ("WS23", ["1500,60,,120,,300"]);
  ("WS24", ["5000,500"; "5000,500"]);
  ("WS25", ["2400,100"]);
  ("WS26", ["1300,30"]);
  ("WS27", ["100,100"]);
  ("WS28", ["1700,100"]);
  ("WS29", ["2200,75"]);
  ("WS30", ["702,70"]);
  ("WS32", ["1900,70"]);
  ("WS33", ["2000,50"]);
  ("WS34", ["60,60"]);
  ("WS35", ["40,40"]);
  ("WS36", ["1900,50"]);
  ("WS37", ["100,100"]);
  ("WS38", ["62,60"]);
  ("WS39", ["2722,70"]);
  ("WS40", ["50,50"]);
  ("WS41", ["1500,30"]);
  ("WS42", ["2600,100"]);
  ("WS43", ["2800,50,,80,,260"]);
  ("WS45", ["1900,60"]);
  ("WS46", ["2000,80"]);
  ("WS47", ["50,50"]);
  ("WS48", ["44,44"]);
  ("WS49", ["1927,85"]);
  ("WS50", ["40,40"]);
  ("WS51", ["3800,72,1068,109,1068,289"]);
  ("WS52", ["100,100"]);
  ("WS53", ["50,50"; "50,50"]);
  ("WS54", ["25,25"]);
  ("WS55", ["2650,100"]);
  ("WS56", ["30,30"]);
  ("WS57", ["100,100"]);
  ("WS58", ["300,300"]);
  ("WS59", ["60,60"]);
  ("WS61", ["160,100"]);
  ("WS62", ["1600,90"]);
  ("WS63", ["60,60"]);
  ("WS64", ["5600,500"]);
  ("WS65", ["66,66"]);
  ("WS66", ["50,50"]);
  ("WS67", ["2000,80"]);
  ("WS68", ["1950,60"]);
  ("WS69", ["1300,75"; "2500,60"]);
  ("WS70", ["60,60"]);
  ("WS71", ["2600,70"]);
  ("WS72", ["1850,70"]);
  ("WS73", ["75,75"]);
  ("WS74", ["1550,50"]);
  ("WS75", ["40,40"]);
  ("WS76", ["2250,40"]);
  ("WS77", ["2215,96"]);
  ("WS78", ["1610,120"]);
  ("WS79", ["40,40"]);
  ("WS81", ["1500,100"]);
  ("WS82", ["3600,400"; "4200,400"]);
  ("WS87", ["1400,50"]);
  ("WS91", ["3000,50"]);
  ("WS96", ["1600,75,,179,,359"]);
  ("WS98", ["60,60"]);
  ("WSA", ["2000"]);
  ("WSAG", ["6255,100,,42.8,,222.8"; "3400,100,,47,,227"]);
  ("WSAP", ["12401,200,43,22.9,65,202.9"]);
  ("WSAT", ["2258,66,,9.6,,189.6"; "8999,148,50,185,50,5"; "1155,236,,184.7,,4.7"]);
  ("WSB", ["6000,2000"]);
  ("WSJ", ["10000,2000"]);
  ("WSM", ["2000,30"]);
  ("WSSL", ["6023,151,36,33,10,213"]);
  ("WSSS", ["13123,197,15,23,15,203"; "13123,197,22,23,14,203"; "9015,195,,23,,203"]);
  ("WT00", ["40,40"]);
  ("WT01", ["2800,26"]);
  ("WT02", ["54,54"]);
  ("WT03", ["1850,40"]);
  ("WT04", ["2500,24"]);
  ("WT22", ["62,62"]);
  ("WT24", ["600,150"]);
  ("WT28", ["120,120"]);
  ("WT33", ["10000,2000"]);
  ("WT34", ["30,30"]);
  ("WT44", ["1300,50"]);
  ("WT77", ["1200,20"]);
  ("WT88", ["1680,20"]);
  ("WV00", ["3300,60"]);
  ("WV01", ["1300,150"; "1500,200"]);
  ("WV02", ["28,28"]);
  ("WV03", ["100,100"]);
  ("WV04", ["40,40"]);
  ("WV05", ["35,35"]);
  ("WV06", ["2650,50"]);
  ("WV07", ["80,50"]);
  ("WV08", ["1800,200"]);
  ("WV09", ["1900,50"]);
  ("WV11", ["1250,30"]);
  ("WV12", ["2000,24"]);
  ("WV13", ["22,22"]);
  ("WV14", ["26,26"]);
  ("WV15", ["2300,90"]);
  ("WV16", ["60,60"]);
  ("WV17", ["2000,60"]);
  ("WV18", ["1700,130"]);
  ("WV19", ["2100,90"]);
  ("WV20", ["20,20"]);
  ("WV21", ["2000,75"]);
  ("WV22", ["2600,100"]);
  ("WV23", ["3195,50,1014,10,1000,190"]);
  ("WV26", ["150,60"]);
  ("WV27", ["40,40"]);
  ("WV28", ["1315,60"]);
  ("WV29", ["2800,40"]);
  ("WV30", ["3300,75"]);
  ("WV31", ["120,60"]);
  ("WV32", ["2950,24"]);
  ("WV34", ["50,50"]);
  ("WV35", ["5000,500"]);
  ("WV36", ["60,60"]);
  ("WV37", ["5000,500"]);
  ("WV38", ["5000,500"]);
  ("WV39", ["5000,500"]);
  ("WV40", ["5000,500"]);
  ("WV41", ["5000,500"]);
  ("WV42", ["5000,500"]);
  ("WV43", ["5000,500"]);
  ("WV44", ["5000,500"]);
  ("WV45", ["60,60"]);
  ("WV46", ["5000,500"]);
  ("WV47", ["3900,30,,100,,280"]);
  ("WV48", ["64,64"]);
  ("WV50", ["45,45"]);
  ("WV51", ["40,40"]);
  ("WV52", ["3500,50,,120,,300"]);
  ("WV53", ["1400,40"]);
  ("WV54", ["20,20"]);
  ("WV56", ["45,45"]);
  ("WV57", ["1800,60"]);
  ("WV58", ["40,40"]);
  ("WV59", ["2010,20"]);
  ("WV60", ["16,12"]);
  ("WV61", ["1000,50"]);
  ("WV62", ["3000,40,,51.1,,231.1"]);
  ("WV63", ["1450,100"]);
  ("WV65", ["1900,60"]);
  ("WV66", ["2600,100"]);
  ("WV67", ["1800,18"]);
  ("WV69", ["20,20"]);
  ("WV70", ["2400,90"]);
  ("WV71", ["1500,100"]);
  ("WV72", ["50,50"]);
  ("WV73", ["60,60"]);
  ("WV74", ["50,50"]);
  ("WV75", ["30,30"]);
  ("WV76", ["1730,30"]);
  ("WV77", ["2700,25"]);
  ("WV78", ["60,60"]);
  ("WWT", ["5000,400,6,,6"]);
  ("WY00", ["5000,75,4576,,4732"]);
  ("WY01", ["2600,60"]);
  ("WY02", ["2600,100"]);
  ("WY03", ["75,45"]);
  ("WY04", ["60,60"]);
  ("WY05", ["3900,70"]);
  ("WY06", ["2400,50"]);
  ("WY07", ["3665,60"; "2770,60"; "4000,60"]);
  ("WY08", ["60,60"]);
  ("WY09", ["3300,100"]);
  ("WY11", ["5700,50"]);
  ("WY12", ["1300,75"; "2980,75"; "2470,100"; "1200,75"]);
  ("WY13", ["2250,60"; "4700,60"; "1800,60"; "2000,60"]);
  ("WY14", ["3000,60"]);
  ("WY15", ["1000,75"; "1000,75"]);
  ("WY16", ["3400,50"; "2000,50"]);
  ("WY17", ["3100,75"]);
  ("WY18", ["5000,35"]);
  ("WY19", ["4100,200"; "1700,150"]);
  ("WY20", ["60,60"]);
  ("WY21", ["100,80"]);
  ("WY22", ["2000,30"]);
  ("WY23", ["2000,30"]);
  ("WY24", ["40,40"]);
  ("WY25", ["2000,38"]);
  ("WY26", ["35,35"]);
  ("WY27", ["3100,60"]);
  ("WY28", ["42,42"]);
  ("WY29", ["4000,60"]);
  ("WY30", ["3450,60"]);
  ("WY31", ["1800,75"]);
  ("WY33", ["7500,75,7470,83,,263"]);
  ("WY34", ["3200,60"]);
  ("WY35", ["40,40"]);
  ("WY36", ["2500,60"]);
  ("WY37", ["1900,50"]);
  ("WY38", ["3300,50,5277"]);
  ("WY39", ["5400,60"]);
  ("WY40", ["48,48"]);
  ("WY41", ["4000,40"]);
  ("WY42", ["5000,80"]);
  ("WY45", ["1950,650"]);
  ("WY46", ["60,60"]);
  ("WY47", ["60,45"]);
  ("WY49", ["50,50"]);
  ("WY50", ["60,60"]);
  ("WY52", ["70,70"]);
  ("WY55", ["2500,45"]);
  ("WY57", ["60,60"]);
  ("WY59", ["4800,50"]);
  ("WY60", ["2200,40"]);
  ("WY61", ["4600,75"]);
  ("WY62", ["30,20"]);
  ("WY64", ["2640,200"]);
  ("WY65", ["2400,40"]);
  ("WY66", ["3600,75"]);
  ("WY67", ["40,40"]);
  ("WY68", ["80,60"]);
  ("X-MMTG", ["8220,148,,97.4,,277.4"; "4922,98,,162.3,,342.3"]);
  ("X-RPVB", ["6569,148,86,30,84,210"]);
  ("X-TA37", ["80,80"]);
  ("X01", ["2400,60"]);
  ("X09", ["3352,100,130,178,130,358"]);
  ("X23", ["2290,50"]);
  ("X25", ["2313,50"]);
  ("X33", ["2560,57"]);
  ("X36", ["2040,120,14,,15"]);
  ("X44", ["15000,600"]);
  ("X52", ["3120,150"]);
  ("X55", ["3200,80"]);
  ("X61", ["3300,150"]);
  ("X64", ["2000,50"]);
  ("XA00", ["1620,60"]);
  ("XA01", ["100,100"]);
  ("XA02", ["1200,60"]);
  ("XA03", ["2300,100"]);
  ("XA04", ["2100,30"]);
  ("XA05", ["3960,26,,98.2,,278.2"]);
  ("XA06", ["50,50"]);
  ("XA07", ["1800,50"]);
  ("XA08", ["4800,60,,186.2,,6.2"]);
  ("XA09", ["3000,80"]);
  ("XA10", ["500,70"]);
  ("XA11", ["60,60"]);
  ("XA12", ["2000,60"]);
  ("XA13", ["38,40"]);
  ("XA14", ["35,35"]);
  ("XA15", ["1900,100"]);
  ("XA16", ["2800,150"]);
  ("XA17", ["2200,50"]);
  ("XA18", ["40,40"]);
  ("XA19", ["38,38"]);
  ("XA20", ["25,25"]);
  ("XA21", ["50,50"]);
  ("XA22", ["40,40"]);
  ("XA23", ["2800,60"]);
  ("XA24", ["40,40"]);
  ("XA25", ["50,32"]);
  ("XA26", ["50,50"]);
  ("XA27", ["20,20"]);
  ("XA28", ["100,100"]);
  ("XA29", ["45,45"]);
  ("XA30", ["20,20"]);
  ("XA31", ["3150,200"]);
  ("XA32", ["3000,100"]);
  ("XA33", ["1700,75"]);
  ("XA34", ["3000,150"]);
  ("XA35", ["50,50"]);
  ("XA36", ["40,40"]);
  ("XA37", ["40,40"]);
  ("XA38", ["80,80"]);
  ("XA39", ["40,40"]);
  ("XA40", ["2480,75"]);
  ("XA41", ["3700,60"]);
  ("XA42", ["1600,60"]);
  ("XA43", ["2350,50"]);
  ("XA44", ["2200,75"]);
  ("XA45", ["2800,100"]);
  ("XA46", ["2300,60"]);
  ("XA47", ["1700,100"]);
  ("XA48", ["1800,40"]);
  ("XA49", ["5000,70"; "2500,50"]);
  ("XA50", ["64,64"]);
  ("XA51", ["1600,40"]);
  ("XA52", ["3000,50"]);
  ("XA53", ["60,40"]);
  ("XA54", ["30,30"]);
  ("XA56", ["50,50"]);
  ("XA57", ["60,60"]);
  ("XA59", ["40,40"]);
  ("XA60", ["40,40"]);
  ("XA61", ["45,45"; "45,45"]);
  ("XA62", ["30,30"; "30,30"]);
  ("XA63", ["100,100"]);
  ("XA64", ["3800,60,,136.1,,316.1"]);
  ("XA65", ["3200,100"]);
  ("XA66", ["5000,80,,126,,306"]);
  ("XA67", ["45,45"]);
  ("XA68", ["1700,100"; "3100,100"]);
  ("XA69", ["50,50"]);
  ("XA70", ["40,40"]);
  ("XA71", ["2400,75"]);
  ("XA72", ["2400,30"; "1900,30"]);
  ("XA73", ["35,35"; "35,35"]);
  ("XA74", ["50,50"; "50,50"]);
  ("XA75", ["2800,100"]);
  ("XA76", ["15,15"]);
  ("XA77", ["4150,40"]);
  ("XA78", ["1600,50"; "1600,50"]);
  ("XA79", ["48,48"]);
  ("XA80", ["60,60"]);
  ("XA81", ["30,30"; "50,50"]);
  ("XA82", ["20,20"]);
  ("XA83", ["75,75"]);
  ("XA84", ["1500,50"]);
  ("XA85", ["3800,100"]);
  ("XA86", ["2975,40"]);
  ("XA87", ["40,40"]);
  ("XA88", ["2800,150"]);
  ("XA89", ["5305,75,772,146,767,326"]);
  ("XA90", ["2300,40"]);
  ("XA91", ["3200,150"]);
  ("XA92", ["3000,50"]);
  ("XA93", ["4700,60,,176,,356"]);
  ("XA94", ["30,30"]);
  ("XA95", ["1900,50"]);
  ("XA96", ["1600,35"]);
  ("XA98", ["2200,50"]);
  ("XA99", ["2300,100"]);
  ("XBN", ["1919,98"]);
  ("XBRO", ["2529,75"]);
  ("XMUC", ["13123,197,1467,83,1449,263"; "13123,197,1486,83,1470,263"]);
  ("XPLO", ["1958,75"]);
  ("XS00", ["2000,50"]);
  ("XS01", ["2000,36"]);
  ("XS02", ["48,48"]);
  ("XS03", ["2000,75"; "2500,60"]);
  ("XS04", ["100,100"]);
  ("XS05", ["2100,30"]);
  ("XS06", ["2200,30"]);
  ("XS07", ["2100,100"]);
  ("XS08", ["2200,60"]);
  ("XS09", ["4100,125"]);
  ("XS10", ["3700,60,,53.9,,233.9"; "4600,60"]);
  ("XS11", ["3200,60,,116,,296"]);
  ("XS12", ["3000,25,,100,,280"]);
  ("XS13", ["2200,50"]);
  ("XS14", ["5300,100"]);
  ("XS15", ["3000,100"]);
  ("XS16", ["65,65"]);
  ("XS17", ["3500,150"]);
  ("XS18", ["4000,150"]);
  ("XS19", ["40,40"]);
  ("XS20", ["3700,50,,160,,340"]);
  ("XS21", ["2500,50"]);
  ("XS22", ["2110,35"]);
  ("XS23", ["2600,200"]);
  ("XS24", ["2700,20"]);
  ("XS25", ["1900,75"]);
  ("XS26", ["25,20"]);
  ("XS27", ["1660,120"]);
  ("XS28", ["2200,120"]);
  ("XS29", ["1800,110"]);
  ("XS30", ["2100,50"]);
  ("XS31", ["2100,40"]);
  ("XS32", ["40,40"]);
  ("XS33", ["2600,43"]);
  ("XS34", ["1500,100"]);
  ("XS35", ["2500,50"]);
  ("XS36", ["2000,50"]);
  ("XS37", ["30,30"]);
  ("XS38", ["36,36"]);
  ("XS39", ["2000,50"; "2000,50"]);
  ("XS40", ["3000,40,,136,,316"]);
  ("XS41", ["56,56"]);
  ("XS42", ["2100,50"]);
  ("XS43", ["1600,100"; "1600,100"; "2000,100"]);
  ("XS44", ["6300,60,,80,,260"]);
  ("XS45", ["20,20"]);
  ("XS46", ["2200,75"; "2400,75"]);
  ("XS47", ["2000,60"; "1800,100"]);
  ("XS48", ["2840,40"]);
  ("XS49", ["2700,80"]);
  ("XS50", ["3515,100"; "3260,100"]);
  ("XS51", ["3230,110"]);
  ("XS52", ["2640,300"]);
  ("XS53", ["3200,80"]);
  ("XS54", ["75,45"]);
  ("XS55", ["2000,60"]);
  ("XS56", ["3000,85"; "2400,50"]);
  ("XS57", ["2250,45"]);
  ("XS58", ["2200,90"]);
  ("XS59", ["4650,60,,150,,330"]);
  ("XS60", ["1300,100"; "1800,100"]);
  ("XS61", ["4200,60"]);
  ("XS62", ["5200,60,,70,,250"]);
  ("XS63", ["1800,20"]);
  ("XS64", ["2100,24"]);
  ("XS65", ["50,50"]);
  ("XS66", ["2000,35"; "2200,25"]);
  ("XS67", ["4900,60,4,140,10,320"]);
  ("XS68", ["1800,40"]);
  ("XS69", ["1400,75"]);
  ("XS70", ["3300,100"]);
  ("XS71", ["4000,70,,175.4,,355.4"]);
  ("XS72", ["3600,100"]);
  ("XS73", ["4500,50,,100,,280"]);
  ("XS74", ["2400,60"]);
  ("XS75", ["3950,100"]);
  ("XS76", ["1820,40"]);
  ("XS77", ["2200,75"]);
  ("XS78", ["1600,80"]);
  ("XS79", ["1800,200"]);
  ("XS80", ["1600,80"]);
  ("XS81", ["69,51"]);
  ("XS82", ["60,60"]);
  ("XS83", ["100,97"]);
  ("XS84", ["20,20"]);
  ("XS85", ["90,90"]);
  ("XS86", ["1500,100"]);
  ("XS87", ["100,100"]);
  ("XS88", ["2000,85"]);
  ("XS89", ["2500,2500"; "2500,2500"; "2500,2500"]);
  ("XS90", ["3200,42"]);
  ("XS91", ["3200,40,,174.1,,354.1"]);
  ("XS92", ["2500,60"]);
  ("XS93", ["4250,100,,135,,315"]);
  ("XS94", ["5500,100,,170,,350"]);
  ("XS95", ["2300,175"]);
  ("XS96", ["25,25"]);
  ("XS97", ["85,85"]);
  ("XS98", ["40,40"]);
  ("XS99", ["2600,100"]);
  ("XUBS", ["8202"]);
  ("Y01", ["2413,60"]);
  ("Y04", ["3519,50,825,,825"]);
  ("Y16", ["2325,70"]);
  ("Y30", ["2470,90"]);
  ("Y34", ["2220,250,1725"]);
  ("Y46", ["2710,100"]);
  ("Y48", ["3245,95"]);
  ("Y49", ["3210,75,,148,,328"]);
  ("Y58", ["2570,300,992"; "2500,300"]);
  ("Y63", ["3400,60,1203,,1203"]);
  ("Y71", ["3000,120,2338,,2355"]);
  ("Y73", ["2000,40,1622,,1622"]);
  ("Y76", ["2065,180"]);
  ("Y77", ["3000,130,1140,,1140"]);
  ("Y87", ["2275,150,944,,944"; "2600,50,944,,944"]);
  ("Y88", ["2800,170,866,,866"; "1700,170,866,,866"]);
  ("Y91", ["3830,160,1245,,1245"; "2550,150,1245,,1245"]);
  ("Y96", ["1400,100"; "2600,60,830,,830"]);
  ("Y98", ["2600,150,838,,838"; "2800,100,838,,838"]);
  ("Y99", ["3200,60,2092,,2099"]);
  ("YAAL", ["3116"]);
  ("YABA", ["3596,98,223,45,232,225"; "5906,98,226,134,217,314"]);
  ("YABS", ["4265"; "6233"]);
  ("YABU", ["3280"]);
  ("YACI", ["3280"]);
  ("YACS", ["3395"; "4179"]);
  ("YADD", ["3280"; "3280"]);
  ("YADG", ["2515,30"; "1456,30"; "2556,30"; "1931,30"]);
  ("YADM", ["3937"]);
  ("YADO", ["3051"]);
  ("YADS", ["3772"]);
  ("YADY", ["2680"]);
  ("YAFD", ["121,121"]);
  ("YAGD", ["5498"]);
  ("YAKG", ["3280"]);
  ("YALA", ["5413"]);
  ("YALC", ["3999"]);
  ("YALG", ["3707"]);
  ("YALH", ["2952"]);
  ("YALM", ["1968"]);
  ("YALN", ["2296"; "3608"]);
  ("YALX", ["3280"]);
  ("YALY", ["3280"]);
  ("YAMB", ["4997,148,86,54,76,234"; "9997,148,84,159,91,339"]);
  ("YAMC", ["3937"]);
  ("YAMJ", ["3937"]);
  ("YAMK", ["3280,,250,,250"; "2050"]);
  ("YAML", ["4002"]);
  ("YAMM", ["3608"]);
  ("YAND", ["3280"]);
  ("YANL", ["4297"]);
  ("YANN", ["3444"]);
  ("YANW", ["3205"]);
  ("YAOR", ["3280"]);
  ("YAPA", ["5905"]);
  ("YAPH", ["4777,98,1255,188,1255,8"]);
  ("YARA", ["2165,98,,55,,235"; "4068,60,1008,125,1008,305"]);
  ("YARD", ["3205"]);
  ("YARG", ["7546,98,522,21,505,201"]);
  ("YARI", ["2998"]);
  ("YARK", ["2132"]);
  ("YARL", ["2624"]);
  ("YARM", ["5702,98,3530,58,3547,238"; "3661,98,3522,97,3555,277"]);
  ("YARN", ["3215"]);
  ("YARP", ["3280"]);
  ("YARS", ["3211"]);
  ("YARY", ["3379"]);
  ("YASF", ["3280"]);
  ("YATL", ["3116"]);
  ("YATN", ["3815"]);
  ("YATR", ["3599"]);
  ("YATY", ["2132"; "2952"]);
  ("YAUG", ["3887"]);
  ("YAUR", ["4140,98,27,161,29,341"]);
  ("YAUS", ["3937"]);
  ("YAUV", ["3789"]);
  ("YAVD", ["3569"]);
  ("YAVM", ["2493"]);
  ("YAWT", ["3280"]);
  ("YAYE", ["8527,98,1612,130,1626,310"]);
  ("YAYR", ["4796,98,,22,,202"; "3697,98,,115.1,,295.1"]);
  ("YBAD", ["4855"]);
  ("YBAF", ["4085,98,48,51.2,39,231.2"; "3609,98,44,51.2,38,231.2"; "4859,98,44,106.6,63,286.6"; "3609,98,43,103.4,61,283.4"]);
  ("YBAL", ["4429"]);
  ("YBAM", ["5462,98,31,137,19,317"]);
  ("YBAN", ["4593"]);
  ("YBAO", ["2132"]);
  ("YBAR", ["5591,98,876,17,873,197"; "3104,98,874,139,877,319"]);
  ("YBAS", ["7999,148,1786,120,1763,300"; "3717,60,1789,178,1778,358"]);
  ("YBAU", ["2788"]);
  ("YBAW", ["4796"]);
  ("YBBA", ["3937"]);
  ("YBBC", ["4593"]);
  ("YBBE", ["4921"]);
  ("YBBL", ["3608"]);
  ("YBBN", ["11680,148,12,27,11,207"; "5577,98,11,146.7,9,326.7"]);
  ("YBBO", ["4921"]);
  ("YBBT", ["3608"]);
  ("YBCB", ["3182"]);
  ("YBCG", ["6699,148,21,150,13,330"; "1909,59,17,184,13,4"]);
  ("YBCH", ["2001"]);
  ("YBCK", ["5538,98,918,67,926,247"; "5259,98,917,128,925,308"]);
  ("YBCL", ["4921"]);
  ("YBCR", ["5249"]);
  ("YBCS", ["3035,60,9,126,6,306"; "10489,148,9,156,7,336"]);
  ("YBCV", ["5000,98,986,137,1001,317"; "3501,75,996,182,996,2"]);
  ("YBDF", ["4002"]);
  ("YBDG", ["2516,60,692,61,689,241"; "3724,60,673,182,705,2"]);
  ("YBDP", ["2486"]);
  ("YBDS", ["4101"]);
  ("YBDV", ["3937,59,150,40,148,220"; "5682,98,159,149,152,329"]);
  ("YBDX", ["3444"]);
  ("YBEC", ["3937"]);
  ("YBEF", ["2624"]);
  ("YBEL", ["4790"]);
  ("YBEO", ["3543"]);
  ("YBER", ["2952"; "2952"]);
  ("YBEU", ["1998"]);
  ("YBEV", ["4101"; "4790"]);
  ("YBFR", ["1968"]);
  ("YBGB", ["3280"]);
  ("YBGI", ["3280"; "3772"]);
  ("YBGO", ["2270"; "5282,,1396,,1440"]);
  ("YBGR", ["7217"; "2493"]);
  ("YBGT", ["3001"]);
  ("YBGY", ["6561"]);
  ("YBHB", ["1574"]);
  ("YBHI", ["8251,98,907,56,958,236"; "3281,98,914,143,910,323"]);
  ("YBHK", ["3280"]);
  ("YBHM", ["5591,148,15,143,15,323"]);
  ("YBIA", ["4265"]);
  ("YBIE", ["4921,98,292,145,292,325"]);
  ("YBIK", ["2952"; "3608"]);
  ("YBIL", ["3608"]);
  ("YBIN", ["2965"]);
  ("YBIR", ["3422,59,340,52,340,232"; "1719,98,,98,,278"]);
  ("YBIU", ["2690"; "2493"]);
  ("YBIZ", ["3608"]);
  ("YBJW", ["4921"; "3937"]);
  ("YBKE", ["6004,98,350,64,351,244"; "3281,98,352,188,351,8"]);
  ("YBKS", ["3608"]);
  ("YBKT", ["4501,98,21,42,18,222"; "2484,98,21,132,21,312"]);
  ("YBLA", ["3422,60,,60,,240"; "3422,60,564,94,568,274"; "2356,60,,60,,240"; "2356,98,561,175,565,355"]);
  ("YBLB", ["3280"]);
  ("YBLC", ["4199"]);
  ("YBLD", ["3608"; "3280"]);
  ("YBLG", ["4593"; "4593"]);
  ("YBLH", ["3608"]);
  ("YBLL", ["3500"]);
  ("YBLM", ["3608"; "1968"]);
  ("YBLN", ["5906,98,55,26,55,206"]);
  ("YBLT", ["4150,98,1426,62,1429,242"; "1864,98,1421,135,1429,315"; "4085,98,1426,189,1431,9"]);
  ("YBLU", ["5223"]);
  ("YBMA", ["2802,59,1116,124,1111,304"; "8399,148,1102,169,1111,349"]);
  ("YBMC", ["2133,59,11,128,14,308"; "5896,98,11,194,11,14"]);
  ("YBMD", ["3198"]);
  ("YBMI", ["4265"]);
  ("YBMK", ["4409,98,19,57.9,13,237.9"; "6499,148,17,148,14,328"]);
  ("YBMM", ["2395"]);
  ("YBMY", ["2604,,706,,706"]);
  ("YBNA", ["6234,98,7,74,7,254"]);
  ("YBNC", ["4921"]);
  ("YBNM", ["3280"]);
  ("YBNS", ["3612,98,165,55,155,235"; "2789,60,163,145,160,325"]);
  ("YBNY", ["2706"]);
  ("YBOA", ["3976"]);
  ("YBOD", ["3280"; "2099"]);
  ("YBOG", ["3280"; "3018"]);
  ("YBOI", ["2165"]);
  ("YBOK", ["2999,98,1329,55,1335,235"; "3278,75,1324,99.6,1332,279.6"; "5410,98,1334,145,1335,325"]);
  ("YBOM", ["2624"; "2132"]);
  ("YBOP", ["3280"]);
  ("YBOR", ["2559"; "4265"]);
  ("YBOT", ["3280"]);
  ("YBOU", ["4180,98,542,150,536,330"]);
  ("YBOV", ["3937"; "3937"]);
  ("YBPI", ["2709"]);
  ("YBPN", ["3609,98,70,67,77,247"; "6801,148,58,115,47,295"]);
  ("YBRA", ["3805"]);
  ("YBRC", ["3937"]);
  ("YBRJ", ["4048"]);
  ("YBRK", ["5397,98,31,52.5,32,232.5"; "8622,148,33,159,27,339"]);
  ("YBRL", ["3770,59,52,23,55,203"]);
  ("YBRM", ["8064,148,56,105,22,285"]);
  ("YBRN", ["2133,98,,88,,268"; "3888,60,210,186,210,6"]);
  ("YBRO", ["3690"; "2690"]);
  ("YBRS", ["1400"; "2500"]);
  ("YBRU", ["4888"; "3248"]);
  ("YBRW", ["4547,98,414,36,369,216"]);
  ("YBRY", ["6365,99,2056,103,2056,283"]);
  ("YBSG", ["10003,148,,124.9,,304.9"]);
  ("YBSR", ["5905"]);
  ("YBSS", ["5098"; "5000"]);
  ("YBTD", ["4265"; "3608"]);
  ("YBTH", ["4314,98,2396,91,2423,271"; "5594,98,2391,176,2434,356"]);
  ("YBTI", ["4823,98,34,150,64,330"]);
  ("YBTL", ["7999,148,18,24,13,204"; "3609,98,12,74,14,254"]);
  ("YBTN", ["3937"]);
  ("YBTR", ["5023,98,620,187,657,7"]);
  ("YBTS", ["3280"]);
  ("YBTT", ["4363"]);
  ("YBTV", ["3280"]);
  ("YBUC", ["2395"; "3280"]);
  ("YBUD", ["3701,98,107,69,101,249"; "5030,98,101,147.7,101,327.7"]);
  ("YBUG", ["3280"; "3937"]);
  ("YBUI", ["3897"; "5413"]);
  ("YBUL", ["2952"; "3937"]);
  ("YBUN", ["3330,98,45,60,50,240"]);
  ("YBUP", ["2250"]);
  ("YBUX", ["2624"]);
  ("YBUY", ["4000,,2540,109,2610,289"; "2300,,2560,129,2610,309"; "3600,,2540,161,2610,161"; "1800,,2510,167,2560,347"]);
  ("YBVA", ["2982"; "3986"]);
  ("YBVL", ["2788"]);
  ("YBWG", ["6692,98,1644,88.4,1612,268.4"]);
  ("YBWI", ["3280"]);
  ("YBWM", ["3280"]);
  ("YBWN", ["4399,,26,,15"; "3290,,22,,14"]);
  ("YBWP", ["5397,98,57,124,63,304"]);
  ("YBWR", ["4265"]);
  ("YBWT", ["3608"]);
  ("YBWW", ["9416,148,,133,,313"]);
  ("YBWX", ["6234,98,25,27,17,207"]);
  ("YBXH", ["1998"; "3999"]);
  ("YBYA", ["3937"; "3280"]);
  ("YBYD", ["2296"; "1968"]);
  ("YBYI", ["2460"]);
  ("YBYR", ["5272"]);
  ("YBYS", ["3605"]);
  ("YBYW", ["3937"]);
  ("YBZA", ["2165"; "2165"]);
  ("YCAB", ["2952"; "4429"]);
  ("YCAC", ["3937"]);
  ("YCAE", ["3280"]);
  ("YCAG", ["4265"]);
  ("YCAH", ["3523,,1654,,1654"]);
  ("YCAI", ["3937"]);
  ("YCAL", ["2982"; "1988"]);
  ("YCAM", ["3937"]);
  ("YCAN", ["3280"]);
  ("YCAR", ["5509,98,7,43,13,223"; "3740,98,9,180,7,360"]);
  ("YCAS", ["3609,98,86,105,67,285"]);
  ("YCBA", ["4984,98,704,55,722,235"; "4006,98,711,175,716,355"]);
  ("YCBB", ["2129,98,2116,29,2108,209"; "4987,98,2104,123,2117,303"]);
  ("YCBG", ["3661,60,,108,,288"; "2900,60,67,156,67,336"]);
  ("YCBN", ["2099"; "1541"]);
  ("YCBP", ["4685,98,729,48,740,228"; "2720,98,736,149,734,329"]);
  ("YCBR", ["2145"; "3996,,500,,500"]);
  ("YCBY", ["3937"]);
  ("YCCA", ["1949,60,,39,,219"; "3497,60,1028,142,1028,322"]);
  ("YCCK", ["3083"]);
  ("YCCT", ["2395"]);
  ("YCCY", ["3796,60,611,68,616,248"; "6562,98,612,128,613,308"]);
  ("YCDB", ["2624"; "2624"]);
  ("YCDE", ["3431"]);
  ("YCDL", ["3018"]);
  ("YCDO", ["4501,98,632,25,650,205"; "3947,98,635,105,634,285"]);
  ("YCDR", ["2608"; "2608"]);
  ("YCDS", ["3280"]);
  ("YCDT", ["4921"; "3280"]);
  ("YCDU", ["5709,98,57,111,74,291"; "3327,98,73,173,71,353"]);
  ("YCDV", ["2952"]);
  ("YCEE", ["4429,59,580,90,540,270"; "2936,59,578,182,542,2"]);
  ("YCEM", ["2427"]);
  ("YCES", ["2706"]);
  ("YCFD", ["3805"]);
  ("YCFH", ["2952"; "2624"]);
  ("YCFL", ["2919"]);
  ("YCFN", ["2625,98"]);
  ("YCGI", ["6233"; "3608"]);
  ("YCGO", ["3218,60,,176.5,,356.5"]);
  ("YCHB", ["2805"]);
  ("YCHL", ["3740"]);
  ("YCHR", ["4265"; "2624"]);
  ("YCHT", ["3297,98,,17,,197"; "5699,100,,62.9,,242.9"]);
  ("YCIG", ["2132"; "2952"]);
  ("YCIN", ["10003,148,254,111,300,291"]);
  ("YCJU", ["3280"]);
  ("YCKA", ["5249"]);
  ("YCKD", ["1391"; "1391"]);
  ("YCKI", ["4701,,51,,51"]);
  ("YCKN", ["5338,98,24,111,13,291"]);
  ("YCKY", ["3280"]);
  ("YCLE", ["3280"; "2296"]);
  ("YCLG", ["2788"]);
  ("YCLQ", ["3937"]);
  ("YCLT", ["3280"]);
  ("YCLY", ["3608"]);
  ("YCMH", ["3001"]);
  ("YCMK", ["3001"]);
  ("YCMM", ["3215"]);
  ("YCMT", ["3504,98,890,27,855,207"; "4301,98,905,160,895,340"]);
  ("YCMU", ["2999,59,627,68,627,248"; "5686,98,630,130,625,310"]);
  ("YCMW", ["3500"]);
  ("YCNF", ["5577,,968,,965"]);
  ("YCNG", ["3018"; "3018"]);
  ("YCNH", ["2952"; "1804"]);
  ("YCNK", ["3600,60,,186.3,,6.3"]);
  ("YCNM", ["5010,98,597,54,597,234"; "1903,98,593,129,604,309"]);
  ("YCNN", ["3937"]);
  ("YCNO", ["4002"]);
  ("YCNQ", ["3280"]);
  ("YCNR", ["2001"]);
  ("YCNS", ["3937"]);
  ("YCNX", ["2296"]);
  ("YCNY", ["5734,98,411,141.7,416,321.7"]);
  ("YCOD", ["4527"]);
  ("YCOE", ["4107,75,522,113.1,532,293.1"]);
  ("YCOF", ["2578"; "3677"]);
  ("YCOG", ["2296"]);
  ("YCOH", ["3280"]);
  ("YCOI", ["3772"]);
  ("YCOL", ["3897"]);
  ("YCOM", ["2041,59,3073,150,3106,330"; "6955,148,3049,193,3088,13"]);
  ("YCOO", ["4235,,43,,43"]);
  ("YCOR", ["5994,148,461,55,464,235"; "5000,98,462,145,463,325"]);
  ("YCOY", ["3280"]);
  ("YCPD", ["3608"]);
  ("YCPG", ["3444"]);
  ("YCPH", ["3280"]);
  ("YCPN", ["4002"]);
  ("YCRA", ["3730"]);
  ("YCRG", ["4596,98,962,72,949,252"]);
  ("YCRK", ["3608"]);
  ("YCRL", ["3001"]);
  ("YCRN", ["5249"]);
  ("YCRT", ["3937"; "1640"]);
  ("YCRY", ["4799"]);
  ("YCSL", ["3937"]);
  ("YCSP", ["4265"]);
  ("YCSV", ["4599"]);
  ("YCTH", ["3100"]);
  ("YCTI", ["2395"]);
  ("YCTM", ["2805,98,1096,111,1108,291"; "4682,60,1102,174,1109,354"]);
  ("YCTN", ["3937"]);
  ("YCTS", ["3280"]);
  ("YCUA", ["4445,,1571,,1604"]);
  ("YCUE", ["6499,,1445,,1445"; "3270,,1445,,1445"]);
  ("YCUN", ["6089,148,688,45.4,705,225.4"; "4997,148,700,135.4,694,315.4"]);
  ("YCUR", ["2362"]);
  ("YCUS", ["2372,59,,73.3,,253.3"; "4124,59,174,174.1,197,354.1"]);
  ("YCUT", ["2624"; "4265"]);
  ("YCVA", ["1969"; "3937"]);
  ("YCVS", ["2952"]);
  ("YCWE", ["1968"]);
  ("YCWH", ["3937"; "4265"]);
  ("YCWI", ["4265"]);
  ("YCWL", ["3897,,127,,127"; ",,127,,127"; "4829,,127,,127"]);
  ("YCWN", ["3280"]);
  ("YCWO", ["2591"]);
  ("YCWR", ["3825,60,955,41,966,221"; "5348,98,960,162,966,342"]);
  ("YCWY", ["3280"]);
  ("YCXA", ["3280"]);
  ("YCYT", ["3608"]);
  ("YDAG", ["3937"]);
  ("YDAJ", ["3733"; "2598"]);
  ("YDAL", ["3608"; "2132"]);
  ("YDAR", ["2001"]);
  ("YDAY", ["2999,60,,49.6,,229.6"; "4160,75,,140.2,,320.2"]);
  ("YDBI", ["3993,60,,20.9,,200.9"]);
  ("YDBR", ["3313"]);
  ("YDBY", ["3799,59,23,56,19,236"; "5696,98,18,111,24,291"]);
  ("YDDF", ["3215"]);
  ("YDEA", ["2859,66"]);
  ("YDEG", ["2624"]);
  ("YDER", ["2296"]);
  ("YDEV", ["3100"; "2788"]);
  ("YDGI", ["4757"]);
  ("YDGN", ["3608"]);
  ("YDGR", ["3280"]);
  ("YDGT", ["4921"]);
  ("YDGY", ["3280"]);
  ("YDHL", ["2624"]);
  ("YDIM", ["3280"]);
  ("YDIX", ["3182"]);
  ("YDKI", ["2673"]);
  ("YDLD", ["3937"]);
  ("YDLH", ["3280"; "2952"]);
  ("YDLK", ["1968"; "3805"]);
  ("YDLL", ["3280"]);
  ("YDLO", ["6036"]);
  ("YDLQ", ["3999,98,314,66,309,246"; "1969,98,309,142,312,322"]);
  ("YDLT", ["3215"]);
  ("YDLV", ["2811,,112,,112"]);
  ("YDLW", ["6233"]);
  ("YDME", ["3280"]);
  ("YDMF", ["3198"]);
  ("YDMG", ["5433,98,,120,,300"]);
  ("YDMN", ["3149"]);
  ("YDMR", ["5249"]);
  ("YDNB", ["4921"]);
  ("YDNI", ["1640"]);
  ("YDNV", ["3444"; "2624"]);
  ("YDOC", ["5643"; "10203"]);
  ("YDOD", ["3825,60,409,98,409,278"; "2585,98,409,188,409,8"]);
  ("YDON", ["3444"]);
  ("YDOO", ["2624"]);
  ("YDOP", ["3018"]);
  ("YDOR", ["4461"]);
  ("YDPD", ["3297"; "2559"]);
  ("YDPO", ["6030,148,17,76,22,256"; "2887,98,14,156,33,336"]);
  ("YDPR", ["2952"]);
  ("YDPS", ["3280"; "3018"]);
  ("YDPT", ["2952"; "1804"]);
  ("YDPW", ["2952"]);
  ("YDRA", ["3280"]);
  ("YDRC", ["1968"; "3937"]);
  ("YDRD", ["4589"]);
  ("YDRH", ["3031"; "2687"]);
  ("YDRI", ["3116"]);
  ("YDRL", ["3280"; "1968"]);
  ("YDUK", ["3937"]);
  ("YDUM", ["2952"]);
  ("YDUN", ["2919"]);
  ("YDVE", ["3280"]);
  ("YDVR", ["4406"]);
  ("YDWU", ["4271"]);
  ("YDYS", ["5085,98,682,146,673,326"]);
  ("YEAB", ["3500"]);
  ("YEAT", ["2696"]);
  ("YECH", ["1674,59,,58.5,,238.5"; "3615,60,321,178,322,358"]);
  ("YECL", ["4265"; "1640"]);
  ("YEDA", ["3904"; "3805"]);
  ("YEDE", ["3280"]);
  ("YEDH", ["1968"; "2296"]);
  ("YEDM", ["4265"; "4265"]);
  ("YEEB", ["4429"]);
  ("YEES", ["2296"]);
  ("YEGA", ["3500"]);
  ("YEIN", ["3937"]);
  ("YELD", ["4724,98,101,99,88,279"]);
  ("YELE", ["3116"]);
  ("YELK", ["3205"]);
  ("YELL", ["3740"]);
  ("YELM", ["2952,,,15,,195"]);
  ("YELN", ["3937"]);
  ("YELR", ["3608"]);
  ("YELS", ["3999"]);
  ("YEMG", ["3956"]);
  ("YEML", ["6234,98,620,71,605,251"; "3038,59,611,152,615,332"]);
  ("YEMP", ["2690"]);
  ("YENO", ["3608"]);
  ("YEPL", ["3464"; "3494"]);
  ("YEPR", ["2952"]);
  ("YEQ", ["1526,98"]);
  ("YEQO", ["4265"]);
  ("YERA", ["3280"; "6561"]);
  ("YERH", ["3937"; "3937"]);
  ("YERL", ["3772"]);
  ("YERN", ["3838"]);
  ("YERO", ["3608"]);
  ("YERU", ["2952"; "3280"]);
  ("YESC", ["3608"]);
  ("YESE", ["6799,269"]);
  ("YESP", ["3865,59,449,28,460,208"; "4921,98,444,111,469,291"]);
  ("YEUA", ["2952,33,555,,555"; "2296,33,555,,555"]);
  ("YEUD", ["2854"; "2080"]);
  ("YEUO", ["4675"]);
  ("YEVD", ["4275,60,,186,,6"]);
  ("YEVP", ["4921"]);
  ("YEXM", ["4215"]);
  ("YEYD", ["3280"; "3280"]);
  ("YFBS", ["4029,60,757,99,757,279"]);
  ("YFCK", ["1476"]);
  ("YFDF", ["7546,98"]);
  ("YFFT", ["1443"; "2486"]);
  ("YFIL", ["2952"]);
  ("YFLI", ["3510,,16,,34"; "5643,,17,,19"]);
  ("YFLS", ["3280"]);
  ("YFOR", ["4593"]);
  ("YFRD", ["3608"; "1804"]);
  ("YFRG", ["3805"]);
  ("YFRK", ["6561"]);
  ("YFRT", ["4426,148,510,94,503,274"; "4984,148,509,180,511,360"]);
  ("YFRV", ["3855"]);
  ("YFSA", ["3297"]);
  ("YFSK", ["2624"; "2296"]);
  ("YFTA", ["5029"]);
  ("YFTN", ["2460"; "3608"]);
  ("YFTZ", ["4265,98,363,18,363,198"]);
  ("YFVW", ["2395"; "1804"]);
  ("YFWY", ["2952"]);
  ("YGAH", ["2486"]);
  ("YGAM", ["1804"]);
  ("YGAN", ["2493"]);
  ("YGAR", ["2657"]);
  ("YGAT", ["2132"]);
  ("YGAW", ["4970"; "4970"]);
  ("YGAY", ["4150,59,369,67.1,358,247.1"]);
  ("YGBI", ["4527,,63,,63"])].

(* ADRpy/data/runways.csv *)
Definition airports_33 : list (string * list string) := [
  ("YGBW", ["2788"]);
  ("YGCR", ["2634"]);
  ("YGDA", ["3530,60,459,131,459,311"]);
  ("YGDH", ["5400,98,859,123,863,303"; "1942,98,858,183,860,3"]);
  ("YGDI", ["4396,98,711,42,710,222"; "2608,98,711,131.5,713,311.5"]);
  ("YGDR", ["2624"]);
  ("YGDS", ["3871"]);
  ("YGDV", ["3182"]);
  ("YGDW", ["3615"]);
  ("YGEL", ["6499,148,98,18,120,198"; "2953,59,113,80,121,260"; "2769,59,112,143,110,323"]);
  ("YGFN", ["5607,98,63,186,106,6"]);
  ("YGGE", ["4580"]);
  ("YGGI", ["3608"]);
  ("YGGL", ["3280"]);
  ("YGGO", ["3280"]);
  ("YGGS", ["3280"]);
  ("YGHG", ["1968"]);
  ("YGIB", ["3497"]);
  ("YGID", ["5249"]);
  ("YGIF", ["2985"]);
  ("YGIG", ["5997,148,247,75,243,255"]);
  ("YGIL", ["1902"; "4206"]);
  ("YGIR", ["3018"]);
  ("YGKL", ["2870"]);
  ("YGLA", ["5364,98,62,110,26,290"]);
  ("YGLB", ["4209,98,2141,48,2089,228"; "2218,98,2113,92,2091,272"]);
  ("YGLD", ["3937"]);
  ("YGLE", ["2887"]);
  ("YGLG", ["2542"; "3559"]);
  ("YGLI", ["5499,98,3414,105.9,3423,285.9"; "4915,98,3426,154,3433,334"]);
  ("YGLN", ["1968"; "2624"]);
  ("YGLO", ["1998"; "3405"]);
  ("YGLP", ["3772"]);
  ("YGLS", ["5249"]);
  ("YGLY", ["3937"]);
  ("YGMD", ["2624"]);
  ("YGMP", ["3707"]);
  ("YGN", ["5729,164"]);
  ("YGNA", ["3280"]);
  ("YGNF", ["2657"]);
  ("YGNV", ["3018"]);
  ("YGNW", ["4921"]);
  ("YGOM", ["3280"]);
  ("YGPI", ["4921"]);
  ("YGPR", ["4265"]);
  ("YGPT", ["4314,98,69,46,86,226"]);
  ("YGRD", ["2542"; "3559"]);
  ("YGRU", ["4593"]);
  ("YGSC", ["4035"]);
  ("YGTE", ["6237,98,30,100,51,280"]);
  ("YGTH", ["4931,98,426,65.8,439,245.8"; "1969,98,442,189,444,9"]);
  ("YGTN", ["3799,59,,60.9,,240.9"]);
  ("YGTO", ["3280"; "1968"]);
  ("YGTP", ["4101"]);
  ("YGUL", ["3280"]);
  ("YGUW", ["3937"]);
  ("YGVE", ["1998"]);
  ("YGWA", ["3576,,104,,104"]);
  ("YGWD", ["1640"; "3280"]);
  ("YGYM", ["1955,98,,36,,216"; "4600,59,,148.4,,328.4"]);
  ("YHAA", ["3254"]);
  ("YHAB", ["3986"]);
  ("YHAE", ["2788"]);
  ("YHAG", ["3937"]);
  ("YHAW", ["3280"]);
  ("YHAY", ["4800,98,303,44,303,224"; "3740,98,305,155,304,335"]);
  ("YHBA", ["6561,98,55,119,51,299"]);
  ("YHBK", ["2657"; "1902"]);
  ("YHBR", ["3937"]);
  ("YHBY", ["3280"]);
  ("YHDD", ["3280"]);
  ("YHDY", ["3999"; "3937"]);
  ("YHEC", ["2296"; "2296"]);
  ("YHEG", ["4921"]);
  ("YHEW", ["3608"; "3999"]);
  ("YHGR", ["5019"]);
  ("YHGS", ["3937"]);
  ("YHHY", ["2624"]);
  ("YHID", ["4557,98,12,85,23,265"; "4052,75,8,140,43,320"]);
  ("YHIL", ["4921"]);
  ("YHKT", ["3280"]);
  ("YHLC", ["4839,98,1338,44,1328,224"; "3104,59,1344,86,1318,266"]);
  ("YHLM", ["4101"]);
  ("YHLS", ["4262,60,,71.9,,251.9"; "2690,98,,151.4,,331.4"]);
  ("YHMB", ["3704"]);
  ("YHML", ["4045,98,776,113,799,293"; "4606,98,764,180,781,360"]);
  ("YHMT", ["3608"; "3280"]);
  ("YHOA", ["2296"]);
  ("YHOO", ["5118,,1032,,1028"]);
  ("YHOT", ["4762,98,4259,119.1,4229,299.1"]);
  ("YHOV", ["2952"]);
  ("YHOX", ["3602,98,135,167,135,347"]);
  ("YHOY", ["3510"]);
  ("YHPE", ["2985"; "2493"]);
  ("YHPN", ["3730,60,256,21,256,201"; "1598,98,,91,,271"]);
  ("YHRD", ["4494"; "3280"]);
  ("YHRG", ["5577"; "4593"]);
  ("YHSB", ["4921"]);
  ("YHSL", ["5249"]);
  ("YHSM", ["4337,98,438,90,445,270"; "2621,60,438,180,438,360"]);
  ("YHTA", ["2952"; "2624"]);
  ("YHTL", ["3937"]);
  ("YHTN", ["3188"]);
  ("YHTR", ["1640"]);
  ("YHTS", ["4265"]);
  ("YHUG", ["3051,59,1032,66,1033,246"; "5394,98,1029,127,1040,307"]);
  ("YHVH", ["3280"]);
  ("YIDK", ["3969"]);
  ("YIDR", ["2805"; "3205"]);
  ("YIFL", ["4409,98,42,35,24,215"; "4439,98,45,141,37,321"]);
  ("YIFY", ["2887"]);
  ("YIGM", ["5006,98,,58,,238"]);
  ("YIGR", ["2624"; "2296"]);
  ("YIKL", ["4593"]);
  ("YIKM", ["3018"]);
  ("YILA", ["3280"]);
  ("YILT", ["2296"]);
  ("YILW", ["2998"]);
  ("YIMA", ["3018"]);
  ("YIMB", ["5183,,760,,760"; "4288,,760,,760"]);
  ("YIMP", ["4757"]);
  ("YING", ["3608"]);
  ("YINJ", ["3956"]);
  ("YINN", ["4071"]);
  ("YINO", ["3280"]);
  ("YINV", ["6561"; "3280"]);
  ("YISD", ["3280"]);
  ("YISF", ["4498,100,,148.1,,328"]);
  ("YISV", ["3805"]);
  ("YITT", ["3018"]);
  ("YIVL", ["2297,60,,51.3,,231.3"; "6936,98,2594,170,2667,350"]);
  ("YIVO", ["3343,100,,97.8,,277.8"; "4088,60,,173.1,,353.1"]);
  ("YJAB", ["4670,100,72,95,69,275"]);
  ("YJAK", ["5905,,347,,342"]);
  ("YJAM", ["5249"]);
  ("YJBY", ["4800,150,,94.1,,274"; "5000,150,,166.1,,346.1"]);
  ("YJCO", ["2385"]);
  ("YJDA", ["4498"]);
  ("YJEM", ["1968"; "2952"]);
  ("YJER", ["3700"]);
  ("YJEY", ["2952"]);
  ("YJGP", ["5249"]);
  ("YJIG", ["4593"]);
  ("YJIN", ["2854"; "3280"]);
  ("YJLC", ["4600,98,402,107,402,287"]);
  ("YJNB", ["4265"]);
  ("YJNK", ["3937"]);
  ("YJNY", ["4921"]);
  ("YJRO", ["3280"]);
  ("YJST", ["3937"]);
  ("YJUK", ["5249"]);
  ("YJUN", ["6889,,1845,,1838"]);
  ("YJVM", ["3937"]);
  ("YJVS", ["3205"]);
  ("YJWB", ["3280"]);
  ("YKAE", ["3937"]);
  ("YKAJ", ["2296"]);
  ("YKAL", ["3418"; "3126,,95,,95"]);
  ("YKAN", ["3937"; "3937"]);
  ("YKAP", ["2099"; "1968"]);
  ("YKAT", ["2952"]);
  ("YKAY", ["3937"; "4593"]);
  ("YKBG", ["3280"]);
  ("YKBL", ["3576"]);
  ("YKBN", ["4593"]);
  ("YKBR", ["5246,60,,181,,1"]);
  ("YKBY", ["2559,59,69,52,69,232"; "4432,59,69,130,69,310"]);
  ("YKCA", ["4908"]);
  ("YKCK", ["4593"]);
  ("YKCS", ["5029"]);
  ("YKDI", ["3937"]);
  ("YKDL", ["3280"; "4265"]);
  ("YKDM", ["3605"]);
  ("YKDN", ["3608"]);
  ("YKEB", ["3280"]);
  ("YKEN", ["2998"]);
  ("YKER", ["2267,60,,59,,239"; "3501,60,254,149,254,329"]);
  ("YKGA", ["3904"; "5216"]);
  ("YKHA", ["4937"]);
  ("YKHG", ["5577"]);
  ("YKID", ["4101"]);
  ("YKIG", ["3248"]);
  ("YKII", ["2626,98,124,74,90,254"; "5198,98,107,115,103,295"; "3632,98,96,185,132,5"]);
  ("YKIL", ["3474"]);
  ("YKIU", ["4002"]);
  ("YKKG", ["4101,98,646,33,646,213"; "3038,60,646,134,646,314"]);
  ("YKKH", ["4265"]);
  ("YKLA", ["2296"]);
  ("YKLB", ["3280"]);
  ("YKLG", ["3280"]);
  ("YKLL", ["3280"; "3280"]);
  ("YKLN", ["3280"]);
  ("YKLR", ["2624"]);
  ("YKMB", ["4169,,18,,18"]);
  ("YKML", ["5275"]);
  ("YKMP", ["5413,98,53,54,50,234"; "2014,60,,170,,350"]);
  ("YKNC", ["2339"]);
  ("YKNG", ["4921"; ",,932,,927"]);
  ("YKNM", ["3280"; "2952"]);
  ("YKNP", ["4265"]);
  ("YKNT", ["4429"]);
  ("YKNV", ["1797"]);
  ("YKOG", ["2952"]);
  ("YKOJ", ["4265"]);
  ("YKOK", ["3280"]);
  ("YKOL", ["2952"]);
  ("YKOW", ["4528,98,34,120,35,300"]);
  ("YKPR", ["4921"]);
  ("YKRV", ["3280"]);
  ("YKRY", ["4275,98,1432,65,1492,245"; "5249,98,1417,168,1465,348"]);
  ("YKSC", ["4600,98,22,22,21,202"; "3720,98,24,67,20,247"; "3819,98,22,157,21,337"]);
  ("YKTH", ["3937"]);
  ("YKTN", ["2165"; "2329"]);
  ("YKUB", ["3281,60,,112.7,,292.7"]);
  ("YKUR", ["2936,289"]);
  ("YKUW", ["3018"; "1978"]);
  ("YKUY", ["3280"]);
  ("YKWG", ["3608"]);
  ("YKYB", ["2998"; "1797"]);
  ("YKYN", ["3149"]);
  ("YLAG", ["2034"]);
  ("YLAH", ["4002"]);
  ("YLAM", ["2952"]);
  ("YLAN", ["2296"; "1968"]);
  ("YLAO", ["2952"; "1968"]);
  ("YLAW", ["5314"]);
  ("YLBD", ["3937"]);
  ("YLBG", ["3937"]);
  ("YLCG", ["3937,,555,,555"; "2887,,555,,555"]);
  ("YLDB", ["4265"]);
  ("YLDO", ["4921"]);
  ("YLEA", ["3937"; "3280"]);
  ("YLEC", ["3999,59,851,30,849,210"; "5610,98,853,121,850,301"]);
  ("YLED", ["3608"; "3444"]);
  ("YLEE", ["4921"]);
  ("YLEG", ["3032,59,263,47,263,227"; "2195,59,,188,,8"]);
  ("YLEO", ["6621,98,1205,37,1217,217"; "3740,98,1206,133,1213,313"]);
  ("YLET", ["2952"]);
  ("YLEV", ["3494,60,256,85.4,256,265.4"]);
  ("YLFD", ["3280"]);
  ("YLGA", ["3608"; "2296"]);
  ("YLGB", ["3608"]);
  ("YLGC", ["3937"]);
  ("YLGD", ["1312"; "3280"]);
  ("YLGL", ["3280"]);
  ("YLGN", ["2296"; "3937"]);
  ("YLGU", ["2811"]);
  ("YLHI", ["2906,,15,,17"]);
  ("YLHL", ["2296"]);
  ("YLHR", ["4919,98,46,125,76,305"]);
  ("YLHS", ["4232"]);
  ("YLIL", ["3280,,238,,238"]);
  ("YLIM", ["3280"]);
  ("YLIS", ["5404,98,35,157,31,337"]);
  ("YLKD", ["3215"]);
  ("YLKN", ["2559"; "3015"]);
  ("YLLA", ["3608"; "3937"]);
  ("YLLC", ["3280"]);
  ("YLLD", ["2296"]);
  ("YLLE", ["5906,98,373,39.6,379,219.6"]);
  ("YLMB", ["3497"; "2513"]);
  ("YLMU", ["3280"]);
  ("YLND", ["3838"]);
  ("YLNR", ["3280"; "2427"]);
  ("YLOC", ["2952"]);
  ("YLOD", ["1968"]);
  ("YLOH", ["3494"]);
  ("YLOK", ["3116"]);
  ("YLOR", ["4504"]);
  ("YLOU", ["3280"]);
  ("YLOV", ["2854"]);
  ("YLOX", ["3891"; "2801"]);
  ("YLOY", ["2395"]);
  ("YLPR", ["1601"]);
  ("YLRA", ["3526"]);
  ("YLRD", ["2405,98,,48,,228"; "4613,60,540,110,540,290"]);
  ("YLRE", ["6352,98,626,47,624,227"; "2953,59,624,93,625,273"]);
  ("YLRG", ["3608"; "3937"]);
  ("YLRN", ["6561"]);
  ("YLRS", ["3280"]);
  ("YLSM", ["2296"; "2001"]);
  ("YLST", ["5906,98,1626,100,1630,280"]);
  ("YLSY", ["2952"; "4921"]);
  ("YLTN", ["5906,98,1512,70,1530,250"; "3015,98,1510,157,1517,337"]);
  ("YLTV", ["4692,75,165,45,180,225"; "1529,164"; "3015,60,157,97,179,277"]);
  ("YLUC", ["3280"]);
  ("YLUI", ["3280"]);
  ("YLUL", ["4051"; "3740"]);
  ("YLUW", ["3937"]);
  ("YLVB", ["2132"; "2952"]);
  ("YLVD", ["3280"; "3608"]);
  ("YLVY", ["3280"; "3280"]);
  ("YLWY", ["3280"; "3280"]);
  ("YLYD", ["4166"]);
  ("YLYK", ["1699"]);
  ("YLYN", ["3969"; "2982"]);
  ("YLZI", ["3038,49,,120,,300"]);
  ("YMAA", ["1312"]);
  ("YMAC", ["2952"; "3608"]);
  ("YMAD", ["4593"; "3608"]);
  ("YMAG", ["2099"; "3280"]);
  ("YMAI", ["4035"; "3280"]);
  ("YMAK", ["3280"]);
  ("YMAU", ["5249"]);
  ("YMAV", ["10000,148,32,187,34,7"]);
  ("YMAY", ["6234,98,539,81,531,261"]);
  ("YMBA", ["4938,98,1532,108,1560,288"]);
  ("YMBD", ["3494"; "2985"]);
  ("YMBL", ["4009"; "3454"]);
  ("YMBT", ["3199"]);
  ("YMBU", ["1908,100,,68,,248"; "3414,100,766,174,766,354"]);
  ("YMBX", ["3215"; "3116"]);
  ("YMBZ", ["3937"]);
  ("YMCE", ["2952"]);
  ("YMCK", ["3349"]);
  ("YMCL", ["2919"]);
  ("YMCO", ["2890,,102,,75"; "3372,,84,,76"]);
  ("YMCR", ["4002"]);
  ("YMCS", ["5577"]);
  ("YMCT", ["3937,60,56,85.3,56,265.3"]);
  ("YMCU", ["5085"]);
  ("YMDA", ["3116"]);
  ("YMDB", ["3608"]);
  ("YMDG", ["5705,98,1506,52,1544,232"; "3527,98,1545,171,1528,351"]);
  ("YMDI", ["3444"]);
  ("YMDK", ["3280"]);
  ("YMDN", ["4166"; "3018"]);
  ("YMDR", ["3280"]);
  ("YMDS", ["3608"]);
  ("YMDT", ["3937"; "3280"]);
  ("YMDV", ["5905"]);
  ("YMDW", ["3608"]);
  ("YMDY", ["3970,59,,124,,304"]);
  ("YMDZ", ["3280"; "4921"]);
  ("YMEB", ["4921"]);
  ("YMED", ["4199"; "3001"]);
  ("YMEI", ["4921"]);
  ("YMEK", ["7156,98,1691,85,1681,265"; "3494,98,1713,139,1693,319"]);
  ("YMEL", ["2952"; "2952"]);
  ("YMEN", ["6302,148,239,88,239,268"; "4311,148,282,177,282,357"]);
  ("YMEO", ["2198"]);
  ("YMEP", ["2624"]);
  ("YMER", ["5256,98,6,34,7,214"]);
  ("YMES", ["7995,148,19,54,14,234"; "7316,148,23,99,14,279"]);
  ("YMEU", ["3280"]);
  ("YMEW", ["3937"]);
  ("YMEY", ["2345"; "3444"]);
  ("YMFD", ["2952"]);
  ("YMGB", ["4626,60,53,116,32,296"]);
  ("YMGD", ["5020,98,110,148.6,123,328.6"]);
  ("YMGG", ["2788"; "4855"]);
  ("YMGI", ["1726,100,,19.4,,199.4"; "4606,98,,128.4,,308.4"]);
  ("YMGN", ["3608"]);
  ("YMGO", ["3280"; "1968"]);
  ("YMGR", ["5006"]);
  ("YMGS", ["3851"]);
  ("YMGT", ["3619,49,366,18.9,372,198.9"]);
  ("YMGV", ["3280"]);
  ("YMHB", ["7385,148,12,135,13,315"]);
  ("YMHL", ["3937"]);
  ("YMHO", ["3815"]);
  ("YMHT", ["3280"]);
  ("YMHU", ["4931,75,131,69,125,249"]);
  ("YMHW", ["3116"]);
  ("YMIA", ["6004,148,166,102,160,282"; "3737,98,162,186,165,6"]);
  ("YMIB", ["3937"]);
  ("YMIG", ["3280"]);
  ("YMIJ", ["3543"]);
  ("YMIL", ["2952"; "3937"]);
  ("YMIN", ["4560"]);
  ("YMIP", ["4635"; "5157"]);
  ("YMIS", ["3444"; "4593"]);
  ("YMIT", ["4675,98,,113,,293"]);
  ("YMIV", ["3116"; "2460"]);
  ("YMIX", ["3116"; "3444"]);
  ("YMJE", ["4429"]);
  ("YMJM", ["4016,50,940,117,927,297"]);
  ("YMKT", ["3116"]);
  ("YMLA", ["3280"]);
  ("YMLC", ["1312"]);
  ("YMLD", ["3937"]);
  ("YMLL", ["2460"]);
  ("YMLN", ["3772"; "3772"]);
  ("YMLR", ["2624"; "3608"]);
  ("YMLS", ["3608"]);
  ("YMLT", ["2297,60,535,147,545,327"; "6499,148,560,146,548,326"; "2264,60,,196,,16"]);
  ("YMLX", ["3116"; "4265"]);
  ("YMMB", ["1873,60,39,47,46,227"; "3783,98,49,142,40,322"; "3478,60,47,142,37,322"; "4383,98,49,176,37,356"; "4069,60,49,176,39,356"]);
  ("YMMI", ["6562,98,1535,33.8,1530,213.8"]);
  ("YMML", ["7500,148,395,94,407,274"; "11998,197,432,171,330,351"]);
  ("YMMN", ["4265"]);
  ("YMMT", ["3608"; "3576"]);
  ("YMMU", ["5085,98,,113,,293"]);
  ("YMNA", ["3280"]);
  ("YMNB", ["3608"]);
  ("YMND", ["3786,98,85,62,68,242"; "2634,60,,94.3,,274.3"]);
  ("YMNE", ["5896,98,1792,114,1772,294"]);
  ("YMNF", ["3280"; "2624"]);
  ("YMNG", ["6650,148,457,55,463,235"; "4793,98,463,189,466,9"]);
  ("YMNK", ["2690"]);
  ("YMNN", ["3211"]);
  ("YMNO", ["2952"]);
  ("YMNP", ["2952"; "2460"]);
  ("YMNS", ["4265"]);
  ("YMNT", ["3608"]);
  ("YMNW", ["1968"; "6233"]);
  ("YMNX", ["3937"]);
  ("YMNY", ["3608"]);
  ("YMOE", ["3280"]);
  ("YMOG", ["2953,98,1332,36,1345,216"; "5906,98,1354,161,1325,341"]);
  ("YMOM", ["3937"]);
  ("YMOO", ["4724"; "2887"]);
  ("YMOR", ["5292,98,697,17,701,197"; "3205,60,690,58,696,238"]);
  ("YMOT", ["3937"]);
  ("YMOU", ["5249"]);
  ("YMPA", ["4475,,504,,490"]);
  ("YMPC", ["3730,148,9,49,9,229"; "3497,148,,90,,270"; "4508,148,13,175,8,355"]);
  ("YMQA", ["2952"]);
  ("YMRA", ["7217"]);
  ("YMRB", ["5000,98,729,171,770,351"]);
  ("YMRE", ["4422"]);
  ("YMRS", ["2624"]);
  ("YMRT", ["4038"]);
  ("YMRW", ["3034,,886,,886"; "5298"; ",,886,,886"]);
  ("YMRY", ["2713,60,12,57,11,237"; "4997,98,14,192,13,12"]);
  ("YMSF", ["3205"]);
  ("YMSK", ["3280"]);
  ("YMSP", ["3772"]);
  ("YMSS", ["2296"; "3280"]);
  ("YMST", ["4011,285"; "4454,131"]);
  ("YMTA", ["2296"; "3280"]);
  ("YMTB", ["3608"]);
  ("YMTC", ["3444"; "3937"]);
  ("YMTG", ["2776,98,199,64,207,244"; "3025,98,203,121,200,301"; "5000,98,212,186,195,6"]);
  ("YMTI", ["4987,98,31,98,31,278"; "2480,59,,135,,315"]);
  ("YMTO", ["4301,100,,170.2,,350.2"]);
  ("YMTW", ["2296"; "3608"]);
  ("YMTX", ["4921"]);
  ("YMTZ", ["3608"]);
  ("YMUA", ["3608"]);
  ("YMUC", ["3608"]);
  ("YMUE", ["3937"]);
  ("YMUG", ["3444"]);
  ("YMUI", ["1722"]);
  ("YMUJ", ["4330"]);
  ("YMUK", ["3280"]);
  ("YMUL", ["3750,59,42,48,56,228"; "2930,59,56,93,56,273"]);
  ("YMUP", ["3280"]);
  ("YMUR", ["2624"]);
  ("YMUX", ["3608"; "2808"]);
  ("YMVG", ["2296"]);
  ("YMVH", ["3280"]);
  ("YMVM", ["1640"; "5249"]);
  ("YMVN", ["5003"]);
  ("YMVY", ["2624"]);
  ("YMWA", ["4721"]);
  ("YMWO", ["3280"; "3937"]);
  ("YMWT", ["3280"; "4068"]);
  ("YMWX", ["2798"]);
  ("YMYB", ["2904,98,31,129,36,309"; "5207,98,30,174,38,354"]);
  ("YMYH", ["3805"]);
  ("YMYI", ["4757"]);
  ("YMYR", ["3280"]);
  ("YMYT", ["4035"]);
  ("YMYV", ["3280"]);
  ("YMYW", ["3280"]);
  ("YMYY", ["3280"]);
  ("YMZI", ["3608"; "2952"]);
  ("YNAB", ["5249"]);
  ("YNAN", ["3608"]);
  ("YNAP", ["3474"]);
  ("YNAR", ["3346,98,471,53,469,233"; "5302,98,469,144,470,324"]);
  ("YNAU", ["2296"; "3280"]);
  ("YNBR", ["3980,98,730,95,786,275"; "5000,98,741,193,716,13"]);
  ("YNCD", ["3280"; "2624"]);
  ("YNCS", ["2952"]);
  ("YNDG", ["2657"; "2985"]);
  ("YNDR", ["2460"; "3280"]);
  ("YNDS", ["3280"; "3937"]);
  ("YNES", ["3280"; "3937"]);
  ("YNGB", ["2624"]);
  ("YNGU", ["5020,59,40,115,33,295"]);
  ("YNHE", ["2952"]);
  ("YNHL", ["3281,60,428,103,449,283"; "3615,98,444,187,421,7"]);
  ("YNHP", ["3608"]);
  ("YNHS", ["2952"]);
  ("YNHV", ["3605"]);
  ("YNIC", ["3937"; "5479"]);
  ("YNIG", ["3280"]);
  ("YNIN", ["3280"; "2788"]);
  ("YNKA", ["4593"]);
  ("YNMN", ["3280"]);
  ("YNNT", ["4921"]);
  ("YNOC", ["328"]);
  ("YNOF", ["2624"]);
  ("YNON", ["3280"; "3280"]);
  ("YNOO", ["1476"; "2788"]);
  ("YNPA", ["4593"]);
  ("YNPB", ["2887"]);
  ("YNPD", ["2624"]);
  ("YNPU", ["3274"]);
  ("YNRB", ["2952"; "3444"]);
  ("YNRC", ["3668,98,161,27,164,207"; "3438,60,161,84,164,264"]);
  ("YNRG", ["4199"; "4757"]);
  ("YNRL", ["3182"; "3592"]);
  ("YNRM", ["3609,148,780,54,780,234"; "4990,98,776,121,782,301"]);
  ("YNRR", ["4593"]);
  ("YNRV", ["5512,98,193,58.9,209,238.9"; "3927,98,200,138.6,193,318.6"]);
  ("YNSH", ["3280"]);
  ("YNSM", ["4960"; "3405"]);
  ("YNTM", ["4494"]);
  ("YNTN", ["5499,98,28,146,72,326"]);
  ("YNUB", ["3608"]);
  ("YNUD", ["4593"]);
  ("YNUE", ["3280"]);
  ("YNUL", ["4002"]);
  ("YNUM", ["4331,59,31,151,31,331"]);
  ("YNVE", ["2798"]);
  ("YNVL", ["1499"]);
  ("YNVR", ["2624"]);
  ("YNWL", ["2296"; "3608"]);
  ("YNWN", ["6798,98,1724,56,1712,236"]);
  ("YNWT", ["3605"]);
  ("YNYG", ["3608"]);
  ("YNYM", ["3500"]);
  ("YNYN", ["5390,98,568,59,566,239"; "3484,98,568,193,566,13"]);
  ("YNYP", ["4494"]);
  ("YOAD", ["6561"]);
  ("YOAP", ["3904"]);
  ("YOAS", ["2788"; "2788"]);
  ("YODA", ["3937"]);
  ("YODL", ["4921"; "3608"]);
  ("YOEN", ["4331,98,30,119,30,299"]);
  ("YOI", ["4915,141"]);
  ("YOIT", ["4593"]);
  ("YOKE", ["3280"]);
  ("YOKV", ["4593"]);
  ("YOLD", ["5220,98,343,71,318,251"]);
  ("YOLW", ["4494"; "3257,,23,,3"]);
  ("YOMI", ["4921"; "2624"]);
  ("YOMO", ["2624"]);
  ("YOOB", ["3500"; "2591"]);
  ("YOOD", ["4488"; "4215,,368,,368"]);
  ("YOOK", ["4691"; "4461"]);
  ("YOOM", ["5636,98,143,127,124,307"]);
  ("YOOO", ["3608"]);
  ("YORA", ["3116"; "1968"]);
  ("YORB", ["3740,,79,,94"]);
  ("YORG", ["2559,98,3112,52,3087,232"; "5499,98,3107,125,3115,305"]);
  ("YORL", ["5511"]);
  ("YORR", ["3740"]);
  ("YORT", ["3149"]);
  ("YORV", ["3198"; "3503"]);
  ("YORW", ["4265"]);
  ("YOSB", ["6550,75"]);
  ("YOTN", ["2624"]);
  ("YOUN", ["3937"]);
  ("YOUY", ["3280"]);
  ("YPAC", ["3280"]);
  ("YPAD", ["10171,148,14,50,20,230"; "5420,148,14,124,14,304"]);
  ("YPAG", ["5413,98,56,159,45,339"]);
  ("YPAK", ["3937"]);
  ("YPAM", ["3730,59,20,142.7,16,322.7"]);
  ("YPAY", ["4015"]);
  ("YPBH", ["3608"; "2099"]);
  ("YPBO", ["6995,148,1374,65,1405,245"]);
  ("YPCC", ["7999,148,5,149,7,329"]);
  ("YPCE", ["3454,,164,,164"]);
  ("YPCH", ["2500"; "2952"]);
  ("YPCM", ["4668,161"]);
  ("YPCS", ["5249"; "1476"]);
  ("YPDA", ["4104,75"]);
  ("YPDI", ["3608"]);
  ("YPDN", ["11004,197,96,109,81,289"; "5000,98,96,180,91,360"]);
  ("YPDO", ["3280"]);
  ("YPDY", ["3280"]);
  ("YPEA", ["5548,148,114,45,150,225"; "8002,148,119,174,111,354"; "5712,98,128,173,108,353"]);
  ("YPEC", ["2204,,3,,5"]);
  ("YPED", ["6437,150,51,48,66,228"; "8399,150,60,189,52,9"]);
  ("YPEF", ["2494"; "4265"]);
  ("YPFT", ["2998"; "2500,,2684,,2701"]);
  ("YPGH", ["3280"]);
  ("YPGV", ["7244,148,192,130,172,310"]);
  ("YPID", ["3220,59"]);
  ("YPIN", ["3510"]);
  ("YPIR", ["2205,98,,41,,221"; "3422,98,40,90,40,270"; "3507,98,40,180,40,360"]);
  ("YPIX", ["4265"; "3608"]);
  ("YPJI", ["4593"; "3280"]);
  ("YPJT", ["4569,98,94,54,94,234"; "3773,59,95,54,94,234"; "3248,98,94,114,94,294"]);
  ("YPKA", ["6070,98,30,83,20,263"]);
  ("YPKE", ["3608"]);
  ("YPKG", ["6562,148,1203,110,1147,290"; "3936,59,1166,185,1187,5"]);
  ("YPKH", ["2296"]);
  ("YPKI", ["2755"; "1804"]);
  ("YPKL", ["2624"]);
  ("YPKS", ["5525,148,1029,55,1067,235"; "5322,98,1033,124,1069,304"]);
  ("YPKT", ["4626,59,,161,,341"]);
  ("YPKU", ["6000,98,141,119,144,299"]);
  ("YPLC", ["4918,98,9,17,21,197"; "4183,98,21,58,13,238"; "4757,98,36,154,9,334"]);
  ("YPLG", ["3412"]);
  ("YPLI", ["2998"]);
  ("YPLL", ["5249"]);
  ("YPLM", ["9997,148,13,184,19,4"]);
  ("YPLU", ["4921"]);
  ("YPMB", ["2624"; "3608"]);
  ("YPME", ["3280"]);
  ("YPMH", ["5906,98"]);
  ("YPMP", ["4462,98,,150.6,,330.6"]);
  ("YPMQ", ["5203,98,11,30,12,210"; "2283,60,12,114,12,294"]);
  ("YPNC", ["3182"]);
  ("YPNG", ["3280"; "3280"]);
  ("YPNI", ["5249"]);
  ("YPNN", ["4396"]);
  ("YPNW", ["4484"]);
  ("YPOD", ["5302,98,256,87,261,267"; "3871,98,265,177,251,357"]);
  ("YPOK", ["2755"]);
  ("YPPD", ["8202,148,23,138,33,318"; "3281,59,27,183,29,3"]);
  ("YPPF", ["4429,59,35,28,49,208"; "4196,98,39,28,55,208"; "3143,59,31,85,46,265"; "3255,59,35,85,41,265"]);
  ("YPPH", ["11299,148,67,14,43,194"; "7096,148,58,59,58,239"]);
  ("YPRA", ["1968"; "2952"]);
  ("YPRE", ["2788"]);
  ("YPSH", ["2985"]);
  ("YPSR", ["59,59"]);
  ("YPTB", ["3805"]);
  ("YPTJ", ["5905"]);
  ("YPTN", ["9003,150,428,139,443,319"]);
  ("YPUA", ["4560"]);
  ("YPUN", ["4593"]);
  ("YPVD", ["3116"]);
  ("YPWH", ["2493"]);
  ("YPWR", ["5295,98,536,125,540,305"; "7782,148,537,186,548,6"]);
  ("YPXM", ["6900,148,916,175,810,355"]);
  ("YPYA", [""]);
  ("YPYD", ["3608"]);
  ("YPYF", ["5741"; "4199"]);
  ("YQBE", ["3280"]);
  ("YQBK", ["1640"; "2624"]);
  ("YQDG", ["4265"; "2132"]);
  ("YQDI", ["3629,60,1023,65,1034,245"; "5807,98,1023,140,1026,320"]);
  ("YQLP", ["4898,98,642,95,653,275"; "3510,98,,195,,15"]);
  ("YQNS", ["4101,,867,,867"]);
  ("YQON", ["3937"; "2496"]);
  ("YQRN", ["3608"]);
  ("YQUE", ["3280"]);
  ("YRAG", ["2296"]);
  ("YRAM", ["1640"; "3444"]);
  ("YRAT", ["1716,,,180,,0"]);
  ("YRAV", ["2952"; "3937"]);
  ("YRAW", ["3871"]);
  ("YRBB", ["2624"]);
  ("YRBE", ["1360,100,,32,,147"; "2165,180"]);
  ("YRBH", ["66,66"]);
  ("YRBK", ["59,59"; "59,59"]);
  ("YRBN", ["1614,167"]);
  ("YRBR", ["3805"]);
  ("YRBT", ["4396"]);
  ("YRDA", ["4265"; "3280"]);
  ("YRDM", ["3854"]);
  ("YRDY", ["3608"; "4593"]);
  ("YRED", ["2798,,7,,7"]);
  ("YREN", ["5709,98,109,74,109,254"; ",,115,,107"; "3360,98,112,185,110,5"]);
  ("YRHL", ["2624"; "2296"]);
  ("YRID", ["2198"]);
  ("YRKE", ["2952"]);
  ("YRKS", ["3280"; "3280"]);
  ("YRLE", ["3608"]);
  ("YRLL", ["3215"]);
  ("YRMD", ["5000,98,658,98,675,278"]);
  ("YRNG", ["4825,59,206,92,206,272"]);
  ("YRNW", ["3999"; "1899"]);
  ("YROB", ["0"]);
  ("YROE", ["5137"; "5666"]);
  ("YROI", ["3740,,284,,284"; "3854,,284,,284"]);
  ("YROK", ["3280"]);
  ("YROM", ["2628,98,1030,102,1000,282"; "4934,98,999,192,997,12"]);
  ("YROT", ["3937"]);
  ("YROV", ["2952"]);
  ("YRRB", ["4107"]);
  ("YRRG", ["5905"]);
  ("YRRR", ["2132"]);
  ("YRSB", ["4455"]);
  ("YRSK", ["3280"]);
  ("YRSY", ["3198"; "2395"]);
  ("YRTI", ["4242,59,12,91,8,271"]);
  ("YRTP", ["3205"]);
  ("YRUD", ["3280"; "4921"]);
  ("YRVE", ["2952"]);
  ("YRWA", ["3608"; "3280"]);
  ("YRWH", ["3608"]);
  ("YRXB", ["2001"; "2919"]);
  ("YRYH", ["3937"; "3116"]);
  ("YRYK", ["3608"]);
  ("YSAH", ["3280"]);
  ("YSAI", ["3937"]);
  ("YSAN", ["3280"; "3280"]);
  ("YSAR", ["3444"]);
  ("YSBK", ["4644,98,20,124,26,304"; "3609,98,21,124,29,304"; "3419,75,17,124,22,304"]);
  ("YSBO", ["3280"]);
  ("YSCA", ["5500,60,180,8,180,26"; "2700,60,165,170,180,350"]);
  ("YSCB", ["5509,148,1849,130,1886,310"; "10771,148,1874,180,1870,360"]);
  ("YSCH", ["6824,148,14,41,18,221"; "2785,60,9,107,15,287"]);
  ("YSCN", ["4804,98,221,65,230,245"; "2372,98,221,111,225,291"]);
  ("YSCO", ["4606,98,741,124.1,705,304.1"]);
  ("YSCR", ["4337"; "4609"]);
  ("YSDL", ["4265"]);
  ("YSDU", ["5604,148,935,53,903,233"; "3501,60,910,118,927,298"]);
  ("YSDW", ["2624"; "1640"]);
  ("YSEN", ["2952"; "1968"]);
  ("YSFI", ["2952"]);
  ("YSFY", ["2296"]);
  ("YSGD", ["3280"]);
  ("YSGE", ["4987,98,654,120,655,300"]);
  ("YSGR", ["3280"]);
  ("YSGT", ["3608"]);
  ("YSGW", ["3572"]);
  ("YSHG", ["4757"]);
  ("YSHK", ["5545,98,111,178,111,358"]);
  ("YSHN", ["2952"]);
  ("YSHR", ["3608"]);
  ("YSHT", ["1388,98,374,98,374,278"; "4521,60,374,191,374,11"]);
  ("YSIA", ["2296"; "3608"]);
  ("YSII", ["2099"]);
  ("YSLG", ["3937"]);
  ("YSLK", ["3412,,184,,184"; "2296"]);
  ("YSLN", ["2624"]);
  ("YSLV", ["3280"]);
  ("YSMB", [""]);
  ("YSMI", ["5246,60,31,69,21,249"; "2034,98,21,113,22,293"]);
  ("YSMR", ["3280"]);
  ("YSMY", ["3280"]);
  ("YSNB", ["4734,98,157,129,173,309"]);
  ("YSNF", ["4708,98,325,50,367,230"; "6398,150,321,122,366,302"]);
  ("YSNT", ["1988"; "2283"]);
  ("YSNW", ["6713,148,357,45,376,225"; "6870,148,400,95,362,275"]);
  ("YSOW", ["3280"]);
  ("YSPE", ["5597,98,2859,91,2934,271"]);
  ("YSPF", ["2624"]);
  ("YSPI", ["1968"; "3982"]);
  ("YSPK", ["3248"]);
  ("YSPT", ["2680,,5,,5"]);
  ("YSPV", ["5000"; "2624"]);
  ("YSRD", ["6397"]);
  ("YSRI", ["7001,148,66,107,53,287"]);
  ("YSRN", ["4002,,61,,61"]);
  ("YSRT", ["2001"; "3526"]);
  ("YSSY", ["8300,148,16,74,20,254"; "7999,148,16,168,13,348"; "12999,148,8,168,14,348"]);
  ("YSTA", ["1755,60,,97,,277"; "3278,60,639,187,639,7"]);
  ("YSTB", ["2952"]);
  ("YSTC", ["3937"]);
  ("YSTH", ["3510,,158,,117"]);
  ("YSTO", ["3280"]);
  ("YSTR", ["3608"; "3937"]);
  ("YSTT", ["3316"]);
  ("YSTW", ["2762,98,1313,73,1310,253"; "7218,148,1283,133,1326,313"; "3642,60,1318,133,1334,313"; "3346,98,1292,188,1334,8"]);
  ("YSUJ", ["3205"]);
  ("YSVN", ["3116"]);
  ("YSWA", ["2952"]);
  ("YSWE", ["3608"]);
  ("YSWG", ["5801,148,712,62,699,242"; "5007,98,692,125,724,305"]);
  ("YSWH", ["3166,98,232,49,227,229"; "4905,98,229,92,226,272"; "2329,98,229,156,228,336"]);
  ("YSWK", ["2752,164"]);
  ("YSWL", ["4603,98,807,115,807,295"; "2802,60,807,185,807,5"]);
  ("YSYN", ["2624"; "3280"]);
  ("YTAA", ["4803"]);
  ("YTAB", ["3444"]);
  ("YTAD", ["3937"; "4799"]);
  ("YTAM", ["3579,,749,,786"; "3608,,731,,772"]);
  ("YTAN", ["3280"]);
  ("YTAR", ["4166"; "4265"]);
  ("YTBB", ["3608,,31,,10"]);
  ("YTBG", ["984,,1300,,1300"]);
  ("YTBR", ["3408"]);
  ("YTCF", ["3608"]);
  ("YTCK", ["5511"]);
  ("YTCY", ["4101"]);
  ("YTDL", ["1968"; "1968"]);
  ("YTDM", ["3280"]);
  ("YTDN", ["3115,79"; "950,33"]);
  ("YTDR", ["4406"]);
  ("YTEC", ["3444"]);
  ("YTEE", ["5902,98,891,141,876,321"]);
  ("YTEF", ["6562,98,969,121,945,301"]);
  ("YTEK", ["20,20"; "20,20"; "20,20"]);
  ("YTEM", ["6454,98,913,62,902,242"; "2674,98,910,99,910,279"; "4816,98,905,189,915,9"]);
  ("YTEN", ["3444"]);
  ("YTFD", ["4593"]);
  ("YTGA", ["1968"]);
  ("YTGG", ["2591"]);
  ("YTGI", ["5249"]);
  ("YTGM", ["2776,98,429,51,428,231"; "4800,98,429,141,427,321"]);
  ("YTGT", ["4921"]);
  ("YTHD", ["3215"]);
  ("YTHI", ["4593"]);
  ("YTHS", ["3494"]);
  ("YTHV", ["3343"]);
  ("YTHY", ["3543"]);
  ("YTIB", ["3202,60,547,30,561,210"; "5026,98,584,161,543,341"]);
  ("YTII", ["1968"; "3608"]);
  ("YTIT", ["4265"]);
  ("YTJI", ["3280"; "5380"]);
  ("YTJU", ["4265"]);
  ("YTKY", ["4593"]);
  ("YTLG", ["1968"]);
  ("YTLL", ["2460"]);
  ("YTLT", ["3444"]);
  ("YTMB", ["4002"]);
  ("YTML", ["2926"]);
  ("YTMN", ["4265"]);
  ("YTMO", ["6233,98,949,145.2,947,325.2"]);
  ("YTMS", ["4265"]);
  ("YTMU", ["3478,60,841,182,858,2"]);
  ("YTMY", ["2952"]);
  ("YTNE", ["3444"]);
  ("YTNG", ["4993,98,632,111,644,291"; "2605,98,630,140,641,320"]);
  ("YTNK", ["6427,98,1204,73.4,1229,253.4"; "3468,59,1211,119,1222,299"]);
  ("YTNN", ["3444"]);
  ("YTNR", ["3280"]);
  ("YTNS", ["2296"]);
  ("YTOA", ["4757"]);
  ("YTOB", ["2788"]);
  ("YTOC", ["3937,98,365,98,372,278"; "4596,98,367,188,370,9"]);
  ("YTOG", ["3937"; "3280"]);
  ("YTOK", ["2624"]);
  ("YTOS", ["3444"]);
  ("YTOT", ["3208,,780,,780"; "2309"]);
  ("YTQY", ["2985"; "2641"]);
  ("YTRB", ["3034"]);
  ("YTRC", ["3280"]);
  ("YTRE", ["4934,98,32,45,7,225"; "1850,60,34,138,32,318"]);
  ("YTRK", ["1640"; "3608"]);
  ("YTST", ["5643,98,125,120.2,181,300.2"]);
  ("YTTE", ["2624"]);
  ("YTTI", ["3412,,15,,15"]);
  ("YTUA", ["2385"]);
  ("YTUC", ["3937"]);
  ("YTUN", ["1476"; "4265"]);
  ("YTUY", ["3001"]);
  ("YTVA", ["3018"]);
  ("YTWB", ["2165,58,2060,72,2086,252"; "3678,98,2076,117,2069,297"]);
  ("YTWE", ["2296"]);
  ("YTWN", ["3799"]);
  ("YTYA", ["1312"; "3280,30,88,,88"]);
  ("YTYH", ["2985"]);
  ("YTYN", ["3001"; "2837"]);
  ("YUCH", ["3815"]);
  ("YUDG", ["3280"]);
  ("YUDL", ["2296"]);
  ("YUMB", ["3116"]);
  ("YUMU", ["5577"]);
  ("YUNY", ["3297"]);
  ("YUPH", ["3280"]);
  ("YUSL", ["3280"]);
  ("YUTP", ["3937"]);
  ("YUTS", ["3937"]);
  ("YVAF", ["3772"]);
  ("YVIV", ["3280"; "3937"]);
  ("YVLG", ["3280"]);
  ("YVNS", ["3937"]);
  ("YVRD", ["3589,,290,,289"]);
  ("YVSH", ["4593"]);
  ("YVVA", ["2125"]);
  ("YVVL", ["2952"]);
  ("YWAB", ["3772"; "3871"]);
  ("YWAC", ["2624"]);
  ("YWAG", ["3608"]);
  ("YWAL", ["2952"; "4265"]);
  ("YWAN", ["2460"]);
  ("YWAT", ["3280"]);
  ("YWAV", ["3805"]);
  ("YWBH", ["3280"]);
  ("YWBI", ["3405"]);
  ("YWBL", ["3507,98,228,49,232,229"; "4501,98,242,138,218,318"]);
  ("YWBN", ["2798"]);
  ("YWBR", ["5216,75,1500,185,1510,5"]);
  ("YWBS", ["2362"]);
  ("YWCA", ["3051,60,,37.8,,217.8"; "3701,98,,98.2,,278.2"]);
  ("YWCH", ["5167"; "2801"]);
  ("YWCK", ["4922,59,1513,101.1,1526,281.1"]);
  ("YWCM", ["4593"]);
  ("YWDA", ["4921"]);
  ("YWDH", ["4508,98,430,50,433,230"]);
  ("YWDJ", ["3608"]);
  ("YWDL", ["4035"]);
  ("YWDR", ["3280"]);
  ("YWDT", ["3280"]);
  ("YWED", ["2952"]);
  ("YWEE", ["5577"]);
  ("YWEO", ["4757"; "2296"]);
  ("YWER", ["3280"]);
  ("YWEX", ["3937"]);
  ("YWFD", ["3937"]);
  ("YWGM", ["700,90"]);
  ("YWGN", ["3937"; "3608"]);
  ("YWGT", ["1739,60,,98,,278"; "5381,98,499,188,504,8"]);
  ("YWGW", ["5249"; "3608"]);
  ("YWHA", ["4619,98,39,54,34,234"; "5531,148,35,175,26,355"]);
  ("YWHC", ["2454"; "3379"]);
  ("YWHI", ["3608"]);
  ("YWHL", ["3854"]);
  ("YWIB", ["3608"]);
  ("YWIE", ["4265"]);
  ("YWIL", ["3280"]);
  ("YWIO", ["3280"; "2296"]);
  ("YWIS", ["5928,98,,151.5,,331.5"]);
  ("YWKB", ["4501,98,397,86,395,266"; "2503,98,382,176,394,356"]);
  ("YWKH", ["3871"]);
  ("YWKI", ["2736,59,138,24,138,204"; "3151,59,138,86,138,266"]);
  ("YWKM", ["2788"; "4593"]);
  ("YWKS", ["10499"]);
  ("YWKW", ["3280"]);
  ("YWLA", ["3182"]);
  ("YWLB", ["5249"; "6561"]);
  ("YWLG", ["5335,98,439,58,439,238"; "3783,98,438,191,438,11"]);
  ("YWLM", ["7999,148,30,130,17,310"]);
  ("YWLN", ["3608"]);
  ("YWLP", ["1968"; "3116"]);
  ("YWLU", ["3999,98,1639,34,1640,214"; "5942,98,1649,147,1624,327"]);
  ("YWMA", ["4839"; "3937"]);
  ("YWMC", ["2624"; "4265"]);
  ("YWMG", ["3280"]);
  ("YWML", ["3280"]);
  ("YWMP", ["3001"]);
  ("YWMY", ["3280"; "1968"]);
  ("YWNA", ["3280"; "2624"]);
  ("YWND", ["4606"]);
  ("YWNI", ["2723"; "3280"]);
  ("YWNL", ["5626"]);
  ("YWNO", ["4265"; "2624"]);
  ("YWOH", ["4133"; "2460"]);
  ("YWOL", ["4367,98,29,94,18,274"; "5967,98,22,169,29,349"]);
  ("YWOM", ["2296"]);
  ("YWOR", ["4199"]);
  ("YWOV", ["3280"; "3280"]);
  ("YWOX", ["3280"; "3937"]);
  ("YWPA", ["3772"]);
  ("YWPE", ["2870"]);
  ("YWPL", ["3280"]);
  ("YWRA", ["2998"]);
  ("YWRC", ["4593"]);
  ("YWRE", ["3838"]);
  ("YWRL", ["4921"]);
  ("YWRN", ["3461,98,669,42,669,222"; "3894,60,669,100,669,280"]);
  ("YWRR", ["2985"; "4035"]);
  ("YWRT", ["2001"]);
  ("YWRV", ["3280"]);
  ("YWSD", ["3280"; "2296"]);
  ("YWSG", ["2300"; "2600"]);
  ("YWSI", ["3937"]);
  ("YWSL", ["1640,98,76,57,72,237"; "5010,98,62,100,69,280"; "2293,98,64,146,93,326"]);
  ("YWSX", ["1640"; "2952"]);
  ("YWTL", ["3182"]);
  ("YWTN", ["2920,59,628,60,632,240"; "4600,98,638,149,617,329"]);
  ("YWTO", ["3280"; "2624"]);
  ("YWTV", ["4593"]);
  ("YWUD", ["3081,59,310,75,283,255"; "4954,98,306,144,277,324"]);
  ("YWVA", ["3280"]);
  ("YWWA", ["3730"]);
  ("YWWG", ["6561"; "6561"]);
  ("YWWH", ["3280"]);
  ("YWWI", ["4593"]);
  ("YWWL", ["2559,60,848,42,848,222"; "5200,98,858,99,841,279"]);
  ("YWYA", ["3838"]);
  ("YWYB", ["4130"]);
  ("YWYF", ["2355"; "3385,,350,,350"]);
  ("YWYM", ["5272,59,13,124,12,304"; "3287,98,13,186,13,6"]);
  ("YWYY", ["2516,98,61,65,62,245"; "5413,98,62,99,33,279"]);
  ("YXCF", ["33,33"; "33,33"]);
  ("YXTA", ["1968"]);
  ("YYAA", ["3608"]);
  ("YYAC", ["3001"]);
  ("YYAK", ["3116"]);
  ("YYAL", ["3608"; "4593"]);
  ("YYBE", ["3116"]);
  ("YYCN", ["5196"]);
  ("YYDE", ["3608"]);
  ("YYDM", ["3280"]);
  ("YYEA", ["2952"]);
  ("YYER", ["4921"; "4265"]);
  ("YYGG", ["3937"]);
  ("YYKI", ["3281,,10,,10"]);
  ("YYLD", ["2296"; "2132"]);
  ("YYLG", ["4593"; "3608"]);
  ("YYLR", ["4921"; "2624"]);
  ("YYMI", ["2329"]);
  ("YYND", ["4724,60,,127.1,,307.1"]);
  ("YYNG", ["4003,60,1267,15,1251,195"]);
  ("YYNR", ["2755"; "4921"]);
  ("YYOO", ["2952"]);
  ("YYOR", ["3740,295"]);
  ("YYRK", ["3937"]);
  ("YYRM", ["3576,,50,,56"; "2480"]);
  ("YYRN", ["3116"]);
  ("YYRW", ["4921"]);
  ("YYTA", ["3937"]);
  ("YYUM", ["3011"]);
  ("YYUN", ["2952"]);
  ("YYWG", ["3750,75,421,22,424,202"]);
  ("YZAN", ["3937"]);
  ("Z13", ["1649,40,22,117,23,297"]);
  ("Z14", ["900,42"])].

(* ADRpy/data/runways.csv *)
Definition airports_34 : list (string * list string) := [
  ("Z17", ["1940,60"]);
  ("Z19O", ["6000"]);
  ("Z20", ["2000,200"; "2000,200"]);
  ("Z25", ["1250,50"; "850,40"]);
  ("Z33", ["10000,1000"]);
  ("Z40", ["3000,75,78,,78"]);
  ("Z41", ["2200,75"]);
  ("Z43", ["10560,1500"]);
  ("Z47", ["2000,60"]);
  ("Z48", ["1675,40"]);
  ("Z52", ["1325,30"; "820,20"]);
  ("Z55", ["700,18"]);
  ("Z58", ["2600,1500,17,,17"]);
  ("Z59", ["3000,500,15,,15"]);
  ("Z71", ["10000,500"]);
  ("Z78", ["6000,4000"; "10000,4000"]);
  ("Z81", ["1860,55"]);
  ("Z86", ["350,20"]);
  ("Z87", ["2500,1000,50,,50"; "2000,1000,50,,50"]);
  ("Z90", ["1960,40"]);
  ("Z91", ["4000,75"]);
  ("Z92", ["2225,100"]);
  ("Z93", ["2200,55"]);
  ("Z95", ["4200,100"]);
  ("ZA-0004", ["1800,60"]);
  ("ZA-0038", ["2624,22,1259,357,1233,177"]);
  ("ZA-0047", ["4593,52,2180,60,2119,240"]);
  ("ZA-0104", ["4921,98,2877,136,2946,316"]);
  ("ZA-0105", ["2460,33,3802,12,,192"]);
  ("ZA-0112", ["3100,45,5194,39,5216,219"]);
  ("ZA-0113", ["3100,30,4944,56,4996,236"]);
  ("ZA-0114", ["4593,42,4235,64,4190,244"]);
  ("ZA-0115", ["2200,60,789,,775"]);
  ("ZA-0120", ["2120,40,200,20,,200"]);
  ("ZBAA", ["12468,197,94,353,84,173"; "12468,197,110,173,99,353"; "10499,164,116,173,107,353"]);
  ("ZBBB", [""]);
  ("ZBHH", ["11811,148,3511,72,3556,252"; "11811,148,3511,72.7,3556,252.7"]);
  ("ZBLA", ["8530,148,2169,83.8,2152,263.8"]);
  ("ZBLF", ["8530,148"]);
  ("ZBNY", ["9514"]);
  ("ZBSJ", ["11155,148,233,147.4,220,327.4"]);
  ("ZBTJ", ["10499,148,12,154,12,334"; "10811,164,8,154.5,8,334.5"]);
  ("ZBYN", ["10500,148,2546,127,2575,307"]);
  ("ZEN", ["1598,98"]);
  ("ZGGG", ["11811,148,41,14,43,194"; "12467,197,45,14,45,194"; "12467,197,45,14,48,194"]);
  ("ZGHA", ["8530,148,217,177,197,357"]);
  ("ZGKL", ["9186,147,571,5,564,185"]);
  ("ZGNN", ["8858,148,417,46.8,420,226.8"]);
  ("ZGOW", ["9186,148,,40,15,220"]);
  ("ZGSZ", ["11155,148,13,153,13,333"]);
  ("ZHCC", ["11155,197,495,112.3,486,292.3"]);
  ("ZHHH", ["11155,148,95,42,112,222"]);
  ("ZJHK", ["11811,148,75,89.8,66,269.8"]);
  ("ZJSY", ["11155,148,62,82.2,89,262.2"]);
  ("ZJYX", ["7874,171,,45,,225"]);
  ("ZKPY", ["12475,197,89,0.7,102,180.7"; "11490,230,96,163,86,343"]);
  ("ZLGM", [""]);
  ("ZLJQ", ["9834,131,5112,,5112"]);
  ("ZLLL", ["11811,148,6388,177.4,6329,357.4"]);
  ("ZLXY", ["9842,148,1562,48.9,1568,228.9"]);
  ("ZMAH", ["7546,,5932,,5771"]);
  ("ZMAT", ["7513,,7261,,7165"]);
  ("ZMBD", ["3938,,3419,,3399"]);
  ("ZMBH", ["9186,114,6119,156.7,6050,336.7"; "6889,164,,156.5,,336.5"]);
  ("ZMBN", ["6234,,4311,,4222"]);
  ("ZMBS", ["5906,,3914,,3894"]);
  ("ZMBU", ["7217,164,3159,172.1,3094,352.1"]);
  ("ZMCD", ["8530,131,2457,112.2,2421,292.2"]);
  ("ZMDZ", ["7545,164,4787,26.5,4704,206.5"]);
  ("ZMHU", ["7218,,5379,,5522"]);
  ("ZMKD", [",,4746,,4899"; "9352,160,4761,157.3,4914,337.3"; "6535,164,,158.1,,338.1"]);
  ("ZMMN", ["8005,137,4273,102.2,4236,282.2"]);
  ("ZMSH", ["9183,,2969,,3022"]);
  ("ZMUB", ["10170,197,4147,136,4363,316"; "6560,131,4123,145,4267,325"]);
  ("ZMUL", ["7874,,5725,,5646"]);
  ("ZNC", ["3650,100"]);
  ("ZPJH", ["7218,148,1808,160,1814,340"]);
  ("ZPLX", ["7218"]);
  ("ZPPP", ["13123,148,6891,39.3,6884,219.3"; "14764,197,6885,39,6879,219"]);
  ("ZSAM", ["11155,148,56,53,36,233"]);
  ("ZSCN", ["9186,148,121,23,141,203"]);
  ("ZSFZ", ["11841,150,20,26.7,46,206.7"]);
  ("ZSHC", ["11154,197,22,63,23,243"; "11811,148,22,62.9,22,242.9"]);
  ("ZSJN", ["11812,148,76,360,73,180"]);
  ("ZSNB", ["10499,148,13,123,13,303"]);
  ("ZSNJ", ["11811,148,43,58,38,238"; "11810,197,43,58,39,238"]);
  ("ZSOF", ["9843,164,95,135.3,72,315.3"]);
  ("ZSPD", ["12467,197,12,162,12,342"; "12467,197,11,162,11,342"; "13123,197,10,162,10,342"; "11154,197,12,162,12,342"]);
  ("ZSQD", ["11155,148,33,166,33,346"]);
  ("ZSSS", ["11154,148,7,176,9,356"; "10826,197,10,176,10,356"]);
  ("ZSWH", ["8530,148,112,18.5,144,198.5"]);
  ("ZSXZ", ["11548,147,115,90,115,270"]);
  ("ZSYA", ["7874"]);
  ("ZSYT", ["8530,148,52,37.5,52,217.5"]);
  ("ZUBD", ["18045,148"]);
  ("ZUCK", ["10499,148,1352,16.9,1348,196.9"]);
  ("ZUGY", ["10500,197,3737,9.9,3730,189.9"]);
  ("ZULS", ["13123,148,11712,89,11704,269"; "11811"]);
  ("ZUNZ", ["9843,,9644,,9671"]);
  ("ZUUU", ["11811,197,1617,22,1624,202"]);
  ("ZUXC", ["11811,164,5112,178.4,5069,358.4"]);
  ("ZWSH", ["10499,135,4524,85.9,4498,265.9"]);
  ("ZWTN", ["10499,164,4613,110,4672,290"]);
  ("ZWWW", ["11811,148,2123,73.6,2126,253.6"]);
  ("ZYCC", ["10500,148,705,48.8,646,228.8"]);
  ("ZYHB", ["10500,148,457,39.4,439,219.4"]);
  ("ZYJM", ["7218,148,262,48.1,261,228.1"]);
  ("ZYMD", ["8530,148,883,25.9,866,205.9"]);
  ("ZYQQ", ["8530,148,476,157.5,476,337.5"]);
  ("ZYTL", ["10827,148,105,95.6,85,275.6"]);
  ("ZYTX", ["10499,148,171,48.7,197,228.7"]);
  ("ZYYJ", ["8530,148,623,81.7,597,261.7"]);
  ("ZZZZ", ["1713,82"])].

(* ADRpy/data/runways.csv *)
Definition shipped_airports : list (string * list string) :=
  (airports_0
   ++ airports_1
   ++ airports_2
   ++ airports_3
   ++ airports_4
   ++ airports_5
   ++ airports_6
   ++ airports_7
   ++ airports_8
   ++ airports_9
   ++ airports_10
   ++ airports_11
   ++ airports_12
   ++ airports_13
   ++ airports_14
   ++ airports_15
   ++ airports_16
   ++ airports_17
   ++ airports_18
   ++ airports_19
   ++ airports_20
   ++ airports_21
   ++ airports_22
   ++ airports_23
   ++ airports_24
   ++ airports_25
   ++ airports_26
   ++ airports_27
   ++ airports_28
   ++ airports_29
   ++ airports_30
   ++ airports_31
   ++ airports_32
   ++ airports_33
   ++ airports_34)%list.
