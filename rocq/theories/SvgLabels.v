(** The labels of the picture of the 6-bus network: rendering/envs/anm6/svgLabels.js, and the element IDs of rendering/envs/anm6/network.svg. *)
From Coq Require Import String List.
Import ListNotations.
Local Open Scope string_scope.
Local Open Scope list_scope.

(** svgLabels.js 50-58: one entry of [svgDevices]; [dl_pot] is absent (undefined) for most devices *)
Record dev_label := mkDl { dl_ptick : string; dl_qtick : string; dl_prect : string; dl_qrect : string; dl_ptext : string; dl_qtext : string; dl_arrow : string; dl_pot : option string }.
(** svgLabels.js 60-66, 68-70 (its [arrow] is never read) and 72-79 *)
Record line_label := mkLl { ll_rect : string; ll_text : string; ll_cross : list string; ll_arrows : list string }.
Record stor_label := mkSl { sl_tick : string; sl_text : string; sl_rect : string }.
Record bus_label := mkBl { bl_text : string; bl_cross : list string }.

Definition svg_devices : list dev_label :=
  [mkDl "text4219" "text4450" "rect4223" "rect4227" "text4267" "text4271" "g2863" None;
   mkDl "text1129" "text4479" "rect1121" "rect1094" "text1183" "text1206" "g2899" None;
   mkDl "text1223" "text4509" "rect1227" "rect1231" "text3968" "text3972" "g2935" (Some "rect4394");
   mkDl "text3978" "text4539" "rect3982" "rect3986" "text4038" "text4042" "g3007" None;
   mkDl "text4048" "text4569" "rect4052" "rect4056" "text4081" "text4085" "g2971" (Some "rect4421");
   mkDl "text4103" "text4599" "rect4107" "rect4111" "text4129" "text4133" "g3079" None;
   mkDl "text4177" "text4628" "rect4181" "rect4185" "text4201" "text4205" "g3043" None].
Definition svg_lines : list line_label :=
  [mkLl "rect1326" "text1338" ["path1591"; "path1593"] ["g3151"; "g2613"];
   mkLl "rect1232" "text1324" ["path8986"; "path8988"] ["g2325"; "g3115"];
   mkLl "rect1226" "text1270" ["path1623"; "path1625"] ["g2541"; "g2577"];
   mkLl "rect1272" "text1284" ["path1615"; "path1617"] ["g2469"; "g2505"];
   mkLl "rect1286" "text1298" ["path1631"; "path1633"] ["g2361"; "g2397"; "g2433"]].
Definition svg_storage : list stor_label := [mkSl "text1215" "text4215" "rect1607"].
Definition svg_buses : list bus_label :=
  [mkBl "text1153" ["path1131"; "path1133"];
   mkBl "text1159" ["path1123"; "path1125"];
   mkBl "text1165" ["path1105"; "path1108"];
   mkBl "text1077" ["path1098"; "path1100"];
   mkBl "text1141" ["path1107"; "path1109"];
   mkBl "text1147" ["path1115"; "path1117"]].

(** svgLabels.js 3: the colours of the bars of the branches, from 1 % to 100 % *)
Definition color_gradient : list string :=
    ["#0000ff"; "#0300fc"; "#0500fa"; "#0800f7"; "#0a00f5"; "#0d00f2"; "#0f00f0"; "#1200ed"; "#1500ea"; "#1700e8";
     "#1a00e5"; "#1c00e3"; "#1f00e0"; "#2100de"; "#2400db"; "#2700d8"; "#2900d6"; "#2c00d3"; "#2e00d1"; "#3100ce";
     "#3400cb"; "#3600c9"; "#3900c6"; "#3b00c4"; "#3e00c1"; "#4000bf"; "#4300bc"; "#4600b9"; "#4800b7"; "#4b00b4";
     "#4d00b2"; "#5000af"; "#5200ad"; "#5500aa"; "#5800a7"; "#5a00a5"; "#5d00a2"; "#5f00a0"; "#62009d"; "#64009b";
     "#670098"; "#6a0095"; "#6c0093"; "#6f0090"; "#71008e"; "#74008b"; "#760089"; "#790086"; "#7c0083"; "#7e0081";
     "#81007e"; "#83007c"; "#860079"; "#890076"; "#8b0074"; "#8e0071"; "#90006f"; "#93006c"; "#95006a"; "#980067";
     "#9b0064"; "#9d0062"; "#a0005f"; "#a2005d"; "#a5005a"; "#a70058"; "#aa0055"; "#ad0052"; "#af0050"; "#b2004d";
     "#b4004b"; "#b70048"; "#b90046"; "#bc0043"; "#bf0040"; "#c1003e"; "#c4003b"; "#c60039"; "#c90036"; "#cb0034";
     "#ce0031"; "#d1002e"; "#d3002c"; "#d60029"; "#d80027"; "#db0024"; "#de0021"; "#e0001f"; "#e3001c"; "#e5001a";
     "#e80017"; "#ea0015"; "#ed0012"; "#f0000f"; "#f2000d"; "#f5000a"; "#f70008"; "#fa0005"; "#fc0003"; "#ff0000"].
(** svgLabels.js 5-11, 20-21 *)
Definition gen_color := "#31b620". Definition load_color := "#4960fb". Definition pot_color := "#ff0000". Definition soc_color := "#f17741". Definition broken_color := "#ff0000".
Definition neg_color := "#ff0000". Definition pos_color := "#31b620".
(** svgLabels.js 13-19 ([svgReward]) *)
Definition rw_loss_rect := "rect5879". Definition rw_pen_rect := "rect5903". Definition rw_loss_max := "text3022". Definition rw_loss_text := "text3028".
Definition rw_pen_max := "text2992". Definition rw_pen_text := "text3034".
(** svgLabels.js 24-47 ([svgParams]) *)
Definition lb_date := "tspan5951". Definition lb_time := "tspan5955". Definition lb_year := "tspan1071". Definition lb_title := "text5968".
Definition lb_check := "text6301". Definition lb_group := ["text1128"; "text6301"].

(** the [id] attributes of network.svg, in file order *)
Definition svg_ids : list string :=
    ["svg4693"; "defs4687"; "linearGradient6311"; "stop6309"; "linearGradient6305"; "stop6303"; "linearGradient3636"; "stop3632"; "stop3634"; "marker2122"; "g2120"; "path2108";
     "path2110"; "path2112"; "path2114"; "path2116"; "path2118"; "marker2086"; "g2084"; "path2072"; "path2074"; "path2076"; "path2078"; "path2080";
     "path2082"; "marker2070"; "g2068"; "path2056"; "path2058"; "path2060"; "path2062"; "path2064"; "path2066"; "Arrow1Mend"; "path1648"; "marker2052";
     "path2050"; "marker2048"; "path2046"; "marker2044"; "g2042"; "path2030"; "path2032"; "path2034"; "path2036"; "path2038"; "path2040"; "EmptyTriangleOutL";
     "path1799"; "Arrow2Send"; "path1672"; "marker2024"; "path2022"; "Arrow2Lend"; "path1660"; "marker2018"; "path2016"; "Arrow1Lstart"; "path1639"; "marker2012";
     "g2010"; "path1998"; "path2000"; "path2002"; "path2004"; "path2006"; "path2008"; "marker1988"; "g1986"; "path1974"; "path1976"; "path1978";
     "path1980"; "path1982"; "path1984"; "marker1972"; "g1970"; "path1958"; "path1960"; "path1962"; "path1964"; "path1966"; "path1968"; "marker1956";
     "g1954"; "path1942"; "path1944"; "path1946"; "path1948"; "path1950"; "path1952"; "marker1940"; "g1938"; "path1926"; "path1928"; "path1930";
     "path1932"; "path1934"; "path1936"; "DistanceStart"; "g2300"; "path2306"; "path2302"; "path2304"; "Tail"; "g1687"; "path1675"; "path1677";
     "path1679"; "path1681"; "path1683"; "path1685"; "TriangleOutL"; "path1781"; "TriangleOutM"; "path1784"; "marker1907"; "path1905"; "Arrow1Lend"; "path1642";
     "linearGradient1389"; "stop1387"; "linearGradient1380"; "stop1384"; "linearGradient1380-7"; "stop1378"; "linearGradient968"; "stop966"; "linearGradient3638"; "base"; "grid4125"; "metadata4690";
     "layer1"; "g2235"; "g2237"; "g2239"; "g2241"; "g2243"; "g2245"; "g2247"; "g2249"; "g2251"; "g2253"; "g2255";
     "g2257"; "g2259"; "g2261"; "g2263"; "g6019"; "g6021"; "g6023"; "g6025"; "g6027"; "g6029"; "g6031"; "g6033";
     "g6035"; "g6037"; "g6039"; "g6041"; "g6043"; "g6045"; "g6047"; "text2454"; "text3399"; "text4481"; "text5917"; "text5968";
     "tspan5966"; "rect5949"; "text5953"; "tspan5951"; "text5957"; "tspan5955"; "text1073"; "tspan1071"; "path4881"; "path4889"; "image4908"; "path5333";
     "path5398"; "path5420"; "path5422"; "path5424"; "path5451"; "path5673"; "text6304"; "tspan6302"; "text6308"; "tspan6306"; "text6312"; "tspan6310";
     "text6316"; "tspan6314"; "text6320"; "tspan6318"; "text6324"; "tspan6322"; "path6326"; "image998"; "image1004"; "rect1326"; "text1338"; "tspan1336";
     "rect1567"; "g6774"; "rect1226"; "text1270"; "tspan1268"; "rect1569"; "rect1232"; "text1324"; "tspan1322"; "rect1571"; "g6768"; "rect1272";
     "text1284"; "tspan1282"; "rect1573"; "g6762"; "rect1286"; "text1298"; "tspan1296"; "rect1575"; "g1557"; "g1552"; "path8986"; "path8988";
     "g1621"; "g1619"; "path1615"; "path1617"; "g1629"; "g1627"; "path1623"; "path1625"; "g1637"; "g1635"; "path1631"; "path1633";
     "g2325"; "g2293"; "path2291"; "g2295"; "g2297"; "g2299"; "g2301"; "g2303"; "g2305"; "g2307"; "g2309"; "g2311";
     "g2313"; "g2315"; "g2317"; "g2319"; "g2321"; "g2323"; "g2361"; "g2329"; "path2327"; "g2331"; "g2333"; "g2335";
     "g2337"; "g2339"; "g2341"; "g2343"; "g2345"; "g2347"; "g2349"; "g2351"; "g2353"; "g2355"; "g2357"; "g2359";
     "g2397"; "g2365"; "path2363"; "g2367"; "g2369"; "g2371"; "g2373"; "g2375"; "g2377"; "g2379"; "g2381"; "g2383";
     "g2385"; "g2387"; "g2389"; "g2391"; "g2393"; "g2395"; "g2433"; "g2401"; "path2399"; "g2403"; "g2405"; "g2407";
     "g2409"; "g2411"; "g2413"; "g2415"; "g2417"; "g2419"; "g2421"; "g2423"; "g2425"; "g2427"; "g2429"; "g2431";
     "g2469"; "g2437"; "path2435"; "g2439"; "g2441"; "g2443"; "g2445"; "g2447"; "g2449"; "g2451"; "g2453"; "g2455";
     "g2457"; "g2459"; "g2461"; "g2463"; "g2465"; "g2467"; "g2505"; "g2473"; "path2471"; "g2475"; "g2477"; "g2479";
     "g2481"; "g2483"; "g2485"; "g2487"; "g2489"; "g2491"; "g2493"; "g2495"; "g2497"; "g2499"; "g2501"; "g2503";
     "g2541"; "g2509"; "path2507"; "g2511"; "g2513"; "g2515"; "g2517"; "g2519"; "g2521"; "g2523"; "g2525"; "g2527";
     "g2529"; "g2531"; "g2533"; "g2535"; "g2537"; "g2539"; "g2577"; "g2545"; "path2543"; "g2547"; "g2549"; "g2551";
     "g2553"; "g2555"; "g2557"; "g2559"; "g2561"; "g2563"; "g2565"; "g2567"; "g2569"; "g2571"; "g2573"; "g2575";
     "g2613"; "g2581"; "path2579"; "g2583"; "g2585"; "g2587"; "g2589"; "g2591"; "g2593"; "g2595"; "g2597"; "g2599";
     "g2601"; "g2603"; "g2605"; "g2607"; "g2609"; "g2611"; "g2863"; "g2831"; "path2829"; "g2833"; "g2835"; "g2837";
     "g2839"; "g2841"; "g2843"; "g2845"; "g2847"; "g2849"; "g2851"; "g2853"; "g2855"; "g2857"; "g2859"; "g2861";
     "g2004"; "g1959"; "path4953"; "path4955"; "g2899"; "g2867"; "path2865"; "g2869"; "g2871"; "g2873"; "g2875"; "g2877";
     "g2879"; "g2881"; "g2883"; "g2885"; "g2887"; "g2889"; "g2891"; "g2893"; "g2895"; "g2897"; "g2935"; "g2903";
     "path2901"; "g2905"; "g2907"; "g2909"; "g2911"; "g2913"; "g2915"; "g2917"; "g2919"; "g2921"; "g2923"; "g2925";
     "g2927"; "g2929"; "g2931"; "g2933"; "g2044"; "path5457"; "path5459"; "g2971"; "g2939"; "path2937"; "g2941"; "g2943";
     "g2945"; "g2947"; "g2949"; "g2951"; "g2953"; "g2955"; "g2957"; "g2959"; "g2961"; "g2963"; "g2965"; "g2967";
     "g2969"; "g3007"; "g2975"; "path2973"; "g2977"; "g2979"; "g2981"; "g2983"; "g2985"; "g2987"; "g2989"; "g2991";
     "g2993"; "g2995"; "g2997"; "g2999"; "g3001"; "g3003"; "g3005"; "g2085"; "path1000"; "path1002"; "g3043"; "g3011";
     "path3009"; "g3013"; "g3015"; "g3017"; "g3019"; "g3021"; "g3023"; "g3025"; "g3027"; "g3029"; "g3031"; "g3033";
     "g3035"; "g3037"; "g3039"; "g3041"; "g3079"; "g3047"; "path3045"; "g3049"; "g3051"; "g3053"; "g3055"; "g3057";
     "g3059"; "g3061"; "g3063"; "g3065"; "g3067"; "g3069"; "g3071"; "g3073"; "g3075"; "g3077"; "g3115"; "g3083";
     "path3081"; "g3085"; "g3087"; "g3089"; "g3091"; "g3093"; "g3095"; "g3097"; "g3099"; "g3101"; "g3103"; "g3105";
     "g3107"; "g3109"; "g3111"; "g3113"; "g3151"; "g3119"; "path3117"; "g3121"; "g3123"; "g3125"; "g3127"; "g3129";
     "g3131"; "g3133"; "g3135"; "g3137"; "g3139"; "g3141"; "g3143"; "g3145"; "g3147"; "g3149"; "g6912"; "path6906";
     "path6908"; "rect6910"; "g1597"; "g1595"; "path1591"; "path1593"; "path8342"; "g4879"; "g4823"; "path4821"; "g4825"; "g4827";
     "g4829"; "g4831"; "g4833"; "g4835"; "g4837"; "g4839"; "g4841"; "g4843"; "g4845"; "g4847"; "g4849"; "g4851";
     "g4853"; "g3338"; "path2287"; "text2291"; "tspan2289"; "g1076"; "ellipse2298"; "text2302"; "tspan2300"; "g5027"; "g5025"; "path5021";
     "path5023"; "g5029"; "g5031"; "g5033"; "g5035"; "g5037"; "g5039"; "g5041"; "g5043"; "g5045"; "g5047"; "g5049";
     "g5051"; "g5053"; "g5055"; "g5057"; "g4352"; "ellipse2320"; "text2324"; "tspan2322"; "g5315"; "path5218"; "path5220"; "path5222";
     "path5224"; "path5226"; "path5228"; "path5230"; "path5232"; "path5234"; "path5236"; "path5238"; "path5240"; "path5242"; "path5244"; "path5246";
     "path5248"; "path5250"; "path5252"; "path5254"; "path5256"; "path5258"; "path5260"; "path5262"; "path5264"; "path5266"; "path5268"; "path5270";
     "path5272"; "path5274"; "path5276"; "g4034"; "g5671"; "g5614"; "path5610"; "path5612"; "g5616"; "g5618"; "g5620"; "g5622";
     "g5624"; "g5626"; "g5628"; "g5630"; "g5632"; "g5634"; "g5636"; "g5638"; "g5640"; "g5642"; "g5644"; "g4006";
     "g2342"; "ellipse2332"; "text2336"; "tspan2334"; "g2340"; "ellipse2338"; "path5537"; "g2354"; "ellipse2344"; "text2348"; "tspan2346"; "g2352";
     "ellipse2350"; "g1099"; "path1082"; "path1084"; "path1086"; "g2366"; "ellipse2356"; "text2360"; "tspan2358"; "g2364"; "ellipse2362"; "rect1607";
     "g6017"; "path6013"; "path6015"; "text1215"; "tspan1213"; "g2378"; "ellipse2368"; "text2372"; "tspan2370"; "g2376"; "ellipse2374"; "g3964";
     "text1183"; "tspan1181"; "text1206"; "tspan1204"; "g3974"; "text3968"; "tspan3966"; "text3972"; "tspan3970"; "g4044"; "text4038"; "tspan4036";
     "text4042"; "tspan4040"; "g4087"; "text4081"; "tspan4079"; "text4085"; "tspan4083"; "g4135"; "text4129"; "tspan4127"; "text4133"; "tspan4131";
     "g1054"; "text4201"; "tspan4199"; "text4205"; "tspan4203"; "text4215"; "tspan4213"; "g4273"; "text4267"; "tspan4265"; "text4271"; "tspan4269";
     "text4219"; "tspan4217"; "rect4223"; "rect4225"; "rect4227"; "rect4229"; "text4233"; "tspan4231"; "text4237"; "tspan4235"; "text4450"; "tspan4448";
     "text1129"; "tspan1127"; "rect1121"; "rect1587"; "rect1094"; "rect1104"; "text1133"; "tspan1131"; "text1133-1"; "tspan1131-3"; "text4479"; "tspan4477";
     "text1223"; "tspan1221"; "rect1227"; "rect1229"; "rect1231"; "rect1233"; "text1237"; "tspan1235"; "text1241"; "tspan1239"; "rect4394"; "text4509";
     "tspan4507"; "text3978"; "tspan3976"; "rect3982"; "rect3984"; "rect3986"; "rect3988"; "text3992"; "tspan3990"; "text3996"; "tspan3994"; "text4539";
     "tspan4537"; "text4048"; "tspan4046"; "rect4052"; "rect4054"; "rect4056"; "rect4058"; "text4062"; "tspan4060"; "text4066"; "tspan4064"; "rect4421";
     "text4569"; "tspan4567"; "g1075"; "text4103"; "tspan4101"; "rect4107"; "rect4109"; "rect4111"; "rect4113"; "text4117"; "tspan4115"; "text4121";
     "tspan4119"; "text4599"; "tspan4597"; "g1061"; "text4177"; "tspan4175"; "rect4181"; "rect4183"; "rect4185"; "rect4187"; "text4191"; "tspan4189";
     "text4195"; "tspan4193"; "text4628"; "tspan4626"; "g1084"; "text1077"; "tspan1075"; "g1105"; "g1103"; "path1098"; "path1100"; "g1113";
     "g1111"; "path1107"; "path1109"; "g1121"; "g1119"; "path1115"; "path1117"; "g1129"; "g1127"; "path1123"; "path1125"; "g1137";
     "g1135"; "path1131"; "path1133"; "g1143"; "text1141"; "tspan1139"; "g1149"; "text1147"; "tspan1145"; "g1155"; "text1153"; "tspan1151";
     "g1161"; "text1159"; "tspan1157"; "g1167"; "text1165"; "tspan1163"; "g1116"; "g1114"; "path1105"; "path1108"; "rect3026"; "text3387";
     "tspan3385"; "text3395"; "tspan3393"; "g3583"; "g3581"; "ellipse3575"; "text3579"; "tspan3577"; "text3587"; "tspan3585"; "text3897"; "tspan3895";
     "text3901"; "tspan3899"; "text3661"; "tspan3659"; "g3697"; "g3665"; "path3663"; "g3667"; "g3669"; "g3671"; "g3673"; "g3675";
     "g3677"; "g3679"; "g3681"; "g3683"; "g3685"; "g3687"; "g3689"; "g3691"; "g3693"; "g3695"; "g3737"; "g3705";
     "g3703"; "path3699"; "path3701"; "g3707"; "g3709"; "g3711"; "g3713"; "g3715"; "g3717"; "g3719"; "g3721"; "g3723";
     "g3725"; "g3727"; "g3729"; "g3731"; "g3733"; "g3735"; "g3799"; "path3739"; "path3741"; "path3743"; "path3745"; "path3747";
     "path3749"; "path3751"; "path3753"; "path3755"; "path3757"; "path3759"; "path3761"; "path3763"; "path3765"; "path3767"; "path3769"; "path3771";
     "path3773"; "path3775"; "path3777"; "path3779"; "path3781"; "path3783"; "path3785"; "path3787"; "path3789"; "path3791"; "path3793"; "path3795";
     "path3797"; "g3837"; "g3805"; "path3801"; "path3803"; "g3807"; "g3809"; "g3811"; "g3813"; "g3815"; "g3817"; "g3819";
     "g3821"; "g3823"; "g3825"; "g3827"; "g3829"; "g3831"; "g3833"; "g3835"; "path3839"; "g3847"; "path3841"; "path3843";
     "path3845"; "g3885"; "g3853"; "path3849"; "path3851"; "g3855"; "g3857"; "g3859"; "g3861"; "g3863"; "g3865"; "g3867";
     "g3869"; "g3871"; "g3873"; "g3875"; "g3877"; "g3879"; "g3881"; "g3883"; "g3893"; "path3887"; "path3889"; "rect3891";
     "text3905"; "tspan3903"; "text3909"; "tspan3907"; "text3913"; "tspan3911"; "text3917"; "tspan3915"; "text3921"; "tspan3919"; "text3925"; "tspan3923";
     "text3929"; "tspan3927"; "text3933"; "tspan3931"; "g3741"; "text3391"; "tspan3389"; "rect3602"; "rect3604"; "rect3610"; "text4222"; "tspan4220";
     "text4362"; "tspan4360"; "text4366"; "tspan4364"; "g1307"; "text3407"; "tspan3405"; "rect3653"; "text4405"; "tspan4403"; "g1278"; "text3403";
     "tspan3401"; "rect3630"; "text4370"; "tspan4368"; "text1492"; "tspan1490"; "g1112"; "g1079"; "path1077"; "g1081"; "g1083"; "g1085";
     "g1087"; "g1089"; "g1091"; "g1093"; "g1095"; "g1097"; "g1100"; "g1102"; "g1104"; "g1106"; "g1108"; "g1110";
     "path1500"; "g1748"; "g3651"; "g3649"; "path3645"; "path3647"; "text4401"; "tspan4399"; "tspan1327"; "text1282"; "tspan1280"; "text5493";
     "tspan5491"; "rect5303"; "text5867"; "tspan5865"; "text5871"; "tspan5877"; "tspan2089"; "rect5879"; "text5883"; "tspan5881"; "rect5893"; "rect5903";
     "text5907"; "tspan5905"; "rect5909"; "g2994"; "text2992"; "tspan2990"; "g3024"; "text3022"; "tspan3020"; "g3030"; "text3028"; "tspan3026";
     "g3036"; "text3034"; "tspan3032"; "text1128"; "tspan1126"; "text6301"; "tspan6369"; "rect6315"; "text3651"; "tspan3649"; "g3728"; "text3655";
     "tspan3653"; "rect3701"; "rect3705"; "text3709"; "tspan3707"; "text3717"; "tspan3715"].
