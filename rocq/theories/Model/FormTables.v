(** Model of cryspy/A_functions_base/charge_form_factor.py l.155-182 (calc_scattering_amplitude_tabulated) and magnetic_form_factor.py
    l.14-30 (get_j0_j2_parameters, one symbol at a time), with the tables "Scattering amplitude" and "Magnetic Form Factor, tabulated" of
    cryspy/A_functions_base/database.pickle in units of 1e-6; the numbers are the shortest decimals of the floats of the file.  The arithmetic is that of the real
    numbers; the tables <j4>, <j6>, which no function reads, are left out. *)
From Coq Require Import Reals ZArith String List Ascii Bool.
From Verif Require Import Model.Strings Model.Ions Model.AtomFactors.
Import ListNotations.
Open Scope R_scope.

(** DATABASE["Scattering amplitude"]: a1, b1, a2, b2, a3, b3, a4, b4, c *)
Definition amplitude_table : list (string * list Z) := [
  ("H", [489918; 20659300; 262003; 7740390; 196767; 49551900; 49879; 2201590; 1305]);
  ("H1-", [897661; 53136800; 565616; 15187000; 415815; 186576000; 116973; 3567090; 2389]);
  ("He", [873400; 9103700; 630900; 3356800; 311200; 22927600; 178000; 982100; 6400]);
  ("Li", [1128200; 3954600; 750800; 1052400; 617500; 85390500; 465300; 168261000; 37700]);
  ("Li1+", [696800; 4623700; 788800; 1955700; 341400; 631600; 156300; 10095300; 16700]);
  ("Be", [1591900; 43642700; 1127800; 1862300; 539100; 103483000; 702900; 542000; 38500]);
  ("Be2+", [6260300; 2700; 884900; 831300; 799300; 2275800; 164700; 5114600; -6109200]);
  ("B", [2054500; 23218500; 1332600; 1021000; 1097900; 60349800; 706800; 140300; -193200]);
  ("C", [2310000; 20843900; 1020000; 10207500; 1588600; 568700; 865000; 51651200; 215600]);
  ("Cval", [2260690; 22690700; 1561650; 656665; 1050750; 9756180; 839259; 55594900; 286977]);
  ("N", [12212600; 5700; 3132200; 9893300; 2012500; 28997500; 1166300; 582600; -11529000]);
  ("O", [3048500; 13277100; 2286800; 5701100; 1546300; 323900; 867000; 32908900; 250800]);
  ("O1-", [4191600; 12857300; 1639690; 4172360; 1526730; 47017900; -20307000; -14040; 21941200]);
  ("F", [3539200; 10282500; 2641200; 4294400; 1517000; 261500; 1024300; 26147600; 277600]);
  ("F1-", [3632200; 5277560; 3510570; 14735300; 1260640; 442258; 940706; 47343700; 653396]);
  ("Ne", [3955300; 8404200; 3112500; 3426200; 1454600; 230600; 1125100; 21718400; 351500]);
  ("Na", [4762600; 3285000; 3173600; 8842200; 1267400; 313600; 1112800; 129424000; 676000]);
  ("Na1+", [3256500; 2667100; 3936200; 6115300; 1399800; 200100; 1003200; 14039000; 404000]);
  ("Mg", [5420400; 2827500; 2173500; 79261100; 1226900; 380800; 2307300; 7193700; 858400]);
  ("Mg2+", [3498800; 2167600; 3837800; 4754200; 1328400; 185000; 849700; 10141100; 485300]);
  ("Al", [6420200; 3038700; 1900200; 742600; 1593600; 31547200; 1964600; 85088600; 1115100]);
  ("Al3+", [4174480; 1938160; 3387600; 4145530; 1202960; 228753; 528137; 8285240; 706786]);
  ("Siv", [6291500; 2438600; 3035300; 32333700; 1989100; 678500; 1541000; 81693700; 1140700]);
  ("Sival", [5662690; 2665200; 3071640; 38663400; 2624460; 916946; 1393200; 93545800; 1247070]);
  ("Si4+", [4439180; 1641670; 3203450; 3437570; 1194530; 214900; 416530; 6653650; 746297]);
  ("P", [6434500; 1906700; 4179100; 27157000; 1780000; 526000; 1490800; 68164500; 1114900]);
  ("S", [6905300; 1467900; 5203400; 22215100; 1437900; 253600; 1586300; 56172000; 866900]);
  ("Cl", [11460400; 10400; 7196400; 1166200; 6255600; 18519400; 1645500; 47778400; -9554000]);
  ("Cl1-", [18291500; 6600; 7208400; 1171700; 6533700; 19542400; 2338600; 60448600; -16378000]);
  ("Ar", [7484500; 907200; 6772300; 14840700; 653900; 43898300; 1644200; 33392900; 1444500]);
  ("K", [8218600; 12794900; 7439800; 774800; 1051900; 213187000; 865900; 41684100; 1422800]);
  ("K1+", [7957800; 12633100; 7491700; 767400; 6359000; -2000; 1191500; 31912800; -4997800]);
  ("Ca", [8626600; 10442100; 7387300; 659900; 1589900; 85748400; 1021100; 178437000; 1375100]);
  ("Ca2+", [15634800; -7400; 7951800; 608900; 8437200; 10311600; 853700; 25990500; -14875000]);
  ("Sc", [9189000; 9021300; 7367900; 572900; 1640900; 136108000; 1468000; 51353100; 1332900]);
  ("Sc3+", [13400800; 298540; 8027300; 7962900; 1659430; -286400; 1579360; 16066200; -6666700]);
  ("Ti", [9759500; 7850800; 7355800; 500000; 1699100; 35633800; 1902100; 116105000; 1280700]);
  ("Ti2+", [9114230; 7524300; 7621740; 457585; 2279300; 19536100; 87899; 61655800; 897155]);
  ("Ti3+", [17734400; 220610; 8738160; 7047160; 5256910; -157620; 1921340; 15976800; -14652000]);
  ("Ti4+", [19511400; 178847; 8234730; 6670180; 2013410; -292630; 1520800; 12946400; -13280000]);
  ("V", [10297100; 6865700; 7351100; 438500; 2070300; 26893800; 2057100; 102478000; 1219900]);
  ("V2+", [10106000; 6881800; 7354100; 440900; 2288400; 20300400; 22300; 115122000; 1229800]);
  ("V3+", [9431410; 6395350; 7741900; 383349; 2153430; 15190800; 16865; 63969000; 656565]);
  ("V5+", [15688700; 679003; 8142080; 5401350; 2030810; 9972780; -9576000; 940464; 1714300]);
  ("Cr", [10640600; 6103800; 7353700; 392000; 3324000; 20262600; 1492200; 98739900; 1183200]);
  ("Cr2+", [9540340; 5660780; 7750900; 344261; 3582740; 13307500; 509107; 32422400; 616898]);
  ("Cr3+", [9680900; 5594630; 7811360; 334393; 2876030; 12828800; 113575; 32876100; 518275]);
  ("Mn", [11281900; 5340900; 7357300; 343200; 3019300; 17867400; 2244100; 83754300; 1089600]);
  ("Mn2+", [10806100; 5279600; 7362000; 343500; 3526800; 14343000; 218400; 41323500; 1087400]);
  ("Mn3+", [9845210; 4917970; 7871940; 294393; 3565310; 10817100; 323613; 24128100; 393974]);
  ("Mn4+", [9962530; 4848500; 7970570; 283303; 2760670; 10485200; 54447; 27573000; 251877]);
  ("Fe", [11769500; 4761100; 7357300; 307200; 3522200; 15353500; 2304500; 76880500; 1036900]);
  ("Fe2+", [11042400; 4653800; 7374000; 305300; 4134600; 12054600; 439900; 31280900; 1009700]);
  ("Fe3+", [11176400; 4614700; 7386300; 300500; 3394800; 11672900; 72400; 38556600; 970700]);
  ("Co", [12284100; 4279100; 7340900; 278400; 4003400; 13535900; 2348800; 71169200; 1011800]);
  ("Co2+", [11229600; 4123100; 7388300; 272600; 4739300; 10244300; 710800; 25646600; 932400]);
  ("Co3+", [10338000; 3909690; 7881730; 238668; 4767950; 8355830; 725591; 18349100; 286667]);
  ("Ni", [12837600; 3878500; 7292000; 256500; 4443800; 12176300; 2380000; 66342100; 1034100]);
  ("Ni2+", [11416600; 3676600; 7400500; 244900; 5344200; 8873000; 977300; 22162600; 861400]);
  ("Ni3+", [10780600; 3547700; 7758680; 223140; 5227460; 7644680; 847114; 16967300; 386044]);
  ("Cu", [13338000; 3582800; 7167600; 247000; 5615800; 11396600; 1673500; 64812600; 1191000]);
  ("Cu1+", [11947500; 3366900; 7357300; 227400; 6245500; 8662500; 1557800; 25848700; 890000]);
  ("Cu2+", [11816800; 3374840; 7111810; 244078; 5781350; 7987600; 1145230; 19897000; 1144310]);
  ("Zn", [14074300; 3265500; 7031800; 233300; 5165200; 10316300; 2410000; 58709700; 1304100]);
  ("Zn2+", [11971900; 2994600; 7386200; 203100; 6466800; 7082600; 1394000; 18099500; 780700]);
  ("Ga", [15235400; 3066900; 6700600; 241200; 4359100; 10780500; 2962300; 61413500; 1718900]);
  ("Ga3+", [12692000; 2812620; 6698830; 227890; 6066920; 6364410; 1006600; 14412200; 1535450]);
  ("Ge", [16081600; 2850900; 6374700; 251600; 3706800; 11446800; 3683000; 54762500; 2131300]);
  ("Ge4+", [12917200; 2537180; 6700030; 205855; 6067910; 5479130; 859041; 11603000; 1455720]);
  ("As", [16672300; 2634500; 6070100; 264700; 3431300; 12947900; 4277900; 47797200; 2531000]);
  ("Se", [17000600; 2409800; 5819600; 272600; 3973100; 15237200; 4354300; 43816300; 2840900]);
  ("Br", [17178900; 2172300; 5235800; 16579600; 5637700; 260900; 3985100; 41432800; 2955700]);
  ("Br1-", [17171800; 2205900; 6333800; 19334500; 5575400; 287100; 3727200; 58153500; 3177600]);
  ("Kr", [17355500; 1938400; 6728600; 16562300; 5549300; 226100; 3537500; 39397200; 2825000]);
  ("Rb", [17178400; 1788800; 9643500; 17315100; 5139900; 274800; 1529200; 164934000; 3487300]);
  ("Rb1+", [17581600; 1713900; 7659800; 14795700; 5898100; 160300; 2781700; 31208700; 2078200]);
  ("Sr", [17566300; 1556400; 9818400; 14098800; 5422000; 166400; 2669400; 132376000; 2506400]);
  ("Sr2+", [18087400; 1490700; 8137300; 12696300; 2565400; 24565100; -34193000; -13800; 41402500]);
  ("Y", [17776000; 1402900; 10294600; 12800600; 5726290; 125599; 3265880; 104354000; 1912130]);
  ("Y3+", [17926800; 1354170; 9153100; 11214500; 1767950; 22659900; -33108000; -13190; 40260200]);
  ("Zr", [17876500; 1276180; 10948000; 11916000; 5417320; 117622; 3657210; 87662700; 2069290]);
  ("Zr4+", [18166800; 1214800; 10056200; 10148300; 1011180; 21605400; -2647900; -102760; 9414540]);
  ("Nb", [17614200; 1188650; 12014400; 11766000; 4041830; 204785; 3533460; 69795700; 3755910]);
  ("Nb3+", [19881200; 19175; 18065300; 1133050; 11017700; 10162100; 1947150; 28338900; -12912000]);
  ("Nb5+", [17916300; 1124460; 13341700; 28781; 10799000; 9282060; 337905; 25722800; -6394000]);
  ("Mo", [3702500; 277200; 17235600; 1095800; 12887600; 11004000; 3742900; 61658400; 4387500]);
  ("Mo3+", [21166400; 14734; 18201700; 1030310; 11742300; 9536590; 2309510; 26630700; -14421000]);
  ("Mo5+", [21014900; 14345; 18099200; 1022380; 11463200; 8788090; 740625; 23345200; -14316000]);
  ("Mo6+", [17887100; 1036490; 11175000; 8480610; 6578910; 58881; 0; 0; 344941]);
  ("Tc", [19130100; 864132; 11094800; 8144870; 4649010; 21570700; 2712630; 86847200; 5404280]);
  ("Ru", [19267400; 808520; 12918200; 8434670; 4863370; 24799700; 1567560; 94292800; 5378740]);
  ("Ru3+", [18563800; 847329; 13288500; 8371640; 9326020; 17662; 3009640; 22887000; -3189200]);
  ("Ru4+", [18500300; 844582; 13178700; 8125340; 4713040; 364950; 2185350; 20850400; 1423570]);
  ("Rh", [19295700; 751536; 14350100; 8217580; 4734250; 25874900; 1289180; 98606200; 5328000]);
  ("Rh3+", [18878500; 764252; 14125900; 7844380; 3325150; 21248700; -6198900; -10360; 11867800]);
  ("Rh4+", [18854500; 760825; 13980600; 7624360; 2534640; 19331700; -5652600; -10200; 11283500]);
  ("Pd", [19331900; 698655; 15501700; 7989290; 5295370; 25205200; 605844; 76898600; 5265930]);
  ("Pd2+", [19170100; 696219; 15209600; 7555730; 4322340; 22505700; 0; 0; 5291600]);
  ("Pd4+", [19249300; 683839; 14790000; 7148330; 2892890; 17914400; -7949200; 5127; 13017400]);
  ("Ag", [19280800; 644600; 16688500; 7472600; 4804500; 24660500; 1046300; 99815600; 5179000]);
  ("Ag1+", [19181200; 646179; 15971900; 7191230; 5274750; 21732600; 357534; 66114700; 5215720]);
  ("Ag2+", [19164300; 645643; 16245600; 7185440; 4370900; 21407200; 0; 0; 5214040]);
  ("Cd", [19221400; 594600; 17644400; 6908900; 4461000; 24700800; 1602900; 87482500; 5069400]);
  ("Cd2+", [19151400; 597922; 17253500; 6806390; 4471280; 20252100; 0; 0; 5119370]);
  ("In", [19162400; 547600; 18559600; 6377600; 4294800; 25849900; 2039600; 92802900; 4939100]);
  ("In3+", [19104500; 551522; 18110800; 6324700; 3788970; 17359500; 0; 0; 4996350]);
  ("Sn", [19188900; 5830300; 19100500; 503100; 4458500; 26890900; 2466300; 83957100; 4782100]);
  ("Sn2+", [19109400; 503600; 19054800; 5837800; 4564800; 23375200; 487000; 62206100; 4786100]);
  ("Sn4+", [18933300; 5764000; 19713100; 465500; 3418200; 14004900; 19300; -758300; 3918200]);
  ("Sb", [19641800; 5303400; 19045500; 460700; 5037100; 27907400; 2682700; 75282500; 4590900]);
  ("Sb3+", [18975500; 467196; 18933000; 5221260; 5107890; 19590200; 288753; 55511300; 4696260]);
  ("Sb5+", [19868500; 5448530; 19030200; 467973; 2412530; 14125900; 0; 0; 4692630]);
  ("Te", [19964400; 4817420; 19013800; 420885; 6144870; 28528400; 2523900; 70840300; 4352000]);
  ("I", [20147200; 4347000; 18994900; 381400; 7513800; 27766000; 2273500; 66877600; 4071200]);
  ("I1-", [20233200; 4357900; 18997000; 381500; 7806900; 29525900; 2886800; 84930400; 4071400]);
  ("Xe", [20293300; 3928200; 19029800; 344000; 8976700; 26465900; 1990000; 64265800; 3711800]);
  ("Cs", [20389200; 3569000; 19106200; 310700; 10662000; 24387900; 1495300; 213904000; 3335200]);
  ("Cs1+", [20352400; 3552000; 19127800; 308600; 10282100; 23712800; 961500; 59456500; 3279100]);
  ("Ba", [20336100; 3216000; 19297000; 275600; 10888000; 20207300; 2695900; 167202000; 2773100]);
  ("Ba2+", [20180700; 3213670; 19113600; 283310; 10905400; 20055800; 776340; 51746000; 3029020]);
  ("La", [20578000; 2948170; 19599000; 244475; 11372700; 18772600; 3287190; 133124000; 2146780]);
  ("La3+", [20248900; 2920700; 19376300; 250698; 11632300; 17821100; 336048; 54945300; 2408600]);
  ("Ce", [21167100; 2812190; 19769500; 226836; 11851300; 17608300; 3330490; 127113000; 1862640]);
  ("Ce3+", [20803600; 2776910; 19559000; 231540; 11936900; 16540800; 612376; 43169200; 2090130]);
  ("Ce4+", [20323500; 2659410; 19818600; 218850; 12123300; 15799200; 144583; 62235500; 1591800]);
  ("Pr", [22044000; 2773930; 19669700; 222087; 12385600; 16766900; 2824280; 143644000; 2058300]);
  ("Pr3+", [21372700; 2645200; 19749100; 214299; 12132900; 15323000; 975180; 36406500; 1771320]);
  ("Pr4+", [20941300; 2544670; 20053900; 202481; 12466800; 14813700; 296689; 45464300; 1242850]);
  ("Nd", [22684500; 2662480; 19684700; 210628; 12774000; 15885000; 2851370; 137903000; 1984860]);
  ("Nd3+", [21961000; 2527220; 19933900; 199237; 12120000; 14178300; 1510310; 30871700; 1475880]);
  ("Pm", [23340500; 2562700; 19609500; 202088; 13123500; 15100900; 2875160; 132721000; 2028760]);
  ("Pm3+", [22552700; 2417400; 20110800; 185769; 12067100; 13127500; 2074920; 27449100; 1194990]);
  ("Sm", [24004200; 2472740; 19425800; 196451; 13439600; 14399600; 2896040; 128007000; 2209630]);
  ("Sm3+", [23150400; 2316410; 20259900; 174081; 11920200; 12157100; 2714880; 24824200; 954586]);
  ("Eu", [24627400; 2387900; 19088600; 194200; 13760300; 13754600; 2922700; 123174000; 2574500]);
  ("Eu2+", [24006300; 2277830; 19950400; 173530; 11803400; 11609600; 3872430; 26515600; 1363890]);
  ("Eu3+", [23749700; 2222580; 20374500; 163940; 11850900; 11311000; 3265030; 22996600; 759344]);
  ("Gd", [25070900; 2253410; 19079800; 181951; 13851800; 12933100; 3545450; 101398000; 2419600]);
  ("Gd3+", [24346600; 2135530; 20420800; 155525; 11870800; 10578200; 3714900; 21702900; 645089]);
  ("Tb", [25897600; 2242560; 18218500; 196143; 14316700; 12664800; 2953540; 115362000; 3583240]);
  ("Tb3+", [24955900; 2056010; 20327100; 149525; 12247100; 10049900; 3773000; 21277300; 691967]);
  ("Dy", [26507000; 2180200; 17638300; 202172; 14559600; 12189900; 2965770; 111874000; 4297280]);
  ("Dy3+", [25539500; 1980400; 20286100; 143384; 11981200; 9349720; 4500730; 19581000; 689690]);
  ("Ho", [26904900; 2070510; 17294000; 197940; 14558300; 11440700; 3638370; 92656600; 4567960]);
  ("Ho3+", [26129600; 1910720; 20099400; 139358; 11978800; 8800180; 4936760; 18590800; 852795]);
  ("Er", [27656300; 2073560; 16428500; 223545; 14977900; 11360400; 2982330; 105703000; 5920460]);
  ("Er3+", [26722000; 1846590; 19774800; 137290; 12150600; 8362250; 5173790; 17897400; 1176130]);
  ("Tm", [28181900; 2028590; 15885100; 238849; 15154200; 10997500; 2987060; 102961000; 6756210]);
  ("Tm3+", [27308300; 1787110; 19332000; 136974; 12333900; 7967780; 5383480; 17292200; 1639290]);
  ("Yb", [28664100; 1988900; 15434500; 257119; 15308700; 10664700; 2989630; 100417000; 7566720]);
  ("Yb2+", [28120900; 1785030; 17681700; 159970; 13333500; 8183040; 5146570; 20390000; 3709830]);
  ("Yb3+", [27891700; 1732720; 18761400; 138790; 12607200; 7644120; 5476470; 16815300; 2260010]);
  ("Lu", [28947600; 1901820; 15220800; 9985190; 15100000; 261033; 3716010; 84329800; 7976280]);
  ("Lu3+", [28462800; 1682160; 18121000; 142292; 12842900; 7337270; 5594150; 16353500; 2975730]);
  ("Hf", [29144000; 1832620; 15172600; 9599900; 14758600; 275116; 4300130; 72029000; 8581540]);
  ("Hf4+", [28813100; 1591360; 18460100; 128903; 12728500; 6762320; 5599270; 14036600; 2396990]);
  ("Ta", [29202400; 1773330; 15229300; 9370460; 14513500; 295977; 4764920; 63364400; 9243540]);
  ("Ta5+", [29158700; 1507110; 18840700; 116741; 12826800; 6315240; 5386950; 12424400; 1785550]);
  ("W", [29081800; 1720290; 15430000; 9225900; 14432700; 321703; 5119820; 57056000; 9887500]);
  ("W6+", [29493600; 1427550; 19376300; 104621; 13054400; 5936670; 5064120; 11197200; 1010740]);
  ("Re", [28762100; 1671910; 15718900; 9092270; 14556400; 350500; 5441740; 52086100; 10472000]);
  ("Os", [28189400; 1629030; 16155000; 8979480; 14930500; 382661; 5675890; 48164700; 11000500]);
  ("Os4+", [30419000; 1371130; 15263700; 6847060; 14745800; 165191; 5067950; 18003000; 6498040]);
  ("Ir", [27304900; 1592790; 16729600; 8865530; 15611500; 417916; 5833770; 45001100; 11472200]);
  ("Ir3+", [30415600; 1343230; 15862000; 7109090; 13614500; 204633; 5820080; 20325400; 8279030]);
  ("Ir4+", [30705800; 1309230; 15551200; 6719830; 14232600; 167252; 5536720; 17491100; 6968240]);
  ("Pt", [27005900; 1512930; 17763900; 8811740; 15713100; 424593; 5783700; 38610300; 11688300]);
  ("Pt2+", [29842900; 1329270; 16722400; 7389790; 13215300; 263297; 6352340; 22942600; 9853290]);
  ("Pt4+", [30961200; 1248130; 15982900; 6608340; 13734800; 168640; 5920340; 16939200; 7395340]);
  ("Au", [16881900; 461100; 18591300; 8621600; 25558200; 1482600; 5860000; 36395600; 12065800]);
  ("Au1+", [28010900; 1353210; 17820400; 7739500; 14335900; 356752; 6580770; 26404300; 11229900]);
  ("Au3+", [30688600; 1219900; 16902900; 6828720; 12780100; 212867; 6523540; 18659000; 9096800]);
  ("Hg", [20680900; 545000; 19041700; 8448400; 21657500; 1572900; 5967600; 38324600; 12608900]);
  ("Hg1+", [25085300; 1395070; 18497300; 7651050; 16888300; 443378; 6482160; 28226200; 12020500]);
  ("Hg2+", [29564100; 1211520; 18060000; 7056390; 12837400; 284738; 6899120; 20748200; 10626800]);
  ("Tl", [27544600; 655150; 19158400; 8707510; 15538000; 1963470; 5525930; 45814900; 13174600]);
  ("Tl1+", [21398500; 1471100; 20472300; 517394; 18747800; 7434630; 6828470; 28848200; 12525800]);
  ("Tl3+", [30869500; 1100800; 18348100; 6538520; 11932800; 219074; 7005740; 17211400; 9802700]);
  ("Pb", [31061700; 690200; 13063700; 2357600; 18442000; 8618000; 5969600; 47257900; 13411800]);
  ("Pb2+", [21788600; 1336600; 19568200; 488383; 19140600; 6772700; 7011070; 23813200; 12473400]);
  ("Pb4+", [32124400; 1005660; 18800300; 6109260; 12017500; 147041; 6968860; 14714000; 8084280]);
  ("Bi", [33368900; 704000; 12951000; 2923800; 16587700; 8793700; 6469200; 48009300; 13578200]);
  ("Bi3+", [21805300; 1235600; 19502600; 6241490; 19105300; 469999; 7102950; 20318500; 12471100]);
  ("Bi5+", [33536400; 916540; 25094600; 390420; 19249700; 5714140; 6915550; 12828500; -6799400]);
  ("Po", [34672600; 700999; 15473300; 3550780; 13113800; 9556420; 7025880; 47004500; 13677000]);
  ("At", [35316300; 685870; 19021100; 3974580; 9498870; 11382400; 7425180; 45471500; 13710800]);
  ("Rn", [35563100; 663100; 21281600; 4069100; 8003700; 14042200; 7443300; 44247300; 13690500]);
  ("Fr", [35929900; 646453; 23054700; 4176190; 12143900; 23105200; 2112530; 150645000; 13724700]);
  ("Ra", [35763000; 616341; 22906400; 3871350; 12473900; 19988700; 3210970; 142325000; 13621100]);
  ("Ra2+", [35215000; 604909; 21670000; 3576700; 7913420; 12601000; 7650780; 29843600; 13543100]);
  ("Ac", [35659700; 589092; 23103200; 3651550; 12597700; 18599000; 4086550; 117020000; 13526600]);
  ("Ac3+", [35173600; 579689; 22111200; 3414370; 8192160; 12918700; 7055450; 25944300; 13463700]);
  ("Th", [35564500; 563359; 23421900; 3462040; 12747300; 17830900; 4807030; 99172200; 13431400]);
  ("Th4+", [35100700; 555054; 22441800; 3244980; 9785540; 13466100; 5294440; 23953300; 13376000]);
  ("Pa", [35884700; 547751; 23294800; 3415190; 14189100; 16923500; 4172870; 105251000; 13428700]);
  ("U", [36022800; 529300; 23412800; 3325300; 14949100; 16092700; 4188000; 100613000; 13396600]);
  ("U3+", [35574700; 520480; 22525900; 3122930; 12216500; 12714800; 5370730; 26339400; 13309200]);
  ("U4+", [35371500; 516598; 22532600; 3050530; 12029100; 12572300; 4798400; 23458200; 13267100]);
  ("U6+", [34850900; 507079; 22758400; 2890300; 14009900; 13176700; 1214570; 25201700; 13166500]);
  ("Np", [36187400; 511929; 23596400; 3253960; 15640200; 15362200; 4185500; 97490800; 13357300]);
  ("Np3+", [35707400; 502322; 22613000; 3038070; 12989800; 12144900; 5432270; 25492800; 13254400]);
  ("Np4+", [35510300; 498626; 22578700; 2966270; 12776600; 11948400; 4921590; 22750200; 13211600]);
  ("Np6+", [35013600; 489810; 22728600; 2810990; 14388400; 12330000; 1756690; 22658100; 13113000]);
  ("Pu", [36525400; 499384; 23808300; 3263710; 16770700; 14945500; 3479470; 105980000; 13381200]);
  ("Pu3+", [35840000; 484938; 22716900; 2961180; 13580700; 11533100; 5660160; 24399200; 13199100]);
  ("Pu4+", [35649300; 481422; 22646000; 2890200; 13359500; 11316000; 5188310; 21830100; 13155500]);
  ("Pu6+", [35173600; 473204; 22718100; 2738480; 14763500; 11553000; 2286780; 20930300; 13058200]);
  ("Am", [36670600; 483629; 24099200; 3206470; 17341500; 14313600; 3493310; 102273000; 13359200]);
  ("Cm", [36648800; 465154; 24409600; 3089970; 17399000; 13434600; 4216650; 88483400; 13288700]);
  ("Bk", [36788100; 451018; 24773600; 3046190; 17891900; 12894600; 4232840; 86003000; 13275400]);
  ("Cf", [36918500; 437533; 25199500; 3007750; 18331700; 12404400; 4243910; 83788100; 13267400])
]%string%Z.
(** DATABASE["Magnetic Form Factor, tabulated"]: the keys ("j0_AaBbCcD", name, charge) and ("j2_AaBbCcD", name, charge) *)
Definition magnetic_table : list (string * Z * list Z * list Z) := [
  ("O", -2, [998950; 12096520; 288540; 129140; 114250; -229680; -406850], [0; 0; 0; 0; 0; 0; 0]);
  ("N", 2, [1005810; 13372180; -58680; 77920; -4440; 16780; 51460], [0; 0; 0; 0; 0; 0; 0]);
  ("Sc", 0, [251200; 90029600; 329000; 39402100; 423500; 14322200; -4300], [10817200; 54327000; 4735300; 14847100; 607100; 4218000; 1100]);
  ("Sc", 1, [488900; 51160300; 520300; 14076400; -28600; 179200; 18500], [8502100; 34285100; 3211600; 10994000; 424400; 3605500; 900]);
  ("Sc", 2, [504800; 31403500; 518600; 10989700; -24100; 1183100; 0], [4368300; 28654400; 3723100; 10823300; 607400; 3667800; 1400]);
  ("Ti", 0, [465700; 33589800; 549000; 9879100; -29100; 323200; 12300], [4358300; 36055600; 3823000; 11132800; 685500; 3469200; 2000]);
  ("Ti", 1, [509300; 36703300; 503200; 10371300; -26300; 310600; 11600], [6156700; 27275400; 2683300; 8982700; 407000; 3052400; 1100]);
  ("Ti", 2, [509100; 24976300; 516200; 8756900; -28100; 916000; 1500], [4310700; 18348400; 2096000; 6797000; 298400; 2547600; 700]);
  ("Ti", 3, [357100; 22841300; 668800; 8930600; -35400; 483300; 9900], [3371700; 14444100; 1825800; 5712600; 247000; 2265400; 500]);
  ("V", 0, [408600; 28810900; 607700; 8543700; -29500; 276800; 12300], [3809900; 21347100; 2329500; 7408900; 433300; 2632400; 1500]);
  ("V", 1, [444400; 32647900; 568300; 9097100; -228500; 21800; 215000], [4747400; 23322600; 2360900; 7808200; 410500; 2706300; 1400]);
  ("V", 2, [408500; 23852600; 609100; 8245600; -167600; 41500; 149600], [3438600; 16530300; 1963800; 6141500; 299700; 2266900; 900]);
  ("V", 3, [359800; 19336400; 663200; 7617200; -306400; 29600; 283500], [2300500; 14682100; 2036400; 6130400; 409900; 2381500; 1400]);
  ("V", 4, [310600; 16816000; 719800; 7048700; -52100; 302000; 22100], [1837700; 12266800; 1824700; 5457800; 397900; 2248300; 1200]);
  ("Cr", 0, [113500; 45199000; 348100; 19493100; 547700; 7354200; -9200], [3408500; 20126700; 2100600; 6802000; 426600; 2394100; 1900]);
  ("Cr", 1, [-97700; 47000; 454400; 26005400; 557900; 7489200; 83100], [3776800; 20345600; 2102800; 6892600; 401000; 2411400; 1700]);
  ("Cr", 2, [1202400; -5500; 415800; 20547500; 603200; 6956000; -1221800], [2642200; 16059800; 1919800; 6253100; 444600; 2371500; 2000]);
  ("Cr", 3, [-309400; 27400; 368000; 17035500; 655900; 6523600; 285600], [1626200; 15065600; 2061800; 6284200; 528100; 2368000; 2300]);
  ("Cr", 4, [-232000; 43300; 310100; 14951800; 718200; 6172600; 204200], [1029300; 13949800; 1993300; 6059300; 597400; 2345700; 2700]);
  ("Mn", 0, [243800; 24962900; 147200; 15672800; 618900; 6540300; -10500], [2668100; 16060100; 1756100; 5639600; 367500; 2048800; 1700]);
  ("Mn", 1, [-13800; 421300; 423100; 24668000; 590500; 6654500; -1000], [3295300; 18695000; 1879200; 6240300; 392700; 2200600; 2200]);
  ("Mn", 2, [422000; 17684000; 594800; 6005000; 4300; -609000; -21900], [2051500; 15556100; 1884100; 6062500; 478700; 2232300; 2700]);
  ("Mn", 3, [419800; 14282900; 605400; 5468900; 924100; -8800; -949800], [1242700; 14996600; 1956700; 6118100; 573200; 2257700; 3100]);
  ("Mn", 4, [376000; 12566100; 660200; 5132900; -37200; 563000; 1100], [787900; 13885700; 1871700; 5743300; 598100; 2181800; 3400]);
  ("Fe", 0, [70600; 35008500; 358900; 15358300; 581900; 5560600; -11400], [1940500; 18473300; 1956600; 6323400; 516600; 2160700; 3600]);
  ("Fe", 1, [125100; 34963300; 362900; 15514400; 522300; 5591400; -10500], [2629000; 18659800; 1870400; 6331300; 469000; 2162800; 3100]);
  ("Fe", 2, [26300; 34959700; 366800; 15943500; 618800; 5593500; -11900], [1649000; 16559300; 1906400; 6132500; 520600; 2137000; 3500]);
  ("Fe", 3, [397200; 13244200; 629500; 4903400; -31400; 349600; 4400], [1360200; 11997600; 1518800; 5002500; 470500; 1991400; 3800]);
  ("Fe", 4, [378200; 11380000; 655600; 4592000; -34600; 483300; 500], [1558200; 8275000; 1186300; 3279400; 136600; 1106800; -2200]);
  ("Co", 0, [413900; 16161600; 601300; 4780500; -151800; 21000; 134500], [1967800; 14169900; 1491100; 4947500; 384400; 1797300; 2700]);
  ("Co", 1, [99000; 33125200; 364500; 15176800; 547000; 5008100; -10900], [2409700; 16160800; 1578000; 5460400; 409500; 1914100; 3100]);
  ("Co", 2, [433200; 14355300; 585700; 4607700; -38200; 133800; 17900], [1904900; 11644400; 1315900; 4357400; 314600; 1645300; 1700]);
  ("Co", 3, [390200; 12507800; 632400; 4457400; -150000; 34300; 127200], [1705800; 8859500; 1140900; 3308600; 147400; 1089900; -2500]);
  ("Co", 4, [351500; 10778500; 677800; 4234300; -38900; 240900; 9800], [1311000; 8025200; 1155100; 3179200; 160800; 1130100; -1100]);
  ("Ni", 0, [-17200; 35739200; 317400; 14268900; 713600; 4566100; -14300], [1030200; 12252100; 1466900; 4745300; 452100; 1743700; 3600]);
  ("Ni", 1, [70500; 35856100; 398400; 13804200; 542700; 4396500; -11800], [2104000; 14865500; 1430200; 5071400; 403100; 1778400; 3400]);
  ("Ni", 2, [16300; 35882600; 391600; 13223300; 605200; 4338800; -13300], [1708000; 11016000; 1214700; 4103100; 315000; 1533400; 1800]);
  ("Ni", 3, [-13400; 35867700; 267800; 12332600; 761400; 4236900; -16200], [1161200; 7700000; 1002700; 3262800; 271900; 1378000; 2500]);
  ("Ni", 4, [-9000; 35861400; 277600; 11790400; 747400; 4201100; -16300], [1161200; 7700000; 1002700; 3262800; 271900; 1378000; 2500]);
  ("Cu", 0, [90900; 34983800; 408800; 11443200; 512800; 3824800; -12400], [1918200; 14490400; 1332900; 4730100; 384200; 1639400; 3500]);
  ("Cu", 1, [74900; 34965600; 414700; 11764200; 523800; 3849700; -12700], [1881400; 13433300; 1280900; 4544600; 364600; 1602200; 3300]);
  ("Cu", 2, [23200; 34968600; 402300; 11564000; 588200; 3842800; -13700], [1518900; 10477900; 1151200; 3813200; 291800; 1397900; 1700]);
  ("Cu", 3, [3100; 34907400; 358200; 10913800; 653100; 3827900; -14700], [1279700; 8450200; 1031500; 3279600; 240100; 1249800; 1500]);
  ("Cu", 4, [-13200; 30681700; 280100; 11162600; 749000; 3817200; -16500], [956800; 7448100; 909900; 3396400; 372900; 1493600; 4900]);
  ("Y", 0, [591500; 67608100; 1512300; 17900400; -1113000; 14135900; 8000], [14408400; 44657700; 5104500; 14904300; -53500; 3318900; 2800]);
  ("Zr", 0, [410600; 59996100; 1054300; 18647600; -475100; 10540000; 10600], [10137800; 35337200; 4773400; 12545300; -48900; 2672100; 3600]);
  ("Zr", 1, [453200; 59594800; 783400; 21435700; -245100; 9036000; 9800], [11872200; 34920000; 4050200; 12126600; -63200; 2827800; 3400]);
  ("Nb", 0, [394600; 49229700; 1319700; 14821600; -726900; 9615600; 12900], [7479600; 33178900; 5088400; 11570800; -28100; 1563500; 4700]);
  ("Nb", 1, [457200; 49918200; 1027400; 15725600; -496200; 9157300; 11800], [8773500; 33284800; 4655600; 11604600; -26800; 1538900; 4400]);
  ("Mo", 0, [180600; 49056800; 1230600; 14785900; -426800; 6986600; 17100], [5118000; 23421700; 4180900; 9208000; -50500; 1743400; 5300]);
  ("Mo", 1, [350000; 48035400; 1030500; 15060400; -392900; 7479000; 13900], [7236700; 28128200; 4070500; 9922800; -31700; 1455200; 4900]);
  ("Tc", 0, [129800; 49661100; 1165600; 14130700; -313400; 5512900; 19500], [4244100; 21397400; 3943900; 8375300; -37100; 1187000; 6600]);
  ("Tc", 1, [267400; 48956600; 956900; 15141300; -238700; 5457800; 16000], [6405600; 24824300; 3540000; 8611200; -36600; 1484600; 4400]);
  ("Ru", 0, [106900; 49423800; 1191200; 12741700; -317600; 4912500; 21300], [3744500; 18612800; 3474900; 7420100; -36300; 1006800; 7300]);
  ("Ru", 1, [441000; 33308600; 1477500; 9553100; -936100; 6722000; 17600], [5282600; 23683200; 3581300; 8152100; -25700; 425500; 13100]);
  ("Rh", 0, [97600; 49882500; 1160100; 11830700; -278900; 4126600; 23400], [3365100; 17344400; 3212100; 6804100; -35000; 503100; 14600]);
  ("Rh", 1, [334200; 29756400; 1220900; 9438400; -575500; 5332000; 21000], [4026000; 18949700; 3166300; 6999800; -29600; 486200; 12700]);
  ("Pd", 0, [200300; 29363300; 1144600; 9599300; -368900; 4042300; 25100], [3310500; 14726500; 2633200; 5861800; -43700; 1130300; 5300]);
  ("Pd", 1, [503300; 24503700; 1998200; 6908200; -1524000; 5513300; 21300], [4274900; 17900200; 2702100; 6354100; -25800; 699900; 7100]);
  ("Ce", 2, [295300; 17684600; 292300; 6732900; 431300; 5382700; -19400], [980900; 18063000; 1841300; 7768800; 990500; 2845200; 12000]);
  ("Nd", 2, [164500; 25045300; 252200; 11978200; 601200; 4946100; -18000], [1453000; 18339800; 1619600; 7285400; 875200; 2622400; 12600]);
  ("Nd", 3, [54000; 25029300; 310100; 12102000; 657500; 4722300; -21600], [675100; 18342100; 1627200; 7260000; 964400; 2601600; 15000]);
  ("Sm", 2, [90900; 25203200; 303700; 11856200; 625000; 4236600; -20000], [1036000; 18424900; 1476900; 7032100; 881000; 2436700; 15200]);
  ("Sm", 3, [28800; 25206800; 297300; 11831100; 695400; 4211700; -21300], [470700; 18430100; 1426100; 7033600; 957400; 2438700; 18200]);
  ("Eu", 2, [75500; 25296000; 300100; 11599300; 643800; 4025200; -19600], [897000; 18442900; 1376900; 7005400; 906000; 2421300; 19000]);
  ("Eu", 3, [20400; 25307800; 301000; 11474400; 700500; 3942000; -22000], [398500; 18451400; 1330700; 6955600; 960300; 2378000; 19700]);
  ("Gd", 2, [63600; 25382300; 303300; 11212500; 652800; 3787700; -19900], [775600; 18469500; 1312400; 6899000; 895600; 2338300; 19900]);
  ("Gd", 3, [18600; 25386700; 289500; 11142100; 713500; 3752000; -21700], [334700; 18475800; 1246500; 6876700; 953700; 2318400; 21700]);
  ("Tb", 2, [54700; 25508600; 317100; 10591100; 649000; 3517100; -21200], [668800; 18490900; 1248700; 6821900; 888800; 2275100; 21500]);
  ("Tb", 3, [17700; 25509500; 292100; 10576900; 713300; 3512200; -23100], [289200; 18497300; 1167800; 6797200; 943700; 2257300; 23200]);
  ("Dy", 2, [130800; 18315500; 311800; 7664500; 579500; 3146900; -22600], [591700; 18511400; 1182800; 6746500; 880100; 2214100; 22900]);
  ("Dy", 3, [115700; 15073200; 327000; 6799100; 582100; 3020200; -24900], [252300; 18517200; 1091400; 6736200; 934500; 2208200; 25000]);
  ("Ho", 2, [99500; 18176100; 330500; 7855600; 592100; 2979900; -23000], [509400; 18515500; 1123400; 6706000; 872700; 2158900; 24200]);
  ("Ho", 3, [56600; 18317600; 336500; 7688000; 631700; 2942700; -24800], [218800; 18515700; 1024000; 6707000; 925100; 2161400; 26800]);
  ("Er", 2, [112200; 18122300; 346200; 6910600; 564900; 2761400; -23500], [469300; 18527800; 1054500; 6649300; 867900; 2120100; 26100]);
  ("Er", 3, [58600; 17980200; 354000; 7096400; 612600; 2748200; -25100], [171000; 18533700; 987900; 6624600; 904400; 2100400; 27800]);
  ("Tm", 2, [98300; 18323600; 338000; 6917800; 587500; 2662200; -24100], [419800; 18541700; 995900; 6600200; 859300; 2081800; 28400]);
  ("Tm", 3, [58100; 15092200; 278700; 7801500; 685400; 2793100; -22400], [176000; 18541700; 910500; 6578700; 897000; 2062200; 29400]);
  ("Yb", 2, [85500; 18512300; 294300; 7373400; 641200; 2677700; -21300], [385200; 18549700; 941500; 6550700; 849200; 2042500; 30100]);
  ("Yb", 3, [41600; 16094900; 284900; 7834100; 696100; 2672500; -22900], [157000; 18555300; 848400; 6540300; 888000; 2036700; 31800]);
  ("Pr", 3, [50400; 24998900; 257200; 12037700; 714200; 5003900; -21900], [873400; 18987600; 1559400; 6087200; 814200; 2415000; 11100]);
  ("U", 3, [505800; 23288200; 1346400; 7002800; -872400; 4868300; 19200], [4158200; 16533600; 2467500; 5951600; -25200; 764600; 5700]);
  ("U", 4, [329100; 23547500; 1083600; 8454000; -434000; 4119600; 21400], [3744900; 13894400; 2645300; 4863400; -521800; 3191900; 900]);
  ("U", 5, [365000; 19803800; 3219900; 6281800; -2607700; 5301000; 23300], [3072400; 12546000; 2307600; 5231400; -64400; 1473800; 3500]);
  ("Np", 3, [515700; 20865400; 2278400; 5893000; -1816300; 4845700; 21100], [3717000; 15133300; 2321600; 5502500; -27500; 799600; 5200]);
  ("Np", 4, [420600; 19804600; 2800400; 5978300; -2243600; 4984800; 22800], [2920300; 14646300; 2597900; 5559200; -30100; 366900; 14100]);
  ("Np", 5, [369200; 18190000; 3151000; 5850000; -2544600; 4916400; 24800], [2330800; 13654000; 2721900; 5493500; -135700; 49300; 122400]);
  ("Np", 6, [292900; 17561100; 3486600; 5784700; -2806600; 4870700; 26700], [1824500; 13180300; 2850800; 5406800; -157900; 44400; 143800]);
  ("Pu", 3, [384000; 16679300; 3104900; 5421000; -2514800; 4551200; 26300], [2088500; 12871200; 2596100; 5189600; -146500; 39300; 134300]);
  ("Pu", 4, [493400; 16835500; 1639400; 5638400; -1158100; 4139900; 24800], [2724400; 12926200; 2338700; 5163300; -130000; 45700; 117700]);
  ("Pu", 5, [388800; 16559200; 2036200; 5656700; -1451500; 4255200; 26700], [2140900; 12831900; 2566400; 5152200; -133800; 45700; 121000]);
  ("Pu", 6, [317200; 16050700; 3465400; 5350700; -2810200; 4513300; 28100], [1726200; 12324000; 2665200; 5066200; -169500; 40600; 155000]);
  ("Am", 2, [474300; 21776100; 1580000; 5690200; -1077900; 4145100; 21800], [3523700; 15954500; 2285500; 5194600; -14200; 585300; 3300]);
  ("Am", 3, [423900; 19573900; 1457300; 5872200; -905200; 3968200; 23800], [2862200; 14732800; 2409900; 5143900; -132600; 30900; 123300]);
  ("Am", 4, [373700; 17862500; 1352100; 6042600; -751400; 3719900; 25800], [2414100; 12947800; 2368700; 4944700; -249000; 21500; 237100]);
  ("Am", 5, [295600; 17372500; 1452500; 6073400; -775500; 3661900; 27700], [2010900; 12053400; 2415500; 4835800; -226400; 27500; 212800]);
  ("Am", 6, [230200; 16953300; 1486400; 6115900; -745700; 3542600; 29400], [1677800; 11337200; 2453100; 4724700; -204300; 33700; 189200]);
  ("Am", 7, [360100; 12729900; 1964000; 5120300; -1356000; 3714200; 31600], [1884500; 9160600; 2074600; 4042200; -131800; 1722700; 2000])
]%string%Z.
Definition micro (z : Z) : R := IZR z / 1000000.
Definition same (a b : str) : bool := if list_eq_dec ascii_dec a b then true else false.
Fixpoint find_amplitude (t : list (string * list Z)) (name : str) : outcome (list Z) :=
  match t with
  | [] => Raises KeyError
  | (k, v) :: r => if same (text k) name then Value v else find_amplitude r name
  end.
(** l.158-172: the value *)
Definition gaussians (p : nat -> R) (sthovl : R) : R :=
  p 0%nat * exp (- p 1%nat * Rsqr sthovl) + p 2%nat * exp (- p 3%nat * Rsqr sthovl) + p 4%nat * exp (- p 5%nat * Rsqr sthovl) + p 6%nat * exp (- p 7%nat * Rsqr sthovl) + p 8%nat.
(** l.174-180: dder["sthovl"] *)
Definition gaussians_d_sthovl (p : nat -> R) (sthovl : R) : R :=
  -2 * sthovl * (p 0%nat * p 1%nat * exp (- p 1%nat * Rsqr sthovl) + p 2%nat * p 3%nat * exp (- p 3%nat * Rsqr sthovl) + p 4%nat * p 5%nat * exp (- p 5%nat * Rsqr sthovl) +
    p 6%nat * p 7%nat * exp (- p 7%nat * Rsqr sthovl)).
Definition params (v : list Z) (i : nat) : R := micro (nth i v 0%Z).
(** every list of the table has nine numbers *)
Definition calc_scattering_amplitude_tabulated (ion_name : str) (sthovl : R) : outcome (R * R) :=
  bind (find_amplitude amplitude_table (capitalize ion_name)) (fun v => Value (gaussians (params v) sthovl, gaussians_d_sthovl (params v) sthovl)).

Definition jpar_of (v : list Z) : jpar := mkJ (params v 0) (params v 1) (params v 2) (params v 3) (params v 4) (params v 5) (params v 6).
Definition no_jpar : jpar := mkJ 0 0 0 0 0 0 0.
Fixpoint find_magnetic (t : list (string * Z * list Z * list Z)) (name : str) (q : Z) : option (list Z * list Z) :=
  match t with
  | [] => None
  | (k, c, j0, j2) :: r => if (same (text k) name && Z.eqb c q)%bool then Some (j0, j2) else find_magnetic r name q
  end.
(** l.14-30: a missing key leaves the zeros *)
Definition get_j0_j2_parameters (symbol : str) : outcome (jpar * jpar) :=
  bind (ion_parts symbol) (fun x => let '(atom_name, ion_charge, _) := x in
    Value (match find_magnetic magnetic_table atom_name ion_charge with
           | Some (j0, j2) => (jpar_of j0, jpar_of j2)
           | None => (no_jpar, no_jpar) end)).
