(** DATABASE["Orbitals by radial Slater functions"] of cryspy/A_functions_base/database.pickle: element, sub-shell, and the terms
    (coefficient, n, zeta); coefficients in units of 1e-8, zeta in units of 1e-6, the numbers are the shortest decimals of the floats of the file.
    Only the elements up to krypton, and molybdenum, are written here: 195 of the 437 entries. *)
From Coq Require Import ZArith String List.
Import ListNotations.
Open Scope Z_scope.

Definition radial_table : list (string * string * list (Z * nat * Z)) := [
  ("H", "1s", [(100000000, 1%nat, 1000000)]);
  ("He", "1s", [(134790000, 1%nat, 1459500); (-161300, 3%nat, 5324400); (-10050600, 2%nat, 2629800); (-27077900, 2%nat, 1750400)]);
  ("Li", "1s", [(89778000, 1%nat, 2480300); (11031000, 1%nat, 4707100); (-6000, 2%nat, 350000); (109000, 2%nat, 660000); (-144000, 2%nat, 1000000); (937000, 2%nat, 1735000)]);
  ("Li", "2s", [(-14426000, 1%nat, 2480300); (-1584000, 1%nat, 4707100); (202000, 2%nat, 350000); (97901000, 2%nat, 660000); (9077000, 2%nat, 1000000); (-8964000, 2%nat, 1735000)]);
  ("Be", "1s", [(91796000, 1%nat, 3471160); (8724000, 1%nat, 6368610); (108000, 2%nat, 778200); (-199000, 2%nat, 940670); (176000, 2%nat, 1487250); (628000, 2%nat, 2718300)]);
  ("Be", "2s", [(-17092000, 1%nat, 3471160); (-1455000, 1%nat, 6368610); (21186000, 2%nat, 778200); (62499000, 2%nat, 940670); (26662000, 2%nat, 1487250); (-9919000, 2%nat, 2718300)]);
  ("B", "1s", [(92705000, 1%nat, 4445610); (7780000, 1%nat, 7917960); (88000, 2%nat, 867090); (-200000, 2%nat, 1219240); (433000, 2%nat, 2072640); (270000, 2%nat, 3443320)]);
  ("B", "2s", [(-19484000, 1%nat, 4445610); (-1254000, 1%nat, 7917960); (6941000, 2%nat, 867090); (75234000, 2%nat, 1219240); (31856000, 2%nat, 2072640); (-12642000, 2%nat, 3443320)]);
  ("B", "2p", [(53622000, 2%nat, 874810); (40340000, 2%nat, 1369920); (11653000, 2%nat, 2322620); (821000, 2%nat, 5594810)]);
  ("C", "1s", [(93262000, 1%nat, 5435990); (6931000, 1%nat, 9482560); (83000, 2%nat, 1057490); (-176000, 2%nat, 1524270); (559000, 2%nat, 2684350); (382000, 2%nat, 4200960)]);
  ("C", "2s", [(-20814000, 1%nat, 5435990); (-1071000, 1%nat, 9482560); (8099000, 2%nat, 1057490); (75045000, 2%nat, 1524270); (33549000, 2%nat, 2684350); (-14765000, 2%nat, 4200960)]);
  ("C", "2p", [(28241000, 2%nat, 980730); (54697000, 2%nat, 1443610); (23195000, 2%nat, 2600510); (1025000, 2%nat, 6510030)]);
  ("N", "1s", [(93780000, 1%nat, 6457390); (5849000, 1%nat, 11172000); (93000, 2%nat, 1364050); (-170000, 2%nat, 1897340); (574000, 2%nat, 3252910); (957000, 2%nat, 5082380)]);
  ("N", "2s", [(-21677000, 1%nat, 6457390); (-846000, 1%nat, 11172000); (17991000, 2%nat, 1364050); (67416000, 2%nat, 1897340); (31297000, 2%nat, 3252910); (-14497000, 2%nat, 5082380)]);
  ("N", "2p", [(26639000, 2%nat, 1160680); (52319000, 2%nat, 1704720); (27353000, 2%nat, 3039350); (1292000, 2%nat, 7174820)]);
  ("O", "1s", [(94516000, 1%nat, 7614130); (3391000, 1%nat, 13757400); (-34000, 2%nat, 1698240); (241000, 2%nat, 2480220); (-486000, 2%nat, 4311960); (3681000, 2%nat, 5865960)]);
  ("O", "2s", [(-22157000, 1%nat, 7614130); (-476000, 1%nat, 13757400); (34844000, 2%nat, 1698240); (60807000, 2%nat, 2480220); (25365000, 2%nat, 4311960); (-19183000, 2%nat, 5865960)]);
  ("O", "2p", [(16922000, 2%nat, 1143940); (57974000, 2%nat, 1817300); (32352000, 2%nat, 3449880); (1660000, 2%nat, 7564840)]);
  ("F", "1s", [(94205000, 1%nat, 8512600); (4499000, 1%nat, 14413000); (-10000, 2%nat, 1859900); (153000, 2%nat, 2705600); (-76000, 2%nat, 4901900); (2389000, 2%nat, 6444000)]);
  ("F", "2s", [(-22924000, 1%nat, 8512600); (-534000, 1%nat, 14413000); (27178000, 2%nat, 1859900); (65367000, 2%nat, 2705600); (33031000, 2%nat, 4901900); (-23130000, 2%nat, 6444000)]);
  ("F", "2p", [(17003000, 2%nat, 1265500); (55982000, 2%nat, 2030100); (34875000, 2%nat, 3910600); (1691000, 2%nat, 8636300)]);
  ("Ne", "1s", [(93717000, 1%nat, 9484860); (4899000, 1%nat, 15565900); (58000, 2%nat, 1961840); (-64000, 2%nat, 2864230); (551000, 2%nat, 4825300); (1999000, 2%nat, 7792420)]);
  ("Ne", "2s", [(-23093000, 1%nat, 9484860); (-635000, 1%nat, 15565900); (16620000, 2%nat, 1961840); (66899000, 2%nat, 2864230); (30910000, 2%nat, 4825300); (-13871000, 2%nat, 7792420)]);
  ("Ne", "2p", [(21799000, 2%nat, 1452080); (53338000, 2%nat, 2381680); (32933000, 2%nat, 4484890); (1872000, 2%nat, 9134640)]);
  ("Na", "1s", [(96305000, 1%nat, 11000000); (4219000, 3%nat, 12368500); (1590000, 3%nat, 8025400); (-281000, 3%nat, 5705900); (159000, 3%nat, 3631000); (-33000, 3%nat, 2153700); (12000, 3%nat, 1108100); (-5000, 3%nat, 708300)]);
  ("Na", "2s", [(-23508000, 1%nat, 11000000); (-373000, 3%nat, 12368500); (13129000, 3%nat, 8025400); (40213000, 3%nat, 5705900); (52699000, 3%nat, 3631000); (4726000, 3%nat, 2153700); (-585000, 3%nat, 1108100); (217000, 3%nat, 708300)]);
  ("Na", "3s", [(3532000, 1%nat, 11000000); (87000, 3%nat, 12368500); (-2237000, 3%nat, 8025400); (-6277000, 3%nat, 5705900); (-9421000, 3%nat, 3631000); (254000, 3%nat, 2153700); (41486000, 3%nat, 1108100); (63607000, 3%nat, 708300)]);
  ("Na", "2p", [(47360000, 2%nat, 5500000); (3555000, 4%nat, 8393700); (27825000, 4%nat, 5420600); (32310000, 4%nat, 3564600); (7308000, 4%nat, 2283300)]);
  ("Mg", "1s", [(96539000, 1%nat, 12000000); (3767000, 3%nat, 13555200); (1583000, 3%nat, 9248900); (-121000, 3%nat, 6551700); (104000, 3%nat, 4200800); (-14000, 3%nat, 2470200); (5000, 3%nat, 1433100); (-1000, 3%nat, 878300)]);
  ("Mg", "2s", [(-24382000, 1%nat, 12000000); (-504000, 3%nat, 13555200); (10176000, 3%nat, 9248900); (39908000, 3%nat, 6551700); (55719000, 3%nat, 4200800); (4715000, 3%nat, 2470200); (-783000, 3%nat, 1433100); (197000, 3%nat, 878300)]);
  ("Mg", "3s", [(4695000, 1%nat, 12000000); (166000, 3%nat, 13555200); (-2391000, 3%nat, 9248900); (-7764000, 3%nat, 6551700); (-13548000, 3%nat, 4200800); (-710000, 3%nat, 2470200); (50699000, 3%nat, 1433100); (57016000, 3%nat, 878300)]);
  ("Mg", "2p", [(51090000, 2%nat, 6000000); (8276000, 4%nat, 7988400); (32223000, 4%nat, 5319700); (21178000, 4%nat, 3716800); (3591000, 4%nat, 2535400)]);
  ("Al", "1s", [(96741000, 1%nat, 13000000); (3493000, 3%nat, 14711200); (1691000, 3%nat, 9900000); (-304000, 3%nat, 7108800); (178000, 3%nat, 4746700); (-48000, 3%nat, 2876800); (20000, 3%nat, 1902900); (-4000, 3%nat, 1114000)]);
  ("Al", "2s", [(-25134000, 1%nat, 13000000); (-465000, 3%nat, 14711200); (12045000, 3%nat, 9900000); (37640000, 3%nat, 7108800); (55298000, 3%nat, 4746700); (5379000, 3%nat, 2876800); (-1021000, 3%nat, 1902900); (178000, 3%nat, 1114000)]);
  ("Al", "3s", [(5804000, 1%nat, 13000000); (47000, 3%nat, 14711200); (-2622000, 3%nat, 9900000); (-10400000, 3%nat, 7108800); (-13670000, 3%nat, 4746700); (-10971000, 3%nat, 2876800); (57002000, 3%nat, 1902900); (59412000, 3%nat, 1114000)]);
  ("Al", "2p", [(54093000, 2%nat, 6500000); (2708000, 4%nat, 10188700); (4439000, 4%nat, 7852700); (31758000, 4%nat, 5982600); (21192000, 4%nat, 4041700); (770000, 4%nat, 1955900); (-224000, 4%nat, 1191800); (101000, 4%nat, 863000)]);
  ("Al", "3p", [(-9683000, 2%nat, 6500000); (-969000, 4%nat, 10188700); (955000, 4%nat, 7852700); (-7857000, 4%nat, 5982600); (2128000, 4%nat, 4041700); (39563000, 4%nat, 1955900); (44743000, 4%nat, 1191800); (25549000, 4%nat, 863000)]);
  ("Si", "1s", [(96915000, 1%nat, 14000000); (3158000, 3%nat, 15982100); (1978000, 3%nat, 10596900); (-598000, 3%nat, 7771500); (285000, 3%nat, 5239400); (-111000, 3%nat, 2900000); (66000, 3%nat, 2089200); (-14000, 3%nat, 1294500)]);
  ("Si", "2s", [(-25787000, 1%nat, 14000000); (-307000, 3%nat, 15982100); (12419000, 3%nat, 10596900); (36525000, 3%nat, 7771500); (57002000, 3%nat, 5239400); (4380000, 3%nat, 2900000); (-1453000, 3%nat, 2089200); (251000, 3%nat, 1294500)]);
  ("Si", "3s", [(6602000, 1%nat, 14000000); (170000, 3%nat, 15982100); (-4004000, 3%nat, 10596900); (-8885000, 3%nat, 7771500); (-20265000, 3%nat, 5239400); (-4761000, 3%nat, 2900000); (61435000, 3%nat, 2089200); (52025000, 3%nat, 1294500)]);
  ("Si", "2p", [(56838000, 2%nat, 7000000); (29000, 4%nat, 15846100); (3714000, 4%nat, 10514600); (29272000, 4%nat, 6834600); (22915000, 4%nat, 4728100); (1001000, 4%nat, 2301000); (-246000, 4%nat, 1301300); (94000, 4%nat, 773400)]);
  ("Si", "3p", [(-12080000, 2%nat, 7000000); (-151000, 4%nat, 15846100); (-300000, 4%nat, 10514600); (-7161000, 4%nat, 6834600); (1063000, 4%nat, 4728100); (48091000, 4%nat, 2301000); (57523000, 4%nat, 1301300); (4276000, 4%nat, 773400)]);
  ("P", "1s", [(97078000, 1%nat, 15000000); (3134000, 3%nat, 16878300); (1537000, 3%nat, 11490300); (-258000, 3%nat, 8447100); (132000, 3%nat, 5758700); (-28000, 3%nat, 3600000); (7000, 3%nat, 2412100); (-2000, 3%nat, 1490000)]);
  ("P", "2s", [(-26352000, 1%nat, 15000000); (-263000, 3%nat, 16878300); (11770000, 3%nat, 11490300); (37038000, 3%nat, 8447100); (56540000, 3%nat, 5758700); (3814000, 3%nat, 3600000); (-323000, 3%nat, 2412100); (76000, 3%nat, 1490000)]);
  ("P", "3s", [(7237000, 1%nat, 15000000); (159000, 3%nat, 16878300); (-4029000, 3%nat, 11490300); (-9852000, 3%nat, 8447100); (-21687000, 3%nat, 5758700); (-5656000, 3%nat, 3600000); (61698000, 3%nat, 2412100); (52952000, 3%nat, 1490000)]);
  ("P", "2p", [(59203000, 2%nat, 7500000); (604000, 4%nat, 13616100); (1785000, 4%nat, 11585500); (27344000, 4%nat, 7609300); (23003000, 4%nat, 5274300); (737000, 4%nat, 2627000); (-109000, 4%nat, 1496300); (28000, 4%nat, 758300)]);
  ("P", "3p", [(-14005000, 2%nat, 7500000); (-919000, 4%nat, 13616100); (1034000, 4%nat, 11585500); (-8137000, 4%nat, 7609300); (1784000, 4%nat, 5274300); (51852000, 4%nat, 2627000); (55077000, 4%nat, 1496300); (2426000, 4%nat, 758300)]);
  ("S", "1s", [(97218000, 1%nat, 16000000); (2807000, 3%nat, 18120800); (1574000, 3%nat, 12816800); (-142000, 3%nat, 9627000); (83000, 3%nat, 6412400); (-11000, 3%nat, 3774200); (1000, 3%nat, 2709500); (-1000, 3%nat, 1670900)]);
  ("S", "2s", [(-26848000, 1%nat, 16000000); (-207000, 3%nat, 18120800); (7475000, 3%nat, 12816800); (35394000, 3%nat, 9627000); (61978000, 3%nat, 6412400); (4624000, 3%nat, 3774200); (-873000, 3%nat, 2709500); (157000, 3%nat, 1670900)]);
  ("S", "3s", [(7790000, 1%nat, 16000000); (204000, 3%nat, 18120800); (-3170000, 3%nat, 12816800); (-9454000, 3%nat, 9627000); (-25461000, 3%nat, 6412400); (-7603000, 3%nat, 3774200); (65648000, 3%nat, 2709500); (51654000, 3%nat, 1670900)]);
  ("S", "2p", [(61338000, 2%nat, 8000000); (712000, 4%nat, 14125900); (2562000, 4%nat, 11571800); (28388000, 4%nat, 7917100); (18293000, 4%nat, 5603900); (529000, 4%nat, 2890600); (-9000, 4%nat, 1627500); (16000, 4%nat, 866500)]);
  ("S", "3p", [(-15546000, 2%nat, 8000000); (-995000, 4%nat, 14125900); (1287000, 4%nat, 11571800); (-9992000, 4%nat, 7917100); (5174000, 4%nat, 5603900); (55282000, 4%nat, 2890600); (50896000, 4%nat, 1627500); (2556000, 4%nat, 866500)]);
  ("Cl", "1s", [(97352000, 1%nat, 17000000); (3309000, 3%nat, 18464900); (305000, 3%nat, 13852900); (724000, 3%nat, 10096800); (-344000, 3%nat, 6939200); (182000, 3%nat, 4436400); (-84000, 3%nat, 2905700); (19000, 3%nat, 1819000)]);
  ("Cl", "2s", [(-27280000, 1%nat, 17000000); (-531000, 3%nat, 18464900); (8789000, 3%nat, 13852900); (35837000, 3%nat, 10096800); (59568000, 3%nat, 6939200); (5037000, 3%nat, 4436400); (-356000, 3%nat, 2905700); (130000, 3%nat, 1819000)]);
  ("Cl", "3s", [(8250000, 1%nat, 17000000); (397000, 3%nat, 18464900); (-3900000, 3%nat, 13852900); (-9467000, 3%nat, 10096800); (-27164000, 3%nat, 6939200); (-3792000, 3%nat, 4436400); (67094000, 3%nat, 2905700); (47332000, 3%nat, 1819000)]);
  ("Cl", "2p", [(63254000, 2%nat, 8500000); (287000, 4%nat, 15012400); (3393000, 4%nat, 12325700); (27156000, 4%nat, 8372400); (16389000, 4%nat, 6109200); (707000, 4%nat, 3193100); (-34000, 4%nat, 1786300); (36000, 4%nat, 929300)]);
  ("Cl", "3p", [(-16954000, 2%nat, 8500000); (-982000, 4%nat, 15012400); (1281000, 4%nat, 12325700); (-10925000, 4%nat, 8372400); (7066000, 4%nat, 6109200); (56909000, 4%nat, 3193100); (49145000, 4%nat, 1786300); (2336000, 4%nat, 929300)]);
  ("Ar", "1s", [(31640500, 1%nat, 25570800); (54276000, 1%nat, 15626200); (16769100, 2%nat, 22399400); (40800, 2%nat, 10530000); (243100, 2%nat, 7063400); (-86100, 2%nat, 5412000); (-42200, 3%nat, 46705200); (6600, 3%nat, 3798200); (-6100, 3%nat, 2549500); (900, 3%nat, 1796500)]);
  ("Ar", "2s", [(7914800, 1%nat, 25570800); (-50782300, 1%nat, 15626200); (5990000, 2%nat, 22399400); (-2638900, 2%nat, 10530000); (83263800, 2%nat, 7063400); (29552200, 2%nat, 5412000); (21700, 3%nat, 46705200); (220300, 3%nat, 3798200); (142300, 3%nat, 2549500); (18600, 3%nat, 1796500)]);
  ("Ar", "3s", [(3551200, 1%nat, 25570800); (-18126700, 1%nat, 15626200); (2650000, 2%nat, 22399400); (628000, 2%nat, 10530000); (11183600, 2%nat, 7063400); (38560400, 2%nat, 5412000); (7000, 3%nat, 46705200); (-37690100, 3%nat, 3798200); (-59356100, 3%nat, 2549500); (-22997100, 3%nat, 1796500)]);
  ("Ar", "2p", [(243600, 2%nat, 26635800); (-11477400, 2%nat, 12733700); (-50317500, 2%nat, 7304100); (-42703300, 2%nat, 5335300); (966900, 3%nat, 20776500); (-482500, 3%nat, 3317100); (23100, 3%nat, 2094700); (-9800, 3%nat, 1378000)]);
  ("Ar", "3p", [(185400, 2%nat, 26635800); (-4206400, 2%nat, 12733700); (-9560300, 2%nat, 7304100); (-19423300, 2%nat, 5335300); (589100, 3%nat, 20776500); (36614100, 3%nat, 3317100); (52649000, 3%nat, 2094700); (24986600, 3%nat, 1378000)]);
  ("K", "1s", [(93331000, 1%nat, 19068100); (1816000, 1%nat, 30846700); (5954000, 2%nat, 16870600); (464000, 2%nat, 7510000); (-277000, 3%nat, 6542860); (220000, 3%nat, 3953500); (-244000, 3%nat, 2612300); (129000, 4%nat, 2543240); (-5000, 4%nat, 550000); (-16000, 4%nat, 1261730); (11000, 4%nat, 750000)]);
  ("K", "2s", [(-27170000, 1%nat, 19068100); (-348000, 1%nat, 30846700); (-14145000, 2%nat, 16870600); (98297000, 2%nat, 7510000); (15057000, 3%nat, 6542860); (113000, 3%nat, 3953500); (666000, 3%nat, 2612300); (-334000, 4%nat, 2543240); (19000, 4%nat, 550000); (53000, 4%nat, 1261730); (-41000, 4%nat, 750000)]);
  ("K", "3s", [(9037000, 1%nat, 19068100); (72000, 1%nat, 30846700); (4946000, 2%nat, 16870600); (-35158000, 2%nat, 7510000); (-19612000, 3%nat, 6542860); (48367000, 3%nat, 3953500); (62641000, 3%nat, 2612300); (8203000, 4%nat, 2543240); (386000, 4%nat, 550000); (1394000, 4%nat, 1261730); (-799000, 4%nat, 750000)]);
  ("K", "2p", [(66802000, 2%nat, 8634100); (4231000, 2%nat, 15201200); (34669000, 3%nat, 6912690); (1426000, 3%nat, 3185300); (-1352000, 3%nat, 1885130); (900000, 3%nat, 1651560)]);
  ("K", "3p", [(-20988000, 2%nat, 8634100); (-1126000, 2%nat, 15201200); (-12238000, 3%nat, 6912690); (61541000, 3%nat, 3185300); (51452000, 3%nat, 1885130); (-1998000, 3%nat, 1651560)]);
  ("Ca", "1s", [(93710000, 1%nat, 20083600); (1668000, 1%nat, 31973300); (5893000, 2%nat, 17333300); (-1000, 2%nat, 8450000); (143000, 3%nat, 7428200); (-475000, 3%nat, 3937820); (744000, 3%nat, 3000000); (-381000, 4%nat, 3073930); (23000, 4%nat, 1620000); (-12000, 4%nat, 1006510); (4000, 4%nat, 663690)]);
  ("Ca", "2s", [(-27838000, 1%nat, 20083600); (-170000, 1%nat, 31973300); (-15452000, 2%nat, 17333300); (88814000, 2%nat, 8450000); (27166000, 3%nat, 7428200); (-2220000, 3%nat, 3937820); (4909000, 3%nat, 3000000); (-2601000, 4%nat, 3073930); (187000, 4%nat, 1620000); (-102000, 4%nat, 1006510); (36000, 4%nat, 663690)]);
  ("Ca", "3s", [(9747000, 1%nat, 20083600); (-18000, 1%nat, 31973300); (5523000, 2%nat, 17333300); (-32769000, 2%nat, 8450000); (-22986000, 3%nat, 7428200); (74185000, 3%nat, 3937820); (7703000, 3%nat, 3000000); (36868000, 4%nat, 3073930); (1253000, 4%nat, 1620000); (-419000, 4%nat, 1006510); (127000, 4%nat, 663690)]);
  ("Ca", "2p", [(67844000, 2%nat, 9130810); (4219000, 2%nat, 16002000); (33374000, 3%nat, 7376330); (1216000, 3%nat, 3625480); (-437000, 3%nat, 2335920); (127000, 3%nat, 1631540)]);
  ("Ca", "3p", [(-22547000, 2%nat, 9130810); (-1274000, 2%nat, 16002000); (-13739000, 3%nat, 7376330); (54973000, 3%nat, 3625480); (52581000, 3%nat, 2335920); (4001000, 3%nat, 1631540)]);
  ("Sc", "1s", [(92928600, 1%nat, 21723700); (7681600, 2%nat, 18596400); (180400, 2%nat, 8533100); (1032000, 3%nat, 26663500); (32300, 3%nat, 6362900); (-28100, 3%nat, 4408700); (7300, 3%nat, 2983600); (-62600, 4%nat, 10055800); (-2400, 4%nat, 1733900); (1800, 4%nat, 1154900); (-700, 4%nat, 807400)]);
  ("Sc", "2s", [(-27232500, 1%nat, 21723700); (-16592600, 2%nat, 18596400); (100833900, 2%nat, 8533100); (-155100, 3%nat, 26663500); (8594900, 3%nat, 6362900); (-647300, 3%nat, 4408700); (283000, 3%nat, 2983600); (6604900, 4%nat, 10055800); (-34600, 4%nat, 1733900); (23400, 4%nat, 1154900); (-8200, 4%nat, 807400)]);
  ("Sc", "3s", [(-9594100, 1%nat, 21723700); (-6654300, 2%nat, 18596400); (41373400, 2%nat, 8533100); (-126400, 3%nat, 26663500); (11617700, 3%nat, 6362900); (-56754900, 3%nat, 4408700); (-63845100, 3%nat, 2983600); (7994500, 4%nat, 10055800); (-850500, 4%nat, 1733900); (270400, 4%nat, 1154900); (-72700, 4%nat, 807400)]);
  ("Sc", "4s", [(2276200, 1%nat, 21723700); (1606900, 2%nat, 18596400); (-10005100, 2%nat, 8533100); (29100, 3%nat, 26663500); (-3104000, 3%nat, 6362900); (16266100, 3%nat, 4408700); (16941700, 3%nat, 2983600); (-2217500, 4%nat, 10055800); (-30363040, 4%nat, 1733900); (-52669300, 4%nat, 1154900); (-28674500, 4%nat, 807400)]);
  ("Sc", "2p", [(115600, 2%nat, 31209100); (34155300, 2%nat, 12689600); (41527100, 2%nat, 6546900); (383000, 2%nat, 2794500); (29671500, 3%nat, 10077800); (-84900, 3%nat, 2366100); (10900, 3%nat, 1454000)]);
  ("Sc", "3p", [(-28700, 2%nat, 31209100); (-7476100, 2%nat, 12689600); (-45741100, 2%nat, 6546900); (88849900, 2%nat, 2794500); (-1395600, 3%nat, 10077800); (31181600, 3%nat, 2366100); (2106000, 3%nat, 1454000)]);
  ("Sc", "3d", [(1512300, 3%nat, 9854900); (15965300, 3%nat, 4849800); (35986000, 3%nat, 2920000); (43488000, 3%nat, 1738900); (19941900, 3%nat, 1059400)]);
  ("Ti", "1s", [(95029000, 1%nat, 21783200); (2149000, 1%nat, 34574200); (3563000, 2%nat, 18705900); (444000, 2%nat, 9309810); (-286000, 3%nat, 8237180); (338000, 3%nat, 4831620); (-487000, 3%nat, 3379300); (267000, 4%nat, 3487700); (-13000, 4%nat, 1539120); (11000, 4%nat, 938460); (-6000, 4%nat, 700260)]);
  ("Ti", "2s", [(-29231000, 1%nat, 21783200); (-57000, 1%nat, 34574200); (-15767000, 2%nat, 18705900); (93686000, 2%nat, 9309810); (22976000, 3%nat, 8237180); (-795000, 3%nat, 4831620); (2460000, 3%nat, 3379300); (-1355000, 4%nat, 3487700); (82000, 4%nat, 1539120); (-72000, 4%nat, 938460); (36000, 4%nat, 700260)]);
  ("Ti", "3s", [(10649000, 1%nat, 21783200); (-84000, 1%nat, 34574200); (5797000, 2%nat, 18705900); (-35705000, 2%nat, 9309810); (-25133000, 3%nat, 8237180); (54343000, 3%nat, 4831620); (48850000, 3%nat, 3379300); (17860000, 4%nat, 3487700); (1333000, 4%nat, 1539120); (-925000, 4%nat, 938460); (438000, 4%nat, 700260)]);
  ("Ti", "4s", [(-2379000, 1%nat, 21783200); (-29000, 1%nat, 34574200); (-1531000, 2%nat, 18705900); (8760000, 2%nat, 9309810); (5373000, 3%nat, 8237180); (-6232000, 3%nat, 4831620); (-33674000, 3%nat, 3379300); (12273000, 4%nat, 3487700); (56471000, 4%nat, 1539120); (49596000, 4%nat, 938460); (2654000, 4%nat, 700260)]);
  ("Ti", "2p", [(69283000, 2%nat, 10005600); (5359000, 2%nat, 16792300); (29944000, 3%nat, 8327110); (1300000, 3%nat, 4735250); (-116000, 3%nat, 2924610); (17000, 3%nat, 1341760)]);
  ("Ti", "3p", [(-23557000, 2%nat, 10005600); (-1963000, 2%nat, 16792300); (-16304000, 3%nat, 8327110); (39692000, 3%nat, 4735250); (71972000, 3%nat, 2924610); (3091000, 3%nat, 1341760)]);
  ("Ti", "3d", [(55179000, 3%nat, 2008500); (3278000, 3%nat, 9100000); (25284000, 3%nat, 4403900); (17865000, 3%nat, 3420000); (14505000, 3%nat, 1104600)]);
  ("V", "1s", [(95175000, 1%nat, 22776300); (2115000, 1%nat, 36053400); (3441000, 2%nat, 19541000); (415000, 2%nat, 9374000); (-366000, 3%nat, 7905030); (552000, 3%nat, 5129850); (-569000, 3%nat, 3902200); (214000, 4%nat, 3750000); (-14000, 4%nat, 1657600); (10000, 4%nat, 994740); (-4000, 4%nat, 676490)]);
  ("V", "2s", [(-29620000, 1%nat, 22776300); (19000, 1%nat, 36053400); (-15795000, 2%nat, 19541000); (104067000, 2%nat, 9374000); (12576000, 3%nat, 7905030); (-2332000, 3%nat, 5129850); (2784000, 3%nat, 3902200); (-967000, 4%nat, 3750000); (66000, 4%nat, 1657600); (-46000, 4%nat, 994740); (19000, 4%nat, 676490)]);
  ("V", "3s", [(10614000, 1%nat, 22776300); (42000, 1%nat, 36053400); (6539000, 2%nat, 19541000); (-42093000, 2%nat, 9374000); (-25395000, 3%nat, 7905030); (73273000, 3%nat, 5129850); (15618000, 3%nat, 3902200); (39916000, 4%nat, 3750000); (1003000, 4%nat, 1657600); (-469000, 4%nat, 994740); (179000, 4%nat, 676490)]);
  ("V", "4s", [(-2339000, 1%nat, 22776300); (-46000, 1%nat, 36053400); (-1626000, 2%nat, 19541000); (9958000, 2%nat, 9374000); (5408000, 3%nat, 7905030); (-11001000, 3%nat, 5129850); (-19022000, 3%nat, 3902200); (303000, 4%nat, 3750000); (52960000, 4%nat, 1657600); (53881000, 4%nat, 994740); (2742000, 4%nat, 676490)]);
  ("V", "2p", [(65600000, 2%nat, 10623600); (6784000, 2%nat, 16688900); (31581000, 3%nat, 9044940); (2045000, 3%nat, 5366970); (-152000, 3%nat, 3201090); (27000, 3%nat, 1474920)]);
  ("V", "3p", [(-21728000, 2%nat, 10623600); (-2862000, 2%nat, 16688900); (-19052000, 3%nat, 9044940); (34598000, 3%nat, 5366970); (77679000, 3%nat, 3201090); (3819000, 3%nat, 1474920)]);
  ("V", "3d", [(25464000, 3%nat, 3024850); (2932000, 3%nat, 9971040); (30746000, 3%nat, 4791900); (44118000, 3%nat, 2075600); (12717000, 3%nat, 1172000)]);
  ("Cr", "1s", [(94322000, 1%nat, 23535400); (3647000, 1%nat, 34980000); (2370000, 2%nat, 21283500); (996000, 2%nat, 9917720); (-719000, 3%nat, 9488280); (384000, 3%nat, 5803300); (-275000, 3%nat, 4025100); (100000, 4%nat, 3283930); (-30000, 4%nat, 1722620); (19000, 4%nat, 1056740); (-8000, 4%nat, 720000)]);
  ("Cr", "2s", [(-28710000, 1%nat, 23535400); (-855000, 1%nat, 34980000); (-14750000, 2%nat, 21283500); (98190000, 2%nat, 9917720); (14838000, 3%nat, 9488280); (2741000, 3%nat, 5803300); (-595000, 3%nat, 4025100); (175000, 4%nat, 3283930); (-25000, 4%nat, 1722620); (13000, 4%nat, 1056740); (-5000, 4%nat, 720000)]);
  ("Cr", "3s", [(10858000, 1%nat, 23535400); (97000, 1%nat, 34980000); (5287000, 2%nat, 21283500); (-37463000, 2%nat, 9917720); (-22796000, 3%nat, 9488280); (31596000, 3%nat, 5803300); (78809000, 3%nat, 4025100); (10198000, 4%nat, 3283930); (294000, 4%nat, 1722620); (-147000, 4%nat, 1056740); (59000, 4%nat, 720000)]);
  ("Cr", "4s", [(-2338000, 1%nat, 23535400); (-63000, 1%nat, 34980000); (-1277000, 2%nat, 21283500); (8586000, 2%nat, 9917720); (5191000, 3%nat, 9488280); (-6370000, 3%nat, 5803300); (-23986000, 3%nat, 4025100); (3828000, 4%nat, 3283930); (50271000, 4%nat, 1722620); (52778000, 4%nat, 1056740); (5679000, 4%nat, 720000)]);
  ("Cr", "2p", [(65768000, 2%nat, 10667400); (10559000, 2%nat, 16362500); (25439000, 3%nat, 9634240); (3594000, 3%nat, 6640100); (40000, 3%nat, 3547360); (5000, 3%nat, 1614280)]);
  ("Cr", "3p", [(-19015000, 2%nat, 10667400); (-5418000, 2%nat, 16362500); (-24524000, 3%nat, 9634240); (29355000, 3%nat, 6640100); (86545000, 3%nat, 3547360); (5265000, 3%nat, 1614280)]);
  ("Cr", "3d", [(21723000, 3%nat, 3470000); (3006000, 3%nat, 10358700); (29068000, 3%nat, 5226400); (48069000, 3%nat, 2344200); (14231000, 3%nat, 1264500)]);
  ("Mn", "1s", [(95312000, 1%nat, 24609600); (2706000, 1%nat, 37606700); (2484000, 2%nat, 21117700); (567000, 2%nat, 10668500); (-379000, 3%nat, 9756590); (287000, 3%nat, 5733480); (-261000, 3%nat, 4148000); (97000, 4%nat, 3650000); (-18000, 4%nat, 1816900); (12000, 4%nat, 1081100); (-6000, 4%nat, 765200)]);
  ("Mn", "2s", [(-30378000, 1%nat, 24609600); (53000, 1%nat, 37606700); (-16252000, 2%nat, 21117700); (96978000, 2%nat, 10668500); (19210000, 3%nat, 9756590); (2128000, 3%nat, 5733480); (-733000, 3%nat, 4148000); (244000, 4%nat, 3650000); (-25000, 4%nat, 1816900); (16000, 4%nat, 1081100); (-7000, 4%nat, 765200)]);
  ("Mn", "3s", [(11283000, 1%nat, 24609600); (-83000, 1%nat, 37606700); (6340000, 2%nat, 21117700); (-38358000, 2%nat, 10668500); (-23797000, 3%nat, 9756590); (45292000, 3%nat, 5733480); (62563000, 3%nat, 4148000); (13316000, 4%nat, 3650000); (478000, 4%nat, 1816900); (-235000, 4%nat, 1081100); (98000, 4%nat, 765200)]);
  ("Mn", "4s", [(-2403000, 1%nat, 24609600); (6000, 1%nat, 37606700); (-1460000, 2%nat, 21117700); (8545000, 2%nat, 10668500); (5408000, 3%nat, 9756590); (-9262000, 3%nat, 5733480); (-20451000, 3%nat, 4148000); (2977000, 4%nat, 3650000); (50295000, 4%nat, 1816900); (54246000, 4%nat, 1081100); (5052000, 4%nat, 765200)]);
  ("Mn", "2p", [(85701000, 2%nat, 9589400); (14805000, 2%nat, 16269900); (1941000, 3%nat, 6080000); (1069000, 3%nat, 5280000); (-876000, 3%nat, 3430000); (380000, 3%nat, 2600000)]);
  ("Mn", "3p", [(-34307000, 2%nat, 9589400); (-4274000, 2%nat, 16269900); (-15851000, 3%nat, 6080000); (68124000, 3%nat, 5280000); (45354000, 3%nat, 3430000); (13901000, 3%nat, 2600000)]);
  ("Mn", "3d", [(23794000, 3%nat, 3723900); (2837000, 3%nat, 11177200); (29074000, 3%nat, 5615700); (46502000, 3%nat, 2484900); (13663000, 3%nat, 1371800)]);
  ("Fe", "1s", [(95050000, 1%nat, 25878200); (2057000, 1%nat, 38733000); (4070000, 2%nat, 21333000); (-499000, 2%nat, 11012300); (654000, 3%nat, 9500240); (-555000, 3%nat, 6990200); (277000, 3%nat, 4637970); (-101000, 4%nat, 3923450); (22000, 4%nat, 1953700); (-15000, 4%nat, 1152370); (7000, 4%nat, 800190)]);
  ("Fe", "2s", [(-31119000, 1%nat, 25878200); (637000, 1%nat, 38733000); (-18073000, 2%nat, 21333000); (104033000, 2%nat, 11012300); (14529000, 3%nat, 9500240); (127000, 3%nat, 6990200); (444000, 3%nat, 4637970); (-51000, 4%nat, 3923450); (10000, 4%nat, 1953700); (-5000, 4%nat, 1152370); (2000, 4%nat, 800190)]);
  ("Fe", "3s", [(11608000, 1%nat, 25878200); (-282000, 1%nat, 38733000); (7286000, 2%nat, 21333000); (-42089000, 2%nat, 11012300); (-30895000, 3%nat, 9500240); (37399000, 3%nat, 6990200); (76342000, 3%nat, 4637970); (17426000, 4%nat, 3923450); (777000, 4%nat, 1953700); (-401000, 4%nat, 1152370); (169000, 4%nat, 800190)]);
  ("Fe", "4s", [(-2450000, 1%nat, 25878200); (41000, 1%nat, 38733000); (-1640000, 2%nat, 21333000); (9240000, 2%nat, 11012300); (6947000, 3%nat, 9500240); (-7729000, 3%nat, 6990200); (-21943000, 3%nat, 4637970); (248000, 4%nat, 3923450); (47064000, 4%nat, 1953700); (56440000, 4%nat, 1152370); (7094000, 4%nat, 800190)]);
  ("Fe", "2p", [(85953000, 2%nat, 10092000); (14302000, 2%nat, 17023700); (2616000, 3%nat, 6476480); (377000, 3%nat, 5468050); (-538000, 3%nat, 3453970); (253000, 3%nat, 2551780)]);
  ("Fe", "3p", [(34921000, 2%nat, 10092000); (4091000, 2%nat, 17023700); (11443000, 3%nat, 6476480); (-67705000, 3%nat, 5468050); (-48342000, 3%nat, 3453970); (-7098000, 3%nat, 2551780)]);
  ("Fe", "3d", [(25357000, 3%nat, 4095420); (3038000, 3%nat, 11500000); (27181000, 3%nat, 6004050); (46098000, 3%nat, 2616910); (14758000, 3%nat, 1448800)]);
  ("Co", "1s", [(95648000, 1%nat, 26827200); (1825000, 1%nat, 41360000); (3559000, 2%nat, 22000000); (-310000, 2%nat, 12160500); (287000, 3%nat, 10547000); (-457000, 3%nat, 6282240); (416000, 3%nat, 5208350); (-92000, 4%nat, 4550000); (10000, 4%nat, 2015860); (-7000, 4%nat, 1197250); (3000, 4%nat, 808490)]);
  ("Co", "2s", [(-31023000, 1%nat, 26827200); (424000, 1%nat, 41360000); (-19736000, 2%nat, 22000000); (94423000, 2%nat, 12160500); (27368000, 3%nat, 10547000); (-2723000, 3%nat, 6282240); (3302000, 3%nat, 5208350); (-686000, 4%nat, 4550000); (83000, 4%nat, 2015860); (-58000, 4%nat, 1197250); (25000, 4%nat, 808490)]);
  ("Co", "3s", [(11691000, 1%nat, 26827200); (-228000, 1%nat, 41360000); (7810000, 2%nat, 22000000); (-37884000, 2%nat, 12160500); (-29104000, 3%nat, 10547000); (57439000, 3%nat, 6282240); (28446000, 3%nat, 5208350); (39150000, 4%nat, 4550000); (1366000, 4%nat, 2015860); (-719000, 4%nat, 1197250); (289000, 4%nat, 808490)]);
  ("Co", "4s", [(-2370000, 1%nat, 26827200); (-1863000, 2%nat, 22000000); (8480000, 2%nat, 12160500); (5670000, 3%nat, 10547000); (-4278000, 3%nat, 6282240); (-20861000, 3%nat, 5208350); (-1496000, 4%nat, 4550000); (47106000, 4%nat, 2015860); (55169000, 4%nat, 1197250); (8430000, 4%nat, 808490)]);
  ("Co", "2p", [(88588000, 2%nat, 11080800); (8163000, 2%nat, 19707400); (8610000, 3%nat, 7552860); (-2628000, 3%nat, 5721490); (686000, 3%nat, 3531890); (-191000, 3%nat, 2708420)]);
  ("Co", "3p", [(-35287000, 2%nat, 11080800); (-2227000, 2%nat, 19707400); (-10988000, 3%nat, 7552860); (67813000, 3%nat, 5721490); (47766000, 3%nat, 3531890); (5209000, 3%nat, 2708420)]);
  ("Co", "3d", [(30107000, 3%nat, 4554140); (2931000, 3%nat, 12070300); (22586000, 3%nat, 6580180); (45926000, 3%nat, 2748050); (15129000, 3%nat, 1534000)]);
  ("Ni", "1s", [(95283000, 1%nat, 27781000); (2300000, 1%nat, 40986700); (3504000, 2%nat, 22666700); (-461000, 2%nat, 12650000); (453000, 3%nat, 10715700); (-696000, 3%nat, 6772200); (598000, 3%nat, 5518820); (-135000, 4%nat, 4802340); (14000, 4%nat, 2134000); (-9000, 4%nat, 1265300); (4000, 4%nat, 812200)]);
  ("Ni", "2s", [(-31396000, 1%nat, 27781000); (534000, 1%nat, 40986700); (-20538000, 2%nat, 22666700); (96662000, 2%nat, 12650000); (27446000, 3%nat, 10715700); (-6406000, 3%nat, 6772200); (5945000, 3%nat, 5518820); (-1214000, 4%nat, 4802340); (132000, 4%nat, 2134000); (-84000, 4%nat, 1265300); (33000, 4%nat, 812200)]);
  ("Ni", "3s", [(11874000, 1%nat, 27781000); (-265000, 1%nat, 40986700); (8304000, 2%nat, 22666700); (-39356000, 2%nat, 12650000); (-31544000, 3%nat, 10715700); (57698000, 3%nat, 6772200); (29014000, 3%nat, 5518820); (41696000, 4%nat, 4802340); (1491000, 4%nat, 2134000); (-709000, 4%nat, 1265300); (261000, 4%nat, 812200)]);
  ("Ni", "4s", [(-2349000, 1%nat, 27781000); (-7000, 1%nat, 40986700); (-1957000, 2%nat, 22666700); (8676000, 2%nat, 12650000); (5940000, 3%nat, 10715700); (-4957000, 3%nat, 6772200); (-19405000, 3%nat, 5518820); (-2633000, 4%nat, 4802340); (43980000, 4%nat, 2134000); (57464000, 4%nat, 1265300); (9855000, 4%nat, 812200)]);
  ("Ni", "2p", [(77027000, 2%nat, 11344100); (15818000, 2%nat, 18003000); (8388000, 3%nat, 11357500); (3084000, 3%nat, 6302570); (-1454000, 3%nat, 4133330); (678000, 3%nat, 3328610)]);
  ("Ni", "3p", [(-28430000, 2%nat, 11344100); (-5903000, 2%nat, 18003000); (-9288000, 3%nat, 11357500); (49417000, 3%nat, 6302570); (43345000, 3%nat, 4133330); (22459000, 3%nat, 3328610)]);
  ("Ni", "3d", [(28189000, 3%nat, 4630000); (2825000, 3%nat, 12679100); (25511000, 3%nat, 6871800); (44042000, 3%nat, 2925300); (16453000, 3%nat, 1609800)]);
  ("Cu", "1s", [(95331000, 1%nat, 28742600); (2419000, 1%nat, 42113300); (3355000, 2%nat, 23333000); (-597000, 2%nat, 13145300); (704000, 3%nat, 11417900); (-961000, 3%nat, 8023000); (661000, 3%nat, 6646620); (-110000, 4%nat, 5032780); (29000, 4%nat, 3161060); (-7000, 4%nat, 1754200); (2000, 4%nat, 862480)]);
  ("Cu", "2s", [(-32021000, 1%nat, 28742600); (785000, 1%nat, 42113300); (-20475000, 2%nat, 23333000); (96625000, 2%nat, 13145300); (26335000, 3%nat, 11417900); (-2418000, 3%nat, 8023000); (2423000, 3%nat, 6646620); (-206000, 4%nat, 5032780); (67000, 4%nat, 3161060); (-14000, 4%nat, 1754200); (3000, 4%nat, 862480)]);
  ("Cu", "3s", [(11948000, 1%nat, 28742600); (-277000, 1%nat, 42113300); (8567000, 2%nat, 23333000); (-39841000, 2%nat, 13145300); (-27194000, 3%nat, 11417900); (-4205000, 3%nat, 8023000); (83841000, 3%nat, 6646620); (43381000, 4%nat, 5032780); (2940000, 4%nat, 3161060); (-66000, 4%nat, 1754200); (21000, 4%nat, 862480)]);
  ("Cu", "4s", [(-1752000, 1%nat, 28742600); (-135000, 1%nat, 42113300); (-2213000, 2%nat, 23333000); (8537000, 2%nat, 13145300); (262000, 3%nat, 11417900); (18180000, 3%nat, 8023000); (-34406000, 3%nat, 6646620); (-1068000, 4%nat, 5032780); (1765000, 4%nat, 3161060); (65507000, 4%nat, 1754200); (46209000, 4%nat, 862480)]);
  ("Cu", "2p", [(80028000, 2%nat, 12110300); (12079000, 2%nat, 19400000); (8990000, 3%nat, 11250800); (2635000, 3%nat, 7375820); (-278000, 3%nat, 4580410); (112000, 3%nat, 2866560)]);
  ("Cu", "3p", [(-29688000, 2%nat, 12110300); (-4457000, 2%nat, 19400000); (-12411000, 3%nat, 11250800); (35715000, 3%nat, 7375820); (68683000, 3%nat, 4580410); (14523000, 3%nat, 2866560)]);
  ("Cu", "3d", [(30798000, 3%nat, 5031700); (2800000, 3%nat, 12726000); (19943000, 3%nat, 7541340); (39335000, 3%nat, 3157450); (26697000, 3%nat, 1678940)]);
  ("Zn", "1s", [(95444000, 1%nat, 29716100); (2457000, 1%nat, 43240000); (3108000, 2%nat, 24000000); (-455000, 2%nat, 13247300); (402000, 3%nat, 11477100); (-638000, 3%nat, 6860000); (594000, 3%nat, 5630000); (-143000, 4%nat, 4976810); (14000, 4%nat, 2240000); (-10000, 4%nat, 1280050); (5000, 4%nat, 898430)]);
  ("Zn", "2s", [(-32583000, 1%nat, 29716100); (1024000, 1%nat, 43240000); (-20354000, 2%nat, 24000000); (103470000, 2%nat, 13247300); (18142000, 3%nat, 11477100); (531000, 3%nat, 6860000); (119000, 3%nat, 5630000); (25000, 4%nat, 4976810); (2000, 4%nat, 2240000)]);
  ("Zn", "3s", [(12076000, 1%nat, 29716100); (-253000, 1%nat, 43240000); (9111000, 2%nat, 24000000); (-44308000, 2%nat, 13247300); (-24559000, 3%nat, 11477100); (70723000, 3%nat, 6860000); (20254000, 3%nat, 5630000); (34731000, 4%nat, 4976810); (717000, 4%nat, 2240000); (-293000, 4%nat, 1280050); (122000, 4%nat, 898430)]);
  ("Zn", "4s", [(-2347000, 1%nat, 29716100); (9000, 1%nat, 43240000); (-1989000, 2%nat, 24000000); (9271000, 2%nat, 13247300); (4828000, 3%nat, 11477100); (-9449000, 3%nat, 6860000); (-15512000, 3%nat, 5630000); (-584000, 4%nat, 4976810); (47433000, 4%nat, 2240000); (55790000, 4%nat, 1280050); (7951000, 4%nat, 898430)]);
  ("Zn", "2p", [(85067000, 2%nat, 12198900); (12713000, 2%nat, 19965800); (3369000, 3%nat, 10646700); (2042000, 3%nat, 6952100); (-287000, 3%nat, 4172110); (67000, 3%nat, 1856870)]);
  ("Zn", "3p", [(-33992000, 2%nat, 12198900); (-4126000, 2%nat, 19965800); (-8400000, 3%nat, 10646700); (54700000, 3%nat, 6952100); (62185000, 3%nat, 4172110); (1705000, 3%nat, 1856870)]);
  ("Zn", "3d", [(38220000, 3%nat, 4934380); (2512000, 3%nat, 13872300); (23852000, 3%nat, 7836890); (37343000, 3%nat, 3000000); (15255000, 3%nat, 1769060)]);
  ("Ga", "1s", [(76498000, 1%nat, 29934300); (21223000, 1%nat, 35284200); (3348000, 2%nat, 25914300); (-632000, 2%nat, 13156300); (515000, 3%nat, 12430000); (-213000, 3%nat, 7523980); (88000, 3%nat, 4958720); (-25000, 4%nat, 2604900); (19000, 4%nat, 1574120); (-8000, 4%nat, 1023700)]);
  ("Ga", "2s", [(-33327000, 1%nat, 29934300); (937000, 1%nat, 35284200); (-16205000, 2%nat, 25914300); (106304000, 2%nat, 13156300); (9863000, 3%nat, 12430000); (2626000, 3%nat, 7523980); (-493000, 3%nat, 4958720); (138000, 4%nat, 2604900); (-100000, 4%nat, 1574120); (41000, 4%nat, 1023700)]);
  ("Ga", "3s", [(12682000, 1%nat, 29934300); (-334000, 1%nat, 35284200); (6874000, 2%nat, 25914300); (-44269000, 2%nat, 13156300); (-22361000, 3%nat, 12430000); (52482000, 3%nat, 7523980); (69822000, 3%nat, 4958720); (1130000, 4%nat, 2604900); (-416000, 4%nat, 1574120); (141000, 4%nat, 1023700)]);
  ("Ga", "4s", [(-3544000, 1%nat, 29934300); (546000, 1%nat, 35284200); (-1269000, 2%nat, 25914300); (9769000, 2%nat, 13156300); (7050000, 3%nat, 12430000); (-16506000, 3%nat, 7523980); (-16581000, 3%nat, 4958720); (45284000, 4%nat, 2604900); (57327000, 4%nat, 1574120); (9786000, 4%nat, 1023700)]);
  ("Ga", "2p", [(89812000, 2%nat, 12403900); (12506000, 2%nat, 20752800); (-3119000, 3%nat, 12040500); (4071000, 3%nat, 7718300); (-1087000, 3%nat, 4891480); (427000, 4%nat, 3518400); (-199000, 4%nat, 1969290); (143000, 4%nat, 1178300); (-67000, 4%nat, 854160)]);
  ("Ga", "3p", [(-35650000, 2%nat, 12403900); (-4324000, 2%nat, 20752800); (-5784000, 3%nat, 12040500); (38450000, 3%nat, 7718300); (71817000, 3%nat, 4891480); (7386000, 4%nat, 3518400); (-226000, 4%nat, 1969290); (195000, 4%nat, 1178300); (-74000, 4%nat, 854160)]);
  ("Ga", "3d", [(42381000, 3%nat, 3532450); (15345000, 3%nat, 2104910); (32333000, 3%nat, 5624610); (22270000, 3%nat, 8254320); (2784000, 3%nat, 14249300)]);
  ("Ge", "1s", [(75827000, 1%nat, 30754000); (22243000, 1%nat, 36380200); (2892000, 2%nat, 26689900); (-516000, 2%nat, 13965200); (429000, 3%nat, 12730000); (-212000, 3%nat, 7806370); (93000, 3%nat, 5210330); (-30000, 4%nat, 2842280); (27000, 4%nat, 1774690); (-12000, 4%nat, 1281870)]);
  ("Ge", "2s", [(-31617000, 1%nat, 30754000); (-681000, 1%nat, 36380200); (-17452000, 2%nat, 26689900); (102729000, 2%nat, 13965200); (15568000, 3%nat, 12730000); (1652000, 3%nat, 7806370); (-161000, 3%nat, 5210330); (52000, 4%nat, 2842280); (-42000, 4%nat, 1774690); (18000, 4%nat, 1281870)]);
  ("Ge", "3s", [(11560000, 1%nat, 30754000); (751000, 1%nat, 36380200); (7847000, 2%nat, 26689900); (-43965000, 2%nat, 13965200); (-24818000, 3%nat, 12730000); (53210000, 3%nat, 7806370); (69793000, 3%nat, 5210330); (1102000, 4%nat, 2842280); (-447000, 4%nat, 1774690); (178000, 4%nat, 1281870)]);
  ("Ge", "4s", [(-3175000, 1%nat, 30754000); (-28000, 1%nat, 36380200); (-1900000, 2%nat, 26689900); (11138000, 2%nat, 13965200); (7828000, 3%nat, 12730000); (-17418000, 3%nat, 7806370); (-19976000, 3%nat, 5210330); (47836000, 4%nat, 2842280); (52257000, 4%nat, 1774690); (12452000, 4%nat, 1281870)]);
  ("Ge", "2p", [(85883000, 2%nat, 13200000); (11779000, 2%nat, 21578600); (2091000, 3%nat, 12740000); (3891000, 3%nat, 8030490); (-1045000, 3%nat, 5205220); (389000, 4%nat, 3700000); (-178000, 4%nat, 2140000); (108000, 4%nat, 1260000); (-46000, 4%nat, 870000)]);
  ("Ge", "3p", [(-34831000, 2%nat, 13200000); (-4023000, 2%nat, 21578600); (-7025000, 3%nat, 12740000); (35993000, 3%nat, 8030490); (73395000, 3%nat, 5205220); (7752000, 4%nat, 3700000); (-711000, 4%nat, 2140000); (453000, 4%nat, 1260000); (-181000, 4%nat, 870000)]);
  ("Ge", "3d", [(43759000, 3%nat, 3785000); (12154000, 3%nat, 2320000); (33919000, 3%nat, 6045570); (20943000, 3%nat, 8757700); (2845000, 3%nat, 14750000)]);
  ("As", "1s", [(78154000, 1%nat, 31040000); (21784000, 1%nat, 38232700); (396000, 2%nat, 26010700); (73000, 2%nat, 15096900); (42000, 3%nat, 13325300); (-51000, 3%nat, 8060000); (25000, 3%nat, 5477650); (-9000, 4%nat, 3118070); (8000, 4%nat, 1995830); (-3000, 4%nat, 1408540)]);
  ("As", "2s", [(-35009000, 1%nat, 31040000); (974000, 1%nat, 38232700); (-18787000, 2%nat, 26010700); (98813000, 2%nat, 15096900); (23863000, 3%nat, 13325300); (966000, 3%nat, 8060000); (79000, 3%nat, 5477650); (-24000, 4%nat, 3118070); (21000, 4%nat, 1995830); (-10000, 4%nat, 1408540)]);
  ("As", "3s", [(13414000, 1%nat, 31040000); (-216000, 1%nat, 38232700); (8511000, 2%nat, 26010700); (-42697000, 2%nat, 15096900); (-28162000, 3%nat, 13325300); (52624000, 3%nat, 8060000); (70050000, 3%nat, 5477650); (1079000, 4%nat, 3118070); (-352000, 4%nat, 1995830); (131000, 4%nat, 1408540)]);
  ("As", "4s", [(-3662000, 1%nat, 31040000); (35000, 1%nat, 38232700); (-2389000, 2%nat, 26010700); (11873000, 2%nat, 15096900); (8901000, 3%nat, 13325300); (-17539000, 3%nat, 8060000); (-23303000, 3%nat, 5477650); (46610000, 4%nat, 3118070); (53723000, 4%nat, 1995830); (12973000, 4%nat, 1408540)]);
  ("As", "2p", [(79922000, 2%nat, 14192800); (11070000, 2%nat, 22350000); (9672000, 3%nat, 13400000); (3539000, 3%nat, 8295320); (-1039000, 3%nat, 5523930); (365000, 4%nat, 4300000); (-111000, 4%nat, 2401980); (57000, 4%nat, 1437580); (-20000, 4%nat, 910000)]);
  ("As", "3p", [(-32794000, 2%nat, 14192800); (-3832000, 2%nat, 22350000); (-10026000, 3%nat, 13400000); (35941000, 3%nat, 8295320); (71629000, 3%nat, 5523930); (8867000, 4%nat, 4300000); (55000, 4%nat, 2401980); (55000, 4%nat, 1437580); (-21000, 4%nat, 910000)]);
  ("As", "3d", [(47051000, 3%nat, 4198150); (11382000, 3%nat, 2539530); (28550000, 3%nat, 6490000); (22539000, 3%nat, 9002920); (3007000, 3%nat, 15250000)]);
  ("Se", "1s", [(84864000, 1%nat, 32721900); (14204000, 1%nat, 40363900); (1612000, 2%nat, 26880000); (-275000, 2%nat, 15297000); (235000, 3%nat, 13480000); (-141000, 3%nat, 8330000); (67000, 3%nat, 5690670); (-23000, 4%nat, 3296070); (17000, 4%nat, 2170000); (-6000, 4%nat, 1441870)]);
  ("Se", "2s", [(-35910000, 1%nat, 32721900); (2384000, 1%nat, 40363900); (-19520000, 2%nat, 26880000); (103275000, 2%nat, 15297000); (18996000, 3%nat, 13480000); (1055000, 3%nat, 8330000); (-19000, 3%nat, 5690670); (9000, 4%nat, 3296070); (-7000, 4%nat, 2170000); (2000, 4%nat, 1441870)]);
  ("Se", "3s", [(-13582000, 1%nat, 32721900); (534000, 1%nat, 40363900); (-9300000, 2%nat, 26880000); (45996000, 2%nat, 15297000); (26669000, 3%nat, 13480000); (-55338000, 3%nat, 8330000); (-68680000, 3%nat, 5690670); (-528000, 4%nat, 3296070); (-18000, 4%nat, 2170000); (6000, 4%nat, 1441870)]);
  ("Se", "4s", [(-4056000, 1%nat, 32721900); (220000, 1%nat, 40363900); (-2664000, 2%nat, 26880000); (13423000, 2%nat, 15297000); (9385000, 3%nat, 13480000); (-20050000, 3%nat, 8330000); (-24295000, 3%nat, 5690670); (49019000, 4%nat, 3296070); (53637000, 4%nat, 2170000); (11101000, 4%nat, 1441870)]);
  ("Se", "2p", [(80941000, 2%nat, 14595200); (10906000, 2%nat, 23234900); (7877000, 3%nat, 14468700); (5025000, 3%nat, 8600000); (-1994000, 3%nat, 5769310); (766000, 4%nat, 4524610); (-301000, 4%nat, 2576890); (263000, 4%nat, 1547700); (-148000, 4%nat, 1250000)]);
  ("Se", "3p", [(-33058000, 2%nat, 14595200); (-4032000, 2%nat, 23234900); (-9392000, 3%nat, 14468700); (34533000, 3%nat, 8600000); (73408000, 3%nat, 5769310); (7327000, 4%nat, 4524610); (374000, 4%nat, 2576890); (-160000, 4%nat, 1547700); (114000, 4%nat, 1250000)]);
  ("Se", "3d", [(49015000, 3%nat, 4569460); (10731000, 3%nat, 2760000); (29450000, 3%nat, 7056920); (19538000, 3%nat, 9675140); (2896000, 3%nat, 15750000)]);
  ("Br", "1s", [(83792000, 1%nat, 33789300); (15089000, 1%nat, 40872200); (2187000, 2%nat, 26227600); (-818000, 2%nat, 16067900); (534000, 3%nat, 13630000); (-319000, 3%nat, 8685150); (151000, 3%nat, 5950000); (-51000, 4%nat, 3607870); (37000, 4%nat, 2363820); (-13000, 4%nat, 1619500)]);
  ("Br", "2s", [(-39732000, 1%nat, 33789300); (5369000, 1%nat, 40872200); (-22827000, 2%nat, 26227600); (106691000, 2%nat, 16067900); (20470000, 3%nat, 13630000); (141000, 3%nat, 8685150); (272000, 3%nat, 5950000); (-66000, 4%nat, 3607870); (40000, 4%nat, 2363820); (-15000, 4%nat, 1619500)]);
  ("Br", "3s", [(-15216000, 1%nat, 33789300); (1698000, 1%nat, 40872200); (-11301000, 2%nat, 26227600); (48882000, 2%nat, 16067900); (28425000, 3%nat, 13630000); (-56641000, 3%nat, 8685150); (-69235000, 3%nat, 5950000); (-275000, 4%nat, 3607870); (-230000, 4%nat, 2363820); (69000, 4%nat, 1619500)]);
  ("Br", "4s", [(-4431000, 1%nat, 33789300); (344000, 1%nat, 40872200); (-3772000, 2%nat, 26227600); (15584000, 2%nat, 16067900); (9553000, 3%nat, 13630000); (-19458000, 3%nat, 8685150); (-28713000, 3%nat, 5950000); (48088000, 4%nat, 3607870); (55446000, 4%nat, 2363820); (11669000, 4%nat, 1619500)]);
  ("Br", "2p", [(74101000, 2%nat, 15623900); (10964000, 2%nat, 23843700); (15507000, 3%nat, 15095300); (5352000, 3%nat, 8542000); (-3045000, 3%nat, 5833050); (1261000, 4%nat, 5121950); (-275000, 4%nat, 2793860); (168000, 4%nat, 1681850); (-73000, 4%nat, 1200980)]);
  ("Br", "3p", [(-30934000, 2%nat, 15623900); (-4009000, 2%nat, 23843700); (-11944000, 3%nat, 15095300); (42235000, 3%nat, 8542000); (66560000, 3%nat, 5833050); (5318000, 4%nat, 5121950); (1136000, 4%nat, 2793860); (-419000, 4%nat, 1681850); (210000, 4%nat, 1200980)]);
  ("Br", "4p", [(8542000, 2%nat, 15623900); (832000, 2%nat, 23843700); (2622000, 3%nat, 15095300); (-10135000, 3%nat, 8542000); (-24875000, 3%nat, 5833050); (6474000, 4%nat, 5121950); (57431000, 4%nat, 2793860); (44569000, 4%nat, 1681850); (7822000, 4%nat, 1200980)]);
  ("Br", "3d", [(47088000, 3%nat, 4758440); (8876000, 3%nat, 2982340); (32308000, 3%nat, 7276080); (19536000, 3%nat, 10079200); (2998000, 3%nat, 16250000)]);
  ("Kr", "1s", [(1487590, 1%nat, 60777807); (-2344160, 3%nat, 44499723); (-97838770, 1%nat, 36979014); (2590970, 4%nat, 25529164); (-6894680, 2%nat, 15429937); (2911440, 3%nat, 15427470); (955010, 3%nat, 7202997); (-1370210, 2%nat, 6034988); (63630, 2%nat, 4750173); (10850, 2%nat, 2188877); (-13390, 2%nat, 1592153); (8240, 1%nat, 1023901)]);
  ("Kr", "2s", [(4399910, 1%nat, 60777807); (-5080130, 3%nat, 44499723); (-39068980, 1%nat, 36979014); (10629370, 4%nat, 25529164); (78652450, 2%nat, 15429937); (17336410, 3%nat, 15427470); (-6845960, 3%nat, 7202997); (11773370, 2%nat, 6034988); (-1341500, 2%nat, 4750173); (54850, 2%nat, 2188877); (-54280, 2%nat, 1592153); (29030, 1%nat, 1023901)]);
  ("Kr", "3s", [(-1856480, 1%nat, 60777807); (2180880, 3%nat, 44499723); (15868200, 1%nat, 36979014); (-3845500, 4%nat, 25529164); (-40237430, 2%nat, 15429937); (-32308480, 3%nat, 15427470); (45731480, 3%nat, 7202997); (49087030, 2%nat, 6034988); (30984970, 2%nat, 4750173); (-50230, 2%nat, 2188877); (251030, 2%nat, 1592153); (-104430, 1%nat, 1023901)]);
  ("Kr", "4s", [(591750, 1%nat, 60777807); (-702820, 3%nat, 44499723); (-5070870, 1%nat, 36979014); (1064340, 4%nat, 25529164); (13693900, 2%nat, 15429937); (13001080, 3%nat, 15427470); (-5133690, 3%nat, 7202997); (9635640, 2%nat, 6034988); (-90389360, 2%nat, 4750173); (67942360, 2%nat, 2188877); (62136450, 2%nat, 1592153); (3387560, 1%nat, 1023901)]);
  ("Kr", "2p", [(-621320, 2%nat, 55423460); (-1339440, 3%nat, 45348388); (33550680, 2%nat, 26746410); (42194430, 3%nat, 21299661); (32137740, 3%nat, 15365217); (2868950, 2%nat, 8075067); (-349070, 3%nat, 6762676); (121620, 3%nat, 4956675); (37600, 3%nat, 1641161); (-46320, 2%nat, 1395473); (-1700, 2%nat, 1023901)]);
  ("Kr", "3p", [(-395110, 2%nat, 55423460); (-840810, 3%nat, 45348388); (16560880, 2%nat, 26746410); (19921980, 3%nat, 21299661); (31022470, 3%nat, 15365217); (-39705770, 2%nat, 8075067); (-65494480, 3%nat, 6762676); (-22075160, 3%nat, 4956675); (568000, 3%nat, 1641161); (-905770, 2%nat, 1395473); (47440, 2%nat, 1023901)]);
  ("Kr", "3d", [(157840, 3%nat, 33868162); (645150, 4%nat, 26569736); (18417380, 3%nat, 11514091); (37613120, 3%nat, 7536640); (41602750, 3%nat, 5124374); (11399900, 3%nat, 3510570); (396810, 3%nat, 2025551); (900, 3%nat, 1023901)]);
  ("Mo", "1s", [(96207000, 1%nat, 42742500); (4316900, 2%nat, 36209800); (167800, 2%nat, 19924700); (557300, 3%nat, 52453600); (20200, 3%nat, 14652000); (2900, 3%nat, 8150500); (86400, 4%nat, 23322900); (700, 4%nat, 5115700); (700, 4%nat, 3491700); (3800, 5%nat, 13685700); (200, 5%nat, 2357100); (100, 5%nat, 1489700)]);
  ("Mo", "2s", [(30693500, 1%nat, 42742500); (23725300, 2%nat, 36209800); (-99599200, 2%nat, 19924700); (-25000, 3%nat, 52453600); (-12930100, 3%nat, 14652000); (-561000, 3%nat, 8150500); (-12516800, 4%nat, 23322900); (88100, 4%nat, 5115700); (-34700, 4%nat, 3491700); (1102900, 5%nat, 13685700); (12800, 5%nat, 2357100); (-6000, 5%nat, 1489700); (2400, 5%nat, 966100)]);
  ("Mo", "3s", [(12926100, 1%nat, 42742500); (12452800, 2%nat, 36209800); (52967800, 2%nat, 19924700); (62600, 3%nat, 52453600); (13087900, 3%nat, 14652000); (84235900, 3%nat, 8150500); (17678900, 4%nat, 23322900); (1258000, 4%nat, 5115700); (-108200, 4%nat, 3491700); (20042500, 5%nat, 13685700); (-48200, 5%nat, 2357100); (-20600, 5%nat, 1489700); (-5700, 5%nat, 966100)]);
  ("Mo", "4s", [(5055700, 1%nat, 42742500); (4987400, 2%nat, 36209800); (-21220800, 2%nat, 19924700); (19300, 3%nat, 52453600); (2887800, 3%nat, 14652000); (55149500, 3%nat, 8150500); (-7674400, 4%nat, 23322900); (-63472100, 4%nat, 5115700); (-55308800, 4%nat, 3491700); (5144300, 5%nat, 13685700); (-1980200, 5%nat, 2357100); (487800, 5%nat, 1489700); (102700, 5%nat, 966100)]);
  ("Mo", "5s", [(1293300, 1%nat, 42742500); (1276000, 2%nat, 36209800); (-5422000, 2%nat, 19924700); (2000, 3%nat, 52453600); (414300, 3%nat, 14652000); (16009100, 3%nat, 8150500); (-1996500, 4%nat, 23322900); (-21482300, 4%nat, 5115700); (-13231200, 4%nat, 3491700); (749600, 5%nat, 13685700); (28236300, 5%nat, 2357100); (56877900, 5%nat, 1489700); (30561900, 5%nat, 966100)]);
  ("Mo", "2p", [(234700, 2%nat, 51273600); (86280600, 2%nat, 20426600); (615800, 3%nat, 42440200); (19367000, 3%nat, 16836600); (493500, 3%nat, 9879300); (33600, 3%nat, 7367800); (2453600, 4%nat, 34187000); (2800, 4%nat, 3269700)]);
  ("Mo", "3p", [(1390800, 2%nat, 51273600); (-52243500, 2%nat, 20426600); (4525700, 3%nat, 42440200); (-7742100, 3%nat, 16836600); (58578000, 3%nat, 9879300); (54110000, 3%nat, 7367800); (6028700, 4%nat, 34187000); (1086900, 4%nat, 4923400); (-62800, 4%nat, 3269700); (25500, 4%nat, 2118500)]);
  ("Mo", "4p", [(-823200, 2%nat, 51273600); (-22125700, 2%nat, 20426600); (-2584600, 3%nat, 42440200); (1448600, 3%nat, 16836600); (-20852500, 3%nat, 9879300); (-31212000, 3%nat, 7367800); (-3340300, 4%nat, 34187000); (-51905500, 4%nat, 4923400); (-57636000, 4%nat, 3269700); (-9086800, 4%nat, 2118500)]);
  ("Mo", "3d", [(1429800, 3%nat, 22900500); (41059000, 3%nat, 12658000); (32121700, 3%nat, 6052500); (1037600, 3%nat, 3553600); (34023800, 4%nat, 9748600); (-59700, 4%nat, 2702400); (14300, 4%nat, 1735100); (-3600, 4%nat, 1134600)]);
  ("Mo", "4d", [(336600, 3%nat, 22900500); (10825400, 3%nat, 12658000); (17642700, 3%nat, 6052500); (-39595100, 3%nat, 3553600); (7150900, 4%nat, 9748600); (-41092900, 4%nat, 2702400); (-33573000, 4%nat, 1735100); (-11064800, 4%nat, 1134600)])
]%string.
