(** contrib/Daejeon16/Daejeon16_public_v2.f90:37-882, the data statements.  The first index of a Fortran array runs first: a table is the list of its columns.
    Numbers are in units of 10^-15. *)
From Coq Require Import List ZArith.
Import ListNotations.
Open Scope Z_scope.
(** :37 *)
Definition unc1s0 : list (list Z) := [
[-11670440000000000;-6644545000000000;-1636675000000000;846652700000000;231053100000000;-120643100000000;-41436720000000;27598270000000;4491376000000;-7219055000000;956429300000;1457271000000;-821721800000;-1649050000;214642100000;-132719100000;46554650000;-3864936000;-27404360000;50747180000;-48033020000;16796340000;21369840000;-41096870000;34379820000;-13007380000;-5437787000;12449130000;-11960140000;12355220000;-16683310000];
[-6644545000000000;-3759662000000000;-1299886000000000;1498107000000000;1567570000000000;432364200000000;-155142400000000;-76844120000000;39168040000000;11208680000000;-12792420000000;183474500000;3417642000000;-1163857000000;-456727600000;471414700000;-117988200000;7426947000;-35118710000;9502588000;87620610000;-165259700000;145453000000;-24662330000;-128385500000;217011700000;-179866300000;36650610000;120156500000;-189082700000;133835300000];
[-1636675000000000;-1299886000000000;-176214400000000;2555634000000000;3761060000000000;2374202000000000;427474200000000;-271480900000000;-70998630000000;61495090000000;-2355832000000;-19274170000000;7162423000000;4281897000000;-3608586000000;-187956700000;1075931000000;-148089700000;-387263600000;133338700000;264463300000;-346222600000;145555600000;107890500000;-267099200000;296678600000;-193556900000;-23228520000;260708900000;-363013400000;229684300000];
[846652700000000;1498107000000000;2555634000000000;4969651000000000;7049187000000000;6187650000000000;2903936000000000;233882900000000;-377087500000000;-57501530000000;44401430000000;-21087860000000;-4706751000000;15982080000000;-2958426000000;-6131510000000;3080052000000;1535564000000;-1846789000000;-47929220000;1023486000000;-494334600000;-380961000000;588164000000;-155664600000;-254390300000;233510700000;13607490000;-78949320000;-97127590000;205878500000];
[231053100000000;1567570000000000;3761060000000000;7049187000000000;10431550000000000;11244010000000000;7942609000000000;2922633000000000;-137970100000000;-546624400000000;-110286000000000;27917120000000;11529730000000;21327000000000;1420851000000;-15121680000000;1902433000000;6921555000000;-3219210000000;-2178137000000;2800965000000;-177900600000;-1922539000000;1550229000000;453360800000;-1778669000000;1101422000000;619242400000;-1403939000000;584013600000;589361800000];
[-120643100000000;432364200000000;2374202000000000;6187650000000000;11244010000000000;14962700000000000;14090570000000000;8463735000000000;2183115000000000;-853909400000000;-821172500000000;-98122480000000;132554600000000;69495410000000;-7436797000000;-31101610000000;-2275417000000;15001850000000;-1712202000000;-6648614000000;3947015000000;1398132000000;-3872594000000;2348536000000;1579684000000;-4039200000000;2061177000000;2470524000000;-4253352000000;943650000000;3509689000000];
[-41436720000000;-155142400000000;427474200000000;2903936000000000;7942609000000000;14090570000000000;17442170000000000;14653400000000000;7158257000000000;476720800000000;-1744145000000000;-832712800000000;191330700000000;274391300000000;12207550000000;-79813450000000;-16576150000000;27776780000000;5596234000000;-11751320000000;1227063000000;3784364000000;-3547019000000;2177364000000;1599352000000;-5872789000000;4017671000000;4536964000000;-9770963000000;2977026000000;9866581000000];
[27598270000000;-76844120000000;-271480900000000;233882900000000;2922633000000000;8463735000000000;14653400000000000;16822290000000000;12253940000000000;4089661000000000;-1479307000000000;-2005671000000000;-278321200000000;535586900000000;197845500000000;-134876900000000;-77133390000000;39386790000000;27017010000000;-14334910000000;-8617157000000;4869216000000;2548692000000;1073461000000;-3379056000000;-4290631000000;9603632000000;540988100000;-15999940000000;13476430000000;10446480000000];
[4491376000000;39168040000000;-70998630000000;-377087500000000;-137970100000000;2183115000000000;7158257000000000;12253940000000000;12966420000000000;7778088000000000;869974600000000;-2336607000000000;-1309621000000000;383957000000000;528623500000000;-46893190000000;-181910600000000;7523359000000;64114140000000;-3773749000000;-25920530000000;2132110000000;14789970000000;-1620136000000;-13919830000000;5040879000000;15947890000000;-15671280000000;-11644990000000;30875300000000;-10318370000000];
[-7219055000000;11208680000000;61495090000000;-57501530000000;-546624400000000;-853909400000000;476720800000000;4089661000000000;7778088000000000;7851974000000000;3689284000000000;-795071100000000;-1883193000000000;-398430400000000;595325100000000;247051800000000;-191216200000000;-94795530000000;73535750000000;29985090000000;-35973620000000;-5984790000000;23888480000000;-6482345000000;-19099720000000;19426060000000;9793569000000;-32073710000000;12584020000000;31084960000000;-43233070000000];
[956429300000;-12792420000000;-2355832000000;44401430000000;-110286000000000;-821172500000000;-1744145000000000;-1479307000000000;869974600000000;3689284000000000;4027555000000000;1475040000000000;-993935000000000;-1080679000000000;77796890000000;443343700000000;19039730000000;-164878900000000;-457624300000;58239810000000;-11598270000000;-14264920000000;12553270000000;-8159106000000;-4942762000000;21307720000000;-12950800000000;-20703670000000;36530300000000;-4233328000000;-43868910000000];
[1457271000000;183474500000;-19274170000000;-21087860000000;27917120000000;-98122480000000;-832712800000000;-2005671000000000;-2336607000000000;-795071100000000;1475040000000000;2079758000000000;624965900000000;-734727700000000;-550158400000000;190536000000000;256498200000000;-59656220000000;-100840500000000;25584720000000;37247960000000;-9011543000000;-17741680000000;-288859400000;18992220000000;-1319262000000;-26286710000000;17476740000000;22948470000000;-40766320000000;5268502000000];
[-821721800000;3417642000000;7162423000000;-4706751000000;11529730000000;132554600000000;191330700000000;-278321200000000;-1309621000000000;-1883193000000000;-993935000000000;624965900000000;1154115000000000;271856500000000;-495649600000000;-261922400000000;184966400000000;127696100000000;-80932000000000;-47284050000000;44029950000000;10349680000000;-28852540000000;8511111000000;20027040000000;-23459430000000;-6121015000000;33635720000000;-19205540000000;-25382870000000;44823720000000];
[-1649050000;-1163857000000;4281897000000;15982080000000;21327000000000;69495410000000;274391300000000;535586900000000;383957000000000;-398430400000000;-1080679000000000;-734727700000000;271856500000000;642935400000000;111605200000000;-308253900000000;-111068300000000;131662800000000;50605540000000;-54953590000000;-13912050000000;17192520000000;2437978000000;3548582000000;-7647440000000;-10839990000000;21294590000000;1688636000000;-30544400000000;22121660000000;18810540000000];
[214642100000;-456727600000;-3608586000000;-2958426000000;1420851000000;-7436797000000;12207550000000;197845500000000;528623500000000;595325100000000;77796890000000;-550158400000000;-495649600000000;111605200000000;368453200000000;47015340000000;-191161900000000;-44622370000000;93726750000000;18285710000000;-48785620000000;-2162982000000;29666660000000;-6948689000000;-21994900000000;16838140000000;13937530000000;-27693230000000;3568763000000;28818070000000;-27141250000000];
[-132719100000;471414700000;-187956700000;-6131510000000;-15121680000000;-31101610000000;-79813450000000;-134876900000000;-46893190000000;247051800000000;443343700000000;190536000000000;-261922400000000;-308253900000000;47015340000000;208237500000000;14864050000000;-109130000000000;-9757122000000;50007670000000;-2489363000000;-16269180000000;6002817000000;-3541586000000;104630600000;12388180000000;-12556490000000;-8307928000000;23249170000000;-8393351000000;-20063760000000];
[46554650000;-117988200000;1075931000000;3080052000000;1902433000000;-2275417000000;-16576150000000;-77133390000000;-181910600000000;-191216200000000;19039730000000;256498200000000;184966400000000;-111068300000000;-191161900000000;14864050000000;124549800000000;7146300000000;-70650090000000;-3432429000000;39766280000000;-1978817000000;-24787510000000;6068044000000;18402300000000;-11968970000000;-12745050000000;19469700000000;1144231000000;-21445610000000;15045080000000];
[-3864936000;7426947000;-148089700000;1535564000000;6921555000000;15001850000000;27776780000000;39386790000000;7523359000000;-94795530000000;-164878900000000;-59656220000000;127696100000000;131662800000000;-44622370000000;-109130000000000;7146300000000;66462200000000;-2705608000000;-33593260000000;6321849000000;11634600000000;-6912931000000;2461363000000;1989901000000;-9205646000000;6906556000000;7118337000000;-14531260000000;3251970000000;13417690000000];
[-27404360000;-35118710000;-387263600000;-1846789000000;-3219210000000;-1712202000000;5596234000000;27017010000000;64114140000000;73535750000000;-457624300000;-100840500000000;-80932000000000;50605540000000;93726750000000;-9757122000000;-70650090000000;-2705608000000;46033300000000;1591425000000;-29288710000000;1984239000000;19660610000000;-5419940000000;-14208570000000;9601170000000;8866965000000;-13787220000000;-379735800000;13723800000000;-9558821000000];
[50747180000;9502588000;133338700000;-47929220000;-2178137000000;-6648614000000;-11751320000000;-14334910000000;-3773749000000;29985090000000;58239810000000;25584720000000;-47284050000000;-54953590000000;18285710000000;50007670000000;-3432429000000;-33593260000000;1591425000000;18411550000000;-3573215000000;-6867060000000;3956866000000;-1134563000000;-1136028000000;4983299000000;-3869376000000;-3684099000000;7798856000000;-1959423000000;-6749043000000];
[-48033020000;87620610000;264463300000;1023486000000;2800965000000;3947015000000;1227063000000;-8617157000000;-25920530000000;-35973620000000;-11598270000000;37247960000000;44029950000000;-13912050000000;-48785620000000;-2489363000000;39766280000000;6321849000000;-29288710000000;-3573215000000;21213210000000;-646842400000;-15467870000000;4633953000000;10795310000000;-8162706000000;-5490261000000;10175020000000;-1191585000000;-8381316000000;7044695000000];
[16796340000;-165259700000;-346222600000;-494334600000;-177900600000;1398132000000;3784364000000;4869216000000;2132110000000;-5984790000000;-14264920000000;-9011543000000;10349680000000;17192520000000;-2162982000000;-16269180000000;-1978817000000;11634600000000;1984239000000;-6867060000000;-646842400000;2939800000000;-9913628000;-139708900000;-645874900000;-1079535000000;2070580000000;388562300000;-2873759000000;1565136000000;1831864000000];
[21369840000;145453000000;145555600000;-380961000000;-1922539000000;-3872594000000;-3547019000000;2548692000000;14789970000000;23888480000000;12553270000000;-17741680000000;-28852540000000;2437978000000;29666660000000;6002817000000;-24787510000000;-6912931000000;19660610000000;3956866000000;-15467870000000;-9913628000;11859790000000;-3680608000000;-8133166000000;6550539000000;3577548000000;-7576206000000;1580735000000;5468085000000;-5282697000000];
[-41096870000;-24662330000;107890500000;588164000000;1550229000000;2348536000000;2177364000000;1073461000000;-1620136000000;-6482345000000;-8159106000000;-288859400000;8511111000000;3548582000000;-6948689000000;-3541586000000;6068044000000;2461363000000;-5419940000000;-1134563000000;4633953000000;-139708900000;-3680608000000;1244509000000;2530169000000;-2072439000000;-1076079000000;2297520000000;-527211800000;-1532755000000;1570382000000];
[34379820000;-128385500000;-267099200000;-155664600000;453360800000;1579684000000;1599352000000;-3379056000000;-13919830000000;-19099720000000;-4942762000000;18992220000000;20027040000000;-7647440000000;-21994900000000;104630600000;18402300000000;1989901000000;-14208570000000;-1136028000000;10795310000000;-645874900000;-8133166000000;2530169000000;5748920000000;-4236460000000;-2980617000000;5151554000000;-382389100000;-4220684000000;3246779000000];
[-13007380000;217011700000;296678600000;-254390300000;-1778669000000;-4039200000000;-5872789000000;-4290631000000;5040879000000;19426060000000;21307720000000;-1319262000000;-23459430000000;-10839990000000;16838140000000;12388180000000;-11968970000000;-9205646000000;9601170000000;4983299000000;-8162706000000;-1079535000000;6550539000000;-2072439000000;-4236460000000;4110847000000;1112319000000;-4353199000000;2112953000000;2299672000000;-3723003000000];
[-5437787000;-179866300000;-193556900000;233510700000;1101422000000;2061177000000;4017671000000;9603632000000;15947890000000;9793569000000;-12950800000000;-26286710000000;-6121015000000;21294590000000;13937530000000;-12556490000000;-12745050000000;6906556000000;8866965000000;-3869376000000;-5490261000000;2070580000000;3577548000000;-1076079000000;-2980617000000;1112319000000;2793638000000;-2169142000000;-1800125000000;3256086000000;-432339800000];
[12449130000;36650610000;-23228520000;13607490000;619242400000;2470524000000;4536964000000;540988100000;-15671280000000;-32073710000000;-20703670000000;17476740000000;33635720000000;1688636000000;-27693230000000;-8307928000000;19469700000000;7118337000000;-13787220000000;-3684099000000;10175020000000;388562300000;-7576206000000;2297520000000;5151554000000;-4353199000000;-2169142000000;5197776000000;-1420861000000;-3768744000000;4151647000000];
[-11960140000;120156500000;260708900000;-78949320000;-1403939000000;-4253352000000;-9770963000000;-15999940000000;-11644990000000;12584020000000;36530300000000;22948470000000;-19205540000000;-30544400000000;3568763000000;23249170000000;1144231000000;-14531260000000;-379735800000;7798856000000;-1191585000000;-2873759000000;1580735000000;-527211800000;-382389100000;2112953000000;-1800125000000;-1420861000000;3436652000000;-1148716000000;-2772036000000];
[12355220000;-189082700000;-363013400000;-97127590000;584013600000;943650000000;2977026000000;13476430000000;30875300000000;31084960000000;-4233328000000;-40766320000000;-25382870000000;22121660000000;28818070000000;-8393351000000;-21445610000000;3251970000000;13723800000000;-1959423000000;-8381316000000;1565136000000;5468085000000;-1532755000000;-4220684000000;2299672000000;3256086000000;-3768744000000;-1148716000000;4503743000000;-2094364000000];
[-16683310000;133835300000;229684300000;205878500000;589361800000;3509689000000;9866581000000;10446480000000;-10318370000000;-43233070000000;-43868910000000;5268502000000;44823720000000;18810540000000;-27141250000000;-20063760000000;15045080000000;13417690000000;-9558821000000;-6749043000000;7044695000000;1831864000000;-5282697000000;1570382000000;3246779000000;-3723003000000;-432339800000;4151647000000;-2772036000000;-2094364000000;4547034000000]].
(** :70 *)
Definition unc3p0 : list (list Z) := [
[-1429161000000000;502670800000000;1965729000000000;703095200000000;172056500000000;-25023820000000;-19543400000000;-2950120000000;761084200000;1880438000000;-41004390000;-751283200000;221787100000;173080900000;-149306900000;20661150000;40465740000;-41194640000;18505720000;9392813000;-28846550000;26981460000;-4074740000;-22309040000;30970450000;-15468340000;-10577940000;25608290000;-18121120000;-4723344000;0];
[502670800000000;-893662100000000;1768477000000000;1972687000000000;1067376000000000;229934900000000;-72432610000000;-65512640000000;-6839761000000;14918450000000;4257873000000;-4705032000000;-909709400000;1738077000000;-156372900000;-552596400000;276382600000;87481820000;-176796300000;95212040000;3038531000;-60553520000;78639840000;-67121620000;32949480000;13346950000;-56029260000;79736440000;-74425830000;37166200000;0];
[1965729000000000;1768477000000000;3047396000000000;3861862000000000;3147596000000000;1485359000000000;173608600000000;-253888500000000;-130110500000000;35394610000000;42775200000000;-9017864000000;-13318580000000;4921973000000;3502883000000;-2826234000000;-202782700000;1179234000000;-604461600000;-74193810000;349564500000;-314295600000;119380900000;112923900000;-236915700000;151079200000;82218420000;-244628100000;145365000000;171719700000;0];
[703095200000000;1972687000000000;3861862000000000;5538957000000000;5832341000000000;4068298000000000;1428853000000000;-279738200000000;-500344800000000;-62434130000000;138833300000000;29485130000000;-45910750000000;-4825845000000;16840720000000;-2809298000000;-5090340000000;3102535000000;302572900000;-1226974000000;745113900000;-294005600000;10048430000;397679000000;-765965400000;598760500000;247852600000;-1172879000000;1229517000000;-52887820000;0];
[172056500000000;1067376000000000;3147596000000000;5832341000000000;7642132000000000;6996398000000000;3883798000000000;523189400000000;-893991400000000;-465199000000000;177670300000000;169241700000000;-57418820000000;-53261030000000;28770460000000;12359910000000;-14252370000000;568240600000;5025541000000;-2430144000000;-615450700000;933921000000;39326310000;-280810200000;-572588500000;1335523000000;-673824900000;-1357393000000;2941923000000;-2000340000000;0];
[-25023820000000;229934900000000;1485359000000000;4068298000000000;6996398000000000;8202318000000000;6283017000000000;2340860000000000;-635136400000000;-1021886000000000;-77435010000000;328119100000000;42507210000000;-116120000000000;390636000000;42346580000000;-12232180000000;-11977170000000;9823021000000;203852300000;-4338600000000;2549818000000;605986700000;-2163576000000;1282715000000;1182785000000;-2854883000000;1445891000000;2547214000000;-5277801000000;0];
[-19543400000000;-72432610000000;173608600000000;1428853000000000;3883798000000000;6283017000000000;6571210000000000;4044972000000000;595905700000000;-1088216000000000;-594799100000000;245335300000000;232191600000000;-87763650000000;-74524800000000;45951160000000;15472700000000;-22647110000000;3441193000000;6942878000000;-5222732000000;1118578000000;969048800000;-2215661000000;2958232000000;-1316716000000;-2833861000000;5579013000000;-2667791000000;-4661934000000;0];
[-2950120000000;-65512640000000;-253888500000000;-279738200000000;523189400000000;2340860000000000;4044972000000000;3980664000000000;1939614000000000;-262550700000000;-844628900000000;-159421200000000;280117000000000;72450340000000;-105346800000000;-11456440000000;41384400000000;-8030463000000;-12694700000000;8057917000000;1488202000000;-3340975000000;-149566200000;1782152000000;1011038000000;-4122245000000;2175652000000;4342732000000;-8283544000000;3412693000000;0];
[761084200000;-6839761000000;-130110500000000;-500344800000000;-893991400000000;-635136400000000;595905700000000;1939614000000000;2055581000000000;816808900000000;-397191000000000;-489715200000000;34170380000000;191604300000000;-11345800000000;-70707190000000;17079520000000;22012670000000;-14251650000000;-2418658000000;7376005000000;-3811443000000;-1372450000000;4399560000000;-3058967000000;-2165289000000;6248072000000;-3543024000000;-4875551000000;10199440000000;0];
[1880438000000;14918450000000;35394610000000;-62434130000000;-465199000000000;-1021886000000000;-1088216000000000;-262550700000000;816808900000000;1057087000000000;342024800000000;-320135500000000;-252820400000000;85532070000000;107113400000000;-37291340000000;-36246840000000;21516190000000;7347640000000;-9936403000000;1059665000000;2099916000000;43684980000;-222580800000;-2858083000000;3644050000000;1387883000000;-7307013000000;5785403000000;3867044000000;0];
[-41004390000;4257873000000;42775200000000;138833300000000;177670300000000;-77435010000000;-594799100000000;-844628900000000;-397191000000000;342024800000000;554648800000000;138039500000000;-217055200000000;-117283100000000;79738970000000;50302310000000;-36523870000000;-13909580000000;18087180000000;-500814700000;-7680879000000;4424110000000;1944170000000;-4995097000000;1936298000000;4271492000000;-6160887000000;-18460910000;8179707000000;-8136235000000;0];
[-751283200000;-4705032000000;-9017864000000;29485130000000;169241700000000;328119100000000;245335300000000;-159421200000000;-489715200000000;-320135500000000;138039500000000;296686200000000;55460030000000;-134710100000000;-49467530000000;57595300000000;19228190000000;-25947540000000;-2531465000000;10008710000000;-2020273000000;-1608204000000;18739450000;-614710000000;3355085000000;-2287421000000;-3511599000000;6887372000000;-1925107000000;-7062758000000;0];
[221787100000;-909709400000;-13318580000000;-45910750000000;-57418820000000;42507210000000;232191600000000;280117000000000;34170380000000;-252820400000000;-217055200000000;55460030000000;163011400000000;21526100000000;-80781040000000;-18334970000000;37898000000000;4920073000000;-17709890000000;2260215000000;7570104000000;-4373411000000;-2505976000000;4853940000000;-788187400000;-4761663000000;4609932000000;2071456000000;-7538287000000;4410051000000;0];
[173080900000;1738077000000;4921973000000;-4825845000000;-53261030000000;-116120000000000;-87763650000000;72450340000000;191604300000000;85532070000000;-117283100000000;-134710100000000;21526100000000;90367730000000;7593029000000;-46666020000000;-4972380000000;22025140000000;-672006900000;-8646097000000;2203201000000;1549095000000;-186859000000;657521600000;-2770881000000;1257821000000;3541001000000;-5021406000000;-75895950000;6269547000000;0];
[-149306900000;-156372900000;3502883000000;16840720000000;28770460000000;390636000000;-74524800000000;-105346800000000;-11345800000000;107113400000000;79738970000000;-49467530000000;-80781040000000;7593029000000;51161380000000;2221044000000;-27601940000000;-2505563000;14028930000000;-2773060000000;-6599268000000;3915085000000;2549770000000;-4275202000000;238833200000;4150641000000;-3213348000000;-2243244000000;5518459000000;-2215211000000;0];
[20661150000;-552596400000;-2826234000000;-2809298000000;12359910000000;42346580000000;45951160000000;-11456440000000;-70707190000000;-37291340000000;50302310000000;57595300000000;-18334970000000;-46666020000000;2221044000000;28178080000000;204285400000;-14712600000000;1145034000000;6348438000000;-1509443000000;-1541930000000;116086200000;-166213500000;1863278000000;-909772800000;-2451190000000;3300484000000;310079600000;-4170095000000;0];
[40465740000;276382600000;-202782700000;-5090340000000;-14252370000000;-12232180000000;15472700000000;41384400000000;17079520000000;-36246840000000;-36523870000000;19228190000000;37898000000000;-4972380000000;-27601940000000;204285400000;16922330000000;-679921000000;-9652138000000;2140133000000;5110975000000;-3077011000000;-2163940000000;3434278000000;-136417900000;-3136219000000;2305694000000;1557408000000;-3656696000000;1389895000000;0];
[-41194640000;87481820000;1179234000000;3102535000000;568240600000;-11977170000000;-22647110000000;-8030463000000;22012670000000;21516190000000;-13909580000000;-25947540000000;4920073000000;22025140000000;-2505563000;-14712600000000;-679921000000;8427941000000;-33219180000;-4127569000000;355203000000;1496000000000;190989300000;-469415900000;-1071058000000;954338600000;1186360000000;-2082031000000;135771500000;2244521000000;0];
[18505720000;-176796300000;-604461600000;302572900000;5025541000000;9823021000000;3441193000000;-12694700000000;-14251650000000;7347640000000;18087180000000;-2531465000000;-17709890000000;-672006900000;14028930000000;1145034000000;-9652138000000;-33219180000;6122667000000;-1236316000000;-3572591000000;2126527000000;1589710000000;-2483229000000;158820200000;2125368000000;-1647564000000;-836904400000;2277314000000;-1049608000000;0];
[9392813000;95212040000;-74193810000;-1226974000000;-2430144000000;203852300000;6942878000000;8057917000000;-2418658000000;-9936403000000;-500814700000;10008710000000;2260215000000;-8646097000000;-2773060000000;6348438000000;2140133000000;-4127569000000;-1236316000000;2445880000000;671596100000;-1393383000000;-514893200000;960787800000;503045200000;-1060179000000;-189360200000;1248384000000;-583856500000;-859825300000;0];
[-28846550000;3038531000;349564500000;745113900000;-615450700000;-4338600000000;-5222732000000;1488202000000;7376005000000;1059665000000;-7680879000000;-2020273000000;7570104000000;2203201000000;-6599268000000;-1509443000000;5110975000000;355203000000;-3572591000000;671596100000;2200193000000;-1324103000000;-995544400000;1568896000000;-128393300000;-1286501000000;1035808000000;411917300000;-1298288000000;693867600000;0];
[26981460000;-60553520000;-314295600000;-294005600000;933921000000;2549818000000;1118578000000;-3340975000000;-3811443000000;2099916000000;4424110000000;-1608204000000;-4373411000000;1549095000000;3915085000000;-1541930000000;-3077011000000;1496000000000;2126527000000;-1393383000000;-1324103000000;1286400000000;711357100000;-1222388000000;-153169200000;1100236000000;-421850500000;-721358900000;845856800000;23376900000;0];
[-4074740000;78639840000;119380900000;10048430000;39326310000;605986700000;969048800000;-149566200000;-1372450000000;43684980000;1944170000000;18739450000;-2505976000000;-186859000000;2549770000000;116086200000;-2163940000000;190989300000;1589710000000;-514893200000;-995544400000;711357100000;462767300000;-758538100000;9104281000;636692700000;-410109100000;-283260900000;577267300000;-202899900000;0];
[-22309040000;-67121620000;112923900000;397679000000;-280810200000;-2163576000000;-2215661000000;1782152000000;4399560000000;-222580800000;-4995097000000;-614710000000;4853940000000;657521600000;-4275202000000;-166213500000;3434278000000;-469415900000;-2483229000000;960787800000;1568896000000;-1222388000000;-758538100000;1278719000000;15232550000;-1080977000000;638545500000;513646600000;-934586900000;285169600000;0];
[30970450000;32949480000;-236915700000;-765965400000;-572588500000;1282715000000;2958232000000;1011038000000;-3058967000000;-2858083000000;1936298000000;3355085000000;-788187400000;-2770881000000;238833200000;1863278000000;-136417900000;-1071058000000;158820200000;503045200000;-128393300000;-153169200000;9104281000;15232550000;140012300000;-79985140000;-189024100000;251100000000;33118910000;-311325300000;0];
[-15468340000;13346950000;151079200000;598760500000;1335523000000;1182785000000;-1316716000000;-4122245000000;-2165289000000;3644050000000;4271492000000;-2287421000000;-4761663000000;1257821000000;4150641000000;-909772800000;-3136219000000;954338600000;2125368000000;-1060179000000;-1286501000000;1100236000000;636692700000;-1080977000000;-79985140000;958340300000;-456792900000;-575944700000;815296700000;-95218600000;0];
[-10577940000;-56029260000;82218420000;247852600000;-673824900000;-2854883000000;-2833861000000;2175652000000;6248072000000;1387883000000;-6160887000000;-3511599000000;4609932000000;3541001000000;-3213348000000;-2451190000000;2305694000000;1186360000000;-1647564000000;-189360200000;1035808000000;-421850500000;-410109100000;638545500000;-189024100000;-456792900000;603000600000;-55594320000;-580078200000;581447700000;0];
[25608290000;79736440000;-244628100000;-1172879000000;-1357393000000;1445891000000;5579013000000;4342732000000;-3543024000000;-7307013000000;-18460910000;6887372000000;2071456000000;-5021406000000;-2243244000000;3300484000000;1557408000000;-2082031000000;-836904400000;1248384000000;411917300000;-721358900000;-283260900000;513646600000;251100000000;-575944700000;-55594320000;656616100000;-369432900000;-407955800000;0];
[-18121120000;-74425830000;145365000000;1229517000000;2941923000000;2547214000000;-2667791000000;-8283544000000;-4875551000000;5785403000000;8179707000000;-1925107000000;-7538287000000;-75895950000;5518459000000;310079600000;-3656696000000;135771500000;2277314000000;-583856500000;-1298288000000;845856800000;577267300000;-934586900000;33118910000;815296700000;-580078200000;-369432900000;859615300000;-343613300000;0];
[-4723344000;37166200000;171719700000;-52887820000;-2000340000000;-5277801000000;-4661934000000;3412693000000;10199440000000;3867044000000;-8136235000000;-7062758000000;4410051000000;6269547000000;-2215211000000;-4170095000000;1389895000000;2244521000000;-1049608000000;-859825300000;693867600000;23376900000;-202899900000;285169600000;-311325300000;-95218600000;581447700000;-407955800000;-343613300000;768178400000;0];
[0;0;0;0;0;0;0;0;0;0;0;0;0;0;0;0;0;0;0;0;0;0;0;0;0;0;0;0;0;0;0]].
(** :103 *)
Definition unc1p1 : list (list Z) := [
[9157948000000000;5658886000000000;5695408000000000;1063490000000000;216964700000000;-44506620000000;-31017860000000;4304211000000;3640648000000;-1690794000000;-280590300000;546502600000;-75119770000;-132161600000;28610520000;70208730000;-39207160000;-48042240000;86588400000;-42078290000;-38788390000;81864380000;-53974470000;-11937620000;53811550000;-39939080000;-6250386000;34761940000;-18309120000;-24807190000;0];
[5658886000000000;1476061000000000;5338100000000000;3414334000000000;1256653000000000;87889460000000;-135323900000000;-30385500000000;16800400000000;1953713000000;-3236802000000;898372900000;580889400000;-515276800000;-52868730000;222715300000;-42642200000;-122547300000;117026800000;4569906000;-117944600000;124263000000;-14959090000;-115306700000;145463000000;-41683430000;-104729900000;159761700000;-71125370000;-84808970000;0];
[5695408000000000;5338100000000000;8666136000000000;8042777000000000;4772509000000000;1481778000000000;-107212100000000;-250872600000000;-28642050000000;31312120000000;2329690000000;-3371702000000;1324222000000;-214196000000;-639677200000;323620300000;258931100000;-209235300000;-155337500000;287612600000;-133122100000;-92019230000;244763600000;-276873600000;154538000000;97694370000;-327979600000;344248100000;-107719700000;-196966400000;0];
[1063490000000000;3414334000000000;8042777000000000;11110450000000000;9740859000000000;5225072000000000;1145035000000000;-467903600000000;-342840000000000;8961070000000;55695150000000;2745606000000;-6316470000000;-399863200000;-329032300000;9245488000;920145100000;-132770300000;-900192500000;658698400000;279488200000;-733757300000;450791600000;39904190000;-299345900000;320101600000;-230013700000;39745940000;218639100000;-322332000000;0];
[216964700000000;1256653000000000;4772509000000000;9740859000000000;12394810000000000;9967350000000000;4514478000000000;307594900000000;-837368200000000;-318032600000000;101112900000000;78005820000000;-10641760000000;-14737310000000;91330720000;2162768000000;1359837000000;-300413600000;-1570712000000;707841200000;1105377000000;-1343014000000;55811210000;1042777000000;-935491900000;128099600000;440684300000;-580228000000;642607300000;-573902500000;0];
[-44506620000000;87889460000000;1481778000000000;5225072000000000;9967350000000000;11762880000000000;8454677000000000;2871288000000000;-629471100000000;-959157500000000;-124727400000000;202759400000000;57803400000000;-41721050000000;-16022480000000;8925514000000;4509739000000;-1906722000000;-2037196000000;672035200000;1659623000000;-1298771000000;-846227400000;1918624000000;-738414800000;-1055938000000;1257584000000;27707110000;-622860700000;-546381500000;0];
[-31017860000000;-135323900000000;-107212100000000;1145035000000000;4514478000000000;8454677000000000;9340680000000000;5819836000000000;1075088000000000;-1153108000000000;-722466600000000;128387100000000;217279800000000;-11434560000000;-58294320000000;3051060000000;15359680000000;-1827464000000;-4102885000000;780302500000;1734365000000;-826290300000;-1317359000000;1985026000000;21082600000;-2707002000000;2371162000000;1549902000000;-4525329000000;1932519000000;0];
[4304211000000;-30385500000000;-250872600000000;-467903600000000;307594900000000;2871288000000000;5819836000000000;6169867000000000;3218116000000000;-101761400000000;-1093904000000000;-324455800000000;258918000000000;130742700000000;-66802670000000;-37586030000000;20449980000000;8473013000000;-6369161000000;-1179049000000;1701524000000;-279156300000;-455116800000;1302903000000;-809833100000;-2178483000000;4065172000000;-356210800000;-6481281000000;7651827000000;0];
[3640648000000;16800400000000;-28642050000000;-342840000000000;-837368200000000;-629471100000000;1075088000000000;3218116000000000;3485026000000000;1480421000000000;-499596500000000;-738629400000000;-36893200000000;235784300000000;34489510000000;-72481210000000;-8618154000000;22199080000000;515391500000;-6070133000000;-216053700000;1382808000000;1566719000000;-866262800000;-2838825000000;2491796000000;3259025000000;-6362019000000;181950100000;9549691000000;0];
[-1690794000000;1953713000000;31312120000000;8961070000000;-318032600000000;-959157500000000;-1153108000000000;-101761400000000;1480421000000000;1822081000000000;622361400000000;-472267400000000;-411259100000000;80993940000000;156094900000000;-19578330000000;-51905610000000;10099410000000;16056570000000;-5808384000000;-5200017000000;3534373000000;2843613000000;-4160342000000;-1496809000000;6705234000000;-3048925000000;-6954535000000;10529710000000;-438509200000;0];
[-280590300000;-3236802000000;2329690000000;55695150000000;101112900000000;-124727400000000;-722466600000000;-1093904000000000;-499596500000000;622361400000000;955898800000000;256127700000000;-339842900000000;-203234700000000;99756960000000;83909440000000;-35338770000000;-26721600000000;15014150000000;5499378000000;-6000462000000;1440636000000;924765200000;-3508683000000;3412587000000;2606545000000;-7950056000000;3184263000000;8660854000000;-12712110000000;0];
[546502600000;898372900000;-3371702000000;2745606000000;78005820000000;202759400000000;128387100000000;-324455800000000;-738629400000000;-472267400000000;256127700000000;514581600000000;104349300000000;-219559500000000;-91686490000000;81301700000000;38946320000000;-31781130000000;-12015860000000;12366800000000;3477282000000;-4452640000000;-2989441000000;3116980000000;4041050000000;-6275886000000;-1837326000000;10144310000000;-5947606000000;-7963472000000;0];
[-75119770000;580889400000;1324222000000;-6316470000000;-10641760000000;57803400000000;217279800000000;258918000000000;-36893200000000;-411259100000000;-339842900000000;104349300000000;283777800000000;40944620000000;-134829800000000;-36084790000000;57057170000000;12973280000000;-24098380000000;-672752400000;9890843000000;-3947085000000;-3151911000000;5817220000000;-1792517000000;-5842932000000;7400945000000;1473146000000;-10992740000000;8073651000000;0];
[-132161600000;-515276800000;-214196000000;-399863200000;-14737310000000;-41721050000000;-11434560000000;130742700000000;235784300000000;80993940000000;-203234700000000;-219559500000000;40944620000000;158941200000000;15633120000000;-79780380000000;-12438920000000;35271400000000;3362800000000;-13791460000000;-337427500000;4153978000000;1796117000000;-1607855000000;-4283174000000;4080473000000;4060561000000;-8579715000000;1532044000000;9339004000000;0];
[28610520000;-52868730000;-639677200000;-329032300000;91330720000;-16022480000000;-58294320000000;-66802670000000;34489510000000;156094900000000;99756960000000;-91686490000000;-134829800000000;15633120000000;90659150000000;4303690000000;-47648680000000;-1240565000000;22690170000000;-3088500000000;-10126930000000;5101552000000;3842088000000;-6124184000000;566735000000;6181064000000;-5369072000000;-3120591000000;8959177000000;-4038906000000;0];
[70208730000;222715300000;323620300000;9245488000;2162768000000;8925514000000;3051060000000;-37586030000000;-72481210000000;-19578330000000;83909440000000;81301700000000;-36084790000000;-79780380000000;4303690000000;50913020000000;1274964000000;-26379850000000;564485100000;11327740000000;-985848300000;-3528925000000;-873212300000;1059495000000;3242938000000;-2632368000000;-3536587000000;5981595000000;-122763500000;-6930907000000;0];
[-39207160000;-42642200000;258931100000;920145100000;1359837000000;4509739000000;15359680000000;20449980000000;-8618154000000;-51905610000000;-35338770000000;38946320000000;57057170000000;-12438920000000;-47648680000000;1274964000000;30401570000000;-1450916000000;-16866510000000;3602169000000;8438900000000;-4841346000000;-3461014000000;5393780000000;-223491200000;-5074303000000;3824274000000;2594472000000;-6179598000000;2303868000000;0];
[-48042240000;-122547300000;-209235300000;-132770300000;-300413600000;-1906722000000;-1827464000000;8473013000000;22199080000000;10099410000000;-26721600000000;-31781130000000;12973280000000;35271400000000;-1240565000000;-26379850000000;-1450916000000;15994800000000;236992300000;-7953857000000;287069000000;3071137000000;687831300000;-1318194000000;-2007088000000;2127591000000;1954184000000;-3885377000000;412881500000;3986334000000;0];
[86588400000;117026800000;-155337500000;-900192500000;-1570712000000;-2037196000000;-4102885000000;-6369161000000;515391500000;16056570000000;15014150000000;-12015860000000;-24098380000000;3362800000000;22690170000000;564485100000;-16866510000000;236992300000;11032350000000;-2344706000000;-6280976000000;3739218000000;2688720000000;-4203882000000;248214500000;3622079000000;-2751731000000;-1535893000000;3908847000000;-1635220000000;0];
[-42078290000;4569906000;287612600000;658698400000;707841200000;672035200000;780302500000;-1179049000000;-6070133000000;-5808384000000;5499378000000;12366800000000;-672752400000;-13791460000000;-3088500000000;11327740000000;3602169000000;-7953857000000;-2344706000000;4970654000000;1203060000000;-2789514000000;-947167600000;1858060000000;993577800000;-2042411000000;-406549500000;2386385000000;-1030833000000;-1671202000000;0];
[-38788390000;-117944600000;-133122100000;279488200000;1105377000000;1659623000000;1734365000000;1701524000000;-216053700000;-5200017000000;-6000462000000;3477282000000;9890843000000;-337427500000;-10126930000000;-985848300000;8438900000000;287069000000;-6280976000000;1203060000000;4058927000000;-2432712000000;-1832557000000;2844252000000;-206301300000;-2300055000000;1770056000000;807214100000;-2240370000000;1045301000000;0];
[81864380000;124263000000;-92019230000;-733757300000;-1343014000000;-1298771000000;-826290300000;-279156300000;1382808000000;3534373000000;1440636000000;-4452640000000;-3947085000000;4153978000000;5101552000000;-3528925000000;-4841346000000;3071137000000;3739218000000;-2789514000000;-2432712000000;2536738000000;1289569000000;-2291512000000;-329474100000;2036794000000;-654182000000;-1415638000000;1444396000000;230233300000;0];
[-53974470000;-14959090000;244763600000;450791600000;55811210000;-846227400000;-1317359000000;-455116800000;1566719000000;2843613000000;924765200000;-2989441000000;-3151911000000;1796117000000;3842088000000;-873212300000;-3461014000000;687831300000;2688720000000;-947167600000;-1832557000000;1289569000000;934305700000;-1445430000000;-16259710000;1202865000000;-718903600000;-556322900000;1002356000000;-258362600000;0];
[-11937620000;-115306700000;-276873600000;39904190000;1042777000000;1918624000000;1985026000000;1302903000000;-866262800000;-4160342000000;-3508683000000;3116980000000;5817220000000;-1607855000000;-6124184000000;1059495000000;5393780000000;-1318194000000;-4203882000000;1858060000000;2844252000000;-2291512000000;-1445430000000;2398155000000;79942690000;-2001993000000;1063692000000;1017406000000;-1590982000000;313172700000;0];
[53811550000;145463000000;154538000000;-299345900000;-935491900000;-738414800000;21082600000;-809833100000;-2838825000000;-1496809000000;3412587000000;4041050000000;-1792517000000;-4283174000000;566735000000;3242938000000;-223491200000;-2007088000000;248214500000;993577800000;-206301300000;-329474100000;-16259710000;79942690000;272382700000;-203949300000;-317005600000;471361600000;37206560000;-548984800000;0];
[-39939080000;-41683430000;97694370000;320101600000;128099600000;-1055938000000;-2707002000000;-2178483000000;2491796000000;6705234000000;2606545000000;-6275886000000;-5842932000000;4080473000000;6181064000000;-2632368000000;-5074303000000;2127591000000;3622079000000;-2042411000000;-2300055000000;2036794000000;1202865000000;-2001993000000;-203949300000;1780829000000;-762211500000;-1104657000000;1396944000000;-25799290000;0];
[-6250386000;-104729900000;-327979600000;-230013700000;440684300000;1257584000000;2371162000000;4065172000000;3259025000000;-3048925000000;-7950056000000;-1837326000000;7400945000000;4060561000000;-5369072000000;-3536587000000;3824274000000;1954184000000;-2751731000000;-406549500000;1770056000000;-654182000000;-718903600000;1063692000000;-317005600000;-762211500000;1018321000000;-99042770000;-965411100000;945940500000;0];
[34761940000;159761700000;344248100000;39745940000;-580228000000;27707110000;1549902000000;-356210800000;-6362019000000;-6954535000000;3184263000000;10144310000000;1473146000000;-8579715000000;-3120591000000;5981595000000;2594472000000;-3885377000000;-1535893000000;2386385000000;807214100000;-1415638000000;-556322900000;1017406000000;471361600000;-1104657000000;-99042770000;1220048000000;-660398700000;-763645300000;0];
[-18309120000;-71125370000;-107719700000;218639100000;642607300000;-622860700000;-4525329000000;-6481281000000;181950100000;10529710000000;8660854000000;-5947606000000;-10992740000000;1532044000000;8959177000000;-122763500000;-6179598000000;412881500000;3908847000000;-1030833000000;-2240370000000;1444396000000;1002356000000;-1590982000000;37206560000;1396944000000;-965411100000;-660398700000;1450850000000;-521314900000;0];
[-24807190000;-84808970000;-196966400000;-322332000000;-573902500000;-546381500000;1932519000000;7651827000000;9549691000000;-438509200000;-12712110000000;-7963472000000;8073651000000;9339004000000;-4038906000000;-6930907000000;2303868000000;3986334000000;-1635220000000;-1671202000000;1045301000000;230233300000;-258362600000;313172700000;-548984800000;-25799290000;945940500000;-763645300000;-521314900000;1302885000000;0];
[0;0;0;0;0;0;0;0;0;0;0;0;0;0;0;0;0;0;0;0;0;0;0;0;0;0;0;0;0;0;0]].
(** :136 *)
Definition unc3p1 : list (list Z) := [
[7898094000000000;5427381000000000;4829530000000000;605911800000000;-309266000000000;-409100000000000;-136318800000000;72785760000000;67831850000000;-13484020000000;-25505360000000;5534979000000;9047099000000;-3708599000000;-2669271000000;2324291000000;234981100000;-1110236000000;501990900000;193176900000;-403737700000;258241800000;7556362000;-221916400000;247930300000;-51191250000;-215567500000;301068800000;-87661460000;-265455600000;0];
[5427381000000000;2209958000000000;4664117000000000;2041443000000000;-496116200000000;-1372985000000000;-707657400000000;175299800000000;311893600000000;-10240260000000;-118296400000000;7295160000000;45112870000000;-11232010000000;-15191630000000;9342872000000;2756578000000;-5149938000000;1449361000000;1434199000000;-1716786000000;726057500000;355264700000;-1049205000000;1019716000000;-144956900000;-1030273000000;1475860000000;-598541900000;-1032276000000;0];
[4829530000000000;4664117000000000;6251527000000000;3800799000000000;-755335300000000;-3539151000000000;-2560014000000000;51996520000000;1035643000000000;195137900000000;-395088500000000;-72391920000000;167182600000000;-711478000000;-68549700000000;21682990000000;20602430000000;-17904100000000;15502650000;7529148000000;-4865112000000;626914000000;1698022000000;-2881425000000;2998181000000;-922795300000;-2856853000000;5249500000000;-3294154000000;-2339780000000;0];
[605911800000000;2041443000000000;3800799000000000;2685303000000000;-2085047000000000;-6353636000000000;-5498074000000000;-827940500000000;1966085000000000;854400700000000;-710869800000000;-363781500000000;327898500000000;98427130000000;-162151600000000;7146916000000;66602080000000;-30378220000000;-14254430000000;19596310000000;-5021536000000;-3572779000000;3198531000000;-2518066000000;4382146000000;-3799815000000;-2587010000000;10037610000000;-9913156000000;-532742200000;0];
[-309266000000000;-496116200000000;-755335300000000;-2085047000000000;-5576360000000000;-9057892000000000;-8036586000000000;-2315491000000000;2258242000000000;1733276000000000;-659990300000000;-774529000000000;326349300000000;287874800000000;-205638500000000;-66716550000000;113489800000000;-15455700000000;-43193140000000;26562880000000;5923767000000;-12985730000000;1735394000000;4530068000000;1569212000000;-8588680000000;4135788000000;9550774000000;-17582180000000;8445699000000;0];
[-409100000000000;-1372985000000000;-3539151000000000;-6353636000000000;-9057892000000000;-10352610000000000;-8454554000000000;-3330886000000000;1358775000000000;1967351000000000;-90485690000000;-859726300000000;51854660000000;375463100000000;-98312590000000;-143361300000000;93476730000000;29906920000000;-57352000000000;12837430000000;22390490000000;-18334890000000;-3585972000000;14019170000000;-4775235000000;-10393350000000;13298690000000;337081400000;-16930140000000;18402170000000;0];
[-136318800000000;-707657400000000;-2560014000000000;-5498074000000000;-8036586000000000;-8454554000000000;-6436208000000000;-3103572000000000;-117816100000000;1074458000000000;448427400000000;-359620700000000;-211945300000000;180124400000000;64261020000000;-103847200000000;5967710000000;48887450000000;-27205520000000;-10265550000000;21427430000000;-9226722000000;-6567592000000;12540470000000;-6538569000000;-4985594000000;11898440000000;-7668935000000;-4709688000000;14280180000000;0];
[72785760000000;175299800000000;51996520000000;-827940500000000;-2315491000000000;-3330886000000000;-3103572000000000;-2113654000000000;-1097119000000000;-193532100000000;364428800000000;248067400000000;-111953600000000;-104311900000000;61313580000000;25285680000000;-35062870000000;6089549000000;12027990000000;-10007830000000;993145200000;3592612000000;-2548815000000;410980400000;-276395100000;1150175000000;-377462500000;-2485803000000;4489713000000;-2253151000000;0];
[67831850000000;311893600000000;1035643000000000;1966085000000000;2258242000000000;1358775000000000;-117816100000000;-1097119000000000;-1238222000000000;-795745300000000;-99287140000000;330108900000000;176461600000000;-116667000000000;-80215500000000;55623640000000;20928810000000;-27334960000000;2189285000000;8736047000000;-5242470000000;800917500000;802702500000;-2270460000000;3567644000000;-1517950000000;-3801884000000;6664739000000;-2071351000000;-6754474000000;0];
[-13484020000000;-10240260000000;195137900000000;854400700000000;1733276000000000;1967351000000000;1074458000000000;-193532100000000;-795745300000000;-679659700000000;-338271000000000;18567940000000;213680700000000;82501380000000;-98618260000000;-43388180000000;51083690000000;9116495000000;-25472870000000;5066881000000;10046900000000;-7396513000000;-2471185000000;6820108000000;-1730246000000;-6033076000000;6483076000000;1977142000000;-9724231000000;6745845000000;0];
[-25505360000000;-118296400000000;-395088500000000;-710869800000000;-659990300000000;-90485690000000;448427400000000;364428800000000;-99287140000000;-338271000000000;-288333100000000;-158645800000000;24516750000000;135850900000000;32407610000000;-76110150000000;-14445740000000;39508710000000;-3225522000000;-15360640000000;7446945000000;764137000000;-2228946000000;3740475000000;-5020423000000;574503300000;7216283000000;-8433710000000;-654871500000;10763210000000;0];
[5534979000000;7295160000000;-72391920000000;-363781500000000;-774529000000000;-859726300000000;-359620700000000;248067400000000;330108900000000;18567940000000;-158645800000000;-131481800000000;-73286460000000;20029450000000;81839540000000;8347788000000;-54146430000000;-32204770000;30675780000000;-8335285000000;-14367760000000;10320650000000;4972142000000;-9685316000000;659550200000;8591058000000;-6093740000000;-4704305000000;10138080000000;-3402811000000;0];
[9047099000000;45112870000000;167182600000000;327898500000000;326349300000000;51854660000000;-211945300000000;-111953600000000;176461600000000;213680700000000;24516750000000;-73286460000000;-57077340000000;-36509150000000;13997750000000;46938140000000;-4185988000000;-31573110000000;8701086000000;13691170000000;-9675780000000;-171019600000;3936112000000;-5118657000000;3978644000000;1819699000000;-7529233000000;5470716000000;3276457000000;-8844558000000;0];
[-3708599000000;-11232010000000;-711478000000;98427130000000;287874800000000;375463100000000;180124400000000;-104311900000000;-116667000000000;82501380000000;135850900000000;20029450000000;-36509150000000;-23182010000000;-20624370000000;6265483000000;29658370000000;-4588231000000;-22534770000000;8151161000000;12741260000000;-9649026000000;-5098370000000;9024449000000;-100281900000;-7431703000000;4240275000000;4086500000000;-6629907000000;1118060000000;0];
[-2669271000000;-15191630000000;-68549700000000;-162151600000000;-205638500000000;-98312590000000;64261020000000;61313580000000;-80215500000000;-98618260000000;32407610000000;81839540000000;13997750000000;-20624370000000;-11311130000000;-9702866000000;5605510000000;14305930000000;-6587895000000;-8156529000000;7157704000000;240578800000;-3585122000000;3755019000000;-1913156000000;-2061032000000;4686586000000;-2353336000000;-2578245000000;4364712000000;0];
[2324291000000;9342872000000;21682990000000;7146916000000;-66716550000000;-143361300000000;-103847200000000;25285680000000;55623640000000;-43388180000000;-76110150000000;8347788000000;46938140000000;6265483000000;-9702866000000;-2566721000000;-8336484000000;1631342000000;12217560000000;-4512742000000;-9271673000000;6934952000000;4279194000000;-7103661000000;201876800000;5243754000000;-3056043000000;-2095809000000;3480853000000;-763994600000;0];
[234981100000;2756578000000;20602430000000;66602080000000;113489800000000;93476730000000;5967710000000;-35062870000000;20928810000000;51083690000000;-14445740000000;-54146430000000;-4185988000000;29658370000000;5605510000000;-8336484000000;-2073254000000;-1478689000000;1781518000000;2978505000000;-2691281000000;-665214900000;1903406000000;-1350816000000;267553900000;1093227000000;-1557810000000;340840900000;1057493000000;-859869900000;0];
[-1110236000000;-5149938000000;-17904100000000;-30378220000000;-15455700000000;29906920000000;48887450000000;6089549000000;-27334960000000;9116495000000;39508710000000;-32204770000;-31573110000000;-4588231000000;14305930000000;1631342000000;-1478689000000;140254100000;-4696492000000;1454628000000;5481405000000;-3849852000000;-3018510000000;4601638000000;-161040100000;-3167458000000;1923267000000;793018600000;-1471962000000;469544900000;0];
[501990900000;1449361000000;15502650000;-14254430000000;-43193140000000;-57352000000000;-27205520000000;12027990000000;2189285000000;-25472870000000;-3225522000000;30675780000000;8701086000000;-22534770000000;-6587895000000;12217560000000;1781518000000;-4696492000000;630212000000;570642700000;-481660500000;678422100000;-293347000000;-377482000000;581039300000;-242163600000;-402889400000;776129800000;-213121500000;-925768100000;0];
[193176900000;1434199000000;7529148000000;19596310000000;26562880000000;12837430000000;-10265550000000;-10007830000000;8736047000000;5066881000000;-15360640000000;-8335285000000;13691170000000;8151161000000;-8156529000000;-4512742000000;2978505000000;1454628000000;570642700000;-780622700000;-2046375000000;1591050000000;1544841000000;-2119758000000;-180955200000;1554976000000;-615614100000;-561293900000;398899900000;255319100000;0];
[-403737700000;-1716786000000;-4865112000000;-5021536000000;5923767000000;22390490000000;21427430000000;993145200000;-5242470000000;10046900000000;7446945000000;-14367760000000;-9675780000000;12741260000000;7157704000000;-9271673000000;-2691281000000;5481405000000;-481660500000;-2046375000000;1259388000000;-187641200000;-390951500000;752658300000;-704662700000;2568990000;923046800000;-1095440000000;75719480000;1241196000000;0];
[258241800000;726057500000;626914000000;-3572779000000;-12985730000000;-18334890000000;-9226722000000;3592612000000;800917500000;-7396513000000;764137000000;10320650000000;-171019600000;-9649026000000;240578800000;6934952000000;-665214900000;-3849852000000;678422100000;1591050000000;-187641200000;-552408200000;-331119000000;399129600000;531017300000;-599042700000;-414018700000;873847600000;-36767350000;-937588900000;0];
[7556362000;355264700000;1698022000000;3198531000000;1735394000000;-3585972000000;-6567592000000;-2548815000000;802702500000;-2471185000000;-2228946000000;4972142000000;3936112000000;-5098370000000;-3585122000000;4279194000000;1903406000000;-3018510000000;-293347000000;1544841000000;-390951500000;-331119000000;149832300000;-132838300000;380517400000;-196042000000;-448135500000;733976300000;-170889900000;-674919200000;0];
[-221916400000;-1049205000000;-2881425000000;-2518066000000;4530068000000;14019170000000;12540470000000;410980400000;-2270460000000;6820108000000;3740475000000;-9685316000000;-5118657000000;9024449000000;3755019000000;-7103661000000;-1350816000000;4601638000000;-377482000000;-2119758000000;752658300000;399129600000;-132838300000;141486000000;-618874500000;320333100000;718902700000;-1060525000000;81019270000;1108034000000;0];
[247930300000;1019716000000;2998181000000;4382146000000;1569212000000;-4775235000000;-6538569000000;-276395100000;3567644000000;-1730246000000;-5020423000000;659550200000;3978644000000;-100281900000;-1913156000000;201876800000;267553900000;-161040100000;581039300000;-180955200000;-704662700000;531017300000;380517400000;-618874500000;34966350000;410485500000;-254538300000;-87715070000;180283300000;-81095270000;0];
[-51191250000;-144956900000;-922795300000;-3799815000000;-8588680000000;-10393350000000;-4985594000000;1150175000000;-1517950000000;-6033076000000;574503300000;8591058000000;1819699000000;-7431703000000;-2061032000000;5243754000000;1093227000000;-3167458000000;-242163600000;1554976000000;2568990000;-599042700000;-196042000000;320333100000;410485500000;-521193300000;-301447000000;815942200000;-232460300000;-708716600000;0];
[-215567500000;-1030273000000;-2856853000000;-2587010000000;4135788000000;13298690000000;11898440000000;-377462500000;-3801884000000;6483076000000;7216283000000;-6093740000000;-7529233000000;4240275000000;4686586000000;-3056043000000;-1557810000000;1923267000000;-402889400000;-615614100000;923046800000;-414018700000;-448135500000;718902700000;-254538300000;-301447000000;497241000000;-335076500000;-52546530000;462417000000;0];
[301068800000;1475860000000;5249500000000;10037610000000;9550774000000;337081400000;-7668935000000;-2485803000000;6664739000000;1977142000000;-8433710000000;-4704305000000;5470716000000;4086500000000;-2353336000000;-2095809000000;340840900000;793018600000;776129800000;-561293900000;-1095440000000;873847600000;733976300000;-1060525000000;-87715070000;815942200000;-335076500000;-355367800000;335556400000;95834140000;0];
[-87661460000;-598541900000;-3294154000000;-9913156000000;-17582180000000;-16930140000000;-4709688000000;4489713000000;-2071351000000;-9724231000000;-654871500000;10138080000000;3276457000000;-6629907000000;-2578245000000;3480853000000;1057493000000;-1471962000000;-213121500000;398899900000;75719480000;-36767350000;-170889900000;81019270000;180283300000;-232460300000;-52546530000;335556400000;-197072100000;-263399600000;0];
[-265455600000;-1032276000000;-2339780000000;-532742200000;8445699000000;18402170000000;14280180000000;-2253151000000;-6754474000000;6745845000000;10763210000000;-3402811000000;-8844558000000;1118060000000;4364712000000;-763994600000;-859869900000;469544900000;-925768100000;255319100000;1241196000000;-937588900000;-674919200000;1108034000000;-81095270000;-708716600000;462417000000;95834140000;-263399600000;172192200000;0];
[0;0;0;0;0;0;0;0;0;0;0;0;0;0;0;0;0;0;0;0;0;0;0;0;0;0;0;0;0;0;0]].
(** :169 *)
Definition unc1d2 : list (list Z) := [
[-1399366000000000;-1181347000000000;-573272200000000;-87647980000000;112276700000000;93632360000000;5652015000000;-28806520000000;-5548013000000;9705204000000;986068400000;-3522016000000;512658300000;1093279000000;-568556300000;-185980200000;310453300000;-77238630000;-104266800000;111419800000;-20922760000;-57476330000;65053350000;-12193410000;-44243490000;50528230000;-1508877000;-55141530000;61712860000;-3908932000;0];
[-1181347000000000;-1880755000000000;-1507632000000000;-542110900000000;265773100000000;447267400000000;151734300000000;-100127200000000;-71519170000000;29461160000000;23757740000000;-13330370000000;-5771466000000;6351810000000;47804890000;-2391340000000;1018979000000;450691400000;-688486200000;251735900000;166340000000;-324662800000;231286100000;28734740000;-288078800000;338079300000;-93138250000;-285401000000;478238300000;-273678500000;0];
[-573272200000000;-1507632000000000;-1914352000000000;-1040062000000000;432903200000000;1167843000000000;692388100000000;-102592400000000;-277006200000000;-3861859000000;98288700000000;-5657537000000;-34776710000000;9991066000000;10072970000000;-7254118000000;-995692300000;3258836000000;-1229390000000;-571349900000;815064500000;-435967400000;196664000000;4292116000;-417606800000;801848500000;-616312400000;-283075700000;1273107000000;-1394418000000;0];
[-87647980000000;-542110900000000;-1040062000000000;-621895300000000;939638900000000;2200551000000000;1763092000000000;249319200000000;-559438000000000;-224364500000000;181252000000000;80385300000000;-75636110000000;-16116820000000;33110280000000;-4260271000000;-11617760000000;6613025000000;1800634000000;-3676690000000;1036923000000;1109304000000;-852729300000;-468264800000;816870300000;345400600000;-1669424000000;1364043000000;841590600000;-3086405000000;0];
[112276700000000;265773100000000;432903200000000;939638900000000;2169224000000000;3423749000000000;3131428000000000;1140565000000000;-599065000000000;-642691400000000;102190100000000;247340900000000;-50547530000000;-87350900000000;39376700000000;22944730000000;-24466570000000;849652800000;10308390000000;-6147277000000;-1319118000000;4428630000000;-2668112000000;-1117154000000;3512064000000;-2345770000000;-1605956000000;4666086000000;-3278327000000;-2198234000000;0];
[93632360000000;447267400000000;1167843000000000;2200551000000000;3423749000000000;4432226000000000;4250615000000000;2317263000000000;-80517720000000;-949170200000000;-251257000000000;327348100000000;103450500000000;-135107100000000;-15686410000000;57433480000000;-13369390000000;-17739290000000;13995730000000;-594394200000;-5238106000000;4507473000000;-2366922000000;-230590500000;3622730000000;-5339221000000;2139376000000;4764464000000;-8914948000000;4684843000000;0];
[5652015000000;151734300000000;692388100000000;1763092000000000;3131428000000000;4250615000000000;4424802000000000;3136015000000000;869442400000000;-732330100000000;-659407800000000;123279400000000;272691100000000;-51576310000000;-100432200000000;41426050000000;27785380000000;-26502770000000;-495584700000;10881400000000;-4255773000000;-2709785000000;1728716000000;2591615000000;-2366239000000;-3321701000000;7320951000000;-2902888000000;-7369718000000;12717380000000;0];
[-28806520000000;-100127200000000;-102592400000000;249319200000000;1140565000000000;2317263000000000;3136015000000000;2954256000000000;1642293000000000;10390230000000;-694556400000000;-265891300000000;229519400000000;125311400000000;-97585340000000;-35398360000000;47714430000000;-1537760000000;-19425910000000;10637050000000;3171684000000;-8475792000000;4702922000000;3123111000000;-7774439000000;3998336000000;5623208000000;-10975050000000;4370731000000;9452187000000;0];
[-5548013000000;-71519170000000;-277006200000000;-559438000000000;-599065000000000;-80517720000000;869442400000000;1642293000000000;1613443000000000;737665400000000;-233751500000000;-454306800000000;-42841460000000;188812400000000;25154790000000;-79401000000000;3632810000000;30180450000000;-11313740000000;-6363398000000;6078171000000;-1238280000000;1122930000000;-1705736000000;-2357322000000;7225044000000;-4510116000000;-5915668000000;12812070000000;-6073676000000;0];
[9705204000000;29461160000000;-3861859000000;-224364500000000;-642691400000000;-949170200000000;-732330100000000;10390230000000;737665400000000;850884600000000;319199400000000;-234005500000000;-253486000000000;43324240000000;119376200000000;-19432630000000;-49133910000000;18279280000000;15859490000000;-14098020000000;-1534117000000;8869739000000;-3981554000000;-5122203000000;7497652000000;364459000000;-9577408000000;7990557000000;4655399000000;-14490080000000;0];
[986068400000;23757740000000;98288700000000;181252000000000;102190100000000;-251257000000000;-659407800000000;-694556400000000;-233751500000000;319199400000000;454774300000000;136079900000000;-172371100000000;-126825900000000;59051890000000;62355180000000;-29461390000000;-22005970000000;17096000000000;2488214000000;-6355787000000;3120025000000;-2220333000000;155488800000;5194705000000;-6881527000000;-453011600000;9933859000000;-9233943000000;-3178574000000;0];
[-3522016000000;-13330370000000;-5657537000000;80385300000000;247340900000000;327348100000000;123279400000000;-265891300000000;-454306800000000;-234005500000000;136079900000000;250051600000000;58939480000000;-113340600000000;-59593560000000;49278410000000;29660770000000;-25810930000000;-9693233000000;14649940000000;696312100000;-8561354000000;2635774000000;5915311000000;-5454564000000;-3359011000000;8799023000000;-2764755000000;-8258106000000;10561290000000;0];
[512658300000;-5771466000000;-34776710000000;-75636110000000;-50547530000000;103450500000000;272691100000000;229519400000000;-42841460000000;-253486000000000;-172371100000000;58939480000000;140529800000000;24388580000000;-70567060000000;-24425720000000;34374580000000;9565831000000;-17003270000000;629050100000;5943281000000;-3783817000000;1824602000000;1181717000000;-5332431000000;4434155000000;3075601000000;-8584719000000;4055803000000;6310176000000;0];
[1093279000000;6351810000000;9991066000000;-16116820000000;-87350900000000;-135107100000000;-51576310000000;125311400000000;188812400000000;43324240000000;-126825900000000;-113340600000000;24388580000000;80025800000000;10827510000000;-42755460000000;-10455890000000;22667200000000;4028797000000;-12575340000000;12004700000;7517994000000;-1828731000000;-5439765000000;3721384000000;3836582000000;-6367662000000;28366750000;7131830000000;-5787606000000;0];
[-568556300000;47804890000;10072970000000;33110280000000;39376700000000;-15686410000000;-100432200000000;-97585340000000;25154790000000;119376200000000;59051890000000;-59593560000000;-70567060000000;10827510000000;45779490000000;2936247000000;-24918470000000;-1500323000000;12549970000000;-2063729000000;-4533303000000;3343169000000;-1109528000000;-1533510000000;4011270000000;-2337206000000;-3147909000000;5683341000000;-1216915000000;-5292702000000;0];
[-185980200000;-2391340000000;-7254118000000;-4260271000000;22944730000000;57433480000000;41426050000000;-35398360000000;-79401000000000;-19432630000000;62355180000000;49278410000000;-24425720000000;-42755460000000;2936247000000;26756390000000;2206850000000;-15551510000000;-1342510000000;9321343000000;-231839500000;-6045020000000;1406375000000;4417984000000;-2738625000000;-3040497000000;4367419000000;467788300000;-4867678000000;3145583000000;0];
[310453300000;1018979000000;-995692300000;-11617760000000;-24466570000000;-13369390000000;27785380000000;47714430000000;3632810000000;-49133910000000;-29461390000000;29660770000000;34374580000000;-10455890000000;-24918470000000;2206850000000;14594860000000;-998165200000;-7559378000000;1861091000000;2823939000000;-2220720000000;575437900000;1122645000000;-2454245000000;1177499000000;2146765000000;-3294553000000;300463300000;3343884000000;0];
[-77238630000;450691400000;3258836000000;6613025000000;849652800000;-17739290000000;-26502770000000;-1537760000000;30180450000000;18279280000000;-22005970000000;-25810930000000;9565831000000;22667200000000;-1500323000000;-15551510000000;-998165200000;9876728000000;820236500000;-6505552000000;98548410000;4606773000000;-1112930000000;-3368237000000;2181383000000;2059826000000;-3102555000000;-130883400000;3073201000000;-2073547000000;0];
[-104266800000;-688486200000;-1229390000000;1800634000000;10308390000000;13995730000000;-495584700000;-19425910000000;-11313740000000;15859490000000;17096000000000;-9693233000000;-17003270000000;4028797000000;12549970000000;-1342510000000;-7559378000000;820236500000;3885409000000;-996532800000;-1444455000000;1033389000000;-243553900000;-485024900000;1189747000000;-635952900000;-1060229000000;1694199000000;-170645700000;-1709391000000;0];
[111419800000;251735900000;-571349900000;-3676690000000;-6147277000000;-594394200000;10881400000000;10637050000000;-6363398000000;-14098020000000;2488214000000;14649940000000;629050100000;-12575340000000;-2063729000000;9321343000000;1861091000000;-6505552000000;-996532800000;4624103000000;52392020000;-3448867000000;889445200000;2493154000000;-1777099000000;-1312157000000;2308216000000;-235955100000;-1941860000000;1637707000000;0];
[-20922760000;166340000000;815064500000;1036923000000;-1319118000000;-5238106000000;-4255773000000;3171684000000;6078171000000;-1534117000000;-6355787000000;696312100000;5943281000000;12004700000;-4533303000000;-231839500000;2823939000000;98548410000;-1444455000000;52392020000;534027600000;-73166630000;11769440000;-69940040000;-274792100000;366228000000;194454500000;-625131500000;225693300000;519291300000;0];
[-57476330000;-324662800000;-435967400000;1109304000000;4428630000000;4507473000000;-2709785000000;-8475792000000;-1238280000000;8869739000000;3120025000000;-8561354000000;-3783817000000;7517994000000;3343169000000;-6045020000000;-2220720000000;4606773000000;1033389000000;-3448867000000;-73166630000;2591713000000;-716031600000;-1837303000000;1400393000000;876744400000;-1741624000000;342933200000;1315241000000;-1311786000000;0];
[65053350000;231286100000;196664000000;-852729300000;-2668112000000;-2366922000000;1728716000000;4702922000000;1122930000000;-3981554000000;-2220333000000;2635774000000;1824602000000;-1828731000000;-1109528000000;1406375000000;575437900000;-1112930000000;-243553900000;889445200000;11769440000;-716031600000;203885600000;522221000000;-399252900000;-238010500000;474356600000;-102987000000;-331045900000;344816400000;0];
[-12193410000;28734740000;4292116000;-468264800000;-1117154000000;-230590500000;2591615000000;3123111000000;-1705736000000;-5122203000000;155488800000;5915311000000;1181717000000;-5439765000000;-1533510000000;4417984000000;1122645000000;-3368237000000;-485024900000;2493154000000;-69940040000;-1837303000000;522221000000;1310897000000;-937736100000;-701316600000;1205011000000;-113430600000;-999037800000;843517400000;0];
[-44243490000;-288078800000;-417606800000;816870300000;3512064000000;3622730000000;-2366239000000;-7774439000000;-2357322000000;7497652000000;5194705000000;-5454564000000;-5332431000000;3721384000000;4011270000000;-2738625000000;-2454245000000;2181383000000;1189747000000;-1777099000000;-274792100000;1400393000000;-399252900000;-937736100000;871681100000;283765600000;-991087500000;472726000000;553534900000;-907953700000;0];
[50528230000;338079300000;801848500000;345400600000;-2345770000000;-5339221000000;-3321701000000;3998336000000;7225044000000;364459000000;-6881527000000;-3359011000000;4434155000000;3836582000000;-2337206000000;-3040497000000;1177499000000;2059826000000;-635952900000;-1312157000000;366228000000;876744400000;-238010500000;-701316600000;283765600000;612180000000;-512000800000;-362759400000;726404300000;-137560500000;0];
[-1508877000;-93138250000;-616312400000;-1669424000000;-1605956000000;2139376000000;7320951000000;5623208000000;-4510116000000;-9577408000000;-453011600000;8799023000000;3075601000000;-6367662000000;-3147909000000;4367419000000;2146765000000;-3102555000000;-1060229000000;2308216000000;194454500000;-1741624000000;474356600000;1205011000000;-991087500000;-512000800000;1217273000000;-354381600000;-874686000000;1019187000000;0];
[-55141530000;-285401000000;-283075700000;1364043000000;4666086000000;4764464000000;-2902888000000;-10975050000000;-5915668000000;7990557000000;9933859000000;-2764755000000;-8584719000000;28366750000;5683341000000;467788300000;-3294553000000;-130883400000;1694199000000;-235955100000;-625131500000;342933200000;-102987000000;-113430600000;472726000000;-362759400000;-354381600000;765760300000;-221091900000;-662639200000;0];
[61712860000;478238300000;1273107000000;841590600000;-3278327000000;-8914948000000;-7369718000000;4370731000000;12812070000000;4655399000000;-9233943000000;-8258106000000;4055803000000;7131830000000;-1216915000000;-4867678000000;300463300000;3073201000000;-170645700000;-1941860000000;225693300000;1315241000000;-331045900000;-999037800000;553534900000;726404300000;-874686000000;-221091900000;1006026000000;-504654000000;0];
[-3908932000;-273678500000;-1394418000000;-3086405000000;-2198234000000;4684843000000;12717380000000;9452187000000;-6073676000000;-14490080000000;-3178574000000;10561290000000;6310176000000;-5787606000000;-5292702000000;3145583000000;3343884000000;-2073547000000;-1709391000000;1637707000000;519291300000;-1311786000000;344816400000;843517400000;-907953700000;-137560500000;1019187000000;-662639200000;-504654000000;1091926000000;0];
[0;0;0;0;0;0;0;0;0;0;0;0;0;0;0;0;0;0;0;0;0;0;0;0;0;0;0;0;0;0;0]].
(** :202 *)
Definition unc3d2 : list (list Z) := [
[-2604520000000;-1618100000000000;2906627000000000;-239313500000000;277639000000000;98222530000000;-42107750000000;-22145720000000;9743540000000;4335757000000;-2915082000000;-586330300000;854068200000;10634960000;-259334000000;-365748300;190017800000;-110013000000;-86823130000;190322900000;-128215700000;-18782900000;122431300000;-120030400000;46627280000;19594510000;-33497620000;12037130000;-1901393000;26747500000;0];
[-1618100000000000;-12006350000000000;-4463488000000000;-1242633000000000;313980300000000;342665100000000;-13342180000000;-81339510000000;3019980000000;20619660000000;-3260296000000;-5148063000000;2004487000000;1093554000000;-960205700000;-124491300000;483451700000;-164836600000;-212471200000;285052200000;-80139160000;-162745700000;228699500000;-87833680000;-108719100000;179151900000;-72862980000;-95467210000;159832500000;-55492630000;0];
[2906627000000000;-4463488000000000;-5402868000000000;-3124102000000000;-302514800000000;695200000000000;255319400000000;-150247200000000;-79759630000000;44624010000000;19679860000000;-16569650000000;-2813289000000;6118667000000;-910908300000;-1824158000000;1046996000000;281331400000;-639966300000;252731900000;250150700000;-479395200000;316616400000;121462400000;-519883400000;549754100000;-138656200000;-423139600000;685011300000;-405444400000;0];
[-239313500000000;-1242633000000000;-3124102000000000;-3411123000000000;-1403148000000000;488077600000000;652324000000000;-8698802000000;-210532700000000;-1838365000000;69076850000000;-8374221000000;-21905410000000;8289943000000;5371661000000;-4817812000000;-248750400000;2024079000000;-858680600000;-427781300000;706874300000;-409783700000;72935550000;221988600000;-513447400000;622315300000;-293803900000;-414711300000;1010746000000;-922435100000;0];
[277639000000000;313980300000000;-302514800000000;-1403148000000000;-1440840000000000;-171648400000000;656714000000000;306984100000000;-192050500000000;-128015000000000;72914970000000;38839270000000;-33849600000000;-6351375000000;14858850000000;-2668344000000;-4955793000000;3242012000000;638013600000;-1759948000000;575113400000;578842900000;-558709100000;-124630600000;447280300000;-38611470000;-558690000000;550854400000;233689500000;-1093670000000;0];
[98222530000000;342665100000000;695200000000000;488077600000000;-171648400000000;-312284600000000;219832700000000;404493200000000;27477050000000;-176613200000000;-16683690000000;71955960000000;-5220671000000;-27273170000000;10423380000000;7352374000000;-7432978000000;271401000000;3265644000000;-2009882000000;-500897900000;1619476000000;-961457200000;-467789700000;1358672000000;-959480100000;-401654300000;1521498000000;-1300495000000;-232397200000;0];
[-42107750000000;-13342180000000;255319400000000;652324000000000;656714000000000;219832700000000;-3067319000000;169637600000000;173469300000000;-52626980000000;-95392760000000;25810130000000;37469260000000;-18849750000000;-9884106000000;11328320000000;-638792300000;-4446356000000;2612683000000;331527300000;-1291973000000;866044100000;-296291200000;-158769900000;658922800000;-930016700000;454824300000;698177600000;-1595624000000;1212044000000;0];
[-22145720000000;-81339510000000;-150247200000000;-8698802000000;306984100000000;404493200000000;169637600000000;16891120000000;92713160000000;71299850000000;-52864980000000;-44425000000000;28906250000000;15058270000000;-16331930000000;-960774500000;7297771000000;-2849161000000;-1849639000000;2274052000000;-284497400000;-1082167000000;742910300000;398284100000;-914818000000;257388100000;839949400000;-1135728000000;148459500000;1265603000000;0];
[9743540000000;3019980000000;-79759630000000;-210532700000000;-192050500000000;27477050000000;173469300000000;92713160000000;15115030000000;50047290000000;24824270000000;-39542820000000;-16388260000000;22549390000000;3010635000000;-10907260000000;2748141000000;3389136000000;-2906345000000;290784300000;1073688000000;-1045656000000;483898800000;211533700000;-837595400000;924424400000;-132148000000;-1051591000000;1479925000000;-487198100000;0];
[4335757000000;20619660000000;44624010000000;-1838365000000;-128015000000000;-176613200000000;-52626980000000;71299850000000;50047290000000;7388909000000;23958650000000;6793781000000;-24337780000000;-3687261000000;14307450000000;-1684734000000;-6124321000000;3081725000000;1383279000000;-2024906000000;324151100000;870048000000;-554277300000;-406507100000;695269100000;44853940000;-904979500000;766551300000;383133400000;-1349175000000;0];
[-2915082000000;-3260296000000;19679860000000;69076850000000;72914970000000;-16683690000000;-95392760000000;-52864980000000;24824270000000;23958650000000;2833547000000;12199260000000;972791300000;-14061900000000;966989300000;8125905000000;-2951004000000;-2743246000000;2537563000000;-184172000000;-937385500000;846449700000;-391577500000;-202191200000;759430700000;-744119800000;-75099790000;1012745000000;-1035726000000;-36074860000;0];
[-586330300000;-5148063000000;-16569650000000;-8374221000000;38839270000000;71955960000000;25810130000000;-44425000000000;-39542820000000;6793781000000;12199260000000;1235452000000;6311273000000;-658845100000;-7810854000000;1999825000000;4382223000000;-2540461000000;-1292045000000;1789808000000;-126964500000;-889181300000;439910900000;454771300000;-586831700000;-142078500000;763872000000;-459164100000;-459789500000;939628700000;0];
[854068200000;2004487000000;-2813289000000;-21905410000000;-33849600000000;-5220671000000;37469260000000;28906250000000;-16388260000000;-24337780000000;972791300000;6311273000000;534676100000;3357969000000;-942985600000;-4145361000000;1922330000000;1956651000000;-1836324000000;-53243270000;810800200000;-564516500000;197808700000;182832100000;-544584200000;478562000000;136212000000;-703781800000;560444100000;177823500000;0];
[10634960000;1093554000000;6118667000000;8289943000000;-6351375000000;-27273170000000;-18849750000000;15058270000000;22549390000000;-3687261000000;-14061900000000;-658845100000;3357969000000;177788200000;1929358000000;-726198300000;-2375471000000;1444298000000;1113071000000;-1365734000000;-73404580000;856589600000;-343927600000;-439681200000;490648600000;109398600000;-529242400000;272879000000;292139400000;-486385000000;0];
[-259334000000;-960205700000;-910908300000;5371661000000;14858850000000;10423380000000;-9884106000000;-16331930000000;3010635000000;14307450000000;966989300000;-7810854000000;-942985600000;1929358000000;78500420000;951628700000;-518473500000;-1079705000000;889774900000;245694000000;-562410000000;245454400000;-16212090000;-119586100000;275301600000;-231409900000;-92450820000;349564200000;-221669600000;-131149400000;0];
[-365748300;-124491300000;-1824158000000;-4817812000000;-2668344000000;7352374000000;11328320000000;-960774500000;-10907260000000;-1684734000000;8125905000000;1999825000000;-4145361000000;-726198300000;951628700000;1693382000;717550200000;-423761000000;-769814200000;787170300000;204485700000;-681752200000;222654000000;363274700000;-368062900000;-57980170000;316673900000;-153815000000;-137588500000;193078900000;0];
[190017800000;483451700000;1046996000000;-248750400000;-4955793000000;-7432978000000;-638792300000;7297771000000;2748141000000;-6124321000000;-2951004000000;4382223000000;1922330000000;-2375471000000;-518473500000;717550200000;-104733200000;245130900000;-108034600000;-279904300000;237391900000;26166140000;-84807510000;34634670000;-57083710000;59024070000;39926080000;-105384500000;26087320000;85313670000;0];
[-110013000000;-164836600000;281331400000;2024079000000;3242012000000;271401000000;-4446356000000;-2849161000000;3389136000000;3081725000000;-2743246000000;-2540461000000;1956651000000;1444298000000;-1079705000000;-423761000000;245130900000;66062040000;275529100000;-287392200000;-196124000000;403734300000;-85262890000;-258092900000;217871400000;51968840000;-174666400000;54673790000;87395320000;-65147800000;0];
[-86823130000;-212471200000;-639966300000;-858680600000;638013600000;3265644000000;2612683000000;-1849639000000;-2906345000000;1383279000000;2537563000000;-1292045000000;-1836324000000;1113071000000;889774900000;-769814200000;-108034600000;275529100000;-172650700000;120259600000;24931730000;-144699300000;82092060000;32259400000;-50749040000;20915900000;-15310140000;846402200;49686350000;-69943440000;0];
[190322900000;285052200000;252731900000;-427781300000;-1759948000000;-2009882000000;331527300000;2274052000000;290784300000;-2024906000000;-184172000000;1789808000000;-53243270000;-1365734000000;245694000000;787170300000;-279904300000;-287392200000;120259600000;81826450000;47325710000;-139054700000;-8159349000;149839800000;-79389270000;-79505280000;104664200000;15097330000;-102936400000;45872950000;0];
[-128215700000;-80139160000;250150700000;706874300000;575113400000;-500897900000;-1291973000000;-284497400000;1073688000000;324151100000;-937385500000;-126964500000;810800200000;-73404580000;-562410000000;204485700000;237391900000;-196124000000;24931730000;47325710000;-88864500000;89105280000;-14851050000;-54106590000;51673480000;-17275230000;632260900;10407770000;-34390050000;44595550000;0];
[-18782900000;-162745700000;-479395200000;-409783700000;578842900000;1619476000000;866044100000;-1082167000000;-1045656000000;870048000000;846449700000;-889181300000;-564516500000;856589600000;245454400000;-681752200000;26166140000;403734300000;-144699300000;-139054700000;89105280000;23436690000;10790560000;-65351860000;4297247000;90871050000;-75658120000;-39983800000;114240600000;-59699740000;0];
[122431300000;228699500000;316616400000;72935550000;-558709100000;-961457200000;-296291200000;742910300000;483898800000;-554277300000;-391577500000;439910900000;197808700000;-343927600000;-16212090000;222654000000;-84807510000;-85262890000;82092060000;-8159349000;-14851050000;10790560000;-23890540000;29544950000;-3414393000;-24698130000;18849140000;9954243000;-23053220000;5045898000;0];
[-120030400000;-87833680000;121462400000;221988600000;-124630600000;-467789700000;-158769900000;398284100000;211533700000;-406507100000;-202191200000;454771300000;182832100000;-439681200000;-119586100000;363274700000;34634670000;-258092900000;32259400000;149839800000;-54106590000;-65351860000;29544950000;40962160000;-11996120000;-60125710000;55308240000;27072010000;-83000450000;47484890000;0];
[46627280000;-108719100000;-519883400000;-513447400000;447280300000;1358672000000;658922800000;-914818000000;-837595400000;695269100000;759430700000;-586831700000;-544584200000;490648600000;275301600000;-368062900000;-57083710000;217871400000;-50749040000;-79389270000;51673480000;4297247000;-3414393000;-11996120000;-10043850000;45618870000;-37710590000;-18516170000;64083660000;-46105280000;0];
[19594510000;179151900000;549754100000;622315300000;-38611470000;-959480100000;-930016700000;257388100000;924424400000;44853940000;-744119800000;-142078500000;478562000000;109398600000;-231409900000;-57980170000;59024070000;51968840000;20915900000;-79505280000;-17275230000;90871050000;-24698130000;-60125710000;45618870000;18526570000;-33491070000;-3140227000;25145390000;-4930213000;0];
[-33497620000;-72862980000;-138656200000;-293803900000;-558690000000;-401654300000;454824300000;839949400000;-132148000000;-904979500000;-75099790000;763872000000;136212000000;-529242400000;-92450820000;316673900000;39926080000;-174666400000;-15310140000;104664200000;632260900;-75658120000;18849140000;55308240000;-37710590000;-33491070000;54243330000;1051259000;-58688380000;47550920000;0];
[12037130000;-95467210000;-423139600000;-414711300000;550854400000;1521498000000;698177600000;-1135728000000;-1051591000000;766551300000;1012745000000;-459164100000;-703781800000;272879000000;349564200000;-153815000000;-105384500000;54673790000;846402200;15097330000;10407770000;-39983800000;9954243000;27072010000;-18516170000;-3140227000;1051259000;3998097000;13799800000;-32098650000;0];
[-1901393000;159832500000;685011300000;1010746000000;233689500000;-1300495000000;-1595624000000;148459500000;1479925000000;383133400000;-1035726000000;-459789500000;560444100000;292139400000;-221669600000;-137588500000;26087320000;87395320000;49686350000;-102936400000;-34390050000;114240600000;-23053220000;-83000450000;64083660000;25145390000;-58688380000;13799800000;31300270000;-20469890000;0];
[26747500000;-55492630000;-405444400000;-922435100000;-1093670000000;-232397200000;1212044000000;1265603000000;-487198100000;-1349175000000;-36074860000;939628700000;177823500000;-486385000000;-131149400000;193078900000;85313670000;-65147800000;-69943440000;45872950000;44595550000;-59699740000;5045898000;47484890000;-46105280000;-4930213000;47550920000;-32098650000;-20469890000;44245110000;0];
[0;0;0;0;0;0;0;0;0;0;0;0;0;0;0;0;0;0;0;0;0;0;0;0;0;0;0;0;0;0;0]].
(** :235 *)
Definition unc1f3 : list (list Z) := [
[1090741000000000;688583200000000;239236300000000;13165510000000;-27613360000000;-6443862000000;4414709000000;1287820000000;-1058263000000;-177167200000;297720400000;-11011670000;-81066330000;15689150000;32715720000;-17412090000;-18188210000;30750730000;-13334330000;-13519170000;26408150000;-18037840000;-644319400;13148520000;-12069140000;3188741000;2478294000;307638400;-7028760000;0;0];
[688583200000000;1183254000000000;776788800000000;221393500000000;-40888060000000;-45606020000000;2992774000000;9810141000000;-1277169000000;-2391499000000;765741200000;549747400000;-384032400000;-75188920000;168410300000;-34642570000;-64078030000;55683660000;3574051000;-45421820000;39491190000;2009901000;-40785720000;43043170000;-7082628000;-35296860000;46659360000;-16804650000;-28527750000;0;0];
[239236300000000;776788800000000;1060734000000000;624960200000000;96906620000000;-87288860000000;-31530940000000;18674200000000;6721201000000;-6137739000000;-844717900000;2191470000000;-336913000000;-653729200000;343570600000;114070900000;-172969200000;16636320000;85606950000;-70123340000;-2202442000;67566480000;-89737630000;53702340000;25981370000;-99713310000;110688100000;-42474540000;-59616210000;0;0];
[13165510000000;221393500000000;624960200000000;763280300000000;377223200000000;-9685523000000;-79735140000000;-1508766000000;19943850000000;-3158241000000;-5696316000000;2742213000000;1264334000000;-1474997000000;23349370000;587759400000;-239371400000;-161932600000;190958900000;-22470350000;-84730730000;75625410000;-28955880000;-114326800;22568250000;-55979650000;76883950000;-45426890000;-37701890000;0;0];
[-27613360000000;-40888060000000;96906620000000;377223200000000;457608100000000;189828100000000;-40821240000000;-45671080000000;11091220000000;8876442000000;-6589595000000;-687424700000;3118845000000;-974508800000;-996745400000;862565600000;71615780000;-429561800000;160775700000;147812600000;-161261500000;-16752200000;133493900000;-80177840000;-51555630000;111921000000;-51472370000;-51013200000;87677050000;0;0];
[-6443862000000;-45606020000000;-87288860000000;-9685523000000;189828100000000;259678700000000;96495220000000;-36087710000000;-24838220000000;8684273000000;2372089000000;-3573442000000;1576465000000;932030400000;-1368789000000;199462100000;591595500000;-403666800000;-90080470000;283466400000;-132995700000;-104370600000;198150000000;-92193830000;-96396530000;191313600000;-111906400000;-61568370000;174059900000;0;0];
[4414709000000;2992774000000;-31530940000000;-79735140000000;-40821240000000;96495220000000;150493500000000;47800130000000;-30303800000000;-14837790000000;6611763000000;1179787000000;-1532108000000;1101005000000;-142362000000;-662143200000;475089300000;90546560000;-276869000000;115673100000;43060100000;-75307890000;51211170000;-17580980000;-30674610000;67838590000;-43761160000;-32428280000;81323550000;0;0];
[1287820000000;9810141000000;18674200000000;-1508766000000;-45671080000000;-36087710000000;47800130000000;83433920000000;19755260000000;-23120310000000;-7299236000000;5436648000000;436892600000;-820565700000;587154300000;-356647400000;-204093400000;399714700000;-88494590000;-197384400000;151375000000;48688980000;-125949900000;37844550000;64128530000;-68666520000;14423930000;13465830000;-13761090000;0;0];
[-1058263000000;-1277169000000;6721201000000;19943850000000;11091220000000;-24838220000000;-30303800000000;19755260000000;44715390000000;7224841000000;-15467890000000;-2841507000000;3980013000000;-12474570000;-500849400000;225938500000;-259813200000;82979520000;166830400000;-182092500000;24395600000;102754900000;-98879300000;-329291700;78955460000;-52119590000;-35719440000;59224620000;20439660000;0;0];
[-177167200000;-2391499000000;-6137739000000;-3158241000000;8876442000000;8684273000000;-14837790000000;-23120310000000;7224841000000;24401340000000;2152438000000;-9734278000000;-574743000000;2686515000000;-310193800000;-328852800000;142847000000;-146549200000;71459440000;83552090000;-95359210000;2881375000;40019630000;-24706620000;18739250000;-9451362000;-48398450000;99366480000;-30527790000;0;0];
[297720400000;765741200000;-844717900000;-5696316000000;-6589595000000;2372089000000;6611763000000;-7299236000000;-15467890000000;2152438000000;13514430000000;328757900000;-5827941000000;322561000000;1637924000000;-360563800000;-179978400000;42184980000;-54532770000;109470900000;-18108570000;-86273670000;58022120000;40351580000;-54789150000;-34713620000;82635460000;14380830000;-148368100000;0;0];
[-11011670000;549747400000;2191470000000;2742213000000;-687424700000;-3573442000000;1179787000000;5436648000000;-2841507000000;-9734278000000;328757900000;7682296000000;-250550200000;-3424583000000;590737600000;941685900000;-366138300000;-82421080000;63970820000;-25248310000;35023670000;-28031810000;1373677000;43094040000;-71150310000;13424940000;107737100000;-140950500000;-9673487000;0;0];
[-81066330000;-384032400000;-336913000000;1264334000000;3118845000000;1576465000000;-1532108000000;436892600000;3980013000000;-574743000000;-5827941000000;-250550200000;4422082000000;-346202400000;-1968226000000;531734100000;493510900000;-253480800000;-18319950000;12456740000;-16527740000;51156020000;-4615791000;-59840320000;16611830000;87980780000;-84242590000;-65826610000;183898600000;0;0];
[15689150000;-75188920000;-653729200000;-1474997000000;-974508800000;932030400000;1101005000000;-820565700000;-12474570000;2686515000000;322561000000;-3424583000000;-346202400000;2591775000000;-336871500000;-1133049000000;444153100000;247966100000;-197480500000;-3023501000;26583380000;25906540000;-21374460000;-49096610000;87799680000;-10303480000;-119575600000;135184500000;20386870000;0;0];
[32715720000;168410300000;343570600000;23349370000;-996745400000;-1368789000000;-142362000000;587154300000;-500849400000;-310193800000;1637924000000;590737600000;-1968226000000;-336871500000;1521726000000;-243446400000;-638186700000;305494900000;97850960000;-114387300000;42017450000;-15484960000;-33016170000;66548800000;-1805125000;-96341130000;80308400000;59025070000;-157957000000;0;0];
[-17412090000;-34642570000;114070900000;587759400000;862565600000;199462100000;-662143200000;-356647400000;225938500000;-328852800000;-360563800000;941685900000;531734100000;-1133049000000;-243446400000;911493700000;-192979200000;-372363900000;220364400000;60218020000;-87049650000;-15952100000;43370710000;29798640000;-83153530000;23996900000;89388430000;-114885500000;6112952000;0;0];
[-18188210000;-64078030000;-172969200000;-239371400000;71615780000;591595500000;475089300000;-204093400000;-259813200000;142847000000;-179978400000;-366138300000;493510900000;444153100000;-638186700000;-192979200000;537190100000;-128384500000;-188249600000;136758600000;-20772860000;-16535750000;44390440000;-61290190000;7628204000;74651680000;-75504100000;-20812000000;104495000000;0;0];
[30750730000;55683660000;16636320000;-161932600000;-429561800000;-403666800000;90546560000;399714700000;82979520000;-146549200000;42184980000;-82421080000;-253480800000;247966100000;305494900000;-372363900000;-128384500000;348277000000;-98003830000;-143378600000;116262100000;25478430000;-73349040000;3305446000;66691430000;-42768490000;-42616920000;83930380000;-32590440000;0;0];
[-13334330000;3574051000;85606950000;190958900000;160775700000;-90080470000;-276869000000;-88494590000;166830400000;71459440000;-54532770000;63970820000;-18319950000;-197480500000;97850960000;220364400000;-188249600000;-98003830000;180457500000;-46377890000;-41895120000;27383660000;-17721820000;34877040000;-17406280000;-36438090000;57783510000;-13977460000;-45741970000;0;0];
[-13519170000;-45421820000;-70123340000;-22470350000;147812600000;283466400000;115673100000;-197384400000;-182092500000;83552090000;109470900000;-25248310000;12456740000;-3023501000;-114387300000;60218020000;136758600000;-143378600000;-46377890000;155724300000;-76328030000;-54108140000;87931400000;-21057020000;-49656940000;49622550000;5691743000;-47520280000;35369440000;0;0];
[26408150000;39491190000;-2202442000;-84730730000;-161261500000;-132995700000;43060100000;151375000000;24395600000;-95359210000;-18108570000;35023670000;-16527740000;26583380000;42017450000;-87049650000;-20772860000;116262100000;-41895120000;-76328030000;73464620000;7733624000;-38211890000;684123400;27592160000;-6568079000;-27229680000;28278410000;1192653000;0;0];
[-18037840000;2009901000;67566480000;75625410000;-16752200000;-104370600000;-75307890000;48688980000;102754900000;2881375000;-86273670000;-28031810000;51156020000;25906540000;-15484960000;-15952100000;-16535750000;25478430000;27383660000;-54108140000;7733624000;50754390000;-52938290000;5874359000;34012310000;-31746280000;2233509000;19049760000;-16204440000;0;0];
[-644319400;-40785720000;-89737630000;-28955880000;133493900000;198150000000;51211170000;-125949900000;-98879300000;40019630000;58022120000;1373677000;-4615791000;-21374460000;-33016170000;43370710000;44390440000;-73349040000;-17721820000;87931400000;-38211890000;-52938290000;69754820000;-10548070000;-41420770000;34712710000;5863304000;-29444020000;18156560000;0;0];
[13148520000;43043170000;53702340000;-114326800;-80177840000;-92193830000;-17580980000;37844550000;-329291700;-24706620000;40351580000;43094040000;-59840320000;-49096610000;66548800000;29798640000;-61290190000;3305446000;34877040000;-21057020000;684123400;5874359000;-10548070000;13992850000;-6394821000;-7314190000;10798620000;-69437140;-10940440000;0;0];
[-12069140000;-7082628000;25981370000;22568250000;-51555630000;-96396530000;-30674610000;64128530000;78955460000;18739250000;-54789150000;-71150310000;16611830000;87799680000;-1805125000;-83153530000;7628204000;66691430000;-17406280000;-49656940000;27592160000;34012310000;-41420770000;-6394821000;40874830000;-25018400000;-12395120000;26791480000;-9898590000;0;0];
[3188741000;-35296860000;-99713310000;-55979650000;111921000000;191313600000;67838590000;-68666520000;-52119590000;-9451362000;-34713620000;13424940000;87980780000;-10303480000;-96341130000;23996900000;74651680000;-42768490000;-36438090000;49622550000;-6568079000;-31746280000;34712710000;-7314190000;-25018400000;33518850000;-11183290000;-18710700000;27071030000;0;0];
[2478294000;46659360000;110688100000;76883950000;-51472370000;-111906400000;-43761160000;14423930000;-35719440000;-48398450000;82635460000;107737100000;-84242590000;-119575600000;80308400000;89388430000;-75504100000;-42616920000;57783510000;5691743000;-27229680000;2233509000;5863304000;10798620000;-12395120000;-11183290000;27229900000;-12210420000;-16776120000;0;0];
[307638400;-16804650000;-42474540000;-45426890000;-51013200000;-61568370000;-32428280000;13465830000;59224620000;99366480000;14380830000;-140950500000;-65826610000;135184500000;59025070000;-114885500000;-20812000000;83930380000;-13977460000;-47520280000;28278410000;19049760000;-29444020000;-69437140;26791480000;-18710700000;-12210420000;29093780000;-14153580000;0;0];
[-7028760000;-28527750000;-59616210000;-37701890000;87677050000;174059900000;81323550000;-13761090000;20439660000;-30527790000;-148368100000;-9673487000;183898600000;20386870000;-157957000000;6112952000;104495000000;-32590440000;-45741970000;35369440000;1192653000;-16204440000;18156560000;-10940440000;-9898590000;27071030000;-16776120000;-14153580000;32258140000;0;0];
[0;0;0;0;0;0;0;0;0;0;0;0;0;0;0;0;0;0;0;0;0;0;0;0;0;0;0;0;0;0;0];
[0;0;0;0;0;0;0;0;0;0;0;0;0;0;0;0;0;0;0;0;0;0;0;0;0;0;0;0;0;0;0]].
(** :268 *)
Definition unc3f3 : list (list Z) := [
[602465600000000;326327700000000;51338740000000;-42735250000000;-25671110000000;1203351000000;5514608000000;505975400000;-1274413000000;-150561700000;358823300000;6353856000;-112804000000;18677740000;40714170000;-22008940000;-14198490000;25510670000;-11704090000;-8212915000;18064990000;-13958940000;2733343000;6054836000;-7903097000;5246115000;-3158180000;3758101000;-4575497000;0;0];
[326327700000000;504276400000000;229330300000000;-43889600000000;-96714500000000;-27832590000000;16734530000000;10220100000000;-3501802000000;-2950587000000;1172977000000;783490700000;-522270000000;-146146100000;238567700000;-33393540000;-88753570000;67952230000;1221974000;-43479840000;39200000000;-4883317000;-28005910000;33446710000;-8902254000;-22599370000;31780950000;-9114270000;-25535240000;0;0];
[51338740000000;229330300000000;266554400000000;18286620000000;-158923300000000;-109072700000000;6028804000000;34313850000000;2966128000000;-10382160000000;-551954500000;3434813000000;-432611300000;-1081820000000;482125900000;224164600000;-279380600000;46210520000;97650460000;-95788920000;29617050000;39549120000;-81007270000;70586050000;-3687966000;-80966130000;115889200000;-59606030000;-57020720000;0;0];
[-42735250000000;-43889600000000;18286620000000;-11886030000000;-165301100000000;-190134900000000;-53314110000000;47033060000000;27906760000000;-13114730000000;-9218764000000;5311958000000;2311681000000;-2423342000000;-136020700000;953405800000;-328412700000;-224983800000;244491900000;-52737380000;-52917490000;55052290000;-47739530000;58356490000;-36245120000;-50831560000;147068900000;-145548000000;-193865900;0;0];
[-25671110000000;-96714500000000;-158923300000000;-165301100000000;-181577700000000;-207403200000000;-122337800000000;14118920000000;51308070000000;3630736000000;-18112720000000;-205911400000;6539456000000;-1378627000000;-2049780000000;1242861000000;312323200000;-644244200000;176712500000;194871100000;-180767100000;-12800060000;116854700000;-46154540000;-91172610000;126664300000;3089635000;-182613200000;211827200000;0;0];
[1203351000000;-27832590000000;-109072700000000;-190134900000000;-207403200000000;-185715700000000;-141271700000000;-43359210000000;37447650000000;29212910000000;-10504850000000;-10918080000000;5052363000000;3044289000000;-2740754000000;-213791800000;1173505000000;-476510800000;-245314100000;377006100000;-151581200000;-94639870000;205838700000;-148167100000;-39157050000;223038000000;-226853600000;-7202115000;305011800000;0;0];
[5514608000000;16734530000000;6028804000000;-53314110000000;-122337800000000;-141271700000000;-117614300000000;-72397730000000;-5765926000000;31083900000000;11293750000000;-11516950000000;-4016037000000;4934425000000;355941300000;-1955167000000;610752900000;468870300000;-455535700000;63406780000;110979500000;-54539500000;6481239000;-68612580000;117486700000;-4881878000;-211251500000;281002700000;-38865240000;0;0];
[505975400000;10220100000000;34313850000000;47033060000000;14118920000000;-43359210000000;-72397730000000;-64486550000000;-34646670000000;5954389000000;20609540000000;2238013000000;-8765524000000;-346545500000;3501255000000;-771158300000;-1078365000000;744480900000;72342890000;-367398400000;206815500000;65818300000;-211837500000;129592800000;111712500000;-271734300000;135676200000;218815600000;-425793200000;0;0];
[-1274413000000;-3501802000000;2966128000000;27906760000000;51308070000000;37447650000000;-5765926000000;-34646670000000;-34172010000000;-15426210000000;7874713000000;11837530000000;-1562505000000;-5463155000000;1205342000000;1976056000000;-1021195000000;-383950400000;518476200000;-99508860000;-91691470000;38094870000;-28116970000;124946700000;-126775500000;-86502060000;310991000000;-225772300000;-178465200000;0;0];
[-150561700000;-2950587000000;-10382160000000;-13114730000000;3630736000000;29212910000000;31083900000000;5954389000000;-15426210000000;-17551920000000;-6726454000000;6135113000000;6182105000000;-2349381000000;-2957772000000;1465787000000;923675700000;-902036700000;-25404300000;407825800000;-222550700000;-97474530000;241066000000;-95422160000;-188872000000;279224300000;-15255190000;-343326500000;362848900000;0;0];
[358823300000;1172977000000;-551954500000;-9218764000000;-18112720000000;-10504850000000;11293750000000;20609540000000;7874713000000;-6726454000000;-9309444000000;-3014556000000;4127043000000;3044806000000;-2027042000000;-1402505000000;1178995000000;297716000000;-548700800000;87100710000;108506800000;-26786000000;32452620000;-141107200000;95291050000;151777000000;-299856100000;95405870000;287275800000;0;0];
[6353856000;783490700000;3434813000000;5311958000000;-205911400000;-10918080000000;-11516950000000;2238013000000;11837530000000;6135113000000;-3014556000000;-5041440000000;-1374983000000;2592301000000;1437100000000;-1483678000000;-588376100000;883860600000;75330750;-434162600000;214871800000;139552300000;-247915900000;50128060000;215108100000;-223302700000;-65720370000;318434100000;-211527000000;0;0];
[-112804000000;-522270000000;-432611300000;2311681000000;6539456000000;5052363000000;-4016037000000;-8765524000000;-1562505000000;6182105000000;4127043000000;-1374983000000;-2770606000000;-632382100000;1545403000000;635629500000;-926986800000;-189638700000;475071400000;-54433440000;-127887000000;22469160000;-13048360000;109534600000;-60712450000;-140534200000;214852300000;-13773690000;-243417800000;0;0];
[18677740000;-146146100000;-1081820000000;-2423342000000;-1378627000000;3044289000000;4934425000000;-346545500000;-5463155000000;-2349381000000;3044806000000;2592301000000;-632382100000;-1559771000000;-304147300000;954380300000;271022400000;-645517300000;2204096000;380121100000;-175520700000;-151290400000;219868800000;-20166800000;-188391400000;156224100000;77742050000;-226012000000;103447200000;0;0];
[40714170000;238567700000;482125900000;-136020700000;-2049780000000;-2740754000000;355941300000;3501255000000;1205342000000;-2957772000000;-2027042000000;1437100000000;1545403000000;-304147300000;-832760600000;-141841200000;501694000000;120659900000;-308073300000;-6264061000;126033600000;-3434370000;-23341730000;-63300060000;47083140000;85540390000;-129328200000;-4423785000;150590400000;0;0];
[-22008940000;-33393540000;224164600000;953405800000;1242861000000;-213791800000;-1955167000000;-771158300000;1976056000000;1465787000000;-1402505000000;-1483678000000;635629500000;954380300000;-141841200000;-516706600000;-55229390000;360687600000;2424680000;-262007300000;112025200000;129607300000;-164346600000;3140401000;140142600000;-101168000000;-59845430000;141426900000;-49336780000;0;0];
[-14198490000;-88753570000;-279380600000;-328412700000;312323200000;1173505000000;610752900000;-1078365000000;-1021195000000;923675700000;1178995000000;-588376100000;-926986800000;271022400000;501694000000;-55229390000;-224209300000;-61469440000;142135500000;55034340000;-97021820000;-26046220000;52985680000;29796170000;-46885570000;-32202060000;71446130000;-3507892000;-76629050000;0;0];
[25510670000;67952230000;46210520000;-224983800000;-644244200000;-476510800000;468870300000;744480900000;-383950400000;-902036700000;297716000000;883860600000;-189638700000;-645517300000;120659900000;360687600000;-61469440000;-188930400000;24860440000;136490200000;-58679980000;-85111020000;98914160000;8063133000;-92495600000;58199650000;43033450000;-85578870000;23718280000;0;0];
[-11704090000;1221974000;97650460000;244491900000;176712500000;-245314100000;-455535700000;72342890000;518476200000;-25404300000;-548700800000;75330750;475071400000;2204096000;-308073300000;2424680000;142135500000;24860440000;-58524720000;-57025260000;56646990000;43287640000;-58399180000;-16707650000;48467710000;425903700;-41864580000;15999980000;33043030000;0;0];
[-8212915000;-43479840000;-95788920000;-52737380000;194871100000;377006100000;63406780000;-367398400000;-99508860000;407825800000;87100710000;-434162600000;-54433440000;380121100000;-6264061000;-262007300000;55034340000;136490200000;-57025260000;-60642930000;40038230000;37631570000;-47767940000;-11206930000;53765300000;-26859280000;-32595730000;51585260000;-10109590000;0;0];
[18064990000;39200000000;29617050000;-52917490000;-180767100000;-151581200000;110979500000;206815500000;-91691470000;-222550700000;108506800000;214871800000;-127887000000;-175520700000;126033600000;112025200000;-97021820000;-58679980000;56646990000;40038230000;-37465120000;-36440500000;45730460000;14766070000;-46335400000;11130770000;32357680000;-27877140000;-10357260000;0;0];
[-13958940000;-4883317000;39549120000;55052290000;-12800060000;-94639870000;-54539500000;65818300000;38094870000;-97474530000;-26786000000;139552300000;22469160000;-151290400000;-3434370000;129607300000;-26046220000;-85111020000;43287640000;37631570000;-36440500000;-11570210000;23872060000;6106475000;-26077000000;7780802000;22523870000;-26087390000;-124878800;0;0];
[2733343000;-28005910000;-81007270000;-47739530000;116854700000;205838700000;6481239000;-211837500000;-28116970000;241066000000;32452620000;-247915900000;-13048360000;219868800000;-23341730000;-164346600000;52985680000;98914160000;-58399180000;-47767940000;45730460000;23872060000;-38356300000;-11163650000;41721410000;-12937400000;-31288760000;35178850000;1104477000;0;0];
[6054836000;33446710000;70586050000;58356490000;-46154540000;-148167100000;-68612580000;129592800000;124946700000;-95422160000;-141107200000;50128060000;109534600000;-20166800000;-63300060000;3140401000;29796170000;8063133000;-16707650000;-11206930000;14766070000;6106475000;-11163650000;-2413614000;7190756000;3388218000;-9947222000;1516847000;9834853000;0;0];
[-7903097000;-8902254000;-3687966000;-36245120000;-91172610000;-39157050000;117486700000;111712500000;-126775500000;-188872000000;95291050000;215108100000;-60712450000;-188391400000;47083140000;140142600000;-46885570000;-92495600000;48467710000;53765300000;-46335400000;-26077000000;41721410000;7190756000;-38408410000;11816420000;29819550000;-32258650000;-3328966000;0;0];
[5246115000;-22599370000;-80966130000;-50831560000;126664300000;223038000000;-4881878000;-271734300000;-86502060000;279224300000;151777000000;-223302700000;-140534200000;156224100000;85540390000;-101168000000;-32202060000;58199650000;425903700;-26859280000;11130770000;7780802000;-12937400000;3388218000;11816420000;-14045610000;-3195657000;20511300000;-15299810000;0;0];
[-3158180000;31780950000;115889200000;147068900000;3089635000;-226853600000;-211251500000;135676200000;310991000000;-15255190000;-299856100000;-65720370000;214852300000;77742050000;-129328200000;-59845430000;71446130000;43033450000;-41864580000;-32595730000;32357680000;22523870000;-31288760000;-9947222000;29819550000;-3195657000;-25184540000;16228620000;14098700000;0;0];
[3758101000;-9114270000;-59606030000;-145548000000;-182613200000;-7202115000;281002700000;218815600000;-225772300000;-343326500000;95405870000;318434100000;-13773690000;-226012000000;-4423785000;141426900000;-3507892000;-85578870000;15999980000;51585260000;-27877140000;-26087390000;35178850000;1516847000;-32258650000;20511300000;16228620000;-32400620000;9871935000;0;0];
[-4575497000;-25535240000;-57020720000;-193865900;211827200000;305011800000;-38865240000;-425793200000;-178465200000;362848900000;287275800000;-211527000000;-243417800000;103447200000;150590400000;-49336780000;-76629050000;23718280000;33043030000;-10109590000;-10357260000;-124878800;1104477000;9834853000;-3328966000;-15299810000;14098700000;9871935000;-24314810000;0;0];
[0;0;0;0;0;0;0;0;0;0;0;0;0;0;0;0;0;0;0;0;0;0;0;0;0;0;0;0;0;0;0];
[0;0;0;0;0;0;0;0;0;0;0;0;0;0;0;0;0;0;0;0;0;0;0;0;0;0;0;0;0;0;0]].
(** :301 *)
Definition unc1g4 : list (list Z) := [
[-268981600000000;-184913800000000;-66408190000000;-1936153000000;8657470000000;1381555000000;-1502030000000;-200943400000;352060700000;-12017550000;-87258270000;23371460000;20653600000;-12975980000;-5866388000;10044810000;-1759910000;-6833003000;7914404000;-2021764000;-4780938000;6728313000;-2959803000;-2427567000;4515472000;-1951639000;-2247566000;3800244000;-1079296000;0;0];
[-184913800000000;-312891800000000;-209116800000000;-57161070000000;13789260000000;12076810000000;-1750742000000;-2449869000000;683526600000;506253000000;-310586800000;-67607250000;121421200000;-19153850000;-36083610000;21450970000;6602764000;-14490760000;4476272000;8849856000;-14057740000;7295915000;6734419000;-17317240000;15353380000;-1252763000;-14481240000;19486270000;-9721376000;0;0];
[-66408190000000;-209116800000000;-280268400000000;-164096000000000;-23206390000000;23454290000000;7133330000000;-4908240000000;-1047308000000;1519037000000;-111527700000;-460527300000;197207900000;94282870000;-105745800000;560345900;44518980000;-17773880000;-17209890000;25065560000;-12057220000;-5267260000;18189680000;-22763040000;15387210000;3038706000;-22559070000;29067800000;-16075340000;0;0];
[-1936153000000;-57161070000000;-164096000000000;-199946700000000;-99801280000000;1458821000000;19992280000000;722467700000;-4185958000000;853263100000;908481300000;-689539700000;-63657690000;318341100000;-106343400000;-96455290000;90238510000;6277958000;-48865710000;21019230000;16538040000;-22124040000;4219963000;9191888000;-6877056000;-779557500;1189556000;5113783000;-8199191000;0;0];
[8657470000000;13789260000000;-23206390000000;-99801280000000;-123119100000000;-53670150000000;9135929000000;12954010000000;-1392171000000;-2112390000000;980540800000;-10713850000;-436480900000;291262700000;71421860000;-185313500000;54450660000;68875660000;-63386000000;-10071040000;51229660000;-27087210000;-23553720000;46183150000;-23453170000;-17181630000;37646230000;-25439670000;-2210197000;0;0];
[1381555000000;12076810000000;23454290000000;1458821000000;-53670150000000;-72556570000000;-27833930000000;10160630000000;8373226000000;-1649521000000;-1280755000000;489798000000;-126080600000;-50414640000;190180200000;-98289820000;-59149840000;89567810000;-21622680000;-37846270000;43177590000;-9607938000;-27266640000;36428010000;-10780230000;-24848840000;35796740000;-13698830000;-15438280000;0;0];
[-1502030000000;-1750742000000;7133330000000;19992280000000;9135929000000;-27833930000000;-41394640000000;-12820170000000;9185271000000;4906828000000;-1888939000000;-846717300000;377005500000;-35569000000;29824140000;60048040000;-87748680000;6848220000;45357990000;-22182220000;-12023650000;13905950000;-887579900;-3920899000;5141028000;-10612030000;8251259000;13018410000;-33660160000;0;0];
[-200943400000;-2449869000000;-4908240000000;722467700000;12954010000000;10160630000000;-12820170000000;-22344880000000;-5089687000000;6795182000000;2345609000000;-1687864000000;-415682800000;314308400000;-2646763000;31275590000;-10330220000;-60614450000;45768420000;20999120000;-44402550000;9788605000;25914430000;-20399710000;-7517481000;14281020000;5153612000;-12283730000;-15299560000;0;0];
[352060700000;683526600000;-1047308000000;-4185958000000;-1392171000000;8373226000000;9185271000000;-5089687000000;-12001160000000;-1839102000000;4489774000000;907338700000;-1281416000000;-124828600000;257314300000;-5555770000;-7728228000;-22466740000;-5203458000;26563400000;-14959560000;-9242193000;22999890000;-10322440000;-21454190000;33748740000;1280661000;-51479750000;49034250000;0;0];
[-12017550000;506253000000;1519037000000;853263100000;-2112390000000;-1649521000000;4906828000000;6795182000000;-1839102000000;-6554159000000;-542504500000;2775018000000;200531200000;-853818600000;40370710000;168069000000;-23206520000;-2254860000;-17886490000;-5598363000;19982420000;-1540531000;-7914443000;-6731887000;8661398000;19702840000;-35715470000;-3474367000;65291870000;0;0];
[-87258270000;-310586800000;-111527700000;908481300000;980540800000;-1280755000000;-1888939000000;2345609000000;4489774000000;-542504500000;-3661840000000;-89270830000;1656133000000;-70968570000;-528619900000;92734390000;109014300000;-24276250000;-16989060000;-12167750000;17942310000;12733440000;-29119880000;573208900;39284150000;-30455480000;-30637360000;71160270000;-26935600000;0;0];
[23371460000;-67607250000;-460527300000;-689539700000;-10713850000;489798000000;-846717300000;-1687864000000;907338700000;2775018000000;-89270830000;-2083348000000;60604510000;962963600000;-152613100000;-296055600000;101895700000;48383140000;-28830570000;-603523600;4998151000;-4258192000;-8694416000;20864300000;108338000;-40091170000;39073290000;22520490000;-79256760000;0;0];
[20653600000;121421200000;197207900000;-63657690000;-436480900000;-126080600000;377005500000;-415682800000;-1281416000000;200531200000;1656133000000;60604510000;-1206014000000;85735010000;560386200000;-141597600000;-164910300000;75372870000;25899350000;-9849897000;-10322740000;-13484870000;25742490000;8241621000;-43605600000;21846430000;41134080000;-66333010000;11340830000;0;0];
[-12975980000;-19153850000;94282870000;318341100000;291262700000;-50414640000;-35569000000;314308400000;-124828600000;-853818600000;-70968570000;962963600000;85735010000;-698277000000;83600930000;316446600000;-118826200000;-80077300000;64095930000;2978394000;-24573290000;10648770000;16205640000;-26159280000;-2606346000;41549810000;-35244870000;-21603070000;66075500000;0;0];
[-5866388000;-36083610000;-105745800000;-106343400000;71421860000;190180200000;29824140000;-2646763000;257314300000;40370710000;-528619900000;-152613100000;560386200000;83600930000;-414112800000;59687340000;183401800000;-77394250000;-41076000000;26973000000;6495142000;8090717000;-20736190000;-7625309000;38178220000;-19827450000;-31926650000;52616410000;-12118690000;0;0];
[10044810000;21450970000;560345900;-96455290000;-185313500000;-98289820000;60048040000;31275590000;-5555770000;168069000000;92734390000;-296055600000;-141597600000;316446600000;59687340000;-242027500000;51418850000;102085400000;-66487210000;-13125580000;37468970000;-15849730000;-16662780000;27494780000;-2427885000;-31586250000;30946480000;8768343000;-43561990000;0;0];
[-1759910000;6602764000;44518980000;90238510000;54450660000;-59149840000;-87748680000;-10330220000;-7728228000;-23206520000;109014300000;101895700000;-164910300000;-118826200000;183401800000;51418850000;-146556400000;24359480000;61878840000;-26948290000;-15891520000;3002028000;17421680000;-918592100;-26764730000;21023060000;14577450000;-36039390000;17356680000;0;0];
[-6833003000;-14490760000;-17773880000;6277958000;68875660000;89567810000;6848220000;-60614450000;-22466740000;-2254860000;-24276250000;48383140000;75372870000;-80077300000;-77394250000;102085400000;24359480000;-85405550000;32918180000;27078200000;-36730150000;12994350000;14573000000;-24195810000;7684162000;17816880000;-23595670000;2832594000;21216320000;0;0];
[7914404000;4476272000;-17209890000;-48865710000;-63386000000;-21622680000;45357990000;45768420000;-5203458000;-17886490000;-16989060000;-28830570000;25899350000;64095930000;-41076000000;-66487210000;61878840000;32918180000;-60815850000;5233279000;33020950000;-12202610000;-18076400000;12699300000;13045000000;-20264810000;867203200;19393310000;-17690340000;0;0];
[-2021764000;8849856000;25065560000;21019230000;-10071040000;-37846270000;-22182220000;20999120000;26563400000;-5598363000;-12167750000;-603523600;-9849897000;2978394000;26973000000;-13125580000;-26948290000;27078200000;5233279000;-22987940000;16156590000;-1807498000;-9392566000;13210090000;-6522304000;-5890687000;12047420000;-6098833000;-4898815000;0;0];
[-4780938000;-14057740000;-12057220000;16538040000;51229660000;43177590000;-12023650000;-44402550000;-14959560000;19982420000;17942310000;4998151000;-10322740000;-24573290000;6495142000;37468970000;-15891520000;-36730150000;33020950000;16156590000;-37373040000;10145060000;21119680000;-19453350000;-4075584000;17289410000;-8362079000;-7797834000;13035060000;0;0];
[6728313000;7295915000;-5267260000;-22124040000;-27087210000;-9607938000;13905950000;9788605000;-9242193000;-1540531000;12733440000;-4258192000;-13484870000;10648770000;8090717000;-15849730000;3002028000;12994350000;-12202610000;-1807498000;10145060000;-5513092000;-2212288000;3228053000;876675400;-3108859000;871484600;2689712000;-3729553000;0;0];
[-2959803000;6734419000;18189680000;4219963000;-23553720000;-27266640000;-887579900;25914430000;22999890000;-7914443000;-29119880000;-8694416000;25742490000;16205640000;-20736190000;-16662780000;17421680000;14573000000;-18076400000;-9392566000;21119680000;-2212288000;-17407740000;13490200000;4147438000;-12635780000;5528660000;5212362000;-7555547000;0;0];
[-2427567000;-17317240000;-22763040000;9191888000;46183150000;36428010000;-3920899000;-20399710000;-10322440000;-6731887000;573208900;20864300000;8241621000;-26159280000;-7625309000;27494780000;-918592100;-24195810000;12699300000;13210090000;-19453350000;3228053000;13490200000;-13598120000;517716200;10210290000;-8761961000;-892872900;7964295000;0;0];
[4515472000;15353380000;15387210000;-6877056000;-23453170000;-10780230000;5141028000;-7517481000;-21454190000;8661398000;39284150000;108338000;-43605600000;-2606346000;38178220000;-2427885000;-26764730000;7684162000;13045000000;-6522304000;-4075584000;876675400;4147438000;517716200;-6988354000;4293016000;4328326000;-7568754000;1763834000;0;0];
[-1951639000;-1252763000;3038706000;-779557500;-17181630000;-24848840000;-10612030000;14281020000;33748740000;19702840000;-30455480000;-40091170000;21846430000;41549810000;-19827450000;-31586250000;21023060000;17816880000;-20264810000;-5890687000;17289410000;-3108859000;-12635780000;10210290000;4293016000;-12176570000;5679521000;5885388000;-9573597000;0;0];
[-2247566000;-14481240000;-22559070000;1189556000;37646230000;35796740000;8251259000;5153612000;1280661000;-35715470000;-30637360000;39073290000;41134080000;-35244870000;-31926650000;30946480000;14577450000;-23595670000;867203200;12047420000;-8362079000;871484600;5528660000;-8761961000;4328326000;5679521000;-10817610000;4842638000;5946192000;0;0];
[3800244000;19486270000;29067800000;5113783000;-25439670000;-13698830000;13018410000;-12283730000;-51479750000;-3474367000;71160270000;22520490000;-66333010000;-21603070000;52616410000;8768343000;-36039390000;2832594000;19393310000;-6098833000;-7797834000;2689712000;5212362000;-892872900;-7568754000;5885388000;4842638000;-11039410000;5046867000;0;0];
[-1079296000;-9721376000;-16075340000;-8199191000;-2210197000;-15438280000;-33660160000;-15299560000;49034250000;65291870000;-26935600000;-79256760000;11340830000;66075500000;-12118690000;-43561990000;17356680000;21216320000;-17690340000;-4898815000;13035060000;-3729553000;-7555547000;7964295000;1763834000;-9573597000;5946192000;5046867000;-10857320000;0;0];
[0;0;0;0;0;0;0;0;0;0;0;0;0;0;0;0;0;0;0;0;0;0;0;0;0;0;0;0;0;0;0];
[0;0;0;0;0;0;0;0;0;0;0;0;0;0;0;0;0;0;0;0;0;0;0;0;0;0;0;0;0;0;0]].
(** :334 *)
Definition unc3g4 : list (list Z) := [
[-1413092000000000;-914985700000000;-272073900000000;35671650000000;54527710000000;1796327000000;-11480810000000;-577281000000;2869522000000;-143243700000;-770941000000;186612800000;201467400000;-115563100000;-49498860000;79446670000;-14655850000;-45257640000;51382490000;-13904300000;-27696140000;39931670000;-18800520000;-11818260000;23942790000;-10136980000;-12202800000;18900230000;-1741852000;0;0];
[-914985700000000;-1508830000000000;-915342300000000;-147990800000000;138540100000000;61667620000000;-26380010000000;-16971590000000;7778313000000;4172347000000;-2986189000000;-708864100000;1167894000000;-113647100000;-380399100000;196800000000;68812200000;-132109900000;48041560000;54611480000;-97125790000;58181360000;32512170000;-106913000000;102058000000;-13391320000;-93167320000;130573400000;-63409050000;0;0];
[-272073900000000;-915342300000000;-1188574000000000;-569710800000000;65170820000000;168554100000000;7239249000000;-48900030000000;-1194989000000;15616390000000;-1989606000000;-4856283000000;1936924000000;1141145000000;-1087025000000;-31675230000;447790800000;-193860800000;-106153400000;180158300000;-106129200000;3070654000;90872400000;-157055200000;146414200000;-26014810000;-150428500000;252605400000;-176471600000;0;0];
[35671650000000;-147990800000000;-569710800000000;-672871800000000;-204735800000000;154471500000000;96744150000000;-44625910000000;-32529480000000;18587650000000;8768383000000;-8679326000000;-989083300000;3635707000000;-893520700000;-1121932000000;852171600000;92842760000;-423898300000;170559400000;107984300000;-124520000000;-3973814000;53396360000;29557730000;-108365200000;42891360000;138589800000;-252984100000;0;0];
[54527710000000;138540100000000;65170820000000;-204735800000000;-288359900000000;-35848990000000;111756400000000;22349740000000;-44518440000000;-3966775000000;18355570000000;-2747895000000;-6635268000000;3371736000000;1473860000000;-2058648000000;302105700000;796175900000;-572055600000;-107467900000;424953800000;-223787500000;-170109600000;355143200000;-177255100000;-179995800000;375040800000;-214703900000;-170190400000;0;0];
[1796327000000;61667620000000;168554100000000;154471500000000;-35848990000000;-129660800000000;-6636940000000;58158800000000;-1975287000000;-24619970000000;6432394000000;8780487000000;-5659400000000;-1691482000000;3159141000000;-698233000000;-1046362000000;888937200000;-66029130000;-381089300000;349300100000;-110805600000;-139746200000;287259500000;-229767700000;-35296550000;326985300000;-386896000000;113268200000;0;0];
[-11480810000000;-26380010000000;7239249000000;96744150000000;111756400000000;-6636940000000;-73073900000000;-643913600000;33019390000000;-5801153000000;-12862710000000;6655399000000;3251476000000;-4297416000000;439104500000;1727809000000;-1044269000000;-253843200000;594037200000;-168641800000;-196452600000;146732900000;79847680000;-139348300000;-22158090000;185310500000;-141611200000;-85278120000;273593600000;0;0];
[-577281000000;-16971590000000;-48900030000000;-44625910000000;22349740000000;58158800000000;-643913600000;-39596870000000;3044529000000;18408780000000;-6248924000000;-6205427000000;5235913000000;539993700000;-2659464000000;1118058000000;633160200000;-917882500000;277422500000;293758800000;-393629700000;149541800000;152508100000;-285191500000;168203300000;99705970000;-301248700000;259881700000;12828410000;0;0];
[2869522000000;7778313000000;-1194989000000;-32529480000000;-44518440000000;-1975287000000;33019390000000;3044529000000;-21999220000000;2703269000000;10100160000000;-4773947000000;-2722106000000;3441318000000;-430532400000;-1374674000000;936292500000;117567400000;-480076600000;197686200000;100530300000;-104796300000;-30797820000;60614420000;46922800000;-134237800000;70934370000;101452800000;-217301100000;0;0];
[-143243700000;4172347000000;15616390000000;18587650000000;-3966775000000;-24619970000000;-5801153000000;18408780000000;2703269000000;-12645770000000;2232566000000;5602073000000;-3399189000000;-1030748000000;2129645000000;-712807600000;-594980000000;734608600000;-200645400000;-247625100000;314089000000;-113816100000;-118677400000;212919500000;-124019400000;-67402350000;210648600000;-187834500000;3933541000;0;0];
[-770941000000;-2986189000000;-1989606000000;8768383000000;18355570000000;6432394000000;-12862710000000;-6248924000000;10100160000000;2232566000000;-7314985000000;1597098000000;3100142000000;-2268057000000;-308949400000;1248592000000;-574879800000;-250203200000;414434600000;-119088300000;-122579000000;103027300000;31089440000;-73678660000;-12079000000;105988400000;-88201180000;-38489300000;158278000000;0;0];
[186612800000;-708864100000;-4856283000000;-8679326000000;-2747895000000;8780487000000;6655399000000;-6205427000000;-4773947000000;5602073000000;1597098000000;-4305104000000;1116252000000;1688860000000;-1473286000000;51315410000;670761500000;-478154800000;17953670000;228800000000;-204360800000;56676970000;78097830000;-133679700000;94093390000;14039400000;-120624500000;143797300000;-52016810000;0;0];
[201467400000;1167894000000;1936924000000;-989083300000;-6635268000000;-5659400000000;3251476000000;5235913000000;-2722106000000;-3399189000000;3100142000000;1116252000000;-2588986000000;758522000000;964301100000;-961181800000;110352800000;408745300000;-321132200000;193417300;168147500000;-101960300000;-44223560000;100246200000;-29048050000;-78019610000;107367600000;-26624030000;-93105770000;0;0];
[-115563100000;-113647100000;1141145000000;3635707000000;3371736000000;-1691482000000;-4297416000000;539993700000;3441318000000;-1030748000000;-2268057000000;1688860000000;758522000000;-1530939000000;489664400000;505134300000;-567734500000;140632200000;159588000000;-178250000000;73054440000;7093045000;-37678270000;51621920000;-55678290000;27068440000;35810430000;-88497190000;77159250000;0;0];
[-49498860000;-380399100000;-1087025000000;-893520700000;1473860000000;3159141000000;439104500000;-2659464000000;-430532400000;2129645000000;-308949400000;-1473286000000;964301100000;489664400000;-958491600000;359857000000;286147300000;-399852300000;143513700000;108469700000;-169495000000;74199440000;49987040000;-99694430000;51775970000;39630490000;-92476440000;61738220000;26288190000;0;0];
[79446670000;196800000000;-31675230000;-1121932000000;-2058648000000;-698233000000;1727809000000;1118058000000;-1374674000000;-712807600000;1248592000000;51315410000;-961181800000;505134300000;359857000000;-580979200000;198564500000;174162700000;-219358500000;64466960000;55312560000;-55063550000;351358300;20644770000;8979024000;-40195850000;26290170000;25370130000;-64362280000;0;0];
[-14655850000;68812200000;447790800000;852171600000;302105700000;-1046362000000;-1044269000000;633160200000;936292500000;-594980000000;-574879800000;670761500000;110352800000;-567734500000;286147300000;198564500000;-345025300000;160112600000;59024250000;-135458100000;92140900000;-15712670000;-41166590000;61483360000;-42439560000;-4115642000;47496570000;-54943620000;19100950000;0;0];
[-45257640000;-132109900000;-193860800000;92842760000;796175900000;888937200000;-253843200000;-917882500000;117567400000;734608600000;-250203200000;-478154800000;408745300000;140632200000;-399852300000;174162700000;160112600000;-252440600000;107206300000;65699030000;-117532300000;54377880000;30898730000;-60465160000;24797540000;29140960000;-48702510000;19844150000;27932530000;0;0];
[51382490000;48041560000;-106153400000;-423898300000;-572055600000;-66029130000;594037200000;277422500000;-480076600000;-200645400000;414434600000;17953670000;-321132200000;159588000000;143513700000;-219358500000;59024250000;107206300000;-126897200000;42864260000;27987670000;-35475510000;11373450000;-60897650;8200566000;-13736530000;1538150000;19358420000;-28246370000;0;0];
[-13904300000;54611480000;180158300000;170559400000;-107467900000;-381089300000;-168641800000;293758800000;197686200000;-247625100000;-119088300000;228800000000;193417300;-178250000000;108469700000;64466960000;-135458100000;65699030000;42864260000;-92223280000;66188950000;-6600932000;-39380870000;48090810000;-23313710000;-12358180000;33318470000;-27291170000;1928937000;0;0];
[-27696140000;-97125790000;-106129200000;107984300000;424953800000;349300100000;-196452600000;-393629700000;100530300000;314089000000;-122579000000;-204360800000;168147500000;73054440000;-169495000000;55312560000;92140900000;-117532300000;27987670000;66188950000;-82777570000;30127500000;28513500000;-44297730000;17553470000;17481040000;-29315910000;12730300000;13936150000;0;0];
[39931670000;58181360000;3070654000;-124520000000;-223787500000;-110805600000;146732900000;149541800000;-104796300000;-113816100000;103027300000;56676970000;-101960300000;7093045000;74199440000;-55063550000;-15712670000;54377880000;-35475510000;-6600932000;30127500000;-24423480000;6561977000;4146314000;-3251925000;-1251593000;1107405000;4192683000;-8805874000;0;0];
[-18800520000;32512170000;90872400000;-3973814000;-170109600000;-139746200000;79847680000;152508100000;-30797820000;-118677400000;31089440000;78097830000;-44223560000;-37678270000;49987040000;351358300;-41166590000;30898730000;11373450000;-39380870000;28513500000;6561977000;-33186340000;32008370000;-9167685000;-14710380000;23109790000;-13928700000;-2877298000;0;0];
[-11818260000;-106913000000;-157055200000;53396360000;355143200000;287259500000;-139348300000;-285191500000;60614420000;212919500000;-73678660000;-133679700000;100246200000;51621920000;-99694430000;20644770000;61483360000;-60465160000;-60897650;48090810000;-44297730000;4146314000;32008370000;-37223090000;14256630000;13934520000;-25478790000;15075670000;5621393000;0;0];
[23942790000;102058000000;146414200000;29557730000;-177255100000;-229767700000;-22158090000;168203300000;46922800000;-124019400000;-12079000000;94093390000;-29048050000;-55678290000;51775970000;8979024000;-42439560000;24797540000;8200566000;-23313710000;17553470000;-3251925000;-9167685000;14256630000;-10373030000;749754100;7352088000;-7943287000;1365475000;0;0];
[-10136980000;-13391320000;-26014810000;-108365200000;-179995800000;-35296550000;185310500000;99705970000;-134237800000;-67402350000;105988400000;14039400000;-78019610000;27068440000;39630490000;-40195850000;-4115642000;29140960000;-13736530000;-12358180000;17481040000;-1251593000;-14710380000;13934520000;749754100;-14261230000;15155120000;-4527172000;-7529704000;0;0];
[-12202800000;-93167320000;-150428500000;42891360000;375040800000;326985300000;-141611200000;-301248700000;70934370000;210648600000;-88201180000;-120624500000;107367600000;35810430000;-92476440000;26290170000;47496570000;-48702510000;1538150000;33318470000;-29315910000;1107405000;23109790000;-25478790000;7352088000;15155120000;-24492550000;14865690000;4601583000;0;0];
[18900230000;130573400000;252605400000;138589800000;-214703900000;-386896000000;-85278120000;259881700000;101452800000;-187834500000;-38489300000;143797300000;-26624030000;-88497190000;61738220000;25370130000;-54943620000;19844150000;19358420000;-27291170000;12730300000;4192683000;-13928700000;15075670000;-7943287000;-4527172000;14865690000;-15313130000;4895111000;0;0];
[-1741852000;-63409050000;-176471600000;-252984100000;-170190400000;113268200000;273593600000;12828410000;-217301100000;3933541000;158278000000;-52016810000;-93105770000;77159250000;26288190000;-64362280000;19100950000;27932530000;-28246370000;1928937000;13936150000;-8805874000;-2877298000;5621393000;1365475000;-7529704000;4601583000;4895111000;-11378350000;0;0];
[0;0;0;0;0;0;0;0;0;0;0;0;0;0;0;0;0;0;0;0;0;0;0;0;0;0;0;0;0;0;0];
[0;0;0;0;0;0;0;0;0;0;0;0;0;0;0;0;0;0;0;0;0;0;0;0;0;0;0;0;0;0;0]].
(** :367 *)
Definition unc1h5 : list (list Z) := [
[415524100000000;213644000000000;35799530000000;-19753490000000;-9770402000000;2648888000000;2236343000000;-645016300000;-521778400000;234483700000;112107500000;-94422730000;-15817660000;41046080000;-7769956000;-18631470000;17186570000;-636250400;-12645170000;13228070000;-3427312000;-7133724000;9894636000;-4013118000;-3855212000;6122229000;-1103699000;-5842066000;0;0;0];
[213644000000000;377529500000000;181656700000000;-3484727000000;-37480320000000;-4491448000000;8843471000000;1114919000000;-2539336000000;-8013144000;788515100000;-181568700000;-215175800000;135701500000;27205310000;-63628410000;17790740000;22519800000;-26704130000;5980184000;18739870000;-29750840000;18309870000;9306032000;-33258160000;33934980000;-8613191000;-24316920000;0;0;0];
[35799530000000;181656700000000;257423800000000;90240930000000;-39681870000000;-30698780000000;9031959000000;8963926000000;-3492632000000;-2383230000000;1619676000000;418249200000;-686152500000;71673470000;228315500000;-115335400000;-45702680000;74628730000;-21972930000;-23907730000;36298850000;-28353840000;10329710000;16405250000;-42731780000;47882740000;-18046450000;-33525280000;0;0;0];
[-19753490000000;-3484727000000;90240930000000;130861500000000;23101560000000;-39809730000000;-10251140000000;13748340000000;2178010000000;-5222934000000;333647700000;1845296000000;-693751100000;-473093400000;458329400000;-271144800;-190790500000;88722230000;42162380000;-59269120000;3949305000;31184820000;-13808820000;-19347700000;21715330000;10104090000;-36777010000;21055440000;0;0;0];
[-9770402000000;-37480320000000;-39681870000000;23101560000000;58814520000000;2703738000000;-23338570000000;836618300000;8932283000000;-2254079000000;-2959922000000;1821581000000;562963700000;-964619900000;173905000000;330840800000;-237808300000;-31190030000;138778200000;-66063830000;-48259840000;88791940000;-35355770000;-51211100000;89350910000;-43869320000;-45908300000;100157000000;0;0;0];
[2648888000000;-4491448000000;-30698780000000;-39809730000000;2703738000000;31637880000000;144672100000;-12899270000000;2654799000000;4465521000000;-2588711000000;-923130500000;1476698000000;-245907700000;-519571000000;363636200000;29892280000;-173564100000;96623870000;6909174000;-50361840000;48607590000;-24921010000;-14251170000;51779120000;-54441320000;6568309000;62150630000;0;0;0];
[2236343000000;8843471000000;9031959000000;-10251140000000;-23338570000000;144672100000;18268270000000;-1221815000000;-7609047000000;2664323000000;2182152000000;-2028295000000;-31681350000;907299900000;-437729000000;-179788100000;290295500000;-70581710000;-98308800000;82656170000;13587370000;-56384140000;16571110000;41477310000;-48612620000;-1663598000;56993030000;-61656120000;0;0;0];
[-645016300000;1114919000000;8963926000000;13748340000000;836618300000;-12899270000000;-1221815000000;10236820000000;-1381776000000;-4275901000000;2141068000000;897166800000;-1363882000000;314429200000;441191500000;-397031300000;38512070000;158339300000;-126935500000;17119780000;54586070000;-63075290000;27214840000;23611390000;-56023290000;45007410000;5620000000;-59816010000;0;0;0];
[-521778400000;-2539336000000;-3492632000000;2178010000000;8932283000000;2654799000000;-7609047000000;-1381776000000;6026826000000;-1125848000000;-2439696000000;1548429000000;300204900000;-847046600000;350553000000;182796800000;-271485900000;75322530000;81832190000;-78155490000;-948061800;39866930000;-12631030000;-29036160000;32265410000;5707452000;-45343670000;46954620000;0;0;0];
[234483700000;-8013144000;-2383230000000;-5222934000000;-2254079000000;4465521000000;2664323000000;-4275901000000;-1125848000000;3569033000000;-851403900000;-1370065000000;1068188000000;19101790000;-486281500000;302737700000;20059980000;-155588500000;105307600000;-6393443000;-49649730000;51169020000;-21306150000;-15548240000;39454620000;-36353270000;5789767000;34223740000;0;0;0];
[112107500000;788515100000;1619676000000;333647700000;-2959922000000;-2588711000000;2182152000000;2141068000000;-2439696000000;-851403900000;2164522000000;-608021900000;-776236100000;720962700000;-77049250000;-283390100000;224874500000;-16047840000;-98295090000;70855760000;6675240000;-41752750000;17989360000;21937240000;-33322500000;7049084000;31063990000;-45817250000;0;0;0];
[-94422730000;-181568700000;418249200000;1845296000000;1821581000000;-923130500000;-2028295000000;897166800000;1548429000000;-1370065000000;-608021900000;1322396000000;-419222600000;-429643200000;462192800000;-104640700000;-134396300000;143706500000;-49321480000;-24003140000;41678170000;-28399000000;11261660000;3248894000;-17562880000;26750500000;-19547820000;-6520229000;0;0;0];
[-15817660000;-215175800000;-686152500000;-693751100000;562963700000;1476698000000;-31681350000;-1363882000000;300204900000;1068188000000;-776236100000;-419222600000;826341000000;-298478800000;-240031800000;312125800000;-105305800000;-74600580000;110477300000;-47791800000;-22977700000;46666160000;-23119810000;-14843700000;33550740000;-19859470000;-13523880000;38391550000;0;0;0];
[41046080000;135701500000;71673470000;-473093400000;-964619900000;-245907700000;907299900000;314429200000;-847046600000;19101790000;720962700000;-429643200000;-298478800000;518034300000;-192821800000;-137957200000;190947300000;-72428970000;-32029940000;53066740000;-23674800000;-2670190000;4367795000;5009629000;-3833976000;-11295440000;23302190000;-14948400000;0;0;0];
[-7769956000;27205310000;228315500000;458329400000;173905000000;-519571000000;-437729000000;441191500000;350553000000;-486281500000;-77049250000;462192800000;-240031800000;-192821800000;323793400000;-140843700000;-64653580000;123383400000;-70401260000;-65051990;37158130000;-37896130000;17637320000;7770435000;-24704140000;23223500000;-3604980000;-20207560000;0;0;0];
[-18631470000;-63628410000;-115335400000;-271144800;330840800000;363636200000;-179788100000;-397031300000;182796800000;302737700000;-283390100000;-104640700000;312125800000;-137957200000;-140843700000;218228600000;-94705530000;-45777120000;87209130000;-45825990000;-9402563000;31758440000;-17521550000;-8375371000;18811640000;-6149738000;-14645970000;22264150000;0;0;0];
[17186570000;17790740000;-45702680000;-190790500000;-237808300000;29892280000;290295500000;38512070000;-271485900000;20059980000;224874500000;-134396300000;-105305800000;190947300000;-64653580000;-94705530000;130108200000;-57302690000;-19646120000;42348480000;-25624200000;6165914000;664911300;-2129673000;7144441000;-13135920000;11395500000;338540100;0;0;0];
[-636250400;22519800000;74628730000;88722230000;-31190030000;-173564100000;-70581710000;158339300000;75322530000;-155588500000;-16047840000;143706500000;-74600580000;-72428970000;123383400000;-45777120000;-57302690000;90519080000;-52134120000;-3678848000;34989790000;-33899370000;12907620000;10221010000;-20924280000;14314390000;2309050000;-15255420000;0;0;0];
[-12645170000;-26704130000;-21972930000;42162380000;138778200000;96623870000;-98308800000;-126935500000;81832190000;105307600000;-98295090000;-49321480000;110477300000;-32029940000;-70401260000;87209130000;-19646120000;-52134120000;66078010000;-28486040000;-14152020000;27763350000;-13508260000;-5882928000;11720430000;-3028042000;-8203444000;10636440000;0;0;0];
[13228070000;5980184000;-23907730000;-59269120000;-66063830000;6909174000;82656170000;17119780000;-78155490000;-6393443000;70855760000;-24003140000;-47791800000;53066740000;-65051990;-45825990000;42348480000;-3678848000;-28486040000;31738410000;-15913710000;855197500;5242042000;-6164838000;6608048000;-6385708000;3320208000;2251630000;0;0;0];
[-3427312000;18739870000;36298850000;3949305000;-48259840000;-50361840000;13587370000;54586070000;-948061800;-49649730000;6675240000;41678170000;-22977700000;-23674800000;37158130000;-9402563000;-25624200000;34989790000;-14152020000;-15913710000;31226090000;-23892250000;3824297000;12898290000;-16552690000;8406108000;3135241000;-9770009000;0;0;0];
[-7133724000;-29750840000;-28353840000;31184820000;88791940000;48607590000;-56384140000;-63075290000;39866930000;51169020000;-41752750000;-28399000000;46666160000;-2670190000;-37896130000;31758440000;6165914000;-33899370000;27763350000;855197500;-23892250000;24678790000;-8581052000;-7628481000;12176980000;-5563260000;-3686025000;7631431000;0;0;0];
[9894636000;18309870000;10329710000;-13808820000;-35355770000;-24921010000;16571110000;27214840000;-12631030000;-21306150000;17989360000;11261660000;-23119810000;4367795000;17637320000;-17521550000;664911300;12907620000;-13508260000;5242042000;3824297000;-8581052000;8050984000;-4311139000;590829400;1025895000;-797100700;397528400;0;0;0];
[-4013118000;9306032000;16405250000;-19347700000;-51211100000;-14251170000;41477310000;23611390000;-29036160000;-15548240000;21937240000;3248894000;-14843700000;5009629000;7770435000;-8375371000;-2129673000;10221010000;-5882928000;-6164838000;12898290000;-7628481000;-4311139000;12519150000;-11402310000;3505823000;4470710000;-7519563000;0;0;0];
[-3855212000;-33258160000;-42731780000;21715330000;89350910000;51779120000;-48612620000;-56023290000;32265410000;39454620000;-33322500000;-17562880000;33550740000;-3833976000;-24704140000;18811640000;7144441000;-20924280000;11720430000;6608048000;-16552690000;12176980000;590829400;-11402310000;13194590000;-6215888000;-3307381000;8443598000;0;0;0];
[6122229000;33934980000;47882740000;10104090000;-43869320000;-54441320000;-1663598000;45007410000;5707452000;-36353270000;7049084000;26750500000;-19859470000;-11295440000;23223500000;-6149738000;-13135920000;14314390000;-3028042000;-6385708000;8406108000;-5563260000;1025895000;3505823000;-6215888000;5390033000;-1440386000;-2727242000;0;0;0];
[-1103699000;-8613191000;-18046450000;-36777010000;-45908300000;6568309000;56993030000;5620000000;-45343670000;5789767000;31063990000;-19547820000;-13523880000;23302190000;-3604980000;-14645970000;11395500000;2309050000;-8203444000;3320208000;3135241000;-3686025000;-797100700;4470710000;-3307381000;-1440386000;5271550000;-5010694000;0;0;0];
[-5842066000;-24316920000;-33525280000;21055440000;100157000000;62150630000;-61656120000;-59816010000;46954620000;34223740000;-45817250000;-6520229000;38391550000;-14948400000;-20207560000;22264150000;338540100;-15255420000;10636440000;2251630000;-9770009000;7631431000;397528400;-7519563000;8443598000;-2727242000;-5010694000;8834963000;0;0;0];
[0;0;0;0;0;0;0;0;0;0;0;0;0;0;0;0;0;0;0;0;0;0;0;0;0;0;0;0;0;0;0];
[0;0;0;0;0;0;0;0;0;0;0;0;0;0;0;0;0;0;0;0;0;0;0;0;0;0;0;0;0;0;0];
[0;0;0;0;0;0;0;0;0;0;0;0;0;0;0;0;0;0;0;0;0;0;0;0;0;0;0;0;0;0;0]].
(** :400 *)
Definition unc3h5 : list (list Z) := [
[251289800000000;147604400000000;31220720000000;-13635440000000;-8986408000000;1485614000000;2185990000000;-336545000000;-561897300000;152280500000;143231000000;-77237880000;-29220710000;37991660000;-2457192000;-17041110000;11943170000;1648834000;-9896126000;8370488000;-417455500;-6752997000;7402976000;-1595427000;-5070814000;6461038000;-1342501000;-5549825000;0;0;0];
[147604400000000;245213200000000;128731900000000;740643100000;-29900820000000;-5905126000000;7259514000000;1842435000000;-2190273000000;-329773300000;750058000000;-57616730000;-240151300000;97980720000;51432200000;-58649880000;5926598000;24657680000;-20880170000;1957686000;15576320000;-22348290000;13719710000;6835024000;-25845370000;27754390000;-8246016000;-19686450000;0;0;0];
[31220720000000;128731900000000;168114800000000;59804900000000;-31075920000000;-26316610000000;6082393000000;8586789000000;-2259702000000;-2602854000000;1202883000000;636816500000;-602718100000;-42759620000;242828700000;-78691740000;-65691520000;66834440000;-8788318000;-24746860000;24571120000;-15183850000;7312461000;5732767000;-25571950000;37063870000;-21960060000;-18106370000;0;0;0];
[-13635440000000;740643100000;59804900000000;76531330000000;7159702000000;-32555230000000;-8822212000000;11602970000000;2969961000000;-4548389000000;-318911700000;1777207000000;-386406000000;-564535400000;369041400000;77534620000;-191436300000;57101850000;59955430000;-57218740000;-4703417000;37293610000;-15025300000;-23681380000;30218380000;3790872000;-40860050000;36810520000;0;0;0];
[-8986408000000;-29900820000000;-31075920000000;7159702000000;25586550000000;-5999007000000;-17884020000000;1493927000000;7894399000000;-1458647000000;-2941859000000;1316945000000;784787000000;-819313100000;7433886000;345654400000;-175204000000;-66199650000;129341700000;-49902530000;-46555320000;78155510000;-34655780000;-39285870000;79144760000;-47713620000;-32337530000;92530120000;0;0;0];
[1485614000000;-5905126000000;-26316610000000;-32555230000000;-5999007000000;11420540000000;-3872444000000;-8493233000000;2954193000000;3825948000000;-2102290000000;-1107111000000;1248379000000;-1979470000;-524869000000;246035700000;96046330000;-155266600000;53062530000;25194190000;-37550430000;27744590000;-19698590000;763639800;33023330000;-53036830000;27003590000;37388740000;0;0;0];
[2185990000000;7259514000000;6082393000000;-8822212000000;-17884020000000;-3872444000000;6664715000000;-2545370000000;-4386512000000;2574661000000;1743053000000;-1718195000000;-226473400000;842110700000;-261475900000;-246285300000;241180900000;-14530250000;-109232900000;69155850000;23789660000;-60439240000;20614260000;40034350000;-55295240000;8615721000;54854220000;-71179650000;0;0;0];
[-336545000000;1842435000000;8586789000000;11602970000000;1493927000000;-8493233000000;-2545370000000;3663521000000;-1587902000000;-2128043000000;1857823000000;616326300000;-1162913000000;160732200000;455573500000;-290302700000;-42946470000;149233400000;-77556490000;-7687586000;41645700000;-40986830000;24054340000;8036152000;-43358980000;50576400000;-10712580000;-51294850000;0;0;0];
[-561897300000;-2190273000000;-2259702000000;2969961000000;7894399000000;2954193000000;-4386512000000;-1587902000000;2246579000000;-934397800000;-1088776000000;1204601000000;142438400000;-707697100000;245524400000;218727800000;-225765900000;19152310000;97374450000;-64197720000;-17799940000;49674840000;-14506320000;-35465970000;41947990000;2842395000;-51934950000;52460850000;0;0;0];
[152280500000;-329773300000;-2602854000000;-4548389000000;-1458647000000;3825948000000;2574661000000;-2128043000000;-934397800000;1350867000000;-584627800000;-558476800000;754339900000;-43828690000;-393100000000;222577900000;64390360000;-135644300000;57647790000;14640920000;-35521930000;31606770000;-19205230000;-5798413000;34829730000;-40182500000;7422640000;39495350000;0;0;0];
[143231000000;750058000000;1202883000000;-318911700000;-2941859000000;-2102290000000;1743053000000;1857823000000;-1088776000000;-584627800000;828038300000;-367145300000;-295330500000;468999200000;-91797410000;-220216500000;173684900000;14239220000;-97950460000;51882770000;23589240000;-47281180000;13088560000;30647660000;-36004390000;-180085700;38320900000;-39137040000;0;0;0];
[-77237880000;-57616730000;636816500000;1777207000000;1316945000000;-1107111000000;-1718195000000;616326300000;1204601000000;-558476800000;-367145300000;507316300000;-229070100000;-156009500000;278007000000;-86013340000;-102572100000;104706800000;-17353660000;-29730980000;24784390000;-12973230000;9697767000;-282485100;-18125170000;26223590000;-10087570000;-17907760000;0;0;0];
[-29220710000;-240151300000;-602718100000;-386406000000;784787000000;1248379000000;-226473400000;-1162913000000;142438400000;754339900000;-295330500000;-229070100000;315376600000;-153855300000;-79841710000;177389500000;-80367160000;-53199630000;85494010000;-29678670000;-30383090000;42280090000;-11552040000;-23205950000;29272660000;-5875720000;-20899420000;26483860000;0;0;0];
[37991660000;97980720000;-42759620000;-564535400000;-819313100000;-1979470000;842110700000;160732200000;-707697100000;-43828690000;468999200000;-156009500000;-153855300000;200645800000;-91729320000;-50567570000;103300200000;-44673640000;-26886950000;36905760000;-7992445000;-7934224000;879034700;5894191000;899700900;-11156210000;11059560000;-580186700;0;0;0];
[-2457192000;51432200000;242828700000;369041400000;7433886000;-524869000000;-261475900000;455573500000;245524400000;-393100000000;-91797410000;278007000000;-79841710000;-91729320000;118966000000;-63991730000;-15449180000;60895850000;-45873320000;881214900;29302890000;-27602130000;5803830000;14221070000;-18127340000;7300566000;6190343000;-12132820000;0;0;0];
[-17041110000;-58649880000;-78691740000;77534620000;345654400000;246035700000;-246285300000;-290302700000;218727800000;222577900000;-220216500000;-86013340000;177389500000;-50567570000;-63991730000;87152400000;-43509560000;-18858840000;46488150000;-24457440000;-10862490000;21277740000;-6703594000;-8652705000;9691336000;-729786600;-7156394000;8355949000;0;0;0];
[11943170000;5926598000;-65691520000;-191436300000;-175204000000;96046330000;241180900000;-42946470000;-225765900000;64390360000;173684900000;-102572100000;-80367160000;103300200000;-15449180000;-43509560000;44868940000;-20430460000;-4251024000;16613110000;-14656870000;5323757000;2842735000;-5752428000;4379050000;-2121975000;1136718000;-421972500;0;0;0];
[1648834000;24657680000;66834440000;57101850000;-66199650000;-155266600000;-14530250000;149233400000;19152310000;-135644300000;14239220000;104706800000;-53199630000;-44673640000;60895850000;-18858840000;-20430460000;35028480000;-24637880000;-147355300;18705120000;-17722320000;3618515000;8178597000;-9947159000;4640239000;1802540000;-5937669000;0;0;0];
[-9896126000;-20880170000;-8788318000;59955430000;129341700000;53062530000;-109232900000;-77556490000;97374450000;57647790000;-97950460000;-17353660000;85494010000;-26886950000;-45873320000;46488150000;-4251024000;-24637880000;24305300000;-8639806000;-5808904000;10804610000;-6615421000;-1190278000;6026698000;-4426890000;-1668107000;6433172000;0;0;0];
[8370488000;1957686000;-24746860000;-57218740000;-49902530000;25194190000;69155850000;-7687586000;-64197720000;14640920000;51882770000;-29730980000;-29678670000;36905760000;881214900;-24457440000;16613110000;-147355300;-8639806000;9971896000;-6881801000;1292132000;3260860000;-3922296000;1919631000;-509775400;642409400;-510038500;0;0;0];
[-417455500;15576320000;24571120000;-4703417000;-46555320000;-37550430000;23789660000;41645700000;-17799940000;-35521930000;23589240000;24784390000;-30383090000;-7992445000;29302890000;-10862490000;-14656870000;18705120000;-5808904000;-6881801000;11081940000;-8169339000;2040346000;3985520000;-6962980000;5122211000;300856800;-5230833000;0;0;0];
[-6752997000;-22348290000;-15183850000;37293610000;78155510000;27744590000;-60439240000;-40986830000;49674840000;31606770000;-47281180000;-12973230000;42280090000;-7934224000;-27602130000;21277740000;5323757000;-17722320000;10804610000;1292132000;-8169339000;8339288000;-3913490000;-2037159000;5648718000;-4319930000;-651183500;4785305000;0;0;0];
[7402976000;13719710000;7312461000;-15025300000;-34655780000;-19698590000;20614260000;24054340000;-14506320000;-19205230000;13088560000;9697767000;-11552040000;879034700;5803830000;-6703594000;2842735000;3618515000;-6615421000;3260860000;2040346000;-3913490000;2170318000;-106897000;-317571600;-184045300;303670600;163771300;0;0;0];
[-1595427000;6835024000;5732767000;-23681380000;-39285870000;763639800;40034350000;8036152000;-35465970000;-5798413000;30647660000;-282485100;-23205950000;5894191000;14221070000;-8652705000;-5752428000;8178597000;-1190278000;-3922296000;3985520000;-2037159000;-106897000;2507456000;-4171273000;3197200000;404664400;-3840987000;0;0;0];
[-5070814000;-25845370000;-25571950000;30218380000;79144760000;33023330000;-55295240000;-43358980000;41947990000;34829730000;-36004390000;-18125170000;29272660000;899700900;-18127340000;9691336000;4379050000;-9947159000;6026698000;1919631000;-6962980000;5648718000;-317571600;-4171273000;5019733000;-2632931000;-935024900;3488424000;0;0;0];
[6461038000;27754390000;37063870000;3790872000;-47713620000;-53036830000;8615721000;50576400000;2842395000;-40182500000;-180085700;26223590000;-5875720000;-11156210000;7300566000;-729786600;-2121975000;4640239000;-4426890000;-509775400;5122211000;-4319930000;-184045300;3197200000;-2632931000;524992700;693980900;-740869600;0;0;0];
[-1342501000;-8246016000;-21960060000;-40860050000;-32337530000;27003590000;54854220000;-10712580000;-51934950000;7422640000;38320900000;-10087570000;-20899420000;11059560000;6190343000;-7156394000;1136718000;1802540000;-1668107000;642409400;300856800;-651183500;303670600;404664400;-935024900;693980900;483080600;-1763031000;0;0;0];
[-5549825000;-19686450000;-18106370000;36810520000;92530120000;37388740000;-71179650000;-51294850000;52460850000;39495350000;-39137040000;-17907760000;26483860000;-580186700;-12132820000;8355949000;-421972500;-5937669000;6433172000;-510038500;-5230833000;4785305000;163771300;-3840987000;3488424000;-740869600;-1763031000;2809224000;0;0;0];
[0;0;0;0;0;0;0;0;0;0;0;0;0;0;0;0;0;0;0;0;0;0;0;0;0;0;0;0;0;0;0];
[0;0;0;0;0;0;0;0;0;0;0;0;0;0;0;0;0;0;0;0;0;0;0;0;0;0;0;0;0;0;0];
[0;0;0;0;0;0;0;0;0;0;0;0;0;0;0;0;0;0;0;0;0;0;0;0;0;0;0;0;0;0;0]].
(** :433 *)
Definition unc1i6 : list (list Z) := [
[-95421620000000;-49527330000000;-7082869000000;5383540000000;2031428000000;-932938700000;-457547400000;255007100000;92591890000;-86695310000;-10340810000;30622400000;-5441887000;-9890526000;6605887000;1389622000;-4632172000;2640231000;1126965000;-3303626000;2435692000;480371100;-2879052000;2703187000;-139511700;-2540970000;2955639000;-675721600;0;0;0];
[-49527330000000;-86185310000000;-40081220000000;2612190000000;8543803000000;117904700000;-2133589000000;108654500000;606551500000;-141689400000;-162828600000;92071590000;26793100000;-41870610000;6137380000;13646050000;-8691783000;-2403752000;7401134000;-5449673000;-181492300;6065024000;-8745382000;5746046000;1971424000;-9411250000;10779360000;-4306269000;0;0;0];
[-7082869000000;-40081220000000;-57012970000000;-19174520000000;9111574000000;5764979000000;-2588524000000;-1497230000000;1054840000000;286825300000;-437463700000;23440640000;152831400000;-62972940000;-35395170000;40216950000;-2965002000;-16676570000;10893980000;675356000;-5233645000;4456160000;-3774757000;3445246000;-82635030;-6642839000;11446650000;-8146389000;0;0;0];
[5383540000000;2612190000000;-19174520000000;-29578970000000;-6167927000000;7745365000000;1619528000000;-2706188000000;2783269000;1001497000000;-299152300000;-295465800000;227901600000;29894030000;-107264500000;35835040000;29873290000;-30408320000;-450966300;17216190000;-8433804000;-8529353000;13679450000;-3309989000;-10170680000;12554170000;-1624234000;-11552150000;0;0;0];
[2031428000000;8543803000000;9111574000000;-6167927000000;-15192280000000;-2266969000000;4646543000000;33905770000;-1547974000000;542329700000;416076500000;-406547700000;-4329694000;179344200000;-83307340000;-37967470000;58929980000;-16169990000;-20882390000;25046080000;-6300862000;-14178570000;20093920000;-7757402000;-12270560000;22851540000;-14176390000;-7557231000;0;0;0];
[-932938700000;117904700000;5764979000000;7745365000000;-2266969000000;-8760715000000;-849576700000;2953386000000;-283767600000;-844713100000;479593100000;100937500000;-268335000000;96463030000;71457070000;-81276240000;12838320000;26643850000;-19412490000;1426035000;4061230000;-1858043000;2407815000;-5057985000;3015285000;4530028000;-10282900000;7304604000;0;0;0];
[-457547400000;-2133589000000;-2588524000000;1619528000000;4646543000000;-849576700000;-4919904000000;-59960100000;1842818000000;-402667400000;-448451700000;363409000000;-29679260000;-148114000000;106222600000;8687666000;-58571090000;31005770000;12364990000;-25469640000;8739014000;11805790000;-15690290000;2910911000;11865160000;-15120710000;5228488000;9018503000;0;0;0];
[255007100000;108654500000;-1497230000000;-2706188000000;33905770000;2953386000000;-59960100000;-2763396000000;151093500000;1099078000000;-364376400000;-218239500000;242267200000;-66769310000;-62784810000;74987840000;-20779650000;-20517330000;22964760000;-7882706000;-2942493000;6157031000;-5983647000;3892836000;225694200;-4658179000;6820108000;-5429756000;0;0;0];
[92591890000;606551500000;1054840000000;2783269000;-1547974000000;-283767600000;1842818000000;151093500000;-1599611000000;191762100000;646797000000;-293132800000;-93961530000;157372900000;-68910650000;-22011730000;52457330000;-26343590000;-10546280000;21779830000;-8150420000;-8054207000;11286290000;-3133386000;-6364362000;10042210000;-6542913000;-2208711000;0;0;0];
[-86695310000;-141689400000;286825300000;1001497000000;542329700000;-844713100000;-402667400000;1099078000000;191762100000;-938765100000;162496800000;373422000000;-213863400000;-30904470000;93677700000;-52010360000;39760600;23712910000;-18749040000;3851724000;5026118000;-5314477000;2358564000;-991919900;1788289000;-1567604000;-2593773000;8460987000;0;0;0];
[-10340810000;-162828600000;-437463700000;-299152300000;416076500000;479593100000;-448451700000;-364376400000;646797000000;162496800000;-562282700000;125343300000;213014700000;-152045800000;2247145000;56054830000;-42994190000;9138489000;15203050000;-18017440000;6053650000;5657047000;-8996160000;5360014000;1299544000;-7814060000;9978724000;-3788676000;0;0;0];
[30622400000;92071590000;23440640000;-295465800000;-406547700000;100937500000;363409000000;-218239500000;-293132800000;373422000000;125343300000;-341797900000;88401640000;123171800000;-101589400000;10022570000;31554900000;-26207760000;7446084000;5673560000;-7820624000;2282225000;3076477000;-2132571000;-3815678000;6953912000;-1413363000;-8958477000;0;0;0];
[-5441887000;26793100000;152831400000;227901600000;-4329694000;-268335000000;-29679260000;242267200000;-93961530000;-213863400000;213014700000;88401640000;-207738600000;63417420000;66894300000;-67224340000;16500280000;14464570000;-18454820000;10147360000;-1027627000;-4097865000;5888368000;-5776715000;2527875000;4332871000;-9980339000;7586139000;0;0;0];
[-9890526000;-41870610000;-62972940000;29894030000;179344200000;96463030000;-148114000000;-66769310000;157372900000;-30904470000;-152045800000;123171800000;63417420000;-131321300000;43850050000;39932760000;-45499500000;13831680000;8915504000;-13656710000;7750891000;1445573000;-7318633000;5116188000;3160525000;-8894309000;5214386000;5146684000;0;0;0];
[6605887000;6137380000;-35395170000;-107264500000;-83307340000;71457070000;106222600000;-62784810000;-68910650000;93677700000;2247145000;-101589400000;66894300000;43850050000;-79752860000;28600510000;21470590000;-27422080000;9805071000;3605550000;-5269863000;1548465000;-261311900;2858999000;-4345517000;478835800;6043191000;-8173523000;0;0;0];
[1389622000;13646050000;40216950000;35835040000;-37967470000;-81276240000;8687666000;74987840000;-22011730000;-52010360000;56054830000;10022570000;-67224340000;39932760000;28600510000;-51233410000;21418180000;10551720000;-18058510000;10573090000;-1965169000;-4139039000;7389929000;-5686554000;-852399400;6952242000;-6711875000;88184210;0;0;0];
[-4632172000;-8691783000;-2965002000;29873290000;58929980000;12838320000;-58571090000;-20779650000;52457330000;39760600;-42994190000;31554900000;16500280000;-45499500000;21470590000;21418180000;-33998190000;14149120000;8317842000;-14196520000;6300972000;3270084000;-5839814000;1276937000;4052524000;-4212207000;-648254400;5274290000;0;0;0];
[2640231000;-2403752000;-16676570000;-30408320000;-16169990000;26643850000;31005770000;-20517330000;-26343590000;23712910000;9138489000;-26207760000;14464570000;13831680000;-27422080000;10551720000;14149120000;-19481150000;7420610000;3416719000;-4727477000;2131386000;-1711769000;2551350000;-1162627000;-2344317000;4484562000;-2922616000;0;0;0];
[1126965000;7401134000;10893980000;-450966300;-20882390000;-19412490000;12364990000;22964760000;-10546280000;-18749040000;15203050000;7446084000;-18454820000;8915504000;9805071000;-18058510000;8317842000;7420610000;-14228210000;9395266000;24067310;-6483813000;6750213000;-2229237000;-2836234000;4591135000;-2360177000;-1362580000;0;0;0];
[-3303626000;-5449673000;675356000;17216190000;25046080000;1426035000;-25469640000;-7882706000;21779830000;3851724000;-18017440000;5673560000;10147360000;-13656710000;3605550000;10573090000;-14196520000;3416719000;9395266000;-11373920000;3363473000;4352960000;-5020534000;712572600;2679421000;-2207734000;-549381400;2487154000;0;0;0];
[2435692000;-181492300;-5233645000;-8433804000;-6300862000;4061230000;8739014000;-2942493000;-8150420000;5026118000;6053650000;-7820624000;-1027627000;7750891000;-5269863000;-1965169000;6300972000;-4727477000;24067310;3363473000;-3656154000;2137848000;-631045800;-255732600;795765800;-1170519000;1199154000;-698543600;0;0;0];
[480371100;6065024000;4456160000;-8529353000;-14178570000;-1858043000;11805790000;6157031000;-8054207000;-5314477000;5657047000;2282225000;-4097865000;1445573000;1548465000;-4139039000;3270084000;2131386000;-6483813000;4352960000;2137848000;-6290669000;4738527000;-54195040;-3212946000;3081028000;-846115100;-1182727000;0;0;0];
[-2879052000;-8745382000;-3774757000;13679450000;20093920000;2407815000;-15690290000;-5983647000;11286290000;2358564000;-8996160000;3076477000;5888368000;-7318633000;-261311900;7389929000;-5839814000;-1711769000;6750213000;-5020534000;-631045800;4738527000;-4434709000;1013854000;2150987000;-2731124000;962917700;1195258000;0;0;0];
[2703187000;5746046000;3445246000;-3309989000;-7757402000;-5057985000;2910911000;3892836000;-3133386000;-991919900;5360014000;-2132571000;-5776715000;5116188000;2858999000;-5686554000;1276937000;2551350000;-2229237000;712572600;-255732600;-54195040;1013854000;-1614980000;901179200;434384000;-976852200;335210800;0;0;0];
[-139511700;1971424000;-82635030;-10170680000;-12270560000;3015285000;11865160000;225694200;-6364362000;1788289000;1299544000;-3815678000;2527875000;3160525000;-4345517000;-852399400;4052524000;-1162627000;-2836234000;2679421000;795765800;-3212946000;2150987000;901179200;-2849465000;2213026000;-72135940;-1515046000;0;0;0];
[-2540970000;-9411250000;-6642839000;12554170000;22851540000;4530028000;-15120710000;-4658179000;10042210000;-1567604000;-7814060000;6953912000;4332871000;-8894309000;478835800;6952242000;-4212207000;-2344317000;4591135000;-2207734000;-1170519000;3081028000;-2731124000;434384000;2213026000;-3125030000;1592562000;970985300;0;0;0];
[2955639000;10779360000;11446650000;-1624234000;-14176390000;-10282900000;5228488000;6820108000;-6542913000;-2593773000;9978724000;-1413363000;-9980339000;5214386000;6043191000;-6711875000;-648254400;4484562000;-2360177000;-549381400;1199154000;-846115100;962917700;-976852200;-72135940;1592562000;-2009799000;725917900;0;0;0];
[-675721600;-4306269000;-8146389000;-11552150000;-7557231000;7304604000;9018503000;-5429756000;-2208711000;8460987000;-3788676000;-8958477000;7586139000;5146684000;-8173523000;88184210;5274290000;-2922616000;-1362580000;2487154000;-698543600;-1182727000;1195258000;335210800;-1515046000;970985300;725917900;-1798802000;0;0;0];
[0;0;0;0;0;0;0;0;0;0;0;0;0;0;0;0;0;0;0;0;0;0;0;0;0;0;0;0;0;0;0];
[0;0;0;0;0;0;0;0;0;0;0;0;0;0;0;0;0;0;0;0;0;0;0;0;0;0;0;0;0;0;0];
[0;0;0;0;0;0;0;0;0;0;0;0;0;0;0;0;0;0;0;0;0;0;0;0;0;0;0;0;0;0;0]].
(** :466 *)
Definition unc3i6 : list (list Z) := [
[-533733000000000;-288861800000000;-42885230000000;35018260000000;14564450000000;-6020441000000;-3650269000000;1643945000000;850258200000;-595438900000;-146597900000;229910900000;-17113990000;-80503370000;41764000000;15285740000;-31541030000;14554740000;9512241000;-21300390000;14227800000;4687368000;-19617250000;17760400000;-249546500;-18129450000;21231830000;-5511245000;0;0;0];
[-288861800000000;-489310400000000;-228068700000000;22660310000000;57732190000000;1699356000000;-15382280000000;-76519580000;4602775000000;-671694100000;-1357284000000;575425200000;294693300000;-305504500000;7082908000;115559800000;-56826920000;-24418110000;51168660000;-33465680000;-1490365000;36177920000;-53992990000;38739100000;8472717000;-59130430000;73602350000;-34054650000;0;0;0];
[-42885230000000;-228068700000000;-312059000000000;-93303440000000;66833380000000;38432630000000;-18666100000000;-11773850000000;7311070000000;2824329000000;-3154955000000;-178795000000;1214307000000;-352959700000;-339893500000;286004100000;13153770000;-132835800000;67725780000;17058480000;-36622190000;19370600000;-15043910000;25215500000;-15138530000;-30607320000;78265130000;-73159620000;0;0;0];
[35018260000000;22660310000000;-93303440000000;-142905100000000;-13670350000000;54209870000000;7699986000000;-20444130000000;-468943800000;7771175000000;-1669266000000;-2527609000000;1507177000000;446251700000;-806953200000;175161700000;270826800000;-216016800000;-25935540000;137062900000;-62296810000;-65279940000;104419500000;-27150850000;-78965470000;104226000000;-20240870000;-94649430000;0;0;0];
[14564450000000;57732190000000;66833380000000;-13670350000000;-62612150000000;1432836000000;28831790000000;-3749507000000;-11465910000000;4220208000000;3554572000000;-2923872000000;-390876400000;1390392000000;-463659200000;-376007700000;413420500000;-70387460000;-165416100000;169470600000;-40637230000;-92223090000;138804400000;-68536410000;-68625930000;162654800000;-124971600000;-29767060000;0;0;0];
[-6020441000000;1699356000000;38432630000000;54209870000000;1432836000000;-35296730000000;2009745000000;16013710000000;-4628260000000;-5654939000000;3895022000000;984485400000;-2092802000000;507469100000;663765200000;-549573000000;2560311000;224616800000;-116349000000;-21937970000;37486890000;3560846000;-1872387000;-40165230000;49438800000;10042690000;-87406190000;97041840000;0;0;0];
[-3650269000000;-15382280000000;-18666100000000;7699986000000;28831790000000;2009745000000;-20014070000000;2774814000000;9055858000000;-4172486000000;-2576315000000;2920605000000;-150183100000;-1235365000000;701213800000;185210900000;-437915400000;175773700000;117162700000;-182168000000;59366710000;85205500000;-122915300000;37873210000;84468040000;-133210500000;61640510000;75070350000;0;0;0];
[1643945000000;-76519580000;-11773850000000;-20444130000000;-3749507000000;16013710000000;2774814000000;-11377470000000;2134483000000;4970022000000;-3060741000000;-966743800000;1876138000000;-510521100000;-574654500000;544836300000;-61311750000;-192410500000;138070000000;-15190100000;-27474200000;18194890000;-24115680000;43746760000;-30349390000;-28936410000;85286890000;-76517060000;0;0;0];
[850258200000;4602775000000;7311070000000;-468943800000;-11465910000000;-4628260000000;9055858000000;2134483000000;-6769611000000;1592617000000;2784617000000;-2126412000000;-243035100000;1142886000000;-541598900000;-219593100000;400700600000;-152064400000;-106615400000;160681500000;-53189990000;-69146240000;99542120000;-30390730000;-65753940000;102441900000;-46933720000;-56703260000;0;0;0];
[-595438900000;-671694100000;2824329000000;7771175000000;4220208000000;-5654939000000;-4172486000000;4970022000000;1592617000000;-4034855000000;1114661000000;1547930000000;-1405563000000;45451760000;641257500000;-408127400000;-39458960000;201562200000;-106579400000;-10740870000;35068920000;-10110980000;6949267000;-29581100000;33370990000;5540475000;-57573620000;70032360000;0;0;0];
[-146597900000;-1357284000000;-3154955000000;-1669266000000;3554572000000;3895022000000;-2576315000000;-3060741000000;2784617000000;1114661000000;-2454244000000;775124600000;855126600000;-924039100000;163715000000;348427000000;-323046000000;57769780000;125283500000;-131583300000;35117810000;56354540000;-79522970000;33003010000;38091520000;-76230440000;50921950000;19498460000;0;0;0];
[229910900000;575425200000;-178795000000;-2527609000000;-2923872000000;984485400000;2920605000000;-966743800000;-2126412000000;1547930000000;775124600000;-1515092000000;519396100000;489638400000;-590936600000;145845200000;191106900000;-195111100000;37831230000;61641160000;-46377620000;-8155293000;22897250000;8312891000;-37241920000;24341520000;21934400000;-57701640000;0;0;0];
[-17113990000;294693300000;1214307000000;1507177000000;-390876400000;-2092802000000;-150183100000;1876138000000;-243035100000;-1405563000000;855126600000;519396100000;-927944900000;353637200000;252525000000;-366853400000;147013800000;67346640000;-127466000000;76860440000;-4364018000;-41585210000;51292920000;-29772800000;-9591698000;43095730000;-46440430000;13845850000;0;0;0];
[-80503370000;-305504500000;-352959700000;446251700000;1390392000000;507469100000;-1235365000000;-510521100000;1142886000000;45451760000;-924039100000;489638400000;353637200000;-600735100000;246611000000;153643300000;-252374000000;109697200000;51695840000;-97665900000;42709960000;26607550000;-45676070000;12695720000;29680380000;-39660850000;9884774000;31906140000;0;0;0];
[41764000000;7082908000;-339893500000;-806953200000;-463659200000;663765200000;701213800000;-574654500000;-541598900000;641257500000;163715000000;-590936600000;252525000000;246611000000;-365765500000;148234200000;80017100000;-136203100000;67481270000;6112833000;-28761060000;19282150000;-11684750000;13127610000;-9490876000;-7254305000;25950030000;-27947790000;0;0;0];
[15285740000;115559800000;286004100000;175161700000;-376007700000;-549573000000;185210900000;544836300000;-219593100000;-408127400000;348427000000;145845200000;-366853400000;153643300000;148234200000;-238398300000;121924800000;31346120000;-99386770000;74344080000;-11212230000;-36367940000;44692570000;-19856900000;-14375330000;32861720000;-24182490000;-3172617000;0;0;0];
[-31541030000;-56826920000;13153770000;270826800000;413420500000;2560311000;-437915400000;-61311750000;400700600000;-39458960000;-323046000000;191106900000;147013800000;-252374000000;80017100000;121924800000;-165180100000;69921940000;36514080000;-68629160000;33610670000;12072750000;-26012620000;7897154000;14776830000;-17955700000;469574600;19794930000;0;0;0];
[14554740000;-24418110000;-132835800000;-216016800000;-70387460000;224616800000;175773700000;-192410500000;-152064400000;201562200000;57769780000;-195111100000;67346640000;109697200000;-136203100000;31346120000;69921940000;-87706100000;43328800000;4372267000;-24186010000;21817100000;-13679740000;6602525000;1291805000;-10399390000;15637450000;-11603730000;0;0;0];
[9512241000;51168660000;67725780000;-25935540000;-165416100000;-116349000000;117162700000;138070000000;-106615400000;-106579400000;125283500000;37831230000;-127466000000;51695840000;67481270000;-99386770000;36514080000;43328800000;-74097120000;48357720000;-333549700;-32489770000;34031500000;-12332480000;-12232760000;22407500000;-14076340000;-3711211000;0;0;0];
[-21300390000;-33465680000;17058480000;137062900000;169470600000;-21937970000;-182168000000;-15190100000;160681500000;-10740870000;-131583300000;61641160000;76860440000;-97665900000;6112833000;74344080000;-68629160000;4372267000;48357720000;-51218900000;17846220000;14780920000;-22748360000;8950001000;7873358000;-12326840000;3227880000;9132028000;0;0;0];
[14227800000;-1490365000;-36622190000;-62296810000;-40637230000;37486890000;59366710000;-27474200000;-53189990000;35068920000;35117810000;-46377620000;-4364018000;42709960000;-28761060000;-11212230000;33610670000;-24186010000;-333549700;17846220000;-20107720000;12590080000;-3939433000;-1664219000;4597993000;-6124254000;6115336000;-3749592000;0;0;0];
[4687368000;36177920000;19370600000;-65279940000;-92223090000;3560846000;85205500000;18194890000;-69146240000;-10110980000;56354540000;-8155293000;-41585210000;26607550000;19282150000;-36367940000;12072750000;21817100000;-32489770000;14780920000;12590080000;-27854430000;22703820000;-4599526000;-12054190000;16919600000;-9442831000;-2910369000;0;0;0];
[-19617250000;-53992990000;-15043910000;104419500000;138804400000;-1872387000;-122915300000;-24115680000;99542120000;6949267000;-79522970000;22897250000;51292920000;-45676070000;-11684750000;44692570000;-26012620000;-13679740000;34031500000;-22748360000;-3939433000;22703820000;-22121220000;7242122000;8269646000;-13559040000;7281792000;3569806000;0;0;0];
[17760400000;38739100000;25215500000;-27150850000;-68536410000;-40165230000;37873210000;43746760000;-30390730000;-29581100000;33003010000;8312891000;-29772800000;12695720000;13127610000;-19856900000;7897154000;6602525000;-12332480000;8950001000;-1664219000;-4599526000;7242122000;-5998738000;2506756000;707692400;-1813420000;800402400;0;0;0];
[-249546500;8472717000;-15138530000;-78965470000;-68625930000;49438800000;84468040000;-30349390000;-65753940000;33370990000;38091520000;-37241920000;-9591698000;29680380000;-9490876000;-14375330000;14776830000;1291805000;-12232760000;7873358000;4597993000;-12054190000;8269646000;2506756000;-11098340000;11380230000;-4247734000;-4318972000;0;0;0];
[-18129450000;-59130430000;-30607320000;104226000000;162654800000;10042690000;-133210500000;-28936410000;102441900000;5540475000;-76230440000;24341520000;43095730000;-39660850000;-7254305000;32861720000;-17955700000;-10399390000;22407500000;-12326840000;-6124254000;16919600000;-13559040000;707692400;11380230000;-14566600000;7852016000;2978431000;0;0;0];
[21231830000;73602350000;78265130000;-20240870000;-124971600000;-87406190000;61640510000;85286890000;-46933720000;-57573620000;50921950000;21934400000;-46440430000;9884774000;25950030000;-24182490000;469574600;15637450000;-14076340000;3227880000;6115336000;-9442831000;7281792000;-1813420000;-4247734000;7852016000;-6897833000;1924822000;0;0;0];
[-5511245000;-34054650000;-73159620000;-94649430000;-29767060000;97041840000;75070350000;-76517060000;-56703260000;70032360000;19498460000;-57701640000;13845850000;31906140000;-27947790000;-3172617000;19794930000;-11603730000;-3711211000;9132028000;-3749592000;-2910369000;3569806000;800402400;-4318972000;2978431000;1924822000;-5797091000;0;0;0];
[0;0;0;0;0;0;0;0;0;0;0;0;0;0;0;0;0;0;0;0;0;0;0;0;0;0;0;0;0;0;0];
[0;0;0;0;0;0;0;0;0;0;0;0;0;0;0;0;0;0;0;0;0;0;0;0;0;0;0;0;0;0;0];
[0;0;0;0;0;0;0;0;0;0;0;0;0;0;0;0;0;0;0;0;0;0;0;0;0;0;0;0;0;0;0]].
(** :499 *)
Definition coup3sd : list (list Z) := [
[-15799870000000000;-5931245000000000;1373983000000000;1560674000000000;512745800000000;-224921800000000;-86923630000000;52925510000000;6976211000000;-12725920000000;2791465000000;1604779000000;-1413556000000;456723400000;70699670000;-233434200000;199961500000;-74744220000;-51160340000;109491500000;-83100790000;6986302000;60337410000;-76790720000;41994610000;9370957000;-38928530000;33904770000;-11480160000;-1689436000;-5714695000;-8508007000000000;-5718761000000000;-1492383000000000;343151800000000;270485500000000;-37394930000000;-42535150000000;11692940000000;4929015000000;-3829849000000;623298300000;675057100000;-668728600000;230411500000;129766000000;-259817600000;205814100000;-51278920000;-117785000000;210520700000;-174746800000;40900010000;99338620000;-164737000000;138314800000;-61919870000;-10152480000;51351220000;-67898920000;76328500000;0];
[-5931245000000000;-9559639000000000;-3224257000000000;786432700000000;1321873000000000;215249200000000;-259406600000000;-51257730000000;64585540000000;3132966000000;-16730090000000;3182233000000;3412144000000;-1811443000000;-281924300000;518707100000;-121118900000;553359600;-69606810000;43952860000;102752500000;-222765700000;197851100000;-31739350000;-170245800000;278527900000;-224732500000;47067260000;136829300000;-214006400000;155551300000;-1755504000000000;-4751165000000000;-3537247000000000;-767961300000000;530440500000000;304676700000000;-77919100000000;-75298720000000;19482520000000;16506170000000;-6715917000000;-2901212000000;2113030000000;367360600000;-615636800000;-78098180000;336531500000;-95055700000;-198243100000;254817900000;-81171880000;-136635800000;213642100000;-108401000000;-62776480000;143850700000;-79860900000;-45274930000;99159150000;-28172970000;0];
[1373983000000000;-3224257000000000;-3407443000000000;-724646400000000;1355553000000000;1042535000000000;-43147310000000;-266018400000000;21540220000000;74020570000000;-21939840000000;-18679840000000;12876190000000;2243391000000;-5173636000000;1098619000000;1314642000000;-786890100000;-233678700000;371923600000;44941250000;-336801900000;273075300000;4910798000;-277170900000;381189300000;-248667700000;-56945620000;344668400000;-407148500000;182937100000;152059700000000;-1634720000000000;-3431098000000000;-2170465000000000;186706900000000;914284200000000;222505900000000;-245266800000000;-86315480000000;76688860000000;20357960000000;-27341700000000;-982738300000;9267217000000;-2439091000000;-2387164000000;1769949000000;209537200000;-885956200000;384845300000;323159300000;-625195900000;384009900000;193966600000;-679018500000;668287900000;-111597900000;-584683800000;847161900000;-417761400000;0];
[1560674000000000;786432700000000;-724646400000000;-1023644000000000;393118200000000;1247292000000000;597696000000000;-167396600000000;-140613700000000;74403610000000;21455230000000;-39884190000000;6231216000000;15664010000000;-8894396000000;-3192779000000;5128527000000;-947929500000;-1655671000000;1179139000000;47823050000;-457756900000;236235700000;-4043373000;-84088320000;151305300000;-175712900000;13220830000;300149000000;-471388000000;239290300000;401742500000000;355532400000000;-736242800000000;-1414510000000000;-88621790000000;1280471000000000;863368200000000;-212046500000000;-360049800000000;56121760000000;125923300000000;-35652620000000;-38261940000000;22615510000000;7119427000000;-10938960000000;1640881000000;3543330000000;-2446673000000;-71294210000;1154124000000;-999029300000;439115000000;264237000000;-977890200000;1209529000000;-483359500000;-932658400000;1944581000000;-1489974000000;0];
[512745800000000;1321873000000000;1355553000000000;393118200000000;25554630000000;655852300000000;924876000000000;369066300000000;-89263340000000;-57279690000000;16253180000000;-19775750000000;-3396310000000;21156230000000;-5377628000000;-10168990000000;6890174000000;1936830000000;-4000762000000;1015322000000;1107060000000;-768143300000;-128972700000;150491100000;279770500000;-225855600000;-321566200000;572016900000;-71789920000;-676934000000;788132800000;84387180000000;636715800000000;1164538000000000;1149533000000000;1206107000000000;1741742000000000;1449181000000000;137042900000000;-573581600000000;-157433300000000;218681700000000;45447040000000;-91455010000000;3681598000000;34556390000000;-13555960000000;-8316819000000;9038515000000;-926561000000;-3053968000000;1778607000000;228283500000;-393077900000;-367006100000;240342200000;958892500000;-1683602000000;551759800000;1877325000000;-3309044000000;0];
[-224921800000000;215249200000000;1042535000000000;1247292000000000;655852300000000;367801500000000;731272600000000;819919000000000;322609000000000;-91850250000000;-112745800000000;-19524290000000;20155710000000;21562630000000;-4246757000000;-13949760000000;4797074000000;6302041000000;-4782797000000;-1228165000000;2866193000000;-572579700000;-1220730000000;624528700000;783317000000;-866010900000;-483226800000;1494834000000;-761448900000;-1069657000000;1984759000000;1238210000000;364197700000000;1399587000000000;2636606000000000;3197183000000000;2909337000000000;2026866000000000;602549700000000;-510237600000000;-441135300000000;137013400000000;182582700000000;-72418660000000;-59914160000000;45306530000000;9385832000000;-22466690000000;5920087000000;6943640000000;-6313310000000;80273880000;3372254000000;-2083955000000;-1172756000000;2728788000000;-1030785000000;-2242897000000;3649616000000;-1211702000000;-3331978000000;0];
[-86923630000000;-259406600000000;-43147310000000;597696000000000;924876000000000;731272600000000;672098300000000;878501200000000;708006300000000;132133200000000;-201869600000000;-112889500000000;35879480000000;44919110000000;-3958120000000;-18932340000000;1041752000000;9435772000000;-2745958000000;-4079269000000;3318237000000;624833100000;-2435727000000;1072014000000;1264057000000;-1876341000000;76782130000;2108159000000;-2012112000000;-627338300000;3082145000000;31609580000000;142849400000000;733282500000000;2052031000000000;3447191000000000;3785056000000000;2782244000000000;1166657000000000;-189177600000000;-572638500000000;-113277800000000;221109500000000;48754170000000;-96776370000000;482280900000;39951060000000;-15080490000000;-10153190000000;11567280000000;-2387554000000;-3510218000000;4042538000000;-2087623000000;-632643900000;3103348000000;-3435122000000;390443100000;4079873000000;-5563758000000;1510810000000;0];
[52925510000000;-51257730000000;-266018400000000;-167396600000000;369066300000000;819919000000000;878501200000000;833668400000000;756222500000000;383498100000000;-84146880000000;-198319500000000;-27600160000000;66693380000000;18739490000000;-22954080000000;-7825685000000;9865033000000;1999765000000;-4994439000000;1073430000000;1710815000000;-1894917000000;905116300000;725980000000;-2094692000000;1474759000000;1177803000000;-3084725000000;1591227000000;2233397000000;7227402000000;1843682000000;71158150000000;578913500000000;1725295000000000;2865633000000000;2944950000000000;1800114000000000;353552200000000;-452855900000000;-352980300000000;83603140000000;159594300000000;-36872340000000;-62185920000000;29738140000000;16768540000000;-18723150000000;916973900000;7168165000000;-3329859000000;-1381368000000;972455400000;1585451000000;-1168597000000;-2479233000000;4575209000000;-1269150000000;-5121447000000;7732730000000;0];
[6976211000000;64585540000000;21540220000000;-140613700000000;-89263340000000;322609000000000;708006300000000;756222500000000;621754500000000;425381300000000;112314400000000;-137222800000000;-113184900000000;26917990000000;50014800000000;-6220427000000;-19666280000000;2902861000000;7847928000000;-2106773000000;-2986075000000;1225979000000;1076625000000;-96726820000;-1234902000000;-85612950000;2241935000000;-1586679000000;-1795647000000;3750302000000;-1304156000000;-15274240000000;-53354220000000;-172798900000000;-299459500000000;-55973640000000;811859300000000;1764697000000000;1851977000000000;946963100000000;-63517710000000;-405609100000000;-133334000000000;136865400000000;69654080000000;-60890810000000;-20220400000000;31365700000000;-2238087000000;-13099840000000;7857647000000;2069551000000;-6042413000000;3137319000000;2423032000000;-5162171000000;2093596000000;4148535000000;-6853710000000;1971180000000;6573443000000;0];
[-12725920000000;3132966000000;74020570000000;74403610000000;-57279690000000;-91850250000000;132133200000000;383498100000000;425381300000000;332069400000000;192496700000000;4341244000000;-105350200000000;-46067150000000;38475580000000;25090900000000;-15736260000000;-10283100000000;7981081000000;3618694000000;-4959004000000;-613948900000;3537959000000;-1169807000000;-2434275000000;2592338000000;812202200000;-3439009000000;1758628000000;2507323000000;-4246625000000;-2024231000000;-16082060000000;-75939180000000;-260059300000000;-511521600000000;-466719100000000;150829300000000;914610000000000;1031826000000000;420721600000000;-182248000000000;-256393400000000;-6876223000000;106681700000000;9228694000000;-45889120000000;4150873000000;17813080000000;-7961031000000;-3339544000000;4197557000000;-1448499000000;829765700000;-553303800000;-1992035000000;4350160000000;-2072599000000;-4117024000000;7433122000000;-2709515000000;0];
[2791465000000;-16730090000000;-21939840000000;21455230000000;16253180000000;-112745800000000;-201869600000000;-84146880000000;112314400000000;192496700000000;162769600000000;82256880000000;-22748540000000;-63583430000000;-10522990000000;29878520000000;6758942000000;-13502500000000;-1325978000000;5915874000000;-1277212000000;-1785493000000;1814062000000;-919282600000;-693690700000;2249728000000;-1553707000000;-1441770000000;3338217000000;-1374666000000;-2607708000000;5667017000000;19023410000000;44532650000000;42409570000000;-100106800000000;-386800900000000;-507575200000000;-155036300000000;402092600000000;542168400000000;176006000000000;-160001800000000;-136479400000000;34609020000000;63659250000000;-13746340000000;-26572320000000;11198170000000;8722222000000;-8467568000000;-738114500000;5259898000000;-2247727000000;-3128590000000;4164240000000;670283400000;-5674921000000;4108534000000;3360720000000;-8415765000000;0];
[1604779000000;3182233000000;-18679840000000;-39884190000000;-19775750000000;-19524290000000;-112889500000000;-198319500000000;-137222800000000;4341244000000;82256880000000;79845330000000;35780600000000;-21177610000000;-34330550000000;1681372000000;18497720000000;-121413400000;-8777713000000;717884800000;4043198000000;-662837000000;-2207227000000;476137200000;1865988000000;-890796100000;-1784257000000;2047606000000;743348700000;-2952589000000;1559371000000;-403965800000;5189507000000;28467970000000;85739150000000;140210100000000;60551280000000;-203883800000000;-400988400000000;-224886000000000;166689900000000;294436200000000;73006880000000;-114133900000000;-64987170000000;39159310000000;31103120000000;-17915040000000;-10723620000000;9864377000000;714444600000;-3668341000000;2256043000000;-1342441000000;-349883200000;3292515000000;-3645734000000;-871283400000;5859816000000;-4698820000000;-2631710000000;0];
[-1413556000000;3412144000000;12876190000000;6231216000000;-3396310000000;20155710000000;35879480000000;-27600160000000;-113184900000000;-105350200000000;-22748540000000;35780600000000;42044000000000;16421440000000;-15853660000000;-17779920000000;5581984000000;10265830000000;-3582656000000;-4637306000000;3134243000000;1235704000000;-2564382000000;890033300000;1486355000000;-2121423000000;210462900000;2129826000000;-1988337000000;-634224400000;2619208000000;-1794867000000;-7918797000000;-18573240000000;-18855910000000;27189780000000;111876200000000;114135600000000;-59950970000000;-246002600000000;-179403100000000;70184130000000;163083700000000;28777300000000;-73449690000000;-27748290000000;30339470000000;13234800000000;-14391880000000;-4165634000000;7655147000000;188886100000;-4395214000000;1209193000000;3222891000000;-2610402000000;-2256378000000;4752669000000;-891948100000;-5114318000000;5675113000000;0];
[456723400000;-1811443000000;2243391000000;15664010000000;21156230000000;21562630000000;44919110000000;66693380000000;26917990000000;-46067150000000;-63583430000000;-21177610000000;16421440000000;22261330000000;7383619000000;-9922658000000;-8546073000000;4403207000000;4923633000000;-2335784000000;-2122040000000;1044127000000;922856800000;-153278400000;-912250400000;-30214800000;1316639000000;-624886200000;-1228040000000;1595559000000;148059300000;666356900000;-198922800000;-7702556000000;-28043060000000;-48992340000000;-23656340000000;66535880000000;121669300000000;25749780000000;-128160800000000;-122610300000000;29009620000000;92345920000000;10287650000000;-45162120000000;-9506620000000;20338770000000;3008741000000;-9120458000000;1129226000000;2991955000000;-2336496000000;1082987000000;932984200000;-3113218000000;2148233000000;2191369000000;-4828041000000;1710907000000;4174624000000;0];
[70699670000;-281924300000;-5173636000000;-8894396000000;-5377628000000;-4246757000000;-3958120000000;18739490000000;50014800000000;38475580000000;-10522990000000;-34330550000000;-15853660000000;7383619000000;12665780000000;3608300000000;-6681853000000;-4221519000000;3996428000000;2337765000000;-2872748000000;-599793300000;2122642000000;-608386200000;-1345100000000;1368897000000;350380400000;-1560356000000;749133300000;988741400000;-1445676000000;368530700000;3095714000000;9348716000000;13996940000000;2238987000000;-27908270000000;-33503540000000;26563180000000;90556130000000;48630730000000;-60936180000000;-77700490000000;11763070000000;52937700000000;3221573000000;-26984700000000;-2754632000000;12737630000000;662462600000;-6196733000000;306176900000;3534093000000;-677821500000;-2827657000000;1555814000000;2450322000000;-3307562000000;-582003300000;4356121000000;-3000238000000;0];
[-233434200000;518707100000;1098619000000;-3192779000000;-10168990000000;-13949760000000;-18932340000000;-22954080000000;-6220427000000;25090900000000;29878520000000;1681372000000;-17779920000000;-9922658000000;3608300000000;6667830000000;1493234000000;-3518908000000;-1736743000000;1880067000000;856563600000;-834716900000;-311592200000;93119030000;350953200000;200396600000;-678827300000;32688810000;836382000000;-575423200000;-514590200000;-363502700000;-980206500000;74041960000;6740048000000;17645190000000;15730900000000;-13154540000000;-37440050000000;-5920166000000;52463550000000;44500790000000;-26165880000000;-47273430000000;4889222000000;30427060000000;-298785900000;-15618310000000;1133550000000;6919776000000;-2058859000000;-2137152000000;2101336000000;-772011800000;-1033160000000;2365442000000;-1083669000000;-2112431000000;3235058000000;-322688500000;-3424056000000;0];
[199961500000;-121118900000;1314642000000;5128527000000;6890174000000;4797074000000;1041752000000;-7825685000000;-19666280000000;-15736260000000;6758942000000;18497720000000;5581984000000;-8546073000000;-6681853000000;1493234000000;4254086000000;837156500000;-2683831000000;-843708200000;1939179000000;217329500000;-1440702000000;375980500000;957875500000;-779592000000;-414360700000;932151200000;-172301200000;-756474200000;642691000000;40533730000;-863851100000;-3980173000000;-8419847000000;-7917653000000;2880314000000;11500520000000;-3986867000000;-29536440000000;-18158970000000;25597850000000;33032240000000;-9391555000000;-28415650000000;1208514000000;17824060000000;-269716500000;-9432022000000;602392700000;4728643000000;-555811500000;-2762988000000;526854800000;2261780000000;-1099225000000;-1960815000000;2296447000000;683584500000;-3046021000000;1701761000000;0];
[-74744220000;553359600;-786890100000;-947929500000;1936830000000;6302041000000;9435772000000;9865033000000;2902861000000;-10283100000000;-13502500000000;-121413400000;10265830000000;4403207000000;-4221519000000;-3518908000000;837156500000;1914126000000;253670400000;-1008582000000;-279389800000;477550000000;112081300000;-80063740000;-120144600000;-134586500000;286078400000;101812200000;-436037100000;129202100000;415368700000;84585600000;809588400000;1841870000000;905476200000;-3948527000000;-7831361000000;-1154143000000;10782270000000;5267343000000;-16889530000000;-18098500000000;10419000000000;21543520000000;-2992337000000;-16490870000000;889518600000;9956164000000;-1504360000000;-4746681000000;1910768000000;1413429000000;-1637993000000;563096700000;787527600000;-1593328000000;608196200000;1459261000000;-2008661000000;58770950000;2164754000000;0];
[-51160340000;-69606810000;-233678700000;-1655671000000;-4000762000000;-4782797000000;-2745958000000;1999765000000;7847928000000;7981081000000;-1325978000000;-8777713000000;-3582656000000;4923633000000;3996428000000;-1736743000000;-2683831000000;253670400000;1637711000000;162716000000;-1161427000000;-45687590000;895445700000;-219905400000;-633688100000;439331500000;339505800000;-552331700000;-15063210000;521244400000;-306112900000;-43554350000;-48556260000;765502100000;3188051000000;5464838000000;3304670000000;-2351771000000;-1475717000000;8109762000000;8808192000000;-7106764000000;-14392780000000;2103197000000;13750670000000;707557600000;-10125680000000;-664293400000;6471737000000;-157428000000;-3722555000000;456911200000;2279404000000;-556024300000;-1761991000000;1000984000000;1326229000000;-1728586000000;-268149500000;1953379000000;-1246805000000;0];
[109491500000;43952860000;371923600000;1179139000000;1015322000000;-1228165000000;-4079269000000;-4994439000000;-2106773000000;3618694000000;5915874000000;717884800000;-4637306000000;-2335784000000;2337765000000;1880067000000;-843708200000;-1008582000000;162716000000;452273500000;63607480000;-207118100000;-65605000000;54726420000;53005220000;57204050000;-111866800000;-82514140000;207060100000;-7566695000;-251213200000;2146217000;-345419800000;-1328683000000;-2247614000000;-1191240000000;1906903000000;2541615000000;-1729241000000;-3190750000000;3822116000000;7340166000000;-2204381000000;-8908839000000;124356300000;7534016000000;284797600000;-5173279000000;417332200000;2870052000000;-1059336000000;-927192400000;1006276000000;-344229200000;-425326100000;916021300000;-421137200000;-741334200000;1136990000000;-150788100000;-1076741000000;0];
[-83100790000;102752500000;44941250000;47823050000;1107060000000;2866193000000;3318237000000;1073430000000;-2986075000000;-4959004000000;-1277212000000;4043198000000;3134243000000;-2122040000000;-2872748000000;856563600000;1939179000000;-279389800000;-1161427000000;63607480000;737618400000;-31446500000;-558997600000;132020300000;428429700000;-269320000000;-262326600000;370622600000;44073490000;-379186700000;208771700000;-12014080000;264537300000;606024200000;104113000000;-1655646000000;-2845644000000;-1210803000000;838263000000;-1369169000000;-4146528000000;418344300000;6318515000000;1462229000000;-6359552000000;-2215204000000;5326690000000;1700787000000;-4112937000000;-695628300000;2971984000000;-134384700000;-2019866000000;598198400000;1398725000000;-1011809000000;-788252600000;1368926000000;-132415900000;-1185911000000;1037265000000;0];
[6986302000;-222765700000;-336801900000;-457756900000;-768143300000;-572579700000;624833100000;1710815000000;1225979000000;-613948900000;-1785493000000;-662837000000;1235704000000;1044127000000;-599793300000;-834716900000;217329500000;477550000000;-45687590000;-207118100000;-31446500000;71061080000;63272830000;-27505520000;-55663250000;-1139923000;59289360000;14290830000;-88821440000;21829120000;96826460000;35211830000;-24554900000;177888300000;935369200000;1489865000000;685255200000;-706657700000;-495370800000;725895800000;-76126210000;-1784067000000;-244654700000;2359435000000;699214200000;-2187184000000;-712162500000;1665762000000;358351900000;-1079384000000;50613200000;475820000000;-231639700000;62904360000;48123590000;-284942400000;274615500000;139955600000;-447073800000;213691000000;279591800000;0];
[60337410000;197851100000;273075300000;236235700000;-128972700000;-1220730000000;-2435727000000;-1894917000000;1076625000000;3537959000000;1814062000000;-2207227000000;-2564382000000;922856800000;2122642000000;-311592200000;-1440702000000;112081300000;895445700000;-65605000000;-558997600000;63272830000;390539600000;-99005560000;-308051800000;189016800000;203971200000;-280573700000;-31541870000;288407100000;-172876100000;-32007960000;-130584500000;-539033100000;-995995700000;-482833700000;1021377000000;1468240000000;233118100000;315059600000;2110949000000;715943800000;-3272704000000;-1898916000000;3363592000000;2186075000000;-3052312000000;-1701703000000;2648570000000;896619200000;-2204231000000;-104522600000;1698840000000;-519833900000;-1119271000000;917652400000;471084400000;-1059977000000;271709100000;738296600000;-807254700000;0];
[-76790720000;-31739350000;4910798000;-4043373000;150491100000;624528700000;1072014000000;905116300000;-96726820000;-1169807000000;-919282600000;476137200000;890033300000;-153278400000;-608386200000;93119030000;375980500000;-80063740000;-219905400000;54726420000;132020300000;-27505520000;-99005560000;23483530000;88487130000;-48670620000;-61680350000;73182080000;16981770000;-77950300000;37310630000;-1752520000;129483800000;461971800000;646533600000;106179500000;-841795100000;-779293600000;462384700000;637618000000;-941554000000;-1185005000000;831955000000;1240428000000;-754839100000;-978520000000;784307500000;635369400000;-789394100000;-293475400000;705238500000;3111294000;-535606000000;187597000000;336696200000;-284030300000;-146321100000;328290900000;-87836560000;-224061900000;261298800000;0];
[41994610000;-170245800000;-277170900000;-84088320000;279770500000;783317000000;1264057000000;725980000000;-1234902000000;-2434275000000;-693690700000;1865988000000;1486355000000;-912250400000;-1345100000000;350953200000;957875500000;-120144600000;-633688100000;53005220000;428429700000;-55663250000;-308051800000;88487130000;230822000000;-141520600000;-154232000000;202011600000;33862260000;-210444400000;112004700000;42422190000;-20176580000;-75610980000;1825632000;19932620000;-120470800000;-134142800000;-353484800000;-1378026000000;-1663517000000;692834400000;2756343000000;390799400000;-2774283000000;-839145900000;2373495000000;703224400000;-1898404000000;-340490000000;1462990000000;-11977730000;-1107808000000;315877200000;784917200000;-579182100000;-387054200000;702747100000;-88099920000;-553250600000;479895300000;0];
[9370957000;278527900000;381189300000;151305300000;-225855600000;-866010900000;-1876341000000;-2094692000000;-85612950000;2592338000000;2249728000000;-890796100000;-2121423000000;-30214800000;1368897000000;200396600000;-779592000000;-134586500000;439331500000;57204050000;-269320000000;-1139923000;189016800000;-48670620000;-141520600000;105030800000;80121560000;-151635700000;21655200000;136324600000;-127352500000;-61122930000;-87097690000;-351289200000;-794606300000;-547640700000;512226700000;600783500000;-700331400000;-303414700000;2355241000000;2057807000000;-2162647000000;-2802100000000;1627632000000;2479081000000;-1402279000000;-1717680000000;1341183000000;911026800000;-1239302000000;-221622800000;1018223000000;-306771400000;-653476500000;632737400000;156285200000;-658246000000;342935500000;324235600000;-580294500000;0];
[-38928530000;-224732500000;-248667700000;-175712900000;-321566200000;-483226800000;76782130000;1474759000000;2241935000000;812202200000;-1553707000000;-1784257000000;210462900000;1316639000000;350380400000;-678827300000;-414360700000;286078400000;339505800000;-111866800000;-262326600000;59289360000;203971200000;-61680350000;-154232000000;80121560000;109010200000;-102613000000;-59820520000;123103700000;-10631180000;44356760000;92210390000;473912900000;1172092000000;1180942000000;-119118500000;-936406300000;778033900000;2695175000000;596216500000;-3237149000000;-2187466000000;2348374000000;2457944000000;-1446489000000;-1905440000000;913843600000;1181748000000;-583667300000;-614795800000;301141400000;329299300000;-83092510000;-306685400000;46251460000;371230500000;-220617900000;-285234200000;427378300000;-27988320000;0];
[33904770000;47067260000;-56945620000;13220830000;572016900000;1494834000000;2108159000000;1177803000000;-1586679000000;-3439009000000;-1441770000000;2047606000000;2129826000000;-624886200000;-1560356000000;32688810000;932151200000;101812200000;-552331700000;-82514140000;370622600000;14290830000;-280573700000;73182080000;202011600000;-151635700000;-102613000000;194642100000;-21079660000;-172349400000;143121500000;-3155462000;15035650000;-144072300000;-635138900000;-1074016000000;-514550700000;1025903000000;1093301000000;-1982769000000;-4042187000000;-235084900000;4450778000000;1832149000000;-3523000000000;-1948103000000;2610167000000;1323775000000;-1953212000000;-607590100000;1451758000000;68448610000;-1059609000000;302200000000;728179100000;-590754100000;-327868500000;737996500000;-196030200000;-542131400000;610587400000;0];
[-11480160000;136829300000;344668400000;300149000000;-71789920000;-761448900000;-2012112000000;-3084725000000;-1795647000000;1758628000000;3338217000000;743348700000;-1988337000000;-1228040000000;749133300000;836382000000;-172301200000;-436037100000;-15063210000;207060100000;44073490000;-88821440000;-31541870000;16981770000;33862260000;21655200000;-59820520000;-21079660000;91888170000;-22688020000;-97274020000;-34964110000;-136882000000;-392651300000;-597272800000;-93989680000;801078300000;-32982730000;-2625576000000;-2196299000000;2889628000000;4866750000000;-781982500000;-4786784000000;-389592200000;3529090000000;365812600000;-2254818000000;68896650000;1223328000000;-392087800000;-427938100000;436476500000;-138791300000;-204026600000;420961400000;-202030800000;-323718000000;529071700000;-110744600000;-461402500000;0];
[-1689436000;-214006400000;-407148500000;-471388000000;-676934000000;-1069657000000;-627338300000;1591227000000;3750302000000;2507323000000;-1374666000000;-2952589000000;-634224400000;1595559000000;988741400000;-575423200000;-756474200000;129202100000;521244400000;-7566695000;-379186700000;21829120000;288407100000;-77950300000;-210444400000;136324600000;123103700000;-172349400000;-22688020000;166033200000;-76265950000;46554550000;147157600000;652007000000;1580027000000;1628626000000;-338738300000;-1897103000000;806609200000;5024201000000;2910693000000;-4219435000000;-5013012000000;1983210000000;4495159000000;-771638800000;-3121888000000;448693200000;1879154000000;-378048800000;-1025868000000;266905500000;586924400000;-148231000000;-478449300000;187640600000;463786400000;-431543800000;-240460800000;630569000000;-246765100000;0];
[-5714695000;155551300000;182937100000;239290300000;788132800000;1984759000000;3082145000000;2233397000000;-1304156000000;-4246625000000;-2607708000000;1559371000000;2619208000000;148059300000;-1445676000000;-514590200000;642691000000;415368700000;-306112900000;-251213200000;208771700000;96826460000;-172876100000;37310630000;112004700000;-127352500000;-10631180000;143121500000;-97274020000;-76265950000;156265600000;-29806760000;-7995353000;-328456400000;-1381755000000;-2274273000000;-864202700000;2720603000000;3490824000000;-1980728000000;-6866370000000;-2335355000000;5583694000000;4013923000000;-3402140000000;-3340735000000;2116653000000;2047351000000;-1502748000000;-952302900000;1129935000000;219393200000;-825461900000;238850200000;526639500000;-538464000000;-138571200000;642061600000;-354073500000;-373830500000;680568800000;0];
[-8508007000000000;-1755504000000000;152059700000000;401742500000000;84387180000000;1238210000000;31609580000000;7227402000000;-15274240000000;-2024231000000;5667017000000;-403965800000;-1794867000000;666356900000;368530700000;-363502700000;40533730000;84585600000;-43554350000;2146217000;-12014080000;35211830000;-32007960000;-1752520000;42422190000;-61122930000;44356760000;-3155462000;-34964110000;46554550000;-29806760000;3543858000000000;3023984000000000;1621691000000000;413723700000000;-128335100000000;-127402700000000;6700736000000;34348200000000;-1065590000000;-9834516000000;1351329000000;2751890000000;-947760200000;-671187400000;494325200000;116127200000;-267619900000;70910560000;118775700000;-143147200000;41485000000;70852500000;-102297800000;42384190000;41834230000;-69921150000;20849290000;50858230000;-69333600000;9984838000;0];
[-5718761000000000;-4751165000000000;-1634720000000000;355532400000000;636715800000000;364197700000000;142849400000000;1843682000000;-53354220000000;-16082060000000;19023410000000;5189507000000;-7918797000000;-198922800000;3095714000000;-980206500000;-863851100000;809588400000;-48556260000;-345419800000;264537300000;-24554900000;-130584500000;129483800000;-20176580000;-87097690000;92210390000;15035650000;-136882000000;147157600000;-7995353000;3023984000000000;5050300000000000;4241300000000000;1946057000000000;86006390000000;-438245100000000;-129092100000000;113726000000000;48510440000000;-38608350000000;-13440610000000;15481370000000;1677479000000;-6084388000000;1229750000000;1917940000000;-1286745000000;-214127500000;728093000000;-375645800000;-148359600000;415771300000;-314807200000;-43603510000;379742100000;-405061800000;65053460000;371471300000;-516698800000;206797700000;0];
[-1492383000000000;-3537247000000000;-3431098000000000;-736242800000000;1164538000000000;1399587000000000;733282500000000;71158150000000;-172798900000000;-75939180000000;44532650000000;28467970000000;-18573240000000;-7702556000000;9348716000000;74041960000;-3980173000000;1841870000000;765502100000;-1328683000000;606024200000;177888300000;-539033100000;461971800000;-75610980000;-351289200000;473912900000;-144072300000;-392651300000;652007000000;-328456400000;1621691000000000;4241300000000000;5663622000000000;4091320000000000;1153433000000000;-590957300000000;-489682700000000;129375700000000;187911300000000;-49719460000000;-68675170000000;28833530000000;21109910000000;-16731350000000;-3237008000000;7836403000000;-1817883000000;-2443931000000;2043309000000;-122498100000;-921825500000;934227500000;-445934500000;-263580100000;919140400000;-1024696000000;284012100000;885836900000;-1518452000000;930570400000;0];
[343151800000000;-767961300000000;-2170465000000000;-1414510000000000;1149533000000000;2636606000000000;2052031000000000;578913500000000;-299459500000000;-260059300000000;42409570000000;85739150000000;-18855910000000;-28043060000000;13996940000000;6740048000000;-8419847000000;905476200000;3188051000000;-2247614000000;104113000000;935369200000;-995995700000;646533600000;1825632000;-794606300000;1172092000000;-635138900000;-597272800000;1580027000000;-1381755000000;413723700000000;1946057000000000;4091320000000000;4628259000000000;2548528000000000;18760630000000;-708053300000000;-45711150000000;305673400000000;14800930000000;-137222400000000;10912190000000;57224750000000;-18555830000000;-18843880000000;14352040000000;2437449000000;-7166055000000;2352108000000;1778236000000;-1931558000000;594953300000;22958280000;-149036600000;674211200000;-1315589000000;965630900000;664718900000;-2302350000000;2214062000000;0];
[270485500000000;530440500000000;186706900000000;-88621790000000;1206107000000000;3197183000000000;3447191000000000;1725295000000000;-55973640000000;-511521600000000;-100106800000000;140210100000000;27189780000000;-48992340000000;2238987000000;17645190000000;-7917653000000;-3948527000000;5464838000000;-1191240000000;-1655646000000;1489865000000;-482833700000;106179500000;19932620000;-547640700000;1180942000000;-1074016000000;-93989680000;1628626000000;-2274273000000;-128335100000000;86006390000000;1153433000000000;2548528000000000;2659241000000000;1160421000000000;-156314500000000;-177838500000000;204628800000000;88339010000000;-135244800000000;-35903580000000;74167250000000;1508576000000;-35096160000000;10764680000000;11924900000000;-9801877000000;-1046742000000;4887537000000;-1706059000000;-1495512000000;1203621000000;699300800000;-1067240000000;-584538000000;1986221000000;-1053328000000;-1615181000000;3262741000000;0];
[-37394930000000;304676700000000;914284200000000;1280471000000000;1741742000000000;2909337000000000;3785056000000000;2865633000000000;811859300000000;-466719100000000;-386800900000000;60551280000000;111876200000000;-23656340000000;-27908270000000;15730900000000;2880314000000;-7831361000000;3304670000000;1906903000000;-2845644000000;685255200000;1021377000000;-841795100000;-120470800000;512226700000;-119118500000;-514550700000;801078300000;-338738300000;-864202700000;-127402700000000;-438245100000000;-590957300000000;18760630000000;1160421000000000;1622810000000000;967411900000000;198213100000000;-2873913000000;1928537000000;-70468520000000;-44378370000000;48525820000000;23025420000000;-30971860000000;-3284362000000;16568850000000;-5032329000000;-6022693000000;5579061000000;389688700000;-3623431000000;1911671000000;1597545000000;-2835995000000;672348600000;2380652000000;-2918925000000;201981000000;3051571000000;0];
[-42535150000000;-77919100000000;222505900000000;863368200000000;1449181000000000;2026866000000000;2782244000000000;2944950000000000;1764697000000000;150829300000000;-507575200000000;-203883800000000;114135600000000;66535880000000;-33503540000000;-13154540000000;11500520000000;-1154143000000;-2351771000000;2541615000000;-1210803000000;-706657700000;1468240000000;-779293600000;-134142800000;600783500000;-936406300000;1025903000000;-32982730000;-1897103000000;2720603000000;6700736000000;-129092100000000;-489682700000000;-708053300000000;-156314500000000;967411900000000;1492429000000000;910398700000000;96168790000000;-175619100000000;-85024130000000;-2083052000000;25669460000000;18658710000000;-11965140000000;-10938000000000;9209745000000;2658296000000;-5979925000000;1873731000000;2044025000000;-2725896000000;1022321000000;1278951000000;-2347805000000;1113440000000;1460973000000;-2773759000000;1202454000000;1853588000000;0];
[11692940000000;-75298720000000;-245266800000000;-212046500000000;137042900000000;602549700000000;1166657000000000;1800114000000000;1851977000000000;914610000000000;-155036300000000;-400988400000000;-59950970000000;121669300000000;26563180000000;-37440050000000;-3986867000000;10782270000000;-1475717000000;-1729241000000;838263000000;-495370800000;233118100000;462384700000;-353484800000;-700331400000;778033900000;1093301000000;-2625576000000;806609200000;3490824000000;34348200000000;113726000000000;129375700000000;-45711150000000;-177838500000000;198213100000000;910398700000000;1091157000000000;489706300000000;-110731300000000;-181306200000000;-17764460000000;37630200000000;12615040000000;-4332894000000;-7220743000000;171883600000;4370670000000;-993820800000;-1864701000000;1046173000000;347519700000;-270548300000;-168498500000;-239228600000;726424400000;-66260680000;-1171714000000;1137755000000;636967800000;0];
[4929015000000;19482520000000;-86315480000000;-360049800000000;-573581600000000;-510237600000000;-189177600000000;353552200000000;946963100000000;1031826000000000;402092600000000;-224886000000000;-246002600000000;25749780000000;90556130000000;-5920166000000;-29536440000000;5267343000000;8109762000000;-3190750000000;-1369169000000;725895800000;315059600000;637618000000;-1378026000000;-303414700000;2695175000000;-1982769000000;-2196299000000;5024201000000;-1980728000000;-1065590000000;48510440000000;187911300000000;305673400000000;204628800000000;-2873913000000;96168790000000;489706300000000;590398100000000;206165600000000;-132748400000000;-110191200000000;17735010000000;31874740000000;-826536600000;-7374807000000;-1733633000000;2244270000000;1597231000000;-1697550000000;-611440500000;1508217000000;-282754500000;-1103490000000;838149500000;632180300000;-1216367000000;-50588550000;1530177000000;-984660900000;0];
[-3829849000000;16506170000000;76688860000000;56121760000000;-157433300000000;-441135300000000;-572638500000000;-452855900000000;-63517710000000;420721600000000;542168400000000;166689900000000;-179403100000000;-128160800000000;48630730000000;52463550000000;-18158970000000;-16889530000000;8808192000000;3822116000000;-4146528000000;-76126210000;2110949000000;-941554000000;-1663517000000;2355241000000;596216500000;-4042187000000;2889628000000;2910693000000;-6866370000000;-9834516000000;-38608350000000;-49719460000000;14800930000000;88339010000000;1928537000000;-175619100000000;-110731300000000;206165600000000;323408400000000;89349260000000;-107023900000000;-58816340000000;28224620000000;19432800000000;-7603745000000;-4780407000000;1754768000000;1191742000000;-359888900000;-496236300000;404433100000;35657670000;-612105100000;704110000000;316448400000;-1498777000000;963702600000;1318884000000;-2721053000000;0];
[623298300000;-6715917000000;20357960000000;125923300000000;218681700000000;137013400000000;-113277800000000;-352980300000000;-405609100000000;-182248000000000;176006000000000;294436200000000;70184130000000;-122610300000000;-60936180000000;44500790000000;25597850000000;-18098500000000;-7106764000000;7340166000000;418344300000;-1784067000000;715943800000;-1185005000000;692834400000;2057807000000;-3237149000000;-235084900000;4866750000000;-4219435000000;-2335355000000;1351329000000;-13440610000000;-68675170000000;-137222400000000;-135244800000000;-70468520000000;-85024130000000;-181306200000000;-132748400000000;89349260000000;178707000000000;34623660000000;-73812260000000;-25931310000000;25080200000000;8389071000000;-7882899000000;-1564191000000;1871448000000;233485400000;-62742040000;-269874000000;-369622000000;482718700000;541321800000;-1051115000000;-244334800000;1877490000000;-1267667000000;-1555425000000;0];
[675057100000;-2901212000000;-27341700000000;-35652620000000;45447040000000;182582700000000;221109500000000;83603140000000;-133334000000000;-256393400000000;-160001800000000;73006880000000;163083700000000;29009620000000;-77700490000000;-26165880000000;33032240000000;10419000000000;-14392780000000;-2204381000000;6318515000000;-244654700000;-3272704000000;831955000000;2756343000000;-2162647000000;-2187466000000;4450778000000;-781982500000;-5013012000000;5583694000000;2751890000000;15481370000000;28833530000000;10912190000000;-35903580000000;-44378370000000;-2083052000000;-17764460000000;-110191200000000;-107023900000000;34623660000000;100691700000000;13209070000000;-47138300000000;-9488370000000;18286850000000;2121624000000;-6158260000000;263868700000;1644908000000;-157528100000;-594588600000;-162894300000;946148900000;-313091200000;-1292648000000;1664565000000;334233800000;-2665488000000;2198145000000;0];
[-668728600000;2113030000000;-982738300000;-38261940000000;-91455010000000;-72418660000000;48754170000000;159594300000000;136865400000000;-6876223000000;-136479400000000;-114133900000000;28777300000000;92345920000000;11763070000000;-47273430000000;-9391555000000;21543520000000;2103197000000;-8908839000000;1462229000000;2359435000000;-1898916000000;1240428000000;390799400000;-2802100000000;2348374000000;1832149000000;-4786784000000;1983210000000;4013923000000;-947760200000;1677479000000;21109910000000;57224750000000;74167250000000;48525820000000;25669460000000;37630200000000;17735010000000;-58816340000000;-73812260000000;13209070000000;57898360000000;4270367000000;-28881700000000;-2043164000000;11795200000000;-771726900000;-3788651000000;1198103000000;577223700000;-734181200000;607835500000;171200800000;-1205635000000;780006200000;1173676000000;-2152098000000;341773900000;2510837000000;0];
[230411500000;367360600000;9267217000000;22615510000000;3681598000000;-59914160000000;-96776370000000;-36872340000000;69654080000000;106681700000000;34609020000000;-64987170000000;-73449690000000;10287650000000;52937700000000;4889222000000;-28415650000000;-2992337000000;13750670000000;124356300000;-6359552000000;699214200000;3363592000000;-754839100000;-2774283000000;1627632000000;2457944000000;-3523000000000;-389592200000;4495159000000;-3402140000000;-671187400000;-6084388000000;-16731350000000;-18555830000000;1508576000000;23025420000000;18658710000000;12615040000000;31874740000000;28224620000000;-25931310000000;-47138300000000;4270367000000;33688120000000;836505300000;-17350380000000;731660800000;7182667000000;-1407673000000;-2268249000000;692274800000;729108000000;89983890000;-978539200000;70168590000;1524015000000;-1340007000000;-906596700000;2569398000000;-1322075000000;0];
[129766000000;-615636800000;-2439091000000;7119427000000;34556390000000;45306530000000;482280900000;-62185920000000;-60890810000000;9228694000000;63659250000000;39159310000000;-27748290000000;-45162120000000;3221573000000;30427060000000;1208514000000;-16490870000000;707557600000;7534016000000;-2215204000000;-2187184000000;2186075000000;-978520000000;-839145900000;2479081000000;-1446489000000;-1948103000000;3529090000000;-771638800000;-3340735000000;494325200000;1229750000000;-3237008000000;-18843880000000;-35096160000000;-30971860000000;-11965140000000;-4332894000000;-826536600000;19432800000000;25080200000000;-9488370000000;-28881700000000;836505300000;19674480000000;-393102700000;-10234410000000;1661941000000;4086481000000;-1860695000000;-865701400000;1317250000000;-632226900000;-551914200000;1350862000000;-532654700000;-1305378000000;1818056000000;-10417410000;-2145564000000;0];
[-259817600000;-78098180000;-2387164000000;-10938960000000;-13555960000000;9385832000000;39951060000000;29738140000000;-20220400000000;-45889120000000;-13746340000000;31103120000000;30339470000000;-9506620000000;-26984700000000;-298785900000;17824060000000;889518600000;-10125680000000;284797600000;5326690000000;-712162500000;-3052312000000;784307500000;2373495000000;-1402279000000;-1905440000000;2610167000000;365812600000;-3121888000000;2116653000000;116127200000;1917940000000;7836403000000;14352040000000;10764680000000;-3284362000000;-10938000000000;-7220743000000;-7374807000000;-7603745000000;8389071000000;18286850000000;-2043164000000;-17350380000000;-393102700000;11549360000000;-544212700000;-6000863000000;1203326000000;2417371000000;-784594600000;-941991200000;139992400000;929921200000;-191984100000;-1239101000000;1098801000000;694081600000;-1904333000000;921074900000;0];
[205814100000;336531500000;1769949000000;1640881000000;-8316819000000;-22466690000000;-15080490000000;16768540000000;31365700000000;4150873000000;-26572320000000;-17915040000000;13234800000000;20338770000000;-2754632000000;-15618310000000;-269716500000;9956164000000;-664293400000;-5173279000000;1700787000000;1665762000000;-1701703000000;635369400000;703224400000;-1717680000000;913843600000;1323775000000;-2254818000000;448693200000;2047351000000;-267619900000;-1286745000000;-1817883000000;2437449000000;11924900000000;16568850000000;9209745000000;171883600000;-1733633000000;-4780407000000;-7882899000000;2121624000000;11795200000000;731660800000;-10234410000000;-544212700000;6793836000000;-863140300000;-3408690000000;1553945000000;942053500000;-1336014000000;515363500000;594453400000;-1165781000000;435193600000;978346900000;-1362681000000;111699200000;1365758000000;0];
[-51278920000;-95055700000;209537200000;3543330000000;9038515000000;5920087000000;-10153190000000;-18723150000000;-2238087000000;17813080000000;11198170000000;-10723620000000;-14391880000000;3008741000000;12737630000000;1133550000000;-9432022000000;-1504360000000;6471737000000;417332200000;-4112937000000;358351900000;2648570000000;-789394100000;-1898404000000;1341183000000;1181748000000;-1953212000000;68896650000;1879154000000;-1502748000000;70910560000;-214127500000;-2443931000000;-7166055000000;-9801877000000;-5032329000000;2658296000000;4370670000000;2244270000000;1754768000000;-1564191000000;-6158260000000;-771726900000;7182667000000;1661941000000;-6000863000000;-863140300000;4091673000000;-148548100000;-2273309000000;448997800000;1196078000000;-348208900000;-896304100000;484818800000;780168300000;-969344100000;-192442900000;1179824000000;-784307900000;0];
[-117785000000;-198243100000;-885956200000;-2446673000000;-926561000000;6943640000000;11567280000000;916973900000;-13099840000000;-7961031000000;8722222000000;9864377000000;-4165634000000;-9120458000000;662462600000;6919776000000;602392700000;-4746681000000;-157428000000;2870052000000;-695628300000;-1079384000000;896619200000;-293475400000;-340490000000;911026800000;-583667300000;-607590100000;1223328000000;-378048800000;-952302900000;118775700000;728093000000;2043309000000;2352108000000;-1046742000000;-6022693000000;-5979925000000;-993820800000;1597231000000;1191742000000;1871448000000;263868700000;-3788651000000;-1407673000000;4086481000000;1203326000000;-3408690000000;-148548100000;2192246000000;-746252900000;-791314500000;891634000000;-291239300000;-397924900000;757613500000;-350773700000;-517208400000;855180000000;-228612100000;-648739100000;0];
[210520700000;254817900000;384845300000;-71294210000;-3053968000000;-6313310000000;-2387554000000;7168165000000;7857647000000;-3339544000000;-8467568000000;714444600000;7655147000000;1129226000000;-6196733000000;-2058859000000;4728643000000;1910768000000;-3722555000000;-1059336000000;2971984000000;50613200000;-2204231000000;705238500000;1462990000000;-1239302000000;-614795800000;1451758000000;-392087800000;-1025868000000;1129935000000;-143147200000;-375645800000;-122498100000;1778236000000;4887537000000;5579061000000;1873731000000;-1864701000000;-1697550000000;-359888900000;233485400000;1644908000000;1198103000000;-2268249000000;-1860695000000;2417371000000;1553945000000;-2273309000000;-746252900000;1859246000000;6575532000;-1310918000000;421799300000;844529800000;-693116000000;-382522900000;835344000000;-200663800000;-609006300000;656908000000;0];
[-174746800000;-81171880000;323159300000;1154124000000;1778607000000;80273880000;-3510218000000;-3329859000000;2069551000000;4197557000000;-738114500000;-3668341000000;188886100000;2991955000000;306176900000;-2137152000000;-555811500000;1413429000000;456911200000;-927192400000;-134384700000;475820000000;-104522600000;3111294000;-11977730000;-221622800000;301141400000;68448610000;-427938100000;266905500000;219393200000;41485000000;-148359600000;-921825500000;-1931558000000;-1706059000000;389688700000;2044025000000;1046173000000;-611440500000;-496236300000;-62742040000;-157528100000;577223700000;692274800000;-865701400000;-784594600000;942053500000;448997800000;-791314500000;6575532000;404992900000;-236769100000;45521850000;95966670000;-250158500000;201454500000;107167500000;-332231800000;191556900000;147576200000;0];
[40900010000;-136635800000;-625195900000;-999029300000;228283500000;3372254000000;4042538000000;-1381368000000;-6042413000000;-1448499000000;5259898000000;2256043000000;-4395214000000;-2336496000000;3534093000000;2101336000000;-2762988000000;-1637993000000;2279404000000;1006276000000;-2019866000000;-231639700000;1698840000000;-535606000000;-1107808000000;1018223000000;329299300000;-1059609000000;436476500000;586924400000;-825461900000;70852500000;415771300000;934227500000;594953300000;-1495512000000;-3623431000000;-2725896000000;347519700000;1508217000000;404433100000;-269874000000;-594588600000;-734181200000;729108000000;1317250000000;-941991200000;-1336014000000;1196078000000;891634000000;-1310918000000;-236769100000;1146449000000;-350645700000;-719332800000;670518100000;176459400000;-653884500000;308742500000;301243900000;-485276300000;0];
[99338620000;213642100000;384009900000;439115000000;-393077900000;-2083955000000;-2087623000000;972455400000;3137319000000;829765700000;-2247727000000;-1342441000000;1209193000000;1082987000000;-677821500000;-772011800000;526854800000;563096700000;-556024300000;-344229200000;598198400000;62904360000;-519833900000;187597000000;315877200000;-306771400000;-83092510000;302200000000;-138791300000;-148231000000;238850200000;-102297800000;-314807200000;-445934500000;22958280000;1203621000000;1911671000000;1022321000000;-270548300000;-282754500000;35657670000;-369622000000;-162894300000;607835500000;89983890000;-632226900000;139992400000;515363500000;-348208900000;-291239300000;421799300000;45521850000;-350645700000;127994400000;203946400000;-200504000000;-49858440000;193803500000;-95965590000;-85705210000;154098100000;0];
[-164737000000;-108401000000;193966600000;264237000000;-367006100000;-1172756000000;-632643900000;1585451000000;2423032000000;-553303800000;-3128590000000;-349883200000;3222891000000;932984200000;-2827657000000;-1033160000000;2261780000000;787527600000;-1761991000000;-425326100000;1398725000000;48123590000;-1119271000000;336696200000;784917200000;-653476500000;-306685400000;728179100000;-204026600000;-478449300000;526639500000;42384190000;-43603510000;-263580100000;-149036600000;699300800000;1597545000000;1278951000000;-168498500000;-1103490000000;-612105100000;482718700000;946148900000;171200800000;-978539200000;-551914200000;929921200000;594453400000;-896304100000;-397924900000;844529800000;95966670000;-719332800000;203946400000;488428000000;-408191100000;-167506700000;426107100000;-138056900000;-245786300000;288387000000;0];
[138314800000;-62776480000;-679018500000;-977890200000;240342200000;2728788000000;3103348000000;-1168597000000;-5162171000000;-1992035000000;4164240000000;3292515000000;-2610402000000;-3113218000000;1555814000000;2365442000000;-1099225000000;-1593328000000;1000984000000;916021300000;-1011809000000;-284942400000;917652400000;-284030300000;-579182100000;632737400000;46251460000;-590754100000;420961400000;187640600000;-538464000000;41834230000;379742100000;919140400000;674211200000;-1067240000000;-2835995000000;-2347805000000;-239228600000;838149500000;704110000000;541321800000;-313091200000;-1205635000000;70168590000;1350862000000;-191984100000;-1165781000000;484818800000;757613500000;-693116000000;-250158500000;670518100000;-200504000000;-408191100000;443725300000;17402020000;-387291600000;293912400000;86652590000;-326647800000;0];
[-61919870000;143850700000;668287900000;1209529000000;958892500000;-1030785000000;-3435122000000;-2479233000000;2093596000000;4350160000000;670283400000;-3645734000000;-2256378000000;2148233000000;2450322000000;-1083669000000;-1960815000000;608196200000;1326229000000;-421137200000;-788252600000;274615500000;471084400000;-146321100000;-387054200000;156285200000;371230500000;-327868500000;-202030800000;463786400000;-138571200000;-69921150000;-405061800000;-1024696000000;-1315589000000;-584538000000;672348600000;1113440000000;726424400000;632180300000;316448400000;-1051115000000;-1292648000000;780006200000;1524015000000;-532654700000;-1239101000000;435193600000;780168300000;-350773700000;-382522900000;201454500000;176459400000;-49858440000;-167506700000;17402020000;223775400000;-135907100000;-167988700000;269001400000;-43242910000;0];
[-10152480000;-79860900000;-111597900000;-483359500000;-1683602000000;-2242897000000;390443100000;4575209000000;4148535000000;-2072599000000;-5674921000000;-871283400000;4752669000000;2191369000000;-3307562000000;-2112431000000;2296447000000;1459261000000;-1728586000000;-741334200000;1368926000000;139955600000;-1059977000000;328290900000;702747100000;-658246000000;-220617900000;737996500000;-323718000000;-431543800000;642061600000;20849290000;65053460000;284012100000;965630900000;1986221000000;2380652000000;1460973000000;-66260680000;-1216367000000;-1498777000000;-244334800000;1664565000000;1173676000000;-1340007000000;-1305378000000;1098801000000;978346900000;-969344100000;-517208400000;835344000000;107167500000;-653884500000;193803500000;426107100000;-387291600000;-135907100000;429499500000;-182459200000;-247059800000;361824100000;0];
[51351220000;-45274930000;-584683800000;-932658400000;551759800000;3649616000000;4079873000000;-1269150000000;-6853710000000;-4117024000000;4108534000000;5859816000000;-891948100000;-4828041000000;-582003300000;3235058000000;683584500000;-2008661000000;-268149500000;1136990000000;-132415900000;-447073800000;271709100000;-87836560000;-88099920000;342935500000;-285234200000;-196030200000;529071700000;-240460800000;-354073500000;50858230000;371471300000;885836900000;664718900000;-1053328000000;-2918925000000;-2773759000000;-1171714000000;-50588550000;963702600000;1877490000000;334233800000;-2152098000000;-906596700000;1818056000000;694081600000;-1362681000000;-192442900000;855180000000;-200663800000;-332231800000;308742500000;-95965590000;-138056900000;293912400000;-167988700000;-182459200000;363605600000;-139782800000;-242749600000;0];
[-67898920000;99159150000;847161900000;1944581000000;1877325000000;-1211702000000;-5563758000000;-5121447000000;1971180000000;7433122000000;3360720000000;-4698820000000;-5114318000000;1710907000000;4356121000000;-322688500000;-3046021000000;58770950000;1953379000000;-150788100000;-1185911000000;213691000000;738296600000;-224061900000;-553250600000;324235600000;427378300000;-542131400000;-110744600000;630569000000;-373830500000;-69333600000;-516698800000;-1518452000000;-2302350000000;-1615181000000;201981000000;1202454000000;1137755000000;1530177000000;1318884000000;-1267667000000;-2665488000000;341773900000;2569398000000;-10417410000;-1904333000000;111699200000;1179824000000;-228612100000;-609006300000;191556900000;301243900000;-85705210000;-245786300000;86652590000;269001400000;-247059800000;-139782800000;378752000000;-171771100000;0];
[76328500000;-28172970000;-417761400000;-1489974000000;-3309044000000;-3331978000000;1510810000000;7732730000000;6573443000000;-2709515000000;-8415765000000;-2631710000000;5675113000000;4174624000000;-3000238000000;-3424056000000;1701761000000;2164754000000;-1246805000000;-1076741000000;1037265000000;279591800000;-807254700000;261298800000;479895300000;-580294500000;-27988320000;610587400000;-461402500000;-246765100000;680568800000;9984838000;206797700000;930570400000;2214062000000;3262741000000;3051571000000;1853588000000;636967800000;-984660900000;-2721053000000;-1555425000000;2198145000000;2510837000000;-1322075000000;-2145564000000;921074900000;1365758000000;-784307900000;-648739100000;656908000000;147576200000;-485276300000;154098100000;288387000000;-326647800000;-43242910000;361824100000;-242749600000;-171771100000;397077600000;0];
[0;0;0;0;0;0;0;0;0;0;0;0;0;0;0;0;0;0;0;0;0;0;0;0;0;0;0;0;0;0;0;0;0;0;0;0;0;0;0;0;0;0;0;0;0;0;0;0;0;0;0;0;0;0;0;0;0;0;0;0;0;0]].
(** :563 *)
Definition coup3pf : list (list Z) := [
[-3929755000000000;-3482783000000000;-2400558000000000;-260333300000000;51753110000000;33743770000000;-3191397000000;-3746250000000;386272000000;455985300000;-32137030000;-103473500000;5654735000;41468140000;1136523000;-43536350000;26411420000;28859680000;-62797320000;42863740000;11120070000;-53165610000;54341660000;-22426320000;-12866950000;28480430000;-23573700000;12842620000;-9012671000;11877820000;0;1283915000000000;816658500000000;174471400000000;-68288680000000;-27580060000000;17500620000000;4299249000000;-5988488000000;96922340000;1875060000000;-620519300000;-386898400000;353302000000;-34303370000;-85580810000;51130230000;-14819700000;14011750000;-14093420000;-4844841000;28701660000;-35920470000;20872280000;4833715000;-24687900000;29043530000;-19081070000;3485918000;8123578000;0;0];
[-3482783000000000;-2603866000000000;-3292684000000000;-1660401000000000;-375240700000000;86881520000000;70168200000000;-3235611000000;-11385450000000;756930100000;2157596000000;-513312400000;-438104700000;284025600000;68333870000;-169326600000;53600330000;87367670000;-119607100000;36407610000;72721260000;-109559400000;49235320000;45839270000;-88773160000;47542460000;31490420000;-71869570000;37329090000;39220250000;0;661256700000000;1121933000000000;678460500000000;100407700000000;-58579620000000;13616280000000;23504370000000;-12758790000000;-8439968000000;6910338000000;1663703000000;-3079098000000;375882300000;985559000000;-515893000000;-139545300000;240038200000;-51481800000;-65669190000;46779350000;9812331000;-32874400000;21016620000;2678450000;-24365320000;36555540000;-28791150000;-4250832000;47375250000;0;0];
[-2400558000000000;-3292684000000000;-4262365000000000;-3520203000000000;-1711976000000000;-275355700000000;183610000000000;85631540000000;-22674910000000;-15996520000000;5635746000000;2376053000000;-1895030000000;30041940000;540737900000;-243692700000;-98412600000;155653200000;-23722950000;-102791300000;122968500000;-37700520000;-91521430000;172635000000;-133210600000;-15627900000;169750100000;-209024200000;98524680000;80482640000;0;147835700000000;526975300000000;760268400000000;467538800000000;131716600000000;46276150000000;29704100000000;-22826180000000;-25661100000000;10810340000000;10725470000000;-6642405000000;-2758675000000;3580081000000;-207263900000;-1339124000000;689961000000;173403000000;-337655300000;119430900000;25322370000;-23854620000;13467220000;-51281930000;64005270000;10916340000;-115019500000;119719000000;25038490000;0;0];
[-260333300000000;-1660401000000000;-3520203000000000;-4408471000000000;-3422208000000000;-1440898000000000;-39214450000000;257024700000000;57616830000000;-43651520000000;-10433580000000;9577250000000;146609500000;-2151941000000;823567600000;338896100000;-531019200000;84205770000;309293000000;-283321100000;1347686000;210289800000;-220840400000;103775600000;32049390000;-128705800000;158268400000;-108452300000;8448154000;72935040000;0;-20545690000000;80502280000000;380521400000000;634784100000000;547055300000000;293857200000000;71446030000000;-61350800000000;-62153930000000;11159490000000;28718200000000;-6559077000000;-11315610000000;5607673000000;3006710000000;-3474489000000;198160400000;1343750000000;-709207300000;-198785900000;338870900000;-13966310000;-137863200000;-52758270000;262581100000;-147495400000;-245174800000;505422300000;-281622900000;0;0];
[51753110000000;-375240700000000;-1711976000000000;-3422208000000000;-4035870000000000;-2858579000000000;-949236500000000;181286200000000;254413600000000;9762628000000;-50376860000000;-1227275000000;9746300000000;-1785461000000;-1253038000000;1145717000000;-450281200000;-333210700000;626733900000;-218730400000;-343354900000;460555700000;-117066900000;-265976100000;353126500000;-151461200000;-128667900000;299517300000;-269523700000;30194780000;0;-12463760000000;-404524200000;173108200000000;564271500000000;873047700000000;730875000000000;276627000000000;-84284030000000;-137131000000000;-8737504000000;53359530000000;5081491000000;-22803520000000;2006839000000;9266560000000;-3990474000000;-2493195000000;2914859000000;-301574500000;-1234054000000;842585200000;208046200000;-659500400000;230018100000;481719500000;-657530900000;24357870000;843584300000;-1016902000000;0;0];
[33743770000000;86881520000000;-275355700000000;-1440898000000000;-2858579000000000;-3220970000000000;-2060236000000000;-466044800000000;295915800000000;196482400000000;-31449080000000;-45246060000000;6598314000000;8297135000000;-2347776000000;-644155900000;417771000000;-392213800000;378143200000;106460200000;-532257900000;375779300000;176471200000;-534382100000;385570800000;44725700000;-349438000000;389940400000;-294043800000;121836800000;0;26732670000000;90743180000000;244848500000000;559003500000000;942233400000000;1030301000000000;603280700000000;29059690000000;-201237000000000;-75241360000000;60610740000000;33339050000000;-25327390000000;-10184130000000;12942460000000;367892700000;-5814187000000;2503609000000;1344484000000;-2043074000000;768185200000;573056700000;-1101696000000;678716800000;354602900000;-1164709000000;904766800000;403991500000;-1617253000000;0;0];
[-3191397000000;70168200000000;183610000000000;-39214450000000;-949236500000000;-2060236000000000;-2277069000000000;-1301785000000000;-120413300000000;306317500000000;118064500000000;-55976610000000;-32733180000000;12566990000000;6383251000000;-3192315000000;-658883100000;514955600000;-13681580000;144716000000;-229321200000;-1619297000;313774300000;-348052000000;-13446030000;407662400000;-321366000000;-205949000000;477856700000;2727655000;0;23051060000000;101672700000000;266449900000000;517659100000000;806481100000000;970536200000000;778890100000000;267209900000000;-136078500000000;-152543600000000;11981450000000;58123130000000;-3975196000000;-22196410000000;5706606000000;7489497000000;-4963515000000;-1042662000000;2523411000000;-950164700000;-283013800000;446888800000;-463267400000;641175100000;-367119500000;-616135700000;1437929000000;-942873100000;-815014400000;0;0];
[-3746250000000;-3235611000000;85631540000000;257024700000000;181286200000000;-466044800000000;-1301785000000000;-1450913000000000;-725566900000000;64853640000000;249344600000000;46991360000000;-61178620000000;-16593200000000;15320530000000;3003923000000;-3639351000000;-66681640000;500955600000;-26992860000;95887390000;-162651500000;65900450000;-23866810000;-118645400000;464622700000;-482944400000;-320787100000;1303393000000;-1052928000000;0;-2485137000000;13658840000000;87050760000000;239954500000000;442333100000000;616639400000000;643357300000000;421950300000000;60804610000000;-136756800000000;-72639370000000;37025090000000;30546410000000;-14884670000000;-9866681000000;7947338000000;1617142000000;-3891711000000;939941200000;1354482000000;-1104212000000;-262859400000;870222100000;-160919700000;-896062600000;908754400000;397413900000;-1686288000000;1309998000000;0;0];
[386272000000;-11385450000000;-22674910000000;57616830000000;254413600000000;295915800000000;-120413300000000;-725566900000000;-847632800000000;-359292100000000;125678800000000;169240000000000;-136630900000;-51048040000000;-2673479000000;14002580000000;-139422600000;-3379504000000;303070700000;601841300000;157469900000;-153813900000;-366991700000;213214400000;423649100000;-352899600000;-588506100000;969884700000;271199200000;-1925588000000;0;-8975078000000;-36809120000000;-75709100000000;-80143720000000;-2004973000000;152133400000000;308470700000000;353376700000000;213859300000000;-8816895000000;-99328610000000;-27494500000000;35641370000000;12477890000000;-14630140000000;-2545389000000;6269441000000;-1107928000000;-1937662000000;1461854000000;-259600100000;-438844400000;831080300000;-781639300000;-98728580000;1269183000000;-1336765000000;-245342300000;2053898000000;0;0];
[455985300000;756930100000;-15996520000000;-43651520000000;9762628000000;196482400000000;306317500000000;64853640000000;-359292100000000;-466400200000000;-161334200000000;117824300000000;98900720000000;-21500260000000;-34727890000000;5875620000000;10181380000000;-2596676000000;-2556395000000;1069858000000;694959500000;-449922300000;-526075500000;645192500000;422612900000;-1318670000000;466695700000;1563364000000;-2154005000000;-117680200000;0;180945600000;-11129470000000;-54955680000000;-131077100000000;-185630400000000;-147856900000000;-12169780000000;138927100000000;193071900000000;104339700000000;-30174320000000;-62793160000000;-2917169000000;26455680000000;1447408000000;-10791180000000;1258746000000;3986657000000;-1668144000000;-1124690000000;1068091000000;345020000000;-779132500000;-225631000000;1141295000000;-473013100000;-1231317000000;1824457000000;-174753400000;0;0];
[-32137030000;2157596000000;5635746000000;-10433580000000;-50376860000000;-31449080000000;118064500000000;249344600000000;125678800000000;-161334200000000;-251022200000000;-68164240000000;87124520000000;50982080000000;-25057980000000;-19552660000000;8533249000000;5536577000000;-3234496000000;-919706200000;1050148000000;-305052600000;-72918290000;652859000000;-694669000000;-572696000000;1704585000000;-601296900000;-2055993000000;2886610000000;0;3132539000000;13246670000000;23408820000000;6175115000000;-56200350000000;-125934200000000;-131225600000000;-49849020000000;57102240000000;100513300000000;48599680000000;-27403120000000;-34869310000000;5869594000000;16151420000000;-3123883000000;-6307060000000;2711934000000;1613153000000;-1817180000000;473639900000;568071700000;-1088452000000;707832600000;616340100000;-1585491000000;771169000000;1274552000000;-2217090000000;0;0];
[-103473500000;-513312400000;2376053000000;9577250000000;-1227275000000;-45246060000000;-55976610000000;46991360000000;169240000000000;117824300000000;-68164240000000;-136570100000000;-28148240000000;57521360000000;23788570000000;-20733750000000;-9467794000000;7733374000000;2606886000000;-2747274000000;-671804600000;841284300000;690961700000;-603993300000;-1006329000000;1440006000000;502986300000;-2457396000000;1406741000000;2001688000000;0;-376011300000;3428515000000;21411950000000;53221780000000;67944850000000;29065580000000;-45775650000000;-86109180000000;-51301070000000;19583090000000;53661360000000;23851330000000;-19734340000000;-18487570000000;7158827000000;8939576000000;-3770611000000;-3370450000000;2188857000000;976891600000;-1063782000000;-433983000000;662846200000;501925400000;-1057368000000;-74443520000;1504112000000;-1180240000000;-823929500000;0;0];
[5654735000;-438104700000;-1895030000000;146609500000;9746300000000;6598314000000;-32733180000000;-61178620000000;-136630900000;98900720000000;87124520000000;-28148240000000;-75974630000000;-11247090000000;35886940000000;9706666000000;-14811730000000;-3333622000000;5958236000000;159634500000;-2259616000000;887356400000;662098100000;-1306810000000;439399900000;1383511000000;-1804683000000;-374073400000;2776032000000;-2050728000000;0;-1026268000000;-5332320000000;-10948750000000;-4635535000000;24308740000000;54809960000000;45013100000000;-7611261000000;-49353200000000;-37612640000000;6278186000000;29439470000000;11748440000000;-13088060000000;-9233377000000;6155516000000;4285353000000;-3542740000000;-1052934000000;2014293000000;-572624400000;-741526800000;1146311000000;-428097600000;-902914100000;1357672000000;-132201300000;-1491918000000;1493041000000;0;0];
[41468140000;284025600000;30041940000;-2151941000000;-1785461000000;8297135000000;12566990000000;-16593200000000;-51048040000000;-21500260000000;50982080000000;57521360000000;-11247090000000;-42986260000000;-4389137000000;21580850000000;3475855000000;-9406867000000;-901592300000;3566566000000;73540190000;-1004939000000;-480662500000;374504300000;1138563000000;-1059873000000;-1068689000000;2260908000000;-419218900000;-2463794000000;0;365397400000;-202534800000;-6473054000000;-20796450000000;-30068870000000;-13509810000000;21929460000000;35965900000000;9156065000000;-24184900000000;-24339700000000;1221532000000;16303050000000;6027408000000;-8029213000000;-4575353000000;4104838000000;2106362000000;-2154094000000;-711495800000;999209600000;388251900000;-555765100000;-498912000000;794687900000;292354800000;-1211993000000;549821800000;977012100000;0;0];
[1136523000;68333870000;540737900000;823567600000;-1253038000000;-2347776000000;6383251000000;15320530000000;-2673479000000;-34727890000000;-25057980000000;23788570000000;35886940000000;-4389137000000;-24718690000000;-1307264000000;13008730000000;475859000000;-6111893000000;753612600000;2641579000000;-1287027000000;-959588400000;1544008000000;-167555800000;-1583383000000;1420505000000;802984400000;-2388591000000;1105127000000;0;258195500000;2026896000000;5777453000000;6216426000000;-4701964000000;-20981490000000;-20135550000000;4217869000000;23235480000000;12262360000000;-10888760000000;-14974590000000;-264587600000;9357003000000;3038979000000;-5144360000000;-1998784000000;3036795000000;469633200000;-1767934000000;559586900000;740865900000;-990208900000;188443100000;853792500000;-935396500000;-162766900000;1160518000000;-796655700000;0;0];
[-43536350000;-169326600000;-243692700000;338896100000;1145717000000;-644155900000;-3192315000000;3003923000000;14002580000000;5875620000000;-19552660000000;-20733750000000;9706666000000;21580850000000;-1307264000000;-14056820000000;-416316300000;7342658000000;-87077610000;-3164592000000;247392100000;982941900000;251768600000;-297559000000;-900217600000;740613400000;964665800000;-1659522000000;58010920000;1899037000000;0;-211771200000;-544659500000;858059100000;6778262000000;13774540000000;10384210000000;-5734716000000;-15605480000000;-4123730000000;12345810000000;10111300000000;-4281458000000;-8681674000000;-668985400000;5086676000000;1683687000000;-2809192000000;-1135058000000;1572981000000;529137100000;-824443400000;-321797200000;492660900000;349199700000;-573684800000;-220929000000;792121300000;-256264400000;-686472700000;0;0];
[26411420000;53600330000;-98412600000;-531019200000;-450281200000;417771000000;-658883100000;-3639351000000;-139422600000;10181380000000;8533249000000;-9467794000000;-14811730000000;3475855000000;13008730000000;-416316300000;-8420118000000;340534000000;4699587000000;-937162400000;-2347326000000;1306942000000;944166000000;-1462249000000;77652080000;1370677000000;-1060050000000;-690763400000;1698254000000;-651067600000;0;-18021300000;-575776800000;-2587611000000;-4835450000000;-2498080000000;5686719000000;9934634000000;1436913000000;-9440393000000;-6163730000000;5634829000000;7284649000000;-1389557000000;-5272707000000;-530772400000;3163046000000;684520200000;-1976262000000;-138395100000;1240539000000;-430848000000;-581155100000;720690400000;-60730360000;-637419900000;574157300000;199777400000;-748475200000;396542900000;0;0];
[28859680000;87367670000;155653200000;84205770000;-333210700000;-392213800000;514955600000;-66681640000;-3379504000000;-2596676000000;5536577000000;7733374000000;-3333622000000;-9406867000000;475859000000;7342658000000;340534000000;-4508513000000;-92917880000;2279413000000;-51389000000;-905543600000;-203059400000;397089600000;566327100000;-616998300000;-544456200000;1103783000000;-127490600000;-1116345000000;0;85900280000;434422000000;660720600000;-979521200000;-4964805000000;-6533263000000;-855075400000;6132702000000;3737590000000;-4519362000000;-5052218000000;2040169000000;4363555000000;-142473400000;-2736374000000;-583546500000;1519031000000;641310800000;-913301500000;-448445800000;595888900000;285190100000;-436373500000;-202552300000;429274000000;76333610000;-471612100000;174314500000;369811100000;0;0];
[-62797320000;-119607100000;-23722950000;309293000000;626733900000;378143200000;-13681580000;500955600000;303070700000;-2556395000000;-3234496000000;2606886000000;5958236000000;-901592300000;-6111893000000;-87077610000;4699587000000;-92917880000;-3096852000000;639114000000;1782288000000;-1039888000000;-767123200000;1182966000000;-74602980000;-1012685000000;778253700000;419616200000;-1089514000000;460776900000;0;-28491840000;41420260000;763568700000;2486965000000;3351614000000;481386400000;-3922969000000;-3030287000000;2793185000000;3953849000000;-1643153000000;-3940170000000;507771300000;2985520000000;56733360000;-1878251000000;-127265700000;1139209000000;-29691380000;-723820800000;279485000000;370979200000;-448016400000;5460270000;410377600000;-323775800000;-155744500000;443765200000;-198307800000;0;0];
[42863740000;36407610000;-102791300000;-283321100000;-218730400000;106460200000;144716000000;-26992860000;601841300000;1069858000000;-919706200000;-2747274000000;159634500000;3566566000000;753612600000;-3164592000000;-937162400000;2279413000000;639114000000;-1429001000000;-359462700000;822431300000;283574600000;-557276700000;-282684400000;596429700000;112374100000;-683305900000;291989500000;476140400000;0;-25831330000;-203100500000;-617244900000;-713771900000;553026300000;2475957000000;2014206000000;-1214997000000;-2425624000000;549555200000;2435668000000;-20096440000;-2038250000000;-350541200000;1358096000000;459491800000;-781856100000;-442601800000;479752000000;374920800000;-388958000000;-249790100000;358737100000;110761400000;-330616200000;27448690000;277958700000;-165809300000;-155987000000;0;0];
[11120070000;72721260000;122968500000;1347686000;-343354900000;-532257900000;-229321200000;95887390000;157469900000;694959500000;1050148000000;-671804600000;-2259616000000;73540190000;2641579000000;247392100000;-2347326000000;-51389000000;1782288000000;-359462700000;-1150572000000;690548600000;525945900000;-809123000000;54728710000;655304300000;-501075700000;-228237900000;628492700000;-290711900000;0;31405410000;103480800000;-5629477000;-801522200000;-1974420000000;-1637268000000;848917800000;2132728000000;-208806600000;-2155213000000;-5599689000;2049493000000;119777000000;-1656449000000;-86462030000;1128057000000;-29836860000;-675383300000;122387400000;381286500000;-188098600000;-195914600000;249362600000;14323670000;-241474200000;163963400000;113798800000;-252322500000;92474800000;0;0];
[-53165610000;-109559400000;-37700520000;210289800000;460555700000;375779300000;-1619297000;-162651500000;-153813900000;-449922300000;-305052600000;841284300000;887356400000;-1004939000000;-1287027000000;982941900000;1306942000000;-905543600000;-1039888000000;822431300000;690548600000;-739342900000;-379247600000;672934900000;99080430000;-594612700000;185824800000;408584500000;-405489000000;-72781800000;0;-8141873000;15477420000;223477200000;742214800000;1035059000000;170992400000;-1203138000000;-905758400000;874458100000;1037330000000;-724122500000;-987976300000;635508700000;849037100000;-515693000000;-643401900000;387648300000;449035800000;-294933500000;-312595100000;266571600000;200703300000;-280654700000;-63544210000;264064800000;-78838940000;-180019100000;177804900000;35305140000;0;0];
[54341660000;49235320000;-91521430000;-220840400000;-117066900000;176471200000;313774300000;65900450000;-366991700000;-526075500000;-72918290000;690961700000;662098100000;-480662500000;-959588400000;251768600000;944166000000;-203059400000;-767123200000;283574600000;525945900000;-379247600000;-263365800000;412833500000;6898303000;-343613500000;200704900000;161454400000;-281825000000;68734660000;0;-16210300000;-65386240000;-78652000000;90070320000;433102300000;503580700000;-65284820000;-540392300000;5587606000;622886200000;-37339900000;-736917800000;26245630000;707652500000;-43753020000;-552722700000;96622080000;360935900000;-135884200000;-198608600000;141488700000;92449940000;-136771100000;-19319100000;132686400000;-61867270000;-86056830000;124161000000;-16382350000;0;0];
[-22426320000;45839270000;172635000000;103775600000;-265976100000;-534382100000;-348052000000;-23866810000;213214400000;645192500000;652859000000;-603993300000;-1306810000000;374504300000;1544008000000;-297559000000;-1462249000000;397089600000;1182966000000;-557276700000;-809123000000;672934900000;412833500000;-692964600000;-28738680000;578597200000;-297271500000;-296454100000;445700500000;-79233060000;0;26835610000;77334200000;-24639400000;-533805700000;-1142004000000;-774668000000;710171400000;1255332000000;-312963100000;-1363431000000;119869900000;1281276000000;-79158320000;-1059845000000;131729500000;778433600000;-196538300000;-512730600000;228664900000;309816400000;-236558300000;-167234000000;243795500000;40035310000;-231957100000;97736520000;145178200000;-190910400000;15273600000;0;0];
[-12866950000;-88773160000;-133210600000;32049390000;353126500000;385570800000;-13446030000;-118645400000;423649100000;422612900000;-694669000000;-1006329000000;439399900000;1138563000000;-167555800000;-900217600000;77652080000;566327100000;-74602980000;-282684400000;54728710000;99080430000;6898303000;-28738680000;-75486930000;59241370000;89647130000;-134477900000;-10129260000;154999300000;0;-18846860000;-68380760000;-65110780000;200528000000;711436900000;828175300000;22769740000;-844559300000;-451121900000;616111000000;620114700000;-293165200000;-522025700000;73231550000;336381700000;22420210000;-192722100000;-48233430000;113838100000;43327950000;-74148710000;-30645780000;51856110000;24487100000;-47193720000;-17016300000;57456570000;-11827360000;-52112780000;0;0];
[28480430000;47542460000;-15627900000;-128705800000;-151461200000;44725700000;407662400000;464622700000;-352899600000;-1318670000000;-572696000000;1440006000000;1383511000000;-1059873000000;-1583383000000;740613400000;1370677000000;-616998300000;-1012685000000;596429700000;655304300000;-594612700000;-343613500000;578597200000;59241370000;-509274800000;211083700000;317735000000;-389562000000;-185114800;0;-3870286000;15435350000;156441200000;421017300000;423831500000;-245106400000;-975929900000;-471830200000;903286600000;931590300000;-641493900000;-1083576000000;375892900000;955849100000;-243090300000;-718871200000;213689700000;489468600000;-221793600000;-306027300000;233421000000;163150700000;-238130100000;-37624010000;220470400000;-86383810000;-145495600000;178124000000;-259450500;0;0];
[-23573700000;31490420000;169750100000;158268400000;-128667900000;-349438000000;-321366000000;-482944400000;-588506100000;466695700000;1704585000000;502986300000;-1804683000000;-1068689000000;1420505000000;964665800000;-1060050000000;-544456200000;778253700000;112374100000;-501075700000;185824800000;200704900000;-297271500000;89647130000;211083700000;-283013200000;27401580000;268010800000;-261859600000;0;26977310000;78870830000;-30210380000;-572120500000;-1236741000000;-901372900000;701077300000;1542066000000;36806730000;-1568134000000;-555495200000;1181480000000;634070000000;-753016700000;-445683000000;450013600000;223010600000;-260900900000;-64302640000;140294900000;-26599920000;-52324980000;66437370000;-25100640000;-56832660000;88343200000;-7245514000;-99364710000;94782550000;0;0];
[12842620000;-71869570000;-209024200000;-108452300000;299517300000;389940400000;-205949000000;-320787100000;969884700000;1563364000000;-601296900000;-2457396000000;-374073400000;2260908000000;802984400000;-1659522000000;-690763400000;1103783000000;419616200000;-683305900000;-228237900000;408584500000;161454400000;-296454100000;-134477900000;317735000000;27401580000;-345263400000;183723800000;216442800000;0;-32046800000;-146971800000;-256526500000;-3275257000;850848300000;1552139000000;765209700000;-1079756000000;-1464140000000;319836700000;1469711000000;266741800000;-1047916000000;-448731300000;631750600000;399468300000;-373747800000;-296012400000;248266000000;203547700000;-198461800000;-126952900000;183248000000;54553040000;-175098500000;24848470000;145874500000;-105242600000;-68122650000;0;0];
[-9012671000;37329090000;98524680000;8448154000;-269523700000;-294043800000;477856700000;1303393000000;271199200000;-2154005000000;-2055993000000;1406741000000;2776032000000;-419218900000;-2388591000000;58010920000;1698254000000;-127490600000;-1089514000000;291989500000;628492700000;-405489000000;-281825000000;445700500000;-10129260000;-389562000000;268010800000;183723800000;-400563100000;141821200000;0;11474240000;108037400000;395402500000;765226000000;557114400000;-708348000000;-1808458000000;-796390300000;1453429000000;1612473000000;-620044400000;-1574717000000;54374070000;1142709000000;100872200000;-737514300000;-50253710000;464423100000;-49266210000;-283819900000;136048900000;139066600000;-183177100000;-656345200;166208800000;-120214500000;-71569560000;174572200000;-70674450000;0;0];
[11877820000;39220250000;80482640000;72935040000;30194780000;121836800000;2727655000;-1052928000000;-1925588000000;-117680200000;2886610000000;2001688000000;-2050728000000;-2463794000000;1105127000000;1899037000000;-651067600000;-1116345000000;460776900000;476140400000;-290711900000;-72781800000;68734660000;-79233060000;154999300000;-185114800;-261859600000;216442800000;141821200000;-361237000000;0;21485160000;39709550000;-150394200000;-868129100000;-1701775000000;-1201747000000;974227600000;2250693000000;453323500000;-1947245000000;-1280776000000;1060655000000;1218456000000;-427724400000;-817393400000;150765700000;460440100000;-58281280000;-227839900000;22008460000;92958850000;15058720000;-33780470000;-58933690000;43871710000;77449610000;-99030190000;-31961030000;136237200000;0;0];
[0;0;0;0;0;0;0;0;0;0;0;0;0;0;0;0;0;0;0;0;0;0;0;0;0;0;0;0;0;0;0;0;0;0;0;0;0;0;0;0;0;0;0;0;0;0;0;0;0;0;0;0;0;0;0;0;0;0;0;0;0;0];
[1283915000000000;661256700000000;147835700000000;-20545690000000;-12463760000000;26732670000000;23051060000000;-2485137000000;-8975078000000;180945600000;3132539000000;-376011300000;-1026268000000;365397400000;258195500000;-211771200000;-18021300000;85900280000;-28491840000;-25831330000;31405410000;-8141873000;-16210300000;26835610000;-18846860000;-3870286000;26977310000;-32046800000;11474240000;21485160000;0;-442901600000000;-326911200000000;-121719400000000;-2444661000000;18295980000000;4074968000000;-2890967000000;-1012381000000;614490400000;222435100000;-173915000000;-47479720000;63429460000;7399478000;-32314830000;9410902000;15661290000;-19068350000;5436897000;9637143000;-14487140000;7909183000;2549541000;-8044720000;5680257000;190296200;-2998271000;227922600;4680480000;0;0];
[816658500000000;1121933000000000;526975300000000;80502280000000;-404524200000;90743180000000;101672700000000;13658840000000;-36809120000000;-11129470000000;13246670000000;3428515000000;-5332320000000;-202534800000;2026896000000;-544659500000;-575776800000;434422000000;41420260000;-203100500000;103480800000;15477420000;-65386240000;77334200000;-68380760000;15435350000;78870830000;-146971800000;108037400000;39709550000;0;-326911200000000;-520402800000000;-362094400000000;-101580200000000;32761290000000;31350780000000;-1199055000000;-7420466000000;82573470000;1927792000000;-228395200000;-537496600000;195820400000;130306600000;-119485900000;-3085672000;55636040000;-31451400000;-10707760000;30714040000;-20709540000;-5992618000;27098330000;-25521820000;2082499000;24221690000;-31250410000;12295920000;17786480000;0;0];
[174471400000000;678460500000000;760268400000000;380521400000000;173108200000000;244848500000000;266449900000000;87050760000000;-75709100000000;-54955680000000;23408820000000;21411950000000;-10948750000000;-6473054000000;5777453000000;858059100000;-2587611000000;660720600000;763568700000;-617244900000;-5629477000;223477200000;-78652000000;-24639400000;-65110780000;156441200000;-30210380000;-256526500000;395402500000;-150394200000;0;-121719400000000;-362094400000000;-464681200000000;-270825800000000;-19815190000000;67943300000000;25060190000000;-13709800000000;-7772101000000;3851714000000;1839438000000;-1433751000000;-230404600000;524622200000;-100121200000;-148416200000;101502400000;14720610000;-59736980000;37332160000;4315501000;-35336080000;44739660000;-28367260000;-8900854000;47397200000;-60175860000;32626900000;22333760000;0;0];
[-68288680000000;100407700000000;467538800000000;634784100000000;564271500000000;559003500000000;517659100000000;239954500000000;-80143720000000;-131077100000000;6175115000000;53221780000000;-4635535000000;-20796450000000;6216426000000;6778262000000;-4835450000000;-979521200000;2486965000000;-713771900000;-801522200000;742214800000;90070320000;-533805700000;200528000000;421017300000;-572120500000;-3275257000;765226000000;-868129100000;0;-2444661000000;-101580200000000;-270825800000000;-301992200000000;-118499800000000;57422000000000;69007230000000;1414690000000;-20945350000000;-1678614000000;6279562000000;-177167700000;-1884107000000;511982100000;465300800000;-344970500000;-31389470000;156478700000;-72402070000;-30567230000;58782140000;-27910190000;-8828163000;18005950000;-4051228000;-5549114000;-8522909000;34290320000;-36050650000;0;0];
[-27580060000000;-58579620000000;131716600000000;547055300000000;873047700000000;942233400000000;806481100000000;442333100000000;-2004973000000;-185630400000000;-56200350000000;67944850000000;24308740000000;-30068870000000;-4701964000000;13774540000000;-2498080000000;-4964805000000;3351614000000;553026300000;-1974420000000;1035059000000;433102300000;-1142004000000;711436900000;423831500000;-1236741000000;850848300000;557114400000;-1701775000000;0;18295980000000;32761290000000;-19815190000000;-118499800000000;-119378700000000;3852998000000;81671290000000;38898450000000;-19661730000000;-16848050000000;5831028000000;5344763000000;-2584308000000;-1278570000000;1212207000000;51602840000;-460934600000;193491300000;84946350000;-146514800000;73310520000;26703440000;-94006750000;89875830000;-5519316000;-102677100000;133851900000;-34710210000;-125432800000;0;0];
[17500620000000;13616280000000;46276150000000;293857200000000;730875000000000;1030301000000000;970536200000000;616639400000000;152133400000000;-147856900000000;-125934200000000;29065580000000;54809960000000;-13509810000000;-20981490000000;10384210000000;5686719000000;-6533263000000;481386400000;2475957000000;-1637268000000;170992400000;503580700000;-774668000000;828175300000;-245106400000;-901372900000;1552139000000;-708348000000;-1201747000000;0;4074968000000;31350780000000;67943300000000;57422000000000;3852998000000;-1174463000000;52186870000000;59314670000000;4359898000000;-25016400000000;-5230956000000;9395539000000;1220951000000;-3611336000000;385170700000;1211049000000;-572054200000;-220022500000;313862200000;-80006470000;-50837310000;42406420000;-39754670000;82896480000;-74200540000;-52812750000;202410200000;-190799600000;-41480260000;0;0];
[4299249000000;23504370000000;29704100000000;71446030000000;276627000000000;603280700000000;778890100000000;643357300000000;308470700000000;-12169780000000;-131225600000000;-45775650000000;45013100000000;21929460000000;-20135550000000;-5734716000000;9934634000000;-855075400000;-3922969000000;2014206000000;848917800000;-1203138000000;-65284820000;710171400000;22769740000;-975929900000;701077300000;765209700000;-1808458000000;974227600000;0;-2890967000000;-1199055000000;25060190000000;69007230000000;81671290000000;52186870000000;36124790000000;44052850000000;24584650000000;-12537630000000;-15900650000000;3829945000000;6548369000000;-2302850000000;-2101849000000;1483260000000;327363900000;-734730700000;183768400000;247948300000;-210457300000;-42255630000;166233600000;-49769500000;-146576100000;176785500000;29378170000;-268194100000;253749100000;0;0];
[-5988488000000;-12758790000000;-22826180000000;-61350800000000;-84284030000000;29059690000000;267209900000000;421950300000000;353376700000000;138927100000000;-49849020000000;-86109180000000;-7611261000000;35965900000000;4217869000000;-15605480000000;1436913000000;6132702000000;-3030287000000;-1214997000000;2132728000000;-905758400000;-540392300000;1255332000000;-844559300000;-471830200000;1542066000000;-1079756000000;-796390300000;2250693000000;0;-1012381000000;-7420466000000;-13709800000000;1414690000000;38898450000000;59314670000000;44052850000000;27013560000000;21796630000000;5245453000000;-11960780000000;-6151208000000;5364538000000;2430085000000;-2666304000000;-321619300000;1187446000000;-364315400000;-311906800000;352310100000;-111664900000;-106144000000;205973900000;-148906200000;-53763020000;251425800000;-227822700000;-57268880000;353028100000;0;0];
[96922340000;-8439968000000;-25661100000000;-62153930000000;-137131000000000;-201237000000000;-136078500000000;60804610000000;213859300000000;193071900000000;57102240000000;-51301070000000;-49353200000000;9156065000000;23235480000000;-4123730000000;-9440393000000;3737590000000;2793185000000;-2425624000000;-208806600000;874458100000;5587606000;-312963100000;-451121900000;903286600000;36806730000;-1464140000000;1453429000000;453323500000;0;614490400000;82573470000;-7772101000000;-20945350000000;-19661730000000;4359898000000;24584650000000;21796630000000;13672010000000;9866592000000;-343665100000;-7767801000000;-1497619000000;4011824000000;303959600000;-1831289000000;375425800000;621370600000;-385151100000;-88925780000;171635300000;-1842184000;-69426390000;-45891360000;141770000000;-28217390000;-198632000000;249424800000;1324226000;0;0];
[1875060000000;6910338000000;10810340000000;11159490000000;-8737504000000;-75241360000000;-152543600000000;-136756800000000;-8816895000000;104339700000000;100513300000000;19583090000000;-37612640000000;-24184900000000;12262360000000;12345810000000;-6163730000000;-4519362000000;3953849000000;549555200000;-2155213000000;1037330000000;622886200000;-1363431000000;616111000000;931590300000;-1568134000000;319836700000;1612473000000;-1947245000000;0;222435100000;1927792000000;3851714000000;-1678614000000;-16848050000000;-25016400000000;-12537630000000;5245453000000;9866592000000;7463065000000;4636416000000;-1765558000000;-4484703000000;399517000000;2451286000000;-571219300000;-998181600000;600103800000;186672900000;-383178600000;157130100000;115366700000;-227619300000;111936900000;131743200000;-255794000000;96663780000;205654800000;-319867000000;0;0];
[-620519300000;1663703000000;10725470000000;28718200000000;53359530000000;60610740000000;11981450000000;-72639370000000;-99328610000000;-30174320000000;48599680000000;53661360000000;6278186000000;-24339700000000;-10888760000000;10111300000000;5634829000000;-5052218000000;-1643153000000;2435668000000;-5599689000;-724122500000;-37339900000;119869900000;620114700000;-641493900000;-555495200000;1469711000000;-620044400000;-1280776000000;0;-173915000000;-228395200000;1839438000000;6279562000000;5831028000000;-5230956000000;-15900650000000;-11960780000000;-343665100000;4636416000000;4038474000000;2110510000000;-1602403000000;-2325358000000;811339100000;1255895000000;-639042200000;-411412700000;399283300000;22525670000;-134096000000;11581790000;19519640000;76228720000;-92134550000;-61332480000;203338200000;-119433900000;-136971800000;0;0];
[-386898400000;-3079098000000;-6642405000000;-6559077000000;5081491000000;33339050000000;58123130000000;37025090000000;-27494500000000;-62793160000000;-27403120000000;23851330000000;29439470000000;1221532000000;-14974590000000;-4281458000000;7284649000000;2040169000000;-3940170000000;-20096440000;2049493000000;-987976300000;-736917800000;1281276000000;-293165200000;-1083576000000;1181480000000;266741800000;-1574717000000;1060655000000;0;-47479720000;-537496600000;-1433751000000;-177167700000;5344763000000;9395539000000;3829945000000;-6151208000000;-7767801000000;-1765558000000;2110510000000;2316489000000;1030112000000;-1192903000000;-1174822000000;770310200000;591882200000;-571187500000;-102432300000;342681100000;-138646800000;-119842800000;196835700000;-58977040000;-143922900000;185114200000;-3351955000;-199051700000;181804300000;0;0];
[353302000000;375882300000;-2758675000000;-11315610000000;-22803520000000;-25327390000000;-3975196000000;30546410000000;35641370000000;-2917169000000;-34869310000000;-19734340000000;11748440000000;16303050000000;-264587600000;-8681674000000;-1389557000000;4363555000000;507771300000;-2038250000000;119777000000;635508700000;26245630000;-79158320000;-522025700000;375892900000;634070000000;-1047916000000;54374070000;1218456000000;0;63429460000;195820400000;-230404600000;-1884107000000;-2584308000000;1220951000000;6548369000000;5364538000000;-1497619000000;-4484703000000;-1602403000000;1030112000000;1329671000000;473904600000;-772031300000;-538254900000;520627100000;228674100000;-316417900000;-14872850000;116127700000;-7202777000;-16843180000;-60184110000;54180640000;69660910000;-138763900000;34008740000;131623900000;0;0];
[-34303370000;985559000000;3580081000000;5607673000000;2006839000000;-10184130000000;-22196410000000;-14884670000000;12477890000000;26455680000000;5869594000000;-18487570000000;-13088060000000;6027408000000;9357003000000;-668985400000;-5272707000000;-142473400000;2985520000000;-350541200000;-1656449000000;849037100000;707652500000;-1059845000000;73231550000;955849100000;-753016700000;-448731300000;1142709000000;-427724400000;0;7399478000;130306600000;524622200000;511982100000;-1278570000000;-3611336000000;-2302850000000;2430085000000;4011824000000;399517000000;-2325358000000;-1192903000000;473904600000;799078600000;241591200000;-520624700000;-247038800000;394630200000;49754010000;-262137300000;102048900000;110688600000;-152028300000;22559930000;120615300000;-115533800000;-29145550000;138067300000;-81735130000;0;0];
[-85580810000;-515893000000;-207263900000;3006710000000;9266560000000;12942460000000;5706606000000;-9866681000000;-14630140000000;1447408000000;16151420000000;7158827000000;-9233377000000;-8029213000000;3038979000000;5086676000000;-530772400000;-2736374000000;56733360000;1358096000000;-86462030000;-515693000000;-43753020000;131729500000;336381700000;-243090300000;-445683000000;631750600000;100872200000;-817393400000;0;-32314830000;-119485900000;-100121200000;465300800000;1212207000000;385170700000;-2101849000000;-2666304000000;303959600000;2451286000000;811339100000;-1174822000000;-772031300000;241591200000;441743600000;106881200000;-280475100000;-109692000000;189700600000;29656140000;-92982690000;-5594275000;29626590000;33980090000;-36518960000;-42979420000;77615610000;-3980856000;-83386680000;0;0];
[51130230000;-139545300000;-1339124000000;-3474489000000;-3990474000000;367892700000;7489497000000;7947338000000;-2545389000000;-10791180000000;-3123883000000;8939576000000;6155516000000;-4575353000000;-5144360000000;1683687000000;3163046000000;-583546500000;-1878251000000;459491800000;1128057000000;-643401900000;-552722700000;778433600000;22420210000;-718871200000;450013600000;399468300000;-737514300000;150765700000;0;9410902000;-3085672000;-148416200000;-344970500000;51602840000;1211049000000;1483260000000;-321619300000;-1831289000000;-571219300000;1255895000000;770310200000;-538254900000;-520624700000;106881200000;295522900000;44763580000;-215753900000;-15722550000;165062300000;-62527660000;-85513360000;103343700000;-2734371000;-87441880000;66269490000;32363890000;-85148710000;32149070000;0;0];
[-14819700000;240038200000;689961000000;198160400000;-2493195000000;-5814187000000;-4963515000000;1617142000000;6269441000000;1258746000000;-6307060000000;-3770611000000;4285353000000;4104838000000;-1998784000000;-2809192000000;684520200000;1519031000000;-127265700000;-781856100000;-29836860000;387648300000;96622080000;-196538300000;-192722100000;213689700000;223010600000;-373747800000;-50253710000;460440100000;0;15661290000;55636040000;101502400000;-31389470000;-460934600000;-572054200000;327363900000;1187446000000;375425800000;-998181600000;-639042200000;591882200000;520627100000;-247038800000;-280475100000;44763580000;131132200000;40442270000;-85948460000;-39744550000;62317740000;20051180000;-37879470000;-16978920000;31076930000;16549210000;-41111140000;1087481000;44482150000;0;0];
[14011750000;-51481800000;173403000000;1343750000000;2914859000000;2503609000000;-1042662000000;-3891711000000;-1107928000000;3986657000000;2711934000000;-3370450000000;-3542740000000;2106362000000;3036795000000;-1135058000000;-1976262000000;641310800000;1139209000000;-442601800000;-675383300000;449035800000;360935900000;-512730600000;-48233430000;489468600000;-260900900000;-296012400000;464423100000;-58281280000;0;-19068350000;-31451400000;14720610000;156478700000;193491300000;-220022500000;-734730700000;-364315400000;621370600000;600103800000;-411412700000;-571187500000;228674100000;394630200000;-109692000000;-215753900000;40442270000;118176500000;-15479610000;-85130520000;35657430000;53093470000;-60359380000;-6226055000;57696460000;-35067950000;-28203810000;52941250000;-12140760000;0;0];
[-14093420000;-65669190000;-337655300000;-709207300000;-301574500000;1344484000000;2523411000000;939941200000;-1937662000000;-1668144000000;1613153000000;2188857000000;-1052934000000;-2154094000000;469633200000;1572981000000;-138395100000;-913301500000;-29691380000;479752000000;122387400000;-294933500000;-135884200000;228664900000;113838100000;-221793600000;-64302640000;248266000000;-49266210000;-227839900000;0;5436897000;-10707760000;-59736980000;-72402070000;84946350000;313862200000;183768400000;-311906800000;-385151100000;186672900000;399283300000;-102432300000;-316417900000;49754010000;189700600000;-15722550000;-85948460000;-15479610000;39402720000;33777720000;-35689910000;-26153360000;35521330000;11029560000;-29732490000;-1195631000;25555620000;-7842008000;-21612980000;0;0];
[-4844841000;46779350000;119430900000;-198785900000;-1234054000000;-2043074000000;-950164700000;1354482000000;1461854000000;-1124690000000;-1817180000000;976891600000;2014293000000;-711495800000;-1767934000000;529137100000;1240539000000;-448445800000;-723820800000;374920800000;381286500000;-312595100000;-198608600000;309816400000;43327950000;-306027300000;140294900000;203547700000;-283819900000;22008460000;0;9637143000;30714040000;37332160000;-30567230000;-146514800000;-80006470000;247948300000;352310100000;-88925780000;-383178600000;22525670000;342681100000;-14872850000;-262137300000;29656140000;165062300000;-39744550000;-85130520000;33777720000;41904470000;-26506160000;-25257720000;31738950000;7186430000;-34938350000;16824960000;22220630000;-33641790000;4971396000;0;0];
[28701660000;9812331000;25322370000;338870900000;842585200000;768185200000;-283013800000;-1104212000000;-259600100000;1068091000000;473639900000;-1063782000000;-572624400000;999209600000;559586900000;-824443400000;-430848000000;595888900000;279485000000;-388958000000;-188098600000;266571600000;141488700000;-236558300000;-74148710000;233421000000;-26599920000;-198461800000;136048900000;92958850000;0;-14487140000;-20709540000;4315501000;58782140000;73310520000;-50837310000;-210457300000;-111664900000;171635300000;157130100000;-134096000000;-138646800000;116127700000;102048900000;-92982690000;-62527660000;62317740000;35657430000;-35689910000;-26506160000;25416630000;22188770000;-28616820000;-9525887000;28785310000;-5681577000;-21389310000;16936900000;8231841000;0;0];
[-35920470000;-32874400000;-23854620000;-13966310000;208046200000;573056700000;446888800000;-262859400000;-438844400000;345020000000;568071700000;-433983000000;-741526800000;388251900000;740865900000;-321797200000;-581155100000;285190100000;370979200000;-249790100000;-195914600000;200703300000;92449940000;-167234000000;-30645780000;163150700000;-52324980000;-126952900000;139066600000;15058720000;0;7909183000;-5992618000;-35336080000;-27910190000;26703440000;42406420000;-42255630000;-106144000000;-1842184000;115366700000;11581790000;-119842800000;-7202777000;110688600000;-5594275000;-85513360000;20051180000;53093470000;-26153360000;-25257720000;22188770000;10337200000;-17559480000;-3904751000;18345750000;-6370457000;-14456010000;17567150000;-276103500;0;0];
[20872280000;21016620000;13467220000;-137863200000;-659500400000;-1101696000000;-463267400000;870222100000;831080300000;-779132500000;-1088452000000;662846200000;1146311000000;-555765100000;-990208900000;492660900000;720690400000;-436373500000;-448016400000;358737100000;249362600000;-280654700000;-136771100000;243795500000;51856110000;-238130100000;66437370000;183248000000;-183177100000;-33780470000;0;2549541000;27098330000;44739660000;-8828163000;-94006750000;-39754670000;166233600000;205973900000;-69426390000;-227619300000;19519640000;196835700000;-16843180000;-152028300000;29626590000;103343700000;-37879470000;-60359380000;35521330000;31738950000;-28616820000;-17559480000;26401840000;7095864000;-27674120000;8706585000;20476560000;-22817260000;-1356792000;0;0];
[4833715000;2678450000;-51281930000;-52758270000;230018100000;678716800000;641175100000;-160919700000;-781639300000;-225631000000;707832600000;501925400000;-428097600000;-498912000000;188443100000;349199700000;-60730360000;-202552300000;5460270000;110761400000;14323670000;-63544210000;-19319100000;40035310000;24487100000;-37624010000;-25100640000;54553040000;-656345200;-58933690000;0;-8044720000;-25521820000;-28367260000;18005950000;89875830000;82896480000;-49769500000;-148906200000;-45891360000;111936900000;76228720000;-58977040000;-60184110000;22559930000;33980090000;-2734371000;-16978920000;-6226055000;11029560000;7186430000;-9525887000;-3904751000;7095864000;1785230000;-5071747000;-1538622000;5833468000;-966107300;-5546724000;0;0];
[-24687900000;-24365320000;64005270000;262581100000;481719500000;354602900000;-367119500000;-896062600000;-98728580000;1141295000000;616340100000;-1057368000000;-902914100000;794687900000;853792500000;-573684800000;-637419900000;429274000000;410377600000;-330616200000;-241474200000;264064800000;132686400000;-231957100000;-47193720000;220470400000;-56832660000;-175098500000;166208800000;43871710000;0;5680257000;2082499000;-8900854000;-4051228000;-5519316000;-74200540000;-146576100000;-53763020000;141770000000;131743200000;-92134550000;-143922900000;54180640000;120615300000;-36518960000;-87441880000;31076930000;57696460000;-29732490000;-34938350000;28785310000;18345750000;-27674120000;-5071747000;25902230000;-8615175000;-18819140000;20869150000;1853264000;0;0];
[29043530000;36555540000;10916340000;-147495400000;-657530900000;-1164709000000;-616135700000;908754400000;1269183000000;-473013100000;-1585491000000;-74443520000;1357672000000;292354800000;-935396500000;-220929000000;574157300000;76333610000;-323775800000;27448690000;163963400000;-78838940000;-61867270000;97736520000;-17016300000;-86383810000;88343200000;24848470000;-120214500000;77449610000;0;190296200;24221690000;47397200000;-5549114000;-102677100000;-52812750000;176785500000;251425800000;-28217390000;-255794000000;-61332480000;185114200000;69660910000;-115533800000;-42979420000;66269490000;16549210000;-35067950000;-1195631000;16824960000;-5681577000;-6370457000;8706585000;-1538622000;-8615175000;9540632000;2349144000;-13593770000;9491275000;0;0];
[-19081070000;-28791150000;-115019500000;-245174800000;24357870000;904766800000;1437929000000;397413900000;-1336765000000;-1231317000000;771169000000;1504112000000;-132201300000;-1211993000000;-162766900000;792121300000;199777400000;-471612100000;-155744500000;277958700000;113798800000;-180019100000;-86056830000;145178200000;57456570000;-145495600000;-7245514000;145874500000;-71569560000;-99030190000;0;-2998271000;-31250410000;-60175860000;-8522909000;133851900000;202410200000;29378170000;-227822700000;-198632000000;96663780000;203338200000;-3351955000;-138763900000;-29145550000;77615610000;32363890000;-41111140000;-28203810000;25555620000;22220630000;-21389310000;-14456010000;20476560000;5833468000;-18819140000;2349144000;15364320000;-9908165000;-8450623000;0;0];
[3485918000;-4250832000;119719000000;505422300000;843584300000;403991500000;-942873100000;-1686288000000;-245342300000;1824457000000;1274552000000;-1180240000000;-1491918000000;549821800000;1160518000000;-256264400000;-748475200000;174314500000;443765200000;-165809300000;-252322500000;177804900000;124161000000;-190910400000;-11827360000;178124000000;-99364710000;-105242600000;174572200000;-31961030000;0;227922600;12295920000;32626900000;34290320000;-34710210000;-190799600000;-268194100000;-57268880000;249424800000;205654800000;-119433900000;-199051700000;34008740000;138067300000;-3980856000;-85148710000;1087481000;52941250000;-7842008000;-33641790000;16936900000;17567150000;-22817260000;-966107300;20869150000;-13593770000;-9908165000;20517400000;-6495303000;0;0];
[8123578000;47375250000;25038490000;-281622900000;-1016902000000;-1617253000000;-815014400000;1309998000000;2053898000000;-174753400000;-2217090000000;-823929500000;1493041000000;977012100000;-796655700000;-686472700000;396542900000;369811100000;-198307800000;-155987000000;92474800000;35305140000;-16382350000;15273600000;-52112780000;-259450500;94782550000;-68122650000;-70674450000;136237200000;0;4680480000;17786480000;22333760000;-36050650000;-125432800000;-41480260000;253749100000;353028100000;1324226000;-319867000000;-136971800000;181804300000;131623900000;-81735130000;-83386680000;32149070000;44482150000;-12140760000;-21612980000;4971396000;8231841000;-276103500;-1356792000;-5546724000;1853264000;9491275000;-8450623000;-6495303000;14890940000;0;0];
[0;0;0;0;0;0;0;0;0;0;0;0;0;0;0;0;0;0;0;0;0;0;0;0;0;0;0;0;0;0;0;0;0;0;0;0;0;0;0;0;0;0;0;0;0;0;0;0;0;0;0;0;0;0;0;0;0;0;0;0;0;0];
[0;0;0;0;0;0;0;0;0;0;0;0;0;0;0;0;0;0;0;0;0;0;0;0;0;0;0;0;0;0;0;0;0;0;0;0;0;0;0;0;0;0;0;0;0;0;0;0;0;0;0;0;0;0;0;0;0;0;0;0;0;0]].
(** :627 *)
Definition coup3dg : list (list Z) := [
[-295448700000000;-548961200000000;-472569900000000;-260752600000000;-127879400000000;-52268360000000;9210795000000;23487570000000;1006477000000;-7735577000000;261770200000;2340516000000;-592398300000;-530784900000;340415700000;33684810000;-110718200000;33350680000;21063080000;-19122690000;-3686142000;16226120000;-9794021000;-7736374000;21069900000;-17662730000;-2303977000;23337200000;-25451760000;2723484000;0;-2314180000000000;-1511051000000000;-357660400000000;125767000000000;84382300000000;-16178960000000;-18069540000000;4309507000000;3871286000000;-1611236000000;-705129900000;570527500000;77691810000;-186493400000;-3865434000;102687900000;-40812070000;-58632960000;88106340000;-37094540000;-35090370000;66966950000;-43875680000;-1699190000;27730390000;-20052240000;-1621505000;8528267000;8207534000;0;0];
[-548961200000000;-995581000000000;-1140262000000000;-976587000000000;-695855300000000;-355990100000000;-25747610000000;109214700000000;38955630000000;-31707750000000;-13057560000000;11435040000000;2352823000000;-4197062000000;434333700000;1210262000000;-616624300000;-136708200000;302587000000;-139805600000;-40400000000;129246300000;-113854100000;11434930000;114916200000;-162449100000;64248300000;126351500000;-245851700000;153426400000;0;-1234724000000000;-2214587000000000;-1348016000000000;-127466800000000;263551900000000;73040470000000;-60810950000000;-19061370000000;18071670000000;3168194000000;-5954617000000;367127400000;1822525000000;-695986800000;-398584200000;417839900000;-12284840000;-195345100000;114885300000;66469820000;-162241300000;101831100000;56145400000;-178259400000;159421000000;-9469709000;-150978500000;189187700000;-72374860000;0;0];
[-472569900000000;-1140262000000000;-1783432000000000;-2127637000000000;-1983564000000000;-1282157000000000;-327114600000000;248663800000000;197016400000000;-44703960000000;-69714400000000;16961620000000;21463290000000;-9695289000000;-4738999000000;4729820000000;-174210200000;-1512327000000;836629300000;-8655598000;-283881900000;310935800000;-272734400000;103947800000;235367000000;-531871700000;435150300000;155524500000;-831494600000;917897900000;0;-384478400000000;-1236035000000000;-1663579000000000;-768754300000000;184377900000000;274056600000000;-22568620000000;-85786350000000;11606530000000;26575940000000;-8687457000000;-7018496000000;5007669000000;861926200000;-2123679000000;510400900000;617377300000;-511737100000;-12120090000;301365200000;-270181800000;64148550000;178023200000;-328490200000;270513500000;5210283000;-330734800000;450579200000;-230110400000;0;0];
[-260752600000000;-976587000000000;-2127637000000000;-3285213000000000;-3737867000000000;-2945198000000000;-1220809000000000;225175500000000;504460200000000;59623380000000;-163969800000000;-25186660000000;57987960000000;257761100000;-19999310000000;5470510000000;4989624000000;-3779810000000;4596259000;1181561000000;-569734700000;845475600;-48384560000;284902600000;-98926090000;-606509400000;1138499000000;-596871100000;-1003354000000;2306111000000;0;676226600000;-249975100000000;-760292800000000;-875425800000000;-204755100000000;286312000000000;130567700000000;-99313250000000;-45093420000000;42016810000000;9268408000000;-18091870000000;1732458000000;6426692000000;-3115744000000;-1273288000000;1836870000000;-360812300000;-568203300000;444517800000;-35223580000;-104107800000;50463550000;-71021790000;180060800000;-161536200000;-102037400000;422903100000;-456197300000;0;0];
[-127879400000000;-695855300000000;-1983564000000000;-3737867000000000;-5006962000000000;-4695090000000000;-2676714000000000;-314915600000000;738934000000000;363843100000000;-178580100000000;-142572100000000;63955670000000;43729640000000;-30143500000000;-8096619000000;13046360000000;-1846714000000;-3792092000000;2450412000000;53295040000;-1072748000000;776852900000;223040000000;-1061704000000;647912900000;1052294000000;-2267947000000;1024195000000;2255190000000;0;73488710000000;168431800000000;98114320000000;-190633100000000;-289816300000000;18975180000000;170846400000000;4155805000000;-78284980000000;7383326000000;32112350000000;-11353400000000;-10016260000000;8429143000000;848207700000;-3997609000000;1515322000000;1035417000000;-1218030000000;103038900000;604080800000;-365807400000;-247257700000;477332800000;-119902400000;-400434300000;515863800000;-72585130000;-526937200000;0;0];
[-52268360000000;-355990100000000;-1282157000000000;-2945198000000000;-4695090000000000;-5282845000000000;-3931549000000000;-1392619000000000;492740300000000;697671200000000;31118850000000;-240785200000000;-23423390000000;87040660000000;-2903388000000;-30669390000000;9302655000000;7804156000000;-6160597000000;159481800000;1602262000000;-1051449000000;997518200000;-720436500000;-987363900000;2598051000000;-1412289000000;-2347327000000;4663554000000;-1956968000000;0;33041030000000;149920500000000;312647300000000;314840600000000;71149670000000;-104909000000000;1896177000000;67898100000000;-14620800000000;-33216970000000;16024630000000;10919050000000;-11442270000000;-353822200000;5404760000000;-2514354000000;-1161009000000;1876509000000;-617266300000;-564279100000;795124000000;-308157900000;-310600300000;582492400000;-333267600000;-229432300000;640014600000;-522555000000;-80258810000;0;0];
[9210795000000;-25747610000000;-327114600000000;-1220809000000000;-2676714000000000;-3931549000000000;-3914321000000000;-2349512000000000;-329715100000000;664788500000000;378394800000000;-147238800000000;-155971100000000;51195100000000;53052690000000;-27244090000000;-13181000000000;13788930000000;288554800000;-5126525000000;1440778000000;1745270000000;-610320900000;-2020808000000;1713690000000;1988407000000;-4601971000000;1830487000000;4591557000000;-7632681000000;0;-2814626000000;20526860000000;117472300000000;250285100000000;247251900000000;50992860000000;-86776760000000;-9959514000000;43398760000000;-8008806000000;-18522550000000;10590820000000;4336799000000;-6791081000000;1314843000000;2378552000000;-1879541000000;7785891000;803307300000;-449723200000;-71234040000;169784600000;-837481000;-59005040000;-80798990000;200518700000;-90620780000;-189857500000;365834900000;0;0];
[23487570000000;109214700000000;248663800000000;225175500000000;-314915600000000;-1392619000000000;-2349512000000000;-2308108000000000;-1164487000000000;110598600000000;507650500000000;132257600000000;-165323800000000;-64131820000000;63125020000000;16954640000000;-26737370000000;902378600000;9673541000000;-4549897000000;-1514629000000;3417189000000;-2065725000000;-1234056000000;3789318000000;-2147307000000;-3174345000000;6292971000000;-2190950000000;-6217150000000;0;-8732015000000;-32700300000000;-51337830000000;-10272750000000;84685120000000;111485500000000;12860950000000;-54376770000000;2701940000000;28279600000000;-10192420000000;-10886110000000;9137479000000;1300902000000;-4822731000000;1845700000000;1175854000000;-1551855000000;457525600000;451146900000;-617005600000;268100200000;193441100000;-440042000000;305759300000;114783600000;-483180500000;460373900000;-11687570000;0;0];
[1006477000000;38955630000000;197016400000000;504460200000000;738934000000000;492740300000000;-329715100000000;-1164487000000000;-1253466000000000;-536347800000000;208757800000000;316930300000000;9027515000000;-124231100000000;-9958231000000;48246250000000;-2512632000000;-17455930000000;5250599000000;4476518000000;-2524591000000;-790866300000;-431297300000;2093032000000;396890400000;-4348850000000;3383053000000;3164112000000;-7853455000000;3748227000000;0;-1545779000000;-13808990000000;-48505810000000;-86751260000000;-71467650000000;7594197000000;55195760000000;9925546000000;-29529680000000;3952731000000;15327040000000;-8608616000000;-4798775000000;6657052000000;-683136700000;-2902640000000;1812736000000;374600200000;-1007181000000;355479900000;246589300000;-215515700000;-89068260000;144822800000;106375400000;-305650200000;155964300000;236034000000;-477044400000;0;0];
[-7735577000000;-31707750000000;-44703960000000;59623380000000;363843100000000;697671200000000;664788500000000;110598600000000;-536347800000000;-666687200000000;-235154600000000;184231300000000;175559400000000;-36039860000000;-77345010000000;13583830000000;29863110000000;-10485370000000;-9440638000000;7643538000000;1238314000000;-4994411000000;2109538000000;3124229000000;-4565860000000;-217311100000;6051634000000;-5133622000000;-3016416000000;9445501000000;0;2280087000000;7468950000000;8145201000000;-11438030000000;-44947540000000;-48232860000000;-2454670000000;31182980000000;5524534000000;-17852550000000;3601530000000;8605165000000;-6318635000000;-1724778000000;4344062000000;-1432742000000;-1401606000000;1576464000000;-336499500000;-579134300000;661910500000;-236145500000;-250480400000;471605500000;-290244800000;-150411300000;483861700000;-408067300000;-36653480000;0;0];
[261770200000;-13057560000000;-69714400000000;-163969800000000;-178580100000000;31118850000000;378394800000000;507650500000000;208757800000000;-235154600000000;-354617900000000;-99996980000000;131181300000000;88416230000000;-42047280000000;-41360910000000;18232570000000;14555360000000;-9367049000000;-2757483000000;3222563000000;-490795200000;1114389000000;-1074980000000;-2417856000000;4502124000000;-387005400000;-6044609000000;6141577000000;1883460000000;0;686186500000;4938250000000;16307650000000;28415360000000;21989000000000;-7019348000000;-24903950000000;-5695019000000;15968340000000;3043560000000;-10195930000000;2889651000000;4587249000000;-4318302000000;-310031400000;2636221000000;-1304875000000;-648975300000;1014209000000;-225848400000;-360534000000;242335500000;120531100000;-181096600000;-78990350000;280678000000;-153638300000;-183076700000;386721600000;0;0];
[2340516000000;11435040000000;16961620000000;-25186660000000;-142572100000000;-240785200000000;-147238800000000;132257600000000;316930300000000;184231300000000;-99996980000000;-192199500000000;-42485790000000;84809970000000;41563900000000;-34527600000000;-20105230000000;16645330000000;6771752000000;-9121862000000;-914100400000;5543835000000;-1539009000000;-3996399000000;3721338000000;2166848000000;-6008889000000;2061017000000;5561826000000;-7335624000000;0;-766218100000;-2469526000000;-2751327000000;4011043000000;16519580000000;19076510000000;2197100000000;-13468490000000;-5137437000000;8677809000000;1864802000000;-5928961000000;2042250000000;2361987000000;-2759958000000;357279300000;1376432000000;-1133126000000;48747440000;590339700000;-529103800000;127325400000;246442700000;-379641100000;215732100000;114584700000;-350850300000;300848700000;-5377277000;0;0];
[-592398300000;2352823000000;21463290000000;57987960000000;63955670000000;-23423390000000;-155971100000000;-165323800000000;9027515000000;175559400000000;131181300000000;-42485790000000;-106404100000000;-17651210000000;51751290000000;17415640000000;-23469960000000;-7213860000000;10686370000000;656838500000;-3547043000000;1367835000000;-986732800000;-10824210000;2951837000000;-3167388000000;-1550748000000;5635245000000;-2952515000000;-4163326000000;0;-165104800000;-1488627000000;-5369858000000;-10216910000000;-9121026000000;1272363000000;9881131000000;4151397000000;-6394624000000;-3682781000000;4620999000000;1129169000000;-3469406000000;1398247000000;1277554000000;-1772420000000;385323100000;834394400000;-758918400000;-13130110000;434173800000;-227830400000;-145122000000;223337800000;-2914881000;-205737200000;173681100000;46265900000;-231570700000;0;0];
[-530784900000;-4197062000000;-9695289000000;257761100000;43729640000000;87040660000000;51195100000000;-64131820000000;-124231100000000;-36039860000000;88416230000000;84809970000000;-17651210000000;-60257100000000;-7665171000000;31429780000000;7413043000000;-15910400000000;-3025260000000;8563202000000;268227200000;-5200821000000;1143657000000;3851512000000;-2653206000000;-2658196000000;4551298000000;-131655700000;-5042090000000;4200329000000;0;310932400000;1125744000000;1777797000000;-14844870000;-4871462000000;-7522321000000;-2491588000000;4722681000000;3534471000000;-2969846000000;-2479846000000;2462276000000;733262900000;-1981386000000;873778300000;590307000000;-989217900000;406786800000;255253000000;-436612900000;243245500000;10810200000;-167606900000;202226500000;-119837700000;-37262260000;170536600000;-184674100000;67182030000;0;0];
[340415700000;434333700000;-4738999000000;-19999310000000;-30143500000000;-2903388000000;53052690000000;63125020000000;-9958231000000;-77345010000000;-42047280000000;41563900000000;51751290000000;-7665171000000;-33820920000000;-2279378000000;17853400000000;1466769000000;-8521618000000;771671100000;2967497000000;-1576471000000;612169200000;534935800000;-2394676000000;1788974000000;1848761000000;-3884679000000;997700300000;3614392000000;0;-24575030000;266304700000;1524138000000;3707910000000;4391841000000;1052727000000;-3368028000000;-2763215000000;1752676000000;2422393000000;-1256366000000;-1575410000000;1334804000000;452557000000;-1205968000000;614241900000;331381300000;-699183100000;330686600000;220833600000;-391703500000;144780800000;159100000000;-222931800000;58953460000;125174700000;-164866300000;56147000000;90668520000;0;0];
[33684810000;1210262000000;4729820000000;5470510000000;-8096619000000;-30669390000000;-27244090000000;16954640000000;48246250000000;13583830000000;-41360910000000;-34527600000000;17415640000000;31429780000000;-2279378000000;-19950920000000;-1434064000000;11393580000000;902185500000;-6643040000000;117972300000;4280126000000;-938493900000;-3171337000000;1943344000000;2198634000000;-3157551000000;-332937700000;3535455000000;-2295839000000;0;-118531000000;-520523600000;-1080151000000;-958272300000;704303200000;2626230000000;1891348000000;-1100704000000;-1930971000000;466496200000;1502453000000;-453520600000;-998034800000;681231000000;339495500000;-689274500000;310996100000;173162400000;-320142400000;157286700000;37069670000;-93520680000;55478230000;-24792020000;24997000000;-16964940000;-22224600000;67650890000;-75047210000;0;0];
[-110718200000;-616624300000;-174210200000;4989624000000;13046360000000;9302655000000;-13181000000000;-26737370000000;-2512632000000;29863110000000;18232570000000;-20105230000000;-23469960000000;7413043000000;17853400000000;-1434064000000;-10557270000000;484657500000;5345171000000;-989060700000;-1951262000000;1183647000000;-317908400000;-494524000000;1522679000000;-941983400000;-1317929000000;2290222000000;-305167200000;-2294840000000;0;76751930000;133883400000;-181040000000;-1112226000000;-1942303000000;-1254257000000;736026200000;1471748000000;-55351460000;-1142711000000;-38856050000;864181600000;-120338500000;-592311600000;367062500000;182781000000;-411869600000;257961700000;43586210000;-237029200000;203486200000;-22808420000;-128376100000;144254000000;-51662690000;-55358610000;103620700000;-75905820000;456504100;0;0];
[33350680000;-136708200000;-1512327000000;-3779810000000;-1846714000000;7804156000000;13788930000000;902378600000;-17455930000000;-10485370000000;14555360000000;16645330000000;-7213860000000;-15910400000000;1466769000000;11393580000000;484657500000;-7306776000000;-425060700000;4717649000000;-140635000000;-3274010000000;779527900000;2408654000000;-1519462000000;-1521635000000;2215176000000;155458600000;-2247838000000;1459230000000;0;1395768000;128072700000;481720300000;808533300000;471634100000;-559993300000;-1022729000000;-110253900000;779763500000;245877100000;-574592000000;-181333200000;471755600000;26692220000;-381302300000;184724100000;167751400000;-276273400000;122974100000;78939800000;-147749800000;71424680000;36156890000;-72627230000;29784680000;30924380000;-49838610000;15714220000;35826370000;0;0];
[21063080000;302587000000;836629300000;4596259000;-3792092000000;-6160597000000;288554800000;9673541000000;5250599000000;-9440638000000;-9367049000000;6771752000000;10686370000000;-3025260000000;-8521618000000;902185500000;5345171000000;-425060700000;-2802054000000;548962300000;1050842000000;-574336300000;125958900000;210858200000;-752314800000;511943100000;653382700000;-1182885000000;170684300000;1159512000000;0;-43595250000;-149917200000;-180258300000;86779520000;598708900000;763057900000;120706400000;-580688500000;-299410300000;377670600000;250606900000;-277045500000;-166142000000;238385000000;59494890000;-207130300000;76882050000;90816200000;-132787500000;73725700000;3912943000;-48403230000;50716960000;-29783620000;7439192000;9983514000;-25771910000;35655940000;-27039070000;0;0];
[-19122690000;-139805600000;-8655598000;1181561000000;2450412000000;159481800000;-5126525000000;-4549897000000;4476518000000;7643538000000;-2757483000000;-9121862000000;656838500000;8563202000000;771671100000;-6643040000000;-989060700000;4717649000000;548962300000;-3342089000000;41367660000;2451844000000;-636633700000;-1773548000000;1223348000000;979697400000;-1615976000000;85512770000;1413916000000;-1097291000000;0;46716890000;80934060000;-67816280000;-387127500000;-525467200000;-179196300000;347208800000;347427400000;-154730200000;-291239300000;95649390000;211303100000;-94506610000;-145675600000;120104900000;65186560000;-136745500000;50287180000;65037710000;-107457200000;68076280000;4985221000;-57121500000;61315590000;-25769000000;-20218120000;46423320000;-37918460000;3051136000;0;0];
[-3686142000;-40400000000;-283881900000;-569734700000;53295040000;1602262000000;1440778000000;-1514629000000;-2524591000000;1238314000000;3222563000000;-914100400000;-3547043000000;268227200000;2967497000000;117972300000;-1951262000000;-140635000000;1050842000000;41367660000;-420686600000;1664382000;18169080000;88722610000;170170200000;-286783600000;-106411900000;443861300000;-179313200000;-350152500000;0;-22932700000;-3243839000;123903700000;200169000000;23305450000;-231452400000;-191810200000;91065160000;171075800000;-34335170000;-121146100000;20650840000;87904500000;-18776590000;-76247710000;39592260000;55968730000;-74474900000;8779987000;56282130000;-63794950000;23869770000;20191560000;-34706610000;17051660000;9399541000;-19196940000;6859779000;11905900000;0;0];
[16226120000;129246300000;310935800000;845475600;-1072748000000;-1051449000000;1745270000000;3417189000000;-790866300000;-4994411000000;-490795200000;5543835000000;1367835000000;-5200821000000;-1576471000000;4280126000000;1183647000000;-3274010000000;-574336300000;2451844000000;1664382000;-1843236000000;508558700000;1312032000000;-961541800000;-661537200000;1205799000000;-164009300000;-955076800000;851819500000;0;-10408910000;-62570640000;-109113500000;14576060000;277628300000;306020700000;-43212280000;-277807000000;-43021610000;195726800000;32965580000;-131407400000;-6768646000;85144700000;-7754934000;-59389840000;22795690000;38872240000;-42579390000;1610180000;30034670000;-29883230000;13221970000;-1306006000;-1297547000;3493450000;-10826200000;17013950000;-12272300000;0;0];
[-9794021000;-113854100000;-272734400000;-48384560000;776852900000;997518200000;-610320900000;-2065725000000;-431297300000;2109538000000;1114389000000;-1539009000000;-986732800000;1143657000000;612169200000;-938493900000;-317908400000;779527900000;125958900000;-636633700000;18169080000;508558700000;-152311100000;-367603800000;271019300000;180376500000;-323864800000;47332440000;238537500000;-219333800000;0;31173540000;87918360000;81843360000;-59243280000;-220793900000;-184680100000;47549890000;166947700000;14221160000;-115925600000;-13307430000;76679630000;-525923800;-51054920000;13826520000;33755920000;-29033660000;-8414680000;31408820000;-23124240000;-877842800;19914480000;-25144290000;18279160000;-4813964000;-9082349000;17228810000;-15492670000;4845307000;0;0];
[-7736374000;11434930000;103947800000;284902600000;223040000000;-720436500000;-2020808000000;-1234056000000;2093032000000;3124229000000;-1074980000000;-3996399000000;-10824210000;3851512000000;534935800000;-3171337000000;-494524000000;2408654000000;210858200000;-1773548000000;88722610000;1312032000000;-367603800000;-950468100000;648909700000;533629700000;-842307500000;23117580000;730429300000;-544836100000;0;-26252220000;-48706750000;-10114480000;17648390000;-41340390000;-54428910000;53033180000;87662450000;-26502880000;-73435960000;20615470000;49940410000;-23737840000;-23663860000;19086680000;3207240000;-2926100000;-3688201000;-4210927000;15206100000;-11254710000;-5306993000;18005250000;-16182390000;4035589000;6280966000;-7315411000;1811706000;2610680000;0;0];
[21069900000;114916200000;235367000000;-98926090000;-1061704000000;-987363900000;1713690000000;3789318000000;396890400000;-4565860000000;-2417856000000;3721338000000;2951837000000;-2653206000000;-2394676000000;1943344000000;1522679000000;-1519462000000;-752314800000;1223348000000;170170200000;-961541800000;271019300000;648909700000;-585163600000;-213095000000;670014000000;-289127300000;-395660000000;592647500000;0;3673349000;-31180440000;-111602900000;-41079100000;229700200000;300655900000;-26678200000;-258305700000;-43199130000;178301800000;31551700000;-118947800000;-1877276000;70440880000;-16161320000;-32348780000;16251660000;12764710000;-12478540000;-4762690000;12818390000;-5570662000;-5690170000;9339503000;-4535604000;-612685800;-435701500;5302237000;-6258146000;0;0];
[-17662730000;-162449100000;-531871700000;-606509400000;647912900000;2598051000000;1988407000000;-2147307000000;-4348850000000;-217311100000;4502124000000;2166848000000;-3167388000000;-2658196000000;1788974000000;2198634000000;-941983400000;-1521635000000;511943100000;979697400000;-286783600000;-661537200000;180376500000;533629700000;-213095000000;-465246700000;382218500000;277220600000;-538700000000;90886130000;0;14118250000;83788330000;200106200000;153000800000;-143268700000;-338039700000;-132722800000;176184400000;146662000000;-89418660000;-103332900000;58731500000;59480550000;-45472430000;-25383510000;35005920000;1755732000;-22981650000;13220700000;5920791000;-14595400000;9419443000;1349084000;-7864884000;6570403000;-1608326000;-547159200;-2062132000;5264847000;0;0];
[-2303977000;64248300000;435150300000;1138499000000;1052294000000;-1412289000000;-4601971000000;-3174345000000;3383053000000;6051634000000;-387005400000;-6008889000000;-1550748000000;4551298000000;1848761000000;-3157551000000;-1317929000000;2215176000000;653382700000;-1615976000000;-106411900000;1205799000000;-323864800000;-842307500000;670014000000;382218500000;-839438800000;206245400000;632504900000;-682128200000;0;-11097360000;-55447140000;-146205600000;-209646000000;-144448300000;50156140000;203338600000;106599600000;-120910300000;-113704900000;80130030000;76681510000;-64841410000;-32023460000;50155150000;-5352906000;-24908970000;21723090000;-3552245000;-11813450000;14801350000;-6379752000;-4006375000;8368911000;-6050655000;834413100;3244953000;-3424098000;-581048900;0;0];
[23337200000;126351500000;155524500000;-596871100000;-2267947000000;-2347327000000;1830487000000;6292971000000;3164112000000;-5133622000000;-6044609000000;2061017000000;5635245000000;-131655700000;-3884679000000;-332937700000;2290222000000;155458600000;-1182885000000;85512770000;443861300000;-164009300000;47332440000;23117580000;-289127300000;277220600000;206245400000;-526877300000;174887000000;442404000000;0;-7281521000;-36609080000;-60159010000;56000780000;316906300000;362520900000;-19852710000;-320943500000;-78377560000;222404500000;58920040000;-149438500000;-12271880000;89041720000;-21817980000;-35157150000;26622830000;-661407200;-9963551000;8445736000;-3486802000;-644269800;1997876000;-1705193000;2147273000;-2644407000;474466000;3731073000;-5049803000;0;0];
[-25451760000;-245851700000;-831494600000;-1003354000000;1024195000000;4663554000000;4591557000000;-2190950000000;-7853455000000;-3016416000000;6141577000000;5561826000000;-2952515000000;-5042090000000;997700300000;3535455000000;-305167200000;-2247838000000;170684300000;1413916000000;-179313200000;-955076800000;238537500000;730429300000;-395660000000;-538700000000;632504900000;174887000000;-735300100000;354097600000;0;19306980000;108808600000;274838800000;262477700000;-128330600000;-499452700000;-289655800000;226727400000;274684300000;-104668800000;-184656800000;74442970000;101261800000;-66611040000;-36416910000;51330590000;-3224088000;-28204260000;18055960000;7611034000;-17531330000;6155941000;9302737000;-12290700000;2485621000;8342039000;-9823201000;1686824000;7597278000;0;0];
[2723484000;153426400000;917897900000;2306111000000;2255190000000;-1956968000000;-7632681000000;-6217150000000;3748227000000;9445501000000;1883460000000;-7335624000000;-4163326000000;4200329000000;3614392000000;-2295839000000;-2294840000000;1459230000000;1159512000000;-1097291000000;-350152500000;851819500000;-219333800000;-544836100000;592647500000;90886130000;-682128200000;442404000000;354097600000;-749676800000;0;-8039925000;-82028430000;-297029500000;-471146800000;-296913700000;157880900000;395284800000;125819200000;-237065900000;-146466200000;148257900000;88434980000;-105637100000;-21824190000;69518520000;-24677610000;-27845970000;39449150000;-10712920000;-24067090000;29504260000;-5197153000;-19347630000;21528270000;-5293718000;-11298220000;15848540000;-8205788000;-4088228000;0;0];
[0;0;0;0;0;0;0;0;0;0;0;0;0;0;0;0;0;0;0;0;0;0;0;0;0;0;0;0;0;0;0;0;0;0;0;0;0;0;0;0;0;0;0;0;0;0;0;0;0;0;0;0;0;0;0;0;0;0;0;0;0;0];
[-2314180000000000;-1234724000000000;-384478400000000;676226600000;73488710000000;33041030000000;-2814626000000;-8732015000000;-1545779000000;2280087000000;686186500000;-766218100000;-165104800000;310932400000;-24575030000;-118531000000;76751930000;1395768000;-43595250000;46716890000;-22932700000;-10408910000;31173540000;-26252220000;3673349000;14118250000;-11097360000;-7281521000;19306980000;-8039925000;0;634324100000000;458405000000000;162761700000000;-8931264000000;-35184620000000;-6451354000000;7565218000000;2294105000000;-2107885000000;-547825200000;725626100000;46036160000;-261970500000;61152390000;82357810000;-64120300000;-4578947000;38403370000;-28144800000;-888356500;22421010000;-22390650000;3944969000;15837640000;-19517050000;4175341000;15783240000;-21262490000;5622345000;0;0];
[-1511051000000000;-2214587000000000;-1236035000000000;-249975100000000;168431800000000;149920500000000;20526860000000;-32700300000000;-13808990000000;7468950000000;4938250000000;-2469526000000;-1488627000000;1125744000000;266304700000;-520523600000;133883400000;128072700000;-149917200000;80934060000;-3243839000;-62570640000;87918360000;-48706750000;-31180440000;83788330000;-55447140000;-36609080000;108808600000;-82028430000;0;458405000000000;745458900000000;484942800000000;90080720000000;-85107790000000;-48503600000000;14333010000000;15523740000000;-4044394000000;-4691674000000;1908902000000;1242262000000;-978505400000;-155120000000;421161200000;-110936600000;-121338300000;115883800000;-15990520000;-55066500000;67992510000;-34028480000;-24965960000;73136430000;-71528980000;11258770000;67701750000;-101335600000;54784380000;0;0];
[-357660400000000;-1348016000000000;-1663579000000000;-760292800000000;98114320000000;312647300000000;117472300000000;-51337830000000;-48505810000000;8145201000000;16307650000000;-2751327000000;-5369858000000;1777797000000;1524138000000;-1080151000000;-181040000000;481720300000;-180258300000;-67816280000;123903700000;-109113500000;81843360000;-10114480000;-111602900000;200106200000;-146205600000;-60159010000;274838800000;-297029500000;0;162761700000000;484942800000000;597822300000000;277127900000000;-62904690000000;-116252900000000;-8010690000000;36937430000000;4182975000000;-12718560000000;17565760000;4525903000000;-1094819000000;-1367368000000;882686500000;199303000000;-445040600000;131507900000;121620700000;-138975500000;57978090000;3418006000;-43614790000;86053130000;-102438500000;43394650000;81777970000;-181938300000;154891100000;0;0];
[125767000000000;-127466800000000;-768754300000000;-875425800000000;-190633100000000;314840600000000;250285100000000;-10272750000000;-86751260000000;-11438030000000;28415360000000;4011043000000;-10216910000000;-14844870000;3707910000000;-958272300000;-1112226000000;808533300000;86779520000;-387127500000;200169000000;14576060000;-59243280000;17648390000;-41079100000;153000800000;-209646000000;56000780000;262477700000;-471146800000;0;-8931264000000;90080720000000;277127900000000;286141800000000;40342850000000;-124155600000000;-60870720000000;35677970000000;25563580000000;-13641660000000;-8126039000000;6552734000000;1558302000000;-3026466000000;423315600000;1077867000000;-645757700000;-164615800000;367682900000;-110835500000;-113373000000;98712630000;26623200000;-65353760000;-24346010000;116134900000;-72810420000;-96650640000;231015000000;0;0];
[84382300000000;263551900000000;184377900000000;-204755100000000;-289816300000000;71149670000000;247251900000000;84685120000000;-71467650000000;-44947540000000;21989000000000;16519580000000;-9121026000000;-4871462000000;4391841000000;704303200000;-1942303000000;471634100000;598708900000;-525467200000;23305450000;277628300000;-220793900000;-41340390000;229700200000;-143268700000;-144448300000;316906300000;-128330600000;-296913700000;0;-35184620000000;-85107790000000;-62904690000000;40342850000000;58694400000000;-46542850000000;-78714730000000;-3039593000000;34730380000000;2188416000000;-14225400000000;1448077000000;5386611000000;-2220466000000;-1435097000000;1536045000000;-78450710000;-666112900000;408923100000;109258200000;-321051500000;163458800000;120007500000;-254719500000;130647300000;131910500000;-285039200000;168056300000;137381200000;0;0];
[-16178960000000;73040470000000;274056600000000;286312000000000;18975180000000;-104909000000000;50992860000000;111485500000000;7594197000000;-48232860000000;-7019348000000;19076510000000;1272363000000;-7522321000000;1052727000000;2626230000000;-1254257000000;-559993300000;763057900000;-179196300000;-231452400000;306020700000;-184680100000;-54428910000;300655900000;-338039700000;50156140000;362520900000;-499452700000;157880900000;0;-6451354000000;-48503600000000;-116252900000000;-124155600000000;-46542850000000;-1315832000000;-32955120000000;-32197780000000;11475310000000;17829780000000;-5867105000000;-6898372000000;4023635000000;1678821000000;-2296407000000;261149500000;857043800000;-573402600000;-29628070000;277090800000;-212698200000;64475580000;73663800000;-175967800000;175611200000;-21500830000;-204197500000;303378800000;-139578600000;0;0];
[-18069540000000;-60810950000000;-22568620000000;130567700000000;170846400000000;1896177000000;-86776760000000;12860950000000;55195760000000;-2454670000000;-24903950000000;2197100000000;9881131000000;-2491588000000;-3368028000000;1891348000000;736026200000;-1022729000000;120706400000;347208800000;-191810200000;-43212280000;47549890000;53033180000;-26678200000;-132722800000;203338600000;-19852710000;-289655800000;395284800000;0;7565218000000;14333010000000;-8010690000000;-60870720000000;-78714730000000;-32955120000000;-1485365000000;-17316750000000;-13702660000000;10549920000000;8207544000000;-5950985000000;-2588301000000;3290131000000;-17920160000;-1394791000000;632354300000;304714200000;-435348300000;76185480000;175721500000;-113687000000;-74575060000;129824200000;7128723000;-168348600000;151509800000;60891260000;-267118600000;0;0];
[4309507000000;-19061370000000;-85786350000000;-99313250000000;4155805000000;67898100000000;-9959514000000;-54376770000000;9925546000000;31182980000000;-5695019000000;-13468490000000;4151397000000;4722681000000;-2763215000000;-1100704000000;1471748000000;-110253900000;-580688500000;347427400000;91065160000;-277807000000;166947700000;87662450000;-258305700000;176184400000;106599600000;-320943500000;226727400000;125819200000;0;2294105000000;15523740000000;36937430000000;35677970000000;-3039593000000;-32197780000000;-17316750000000;-1666486000000;-9577813000000;-4983002000000;7847292000000;2940952000000;-4539163000000;-333329900000;2141219000000;-681665400000;-613481200000;619829400000;-100671500000;-223273100000;238042000000;-94145680000;-80656340000;192362600000;-152931400000;-41040050000;240210200000;-241519200000;-2489308000;0;0];
[3871286000000;18071670000000;11606530000000;-45093420000000;-78284980000000;-14620800000000;43398760000000;2701940000000;-29529680000000;5524534000000;15968340000000;-5137437000000;-6394624000000;3534471000000;1752676000000;-1930971000000;-55351460000;779763500000;-299410300000;-154730200000;171075800000;-43021610000;14221160000;-26502880000;-43199130000;146662000000;-120910300000;-78377560000;274684300000;-237065900000;0;-2107885000000;-4044394000000;4182975000000;25563580000000;34730380000000;11475310000000;-13702660000000;-9577813000000;-484611800000;-4582987000000;-1563624000000;4812229000000;604075300000;-2835156000000;480974100000;1156368000000;-673046000000;-208685600000;387695800000;-88387220000;-133710700000;82166550000;68546910000;-86444960000;-52223200000;162141800000;-79634640000;-134359100000;247839300000;0;0];
[-1611236000000;3168194000000;26575940000000;42016810000000;7383326000000;-33216970000000;-8008806000000;28279600000000;3952731000000;-17852550000000;3043560000000;8677809000000;-3682781000000;-2969846000000;2422393000000;466496200000;-1142711000000;245877100000;377670600000;-291239300000;-34335170000;195726800000;-115925600000;-73435960000;178301800000;-89418660000;-113704900000;222404500000;-104668800000;-146466200000;0;-547825200000;-4691674000000;-12718560000000;-13641660000000;2188416000000;17829780000000;10549920000000;-4983002000000;-4582987000000;95238870000;-2401643000000;-399573900000;2818351000000;-241357300000;-1613064000000;670933400000;504823800000;-547100300000;78483140000;198798000000;-200666700000;76146290000;75767380000;-170201000000;117306900000;66363130000;-213169200000;157484600000;70406920000;0;0];
[-705129900000;-5954617000000;-8687457000000;9268408000000;32112350000000;16024630000000;-18522550000000;-10192420000000;15327040000000;3601530000000;-10195930000000;1864802000000;4620999000000;-2479846000000;-1256366000000;1502453000000;-38856050000;-574592000000;250606900000;95649390000;-121146100000;32965580000;-13307430000;20615470000;31551700000;-103332900000;80130030000;58920040000;-184656800000;148257900000;0;725626100000;1908902000000;17565760000;-8126039000000;-14225400000000;-5867105000000;8207544000000;7847292000000;-1563624000000;-2401643000000;188045200000;-1268858000000;-27669390000;1586712000000;-411366300000;-863817200000;539700400000;219700100000;-350862500000;45307570000;148022600000;-68800600000;-78165740000;77502130000;55687670000;-133975500000;42602150000;120913400000;-166940300000;0;0];
[570527500000;367127400000;-7018496000000;-18091870000000;-11353400000000;10919050000000;10590820000000;-10886110000000;-8608616000000;8605165000000;2889651000000;-5928961000000;1129169000000;2462276000000;-1575410000000;-453520600000;864181600000;-181333200000;-277045500000;211303100000;20650840000;-131407400000;76679630000;49940410000;-118947800000;58731500000;76681510000;-149438500000;74442970000;88434980000;0;46036160000;1242262000000;4525903000000;6552734000000;1448077000000;-6898372000000;-5950985000000;2940952000000;4812229000000;-399573900000;-1268858000000;173947500000;-702160600000;83423200000;869508600000;-397048000000;-393772800000;401604300000;-15405810000;-179394300000;144377000000;-39372380000;-66062250000;125332500000;-75836300000;-59068860000;146281200000;-85822980000;-63941830000;0;0];
[77691810000;1822525000000;5007669000000;1732458000000;-10016260000000;-11442270000000;4336799000000;9137479000000;-4798775000000;-6318635000000;4587249000000;2042250000000;-3469406000000;733262900000;1334804000000;-998034800000;-120338500000;471755600000;-166142000000;-94506610000;87904500000;-6768646000;-525923800;-23737840000;-1877276000;59480550000;-64841410000;-12271880000;101261800000;-105637100000;0;-261970500000;-978505400000;-1094819000000;1558302000000;5386611000000;4023635000000;-2588301000000;-4539163000000;604075300000;2818351000000;-27669390000;-702160600000;149915700000;-410308100000;69889510000;505938100000;-284461700000;-225262000000;273633000000;8560678000;-158473300000;58814350000;81002630000;-76577910000;-35634910000;95873290000;-32187810000;-69312540000;88800390000;0;0];
[-186493400000;-695986800000;861926200000;6426692000000;8429143000000;-353822200000;-6791081000000;1300902000000;6657052000000;-1724778000000;-4318302000000;2361987000000;1398247000000;-1981386000000;452557000000;681231000000;-592311600000;26692220000;238385000000;-145675600000;-18776590000;85144700000;-51054920000;-23663860000;70440880000;-45472430000;-32023460000;89041720000;-66611040000;-21824190000;0;61152390000;-155120000000;-1367368000000;-3026466000000;-2220466000000;1678821000000;3290131000000;-333329900000;-2835156000000;-241357300000;1586712000000;83423200000;-410308100000;96248940000;-216156400000;67899380000;242223200000;-192862500000;-45405740000;130194900000;-71345570000;2627576000;44521420000;-68039610000;37974120000;33920030000;-74012000000;36951220000;32825150000;0;0];
[-3865434000;-398584200000;-2123679000000;-3115744000000;848207700000;5404760000000;1314843000000;-4822731000000;-683136700000;4344062000000;-310031400000;-2759958000000;1277554000000;873778300000;-1205968000000;339495500000;367062500000;-381302300000;59494890000;120104900000;-76247710000;-7754934000;13826520000;19086680000;-16161320000;-25383510000;50155150000;-21817980000;-36416910000;69518520000;0;82357810000;421161200000;882686500000;423315600000;-1435097000000;-2296407000000;-17920160000;2141219000000;480974100000;-1613064000000;-411366300000;869508600000;69889510000;-216156400000;81713620000;-162456300000;50056610000;178193500000;-154579600000;-50917800000;137640400000;-39628860000;-73069600000;67622560000;15540620000;-60337480000;26314990000;27277990000;-36416000000;0;0];
[102687900000;417839900000;510400900000;-1273288000000;-3997609000000;-2514354000000;2378552000000;1845700000000;-2902640000000;-1432742000000;2636221000000;357279300000;-1772420000000;590307000000;614241900000;-689274500000;182781000000;184724100000;-207130300000;65186560000;39592260000;-59389840000;33755920000;3207240000;-32348780000;35005920000;-5352906000;-35157150000;51330590000;-24677610000;0;-64120300000;-110936600000;199303000000;1077867000000;1536045000000;261149500000;-1394791000000;-681665400000;1156368000000;670933400000;-863817200000;-397048000000;505938100000;67899380000;-162456300000;60879680000;-58695610000;12200560000;63500800000;-55117680000;1904935000;19277900000;-16963330000;17112560000;-8787340000;-12423100000;21307100000;-4685760000;-13813100000;0;0];
[-40812070000;-12284840000;617377300000;1836870000000;1515322000000;-1161009000000;-1879541000000;1175854000000;1812736000000;-1401606000000;-1304875000000;1376432000000;385323100000;-989217900000;331381300000;310996100000;-411869600000;167751400000;76882050000;-136745500000;55968730000;22795690000;-29033660000;-2926100000;16251660000;1755732000;-24908970000;26622830000;-3224088000;-27845970000;0;-4578947000;-121338300000;-445040600000;-645757700000;-78450710000;857043800000;632354300000;-613481200000;-673046000000;504823800000;539700400000;-393772800000;-284461700000;242223200000;50056610000;-58695610000;23097790000;-70469880000;45240670000;54927190000;-84378680000;12440320000;55270830000;-44319670000;-9300200000;33547010000;-13025470000;-11847190000;9995022000;0;0];
[-58632960000;-195345100000;-511737100000;-360812300000;1035417000000;1876509000000;7785891000;-1551855000000;374600200000;1576464000000;-648975300000;-1133126000000;834394400000;406786800000;-699183100000;173162400000;257961700000;-276273400000;90816200000;50287180000;-74474900000;38872240000;-8414680000;-3688201000;12764710000;-22981650000;21723090000;-661407200;-28204260000;39449150000;0;38403370000;115883800000;131507900000;-164615800000;-666112900000;-573402600000;304714200000;619829400000;-208685600000;-547100300000;219700100000;401604300000;-225262000000;-192862500000;178193500000;12200560000;-70469880000;51325850000;-25586180000;-10722450000;32352870000;-18004100000;-5574861000;11695780000;-6742759000;2388371000;3739900000;-11620800000;9827141000;0;0];
[88106340000;114885300000;-12120090000;-568203300000;-1218030000000;-617266300000;803307300000;457525600000;-1007181000000;-336499500000;1014209000000;48747440000;-758918400000;255253000000;330686600000;-320142400000;43586210000;122974100000;-132787500000;65037710000;8779987000;-42579390000;31408820000;-4210927000;-12478540000;13220700000;-3552245000;-9963551000;18055960000;-10712920000;0;-28144800000;-15990520000;121620700000;367682900000;408923100000;-29628070000;-435348300000;-100671500000;387695800000;78483140000;-350862500000;-15405810000;273633000000;-45405740000;-154579600000;63500800000;45240670000;-25586180000;-3929762000;-16727540000;24982990000;6648900000;-30854080000;14874490000;14407310000;-18048850000;-2460185000;15419350000;-4257824000;0;0];
[-37094540000;66469820000;301365200000;444517800000;103038900000;-564279100000;-449723200000;451146900000;355479900000;-579134300000;-225848400000;590339700000;-13130110000;-436612900000;220833600000;157286700000;-237029200000;78939800000;73725700000;-107457200000;56282130000;1610180000;-23124240000;15206100000;-4762690000;5920791000;-11813450000;8445736000;7611034000;-24067090000;0;-888356500;-55066500000;-138975500000;-110835500000;109258200000;277090800000;76185480000;-223273100000;-88387220000;198798000000;45307570000;-179394300000;8560678000;130194900000;-50917800000;-55117680000;54927190000;-10722450000;-16727540000;26598350000;-20701940000;1695608000;13353150000;-13611720000;5999670000;795473900;-6396587000;10532150000;-8087052000;0;0];
[-35090370000;-162241300000;-270181800000;-35223580000;604080800000;795124000000;-71234040000;-617005600000;246589300000;661910500000;-360534000000;-529103800000;434173800000;243245500000;-391703500000;37069670000;203486200000;-147749800000;3912943000;68076280000;-63794950000;30034670000;-877842800;-11254710000;12818390000;-14595400000;14801350000;-3486802000;-17531330000;29504260000;0;22421010000;67992510000;57978090000;-113373000000;-321051500000;-212698200000;175721500000;238042000000;-133710700000;-200666700000;148022600000;144377000000;-158473300000;-71345570000;137640400000;1904935000;-84378680000;32352870000;24982990000;-20701940000;1946022000;-4857744000;9336310000;3797585000;-18032280000;11029550000;10723420000;-21070390000;7723859000;0;0];
[66966950000;101831100000;64148550000;-104107800000;-365807400000;-308157900000;169784600000;268100200000;-215515700000;-236145500000;242335500000;127325400000;-227830400000;10810200000;144780800000;-93520680000;-22808420000;71424680000;-48403230000;4985221000;23869770000;-29883230000;19914480000;-5306993000;-5570662000;9419443000;-6379752000;-644269800;6155941000;-5197153000;0;-22390650000;-34028480000;3418006000;98712630000;163458800000;64475580000;-113687000000;-94145680000;82166550000;76146290000;-68800600000;-39372380000;58814350000;2627576000;-39628860000;19277900000;12440320000;-18004100000;6648900000;1695608000;-4857744000;6696685000;-5395364000;289250000;3559505000;-2377265000;-1041420000;1717043000;1070713000;0;0];
[-43875680000;56145400000;178023200000;50463550000;-247257700000;-310600300000;-837481000;193441100000;-89068260000;-250480400000;120531100000;246442700000;-145122000000;-167606900000;159100000000;55478230000;-128376100000;36156890000;50716960000;-57121500000;20191560000;13221970000;-25144290000;18005250000;-5690170000;1349084000;-4006375000;1997876000;9302737000;-19347630000;0;3944969000;-24965960000;-43614790000;26623200000;120007500000;73663800000;-74575060000;-80656340000;68546910000;75767380000;-78165740000;-66062250000;81002630000;44521420000;-73069600000;-16963330000;55270830000;-5574861000;-30854080000;13353150000;9336310000;-5395364000;-4232496000;-1805230000;12317040000;-7958113000;-8332237000;16946940000;-7775302000;0;0];
[-1699190000;-178259400000;-328490200000;-71021790000;477332800000;582492400000;-59005040000;-440042000000;144822800000;471605500000;-181096600000;-379641100000;223337800000;202226500000;-222931800000;-24792020000;144254000000;-72627230000;-29783620000;61315590000;-34706610000;-1306006000;18279160000;-16182390000;9339503000;-7864884000;8368911000;-1705193000;-12290700000;21528270000;0;15837640000;73136430000;86053130000;-65353760000;-254719500000;-175967800000;129824200000;192362600000;-86444960000;-170201000000;77502130000;125332500000;-76577910000;-68039610000;67622560000;17112560000;-44319670000;11695780000;14874490000;-13611720000;3797585000;289250000;-1805230000;5815384000;-8662214000;4087814000;6043401000;-11851950000;6430232000;0;0];
[27730390000;159421000000;270513500000;180060800000;-119902400000;-333267600000;-80798990000;305759300000;106375400000;-290244800000;-78990350000;215732100000;-2914881000;-119837700000;58953460000;24997000000;-51662690000;29784680000;7439192000;-25769000000;17051660000;-1297547000;-4813964000;4035589000;-4535604000;6570403000;-6050655000;2147273000;2485621000;-5293718000;0;-19517050000;-71528980000;-102438500000;-24346010000;130647300000;175611200000;7128723000;-152931400000;-52223200000;117306900000;55687670000;-75836300000;-35634910000;37974120000;15540620000;-8787340000;-9300200000;-6742759000;14407310000;5999670000;-18032280000;3559505000;12317040000;-8662214000;-3822990000;6566235000;597544300;-5147461000;1602234000;0;0];
[-20052240000;-9469709000;5210283000;-161536200000;-400434300000;-229432300000;200518700000;114783600000;-305650200000;-150411300000;280678000000;114584700000;-205737200000;-37262260000;125174700000;-16964940000;-55358610000;30924380000;9983514000;-20218120000;9399541000;3493450000;-9082349000;6280966000;-612685800;-1608326000;834413100;-2644407000;8342039000;-11298220000;0;4175341000;11258770000;43394650000;116134900000;131910500000;-21500830000;-168348600000;-41040050000;162141800000;66363130000;-133975500000;-59068860000;95873290000;33920030000;-60337480000;-12423100000;33547010000;2388371000;-18048850000;795473900;11029550000;-2377265000;-7958113000;4087814000;6566235000;-7892569000;-2446451000;11344550000;-7663760000;0;0];
[-1621505000;-150978500000;-330734800000;-102037400000;515863800000;640014600000;-90620780000;-483180500000;155964300000;483861700000;-153638300000;-350850300000;173681100000;170536600000;-164866300000;-22224600000;103620700000;-49838610000;-25771910000;46423320000;-19196940000;-10826200000;17228810000;-7315411000;-435701500;-547159200;3244953000;474466000;-9823201000;15848540000;0;15783240000;67701750000;81777970000;-72810420000;-285039200000;-204197500000;151509800000;240210200000;-79634640000;-213169200000;42602150000;146281200000;-32187810000;-74012000000;26314990000;21307100000;-13025470000;3739900000;-2460185000;-6396587000;10723420000;-1041420000;-8332237000;6043401000;597544300;-2446451000;1669647000;-3170917000;4552414000;0;0];
[8528267000;189187700000;450579200000;422903100000;-72585130000;-522555000000;-189857500000;460373900000;236034000000;-408067300000;-183076700000;300848700000;46265900000;-184674100000;56147000000;67650890000;-75905820000;15714220000;35655940000;-37918460000;6859779000;17013950000;-15492670000;1811706000;5302237000;-2062132000;-3424098000;3731073000;1686824000;-8205788000;0;-21262490000;-101335600000;-181938300000;-96650640000;168056300000;303378800000;60891260000;-241519200000;-134359100000;157484600000;120913400000;-85822980000;-69312540000;36951220000;27277990000;-4685760000;-11847190000;-11620800000;15419350000;10532150000;-21070390000;1717043000;16946940000;-11851950000;-5147461000;11344550000;-3170917000;-5280564000;3929943000;0;0];
[8207534000;-72374860000;-230110400000;-456197300000;-526937200000;-80258810000;365834900000;-11687570000;-477044400000;-36653480000;386721600000;-5377277000;-231570700000;67182030000;90668520000;-75047210000;456504100;35826370000;-27039070000;3051136000;11905900000;-12272300000;4845307000;2610680000;-6258146000;5264847000;-581048900;-5049803000;7597278000;-4088228000;0;5622345000;54784380000;154891100000;231015000000;137381200000;-139578600000;-267118600000;-2489308000;247839300000;70406920000;-166940300000;-63941830000;88800390000;32825150000;-36416000000;-13813100000;9995022000;9827141000;-4257824000;-8087052000;7723859000;1070713000;-7775302000;6430232000;1602234000;-7663760000;4552414000;3929943000;-7165743000;0;0];
[0;0;0;0;0;0;0;0;0;0;0;0;0;0;0;0;0;0;0;0;0;0;0;0;0;0;0;0;0;0;0;0;0;0;0;0;0;0;0;0;0;0;0;0;0;0;0;0;0;0;0;0;0;0;0;0;0;0;0;0;0;0];
[0;0;0;0;0;0;0;0;0;0;0;0;0;0;0;0;0;0;0;0;0;0;0;0;0;0;0;0;0;0;0;0;0;0;0;0;0;0;0;0;0;0;0;0;0;0;0;0;0;0;0;0;0;0;0;0;0;0;0;0;0;0]].
(** :691 *)
Definition coup3fh : list (list Z) := [
[-285566200000000;-297930400000000;-168449200000000;-38659940000000;12380230000000;8187058000000;-1522106000000;-1481422000000;432852900000;248430500000;-146033000000;-26851420000;44380470000;-2104583000;-16174360000;5893754000;8124199000;-10289730000;1588808000;7949930000;-9558260000;2536550000;6189736000;-8798687000;3501506000;4371797000;-7608429000;3551993000;3898815000;0;0;412703800000000;252217700000000;45655500000000;-28679890000000;-13190610000000;4775992000000;3001043000000;-1279114000000;-618883000000;430714900000;86997790000;-144285300000;9044053000;47352650000;-18294210000;-16463500000;19765560000;-1892871000;-13862320000;14403910000;-2483817000;-9674748000;11807240000;-3657844000;-6132132000;8513682000;-2037320000;-6451165000;0;0;0];
[-297930400000000;-494275300000000;-432026300000000;-199947600000000;-16075490000000;29770940000000;7260020000000;-5493338000000;-1232813000000;1392873000000;28140000000;-372092300000;101132500000;78972800000;-60187770000;-5761265000;26468120000;-8518205000;-13139050000;18672260000;-6696302000;-12875440000;25078800000;-18896790000;-3324727000;25577450000;-30165290000;12487700000;14560390000;0;0;216784700000000;385806900000000;212485400000000;-1678135000000;-50654090000000;-6597686000000;12961520000000;1505012000000;-3835859000000;119920800000;1153566000000;-326231800000;-281423600000;204769800000;22184490000;-84193370000;27167990000;27718770000;-34259280000;6738718000;25411910000;-38326210000;21804120000;14464890000;-44315170000;43174050000;-8853023000;-33881380000;0;0;0];
[-168449200000000;-432026300000000;-569856800000000;-425794900000000;-147493500000000;22607020000000;34005280000000;-936706400000;-7197465000000;979615100000;1576208000000;-683364600000;-244937400000;303089400000;-25196120000;-103976700000;47751230000;33296880000;-47013690000;12388650000;21463390000;-33096000000;26131120000;-7933079000;-15723900000;34632500000;-35602810000;14025750000;18446980000;0;0;56961610000000;202129100000000;271703500000000;105426200000000;-49302410000000;-43674030000000;11489220000000;14031940000000;-4780876000000;-3985252000000;2411085000000;770797200000;-1074957000000;81880880000;365854200000;-177697800000;-68637190000;109936800000;-32898290000;-29726460000;43807610000;-33837460000;15090560000;15379610000;-50485670000;62247930000;-26859490000;-42825860000;0;0;0];
[-38659940000000;-199947600000000;-425794900000000;-498537100000000;-320652000000000;-70364180000000;43051310000000;23517700000000;-7503582000000;-4670865000000;2496453000000;476408800000;-903129600000;237119700000;241752200000;-220340300000;-8971276000;120707300000;-60701720000;-37748490000;64211960000;-21876650000;-24519490000;32845470000;-11504650000;-9283810000;12689660000;-2980287000;-7437306000;0;0;-6611385000000;26590960000000;112436800000000;133922800000000;18669260000000;-54177380000000;-15839160000000;20432610000000;4865306000000;-8351997000000;-178399500000;3228284000000;-923714800000;-937737800000;736513200000;65778530000;-335379000000;130424900000;84655770000;-98310150000;-59917940;55261350000;-19840920000;-40132370000;43562560000;17166990000;-73267260000;53604370000;0;0;0];
[12380230000000;-16075490000000;-147493500000000;-320652000000000;-356025800000000;-199771300000000;-17083880000000;41364820000000;11462210000000;-8274878000000;-1821879000000;2026328000000;-307041100000;-364138700000;370675700000;-94728520000;-143776800000;149380600000;-2986771000;-100915600000;73931170000;23779000000;-84040350000;58986680000;13866380000;-66480480000;64340620000;-20616300000;-32482060000;0;0;-11177890000000;-30033230000000;-22547310000000;27805590000000;45874000000000;-9468308000000;-30977430000000;2929743000000;14346930000000;-3174411000000;-5495024000000;2816211000000;1393083000000;-1707302000000;124965100000;681131400000;-398933000000;-101339200000;262286200000;-114827300000;-84631380000;153155800000;-65373440000;-80654280000;150576700000;-78005000000;-78497740000;179906600000;0;0;0];
[8187058000000;29770940000000;22607020000000;-70364180000000;-199771300000000;-224457200000000;-111344700000000;7871354000000;32116740000000;3909608000000;-7129133000000;-605907600000;1432884000000;-218806200000;-104622000000;114603300000;-114978600000;32576660000;65656660000;-80875210000;18328910000;51621930000;-67649070000;21568440000;38386640000;-55483540000;24214780000;9489685000;-11842880000;0;0;-1588735000000;-14540050000000;-38249700000000;-41290730000000;-5509567000000;16783950000000;-6720970000000;-13338790000000;5797752000000;6371502000000;-4352035000000;-1760029000000;2604897000000;-237952600000;-1054479000000;616102700000;136655700000;-344367300000;157568600000;32768170000;-93972220000;85237470000;-51935580000;-13642850000;93707440000;-118058500000;36252740000;106190300000;0;0;0];
[-1522106000000;7260020000000;34005280000000;43051310000000;-17083880000000;-111344700000000;-131738500000000;-56123630000000;16800330000000;21971550000000;-949969100000;-5727972000000;349298200000;1211013000000;-255743600000;-122620200000;62125840000;-44610900000;31549390000;15571730000;-37355210000;21109730000;4425975000;-28270720000;40886580000;-13742600000;-52461880000;88338490000;-22224240000;0;0;1986712000000;3838301000000;-3569606000000;-22523520000000;-29007980000000;-6577061000000;9667041000000;-3261521000000;-6351428000000;4338678000000;2542327000000;-3178868000000;-109497800000;1590989000000;-673809000000;-418081400000;534638100000;-88699230000;-210729800000;156962500000;32590260000;-109934600000;29880880000;80466000000;-88512590000;-14424470000;119008100000;-112497800000;0;0;0];
[-1481422000000;-5493338000000;-936706400000;23517700000000;41364820000000;7871354000000;-56123630000000;-72241210000000;-24986470000000;16350750000000;12747820000000;-3226761000000;-3766483000000;969548300000;813688900000;-314746600000;-82783800000;36491520000;-10506870000;45498010000;-20717990000;-31933130000;30956610000;3603148000;-988383900;-29480810000;6116868000;83286360000;-120891600000;0;0;575563400000;4059596000000;9896587000000;8776741000000;-5084657000000;-14734080000000;-4232435000000;5460680000000;-1849942000000;-3029017000000;2928862000000;777782900000;-2017911000000;474118800000;790836700000;-644257700000;-10112580000;310774100000;-208215500000;6813929000;106275500000;-114535100000;52626270000;41739530000;-110805900000;94119580000;10691590000;-123575300000;0;0;0];
[432852900000;-1232813000000;-7197465000000;-7503582000000;11462210000000;32116740000000;16800330000000;-24986470000000;-38079500000000;-10301990000000;12147410000000;6471617000000;-3425024000000;-2072787000000;1103747000000;440883600000;-333363100000;-47875350000;63124260000;17725840000;-2215651000;-44974840000;22097830000;56356960000;-76465490000;-21732960000;132306300000;-89502040000;-104752600000;0;0;-455929100000;-768672500000;1727683000000;7892473000000;10048710000000;1098916000000;-7793507000000;-2904125000000;3293077000000;-890899600000;-1506175000000;1765492000000;92362440000;-1150160000000;528701200000;340225500000;-456505000000;83098590000;180063900000;-139213300000;-21061960000;85138140000;-18981410000;-63354000000;56501880000;29164580000;-95046920000;65758020000;0;0;0];
[248430500000;1392873000000;979615100000;-4670865000000;-8274878000000;3909608000000;21971550000000;16350750000000;-10301990000000;-20211670000000;-4037558000000;8007650000000;2881628000000;-2750642000000;-901137000000;935547800000;127300100000;-272340800000;30748510000;54454860000;-27668810000;-12531580000;38486160000;-4982365000;-76255630000;85063070000;48663130000;-191205200000;131145000000;0;0;-139165000000;-1105803000000;-2915323000000;-2727936000000;1998143000000;6098362000000;2126753000000;-4008659000000;-1739136000000;2046900000000;-497316500000;-807748200000;1045212000000;-125835300000;-599576500000;430475400000;63044460000;-263333000000;153241700000;13292580000;-94351590000;90248940000;-35135890000;-38728260000;85323910000;-63946930000;-14873920000;85899430000;0;0;0];
[-146033000000;28140000000;1576208000000;2496453000000;-1821879000000;-7129133000000;-949969100000;12747820000000;12147410000000;-4037558000000;-10917870000000;-1516712000000;4927155000000;1106182000000;-1900850000000;-278995500000;659314200000;-14599800000;-173092800000;25825250000;13642060000;32214970000;5087956000;-86521130000;53712730000;94566940000;-159987400000;9109094000;210921600000;0;0;137146300000;307695400000;-311807500000;-2360522000000;-3609875000000;-776858700000;3316813000000;2044993000000;-2037623000000;-1103112000000;1252558000000;-289207600000;-455411400000;627504100000;-151149700000;-327232800000;305219700000;3101163000;-175451700000;104273700000;38066690000;-82506600000;19149520000;51067500000;-48349290000;-12875360000;59806960000;-45365880000;0;0;0];
[-26851420000;-372092300000;-683364600000;476408800000;2026328000000;-605907600000;-5727972000000;-3226761000000;6471617000000;8007650000000;-1516712000000;-6041403000000;-516715900000;2937750000000;302625400000;-1215299000000;21577430000;433506900000;-97669930000;-131293100000;75828710000;48174800000;-79704290000;-12776430000;118573700000;-78217190000;-101720100000;205272900000;-64043680000;0;0;21814310000;295736000000;971085300000;1230566000000;-188493200000;-2114142000000;-1262929000000;1608058000000;1488409000000;-1060234000000;-697180500000;771445600000;-170403700000;-260171800000;358670700000;-127573200000;-138057500000;178679500000;-56686170000;-46092040000;67198670000;-44613800000;11432760000;23513970000;-45275490000;35039800000;2352336000;-36544070000;0;0;0];
[44380470000;101132500000;-244937400000;-903129600000;-307041100000;1432884000000;349298200000;-3766483000000;-3425024000000;2881628000000;4927155000000;-516715900000;-3386471000000;-143188500000;1707182000000;2860584000;-712605300000;105401000000;221282800000;-77621730000;-18587440000;-4600502000;-28256170000;85241070000;-22177600000;-118390100000;133856800000;40257360000;-207916200000;0;0;-46045440000;-156628100000;-92441380000;563230900000;1327926000000;738550800000;-993944500000;-1156837000000;676265000000;1007523000000;-549464100000;-441358200000;478836900000;-117719900000;-153210600000;233388700000;-106229300000;-81653900000;139323700000;-50285280000;-54830350000;73117740000;-16439260000;-38749460000;42138030000;-5830055000;-27500700000;32070270000;0;0;0];
[-2104583000;78972800000;303089400000;237119700000;-364138700000;-218806200000;1211013000000;969548300000;-2072787000000;-2750642000000;1106182000000;2937750000000;-143188500000;-1927313000000;813740600;999773000000;-99232320000;-435546700000;129247500000;162554800000;-103978500000;-63506750000;97725080000;17411170000;-120392500000;62858000000;101832600000;-165994900000;27197050000;0;0;1382047000;-62802900000;-306566500000;-574987100000;-287267900000;567337300000;730976500000;-332870300000;-819123800000;233711700000;649563300000;-285094300000;-288811900000;298947700000;-64414260000;-98311470000;128299100000;-55162690000;-31083440000;54120400000;-25380580000;-2145512000;8191041000;-6408025000;7647450000;-8912858000;6059075000;17265440;0;0;0];
[-16174360000;-60187770000;-25196120000;241752200000;370675700000;-104622000000;-255743600000;813688900000;1103747000000;-901137000000;-1900850000000;302625400000;1707182000000;813740600;-1085508000000;34364860000;551172600000;-98913280000;-205973900000;82286450000;27108580000;-10791940000;26438200000;-65653670000;11589990000;96819740000;-99581510000;-36366900000;151412700000;0;0;19027150000;78663880000;126317700000;-34246110000;-411252300000;-470251400000;125867900000;540228400000;-19782940000;-524949100000;38183030000;405397400000;-144902300000;-179237500000;182924900000;-51699450000;-47342900000;85230030000;-59124900000;-4901241000;49693300000;-42907620000;4839296000;24259560000;-26201480000;11007390000;4876397000;-14641940000;0;0;0];
[5893754000;-5761265000;-103976700000;-220340300000;-94728520000;114603300000;-122620200000;-314746600000;440883600000;935547800000;-278995500000;-1215299000000;2860584000;999773000000;34364860000;-642781500000;46176620000;348006000000;-97936170000;-160984600000;102658000000;65488490000;-100037600000;-8836113000;102040300000;-57190270000;-70273690000;119713300000;-25451240000;0;0;-7585739000;-5381178000;67024790000;229806500000;265782300000;-35557710000;-322624800000;-75864070000;319128100000;91091340000;-309462100000;-32672250000;252551600000;-74954350000;-121041000000;122419800000;-29239230000;-41975700000;56010180000;-25331690000;-12730750000;26105500000;-13605210000;-4954528000;13463850000;-8638230000;-3943748000;14149180000;0;0;0];
[8124199000;26468120000;47751230000;-8971276000;-143776800000;-114978600000;62125840000;-82783800000;-333363100000;127300100000;659314200000;21577430000;-712605300000;-99232320000;551172600000;46176620000;-338999900000;24386780000;157545000000;-41472490000;-38861300000;6380029000;-4758336000;41773980000;-18054930000;-56357950000;70308850000;10140670000;-88185090000;0;0;-8399892000;-34061700000;-75068600000;-74577600000;57279270000;206344000000;92049620000;-175367500000;-122714900000;170350900000;108924100000;-173801000000;-51036750000;152076000000;-33348860000;-75345560000;69674650000;-18261320000;-16509880000;26836410000;-19938410000;4257142000;7841812000;-9077265000;4553221000;-3024410000;4574613000;-2064132000;0;0;0];
[-10289730000;-8518205000;33296880000;120707300000;149380600000;32576660000;-44610900000;36491520000;-47875350000;-272340800000;-14599800000;433506900000;105401000000;-435546700000;-98913280000;348006000000;24386780000;-236674000000;44333490000;136031100000;-78999730000;-59082260000;87481880000;-379928300;-76686480000;51880270000;36551560000;-79507520000;29881920000;0;0;12393080000;24651080000;6137243000;-64465320000;-138129600000;-86936480000;81890930000;115540400000;-60906220000;-112338100000;72293700000;95300860000;-92007100000;-48868800000;94291000000;-17777300000;-49702340000;49574400000;-15710760000;-12410480000;22035670000;-16605270000;4623924000;6663272000;-13102890000;11862350000;-2353325000;-10069940000;0;0;0];
[1588808000;-13139050000;-47013690000;-60701720000;-2986771000;65656660000;31549390000;-10506870000;63124260000;30748510000;-173092800000;-97669930000;221282800000;129247500000;-205973900000;-97936170000;157545000000;44333490000;-97067300000;-11551020000;45724230000;9774235000;-22000250000;-20771570000;28979180000;16446110000;-44834310000;13402350000;36454200000;0;0;-5025736000;1514996000;33189880000;65653720000;39413530000;-47042970000;-76516490000;14227260000;74120900000;-11405880000;-71499020000;23307660000;64248360000;-42838960000;-38092840000;54216020000;-5340267000;-32729270000;29955070000;-8147180000;-9232631000;14684740000;-9049202000;-2024487000;9077595000;-5970328000;-3447186000;8987252000;0;0;0];
[7949930000;18672260000;12388650000;-37748490000;-100915600000;-80875210000;15571730000;45498010000;17725840000;54454860000;25825250000;-131293100000;-77621730000;162554800000;82286450000;-160984600000;-41472490000;136031100000;-11551020000;-93685780000;49276470000;44321240000;-62544500000;2924116000;50480260000;-38264540000;-16123040000;46892190000;-24227160000;0;0;-4953439000;-18515650000;-28595360000;-8703684000;47398930000;74447530000;7253733000;-64744290000;-16895450000;55757650000;8256724000;-52979310000;6097681000;47398650000;-24441830000;-28732380000;36010890000;-2225968000;-23059370000;19479390000;-3060688000;-6291380000;4584778000;-224994700;734888300;-4660705000;5198592000;503863600;0;0;0];
[-9558260000;-6696302000;21463390000;64211960000;73931170000;18328910000;-37355210000;-20717990000;-2215651000;-27668810000;13642060000;75828710000;-18587440000;-103978500000;27108580000;102658000000;-38861300000;-78999730000;45724230000;49276470000;-44685760000;-25392220000;40961450000;6839730000;-36611530000;11558540000;25434650000;-26552220000;-2948545000;0;0;9595296000;17442860000;4830321000;-24234330000;-45075460000;-27644920000;23254580000;35676110000;-14432190000;-31215310000;16847420000;24426180000;-23414040000;-14135940000;28291980000;-2404673000;-22222350000;17014830000;2615131000;-12662750000;10175200000;-4570990000;457350500;3429443000;-6760137000;6282889000;-936625700;-5413926000;0;0;0];
[2536550000;-12875440000;-33096000000;-21876650000;23779000000;51621930000;21109730000;-31933130000;-44974840000;-12531580000;32214970000;48174800000;-4600502000;-63506750000;-10791940000;65488490000;6380029000;-59082260000;9774235000;44321240000;-25392220000;-23042560000;31817970000;532611500;-26214680000;16720310000;10136700000;-21321810000;8035002000;0;0;-6789666000;-2859348000;18772230000;23403020000;-5544458000;-26801800000;-10270440000;15142260000;9915245000;-10481020000;-5829556000;10188710000;2999865000;-11324590000;-371237500;13067050000;-6011336000;-10236470000;13605300000;-1608190000;-10590830000;11210320000;-2449331000;-5574338000;6140066000;-976952700;-3566578000;3443866000;0;0;0];
[6189736000;25078800000;26131120000;-24519490000;-84040350000;-67649070000;4425975000;30956610000;22097830000;38486160000;5087956000;-79704290000;-28256170000;97725080000;26438200000;-100037600000;-4758336000;87481880000;-22000250000;-62544500000;40961450000;31817970000;-46842670000;-1642480000;38797400000;-22426350000;-17072850000;30959370000;-9884425000;0;0;340940200;-12350220000;-31169790000;-14256880000;36743840000;49120600000;-4006266000;-40338560000;-2305462000;32432730000;-1507626000;-26730760000;7210220000;20577450000;-12440590000;-12823900000;16097190000;2332951000;-14396960000;7665827000;5134822000;-8853364000;3009450000;2810176000;-2362670000;-1770887000;3491323000;-587806800;0;0;0];
[-8798687000;-18896790000;-7933079000;32845470000;58986680000;21568440000;-28270720000;3603148000;56356960000;-4982365000;-86521130000;-12776430000;85241070000;17411170000;-65653670000;-8836113000;41773980000;-379928300;-20771570000;2924116000;6839730000;532611500;-1642480000;-5320464000;4008627000;6205779000;-9581132000;-90851270;10662690000;0;0;4179733000;15766590000;24162820000;9168410000;-21403290000;-30242310000;-2014364000;24610160000;8426213000;-20202440000;-8530211000;16870580000;5002860000;-13705820000;684554300;8794663000;-5288801000;-1378516000;4173963000;-3648802000;1507211000;1185481000;-2877315000;2563989000;-1096207000;60815040;157213500;-413017400;0;0;0];
[3501506000;-3324727000;-15723900000;-11504650000;13866380000;38386640000;40886580000;-988383900;-76465490000;-76255630000;53712730000;118573700000;-22177600000;-120392500000;11589990000;102040300000;-18054930000;-76686480000;28979180000;50480260000;-36611530000;-26214680000;38797400000;4008627000;-34135340000;15801980000;19571540000;-27265520000;3320444000;0;0;-4185210000;-5109075000;1970310000;-21272000;-16658840000;-14516990000;12917180000;15833170000;-13492450000;-14657150000;15533510000;11506590000;-15711850000;-5752780000;12651990000;753135300;-7863295000;779827100;5236048000;-1508286000;-4575880000;4254631000;1311151000;-4981014000;3148936000;1172004000;-3071376000;1237096000;0;0;0];
[4371797000;25577450000;34632500000;-9283810000;-66480480000;-55483540000;-13742600000;-29480810000;-21732960000;85063070000;94566940000;-78217190000;-118390100000;62858000000;96819740000;-57190270000;-56357950000;51880270000;16446110000;-38264540000;11558540000;16720310000;-22426350000;6205779000;15801980000;-21089800000;3031780000;18771550000;-20224210000;0;0;1506477000;-9649521000;-31931390000;-19617180000;34940220000;51908340000;-5392787000;-45096160000;-1257831000;38789110000;-28584260;-31418210000;4532799000;21479840000;-8255476000;-11216650000;8879150000;3274353000;-7131493000;2021008000;3657967000;-4536053000;982922000;3022182000;-3595316000;532193300;2603108000;-2420673000;0;0;0];
[-7608429000;-30165290000;-35602810000;12689660000;64340620000;24214780000;-52461880000;6116868000;132306300000;48663130000;-159987400000;-101720100000;133856800000;101832600000;-99581510000;-70273690000;70308850000;36551560000;-44834310000;-16123040000;25434650000;10136700000;-17072850000;-9581132000;19571540000;3031780000;-23188830000;12392320000;14541240000;0;0;195253100;14861880000;42601840000;37670790000;-13984840000;-49419450000;-19063510000;33169300000;27177030000;-23955580000;-25853140000;19265990000;18095620000;-16276700000;-8152865000;12295140000;34764630;-6379658000;3490208000;276074000;-1717102000;2268012000;-1957296000;-65008470;2434717000;-2546553000;84325650;2259191000;0;0;0];
[3551993000;12487700000;14025750000;-2980287000;-20616300000;9489685000;88338490000;83286360000;-89502040000;-191205200000;9109094000;205272900000;40257360000;-165994900000;-36366900000;119713300000;10140670000;-79507520000;13402350000;46892190000;-26552220000;-21321810000;30959370000;-90851270;-27265520000;18771550000;12392320000;-28090720000;11207110000;0;0;818878600;-5364838000;-21828490000;-32098820000;-25063080000;2246583000;32461750000;15833060000;-32517330000;-21503590000;29811780000;16756950000;-24640130000;-6550546000;16923770000;-2051604000;-7594024000;4421717000;596014700;-1690047000;782415400;-414286500;890504000;-947090400;-365604900;2065498000;-2064877000;-125544300;0;0;0];
[3898815000;14560390000;18446980000;-7437306000;-32482060000;-11842880000;-22224240000;-120891600000;-104752600000;131145000000;210921600000;-64043680000;-207916200000;27197050000;151412700000;-25451240000;-88185090000;29881920000;36454200000;-24227160000;-2948545000;8035002000;-9884425000;10662690000;3320444000;-20224210000;14541240000;11207110000;-26342040000;0;0;-2931279000;-10648740000;-18207630000;-4439033000;40716840000;55715250000;-10545100000;-60136710000;-141039200;54300540000;645098400;-40972530000;4660598000;24492940000;-8670368000;-9632822000;7249796000;765846700;-2760866000;1396937000;-131398500;-781378400;759001900;566029900;-1471454000;242254500;1943372000;-2232447000;0;0;0];
[0;0;0;0;0;0;0;0;0;0;0;0;0;0;0;0;0;0;0;0;0;0;0;0;0;0;0;0;0;0;0;0;0;0;0;0;0;0;0;0;0;0;0;0;0;0;0;0;0;0;0;0;0;0;0;0;0;0;0;0;0;0];
[0;0;0;0;0;0;0;0;0;0;0;0;0;0;0;0;0;0;0;0;0;0;0;0;0;0;0;0;0;0;0;0;0;0;0;0;0;0;0;0;0;0;0;0;0;0;0;0;0;0;0;0;0;0;0;0;0;0;0;0;0;0];
[412703800000000;216784700000000;56961610000000;-6611385000000;-11177890000000;-1588735000000;1986712000000;575563400000;-455929100000;-139165000000;137146300000;21814310000;-46045440000;1382047000;19027150000;-7585739000;-8399892000;12393080000;-5025736000;-4953439000;9595296000;-6789666000;340940200;4179733000;-4185210000;1506477000;195253100;818878600;-2931279000;0;0;-101618800000000;-66602930000000;-17137250000000;5114642000000;4305078000000;-487638800000;-1011301000000;127223600000;255487700000;-66245610000;-63220530000;34165920000;12047600000;-16194370000;1286248000;6920846000;-4786355000;-844782200;4123056000;-3251498000;-231695300;3180748000;-3178450000;387592400;2632388000;-3164388000;719752400;2530536000;0;0;0];
[252217700000000;385806900000000;202129100000000;26590960000000;-30033230000000;-14540050000000;3838301000000;4059596000000;-768672500000;-1105803000000;307695400000;295736000000;-156628100000;-62802900000;78663880000;-5381178000;-34061700000;24651080000;1514996000;-18515650000;17442860000;-2859348000;-12350220000;15766590000;-5109075000;-9649521000;14861880000;-5364838000;-10648740000;0;0;-66602930000000;-107104300000000;-61613370000000;-4628799000000;12643770000000;3393911000000;-3000622000000;-968256400000;927056200000;181030200000;-324828500000;16140410000;105102400000;-39757620000;-23300690000;24390300000;-1391766000;-10857650000;8381792000;-109990700;-6992400000;9398491000;-5479397000;-3250292000;11208760000;-11903050000;3502925000;8521585000;0;0;0];
[45655500000000;212485400000000;271703500000000;112436800000000;-22547310000000;-38249700000000;-3569606000000;9896587000000;1727683000000;-2915323000000;-311807500000;971085300000;-92441380000;-306566500000;126317700000;67024790000;-75068600000;6137243000;33189880000;-28595360000;4830321000;18772230000;-31169790000;24162820000;1970310000;-31931390000;42601840000;-21828490000;-18207630000;0;0;-17137250000000;-61613370000000;-78086810000000;-32549750000000;10210120000000;12068140000000;-1650165000000;-3828421000000;727434200000;1183828000000;-461414700000;-306046600000;251166300000;31835570000;-106679700000;29475330000;31356200000;-28227330000;1643285000;11806390000;-9822179000;4781983000;-2025211000;-1979487000;9293922000;-14398520000;9323964000;6359026000;0;0;0];
[-28679890000000;-1678135000000;105426200000000;133922800000000;27805590000000;-41290730000000;-22523520000000;8776741000000;7892473000000;-2727936000000;-2360522000000;1230566000000;563230900000;-574987100000;-34246110000;229806500000;-74577600000;-64465320000;65653720000;-8703684000;-24234330000;23403020000;-14256880000;9168410000;-21272000;-19617180000;37670790000;-32098820000;-4439033000;0;0;5114642000000;-4628799000000;-32549750000000;-39104540000000;-8198562000000;12694050000000;5045197000000;-4411732000000;-1645305000000;1826477000000;273573700000;-761426500000;120222800000;260007500000;-149281000000;-44933530000;84761980000;-20663950000;-29892300000;25767270000;3706813000;-18753410000;8081615000;10916020000;-15655750000;1016483000;17133410000;-18414670000;0;0;0];
[-13190610000000;-50654090000000;-49302410000000;18669260000000;45874000000000;-5509567000000;-29007980000000;-5084657000000;10048710000000;1998143000000;-3609875000000;-188493200000;1327926000000;-287267900000;-411252300000;265782300000;57279270000;-138129600000;39413530000;47398930000;-45075460000;-5544458000;36743840000;-21403290000;-16658840000;34940220000;-13984840000;-25063080000;40716840000;0;0;4305078000000;12643770000000;10210120000000;-8198562000000;-15325000000000;-269368900000;7537994000000;391185500000;-3236319000000;289873600000;1273881000000;-462660300000;-378025300000;334066000000;20898340000;-154479800000;68915400000;34691880000;-56941840000;19977370000;21565240000;-34544380000;15517050000;16749220000;-34843980000;22246570000;12232370000;-39649700000;0;0;0];
[4775992000000;-6597686000000;-43674030000000;-54177380000000;-9468308000000;16783950000000;-6577061000000;-14734080000000;1098916000000;6098362000000;-776858700000;-2114142000000;738550800000;567337300000;-470251400000;-35557710000;206344000000;-86936480000;-47042970000;74447530000;-27644920000;-26801800000;49120600000;-30242310000;-14516990000;51908340000;-49419450000;2246583000;55715250000;0;0;-487638800000;3393911000000;12068140000000;12694050000000;-269368900000;-7324269000000;243181200000;3847865000000;-588724900000;-1668220000000;673436200000;530484000000;-481104700000;-39505440000;226877200000;-91033040000;-51276070000;66460840000;-17577070000;-14208410000;15525600000;-9486739000;7031972000;-955516700;-12260250000;21228560000;-12065740000;-13136750000;0;0;0];
[3001043000000;12961520000000;11489220000000;-15839160000000;-30977430000000;-6720970000000;9667041000000;-4232435000000;-7793507000000;2126753000000;3316813000000;-1262929000000;-993944500000;730976500000;125867900000;-322624800000;92049620000;81890930000;-76516490000;7253733000;23254580000;-10270440000;-4006266000;-2014364000;12917180000;-5392787000;-19063510000;32461750000;-10545100000;0;0;-1011301000000;-3000622000000;-1650165000000;5045197000000;7537994000000;243181200000;-4156390000000;406536400000;2150871000000;-689428100000;-844576600000;593904500000;163030200000;-336782600000;81088630000;114122500000;-98123350000;-1006865000;50424730000;-29162940000;-12533040000;27841520000;-9683347000;-17049590000;24432570000;-5865969000;-20563100000;29568880000;0;0;0];
[-1279114000000;1505012000000;14031940000000;20432610000000;2929743000000;-13338790000000;-3261521000000;5460680000000;-2904125000000;-4008659000000;2044993000000;1608058000000;-1156837000000;-332870300000;540228400000;-75864070000;-175367500000;115540400000;14227260000;-64744290000;35676110000;15142260000;-40338560000;24610160000;15833170000;-45096160000;33169300000;15833060000;-60136710000;0;0;127223600000;-968256400000;-3828421000000;-4411732000000;391185500000;3847865000000;406536400000;-2223843000000;373775300000;1132213000000;-570365900000;-368859900000;422509900000;-10272580000;-189912000000;102694900000;28096660000;-62417280000;28404070000;6489258000;-18066030000;15647750000;-8274191000;-3415638000;15990880000;-19007270000;5527724000;16859100000;0;0;0];
[-618883000000;-3835859000000;-4780876000000;4865306000000;14346930000000;5797752000000;-6351428000000;-1849942000000;3293077000000;-1739136000000;-2037623000000;1488409000000;676265000000;-819123800000;-19782940000;319128100000;-122714900000;-60906220000;74120900000;-16895450000;-14432190000;9915245000;-2305462000;8426213000;-13492450000;-1257831000;27177030000;-32517330000;-141039200;0;0;255487700000;927056200000;727434200000;-1645305000000;-3236319000000;-588724900000;2150871000000;373775300000;-1283690000000;256346500000;614664100000;-398389500000;-145839700000;268793600000;-61399150000;-98324690000;84219440000;37547780;-42810520000;25613890000;9175314000;-21940660000;7237448000;13571200000;-17938290000;2243090000;17485740000;-21793400000;0;0;0];
[430714900000;119920800000;-3985252000000;-8351997000000;-3174411000000;6371502000000;4338678000000;-3029017000000;-890899600000;2046900000000;-1103112000000;-1060234000000;1007523000000;233711700000;-524949100000;91091340000;170350900000;-112338100000;-11405880000;55757650000;-31215310000;-10481020000;32432730000;-20202440000;-14657150000;38789110000;-23955580000;-21503590000;54300540000;0;0;-66245610000;181030200000;1183828000000;1826477000000;289873600000;-1668220000000;-689428100000;1132213000000;256346500000;-738692900000;180143400000;331922800000;-263613600000;-42353360000;156170500000;-65172780000;-35812820000;51549220000;-17979620000;-8868022000;14463480000;-10649220000;5559390000;1885260000;-10885140000;14018350000;-5366082000;-10412980000;0;0;0];
[86997790000;1153566000000;2411085000000;-178399500000;-5495024000000;-4352035000000;2542327000000;2928862000000;-1506175000000;-497316500000;1252558000000;-697180500000;-549464100000;649563300000;38183030000;-309462100000;108924100000;72293700000;-71499020000;8256724000;16847420000;-5829556000;-1507626000;-8530211000;15533510000;-28584260;-25853140000;29811780000;645098400;0;0;-63220530000;-324828500000;-461414700000;273573700000;1273881000000;673436200000;-844576600000;-570365900000;614664100000;180143400000;-433856200000;120500900000;181666900000;-171161000000;-1286214000;92526690000;-55435080000;-13915890000;38694630000;-18104730000;-10564860000;19241620000;-6529585000;-10572030000;15046620000;-3834269000;-11612490000;16827600000;0;0;0];
[-144285300000;-326231800000;770797200000;3228284000000;2816211000000;-1760029000000;-3178868000000;777782900000;1765492000000;-807748200000;-289207600000;771445600000;-441358200000;-285094300000;405397400000;-32672250000;-173801000000;95300860000;23307660000;-52979310000;24426180000;10188710000;-26730760000;16870580000;11506590000;-31418210000;19265990000;16756950000;-40972530000;0;0;34165920000;16140410000;-306046600000;-761426500000;-462660300000;530484000000;593904500000;-368859900000;-398389500000;331922800000;120500900000;-256327300000;77497820000;99422320000;-104193100000;10640830000;46735060000;-34062650000;264772200;13471860000;-8271904000;2105503000;-1650208000;1191498000;3512164000;-8314834000;6582255000;2076917000;0;0;0];
[9044053000;-281423600000;-1074957000000;-923714800000;1393083000000;2604897000000;-109497800000;-2017911000000;92362440000;1045212000000;-455411400000;-170403700000;478836900000;-288811900000;-144902300000;252551600000;-51036750000;-92007100000;64248360000;6097681000;-23414040000;2999865000;7210220000;5002860000;-15711850000;4532799000;18095620000;-24640130000;4660598000;0;0;12047600000;105102400000;251166300000;120222800000;-378025300000;-481104700000;163030200000;422509900000;-145839700000;-263613600000;181666900000;77497820000;-153212400000;53521500000;53094620000;-67863070000;17502100000;25869630000;-29253660000;7608145000;11816790000;-15202880000;5149197000;7183486000;-11545350000;5430872000;5154789000;-11275760000;0;0;0];
[47352650000;204769800000;81880880000;-937737800000;-1707302000000;-237952600000;1590989000000;474118800000;-1150160000000;-125835300000;627504100000;-260171800000;-117719900000;298947700000;-179237500000;-74954350000;152076000000;-48868800000;-42838960000;47398650000;-14135940000;-11324590000;20577450000;-13705820000;-5752780000;21479840000;-16276700000;-6550546000;24492940000;0;0;-16194370000;-39757620000;31835570000;260007500000;334066000000;-39505440000;-336782600000;-10272580000;268793600000;-42353360000;-171161000000;99422320000;53521500000;-93797080000;31956810000;32296770000;-40443630000;9581434000;14916940000;-13796600000;642127900;5717508000;-1813342000;-3488055000;2806083000;2520785000;-6096417000;3893658000;0;0;0];
[-18294210000;22184490000;365854200000;736513200000;124965100000;-1054479000000;-673809000000;790836700000;528701200000;-599576500000;-151149700000;358670700000;-153210600000;-64414260000;182924900000;-121041000000;-33348860000;94291000000;-38092840000;-24441830000;28291980000;-371237500;-12440590000;684554300;12651990000;-8255476000;-8152865000;16923770000;-8670368000;0;0;1286248000;-23300690000;-106679700000;-149281000000;20898340000;226877200000;81088630000;-189912000000;-61399150000;156170500000;-1286214000;-104193100000;53094620000;31956810000;-54035960000;22040060000;13712860000;-23547020000;11938170000;2767777000;-9433330000;7848959000;-2230004000;-3402643000;6112160000;-4575305000;-82913050;4715789000;0;0;0];
[-16463500000;-84193370000;-177697800000;65778530000;681131400000;616102700000;-418081400000;-644257700000;340225500000;430475400000;-327232800000;-127573200000;233388700000;-98311470000;-51699450000;122419800000;-75345560000;-17777300000;54216020000;-28732380000;-2404673000;13067050000;-12823900000;8794663000;753135300;-11216650000;12295140000;-2051604000;-9632822000;0;0;6920846000;24390300000;29475330000;-44933530000;-154479800000;-91033040000;114122500000;102694900000;-98324690000;-65172780000;92526690000;10640830000;-67863070000;32296770000;22040060000;-37075640000;15425260000;10799750000;-18175440000;7489520000;5583096000;-8933391000;3003249000;3999927000;-5559320000;1557341000;3565460000;-5373359000;0;0;0];
[19765560000;27167990000;-68637190000;-335379000000;-398933000000;136655700000;534638100000;-10112580000;-456505000000;63044460000;305219700000;-138057500000;-106229300000;128299100000;-47342900000;-29239230000;69674650000;-49702340000;-5340267000;36010890000;-22222350000;-6011336000;16097190000;-5288801000;-7863295000;8879150000;34764630;-7594024000;7249796000;0;0;-4786355000;-1391766000;31356200000;84761980000;68915400000;-51276070000;-98123350000;28096660000;84219440000;-35812820000;-55435080000;46735060000;17502100000;-40443630000;13712860000;15425260000;-19670050000;6694473000;5116862000;-7144447000;2952702000;594664100;-955271600;82383840;-296316200;1555385000;-2104179000;729779900;0;0;0];
[-1892871000;27718770000;109936800000;130424900000;-101339200000;-344367300000;-88699230000;310774100000;83098590000;-263333000000;3101163000;178679500000;-81653900000;-55162690000;85230030000;-41975700000;-18261320000;49574400000;-32729270000;-2225968000;17014830000;-10236470000;2332951000;-1378516000;779827100;3274353000;-6379658000;4421717000;765846700;0;0;-844782200;-10857650000;-28227330000;-20663950000;34691880000;66460840000;-1006865000;-62417280000;37547780;51549220000;-13915890000;-34062650000;25869630000;9581434000;-23547020000;10799750000;6694473000;-13202260000;8125269000;912427100;-6426153000;5813057000;-1391293000;-2786709000;4087080000;-2360203000;-752750600;3093494000;0;0;0];
[-13862320000;-34259280000;-32898290000;84655770000;262286200000;157568600000;-210729800000;-208215500000;180063900000;153241700000;-175451700000;-56686170000;139323700000;-31083440000;-59124900000;56010180000;-16509880000;-15710760000;29955070000;-23059370000;2615131000;13605300000;-14396960000;4173963000;5236048000;-7131493000;3490208000;596014700;-2760866000;0;0;4123056000;8381792000;1643285000;-29892300000;-56941840000;-17577070000;50424730000;28404070000;-42810520000;-17979620000;38694630000;264772200;-29253660000;14916940000;11938170000;-18175440000;5116862000;8125269000;-10166890000;3488943000;3478861000;-5173046000;2012612000;1944661000;-3168273000;1180921000;1779900000;-3005435000;0;0;0];
[14403910000;6738718000;-29726460000;-98310150000;-114827300000;32768170000;156962500000;6813929000;-139213300000;13292580000;104273700000;-46092040000;-50285280000;54120400000;-4901241000;-25331690000;26836410000;-12410480000;-8147180000;19479390000;-12662750000;-1608190000;7665827000;-3648802000;-1508286000;2021008000;276074000;-1690047000;1396937000;0;0;-3251498000;-109990700;11806390000;25767270000;19977370000;-14208410000;-29162940000;6489258000;25613890000;-8868022000;-18104730000;13471860000;7608145000;-13796600000;2767777000;7489520000;-7144447000;912427100;3488943000;-3589216000;1393789000;440434100;-860682200;459622000;-257977000;537546200;-721670100;221087000;0;0;0];
[-2483817000;25411910000;43807610000;-59917940;-84631380000;-93972220000;32590260000;106275500000;-21061960000;-94351590000;38066690000;67198670000;-54830350000;-25380580000;49693300000;-12730750000;-19938410000;22035670000;-9232631000;-3060688000;10175200000;-10590830000;5134822000;1507211000;-4575880000;3657967000;-1717102000;782415400;-131398500;0;0;-231695300;-6992400000;-9822179000;3706813000;21565240000;15525600000;-12533040000;-18066030000;9175314000;14463480000;-10564860000;-8271904000;11816790000;642127900;-9433330000;5583096000;2952702000;-6426153000;3478861000;1393789000;-4022048000;3306123000;-599462100;-1930314000;2689986000;-1448199000;-683650900;2095298000;0;0;0];
[-9674748000;-38326210000;-33837460000;55261350000;153155800000;85237470000;-109934600000;-114535100000;85138140000;90248940000;-82506600000;-44613800000;73117740000;-2145512000;-42907620000;26105500000;4257142000;-16605270000;14684740000;-6291380000;-4570990000;11210320000;-8853364000;1185481000;4254631000;-4536053000;2268012000;-414286500;-781378400;0;0;3180748000;9398491000;4781983000;-18753410000;-34544380000;-9486739000;27841520000;15647750000;-21940660000;-10649220000;19241620000;2105503000;-15202880000;5717508000;7848959000;-8933391000;594664100;5813057000;-5173046000;440434100;3306123000;-3556890000;1104903000;1578763000;-2428975000;1125209000;963141500;-2042251000;0;0;0];
[11807240000;21804120000;15090560000;-19840920000;-65373440000;-51935580000;29880880000;52626270000;-18981410000;-35135890000;19149520000;11432760000;-16439260000;8191041000;4839296000;-13605210000;7841812000;4623924000;-9049202000;4584778000;457350500;-2449331000;3009450000;-2877315000;1311151000;982922000;-1957296000;890504000;759001900;0;0;-3178450000;-5479397000;-2025211000;8081615000;15517050000;7031972000;-9683347000;-8274191000;7237448000;5559390000;-6529585000;-1650208000;5149197000;-1813342000;-2230004000;3003249000;-955271600;-1391293000;2012612000;-860682200;-599462100;1104903000;-628572900;-48516270;306678000;-123822900;-156195400;231702300;0;0;0];
[-3657844000;14464890000;15379610000;-40132370000;-80654280000;-13642850000;80466000000;41739530000;-63354000000;-38728260000;51067500000;23513970000;-38749460000;-6408025000;24259560000;-4954528000;-9077265000;6663272000;-2024487000;-224994700;3429443000;-5574338000;2810176000;2563989000;-4981014000;3022182000;-65008470;-947090400;566029900;0;0;387592400;-3250292000;-1979487000;10916020000;16749220000;-955516700;-17049590000;-3415638000;13571200000;1885260000;-10572030000;1191498000;7183486000;-3488055000;-3402643000;3999927000;82383840;-2786709000;1944661000;459622000;-1930314000;1578763000;-48516270;-1374078000;1667397000;-708608600;-690740700;1438341000;0;0;0];
[-6132132000;-44315170000;-50485670000;43562560000;150576700000;93707440000;-88512590000;-110805900000;56501880000;85323910000;-48349290000;-45275490000;42138030000;7647450000;-26201480000;13463850000;4553221000;-13102890000;9077595000;734888300;-6760137000;6140066000;-2362670000;-1096207000;3148936000;-3595316000;2434717000;-365604900;-1471454000;0;0;2632388000;11208760000;9293922000;-15655750000;-34843980000;-12260250000;24432570000;15990880000;-17938290000;-10885140000;15046620000;3512164000;-11545350000;2806083000;6112160000;-5559320000;-296316200;4087080000;-3168273000;-257977000;2689986000;-2428975000;306678000;1667397000;-2076031000;912999300;748728700;-1669785000;0;0;0];
[8513682000;43174050000;62247930000;17166990000;-78005000000;-118058500000;-14424470000;94119580000;29164580000;-63946930000;-12875360000;35039800000;-5830055000;-8912858000;11007390000;-8638230000;-3024410000;11862350000;-5970328000;-4660705000;6282889000;-976952700;-1770887000;60815040;1172004000;532193300;-2546553000;2065498000;242254500;0;0;-3164388000;-11903050000;-14398520000;1016483000;22246570000;21228560000;-5865969000;-19007270000;2243090000;14018350000;-3834269000;-8314834000;5430872000;2520785000;-4575305000;1557341000;1555385000;-2360203000;1180921000;537546200;-1448199000;1125209000;-123822900;-708608600;912999300;-547837900;-62606150;564713600;0;0;0];
[-2037320000;-8853023000;-26859490000;-73267260000;-78497740000;36252740000;119008100000;10691590000;-95046920000;-14873920000;59806960000;2352336000;-27500700000;6059075000;4876397000;-3943748000;4574613000;-2353325000;-3447186000;5198592000;-936625700;-3566578000;3491323000;157213500;-3071376000;2603108000;84325650;-2064877000;1943372000;0;0;719752400;3502925000;9323964000;17133410000;12232370000;-12065740000;-20563100000;5527724000;17485740000;-5366082000;-11612490000;6582255000;5154789000;-6096417000;-82913050;3565460000;-2104179000;-752750600;1779900000;-721670100;-683650900;963141500;-156195400;-690740700;748728700;-62606150;-685906600;842338800;0;0;0];
[-6451165000;-33881380000;-42825860000;53604370000;179906600000;106190300000;-112497800000;-123575300000;65758020000;85899430000;-45365880000;-36544070000;32070270000;17265440;-14641940000;14149180000;-2064132000;-10069940000;8987252000;503863600;-5413926000;3443866000;-587806800;-413017400;1237096000;-2420673000;2259191000;-125544300;-2232447000;0;0;2530536000;8521585000;6359026000;-18414670000;-39649700000;-13136750000;29568880000;16859100000;-21793400000;-10412980000;16827600000;2076917000;-11275760000;3893658000;4715789000;-5373359000;729779900;3093494000;-3005435000;221087000;2095298000;-2042251000;231702300;1438341000;-1669785000;564713600;842338800;-1509122000;0;0;0];
[0;0;0;0;0;0;0;0;0;0;0;0;0;0;0;0;0;0;0;0;0;0;0;0;0;0;0;0;0;0;0;0;0;0;0;0;0;0;0;0;0;0;0;0;0;0;0;0;0;0;0;0;0;0;0;0;0;0;0;0;0;0];
[0;0;0;0;0;0;0;0;0;0;0;0;0;0;0;0;0;0;0;0;0;0;0;0;0;0;0;0;0;0;0;0;0;0;0;0;0;0;0;0;0;0;0;0;0;0;0;0;0;0;0;0;0;0;0;0;0;0;0;0;0;0];
[0;0;0;0;0;0;0;0;0;0;0;0;0;0;0;0;0;0;0;0;0;0;0;0;0;0;0;0;0;0;0;0;0;0;0;0;0;0;0;0;0;0;0;0;0;0;0;0;0;0;0;0;0;0;0;0;0;0;0;0;0;0]].
(** :755 *)
Definition coup3gi : list (list Z) := [
[212929600000000;175505400000000;74027680000000;4055650000000;-11701050000000;-2814639000000;2365203000000;695082500000;-657296700000;-112265000000;209622400000;-11096480000;-64814830000;23240250000;16806200000;-17306830000;550090600;9894889000;-8124559000;-305933000;7104299000;-7009116000;798572900;5745869000;-6798977000;1538044000;5189155000;-7199999000;2438451000;0;0;-815898000000000;-461277400000000;-58446480000000;63174610000000;20479400000000;-12163970000000;-4747154000000;3317119000000;861152400000;-1059829000000;-30572020000;334902900000;-86839810000;-92077580000;71623900000;8964816000;-44357240000;25312700000;12349450000;-33173550000;22746570000;7573707000;-31162020000;27736660000;-303054200;-27389750000;31248140000;-7552591000;0;0;0];
[175505400000000;288524500000000;212929900000000;63184190000000;-19767280000000;-18269420000000;2790103000000;4915211000000;-1048022000000;-1356680000000;566796800000;315484900000;-278102300000;-21519220000;107369600000;-33932920000;-28569190000;29858850000;-3337642000;-16952860000;20281450000;-8682198000;-10323270000;24449730000;-21955650000;1777221000;22454540000;-31500360000;16405110000;0;0;-408866900000000;-742057700000000;-368524900000000;39094610000000;97419140000000;113273000000;-26440230000000;1324514000000;7687661000000;-1724735000000;-2062568000000;1120965000000;346416500000;-507293900000;66012360000;166300400000;-102680900000;-27216610000;82600690000;-59825280000;-926028600;63225600000;-92376750000;61939450000;20165410000;-101864000000;118852000000;-47953620000;0;0;0];
[74027680000000;212929900000000;272202000000000;161900400000000;14611390000000;-35238170000000;-8822956000000;9873076000000;2229091000000;-3509836000000;-130538100000;1269761000000;-303478100000;-374471000000;245626600000;53537770000;-123015000000;33799320000;38654790000;-41314980000;13955320000;6250985000;-16710820000;24978590000;-25693430000;7559579000;25628260000;-49674740000;39476020000;0;0;-93530270000000;-362399700000000;-498320700000000;-162626800000000;112142900000000;69001400000000;-33125310000000;-21295500000000;13514260000000;4920019000000;-5855310000000;-132572400000;2181682000000;-729694300000;-555759300000;527535200000;-12993680000;-219243100000;125443000000;17590050000;-56710230000;33403070000;-29259010000;45733150000;-24539200000;-56983750000;137142600000;-121909500000;0;0;0];
[4055650000000;63184190000000;161900400000000;181798500000000;81334110000000;-16753430000000;-25538030000000;4181342000000;8183449000000;-2694267000000;-2537536000000;1688874000000;513804700000;-857824600000;106477900000;319748500000;-186571300000;-56713030000;114936000000;-30123120000;-43703160000;37742590000;8456500000;-28536700000;3952641000;28667670000;-25699660000;-15296580000;53150370000;0;0;19483860000000;-27345600000000;-186109700000000;-240121900000000;-23002590000000;98634290000000;15930350000000;-39051270000000;-1554372000000;15373720000000;-3179737000000;-5081831000000;3021612000000;877914800000;-1616943000000;369855500000;526854200000;-433477600000;-38837500000;261196300000;-121600900000;-121007200000;192993100000;-43255400000;-156479000000;196168700000;-26714820000;-195365400000;0;0;0];
[-11701050000000;-19767280000000;14611390000000;81334110000000;95108050000000;33423310000000;-16928210000000;-10579720000000;6466716000000;2403510000000;-3349873000000;31657440000;1486605000000;-575613900000;-434472000000;454332000000;-16461490000;-210724200000;127330200000;40707630000;-109348700000;54133820000;43583180000;-89020800000;46176620000;40982950000;-90942890000;57443150000;30550030000;0;0;19796530000000;58699110000000;52311450000000;-47903330000000;-97052830000000;10555380000000;52907020000000;-8577522000000;-22855230000000;8751000000000;7490678000000;-6228115000000;-867606100000;3043441000000;-1031068000000;-821916300000;924232100000;-174016300000;-355478200000;376052900000;-98385870000;-192229700000;295480000000;-145968200000;-145480300000;341402500000;-255390700000;-74927820000;0;0;0];
[-2814639000000;-18269420000000;-35238170000000;-16753430000000;33423310000000;51065720000000;17058800000000;-10643070000000;-4736325000000;3796656000000;116115700000;-1659079000000;788766800000;461116000000;-617118700000;75623660000;256341300000;-177366700000;-11563250000;91771410000;-69318700000;16230130000;32409040000;-60286740000;46697210000;9065530000;-66948730000;74881190000;-19880280000;0;0;394740600000;18604760000000;58792280000000;65591560000000;-4377735000000;-49059730000000;7527560000000;26571770000000;-9947957000000;-10374020000000;8154697000000;1793704000000;-4491381000000;1214703000000;1431168000000;-1270857000000;54823300000;502495700000;-296325700000;-14301740000;76506510000;-16321820000;33888710000;-112197300000;97831670000;61431460000;-228102500000;214377100000;0;0;0];
[2365203000000;2790103000000;-8822956000000;-25538030000000;-16928210000000;17058800000000;30140930000000;8519446000000;-7853195000000;-2597660000000;2441961000000;-182101900000;-751185500000;604893600000;21594360000;-352029500000;182005500000;88076410000;-137974500000;22985540000;60267460000;-37712680000;-21704930000;35928190000;-637694700;-32175120000;26143900000;6544096000;-31450370000;0;0;-4077290000000;-10861020000000;-4716528000000;25107770000000;39412850000000;19738150000;-28096990000000;5874908000000;14512250000000;-7942960000000;-4499947000000;5800062000000;-437002200000;-2570421000000;1559746000000;368697600000;-985243600000;424839300000;250969500000;-416070000000;139641100000;188297300000;-265350400000;68082970000;193300000000;-273966400000;97047120000;189433400000;0;0;0];
[695082500000;4915211000000;9873076000000;4181342000000;-10579720000000;-10643070000000;8519446000000;16494070000000;3335610000000;-5404695000000;-1073247000000;1616131000000;-265962900000;-319536900000;369177800000;-127643800000;-132390400000;172698600000;-43268780000;-72828530000;85257500000;-23137290000;-41559630000;57779190000;-23513310000;-23500880000;44721500000;-32730540000;5383423000;0;0;-361838600000;-5414283000000;-16538650000000;-18946820000000;2439812000000;21008460000000;2096554000000;-15527680000000;4069808000000;7657392000000;-5589541000000;-1558418000000;3642212000000;-1094573000000;-1176281000000;1186930000000;-163672600000;-423545700000;339317700000;-67559090000;-59023420000;71541230000;-90219310000;107178200000;-41302900000;-103704400000;205278300000;-144448000000;0;0;0];
[-657296700000;-1048022000000;2229091000000;8183449000000;6466716000000;-4736325000000;-7853195000000;3335610000000;8897583000000;1241153000000;-3448956000000;-338283300000;1048375000000;-233101900000;-152412800000;198941200000;-102409600000;-40015850000;88126840000;-31178500000;-25771460000;26055650000;-639887100;-10580470000;5294144000;3553374000;-11472620000;13814860000;667607600;0;0;1031757000000;2908120000000;1381273000000;-7803351000000;-14401740000000;-2692310000000;12037860000000;2276758000000;-9157523000000;2595408000000;4200357000000;-3674198000000;-333426100000;2162554000000;-1098693000000;-450903900000;862349300000;-334924500000;-241694800000;365123400000;-117950900000;-158834400000;217093800000;-52971720000;-152077600000;207303100000;-67409730000;-143737200000;0;0;0];
[-112265000000;-1356680000000;-3509836000000;-2694267000000;2403510000000;3796656000000;-2597660000000;-5404695000000;1241153000000;4881750000000;349478000000;-2113222000000;18527240000;648205100000;-200170100000;-58034640000;100225200000;-87105940000;20949290000;49676230000;-56804620000;10650750000;28079830000;-28111950000;9126185000;1680390000;-6975132000;21932400000;-35814120000;0;0;33396410000;1370150000000;4937835000000;6836787000000;763575300000;-7642370000000;-3557021000000;6488732000000;1790853000000;-5408785000000;1683022000000;2323884000000;-2340405000000;107093600000;1190608000000;-798583500000;-80347300000;426381800000;-242026600000;-8917124000;80596580000;-48005980000;42750500000;-67317260000;43732630000;49314180000;-134688300000;119621100000;0;0;0];
[209622400000;566796800000;-130538100000;-2537536000000;-3349873000000;116115700000;2441961000000;-1073247000000;-3448956000000;349478000000;2710245000000;49311660000;-1254691000000;134493900000;392238800000;-159575600000;-33942670000;61768910000;-41798200000;9718092000;18222490000;-23576730000;8084470000;13575080000;-23054120000;5864526000;27861820000;-39553920000;2725612000;0;0;-302388000000;-1050280000000;-1079691000000;1665882000000;5090331000000;2706695000000;-3923076000000;-3096513000000;3574281000000;1367048000000;-3260890000000;1084238000000;1292815000000;-1499006000000;277013700000;653538900000;-625385000000;99312650000;280929300000;-286082800000;63793040000;138979500000;-175608700000;57056320000;95962800000;-155797400000;80932180000;62062030000;0;0;0];
[-11096480000;315484900000;1269761000000;1688874000000;31657440000;-1659079000000;-182101900000;1616131000000;-338283300000;-2113222000000;49311660000;1532414000000;-45223240000;-724496500000;147916000000;212520900000;-114087400000;-987451400;25957710000;-28263860000;18156270000;2435194000;-9632749000;2921364000;-5996547000;19178270000;-12368380000;-24500400000;52357420000;0;0;40905380000;-247444600000;-1426120000000;-2701587000000;-1446243000000;2165371000000;2551651000000;-1672681000000;-2262249000000;1937107000000;987795300000;-1997309000000;683150300000;757122300000;-934088800000;223441400000;357014500000;-362475900000;64541840000;126200100000;-96560830000;-5936728000;32733010000;18225460000;-55399700000;20398340000;55316170000;-95001280000;0;0;0];
[-64814830000;-278102300000;-303478100000;513804700000;1486605000000;788766800000;-751185500000;-265962900000;1048375000000;18527240000;-1254691000000;-45223240000;883502500000;-61686350000;-424814200000;125901400000;121629900000;-84467450000;2789661000;17593390000;-16545000000;17703180000;-6914698000;-18581480000;31306470000;-6704664000;-35997270000;46027350000;-1805574000;0;0;91736140000;412471500000;709600100000;66896580000;-1511546000000;-1712767000000;666414300000;1876665000000;-596276300000;-1559692000000;1039469000000;693520500000;-1218054000000;442992900000;407094500000;-578460400000;228340100000;139895100000;-249683600000;146051300000;9186054000;-105047300000;110562100000;-45889830000;-40530970000;92786860000;-77479810000;6268105000;0;0;0];
[23240250000;-21519220000;-374471000000;-857824600000;-575613900000;461116000000;604893600000;-319536900000;-233101900000;648205100000;134493900000;-724496500000;-61686350000;503839300000;-52001630000;-238053900000;90285980000;60309120000;-54504350000;6114544000;15273810000;-11682700000;-5086872000;14279770000;1965319000;-26363440000;21213160000;17678380000;-47146140000;0;0;-38210520000;-34592690000;295959300000;980736000000;1050305000000;-228851200000;-1245041000000;-83618710000;1200556000000;-98604620000;-1029790000000;558972500000;483865800000;-776679700000;290787200000;260456700000;-389921900000;154725600000;110571800000;-177085600000;68062910000;56725680000;-83153960000;19890070000;50235530000;-60591020000;10017740000;51449310000;0;0;0];
[16806200000;107369600000;245626600000;106477900000;-434472000000;-617118700000;21594360000;369177800000;-152412800000;-200170100000;392238800000;147916000000;-424814200000;-52001630000;297669700000;-42060350000;-138350000000;63757020000;29144050000;-29597030000;6305873000;-6496976000;6222067000;13577280000;-28195250000;9331315000;27989120000;-39488300000;7096247000;0;0;-29053200000;-142542100000;-349958300000;-352386100000;209238400000;766678200000;250526000000;-713834700000;-308555300000;713655200000;96367000000;-666963600000;282676700000;339621600000;-474182900000;170402600000;141199000000;-211353100000;100525500000;19179240000;-60010880000;44908970000;-24386940000;13801030000;297526000;-24315930000;42852820000;-35164520000;0;0;0];
[-17306830000;-33932920000;53537770000;319748500000;454332000000;75623660000;-352029500000;-127643800000;198941200000;-58034640000;-159575600000;212520900000;125901400000;-238053900000;-42060350000;171672500000;-29178210000;-80015840000;47706650000;14303370000;-31854740000;13476450000;13088300000;-22517560000;3801804000;22787580000;-23948340000;-4822364000;31515740000;0;0;34989010000;74321280000;12501250000;-259458900000;-511259000000;-240133300000;384445900000;370422500000;-330826500000;-330486500000;388971600000;151092000000;-418874100000;145714200000;223062300000;-306615500000;132230600000;74654030000;-156432200000;104195700000;-134511800;-70824470000;73574150000;-25678330000;-29677170000;54849980000;-37580500000;-5848334000;0;0;0];
[550090600;-28569190000;-123015000000;-186571300000;-16461490000;256341300000;182005500000;-132390400000;-102409600000;100225200000;-33942670000;-114087400000;121629900000;90285980000;-138350000000;-29178210000;99906510000;-15228330000;-45216890000;19842520000;11735480000;-4192045000;-9697485000;-772115800;18387390000;-13124640000;-11981850000;26332010000;-12223830000;0;0;-4312083000;26106060000;135976000000;253596100000;135918500000;-206169300000;-277607600000;108099100000;286038500000;-114390100000;-254960000000;197989700000;142917000000;-265866500000;67752370000;165027000000;-202068300000;71767420000;64325080000;-98894290000;44772270000;20530130000;-39908390000;14558100000;17059480000;-22463480000;578123400;24526420000;0;0;0];
[9894889000;29858850000;33799320000;-56713030000;-210724200000;-177366700000;88076410000;172698600000;-40015850000;-87105940000;61768910000;-987451400;-84467450000;60309120000;63757020000;-80015840000;-15228330000;60151560000;-20729590000;-22592330000;27374460000;-7892614000;-13174600000;19860790000;-6416649000;-14007010000;19401800000;-4011253000;-15075760000;0;0;-22012140000;-54296560000;-67555960000;-2275021000;162471500000;213763300000;-25776940000;-220174300000;-15145310000;205035000000;-14473300000;-189258000000;93075010000;121354500000;-161907200000;23112580000;107325400000;-117498600000;45441760000;22018660000;-43715870000;32626820000;-15671480000;3687124000;7174019000;-18958500000;24463100000;-15439900000;0;0;0];
[-8124559000;-3337642000;38654790000;114936000000;127330200000;-11563250000;-137974500000;-43268780000;88126840000;20949290000;-41798200000;25957710000;2789661000;-54504350000;29144050000;47706650000;-45216890000;-20729590000;39818640000;-501145300;-25235540000;8287891000;14722760000;-10992220000;-8300162000;14736140000;-1826939000;-12619510000;12374360000;0;0;25148540000;25524810000;-31539620000;-113261200000;-141768600000;-32666430000;124453400000;82550710000;-101572700000;-77308500000;106261700000;41994540000;-119317100000;28037690000;90399050000;-97139130000;9826671000;70821140000;-84208590000;41706220000;12526510000;-43240930000;39929320000;-13287460000;-15883650000;29188560000;-20519460000;-1441532000;0;0;0];
[-305933000;-16952860000;-41314980000;-30123120000;40707630000;91771410000;22985540000;-72828530000;-31178500000;49676230000;9718092000;-28263860000;17593390000;6114544000;-29597030000;14303370000;19842520000;-22592330000;-501145300;13976770000;-10003730000;906462300;6208136000;-8786310000;4237521000;4562624000;-9063209000;4762435000;3473526000;0;0;-8989877000;15927900000;65536500000;61758730000;-17887180000;-83562510000;-40573840000;56204460000;51738470000;-44156710000;-48398460000;51679890000;33484190000;-70248290000;8945156000;64100300000;-62677660000;-1240266000;56155320000;-57115080000;17787390000;19658850000;-27848260000;11146440000;7846104000;-11958010000;1772526000;9761561000;0;0;0];
[7104299000;20281450000;13955320000;-43703160000;-109348700000;-69318700000;60267460000;85257500000;-25771460000;-56804620000;18222490000;18156270000;-16545000000;15273810000;6305873000;-31854740000;11735480000;27374460000;-25235540000;-10003730000;25502580000;-6217955000;-15926740000;14318290000;3026560000;-13026170000;7121243000;4443364000;-9062891000;0;0;-10547730000;-38538670000;-45992840000;15974240000;101989600000;85419520000;-40969710000;-88805250000;16133770000;73058360000;-16020830000;-59938800000;29259180000;44425710000;-49990150000;-9807767000;52237270000;-34664830000;-10989560000;36129820000;-28417790000;8410245000;3202957000;-4203141000;3786895000;-7241142000;10684650000;-7788693000;0;0;0];
[-7009116000;-8682198000;6250985000;37742590000;54133820000;16230130000;-37712680000;-23137290000;26055650000;10650750000;-23576730000;2435194000;17703180000;-11682700000;-6496976000;13476450000;-4192045000;-7892614000;8287891000;906462300;-6217955000;2392240000;3141561000;-3189524000;-700659000;2974380000;-1537335000;-1310968000;2622485000;0;0;18631530000;28990950000;5444983000;-33909870000;-53874580000;-27035380000;31253900000;37552840000;-19758410000;-32849640000;18948820000;25459270000;-25594750000;-11605000000;31467290000;-13283230000;-16989010000;28443430000;-15762250000;-5801900000;20285620000;-21918290000;13555330000;-1265885000;-9028507000;13115400000;-9814709000;1646676000;0;0;0];
[798572900;-10323270000;-16710820000;8456500000;43583180000;32409040000;-21704930000;-41559630000;-639887100;28079830000;8084470000;-9632749000;-6914698000;-5086872000;6222067000;13088300000;-9697485000;-13174600000;14722760000;6208136000;-15926740000;3141561000;10957820000;-8818613000;-2951728000;8557967000;-3673383000;-3556378000;5226926000;0;0;-11837880000;4961833000;38469730000;12210600000;-47674390000;-37983540000;22704090000;33146740000;-11791940000;-23419920000;10116470000;13973440000;-7772341000;-9445217000;5626299000;11355980000;-12799350000;-5642784000;20828720000;-14763760000;-5589978000;20114170000;-17718710000;4209071000;7131778000;-8634800000;2711701000;3230587000;0;0;0];
[5745869000;24449730000;24978590000;-28536700000;-89020800000;-60286740000;35928190000;57779190000;-10580470000;-28111950000;13575080000;2921364000;-18581480000;14279770000;13577280000;-22517560000;-772115800;19860790000;-10992220000;-8786310000;14318290000;-3189524000;-8818613000;9202274000;-145469600;-7445443000;6548330000;298285000;-5697199000;0;0;-988869500;-36895040000;-68698810000;-3138933000;95791670000;72940520000;-40182320000;-67616230000;18661850000;52202810000;-17486130000;-36743260000;20985480000;22408470000;-23865410000;-8732351000;24926380000;-7866782000;-16165690000;20067570000;-4462164000;-11491420000;14030230000;-5680414000;-2277228000;2809379000;1741537000;-4523081000;0;0;0];
[-6798977000;-21955650000;-25693430000;3952641000;46176620000;46697210000;-637694700;-23513310000;5294144000;9126185000;-23054120000;-5996547000;31306470000;1965319000;-28195250000;3801804000;18387390000;-6416649000;-8300162000;4237521000;3026560000;-700659000;-2951728000;-145469600;4423603000;-2338694000;-3569527000;5400792000;-945354300;0;0;7855569000;39702200000;61973350000;17778670000;-48659690000;-52970680000;1426408000;41046700000;11697240000;-33442260000;-9139663000;29807100000;-479502700;-24531030000;12568120000;12256220000;-18764380000;5446620000;9760852000;-13486760000;6309513000;3043809000;-7337804000;5738311000;-2188738000;580457900;-1412955000;2301152000;0;0;0];
[1538044000;1777221000;7559579000;28667670000;40982950000;9065530000;-32175120000;-23500880000;3553374000;1680390000;5864526000;19178270000;-6704664000;-26363440000;9331315000;22787580000;-13124640000;-14007010000;14736140000;4562624000;-13026170000;2974380000;8557967000;-7445443000;-2338694000;7902891000;-3749815000;-3965815000;6547133000;0;0;-4380689000;-8833399000;-9766870000;-22848290000;-44912830000;-16863000000;44732180000;27317610000;-39562230000;-19158650000;35995320000;4125969000;-27703160000;9477966000;12364790000;-12034020000;1209178000;3585994000;-2136318000;1463187000;-3128903000;3420630000;-232789200;-3978984000;5386451000;-3108403000;-222440600;1553572000;0;0;0];
[5189155000;22454540000;25628260000;-25699660000;-90942890000;-66948730000;26143900000;44721500000;-11472620000;-6975132000;27861820000;-12368380000;-35997270000;21213160000;27989120000;-23948340000;-11981850000;19401800000;-1826939000;-9063209000;7121243000;-1537335000;-3673383000;6548330000;-3569527000;-3749815000;7676133000;-3501651000;-4327650000;0;0;-3334307000;-31372660000;-60818430000;-9355606000;95570100000;88364640000;-42143450000;-82211610000;24904490000;62684120000;-26821810000;-39967180000;30491540000;16189320000;-26039550000;919100600;15642790000;-7609951000;-6949402000;9295989000;26646240;-8333984000;7061593000;1041291000;-7214685000;6170427000;-251474900;-4188395000;0;0;0];
[-7199999000;-31500360000;-49674740000;-15296580000;57443150000;74881190000;6544096000;-32730540000;13814860000;21932400000;-39553920000;-24500400000;46027350000;17678380000;-39488300000;-4822364000;26332010000;-4011253000;-12619510000;4762435000;4443364000;-1310968000;-3556378000;298285000;5400792000;-3965815000;-3501651000;7574811000;-3196265000;0;0;5528958000;46772390000;98147410000;60132310000;-54922480000;-98281590000;-12505330000;71686030000;25853330000;-55749890000;-16210390000;45844420000;-1427445000;-32523280000;15791110000;14896190000;-20397520000;2525150000;13884490000;-13203720000;164064800;10707340000;-10422150000;1547566000;6878909000;-8183964000;2811536000;3531871000;0;0;0];
[2438451000;16405110000;39476020000;53150370000;30550030000;-19880280000;-31450370000;5383423000;667607600;-35814120000;2725612000;52357420000;-1805574000;-47146140000;7096247000;31515740000;-12223830000;-15075760000;12374360000;3473526000;-9062891000;2622485000;5226926000;-5697199000;-945354300;6547133000;-4327650000;-3196265000;7391898000;0;0;1614938000;-22516650000;-66612510000;-76407580000;-40813270000;23577760000;65889260000;6907230000;-64013510000;-4162493000;53791530000;-11729540000;-34536890000;23895640000;10001930000;-22215290000;9708276000;7153201000;-13462330000;8028897000;1859125000;-8324329000;8004218000;-2622132000;-3517439000;6508751000;-4872404000;185343000;0;0;0];
[0;0;0;0;0;0;0;0;0;0;0;0;0;0;0;0;0;0;0;0;0;0;0;0;0;0;0;0;0;0;0;0;0;0;0;0;0;0;0;0;0;0;0;0;0;0;0;0;0;0;0;0;0;0;0;0;0;0;0;0;0;0];
[0;0;0;0;0;0;0;0;0;0;0;0;0;0;0;0;0;0;0;0;0;0;0;0;0;0;0;0;0;0;0;0;0;0;0;0;0;0;0;0;0;0;0;0;0;0;0;0;0;0;0;0;0;0;0;0;0;0;0;0;0;0];
[-815898000000000;-408866900000000;-93530270000000;19483860000000;19796530000000;394740600000;-4077290000000;-361838600000;1031757000000;33396410000;-302388000000;40905380000;91736140000;-38210520000;-29053200000;34989010000;-4312083000;-22012140000;25148540000;-8989877000;-10547730000;18631530000;-11837880000;-988869500;7855569000;-4380689000;-3334307000;5528958000;1614938000;0;0;188768600000000;115328600000000;23293950000000;-13025430000000;-7633212000000;1934102000000;2029014000000;-531883400000;-543628200000;231561000000;130541300000;-109698800000;-13260800000;45740220000;-14225950000;-12443660000;14265510000;-3587380000;-6098240000;9034635000;-4778189000;-3343241000;9271531000;-7926507000;-314225900;9078365000;-10875990000;3523395000;0;0;0];
[-461277400000000;-742057700000000;-362399700000000;-27345600000000;58699110000000;18604760000000;-10861020000000;-5414283000000;2908120000000;1370150000000;-1050280000000;-247444600000;412471500000;-34592690000;-142542100000;74321280000;26106060000;-54296560000;25524810000;15927900000;-38538670000;28990950000;4961833000;-36895040000;39702200000;-8833399000;-31372660000;46772390000;-22516650000;0;0;115328600000000;187408300000000;95750940000000;-5039887000000;-25454040000000;-2863585000000;6975570000000;840060400000;-2227724000000;33002810000;740570800000;-196465900000;-205000300000;141645300000;23830740000;-66135840000;21433240000;18430400000;-24128450000;11754580000;2363021000;-14034920000;20805660000;-16508720000;-1380317000;23596100000;-32799480000;18021450000;0;0;0];
[-58446480000000;-368524900000000;-498320700000000;-186109700000000;52311450000000;58792280000000;-4716528000000;-16538650000000;1381273000000;4937835000000;-1079691000000;-1426120000000;709600100000;295959300000;-349958300000;12501250000;135976000000;-67555960000;-31539620000;65536500000;-45992840000;5444983000;38469730000;-68698810000;61973350000;-9766870000;-60818430000;98147410000;-66612510000;0;0;23293950000000;95750940000000;121606300000000;37959830000000;-27702370000000;-18267090000000;7334064000000;6156465000000;-2939685000000;-1736764000000;1399973000000;279696100000;-611934900000;104407600000;203997400000;-130310200000;-26789040000;70996260000;-25977740000;-16543610000;18755070000;-2853455000;-724251500;-9826847000;13219860000;4844319000;-31903560000;38837130000;0;0;0];
[63174610000000;39094610000000;-162626800000000;-240121900000000;-47903330000000;65591560000000;25107770000000;-18946820000000;-7803351000000;6836787000000;1665882000000;-2701587000000;66896580000;980736000000;-352386100000;-259458900000;253596100000;-2275021000;-113261200000;61758730000;15974240000;-33909870000;12210600000;-3138933000;17778670000;-22848290000;-9355606000;60132310000;-76407580000;0;0;-13025430000000;-5039887000000;37959830000000;50964950000000;2251900000000;-23228410000000;-3840601000000;9073083000000;833705100000;-3611021000000;448683700000;1295146000000;-601304700000;-303044800000;377781900000;-42110110000;-148877800000;97857700000;23079080000;-70565510000;29996530000;32743670000;-52296160000;15227930000;38174940000;-54268340000;15082750000;44818130000;0;0;0];
[20479400000000;97419140000000;112142900000000;-23002590000000;-97052830000000;-4377735000000;39412850000000;2439812000000;-14401740000000;763575300000;5090331000000;-1446243000000;-1511546000000;1050305000000;209238400000;-511259000000;135918500000;162471500000;-141768600000;-17887180000;101989600000;-53874580000;-47674390000;95791670000;-48659690000;-44912830000;95570100000;-54922480000;-40813270000;0;0;-7633212000000;-25454040000000;-27702370000000;2251900000000;18616660000000;-3034511000000;-11620300000000;1694943000000;5129782000000;-1597932000000;-1781394000000;1195977000000;325240400000;-634391400000;144658800000;204960900000;-177166400000;12393990000;80202740000;-71417860000;15215370000;38749930000;-59733510000;33921540000;24140850000;-70526690000;61942500000;3910613000;0;0;0];
[-12163970000000;113273000000;69001400000000;98634290000000;10555380000000;-49059730000000;19738150000;21008460000000;-2692310000000;-7642370000000;2706695000000;2165371000000;-1712767000000;-228851200000;766678200000;-240133300000;-206169300000;213763300000;-32666430000;-83562510000;85419520000;-27035380000;-37983540000;72940520000;-52970680000;-16863000000;88364640000;-98281590000;23577760000;0;0;1934102000000;-2863585000000;-18267090000000;-23228410000000;-3034511000000;10058690000000;-1898174000000;-6008066000000;2072040000000;2508187000000;-1603118000000;-599822100000;916738500000;-121440300000;-340530700000;218031000000;35466240000;-110242400000;40846570000;23117410000;-20708060000;-7323154000;8961354000;16007380000;-28959180000;4836994000;37172460000;-52425030000;0;0;0];
[-4747154000000;-26440230000000;-33125310000000;15930350000000;52907020000000;7527560000000;-28096990000000;2096554000000;12037860000000;-3557021000000;-3923076000000;2551651000000;666414300000;-1245041000000;250526000000;384445900000;-277607600000;-25776940000;124453400000;-40573840000;-40969710000;31253900000;22704090000;-40182320000;1426408000;44732180000;-42143450000;-12505330000;65889260000;0;0;2029014000000;6975570000000;7334064000000;-3840601000000;-11620300000000;-1898174000000;5578168000000;-1564590000000;-3156325000000;1816125000000;1109988000000;-1243115000000;-39424410000;575030900000;-255644000000;-126725900000;191422600000;-56890570000;-61948060000;78671130000;-23431020000;-37643660000;55830360000;-21655940000;-34113080000;62601070000;-35316510000;-29206040000;0;0;0];
[3317119000000;1324514000000;-21295500000000;-39051270000000;-8577522000000;26571770000000;5874908000000;-15527680000000;2276758000000;6488732000000;-3096513000000;-1672681000000;1876665000000;-83618710000;-713834700000;370422500000;108099100000;-220174300000;82550710000;56204460000;-88805250000;37552840000;33146740000;-67616230000;41046700000;27317610000;-82211610000;71686030000;6907230000;0;0;-531883400000;840060400000;6156465000000;9073083000000;1694943000000;-6008066000000;-1564590000000;3129187000000;-962740300000;-1602473000000;1266439000000;392465000000;-801270000000;161835900000;290301800000;-217737600000;-10250170000;96512460000;-48541640000;-8479543000;15681910000;-457870000;2354036000;-19539460000;21256000000;6723292000;-40475090000;42096530000;0;0;0];
[861152400000;7687661000000;13514260000000;-1554372000000;-22855230000000;-9947957000000;14512250000000;4069808000000;-9157523000000;1790853000000;3574281000000;-2262249000000;-596276300000;1200556000000;-308555300000;-330826500000;286038500000;-15145310000;-101572700000;51738470000;16133770000;-19758410000;-11791940000;18661850000;11697240000;-39562230000;24904490000;25853330000;-64013510000;0;0;-543628200000;-2227724000000;-2939685000000;833705100000;5129782000000;2072040000000;-3156325000000;-962740300000;1880811000000;-626402300000;-849446500000;836618400000;85224230000;-483388500000;201593700000;124821900000;-169644000000;45875510000;56299410000;-68003940000;19684670000;31882920000;-46171030000;16363200000;29525460000;-49697300000;23769520000;27486150000;0;0;0];
[-1059829000000;-1724735000000;4920019000000;15373720000000;8751000000000;-10374020000000;-7942960000000;7657392000000;2595408000000;-5408785000000;1367048000000;1937107000000;-1559692000000;-98604620000;713655200000;-330486500000;-114390100000;205035000000;-77308500000;-44156710000;73058360000;-32849640000;-23419920000;52202810000;-33442260000;-19158650000;62684120000;-55749890000;-4162493000;0;0;231561000000;33002810000;-1736764000000;-3611021000000;-1597932000000;2508187000000;1816125000000;-1602473000000;-626402300000;1114769000000;-399030300000;-450569500000;526711100000;-26486230000;-269522600000;157518400000;41375370000;-92614570000;32413040000;18580610000;-16554510000;-3636722000;3125958000;14659770000;-19797310000;-1455413000;29172810000;-32818870000;0;0;0];
[-30572020000;-2062568000000;-5855310000000;-3179737000000;7490678000000;8154697000000;-4499947000000;-5589541000000;4200357000000;1683022000000;-3260890000000;987795300000;1039469000000;-1029790000000;96367000000;388971600000;-254960000000;-14473300000;106261700000;-48398460000;-16020830000;18948820000;10116470000;-17486130000;-9139663000;35995320000;-26821810000;-16210390000;53791530000;0;0;130541300000;740570800000;1399973000000;448683700000;-1781394000000;-1603118000000;1109988000000;1266439000000;-849446500000;-399030300000;674267600000;-259981200000;-238268900000;329779600000;-67856560000;-142040300000;126117700000;-11104600000;-57507910000;51734670000;-10421760000;-26265630000;35351990000;-13795350000;-19479000000;35445050000;-19677410000;-14016240000;0;0;0];
[334902900000;1120965000000;-132572400000;-5081831000000;-6228115000000;1793704000000;5800062000000;-1558418000000;-3674198000000;2323884000000;1084238000000;-1997309000000;693520500000;558972500000;-666963600000;151092000000;197989700000;-189258000000;41994540000;51679890000;-59938800000;25459270000;13973440000;-36743260000;29807100000;4125969000;-39967180000;45844420000;-11729540000;0;0;-109698800000;-196465900000;279696100000;1295146000000;1195977000000;-599822100000;-1243115000000;392465000000;836618400000;-450569500000;-259981200000;414192400000;-166583900000;-134474300000;204641500000;-56107260000;-79859160000;77735660000;-4888469000;-34156740000;17556290000;10758550000;-12970790000;-6265323000;18388490000;-8010834000;-13132750000;23031510000;0;0;0];
[-86839810000;346416500000;2181682000000;3021612000000;-867606100000;-4491381000000;-437002200000;3642212000000;-333426100000;-2340405000000;1292815000000;683150300000;-1218054000000;483865800000;282676700000;-418874100000;142917000000;93075010000;-119317100000;33484190000;29259180000;-25594750000;-7772341000;20985480000;-479502700;-27703160000;30491540000;-1427445000;-34536890000;0;0;-13260800000;-205000300000;-611934900000;-601304700000;325240400000;916738500000;-39424410000;-801270000000;85224230000;526711100000;-238268900000;-166583900000;249178500000;-106950500000;-65597940000;119643200000;-52791840000;-26640030000;48315330000;-26486980000;-1334892000;18027160000;-20708230000;9822642000;7810364000;-19005640000;14970350000;331892500;0;0;0];
[-92077580000;-507293900000;-729694300000;877914800000;3043441000000;1214703000000;-2570421000000;-1094573000000;2162554000000;107093600000;-1499006000000;757122300000;442992900000;-776679700000;339621600000;145714200000;-265866500000;121354500000;28037690000;-70248290000;44425710000;-11605000000;-9445217000;22408470000;-24531030000;9477966000;16189320000;-32523280000;23895640000;0;0;45740220000;141645300000;104407600000;-303044800000;-634391400000;-121440300000;575030900000;161835900000;-483388500000;-26486230000;329779600000;-134474300000;-106950500000;161764700000;-74947330000;-40259000000;83390420000;-39283480000;-22797470000;39683810000;-12966670000;-15983900000;18805220000;-1246108000;-13925660000;12962630000;-143686600;-11699560000;0;0;0];
[71623900000;66012360000;-555759300000;-1616943000000;-1031068000000;1431168000000;1559746000000;-1176281000000;-1098693000000;1190608000000;277013700000;-934088800000;407094500000;290787200000;-474182900000;223062300000;67752370000;-161907200000;90399050000;8945156000;-49990150000;31467290000;5626299000;-23865410000;12568120000;12364790000;-26039550000;15791110000;10001930000;0;0;-14225950000;23830740000;203997400000;377781900000;144658800000;-340530700000;-255644000000;290301800000;201593700000;-269522600000;-67856560000;204641500000;-65597940000;-74947330000;96428910000;-39893540000;-21571410000;40603920000;-20768360000;-3068187000;10194120000;-6716588000;3964671000;-3233421000;800651200;3607619000;-6773444000;6099501000;0;0;0];
[8964816000;166300400000;527535200000;369855500000;-821916300000;-1270857000000;368697600000;1186930000000;-450903900000;-798583500000;653538900000;223441400000;-578460400000;260456700000;170402600000;-306615500000;165027000000;23112580000;-97139130000;64100300000;-9807767000;-13283230000;11355980000;-8732351000;12256220000;-12034020000;919100600;14896190000;-22215290000;0;0;-12443660000;-66135840000;-130310200000;-42110110000;204960900000;218031000000;-126725900000;-217737600000;124821900000;157518400000;-142040300000;-56107260000;119643200000;-40259000000;-39893540000;61272760000;-36014000000;-5646260000;31321440000;-25791850000;2011763000;15677990000;-15402340000;3444584000;7381115000;-9996630000;5454509000;1664122000;0;0;0];
[-44357240000;-102680900000;-12993680000;526854200000;924232100000;54823300000;-985243600000;-163672600000;862349300000;-80347300000;-625385000000;357014500000;228340100000;-389921900000;141199000000;132230600000;-202068300000;107325400000;9826671000;-62677660000;52237270000;-16989010000;-12799350000;24926380000;-18764380000;1209178000;15642790000;-20397520000;9708276000;0;0;14265510000;21433240000;-26789040000;-148877800000;-177166400000;35466240000;191422600000;-10250170000;-169644000000;41375370000;126117700000;-79859160000;-52791840000;83390420000;-21571410000;-36014000000;44674250000;-17782620000;-11615610000;20275190000;-9167875000;-4694776000;8430662000;-2746908000;-4127278000;5814094000;-1607818000;-4650408000;0;0;0];
[25312700000;-27216610000;-219243100000;-433477600000;-174016300000;502495700000;424839300000;-423545700000;-334924500000;426381800000;99312650000;-362475900000;139895100000;154725600000;-211353100000;74654030000;71767420000;-117498600000;70821140000;-1240266000;-34664830000;28443430000;-5642784000;-7866782000;5446620000;3585994000;-7609951000;2525150000;7153201000;0;0;-3587380000;18430400000;70996260000;97857700000;12393990000;-110242400000;-56890570000;96512460000;45875510000;-92614570000;-11104600000;77735660000;-26640030000;-39283480000;40603920000;-5646260000;-17782620000;19992300000;-11305910000;512678900;6793744000;-7696624000;3912543000;56995360;-1699482000;2033257000;-2647837000;2947643000;0;0;0];
[12349450000;82600690000;125443000000;-38837500000;-355478200000;-296325700000;250969500000;339317700000;-241694800000;-242026600000;280929300000;64541840000;-249683600000;110571800000;100525500000;-156432200000;64325080000;45441760000;-84208590000;56155320000;-10989560000;-15762250000;20828720000;-16165690000;9760852000;-2136318000;-6949402000;13884490000;-13462330000;0;0;-6098240000;-24128450000;-25977740000;23079080000;80202740000;40846570000;-61948060000;-48541640000;56299410000;32413040000;-57507910000;-4888469000;48315330000;-22797470000;-20768360000;31321440000;-11615610000;-11305910000;19913420000;-13001170000;-283701900;9344927000;-9525365000;3342874000;3563878000;-6719903000;4739845000;549740600;0;0;0];
[-33173550000;-59825280000;17590050000;261196300000;376052900000;-14301740000;-416070000000;-67559090000;365123400000;-8917124000;-286082800000;126200100000;146051300000;-177085600000;19179240000;104195700000;-98894290000;22018660000;41706220000;-57115080000;36129820000;-5801900000;-14763760000;20067570000;-13486760000;1463187000;9295989000;-13203720000;8028897000;0;0;9034635000;11754580000;-16543610000;-70565510000;-71417860000;23117410000;78671130000;-8479543000;-68003940000;18580610000;51734670000;-34156740000;-26486980000;39683810000;-3068187000;-25791850000;20275190000;512678900;-13001170000;12078640000;-4189419000;-3442485000;6339991000;-3578543000;-1773209000;4737869000;-2699844000;-2225643000;0;0;0];
[22746570000;-926028600;-56710230000;-121600900000;-98385870000;76506510000;139641100000;-59023420000;-117950900000;80596580000;63793040000;-96560830000;9186054000;68062910000;-60010880000;-134511800;44772270000;-43715870000;12526510000;17787390000;-28417790000;20285620000;-5589978000;-4462164000;6309513000;-3128903000;26646240;164064800;1859125000;0;0;-4778189000;2363021000;18755070000;29996530000;15215370000;-20708060000;-23431020000;15681910000;19684670000;-16554510000;-10421760000;17556290000;-1334892000;-12966670000;10194120000;2011763000;-9167875000;6793744000;-283701900;-4189419000;4713846000;-2790961000;671410600;489261800;-909594700;1216933000;-1466027000;1171630000;0;0;0];
[7573707000;63225600000;33403070000;-121007200000;-192229700000;-16321820000;188297300000;71541230000;-158834400000;-48005980000;138979500000;-5936728000;-105047300000;56725680000;44908970000;-70824470000;20530130000;32626820000;-43240930000;19658850000;8410245000;-21918290000;20114170000;-11491420000;3043809000;3420630000;-8333984000;10707340000;-8324329000;0;0;-3343241000;-14034920000;-2853455000;32743670000;38749930000;-7323154000;-37643660000;-457870000;31882920000;-3636722000;-26265630000;10758550000;18027160000;-15983900000;-6716588000;15677990000;-4694776000;-7696624000;9344927000;-3442485000;-2790961000;5993747000;-5650101000;2187931000;2485699000;-5157540000;3773104000;466307700;0;0;0];
[-31162020000;-92376750000;-29259010000;192993100000;295480000000;33888710000;-265350400000;-90219310000;217093800000;42750500000;-175608700000;32733010000;110562100000;-83153960000;-24386940000;73574150000;-39908390000;-15671480000;39929320000;-27848260000;3202957000;13555330000;-17718710000;14030230000;-7337804000;-232789200;7061593000;-10422150000;8004218000;0;0;9271531000;20805660000;-724251500;-52296160000;-59733510000;8961354000;55830360000;2354036000;-46171030000;3125958000;35351990000;-12970790000;-20708230000;18805220000;3964671000;-15402340000;8430662000;3912543000;-9525365000;6339991000;671410600;-5650101000;5811382000;-2134909000;-2196332000;4135034000;-2647590000;-796657500;0;0;0];
[27736660000;61939450000;45733150000;-43255400000;-145968200000;-112197300000;68082970000;107178200000;-52971720000;-67317260000;57056320000;18225460000;-45889830000;19890070000;13801030000;-25678330000;14558100000;3687124000;-13287460000;11146440000;-4203141000;-1265885000;4209071000;-5680414000;5738311000;-3978984000;1041291000;1547566000;-2622132000;0;0;-7926507000;-16508720000;-9826847000;15227930000;33921540000;16007380000;-21655940000;-19539460000;16363200000;14659770000;-13795350000;-6265323000;9822642000;-1246108000;-3233421000;3444584000;-2746908000;56995360;3342874000;-3578543000;489261800;2187931000;-2134909000;601851300;297464400;-167431400;-110567100;36432350;0;0;0];
[-303054200;20165410000;-24539200000;-156479000000;-145480300000;97831670000;193300000000;-41302900000;-152077600000;43732630000;95962800000;-55399700000;-40530970000;50235530000;297526000;-29677170000;17059480000;7174019000;-15883650000;7846104000;3786895000;-9028507000;7131778000;-2277228000;-2188738000;5386451000;-7214685000;6878909000;-3517439000;0;0;-314225900;-1380317000;13219860000;38174940000;24140850000;-28959180000;-34113080000;21256000000;29525460000;-19797310000;-19479000000;18388490000;7810364000;-13925660000;800651200;7381115000;-4127278000;-1699482000;3563878000;-1773209000;-909594700;2485699000;-2196332000;297464400;2019482000;-3091879000;1956167000;656010600;0;0;0];
[-27389750000;-101864000000;-56983750000;196168700000;341402500000;61431460000;-273966400000;-103704400000;207303100000;49314180000;-155797400000;20398340000;92786860000;-60591020000;-24315930000;54849980000;-22463480000;-18958500000;29188560000;-11958010000;-7241142000;13115400000;-8634800000;2809379000;580457900;-3108403000;6170427000;-8183964000;6508751000;0;0;9078365000;23596100000;4844319000;-54268340000;-70526690000;4836994000;62601070000;6723292000;-49697300000;-1455413000;35445050000;-8010834000;-19005640000;12962630000;3607619000;-9996630000;5814094000;2033257000;-6719903000;4737869000;1216933000;-5157540000;4135034000;-167431400;-3091879000;3727956000;-2027045000;-636114200;0;0;0];
[31248140000;118852000000;137142600000;-26714820000;-255390700000;-228102500000;97047120000;205278300000;-67409730000;-134688300000;80932180000;55316170000;-77479810000;10017740000;42852820000;-37580500000;578123400;24463100000;-20519460000;1772526000;10684650000;-9814709000;2711701000;1741537000;-1412955000;-222440600;-251474900;2811536000;-4872404000;0;0;-10875990000;-32799480000;-31903560000;15082750000;61942500000;37172460000;-35316510000;-40475090000;23769520000;29172810000;-19677410000;-13132750000;14970350000;-143686600;-6773444000;5454509000;-1607818000;-2647837000;4739845000;-2699844000;-1466027000;3773104000;-2647590000;-110567100;1956167000;-2027045000;1082324000;-40840700;0;0;0];
[-7552591000;-47953620000;-121909500000;-195365400000;-74927820000;214377100000;189433400000;-144448000000;-143737200000;119621100000;62062030000;-95001280000;6268105000;51449310000;-35164520000;-5848334000;24526420000;-15439900000;-1441532000;9761561000;-7788693000;1646676000;3230587000;-4523081000;2301152000;1553572000;-4188395000;3531871000;185343000;0;0;3523395000;18021450000;38837130000;44818130000;3910613000;-52425030000;-29206040000;42096530000;27486150000;-32818870000;-14016240000;23031510000;331892500;-11699560000;6099501000;1664122000;-4650408000;2947643000;549740600;-2225643000;1171630000;466307700;-796657500;36432350;656010600;-636114200;-40840700;919115000;0;0;0];
[0;0;0;0;0;0;0;0;0;0;0;0;0;0;0;0;0;0;0;0;0;0;0;0;0;0;0;0;0;0;0;0;0;0;0;0;0;0;0;0;0;0;0;0;0;0;0;0;0;0;0;0;0;0;0;0;0;0;0;0;0;0];
[0;0;0;0;0;0;0;0;0;0;0;0;0;0;0;0;0;0;0;0;0;0;0;0;0;0;0;0;0;0;0;0;0;0;0;0;0;0;0;0;0;0;0;0;0;0;0;0;0;0;0;0;0;0;0;0;0;0;0;0;0;0];
[0;0;0;0;0;0;0;0;0;0;0;0;0;0;0;0;0;0;0;0;0;0;0;0;0;0;0;0;0;0;0;0;0;0;0;0;0;0;0;0;0;0;0;0;0;0;0;0;0;0;0;0;0;0;0;0;0;0;0;0;0;0]].
(** :819 *)
Definition coup3hj : list (list Z) := [
[-51441090000000;-41007340000000;-14946530000000;870319300000;2753191000000;161284000000;-589310200000;-18449740000;151972900000;-17073600000;-40803040000;14883640000;9303109000;-8362120000;-403345100;3856370000;-1949596000;-976471100;2189251000;-1281535000;-688061000;2072802000;-1710121000;-158923000;1995789000;-2217346000;566855500;1621610000;0;0;0;160452300000000;83588620000000;4215134000000;-14184110000000;-2550851000000;3131985000000;549081400000;-869633900000;-30372070000;259266100000;-51882570000;-68892080000;40188310000;9818584000;-19922590000;5517454000;6945661000;-8306185000;1914998000;5499942000;-8243553000;4163808000;3850953000;-9507339000;7907249000;173640900;-8492359000;0;0;0;0];
[-41007340000000;-65073530000000;-44479270000000;-10005090000000;5675632000000;3103827000000;-1160017000000;-775629500000;399956400000;168599800000;-161156400000;-14012560000;58846250000;-14537360000;-16126650000;11779040000;1779441000;-6667716000;3543253000;1241688000;-4234492000;4628224000;-2257270000;-2121993000;5986790000;-6222168000;1855807000;4447684000;0;0;0;77123340000000;137355700000000;58529490000000;-15918620000000;-17842630000000;3127485000000;5067515000000;-1350935000000;-1375170000000;706390900000;278246400000;-320664300000;9074283000;111402000000;-46964070000;-24099720000;32110190000;-7274173000;-12075850000;16367060000;-11390000000;1463393000;11214170000;-20675290000;18276120000;-1367310000;-20614060000;0;0;0;0];
[-14946530000000;-44479270000000;-55754290000000;-30501170000000;-497034900000;7052254000000;748957600000;-1966726000000;-8631386000;637528300000;-144582600000;-187586100000;111963300000;32888880000;-56451100000;9168780000;20535360000;-14165920000;-2172416000;8201926000;-4547813000;226261700;750903800;-890138300;2926283000;-5327781000;4152554000;1829529000;0;0;0;12137930000000;59660470000000;83054680000000;19248790000000;-24503120000000;-9064110000000;8347425000000;2447255000000;-3283132000000;-185623100000;1238700000000;-312101600000;-359789100000;260340500000;33712270000;-122081200000;44081580000;31065060000;-34913920000;2953806000;13923800000;-4707671000;-8064830000;3815139000;12877830000;-19696190000;2482233000;0;0;0;0];
[870319300000;-10005090000000;-30501170000000;-35094200000000;-14900820000000;3752528000000;4409372000000;-1085146000000;-1194257000000;637046600000;260623500000;-335988000000;14726700000;135241900000;-63296500000;-31240290000;43839100000;-6883063000;-19052010000;14393890000;3622213000;-12606130000;6115842000;5988434000;-10532570000;3681071000;6933476000;-10584650000;0;0;0;-7197672000000;-3959785000000;24008880000000;36355290000000;-402047900000;-17171300000000;142319500000;7046339000000;-1225767000000;-2543227000000;1218214000000;618015800000;-731733600000;52619740000;284854500000;-163309900000;-44400930000;105123300000;-38742160000;-40260030000;57283720000;-13450180000;-40651830000;53492200000;-13636660000;-42567540000;62904330000;0;0;0;0];
[2753191000000;5675632000000;-497034900000;-14900820000000;-18896940000000;-6768222000000;3286712000000;2055230000000;-1073266000000;-330288700000;502098900000;-89813310000;-182937800000;128643600000;23090290000;-72544280000;28053990000;20133990000;-28270570000;8511710000;12299820000;-18014520000;7471797000;9042859000;-17580180000;11019440000;5123201000;-17469140000;0;0;0;-3683731000000;-13217010000000;-15411130000000;3522810000000;15512690000000;-2469372000000;-8557641000000;2570717000000;3487446000000;-2124848000000;-860831600000;1254160000000;-144364200000;-481178500000;301461200000;49215000000;-162638000000;83309150000;15471070000;-56289080000;48441770000;-14930310000;-27347380000;54115980000;-40102430000;-13252850000;67114820000;0;0;0;0];
[161284000000;3103827000000;7052254000000;3752528000000;-6768222000000;-10610780000000;-3371950000000;2428443000000;1105412000000;-727512300000;-87706240000;253584300000;-118882200000;-43411580000;87847970000;-29036430000;-26743890000;28733820000;-4818458000;-8705091000;7309097000;-3012387000;1094807000;1258459000;-4841857000;5771418000;-1621058000;-4586936000;0;0;0;839263200000;-1358638000000;-9412744000000;-12867350000000;-351974800000;8698403000000;-1592479000000;-4526095000000;2187285000000;1531394000000;-1634618000000;-41185260000;777936700000;-358317700000;-172363300000;254227200000;-59197080000;-82043460000;67500290000;6167583000;-33152050000;2937697000;28180400000;-17187170000;-23032480000;45633560000;-21548740000;0;0;0;0];
[-589310200000;-1160017000000;748957600000;4409372000000;3286712000000;-3371950000000;-5954049000000;-1420103000000;1802105000000;525285300000;-542713200000;741076200;140578000000;-88708250000;5319911000;46123760000;-35975850000;-3922642000;23984390000;-12494880000;-7468165000;13457540000;-4306137000;-6689862000;9203244000;-3900897000;-2919716000;7222214000;0;0;0;883606500000;3093957000000;3393165000000;-2317510000000;-6923382000000;-535431000000;4926939000000;-1232483000000;-2447215000000;1646198000000;586143200000;-1096324000000;249882300000;396547900000;-342332100000;15948920000;156122200000;-116567600000;5206168000;63307530000;-61220260000;13783030000;37305380000;-55039210000;26010840000;28262060000;-64033360000;0;0;0;0];
[-18449740000;-775629500000;-1966726000000;-1085146000000;2055230000000;2428443000000;-1420103000000;-3159293000000;-513970000000;1174128000000;187597800000;-366682300000;38673680000;74790370000;-53721070000;16623930000;13013490000;-21713890000;10458000000;3902783000;-9512082000;6308310000;188249000;-4294461000;3631815000;-872676400;257719800;-1451231000;0;0;0;-181680200000;427394300000;2798505000000;4298856000000;573753000000;-3845698000000;-707760900000;2825122000000;-790910300000;-1311425000000;1103501000000;154313500000;-661871300000;283968200000;166915300000;-234268700000;59200510000;72450890000;-66264930000;3302951000;23629000000;-3397694000;-18068720000;7248224000;22967700000;-35279440000;11015010000;0;0;0;0];
[151972900000;399956400000;-8631386000;-1194257000000;-1073266000000;1105412000000;1802105000000;-513970000000;-1718228000000;-165283400000;729757500000;31766900000;-236601600000;51063970000;40777650000;-35941190000;15206320000;4970155000;-14835620000;8333726000;3341811000;-7444982000;3958065000;846355700;-4386366000;6348998000;-3843304000;-4965161000;0;0;0;-223224500000;-878765000000;-1164358000000;482016600000;2561998000000;957366300000;-2156072000000;-546210900000;1693476000000;-518519700000;-725956500000;717168900000;-18097490000;-375312800000;245599700000;31574480000;-147645300000;92510600000;6143692000;-58607780000;51087200000;-9783475000;-30942780000;43912670000;-21161010000;-19766620000;46622250000;0;0;0;0];
[-17073600000;168599800000;637528300000;637046600000;-330288700000;-727512300000;525285300000;1174128000000;-165283400000;-944648900000;-33071090000;433571800000;-28326520000;-141596500000;45841010000;19671480000;-19365310000;9544403000;-2768844000;-4167961000;6572668000;-2154764000;-2739167000;1668445000;2677548000;-1986813000;-5238297000;9377335000;0;0;0;72776480000;-34554300000;-744020600000;-1526784000000;-666761600000;1315207000000;929193400000;-1169710000000;-412039900000;1015658000000;-334368000000;-407879400000;458686100000;-63146680000;-213097400000;172859600000;-1543942000;-86561550000;54603910000;9921539000;-30993390000;7054534000;18174200000;-13752540000;-11820370000;28108620000;-16505400000;0;0;0;0];
[-40803040000;-161156400000;-144582600000;260623500000;502098900000;-87706240000;-542713200000;187597800000;729757500000;-33071090000;-531907000000;8506519000;253406000000;-43910520000;-81160820000;39119760000;7612286000;-14021230000;7630471000;-2165486000;-1652654000;3951805000;-4801823000;2625869000;3879138000;-9815289000;6429375000;6831840000;0;0;0;54996960000;277928200000;505658700000;123553600000;-797082800000;-725581100000;618641700000;701182000000;-647343400000;-294648400000;618920700000;-214322500000;-226881800000;284841400000;-74956880000;-101919900000;116180000000;-37425450000;-29155980000;46094960000;-29527890000;2977842000;19374000000;-28039090000;17894320000;5495822000;-26018050000;0;0;0;0];
[14883640000;-14012560000;-187586100000;-335988000000;-89813310000;253584300000;741076200;-366682300000;31766900000;433571800000;8506519000;-302755400000;17050270000;145593000000;-38099100000;-44027530000;26826920000;1945518000;-7615167000;5066573000;-1784343000;-2812716000;4030007000;1486255000;-6823760000;2763173000;8001072000;-11926130000;0;0;0;-34131500000;-49852780000;136100900000;514388400000;475952600000;-276154200000;-587290000000;236540200000;492939300000;-353647600000;-205781800000;383660800000;-141456800000;-132776600000;186698600000;-63002950000;-61996860000;83611050000;-26751550000;-29018000000;37004720000;-8071135000;-19663970000;21108600000;-680207400;-19300920000;20920940000;0;0;0;0];
[9303109000;58846250000;111963300000;14726700000;-182937800000;-118882200000;140578000000;38673680000;-236601600000;-28326520000;253406000000;17050270000;-174615700000;17661780000;83440360000;-30611420000;-22767010000;18799810000;-521594300;-3931526000;700863000;-660232500;4191336000;-4195008000;-2815491000;9872824000;-6848584000;-5748263000;0;0;0;-10332710000;-80277900000;-211302900000;-194350500000;146188800000;378402600000;-22230310000;-392331900000;61871410000;330478900000;-191637100000;-144585000000;237186400000;-86533170000;-76131550000;109389700000;-43471610000;-23172200000;39065550000;-20365620000;1567469000;4773349000;-6028253000;8873171000;-10387620000;5055010000;6176952000;0;0;0;0];
[-8362120000;-14537360000;32888880000;135241900000;128643600000;-43411580000;-88708250000;74790370000;51063970000;-141596500000;-43910520000;145593000000;17661780000;-101004000000;12767770000;47578150000;-21361610000;-10885280000;12733270000;-3717027000;-2278880000;5477063000;-4171373000;-2686985000;7901383000;-3591034000;-6733128000;10881690000;0;0;0;16224700000;43660320000;17110460000;-129748900000;-238867900000;-43410180000;241382000000;78149640000;-241388800000;-13249570000;214479700000;-102880600000;-96534910000;148860500000;-61131100000;-40930420000;74156550000;-41337380000;-8767066000;34726130000;-27338950000;2879971000;16768590000;-19545080000;7453320000;8430939000;-16626190000;0;0;0;0];
[-403345100;-16126650000;-56451100000;-63296500000;23090290000;87847970000;5319911000;-53721070000;40777650000;45841010000;-81160820000;-38099100000;83440360000;12767770000;-58787330000;9467658000;27463850000;-13906800000;-6850375000;7448337000;1224596000;-3123810000;-2242663000;5017397000;119576800;-7152038000;6634577000;2113489000;0;0;0;-1665896000;13029490000;71742270000;124489800000;39776450000;-130564300000;-99750500000;120998300000;94191640000;-137497600000;-36665170000;138035300000;-54511820000;-68662190000;96304570000;-36295050000;-29574490000;46593190000;-20875210000;-9548651000;18159960000;-7273960000;-5209406000;6872255000;638212000;-7560204000;6558240000;0;0;0;0];
[3856370000;11779040000;9168780000;-31240290000;-72544280000;-29036430000;46123760000;16623930000;-35941190000;19671480000;39119760000;-44027530000;-30611420000;47578150000;9467658000;-34030340000;7034849000;14152730000;-9832719000;156357400;3683386000;-4635270000;3229409000;1895918000;-6325371000;4018018000;3447053000;-7787029000;0;0;0;-7712155000;-22401740000;-33424290000;1013983000;80093220000;79202870000;-50034640000;-93745670000;50718410000;82387980000;-74732100000;-40194230000;86766050000;-26475610000;-45292390000;57820550000;-23573320000;-12234190000;24554520000;-17063310000;4243298000;4581357000;-8156692000;8220395000;-5448518000;-14811270;6217963000;0;0;0;0];
[-1949596000;1779441000;20535360000;43839100000;28053990000;-26743890000;-35975850000;13013490000;15206320000;-19365310000;7612286000;26826920000;-22767010000;-21361610000;27463850000;7034849000;-21514210000;4028394000;11115930000;-6912392000;-3750221000;5839969000;437188300;-5198660000;2532968000;3630500000;-5592618000;1171843000;0;0;0;6248151000;5125205000;-15975170000;-52082000000;-54890950000;12613550000;65999020000;2633759000;-65932090000;8393350000;60867940000;-35510280000;-34479580000;54103070000;-13977590000;-30514180000;39881180000;-18370080000;-8445099000;20831300000;-15503460000;1550294000;9425529000;-11070710000;4497361000;4220085000;-8667414000;0;0;0;0];
[-976471100;-6667716000;-14165920000;-6883063000;20133990000;28733820000;-3922642000;-21713890000;4970155000;9544403000;-14021230000;1945518000;18799810000;-10885280000;-13906800000;14152730000;4028394000;-10021450000;2313204000;2835768000;-1900991000;1169088000;-1647133000;13783860;3011794000;-3229667000;-330803400;3786911000;0;0;0;142245000;8388251000;23244100000;23614690000;-9113418000;-39346190000;-11554160000;36872920000;14565650000;-38310730000;-4652542000;39774270000;-16461440000;-26472670000;34001860000;-5381713000;-22479880000;25211530000;-8732447000;-7486180000;11456590000;-5202838000;-2054035000;3754074000;-433963900;-2913923000;2431058000;0;0;0;0];
[2189251000;3543253000;-2172416000;-19052010000;-28270570000;-4818458000;23984390000;10458000000;-14835620000;-2768844000;7630471000;-7615167000;-521594300;12733270000;-6850375000;-9832719000;11115930000;2313204000;-9719878000;3820109000;4768705000;-5782627000;179402200;4407943000;-3321554000;-1168533000;3795442000;-2263859000;0;0;0;-4882703000;-9370455000;-6132611000;11956130000;32944800000;18515570000;-24388010000;-24861050000;20520120000;21694130000;-23752670000;-12152830000;27872910000;-5241116000;-20822260000;20481600000;-1065643000;-14101170000;14528040000;-6195203000;-1334660000;4364121000;-4522164000;3875568000;-2473037000;-285698300;3546297000;0;0;0;0];
[-1281535000;1241688000;8201926000;14393890000;8511710000;-8705091000;-12494880000;3902783000;8333726000;-4167961000;-2165486000;5066573000;-3931526000;-3717027000;7448337000;156357400;-6912392000;2835768000;3820109000;-3247769000;-1339138000;2343376000;423209500;-1958366000;329370500;1736845000;-1544511000;-379023400;0;0;0;4950347000;2309938000;-8093369000;-16362700000;-14399410000;3430221000;17811280000;1823206000;-17128440000;-155227900;16373300000;-6190000000;-12538630000;13972760000;1163494000;-13585400000;11672420000;-377761200;-9163005000;10874670000;-5898520000;-1076587000;5668032000;-5847529000;2407579000;1895342000;-4183433000;0;0;0;0];
[-688061000;-4234492000;-4547813000;3622213000;12299820000;7309097000;-7468165000;-9512082000;3341811000;6572668000;-1652654000;-1784343000;700863000;-2278880000;1224596000;3683386000;-3750221000;-1900991000;4768705000;-1339138000;-3096938000;3227247000;121922600;-2607318000;1913332000;472560300;-1829409000;1196852000;0;0;0;-1293224000;6101863000;11867400000;1054000000;-13108920000;-10068850000;5375611000;10227500000;-2185232000;-9006929000;2212572000;8417830000;-4825657000;-6810608000;9305442000;351184300;-9634352000;8348495000;693445500;-7760912000;7339323000;-1865191000;-2779746000;3273424000;-790262000;-1403141000;1326180000;0;0;0;0];
[2072802000;4628224000;226261700;-12606130000;-18014520000;-3012387000;13457540000;6308310000;-7444982000;-2154764000;3951805000;-2812716000;-660232500;5477063000;-3123810000;-4635270000;5839969000;1169088000;-5782627000;2343376000;3227247000;-3775395000;-106930200;2969325000;-1981534000;-842419800;2208472000;-1191658000;0;0;0;-2643690000;-10202880000;-9412330000;8820941000;22538260000;8347659000;-15379390000;-11250830000;11304730000;9160613000;-10479860000;-5486281000;10853380000;242398400;-9787644000;5997257000;4038151000;-8158449000;3874056000;2388065000;-4722141000;3014000000;-658272200;-65789300;-311103900;155781600;1026962000;0;0;0;0];
[-1710121000;-2257270000;750903800;6115842000;7471797000;1094807000;-4306137000;188249000;3958065000;-2739167000;-4801823000;4030007000;4191336000;-4171373000;-2242663000;3229409000;437188300;-1647133000;179402200;423209500;121922600;-106930200;-449749700;356290900;398090200;-691263000;58754640;695508800;0;0;0;3724815000;6775108000;3631938000;-4269217000;-9053774000;-4603536000;5214639000;6063738000;-3763686000;-5500946000;4208398000;3763065000;-5356614000;-211638300;4664852000;-3659312000;-368650700;3316255000;-3392369000;1363413000;1009687000;-2405598000;2479560000;-1609779000;382495200;725528800;-1388401000;0;0;0;0];
[-158923000;-2121993000;-890138300;5988434000;9042859000;1258459000;-6689862000;-4294461000;846355700;1668445000;2625869000;1486255000;-4195008000;-2686985000;5017397000;1895918000;-5198660000;13783860;4407943000;-1958366000;-2607318000;2969325000;356290900;-2581406000;1412783000;1079392000;-1932134000;651091300;0;0;0;-1561796000;2539459000;5225123000;-4969841000;-13093370000;-1623142000;10978770000;2699533000;-8705774000;-962448900;6764558000;-1235476000;-4108791000;1937313000;1928051000;-1306152000;-1567896000;1767717000;918876900;-2856895000;1786774000;957725800;-2614070000;1992187000;-180492800;-1017953000;843326900;0;0;0;0];
[1995789000;5986790000;2926283000;-10532570000;-17580180000;-4841857000;9203244000;3631815000;-4386366000;2677548000;3879138000;-6823760000;-2815491000;7901383000;119576800;-6325371000;2532968000;3011794000;-3321554000;329370500;1913332000;-1981534000;398090200;1412783000;-1824443000;424018500;1366699000;-1747568000;0;0;0;-1415774000;-11140690000;-14163520000;6057522000;23890690000;9408657000;-15464950000;-10944990000;11363150000;8221718000;-10114260000;-3947939000;8702702000;-171749200;-6263881000;3018776000;3124630000;-4259729000;493993300;3032904000;-2950933000;252350200;1970959000;-1917270000;321678900;877258600;-596706900;0;0;0;0];
[-2217346000;-6222168000;-5327781000;3681071000;11019440000;5771418000;-3900897000;-872676400;6348998000;-1986813000;-9815289000;2763173000;9872824000;-3591034000;-7152038000;4018018000;3630500000;-3229667000;-1168533000;1736845000;472560300;-842419800;-691263000;1079392000;424018500;-1581447000;742216300;1058537000;0;0;0;2312018000;11967200000;16288130000;2418002000;-13443470000;-12078700000;3331572000;11799460000;-645461400;-10530170000;2076404000;8135098000;-4575727000;-4179536000;5709756000;-501025300;-3874119000;3472888000;-128542900;-2484817000;2504126000;-653812200;-1141615000;1550063000;-675602300;-379478500;620538500;0;0;0;0];
[566855500;1855807000;4152554000;6933476000;5123201000;-1621058000;-2919716000;257719800;-3843304000;-5238297000;6429375000;8001072000;-6848584000;-6733128000;6634577000;3447053000;-5592618000;-330803400;3795442000;-1544511000;-1829409000;2208472000;58754640;-1932134000;1366699000;742216300;-1912510000;944137900;0;0;0;-390913100;-3519724000;-6831821000;-9911282000;-9895239000;3639291000;14082940000;-1677527000;-13265970000;3651305000;9810979000;-6070436000;-4431809000;6165336000;-720733300;-3104854000;2605663000;-477321100;-864336600;1111600000;-847619400;425920200;109008900;-628473500;795393100;-407949700;-253839900;0;0;0;0];
[1621610000;4447684000;1829529000;-10584650000;-17469140000;-4586936000;7222214000;-1451231000;-4965161000;9377335000;6831840000;-11926130000;-5748263000;10881690000;2113489000;-7787029000;1171843000;3786911000;-2263859000;-379023400;1196852000;-1191658000;695508800;651091300;-1747568000;1058537000;944137900;-2073398000;0;0;0;-2349719000;-8144832000;-10212990000;5811718000;26082720000;12396870000;-19942320000;-13520840000;16371040000;8738285000;-14047300000;-2234403000;10312440000;-2865026000;-4984123000;4222476000;573210700;-2657815000;1093236000;990962900;-1190561000;-136145400;1149512000;-753305300;-485504800;1200260000;-691747200;0;0;0;0];
[0;0;0;0;0;0;0;0;0;0;0;0;0;0;0;0;0;0;0;0;0;0;0;0;0;0;0;0;0;0;0;0;0;0;0;0;0;0;0;0;0;0;0;0;0;0;0;0;0;0;0;0;0;0;0;0;0;0;0;0;0;0];
[0;0;0;0;0;0;0;0;0;0;0;0;0;0;0;0;0;0;0;0;0;0;0;0;0;0;0;0;0;0;0;0;0;0;0;0;0;0;0;0;0;0;0;0;0;0;0;0;0;0;0;0;0;0;0;0;0;0;0;0;0;0];
[0;0;0;0;0;0;0;0;0;0;0;0;0;0;0;0;0;0;0;0;0;0;0;0;0;0;0;0;0;0;0;0;0;0;0;0;0;0;0;0;0;0;0;0;0;0;0;0;0;0;0;0;0;0;0;0;0;0;0;0;0;0];
[160452300000000;77123340000000;12137930000000;-7197672000000;-3683731000000;839263200000;883606500000;-181680200000;-223224500000;72776480000;54996960000;-34131500000;-10332710000;16224700000;-1665896000;-7712155000;6248151000;142245000;-4882703000;4950347000;-1293224000;-2643690000;3724815000;-1561796000;-1415774000;2312018000;-390913100;-2349719000;0;0;0;-33396400000000;-18476000000000;-1952237000000;2875031000000;855002400000;-607886100000;-219326800000;178313200000;41928940000;-61511860000;593804800;20424920000;-6974367000;-4814523000;4814143000;-394714200;-2063504000;1730129000;-132918600;-1321855000;1753163000;-842819800;-877329900;2145109000;-1851166000;35500070;1977057000;0;0;0;0];
[83588620000000;137355700000000;59660470000000;-3959785000000;-13217010000000;-1358638000000;3093957000000;427394300000;-878765000000;-34554300000;277928200000;-49852780000;-80277900000;43660320000;13029490000;-22401740000;5125205000;8388251000;-9370455000;2309938000;6101863000;-10202880000;6775108000;2539459000;-11140690000;11967200000;-3519724000;-8144832000;0;0;0;-18476000000000;-29846460000000;-13008130000000;2827556000000;3895165000000;-396260800000;-1127086000000;187597700000;331381200000;-122214600000;-82857880000;65930630000;8132160000;-27134940000;7572260000;7661582000;-7042228000;532501800;3140985000;-3166944000;1857551000;-217763000;-1916878000;3883962000;-3881858000;836455400;3803828000;0;0;0;0];
[4215134000000;58529490000000;83054680000000;24008880000000;-15411130000000;-9412744000000;3393165000000;2798505000000;-1164358000000;-744020600000;505658700000;136100900000;-211302900000;17110460000;71742270000;-33424290000;-15975170000;23244100000;-6132611000;-8093369000;11867400000;-9412330000;3631938000;5225123000;-14163520000;16288130000;-6831821000;-10212990000;0;0;0;-1952237000000;-13008130000000;-17349400000000;-4116694000000;4812640000000;1959255000000;-1576890000000;-570999300000;625586300000;82147020000;-248521600000;43137320000;80497440000;-47709950000;-12719650000;25790340000;-6877965000;-8172547000;7395920000;219933900;-3774287000;1266560000;2145364000;-1647084000;-2157553000;4457466000;-1627403000;0;0;0;0];
[-14184110000000;-15918620000000;19248790000000;36355290000000;3522810000000;-12867350000000;-2317510000000;4298856000000;482016600000;-1526784000000;123553600000;514388400000;-194350500000;-129748900000;124489800000;1013983000;-52082000000;23614690000;11956130000;-16362700000;1054000000;8820941000;-4269217000;-4969841000;6057522000;2418002000;-9911282000;5811718000;0;0;0;2875031000000;2827556000000;-4116694000000;-7243615000000;-180234500000;3216886000000;98412590000;-1293368000000;162728500000;475472900000;-196212200000;-126907800000;127352700000;-377892700;-53873700000;26742540000;10713600000;-19508020000;6207842000;8162876000;-10928470000;2649113000;7640886000;-10512600000;3405237000;7435492000;-12209210000;0;0;0;0];
[-2550851000000;-17842630000000;-24503120000000;-402047900000;15512690000000;-351974800000;-6923382000000;573753000000;2561998000000;-666761600000;-797082800000;475952600000;146188800000;-238867900000;39776450000;80093220000;-54890950000;-9113418000;32944800000;-14399410000;-13108920000;22538260000;-9053774000;-13093370000;23890690000;-13443470000;-9895239000;26082720000;0;0;0;855002400000;3895165000000;4812640000000;-180234500000;-3325180000000;174447500000;1646580000000;-333983100000;-657932300000;321571700000;178875400000;-202752200000;6403498000;84067400000;-43713850000;-13357230000;26741830000;-11068100000;-4092761000;8758293000;-6801346000;2137841000;3806957000;-8219540000;6878111000;1076631000;-10251500000;0;0;0;0];
[3131985000000;3127485000000;-9064110000000;-17171300000000;-2469372000000;8698403000000;-535431000000;-3845698000000;957366300000;1315207000000;-725581100000;-276154200000;378402600000;-43410180000;-130564300000;79202870000;12613550000;-39346190000;18515570000;3430221000;-10068850000;8347659000;-4603536000;-1623142000;9408657000;-12078700000;3639291000;12396870000;0;0;0;-607886100000;-396260800000;1959255000000;3216886000000;174447500000;-1934464000000;190863800000;935065000000;-334760400000;-326064100000;266118700000;38618890000;-134665900000;46588500000;36614650000;-40021780000;4719153000;15938700000;-10405540000;-3055073000;7247038000;-1040430000;-5734882000;4991691000;2184305000;-7988595000;6055202000;0;0;0;0];
[549081400000;5067515000000;8347425000000;142319500000;-8557641000000;-1592479000000;4926939000000;-707760900000;-2156072000000;929193400000;618641700000;-587290000000;-22230310000;241382000000;-99750500000;-50034640000;65999020000;-11554160000;-24388010000;17811280000;5375611000;-15379390000;5214639000;10978770000;-15464950000;3331572000;14082940000;-19942320000;0;0;0;-219326800000;-1127086000000;-1576890000000;98412590000;1646580000000;190863800000;-1066199000000;189261300000;508485200000;-275524300000;-138486200000;188084100000;-23657740000;-73686210000;50607990000;4159898000;-26023160000;15814180000;1099160000;-9618942000;8612034000;-2187850000;-5013316000;8415986000;-5171450000;-3035630000;10022990000;0;0;0;0];
[-869633900000;-1350935000000;2447255000000;7046339000000;2570717000000;-4526095000000;-1232483000000;2825122000000;-546210900000;-1169710000000;701182000000;236540200000;-392331900000;78149640000;120998300000;-93745670000;2633759000;36872920000;-24861050000;1823206000;10227500000;-11250830000;6063738000;2699533000;-10944990000;11799460000;-1677527000;-13520840000;0;0;0;178313200000;187597700000;-570999300000;-1293368000000;-333983100000;935065000000;189261300000;-620653900000;131052800000;280230900000;-192665200000;-49805370000;118133400000;-37748840000;-34896130000;37152350000;-5065045000;-14244010000;10092380000;1622915000;-5663889000;900633900;4292894000;-3296679000;-2576049000;6709978000;-4309109000;0;0;0;0];
[-30372070000;-1375170000000;-3283132000000;-1225767000000;3487446000000;2187285000000;-2447215000000;-790910300000;1693476000000;-412039900000;-647343400000;492939300000;61871410000;-241388800000;94191640000;50718410000;-65932090000;14565650000;20520120000;-17128440000;-2185232000;11304730000;-3763686000;-8705774000;11363150000;-645461400;-13265970000;16371040000;0;0;0;41928940000;331381200000;625586300000;162728500000;-657932300000;-334760400000;508485200000;131052800000;-366074500000;93961830000;154708500000;-129615800000;-9298043000;69211140000;-36221760000;-10332720000;23894590000;-12031440000;-2399321000;8397662000;-6817212000;1643569000;3787121000;-6452267000;4285168000;1707974000;-7143524000;0;0;0;0];
[259266100000;706390900000;-185623100000;-2543227000000;-2124848000000;1531394000000;1646198000000;-1311425000000;-518519700000;1015658000000;-294648400000;-353647600000;330478900000;-13249570000;-137497600000;82387980000;8393350000;-38310730000;21694130000;-155227900;-9006929000;9160613000;-5500946000;-962448900;8221718000;-10530170000;3651305000;8738285000;0;0;0;-61511860000;-122214600000;82147020000;475472900000;321571700000;-326064100000;-275524300000;280230900000;93961830000;-218894400000;63526760000;86326900000;-84711130000;4950811000;40434190000;-27469080000;-2916739000;15457620000;-8083197000;-3157634000;6187943000;-1272898000;-4006807000;3814260000;1110448000;-5397469000;4631318000;0;0;0;0];
[-51882570000;278246400000;1238700000000;1218214000000;-860831600000;-1634618000000;586143200000;1103501000000;-725956500000;-334368000000;618920700000;-205781800000;-191637100000;214479700000;-36665170000;-74732100000;60867940000;-4652542000;-23752670000;16373300000;2212572000;-10479860000;4208398000;6764558000;-10114260000;2076404000;9810979000;-14047300000;0;0;0;593804800;-82857880000;-248521600000;-196212200000;178875400000;266118700000;-138486200000;-192665200000;154708500000;63526760000;-131881600000;42246570000;47359640000;-52983990000;9819506000;19959090000;-18338440000;3795892000;5308771000;-6034282000;3387136000;-683602100;-1791958000;3671902000;-3445123000;438145000;3529188000;0;0;0;0];
[-68892080000;-320664300000;-312101600000;618015800000;1254160000000;-41185260000;-1096324000000;154313500000;717168900000;-407879400000;-214322500000;383660800000;-144585000000;-102880600000;138035300000;-40194230000;-35510280000;39774270000;-12152830000;-6190000000;8417830000;-5486281000;3763065000;-1235476000;-3947939000;8135098000;-6070436000;-2234403000;0;0;0;20424920000;65930630000;43137320000;-126907800000;-202752200000;38618890000;188084100000;-49805370000;-129615800000;86326900000;42246570000;-81071590000;29075670000;26653920000;-35051300000;10168230000;11862650000;-14225780000;3902177000;5307164000;-6404110000;1385486000;3640224000;-4259901000;649751900;3511278000;-4531645000;0;0;0;0];
[40188310000;9074283000;-359789100000;-731733600000;-144364200000;777936700000;249882300000;-661871300000;-18097490000;458686100000;-226881800000;-141456800000;237186400000;-96534910000;-54511820000;86766050000;-34479580000;-16461440000;27872910000;-12538630000;-4825657000;10853380000;-5356614000;-4108791000;8702702000;-4575727000;-4431809000;10312440000;0;0;0;-6974367000;8132160000;80497440000;127352700000;6403498000;-134665900000;-23657740000;118133400000;-9298043000;-84711130000;47359640000;29075670000;-49593990000;17813730000;15258210000;-20533840000;6690516000;5271839000;-6517836000;2098681000;754779400;-484738000;-224323300;-565888300;1939041000;-1884485000;-132138700;0;0;0;0];
[9818584000;111402000000;260340500000;52619740000;-481178500000;-358317700000;396547900000;283968200000;-375312800000;-63146680000;284841400000;-132776600000;-86533170000;148860500000;-68662190000;-26475610000;54103070000;-26472670000;-5241116000;13972760000;-6810608000;242398400;-211638300;1937313000;-171749200;-4179536000;6165336000;-2865026000;0;0;0;-4814523000;-27134940000;-47709950000;-377892700;84067400000;46588500000;-73686210000;-37748840000;69211140000;4950811000;-52983990000;26653920000;17813730000;-30356930000;13102310000;7166146000;-13423080000;7262355000;1401170000;-5609614000;4480257000;-688907800;-2578430000;3352462000;-1548256000;-1273869000;3024759000;0;0;0;0];
[-19922590000;-46964070000;33712270000;284854500000;301461200000;-172363300000;-342332100000;166915300000;245599700000;-213097400000;-74956880000;186698600000;-76131550000;-61131100000;96304570000;-45292390000;-13977590000;34001860000;-20822260000;1163494000;9305442000;-9787644000;4664852000;1928051000;-6263881000;5709756000;-720733300;-4984123000;0;0;0;4814143000;7572260000;-12719650000;-53873700000;-43713850000;36614650000;50607990000;-34896130000;-36221760000;40434190000;9819506000;-35051300000;15258210000;13102310000;-20235450000;8078706000;5622910000;-9088101000;3753456000;2287925000;-3647354000;1050435000;1623977000;-1770642000;-155531800;1923574000;-1833621000;0;0;0;0];
[5517454000;-24099720000;-122081200000;-163309900000;49215000000;254227200000;15948920000;-234268700000;31574480000;172859600000;-101919900000;-63002950000;109389700000;-40930420000;-36295050000;57820550000;-30514180000;-5381713000;20481600000;-13585400000;351184300;5997257000;-3659312000;-1306152000;3018776000;-501025300;-3104854000;4222476000;0;0;0;-394714200;7661582000;25790340000;26742540000;-13357230000;-40021780000;4159898000;37152350000;-10332720000;-27469080000;19959090000;10168230000;-20533840000;7166146000;8078706000;-11099870000;4724723000;1944171000;-4042421000;2615108000;-622117900;-470333800;895035400;-1127462000;1062283000;-388650100;-727742300;0;0;0;0];
[6945661000;32110190000;44081580000;-44400930000;-162638000000;-59197080000;156122200000;59200510000;-147645300000;-1543942000;116180000000;-61996860000;-43471610000;74156550000;-29574490000;-23573320000;39881180000;-22479880000;-1065643000;11672420000;-9634352000;4038151000;-368650700;-1567896000;3124630000;-3874119000;2605663000;573210700;0;0;0;-2063504000;-7042228000;-6877965000;10713600000;26741830000;4719153000;-26023160000;-5065045000;23894590000;-2916739000;-18338440000;11862650000;6690516000;-13423080000;5622910000;4724723000;-8245712000;4649767000;984851500;-4009850000;3218678000;-398202600;-1885729000;2198640000;-799112500;-982508400;1817375000;0;0;0;0];
[-8306185000;-7274173000;31065060000;105123300000;83309150000;-82043460000;-116567600000;72450890000;92510600000;-86561550000;-37425450000;83611050000;-23172200000;-41337380000;46593190000;-12234190000;-18370080000;25211530000;-14101170000;-377761200;8348495000;-8158449000;3316255000;1767717000;-4259729000;3472888000;-477321100;-2657815000;0;0;0;1730129000;532501800;-8172547000;-19508020000;-11068100000;15938700000;15814180000;-14244010000;-12031440000;15457620000;3795892000;-14225780000;5271839000;7262355000;-9088101000;1944171000;4649767000;-5326066000;1735719000;1685577000;-2343834000;803165000;818783900;-1059506000;75614950;936943300;-976412100;0;0;0;0];
[1914998000;-12075850000;-34913920000;-38742160000;15471070000;67500290000;5206168000;-66264930000;6143692000;54603910000;-29155980000;-26751550000;39065550000;-8767066000;-20875210000;24554520000;-8445099000;-8732447000;14528040000;-9163005000;693445500;3874056000;-3392369000;918876900;493993300;-128542900;-864336600;1093236000;0;0;0;-132918600;3140985000;7395920000;6207842000;-4092761000;-10405540000;1099160000;10092380000;-2399321000;-8083197000;5308771000;3902177000;-6517836000;1401170000;3753456000;-4042421000;984851500;1735719000;-2353307000;1415351000;-196231900;-552875900;781926900;-704244200;433546900;6046572;-487913800;0;0;0;0];
[5499942000;16367060000;2953806000;-40260030000;-56289080000;6167583000;63307530000;3302951000;-58607780000;9921539000;46094960000;-29018000000;-20365620000;34726130000;-9548651000;-17063310000;20831300000;-7486180000;-6195203000;10874670000;-7760912000;2388065000;1363413000;-2856895000;3032904000;-2484817000;1111600000;990962900;0;0;0;-1321855000;-3166944000;219933900;8162876000;8758293000;-3055073000;-9618942000;1622915000;8397662000;-3157634000;-6034282000;5307164000;2098681000;-5609614000;2287925000;2615108000;-4009850000;1685577000;1415351000;-2754622000;1880634000;22799470;-1429158000;1517252000;-509543300;-686502800;1193854000;0;0;0;0];
[-8243553000;-11390000000;13923800000;57283720000;48441770000;-33152050000;-61220260000;23629000000;51087200000;-30993390000;-29527890000;37004720000;1567469000;-27338950000;18159960000;4243298000;-15503460000;11456590000;-1334660000;-5898520000;7339323000;-4722141000;1009687000;1786774000;-2950933000;2504126000;-847619400;-1190561000;0;0;0;1753163000;1857551000;-3774287000;-10928470000;-6801346000;7247038000;8612034000;-5663889000;-6817212000;6187943000;3387136000;-6404110000;754779400;4480257000;-3647354000;-622117900;3218678000;-2343834000;-196231900;1880634000;-1698043000;349085300;826347400;-993256900;282508900;537626700;-769049600;0;0;0;0];
[4163808000;1463393000;-4707671000;-13450180000;-14930310000;2937697000;13783030000;-3397694000;-9783475000;7054534000;2977842000;-8071135000;4773349000;2879971000;-7273960000;4581357000;1550294000;-5202838000;4364121000;-1076587000;-1865191000;3014000000;-2405598000;957725800;252350200;-653812200;425920200;-136145400;0;0;0;-842819800;-217763000;1266560000;2649113000;2137841000;-1040430000;-2187850000;900633900;1643569000;-1272898000;-683602100;1385486000;-484738000;-688907800;1050435000;-470333800;-398202600;803165000;-552875900;22799470;349085300;-426066900;319137900;-164046500;16622150;109421100;-189753600;0;0;0;0];
[3850953000;11214170000;-8064830000;-40651830000;-27347380000;28180400000;37305380000;-18068720000;-30942780000;18174200000;19374000000;-19663970000;-6028253000;16768590000;-5209406000;-8156692000;9425529000;-2054035000;-4522164000;5668032000;-2779746000;-658272200;2479560000;-2614070000;1970959000;-1141615000;109008900;1149512000;0;0;0;-877329900;-1916878000;2145364000;7640886000;3806957000;-5734882000;-5013316000;4292894000;3787121000;-4006807000;-1791958000;3640224000;-224323300;-2578430000;1623977000;895035400;-1885729000;818783900;781926900;-1429158000;826347400;319137900;-1080220000;982481200;-225238200;-568498100;841197400;0;0;0;0];
[-9507339000;-20675290000;3815139000;53492200000;54115980000;-17187170000;-55039210000;7248224000;43912670000;-13752540000;-28039090000;21108600000;8873171000;-19545080000;6872255000;8220395000;-11070710000;3754074000;3875568000;-5847529000;3273424000;-65789300;-1609779000;1992187000;-1917270000;1550063000;-628473500;-753305300;0;0;0;2145109000;3883962000;-1647084000;-10512600000;-8219540000;4991691000;8415986000;-3296679000;-6452267000;3814260000;3671902000;-4259901000;-565888300;3352462000;-1770642000;-1127462000;2198640000;-1059506000;-704244200;1517252000;-993256900;-164046500;982481200;-962003000;284495800;466225700;-764419400;0;0;0;0];
[7907249000;18276120000;12877830000;-13636660000;-40102430000;-23032480000;26010840000;22967700000;-21161010000;-11820370000;17894320000;-680207400;-10387620000;7453320000;638212000;-5448518000;4497361000;-433963900;-2473037000;2407579000;-790262000;-311103900;382495200;-180492800;321678900;-675602300;795393100;-485504800;0;0;0;-1851166000;-3881858000;-2157553000;3405237000;6878111000;2184305000;-5171450000;-2576049000;4285168000;1110448000;-3445123000;649751900;1939041000;-1548256000;-155531800;1062283000;-799112500;75614950;433546900;-509543300;282508900;16622150;-225238200;284495800;-203378300;32793370;138069700;0;0;0;0];
[173640900;-1367310000;-19696190000;-42567540000;-13252850000;45633560000;28262060000;-35279440000;-19766620000;28108620000;5495822000;-19300920000;5055010000;8430939000;-7560204000;-14811270;4220085000;-2913923000;-285698300;1895342000;-1403141000;155781600;725528800;-1017953000;877258600;-379478500;-407949700;1200260000;0;0;0;35500070;836455400;4457466000;7435492000;1076631000;-7988595000;-3035630000;6709978000;1707974000;-5397469000;438145000;3511278000;-1884485000;-1273869000;1923574000;-388650100;-982508400;936943300;6046572;-686502800;537626700;109421100;-568498100;466225700;32793370;-474792700;519049000;0;0;0;0];
[-8492359000;-20614060000;2482233000;62904330000;67114820000;-21548740000;-64033360000;11015010000;46622250000;-16505400000;-26018050000;20920940000;6176952000;-16626190000;6558240000;6217963000;-8667414000;2431058000;3546297000;-4183433000;1326180000;1026962000;-1388401000;843326900;-596706900;620538500;-253839900;-691747200;0;0;0;1977057000;3803828000;-1627403000;-12209210000;-10251500000;6055202000;10022990000;-4309109000;-7143524000;4631318000;3529188000;-4531645000;-132138700;3024759000;-1833621000;-727742300;1817375000;-976412100;-487913800;1193854000;-769049600;-189753600;841197400;-764419400;138069700;519049000;-752564600;0;0;0;0];
[0;0;0;0;0;0;0;0;0;0;0;0;0;0;0;0;0;0;0;0;0;0;0;0;0;0;0;0;0;0;0;0;0;0;0;0;0;0;0;0;0;0;0;0;0;0;0;0;0;0;0;0;0;0;0;0;0;0;0;0;0;0];
[0;0;0;0;0;0;0;0;0;0;0;0;0;0;0;0;0;0;0;0;0;0;0;0;0;0;0;0;0;0;0;0;0;0;0;0;0;0;0;0;0;0;0;0;0;0;0;0;0;0;0;0;0;0;0;0;0;0;0;0;0;0];
[0;0;0;0;0;0;0;0;0;0;0;0;0;0;0;0;0;0;0;0;0;0;0;0;0;0;0;0;0;0;0;0;0;0;0;0;0;0;0;0;0;0;0;0;0;0;0;0;0;0;0;0;0;0;0;0;0;0;0;0;0;0];
[0;0;0;0;0;0;0;0;0;0;0;0;0;0;0;0;0;0;0;0;0;0;0;0;0;0;0;0;0;0;0;0;0;0;0;0;0;0;0;0;0;0;0;0;0;0;0;0;0;0;0;0;0;0;0;0;0;0;0;0;0;0]].
