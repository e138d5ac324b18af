(** Generated by tools/gen_fiveex.py: exact instances of the five-point problem
    and certificates, used in examples. *)
From Coq Require Import List ZArith.
Import ListNotations.
Local Open Scope Z_scope.

Definition x1_D := 1170.
Definition x1_V := [
  [156; 780; 0; 0; 0; -429; -429; -429; -429];
  [1158; -60; 0; 0; 0; 78; 78; 78; 78];
  [-60; 870; 0; 0; 0; 390; 390; 390; 390];
  [0; 0; -390; 156; 0; 546; -546; 546; -546];
  [0; 0; -780; 780; 0; -195; 195; -195; 195];
  [0; 0; 780; 858; 0; 78; -78; 78; -78];
  [0; 0; 0; 0; 520; 585; 455; -585; -455];
  [0; 0; 0; 0; 1040; -351; -143; 351; 143];
  [0; 0; 0; 0; 130; 468; -676; -468; 676]].
Definition x1_dc := 585.
Definition x1_b1 := [
  [1; 0; 0];
  [1; 0; 0];
  [0; 1; 0];
  [0; 1; 0];
  [0; 0; 1]].
Definition x1_b2 := [
  [78; 579; -30];
  [390; -30; 435];
  [-195; -390; 390];
  [78; 390; 429];
  [260; 520; 65]].
Definition x1_dR := 3.
Definition x1_R := [
  [2; 1; 2];
  [1; 2; -2];
  [-2; 2; 1]].
Definition x1_dco := 5.
Definition x1_co := [9; 12; 41; -12].
Definition x1s_a := [
  [-57658068; -803653812; -1119230892; -373235148; -899038764; -1059200064; 154941228; -899038764; 470518308; -57658068; 470518308; -428045904; -583461684; -1059200064; -428045904; -803653812; 154941228; -583461684; -1119230892; -373235148];
  [310712922; -34523658; -258512202; -17677062; 440977446; -873412956; 1037014758; 440977446; -1330050618; 310712922; -1330050618; 1459484676; -734013306; -873412956; 1459484676; -34523658; 1037014758; -734013306; -258512202; -17677062];
  [545616162; -114960222; 863803278; 647407566; -1055996838; 49116132; -227429046; 1055996838; 1409775354; -545616162; -1409775354; -510380676; -598291434; -49116132; 510380676; 114960222; 227429046; 598291434; -863803278; -647407566];
  [99300006; 392573142; 459722250; 166449114; 242377434; 14948388; -254953062; 242377434; -322102170; 99300006; -322102170; -119349828; 175228326; 14948388; -119349828; 392573142; -254953062; 175228326; 459722250; 166449114];
  [-198600012; 118875276; 115078860; -35354124; 61929036; 136670976; -441570636; 61929036; 675524772; -198600012; 675524772; -604579248; 172025100; 136670976; -604579248; 118875276; -441570636; 172025100; 115078860; -35354124];
  [-180448398; 140586030; -152687106; -160517214; 780519402; 70470972; 208209690; -780519402; -461620458; 180448398; 461620458; 600071004; 230988186; -70470972; -600071004; -140586030; -208209690; -230988186; 152687106; 160517214];
  [-390793572; -98944092; 626171364; 334321884; 254122596; 1849329144; 1246885380; 254122596; 521769924; -390793572; 521769924; 399098232; -470992860; 1849329144; 399098232; -98944092; 1246885380; -470992860; 626171364; 334321884];
  [172974204; -985881780; 286392132; 526515444; -856329084; 132400008; -442519740; -856329084; -256969908; 172974204; -256969908; 1266579288; 156839436; 132400008; 1266579288; -985881780; -442519740; 156839436; 286392132; 526515444];
  [-8541936; -613595736; -811483920; -331711848; -1289832336; 1187329104; -794400048; 1289832336; -49827960; 8541936; 49827960; -1298374272; 1519040952; -1187329104; 1298374272; 613595736; 794400048; -1519040952; 811483920; 331711848];
  [-38438712; -51251616; 38438712; 51251616; -38438712; -102503232; -38438712; 38438712; -51251616; 38438712; 51251616; 76877424; 51251616; 102503232; -76877424; 51251616; 38438712; -51251616; -38438712; -51251616]].
Definition x1s_dn := 3171423397343259801600.
Definition x1s_N := [
  [-9108677166274; -2278728022906; 493479228996; -19753442625386; -8456690785178; -3740747923512; -4926319728397; 724947460949; -2184820359327; -16202074874925];
  [15683999631744; -409079429952; 9517908067200; 34783716734016; -2426487384576; 24229254384000; 4985703793632; -5527571772192; 6274555704000; 19964182939200];
  [-24355091744064; -5430770169984; -20991057984000; -47965189562496; -5748852019392; -53583033168000; -7027111708992; 6695879219136; -13948452396000; -43314177924000];
  [37983755957184; 8591118550272; 32881016750400; 78635818382976; 9898267715136; 82002059812800; 12263968073952; -8841565901088; 20400273921600; 77240257214400];
  [-2935648199682; 2095543834758; 2649389489604; -6845319310698; 3772822258854; 7002072800712; -1464429233421; 210186900693; 702228118977; 4579719469875];
  [-276163449408; -1480304700864; 1672418404800; -135508773312; -3377427527232; 4502664936000; 243572731776; -682689769344; 1286475696000; 2315656252800];
  [-3688048628352; -2863915769088; -1676057011200; -10084097219328; -8187862978944; -5885998272000; -689128678656; -1253689544448; -2319427440000; 4356222076800];
  [-3303866132226; 121804233606; -71077782204; -7025997675114; -730414444122; -1845449385912; -1139665591053; -700066125099; -57650192127; 7667261140275];
  [-10748756065344; -8260684669248; 1435845153600; -27709871889216; -16732061442624; -1262134843200; -5082575384832; -3530503223808; -2741407574400; 26915247849600];
  [-32874535170818; -24700123422458; -2247621486396; -77468993364202; -54141360504154; -13902338040888; -14744692609229; -8423553121643; -8854816292223; 76580739532275]].
Definition x1s_d3 := 412529873184.
Definition x1s_A3 := [
  [-874573603254; 792190323774; -104518366286; 305086213888; 1027743445587; -413216653770; -381728922771; 1276518306112; -558705674142; -211839798514];
  [-233500997808; -1552689393984; 529212953328; -1971583039200; -2351256711552; 1078817391792; 747108289728; -2191141557984; -51459027840; -315984951312];
  [505403861040; 1393885727424; -1309078516464; 4404051900000; 3126452844384; -1472146961040; -1655378575200; 4733389678176; 489718414944; 671673194640];
  [-917259294744; -1758331053504; 1829871414936; -6165195174000; -4847941342080; 2270594820744; 2492141100480; -7071731714448; -597469188096; -970542556200];
  [-60625167174; 627317711262; 218611529730; -257009255712; 31599059283; -3698617626; -31599059283; -128361686112; -214787838078; -154287744930];
  [-25086276072; -51459027840; 329552190792; -27015989616; -144085277952; 121571953272; 144085277952; -219987344016; 51459027840; -13507994808];
  [-64139055552; 306907169184; -318750366528; 961937539200; 132658286112; -147017965248; 196401956256; 632599761024; -390376800000; -221744432448];
  [-94073535270; 146175800958; 107974619874; 257009255712; 252015228531; 158397320070; 160514644653; 128361686112; -146175800958; -172298404674];
  [57680529192; 469043372160; 325938709272; 1569322510800; -607566541824; 10363914792; -144085277952; 1349763992016; -1220695191936; -889982657256];
  [61060044474; 1773769390206; 1125666030082; 5060903225312; -876930317901; 48830091750; -444128932467; 4089471133088; -2682298767390; -1987207986082]].
Definition x1n_a := [
  [-38438712; 51251616; -51251616; 38438712; -38438712; 51251616; -38438712; 51251616; -102503232; 76877424; 38438712; 102503232; 38438712; -51251616; -76877424; -51251616; 38438712; 51251616; -38438712; -51251616];
  [-115316136; -746470296; -1607307624; -2238461784; -1798077528; 941036616; 309882456; -1166923368; -2118400128; -856091808; -1798077528; -2118400128; 309882456; 941036616; -856091808; -1166923368; -115316136; -1607307624; -2238461784; -746470296];
  [621425844; -35354124; -69047316; -517024404; 881954892; -2660101236; 2074029516; -1468026612; -1746825912; 2918969352; 881954892; -1746825912; 2074029516; -2660101236; 2918969352; -1468026612; 621425844; -69047316; -517024404; -35354124];
  [1091232324; 1294815132; -229920444; 1727606556; -2111993676; -2819550708; -454858092; -1196582868; 98232264; -1020761352; 2111993676; -98232264; 454858092; 2819550708; 1020761352; 1196582868; -1091232324; 229920444; -1727606556; -1294815132];
  [198600012; 332898228; 785146284; 919444500; 484754868; -644204340; -509906124; 350456652; 29896776; -238699656; 484754868; 29896776; -509906124; -644204340; -238699656; 350456652; 198600012; 785146284; 919444500; 332898228];
  [-397200024; -70708248; 237750552; 230157720; 123858072; 1351049544; -883141272; 344050200; 273341952; -1209158496; 123858072; 273341952; -883141272; 1351049544; -1209158496; 344050200; -397200024; 237750552; 230157720; -70708248];
  [-360896796; -321034428; 281172060; -305374212; 1561038804; 923240916; 416419380; 461976372; 140941944; 1200142008; -1561038804; -140941944; -416419380; -923240916; -1200142008; -461976372; 360896796; -281172060; 305374212; 321034428];
  [-781587144; 668643768; -197888184; 1252342728; 508245192; 1043539848; 2493770760; -941985720; 3698658288; 798196464; 508245192; 3698658288; 2493770760; 1043539848; 798196464; -941985720; -781587144; -197888184; 1252342728; 668643768];
  [345948408; 1053030888; -1971763560; 572784264; -1712658168; -513939816; -885039480; 313678872; 264800016; 2533158576; -1712658168; 264800016; -885039480; -513939816; 2533158576; 313678872; 345948408; -1971763560; 572784264; 1053030888];
  [-17083872; -663423696; -1227191472; -1622967840; -2579664672; 99655920; -1588800096; 3038081904; 2374658208; -2596748544; 2579664672; -2374658208; 1588800096; -99655920; 2596748544; -3038081904; 17083872; 1227191472; 1622967840; 663423696]].
Definition x1n_dn := 550308463043264640000.
Definition x1n_N := [
  [16122261503700; -3350332718872; -2484257874356; 3919661742428; -12196336485908; -3171599549728; 4726418867884; -2066480305066; -2043554589926; -597818723836];
  [-77400622124100; 17156129514696; 2816873415108; -12069659471004; 53446335563844; -595769365296; -8501497828812; 7857086569938; 7712494883118; 1337538434148];
  [-39193205445900; 7539407064504; 820388669292; -7099968134196; 25135701334956; -1740125907504; -6739846726788; 3589964302662; 3742343664282; 206197668252];
  [60046650051300; -12365030411928; -2310036189444; 9426828377772; -38980221800292; 159164195328; 7295445742716; -5699336574834; -5788584337374; -966032913564];
  [2858776262100; -311915678976; 387549968652; 1290237663924; -1775346391764; 1310414215176; 2104669831572; -234209390778; -350877487158; 227373150312];
  [1313577881550; -150599017668; -909890795814; 288183738282; -956077870902; -1482536903232; 588908263746; -209854714179; -204822403269; -261458092434];
  [17295853122900; -2817423316224; -1103310128052; 2612514497076; -9520464726036; -1260999632376; 2531720641428; -1357695947322; -1698070082742; -267693672312];
  [14943152965950; -2380838829732; -852228443286; 2146523423418; -7740471420198; -879579917568; 2190745086354; -1189944471771; -1348533481581; -122138570466];
  [-12258806080950; 1975204189332; 506245955886; -1728958352418; 6535497929598; 259197526368; -1534571403354; 1016953228071; 1092029223681; 181790723466];
  [-6437905442100; 852761866176; 73760014548; -1417495590324; 3381977712564; -483237693576; -1691081570772; 464864382378; 692883164358; -92161603512]].
Definition x1n_d3 := 214747750800.
Definition x1n_A3 := [
  [-17385067482; 1577324812752; -402233585946; 4621392601768; -3483330121980; 2728996127128; -1316525923254; -261511867576; -5399452314498; -3731233154968];
  [-9166271789574; -6810449013936; -2185213323222; -17442160593624; 5702356141740; -8281885957704; 5580553276422; -2115187166232; 18263967884514; 14070284234424];
  [-4252385737026; -2231895417264; -1250149556178; -9215749697976; 3426168088260; -3121681535496; 2975369171778; -950516839368; 9403773440886; 7160698989576];
  [6506723948382; 5068890463248; 1579022896446; 13160755489032; -4883986612620; 6061902159672; -4185112554846; 1567268087976; -13782052468602; -10600475704632];
  [320841319194; -523128039984; 141722669682; 1190672490744; -654201727740; -207389835576; -417242144682; 101791879992; -1035814771134; -773142406344];
  [-729458662383; 502781232888; -373890656799; 392363470092; -930727435770; 624200517732; -43639427601; -275395311444; -618798857787; -331591745892];
  [1201734081306; 1401011807184; 506316628818; 3253724411256; -1870352148060; 1469869634376; -996583854618; 348672257208; -3777101205966; -2836194326856];
  [1071517279833; 1016266965912; 346866423849; 2556764049708; -1486057584330; 1121354816868; -764396508249; 385179374844; -2975104948563; -2281244574708];
  [-982039050333; -801519215112; -257388194349; -2222711992908; 1163935958130; -1002050510868; 674918278749; -289735930044; 2563505092863; 1947192517908];
  [-654893375994; -49532628816; -261026975682; -1636075233144; 868949478540; -238012906824; 536546450682; -229049806392; 1584614578734; 1218545148744]].
Definition x1_kd := 2524252500.
Definition x1_K := [
  [362525625; -1691786250; -1168138125; -4753113750; 604209375; -1087576875; 1920043125; -3303011250; 1691786250; 0];
  [1415455884; -970065288; -401002812; -1860460488; 2781700596; -4609403172; -2849211396; 3456736488; 902554488; 0];
  [-2595409776; -2518419168; -1741576032; -9158172768; -3548973744; 3455792208; 7514344944; -11760131232; 6483790368; 0];
  [1787279337; -5111935434; -2695360941; -9760808934; 5455081503; -10504130571; -2040160203; -1846129266; 6002604234; 0];
  [-1821218868; -7374686424; -3965601276; -18490364424; 5435685108; -4213365156; 7890394092; -13897129176; 13969425624; 0];
  [-520286199; -25795627082; -13480719693; -56614876182; 21167296319; -26119877883; 12567738581; -28099562418; 39056169482; 0];
  [-483367500; 2255715000; 1557517500; 6337485000; -805612500; 1450102500; 805612500; 4404015000; -2255715000; 0];
  [-1887274512; 1293420384; 534670416; 2480613984; -3708934128; 6145870896; 3798948528; -1243311984; -1203405984; 0];
  [-2383039116; 6815913912; 3593814588; 13014411912; -7273442004; 14005507428; 2720213604; 2461505688; -4637802312; 0];
  [0; 0; 0; 0; 0; 0; 0; 0; 0; 0]].
Definition x1_bd := 144.
Definition x1_w := [81; 108; 144; 369; 492; 1681; -108; -144; -492; 144].
Definition x2_D := 150.
Definition x2_V := [
  [-90; 120; 0; 0; 0; 0; 0; 0; 0];
  [96; 72; 0; 0; 0; -45; -45; -45; -45];
  [72; 54; 0; 0; 0; 60; 60; 60; 60];
  [0; 0; 0; -120; 0; 45; -45; 45; -45];
  [0; 0; 150; 0; 0; 0; 0; 0; 0];
  [0; 0; 0; -90; 0; -60; 60; -60; 60];
  [0; 0; 0; 0; 100; 75; 25; -75; -25];
  [0; 0; 0; 0; 100; -75; 25; 75; -25];
  [0; 0; 0; 0; 50; 0; -100; 0; 100]].
Definition x2_dc := 75.
Definition x2_b1 := [
  [1; 0; 0];
  [1; 0; 0];
  [0; 1; 0];
  [0; 1; 0];
  [0; 0; 1]].
Definition x2_b2 := [
  [-45; 48; 36];
  [60; 36; 27];
  [0; 75; 0];
  [-60; 0; -45];
  [50; 50; 25]].
Definition x3_EE := [
  [-3; -5; -2; 4; -4; 5; 6; -2; 1];
  [2; 0; 0; 2; -2; 1; -1; -2; -1];
  [-2; 0; 1; -1; 1; 2; -2; 2; -1];
  [0; -1; 2; 1; 0; -3; -2; 3; 0]].
Definition x3n_a := [
  [-360; 16; -74; 46; -40; 420; -16; -62; -68; -72; 76; 24; -60; -26; 54; 32; 20; 12; -32; 0];
  [88; -4; 880; -138; -356; -136; 8; 136; -72; 160; 184; -220; 48; 32; -52; -52; 0; 8; 112; 0];
  [736; 24; 492; 224; -536; -856; -6; 94; -352; 28; 164; 116; 120; 116; -80; 4; -32; 12; -44; 0];
  [64; 6; -176; 372; -680; -40; -100; -52; -400; -88; 368; 704; -24; 76; -12; -44; -24; -128; -56; 0];
  [712; -16; 200; -234; -220; -832; 64; -18; 556; 160; -128; -152; 120; -100; -24; 4; 40; 48; -44; 0];
  [-80; -4; -1016; -448; 408; 152; 78; 36; 492; 136; -188; -104; -72; -68; -72; -72; 0; -20; 48; 0];
  [-176; 20; -732; 68; 808; 152; 32; 54; 532; 108; -376; -572; 24; -16; -152; 4; 0; 120; 164; 0];
  [160; 24; 532; 48; -480; -136; 10; -52; -212; -160; 188; 504; -24; -28; 128; -44; 0; -108; -56; 0];
  [-56; -6; 392; 18; 20; 32; 68; 82; 436; -208; 88; -408; 24; 28; -96; 4; -24; -104; 164; 0];
  [712; 18; 288; 158; -164; -856; -54; -48; 96; -152; -164; 276; 144; -116; 16; 60; 32; -12; -96; 0]].
Definition x3n_dn := 65453389595391452160.
Definition x3n_N := [
  [-2669621994712192570; 341739708588373878; -1127407085207643989; 624057882258823866; -283466317447135554; -13375352717411330; 850910901381500329; 1934655879755981477; -382617481490269534; -163349612197772458];
  [1434723094297506240; 471443577658851264; 433428174555883488; -215926200383497152; -169696033151775552; 416014400599730880; 555209000420237472; 554391585317776416; -305171116334377152; 443621762675522496];
  [-138527823849135360; 47584220374062336; -84664435353529728; 5668787625910272; -7250346956133888; -43298916280769280; 54702922503788928; 121050011166866304; -26182303937530368; -2268776239739136];
  [-246008038174940880; -46550809751811408; -53525828690272296; 100802559707139024; 40420857286128624; -124125534708053520; 156272106778249416; 152892581242940328; 2317893215353104; -122277513680115792];
  [-200385924143804700; -2660584679885820; -73904378536296030; -31754738386081380; -50992338371556300; -33069234956321100; 61532955877481430; 101873681398937790; -46814384495200500; 14172101716855620];
  [-2267016190316672860; 323219071733753796; -1002788951750988158; 560316142464574812; -247402766657533068; -18491195834868620; 751300845942789238; 1683109180260415454; -319767570834798388; -172304355596472316];
  [790335519590955600; -612760606066866480; 740975810370657000; -423529506680396880; 336157469510486160; -156101632676250480; -260580204708145800; -358972473177700200; 248221947802861680; -570459168212693040];
  [-343583713046268240; 220492423098249264; 4511685739023768; 138332995953004368; -240756192994553232; 180613527856122480; 67386927384822792; 24885213064001256; 132272087560026768; 64446364184333616];
  [-131395467728174880; 77132942413359840; -131683275549561360; 96892040939669280; 28808194371051360; 259230688963680; 107326751837639760; 124113177626868240; 12400964208089760; 22279341055515360];
  [-125539750663534320; 77795354037570192; -66551080198449336; 59943160935635184; 103452244936355664; -86053757603206320; 159361553740094616; 125852712491990328; -146414187167977296; -123209779062936432]].
Definition x3n_d3 := 16363347398847863040.
Definition x3n_A3 := [
  [-4890641768148558558; 203287686921601763578; -16363347398847863040; -8324624521907755149; 20238804177378939083; -57097511368325991425; -9918955768564672134; -50282457457269860382; 33583219234845374942; 0];
  [-18306414040480822464; 5073230614011200064; 0; -21019982249066018592; 4490309918526549984; 1305736265365561440; 8684787745234133568; 17631835919024218944; -1320129773952807744; 0];
  [-1061522787355044096; 6439256870942128896; 0; -1332760176465260928; 2424633923894891136; -2438769556662080640; 17103781973029632; -1566035518255474944; 2381789179175364864; 0];
  [2364964233856090128; 7208499524701866192; 0; 4556194683841313304; -1546621562564258088; -3607968380944166280; -1994567815467118896; -2245076342524639728; 5204408256057117168; 0];
  [-9302233490696437620; 3799278048771277980; 0; -1326296958403827630; 1905868786398383970; -1642158556012299750; -335826425121682020; 11454635555228940; 1787289871913150580; 0];
  [-471073519326719796; 173400719042409187036; -16363347398847863040; -6642609916532194638; 17680788130941564866; -50086038257267055110; -8608523278701226788; -44043523642571288244; 31136692379146895924; 0];
  [11296960066798105200; -95972273245286456400; 0; 19487760809544087720; -3944860505811511320; 18213810701993949000; -2126382182341949520; 18868212285348098160; -13062307575406143600; 0];
  [10844456858802320016; -804103337356234416; 0; 8318090031022471128; -14497641739762769256; -9731405034790328520; -5269633568692581552; -11077735361733672816; 18042761411282165616; 0];
  [-1263418224131633760; 7664959243135982880; 0; -3088737306424168080; -926393658702093840; -4138572799132386000; 207047507023698720; -3911629809441237600; 5625681903241665120; 0];
  [-2520857430110048592; 1395756337919365872; 0; 553686779726192904; 365969185355339592; -4308742733276876760; 472380262524040944; 4892054371276481712; 2630764513985321808; 0]].
