(** Generated by tools/gen_upnp_ex.py: two scenes for UPnP with the intermediate
    values, permutations and certificates used by UpnpActExamples.v. *)
From Coq Require Import Reals List NArith ZArith.
From Verif Require Import Lin UpnpModel.
Import ListNotations.
Local Open Scope R_scope.

(** * 4 correspondences *)
Definition s4_c (i : nat) : ucorr :=
  nth i [UC (V3 1 0 0) (V3 0 (-1) 0) (V3 (-2) 0 2);
         UC (V3 0 1 0) (V3 0 (-1) (-1)) (V3 0 (-1) 0);
         UC (V3 0 0 1) (V3 0 1 1) (V3 0 2 0);
         UC (V3 1 0 0) (V3 (-1) 0 1) (V3 (-1) 1 1)] (UC v0 v0 v0).
Definition s4_l : list ucorr := [s4_c 0; s4_c 1; s4_c 2; s4_c 3].
Definition s4_t : vec3 := V3 0 1 0.
Definition s4_H : mat3 := diag (1 / 2) (1 / 3) (1 / 3).
Definition s4_I (j : nat) : vec3 := nth j [V3 0 (-1) (-1); V3 0 1 1; V3 0 (-1) 1; V3 0 1 (-1); V3 0 2 0; V3 0 0 (-2); V3 1 2 0; V3 (-1) 2 0; V3 0 0 2; V3 0 (-2) 0] v0.
Definition s4_J : vec3 := V3 0 0 0.
Definition s4_A (i j : nat) : vec3 := nth j (nth i [[V3 0 1 (-1); V3 0 (-1) 1; V3 0 1 1; V3 0 (-1) (-1); V3 0 2 0; V3 0 0 (-2); V3 0 2 0; V3 0 2 0; V3 0 0 2; V3 0 (-2) 0];
   [V3 0 0 1; V3 0 0 (-1); V3 0 0 (-1); V3 0 0 1; V3 0 0 2; V3 0 0 2; V3 (-3) 0 0; V3 3 0 0; V3 0 0 (-2); V3 0 0 2];
   [V3 0 (-1) 0; V3 0 1 0; V3 0 (-1) 0; V3 0 1 0; V3 0 (-2) 0; V3 0 0 0; V3 3 (-2) 0; V3 (-3) (-2) 0; V3 0 0 0; V3 0 2 0];
   [V3 0 0 0; V3 0 0 0; V3 0 0 0; V3 0 0 0; V3 0 0 (-2); V3 0 0 0; V3 0 0 0; V3 0 0 0; V3 0 0 0; V3 0 0 (-2)]] []) v0.
Definition s4_b (i : nat) : vec3 := nth i [V3 0 (-1) 0; V3 0 0 (-1); V3 0 1 0; V3 0 0 1] v0.
(** 1 times M and C *)
Definition s4_Mz : list (list Z) :=
  [[4; (-4); 0; 0; 6; 4; 4; 4; (-4); (-2)];
   [(-4); 4; 0; 0; (-6); (-4); (-4); (-4); 4; 2];
   [0; 0; 4; (-4); 2; (-4); 4; 4; 4; (-6)];
   [0; 0; (-4); 4; (-2); 4; (-4); (-4); (-4); 6];
   [6; (-6); 2; (-2); 16; 4; 8; 8; (-4); 0];
   [4; (-4); (-4); 4; 4; 8; 0; 0; (-8); 4];
   [4; (-4); 4; (-4); 8; 0; 26; (-10); 0; (-8)];
   [4; (-4); 4; (-4); 8; 0; (-10); 26; 0; (-8)];
   [(-4); 4; 4; (-4); (-4); (-8); 0; 0; 8; (-4)];
   [(-2); 2; (-6); 6; 0; 4; (-8); (-8); (-4); 16]]%Z.
Definition s4_Cz : list Z := [(-3); 3; (-1); 1; (-8); (-2); (-4); (-4); 2; 0]%Z.
(** 1 times M1 *)
Definition s4_m1 : list (list Z) :=
  [[16; 36; 16; (-12); 24; 32; 8; 16; 4; (-8); 24; 16; (-16); (-8); (-36); 16; 52; (-4); (-8); (-8); 0; 0; 0; 0; (-12); (-16); (-4); (-8); 0];
   [12; 16; (-36); 16; 16; 16; (-24); 4; 52; 8; 8; (-32); 24; (-36); 8; (-8); (-4); 16; (-16); (-8); 0; 0; 0; 0; (-16); 12; (-8); 4; 0];
   [8; 16; 8; (-8); 16; 8; 52; (-24); 24; 16; (-4); (-36); 4; 32; (-16); (-36); (-8); (-16); 16; 12; 0; 0; 0; 0; (-4); (-8); (-4); 0; 0];
   [8; 8; (-16); 8; (-4); (-36); 4; 16; (-8); (-12); 52; (-8); 16; (-16); (-32); 16; (-24); (-24); 36; 16; 0; 0; 0; 0; (-8); 4; 0; 4; 0];
   [0; 0; 0; 0; 0; 0; 0; 0; 0; 0; 0; 0; 0; 0; 0; 0; 0; 0; 0; 0; 1; 1; 1; 1; 0; 0; 0; 0; (-1)]]%Z.
(** the inverse of its leading block *)
Definition s4_di : Z := 24%Z.
Definition s4_inv : list (list Z) :=
  [[(-2); (-4); 4; 9];
   [2; 2; (-3); (-4)];
   [2; (-2); (-4); 3];
   [4; (-2); (-9); 4]]%Z.
(** 2 times the matrix after multiplication by the inverse of its leading block *)
Definition s4_red : list (list Z) :=
  [[2; 0; 0; 0; (-7); (-35); 27; 0; (-16); (-5); 31; (-10); 8; 12; (-26); 0; (-28); (-28); 39; 20; 0; 0; 0; 0; 0; (-1); 2; 3; 0];
   [0; 2; 0; 0; 4; 18; (-17); 4; 6; 0; (-11); 9; (-5); (-10); 10; 5; 18; 14; (-20); (-11); 0; 0; 0; 0; (-1); 0; (-1); (-2); 0];
   [0; 0; 2; 0; (-5); (-9); (-11); 14; (-18); (-11); 17; 18; (-4); (-10); (-10); 20; 6; (-4); 5; 0; 0; 0; 0; 0; 0; (-1); 2; (-1); 0];
   [0; 0; 0; 2; (-8); (-10); (-31); 28; (-28); (-20); 27; 35; (-7); (-26); (-12); 39; 16; 0; 0; (-5); 0; 0; 0; 0; (-1); 0; 3; (-2); 0];
   [0; 0; 0; 0; 0; 0; 0; 0; 0; 0; 0; 0; 0; 0; 0; 0; 0; 0; 0; 0; 2; 2; 2; 2; 0; 0; 0; 0; (-2)]]%Z.
(** ... and 2 times the final one *)
Definition s4_fin : list (list Z) :=
  [[2; 0; 0; 0; (-7); (-35); 27; 0; (-16); (-5); 31; (-10); 8; 12; (-26); 0; (-28); (-28); 39; 20; 0; 0; 0; 0; 0; (-1); 2; 3; 0];
   [0; 2; 0; 0; 4; 18; (-17); 4; 6; 0; (-11); 9; (-5); (-10); 10; 5; 18; 14; (-20); (-11); 0; 0; 0; 0; (-1); 0; (-1); (-2); 0];
   [0; 0; 2; 0; (-5); (-9); (-11); 14; (-18); (-11); 17; 18; (-4); (-10); (-10); 20; 6; (-4); 5; 0; 0; 0; 0; 0; 0; (-1); 2; (-1); 0];
   [0; 0; 0; 2; (-8); (-10); (-31); 28; (-28); (-20); 27; 35; (-7); (-26); (-12); 39; 16; 0; 0; (-5); 0; 0; 0; 0; (-1); 0; 3; (-2); 0];
   [0; 0; 0; 0; 0; 0; 0; 0; 0; 0; 0; 0; 0; 0; 0; 0; 0; 0; 0; 0; 2; 2; 2; 2; 0; 0; 0; 0; (-2)]]%Z.
(** the order of rows and columns in which the elimination modulo 31 succeeds *)
Definition s4_P : Z := 31%Z.
Definition s4_rs : list nat := map N.to_nat [394; 9; 119; 145; 8; 114; 384; 389; 69; 379; 269; 5; 6; 35; 68; 99; 104; 141; 148; 181; 182; 232; 235; 349; 364; 244; 324; 329; 7; 109; 136; 299; 319; 374; 274; 359; 0; 74; 187; 212; 254; 323; 334; 369; 339; 18; 36; 40; 98; 120; 128; 149; 153; 227; 314; 344; 354; 73; 186; 273; 2; 3; 44; 84; 89; 240; 157; 264; 284; 330; 236; 4; 94; 259; 1; 25; 29; 59; 64; 79; 135; 140; 197; 222; 249; 289; 294; 309; 54; 167; 192; 279; 304; 177; 172; 217; 34; 37; 33; 50; 83; 147; 146; 150; 163; 196; 10; 13; 49; 162; 202; 234; 233; 237; 250; 280; 45; 78; 124; 191; 255; 328; 112; 161; 248; 278; 373; 16; 207; 132; 27; 122; 121; 58; 63; 171; 176; 210; 137; 95; 260; 88; 209; 26; 12; 129; 325; 326; 327; 102; 215; 93; 130; 125; 377; 11; 126; 127; 257; 258; 168; 173; 47; 48; 46; 77; 75; 76; 213; 382; 28; 100; 160; 158; 159; 189; 188; 190; 247; 245; 246; 60; 335; 337; 275; 276; 277; 107; 105; 220; 218; 371; 134; 133; 123; 131; 139; 138; 169; 170; 345; 348; 175; 174; 353; 351; 390; 392; 263; 261; 256; 55; 312; 338; 336; 393; 380; 62; 23; 14; 17; 15; 24; 22; 21; 19; 56; 57; 61; 241; 262; 370; 199; 179; 178; 106; 108; 219; 221; 180; 87; 201; 242; 252; 243; 391; 341; 340; 342; 166; 372; 85; 165; 164; 198; 204; 193; 195; 194; 375; 290; 301; 303; 381; 80; 81; 82; 200; 292; 361; 367; 365; 385; 286; 288; 91; 86; 41; 42; 43; 90; 53; 51; 52; 92; 206; 203; 205; 208; 224; 223; 211; 226; 225; 154; 155; 156; 144; 142; 143; 152; 151; 183; 360; 362; 363; 285; 287; 347; 343; 346; 231; 356; 184; 185; 322; 357; 228; 216; 229; 352; 321; 355; 333; 214; 331; 230; 320; 332; 350; 358; 366; 368; 96; 293; 291; 296; 297; 378; 388; 376; 302; 300; 383; 386; 387; 318; 283; 239; 315; 270; 67; 115; 20; 117; 38; 32; 101; 31; 71; 103; 110; 30; 97; 72; 39; 113; 118; 70; 111; 313; 306; 298; 267; 116; 238; 66; 65; 265; 271; 272; 268; 311; 282; 266; 253; 251; 307; 281; 295; 305; 308; 310; 316; 317]%N.
Definition s4_cs : list N := [391; 0; 101; 209; 1; 102; 378; 375; 106; 384; 290; 2; 33; 98; 6; 103; 134; 215; 199; 107; 208; 203; 282; 345; 392; 338; 371; 374; 7; 108; 236; 289; 285; 385; 337; 394; 91; 192; 277; 207; 304; 340; 355; 341; 373; 31; 32; 100; 5; 202; 132; 133; 201; 204; 286; 349; 356; 99; 200; 283; 14; 34; 193; 115; 135; 284; 278; 295; 303; 305; 230; 8; 109; 310; 40; 39; 13; 138; 112; 141; 140; 114; 225; 210; 335; 386; 380; 291; 127; 226; 271; 334; 306; 214; 235; 231; 58; 90; 77; 30; 29; 159; 178; 191; 131; 130; 97; 64; 185; 272; 268; 251; 266; 276; 229; 228; 96; 95; 158; 196; 279; 320; 3; 197; 281; 280; 365; 57; 222; 165; 19; 183; 195; 38; 12; 139; 113; 105; 120; 4; 220; 92; 104; 24; 82; 125; 330; 339; 336; 59; 160; 26; 129; 198; 353; 94; 170; 174; 256; 270; 164; 119; 56; 75; 88; 55; 87; 74; 179; 344; 28; 78; 157; 176; 189; 156; 188; 175; 250; 265; 275; 18; 319; 329; 249; 264; 274; 20; 25; 121; 126; 369; 190; 146; 151; 155; 177; 187; 182; 194; 299; 302; 124; 128; 318; 328; 381; 383; 224; 227; 263; 63; 206; 324; 317; 389; 342; 23; 45; 50; 73; 86; 54; 76; 69; 89; 81; 93; 27; 245; 241; 360; 180; 186; 154; 46; 65; 147; 166; 145; 79; 161; 260; 248; 273; 388; 314; 333; 327; 169; 366; 60; 150; 173; 137; 123; 171; 184; 152; 350; 219; 246; 261; 343; 70; 83; 51; 136; 223; 298; 296; 300; 393; 255; 269; 15; 62; 68; 44; 72; 21; 49; 53; 85; 42; 142; 148; 122; 181; 168; 111; 116; 153; 163; 118; 143; 144; 162; 110; 117; 172; 149; 167; 288; 287; 293; 259; 240; 297; 390; 294; 312; 323; 322; 321; 387; 301; 307; 308; 309; 311; 313; 316; 382; 331; 315; 377; 379; 292; 325; 326; 332; 376; 10; 262; 247; 244; 205; 346; 363; 372; 252; 267; 359; 370; 347; 216; 221; 237; 257; 242; 17; 35; 36; 47; 16; 22; 61; 48; 9; 43; 11; 52; 66; 67; 71; 41; 37; 80; 84; 243; 367; 239; 357; 232; 364; 361; 217; 234; 254; 348; 233; 211; 358; 368; 253; 213; 212; 218; 238; 362; 258; 351; 352; 354]%N.
(** the residues of the final matrix *)
Definition s4_res : list (list Z) :=
  [[1; 0; 0; 0; 12; 29; 29; 0; 23; 13; 0; 26; 4; 6; 18; 0; 17; 17; 4; 10; 0; 0; 0; 0; 0; 15; 1; 17; 0];
   [0; 1; 0; 0; 2; 9; 7; 2; 3; 0; 10; 20; 13; 26; 5; 18; 9; 7; 21; 10; 0; 0; 0; 0; 15; 0; 15; 30; 0];
   [0; 0; 1; 0; 13; 11; 10; 7; 22; 10; 24; 9; 29; 26; 26; 10; 3; 29; 18; 0; 0; 0; 0; 0; 0; 15; 1; 15; 0];
   [0; 0; 0; 1; 27; 26; 0; 14; 17; 21; 29; 2; 12; 18; 25; 4; 8; 0; 0; 13; 0; 0; 0; 0; 15; 0; 17; 30; 0];
   [0; 0; 0; 0; 0; 0; 0; 0; 0; 0; 0; 0; 0; 0; 0; 0; 0; 0; 0; 0; 1; 1; 1; 1; 0; 0; 0; 0; 30]]%Z.
(** a multiple of the solution whose trailing part is (1,0,...,0) *)
Definition s4_y : list Z :=
  [2138485796220345918433410032768536099104907245865592712;
   48697948308355768734769430979372751543952949737321011;
   (-197449986904651299579439744711872528589540020463544006);
   28086109456335219171123093192990683749986997435590425;
   (-29729694430278518441893634692737584972253423952822404);
   84822081723311203459816526684023235198614891923122267;
   148170630019122858241352700878114991494762324649744578;
   (-611274067294542953445173833825034677971921893316253928);
   138163310777214731996845463690643159153622106922014124;
   (-8057572391540278666351516686547816277879141795860886);
   (-56883958523127636760873493674784020771225950239021996);
   16132785880472655012611175189837996526422327972206036;
   (-33715339505433553371733965979941489668878082156484300);
   (-255433933330466923428794178366043461967179722708065054);
   (-212085315201156498541847322425812052210853600415214596);
   9309412116777431512684658991740748907619663520595003;
   29613127595324379578825223905589023933767342205353722;
   24175922343177359013321249984057682074196364297523073;
   (-56261281521119901758034347984189386196433655466680760);
   (-10342879412327361507523039846439444450793665539796509);
   (-66291575229647194488278880722184989733360750073194424);
   33429764843434775349946753323142772199949387804684286;
   (-29162853469243098390821086705263134617022114175645794);
   (-7291501504431849107161676107239054389748485318434950);
   102022883471202943130693639093608457816875422700736332;
   (-79588923952828143084212811870774747164922515916508872);
   14779726878247267493317645307532691562025770797226975;
   33118692726150307250689332552066785394971836372570202;
   31238713298051900630361949637092097092195327483672477;
   89275124684619799897558865220964836841169585338078784;
   (-10486626690986187819009672732431677352845169823103656);
   (-978835793161151200621667565574967866824487818838960942);
   (-308543867217091450893313969947682547041059047492547428);
   (-119393477241589258636234076261922396915165808053231508);
   96672821010612972159831531725690407721153324692695850;
   (-55968062514189236722033044229248890512603283693990364);
   (-18594375082087921603733516255743076226712326991335548);
   (-99691963385106268443358828807161820328825116801581788);
   33650948779507786772166925722632158076826056658962834;
   257800996332759242355309773081335807987051467040354980;
   (-61653454552208456529471128020041010163667488316961093);
   (-15851882503421492333844162757853386592870423646294118);
   14519337674558549691924798325122380428621400736800449;
   (-25544205136505737332639789545092767546759414304008744);
   50759119741550693078549516313040200863536032289471843;
   (-15016506710617391027313628549796003251880940062279774);
   74929007099735432437251455380898572047567298318656318;
   (-11633858501039886945105208925133071432263426220574946);
   9637110280863813546739979697542330505202320206608298;
   5482751779434704816304535467021375135236484809809948;
   15608644531992336350023908506462441560629875676058038;
   101091069487650407739078647300878596698687622402189791;
   (-6557775040154900578725782718207531722829352813047750);
   22216501085079877280294779964824497905695264960954973;
   71819167805581946127947076801443901589853300866319324;
   89898669651325773392516027138597889799507557092642584;
   4777497808166777721248794334969188516661527222965074;
   (-408692221221182513314873859241157939301118426526127832);
   (-222039664032195593803243864079573396257102814502590033);
   (-45838736770963462422094285512122123525756472477705318);
   14220831490201183911907606147900399635382798757441;
   (-17028430538735731410442855655581765335949879584085720);
   8088415812836877458906026019291682864262850783973859;
   (-125490921781955415614935934358375166380744120439367214);
   (-279461322327034658466503009308530159412670539433557703);
   48064067823960885334871597835852639465052385419146110;
   (-32101949836238150911190381226480633834705474080284710);
   5895438764743470387135510757662234916964458028523692;
   (-64701768521740669547489999577787109287195314330070330);
   (-29805247387570174612716786956317192567987619829669434);
   33902206981150074170491375529632734253789915353421498;
   (-7120869108250625729188321340463058281470817417403555);
   12873495566675087279906690926189392072202351847613132;
   49794216370781812442053712803558003461960997708259111;
   10443382362501673106162946350757236099881891570931506;
   38983641846423484991659257718572329019654319620040696;
   (-85427392351263533220498950849855231687057840782890148);
   (-134230893698299324279490562930153798747732991366725846);
   11442369202746431504236922318785913437513814515622410;
   5258059803440434067378482583037989317662474582879356;
   (-34087165239244252974495837934741523379219807802374954);
   10813891167814195062292502851071748471795696852837334;
   (-190990878341073762627521504556308291852511711182893414);
   (-28786085505788660554403332174458920030920163965383011);
   23381451126340847002984058240890574604391143308392060;
   (-43261817153951636909654447482521051432252767552408665);
   (-129533873947480182002004985458881006763050010367621422);
   (-64463012744573430928847455069764901588844121095373624);
   (-18635175554777232290436037331213954514372814708551476);
   (-63281619863321496777535079120608974988877156630970416);
   (-36665549183068873802694600482108812896150272538137891);
   44528891435155305211684890968690014840306152482218092;
   (-25307287094977176701487804519452364721813587032759897);
   (-52871750175892917423391430445552406796451032066330462);
   156256482003966091151675070284993117872971226746025781;
   (-9510359158763732152481155398580880476322771604519620);
   140380921063658205075119264784225763640315162572765632;
   (-154455009419378396965831986984750342663239418938088566);
   (-136355010726736726748326505937796200058767475861240408);
   39125936133340809558654098981584319905921182083641520;
   (-384290315138694152333565694653476726881098465014882054);
   0;
   0;
   0;
   0;
   0;
   0;
   0;
   0;
   0;
   0;
   0;
   0;
   0;
   0;
   0;
   0;
   0;
   0;
   0;
   0;
   0;
   0;
   0;
   0;
   0;
   0;
   0;
   0;
   0;
   0;
   0;
   0;
   0;
   0;
   0;
   0;
   0;
   0;
   0;
   0;
   0;
   0;
   0;
   0;
   0;
   0;
   0;
   0;
   0;
   0;
   0;
   0;
   0;
   0;
   0;
   0;
   0;
   0;
   0;
   0;
   0;
   0;
   0;
   0;
   0;
   0;
   0;
   0;
   0;
   0;
   0;
   0;
   0;
   0;
   0;
   0;
   0;
   0;
   0;
   0;
   0;
   0;
   0;
   0;
   0;
   0;
   0;
   0;
   0;
   0;
   0;
   0;
   0;
   0;
   0;
   0;
   0;
   0;
   0;
   0;
   0;
   0;
   1683111757343574657890028680118729394778757152509128792;
   86107690712958620602489090770252084601194993492263880;
   (-214594984278341169852951011154602854963975981795098408);
   (-85967276063052189338544329622540868858175646846829944);
   (-208122148482910256232956589321963361029039187054070184);
   (-322402483749457335992706877364155373500987794484265016);
   (-273420051366098921847447990938090830694432449216189992);
   (-637559147091769541264932633397914844518109399766163128);
   82607167261283719674728342112521276747640070407391704;
   (-32429725992865644459394010296060247238110079815595192);
   (-80431424303887710508614770740102571696655576929278248);
   (-1737836272116192636115582807023037030622278158600888);
   47195010989332799487438879214725173445155726147896920;
   (-228158904577510187876743534861365041188218858772948248);
   43946545746532336536253327358461378041760488869257080;
   38528145504742364834111389611617481666781708417122024;
   56622684833704099196905064747422234028647997372361912;
   (-9420093277458690492009309571237749669268011608333592);
   (-15556208376044536851985696182687026911297480760599080);
   34467756277345892204743980337458885576504021189832968;
   (-50406544726096536326885136781782434066450382747986856);
   9585617999273860380366685519550165649111618692499720;
   67854881842730983863553441827782731305536513118849240;
   (-71925290662237061626007185153758097503353093835996600);
   (-4399730004418769869728605301498560286568148394322344);
   298214689706731730967128225983633624186754821908558600;
   (-184020141892109315493278979159715896842672734886912232);
   (-500377344173945733315313197812849479749734445867172248);
   (-88990163453296631416778742791486801942687978912943144);
   71702647230925597678371289127852249379840046063664712;
   (-52804281585233221649316179558129847580595309931220008);
   (-2302869204752312064678241119419999899991599487797176);
   (-25552368869507359170632021409958454698416816450755496);
   727320820020329157708899551952447571331857903192648;
   25170867104211840347128985431501046932721370856646136;
   (-11017301772421514544324911465373787701574333302805656);
   37315057915735666575016916370688529651550046991431224;
   9606900757079569978305881633628986884676794487610216;
   59440181039879519082798747025500884339632762976053752;
   135831587969462650528216035662222064366130998402700296;
   (-26161722433196377666262577593342332055104617957686184);
   24598170455443360132465684614872038944660431900375304;
   32876001891187423182041139228784068103599374367958488;
   135789853038257648195251346702960085523694144235260616;
   (-57109286878778794531638613248169729140918054194099496);
   37736098311977700287637812707570250903516387608707720;
   21023126440995125295916550100428064699630601610118936;
   (-69171375725766577981447909774863877965064252970832120);
   (-643381923193305117548466858707270036175319534993432200);
   15563931106606185549639125330618860232389715773848552;
   24774424341455706624189428115185496933384087771540408;
   7865818558473702175504438764948752691350642400442344;
   72574410436560299564222040245219160374049078908805240;
   (-9076727944037588714711916399123827172083750910127896);
   48369376521105122207128400670763119324834766069437528;
   (-12361734054450358630002926210977939100372356226988792);
   47525842798763727807898443042627732318662472428113368;
   (-50211451388834634012753797021871247422841245706069368);
   (-36563859770161365410940001103000505263597365178999976);
   2772610871225152569439240905262341048073203947877384;
   28097833267943908409855843344088043656572610547036120;
   (-118249253136292044791141026574324893398757907863147512);
   50392587413282104988290625724495211302513752489946648;
   (-352492436663518789161207218871951374950339667771646360);
   20734990280163284515245259615259863374120517824249096;
   62733161283024488894772769239253838194775866824455640;
   2751017753127043595141150824284073047087305703412104;
   117443740310322289463050950743908488397910830706048088;
   (-10965310033733962890292976830780497317930147075667576);
   58235594208289738054646665263826253002356098376575064;
   (-2495527815759614381809785532318828972348231343721528);
   (-69732250094078547198111975641344625438133147703189224);
   (-41820732220153607178355276389800255041072496467817976);
   (-133529754017045533302251480322909004053202516646643528);
   24236180449425952025366571314406728325344345245768920;
   11294447331699928424733169761000870494372631308289096;
   78783581197274543174382725963003662970173099345214808;
   39394670862818367423042951038952158117977384133076744;
   251240198727655696754357477768264031335230859646841752;
   (-20950320439855224061275732131423257280095433459846040);
   (-29239063675960274555785736933309941485067398639075432);
   (-358367838574107424713432789187022683534698028252951800);
   0;
   0;
   0;
   0;
   0;
   0;
   0;
   0;
   0;
   0;
   0;
   0;
   0;
   0;
   0;
   0;
   0;
   0;
   0;
   0;
   0;
   0;
   0;
   0;
   0;
   0;
   0;
   0;
   0;
   0;
   0;
   0;
   0;
   0;
   0;
   0;
   0;
   0;
   0;
   0;
   0;
   0;
   0;
   0;
   0;
   0;
   0;
   0;
   0;
   0;
   0;
   0;
   0;
   0;
   0;
   0;
   1255921799594329485709973259433380358858952027714930688;
   68861384737894474424387516621358090718163923286231424;
   (-376323168698035359076291772099999981634882818031604224);
   (-279172664542245126570124101994054847956466365049927808);
   (-500039021070505457287125806230415768564823398788721664);
   (-637175704939574600369183939205898999342682194272919872);
   24281765180291542740854625498899651527116158440957632;
   (-37048264192314645614496286842237986016520268294069568);
   (-73862246704115684653563003027698480025229477794950976);
   (-158339737000198204590018704524965333479498002415976960);
   31416550789224526676590447857387855615128596353499776;
   59591066454061361195059261788317216524134661467138048;
   114002683468298612997116366444839269810249050536825152;
   (-135214206279171103880121482630075837010003926106568896);
   194260899964520376519654976470331606886363689034677248;
   14772133211096081977366372927865278216968227382786240;
   105971216876001396842203239654343755619519695442636992;
   (-51007462246170177092341365528932190287264388778188096);
   148744193816777729738122748405225004172850463489402048;
   187310468024471192227104271674369164790035415007670400;
   (-284093685831001043010977816088276955459494632719872);
   137098867485635505993844177892200455436331598413616768;
   111720634771822588758486294736177542572288884210005312;
   (-111407734923889444650727277236537245630696622780062912);
   (-159275928805692674984606487296075619619813967017252992);
   11102070344344474339570134306973835985487338241059840;
   111415892980941087182583879026667868849879001936512128;
   84410159074039058785125399426709653945513009844778496;
   17040637046395172646928768178018116362716714767480128;
   184794687802995245792829860158874665508117245460562240;
   (-95512229418383533124695533733683489931000348085838336);
   (-75485305736748493643511302135110630501992722814603456);
   (-143307675768889681929598710823031514161673536151976128);
   (-165133406704414023236341962270494000606553046404034176);
   0;
   0;
   0;
   0;
   0;
   0;
   0;
   0;
   0;
   0;
   0;
   0;
   0;
   0;
   0;
   0;
   732360964240440396383232917115388879730058545508409344;
   (-67478836034185038286562258488641032773294843473684480);
   (-732360964240440396383232917115388879730058545508409344);
   (-543180648617195460339635091425279599186236697262684160);
   385844594398401761641049254910734934128826505306465096]%Z.

(** * 5 correspondences *)
Definition s5_c (i : nat) : ucorr :=
  nth i [UC (V3 1 0 0) (V3 0 1 0) (V3 1 0 1);
         UC (V3 0 1 0) (V3 0 1 0) (V3 2 0 0);
         UC (V3 0 0 1) (V3 0 0 0) (V3 0 1 0);
         UC (V3 1 0 0) (V3 (-1) 1 0) (V3 1 0 0);
         UC (V3 0 1 0) (V3 1 0 0) (V3 2 0 1)] (UC v0 v0 v0).
Definition s5_l : list ucorr := [s5_c 0; s5_c 1; s5_c 2; s5_c 3; s5_c 4].
Definition s5_t : vec3 := V3 0 0 0.
Definition s5_H : mat3 := diag (1 / 3) (1 / 3) (1 / 4).
Definition s5_I (j : nat) : vec3 := nth j [V3 (-4 / 3) (-1 / 3) (-1 / 2); V3 (-4 / 3) (1 / 3) (1 / 2); V3 (4 / 3) (-1 / 3) (1 / 2); V3 (4 / 3) (1 / 3) (-1 / 2); V3 0 (2 / 3) 0; V3 (-2 / 3) 0 3; V3 (2 / 3) (-4 / 3) 0; V3 (-2 / 3) (-4 / 3) 0; V3 (-2 / 3) 0 (-3); V3 0 (-2 / 3) 0] v0.
Definition s5_J : vec3 := V3 (-1 / 3) (-2 / 3) 0.
Definition s5_A (i j : nat) : vec3 := nth j (nth i [[V3 0 (1 / 3) (-1 / 2); V3 0 (-1 / 3) (1 / 2); V3 0 (1 / 3) (1 / 2); V3 0 (-1 / 3) (-1 / 2); V3 0 (4 / 3) 0; V3 0 0 (-1); V3 0 (-2 / 3) 0; V3 0 (-2 / 3) 0; V3 0 0 1; V3 0 (-4 / 3) 0];
   [V3 (-2 / 3) 0 (1 / 2); V3 (-2 / 3) 0 (-1 / 2); V3 (2 / 3) 0 (-1 / 2); V3 (2 / 3) 0 (1 / 2); V3 0 0 0; V3 (2 / 3) 0 1; V3 (-2 / 3) 0 0; V3 (2 / 3) 0 0; V3 (2 / 3) 0 (-1); V3 0 0 0];
   [V3 (4 / 3) (-2 / 3) 0; V3 (4 / 3) (2 / 3) 0; V3 (-4 / 3) (-2 / 3) 0; V3 (-4 / 3) (2 / 3) 0; V3 0 (-2 / 3) 0; V3 (2 / 3) 0 0; V3 (4 / 3) (4 / 3) 0; V3 (-4 / 3) (4 / 3) 0; V3 (2 / 3) 0 0; V3 0 (2 / 3) 0];
   [V3 0 (1 / 3) (1 / 2); V3 0 (-1 / 3) (-1 / 2); V3 0 (1 / 3) (-1 / 2); V3 0 (-1 / 3) (1 / 2); V3 0 (-2 / 3) 0; V3 0 0 (-1); V3 0 (-2 / 3) 0; V3 0 (-2 / 3) 0; V3 0 0 1; V3 0 (2 / 3) 0];
   [V3 (-2 / 3) 0 (-1 / 2); V3 (-2 / 3) 0 (1 / 2); V3 (2 / 3) 0 (1 / 2); V3 (2 / 3) 0 (-1 / 2); V3 0 0 0; V3 (-4 / 3) 0 1; V3 (-2 / 3) 0 0; V3 (2 / 3) 0 0; V3 (-4 / 3) 0 (-1); V3 0 0 0]] []) v0.
Definition s5_b (i : nat) : vec3 := nth i [V3 0 (1 / 3) 0; V3 (-1 / 3) 0 0; V3 (-1 / 3) (-2 / 3) 0; V3 0 (1 / 3) 0; V3 (2 / 3) 0 0] v0.
(** 3 times M and C *)
Definition s5_Mz : list (list Z) :=
  [[13; 3; (-9); (-7); 2; 4; 4; (-12); 4; (-2)];
   [3; 13; (-7); (-9); (-2); 4; 12; (-4); 4; 2];
   [(-9); (-7); 13; 3; 2; (-4); (-12); 4; (-4); (-2)];
   [(-7); (-9); 3; 13; (-2); (-4); (-4); 12; (-4); 2];
   [2; (-2); 2; (-2); 8; 0; (-4); (-4); 0; (-8)];
   [4; 4; (-4); (-4); 0; 20; 4; (-4); (-4); 0];
   [4; 12; (-12); (-4); (-4); 4; 16; 0; 4; 4];
   [(-12); (-4); 4; 12; (-4); (-4); 0; 16; (-4); 4];
   [4; 4; (-4); (-4); 0; (-4); 4; (-4); 20; 0];
   [(-2); 2; (-2); 2; (-8); 0; 4; 4; 0; 8]]%Z.
Definition s5_Cz : list Z := [0; (-4); 4; 0; 2; (-4); (-6); (-2); (-4); (-2)]%Z.
(** 3 times M1 *)
Definition s5_m1 : list (list Z) :=
  [[52; 12; 28; (-4); 24; (-48); 0; 4; (-4); (-8); 24; 0; 24; 8; (-24); (-24); 4; 4; 0; (-8); 0; 4; (-8); (-12)];
   [4; 28; (-12); 52; (-24); 0; (-24); (-4); 4; 8; 0; 48; 24; (-24); (-8); 0; 4; 4; 24; (-8); 4; (-16); (-4); (-8)];
   [8; (-24); 0; (-8); 4; (-8); 4; (-24); 24; 52; 4; (-24); (-4); (-48); 0; (-12); 0; 24; 28; 4; (-8); (-4); 16; (-4)];
   [8; 0; 24; 8; 4; (-24); (-4); (-24); 0; (-4); 4; 8; 4; 0; 48; 28; (-24); (-24); 12; 52; (-12); (-8); (-4); 0];
   [3; 0; 3; 0; 0; 0; 0; 3; 0; 0; 0; 0; 0; 0; 0; 0; 3; 0; 0; 0; (-3); 0; 0; 0];
   [0; 3; 0; 3; 0; 0; 0; 0; 3; 0; 0; 0; 0; 0; 0; 0; 0; 3; 0; 0; 0; (-3); 0; 0];
   [0; 0; 0; 0; 3; 0; 3; 0; 0; 3; 0; 0; 0; 0; 0; 0; 0; 0; 3; 0; 0; 0; (-3); 0];
   [0; 0; 0; 0; 0; 0; 0; 0; 0; 0; 3; 0; 3; 0; 0; 3; 0; 0; 0; 3; 0; 0; 0; (-3)]]%Z.
(** the inverse of its leading block *)
Definition s5_di : Z := 272%Z.
Definition s5_inv : list (list Z) :=
  [[9; (-3); 27; (-27); 120; 208; (-96)];
   [6; (-36); 18; (-18); (-56); 728; (-336)];
   [(-9); 3; (-27); 27; 152; (-208); 96];
   [(-6); 36; (-18); 18; 56; (-456); 336];
   [15; 165; (-261); 57; 64; (-3688); 1744];
   [(-3); 69; (-111); 9; 232; (-1520); 712];
   [(-15); (-165); 261; (-57); (-64); 3688; (-1472)]]%Z.
(** 34 times the matrix after multiplication by the inverse of its leading block *)
Definition s5_red : list (list Z) :=
  [[34; 0; 0; 0; 0; 0; 0; 17; 51; 47; 9; (-42); (-3); (-48); (-62); (-54); 43; 81; 3; (-56); (-11); (-18); 32; (-8)];
   [0; 34; 0; 0; 0; 0; 0; 0; 102; (-14); 6; (-96); (-36); 2; (-30); (-36); 6; 122; (-66); (-26); 4; (-63); 61; 6];
   [0; 0; 34; 0; 0; 0; 0; 17; (-51); (-47); (-9); 42; 3; 48; 62; 54; (-9); (-81); (-3); 56; (-23); 18; (-32); 8];
   [0; 0; 0; 34; 0; 0; 0; 0; (-68); 14; (-6); 96; 36; (-2); 30; 36; (-6); (-88); 66; 26; (-4); 29; (-61); (-6)];
   [0; 0; 0; 0; 34; 0; 0; 187; (-697); (-307); (-19); 610; 233; 362; 44; 182; (-19); (-749); 107; 20; 78; 378; (-434); (-19)];
   [0; 0; 0; 0; 0; 34; 0; 119; (-289); (-129); (-20); 252; 86; 152; (-2); 69; 31; (-299); 33; (-21); 15; 159; (-175); (-3)];
   [0; 0; 0; 0; 0; 0; 34; (-187); 697; 341; 19; (-610); (-233); (-362); (-44); (-182); 19; 749; (-73); (-20); (-78); (-378); 400; 19];
   [0; 0; 0; 0; 0; 0; 0; 0; 0; 0; 34; 0; 34; 0; 0; 34; 0; 0; 0; 34; 0; 0; 0; (-34)]]%Z.
(** ... and 34 times the final one *)
Definition s5_fin : list (list Z) :=
  [[34; 0; 0; 0; 0; 0; 0; 17; 51; 47; 0; (-42); (-12); (-48); (-62); (-63); 43; 81; 3; (-65); (-11); (-18); 32; 1];
   [0; 34; 0; 0; 0; 0; 0; 0; 102; (-14); 0; (-96); (-42); 2; (-30); (-42); 6; 122; (-66); (-32); 4; (-63); 61; 12];
   [0; 0; 34; 0; 0; 0; 0; 17; (-51); (-47); 0; 42; 12; 48; 62; 63; (-9); (-81); (-3); 65; (-23); 18; (-32); (-1)];
   [0; 0; 0; 34; 0; 0; 0; 0; (-68); 14; 0; 96; 42; (-2); 30; 42; (-6); (-88); 66; 32; (-4); 29; (-61); (-12)];
   [0; 0; 0; 0; 34; 0; 0; 187; (-697); (-307); 0; 610; 252; 362; 44; 201; (-19); (-749); 107; 39; 78; 378; (-434); (-38)];
   [0; 0; 0; 0; 0; 34; 0; 119; (-289); (-129); 0; 252; 106; 152; (-2); 89; 31; (-299); 33; (-1); 15; 159; (-175); (-23)];
   [0; 0; 0; 0; 0; 0; 34; (-187); 697; 341; 0; (-610); (-252); (-362); (-44); (-201); 19; 749; (-73); (-39); (-78); (-378); 400; 38];
   [0; 0; 0; 0; 0; 0; 0; 0; 0; 0; 34; 0; 34; 0; 0; 34; 0; 0; 0; 34; 0; 0; 0; (-34)]]%Z.
(** the order of rows and columns in which the elimination modulo 61 succeeds *)
Definition s5_P : Z := 61%Z.
Definition s5_rs : list nat := map N.to_nat [78; 3; 73; 83; 94; 111; 67; 16; 51; 96; 70; 14; 31; 42; 60; 66; 26; 21; 106; 140; 49; 9; 55; 136; 37; 89; 132; 44; 100; 52; 63; 20; 48; 5; 33; 85; 117; 124; 133; 139; 43; 137; 125; 135; 0; 2; 11; 91; 30; 27; 65; 82; 79; 90; 134; 138; 17; 45; 57; 59; 10; 120; 129; 126; 19; 97; 113; 99; 18; 39; 38; 12; 13; 80; 81; 95; 28; 29; 32; 35; 36; 1; 118; 130; 92; 93; 47; 128; 64; 4; 15; 40; 41; 107; 108; 87; 46; 123; 110; 131; 109; 122; 101; 62; 34; 98; 105; 119; 103; 104; 86; 88; 84; 115; 116; 102; 121; 114; 112; 127; 74; 6; 24; 50; 72; 7; 61; 8; 22; 25; 23; 54; 53; 56; 58; 68; 69; 71; 75; 76; 77]%N.
Definition s5_cs : list N := [124; 69; 23; 123; 122; 121; 0; 8; 3; 79; 4; 67; 68; 66; 42; 28; 27; 2; 94; 135; 1; 41; 24; 128; 40; 104; 90; 7; 98; 5; 9; 32; 29; 22; 21; 89; 118; 116; 125; 131; 6; 129; 70; 127; 55; 64; 46; 108; 54; 63; 14; 114; 120; 117; 126; 130; 20; 10; 56; 65; 59; 74; 75; 71; 13; 88; 87; 83; 17; 43; 57; 36; 62; 102; 112; 86; 51; 33; 18; 47; 37; 53; 72; 80; 101; 103; 15; 73; 60; 39; 50; 25; 45; 119; 111; 113; 12; 78; 107; 76; 93; 77; 84; 35; 11; 110; 133; 96; 140; 106; 91; 85; 109; 115; 82; 136; 134; 132; 95; 97; 139; 31; 105; 58; 49; 16; 48; 100; 19; 92; 81; 38; 137; 26; 30; 44; 34; 52; 61; 99; 138]%N.
(** the residues of the final matrix *)
Definition s5_res : list (list Z) :=
  [[1; 0; 0; 0; 0; 0; 0; 31; 32; 57; 0; 49; 14; 56; 52; 43; 21; 58; 27; 25; 23; 21; 44; 9];
   [0; 1; 0; 0; 0; 0; 0; 0; 3; 57; 0; 51; 49; 18; 35; 49; 54; 0; 16; 17; 36; 43; 0; 47];
   [0; 0; 1; 0; 0; 0; 0; 31; 29; 4; 0; 12; 47; 5; 9; 18; 41; 3; 34; 36; 37; 40; 17; 52];
   [0; 0; 0; 1; 0; 0; 0; 0; 59; 4; 0; 10; 12; 43; 26; 12; 7; 1; 45; 44; 25; 17; 0; 14];
   [0; 0; 0; 0; 1; 0; 0; 36; 10; 43; 0; 0; 11; 25; 30; 40; 12; 30; 48; 46; 31; 47; 59; 24];
   [0; 0; 0; 0; 0; 1; 0; 34; 22; 59; 0; 11; 39; 26; 43; 8; 35; 54; 53; 52; 13; 28; 11; 37];
   [0; 0; 0; 0; 0; 0; 1; 25; 51; 19; 0; 0; 50; 36; 31; 21; 49; 31; 14; 15; 30; 14; 1; 37];
   [0; 0; 0; 0; 0; 0; 0; 0; 0; 0; 1; 0; 1; 0; 0; 1; 0; 0; 0; 1; 0; 0; 0; 60]]%Z.
(** the same values for the rotated points *)
Definition s5_p (i : nat) : vec3 := nth i [V3 1 1 0; V3 0 2 0; V3 0 0 1; V3 0 1 0; V3 1 2 0] v0.
Definition s5_Ir (j : nat) : vec3 := nth j [V3 (-1 / 3) (-2 / 3) 0; V3 (-1 / 3) (2 / 3) 0; V3 (1 / 3) (-2 / 3) 0; V3 (1 / 3) (2 / 3) 0; V3 0 (2 / 3) (-3); V3 (-2 / 3) 0 1; V3 (8 / 3) (-2 / 3) 0; V3 (-8 / 3) (-2 / 3) 0; V3 (-2 / 3) 0 (-1); V3 0 (-2 / 3) (-3)] v0.
Definition s5_Ar (i j : nat) : vec3 := nth j (nth i [[V3 0 (-1 / 3) 0; V3 0 (1 / 3) 0; V3 0 (-1 / 3) 0; V3 0 (1 / 3) 0; V3 0 (-2 / 3) 1; V3 0 0 1; V3 0 (-4 / 3) 0; V3 0 (-4 / 3) 0; V3 0 0 (-1); V3 0 (2 / 3) 1];
   [V3 (1 / 3) 0 0; V3 (1 / 3) 0 0; V3 (-1 / 3) 0 0; V3 (-1 / 3) 0 0; V3 0 0 (-1); V3 (2 / 3) 0 (-1); V3 (4 / 3) 0 0; V3 (-4 / 3) 0 0; V3 (2 / 3) 0 1; V3 0 0 (-1)];
   [V3 (1 / 3) (2 / 3) 0; V3 (1 / 3) (-2 / 3) 0; V3 (-1 / 3) (2 / 3) 0; V3 (-1 / 3) (-2 / 3) 0; V3 0 (4 / 3) 0; V3 (-4 / 3) 0 0; V3 (-8 / 3) (2 / 3) 0; V3 (8 / 3) (2 / 3) 0; V3 (-4 / 3) 0 0; V3 0 (-4 / 3) 0];
   [V3 0 (-1 / 3) 0; V3 0 (1 / 3) 0; V3 0 (-1 / 3) 0; V3 0 (1 / 3) 0; V3 0 (-2 / 3) 1; V3 0 0 (-1); V3 0 (2 / 3) 0; V3 0 (2 / 3) 0; V3 0 0 1; V3 0 (2 / 3) 1];
   [V3 (-2 / 3) 0 0; V3 (-2 / 3) 0 0; V3 (2 / 3) 0 0; V3 (2 / 3) 0 0; V3 0 0 (-1); V3 (2 / 3) 0 1; V3 (4 / 3) 0 0; V3 (-4 / 3) 0 0; V3 (2 / 3) 0 (-1); V3 0 0 (-1)]] []) v0.
Definition s5_hess : mat3 := M3 (40 / 3) 0 (8 / 3) 0 (40 / 3) (32 / 3) (8 / 3) (32 / 3) (80 / 3).
(** the same with the equations of an eigenvector, without the last column, modulo 61 *)
Definition s5_eP : Z := 61%Z.
Definition s5_ers : list nat := map N.to_nat [148; 144; 141; 142; 143; 147; 145; 146; 3; 73; 67; 16; 51; 96; 70; 14; 31; 42; 60; 66; 78; 26; 21; 94; 140; 49; 83; 106; 111; 9; 55; 37; 89; 132; 44; 100; 52; 63; 20; 48; 5; 33; 117; 124; 85; 136; 43; 125; 0; 2; 11; 139; 120; 30; 27; 65; 113; 126; 129; 17; 45; 57; 59; 10; 19; 18; 39; 118; 38; 97; 134; 138; 12; 13; 114; 28; 29; 133; 99; 91; 80; 1; 119; 47; 137; 95; 4; 15; 58; 56; 46; 79; 81; 82; 92; 135; 40; 34; 41; 35; 108; 112; 110; 109; 107; 90; 121; 93; 116; 88; 122; 101; 128; 86; 84; 98; 87; 115; 102; 104; 103; 105; 123; 130; 127; 131; 22; 23; 7; 36; 8; 74; 68; 24; 69; 32; 6; 53; 62; 61; 64; 50; 25; 76; 72; 54; 71; 75]%N.
Definition s5_ecs : list N := [144; 124; 121; 122; 123; 147; 145; 146; 69; 23; 0; 8; 3; 79; 4; 67; 68; 66; 42; 28; 117; 27; 2; 108; 135; 1; 114; 94; 141; 41; 24; 40; 104; 90; 7; 98; 5; 9; 32; 29; 22; 21; 118; 116; 89; 128; 6; 70; 55; 64; 46; 131; 74; 54; 63; 14; 87; 71; 75; 20; 10; 56; 65; 59; 13; 17; 43; 72; 57; 88; 133; 134; 36; 62; 80; 51; 33; 125; 83; 111; 120; 53; 73; 15; 129; 86; 39; 50; 37; 47; 11; 119; 101; 103; 113; 127; 30; 60; 48; 18; 102; 84; 109; 115; 99; 95; 76; 92; 77; 142; 82; 81; 106; 85; 140; 138; 107; 91; 110; 100; 143; 96; 93; 126; 78; 105; 44; 19; 45; 52; 12; 61; 35; 38; 26; 34; 16; 58; 25; 31; 97; 49; 112; 132; 136; 130; 137; 139]%N.
Definition s5_eres : list (list Z) :=
  [[1; 0; 0; 0; 0; 0; 0; 31; 32; 57; 0; 49; 14; 56; 52; 43; 21; 58; 27; 25; 23; 21; 44; 9];
   [0; 1; 0; 0; 0; 0; 0; 0; 3; 57; 0; 51; 49; 18; 35; 49; 54; 0; 16; 17; 36; 43; 0; 47];
   [0; 0; 1; 0; 0; 0; 0; 31; 29; 4; 0; 12; 47; 5; 9; 18; 41; 3; 34; 36; 37; 40; 17; 52];
   [0; 0; 0; 1; 0; 0; 0; 0; 59; 4; 0; 10; 12; 43; 26; 12; 7; 1; 45; 44; 25; 17; 0; 14];
   [0; 0; 0; 0; 1; 0; 0; 36; 10; 43; 0; 0; 11; 25; 30; 40; 12; 30; 48; 46; 31; 47; 59; 24];
   [0; 0; 0; 0; 0; 1; 0; 34; 22; 59; 0; 11; 39; 26; 43; 8; 35; 54; 53; 52; 13; 28; 11; 37];
   [0; 0; 0; 0; 0; 0; 1; 25; 51; 19; 0; 0; 50; 36; 31; 21; 49; 31; 14; 15; 30; 14; 1; 37];
   [0; 0; 0; 0; 0; 0; 0; 0; 0; 0; 1; 0; 1; 0; 0; 1; 0; 0; 0; 1; 0; 0; 0; 60]]%Z.

