(** The data file pallets/handles/src/handles-utils/src/data/confusable_characters.txt
    (1851 lines), line by line, each character as its code point. Generated. *)
From Verif Require Import Prelude.

Definition rows0 : list (list N) :=
  [ [33; 451; 11601; 65281]
  ; [36; 65284]
  ; [37; 65285]
  ; [38; 42872; 65286]
  ; [39; 96; 180; 697; 699; 700; 701; 702; 712; 714; 715; 756; 884; 900; 1370; 1373; 1497; 1523; 2036; 2037; 5194; 5836; 8125; 8127; 8175; 8189; 8190; 8216; 8217; 8219; 8242; 8245; 42892; 65287; 65344; 94033; 94034]
  ; [40; 10088; 10098; 12308; 64830; 65288; 65339]
  ; [41; 10089; 10099; 12309; 64831; 65289; 65341]
  ; [42; 1645; 8270; 8727; 65290; 66335]
  ; [43; 5869; 10133; 65291; 66203]
  ; [44; 184; 1549; 1643; 8218; 42233; 65292]
  ; [45; 727; 1748; 8208; 8209; 8210; 8211; 8259; 8722; 10134; 11450; 65112]
  ; [46; 1632; 1776; 1793; 1794; 8228; 42232; 42510; 65294; 68176; 119149]
  ; [47; 5941; 8257; 8260; 8725; 9585; 10187; 10744; 11462; 12035; 12339; 12494; 12755; 20031; 65295; 119354]
  ; [48; 79; 111; 927; 959; 963; 1054; 1086; 1365; 1413; 1505; 1607; 1637; 1726; 1729; 1749; 1781; 1984; 2406; 2534; 2662; 2790; 2848; 2918; 3046; 3074; 3174; 3202; 3302; 3330; 3360; 3430; 3458; 3664; 3792; 4125; 4160; 4351; 4816; 7439; 7441; 8500; 11422; 11423; 11604; 12295; 42227; 43837; 64422; 64423; 64424; 64425; 64426; 64427; 64428; 64429; 65257; 65258; 65259; 65260; 65296; 65327; 65359; 66194; 66219; 66564; 66604; 66754; 66794; 66838; 70864; 71861; 71880; 71895; 71904; 119822; 119848; 119874; 119900; 119926; 119952; 119978; 120030; 120056; 120082; 120108; 120134; 120160; 120186; 120212; 120238; 120264; 120290; 120316; 120342; 120368; 120394; 120420; 120446; 120472; 120502; 120528; 120532; 120560; 120586; 120590; 120618; 120644; 120648; 120676; 120702; 120706; 120734; 120760; 120764; 120782; 120792; 120802; 120812; 120822; 126500; 126564; 126596; 130032]
  ; [49; 73; 105; 108; 124; 305; 406; 448; 617; 618; 731; 890; 921; 953; 1030; 1110; 1216; 1231; 1472; 1493; 1503; 1575; 1633; 1777; 1994; 5029; 5825; 8126; 8464; 8465; 8467; 8505; 8520; 8544; 8560; 8572; 8739; 9075; 9213; 11410; 11599; 42226; 42567; 43893; 65165; 65166; 65297; 65321; 65353; 65356; 65512; 66186; 66313; 66336; 71875; 93992; 119816; 119842; 119845; 119868; 119894; 119897; 119920; 119946; 119949; 119998; 120001; 120024; 120050; 120053; 120102; 120105; 120128; 120154; 120157; 120180; 120206; 120209; 120232; 120258; 120261; 120284; 120310; 120313; 120336; 120362; 120365; 120388; 120414; 120417; 120440; 120466; 120469; 120484; 120496; 120522; 120554; 120580; 120612; 120638; 120670; 120696; 120728; 120754; 120783; 120793; 120803; 120813; 120823; 125127; 126464; 126592; 130033]
  ; [50; 423; 1000; 5311; 42564; 42735; 42842; 65298; 120784; 120794; 120804; 120814; 120824; 130034]
  ; [51; 439; 540; 1047; 1248; 11468; 42858; 42923; 65299; 71882; 94011; 119302; 120785; 120795; 120805; 120815; 120825; 130035]
  ; [52; 5070; 65300; 71855; 120786; 120796; 120806; 120816; 120826; 130036]
  ; [53; 444; 65301; 71867; 120787; 120797; 120807; 120817; 120827; 130037]
  ; [54; 1073; 5102; 11474; 65302; 71893; 120788; 120798; 120808; 120818; 120828; 130038]
  ; [55; 65303; 66770; 71878; 119314; 120789; 120799; 120809; 120819; 120829; 130039]
  ; [56; 546; 547; 2538; 2666; 2819; 65304; 66330; 120790; 120800; 120810; 120820; 120830; 125131; 130040]
  ; [57; 2541; 2663; 2920; 3437; 11466; 42862; 65305; 71852; 71884; 71894; 120791; 120801; 120811; 120821; 120831; 130041]
  ; [58; 720; 760; 1417; 1475; 1795; 1796; 2307; 2691; 5868; 6147; 6153; 8282; 8758; 42237; 42889; 65072; 65306]
  ; [59; 894; 65307]
  ; [60; 706; 5176; 5810; 8249; 10094; 65308; 119350]
  ; [61; 5120; 11840; 12448; 42239; 65309]
  ; [62; 707; 5171; 8250; 10095; 65310; 94015; 119351]
  ; [63; 577; 660; 2429; 5038; 42731; 65311]
  ; [64; 65312]
  ; [65; 913; 1040; 5034; 5573; 7424; 42222; 43898; 65313; 66208; 94016; 119808; 119860; 119912; 119964; 120016; 120068; 120120; 120172; 120224; 120276; 120328; 120380; 120432; 120488; 120546; 120604; 120662; 120720]
  ; [66; 665; 914; 1042; 1074; 5108; 5116; 5623; 5842; 8492; 42192; 42932; 65314; 66178; 66209; 66305; 119809; 119861; 119913; 120017; 120069; 120121; 120173; 120225; 120277; 120329; 120381; 120433; 120489; 120547; 120605; 120663; 120721]
  ; [67; 1017; 1057; 5087; 5205; 8450; 8493; 8557; 8834; 11428; 11814; 42202; 65315; 66210; 66306; 66581; 66844; 71913; 71922; 119810; 119862; 119914; 119966; 120018; 120174; 120226; 120278; 120330; 120382; 120434; 128844]
  ; [68; 5024; 5598; 5610; 7429; 8517; 8558; 42195; 43888; 65316; 119811; 119863; 119915; 119967; 120019; 120071; 120123; 120175; 120227; 120279; 120331; 120383; 120435]
  ; [69; 917; 1045; 5036; 7431; 8496; 8959; 11577; 42224; 43900; 65317; 66182; 71846; 71854; 119812; 119864; 119916; 120020; 120072; 120124; 120176; 120228; 120280; 120332; 120384; 120436; 120492; 120550; 120608; 120666; 120724]
  ; [70; 988; 5556; 8497; 42205; 42904; 65318; 66183; 66213; 66853; 71842; 71874; 119315; 119813; 119865; 119917; 120021; 120073; 120125; 120177; 120229; 120281; 120333; 120385; 120437; 120778]
  ; [71; 610; 1292; 1293; 5056; 5107; 5115; 42198; 43920; 65319; 119814; 119866; 119918; 119970; 120022; 120074; 120126; 120178; 120230; 120282; 120334; 120386; 120438]
  ; [72; 668; 919; 1053; 1085; 5051; 5500; 8459; 8460; 8461; 11406; 42215; 43915; 65320; 66255; 119815; 119867; 119919; 120023; 120179; 120231; 120283; 120335; 120387; 120439; 120494; 120552; 120610; 120668; 120726]
  ; [74; 895; 1032; 5035; 5261; 7434; 42201; 42930; 43899; 65322; 119817; 119869; 119921; 119973; 120025; 120077; 120129; 120181; 120233; 120285; 120337; 120389; 120441]
  ; [75; 922; 1050; 5094; 5845; 8490; 11412; 42199; 65323; 66840; 119818; 119870; 119922; 119974; 120026; 120078; 120130; 120182; 120234; 120286; 120338; 120390; 120442; 120497; 120555; 120613; 120671; 120729]
  ; [76; 671; 5086; 5290; 8466; 8556; 11472; 11473; 42209; 43950; 65324; 66587; 66627; 66854; 71843; 71858; 93974; 119338; 119819; 119871; 119923; 120027; 120079; 120131; 120183; 120235; 120287; 120339; 120391; 120443]
  ; [77; 924; 1018; 1052; 5047; 5616; 5846; 8499; 8559; 11416; 42207; 65325; 66224; 66321; 119820; 119872; 119924; 120028; 120080; 120132; 120184; 120236; 120288; 120340; 120392; 120444; 120499; 120557; 120615; 120673; 120731]
  ; [78; 628; 925; 8469; 11418; 42208; 65326; 66835; 119821; 119873; 119925; 119977; 120029; 120081; 120185; 120237; 120289; 120341; 120393; 120445; 120500; 120558; 120616; 120674; 120732]
  ; [80; 929; 1056; 5090; 5229; 7448; 7465; 8473; 11426; 42193; 43954; 65328; 66197; 119823; 119875; 119927; 119979; 120031; 120083; 120187; 120239; 120291; 120343; 120395; 120447; 120504; 120562; 120620; 120678; 120736]
  ; [81; 8474; 11605; 65329; 119824; 119876; 119928; 119980; 120032; 120084; 120188; 120240; 120292; 120344; 120396; 120448]
  ; [82; 422; 640; 5025; 5074; 5511; 5809; 8475; 8476; 8477; 42211; 43889; 43938; 65330; 66740; 94005; 119318; 119825; 119877; 119929; 120033; 120189; 120241; 120293; 120345; 120397; 120449]
  ; [83; 1029; 1359; 5077; 5082; 42210; 65331; 66198; 66592; 94010; 119826; 119878; 119930; 119982; 120034; 120086; 120138; 120190; 120242; 120294; 120346; 120398; 120450]
  ; [84; 932; 964; 1058; 1090; 5026; 7451; 8868; 10201; 11430; 42196; 43890; 65332; 66199; 66225; 66325; 71868; 93962; 119827; 119879; 119931; 119983; 120035; 120087; 120139; 120191; 120243; 120295; 120347; 120399; 120451; 120507; 120533; 120565; 120591; 120623; 120649; 120681; 120707; 120739; 120765; 128872]
  ; [85; 1357; 4608; 5196; 8746; 8899; 42228; 65333; 66766; 71864; 94018; 119828; 119880; 119932; 119984; 120036; 120088; 120140; 120192; 120244; 120296; 120348; 120400; 120452]
  ; [86; 1140; 1639; 1783; 5081; 5167; 8548; 11576; 42214; 42719; 65334; 66845; 71840; 93960; 119309; 119829; 119881; 119933; 119985; 120037; 120089; 120141; 120193; 120245; 120297; 120349; 120401; 120453]
  ; [87; 1308; 5043; 5076; 42218; 65335; 71910; 71919; 119830; 119882; 119934; 119986; 120038; 120090; 120142; 120194; 120246; 120298; 120350; 120402; 120454]
  ; [88; 935; 1061; 5741; 5815; 8553; 9587; 11436; 11613; 42219; 42931; 65336; 66192; 66228; 66327; 66338; 66855; 71916; 119831; 119883; 119935; 119987; 120039; 120091; 120143; 120195; 120247; 120299; 120351; 120403; 120455; 120510; 120568; 120626; 120684; 120742]
  ; [89; 933; 978; 1059; 1198; 5033; 5053; 11432; 42220; 65337; 66226; 71844; 94019; 119832; 119884; 119936; 119988; 120040; 120092; 120144; 120196; 120248; 120300; 120352; 120404; 120456; 120508; 120566; 120624; 120682; 120740]
  ; [90; 918; 5059; 8484; 8488; 42204; 65338; 66293; 71849; 71909; 119833; 119885; 119937; 119989; 120041; 120197; 120249; 120301; 120353; 120405; 120457; 120493; 120551; 120609; 120667; 120725]
  ; [92; 8726; 10189; 10741; 10745; 12034; 12756; 20022; 65128; 65340; 119311; 119355]
  ; [94; 708; 710]
  ; [95; 2042; 65101; 65102; 65103; 65343]
  ; [97; 593; 945; 1072; 9082; 65345; 119834; 119886; 119938; 119990; 120042; 120094; 120146; 120198; 120250; 120302; 120354; 120406; 120458; 120514; 120572; 120630; 120688; 120746]
  ; [98; 388; 1068; 5071; 5234; 5551; 65346; 119835; 119887; 119939; 119991; 120043; 120095; 120147; 120199; 120251; 120303; 120355; 120407; 120459]
  ; [99; 1010; 1089; 7428; 8573; 11429; 43951; 65347; 66621; 119836; 119888; 119940; 119992; 120044; 120096; 120148; 120200; 120252; 120304; 120356; 120408; 120460]
  ; [100; 1281; 5095; 5231; 8518; 8574; 42194; 65348; 119837; 119889; 119941; 119993; 120045; 120097; 120149; 120201; 120253; 120305; 120357; 120409; 120461]
  ; [101; 1077; 1213; 8494; 8495; 8519; 43826; 65349; 119838; 119890; 119942; 120046; 120098; 120150; 120202; 120254; 120306; 120358; 120410; 120462]
  ; [102; 383; 989; 1412; 7837; 42905; 43829; 65350; 119839; 119891; 119943; 119995; 120047; 120099; 120151; 120203; 120255; 120307; 120359; 120411; 120463; 120779]
  ; [103; 397; 609; 1409; 7555; 8458; 65351; 119840; 119892; 119944; 120048; 120100; 120152; 120204; 120256; 120308; 120360; 120412; 120464]
  ; [104; 1211; 1392; 5058; 8462; 65352; 119841; 119945; 119997; 120049; 120101; 120153; 120205; 120257; 120309; 120361; 120413; 120465]
  ; [106; 1011; 1112; 8521; 65354; 119843; 119895; 119947; 119999; 120051; 120103; 120155; 120207; 120259; 120311; 120363; 120415; 120467]
  ; [107; 65355; 119844; 119896; 119948; 120000; 120052; 120104; 120156; 120208; 120260; 120312; 120364; 120416; 120468]
  ; [109; 65357]
  ; [110; 1400; 1404; 65358; 119847; 119899; 119951; 120003; 120055; 120107; 120159; 120211; 120263; 120315; 120367; 120419; 120471]
  ; [112; 961; 1009; 1088; 9076; 11427; 65360; 119849; 119901; 119953; 120005; 120057; 120109; 120161; 120213; 120265; 120317; 120369; 120421; 120473; 120530; 120544; 120588; 120602; 120646; 120660; 120704; 120718; 120762; 120776]
  ; [113; 1307; 1379; 1382; 65361; 119850; 119902; 119954; 120006; 120058; 120110; 120162; 120214; 120266; 120318; 120370; 120422; 120474]
  ; [114; 1075; 7462; 11397; 43847; 43848; 43905; 65362; 119851; 119903; 119955; 120007; 120059; 120111; 120163; 120215; 120267; 120319; 120371; 120423; 120475]
  ; [115; 445; 1109; 42801; 43946; 65363; 66632; 71873; 119852; 119904; 119956; 120008; 120060; 120112; 120164; 120216; 120268; 120320; 120372; 120424; 120476]
  ; [116; 65364; 119853; 119905; 119957; 120009; 120061; 120113; 120165; 120217; 120269; 120321; 120373; 120425; 120477]
  ; [117; 651; 965; 1405; 7452; 42911; 43854; 43858; 65365; 66806; 71896; 119854; 119906; 119958; 120010; 120062; 120114; 120166; 120218; 120270; 120322; 120374; 120426; 120478; 120534; 120592; 120650; 120708; 120766]
  ; [118; 957; 1141; 1496; 7456; 8564; 8744; 8897; 43945; 65366; 71430; 71872; 119855; 119907; 119959; 120011; 120063; 120115; 120167; 120219; 120271; 120323; 120375; 120427; 120479; 120526; 120584; 120642; 120700; 120758]
  ; [119; 623; 1121; 1309; 1377; 7457; 43907; 65367; 71434; 71438; 71439; 119856; 119908; 119960; 120012; 120064; 120116; 120168; 120220; 120272; 120324; 120376; 120428; 120480]
  ; [120; 215; 1093; 5441; 5501; 5742; 8569; 10539; 10540; 10799; 65368; 119857; 119909; 119961; 120013; 120065; 120117; 120169; 120221; 120273; 120325; 120377; 120429; 120481]
  ; [121; 611; 655; 947; 1091; 1199; 4327; 7564; 7935; 8509; 43866; 65369; 71900; 119858; 119910; 119962; 120014; 120066; 120118; 120170; 120222; 120274; 120326; 120378; 120430; 120482; 120516; 120574; 120632; 120690; 120748]
  ; [122; 7458; 43923; 65370; 71876; 119859; 119911; 119963; 120015; 120067; 120119; 120171; 120223; 120275; 120327; 120379; 120431; 120483]
  ; [123; 10100; 65371; 119060]
  ; [125; 10101; 65373]
  ; [126; 732; 8128; 8275; 8764]
  ; [163; 8356]
  ; [169; 9400]
  ; [174; 9415]
  ; [175; 713; 8254; 9620; 65097; 65098; 65099; 65100; 65507]
  ; [176; 730; 8728; 9675; 9702; 11824]
  ; [181; 956; 120525; 120583; 120641; 120699; 120757]
  ; [182; 11839]
  ; [183; 903; 5159; 5867; 8226; 8231; 8729; 8901; 11825; 12539; 42895; 65381; 65793]
  ; [186; 7506; 8304]
  ; [196; 1234]
  ; [197; 550]
  ; [214; 336; 1254]
  ; [222; 1015; 66756]
  ; [223; 946; 976; 5104; 42933; 120515; 120573; 120631; 120689; 120747]
  ; [228; 1235]
  ; [229; 551]
  ; [246; 1255; 1577; 1731; 9061; 65171; 65172] ].
Definition rows1 : list (list N) :=
  [ [247; 10135]
  ; [254; 447; 1016]
  ; [258; 461]
  ; [259; 462]
  ; [276; 282]
  ; [277; 283]
  ; [286; 486]
  ; [287; 487]
  ; [291; 501]
  ; [300; 463]
  ; [301; 464]
  ; [312; 954; 1008; 1082; 7435; 11413; 43958; 120523; 120542; 120581; 120600; 120639; 120658; 120697; 120716; 120755; 120774]
  ; [326; 626]
  ; [334; 465]
  ; [335; 466]
  ; [354; 538]
  ; [355; 427; 539; 5055]
  ; [364; 467]
  ; [365; 468]
  ; [389; 1100; 43935]
  ; [390; 1021; 8579; 42203; 66595]
  ; [398; 8707; 11578; 42225]
  ; [399; 1240]
  ; [400; 1296; 5067; 8455; 66561; 93997; 119329]
  ; [424; 1001; 7460; 42565]
  ; [425; 931; 8512; 8721; 11593; 120506; 120564; 120622; 120680; 120738]
  ; [433; 5678; 5684; 8487]
  ; [477; 601; 1241]
  ; [502; 1290]
  ; [541; 658; 1249; 4339; 11469; 42859]
  ; [567; 1397; 120485]
  ; [578; 43902]
  ; [581; 923; 1051; 1640; 1784; 5169; 11575; 42213; 42702; 66189; 66736; 94013; 120498; 120556; 120614; 120672; 120730]
  ; [587; 7568]
  ; [596; 891; 7440; 8580; 66635]
  ; [603; 949; 1013; 1108; 1297; 8948; 11401; 42899; 43931; 66601; 71886; 120518; 120540; 120576; 120598; 120634; 120656; 120692; 120714; 120750; 120772]
  ; [604; 1079; 7432]
  ; [606; 66626]
  ; [624; 1402; 4643]
  ; [631; 66623]
  ; [632; 966; 981; 1092; 11435; 120535; 120543; 120593; 120601; 120651; 120659; 120709; 120717; 120767; 120775]
  ; [639; 8489]
  ; [643; 8747; 43853]
  ; [652; 7463; 66776]
  ; [653; 1084; 7437; 43911]
  ; [664; 8857; 9737; 10752; 11609; 42600; 66755]
  ; [666; 42909; 66602]
  ; [673; 42701]
  ; [691; 6388]
  ; [703; 723; 1369]
  ; [705; 740]
  ; [711; 728; 42622]
  ; [719; 885]
  ; [729; 2417; 3406]
  ; [737; 6387]
  ; [738; 6363; 6389]
  ; [746; 763; 42774]
  ; [747; 42772]
  ; [755; 12290]
  ; [768; 832; 2387]
  ; [769; 833; 1436; 1437; 1560; 1614; 1863; 2388]
  ; [770; 785; 1627; 2030; 7376; 42736]
  ; [771; 834; 1619]
  ; [772; 773; 1625; 2027; 7378; 42737]
  ; [774; 780; 878; 1624; 1626; 42620]
  ; [775; 856; 1465; 1466; 1473; 1474; 1476; 1772; 1856; 1857; 2029; 2282; 2306; 2562; 2690; 3021]
  ; [776; 2035; 2283]
  ; [777; 12332]
  ; [778; 870; 1455; 1618; 1759; 2946; 3661; 3789; 4150; 6086; 6099; 11754; 12442; 70400]
  ; [779; 1611; 2288]
  ; [781; 1648]
  ; [782; 7386]
  ; [786; 1623]
  ; [787; 789; 835; 1561; 1615; 2291]
  ; [788; 1629]
  ; [790; 7405]
  ; [791; 1562; 1616]
  ; [800; 817; 2386]
  ; [801; 806; 807; 825]
  ; [802; 808; 837; 6839]
  ; [803; 1460; 1477; 1628; 2285; 2364; 2492; 2620; 2748; 2876; 7389; 68154; 70090; 70851]
  ; [804; 2286; 7390]
  ; [805; 3895; 12333]
  ; [809; 1622; 7388]
  ; [811; 7381]
  ; [813; 7385]
  ; [814; 7384]
  ; [819; 839]
  ; [821; 822]
  ; [823; 824]
  ; [848; 855; 2296; 2303]
  ; [850; 2304]
  ; [852; 2297]
  ; [853; 2298]
  ; [867; 11766]
  ; [868; 11767]
  ; [872; 11757]
  ; [879; 11759]
  ; [880; 5032; 5040; 11381; 42673]
  ; [886; 1048; 42657; 66597; 119307] ].
Definition rows2 : list (list N) :=
  [ [887; 1080; 7438; 66637]
  ; [893; 42815]
  ; [915; 1043; 5041; 5285; 8510; 11396; 93959; 120490; 120548; 120606; 120664; 120722]
  ; [916; 5123; 8710; 9651; 11398; 11616; 66181; 66211; 93978; 120491; 120549; 120607; 120665; 120723; 128770]
  ; [926; 120501; 120559; 120617; 120675; 120733]
  ; [928; 1055; 8511; 8719; 11424; 42715; 120503; 120561; 120619; 120677; 120735]
  ; [934; 1060; 1363; 4672; 5872; 11434; 66227; 120509; 120567; 120625; 120683; 120741]
  ; [936; 1136; 5848; 11438; 66229; 66769; 120511; 120569; 120627; 120685; 120743]
  ; [937; 5679; 5685; 8486; 66230; 120512; 120570; 120628; 120686; 120744]
  ; [948; 1390; 5495; 7839; 11833; 120517; 120575; 120633; 120691; 120749]
  ; [950; 120519; 120577; 120635; 120693; 120751]
  ; [955; 11414; 66779; 120524; 120582; 120640; 120698; 120756]
  ; [958; 120527; 120585; 120643; 120701; 120759]
  ; [960; 982; 1087; 7464; 8508; 120529; 120545; 120587; 120603; 120645; 120661; 120703; 120719; 120761; 120777]
  ; [962; 987; 120531; 120589; 120647; 120705; 120763]
  ; [967; 11437; 43859; 43861; 120536; 120594; 120652; 120710; 120768]
  ; [968; 1137; 66809; 120537; 120595; 120653; 120711; 120769]
  ; [969; 9077; 11441; 42573; 42935; 120538; 120596; 120654; 120712; 120770]
  ; [983; 11492]
  ; [984; 66221; 66322]
  ; [1004; 11484]
  ; [1023; 42814]
  ; [1028; 8364; 11400; 42898]
  ; [1035; 66765]
  ; [1037; 1049]
  ; [1064; 11452]
  ; [1069; 8456]
  ; [1081; 1117]
  ; [1083; 7467]
  ; [1096; 11453]
  ; [1103; 7449]
  ; [1113; 43872]
  ; [1120; 5063; 5615; 119330]
  ; [1206; 1227]
  ; [1207; 1228]
  ; [1219; 66748]
  ; [1278; 119298]
  ; [1339; 4782]
  ; [1348; 4614]
  ; [1352; 4704; 5198; 8745; 8898; 42229; 119365]
  ; [1354; 4899]
  ; [1356; 4705]
  ; [1364; 8381]
  ; [1393; 4756]
  ; [1430; 1453]
  ; [1432; 1454]
  ; [1433; 1448]
  ; [1434; 1444]
  ; [1488; 8501; 64289]
  ; [1489; 8502]
  ; [1490; 8503]
  ; [1491; 8504; 64290]
  ; [1492; 64291]
  ; [1499; 64292]
  ; [1500; 64293]
  ; [1501; 64294]
  ; [1506; 64288]
  ; [1512; 64295]
  ; [1514; 64296]
  ; [1548; 1644; 11826]
  ; [1551; 1593; 65225; 65226; 65227; 65228; 126479; 126511; 126543; 126575; 126607; 126639]
  ; [1563; 11829]
  ; [1567; 11822]
  ; [1569; 65152]
  ; [1570; 65153; 65154]
  ; [1576; 65167; 65168; 65169; 65170; 126465; 126497; 126561; 126593; 126625]
  ; [1578; 65173; 65174; 65175; 65176; 126485; 126517; 126581; 126613; 126645]
  ; [1580; 65181; 65182; 65183; 65184; 126466; 126498; 126530; 126562; 126594; 126626]
  ; [1581; 65185; 65186; 65187; 65188; 126471; 126503; 126535; 126567; 126599; 126631]
  ; [1582; 65189; 65190; 65191; 65192; 126487; 126519; 126551; 126583; 126615; 126647]
  ; [1583; 65193; 65194; 66273; 126467; 126595; 126627]
  ; [1584; 65195; 65196; 126488; 126616; 126648]
  ; [1585; 65197; 65198; 126483; 126611; 126643]
  ; [1586; 65199; 65200; 126470; 126598; 126630]
  ; [1587; 65201; 65202; 65203; 65204; 126478; 126510; 126542; 126574; 126606; 126638]
  ; [1589; 65209; 65210; 65211; 65212; 66290; 126481; 126513; 126545; 126577; 126609; 126641]
  ; [1590; 65213; 65214; 65215; 65216; 126489; 126521; 126553; 126585; 126617; 126649]
  ; [1591; 65217; 65218; 65219; 65220; 66280; 126472; 126568; 126600; 126632]
  ; [1592; 65221; 65222; 65223; 65224; 126490; 126586; 126618; 126650]
  ; [1594; 65229; 65230; 65231; 65232; 126491; 126523; 126555; 126587; 126619; 126651]
  ; [1601; 1703; 65233; 65234; 65235; 65236; 126480; 126512; 126576; 126608; 126640]
  ; [1602; 65237; 65238; 65239; 65240; 126482; 126514; 126546; 126578; 126610; 126642]
  ; [1603; 1705; 1706; 64398; 64399; 64400; 64401; 65241; 65242; 65243; 65244; 126474; 126506; 126570]
  ; [1604; 65245; 65246; 65247; 65248; 126475; 126507; 126539; 126603; 126635]
  ; [1605; 65249; 65250; 65251; 65252; 126476; 126508; 126572; 126604; 126636]
  ; [1606; 65253; 65254; 65255; 65256; 126477; 126509; 126541; 126573; 126605; 126637]
  ; [1608; 2225; 65261; 65262; 66276; 126469; 126597; 126629]
  ; [1609; 1610; 1646; 1722; 1740; 1746; 2237; 64414; 64415; 64430; 64431; 64488; 64489; 64508; 64509; 64510; 64511; 65263; 65264; 65265; 65266; 65267; 65268; 126473; 126492; 126493; 126505; 126537; 126557; 126569; 126588; 126601; 126633]
  ; [1612; 2277; 2280; 2289]
  ; [1613; 2290]
  ; [1621; 1631]
  ; [1634; 1778; 43471]
  ; [1635; 1779; 125129]
  ; [1636; 1780]
  ; [1638; 1782]
  ; [1641; 1785; 2407; 71908]
  ; [1647; 1697; 2235; 2236; 126494; 126495; 126559; 126590]
  ; [1649; 64336; 64337]
  ; [1658; 64350; 64351; 64352; 64353]
  ; [1659; 1744; 64338; 64339; 64340; 64341; 64484; 64485; 64486; 64487] ].
Definition rows3 : list (list N) :=
  [ [1663; 64354; 64355; 64356; 64357]
  ; [1664; 64346; 64347; 64348; 64349]
  ; [1667; 64374; 64375; 64376; 64377]
  ; [1668; 64370; 64371; 64372; 64373]
  ; [1670; 64378; 64379; 64380; 64381]
  ; [1671; 64382; 64383; 64384; 64385]
  ; [1676; 64388; 64389]
  ; [1677; 64386; 64387]
  ; [1702; 64366; 64367; 64368; 64369]
  ; [1708; 1890]
  ; [1711; 2224; 64402; 64403; 64404; 64405]
  ; [1713; 64410; 64411; 64412; 64413]
  ; [1715; 64406; 64407; 64408; 64409]
  ; [1728; 1730; 64420; 64421]
  ; [1733; 64480; 64481]
  ; [1747; 64432; 64433]
  ; [1755; 6836; 8411]
  ; [1852; 1858]
  ; [1876; 1895; 2217]
  ; [2362; 70091]
  ; [2365; 2749]
  ; [2369; 2753]
  ; [2370; 2754]
  ; [2374; 2635]
  ; [2381; 2637; 2765]
  ; [2404; 43056]
  ; [2408; 2792]
  ; [2409; 2793]
  ; [2410; 2794]
  ; [2414; 2798]
  ; [2416; 2800; 9900; 69819; 70087]
  ; [2435; 2563; 3075; 3203; 3331; 3459; 4152; 70849]
  ; [2456; 70802]
  ; [2458; 70804]
  ; [2460; 70806]
  ; [2462; 70808]
  ; [2463; 70809]
  ; [2465; 70811]
  ; [2467; 70826]
  ; [2468; 70814]
  ; [2469; 70815]
  ; [2470; 70816]
  ; [2471; 70817]
  ; [2472; 70818]
  ; [2474; 70819]
  ; [2476; 70825]
  ; [2478; 70823]
  ; [2479; 70824]
  ; [2480; 70827]
  ; [2482; 70813]
  ; [2487; 70829]
  ; [2488; 70830]
  ; [2493; 70852]
  ; [2494; 70832]
  ; [2495; 70833]
  ; [2503; 70841]
  ; [2507; 70844]
  ; [2508; 70846]
  ; [2509; 70850]
  ; [2519; 70845]
  ; [2535; 70865]
  ; [2536; 70866]
  ; [2540; 70870]
  ; [2949; 3054]
  ; [2952; 2992; 3006]
  ; [2953; 3048; 3337]
  ; [2958; 3053]
  ; [2960; 2972; 3356]
  ; [2965; 3047]
  ; [2970; 3050]
  ; [2979; 3363]
  ; [2985; 3016]
  ; [2991; 3056]
  ; [2995; 3031]
  ; [2996; 3380]
  ; [2998; 3382]
  ; [2999; 3064]
  ; [3007; 3391; 3392]
  ; [3059; 3061]
  ; [3077; 3205]
  ; [3078; 3206]
  ; [3079; 3207]
  ; [3090; 3218]
  ; [3100; 3228]
  ; [3102; 3230]
  ; [3107; 3235]
  ; [3119; 3247]
  ; [3121; 3249]
  ; [3122; 3250]
  ; [3175; 3303]
  ; [3176; 3304]
  ; [3183; 3311]
  ; [3358; 3425]
  ; [3376; 3377]
  ; [3393; 3394; 3395]
  ; [3490; 3562]
  ; [3503; 3563]
  ; [3586; 3587]
  ; [3588; 3604; 3605]
  ; [3590; 3617] ].
Definition rows4 : list (list N) :=
  [ [3592; 3720]
  ; [3594; 3595]
  ; [3598; 3599]
  ; [3601; 3607]
  ; [3610; 3738]
  ; [3611; 3739]
  ; [3613; 3741]
  ; [3614; 3742]
  ; [3615; 3743]
  ; [3616; 3622]
  ; [3618; 3725]
  ; [3631; 6100]
  ; [3634; 3653]
  ; [3636; 6071]
  ; [3637; 6072]
  ; [3638; 6073]
  ; [3639; 6074]
  ; [3640; 3768]
  ; [3641; 3769]
  ; [3656; 3784; 6091]
  ; [3657; 3785]
  ; [3658; 3786]
  ; [3659; 3787]
  ; [3663; 6105]
  ; [3674; 6101]
  ; [3675; 6106]
  ; [3851; 3852]
  ; [3938; 3946]
  ; [4053; 21328]
  ; [4054; 21325]
  ; [4161; 4197]
  ; [4256; 42886]
  ; [4352; 4520; 12593]
  ; [4354; 4523; 12596]
  ; [4355; 4526; 12599]
  ; [4357; 4527; 12601]
  ; [4358; 4535; 12609]
  ; [4359; 4536; 12610]
  ; [4361; 4538; 12613]
  ; [4363; 4540; 12615]
  ; [4364; 4541; 12616]
  ; [4366; 4542; 12618]
  ; [4367; 4543; 12619]
  ; [4368; 4544; 12620]
  ; [4369; 4545; 12621]
  ; [4370; 4546; 12622]
  ; [4416; 4587; 12671]
  ; [4428; 4592; 12673]
  ; [4441; 4601; 12678]
  ; [4448; 12644]
  ; [4449; 12623]
  ; [4451; 12625]
  ; [4453; 12627]
  ; [4455; 12629]
  ; [4457; 12631]
  ; [4461; 12635]
  ; [4462; 12636]
  ; [4466; 12640]
  ; [4467; 8212; 8213; 9472; 9473; 12032; 12540; 12641; 12752; 19968; 42999; 65293]
  ; [4469; 9116; 9119; 9122; 9125; 9130; 9134; 12033; 12643; 12753; 20008]
  ; [4510; 12685]
  ; [5103; 8182]
  ; [5153; 5329]
  ; [5161; 5440]
  ; [5173; 9065]
  ; [5200; 8835; 11815]
  ; [5257; 5635]
  ; [5264; 5634]
  ; [5331; 5636]
  ; [5338; 5639]
  ; [5443; 5666]
  ; [5446; 5667]
  ; [5450; 5668]
  ; [5557; 8498; 42206]
  ; [5559; 43003; 119344]
  ; [5572; 8704; 11375; 42223; 119319]
  ; [5586; 10923]
  ; [5589; 10922]
  ; [5601; 42231]
  ; [5702; 7611]
  ; [5728; 42221]
  ; [5817; 42672]
  ; [5820; 5857]
  ; [5821; 5826; 9087]
  ; [5835; 119359]
  ; [5839; 8593]
  ; [5840; 8639]
  ; [5850; 8638; 10785]
  ; [5852; 8900; 9671; 9674; 9826; 66196; 71863; 128852]
  ; [5854; 8904; 10781]
  ; [5862; 66768]
  ; [5864; 8597]
  ; [5871; 11619]
  ; [6050; 6051]
  ; [6197; 6229]
  ; [6236; 6294]
  ; [6356; 7610]
  ; [6358; 7486]
  ; [6558; 6608]
  ; [6577; 6609] ].
Definition rows5 : list (list N) :=
  [ [6725; 6784; 6800]
  ; [6925; 6994]
  ; [6929; 6995]
  ; [6952; 7000]
  ; [6992; 7004]
  ; [7476; 7544]
  ; [7499; 7583]
  ; [7501; 7586]
  ; [7647; 11752]
  ; [7662; 11756]
  ; [7747; 43857]
  ; [7834; 7843]
  ; [8061; 8180]
  ; [8285; 8942; 11607; 65049]
  ; [8286; 10649; 11586; 11837]
  ; [8313; 42864]
  ; [8376; 12306; 12342]
  ; [8425; 42607]
  ; [8471; 9413]
  ; [8513; 42216]
  ; [8514; 42230; 66577; 93990; 119317; 119339]
  ; [8515; 93952]
  ; [8516; 119323]
  ; [8606; 11244]
  ; [8607; 11245]
  ; [8608; 11246]
  ; [8609; 11247]
  ; [8626; 8629]
  ; [8634; 127246]
  ; [8706; 120539; 120597; 120655; 120713; 120771; 125132]
  ; [8709; 8960]
  ; [8711; 71848; 120513; 120571; 120629; 120687; 120745]
  ; [8718; 9608; 9632]
  ; [8720; 10815]
  ; [8736; 125128]
  ; [8743; 8896]
  ; [8756; 11819]
  ; [8757; 11818]
  ; [8759; 11820]
  ; [8776; 70110]
  ; [8783; 9806; 128862]
  ; [8801; 8803]
  ; [8845; 10755]
  ; [8846; 10756]
  ; [8847; 119352]
  ; [8848; 119353]
  ; [8851; 10757]
  ; [8852; 10758]
  ; [8853; 10753; 42650; 66216; 128808]
  ; [8855; 10754]
  ; [8859; 9055]
  ; [8864; 128881]
  ; [8865; 128853]
  ; [8869; 10178; 42197; 42929; 119324]
  ; [8882; 9665]
  ; [8883; 9655]
  ; [8967; 65076]
  ; [8978; 9696]
  ; [8985; 10813]
  ; [8996; 8997]
  ; [9001; 10092; 10216; 12296; 12367; 12763; 139240]
  ; [9002; 10093; 10217; 12297]
  ; [9019; 10695]
  ; [9022; 9678; 10686]
  ; [9025; 10692; 12348]
  ; [9026; 10693]
  ; [9033; 10672]
  ; [9035; 9155]
  ; [9038; 9154]
  ; [9045; 9153]
  ; [9069; 9158]
  ; [9096; 9784]
  ; [9180; 65077]
  ; [9181; 65078]
  ; [9182; 65079]
  ; [9183; 65080]
  ; [9184; 65081]
  ; [9185; 65082]
  ; [9189; 9649]
  ; [9211; 9212]
  ; [9214; 9790; 127768]
  ; [9312; 10112]
  ; [9313; 10113]
  ; [9314; 10114]
  ; [9315; 10115]
  ; [9316; 10116]
  ; [9317; 10117]
  ; [9318; 10118]
  ; [9319; 10119]
  ; [9320; 10120]
  ; [9321; 10121]
  ; [9406; 9435]
  ; [9450; 127245]
  ; [9474; 9475; 65073; 65372]
  ; [9484; 9487]
  ; [9500; 9507]
  ; [9612; 9616]
  ; [9622; 9623]
  ; [9624; 9629]
  ; [9633; 9744] ].
Definition rows6 : list (list N) :=
  [ [9642; 65517]
  ; [9654; 9656; 9658]
  ; [9661; 66236; 119316; 128772]
  ; [9765; 67998; 78585]
  ; [9767; 11497]
  ; [9769; 128778]
  ; [9776; 11446]
  ; [9789; 127762; 127769]
  ; [10214; 12314]
  ; [10215; 12315]
  ; [10650; 10713]
  ; [10710; 66240]
  ; [10719; 128826]
  ; [10783; 10814]
  ; [11327; 43410]
  ; [11376; 66591]
  ; [11382; 43904]
  ; [11496; 65952]
  ; [11584; 66232]
  ; [11906; 12758; 20059]
  ; [11907; 12767; 20058]
  ; [11909; 12452; 20155]
  ; [11913; 20994]
  ; [11915; 13630]
  ; [11918; 20800; 64012]
  ; [11919; 23587]
  ; [11920; 12074; 23586; 194677]
  ; [11922; 24051]
  ; [11923; 12083; 24186]
  ; [11924; 24401]
  ; [11926; 24516]
  ; [11927; 14586]
  ; [11928; 25164]
  ; [11929; 25909]
  ; [11931; 26081]
  ; [11934; 27514]
  ; [11935; 27597]
  ; [11936; 27665]
  ; [11937; 27701]
  ; [11938; 27706]
  ; [11939; 28780]
  ; [11940; 29227; 64073]
  ; [11942; 20012]
  ; [11944; 29357]
  ; [11947; 11954; 32594]
  ; [11949; 31035]
  ; [11951; 31993]
  ; [11953; 32595]
  ; [11961; 32770]
  ; [11962; 32896]
  ; [11966; 11967; 11968; 33401; 64093; 64094]
  ; [11969; 34382]
  ; [11970; 34916]
  ; [11971; 35200]
  ; [11972; 35199]
  ; [11973; 35265]
  ; [11976; 35744]
  ; [11977; 36125]
  ; [11979; 36710]
  ; [11980; 11981; 36790; 64102]
  ; [11983; 11990; 38429]
  ; [11984; 38021]
  ; [11985; 12199; 38263]
  ; [11986; 38264]
  ; [11987; 38271]
  ; [11988; 38376]
  ; [11992; 38738]
  ; [11993; 38886]
  ; [11994; 39029]
  ; [11995; 39118]
  ; [11996; 39134]
  ; [11997; 12215; 39135]
  ; [11999; 39136]
  ; [12000; 39267]
  ; [12002; 39532]
  ; [12004; 12225; 39740]
  ; [12005; 40060]
  ; [12008; 40614]
  ; [12009; 40644]
  ; [12011; 25993]
  ; [12012; 40784]
  ; [12013; 27503]
  ; [12014; 40831]
  ; [12015; 31452]
  ; [12016; 40857]
  ; [12018; 20096]
  ; [12019; 40863]
  ; [12036; 12768; 20057]
  ; [12037; 12762; 20101]
  ; [12038; 12491; 20108]
  ; [12039; 20128]
  ; [12040; 20154]
  ; [12041; 20799]
  ; [12042; 20837]
  ; [12043; 12495; 20843]
  ; [12044; 20866]
  ; [12045; 20886]
  ; [12046; 20907]
  ; [12047; 20960]
  ; [12048; 20981; 194589] ].
Definition rows7 : list (list N) :=
  [ [12049; 20992]
  ; [12050; 12459; 21147; 63882]
  ; [12051; 21241]
  ; [12052; 21269]
  ; [12053; 21274]
  ; [12054; 21304]
  ; [12055; 12344; 21313]
  ; [12056; 12488; 21340]
  ; [12057; 21353]
  ; [12058; 21378]
  ; [12059; 21430]
  ; [12060; 21448]
  ; [12061; 12062; 12525; 21475; 22231]
  ; [12063; 12064; 22303; 22763]
  ; [12065; 22786]
  ; [12066; 22794]
  ; [12067; 12479; 22805]
  ; [12068; 22823]
  ; [12069; 22899; 63873]
  ; [12070; 23376]
  ; [12071; 23424]
  ; [12072; 23544]
  ; [12073; 23567]
  ; [12075; 23608]
  ; [12076; 23662; 64060; 194680]
  ; [12077; 23665]
  ; [12078; 24027]
  ; [12079; 12456; 24037]
  ; [12080; 24049]
  ; [12081; 24062]
  ; [12082; 24178]
  ; [12084; 24191]
  ; [12085; 24308]
  ; [12086; 24318; 194704]
  ; [12087; 24331]
  ; [12088; 24339]
  ; [12089; 24400]
  ; [12090; 24417]
  ; [12091; 24435]
  ; [12092; 24515]
  ; [12093; 25096]
  ; [12094; 25142; 25144]
  ; [12095; 25163]
  ; [12096; 25903]
  ; [12097; 25908]
  ; [12098; 25991]
  ; [12099; 26007]
  ; [12100; 26020]
  ; [12101; 26041]
  ; [12102; 26080]
  ; [12103; 26085]
  ; [12104; 26352]
  ; [12105; 26376]
  ; [12106; 26408]
  ; [12107; 27424]
  ; [12108; 27490]
  ; [12109; 27513; 64149]
  ; [12110; 27571]
  ; [12111; 27595]
  ; [12112; 27604]
  ; [12113; 27611]
  ; [12114; 27663]
  ; [12115; 27668]
  ; [12116; 27700]
  ; [12117; 28779]
  ; [12118; 29226]
  ; [12119; 29238]
  ; [12120; 29243]
  ; [12121; 29247]
  ; [12122; 29255]
  ; [12123; 29273]
  ; [12124; 29275]
  ; [12125; 29356]
  ; [12126; 29572]
  ; [12127; 29577]
  ; [12128; 29916]
  ; [12129; 29926]
  ; [12130; 29976]
  ; [12131; 29983]
  ; [12132; 29992]
  ; [12133; 30000]
  ; [12134; 30091]
  ; [12135; 30098]
  ; [12136; 30326]
  ; [12137; 30333]
  ; [12138; 30382]
  ; [12139; 30399]
  ; [12140; 30446]
  ; [12141; 30683]
  ; [12142; 30690]
  ; [12143; 30707]
  ; [12144; 31034]
  ; [12145; 31160]
  ; [12146; 31166]
  ; [12147; 31348]
  ; [12148; 31435; 63991]
  ; [12149; 31481]
  ; [12150; 31859]
  ; [12151; 31992]
  ; [12152; 32566] ].
Definition rows8 : list (list N) :=
  [ [12153; 32593]
  ; [12154; 32650]
  ; [12155; 32701; 64030]
  ; [12156; 32769; 63796]
  ; [12157; 32780]
  ; [12158; 32786]
  ; [12159; 32819]
  ; [12160; 32895]
  ; [12161; 32905]
  ; [12162; 33251]
  ; [12163; 33258]
  ; [12164; 33267]
  ; [12165; 33276]
  ; [12166; 33292]
  ; [12167; 33307]
  ; [12168; 33311]
  ; [12169; 33390]
  ; [12170; 33394]
  ; [12171; 33400]
  ; [12172; 34381]
  ; [12173; 34411]
  ; [12174; 34880]
  ; [12175; 34892; 64008]
  ; [12176; 34915; 195012]
  ; [12177; 35198]
  ; [12178; 35211; 64010]
  ; [12179; 35282]
  ; [12180; 35328]
  ; [12181; 35895]
  ; [12182; 35910]
  ; [12183; 35925; 195026]
  ; [12184; 35960]
  ; [12185; 35997]
  ; [12186; 36196]
  ; [12187; 36208]
  ; [12188; 36275]
  ; [12189; 36523]
  ; [12190; 36554; 63746]
  ; [12191; 36763]
  ; [12192; 36784; 63857]
  ; [12193; 36789]
  ; [12194; 37009]
  ; [12195; 37193]
  ; [12196; 37318]
  ; [12197; 37324; 63977]
  ; [12198; 37329; 63754]
  ; [12200; 38272]
  ; [12201; 38428]
  ; [12202; 38582]
  ; [12203; 38585]
  ; [12204; 38632]
  ; [12205; 38737]
  ; [12206; 38750]
  ; [12207; 38754]
  ; [12208; 38761]
  ; [12209; 38859]
  ; [12210; 38893]
  ; [12211; 38899]
  ; [12212; 38913]
  ; [12213; 39080]
  ; [12214; 39131]
  ; [12216; 39318]
  ; [12217; 39321]
  ; [12218; 39340]
  ; [12219; 39592]
  ; [12220; 39640]
  ; [12221; 39647]
  ; [12222; 39717]
  ; [12223; 39727]
  ; [12224; 39730]
  ; [12226; 39770]
  ; [12227; 40165]
  ; [12228; 40565]
  ; [12229; 40575; 63808]
  ; [12230; 40613]
  ; [12231; 40635; 195093]
  ; [12232; 40643]
  ; [12233; 40653]
  ; [12234; 40657; 40658]
  ; [12235; 40697; 195095]
  ; [12236; 40701]
  ; [12237; 40718]
  ; [12238; 40723]
  ; [12239; 40736]
  ; [12240; 40763; 195100]
  ; [12241; 40778]
  ; [12242; 40786]
  ; [12243; 40845; 63940]
  ; [12244; 40860; 63751; 63752; 64206]
  ; [12245; 40864]
  ; [12316; 65374]
  ; [12345; 21316]
  ; [12346; 21317]
  ; [12408; 12504]
  ; [12443; 65438]
  ; [12444; 65439]
  ; [13470; 194572]
  ; [13497; 194579]
  ; [13499; 195018]
  ; [13535; 194591] ].
Definition rows9 : list (list N) :=
  [ [13589; 194596]
  ; [13704; 17307]
  ; [13885; 14771]
  ; [14062; 194663]
  ; [14076; 194664]
  ; [14209; 194678]
  ; [14383; 194691]
  ; [14434; 194696]
  ; [14460; 194698]
  ; [14535; 194710]
  ; [14563; 194715]
  ; [14620; 194722]
  ; [14650; 194721]
  ; [14894; 194754]
  ; [14913; 25609]
  ; [14956; 194759]
  ; [15066; 26358]
  ; [15076; 194769]
  ; [15112; 194768]
  ; [15129; 194766]
  ; [15157; 33014]
  ; [15162; 24144]
  ; [15163; 17440]
  ; [15177; 194782]
  ; [15261; 64210; 194791]
  ; [15267; 27113]
  ; [15384; 194798]
  ; [15438; 194802]
  ; [15667; 194826]
  ; [15766; 194838]
  ; [16044; 194858]
  ; [16056; 194860; 194861]
  ; [16155; 194867]
  ; [16380; 194878]
  ; [16392; 194879]
  ; [16408; 64211]
  ; [16441; 40899; 64212; 194889]
  ; [16447; 26211]
  ; [16454; 194891]
  ; [16534; 194892]
  ; [16611; 194897]
  ; [16687; 194904]
  ; [16898; 194912]
  ; [16935; 194916]
  ; [17056; 194919]
  ; [17153; 194925]
  ; [17204; 194929]
  ; [17241; 194932]
  ; [17365; 194945]
  ; [17369; 194775]
  ; [17419; 194948]
  ; [17475; 26406]
  ; [17515; 194958]
  ; [17707; 194983]
  ; [17757; 194990]
  ; [17761; 194991]
  ; [17771; 194994]
  ; [17879; 195007]
  ; [17913; 195010]
  ; [17973; 195016]
  ; [18102; 35358]
  ; [18110; 195021]
  ; [18119; 195022]
  ; [18837; 195055]
  ; [18918; 195058]
  ; [19054; 195064]
  ; [19062; 195065]
  ; [19122; 195068]
  ; [19251; 195075]
  ; [19406; 195080]
  ; [19662; 195085]
  ; [19693; 195086]
  ; [19704; 195089]
  ; [19798; 195094]
  ; [19981; 63847]
  ; [20006; 64112]
  ; [20018; 63749]
  ; [20024; 194561]
  ; [20025; 63838]
  ; [20029; 194560]
  ; [20033; 194562]
  ; [20098; 63771]
  ; [20102; 63930]
  ; [20142; 63863]
  ; [20160; 63997]
  ; [20172; 194585]
  ; [20196; 63912]
  ; [20320; 194564]
  ; [20341; 20482; 194567]
  ; [20352; 64115]
  ; [20358; 63789]
  ; [20363; 63925]
  ; [20398; 64048; 194565]
  ; [20411; 194566]
  ; [20415; 63845]
  ; [20516; 20540]
  ; [20523; 63956]
  ; [20602; 194568]
  ; [20633; 194569]
  ; [20687; 194571] ].
Definition rows10 : list (list N) :=
  [ [20698; 63931]
  ; [20711; 64049; 194570]
  ; [20805; 64116]
  ; [20813; 64050; 194574]
  ; [20820; 194575]
  ; [20836; 194576]
  ; [20839; 194580]
  ; [20840; 64114]
  ; [20841; 63864]
  ; [20845; 63953]
  ; [20855; 194577]
  ; [20864; 64117]
  ; [20877; 194581]
  ; [20882; 194770]
  ; [20885; 194771]
  ; [20887; 194583]
  ; [20900; 194584]
  ; [20908; 194586]
  ; [20917; 64113; 194587]
  ; [20919; 63790]
  ; [20937; 63865]
  ; [20940; 63829]
  ; [20956; 63828]
  ; [20958; 64021]
  ; [20995; 194590]
  ; [20999; 64000; 194640]
  ; [21015; 63900]
  ; [21033; 63965]
  ; [21050; 63999]
  ; [21051; 194592]
  ; [21062; 194593]
  ; [21106; 194594]
  ; [21111; 194595]
  ; [21129; 63943]
  ; [21155; 63901]
  ; [21171; 194962]
  ; [21191; 64118; 194597]
  ; [21193; 64051; 194598]
  ; [21202; 63826]
  ; [21214; 63791]
  ; [21220; 64052; 194599]
  ; [21237; 63871]
  ; [21242; 64119; 194600]
  ; [21253; 194601]
  ; [21254; 194602]
  ; [21271; 63843; 194603]
  ; [21311; 63979]
  ; [21321; 194604]
  ; [21329; 64053; 194605]
  ; [21338; 194606]
  ; [21363; 194607]
  ; [21365; 63772]
  ; [21373; 194608]
  ; [21375; 194609; 194610; 194611]
  ; [21443; 63851]
  ; [21450; 194614]
  ; [21471; 194615]
  ; [21477; 63750]
  ; [21483; 194617]
  ; [21489; 194618]
  ; [21510; 194619]
  ; [21519; 63966]
  ; [21533; 63981]
  ; [21560; 194621]
  ; [21570; 63872]
  ; [21576; 194622]
  ; [21608; 194623]
  ; [21662; 194620]
  ; [21666; 194624]
  ; [21693; 63902]
  ; [21750; 194625]
  ; [21776; 194626]
  ; [21843; 21855; 194627]
  ; [21845; 64121]
  ; [21859; 194628]
  ; [21892; 194629; 194630]
  ; [21895; 63755]
  ; [21913; 64122; 194631]
  ; [21917; 64054; 64120]
  ; [21931; 194632]
  ; [21939; 194633]
  ; [21952; 64013]
  ; [21954; 194634]
  ; [21986; 64123]
  ; [22022; 64055; 194636]
  ; [22097; 194638]
  ; [22120; 64056]
  ; [22132; 194639]
  ; [22265; 63913]
  ; [22294; 194635]
  ; [22295; 194637]
  ; [22411; 194645]
  ; [22478; 194642]
  ; [22516; 194643]
  ; [22541; 194644]
  ; [22577; 194647]
  ; [22578; 194646]
  ; [22592; 64057]
  ; [22618; 64016; 64124]
  ; [22622; 63852] ].
Definition rows11 : list (list N) :=
  [ [22625; 22635]
  ; [22696; 64058]
  ; [22699; 22783]
  ; [22700; 194648]
  ; [22707; 64125]
  ; [22744; 63818]
  ; [22751; 63810]
  ; [22766; 194641]
  ; [22770; 194650]
  ; [22775; 194651]
  ; [22790; 194652]
  ; [22810; 194653]
  ; [22818; 194654]
  ; [22852; 64126]
  ; [22856; 63756]
  ; [22865; 63753]
  ; [22868; 64127]
  ; [22882; 194655]
  ; [23000; 194661]
  ; [23020; 194658]
  ; [23067; 194659]
  ; [23079; 194660]
  ; [23138; 64128]
  ; [23142; 194662]
  ; [23215; 23296]
  ; [23221; 194950]
  ; [23304; 194665]
  ; [23336; 64129]
  ; [23358; 194666; 194667]
  ; [23429; 64004]
  ; [23491; 194669]
  ; [23512; 194670]
  ; [23527; 63839; 63914; 194671]
  ; [23534; 63932]
  ; [23539; 194672]
  ; [23551; 194674]
  ; [23558; 194675]
  ; [23615; 63933]
  ; [23648; 194679]
  ; [23650; 63819]
  ; [23652; 64059]
  ; [23653; 63967]
  ; [23693; 194682]
  ; [23744; 194681]
  ; [23833; 63957]
  ; [23875; 194684]
  ; [23888; 63777]
  ; [23915; 194687]
  ; [23918; 194686]
  ; [23932; 194688]
  ; [23986; 195060]
  ; [23994; 63915]
  ; [24033; 194689]
  ; [24034; 194690]
  ; [24061; 194692]
  ; [24097; 24114]
  ; [24104; 194693]
  ; [24125; 194694]
  ; [24169; 194695]
  ; [24180; 63886]
  ; [24230; 64001]
  ; [24240; 194699]
  ; [24243; 194700]
  ; [24246; 194701]
  ; [24265; 63906]
  ; [24266; 63784; 194702]
  ; [24274; 64130]
  ; [24275; 64011]
  ; [24281; 64131]
  ; [24300; 63874]
  ; [24324; 63811]
  ; [24354; 194708; 194709]
  ; [24403; 194676]
  ; [24418; 194713]
  ; [24425; 64132]
  ; [24427; 194714]
  ; [24459; 63960]
  ; [24474; 194716]
  ; [24489; 63846]
  ; [24493; 64133]
  ; [24525; 194717]
  ; [24535; 194718]
  ; [24565; 63907]
  ; [24569; 194719]
  ; [24594; 63840]
  ; [24604; 63916]
  ; [24693; 64107]
  ; [24705; 194720]
  ; [24724; 64061; 194723]
  ; [24775; 194725]
  ; [24792; 64134]
  ; [24801; 63929]
  ; [24840; 64136]
  ; [24900; 63961]
  ; [24904; 194726]
  ; [24908; 194727; 194729]
  ; [24910; 64135; 194728]
  ; [24928; 64138]
  ; [24936; 64062]
  ; [24954; 194730] ].
Definition rows12 : list (list N) :=
  [ [24974; 64063; 64137; 194731]
  ; [24976; 63887]
  ; [24996; 194733]
  ; [25007; 194734]
  ; [25010; 194732]
  ; [25054; 194735]
  ; [25074; 64064; 64139; 194736]
  ; [25078; 63757; 194737]
  ; [25088; 63888]
  ; [25104; 194738]
  ; [25115; 194739]
  ; [25134; 63954]
  ; [25140; 64140]
  ; [25181; 194740]
  ; [25265; 194741]
  ; [25289; 63781]
  ; [25295; 63835]
  ; [25299; 64002]
  ; [25300; 194742]
  ; [25340; 194746]
  ; [25342; 63859]
  ; [25405; 194745]
  ; [25424; 194743]
  ; [25448; 194747]
  ; [25467; 63908]
  ; [25475; 194748]
  ; [25504; 63861]
  ; [25513; 194753]
  ; [25540; 64141]
  ; [25541; 194752]
  ; [25572; 194749]
  ; [25628; 64142]
  ; [25634; 194751]
  ; [25682; 64143]
  ; [25705; 194755]
  ; [25719; 194758]
  ; [25726; 194756]
  ; [25754; 63889]
  ; [25757; 194757]
  ; [25796; 63792]
  ; [25935; 64065; 194760]
  ; [25942; 64144]
  ; [25964; 194761]
  ; [25976; 63849]
  ; [26009; 63934]
  ; [26053; 63875]
  ; [26082; 64066]
  ; [26083; 194763]
  ; [26131; 63968]
  ; [26185; 194765]
  ; [26202; 26217]
  ; [26228; 64018; 64145]
  ; [26248; 63941]
  ; [26257; 64067; 194767]
  ; [26268; 194773]
  ; [26292; 64006]
  ; [26310; 63883]
  ; [26356; 63745]
  ; [26360; 194764]
  ; [26368; 194772]
  ; [26380; 32934]
  ; [26383; 32976]
  ; [26384; 32970]
  ; [26387; 33025]
  ; [26391; 63785; 64146; 194776]
  ; [26392; 33063]
  ; [26395; 64147; 194777]
  ; [26401; 194778]
  ; [26403; 33191]
  ; [26446; 63969]
  ; [26451; 194780]
  ; [26454; 64148]
  ; [26462; 194779]
  ; [26478; 26623]
  ; [26491; 63944]
  ; [26501; 194784]
  ; [26519; 63988]
  ; [26611; 63945]
  ; [26618; 194783]
  ; [26647; 63962]
  ; [26655; 194789]
  ; [26706; 194785]
  ; [26753; 63866]
  ; [26757; 64068; 194786]
  ; [26766; 194788]
  ; [26792; 63970]
  ; [26900; 194790]
  ; [26946; 194792]
  ; [27037; 27175]
  ; [27043; 194793]
  ; [27114; 194794]
  ; [27138; 63764; 63836; 63935]
  ; [27155; 63820]
  ; [27304; 194795]
  ; [27347; 63793]
  ; [27355; 194797]
  ; [27396; 63773]
  ; [27425; 194799]
  ; [27476; 194801]
  ; [27506; 194803] ].
Definition rows13 : list (list N) :=
  [ [27511; 63884]
  ; [27551; 194804]
  ; [27566; 63909]
  ; [27578; 63856; 64150; 194805]
  ; [27579; 194806]
  ; [27726; 194810]
  ; [27751; 194814]
  ; [27784; 63858]
  ; [27839; 194812]
  ; [27852; 63848]
  ; [27853; 194813]
  ; [27877; 63971]
  ; [27926; 194815]
  ; [27931; 63765]
  ; [27934; 64005]
  ; [27956; 194823]
  ; [27966; 194816]
  ; [27969; 63946; 64151; 194818]
  ; [28009; 194819]
  ; [28010; 63786]
  ; [28023; 64069; 194817]
  ; [28024; 194820]
  ; [28037; 194821]
  ; [28107; 63989]
  ; [28122; 63821]
  ; [28138; 63958]
  ; [28153; 194830]
  ; [28186; 64070]
  ; [28207; 194824]
  ; [28270; 194825]
  ; [28296; 28505]
  ; [28316; 63947]
  ; [28346; 63980]
  ; [28359; 194828]
  ; [28363; 64153; 194827]
  ; [28369; 63748]
  ; [28379; 64152]
  ; [28431; 63822]
  ; [28450; 64071; 64154]
  ; [28451; 63890]
  ; [28526; 194831]
  ; [28614; 194834]
  ; [28651; 63778]
  ; [28670; 63876]
  ; [28699; 194837]
  ; [28702; 64155; 194836]
  ; [28729; 194835]
  ; [28746; 194839]
  ; [28784; 194613]
  ; [28791; 194841]
  ; [28797; 194840]
  ; [28825; 63995]
  ; [28845; 194842]
  ; [28872; 63903]
  ; [28889; 63766]
  ; [28997; 194844]
  ; [29001; 63891]
  ; [29038; 64072; 64156]
  ; [29084; 194846]
  ; [29134; 63936]
  ; [29136; 63982]
  ; [29200; 63794]
  ; [29211; 63774]
  ; [29224; 194848]
  ; [29237; 64158; 194849]
  ; [29264; 194850]
  ; [29282; 63814]
  ; [29312; 194852]
  ; [29333; 194853]
  ; [29359; 64159]
  ; [29376; 63994]
  ; [29436; 63787]
  ; [29482; 64022; 64160]
  ; [29557; 63911]
  ; [29562; 194856]
  ; [29575; 63841; 63963]
  ; [29579; 194857]
  ; [29605; 194859]
  ; [29618; 63917]
  ; [29662; 63767]
  ; [29702; 63972]
  ; [29705; 63948]
  ; [29730; 64074]
  ; [29767; 194862]
  ; [29788; 194863]
  ; [29801; 63918]
  ; [29809; 64161; 194864]
  ; [29829; 194865]
  ; [29833; 63892]
  ; [29848; 63983]
  ; [29898; 194866]
  ; [29958; 64162]
  ; [29988; 194868]
  ; [30011; 64163]
  ; [30014; 194870]
  ; [30041; 63949]
  ; [30053; 63862]
  ; [30064; 63842; 194872]
  ; [30178; 63973]
  ; [30224; 194874] ].
Definition rows14 : list (list N) :=
  [ [30237; 64164]
  ; [30239; 64165]
  ; [30274; 63937]
  ; [30313; 63758]
  ; [30410; 64023; 64166]
  ; [30427; 64167]
  ; [30439; 63795]
  ; [30452; 64168; 194880]
  ; [30465; 63853]
  ; [30494; 194885]
  ; [30495; 194886; 194887]
  ; [30528; 64170]
  ; [30538; 64169; 194888]
  ; [30603; 194890]
  ; [30631; 64157]
  ; [30740; 30799]
  ; [30798; 194894]
  ; [30827; 63950]
  ; [30860; 63803; 194895]
  ; [30865; 64075]
  ; [30922; 63815]
  ; [30924; 64171; 194896]
  ; [30971; 63844]
  ; [31018; 63877]
  ; [31036; 64024]
  ; [31038; 64076]
  ; [31048; 64078]
  ; [31049; 64077]
  ; [31056; 64079]
  ; [31062; 64080; 194899]
  ; [31069; 64081]
  ; [31070; 64025]
  ; [31077; 64026]
  ; [31103; 63804]
  ; [31117; 64082]
  ; [31118; 64083]
  ; [31119; 64027; 194902]
  ; [31150; 63926]
  ; [31178; 63893]
  ; [31211; 194903]
  ; [31260; 63830]
  ; [31296; 64084; 194905]
  ; [31306; 194906]
  ; [31311; 194907]
  ; [31361; 64085]
  ; [31409; 64172]
  ; [31470; 194911]
  ; [31520; 63992]
  ; [31680; 64086; 64173]
  ; [31686; 194914]
  ; [31689; 194915]
  ; [31806; 63910]
  ; [31840; 63812]
  ; [31867; 64174]
  ; [31890; 63993]
  ; [31934; 64029]
  ; [31954; 194918]
  ; [31958; 64003]
  ; [31971; 194921]
  ; [31975; 63867]
  ; [31976; 194920]
  ; [32000; 194922]
  ; [32016; 63951]
  ; [32034; 63850]
  ; [32047; 63823]
  ; [32085; 32118]
  ; [32091; 64175]
  ; [32099; 194924]
  ; [32160; 63805]
  ; [32190; 63831]
  ; [32199; 194926]
  ; [32244; 63894; 64087; 64176]
  ; [32258; 194927]
  ; [32265; 64088]
  ; [32311; 63824]
  ; [32321; 64089]
  ; [32325; 194928]
  ; [32574; 64177]
  ; [32626; 64090]
  ; [32633; 63974]
  ; [32634; 194934]
  ; [32645; 63759]
  ; [32661; 194936]
  ; [32666; 63919]
  ; [32762; 194937]
  ; [32773; 64091; 64178; 194938]
  ; [32838; 63920]
  ; [32864; 194941]
  ; [32879; 63895]
  ; [32880; 194943]
  ; [32894; 63813]
  ; [32907; 63827]
  ; [32941; 194774]
  ; [32946; 194946]
  ; [33020; 33089]
  ; [33027; 194947]
  ; [33086; 194949]
  ; [33240; 63782]
  ; [33256; 63990]
  ; [33261; 64092] ].
Definition rows15 : list (list N) :=
  [ [33281; 194707; 194955]
  ; [33284; 194956]
  ; [33304; 64109]
  ; [33391; 63868]
  ; [33419; 194960]
  ; [33425; 194959]
  ; [33437; 194961]
  ; [33457; 194963]
  ; [33459; 194964]
  ; [33469; 194965]
  ; [33509; 63860; 194968]
  ; [33510; 194966]
  ; [33565; 194969]
  ; [33571; 194972]
  ; [33590; 63998]
  ; [33618; 64179]
  ; [33619; 194976]
  ; [33635; 194970]
  ; [33709; 194971]
  ; [33725; 194973]
  ; [33737; 63806]
  ; [33738; 194977]
  ; [33740; 194978]
  ; [33756; 194979]
  ; [33767; 194974]
  ; [33775; 64180]
  ; [33777; 63832]
  ; [33853; 63768]
  ; [33865; 63854]
  ; [33879; 64095; 194975]
  ; [33933; 34111]
  ; [34030; 63897]
  ; [34033; 194984]
  ; [34035; 194985]
  ; [34044; 63938]
  ; [34070; 194986]
  ; [34148; 194988]
  ; [34253; 63779]
  ; [34298; 63984]
  ; [34310; 63797]
  ; [34322; 64032]
  ; [34349; 63775]
  ; [34359; 34369]
  ; [34367; 63760]
  ; [34384; 194995]
  ; [34396; 63798; 194996]
  ; [34407; 194997]
  ; [34409; 194998]
  ; [34440; 195000]
  ; [34473; 194999]
  ; [34530; 195002]
  ; [34574; 195001]
  ; [34600; 195004]
  ; [34667; 195005]
  ; [34681; 64181; 195003]
  ; [34694; 195006]
  ; [34746; 63761]
  ; [34785; 195008]
  ; [34817; 195009]
  ; [34847; 63783]
  ; [34912; 195011]
  ; [35010; 63904]
  ; [35023; 63975]
  ; [35031; 195014]
  ; [35038; 195015]
  ; [35041; 63976]
  ; [35064; 63762]
  ; [35066; 195017]
  ; [35088; 64096]
  ; [35137; 64182]
  ; [35172; 63780]
  ; [35206; 64183]
  ; [35222; 64097; 64184]
  ; [35374; 35453]
  ; [35488; 195023]
  ; [35498; 63855; 63905]
  ; [35519; 64185]
  ; [35531; 64187]
  ; [35538; 63869]
  ; [35542; 63809]
  ; [35565; 64190; 195024]
  ; [35576; 64034; 64186]
  ; [35582; 63837; 64189]
  ; [35585; 64098; 64188]
  ; [35641; 64099; 64191]
  ; [35672; 63996]
  ; [35712; 63834]
  ; [35718; 35727]
  ; [35722; 64192; 195025]
  ; [35912; 63744]
  ; [35932; 35939]
  ; [36011; 195028]
  ; [36033; 195029]
  ; [36034; 63816]
  ; [36040; 63747]
  ; [36051; 64100]
  ; [36104; 64101; 64193]
  ; [36123; 195030]
  ; [36215; 195031]
  ; [36223; 36230] ].
Definition rows16 : list (list N) :=
  [ [36284; 195035]
  ; [36299; 195034]
  ; [36325; 36346]
  ; [36335; 63799]
  ; [36336; 195036]
  ; [36503; 36507]
  ; [36564; 195038]
  ; [36607; 36647]
  ; [36646; 63896]
  ; [36650; 63959]
  ; [36664; 64194; 195039]
  ; [36667; 64007]
  ; [36706; 63885]
  ; [36766; 194957]
  ; [36899; 63898]
  ; [36920; 64037; 64103]
  ; [36978; 64195]
  ; [36988; 63939]
  ; [37007; 63763]
  ; [37012; 195042]
  ; [37070; 37086; 63788; 64046]
  ; [37105; 195043]
  ; [37117; 64038]
  ; [37137; 195044]
  ; [37147; 195046]
  ; [37226; 63769]
  ; [37273; 64196]
  ; [37300; 63927]
  ; [37327; 63870]
  ; [37428; 63921]
  ; [37432; 195047]
  ; [37494; 64197]
  ; [37500; 195050]
  ; [37591; 195048]
  ; [37592; 195049]
  ; [37636; 63807]
  ; [37706; 63899]
  ; [37805; 37806]
  ; [37881; 195051]
  ; [37909; 195052]
  ; [38283; 195054]
  ; [38317; 63878]
  ; [38327; 195056]
  ; [38446; 63942]
  ; [38475; 63825]
  ; [38477; 64009]
  ; [38517; 63833]
  ; [38520; 63955]
  ; [38524; 64198]
  ; [38534; 63964]
  ; [38563; 63985]
  ; [38583; 38584; 63928; 64047]
  ; [38595; 195059]
  ; [38626; 63978]
  ; [38627; 64104; 64199]
  ; [38646; 63922]
  ; [38647; 63817]
  ; [38691; 195061]
  ; [38706; 63800]
  ; [38728; 63923]
  ; [38742; 64028; 64200]
  ; [38875; 64201]
  ; [38880; 195066]
  ; [38911; 64105; 64202]
  ; [38923; 64203; 195070; 195071]
  ; [38936; 63924]
  ; [38953; 195072]
  ; [38971; 64106; 64204]
  ; [39006; 63952]
  ; [39138; 195074]
  ; [39151; 64042]
  ; [39164; 64043]
  ; [39208; 64044]
  ; [39209; 195076]
  ; [39335; 195077]
  ; [39362; 195078]
  ; [39409; 63770]
  ; [39422; 195079]
  ; [39530; 63879]
  ; [39698; 64205; 195082]
  ; [39791; 63801]
  ; [40000; 195083]
  ; [40023; 63986]
  ; [40189; 195084]
  ; [40295; 195087]
  ; [40372; 64045]
  ; [40442; 63802]
  ; [40478; 63776]
  ; [40514; 40515]
  ; [40599; 63880]
  ; [40607; 63987]
  ; [40654; 63881]
  ; [40702; 195096]
  ; [40709; 195097]
  ; [40719; 195098]
  ; [40726; 195099]
  ; [40771; 64216]
  ; [40846; 64217]
  ; [41034; 42142]
  ; [41040; 42156] ].
Definition rows17 : list (list N) :=
  [ [41152; 42140]
  ; [41266; 42152]
  ; [41561; 42175]
  ; [41649; 42174]
  ; [41677; 42132]
  ; [41899; 42176]
  ; [41909; 42178]
  ; [41919; 42170]
  ; [41922; 42160]
  ; [42072; 42151]
  ; [42212; 42910]
  ; [42572; 42934]
  ; [42584; 93980; 128769]
  ; [42601; 66795]
  ; [42791; 42901]
  ; [42873; 42874]
  ; [42906; 66578]
  ; [42907; 66618]
  ; [43259; 70108]
  ; [43260; 70107]
  ; [43421; 43427]
  ; [43462; 43472]
  ; [43521; 43603]
  ; [43555; 43606]
  ; [64108; 148206]
  ; [64207; 141386]
  ; [64208; 141380]
  ; [64209; 144341]
  ; [64213; 152137]
  ; [64214; 154832]
  ; [64215; 163539]
  ; [64285; 64313]
  ; [64298; 64299; 64329]
  ; [64300; 64301]
  ; [64302; 64303; 64304]
  ; [65087; 65342]
  ; [66434; 66513]
  ; [66451; 66515]
  ; [66458; 73784]
  ; [66694; 66720]
  ; [68738; 68860]
  ; [68773; 68858]
  ; [71042; 71128; 71129]
  ; [71043; 71130]
  ; [71044; 71131]
  ; [71090; 71132]
  ; [71091; 71133]
  ; [72874; 72882]
  ; [131362; 194563]
  ; [132380; 194578]
  ; [132389; 194843]
  ; [132427; 194582]
  ; [132666; 194573]
  ; [133124; 195033]
  ; [133342; 195037]
  ; [133676; 194612]
  ; [133987; 194616]
  ; [136420; 194649]
  ; [136872; 194656]
  ; [136938; 194657]
  ; [137672; 194668]
  ; [138008; 194673]
  ; [138507; 194808]
  ; [138724; 194683]
  ; [138726; 194685]
  ; [139651; 194697]
  ; [139679; 194873]
  ; [140081; 194705; 194706]
  ; [141012; 194724]
  ; [142092; 194744]
  ; [142321; 194750]
  ; [143370; 194762]
  ; [144056; 194711]
  ; [144223; 194944]
  ; [144275; 194953]
  ; [144284; 194954]
  ; [144323; 194781]
  ; [144493; 194787]
  ; [145059; 194796]
  ; [145575; 194800]
  ; [146061; 194807]
  ; [146170; 194809]
  ; [146620; 194811]
  ; [146718; 194822]
  ; [147153; 194829]
  ; [147294; 194832]
  ; [147342; 194833]
  ; [148067; 194845]
  ; [148395; 194847]
  ; [149000; 194851]
  ; [149301; 194854]
  ; [149524; 194855]
  ; [150582; 194869]
  ; [150674; 194871]
  ; [151457; 194875]
  ; [151480; 194876]
  ; [151620; 194877]
  ; [151794; 194882]
  ; [151795; 194881]
  ; [151833; 194883] ].
Definition rows18 : list (list N) :=
  [ [151859; 194884]
  ; [152605; 194893]
  ; [153126; 194898]
  ; [153242; 194900]
  ; [153285; 194901]
  ; [153980; 194908]
  ; [154279; 194909; 194910]
  ; [154539; 194913]
  ; [154752; 194917]
  ; [155526; 194923]
  ; [156122; 194712]
  ; [156200; 194930]
  ; [156231; 194931]
  ; [156377; 194933]
  ; [156478; 194935]
  ; [156890; 194939]
  ; [156963; 194940]
  ; [157096; 194942]
  ; [157607; 194951]
  ; [157621; 194952]
  ; [158524; 194967]
  ; [158774; 194980]
  ; [158933; 194982]
  ; [159083; 194981]
  ; [159532; 194989]
  ; [159665; 194992]
  ; [159954; 194993]
  ; [160714; 194987]
  ; [161383; 195013]
  ; [161966; 195019]
  ; [162150; 195020]
  ; [162984; 195027]
  ; [163631; 195032]
  ; [165330; 195040]
  ; [165357; 195041]
  ; [165678; 195045]
  ; [166906; 195053]
  ; [167287; 195057]
  ; [168261; 195062]
  ; [168415; 194588]
  ; [168474; 195063]
  ; [168970; 195067]
  ; [169110; 195069]
  ; [169398; 195073]
  ; [170800; 195081]
  ; [172238; 195088]
  ; [172293; 195090]
  ; [172558; 195091]
  ; [172689; 195092]
  ; [172946; 194703]
  ; [173568; 195101] ].

(** the lines of the file, in order *)
Definition confusable_rows : list (list N) :=
  rows0 ++ rows1 ++ rows2 ++ rows3 ++ rows4 ++ rows5 ++ rows6 ++ rows7 ++ rows8 ++ rows9 ++ rows10 ++ rows11 ++ rows12 ++ rows13 ++ rows14 ++ rows15 ++ rows16 ++ rows17 ++ rows18.
