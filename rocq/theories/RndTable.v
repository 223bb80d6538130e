(** static double rnd[MAXRND] (rnd.c:34-750): the 5000 decimals of the source, times 10^6 *)
From Coq Require Import ZArith List.
Import ListNotations.
Local Open Scope Z_scope.
Definition rnd : list Z :=
  [125341; 544604; 414346; 583974; 174296; 961711; 690130; 292579; 562515; 109384; 823356; 714925; 841857; 481093; 448740; 533222; 116015; 745627; 391775; 68052;
   350539; 739208; 712224; 128878; 695183; 796589; 460657; 170030; 598239; 450458; 697441; 723580; 995062; 111787; 307554; 169358; 73498; 997683; 461937; 636013;
   107068; 285293; 350938; 948924; 766386; 799678; 482146; 882401; 545306; 873921; 950452; 895845; 613129; 662676; 24722; 308312; 459265; 485379; 478342; 57504;
   935837; 175782; 781084; 930899; 287569; 88638; 100257; 361067; 86321; 562194; 997080; 193389; 847487; 348018; 142314; 613873; 147696; 624459; 496274; 693002;
   498380; 446726; 588847; 111509; 109403; 613569; 419821; 568668; 98948; 898162; 626172; 34785; 73945; 407257; 965684; 361514; 495895; 65940; 722581; 582216;
   628134; 719660; 775606; 475621; 67678; 917919; 89494; 215375; 542379; 585768; 908377; 40759; 32494; 497224; 152267; 141897; 110793; 572088; 710564; 209741;
   470251; 336737; 244526; 544195; 743994; 210210; 905709; 239889; 276150; 628290; 822105; 904284; 347950; 597711; 379905; 415628; 515630; 469399; 631003; 58008;
   55166; 539380; 98767; 87660; 36604; 251035; 229557; 147397; 823123; 940121; 357138; 293373; 276858; 601664; 837569; 20852; 811873; 743278; 260741; 88024;
   371568; 82846; 992308; 719518; 680556; 372213; 135147; 196186; 841612; 766150; 254195; 896778; 305530; 352962; 984438; 342134; 603997; 213995; 489531; 427119;
   154117; 846668; 720493; 430975; 448332; 558062; 451827; 260206; 301340; 712567; 348229; 672908; 795413; 340537; 392427; 475970; 712750; 527573; 672156; 554361;
   293723; 926351; 451140; 599253; 279313; 435578; 941387; 883309; 649573; 430918; 310429; 803690; 277586; 30922; 234665; 725918; 588984; 686492; 986124; 890324;
   399059; 334353; 563232; 194472; 674890; 955659; 670442; 387640; 483232; 342598; 942001; 776955; 268949; 393141; 376209; 548261; 828719; 317596; 431571; 478292;
   748514; 742000; 281982; 26100; 772922; 516647; 752018; 361905; 203138; 738142; 252229; 602197; 72494; 815461; 796669; 747384; 771120; 467111; 135024; 254352;
   809709; 77025; 31307; 78658; 470166; 407516; 626919; 298884; 725112; 58490; 777176; 473626; 800490; 59158; 499725; 573411; 575805; 251743; 935317; 778943;
   989885; 187546; 381140; 62380; 3007; 177810; 809764; 774127; 644921; 944788; 28479; 454630; 21813; 59786; 533287; 491978; 467302; 160206; 790862; 192414;
   218696; 568039; 666039; 19186; 627197; 165765; 592598; 203001; 417508; 527914; 981944; 407393; 715460; 363084; 469773; 718467; 540894; 279537; 492594; 185815;
   224324; 521073; 640444; 246137; 580859; 173731; 738115; 48161; 333938; 528978; 240575; 552634; 97016; 906614; 571820; 724213; 72379; 164418; 927214; 489887;
   692332; 909158; 897280; 407792; 272242; 367053; 126260; 813136; 646590; 618854; 998951; 870914; 139927; 639395; 117051; 720786; 813126; 855166; 768946; 147064;
   384144; 9521; 699698; 481161; 916135; 271518; 205374; 988514; 435936; 132588; 478401; 128268; 41746; 375681; 536060; 313988; 742733; 662320; 127124; 389323;
   281173; 126074; 260237; 421100; 765469; 377288; 141885; 578596; 232455; 910832; 725659; 616599; 920353; 425357; 97760; 836488; 696876; 303133; 825002; 132811;
   435721; 303403; 261079; 477466; 679083; 797139; 791454; 421817; 459459; 918578; 811140; 740632; 44653; 71377; 161732; 810122; 448665; 303618; 388718; 681120;
   214450; 114377; 297719; 134803; 539735; 395478; 971291; 236610; 698611; 796293; 369421; 134332; 99696; 630500; 611798; 778779; 427640; 403253; 200596; 887099;
   321831; 11736; 627731; 366484; 83113; 789464; 176606; 531778; 93081; 565323; 212898; 307531; 679701; 510617; 442334; 219435; 906095; 413625; 456045; 604706;
   209919; 825466; 739038; 309614; 455967; 350836; 88394; 883607; 754089; 288990; 770706; 75920; 300725; 398437; 442404; 383838; 187901; 619010; 915616; 280982;
   184334; 128514; 588513; 864034; 639130; 30847; 83469; 545225; 444473; 539514; 149931; 654391; 364981; 888969; 964006; 820948; 239806; 52399; 704554; 993895;
   341389; 475260; 69815; 642114; 873697; 512219; 25952; 61597; 131229; 941568; 342579; 315563; 70082; 931093; 179597; 709212; 961940; 263066; 254437; 406413;
   802581; 404368; 60804; 167561; 293338; 24810; 988509; 533143; 77209; 693063; 527038; 418598; 168323; 596853; 60712; 42020; 109073; 86664; 103617; 240302;
   28233; 446197; 555865; 98315; 377289; 735462; 807527; 339229; 998528; 61964; 745642; 801109; 466333; 806446; 968670; 759670; 831256; 957179; 292814; 908465;
   650242; 819852; 327063; 818565; 416705; 387775; 860585; 525778; 474440; 964203; 766080; 502672; 410399; 321945; 600987; 787689; 57407; 408514; 126918; 55936;
   470478; 872560; 857044; 936811; 679006; 825714; 696482; 510262; 782893; 989295; 418728; 433136; 809147; 745791; 251701; 225853; 133566; 112287; 751631; 608006;
   76489; 517711; 110679; 486889; 839656; 711666; 274578; 897063; 120180; 401496; 952999; 590658; 274056; 810043; 527469; 953062; 635758; 223951; 463325; 418651;
   213246; 882052; 851787; 22393; 627843; 103488; 248246; 761409; 215774; 999877; 369416; 292264; 517587; 480094; 779153; 357243; 191760; 53730; 254307; 311939;
   455226; 207305; 902597; 729282; 17348; 430066; 682344; 653106; 654017; 145668; 71757; 867263; 27721; 923544; 889656; 655564; 27032; 137902; 416973; 242806;
   137778; 786389; 535070; 655366; 266483; 314223; 12609; 458243; 367953; 266916; 770182; 823179; 474221; 672779; 552460; 491569; 102845; 234804; 144675; 756862;
   380473; 216432; 624124; 408194; 139976; 513780; 63757; 167008; 651682; 480731; 409814; 789461; 267120; 944884; 444827; 533603; 259106; 457436; 991845; 627059;
   724351; 762027; 450238; 198572; 434806; 2698; 690141; 537651; 237503; 834817; 294513; 617976; 51249; 918637; 26169; 191226; 432417; 89927; 358234; 84100;
   570657; 768047; 873560; 837777; 712931; 318387; 371379; 972038; 775823; 363225; 599097; 500174; 125252; 49335; 698746; 560058; 52033; 388887; 97709; 289536;
   223704; 392221; 907512; 274954; 310858; 933681; 466179; 743275; 23608; 824413; 827375; 594265; 592460; 700935; 432042; 305392; 19322; 803421; 277429; 795145;
   166646; 876526; 295319; 291897; 925861; 994065; 851955; 977895; 382952; 949663; 267431; 606657; 341884; 174943; 881610; 652742; 108624; 347790; 396018; 132231;
   172202; 223393; 726496; 764663; 924328; 158538; 70054; 943650; 961959; 347483; 738795; 128604; 224010; 34114; 420502; 149871; 28179; 272457; 127766; 411132;
   222120; 395197; 17788; 564005; 570139; 899399; 216747; 678763; 247188; 612765; 810995; 419391; 836157; 537491; 184053; 760485; 696029; 254107; 704135; 657987;
   601591; 442931; 786592; 825600; 477045; 207093; 975471; 505224; 479550; 103237; 916356; 701670; 498434; 934144; 265675; 68573; 833543; 482421; 747336; 80731;
   95186; 558331; 500122; 931343; 95822; 684175; 691828; 791850; 938282; 395964; 449837; 539873; 838894; 236429; 365474; 315939; 443523; 340945; 821163; 923073;
   444182; 737519; 624743; 942616; 671663; 890417; 11189; 505206; 372839; 758526; 585937; 468025; 316856; 86058; 399368; 412678; 770234; 91196; 204528; 708516;
   487160; 654366; 248389; 326054; 890795; 613863; 641993; 334317; 954808; 463156; 257390; 398990; 200675; 882132; 341606; 872337; 772549; 352795; 377543; 145388;
   111321; 963479; 613413; 428177; 49538; 12781; 840856; 819771; 103977; 45384; 528287; 591137; 699749; 776677; 917191; 590544; 390539; 559184; 924861; 345347;
   22340; 182251; 744338; 223014; 64384; 85944; 95352; 836933; 438739; 472894; 982321; 550060; 436374; 595734; 978237; 485912; 608514; 819093; 305683; 712491;
   864477; 833971; 303628; 564226; 610647; 220819; 154770; 1187; 780003; 79632; 346534; 802343; 261883; 90872; 25357; 326267; 176815; 120709; 163200; 615554;
   593603; 145521; 165614; 29977; 741255; 143852; 515888; 349769; 962945; 821571; 62261; 827421; 655542; 365889; 391647; 266189; 586708; 546417; 267376; 366711;
   626049; 613910; 169054; 887932; 704782; 194411; 214199; 881597; 315120; 377398; 497151; 908723; 522919; 662765; 938700; 264174; 806617; 454588; 613943; 769562;
   276160; 676204; 596983; 931702; 42092; 988631; 197891; 628800; 535048; 465267; 995512; 161097; 79177; 164566; 49029; 783958; 358977; 263227; 665555; 674097;
   640626; 162706; 582820; 163545; 825472; 521520; 427719; 632089; 976108; 41662; 401651; 252268; 717865; 998634; 183970; 759958; 987265; 381861; 388758; 522313;
   847128; 384270; 683410; 926305; 548835; 732439; 710263; 907812; 995666; 375818; 581909; 636292; 538525; 164729; 799837; 363996; 686248; 227555; 996085; 662356;
   269217; 397736; 914624; 987083; 396371; 98594; 747041; 383635; 480455; 135799; 905948; 327583; 520069; 589358; 253888; 68904; 321796; 964151; 976716; 317462;
   339969; 558625; 953754; 878494; 723354; 753591; 242490; 409602; 981146; 238576; 71959; 250363; 636312; 986583; 237446; 32682; 85177; 984486; 416318; 565633;
   120285; 322266; 893216; 640354; 911623; 147104; 709258; 233420; 111255; 685975; 550882; 451224; 244600; 504636; 329718; 967954; 258227; 572208; 377557; 239373;
   810783; 449515; 489736; 447095; 436099; 727182; 479778; 521276; 711668; 896095; 86909; 831953; 218361; 980125; 472307; 129984; 127228; 181566; 363404; 238483;
   867541; 914286; 689707; 112141; 418922; 19424; 80095; 677149; 591632; 457652; 916522; 402415; 907167; 406257; 849510; 343266; 133439; 329288; 864542; 845107;
   225383; 951450; 677060; 443744; 931575; 149367; 573728; 58803; 330933; 937132; 297286; 198474; 851418; 986993; 310615; 270341; 6417; 390710; 947489; 598049;
   848362; 864011; 464; 755529; 270268; 849975; 98795; 403707; 179263; 963337; 248814; 404646; 914787; 925874; 848390; 846363; 75241; 422118; 905166; 406174;
   359250; 202452; 604648; 210669; 189444; 915263; 481009; 195861; 305974; 428499; 793910; 154336; 292509; 794374; 909866; 562778; 644349; 8661; 966485; 823611;
   971998; 215299; 228257; 886785; 141173; 76647; 733148; 216414; 498765; 638314; 622588; 858015; 840765; 227237; 68684; 30210; 142500; 549693; 226071; 448474;
   978191; 19981; 602810; 270701; 814355; 512676; 833479; 458704; 521337; 799963; 282315; 493334; 15262; 510572; 380120; 156435; 587219; 113268; 372849; 85984;
   751581; 995437; 943999; 592346; 222673; 12682; 622556; 365173; 562375; 848627; 813647; 540566; 868608; 416457; 811267; 682963; 929133; 644746; 141667; 450470;
   444709; 423982; 943804; 459972; 934554; 323924; 616407; 521773; 437191; 989255; 607757; 188772; 984692; 551755; 781119; 207365; 564438; 403675; 572539; 126813;
   252302; 386186; 667379; 120910; 802643; 478647; 803873; 731776; 123393; 945540; 182246; 568102; 369523; 126050; 28074; 304077; 449973; 644480; 825851; 887165;
   633736; 433607; 75937; 618428; 985363; 857056; 825793; 549801; 260731; 398332; 676614; 513033; 784518; 343993; 633943; 587161; 822640; 437816; 318937; 946032;
   383356; 501183; 514134; 752879; 627232; 542208; 56956; 77206; 186689; 882807; 964370; 820424; 316414; 40307; 438852; 301777; 897363; 264645; 851578; 158094;
   662977; 528191; 671126; 447495; 872184; 305069; 34656; 694824; 742885; 353593; 640856; 126242; 854776; 154990; 879121; 482008; 697199; 936077; 559214; 883887;
   818884; 523584; 704312; 135298; 563891; 143163; 437075; 461254; 407809; 288653; 619347; 70786; 816845; 290474; 518281; 689029; 595543; 552937; 383853; 338428;
   906530; 24709; 464670; 761305; 179699; 343791; 243313; 876898; 279868; 802527; 760785; 98752; 326110; 465097; 234050; 890001; 608260; 671126; 351255; 16069;
   959779; 970602; 86854; 776623; 261076; 605135; 465652; 856619; 158072; 849505; 195047; 64601; 874213; 659717; 825906; 53913; 3508; 69219; 930810; 283376;
   871746; 691595; 382127; 197857; 156692; 616177; 87858; 764952; 287303; 439113; 781021; 247082; 409715; 867875; 23705; 670791; 473010; 489358; 527410; 631082;
   338862; 722458; 695683; 213076; 382175; 521589; 266988; 385683; 590809; 197799; 669058; 462555; 889394; 51185; 660412; 46086; 667363; 748269; 811038; 954666;
   187382; 592059; 201748; 597097; 459935; 225453; 267888; 932945; 714811; 795298; 564027; 53674; 517756; 259710; 266750; 899930; 781300; 533738; 285613; 372108;
   731537; 954671; 834663; 620931; 5857; 495075; 667017; 673220; 243344; 478056; 627886; 430726; 70115; 829634; 27823; 530049; 55087; 295710; 462995; 769898;
   91009; 27022; 823572; 608764; 286732; 90321; 508695; 68031; 624059; 794308; 440140; 355596; 748979; 274803; 976527; 754836; 769878; 643544; 428055; 13222;
   121600; 55941; 443948; 191715; 885574; 471771; 721764; 940661; 767481; 184759; 710559; 858490; 211780; 534131; 467254; 498512; 624453; 975948; 566543; 248512;
   770256; 6683; 604109; 519235; 281486; 580636; 274071; 51363; 224180; 702126; 64585; 345780; 758066; 508533; 537494; 643640; 980304; 259258; 584302; 747785;
   444017; 294861; 606274; 655797; 828992; 73528; 154309; 453445; 49477; 720852; 701958; 819733; 727535; 306066; 338968; 9020; 886702; 613039; 60383; 110881;
   315164; 124969; 456661; 73231; 633502; 994155; 716871; 613806; 253413; 301173; 361590; 697430; 596034; 967865; 353227; 425026; 41393; 507536; 878472; 90870;
   228388; 580429; 910603; 955923; 886495; 249571; 964943; 773197; 862609; 25326; 884078; 177774; 150295; 340740; 251004; 783797; 334895; 967875; 397603; 588308;
   269048; 759193; 285738; 865082; 727058; 638966; 290108; 768451; 146502; 168580; 859321; 374890; 749009; 769923; 330813; 635504; 19494; 295756; 408701; 882103;
   321082; 292780; 59877; 471377; 633519; 310881; 255174; 968414; 278756; 652777; 556722; 547804; 411970; 842460; 412886; 139028; 481426; 702994; 907479; 627928;
   871574; 766799; 2819; 620583; 536723; 333632; 256087; 556216; 629388; 664788; 438320; 950471; 957568; 498196; 421848; 591087; 809077; 677022; 559500; 87833;
   329799; 116222; 635638; 741768; 958683; 48524; 880796; 440109; 751519; 788275; 68037; 623093; 555074; 70856; 243676; 91797; 404488; 499763; 648013; 33876;
   164551; 86333; 984347; 122118; 584529; 406195; 713205; 393606; 83217; 272705; 481440; 413015; 388927; 117077; 154784; 347610; 165601; 35580; 787718; 917120;
   823855; 855756; 540213; 378929; 926612; 783888; 470725; 331100; 283651; 118739; 364976; 448202; 205071; 349322; 570320; 789601; 755517; 283525; 183207; 838734;
   556230; 664646; 251749; 945157; 781723; 406532; 292767; 947325; 442112; 80485; 864445; 265967; 936241; 404658; 644895; 862852; 188546; 115621; 193952; 472197;
   234360; 558928; 920399; 439431; 908250; 490719; 229032; 663767; 774244; 412238; 502501; 330474; 76884; 754249; 275631; 858608; 160782; 568397; 805933; 602894;
   648883; 670378; 868861; 585123; 75036; 513756; 447976; 263582; 629377; 641927; 735779; 863737; 200855; 656178; 303168; 109105; 146898; 532200; 772872; 921142;
   944438; 275373; 251615; 21322; 29622; 527246; 879930; 190404; 95643; 685863; 793299; 744526; 356241; 662160; 329649; 431276; 175916; 777625; 694858; 805293;
   419552; 430638; 669030; 620407; 86816; 972198; 729513; 233714; 504398; 502385; 154855; 448836; 777758; 406470; 470158; 807380; 933716; 350088; 997784; 29360;
   35951; 791083; 773886; 392192; 453243; 103535; 823468; 629159; 881160; 518327; 434452; 300712; 948964; 103482; 921119; 35781; 75680; 650632; 269494; 580078;
   153017; 424350; 28914; 930775; 830820; 499072; 738155; 764536; 849160; 735939; 793896; 885111; 527022; 567782; 277303; 980265; 671316; 100771; 609423; 552476;
   619098; 43875; 853188; 568062; 147357; 774307; 603843; 223038; 424939; 873337; 803116; 577956; 297687; 832030; 508731; 128507; 331102; 246885; 893044; 180262;
   982825; 686940; 65374; 509847; 254721; 342677; 490112; 926038; 443448; 99535; 478513; 62546; 143410; 331701; 630608; 290767; 106008; 234451; 513805; 530948;
   107789; 316921; 108903; 405476; 148951; 617634; 533983; 480053; 864519; 427026; 660316; 847344; 113966; 725689; 357191; 368687; 68366; 847302; 294725; 511814;
   946837; 773238; 574359; 90247; 104940; 204968; 381014; 210948; 439419; 894819; 741896; 547208; 211740; 850799; 952683; 360691; 468433; 486666; 840744; 332952;
   913692; 501060; 180296; 27658; 226749; 537487; 396346; 295115; 384789; 691070; 806928; 331626; 464309; 381287; 421873; 569248; 586255; 802887; 780196; 25674;
   697706; 522092; 572882; 909446; 372891; 525566; 270137; 841324; 12232; 110881; 174276; 925924; 611941; 354573; 953582; 838690; 892059; 349928; 133805; 276848;
   40998; 940733; 608474; 505307; 322020; 30346; 74556; 908275; 833233; 854752; 933950; 530939; 376844; 506832; 440385; 749735; 32398; 710522; 591059; 44629;
   821403; 765336; 970554; 433345; 119908; 924136; 272035; 11968; 274064; 405840; 288815; 315063; 346572; 897289; 820370; 668593; 927635; 894925; 576868; 760868;
   749677; 510818; 291807; 126521; 17650; 732192; 876256; 50048; 442714; 467315; 94677; 264117; 232651; 65231; 697462; 352560; 989367; 969497; 364527; 263431;
   375337; 653342; 578493; 721909; 550631; 398863; 390502; 478267; 293788; 967370; 239135; 43465; 478188; 530942; 169986; 495838; 263134; 46243; 545885; 705848;
   513558; 640563; 969965; 746209; 705793; 667428; 98769; 695160; 636925; 463296; 958590; 12262; 116638; 537083; 734171; 667270; 935946; 124673; 145536; 229734;
   92043; 384671; 273200; 570231; 915613; 443186; 66068; 178747; 489429; 611954; 884595; 2987; 252516; 854560; 749196; 958310; 521987; 847965; 653469; 158912;
   311261; 612059; 171174; 427899; 149143; 905345; 95169; 85089; 30018; 240705; 314824; 122060; 625377; 588023; 692291; 540990; 31209; 758360; 719736; 520638;
   370313; 604331; 523624; 622830; 458891; 272820; 581140; 980878; 120785; 234609; 139790; 432046; 846668; 310964; 859945; 995811; 216309; 955114; 80900; 246326;
   195819; 395724; 368387; 821196; 983747; 60678; 362186; 14956; 819037; 81922; 535594; 189351; 686253; 59218; 812181; 145144; 332039; 393320; 126022; 452824;
   627929; 265812; 884870; 474597; 576776; 744815; 470408; 793085; 699929; 551308; 39411; 895748; 947032; 407798; 716944; 930778; 468475; 79130; 945734; 287513;
   161052; 481328; 476863; 847305; 540546; 289044; 992449; 872585; 682364; 118471; 325408; 310293; 384283; 210278; 784889; 961059; 955093; 255297; 754144; 655021;
   806605; 793556; 550769; 753637; 201353; 267713; 684415; 669829; 346843; 630150; 957341; 507894; 111478; 434204; 355199; 652024; 723248; 347647; 524609; 405612;
   466118; 850017; 715904; 850401; 60295; 500794; 811461; 15388; 756091; 565605; 670409; 562696; 359161; 221178; 316333; 560514; 488891; 748; 230343; 835734;
   630898; 187684; 343628; 742376; 621888; 698827; 394400; 345137; 46474; 919008; 750748; 512592; 769025; 466653; 362994; 829321; 967447; 174454; 844709; 723538;
   740059; 515118; 286234; 99220; 736296; 602567; 659734; 225187; 603316; 890076; 60921; 234214; 77761; 404549; 976590; 699649; 103376; 370989; 44785; 149850;
   289997; 795534; 662443; 59023; 262187; 25436; 888343; 229633; 199891; 733052; 953171; 939950; 248170; 239405; 39170; 984466; 841972; 698903; 209653; 445288;
   588980; 270575; 679502; 666740; 675124; 656091; 366389; 778500; 27081; 411175; 928350; 317078; 206709; 590793; 376101; 468895; 616229; 264444; 698528; 816119;
   997496; 651699; 756069; 245666; 891104; 795239; 230132; 733076; 494142; 439786; 178364; 83122; 710360; 857866; 749863; 385484; 513957; 116252; 163984; 541038;
   527427; 92334; 858116; 734136; 683126; 234217; 203031; 299355; 498661; 901559; 115474; 496157; 553258; 871544; 741823; 444362; 666783; 971956; 177438; 160925;
   411741; 355802; 244047; 122101; 213668; 993910; 507585; 727626; 110162; 671569; 268664; 637589; 763903; 126780; 371725; 447029; 360996; 574755; 746384; 859657;
   476314; 861858; 355814; 29572; 733402; 97637; 473934; 400185; 69593; 651372; 561110; 481334; 7175; 805157; 603435; 220843; 799067; 111021; 948469; 909229;
   782590; 217133; 546818; 546493; 343913; 918543; 993522; 704909; 493299; 739905; 564566; 969613; 601764; 920380; 999185; 335166; 18017; 473119; 735351; 87610;
   124492; 296460; 568944; 131666; 101617; 172380; 352509; 900685; 283401; 300978; 809914; 65991; 518111; 356732; 612483; 862024; 275276; 606005; 566933; 768574;
   345910; 131499; 738187; 947674; 51879; 737372; 282840; 69896; 210491; 18191; 157507; 334983; 314651; 726451; 466649; 416269; 898831; 819159; 316953; 182232;
   120137; 126867; 248222; 638248; 483600; 860706; 500272; 758875; 466711; 67205; 527449; 812621; 198704; 265636; 760296; 250583; 3008; 43136; 320479; 213500;
   61327; 477986; 548483; 375978; 204437; 15132; 792247; 103268; 834291; 109200; 285500; 954428; 236067; 533722; 592677; 719667; 394428; 92949; 478543; 861139;
   160154; 5992; 673760; 358858; 271628; 434056; 609441; 274637; 477192; 929920; 488137; 538519; 407906; 36620; 914497; 612343; 51752; 706743; 715611; 886043;
   815944; 1111; 840471; 52011; 534833; 433147; 771678; 929261; 526096; 250221; 790400; 686250; 256213; 464161; 45108; 527841; 898216; 654549; 802478; 375408;
   584469; 290615; 913927; 992375; 327234; 828423; 604718; 378986; 535167; 320329; 265029; 351110; 321440; 105500; 403121; 856274; 538647; 174800; 785535; 64743;
   425020; 575935; 750994; 681233; 40096; 796102; 209074; 938312; 450650; 11552; 313720; 35119; 302167; 227647; 27494; 629402; 56071; 632213; 8388; 591237;
   952542; 273417; 942348; 273983; 378916; 345469; 130256; 917563; 520269; 915791; 982307; 945289; 491726; 733300; 626522; 531822; 529402; 835597; 470134; 980052;
   847149; 783855; 15172; 149316; 11502; 42666; 778718; 67573; 674879; 787106; 658810; 627421; 60522; 601158; 901404; 439439; 946627; 31660; 357002; 466896;
   947451; 339309; 412185; 439178; 72609; 38707; 971000; 602011; 874304; 441134; 582063; 721453; 224989; 597235; 870769; 236491; 639901; 649487; 304063; 314780;
   436593; 962873; 942202; 497115; 564031; 843605; 936554; 510658; 875266; 293556; 977554; 822717; 632864; 389739; 261895; 705474; 428446; 232894; 307485; 302750;
   674029; 889548; 24203; 899017; 486783; 894972; 135508; 126685; 544459; 439571; 441465; 981052; 402445; 383666; 478168; 966476; 227272; 414722; 477134; 102537;
   708277; 454688; 925254; 341142; 844427; 187149; 46615; 272873; 420043; 354100; 575623; 94072; 243648; 599826; 993089; 730431; 494798; 128598; 857116; 39258;
   568169; 298580; 20310; 970614; 682247; 498478; 937089; 909519; 913199; 414224; 12056; 621477; 868912; 937310; 962618; 713339; 124459; 9234; 986212; 544503;
   363334; 561835; 638575; 606982; 161661; 631664; 337413; 656459; 760261; 194528; 695717; 328430; 493109; 716027; 299044; 175356; 214505; 236133; 84874; 127705;
   650357; 96931; 749181; 519269; 34241; 711800; 232607; 158700; 721034; 218819; 703203; 84367; 780655; 341777; 691349; 942316; 973441; 28762; 598775; 733702;
   223290; 294492; 62133; 716399; 10520; 361177; 891754; 225025; 597310; 976629; 352730; 247667; 73559; 101911; 766936; 107800; 813711; 999543; 266500; 534744;
   218363; 969703; 619112; 999017; 311480; 310461; 941333; 284921; 339222; 540109; 18624; 562513; 834601; 80756; 278911; 845121; 441933; 170666; 70146; 39243;
   147295; 422875; 286910; 220854; 524786; 53846; 328654; 338497; 53389; 595155; 873241; 271752; 564858; 492352; 270769; 876338; 802813; 212102; 161259; 142036;
   752211; 179882; 704548; 586812; 260639; 983460; 431933; 702572; 154125; 502078; 741815; 301420; 924953; 28725; 522274; 449739; 82571; 850929; 788236; 135960;
   446083; 661477; 407712; 10941; 153829; 678481; 887279; 956642; 890583; 48538; 98678; 642794; 228420; 803226; 229606; 489059; 786685; 661539; 191631; 940811;
   163617; 933446; 242231; 88571; 962171; 764505; 538310; 44742; 615433; 326546; 180702; 61517; 988022; 588413; 72458; 141851; 266894; 959737; 98494; 157478;
   8274; 197171; 800272; 236694; 397; 29879; 725753; 787083; 691418; 917384; 727894; 855035; 850830; 970124; 943606; 813001; 734629; 481916; 857742; 350063;
   808462; 38444; 411580; 796484; 626857; 484037; 938336; 893751; 443774; 36829; 51229; 452048; 234000; 851501; 688742; 234398; 881380; 414496; 21480; 572798;
   331880; 749374; 427833; 182710; 719498; 371438; 995710; 454128; 853354; 853452; 804191; 661816; 891896; 215770; 458300; 518753; 699808; 396635; 412505; 143582;
   433465; 463734; 595630; 667465; 315235; 284372; 901863; 196615; 698868; 923343; 769413; 30748; 672717; 197246; 213457; 392216; 568684; 209168; 846343; 422038;
   62620; 650534; 83854; 954516; 866304; 542154; 473269; 566112; 938789; 885774; 709694; 372254; 349508; 305323; 39719; 664743; 589695; 941582; 861358; 288563;
   864925; 630771; 319311; 537642; 828017; 532768; 929857; 396701; 741936; 776201; 818739; 804556; 426735; 902593; 759072; 293039; 444747; 232341; 859151; 383536;
   118115; 568845; 755790; 467623; 874168; 795509; 132366; 463863; 737091; 993724; 752426; 602015; 624496; 71737; 139657; 452512; 604505; 69515; 849213; 346441;
   845716; 667952; 150997; 272451; 570546; 910069; 565490; 15293; 142410; 424641; 398829; 260526; 993486; 154620; 728149; 867654; 950129; 860515; 331517; 687219;
   854239; 83943; 289235; 478735; 155680; 428892; 931247; 760185; 498407; 780461; 106625; 344122; 448413; 257622; 616573; 18959; 167690; 182063; 34252; 310101;
   606704; 433081; 570626; 600190; 587700; 298775; 467844; 537829; 159290; 799362; 225049; 13529; 883305; 514283; 492263; 38985; 943175; 423511; 799169; 441582;
   203971; 905794; 785704; 652384; 163416; 402276; 671343; 331106; 584339; 705594; 641207; 191043; 138675; 211833; 791233; 726376; 510608; 259077; 264205; 669897;
   58439; 489253; 683426; 941744; 3537; 175689; 980728; 946712; 599200; 779898; 388294; 803171; 685692; 173997; 455555; 849108; 576274; 126898; 180215; 160613;
   832492; 821422; 351656; 971168; 33255; 142889; 697543; 543863; 401966; 961748; 213760; 460405; 451002; 897186; 402148; 454538; 72875; 382877; 401250; 672075;
   162774; 789544; 475246; 848467; 963541; 930801; 697575; 539815; 57699; 877790; 700428; 890192; 699212; 52083; 861359; 732467; 194972; 558902; 276329; 596938;
   520651; 490089; 57343; 971652; 387275; 459491; 426190; 460150; 842368; 827441; 132226; 5142; 616984; 607472; 853609; 580525; 538273; 551184; 120340; 595973;
   428973; 820768; 486165; 128185; 872851; 347524; 860652; 67823; 906426; 136981; 664761; 427077; 627070; 722104; 398729; 14346; 181595; 824919; 474496; 23963;
   652360; 606722; 29105; 269344; 214194; 882713; 849869; 752467; 433897; 970210; 348440; 862870; 790977; 834605; 991055; 663829; 182128; 851707; 731652; 88555;
   988688; 396413; 515631; 615758; 118517; 914360; 630104; 300112; 739279; 104600; 324075; 391639; 711322; 353179; 660983; 925516; 235892; 510853; 677983; 669789;
   481062; 26423; 532659; 272040; 861027; 523715; 935868; 43156; 375422; 667520; 131710; 364110; 63933; 647341; 979868; 182451; 561701; 609972; 482563; 300981;
   714572; 806637; 692620; 425894; 159817; 353603; 351410; 395709; 864456; 29393; 65498; 345518; 55815; 598158; 617558; 916843; 121872; 553426; 959998; 497294;
   220946; 91708; 861404; 284879; 739050; 841273; 467330; 300751; 451245; 949893; 601732; 165818; 756530; 294352; 591712; 916347; 647955; 943122; 312056; 512410;
   972514; 377554; 857928; 28330; 975712; 475486; 945172; 97584; 28912; 905171; 594879; 249858; 996879; 456283; 534737; 735928; 297556; 2067; 36680; 748801;
   951960; 638411; 914619; 708490; 932763; 506331; 624837; 580718; 449453; 936893; 93128; 421967; 314447; 951056; 450297; 290159; 426542; 395469; 387744; 455454;
   300640; 982623; 705311; 297519; 438906; 240048; 33447; 736462; 242115; 70127; 485263; 194075; 708538; 399881; 902565; 641301; 906212; 527402; 222019; 355665;
   464296; 315147; 777632; 778743; 266203; 227929; 68902; 692745; 623398; 456646; 148199; 924038; 439269; 853510; 221557; 878175; 93558; 255004; 614636; 335674;
   325131; 99899; 529749; 33669; 499780; 432314; 674970; 405993; 959717; 896989; 761657; 424012; 212136; 539289; 202755; 478340; 767218; 271658; 171085; 390616;
   728304; 319284; 314654; 167573; 172795; 536211; 45748; 266353; 791214; 660384; 602027; 116345; 760283; 131775; 150014; 260064; 564089; 824984; 666056; 523806;
   721974; 427713; 947818; 934110; 967003; 150573; 412450; 734220; 422231; 583535; 124836; 150535; 902819; 439490; 318108; 75614; 975701; 363855; 341967; 766915;
   24239; 943993; 883260; 784523; 75769; 33274; 44586; 639858; 858259; 710642; 163664; 580232; 138356; 111482; 514342; 105358; 262055; 926792; 839579; 684286;
   510327; 964415; 834821; 413146; 403905; 152928; 488760; 379606; 516784; 830726; 146521; 541023; 774720; 29781; 325546; 850488; 63056; 370132; 490346; 921314;
   80774; 654010; 501547; 219130; 765492; 15889; 324488; 27547; 942681; 164067; 711834; 453007; 128481; 546654; 866153; 532386; 699583; 354913; 911992; 216367;
   185640; 58513; 757390; 960359; 88294; 82935; 810847; 151350; 453067; 301194; 72664; 533841; 955204; 574211; 752971; 720696; 590099; 77459; 748244; 532780;
   241525; 460077; 985787; 370007; 6731; 851940; 902393; 706314; 206853; 814386; 922681; 392493; 872898; 680071; 352852; 961193; 763006; 163700; 112542; 216073;
   464893; 185206; 749915; 420097; 759417; 502886; 140793; 349516; 580345; 889037; 882296; 821870; 349114; 868083; 191877; 355845; 720023; 94270; 62160; 926876;
   908656; 984840; 319369; 781554; 664911; 672221; 742747; 427917; 835921; 855289; 643991; 300814; 40495; 393905; 720911; 799912; 896791; 861705; 149428; 477136;
   750741; 31724; 299006; 99855; 899807; 490882; 455700; 619830; 585153; 517860; 546706; 493809; 502700; 866075; 275363; 167612; 538297; 18110; 595529; 374218;
   873399; 239520; 675032; 913894; 633425; 395943; 713806; 530216; 257648; 863234; 7352; 8389; 894958; 306358; 108245; 794765; 797240; 563945; 414594; 382393;
   81805; 961301; 876201; 584505; 827376; 151564; 752117; 365673; 169674; 347646; 739890; 43073; 587166; 414922; 956967; 220591; 810866; 670773; 750808; 68514;
   534007; 758159; 76903; 428965; 64517; 185148; 223730; 861757; 749093; 638325; 244150; 830898; 599625; 120351; 415403; 427001; 271915; 167520; 792674; 441589;
   515167; 532564; 484662; 102332; 947487; 441628; 322924; 758353; 112401; 73731; 826866; 646408; 831891; 903770; 75373; 896408; 88918; 299104; 758165; 838011;
   937428; 2315; 668909; 537053; 122666; 84312; 964054; 394581; 251833; 756728; 836170; 766999; 289292; 320831; 869332; 236779; 762460; 192256; 995132; 874861;
   265987; 821998; 521269; 97878; 725768; 596642; 994285; 814686; 895746; 752450; 652697; 833174; 754765; 321606; 370227; 877430; 405918; 334281; 272011; 657751;
   91009; 108181; 424750; 380302; 429013; 294082; 617081; 191472; 486338; 612212; 66333; 752325; 434210; 587601; 850202; 159978; 184244; 844487; 974664; 79989;
   596938; 627361; 913163; 351702; 948966; 283390; 229133; 354884; 617671; 501144; 12635; 708680; 609325; 437385; 88982; 38337; 731468; 706062; 229810; 217805;
   318274; 296142; 970130; 752485; 883744; 820332; 912463; 67987; 664820; 887127; 147976; 261757; 514487; 61139; 613459; 463453; 344529; 842592; 818338; 962200;
   343736; 830973; 670880; 953061; 268358; 759862; 991398; 999826; 465925; 221208; 217631; 784199; 517350; 187761; 536684; 401094; 8093; 449146; 469081; 672913;
   336273; 617057; 934670; 850760; 678196; 548130; 314213; 22726; 390722; 132551; 984926; 734457; 963524; 655806; 687518; 231882; 415668; 678917; 231707; 881593;
   900125; 449338; 665792; 417475; 637100; 202476; 818568; 645193; 651622; 287649; 318106; 987895; 904706; 252776; 838655; 582902; 800905; 152868; 605628; 191627;
   285419; 590554; 926084; 248943; 246360; 613603; 480824; 662028; 292519; 712532; 543621; 192644; 161870; 209414; 610118; 798970; 411889; 428686; 444163; 63512;
   716335; 762269; 51407; 621041; 15045; 890061; 203944; 815950; 42930; 809571; 7577; 328349; 400125; 933661; 577292; 646485; 547264; 58116; 308513; 839783;
   770648; 852134; 32427; 932518; 61548; 642545; 731488; 473437; 71232; 175651; 536949; 787567; 937920; 588355; 408608; 952965; 478417; 612552; 768915; 521346;
   422123; 776492; 849695; 822248; 710154; 426987; 468732; 257418; 485103; 777245; 97201; 255751; 629379; 129628; 188270; 690927; 772173; 919758; 164364; 843404;
   95410; 701313; 630971; 33330; 289668; 39579; 986295; 768084; 652131; 755210; 289431; 74254; 531702; 139126; 896502; 241856; 566113; 365234; 499273; 51216;
   142480; 596474; 306967; 771859; 726102; 495237; 462786; 498274; 414995; 627150; 341679; 510404; 328463; 972650; 543734; 618131; 12229; 530029; 386215; 664360;
   285238; 675645; 738614; 816940; 814771; 635116; 58796; 380884; 351; 558069; 432100; 142830; 154543; 739067; 914690; 880644; 234303; 377476; 378919; 649298;
   4626; 720598; 159702; 333089; 693247; 703436; 951220; 705477; 233464; 337435; 369837; 518703; 13080; 108452; 335643; 827851; 743568; 394438; 208735; 743919;
   952507; 640835; 886749; 107050; 379901; 801439; 987694; 614205; 178915; 366613; 263502; 183541; 87211; 423204; 516630; 780458; 126640; 467849; 485935; 360105;
   805284; 855772; 878807; 818364; 964224; 214450; 646215; 707791; 608888; 854950; 451710; 561395; 495785; 338459; 668445; 875686; 139898; 656139; 489891; 318813;
   22753; 753393; 502353; 109963; 176598; 18983; 890421; 303238; 486832; 376356; 663342; 292116; 232128; 542150; 110480; 196352; 756599; 756695; 904143; 365488;
   611645; 355854; 926883; 107430; 694313; 595328; 983117; 834211; 251467; 473008; 153024; 274220; 226401; 655377; 384183; 402999; 674360; 274605; 706237; 161192;
   650961; 369579; 453308; 883089; 911729; 563788; 79441; 668328; 320483; 983585; 33816; 932129; 339438; 960698; 39559; 33751; 556026; 22676; 867962; 807494;
   495684; 20986; 81713; 722085; 676363; 465896; 125084; 350723; 740501; 831320; 511915; 391462; 200899; 965224; 274551; 112628; 529012; 353993; 780956; 849495;
   337577; 814772; 781624; 677016; 775470; 821183; 710767; 331496; 843859; 578729; 138990; 339543; 599715; 220703; 61628; 276079; 686600; 186712; 626802; 427101;
   18032; 138717; 818563; 218931; 103940; 93114; 331559; 632952; 447107; 112515; 482448; 784684; 927287; 264072; 461700; 702757; 85255; 172467; 34253; 929114;
   751196; 173243; 268657; 350912; 393946; 330285; 626990; 80546; 516996; 253792; 507647; 535028; 392508; 326210; 753959; 496449; 419324; 85519; 129401; 866431;
   198034; 611848; 651115; 125320; 875920; 112814; 828077; 961175; 285281; 862330; 890289; 36478; 35573; 158945; 387389; 429519; 489230; 14379; 510065; 6226;
   268171; 17712; 541254; 660680; 343922; 295214; 157128; 763246; 380732; 286529; 629677; 578766; 898378; 280791; 704086; 774298; 393606; 532164; 735473; 678887;
   394494; 625761; 715365; 430067; 784707; 102754; 859586; 273937; 117133; 369652; 280163; 385305; 387364; 821417; 45984; 731286; 116631; 203113; 494532; 497363;
   489642; 124209; 76129; 388020; 405000; 780216; 162318; 798606; 312379; 897791; 477493; 706873; 523552; 192858; 136940; 308259; 295612; 996526; 582195; 412745;
   366178; 862358; 798050; 753542; 683776; 844034; 484828; 800406; 47146; 979361; 297770; 536789; 103570; 373899; 924808; 508570; 154114; 87126; 307176; 466493;
   984917; 784670; 173366; 508469; 977528; 310306; 816728; 273139; 306832; 398923; 685884; 673010; 261281; 483934; 426552; 945057; 327968; 911380; 745463; 375114;
   890740; 43233; 911902; 994310; 417132; 836711; 502880; 571246; 923837; 810057; 37739; 908754; 594726; 211106; 417223; 572254; 521412; 233951; 845393; 828244;
   632874; 531277; 501254; 894155; 15211; 927805; 839212; 343179; 839185; 584676; 718293; 729925; 627909; 630195; 724235; 45041; 466906; 227116; 616287; 390743;
   37172; 654026; 299498; 631898; 865132; 716721; 204152; 386543; 950672; 49545; 214787; 583546; 580822; 716041; 477701; 596034; 643846; 316914; 939212; 483031;
   901590; 657505; 212956; 529499; 287700; 937191; 574539; 754606; 164307; 190826; 145349; 201479; 844852; 444847; 833377; 709983; 161568; 37529; 96526; 112240;
   87075; 311314; 695785; 667897; 27354; 173487; 263931; 671200; 490400; 203143; 154230; 391990; 860648; 367186; 921488; 148347; 304377; 496028; 902953; 468684;
   686853; 48303; 670163; 531705; 493150; 503540; 241688; 654718; 541069; 338214; 766957; 628144; 649528; 462743; 296041; 676882; 636229; 559972; 348082; 126630;
   763114; 502312; 518620; 623762; 869499; 440108; 772109; 173876; 936136; 675063; 642560; 622989; 723365; 312722; 154694; 216515; 816262; 396382; 871233; 357332;
   734596; 638190; 985476; 384124; 100933; 281517; 61006; 737162; 841489; 409088; 863792; 604603; 911401; 382412; 228365; 780899; 822520; 474; 954775; 758655;
   675537; 597335; 381645; 398902; 910057; 536338; 615417; 726320; 932720; 486650; 83651; 667316; 124839; 69127; 51441; 225772; 350644; 112447; 962934; 192133;
   521535; 826726; 796736; 432936; 209137; 25101; 213835; 31657; 25575; 168610; 790313; 701112; 765945; 171957; 100014; 676002; 708296; 715431; 402322; 641016;
   202080; 485973; 308332; 326920; 555101; 359773; 552692; 905745; 472220; 515626; 97878; 993755; 342351; 894614; 426691; 551489; 919714; 640526; 583146; 945289;
   809136; 373458; 646401; 575081; 545416; 746415; 251083; 253711; 461845; 653405; 894727; 663926; 139379; 203059; 990845; 694479; 562832; 543537; 600224; 35051;
   59162; 698102; 28806; 401514; 592716; 455497; 953003; 512430; 96022; 536149; 457719; 905158; 909607; 104120; 480239; 455023; 850534; 731323; 708734; 312380;
   384728; 603461; 976305; 524107; 806520; 967151; 218586; 369351; 510688; 818811; 404402; 569850; 516913; 433208; 971364; 109629; 888705; 924367; 622059; 984727;
   460515; 79778; 889886; 370123; 183898; 370125; 825145; 34432; 101448; 533879; 346812; 486176; 137340; 323118; 10283; 943859; 290268; 228869; 313210; 800956;
   47679; 717613; 370806; 564592; 150821; 342170; 674221; 39526; 266537; 296280; 24253; 727052; 376058; 914139; 97175; 559956; 284264; 922320; 594388; 385711;
   456199; 941200; 871887; 593539; 264318; 882170; 537398; 554586; 111038; 850608; 355542; 158718; 568221; 726348; 723310; 719042; 68518; 397531; 758568; 335054;
   693811; 782821; 62107; 69868; 696959; 159281; 629824; 981223; 81601; 224212; 366934; 537800; 165412; 238822; 131339; 429729; 120991; 668737; 984315; 232030;
   519345; 339857; 390747; 87565; 66204; 114057; 806607; 134722; 511588; 565175; 469777; 205399; 347995; 531883; 275268; 44955; 691165; 905091; 26178; 772766;
   129303; 393112; 310566; 294715; 631933; 441905; 724444; 752925; 110641; 708759; 984954; 629986; 48616; 375702; 717551; 114820; 489759; 524158; 249542; 1348;
   89333; 719319; 206747; 437328; 251202; 482014; 482282; 942367; 387106; 508460; 715133; 516409; 901572; 25699; 811124; 533505; 467604; 535568; 286430; 578245;
   244327; 271384; 208231; 292943; 647086; 925782; 407763; 136845; 449941; 657305; 138193; 539273; 376625; 344940; 976601; 627827; 826954; 458884; 570194; 214059;
   967344; 285327; 730468; 868916; 311026; 541592; 402421; 778630; 77160; 688851; 356875; 321487; 960236; 565106; 614429; 607322; 490889; 22192; 744167; 940829;
   679498; 882360; 480103; 56123; 227300; 456704; 683950; 54254; 915587; 254144; 268313; 882931; 539471; 998782; 751847; 850497; 540374; 154268; 629126; 617534;
   843119; 986001; 939020; 803355; 551107; 553450; 410677; 41996; 575642; 154845; 982825; 255140; 37205; 462928; 311263; 264505; 919631; 995212; 318759; 835219;
   249356; 587072; 718150; 788827; 585853; 469996; 639323; 126227; 624264; 268449; 743761; 467384; 254451; 682781; 270739; 805558; 236231; 681416; 847554; 811873;
   836260; 830379; 67013; 873465; 293307; 378276; 137970; 212939; 373489; 456729; 48158; 622845; 43801; 766307; 411671; 629654; 236304; 50995; 755881; 860568;
   319444; 499642; 327952; 573895; 182423; 598690; 379453; 418653; 280106; 227007; 230526; 116366; 57386; 297540; 989831; 350694; 675816; 127801; 563633; 49304;
   584530; 611790; 672149; 628331; 378097; 83820; 257985; 614401; 134815; 13866; 474969; 454259; 513507; 802921; 28154; 695930; 401611; 407607; 114583; 681717;
   634614; 345109; 798083; 692000; 642649; 787915; 42694; 318465; 915716; 606327; 367769; 500246; 218117; 39918; 128577; 596214; 123738; 386561; 210616; 258553;
   400427; 685585; 712813; 913934; 488506; 740967; 609864; 890117; 148574; 724447; 571834; 783188; 69556; 369918; 475188; 712205; 157832; 517882; 30670; 73549;
   124209; 398439; 573795; 342326; 438356; 702371; 938540; 562095; 88933; 149156; 820648; 489360; 834741; 533461; 403294; 323247; 274427; 13158; 213364; 423001;
   737604; 785198; 206189; 807160; 155116; 681377; 519365; 312949; 199259; 550035; 386497; 323467; 948473; 960292; 665793; 386830; 662663; 604333; 948924; 751596].
