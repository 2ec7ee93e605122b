(** The data of the repository's tests: test/lexicon.txt, test/query.txt and
    test/dictionary.dawg byte by byte, and the strings of utfc_test.go:8-74 as code
    points. *)
From Verif Require Import Go.

(** test/lexicon.txt *)
Definition lexicon_txt : list N :=
  ([97; 9; 49; 10; 97; 110; 9; 48; 10; 97; 110; 100; 9; 50; 10; 97; 112; 112; 101; 97; 114; 9; 49; 10; 97; 112; 112; 108; 101; 9; 49; 10; 98; 105; 110; 9; 50; 10; 98; 105;
   110; 97; 114; 121; 9; 49; 10; 98; 105; 110; 100; 9; 48; 10; 98; 105; 110; 100; 101; 114; 9; 50; 10; 98; 105; 110; 100; 105; 110; 103; 9; 49; 10; 98; 108; 105; 110; 100; 9; 48;
   10; 99; 97; 110; 9; 48; 10; 99; 97; 110; 99; 101; 114; 9; 49; 10; 99; 97; 116; 9; 50; 10])%N.
(** test/query.txt *)
Definition query_txt : list N :=
  ([97; 10; 97; 110; 10; 97; 110; 100; 10; 97; 112; 112; 101; 97; 114; 10; 97; 112; 112; 108; 101; 10; 98; 105; 110; 10; 98; 105; 110; 97; 114; 121; 10; 98; 105; 110; 100; 10; 98; 105;
   110; 100; 101; 114; 10; 98; 105; 110; 100; 105; 110; 103; 10; 98; 108; 105; 110; 100; 10; 99; 97; 110; 10; 99; 97; 110; 99; 101; 114; 10; 99; 97; 116; 10; 98])%N.
(** test/dictionary.dawg *)
Definition dictionary_dawg : list N :=
  ([0; 1; 0; 0; 0; 128; 1; 0; 97; 21; 0; 0; 98; 232; 1; 0; 99; 248; 1; 0; 1; 0; 0; 128; 0; 0; 0; 128; 2; 0; 0; 128; 112; 200; 1; 0; 97; 204; 1; 0;
   114; 13; 0; 0; 1; 0; 0; 128; 101; 5; 0; 0; 110; 5; 0; 0; 2; 0; 0; 128; 114; 224; 1; 0; 121; 21; 0; 0; 101; 228; 1; 0; 105; 204; 1; 0; 0; 0; 0; 128;
   114; 85; 0; 0; 108; 172; 1; 0; 103; 125; 0; 0; 105; 136; 1; 0; 110; 148; 1; 0; 0; 0; 0; 128; 108; 220; 1; 0; 110; 128; 1; 0; 0; 0; 0; 128; 97; 72; 1; 0;
   28; 0; 0; 0; 100; 25; 0; 0; 30; 0; 0; 0; 110; 237; 0; 0; 101; 104; 1; 0; 35; 0; 0; 0; 34; 0; 0; 0; 37; 0; 0; 0; 36; 0; 0; 0; 39; 0; 0; 0;
   38; 0; 0; 0; 41; 0; 0; 0; 40; 0; 0; 0; 43; 0; 0; 0; 42; 0; 0; 0; 45; 0; 0; 0; 44; 0; 0; 0; 47; 0; 0; 0; 46; 0; 0; 0; 49; 0; 0; 0;
   48; 0; 0; 0; 51; 0; 0; 0; 50; 0; 0; 0; 53; 0; 0; 0; 52; 0; 0; 0; 55; 0; 0; 0; 54; 0; 0; 0; 57; 0; 0; 0; 56; 0; 0; 0; 116; 241; 0; 0;
   58; 0; 0; 0; 61; 0; 0; 0; 60; 0; 0; 0; 63; 0; 0; 0; 62; 0; 0; 0; 65; 0; 0; 0; 64; 0; 0; 0; 67; 0; 0; 0; 66; 0; 0; 0; 69; 0; 0; 0;
   68; 0; 0; 0; 71; 0; 0; 0; 70; 0; 0; 0; 73; 0; 0; 0; 72; 0; 0; 0; 75; 0; 0; 0; 74; 0; 0; 0; 77; 0; 0; 0; 76; 0; 0; 0; 79; 0; 0; 0;
   78; 0; 0; 0; 81; 0; 0; 0; 80; 0; 0; 0; 83; 0; 0; 0; 82; 0; 0; 0; 85; 0; 0; 0; 84; 0; 0; 0; 87; 0; 0; 0; 86; 0; 0; 0; 89; 0; 0; 0;
   88; 0; 0; 0; 91; 0; 0; 0; 90; 0; 0; 0; 93; 0; 0; 0; 92; 0; 0; 0; 95; 0; 0; 0; 94; 0; 0; 0; 97; 0; 0; 0; 100; 157; 1; 0; 99; 0; 0; 0;
   98; 0; 0; 0; 101; 0; 0; 0; 100; 0; 0; 0; 103; 0; 0; 0; 102; 0; 0; 0; 105; 0; 0; 0; 100; 237; 1; 0; 110; 189; 1; 0; 106; 0; 0; 0; 97; 64; 0; 0;
   108; 0; 0; 0; 111; 0; 0; 0; 110; 0; 0; 0; 113; 0; 0; 0; 112; 0; 0; 0; 115; 0; 0; 0; 114; 0; 0; 0; 112; 12; 0; 0; 116; 0; 0; 0; 119; 0; 0; 0;
   101; 88; 0; 0; 99; 240; 0; 0; 120; 0; 0; 0; 123; 0; 0; 0; 105; 8; 0; 0; 125; 0; 0; 0; 124; 0; 0; 0; 127; 0; 0; 0; 126; 0; 0; 0; 129; 0; 0; 0;
   128; 0; 0; 0; 131; 0; 0; 0; 130; 0; 0; 0; 133; 0; 0; 0; 132; 0; 0; 0; 135; 0; 0; 0; 134; 0; 0; 0; 137; 0; 0; 0; 136; 0; 0; 0; 139; 0; 0; 0;
   138; 0; 0; 0; 141; 0; 0; 0; 140; 0; 0; 0; 143; 0; 0; 0; 142; 0; 0; 0; 145; 0; 0; 0; 144; 0; 0; 0; 147; 0; 0; 0; 146; 0; 0; 0; 149; 0; 0; 0;
   148; 0; 0; 0; 151; 0; 0; 0; 150; 0; 0; 0; 153; 0; 0; 0; 152; 0; 0; 0; 155; 0; 0; 0; 154; 0; 0; 0; 157; 0; 0; 0; 156; 0; 0; 0; 159; 0; 0; 0;
   158; 0; 0; 0; 161; 0; 0; 0; 160; 0; 0; 0; 163; 0; 0; 0; 162; 0; 0; 0; 165; 0; 0; 0; 164; 0; 0; 0; 167; 0; 0; 0; 166; 0; 0; 0; 169; 0; 0; 0;
   168; 0; 0; 0; 171; 0; 0; 0; 170; 0; 0; 0; 173; 0; 0; 0; 172; 0; 0; 0; 175; 0; 0; 0; 174; 0; 0; 0; 177; 0; 0; 0; 176; 0; 0; 0; 179; 0; 0; 0;
   178; 0; 0; 0; 181; 0; 0; 0; 180; 0; 0; 0; 183; 0; 0; 0; 182; 0; 0; 0; 185; 0; 0; 0; 184; 0; 0; 0; 187; 0; 0; 0; 186; 0; 0; 0; 189; 0; 0; 0;
   188; 0; 0; 0; 191; 0; 0; 0; 190; 0; 0; 0; 193; 0; 0; 0; 192; 0; 0; 0; 195; 0; 0; 0; 194; 0; 0; 0; 197; 0; 0; 0; 196; 0; 0; 0; 199; 0; 0; 0;
   198; 0; 0; 0; 201; 0; 0; 0; 200; 0; 0; 0; 203; 0; 0; 0; 202; 0; 0; 0; 205; 0; 0; 0; 204; 0; 0; 0; 207; 0; 0; 0; 206; 0; 0; 0; 209; 0; 0; 0;
   208; 0; 0; 0; 211; 0; 0; 0; 210; 0; 0; 0; 213; 0; 0; 0; 212; 0; 0; 0; 215; 0; 0; 0; 214; 0; 0; 0; 217; 0; 0; 0; 216; 0; 0; 0; 219; 0; 0; 0;
   218; 0; 0; 0; 221; 0; 0; 0; 220; 0; 0; 0; 223; 0; 0; 0; 222; 0; 0; 0; 225; 0; 0; 0; 224; 0; 0; 0; 227; 0; 0; 0; 226; 0; 0; 0; 229; 0; 0; 0;
   228; 0; 0; 0; 231; 0; 0; 0; 230; 0; 0; 0; 233; 0; 0; 0; 232; 0; 0; 0; 235; 0; 0; 0; 234; 0; 0; 0; 237; 0; 0; 0; 236; 0; 0; 0; 239; 0; 0; 0;
   238; 0; 0; 0; 241; 0; 0; 0; 240; 0; 0; 0; 243; 0; 0; 0; 242; 0; 0; 0; 245; 0; 0; 0; 244; 0; 0; 0; 247; 0; 0; 0; 246; 0; 0; 0; 249; 0; 0; 0;
   248; 0; 0; 0; 251; 0; 0; 0; 250; 0; 0; 0; 253; 0; 0; 0; 252; 0; 0; 0; 255; 0; 0; 0; 254; 0; 0; 0; 0; 1; 0; 0; 97; 0; 110; 98; 105; 99; 97; 0;
   0; 0; 0; 0; 0; 0; 101; 0; 114; 0; 0; 0; 0; 0; 0; 0; 97; 0; 0; 0; 121; 0; 0; 0; 97; 108; 110; 108; 0; 0; 0; 0; 105; 0; 0; 0; 110; 0; 103; 0;
   0; 0; 101; 0; 100; 0; 0; 0; 110; 0; 0; 0; 0; 0; 0; 0; 99; 116; 114; 0; 0; 0; 0; 0; 0; 0; 0; 0; 0; 0; 0; 0; 0; 0; 0; 0; 0; 0; 0; 0;
   0; 0; 0; 0; 0; 0; 0; 0; 0; 0; 0; 0; 0; 0; 0; 0; 0; 0; 0; 0; 0; 0; 0; 0; 0; 0; 0; 0; 0; 0; 0; 0; 0; 0; 0; 0; 0; 0; 0; 0;
   0; 0; 0; 0; 0; 0; 0; 0; 0; 0; 0; 0; 0; 0; 0; 0; 0; 0; 0; 0; 0; 0; 0; 0; 0; 0; 0; 0; 0; 0; 0; 0; 0; 0; 0; 0; 0; 0; 0; 0;
   0; 0; 0; 0; 0; 0; 0; 0; 0; 0; 0; 0; 0; 0; 0; 0; 0; 0; 0; 0; 0; 0; 0; 0; 0; 0; 0; 0; 0; 0; 0; 0; 0; 0; 0; 0; 0; 0; 0; 0;
   0; 0; 101; 0; 100; 112; 0; 0; 114; 100; 0; 0; 0; 0; 0; 0; 0; 0; 0; 0; 0; 0; 0; 0; 112; 0; 0; 0; 0; 0; 114; 105; 101; 0; 0; 0; 0; 0; 110; 0;
   0; 0; 0; 0; 0; 0; 0; 0; 0; 0; 0; 0; 0; 0; 0; 0; 0; 0; 0; 0; 0; 0; 0; 0; 0; 0; 0; 0; 0; 0; 0; 0; 0; 0; 0; 0; 0; 0; 0; 0;
   0; 0; 0; 0; 0; 0; 0; 0; 0; 0; 0; 0; 0; 0; 0; 0; 0; 0; 0; 0; 0; 0; 0; 0; 0; 0; 0; 0; 0; 0; 0; 0; 0; 0; 0; 0; 0; 0; 0; 0;
   0; 0; 0; 0; 0; 0; 0; 0; 0; 0; 0; 0; 0; 0; 0; 0; 0; 0; 0; 0; 0; 0; 0; 0; 0; 0; 0; 0; 0; 0; 0; 0; 0; 0; 0; 0; 0; 0; 0; 0;
   0; 0; 0; 0; 0; 0; 0; 0; 0; 0; 0; 0; 0; 0; 0; 0; 0; 0; 0; 0; 0; 0; 0; 0; 0; 0; 0; 0; 0; 0; 0; 0; 0; 0; 0; 0; 0; 0; 0; 0;
   0; 0; 0; 0; 0; 0; 0; 0; 0; 0; 0; 0; 0; 0; 0; 0; 0; 0; 0; 0; 0; 0; 0; 0; 0; 0; 0; 0; 0; 0; 0; 0; 0; 0; 0; 0; 0; 0; 0; 0;
   0; 0; 0; 0; 0; 0; 0; 0; 0; 0; 0; 0; 0; 0; 0; 0; 0; 0; 0; 0; 0; 0; 0; 0; 0; 0; 0; 0; 0; 0; 0; 0; 0; 0; 0; 0; 0; 0; 0; 0;
   0; 0; 0; 0; 0; 0; 0; 0; 0; 0; 0; 0; 0; 0; 0; 0; 0; 0; 0; 0; 0; 0; 0; 0])%N.

(** utfc_test.go:8-55 testStrings *)
Definition testStrings : list (list Z) := (
  [[97; 98; 97; 99; 97; 98; 97];
   [1057; 1083; 1086; 1074; 1072; 1088; 1100];
   [1090; 1077; 1089; 1090; 45; 52; 50];
   [119; 111; 114; 100; 45; 1060; 1067];
   [65; 122; 601; 114; 98; 97; 121; 99; 97; 110; 99; 97];
   [268; 101; 353; 116; 105; 110; 97];
   [1506; 1489; 1512; 1497; 1514];
   [26085; 26412; 35486];
   [1178; 1072; 1079; 1072; 1179; 1096; 1072];
   [1054; 1073; 39; 1108; 1076; 1085; 1072; 1085; 1080; 1093];
   [1072; 32; 1073; 32; 1074; 32; 1075; 32; 1076; 32; 1077; 32; 1105];
   [1072; 44; 1073; 44; 1074; 44; 1075; 44; 1076; 44; 1077; 44; 1105];
   [20013; 97; 98; 25991; 48; 49; 25991];
   [23041; 23572; 22763; 19977];
   [34920; 38754; 12363];
   [38754; 12395; 12399; 49; 48];
   [12288; 9834; 12522; 12531; 12468; 21487; 24859; 12356; 12420; 21487; 24859; 12356; 12420; 12522; 12531; 12468; 12290; 21322; 19990; 32000; 12418; 21069; 12395; 27969; 34892; 12375; 12383; 12300; 12522; 12531; 12468; 12398; 27468; 12301; 12364; 12404; 12387; 12383; 12426; 12377;
   12427; 12363; 12418; 12375; 12428; 12394; 12356; 12290; 31859; 12450; 12483; 12503; 12523; 12467; 12531; 12500; 12517; 12540; 12479; 31038; 12398; 12497; 12477; 12467; 12531; 12300; 12510; 12483; 12463; 65288; 12510; 12483; 12461; 12531; 12488; 12483; 12471; 12517; 65289; 12301;
   12434; 12289; 12371; 12424; 12394; 12367; 24859; 12377; 12427; 20154; 12383; 12385; 12398; 12371; 12392; 12384; 12290; 12300; 12450; 12483; 12503; 12523; 20449; 32773; 12301; 12394; 12435; 12390; 35328; 12356; 26041; 12414; 12391; 12354; 12427; 12290];
   [84; 105; 7871; 110; 103; 32; 86; 105; 7879; 116];
   [1575; 1604; 1571; 1582; 1576; 1575; 1585];
   [110; 97; 105; 776; 118; 101; 32; 114; 101; 768; 115; 117; 109; 101; 769];
   [1808; 1824; 1830; 32; 1810; 1821; 1836; 32; 1827; 1816; 1834; 1821; 1821; 1808];
   [2488; 2494; 2433; 2451; 2468; 2494; 2482; 2495; 32; 2476; 2494; 2434; 2482; 2494; 32; 2488; 2478; 2486; 2476; 2509; 2470; 32; 2437; 2477; 2495; 2471; 2494; 2472];
   [3119; 3149; 3106; 3119; 3149; 3107; 9; 3119; 3149; 3108; 3119; 3149; 3109; 3119; 3149; 3110; 9; 3119; 3149; 3111; 3119; 3149; 3112; 9; 3119; 3149; 3114];
   [4316; 4323; 4321; 4334; 4323; 4320; 4312];
   [4773; 4657; 32; 4770; 4725; 4846; 4917; 4843; 4810; 32; 4752; 4813];
   [8352; 8353; 9; 8354; 9; 8355; 9; 49; 48; 8356; 9; 8357; 9; 8358; 9; 8359; 9; 8360; 9; 8361; 9; 8362];
   [6190; 6176; 6194; 6176; 6189; 6176; 6199; 32; 6192; 6178; 6191; 6186; 6178];
   [127988; 8205; 9760; 65039; 127468; 127479; 10084; 65039; 128293];
   [84; 810; 809; 828; 104; 805; 811; 810; 852; 768; 101; 811; 815; 860; 32; 808; 78; 799; 101; 1161; 852; 804; 122; 112; 814; 813; 840; 799; 233; 841; 840; 7771; 825; 796; 826; 813; 853; 100; 826; 810;
   796; 839; 851; 105; 798; 225; 853; 825; 803; 827; 110; 841; 856; 32; 791; 852; 813; 865; 104; 818; 854; 803; 826; 826; 105; 852; 803; 790; 804; 846; 815; 118; 800; 815; 792; 854; 813; 817; 815; 101;
   801; 805; 853; 45; 109; 854; 813; 803; 812; 806; 840; 105; 854; 110; 798; 809; 853; 799; 828; 826; 860; 100; 792; 841; 32; 815; 111; 823; 839; 825; 853; 806; 102; 816; 817; 32; 797; 851; 841; 817;
   810; 810; 99; 840; 818; 796; 826; 104; 792; 858; 97; 798; 852; 813; 816; 815; 791; 797; 111; 793; 845; 115; 845; 839; 817; 851; 46; 821; 853; 816; 857; 840; 837; 32; 815; 798; 840; 798; 817; 790;
   90; 815; 814; 826; 804; 805; 810; 789; 97; 847; 826; 791; 828; 812; 791; 7739; 103; 866; 111; 805; 817; 828; 46; 826; 796; 839; 865; 837; 32; 820; 851; 854; 813; 809; 846; 791; 9; 807; 810; 840;
   817; 825; 819; 854; 857; 72; 821; 816; 804; 816; 853; 790; 101; 795; 32; 858; 841; 791; 828; 798; 119; 822; 809; 805; 841; 814; 104; 809; 826; 810; 809; 856; 837; 7885; 846; 841; 799; 32; 796; 809;
   852; 806; 792; 837; 87; 810; 811; 809; 803; 818; 852; 819; 97; 847; 852; 819; 854; 105; 854; 860; 116; 851; 804; 800; 851; 857; 115; 792; 816; 809; 805; 793; 797; 837; 32; 818; 800; 812; 805; 66;
   101; 801; 793; 811; 806; 104; 816; 809; 105; 795; 811; 857; 852; 813; 804; 791; 818; 110; 819; 862; 100; 824; 32; 846; 827; 856; 84; 795; 839; 797; 818; 825; 800; 791; 837; 104; 811; 806; 797; 837;
   101; 809; 811; 863; 32; 851; 854; 828; 87; 853; 819; 846; 858; 793; 805; 261; 793; 108; 792; 858; 826; 852; 862; 837; 108; 819; 845; 793; 804; 804; 814; 819; 46; 802; 9; 799; 826; 796; 793; 841;
   90; 804; 818; 793; 793; 846; 805; 797; 65; 846; 803; 852; 793; 856; 76; 805; 827; 791; 819; 827; 819; 819; 866; 71; 841; 790; 815; 851; 798; 809; 806; 79; 825; 825; 826; 33; 793; 840; 846; 798;
   812; 32; 42];
   [1058; 1072; 1085; 32; 1058; 1091; 1088; 259; 32; 1040; 1084; 259; 1096; 32; 1090; 1091; 1088; 259; 1096; 277; 32; 8212; 32; 1058; 1091; 1088; 1072; 1084; 259; 1096; 32; 1061; 1088; 1080; 1089; 1090; 1086; 1089; 32; 1087;
   1077; 1087; 1082; 1077; 1085; 1077; 32; 1072; 1083; 1083; 1080; 1085; 1095; 1077; 32; 1090; 1099; 1090; 1089; 1072; 32; 1083; 1072; 1088; 1085; 1080; 1085; 1077; 32; 1089; 259; 1085; 1072; 1088; 1083; 1072; 1082; 1072; 1085; 32;
   1090; 1091; 1088; 259; 1096; 44; 32; 259; 1085; 1072; 32; 1045; 1083; 1077; 1091; 1089; 1072; 32; 40; 1070; 1084; 1072; 1088; 1090; 1083; 259; 1093; 41; 32; 1084; 1077; 1083; 277; 1087; 1077; 32; 231; 1099; 1088; 1085;
   259; 46; 32; 1058; 1091; 1088; 259; 1096; 32; 1080; 1082; 277; 32; 1077; 1085; 1083; 277; 44; 32; 1093; 1099; 231; 1072; 1083; 1090; 1080; 32; 1077; 1085; 277; 1085; 1095; 1077; 32; 1058; 1091; 1088; 259; 32; 1040;
   1084; 259; 1096; 32; 1042; 1080; 1083; 1085; 1080; 1085; 1077; 32; 1267; 1082; 1077; 1088; 1085; 277; 46; 32; 1061; 1072; 1083; 259; 1093; 32; 1089; 259; 1084; 1072; 1093; 277; 1087; 1077; 32; 40; 1058; 1072; 1085; 32;
   1084; 259; 1085; 1072; 1089; 1090; 259; 1088; 277; 1085; 32; 49; 54; 57; 50; 32; 231; 1091; 1083; 1093; 1080; 32; 1082; 277; 1085; 1077; 1082; 1080; 1085; 1095; 1077; 32; 231; 1099; 1088; 1085; 1080; 1087; 1077; 41;
   44; 32; 1057; 1080; 1088; 1086; 1090; 1080; 1085; 32; 1093; 1091; 1083; 1080; 1085; 1095; 1077; 1085; 32; 1090; 1072; 1085; 32; 1082; 1072; 99; 1072; 1082; 277; 1089; 1077; 1084; 32; 1084; 1091; 1089; 1082; 1072; 1074; 32;
   1082; 1085; 1077; 231; 1085; 1077; 44; 32; 1058; 1072; 1085; 32; 1044; 1084; 1080; 1090; 1088; 1080; 1081; 1085; 1077; 32; 1050; 1091; 1083; 1080; 1082; 1086; 1074; 1086; 32; 231; 1072; 1087; 259; 231; 259; 1074; 277; 32;
   1091; 1084; 277; 1085; 32; 40; 49; 51; 56; 48; 32; 231; 1091; 1083; 41; 32; 1087; 1072; 1088; 1085; 1077; 1083; 1077; 1085; 277; 46; 32; 1042; 1099; 1088; 259; 1089; 32; 1063; 1080; 1088; 1082; 277; 1074; 277;
   1085; 1095; 1077; 32; 1072; 1089; 1072; 1084; 1083; 259; 32; 1090; 1091; 1088; 259; 1096; 32; 1096; 1091; 1090; 1083; 1072; 1085; 1089; 1072; 32; 1093; 1080; 1089; 1077; 1087; 1083; 277; 32; 1074; 1099; 1088; 259; 1085; 32;
   1081; 1099; 1096; 259; 1085; 1072; 1090; 1100; 46];
   [74; 97; 99; 113; 117; 101; 115; 32; 77; 97; 114; 105; 101; 32; 201; 109; 105; 108; 101; 32; 76; 97; 99; 97; 110; 32; 40; 112; 114; 111; 110; 117; 110; 99; 105; 97; 99; 105; 243; 110;
   32; 101; 110; 32; 102; 114; 97; 110; 99; 233; 115; 58; 32; 47; 658; 97; 107; 32; 108; 97; 107; 593; 771; 47; 59; 32; 80; 97; 114; 237; 115; 44; 32; 49; 51; 32; 100; 101; 32; 97;
   98; 114; 105; 108; 32; 100; 101; 32; 49; 57; 48; 49; 45; 105; 98; 237; 100; 101; 109; 44; 32; 57; 32; 100; 101; 32; 115; 101; 112; 116; 105; 101; 109; 98; 114; 101; 32; 100; 101; 32;
   49; 57; 56; 49; 41; 32; 102; 117; 101; 32; 117; 110; 32; 112; 115; 105; 113; 117; 105; 97; 116; 114; 97; 32; 121; 32; 112; 115; 105; 99; 111; 97; 110; 97; 108; 105; 115; 116; 97; 32;
   102; 114; 97; 110; 99; 233; 115; 32; 99; 111; 110; 111; 99; 105; 100; 111; 32; 112; 111; 114; 32; 108; 111; 115; 32; 97; 112; 111; 114; 116; 101; 115; 32; 116; 101; 243; 114; 105; 99; 111;
   115; 32; 113; 117; 101; 32; 104; 105; 122; 111; 32; 97; 108; 32; 112; 115; 105; 99; 111; 97; 110; 225; 108; 105; 115; 105; 115; 44; 32; 115; 111; 98; 114; 101; 32; 108; 97; 32; 98; 97;
   115; 101; 32; 100; 101; 32; 108; 97; 32; 101; 120; 112; 101; 114; 105; 101; 110; 99; 105; 97; 32; 97; 110; 97; 108; 237; 116; 105; 99; 97; 32; 121; 32; 101; 110; 32; 108; 97; 32; 108;
   101; 99; 116; 117; 114; 97; 32; 100; 101; 32; 83; 105; 103; 109; 117; 110; 100; 32; 70; 114; 101; 117; 100; 44; 32; 99; 111; 109; 98; 105; 110; 97; 100; 97; 32; 99; 111; 110; 32; 101;
   108; 101; 109; 101; 110; 116; 111; 115; 32; 100; 101; 32; 108; 97; 32; 102; 105; 108; 111; 115; 111; 102; 237; 97; 44; 32; 101; 108; 32; 101; 115; 116; 114; 117; 99; 116; 117; 114; 97; 108;
   105; 115; 109; 111; 44; 32; 108; 97; 32; 108; 105; 110; 103; 252; 237; 115; 116; 105; 99; 97; 32; 101; 115; 116; 114; 117; 99; 116; 117; 114; 97; 108; 32; 121; 32; 108; 97; 115; 32; 109;
   97; 116; 101; 109; 225; 116; 105; 99; 97; 115; 46];
   [83; 118; 283; 116; 108; 97; 32; 118; 101; 108; 107; 111; 109; 283; 115; 116; 97; 32; 40; 97; 110; 103; 108; 105; 99; 107; 121; 32; 67; 105; 116; 121; 32; 76; 105; 103; 104; 116; 115; 41;
   32; 106; 101; 32; 97; 109; 101; 114; 105; 99; 107; 253; 32; 110; 283; 109; 253; 32; 102; 105; 108; 109; 32; 115; 116; 117; 100; 105; 97; 32; 85; 110; 105; 116; 101; 100; 32; 65; 114; 116;
   105; 115; 116; 115; 32; 122; 32; 114; 111; 107; 117; 32; 49; 57; 51; 49; 46; 32; 83; 110; 237; 109; 101; 107; 32; 114; 101; 382; 237; 114; 111; 118; 97; 108; 32; 67; 104; 97; 114; 108;
   105; 101; 32; 67; 104; 97; 112; 108; 105; 110; 32; 97; 32; 115; 225; 109; 32; 115; 105; 32; 105; 32; 122; 97; 104; 114; 225; 108; 32; 104; 108; 97; 118; 110; 237; 32; 114; 111; 108; 105;
   46; 32; 70; 105; 108; 109; 32; 115; 108; 101; 100; 117; 106; 101; 32; 382; 105; 118; 111; 116; 110; 237; 32; 112; 101; 114; 105; 112; 101; 116; 105; 101; 32; 116; 121; 112; 105; 99; 107; 233;
   32; 67; 104; 97; 112; 108; 105; 110; 111; 118; 121; 32; 112; 111; 115; 116; 97; 118; 121; 32; 84; 117; 108; 225; 107; 97; 44; 32; 107; 116; 101; 114; 253; 32; 115; 101; 32; 122; 97; 109;
   105; 108; 117; 106; 101; 32; 100; 111; 32; 115; 108; 101; 112; 233; 32; 100; 237; 118; 107; 121; 32; 97; 32; 122; 237; 115; 107; 225; 32; 112; 111; 110; 283; 107; 117; 100; 32; 118; 114; 116;
   107; 97; 118; 233; 32; 112; 345; 225; 116; 101; 108; 115; 116; 118; 237; 32; 97; 108; 107; 111; 104; 111; 108; 105; 99; 107; 233; 104; 111; 32; 109; 105; 108; 105; 111; 110; 225; 345; 101; 46;
   32; 67; 104; 97; 112; 108; 105; 110; 32; 116; 114; 118; 97; 108; 32; 110; 97; 32; 107; 111; 110; 99; 101; 112; 116; 117; 32; 110; 283; 109; 233; 104; 111; 32; 102; 105; 108; 109; 117; 44;
   32; 112; 345; 101; 115; 116; 111; 382; 101; 32; 98; 121; 108; 32; 118; 32; 111; 98; 100; 111; 98; 237; 32; 112; 345; 237; 112; 114; 97; 118; 32; 102; 105; 108; 109; 32; 122; 118; 117; 107;
   111; 118; 253; 32; 106; 105; 382; 32; 110; 97; 32; 115; 118; 233; 109; 32; 118; 122; 101; 115; 116; 117; 112; 117; 46; 32; 78; 97; 116; 225; 269; 101; 110; 237; 32; 122; 97; 269; 97; 108;
   111; 32; 118; 32; 112; 114; 111; 115; 105; 110; 99; 105; 32; 49; 57; 50; 56; 32; 97; 32; 116; 114; 118; 97; 108; 111; 32; 97; 382; 32; 100; 111; 32; 122; 225; 345; 237; 32; 49; 57;
   51; 48; 46; 32; 90; 97; 32; 112; 111; 117; 104; 253; 99; 104; 32; 353; 101; 115; 116; 32; 116; 253; 100; 110; 367; 32; 107; 32; 102; 105; 108; 109; 117; 32; 118; 122; 110; 105; 107; 108;
   97; 32; 100; 111; 112; 114; 111; 118; 111; 100; 110; 225; 32; 104; 117; 100; 98; 97; 44; 32; 107; 116; 101; 114; 111; 117; 32; 112; 111; 112; 114; 118; 233; 32; 110; 97; 112; 115; 97; 108;
   32; 115; 225; 109; 32; 114; 101; 382; 105; 115; 233; 114; 44; 32; 97; 32; 116; 111; 32; 118; 101; 32; 115; 112; 111; 108; 117; 112; 114; 225; 99; 105; 32; 115; 101; 32; 115; 107; 108; 97;
   100; 97; 116; 101; 108; 101; 109; 32; 65; 114; 116; 104; 117; 114; 101; 109; 32; 74; 111; 104; 110; 115; 116; 111; 110; 101; 109; 46];
   [2476; 2495; 2487; 2509; 2467; 2497; 2474; 2509; 2480; 2495; 2479; 2492; 2494; 32; 2478; 2467; 2495; 2474; 2497; 2480; 2496; 32; 2464; 2494; 2480; 32; 2447; 2489; 2494; 2472; 32; 2477; 2494; 2480; 2468; 2480; 32; 2437; 2488; 2478;
   44; 32; 2468; 2509; 2480; 2495; 2474; 2497; 2480; 2494; 44; 32; 2478; 2467; 2495; 2474; 2497; 2480; 32; 2476; 2494; 2480; 2507; 32; 2476; 2494; 2434; 2482; 2494; 2470; 2503; 2486; 44; 32; 2478; 2494; 2479; 2492; 2494; 2472;
   2478; 2494; 2480; 32; 2476; 2494; 2470; 2503; 2441; 32; 2438; 2480; 2494; 2453; 2441; 32; 2470; 2503; 2486; 32; 2453; 2468; 2489; 2494; 2468; 32; 2437; 2468; 2494; 2480; 2468; 2494; 2480; 2494; 44; 32; 2464; 2494; 2480; 32;
   2447; 2489; 2494; 2472; 32; 2439; 2472; 2509; 2470; 2507; 45; 2438; 2480; 2509; 2479; 2480; 32; 2464; 2494; 2480; 32; 2476; 2494; 2434; 2482; 2494; 44; 32; 2437; 2489; 2478; 2496; 2479; 2492; 2494; 44; 32; 2451; 2465; 2492;
   2495; 2479; 2492; 2494; 32; 2464; 2494; 2480; 2503; 2468; 2509; 2468; 2441; 32; 2468; 2457; 2494; 2482; 2404; 32; 2476; 2495; 2487; 2509; 2467; 2497; 2474; 2509; 2480; 2495; 2479; 2492; 2494; 32; 2478; 2467; 2495; 2474; 2497; 2480;
   2496; 32; 2464; 2494; 2480; 32; 2447; 2489; 2494; 2472; 32; 2478; 2497; 2482; 2468; 32; 2477; 2494; 2480; 2468; 2480; 32; 2478; 2467; 2495; 2474; 2497; 2480; 32; 2476; 2494; 2480; 2507; 32; 2478; 2467; 2495; 2474; 2497; 2480;
   32; 2480; 2494; 2460; 2509; 2479; 2480; 32; 2489; 2478; 2476; 2497; 2453; 2503; 32; 2438; 2488; 2503; 32; 2482; 2455; 2468; 2494; 2453; 2480; 32; 2458; 2494; 2480; 2495; 2479; 2492; 2476; 2494; 2480; 2503; 2470; 2503; 32; 2438;
   2488; 2503; 32; 2482; 2479; 2492; 2494; 32; 2437; 2468; 2494; 2468; 32; 2489; 2457; 2488; 2503; 2489; 2494; 2472; 32; 2476; 2494; 2480; 2507; 32; 2478; 2497; 2457; 2476; 2494; 2480; 2503; 2488; 2503; 2489; 2494; 2472; 2404; 32;
   2464; 2494; 2480; 2489; 2494; 2472; 2480; 32; 2476; 2494; 2480; 2494; 2470; 2503; 32; 2489; 2494; 2476; 2495; 2480; 32; 2474; 2479; 2492; 2482; 2494; 2453; 2494; 32; 2476; 2494; 32; 2489; 2494; 2476; 2509; 2476; 2495; 2468; 2509;
   2468; 32; 2474; 2497; 2480; 2494; 2472; 2494; 32; 2468; 2469; 2509; 2479; 32; 2441; 2510; 2488; 2489; 2494; 2472; 32; 2535; 2542; 2486; 32; 2486; 2468; 2494; 2476; 2509; 2470; 2496; 2468; 32; 2439; 2453; 2480; 2495; 2488; 2495;
   32; 2474; 2467; 2509; 2465; 2495; 2468; 32; 2472; 2476; 2454; 2503; 2472; 2509; 2470; 2509; 2480; 32; 2486; 2480; 2509; 2478; 2509; 2478; 2494; 2480; 32; 39; 2454; 2497; 2478; 2482; 32; 2474; 2497; 2480; 2494; 2472; 39; 32;
   2476; 2497; 2482; 2468; 2494; 2480; 2494; 32; 2482; 2503; 2480; 2495; 2453; 32; 2447; 2489; 2494; 2468; 32; 2474; 2503; 2479; 2492; 2494; 2480; 2404; 32; 2438; 2480; 2468; 2494; 32; 2441; 2482; 2509; 2482; 2503; 2454; 2479; 2507;
   2455; 2509; 2479; 32; 2441; 2510; 2488; 32; 2474; 2503; 2479; 2492; 2494; 2480; 2468; 2494; 32; 2478; 2503; 2460; 2480; 32; 2478; 2503; 2453; 2453; 2497; 2482; 2494; 2453; 2480; 32; 65; 110; 32; 97; 99; 99; 111; 117;
   110; 116; 32; 111; 102; 32; 116; 104; 101; 32; 118; 97; 108; 108; 101; 121; 32; 111; 102; 32; 77; 97; 110; 105; 112; 111; 114; 101; 44; 32; 2439; 46; 2463; 2495; 46; 32; 2465; 2494; 2482; 2463;
   2472; 2480; 32; 68; 101; 115; 99; 114; 105; 112; 116; 105; 118; 101; 32; 69; 116; 104; 110; 111; 108; 111; 103; 121; 32; 111; 102; 32; 66; 101; 110; 103; 97; 108; 32; 2476; 2494; 2480; 2507; 32;
   2488; 2509; 2479; 2494; 2480; 32; 2460; 2495; 46; 2447; 46; 32; 2455; 2509; 2480; 2495; 2479; 2492; 2494; 2480; 2509; 2488; 2472; 2480; 32; 76; 105; 110; 103; 117; 105; 115; 116; 105; 99; 32; 83; 117; 114; 118;
   101; 121; 32; 111; 102; 32; 73; 110; 100; 105; 97; 32; 2482; 2503; 2480; 2495; 2453; 32; 2447; 2489; 2494; 2472; 2495; 2468; 32; 2478; 2494; 2468; 2503; 2488; 2495; 2468; 2494; 32; 2464; 2494; 2480; 32; 2447; 2489;
   2494; 2472; 32; 2535; 2543; 2486; 32; 2486; 2468; 2494; 2476; 2509; 2470; 2496; 2468; 2480; 32; 2438; 2455; 2503; 32; 2478; 2467; 2495; 2474; 2497; 2480; 2503; 32; 2438; 2488; 2495; 2482; 2404; 32; 2465; 46; 32; 2455; 2495;
   2479; 2492; 2494; 2480; 2509; 2488; 2472; 32; 2455; 2495; 2480; 2453; 2503; 32; 2464; 2494; 2480; 32; 2447; 2489; 2494; 2472; 2480; 2503; 32; 2476; 2495; 2487; 2509; 2467; 2497; 2474; 2497; 2480; 2495; 2479; 2492; 2494; 32; 2478;
   2467; 2495; 2474; 2497; 2480; 2496; 32; 2476; 2497; 2482; 2495; 2479; 2492; 2494; 32; 2478; 2494; 2468; 2503; 2488; 2503; 32; 2437; 2472; 2509; 2479; 2468; 2494; 2479; 2492; 32; 2479; 2503; 2474; 2494; 2455; 2494; 32; 2489; 2497;
   2470; 2509; 2470; 2494; 32; 2476; 2495; 2487; 2509; 2467; 2497; 2474; 2509; 2480; 2495; 2479; 2492; 2494; 32; 2476; 2497; 2482; 2495; 2479; 2492; 2494; 32; 2478; 2494; 2468; 2503; 2488; 2495; 2404; 32; 2478; 2497; 2482; 2468; 32;
   2464; 2494; 2480; 32; 2447; 2489; 2494; 2472; 32; 2478; 2467; 2495; 2474; 2497; 2480; 2480; 32; 2454; 2494; 2457; 2494; 2476; 2497; 2453; 44; 32; 2489; 2503; 2439; 2480; 2497; 2453; 44; 32; 2478; 2495; 2479; 2492; 2494; 2434;
   32; 2439; 2478; 2509; 2475; 2482; 44; 32; 2476; 2495; 2487; 2509; 2467; 2497; 2474; 2497; 2480; 32; 2454; 2497; 2472; 2508; 44; 32; 2472; 2434; 2469; 2508; 2454; 2434; 44; 32; 2457; 2494; 2439; 2454; 2434; 32; 2476; 2494;
   2480; 2507; 32; 2469; 2494; 2478; 2494; 2472; 2474; 2453; 2474; 2495; 32; 2482; 2479; 2492; 2494; 2468; 2509; 2468; 32; 2458; 2482; 2495; 2479; 2492; 2494; 32; 2438; 2489; 2503; 2480; 2489; 2494; 2472; 2404];
   [12452; 12458; 12395; 12399; 52; 48; 48; 20491; 12434; 36229; 12360; 12427; 28779; 23665; 12364; 12354; 12426; 12289; 22826; 38525; 31995; 20869; 12391; 26368; 12418; 22320; 36074; 23398; 30340; 12395; 27963; 30330; 12394; 22825; 20307; 12391; 12354; 12427; 91; 53;
   93; 91; 54; 93; 12290; 12371; 12398; 26997; 31471; 12394; 22320; 36074; 27963; 21205; 12399; 12289; 26408; 26143; 12392; 20182; 12398; 12460; 12522; 12524; 12458; 34907; 26143; 12391; 12354; 12427; 12456; 12454; 12525; 12497; 12289; 12460; 12491; 12513; 12487; 12392;
   12398; 37325; 21147; 30456; 20114; 20316; 29992; 12395; 20276; 12358; 12452; 12458; 20869; 37096; 12391; 12398; 28526; 27728; 21152; 29105; 12398; 32080; 26524; 12391; 12354; 12427; 91; 55; 93; 12290; 12356; 12367; 12388; 12363; 12398; 28779; 23665; 12399; 30827; 40644;
   12392; 20108; 37240; 21270; 30827; 40644; 12398; 22132; 29017; 12434; 30330; 29983; 12373; 12379; 12390; 12362; 12426; 12289; 12381; 12398; 39640; 12373; 12399; 34920; 38754; 12363; 12425; 32; 53; 48; 48; 32; 107; 109; 32; 12395; 12418; 36948; 12377; 12427;
   12290; 12452; 12458; 12398; 34920; 38754; 12395; 12399; 49; 48; 48; 20197; 19978; 12398; 23665; 12418; 35211; 12425; 12428; 12289; 12452; 12458; 12398; 23721; 30707; 22320; 27579; 12398; 24213; 37096; 12395; 12362; 12369; 12427; 22311; 32302; 12395; 12424; 12387; 12390;
   25345; 12385; 19978; 12370; 12425; 12428; 24418; 25104; 12373; 12428; 12383; 12392; 32771; 12360; 12425; 12428; 12427; 12290; 12371; 12428; 12425; 12398; 12358; 12385; 12356; 12367; 12388; 12363; 12399; 12456; 12505; 12524; 12473; 12488; 12424; 12426; 12418; 39640; 12356; 91;
   56; 93; 12290; 22823; 37096; 20998; 12364; 27700; 12398; 27703; 12363; 12425; 12394; 12427; 22823; 37096; 20998; 12398; 22826; 38525; 31995; 36960; 26041; 12398; 34907; 26143; 12392; 12399; 30064; 12394; 12426; 12289; 12452; 12458; 12398; 20027; 25104; 20998; 12399; 23721;
   30707; 12391; 12354; 12426; 12289; 28342; 12369; 12383; 37444; 12418; 12375; 12367; 12399; 30827; 21270; 37444; 12398; 26680; 12434; 23721; 30707; 12364; 21462; 12426; 22258; 12435; 12384; 27083; 36896; 12434; 12375; 12390; 12356; 12427; 12290; 12452; 12458; 12398; 34920; 38754;
   12398; 22823; 37096; 20998; 12399; 12289; 30827; 40644; 12392; 20108; 37240; 21270; 30827; 40644; 12398; 38684; 12391; 35206; 12431; 12428; 12383; 24195; 12356; 24179; 21407; 12363; 12425; 12394; 12387; 12390; 12356; 12427; 12290];
   [1061; 1072; 1083; 1099; 1082; 1072; 1088; 1072; 32; 1093; 1072; 1090; 1099; 1085; 45; 1082; 1099; 1079; 1083; 1072; 1088; 32; 1082; 1257; 1085; 1077; 32; 8212; 32; 1093; 1072; 1090; 1099; 1085; 45; 1082; 1099; 1079; 1083; 1072;
   1088; 1085; 1099; 1187; 32; 1080; 1088; 1083; 1241; 1088; 32; 1073; 1077; 1083; 1241; 1085; 32; 1093; 1086; 1082; 1091; 1082; 1099; 1081; 32; 1090; 1080; 1075; 1077; 1079; 1083; 1077; 1075; 1077; 44; 32; 1082; 1077; 1096; 1077;
   1083; 1241; 1088; 32; 1175; 1241; 1084; 1075; 1099; 1103; 1090; 1077; 1085; 1076; 1241; 32; 1093; 1072; 1090; 1099; 1085; 45; 1082; 1099; 1079; 32; 1093; 1086; 1082; 1091; 1082; 1083; 1072; 1088; 1099; 1085; 32; 1082; 1080; 1187;
   1241; 1081; 1090; 1199; 1075; 1241; 32; 1102; 1085; 1241; 1083; 1075; 1241; 1085; 32; 1082; 1257; 1088; 1241; 1096; 1090; 1241; 32; 1093; 1072; 1083; 1099; 1082; 1072; 1088; 1072; 32; 1089; 1241; 1103; 1089; 1080; 32; 1095; 1072;
   1088; 1072; 1083; 1072; 1088; 32; 1199; 1090; 1082; 1241; 1088; 1199; 32; 1257; 1095; 1077; 1085; 32; 1073; 1080; 1083; 1075; 1077; 1083; 1241; 1085; 1075; 1241; 1085; 32; 1082; 1257; 1085; 44; 32; 1211; 1241; 1088; 32; 1077;
   1083; 1085; 1099; 1187; 32; 56; 32; 1084; 1072; 1088; 1090; 32; 1082; 1257; 1085; 1077; 1085; 1241; 32; 1090; 1257; 1096; 1241; 46];
   [1662; 1585; 1608; 1688; 1607; 8204; 1606; 1740; 1606; 32; 1578; 1575; 1585; 1740; 1582; 1740; 32; 1777; 1785; 1785; 1785; 45; 1580; 1735; 32; 1575; 1740; 1604; 1583; 1606; 32; 1576; 1575; 1588; 1604; 1575; 1740; 1740; 1585; 46;
   32; 1662; 1585; 1608; 1688; 1607; 8204; 1606; 1740; 1606; 32; 1576; 1575; 1588; 32; 1585; 1583; 1575; 1705; 1578; 1608; 1618; 1585; 1608; 1548; 32; 1578; 1588; 1705; 1740; 1604; 1575; 1578; 1670; 1740; 1587; 1740; 32; 1604; 1575;
   1585; 1740; 32; 1587; 1606; 1602; 1585; 32; 40; 76; 97; 114; 114; 105; 32; 83; 101; 110; 113; 101; 114; 41; 32; 1608; 32; 1576; 1608; 1618; 1605; 1740; 1587; 32; 40; 66; 111; 109; 105; 115; 41; 32;
   1705; 1608; 1618; 1605; 1662; 1575; 1606; 1740; 1740; 1575; 1587; 1740; 8204; 1606; 1740; 1606; 32; 1575; 1740; 1580; 1585; 1575; 1670; 1740; 32; 1583; 1740; 1585; 1705; 1578; 1608; 1618; 1585; 1608; 1548; 32; 1604; 1575; 1740; 1740;
   1581; 1607; 8204; 1606; 1740; 32; 1605; 1575; 1604; 1740; 1607; 8204; 1604; 1588; 1583; 1740; 1585; 1606; 32; 1580; 1740; 1605; 1740; 32; 1575; 1735; 1604; 1587; 32; 40; 67; 105; 109; 109; 105; 32; 85; 101; 108; 115;
   41; 32; 1608; 1740; 1705; 1740; 32; 1578; 1705; 1606; 1608; 1618; 1604; 1608; 1618; 1688; 1740; 1587; 1740; 32; 1575; 1587; 1575; 1587; 1740; 1606; 1583; 1575; 32; 1570; 1606; 1604; 1575; 1740; 1606; 32; 1576; 1740; 1604; 1740;
   1705; 1604; 1740; 1705; 32; 1740; 1575; 1585; 1575; 1578; 1605; 1575; 1602; 32; 1602; 1585; 1575; 1585; 1740; 1606; 1575; 32; 1711; 1604; 1607; 8204; 1585; 1705; 32; 1575; 1608; 1618; 1606; 1608; 32; 1606; 1735; 1662; 1583; 1740;
   1575; 32; 40; 78; 117; 80; 101; 100; 105; 97; 46; 99; 111; 109; 41; 32; 1570; 1583; 1604; 1575; 1606; 1583; 1740; 1585; 1583; 1740; 1604; 1575; 1585; 46; 32; 1606; 1735; 1662; 1583; 1740; 1575; 32; 1608; 1740;
   1585; 1670; 1608; 1575; 1604; 32; 1576; 1740; 1604; 1740; 1705; 1604; 1740; 1711; 1740; 32; 40; 1605; 1580; 1575; 1586; 1740; 32; 1576; 1740; 1604; 1740; 1705; 1604; 1740; 1711; 1740; 41; 1548; 32; 1778; 1776; 1776; 1776; 45;
   1580; 1740; 32; 1575; 1740; 1604; 1740; 1606; 32; 1605; 1575; 1585; 1587; 32; 1570; 1740; 1740; 1606; 1583; 1575; 1606; 32; 1601; 1593; 1575; 1604; 1740; 1578; 1607; 32; 1576; 1575; 1588; 1604; 1575; 1583; 1740; 46; 32; 1575;
   1740; 1606; 1711; 1740; 1604; 1740; 1587; 32; 1583; 1740; 1604; 1740; 1606; 1583; 1607; 32; 1740; 1575; 1585; 1575; 1583; 1740; 1604; 1605; 1740; 1588; 32; 1576; 1735; 32; 1576; 1740; 1604; 1740; 1705; 1604; 1740; 1711; 1740; 32;
   1608; 1740; 1705; 1740; 45; 1587; 1575; 1740; 1578; 32; 1581; 1587; 1575; 1576; 32; 1575; 1574; 1578; 1605; 1705; 32; 1575; 1608; 1618; 1604; 1605; 1575; 1586; 1583; 1740; 46; 32; 1575; 1608; 1618; 1606; 1608; 1606; 32; 1575;
   1587; 1575; 1587; 1740; 1606; 1740; 32; 1593; 1575; 1604; 1740; 1605; 32; 1608; 32; 1605; 1734; 1578; 1582; 1589; 1610; 1589; 1604; 1585; 32; 1591; 1585; 1601; 1740; 1606; 1583; 1606; 32; 1605; 1602; 1575; 1604; 1607; 8204; 1604;
   1585; 1740; 1606; 32; 1583; 1602; 1740; 1602; 32; 1740; 1608; 1618; 1582; 1604; 1575; 1606; 1605; 1575; 1587; 1740; 32; 1578; 1588; 1705; 1740; 1604; 32; 1575; 1574; 1583; 1740; 1585; 1583; 1740; 46; 32; 1606; 1735; 1662; 1583;
   1740; 1575; 1583; 1575; 32; 1605; 1602; 1575; 1604; 1607; 8204; 1604; 1585; 1740; 1606; 32; 1583; 1575; 1582; 1740; 1604; 32; 1575; 1608; 1618; 1604; 1608; 1606; 1605; 1575; 1587; 1740; 32; 1662; 1585; 1608; 1618; 1587; 1607; 8204;
   1587; 1740; 32; 1670; 1608; 1618; 1582; 32; 1604; 1606; 1711; 32; 1711; 1574; 1578; 1583; 1740; 1711; 1740; 1606; 1583; 1606; 32; 1575; 1608; 1618; 1606; 1608; 1606; 32; 1576; 1575; 1594; 1604; 1575; 1606; 1605; 1575; 1587; 1740;
   32; 1581; 1575; 1602; 1740; 1606; 1583; 1575; 32; 1602; 1585; 1575; 1585; 32; 1602; 1576; 1608; 1604; 32; 1575; 1574; 1583; 1740; 1604; 1583; 1740; 32; 1608; 32; 1778; 1776; 1776; 1779; 45; 1580; 1734; 32; 1575; 1740; 1604;
   1740; 1606; 32; 1587; 1606; 1578; 1740; 1575; 1576; 1585; 32; 1570; 1740; 1740; 1606; 1583; 1575; 32; 1576; 1575; 1594; 1604; 1575; 1606; 1583; 1740; 46; 32; 1606; 1735; 1662; 1583; 1740; 1575; 32; 1576; 1740; 1604; 1740; 1705;
   1604; 1740; 1711; 1740; 32; 1576; 1575; 1594; 1604; 1575; 1606; 1575; 1585; 1705; 1606; 32; 1575; 1608; 1618; 1585; 1575; 1583; 1575; 32; 1778; 1780; 32; 1578; 1575; 1605; 1575; 1605; 1604; 1575; 1606; 1605; 1740; 1588; 1548; 32;
   1783; 1780; 32; 1740; 1608; 1618; 1582; 1604; 1575; 1605; 1575; 32; 1662; 1585; 1608; 1618; 1587; 1607; 8204; 1587; 1740; 1606; 1583; 1607; 32; 1575; 1608; 1618; 1604; 1575; 1606; 32; 1605; 1602; 1575; 1604; 1607; 32; 1608; 1575;
   1585; 32; 1575; 1740; 1583; 1740; 46];
   [84; 97; 114; 105; 104; 115; 101; 108; 32; 111; 108; 97; 114; 97; 107; 32; 80; 97; 114; 105; 115; 32; 75; 111; 109; 252; 110; 252; 32; 115; 97; 121; 305; 108; 109; 97; 122; 115; 97; 44;
   32; 77; 97; 114; 107; 115; 105; 115; 116; 45; 76; 101; 110; 105; 110; 105; 115; 116; 32; 105; 108; 107; 101; 108; 101; 114; 32; 105; 108; 107; 32; 111; 108; 97; 114; 97; 107; 32; 49; 57;
   49; 55; 32; 121; 305; 108; 305; 110; 100; 97; 32; 103; 101; 114; 231; 101; 107; 108; 101; 351; 101; 110; 32; 69; 107; 105; 109; 32; 68; 101; 118; 114; 105; 109; 105; 39; 110; 100; 101; 110;
   32; 115; 111; 110; 114; 97; 32; 83; 111; 118; 121; 101; 116; 108; 101; 114; 32; 66; 105; 114; 108; 105; 287; 105; 39; 110; 100; 101; 32; 117; 121; 103; 117; 108; 97; 110; 100; 305; 32; 118;
   101; 32; 97; 114; 100; 305; 110; 100; 97; 110; 32; 100; 101; 118; 108; 101; 116; 105; 110; 32; 114; 101; 115; 109; 105; 32; 105; 100; 101; 111; 108; 111; 106; 105; 115; 105; 32; 104; 97; 108;
   105; 110; 101; 32; 103; 101; 108; 100; 105; 46; 32; 65; 121; 114; 305; 99; 97; 32; 252; 108; 107; 101; 100; 101; 32; 77; 97; 114; 107; 115; 105; 122; 109; 45; 76; 101; 110; 105; 110; 105;
   122; 109; 32; 69; 110; 115; 116; 105; 116; 252; 115; 252; 32; 97; 100; 305; 110; 100; 97; 32; 98; 105; 114; 32; 98; 105; 108; 105; 109; 32; 97; 107; 97; 100; 101; 109; 105; 115; 105; 32;
   98; 117; 108; 117; 110; 109; 97; 107; 116; 97; 32; 118; 101; 32; 98; 105; 114; 231; 111; 107; 32; 101; 115; 101; 114; 32; 121; 97; 121; 305; 110; 108; 97; 109; 97; 107; 116; 97; 121; 100;
   305; 46];
   [34081; 20329; 36562; 22312; 50; 48; 49; 54; 24180; 26178; 38283; 22987; 22312; 33225; 26360; 30452; 25773; 33258; 24049; 33258; 24392; 33258; 21809; 91; 53; 93; 65292; 23450; 26399; 23559; 33258; 24049; 32763; 21809; 30340; 27468; 26354; 19978; 20659; 33267;
   32178; 36335; 65292; 22312; 50; 48; 49; 55; 24180; 19978; 21322; 24180; 29190; 32005; 91; 54; 93; 65292; 30070; 24180; 54; 26376; 89; 111; 117; 116; 117; 98; 101; 23601; 24050; 32147; 26377; 49; 52; 46; 54; 33836; 20154; 91;
   55; 93; 91; 56; 93; 65292; 30070; 26178; 22905; 20173; 22312; 23416; 65292; 21363; 20415; 26377; 26178; 24046; 21839; 38988; 65292; 19968; 36913; 20173; 30452; 25773; 19977; 27425; 65292; 26368; 22810; 36229; 36942; 20841; 33836; 20154; 21516; 26178; 35264; 30475;
   91; 57; 93; 65307; 29190; 32005; 20043; 24460; 65292; 22905; 22312; 50; 48; 49; 56; 24180; 56; 26376; 33289; 36774; 20491; 20154; 39318; 22580; 21806; 31080; 28436; 21809; 26371; 65292; 28436; 21809; 26371; 21517; 31281; 21462; 33258; 22905; 22823; 23416;
   30050; 26989; 21069; 30332; 34892; 30340; 20491; 20154; 21934; 26354; 12298; 38738; 26149; 26377; 20320; 12299; 65292; 35442; 39318; 21934; 26354; 21560; 24341; 20102; 29702; 31185; 22826; 22826; 32763; 21809; 91; 49; 48; 93; 65292; 28436; 21809; 26371; 30340; 19968;
   21315; 24373; 38272; 31080; 20840; 25976; 21806; 32580; 91; 49; 49; 93; 65307; 21040; 20102; 50; 48; 49; 57; 24180; 26178; 31038; 32676; 19978; 36229; 36942; 49; 48; 48; 33836; 20154; 38364; 27880; 65292; 30070; 24180; 19978; 21322; 24180; 20849;
   25509; 29554; 36817; 30334; 20491; 24288; 21830; 30340; 36992; 32004; 91; 52; 93; 65292; 27492; 26178; 22905; 22312; 89; 111; 117; 84; 117; 98; 101; 24433; 29255; 32317; 40670; 38321; 27425; 25976; 24050; 32147; 19978; 20740; 65292; 22240; 27492; 35377;
   22810; 21809; 29255; 20844; 21496; 37117; 26377; 21512; 20316; 24847; 39000; 65292; 21407; 26412; 38928; 23450; 30070; 24180; 24213; 30332; 34892; 39318; 24373; 23560; 36655; 65292; 20294; 23565; 26044; 21152; 25343; 22823; 22238; 33274; 28771; 27683; 20505; 30340; 35519; 36969;
   19981; 36969; 25033; 65292; 23566; 33268; 36523; 39636; 20986; 29694; 19981; 33298; 26381; 29376; 27841; 65292; 20351; 20854; 23560; 36655; 36914; 24230; 24310; 23445; 91; 49; 48; 93; 65307; 22312; 30526; 22810; 21809; 29255; 20844; 21496; 30340; 24847; 39000; 19979;
   65292; 22905; 22312; 50; 48; 50; 48; 24180; 50; 26376; 36984; 25799; 21152; 30431; 32034; 23612; 38899; 27138; 91; 49; 50; 93; 65292; 20043; 24460; 22312; 30070; 24180; 20116; 26376; 37323; 25918; 30340; 21934; 26354; 12298; 35352; 24471; 25448; 19981;
   24471; 12299; 25104; 28858; 36899; 32396; 21127; 12298; 28010; 28459; 36664; 32102; 20320; 12299; 30340; 29255; 38957; 26354; 91; 49; 51; 93; 65292; 21516; 26376; 22905; 20063; 28858; 36899; 32396; 21127; 12298; 33509; 26159; 19968; 20491; 20154; 12299; 29563; 21809;
   20027; 38988; 26354; 12298; 24859; 21040; 26126; 20180; 36617; 12299; 65307; 20043; 24460; 22905; 22312; 30070; 24180; 20843; 26376; 25512; 20986; 20491; 20154; 39318; 24373; 23560; 36655; 12298; 65; 82; 73; 69; 76; 12299; 65292; 20006; 22312; 30070; 26085; 26202;
   19978; 33289; 36774; 35738; 32882; 28436; 21809; 26371];
   [932; 959; 32; 49; 56; 53; 56; 44; 32; 959; 32; 922; 940; 961; 959; 955; 959; 962; 32; 916; 945; 961; 946; 943; 957; 959; 962; 32; 954; 945; 953; 32; 959; 32; 902; 955; 966; 961; 949; 957;
   964; 32; 929; 940; 963; 949; 955; 32; 915; 959; 965; 940; 955; 945; 962; 32; 948; 951; 956; 959; 963; 943; 949; 965; 963; 945; 957; 32; 956; 953; 945; 32; 957; 941; 945; 32; 949; 958; 949; 955;
   953; 954; 964; 953; 954; 942; 32; 952; 949; 969; 961; 943; 945; 44; 32; 951; 32; 959; 960; 959; 943; 945; 32; 949; 958; 951; 947; 959; 973; 957; 964; 945; 957; 32; 955; 949; 960; 964; 959; 956;
   949; 961; 974; 962; 32; 963; 964; 959; 32; 941; 961; 947; 959; 32; 964; 959; 965; 32; 916; 945; 961; 946; 943; 957; 959; 965; 44; 32; 922; 945; 964; 945; 947; 969; 947; 942; 32; 964; 969; 957;
   32; 917; 953; 948; 974; 957; 32; 40; 79; 110; 32; 116; 104; 101; 32; 79; 114; 105; 103; 105; 110; 32; 111; 102; 32; 83; 112; 101; 99; 105; 101; 115; 41; 32; 40; 49; 56; 53; 57; 41;
   46; 32; 913; 957; 964; 943; 952; 949; 964; 945; 32; 945; 960; 972; 32; 964; 959; 957; 32; 923; 945; 956; 940; 961; 954; 44; 32; 959; 32; 916; 945; 961; 946; 943; 957; 959; 962; 32; 960; 961;
   972; 964; 949; 953; 957; 949; 32; 954; 959; 953; 957; 942; 32; 954; 945; 964; 945; 947; 969; 947; 942; 32; 954; 945; 953; 32; 948; 953; 945; 954; 955; 945; 948; 953; 950; 972; 956; 949; 957; 959;
   32; 948; 941; 957; 964; 961; 959; 32; 964; 951; 962; 32; 950; 969; 942; 962; 46; 32; 919; 32; 952; 949; 969; 961; 943; 945; 32; 946; 945; 963; 953; 950; 972; 964; 945; 957; 32; 963; 964; 951;
   957; 32; 953; 948; 941; 945; 32; 964; 951; 962; 32; 966; 965; 963; 953; 954; 942; 962; 32; 949; 960; 953; 955; 959; 947; 942; 962; 44; 32; 954; 945; 953; 32; 963; 965; 957; 941; 952; 949; 964;
   949; 32; 941; 957; 945; 32; 949; 965; 961; 973; 32; 966; 940; 963; 956; 945; 32; 963; 964; 959; 953; 967; 949; 943; 969; 957; 32; 945; 960; 972; 32; 964; 951; 957; 32; 954; 964; 951; 957; 959;
   964; 961; 959; 966; 943; 945; 44; 32; 964; 951; 32; 946; 953; 959; 947; 949; 969; 947; 961; 945; 966; 943; 945; 44; 32; 964; 951; 32; 947; 949; 969; 955; 959; 947; 943; 945; 44; 32; 964; 951;
   32; 956; 959; 961; 966; 959; 955; 959; 947; 943; 945; 32; 954; 945; 953; 32; 964; 951; 957; 32; 949; 956; 946; 961; 965; 959; 955; 959; 947; 943; 945; 46];
   [1058; 1072; 1082; 1080; 1084; 32; 1086; 1073; 1088; 1072; 1079; 1086; 1084; 44; 32; 1074; 32; 49; 50; 48; 57; 47; 49; 48; 32; 1075; 1086; 1076; 1091; 32; 1087; 1077; 1088; 1074; 1099; 1084; 32; 1084; 1091; 1078;
   1077; 1084; 32; 1058; 1072; 1084; 1090; 1099; 32; 1089; 1090; 1072; 1083; 32; 1040; 1083; 1100; 45; 1040; 1091; 1093; 1072; 1076; 32; 1040; 1081; 1102; 1073; 1080; 1076; 91; 101; 110; 93; 44; 32; 1089; 1099; 1085; 32;
   1040; 1083; 1100; 45; 1040; 1076; 1080; 1083; 1103; 32; 1080; 32; 1087; 1083; 1077; 1084; 1103; 1085; 1085; 1080; 1082; 32; 1057; 1072; 1083; 1072; 1076; 1080; 1085; 1072; 46; 32; 1055; 1086; 1089; 1083; 1077; 32; 1089; 1082;
   1086; 1088; 1086; 1081; 32; 1089; 1084; 1077; 1088; 1090; 1080; 32; 1040; 1083; 1100; 45; 1040; 1091; 1093; 1072; 1076; 1072; 32; 1061; 1083; 1072; 1090; 32; 1087; 1077; 1088; 1077; 1096; 1105; 1083; 32; 1087; 1086; 1076; 32;
   1082; 1086; 1085; 1090; 1088; 1086; 1083; 1100; 32; 1077; 1075; 1086; 32; 1088; 1086; 1076; 1085; 1086; 1075; 1086; 32; 1073; 1088; 1072; 1090; 1072; 32; 1040; 1083; 1100; 45; 1040; 1096; 1088; 1072; 1092; 1072; 91; 101; 110;
   93; 46; 32; 1058; 1072; 1084; 1090; 1072; 44; 32; 1082; 1072; 1082; 32; 1080; 32; 1061; 1083; 1072; 1090; 44; 32; 1087; 1077; 1088; 1077; 1096; 1083; 1072; 32; 1082; 32; 1040; 1083; 1100; 45; 1040; 1096; 1088; 1072;
   1092; 1091; 32; 1080; 32; 1089; 1090; 1072; 1083; 1072; 32; 1086; 1076; 1085; 1086; 1081; 32; 1080; 1079; 32; 1077; 1075; 1086; 32; 1078; 1105; 1085; 46; 32; 1058; 1072; 1084; 1090; 1077; 32; 1091; 1076; 1072; 1083; 1086;
   1089; 1100; 32; 1076; 1086; 1073; 1080; 1090; 1100; 1089; 1103; 32; 1089; 1085; 1080; 1078; 1077; 1085; 1080; 1103; 32; 1085; 1072; 1083; 1086; 1075; 1086; 1074; 32; 1076; 1083; 1103; 32; 1084; 1086; 1085; 1072; 1089; 1090; 1099;
   1088; 1077; 1081; 46; 32; 1042; 32; 49; 50; 51; 48; 32; 1075; 1086; 1076; 1091; 32; 1044; 1078; 1077; 1083; 1072; 1083; 32; 1072; 1076; 45; 1044; 1080; 1085; 32; 1079; 1072; 1093; 1074; 1072; 1090; 1080; 1083; 32;
   1058; 1072; 1084; 1090; 1091; 32; 1074; 32; 1087; 1083; 1077; 1085; 32; 1080; 32; 1089; 1076; 1077; 1083; 1072; 1083; 32; 1089; 1074; 1086; 1077; 1081; 32; 1078; 1077; 1085; 1086; 1081; 32; 1080; 1083; 1080; 32; 1085; 1072;
   1083; 1086; 1078; 1085; 1080; 1094; 1077; 1081; 46];
   [1041; 1088; 1072; 1074; 32; 1072; 1082; 1090; 1080; 1074; 1085; 1091; 32; 1091; 1095; 1072; 1089; 1090; 1100; 32; 1091; 32; 1088; 1086; 1089; 1110; 1081; 1089; 1100; 1082; 1110; 1081; 32; 1086; 1087; 1077; 1088; 1072; 1094; 1110;
   1111; 32; 1079; 32; 1072; 1085; 1077; 1082; 1089; 1110; 1111; 32; 1050; 1091; 1088; 1083; 1103; 1085; 1076; 1110; 1111; 45; 1057; 1077; 1084; 1080; 1075; 1072; 1083; 1110; 1111; 32; 40; 49; 55; 57; 52; 8212; 49; 55;
   57; 53; 41; 58; 32; 1082; 1077; 1088; 1091; 1074; 1072; 1074; 32; 1087; 1088; 1086; 1088; 1086; 1089; 1110; 1081; 1089; 1100; 1082; 1086; 1102; 32; 1092; 1088; 1072; 1082; 1094; 1110; 1108; 1102; 32; 1074; 32; 1083; 1072;
   1085; 1076; 1090; 1072; 1079; 1110; 44; 32; 1110; 1085; 1110; 1094; 1110; 1102; 1074; 1072; 1074; 32; 1087; 1088; 1080; 1081; 1085; 1103; 1090; 1090; 1103; 32; 1088; 1077; 1079; 1086; 1083; 1102; 1094; 1110; 1081; 32; 1087; 1088;
   1086; 32; 1088; 1086; 1079; 1088; 1080; 1074; 32; 1050; 1091; 1088; 1083; 1103; 1085; 1076; 1110; 1111; 32; 1079; 32; 1055; 1086; 1083; 1100; 1097; 1077; 1102; 32; 1110; 32; 1087; 1088; 1080; 1108; 1076; 1085; 1072; 1085; 1085;
   1103; 32; 1076; 1086; 32; 1056; 1086; 1089; 1110; 1081; 1089; 1100; 1082; 1086; 1111; 32; 1110; 1084; 1087; 1077; 1088; 1110; 1111; 44; 32; 1086; 1095; 1086; 1083; 1102; 1074; 1072; 1074; 32; 1082; 1091; 1088; 1083; 1103; 1085;
   1076; 1089; 1100; 1082; 1091; 32; 1076; 1077; 1083; 1077; 1075; 1072; 1094; 1110; 1102; 32; 1076; 1086; 32; 1057; 1072; 1085; 1082; 1090; 45; 1055; 1077; 1090; 1077; 1088; 1073; 1091; 1088; 1075; 1091; 44; 32; 1076; 1077; 32;
   1086; 1092; 1086; 1088; 1084; 1080; 1074; 32; 1072; 1085; 1077; 1082; 1089; 1110; 1102; 32; 1110; 32; 1089; 1082; 1083; 1072; 1074; 32; 1087; 1088; 1080; 1089; 1103; 1075; 1091; 32; 1085; 1072; 32; 1074; 1110; 1088; 1085; 1110;
   1089; 1090; 1100; 32; 1056; 1086; 1089; 1110; 1111; 46; 32; 1054; 1090; 1088; 1080; 1084; 1072; 1074; 32; 1074; 1110; 1076; 32; 1088; 1086; 1089; 1110; 1081; 1089; 1100; 1082; 1086; 1111; 32; 1110; 1084; 1087; 1077; 1088; 1072;
   1090; 1088; 1080; 1094; 1110; 32; 1050; 1072; 1090; 1077; 1088; 1080; 1085; 1080; 32; 1030; 1030; 32; 1087; 1086; 1089; 1072; 1076; 1091; 32; 1090; 1072; 1108; 1084; 1085; 1086; 1075; 1086; 32; 1088; 1072; 1076; 1085; 1080; 1082;
   1072; 32; 1110; 32; 1084; 1072; 1108; 1090; 1082; 1080; 44; 32; 1072; 32; 1074; 1110; 1076; 32; 1110; 1084; 1087; 1077; 1088; 1072; 1090; 1086; 1088; 1072; 32; 1055; 1072; 1074; 1083; 1072; 32; 73; 32; 8212; 8212; 32;
   1089; 1077; 1085; 1072; 1090; 1086; 1088; 1089; 1090; 1074; 1086; 32; 1110; 32; 1054; 1088; 1076; 1077; 1085; 32; 1089; 1074; 1103; 1090; 1086; 1111; 32; 1040; 1085; 1085; 1080; 32; 49; 45; 1075; 1086; 32; 1089; 1090; 1091;
   1087; 1077; 1085; 1103; 46];
   [1512; 1493; 1511; 1491; 32; 1506; 1501; 32; 1494; 1488; 1489; 1497; 1501; 32; 40; 1488; 1504; 1490; 1500; 1497; 1514; 58; 32; 68; 97; 110; 99; 101; 115; 32; 119; 105; 116; 104; 32; 87; 111; 108; 118; 101;
   115; 41; 32; 1492; 1493; 1488; 32; 1505; 1512; 1496; 32; 1491; 1512; 1502; 1492; 32; 1488; 1502; 1512; 1497; 1511; 1488; 1497; 32; 1502; 1513; 1504; 1514; 32; 49; 57; 57; 48; 44; 32; 1489; 1489; 1497; 1502; 1493;
   1497; 1493; 32; 1513; 1500; 32; 1511; 1493; 1493; 1497; 1503; 32; 1511; 1493; 1505; 1496; 1504; 1512; 32; 1493; 1489; 1499; 1497; 1499; 1493; 1489; 1493; 46; 32; 1494; 1492; 1493; 32; 1506; 1497; 1489; 1493; 1491; 32; 1511;
   1493; 1500; 1504; 1493; 1506; 1497; 32; 1513; 1500; 32; 1505; 1508; 1512; 32; 1489; 1506; 1500; 32; 1488; 1493; 1514; 1493; 32; 1492; 1513; 1501; 44; 32; 1493; 1488; 1514; 32; 1492; 1514; 1505; 1512; 1497; 1496; 32; 1513;
   1500; 32; 1492; 1505; 1512; 1496; 32; 1499; 1514; 1489; 32; 1502; 1495; 1489; 1512; 32; 1492; 1505; 1508; 1512; 32; 1492; 1502; 1511; 1493; 1512; 1497; 44; 32; 1502; 1497; 1497; 1511; 1500; 32; 1489; 1500; 1497; 1497; 1511;
   46; 32; 1506; 1500; 1497; 1500; 1514; 32; 1492; 1505; 1512; 1496; 32; 1502; 1514; 1502; 1511; 1491; 1514; 32; 1489; 1495; 1497; 1497; 1500; 32; 1502; 1510; 1489; 1488; 32; 1492; 1488; 1497; 1495; 1493; 1491; 32; 1513; 1502;
   1493; 1488; 1505; 32; 1489; 1500; 1495; 1497; 1502; 1492; 32; 1489; 1502; 1500; 1495; 1502; 1514; 32; 1492; 1488; 1494; 1512; 1495; 1497; 1501; 32; 1492; 1488; 1502; 1512; 1497; 1511; 1488; 1497; 1514; 32; 1493; 1489; 1493; 1495;
   1512; 32; 1500; 1506; 1489; 1493; 1512; 32; 1500; 1505; 1456; 1508; 1464; 1512; 44; 32; 1493; 1489; 1511; 1513; 1512; 1497; 1501; 32; 1492; 1488; 1502; 1497; 1510; 1497; 1501; 32; 1513; 1508; 1497; 1514; 1495; 32; 1506; 1501;
   32; 1488; 1497; 1504; 1491; 1497; 1488; 1504; 1497; 1501; 32; 1502; 1513; 1489; 1496; 32; 1505; 1493; 32; 1489; 1502; 1506; 1512; 1489; 32; 1492; 1504; 1497; 1491; 1495; 46; 32; 1502; 1500; 1489; 1491; 32; 1490; 1512; 1505;
   1514; 32; 1492; 1505; 1512; 1496; 32; 1513; 1497; 1510; 1488; 1492; 32; 1489; 1514; 1495; 1497; 1500; 1492; 32; 1500; 1511; 1493; 1500; 1504; 1493; 1506; 44; 32; 1492; 1514; 1508; 1512; 1505; 1502; 1492; 32; 1499; 1506; 1489;
   1493; 1512; 32; 1499; 1513; 1504; 1492; 32; 1490; 1512; 1505; 1492; 32; 1488; 1512; 1493; 1499; 1492; 32; 1497; 1493; 1514; 1512; 32; 1489; 1488; 1493; 1512; 1498; 32; 1488; 1512; 1489; 1506; 32; 1513; 1506; 1493; 1514; 46];
   [73; 110; 32; 100; 101; 110; 32; 49; 57; 54; 48; 101; 114; 32; 74; 97; 104; 114; 101; 110; 32; 119; 97; 110; 100; 116; 101; 32; 101; 114; 32; 115; 105; 99; 104; 32; 100; 101; 109; 32;
   75; 105; 110; 111; 32; 122; 117; 46; 32; 73; 110; 116; 101; 114; 110; 97; 116; 105; 111; 110; 97; 108; 32; 98; 101; 107; 97; 110; 110; 116; 32; 119; 117; 114; 100; 101; 32; 101; 114; 32;
   100; 117; 114; 99; 104; 32; 115; 101; 105; 110; 101; 32; 82; 111; 108; 108; 101; 110; 32; 105; 110; 32; 70; 105; 108; 109; 101; 110; 32; 118; 111; 110; 32; 70; 114; 97; 110; 231; 111; 105;
   115; 32; 84; 114; 117; 102; 102; 97; 117; 116; 32; 8211; 32; 97; 108; 115; 32; 74; 101; 97; 110; 110; 101; 32; 77; 111; 114; 101; 97; 117; 115; 32; 100; 114; 105; 116; 116; 101; 115; 32;
   77; 111; 114; 100; 111; 112; 102; 101; 114; 32; 105; 110; 32; 68; 105; 101; 32; 66; 114; 97; 117; 116; 32; 116; 114; 117; 103; 32; 115; 99; 104; 119; 97; 114; 122; 32; 117; 110; 100; 32;
   97; 108; 115; 32; 83; 99; 104; 117; 104; 103; 101; 115; 99; 104; 228; 102; 116; 115; 98; 101; 115; 105; 116; 122; 101; 114; 32; 84; 97; 98; 97; 114; 100; 32; 105; 110; 32; 71; 101; 114;
   97; 117; 98; 116; 101; 32; 75; 252; 115; 115; 101; 46; 32; 70; 252; 114; 32; 115; 101; 105; 110; 101; 32; 68; 97; 114; 115; 116; 101; 108; 108; 117; 110; 103; 32; 100; 101; 115; 32; 73;
   110; 115; 112; 101; 107; 116; 111; 114; 115; 32; 76; 101; 98; 101; 108; 32; 105; 110; 32; 68; 101; 114; 32; 83; 99; 104; 97; 107; 97; 108; 32; 118; 111; 110; 32; 70; 114; 101; 100; 32;
   90; 105; 110; 110; 101; 109; 97; 110; 110; 32; 101; 114; 104; 105; 101; 108; 116; 32; 101; 114; 32; 49; 57; 55; 51; 32; 101; 105; 110; 101; 32; 78; 111; 109; 105; 110; 105; 101; 114; 117;
   110; 103; 32; 97; 108; 115; 32; 66; 101; 115; 116; 101; 114; 32; 78; 101; 98; 101; 110; 100; 97; 114; 115; 116; 101; 108; 108; 101; 114; 32; 102; 252; 114; 32; 100; 101; 110; 32; 66; 65;
   70; 84; 65; 32; 65; 119; 97; 114; 100; 46];
   [69; 102; 116; 101; 114; 32; 107; 114; 105; 103; 101; 110; 32; 117; 100; 100; 97; 110; 110; 101; 100; 101; 32; 104; 117; 110; 32; 115; 105; 103; 32; 115; 111; 109; 32; 107; 111; 109; 112; 111;
   110; 105; 115; 116; 44; 32; 111; 103; 32; 105; 32; 98; 101; 103; 121; 110; 100; 101; 108; 115; 101; 110; 32; 97; 102; 32; 49; 57; 53; 48; 39; 101; 114; 110; 101; 32; 98; 108; 101; 118;
   32; 104; 117; 110; 32; 102; 97; 110; 103; 101; 116; 32; 97; 102; 32; 100; 101; 110; 32; 107; 111; 110; 107; 114; 101; 116; 101; 32; 109; 117; 115; 105; 107; 32; 117; 110; 100; 101; 114; 32;
   105; 110; 115; 112; 105; 114; 97; 116; 105; 111; 110; 32; 97; 102; 32; 80; 105; 101; 114; 114; 101; 32; 83; 99; 104; 97; 101; 102; 102; 101; 114; 46; 32; 72; 117; 110; 32; 107; 111; 109;
   112; 111; 110; 101; 114; 101; 100; 101; 32; 68; 97; 110; 109; 97; 114; 107; 115; 32; 102; 248; 114; 115; 116; 101; 32; 118; 230; 114; 107; 32; 105; 110; 100; 101; 110; 32; 102; 111; 114; 32;
   100; 101; 110; 110; 101; 32; 103; 101; 110; 114; 101; 44; 32; 69; 110; 32; 100; 97; 103; 32; 112; 229; 32; 68; 121; 114; 101; 104; 97; 118; 115; 98; 97; 107; 107; 101; 110; 44; 32; 105;
   32; 49; 57; 53; 53; 46; 32; 78; 111; 103; 108; 101; 32; 229; 114; 32; 115; 101; 110; 101; 114; 101; 32; 107; 111; 109; 112; 111; 110; 101; 114; 101; 100; 101; 32; 104; 117; 110; 32; 115;
   105; 116; 32; 102; 248; 114; 115; 116; 101; 32; 101; 108; 101; 107; 116; 114; 111; 110; 105; 115; 107; 101; 32; 109; 117; 115; 105; 107; 118; 230; 114; 107; 44; 32; 83; 121; 118; 32; 99; 105;
   114; 107; 108; 101; 114; 44; 32; 105; 110; 115; 112; 105; 114; 101; 114; 101; 116; 32; 97; 102; 32; 98; 108; 97; 110; 100; 116; 32; 97; 110; 100; 101; 116; 32; 83; 116; 111; 99; 107; 104;
   97; 117; 115; 101; 110; 44; 32; 76; 105; 103; 101; 116; 105; 115; 32; 111; 103; 32; 66; 111; 117; 108; 101; 122; 46];
   [5123; 5507; 5335; 5123; 5222; 44; 32; 5316; 5319; 5463; 5222; 32; 40; 5359; 5198; 5169; 5446; 32; 50; 49; 44; 32; 50; 48; 50; 48; 41; 32; 8211; 32; 5336; 5222; 5206; 5509; 32; 5290; 5123; 5231; 5354; 32;
   5176; 5200; 5364; 5328; 44; 32; 5316; 5319; 5463; 5307; 5285; 32; 5131; 5328; 5314; 5130; 5507; 5456; 5319; 5519; 5222; 5200; 5333; 5446; 5314; 5456; 5287; 5222; 32; 5130; 5519; 5418; 5509; 5235; 5509; 44; 32; 5125; 5354; 5335;
   5285; 32; 5319; 5335; 5319; 5123; 5509; 5359; 5509; 5234; 5125; 5418; 5509; 32; 5319; 5335; 5319; 5123; 5509; 5205; 5125; 5359; 5290; 5418; 5507; 5456; 5314; 5523; 5314; 5251; 32; 5316; 5465; 5438; 5418; 5130; 5456; 5319; 5509; 32;
   49; 57; 45; 5333; 5307; 5285; 5251; 32; 5316; 5336; 5422; 5314; 32; 5125; 5421; 5451; 5456; 5314; 5130; 5456; 5461; 5523; 5314; 32; 5125; 5523; 5359; 5328; 5314; 5333; 5251; 32; 49; 55; 54; 32; 5229; 5338; 5285; 5205;
   5222; 32; 5314; 5259; 5130; 5205; 32; 5169; 5523; 5328; 5319; 5523; 5314; 32; 5285; 5222; 5198; 5290; 5205; 5333; 5125; 5193; 46; 32; 5206; 5328; 5319; 32; 5130; 5123; 5222; 5200; 5456; 5335; 5222; 5205; 5125; 5359; 5290; 5745;
   5222; 5200; 5509; 32; 5316; 5465; 5438; 5418; 5130; 5456; 5319; 5285; 5251; 32; 5316; 5319; 5463; 5307; 5285; 32; 5130; 5307; 5290; 5335; 32; 5319; 5335; 5319; 5123; 5509; 5205; 5125; 5418; 5509; 32; 5320; 5364; 5509; 5205; 5125;
   5359; 5290; 5524; 5200; 5123; 5328; 5319; 5456; 5314; 5130; 5509; 5200; 5509; 32; 5130; 5519; 5456; 5451; 5523; 5205; 32; 5316; 5319; 5523; 5314; 46]])%Z.
(** utfc_test.go:57-74 testZeroStrings *)
Definition testZeroStrings : list (list Z) := (
  [[0];
   [187];
   [1099; 0];
   [268; 0];
   [34081; 0];
   [131072];
   [141312];
   [141328];
   [142552; 141568];
   [142552; 141312];
   [142552; 141328];
   [4096];
   [4160; 4096];
   [8309];
   [128495];
   [128496]])%Z.
