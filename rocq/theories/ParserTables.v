(** The tables of the generated SQL parser, copied from /repo/sqlparser/parser.go (written there
    by goyacc from parser.y).  Each array is given as a list in Go's order and as a search tree
    over its indices. *)
From Coq Require Import String List ZArith.
Import ListNotations.
Local Open Scope Z_scope.

(** A complete binary tree: the element with index [i] is at the path of the binary digits of
    [i + 1]. *)
Inductive tree (A : Type) := Leaf | Node (l : tree A) (v : A) (r : tree A).
Arguments Leaf {A}.
Arguments Node {A}.

Fixpoint find {A} (t : tree A) (p : positive) : option A :=
  match t with
  | Leaf => None
  | Node l v r => match p with
                  | xH => Some v
                  | xO q => find l q
                  | xI q => find r q
                  end
  end.
(** [None]: the index is out of range. *)
Definition at_index {A} (t : tree A) (i : Z) : option A :=
  if i <? 0 then None else find t (Z.to_pos (i + 1)).

Fixpoint put {A} (t : tree A) (p : positive) (x : A) : tree A :=
  match p with
  | xH => match t with Leaf => Node Leaf x Leaf | Node l _ r => Node l x r end
  | xO q => match t with Leaf => Node (put Leaf q x) x Leaf | Node l v r => Node (put l q x) v r end
  | xI q => match t with Leaf => Node Leaf x (put Leaf q x) | Node l v r => Node l v (put r q x) end
  end.
Fixpoint fill {A} (t : tree A) (p : positive) (l : list A) : tree A :=
  match l with
  | [] => t
  | x :: l' => fill (put t p x) (Pos.succ p) l'
  end.
Definition tree_of {A} (l : list A) : tree A := fill Leaf 1 l.

(** 789, 787, 3092-3112: the constants. *)
Definition yy_last : Z := 14695.
Definition yy_private : Z := 57344.
Definition yy_flag : Z := -1000.
Definition yy_eof_code : Z := 1.
Definition yy_err_code : Z := 2.

(** 728-785: [yyExca]. *)
Definition exca_list : list Z :=
  [
   -1; 1; 1; -1; -2; 0; -1; 3; 5; 27; -2; 4; -1; 30; 121; 104; -2; 94; -1; 36; 153; 416; 154; 416; -2; 406; -1; 272;
   109; 749; -2; 745; -1; 273; 109; 750; -2; 746; -1; 343; 80; 943; -2; 58; -1; 344; 80; 894; -2; 59; -1; 349; 80;
   873; -2; 716; -1; 351; 80; 917; -2; 718; -1; 652; 51; 41; 53; 41; -2; 43; -1; 797; 109; 752; -2; 748; -1; 1039; 5;
   28; -2; 551; -1; 1064; 5; 27; -2; 690; -1; 1165; 5; 27; -2; 64; -1; 1382; 5; 28; -2; 691; -1; 1465; 5; 27; -2; 693;
   -1; 1590; 5; 28; -2; 694 ].

(** 2264-2436: [yyPact]. *)
Definition pact_list : list Z :=
  [
   2299; -1000; -204; -1000; -1000; -1000; -1000; -1000; -1000; -1000; -1000; -1000; -1000; -1000; -1000; -1000;
   -1000; -1000; -1000; -1000; -1000; 1272; 1315; -1000; -1000; -1000; -1000; -1000; -1000; 1123; 529; 307; 346; 195;
   13542; 340; 2107; 14102; -1000; 92; -1000; -1000; -1000; -1000; -1000; -1000; -1000; 1070; -1000; -1000; -1000;
   -1000; -1000; 1259; 1270; 1080; 1241; 1186; -1000; 7336; 262; 11856; 13262; 6182; -1000; 880; -187; 296; 13822;
   260; 260; 13822; 13822; 260; -1000; -103; 315; 14102; -1000; 14102; 241; 874; 241; 241; 241; 14102; -1000; 396;
   -1000; -1000; -1000; -1000; -1000; -1000; -1000; -1000; -1000; -1000; -1000; -1000; -1000; -1000; -1000; -1000;
   -1000; -1000; -1000; -1000; -1000; -1000; -1000; -1000; -1000; -1000; -1000; -1000; -1000; -1000; -1000; -1000;
   -1000; -1000; -1000; -1000; -1000; -1000; -1000; -1000; -1000; -1000; -1000; -1000; -1000; -1000; -1000; -1000;
   -1000; -1000; -1000; -1000; -1000; -1000; -1000; -1000; -1000; -1000; -1000; -1000; -1000; -1000; -1000; -1000;
   -1000; -1000; -1000; -1000; -1000; -1000; -1000; -1000; -1000; -1000; -1000; -1000; -1000; -1000; -1000; -1000;
   -1000; -1000; -1000; -1000; -1000; -1000; -1000; -1000; -1000; -1000; -1000; -1000; -1000; -1000; -1000; -1000;
   -1000; -1000; -1000; -1000; -1000; -1000; -1000; -1000; -1000; -1000; -1000; -1000; -1000; -1000; -1000; -1000;
   -1000; -1000; -1000; -1000; -1000; -1000; -1000; -1000; -1000; -1000; -1000; -1000; -1000; -1000; -1000; -1000;
   -1000; -1000; -1000; -1000; -1000; -1000; -1000; 14102; 863; 1215; 231; 4026; 4026; 4026; 4026; 151; 4026; -65;
   1135; -1000; -1000; -1000; -1000; 4026; -1000; -1000; -1000; -1000; -1000; -1000; -1000; -1000; -1000; -1000; 781;
   1217; 7910; 7910; 1272; -1000; 1070; -1000; -1000; -1000; 1208; -1000; -1000; 563; 1291; -1000; 9042; 392; -1000;
   7910; 115; 962; -1000; -1000; 962; -1000; -1000; 375; -1000; -1000; 8476; 8476; 8476; 8476; 8476; 8476; 8476;
   -1000; -1000; -1000; -1000; -1000; -1000; -1000; -1000; -1000; -1000; -1000; -1000; -1000; -1000; 962; -1000; 7623;
   962; 962; 962; 962; 962; 962; 962; 962; 7910; 962; 962; 962; 962; 962; 962; 962; 962; 962; 1898; 962; 962; 962;
   962; 12976; 971; 1165; -1000; -1000; -1000; 1238; 9896; 10736; 14102; 939; -1000; 1026; 5874; -79; -1000; -1000;
   -1000; 502; 10456; -1000; -1000; -1000; 1210; -1000; -1000; -1000; -1000; -1000; -1000; -1000; -1000; -1000; -1000;
   -1000; -1000; -1000; -1000; -1000; -1000; -1000; -1000; -1000; -1000; -1000; -1000; -1000; -1000; -1000; -1000;
   -1000; -1000; -1000; -1000; -1000; -1000; -1000; -1000; -1000; -1000; -1000; -1000; -1000; -1000; -1000; -1000;
   -1000; -1000; -1000; -1000; -1000; -1000; -1000; -1000; -1000; -1000; -1000; -1000; -1000; -1000; -1000; -1000;
   -1000; -1000; -1000; -1000; -1000; -1000; -1000; -1000; -1000; -1000; -1000; -1000; -1000; -1000; -1000; -1000;
   -1000; -1000; -1000; -1000; -1000; -1000; -1000; -1000; -1000; -1000; -1000; -1000; -1000; -1000; -1000; -1000;
   -1000; -1000; -1000; -1000; -1000; -1000; -1000; -1000; -1000; -1000; -1000; -1000; -1000; -1000; -1000; -1000;
   -1000; -1000; -1000; -1000; 926; -1000; 2607; 338; -1000; -1000; 14102; 1048; 861; 519; 857; 1134; 250; 14102;
   -1000; 12696; 4026; 303; 14102; 1230; 1133; 14102; 846; 828; -1000; 5566; -1000; 4026; 4026; 4026; 4026; 4026;
   4026; 4026; 4026; -1000; -1000; -1000; -1000; -1000; -1000; 4026; 4026; -1000; -22; -1000; 14102; -1000; -1000;
   -1000; -1000; 1310; 419; 799; 391; 1030; -1000; 721; 1259; 781; 1186; 10176; 1148; -1000; -1000; 14102; -1000;
   7910; 7910; 639; -1000; 12416; -1000; -1000; 4334; 431; 8476; 648; 505; 8476; 8476; 8476; 8476; 8476; 8476; 8476;
   8476; 8476; 8476; 8476; 8476; 8476; 8476; 8476; 723; 1898; -1000; -1000; -1000; -1000; -1000; -1000; -1000; -1000;
   796; -1000; 1070; 1003; 1003; 11; 11; 11; 11; 11; 11; 8759; 6762; 781; 924; 454; 7623; 7336; 7336; 7910; 7910;
   14382; 14382; 7336; 1243; 445; 454; 14382; -1000; 781; -1000; -1000; -1000; -1000; -1000; -1000; -1000; -1000;
   -1000; 30; -1000; -1000; -1000; -1000; -1000; -1000; -1000; -1000; -1000; -1000; -1000; -1000; -1000; -1000; -1000;
   -1000; -1000; 7336; 7336; 7336; 7336; 178; 14102; -1000; 14382; 11856; 11856; 11856; 11856; 11856; -1000; 1155;
   1153; -1000; 1175; 1152; 1159; 14102; -1000; 921; 9896; 313; 962; -1000; 12136; -1000; -1000; 178; 1031; 11856;
   14102; -1000; -1000; 5258; 1026; -79; 998; -1000; -74; -46; 6475; 401; -1000; -1000; -1000; -1000; 3410; 711; 1742;
   -129; -9; -1000; -1000; -1000; -1000; 1068; -1000; 1068; 216; 1068; 1068; 1068; -1000; 1068; 1068; 26; 26; 26; 26;
   26; -1000; -1000; -1000; -1000; -1000; -1000; -1000; 1121; 1115; -1000; 1068; 1068; 1068; -1000; 1068; -1000;
   -1000; -1000; -1000; -1000; -1000; -1000; -1000; -1000; -1000; 1099; 225; 1099; 1071; 1071; -1000; -1000; 13822;
   1236; -127; 788; 4026; 1222; 4026; 14102; 1286; 14102; -1000; -1000; -1000; 1772; 14102; -1000; 14102; -1000;
   -1000; 14102; 4026; -1000; -1000; -1000; -1000; -1000; -1000; -1000; -1000; -1000; -1000; -1000; -1000; -1000;
   -1000; -1000; 499; -1000; -1000; -1000; -1000; 1191; 7910; 7910; 4950; 7910; -1000; -1000; -1000; 1217; -1000;
   1243; 1266; -1000; 1201; 1200; 7336; -1000; -1000; 431; 441; -1000; -1000; 688; -1000; -1000; -1000; -1000; 390;
   962; -1000; 355; -1000; -1000; -1000; -1000; 648; 8476; 8476; 8476; 1651; 355; 1683; 55; 515; 11; 173; 173; 6; 6;
   6; 6; 6; 161; 161; -1000; -1000; -1000; -1000; 781; -1000; -1000; -1000; 781; 7336; 999; -1000; -1000; 7910; -1000;
   781; 919; 919; 728; 583; 1022; -1000; 388; 1020; 919; 7336; 526; -1000; 7910; 781; -1000; -1000; 919; 781; 919;
   919; 1042; 962; -1000; 1017; -1000; 501; 1165; 1119; 1132; 961; -1000; -1000; -1000; -1000; 1151; -1000; 1131;
   -1000; -1000; -1000; -1000; -1000; 317; 311; 309; 13822; -1000; 1280; 11856; 979; -1000; -1000; 998; -79; -86;
   -1000; -1000; -1000; -1000; 454; -1000; -1000; 755; 992; 3083; -1000; -1000; -1000; -1000; -1000; -1000; -1000;
   -1000; 1114; 636; 13822; 211; 207; 409; 378; 752; -1000; -1000; -1000; 579; -1000; 13822; 1303; -1000; -1000; 204;
   -1000; 203; 518; 744; 14102; 129; 1101; 1991; -1000; -209; -1000; -13; -1000; -1000; 702; 26; 26; 1068; 26; 26; 26;
   -1000; -1000; 401; 1209; 401; 401; 401; 401; 739; 739; -130; -130; -1000; -1000; -1000; 700; 1099; -1000; -1000;
   -1000; 675; -1000; 1112; 1070; -1000; 4642; -1000; -1000; -1000; -1000; -1000; 1235; 1130; -1000; -1000; -1000;
   110; -1000; 751; 2054; 451; -1000; -1000; -1000; -1000; -1000; -1000; -1000; -1000; -1000; -1000; -1000; 176; 350;
   -1000; 4026; -1000; 508; 14102; 14102; 1189; 454; 454; 379; -1000; -1000; 14102; -1000; -1000; -1000; -1000; 1012;
   -1000; -1000; -1000; 3718; 7336; -1000; 1651; 355; 1047; -1000; 8476; 8476; -1000; -1000; 919; 7336; 454; -1000;
   -1000; -1000; 705; 723; 705; 8476; 8476; 4950; 8476; 8476; -120; 982; 506; -1000; 7910; 626; -1000; -1000; -1000;
   -1000; -1000; 1129; 14382; 962; -1000; 9609; 13822; 1272; 14382; 7910; 7910; -1000; -1000; 7910; 1098; -1000; 7910;
   -1000; -1000; -1000; 962; 962; 962; 884; -1000; 1272; 979; -1000; -1000; -1000; -77; -89; -1000; -1000; 3410;
   -1000; 3410; 11576; -1000; 1288; 1256; 214; 238; -1000; 750; 749; -1000; 747; -1000; -12; -1000; -185; 86; -47;
   -1000; -1000; 962; -1000; 1083; 1234; -1000; 1218; 667; -1000; 1857; -198; -1000; -1000; -1000; -1000; -1000;
   -1000; 962; 1077; 1075; -1000; 1074; -1000; -1000; -1000; 927; 401; 401; 26; 401; 401; 401; -1000; 460; -1000;
   -1000; -1000; -1000; 916; -1000; 908; -1000; 54; 40; -1000; 991; -1000; 892; 14102; 13822; -1000; 977; -1000; 496;
   1255; 138; 14102; 1286; -1000; 205; -1000; 13822; -1000; -1000; -1000; -1000; -1000; -1000; -1000; -1000; 13822;
   -1000; -1000; -1000; -1000; -1000; -1000; -1000; -1000; -1000; -1000; -1000; 14102; -1000; -1000; -1000; -1000;
   -1000; 13822; 229; -1000; -1000; 731; 7910; -1000; -1000; -1000; 4642; -1000; 1280; 11856; -1000; -1000; 781;
   -1000; 8476; 355; 355; -1000; -1000; 781; 1068; 1068; -1000; 1068; 1071; -1000; -1000; 1068; 78; 1068; 68; 781;
   781; 295; 766; -1000; 277; 150; 962; -114; -1000; 454; 7910; -1000; 1223; 914; 960; -1000; -1000; 7049; 781; 888;
   370; 884; 1259; -1000; 454; 454; 454; 11016; 454; 11016; 11016; 11016; 9322; 13822; 1259; -1000; -1000; -1000;
   -1000; 3083; -1000; 879; -1000; 1068; 1068; 314; 314; -191; 199; 197; -1000; -1000; -1000; -1000; -187; -1000;
   -1000; 518; -1000; 7910; 11016; -173; -1000; 974; 905; 244; -1000; 144; 781; -1000; 732; -1000; 703; 889; -1000;
   -1000; -1000; 401; -1000; -1000; -1000; -1000; -1000; 26; 730; 26; -24; -25; 656; -1000; 654; 986; 1128; 4642;
   3410; 292; 1353; -1000; -1000; 1246; 1233; 13822; -1000; -1000; -1000; 1065; -1000; -1000; -1000; -1000; 1211;
   13822; -1000; -1000; 454; 1277; 968; -1000; 355; -1000; -1000; 210; -1000; -1000; -1000; -1000; -1000; -1000;
   -1000; -1000; -1000; 8476; 8476; -1000; 8476; 8476; 8476; 781; 718; 454; 194; -1000; 962; -1000; -1000; 990; 13822;
   13822; -1000; -1000; 873; -1000; -1000; 869; 869; 869; 313; -1000; -1000; 1554; 11576; 1227; -1000; 601; -1000;
   -1000; 521; 126; 592; -1000; 13822; -187; -1000; 962; 587; 867; 1064; 651; -1000; 885; 29; -130; -1000; -1000;
   -1000; -1000; -1000; -1000; -1000; 401; -1000; 401; -1000; -1000; 870; 821; 11576; 13822; 14102; -1000; -1000;
   13822; -1000; -1000; -1000; -1000; -1000; 107; 184; 1062; 11016; 962; 232; 1275; 1265; -1000; -1000; 310; 310; 310;
   310; 42; -1000; -1000; 1300; -1000; 962; -1000; 1070; 367; -1000; 13822; -1000; -1000; -1000; -1000; -1000; 1126;
   1773; 120; -1000; 734; 494; 637; 488; 467; 462; 452; 450; 442; 439; -1000; -1000; -1000; 1298; -1000; -1000; -1000;
   1294; 1061; -1000; 1059; 7910; 130; -1000; -1000; 802; 795; -1000; -1000; -1000; -1000; -1000; -1000; 856; 1056;
   1049; 931; -1000; 105; 184; -1000; -1000; -1000; -1000; 11576; 854; 175; 191; -1000; 7910; 7910; -1000; -1000;
   -1000; -1000; 781; 127; -163; 14382; 960; 781; 13822; -1000; -1000; 13822; -1000; -134; 1773; 13822; -1000; 643;
   -1000; -1000; 569; 631; 569; 569; 569; 569; 569; 314; 314; 13822; 11576; 587; -1000; -116; 1024; -1000; -1000;
   -193; 11576; 11576; -126; 13822; 7910; 184; -1000; 844; 1048; 841; -1000; 13822; 1044; 454; 946; -1000; 1182; -123;
   -167; 941; -1000; -1000; 962; 839; -1000; -1000; -1000; -1000; -1000; -1000; -1000; -1000; -1000; -1000; -1000;
   -1000; 518; 518; 820; 801; -1000; -1000; -1000; 108; 710; 623; 618; 617; -19; -1000; 1263; 1280; 1041; 794; 780;
   -1000; -200; -1000; 454; -1000; -1000; -127; -1000; 175; 1198; 11576; -1000; 1166; -1000; 13822; -1000; 1773;
   -1000; -1000; 227; 1554; 594; -1000; 586; -1000; -1000; -1000; -1000; -1000; -1000; -1000; 11296; 1554; 11016;
   1280; 1554; 7910; -1000; -1000; 152; 769; -128; 781; -1000; 14102; 1126; -1000; -1000; -1000; 365; 1126; 767; 1554;
   -1000; 454; 170; -1000; -165; -1000; 1035; -1000; 4642; -1000; -1000; -1000; 962; -168; 13822; -1000; 8193; -1000;
   765; 310; 781; -1000; -1000; -1000 ].
Definition yy_pact : tree Z := Eval vm_compute in tree_of pact_list.

(** 2438-2461: [yyPgo]. *)
Definition pgo_list : list Z :=
  [
   0; 1580; 19; 816; 1579; 1578; 1573; 1355; 1336; 1330; 1565; 1561; 1558; 1556; 1554; 1553; 1552; 1550; 1549; 1545;
   1542; 1540; 1539; 1538; 511; 1537; 1536; 1535; 88; 1533; 96; 1530; 1527; 52; 115; 53; 50; 54; 1526; 32; 119; 89;
   1523; 60; 1521; 1520; 98; 1519; 85; 1517; 1516; 95; 1515; 1500; 27; 3; 1487; 31; 1485; 1484; 91; 7; 1483; 1480;
   1479; 1478; 1476; 1475; 75; 13; 17; 25; 29; 1474; 84; 37; 1473; 66; 1472; 1471; 1469; 1467; 51; 1466; 77; 24; 45;
   76; 1465; 14; 1464; 83; 43; 39; 9; 97; 82; 1461; 46; 90; 68; 1460; 1458; 627; 1456; 1455; 1454; 1453; 1452; 1451;
   600; 597; 1450; 1448; 1447; 56; 0; 462; 10; 104; 1446; 58; 1445; 1866; 93; 81; 34; 1443; 55; 1477; 47; 1442; 1434;
   57; 92; 1432; 105; 103; 1431; 1429; 1428; 1426; 1423; 87; 40; 70; 202; 1421; 1413; 1412; 21; 61; 42; 65; 79; 1411;
   1408; 1407; 36; 1405; 16; 30; 2; 71; 1402; 1401; 1400; 1398; 41; 33; 1397; 26; 22; 18; 6; 4; 1396; 1395; 1393; 1;
   1391; 28; 1390; 5; 1389; 8; 1388; 1384; 1383; 1379; 1375; 1374; 1372; 1371; 1368; 1367; 23; 12; 48; 49; 11; 59; 44;
   1364; 15; 1357; 1351; 1187; 759; 1341; 1334; 1324; 1322; 123 ].
Definition yy_pgo : tree Z := Eval vm_compute in tree_of pgo_list.

(** 2463-2564: [yyR1]. *)
Definition r1_list : list Z :=
  [
   0; 205; 206; 206; 1; 1; 1; 1; 1; 1; 1; 1; 1; 1; 1; 1; 1; 1; 1; 1; 1; 1; 2; 2; 2; 6; 3; 4; 4; 5; 5; 7; 7; 27; 27; 8;
   9; 9; 9; 209; 209; 46; 46; 91; 91; 10; 10; 10; 10; 96; 96; 100; 100; 100; 101; 101; 101; 101; 131; 131; 11; 11; 11;
   11; 11; 11; 11; 11; 11; 11; 11; 201; 201; 202; 202; 202; 203; 203; 204; 204; 204; 187; 187; 187; 188; 188; 188;
   188; 188; 188; 190; 190; 191; 191; 121; 121; 185; 185; 184; 183; 183; 182; 182; 181; 192; 192; 16; 165; 166; 166;
   166; 166; 166; 154; 135; 135; 135; 135; 135; 155; 155; 155; 155; 155; 155; 155; 155; 155; 155; 155; 155; 155; 155;
   155; 155; 155; 155; 155; 155; 155; 198; 198; 198; 199; 199; 199; 199; 199; 199; 199; 199; 194; 194; 195; 195; 195;
   195; 195; 195; 195; 195; 195; 195; 195; 195; 195; 195; 144; 144; 144; 144; 144; 144; 193; 193; 189; 189; 189; 189;
   189; 139; 139; 137; 137; 137; 137; 137; 137; 137; 137; 137; 137; 138; 138; 138; 138; 138; 138; 138; 138; 140; 140;
   140; 140; 140; 140; 140; 140; 136; 136; 141; 141; 141; 141; 141; 141; 141; 141; 141; 141; 141; 141; 141; 141; 141;
   141; 141; 141; 141; 141; 141; 141; 141; 142; 142; 142; 142; 142; 142; 142; 142; 153; 153; 143; 143; 151; 151; 152;
   152; 152; 150; 150; 150; 147; 147; 148; 148; 149; 149; 149; 145; 145; 145; 146; 146; 146; 156; 174; 174; 174; 176;
   176; 177; 177; 175; 175; 175; 175; 175; 175; 175; 175; 175; 175; 175; 164; 164; 200; 200; 173; 173; 173; 170; 170;
   170; 170; 170; 170; 170; 170; 163; 163; 172; 172; 171; 171; 158; 158; 158; 158; 158; 159; 160; 160; 160; 160; 157;
   196; 196; 196; 197; 197; 161; 161; 162; 162; 167; 167; 167; 168; 168; 168; 169; 169; 169; 12; 12; 12; 12; 12; 12;
   12; 12; 12; 12; 12; 12; 186; 186; 186; 186; 186; 186; 186; 186; 186; 186; 186; 210; 210; 211; 211; 211; 211; 211;
   211; 211; 180; 178; 178; 179; 179; 13; 14; 14; 14; 14; 14; 15; 15; 17; 18; 18; 18; 18; 18; 18; 18; 18; 18; 18; 18;
   18; 18; 18; 18; 18; 18; 18; 18; 18; 18; 18; 18; 108; 108; 105; 105; 106; 106; 107; 107; 107; 109; 109; 109; 132;
   132; 132; 19; 19; 21; 21; 22; 23; 20; 20; 20; 20; 20; 212; 24; 25; 25; 26; 26; 26; 30; 30; 30; 28; 28; 29; 29; 35;
   35; 34; 34; 36; 36; 36; 36; 120; 120; 120; 119; 119; 38; 38; 39; 39; 40; 40; 41; 41; 41; 53; 53; 89; 89; 89; 92;
   92; 42; 42; 42; 42; 43; 43; 44; 44; 45; 45; 127; 127; 126; 126; 126; 125; 125; 47; 47; 47; 49; 48; 48; 48; 48; 50;
   50; 52; 52; 51; 51; 54; 54; 54; 54; 55; 55; 90; 90; 37; 37; 37; 37; 37; 37; 37; 104; 104; 57; 57; 56; 56; 56; 56;
   56; 56; 56; 56; 56; 56; 67; 67; 67; 67; 67; 67; 58; 58; 58; 58; 58; 58; 58; 33; 33; 68; 68; 68; 74; 69; 69; 61; 61;
   61; 61; 61; 61; 61; 61; 61; 61; 61; 61; 61; 61; 61; 61; 61; 61; 61; 61; 61; 61; 61; 61; 61; 61; 61; 61; 61; 61; 61;
   61; 65; 65; 65; 63; 63; 63; 63; 63; 63; 63; 63; 63; 63; 63; 63; 63; 63; 63; 64; 64; 64; 64; 64; 64; 64; 64; 64;
   213; 213; 66; 66; 66; 66; 31; 31; 31; 31; 31; 130; 130; 133; 133; 133; 133; 133; 133; 133; 133; 133; 133; 133; 133;
   133; 133; 134; 134; 134; 134; 134; 134; 134; 78; 78; 32; 32; 76; 76; 77; 79; 79; 75; 75; 75; 60; 60; 60; 60; 60;
   60; 60; 60; 62; 62; 62; 80; 80; 81; 81; 82; 82; 83; 83; 84; 85; 85; 85; 86; 86; 86; 86; 87; 87; 87; 59; 59; 59; 59;
   59; 59; 88; 88; 88; 88; 93; 93; 70; 70; 72; 72; 71; 73; 94; 94; 98; 95; 95; 99; 99; 99; 99; 97; 97; 97; 122; 122;
   122; 102; 102; 110; 110; 111; 111; 103; 103; 112; 112; 112; 112; 112; 112; 112; 112; 112; 112; 113; 113; 113; 114;
   114; 117; 117; 118; 118; 123; 123; 124; 124; 115; 115; 115; 115; 115; 115; 115; 115; 115; 115; 115; 115; 115; 115;
   115; 115; 115; 115; 115; 115; 115; 115; 115; 115; 115; 115; 115; 115; 115; 115; 115; 115; 115; 115; 115; 115; 115;
   115; 115; 115; 115; 115; 115; 115; 115; 115; 115; 115; 115; 115; 115; 115; 115; 115; 115; 115; 115; 115; 115; 115;
   115; 115; 115; 115; 115; 115; 115; 115; 115; 115; 115; 115; 115; 115; 115; 115; 115; 115; 115; 115; 115; 115; 115;
   115; 115; 115; 115; 115; 115; 115; 115; 115; 115; 115; 115; 115; 115; 115; 115; 115; 115; 115; 115; 115; 115; 115;
   115; 116; 116; 116; 116; 116; 116; 116; 116; 116; 116; 116; 116; 116; 116; 116; 116; 116; 116; 116; 116; 116; 116;
   116; 116; 116; 116; 116; 116; 116; 116; 116; 116; 116; 116; 116; 116; 116; 116; 116; 116; 116; 116; 116; 116; 116;
   116; 116; 116; 116; 116; 116; 116; 116; 116; 116; 116; 116; 116; 116; 116; 116; 116; 116; 116; 116; 116; 116; 116;
   116; 116; 116; 116; 116; 116; 116; 116; 116; 116; 116; 116; 116; 116; 116; 116; 116; 116; 116; 116; 116; 116; 116;
   116; 116; 116; 116; 116; 116; 116; 116; 116; 116; 116; 116; 116; 116; 116; 116; 116; 116; 116; 116; 116; 116; 116;
   116; 116; 116; 116; 116; 116; 116; 116; 116; 116; 116; 116; 116; 116; 116; 116; 116; 116; 116; 207; 208; 128; 129;
   129; 129 ].
Definition yy_r1 : tree Z := Eval vm_compute in tree_of r1_list.

(** 2566-2667: [yyR2]. *)
Definition r2_list : list Z :=
  [
   0; 2; 0; 1; 1; 1; 1; 1; 1; 1; 1; 1; 1; 1; 1; 1; 1; 1; 1; 1; 1; 1; 4; 6; 7; 5; 10; 1; 3; 1; 3; 7; 8; 1; 1; 8; 8; 7;
   6; 1; 1; 1; 3; 0; 4; 3; 4; 5; 4; 1; 3; 3; 2; 2; 2; 2; 2; 1; 1; 1; 2; 14; 13; 14; 6; 5; 5; 5; 11; 11; 9; 1; 1; 1; 1;
   1; 1; 2; 1; 1; 1; 0; 2; 2; 0; 2; 2; 2; 2; 2; 0; 2; 0; 3; 0; 1; 0; 2; 1; 0; 2; 1; 3; 3; 0; 2; 4; 4; 1; 3; 3; 3; 3;
   2; 3; 1; 1; 1; 1; 2; 2; 3; 2; 4; 4; 2; 2; 3; 2; 3; 2; 7; 8; 3; 3; 6; 5; 8; 7; 4; 2; 4; 6; 2; 1; 1; 1; 1; 1; 1; 3;
   1; 2; 0; 4; 3; 4; 3; 3; 3; 3; 3; 3; 3; 2; 4; 6; 2; 3; 2; 3; 1; 3; 0; 2; 0; 3; 3; 2; 2; 2; 1; 1; 1; 1; 1; 1; 1; 1;
   1; 1; 1; 2; 3; 2; 2; 2; 2; 1; 1; 1; 3; 3; 2; 1; 2; 1; 1; 1; 1; 4; 4; 4; 4; 4; 1; 5; 2; 2; 3; 3; 3; 3; 3; 1; 1; 1;
   1; 1; 1; 1; 6; 6; 1; 1; 1; 1; 1; 1; 1; 1; 1; 3; 0; 3; 0; 5; 0; 3; 5; 0; 3; 3; 0; 1; 0; 1; 0; 2; 1; 0; 3; 3; 0; 1;
   2; 6; 0; 1; 4; 1; 2; 1; 3; 2; 3; 2; 3; 3; 3; 3; 3; 3; 3; 3; 0; 1; 1; 1; 0; 2; 5; 2; 3; 3; 2; 3; 2; 3; 4; 1; 1; 1;
   3; 3; 2; 2; 5; 5; 8; 8; 13; 1; 1; 2; 2; 10; 0; 1; 1; 0; 3; 0; 1; 1; 3; 0; 1; 3; 1; 2; 3; 1; 1; 1; 6; 11; 13; 7; 7;
   7; 12; 7; 7; 7; 4; 5; 1; 1; 1; 1; 1; 1; 1; 1; 1; 1; 1; 1; 1; 1; 1; 1; 1; 1; 1; 1; 7; 1; 3; 8; 8; 5; 4; 6; 5; 4; 4;
   3; 2; 3; 4; 4; 4; 4; 4; 4; 4; 4; 3; 3; 3; 3; 4; 3; 6; 4; 2; 4; 2; 2; 2; 2; 3; 1; 1; 0; 1; 0; 1; 0; 2; 2; 0; 2; 2;
   0; 1; 1; 2; 1; 1; 2; 1; 1; 2; 2; 2; 2; 2; 0; 2; 0; 2; 1; 2; 2; 0; 1; 1; 0; 1; 0; 1; 0; 1; 1; 3; 1; 2; 3; 5; 0; 1;
   2; 1; 1; 0; 2; 1; 3; 1; 1; 1; 3; 3; 3; 7; 1; 1; 3; 1; 3; 4; 4; 4; 3; 2; 4; 0; 1; 0; 2; 0; 1; 0; 1; 2; 1; 1; 1; 2;
   2; 1; 2; 3; 2; 3; 2; 2; 2; 1; 1; 3; 0; 5; 5; 5; 0; 2; 0; 4; 1; 3; 3; 2; 3; 1; 2; 0; 3; 1; 1; 3; 3; 4; 4; 5; 3; 4;
   5; 6; 2; 1; 2; 1; 2; 1; 2; 1; 1; 1; 1; 1; 1; 1; 0; 2; 1; 1; 1; 3; 1; 3; 1; 1; 1; 1; 1; 3; 3; 3; 3; 3; 3; 3; 3; 3;
   3; 3; 3; 3; 3; 3; 2; 2; 2; 2; 2; 2; 3; 3; 1; 1; 1; 1; 4; 5; 6; 4; 4; 6; 6; 6; 6; 8; 8; 6; 8; 8; 9; 7; 5; 4; 2; 2;
   2; 2; 2; 2; 2; 2; 2; 0; 2; 4; 4; 4; 4; 0; 3; 4; 7; 3; 1; 1; 2; 3; 3; 1; 2; 2; 1; 1; 2; 1; 2; 2; 1; 2; 1; 2; 1; 1;
   1; 1; 1; 0; 1; 0; 2; 1; 2; 4; 0; 2; 1; 3; 5; 1; 1; 1; 1; 1; 1; 1; 1; 1; 2; 2; 0; 3; 0; 2; 0; 3; 1; 3; 2; 0; 1; 1;
   0; 2; 4; 4; 0; 2; 4; 2; 1; 3; 5; 4; 6; 1; 3; 3; 5; 0; 5; 1; 3; 1; 2; 3; 1; 1; 3; 3; 1; 3; 3; 3; 3; 3; 1; 2; 1; 1;
   1; 1; 1; 1; 0; 2; 0; 3; 0; 1; 1; 1; 1; 1; 1; 1; 1; 1; 1; 1; 0; 1; 1; 1; 1; 1; 1; 1; 1; 1; 1; 1; 1; 1; 1; 1; 1; 1;
   1; 1; 1; 1; 1; 1; 1; 1; 1; 1; 1; 1; 1; 1; 1; 1; 1; 1; 1; 1; 1; 1; 1; 1; 1; 1; 1; 1; 1; 1; 1; 1; 1; 1; 1; 1; 1; 1;
   1; 1; 1; 1; 1; 1; 1; 1; 1; 1; 1; 1; 1; 1; 1; 1; 1; 1; 1; 1; 1; 1; 1; 1; 1; 1; 1; 1; 1; 1; 1; 1; 1; 1; 1; 1; 1; 1;
   1; 1; 1; 1; 1; 1; 1; 1; 1; 1; 1; 1; 1; 1; 1; 1; 1; 1; 1; 1; 1; 1; 1; 1; 1; 1; 1; 1; 1; 1; 1; 1; 1; 1; 1; 1; 1; 1;
   1; 1; 1; 1; 1; 1; 1; 1; 1; 1; 1; 1; 1; 1; 1; 1; 1; 1; 1; 1; 1; 1; 1; 1; 1; 1; 1; 1; 1; 1; 1; 1; 1; 1; 1; 1; 1; 1;
   1; 1; 1; 1; 1; 1; 1; 1; 1; 1; 1; 1; 1; 1; 1; 1; 1; 1; 1; 1; 1; 1; 1; 1; 1; 1; 1; 1; 1; 1; 1; 1; 1; 1; 1; 1; 1; 1;
   1; 1; 1; 1; 1; 1; 1; 1; 1; 1; 1; 1; 1; 1; 1; 1; 1; 1; 1; 1; 1; 1; 1; 1; 1; 1; 1; 1; 1; 1; 1; 1; 1; 1; 1; 1; 1; 1;
   1; 1; 1; 1; 1; 1; 1; 1; 1; 0; 0; 1; 1 ].
Definition yy_r2 : tree Z := Eval vm_compute in tree_of r2_list.

(** 2669-2841: [yyChk]. *)
Definition chk_list : list Z :=
  [
   -1000; -205; -1; -2; -6; -7; -8; -9; -10; -11; -12; -13; -14; -15; -17; -18; -19; -21; -22; -23; -20; -3; -4; 6; 7;
   -27; 9; 10; 29; -16; 112; 113; 115; 114; 143; 116; 136; 48; 175; 176; 178; 179; 25; 137; 138; 141; 142; -207; 8;
   279; 52; -206; 313; -82; 15; -26; 5; -24; -212; -24; -24; -24; -24; -24; -165; 52; -121; -192; 151; 271; 118; 133;
   150; 119; 134; 70; -103; 121; 123; 119; 119; 120; 121; 271; 118; 119; -51; -123; 55; -116; 158; 288; 20; 175; 188;
   189; 180; 221; 209; 289; 156; 206; 210; 258; 312; 64; 178; 267; 127; 162; 139; 201; 204; 203; 195; 192; 27; 227;
   295; 194; 130; 228; 232; 238; 259; 286; 185; 186; 261; 225; 31; 132; 290; 33; 147; 262; 230; 224; 219; 223; 184;
   218; 37; 198; 234; 233; 235; 257; 212; 157; 237; 214; 196; 213; 18; 142; 145; 229; 231; 193; 159; 125; 149; 294;
   263; 191; 146; 160; 141; 266; 309; 155; 179; 260; 187; 269; 36; 243; 205; 182; 197; 183; 129; 176; 153; 216; 148;
   199; 200; 222; 181; 217; 177; 150; 143; 268; 244; 296; 215; 211; 207; 208; 154; 121; 151; 152; 250; 251; 252; 253;
   291; 292; 264; 202; 245; 246; 164; 165; 166; 167; 168; 169; 170; 119; 106; 210; 112; 248; 120; 31; 149; -132; 119;
   -105; 152; 250; 251; 252; 253; 55; 260; 259; 254; -123; 177; -128; -128; -128; -128; -128; -2; -86; 17; 16; -5; -3;
   -207; 6; 20; 21; -30; 38; 39; -25; -36; 97; -37; -123; -56; 72; -61; 28; 55; -116; 23; -60; -57; -75; -73; -74;
   106; 107; 95; 96; 103; 73; 108; -65; -63; -64; -66; 57; 56; 65; 58; 59; 60; 61; 66; 67; 68; -117; -71; -207; 42;
   43; 280; 281; 282; 283; 287; 284; 75; 32; 270; 278; 277; 276; 274; 275; 272; 273; 311; 124; 271; 101; 279; -103;
   -39; -40; -41; -42; -53; -74; -207; -51; 11; -46; -51; -95; -131; 177; -99; 260; 259; -118; -97; -117; -115; 258;
   210; 257; 55; -116; 117; 172; 298; 71; 22; 24; 241; 247; 171; 74; 106; 16; 75; 307; 308; 105; 280; 112; 46; 272;
   273; 270; 282; 283; 271; 248; 28; 10; 25; 137; 21; 99; 114; 173; 78; 79; 140; 23; 138; 68; 19; 49; 131; 11; 297;
   13; 14; 299; 124; 123; 90; 310; 120; 44; 8; 108; 26; 87; 40; 135; 42; 88; 17; 274; 275; 30; 287; 144; 101; 47; 34;
   72; 66; 50; 265; 70; 15; 45; 133; 89; 115; 279; 43; 174; 118; 6; 285; 29; 136; 41; 119; 249; 77; 122; 67; 5; 134;
   9; 48; 51; 276; 277; 278; 32; 76; 12; 69; -166; -154; 55; -196; 307; 308; 121; -117; -111; 124; -111; -117; -117;
   -111; 279; 119; -51; -51; -110; 124; 55; -110; -110; -110; -51; 109; -51; 55; 29; 271; 55; 149; 119; 150; 121;
   -129; -207; -118; -129; -129; -129; 153; 154; -129; -106; 255; 50; -129; -208; 54; -87; 19; 30; -37; -123; -83;
   -84; -37; -82; -2; -24; 34; -28; 21; 63; 11; -120; 71; 70; 87; -119; 22; -117; 57; 109; -37; -58; 90; 72; 88; 89;
   74; 92; 91; 102; 95; 96; 97; 98; 99; 100; 101; 93; 94; 105; 311; 80; 81; 82; 83; 84; 85; 86; -104; -207; -74; -207;
   110; 111; -61; -61; -61; -61; -61; -61; -61; -207; -2; -69; -37; -207; -207; -207; -207; -207; -207; -207; -207;
   -207; -78; -37; -207; -213; -207; -213; -213; -213; -213; -213; -213; -213; -134; 106; 210; 139; 201; -137; -136;
   216; 180; 181; 182; 183; 184; 185; 186; 187; 188; 189; 209; 289; -207; -207; -207; -207; -52; 26; -51; 29; 53; -47;
   -49; -48; -50; 40; 44; 46; 41; 42; 43; 47; -127; 22; -39; -207; -126; 145; -125; 22; -123; 57; -51; -46; -209; 53;
   11; 51; 53; -95; 177; -96; -100; 261; 263; 80; -122; -117; 57; 28; 29; 54; 53; -155; -135; -139; -136; -141; -140;
   -142; -137; -138; 206; 210; 207; 212; 213; 214; 106; 211; 216; 217; 218; 219; 220; 221; 222; 223; 224; 225; 226;
   215; 227; 29; 139; 199; 200; 201; 204; 203; 205; 202; 228; 229; 230; 231; 232; 233; 234; 235; 191; 192; 194; 195;
   196; 198; 197; 120; -51; -185; 51; 55; 72; 55; 50; -201; 50; 171; 172; -51; -51; 265; -129; 122; -51; 23; 50; -51;
   55; 55; -124; -123; -115; -129; -129; -129; -129; -129; -129; -129; -129; -129; -129; -108; 249; 256; -51; 9; 90;
   53; 18; 109; 53; -85; 24; 25; -86; -208; -30; -62; -117; 58; 61; -29; 41; -51; -37; -37; -67; 66; 72; 67; 68; -119;
   97; -124; -118; -115; -61; -68; -71; -74; 62; 90; 88; 89; 74; -61; -61; -61; -61; -61; -61; -61; -61; -61; -61;
   -61; -61; -61; -61; -61; -130; 55; 57; -134; 55; -60; -60; -117; -35; 21; -34; -36; -208; 53; -208; -2; -34; -34;
   -37; -37; -75; -117; -123; -75; -34; -28; -76; -77; 76; -75; -208; 208; -34; -35; -34; -34; -91; 145; -51; -94;
   -98; -75; -40; -41; -41; -40; -41; 40; 40; 40; 45; 40; 45; 40; -48; -123; -208; -54; 48; 123; 49; -207; -125; -91;
   51; -39; -51; -99; -96; 53; 262; 264; 265; 50; 69; -37; -146; 106; 105; -167; -168; -169; -118; 57; 58; -154; -156;
   -158; -157; -170; -159; 127; 125; 129; 130; 134; -163; 120; 135; 66; 72; -198; 127; 50; 241; 247; 125; 135; 134;
   312; 64; 128; 297; 299; 28; -149; 314; 236; -147; 244; -143; 52; -143; -143; 208; -143; -143; -143; -143; -143;
   -145; 210; -145; -145; -145; -145; 52; 52; -143; -143; -143; -143; -151; 52; 193; -151; -151; -152; 52; -152; -117;
   22; -183; 291; -184; 55; -129; 23; -129; -51; -202; 8; 9; 10; -51; -112; 117; 114; 115; -180; 113; 241; 210; 64;
   28; 15; 280; 145; 296; 55; 146; -51; -51; -51; -129; -107; 11; 90; 36; -37; -37; -124; -84; -87; -102; 19; 11; 32;
   32; -34; 66; 67; 68; 109; -207; -68; -61; -61; -61; -33; 140; 71; -208; -208; -34; 53; -37; -208; -208; -208; 53;
   51; 22; 53; 11; 109; 53; 11; -208; -34; -79; -77; 78; -37; -208; -208; -208; -208; -208; -59; 29; 32; -2; -207;
   -207; -55; 53; 12; 80; -44; -43; 50; 51; -45; 50; -43; 40; 40; 120; 120; 120; -92; -117; -55; -39; -55; -100; -101;
   266; 263; 269; 55; 53; -169; 80; 52; -197; 50; 72; -161; -117; 135; -163; -163; 55; -163; 55; 55; 66; 19; -117; 9;
   135; 135; -197; 57; -123; -194; 298; 16; 52; -199; 52; 57; 58; 59; 66; -144; 65; -57; 237; 270; 273; 272; 238; 315;
   -148; 245; 58; -145; -145; -143; -145; -145; -145; -146; 29; -146; -146; -146; -146; -153; 57; -153; -150; 291;
   292; -150; 58; -151; 58; 50; 51; -2; -182; -181; -118; -187; 22; 50; -201; -128; -121; -211; 151; 126; 131; 130;
   55; 125; 129; 145; -186; 151; 126; 127; 131; 130; 55; 120; 135; 125; 129; 145; 134; -113; -114; 122; 22; 120; 135;
   145; 117; -129; -109; 88; 12; -123; -123; 37; 109; -51; -38; 11; 97; -118; -35; -33; 71; -61; -61; -208; -36; -133;
   106; 206; 139; 201; 195; 225; 226; 212; 243; 199; 244; -130; -133; -61; -61; -118; -61; -61; 288; -82; 79; -37; 77;
   -93; 50; -94; -70; -72; -71; -207; -2; -88; -117; -92; -82; -98; -37; -37; -37; 52; -37; -207; -207; -207; -208;
   53; -82; -55; 263; 267; 268; -168; -169; -172; -171; -117; 135; 10; 9; 19; 131; 125; 55; 55; 55; -196; 134; 309;
   -198; 312; -144; -207; 52; 22; 28; 58; -199; 52; -189; 311; -207; -143; 52; -143; 52; 52; 54; -146; -146; -145;
   -146; -146; -146; 55; 106; 54; 53; 54; 199; 199; 53; 54; 53; -51; -117; 53; 80; -188; 19; 159; 160; -51; -202;
   -210; 120; 135; -128; -117; -128; -117; -51; -128; -117; 127; -158; 57; -37; -55; -39; -208; -61; -208; -143; -143;
   -143; -152; -143; 186; -143; 186; -208; -208; -208; 53; 19; -208; 53; 19; -207; -32; 285; -37; 27; -93; 53; -208;
   -208; -208; 53; 109; -208; -86; -89; -117; 135; -89; -89; -89; -126; -117; -86; 54; 53; -143; -143; -160; 155; 156;
   29; 157; -160; 309; 135; 135; -196; -197; -37; -89; 299; 53; 54; -199; 210; 200; 239; 216; -208; 54; 54; 54; -146;
   -145; 57; -145; 246; 246; 58; 58; 52; 51; 50; -181; -169; 122; 20; 6; 8; 9; 10; 19; 22; -117; 52; 26; -117; -80;
   13; -145; 55; -61; -61; -61; -61; -61; -208; 57; 135; -72; 32; -2; -207; -117; -117; 53; 54; -208; -208; -208; -54;
   -174; -176; 291; -175; 51; 132; 64; 164; 165; 166; 167; 168; 169; 170; -171; -85; -197; 50; 66; 158; -197; 50;
   -161; -117; -196; -207; -208; 54; 52; 58; 54; 208; -150; -146; -146; 54; 54; -172; -117; -51; -162; -117; 173;
   -203; -204; -7; -9; -8; 52; -89; -207; 125; -81; 14; 16; -208; -208; -208; -208; -31; 90; 291; 9; -70; -2; 109;
   -117; -173; 50; -175; 291; 52; 293; 55; -164; 80; 57; 80; 80; 80; 80; 80; 80; 80; 9; 10; 52; 52; -37; -193; 157;
   -195; 54; 54; 54; 52; 52; -190; 53; 51; 174; -204; -172; 54; -178; -179; 145; 135; -37; -69; -208; 289; 47; 294;
   -94; -208; -117; -117; -177; -175; -117; 58; -200; 50; 69; 58; -200; -200; -200; -200; -200; -160; -160; -162;
   -172; -208; 286; 54; 176; 301; 302; 144; 303; 157; 304; 305; -90; 310; -172; -172; -191; 291; -117; -37; -204; 54;
   -185; -208; 53; -117; 52; 37; 290; 295; -207; 54; 53; -197; -197; 54; 54; 291; 58; 16; 58; 58; 58; 58; 302; 144;
   304; 16; -55; 52; 54; 54; 312; -183; -179; 32; -172; 37; -117; -175; 128; -174; 58; 58; 306; -123; -174; -89; -55;
   -174; -37; 147; 54; 291; -208; -51; -173; 109; -173; 54; -174; 148; 294; 52; -118; -207; 295; -162; -61; 144; 54;
   -208; -208 ].
Definition yy_chk : tree Z := Eval vm_compute in tree_of chk_list.

(** 2843-3015: [yyDef]. *)
Definition def_list : list Z :=
  [
   0; -2; 2; -2; 5; 6; 7; 8; 9; 10; 11; 12; 13; 14; 15; 16; 17; 18; 19; 20; 21; 674; 0; 430; 430; 430; 430; 430; 430;
   0; -2; 728; 0; 0; 0; 0; -2; 420; 421; 0; 423; 424; 995; 995; 995; 995; 995; 0; 33; 34; 993; 1; 3; 682; 0; 0; 434;
   437; 432; 0; 728; 0; 0; 0; 60; 0; 317; 0; 0; 726; 726; 0; 0; 726; 95; 0; 0; 0; 729; 0; 724; 0; 724; 724; 724; 0;
   379; 502; 749; 750; 860; 861; 862; 863; 864; 865; 866; 867; 868; 869; 870; 871; 872; 873; 874; 875; 876; 877; 878;
   879; 880; 881; 882; 883; 884; 885; 886; 887; 888; 889; 890; 891; 892; 893; 894; 895; 896; 897; 898; 899; 900; 901;
   902; 903; 904; 905; 906; 907; 908; 909; 910; 911; 912; 913; 914; 915; 916; 917; 918; 919; 920; 921; 922; 923; 924;
   925; 926; 927; 928; 929; 930; 931; 932; 933; 934; 935; 936; 937; 938; 939; 940; 941; 942; 943; 944; 945; 946; 947;
   948; 949; 950; 951; 952; 953; 954; 955; 956; 957; 958; 959; 960; 961; 962; 963; 964; 965; 966; 967; 968; 969; 970;
   971; 972; 973; 974; 975; 976; 977; 978; 979; 980; 981; 982; 983; 984; 985; 986; 987; 988; 989; 990; 991; 992; 0; 0;
   0; 0; 996; 996; 996; 996; 0; 996; 408; 397; 399; 400; 401; 402; 996; 417; 418; 407; 419; 422; 425; 426; 427; 428;
   429; 27; 686; 0; 0; 674; 29; 0; 430; 435; 436; 440; 438; 439; 431; 0; 448; 452; 0; 512; 0; 517; 519; -2; -2; 0;
   554; 555; 556; 557; 558; 0; 0; 0; 0; 0; 0; 0; 582; 583; 584; 585; 659; 660; 661; 662; 663; 664; 665; 666; 521; 522;
   656; 706; 0; 0; 0; 0; 0; 0; 0; 0; 0; 647; 0; 613; 613; 613; 613; 613; 613; 613; 613; 0; 0; 0; 0; 0; 0; 0; 459; 461;
   462; 463; 483; 0; 485; 0; 0; 41; 45; 0; 962; 710; -2; -2; 0; 0; 747; 748; -2; 872; -2; 745; 746; 753; 754; 755;
   756; 757; 758; 759; 760; 761; 762; 763; 764; 765; 766; 767; 768; 769; 770; 771; 772; 773; 774; 775; 776; 777; 778;
   779; 780; 781; 782; 783; 784; 785; 786; 787; 788; 789; 790; 791; 792; 793; 794; 795; 796; 797; 798; 799; 800; 801;
   802; 803; 804; 805; 806; 807; 808; 809; 810; 811; 812; 813; 814; 815; 816; 817; 818; 819; 820; 821; 822; 823; 824;
   825; 826; 827; 828; 829; 830; 831; 832; 833; 834; 835; 836; 837; 838; 839; 840; 841; 842; 843; 844; 845; 846; 847;
   848; 849; 850; 851; 852; 853; 854; 855; 856; 857; 858; 859; 0; 108; 0; 0; 318; 319; 0; 96; 0; 0; 0; 0; 0; 0; 105;
   0; 996; 0; 0; 0; 0; 0; 0; 0; 378; 0; 380; 996; 996; 996; 996; 996; 996; 996; 996; 389; 997; 998; 390; 391; 392;
   996; 996; 394; 0; 409; 0; 403; 28; 994; 22; 0; 0; 683; 0; 675; 676; 679; 682; 27; 437; 0; 442; 441; 433; 0; 449; 0;
   0; 0; 453; 0; 455; 456; 0; 515; 0; 0; 0; 0; 0; 0; 0; 0; 0; 0; 0; 0; 0; 0; 0; 0; 0; 0; 0; 0; 539; 540; 541; 542;
   543; 544; 545; 518; 0; 532; 0; 0; 0; 574; 575; 576; 577; 578; 579; 0; 444; 27; 0; 552; 0; 0; 0; 0; 0; 0; 0; 0; 440;
   0; 648; 0; 604; 0; 605; 606; 607; 608; 609; 610; 611; 612; 640; 0; 642; 643; 644; 645; 646; 182; 183; 184; 185;
   186; 187; 188; 189; 190; 191; 208; 209; 0; 444; 0; 0; 43; 0; 501; 0; 0; 0; 0; 0; 0; 490; 0; 0; 493; 0; 0; 0; 0;
   484; 0; 0; 504; 926; 486; 0; 488; 489; -2; 0; 0; 0; 39; 40; 0; 46; 962; 48; 49; 0; 0; 0; 263; 719; 720; 721; 717;
   326; 0; 113; 257; 253; 115; 116; 117; 118; 243; 181; 243; 243; 243; 243; 243; 215; 243; 243; 260; 260; 260; 260;
   260; 224; 225; 226; 227; 228; 229; 230; 0; 0; 200; 243; 243; 243; 204; 243; 206; 207; 233; 234; 235; 236; 237; 238;
   239; 240; 245; 245; 245; 247; 247; 198; 199; 0; 0; 99; 0; 996; 0; 996; 0; 0; 0; 71; 72; 106; 0; 0; 345; 0; 373;
   725; 0; 996; 376; 377; 503; 751; 752; 381; 382; 383; 384; 385; 386; 387; 388; 393; 396; 410; 404; 405; 398; 687; 0;
   0; 0; 0; 0; 678; 680; 681; 686; 30; 440; 0; 667; 0; 0; 0; 443; 25; 513; 514; 516; 533; 0; 535; 537; 454; 450; 0;
   657; -2; 523; 524; 548; 549; 550; 0; 0; 0; 0; 546; 528; 0; 559; 560; 561; 562; 563; 564; 565; 566; 567; 568; 569;
   570; 573; 624; 625; 581; 0; 571; 572; 580; 0; 0; 445; 446; 551; 0; 705; 27; 0; 0; 0; 0; 0; 656; 0; 0; 0; 0; 654;
   651; 0; 0; 614; 641; 0; 0; 0; 0; 0; 0; 500; 508; 707; 0; 460; 479; 481; 0; 476; 491; 492; 494; 0; 496; 0; 498; 499;
   464; 465; 466; 0; 0; 0; 0; 487; 508; 0; 508; 42; 711; 47; 0; 0; 52; 53; 712; 713; 714; 715; 264; 0; 107; 327; 329;
   332; 333; 334; 109; 110; 111; 112; 0; 320; 322; 0; 0; 0; 0; 0; 300; 301; 120; 0; 122; 0; 0; 125; 126; 0; 128; 130;
   320; 0; 0; 0; 0; 0; 119; 0; 259; 255; 254; 180; 0; 260; 260; 243; 260; 260; 260; 217; 218; 263; 0; 263; 263; 263;
   263; 0; 0; 250; 250; 203; 205; 192; 0; 245; 194; 195; 196; 0; 197; 0; 0; 65; 0; 97; 98; 66; 727; 67; 81; 0; 73; 74;
   75; 0; 995; 94; 0; 740; 346; 730; 731; 732; 733; 734; 735; 736; 737; 738; 739; 0; 0; 372; 996; 375; 413; 0; 0; 0;
   684; 685; 0; 677; 23; 0; 722; 723; 668; 669; 457; 534; 536; 538; 0; 444; 525; 546; 529; 0; 526; 0; 0; 520; 586; 0;
   0; 553; -2; 589; 590; 0; 0; 0; 0; 0; 0; 0; 0; 0; 674; 0; 652; 0; 0; 603; 615; 616; 617; 618; 699; 0; 0; -2; 0; 0;
   674; 0; 0; 0; 473; 480; 0; 0; 474; 0; 475; 495; 497; 0; 0; 0; 0; 471; 674; 508; 38; 50; 51; 0; 0; 57; 265; 0; 330;
   0; 0; 306; 0; 0; 0; 323; 292; 0; 0; 295; 0; 297; 317; 121; 0; 0; 0; 127; 129; 0; 133; 134; 0; 151; 0; 0; 140; 0;
   175; 144; 145; 146; 147; 148; 149; 0; 243; 243; 171; 0; 258; 114; 256; 0; 263; 263; 260; 263; 263; 263; 219; 0;
   220; 221; 222; 223; 0; 241; 0; 201; 0; 0; 202; 0; 193; 0; 0; 0; -2; 100; 101; 0; 84; 0; 0; 0; 335; 0; 995; 0; 360;
   361; 362; 363; 364; 365; 366; 995; 0; 347; 348; 349; 350; 351; 352; 353; 354; 355; 356; 357; 0; 995; 741; 742; 743;
   744; 0; 0; 374; 395; 0; 0; 411; 412; 688; 0; 24; 508; 0; 451; 658; 0; 527; 0; 547; 530; 587; 447; 0; 243; 243; 629;
   243; 247; 632; 633; 243; 635; 243; 638; 0; 0; 0; 0; 657; 0; 0; 0; 649; 602; 655; 0; 31; 0; 699; 689; 701; 703; 0;
   27; 0; 695; 0; 682; 708; 509; 709; 477; 0; 482; 0; 0; 0; 485; 0; 682; 37; 54; 55; 56; 328; 331; 0; 302; 243; 243;
   0; 0; 0; 0; 0; 293; 294; 296; 298; 317; 139; 123; 320; 124; 0; 0; 0; 152; 0; 0; 0; 143; 0; 0; 167; 0; 169; 0; 0;
   244; 210; 211; 263; 212; 213; 214; 261; 262; 260; 0; 260; 0; 0; 0; 248; 0; 0; 0; 0; 0; 0; 0; 82; 83; 0; 0; 0; 358;
   359; 339; 0; 340; 342; 343; 344; 0; 322; 338; 414; 415; 670; 458; 588; 531; 591; 626; 260; 630; 631; 634; 636; 637;
   639; 593; 592; 594; 0; 0; 597; 0; 0; 0; 0; 0; 653; 0; 32; 0; 704; -2; 0; 0; 0; 44; 35; 0; 468; 469; 0; 0; 0; 504;
   472; 36; 267; 0; 679; 305; 320; 312; 313; 0; 0; 320; 321; 322; 317; 299; 0; 0; 0; 136; 0; 141; 0; 0; 250; 178; 179;
   150; 168; 170; 172; 216; 263; 242; 263; 251; 252; 0; 0; 0; 0; 0; 102; 103; 0; 85; 86; 87; 88; 89; 0; 0; 0; 0; 0;
   323; 672; 0; 627; 628; 0; 0; 0; 0; 619; 601; 650; 0; 702; 0; -2; 0; 697; 696; 0; 478; 505; 506; 507; 467; 289; 268;
   0; 270; 0; 285; 0; 0; 0; 0; 0; 0; 0; 0; 303; 304; 307; 0; 314; 315; 308; 0; 0; 323; 0; 0; 173; 135; 153; 0; 0; 176;
   177; 231; 232; 246; 249; 0; 0; 0; 90; 324; 0; 70; 76; 78; 79; 80; 0; 0; 0; 0; 26; 0; 0; 595; 596; 598; 599; 0; 0;
   0; 0; 692; 27; 0; 470; 266; 0; 271; 0; 0; 0; 274; 0; 286; 276; 0; 0; 0; 0; 0; 0; 0; 0; 0; 0; 0; 0; 131; 0; 0; 138;
   142; 510; 0; 0; 92; 0; 0; 0; 77; 0; 96; 0; 368; 0; 0; 673; 671; 600; 0; 0; 0; 700; -2; 698; 290; 0; 272; 277; 275;
   278; 287; 288; 279; 280; 281; 282; 283; 284; 320; 320; 0; 0; 132; 174; 137; 0; 0; 0; 0; 0; 0; 164; 0; 508; 0; 0; 0;
   68; 0; 325; 91; 69; 336; 99; 367; 0; 0; 0; 620; 0; 623; 0; 269; 0; 309; 310; 0; 267; 0; 155; 0; 157; 158; 159; 160;
   161; 162; 163; 0; 267; 0; 508; 267; 0; 341; 369; 0; 0; 621; 0; 273; 0; 289; 154; 156; 165; 0; 289; 0; 267; 62; 93;
   0; 337; 0; 291; 0; 316; 0; 61; 511; 63; 0; 0; 0; 166; 0; 622; 0; 0; 0; 311; 370; 371 ].
Definition yy_def : tree Z := Eval vm_compute in tree_of def_list.

(** 3017-3031: [yyTok1]. *)
Definition tok1_list : list Z :=
  [
   1; 3; 3; 3; 3; 3; 3; 3; 3; 3; 3; 3; 3; 3; 3; 3; 3; 3; 3; 3; 3; 3; 3; 3; 3; 3; 3; 3; 3; 3; 3; 3; 3; 73; 3; 3; 3;
   100; 92; 3; 52; 54; 97; 95; 53; 96; 109; 98; 3; 3; 3; 3; 3; 3; 3; 3; 3; 3; 3; 313; 81; 80; 82; 3; 3; 3; 3; 3; 3; 3;
   3; 3; 3; 3; 3; 3; 3; 3; 3; 3; 3; 3; 3; 3; 3; 3; 3; 3; 3; 3; 3; 314; 3; 315; 102; 3; 3; 3; 3; 3; 3; 3; 3; 3; 3; 3;
   3; 3; 3; 3; 3; 3; 3; 3; 3; 3; 3; 3; 3; 3; 3; 3; 3; 3; 91; 3; 103 ].
Definition yy_tok1 : tree Z := Eval vm_compute in tree_of tok1_list.

(** 3033-3060: [yyTok2]. *)
Definition tok2_list : list Z :=
  [
   2; 3; 4; 5; 6; 7; 8; 9; 10; 11; 12; 13; 14; 15; 16; 17; 18; 19; 20; 21; 22; 23; 24; 25; 26; 27; 28; 29; 30; 31; 32;
   33; 34; 35; 36; 37; 38; 39; 40; 41; 42; 43; 44; 45; 46; 47; 48; 49; 50; 51; 55; 56; 57; 58; 59; 60; 61; 62; 63; 64;
   65; 66; 67; 68; 69; 70; 71; 72; 74; 75; 76; 77; 78; 79; 83; 84; 85; 86; 87; 88; 89; 90; 93; 94; 99; 101; 104; 105;
   106; 107; 108; 110; 111; 112; 113; 114; 115; 116; 117; 118; 119; 120; 121; 122; 123; 124; 125; 126; 127; 128; 129;
   130; 131; 132; 133; 134; 135; 136; 137; 138; 139; 140; 141; 142; 143; 144; 145; 146; 147; 148; 149; 150; 151; 152;
   153; 154; 155; 156; 157; 158; 159; 160; 161; 162; 163; 164; 165; 166; 167; 168; 169; 170; 171; 172; 173; 174; 175;
   176; 177; 178; 179; 180; 181; 182; 183; 184; 185; 186; 187; 188; 189; 190; 191; 192; 193; 194; 195; 196; 197; 198;
   199; 200; 201; 202; 203; 204; 205; 206; 207; 208; 209; 210; 211; 212; 213; 214; 215; 216; 217; 218; 219; 220; 221;
   222; 223; 224; 225; 226; 227; 228; 229; 230; 231; 232; 233; 234; 235; 236; 237; 238; 239; 240; 241; 242; 243; 244;
   245; 246; 247; 248; 249; 250; 251; 252; 253; 254; 255; 256; 257; 258; 259; 260; 261; 262; 263; 264; 265; 266; 267;
   268; 269; 270; 271; 272; 273; 274 ].
Definition yy_tok2 : tree Z := Eval vm_compute in tree_of tok2_list.

(** 3062-3071: [yyTok3]. *)
Definition tok3_list : list Z :=
  [
   57600; 275; 57601; 276; 57602; 277; 57603; 278; 57604; 279; 57605; 280; 57606; 281; 57607; 282; 57608; 283; 57609;
   284; 57610; 285; 57611; 286; 57612; 287; 57613; 288; 57614; 289; 57615; 290; 57616; 291; 57617; 292; 57618; 293;
   57619; 294; 57620; 295; 57621; 296; 57622; 297; 57623; 298; 57624; 299; 57625; 300; 57626; 301; 57627; 302; 57628;
   303; 57629; 304; 57630; 305; 57631; 306; 57632; 307; 57633; 308; 57634; 309; 57635; 310; 57636; 311; 57637; 312; 0 ].

(** 791-2262: [yyAct]. *)
Definition act_list : list Z :=
  [
   273; 1580; 1515; 1067; 1478; 974; 1475; 270; 729; 861; 498; 1597; 1098; 579; 1388; 1519; 1401; 1252; 1542; 578; 3;
   1156; 1279; 464; 773; 302; 1280; 879; 1167; 1253; 1101; 276; 644; 903; 646; 89; 909; 277; 89; 1249; 1129; 902; 969;
   1083; 982; 251; 862; 822; 923; 1123; 833; 53; 1031; 830; 266; 245; 348; 1225; 66; 735; 1072; 964; 89; 89; 353;
   1153; 849; 250; 662; 353; 952; 918; 353; 353; 345; 799; 511; 517; 89; 462; 89; 648; 661; 858; 279; 633; 89; 942;
   523; 330; 342; 275; 602; 1013; 328; 335; 260; 339; 337; 246; 247; 248; 249; 607; 531; 608; 1137; 939; 545; 52; 264;
   555; 1661; 1305; 936; 832; 555; 1622; 1407; 329; 465; 466; 1292; 593; 1293; 1654; 1414; 1695; 1638; 1691; 86; 1588;
   1535; 544; 543; 553; 554; 546; 547; 548; 549; 550; 551; 552; 545; 1121; 333; 555; 553; 554; 546; 547; 548; 549;
   550; 551; 552; 545; 338; 1547; 555; 1157; 1158; 1682; 975; 1626; 1647; 1637; 1244; 1373; 1611; 1376; 1546; 477;
   1587; 478; 475; 1091; 1275; 1276; 1090; 485; 663; 1092; 664; 938; 1274; 539; 892; 542; 506; 1136; 48; 26; 27; 557;
   558; 559; 560; 561; 562; 563; 898; 540; 541; 538; 544; 543; 553; 554; 546; 547; 548; 549; 550; 551; 552; 545; 893;
   894; 555; 1431; 1430; 1133; 89; 1135; 1134; 764; 353; 353; 353; 353; 1139; 353; 765; 941; 953; 1506; 853; 1325;
   353; 544; 543; 553; 554; 546; 547; 548; 549; 550; 551; 552; 545; 1324; 1365; 555; 546; 547; 548; 549; 550; 551;
   552; 545; 1363; 1454; 555; 353; 943; 244; 548; 549; 550; 551; 552; 545; 520; 965; 555; 1575; 1517; 737; 738; 1653;
   1494; 1655; 491; 1565; 570; 571; 572; 573; 574; 575; 576; 465; 466; 1335; 1336; 1680; 736; 1125; 1126; 1127; 502;
   503; 519; 514; 518; 1130; 1128; 299; 300; 84; 80; 81; 82; 556; 1690; 487; 1581; 1203; 556; 859; 536; 1340; 1582;
   919; 89; 1462; 1372; 510; 1409; 1536; 1408; 89; 89; 89; 1115; 1114; 1341; 353; 920; 1404; 1419; 1286; 1103; 353;
   1369; 510; 493; 345; 495; 556; 1418; 1669; 1349; 1526; 580; 566; 1421; 880; 882; 1287; 510; 480; 556; 591; 544;
   543; 553; 554; 546; 547; 548; 549; 550; 551; 552; 545; 492; 494; 555; 1420; 470; 78; 544; 543; 553; 554; 546; 547;
   548; 549; 550; 551; 552; 545; 1295; 1646; 555; 544; 543; 553; 554; 546; 547; 548; 549; 550; 551; 552; 545; 1547;
   1439; 555; 1586; 467; 966; 333; 953; 737; 738; 628; 946; 743; 556; 1120; 77; 1082; 78; 1081; 652; 1108; 476; 653;
   881; 1080; 659; 595; 596; 597; 598; 599; 600; 601; 544; 543; 553; 554; 546; 547; 548; 549; 550; 551; 552; 545; 727;
   223; 555; 556; 301; 49; 1106; 79; 83; 1204; 89; 1402; 1403; 1405; 556; 1200; 1686; 89; 1540; 89; 353; 1385; 89;
   1132; 1136; 89; 556; 568; 569; 89; 1212; 353; 353; 353; 353; 353; 353; 353; 353; 1047; 919; 1025; 771; 535; 490;
   353; 353; 486; 900; 899; 89; 768; 1008; 57; 528; 920; 1133; 1319; 1135; 1134; 530; 1558; 1208; 850; 1557; 353; 529;
   528; 347; 89; 530; 919; 1556; 468; 1555; 353; 472; 473; 59; 60; 61; 62; 63; 530; 1554; 752; 920; 798; 796; 1553;
   807; 808; 809; 810; 811; 812; 813; 814; 815; 816; 817; 818; 819; 820; 821; 728; 800; 776; 1320; 680; 1552; 676;
   739; 1201; 740; 1199; 1550; 744; 1332; 353; 747; 806; 750; 1070; 665; 786; 787; 1246; 1202; 1493; 556; 1009; 1100;
   732; 797; 804; 805; 803; 1207; 469; 1111; 75; 479; 837; 850; 766; 1054; 1044; 556; 543; 553; 554; 546; 547; 548;
   549; 550; 551; 552; 545; 778; 1598; 555; 556; 785; 801; 842; 845; 525; 76; 89; 795; 851; 89; 89; 89; 89; 89; 580;
   793; 1599; 840; 841; 510; 1496; 89; 1672; 1110; 89; 70; 73; 825; 89; 1492; 1671; 529; 528; 89; 89; 529; 528; 353;
   827; 828; 71; 74; 1100; 837; 556; 863; 471; 345; 530; 474; 353; 1100; 530; 1652; 1651; 855; 847; 72; 68; 1650; 904;
   482; 483; 484; 1099; 887; 327; 1600; 347; 347; 347; 347; 1551; 347; 529; 528; 838; 839; 50; 1596; 347; 1248; 846;
   789; 791; 792; 1100; 1504; 802; 790; 1433; 530; 1432; 333; 333; 333; 333; 333; 897; 865; 866; 860; 868; 1301; 1648;
   876; 353; 533; 333; 884; 353; 1162; 353; 89; 885; 89; 854; 333; 856; 857; 89; 890; 89; 774; 775; 89; 353; 889; 864;
   888; 907; 867; 1022; 1023; 1024; 1424; 1160; 509; 1140; 1140; 954; 955; 956; 957; 463; 971; 1649; 521; 944; 945;
   947; 948; 949; 1461; 950; 951; 823; 1043; 824; 1042; 796; 967; 968; 1370; 1423; 1428; 1351; 1548; 1140; 529; 528;
   960; 961; 962; 1154; 963; 529; 528; 69; 1117; 1290; 347; 1289; 1288; 1180; 1109; 530; 667; 1093; 1226; 1028; 1029;
   1030; 530; 21; 770; 1573; 1699; 1469; 1688; 1398; 1681; 1011; 1012; 556; 518; 797; 800; 981; 919; 986; 1398; 1660;
   510; 914; 1003; 913; 1004; 915; 916; 1005; 977; 1228; 917; 920; 1398; 1659; 1568; 1014; 826; 769; 1015; 1398; 1645;
   1567; 544; 543; 553; 554; 546; 547; 548; 549; 550; 551; 552; 545; 529; 528; 555; 255; 1573; 1644; 1511; 1181; 1177;
   1064; 1027; 1182; 1179; 1178; 749; 353; 74; 530; 89; 801; 1085; 1038; 1087; 1641; 1640; 1633; 510; 1183; 1398;
   1630; 1021; 1230; 748; 1176; 353; 1235; 1055; 1229; 1469; 1578; 1398; 1569; 1227; 733; 904; 353; 1053; 731; 1233;
   488; 1086; 1469; 1502; 1469; 510; 1510; 353; 1469; 1470; 1077; 481; 1231; 1232; 1398; 1397; 89; 463; 1095; 1271;
   510; 1505; 347; 1384; 510; 1425; 1116; 1328; 1327; 1036; 1234; 1236; 656; 347; 347; 347; 347; 347; 347; 347; 347;
   1416; 1088; 1322; 1323; 1051; 1250; 347; 347; 1068; 1131; 1322; 1321; 333; 1037; 510; 630; 510; 353; 835; 510; 672;
   671; 1312; 1574; 1159; 1573; 780; 1168; 1104; 1105; 1107; 657; 1069; 655; 1165; 1068; 533; 23; 54; 347; 835; 629;
   635; 638; 639; 640; 636; 353; 637; 641; 89; 89; 1073; 1074; 1380; 50; 1141; 1142; 89; 1144; 1145; 1146; 630; 1464;
   1215; 630; 1155; 353; 1415; 1161; 1069; 1331; 1049; 630; 1046; 1143; 1037; 1217; 1435; 1434; 829; 1221; 1222; 50;
   1173; 1326; 1094; 1172; 1174; 23; 843; 843; 891; 1037; 1239; 1240; 843; 1242; 1243; 1241; 292; 291; 294; 295; 296;
   297; 1037; 353; 353; 293; 298; 1068; 1062; 1251; 1048; 1063; 1045; 23; 556; 1612; 658; 1218; 1219; 886; 772; 655;
   1256; 257; 1692; 1224; 1254; 1273; 1237; 843; 1658; 50; 353; 1635; 353; 353; 730; 863; 1571; 1238; 1245; 797; 904;
   863; 904; 1570; 1247; 1259; 1562; 1213; 1561; 1523; 1261; 1503; 1448; 1220; 1260; 943; 347; 50; 970; 1262; 1263;
   1311; 1310; 1264; 1308; 1278; 1266; 50; 1291; 347; 1298; 1277; 1272; 544; 543; 553; 554; 546; 547; 548; 549; 550;
   551; 552; 545; 1265; 965; 555; 1122; 1296; 1147; 1131; 1149; 1150; 1151; 1152; 1294; 1163; 1164; 89; 353; 1097;
   959; 1616; 1073; 1074; 1079; 89; 958; 1302; 65; 1543; 353; 1436; 1250; 1171; 1618; 1076; 746; 734; 507; 353; 303;
   47; 784; 972; 1078; 873; 870; 347; 869; 347; 874; 89; 875; 1613; 639; 640; 1666; 353; 635; 638; 639; 640; 636; 347;
   637; 641; 353; 1315; 871; 89; 1338; 1353; 1636; 872; 1307; 1309; 1217; 261; 262; 1211; 1010; 1356; 524; 1664; 1342;
   1020; 1019; 347; 47; 512; 1449; 1148; 670; 1344; 1350; 522; 256; 489; 979; 1300; 513; 1354; 334; 1378; 774; 775;
   745; 1347; 1446; 1299; 1170; 973; 1329; 643; 258; 259; 1352; 524; 1445; 353; 1337; 353; 353; 353; 89; 353; 1361;
   1334; 1285; 252; 1018; 353; 1656; 777; 1529; 1391; 1392; 1393; 1017; 253; 54; 904; 1528; 1452; 1379; 1069; 1346;
   983; 984; 985; 1284; 1283; 353; 333; 1406; 526; 1377; 1560; 1394; 1387; 1559; 1411; 1537; 580; 1095; 1113; 1413;
   1358; 1359; 1410; 1360; 1396; 767; 56; 1362; 58; 1364; 1175; 1614; 1615; 1617; 1619; 1620; 1521; 7; 353; 353; 1339;
   1131; 1522; 6; 834; 836; 353; 654; 1168; 904; 1313; 1314; 1084; 1316; 1317; 1318; 353; 51; 1412; 1417; 852; 1520;
   5; 1; 556; 1441; 1437; 1442; 1443; 1444; 1518; 347; 1438; 1566; 1119; 1399; 1400; 1564; 67; 1440; 1625; 1572; 1102;
   1455; 1456; 1304; 1457; 1458; 1459; 1333; 1169; 353; 353; 1112; 1184; 976; 1166; 991; 1427; 1579; 1429; 1593; 1476;
   911; 901; 353; 461; 64; 1549; 1465; 878; 912; 1254; 910; 908; 353; 1463; 673; 937; 1138; 1491; 497; 497; 497; 497;
   1495; 497; 940; 1474; 679; 1490; 1489; 677; 497; 678; 675; 1453; 681; 674; 1499; 231; 353; 353; 89; 347; 1497; 353;
   1507; 340; 642; 47; 666; 527; 1198; 1197; 353; 987; 1206; 763; 1007; 505; 233; 564; 1512; 1016; 565; 1089; 346;
   567; 1524; 1621; 1257; 516; 1527; 347; 1451; 353; 1052; 590; 848; 278; 788; 290; 496; 287; 289; 288; 1544; 1538;
   779; 1061; 537; 1539; 268; 347; 577; 1254; 581; 582; 583; 584; 585; 586; 587; 588; 589; 332; 592; 594; 594; 594;
   594; 594; 594; 594; 594; 347; 622; 623; 624; 625; 626; 634; 632; 1426; 631; 1075; 1071; 645; 331; 353; 843; 1214;
   1375; 1258; 1084; 1534; 843; 1514; 783; 1576; 25; 55; 263; 19; 18; 17; 353; 20; 1584; 353; 16; 1577; 1589; 353; 15;
   14; 1594; 29; 13; 12; 1563; 11; 347; 10; 347; 1281; 9; 353; 353; 1608; 8; 1601; 1602; 1603; 1604; 1605; 353; 353;
   4; 353; 863; 1606; 1607; 254; 22; 2; 0; 353; 1583; 580; 1609; 1034; 1631; 0; 0; 1035; 1629; 0; 1623; 1624; 0; 0;
   1039; 1040; 1041; 0; 0; 0; 0; 0; 1479; 1050; 0; 0; 0; 0; 1056; 0; 0; 1057; 1058; 1059; 1060; 1481; 1642; 1643; 0;
   0; 0; 0; 1657; 0; 1330; 0; 1628; 1508; 0; 1509; 0; 0; 1663; 353; 1662; 0; 1343; 353; 0; 0; 0; 0; 0; 1668; 0; 1345;
   0; 0; 0; 1670; 0; 0; 0; 0; 89; 1665; 353; 0; 0; 0; 1677; 1675; 497; 1348; 1678; 0; 0; 89; 0; 0; 1676; 0; 347; 497;
   497; 497; 497; 497; 497; 497; 497; 1689; 0; 1480; 353; 0; 1685; 497; 497; 0; 353; 1687; 1696; 0; 1693; 0; 0; 0; 0;
   1697; 0; 0; 0; 499; 500; 501; 0; 504; 0; 0; 0; 0; 0; 1679; 508; 1482; 1483; 1484; 1485; 1486; 1487; 1488; 0; 0; 0;
   1389; 0; 1389; 1389; 1389; 0; 1395; 0; 0; 0; 0; 0; 347; 0; 544; 543; 553; 554; 546; 547; 548; 549; 550; 551; 552;
   545; 1033; 47; 555; 0; 0; 0; 0; 1389; 0; 0; 0; 1684; 0; 0; 0; 581; 936; 0; 0; 0; 544; 543; 553; 554; 546; 547; 548;
   549; 550; 551; 552; 545; 0; 997; 555; 0; 0; 1032; 925; 0; 347; 347; 1223; 0; 0; 0; 996; 0; 1447; 0; 0; 0; 932; 0;
   921; 0; 0; 0; 1450; 0; 922; 0; 0; 0; 334; 334; 334; 334; 334; 0; 1479; 0; 0; 1001; 0; 0; 0; 0; 0; 645; 0; 883; 995;
   1481; 0; 0; 0; 0; 334; 1270; 0; 1477; 0; 1467; 1468; 0; 0; 0; 0; 0; 0; 0; 0; 0; 0; 0; 0; 1281; 0; 0; 0; 0; 515;
   928; 0; 924; 933; 1498; 0; 0; 0; 0; 930; 929; 0; 0; 0; 0; 0; 0; 0; 992; 989; 990; 0; 988; 0; 0; 0; 0; 0; 0; 0;
   1281; 1513; 0; 0; 87; 1516; 0; 243; 1480; 0; 0; 0; 1303; 0; 1389; 0; 0; 1125; 1126; 1127; 999; 1002; 497; 0; 497;
   1130; 1128; 299; 300; 267; 0; 87; 87; 0; 0; 1541; 0; 0; 497; 0; 1482; 1483; 1484; 1485; 1486; 1487; 1488; 87; 0;
   87; 0; 0; 0; 0; 0; 87; 0; 0; 742; 0; 0; 0; 0; 0; 0; 556; 0; 0; 0; 753; 754; 755; 756; 757; 758; 759; 760; 0; 0; 0;
   0; 1355; 0; 761; 762; 994; 926; 1026; 1357; 1281; 0; 0; 927; 0; 0; 0; 0; 556; 0; 0; 1366; 1367; 1368; 843; 0; 1371;
   1591; 603; 0; 1592; 0; 0; 0; 1595; 0; 0; 993; 0; 1381; 1382; 1383; 0; 1386; 0; 0; 0; 0; 1516; 1281; 0; 0; 0; 0; 0;
   0; 0; 1281; 1281; 0; 1627; 605; 0; 934; 0; 935; 0; 1124; 1634; 0; 1065; 1066; 1125; 1126; 1127; 0; 998; 0; 931; 0;
   1130; 1128; 299; 300; 0; 0; 0; 0; 1545; 0; 1422; 0; 1000; 0; 0; 0; 0; 0; 334; 0; 0; 0; 610; 611; 612; 613; 614;
   615; 616; 617; 618; 619; 0; 0; 87; 0; 0; 0; 1132; 1136; 0; 0; 1281; 606; 0; 0; 1667; 0; 0; 0; 0; 620; 604; 1190; 0;
   0; 0; 0; 609; 0; 0; 0; 0; 0; 0; 1389; 0; 0; 0; 0; 0; 1133; 0; 1135; 1134; 0; 0; 0; 0; 1460; 0; 0; 229; 0; 0; 0; 0;
   0; 0; 0; 0; 0; 0; 347; 0; 1471; 1472; 1473; 0; 1516; 0; 0; 0; 0; 0; 47; 239; 0; 0; 0; 0; 0; 0; 0; 0; 0; 1501; 0;
   1191; 0; 0; 0; 0; 1193; 1186; 1187; 0; 1194; 1189; 1188; 0; 621; 1196; 1192; 0; 0; 0; 497; 87; 0; 0; 0; 0; 1195; 0;
   87; 650; 87; 0; 1185; 0; 0; 0; 978; 0; 980; 0; 224; 0; 1530; 1531; 1532; 1533; 226; 0; 0; 0; 0; 0; 1006; 232; 228;
   1132; 1136; 0; 0; 0; 0; 0; 0; 0; 0; 0; 0; 0; 0; 0; 0; 0; 0; 0; 0; 0; 0; 0; 1255; 0; 47; 0; 0; 230; 0; 0; 234; 0;
   1133; 0; 1135; 1134; 0; 0; 0; 1267; 1268; 1269; 0; 0; 0; 0; 0; 0; 0; 0; 0; 0; 0; 0; 0; 0; 0; 0; 0; 0; 0; 0; 0; 0;
   0; 1585; 0; 0; 0; 0; 1590; 0; 0; 0; 0; 1297; 23; 24; 48; 26; 27; 0; 0; 0; 0; 0; 0; 0; 225; 0; 0; 1306; 0; 0; 1610;
   42; 0; 0; 0; 28; 0; 0; 0; 0; 0; 87; 0; 0; 0; 0; 1632; 0; 87; 0; 87; 0; 0; 87; 37; 0; 87; 0; 50; 0; 751; 0; 227; 0;
   235; 236; 237; 238; 242; 0; 0; 0; 0; 241; 240; 0; 0; 0; 0; 0; 0; 87; 0; 0; 0; 0; 0; 0; 0; 0; 0; 0; 0; 0; 0; 0; 0;
   0; 0; 0; 87; 0; 0; 0; 0; 0; 0; 0; 0; 751; 334; 0; 0; 0; 0; 0; 0; 0; 30; 31; 33; 32; 35; 0; 0; 0; 0; 0; 0; 0; 0; 0;
   0; 0; 1683; 0; 0; 0; 0; 1374; 0; 0; 36; 43; 44; 0; 0; 45; 46; 34; 0; 267; 0; 0; 0; 0; 267; 267; 0; 0; 844; 844;
   267; 0; 1700; 1701; 844; 0; 0; 0; 0; 0; 0; 0; 0; 0; 0; 0; 0; 0; 0; 38; 39; 0; 40; 41; 0; 0; 0; 0; 1205; 0; 0; 0; 0;
   0; 267; 267; 267; 267; 0; 87; 0; 844; 87; 87; 87; 87; 87; 0; 0; 0; 0; 0; 0; 0; 877; 0; 0; 87; 0; 0; 0; 650; 0; 0;
   0; 0; 87; 87; 0; 0; 0; 0; 0; 0; 0; 0; 0; 0; 0; 0; 0; 0; 0; 0; 0; 0; 0; 0; 0; 0; 0; 0; 0; 0; 0; 0; 0; 0; 0; 0; 0; 0;
   0; 0; 0; 0; 0; 0; 0; 0; 0; 0; 0; 1255; 0; 0; 1466; 0; 0; 0; 0; 0; 0; 49; 0; 0; 0; 0; 0; 0; 0; 0; 0; 0; 0; 0; 0; 0;
   0; 0; 0; 0; 0; 0; 1500; 0; 87; 0; 87; 0; 0; 0; 0; 87; 0; 87; 0; 0; 87; 0; 0; 0; 0; 0; 0; 0; 0; 0; 0; 0; 0; 0; 0; 0;
   0; 0; 0; 0; 0; 0; 0; 703; 1525; 751; 0; 0; 0; 0; 0; 0; 0; 0; 0; 0; 0; 267; 0; 1255; 0; 47; 0; 0; 0; 0; 0; 0; 0; 0;
   0; 0; 0; 0; 0; 0; 0; 0; 0; 0; 0; 0; 0; 0; 0; 0; 0; 0; 0; 0; 0; 0; 0; 0; 0; 0; 0; 0; 0; 0; 0; 0; 0; 0; 0; 267; 0; 0;
   0; 0; 0; 0; 0; 0; 0; 0; 0; 0; 0; 0; 688; 267; 0; 0; 0; 0; 0; 0; 0; 0; 0; 0; 0; 0; 0; 0; 0; 0; 0; 0; 0; 0; 0; 0; 0;
   0; 0; 0; 0; 0; 0; 0; 0; 704; 0; 0; 0; 0; 0; 0; 87; 0; 0; 0; 0; 0; 0; 0; 0; 0; 0; 0; 0; 0; 0; 0; 0; 0; 0; 0; 0; 0;
   0; 0; 0; 0; 0; 1639; 0; 0; 0; 0; 0; 0; 610; 611; 612; 613; 614; 615; 616; 617; 618; 619; 0; 720; 721; 1118; 722;
   723; 724; 726; 725; 705; 706; 707; 711; 709; 708; 710; 682; 684; 0; 620; 683; 689; 685; 686; 687; 701; 690; 691;
   692; 693; 694; 695; 696; 697; 698; 699; 700; 702; 712; 713; 714; 715; 716; 717; 718; 719; 0; 0; 0; 0; 0; 0; 0; 0;
   0; 0; 0; 0; 0; 0; 0; 0; 0; 0; 0; 0; 0; 0; 0; 0; 0; 0; 0; 0; 0; 0; 0; 0; 1209; 1210; 0; 1694; 0; 0; 0; 0; 87; 0; 0;
   0; 0; 0; 0; 0; 0; 0; 267; 0; 0; 621; 0; 0; 0; 0; 0; 0; 0; 267; 0; 0; 0; 0; 0; 0; 0; 0; 0; 751; 0; 0; 0; 0; 0; 0; 0;
   0; 0; 0; 0; 0; 0; 0; 844; 0; 0; 0; 0; 0; 844; 0; 0; 0; 0; 0; 0; 0; 0; 0; 0; 0; 0; 0; 0; 0; 0; 0; 0; 0; 0; 0; 0; 0;
   0; 0; 0; 0; 0; 0; 0; 0; 0; 0; 0; 0; 0; 0; 0; 0; 0; 0; 0; 0; 0; 0; 0; 0; 0; 0; 0; 0; 0; 0; 0; 0; 0; 0; 0; 0; 0; 0;
   0; 0; 0; 0; 0; 0; 0; 0; 0; 0; 0; 0; 0; 0; 0; 0; 0; 0; 0; 0; 0; 0; 0; 0; 0; 0; 0; 0; 0; 0; 0; 0; 0; 87; 0; 0; 0; 0;
   0; 0; 0; 87; 0; 0; 0; 0; 0; 0; 0; 0; 0; 0; 0; 0; 0; 0; 0; 0; 0; 0; 0; 0; 0; 0; 0; 0; 0; 87; 0; 0; 0; 0; 0; 0; 0; 0;
   0; 0; 0; 0; 0; 0; 0; 0; 0; 87; 0; 0; 0; 0; 0; 449; 439; 0; 408; 451; 381; 397; 459; 399; 400; 430; 365; 416; 154;
   394; 92; 384; 358; 391; 359; 382; 410; 116; 380; 441; 419; 130; 457; 133; 424; 0; 176; 142; 0; 0; 412; 443; 414;
   436; 407; 431; 372; 423; 452; 395; 427; 453; 0; 0; 650; 352; 0; 905; 906; 0; 0; 0; 0; 0; 105; 0; 426; 448; 393;
   460; 429; 357; 425; 0; 363; 366; 458; 446; 388; 389; 1096; 0; 0; 0; 0; 0; 0; 411; 415; 433; 404; 0; 0; 0; 0; 0; 0;
   0; 0; 385; 0; 422; 0; 0; 0; 369; 364; 0; 409; 0; 0; 0; 371; 0; 386; 434; 0; 354; 438; 444; 406; 203; 447; 403; 402;
   161; 0; 108; 0; 182; 120; 396; 131; 432; 450; 413; 442; 383; 392; 110; 390; 168; 155; 194; 421; 156; 166; 134; 186;
   162; 193; 204; 205; 184; 202; 171; 100; 149; 90; 160; 167; 0; 109; 0; 216; 217; 218; 219; 220; 221; 222; 362; 355;
   387; 437; 93; 183; 192; 106; 172; 96; 190; 179; 181; 140; 126; 127; 174; 94; 95; 0; 165; 115; 159; 119; 114; 152;
   180; 143; 187; 188; 111; 213; 113; 112; 178; 101; 200; 201; 98; 102; 199; 148; 153; 151; 198; 185; 191; 141; 138;
   87; 97; 189; 139; 137; 129; 0; 117; 121; 157; 136; 158; 122; 145; 144; 146; 0; 150; 123; 0; 0; 360; 0; 177; 196;
   214; 215; 361; 379; 445; 206; 207; 208; 209; 0; 0; 0; 147; 103; 124; 173; 128; 135; 164; 212; 428; 169; 107; 195;
   175; 375; 378; 373; 374; 417; 418; 454; 455; 456; 435; 370; 0; 376; 377; 0; 440; 125; 420; 91; 99; 132; 210; 211;
   0; 163; 118; 197; 398; 356; 401; 0; 0; 0; 0; 0; 0; 0; 367; 368; 170; 405; 0; 104; 0; 0; 0; 0; 0; 0; 0; 0; 844; 0;
   0; 0; 0; 0; 0; 0; 0; 0; 0; 449; 439; 0; 408; 451; 381; 397; 459; 399; 400; 430; 365; 416; 154; 394; 92; 384; 358;
   391; 359; 382; 410; 116; 380; 441; 419; 130; 457; 133; 424; 0; 176; 142; 0; 0; 412; 443; 414; 436; 407; 431; 372;
   423; 452; 395; 427; 453; 0; 0; 0; 352; 0; 905; 906; 0; 0; 0; 0; 0; 105; 0; 426; 448; 393; 460; 429; 357; 425; 0;
   363; 366; 458; 446; 388; 389; 0; 0; 0; 0; 0; 0; 0; 411; 415; 433; 404; 0; 0; 0; 0; 0; 0; 0; 0; 385; 0; 422; 0; 0;
   0; 369; 364; 0; 409; 0; 0; 0; 371; 1674; 386; 434; 0; 354; 438; 444; 406; 203; 447; 403; 402; 161; 87; 108; 0; 182;
   120; 396; 131; 432; 450; 413; 442; 383; 392; 110; 390; 168; 155; 194; 421; 156; 166; 134; 186; 162; 193; 204; 205;
   184; 202; 171; 100; 149; 90; 160; 167; 0; 109; 0; 216; 217; 218; 219; 220; 221; 222; 362; 355; 387; 437; 93; 183;
   192; 106; 172; 96; 190; 179; 181; 140; 126; 127; 174; 94; 95; 0; 165; 115; 159; 119; 114; 152; 180; 143; 187; 188;
   111; 213; 113; 112; 178; 101; 200; 201; 98; 102; 199; 148; 153; 151; 198; 185; 191; 141; 138; 0; 97; 189; 139; 137;
   129; 0; 117; 121; 157; 136; 158; 122; 145; 144; 146; 0; 150; 123; 0; 0; 360; 0; 177; 196; 214; 215; 361; 379; 445;
   206; 207; 208; 209; 0; 0; 0; 147; 103; 124; 173; 128; 135; 164; 212; 428; 169; 107; 195; 175; 375; 378; 373; 374;
   417; 418; 454; 455; 456; 435; 370; 0; 376; 377; 0; 440; 125; 420; 91; 99; 132; 210; 211; 0; 163; 118; 197; 398;
   356; 401; 0; 0; 0; 0; 0; 0; 0; 367; 368; 170; 405; 0; 104; 449; 439; 0; 408; 451; 381; 397; 459; 399; 400; 430;
   365; 416; 154; 394; 92; 384; 358; 391; 359; 382; 410; 116; 380; 441; 419; 130; 457; 133; 424; 0; 176; 142; 0; 0;
   412; 443; 414; 436; 407; 431; 372; 423; 452; 395; 427; 453; 0; 0; 0; 352; 0; 0; 0; 0; 0; 0; 0; 0; 105; 0; 426; 448;
   393; 460; 429; 357; 425; 0; 363; 366; 458; 446; 388; 389; 0; 0; 0; 0; 0; 0; 0; 411; 415; 433; 404; 0; 0; 0; 0; 0;
   0; 1216; 0; 385; 0; 422; 0; 0; 0; 369; 364; 0; 409; 0; 0; 0; 371; 0; 386; 434; 0; 354; 438; 444; 406; 203; 447;
   403; 402; 161; 0; 108; 0; 182; 120; 396; 131; 432; 450; 413; 442; 383; 392; 110; 390; 168; 155; 194; 421; 156; 166;
   134; 186; 162; 193; 204; 205; 184; 202; 171; 100; 149; 90; 160; 167; 0; 109; 0; 216; 217; 218; 219; 220; 221; 222;
   362; 355; 387; 437; 93; 183; 192; 106; 172; 96; 190; 179; 181; 140; 126; 127; 174; 94; 95; 0; 165; 115; 159; 119;
   114; 152; 180; 143; 187; 188; 111; 213; 113; 112; 178; 101; 200; 201; 98; 102; 199; 148; 153; 151; 198; 185; 191;
   141; 138; 0; 97; 189; 139; 137; 129; 0; 117; 121; 157; 136; 158; 122; 145; 144; 146; 0; 150; 123; 0; 0; 360; 0;
   177; 196; 214; 215; 361; 379; 445; 206; 207; 208; 209; 0; 0; 0; 147; 103; 124; 173; 128; 135; 164; 212; 428; 169;
   107; 195; 175; 375; 378; 373; 374; 417; 418; 454; 455; 456; 435; 370; 0; 376; 377; 0; 440; 125; 420; 91; 99; 132;
   210; 211; 0; 163; 118; 197; 398; 356; 401; 0; 0; 0; 0; 0; 0; 0; 367; 368; 170; 405; 0; 104; 449; 439; 0; 408; 451;
   381; 397; 459; 399; 400; 430; 365; 416; 154; 394; 92; 384; 358; 391; 359; 382; 410; 116; 380; 441; 419; 130; 457;
   133; 424; 0; 176; 142; 0; 0; 412; 443; 414; 436; 407; 431; 372; 423; 452; 395; 427; 453; 50; 0; 0; 352; 0; 0; 0; 0;
   0; 0; 0; 0; 105; 0; 426; 448; 393; 460; 429; 357; 425; 0; 363; 366; 458; 446; 388; 389; 0; 0; 0; 0; 0; 0; 0; 411;
   415; 433; 404; 0; 0; 0; 0; 0; 0; 0; 0; 385; 0; 422; 0; 0; 0; 369; 364; 0; 409; 0; 0; 0; 371; 0; 386; 434; 0; 354;
   438; 444; 406; 203; 447; 403; 402; 161; 0; 108; 0; 182; 120; 396; 131; 432; 450; 413; 442; 383; 392; 110; 390; 168;
   155; 194; 421; 156; 166; 134; 186; 162; 193; 204; 205; 184; 202; 171; 100; 149; 90; 160; 167; 0; 109; 0; 216; 217;
   218; 219; 220; 221; 222; 362; 355; 387; 437; 93; 183; 192; 106; 172; 96; 190; 179; 181; 140; 126; 127; 174; 94; 95;
   0; 165; 115; 159; 119; 114; 152; 180; 143; 187; 188; 111; 213; 113; 112; 178; 101; 200; 201; 98; 102; 199; 148;
   153; 151; 198; 185; 191; 141; 138; 0; 97; 189; 139; 137; 129; 0; 117; 121; 157; 136; 158; 122; 145; 144; 146; 0;
   150; 123; 0; 0; 360; 0; 177; 196; 214; 215; 361; 379; 445; 206; 207; 208; 209; 0; 0; 0; 147; 103; 124; 173; 128;
   135; 164; 212; 428; 169; 107; 195; 175; 375; 378; 373; 374; 417; 418; 454; 455; 456; 435; 370; 0; 376; 377; 0; 440;
   125; 420; 91; 99; 132; 210; 211; 0; 163; 118; 197; 398; 356; 401; 0; 0; 0; 0; 0; 0; 0; 367; 368; 170; 405; 0; 104;
   449; 439; 0; 408; 451; 381; 397; 459; 399; 400; 430; 365; 416; 154; 394; 92; 384; 358; 391; 359; 382; 410; 116;
   380; 441; 419; 130; 457; 133; 424; 0; 176; 142; 0; 0; 412; 443; 414; 436; 407; 431; 372; 423; 452; 395; 427; 453;
   0; 0; 0; 272; 0; 0; 0; 0; 0; 0; 0; 0; 105; 0; 426; 448; 393; 460; 429; 357; 425; 0; 363; 366; 458; 446; 388; 389;
   0; 0; 0; 0; 0; 0; 0; 411; 415; 433; 404; 0; 0; 0; 0; 0; 0; 794; 0; 385; 0; 422; 0; 0; 0; 369; 364; 0; 409; 0; 0; 0;
   371; 0; 386; 434; 0; 354; 438; 444; 406; 203; 447; 403; 402; 161; 0; 108; 0; 182; 120; 396; 131; 432; 450; 413;
   442; 383; 392; 110; 390; 168; 155; 194; 421; 156; 166; 134; 186; 162; 193; 204; 205; 184; 202; 171; 100; 149; 90;
   160; 167; 0; 109; 0; 216; 217; 218; 219; 220; 221; 222; 362; 355; 387; 437; 93; 183; 192; 106; 172; 96; 190; 179;
   181; 140; 126; 127; 174; 94; 95; 0; 165; 115; 159; 119; 114; 152; 180; 143; 187; 188; 111; 213; 113; 112; 178; 101;
   200; 201; 98; 102; 199; 148; 153; 151; 198; 185; 191; 141; 138; 0; 97; 189; 139; 137; 129; 0; 117; 121; 157; 136;
   158; 122; 145; 144; 146; 0; 150; 123; 0; 0; 360; 0; 177; 196; 214; 215; 361; 379; 445; 206; 207; 208; 209; 0; 0; 0;
   147; 103; 124; 173; 128; 135; 164; 212; 428; 169; 107; 195; 175; 375; 378; 373; 374; 417; 418; 454; 455; 456; 435;
   370; 0; 376; 377; 0; 440; 125; 420; 91; 99; 132; 210; 211; 0; 163; 118; 197; 398; 356; 401; 0; 0; 0; 0; 0; 0; 0;
   367; 368; 170; 405; 0; 104; 449; 439; 0; 408; 451; 381; 397; 459; 399; 400; 430; 365; 416; 154; 394; 92; 384; 358;
   391; 359; 382; 410; 116; 380; 441; 419; 130; 457; 133; 424; 0; 176; 142; 0; 0; 412; 443; 414; 436; 407; 431; 372;
   423; 452; 395; 427; 453; 0; 0; 0; 352; 0; 0; 0; 0; 0; 0; 0; 0; 105; 0; 426; 448; 393; 460; 429; 357; 425; 0; 363;
   366; 458; 446; 388; 389; 0; 0; 0; 0; 0; 0; 0; 411; 415; 433; 404; 0; 0; 0; 0; 0; 0; 0; 0; 385; 0; 422; 0; 0; 0;
   369; 364; 0; 409; 0; 0; 0; 371; 0; 386; 434; 0; 354; 438; 444; 406; 203; 447; 403; 402; 161; 0; 108; 0; 182; 120;
   396; 131; 432; 450; 413; 442; 383; 392; 110; 390; 168; 155; 194; 421; 156; 166; 134; 186; 162; 193; 204; 205; 184;
   202; 171; 100; 149; 90; 160; 167; 0; 109; 0; 216; 217; 218; 219; 220; 221; 222; 362; 355; 387; 437; 93; 183; 192;
   106; 172; 96; 190; 179; 181; 140; 126; 127; 174; 94; 95; 0; 165; 115; 159; 119; 114; 152; 180; 143; 187; 188; 111;
   213; 113; 112; 178; 101; 200; 201; 98; 102; 199; 148; 153; 151; 198; 185; 191; 141; 138; 0; 97; 189; 139; 137; 129;
   0; 117; 121; 157; 136; 158; 122; 145; 144; 146; 0; 150; 123; 0; 0; 360; 0; 177; 196; 214; 215; 361; 379; 445; 206;
   207; 208; 209; 0; 0; 0; 147; 103; 124; 173; 128; 135; 164; 212; 428; 169; 107; 195; 175; 375; 378; 373; 374; 417;
   418; 454; 455; 456; 435; 370; 0; 376; 377; 0; 440; 125; 420; 91; 99; 132; 210; 211; 0; 163; 118; 197; 398; 356;
   401; 0; 0; 0; 0; 0; 0; 0; 367; 368; 170; 405; 0; 104; 449; 439; 0; 408; 451; 381; 397; 459; 399; 400; 430; 365;
   416; 154; 394; 92; 384; 358; 391; 359; 382; 410; 116; 380; 441; 419; 130; 457; 133; 424; 0; 176; 142; 0; 0; 412;
   443; 414; 436; 407; 431; 372; 423; 452; 395; 427; 453; 0; 0; 0; 272; 0; 0; 0; 0; 0; 0; 0; 0; 105; 0; 426; 448; 393;
   460; 429; 357; 425; 0; 363; 366; 458; 446; 388; 389; 0; 0; 0; 0; 0; 0; 0; 411; 415; 433; 404; 0; 0; 0; 0; 0; 0; 0;
   0; 385; 0; 422; 0; 0; 0; 369; 364; 0; 409; 0; 0; 0; 371; 0; 386; 434; 0; 354; 438; 444; 406; 203; 447; 403; 402;
   161; 0; 108; 0; 182; 120; 396; 131; 432; 450; 413; 442; 383; 392; 110; 390; 168; 155; 194; 421; 156; 166; 134; 186;
   162; 193; 204; 205; 184; 202; 171; 100; 149; 90; 160; 167; 0; 109; 0; 216; 217; 218; 219; 220; 221; 222; 362; 355;
   387; 437; 93; 183; 192; 106; 172; 96; 190; 179; 181; 140; 126; 127; 174; 94; 95; 0; 165; 115; 159; 119; 114; 152;
   180; 143; 187; 188; 111; 213; 113; 112; 178; 101; 200; 201; 98; 102; 199; 148; 153; 151; 198; 185; 191; 141; 138;
   0; 97; 189; 139; 137; 129; 0; 117; 121; 157; 136; 158; 122; 145; 144; 146; 0; 150; 123; 0; 0; 360; 0; 177; 196;
   214; 215; 361; 379; 445; 206; 207; 208; 209; 0; 0; 0; 147; 103; 124; 173; 128; 135; 164; 212; 428; 169; 107; 195;
   175; 375; 378; 373; 374; 417; 418; 454; 455; 456; 435; 370; 0; 376; 377; 0; 440; 125; 420; 91; 99; 132; 210; 211;
   0; 163; 118; 197; 398; 356; 401; 0; 0; 0; 0; 0; 0; 0; 367; 368; 170; 405; 0; 104; 449; 439; 0; 408; 451; 381; 397;
   459; 399; 400; 430; 365; 416; 154; 394; 92; 384; 358; 391; 359; 382; 410; 116; 380; 441; 419; 130; 457; 133; 424;
   0; 176; 142; 0; 0; 412; 443; 414; 436; 407; 431; 372; 423; 452; 395; 427; 453; 0; 0; 0; 352; 0; 0; 0; 0; 0; 0; 0;
   0; 105; 0; 426; 448; 393; 460; 429; 357; 425; 0; 363; 366; 458; 446; 388; 389; 0; 0; 0; 0; 0; 0; 0; 411; 415; 433;
   404; 0; 0; 0; 0; 0; 0; 0; 0; 385; 0; 422; 0; 0; 0; 369; 364; 0; 409; 0; 0; 0; 371; 0; 386; 434; 0; 354; 438; 444;
   406; 203; 447; 403; 402; 161; 0; 108; 0; 182; 120; 396; 131; 432; 450; 413; 442; 383; 392; 110; 390; 168; 155; 194;
   421; 156; 166; 134; 186; 162; 193; 204; 205; 184; 202; 171; 100; 149; 90; 160; 167; 0; 109; 0; 216; 217; 218; 219;
   220; 221; 222; 362; 355; 387; 437; 93; 183; 192; 106; 172; 96; 190; 179; 181; 140; 126; 127; 174; 94; 95; 0; 165;
   115; 159; 119; 114; 152; 180; 143; 187; 188; 111; 213; 113; 112; 178; 101; 200; 201; 98; 350; 199; 148; 153; 151;
   198; 185; 191; 141; 138; 0; 97; 189; 139; 137; 129; 0; 117; 121; 157; 136; 158; 122; 145; 144; 146; 0; 150; 123; 0;
   0; 360; 0; 177; 196; 214; 215; 361; 379; 445; 206; 207; 208; 209; 0; 0; 0; 351; 349; 124; 173; 128; 135; 164; 212;
   428; 169; 107; 195; 175; 375; 378; 373; 374; 417; 418; 454; 455; 456; 435; 370; 0; 376; 377; 0; 440; 125; 420; 91;
   99; 132; 210; 211; 0; 163; 118; 197; 398; 356; 401; 0; 0; 0; 0; 0; 0; 0; 367; 368; 170; 405; 0; 104; 449; 439; 0;
   408; 451; 381; 397; 459; 399; 400; 430; 365; 416; 154; 394; 92; 384; 358; 391; 359; 382; 410; 116; 380; 441; 419;
   130; 457; 133; 424; 0; 176; 142; 0; 0; 412; 443; 414; 436; 407; 431; 372; 423; 452; 395; 427; 453; 0; 0; 0; 88; 0;
   0; 0; 0; 0; 0; 0; 0; 105; 0; 426; 448; 393; 460; 429; 357; 425; 0; 363; 366; 458; 446; 388; 389; 0; 0; 0; 0; 0; 0;
   0; 411; 415; 433; 404; 0; 0; 0; 0; 0; 0; 0; 0; 385; 0; 422; 0; 0; 0; 369; 364; 0; 409; 0; 0; 0; 371; 0; 386; 434;
   0; 354; 438; 444; 406; 203; 447; 403; 402; 161; 0; 108; 0; 182; 120; 396; 131; 432; 450; 413; 442; 383; 392; 110;
   390; 168; 155; 194; 421; 156; 166; 134; 186; 162; 193; 204; 205; 184; 202; 171; 100; 149; 90; 160; 167; 0; 109; 0;
   216; 217; 218; 219; 220; 221; 222; 362; 355; 387; 437; 93; 183; 192; 106; 172; 96; 190; 179; 181; 140; 126; 127;
   174; 94; 95; 0; 165; 115; 159; 119; 114; 152; 180; 143; 187; 188; 111; 213; 113; 112; 178; 101; 200; 201; 98; 102;
   199; 148; 153; 151; 198; 185; 191; 141; 138; 0; 97; 189; 139; 137; 129; 0; 117; 121; 157; 136; 158; 122; 145; 144;
   146; 0; 150; 123; 0; 0; 360; 0; 177; 196; 214; 215; 361; 379; 445; 206; 207; 208; 209; 0; 0; 0; 147; 103; 124; 173;
   128; 135; 164; 212; 428; 169; 107; 195; 175; 375; 378; 373; 374; 417; 418; 454; 455; 456; 435; 370; 0; 376; 377; 0;
   440; 125; 420; 91; 99; 132; 210; 211; 0; 163; 118; 197; 398; 356; 401; 0; 0; 0; 0; 0; 0; 0; 367; 368; 170; 405; 0;
   104; 449; 439; 0; 408; 451; 381; 397; 459; 399; 400; 430; 365; 416; 154; 394; 92; 384; 358; 391; 359; 382; 410;
   116; 380; 441; 419; 130; 457; 133; 424; 0; 176; 142; 0; 0; 412; 443; 414; 436; 407; 431; 372; 423; 452; 395; 427;
   453; 0; 0; 0; 352; 0; 0; 0; 0; 0; 0; 0; 0; 105; 0; 426; 448; 393; 460; 429; 357; 425; 0; 363; 366; 458; 446; 388;
   389; 0; 0; 0; 0; 0; 0; 0; 411; 415; 433; 404; 0; 0; 0; 0; 0; 0; 0; 0; 385; 0; 422; 0; 0; 0; 369; 364; 0; 409; 0; 0;
   0; 371; 0; 386; 434; 0; 354; 438; 444; 406; 203; 447; 403; 402; 161; 0; 108; 0; 182; 120; 396; 131; 432; 450; 413;
   442; 383; 392; 110; 390; 168; 155; 194; 421; 156; 166; 134; 186; 162; 193; 204; 205; 184; 202; 171; 100; 149; 90;
   160; 167; 0; 109; 0; 216; 217; 218; 219; 220; 221; 222; 362; 355; 387; 437; 93; 183; 660; 106; 172; 96; 190; 179;
   181; 140; 126; 127; 174; 94; 95; 0; 165; 115; 159; 119; 114; 152; 180; 143; 187; 188; 111; 213; 113; 112; 178; 101;
   200; 201; 98; 350; 199; 148; 153; 151; 198; 185; 191; 141; 138; 0; 97; 189; 139; 137; 129; 0; 117; 121; 157; 136;
   158; 122; 145; 144; 146; 0; 150; 123; 0; 0; 360; 0; 177; 196; 214; 215; 361; 379; 445; 206; 207; 208; 209; 0; 0; 0;
   351; 349; 124; 173; 128; 135; 164; 212; 428; 169; 107; 195; 175; 375; 378; 373; 374; 417; 418; 454; 455; 456; 435;
   370; 0; 376; 377; 0; 440; 125; 420; 91; 99; 132; 210; 211; 0; 163; 118; 197; 398; 356; 401; 0; 0; 0; 0; 0; 0; 0;
   367; 368; 170; 405; 0; 104; 449; 439; 0; 408; 451; 381; 397; 459; 399; 400; 430; 365; 416; 154; 394; 92; 384; 358;
   391; 359; 382; 410; 116; 380; 441; 419; 130; 457; 133; 424; 0; 176; 142; 0; 0; 412; 443; 414; 436; 407; 431; 372;
   423; 452; 395; 427; 453; 0; 0; 0; 352; 0; 0; 0; 0; 0; 0; 0; 0; 105; 0; 426; 448; 393; 460; 429; 357; 425; 0; 363;
   366; 458; 446; 388; 389; 0; 0; 0; 0; 0; 0; 0; 411; 415; 433; 404; 0; 0; 0; 0; 0; 0; 0; 0; 385; 0; 422; 0; 0; 0;
   369; 364; 0; 409; 0; 0; 0; 371; 0; 386; 434; 0; 354; 438; 444; 406; 203; 447; 403; 402; 161; 0; 108; 0; 182; 120;
   396; 131; 432; 450; 413; 442; 383; 392; 110; 390; 168; 155; 194; 421; 156; 166; 134; 186; 162; 193; 204; 205; 184;
   202; 171; 100; 149; 90; 160; 167; 0; 109; 0; 216; 217; 218; 219; 220; 221; 222; 362; 355; 387; 437; 93; 183; 341;
   106; 172; 96; 190; 179; 181; 140; 126; 127; 174; 94; 95; 0; 165; 115; 159; 119; 114; 152; 180; 143; 187; 188; 111;
   213; 113; 112; 178; 101; 200; 201; 98; 350; 199; 148; 153; 151; 198; 185; 191; 141; 138; 0; 97; 189; 139; 137; 129;
   0; 117; 121; 157; 136; 158; 122; 145; 144; 146; 0; 150; 123; 0; 0; 360; 0; 177; 196; 214; 215; 361; 379; 445; 206;
   207; 208; 209; 0; 0; 0; 351; 349; 344; 343; 128; 135; 164; 212; 428; 169; 107; 195; 175; 375; 378; 373; 374; 417;
   418; 454; 455; 456; 435; 370; 0; 376; 377; 0; 440; 125; 420; 91; 99; 132; 210; 211; 0; 163; 118; 197; 398; 356;
   401; 0; 0; 0; 0; 0; 0; 0; 367; 368; 170; 405; 154; 104; 92; 0; 0; 274; 0; 0; 0; 116; 271; 0; 0; 130; 313; 133; 0;
   0; 176; 142; 0; 0; 0; 0; 304; 305; 0; 0; 0; 0; 0; 0; 895; 0; 50; 0; 0; 272; 292; 291; 294; 295; 296; 297; 0; 0;
   105; 293; 298; 299; 300; 896; 0; 0; 269; 285; 0; 312; 0; 0; 0; 0; 0; 0; 0; 0; 0; 0; 0; 0; 0; 0; 0; 0; 0; 0; 0; 282;
   283; 0; 0; 0; 0; 325; 0; 284; 0; 0; 280; 281; 286; 0; 0; 0; 0; 0; 0; 0; 0; 0; 0; 0; 0; 203; 0; 0; 323; 161; 0; 108;
   0; 182; 120; 0; 131; 0; 0; 0; 0; 0; 0; 110; 0; 168; 155; 194; 0; 156; 166; 134; 186; 162; 193; 204; 205; 184; 202;
   171; 100; 149; 90; 160; 167; 0; 109; 0; 216; 217; 218; 219; 220; 221; 222; 0; 0; 0; 0; 93; 183; 192; 106; 172; 96;
   190; 179; 181; 140; 126; 127; 174; 94; 95; 0; 165; 115; 159; 119; 114; 152; 180; 143; 187; 188; 111; 213; 113; 112;
   178; 101; 200; 201; 98; 102; 199; 148; 153; 151; 198; 185; 191; 141; 138; 0; 97; 189; 139; 137; 129; 0; 117; 121;
   157; 136; 158; 122; 145; 144; 146; 0; 150; 123; 0; 0; 0; 0; 177; 196; 214; 215; 0; 0; 0; 206; 207; 208; 209; 0; 0;
   0; 147; 103; 124; 173; 128; 135; 164; 212; 0; 169; 107; 195; 175; 314; 324; 320; 321; 318; 319; 317; 316; 315; 326;
   306; 307; 308; 309; 311; 0; 125; 310; 91; 99; 132; 210; 211; 0; 163; 118; 197; 0; 0; 0; 0; 0; 0; 0; 0; 154; 0; 92;
   831; 170; 274; 322; 104; 0; 116; 271; 0; 0; 130; 313; 133; 0; 0; 176; 142; 0; 0; 0; 0; 304; 305; 0; 0; 0; 0; 0; 0;
   0; 0; 50; 0; 0; 272; 292; 291; 294; 295; 296; 297; 0; 0; 105; 293; 298; 299; 300; 0; 0; 0; 269; 285; 0; 312; 0; 0;
   0; 0; 0; 0; 0; 0; 0; 0; 0; 0; 0; 0; 0; 0; 0; 0; 0; 282; 283; 265; 0; 0; 0; 325; 0; 284; 0; 0; 280; 281; 286; 0; 0;
   0; 0; 0; 0; 0; 0; 0; 0; 0; 0; 203; 0; 0; 323; 161; 0; 108; 0; 182; 120; 0; 131; 0; 0; 0; 0; 0; 0; 110; 0; 168; 155;
   194; 0; 156; 166; 134; 186; 162; 193; 204; 205; 184; 202; 171; 100; 149; 90; 160; 167; 0; 109; 0; 216; 217; 218;
   219; 220; 221; 222; 0; 0; 0; 0; 93; 183; 192; 106; 172; 96; 190; 179; 181; 140; 126; 127; 174; 94; 95; 0; 165; 115;
   159; 119; 114; 152; 180; 143; 187; 188; 111; 213; 113; 112; 178; 101; 200; 201; 98; 102; 199; 148; 153; 151; 198;
   185; 191; 141; 138; 0; 97; 189; 139; 137; 129; 0; 117; 121; 157; 136; 158; 122; 145; 144; 146; 0; 150; 123; 0; 0;
   0; 0; 177; 196; 214; 215; 0; 0; 0; 206; 207; 208; 209; 0; 0; 0; 147; 103; 124; 173; 128; 135; 164; 212; 0; 169;
   107; 195; 175; 314; 324; 320; 321; 318; 319; 317; 316; 315; 326; 306; 307; 308; 309; 311; 0; 125; 310; 91; 99; 132;
   210; 211; 0; 163; 118; 197; 0; 0; 0; 0; 0; 0; 0; 0; 154; 0; 92; 0; 170; 274; 322; 104; 0; 116; 271; 0; 0; 130; 313;
   133; 0; 0; 176; 142; 0; 0; 0; 0; 304; 305; 0; 0; 0; 0; 0; 0; 0; 0; 50; 0; 510; 272; 292; 291; 294; 295; 296; 297;
   0; 0; 105; 293; 298; 299; 300; 0; 0; 0; 269; 285; 0; 312; 0; 0; 0; 0; 0; 0; 0; 0; 0; 0; 0; 0; 0; 0; 0; 0; 0; 0; 0;
   282; 283; 0; 0; 0; 0; 325; 0; 284; 0; 0; 280; 281; 286; 0; 0; 0; 0; 0; 0; 0; 0; 0; 0; 0; 0; 203; 0; 0; 323; 161; 0;
   108; 0; 182; 120; 0; 131; 0; 0; 0; 0; 0; 0; 110; 0; 168; 155; 194; 0; 156; 166; 134; 186; 162; 193; 204; 205; 184;
   202; 171; 100; 149; 90; 160; 167; 0; 109; 0; 216; 217; 218; 219; 220; 221; 222; 0; 0; 0; 0; 93; 183; 192; 106; 172;
   96; 190; 179; 181; 140; 126; 127; 174; 94; 95; 0; 165; 115; 159; 119; 114; 152; 180; 143; 187; 188; 111; 213; 113;
   112; 178; 101; 200; 201; 98; 102; 199; 148; 153; 151; 198; 185; 191; 141; 138; 0; 97; 189; 139; 137; 129; 0; 117;
   121; 157; 136; 158; 122; 145; 144; 146; 0; 150; 123; 0; 0; 0; 0; 177; 196; 214; 215; 0; 0; 0; 206; 207; 208; 209;
   0; 0; 0; 147; 103; 124; 173; 128; 135; 164; 212; 0; 169; 107; 195; 175; 314; 324; 320; 321; 318; 319; 317; 316;
   315; 326; 306; 307; 308; 309; 311; 0; 125; 310; 91; 99; 132; 210; 211; 0; 163; 118; 197; 0; 0; 0; 0; 0; 0; 0; 0;
   154; 0; 92; 0; 170; 274; 322; 104; 0; 116; 271; 0; 0; 130; 313; 133; 0; 0; 176; 142; 0; 0; 0; 0; 304; 305; 0; 0; 0;
   0; 0; 0; 0; 0; 50; 0; 0; 272; 292; 291; 294; 295; 296; 297; 0; 0; 105; 293; 298; 299; 300; 0; 0; 0; 269; 285; 0;
   312; 0; 0; 0; 0; 0; 0; 0; 0; 0; 0; 0; 0; 0; 0; 0; 0; 0; 0; 0; 282; 283; 265; 0; 0; 0; 325; 0; 284; 0; 0; 280; 281;
   286; 0; 0; 0; 0; 0; 0; 0; 0; 0; 0; 0; 0; 203; 0; 0; 323; 161; 0; 108; 0; 182; 120; 0; 131; 0; 0; 0; 0; 0; 0; 110;
   0; 168; 155; 194; 0; 156; 166; 134; 186; 162; 193; 204; 205; 184; 202; 171; 100; 149; 90; 160; 167; 0; 109; 0; 216;
   217; 218; 219; 220; 221; 222; 0; 0; 0; 0; 93; 183; 192; 106; 172; 96; 190; 179; 181; 140; 126; 127; 174; 94; 95; 0;
   165; 115; 159; 119; 114; 152; 180; 143; 187; 188; 111; 213; 113; 112; 178; 101; 200; 201; 98; 102; 199; 148; 153;
   151; 198; 185; 191; 141; 138; 0; 97; 189; 139; 137; 129; 0; 117; 121; 157; 136; 158; 122; 145; 144; 146; 0; 150;
   123; 0; 0; 0; 0; 177; 196; 214; 215; 0; 0; 0; 206; 207; 208; 209; 0; 0; 0; 147; 103; 124; 173; 128; 135; 164; 212;
   0; 169; 107; 195; 175; 314; 324; 320; 321; 318; 319; 317; 316; 315; 326; 306; 307; 308; 309; 311; 0; 125; 310; 91;
   99; 132; 210; 211; 23; 163; 118; 197; 0; 0; 0; 0; 0; 0; 0; 0; 154; 0; 92; 0; 170; 274; 322; 104; 0; 116; 271; 0; 0;
   130; 313; 133; 0; 0; 176; 142; 0; 0; 0; 0; 304; 305; 0; 0; 0; 0; 0; 0; 0; 0; 50; 0; 0; 272; 292; 291; 294; 295;
   296; 297; 0; 0; 105; 293; 298; 299; 300; 0; 0; 0; 269; 285; 0; 312; 0; 0; 0; 0; 0; 0; 0; 0; 0; 0; 0; 0; 0; 0; 0; 0;
   0; 0; 0; 282; 283; 0; 0; 0; 0; 325; 0; 284; 0; 0; 280; 281; 286; 0; 0; 0; 0; 0; 0; 0; 0; 0; 0; 0; 0; 203; 0; 0;
   323; 161; 0; 108; 0; 182; 120; 0; 131; 0; 0; 0; 0; 0; 0; 110; 0; 168; 155; 194; 0; 156; 166; 134; 186; 162; 193;
   204; 205; 184; 202; 171; 100; 149; 90; 160; 167; 0; 109; 0; 216; 217; 218; 219; 220; 221; 222; 0; 0; 0; 0; 93; 183;
   192; 106; 172; 96; 190; 179; 181; 140; 126; 127; 174; 94; 95; 0; 165; 115; 159; 119; 114; 152; 180; 143; 187; 188;
   111; 213; 113; 112; 178; 101; 200; 201; 98; 102; 199; 148; 153; 151; 198; 185; 191; 141; 138; 0; 97; 189; 139; 137;
   129; 0; 117; 121; 157; 136; 158; 122; 145; 144; 146; 0; 150; 123; 0; 0; 0; 0; 177; 196; 214; 215; 0; 0; 0; 206;
   207; 208; 209; 0; 0; 0; 147; 103; 124; 173; 128; 135; 164; 212; 0; 169; 107; 195; 175; 314; 324; 320; 321; 318;
   319; 317; 316; 315; 326; 306; 307; 308; 309; 311; 0; 125; 310; 91; 99; 132; 210; 211; 0; 163; 118; 197; 0; 0; 0; 0;
   0; 0; 0; 0; 154; 0; 92; 0; 170; 274; 322; 104; 0; 116; 271; 0; 0; 130; 313; 133; 0; 0; 176; 142; 0; 0; 0; 0; 304;
   305; 0; 0; 0; 0; 0; 0; 0; 0; 50; 0; 0; 272; 292; 291; 294; 295; 296; 297; 0; 0; 105; 293; 298; 299; 300; 0; 0; 0;
   269; 285; 0; 312; 0; 0; 0; 0; 0; 0; 0; 0; 0; 0; 0; 0; 0; 0; 0; 0; 0; 0; 0; 282; 283; 0; 0; 0; 0; 325; 0; 284; 0; 0;
   280; 281; 286; 0; 0; 0; 0; 0; 0; 0; 0; 0; 0; 0; 0; 203; 0; 0; 323; 161; 0; 108; 0; 182; 120; 0; 131; 0; 0; 0; 0; 0;
   0; 110; 0; 168; 155; 194; 0; 156; 166; 134; 186; 162; 193; 204; 205; 184; 202; 171; 100; 149; 90; 160; 167; 0; 109;
   0; 216; 217; 218; 219; 220; 221; 222; 0; 0; 0; 0; 93; 183; 192; 106; 172; 96; 190; 179; 181; 140; 126; 127; 174;
   94; 95; 0; 165; 115; 159; 119; 114; 152; 180; 143; 187; 188; 111; 213; 113; 112; 178; 101; 200; 201; 98; 102; 199;
   148; 153; 151; 198; 185; 191; 141; 138; 0; 97; 189; 139; 137; 129; 0; 117; 121; 157; 136; 158; 122; 145; 144; 146;
   0; 150; 123; 0; 0; 0; 0; 177; 196; 214; 215; 0; 0; 0; 206; 207; 208; 209; 0; 0; 0; 147; 103; 124; 173; 128; 135;
   164; 212; 0; 169; 107; 195; 175; 314; 324; 320; 321; 318; 319; 317; 316; 315; 326; 306; 307; 308; 309; 311; 0; 125;
   310; 91; 99; 132; 210; 211; 0; 163; 118; 197; 0; 0; 0; 0; 154; 0; 92; 0; 0; 0; 0; 0; 170; 116; 322; 104; 0; 130;
   313; 133; 0; 0; 176; 142; 0; 0; 0; 0; 304; 305; 0; 0; 0; 0; 0; 0; 0; 0; 50; 0; 0; 272; 292; 291; 294; 295; 296;
   297; 0; 0; 105; 293; 298; 299; 300; 0; 0; 0; 0; 285; 0; 312; 0; 0; 0; 0; 0; 0; 0; 0; 0; 0; 0; 0; 0; 0; 0; 0; 0; 0;
   0; 282; 283; 0; 0; 0; 0; 325; 0; 284; 0; 0; 280; 281; 286; 0; 0; 0; 0; 0; 0; 0; 0; 0; 0; 0; 0; 203; 0; 0; 323; 161;
   0; 108; 0; 182; 120; 0; 131; 0; 0; 0; 0; 0; 0; 110; 0; 168; 155; 194; 1698; 156; 166; 134; 186; 162; 193; 204; 205;
   184; 202; 171; 100; 149; 90; 160; 167; 0; 109; 0; 216; 217; 218; 219; 220; 221; 222; 0; 0; 0; 0; 93; 183; 192; 106;
   172; 96; 190; 179; 181; 140; 126; 127; 174; 94; 95; 0; 165; 115; 159; 119; 114; 152; 180; 143; 187; 188; 111; 213;
   113; 112; 178; 101; 200; 201; 98; 102; 199; 148; 153; 151; 198; 185; 191; 141; 138; 0; 97; 189; 139; 137; 129; 0;
   117; 121; 157; 136; 158; 122; 145; 144; 146; 0; 150; 123; 0; 0; 0; 0; 177; 196; 214; 215; 0; 0; 0; 206; 207; 208;
   209; 0; 0; 0; 147; 103; 124; 173; 128; 135; 164; 212; 0; 169; 107; 195; 175; 314; 324; 320; 321; 318; 319; 317;
   316; 315; 326; 306; 307; 308; 309; 311; 0; 125; 310; 91; 99; 132; 210; 211; 0; 163; 118; 197; 0; 0; 0; 0; 154; 0;
   92; 0; 0; 0; 0; 0; 170; 116; 322; 104; 0; 130; 313; 133; 0; 0; 176; 142; 0; 0; 0; 0; 304; 305; 0; 0; 0; 0; 0; 0; 0;
   0; 50; 0; 0; 272; 292; 291; 294; 295; 296; 297; 0; 0; 105; 293; 298; 299; 300; 0; 0; 0; 0; 285; 0; 312; 0; 0; 0; 0;
   0; 0; 0; 0; 0; 0; 0; 0; 0; 0; 0; 0; 0; 0; 0; 282; 283; 0; 0; 0; 0; 325; 0; 284; 0; 0; 280; 281; 286; 0; 0; 0; 0; 0;
   0; 0; 0; 0; 0; 0; 0; 203; 0; 0; 323; 161; 0; 108; 0; 182; 120; 0; 131; 0; 0; 0; 0; 0; 0; 110; 0; 168; 155; 194; 0;
   156; 166; 134; 186; 162; 193; 204; 205; 184; 202; 171; 100; 149; 90; 160; 167; 0; 109; 0; 216; 217; 218; 219; 220;
   221; 222; 0; 0; 0; 0; 93; 183; 192; 106; 172; 96; 190; 179; 181; 140; 126; 127; 174; 94; 95; 0; 165; 115; 159; 119;
   114; 152; 180; 143; 187; 188; 111; 213; 113; 112; 178; 101; 200; 201; 98; 102; 199; 148; 153; 151; 198; 185; 191;
   141; 138; 0; 97; 189; 139; 137; 129; 0; 117; 121; 157; 136; 158; 122; 145; 144; 146; 0; 150; 123; 0; 0; 0; 0; 177;
   196; 214; 215; 0; 0; 0; 206; 207; 208; 209; 0; 0; 0; 147; 103; 124; 173; 128; 135; 164; 212; 0; 169; 107; 195; 175;
   314; 324; 320; 321; 318; 319; 317; 316; 315; 326; 306; 307; 308; 309; 311; 0; 125; 310; 91; 99; 132; 210; 211; 0;
   163; 118; 197; 0; 0; 0; 0; 154; 0; 92; 0; 0; 0; 0; 0; 170; 116; 322; 104; 0; 130; 0; 133; 0; 0; 176; 142; 0; 0; 0;
   0; 0; 0; 0; 0; 0; 0; 0; 0; 0; 0; 0; 0; 0; 352; 0; 0; 0; 0; 0; 0; 0; 0; 105; 0; 0; 0; 0; 0; 0; 0; 0; 0; 0; 0; 0; 0;
   0; 0; 0; 0; 0; 0; 0; 0; 0; 0; 0; 0; 0; 544; 543; 553; 554; 546; 547; 548; 549; 550; 551; 552; 545; 0; 0; 555; 0; 0;
   0; 0; 0; 0; 0; 0; 0; 0; 0; 0; 0; 0; 0; 203; 0; 0; 0; 161; 0; 108; 0; 182; 120; 0; 131; 0; 0; 0; 0; 0; 0; 110; 0;
   168; 155; 194; 0; 156; 166; 134; 186; 162; 193; 204; 205; 184; 202; 171; 100; 149; 90; 160; 167; 0; 109; 0; 216;
   217; 218; 219; 220; 221; 222; 0; 0; 0; 0; 93; 183; 192; 106; 172; 96; 190; 179; 181; 140; 126; 127; 174; 94; 95; 0;
   165; 115; 159; 119; 114; 152; 180; 143; 187; 188; 111; 213; 113; 112; 178; 101; 200; 201; 98; 102; 199; 148; 153;
   151; 198; 185; 191; 141; 138; 0; 97; 189; 139; 137; 129; 0; 117; 121; 157; 136; 158; 122; 145; 144; 146; 0; 150;
   123; 0; 0; 0; 0; 177; 196; 214; 215; 0; 0; 0; 206; 207; 208; 209; 0; 0; 0; 147; 103; 124; 173; 128; 135; 164; 212;
   0; 169; 107; 195; 175; 0; 0; 0; 0; 0; 0; 0; 0; 0; 0; 0; 0; 0; 0; 0; 0; 125; 0; 91; 99; 132; 210; 211; 0; 163; 118;
   197; 0; 0; 0; 0; 154; 0; 92; 0; 532; 0; 0; 0; 170; 116; 556; 104; 0; 130; 0; 133; 0; 0; 176; 142; 0; 0; 0; 0; 0; 0;
   0; 0; 0; 0; 0; 0; 0; 0; 0; 0; 0; 352; 0; 534; 0; 0; 0; 0; 0; 0; 105; 0; 0; 0; 0; 0; 529; 528; 0; 0; 0; 0; 0; 0; 0;
   0; 0; 0; 0; 0; 0; 0; 0; 530; 0; 0; 0; 0; 0; 0; 0; 0; 0; 0; 0; 0; 0; 0; 0; 0; 0; 0; 0; 0; 0; 0; 0; 0; 0; 0; 0; 0; 0;
   0; 0; 0; 0; 203; 0; 0; 0; 161; 0; 108; 0; 182; 120; 0; 131; 0; 0; 0; 0; 0; 0; 110; 0; 168; 155; 194; 0; 156; 166;
   134; 186; 162; 193; 204; 205; 184; 202; 171; 100; 149; 90; 160; 167; 0; 109; 0; 216; 217; 218; 219; 220; 221; 222;
   0; 0; 0; 0; 93; 183; 192; 106; 172; 96; 190; 179; 181; 140; 126; 127; 174; 94; 95; 0; 165; 115; 159; 119; 114; 152;
   180; 143; 187; 188; 111; 213; 113; 112; 178; 101; 200; 201; 98; 102; 199; 148; 153; 151; 198; 185; 191; 141; 138;
   0; 97; 189; 139; 137; 129; 0; 117; 121; 157; 136; 158; 122; 145; 144; 146; 0; 150; 123; 0; 0; 0; 0; 177; 196; 214;
   215; 0; 0; 0; 206; 207; 208; 209; 0; 0; 0; 147; 103; 124; 173; 128; 135; 164; 212; 0; 169; 107; 195; 175; 0; 0; 0;
   0; 0; 0; 0; 0; 0; 0; 0; 0; 0; 0; 0; 0; 125; 0; 91; 99; 132; 210; 211; 0; 163; 118; 197; 0; 154; 0; 92; 0; 649; 0;
   0; 0; 0; 116; 0; 170; 0; 130; 104; 133; 0; 0; 176; 142; 0; 0; 0; 0; 0; 0; 0; 0; 0; 0; 0; 0; 0; 0; 0; 0; 0; 88; 0;
   651; 0; 0; 0; 0; 0; 0; 105; 0; 0; 0; 0; 0; 0; 0; 0; 0; 0; 0; 0; 0; 0; 0; 0; 0; 0; 0; 0; 0; 0; 0; 0; 0; 0; 0; 0; 0;
   0; 0; 0; 0; 0; 0; 0; 0; 0; 0; 0; 0; 0; 0; 0; 0; 0; 0; 0; 0; 0; 0; 0; 0; 0; 0; 0; 203; 0; 0; 0; 161; 0; 108; 0; 182;
   120; 0; 131; 0; 0; 0; 0; 0; 0; 110; 0; 168; 155; 194; 0; 156; 166; 134; 186; 162; 193; 204; 205; 184; 202; 171;
   100; 149; 90; 160; 167; 0; 109; 0; 216; 217; 218; 219; 220; 221; 222; 0; 0; 0; 0; 93; 183; 192; 106; 172; 96; 190;
   179; 181; 140; 126; 127; 174; 94; 95; 0; 165; 115; 159; 119; 114; 152; 180; 143; 187; 188; 111; 213; 113; 112; 178;
   101; 200; 201; 98; 102; 199; 148; 153; 151; 198; 185; 191; 141; 138; 0; 97; 189; 139; 137; 129; 0; 117; 121; 157;
   136; 158; 122; 145; 144; 146; 0; 150; 123; 0; 0; 0; 0; 177; 196; 214; 215; 0; 0; 0; 206; 207; 208; 209; 0; 0; 0;
   147; 103; 124; 173; 128; 135; 164; 212; 0; 169; 107; 195; 175; 0; 0; 0; 0; 0; 0; 0; 0; 0; 0; 0; 0; 0; 0; 0; 0; 125;
   0; 91; 99; 132; 210; 211; 23; 163; 118; 197; 0; 0; 0; 0; 0; 0; 0; 0; 154; 0; 92; 0; 170; 0; 0; 104; 0; 116; 0; 0;
   0; 130; 0; 133; 0; 0; 176; 142; 0; 0; 0; 0; 0; 0; 0; 0; 0; 0; 0; 0; 0; 0; 50; 0; 0; 352; 0; 0; 0; 0; 0; 0; 0; 0;
   105; 0; 0; 0; 0; 0; 0; 0; 0; 0; 0; 0; 0; 0; 0; 0; 0; 0; 0; 0; 0; 0; 0; 0; 0; 0; 0; 0; 0; 0; 0; 0; 0; 0; 0; 0; 0; 0;
   0; 0; 0; 0; 0; 0; 0; 0; 0; 0; 0; 0; 0; 0; 0; 0; 0; 0; 0; 203; 0; 0; 0; 161; 0; 108; 0; 182; 120; 0; 131; 0; 0; 0;
   0; 0; 0; 110; 0; 168; 155; 194; 0; 156; 166; 134; 186; 162; 193; 204; 205; 184; 202; 171; 100; 149; 90; 160; 167;
   0; 109; 0; 216; 217; 218; 219; 220; 221; 222; 0; 0; 0; 0; 93; 183; 192; 106; 172; 96; 190; 179; 181; 140; 126; 127;
   174; 94; 95; 0; 165; 115; 159; 119; 114; 152; 180; 143; 187; 188; 111; 213; 113; 112; 178; 101; 200; 201; 98; 102;
   199; 148; 153; 151; 198; 185; 191; 141; 138; 0; 97; 189; 139; 137; 129; 0; 117; 121; 157; 136; 158; 122; 145; 144;
   146; 0; 150; 123; 0; 0; 0; 0; 177; 196; 214; 215; 0; 0; 0; 206; 207; 208; 209; 0; 0; 0; 147; 103; 124; 173; 128;
   135; 164; 212; 0; 169; 107; 195; 175; 0; 0; 0; 0; 0; 0; 0; 0; 0; 0; 0; 0; 0; 0; 0; 0; 125; 0; 91; 99; 132; 210;
   211; 23; 163; 118; 197; 0; 0; 0; 0; 0; 0; 0; 0; 154; 0; 92; 0; 170; 0; 0; 104; 0; 116; 0; 0; 0; 130; 0; 133; 0; 0;
   176; 142; 0; 0; 0; 0; 0; 0; 0; 0; 0; 0; 0; 0; 0; 0; 50; 0; 0; 88; 0; 0; 0; 0; 0; 0; 0; 0; 105; 0; 0; 0; 0; 0; 0; 0;
   0; 0; 0; 0; 0; 0; 0; 0; 0; 0; 0; 0; 0; 0; 0; 0; 0; 0; 0; 0; 0; 0; 0; 0; 0; 0; 0; 0; 0; 0; 0; 0; 0; 0; 0; 0; 0; 0;
   0; 0; 0; 0; 0; 0; 0; 0; 0; 0; 0; 203; 0; 0; 0; 161; 0; 108; 0; 182; 120; 0; 131; 0; 0; 0; 0; 0; 0; 110; 0; 168;
   155; 194; 0; 156; 166; 134; 186; 162; 193; 204; 205; 184; 202; 171; 100; 149; 90; 160; 167; 0; 109; 0; 216; 217;
   218; 219; 220; 221; 222; 0; 0; 0; 0; 93; 183; 192; 106; 172; 96; 190; 179; 181; 140; 126; 127; 174; 94; 95; 0; 165;
   115; 159; 119; 114; 152; 180; 143; 187; 188; 111; 213; 113; 112; 178; 101; 200; 201; 98; 102; 199; 148; 153; 151;
   198; 185; 191; 141; 138; 0; 97; 189; 139; 137; 129; 0; 117; 121; 157; 136; 158; 122; 145; 144; 146; 0; 150; 123; 0;
   0; 0; 0; 177; 196; 214; 215; 0; 0; 0; 206; 207; 208; 209; 0; 0; 0; 147; 103; 124; 173; 128; 135; 164; 212; 0; 169;
   107; 195; 175; 0; 0; 0; 0; 0; 0; 0; 0; 0; 0; 0; 0; 0; 0; 0; 0; 125; 0; 91; 99; 132; 210; 211; 0; 163; 118; 197; 0;
   154; 0; 92; 0; 0; 0; 0; 0; 0; 116; 0; 170; 0; 130; 104; 133; 0; 0; 176; 142; 0; 0; 0; 0; 0; 0; 0; 0; 0; 0; 0; 0; 0;
   0; 0; 0; 0; 352; 0; 0; 781; 0; 0; 782; 0; 0; 105; 0; 0; 0; 0; 0; 0; 0; 0; 0; 0; 0; 0; 0; 0; 0; 0; 0; 0; 0; 0; 0; 0;
   0; 0; 0; 0; 0; 0; 0; 0; 0; 0; 0; 0; 0; 0; 0; 0; 0; 0; 0; 0; 0; 0; 0; 0; 0; 0; 0; 0; 0; 0; 0; 0; 0; 0; 203; 0; 0; 0;
   161; 0; 108; 0; 182; 120; 0; 131; 0; 0; 0; 0; 0; 0; 110; 0; 168; 155; 194; 0; 156; 166; 134; 186; 162; 193; 204;
   205; 184; 202; 171; 100; 149; 90; 160; 167; 0; 109; 0; 216; 217; 218; 219; 220; 221; 222; 0; 0; 0; 0; 93; 183; 192;
   106; 172; 96; 190; 179; 181; 140; 126; 127; 174; 94; 95; 0; 165; 115; 159; 119; 114; 152; 180; 143; 187; 188; 111;
   213; 113; 112; 178; 101; 200; 201; 98; 102; 199; 148; 153; 151; 198; 185; 191; 141; 138; 0; 97; 189; 139; 137; 129;
   0; 117; 121; 157; 136; 158; 122; 145; 144; 146; 0; 150; 123; 0; 0; 0; 0; 177; 196; 214; 215; 0; 0; 0; 206; 207;
   208; 209; 0; 0; 0; 147; 103; 124; 173; 128; 135; 164; 212; 0; 169; 107; 195; 175; 0; 0; 0; 0; 0; 0; 0; 0; 0; 0; 0;
   0; 0; 0; 0; 0; 125; 0; 91; 99; 132; 210; 211; 0; 163; 118; 197; 0; 154; 0; 92; 0; 0; 0; 0; 0; 0; 116; 669; 170; 0;
   130; 104; 133; 0; 0; 176; 142; 0; 0; 0; 0; 0; 0; 0; 0; 0; 0; 0; 0; 0; 0; 0; 0; 0; 352; 0; 668; 0; 0; 0; 0; 0; 0;
   105; 0; 0; 0; 0; 0; 0; 0; 0; 0; 0; 0; 0; 0; 0; 0; 0; 0; 0; 0; 0; 0; 0; 0; 0; 0; 0; 0; 0; 0; 0; 0; 0; 0; 0; 0; 0; 0;
   0; 0; 0; 0; 0; 0; 0; 0; 0; 0; 0; 0; 0; 0; 0; 0; 0; 0; 0; 203; 0; 0; 0; 161; 0; 108; 0; 182; 120; 0; 131; 0; 0; 0;
   0; 0; 0; 110; 0; 168; 155; 194; 0; 156; 166; 134; 186; 162; 193; 204; 205; 184; 202; 171; 100; 149; 90; 160; 167;
   0; 109; 0; 216; 217; 218; 219; 220; 221; 222; 0; 0; 0; 0; 93; 183; 192; 106; 172; 96; 190; 179; 181; 140; 126; 127;
   174; 94; 95; 0; 165; 115; 159; 119; 114; 152; 180; 143; 187; 188; 111; 213; 113; 112; 178; 101; 200; 201; 98; 102;
   199; 148; 153; 151; 198; 185; 191; 141; 138; 0; 97; 189; 139; 137; 129; 0; 117; 121; 157; 136; 158; 122; 145; 144;
   146; 0; 150; 123; 0; 0; 0; 0; 177; 196; 214; 215; 0; 0; 0; 206; 207; 208; 209; 0; 0; 0; 147; 103; 124; 173; 128;
   135; 164; 212; 0; 169; 107; 195; 175; 0; 0; 0; 0; 0; 0; 0; 0; 0; 0; 0; 0; 0; 0; 0; 0; 125; 0; 91; 99; 132; 210;
   211; 0; 163; 118; 197; 0; 154; 0; 92; 0; 649; 0; 0; 0; 0; 116; 0; 170; 0; 130; 104; 133; 0; 0; 176; 142; 0; 0; 0;
   0; 0; 0; 0; 0; 0; 0; 0; 0; 0; 0; 0; 0; 0; 88; 0; 651; 0; 0; 0; 0; 0; 0; 105; 0; 0; 0; 0; 0; 0; 0; 0; 0; 0; 0; 0; 0;
   0; 0; 0; 0; 0; 0; 0; 0; 0; 0; 0; 0; 0; 0; 0; 0; 0; 0; 0; 0; 0; 0; 0; 0; 0; 0; 0; 0; 0; 0; 0; 0; 0; 0; 0; 0; 0; 0;
   0; 0; 0; 0; 0; 203; 0; 0; 0; 161; 0; 108; 0; 182; 120; 0; 131; 0; 0; 0; 0; 0; 0; 110; 0; 168; 155; 194; 0; 647;
   166; 134; 186; 162; 193; 204; 205; 184; 202; 171; 100; 149; 90; 160; 167; 0; 109; 0; 216; 217; 218; 219; 220; 221;
   222; 0; 0; 0; 0; 93; 183; 192; 106; 172; 96; 190; 179; 181; 140; 126; 127; 174; 94; 95; 0; 165; 115; 159; 119; 114;
   152; 180; 143; 187; 188; 111; 213; 113; 112; 178; 101; 200; 201; 98; 102; 199; 148; 153; 151; 198; 185; 191; 141;
   138; 0; 97; 189; 139; 137; 129; 0; 117; 121; 157; 136; 158; 122; 145; 144; 146; 0; 150; 123; 0; 0; 0; 0; 177; 196;
   214; 215; 0; 0; 0; 206; 207; 208; 209; 0; 0; 0; 147; 103; 124; 173; 128; 135; 164; 212; 0; 169; 107; 195; 175; 0;
   0; 0; 0; 0; 0; 0; 0; 0; 0; 0; 0; 0; 0; 0; 0; 125; 0; 91; 99; 132; 210; 211; 0; 163; 118; 197; 0; 154; 0; 92; 0; 0;
   0; 0; 0; 0; 116; 0; 170; 0; 130; 104; 133; 0; 0; 176; 142; 0; 0; 0; 0; 0; 0; 0; 0; 0; 0; 0; 0; 0; 0; 0; 0; 0; 352;
   0; 0; 0; 0; 0; 0; 0; 0; 105; 0; 0; 0; 0; 0; 0; 0; 0; 0; 0; 0; 0; 0; 0; 0; 0; 0; 0; 0; 0; 0; 0; 0; 0; 0; 0; 0; 0; 0;
   0; 0; 0; 0; 0; 0; 0; 0; 0; 0; 0; 0; 0; 0; 0; 0; 0; 0; 0; 0; 0; 0; 0; 0; 0; 0; 0; 203; 0; 0; 0; 161; 0; 108; 0; 182;
   120; 0; 131; 0; 0; 1390; 0; 0; 0; 110; 0; 168; 155; 194; 0; 156; 166; 134; 186; 162; 193; 204; 205; 184; 202; 171;
   100; 149; 90; 160; 167; 0; 109; 0; 216; 217; 218; 219; 220; 221; 222; 0; 0; 0; 0; 93; 183; 192; 106; 172; 96; 190;
   179; 181; 140; 126; 127; 174; 94; 95; 0; 165; 115; 159; 119; 114; 152; 180; 143; 187; 188; 111; 213; 113; 112; 178;
   101; 200; 201; 98; 102; 199; 148; 153; 151; 198; 185; 191; 141; 138; 0; 97; 189; 139; 137; 129; 0; 117; 121; 157;
   136; 158; 122; 145; 144; 146; 0; 150; 123; 0; 0; 0; 0; 177; 196; 214; 215; 0; 0; 0; 206; 207; 208; 209; 0; 0; 0;
   147; 103; 124; 173; 128; 135; 164; 212; 0; 169; 107; 195; 175; 0; 0; 0; 0; 0; 0; 0; 0; 0; 0; 0; 0; 0; 0; 0; 0; 125;
   0; 91; 99; 132; 210; 211; 0; 163; 118; 197; 0; 154; 0; 92; 0; 0; 0; 0; 0; 0; 116; 0; 170; 0; 130; 104; 133; 0; 0;
   176; 142; 0; 0; 0; 0; 0; 0; 0; 0; 0; 0; 0; 0; 0; 0; 0; 0; 0; 88; 0; 0; 0; 0; 0; 0; 0; 0; 105; 0; 0; 0; 0; 0; 0; 0;
   0; 0; 0; 0; 0; 0; 0; 0; 0; 0; 0; 0; 0; 0; 0; 0; 0; 0; 0; 0; 0; 0; 0; 0; 0; 0; 0; 0; 0; 0; 0; 0; 0; 0; 0; 0; 0; 0;
   0; 0; 0; 0; 0; 0; 0; 0; 0; 0; 0; 203; 0; 0; 0; 161; 0; 108; 0; 182; 120; 0; 131; 0; 0; 0; 0; 0; 0; 110; 0; 168;
   155; 194; 0; 156; 166; 134; 186; 162; 193; 204; 205; 184; 202; 171; 100; 149; 90; 160; 167; 0; 109; 0; 216; 217;
   218; 219; 220; 221; 222; 0; 0; 0; 0; 93; 183; 192; 106; 172; 96; 190; 179; 181; 140; 126; 127; 174; 94; 95; 0; 165;
   115; 159; 119; 114; 152; 180; 143; 187; 188; 111; 213; 113; 112; 178; 101; 200; 201; 98; 102; 199; 148; 153; 151;
   198; 185; 191; 141; 138; 0; 97; 189; 139; 137; 129; 0; 117; 121; 157; 136; 158; 122; 145; 144; 146; 0; 150; 123; 0;
   0; 0; 0; 177; 196; 214; 215; 0; 0; 0; 206; 207; 208; 209; 0; 0; 0; 147; 103; 124; 173; 128; 135; 164; 212; 0; 169;
   107; 195; 175; 0; 0; 0; 0; 0; 0; 0; 0; 0; 0; 0; 0; 0; 0; 0; 0; 125; 0; 91; 99; 132; 210; 211; 0; 163; 118; 197; 0;
   154; 0; 92; 0; 0; 0; 0; 0; 1673; 116; 0; 170; 0; 130; 104; 133; 0; 0; 176; 142; 0; 0; 0; 0; 0; 0; 0; 0; 0; 0; 0; 0;
   0; 0; 0; 0; 0; 352; 0; 0; 0; 0; 0; 0; 0; 0; 105; 0; 0; 0; 0; 0; 0; 0; 0; 0; 0; 0; 0; 0; 0; 0; 0; 0; 0; 0; 0; 0; 0;
   0; 0; 0; 0; 0; 0; 0; 0; 0; 0; 0; 0; 0; 0; 0; 0; 0; 0; 0; 0; 0; 0; 0; 0; 0; 0; 0; 0; 0; 0; 0; 0; 0; 0; 203; 0; 0; 0;
   161; 0; 108; 0; 182; 120; 0; 131; 0; 0; 1282; 0; 0; 0; 110; 0; 168; 155; 194; 0; 156; 166; 134; 186; 162; 193; 204;
   205; 184; 202; 171; 100; 149; 90; 160; 167; 0; 109; 0; 216; 217; 218; 219; 220; 221; 222; 0; 0; 0; 0; 93; 183; 192;
   106; 172; 96; 190; 179; 181; 140; 126; 127; 174; 94; 95; 0; 165; 115; 159; 119; 114; 152; 180; 143; 187; 188; 111;
   213; 113; 112; 178; 101; 200; 201; 98; 102; 199; 148; 153; 151; 198; 185; 191; 141; 138; 0; 97; 189; 139; 137; 129;
   0; 117; 121; 157; 136; 158; 122; 145; 144; 146; 0; 150; 123; 0; 0; 0; 0; 177; 196; 214; 215; 0; 0; 0; 206; 207;
   208; 209; 0; 0; 0; 147; 103; 124; 173; 128; 135; 164; 212; 0; 169; 107; 195; 175; 0; 0; 0; 0; 0; 0; 0; 0; 0; 0; 0;
   0; 0; 0; 0; 0; 125; 0; 91; 99; 132; 210; 211; 0; 163; 118; 197; 0; 154; 0; 92; 0; 0; 0; 0; 0; 0; 116; 0; 170; 0;
   130; 104; 133; 0; 0; 176; 142; 0; 0; 0; 0; 0; 0; 0; 0; 0; 0; 0; 0; 0; 0; 50; 0; 0; 88; 0; 0; 0; 0; 0; 0; 0; 0; 105;
   0; 0; 0; 0; 0; 0; 0; 0; 0; 0; 0; 0; 0; 0; 0; 0; 0; 0; 0; 0; 0; 0; 0; 0; 0; 0; 0; 0; 0; 0; 0; 0; 0; 0; 0; 0; 0; 0;
   0; 0; 0; 0; 0; 0; 0; 0; 0; 0; 0; 0; 0; 0; 0; 0; 0; 0; 203; 0; 0; 0; 161; 0; 108; 0; 182; 120; 0; 131; 0; 0; 0; 0;
   0; 0; 110; 0; 168; 155; 194; 0; 156; 166; 134; 186; 162; 193; 204; 205; 184; 202; 171; 100; 149; 90; 160; 167; 0;
   109; 0; 216; 217; 218; 219; 220; 221; 222; 0; 0; 0; 0; 93; 183; 192; 106; 172; 96; 190; 179; 181; 140; 126; 127;
   174; 94; 95; 0; 165; 115; 159; 119; 114; 152; 180; 143; 187; 188; 111; 213; 113; 112; 178; 101; 200; 201; 98; 102;
   199; 148; 153; 151; 198; 185; 191; 141; 138; 0; 97; 189; 139; 137; 129; 0; 117; 121; 157; 136; 158; 122; 145; 144;
   146; 0; 150; 123; 0; 0; 0; 0; 177; 196; 214; 215; 0; 0; 0; 206; 207; 208; 209; 0; 0; 0; 147; 103; 124; 173; 128;
   135; 164; 212; 0; 169; 107; 195; 175; 0; 0; 0; 0; 0; 0; 0; 0; 0; 0; 0; 0; 0; 0; 0; 0; 125; 0; 91; 99; 132; 210;
   211; 0; 163; 118; 197; 0; 154; 0; 92; 0; 0; 0; 0; 0; 0; 116; 0; 170; 0; 130; 104; 133; 0; 0; 176; 142; 0; 0; 0; 0;
   0; 0; 0; 0; 0; 0; 0; 0; 0; 0; 0; 0; 0; 88; 0; 651; 0; 0; 0; 0; 0; 0; 105; 0; 0; 0; 0; 0; 0; 0; 0; 0; 0; 0; 0; 0; 0;
   0; 0; 0; 0; 0; 0; 0; 0; 0; 0; 0; 0; 0; 0; 0; 0; 0; 0; 0; 0; 0; 0; 0; 0; 0; 0; 0; 0; 0; 0; 0; 0; 0; 0; 0; 0; 0; 0;
   0; 0; 0; 0; 203; 0; 0; 0; 161; 0; 108; 0; 182; 120; 0; 131; 0; 0; 0; 0; 0; 0; 110; 0; 168; 155; 194; 0; 156; 166;
   134; 186; 162; 193; 204; 205; 184; 202; 171; 100; 149; 90; 160; 167; 0; 109; 0; 216; 217; 218; 219; 220; 221; 222;
   0; 0; 0; 0; 93; 183; 192; 106; 172; 96; 190; 179; 181; 140; 126; 127; 174; 94; 95; 0; 165; 115; 159; 119; 114; 152;
   180; 143; 187; 188; 111; 213; 113; 112; 178; 101; 200; 201; 98; 102; 199; 148; 153; 151; 198; 185; 191; 141; 138;
   0; 97; 189; 139; 137; 129; 0; 117; 121; 157; 136; 158; 122; 145; 144; 146; 0; 150; 123; 0; 0; 0; 0; 177; 196; 214;
   215; 0; 0; 0; 206; 207; 208; 209; 0; 0; 0; 147; 103; 124; 173; 128; 135; 164; 212; 0; 169; 107; 195; 175; 0; 0; 0;
   0; 0; 0; 0; 0; 0; 0; 0; 0; 0; 0; 0; 0; 125; 0; 91; 99; 132; 210; 211; 0; 163; 118; 197; 0; 154; 0; 92; 0; 0; 0; 0;
   0; 0; 116; 0; 170; 0; 130; 104; 133; 0; 0; 176; 142; 0; 0; 0; 0; 0; 0; 0; 0; 0; 0; 0; 0; 0; 0; 0; 0; 0; 352; 0;
   534; 0; 0; 0; 0; 0; 0; 105; 0; 0; 0; 0; 0; 0; 0; 0; 0; 0; 0; 0; 0; 0; 0; 0; 0; 0; 0; 0; 0; 0; 0; 0; 0; 0; 0; 0; 0;
   0; 0; 0; 0; 0; 0; 0; 0; 0; 0; 0; 0; 0; 0; 0; 0; 0; 0; 0; 0; 0; 0; 0; 0; 0; 0; 0; 203; 0; 0; 0; 161; 0; 108; 0; 182;
   120; 0; 131; 0; 0; 0; 0; 0; 0; 110; 0; 168; 155; 194; 0; 156; 166; 134; 186; 162; 193; 204; 205; 184; 202; 171;
   100; 149; 90; 160; 167; 0; 109; 0; 216; 217; 218; 219; 220; 221; 222; 0; 0; 0; 0; 93; 183; 192; 106; 172; 96; 190;
   179; 181; 140; 126; 127; 174; 94; 95; 0; 165; 115; 159; 119; 114; 152; 180; 143; 187; 188; 111; 213; 113; 112; 178;
   101; 200; 201; 98; 102; 199; 148; 153; 151; 198; 185; 191; 141; 138; 0; 97; 189; 139; 137; 129; 0; 117; 121; 157;
   136; 158; 122; 145; 144; 146; 0; 150; 123; 0; 0; 0; 0; 177; 196; 214; 215; 0; 0; 0; 206; 207; 208; 209; 0; 0; 0;
   147; 103; 124; 173; 128; 135; 164; 212; 0; 169; 107; 195; 175; 0; 0; 0; 0; 0; 0; 0; 0; 0; 0; 0; 0; 0; 0; 0; 0; 125;
   0; 91; 99; 132; 210; 211; 0; 163; 118; 197; 0; 154; 0; 92; 0; 0; 0; 0; 0; 0; 116; 0; 170; 0; 130; 104; 133; 0; 0;
   176; 142; 0; 0; 0; 0; 0; 0; 0; 0; 0; 0; 0; 0; 0; 0; 0; 0; 0; 88; 0; 0; 0; 0; 0; 0; 0; 0; 105; 0; 0; 0; 0; 0; 0; 0;
   0; 0; 0; 0; 0; 0; 0; 0; 0; 0; 0; 0; 0; 0; 0; 0; 0; 0; 0; 0; 0; 0; 0; 0; 0; 0; 0; 0; 0; 0; 0; 0; 0; 0; 0; 0; 0; 0;
   0; 0; 0; 0; 0; 0; 0; 0; 0; 0; 0; 203; 0; 0; 0; 161; 0; 108; 0; 182; 120; 0; 131; 0; 0; 0; 0; 0; 0; 110; 0; 168;
   155; 194; 0; 156; 166; 134; 186; 162; 193; 204; 205; 184; 202; 171; 100; 149; 90; 160; 167; 0; 109; 0; 216; 217;
   218; 219; 220; 221; 222; 0; 0; 0; 0; 93; 183; 192; 106; 172; 96; 190; 179; 181; 140; 126; 127; 174; 94; 95; 0; 165;
   115; 159; 119; 114; 152; 180; 143; 187; 188; 111; 213; 113; 112; 178; 101; 200; 201; 98; 102; 199; 148; 153; 151;
   198; 185; 191; 141; 138; 0; 97; 189; 139; 137; 129; 0; 117; 121; 157; 136; 158; 122; 145; 144; 146; 0; 150; 123; 0;
   0; 0; 0; 177; 196; 214; 215; 0; 0; 0; 206; 207; 208; 209; 0; 0; 0; 147; 103; 124; 173; 128; 135; 164; 212; 741;
   169; 107; 195; 175; 0; 0; 0; 0; 0; 0; 0; 0; 0; 0; 0; 0; 0; 0; 0; 0; 125; 0; 91; 99; 132; 210; 211; 0; 163; 118;
   197; 0; 154; 0; 92; 0; 0; 0; 0; 0; 627; 116; 0; 170; 0; 130; 104; 133; 0; 0; 176; 142; 0; 0; 0; 0; 0; 0; 0; 0; 0;
   0; 0; 0; 0; 0; 0; 0; 0; 88; 0; 0; 0; 0; 0; 0; 0; 0; 105; 0; 0; 0; 0; 0; 0; 0; 0; 0; 0; 0; 0; 0; 0; 0; 0; 0; 0; 0;
   0; 0; 0; 0; 0; 0; 0; 0; 0; 0; 0; 0; 0; 0; 0; 0; 0; 0; 0; 0; 0; 0; 0; 0; 0; 0; 0; 0; 0; 0; 0; 0; 0; 0; 0; 0; 0; 203;
   0; 0; 0; 161; 0; 108; 0; 182; 120; 0; 131; 0; 0; 0; 0; 0; 0; 110; 0; 168; 155; 194; 0; 156; 166; 134; 186; 162;
   193; 204; 205; 184; 202; 171; 100; 149; 90; 160; 167; 0; 109; 0; 216; 217; 218; 219; 220; 221; 222; 0; 0; 0; 0; 93;
   183; 192; 106; 172; 96; 190; 179; 181; 140; 126; 127; 174; 94; 95; 0; 165; 115; 159; 119; 114; 152; 180; 143; 187;
   188; 111; 213; 113; 112; 178; 101; 200; 201; 98; 102; 199; 148; 153; 151; 198; 185; 191; 141; 138; 0; 97; 189; 139;
   137; 129; 0; 117; 121; 157; 136; 158; 122; 145; 144; 146; 0; 150; 123; 0; 0; 0; 0; 177; 196; 214; 215; 0; 0; 0;
   206; 207; 208; 209; 0; 0; 0; 147; 103; 124; 173; 128; 135; 164; 212; 0; 169; 107; 195; 175; 0; 0; 0; 0; 0; 0; 0; 0;
   0; 0; 0; 0; 0; 0; 0; 0; 125; 0; 91; 99; 132; 210; 211; 0; 163; 118; 197; 336; 0; 0; 0; 0; 0; 0; 154; 0; 92; 0; 0;
   170; 0; 0; 104; 116; 0; 0; 0; 130; 0; 133; 0; 0; 176; 142; 0; 0; 0; 0; 0; 0; 0; 0; 0; 0; 0; 0; 0; 0; 0; 0; 0; 88;
   0; 0; 0; 0; 0; 0; 0; 0; 105; 0; 0; 0; 0; 0; 0; 0; 0; 0; 0; 0; 0; 0; 0; 0; 0; 0; 0; 0; 0; 0; 0; 0; 0; 0; 0; 0; 0; 0;
   0; 0; 0; 0; 0; 0; 0; 0; 0; 0; 0; 0; 0; 0; 0; 0; 0; 0; 0; 0; 0; 0; 0; 0; 0; 0; 0; 203; 0; 0; 0; 161; 0; 108; 0; 182;
   120; 0; 131; 0; 0; 0; 0; 0; 0; 110; 0; 168; 155; 194; 0; 156; 166; 134; 186; 162; 193; 204; 205; 184; 202; 171;
   100; 149; 90; 160; 167; 0; 109; 0; 216; 217; 218; 219; 220; 221; 222; 0; 0; 0; 0; 93; 183; 192; 106; 172; 96; 190;
   179; 181; 140; 126; 127; 174; 94; 95; 0; 165; 115; 159; 119; 114; 152; 180; 143; 187; 188; 111; 213; 113; 112; 178;
   101; 200; 201; 98; 102; 199; 148; 153; 151; 198; 185; 191; 141; 138; 0; 97; 189; 139; 137; 129; 0; 117; 121; 157;
   136; 158; 122; 145; 144; 146; 0; 150; 123; 0; 0; 0; 0; 177; 196; 214; 215; 0; 0; 0; 206; 207; 208; 209; 0; 0; 0;
   147; 103; 124; 173; 128; 135; 164; 212; 0; 169; 107; 195; 175; 0; 0; 0; 0; 0; 0; 0; 0; 0; 0; 0; 0; 0; 0; 0; 0; 125;
   0; 91; 99; 132; 210; 211; 0; 163; 118; 197; 0; 154; 0; 92; 0; 0; 0; 0; 0; 0; 116; 0; 170; 0; 130; 104; 133; 0; 0;
   176; 142; 0; 0; 0; 0; 0; 0; 0; 0; 0; 0; 0; 0; 0; 0; 0; 0; 0; 88; 0; 0; 0; 0; 0; 0; 0; 0; 105; 0; 0; 0; 0; 0; 0; 0;
   0; 0; 0; 0; 0; 0; 0; 0; 0; 0; 0; 0; 0; 0; 0; 0; 0; 0; 0; 0; 0; 0; 0; 0; 0; 0; 0; 0; 0; 0; 0; 0; 0; 0; 0; 0; 0; 0;
   0; 0; 0; 0; 0; 0; 0; 0; 0; 85; 0; 203; 0; 0; 0; 161; 0; 108; 0; 182; 120; 0; 131; 0; 0; 0; 0; 0; 0; 110; 0; 168;
   155; 194; 0; 156; 166; 134; 186; 162; 193; 204; 205; 184; 202; 171; 100; 149; 90; 160; 167; 0; 109; 0; 216; 217;
   218; 219; 220; 221; 222; 0; 0; 0; 0; 93; 183; 192; 106; 172; 96; 190; 179; 181; 140; 126; 127; 174; 94; 95; 0; 165;
   115; 159; 119; 114; 152; 180; 143; 187; 188; 111; 213; 113; 112; 178; 101; 200; 201; 98; 102; 199; 148; 153; 151;
   198; 185; 191; 141; 138; 0; 97; 189; 139; 137; 129; 0; 117; 121; 157; 136; 158; 122; 145; 144; 146; 0; 150; 123; 0;
   0; 0; 0; 177; 196; 214; 215; 0; 0; 0; 206; 207; 208; 209; 0; 0; 0; 147; 103; 124; 173; 128; 135; 164; 212; 0; 169;
   107; 195; 175; 0; 0; 0; 0; 0; 0; 0; 0; 0; 0; 0; 0; 0; 0; 0; 0; 125; 0; 91; 99; 132; 210; 211; 0; 163; 118; 197; 0;
   154; 0; 92; 0; 0; 0; 0; 0; 0; 116; 0; 170; 0; 130; 104; 133; 0; 0; 176; 142; 0; 0; 0; 0; 0; 0; 0; 0; 0; 0; 0; 0; 0;
   0; 0; 0; 0; 352; 0; 0; 0; 0; 0; 0; 0; 0; 105; 0; 0; 0; 0; 0; 0; 0; 0; 0; 0; 0; 0; 0; 0; 0; 0; 0; 0; 0; 0; 0; 0; 0;
   0; 0; 0; 0; 0; 0; 0; 0; 0; 0; 0; 0; 0; 0; 0; 0; 0; 0; 0; 0; 0; 0; 0; 0; 0; 0; 0; 0; 0; 0; 0; 0; 0; 203; 0; 0; 0;
   161; 0; 108; 0; 182; 120; 0; 131; 0; 0; 0; 0; 0; 0; 110; 0; 168; 155; 194; 0; 156; 166; 134; 186; 162; 193; 204;
   205; 184; 202; 171; 100; 149; 90; 160; 167; 0; 109; 0; 216; 217; 218; 219; 220; 221; 222; 0; 0; 0; 0; 93; 183; 192;
   106; 172; 96; 190; 179; 181; 140; 126; 127; 174; 94; 95; 0; 165; 115; 159; 119; 114; 152; 180; 143; 187; 188; 111;
   213; 113; 112; 178; 101; 200; 201; 98; 102; 199; 148; 153; 151; 198; 185; 191; 141; 138; 0; 97; 189; 139; 137; 129;
   0; 117; 121; 157; 136; 158; 122; 145; 144; 146; 0; 150; 123; 0; 0; 0; 0; 177; 196; 214; 215; 0; 0; 0; 206; 207;
   208; 209; 0; 0; 0; 147; 103; 124; 173; 128; 135; 164; 212; 0; 169; 107; 195; 175; 0; 0; 0; 0; 0; 0; 0; 0; 0; 0; 0;
   0; 0; 0; 0; 0; 125; 0; 91; 99; 132; 210; 211; 0; 163; 118; 197; 0; 154; 0; 92; 0; 0; 0; 0; 0; 0; 116; 0; 170; 0;
   130; 104; 133; 0; 0; 176; 142; 0; 0; 0; 0; 0; 0; 0; 0; 0; 0; 0; 0; 0; 0; 0; 0; 0; 88; 0; 0; 0; 0; 0; 0; 0; 0; 105;
   0; 0; 0; 0; 0; 0; 0; 0; 0; 0; 0; 0; 0; 0; 0; 0; 0; 0; 0; 0; 0; 0; 0; 0; 0; 0; 0; 0; 0; 0; 0; 0; 0; 0; 0; 0; 0; 0;
   0; 0; 0; 0; 0; 0; 0; 0; 0; 0; 0; 0; 0; 0; 0; 0; 0; 0; 203; 0; 0; 0; 161; 0; 108; 0; 182; 120; 0; 131; 0; 0; 0; 0;
   0; 0; 110; 0; 168; 155; 194; 0; 156; 166; 134; 186; 162; 193; 204; 205; 184; 202; 171; 100; 149; 90; 160; 167; 0;
   109; 0; 216; 217; 218; 219; 220; 221; 222; 0; 0; 0; 0; 93; 183; 192; 106; 172; 96; 190; 179; 181; 140; 126; 127;
   174; 94; 95; 0; 165; 115; 159; 119; 114; 152; 180; 143; 187; 188; 111; 213; 113; 112; 178; 101; 200; 201; 98; 102;
   199; 148; 153; 151; 198; 185; 191; 141; 138; 0; 97; 189; 139; 137; 129; 0; 117; 121; 157; 136; 158; 122; 145; 144;
   146; 0; 150; 123; 0; 0; 0; 0; 177; 196; 214; 215; 0; 0; 0; 206; 207; 208; 209; 0; 0; 0; 147; 103; 124; 173; 128;
   135; 164; 212; 0; 169; 107; 195; 175; 0; 0; 0; 0; 0; 0; 0; 0; 0; 0; 0; 0; 0; 0; 0; 0; 125; 0; 91; 99; 132; 210;
   211; 0; 163; 118; 197; 0; 154; 0; 92; 0; 0; 0; 0; 0; 0; 116; 0; 170; 0; 130; 104; 133; 0; 0; 176; 142; 0; 0; 0; 0;
   0; 0; 0; 0; 0; 0; 0; 0; 0; 0; 0; 0; 0; 272; 0; 0; 0; 0; 0; 0; 0; 0; 105; 0; 0; 0; 0; 0; 0; 0; 0; 0; 0; 0; 0; 0; 0;
   0; 0; 0; 0; 0; 0; 0; 0; 0; 0; 0; 0; 0; 0; 0; 0; 0; 0; 0; 0; 0; 0; 0; 0; 0; 0; 0; 0; 0; 0; 0; 0; 0; 0; 0; 0; 0; 0;
   0; 0; 0; 0; 203; 0; 0; 0; 161; 0; 108; 0; 182; 120; 0; 131; 0; 0; 0; 0; 0; 0; 110; 0; 168; 155; 194; 0; 156; 166;
   134; 186; 162; 193; 204; 205; 184; 202; 171; 100; 149; 90; 160; 167; 0; 109; 0; 216; 217; 218; 219; 220; 221; 222;
   0; 0; 0; 0; 93; 183; 192; 106; 172; 96; 190; 179; 181; 140; 126; 127; 174; 94; 95; 0; 165; 115; 159; 119; 114; 152;
   180; 143; 187; 188; 111; 213; 113; 112; 178; 101; 200; 201; 98; 102; 199; 148; 153; 151; 198; 185; 191; 141; 138;
   0; 97; 189; 139; 137; 129; 0; 117; 121; 157; 136; 158; 122; 145; 144; 146; 0; 150; 123; 0; 0; 0; 0; 177; 196; 214;
   215; 0; 0; 0; 206; 207; 208; 209; 0; 0; 0; 147; 103; 124; 173; 128; 135; 164; 212; 0; 169; 107; 195; 175; 0; 0; 0;
   0; 0; 0; 0; 0; 0; 0; 0; 0; 0; 0; 0; 0; 125; 0; 91; 99; 132; 210; 211; 0; 163; 118; 197; 0; 0; 0; 0; 0; 0; 0; 0; 0;
   0; 0; 0; 170; 0; 0; 104 ].
Definition yy_act : tree Z := Eval vm_compute in tree_of act_list.

(** 110-401: the numbers of the tokens with a name. *)
Definition token_numbers : list (string * Z) :=
  [
   ("LEX_ERROR", 57346); ("UNION", 57347); ("SELECT", 57348); ("STREAM", 57349); ("INSERT", 57350); ("UPDATE", 57351);
   ("DELETE", 57352); ("FROM", 57353); ("WHERE", 57354); ("GROUP", 57355); ("HAVING", 57356); ("ORDER", 57357); ("BY",
   57358); ("LIMIT", 57359); ("OFFSET", 57360); ("FOR", 57361); ("ALL", 57362); ("DISTINCT", 57363); ("AS", 57364);
   ("EXISTS", 57365); ("ASC", 57366); ("DESC", 57367); ("INTO", 57368); ("DUPLICATE", 57369); ("DEFAULT", 57370);
   ("SET", 57371); ("LOCK", 57372); ("KEYS", 57373); ("VALUES", 57374); ("LAST_INSERT_ID", 57375); ("NEXT", 57376);
   ("VALUE", 57377); ("SHARE", 57378); ("MODE", 57379); ("SQL_NO_CACHE", 57380); ("SQL_CACHE", 57381); ("JOIN",
   57382); ("STRAIGHT_JOIN", 57383); ("LEFT", 57384); ("RIGHT", 57385); ("INNER", 57386); ("OUTER", 57387); ("CROSS",
   57388); ("NATURAL", 57389); ("USE", 57390); ("FORCE", 57391); ("ON", 57392); ("USING", 57393); ("ID", 57394);
   ("HEX", 57395); ("STRING", 57396); ("INTEGRAL", 57397); ("FLOAT", 57398); ("HEXNUM", 57399); ("VALUE_ARG", 57400);
   ("LIST_ARG", 57401); ("COMMENT", 57402); ("COMMENT_KEYWORD", 57403); ("BIT_LITERAL", 57404); ("NULL", 57405);
   ("TRUE", 57406); ("FALSE", 57407); ("OFF", 57408); ("OR", 57409); ("AND", 57410); ("NOT", 57411); ("BETWEEN",
   57412); ("CASE", 57413); ("WHEN", 57414); ("THEN", 57415); ("ELSE", 57416); ("END", 57417); ("LE", 57418); ("GE",
   57419); ("NE", 57420); ("NULL_SAFE_EQUAL", 57421); ("IS", 57422); ("LIKE", 57423); ("REGEXP", 57424); ("IN",
   57425); ("SHIFT_LEFT", 57426); ("SHIFT_RIGHT", 57427); ("DIV", 57428); ("MOD", 57429); ("UNARY", 57430);
   ("COLLATE", 57431); ("BINARY", 57432); ("UNDERSCORE_BINARY", 57433); ("INTERVAL", 57434); ("JSON_EXTRACT_OP",
   57435); ("JSON_UNQUOTE_EXTRACT_OP", 57436); ("CREATE", 57437); ("ALTER", 57438); ("DROP", 57439); ("RENAME",
   57440); ("ANALYZE", 57441); ("ADD", 57442); ("SCHEMA", 57443); ("TABLE", 57444); ("INDEX", 57445); ("VIEW", 57446);
   ("TO", 57447); ("IGNORE", 57448); ("IF", 57449); ("PRIMARY", 57450); ("COLUMN", 57451); ("CONSTRAINT", 57452);
   ("REFERENCES", 57453); ("SPATIAL", 57454); ("FULLTEXT", 57455); ("FOREIGN", 57456); ("KEY_BLOCK_SIZE", 57457);
   ("POLICY", 57458); ("UNIQUE", 57459); ("KEY", 57460); ("SHOW", 57461); ("DESCRIBE", 57462); ("EXPLAIN", 57463);
   ("DATE", 57464); ("ESCAPE", 57465); ("REPAIR", 57466); ("OPTIMIZE", 57467); ("TRUNCATE", 57468); ("MAXVALUE",
   57469); ("PARTITION", 57470); ("REORGANIZE", 57471); ("LESS", 57472); ("THAN", 57473); ("PROCEDURE", 57474);
   ("TRIGGER", 57475); ("VINDEX", 57476); ("VINDEXES", 57477); ("STATUS", 57478); ("VARIABLES", 57479); ("RESTRICT",
   57480); ("CASCADE", 57481); ("NO", 57482); ("ACTION", 57483); ("PERMISSIVE", 57484); ("RESTRICTIVE", 57485);
   ("PUBLIC", 57486); ("CURRENT_USER", 57487); ("SESSION_USER", 57488); ("PAD_INDEX", 57489); ("FILLFACTOR", 57490);
   ("IGNORE_DUP_KEY", 57491); ("STATISTICS_NORECOMPUTE", 57492); ("STATISTICS_INCREMENTAL", 57493);
   ("ALLOW_ROW_LOCKS", 57494); ("ALLOW_PAGE_LOCKS", 57495); ("BEFORE", 57496); ("AFTER", 57497); ("EACH", 57498);
   ("ROW", 57499); ("BEGIN", 57500); ("START", 57501); ("TRANSACTION", 57502); ("COMMIT", 57503); ("ROLLBACK", 57504);
   ("BIT", 57505); ("TINYINT", 57506); ("SMALLINT", 57507); ("SMALLSERIAL", 57508); ("MEDIUMINT", 57509); ("INT",
   57510); ("INTEGER", 57511); ("SERIAL", 57512); ("BIGINT", 57513); ("BIGSERIAL", 57514); ("INTNUM", 57515); ("REAL",
   57516); ("DOUBLE", 57517); ("PRECISION", 57518); ("FLOAT_TYPE", 57519); ("DECIMAL", 57520); ("NUMERIC", 57521);
   ("SMALLMONEY", 57522); ("MONEY", 57523); ("TIME", 57524); ("TIMESTAMP", 57525); ("DATETIME", 57526); ("YEAR",
   57527); ("DATETIMEOFFSET", 57528); ("DATETIME2", 57529); ("SMALLDATETIME", 57530); ("CHAR", 57531); ("VARCHAR",
   57532); ("VARYING", 57533); ("BOOL", 57534); ("CHARACTER", 57535); ("VARBINARY", 57536); ("NCHAR", 57537);
   ("NVARCHAR", 57538); ("NTEXT", 57539); ("UUID", 57540); ("TEXT", 57541); ("TINYTEXT", 57542); ("MEDIUMTEXT",
   57543); ("LONGTEXT", 57544); ("CITEXT", 57545); ("BLOB", 57546); ("TINYBLOB", 57547); ("MEDIUMBLOB", 57548);
   ("LONGBLOB", 57549); ("JSON", 57550); ("JSONB", 57551); ("ENUM", 57552); ("GEOMETRY", 57553); ("POINT", 57554);
   ("LINESTRING", 57555); ("POLYGON", 57556); ("GEOMETRYCOLLECTION", 57557); ("MULTIPOINT", 57558);
   ("MULTILINESTRING", 57559); ("MULTIPOLYGON", 57560); ("ARRAY", 57561); ("NOW", 57562); ("GETDATE", 57563);
   ("BPCHAR", 57564); ("NULLX", 57565); ("AUTO_INCREMENT", 57566); ("APPROXNUM", 57567); ("SIGNED", 57568);
   ("UNSIGNED", 57569); ("ZEROFILL", 57570); ("ZONE", 57571); ("AUTOINCREMENT", 57572); ("DATABASES", 57573);
   ("TABLES", 57574); ("VITESS_KEYSPACES", 57575); ("VITESS_SHARDS", 57576); ("VITESS_TABLETS", 57577);
   ("VSCHEMA_TABLES", 57578); ("EXTENDED", 57579); ("FULL", 57580); ("PROCESSLIST", 57581); ("NAMES", 57582);
   ("CHARSET", 57583); ("GLOBAL", 57584); ("SESSION", 57585); ("ISOLATION", 57586); ("LEVEL", 57587); ("READ", 57588);
   ("WRITE", 57589); ("ONLY", 57590); ("REPEATABLE", 57591); ("COMMITTED", 57592); ("UNCOMMITTED", 57593);
   ("SERIALIZABLE", 57594); ("CURRENT_TIMESTAMP", 57595); ("DATABASE", 57596); ("CURRENT_DATE", 57597);
   ("CURRENT_TIME", 57598); ("LOCALTIME", 57599); ("LOCALTIMESTAMP", 57600); ("UTC_DATE", 57601); ("UTC_TIME", 57602);
   ("UTC_TIMESTAMP", 57603); ("REPLACE", 57604); ("CONVERT", 57605); ("CAST", 57606); ("SUBSTR", 57607); ("SUBSTRING",
   57608); ("GROUP_CONCAT", 57609); ("SEPARATOR", 57610); ("INHERIT", 57611); ("MATCH", 57612); ("AGAINST", 57613);
   ("BOOLEAN", 57614); ("LANGUAGE", 57615); ("WITH", 57616); ("WITHOUT", 57617); ("PARSER", 57618); ("QUERY", 57619);
   ("EXPANSION", 57620); ("UNUSED", 57621); ("GENERATED", 57622); ("ALWAYS", 57623); ("IDENTITY", 57624); ("SEQUENCE",
   57625); ("INCREMENT", 57626); ("MINVALUE", 57627); ("CACHE", 57628); ("CYCLE", 57629); ("OWNED", 57630); ("NONE",
   57631); ("CLUSTERED", 57632); ("NONCLUSTERED", 57633); ("REPLICATION", 57634); ("INCLUDE", 57635); ("TYPECAST",
   57636); ("CHECK", 57637) ]%string.
