(** * Line numbers of the shipped nxdl.xsd files

    Generated from nxdl.xsd of v2018.5, v3.3 and a4fd52d in /repo/punx/cache: the numbers that
    lxml gives as [sourceline] (the line in which a start tag ends) of the elements of the trees in
    ShippedXsd.v, in document order, comments not counted. *)

From Coq Require Import List NArith String.
From Verif Require Import PyBase SchemaMgr ShippedXsd NxdlSchema.
Import ListNotations.
Open Scope N_scope.

(** give the elements of a tree their line numbers *)
Fixpoint put_lines (fuel : nat) (l : list snode) (lines : list N) : list lnode * list N :=
  match fuel, l with
  | O, _ | _, [] => ([], lines)
  | S f, SComment :: rest =>
      let r := put_lines f rest lines in (LComment :: fst r, snd r)
  | S f, SN t a k :: rest =>
      let r1 := put_lines f k (tl lines) in
      let r2 := put_lines f rest (snd r1) in
      (LN t (hd 0 lines) a (fst r1) :: fst r2, snd r2)
  end.
Definition with_lines (l : list snode) (lines : list N) : list lnode := fst (put_lines 200 l lines).

Definition lines_v2018_5 : list N := [8; 35; 36; 47; 48; 62; 63; 79; 80; 81; 85; 86; 94; 95; 99; 100; 117; 118; 134; 140; 141; 142; 162; 163; 164; 170; 171; 198; 199; 200; 208; 209; 218; 219; 230; 231; 235; 236; 244; 245; 256; 257; 265; 266; 282; 283; 284; 285; 286; 290; 291; 306; 307; 322; 323; 338; 341; 342; 349; 350; 351; 357; 358; 365; 366; 367; 379; 380; 392; 393; 411; 412; 418; 419; 427; 428; 452; 453; 462; 463; 472; 475; 476; 482; 483; 484; 491; 492; 499; 500; 507; 508; 514; 515; 521; 522; 551; 552; 561; 562; 563; 571; 572; 584; 589; 590; 607; 608; 609; 610; 611; 616; 617; 622; 623; 629; 630; 639; 640; 647; 648; 664; 665; 684; 685; 716; 717; 727; 728; 735; 736; 744; 745; 754; 755; 789; 790; 821; 822; 845; 846; 847; 848; 849; 850; 854; 855; 862; 863; 864; 865; 873; 874; 888; 889; 890; 898; 899; 905; 906; 913; 914; 920; 921; 930; 931; 938; 941; 942; 950; 951; 952; 954; 955; 956; 964; 965; 973; 974; 975; 976; 1010; 1011; 1024; 1025; 1057; 1058; 1062; 1063; 1076; 1077; 1078; 1085; 1086; 1094; 1095; 1096; 1097; 1105; 1106; 1117; 1118; 1144; 1145; 1146; 1154; 1155; 1156; 1157; 1166; 1167; 1179; 1183; 1190; 1191; 1192; 1199; 1200; 1222; 1223; 1224; 1239; 1240; 1247; 1248; 1260; 1261; 1272; 1273; 1282; 1283; 1299; 1300].
(** /repo/punx/cache/v2018.5/nxdl.xsd *)
Definition xsd_v2018_5 : list lnode := with_lines nxdl_v2018_5 lines_v2018_5.

Definition lines_v3_3 : list N := [8; 35; 36; 47; 48; 62; 63; 79; 80; 81; 85; 86; 94; 95; 99; 100; 117; 118; 134; 140; 141; 142; 162; 163; 164; 170; 171; 198; 199; 200; 208; 209; 218; 219; 230; 231; 242; 243; 247; 248; 256; 257; 268; 269; 278; 279; 295; 296; 297; 298; 299; 303; 304; 319; 320; 335; 336; 351; 354; 355; 362; 363; 364; 370; 371; 389; 390; 396; 397; 405; 406; 430; 431; 440; 441; 450; 453; 454; 460; 461; 462; 469; 470; 477; 478; 484; 485; 491; 492; 521; 522; 531; 532; 533; 541; 542; 554; 559; 560; 577; 578; 579; 580; 581; 586; 587; 592; 593; 599; 600; 609; 610; 617; 618; 634; 635; 654; 655; 686; 687; 697; 698; 705; 706; 714; 715; 724; 725; 759; 760; 791; 792; 815; 816; 817; 818; 819; 820; 824; 825; 832; 833; 834; 835; 843; 844; 858; 859; 860; 868; 869; 875; 876; 883; 884; 890; 891; 900; 901; 908; 911; 912; 920; 921; 922; 924; 925; 926; 934; 935; 943; 944; 945; 946; 980; 981; 994; 995; 1027; 1028; 1032; 1033; 1046; 1047; 1048; 1055; 1056; 1064; 1065; 1066; 1067; 1075; 1076; 1087; 1088; 1114; 1115; 1116; 1124; 1125; 1126; 1127; 1136; 1137; 1149; 1153; 1160; 1161; 1162; 1169; 1170; 1192; 1193; 1194; 1209; 1210; 1217; 1218; 1230; 1231; 1242; 1243; 1252; 1253; 1269; 1270].
(** /repo/punx/cache/v3.3/nxdl.xsd *)
Definition xsd_v3_3 : list lnode := with_lines nxdl_v3_3 lines_v3_3.

Definition lines_a4fd52d : list N := [8; 35; 36; 47; 48; 62; 63; 79; 80; 81; 85; 86; 94; 95; 99; 100; 117; 118; 134; 140; 141; 142; 162; 163; 164; 170; 171; 198; 199; 200; 208; 209; 218; 219; 230; 231; 242; 243; 247; 248; 256; 257; 268; 269; 278; 279; 295; 296; 297; 298; 299; 303; 304; 319; 320; 335; 336; 351; 354; 355; 362; 363; 364; 370; 371; 389; 390; 396; 397; 405; 406; 430; 431; 440; 441; 450; 453; 454; 460; 461; 462; 469; 470; 477; 478; 484; 485; 491; 492; 521; 522; 531; 532; 533; 541; 542; 554; 559; 560; 577; 578; 579; 580; 581; 586; 587; 592; 593; 599; 600; 609; 610; 617; 618; 634; 635; 654; 655; 686; 687; 697; 698; 705; 706; 714; 715; 724; 725; 759; 760; 791; 792; 815; 816; 817; 818; 819; 820; 824; 825; 832; 833; 834; 835; 843; 844; 858; 859; 860; 868; 869; 876; 877; 883; 884; 893; 894; 901; 904; 905; 913; 914; 915; 917; 918; 919; 927; 928; 936; 937; 938; 939; 960; 961; 993; 994; 998; 999; 1012; 1013; 1014; 1021; 1022; 1030; 1031; 1032; 1033; 1041; 1042; 1053; 1054; 1080; 1081; 1082; 1087; 1088; 1094; 1095; 1096; 1105; 1106; 1118; 1122; 1129; 1130; 1131; 1138; 1139; 1161; 1162; 1163; 1178; 1179; 1186; 1187; 1196; 1197; 1205; 1206; 1218; 1219].
(** /repo/punx/cache/a4fd52d/nxdl.xsd *)
Definition xsd_a4fd52d : list lnode := with_lines nxdl_a4fd52d lines_a4fd52d.
