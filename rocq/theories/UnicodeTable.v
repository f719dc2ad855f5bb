(** The table of commands and characters, latex_maps/_latex2unicode_map.py
    (the dictionary [latex2unicode], key by key in the order of the file),
    written here by a script that reads the file as data.  A key is the LaTeX
    text; a value is the list of the codes of its characters (an integer value n
    of the file is the one character of code n, latex_unicode_converter.py 22-27). *)
From Coq Require Import List NArith String.
From Verif Require Import PyStr.
Import ListNotations.
Local Open Scope N_scope.
Open Scope list_scope.

Definition part0 : list (str * str) := [
  (lit "{[}", [91]);
  (lit "{]}", [93]);
  (lit "\qedhere", [9633]);
  (lit "\qedsymbol", [9633]);
  (lit "\copyright", [169]);
  (lit "\@", []);
  (lit "\checkmark", [10003]);
  (lit "\dots", [46; 46; 46]);
  (lit "\textless", [60]);
  (lit "\textgreater", [62]);
  (lit "\#", [35]);
  (lit "\$", [36]);
  (lit "\%", [37]);
  (lit "\&", [38]);
  (lit "\textbackslash", [92]);
  (lit "\textasciicircum", [94]);
  (lit "\_", [95]);
  (lit "\{", [123]);
  (lit "\}", [125]);
  (lit "\textasciitilde", [126]);
  (lit "\textexclamdown", [161]);
  (lit "\textcent", [162]);
  (lit "\textsterling", [163]);
  (lit "\textcurrency", [164]);
  (lit "\textyen", [165]);
  (lit "\textbrokenbar", [166]);
  (lit "\S", [167]);
  (lit "\textsection", [167]);
  (lit "\textasciidieresis", [168]);
  (lit "\textcopyright", [169]);
  (lit "\textordfeminine", [170]);
  (lit "\guillemotleft", [171]);
  (lit "\textlnot", [172]);
  (lit "\-", [173]);
  (lit "\textregistered", [174]);
  (lit "\textasciimacron", [175]);
  (lit "\textdegree", [176]);
  (lit "\textpm", [177]);
  (lit "\texttwosuperior", [178]);
  (lit "\textthreesuperior", [179]);
  (lit "\textasciiacute", [180]);
  (lit "\textmu", [181]);
  (lit "\textparagraph", [182]);
  (lit "\textperiodcentered", [183]);
  (lit "\textonesuperior", [185]);
  (lit "\textordmasculine", [186]);
  (lit "\guillemotright", [187]);
  (lit "\textonequarter", [188]);
  (lit "\textonehalf", [189]);
  (lit "\textthreequarters", [190]);
  (lit "\textquestiondown", [191]);
  (lit "\`A", [192]);
  (lit "\'A", [193]);
  (lit "\^A", [194]);
  (lit "\~A", [195]);
  (lit "\""A", [196]);
  (lit "\r{A}", [197]);
  (lit "\AE", [198]);
  (lit "\c{C}", [199]);
  (lit "\`E", [200]);
  (lit "\'E", [201]);
  (lit "\^E", [202]);
  (lit "\""E", [203]);
  (lit "\`I", [204]);
  (lit "\'I", [205]);
  (lit "\^I", [206]);
  (lit "\""I", [207]);
  (lit "\DH", [208]);
  (lit "\~N", [209]);
  (lit "\`O", [210]);
  (lit "\'O", [211]);
  (lit "\^O", [212]);
  (lit "\~O", [213]);
  (lit "\""O", [214]);
  (lit "\texttimes", [215]);
  (lit "\O", [216]);
  (lit "\`U", [217]);
  (lit "\'U", [218]);
  (lit "\^U", [219]);
  (lit "\""U", [220]);
  (lit "\'Y", [221]);
  (lit "\TH", [222]);
  (lit "\ss", [223]);
  (lit "\`a", [224]);
  (lit "\'a", [225]);
  (lit "\^a", [226]);
  (lit "\~a", [227]);
  (lit "\""a", [228]);
  (lit "\r{a}", [229]);
  (lit "\ae", [230]);
  (lit "\c{c}", [231]);
  (lit "\`e", [232]);
  (lit "\'e", [233]);
  (lit "\^e", [234]);
  (lit "\""e", [235]);
  (lit "\`i", [236]);
  (lit "\'i", [237]);
  (lit "\^i", [238]);
  (lit "\""i", [239]);
  (lit "\dh", [240]);
  (lit "\~n", [241]);
  (lit "\`o", [242]);
  (lit "\'o", [243]);
  (lit "\^o", [244]);
  (lit "\~o", [245]);
  (lit "\""o", [246]);
  (lit "\textdiv", [247]);
  (lit "\o", [248]);
  (lit "\`u", [249]);
  (lit "\'u", [250]);
  (lit "\^u", [251]);
  (lit "\""u", [252]);
  (lit "\'y", [253]);
  (lit "\th", [254]);
  (lit "\""y", [255]);
  (lit "\={A}", [256]);
  (lit "\={a}", [257]);
  (lit "\u{A}", [258]);
  (lit "\u{a}", [259]);
  (lit "\k{A}", [260]);
  (lit "\k{a}", [261]);
  (lit "\'C", [262]);
  (lit "\'c", [263]);
  (lit "\^{C}", [264]);
  (lit "\^{c}", [265]);
  (lit "\.{C}", [266]);
  (lit "\.{c}", [267]);
  (lit "\v{C}", [268]);
  (lit "\v{c}", [269]);
  (lit "\v{D}", [270]);
  (lit "\v{d}", [271]);
  (lit "\DJ", [272]);
  (lit "\dj", [273]);
  (lit "\={E}", [274]);
  (lit "\={e}", [275]);
  (lit "\u{E}", [276]);
  (lit "\u{e}", [277]);
  (lit "\.{E}", [278]);
  (lit "\.{e}", [279]);
  (lit "\k{E}", [280]);
  (lit "\k{e}", [281]);
  (lit "\v{E}", [282]);
  (lit "\v{e}", [283]);
  (lit "\^{G}", [284]);
  (lit "\^{g}", [285]);
  (lit "\u{G}", [286]);
  (lit "\u{g}", [287]);
  (lit "\.{G}", [288]);
  (lit "\.{g}", [289]);
  (lit "\c{G}", [290]);
  (lit "\c{g}", [291]);
  (lit "\^{H}", [292]);
  (lit "\^{h}", [293]);
  (lit "\={H}", [294]);
  (lit "\={h}", [295]);
  (lit "\~{I}", [296]);
  (lit "\~{i}", [297]);
  (lit "\={I}", [298]);
  (lit "\={i}", [299]);
  (lit "\u{I}", [300]);
  (lit "\u{i}", [301]);
  (lit "\k{I}", [302]);
  (lit "\k{i}", [303]);
  (lit "\.I", [304]);
  (lit "\i", [305]);
  (lit "\IJ", [306]);
  (lit "\ij", [307]);
  (lit "\^{J}", [308]);
  (lit "\^{j}", [309]);
  (lit "\c{K}", [310]);
  (lit "\c{k}", [311]);
  (lit "\textsc{k}", [312]);
  (lit "\'L", [313]);
  (lit "\'l", [314]);
  (lit "\c{L}", [315]);
  (lit "\c{l}", [316]);
  (lit "\v{L}", [317]);
  (lit "\v{l}", [318]);
  (lit "\.{L}", [319]);
  (lit "\.{l}", [320]);
  (lit "\L", [321]);
  (lit "\l", [322]);
  (lit "\'N", [323]);
  (lit "\'n", [324]);
  (lit "\c{N}", [325]);
  (lit "\c{n}", [326]);
  (lit "\v{N}", [327]);
  (lit "\v{n}", [328]);
  (lit "\nument{149}", [329]);
  (lit "\NG", [330]);
  (lit "\ng", [331]);
  (lit "\={O}", [332]);
  (lit "\={o}", [333]);
  (lit "\u{O}", [334]);
  (lit "\u{o}", [335]);
  (lit "\H{O}", [336]);
  (lit "\H{o}", [337]);
  (lit "\OE", [338]);
  (lit "\oe", [339]);
  (lit "\'R", [340]);
  (lit "\'r", [341]);
  (lit "\c{R}", [342]);
  (lit "\c{r}", [343]);
  (lit "\v{R}", [344]);
  (lit "\v{r}", [345]);
  (lit "\'S", [346]);
  (lit "\'s", [347]);
  (lit "\^{S}", [348]);
  (lit "\^{s}", [349]);
  (lit "\c{S}", [350]);
  (lit "\c{s}", [351]);
  (lit "\v{S}", [352]);
  (lit "\v{s}", [353]);
  (lit "\c{T}", [354]);
  (lit "\c{t}", [355]);
  (lit "\v{T}", [356]);
  (lit "\v{t}", [357]);
  (lit "\={T}", [358]);
  (lit "\={t}", [359]);
  (lit "\~{U}", [360]);
  (lit "\~{u}", [361]);
  (lit "\={U}", [362]);
  (lit "\={u}", [363]);
  (lit "\u{U}", [364]);
  (lit "\u{u}", [365]);
  (lit "\r{U}", [366]);
  (lit "\r{u}", [367]);
  (lit "\'{U}", [368]);
  (lit "\'{u}", [369]);
  (lit "\k{U}", [370]);
  (lit "\k{u}", [371]);
  (lit "\^{W}", [372]);
  (lit "\^{w}", [373]);
  (lit "\^{Y}", [374]);
  (lit "\^{y}", [375]);
  (lit "\""Y", [376]);
  (lit "\'Z", [377]);
  (lit "\'z", [378]);
  (lit "\.Z", [379]);
  (lit "\.z", [380]);
  (lit "\v{Z}", [381]);
  (lit "\v{z}", [382]);
  (lit "\textflorin", [402]);
  (lit "\texthvlig", [405]);
  (lit "\textnrleg", [414]);
  (lit "\v{g}", [487]);
  (lit "\'{g}", [501]);
  (lit "\c{E}", [552]);
  (lit "\c{e}", [553]);
  (lit "\textschwa", [601]);
  (lit "\varepsilon", [603]);
  (lit "\textphi", [632]);
  (lit "\textglotstop", [660]);
  (lit "\textturnk", [670]);
  (lit "\textsuperscript{w}", [695]);
  (lit "\textasciicaron", [711]);
  (lit "\textasciibreve", [728]);
  (lit "\r{}", [730]);
  (lit "\k{}", [731]);
  (lit "\textacutedbl", [733]);
  (lit "\dot{}", [775]);
  (lit "\ddot{}", [776]);
  (lit "\'{}A", [902]);
  (lit "\'{}E", [904]);
  (lit "\'{}H", [905]);
  (lit "\'{}I", [906]);
  (lit "\'{}O", [908]);
  (lit "\'{}Y", [910]);
  (lit "\'{}\ensuremath{\Omega}", [911]);
  (lit "\acute{\ddot{\iota}}", [912]);
  (lit "\Gamma", [915]);
  (lit "\Delta", [916]);
  (lit "\Theta", [920]);
  (lit "\Lambda", [923]);
  (lit "\Xi", [926]);
  (lit "\Pi", [928]);
  (lit "\Sigma", [931]);
  (lit "\Upsilon", [933]);
  (lit "\Phi", [934]);
  (lit "\Psi", [936]);
  (lit "\Omega", [937]);
  (lit "\ddot{I}", [938]);
  (lit "\ddot{Y}", [939]);
  (lit "\acute\alpha", [940]);
  (lit "\acute\epsilon", [941]);
  (lit "\acute\eta", [942]);
  (lit "\acute\iota", [943]);
  (lit "\acute{\ddot{\upsilon}}", [944]);
  (lit "\ddot\iota", [970]);
  (lit "\ddot{\upsilon}", [971]);
  (lit "\'{o}", [972]);
  (lit "\acute\upsilon", [973]);
  (lit "\acute\omega", [974]);
  (lit "\alpha", [945]);
  (lit "\beta", [946]);
  (lit "\gamma", [947]);
  (lit "\delta", [948]);
  (lit "\zeta", [950]);
  (lit "\eta", [951]);
  (lit "\theta", [952])].

Definition part1 : list (str * str) := [
  (lit "\iota", [953]);
  (lit "\kappa", [954]);
  (lit "\lambda", [955]);
  (lit "\mu", [956]);
  (lit "\nu", [957]);
  (lit "\xi", [958]);
  (lit "\pi", [960]);
  (lit "\rho", [961]);
  (lit "\varsigma", [962]);
  (lit "\sigma", [963]);
  (lit "\tau", [964]);
  (lit "\upsilon", [965]);
  (lit "\varphi", [966]);
  (lit "\chi", [967]);
  (lit "\psi", [968]);
  (lit "\omega", [969]);
  (lit "\vartheta", [977]);
  (lit "\phi", [981]);
  (lit "\varpi", [982]);
  (lit "\varkappa", [1008]);
  (lit "\varrho", [1009]);
  (lit "\epsilon", [1013]);
  (lit "\backepsilon", [1014]);
  (lit "\`\CYRE", [1024]);
  (lit "\CYRYO", [1025]);
  (lit "\CYRDJE", [1026]);
  (lit "\`\CYRG", [1027]);
  (lit "\CYRIE", [1028]);
  (lit "\CYRDZE", [1029]);
  (lit "\CYRII", [1030]);
  (lit "\CYRYI", [1031]);
  (lit "\CYRJE", [1032]);
  (lit "\CYRLJE", [1033]);
  (lit "\CYRNJE", [1034]);
  (lit "\CYRTSHE", [1035]);
  (lit "\`\CYRK", [1036]);
  (lit "\`\CYRI", [1037]);
  (lit "\CYRUSHRT", [1038]);
  (lit "\CYRDZHE", [1039]);
  (lit "\CYRA", [1040]);
  (lit "\CYRB", [1041]);
  (lit "\CYRV", [1042]);
  (lit "\CYRG", [1043]);
  (lit "\CYRD", [1044]);
  (lit "\CYRE", [1045]);
  (lit "\CYRZH", [1046]);
  (lit "\CYRZ", [1047]);
  (lit "\CYRI", [1048]);
  (lit "\CYRISHRT", [1049]);
  (lit "\CYRK", [1050]);
  (lit "\CYRL", [1051]);
  (lit "\CYRM", [1052]);
  (lit "\CYRN", [1053]);
  (lit "\CYRO", [1054]);
  (lit "\CYRP", [1055]);
  (lit "\CYRR", [1056]);
  (lit "\CYRS", [1057]);
  (lit "\CYRT", [1058]);
  (lit "\CYRU", [1059]);
  (lit "\CYRF", [1060]);
  (lit "\CYRH", [1061]);
  (lit "\CYRC", [1062]);
  (lit "\CYRCH", [1063]);
  (lit "\CYRSH", [1064]);
  (lit "\CYRSHCH", [1065]);
  (lit "\CYRHRDSN", [1066]);
  (lit "\CYRERY", [1067]);
  (lit "\CYRSFTSN", [1068]);
  (lit "\CYREREV", [1069]);
  (lit "\CYRYU", [1070]);
  (lit "\CYRYA", [1071]);
  (lit "\cyra", [1072]);
  (lit "\cyrb", [1073]);
  (lit "\cyrv", [1074]);
  (lit "\cyrg", [1075]);
  (lit "\cyrd", [1076]);
  (lit "\cyre", [1077]);
  (lit "\cyrzh", [1078]);
  (lit "\cyrz", [1079]);
  (lit "\cyri", [1080]);
  (lit "\cyrishrt", [1081]);
  (lit "\cyrk", [1082]);
  (lit "\cyrl", [1083]);
  (lit "\cyrm", [1084]);
  (lit "\cyrn", [1085]);
  (lit "\cyro", [1086]);
  (lit "\cyrp", [1087]);
  (lit "\cyrr", [1088]);
  (lit "\cyrs", [1089]);
  (lit "\cyrt", [1090]);
  (lit "\cyru", [1091]);
  (lit "\cyrf", [1092]);
  (lit "\cyrh", [1093]);
  (lit "\cyrc", [1094]);
  (lit "\cyrch", [1095]);
  (lit "\cyrsh", [1096]);
  (lit "\cyrshch", [1097]);
  (lit "\cyrhrdsn", [1098]);
  (lit "\cyrery", [1099]);
  (lit "\cyrsftsn", [1100]);
  (lit "\cyrerev", [1101]);
  (lit "\cyryu", [1102]);
  (lit "\cyrya", [1103]);
  (lit "\`\cyre", [1104]);
  (lit "\cyryo", [1105]);
  (lit "\cyrdje", [1106]);
  (lit "\`\cyrg", [1107]);
  (lit "\cyrie", [1108]);
  (lit "\cyrdze", [1109]);
  (lit "\cyrii", [1110]);
  (lit "\cyryi", [1111]);
  (lit "\cyrje", [1112]);
  (lit "\cyrlje", [1113]);
  (lit "\cyrnje", [1114]);
  (lit "\cyrtshe", [1115]);
  (lit "\`\cyrk", [1116]);
  (lit "\`\cyri", [1117]);
  (lit "\cyrushrt", [1118]);
  (lit "\cyrdzhe", [1119]);
  (lit "\cyrchar\CYROMEGA", [1120]);
  (lit "\cyrchar\cyromega", [1121]);
  (lit "\CYRYAT", [1122]);
  (lit "\cyryat", [1123]);
  (lit "\cyrchar\CYRIOTE", [1124]);
  (lit "\cyrchar\cyriote", [1125]);
  (lit "\cyrchar\CYRLYUS", [1126]);
  (lit "\cyrchar\cyrlyus", [1127]);
  (lit "\cyrchar\CYRIOTLYUS", [1128]);
  (lit "\cyrchar\cyriotlyus", [1129]);
  (lit "\CYRBYUS", [1130]);
  (lit "\cyrbyus", [1131]);
  (lit "\cyrchar\CYRIOTBYUS", [1132]);
  (lit "\cyrchar\cyriotbyus", [1133]);
  (lit "\cyrchar\CYRKSI", [1134]);
  (lit "\cyrchar\cyrksi", [1135]);
  (lit "\cyrchar\CYRPSI", [1136]);
  (lit "\cyrchar\cyrpsi", [1137]);
  (lit "\CYRFITA", [1138]);
  (lit "\cyrfita", [1139]);
  (lit "\CYRIZH", [1140]);
  (lit "\cyrizh", [1141]);
  (lit "\C\CYRIZH", [1142]);
  (lit "\C\cyrizh", [1143]);
  (lit "\cyrchar\CYRUK", [1144]);
  (lit "\cyrchar\cyruk", [1145]);
  (lit "\cyrchar\CYROMEGARND", [1146]);
  (lit "\cyrchar\cyromegarnd", [1147]);
  (lit "\cyrchar\CYROMEGATITLO", [1148]);
  (lit "\cyrchar\cyromegatitlo", [1149]);
  (lit "\cyrchar\CYROT", [1150]);
  (lit "\cyrchar\cyrot", [1151]);
  (lit "\cyrchar\CYRKOPPA", [1152]);
  (lit "\cyrchar\cyrkoppa", [1153]);
  (lit "\cyrchar\cyrthousands", [1154]);
  (lit "\cyrchar\cyrhundredthousands", [1160]);
  (lit "\cyrchar\cyrmillions", [1161]);
  (lit "\CYRSEMISFTSN", [1164]);
  (lit "\cyrsemisftsn", [1165]);
  (lit "\CYRRTICK", [1166]);
  (lit "\cyrrtick", [1167]);
  (lit "\CYRGUP", [1168]);
  (lit "\cyrgup", [1169]);
  (lit "\CYRGHCRS", [1170]);
  (lit "\cyrghcrs", [1171]);
  (lit "\CYRGHK", [1172]);
  (lit "\cyrghk", [1173]);
  (lit "\CYRZHDSC", [1174]);
  (lit "\cyrzhdsc", [1175]);
  (lit "\CYRZDSC", [1176]);
  (lit "\cyrzdsc", [1177]);
  (lit "\CYRKDSC", [1178]);
  (lit "\cyrkdsc", [1179]);
  (lit "\CYRKVCRS", [1180]);
  (lit "\cyrkvcrs", [1181]);
  (lit "\CYRKHCRS", [1182]);
  (lit "\cyrkhcrs", [1183]);
  (lit "\CYRKBEAK", [1184]);
  (lit "\cyrkbeak", [1185]);
  (lit "\CYRNDSC", [1186]);
  (lit "\cyrndsc", [1187]);
  (lit "\CYRNG", [1188]);
  (lit "\cyrng", [1189]);
  (lit "\CYRPHK", [1190]);
  (lit "\cyrphk", [1191]);
  (lit "\CYRABHHA", [1192]);
  (lit "\cyrabhha", [1193]);
  (lit "\CYRSDSC", [1194]);
  (lit "\cyrsdsc", [1195]);
  (lit "\CYRTDSC", [1196]);
  (lit "\cyrtdsc", [1197]);
  (lit "\CYRY", [1198]);
  (lit "\cyry", [1199]);
  (lit "\CYRYHCRS", [1200]);
  (lit "\cyryhcrs", [1201]);
  (lit "\CYRHDSC", [1202]);
  (lit "\cyrhdsc", [1203]);
  (lit "\CYRTETSE", [1204]);
  (lit "\cyrtetse", [1205]);
  (lit "\CYRCHRDSC", [1206]);
  (lit "\cyrchrdsc", [1207]);
  (lit "\CYRCHVCRS", [1208]);
  (lit "\cyrchvcrs", [1209]);
  (lit "\CYRSHHA", [1210]);
  (lit "\cyrshha", [1211]);
  (lit "\CYRABHCH", [1212]);
  (lit "\cyrabhch", [1213]);
  (lit "\CYRABHCHDSC", [1214]);
  (lit "\cyrabhchdsc", [1215]);
  (lit "\CYRpalochka", [1216]);
  (lit "\U\CYRZH", [1217]);
  (lit "\U\cyrzh", [1218]);
  (lit "\CYRKHK", [1219]);
  (lit "\cyrkhk", [1220]);
  (lit "\CYRLDSC", [1221]);
  (lit "\cyrldsc", [1222]);
  (lit "\CYRNHK", [1223]);
  (lit "\cyrnhk", [1224]);
  (lit "\CYRCHLDSC", [1227]);
  (lit "\cyrchldsc", [1228]);
  (lit "\CYRMDSC", [1229]);
  (lit "\cyrmdsc", [1230]);
  (lit "\U\CYRA", [1232]);
  (lit "\U\cyra", [1233]);
  (lit "\""\CYRA", [1234]);
  (lit "\""\cyra", [1235]);
  (lit "\CYRAE", [1236]);
  (lit "\cyrae", [1237]);
  (lit "\U\CYRE", [1238]);
  (lit "\U\cyre", [1239]);
  (lit "\CYRSCHWA", [1240]);
  (lit "\cyrschwa", [1241]);
  (lit "\""\CYRSCHWA", [1242]);
  (lit "\""\cyrschwa", [1243]);
  (lit "\""\CYRZH", [1244]);
  (lit "\""\cyrzh", [1245]);
  (lit "\""\CYRZ", [1246]);
  (lit "\""\cyrz", [1247]);
  (lit "\CYRABHDZE", [1248]);
  (lit "\cyrabhdze", [1249]);
  (lit "\=\CYRI", [1250]);
  (lit "\=\cyri", [1251]);
  (lit "\""\CYRI", [1252]);
  (lit "\""\cyri", [1253]);
  (lit "\""\CYRO", [1254]);
  (lit "\""\cyro", [1255]);
  (lit "\CYROTLD", [1256]);
  (lit "\cyrotld", [1257]);
  (lit "\""\CYREREV", [1260]);
  (lit "\""\cyrerev", [1261]);
  (lit "\=\CYRU", [1262]);
  (lit "\=\cyru", [1263]);
  (lit "\""\CYRU", [1264]);
  (lit "\""\cyru", [1265]);
  (lit "\H\CYRU", [1266]);
  (lit "\H\cyru", [1267]);
  (lit "\""\CYRCH", [1268]);
  (lit "\""\cyrch", [1269]);
  (lit "\CYRGDSC", [1270]);
  (lit "\cyrgdsc", [1271]);
  (lit "\""\CYRERY", [1272]);
  (lit "\""\cyrery", [1273]);
  (lit "\CYRGDSCHCRS", [1274]);
  (lit "\cyrgdschcrs", [1275]);
  (lit "\CYRHHK", [1276]);
  (lit "\cyrhhk", [1277]);
  (lit "\CYRHHCRS", [1278]);
  (lit "\cyrhhcrs", [1279]);
  (lit "\textbaht", [3647]);
  (lit "\enskip", [8192]);
  (lit "\quad", [8193]);
  (lit "\hspace{0.33em}", [8196]);
  (lit "\hspace{0.25em}", [8197]);
  (lit "\hspace{0.167em}", [8198]);
  (lit "\;", [8200]);
  (lit "\,", [8201]);
  (lit "\hspace{1pt}", [8202]);
  (lit "\textcompwordmark", [8204]);
  (lit "\nobreakdash-", [8209]);
  (lit "\textendash", [8211]);
  (lit "\textemdash", [8212]);
  (lit "\Vert", [8214]);
  (lit "\textquoteleft", [8216]);
  (lit "\textquoteright", [8217]);
  (lit "\quotesinglbase", [8218]);
  (lit "\textquotedblleft", [8220]);
  (lit "\textquotedblright", [8221]);
  (lit "\quotedblbase", [8222]);
  (lit "\textdagger", [8224]);
  (lit "\textdaggerdbl", [8225]);
  (lit "\textbullet", [8226]);
  (lit "\textellipsis", [8230]);
  (lit "\textperthousand", [8240]);
  (lit "\textpertenthousand", [8241]);
  (lit "\backprime", [8245]);
  (lit "\guilsinglleft", [8249]);
  (lit "\guilsinglright", [8250]);
  (lit "\textreferencemark", [8251]);
  (lit "\textinterrobang", [8253]);
  (lit "\textfractionsolidus", [8260]);
  (lit "\textasteriskcentered", [8270])].

Definition part2 : list (str * str) := [
  (lit "\textdiscount", [8274]);
  (lit "\hspace{0.22em}", [8287]);
  (lit "\nolinebreak", [8288]);
  (lit "\textcolonmonetary", [8353]);
  (lit "\textlira", [8356]);
  (lit "\textnaira", [8358]);
  (lit "\textwon", [8361]);
  (lit "\textdong", [8363]);
  (lit "\texteuro", [8364]);
  (lit "\textpeso", [8369]);
  (lit "\mathbb{C}", [8450]);
  (lit "\textcelsius", [8451]);
  (lit "\mathscr{H}", [8459]);
  (lit "\mathfrak{H}", [8460]);
  (lit "\mathbb{H}", [8461]);
  (lit "\hbar", [8463]);
  (lit "\mathscr{I}", [8464]);
  (lit "\mathfrak{I}", [8465]);
  (lit "\mathscr{L}", [8466]);
  (lit "\ell", [8467]);
  (lit "\mathbb{N}", [8469]);
  (lit "\textnumero", [8470]);
  (lit "\textcircledP", [8471]);
  (lit "\wp", [8472]);
  (lit "\textrecipe", [8478]);
  (lit "\mathbb{P}", [8473]);
  (lit "\mathbb{Q}", [8474]);
  (lit "\mathscr{R}", [8475]);
  (lit "\mathfrak{R}", [8476]);
  (lit "\mathbb{R}", [8477]);
  (lit "\textservicemark", [8480]);
  (lit "\texttrademark", [8482]);
  (lit "\mathbb{Z}", [8484]);
  (lit "\textohm", [8486]);
  (lit "\textmho", [8487]);
  (lit "\mathfrak{Z}", [8488]);
  (lit "\mathscr{B}", [8492]);
  (lit "\mathfrak{C}", [8493]);
  (lit "\textestimated", [8494]);
  (lit "\mathscr{E}", [8496]);
  (lit "\mathscr{F}", [8497]);
  (lit "\mathscr{M}", [8499]);
  (lit "\aleph", [8501]);
  (lit "\beth", [8502]);
  (lit "\gimel", [8503]);
  (lit "\daleth", [8504]);
  (lit "\textfrac{1}{3}", [8531]);
  (lit "\textfrac{2}{3}", [8532]);
  (lit "\textfrac{1}{5}", [8533]);
  (lit "\textfrac{2}{5}", [8534]);
  (lit "\textfrac{3}{5}", [8535]);
  (lit "\textfrac{4}{5}", [8536]);
  (lit "\textfrac{1}{6}", [8537]);
  (lit "\textfrac{5}{6}", [8538]);
  (lit "\textfrac{1}{8}", [8539]);
  (lit "\textfrac{3}{8}", [8540]);
  (lit "\textfrac{5}{8}", [8541]);
  (lit "\textfrac{7}{8}", [8542]);
  (lit "\textleftarrow", [8592]);
  (lit "\textuparrow", [8593]);
  (lit "\textrightarrow", [8594]);
  (lit "\textdownarrow", [8595]);
  (lit "\leftrightarrow", [8596]);
  (lit "\updownarrow", [8597]);
  (lit "\nwarrow", [8598]);
  (lit "\nearrow", [8599]);
  (lit "\searrow", [8600]);
  (lit "\swarrow", [8601]);
  (lit "\nleftarrow", [8602]);
  (lit "\nrightarrow", [8603]);
  (lit "\arrowwaveleft", [8604]);
  (lit "\arrowwaveright", [8605]);
  (lit "\twoheadleftarrow", [8606]);
  (lit "\twoheadrightarrow", [8608]);
  (lit "\leftarrowtail", [8610]);
  (lit "\rightarrowtail", [8611]);
  (lit "\mapsto", [8614]);
  (lit "\hookleftarrow", [8617]);
  (lit "\hookrightarrow", [8618]);
  (lit "\looparrowleft", [8619]);
  (lit "\looparrowright", [8620]);
  (lit "\leftrightsquigarrow", [8621]);
  (lit "\nleftrightarrow", [8622]);
  (lit "\Lsh", [8624]);
  (lit "\Rsh", [8625]);
  (lit "\curvearrowleft", [8630]);
  (lit "\curvearrowright", [8631]);
  (lit "\circlearrowleft", [8634]);
  (lit "\circlearrowright", [8635]);
  (lit "\leftharpoonup", [8636]);
  (lit "\leftharpoondown", [8637]);
  (lit "\upharpoonright", [8638]);
  (lit "\upharpoonleft", [8639]);
  (lit "\rightharpoonup", [8640]);
  (lit "\rightharpoondown", [8641]);
  (lit "\downharpoonright", [8642]);
  (lit "\downharpoonleft", [8643]);
  (lit "\rightleftarrows", [8644]);
  (lit "\dblarrowupdown", [8645]);
  (lit "\leftrightarrows", [8646]);
  (lit "\leftleftarrows", [8647]);
  (lit "\upuparrows", [8648]);
  (lit "\rightrightarrows", [8649]);
  (lit "\downdownarrows", [8650]);
  (lit "\leftrightharpoons", [8651]);
  (lit "\rightleftharpoons", [8652]);
  (lit "\nLeftarrow", [8653]);
  (lit "\nLeftrightarrow", [8654]);
  (lit "\nRightarrow", [8655]);
  (lit "\Leftarrow", [8656]);
  (lit "\Uparrow", [8657]);
  (lit "\Rightarrow", [8658]);
  (lit "\Downarrow", [8659]);
  (lit "\Leftrightarrow", [8660]);
  (lit "\Updownarrow", [8661]);
  (lit "\Lleftarrow", [8666]);
  (lit "\Rrightarrow", [8667]);
  (lit "\rightsquigarrow", [8669]);
  (lit "\DownArrowUpArrow", [8693]);
  (lit "\forall", [8704]);
  (lit "\complement", [8705]);
  (lit "\partial", [8706]);
  (lit "\exists", [8707]);
  (lit "\nexists", [8708]);
  (lit "\varnothing", [8709]);
  (lit "\nabla", [8711]);
  (lit "\in", [8712]);
  (lit "\notin", [8713]);
  (lit "\ni", [8715]);
  (lit "\not\ni", [8716]);
  (lit "\blacksquare", [8718]);
  (lit "\qed", [8718]);
  (lit "\prod", [8719]);
  (lit "\coprod", [8720]);
  (lit "\sum", [8721]);
  (lit "\mp", [8723]);
  (lit "\dotplus", [8724]);
  (lit "\smallsetminus", [8726]);
  (lit "\circ", [8728]);
  (lit "\bullet", [8729]);
  (lit "\sqrt{}", [8730]);
  (lit "\sqrt[3]{}", [8731]);
  (lit "\sqrt[4]{}", [8732]);
  (lit "\propto", [8733]);
  (lit "\infty", [8734]);
  (lit "\rightangle", [8735]);
  (lit "\angle", [8736]);
  (lit "\measuredangle", [8737]);
  (lit "\sphericalangle", [8738]);
  (lit "\mid", [8739]);
  (lit "\nmid", [8740]);
  (lit "\parallel", [8741]);
  (lit "\nparallel", [8742]);
  (lit "\wedge", [8743]);
  (lit "\vee", [8744]);
  (lit "\cap", [8745]);
  (lit "\cup", [8746]);
  (lit "\int", [8747]);
  (lit "\iint", [8748]);
  (lit "\iiint", [8749]);
  (lit "\oint", [8750]);
  (lit "\surfintegral", [8751]);
  (lit "\volintegral", [8752]);
  (lit "\clwintegral", [8753]);
  (lit "\therefore", [8756]);
  (lit "\because", [8757]);
  (lit "\mathbin{{:}\!\!{-}\!\!{:}}", [8762]);
  (lit "\homothetic", [8763]);
  (lit "\sim", [8764]);
  (lit "\backsim", [8765]);
  (lit "\lazysinv", [8766]);
  (lit "\wr", [8768]);
  (lit "\not\sim", [8769]);
  (lit "\simeq", [8771]);
  (lit "\not\simeq", [8772]);
  (lit "\cong", [8773]);
  (lit "\approxnotequal", [8774]);
  (lit "\not\cong", [8775]);
  (lit "\approx", [8776]);
  (lit "\not\approx", [8777]);
  (lit "\approxeq", [8778]);
  (lit "\tildetrpl", [8779]);
  (lit "\allequal", [8780]);
  (lit "\asymp", [8781]);
  (lit "\Bumpeq", [8782]);
  (lit "\bumpeq", [8783]);
  (lit "\doteq", [8784]);
  (lit "\doteqdot", [8785]);
  (lit "\fallingdotseq", [8786]);
  (lit "\risingdotseq", [8787]);
  (lit "\eqcirc", [8790]);
  (lit "\circeq", [8791]);
  (lit "\estimates", [8793]);
  (lit "\starequal", [8795]);
  (lit "\triangleq", [8796]);
  (lit "\neq", [8800]);
  (lit "\equiv", [8801]);
  (lit "\not\equiv", [8802]);
  (lit "\leq", [8804]);
  (lit "\geq", [8805]);
  (lit "\leqq", [8806]);
  (lit "\geqq", [8807]);
  (lit "\lneqq", [8808]);
  (lit "\gneqq", [8809]);
  (lit "\ll", [8810]);
  (lit "\gg", [8811]);
  (lit "\between", [8812]);
  (lit "\not\kern-0.3em\times", [8813]);
  (lit "\nless", [8814]);
  (lit "\ngtr", [8815]);
  (lit "\nleq", [8816]);
  (lit "\ngeq", [8817]);
  (lit "\lesssim", [8818]);
  (lit "\gtrsim", [8819]);
  (lit "\not\lesssim", [8820]);
  (lit "\not\gtrsim", [8821]);
  (lit "\lessgtr", [8822]);
  (lit "\gtrless", [8823]);
  (lit "\notlessgreater", [8824]);
  (lit "\notgreaterless", [8825]);
  (lit "\prec", [8826]);
  (lit "\succ", [8827]);
  (lit "\preceq", [8828]);
  (lit "\succeq", [8829]);
  (lit "\precsim", [8830]);
  (lit "\succsim", [8831]);
  (lit "\nprec", [8832]);
  (lit "\nsucc", [8833]);
  (lit "\subset", [8834]);
  (lit "\supset", [8835]);
  (lit "\not\subset", [8836]);
  (lit "\not\supset", [8837]);
  (lit "\subseteq", [8838]);
  (lit "\supseteq", [8839]);
  (lit "\nsubseteq", [8840]);
  (lit "\nsupseteq", [8841]);
  (lit "\subsetneq", [8842]);
  (lit "\supsetneq", [8843]);
  (lit "\uplus", [8846]);
  (lit "\sqsubset", [8847]);
  (lit "\sqsupset", [8848]);
  (lit "\sqsubseteq", [8849]);
  (lit "\sqsupseteq", [8850]);
  (lit "\sqcap", [8851]);
  (lit "\sqcup", [8852]);
  (lit "\oplus", [8853]);
  (lit "\ominus", [8854]);
  (lit "\otimes", [8855]);
  (lit "\oslash", [8856]);
  (lit "\odot", [8857]);
  (lit "\circledcirc", [8858]);
  (lit "\circledast", [8859]);
  (lit "\circleddash", [8861]);
  (lit "\boxplus", [8862]);
  (lit "\boxminus", [8863]);
  (lit "\boxtimes", [8864]);
  (lit "\boxdot", [8865]);
  (lit "\vdash", [8866]);
  (lit "\dashv", [8867]);
  (lit "\top", [8868]);
  (lit "\perp", [8869]);
  (lit "\truestate", [8871]);
  (lit "\forcesextra", [8872]);
  (lit "\Vdash", [8873]);
  (lit "\Vvdash", [8874]);
  (lit "\VDash", [8875]);
  (lit "\nvdash", [8876]);
  (lit "\nvDash", [8877]);
  (lit "\nVdash", [8878]);
  (lit "\nVDash", [8879]);
  (lit "\vartriangleleft", [8882]);
  (lit "\vartriangleright", [8883]);
  (lit "\trianglelefteq", [8884]);
  (lit "\trianglerighteq", [8885]);
  (lit "\original", [8886]);
  (lit "\image", [8887]);
  (lit "\multimap", [8888]);
  (lit "\hermitconjmatrix", [8889]);
  (lit "\intercal", [8890]);
  (lit "\veebar", [8891]);
  (lit "\rightanglearc", [8894]);
  (lit "\bigwedge", [8896]);
  (lit "\bigvee", [8897]);
  (lit "\bigcap", [8898]);
  (lit "\bigcup", [8899]);
  (lit "\diamond", [8900]);
  (lit "\cdot", [8901]);
  (lit "\star", [8902]);
  (lit "\divideontimes", [8903]);
  (lit "\bowtie", [8904]);
  (lit "\ltimes", [8905]);
  (lit "\rtimes", [8906]);
  (lit "\leftthreetimes", [8907]);
  (lit "\rightthreetimes", [8908]);
  (lit "\backsimeq", [8909]);
  (lit "\curlyvee", [8910]);
  (lit "\curlywedge", [8911]);
  (lit "\Subset", [8912]);
  (lit "\Supset", [8913]);
  (lit "\Cap", [8914])].

Definition part3 : list (str * str) := [
  (lit "\Cup", [8915]);
  (lit "\pitchfork", [8916]);
  (lit "\lessdot", [8918]);
  (lit "\gtrdot", [8919]);
  (lit "\verymuchless", [8920]);
  (lit "\verymuchgreater", [8921]);
  (lit "\lesseqgtr", [8922]);
  (lit "\gtreqless", [8923]);
  (lit "\curlyeqprec", [8926]);
  (lit "\curlyeqsucc", [8927]);
  (lit "\not\sqsubseteq", [8930]);
  (lit "\not\sqsupseteq", [8931]);
  (lit "\lnsim", [8934]);
  (lit "\gnsim", [8935]);
  (lit "\precedesnotsimilar", [8936]);
  (lit "\succnsim", [8937]);
  (lit "\ntriangleleft", [8938]);
  (lit "\ntriangleright", [8939]);
  (lit "\ntrianglelefteq", [8940]);
  (lit "\ntrianglerighteq", [8941]);
  (lit "\vdots", [8942]);
  (lit "\cdots", [8943]);
  (lit "\udots", [8944]);
  (lit "\ddots", [8945]);
  (lit "\barwedge", [8965]);
  (lit "\varperspcorrespond", [8966]);
  (lit "\lceil", [8968]);
  (lit "\rceil", [8969]);
  (lit "\lfloor", [8970]);
  (lit "\rfloor", [8971]);
  (lit "\recorder", [8981]);
  (lit "\mathchar""2208", [8982]);
  (lit "\ulcorner", [8988]);
  (lit "\urcorner", [8989]);
  (lit "\llcorner", [8990]);
  (lit "\lrcorner", [8991]);
  (lit "\frown", [8994]);
  (lit "\smile", [8995]);
  (lit "\lmoustache", [9136]);
  (lit "\rmoustache", [9137]);
  (lit "\textlangle", [9001]);
  (lit "\textrangle", [9002]);
  (lit "\textblank", [9250]);
  (lit "\textvisiblespace", [9251]);
  (lit "\square", [9633]);
  (lit "{\small\ensuremath{\blacksquare}}", [9642]);
  (lit "\fbox{~~}", [9645]);
  (lit "\bigtriangleup", [9651]);
  (lit "\blacktriangle", [9652]);
  (lit "\vartriangle", [9653]);
  (lit "\blacktriangleright", [9656]);
  (lit "\triangleright", [9657]);
  (lit "\bigtriangledown", [9661]);
  (lit "\blacktriangledown", [9662]);
  (lit "\triangledown", [9663]);
  (lit "\blacktriangleleft", [9666]);
  (lit "\triangleleft", [9667]);
  (lit "\lozenge", [9674]);
  (lit "\bigcirc", [9675]);
  (lit "\textopenbullet", [9702]);
  (lit "\textbigcircle", [9711]);
  (lit "\textmusicalnote", [9834]);
  (lit "\quarternote", [9833]);
  (lit "\flat", [9837]);
  (lit "\natural", [9838]);
  (lit "\sharp", [9839]);
  (lit "\langle", [10216]);
  (lit "\rangle", [10217]);
  (lit "\longleftarrow", [10229]);
  (lit "\longrightarrow", [10230]);
  (lit "\longleftrightarrow", [10231]);
  (lit "\Longleftarrow", [10232]);
  (lit "\Longrightarrow", [10233]);
  (lit "\Longleftrightarrow", [10234]);
  (lit "\longmapsto", [10236]);
  (lit "\sim\joinrel\leadsto", [10239]);
  (lit "\blacklozenge", [10731]);
  (lit "\clockoint", [10767]);
  (lit "\sqrint", [10774]);
  (lit "\amalg", [10815]);
  (lit "\stackrel{*}{=}", [10862]);
  (lit "\leqslant", [10877]);
  (lit "\geqslant", [10878]);
  (lit "\lessapprox", [10885]);
  (lit "\gtrapprox", [10886]);
  (lit "\lneq", [10887]);
  (lit "\gneq", [10888]);
  (lit "\lnapprox", [10889]);
  (lit "\gnapprox", [10890]);
  (lit "\lesseqqgtr", [10891]);
  (lit "\gtreqqless", [10892]);
  (lit "\eqslantless", [10901]);
  (lit "\eqslantgtr", [10902]);
  (lit "\precneqq", [10933]);
  (lit "\succneqq", [10934]);
  (lit "\precapprox", [10935]);
  (lit "\succapprox", [10936]);
  (lit "\precnapprox", [10937]);
  (lit "\succnapprox", [10938]);
  (lit "\subseteqq", [10949]);
  (lit "\supseteqq", [10950]);
  (lit "\subsetneqq", [10955]);
  (lit "\supsetneqq", [10956]);
  (lit "{{/}\!\!{/}}", [11005]);
  (lit "\mathbf{A}", [119808]);
  (lit "\mathbf{B}", [119809]);
  (lit "\mathbf{C}", [119810]);
  (lit "\mathbf{D}", [119811]);
  (lit "\mathbf{E}", [119812]);
  (lit "\mathbf{F}", [119813]);
  (lit "\mathbf{G}", [119814]);
  (lit "\mathbf{H}", [119815]);
  (lit "\mathbf{I}", [119816]);
  (lit "\mathbf{J}", [119817]);
  (lit "\mathbf{K}", [119818]);
  (lit "\mathbf{L}", [119819]);
  (lit "\mathbf{M}", [119820]);
  (lit "\mathbf{N}", [119821]);
  (lit "\mathbf{O}", [119822]);
  (lit "\mathbf{P}", [119823]);
  (lit "\mathbf{Q}", [119824]);
  (lit "\mathbf{R}", [119825]);
  (lit "\mathbf{S}", [119826]);
  (lit "\mathbf{T}", [119827]);
  (lit "\mathbf{U}", [119828]);
  (lit "\mathbf{V}", [119829]);
  (lit "\mathbf{W}", [119830]);
  (lit "\mathbf{X}", [119831]);
  (lit "\mathbf{Y}", [119832]);
  (lit "\mathbf{Z}", [119833]);
  (lit "\mathbf{a}", [119834]);
  (lit "\mathbf{b}", [119835]);
  (lit "\mathbf{c}", [119836]);
  (lit "\mathbf{d}", [119837]);
  (lit "\mathbf{e}", [119838]);
  (lit "\mathbf{f}", [119839]);
  (lit "\mathbf{g}", [119840]);
  (lit "\mathbf{h}", [119841]);
  (lit "\mathbf{i}", [119842]);
  (lit "\mathbf{j}", [119843]);
  (lit "\mathbf{k}", [119844]);
  (lit "\mathbf{l}", [119845]);
  (lit "\mathbf{m}", [119846]);
  (lit "\mathbf{n}", [119847]);
  (lit "\mathbf{o}", [119848]);
  (lit "\mathbf{p}", [119849]);
  (lit "\mathbf{q}", [119850]);
  (lit "\mathbf{r}", [119851]);
  (lit "\mathbf{s}", [119852]);
  (lit "\mathbf{t}", [119853]);
  (lit "\mathbf{u}", [119854]);
  (lit "\mathbf{v}", [119855]);
  (lit "\mathbf{w}", [119856]);
  (lit "\mathbf{x}", [119857]);
  (lit "\mathbf{y}", [119858]);
  (lit "\mathbf{z}", [119859]);
  (lit "\mathit{A}", [119860]);
  (lit "\mathit{B}", [119861]);
  (lit "\mathit{C}", [119862]);
  (lit "\mathit{D}", [119863]);
  (lit "\mathit{E}", [119864]);
  (lit "\mathit{F}", [119865]);
  (lit "\mathit{G}", [119866]);
  (lit "\mathit{H}", [119867]);
  (lit "\mathit{I}", [119868]);
  (lit "\mathit{J}", [119869]);
  (lit "\mathit{K}", [119870]);
  (lit "\mathit{L}", [119871]);
  (lit "\mathit{M}", [119872]);
  (lit "\mathit{N}", [119873]);
  (lit "\mathit{O}", [119874]);
  (lit "\mathit{P}", [119875]);
  (lit "\mathit{Q}", [119876]);
  (lit "\mathit{R}", [119877]);
  (lit "\mathit{S}", [119878]);
  (lit "\mathit{T}", [119879]);
  (lit "\mathit{U}", [119880]);
  (lit "\mathit{V}", [119881]);
  (lit "\mathit{W}", [119882]);
  (lit "\mathit{X}", [119883]);
  (lit "\mathit{Y}", [119884]);
  (lit "\mathit{Z}", [119885]);
  (lit "\mathit{a}", [119886]);
  (lit "\mathit{b}", [119887]);
  (lit "\mathit{c}", [119888]);
  (lit "\mathit{d}", [119889]);
  (lit "\mathit{e}", [119890]);
  (lit "\mathit{f}", [119891]);
  (lit "\mathit{g}", [119892]);
  (lit "\mathit{h}", [119893]);
  (lit "\mathit{i}", [119894]);
  (lit "\mathit{j}", [119895]);
  (lit "\mathit{k}", [119896]);
  (lit "\mathit{l}", [119897]);
  (lit "\mathit{m}", [119898]);
  (lit "\mathit{n}", [119899]);
  (lit "\mathit{o}", [119900]);
  (lit "\mathit{p}", [119901]);
  (lit "\mathit{q}", [119902]);
  (lit "\mathit{r}", [119903]);
  (lit "\mathit{s}", [119904]);
  (lit "\mathit{t}", [119905]);
  (lit "\mathit{u}", [119906]);
  (lit "\mathit{v}", [119907]);
  (lit "\mathit{w}", [119908]);
  (lit "\mathit{x}", [119909]);
  (lit "\mathit{y}", [119910]);
  (lit "\mathit{z}", [119911]);
  (lit "\boldsymbol{\mathit{A}}", [119912]);
  (lit "\boldsymbol{\mathit{B}}", [119913]);
  (lit "\boldsymbol{\mathit{C}}", [119914]);
  (lit "\boldsymbol{\mathit{D}}", [119915]);
  (lit "\boldsymbol{\mathit{E}}", [119916]);
  (lit "\boldsymbol{\mathit{F}}", [119917]);
  (lit "\boldsymbol{\mathit{G}}", [119918]);
  (lit "\boldsymbol{\mathit{H}}", [119919]);
  (lit "\boldsymbol{\mathit{I}}", [119920]);
  (lit "\boldsymbol{\mathit{J}}", [119921]);
  (lit "\boldsymbol{\mathit{K}}", [119922]);
  (lit "\boldsymbol{\mathit{L}}", [119923]);
  (lit "\boldsymbol{\mathit{M}}", [119924]);
  (lit "\boldsymbol{\mathit{N}}", [119925]);
  (lit "\boldsymbol{\mathit{O}}", [119926]);
  (lit "\boldsymbol{\mathit{P}}", [119927]);
  (lit "\boldsymbol{\mathit{Q}}", [119928]);
  (lit "\boldsymbol{\mathit{R}}", [119929]);
  (lit "\boldsymbol{\mathit{S}}", [119930]);
  (lit "\boldsymbol{\mathit{T}}", [119931]);
  (lit "\boldsymbol{\mathit{U}}", [119932]);
  (lit "\boldsymbol{\mathit{V}}", [119933]);
  (lit "\boldsymbol{\mathit{W}}", [119934]);
  (lit "\boldsymbol{\mathit{X}}", [119935]);
  (lit "\boldsymbol{\mathit{Y}}", [119936]);
  (lit "\boldsymbol{\mathit{Z}}", [119937]);
  (lit "\boldsymbol{\mathit{a}}", [119938]);
  (lit "\boldsymbol{\mathit{b}}", [119939]);
  (lit "\boldsymbol{\mathit{c}}", [119940]);
  (lit "\boldsymbol{\mathit{d}}", [119941]);
  (lit "\boldsymbol{\mathit{e}}", [119942]);
  (lit "\boldsymbol{\mathit{f}}", [119943]);
  (lit "\boldsymbol{\mathit{g}}", [119944]);
  (lit "\boldsymbol{\mathit{h}}", [119945]);
  (lit "\boldsymbol{\mathit{i}}", [119946]);
  (lit "\boldsymbol{\mathit{j}}", [119947]);
  (lit "\boldsymbol{\mathit{k}}", [119948]);
  (lit "\boldsymbol{\mathit{l}}", [119949]);
  (lit "\boldsymbol{\mathit{m}}", [119950]);
  (lit "\boldsymbol{\mathit{n}}", [119951]);
  (lit "\boldsymbol{\mathit{o}}", [119952]);
  (lit "\boldsymbol{\mathit{p}}", [119953]);
  (lit "\boldsymbol{\mathit{q}}", [119954]);
  (lit "\boldsymbol{\mathit{r}}", [119955]);
  (lit "\boldsymbol{\mathit{s}}", [119956]);
  (lit "\boldsymbol{\mathit{t}}", [119957]);
  (lit "\boldsymbol{\mathit{u}}", [119958]);
  (lit "\boldsymbol{\mathit{v}}", [119959]);
  (lit "\boldsymbol{\mathit{w}}", [119960]);
  (lit "\boldsymbol{\mathit{x}}", [119961]);
  (lit "\boldsymbol{\mathit{y}}", [119962]);
  (lit "\boldsymbol{\mathit{z}}", [119963]);
  (lit "\mathscr{A}", [119964]);
  (lit "\mathscr{C}", [119966]);
  (lit "\mathscr{D}", [119967]);
  (lit "\mathscr{G}", [119970]);
  (lit "\mathscr{J}", [119973]);
  (lit "\mathscr{K}", [119974]);
  (lit "\mathscr{N}", [119977]);
  (lit "\mathscr{O}", [119978]);
  (lit "\mathscr{P}", [119979]);
  (lit "\mathscr{Q}", [119980]);
  (lit "\mathscr{S}", [119982]);
  (lit "\mathscr{T}", [119983]);
  (lit "\mathscr{U}", [119984]);
  (lit "\mathscr{V}", [119985]);
  (lit "\mathscr{W}", [119986]);
  (lit "\mathscr{X}", [119987]);
  (lit "\mathscr{Y}", [119988]);
  (lit "\mathscr{Z}", [119989]);
  (lit "\mathscr{a}", [119990]);
  (lit "\mathscr{b}", [119991]);
  (lit "\mathscr{c}", [119992]);
  (lit "\mathscr{d}", [119993]);
  (lit "\mathscr{f}", [119995]);
  (lit "\mathscr{h}", [119997]);
  (lit "\mathscr{i}", [119998]);
  (lit "\mathscr{j}", [119999]);
  (lit "\mathscr{k}", [120000]);
  (lit "\mathscr{l}", [120001]);
  (lit "\mathscr{m}", [120002]);
  (lit "\mathscr{n}", [120003]);
  (lit "\mathscr{p}", [120005]);
  (lit "\mathscr{q}", [120006]);
  (lit "\mathscr{r}", [120007]);
  (lit "\mathscr{s}", [120008]);
  (lit "\mathscr{t}", [120009]);
  (lit "\mathscr{u}", [120010]);
  (lit "\mathscr{v}", [120011]);
  (lit "\mathscr{w}", [120012]);
  (lit "\mathscr{x}", [120013]);
  (lit "\mathscr{y}", [120014])].

Definition part4 : list (str * str) := [
  (lit "\mathscr{z}", [120015]);
  (lit "\mathfrak{A}", [120068]);
  (lit "\mathfrak{B}", [120069]);
  (lit "\mathfrak{D}", [120071]);
  (lit "\mathfrak{E}", [120072]);
  (lit "\mathfrak{F}", [120073]);
  (lit "\mathfrak{G}", [120074]);
  (lit "\mathfrak{J}", [120077]);
  (lit "\mathfrak{K}", [120078]);
  (lit "\mathfrak{L}", [120079]);
  (lit "\mathfrak{M}", [120080]);
  (lit "\mathfrak{N}", [120081]);
  (lit "\mathfrak{O}", [120082]);
  (lit "\mathfrak{P}", [120083]);
  (lit "\mathfrak{Q}", [120084]);
  (lit "\mathfrak{S}", [120086]);
  (lit "\mathfrak{T}", [120087]);
  (lit "\mathfrak{U}", [120088]);
  (lit "\mathfrak{V}", [120089]);
  (lit "\mathfrak{W}", [120090]);
  (lit "\mathfrak{X}", [120091]);
  (lit "\mathfrak{Y}", [120092]);
  (lit "\mathfrak{a}", [120094]);
  (lit "\mathfrak{b}", [120095]);
  (lit "\mathfrak{c}", [120096]);
  (lit "\mathfrak{d}", [120097]);
  (lit "\mathfrak{e}", [120098]);
  (lit "\mathfrak{f}", [120099]);
  (lit "\mathfrak{g}", [120100]);
  (lit "\mathfrak{h}", [120101]);
  (lit "\mathfrak{i}", [120102]);
  (lit "\mathfrak{j}", [120103]);
  (lit "\mathfrak{k}", [120104]);
  (lit "\mathfrak{l}", [120105]);
  (lit "\mathfrak{m}", [120106]);
  (lit "\mathfrak{n}", [120107]);
  (lit "\mathfrak{o}", [120108]);
  (lit "\mathfrak{p}", [120109]);
  (lit "\mathfrak{q}", [120110]);
  (lit "\mathfrak{r}", [120111]);
  (lit "\mathfrak{s}", [120112]);
  (lit "\mathfrak{t}", [120113]);
  (lit "\mathfrak{u}", [120114]);
  (lit "\mathfrak{v}", [120115]);
  (lit "\mathfrak{w}", [120116]);
  (lit "\mathfrak{x}", [120117]);
  (lit "\mathfrak{y}", [120118]);
  (lit "\mathfrak{z}", [120119]);
  (lit "\mathbb{A}", [120120]);
  (lit "\mathbb{B}", [120121]);
  (lit "\mathbb{D}", [120123]);
  (lit "\mathbb{E}", [120124]);
  (lit "\mathbb{F}", [120125]);
  (lit "\mathbb{G}", [120126]);
  (lit "\mathbb{I}", [120128]);
  (lit "\mathbb{J}", [120129]);
  (lit "\mathbb{K}", [120130]);
  (lit "\mathbb{L}", [120131]);
  (lit "\mathbb{M}", [120132]);
  (lit "\mathbb{O}", [120134]);
  (lit "\mathbb{S}", [120138]);
  (lit "\mathbb{T}", [120139]);
  (lit "\mathbb{U}", [120140]);
  (lit "\mathbb{V}", [120141]);
  (lit "\mathbb{W}", [120142]);
  (lit "\mathbb{X}", [120143]);
  (lit "\mathbb{Y}", [120144]);
  (lit "\mathbb{a}", [120146]);
  (lit "\mathbb{b}", [120147]);
  (lit "\mathbb{c}", [120148]);
  (lit "\mathbb{d}", [120149]);
  (lit "\mathbb{e}", [120150]);
  (lit "\mathbb{f}", [120151]);
  (lit "\mathbb{g}", [120152]);
  (lit "\mathbb{h}", [120153]);
  (lit "\mathbb{i}", [120154]);
  (lit "\mathbb{j}", [120155]);
  (lit "\mathbb{k}", [120156]);
  (lit "\mathbb{l}", [120157]);
  (lit "\mathbb{m}", [120158]);
  (lit "\mathbb{n}", [120159]);
  (lit "\mathbb{o}", [120160]);
  (lit "\mathbb{p}", [120161]);
  (lit "\mathbb{q}", [120162]);
  (lit "\mathbb{r}", [120163]);
  (lit "\mathbb{s}", [120164]);
  (lit "\mathbb{t}", [120165]);
  (lit "\mathbb{u}", [120166]);
  (lit "\mathbb{v}", [120167]);
  (lit "\mathbb{w}", [120168]);
  (lit "\mathbb{x}", [120169]);
  (lit "\mathbb{y}", [120170]);
  (lit "\mathbb{z}", [120171]);
  (lit "\mathsf{A}", [120224]);
  (lit "\mathsf{B}", [120225]);
  (lit "\mathsf{C}", [120226]);
  (lit "\mathsf{D}", [120227]);
  (lit "\mathsf{E}", [120228]);
  (lit "\mathsf{F}", [120229]);
  (lit "\mathsf{G}", [120230]);
  (lit "\mathsf{H}", [120231]);
  (lit "\mathsf{I}", [120232]);
  (lit "\mathsf{J}", [120233]);
  (lit "\mathsf{K}", [120234]);
  (lit "\mathsf{L}", [120235]);
  (lit "\mathsf{M}", [120236]);
  (lit "\mathsf{N}", [120237]);
  (lit "\mathsf{O}", [120238]);
  (lit "\mathsf{P}", [120239]);
  (lit "\mathsf{Q}", [120240]);
  (lit "\mathsf{R}", [120241]);
  (lit "\mathsf{S}", [120242]);
  (lit "\mathsf{T}", [120243]);
  (lit "\mathsf{U}", [120244]);
  (lit "\mathsf{V}", [120245]);
  (lit "\mathsf{W}", [120246]);
  (lit "\mathsf{X}", [120247]);
  (lit "\mathsf{Y}", [120248]);
  (lit "\mathsf{Z}", [120249]);
  (lit "\mathsf{a}", [120250]);
  (lit "\mathsf{b}", [120251]);
  (lit "\mathsf{c}", [120252]);
  (lit "\mathsf{d}", [120253]);
  (lit "\mathsf{e}", [120254]);
  (lit "\mathsf{f}", [120255]);
  (lit "\mathsf{g}", [120256]);
  (lit "\mathsf{h}", [120257]);
  (lit "\mathsf{i}", [120258]);
  (lit "\mathsf{j}", [120259]);
  (lit "\mathsf{k}", [120260]);
  (lit "\mathsf{l}", [120261]);
  (lit "\mathsf{m}", [120262]);
  (lit "\mathsf{n}", [120263]);
  (lit "\mathsf{o}", [120264]);
  (lit "\mathsf{p}", [120265]);
  (lit "\mathsf{q}", [120266]);
  (lit "\mathsf{r}", [120267]);
  (lit "\mathsf{s}", [120268]);
  (lit "\mathsf{t}", [120269]);
  (lit "\mathsf{u}", [120270]);
  (lit "\mathsf{v}", [120271]);
  (lit "\mathsf{w}", [120272]);
  (lit "\mathsf{x}", [120273]);
  (lit "\mathsf{y}", [120274]);
  (lit "\mathsf{z}", [120275]);
  (lit "\mathtt{A}", [120432]);
  (lit "\mathtt{B}", [120433]);
  (lit "\mathtt{C}", [120434]);
  (lit "\mathtt{D}", [120435]);
  (lit "\mathtt{E}", [120436]);
  (lit "\mathtt{F}", [120437]);
  (lit "\mathtt{G}", [120438]);
  (lit "\mathtt{H}", [120439]);
  (lit "\mathtt{I}", [120440]);
  (lit "\mathtt{J}", [120441]);
  (lit "\mathtt{K}", [120442]);
  (lit "\mathtt{L}", [120443]);
  (lit "\mathtt{M}", [120444]);
  (lit "\mathtt{N}", [120445]);
  (lit "\mathtt{O}", [120446]);
  (lit "\mathtt{P}", [120447]);
  (lit "\mathtt{Q}", [120448]);
  (lit "\mathtt{R}", [120449]);
  (lit "\mathtt{S}", [120450]);
  (lit "\mathtt{T}", [120451]);
  (lit "\mathtt{U}", [120452]);
  (lit "\mathtt{V}", [120453]);
  (lit "\mathtt{W}", [120454]);
  (lit "\mathtt{X}", [120455]);
  (lit "\mathtt{Y}", [120456]);
  (lit "\mathtt{Z}", [120457]);
  (lit "\mathtt{a}", [120458]);
  (lit "\mathtt{b}", [120459]);
  (lit "\mathtt{c}", [120460]);
  (lit "\mathtt{d}", [120461]);
  (lit "\mathtt{e}", [120462]);
  (lit "\mathtt{f}", [120463]);
  (lit "\mathtt{g}", [120464]);
  (lit "\mathtt{h}", [120465]);
  (lit "\mathtt{i}", [120466]);
  (lit "\mathtt{j}", [120467]);
  (lit "\mathtt{k}", [120468]);
  (lit "\mathtt{l}", [120469]);
  (lit "\mathtt{m}", [120470]);
  (lit "\mathtt{n}", [120471]);
  (lit "\mathtt{o}", [120472]);
  (lit "\mathtt{p}", [120473]);
  (lit "\mathtt{q}", [120474]);
  (lit "\mathtt{r}", [120475]);
  (lit "\mathtt{s}", [120476]);
  (lit "\mathtt{t}", [120477]);
  (lit "\mathtt{u}", [120478]);
  (lit "\mathtt{v}", [120479]);
  (lit "\mathtt{w}", [120480]);
  (lit "\mathtt{x}", [120481]);
  (lit "\mathtt{y}", [120482]);
  (lit "\mathtt{z}", [120483]);
  (lit "\mathbf{0}", [120782]);
  (lit "\mathbf{1}", [120783]);
  (lit "\mathbf{2}", [120784]);
  (lit "\mathbf{3}", [120785]);
  (lit "\mathbf{4}", [120786]);
  (lit "\mathbf{5}", [120787]);
  (lit "\mathbf{6}", [120788]);
  (lit "\mathbf{7}", [120789]);
  (lit "\mathbf{8}", [120790]);
  (lit "\mathbf{9}", [120791]);
  (lit "\mathbb{0}", [120792]);
  (lit "\mathbb{1}", [120793]);
  (lit "\mathbb{2}", [120794]);
  (lit "\mathbb{3}", [120795]);
  (lit "\mathbb{4}", [120796]);
  (lit "\mathbb{5}", [120797]);
  (lit "\mathbb{6}", [120798]);
  (lit "\mathbb{7}", [120799]);
  (lit "\mathbb{8}", [120800]);
  (lit "\mathbb{9}", [120801]);
  (lit "\mathsf{0}", [120802]);
  (lit "\mathsf{1}", [120803]);
  (lit "\mathsf{2}", [120804]);
  (lit "\mathsf{3}", [120805]);
  (lit "\mathsf{4}", [120806]);
  (lit "\mathsf{5}", [120807]);
  (lit "\mathsf{6}", [120808]);
  (lit "\mathsf{7}", [120809]);
  (lit "\mathsf{8}", [120810]);
  (lit "\mathsf{9}", [120811]);
  (lit "\mathtt{0}", [120822]);
  (lit "\mathtt{1}", [120823]);
  (lit "\mathtt{2}", [120824]);
  (lit "\mathtt{3}", [120825]);
  (lit "\mathtt{4}", [120826]);
  (lit "\mathtt{5}", [120827]);
  (lit "\mathtt{6}", [120828]);
  (lit "\mathtt{7}", [120829]);
  (lit "\mathtt{8}", [120830]);
  (lit "\mathtt{9}", [120831]);
  (lit "\textdollar", [36]);
  (lit "\textquotesingle", [39]);
  (lit "\ast", [42]);
  (lit "\^{}", [94]);
  (lit "\textasciigrave", [96]);
  (lit "\lbrace", [123]);
  (lit "\vert", [124]);
  (lit "\rbrace", [125]);
  (lit "\lnot", [172]);
  (lit "\pm", [177]);
  (lit "{^2}", [178]);
  (lit "{^3}", [179]);
  (lit "\mathrm{\mu}", [181]);
  (lit "\c{}", [184]);
  (lit "{^1}", [185]);
  (lit "\`{A}", [192]);
  (lit "\'{A}", [193]);
  (lit "\^{A}", [194]);
  (lit "\~{A}", [195]);
  (lit "\""{A}", [196]);
  (lit "\AA", [197]);
  (lit "\`{E}", [200]);
  (lit "\'{E}", [201]);
  (lit "\^{E}", [202]);
  (lit "\""{E}", [203]);
  (lit "\`{I}", [204]);
  (lit "\'{I}", [205]);
  (lit "\^{I}", [206]);
  (lit "\""{I}", [207]);
  (lit "\~{N}", [209]);
  (lit "\`{O}", [210]);
  (lit "\'{O}", [211]);
  (lit "\^{O}", [212]);
  (lit "\~{O}", [213]);
  (lit "\""{O}", [214]);
  (lit "\`{U}", [217]);
  (lit "\^{U}", [219]);
  (lit "\""{U}", [220]);
  (lit "\'{Y}", [221]);
  (lit "\`{a}", [224]);
  (lit "\'{a}", [225]);
  (lit "\^{a}", [226]);
  (lit "\~{a}", [227]);
  (lit "\""{a}", [228]);
  (lit "\aa", [229]);
  (lit "\`{e}", [232]);
  (lit "\'{e}", [233]);
  (lit "\^{e}", [234]);
  (lit "\""{e}", [235]);
  (lit "\`{\i}", [236]);
  (lit "\'{\i}", [237]);
  (lit "\^{\i}", [238]);
  (lit "\""{\i}", [239]);
  (lit "\~{n}", [241]);
  (lit "\`{o}", [242]);
  (lit "\^{o}", [244]);
  (lit "\~{o}", [245]);
  (lit "\""{o}", [246]);
  (lit "\div", [247]);
  (lit "\`{u}", [249]);
  (lit "\^{u}", [251]);
  (lit "\""{u}", [252]);
  (lit "\'{y}", [253])].

Definition part5 : list (str * str) := [
  (lit "\""{y}", [255]);
  (lit "\'{C}", [262]);
  (lit "\'{c}", [263]);
  (lit "{\fontencoding{LELA}\selectfont\char40}", [294]);
  (lit "\~{\i}", [297]);
  (lit "\={\i}", [299]);
  (lit "\u{\i}", [301]);
  (lit "\.{I}", [304]);
  (lit "\^{\j}", [309]);
  (lit "{\fontencoding{LELA}\selectfont\char91}", [312]);
  (lit "\'{L}", [313]);
  (lit "\'{l}", [314]);
  (lit "{\fontencoding{LELA}\selectfont\char201}", [319]);
  (lit "{\fontencoding{LELA}\selectfont\char202}", [320]);
  (lit "\'{N}", [323]);
  (lit "\'{n}", [324]);
  (lit "\'{R}", [340]);
  (lit "\'{r}", [341]);
  (lit "\'{S}", [346]);
  (lit "\'{s}", [347]);
  (lit "{\fontencoding{LELA}\selectfont\char47}", [358]);
  (lit "{\fontencoding{LELA}\selectfont\char63}", [359]);
  (lit "\H{U}", [368]);
  (lit "\H{u}", [369]);
  (lit "\""{Y}", [376]);
  (lit "\'{Z}", [377]);
  (lit "\'{z}", [378]);
  (lit "\.{Z}", [379]);
  (lit "\.{z}", [380]);
  (lit "\eth", [426]);
  (lit "{\fontencoding{LELA}\selectfont\char195}", [442]);
  (lit "\textdoublepipe", [450]);
  (lit "{\fontencoding{LEIP}\selectfont\char61}", [600]);
  (lit "{\fontencoding{LEIP}\selectfont\char202}", [639]);
  (lit "\texttildelow", [732]);
  (lit "\H{}", [733]);
  (lit "\tone{55}", [741]);
  (lit "\tone{44}", [742]);
  (lit "\tone{33}", [743]);
  (lit "\tone{22}", [744]);
  (lit "\tone{11}", [745]);
  (lit "\`", [768]);
  (lit "\'", [769]);
  (lit "\^", [770]);
  (lit "\~", [771]);
  (lit "\=", [772]);
  (lit "\u", [774]);
  (lit "\.", [775]);
  (lit "\""", [776]);
  (lit "\r", [778]);
  (lit "\H", [779]);
  (lit "\v", [780]);
  (lit "\cyrchar\C", [783]);
  (lit "{\fontencoding{LECO}\selectfont\char177}", [785]);
  (lit "{\fontencoding{LECO}\selectfont\char184}", [792]);
  (lit "{\fontencoding{LECO}\selectfont\char185}", [793]);
  (lit "\c", [807]);
  (lit "\k", [808]);
  (lit "{\fontencoding{LECO}\selectfont\char203}", [811]);
  (lit "{\fontencoding{LECO}\selectfont\char207}", [815]);
  (lit "{\fontencoding{LECO}\selectfont\char215}", [823]);
  (lit "{\fontencoding{LECO}\selectfont\char216}", [824]);
  (lit "{\fontencoding{LECO}\selectfont\char218}", [826]);
  (lit "{\fontencoding{LECO}\selectfont\char219}", [827]);
  (lit "{\fontencoding{LECO}\selectfont\char220}", [828]);
  (lit "{\fontencoding{LECO}\selectfont\char221}", [829]);
  (lit "{\fontencoding{LECO}\selectfont\char225}", [865]);
  (lit "\'{H}", [905]);
  (lit "\'{}{I}", [906]);
  (lit "\mathrm{'Y}", [910]);
  (lit "\mathrm{'\Omega}", [911]);
  (lit "\Alpha", [913]);
  (lit "\Beta", [914]);
  (lit "\Epsilon", [917]);
  (lit "\Zeta", [918]);
  (lit "\Eta", [919]);
  (lit "\Iota", [921]);
  (lit "\Kappa", [922]);
  (lit "\Rho", [929]);
  (lit "\Tau", [932]);
  (lit "\Chi", [935]);
  (lit "\mathrm{\ddot{I}}", [938]);
  (lit "\mathrm{\ddot{Y}}", [939]);
  (lit "\'{$\alpha$}", [940]);
  (lit "\acute{\epsilon}", [941]);
  (lit "\acute{\eta}", [942]);
  (lit "\acute{\iota}", [943]);
  (lit "\texttheta", [952]);
  (lit "\ddot{\iota}", [970]);
  (lit "\acute{\upsilon}", [973]);
  (lit "\acute{\omega}", [974]);
  (lit "\Pisymbol{ppi022}{87}", [976]);
  (lit "\textvartheta", [977]);
  (lit "\Stigma", [986]);
  (lit "\Digamma", [988]);
  (lit "\digamma", [989]);
  (lit "\Koppa", [990]);
  (lit "\Sampi", [992]);
  (lit "\textTheta", [1012]);
  (lit "\cyrchar\CYRYO", [1025]);
  (lit "\cyrchar\CYRDJE", [1026]);
  (lit "\cyrchar{\'\CYRG}", [1027]);
  (lit "\cyrchar\CYRIE", [1028]);
  (lit "\cyrchar\CYRDZE", [1029]);
  (lit "\cyrchar\CYRII", [1030]);
  (lit "\cyrchar\CYRYI", [1031]);
  (lit "\cyrchar\CYRJE", [1032]);
  (lit "\cyrchar\CYRLJE", [1033]);
  (lit "\cyrchar\CYRNJE", [1034]);
  (lit "\cyrchar\CYRTSHE", [1035]);
  (lit "\cyrchar{\'\CYRK}", [1036]);
  (lit "\cyrchar\CYRUSHRT", [1038]);
  (lit "\cyrchar\CYRDZHE", [1039]);
  (lit "\cyrchar\CYRA", [1040]);
  (lit "\cyrchar\CYRB", [1041]);
  (lit "\cyrchar\CYRV", [1042]);
  (lit "\cyrchar\CYRG", [1043]);
  (lit "\cyrchar\CYRD", [1044]);
  (lit "\cyrchar\CYRE", [1045]);
  (lit "\cyrchar\CYRZH", [1046]);
  (lit "\cyrchar\CYRZ", [1047]);
  (lit "\cyrchar\CYRI", [1048]);
  (lit "\cyrchar\CYRISHRT", [1049]);
  (lit "\cyrchar\CYRK", [1050]);
  (lit "\cyrchar\CYRL", [1051]);
  (lit "\cyrchar\CYRM", [1052]);
  (lit "\cyrchar\CYRN", [1053]);
  (lit "\cyrchar\CYRO", [1054]);
  (lit "\cyrchar\CYRP", [1055]);
  (lit "\cyrchar\CYRR", [1056]);
  (lit "\cyrchar\CYRS", [1057]);
  (lit "\cyrchar\CYRT", [1058]);
  (lit "\cyrchar\CYRU", [1059]);
  (lit "\cyrchar\CYRF", [1060]);
  (lit "\cyrchar\CYRH", [1061]);
  (lit "\cyrchar\CYRC", [1062]);
  (lit "\cyrchar\CYRCH", [1063]);
  (lit "\cyrchar\CYRSH", [1064]);
  (lit "\cyrchar\CYRSHCH", [1065]);
  (lit "\cyrchar\CYRHRDSN", [1066]);
  (lit "\cyrchar\CYRERY", [1067]);
  (lit "\cyrchar\CYRSFTSN", [1068]);
  (lit "\cyrchar\CYREREV", [1069]);
  (lit "\cyrchar\CYRYU", [1070]);
  (lit "\cyrchar\CYRYA", [1071]);
  (lit "\cyrchar\cyra", [1072]);
  (lit "\cyrchar\cyrb", [1073]);
  (lit "\cyrchar\cyrv", [1074]);
  (lit "\cyrchar\cyrg", [1075]);
  (lit "\cyrchar\cyrd", [1076]);
  (lit "\cyrchar\cyre", [1077]);
  (lit "\cyrchar\cyrzh", [1078]);
  (lit "\cyrchar\cyrz", [1079]);
  (lit "\cyrchar\cyri", [1080]);
  (lit "\cyrchar\cyrishrt", [1081]);
  (lit "\cyrchar\cyrk", [1082]);
  (lit "\cyrchar\cyrl", [1083]);
  (lit "\cyrchar\cyrm", [1084]);
  (lit "\cyrchar\cyrn", [1085]);
  (lit "\cyrchar\cyro", [1086]);
  (lit "\cyrchar\cyrp", [1087]);
  (lit "\cyrchar\cyrr", [1088]);
  (lit "\cyrchar\cyrs", [1089]);
  (lit "\cyrchar\cyrt", [1090]);
  (lit "\cyrchar\cyru", [1091]);
  (lit "\cyrchar\cyrf", [1092]);
  (lit "\cyrchar\cyrh", [1093]);
  (lit "\cyrchar\cyrc", [1094]);
  (lit "\cyrchar\cyrch", [1095]);
  (lit "\cyrchar\cyrsh", [1096]);
  (lit "\cyrchar\cyrshch", [1097]);
  (lit "\cyrchar\cyrhrdsn", [1098]);
  (lit "\cyrchar\cyrery", [1099]);
  (lit "\cyrchar\cyrsftsn", [1100]);
  (lit "\cyrchar\cyrerev", [1101]);
  (lit "\cyrchar\cyryu", [1102]);
  (lit "\cyrchar\cyrya", [1103]);
  (lit "\cyrchar\cyryo", [1105]);
  (lit "\cyrchar\cyrdje", [1106]);
  (lit "\cyrchar{\'\cyrg}", [1107]);
  (lit "\cyrchar\cyrie", [1108]);
  (lit "\cyrchar\cyrdze", [1109]);
  (lit "\cyrchar\cyrii", [1110]);
  (lit "\cyrchar\cyryi", [1111]);
  (lit "\cyrchar\cyrje", [1112]);
  (lit "\cyrchar\cyrlje", [1113]);
  (lit "\cyrchar\cyrnje", [1114]);
  (lit "\cyrchar\cyrtshe", [1115]);
  (lit "\cyrchar{\'\cyrk}", [1116]);
  (lit "\cyrchar\cyrushrt", [1118]);
  (lit "\cyrchar\cyrdzhe", [1119]);
  (lit "\cyrchar\CYRYAT", [1122]);
  (lit "\cyrchar\CYRBYUS", [1130]);
  (lit "\cyrchar\CYRFITA", [1138]);
  (lit "\cyrchar\CYRIZH", [1140]);
  (lit "\cyrchar\CYRSEMISFTSN", [1164]);
  (lit "\cyrchar\cyrsemisftsn", [1165]);
  (lit "\cyrchar\CYRRTICK", [1166]);
  (lit "\cyrchar\cyrrtick", [1167]);
  (lit "\cyrchar\CYRGUP", [1168]);
  (lit "\cyrchar\cyrgup", [1169]);
  (lit "\cyrchar\CYRGHCRS", [1170]);
  (lit "\cyrchar\cyrghcrs", [1171]);
  (lit "\cyrchar\CYRGHK", [1172]);
  (lit "\cyrchar\cyrghk", [1173]);
  (lit "\cyrchar\CYRZHDSC", [1174]);
  (lit "\cyrchar\cyrzhdsc", [1175]);
  (lit "\cyrchar\CYRZDSC", [1176]);
  (lit "\cyrchar\cyrzdsc", [1177]);
  (lit "\cyrchar\CYRKDSC", [1178]);
  (lit "\cyrchar\cyrkdsc", [1179]);
  (lit "\cyrchar\CYRKVCRS", [1180]);
  (lit "\cyrchar\cyrkvcrs", [1181]);
  (lit "\cyrchar\CYRKHCRS", [1182]);
  (lit "\cyrchar\cyrkhcrs", [1183]);
  (lit "\cyrchar\CYRKBEAK", [1184]);
  (lit "\cyrchar\cyrkbeak", [1185]);
  (lit "\cyrchar\CYRNDSC", [1186]);
  (lit "\cyrchar\cyrndsc", [1187]);
  (lit "\cyrchar\CYRNG", [1188]);
  (lit "\cyrchar\cyrng", [1189]);
  (lit "\cyrchar\CYRPHK", [1190]);
  (lit "\cyrchar\cyrphk", [1191]);
  (lit "\cyrchar\CYRABHHA", [1192]);
  (lit "\cyrchar\cyrabhha", [1193]);
  (lit "\cyrchar\CYRSDSC", [1194]);
  (lit "\cyrchar\cyrsdsc", [1195]);
  (lit "\cyrchar\CYRTDSC", [1196]);
  (lit "\cyrchar\cyrtdsc", [1197]);
  (lit "\cyrchar\CYRY", [1198]);
  (lit "\cyrchar\cyry", [1199]);
  (lit "\cyrchar\CYRYHCRS", [1200]);
  (lit "\cyrchar\cyryhcrs", [1201]);
  (lit "\cyrchar\CYRHDSC", [1202]);
  (lit "\cyrchar\cyrhdsc", [1203]);
  (lit "\cyrchar\CYRTETSE", [1204]);
  (lit "\cyrchar\cyrtetse", [1205]);
  (lit "\cyrchar\CYRCHRDSC", [1206]);
  (lit "\cyrchar\cyrchrdsc", [1207]);
  (lit "\cyrchar\CYRCHVCRS", [1208]);
  (lit "\cyrchar\cyrchvcrs", [1209]);
  (lit "\cyrchar\CYRSHHA", [1210]);
  (lit "\cyrchar\cyrshha", [1211]);
  (lit "\cyrchar\CYRABHCH", [1212]);
  (lit "\cyrchar\cyrabhch", [1213]);
  (lit "\cyrchar\CYRABHCHDSC", [1214]);
  (lit "\cyrchar\cyrabhchdsc", [1215]);
  (lit "\cyrchar\CYRpalochka", [1216]);
  (lit "\cyrchar\CYRKHK", [1219]);
  (lit "\cyrchar\cyrkhk", [1220]);
  (lit "\cyrchar\CYRNHK", [1223]);
  (lit "\cyrchar\cyrnhk", [1224]);
  (lit "\cyrchar\CYRCHLDSC", [1227]);
  (lit "\cyrchar\cyrchldsc", [1228]);
  (lit "\cyrchar\CYRAE", [1236]);
  (lit "\cyrchar\cyrae", [1237]);
  (lit "\cyrchar\CYRSCHWA", [1240]);
  (lit "\cyrchar\cyrschwa", [1241]);
  (lit "\cyrchar\CYRABHDZE", [1248]);
  (lit "\cyrchar\cyrabhdze", [1249]);
  (lit "\cyrchar\CYROTLD", [1256]);
  (lit "\cyrchar\cyrotld", [1257]);
  (lit "\hspace{0.6em}", [8194]);
  (lit "\hspace{1em}", [8195]);
  (lit "\hspace{0.166em}", [8198]);
  (lit "\hphantom{0}", [8199]);
  (lit "\hphantom{,}", [8200]);
  (lit "\mkern1mu ", [8202]);
  (lit "\rule{1em}{1pt}", [8213]);
  (lit "\ldots", [8230]);
  (lit "{'}", [8242]);
  (lit "{''}", [8243]);
  (lit "{'''}", [8244]);
  (lit "\mkern4mu ", [8287]);
  (lit "\mbox{\texteuro} ", [8364]);
  (lit "\dddot", [8411]);
  (lit "\ddddot", [8412]);
  (lit "\mathscr{g}", [8458]);
  (lit "\hslash", [8463]);
  (lit "\cyrchar\textnumero", [8470]);
  (lit "\mho", [8487]);
  (lit "\mathscr{e}", [8495]);
  (lit "\mathscr{o}", [8500]);
  (lit "\leftarrow", [8592]);
  (lit "\uparrow", [8593]);
  (lit "\rightarrow", [8594]);
  (lit "\downarrow", [8595]);
  (lit "\not\in", [8713]);
  (lit "\setminus", [8726]);
  (lit "{_\ast}", [8727]);
  (lit "\surd", [8730]);
  (lit "\int\!\int", [8748]);
  (lit "\int\!\int\!\int", [8749]);
  (lit "\Colon", [8759]);
  (lit "\not =", [8800]);
  (lit "\not<", [8814]);
  (lit "\not>", [8815]);
  (lit "\not\leq", [8816]);
  (lit "\not\geq", [8817]);
  (lit "\lessequivlnt", [8818])].

Definition part6 : list (str * str) := [
  (lit "\greaterequivlnt", [8819]);
  (lit "\preccurlyeq", [8828]);
  (lit "\succcurlyeq", [8829]);
  (lit "\not\prec", [8832]);
  (lit "\not\succ", [8833]);
  (lit "\not\subseteq", [8840]);
  (lit "\not\supseteq", [8841]);
  (lit "\upslopeellipsis", [8944]);
  (lit "\downslopeellipsis", [8945]);
  (lit "\ding{172}", [9312]);
  (lit "\ding{173}", [9313]);
  (lit "\ding{174}", [9314]);
  (lit "\ding{175}", [9315]);
  (lit "\ding{176}", [9316]);
  (lit "\ding{177}", [9317]);
  (lit "\ding{178}", [9318]);
  (lit "\ding{179}", [9319]);
  (lit "\ding{180}", [9320]);
  (lit "\ding{181}", [9321]);
  (lit "\circledS", [9416]);
  (lit "\diagup", [9585]);
  (lit "\ding{110}", [9632]);
  (lit "\ding{115}", [9650]);
  (lit "\ding{116}", [9660]);
  (lit "\ding{117}", [9670]);
  (lit "\ding{108}", [9679]);
  (lit "\ding{119}", [9687]);
  (lit "\ding{72}", [9733]);
  (lit "\ding{73}", [9734]);
  (lit "\ding{37}", [9742]);
  (lit "\ding{42}", [9755]);
  (lit "\ding{43}", [9758]);
  (lit "\rightmoon", [9790]);
  (lit "\mercury", [9791]);
  (lit "\venus", [9792]);
  (lit "\male", [9794]);
  (lit "\jupiter", [9795]);
  (lit "\saturn", [9796]);
  (lit "\uranus", [9797]);
  (lit "\neptune", [9798]);
  (lit "\pluto", [9799]);
  (lit "\aries", [9800]);
  (lit "\taurus", [9801]);
  (lit "\gemini", [9802]);
  (lit "\cancer", [9803]);
  (lit "\leo", [9804]);
  (lit "\virgo", [9805]);
  (lit "\libra", [9806]);
  (lit "\scorpio", [9807]);
  (lit "\sagittarius", [9808]);
  (lit "\capricornus", [9809]);
  (lit "\aquarius", [9810]);
  (lit "\pisces", [9811]);
  (lit "\ding{171}", [9824]);
  (lit "\ding{168}", [9827]);
  (lit "\ding{170}", [9829]);
  (lit "\ding{169}", [9830]);
  (lit "\eighthnote", [9834]);
  (lit "\ding{33}", [9985]);
  (lit "\ding{34}", [9986]);
  (lit "\ding{35}", [9987]);
  (lit "\ding{36}", [9988]);
  (lit "\ding{38}", [9990]);
  (lit "\ding{39}", [9991]);
  (lit "\ding{40}", [9992]);
  (lit "\ding{41}", [9993]);
  (lit "\ding{44}", [9996]);
  (lit "\ding{45}", [9997]);
  (lit "\ding{46}", [9998]);
  (lit "\ding{47}", [9999]);
  (lit "\ding{48}", [10000]);
  (lit "\ding{49}", [10001]);
  (lit "\ding{50}", [10002]);
  (lit "\ding{51}", [10003]);
  (lit "\ding{52}", [10004]);
  (lit "\ding{53}", [10005]);
  (lit "\ding{54}", [10006]);
  (lit "\ding{55}", [10007]);
  (lit "\ding{56}", [10008]);
  (lit "\ding{57}", [10009]);
  (lit "\ding{58}", [10010]);
  (lit "\ding{59}", [10011]);
  (lit "\ding{60}", [10012]);
  (lit "\ding{61}", [10013]);
  (lit "\ding{62}", [10014]);
  (lit "\ding{63}", [10015]);
  (lit "\ding{64}", [10016]);
  (lit "\ding{65}", [10017]);
  (lit "\ding{66}", [10018]);
  (lit "\ding{67}", [10019]);
  (lit "\ding{68}", [10020]);
  (lit "\ding{69}", [10021]);
  (lit "\ding{70}", [10022]);
  (lit "\ding{71}", [10023]);
  (lit "\ding{74}", [10026]);
  (lit "\ding{75}", [10027]);
  (lit "\ding{76}", [10028]);
  (lit "\ding{77}", [10029]);
  (lit "\ding{78}", [10030]);
  (lit "\ding{79}", [10031]);
  (lit "\ding{80}", [10032]);
  (lit "\ding{81}", [10033]);
  (lit "\ding{82}", [10034]);
  (lit "\ding{83}", [10035]);
  (lit "\ding{84}", [10036]);
  (lit "\ding{85}", [10037]);
  (lit "\ding{86}", [10038]);
  (lit "\ding{87}", [10039]);
  (lit "\ding{88}", [10040]);
  (lit "\ding{89}", [10041]);
  (lit "\ding{90}", [10042]);
  (lit "\ding{91}", [10043]);
  (lit "\ding{92}", [10044]);
  (lit "\ding{93}", [10045]);
  (lit "\ding{94}", [10046]);
  (lit "\ding{95}", [10047]);
  (lit "\ding{96}", [10048]);
  (lit "\ding{97}", [10049]);
  (lit "\ding{98}", [10050]);
  (lit "\ding{99}", [10051]);
  (lit "\ding{100}", [10052]);
  (lit "\ding{101}", [10053]);
  (lit "\ding{102}", [10054]);
  (lit "\ding{103}", [10055]);
  (lit "\ding{104}", [10056]);
  (lit "\ding{105}", [10057]);
  (lit "\ding{106}", [10058]);
  (lit "\ding{107}", [10059]);
  (lit "\ding{109}", [10061]);
  (lit "\ding{111}", [10063]);
  (lit "\ding{112}", [10064]);
  (lit "\ding{113}", [10065]);
  (lit "\ding{114}", [10066]);
  (lit "\ding{118}", [10070]);
  (lit "\ding{120}", [10072]);
  (lit "\ding{121}", [10073]);
  (lit "\ding{122}", [10074]);
  (lit "\ding{123}", [10075]);
  (lit "\ding{124}", [10076]);
  (lit "\ding{125}", [10077]);
  (lit "\ding{126}", [10078]);
  (lit "\ding{161}", [10081]);
  (lit "\ding{162}", [10082]);
  (lit "\ding{163}", [10083]);
  (lit "\ding{164}", [10084]);
  (lit "\ding{165}", [10085]);
  (lit "\ding{166}", [10086]);
  (lit "\ding{167}", [10087]);
  (lit "\ding{182}", [10102]);
  (lit "\ding{183}", [10103]);
  (lit "\ding{184}", [10104]);
  (lit "\ding{185}", [10105]);
  (lit "\ding{186}", [10106]);
  (lit "\ding{187}", [10107]);
  (lit "\ding{188}", [10108]);
  (lit "\ding{189}", [10109]);
  (lit "\ding{190}", [10110]);
  (lit "\ding{191}", [10111]);
  (lit "\ding{192}", [10112]);
  (lit "\ding{193}", [10113]);
  (lit "\ding{194}", [10114]);
  (lit "\ding{195}", [10115]);
  (lit "\ding{196}", [10116]);
  (lit "\ding{197}", [10117]);
  (lit "\ding{198}", [10118]);
  (lit "\ding{199}", [10119]);
  (lit "\ding{200}", [10120]);
  (lit "\ding{201}", [10121]);
  (lit "\ding{202}", [10122]);
  (lit "\ding{203}", [10123]);
  (lit "\ding{204}", [10124]);
  (lit "\ding{205}", [10125]);
  (lit "\ding{206}", [10126]);
  (lit "\ding{207}", [10127]);
  (lit "\ding{208}", [10128]);
  (lit "\ding{209}", [10129]);
  (lit "\ding{210}", [10130]);
  (lit "\ding{211}", [10131]);
  (lit "\ding{212}", [10132]);
  (lit "\ding{216}", [10136]);
  (lit "\ding{217}", [10137]);
  (lit "\ding{218}", [10138]);
  (lit "\ding{219}", [10139]);
  (lit "\ding{220}", [10140]);
  (lit "\ding{221}", [10141]);
  (lit "\ding{222}", [10142]);
  (lit "\ding{223}", [10143]);
  (lit "\ding{224}", [10144]);
  (lit "\ding{225}", [10145]);
  (lit "\ding{226}", [10146]);
  (lit "\ding{227}", [10147]);
  (lit "\ding{228}", [10148]);
  (lit "\ding{229}", [10149]);
  (lit "\ding{230}", [10150]);
  (lit "\ding{231}", [10151]);
  (lit "\ding{232}", [10152]);
  (lit "\ding{233}", [10153]);
  (lit "\ding{234}", [10154]);
  (lit "\ding{235}", [10155]);
  (lit "\ding{236}", [10156]);
  (lit "\ding{237}", [10157]);
  (lit "\ding{238}", [10158]);
  (lit "\ding{239}", [10159]);
  (lit "\ding{241}", [10161]);
  (lit "\ding{242}", [10162]);
  (lit "\ding{243}", [10163]);
  (lit "\ding{244}", [10164]);
  (lit "\ding{245}", [10165]);
  (lit "\ding{246}", [10166]);
  (lit "\ding{247}", [10167]);
  (lit "\ding{248}", [10168]);
  (lit "\ding{249}", [10169]);
  (lit "\ding{250}", [10170]);
  (lit "\ding{251}", [10171]);
  (lit "\ding{252}", [10172]);
  (lit "\ding{253}", [10173]);
  (lit "\ding{254}", [10174]);
  (lit "\UpArrowBar", [10514]);
  (lit "\DownArrowBar", [10515]);
  (lit "\LeftRightVector", [10574]);
  (lit "\RightUpDownVector", [10575]);
  (lit "\DownLeftRightVector", [10576]);
  (lit "\LeftUpDownVector", [10577]);
  (lit "\LeftVectorBar", [10578]);
  (lit "\RightVectorBar", [10579]);
  (lit "\RightUpVectorBar", [10580]);
  (lit "\RightDownVectorBar", [10581]);
  (lit "\DownLeftVectorBar", [10582]);
  (lit "\DownRightVectorBar", [10583]);
  (lit "\LeftUpVectorBar", [10584]);
  (lit "\LeftDownVectorBar", [10585]);
  (lit "\LeftTeeVector", [10586]);
  (lit "\RightTeeVector", [10587]);
  (lit "\RightUpTeeVector", [10588]);
  (lit "\RightDownTeeVector", [10589]);
  (lit "\DownLeftTeeVector", [10590]);
  (lit "\DownRightTeeVector", [10591]);
  (lit "\LeftUpTeeVector", [10592]);
  (lit "\LeftDownTeeVector", [10593]);
  (lit "\UpEquilibrium", [10606]);
  (lit "\ReverseUpEquilibrium", [10607]);
  (lit "\RoundImplies", [10608]);
  (lit "\Angle", [10652]);
  (lit "\LeftTriangleBar", [10703]);
  (lit "\RightTriangleBar", [10704]);
  (lit "\RuleDelayed", [10740]);
  (lit "\perspcorrespond", [10846]);
  (lit "\Equal", [10869]);
  (lit "\Pisymbol{ppi020}{117}", [10909]);
  (lit "\Pisymbol{ppi020}{105}", [10910]);
  (lit "\NestedLessLess", [10913]);
  (lit "\NestedGreaterGreater", [10914]);
  (lit "\openbracketleft", [12314]);
  (lit "\openbracketright", [12315]);
  (lit "\mathmit{A}", [119860]);
  (lit "\mathmit{B}", [119861]);
  (lit "\mathmit{C}", [119862]);
  (lit "\mathmit{D}", [119863]);
  (lit "\mathmit{E}", [119864]);
  (lit "\mathmit{F}", [119865]);
  (lit "\mathmit{G}", [119866]);
  (lit "\mathmit{H}", [119867]);
  (lit "\mathmit{I}", [119868]);
  (lit "\mathmit{J}", [119869]);
  (lit "\mathmit{K}", [119870]);
  (lit "\mathmit{L}", [119871]);
  (lit "\mathmit{M}", [119872]);
  (lit "\mathmit{N}", [119873]);
  (lit "\mathmit{O}", [119874]);
  (lit "\mathmit{P}", [119875]);
  (lit "\mathmit{Q}", [119876]);
  (lit "\mathmit{R}", [119877]);
  (lit "\mathmit{S}", [119878]);
  (lit "\mathmit{T}", [119879]);
  (lit "\mathmit{U}", [119880]);
  (lit "\mathmit{V}", [119881]);
  (lit "\mathmit{W}", [119882]);
  (lit "\mathmit{X}", [119883]);
  (lit "\mathmit{Y}", [119884]);
  (lit "\mathmit{Z}", [119885]);
  (lit "\mathmit{a}", [119886]);
  (lit "\mathmit{b}", [119887]);
  (lit "\mathmit{c}", [119888]);
  (lit "\mathmit{d}", [119889]);
  (lit "\mathmit{e}", [119890]);
  (lit "\mathmit{f}", [119891]);
  (lit "\mathmit{g}", [119892]);
  (lit "\mathmit{i}", [119894]);
  (lit "\mathmit{j}", [119895]);
  (lit "\mathmit{k}", [119896]);
  (lit "\mathmit{l}", [119897]);
  (lit "\mathmit{m}", [119898]);
  (lit "\mathmit{n}", [119899]);
  (lit "\mathmit{o}", [119900]);
  (lit "\mathmit{p}", [119901]);
  (lit "\mathmit{q}", [119902]);
  (lit "\mathmit{r}", [119903]);
  (lit "\mathmit{s}", [119904]);
  (lit "\mathmit{t}", [119905]);
  (lit "\mathmit{u}", [119906])].

Definition part7 : list (str * str) := [
  (lit "\mathmit{v}", [119907]);
  (lit "\mathmit{w}", [119908]);
  (lit "\mathmit{x}", [119909]);
  (lit "\mathmit{y}", [119910]);
  (lit "\mathmit{z}", [119911]);
  (lit "\mathbit{A}", [119912]);
  (lit "\mathbit{B}", [119913]);
  (lit "\mathbit{C}", [119914]);
  (lit "\mathbit{D}", [119915]);
  (lit "\mathbit{E}", [119916]);
  (lit "\mathbit{F}", [119917]);
  (lit "\mathbit{G}", [119918]);
  (lit "\mathbit{H}", [119919]);
  (lit "\mathbit{I}", [119920]);
  (lit "\mathbit{J}", [119921]);
  (lit "\mathbit{K}", [119922]);
  (lit "\mathbit{L}", [119923]);
  (lit "\mathbit{M}", [119924]);
  (lit "\mathbit{N}", [119925]);
  (lit "\mathbit{O}", [119926]);
  (lit "\mathbit{P}", [119927]);
  (lit "\mathbit{Q}", [119928]);
  (lit "\mathbit{R}", [119929]);
  (lit "\mathbit{S}", [119930]);
  (lit "\mathbit{T}", [119931]);
  (lit "\mathbit{U}", [119932]);
  (lit "\mathbit{V}", [119933]);
  (lit "\mathbit{W}", [119934]);
  (lit "\mathbit{X}", [119935]);
  (lit "\mathbit{Y}", [119936]);
  (lit "\mathbit{Z}", [119937]);
  (lit "\mathbit{a}", [119938]);
  (lit "\mathbit{b}", [119939]);
  (lit "\mathbit{c}", [119940]);
  (lit "\mathbit{d}", [119941]);
  (lit "\mathbit{e}", [119942]);
  (lit "\mathbit{f}", [119943]);
  (lit "\mathbit{g}", [119944]);
  (lit "\mathbit{h}", [119945]);
  (lit "\mathbit{i}", [119946]);
  (lit "\mathbit{j}", [119947]);
  (lit "\mathbit{k}", [119948]);
  (lit "\mathbit{l}", [119949]);
  (lit "\mathbit{m}", [119950]);
  (lit "\mathbit{n}", [119951]);
  (lit "\mathbit{o}", [119952]);
  (lit "\mathbit{p}", [119953]);
  (lit "\mathbit{q}", [119954]);
  (lit "\mathbit{r}", [119955]);
  (lit "\mathbit{s}", [119956]);
  (lit "\mathbit{t}", [119957]);
  (lit "\mathbit{u}", [119958]);
  (lit "\mathbit{v}", [119959]);
  (lit "\mathbit{w}", [119960]);
  (lit "\mathbit{x}", [119961]);
  (lit "\mathbit{y}", [119962]);
  (lit "\mathbit{z}", [119963]);
  (lit "\mathbcal{A}", [120016]);
  (lit "\mathbcal{B}", [120017]);
  (lit "\mathbcal{C}", [120018]);
  (lit "\mathbcal{D}", [120019]);
  (lit "\mathbcal{E}", [120020]);
  (lit "\mathbcal{F}", [120021]);
  (lit "\mathbcal{G}", [120022]);
  (lit "\mathbcal{H}", [120023]);
  (lit "\mathbcal{I}", [120024]);
  (lit "\mathbcal{J}", [120025]);
  (lit "\mathbcal{K}", [120026]);
  (lit "\mathbcal{L}", [120027]);
  (lit "\mathbcal{M}", [120028]);
  (lit "\mathbcal{N}", [120029]);
  (lit "\mathbcal{O}", [120030]);
  (lit "\mathbcal{P}", [120031]);
  (lit "\mathbcal{Q}", [120032]);
  (lit "\mathbcal{R}", [120033]);
  (lit "\mathbcal{S}", [120034]);
  (lit "\mathbcal{T}", [120035]);
  (lit "\mathbcal{U}", [120036]);
  (lit "\mathbcal{V}", [120037]);
  (lit "\mathbcal{W}", [120038]);
  (lit "\mathbcal{X}", [120039]);
  (lit "\mathbcal{Y}", [120040]);
  (lit "\mathbcal{Z}", [120041]);
  (lit "\mathbcal{a}", [120042]);
  (lit "\mathbcal{b}", [120043]);
  (lit "\mathbcal{c}", [120044]);
  (lit "\mathbcal{d}", [120045]);
  (lit "\mathbcal{e}", [120046]);
  (lit "\mathbcal{f}", [120047]);
  (lit "\mathbcal{g}", [120048]);
  (lit "\mathbcal{h}", [120049]);
  (lit "\mathbcal{i}", [120050]);
  (lit "\mathbcal{j}", [120051]);
  (lit "\mathbcal{k}", [120052]);
  (lit "\mathbcal{l}", [120053]);
  (lit "\mathbcal{m}", [120054]);
  (lit "\mathbcal{n}", [120055]);
  (lit "\mathbcal{o}", [120056]);
  (lit "\mathbcal{p}", [120057]);
  (lit "\mathbcal{q}", [120058]);
  (lit "\mathbcal{r}", [120059]);
  (lit "\mathbcal{s}", [120060]);
  (lit "\mathbcal{t}", [120061]);
  (lit "\mathbcal{u}", [120062]);
  (lit "\mathbcal{v}", [120063]);
  (lit "\mathbcal{w}", [120064]);
  (lit "\mathbcal{x}", [120065]);
  (lit "\mathbcal{y}", [120066]);
  (lit "\mathbcal{z}", [120067]);
  (lit "\mathbfrak{A}", [120172]);
  (lit "\mathbfrak{B}", [120173]);
  (lit "\mathbfrak{C}", [120174]);
  (lit "\mathbfrak{D}", [120175]);
  (lit "\mathbfrak{E}", [120176]);
  (lit "\mathbfrak{F}", [120177]);
  (lit "\mathbfrak{G}", [120178]);
  (lit "\mathbfrak{H}", [120179]);
  (lit "\mathbfrak{I}", [120180]);
  (lit "\mathbfrak{J}", [120181]);
  (lit "\mathbfrak{K}", [120182]);
  (lit "\mathbfrak{L}", [120183]);
  (lit "\mathbfrak{M}", [120184]);
  (lit "\mathbfrak{N}", [120185]);
  (lit "\mathbfrak{O}", [120186]);
  (lit "\mathbfrak{P}", [120187]);
  (lit "\mathbfrak{Q}", [120188]);
  (lit "\mathbfrak{R}", [120189]);
  (lit "\mathbfrak{S}", [120190]);
  (lit "\mathbfrak{T}", [120191]);
  (lit "\mathbfrak{U}", [120192]);
  (lit "\mathbfrak{V}", [120193]);
  (lit "\mathbfrak{W}", [120194]);
  (lit "\mathbfrak{X}", [120195]);
  (lit "\mathbfrak{Y}", [120196]);
  (lit "\mathbfrak{Z}", [120197]);
  (lit "\mathbfrak{a}", [120198]);
  (lit "\mathbfrak{b}", [120199]);
  (lit "\mathbfrak{c}", [120200]);
  (lit "\mathbfrak{d}", [120201]);
  (lit "\mathbfrak{e}", [120202]);
  (lit "\mathbfrak{f}", [120203]);
  (lit "\mathbfrak{g}", [120204]);
  (lit "\mathbfrak{h}", [120205]);
  (lit "\mathbfrak{i}", [120206]);
  (lit "\mathbfrak{j}", [120207]);
  (lit "\mathbfrak{k}", [120208]);
  (lit "\mathbfrak{l}", [120209]);
  (lit "\mathbfrak{m}", [120210]);
  (lit "\mathbfrak{n}", [120211]);
  (lit "\mathbfrak{o}", [120212]);
  (lit "\mathbfrak{p}", [120213]);
  (lit "\mathbfrak{q}", [120214]);
  (lit "\mathbfrak{r}", [120215]);
  (lit "\mathbfrak{s}", [120216]);
  (lit "\mathbfrak{t}", [120217]);
  (lit "\mathbfrak{u}", [120218]);
  (lit "\mathbfrak{v}", [120219]);
  (lit "\mathbfrak{w}", [120220]);
  (lit "\mathbfrak{x}", [120221]);
  (lit "\mathbfrak{y}", [120222]);
  (lit "\mathbfrak{z}", [120223]);
  (lit "\mathsfbf{A}", [120276]);
  (lit "\mathsfbf{B}", [120277]);
  (lit "\mathsfbf{C}", [120278]);
  (lit "\mathsfbf{D}", [120279]);
  (lit "\mathsfbf{E}", [120280]);
  (lit "\mathsfbf{F}", [120281]);
  (lit "\mathsfbf{G}", [120282]);
  (lit "\mathsfbf{H}", [120283]);
  (lit "\mathsfbf{I}", [120284]);
  (lit "\mathsfbf{J}", [120285]);
  (lit "\mathsfbf{K}", [120286]);
  (lit "\mathsfbf{L}", [120287]);
  (lit "\mathsfbf{M}", [120288]);
  (lit "\mathsfbf{N}", [120289]);
  (lit "\mathsfbf{O}", [120290]);
  (lit "\mathsfbf{P}", [120291]);
  (lit "\mathsfbf{Q}", [120292]);
  (lit "\mathsfbf{R}", [120293]);
  (lit "\mathsfbf{S}", [120294]);
  (lit "\mathsfbf{T}", [120295]);
  (lit "\mathsfbf{U}", [120296]);
  (lit "\mathsfbf{V}", [120297]);
  (lit "\mathsfbf{W}", [120298]);
  (lit "\mathsfbf{X}", [120299]);
  (lit "\mathsfbf{Y}", [120300]);
  (lit "\mathsfbf{Z}", [120301]);
  (lit "\mathsfbf{a}", [120302]);
  (lit "\mathsfbf{b}", [120303]);
  (lit "\mathsfbf{c}", [120304]);
  (lit "\mathsfbf{d}", [120305]);
  (lit "\mathsfbf{e}", [120306]);
  (lit "\mathsfbf{f}", [120307]);
  (lit "\mathsfbf{g}", [120308]);
  (lit "\mathsfbf{h}", [120309]);
  (lit "\mathsfbf{i}", [120310]);
  (lit "\mathsfbf{j}", [120311]);
  (lit "\mathsfbf{k}", [120312]);
  (lit "\mathsfbf{l}", [120313]);
  (lit "\mathsfbf{m}", [120314]);
  (lit "\mathsfbf{n}", [120315]);
  (lit "\mathsfbf{o}", [120316]);
  (lit "\mathsfbf{p}", [120317]);
  (lit "\mathsfbf{q}", [120318]);
  (lit "\mathsfbf{r}", [120319]);
  (lit "\mathsfbf{s}", [120320]);
  (lit "\mathsfbf{t}", [120321]);
  (lit "\mathsfbf{u}", [120322]);
  (lit "\mathsfbf{v}", [120323]);
  (lit "\mathsfbf{w}", [120324]);
  (lit "\mathsfbf{x}", [120325]);
  (lit "\mathsfbf{y}", [120326]);
  (lit "\mathsfbf{z}", [120327]);
  (lit "\mathsfsl{A}", [120328]);
  (lit "\mathsfsl{B}", [120329]);
  (lit "\mathsfsl{C}", [120330]);
  (lit "\mathsfsl{D}", [120331]);
  (lit "\mathsfsl{E}", [120332]);
  (lit "\mathsfsl{F}", [120333]);
  (lit "\mathsfsl{G}", [120334]);
  (lit "\mathsfsl{H}", [120335]);
  (lit "\mathsfsl{I}", [120336]);
  (lit "\mathsfsl{J}", [120337]);
  (lit "\mathsfsl{K}", [120338]);
  (lit "\mathsfsl{L}", [120339]);
  (lit "\mathsfsl{M}", [120340]);
  (lit "\mathsfsl{N}", [120341]);
  (lit "\mathsfsl{O}", [120342]);
  (lit "\mathsfsl{P}", [120343]);
  (lit "\mathsfsl{Q}", [120344]);
  (lit "\mathsfsl{R}", [120345]);
  (lit "\mathsfsl{S}", [120346]);
  (lit "\mathsfsl{T}", [120347]);
  (lit "\mathsfsl{U}", [120348]);
  (lit "\mathsfsl{V}", [120349]);
  (lit "\mathsfsl{W}", [120350]);
  (lit "\mathsfsl{X}", [120351]);
  (lit "\mathsfsl{Y}", [120352]);
  (lit "\mathsfsl{Z}", [120353]);
  (lit "\mathsfsl{a}", [120354]);
  (lit "\mathsfsl{b}", [120355]);
  (lit "\mathsfsl{c}", [120356]);
  (lit "\mathsfsl{d}", [120357]);
  (lit "\mathsfsl{e}", [120358]);
  (lit "\mathsfsl{f}", [120359]);
  (lit "\mathsfsl{g}", [120360]);
  (lit "\mathsfsl{h}", [120361]);
  (lit "\mathsfsl{i}", [120362]);
  (lit "\mathsfsl{j}", [120363]);
  (lit "\mathsfsl{k}", [120364]);
  (lit "\mathsfsl{l}", [120365]);
  (lit "\mathsfsl{m}", [120366]);
  (lit "\mathsfsl{n}", [120367]);
  (lit "\mathsfsl{o}", [120368]);
  (lit "\mathsfsl{p}", [120369]);
  (lit "\mathsfsl{q}", [120370]);
  (lit "\mathsfsl{r}", [120371]);
  (lit "\mathsfsl{s}", [120372]);
  (lit "\mathsfsl{t}", [120373]);
  (lit "\mathsfsl{u}", [120374]);
  (lit "\mathsfsl{v}", [120375]);
  (lit "\mathsfsl{w}", [120376]);
  (lit "\mathsfsl{x}", [120377]);
  (lit "\mathsfsl{y}", [120378]);
  (lit "\mathsfsl{z}", [120379]);
  (lit "\mathsfbfsl{A}", [120380]);
  (lit "\mathsfbfsl{B}", [120381]);
  (lit "\mathsfbfsl{C}", [120382]);
  (lit "\mathsfbfsl{D}", [120383]);
  (lit "\mathsfbfsl{E}", [120384]);
  (lit "\mathsfbfsl{F}", [120385]);
  (lit "\mathsfbfsl{G}", [120386]);
  (lit "\mathsfbfsl{H}", [120387]);
  (lit "\mathsfbfsl{I}", [120388]);
  (lit "\mathsfbfsl{J}", [120389]);
  (lit "\mathsfbfsl{K}", [120390]);
  (lit "\mathsfbfsl{L}", [120391]);
  (lit "\mathsfbfsl{M}", [120392]);
  (lit "\mathsfbfsl{N}", [120393]);
  (lit "\mathsfbfsl{O}", [120394]);
  (lit "\mathsfbfsl{P}", [120395]);
  (lit "\mathsfbfsl{Q}", [120396]);
  (lit "\mathsfbfsl{R}", [120397]);
  (lit "\mathsfbfsl{S}", [120398]);
  (lit "\mathsfbfsl{T}", [120399]);
  (lit "\mathsfbfsl{U}", [120400]);
  (lit "\mathsfbfsl{V}", [120401]);
  (lit "\mathsfbfsl{W}", [120402]);
  (lit "\mathsfbfsl{X}", [120403]);
  (lit "\mathsfbfsl{Y}", [120404]);
  (lit "\mathsfbfsl{Z}", [120405]);
  (lit "\mathsfbfsl{a}", [120406]);
  (lit "\mathsfbfsl{b}", [120407]);
  (lit "\mathsfbfsl{c}", [120408]);
  (lit "\mathsfbfsl{d}", [120409]);
  (lit "\mathsfbfsl{e}", [120410]);
  (lit "\mathsfbfsl{f}", [120411]);
  (lit "\mathsfbfsl{g}", [120412]);
  (lit "\mathsfbfsl{h}", [120413]);
  (lit "\mathsfbfsl{i}", [120414])].

Definition part8 : list (str * str) := [
  (lit "\mathsfbfsl{j}", [120415]);
  (lit "\mathsfbfsl{k}", [120416]);
  (lit "\mathsfbfsl{l}", [120417]);
  (lit "\mathsfbfsl{m}", [120418]);
  (lit "\mathsfbfsl{n}", [120419]);
  (lit "\mathsfbfsl{o}", [120420]);
  (lit "\mathsfbfsl{p}", [120421]);
  (lit "\mathsfbfsl{q}", [120422]);
  (lit "\mathsfbfsl{r}", [120423]);
  (lit "\mathsfbfsl{s}", [120424]);
  (lit "\mathsfbfsl{t}", [120425]);
  (lit "\mathsfbfsl{u}", [120426]);
  (lit "\mathsfbfsl{v}", [120427]);
  (lit "\mathsfbfsl{w}", [120428]);
  (lit "\mathsfbfsl{x}", [120429]);
  (lit "\mathsfbfsl{y}", [120430]);
  (lit "\mathsfbfsl{z}", [120431]);
  (lit "\mathbf{\Alpha}", [120488]);
  (lit "\mathbf{\Beta}", [120489]);
  (lit "\mathbf{\Gamma}", [120490]);
  (lit "\mathbf{\Delta}", [120491]);
  (lit "\mathbf{\Epsilon}", [120492]);
  (lit "\mathbf{\Zeta}", [120493]);
  (lit "\mathbf{\Eta}", [120494]);
  (lit "\mathbf{\Theta}", [120495]);
  (lit "\mathbf{\Iota}", [120496]);
  (lit "\mathbf{\Kappa}", [120497]);
  (lit "\mathbf{\Lambda}", [120498]);
  (lit "\mathbf{\Xi}", [120501]);
  (lit "\mathbf{\Pi}", [120503]);
  (lit "\mathbf{\Rho}", [120504]);
  (lit "\mathbf{\vartheta}", [120505]);
  (lit "\mathbf{\Sigma}", [120506]);
  (lit "\mathbf{\Tau}", [120507]);
  (lit "\mathbf{\Upsilon}", [120508]);
  (lit "\mathbf{\Phi}", [120509]);
  (lit "\mathbf{\Chi}", [120510]);
  (lit "\mathbf{\Psi}", [120511]);
  (lit "\mathbf{\Omega}", [120512]);
  (lit "\mathbf{\nabla}", [120513]);
  (lit "\mathbf{\alpha}", [120514]);
  (lit "\mathbf{\beta}", [120515]);
  (lit "\mathbf{\gamma}", [120516]);
  (lit "\mathbf{\delta}", [120517]);
  (lit "\mathbf{\epsilon}", [120518]);
  (lit "\mathbf{\zeta}", [120519]);
  (lit "\mathbf{\eta}", [120520]);
  (lit "\mathbf{\theta}", [120521]);
  (lit "\mathbf{\iota}", [120522]);
  (lit "\mathbf{\kappa}", [120523]);
  (lit "\mathbf{\lambda}", [120524]);
  (lit "\mathbf{\mu}", [120525]);
  (lit "\mathbf{\nu}", [120526]);
  (lit "\mathbf{\xi}", [120527]);
  (lit "\mathbf{\pi}", [120529]);
  (lit "\mathbf{\rho}", [120530]);
  (lit "\mathbf{\varsigma}", [120531]);
  (lit "\mathbf{\sigma}", [120532]);
  (lit "\mathbf{\tau}", [120533]);
  (lit "\mathbf{\upsilon}", [120534]);
  (lit "\mathbf{\phi}", [120535]);
  (lit "\mathbf{\chi}", [120536]);
  (lit "\mathbf{\psi}", [120537]);
  (lit "\mathbf{\omega}", [120538]);
  (lit "\mathbf{\varepsilon}", [120540]);
  (lit "\mathbf{\varkappa}", [120542]);
  (lit "\mathbf{\varrho}", [120544]);
  (lit "\mathbf{\varpi}", [120545]);
  (lit "\mathmit{\Alpha}", [120546]);
  (lit "\mathmit{\Beta}", [120547]);
  (lit "\mathmit{\Gamma}", [120548]);
  (lit "\mathmit{\Delta}", [120549]);
  (lit "\mathmit{\Epsilon}", [120550]);
  (lit "\mathmit{\Zeta}", [120551]);
  (lit "\mathmit{\Eta}", [120552]);
  (lit "\mathmit{\Theta}", [120553]);
  (lit "\mathmit{\Iota}", [120554]);
  (lit "\mathmit{\Kappa}", [120555]);
  (lit "\mathmit{\Lambda}", [120556]);
  (lit "\mathmit{\Xi}", [120559]);
  (lit "\mathmit{\Pi}", [120561]);
  (lit "\mathmit{\Rho}", [120562]);
  (lit "\mathmit{\vartheta}", [120563]);
  (lit "\mathmit{\Sigma}", [120564]);
  (lit "\mathmit{\Tau}", [120565]);
  (lit "\mathmit{\Upsilon}", [120566]);
  (lit "\mathmit{\Phi}", [120567]);
  (lit "\mathmit{\Chi}", [120568]);
  (lit "\mathmit{\Psi}", [120569]);
  (lit "\mathmit{\Omega}", [120570]);
  (lit "\mathmit{\nabla}", [120571]);
  (lit "\mathmit{\alpha}", [120572]);
  (lit "\mathmit{\beta}", [120573]);
  (lit "\mathmit{\gamma}", [120574]);
  (lit "\mathmit{\delta}", [120575]);
  (lit "\mathmit{\epsilon}", [120576]);
  (lit "\mathmit{\zeta}", [120577]);
  (lit "\mathmit{\eta}", [120578]);
  (lit "\mathmit{\theta}", [120579]);
  (lit "\mathmit{\iota}", [120580]);
  (lit "\mathmit{\kappa}", [120581]);
  (lit "\mathmit{\lambda}", [120582]);
  (lit "\mathmit{\mu}", [120583]);
  (lit "\mathmit{\nu}", [120584]);
  (lit "\mathmit{\xi}", [120585]);
  (lit "\mathmit{\pi}", [120587]);
  (lit "\mathmit{\rho}", [120588]);
  (lit "\mathmit{\varsigma}", [120589]);
  (lit "\mathmit{\sigma}", [120590]);
  (lit "\mathmit{\tau}", [120591]);
  (lit "\mathmit{\upsilon}", [120592]);
  (lit "\mathmit{\phi}", [120593]);
  (lit "\mathmit{\chi}", [120594]);
  (lit "\mathmit{\psi}", [120595]);
  (lit "\mathmit{\omega}", [120596]);
  (lit "\mathmit{\varkappa}", [120600]);
  (lit "\mathmit{\varrho}", [120602]);
  (lit "\mathmit{\varpi}", [120603]);
  (lit "\mathbit{\Alpha}", [120604]);
  (lit "\mathbit{\Beta}", [120605]);
  (lit "\mathbit{\Gamma}", [120606]);
  (lit "\mathbit{\Delta}", [120607]);
  (lit "\mathbit{\Epsilon}", [120608]);
  (lit "\mathbit{\Zeta}", [120609]);
  (lit "\mathbit{\Eta}", [120610]);
  (lit "\mathbit{\Theta}", [120611]);
  (lit "\mathbit{\Iota}", [120612]);
  (lit "\mathbit{\Kappa}", [120613]);
  (lit "\mathbit{\Lambda}", [120614]);
  (lit "\mathbit{\Xi}", [120617]);
  (lit "\mathbit{\Pi}", [120619]);
  (lit "\mathbit{\Rho}", [120620]);
  (lit "\mathbit{\Sigma}", [120622]);
  (lit "\mathbit{\Tau}", [120623]);
  (lit "\mathbit{\Upsilon}", [120624]);
  (lit "\mathbit{\Phi}", [120625]);
  (lit "\mathbit{\Chi}", [120626]);
  (lit "\mathbit{\Psi}", [120627]);
  (lit "\mathbit{\Omega}", [120628]);
  (lit "\mathbit{\nabla}", [120629]);
  (lit "\mathbit{\alpha}", [120630]);
  (lit "\mathbit{\beta}", [120631]);
  (lit "\mathbit{\gamma}", [120632]);
  (lit "\mathbit{\delta}", [120633]);
  (lit "\mathbit{\epsilon}", [120634]);
  (lit "\mathbit{\zeta}", [120635]);
  (lit "\mathbit{\eta}", [120636]);
  (lit "\mathbit{\theta}", [120637]);
  (lit "\mathbit{\iota}", [120638]);
  (lit "\mathbit{\kappa}", [120639]);
  (lit "\mathbit{\lambda}", [120640]);
  (lit "\mathbit{\mu}", [120641]);
  (lit "\mathbit{\nu}", [120642]);
  (lit "\mathbit{\xi}", [120643]);
  (lit "\mathbit{\pi}", [120645]);
  (lit "\mathbit{\rho}", [120646]);
  (lit "\mathbit{\varsigma}", [120647]);
  (lit "\mathbit{\sigma}", [120648]);
  (lit "\mathbit{\tau}", [120649]);
  (lit "\mathbit{\upsilon}", [120650]);
  (lit "\mathbit{\phi}", [120651]);
  (lit "\mathbit{\chi}", [120652]);
  (lit "\mathbit{\psi}", [120653]);
  (lit "\mathbit{\omega}", [120654]);
  (lit "\mathbit{\vartheta}", [120657]);
  (lit "\mathbit{\varkappa}", [120658]);
  (lit "\mathbit{\varrho}", [120660]);
  (lit "\mathbit{\varpi}", [120661]);
  (lit "\mathsfbf{\Alpha}", [120662]);
  (lit "\mathsfbf{\Beta}", [120663]);
  (lit "\mathsfbf{\Gamma}", [120664]);
  (lit "\mathsfbf{\Delta}", [120665]);
  (lit "\mathsfbf{\Epsilon}", [120666]);
  (lit "\mathsfbf{\Zeta}", [120667]);
  (lit "\mathsfbf{\Eta}", [120668]);
  (lit "\mathsfbf{\Theta}", [120669]);
  (lit "\mathsfbf{\Iota}", [120670]);
  (lit "\mathsfbf{\Kappa}", [120671]);
  (lit "\mathsfbf{\Lambda}", [120672]);
  (lit "\mathsfbf{\Xi}", [120675]);
  (lit "\mathsfbf{\Pi}", [120677]);
  (lit "\mathsfbf{\Rho}", [120678]);
  (lit "\mathsfbf{\vartheta}", [120679]);
  (lit "\mathsfbf{\Sigma}", [120680]);
  (lit "\mathsfbf{\Tau}", [120681]);
  (lit "\mathsfbf{\Upsilon}", [120682]);
  (lit "\mathsfbf{\Phi}", [120683]);
  (lit "\mathsfbf{\Chi}", [120684]);
  (lit "\mathsfbf{\Psi}", [120685]);
  (lit "\mathsfbf{\Omega}", [120686]);
  (lit "\mathsfbf{\nabla}", [120687]);
  (lit "\mathsfbf{\alpha}", [120688]);
  (lit "\mathsfbf{\beta}", [120689]);
  (lit "\mathsfbf{\gamma}", [120690]);
  (lit "\mathsfbf{\delta}", [120691]);
  (lit "\mathsfbf{\epsilon}", [120692]);
  (lit "\mathsfbf{\zeta}", [120693]);
  (lit "\mathsfbf{\eta}", [120694]);
  (lit "\mathsfbf{\theta}", [120695]);
  (lit "\mathsfbf{\iota}", [120696]);
  (lit "\mathsfbf{\kappa}", [120697]);
  (lit "\mathsfbf{\lambda}", [120698]);
  (lit "\mathsfbf{\mu}", [120699]);
  (lit "\mathsfbf{\nu}", [120700]);
  (lit "\mathsfbf{\xi}", [120701]);
  (lit "\mathsfbf{\pi}", [120703]);
  (lit "\mathsfbf{\rho}", [120704]);
  (lit "\mathsfbf{\varsigma}", [120705]);
  (lit "\mathsfbf{\sigma}", [120706]);
  (lit "\mathsfbf{\tau}", [120707]);
  (lit "\mathsfbf{\upsilon}", [120708]);
  (lit "\mathsfbf{\phi}", [120709]);
  (lit "\mathsfbf{\chi}", [120710]);
  (lit "\mathsfbf{\psi}", [120711]);
  (lit "\mathsfbf{\omega}", [120712]);
  (lit "\mathsfbf{\varepsilon}", [120714]);
  (lit "\mathsfbf{\varkappa}", [120716]);
  (lit "\mathsfbf{\varrho}", [120718]);
  (lit "\mathsfbf{\varpi}", [120719]);
  (lit "\mathsfbfsl{\Alpha}", [120720]);
  (lit "\mathsfbfsl{\Beta}", [120721]);
  (lit "\mathsfbfsl{\Gamma}", [120722]);
  (lit "\mathsfbfsl{\Delta}", [120723]);
  (lit "\mathsfbfsl{\Epsilon}", [120724]);
  (lit "\mathsfbfsl{\Zeta}", [120725]);
  (lit "\mathsfbfsl{\Eta}", [120726]);
  (lit "\mathsfbfsl{\vartheta}", [120727]);
  (lit "\mathsfbfsl{\Iota}", [120728]);
  (lit "\mathsfbfsl{\Kappa}", [120729]);
  (lit "\mathsfbfsl{\Lambda}", [120730]);
  (lit "\mathsfbfsl{\Xi}", [120733]);
  (lit "\mathsfbfsl{\Pi}", [120735]);
  (lit "\mathsfbfsl{\Rho}", [120736]);
  (lit "\mathsfbfsl{\Sigma}", [120738]);
  (lit "\mathsfbfsl{\Tau}", [120739]);
  (lit "\mathsfbfsl{\Upsilon}", [120740]);
  (lit "\mathsfbfsl{\Phi}", [120741]);
  (lit "\mathsfbfsl{\Chi}", [120742]);
  (lit "\mathsfbfsl{\Psi}", [120743]);
  (lit "\mathsfbfsl{\Omega}", [120744]);
  (lit "\mathsfbfsl{\nabla}", [120745]);
  (lit "\mathsfbfsl{\alpha}", [120746]);
  (lit "\mathsfbfsl{\beta}", [120747]);
  (lit "\mathsfbfsl{\gamma}", [120748]);
  (lit "\mathsfbfsl{\delta}", [120749]);
  (lit "\mathsfbfsl{\epsilon}", [120750]);
  (lit "\mathsfbfsl{\zeta}", [120751]);
  (lit "\mathsfbfsl{\eta}", [120752]);
  (lit "\mathsfbfsl{\iota}", [120754]);
  (lit "\mathsfbfsl{\kappa}", [120755]);
  (lit "\mathsfbfsl{\lambda}", [120756]);
  (lit "\mathsfbfsl{\mu}", [120757]);
  (lit "\mathsfbfsl{\nu}", [120758]);
  (lit "\mathsfbfsl{\xi}", [120759]);
  (lit "\mathsfbfsl{\pi}", [120761]);
  (lit "\mathsfbfsl{\rho}", [120762]);
  (lit "\mathsfbfsl{\varsigma}", [120763]);
  (lit "\mathsfbfsl{\sigma}", [120764]);
  (lit "\mathsfbfsl{\tau}", [120765]);
  (lit "\mathsfbfsl{\upsilon}", [120766]);
  (lit "\mathsfbfsl{\phi}", [120767]);
  (lit "\mathsfbfsl{\chi}", [120768]);
  (lit "\mathsfbfsl{\psi}", [120769]);
  (lit "\mathsfbfsl{\omega}", [120770]);
  (lit "\mathsfbfsl{\varkappa}", [120774]);
  (lit "\mathsfbfsl{\varrho}", [120776]);
  (lit "\mathsfbfsl{\varpi}", [120777]);
  (lit "\mathsfbf{0}", [120812]);
  (lit "\mathsfbf{1}", [120813]);
  (lit "\mathsfbf{2}", [120814]);
  (lit "\mathsfbf{3}", [120815]);
  (lit "\mathsfbf{4}", [120816]);
  (lit "\mathsfbf{5}", [120817]);
  (lit "\mathsfbf{6}", [120818]);
  (lit "\mathsfbf{7}", [120819]);
  (lit "\mathsfbf{8}", [120820]);
  (lit "\mathsfbf{9}", [120821])].

(** The whole table. *)
Definition unicode_table : list (str * str) :=
  part0 ++ part1 ++ part2 ++ part3 ++ part4 ++ part5 ++ part6 ++ part7 ++ part8.
