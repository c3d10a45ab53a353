(** Generated by tools/gen_glyphs.py: the literal tables of pdfreader/codecs. *)
From Coq Require Import String.
From Verif Require Import Prelude.
Local Open Scope Z_scope.
Local Open Scope string_scope.

(** codecs/agl.py 7-4289 AGL *)
Definition agl : list (list Z * list Z) :=
  [(bs "A", [65]);
   (bs "AE", [198]);
   (bs "AEacute", [508]);
   (bs "AEmacron", [482]);
   (bs "AEsmall", [63462]);
   (bs "Aacute", [193]);
   (bs "Aacutesmall", [63457]);
   (bs "Abreve", [258]);
   (bs "Abreveacute", [7854]);
   (bs "Abrevecyrillic", [1232]);
   (bs "Abrevedotbelow", [7862]);
   (bs "Abrevegrave", [7856]);
   (bs "Abrevehookabove", [7858]);
   (bs "Abrevetilde", [7860]);
   (bs "Acaron", [461]);
   (bs "Acircle", [9398]);
   (bs "Acircumflex", [194]);
   (bs "Acircumflexacute", [7844]);
   (bs "Acircumflexdotbelow", [7852]);
   (bs "Acircumflexgrave", [7846]);
   (bs "Acircumflexhookabove", [7848]);
   (bs "Acircumflexsmall", [63458]);
   (bs "Acircumflextilde", [7850]);
   (bs "Acute", [63177]);
   (bs "Acutesmall", [63412]);
   (bs "Acyrillic", [1040]);
   (bs "Adblgrave", [512]);
   (bs "Adieresis", [196]);
   (bs "Adieresiscyrillic", [1234]);
   (bs "Adieresismacron", [478]);
   (bs "Adieresissmall", [63460]);
   (bs "Adotbelow", [7840]);
   (bs "Adotmacron", [480]);
   (bs "Agrave", [192]);
   (bs "Agravesmall", [63456]);
   (bs "Ahookabove", [7842]);
   (bs "Aiecyrillic", [1236]);
   (bs "Ainvertedbreve", [514]);
   (bs "Alpha", [913]);
   (bs "Alphatonos", [902]);
   (bs "Amacron", [256]);
   (bs "Amonospace", [65313]);
   (bs "Aogonek", [260]);
   (bs "Aring", [197]);
   (bs "Aringacute", [506]);
   (bs "Aringbelow", [7680]);
   (bs "Aringsmall", [63461]);
   (bs "Asmall", [63329]);
   (bs "Atilde", [195]);
   (bs "Atildesmall", [63459]);
   (bs "Aybarmenian", [1329]);
   (bs "B", [66]);
   (bs "Bcircle", [9399]);
   (bs "Bdotaccent", [7682]);
   (bs "Bdotbelow", [7684]);
   (bs "Becyrillic", [1041]);
   (bs "Benarmenian", [1330]);
   (bs "Beta", [914]);
   (bs "Bhook", [385]);
   (bs "Blinebelow", [7686]);
   (bs "Bmonospace", [65314]);
   (bs "Brevesmall", [63220]);
   (bs "Bsmall", [63330]);
   (bs "Btopbar", [386]);
   (bs "C", [67]);
   (bs "Caarmenian", [1342]);
   (bs "Cacute", [262]);
   (bs "Caron", [63178]);
   (bs "Caronsmall", [63221]);
   (bs "Ccaron", [268]);
   (bs "Ccedilla", [199]);
   (bs "Ccedillaacute", [7688]);
   (bs "Ccedillasmall", [63463]);
   (bs "Ccircle", [9400]);
   (bs "Ccircumflex", [264]);
   (bs "Cdot", [266]);
   (bs "Cdotaccent", [266]);
   (bs "Cedillasmall", [63416]);
   (bs "Chaarmenian", [1353]);
   (bs "Cheabkhasiancyrillic", [1212]);
   (bs "Checyrillic", [1063]);
   (bs "Chedescenderabkhasiancyrillic", [1214]);
   (bs "Chedescendercyrillic", [1206]);
   (bs "Chedieresiscyrillic", [1268]);
   (bs "Cheharmenian", [1347]);
   (bs "Chekhakassiancyrillic", [1227]);
   (bs "Cheverticalstrokecyrillic", [1208]);
   (bs "Chi", [935]);
   (bs "Chook", [391]);
   (bs "Circumflexsmall", [63222]);
   (bs "Cmonospace", [65315]);
   (bs "Coarmenian", [1361]);
   (bs "Csmall", [63331]);
   (bs "D", [68]);
   (bs "DZ", [497]);
   (bs "DZcaron", [452]);
   (bs "Daarmenian", [1332]);
   (bs "Dafrican", [393]);
   (bs "Dcaron", [270]);
   (bs "Dcedilla", [7696]);
   (bs "Dcircle", [9401]);
   (bs "Dcircumflexbelow", [7698]);
   (bs "Dcroat", [272]);
   (bs "Ddotaccent", [7690]);
   (bs "Ddotbelow", [7692]);
   (bs "Decyrillic", [1044]);
   (bs "Deicoptic", [1006]);
   (bs "Delta", [8710]);
   (bs "Deltagreek", [916]);
   (bs "Dhook", [394]);
   (bs "Dieresis", [63179]);
   (bs "DieresisAcute", [63180]);
   (bs "DieresisGrave", [63181]);
   (bs "Dieresissmall", [63400]);
   (bs "Digammagreek", [988]);
   (bs "Djecyrillic", [1026]);
   (bs "Dlinebelow", [7694]);
   (bs "Dmonospace", [65316]);
   (bs "Dotaccentsmall", [63223]);
   (bs "Dslash", [272]);
   (bs "Dsmall", [63332]);
   (bs "Dtopbar", [395]);
   (bs "Dz", [498]);
   (bs "Dzcaron", [453]);
   (bs "Dzeabkhasiancyrillic", [1248]);
   (bs "Dzecyrillic", [1029]);
   (bs "Dzhecyrillic", [1039]);
   (bs "E", [69]);
   (bs "Eacute", [201]);
   (bs "Eacutesmall", [63465]);
   (bs "Ebreve", [276]);
   (bs "Ecaron", [282]);
   (bs "Ecedillabreve", [7708]);
   (bs "Echarmenian", [1333]);
   (bs "Ecircle", [9402]);
   (bs "Ecircumflex", [202]);
   (bs "Ecircumflexacute", [7870]);
   (bs "Ecircumflexbelow", [7704]);
   (bs "Ecircumflexdotbelow", [7878]);
   (bs "Ecircumflexgrave", [7872]);
   (bs "Ecircumflexhookabove", [7874]);
   (bs "Ecircumflexsmall", [63466]);
   (bs "Ecircumflextilde", [7876]);
   (bs "Ecyrillic", [1028]);
   (bs "Edblgrave", [516]);
   (bs "Edieresis", [203]);
   (bs "Edieresissmall", [63467]);
   (bs "Edot", [278]);
   (bs "Edotaccent", [278]);
   (bs "Edotbelow", [7864]);
   (bs "Efcyrillic", [1060]);
   (bs "Egrave", [200]);
   (bs "Egravesmall", [63464]);
   (bs "Eharmenian", [1335]);
   (bs "Ehookabove", [7866]);
   (bs "Eightroman", [8551]);
   (bs "Einvertedbreve", [518]);
   (bs "Eiotifiedcyrillic", [1124]);
   (bs "Elcyrillic", [1051]);
   (bs "Elevenroman", [8554]);
   (bs "Emacron", [274]);
   (bs "Emacronacute", [7702]);
   (bs "Emacrongrave", [7700]);
   (bs "Emcyrillic", [1052]);
   (bs "Emonospace", [65317]);
   (bs "Encyrillic", [1053]);
   (bs "Endescendercyrillic", [1186]);
   (bs "Eng", [330]);
   (bs "Enghecyrillic", [1188]);
   (bs "Enhookcyrillic", [1223]);
   (bs "Eogonek", [280]);
   (bs "Eopen", [400]);
   (bs "Epsilon", [917]);
   (bs "Epsilontonos", [904]);
   (bs "Ercyrillic", [1056]);
   (bs "Ereversed", [398]);
   (bs "Ereversedcyrillic", [1069]);
   (bs "Escyrillic", [1057]);
   (bs "Esdescendercyrillic", [1194]);
   (bs "Esh", [425]);
   (bs "Esmall", [63333]);
   (bs "Eta", [919]);
   (bs "Etarmenian", [1336]);
   (bs "Etatonos", [905]);
   (bs "Eth", [208]);
   (bs "Ethsmall", [63472]);
   (bs "Etilde", [7868]);
   (bs "Etildebelow", [7706]);
   (bs "Euro", [8364]);
   (bs "Ezh", [439]);
   (bs "Ezhcaron", [494]);
   (bs "Ezhreversed", [440]);
   (bs "F", [70]);
   (bs "Fcircle", [9403]);
   (bs "Fdotaccent", [7710]);
   (bs "Feharmenian", [1366]);
   (bs "Feicoptic", [996]);
   (bs "Fhook", [401]);
   (bs "Fitacyrillic", [1138]);
   (bs "Fiveroman", [8548]);
   (bs "Fmonospace", [65318]);
   (bs "Fourroman", [8547]);
   (bs "Fsmall", [63334]);
   (bs "G", [71]);
   (bs "GBsquare", [13191]);
   (bs "Gacute", [500]);
   (bs "Gamma", [915]);
   (bs "Gammaafrican", [404]);
   (bs "Gangiacoptic", [1002]);
   (bs "Gbreve", [286]);
   (bs "Gcaron", [486]);
   (bs "Gcedilla", [290]);
   (bs "Gcircle", [9404]);
   (bs "Gcircumflex", [284]);
   (bs "Gcommaaccent", [290]);
   (bs "Gdot", [288]);
   (bs "Gdotaccent", [288]);
   (bs "Gecyrillic", [1043]);
   (bs "Ghadarmenian", [1346]);
   (bs "Ghemiddlehookcyrillic", [1172]);
   (bs "Ghestrokecyrillic", [1170]);
   (bs "Gheupturncyrillic", [1168]);
   (bs "Ghook", [403]);
   (bs "Gimarmenian", [1331]);
   (bs "Gjecyrillic", [1027]);
   (bs "Gmacron", [7712]);
   (bs "Gmonospace", [65319]);
   (bs "Grave", [63182]);
   (bs "Gravesmall", [63328]);
   (bs "Gsmall", [63335]);
   (bs "Gsmallhook", [667]);
   (bs "Gstroke", [484]);
   (bs "H", [72]);
   (bs "H18533", [9679]);
   (bs "H18543", [9642]);
   (bs "H18551", [9643]);
   (bs "H22073", [9633]);
   (bs "HPsquare", [13259]);
   (bs "Haabkhasiancyrillic", [1192]);
   (bs "Hadescendercyrillic", [1202]);
   (bs "Hardsigncyrillic", [1066]);
   (bs "Hbar", [294]);
   (bs "Hbrevebelow", [7722]);
   (bs "Hcedilla", [7720]);
   (bs "Hcircle", [9405]);
   (bs "Hcircumflex", [292]);
   (bs "Hdieresis", [7718]);
   (bs "Hdotaccent", [7714]);
   (bs "Hdotbelow", [7716]);
   (bs "Hmonospace", [65320]);
   (bs "Hoarmenian", [1344]);
   (bs "Horicoptic", [1000]);
   (bs "Hsmall", [63336]);
   (bs "Hungarumlaut", [63183]);
   (bs "Hungarumlautsmall", [63224]);
   (bs "Hzsquare", [13200]);
   (bs "I", [73]);
   (bs "IAcyrillic", [1071]);
   (bs "IJ", [306]);
   (bs "IUcyrillic", [1070]);
   (bs "Iacute", [205]);
   (bs "Iacutesmall", [63469]);
   (bs "Ibreve", [300]);
   (bs "Icaron", [463]);
   (bs "Icircle", [9406]);
   (bs "Icircumflex", [206]);
   (bs "Icircumflexsmall", [63470]);
   (bs "Icyrillic", [1030]);
   (bs "Idblgrave", [520]);
   (bs "Idieresis", [207]);
   (bs "Idieresisacute", [7726]);
   (bs "Idieresiscyrillic", [1252]);
   (bs "Idieresissmall", [63471]);
   (bs "Idot", [304]);
   (bs "Idotaccent", [304]);
   (bs "Idotbelow", [7882]);
   (bs "Iebrevecyrillic", [1238]);
   (bs "Iecyrillic", [1045]);
   (bs "Ifraktur", [8465]);
   (bs "Igrave", [204]);
   (bs "Igravesmall", [63468]);
   (bs "Ihookabove", [7880]);
   (bs "Iicyrillic", [1048]);
   (bs "Iinvertedbreve", [522]);
   (bs "Iishortcyrillic", [1049]);
   (bs "Imacron", [298]);
   (bs "Imacroncyrillic", [1250]);
   (bs "Imonospace", [65321]);
   (bs "Iniarmenian", [1339]);
   (bs "Iocyrillic", [1025]);
   (bs "Iogonek", [302]);
   (bs "Iota", [921]);
   (bs "Iotaafrican", [406]);
   (bs "Iotadieresis", [938]);
   (bs "Iotatonos", [906]);
   (bs "Ismall", [63337]);
   (bs "Istroke", [407]);
   (bs "Itilde", [296]);
   (bs "Itildebelow", [7724]);
   (bs "Izhitsacyrillic", [1140]);
   (bs "Izhitsadblgravecyrillic", [1142]);
   (bs "J", [74]);
   (bs "Jaarmenian", [1345]);
   (bs "Jcircle", [9407]);
   (bs "Jcircumflex", [308]);
   (bs "Jecyrillic", [1032]);
   (bs "Jheharmenian", [1355]);
   (bs "Jmonospace", [65322]);
   (bs "Jsmall", [63338]);
   (bs "K", [75]);
   (bs "KBsquare", [13189]);
   (bs "KKsquare", [13261]);
   (bs "Kabashkircyrillic", [1184]);
   (bs "Kacute", [7728]);
   (bs "Kacyrillic", [1050]);
   (bs "Kadescendercyrillic", [1178]);
   (bs "Kahookcyrillic", [1219]);
   (bs "Kappa", [922]);
   (bs "Kastrokecyrillic", [1182]);
   (bs "Kaverticalstrokecyrillic", [1180]);
   (bs "Kcaron", [488]);
   (bs "Kcedilla", [310]);
   (bs "Kcircle", [9408]);
   (bs "Kcommaaccent", [310]);
   (bs "Kdotbelow", [7730]);
   (bs "Keharmenian", [1364]);
   (bs "Kenarmenian", [1343]);
   (bs "Khacyrillic", [1061]);
   (bs "Kheicoptic", [998]);
   (bs "Khook", [408]);
   (bs "Kjecyrillic", [1036]);
   (bs "Klinebelow", [7732]);
   (bs "Kmonospace", [65323]);
   (bs "Koppacyrillic", [1152]);
   (bs "Koppagreek", [990]);
   (bs "Ksicyrillic", [1134]);
   (bs "Ksmall", [63339]);
   (bs "L", [76]);
   (bs "LJ", [455]);
   (bs "LL", [63167]);
   (bs "Lacute", [313]);
   (bs "Lambda", [923]);
   (bs "Lcaron", [317]);
   (bs "Lcedilla", [315]);
   (bs "Lcircle", [9409]);
   (bs "Lcircumflexbelow", [7740]);
   (bs "Lcommaaccent", [315]);
   (bs "Ldot", [319]);
   (bs "Ldotaccent", [319]);
   (bs "Ldotbelow", [7734]);
   (bs "Ldotbelowmacron", [7736]);
   (bs "Liwnarmenian", [1340]);
   (bs "Lj", [456]);
   (bs "Ljecyrillic", [1033]);
   (bs "Llinebelow", [7738]);
   (bs "Lmonospace", [65324]);
   (bs "Lslash", [321]);
   (bs "Lslashsmall", [63225]);
   (bs "Lsmall", [63340]);
   (bs "M", [77]);
   (bs "MBsquare", [13190]);
   (bs "Macron", [63184]);
   (bs "Macronsmall", [63407]);
   (bs "Macute", [7742]);
   (bs "Mcircle", [9410]);
   (bs "Mdotaccent", [7744]);
   (bs "Mdotbelow", [7746]);
   (bs "Menarmenian", [1348]);
   (bs "Mmonospace", [65325]);
   (bs "Msmall", [63341]);
   (bs "Mturned", [412]);
   (bs "Mu", [924]);
   (bs "N", [78]);
   (bs "NJ", [458]);
   (bs "Nacute", [323]);
   (bs "Ncaron", [327]);
   (bs "Ncedilla", [325]);
   (bs "Ncircle", [9411]);
   (bs "Ncircumflexbelow", [7754]);
   (bs "Ncommaaccent", [325]);
   (bs "Ndotaccent", [7748]);
   (bs "Ndotbelow", [7750]);
   (bs "Nhookleft", [413]);
   (bs "Nineroman", [8552]);
   (bs "Nj", [459]);
   (bs "Njecyrillic", [1034]);
   (bs "Nlinebelow", [7752]);
   (bs "Nmonospace", [65326]);
   (bs "Nowarmenian", [1350]);
   (bs "Nsmall", [63342]);
   (bs "Ntilde", [209]);
   (bs "Ntildesmall", [63473]);
   (bs "Nu", [925]);
   (bs "O", [79]);
   (bs "OE", [338]);
   (bs "OEsmall", [63226]);
   (bs "Oacute", [211]);
   (bs "Oacutesmall", [63475]);
   (bs "Obarredcyrillic", [1256]);
   (bs "Obarreddieresiscyrillic", [1258]);
   (bs "Obreve", [334]);
   (bs "Ocaron", [465]);
   (bs "Ocenteredtilde", [415]);
   (bs "Ocircle", [9412]);
   (bs "Ocircumflex", [212]);
   (bs "Ocircumflexacute", [7888]);
   (bs "Ocircumflexdotbelow", [7896]);
   (bs "Ocircumflexgrave", [7890]);
   (bs "Ocircumflexhookabove", [7892]);
   (bs "Ocircumflexsmall", [63476]);
   (bs "Ocircumflextilde", [7894]);
   (bs "Ocyrillic", [1054]);
   (bs "Odblacute", [336]);
   (bs "Odblgrave", [524]);
   (bs "Odieresis", [214]);
   (bs "Odieresiscyrillic", [1254]);
   (bs "Odieresissmall", [63478]);
   (bs "Odotbelow", [7884]);
   (bs "Ogoneksmall", [63227]);
   (bs "Ograve", [210]);
   (bs "Ogravesmall", [63474]);
   (bs "Oharmenian", [1365]);
   (bs "Ohm", [8486]);
   (bs "Ohookabove", [7886]);
   (bs "Ohorn", [416]);
   (bs "Ohornacute", [7898]);
   (bs "Ohorndotbelow", [7906]);
   (bs "Ohorngrave", [7900]);
   (bs "Ohornhookabove", [7902]);
   (bs "Ohorntilde", [7904]);
   (bs "Ohungarumlaut", [336]);
   (bs "Oi", [418]);
   (bs "Oinvertedbreve", [526]);
   (bs "Omacron", [332]);
   (bs "Omacronacute", [7762]);
   (bs "Omacrongrave", [7760]);
   (bs "Omega", [8486]);
   (bs "Omegacyrillic", [1120]);
   (bs "Omegagreek", [937]);
   (bs "Omegaroundcyrillic", [1146]);
   (bs "Omegatitlocyrillic", [1148]);
   (bs "Omegatonos", [911]);
   (bs "Omicron", [927]);
   (bs "Omicrontonos", [908]);
   (bs "Omonospace", [65327]);
   (bs "Oneroman", [8544]);
   (bs "Oogonek", [490]);
   (bs "Oogonekmacron", [492]);
   (bs "Oopen", [390]);
   (bs "Oslash", [216]);
   (bs "Oslashacute", [510]);
   (bs "Oslashsmall", [63480]);
   (bs "Osmall", [63343]);
   (bs "Ostrokeacute", [510]);
   (bs "Otcyrillic", [1150]);
   (bs "Otilde", [213]);
   (bs "Otildeacute", [7756]);
   (bs "Otildedieresis", [7758]);
   (bs "Otildesmall", [63477]);
   (bs "P", [80]);
   (bs "Pacute", [7764]);
   (bs "Pcircle", [9413]);
   (bs "Pdotaccent", [7766]);
   (bs "Pecyrillic", [1055]);
   (bs "Peharmenian", [1354]);
   (bs "Pemiddlehookcyrillic", [1190]);
   (bs "Phi", [934]);
   (bs "Phook", [420]);
   (bs "Pi", [928]);
   (bs "Piwrarmenian", [1363]);
   (bs "Pmonospace", [65328]);
   (bs "Psi", [936]);
   (bs "Psicyrillic", [1136]);
   (bs "Psmall", [63344]);
   (bs "Q", [81]);
   (bs "Qcircle", [9414]);
   (bs "Qmonospace", [65329]);
   (bs "Qsmall", [63345]);
   (bs "R", [82]);
   (bs "Raarmenian", [1356]);
   (bs "Racute", [340]);
   (bs "Rcaron", [344]);
   (bs "Rcedilla", [342]);
   (bs "Rcircle", [9415]);
   (bs "Rcommaaccent", [342]);
   (bs "Rdblgrave", [528]);
   (bs "Rdotaccent", [7768]);
   (bs "Rdotbelow", [7770]);
   (bs "Rdotbelowmacron", [7772]);
   (bs "Reharmenian", [1360]);
   (bs "Rfraktur", [8476]);
   (bs "Rho", [929]);
   (bs "Ringsmall", [63228]);
   (bs "Rinvertedbreve", [530]);
   (bs "Rlinebelow", [7774]);
   (bs "Rmonospace", [65330]);
   (bs "Rsmall", [63346]);
   (bs "Rsmallinverted", [641]);
   (bs "Rsmallinvertedsuperior", [694]);
   (bs "S", [83]);
   (bs "SF010000", [9484]);
   (bs "SF020000", [9492]);
   (bs "SF030000", [9488]);
   (bs "SF040000", [9496]);
   (bs "SF050000", [9532]);
   (bs "SF060000", [9516]);
   (bs "SF070000", [9524]);
   (bs "SF080000", [9500]);
   (bs "SF090000", [9508]);
   (bs "SF100000", [9472]);
   (bs "SF110000", [9474]);
   (bs "SF190000", [9569]);
   (bs "SF200000", [9570]);
   (bs "SF210000", [9558]);
   (bs "SF220000", [9557]);
   (bs "SF230000", [9571]);
   (bs "SF240000", [9553]);
   (bs "SF250000", [9559]);
   (bs "SF260000", [9565]);
   (bs "SF270000", [9564]);
   (bs "SF280000", [9563]);
   (bs "SF360000", [9566]);
   (bs "SF370000", [9567]);
   (bs "SF380000", [9562]);
   (bs "SF390000", [9556]);
   (bs "SF400000", [9577]);
   (bs "SF410000", [9574]);
   (bs "SF420000", [9568]);
   (bs "SF430000", [9552]);
   (bs "SF440000", [9580]);
   (bs "SF450000", [9575]);
   (bs "SF460000", [9576]);
   (bs "SF470000", [9572]);
   (bs "SF480000", [9573]);
   (bs "SF490000", [9561]);
   (bs "SF500000", [9560]);
   (bs "SF510000", [9554]);
   (bs "SF520000", [9555]);
   (bs "SF530000", [9579]);
   (bs "SF540000", [9578]);
   (bs "Sacute", [346]);
   (bs "Sacutedotaccent", [7780]);
   (bs "Sampigreek", [992]);
   (bs "Scaron", [352]);
   (bs "Scarondotaccent", [7782]);
   (bs "Scaronsmall", [63229]);
   (bs "Scedilla", [350]);
   (bs "Schwa", [399]);
   (bs "Schwacyrillic", [1240]);
   (bs "Schwadieresiscyrillic", [1242]);
   (bs "Scircle", [9416]);
   (bs "Scircumflex", [348]);
   (bs "Scommaaccent", [536]);
   (bs "Sdotaccent", [7776]);
   (bs "Sdotbelow", [7778]);
   (bs "Sdotbelowdotaccent", [7784]);
   (bs "Seharmenian", [1357]);
   (bs "Sevenroman", [8550]);
   (bs "Shaarmenian", [1351]);
   (bs "Shacyrillic", [1064]);
   (bs "Shchacyrillic", [1065]);
   (bs "Sheicoptic", [994]);
   (bs "Shhacyrillic", [1210]);
   (bs "Shimacoptic", [1004]);
   (bs "Sigma", [931]);
   (bs "Sixroman", [8549]);
   (bs "Smonospace", [65331]);
   (bs "Softsigncyrillic", [1068]);
   (bs "Ssmall", [63347]);
   (bs "Stigmagreek", [986]);
   (bs "T", [84]);
   (bs "Tau", [932]);
   (bs "Tbar", [358]);
   (bs "Tcaron", [356]);
   (bs "Tcedilla", [354]);
   (bs "Tcircle", [9417]);
   (bs "Tcircumflexbelow", [7792]);
   (bs "Tcommaaccent", [354]);
   (bs "Tdotaccent", [7786]);
   (bs "Tdotbelow", [7788]);
   (bs "Tecyrillic", [1058]);
   (bs "Tedescendercyrillic", [1196]);
   (bs "Tenroman", [8553]);
   (bs "Tetsecyrillic", [1204]);
   (bs "Theta", [920]);
   (bs "Thook", [428]);
   (bs "Thorn", [222]);
   (bs "Thornsmall", [63486]);
   (bs "Threeroman", [8546]);
   (bs "Tildesmall", [63230]);
   (bs "Tiwnarmenian", [1359]);
   (bs "Tlinebelow", [7790]);
   (bs "Tmonospace", [65332]);
   (bs "Toarmenian", [1337]);
   (bs "Tonefive", [444]);
   (bs "Tonesix", [388]);
   (bs "Tonetwo", [423]);
   (bs "Tretroflexhook", [430]);
   (bs "Tsecyrillic", [1062]);
   (bs "Tshecyrillic", [1035]);
   (bs "Tsmall", [63348]);
   (bs "Twelveroman", [8555]);
   (bs "Tworoman", [8545]);
   (bs "U", [85]);
   (bs "Uacute", [218]);
   (bs "Uacutesmall", [63482]);
   (bs "Ubreve", [364]);
   (bs "Ucaron", [467]);
   (bs "Ucircle", [9418]);
   (bs "Ucircumflex", [219]);
   (bs "Ucircumflexbelow", [7798]);
   (bs "Ucircumflexsmall", [63483]);
   (bs "Ucyrillic", [1059]);
   (bs "Udblacute", [368]);
   (bs "Udblgrave", [532]);
   (bs "Udieresis", [220]);
   (bs "Udieresisacute", [471]);
   (bs "Udieresisbelow", [7794]);
   (bs "Udieresiscaron", [473]);
   (bs "Udieresiscyrillic", [1264]);
   (bs "Udieresisgrave", [475]);
   (bs "Udieresismacron", [469]);
   (bs "Udieresissmall", [63484]);
   (bs "Udotbelow", [7908]);
   (bs "Ugrave", [217]);
   (bs "Ugravesmall", [63481]);
   (bs "Uhookabove", [7910]);
   (bs "Uhorn", [431]);
   (bs "Uhornacute", [7912]);
   (bs "Uhorndotbelow", [7920]);
   (bs "Uhorngrave", [7914]);
   (bs "Uhornhookabove", [7916]);
   (bs "Uhorntilde", [7918]);
   (bs "Uhungarumlaut", [368]);
   (bs "Uhungarumlautcyrillic", [1266]);
   (bs "Uinvertedbreve", [534]);
   (bs "Ukcyrillic", [1144]);
   (bs "Umacron", [362]);
   (bs "Umacroncyrillic", [1262]);
   (bs "Umacrondieresis", [7802]);
   (bs "Umonospace", [65333]);
   (bs "Uogonek", [370]);
   (bs "Upsilon", [933]);
   (bs "Upsilon1", [978]);
   (bs "Upsilonacutehooksymbolgreek", [979]);
   (bs "Upsilonafrican", [433]);
   (bs "Upsilondieresis", [939]);
   (bs "Upsilondieresishooksymbolgreek", [980]);
   (bs "Upsilonhooksymbol", [978]);
   (bs "Upsilontonos", [910]);
   (bs "Uring", [366]);
   (bs "Ushortcyrillic", [1038]);
   (bs "Usmall", [63349]);
   (bs "Ustraightcyrillic", [1198]);
   (bs "Ustraightstrokecyrillic", [1200]);
   (bs "Utilde", [360]);
   (bs "Utildeacute", [7800]);
   (bs "Utildebelow", [7796]);
   (bs "V", [86]);
   (bs "Vcircle", [9419]);
   (bs "Vdotbelow", [7806]);
   (bs "Vecyrillic", [1042]);
   (bs "Vewarmenian", [1358]);
   (bs "Vhook", [434]);
   (bs "Vmonospace", [65334]);
   (bs "Voarmenian", [1352]);
   (bs "Vsmall", [63350]);
   (bs "Vtilde", [7804]);
   (bs "W", [87]);
   (bs "Wacute", [7810]);
   (bs "Wcircle", [9420]);
   (bs "Wcircumflex", [372]);
   (bs "Wdieresis", [7812]);
   (bs "Wdotaccent", [7814]);
   (bs "Wdotbelow", [7816]);
   (bs "Wgrave", [7808]);
   (bs "Wmonospace", [65335]);
   (bs "Wsmall", [63351]);
   (bs "X", [88]);
   (bs "Xcircle", [9421]);
   (bs "Xdieresis", [7820]);
   (bs "Xdotaccent", [7818]);
   (bs "Xeharmenian", [1341]);
   (bs "Xi", [926]);
   (bs "Xmonospace", [65336]);
   (bs "Xsmall", [63352]);
   (bs "Y", [89]);
   (bs "Yacute", [221]);
   (bs "Yacutesmall", [63485]);
   (bs "Yatcyrillic", [1122]);
   (bs "Ycircle", [9422]);
   (bs "Ycircumflex", [374]);
   (bs "Ydieresis", [376]);
   (bs "Ydieresissmall", [63487]);
   (bs "Ydotaccent", [7822]);
   (bs "Ydotbelow", [7924]);
   (bs "Yericyrillic", [1067]);
   (bs "Yerudieresiscyrillic", [1272]);
   (bs "Ygrave", [7922]);
   (bs "Yhook", [435]);
   (bs "Yhookabove", [7926]);
   (bs "Yiarmenian", [1349]);
   (bs "Yicyrillic", [1031]);
   (bs "Yiwnarmenian", [1362]);
   (bs "Ymonospace", [65337]);
   (bs "Ysmall", [63353]);
   (bs "Ytilde", [7928]);
   (bs "Yusbigcyrillic", [1130]);
   (bs "Yusbigiotifiedcyrillic", [1132]);
   (bs "Yuslittlecyrillic", [1126]);
   (bs "Yuslittleiotifiedcyrillic", [1128]);
   (bs "Z", [90]);
   (bs "Zaarmenian", [1334]);
   (bs "Zacute", [377]);
   (bs "Zcaron", [381]);
   (bs "Zcaronsmall", [63231]);
   (bs "Zcircle", [9423]);
   (bs "Zcircumflex", [7824]);
   (bs "Zdot", [379]);
   (bs "Zdotaccent", [379]);
   (bs "Zdotbelow", [7826]);
   (bs "Zecyrillic", [1047]);
   (bs "Zedescendercyrillic", [1176]);
   (bs "Zedieresiscyrillic", [1246]);
   (bs "Zeta", [918]);
   (bs "Zhearmenian", [1338]);
   (bs "Zhebrevecyrillic", [1217]);
   (bs "Zhecyrillic", [1046]);
   (bs "Zhedescendercyrillic", [1174]);
   (bs "Zhedieresiscyrillic", [1244]);
   (bs "Zlinebelow", [7828]);
   (bs "Zmonospace", [65338]);
   (bs "Zsmall", [63354]);
   (bs "Zstroke", [437]);
   (bs "a", [97]);
   (bs "aabengali", [2438]);
   (bs "aacute", [225]);
   (bs "aadeva", [2310]);
   (bs "aagujarati", [2694]);
   (bs "aagurmukhi", [2566]);
   (bs "aamatragurmukhi", [2622]);
   (bs "aarusquare", [13059]);
   (bs "aavowelsignbengali", [2494]);
   (bs "aavowelsigndeva", [2366]);
   (bs "aavowelsigngujarati", [2750]);
   (bs "abbreviationmarkarmenian", [1375]);
   (bs "abbreviationsigndeva", [2416]);
   (bs "abengali", [2437]);
   (bs "abopomofo", [12570]);
   (bs "abreve", [259]);
   (bs "abreveacute", [7855]);
   (bs "abrevecyrillic", [1233]);
   (bs "abrevedotbelow", [7863]);
   (bs "abrevegrave", [7857]);
   (bs "abrevehookabove", [7859]);
   (bs "abrevetilde", [7861]);
   (bs "acaron", [462]);
   (bs "acircle", [9424]);
   (bs "acircumflex", [226]);
   (bs "acircumflexacute", [7845]);
   (bs "acircumflexdotbelow", [7853]);
   (bs "acircumflexgrave", [7847]);
   (bs "acircumflexhookabove", [7849]);
   (bs "acircumflextilde", [7851]);
   (bs "acute", [180]);
   (bs "acutebelowcmb", [791]);
   (bs "acutecmb", [769]);
   (bs "acutecomb", [769]);
   (bs "acutedeva", [2388]);
   (bs "acutelowmod", [719]);
   (bs "acutetonecmb", [833]);
   (bs "acyrillic", [1072]);
   (bs "adblgrave", [513]);
   (bs "addakgurmukhi", [2673]);
   (bs "adeva", [2309]);
   (bs "adieresis", [228]);
   (bs "adieresiscyrillic", [1235]);
   (bs "adieresismacron", [479]);
   (bs "adotbelow", [7841]);
   (bs "adotmacron", [481]);
   (bs "ae", [230]);
   (bs "aeacute", [509]);
   (bs "aekorean", [12624]);
   (bs "aemacron", [483]);
   (bs "afii00208", [8213]);
   (bs "afii08941", [8356]);
   (bs "afii10017", [1040]);
   (bs "afii10018", [1041]);
   (bs "afii10019", [1042]);
   (bs "afii10020", [1043]);
   (bs "afii10021", [1044]);
   (bs "afii10022", [1045]);
   (bs "afii10023", [1025]);
   (bs "afii10024", [1046]);
   (bs "afii10025", [1047]);
   (bs "afii10026", [1048]);
   (bs "afii10027", [1049]);
   (bs "afii10028", [1050]);
   (bs "afii10029", [1051]);
   (bs "afii10030", [1052]);
   (bs "afii10031", [1053]);
   (bs "afii10032", [1054]);
   (bs "afii10033", [1055]);
   (bs "afii10034", [1056]);
   (bs "afii10035", [1057]);
   (bs "afii10036", [1058]);
   (bs "afii10037", [1059]);
   (bs "afii10038", [1060]);
   (bs "afii10039", [1061]);
   (bs "afii10040", [1062]);
   (bs "afii10041", [1063]);
   (bs "afii10042", [1064]);
   (bs "afii10043", [1065]);
   (bs "afii10044", [1066]);
   (bs "afii10045", [1067]);
   (bs "afii10046", [1068]);
   (bs "afii10047", [1069]);
   (bs "afii10048", [1070]);
   (bs "afii10049", [1071]);
   (bs "afii10050", [1168]);
   (bs "afii10051", [1026]);
   (bs "afii10052", [1027]);
   (bs "afii10053", [1028]);
   (bs "afii10054", [1029]);
   (bs "afii10055", [1030]);
   (bs "afii10056", [1031]);
   (bs "afii10057", [1032]);
   (bs "afii10058", [1033]);
   (bs "afii10059", [1034]);
   (bs "afii10060", [1035]);
   (bs "afii10061", [1036]);
   (bs "afii10062", [1038]);
   (bs "afii10063", [63172]);
   (bs "afii10064", [63173]);
   (bs "afii10065", [1072]);
   (bs "afii10066", [1073]);
   (bs "afii10067", [1074]);
   (bs "afii10068", [1075]);
   (bs "afii10069", [1076]);
   (bs "afii10070", [1077]);
   (bs "afii10071", [1105]);
   (bs "afii10072", [1078]);
   (bs "afii10073", [1079]);
   (bs "afii10074", [1080]);
   (bs "afii10075", [1081]);
   (bs "afii10076", [1082]);
   (bs "afii10077", [1083]);
   (bs "afii10078", [1084]);
   (bs "afii10079", [1085]);
   (bs "afii10080", [1086]);
   (bs "afii10081", [1087]);
   (bs "afii10082", [1088]);
   (bs "afii10083", [1089]);
   (bs "afii10084", [1090]);
   (bs "afii10085", [1091]);
   (bs "afii10086", [1092]);
   (bs "afii10087", [1093]);
   (bs "afii10088", [1094]);
   (bs "afii10089", [1095]);
   (bs "afii10090", [1096]);
   (bs "afii10091", [1097]);
   (bs "afii10092", [1098]);
   (bs "afii10093", [1099]);
   (bs "afii10094", [1100]);
   (bs "afii10095", [1101]);
   (bs "afii10096", [1102]);
   (bs "afii10097", [1103]);
   (bs "afii10098", [1169]);
   (bs "afii10099", [1106]);
   (bs "afii10100", [1107]);
   (bs "afii10101", [1108]);
   (bs "afii10102", [1109]);
   (bs "afii10103", [1110]);
   (bs "afii10104", [1111]);
   (bs "afii10105", [1112]);
   (bs "afii10106", [1113]);
   (bs "afii10107", [1114]);
   (bs "afii10108", [1115]);
   (bs "afii10109", [1116]);
   (bs "afii10110", [1118]);
   (bs "afii10145", [1039]);
   (bs "afii10146", [1122]);
   (bs "afii10147", [1138]);
   (bs "afii10148", [1140]);
   (bs "afii10192", [63174]);
   (bs "afii10193", [1119]);
   (bs "afii10194", [1123]);
   (bs "afii10195", [1139]);
   (bs "afii10196", [1141]);
   (bs "afii10831", [63175]);
   (bs "afii10832", [63176]);
   (bs "afii10846", [1241]);
   (bs "afii299", [8206]);
   (bs "afii300", [8207]);
   (bs "afii301", [8205]);
   (bs "afii57381", [1642]);
   (bs "afii57388", [1548]);
   (bs "afii57392", [1632]);
   (bs "afii57393", [1633]);
   (bs "afii57394", [1634]);
   (bs "afii57395", [1635]);
   (bs "afii57396", [1636]);
   (bs "afii57397", [1637]);
   (bs "afii57398", [1638]);
   (bs "afii57399", [1639]);
   (bs "afii57400", [1640]);
   (bs "afii57401", [1641]);
   (bs "afii57403", [1563]);
   (bs "afii57407", [1567]);
   (bs "afii57409", [1569]);
   (bs "afii57410", [1570]);
   (bs "afii57411", [1571]);
   (bs "afii57412", [1572]);
   (bs "afii57413", [1573]);
   (bs "afii57414", [1574]);
   (bs "afii57415", [1575]);
   (bs "afii57416", [1576]);
   (bs "afii57417", [1577]);
   (bs "afii57418", [1578]);
   (bs "afii57419", [1579]);
   (bs "afii57420", [1580]);
   (bs "afii57421", [1581]);
   (bs "afii57422", [1582]);
   (bs "afii57423", [1583]);
   (bs "afii57424", [1584]);
   (bs "afii57425", [1585]);
   (bs "afii57426", [1586]);
   (bs "afii57427", [1587]);
   (bs "afii57428", [1588]);
   (bs "afii57429", [1589]);
   (bs "afii57430", [1590]);
   (bs "afii57431", [1591]);
   (bs "afii57432", [1592]);
   (bs "afii57433", [1593]);
   (bs "afii57434", [1594]);
   (bs "afii57440", [1600]);
   (bs "afii57441", [1601]);
   (bs "afii57442", [1602]);
   (bs "afii57443", [1603]);
   (bs "afii57444", [1604]);
   (bs "afii57445", [1605]);
   (bs "afii57446", [1606]);
   (bs "afii57448", [1608]);
   (bs "afii57449", [1609]);
   (bs "afii57450", [1610]);
   (bs "afii57451", [1611]);
   (bs "afii57452", [1612]);
   (bs "afii57453", [1613]);
   (bs "afii57454", [1614]);
   (bs "afii57455", [1615]);
   (bs "afii57456", [1616]);
   (bs "afii57457", [1617]);
   (bs "afii57458", [1618]);
   (bs "afii57470", [1607]);
   (bs "afii57505", [1700]);
   (bs "afii57506", [1662]);
   (bs "afii57507", [1670]);
   (bs "afii57508", [1688]);
   (bs "afii57509", [1711]);
   (bs "afii57511", [1657]);
   (bs "afii57512", [1672]);
   (bs "afii57513", [1681]);
   (bs "afii57514", [1722]);
   (bs "afii57519", [1746]);
   (bs "afii57534", [1749]);
   (bs "afii57636", [8362]);
   (bs "afii57645", [1470]);
   (bs "afii57658", [1475]);
   (bs "afii57664", [1488]);
   (bs "afii57665", [1489]);
   (bs "afii57666", [1490]);
   (bs "afii57667", [1491]);
   (bs "afii57668", [1492]);
   (bs "afii57669", [1493]);
   (bs "afii57670", [1494]);
   (bs "afii57671", [1495]);
   (bs "afii57672", [1496]);
   (bs "afii57673", [1497]);
   (bs "afii57674", [1498]);
   (bs "afii57675", [1499]);
   (bs "afii57676", [1500]);
   (bs "afii57677", [1501]);
   (bs "afii57678", [1502]);
   (bs "afii57679", [1503]);
   (bs "afii57680", [1504]);
   (bs "afii57681", [1505]);
   (bs "afii57682", [1506]);
   (bs "afii57683", [1507]);
   (bs "afii57684", [1508]);
   (bs "afii57685", [1509]);
   (bs "afii57686", [1510]);
   (bs "afii57687", [1511]);
   (bs "afii57688", [1512]);
   (bs "afii57689", [1513]);
   (bs "afii57690", [1514]);
   (bs "afii57694", [64298]);
   (bs "afii57695", [64299]);
   (bs "afii57700", [64331]);
   (bs "afii57705", [64287]);
   (bs "afii57716", [1520]);
   (bs "afii57717", [1521]);
   (bs "afii57718", [1522]);
   (bs "afii57723", [64309]);
   (bs "afii57793", [1460]);
   (bs "afii57794", [1461]);
   (bs "afii57795", [1462]);
   (bs "afii57796", [1467]);
   (bs "afii57797", [1464]);
   (bs "afii57798", [1463]);
   (bs "afii57799", [1456]);
   (bs "afii57800", [1458]);
   (bs "afii57801", [1457]);
   (bs "afii57802", [1459]);
   (bs "afii57803", [1474]);
   (bs "afii57804", [1473]);
   (bs "afii57806", [1465]);
   (bs "afii57807", [1468]);
   (bs "afii57839", [1469]);
   (bs "afii57841", [1471]);
   (bs "afii57842", [1472]);
   (bs "afii57929", [700]);
   (bs "afii61248", [8453]);
   (bs "afii61289", [8467]);
   (bs "afii61352", [8470]);
   (bs "afii61573", [8236]);
   (bs "afii61574", [8237]);
   (bs "afii61575", [8238]);
   (bs "afii61664", [8204]);
   (bs "afii63167", [1645]);
   (bs "afii64937", [701]);
   (bs "agrave", [224]);
   (bs "agujarati", [2693]);
   (bs "agurmukhi", [2565]);
   (bs "ahiragana", [12354]);
   (bs "ahookabove", [7843]);
   (bs "aibengali", [2448]);
   (bs "aibopomofo", [12574]);
   (bs "aideva", [2320]);
   (bs "aiecyrillic", [1237]);
   (bs "aigujarati", [2704]);
   (bs "aigurmukhi", [2576]);
   (bs "aimatragurmukhi", [2632]);
   (bs "ainarabic", [1593]);
   (bs "ainfinalarabic", [65226]);
   (bs "aininitialarabic", [65227]);
   (bs "ainmedialarabic", [65228]);
   (bs "ainvertedbreve", [515]);
   (bs "aivowelsignbengali", [2504]);
   (bs "aivowelsigndeva", [2376]);
   (bs "aivowelsigngujarati", [2760]);
   (bs "akatakana", [12450]);
   (bs "akatakanahalfwidth", [65393]);
   (bs "akorean", [12623]);
   (bs "alef", [1488]);
   (bs "alefarabic", [1575]);
   (bs "alefdageshhebrew", [64304]);
   (bs "aleffinalarabic", [65166]);
   (bs "alefhamzaabovearabic", [1571]);
   (bs "alefhamzaabovefinalarabic", [65156]);
   (bs "alefhamzabelowarabic", [1573]);
   (bs "alefhamzabelowfinalarabic", [65160]);
   (bs "alefhebrew", [1488]);
   (bs "aleflamedhebrew", [64335]);
   (bs "alefmaddaabovearabic", [1570]);
   (bs "alefmaddaabovefinalarabic", [65154]);
   (bs "alefmaksuraarabic", [1609]);
   (bs "alefmaksurafinalarabic", [65264]);
   (bs "alefmaksurainitialarabic", [65267]);
   (bs "alefmaksuramedialarabic", [65268]);
   (bs "alefpatahhebrew", [64302]);
   (bs "alefqamatshebrew", [64303]);
   (bs "aleph", [8501]);
   (bs "allequal", [8780]);
   (bs "alpha", [945]);
   (bs "alphatonos", [940]);
   (bs "amacron", [257]);
   (bs "amonospace", [65345]);
   (bs "ampersand", [38]);
   (bs "ampersandmonospace", [65286]);
   (bs "ampersandsmall", [63270]);
   (bs "amsquare", [13250]);
   (bs "anbopomofo", [12578]);
   (bs "angbopomofo", [12580]);
   (bs "angkhankhuthai", [3674]);
   (bs "angle", [8736]);
   (bs "anglebracketleft", [12296]);
   (bs "anglebracketleftvertical", [65087]);
   (bs "anglebracketright", [12297]);
   (bs "anglebracketrightvertical", [65088]);
   (bs "angleleft", [9001]);
   (bs "angleright", [9002]);
   (bs "angstrom", [8491]);
   (bs "anoteleia", [903]);
   (bs "anudattadeva", [2386]);
   (bs "anusvarabengali", [2434]);
   (bs "anusvaradeva", [2306]);
   (bs "anusvaragujarati", [2690]);
   (bs "aogonek", [261]);
   (bs "apaatosquare", [13056]);
   (bs "aparen", [9372]);
   (bs "apostrophearmenian", [1370]);
   (bs "apostrophemod", [700]);
   (bs "apple", [63743]);
   (bs "approaches", [8784]);
   (bs "approxequal", [8776]);
   (bs "approxequalorimage", [8786]);
   (bs "approximatelyequal", [8773]);
   (bs "araeaekorean", [12686]);
   (bs "araeakorean", [12685]);
   (bs "arc", [8978]);
   (bs "arighthalfring", [7834]);
   (bs "aring", [229]);
   (bs "aringacute", [507]);
   (bs "aringbelow", [7681]);
   (bs "arrowboth", [8596]);
   (bs "arrowdashdown", [8675]);
   (bs "arrowdashleft", [8672]);
   (bs "arrowdashright", [8674]);
   (bs "arrowdashup", [8673]);
   (bs "arrowdblboth", [8660]);
   (bs "arrowdbldown", [8659]);
   (bs "arrowdblleft", [8656]);
   (bs "arrowdblright", [8658]);
   (bs "arrowdblup", [8657]);
   (bs "arrowdown", [8595]);
   (bs "arrowdownleft", [8601]);
   (bs "arrowdownright", [8600]);
   (bs "arrowdownwhite", [8681]);
   (bs "arrowheaddownmod", [709]);
   (bs "arrowheadleftmod", [706]);
   (bs "arrowheadrightmod", [707]);
   (bs "arrowheadupmod", [708]);
   (bs "arrowhorizex", [63719]);
   (bs "arrowleft", [8592]);
   (bs "arrowleftdbl", [8656]);
   (bs "arrowleftdblstroke", [8653]);
   (bs "arrowleftoverright", [8646]);
   (bs "arrowleftwhite", [8678]);
   (bs "arrowright", [8594]);
   (bs "arrowrightdblstroke", [8655]);
   (bs "arrowrightheavy", [10142]);
   (bs "arrowrightoverleft", [8644]);
   (bs "arrowrightwhite", [8680]);
   (bs "arrowtableft", [8676]);
   (bs "arrowtabright", [8677]);
   (bs "arrowup", [8593]);
   (bs "arrowupdn", [8597]);
   (bs "arrowupdnbse", [8616]);
   (bs "arrowupdownbase", [8616]);
   (bs "arrowupleft", [8598]);
   (bs "arrowupleftofdown", [8645]);
   (bs "arrowupright", [8599]);
   (bs "arrowupwhite", [8679]);
   (bs "arrowvertex", [63718]);
   (bs "asciicircum", [94]);
   (bs "asciicircummonospace", [65342]);
   (bs "asciitilde", [126]);
   (bs "asciitildemonospace", [65374]);
   (bs "ascript", [593]);
   (bs "ascriptturned", [594]);
   (bs "asmallhiragana", [12353]);
   (bs "asmallkatakana", [12449]);
   (bs "asmallkatakanahalfwidth", [65383]);
   (bs "asterisk", [42]);
   (bs "asteriskaltonearabic", [1645]);
   (bs "asteriskarabic", [1645]);
   (bs "asteriskmath", [8727]);
   (bs "asteriskmonospace", [65290]);
   (bs "asterisksmall", [65121]);
   (bs "asterism", [8258]);
   (bs "asuperior", [63209]);
   (bs "asymptoticallyequal", [8771]);
   (bs "at", [64]);
   (bs "atilde", [227]);
   (bs "atmonospace", [65312]);
   (bs "atsmall", [65131]);
   (bs "aturned", [592]);
   (bs "aubengali", [2452]);
   (bs "aubopomofo", [12576]);
   (bs "audeva", [2324]);
   (bs "augujarati", [2708]);
   (bs "augurmukhi", [2580]);
   (bs "aulengthmarkbengali", [2519]);
   (bs "aumatragurmukhi", [2636]);
   (bs "auvowelsignbengali", [2508]);
   (bs "auvowelsigndeva", [2380]);
   (bs "auvowelsigngujarati", [2764]);
   (bs "avagrahadeva", [2365]);
   (bs "aybarmenian", [1377]);
   (bs "ayin", [1506]);
   (bs "ayinaltonehebrew", [64288]);
   (bs "ayinhebrew", [1506]);
   (bs "b", [98]);
   (bs "babengali", [2476]);
   (bs "backslash", [92]);
   (bs "backslashmonospace", [65340]);
   (bs "badeva", [2348]);
   (bs "bagujarati", [2732]);
   (bs "bagurmukhi", [2604]);
   (bs "bahiragana", [12400]);
   (bs "bahtthai", [3647]);
   (bs "bakatakana", [12496]);
   (bs "bar", [124]);
   (bs "barmonospace", [65372]);
   (bs "bbopomofo", [12549]);
   (bs "bcircle", [9425]);
   (bs "bdotaccent", [7683]);
   (bs "bdotbelow", [7685]);
   (bs "beamedsixteenthnotes", [9836]);
   (bs "because", [8757]);
   (bs "becyrillic", [1073]);
   (bs "beharabic", [1576]);
   (bs "behfinalarabic", [65168]);
   (bs "behinitialarabic", [65169]);
   (bs "behiragana", [12409]);
   (bs "behmedialarabic", [65170]);
   (bs "behmeeminitialarabic", [64671]);
   (bs "behmeemisolatedarabic", [64520]);
   (bs "behnoonfinalarabic", [64621]);
   (bs "bekatakana", [12505]);
   (bs "benarmenian", [1378]);
   (bs "bet", [1489]);
   (bs "beta", [946]);
   (bs "betasymbolgreek", [976]);
   (bs "betdagesh", [64305]);
   (bs "betdageshhebrew", [64305]);
   (bs "bethebrew", [1489]);
   (bs "betrafehebrew", [64332]);
   (bs "bhabengali", [2477]);
   (bs "bhadeva", [2349]);
   (bs "bhagujarati", [2733]);
   (bs "bhagurmukhi", [2605]);
   (bs "bhook", [595]);
   (bs "bihiragana", [12403]);
   (bs "bikatakana", [12499]);
   (bs "bilabialclick", [664]);
   (bs "bindigurmukhi", [2562]);
   (bs "birusquare", [13105]);
   (bs "blackcircle", [9679]);
   (bs "blackdiamond", [9670]);
   (bs "blackdownpointingtriangle", [9660]);
   (bs "blackleftpointingpointer", [9668]);
   (bs "blackleftpointingtriangle", [9664]);
   (bs "blacklenticularbracketleft", [12304]);
   (bs "blacklenticularbracketleftvertical", [65083]);
   (bs "blacklenticularbracketright", [12305]);
   (bs "blacklenticularbracketrightvertical", [65084]);
   (bs "blacklowerlefttriangle", [9699]);
   (bs "blacklowerrighttriangle", [9698]);
   (bs "blackrectangle", [9644]);
   (bs "blackrightpointingpointer", [9658]);
   (bs "blackrightpointingtriangle", [9654]);
   (bs "blacksmallsquare", [9642]);
   (bs "blacksmilingface", [9787]);
   (bs "blacksquare", [9632]);
   (bs "blackstar", [9733]);
   (bs "blackupperlefttriangle", [9700]);
   (bs "blackupperrighttriangle", [9701]);
   (bs "blackuppointingsmalltriangle", [9652]);
   (bs "blackuppointingtriangle", [9650]);
   (bs "blank", [9251]);
   (bs "blinebelow", [7687]);
   (bs "block", [9608]);
   (bs "bmonospace", [65346]);
   (bs "bobaimaithai", [3610]);
   (bs "bohiragana", [12412]);
   (bs "bokatakana", [12508]);
   (bs "bparen", [9373]);
   (bs "bqsquare", [13251]);
   (bs "braceex", [63732]);
   (bs "braceleft", [123]);
   (bs "braceleftbt", [63731]);
   (bs "braceleftmid", [63730]);
   (bs "braceleftmonospace", [65371]);
   (bs "braceleftsmall", [65115]);
   (bs "bracelefttp", [63729]);
   (bs "braceleftvertical", [65079]);
   (bs "braceright", [125]);
   (bs "bracerightbt", [63742]);
   (bs "bracerightmid", [63741]);
   (bs "bracerightmonospace", [65373]);
   (bs "bracerightsmall", [65116]);
   (bs "bracerighttp", [63740]);
   (bs "bracerightvertical", [65080]);
   (bs "bracketleft", [91]);
   (bs "bracketleftbt", [63728]);
   (bs "bracketleftex", [63727]);
   (bs "bracketleftmonospace", [65339]);
   (bs "bracketlefttp", [63726]);
   (bs "bracketright", [93]);
   (bs "bracketrightbt", [63739]);
   (bs "bracketrightex", [63738]);
   (bs "bracketrightmonospace", [65341]);
   (bs "bracketrighttp", [63737]);
   (bs "breve", [728]);
   (bs "brevebelowcmb", [814]);
   (bs "brevecmb", [774]);
   (bs "breveinvertedbelowcmb", [815]);
   (bs "breveinvertedcmb", [785]);
   (bs "breveinverteddoublecmb", [865]);
   (bs "bridgebelowcmb", [810]);
   (bs "bridgeinvertedbelowcmb", [826]);
   (bs "brokenbar", [166]);
   (bs "bstroke", [384]);
   (bs "bsuperior", [63210]);
   (bs "btopbar", [387]);
   (bs "buhiragana", [12406]);
   (bs "bukatakana", [12502]);
   (bs "bullet", [8226]);
   (bs "bulletinverse", [9688]);
   (bs "bulletoperator", [8729]);
   (bs "bullseye", [9678]);
   (bs "c", [99]);
   (bs "caarmenian", [1390]);
   (bs "cabengali", [2458]);
   (bs "cacute", [263]);
   (bs "cadeva", [2330]);
   (bs "cagujarati", [2714]);
   (bs "cagurmukhi", [2586]);
   (bs "calsquare", [13192]);
   (bs "candrabindubengali", [2433]);
   (bs "candrabinducmb", [784]);
   (bs "candrabindudeva", [2305]);
   (bs "candrabindugujarati", [2689]);
   (bs "capslock", [8682]);
   (bs "careof", [8453]);
   (bs "caron", [711]);
   (bs "caronbelowcmb", [812]);
   (bs "caroncmb", [780]);
   (bs "carriagereturn", [8629]);
   (bs "cbopomofo", [12568]);
   (bs "ccaron", [269]);
   (bs "ccedilla", [231]);
   (bs "ccedillaacute", [7689]);
   (bs "ccircle", [9426]);
   (bs "ccircumflex", [265]);
   (bs "ccurl", [597]);
   (bs "cdot", [267]);
   (bs "cdotaccent", [267]);
   (bs "cdsquare", [13253]);
   (bs "cedilla", [184]);
   (bs "cedillacmb", [807]);
   (bs "cent", [162]);
   (bs "centigrade", [8451]);
   (bs "centinferior", [63199]);
   (bs "centmonospace", [65504]);
   (bs "centoldstyle", [63394]);
   (bs "centsuperior", [63200]);
   (bs "chaarmenian", [1401]);
   (bs "chabengali", [2459]);
   (bs "chadeva", [2331]);
   (bs "chagujarati", [2715]);
   (bs "chagurmukhi", [2587]);
   (bs "chbopomofo", [12564]);
   (bs "cheabkhasiancyrillic", [1213]);
   (bs "checkmark", [10003]);
   (bs "checyrillic", [1095]);
   (bs "chedescenderabkhasiancyrillic", [1215]);
   (bs "chedescendercyrillic", [1207]);
   (bs "chedieresiscyrillic", [1269]);
   (bs "cheharmenian", [1395]);
   (bs "chekhakassiancyrillic", [1228]);
   (bs "cheverticalstrokecyrillic", [1209]);
   (bs "chi", [967]);
   (bs "chieuchacirclekorean", [12919]);
   (bs "chieuchaparenkorean", [12823]);
   (bs "chieuchcirclekorean", [12905]);
   (bs "chieuchkorean", [12618]);
   (bs "chieuchparenkorean", [12809]);
   (bs "chochangthai", [3594]);
   (bs "chochanthai", [3592]);
   (bs "chochingthai", [3593]);
   (bs "chochoethai", [3596]);
   (bs "chook", [392]);
   (bs "cieucacirclekorean", [12918]);
   (bs "cieucaparenkorean", [12822]);
   (bs "cieuccirclekorean", [12904]);
   (bs "cieuckorean", [12616]);
   (bs "cieucparenkorean", [12808]);
   (bs "cieucuparenkorean", [12828]);
   (bs "circle", [9675]);
   (bs "circlemultiply", [8855]);
   (bs "circleot", [8857]);
   (bs "circleplus", [8853]);
   (bs "circlepostalmark", [12342]);
   (bs "circlewithlefthalfblack", [9680]);
   (bs "circlewithrighthalfblack", [9681]);
   (bs "circumflex", [710]);
   (bs "circumflexbelowcmb", [813]);
   (bs "circumflexcmb", [770]);
   (bs "clear", [8999]);
   (bs "clickalveolar", [450]);
   (bs "clickdental", [448]);
   (bs "clicklateral", [449]);
   (bs "clickretroflex", [451]);
   (bs "club", [9827]);
   (bs "clubsuitblack", [9827]);
   (bs "clubsuitwhite", [9831]);
   (bs "cmcubedsquare", [13220]);
   (bs "cmonospace", [65347]);
   (bs "cmsquaredsquare", [13216]);
   (bs "coarmenian", [1409]);
   (bs "colon", [58]);
   (bs "colonmonetary", [8353]);
   (bs "colonmonospace", [65306]);
   (bs "colonsign", [8353]);
   (bs "colonsmall", [65109]);
   (bs "colontriangularhalfmod", [721]);
   (bs "colontriangularmod", [720]);
   (bs "comma", [44]);
   (bs "commaabovecmb", [787]);
   (bs "commaaboverightcmb", [789]);
   (bs "commaaccent", [63171]);
   (bs "commaarabic", [1548]);
   (bs "commaarmenian", [1373]);
   (bs "commainferior", [63201]);
   (bs "commamonospace", [65292]);
   (bs "commareversedabovecmb", [788]);
   (bs "commareversedmod", [701]);
   (bs "commasmall", [65104]);
   (bs "commasuperior", [63202]);
   (bs "commaturnedabovecmb", [786]);
   (bs "commaturnedmod", [699]);
   (bs "compass", [9788]);
   (bs "congruent", [8773]);
   (bs "contourintegral", [8750]);
   (bs "control", [8963]);
   (bs "controlACK", [6]);
   (bs "controlBEL", [7]);
   (bs "controlBS", [8]);
   (bs "controlCAN", [24]);
   (bs "controlCR", [13]);
   (bs "controlDC1", [17]);
   (bs "controlDC2", [18]);
   (bs "controlDC3", [19]);
   (bs "controlDC4", [20]);
   (bs "controlDEL", [127]);
   (bs "controlDLE", [16]);
   (bs "controlEM", [25]);
   (bs "controlENQ", [5]);
   (bs "controlEOT", [4]);
   (bs "controlESC", [27]);
   (bs "controlETB", [23]);
   (bs "controlETX", [3]);
   (bs "controlFF", [12]);
   (bs "controlFS", [28]);
   (bs "controlGS", [29]);
   (bs "controlHT", [9]);
   (bs "controlLF", [10]);
   (bs "controlNAK", [21]);
   (bs "controlRS", [30]);
   (bs "controlSI", [15]);
   (bs "controlSO", [14]);
   (bs "controlSOT", [2]);
   (bs "controlSTX", [1]);
   (bs "controlSUB", [26]);
   (bs "controlSYN", [22]);
   (bs "controlUS", [31]);
   (bs "controlVT", [11]);
   (bs "copyright", [169]);
   (bs "copyrightsans", [63721]);
   (bs "copyrightserif", [63193]);
   (bs "cornerbracketleft", [12300]);
   (bs "cornerbracketlefthalfwidth", [65378]);
   (bs "cornerbracketleftvertical", [65089]);
   (bs "cornerbracketright", [12301]);
   (bs "cornerbracketrighthalfwidth", [65379]);
   (bs "cornerbracketrightvertical", [65090]);
   (bs "corporationsquare", [13183]);
   (bs "cosquare", [13255]);
   (bs "coverkgsquare", [13254]);
   (bs "cparen", [9374]);
   (bs "cruzeiro", [8354]);
   (bs "cstretched", [663]);
   (bs "curlyand", [8911]);
   (bs "curlyor", [8910]);
   (bs "currency", [164]);
   (bs "cyrBreve", [63185]);
   (bs "cyrFlex", [63186]);
   (bs "cyrbreve", [63188]);
   (bs "cyrflex", [63189]);
   (bs "d", [100]);
   (bs "daarmenian", [1380]);
   (bs "dabengali", [2470]);
   (bs "dadarabic", [1590]);
   (bs "dadeva", [2342]);
   (bs "dadfinalarabic", [65214]);
   (bs "dadinitialarabic", [65215]);
   (bs "dadmedialarabic", [65216]);
   (bs "dagesh", [1468]);
   (bs "dageshhebrew", [1468]);
   (bs "dagger", [8224]);
   (bs "daggerdbl", [8225]);
   (bs "dagujarati", [2726]);
   (bs "dagurmukhi", [2598]);
   (bs "dahiragana", [12384]);
   (bs "dakatakana", [12480]);
   (bs "dalarabic", [1583]);
   (bs "dalet", [1491]);
   (bs "daletdagesh", [64307]);
   (bs "daletdageshhebrew", [64307]);
   (bs "dalethatafpatah", [1491; 1458]);
   (bs "dalethatafpatahhebrew", [1491; 1458]);
   (bs "dalethatafsegol", [1491; 1457]);
   (bs "dalethatafsegolhebrew", [1491; 1457]);
   (bs "dalethebrew", [1491]);
   (bs "dalethiriq", [1491; 1460]);
   (bs "dalethiriqhebrew", [1491; 1460]);
   (bs "daletholam", [1491; 1465]);
   (bs "daletholamhebrew", [1491; 1465]);
   (bs "daletpatah", [1491; 1463]);
   (bs "daletpatahhebrew", [1491; 1463]);
   (bs "daletqamats", [1491; 1464]);
   (bs "daletqamatshebrew", [1491; 1464]);
   (bs "daletqubuts", [1491; 1467]);
   (bs "daletqubutshebrew", [1491; 1467]);
   (bs "daletsegol", [1491; 1462]);
   (bs "daletsegolhebrew", [1491; 1462]);
   (bs "daletsheva", [1491; 1456]);
   (bs "daletshevahebrew", [1491; 1456]);
   (bs "dalettsere", [1491; 1461]);
   (bs "dalettserehebrew", [1491; 1461]);
   (bs "dalfinalarabic", [65194]);
   (bs "dammaarabic", [1615]);
   (bs "dammalowarabic", [1615]);
   (bs "dammatanaltonearabic", [1612]);
   (bs "dammatanarabic", [1612]);
   (bs "danda", [2404]);
   (bs "dargahebrew", [1447]);
   (bs "dargalefthebrew", [1447]);
   (bs "dasiapneumatacyrilliccmb", [1157]);
   (bs "dblGrave", [63187]);
   (bs "dblanglebracketleft", [12298]);
   (bs "dblanglebracketleftvertical", [65085]);
   (bs "dblanglebracketright", [12299]);
   (bs "dblanglebracketrightvertical", [65086]);
   (bs "dblarchinvertedbelowcmb", [811]);
   (bs "dblarrowleft", [8660]);
   (bs "dblarrowright", [8658]);
   (bs "dbldanda", [2405]);
   (bs "dblgrave", [63190]);
   (bs "dblgravecmb", [783]);
   (bs "dblintegral", [8748]);
   (bs "dbllowline", [8215]);
   (bs "dbllowlinecmb", [819]);
   (bs "dbloverlinecmb", [831]);
   (bs "dblprimemod", [698]);
   (bs "dblverticalbar", [8214]);
   (bs "dblverticallineabovecmb", [782]);
   (bs "dbopomofo", [12553]);
   (bs "dbsquare", [13256]);
   (bs "dcaron", [271]);
   (bs "dcedilla", [7697]);
   (bs "dcircle", [9427]);
   (bs "dcircumflexbelow", [7699]);
   (bs "dcroat", [273]);
   (bs "ddabengali", [2465]);
   (bs "ddadeva", [2337]);
   (bs "ddagujarati", [2721]);
   (bs "ddagurmukhi", [2593]);
   (bs "ddalarabic", [1672]);
   (bs "ddalfinalarabic", [64393]);
   (bs "dddhadeva", [2396]);
   (bs "ddhabengali", [2466]);
   (bs "ddhadeva", [2338]);
   (bs "ddhagujarati", [2722]);
   (bs "ddhagurmukhi", [2594]);
   (bs "ddotaccent", [7691]);
   (bs "ddotbelow", [7693]);
   (bs "decimalseparatorarabic", [1643]);
   (bs "decimalseparatorpersian", [1643]);
   (bs "decyrillic", [1076]);
   (bs "degree", [176]);
   (bs "dehihebrew", [1453]);
   (bs "dehiragana", [12391]);
   (bs "deicoptic", [1007]);
   (bs "dekatakana", [12487]);
   (bs "deleteleft", [9003]);
   (bs "deleteright", [8998]);
   (bs "delta", [948]);
   (bs "deltaturned", [397]);
   (bs "denominatorminusonenumeratorbengali", [2552]);
   (bs "dezh", [676]);
   (bs "dhabengali", [2471]);
   (bs "dhadeva", [2343]);
   (bs "dhagujarati", [2727]);
   (bs "dhagurmukhi", [2599]);
   (bs "dhook", [599]);
   (bs "dialytikatonos", [901]);
   (bs "dialytikatonoscmb", [836]);
   (bs "diamond", [9830]);
   (bs "diamondsuitwhite", [9826]);
   (bs "dieresis", [168]);
   (bs "dieresisacute", [63191]);
   (bs "dieresisbelowcmb", [804]);
   (bs "dieresiscmb", [776]);
   (bs "dieresisgrave", [63192]);
   (bs "dieresistonos", [901]);
   (bs "dihiragana", [12386]);
   (bs "dikatakana", [12482]);
   (bs "dittomark", [12291]);
   (bs "divide", [247]);
   (bs "divides", [8739]);
   (bs "divisionslash", [8725]);
   (bs "djecyrillic", [1106]);
   (bs "dkshade", [9619]);
   (bs "dlinebelow", [7695]);
   (bs "dlsquare", [13207]);
   (bs "dmacron", [273]);
   (bs "dmonospace", [65348]);
   (bs "dnblock", [9604]);
   (bs "dochadathai", [3598]);
   (bs "dodekthai", [3604]);
   (bs "dohiragana", [12393]);
   (bs "dokatakana", [12489]);
   (bs "dollar", [36]);
   (bs "dollarinferior", [63203]);
   (bs "dollarmonospace", [65284]);
   (bs "dollaroldstyle", [63268]);
   (bs "dollarsmall", [65129]);
   (bs "dollarsuperior", [63204]);
   (bs "dong", [8363]);
   (bs "dorusquare", [13094]);
   (bs "dotaccent", [729]);
   (bs "dotaccentcmb", [775]);
   (bs "dotbelowcmb", [803]);
   (bs "dotbelowcomb", [803]);
   (bs "dotkatakana", [12539]);
   (bs "dotlessi", [305]);
   (bs "dotlessj", [63166]);
   (bs "dotlessjstrokehook", [644]);
   (bs "dotmath", [8901]);
   (bs "dottedcircle", [9676]);
   (bs "doubleyodpatah", [64287]);
   (bs "doubleyodpatahhebrew", [64287]);
   (bs "downtackbelowcmb", [798]);
   (bs "downtackmod", [725]);
   (bs "dparen", [9375]);
   (bs "dsuperior", [63211]);
   (bs "dtail", [598]);
   (bs "dtopbar", [396]);
   (bs "duhiragana", [12389]);
   (bs "dukatakana", [12485]);
   (bs "dz", [499]);
   (bs "dzaltone", [675]);
   (bs "dzcaron", [454]);
   (bs "dzcurl", [677]);
   (bs "dzeabkhasiancyrillic", [1249]);
   (bs "dzecyrillic", [1109]);
   (bs "dzhecyrillic", [1119]);
   (bs "e", [101]);
   (bs "eacute", [233]);
   (bs "earth", [9793]);
   (bs "ebengali", [2447]);
   (bs "ebopomofo", [12572]);
   (bs "ebreve", [277]);
   (bs "ecandradeva", [2317]);
   (bs "ecandragujarati", [2701]);
   (bs "ecandravowelsigndeva", [2373]);
   (bs "ecandravowelsigngujarati", [2757]);
   (bs "ecaron", [283]);
   (bs "ecedillabreve", [7709]);
   (bs "echarmenian", [1381]);
   (bs "echyiwnarmenian", [1415]);
   (bs "ecircle", [9428]);
   (bs "ecircumflex", [234]);
   (bs "ecircumflexacute", [7871]);
   (bs "ecircumflexbelow", [7705]);
   (bs "ecircumflexdotbelow", [7879]);
   (bs "ecircumflexgrave", [7873]);
   (bs "ecircumflexhookabove", [7875]);
   (bs "ecircumflextilde", [7877]);
   (bs "ecyrillic", [1108]);
   (bs "edblgrave", [517]);
   (bs "edeva", [2319]);
   (bs "edieresis", [235]);
   (bs "edot", [279]);
   (bs "edotaccent", [279]);
   (bs "edotbelow", [7865]);
   (bs "eegurmukhi", [2575]);
   (bs "eematragurmukhi", [2631]);
   (bs "efcyrillic", [1092]);
   (bs "egrave", [232]);
   (bs "egujarati", [2703]);
   (bs "eharmenian", [1383]);
   (bs "ehbopomofo", [12573]);
   (bs "ehiragana", [12360]);
   (bs "ehookabove", [7867]);
   (bs "eibopomofo", [12575]);
   (bs "eight", [56]);
   (bs "eightarabic", [1640]);
   (bs "eightbengali", [2542]);
   (bs "eightcircle", [9319]);
   (bs "eightcircleinversesansserif", [10129]);
   (bs "eightdeva", [2414]);
   (bs "eighteencircle", [9329]);
   (bs "eighteenparen", [9349]);
   (bs "eighteenperiod", [9369]);
   (bs "eightgujarati", [2798]);
   (bs "eightgurmukhi", [2670]);
   (bs "eighthackarabic", [1640]);
   (bs "eighthangzhou", [12328]);
   (bs "eighthnotebeamed", [9835]);
   (bs "eightideographicparen", [12839]);
   (bs "eightinferior", [8328]);
   (bs "eightmonospace", [65304]);
   (bs "eightoldstyle", [63288]);
   (bs "eightparen", [9339]);
   (bs "eightperiod", [9359]);
   (bs "eightpersian", [1784]);
   (bs "eightroman", [8567]);
   (bs "eightsuperior", [8312]);
   (bs "eightthai", [3672]);
   (bs "einvertedbreve", [519]);
   (bs "eiotifiedcyrillic", [1125]);
   (bs "ekatakana", [12456]);
   (bs "ekatakanahalfwidth", [65396]);
   (bs "ekonkargurmukhi", [2676]);
   (bs "ekorean", [12628]);
   (bs "elcyrillic", [1083]);
   (bs "element", [8712]);
   (bs "elevencircle", [9322]);
   (bs "elevenparen", [9342]);
   (bs "elevenperiod", [9362]);
   (bs "elevenroman", [8570]);
   (bs "ellipsis", [8230]);
   (bs "ellipsisvertical", [8942]);
   (bs "emacron", [275]);
   (bs "emacronacute", [7703]);
   (bs "emacrongrave", [7701]);
   (bs "emcyrillic", [1084]);
   (bs "emdash", [8212]);
   (bs "emdashvertical", [65073]);
   (bs "emonospace", [65349]);
   (bs "emphasismarkarmenian", [1371]);
   (bs "emptyset", [8709]);
   (bs "enbopomofo", [12579]);
   (bs "encyrillic", [1085]);
   (bs "endash", [8211]);
   (bs "endashvertical", [65074]);
   (bs "endescendercyrillic", [1187]);
   (bs "eng", [331]);
   (bs "engbopomofo", [12581]);
   (bs "enghecyrillic", [1189]);
   (bs "enhookcyrillic", [1224]);
   (bs "enspace", [8194]);
   (bs "eogonek", [281]);
   (bs "eokorean", [12627]);
   (bs "eopen", [603]);
   (bs "eopenclosed", [666]);
   (bs "eopenreversed", [604]);
   (bs "eopenreversedclosed", [606]);
   (bs "eopenreversedhook", [605]);
   (bs "eparen", [9376]);
   (bs "epsilon", [949]);
   (bs "epsilontonos", [941]);
   (bs "equal", [61]);
   (bs "equalmonospace", [65309]);
   (bs "equalsmall", [65126]);
   (bs "equalsuperior", [8316]);
   (bs "equivalence", [8801]);
   (bs "erbopomofo", [12582]);
   (bs "ercyrillic", [1088]);
   (bs "ereversed", [600]);
   (bs "ereversedcyrillic", [1101]);
   (bs "escyrillic", [1089]);
   (bs "esdescendercyrillic", [1195]);
   (bs "esh", [643]);
   (bs "eshcurl", [646]);
   (bs "eshortdeva", [2318]);
   (bs "eshortvowelsigndeva", [2374]);
   (bs "eshreversedloop", [426]);
   (bs "eshsquatreversed", [645]);
   (bs "esmallhiragana", [12359]);
   (bs "esmallkatakana", [12455]);
   (bs "esmallkatakanahalfwidth", [65386]);
   (bs "estimated", [8494]);
   (bs "esuperior", [63212]);
   (bs "eta", [951]);
   (bs "etarmenian", [1384]);
   (bs "etatonos", [942]);
   (bs "eth", [240]);
   (bs "etilde", [7869]);
   (bs "etildebelow", [7707]);
   (bs "etnahtafoukhhebrew", [1425]);
   (bs "etnahtafoukhlefthebrew", [1425]);
   (bs "etnahtahebrew", [1425]);
   (bs "etnahtalefthebrew", [1425]);
   (bs "eturned", [477]);
   (bs "eukorean", [12641]);
   (bs "euro", [8364]);
   (bs "evowelsignbengali", [2503]);
   (bs "evowelsigndeva", [2375]);
   (bs "evowelsigngujarati", [2759]);
   (bs "exclam", [33]);
   (bs "exclamarmenian", [1372]);
   (bs "exclamdbl", [8252]);
   (bs "exclamdown", [161]);
   (bs "exclamdownsmall", [63393]);
   (bs "exclammonospace", [65281]);
   (bs "exclamsmall", [63265]);
   (bs "existential", [8707]);
   (bs "ezh", [658]);
   (bs "ezhcaron", [495]);
   (bs "ezhcurl", [659]);
   (bs "ezhreversed", [441]);
   (bs "ezhtail", [442]);
   (bs "f", [102]);
   (bs "fadeva", [2398]);
   (bs "fagurmukhi", [2654]);
   (bs "fahrenheit", [8457]);
   (bs "fathaarabic", [1614]);
   (bs "fathalowarabic", [1614]);
   (bs "fathatanarabic", [1611]);
   (bs "fbopomofo", [12552]);
   (bs "fcircle", [9429]);
   (bs "fdotaccent", [7711]);
   (bs "feharabic", [1601]);
   (bs "feharmenian", [1414]);
   (bs "fehfinalarabic", [65234]);
   (bs "fehinitialarabic", [65235]);
   (bs "fehmedialarabic", [65236]);
   (bs "feicoptic", [997]);
   (bs "female", [9792]);
   (bs "ff", [64256]);
   (bs "ffi", [64259]);
   (bs "ffl", [64260]);
   (bs "fi", [64257]);
   (bs "fifteencircle", [9326]);
   (bs "fifteenparen", [9346]);
   (bs "fifteenperiod", [9366]);
   (bs "figuredash", [8210]);
   (bs "filledbox", [9632]);
   (bs "filledrect", [9644]);
   (bs "finalkaf", [1498]);
   (bs "finalkafdagesh", [64314]);
   (bs "finalkafdageshhebrew", [64314]);
   (bs "finalkafhebrew", [1498]);
   (bs "finalkafqamats", [1498; 1464]);
   (bs "finalkafqamatshebrew", [1498; 1464]);
   (bs "finalkafsheva", [1498; 1456]);
   (bs "finalkafshevahebrew", [1498; 1456]);
   (bs "finalmem", [1501]);
   (bs "finalmemhebrew", [1501]);
   (bs "finalnun", [1503]);
   (bs "finalnunhebrew", [1503]);
   (bs "finalpe", [1507]);
   (bs "finalpehebrew", [1507]);
   (bs "finaltsadi", [1509]);
   (bs "finaltsadihebrew", [1509]);
   (bs "firsttonechinese", [713]);
   (bs "fisheye", [9673]);
   (bs "fitacyrillic", [1139]);
   (bs "five", [53]);
   (bs "fivearabic", [1637]);
   (bs "fivebengali", [2539]);
   (bs "fivecircle", [9316]);
   (bs "fivecircleinversesansserif", [10126]);
   (bs "fivedeva", [2411]);
   (bs "fiveeighths", [8541]);
   (bs "fivegujarati", [2795]);
   (bs "fivegurmukhi", [2667]);
   (bs "fivehackarabic", [1637]);
   (bs "fivehangzhou", [12325]);
   (bs "fiveideographicparen", [12836]);
   (bs "fiveinferior", [8325]);
   (bs "fivemonospace", [65301]);
   (bs "fiveoldstyle", [63285]);
   (bs "fiveparen", [9336]);
   (bs "fiveperiod", [9356]);
   (bs "fivepersian", [1781]);
   (bs "fiveroman", [8564]);
   (bs "fivesuperior", [8309]);
   (bs "fivethai", [3669]);
   (bs "fl", [64258]);
   (bs "florin", [402]);
   (bs "fmonospace", [65350]);
   (bs "fmsquare", [13209]);
   (bs "fofanthai", [3615]);
   (bs "fofathai", [3613]);
   (bs "fongmanthai", [3663]);
   (bs "forall", [8704]);
   (bs "four", [52]);
   (bs "fourarabic", [1636]);
   (bs "fourbengali", [2538]);
   (bs "fourcircle", [9315]);
   (bs "fourcircleinversesansserif", [10125]);
   (bs "fourdeva", [2410]);
   (bs "fourgujarati", [2794]);
   (bs "fourgurmukhi", [2666]);
   (bs "fourhackarabic", [1636]);
   (bs "fourhangzhou", [12324]);
   (bs "fourideographicparen", [12835]);
   (bs "fourinferior", [8324]);
   (bs "fourmonospace", [65300]);
   (bs "fournumeratorbengali", [2551]);
   (bs "fouroldstyle", [63284]);
   (bs "fourparen", [9335]);
   (bs "fourperiod", [9355]);
   (bs "fourpersian", [1780]);
   (bs "fourroman", [8563]);
   (bs "foursuperior", [8308]);
   (bs "fourteencircle", [9325]);
   (bs "fourteenparen", [9345]);
   (bs "fourteenperiod", [9365]);
   (bs "fourthai", [3668]);
   (bs "fourthtonechinese", [715]);
   (bs "fparen", [9377]);
   (bs "fraction", [8260]);
   (bs "franc", [8355]);
   (bs "g", [103]);
   (bs "gabengali", [2455]);
   (bs "gacute", [501]);
   (bs "gadeva", [2327]);
   (bs "gafarabic", [1711]);
   (bs "gaffinalarabic", [64403]);
   (bs "gafinitialarabic", [64404]);
   (bs "gafmedialarabic", [64405]);
   (bs "gagujarati", [2711]);
   (bs "gagurmukhi", [2583]);
   (bs "gahiragana", [12364]);
   (bs "gakatakana", [12460]);
   (bs "gamma", [947]);
   (bs "gammalatinsmall", [611]);
   (bs "gammasuperior", [736]);
   (bs "gangiacoptic", [1003]);
   (bs "gbopomofo", [12557]);
   (bs "gbreve", [287]);
   (bs "gcaron", [487]);
   (bs "gcedilla", [291]);
   (bs "gcircle", [9430]);
   (bs "gcircumflex", [285]);
   (bs "gcommaaccent", [291]);
   (bs "gdot", [289]);
   (bs "gdotaccent", [289]);
   (bs "gecyrillic", [1075]);
   (bs "gehiragana", [12370]);
   (bs "gekatakana", [12466]);
   (bs "geometricallyequal", [8785]);
   (bs "gereshaccenthebrew", [1436]);
   (bs "gereshhebrew", [1523]);
   (bs "gereshmuqdamhebrew", [1437]);
   (bs "germandbls", [223]);
   (bs "gershayimaccenthebrew", [1438]);
   (bs "gershayimhebrew", [1524]);
   (bs "getamark", [12307]);
   (bs "ghabengali", [2456]);
   (bs "ghadarmenian", [1394]);
   (bs "ghadeva", [2328]);
   (bs "ghagujarati", [2712]);
   (bs "ghagurmukhi", [2584]);
   (bs "ghainarabic", [1594]);
   (bs "ghainfinalarabic", [65230]);
   (bs "ghaininitialarabic", [65231]);
   (bs "ghainmedialarabic", [65232]);
   (bs "ghemiddlehookcyrillic", [1173]);
   (bs "ghestrokecyrillic", [1171]);
   (bs "gheupturncyrillic", [1169]);
   (bs "ghhadeva", [2394]);
   (bs "ghhagurmukhi", [2650]);
   (bs "ghook", [608]);
   (bs "ghzsquare", [13203]);
   (bs "gihiragana", [12366]);
   (bs "gikatakana", [12462]);
   (bs "gimarmenian", [1379]);
   (bs "gimel", [1490]);
   (bs "gimeldagesh", [64306]);
   (bs "gimeldageshhebrew", [64306]);
   (bs "gimelhebrew", [1490]);
   (bs "gjecyrillic", [1107]);
   (bs "glottalinvertedstroke", [446]);
   (bs "glottalstop", [660]);
   (bs "glottalstopinverted", [662]);
   (bs "glottalstopmod", [704]);
   (bs "glottalstopreversed", [661]);
   (bs "glottalstopreversedmod", [705]);
   (bs "glottalstopreversedsuperior", [740]);
   (bs "glottalstopstroke", [673]);
   (bs "glottalstopstrokereversed", [674]);
   (bs "gmacron", [7713]);
   (bs "gmonospace", [65351]);
   (bs "gohiragana", [12372]);
   (bs "gokatakana", [12468]);
   (bs "gparen", [9378]);
   (bs "gpasquare", [13228]);
   (bs "gradient", [8711]);
   (bs "grave", [96]);
   (bs "gravebelowcmb", [790]);
   (bs "gravecmb", [768]);
   (bs "gravecomb", [768]);
   (bs "gravedeva", [2387]);
   (bs "gravelowmod", [718]);
   (bs "gravemonospace", [65344]);
   (bs "gravetonecmb", [832]);
   (bs "greater", [62]);
   (bs "greaterequal", [8805]);
   (bs "greaterequalorless", [8923]);
   (bs "greatermonospace", [65310]);
   (bs "greaterorequivalent", [8819]);
   (bs "greaterorless", [8823]);
   (bs "greateroverequal", [8807]);
   (bs "greatersmall", [65125]);
   (bs "gscript", [609]);
   (bs "gstroke", [485]);
   (bs "guhiragana", [12368]);
   (bs "guillemotleft", [171]);
   (bs "guillemotright", [187]);
   (bs "guilsinglleft", [8249]);
   (bs "guilsinglright", [8250]);
   (bs "gukatakana", [12464]);
   (bs "guramusquare", [13080]);
   (bs "gysquare", [13257]);
   (bs "h", [104]);
   (bs "haabkhasiancyrillic", [1193]);
   (bs "haaltonearabic", [1729]);
   (bs "habengali", [2489]);
   (bs "hadescendercyrillic", [1203]);
   (bs "hadeva", [2361]);
   (bs "hagujarati", [2745]);
   (bs "hagurmukhi", [2617]);
   (bs "haharabic", [1581]);
   (bs "hahfinalarabic", [65186]);
   (bs "hahinitialarabic", [65187]);
   (bs "hahiragana", [12399]);
   (bs "hahmedialarabic", [65188]);
   (bs "haitusquare", [13098]);
   (bs "hakatakana", [12495]);
   (bs "hakatakanahalfwidth", [65418]);
   (bs "halantgurmukhi", [2637]);
   (bs "hamzaarabic", [1569]);
   (bs "hamzadammaarabic", [1569; 1615]);
   (bs "hamzadammatanarabic", [1569; 1612]);
   (bs "hamzafathaarabic", [1569; 1614]);
   (bs "hamzafathatanarabic", [1569; 1611]);
   (bs "hamzalowarabic", [1569]);
   (bs "hamzalowkasraarabic", [1569; 1616]);
   (bs "hamzalowkasratanarabic", [1569; 1613]);
   (bs "hamzasukunarabic", [1569; 1618]);
   (bs "hangulfiller", [12644]);
   (bs "hardsigncyrillic", [1098]);
   (bs "harpoonleftbarbup", [8636]);
   (bs "harpoonrightbarbup", [8640]);
   (bs "hasquare", [13258]);
   (bs "hatafpatah", [1458]);
   (bs "hatafpatah16", [1458]);
   (bs "hatafpatah23", [1458]);
   (bs "hatafpatah2f", [1458]);
   (bs "hatafpatahhebrew", [1458]);
   (bs "hatafpatahnarrowhebrew", [1458]);
   (bs "hatafpatahquarterhebrew", [1458]);
   (bs "hatafpatahwidehebrew", [1458]);
   (bs "hatafqamats", [1459]);
   (bs "hatafqamats1b", [1459]);
   (bs "hatafqamats28", [1459]);
   (bs "hatafqamats34", [1459]);
   (bs "hatafqamatshebrew", [1459]);
   (bs "hatafqamatsnarrowhebrew", [1459]);
   (bs "hatafqamatsquarterhebrew", [1459]);
   (bs "hatafqamatswidehebrew", [1459]);
   (bs "hatafsegol", [1457]);
   (bs "hatafsegol17", [1457]);
   (bs "hatafsegol24", [1457]);
   (bs "hatafsegol30", [1457]);
   (bs "hatafsegolhebrew", [1457]);
   (bs "hatafsegolnarrowhebrew", [1457]);
   (bs "hatafsegolquarterhebrew", [1457]);
   (bs "hatafsegolwidehebrew", [1457]);
   (bs "hbar", [295]);
   (bs "hbopomofo", [12559]);
   (bs "hbrevebelow", [7723]);
   (bs "hcedilla", [7721]);
   (bs "hcircle", [9431]);
   (bs "hcircumflex", [293]);
   (bs "hdieresis", [7719]);
   (bs "hdotaccent", [7715]);
   (bs "hdotbelow", [7717]);
   (bs "he", [1492]);
   (bs "heart", [9829]);
   (bs "heartsuitblack", [9829]);
   (bs "heartsuitwhite", [9825]);
   (bs "hedagesh", [64308]);
   (bs "hedageshhebrew", [64308]);
   (bs "hehaltonearabic", [1729]);
   (bs "heharabic", [1607]);
   (bs "hehebrew", [1492]);
   (bs "hehfinalaltonearabic", [64423]);
   (bs "hehfinalalttwoarabic", [65258]);
   (bs "hehfinalarabic", [65258]);
   (bs "hehhamzaabovefinalarabic", [64421]);
   (bs "hehhamzaaboveisolatedarabic", [64420]);
   (bs "hehinitialaltonearabic", [64424]);
   (bs "hehinitialarabic", [65259]);
   (bs "hehiragana", [12408]);
   (bs "hehmedialaltonearabic", [64425]);
   (bs "hehmedialarabic", [65260]);
   (bs "heiseierasquare", [13179]);
   (bs "hekatakana", [12504]);
   (bs "hekatakanahalfwidth", [65421]);
   (bs "hekutaarusquare", [13110]);
   (bs "henghook", [615]);
   (bs "herutusquare", [13113]);
   (bs "het", [1495]);
   (bs "hethebrew", [1495]);
   (bs "hhook", [614]);
   (bs "hhooksuperior", [689]);
   (bs "hieuhacirclekorean", [12923]);
   (bs "hieuhaparenkorean", [12827]);
   (bs "hieuhcirclekorean", [12909]);
   (bs "hieuhkorean", [12622]);
   (bs "hieuhparenkorean", [12813]);
   (bs "hihiragana", [12402]);
   (bs "hikatakana", [12498]);
   (bs "hikatakanahalfwidth", [65419]);
   (bs "hiriq", [1460]);
   (bs "hiriq14", [1460]);
   (bs "hiriq21", [1460]);
   (bs "hiriq2d", [1460]);
   (bs "hiriqhebrew", [1460]);
   (bs "hiriqnarrowhebrew", [1460]);
   (bs "hiriqquarterhebrew", [1460]);
   (bs "hiriqwidehebrew", [1460]);
   (bs "hlinebelow", [7830]);
   (bs "hmonospace", [65352]);
   (bs "hoarmenian", [1392]);
   (bs "hohipthai", [3627]);
   (bs "hohiragana", [12411]);
   (bs "hokatakana", [12507]);
   (bs "hokatakanahalfwidth", [65422]);
   (bs "holam", [1465]);
   (bs "holam19", [1465]);
   (bs "holam26", [1465]);
   (bs "holam32", [1465]);
   (bs "holamhebrew", [1465]);
   (bs "holamnarrowhebrew", [1465]);
   (bs "holamquarterhebrew", [1465]);
   (bs "holamwidehebrew", [1465]);
   (bs "honokhukthai", [3630]);
   (bs "hookabovecomb", [777]);
   (bs "hookcmb", [777]);
   (bs "hookpalatalizedbelowcmb", [801]);
   (bs "hookretroflexbelowcmb", [802]);
   (bs "hoonsquare", [13122]);
   (bs "horicoptic", [1001]);
   (bs "horizontalbar", [8213]);
   (bs "horncmb", [795]);
   (bs "hotsprings", [9832]);
   (bs "house", [8962]);
   (bs "hparen", [9379]);
   (bs "hsuperior", [688]);
   (bs "hturned", [613]);
   (bs "huhiragana", [12405]);
   (bs "huiitosquare", [13107]);
   (bs "hukatakana", [12501]);
   (bs "hukatakanahalfwidth", [65420]);
   (bs "hungarumlaut", [733]);
   (bs "hungarumlautcmb", [779]);
   (bs "hv", [405]);
   (bs "hyphen", [45]);
   (bs "hypheninferior", [63205]);
   (bs "hyphenmonospace", [65293]);
   (bs "hyphensmall", [65123]);
   (bs "hyphensuperior", [63206]);
   (bs "hyphentwo", [8208]);
   (bs "i", [105]);
   (bs "iacute", [237]);
   (bs "iacyrillic", [1103]);
   (bs "ibengali", [2439]);
   (bs "ibopomofo", [12583]);
   (bs "ibreve", [301]);
   (bs "icaron", [464]);
   (bs "icircle", [9432]);
   (bs "icircumflex", [238]);
   (bs "icyrillic", [1110]);
   (bs "idblgrave", [521]);
   (bs "ideographearthcircle", [12943]);
   (bs "ideographfirecircle", [12939]);
   (bs "ideographicallianceparen", [12863]);
   (bs "ideographiccallparen", [12858]);
   (bs "ideographiccentrecircle", [12965]);
   (bs "ideographicclose", [12294]);
   (bs "ideographiccomma", [12289]);
   (bs "ideographiccommaleft", [65380]);
   (bs "ideographiccongratulationparen", [12855]);
   (bs "ideographiccorrectcircle", [12963]);
   (bs "ideographicearthparen", [12847]);
   (bs "ideographicenterpriseparen", [12861]);
   (bs "ideographicexcellentcircle", [12957]);
   (bs "ideographicfestivalparen", [12864]);
   (bs "ideographicfinancialcircle", [12950]);
   (bs "ideographicfinancialparen", [12854]);
   (bs "ideographicfireparen", [12843]);
   (bs "ideographichaveparen", [12850]);
   (bs "ideographichighcircle", [12964]);
   (bs "ideographiciterationmark", [12293]);
   (bs "ideographiclaborcircle", [12952]);
   (bs "ideographiclaborparen", [12856]);
   (bs "ideographicleftcircle", [12967]);
   (bs "ideographiclowcircle", [12966]);
   (bs "ideographicmedicinecircle", [12969]);
   (bs "ideographicmetalparen", [12846]);
   (bs "ideographicmoonparen", [12842]);
   (bs "ideographicnameparen", [12852]);
   (bs "ideographicperiod", [12290]);
   (bs "ideographicprintcircle", [12958]);
   (bs "ideographicreachparen", [12867]);
   (bs "ideographicrepresentparen", [12857]);
   (bs "ideographicresourceparen", [12862]);
   (bs "ideographicrightcircle", [12968]);
   (bs "ideographicsecretcircle", [12953]);
   (bs "ideographicselfparen", [12866]);
   (bs "ideographicsocietyparen", [12851]);
   (bs "ideographicspace", [12288]);
   (bs "ideographicspecialparen", [12853]);
   (bs "ideographicstockparen", [12849]);
   (bs "ideographicstudyparen", [12859]);
   (bs "ideographicsunparen", [12848]);
   (bs "ideographicsuperviseparen", [12860]);
   (bs "ideographicwaterparen", [12844]);
   (bs "ideographicwoodparen", [12845]);
   (bs "ideographiczero", [12295]);
   (bs "ideographmetalcircle", [12942]);
   (bs "ideographmooncircle", [12938]);
   (bs "ideographnamecircle", [12948]);
   (bs "ideographsuncircle", [12944]);
   (bs "ideographwatercircle", [12940]);
   (bs "ideographwoodcircle", [12941]);
   (bs "ideva", [2311]);
   (bs "idieresis", [239]);
   (bs "idieresisacute", [7727]);
   (bs "idieresiscyrillic", [1253]);
   (bs "idotbelow", [7883]);
   (bs "iebrevecyrillic", [1239]);
   (bs "iecyrillic", [1077]);
   (bs "ieungacirclekorean", [12917]);
   (bs "ieungaparenkorean", [12821]);
   (bs "ieungcirclekorean", [12903]);
   (bs "ieungkorean", [12615]);
   (bs "ieungparenkorean", [12807]);
   (bs "igrave", [236]);
   (bs "igujarati", [2695]);
   (bs "igurmukhi", [2567]);
   (bs "ihiragana", [12356]);
   (bs "ihookabove", [7881]);
   (bs "iibengali", [2440]);
   (bs "iicyrillic", [1080]);
   (bs "iideva", [2312]);
   (bs "iigujarati", [2696]);
   (bs "iigurmukhi", [2568]);
   (bs "iimatragurmukhi", [2624]);
   (bs "iinvertedbreve", [523]);
   (bs "iishortcyrillic", [1081]);
   (bs "iivowelsignbengali", [2496]);
   (bs "iivowelsigndeva", [2368]);
   (bs "iivowelsigngujarati", [2752]);
   (bs "ij", [307]);
   (bs "ikatakana", [12452]);
   (bs "ikatakanahalfwidth", [65394]);
   (bs "ikorean", [12643]);
   (bs "ilde", [732]);
   (bs "iluyhebrew", [1452]);
   (bs "imacron", [299]);
   (bs "imacroncyrillic", [1251]);
   (bs "imageorapproximatelyequal", [8787]);
   (bs "imatragurmukhi", [2623]);
   (bs "imonospace", [65353]);
   (bs "increment", [8710]);
   (bs "infinity", [8734]);
   (bs "iniarmenian", [1387]);
   (bs "integral", [8747]);
   (bs "integralbottom", [8993]);
   (bs "integralbt", [8993]);
   (bs "integralex", [63733]);
   (bs "integraltop", [8992]);
   (bs "integraltp", [8992]);
   (bs "intersection", [8745]);
   (bs "intisquare", [13061]);
   (bs "invbullet", [9688]);
   (bs "invcircle", [9689]);
   (bs "invsmileface", [9787]);
   (bs "iocyrillic", [1105]);
   (bs "iogonek", [303]);
   (bs "iota", [953]);
   (bs "iotadieresis", [970]);
   (bs "iotadieresistonos", [912]);
   (bs "iotalatin", [617]);
   (bs "iotatonos", [943]);
   (bs "iparen", [9380]);
   (bs "irigurmukhi", [2674]);
   (bs "ismallhiragana", [12355]);
   (bs "ismallkatakana", [12451]);
   (bs "ismallkatakanahalfwidth", [65384]);
   (bs "issharbengali", [2554]);
   (bs "istroke", [616]);
   (bs "isuperior", [63213]);
   (bs "iterationhiragana", [12445]);
   (bs "iterationkatakana", [12541]);
   (bs "itilde", [297]);
   (bs "itildebelow", [7725]);
   (bs "iubopomofo", [12585]);
   (bs "iucyrillic", [1102]);
   (bs "ivowelsignbengali", [2495]);
   (bs "ivowelsigndeva", [2367]);
   (bs "ivowelsigngujarati", [2751]);
   (bs "izhitsacyrillic", [1141]);
   (bs "izhitsadblgravecyrillic", [1143]);
   (bs "j", [106]);
   (bs "jaarmenian", [1393]);
   (bs "jabengali", [2460]);
   (bs "jadeva", [2332]);
   (bs "jagujarati", [2716]);
   (bs "jagurmukhi", [2588]);
   (bs "jbopomofo", [12560]);
   (bs "jcaron", [496]);
   (bs "jcircle", [9433]);
   (bs "jcircumflex", [309]);
   (bs "jcrossedtail", [669]);
   (bs "jdotlessstroke", [607]);
   (bs "jecyrillic", [1112]);
   (bs "jeemarabic", [1580]);
   (bs "jeemfinalarabic", [65182]);
   (bs "jeeminitialarabic", [65183]);
   (bs "jeemmedialarabic", [65184]);
   (bs "jeharabic", [1688]);
   (bs "jehfinalarabic", [64395]);
   (bs "jhabengali", [2461]);
   (bs "jhadeva", [2333]);
   (bs "jhagujarati", [2717]);
   (bs "jhagurmukhi", [2589]);
   (bs "jheharmenian", [1403]);
   (bs "jis", [12292]);
   (bs "jmonospace", [65354]);
   (bs "jparen", [9381]);
   (bs "jsuperior", [690]);
   (bs "k", [107]);
   (bs "kabashkircyrillic", [1185]);
   (bs "kabengali", [2453]);
   (bs "kacute", [7729]);
   (bs "kacyrillic", [1082]);
   (bs "kadescendercyrillic", [1179]);
   (bs "kadeva", [2325]);
   (bs "kaf", [1499]);
   (bs "kafarabic", [1603]);
   (bs "kafdagesh", [64315]);
   (bs "kafdageshhebrew", [64315]);
   (bs "kaffinalarabic", [65242]);
   (bs "kafhebrew", [1499]);
   (bs "kafinitialarabic", [65243]);
   (bs "kafmedialarabic", [65244]);
   (bs "kafrafehebrew", [64333]);
   (bs "kagujarati", [2709]);
   (bs "kagurmukhi", [2581]);
   (bs "kahiragana", [12363]);
   (bs "kahookcyrillic", [1220]);
   (bs "kakatakana", [12459]);
   (bs "kakatakanahalfwidth", [65398]);
   (bs "kappa", [954]);
   (bs "kappasymbolgreek", [1008]);
   (bs "kapyeounmieumkorean", [12657]);
   (bs "kapyeounphieuphkorean", [12676]);
   (bs "kapyeounpieupkorean", [12664]);
   (bs "kapyeounssangpieupkorean", [12665]);
   (bs "karoriisquare", [13069]);
   (bs "kashidaautoarabic", [1600]);
   (bs "kashidaautonosidebearingarabic", [1600]);
   (bs "kasmallkatakana", [12533]);
   (bs "kasquare", [13188]);
   (bs "kasraarabic", [1616]);
   (bs "kasratanarabic", [1613]);
   (bs "kastrokecyrillic", [1183]);
   (bs "katahiraprolongmarkhalfwidth", [65392]);
   (bs "kaverticalstrokecyrillic", [1181]);
   (bs "kbopomofo", [12558]);
   (bs "kcalsquare", [13193]);
   (bs "kcaron", [489]);
   (bs "kcedilla", [311]);
   (bs "kcircle", [9434]);
   (bs "kcommaaccent", [311]);
   (bs "kdotbelow", [7731]);
   (bs "keharmenian", [1412]);
   (bs "kehiragana", [12369]);
   (bs "kekatakana", [12465]);
   (bs "kekatakanahalfwidth", [65401]);
   (bs "kenarmenian", [1391]);
   (bs "kesmallkatakana", [12534]);
   (bs "kgreenlandic", [312]);
   (bs "khabengali", [2454]);
   (bs "khacyrillic", [1093]);
   (bs "khadeva", [2326]);
   (bs "khagujarati", [2710]);
   (bs "khagurmukhi", [2582]);
   (bs "khaharabic", [1582]);
   (bs "khahfinalarabic", [65190]);
   (bs "khahinitialarabic", [65191]);
   (bs "khahmedialarabic", [65192]);
   (bs "kheicoptic", [999]);
   (bs "khhadeva", [2393]);
   (bs "khhagurmukhi", [2649]);
   (bs "khieukhacirclekorean", [12920]);
   (bs "khieukhaparenkorean", [12824]);
   (bs "khieukhcirclekorean", [12906]);
   (bs "khieukhkorean", [12619]);
   (bs "khieukhparenkorean", [12810]);
   (bs "khokhaithai", [3586]);
   (bs "khokhonthai", [3589]);
   (bs "khokhuatthai", [3587]);
   (bs "khokhwaithai", [3588]);
   (bs "khomutthai", [3675]);
   (bs "khook", [409]);
   (bs "khorakhangthai", [3590]);
   (bs "khzsquare", [13201]);
   (bs "kihiragana", [12365]);
   (bs "kikatakana", [12461]);
   (bs "kikatakanahalfwidth", [65399]);
   (bs "kiroguramusquare", [13077]);
   (bs "kiromeetorusquare", [13078]);
   (bs "kirosquare", [13076]);
   (bs "kiyeokacirclekorean", [12910]);
   (bs "kiyeokaparenkorean", [12814]);
   (bs "kiyeokcirclekorean", [12896]);
   (bs "kiyeokkorean", [12593]);
   (bs "kiyeokparenkorean", [12800]);
   (bs "kiyeoksioskorean", [12595]);
   (bs "kjecyrillic", [1116]);
   (bs "klinebelow", [7733]);
   (bs "klsquare", [13208]);
   (bs "kmcubedsquare", [13222]);
   (bs "kmonospace", [65355]);
   (bs "kmsquaredsquare", [13218]);
   (bs "kohiragana", [12371]);
   (bs "kohmsquare", [13248]);
   (bs "kokaithai", [3585]);
   (bs "kokatakana", [12467]);
   (bs "kokatakanahalfwidth", [65402]);
   (bs "kooposquare", [13086]);
   (bs "koppacyrillic", [1153]);
   (bs "koreanstandardsymbol", [12927]);
   (bs "koroniscmb", [835]);
   (bs "kparen", [9382]);
   (bs "kpasquare", [13226]);
   (bs "ksicyrillic", [1135]);
   (bs "ktsquare", [13263]);
   (bs "kturned", [670]);
   (bs "kuhiragana", [12367]);
   (bs "kukatakana", [12463]);
   (bs "kukatakanahalfwidth", [65400]);
   (bs "kvsquare", [13240]);
   (bs "kwsquare", [13246]);
   (bs "l", [108]);
   (bs "labengali", [2482]);
   (bs "lacute", [314]);
   (bs "ladeva", [2354]);
   (bs "lagujarati", [2738]);
   (bs "lagurmukhi", [2610]);
   (bs "lakkhangyaothai", [3653]);
   (bs "lamaleffinalarabic", [65276]);
   (bs "lamalefhamzaabovefinalarabic", [65272]);
   (bs "lamalefhamzaaboveisolatedarabic", [65271]);
   (bs "lamalefhamzabelowfinalarabic", [65274]);
   (bs "lamalefhamzabelowisolatedarabic", [65273]);
   (bs "lamalefisolatedarabic", [65275]);
   (bs "lamalefmaddaabovefinalarabic", [65270]);
   (bs "lamalefmaddaaboveisolatedarabic", [65269]);
   (bs "lamarabic", [1604]);
   (bs "lambda", [955]);
   (bs "lambdastroke", [411]);
   (bs "lamed", [1500]);
   (bs "lameddagesh", [64316]);
   (bs "lameddageshhebrew", [64316]);
   (bs "lamedhebrew", [1500]);
   (bs "lamedholam", [1500; 1465]);
   (bs "lamedholamdagesh", [1500; 1465; 1468]);
   (bs "lamedholamdageshhebrew", [1500; 1465; 1468]);
   (bs "lamedholamhebrew", [1500; 1465]);
   (bs "lamfinalarabic", [65246]);
   (bs "lamhahinitialarabic", [64714]);
   (bs "laminitialarabic", [65247]);
   (bs "lamjeeminitialarabic", [64713]);
   (bs "lamkhahinitialarabic", [64715]);
   (bs "lamlamhehisolatedarabic", [65010]);
   (bs "lammedialarabic", [65248]);
   (bs "lammeemhahinitialarabic", [64904]);
   (bs "lammeeminitialarabic", [64716]);
   (bs "lammeemjeeminitialarabic", [65247; 65252; 65184]);
   (bs "lammeemkhahinitialarabic", [65247; 65252; 65192]);
   (bs "largecircle", [9711]);
   (bs "lbar", [410]);
   (bs "lbelt", [620]);
   (bs "lbopomofo", [12556]);
   (bs "lcaron", [318]);
   (bs "lcedilla", [316]);
   (bs "lcircle", [9435]);
   (bs "lcircumflexbelow", [7741]);
   (bs "lcommaaccent", [316]);
   (bs "ldot", [320]);
   (bs "ldotaccent", [320]);
   (bs "ldotbelow", [7735]);
   (bs "ldotbelowmacron", [7737]);
   (bs "leftangleabovecmb", [794]);
   (bs "lefttackbelowcmb", [792]);
   (bs "less", [60]);
   (bs "lessequal", [8804]);
   (bs "lessequalorgreater", [8922]);
   (bs "lessmonospace", [65308]);
   (bs "lessorequivalent", [8818]);
   (bs "lessorgreater", [8822]);
   (bs "lessoverequal", [8806]);
   (bs "lesssmall", [65124]);
   (bs "lezh", [622]);
   (bs "lfblock", [9612]);
   (bs "lhookretroflex", [621]);
   (bs "lira", [8356]);
   (bs "liwnarmenian", [1388]);
   (bs "lj", [457]);
   (bs "ljecyrillic", [1113]);
   (bs "ll", [63168]);
   (bs "lladeva", [2355]);
   (bs "llagujarati", [2739]);
   (bs "llinebelow", [7739]);
   (bs "llladeva", [2356]);
   (bs "llvocalicbengali", [2529]);
   (bs "llvocalicdeva", [2401]);
   (bs "llvocalicvowelsignbengali", [2531]);
   (bs "llvocalicvowelsigndeva", [2403]);
   (bs "lmiddletilde", [619]);
   (bs "lmonospace", [65356]);
   (bs "lmsquare", [13264]);
   (bs "lochulathai", [3628]);
   (bs "logicaland", [8743]);
   (bs "logicalnot", [172]);
   (bs "logicalnotreversed", [8976]);
   (bs "logicalor", [8744]);
   (bs "lolingthai", [3621]);
   (bs "longs", [383]);
   (bs "lowlinecenterline", [65102]);
   (bs "lowlinecmb", [818]);
   (bs "lowlinedashed", [65101]);
   (bs "lozenge", [9674]);
   (bs "lparen", [9383]);
   (bs "lslash", [322]);
   (bs "lsquare", [8467]);
   (bs "lsuperior", [63214]);
   (bs "ltshade", [9617]);
   (bs "luthai", [3622]);
   (bs "lvocalicbengali", [2444]);
   (bs "lvocalicdeva", [2316]);
   (bs "lvocalicvowelsignbengali", [2530]);
   (bs "lvocalicvowelsigndeva", [2402]);
   (bs "lxsquare", [13267]);
   (bs "m", [109]);
   (bs "mabengali", [2478]);
   (bs "macron", [175]);
   (bs "macronbelowcmb", [817]);
   (bs "macroncmb", [772]);
   (bs "macronlowmod", [717]);
   (bs "macronmonospace", [65507]);
   (bs "macute", [7743]);
   (bs "madeva", [2350]);
   (bs "magujarati", [2734]);
   (bs "magurmukhi", [2606]);
   (bs "mahapakhhebrew", [1444]);
   (bs "mahapakhlefthebrew", [1444]);
   (bs "mahiragana", [12414]);
   (bs "maichattawalowleftthai", [63637]);
   (bs "maichattawalowrightthai", [63636]);
   (bs "maichattawathai", [3659]);
   (bs "maichattawaupperleftthai", [63635]);
   (bs "maieklowleftthai", [63628]);
   (bs "maieklowrightthai", [63627]);
   (bs "maiekthai", [3656]);
   (bs "maiekupperleftthai", [63626]);
   (bs "maihanakatleftthai", [63620]);
   (bs "maihanakatthai", [3633]);
   (bs "maitaikhuleftthai", [63625]);
   (bs "maitaikhuthai", [3655]);
   (bs "maitholowleftthai", [63631]);
   (bs "maitholowrightthai", [63630]);
   (bs "maithothai", [3657]);
   (bs "maithoupperleftthai", [63629]);
   (bs "maitrilowleftthai", [63634]);
   (bs "maitrilowrightthai", [63633]);
   (bs "maitrithai", [3658]);
   (bs "maitriupperleftthai", [63632]);
   (bs "maiyamokthai", [3654]);
   (bs "makatakana", [12510]);
   (bs "makatakanahalfwidth", [65423]);
   (bs "male", [9794]);
   (bs "mansyonsquare", [13127]);
   (bs "maqafhebrew", [1470]);
   (bs "mars", [9794]);
   (bs "masoracirclehebrew", [1455]);
   (bs "masquare", [13187]);
   (bs "mbopomofo", [12551]);
   (bs "mbsquare", [13268]);
   (bs "mcircle", [9436]);
   (bs "mcubedsquare", [13221]);
   (bs "mdotaccent", [7745]);
   (bs "mdotbelow", [7747]);
   (bs "meemarabic", [1605]);
   (bs "meemfinalarabic", [65250]);
   (bs "meeminitialarabic", [65251]);
   (bs "meemmedialarabic", [65252]);
   (bs "meemmeeminitialarabic", [64721]);
   (bs "meemmeemisolatedarabic", [64584]);
   (bs "meetorusquare", [13133]);
   (bs "mehiragana", [12417]);
   (bs "meizierasquare", [13182]);
   (bs "mekatakana", [12513]);
   (bs "mekatakanahalfwidth", [65426]);
   (bs "mem", [1502]);
   (bs "memdagesh", [64318]);
   (bs "memdageshhebrew", [64318]);
   (bs "memhebrew", [1502]);
   (bs "menarmenian", [1396]);
   (bs "merkhahebrew", [1445]);
   (bs "merkhakefulahebrew", [1446]);
   (bs "merkhakefulalefthebrew", [1446]);
   (bs "merkhalefthebrew", [1445]);
   (bs "mhook", [625]);
   (bs "mhzsquare", [13202]);
   (bs "middledotkatakanahalfwidth", [65381]);
   (bs "middot", [183]);
   (bs "mieumacirclekorean", [12914]);
   (bs "mieumaparenkorean", [12818]);
   (bs "mieumcirclekorean", [12900]);
   (bs "mieumkorean", [12609]);
   (bs "mieumpansioskorean", [12656]);
   (bs "mieumparenkorean", [12804]);
   (bs "mieumpieupkorean", [12654]);
   (bs "mieumsioskorean", [12655]);
   (bs "mihiragana", [12415]);
   (bs "mikatakana", [12511]);
   (bs "mikatakanahalfwidth", [65424]);
   (bs "minus", [8722]);
   (bs "minusbelowcmb", [800]);
   (bs "minuscircle", [8854]);
   (bs "minusmod", [727]);
   (bs "minusplus", [8723]);
   (bs "minute", [8242]);
   (bs "miribaarusquare", [13130]);
   (bs "mirisquare", [13129]);
   (bs "mlonglegturned", [624]);
   (bs "mlsquare", [13206]);
   (bs "mmcubedsquare", [13219]);
   (bs "mmonospace", [65357]);
   (bs "mmsquaredsquare", [13215]);
   (bs "mohiragana", [12418]);
   (bs "mohmsquare", [13249]);
   (bs "mokatakana", [12514]);
   (bs "mokatakanahalfwidth", [65427]);
   (bs "molsquare", [13270]);
   (bs "momathai", [3617]);
   (bs "moverssquare", [13223]);
   (bs "moverssquaredsquare", [13224]);
   (bs "mparen", [9384]);
   (bs "mpasquare", [13227]);
   (bs "mssquare", [13235]);
   (bs "msuperior", [63215]);
   (bs "mturned", [623]);
   (bs "mu", [181]);
   (bs "mu1", [181]);
   (bs "muasquare", [13186]);
   (bs "muchgreater", [8811]);
   (bs "muchless", [8810]);
   (bs "mufsquare", [13196]);
   (bs "mugreek", [956]);
   (bs "mugsquare", [13197]);
   (bs "muhiragana", [12416]);
   (bs "mukatakana", [12512]);
   (bs "mukatakanahalfwidth", [65425]);
   (bs "mulsquare", [13205]);
   (bs "multiply", [215]);
   (bs "mumsquare", [13211]);
   (bs "munahhebrew", [1443]);
   (bs "munahlefthebrew", [1443]);
   (bs "musicalnote", [9834]);
   (bs "musicalnotedbl", [9835]);
   (bs "musicflatsign", [9837]);
   (bs "musicsharpsign", [9839]);
   (bs "mussquare", [13234]);
   (bs "muvsquare", [13238]);
   (bs "muwsquare", [13244]);
   (bs "mvmegasquare", [13241]);
   (bs "mvsquare", [13239]);
   (bs "mwmegasquare", [13247]);
   (bs "mwsquare", [13245]);
   (bs "n", [110]);
   (bs "nabengali", [2472]);
   (bs "nabla", [8711]);
   (bs "nacute", [324]);
   (bs "nadeva", [2344]);
   (bs "nagujarati", [2728]);
   (bs "nagurmukhi", [2600]);
   (bs "nahiragana", [12394]);
   (bs "nakatakana", [12490]);
   (bs "nakatakanahalfwidth", [65413]);
   (bs "napostrophe", [329]);
   (bs "nasquare", [13185]);
   (bs "nbopomofo", [12555]);
   (bs "nbspace", [160]);
   (bs "ncaron", [328]);
   (bs "ncedilla", [326]);
   (bs "ncircle", [9437]);
   (bs "ncircumflexbelow", [7755]);
   (bs "ncommaaccent", [326]);
   (bs "ndotaccent", [7749]);
   (bs "ndotbelow", [7751]);
   (bs "nehiragana", [12397]);
   (bs "nekatakana", [12493]);
   (bs "nekatakanahalfwidth", [65416]);
   (bs "newsheqelsign", [8362]);
   (bs "nfsquare", [13195]);
   (bs "ngabengali", [2457]);
   (bs "ngadeva", [2329]);
   (bs "ngagujarati", [2713]);
   (bs "ngagurmukhi", [2585]);
   (bs "ngonguthai", [3591]);
   (bs "nhiragana", [12435]);
   (bs "nhookleft", [626]);
   (bs "nhookretroflex", [627]);
   (bs "nieunacirclekorean", [12911]);
   (bs "nieunaparenkorean", [12815]);
   (bs "nieuncieuckorean", [12597]);
   (bs "nieuncirclekorean", [12897]);
   (bs "nieunhieuhkorean", [12598]);
   (bs "nieunkorean", [12596]);
   (bs "nieunpansioskorean", [12648]);
   (bs "nieunparenkorean", [12801]);
   (bs "nieunsioskorean", [12647]);
   (bs "nieuntikeutkorean", [12646]);
   (bs "nihiragana", [12395]);
   (bs "nikatakana", [12491]);
   (bs "nikatakanahalfwidth", [65414]);
   (bs "nikhahitleftthai", [63641]);
   (bs "nikhahitthai", [3661]);
   (bs "nine", [57]);
   (bs "ninearabic", [1641]);
   (bs "ninebengali", [2543]);
   (bs "ninecircle", [9320]);
   (bs "ninecircleinversesansserif", [10130]);
   (bs "ninedeva", [2415]);
   (bs "ninegujarati", [2799]);
   (bs "ninegurmukhi", [2671]);
   (bs "ninehackarabic", [1641]);
   (bs "ninehangzhou", [12329]);
   (bs "nineideographicparen", [12840]);
   (bs "nineinferior", [8329]);
   (bs "ninemonospace", [65305]);
   (bs "nineoldstyle", [63289]);
   (bs "nineparen", [9340]);
   (bs "nineperiod", [9360]);
   (bs "ninepersian", [1785]);
   (bs "nineroman", [8568]);
   (bs "ninesuperior", [8313]);
   (bs "nineteencircle", [9330]);
   (bs "nineteenparen", [9350]);
   (bs "nineteenperiod", [9370]);
   (bs "ninethai", [3673]);
   (bs "nj", [460]);
   (bs "njecyrillic", [1114]);
   (bs "nkatakana", [12531]);
   (bs "nkatakanahalfwidth", [65437]);
   (bs "nlegrightlong", [414]);
   (bs "nlinebelow", [7753]);
   (bs "nmonospace", [65358]);
   (bs "nmsquare", [13210]);
   (bs "nnabengali", [2467]);
   (bs "nnadeva", [2339]);
   (bs "nnagujarati", [2723]);
   (bs "nnagurmukhi", [2595]);
   (bs "nnnadeva", [2345]);
   (bs "nohiragana", [12398]);
   (bs "nokatakana", [12494]);
   (bs "nokatakanahalfwidth", [65417]);
   (bs "nonbreakingspace", [160]);
   (bs "nonenthai", [3603]);
   (bs "nonuthai", [3609]);
   (bs "noonarabic", [1606]);
   (bs "noonfinalarabic", [65254]);
   (bs "noonghunnaarabic", [1722]);
   (bs "noonghunnafinalarabic", [64415]);
   (bs "noonhehinitialarabic", [65255; 65260]);
   (bs "nooninitialarabic", [65255]);
   (bs "noonjeeminitialarabic", [64722]);
   (bs "noonjeemisolatedarabic", [64587]);
   (bs "noonmedialarabic", [65256]);
   (bs "noonmeeminitialarabic", [64725]);
   (bs "noonmeemisolatedarabic", [64590]);
   (bs "noonnoonfinalarabic", [64653]);
   (bs "notcontains", [8716]);
   (bs "notelement", [8713]);
   (bs "notelementof", [8713]);
   (bs "notequal", [8800]);
   (bs "notgreater", [8815]);
   (bs "notgreaternorequal", [8817]);
   (bs "notgreaternorless", [8825]);
   (bs "notidentical", [8802]);
   (bs "notless", [8814]);
   (bs "notlessnorequal", [8816]);
   (bs "notparallel", [8742]);
   (bs "notprecedes", [8832]);
   (bs "notsubset", [8836]);
   (bs "notsucceeds", [8833]);
   (bs "notsuperset", [8837]);
   (bs "nowarmenian", [1398]);
   (bs "nparen", [9385]);
   (bs "nssquare", [13233]);
   (bs "nsuperior", [8319]);
   (bs "ntilde", [241]);
   (bs "nu", [957]);
   (bs "nuhiragana", [12396]);
   (bs "nukatakana", [12492]);
   (bs "nukatakanahalfwidth", [65415]);
   (bs "nuktabengali", [2492]);
   (bs "nuktadeva", [2364]);
   (bs "nuktagujarati", [2748]);
   (bs "nuktagurmukhi", [2620]);
   (bs "numbersign", [35]);
   (bs "numbersignmonospace", [65283]);
   (bs "numbersignsmall", [65119]);
   (bs "numeralsigngreek", [884]);
   (bs "numeralsignlowergreek", [885]);
   (bs "numero", [8470]);
   (bs "nun", [1504]);
   (bs "nundagesh", [64320]);
   (bs "nundageshhebrew", [64320]);
   (bs "nunhebrew", [1504]);
   (bs "nvsquare", [13237]);
   (bs "nwsquare", [13243]);
   (bs "nyabengali", [2462]);
   (bs "nyadeva", [2334]);
   (bs "nyagujarati", [2718]);
   (bs "nyagurmukhi", [2590]);
   (bs "o", [111]);
   (bs "oacute", [243]);
   (bs "oangthai", [3629]);
   (bs "obarred", [629]);
   (bs "obarredcyrillic", [1257]);
   (bs "obarreddieresiscyrillic", [1259]);
   (bs "obengali", [2451]);
   (bs "obopomofo", [12571]);
   (bs "obreve", [335]);
   (bs "ocandradeva", [2321]);
   (bs "ocandragujarati", [2705]);
   (bs "ocandravowelsigndeva", [2377]);
   (bs "ocandravowelsigngujarati", [2761]);
   (bs "ocaron", [466]);
   (bs "ocircle", [9438]);
   (bs "ocircumflex", [244]);
   (bs "ocircumflexacute", [7889]);
   (bs "ocircumflexdotbelow", [7897]);
   (bs "ocircumflexgrave", [7891]);
   (bs "ocircumflexhookabove", [7893]);
   (bs "ocircumflextilde", [7895]);
   (bs "ocyrillic", [1086]);
   (bs "odblacute", [337]);
   (bs "odblgrave", [525]);
   (bs "odeva", [2323]);
   (bs "odieresis", [246]);
   (bs "odieresiscyrillic", [1255]);
   (bs "odotbelow", [7885]);
   (bs "oe", [339]);
   (bs "oekorean", [12634]);
   (bs "ogonek", [731]);
   (bs "ogonekcmb", [808]);
   (bs "ograve", [242]);
   (bs "ogujarati", [2707]);
   (bs "oharmenian", [1413]);
   (bs "ohiragana", [12362]);
   (bs "ohookabove", [7887]);
   (bs "ohorn", [417]);
   (bs "ohornacute", [7899]);
   (bs "ohorndotbelow", [7907]);
   (bs "ohorngrave", [7901]);
   (bs "ohornhookabove", [7903]);
   (bs "ohorntilde", [7905]);
   (bs "ohungarumlaut", [337]);
   (bs "oi", [419]);
   (bs "oinvertedbreve", [527]);
   (bs "okatakana", [12458]);
   (bs "okatakanahalfwidth", [65397]);
   (bs "okorean", [12631]);
   (bs "olehebrew", [1451]);
   (bs "omacron", [333]);
   (bs "omacronacute", [7763]);
   (bs "omacrongrave", [7761]);
   (bs "omdeva", [2384]);
   (bs "omega", [969]);
   (bs "omega1", [982]);
   (bs "omegacyrillic", [1121]);
   (bs "omegalatinclosed", [631]);
   (bs "omegaroundcyrillic", [1147]);
   (bs "omegatitlocyrillic", [1149]);
   (bs "omegatonos", [974]);
   (bs "omgujarati", [2768]);
   (bs "omicron", [959]);
   (bs "omicrontonos", [972]);
   (bs "omonospace", [65359]);
   (bs "one", [49]);
   (bs "onearabic", [1633]);
   (bs "onebengali", [2535]);
   (bs "onecircle", [9312]);
   (bs "onecircleinversesansserif", [10122]);
   (bs "onedeva", [2407]);
   (bs "onedotenleader", [8228]);
   (bs "oneeighth", [8539]);
   (bs "onefitted", [63196]);
   (bs "onegujarati", [2791]);
   (bs "onegurmukhi", [2663]);
   (bs "onehackarabic", [1633]);
   (bs "onehalf", [189]);
   (bs "onehangzhou", [12321]);
   (bs "oneideographicparen", [12832]);
   (bs "oneinferior", [8321]);
   (bs "onemonospace", [65297]);
   (bs "onenumeratorbengali", [2548]);
   (bs "oneoldstyle", [63281]);
   (bs "oneparen", [9332]);
   (bs "oneperiod", [9352]);
   (bs "onepersian", [1777]);
   (bs "onequarter", [188]);
   (bs "oneroman", [8560]);
   (bs "onesuperior", [185]);
   (bs "onethai", [3665]);
   (bs "onethird", [8531]);
   (bs "oogonek", [491]);
   (bs "oogonekmacron", [493]);
   (bs "oogurmukhi", [2579]);
   (bs "oomatragurmukhi", [2635]);
   (bs "oopen", [596]);
   (bs "oparen", [9386]);
   (bs "openbullet", [9702]);
   (bs "option", [8997]);
   (bs "ordfeminine", [170]);
   (bs "ordmasculine", [186]);
   (bs "orthogonal", [8735]);
   (bs "oshortdeva", [2322]);
   (bs "oshortvowelsigndeva", [2378]);
   (bs "oslash", [248]);
   (bs "oslashacute", [511]);
   (bs "osmallhiragana", [12361]);
   (bs "osmallkatakana", [12457]);
   (bs "osmallkatakanahalfwidth", [65387]);
   (bs "ostrokeacute", [511]);
   (bs "osuperior", [63216]);
   (bs "otcyrillic", [1151]);
   (bs "otilde", [245]);
   (bs "otildeacute", [7757]);
   (bs "otildedieresis", [7759]);
   (bs "oubopomofo", [12577]);
   (bs "overline", [8254]);
   (bs "overlinecenterline", [65098]);
   (bs "overlinecmb", [773]);
   (bs "overlinedashed", [65097]);
   (bs "overlinedblwavy", [65100]);
   (bs "overlinewavy", [65099]);
   (bs "overscore", [175]);
   (bs "ovowelsignbengali", [2507]);
   (bs "ovowelsigndeva", [2379]);
   (bs "ovowelsigngujarati", [2763]);
   (bs "p", [112]);
   (bs "paampssquare", [13184]);
   (bs "paasentosquare", [13099]);
   (bs "pabengali", [2474]);
   (bs "pacute", [7765]);
   (bs "padeva", [2346]);
   (bs "pagedown", [8671]);
   (bs "pageup", [8670]);
   (bs "pagujarati", [2730]);
   (bs "pagurmukhi", [2602]);
   (bs "pahiragana", [12401]);
   (bs "paiyannoithai", [3631]);
   (bs "pakatakana", [12497]);
   (bs "palatalizationcyrilliccmb", [1156]);
   (bs "palochkacyrillic", [1216]);
   (bs "pansioskorean", [12671]);
   (bs "paragraph", [182]);
   (bs "parallel", [8741]);
   (bs "parenleft", [40]);
   (bs "parenleftaltonearabic", [64830]);
   (bs "parenleftbt", [63725]);
   (bs "parenleftex", [63724]);
   (bs "parenleftinferior", [8333]);
   (bs "parenleftmonospace", [65288]);
   (bs "parenleftsmall", [65113]);
   (bs "parenleftsuperior", [8317]);
   (bs "parenlefttp", [63723]);
   (bs "parenleftvertical", [65077]);
   (bs "parenright", [41]);
   (bs "parenrightaltonearabic", [64831]);
   (bs "parenrightbt", [63736]);
   (bs "parenrightex", [63735]);
   (bs "parenrightinferior", [8334]);
   (bs "parenrightmonospace", [65289]);
   (bs "parenrightsmall", [65114]);
   (bs "parenrightsuperior", [8318]);
   (bs "parenrighttp", [63734]);
   (bs "parenrightvertical", [65078]);
   (bs "partialdiff", [8706]);
   (bs "paseqhebrew", [1472]);
   (bs "pashtahebrew", [1433]);
   (bs "pasquare", [13225]);
   (bs "patah", [1463]);
   (bs "patah11", [1463]);
   (bs "patah1d", [1463]);
   (bs "patah2a", [1463]);
   (bs "patahhebrew", [1463]);
   (bs "patahnarrowhebrew", [1463]);
   (bs "patahquarterhebrew", [1463]);
   (bs "patahwidehebrew", [1463]);
   (bs "pazerhebrew", [1441]);
   (bs "pbopomofo", [12550]);
   (bs "pcircle", [9439]);
   (bs "pdotaccent", [7767]);
   (bs "pe", [1508]);
   (bs "pecyrillic", [1087]);
   (bs "pedagesh", [64324]);
   (bs "pedageshhebrew", [64324]);
   (bs "peezisquare", [13115]);
   (bs "pefinaldageshhebrew", [64323]);
   (bs "peharabic", [1662]);
   (bs "peharmenian", [1402]);
   (bs "pehebrew", [1508]);
   (bs "pehfinalarabic", [64343]);
   (bs "pehinitialarabic", [64344]);
   (bs "pehiragana", [12410]);
   (bs "pehmedialarabic", [64345]);
   (bs "pekatakana", [12506]);
   (bs "pemiddlehookcyrillic", [1191]);
   (bs "perafehebrew", [64334]);
   (bs "percent", [37]);
   (bs "percentarabic", [1642]);
   (bs "percentmonospace", [65285]);
   (bs "percentsmall", [65130]);
   (bs "period", [46]);
   (bs "periodarmenian", [1417]);
   (bs "periodcentered", [183]);
   (bs "periodhalfwidth", [65377]);
   (bs "periodinferior", [63207]);
   (bs "periodmonospace", [65294]);
   (bs "periodsmall", [65106]);
   (bs "periodsuperior", [63208]);
   (bs "perispomenigreekcmb", [834]);
   (bs "perpendicular", [8869]);
   (bs "perthousand", [8240]);
   (bs "peseta", [8359]);
   (bs "pfsquare", [13194]);
   (bs "phabengali", [2475]);
   (bs "phadeva", [2347]);
   (bs "phagujarati", [2731]);
   (bs "phagurmukhi", [2603]);
   (bs "phi", [966]);
   (bs "phi1", [981]);
   (bs "phieuphacirclekorean", [12922]);
   (bs "phieuphaparenkorean", [12826]);
   (bs "phieuphcirclekorean", [12908]);
   (bs "phieuphkorean", [12621]);
   (bs "phieuphparenkorean", [12812]);
   (bs "philatin", [632]);
   (bs "phinthuthai", [3642]);
   (bs "phisymbolgreek", [981]);
   (bs "phook", [421]);
   (bs "phophanthai", [3614]);
   (bs "phophungthai", [3612]);
   (bs "phosamphaothai", [3616]);
   (bs "pi", [960]);
   (bs "pieupacirclekorean", [12915]);
   (bs "pieupaparenkorean", [12819]);
   (bs "pieupcieuckorean", [12662]);
   (bs "pieupcirclekorean", [12901]);
   (bs "pieupkiyeokkorean", [12658]);
   (bs "pieupkorean", [12610]);
   (bs "pieupparenkorean", [12805]);
   (bs "pieupsioskiyeokkorean", [12660]);
   (bs "pieupsioskorean", [12612]);
   (bs "pieupsiostikeutkorean", [12661]);
   (bs "pieupthieuthkorean", [12663]);
   (bs "pieuptikeutkorean", [12659]);
   (bs "pihiragana", [12404]);
   (bs "pikatakana", [12500]);
   (bs "pisymbolgreek", [982]);
   (bs "piwrarmenian", [1411]);
   (bs "plus", [43]);
   (bs "plusbelowcmb", [799]);
   (bs "pluscircle", [8853]);
   (bs "plusminus", [177]);
   (bs "plusmod", [726]);
   (bs "plusmonospace", [65291]);
   (bs "plussmall", [65122]);
   (bs "plussuperior", [8314]);
   (bs "pmonospace", [65360]);
   (bs "pmsquare", [13272]);
   (bs "pohiragana", [12413]);
   (bs "pointingindexdownwhite", [9759]);
   (bs "pointingindexleftwhite", [9756]);
   (bs "pointingindexrightwhite", [9758]);
   (bs "pointingindexupwhite", [9757]);
   (bs "pokatakana", [12509]);
   (bs "poplathai", [3611]);
   (bs "postalmark", [12306]);
   (bs "postalmarkface", [12320]);
   (bs "pparen", [9387]);
   (bs "precedes", [8826]);
   (bs "prescription", [8478]);
   (bs "primemod", [697]);
   (bs "primereversed", [8245]);
   (bs "product", [8719]);
   (bs "projective", [8965]);
   (bs "prolongedkana", [12540]);
   (bs "propellor", [8984]);
   (bs "propersubset", [8834]);
   (bs "propersuperset", [8835]);
   (bs "proportion", [8759]);
   (bs "proportional", [8733]);
   (bs "psi", [968]);
   (bs "psicyrillic", [1137]);
   (bs "psilipneumatacyrilliccmb", [1158]);
   (bs "pssquare", [13232]);
   (bs "puhiragana", [12407]);
   (bs "pukatakana", [12503]);
   (bs "pvsquare", [13236]);
   (bs "pwsquare", [13242]);
   (bs "q", [113]);
   (bs "qadeva", [2392]);
   (bs "qadmahebrew", [1448]);
   (bs "qafarabic", [1602]);
   (bs "qaffinalarabic", [65238]);
   (bs "qafinitialarabic", [65239]);
   (bs "qafmedialarabic", [65240]);
   (bs "qamats", [1464]);
   (bs "qamats10", [1464]);
   (bs "qamats1a", [1464]);
   (bs "qamats1c", [1464]);
   (bs "qamats27", [1464]);
   (bs "qamats29", [1464]);
   (bs "qamats33", [1464]);
   (bs "qamatsde", [1464]);
   (bs "qamatshebrew", [1464]);
   (bs "qamatsnarrowhebrew", [1464]);
   (bs "qamatsqatanhebrew", [1464]);
   (bs "qamatsqatannarrowhebrew", [1464]);
   (bs "qamatsqatanquarterhebrew", [1464]);
   (bs "qamatsqatanwidehebrew", [1464]);
   (bs "qamatsquarterhebrew", [1464]);
   (bs "qamatswidehebrew", [1464]);
   (bs "qarneyparahebrew", [1439]);
   (bs "qbopomofo", [12561]);
   (bs "qcircle", [9440]);
   (bs "qhook", [672]);
   (bs "qmonospace", [65361]);
   (bs "qof", [1511]);
   (bs "qofdagesh", [64327]);
   (bs "qofdageshhebrew", [64327]);
   (bs "qofhatafpatah", [1511; 1458]);
   (bs "qofhatafpatahhebrew", [1511; 1458]);
   (bs "qofhatafsegol", [1511; 1457]);
   (bs "qofhatafsegolhebrew", [1511; 1457]);
   (bs "qofhebrew", [1511]);
   (bs "qofhiriq", [1511; 1460]);
   (bs "qofhiriqhebrew", [1511; 1460]);
   (bs "qofholam", [1511; 1465]);
   (bs "qofholamhebrew", [1511; 1465]);
   (bs "qofpatah", [1511; 1463]);
   (bs "qofpatahhebrew", [1511; 1463]);
   (bs "qofqamats", [1511; 1464]);
   (bs "qofqamatshebrew", [1511; 1464]);
   (bs "qofqubuts", [1511; 1467]);
   (bs "qofqubutshebrew", [1511; 1467]);
   (bs "qofsegol", [1511; 1462]);
   (bs "qofsegolhebrew", [1511; 1462]);
   (bs "qofsheva", [1511; 1456]);
   (bs "qofshevahebrew", [1511; 1456]);
   (bs "qoftsere", [1511; 1461]);
   (bs "qoftserehebrew", [1511; 1461]);
   (bs "qparen", [9388]);
   (bs "quarternote", [9833]);
   (bs "qubuts", [1467]);
   (bs "qubuts18", [1467]);
   (bs "qubuts25", [1467]);
   (bs "qubuts31", [1467]);
   (bs "qubutshebrew", [1467]);
   (bs "qubutsnarrowhebrew", [1467]);
   (bs "qubutsquarterhebrew", [1467]);
   (bs "qubutswidehebrew", [1467]);
   (bs "question", [63]);
   (bs "questionarabic", [1567]);
   (bs "questionarmenian", [1374]);
   (bs "questiondown", [191]);
   (bs "questiondownsmall", [63423]);
   (bs "questiongreek", [894]);
   (bs "questionmonospace", [65311]);
   (bs "questionsmall", [63295]);
   (bs "quotedbl", [34]);
   (bs "quotedblbase", [8222]);
   (bs "quotedblleft", [8220]);
   (bs "quotedblmonospace", [65282]);
   (bs "quotedblprime", [12318]);
   (bs "quotedblprimereversed", [12317]);
   (bs "quotedblright", [8221]);
   (bs "quoteleft", [8216]);
   (bs "quoteleftreversed", [8219]);
   (bs "quotereversed", [8219]);
   (bs "quoteright", [8217]);
   (bs "quoterightn", [329]);
   (bs "quotesinglbase", [8218]);
   (bs "quotesingle", [39]);
   (bs "quotesinglemonospace", [65287]);
   (bs "r", [114]);
   (bs "raarmenian", [1404]);
   (bs "rabengali", [2480]);
   (bs "racute", [341]);
   (bs "radeva", [2352]);
   (bs "radical", [8730]);
   (bs "radicalex", [63717]);
   (bs "radoverssquare", [13230]);
   (bs "radoverssquaredsquare", [13231]);
   (bs "radsquare", [13229]);
   (bs "rafe", [1471]);
   (bs "rafehebrew", [1471]);
   (bs "ragujarati", [2736]);
   (bs "ragurmukhi", [2608]);
   (bs "rahiragana", [12425]);
   (bs "rakatakana", [12521]);
   (bs "rakatakanahalfwidth", [65431]);
   (bs "ralowerdiagonalbengali", [2545]);
   (bs "ramiddlediagonalbengali", [2544]);
   (bs "ramshorn", [612]);
   (bs "ratio", [8758]);
   (bs "rbopomofo", [12566]);
   (bs "rcaron", [345]);
   (bs "rcedilla", [343]);
   (bs "rcircle", [9441]);
   (bs "rcommaaccent", [343]);
   (bs "rdblgrave", [529]);
   (bs "rdotaccent", [7769]);
   (bs "rdotbelow", [7771]);
   (bs "rdotbelowmacron", [7773]);
   (bs "referencemark", [8251]);
   (bs "reflexsubset", [8838]);
   (bs "reflexsuperset", [8839]);
   (bs "registered", [174]);
   (bs "registersans", [63720]);
   (bs "registerserif", [63194]);
   (bs "reharabic", [1585]);
   (bs "reharmenian", [1408]);
   (bs "rehfinalarabic", [65198]);
   (bs "rehiragana", [12428]);
   (bs "rehyehaleflamarabic", [1585; 65267; 65166; 1604]);
   (bs "rekatakana", [12524]);
   (bs "rekatakanahalfwidth", [65434]);
   (bs "resh", [1512]);
   (bs "reshdageshhebrew", [64328]);
   (bs "reshhatafpatah", [1512; 1458]);
   (bs "reshhatafpatahhebrew", [1512; 1458]);
   (bs "reshhatafsegol", [1512; 1457]);
   (bs "reshhatafsegolhebrew", [1512; 1457]);
   (bs "reshhebrew", [1512]);
   (bs "reshhiriq", [1512; 1460]);
   (bs "reshhiriqhebrew", [1512; 1460]);
   (bs "reshholam", [1512; 1465]);
   (bs "reshholamhebrew", [1512; 1465]);
   (bs "reshpatah", [1512; 1463]);
   (bs "reshpatahhebrew", [1512; 1463]);
   (bs "reshqamats", [1512; 1464]);
   (bs "reshqamatshebrew", [1512; 1464]);
   (bs "reshqubuts", [1512; 1467]);
   (bs "reshqubutshebrew", [1512; 1467]);
   (bs "reshsegol", [1512; 1462]);
   (bs "reshsegolhebrew", [1512; 1462]);
   (bs "reshsheva", [1512; 1456]);
   (bs "reshshevahebrew", [1512; 1456]);
   (bs "reshtsere", [1512; 1461]);
   (bs "reshtserehebrew", [1512; 1461]);
   (bs "reversedtilde", [8765]);
   (bs "reviahebrew", [1431]);
   (bs "reviamugrashhebrew", [1431]);
   (bs "revlogicalnot", [8976]);
   (bs "rfishhook", [638]);
   (bs "rfishhookreversed", [639]);
   (bs "rhabengali", [2525]);
   (bs "rhadeva", [2397]);
   (bs "rho", [961]);
   (bs "rhook", [637]);
   (bs "rhookturned", [635]);
   (bs "rhookturnedsuperior", [693]);
   (bs "rhosymbolgreek", [1009]);
   (bs "rhotichookmod", [734]);
   (bs "rieulacirclekorean", [12913]);
   (bs "rieulaparenkorean", [12817]);
   (bs "rieulcirclekorean", [12899]);
   (bs "rieulhieuhkorean", [12608]);
   (bs "rieulkiyeokkorean", [12602]);
   (bs "rieulkiyeoksioskorean", [12649]);
   (bs "rieulkorean", [12601]);
   (bs "rieulmieumkorean", [12603]);
   (bs "rieulpansioskorean", [12652]);
   (bs "rieulparenkorean", [12803]);
   (bs "rieulphieuphkorean", [12607]);
   (bs "rieulpieupkorean", [12604]);
   (bs "rieulpieupsioskorean", [12651]);
   (bs "rieulsioskorean", [12605]);
   (bs "rieulthieuthkorean", [12606]);
   (bs "rieultikeutkorean", [12650]);
   (bs "rieulyeorinhieuhkorean", [12653]);
   (bs "rightangle", [8735]);
   (bs "righttackbelowcmb", [793]);
   (bs "righttriangle", [8895]);
   (bs "rihiragana", [12426]);
   (bs "rikatakana", [12522]);
   (bs "rikatakanahalfwidth", [65432]);
   (bs "ring", [730]);
   (bs "ringbelowcmb", [805]);
   (bs "ringcmb", [778]);
   (bs "ringhalfleft", [703]);
   (bs "ringhalfleftarmenian", [1369]);
   (bs "ringhalfleftbelowcmb", [796]);
   (bs "ringhalfleftcentered", [723]);
   (bs "ringhalfright", [702]);
   (bs "ringhalfrightbelowcmb", [825]);
   (bs "ringhalfrightcentered", [722]);
   (bs "rinvertedbreve", [531]);
   (bs "rittorusquare", [13137]);
   (bs "rlinebelow", [7775]);
   (bs "rlongleg", [636]);
   (bs "rlonglegturned", [634]);
   (bs "rmonospace", [65362]);
   (bs "rohiragana", [12429]);
   (bs "rokatakana", [12525]);
   (bs "rokatakanahalfwidth", [65435]);
   (bs "roruathai", [3619]);
   (bs "rparen", [9389]);
   (bs "rrabengali", [2524]);
   (bs "rradeva", [2353]);
   (bs "rragurmukhi", [2652]);
   (bs "rreharabic", [1681]);
   (bs "rrehfinalarabic", [64397]);
   (bs "rrvocalicbengali", [2528]);
   (bs "rrvocalicdeva", [2400]);
   (bs "rrvocalicgujarati", [2784]);
   (bs "rrvocalicvowelsignbengali", [2500]);
   (bs "rrvocalicvowelsigndeva", [2372]);
   (bs "rrvocalicvowelsigngujarati", [2756]);
   (bs "rsuperior", [63217]);
   (bs "rtblock", [9616]);
   (bs "rturned", [633]);
   (bs "rturnedsuperior", [692]);
   (bs "ruhiragana", [12427]);
   (bs "rukatakana", [12523]);
   (bs "rukatakanahalfwidth", [65433]);
   (bs "rupeemarkbengali", [2546]);
   (bs "rupeesignbengali", [2547]);
   (bs "rupiah", [63197]);
   (bs "ruthai", [3620]);
   (bs "rvocalicbengali", [2443]);
   (bs "rvocalicdeva", [2315]);
   (bs "rvocalicgujarati", [2699]);
   (bs "rvocalicvowelsignbengali", [2499]);
   (bs "rvocalicvowelsigndeva", [2371]);
   (bs "rvocalicvowelsigngujarati", [2755]);
   (bs "s", [115]);
   (bs "sabengali", [2488]);
   (bs "sacute", [347]);
   (bs "sacutedotaccent", [7781]);
   (bs "sadarabic", [1589]);
   (bs "sadeva", [2360]);
   (bs "sadfinalarabic", [65210]);
   (bs "sadinitialarabic", [65211]);
   (bs "sadmedialarabic", [65212]);
   (bs "sagujarati", [2744]);
   (bs "sagurmukhi", [2616]);
   (bs "sahiragana", [12373]);
   (bs "sakatakana", [12469]);
   (bs "sakatakanahalfwidth", [65403]);
   (bs "sallallahoualayhewasallamarabic", [65018]);
   (bs "samekh", [1505]);
   (bs "samekhdagesh", [64321]);
   (bs "samekhdageshhebrew", [64321]);
   (bs "samekhhebrew", [1505]);
   (bs "saraaathai", [3634]);
   (bs "saraaethai", [3649]);
   (bs "saraaimaimalaithai", [3652]);
   (bs "saraaimaimuanthai", [3651]);
   (bs "saraamthai", [3635]);
   (bs "saraathai", [3632]);
   (bs "saraethai", [3648]);
   (bs "saraiileftthai", [63622]);
   (bs "saraiithai", [3637]);
   (bs "saraileftthai", [63621]);
   (bs "saraithai", [3636]);
   (bs "saraothai", [3650]);
   (bs "saraueeleftthai", [63624]);
   (bs "saraueethai", [3639]);
   (bs "saraueleftthai", [63623]);
   (bs "sarauethai", [3638]);
   (bs "sarauthai", [3640]);
   (bs "sarauuthai", [3641]);
   (bs "sbopomofo", [12569]);
   (bs "scaron", [353]);
   (bs "scarondotaccent", [7783]);
   (bs "scedilla", [351]);
   (bs "schwa", [601]);
   (bs "schwacyrillic", [1241]);
   (bs "schwadieresiscyrillic", [1243]);
   (bs "schwahook", [602]);
   (bs "scircle", [9442]);
   (bs "scircumflex", [349]);
   (bs "scommaaccent", [537]);
   (bs "sdotaccent", [7777]);
   (bs "sdotbelow", [7779]);
   (bs "sdotbelowdotaccent", [7785]);
   (bs "seagullbelowcmb", [828]);
   (bs "second", [8243]);
   (bs "secondtonechinese", [714]);
   (bs "section", [167]);
   (bs "seenarabic", [1587]);
   (bs "seenfinalarabic", [65202]);
   (bs "seeninitialarabic", [65203]);
   (bs "seenmedialarabic", [65204]);
   (bs "segol", [1462]);
   (bs "segol13", [1462]);
   (bs "segol1f", [1462]);
   (bs "segol2c", [1462]);
   (bs "segolhebrew", [1462]);
   (bs "segolnarrowhebrew", [1462]);
   (bs "segolquarterhebrew", [1462]);
   (bs "segoltahebrew", [1426]);
   (bs "segolwidehebrew", [1462]);
   (bs "seharmenian", [1405]);
   (bs "sehiragana", [12379]);
   (bs "sekatakana", [12475]);
   (bs "sekatakanahalfwidth", [65406]);
   (bs "semicolon", [59]);
   (bs "semicolonarabic", [1563]);
   (bs "semicolonmonospace", [65307]);
   (bs "semicolonsmall", [65108]);
   (bs "semivoicedmarkkana", [12444]);
   (bs "semivoicedmarkkanahalfwidth", [65439]);
   (bs "sentisquare", [13090]);
   (bs "sentosquare", [13091]);
   (bs "seven", [55]);
   (bs "sevenarabic", [1639]);
   (bs "sevenbengali", [2541]);
   (bs "sevencircle", [9318]);
   (bs "sevencircleinversesansserif", [10128]);
   (bs "sevendeva", [2413]);
   (bs "seveneighths", [8542]);
   (bs "sevengujarati", [2797]);
   (bs "sevengurmukhi", [2669]);
   (bs "sevenhackarabic", [1639]);
   (bs "sevenhangzhou", [12327]);
   (bs "sevenideographicparen", [12838]);
   (bs "seveninferior", [8327]);
   (bs "sevenmonospace", [65303]);
   (bs "sevenoldstyle", [63287]);
   (bs "sevenparen", [9338]);
   (bs "sevenperiod", [9358]);
   (bs "sevenpersian", [1783]);
   (bs "sevenroman", [8566]);
   (bs "sevensuperior", [8311]);
   (bs "seventeencircle", [9328]);
   (bs "seventeenparen", [9348]);
   (bs "seventeenperiod", [9368]);
   (bs "seventhai", [3671]);
   (bs "sfthyphen", [173]);
   (bs "shaarmenian", [1399]);
   (bs "shabengali", [2486]);
   (bs "shacyrillic", [1096]);
   (bs "shaddaarabic", [1617]);
   (bs "shaddadammaarabic", [64609]);
   (bs "shaddadammatanarabic", [64606]);
   (bs "shaddafathaarabic", [64608]);
   (bs "shaddafathatanarabic", [1617; 1611]);
   (bs "shaddakasraarabic", [64610]);
   (bs "shaddakasratanarabic", [64607]);
   (bs "shade", [9618]);
   (bs "shadedark", [9619]);
   (bs "shadelight", [9617]);
   (bs "shademedium", [9618]);
   (bs "shadeva", [2358]);
   (bs "shagujarati", [2742]);
   (bs "shagurmukhi", [2614]);
   (bs "shalshelethebrew", [1427]);
   (bs "shbopomofo", [12565]);
   (bs "shchacyrillic", [1097]);
   (bs "sheenarabic", [1588]);
   (bs "sheenfinalarabic", [65206]);
   (bs "sheeninitialarabic", [65207]);
   (bs "sheenmedialarabic", [65208]);
   (bs "sheicoptic", [995]);
   (bs "sheqel", [8362]);
   (bs "sheqelhebrew", [8362]);
   (bs "sheva", [1456]);
   (bs "sheva115", [1456]);
   (bs "sheva15", [1456]);
   (bs "sheva22", [1456]);
   (bs "sheva2e", [1456]);
   (bs "shevahebrew", [1456]);
   (bs "shevanarrowhebrew", [1456]);
   (bs "shevaquarterhebrew", [1456]);
   (bs "shevawidehebrew", [1456]);
   (bs "shhacyrillic", [1211]);
   (bs "shimacoptic", [1005]);
   (bs "shin", [1513]);
   (bs "shindagesh", [64329]);
   (bs "shindageshhebrew", [64329]);
   (bs "shindageshshindot", [64300]);
   (bs "shindageshshindothebrew", [64300]);
   (bs "shindageshsindot", [64301]);
   (bs "shindageshsindothebrew", [64301]);
   (bs "shindothebrew", [1473]);
   (bs "shinhebrew", [1513]);
   (bs "shinshindot", [64298]);
   (bs "shinshindothebrew", [64298]);
   (bs "shinsindot", [64299]);
   (bs "shinsindothebrew", [64299]);
   (bs "shook", [642]);
   (bs "sigma", [963]);
   (bs "sigma1", [962]);
   (bs "sigmafinal", [962]);
   (bs "sigmalunatesymbolgreek", [1010]);
   (bs "sihiragana", [12375]);
   (bs "sikatakana", [12471]);
   (bs "sikatakanahalfwidth", [65404]);
   (bs "siluqhebrew", [1469]);
   (bs "siluqlefthebrew", [1469]);
   (bs "similar", [8764]);
   (bs "sindothebrew", [1474]);
   (bs "siosacirclekorean", [12916]);
   (bs "siosaparenkorean", [12820]);
   (bs "sioscieuckorean", [12670]);
   (bs "sioscirclekorean", [12902]);
   (bs "sioskiyeokkorean", [12666]);
   (bs "sioskorean", [12613]);
   (bs "siosnieunkorean", [12667]);
   (bs "siosparenkorean", [12806]);
   (bs "siospieupkorean", [12669]);
   (bs "siostikeutkorean", [12668]);
   (bs "six", [54]);
   (bs "sixarabic", [1638]);
   (bs "sixbengali", [2540]);
   (bs "sixcircle", [9317]);
   (bs "sixcircleinversesansserif", [10127]);
   (bs "sixdeva", [2412]);
   (bs "sixgujarati", [2796]);
   (bs "sixgurmukhi", [2668]);
   (bs "sixhackarabic", [1638]);
   (bs "sixhangzhou", [12326]);
   (bs "sixideographicparen", [12837]);
   (bs "sixinferior", [8326]);
   (bs "sixmonospace", [65302]);
   (bs "sixoldstyle", [63286]);
   (bs "sixparen", [9337]);
   (bs "sixperiod", [9357]);
   (bs "sixpersian", [1782]);
   (bs "sixroman", [8565]);
   (bs "sixsuperior", [8310]);
   (bs "sixteencircle", [9327]);
   (bs "sixteencurrencydenominatorbengali", [2553]);
   (bs "sixteenparen", [9347]);
   (bs "sixteenperiod", [9367]);
   (bs "sixthai", [3670]);
   (bs "slash", [47]);
   (bs "slashmonospace", [65295]);
   (bs "slong", [383]);
   (bs "slongdotaccent", [7835]);
   (bs "smileface", [9786]);
   (bs "smonospace", [65363]);
   (bs "sofpasuqhebrew", [1475]);
   (bs "softhyphen", [173]);
   (bs "softsigncyrillic", [1100]);
   (bs "sohiragana", [12381]);
   (bs "sokatakana", [12477]);
   (bs "sokatakanahalfwidth", [65407]);
   (bs "soliduslongoverlaycmb", [824]);
   (bs "solidusshortoverlaycmb", [823]);
   (bs "sorusithai", [3625]);
   (bs "sosalathai", [3624]);
   (bs "sosothai", [3595]);
   (bs "sosuathai", [3626]);
   (bs "space", [32]);
   (bs "spacehackarabic", [32]);
   (bs "spade", [9824]);
   (bs "spadesuitblack", [9824]);
   (bs "spadesuitwhite", [9828]);
   (bs "sparen", [9390]);
   (bs "squarebelowcmb", [827]);
   (bs "squarecc", [13252]);
   (bs "squarecm", [13213]);
   (bs "squarediagonalcrosshatchfill", [9641]);
   (bs "squarehorizontalfill", [9636]);
   (bs "squarekg", [13199]);
   (bs "squarekm", [13214]);
   (bs "squarekmcapital", [13262]);
   (bs "squareln", [13265]);
   (bs "squarelog", [13266]);
   (bs "squaremg", [13198]);
   (bs "squaremil", [13269]);
   (bs "squaremm", [13212]);
   (bs "squaremsquared", [13217]);
   (bs "squareorthogonalcrosshatchfill", [9638]);
   (bs "squareupperlefttolowerrightfill", [9639]);
   (bs "squareupperrighttolowerleftfill", [9640]);
   (bs "squareverticalfill", [9637]);
   (bs "squarewhitewithsmallblack", [9635]);
   (bs "srsquare", [13275]);
   (bs "ssabengali", [2487]);
   (bs "ssadeva", [2359]);
   (bs "ssagujarati", [2743]);
   (bs "ssangcieuckorean", [12617]);
   (bs "ssanghieuhkorean", [12677]);
   (bs "ssangieungkorean", [12672]);
   (bs "ssangkiyeokkorean", [12594]);
   (bs "ssangnieunkorean", [12645]);
   (bs "ssangpieupkorean", [12611]);
   (bs "ssangsioskorean", [12614]);
   (bs "ssangtikeutkorean", [12600]);
   (bs "ssuperior", [63218]);
   (bs "sterling", [163]);
   (bs "sterlingmonospace", [65505]);
   (bs "strokelongoverlaycmb", [822]);
   (bs "strokeshortoverlaycmb", [821]);
   (bs "subset", [8834]);
   (bs "subsetnotequal", [8842]);
   (bs "subsetorequal", [8838]);
   (bs "succeeds", [8827]);
   (bs "suchthat", [8715]);
   (bs "suhiragana", [12377]);
   (bs "sukatakana", [12473]);
   (bs "sukatakanahalfwidth", [65405]);
   (bs "sukunarabic", [1618]);
   (bs "summation", [8721]);
   (bs "sun", [9788]);
   (bs "superset", [8835]);
   (bs "supersetnotequal", [8843]);
   (bs "supersetorequal", [8839]);
   (bs "svsquare", [13276]);
   (bs "syouwaerasquare", [13180]);
   (bs "t", [116]);
   (bs "tabengali", [2468]);
   (bs "tackdown", [8868]);
   (bs "tackleft", [8867]);
   (bs "tadeva", [2340]);
   (bs "tagujarati", [2724]);
   (bs "tagurmukhi", [2596]);
   (bs "taharabic", [1591]);
   (bs "tahfinalarabic", [65218]);
   (bs "tahinitialarabic", [65219]);
   (bs "tahiragana", [12383]);
   (bs "tahmedialarabic", [65220]);
   (bs "taisyouerasquare", [13181]);
   (bs "takatakana", [12479]);
   (bs "takatakanahalfwidth", [65408]);
   (bs "tatweelarabic", [1600]);
   (bs "tau", [964]);
   (bs "tav", [1514]);
   (bs "tavdages", [64330]);
   (bs "tavdagesh", [64330]);
   (bs "tavdageshhebrew", [64330]);
   (bs "tavhebrew", [1514]);
   (bs "tbar", [359]);
   (bs "tbopomofo", [12554]);
   (bs "tcaron", [357]);
   (bs "tccurl", [680]);
   (bs "tcedilla", [355]);
   (bs "tcheharabic", [1670]);
   (bs "tchehfinalarabic", [64379]);
   (bs "tchehinitialarabic", [64380]);
   (bs "tchehmedialarabic", [64381]);
   (bs "tchehmeeminitialarabic", [64380; 65252]);
   (bs "tcircle", [9443]);
   (bs "tcircumflexbelow", [7793]);
   (bs "tcommaaccent", [355]);
   (bs "tdieresis", [7831]);
   (bs "tdotaccent", [7787]);
   (bs "tdotbelow", [7789]);
   (bs "tecyrillic", [1090]);
   (bs "tedescendercyrillic", [1197]);
   (bs "teharabic", [1578]);
   (bs "tehfinalarabic", [65174]);
   (bs "tehhahinitialarabic", [64674]);
   (bs "tehhahisolatedarabic", [64524]);
   (bs "tehinitialarabic", [65175]);
   (bs "tehiragana", [12390]);
   (bs "tehjeeminitialarabic", [64673]);
   (bs "tehjeemisolatedarabic", [64523]);
   (bs "tehmarbutaarabic", [1577]);
   (bs "tehmarbutafinalarabic", [65172]);
   (bs "tehmedialarabic", [65176]);
   (bs "tehmeeminitialarabic", [64676]);
   (bs "tehmeemisolatedarabic", [64526]);
   (bs "tehnoonfinalarabic", [64627]);
   (bs "tekatakana", [12486]);
   (bs "tekatakanahalfwidth", [65411]);
   (bs "telephone", [8481]);
   (bs "telephoneblack", [9742]);
   (bs "telishagedolahebrew", [1440]);
   (bs "telishaqetanahebrew", [1449]);
   (bs "tencircle", [9321]);
   (bs "tenideographicparen", [12841]);
   (bs "tenparen", [9341]);
   (bs "tenperiod", [9361]);
   (bs "tenroman", [8569]);
   (bs "tesh", [679]);
   (bs "tet", [1496]);
   (bs "tetdagesh", [64312]);
   (bs "tetdageshhebrew", [64312]);
   (bs "tethebrew", [1496]);
   (bs "tetsecyrillic", [1205]);
   (bs "tevirhebrew", [1435]);
   (bs "tevirlefthebrew", [1435]);
   (bs "thabengali", [2469]);
   (bs "thadeva", [2341]);
   (bs "thagujarati", [2725]);
   (bs "thagurmukhi", [2597]);
   (bs "thalarabic", [1584]);
   (bs "thalfinalarabic", [65196]);
   (bs "thanthakhatlowleftthai", [63640]);
   (bs "thanthakhatlowrightthai", [63639]);
   (bs "thanthakhatthai", [3660]);
   (bs "thanthakhatupperleftthai", [63638]);
   (bs "theharabic", [1579]);
   (bs "thehfinalarabic", [65178]);
   (bs "thehinitialarabic", [65179]);
   (bs "thehmedialarabic", [65180]);
   (bs "thereexists", [8707]);
   (bs "therefore", [8756]);
   (bs "theta", [952]);
   (bs "theta1", [977]);
   (bs "thetasymbolgreek", [977]);
   (bs "thieuthacirclekorean", [12921]);
   (bs "thieuthaparenkorean", [12825]);
   (bs "thieuthcirclekorean", [12907]);
   (bs "thieuthkorean", [12620]);
   (bs "thieuthparenkorean", [12811]);
   (bs "thirteencircle", [9324]);
   (bs "thirteenparen", [9344]);
   (bs "thirteenperiod", [9364]);
   (bs "thonangmonthothai", [3601]);
   (bs "thook", [429]);
   (bs "thophuthaothai", [3602]);
   (bs "thorn", [254]);
   (bs "thothahanthai", [3607]);
   (bs "thothanthai", [3600]);
   (bs "thothongthai", [3608]);
   (bs "thothungthai", [3606]);
   (bs "thousandcyrillic", [1154]);
   (bs "thousandsseparatorarabic", [1644]);
   (bs "thousandsseparatorpersian", [1644]);
   (bs "three", [51]);
   (bs "threearabic", [1635]);
   (bs "threebengali", [2537]);
   (bs "threecircle", [9314]);
   (bs "threecircleinversesansserif", [10124]);
   (bs "threedeva", [2409]);
   (bs "threeeighths", [8540]);
   (bs "threegujarati", [2793]);
   (bs "threegurmukhi", [2665]);
   (bs "threehackarabic", [1635]);
   (bs "threehangzhou", [12323]);
   (bs "threeideographicparen", [12834]);
   (bs "threeinferior", [8323]);
   (bs "threemonospace", [65299]);
   (bs "threenumeratorbengali", [2550]);
   (bs "threeoldstyle", [63283]);
   (bs "threeparen", [9334]);
   (bs "threeperiod", [9354]);
   (bs "threepersian", [1779]);
   (bs "threequarters", [190]);
   (bs "threequartersemdash", [63198]);
   (bs "threeroman", [8562]);
   (bs "threesuperior", [179]);
   (bs "threethai", [3667]);
   (bs "thzsquare", [13204]);
   (bs "tihiragana", [12385]);
   (bs "tikatakana", [12481]);
   (bs "tikatakanahalfwidth", [65409]);
   (bs "tikeutacirclekorean", [12912]);
   (bs "tikeutaparenkorean", [12816]);
   (bs "tikeutcirclekorean", [12898]);
   (bs "tikeutkorean", [12599]);
   (bs "tikeutparenkorean", [12802]);
   (bs "tilde", [732]);
   (bs "tildebelowcmb", [816]);
   (bs "tildecmb", [771]);
   (bs "tildecomb", [771]);
   (bs "tildedoublecmb", [864]);
   (bs "tildeoperator", [8764]);
   (bs "tildeoverlaycmb", [820]);
   (bs "tildeverticalcmb", [830]);
   (bs "timescircle", [8855]);
   (bs "tipehahebrew", [1430]);
   (bs "tipehalefthebrew", [1430]);
   (bs "tippigurmukhi", [2672]);
   (bs "titlocyrilliccmb", [1155]);
   (bs "tiwnarmenian", [1407]);
   (bs "tlinebelow", [7791]);
   (bs "tmonospace", [65364]);
   (bs "toarmenian", [1385]);
   (bs "tohiragana", [12392]);
   (bs "tokatakana", [12488]);
   (bs "tokatakanahalfwidth", [65412]);
   (bs "tonebarextrahighmod", [741]);
   (bs "tonebarextralowmod", [745]);
   (bs "tonebarhighmod", [742]);
   (bs "tonebarlowmod", [744]);
   (bs "tonebarmidmod", [743]);
   (bs "tonefive", [445]);
   (bs "tonesix", [389]);
   (bs "tonetwo", [424]);
   (bs "tonos", [900]);
   (bs "tonsquare", [13095]);
   (bs "topatakthai", [3599]);
   (bs "tortoiseshellbracketleft", [12308]);
   (bs "tortoiseshellbracketleftsmall", [65117]);
   (bs "tortoiseshellbracketleftvertical", [65081]);
   (bs "tortoiseshellbracketright", [12309]);
   (bs "tortoiseshellbracketrightsmall", [65118]);
   (bs "tortoiseshellbracketrightvertical", [65082]);
   (bs "totaothai", [3605]);
   (bs "tpalatalhook", [427]);
   (bs "tparen", [9391]);
   (bs "trademark", [8482]);
   (bs "trademarksans", [63722]);
   (bs "trademarkserif", [63195]);
   (bs "tretroflexhook", [648]);
   (bs "triagdn", [9660]);
   (bs "triaglf", [9668]);
   (bs "triagrt", [9658]);
   (bs "triagup", [9650]);
   (bs "ts", [678]);
   (bs "tsadi", [1510]);
   (bs "tsadidagesh", [64326]);
   (bs "tsadidageshhebrew", [64326]);
   (bs "tsadihebrew", [1510]);
   (bs "tsecyrillic", [1094]);
   (bs "tsere", [1461]);
   (bs "tsere12", [1461]);
   (bs "tsere1e", [1461]);
   (bs "tsere2b", [1461]);
   (bs "tserehebrew", [1461]);
   (bs "tserenarrowhebrew", [1461]);
   (bs "tserequarterhebrew", [1461]);
   (bs "tserewidehebrew", [1461]);
   (bs "tshecyrillic", [1115]);
   (bs "tsuperior", [63219]);
   (bs "ttabengali", [2463]);
   (bs "ttadeva", [2335]);
   (bs "ttagujarati", [2719]);
   (bs "ttagurmukhi", [2591]);
   (bs "tteharabic", [1657]);
   (bs "ttehfinalarabic", [64359]);
   (bs "ttehinitialarabic", [64360]);
   (bs "ttehmedialarabic", [64361]);
   (bs "tthabengali", [2464]);
   (bs "tthadeva", [2336]);
   (bs "tthagujarati", [2720]);
   (bs "tthagurmukhi", [2592]);
   (bs "tturned", [647]);
   (bs "tuhiragana", [12388]);
   (bs "tukatakana", [12484]);
   (bs "tukatakanahalfwidth", [65410]);
   (bs "tusmallhiragana", [12387]);
   (bs "tusmallkatakana", [12483]);
   (bs "tusmallkatakanahalfwidth", [65391]);
   (bs "twelvecircle", [9323]);
   (bs "twelveparen", [9343]);
   (bs "twelveperiod", [9363]);
   (bs "twelveroman", [8571]);
   (bs "twentycircle", [9331]);
   (bs "twentyhangzhou", [21316]);
   (bs "twentyparen", [9351]);
   (bs "twentyperiod", [9371]);
   (bs "two", [50]);
   (bs "twoarabic", [1634]);
   (bs "twobengali", [2536]);
   (bs "twocircle", [9313]);
   (bs "twocircleinversesansserif", [10123]);
   (bs "twodeva", [2408]);
   (bs "twodotenleader", [8229]);
   (bs "twodotleader", [8229]);
   (bs "twodotleadervertical", [65072]);
   (bs "twogujarati", [2792]);
   (bs "twogurmukhi", [2664]);
   (bs "twohackarabic", [1634]);
   (bs "twohangzhou", [12322]);
   (bs "twoideographicparen", [12833]);
   (bs "twoinferior", [8322]);
   (bs "twomonospace", [65298]);
   (bs "twonumeratorbengali", [2549]);
   (bs "twooldstyle", [63282]);
   (bs "twoparen", [9333]);
   (bs "twoperiod", [9353]);
   (bs "twopersian", [1778]);
   (bs "tworoman", [8561]);
   (bs "twostroke", [443]);
   (bs "twosuperior", [178]);
   (bs "twothai", [3666]);
   (bs "twothirds", [8532]);
   (bs "u", [117]);
   (bs "uacute", [250]);
   (bs "ubar", [649]);
   (bs "ubengali", [2441]);
   (bs "ubopomofo", [12584]);
   (bs "ubreve", [365]);
   (bs "ucaron", [468]);
   (bs "ucircle", [9444]);
   (bs "ucircumflex", [251]);
   (bs "ucircumflexbelow", [7799]);
   (bs "ucyrillic", [1091]);
   (bs "udattadeva", [2385]);
   (bs "udblacute", [369]);
   (bs "udblgrave", [533]);
   (bs "udeva", [2313]);
   (bs "udieresis", [252]);
   (bs "udieresisacute", [472]);
   (bs "udieresisbelow", [7795]);
   (bs "udieresiscaron", [474]);
   (bs "udieresiscyrillic", [1265]);
   (bs "udieresisgrave", [476]);
   (bs "udieresismacron", [470]);
   (bs "udotbelow", [7909]);
   (bs "ugrave", [249]);
   (bs "ugujarati", [2697]);
   (bs "ugurmukhi", [2569]);
   (bs "uhiragana", [12358]);
   (bs "uhookabove", [7911]);
   (bs "uhorn", [432]);
   (bs "uhornacute", [7913]);
   (bs "uhorndotbelow", [7921]);
   (bs "uhorngrave", [7915]);
   (bs "uhornhookabove", [7917]);
   (bs "uhorntilde", [7919]);
   (bs "uhungarumlaut", [369]);
   (bs "uhungarumlautcyrillic", [1267]);
   (bs "uinvertedbreve", [535]);
   (bs "ukatakana", [12454]);
   (bs "ukatakanahalfwidth", [65395]);
   (bs "ukcyrillic", [1145]);
   (bs "ukorean", [12636]);
   (bs "umacron", [363]);
   (bs "umacroncyrillic", [1263]);
   (bs "umacrondieresis", [7803]);
   (bs "umatragurmukhi", [2625]);
   (bs "umonospace", [65365]);
   (bs "underscore", [95]);
   (bs "underscoredbl", [8215]);
   (bs "underscoremonospace", [65343]);
   (bs "underscorevertical", [65075]);
   (bs "underscorewavy", [65103]);
   (bs "union", [8746]);
   (bs "universal", [8704]);
   (bs "uogonek", [371]);
   (bs "uparen", [9392]);
   (bs "upblock", [9600]);
   (bs "upperdothebrew", [1476]);
   (bs "upsilon", [965]);
   (bs "upsilondieresis", [971]);
   (bs "upsilondieresistonos", [944]);
   (bs "upsilonlatin", [650]);
   (bs "upsilontonos", [973]);
   (bs "uptackbelowcmb", [797]);
   (bs "uptackmod", [724]);
   (bs "uragurmukhi", [2675]);
   (bs "uring", [367]);
   (bs "ushortcyrillic", [1118]);
   (bs "usmallhiragana", [12357]);
   (bs "usmallkatakana", [12453]);
   (bs "usmallkatakanahalfwidth", [65385]);
   (bs "ustraightcyrillic", [1199]);
   (bs "ustraightstrokecyrillic", [1201]);
   (bs "utilde", [361]);
   (bs "utildeacute", [7801]);
   (bs "utildebelow", [7797]);
   (bs "uubengali", [2442]);
   (bs "uudeva", [2314]);
   (bs "uugujarati", [2698]);
   (bs "uugurmukhi", [2570]);
   (bs "uumatragurmukhi", [2626]);
   (bs "uuvowelsignbengali", [2498]);
   (bs "uuvowelsigndeva", [2370]);
   (bs "uuvowelsigngujarati", [2754]);
   (bs "uvowelsignbengali", [2497]);
   (bs "uvowelsigndeva", [2369]);
   (bs "uvowelsigngujarati", [2753]);
   (bs "v", [118]);
   (bs "vadeva", [2357]);
   (bs "vagujarati", [2741]);
   (bs "vagurmukhi", [2613]);
   (bs "vakatakana", [12535]);
   (bs "vav", [1493]);
   (bs "vavdagesh", [64309]);
   (bs "vavdagesh65", [64309]);
   (bs "vavdageshhebrew", [64309]);
   (bs "vavhebrew", [1493]);
   (bs "vavholam", [64331]);
   (bs "vavholamhebrew", [64331]);
   (bs "vavvavhebrew", [1520]);
   (bs "vavyodhebrew", [1521]);
   (bs "vcircle", [9445]);
   (bs "vdotbelow", [7807]);
   (bs "vecyrillic", [1074]);
   (bs "veharabic", [1700]);
   (bs "vehfinalarabic", [64363]);
   (bs "vehinitialarabic", [64364]);
   (bs "vehmedialarabic", [64365]);
   (bs "vekatakana", [12537]);
   (bs "venus", [9792]);
   (bs "verticalbar", [124]);
   (bs "verticallineabovecmb", [781]);
   (bs "verticallinebelowcmb", [809]);
   (bs "verticallinelowmod", [716]);
   (bs "verticallinemod", [712]);
   (bs "vewarmenian", [1406]);
   (bs "vhook", [651]);
   (bs "vikatakana", [12536]);
   (bs "viramabengali", [2509]);
   (bs "viramadeva", [2381]);
   (bs "viramagujarati", [2765]);
   (bs "visargabengali", [2435]);
   (bs "visargadeva", [2307]);
   (bs "visargagujarati", [2691]);
   (bs "vmonospace", [65366]);
   (bs "voarmenian", [1400]);
   (bs "voicediterationhiragana", [12446]);
   (bs "voicediterationkatakana", [12542]);
   (bs "voicedmarkkana", [12443]);
   (bs "voicedmarkkanahalfwidth", [65438]);
   (bs "vokatakana", [12538]);
   (bs "vparen", [9393]);
   (bs "vtilde", [7805]);
   (bs "vturned", [652]);
   (bs "vuhiragana", [12436]);
   (bs "vukatakana", [12532]);
   (bs "w", [119]);
   (bs "wacute", [7811]);
   (bs "waekorean", [12633]);
   (bs "wahiragana", [12431]);
   (bs "wakatakana", [12527]);
   (bs "wakatakanahalfwidth", [65436]);
   (bs "wakorean", [12632]);
   (bs "wasmallhiragana", [12430]);
   (bs "wasmallkatakana", [12526]);
   (bs "wattosquare", [13143]);
   (bs "wavedash", [12316]);
   (bs "wavyunderscorevertical", [65076]);
   (bs "wawarabic", [1608]);
   (bs "wawfinalarabic", [65262]);
   (bs "wawhamzaabovearabic", [1572]);
   (bs "wawhamzaabovefinalarabic", [65158]);
   (bs "wbsquare", [13277]);
   (bs "wcircle", [9446]);
   (bs "wcircumflex", [373]);
   (bs "wdieresis", [7813]);
   (bs "wdotaccent", [7815]);
   (bs "wdotbelow", [7817]);
   (bs "wehiragana", [12433]);
   (bs "weierstrass", [8472]);
   (bs "wekatakana", [12529]);
   (bs "wekorean", [12638]);
   (bs "weokorean", [12637]);
   (bs "wgrave", [7809]);
   (bs "whitebullet", [9702]);
   (bs "whitecircle", [9675]);
   (bs "whitecircleinverse", [9689]);
   (bs "whitecornerbracketleft", [12302]);
   (bs "whitecornerbracketleftvertical", [65091]);
   (bs "whitecornerbracketright", [12303]);
   (bs "whitecornerbracketrightvertical", [65092]);
   (bs "whitediamond", [9671]);
   (bs "whitediamondcontainingblacksmalldiamond", [9672]);
   (bs "whitedownpointingsmalltriangle", [9663]);
   (bs "whitedownpointingtriangle", [9661]);
   (bs "whiteleftpointingsmalltriangle", [9667]);
   (bs "whiteleftpointingtriangle", [9665]);
   (bs "whitelenticularbracketleft", [12310]);
   (bs "whitelenticularbracketright", [12311]);
   (bs "whiterightpointingsmalltriangle", [9657]);
   (bs "whiterightpointingtriangle", [9655]);
   (bs "whitesmallsquare", [9643]);
   (bs "whitesmilingface", [9786]);
   (bs "whitesquare", [9633]);
   (bs "whitestar", [9734]);
   (bs "whitetelephone", [9743]);
   (bs "whitetortoiseshellbracketleft", [12312]);
   (bs "whitetortoiseshellbracketright", [12313]);
   (bs "whiteuppointingsmalltriangle", [9653]);
   (bs "whiteuppointingtriangle", [9651]);
   (bs "wihiragana", [12432]);
   (bs "wikatakana", [12528]);
   (bs "wikorean", [12639]);
   (bs "wmonospace", [65367]);
   (bs "wohiragana", [12434]);
   (bs "wokatakana", [12530]);
   (bs "wokatakanahalfwidth", [65382]);
   (bs "won", [8361]);
   (bs "wonmonospace", [65510]);
   (bs "wowaenthai", [3623]);
   (bs "wparen", [9394]);
   (bs "wring", [7832]);
   (bs "wsuperior", [695]);
   (bs "wturned", [653]);
   (bs "wynn", [447]);
   (bs "x", [120]);
   (bs "xabovecmb", [829]);
   (bs "xbopomofo", [12562]);
   (bs "xcircle", [9447]);
   (bs "xdieresis", [7821]);
   (bs "xdotaccent", [7819]);
   (bs "xeharmenian", [1389]);
   (bs "xi", [958]);
   (bs "xmonospace", [65368]);
   (bs "xparen", [9395]);
   (bs "xsuperior", [739]);
   (bs "y", [121]);
   (bs "yaadosquare", [13134]);
   (bs "yabengali", [2479]);
   (bs "yacute", [253]);
   (bs "yadeva", [2351]);
   (bs "yaekorean", [12626]);
   (bs "yagujarati", [2735]);
   (bs "yagurmukhi", [2607]);
   (bs "yahiragana", [12420]);
   (bs "yakatakana", [12516]);
   (bs "yakatakanahalfwidth", [65428]);
   (bs "yakorean", [12625]);
   (bs "yamakkanthai", [3662]);
   (bs "yasmallhiragana", [12419]);
   (bs "yasmallkatakana", [12515]);
   (bs "yasmallkatakanahalfwidth", [65388]);
   (bs "yatcyrillic", [1123]);
   (bs "ycircle", [9448]);
   (bs "ycircumflex", [375]);
   (bs "ydieresis", [255]);
   (bs "ydotaccent", [7823]);
   (bs "ydotbelow", [7925]);
   (bs "yeharabic", [1610]);
   (bs "yehbarreearabic", [1746]);
   (bs "yehbarreefinalarabic", [64431]);
   (bs "yehfinalarabic", [65266]);
   (bs "yehhamzaabovearabic", [1574]);
   (bs "yehhamzaabovefinalarabic", [65162]);
   (bs "yehhamzaaboveinitialarabic", [65163]);
   (bs "yehhamzaabovemedialarabic", [65164]);
   (bs "yehinitialarabic", [65267]);
   (bs "yehmedialarabic", [65268]);
   (bs "yehmeeminitialarabic", [64733]);
   (bs "yehmeemisolatedarabic", [64600]);
   (bs "yehnoonfinalarabic", [64660]);
   (bs "yehthreedotsbelowarabic", [1745]);
   (bs "yekorean", [12630]);
   (bs "yen", [165]);
   (bs "yenmonospace", [65509]);
   (bs "yeokorean", [12629]);
   (bs "yeorinhieuhkorean", [12678]);
   (bs "yerahbenyomohebrew", [1450]);
   (bs "yerahbenyomolefthebrew", [1450]);
   (bs "yericyrillic", [1099]);
   (bs "yerudieresiscyrillic", [1273]);
   (bs "yesieungkorean", [12673]);
   (bs "yesieungpansioskorean", [12675]);
   (bs "yesieungsioskorean", [12674]);
   (bs "yetivhebrew", [1434]);
   (bs "ygrave", [7923]);
   (bs "yhook", [436]);
   (bs "yhookabove", [7927]);
   (bs "yiarmenian", [1397]);
   (bs "yicyrillic", [1111]);
   (bs "yikorean", [12642]);
   (bs "yinyang", [9775]);
   (bs "yiwnarmenian", [1410]);
   (bs "ymonospace", [65369]);
   (bs "yod", [1497]);
   (bs "yoddagesh", [64313]);
   (bs "yoddageshhebrew", [64313]);
   (bs "yodhebrew", [1497]);
   (bs "yodyodhebrew", [1522]);
   (bs "yodyodpatahhebrew", [64287]);
   (bs "yohiragana", [12424]);
   (bs "yoikorean", [12681]);
   (bs "yokatakana", [12520]);
   (bs "yokatakanahalfwidth", [65430]);
   (bs "yokorean", [12635]);
   (bs "yosmallhiragana", [12423]);
   (bs "yosmallkatakana", [12519]);
   (bs "yosmallkatakanahalfwidth", [65390]);
   (bs "yotgreek", [1011]);
   (bs "yoyaekorean", [12680]);
   (bs "yoyakorean", [12679]);
   (bs "yoyakthai", [3618]);
   (bs "yoyingthai", [3597]);
   (bs "yparen", [9396]);
   (bs "ypogegrammeni", [890]);
   (bs "ypogegrammenigreekcmb", [837]);
   (bs "yr", [422]);
   (bs "yring", [7833]);
   (bs "ysuperior", [696]);
   (bs "ytilde", [7929]);
   (bs "yturned", [654]);
   (bs "yuhiragana", [12422]);
   (bs "yuikorean", [12684]);
   (bs "yukatakana", [12518]);
   (bs "yukatakanahalfwidth", [65429]);
   (bs "yukorean", [12640]);
   (bs "yusbigcyrillic", [1131]);
   (bs "yusbigiotifiedcyrillic", [1133]);
   (bs "yuslittlecyrillic", [1127]);
   (bs "yuslittleiotifiedcyrillic", [1129]);
   (bs "yusmallhiragana", [12421]);
   (bs "yusmallkatakana", [12517]);
   (bs "yusmallkatakanahalfwidth", [65389]);
   (bs "yuyekorean", [12683]);
   (bs "yuyeokorean", [12682]);
   (bs "yyabengali", [2527]);
   (bs "yyadeva", [2399]);
   (bs "z", [122]);
   (bs "zaarmenian", [1382]);
   (bs "zacute", [378]);
   (bs "zadeva", [2395]);
   (bs "zagurmukhi", [2651]);
   (bs "zaharabic", [1592]);
   (bs "zahfinalarabic", [65222]);
   (bs "zahinitialarabic", [65223]);
   (bs "zahiragana", [12374]);
   (bs "zahmedialarabic", [65224]);
   (bs "zainarabic", [1586]);
   (bs "zainfinalarabic", [65200]);
   (bs "zakatakana", [12470]);
   (bs "zaqefgadolhebrew", [1429]);
   (bs "zaqefqatanhebrew", [1428]);
   (bs "zarqahebrew", [1432]);
   (bs "zayin", [1494]);
   (bs "zayindagesh", [64310]);
   (bs "zayindageshhebrew", [64310]);
   (bs "zayinhebrew", [1494]);
   (bs "zbopomofo", [12567]);
   (bs "zcaron", [382]);
   (bs "zcircle", [9449]);
   (bs "zcircumflex", [7825]);
   (bs "zcurl", [657]);
   (bs "zdot", [380]);
   (bs "zdotaccent", [380]);
   (bs "zdotbelow", [7827]);
   (bs "zecyrillic", [1079]);
   (bs "zedescendercyrillic", [1177]);
   (bs "zedieresiscyrillic", [1247]);
   (bs "zehiragana", [12380]);
   (bs "zekatakana", [12476]);
   (bs "zero", [48]);
   (bs "zeroarabic", [1632]);
   (bs "zerobengali", [2534]);
   (bs "zerodeva", [2406]);
   (bs "zerogujarati", [2790]);
   (bs "zerogurmukhi", [2662]);
   (bs "zerohackarabic", [1632]);
   (bs "zeroinferior", [8320]);
   (bs "zeromonospace", [65296]);
   (bs "zerooldstyle", [63280]);
   (bs "zeropersian", [1776]);
   (bs "zerosuperior", [8304]);
   (bs "zerothai", [3664]);
   (bs "zerowidthjoiner", [65279]);
   (bs "zerowidthnonjoiner", [8204]);
   (bs "zerowidthspace", [8203]);
   (bs "zeta", [950]);
   (bs "zhbopomofo", [12563]);
   (bs "zhearmenian", [1386]);
   (bs "zhebrevecyrillic", [1218]);
   (bs "zhecyrillic", [1078]);
   (bs "zhedescendercyrillic", [1175]);
   (bs "zhedieresiscyrillic", [1245]);
   (bs "zihiragana", [12376]);
   (bs "zikatakana", [12472]);
   (bs "zinorhebrew", [1454]);
   (bs "zlinebelow", [7829]);
   (bs "zmonospace", [65370]);
   (bs "zohiragana", [12382]);
   (bs "zokatakana", [12478]);
   (bs "zparen", [9397]);
   (bs "zretroflexhook", [656]);
   (bs "zstroke", [438]);
   (bs "zuhiragana", [12378]);
   (bs "zukatakana", [12474])].

(** codecs/zapfdingbatsgl.py 3-205 ZAPFDINGBATS_GL *)
Definition zapf : list (list Z * list Z) :=
  [(bs "a100", [10078]);
   (bs "a101", [10081]);
   (bs "a102", [10082]);
   (bs "a103", [10083]);
   (bs "a104", [10084]);
   (bs "a105", [10000]);
   (bs "a106", [10085]);
   (bs "a107", [10086]);
   (bs "a108", [10087]);
   (bs "a109", [9824]);
   (bs "a10", [10017]);
   (bs "a110", [9829]);
   (bs "a111", [9830]);
   (bs "a112", [9827]);
   (bs "a117", [9993]);
   (bs "a118", [9992]);
   (bs "a119", [9991]);
   (bs "a11", [9755]);
   (bs "a120", [9312]);
   (bs "a121", [9313]);
   (bs "a122", [9314]);
   (bs "a123", [9315]);
   (bs "a124", [9316]);
   (bs "a125", [9317]);
   (bs "a126", [9318]);
   (bs "a127", [9319]);
   (bs "a128", [9320]);
   (bs "a129", [9321]);
   (bs "a12", [9758]);
   (bs "a130", [10102]);
   (bs "a131", [10103]);
   (bs "a132", [10104]);
   (bs "a133", [10105]);
   (bs "a134", [10106]);
   (bs "a135", [10107]);
   (bs "a136", [10108]);
   (bs "a137", [10109]);
   (bs "a138", [10110]);
   (bs "a139", [10111]);
   (bs "a13", [9996]);
   (bs "a140", [10112]);
   (bs "a141", [10113]);
   (bs "a142", [10114]);
   (bs "a143", [10115]);
   (bs "a144", [10116]);
   (bs "a145", [10117]);
   (bs "a146", [10118]);
   (bs "a147", [10119]);
   (bs "a148", [10120]);
   (bs "a149", [10121]);
   (bs "a14", [9997]);
   (bs "a150", [10122]);
   (bs "a151", [10123]);
   (bs "a152", [10124]);
   (bs "a153", [10125]);
   (bs "a154", [10126]);
   (bs "a155", [10127]);
   (bs "a156", [10128]);
   (bs "a157", [10129]);
   (bs "a158", [10130]);
   (bs "a159", [10131]);
   (bs "a15", [9998]);
   (bs "a160", [10132]);
   (bs "a161", [8594]);
   (bs "a162", [10147]);
   (bs "a163", [8596]);
   (bs "a164", [8597]);
   (bs "a165", [10137]);
   (bs "a166", [10139]);
   (bs "a167", [10140]);
   (bs "a168", [10141]);
   (bs "a169", [10142]);
   (bs "a16", [9999]);
   (bs "a170", [10143]);
   (bs "a171", [10144]);
   (bs "a172", [10145]);
   (bs "a173", [10146]);
   (bs "a174", [10148]);
   (bs "a175", [10149]);
   (bs "a176", [10150]);
   (bs "a177", [10151]);
   (bs "a178", [10152]);
   (bs "a179", [10153]);
   (bs "a17", [10001]);
   (bs "a180", [10155]);
   (bs "a181", [10157]);
   (bs "a182", [10159]);
   (bs "a183", [10162]);
   (bs "a184", [10163]);
   (bs "a185", [10165]);
   (bs "a186", [10168]);
   (bs "a187", [10170]);
   (bs "a188", [10171]);
   (bs "a189", [10172]);
   (bs "a18", [10002]);
   (bs "a190", [10173]);
   (bs "a191", [10174]);
   (bs "a192", [10138]);
   (bs "a193", [10154]);
   (bs "a194", [10166]);
   (bs "a195", [10169]);
   (bs "a196", [10136]);
   (bs "a197", [10164]);
   (bs "a198", [10167]);
   (bs "a199", [10156]);
   (bs "a19", [10003]);
   (bs "a1", [9985]);
   (bs "a200", [10158]);
   (bs "a201", [10161]);
   (bs "a202", [9987]);
   (bs "a203", [10064]);
   (bs "a204", [10066]);
   (bs "a205", [10094]);
   (bs "a206", [10096]);
   (bs "a20", [10004]);
   (bs "a21", [10005]);
   (bs "a22", [10006]);
   (bs "a23", [10007]);
   (bs "a24", [10008]);
   (bs "a25", [10009]);
   (bs "a26", [10010]);
   (bs "a27", [10011]);
   (bs "a28", [10012]);
   (bs "a29", [10018]);
   (bs "a2", [9986]);
   (bs "a30", [10019]);
   (bs "a31", [10020]);
   (bs "a32", [10021]);
   (bs "a33", [10022]);
   (bs "a34", [10023]);
   (bs "a35", [9733]);
   (bs "a36", [10025]);
   (bs "a37", [10026]);
   (bs "a38", [10027]);
   (bs "a39", [10028]);
   (bs "a3", [9988]);
   (bs "a40", [10029]);
   (bs "a41", [10030]);
   (bs "a42", [10031]);
   (bs "a43", [10032]);
   (bs "a44", [10033]);
   (bs "a45", [10034]);
   (bs "a46", [10035]);
   (bs "a47", [10036]);
   (bs "a48", [10037]);
   (bs "a49", [10038]);
   (bs "a4", [9742]);
   (bs "a50", [10039]);
   (bs "a51", [10040]);
   (bs "a52", [10041]);
   (bs "a53", [10042]);
   (bs "a54", [10043]);
   (bs "a55", [10044]);
   (bs "a56", [10045]);
   (bs "a57", [10046]);
   (bs "a58", [10047]);
   (bs "a59", [10048]);
   (bs "a5", [9990]);
   (bs "a60", [10049]);
   (bs "a61", [10050]);
   (bs "a62", [10051]);
   (bs "a63", [10052]);
   (bs "a64", [10053]);
   (bs "a65", [10054]);
   (bs "a66", [10055]);
   (bs "a67", [10056]);
   (bs "a68", [10057]);
   (bs "a69", [10058]);
   (bs "a6", [10013]);
   (bs "a70", [10059]);
   (bs "a71", [9679]);
   (bs "a72", [10061]);
   (bs "a73", [9632]);
   (bs "a74", [10063]);
   (bs "a75", [10065]);
   (bs "a76", [9650]);
   (bs "a77", [9660]);
   (bs "a78", [9670]);
   (bs "a79", [10070]);
   (bs "a7", [10014]);
   (bs "a81", [9687]);
   (bs "a82", [10072]);
   (bs "a83", [10073]);
   (bs "a84", [10074]);
   (bs "a85", [10095]);
   (bs "a86", [10097]);
   (bs "a87", [10098]);
   (bs "a88", [10099]);
   (bs "a89", [10088]);
   (bs "a8", [10015]);
   (bs "a90", [10089]);
   (bs "a91", [10092]);
   (bs "a92", [10093]);
   (bs "a93", [10090]);
   (bs "a94", [10091]);
   (bs "a95", [10100]);
   (bs "a96", [10101]);
   (bs "a97", [10075]);
   (bs "a98", [10076]);
   (bs "a99", [10077]);
   (bs "a9", [10016])].

(** codecs/winansi.py 8-36 encode_table: characters to bytes *)
Definition winansi_encode : list (Z * Z) :=
  [(65, 65); (198, 198); (193, 193); (194, 194); (196, 196); (192, 192); (197, 197); (195, 195);
   (66, 66); (67, 67); (199, 199); (68, 68); (69, 69); (201, 201); (202, 202); (203, 203);
   (200, 200); (208, 208); (8364, 128); (70, 70); (71, 71); (72, 72); (73, 73); (205, 205);
   (206, 206); (207, 207); (204, 204); (74, 74); (75, 75); (76, 76); (77, 77); (78, 78);
   (209, 209); (79, 79); (338, 140); (211, 211); (212, 212); (214, 214); (210, 210); (216, 216);
   (213, 213); (80, 80); (81, 81); (82, 82); (83, 83); (352, 138); (84, 84); (222, 222);
   (85, 85); (218, 218); (219, 219); (220, 220); (217, 217); (86, 86); (87, 87); (88, 88);
   (89, 89); (221, 221); (376, 159); (90, 90); (381, 142); (97, 97); (225, 225); (226, 226);
   (180, 180); (228, 228); (230, 230); (224, 224); (38, 38); (229, 229); (94, 94); (126, 126);
   (42, 42); (64, 64); (227, 227); (98, 98); (92, 92); (124, 124); (123, 123); (125, 125);
   (91, 91); (93, 93); (166, 166); (8226, 149); (99, 99); (231, 231); (184, 184); (162, 162);
   (710, 136); (58, 58); (44, 44); (169, 169); (164, 164); (100, 100); (8224, 134); (8225, 135);
   (176, 176); (168, 168); (247, 247); (36, 36); (101, 101); (233, 233); (234, 234); (235, 235);
   (232, 232); (56, 56); (8230, 133); (8212, 151); (8211, 150); (61, 61); (240, 240); (33, 33);
   (161, 161); (102, 102); (53, 53); (402, 131); (52, 52); (103, 103); (223, 223); (96, 96);
   (62, 62); (171, 171); (187, 187); (8249, 139); (8250, 155); (104, 104); (45, 45); (105, 105);
   (237, 237); (238, 238); (239, 239); (236, 236); (106, 106); (107, 107); (108, 108); (60, 60);
   (172, 172); (109, 109); (175, 175); (956, 181); (215, 215); (110, 110); (57, 57); (241, 241);
   (35, 35); (111, 111); (243, 243); (244, 244); (246, 246); (339, 156); (242, 242); (49, 49);
   (189, 189); (188, 188); (185, 185); (170, 170); (186, 186); (248, 248); (245, 245); (112, 112);
   (182, 182); (40, 40); (41, 41); (37, 37); (46, 46); (183, 183); (8240, 137); (43, 43);
   (177, 177); (113, 113); (63, 63); (191, 191); (34, 34); (8222, 132); (8220, 147); (8221, 148);
   (8216, 145); (8217, 146); (8218, 130); (39, 39); (114, 114); (174, 174); (115, 115); (353, 154);
   (167, 167); (59, 59); (55, 55); (54, 54); (47, 47); (160, 32); (163, 163); (116, 116);
   (254, 254); (51, 51); (190, 190); (179, 179); (732, 152); (8482, 153); (50, 50); (178, 178);
   (117, 117); (250, 250); (251, 251); (252, 252); (249, 249); (95, 95); (118, 118); (119, 119);
   (120, 120); (121, 121); (253, 253); (255, 255); (165, 165); (122, 122); (382, 158); (48, 48)].

(** codecs/winansi.py 38-72 decode_table: bytes to glyph names *)
Definition winansi_decode : list (Z * list Z) :=
  [(65, bs "A"); (198, bs "AE"); (193, bs "Aacute"); (194, bs "Acircumflex"); (196, bs "Adieresis");
   (192, bs "Agrave"); (197, bs "Aring"); (195, bs "Atilde"); (66, bs "B"); (67, bs "C");
   (199, bs "Ccedilla"); (68, bs "D"); (69, bs "E"); (201, bs "Eacute"); (202, bs "Ecircumflex");
   (203, bs "Edieresis"); (200, bs "Egrave"); (208, bs "Eth"); (128, bs "Euro"); (70, bs "F");
   (71, bs "G"); (72, bs "H"); (73, bs "I"); (205, bs "Iacute"); (206, bs "Icircumflex");
   (207, bs "Idieresis"); (204, bs "Igrave"); (74, bs "J"); (75, bs "K"); (76, bs "L");
   (77, bs "M"); (78, bs "N"); (209, bs "Ntilde"); (79, bs "O"); (140, bs "OE");
   (211, bs "Oacute"); (212, bs "Ocircumflex"); (214, bs "Odieresis"); (210, bs "Ograve"); (216, bs "Oslash");
   (213, bs "Otilde"); (80, bs "P"); (81, bs "Q"); (82, bs "R"); (83, bs "S");
   (138, bs "Scaron"); (84, bs "T"); (222, bs "Thorn"); (85, bs "U"); (218, bs "Uacute");
   (219, bs "Ucircumflex"); (220, bs "Udieresis"); (217, bs "Ugrave"); (86, bs "V"); (87, bs "W");
   (88, bs "X"); (89, bs "Y"); (221, bs "Yacute"); (159, bs "Ydieresis"); (90, bs "Z");
   (142, bs "Zcaron"); (97, bs "a"); (225, bs "aacute"); (226, bs "acircumflex"); (180, bs "acute");
   (228, bs "adieresis"); (230, bs "ae"); (224, bs "agrave"); (38, bs "ampersand"); (229, bs "aring");
   (94, bs "asciicircum"); (126, bs "asciitilde"); (42, bs "asterisk"); (64, bs "at"); (227, bs "atilde");
   (98, bs "b"); (92, bs "backslash"); (124, bs "bar"); (123, bs "braceleft"); (125, bs "braceright");
   (91, bs "bracketleft"); (93, bs "bracketright"); (166, bs "brokenbar"); (149, bs "bullet"); (99, bs "c");
   (231, bs "ccedilla"); (184, bs "cedilla"); (162, bs "cent"); (136, bs "circumflex"); (58, bs "colon");
   (44, bs "comma"); (169, bs "copyright"); (164, bs "currency1"); (100, bs "d"); (134, bs "dagger");
   (135, bs "daggerdbl"); (176, bs "degree"); (168, bs "dieresis"); (247, bs "divide"); (36, bs "dollar");
   (101, bs "e"); (233, bs "eacute"); (234, bs "ecircumflex"); (235, bs "edieresis"); (232, bs "egrave");
   (56, bs "eight"); (133, bs "ellipsis"); (151, bs "emdash"); (150, bs "endash"); (61, bs "equal");
   (240, bs "eth"); (33, bs "exclam"); (161, bs "exclamdown"); (102, bs "f"); (53, bs "five");
   (131, bs "florin"); (52, bs "four"); (103, bs "g"); (223, bs "germandbls"); (96, bs "grave");
   (62, bs "greater"); (171, bs "guillemotleft"); (187, bs "guillemotright"); (139, bs "guilsinglleft"); (155, bs "guilsinglright");
   (104, bs "h"); (45, bs "hyphen"); (105, bs "i"); (237, bs "iacute"); (238, bs "icircumflex");
   (239, bs "idieresis"); (236, bs "igrave"); (106, bs "j"); (107, bs "k"); (108, bs "l");
   (60, bs "less"); (172, bs "logicalnot"); (109, bs "m"); (175, bs "macron"); (181, bs "mu");
   (215, bs "multiply"); (110, bs "n"); (57, bs "nine"); (241, bs "ntilde"); (35, bs "numbersign");
   (111, bs "o"); (243, bs "oacute"); (244, bs "ocircumflex"); (246, bs "odieresis"); (156, bs "oe");
   (242, bs "ograve"); (49, bs "one"); (189, bs "onehalf"); (188, bs "onequarter"); (185, bs "onesuperior");
   (170, bs "ordfeminine"); (186, bs "ordmasculine"); (248, bs "oslash"); (245, bs "otilde"); (112, bs "p");
   (182, bs "paragraph"); (40, bs "parenleft"); (41, bs "parenright"); (37, bs "percent"); (46, bs "period");
   (183, bs "periodcentered"); (137, bs "perthousand"); (43, bs "plus"); (177, bs "plusminus"); (113, bs "q");
   (63, bs "question"); (191, bs "questiondown"); (34, bs "quotedbl"); (132, bs "quotedblbase"); (147, bs "quotedblleft");
   (148, bs "quotedblright"); (145, bs "quoteleft"); (146, bs "quoteright"); (130, bs "quotesinglbase"); (39, bs "quotesingle");
   (114, bs "r"); (174, bs "registered"); (115, bs "s"); (154, bs "scaron"); (167, bs "section");
   (59, bs "semicolon"); (55, bs "seven"); (54, bs "six"); (47, bs "slash"); (32, bs "space");
   (163, bs "sterling"); (116, bs "t"); (254, bs "thorn"); (51, bs "three"); (190, bs "threequarters");
   (179, bs "threesuperior"); (152, bs "tilde"); (153, bs "trademark"); (50, bs "two"); (178, bs "twosuperior");
   (117, bs "u"); (250, bs "uacute"); (251, bs "ucircumflex"); (252, bs "udieresis"); (249, bs "ugrave");
   (95, bs "underscore"); (118, bs "v"); (119, bs "w"); (120, bs "x"); (121, bs "y");
   (253, bs "yacute"); (255, bs "ydieresis"); (165, bs "yen"); (122, bs "z"); (158, bs "zcaron");
   (48, bs "zero"); (160, bs "nbspace")].

(** codecs/standard.py 8-26 encode_table: characters to bytes *)
Definition standard_encode : list (Z * Z) :=
  [(65, 65); (198, 225); (66, 66); (67, 67); (68, 68); (69, 69); (70, 70); (71, 71);
   (72, 72); (73, 73); (74, 74); (75, 75); (76, 76); (321, 232); (77, 77); (78, 78);
   (79, 79); (338, 234); (216, 233); (80, 80); (81, 81); (82, 82); (83, 83); (84, 84);
   (85, 85); (86, 86); (87, 87); (88, 88); (89, 89); (90, 90); (97, 97); (180, 194);
   (230, 241); (38, 38); (94, 94); (126, 126); (42, 42); (64, 64); (98, 98); (92, 92);
   (124, 124); (123, 123); (125, 125); (91, 91); (93, 93); (728, 198); (8226, 183); (99, 99);
   (711, 207); (184, 203); (162, 162); (710, 195); (58, 58); (44, 44); (164, 168); (100, 100);
   (8224, 178); (8225, 179); (168, 200); (36, 36); (729, 199); (305, 245); (101, 101); (56, 56);
   (8230, 188); (8212, 208); (8211, 177); (61, 61); (33, 33); (161, 161); (102, 102); (64257, 174);
   (53, 53); (64258, 175); (402, 166); (52, 52); (8260, 164); (103, 103); (223, 251); (96, 193);
   (62, 62); (171, 171); (187, 187); (8249, 172); (8250, 173); (104, 104); (733, 205); (45, 45);
   (105, 105); (106, 106); (107, 107); (108, 108); (60, 60); (322, 248); (109, 109); (175, 197);
   (110, 110); (57, 57); (35, 35); (111, 111); (339, 250); (731, 206); (49, 49); (170, 227);
   (186, 235); (248, 249); (112, 112); (182, 182); (40, 40); (41, 41); (37, 37); (46, 46);
   (183, 180); (8240, 189); (43, 43); (113, 113); (63, 63); (191, 191); (34, 34); (8222, 185);
   (8220, 170); (8221, 186); (8216, 96); (8217, 39); (8218, 184); (39, 169); (114, 114); (176, 202);
   (115, 115); (167, 167); (59, 59); (55, 55); (54, 54); (47, 47); (160, 32); (163, 163);
   (116, 116); (51, 51); (732, 196); (50, 50); (117, 117); (95, 95); (118, 118); (119, 119);
   (120, 120); (121, 121); (165, 165); (122, 122); (48, 48)].

(** codecs/standard.py 28-49 decode_table: bytes to glyph names *)
Definition standard_decode : list (Z * list Z) :=
  [(65, bs "A"); (225, bs "AE"); (66, bs "B"); (67, bs "C"); (68, bs "D");
   (69, bs "E"); (70, bs "F"); (71, bs "G"); (72, bs "H"); (73, bs "I");
   (74, bs "J"); (75, bs "K"); (76, bs "L"); (232, bs "Lslash"); (77, bs "M");
   (78, bs "N"); (79, bs "O"); (234, bs "OE"); (233, bs "Oslash"); (80, bs "P");
   (81, bs "Q"); (82, bs "R"); (83, bs "S"); (84, bs "T"); (85, bs "U");
   (86, bs "V"); (87, bs "W"); (88, bs "X"); (89, bs "Y"); (90, bs "Z");
   (97, bs "a"); (194, bs "acute"); (241, bs "ae"); (38, bs "ampersand"); (94, bs "asciicircum");
   (126, bs "asciitilde"); (42, bs "asterisk"); (64, bs "at"); (98, bs "b"); (92, bs "backslash");
   (124, bs "bar"); (123, bs "braceleft"); (125, bs "braceright"); (91, bs "bracketleft"); (93, bs "bracketright");
   (198, bs "breve"); (183, bs "bullet (3)"); (99, bs "c"); (207, bs "caron"); (203, bs "cedilla");
   (162, bs "cent"); (195, bs "circumflex"); (58, bs "colon"); (44, bs "comma"); (168, bs "currency1");
   (100, bs "d"); (178, bs "dagger"); (179, bs "daggerdbl"); (200, bs "dieresis"); (36, bs "dollar");
   (199, bs "dotaccent"); (245, bs "dotlessi"); (101, bs "e"); (56, bs "eight"); (188, bs "ellipsis");
   (208, bs "emdash"); (177, bs "endash"); (61, bs "equal"); (33, bs "exclam"); (161, bs "exclamdown");
   (102, bs "f"); (174, bs "fi"); (53, bs "five"); (175, bs "fl"); (166, bs "florin");
   (52, bs "four"); (164, bs "fraction"); (103, bs "g"); (251, bs "germandbls"); (193, bs "grave");
   (62, bs "greater"); (171, bs "guillemotleft"); (187, bs "guillemotright"); (172, bs "guilsinglleft"); (173, bs "guilsinglright");
   (104, bs "h"); (205, bs "hungarumlaut"); (45, bs "hyphen"); (105, bs "i"); (106, bs "j");
   (107, bs "k"); (108, bs "l"); (60, bs "less"); (248, bs "lslash"); (109, bs "m");
   (197, bs "macron"); (110, bs "n"); (57, bs "nine"); (35, bs "numbersign"); (111, bs "o");
   (250, bs "oe"); (206, bs "ogonek"); (49, bs "one"); (227, bs "ordfeminine"); (235, bs "ordmasculine");
   (249, bs "oslash"); (112, bs "p"); (182, bs "paragraph"); (40, bs "parenleft"); (41, bs "parenright");
   (37, bs "percent"); (46, bs "period"); (180, bs "periodcentered"); (189, bs "perthousand"); (43, bs "plus");
   (113, bs "q"); (63, bs "question"); (191, bs "questiondown"); (34, bs "quotedbl"); (185, bs "quotedblbase");
   (170, bs "quotedblleft"); (186, bs "quotedblright"); (96, bs "quoteleft"); (39, bs "quoteright"); (184, bs "quotesinglbase");
   (169, bs "quotesingle"); (114, bs "r"); (202, bs "ring"); (115, bs "s"); (167, bs "section");
   (59, bs "semicolon"); (55, bs "seven"); (54, bs "six"); (47, bs "slash"); (32, bs "space");
   (163, bs "sterling"); (116, bs "t"); (51, bs "three"); (196, bs "tilde"); (50, bs "two");
   (117, bs "u"); (95, bs "underscore"); (118, bs "v"); (119, bs "w"); (120, bs "x");
   (121, bs "y"); (165, bs "yen"); (122, bs "z"); (48, bs "zero")].

(** codecs/macroman.py 8-34 encode_table: characters to bytes *)
Definition macroman_encode : list (Z * Z) :=
  [(65, 65); (198, 174); (193, 231); (194, 229); (196, 128); (192, 203); (197, 129); (195, 204);
   (66, 66); (67, 67); (199, 130); (68, 68); (69, 69); (201, 131); (202, 230); (203, 232);
   (200, 233); (70, 70); (71, 71); (72, 72); (73, 73); (205, 234); (206, 235); (207, 236);
   (204, 237); (74, 74); (75, 75); (76, 76); (77, 77); (78, 78); (209, 132); (79, 79);
   (338, 206); (211, 238); (212, 239); (214, 133); (210, 241); (216, 175); (213, 205); (80, 80);
   (81, 81); (82, 82); (83, 83); (84, 84); (85, 85); (218, 242); (219, 243); (220, 134);
   (217, 244); (86, 86); (87, 87); (88, 88); (89, 89); (376, 217); (90, 90); (97, 97);
   (225, 135); (226, 137); (180, 171); (228, 138); (230, 190); (224, 136); (38, 38); (229, 140);
   (94, 94); (126, 126); (42, 42); (64, 64); (227, 139); (98, 98); (92, 92); (124, 124);
   (123, 123); (125, 125); (91, 91); (93, 93); (728, 249); (8226, 165); (99, 99); (711, 255);
   (231, 141); (184, 252); (162, 162); (710, 246); (58, 58); (44, 44); (169, 169); (164, 219);
   (100, 100); (8224, 160); (8225, 224); (176, 251); (168, 172); (247, 214); (36, 36); (729, 250);
   (305, 245); (101, 101); (233, 142); (234, 144); (235, 145); (232, 143); (56, 56); (8230, 201);
   (8212, 209); (8211, 208); (61, 61); (33, 33); (161, 193); (102, 102); (64257, 222); (53, 53);
   (64258, 223); (402, 196); (52, 52); (8260, 218); (103, 103); (223, 167); (96, 96); (62, 62);
   (171, 199); (187, 200); (8249, 220); (8250, 221); (104, 104); (733, 253); (45, 45); (105, 105);
   (237, 146); (238, 148); (239, 149); (236, 147); (106, 106); (107, 107); (108, 108); (60, 60);
   (172, 194); (109, 109); (175, 248); (956, 181); (110, 110); (57, 57); (241, 150); (35, 35);
   (111, 111); (243, 151); (244, 153); (246, 154); (339, 207); (731, 254); (242, 152); (49, 49);
   (170, 187); (186, 188); (248, 191); (245, 155); (112, 112); (182, 166); (40, 40); (41, 41);
   (37, 37); (46, 46); (183, 225); (8240, 228); (43, 43); (177, 177); (113, 113); (63, 63);
   (191, 192); (34, 34); (8222, 227); (8220, 210); (8221, 211); (8216, 212); (8217, 213); (8218, 226);
   (39, 39); (114, 114); (174, 168); (115, 115); (167, 164); (59, 59); (55, 55); (54, 54);
   (47, 47); (160, 32); (163, 163); (116, 116); (51, 51); (732, 247); (8482, 170); (50, 50);
   (117, 117); (250, 156); (251, 158); (252, 159); (249, 157); (95, 95); (118, 118); (119, 119);
   (120, 120); (121, 121); (255, 216); (165, 180); (122, 122); (48, 48)].

(** codecs/macroman.py 36-69 decode_table: bytes to glyph names *)
Definition macroman_decode : list (Z * list Z) :=
  [(65, bs "A"); (174, bs "AE"); (231, bs "Aacute"); (229, bs "Acircumflex"); (128, bs "Adieresis");
   (203, bs "Agrave"); (129, bs "Aring"); (204, bs "Atilde"); (66, bs "B"); (67, bs "C");
   (130, bs "Ccedilla"); (68, bs "D"); (69, bs "E"); (131, bs "Eacute"); (230, bs "Ecircumflex");
   (232, bs "Edieresis"); (233, bs "Egrave"); (70, bs "F"); (71, bs "G"); (72, bs "H");
   (73, bs "I"); (234, bs "Iacute"); (235, bs "Icircumflex"); (236, bs "Idieresis"); (237, bs "Igrave");
   (74, bs "J"); (75, bs "K"); (76, bs "L"); (77, bs "M"); (78, bs "N");
   (132, bs "Ntilde"); (79, bs "O"); (206, bs "OE"); (238, bs "Oacute"); (239, bs "Ocircumflex");
   (133, bs "Odieresis"); (241, bs "Ograve"); (175, bs "Oslash"); (205, bs "Otilde"); (80, bs "P");
   (81, bs "Q"); (82, bs "R"); (83, bs "S"); (84, bs "T"); (85, bs "U");
   (242, bs "Uacute"); (243, bs "Ucircumflex"); (134, bs "Udieresis"); (244, bs "Ugrave"); (86, bs "V");
   (87, bs "W"); (88, bs "X"); (89, bs "Y"); (217, bs "Ydieresis"); (90, bs "Z");
   (97, bs "a"); (135, bs "aacute"); (137, bs "acircumflex"); (171, bs "acute"); (138, bs "adieresis");
   (190, bs "ae"); (136, bs "agrave"); (38, bs "ampersand"); (140, bs "aring"); (94, bs "asciicircum");
   (126, bs "asciitilde"); (42, bs "asterisk"); (64, bs "at"); (139, bs "atilde"); (98, bs "b");
   (92, bs "backslash"); (124, bs "bar"); (123, bs "braceleft"); (125, bs "braceright"); (91, bs "bracketleft");
   (93, bs "bracketright"); (249, bs "breve"); (165, bs "bullet"); (99, bs "c"); (255, bs "caron");
   (141, bs "ccedilla"); (252, bs "cedilla"); (162, bs "cent"); (246, bs "circumflex"); (58, bs "colon");
   (44, bs "comma"); (169, bs "copyright"); (219, bs "currency1"); (100, bs "d"); (160, bs "dagger");
   (224, bs "daggerdbl"); (161, bs "degree"); (172, bs "dieresis"); (214, bs "divide"); (36, bs "dollar");
   (250, bs "dotaccent"); (245, bs "dotlessi"); (101, bs "e"); (142, bs "eacute"); (144, bs "ecircumflex");
   (145, bs "edieresis"); (143, bs "egrave"); (56, bs "eight"); (201, bs "ellipsis"); (209, bs "emdash");
   (208, bs "endash"); (61, bs "equal"); (33, bs "exclam"); (193, bs "exclamdown"); (102, bs "f");
   (222, bs "fi"); (53, bs "five"); (223, bs "fl"); (196, bs "florin"); (52, bs "four");
   (218, bs "fraction"); (103, bs "g"); (167, bs "germandbls"); (96, bs "grave"); (62, bs "greater");
   (199, bs "guillemotleft"); (200, bs "guillemotright"); (220, bs "guilsinglleft"); (221, bs "guilsinglright"); (104, bs "h");
   (253, bs "hungarumlaut"); (45, bs "hyphen"); (105, bs "i"); (146, bs "iacute"); (148, bs "icircumflex");
   (149, bs "idieresis"); (147, bs "igrave"); (106, bs "j"); (107, bs "k"); (108, bs "l");
   (60, bs "less"); (194, bs "logicalnot"); (109, bs "m"); (248, bs "macron"); (181, bs "mu");
   (110, bs "n"); (57, bs "nine"); (150, bs "ntilde"); (35, bs "numbersign"); (111, bs "o");
   (151, bs "oacute"); (153, bs "ocircumflex"); (154, bs "odieresis"); (207, bs "oe"); (254, bs "ogonek");
   (152, bs "ograve"); (49, bs "one"); (187, bs "ordfeminine"); (188, bs "ordmasculine"); (191, bs "oslash");
   (155, bs "otilde"); (112, bs "p"); (166, bs "paragraph"); (40, bs "parenleft"); (41, bs "parenright");
   (37, bs "percent"); (46, bs "period"); (225, bs "periodcentered"); (228, bs "perthousand"); (43, bs "plus");
   (177, bs "plusminus"); (113, bs "q"); (63, bs "question"); (192, bs "questiondown"); (34, bs "quotedbl");
   (227, bs "quotedblbase"); (210, bs "quotedblleft"); (211, bs "quotedblright"); (212, bs "quoteleft"); (213, bs "quoteright");
   (226, bs "quotesinglbase"); (39, bs "quotesingle"); (114, bs "r"); (168, bs "registered"); (251, bs "ring");
   (115, bs "s"); (164, bs "section"); (59, bs "semicolon"); (55, bs "seven"); (54, bs "six");
   (47, bs "slash"); (32, bs "space"); (163, bs "sterling"); (116, bs "t"); (51, bs "three");
   (247, bs "tilde"); (170, bs "trademark"); (50, bs "two"); (117, bs "u"); (156, bs "uacute");
   (158, bs "ucircumflex"); (159, bs "udieresis"); (157, bs "ugrave"); (95, bs "underscore"); (118, bs "v");
   (119, bs "w"); (120, bs "x"); (121, bs "y"); (216, bs "ydieresis"); (180, bs "yen");
   (122, bs "z"); (48, bs "zero"); (202, bs "nbspace")].

(** codecs/pdfdoc.py 8-37 encode_table: characters to bytes *)
Definition pdfdoc_encode : list (Z * Z) :=
  [(65, 65); (198, 198); (193, 193); (194, 194); (196, 196); (192, 192); (197, 197); (195, 195);
   (66, 66); (67, 67); (199, 199); (68, 68); (69, 69); (201, 201); (202, 202); (203, 203);
   (200, 200); (208, 208); (8364, 160); (70, 70); (71, 71); (72, 72); (73, 73); (205, 205);
   (206, 206); (207, 207); (204, 204); (74, 74); (75, 75); (76, 76); (321, 149); (77, 77);
   (78, 78); (209, 209); (79, 79); (338, 150); (211, 211); (212, 212); (214, 214); (210, 210);
   (216, 216); (213, 213); (80, 80); (81, 81); (82, 82); (83, 83); (352, 151); (84, 84);
   (222, 222); (85, 85); (218, 218); (219, 219); (220, 220); (217, 217); (86, 86); (87, 87);
   (88, 88); (89, 89); (221, 221); (376, 152); (90, 90); (381, 153); (97, 97); (225, 225);
   (226, 226); (180, 180); (228, 228); (230, 230); (224, 224); (38, 38); (229, 229); (94, 94);
   (126, 126); (42, 42); (64, 64); (227, 227); (98, 98); (92, 92); (124, 124); (123, 123);
   (125, 125); (91, 91); (93, 93); (728, 24); (166, 166); (8226, 128); (99, 99); (711, 25);
   (231, 231); (184, 184); (162, 162); (710, 26); (58, 58); (44, 44); (169, 169); (164, 164);
   (100, 100); (8224, 129); (8225, 130); (176, 30); (168, 168); (247, 247); (36, 36); (729, 27);
   (305, 154); (101, 101); (233, 233); (234, 234); (235, 235); (232, 232); (56, 56); (8230, 131);
   (8212, 132); (8211, 133); (61, 61); (240, 240); (33, 33); (161, 161); (102, 102); (64257, 147);
   (53, 53); (64258, 148); (402, 134); (52, 52); (8260, 135); (103, 103); (223, 223); (96, 96);
   (62, 62); (171, 171); (187, 187); (8249, 136); (8250, 137); (104, 104); (733, 28); (45, 45);
   (105, 105); (237, 237); (238, 238); (239, 239); (236, 236); (106, 106); (107, 107); (108, 108);
   (60, 60); (172, 172); (322, 155); (109, 109); (175, 175); (8722, 138); (956, 181); (215, 215);
   (110, 110); (57, 57); (241, 241); (35, 35); (111, 111); (243, 243); (244, 244); (246, 246);
   (339, 156); (731, 29); (242, 242); (49, 49); (189, 189); (188, 188); (185, 185); (170, 170);
   (186, 186); (248, 248); (245, 245); (112, 112); (182, 182); (40, 40); (41, 41); (37, 37);
   (46, 46); (183, 183); (8240, 139); (43, 43); (177, 177); (113, 113); (63, 63); (191, 191);
   (34, 34); (8222, 140); (8220, 141); (8221, 142); (8216, 143); (8217, 144); (8218, 145); (39, 39);
   (114, 114); (174, 174); (115, 115); (353, 157); (167, 167); (59, 59); (55, 55); (54, 54);
   (47, 47); (160, 32); (163, 163); (116, 116); (254, 254); (51, 51); (190, 190); (179, 179);
   (732, 31); (8482, 146); (50, 50); (178, 178); (117, 117); (250, 250); (251, 251); (252, 252);
   (249, 249); (95, 95); (118, 118); (119, 119); (120, 120); (121, 121); (253, 253); (255, 255);
   (165, 165); (122, 122); (382, 158); (48, 48)].

(** codecs/pdfdoc.py 39-74 decode_table: bytes to glyph names *)
Definition pdfdoc_decode : list (Z * list Z) :=
  [(65, bs "A"); (198, bs "AE"); (193, bs "Aacute"); (194, bs "Acircumflex"); (196, bs "Adieresis");
   (192, bs "Agrave"); (197, bs "Aring"); (195, bs "Atilde"); (66, bs "B"); (67, bs "C");
   (199, bs "Ccedilla"); (68, bs "D"); (69, bs "E"); (201, bs "Eacute"); (202, bs "Ecircumflex");
   (203, bs "Edieresis"); (200, bs "Egrave"); (208, bs "Eth"); (160, bs "Euro"); (70, bs "F");
   (71, bs "G"); (72, bs "H"); (73, bs "I"); (205, bs "Iacute"); (206, bs "Icircumflex");
   (207, bs "Idieresis"); (204, bs "Igrave"); (74, bs "J"); (75, bs "K"); (76, bs "L");
   (149, bs "Lslash"); (77, bs "M"); (78, bs "N"); (209, bs "Ntilde"); (79, bs "O");
   (150, bs "OE"); (211, bs "Oacute"); (212, bs "Ocircumflex"); (214, bs "Odieresis"); (210, bs "Ograve");
   (216, bs "Oslash"); (213, bs "Otilde"); (80, bs "P"); (81, bs "Q"); (82, bs "R");
   (83, bs "S"); (151, bs "Scaron"); (84, bs "T"); (222, bs "Thorn"); (85, bs "U");
   (218, bs "Uacute"); (219, bs "Ucircumflex"); (220, bs "Udieresis"); (217, bs "Ugrave"); (86, bs "V");
   (87, bs "W"); (88, bs "X"); (89, bs "Y"); (221, bs "Yacute"); (152, bs "Ydieresis");
   (90, bs "Z"); (153, bs "Zcaron"); (97, bs "a"); (225, bs "aacute"); (226, bs "acircumflex");
   (180, bs "acute"); (228, bs "adieresis"); (230, bs "ae"); (224, bs "agrave"); (38, bs "ampersand");
   (229, bs "aring"); (94, bs "asciicircum"); (126, bs "asciitilde"); (42, bs "asterisk"); (64, bs "at");
   (227, bs "atilde"); (98, bs "b"); (92, bs "backslash"); (124, bs "bar"); (123, bs "braceleft");
   (125, bs "braceright"); (91, bs "bracketleft"); (93, bs "bracketright"); (24, bs "breve"); (166, bs "brokenbar");
   (128, bs "bullet"); (99, bs "c"); (25, bs "caron"); (231, bs "ccedilla"); (184, bs "cedilla");
   (162, bs "cent"); (26, bs "circumflex"); (58, bs "colon"); (44, bs "comma"); (169, bs "copyright");
   (164, bs "currency1"); (100, bs "d"); (129, bs "dagger"); (130, bs "daggerdbl"); (176, bs "degree");
   (168, bs "dieresis"); (247, bs "divide"); (36, bs "dollar"); (27, bs "dotaccent"); (154, bs "dotlessi");
   (101, bs "e"); (233, bs "eacute"); (234, bs "ecircumflex"); (235, bs "edieresis"); (232, bs "egrave");
   (56, bs "eight"); (131, bs "ellipsis"); (132, bs "emdash"); (133, bs "endash"); (61, bs "equal");
   (240, bs "eth"); (33, bs "exclam"); (161, bs "exclamdown"); (102, bs "f"); (147, bs "fi");
   (53, bs "five"); (148, bs "fl"); (134, bs "florin"); (52, bs "four"); (135, bs "fraction");
   (103, bs "g"); (223, bs "germandbls"); (96, bs "grave"); (62, bs "greater"); (171, bs "guillemotleft");
   (187, bs "guillemotright"); (136, bs "guilsinglleft"); (137, bs "guilsinglright"); (104, bs "h"); (28, bs "hungarumlaut");
   (45, bs "hyphen"); (105, bs "i"); (237, bs "iacute"); (238, bs "icircumflex"); (239, bs "idieresis");
   (236, bs "igrave"); (106, bs "j"); (107, bs "k"); (108, bs "l"); (60, bs "less");
   (172, bs "logicalnot"); (155, bs "lslash"); (109, bs "m"); (175, bs "macron"); (138, bs "minus");
   (181, bs "mu"); (215, bs "multiply"); (110, bs "n"); (57, bs "nine"); (241, bs "ntilde");
   (35, bs "numbersign"); (111, bs "o"); (243, bs "oacute"); (244, bs "ocircumflex"); (246, bs "odieresis");
   (156, bs "oe"); (29, bs "ogonek"); (242, bs "ograve"); (49, bs "one"); (189, bs "onehalf");
   (188, bs "onequarter"); (185, bs "onesuperior"); (170, bs "ordfeminine"); (186, bs "ordmasculine"); (248, bs "oslash");
   (245, bs "otilde"); (112, bs "p"); (182, bs "paragraph"); (40, bs "parenleft"); (41, bs "parenright");
   (37, bs "percent"); (46, bs "period"); (183, bs "periodcentered"); (139, bs "perthousand"); (43, bs "plus");
   (177, bs "plusminus"); (113, bs "q"); (63, bs "question"); (191, bs "questiondown"); (34, bs "quotedbl");
   (140, bs "quotedblbase"); (141, bs "quotedblleft"); (142, bs "quotedblright"); (143, bs "quoteleft"); (144, bs "quoteright");
   (145, bs "quotesinglbase"); (39, bs "quotesingle"); (114, bs "r"); (174, bs "registered"); (30, bs "ring");
   (115, bs "s"); (157, bs "scaron"); (167, bs "section"); (59, bs "semicolon"); (55, bs "seven");
   (54, bs "six"); (47, bs "slash"); (32, bs "space"); (163, bs "sterling"); (116, bs "t");
   (254, bs "thorn"); (51, bs "three"); (190, bs "threequarters"); (179, bs "threesuperior"); (31, bs "tilde");
   (146, bs "trademark"); (50, bs "two"); (178, bs "twosuperior"); (117, bs "u"); (250, bs "uacute");
   (251, bs "ucircumflex"); (252, bs "udieresis"); (249, bs "ugrave"); (95, bs "underscore"); (118, bs "v");
   (119, bs "w"); (120, bs "x"); (121, bs "y"); (253, bs "yacute"); (255, bs "ydieresis");
   (165, bs "yen"); (122, bs "z"); (158, bs "zcaron"); (48, bs "zero")].
