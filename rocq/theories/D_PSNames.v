(** Generated by tools/gen_psnames.py: literal tables of pdfreader. *)
From Coq Require Import String.
From Verif Require Import Prelude.
Local Open Scope Z_scope.
Local Open Scope string_scope.

(** types/constants.py 3-235 PS_CHARNAMES *)
Definition ps_charnames : list (list Z * list Z) :=
  [(bs "AE", [198]);
   (bs "Aacute", [193]);
   (bs "Acircumflex", [194]);
   (bs "Adieresis", [196]);
   (bs "Agrave", [192]);
   (bs "Alpha", [913]);
   (bs "Aring", [197]);
   (bs "Atilde", [195]);
   (bs "Beta", [914]);
   (bs "Ccedilla", [199]);
   (bs "Chi", [935]);
   (bs "Deltagreek", [916]);
   (bs "Eacute", [201]);
   (bs "Ecircumflex", [202]);
   (bs "Edieresis", [203]);
   (bs "Egrave", [200]);
   (bs "Epsilon", [917]);
   (bs "Eta", [919]);
   (bs "Eth", [208]);
   (bs "Gamma", [915]);
   (bs "Iacute", [205]);
   (bs "Icircumflex", [206]);
   (bs "Idieresis", [207]);
   (bs "Ifraktur", [8465]);
   (bs "Igrave", [204]);
   (bs "Iota", [921]);
   (bs "Kappa", [922]);
   (bs "Lambda", [923]);
   (bs "Mu", [924]);
   (bs "Ntilde", [209]);
   (bs "Nu", [925]);
   (bs "Oacute", [211]);
   (bs "Ocircumflex", [212]);
   (bs "Odieresis", [214]);
   (bs "Ograve", [210]);
   (bs "Omegagreek", [937]);
   (bs "Omicron", [927]);
   (bs "Oslash", [216]);
   (bs "Otilde", [213]);
   (bs "Phi", [934]);
   (bs "Pi", [928]);
   (bs "Psi", [936]);
   (bs "Rfraktur", [8476]);
   (bs "Rho", [929]);
   (bs "Sigma", [931]);
   (bs "Tau", [932]);
   (bs "Theta", [920]);
   (bs "Thorn", [222]);
   (bs "Uacute", [218]);
   (bs "Ucircumflex", [219]);
   (bs "Udieresis", [220]);
   (bs "Ugrave", [217]);
   (bs "Upsilon", [933]);
   (bs "Upsilon1", [978]);
   (bs "Upsilonhooksymbol", [978]);
   (bs "Xi", [926]);
   (bs "Yacute", [221]);
   (bs "Zeta", [918]);
   (bs "aacute", [225]);
   (bs "acircumflex", [226]);
   (bs "acute", [180]);
   (bs "adieresis", [228]);
   (bs "ae", [230]);
   (bs "agrave", [224]);
   (bs "aleph", [8501]);
   (bs "alpha", [945]);
   (bs "angle", [8736]);
   (bs "approxequal", [8776]);
   (bs "approximatelyequal", [8773]);
   (bs "aring", [229]);
   (bs "arrowboth", [8596]);
   (bs "arrowdblboth", [8660]);
   (bs "arrowdbldown", [8659]);
   (bs "arrowdblleft", [8656]);
   (bs "arrowdblright", [8658]);
   (bs "arrowdblup", [8657]);
   (bs "arrowdown", [8595]);
   (bs "arrowleft", [8592]);
   (bs "arrowleftdbl", [8656]);
   (bs "arrowright", [8594]);
   (bs "arrowup", [8593]);
   (bs "asteriskmath", [8727]);
   (bs "atilde", [227]);
   (bs "beta", [946]);
   (bs "brokenbar", [166]);
   (bs "bullet", [8226]);
   (bs "carriagereturn", [8629]);
   (bs "ccedilla", [231]);
   (bs "cedilla", [184]);
   (bs "cent", [162]);
   (bs "chi", [967]);
   (bs "circlemultiply", [8855]);
   (bs "circleplus", [8853]);
   (bs "congruent", [8773]);
   (bs "copyright", [169]);
   (bs "currency", [164]);
   (bs "dblarrowleft", [8660]);
   (bs "dblarrowright", [8658]);
   (bs "degree", [176]);
   (bs "delta", [948]);
   (bs "dieresis", [168]);
   (bs "divide", [247]);
   (bs "dotmath", [8901]);
   (bs "eacute", [233]);
   (bs "ecircumflex", [234]);
   (bs "edieresis", [235]);
   (bs "egrave", [232]);
   (bs "element", [8712]);
   (bs "ellipsis", [8230]);
   (bs "emptyset", [8709]);
   (bs "epsilon", [949]);
   (bs "equivalence", [8801]);
   (bs "eta", [951]);
   (bs "eth", [240]);
   (bs "exclamdown", [161]);
   (bs "existential", [8707]);
   (bs "florin", [402]);
   (bs "forall", [8704]);
   (bs "fraction", [8260]);
   (bs "gamma", [947]);
   (bs "germandbls", [223]);
   (bs "gradient", [8711]);
   (bs "greaterequal", [8805]);
   (bs "guillemotleft", [171]);
   (bs "guillemotright", [187]);
   (bs "iacute", [237]);
   (bs "icircumflex", [238]);
   (bs "idieresis", [239]);
   (bs "igrave", [236]);
   (bs "infinity", [8734]);
   (bs "integral", [8747]);
   (bs "intersection", [8745]);
   (bs "iota", [953]);
   (bs "kappa", [954]);
   (bs "lambda", [955]);
   (bs "lessequal", [8804]);
   (bs "logicaland", [8743]);
   (bs "logicalnot", [172]);
   (bs "logicalor", [8744]);
   (bs "macron", [175]);
   (bs "middot", [183]);
   (bs "minus", [8722]);
   (bs "minute", [8242]);
   (bs "mu", [181]);
   (bs "mu1", [181]);
   (bs "mugreek", [956]);
   (bs "multiply", [215]);
   (bs "nabla", [8711]);
   (bs "nbspace", [160]);
   (bs "nonbreakingspace", [160]);
   (bs "notelement", [8713]);
   (bs "notelementof", [8713]);
   (bs "notequal", [8800]);
   (bs "notsubset", [8836]);
   (bs "ntilde", [241]);
   (bs "nu", [957]);
   (bs "oacute", [243]);
   (bs "ocircumflex", [244]);
   (bs "odieresis", [246]);
   (bs "ograve", [242]);
   (bs "omega", [969]);
   (bs "omega1", [982]);
   (bs "omicron", [959]);
   (bs "onehalf", [189]);
   (bs "onequarter", [188]);
   (bs "onesuperior", [185]);
   (bs "ordfeminine", [170]);
   (bs "ordmasculine", [186]);
   (bs "oslash", [248]);
   (bs "otilde", [245]);
   (bs "overline", [8254]);
   (bs "overscore", [175]);
   (bs "paragraph", [182]);
   (bs "partialdiff", [8706]);
   (bs "periodcentered", [183]);
   (bs "perpendicular", [8869]);
   (bs "phi", [966]);
   (bs "pi", [960]);
   (bs "pisymbolgreek", [982]);
   (bs "pluscircle", [8853]);
   (bs "plusminus", [177]);
   (bs "product", [8719]);
   (bs "propersubset", [8834]);
   (bs "propersuperset", [8835]);
   (bs "proportional", [8733]);
   (bs "psi", [968]);
   (bs "questiondown", [191]);
   (bs "radical", [8730]);
   (bs "reflexsubset", [8838]);
   (bs "reflexsuperset", [8839]);
   (bs "registered", [174]);
   (bs "rho", [961]);
   (bs "second", [8243]);
   (bs "section", [167]);
   (bs "sfthyphen", [173]);
   (bs "sigma", [963]);
   (bs "sigma1", [962]);
   (bs "sigmafinal", [962]);
   (bs "similar", [8764]);
   (bs "softhyphen", [173]);
   (bs "sterling", [163]);
   (bs "subset", [8834]);
   (bs "subsetorequal", [8838]);
   (bs "suchthat", [8715]);
   (bs "summation", [8721]);
   (bs "superset", [8835]);
   (bs "supersetorequal", [8839]);
   (bs "tau", [964]);
   (bs "thereexists", [8707]);
   (bs "therefore", [8756]);
   (bs "theta", [952]);
   (bs "theta1", [977]);
   (bs "thetasymbolgreek", [977]);
   (bs "thorn", [254]);
   (bs "threequarters", [190]);
   (bs "threesuperior", [179]);
   (bs "tildeoperator", [8764]);
   (bs "timescircle", [8855]);
   (bs "trademark", [8482]);
   (bs "twosuperior", [178]);
   (bs "uacute", [250]);
   (bs "ucircumflex", [251]);
   (bs "udieresis", [252]);
   (bs "ugrave", [249]);
   (bs "union", [8746]);
   (bs "universal", [8704]);
   (bs "upsilon", [965]);
   (bs "weierstrass", [8472]);
   (bs "xi", [958]);
   (bs "yacute", [253]);
   (bs "ydieresis", [255]);
   (bs "yen", [165]);
   (bs "zeta", [950])].

(** constants.py 60-128 predefined_cmap_names: names and resource files *)
Definition predefined_cmaps : list (list Z * list Z) :=
  [(bs "GB-EUK-H", bs "Adobe-GB1-0");
   (bs "GB-EUK-V", bs "Adobe-GB1-0");
   (bs "GBpc-EUK-H", bs "Adobe-GB1-0");
   (bs "GBpc-EUK-V", bs "Adobe-GB1-0");
   (bs "GBK-EUK-H", bs "Adobe-GB1-2");
   (bs "GBKp-EUK-V", bs "Adobe-GB1-2");
   (bs "GBK2K-EUK-H", bs "Adobe-GB1-4");
   (bs "GBK2K-EUK-V", bs "Adobe-GB1-4");
   (bs "UniGB-UCS2-H", bs "Adobe-GB1-4");
   (bs "UniGB-UCS2-V", bs "Adobe-GB1-4");
   (bs "UniGB-UTF16-H", bs "Adobe-GB1-4");
   (bs "UniGB-UTF16-V", bs "Adobe-GB1-4");
   (bs "B5pc-H", bs "Adobe-CNS1-0");
   (bs "B5pc-V", bs "Adobe-CNS1-0");
   (bs "HKscs-B5-H", bs "Adobe-CNS1-3");
   (bs "HKscs-B5-V", bs "Adobe-CNS1-3");
   (bs "ETen-B5-H", bs "Adobe-CNS1-0");
   (bs "ETen-B5-V", bs "Adobe-CNS1-0");
   (bs "ETenms-B5-H", bs "Adobe-CNS1-0");
   (bs "ETenms-B5-V", bs "Adobe-CNS1-0");
   (bs "CNS-EUC-H", bs "Adobe-CNS1-0");
   (bs "CNS-EUC-V", bs "Adobe-CNS1-0");
   (bs "UniCNS-UCS2-H", bs "Adobe-CNS1-3");
   (bs "UniCNS-UCS2-V", bs "Adobe-CNS1-3");
   (bs "UniCNS-UTF16-H", bs "Adobe-CNS1-4");
   (bs "UniCNS-UTF16-V", bs "Adobe-CNS1-4");
   (bs "83pv-RKSJ-H", bs "Adobe-Japan1-1");
   (bs "83pv-RKSJ-V", bs "Adobe-Japan1-1");
   (bs "90ms-RKSJ-H", bs "Adobe-Japan1-2");
   (bs "90ms-RKSJ-V", bs "Adobe-Japan1-2");
   (bs "90msp-RKSJ-H", bs "Adobe-Japan1-2");
   (bs "90msp-RKSJ-V", bs "Adobe-Japan1-2");
   (bs "90pv-RKSJ-H", bs "Adobe-Japan1-1");
   (bs "90pv-RKSJ-V", bs "Adobe-Japan1-1");
   (bs "Add-RKSJ-H", bs "Adobe-Japan1-1");
   (bs "Add-RKSJ-V", bs "Adobe-Japan1-1");
   (bs "EUC-H", bs "Adobe-Japan1-1");
   (bs "EUC-V", bs "Adobe-Japan1-1");
   (bs "Ext-RKSJ-H", bs "Adobe-Japan1-2");
   (bs "Ext-RKSJ-V", bs "Adobe-Japan1-2");
   (bs "H", bs "Adobe-Japan1-1");
   (bs "V", bs "Adobe-Japan1-1");
   (bs "UniJIS-UCS2-H", bs "Adobe-Japan1-4");
   (bs "UniJIS-UCS2-V", bs "Adobe-Japan1-4");
   (bs "UniJIS-UCS2-HW-H", bs "Adobe-Japan1-4");
   (bs "UniJIS-UCS2-HW-V", bs "Adobe-Japan1-4");
   (bs "UniJIS-UTF16-H", bs "Adobe-Japan1-5");
   (bs "UniJIS-UTF16-V", bs "Adobe-Japan1-5");
   (bs "KSC-EUC-H", bs "Adobe-Korea1-0");
   (bs "KSC-EUC-V", bs "Adobe-Korea1-0");
   (bs "KSCms-UHC-H", bs "Adobe-Korea1-1");
   (bs "KSCms-UHC-V", bs "Adobe-Korea1-1");
   (bs "KSCms-UHC-HW-H", bs "Adobe-Korea1-1");
   (bs "KSCms-UHC-HW-V", bs "Adobe-Korea1-1");
   (bs "KSCpc-EUC-H", bs "Adobe-Korea1-0");
   (bs "KSCpc-EUC-V", bs "Adobe-Korea1-0");
   (bs "UniKS-UCS2-H", bs "Adobe-Korea1-1");
   (bs "UniKS-UCS2-V", bs "Adobe-Korea1-1");
   (bs "UniKS-UTF16-H", bs "Adobe-Korea1-2");
   (bs "UniKS-UTF16-V", bs "Adobe-Korea1-2");
   (bs "Identity-H", bs "Identity-H");
   (bs "Identity-V", bs "Identity-H")].
