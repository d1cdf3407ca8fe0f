(** * Tables (generated by tools/gen_tables.py from the text of the source) *)
From Verif Require Import Base.
Local Open Scope N_scope.

(** entitytrans.py 13-2245: [_html5] *)
Definition html5_table : list (str * str) := Eval vm_compute in [
  (u "Aacute", [193]);
  (u "aacute", [225]);
  (u "Aacute;", [193]);
  (u "aacute;", [225]);
  (u "Abreve;", [258]);
  (u "abreve;", [259]);
  (u "ac;", [8766]);
  (u "acd;", [8767]);
  (u "acE;", [8766; 819]);
  (u "Acirc", [194]);
  (u "acirc", [226]);
  (u "Acirc;", [194]);
  (u "acirc;", [226]);
  (u "acute", [180]);
  (u "acute;", [180]);
  (u "Acy;", [1040]);
  (u "acy;", [1072]);
  (u "AElig", [198]);
  (u "aelig", [230]);
  (u "AElig;", [198]);
  (u "aelig;", [230]);
  (u "af;", [8289]);
  (u "Afr;", [120068]);
  (u "afr;", [120094]);
  (u "Agrave", [192]);
  (u "agrave", [224]);
  (u "Agrave;", [192]);
  (u "agrave;", [224]);
  (u "alefsym;", [8501]);
  (u "aleph;", [8501]);
  (u "Alpha;", [913]);
  (u "alpha;", [945]);
  (u "Amacr;", [256]);
  (u "amacr;", [257]);
  (u "amalg;", [10815]);
  (u "AMP", [38]);
  (u "amp", [38]);
  (u "AMP;", [38]);
  (u "amp;", [38]);
  (u "And;", [10835]);
  (u "and;", [8743]);
  (u "andand;", [10837]);
  (u "andd;", [10844]);
  (u "andslope;", [10840]);
  (u "andv;", [10842]);
  (u "ang;", [8736]);
  (u "ange;", [10660]);
  (u "angle;", [8736]);
  (u "angmsd;", [8737]);
  (u "angmsdaa;", [10664]);
  (u "angmsdab;", [10665]);
  (u "angmsdac;", [10666]);
  (u "angmsdad;", [10667]);
  (u "angmsdae;", [10668]);
  (u "angmsdaf;", [10669]);
  (u "angmsdag;", [10670]);
  (u "angmsdah;", [10671]);
  (u "angrt;", [8735]);
  (u "angrtvb;", [8894]);
  (u "angrtvbd;", [10653]);
  (u "angsph;", [8738]);
  (u "angst;", [197]);
  (u "angzarr;", [9084]);
  (u "Aogon;", [260]);
  (u "aogon;", [261]);
  (u "Aopf;", [120120]);
  (u "aopf;", [120146]);
  (u "ap;", [8776]);
  (u "apacir;", [10863]);
  (u "apE;", [10864]);
  (u "ape;", [8778]);
  (u "apid;", [8779]);
  (u "apos;", [39]);
  (u "ApplyFunction;", [8289]);
  (u "approx;", [8776]);
  (u "approxeq;", [8778]);
  (u "Aring", [197]);
  (u "aring", [229]);
  (u "Aring;", [197]);
  (u "aring;", [229]);
  (u "Ascr;", [119964]);
  (u "ascr;", [119990]);
  (u "Assign;", [8788]);
  (u "ast;", [42]);
  (u "asymp;", [8776]);
  (u "asympeq;", [8781]);
  (u "Atilde", [195]);
  (u "atilde", [227]);
  (u "Atilde;", [195]);
  (u "atilde;", [227]);
  (u "Auml", [196]);
  (u "auml", [228]);
  (u "Auml;", [196]);
  (u "auml;", [228]);
  (u "awconint;", [8755]);
  (u "awint;", [10769]);
  (u "backcong;", [8780]);
  (u "backepsilon;", [1014]);
  (u "backprime;", [8245]);
  (u "backsim;", [8765]);
  (u "backsimeq;", [8909]);
  (u "Backslash;", [8726]);
  (u "Barv;", [10983]);
  (u "barvee;", [8893]);
  (u "Barwed;", [8966]);
  (u "barwed;", [8965]);
  (u "barwedge;", [8965]);
  (u "bbrk;", [9141]);
  (u "bbrktbrk;", [9142]);
  (u "bcong;", [8780]);
  (u "Bcy;", [1041]);
  (u "bcy;", [1073]);
  (u "bdquo;", [8222]);
  (u "becaus;", [8757]);
  (u "Because;", [8757]);
  (u "because;", [8757]);
  (u "bemptyv;", [10672]);
  (u "bepsi;", [1014]);
  (u "bernou;", [8492]);
  (u "Bernoullis;", [8492]);
  (u "Beta;", [914]);
  (u "beta;", [946]);
  (u "beth;", [8502]);
  (u "between;", [8812]);
  (u "Bfr;", [120069]);
  (u "bfr;", [120095]);
  (u "bigcap;", [8898]);
  (u "bigcirc;", [9711]);
  (u "bigcup;", [8899]);
  (u "bigodot;", [10752]);
  (u "bigoplus;", [10753]);
  (u "bigotimes;", [10754]);
  (u "bigsqcup;", [10758]);
  (u "bigstar;", [9733]);
  (u "bigtriangledown;", [9661]);
  (u "bigtriangleup;", [9651]);
  (u "biguplus;", [10756]);
  (u "bigvee;", [8897]);
  (u "bigwedge;", [8896]);
  (u "bkarow;", [10509]);
  (u "blacklozenge;", [10731]);
  (u "blacksquare;", [9642]);
  (u "blacktriangle;", [9652]);
  (u "blacktriangledown;", [9662]);
  (u "blacktriangleleft;", [9666]);
  (u "blacktriangleright;", [9656]);
  (u "blank;", [9251]);
  (u "blk12;", [9618]);
  (u "blk14;", [9617]);
  (u "blk34;", [9619]);
  (u "block;", [9608]);
  (u "bne;", [61; 8421]);
  (u "bnequiv;", [8801; 8421]);
  (u "bNot;", [10989]);
  (u "bnot;", [8976]);
  (u "Bopf;", [120121]);
  (u "bopf;", [120147]);
  (u "bot;", [8869]);
  (u "bottom;", [8869]);
  (u "bowtie;", [8904]);
  (u "boxbox;", [10697]);
  (u "boxDL;", [9559]);
  (u "boxDl;", [9558]);
  (u "boxdL;", [9557]);
  (u "boxdl;", [9488]);
  (u "boxDR;", [9556]);
  (u "boxDr;", [9555]);
  (u "boxdR;", [9554]);
  (u "boxdr;", [9484]);
  (u "boxH;", [9552]);
  (u "boxh;", [9472]);
  (u "boxHD;", [9574]);
  (u "boxHd;", [9572]);
  (u "boxhD;", [9573]);
  (u "boxhd;", [9516]);
  (u "boxHU;", [9577]);
  (u "boxHu;", [9575]);
  (u "boxhU;", [9576]);
  (u "boxhu;", [9524]);
  (u "boxminus;", [8863]);
  (u "boxplus;", [8862]);
  (u "boxtimes;", [8864]);
  (u "boxUL;", [9565]);
  (u "boxUl;", [9564]);
  (u "boxuL;", [9563]);
  (u "boxul;", [9496]);
  (u "boxUR;", [9562]);
  (u "boxUr;", [9561]);
  (u "boxuR;", [9560]);
  (u "boxur;", [9492]);
  (u "boxV;", [9553]);
  (u "boxv;", [9474]);
  (u "boxVH;", [9580]);
  (u "boxVh;", [9579]);
  (u "boxvH;", [9578]);
  (u "boxvh;", [9532]);
  (u "boxVL;", [9571]);
  (u "boxVl;", [9570]);
  (u "boxvL;", [9569]);
  (u "boxvl;", [9508]);
  (u "boxVR;", [9568]);
  (u "boxVr;", [9567]);
  (u "boxvR;", [9566]);
  (u "boxvr;", [9500]);
  (u "bprime;", [8245]);
  (u "Breve;", [728]);
  (u "breve;", [728]);
  (u "brvbar", [166]);
  (u "brvbar;", [166]);
  (u "Bscr;", [8492]);
  (u "bscr;", [119991]);
  (u "bsemi;", [8271]);
  (u "bsim;", [8765]);
  (u "bsime;", [8909]);
  (u "bsol;", [92]);
  (u "bsolb;", [10693]);
  (u "bsolhsub;", [10184]);
  (u "bull;", [8226]);
  (u "bullet;", [8226]);
  (u "bump;", [8782]);
  (u "bumpE;", [10926]);
  (u "bumpe;", [8783]);
  (u "Bumpeq;", [8782]);
  (u "bumpeq;", [8783]);
  (u "Cacute;", [262]);
  (u "cacute;", [263]);
  (u "Cap;", [8914]);
  (u "cap;", [8745]);
  (u "capand;", [10820]);
  (u "capbrcup;", [10825]);
  (u "capcap;", [10827]);
  (u "capcup;", [10823]);
  (u "capdot;", [10816]);
  (u "CapitalDifferentialD;", [8517]);
  (u "caps;", [8745; 65024]);
  (u "caret;", [8257]);
  (u "caron;", [711]);
  (u "Cayleys;", [8493]);
  (u "ccaps;", [10829]);
  (u "Ccaron;", [268]);
  (u "ccaron;", [269]);
  (u "Ccedil", [199]);
  (u "ccedil", [231]);
  (u "Ccedil;", [199]);
  (u "ccedil;", [231]);
  (u "Ccirc;", [264]);
  (u "ccirc;", [265]);
  (u "Cconint;", [8752]);
  (u "ccups;", [10828]);
  (u "ccupssm;", [10832]);
  (u "Cdot;", [266]);
  (u "cdot;", [267]);
  (u "cedil", [184]);
  (u "cedil;", [184]);
  (u "Cedilla;", [184]);
  (u "cemptyv;", [10674]);
  (u "cent", [162]);
  (u "cent;", [162]);
  (u "CenterDot;", [183]);
  (u "centerdot;", [183]);
  (u "Cfr;", [8493]);
  (u "cfr;", [120096]);
  (u "CHcy;", [1063]);
  (u "chcy;", [1095]);
  (u "check;", [10003]);
  (u "checkmark;", [10003]);
  (u "Chi;", [935]);
  (u "chi;", [967]);
  (u "cir;", [9675]);
  (u "circ;", [710]);
  (u "circeq;", [8791]);
  (u "circlearrowleft;", [8634]);
  (u "circlearrowright;", [8635]);
  (u "circledast;", [8859]);
  (u "circledcirc;", [8858]);
  (u "circleddash;", [8861]);
  (u "CircleDot;", [8857]);
  (u "circledR;", [174]);
  (u "circledS;", [9416]);
  (u "CircleMinus;", [8854]);
  (u "CirclePlus;", [8853]);
  (u "CircleTimes;", [8855]);
  (u "cirE;", [10691]);
  (u "cire;", [8791]);
  (u "cirfnint;", [10768]);
  (u "cirmid;", [10991]);
  (u "cirscir;", [10690]);
  (u "ClockwiseContourIntegral;", [8754]);
  (u "CloseCurlyDoubleQuote;", [8221]);
  (u "CloseCurlyQuote;", [8217]);
  (u "clubs;", [9827]);
  (u "clubsuit;", [9827]);
  (u "Colon;", [8759]);
  (u "colon;", [58]);
  (u "Colone;", [10868]);
  (u "colone;", [8788]);
  (u "coloneq;", [8788]);
  (u "comma;", [44]);
  (u "commat;", [64]);
  (u "comp;", [8705]);
  (u "compfn;", [8728]);
  (u "complement;", [8705]);
  (u "complexes;", [8450]);
  (u "cong;", [8773]);
  (u "congdot;", [10861]);
  (u "Congruent;", [8801]);
  (u "Conint;", [8751]);
  (u "conint;", [8750]);
  (u "ContourIntegral;", [8750]);
  (u "Copf;", [8450]);
  (u "copf;", [120148]);
  (u "coprod;", [8720]);
  (u "Coproduct;", [8720]);
  (u "COPY", [169]);
  (u "copy", [169]);
  (u "COPY;", [169]);
  (u "copy;", [169]);
  (u "copysr;", [8471]);
  (u "CounterClockwiseContourIntegral;", [8755]);
  (u "crarr;", [8629]);
  (u "Cross;", [10799]);
  (u "cross;", [10007]);
  (u "Cscr;", [119966]);
  (u "cscr;", [119992]);
  (u "csub;", [10959]);
  (u "csube;", [10961]);
  (u "csup;", [10960]);
  (u "csupe;", [10962]);
  (u "ctdot;", [8943]);
  (u "cudarrl;", [10552]);
  (u "cudarrr;", [10549]);
  (u "cuepr;", [8926]);
  (u "cuesc;", [8927]);
  (u "cularr;", [8630]);
  (u "cularrp;", [10557]);
  (u "Cup;", [8915]);
  (u "cup;", [8746]);
  (u "cupbrcap;", [10824]);
  (u "CupCap;", [8781]);
  (u "cupcap;", [10822]);
  (u "cupcup;", [10826]);
  (u "cupdot;", [8845]);
  (u "cupor;", [10821]);
  (u "cups;", [8746; 65024]);
  (u "curarr;", [8631]);
  (u "curarrm;", [10556]);
  (u "curlyeqprec;", [8926]);
  (u "curlyeqsucc;", [8927]);
  (u "curlyvee;", [8910]);
  (u "curlywedge;", [8911]);
  (u "curren", [164]);
  (u "curren;", [164]);
  (u "curvearrowleft;", [8630]);
  (u "curvearrowright;", [8631]);
  (u "cuvee;", [8910]);
  (u "cuwed;", [8911]);
  (u "cwconint;", [8754]);
  (u "cwint;", [8753]);
  (u "cylcty;", [9005]);
  (u "Dagger;", [8225]);
  (u "dagger;", [8224]);
  (u "daleth;", [8504]);
  (u "Darr;", [8609]);
  (u "dArr;", [8659]);
  (u "darr;", [8595]);
  (u "dash;", [8208]);
  (u "Dashv;", [10980]);
  (u "dashv;", [8867]);
  (u "dbkarow;", [10511]);
  (u "dblac;", [733]);
  (u "Dcaron;", [270]);
  (u "dcaron;", [271]);
  (u "Dcy;", [1044]);
  (u "dcy;", [1076]);
  (u "DD;", [8517]);
  (u "dd;", [8518]);
  (u "ddagger;", [8225]);
  (u "ddarr;", [8650]);
  (u "DDotrahd;", [10513]);
  (u "ddotseq;", [10871]);
  (u "deg", [176]);
  (u "deg;", [176]);
  (u "Del;", [8711]);
  (u "Delta;", [916]);
  (u "delta;", [948]);
  (u "demptyv;", [10673]);
  (u "dfisht;", [10623]);
  (u "Dfr;", [120071]);
  (u "dfr;", [120097]);
  (u "dHar;", [10597]);
  (u "dharl;", [8643]);
  (u "dharr;", [8642]);
  (u "DiacriticalAcute;", [180]);
  (u "DiacriticalDot;", [729]);
  (u "DiacriticalDoubleAcute;", [733]);
  (u "DiacriticalGrave;", [96]);
  (u "DiacriticalTilde;", [732]);
  (u "diam;", [8900]);
  (u "Diamond;", [8900]);
  (u "diamond;", [8900]);
  (u "diamondsuit;", [9830]);
  (u "diams;", [9830]);
  (u "die;", [168]);
  (u "DifferentialD;", [8518]);
  (u "digamma;", [989]);
  (u "disin;", [8946]);
  (u "div;", [247]);
  (u "divide", [247]);
  (u "divide;", [247]);
  (u "divideontimes;", [8903]);
  (u "divonx;", [8903]);
  (u "DJcy;", [1026]);
  (u "djcy;", [1106]);
  (u "dlcorn;", [8990]);
  (u "dlcrop;", [8973]);
  (u "dollar;", [36]);
  (u "Dopf;", [120123]);
  (u "dopf;", [120149]);
  (u "Dot;", [168]);
  (u "dot;", [729]);
  (u "DotDot;", [8412]);
  (u "doteq;", [8784]);
  (u "doteqdot;", [8785]);
  (u "DotEqual;", [8784]);
  (u "dotminus;", [8760]);
  (u "dotplus;", [8724]);
  (u "dotsquare;", [8865]);
  (u "doublebarwedge;", [8966]);
  (u "DoubleContourIntegral;", [8751]);
  (u "DoubleDot;", [168]);
  (u "DoubleDownArrow;", [8659]);
  (u "DoubleLeftArrow;", [8656]);
  (u "DoubleLeftRightArrow;", [8660]);
  (u "DoubleLeftTee;", [10980]);
  (u "DoubleLongLeftArrow;", [10232]);
  (u "DoubleLongLeftRightArrow;", [10234]);
  (u "DoubleLongRightArrow;", [10233]);
  (u "DoubleRightArrow;", [8658]);
  (u "DoubleRightTee;", [8872]);
  (u "DoubleUpArrow;", [8657]);
  (u "DoubleUpDownArrow;", [8661]);
  (u "DoubleVerticalBar;", [8741]);
  (u "DownArrow;", [8595]);
  (u "Downarrow;", [8659]);
  (u "downarrow;", [8595]);
  (u "DownArrowBar;", [10515]);
  (u "DownArrowUpArrow;", [8693]);
  (u "DownBreve;", [785]);
  (u "downdownarrows;", [8650]);
  (u "downharpoonleft;", [8643]);
  (u "downharpoonright;", [8642]);
  (u "DownLeftRightVector;", [10576]);
  (u "DownLeftTeeVector;", [10590]);
  (u "DownLeftVector;", [8637]);
  (u "DownLeftVectorBar;", [10582]);
  (u "DownRightTeeVector;", [10591]);
  (u "DownRightVector;", [8641]);
  (u "DownRightVectorBar;", [10583]);
  (u "DownTee;", [8868]);
  (u "DownTeeArrow;", [8615]);
  (u "drbkarow;", [10512]);
  (u "drcorn;", [8991]);
  (u "drcrop;", [8972]);
  (u "Dscr;", [119967]);
  (u "dscr;", [119993]);
  (u "DScy;", [1029]);
  (u "dscy;", [1109]);
  (u "dsol;", [10742]);
  (u "Dstrok;", [272]);
  (u "dstrok;", [273]);
  (u "dtdot;", [8945]);
  (u "dtri;", [9663]);
  (u "dtrif;", [9662]);
  (u "duarr;", [8693]);
  (u "duhar;", [10607]);
  (u "dwangle;", [10662]);
  (u "DZcy;", [1039]);
  (u "dzcy;", [1119]);
  (u "dzigrarr;", [10239]);
  (u "Eacute", [201]);
  (u "eacute", [233]);
  (u "Eacute;", [201]);
  (u "eacute;", [233]);
  (u "easter;", [10862]);
  (u "Ecaron;", [282]);
  (u "ecaron;", [283]);
  (u "ecir;", [8790]);
  (u "Ecirc", [202]);
  (u "ecirc", [234]);
  (u "Ecirc;", [202]);
  (u "ecirc;", [234]);
  (u "ecolon;", [8789]);
  (u "Ecy;", [1069]);
  (u "ecy;", [1101]);
  (u "eDDot;", [10871]);
  (u "Edot;", [278]);
  (u "eDot;", [8785]);
  (u "edot;", [279]);
  (u "ee;", [8519]);
  (u "efDot;", [8786]);
  (u "Efr;", [120072]);
  (u "efr;", [120098]);
  (u "eg;", [10906]);
  (u "Egrave", [200]);
  (u "egrave", [232]);
  (u "Egrave;", [200]);
  (u "egrave;", [232]);
  (u "egs;", [10902]);
  (u "egsdot;", [10904]);
  (u "el;", [10905]);
  (u "Element;", [8712]);
  (u "elinters;", [9191]);
  (u "ell;", [8467]);
  (u "els;", [10901]);
  (u "elsdot;", [10903]);
  (u "Emacr;", [274]);
  (u "emacr;", [275]);
  (u "empty;", [8709]);
  (u "emptyset;", [8709]);
  (u "EmptySmallSquare;", [9723]);
  (u "emptyv;", [8709]);
  (u "EmptyVerySmallSquare;", [9643]);
  (u "emsp13;", [8196]);
  (u "emsp14;", [8197]);
  (u "emsp;", [8195]);
  (u "ENG;", [330]);
  (u "eng;", [331]);
  (u "ensp;", [8194]);
  (u "Eogon;", [280]);
  (u "eogon;", [281]);
  (u "Eopf;", [120124]);
  (u "eopf;", [120150]);
  (u "epar;", [8917]);
  (u "eparsl;", [10723]);
  (u "eplus;", [10865]);
  (u "epsi;", [949]);
  (u "Epsilon;", [917]);
  (u "epsilon;", [949]);
  (u "epsiv;", [1013]);
  (u "eqcirc;", [8790]);
  (u "eqcolon;", [8789]);
  (u "eqsim;", [8770]);
  (u "eqslantgtr;", [10902]);
  (u "eqslantless;", [10901]);
  (u "Equal;", [10869]);
  (u "equals;", [61]);
  (u "EqualTilde;", [8770]);
  (u "equest;", [8799]);
  (u "Equilibrium;", [8652]);
  (u "equiv;", [8801]);
  (u "equivDD;", [10872]);
  (u "eqvparsl;", [10725]);
  (u "erarr;", [10609]);
  (u "erDot;", [8787]);
  (u "Escr;", [8496]);
  (u "escr;", [8495]);
  (u "esdot;", [8784]);
  (u "Esim;", [10867]);
  (u "esim;", [8770]);
  (u "Eta;", [919]);
  (u "eta;", [951]);
  (u "ETH", [208]);
  (u "eth", [240]);
  (u "ETH;", [208]);
  (u "eth;", [240]);
  (u "Euml", [203]);
  (u "euml", [235]);
  (u "Euml;", [203]);
  (u "euml;", [235]);
  (u "euro;", [8364]);
  (u "excl;", [33]);
  (u "exist;", [8707]);
  (u "Exists;", [8707]);
  (u "expectation;", [8496]);
  (u "ExponentialE;", [8519]);
  (u "exponentiale;", [8519]);
  (u "fallingdotseq;", [8786]);
  (u "Fcy;", [1060]);
  (u "fcy;", [1092]);
  (u "female;", [9792]);
  (u "ffilig;", [64259]);
  (u "fflig;", [64256]);
  (u "ffllig;", [64260]);
  (u "Ffr;", [120073]);
  (u "ffr;", [120099]);
  (u "filig;", [64257]);
  (u "FilledSmallSquare;", [9724]);
  (u "FilledVerySmallSquare;", [9642]);
  (u "fjlig;", [102; 106]);
  (u "flat;", [9837]);
  (u "fllig;", [64258]);
  (u "fltns;", [9649]);
  (u "fnof;", [402]);
  (u "Fopf;", [120125]);
  (u "fopf;", [120151]);
  (u "ForAll;", [8704]);
  (u "forall;", [8704]);
  (u "fork;", [8916]);
  (u "forkv;", [10969]);
  (u "Fouriertrf;", [8497]);
  (u "fpartint;", [10765]);
  (u "frac12", [189]);
  (u "frac12;", [189]);
  (u "frac13;", [8531]);
  (u "frac14", [188]);
  (u "frac14;", [188]);
  (u "frac15;", [8533]);
  (u "frac16;", [8537]);
  (u "frac18;", [8539]);
  (u "frac23;", [8532]);
  (u "frac25;", [8534]);
  (u "frac34", [190]);
  (u "frac34;", [190]);
  (u "frac35;", [8535]);
  (u "frac38;", [8540]);
  (u "frac45;", [8536]);
  (u "frac56;", [8538]);
  (u "frac58;", [8541]);
  (u "frac78;", [8542]);
  (u "frasl;", [8260]);
  (u "frown;", [8994]);
  (u "Fscr;", [8497]);
  (u "fscr;", [119995]);
  (u "gacute;", [501]);
  (u "Gamma;", [915]);
  (u "gamma;", [947]);
  (u "Gammad;", [988]);
  (u "gammad;", [989]);
  (u "gap;", [10886]);
  (u "Gbreve;", [286]);
  (u "gbreve;", [287]);
  (u "Gcedil;", [290]);
  (u "Gcirc;", [284]);
  (u "gcirc;", [285]);
  (u "Gcy;", [1043]);
  (u "gcy;", [1075]);
  (u "Gdot;", [288]);
  (u "gdot;", [289]);
  (u "gE;", [8807]);
  (u "ge;", [8805]);
  (u "gEl;", [10892]);
  (u "gel;", [8923]);
  (u "geq;", [8805]);
  (u "geqq;", [8807]);
  (u "geqslant;", [10878]);
  (u "ges;", [10878]);
  (u "gescc;", [10921]);
  (u "gesdot;", [10880]);
  (u "gesdoto;", [10882]);
  (u "gesdotol;", [10884]);
  (u "gesl;", [8923; 65024]);
  (u "gesles;", [10900]);
  (u "Gfr;", [120074]);
  (u "gfr;", [120100]);
  (u "Gg;", [8921]);
  (u "gg;", [8811]);
  (u "ggg;", [8921]);
  (u "gimel;", [8503]);
  (u "GJcy;", [1027]);
  (u "gjcy;", [1107]);
  (u "gl;", [8823]);
  (u "gla;", [10917]);
  (u "glE;", [10898]);
  (u "glj;", [10916]);
  (u "gnap;", [10890]);
  (u "gnapprox;", [10890]);
  (u "gnE;", [8809]);
  (u "gne;", [10888]);
  (u "gneq;", [10888]);
  (u "gneqq;", [8809]);
  (u "gnsim;", [8935]);
  (u "Gopf;", [120126]);
  (u "gopf;", [120152]);
  (u "grave;", [96]);
  (u "GreaterEqual;", [8805]);
  (u "GreaterEqualLess;", [8923]);
  (u "GreaterFullEqual;", [8807]);
  (u "GreaterGreater;", [10914]);
  (u "GreaterLess;", [8823]);
  (u "GreaterSlantEqual;", [10878]);
  (u "GreaterTilde;", [8819]);
  (u "Gscr;", [119970]);
  (u "gscr;", [8458]);
  (u "gsim;", [8819]);
  (u "gsime;", [10894]);
  (u "gsiml;", [10896]);
  (u "GT", [62]);
  (u "gt", [62]);
  (u "GT;", [62]);
  (u "Gt;", [8811]);
  (u "gt;", [62]);
  (u "gtcc;", [10919]);
  (u "gtcir;", [10874]);
  (u "gtdot;", [8919]);
  (u "gtlPar;", [10645]);
  (u "gtquest;", [10876]);
  (u "gtrapprox;", [10886]);
  (u "gtrarr;", [10616]);
  (u "gtrdot;", [8919]);
  (u "gtreqless;", [8923]);
  (u "gtreqqless;", [10892]);
  (u "gtrless;", [8823]);
  (u "gtrsim;", [8819]);
  (u "gvertneqq;", [8809; 65024]);
  (u "gvnE;", [8809; 65024]);
  (u "Hacek;", [711]);
  (u "hairsp;", [8202]);
  (u "half;", [189]);
  (u "hamilt;", [8459]);
  (u "HARDcy;", [1066]);
  (u "hardcy;", [1098]);
  (u "hArr;", [8660]);
  (u "harr;", [8596]);
  (u "harrcir;", [10568]);
  (u "harrw;", [8621]);
  (u "Hat;", [94]);
  (u "hbar;", [8463]);
  (u "Hcirc;", [292]);
  (u "hcirc;", [293]);
  (u "hearts;", [9829]);
  (u "heartsuit;", [9829]);
  (u "hellip;", [8230]);
  (u "hercon;", [8889]);
  (u "Hfr;", [8460]);
  (u "hfr;", [120101]);
  (u "HilbertSpace;", [8459]);
  (u "hksearow;", [10533]);
  (u "hkswarow;", [10534]);
  (u "hoarr;", [8703]);
  (u "homtht;", [8763]);
  (u "hookleftarrow;", [8617]);
  (u "hookrightarrow;", [8618]);
  (u "Hopf;", [8461]);
  (u "hopf;", [120153]);
  (u "horbar;", [8213]);
  (u "HorizontalLine;", [9472]);
  (u "Hscr;", [8459]);
  (u "hscr;", [119997]);
  (u "hslash;", [8463]);
  (u "Hstrok;", [294]);
  (u "hstrok;", [295]);
  (u "HumpDownHump;", [8782]);
  (u "HumpEqual;", [8783]);
  (u "hybull;", [8259]);
  (u "hyphen;", [8208]);
  (u "Iacute", [205]);
  (u "iacute", [237]);
  (u "Iacute;", [205]);
  (u "iacute;", [237]);
  (u "ic;", [8291]);
  (u "Icirc", [206]);
  (u "icirc", [238]);
  (u "Icirc;", [206]);
  (u "icirc;", [238]);
  (u "Icy;", [1048]);
  (u "icy;", [1080]);
  (u "Idot;", [304]);
  (u "IEcy;", [1045]);
  (u "iecy;", [1077]);
  (u "iexcl", [161]);
  (u "iexcl;", [161]);
  (u "iff;", [8660]);
  (u "Ifr;", [8465]);
  (u "ifr;", [120102]);
  (u "Igrave", [204]);
  (u "igrave", [236]);
  (u "Igrave;", [204]);
  (u "igrave;", [236]);
  (u "ii;", [8520]);
  (u "iiiint;", [10764]);
  (u "iiint;", [8749]);
  (u "iinfin;", [10716]);
  (u "iiota;", [8489]);
  (u "IJlig;", [306]);
  (u "ijlig;", [307]);
  (u "Im;", [8465]);
  (u "Imacr;", [298]);
  (u "imacr;", [299]);
  (u "image;", [8465]);
  (u "ImaginaryI;", [8520]);
  (u "imagline;", [8464]);
  (u "imagpart;", [8465]);
  (u "imath;", [305]);
  (u "imof;", [8887]);
  (u "imped;", [437]);
  (u "Implies;", [8658]);
  (u "in;", [8712]);
  (u "incare;", [8453]);
  (u "infin;", [8734]);
  (u "infintie;", [10717]);
  (u "inodot;", [305]);
  (u "Int;", [8748]);
  (u "int;", [8747]);
  (u "intcal;", [8890]);
  (u "integers;", [8484]);
  (u "Integral;", [8747]);
  (u "intercal;", [8890]);
  (u "Intersection;", [8898]);
  (u "intlarhk;", [10775]);
  (u "intprod;", [10812]);
  (u "InvisibleComma;", [8291]);
  (u "InvisibleTimes;", [8290]);
  (u "IOcy;", [1025]);
  (u "iocy;", [1105]);
  (u "Iogon;", [302]);
  (u "iogon;", [303]);
  (u "Iopf;", [120128]);
  (u "iopf;", [120154]);
  (u "Iota;", [921]);
  (u "iota;", [953]);
  (u "iprod;", [10812]);
  (u "iquest", [191]);
  (u "iquest;", [191]);
  (u "Iscr;", [8464]);
  (u "iscr;", [119998]);
  (u "isin;", [8712]);
  (u "isindot;", [8949]);
  (u "isinE;", [8953]);
  (u "isins;", [8948]);
  (u "isinsv;", [8947]);
  (u "isinv;", [8712]);
  (u "it;", [8290]);
  (u "Itilde;", [296]);
  (u "itilde;", [297]);
  (u "Iukcy;", [1030]);
  (u "iukcy;", [1110]);
  (u "Iuml", [207]);
  (u "iuml", [239]);
  (u "Iuml;", [207]);
  (u "iuml;", [239]);
  (u "Jcirc;", [308]);
  (u "jcirc;", [309]);
  (u "Jcy;", [1049]);
  (u "jcy;", [1081]);
  (u "Jfr;", [120077]);
  (u "jfr;", [120103]);
  (u "jmath;", [567]);
  (u "Jopf;", [120129]);
  (u "jopf;", [120155]);
  (u "Jscr;", [119973]);
  (u "jscr;", [119999]);
  (u "Jsercy;", [1032]);
  (u "jsercy;", [1112]);
  (u "Jukcy;", [1028]);
  (u "jukcy;", [1108]);
  (u "Kappa;", [922]);
  (u "kappa;", [954]);
  (u "kappav;", [1008]);
  (u "Kcedil;", [310]);
  (u "kcedil;", [311]);
  (u "Kcy;", [1050]);
  (u "kcy;", [1082]);
  (u "Kfr;", [120078]);
  (u "kfr;", [120104]);
  (u "kgreen;", [312]);
  (u "KHcy;", [1061]);
  (u "khcy;", [1093]);
  (u "KJcy;", [1036]);
  (u "kjcy;", [1116]);
  (u "Kopf;", [120130]);
  (u "kopf;", [120156]);
  (u "Kscr;", [119974]);
  (u "kscr;", [120000]);
  (u "lAarr;", [8666]);
  (u "Lacute;", [313]);
  (u "lacute;", [314]);
  (u "laemptyv;", [10676]);
  (u "lagran;", [8466]);
  (u "Lambda;", [923]);
  (u "lambda;", [955]);
  (u "Lang;", [10218]);
  (u "lang;", [10216]);
  (u "langd;", [10641]);
  (u "langle;", [10216]);
  (u "lap;", [10885]);
  (u "Laplacetrf;", [8466]);
  (u "laquo", [171]);
  (u "laquo;", [171]);
  (u "Larr;", [8606]);
  (u "lArr;", [8656]);
  (u "larr;", [8592]);
  (u "larrb;", [8676]);
  (u "larrbfs;", [10527]);
  (u "larrfs;", [10525]);
  (u "larrhk;", [8617]);
  (u "larrlp;", [8619]);
  (u "larrpl;", [10553]);
  (u "larrsim;", [10611]);
  (u "larrtl;", [8610]);
  (u "lat;", [10923]);
  (u "lAtail;", [10523]);
  (u "latail;", [10521]);
  (u "late;", [10925]);
  (u "lates;", [10925; 65024]);
  (u "lBarr;", [10510]);
  (u "lbarr;", [10508]);
  (u "lbbrk;", [10098]);
  (u "lbrace;", [123]);
  (u "lbrack;", [91]);
  (u "lbrke;", [10635]);
  (u "lbrksld;", [10639]);
  (u "lbrkslu;", [10637]);
  (u "Lcaron;", [317]);
  (u "lcaron;", [318]);
  (u "Lcedil;", [315]);
  (u "lcedil;", [316]);
  (u "lceil;", [8968]);
  (u "lcub;", [123]);
  (u "Lcy;", [1051]);
  (u "lcy;", [1083]);
  (u "ldca;", [10550]);
  (u "ldquo;", [8220]);
  (u "ldquor;", [8222]);
  (u "ldrdhar;", [10599]);
  (u "ldrushar;", [10571]);
  (u "ldsh;", [8626]);
  (u "lE;", [8806]);
  (u "le;", [8804]);
  (u "LeftAngleBracket;", [10216]);
  (u "LeftArrow;", [8592]);
  (u "Leftarrow;", [8656]);
  (u "leftarrow;", [8592]);
  (u "LeftArrowBar;", [8676]);
  (u "LeftArrowRightArrow;", [8646]);
  (u "leftarrowtail;", [8610]);
  (u "LeftCeiling;", [8968]);
  (u "LeftDoubleBracket;", [10214]);
  (u "LeftDownTeeVector;", [10593]);
  (u "LeftDownVector;", [8643]);
  (u "LeftDownVectorBar;", [10585]);
  (u "LeftFloor;", [8970]);
  (u "leftharpoondown;", [8637]);
  (u "leftharpoonup;", [8636]);
  (u "leftleftarrows;", [8647]);
  (u "LeftRightArrow;", [8596]);
  (u "Leftrightarrow;", [8660]);
  (u "leftrightarrow;", [8596]);
  (u "leftrightarrows;", [8646]);
  (u "leftrightharpoons;", [8651]);
  (u "leftrightsquigarrow;", [8621]);
  (u "LeftRightVector;", [10574]);
  (u "LeftTee;", [8867]);
  (u "LeftTeeArrow;", [8612]);
  (u "LeftTeeVector;", [10586]);
  (u "leftthreetimes;", [8907]);
  (u "LeftTriangle;", [8882]);
  (u "LeftTriangleBar;", [10703]);
  (u "LeftTriangleEqual;", [8884]);
  (u "LeftUpDownVector;", [10577]);
  (u "LeftUpTeeVector;", [10592]);
  (u "LeftUpVector;", [8639]);
  (u "LeftUpVectorBar;", [10584]);
  (u "LeftVector;", [8636]);
  (u "LeftVectorBar;", [10578]);
  (u "lEg;", [10891]);
  (u "leg;", [8922]);
  (u "leq;", [8804]);
  (u "leqq;", [8806]);
  (u "leqslant;", [10877]);
  (u "les;", [10877]);
  (u "lescc;", [10920]);
  (u "lesdot;", [10879]);
  (u "lesdoto;", [10881]);
  (u "lesdotor;", [10883]);
  (u "lesg;", [8922; 65024]);
  (u "lesges;", [10899]);
  (u "lessapprox;", [10885]);
  (u "lessdot;", [8918]);
  (u "lesseqgtr;", [8922]);
  (u "lesseqqgtr;", [10891]);
  (u "LessEqualGreater;", [8922]);
  (u "LessFullEqual;", [8806]);
  (u "LessGreater;", [8822]);
  (u "lessgtr;", [8822]);
  (u "LessLess;", [10913]);
  (u "lesssim;", [8818]);
  (u "LessSlantEqual;", [10877]);
  (u "LessTilde;", [8818]);
  (u "lfisht;", [10620]);
  (u "lfloor;", [8970]);
  (u "Lfr;", [120079]);
  (u "lfr;", [120105]);
  (u "lg;", [8822]);
  (u "lgE;", [10897]);
  (u "lHar;", [10594]);
  (u "lhard;", [8637]);
  (u "lharu;", [8636]);
  (u "lharul;", [10602]);
  (u "lhblk;", [9604]);
  (u "LJcy;", [1033]);
  (u "ljcy;", [1113]);
  (u "Ll;", [8920]);
  (u "ll;", [8810]);
  (u "llarr;", [8647]);
  (u "llcorner;", [8990]);
  (u "Lleftarrow;", [8666]);
  (u "llhard;", [10603]);
  (u "lltri;", [9722]);
  (u "Lmidot;", [319]);
  (u "lmidot;", [320]);
  (u "lmoust;", [9136]);
  (u "lmoustache;", [9136]);
  (u "lnap;", [10889]);
  (u "lnapprox;", [10889]);
  (u "lnE;", [8808]);
  (u "lne;", [10887]);
  (u "lneq;", [10887]);
  (u "lneqq;", [8808]);
  (u "lnsim;", [8934]);
  (u "loang;", [10220]);
  (u "loarr;", [8701]);
  (u "lobrk;", [10214]);
  (u "LongLeftArrow;", [10229]);
  (u "Longleftarrow;", [10232]);
  (u "longleftarrow;", [10229]);
  (u "LongLeftRightArrow;", [10231]);
  (u "Longleftrightarrow;", [10234]);
  (u "longleftrightarrow;", [10231]);
  (u "longmapsto;", [10236]);
  (u "LongRightArrow;", [10230]);
  (u "Longrightarrow;", [10233]);
  (u "longrightarrow;", [10230]);
  (u "looparrowleft;", [8619]);
  (u "looparrowright;", [8620]);
  (u "lopar;", [10629]);
  (u "Lopf;", [120131]);
  (u "lopf;", [120157]);
  (u "loplus;", [10797]);
  (u "lotimes;", [10804]);
  (u "lowast;", [8727]);
  (u "lowbar;", [95]);
  (u "LowerLeftArrow;", [8601]);
  (u "LowerRightArrow;", [8600]);
  (u "loz;", [9674]);
  (u "lozenge;", [9674]);
  (u "lozf;", [10731]);
  (u "lpar;", [40]);
  (u "lparlt;", [10643]);
  (u "lrarr;", [8646]);
  (u "lrcorner;", [8991]);
  (u "lrhar;", [8651]);
  (u "lrhard;", [10605]);
  (u "lrm;", [8206]);
  (u "lrtri;", [8895]);
  (u "lsaquo;", [8249]);
  (u "Lscr;", [8466]);
  (u "lscr;", [120001]);
  (u "Lsh;", [8624]);
  (u "lsh;", [8624]);
  (u "lsim;", [8818]);
  (u "lsime;", [10893]);
  (u "lsimg;", [10895]);
  (u "lsqb;", [91]);
  (u "lsquo;", [8216]);
  (u "lsquor;", [8218]);
  (u "Lstrok;", [321]);
  (u "lstrok;", [322]);
  (u "LT", [60]);
  (u "lt", [60]);
  (u "LT;", [60]);
  (u "Lt;", [8810]);
  (u "lt;", [60]);
  (u "ltcc;", [10918]);
  (u "ltcir;", [10873]);
  (u "ltdot;", [8918]);
  (u "lthree;", [8907]);
  (u "ltimes;", [8905]);
  (u "ltlarr;", [10614]);
  (u "ltquest;", [10875]);
  (u "ltri;", [9667]);
  (u "ltrie;", [8884]);
  (u "ltrif;", [9666]);
  (u "ltrPar;", [10646]);
  (u "lurdshar;", [10570]);
  (u "luruhar;", [10598]);
  (u "lvertneqq;", [8808; 65024]);
  (u "lvnE;", [8808; 65024]);
  (u "macr", [175]);
  (u "macr;", [175]);
  (u "male;", [9794]);
  (u "malt;", [10016]);
  (u "maltese;", [10016]);
  (u "Map;", [10501]);
  (u "map;", [8614]);
  (u "mapsto;", [8614]);
  (u "mapstodown;", [8615]);
  (u "mapstoleft;", [8612]);
  (u "mapstoup;", [8613]);
  (u "marker;", [9646]);
  (u "mcomma;", [10793]);
  (u "Mcy;", [1052]);
  (u "mcy;", [1084]);
  (u "mdash;", [8212]);
  (u "mDDot;", [8762]);
  (u "measuredangle;", [8737]);
  (u "MediumSpace;", [8287]);
  (u "Mellintrf;", [8499]);
  (u "Mfr;", [120080]);
  (u "mfr;", [120106]);
  (u "mho;", [8487]);
  (u "micro", [181]);
  (u "micro;", [181]);
  (u "mid;", [8739]);
  (u "midast;", [42]);
  (u "midcir;", [10992]);
  (u "middot", [183]);
  (u "middot;", [183]);
  (u "minus;", [8722]);
  (u "minusb;", [8863]);
  (u "minusd;", [8760]);
  (u "minusdu;", [10794]);
  (u "MinusPlus;", [8723]);
  (u "mlcp;", [10971]);
  (u "mldr;", [8230]);
  (u "mnplus;", [8723]);
  (u "models;", [8871]);
  (u "Mopf;", [120132]);
  (u "mopf;", [120158]);
  (u "mp;", [8723]);
  (u "Mscr;", [8499]);
  (u "mscr;", [120002]);
  (u "mstpos;", [8766]);
  (u "Mu;", [924]);
  (u "mu;", [956]);
  (u "multimap;", [8888]);
  (u "mumap;", [8888]);
  (u "nabla;", [8711]);
  (u "Nacute;", [323]);
  (u "nacute;", [324]);
  (u "nang;", [8736; 8402]);
  (u "nap;", [8777]);
  (u "napE;", [10864; 824]);
  (u "napid;", [8779; 824]);
  (u "napos;", [329]);
  (u "napprox;", [8777]);
  (u "natur;", [9838]);
  (u "natural;", [9838]);
  (u "naturals;", [8469]);
  (u "nbsp;", [160]);
  (u "nbump;", [8782; 824]);
  (u "nbumpe;", [8783; 824]);
  (u "ncap;", [10819]);
  (u "Ncaron;", [327]);
  (u "ncaron;", [328]);
  (u "Ncedil;", [325]);
  (u "ncedil;", [326]);
  (u "ncong;", [8775]);
  (u "ncongdot;", [10861; 824]);
  (u "ncup;", [10818]);
  (u "Ncy;", [1053]);
  (u "ncy;", [1085]);
  (u "ndash;", [8211]);
  (u "ne;", [8800]);
  (u "nearhk;", [10532]);
  (u "neArr;", [8663]);
  (u "nearr;", [8599]);
  (u "nearrow;", [8599]);
  (u "nedot;", [8784; 824]);
  (u "NegativeMediumSpace;", [8203]);
  (u "NegativeThickSpace;", [8203]);
  (u "NegativeThinSpace;", [8203]);
  (u "NegativeVeryThinSpace;", [8203]);
  (u "nequiv;", [8802]);
  (u "nesear;", [10536]);
  (u "nesim;", [8770; 824]);
  (u "NestedGreaterGreater;", [8811]);
  (u "NestedLessLess;", [8810]);
  (u "NewLine;", [10]);
  (u "nexist;", [8708]);
  (u "nexists;", [8708]);
  (u "Nfr;", [120081]);
  (u "nfr;", [120107]);
  (u "ngE;", [8807; 824]);
  (u "nge;", [8817]);
  (u "ngeq;", [8817]);
  (u "ngeqq;", [8807; 824]);
  (u "ngeqslant;", [10878; 824]);
  (u "nges;", [10878; 824]);
  (u "nGg;", [8921; 824]);
  (u "ngsim;", [8821]);
  (u "nGt;", [8811; 8402]);
  (u "ngt;", [8815]);
  (u "ngtr;", [8815]);
  (u "nGtv;", [8811; 824]);
  (u "nhArr;", [8654]);
  (u "nharr;", [8622]);
  (u "nhpar;", [10994]);
  (u "ni;", [8715]);
  (u "nis;", [8956]);
  (u "nisd;", [8954]);
  (u "niv;", [8715]);
  (u "NJcy;", [1034]);
  (u "njcy;", [1114]);
  (u "nlArr;", [8653]);
  (u "nlarr;", [8602]);
  (u "nldr;", [8229]);
  (u "nlE;", [8806; 824]);
  (u "nle;", [8816]);
  (u "nLeftarrow;", [8653]);
  (u "nleftarrow;", [8602]);
  (u "nLeftrightarrow;", [8654]);
  (u "nleftrightarrow;", [8622]);
  (u "nleq;", [8816]);
  (u "nleqq;", [8806; 824]);
  (u "nleqslant;", [10877; 824]);
  (u "nles;", [10877; 824]);
  (u "nless;", [8814]);
  (u "nLl;", [8920; 824]);
  (u "nlsim;", [8820]);
  (u "nLt;", [8810; 8402]);
  (u "nlt;", [8814]);
  (u "nltri;", [8938]);
  (u "nltrie;", [8940]);
  (u "nLtv;", [8810; 824]);
  (u "nmid;", [8740]);
  (u "NoBreak;", [8288]);
  (u "NonBreakingSpace;", [160]);
  (u "Nopf;", [8469]);
  (u "nopf;", [120159]);
  (u "not", [172]);
  (u "Not;", [10988]);
  (u "not;", [172]);
  (u "NotCongruent;", [8802]);
  (u "NotCupCap;", [8813]);
  (u "NotDoubleVerticalBar;", [8742]);
  (u "NotElement;", [8713]);
  (u "NotEqual;", [8800]);
  (u "NotEqualTilde;", [8770; 824]);
  (u "NotExists;", [8708]);
  (u "NotGreater;", [8815]);
  (u "NotGreaterEqual;", [8817]);
  (u "NotGreaterFullEqual;", [8807; 824]);
  (u "NotGreaterGreater;", [8811; 824]);
  (u "NotGreaterLess;", [8825]);
  (u "NotGreaterSlantEqual;", [10878; 824]);
  (u "NotGreaterTilde;", [8821]);
  (u "NotHumpDownHump;", [8782; 824]);
  (u "NotHumpEqual;", [8783; 824]);
  (u "notin;", [8713]);
  (u "notindot;", [8949; 824]);
  (u "notinE;", [8953; 824]);
  (u "notinva;", [8713]);
  (u "notinvb;", [8951]);
  (u "notinvc;", [8950]);
  (u "NotLeftTriangle;", [8938]);
  (u "NotLeftTriangleBar;", [10703; 824]);
  (u "NotLeftTriangleEqual;", [8940]);
  (u "NotLess;", [8814]);
  (u "NotLessEqual;", [8816]);
  (u "NotLessGreater;", [8824]);
  (u "NotLessLess;", [8810; 824]);
  (u "NotLessSlantEqual;", [10877; 824]);
  (u "NotLessTilde;", [8820]);
  (u "NotNestedGreaterGreater;", [10914; 824]);
  (u "NotNestedLessLess;", [10913; 824]);
  (u "notni;", [8716]);
  (u "notniva;", [8716]);
  (u "notnivb;", [8958]);
  (u "notnivc;", [8957]);
  (u "NotPrecedes;", [8832]);
  (u "NotPrecedesEqual;", [10927; 824]);
  (u "NotPrecedesSlantEqual;", [8928]);
  (u "NotReverseElement;", [8716]);
  (u "NotRightTriangle;", [8939]);
  (u "NotRightTriangleBar;", [10704; 824]);
  (u "NotRightTriangleEqual;", [8941]);
  (u "NotSquareSubset;", [8847; 824]);
  (u "NotSquareSubsetEqual;", [8930]);
  (u "NotSquareSuperset;", [8848; 824]);
  (u "NotSquareSupersetEqual;", [8931]);
  (u "NotSubset;", [8834; 8402]);
  (u "NotSubsetEqual;", [8840]);
  (u "NotSucceeds;", [8833]);
  (u "NotSucceedsEqual;", [10928; 824]);
  (u "NotSucceedsSlantEqual;", [8929]);
  (u "NotSucceedsTilde;", [8831; 824]);
  (u "NotSuperset;", [8835; 8402]);
  (u "NotSupersetEqual;", [8841]);
  (u "NotTilde;", [8769]);
  (u "NotTildeEqual;", [8772]);
  (u "NotTildeFullEqual;", [8775]);
  (u "NotTildeTilde;", [8777]);
  (u "NotVerticalBar;", [8740]);
  (u "npar;", [8742]);
  (u "nparallel;", [8742]);
  (u "nparsl;", [11005; 8421]);
  (u "npart;", [8706; 824]);
  (u "npolint;", [10772]);
  (u "npr;", [8832]);
  (u "nprcue;", [8928]);
  (u "npre;", [10927; 824]);
  (u "nprec;", [8832]);
  (u "npreceq;", [10927; 824]);
  (u "nrArr;", [8655]);
  (u "nrarr;", [8603]);
  (u "nrarrc;", [10547; 824]);
  (u "nrarrw;", [8605; 824]);
  (u "nRightarrow;", [8655]);
  (u "nrightarrow;", [8603]);
  (u "nrtri;", [8939]);
  (u "nrtrie;", [8941]);
  (u "nsc;", [8833]);
  (u "nsccue;", [8929]);
  (u "nsce;", [10928; 824]);
  (u "Nscr;", [119977]);
  (u "nscr;", [120003]);
  (u "nshortmid;", [8740]);
  (u "nshortparallel;", [8742]);
  (u "nsim;", [8769]);
  (u "nsime;", [8772]);
  (u "nsimeq;", [8772]);
  (u "nsmid;", [8740]);
  (u "nspar;", [8742]);
  (u "nsqsube;", [8930]);
  (u "nsqsupe;", [8931]);
  (u "nsub;", [8836]);
  (u "nsubE;", [10949; 824]);
  (u "nsube;", [8840]);
  (u "nsubset;", [8834; 8402]);
  (u "nsubseteq;", [8840]);
  (u "nsubseteqq;", [10949; 824]);
  (u "nsucc;", [8833]);
  (u "nsucceq;", [10928; 824]);
  (u "nsup;", [8837]);
  (u "nsupE;", [10950; 824]);
  (u "nsupe;", [8841]);
  (u "nsupset;", [8835; 8402]);
  (u "nsupseteq;", [8841]);
  (u "nsupseteqq;", [10950; 824]);
  (u "ntgl;", [8825]);
  (u "Ntilde", [209]);
  (u "ntilde", [241]);
  (u "Ntilde;", [209]);
  (u "ntilde;", [241]);
  (u "ntlg;", [8824]);
  (u "ntriangleleft;", [8938]);
  (u "ntrianglelefteq;", [8940]);
  (u "ntriangleright;", [8939]);
  (u "ntrianglerighteq;", [8941]);
  (u "Nu;", [925]);
  (u "nu;", [957]);
  (u "num;", [35]);
  (u "numero;", [8470]);
  (u "numsp;", [8199]);
  (u "nvap;", [8781; 8402]);
  (u "nVDash;", [8879]);
  (u "nVdash;", [8878]);
  (u "nvDash;", [8877]);
  (u "nvdash;", [8876]);
  (u "nvge;", [8805; 8402]);
  (u "nvgt;", [62; 8402]);
  (u "nvHarr;", [10500]);
  (u "nvinfin;", [10718]);
  (u "nvlArr;", [10498]);
  (u "nvle;", [8804; 8402]);
  (u "nvlt;", [60; 8402]);
  (u "nvltrie;", [8884; 8402]);
  (u "nvrArr;", [10499]);
  (u "nvrtrie;", [8885; 8402]);
  (u "nvsim;", [8764; 8402]);
  (u "nwarhk;", [10531]);
  (u "nwArr;", [8662]);
  (u "nwarr;", [8598]);
  (u "nwarrow;", [8598]);
  (u "nwnear;", [10535]);
  (u "Oacute", [211]);
  (u "oacute", [243]);
  (u "Oacute;", [211]);
  (u "oacute;", [243]);
  (u "oast;", [8859]);
  (u "ocir;", [8858]);
  (u "Ocirc", [212]);
  (u "ocirc", [244]);
  (u "Ocirc;", [212]);
  (u "ocirc;", [244]);
  (u "Ocy;", [1054]);
  (u "ocy;", [1086]);
  (u "odash;", [8861]);
  (u "Odblac;", [336]);
  (u "odblac;", [337]);
  (u "odiv;", [10808]);
  (u "odot;", [8857]);
  (u "odsold;", [10684]);
  (u "OElig;", [338]);
  (u "oelig;", [339]);
  (u "ofcir;", [10687]);
  (u "Ofr;", [120082]);
  (u "ofr;", [120108]);
  (u "ogon;", [731]);
  (u "Ograve", [210]);
  (u "ograve", [242]);
  (u "Ograve;", [210]);
  (u "ograve;", [242]);
  (u "ogt;", [10689]);
  (u "ohbar;", [10677]);
  (u "ohm;", [937]);
  (u "oint;", [8750]);
  (u "olarr;", [8634]);
  (u "olcir;", [10686]);
  (u "olcross;", [10683]);
  (u "oline;", [8254]);
  (u "olt;", [10688]);
  (u "Omacr;", [332]);
  (u "omacr;", [333]);
  (u "Omega;", [937]);
  (u "omega;", [969]);
  (u "Omicron;", [927]);
  (u "omicron;", [959]);
  (u "omid;", [10678]);
  (u "ominus;", [8854]);
  (u "Oopf;", [120134]);
  (u "oopf;", [120160]);
  (u "opar;", [10679]);
  (u "OpenCurlyDoubleQuote;", [8220]);
  (u "OpenCurlyQuote;", [8216]);
  (u "operp;", [10681]);
  (u "oplus;", [8853]);
  (u "Or;", [10836]);
  (u "or;", [8744]);
  (u "orarr;", [8635]);
  (u "ord;", [10845]);
  (u "order;", [8500]);
  (u "orderof;", [8500]);
  (u "ordf", [170]);
  (u "ordf;", [170]);
  (u "ordm", [186]);
  (u "ordm;", [186]);
  (u "origof;", [8886]);
  (u "oror;", [10838]);
  (u "orslope;", [10839]);
  (u "orv;", [10843]);
  (u "oS;", [9416]);
  (u "Oscr;", [119978]);
  (u "oscr;", [8500]);
  (u "Oslash", [216]);
  (u "oslash", [248]);
  (u "Oslash;", [216]);
  (u "oslash;", [248]);
  (u "osol;", [8856]);
  (u "Otilde", [213]);
  (u "otilde", [245]);
  (u "Otilde;", [213]);
  (u "otilde;", [245]);
  (u "Otimes;", [10807]);
  (u "otimes;", [8855]);
  (u "otimesas;", [10806]);
  (u "Ouml", [214]);
  (u "ouml", [246]);
  (u "Ouml;", [214]);
  (u "ouml;", [246]);
  (u "ovbar;", [9021]);
  (u "OverBar;", [8254]);
  (u "OverBrace;", [9182]);
  (u "OverBracket;", [9140]);
  (u "OverParenthesis;", [9180]);
  (u "par;", [8741]);
  (u "para", [182]);
  (u "para;", [182]);
  (u "parallel;", [8741]);
  (u "parsim;", [10995]);
  (u "parsl;", [11005]);
  (u "part;", [8706]);
  (u "PartialD;", [8706]);
  (u "Pcy;", [1055]);
  (u "pcy;", [1087]);
  (u "percnt;", [37]);
  (u "period;", [46]);
  (u "permil;", [8240]);
  (u "perp;", [8869]);
  (u "pertenk;", [8241]);
  (u "Pfr;", [120083]);
  (u "pfr;", [120109]);
  (u "Phi;", [934]);
  (u "phi;", [966]);
  (u "phiv;", [981]);
  (u "phmmat;", [8499]);
  (u "phone;", [9742]);
  (u "Pi;", [928]);
  (u "pi;", [960]);
  (u "pitchfork;", [8916]);
  (u "piv;", [982]);
  (u "planck;", [8463]);
  (u "planckh;", [8462]);
  (u "plankv;", [8463]);
  (u "plus;", [43]);
  (u "plusacir;", [10787]);
  (u "plusb;", [8862]);
  (u "pluscir;", [10786]);
  (u "plusdo;", [8724]);
  (u "plusdu;", [10789]);
  (u "pluse;", [10866]);
  (u "PlusMinus;", [177]);
  (u "plusmn", [177]);
  (u "plusmn;", [177]);
  (u "plussim;", [10790]);
  (u "plustwo;", [10791]);
  (u "pm;", [177]);
  (u "Poincareplane;", [8460]);
  (u "pointint;", [10773]);
  (u "Popf;", [8473]);
  (u "popf;", [120161]);
  (u "pound", [163]);
  (u "pound;", [163]);
  (u "Pr;", [10939]);
  (u "pr;", [8826]);
  (u "prap;", [10935]);
  (u "prcue;", [8828]);
  (u "prE;", [10931]);
  (u "pre;", [10927]);
  (u "prec;", [8826]);
  (u "precapprox;", [10935]);
  (u "preccurlyeq;", [8828]);
  (u "Precedes;", [8826]);
  (u "PrecedesEqual;", [10927]);
  (u "PrecedesSlantEqual;", [8828]);
  (u "PrecedesTilde;", [8830]);
  (u "preceq;", [10927]);
  (u "precnapprox;", [10937]);
  (u "precneqq;", [10933]);
  (u "precnsim;", [8936]);
  (u "precsim;", [8830]);
  (u "Prime;", [8243]);
  (u "prime;", [8242]);
  (u "primes;", [8473]);
  (u "prnap;", [10937]);
  (u "prnE;", [10933]);
  (u "prnsim;", [8936]);
  (u "prod;", [8719]);
  (u "Product;", [8719]);
  (u "profalar;", [9006]);
  (u "profline;", [8978]);
  (u "profsurf;", [8979]);
  (u "prop;", [8733]);
  (u "Proportion;", [8759]);
  (u "Proportional;", [8733]);
  (u "propto;", [8733]);
  (u "prsim;", [8830]);
  (u "prurel;", [8880]);
  (u "Pscr;", [119979]);
  (u "pscr;", [120005]);
  (u "Psi;", [936]);
  (u "psi;", [968]);
  (u "puncsp;", [8200]);
  (u "Qfr;", [120084]);
  (u "qfr;", [120110]);
  (u "qint;", [10764]);
  (u "Qopf;", [8474]);
  (u "qopf;", [120162]);
  (u "qprime;", [8279]);
  (u "Qscr;", [119980]);
  (u "qscr;", [120006]);
  (u "quaternions;", [8461]);
  (u "quatint;", [10774]);
  (u "quest;", [63]);
  (u "questeq;", [8799]);
  (u "QUOT", [34]);
  (u "quot", [34]);
  (u "QUOT;", [34]);
  (u "quot;", [34]);
  (u "rAarr;", [8667]);
  (u "race;", [8765; 817]);
  (u "Racute;", [340]);
  (u "racute;", [341]);
  (u "radic;", [8730]);
  (u "raemptyv;", [10675]);
  (u "Rang;", [10219]);
  (u "rang;", [10217]);
  (u "rangd;", [10642]);
  (u "range;", [10661]);
  (u "rangle;", [10217]);
  (u "raquo", [187]);
  (u "raquo;", [187]);
  (u "Rarr;", [8608]);
  (u "rArr;", [8658]);
  (u "rarr;", [8594]);
  (u "rarrap;", [10613]);
  (u "rarrb;", [8677]);
  (u "rarrbfs;", [10528]);
  (u "rarrc;", [10547]);
  (u "rarrfs;", [10526]);
  (u "rarrhk;", [8618]);
  (u "rarrlp;", [8620]);
  (u "rarrpl;", [10565]);
  (u "rarrsim;", [10612]);
  (u "Rarrtl;", [10518]);
  (u "rarrtl;", [8611]);
  (u "rarrw;", [8605]);
  (u "rAtail;", [10524]);
  (u "ratail;", [10522]);
  (u "ratio;", [8758]);
  (u "rationals;", [8474]);
  (u "RBarr;", [10512]);
  (u "rBarr;", [10511]);
  (u "rbarr;", [10509]);
  (u "rbbrk;", [10099]);
  (u "rbrace;", [125]);
  (u "rbrack;", [93]);
  (u "rbrke;", [10636]);
  (u "rbrksld;", [10638]);
  (u "rbrkslu;", [10640]);
  (u "Rcaron;", [344]);
  (u "rcaron;", [345]);
  (u "Rcedil;", [342]);
  (u "rcedil;", [343]);
  (u "rceil;", [8969]);
  (u "rcub;", [125]);
  (u "Rcy;", [1056]);
  (u "rcy;", [1088]);
  (u "rdca;", [10551]);
  (u "rdldhar;", [10601]);
  (u "rdquo;", [8221]);
  (u "rdquor;", [8221]);
  (u "rdsh;", [8627]);
  (u "Re;", [8476]);
  (u "real;", [8476]);
  (u "realine;", [8475]);
  (u "realpart;", [8476]);
  (u "reals;", [8477]);
  (u "rect;", [9645]);
  (u "REG", [174]);
  (u "reg", [174]);
  (u "REG;", [174]);
  (u "reg;", [174]);
  (u "ReverseElement;", [8715]);
  (u "ReverseEquilibrium;", [8651]);
  (u "ReverseUpEquilibrium;", [10607]);
  (u "rfisht;", [10621]);
  (u "rfloor;", [8971]);
  (u "Rfr;", [8476]);
  (u "rfr;", [120111]);
  (u "rHar;", [10596]);
  (u "rhard;", [8641]);
  (u "rharu;", [8640]);
  (u "rharul;", [10604]);
  (u "Rho;", [929]);
  (u "rho;", [961]);
  (u "rhov;", [1009]);
  (u "RightAngleBracket;", [10217]);
  (u "RightArrow;", [8594]);
  (u "Rightarrow;", [8658]);
  (u "rightarrow;", [8594]);
  (u "RightArrowBar;", [8677]);
  (u "RightArrowLeftArrow;", [8644]);
  (u "rightarrowtail;", [8611]);
  (u "RightCeiling;", [8969]);
  (u "RightDoubleBracket;", [10215]);
  (u "RightDownTeeVector;", [10589]);
  (u "RightDownVector;", [8642]);
  (u "RightDownVectorBar;", [10581]);
  (u "RightFloor;", [8971]);
  (u "rightharpoondown;", [8641]);
  (u "rightharpoonup;", [8640]);
  (u "rightleftarrows;", [8644]);
  (u "rightleftharpoons;", [8652]);
  (u "rightrightarrows;", [8649]);
  (u "rightsquigarrow;", [8605]);
  (u "RightTee;", [8866]);
  (u "RightTeeArrow;", [8614]);
  (u "RightTeeVector;", [10587]);
  (u "rightthreetimes;", [8908]);
  (u "RightTriangle;", [8883]);
  (u "RightTriangleBar;", [10704]);
  (u "RightTriangleEqual;", [8885]);
  (u "RightUpDownVector;", [10575]);
  (u "RightUpTeeVector;", [10588]);
  (u "RightUpVector;", [8638]);
  (u "RightUpVectorBar;", [10580]);
  (u "RightVector;", [8640]);
  (u "RightVectorBar;", [10579]);
  (u "ring;", [730]);
  (u "risingdotseq;", [8787]);
  (u "rlarr;", [8644]);
  (u "rlhar;", [8652]);
  (u "rlm;", [8207]);
  (u "rmoust;", [9137]);
  (u "rmoustache;", [9137]);
  (u "rnmid;", [10990]);
  (u "roang;", [10221]);
  (u "roarr;", [8702]);
  (u "robrk;", [10215]);
  (u "ropar;", [10630]);
  (u "Ropf;", [8477]);
  (u "ropf;", [120163]);
  (u "roplus;", [10798]);
  (u "rotimes;", [10805]);
  (u "RoundImplies;", [10608]);
  (u "rpar;", [41]);
  (u "rpargt;", [10644]);
  (u "rppolint;", [10770]);
  (u "rrarr;", [8649]);
  (u "Rrightarrow;", [8667]);
  (u "rsaquo;", [8250]);
  (u "Rscr;", [8475]);
  (u "rscr;", [120007]);
  (u "Rsh;", [8625]);
  (u "rsh;", [8625]);
  (u "rsqb;", [93]);
  (u "rsquo;", [8217]);
  (u "rsquor;", [8217]);
  (u "rthree;", [8908]);
  (u "rtimes;", [8906]);
  (u "rtri;", [9657]);
  (u "rtrie;", [8885]);
  (u "rtrif;", [9656]);
  (u "rtriltri;", [10702]);
  (u "RuleDelayed;", [10740]);
  (u "ruluhar;", [10600]);
  (u "rx;", [8478]);
  (u "Sacute;", [346]);
  (u "sacute;", [347]);
  (u "sbquo;", [8218]);
  (u "Sc;", [10940]);
  (u "sc;", [8827]);
  (u "scap;", [10936]);
  (u "Scaron;", [352]);
  (u "scaron;", [353]);
  (u "sccue;", [8829]);
  (u "scE;", [10932]);
  (u "sce;", [10928]);
  (u "Scedil;", [350]);
  (u "scedil;", [351]);
  (u "Scirc;", [348]);
  (u "scirc;", [349]);
  (u "scnap;", [10938]);
  (u "scnE;", [10934]);
  (u "scnsim;", [8937]);
  (u "scpolint;", [10771]);
  (u "scsim;", [8831]);
  (u "Scy;", [1057]);
  (u "scy;", [1089]);
  (u "sdot;", [8901]);
  (u "sdotb;", [8865]);
  (u "sdote;", [10854]);
  (u "searhk;", [10533]);
  (u "seArr;", [8664]);
  (u "searr;", [8600]);
  (u "searrow;", [8600]);
  (u "sect", [167]);
  (u "sect;", [167]);
  (u "semi;", [59]);
  (u "seswar;", [10537]);
  (u "setminus;", [8726]);
  (u "setmn;", [8726]);
  (u "sext;", [10038]);
  (u "Sfr;", [120086]);
  (u "sfr;", [120112]);
  (u "sfrown;", [8994]);
  (u "sharp;", [9839]);
  (u "SHCHcy;", [1065]);
  (u "shchcy;", [1097]);
  (u "SHcy;", [1064]);
  (u "shcy;", [1096]);
  (u "ShortDownArrow;", [8595]);
  (u "ShortLeftArrow;", [8592]);
  (u "shortmid;", [8739]);
  (u "shortparallel;", [8741]);
  (u "ShortRightArrow;", [8594]);
  (u "ShortUpArrow;", [8593]);
  (u "shy", [173]);
  (u "shy;", [173]);
  (u "Sigma;", [931]);
  (u "sigma;", [963]);
  (u "sigmaf;", [962]);
  (u "sigmav;", [962]);
  (u "sim;", [8764]);
  (u "simdot;", [10858]);
  (u "sime;", [8771]);
  (u "simeq;", [8771]);
  (u "simg;", [10910]);
  (u "simgE;", [10912]);
  (u "siml;", [10909]);
  (u "simlE;", [10911]);
  (u "simne;", [8774]);
  (u "simplus;", [10788]);
  (u "simrarr;", [10610]);
  (u "slarr;", [8592]);
  (u "SmallCircle;", [8728]);
  (u "smallsetminus;", [8726]);
  (u "smashp;", [10803]);
  (u "smeparsl;", [10724]);
  (u "smid;", [8739]);
  (u "smile;", [8995]);
  (u "smt;", [10922]);
  (u "smte;", [10924]);
  (u "smtes;", [10924; 65024]);
  (u "SOFTcy;", [1068]);
  (u "softcy;", [1100]);
  (u "sol;", [47]);
  (u "solb;", [10692]);
  (u "solbar;", [9023]);
  (u "Sopf;", [120138]);
  (u "sopf;", [120164]);
  (u "spades;", [9824]);
  (u "spadesuit;", [9824]);
  (u "spar;", [8741]);
  (u "sqcap;", [8851]);
  (u "sqcaps;", [8851; 65024]);
  (u "sqcup;", [8852]);
  (u "sqcups;", [8852; 65024]);
  (u "Sqrt;", [8730]);
  (u "sqsub;", [8847]);
  (u "sqsube;", [8849]);
  (u "sqsubset;", [8847]);
  (u "sqsubseteq;", [8849]);
  (u "sqsup;", [8848]);
  (u "sqsupe;", [8850]);
  (u "sqsupset;", [8848]);
  (u "sqsupseteq;", [8850]);
  (u "squ;", [9633]);
  (u "Square;", [9633]);
  (u "square;", [9633]);
  (u "SquareIntersection;", [8851]);
  (u "SquareSubset;", [8847]);
  (u "SquareSubsetEqual;", [8849]);
  (u "SquareSuperset;", [8848]);
  (u "SquareSupersetEqual;", [8850]);
  (u "SquareUnion;", [8852]);
  (u "squarf;", [9642]);
  (u "squf;", [9642]);
  (u "srarr;", [8594]);
  (u "Sscr;", [119982]);
  (u "sscr;", [120008]);
  (u "ssetmn;", [8726]);
  (u "ssmile;", [8995]);
  (u "sstarf;", [8902]);
  (u "Star;", [8902]);
  (u "star;", [9734]);
  (u "starf;", [9733]);
  (u "straightepsilon;", [1013]);
  (u "straightphi;", [981]);
  (u "strns;", [175]);
  (u "Sub;", [8912]);
  (u "sub;", [8834]);
  (u "subdot;", [10941]);
  (u "subE;", [10949]);
  (u "sube;", [8838]);
  (u "subedot;", [10947]);
  (u "submult;", [10945]);
  (u "subnE;", [10955]);
  (u "subne;", [8842]);
  (u "subplus;", [10943]);
  (u "subrarr;", [10617]);
  (u "Subset;", [8912]);
  (u "subset;", [8834]);
  (u "subseteq;", [8838]);
  (u "subseteqq;", [10949]);
  (u "SubsetEqual;", [8838]);
  (u "subsetneq;", [8842]);
  (u "subsetneqq;", [10955]);
  (u "subsim;", [10951]);
  (u "subsub;", [10965]);
  (u "subsup;", [10963]);
  (u "succ;", [8827]);
  (u "succapprox;", [10936]);
  (u "succcurlyeq;", [8829]);
  (u "Succeeds;", [8827]);
  (u "SucceedsEqual;", [10928]);
  (u "SucceedsSlantEqual;", [8829]);
  (u "SucceedsTilde;", [8831]);
  (u "succeq;", [10928]);
  (u "succnapprox;", [10938]);
  (u "succneqq;", [10934]);
  (u "succnsim;", [8937]);
  (u "succsim;", [8831]);
  (u "SuchThat;", [8715]);
  (u "Sum;", [8721]);
  (u "sum;", [8721]);
  (u "sung;", [9834]);
  (u "sup1", [185]);
  (u "sup1;", [185]);
  (u "sup2", [178]);
  (u "sup2;", [178]);
  (u "sup3", [179]);
  (u "sup3;", [179]);
  (u "Sup;", [8913]);
  (u "sup;", [8835]);
  (u "supdot;", [10942]);
  (u "supdsub;", [10968]);
  (u "supE;", [10950]);
  (u "supe;", [8839]);
  (u "supedot;", [10948]);
  (u "Superset;", [8835]);
  (u "SupersetEqual;", [8839]);
  (u "suphsol;", [10185]);
  (u "suphsub;", [10967]);
  (u "suplarr;", [10619]);
  (u "supmult;", [10946]);
  (u "supnE;", [10956]);
  (u "supne;", [8843]);
  (u "supplus;", [10944]);
  (u "Supset;", [8913]);
  (u "supset;", [8835]);
  (u "supseteq;", [8839]);
  (u "supseteqq;", [10950]);
  (u "supsetneq;", [8843]);
  (u "supsetneqq;", [10956]);
  (u "supsim;", [10952]);
  (u "supsub;", [10964]);
  (u "supsup;", [10966]);
  (u "swarhk;", [10534]);
  (u "swArr;", [8665]);
  (u "swarr;", [8601]);
  (u "swarrow;", [8601]);
  (u "swnwar;", [10538]);
  (u "szlig", [223]);
  (u "szlig;", [223]);
  (u "Tab;", [9]);
  (u "target;", [8982]);
  (u "Tau;", [932]);
  (u "tau;", [964]);
  (u "tbrk;", [9140]);
  (u "Tcaron;", [356]);
  (u "tcaron;", [357]);
  (u "Tcedil;", [354]);
  (u "tcedil;", [355]);
  (u "Tcy;", [1058]);
  (u "tcy;", [1090]);
  (u "tdot;", [8411]);
  (u "telrec;", [8981]);
  (u "Tfr;", [120087]);
  (u "tfr;", [120113]);
  (u "there4;", [8756]);
  (u "Therefore;", [8756]);
  (u "therefore;", [8756]);
  (u "Theta;", [920]);
  (u "theta;", [952]);
  (u "thetasym;", [977]);
  (u "thetav;", [977]);
  (u "thickapprox;", [8776]);
  (u "thicksim;", [8764]);
  (u "ThickSpace;", [8287; 8202]);
  (u "thinsp;", [8201]);
  (u "ThinSpace;", [8201]);
  (u "thkap;", [8776]);
  (u "thksim;", [8764]);
  (u "THORN", [222]);
  (u "thorn", [254]);
  (u "THORN;", [222]);
  (u "thorn;", [254]);
  (u "Tilde;", [8764]);
  (u "tilde;", [732]);
  (u "TildeEqual;", [8771]);
  (u "TildeFullEqual;", [8773]);
  (u "TildeTilde;", [8776]);
  (u "times", [215]);
  (u "times;", [215]);
  (u "timesb;", [8864]);
  (u "timesbar;", [10801]);
  (u "timesd;", [10800]);
  (u "tint;", [8749]);
  (u "toea;", [10536]);
  (u "top;", [8868]);
  (u "topbot;", [9014]);
  (u "topcir;", [10993]);
  (u "Topf;", [120139]);
  (u "topf;", [120165]);
  (u "topfork;", [10970]);
  (u "tosa;", [10537]);
  (u "tprime;", [8244]);
  (u "TRADE;", [8482]);
  (u "trade;", [8482]);
  (u "triangle;", [9653]);
  (u "triangledown;", [9663]);
  (u "triangleleft;", [9667]);
  (u "trianglelefteq;", [8884]);
  (u "triangleq;", [8796]);
  (u "triangleright;", [9657]);
  (u "trianglerighteq;", [8885]);
  (u "tridot;", [9708]);
  (u "trie;", [8796]);
  (u "triminus;", [10810]);
  (u "TripleDot;", [8411]);
  (u "triplus;", [10809]);
  (u "trisb;", [10701]);
  (u "tritime;", [10811]);
  (u "trpezium;", [9186]);
  (u "Tscr;", [119983]);
  (u "tscr;", [120009]);
  (u "TScy;", [1062]);
  (u "tscy;", [1094]);
  (u "TSHcy;", [1035]);
  (u "tshcy;", [1115]);
  (u "Tstrok;", [358]);
  (u "tstrok;", [359]);
  (u "twixt;", [8812]);
  (u "twoheadleftarrow;", [8606]);
  (u "twoheadrightarrow;", [8608]);
  (u "Uacute", [218]);
  (u "uacute", [250]);
  (u "Uacute;", [218]);
  (u "uacute;", [250]);
  (u "Uarr;", [8607]);
  (u "uArr;", [8657]);
  (u "uarr;", [8593]);
  (u "Uarrocir;", [10569]);
  (u "Ubrcy;", [1038]);
  (u "ubrcy;", [1118]);
  (u "Ubreve;", [364]);
  (u "ubreve;", [365]);
  (u "Ucirc", [219]);
  (u "ucirc", [251]);
  (u "Ucirc;", [219]);
  (u "ucirc;", [251]);
  (u "Ucy;", [1059]);
  (u "ucy;", [1091]);
  (u "udarr;", [8645]);
  (u "Udblac;", [368]);
  (u "udblac;", [369]);
  (u "udhar;", [10606]);
  (u "ufisht;", [10622]);
  (u "Ufr;", [120088]);
  (u "ufr;", [120114]);
  (u "Ugrave", [217]);
  (u "ugrave", [249]);
  (u "Ugrave;", [217]);
  (u "ugrave;", [249]);
  (u "uHar;", [10595]);
  (u "uharl;", [8639]);
  (u "uharr;", [8638]);
  (u "uhblk;", [9600]);
  (u "ulcorn;", [8988]);
  (u "ulcorner;", [8988]);
  (u "ulcrop;", [8975]);
  (u "ultri;", [9720]);
  (u "Umacr;", [362]);
  (u "umacr;", [363]);
  (u "uml", [168]);
  (u "uml;", [168]);
  (u "UnderBar;", [95]);
  (u "UnderBrace;", [9183]);
  (u "UnderBracket;", [9141]);
  (u "UnderParenthesis;", [9181]);
  (u "Union;", [8899]);
  (u "UnionPlus;", [8846]);
  (u "Uogon;", [370]);
  (u "uogon;", [371]);
  (u "Uopf;", [120140]);
  (u "uopf;", [120166]);
  (u "UpArrow;", [8593]);
  (u "Uparrow;", [8657]);
  (u "uparrow;", [8593]);
  (u "UpArrowBar;", [10514]);
  (u "UpArrowDownArrow;", [8645]);
  (u "UpDownArrow;", [8597]);
  (u "Updownarrow;", [8661]);
  (u "updownarrow;", [8597]);
  (u "UpEquilibrium;", [10606]);
  (u "upharpoonleft;", [8639]);
  (u "upharpoonright;", [8638]);
  (u "uplus;", [8846]);
  (u "UpperLeftArrow;", [8598]);
  (u "UpperRightArrow;", [8599]);
  (u "Upsi;", [978]);
  (u "upsi;", [965]);
  (u "upsih;", [978]);
  (u "Upsilon;", [933]);
  (u "upsilon;", [965]);
  (u "UpTee;", [8869]);
  (u "UpTeeArrow;", [8613]);
  (u "upuparrows;", [8648]);
  (u "urcorn;", [8989]);
  (u "urcorner;", [8989]);
  (u "urcrop;", [8974]);
  (u "Uring;", [366]);
  (u "uring;", [367]);
  (u "urtri;", [9721]);
  (u "Uscr;", [119984]);
  (u "uscr;", [120010]);
  (u "utdot;", [8944]);
  (u "Utilde;", [360]);
  (u "utilde;", [361]);
  (u "utri;", [9653]);
  (u "utrif;", [9652]);
  (u "uuarr;", [8648]);
  (u "Uuml", [220]);
  (u "uuml", [252]);
  (u "Uuml;", [220]);
  (u "uuml;", [252]);
  (u "uwangle;", [10663]);
  (u "vangrt;", [10652]);
  (u "varepsilon;", [1013]);
  (u "varkappa;", [1008]);
  (u "varnothing;", [8709]);
  (u "varphi;", [981]);
  (u "varpi;", [982]);
  (u "varpropto;", [8733]);
  (u "vArr;", [8661]);
  (u "varr;", [8597]);
  (u "varrho;", [1009]);
  (u "varsigma;", [962]);
  (u "varsubsetneq;", [8842; 65024]);
  (u "varsubsetneqq;", [10955; 65024]);
  (u "varsupsetneq;", [8843; 65024]);
  (u "varsupsetneqq;", [10956; 65024]);
  (u "vartheta;", [977]);
  (u "vartriangleleft;", [8882]);
  (u "vartriangleright;", [8883]);
  (u "Vbar;", [10987]);
  (u "vBar;", [10984]);
  (u "vBarv;", [10985]);
  (u "Vcy;", [1042]);
  (u "vcy;", [1074]);
  (u "VDash;", [8875]);
  (u "Vdash;", [8873]);
  (u "vDash;", [8872]);
  (u "vdash;", [8866]);
  (u "Vdashl;", [10982]);
  (u "Vee;", [8897]);
  (u "vee;", [8744]);
  (u "veebar;", [8891]);
  (u "veeeq;", [8794]);
  (u "vellip;", [8942]);
  (u "Verbar;", [8214]);
  (u "verbar;", [124]);
  (u "Vert;", [8214]);
  (u "vert;", [124]);
  (u "VerticalBar;", [8739]);
  (u "VerticalLine;", [124]);
  (u "VerticalSeparator;", [10072]);
  (u "VerticalTilde;", [8768]);
  (u "VeryThinSpace;", [8202]);
  (u "Vfr;", [120089]);
  (u "vfr;", [120115]);
  (u "vltri;", [8882]);
  (u "vnsub;", [8834; 8402]);
  (u "vnsup;", [8835; 8402]);
  (u "Vopf;", [120141]);
  (u "vopf;", [120167]);
  (u "vprop;", [8733]);
  (u "vrtri;", [8883]);
  (u "Vscr;", [119985]);
  (u "vscr;", [120011]);
  (u "vsubnE;", [10955; 65024]);
  (u "vsubne;", [8842; 65024]);
  (u "vsupnE;", [10956; 65024]);
  (u "vsupne;", [8843; 65024]);
  (u "Vvdash;", [8874]);
  (u "vzigzag;", [10650]);
  (u "Wcirc;", [372]);
  (u "wcirc;", [373]);
  (u "wedbar;", [10847]);
  (u "Wedge;", [8896]);
  (u "wedge;", [8743]);
  (u "wedgeq;", [8793]);
  (u "weierp;", [8472]);
  (u "Wfr;", [120090]);
  (u "wfr;", [120116]);
  (u "Wopf;", [120142]);
  (u "wopf;", [120168]);
  (u "wp;", [8472]);
  (u "wr;", [8768]);
  (u "wreath;", [8768]);
  (u "Wscr;", [119986]);
  (u "wscr;", [120012]);
  (u "xcap;", [8898]);
  (u "xcirc;", [9711]);
  (u "xcup;", [8899]);
  (u "xdtri;", [9661]);
  (u "Xfr;", [120091]);
  (u "xfr;", [120117]);
  (u "xhArr;", [10234]);
  (u "xharr;", [10231]);
  (u "Xi;", [926]);
  (u "xi;", [958]);
  (u "xlArr;", [10232]);
  (u "xlarr;", [10229]);
  (u "xmap;", [10236]);
  (u "xnis;", [8955]);
  (u "xodot;", [10752]);
  (u "Xopf;", [120143]);
  (u "xopf;", [120169]);
  (u "xoplus;", [10753]);
  (u "xotime;", [10754]);
  (u "xrArr;", [10233]);
  (u "xrarr;", [10230]);
  (u "Xscr;", [119987]);
  (u "xscr;", [120013]);
  (u "xsqcup;", [10758]);
  (u "xuplus;", [10756]);
  (u "xutri;", [9651]);
  (u "xvee;", [8897]);
  (u "xwedge;", [8896]);
  (u "Yacute", [221]);
  (u "yacute", [253]);
  (u "Yacute;", [221]);
  (u "yacute;", [253]);
  (u "YAcy;", [1071]);
  (u "yacy;", [1103]);
  (u "Ycirc;", [374]);
  (u "ycirc;", [375]);
  (u "Ycy;", [1067]);
  (u "ycy;", [1099]);
  (u "yen", [165]);
  (u "yen;", [165]);
  (u "Yfr;", [120092]);
  (u "yfr;", [120118]);
  (u "YIcy;", [1031]);
  (u "yicy;", [1111]);
  (u "Yopf;", [120144]);
  (u "yopf;", [120170]);
  (u "Yscr;", [119988]);
  (u "yscr;", [120014]);
  (u "YUcy;", [1070]);
  (u "yucy;", [1102]);
  (u "yuml", [255]);
  (u "Yuml;", [376]);
  (u "yuml;", [255]);
  (u "Zacute;", [377]);
  (u "zacute;", [378]);
  (u "Zcaron;", [381]);
  (u "zcaron;", [382]);
  (u "Zcy;", [1047]);
  (u "zcy;", [1079]);
  (u "Zdot;", [379]);
  (u "zdot;", [380]);
  (u "zeetrf;", [8488]);
  (u "ZeroWidthSpace;", [8203]);
  (u "Zeta;", [918]);
  (u "zeta;", [950]);
  (u "Zfr;", [8488]);
  (u "zfr;", [120119]);
  (u "ZHcy;", [1046]);
  (u "zhcy;", [1078]);
  (u "zigrarr;", [8669]);
  (u "Zopf;", [8484]);
  (u "zopf;", [120171]);
  (u "Zscr;", [119989]);
  (u "zscr;", [120015]);
  (u "zwj;", [8205]);
  (u "zwnj;", [8204])].

(** entitytrans.py 2247-2282: [_invalid_charrefs] *)
Definition invalid_charrefs : list (N * str) := [
  (0, [65533]);
  (13, [13]);
  (128, [8364]);
  (129, [129]);
  (130, [8218]);
  (131, [402]);
  (132, [8222]);
  (133, [8230]);
  (134, [8224]);
  (135, [8225]);
  (136, [710]);
  (137, [8240]);
  (138, [352]);
  (139, [8249]);
  (140, [338]);
  (141, [141]);
  (142, [381]);
  (143, [143]);
  (144, [144]);
  (145, [8216]);
  (146, [8217]);
  (147, [8220]);
  (148, [8221]);
  (149, [8226]);
  (150, [8211]);
  (151, [8212]);
  (152, [732]);
  (153, [8482]);
  (154, [353]);
  (155, [8250]);
  (156, [339]);
  (157, [157]);
  (158, [382]);
  (159, [376])].

(** entitytrans.py 2284-2305: [_invalid_codepoints] *)
Definition invalid_codepoints : list N := [
  1; 2; 3; 4; 5; 6; 7; 8; 14; 15; 16; 17; 18; 19; 20; 21;
  22; 23; 24; 25; 26; 27; 28; 29; 30; 31; 127; 128; 129; 130; 131; 132;
  133; 134; 135; 136; 137; 138; 139; 140; 141; 142; 143; 144; 145; 146; 147; 148;
  149; 150; 151; 152; 153; 154; 155; 156; 157; 158; 159; 64976; 64977; 64978; 64979; 64980;
  64981; 64982; 64983; 64984; 64985; 64986; 64987; 64988; 64989; 64990; 64991; 64992; 64993; 64994; 64995; 64996;
  64997; 64998; 64999; 65000; 65001; 65002; 65003; 65004; 65005; 65006; 65007; 11; 65534; 65535; 131070; 131071;
  196606; 196607; 262142; 262143; 327678; 327679; 393214; 393215; 458750; 458751; 524286; 524287; 589822; 589823; 655358; 655359;
  720894; 720895; 786430; 786431; 851966; 851967; 917502; 917503; 983038; 983039; 1048574; 1048575; 1114110; 1114111].

(** normalize_reference.py 63-91: the argument of [_parse_table] *)
Definition xlat_text : str := Eval vm_compute in (
  u "1t:p:-w;37:-kn;a:m:kn;n:6:;6:3w,37;w:1a:-31:2;1b:5k,lj;1:4:-5k:2;6:e::2;f:-aa,32" ++
  u ";:18:aa:2;19:3e;:4:-3e:2;5:7h;1:-da;:2:5t:2;3:-5p;:5p;1:1:-5o;1:5o;2:-26;:-3f;:-" ++
  u "1;:5m;1:-5o;:-2;1:-4;:2;:5s;3:-5u;:-2;1:-1;:4:5x:2;5:-61;:61;1:-61;2:61;1:-61;:6" ++
  u "1;1:1:-60;1:2:60:2;3:-62;:4:62:4;b:-1;:1;1:-1;:1;1:-1;:g:1:2;i:g::2;h:av,lo;:-aw" ++
  u ";:2:1:2;3:2q;:-15;:12:-1l:2;13:3n;1:g:-3n:2;n:-8bu;:8bu;1:4k;:-8gb;2:8br;1:5g;:-" ++
  u "7c;:-2;:8:1y:2;72:-37;16:2:37:2;5:;8:-37;6:26;1:2:1;3:-r;1:1:1;1:m,lk,ld;:g:9;h:" ++
  u "8:;c:b,lk,ld;h:k;c:-7;:12;:-5;3:-a;:7;1:m:-n:2;n:1j;:-6;2:c;:4;1:-1t;1:8;:-8;2:2" ++
  u ":3n;2:f:-5u;f:v:1c;27:w:v:2;15:1g::2;1h:-e;:c:e:2;e:2m::2;2o:11:-1b;2d:2a,136;26" ++
  u "w:11:-5mq;12:6::6;mo:5:5m0;1on:4sm;:-1;:-9;:1:-2;1:1;:-7;:-o;:-vzb;7:16:tj7;18:2" ++
  u ":;8y:44:-2bl:2;45:5yn,mp;:-b,lk;:-2,lm;:-1,lm;:p,ji;:-5xb;2:5wx,37;1:2m:-5yk:2;2" ++
  u "v:7:9;f:5:;f:7:;f:7:;f:5:;7:5fn,lv;1:2,lv,lc;1:2,lv,ld;1:2,lv,n6;2:6:-5ft:2;e:7:" ++
  u ";n:7:3c,qh;7:7:8,qh;7:7:-o,qh;7:7:8,qh;7:7:-1k,qh;7:7:8,qh;9:-6,qh;:5hc,qh;:6,qh" ++
  u ";1:-3,n6;:1,n6,qh;:1:-5j2;1:1:1u;1:5hd,qh;1:-6;3:-5h3,qh;:5ha,qh;:a,qh;1:-7,n6;:" ++
  u "1,n6,qh;:3:-5h6;3:5hb,qh;5:4,lk,lc;:1,lk,ld;2:3,n6;:1,lk,n6;:1:-5jq;1:1:2k;7:5h5" ++
  u ",lk,lc;:1,lk,ld;:5,lv;1:-2,n6;:1,lk,n6;:1:-5ju;1:1:2w;1:-2x;5:33,qh;:5h0,qh;:-4," ++
  u "qh;1:7,n6;:1,n6,qh;:1:-5gu;1:1:-2;1:5h1,qh;89:8a;3:o2;:-3d;6:-6ea;19:f:c;y:f;mq:" ++
  u "p:-p;1ft:1a:-m;2n:1b;1:8ag;:-5ch;:5c1;2:4:-8a0:2;5:8bh;:-v;:y;:-1;1:3:-8bj:3;b:1" ++
  u ":8cg;1:2q:-8cg:2;2y:2::2;6:nym::nym;nyn:16::2;1p:q::2;4h:c::2;f:1o::2;1y:2::2;3:" ++
  u "r9h;:8:-r9h:2;c:;1:wmh;2:2:-wmh:2;5:i::2;j:wn9;:b;:-4;:-a;:3;1:-1e;:o;:-l;:-xbp;" ++
  u ":a:pr:2;d:;1:1d;:wlv;:-5cb;q1:27:2oo;fpr:jii,2u;:1,2x;:1,30;:1,2u,2x;:1,2u,30;:-" ++
  u "c,38;:1,38;c:-z8,12u;:1,12d;:1,12j;:-9,12u;:b,12l;sp:p:-1cjn;ym:13:-8;4v:z:;1jj:" ++
  u "1e:-o;2e7:v:w;gwv:v:;o8v:x:-2").
