(** Written by tools/mkmds.py; the numbers are checked in [MdsRun.v]. *)
From Coq Require Import ZArith.
From Bignums Require Import BigZ.
From mathcomp Require Import all_ssreflect.
Delimit Scope Z_scope with Z.

(** SHA-256 of HadesMDSx0, HadesMDSx1, ... *)
Definition sha_x : seq Z := [:: 57702300646757025388604150855013192676107940927800082984375843713537359148168;
  83871692521388765055812165565845949110334598001705628353642510366118020513272;
  24380904514089886646876939939342568189027246048994265678390127120037739166840;
  57130081941445495152958219285309351044509109195948245534214963879097626189849;
  33069396953635998456910570922004440086797154510237872287452204727107751437346;
  110984312754834318846021284500716012388549370291717652950860406310765173831289;
  60284033591312008600518810981808988603519616226196791138290186481886825917073;
  44131218827255728873201530880058975140284084151007043354935017240698975981005;
  63586684514038522695931105445807985815962332858499283965175602578634615951153;
  4481364039274868370447698691274710697612241898283162412971484706254838120939;
  102064636880039384896173810078215617620662408183720533361684000343836801470587;
  72924150178927840820286081643517158296805296149809968007644268721129432961464]%Z.

(** SHA-256 of HadesMDSy0, HadesMDSy1, ... *)
Definition sha_y : seq Z := [:: 20012073244029629681936692843274707514793379968366077082945079436307739044173;
  49993902282260909056507958133803148817297573042844941975556657522694413273435;
  10030864724671260552250757064617648718814207199259033884177625927202997101201;
  97523606791341893577617728038788760905831931464034859281575511617871422674438;
  38661770317367612869428043666093908453000090429204538860220753386326917478859;
  5876276712225987879232221575652128989233399818190359130545649669981470303045;
  52807000070405894370324175000257262059571165247467273021105413653685638777534;
  55146508882792000879543048390860465291863334731961681574465021010531825134347;
  27003776561679834954015731848396549678477759652837357652882407030729836633201;
  102800777387868508610711840688010206284140991956430473008370906844882229186267;
  79895165366170726832664925874815236490774652625166459824340182901716475039733;
  114649715549103164499807291085279936156121725824712865801087226863809960094713]%Z.

(** Width 2, attempt 0 *)
Definition mat_2_0 : seq (seq BigZ.t) := [:: [:: 1176051956847107240720092743191536744506212303326360080512163156103164149850; 8402878543642667924723401420033811459284838550048699791113189260852042826292];
  [:: 5535935393902879129094190749868598276367224136842358849250625741902371918397; 852045520402960286757476806137003380038111134742018251087010944117170670045]]%bigZ.
Definition poly_2_0 : seq BigZ.t := [:: 2553899685526031434054319399795539686463099348822983970509886219467837287897; 2028097477250067527477569549328540124544323438068378331599174100220334819895]%bigZ.
Definition inv_2_0 : seq BigZ.t := [:: 4517817183591062683206667241720361720754125122652395135020446749278707346095; 372339944611839690214677189040543184697746134394576431336672549473456816019]%bigZ.

(** Width 3, attempt 0 *)
Definition mat_3_0 : seq (seq BigZ.t) := [:: [:: 1176051956847107240720092743191536744506212303326360080512163156103164149850; 8402878543642667924723401420033811459284838550048699791113189260852042826292; 4811768985211772890695110403603066421529029662509159174865246530735459231858];
  [:: 5535935393902879129094190749868598276367224136842358849250625741902371918397; 852045520402960286757476806137003380038111134742018251087010944117170670045; 1975757179445587153504332846839733248013115409591135033263127279549863534348];
  [:: 7538581871990313094722169407693099586981512115574584706059794064373804072579; 8068228532188099852215410265440892229890017298378596673075865704251484253563; 4490311258785448094966638742404772135519324058760425359537868315201320249319]]%bigZ.
Definition poly_3_0 : seq BigZ.t := [:: 2853938830829354178298905310369990082476014541102317414569945812914162239470; 348856582611288924814716636458889183243859039764578583092723985285951233372; 6518408736035515622444208291733312260063647496828803691137042415421655069214]%bigZ.
Definition inv_3_0 : seq BigZ.t := [:: 752854579876035050926208111574233360362593839035370424758799927052116696618; 8146848393273363422904675259966609284004385383703196516343938342754792238825; 4172576462031955736802032243604986359770666993129360755939885520936327728293]%bigZ.

(** Width 4, attempt 0 *)
Definition mat_4_0 : seq (seq BigZ.t) := [:: [:: 1176051956847107240720092743191536744506212303326360080512163156103164149850; 8402878543642667924723401420033811459284838550048699791113189260852042826292; 4811768985211772890695110403603066421529029662509159174865246530735459231858; 3491060443190940448551743563124468580352653886511835586373000083690145634006];
  [:: 5535935393902879129094190749868598276367224136842358849250625741902371918397; 852045520402960286757476806137003380038111134742018251087010944117170670045; 1975757179445587153504332846839733248013115409591135033263127279549863534348; 4969776798134479195755944320592368060376369976206298444384447628772768875992];
  [:: 7538581871990313094722169407693099586981512115574584706059794064373804072579; 8068228532188099852215410265440892229890017298378596673075865704251484253563; 4490311258785448094966638742404772135519324058760425359537868315201320249319; 3972627526893529141265572767308938827338210935036416472928422756809189099260];
  [:: 2475755090116208188350033464654743026594381211312282026581812942238984164656; 6695315029320763806702142768628269856101567640583453279462511620344557143987; 110254655584894384643836735748241854861896392743903946539601281576026246422; 3704194883688904544883107644979215233303334745456272062031135715253097584481]]%bigZ.
Definition val_4_0 : BigZ.t := 7648141048339516257904068483388247667358091649491540105039004810596356952686%bigZ.
Definition vec_4_0 : seq BigZ.t := [:: 1; 1382441581152912847576299552488304367684965983116364541624679639540858628981; 3512312071565735010313700098956064725573482493452504355740946644885104229735; 8254895140713103900658729867153150636803324943644881163367376128802985774115]%bigZ.

(** Width 4, attempt 1 *)
Definition mat_4_1 : seq (seq BigZ.t) := [:: [:: 404571005720710758917952542102188141632925492023284634218779532955647621085; 2825842983524553620544395431706013320868401364721066623450260313383827487206; 7460994105698878465414169445305824126086997043227412466791915403198589757752; 8242773904102324421527287350007791858934319347326366836395044138980796935606];
  [:: 4905034045432375612115794395969198942437258653209975773623763330582711240297; 6559848426036244266318754037733852411437289925888736621504332524252145359058; 7786630835604991136508253271269363068305280772838293133030931708599899967371; 7428699022136995580231146036379041992602104341879799509088961245826161691158];
  [:: 6767400842187190075374991218701346247124130218515822835668915203767947970722; 215446169755863817010549660120790827713072416229099176873396793812402925519; 672066471166840632588411510740703526007097043043288776924746811512664490646; 5385927620493705582085278823585867802806998920576396762281958961421319508007];
  [:: 2966477112622082468391141318220279616167638225517293757765754078575744969985; 8054718379289912215468126315300731290936673044823962700292400034688648279427; 8308373316915523582209156283088641331778038662853007003254477239916183657361; 6626681293579679428240785279553788672028348140048656961122361358271476200667]]%bigZ.
Definition val_4_1 : BigZ.t := 562632769666149155018995912347423382135487091359075760640821732930574570096%bigZ.
Definition vec_4_1 : seq BigZ.t := [:: 1; 4779074076019577052140774615855940920161209345600093723018467191473940651866; 2332231856927072849097761822314338952645458914170936478216773117004854321853; 1700970562607861883281104875792305033119588355782357026857964844176985776244]%bigZ.

(** Width 4, attempt 2 *)
Definition mat_4_2 : seq (seq BigZ.t) := [:: [:: 3112925236435683242371071258551810715663224704190033055759399561178309878622; 3826712585725033190374017522401217919165733232883853962064117539811460916395; 1174745283730072398173866916818211802957638420795115460173119914193566370641; 7368247161873436113340833597655688624107266779212405285056128277321569066780];
  [:: 4086587823080459442283808702007339143811405138713778195661968711853549697517; 5631266975502578439352943226310703149319605598890740834809496317979572792100; 5148902127700344455598821624283173461297454145395320877600333748473975928681; 5947190074850597705038319360845895773165916837886370540852130971120981609956];
  [:: 1096848266792923595807440603677577032897070976109009018113358654973242762895; 3551372186382566745742719714779130380743921638774821506588373387735477913121; 5088193278699768009554220523523116435455373304834032974271154172035100570771; 8029456723907600753959820034824168033135665691918170617841090524548989665774];
  [:: 8046189751420715145690577052064250944358242635883241130544725394304165446252; 4911753874901799379068183746240894415192736492544975579342251664984005607507; 5984133932876276273633457488809635194916116919604220176186827708493410230038; 4434219415228609726228295043856158344164464387641197015858693192417292612863]]%bigZ.
Definition poly_4_2 : seq BigZ.t := [:: 770370285730571407718442442427005937194521884408434722535991760984933446802; 5507943349869684369470954311834906754220740235879579396095698335357570030043; 297650730814803488648067569906104841140290548591131374581774746049425708; 1377681407009898569008880174678695581850869325247876224828276331775457376274]%bigZ.
Definition inv_4_2 : seq BigZ.t := [:: 4750964385458869944283025285769345816449209955102495043410029872333928274180; 7259319435980408021032140781686981001720660387137035577473746007972688851879; 5983752176362154170892581656095742260935181237923232913445256689198419839166; 8010196290112890241961564598135839476843165190789183590013589110853145497488]%bigZ.

(** Width 5, attempt 0 *)
Definition mat_5_0 : seq (seq BigZ.t) := [:: [:: 1176051956847107240720092743191536744506212303326360080512163156103164149850; 8402878543642667924723401420033811459284838550048699791113189260852042826292; 4811768985211772890695110403603066421529029662509159174865246530735459231858; 3491060443190940448551743563124468580352653886511835586373000083690145634006; 6956147319446992853493460789833177448219120011607332759444698358038891635836];
  [:: 5535935393902879129094190749868598276367224136842358849250625741902371918397; 852045520402960286757476806137003380038111134742018251087010944117170670045; 1975757179445587153504332846839733248013115409591135033263127279549863534348; 4969776798134479195755944320592368060376369976206298444384447628772768875992; 1027708638586191412162120507084906764733375555996260051724423414475677199339];
  [:: 7538581871990313094722169407693099586981512115574584706059794064373804072579; 8068228532188099852215410265440892229890017298378596673075865704251484253563; 4490311258785448094966638742404772135519324058760425359537868315201320249319; 3972627526893529141265572767308938827338210935036416472928422756809189099260; 4389985545309448414190554185994878552886937106151469688646417604259285151485];
  [:: 2475755090116208188350033464654743026594381211312282026581812942238984164656; 6695315029320763806702142768628269856101567640583453279462511620344557143987; 110254655584894384643836735748241854861896392743903946539601281576026246422; 3704194883688904544883107644979215233303334745456272062031135715253097584481; 538873501457949039034245307849891043541043849181893279735616813591458325855];
  [:: 4207863660747664999376464829501323453842191432785905340829872227444902135846; 6785305573281772344442505964326092425041710099482911721113110717912808169520; 6107861358361599254360923767264776692547447073533748082514931090223565974493; 788902895328059093671651768300013166095702874152302084950259901361114157234; 404571005720710758917952542102188141632925492023284634218779532955647621085]]%bigZ.
Definition val_5_0 : BigZ.t := 3389211816364573130312544696544922008839961729530348339422903257801097677988%bigZ.
Definition vec_5_0 : seq BigZ.t := [:: 1; 4290265067100949404003869244946481500053941177108945607985618175836425628238; 4729806665645996764270144714664308150680324373344263282083604343040367481065; 4834144370579917846668698221745672953265614382493151482051378464202288193360; 1949857685478376116538088619949674757886548456596087362552173510289478197002]%bigZ.

(** Width 5, attempt 1 *)
Definition mat_5_1 : seq (seq BigZ.t) := [:: [:: 6559848426036244266318754037733852411437289925888736621504332524252145359058; 7786630835604991136508253271269363068305280772838293133030931708599899967371; 7428699022136995580231146036379041992602104341879799509088961245826161691158; 3947256154255559126257286466480597797613292023236275549219423063452728509522; 2399773685267295765180680106329380849044669230272582160824372356850842670466];
  [:: 215446169755863817010549660120790827713072416229099176873396793812402925519; 672066471166840632588411510740703526007097043043288776924746811512664490646; 5385927620493705582085278823585867802806998920576396762281958961421319508007; 3166870516933037094709526418876921585128925228864722197703602614347982369201; 5563007254381249144874671496644828623298286219868933533865833143447058544536];
  [:: 8054718379289912215468126315300731290936673044823962700292400034688648279427; 8308373316915523582209156283088641331778038662853007003254477239916183657361; 6626681293579679428240785279553788672028348140048656961122361358271476200667; 7542719281183663764513416673919703523522641297579307958935831505232827825555; 6327791412065253665628625392513309828158657655024031941152528116821268257979];
  [:: 7619281641515767326368641292492345327893431647676517763205359369812655123782; 55794491081052635055923792458143065142699433121911054081592816776269649982; 2025067788465478321435999159099776332761612529526264343030986416200908291564; 3112925236435683242371071258551810715663224704190033055759399561178309878622; 3826712585725033190374017522401217919165733232883853962064117539811460916395];
  [:: 2169334592295554149671817872794358151091573342620612130865918414246649429781; 7825671885206988988950540198300969521586370431289052737602839201624872123928; 2176544332342101821613238372838361814461606188184989528586185293982482025036; 4086587823080459442283808702007339143811405138713778195661968711853549697517; 5631266975502578439352943226310703149319605598890740834809496317979572792100]]%bigZ.
Definition poly_5_1 : seq BigZ.t := [:: 7243008953521220161686246566556354977963273798229193904982643009005824014708; 8238886695842710670341949934662891455456239071733354351733822110210367132846; 2698875854496641119730367500686787085003590818295638951717055897544278720651; 5723023422856028657664645485242057876826451776197571785752802454972433534799; 5713864903864285160374315435327765411703766741753328594249869661359350243011]%bigZ.
Definition inv_5_1 : seq BigZ.t := [:: 5436202152656364630198174892769375748767600074282261795700542978317399030718; 2937564949708230691486177293011988602405396233950813817935386372137479466029; 2038413990197243941769900551139593961913744932836401230504227754511441880494; 7858497046330453935438672497718952250707579763698653052677045192915362450967; 8161041683473270079037316295037862879864799928014377751803533244431243410522]%bigZ.

(** Width 6, attempt 0 *)
Definition mat_6_0 : seq (seq BigZ.t) := [:: [:: 1176051956847107240720092743191536744506212303326360080512163156103164149850; 8402878543642667924723401420033811459284838550048699791113189260852042826292; 4811768985211772890695110403603066421529029662509159174865246530735459231858; 3491060443190940448551743563124468580352653886511835586373000083690145634006; 6956147319446992853493460789833177448219120011607332759444698358038891635836; 85332366442435850899123351678916031831410276380234375397223990743166038548];
  [:: 5535935393902879129094190749868598276367224136842358849250625741902371918397; 852045520402960286757476806137003380038111134742018251087010944117170670045; 1975757179445587153504332846839733248013115409591135033263127279549863534348; 4969776798134479195755944320592368060376369976206298444384447628772768875992; 1027708638586191412162120507084906764733375555996260051724423414475677199339; 5767846397380134877170904353379848262013889606614138464016022499576791495020];
  [:: 7538581871990313094722169407693099586981512115574584706059794064373804072579; 8068228532188099852215410265440892229890017298378596673075865704251484253563; 4490311258785448094966638742404772135519324058760425359537868315201320249319; 3972627526893529141265572767308938827338210935036416472928422756809189099260; 4389985545309448414190554185994878552886937106151469688646417604259285151485; 2812310147435101726883009870008446417619650703232208562869149598025830417815];
  [:: 2475755090116208188350033464654743026594381211312282026581812942238984164656; 6695315029320763806702142768628269856101567640583453279462511620344557143987; 110254655584894384643836735748241854861896392743903946539601281576026246422; 3704194883688904544883107644979215233303334745456272062031135715253097584481; 538873501457949039034245307849891043541043849181893279735616813591458325855; 2566165789253058571682121429630086914029877705130308911627131861515265539803];
  [:: 4207863660747664999376464829501323453842191432785905340829872227444902135846; 6785305573281772344442505964326092425041710099482911721113110717912808169520; 6107861358361599254360923767264776692547447073533748082514931090223565974493; 788902895328059093671651768300013166095702874152302084950259901361114157234; 404571005720710758917952542102188141632925492023284634218779532955647621085; 2825842983524553620544395431706013320868401364721066623450260313383827487206];
  [:: 2712253743190051813128131753383405975316578214665687768078207758154816672814; 6897831529753663374693413874074122184522312151994575107546504509439874070455; 7775295400343685765333117918770978496619899792653178794095326438858244117321; 314450384480963460470457534083505586926013470274337095777997841684016214705; 4905034045432375612115794395969198942437258653209975773623763330582711240297; 6559848426036244266318754037733852411437289925888736621504332524252145359058]]%bigZ.
Definition val_6_0 : BigZ.t := 6765810859832378438853086338384307955258832837421959583149358291517650400307%bigZ.
Definition vec_6_0 : seq BigZ.t := [:: 1; 2232298006041692257177893335206013179574806491754678031975863868665430289177; 6028835599562176311050828278446662098211282445944729010977169119329835353991; 5267534489357063771015612363709082660565557153323333764748181101588345523398; 5796228993132135003946218543479673059903891657031121571703439332745635860721; 6547449716256220074535071870309789480822699780119240998102945794881630468244]%bigZ.

(** Width 6, attempt 1 *)
Definition mat_6_1 : seq (seq BigZ.t) := [:: [:: 672066471166840632588411510740703526007097043043288776924746811512664490646; 5385927620493705582085278823585867802806998920576396762281958961421319508007; 3166870516933037094709526418876921585128925228864722197703602614347982369201; 5563007254381249144874671496644828623298286219868933533865833143447058544536; 8250276181781810512497448772499921769001117628760242968677747310415353890064; 4219947387239501847810648140563749594702436340637056068687968666582677185547];
  [:: 8308373316915523582209156283088641331778038662853007003254477239916183657361; 6626681293579679428240785279553788672028348140048656961122361358271476200667; 7542719281183663764513416673919703523522641297579307958935831505232827825555; 6327791412065253665628625392513309828158657655024031941152528116821268257979; 7769033441512198663746127677920084472643822443411247802125712874964558071629; 566406639784992242780825313033391068948411899063685777194120784399236200066];
  [:: 55794491081052635055923792458143065142699433121911054081592816776269649982; 2025067788465478321435999159099776332761612529526264343030986416200908291564; 3112925236435683242371071258551810715663224704190033055759399561178309878622; 3826712585725033190374017522401217919165733232883853962064117539811460916395; 1174745283730072398173866916818211802957638420795115460173119914193566370641; 7368247161873436113340833597655688624107266779212405285056128277321569066780];
  [:: 7825671885206988988950540198300969521586370431289052737602839201624872123928; 2176544332342101821613238372838361814461606188184989528586185293982482025036; 4086587823080459442283808702007339143811405138713778195661968711853549697517; 5631266975502578439352943226310703149319605598890740834809496317979572792100; 5148902127700344455598821624283173461297454145395320877600333748473975928681; 5947190074850597705038319360845895773165916837886370540852130971120981609956];
  [:: 4816000238296028977422513168756361121003963950491819109613043223654986070024; 3647416183539377793714397132278752185600890904852662101721411992583446793599; 1096848266792923595807440603677577032897070976109009018113358654973242762895; 3551372186382566745742719714779130380743921638774821506588373387735477913121; 5088193278699768009554220523523116435455373304834032974271154172035100570771; 8029456723907600753959820034824168033135665691918170617841090524548989665774];
  [:: 7981003083847745147558531053749359948483548649454311924591718098323338753666; 6695375767862876896778091479001979783361164964663735238614002375394326430496; 8046189751420715145690577052064250944358242635883241130544725394304165446252; 4911753874901799379068183746240894415192736492544975579342251664984005607507; 5984133932876276273633457488809635194916116919604220176186827708493410230038; 4434219415228609726228295043856158344164464387641197015858693192417292612863]]%bigZ.
Definition poly_6_1 : seq BigZ.t := [:: 4391235152416945738040813458591532655672708883941234090013583757526531802824; 4941658519921664590418082387412695822393190593078524290210915080360134715121; 1772432747995085035346225403706755640258799288964718054582339230658466352428; 2279857993093289367487807538381859887727873211175219822863857682187315551323; 270931762999222474108229966748006663577752720201464869210941295314561748708; 231967422328048205589252026191641248510415173185758134940151045642188828546]%bigZ.
Definition inv_6_1 : seq BigZ.t := [:: 7755794461741206710981304644989552876257384082392603930458361980789415381393; 1378586021914103228144215985553759219424696248275834734131899247291309453778; 3701870981364777505554307608229913431803607252549437679779218792967237358435; 2246063622903556140540011242446505286997050763444424504637491792985052832807; 6408269383730508357805431081644340259685507357046526725330979625497432412533; 1456056275379315861468347577318006329648672431087102154114173866003496619534]%bigZ.
