(** The states that the first two rounds of the shipped permutations map to 0, by width
    (written by tools/mkbypass.py; checked in [BypassZero.v]). *)
From Coq Require Import ZArith.
From mathcomp Require Import all_ssreflect.
Definition zero_states : seq (seq Z) := [:: [::]; [::];
  [::
    4234987643240868178455580428592823739480742791053068927111629952834769275929;
    1485522818657315814587337719750354225512824309568227714902068466685405963105];
  [::
    2562537217999964449384213770028145049491280027881433129698484609891992534364;
    3770581120881467781461819757689078822637248167364080371456940321214045789701;
    541643453808225895545037614771780680689154095555502635004822902326423590046];
  [::
    1578874184847060209313985878965058234163487041819363449555814885378148429941;
    3572474875173660718815463605495992629174059138239525679494082955808269934708;
    884430283785452835396849014527552563639270468112602157725053476588853479733;
    4098242628161848231762277510999940200868040532780055168729722391601264789927];
  [::
    773713874068568986850785430372245532049364150871514469905537776644666338120;
    4426882878584286759491725035829108386910473206416800444268126595308818988561;
    5979770950826852135562998742332120329913904927696635423897006950938837167102;
    2946950211693440765647370431628934330473215603137018833471408602194165490626;
    7156454056443133200607738802124506615070085159178257546508781861958443586509];
  [::
    4636411738992558974144089426081832357787374882167046703795218697311719290176;
    3793627893334740308982489319602534657587261222638797575010501023840366767698;
    7393798463218619018322777602241859761625699696204404585519786094648988138520;
    232569743026464692468923101038440966961715093166655127394691586932590997867;
    3274180225843855092800124803083628440178288446380226596761059794333149347963;
    4645779769251373378669112942979061047826983512034054870557308122780434625857];
  [::
    6369400472130933753239252528272057963209703829899412669058083189420013292786;
    3201797260999888980085325847952913356795318699187265060795526575343096212610;
    7673103318917810948075513798946059996231217189082091708658768218944135579979;
    2053031510245257892132429981121869302031318459226577321312388612929168902389;
    5534297911121506408372117295324139834329977980731022915737820163488333845774;
    5272528781965615840119438996345130336241442197817827363185139280357397112441;
    1752233960247109038464886379028848030113689893976247969929853838887818110787];
  [::
    3158924072691528573863661736002613951252733978707714451758194169282744859597;
    8213013965553280693540145152036288394252668355545454259411445996666152308867;
    884800345606940311415053947301068820410972242985157460732173957288794423238;
    304070145370459613352521994695314527891331756103595173390727266990868658009;
    6487116290376602724248680545102914635787994633074355529430868580137158792524;
    2688473915881248306266808965615674301661861237643999162727763740973058290997;
    8398337725121030280412316550897503342291573131944304111378263373461283841416;
    4990860311754667862157230765741134551266157857272674527573052542644007256973]]%Z.
