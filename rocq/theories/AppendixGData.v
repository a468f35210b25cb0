(** The rows of tables 7, 8 and 9 of appendix G of the Poseidon paper and the primes
    they are tested with, transcribed from poseidon-paramgen/src/appendix_g.rs
    (lines 39-215) by tools/mktables.py, with logarithm certificates for [RoundsCheck]. *)
From Coq Require Import ZArith NArith.
From mathcomp Require Import all_ssreflect.
From Verif Require Import Base Params RoundsCheck.
Set Implicit Arguments.

(** [M], [t], [r_F], [r_P], [p] *)
Record row := Row { row_M : N; row_t : nat; row_rF : nat; row_rP : nat; row_p : Z }.

Definition table_7 : seq row := [::
  Row 128%num 2 8 83 1285972319676842810969485878596785460378254587900320538194549286320222523621753054582270692761423067723622289509246331465441790711687096150336033426584236789046117244514940542370278948644966638168494119742350240132654417197013898277%Z;
  Row 128%num 4 8 84 24029335548108648199755136672461166148126852491413827973546126772092090492121549469372885934460985132012930491106803%Z;
  Row 128%num 6 8 84 92378444953952135362233764920562443588943051860418064632674652729586675198499%Z;
  Row 128%num 8 8 84 5493676949319043689334439734705363934771468973473846167831%Z;
  Row 128%num 16 8 64 47080328286681086157809746403%Z;
  Row 256%num 2 8 170 1429028743336383885086224938533526527537492156009800001314231760304930487145108908025827879389380438318762771087581080106872120174685736157416469364705069428639169055604839082483182324797122682938663643974667493765095142241383410523%Z;
  Row 256%num 4 8 171 39087297669469656432016004003288613036194633791610788101771094240290797024531975382555581671704748275265898438753551%Z;
  Row 256%num 6 8 171 66599197946191249631812188829622192768573341198092727662820540460734999752353%Z;
  Row 256%num 8 8 128 5939690934428747319089149475890099179736888602105582009677%Z;
  Row 256%num 16 8 64 51558334253054077805045591617%Z].

Definition certs_7 : seq certs := [::
  Certs (1, 47, 48) (1, 1, 1) (147, 92, 93) (3, 1, 2);
  Certs (1, 47, 48) (1, 1, 1) (147, 92, 93) (4, 5, 6);
  Certs (1, 15, 16) (1, 1, 1) (147, 92, 93) (3, 4, 5);
  Certs (1, 47, 48) (1, 1, 1) (147, 92, 93) (12, 22, 23);
  Certs (6, 283, 284) (1, 1, 1) (433, 273, 274) (3, 7, 8);
  Certs (1, 47, 48) (1, 1, 1) (275, 173, 174) (3, 1, 2);
  Certs (1, 47, 48) (1, 1, 1) (275, 173, 174) (4, 5, 6);
  Certs (16, 243, 244) (1, 1, 1) (550, 347, 348) (3, 4, 5);
  Certs (6, 287, 288) (1, 1, 1) (520, 328, 329) (12, 22, 23);
  Certs (3, 142, 143) (1, 1, 1) (135, 85, 86) (3, 7, 8)]%Z.

Definition table_8 : seq row := [::
  Row 128%num 2 8 56 1020432616714722447377130645995550938177200562461585225803048090516069775997125730278350623689059365786930362246398753740661742830734528163817673204838193731449505575391236215635076415262771576952755202348116656152449348660449600867%Z;
  Row 128%num 4 8 56 39368751381006269902108472354351555399786464903134915790997916210058217900087282198897117382974492349917393640786091%Z;
  Row 128%num 6 8 57 87461477668777205134073563425227256275751479514248606995724082059888688934739%Z;
  Row 128%num 8 8 57 4848002283653915458342314818941918729698710728189008381529%Z;
  Row 128%num 16 8 42 75652816395934777081987765559%Z;
  Row 256%num 2 8 116 856194484071451972395636990297141234782681385983937272053939087749607049617620008843035758810491502978646254234829526865512106203220368169398938929573266422733785714524574286913159475045404392812568690255695103992898509688902585129%Z;
  Row 256%num 4 8 116 31264640049088477770225752361009202019421489383518901149815764179913676105652492722523545538621601951766810698065469%Z;
  Row 256%num 6 8 117 105572369273569957500357375582522416170139120006790850453866654215794611603289%Z;
  Row 256%num 8 8 86 4158596063100046037384281156248765277093903050809579730379%Z;
  Row 256%num 16 8 42 69186314987059605426149080777%Z].

Definition certs_8 : seq certs := [::
  Certs (1, 47, 48) (1, 2, 2) (151, 65, 66) (3, 1, 2);
  Certs (1, 47, 48) (1, 2, 2) (151, 65, 66) (8, 6, 7);
  Certs (1, 15, 16) (1, 2, 2) (151, 65, 66) (12, 13, 14);
  Certs (1, 47, 48) (1, 2, 2) (151, 65, 66) (4, 5, 6);
  Certs (2, 95, 96) (1, 2, 2) (135, 58, 59) (4, 6, 7);
  Certs (1, 47, 48) (1, 2, 2) (286, 123, 124) (3, 1, 2);
  Certs (1, 47, 48) (1, 2, 2) (286, 123, 124) (8, 6, 7);
  Certs (6, 95, 96) (1, 2, 2) (286, 123, 124) (12, 13, 14);
  Certs (2, 94, 95) (1, 2, 2) (270, 116, 117) (4, 5, 6);
  Certs (2, 95, 96) (1, 2, 2) (135, 58, 59) (4, 6, 7)]%Z.

Definition table_9 : seq row := [::
  Row 128%num 2 8 65 839024110632800606005488589415525259123742723495346937519809084766265078197349614971418834379058183972802414021198755701927311304539635955259602182310638445617111729043988505713791611514175087002304352201298897920438489996991375647%Z;
  Row 128%num 4 8 60 36696523052796762519779528815436247683733002304013097671753885192987785136095786761462507148976873850586188951814571%Z;
  Row 128%num 6 8 57 75170472159102037257875433833623287002137189164830086604962472127056704648801%Z;
  Row 128%num 8 8 54 4894876304672917647761176180800568630532679564002326051649%Z;
  Row 128%num 16 8 32 55291203714785298131871609871%Z;
  Row 256%num 2 8 134 927284578876081672747839788289663410827541025085878755210392958787486165905270864807043744651809574495344863696391615387707402468149752052529827153626345801516239736053994574559414956937455670272070975463891435366211380843313541253%Z;
  Row 256%num 4 8 128 31760045684781156881012718708292985274641612979396951420346125470291021841243802748526887313612061222985166447340549%Z;
  Row 256%num 6 8 126 107799350998544074451708570201428080568984443711456541988628636420463500656153%Z;
  Row 256%num 8 8 89 5784493250534137918494041902636593642197528046951094907327%Z;
  Row 256%num 16 8 32 58525606832309595838417113617%Z].

Definition certs_9 : seq certs := [::
  Certs (1, 47, 48) (1, 0, 0) (1, 0, 0) (1, 1, 1);
  Certs (1, 47, 48) (1, 0, 0) (1, 0, 0) (1, 2, 2);
  Certs (1, 15, 16) (1, 0, 0) (1, 0, 0) (32, 82, 83);
  Certs (1, 47, 48) (1, 0, 0) (1, 0, 0) (1, 3, 3);
  Certs (2, 94, 95) (1, 0, 0) (1, 0, 0) (1, 4, 4);
  Certs (1, 47, 48) (1, 0, 0) (1, 0, 0) (1, 1, 1);
  Certs (1, 47, 48) (1, 0, 0) (1, 0, 0) (1, 2, 2);
  Certs (1, 15, 16) (1, 0, 0) (1, 0, 0) (32, 82, 83);
  Certs (12, 574, 575) (1, 0, 0) (1, 0, 0) (1, 3, 3);
  Certs (3, 142, 143) (1, 0, 0) (1, 0, 0) (1, 4, 4)]%Z.

