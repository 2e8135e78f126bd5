(** The primality certificate of 2^130 - 5 (generated; checked by [cert1_ok], [cert2_ok]). *)
From Verif Require Import BaseFacts P_Slp P_Prime P_PrimeP S_ChaCha.
From Coq Require Import Znumtheory.

Lemma prime_37003 : prime 37003. Proof. apply (trial_prime 200); [lia|vm_compute; reflexivity]. Qed.
Lemma prime_221101 : prime 221101. Proof. apply (trial_prime 500); [lia|vm_compute; reflexivity]. Qed.

Definition h0_P2 : list Z :=
  [0; 0; 0; 0; 0; 0; 0; 0; 20641797073191858; 0; 23988997371547; 1933136484829428776; 1; 796248167104052863;
   3407980340882591660; 1551333307747352384; 0; 663920225628606687; 1070314855945492062; 423706626211047119; 1;
   535050875739808871; 3699112266329145706; 329887981196772966; 3129019368717659357; 1; 24005268668112; 0;
   22282383898383559; 146014738839713967; 3647336868332992548; 1066806970802806352; 1; 1019685707670562860;
   819211720404736973; 0; 1388610609965745396; 0; 74647424058871462; 824812736779555514].
Definition h1_P2 : list Z :=
  [828748123438912; 2760314004481359481; 224713826781089301; 45282602285880617; 195101367914782904; 247221286998400612;
   15528850043028635; 2746275898953527910; 82833385556761665; 22073133262468788; 512881915867265902; 3999461744015857005;
   14548731170131959; 1664967933510862039; 11416996048528059; 1358343348362266196; 118649710727638741; 52100992459275340;
   1614915955680615651; 32492835979986677].
Definition h2_P2 : list Z :=
  [828748123438912; 47828914385715232; 119191399164387307; 1227075181808003053; 31775066437143417; 1492094018734691205;
   2690594432220178446; 10288808751693241; 18559160597981607; 5364319852098238; 601037862150039756; 31865417570383876;
   259405829265948977; 47728896372924710; 303519539447542662; 692297530012941; 37524797552624841; 37559000550053362;
   2909310897487953863; 2672510577456143250; 8916373155834982; 2484247584223195501; 2093869494376445769;
   3364203209537550; 36703139365717134; 41675135971603711; 1258808141203279934; 2301817951738236924; 10167756877841120].
Definition h3_P2 : list Z :=
  [881576806863360572; 52389926350740828; 76009676912179828; 289037541420548357; 1589187612110691332;
   1090660490433820242; 471625742110631513; 1397423777393519813; 1072678076167826654; 1396052583777418798;
   21946609966820915; 18508610785895124; 2962011285470830572; 1125620686967103295; 315649712099682714; 9913611890051000;
   3845717523535510826; 1398379800466603000; 2810533335731513; 1553403949235128249].
Lemma prime_P2 : prime 4024685905107147541.
Proof. apply (cert2_ok 4024685905107147541 2 221101 37003 1467464467400074184 783920600405373187 1096848965921730071 513346862144753638 h0_P2 h1_P2 h2_P2 h3_P2 prime_221101 prime_37003). vm_compute. reflexivity. Qed.

Definition h0_P1 : list Z :=
  [0; 0; 0; 0; 0; 0; 0; 0; 5; 1; 83381093544215256468227567423; 0; 916427360012599296; 0; 0; 3076031542;
   744647599982491647086527582840; 0; 371058337070426889060765986466; 24324792308083415747050931159; 0;
   33480818644621915405482259577; 386638186587702293295747356468; 0; 687015707684974262256995475482;
   159417993121193007408452418340; 0; 29663757899624466600284152609; 51797645208530111128555693117;
   666933181596048969365922983349; 63793694443380813290574289619; 111904705576383236567239364744; 0;
   804573330614413619861108670663; 0; 277665187939373300343263619992; 0; 828910582412100605900372144956; 1;
   702329398272482497720168691173; 24871999195122314685146457637; 1; 254625826322147100005946135884; 0;
   36060275733335382531384697801; 0; 108568326825697742003341672922; 47378794953740582006511688709;
   82910048914985951221191763251; 238870534703862683375035574472; 0; 448956579989679561983082698047; 1;
   1424481502938881727594937577; 0; 455317455171977451468676986238; 0; 213733595332816505852942647920].
Definition h1_P1 : list Z :=
  [0; 0; 0; 0; 0; 0; 0; 0; 0; 1708344418582349012271104; 0; 203; 213412717120593336970018638527; 24050719636170655924224;
   0; 0; 1459186828943190141426228588; 1; 862365351195949104263107403214; 925194572144073011430359313;
   872954290686710565746020301743; 1; 251419116997104809327993955867; 419803614965810418625903124214;
   1653389863587942494547534405; 0; 635150570310473815521930263342; 324865823585026442297238150774; 0;
   36252142494860058025531023672; 43054946394172747665586831487; 83938609865182048562212017589;
   462986511515173660530655107146; 0; 386889895807965375345178972; 0; 110587527399166747666871302213; 1;
   173086468012141016839283503909; 0; 576383364765193310871124714099; 1; 434325053267820960531580704376;
   131291279348974158583543053288; 17184515324984802708378898747; 98906477223531569933912648229; 1;
   561176208696992044980850406360; 1; 71928124812999982757474823341; 10112384624187366006002248124;
   876524915894226424428117268816; 2637883093047129222189972772; 1; 43253608185290766256577783146; 1;
   205985089439062821311077913346; 163122476340310329519896192880; 305392506728200833376829141905;
   95690519637292927488853850961; 104783550644414134900938975885; 0; 116479464677967937978170304; 1;
   397141566573847963753038145448; 0; 203510732766670333227913246210; 495506580283177613942952240464; 0;
   280079879391276814971587032069; 722248819115517684517463665481; 1; 311475924363001677117538903534;
   102306326901772232601034353965; 0; 758612919711146769125296082928; 0; 83310172448095947879098967197; 0;
   869757407292326726029228447476; 0; 37078822493660517368573848143; 1; 600806130441446177705151286440; 0;
   711860723995493075163443011178; 0; 20511619078278065143362588961; 0; 814104003840882469137061041036; 0;
   5242806871684801008468473727; 258249546923175256238054889509; 1; 207391479684938642474117309268;
   12939792824805095016632031755; 0; 479057174879099524326407626542; 15791903384809772785708412335;
   755185727902852834470581905644; 0; 524797557827159159453529629604; 1; 40623758007589588197441539; 1;
   14409521786374064160349037125; 0; 22080264423345598189747055517; 0; 242051985481047137302666271;
   647172899165512372234341095306; 0; 516093881250399576026916658949; 0; 412630878571665503992413936106;
   394217664328464288862311559066; 0; 590964106518263880227488950625; 1; 354242140834809382646813488932; 1;
   15586760115046542958572056687; 0; 99394240752865305273068457975; 130279116253122108659123623262; 0;
   238414169930128308817213810730; 1; 846091628797588687418257998903; 0; 17721455351172731345527029617;
   9597738935574315365579375077; 1; 6612617649025242219058678292; 0; 225323290582306472217085000821; 0;
   50617987550403836776816374568; 127957250636756514322035294668; 0; 55988568561686805698404125357; 0;
   7634992965969538034739974062; 1; 63292610083928032094368693362; 1; 7723375798083795476773356099;
   29957917017913978031320620671; 1; 10974029652940508518053300384; 1; 350215908475199564958551475835; 1;
   155013556774684872162321553782; 6581673850244085055762575637; 0; 257932986019644005267597358668; 1; 0].
Lemma prime_P1 : prime 897064739519922787230182993783.
Proof. apply (cert1_ok 897064739519922787230182993783 2 4024685905107147541 779171088784275230984760184720 109801288309205509110354138313 h0_P1 h1_P1 prime_P2). vm_compute. reflexivity. Qed.

Definition h0_P1305 : list Z :=
  [0; 0; 0; 0; 0; 0; 0; 0; 0; 1125899906842624; 0; 0; 2951479051793528258560000; 0; 640000000000; 0; 0; 1232595164407;
   939820671730682807126762685836007274124; 905537948148396708243615232764304136338;
   749138155314556973979971704978132721887; 1113469841717426608938429450154111439956; 1;
   787415571827322537389158598195018018517; 1; 1790907226059224907456415941991527898;
   29548066241350472129894905253219688174; 85312257152858470644297881359944418236;
   61757672854589935102889078214157272510; 1; 293245904963443321939795683517083156878;
   8038397119132097200320059030324301133; 702908403661056094177222880940036432097; 0;
   1122776439646586710870365194473290893507; 225327117566354954064441940725530507631; 0;
   159359695207228167673029833202120858792; 34048656299467467410614760889185416645; 0;
   142230554209823266699045370793054730248; 1; 541963625404103067775176488512822576338].
Definition h1_P1305 : list Z :=
  [0; 0; 0; 0; 0; 0; 0; 0; 0; 0; 0; 0; 21267647932558653966460912964485513216; 0; 33230699894622896822595176507008614400;
   0; 81129638414606681695789005144064000000; 0; 483570327845851669882470400000000000001; 1;
   415814722402684491733261867543655612434; 0; 64534977364863927197087745842728817723; 1;
   49714263587454200201319660147381709049; 1; 906321814081183845884973734775387566645; 0;
   7149873947448214539221407266044871493; 0; 271374042620146501066413197281453420984; 0;
   835901088109507845372376267636728109420; 0; 916040077326885228379755969967309952990; 0;
   207610117207573983578259174070813662048; 1; 859899433049898825646319726182957434977; 1;
   3009588188826930373987002829570353739; 0; 891509753752129291100216626120326582732; 1;
   211516031781826035262099133339583882670; 0; 50986607050971633087056174811898717961; 0;
   18802756860743185291929796181512410990; 0; 120543447906202125748089766840300502086; 0;
   416581794931530595006473762115450867559; 0; 98779112031983417001884568513849484919; 0;
   147798873651344134870017029248087006121; 1; 700023062001568125287179053352147618295; 0;
   35663982629914212588796786461452193228; 0; 871811189377190432867584098935149599149; 1;
   1081551728028980583300294761318341634120; 0; 390817214046306880210127011584448134573; 0;
   1183265419578659876968393869463230195227; 0; 1019344411642528237972863958390059731169; 0;
   1227539635451324455260269313251803805557; 0; 518391166500963369969784681770849744123; 0;
   900667473781812978823873158851548914058; 1; 978120447731356526805841482608991089849; 1;
   487968598586179348925430355030202041612; 0; 1170759536251091496907218790045133584273; 0;
   132940382286171118114075065426292471699; 1; 592448265452497363075734313441108786462; 0;
   330060442488727854444366892959742619576; 1; 266644423447631821528066936557917819230; 1;
   635146667512354676413119459925447759048; 1; 924639849578883169885699689254212694784; 0;
   538232969949039569320687213261611920474; 0; 7427801154263318791238240771285216959; 1;
   1011906539619219442102249349893645277692; 0; 481039444451977614512887736674876431624; 1;
   78957231711723858879465516379392734991; 1; 577327412316669215406154614279831857634; 1;
   628680042381094719116253274346534681526; 0; 66811745376902554716223477405674394744; 0;
   126718092079148636259552769793534700927; 0; 155387777693383526366452931080837060591; 0;
   471426902553041601251781805457601377950; 0; 530754315157888889209435327732353664705; 0;
   151434886497448871845050154897473227752; 1; 812008983227052383238498109042086210330; 0;
   1086674221268307687358540244487660949687; 1; 638294145542182090996021887090378350438; 1;
   660080219843091612635035789125795269; 0; 918020998991461410673413667551087206119; 0;
   1097675071389128210260495493076798286; 0; 15792821581702553965698356430121601511; 1;
   4767598569734508532019025141158976657; 1; 201578616650094493071957451031783332597; 0;
   47593127720225237896322660667384904; 0; 555149988003057540348631519460990288932; 0;
   274210119603157577440702157185756875874; 1; 330119893306712931447741414374843780; 0;
   1140704161728081106044819226310121490254; 0; 334844938012794910238945900555873602493; 1;
   595382267386642091863941462655642495060; 0; 42779551821970220821530610652334422263; 1;
   45564078007998365437104973848842397684; 0; 425819927518656074791966561875993053097; 0;
   8204329249367909771850997836084484049; 1; 8860692641750945884988389677860432157; 1;
   1041254721721166763147472893273229861268; 0; 486216124747963893534258499978287412330; 1;
   36667295940062313072426463918862015201; 1; 84024237803814538679670681656681378602; 1;
   118618295706447027338130698511003334372; 1; 97889777103585958755058493036671982032; 1;
   100580047397488417416817077129160489895; 0; 288274174195353806715554833753503419626; 0;
   169829302934427598253660214935161523133; 0; 623799432924503823849897754857824873208; 1;
   10795097675427983305446854181286953602; 1; 312341969128022124083667349165637526243; 0;
   1657536478509743665915195653404796644; 0; 871790840181901315398681671078234164491; 1;
   406130038085968534654908518227602349775; 1; 740799430944835584509734555219565591514; 1;
   167194902766862489472213698393952468638; 0; 325021905478317707900975706271230870156; 0;
   706677214673369931147587703616295059112; 0; 871886038396004362754898558604595800662; 1;
   1077371968669481957579854894312138826014; 0; 386720065119467557026251804251232282061; 1;
   1132752940239118518499030399856947466245; 1; 1000871372128045761864763683992017023957; 1;
   188892705949371228633602527278232; 1; 28552709814286443751335793912431108159; 1;
   1164967804335404582869951665384951205031; 1; 1151115649698964107565527906812240956578; 0;
   587801124095342588889154529877584650033; 1; 183502961785624244722402572097456406961; 0;
   550138645787843557038269447762867420300; 0; 75395744051829982160139529875236591212; 0;
   72993822941657866442396483821266264787; 1; 403393087130727334408807106105008684136; 0;
   624651898813512266765139028265470048666; 1; 458988559631358558468997551004554318709; 0;
   718867058959102031037441828694011520580; 1; 358769704178661881581034314562602000624; 0;
   405738979204737778414748584855171344567; 0; 896519150299676265716749826445886574305; 1;
   28404772256183549459430622479923185135; 1; 69913634465817988804536658027714029523; 0;
   751408559391242183684651564585383864088; 0; 587162703187322039656483370514581030574; 0;
   1239324281255773414999297359663841046028; 1328402817248402042295085002463347469385; 0;
   1361129467683753853853498429727072845817].
Lemma prime_P1305 : prime P1305.
Proof. apply (cert1_ok P1305 2 897064739519922787230182993783 15340630709746432533628977078564628162 14875717652702181638006664070687273817 h0_P1305 h1_P1305 prime_P1). vm_compute. reflexivity. Qed.
