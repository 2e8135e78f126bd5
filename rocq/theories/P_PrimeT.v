(** The primality certificate of the order of a point of the twist (generated; checked by [cert1_ok], [cert2_ok]). *)
From Verif Require Import BaseFacts P_Slp P_Prime P_PrimeP S_Edwards S_Twist.
From Coq Require Import Znumtheory.

Lemma prime_28859 : prime 28859. Proof. apply (trial_prime 200); [lia|vm_compute; reflexivity]. Qed.
Lemma prime_2281 : prime 2281. Proof. apply (trial_prime 200); [lia|vm_compute; reflexivity]. Qed.
Lemma prime_11351 : prime 11351. Proof. apply (trial_prime 200); [lia|vm_compute; reflexivity]. Qed.
Lemma prime_3637 : prime 3637. Proof. apply (trial_prime 200); [lia|vm_compute; reflexivity]. Qed.
Definition h0_T5 : list Z :=
  [0; 0; 0; 0; 0; 0; 0; 14611836453; 2256967838363; 0; 188108704776; 3258669380334; 0; 55635874673; 1; 1290176434545;
   822269743220; 0; 17130412807; 0; 124545051250; 2388060204648; 1; 141953025764].
Definition h1_T5 : list Z :=
  [2796062461838; 102128757887; 1545096861899; 310696900177; 1568902208747; 173792055450; 1959109921541; 586381619649;
   569170919391; 2583059613507; 123856140398; 1146825164781; 23812873; 2231466513795; 184325791002; 1181841245247].
Definition h2_T5 : list Z :=
  [2796062461838; 534376633287; 640555127352; 2429477267626; 2093097808722; 20137312350; 305928094984; 441480632963;
   1225844733025; 1092214201157; 2002675175637; 1353844763567; 1216067421827; 785658813023; 1153519874153; 1796436108478;
   1091581057341; 3190968570230; 277419203289; 557063494126; 3165141864828; 648078050973].
Definition h3_T5 : list Z :=
  [1119266291386; 67041270855; 923178188779; 998664277299; 1428084667149; 108982612561; 197407584592; 3072343616019;
   441411429802; 303768929101; 2824996988708; 1815415603848; 5760733670; 44020050969; 67434041264; 1564216003216].
Lemma prime_T5 : prime 5171003929967.
Proof. apply (cert2_ok 5171003929967 2 28859 2281 903777470480 822687911537 1408483455690 655286209537 h0_T5 h1_T5 h2_T5 h3_T5 prime_28859 prime_2281). vm_compute. reflexivity. Qed.

Definition h0_T4 : list Z :=
  [0; 0; 0; 0; 0; 0; 3; 1651181490255881344; 0; 13194879820874155864; 11649323198218409897; 10080853913555355315; 0;
   20336784953333654246; 15582024847704070105; 8376997694344574768; 1; 14964716636225006370; 1; 4063209950642592387;
   9513049570411986381; 16945457704957555205; 1343120647042251649; 621464098578043915; 2680221697087420289; 0;
   3378167980638821914; 1; 3511769328927425637].
Definition h1_T4 : list Z :=
  [0; 0; 0; 0; 0; 0; 0; 0; 13396; 199493681323525032; 16205736460347210809; 0; 18006919860980159224; 8664917154349499909;
   21405508480848238909; 241485861044497; 0; 8706410629910397479; 0; 2239894056041866736; 88005899153135964;
   18267542002848622318; 0; 17045821905533970176; 1015866776892180922; 1; 2289123990544122028; 574576916616248732; 0;
   18893049398806890974; 0; 508179983698921976; 2079280256212597682; 506799867148120695; 1; 1737360635420117451; 0;
   4757940581042257694; 0; 212761963892829140; 1712076029276046805; 8741540912761137929; 0; 16177252236234663043;
   21379927953426844650; 0; 579986321364847217; 0; 4745048900831212775; 0; 13513894487347010048; 1; 1547502771788052059;
   0; 6512343785233056982; 12942471850836571534; 4974737564081957124; 9616118323773218485; 0; 4964614317871537848;
   8996640174724655102; 10149924238545586311; 0; 20849685825815074677; 0; 6043219013315551467; 9968465269131496119; 0;
   6805832483502359089; 1976085201829919975; 10692380629068510858; 0; 5122073342300998710; 1; 14004368418074415925; 0;
   5712122419540791393; 0; 4303278273705223685; 1; 1935480353084703; 0; 8201396743799029082; 1; 3997642980851074140;
   8033834142985603036; 0; 13169132703018047538; 0; 11270601576282928102; 10584335444410644343; 17556184621698656257; 0;
   11930303025489092217; 0; 3126996668545982543; 1791031794844305148; 0; 22561162540501040537].
Lemma prime_T4 : prime 22561162540501040539.
Proof. apply (cert1_ok 22561162540501040539 2 5171003929967 10911148973215549673 910145852424851360 h0_T4 h1_T4 prime_T5). vm_compute. reflexivity. Qed.

Definition h0_T4r : list Z :=
  [0; 0; 0; 0; 0].
Definition h1_T4r : list Z :=
  [92; 124829; 191483355; 85201; 555045431; 141462780; 4069475; 89215284; 230280; 669632364; 218627; 4234009; 308065464;
   228493; 604498274; 217690119; 135850].
Definition h2_T4r : list Z :=
  [92; 168501822; 25247; 355409411; 100373; 14637349; 5165743; 70915645; 60323431; 227957; 148938579; 95930182; 231064;
   480842428; 207519059; 136361; 34514440; 118665; 137559061; 12946].
Definition h3_T4r : list Z :=
  [54310033; 14470752; 616261513; 152053319; 21431477; 26236; 108463642; 2597089; 92329539; 2026476; 27404178; 331569654;
   25572899; 199248135; 49535177; 29828174; 103793557].
Lemma prime_T4r : prime 743104567.
Proof. apply (cert2_ok 743104567 2 11351 3637 39408624 31103369 444174805 120079532 h0_T4r h1_T4r h2_T4r h3_T4r prime_11351 prime_3637). vm_compute. reflexivity. Qed.

Definition h0_T3 : list Z :=
  [0; 0; 0; 0; 0; 0; 0; 0; 469854089207; 38895966719692041741135806379445169261715; 0;
   132942805737005966505526932069221545118918; 1; 57440327307100360035836889729427695922005; 1;
   88903775288886693435874706894553786285210; 0; 203249155243544347271706131408547028034540;
   118290093094034320342747063030385389600526; 152757332165582357596212830854827173006857;
   21224359588050904548185770021021810274352; 181884598811951530351111298862074937111218; 1;
   51284683067508585134711928356077363288858; 45341291297287854195093396940881745907614;
   155855395496346140146678694953731856932629; 52583877364472967565062079638918514520829;
   6814218135104044201614867337923632261133; 0; 80569288678567951868816087702475274098322; 0;
   4174801295018887357973259107016845509897; 1; 92939053758473389695956950512916969527409; 0;
   4094009903256697805830597251969570099210; 0; 4403352561492938508612996436516644179029; 0;
   68002997748860978448690212092133167907029; 12312157706473781545134781714807615346627; 1;
   83563227733646643019528998447433703636; 5746899834074235100649826583047753591521; 0;
   4587069112914493782770068199780465340370; 0; 35256650616090143434237768281439492329785;
   156580629902531831656238027311531529849276; 186785327154204848768708893081347229692868; 0;
   141500842692673477898922734199292631228762; 0; 39410362454677090593639428106087896397977;
   69608294361051805419273181712446948640056; 83205240059243130265645295084730529686627; 1;
   71428342254218227951999265393980458019337; 1; 2450167257123491862566068904609783581370; 1;
   37393079132124871939235500520740057223583; 1; 85807267175259843285682791524608473185432;
   73938705392446719361673810979896100982172].
Definition h1_T3 : list Z :=
  [178706576340631259842863442791839118758; 79068203797252120545335770632982668478088;
   5350463740302307972089859106299041512020; 1811523763893577582696342454070593191330;
   2723786308196230213261344758111551163449; 89347205287580178626214801508248503228314;
   119739820229284126674739698677555339095732; 134312722842246059825660672244968771726493;
   24132134274295662345485840636804313467172; 3063827944437486986324252336069765294418;
   118606074233640427431415584599755999536996; 731718474332723977082073611081152307221;
   184042516517118094219487353940104882440603; 3789341290464626505202093614588812911962;
   123394421448595673955021980022478309683206; 333469440154860406695578176017874784209;
   5923056844748151630771796719781552172602; 95430914120047730385750930667422082963074;
   7814986647193146280177216494038549461751; 1457462192338367931050450703641942193697;
   90318184002691362494225236600333016647484; 1868747499964353265881892482712098847209;
   480293133442106777781153975481335074277; 4258531880453482717194376593742611846065;
   36078876209747671951795084258541433062571; 47651679860249162707822955310404456668779;
   5541744540103651032802220704421318338990; 48246076780169132036287590704530001861543;
   116948269177212108280609878844465731463355; 15979821023714177370348568285828631566;
   204335887767369504861151345517061378012; 6010465533509229248454085793318250898150;
   969118374547585989068309665425045733993; 465021771247567842720902106124649174678;
   972065465521071464861709497479522070286; 114158457857566128827302094651118055996325;
   199259683944744182875687930117713884284950; 4558009795741322130443169073061121737447;
   117794062122557526944020469408758885413144; 2840793353301336155969430894458682927580;
   98814751203400362735381849923695931837609; 1331073825801426728766319508892729964945].
Definition h2_T3 : list Z :=
  [178706576340631259842863442791839118758; 79068203797252120545335770632982668478088;
   160192550394581859302721050409938758494782; 5971058406868149136788420133790699399440;
   51670864984413163777843324061142791220151; 2289154220470902586381096367086699019310;
   90068367641875175890580812701064343154507; 1371349160155852857721348563610958625751;
   16927904490695106561552680326300675130285; 6428538980324128471164292961627021061;
   36174481719732572967762711959517019319543; 4242618643848970725988663733730884439505;
   89656098276082241730191124782579376528095; 167622739164914617595255027338841416638633;
   111655971162985548371644749677432682336920; 5925722539520694213566940045954478558166;
   1567233000000669537916675445112941917167; 69054786185389997124947422017921456706115;
   4886268212671664257204308268287342792366; 184833703350458131494178893897041633197395;
   20911204939144543071253950157218901593116; 171299947764505495521905829984584002405320;
   5646011606640118713483681569179870862068; 1946686456976149368433494777907190961918;
   164662022893325437396028629910196144168921; 216212313744250641559452916275925881995;
   6562870644327675115793724598909290612265; 52579031667491816639215397997614279063933;
   4875319579004309867165258129592701534388; 51028430152178513722609597251702300824418;
   760218784327955208183154145204322084624; 10841943569561335110472049872363405506416;
   202189120380101132307337224988178065236839; 644770723345341966556631410395859341926;
   3810023061653870483631891756659529913972; 5105211965352848974400015185949618562846;
   3000662246497808249589799122553189339749; 141731137047937760114600886830896324466939;
   3389607837758516851614446683126191413912; 73550962618286553436055311337514414533082;
   19003026048304291867336402502044332192644; 38306046820802334630148961202453976447341;
   467147050225849705216428545815324023404; 149635491715280537105043753775719175507646;
   3051498265453326218700312083725095028813; 1178430178951932682464295699729508511406;
   99037982325367454686168393960197327044824; 4027163389523533419573091125867791483288;
   18157909761239702219427309575000793861; 118382023302758767190236996579933807951;
   156629993352952226497942330925632461541638; 4763762175437279212360357503974684549264;
   25173550094082014134340779350158560584437; 1685187047984295147054793312979198106568;
   106725890498011063671202665949806784338670; 93020711478028788375459741452420171480613;
   169510676395051497925664335931448423551946; 47656432808320049791387580424140958037132;
   2371744602427262263805376037346248831402; 64433862139367875295442333771335771939;
   67590984296596353986937595658226788545435; 56760728148140476118406060734903550659201;
   2050206765072734444530509207016511819774; 76653017904606290592012417035925221775615;
   2856566085987086064648609080473407724843; 115403001089805835273207133227480768480888;
   16057681387326347323976670861699284522953; 3825890636507507104808200834193825382312;
   146470679515818940045542892853715223271017; 139076447211586491240119919126002481878;
   50407553501654663739889136391112762457821; 5073463049631479889861791897593396484671;
   31008922080799408572114529596294556111667; 5633485050140768225621088704403207186222;
   60351508800338517735147539275297304496764; 4120924573903411935404538338166391046261;
   102381365986864383980428211293379674085696; 4561372371338833228954968328209239692495;
   158135324852125295783043596082874653334297; 2473139946274541492516619362424501856421;
   15621756925120788524164550991366922964825; 1554118228046143610202409151454515999487;
   78077038091164561253586191498923889864639; 412253479437934602207492112136061671576;
   62443727108209876678161798011482320692794; 90402686293744805314843970820003145771048;
   3741336722975071117307953195579437125510; 317031322004710558643328503162749749733;
   2499649275147142093112434788487026237452; 99800463400403230597973071650773742893728;
   112792153290188167722688365477014323661408; 201469792112676107605354923846012521021080;
   2204665570877379293014900428190350578599; 4675460839726845508186411969042595155959;
   2477953241841005371202889626215206750494; 27230582014402822123689690376579389770589;
   1768742687324282701603319964389437503662; 3491545244446211215735072829966984218539;
   185976098231824262708122475935248345532412; 5134496714032116226465937354579612325483].
Definition h3_T3 : list Z :=
  [7064407606953666883057730131086251492969; 171672089596241319269020607713000393523290;
   1966059325131162929493309443655298100747; 41481576142679064949113389766042323259128;
   28296204212625731634821099948686414784160; 2504805634442583280931960559917155846017;
   20196000250487474761464030196033422950168; 627952139275823486973657748385988960859;
   4770645196487329246527451416600205464205; 22458405484799672926198106897824919948594;
   33512822750189012130791553807622341096713; 13418791472061580232016869210392342573981;
   67272186084870766019951776801233589754940; 4538321146040802941126634334383596532298;
   23223680823021749841184179602862628590782; 75785419415033343907594269129167063965244;
   15414934878715561411729326135650904915402; 192178226339530845507904498722652912683957;
   17397966177524778812227790434865521259832; 7465352064679183398121574313909623179115;
   161784752553936405832364709655649008150299; 14450331740671584773019006256496011516173;
   73907246523860842887023967943549193057572; 18315019830385120269852938966817618885324;
   99659131016435768860530458860024259612783; 128682994304816248340932938211811174216137;
   29111105663726804186865283390300576435250; 113788824860210170574339314785336807834952;
   167719062865297645206826250465735587784918; 40471504040730090083232733785129675477338;
   2697456030647655434522827766789093452873; 39227358407950353030086907634995440979771;
   34408272940470180907251708101312393092826; 144503042595597247475226486554943491959005;
   36513557411017445275741055893588535805755; 26521302479233651954549296660904273803389;
   168827273290888634305966235994263463954759; 11845048699895477799305534183722586327975;
   83703692498884466619301746897035404275468; 5218469260241837810055384216946525025792;
   29019888367196337045500626723167423500701; 10826472689241361937691561842559359915555].
Lemma prime_T3 : prime 203852586375664218368381551393371968928013.
Proof. apply (cert2_ok 203852586375664218368381551393371968928013 2 22561162540501040539 743104567 84135128262208942516925982890077989530087 40060563698608791604812275281306182926646 67925316354490544927699458618610144406089 12644784480402310874859749840415294239999 h0_T3 h1_T3 h2_T3 h3_T3 prime_T4 prime_T4r). vm_compute. reflexivity. Qed.

Definition h0_T2 : list Z :=
  [0; 0; 0; 0; 0; 0; 0; 0; 0; 0; 0; 17277190599279298455053207310; 459345757801537197518552230; 1;
   1381882715137907280093083177537127197472873845; 0; 20730501862977814318138683123214118889059941199;
   21572361759605857845766436225022927878172273912; 1; 2287421557136363733616045894847279092760939361;
   55487519181172774565068141967409401571898188058; 1; 1378672628365206870641810780273026691092496950;
   4075488185572781231447101310801922009222691626; 12816523954136430737070856520263300617541344185; 0;
   10636867736777147793467455240500459198267184592; 624509944586577759031404868947453806272360053].
Definition h1_T2 : list Z :=
  [0; 0; 0; 0; 0; 0; 0; 0; 0; 75985887836839145507099495768430728970531; 0;
   33808376168514586999818143138908907311039589784; 77507442717840719354322084240439507818883621600; 1;
   363002822863859343974456974552391867827312047; 1; 33544223864592957475524739116490139553039875; 0;
   6093744748516994797391389471444993950350432811; 1; 479654658432182200304599027674949410976891999; 1;
   1394031707200943543568377407307856350947905879; 102718103466923718358060170189483738136413139;
   34422791876691919464034513963847002002982266564; 45180795263193689890495323054728687709297015603; 1;
   14988332114389025731591126450020586454208543738; 17092228154265201422284335949968085441458001973;
   75316519539713499527022414669064177211598003274; 66425883080550905707370378151127726684257914494;
   54715659455418590367332883701816399970811556111; 18222975082106568416105369357364221926700307995;
   16737557833700844849891496782208462095848291216; 90800166281470594404829479369945737926018365787;
   80174927516358463813564556863308864770055586671; 1; 9671344783290994093445803085466126472532331548;
   104699651152579406443593181731775788087614600889; 1; 44508679593915678811212823202243678906543851877;
   2110209660990455557750024729271560643566141427; 0; 42806619256938604516798127803308743525135938787;
   44845885664505133212783864691426149134160414376; 0; 13518672424053469787562730254079100920089974798;
   41801631407425718598329758914110500105804830832; 8718300770912914000194727661463696250922407; 1;
   17843746860474300369747036623174454466717405662; 0; 7462879115598212765624767140466111581105897358;
   91218059382918240946222323034603226655479585992; 29938265402389167307744442638842279546685900479; 0;
   10261320557468323830878553246706646778846860756; 0; 63121313460499639529705204613243510114333148649; 1;
   70036591905735956139990678223855293088529383589; 1; 67660995531103999613948631465462764044085566301; 0;
   11519855204655774479001098468430304605846305362; 0; 40333737514026976498643898654385924295352315647; 0;
   16580892357534547222822082413134875067120065234; 0; 2758961919855536497034401515058338951274199944; 1;
   67391109813827890351146159137992365568253917516; 1224023630504455220794041714771947875223055366; 1;
   101959912463259598421887305764411165920377482573; 65190357009720704572508442353305161961722615879;
   1735782291085510058147846650801831197562214666; 1; 15508296989177776156763105483958054052812403746; 1;
   111306433728379734035390979688460515874698629; 0; 29572032458758809464873976643444158995233838758; 1;
   13076278281943367799744522511826186640034370492; 10159399471007971145954454853163411807232223934;
   8683116179238097595943768355030890756977969759; 6243186650714613225939065709102703019039568534;
   68491478793536493721237491069765669073477808173; 1; 97349593672936118787767975784186462177598437591; 0;
   17391430301585809143568698825190694244722356506; 39510129543144513948116722442100435667419150774; 1;
   6963556477494654616389475731333907075041878438; 46907430004184164427110478642080251198469370554;
   70567786613826197624565886264642227425255514954; 0; 13734743519840834904104385697161321623082837870;
   100283146548651178716229409891566269289676915946; 1; 35051345902846763499393349973070588776071607269; 0;
   37689653320476472616889877045369772339834693037; 5509703263776524485122626101227670752286522351; 0;
   570288228199353892012667147072443608867839174; 4068587507324138973881822613097252202695895393;
   86048465712383628240925416219653188044823648795; 1; 45626366411711076267120305855952888719314689822; 0;
   89868857080926984990059677581000422343999985100; 1; 40461986962779772521042663051835482914301353946;
   11053210327737030615976597707854745975882006030; 54892568381115792922588289929665193280021047619; 1;
   96866918046021092609642875114245191466628290302; 22542728733394183295789831201333781594578117393;
   28304377958567473469663243083837223357465807403; 1; 75717819588809835980393757305011205059405934068;
   30065898321602379075078819535686442975600710963; 53716338887440366831022834233929494147319429930;
   89592837456823350373525353139216187196933053288; 0; 89826323605361649039157777962474991999762057049; 0;
   59377864912625863631286346963268615453297031920; 99946667912963471926808806174220736100123100532; 1;
   14902668278381780944519867943344573420765252801; 1; 92337943237932392640154756273135321080934694605; 1;
   21806228208314671355584372245044056995500816391; 1; 454210366923354600617251227243927477082369535; 1;
   3605019273670900398017799900086631352913036834; 57459651125875325424289913218417414726264033661;
   38877007252660384290731410024270556434148238407; 0; 2907119854546312055607477023546064521326092820;
   43608550420405496537645879534487997212112210819; 19289258971558780754700072101472473671577030016;
   7536443653398342214928050037086838471665660138; 38462621760941885000507959151876356888663643919; 0;
   34135151376311747620171296070402523527915150705; 41172546484696631569959352785050272463478617418; 0;
   56753995699637664178274912712761247446707180011; 1; 10479087551051503361889383276587567429103952953;
   5147446172095501422804614939180720140728164802; 78380864222303569409027732792107105765746020785; 0;
   77316476524496841342675373435968442974587610426; 67105718490142270682356256999973941818420341570;
   77455708963921686574302061015021692621025909148; 1; 34280218914587797200029036707832051766125139084; 1;
   5840183402486550524984565046917879026521388239; 69676268754806246972125661046166388352185175825; 0;
   98183553215373494886968952149207432285462866; 0; 29281485154821826311355983023585030130500553031;
   1561667019059597237085592932664259340949883831; 1; 2129567637968377514284320402809053423292852446;
   498647413234950572257596108509363033148925165; 57067434175712392286397769142526571518949857566;
   16478467987683522279090303039558137326807570558; 10893846893092854186676049102699818838323841327;
   77668985472210533073365116217237454549219824827; 39483732851874796260045701675911372897197143880; 0;
   99196572515674034850315675015738187546535502878; 80761770142923825566591712844759996008244711919;
   5451547299291894795061609380463079265927395467; 8902457118846938021879400378701435341849687990; 0;
   39773886720183720214743946655580164271947531241; 48494508409767752259423939511788743943996491586; 1;
   41683245349034611129668876141382199289547876884; 22024294658984013694955112395036541401275611134; 1;
   38671744735490875580871196318992006839628215447; 36002705956218554966113121849186715049438934056; 1;
   9524943717798903395215340312134739703758536044; 4778231272946023688368559015603676605279320205;
   8411342004612322426647592171972015556763334446; 92810756415873108299682848975489847325316793495;
   1277665671941398553168023843812408775732411844; 22714860214381803800465102637987685970532218233; 1;
   90971119486055570045543678473426937266879948307; 51028059069163175653561399196006815341339078480; 1;
   19115776753139864090202748776420853067168858649; 1; 36170530989493914108599347203001184972707309686;
   92182950780159071455551364178419464082438902715; 1; 79190354843514808159693134913925276033960589483;
   6830852945330076741681068930094002936718830118; 0; 3731463250702360130965988303423087282002064162;
   95697284771474107462590917691321171346031596873; 86162765527942841523028317443266235505055692445; 0;
   31437063923038666188305073526275307721278582741; 20450649923270096781776262267513285682146740228; 1;
   90370209171692202969793245691216745636111779190; 495563876294828553652267303710650487395056082; 0;
   77886058162311240595623288558207832397106860784; 104719073621178708975837602950775180438320278099].
Lemma prime_T2 : prime 104719073621178708975837602950775180438320278101.
Proof. apply (cert1_ok 104719073621178708975837602950775180438320278101 2 203852586375664218368381551393371968928013 90084448839335833881019754118450260906209787307 34583693005473598373834468127909936834710471389 h0_T2 h1_T2 prime_T3). vm_compute. reflexivity. Qed.

Definition h0_T1 : list Z :=
  [0; 0; 0; 0; 0; 0; 0; 0; 0; 0; 0; 0; 1055982311820875449923032; 0; 1796814332602815869000212; 1;
   22835250704997284992262862206938486171504649360102560; 4080807252692033372536738708848614408973958247187486; 1;
   7991653542197646976908419026282095092734777647976610; 4948709710675005159663476313222302153448381164231844;
   218900715272905288965470059808247270590134442054424; 1; 16379592365136337016668620740128101516291018785297507;
   2463977919257107852811285553458649280524903394960136; 0; 962725306963994293470385659872416079450763359656183;
   25406355926919118101173833497445788121662958584154440].
Definition h1_T1 : list Z :=
  [0; 0; 0; 0; 0; 0; 0; 0; 0; 290266207643208593120557322058334208; 0; 135763452483573255405323519074979311389547961654;
   55987266621977365351211770484841948199278927582994; 16402072007134642185407003873560486238886909324711596;
   22267676132685102600096926153803358692030180209019711; 0; 1653814479782345313072371150794545443538459170294839;
   5563029507282847531165728713672679588539850694974215; 2912534384888985178296373234178114520626374782662932; 0;
   11872636964527801524988468686973016168670045804521842; 1; 191626061256975792017055797028208051760827623424398; 1;
   2450077524917422900334943244230502329204635767549233; 0; 6597070109606655124806106267976667462707528184200788; 0;
   10378121274452549283651223107328615552999268099084802; 8225661263477096790531884059595843157147918241910259; 1;
   182809598352941969883647617703303954231377486744109; 0; 9508444090217863431514346239282337585790998423516190;
   5599803730432914402458233567726294650558883313391051; 10034926654450166840931011322815539090291837562099657; 1;
   26744188105725540997484373846640687366860291518292471; 1; 56728733026280344816763493989630936629933364114471; 0;
   54939361758554764611026648343650665370223465989063; 1; 19470771160100642343102666741851592574789421547029837; 1;
   2975322190680088483694787280746971293739419223845500; 1; 26027080548116224194618521373793415461342829421151889; 0;
   611988657838705417336361033371661567110383818139661; 0; 13106978642592028369178778646652038037369462766477143; 0;
   410151300054048302464918614391305940249701891955846; 1; 11542508947719052101556198973128546729616173013042019;
   514061613558194802336044336311503822687737492269070; 16538673530592253860314568476723570988021744769544971; 1;
   231550282376208324929144234593089086672257196903334; 2974533056813550997741986981910982514305002078727944; 0;
   4842593524709412900902905818293786790360649818620528; 18240891217920325798050955162818146209336925053880501; 1;
   80762968356708520981288797826547287617268017560425; 0; 9360981029800725444924599462686091531319749897949203;
   76219441254627764749081177318935523972580087643572; 0; 13523595668629897410049160753581007094109201697388835; 0;
   199483637905837416889717326664586555893332901081507; 12420325675521695516699232949823865374043758263469597; 0;
   237390912468809054995385626940947834626978604890991; 17500015392559396698026832783679135834823836479671917; 1;
   12501271383433544286819307192564397482499248141211765; 17292837864808307133332511487767004725825206959796248;
   10233440836823225716573989903999022126369906360874145; 0; 997392430746170204005837506445383323673904828061534;
   1510000447471100304463247122118260008994254485279; 3378274992145540581188623752284600216389518273334880;
   21342898547633653185682882215204045228524288415841154; 0; 26569172685326011823309526114024148457246752267117865;
   4477720805345171882873771204625352685811699087579933; 1; 1700620612289563243465916720015382439628329351495833;
   12598284740333881356576988741407087380749559402799140; 501383983440083504747804780805544251867619645362285; 1;
   22966334224680880693268767799414939362579856165404699; 0; 3100081538972024444571084495336250470787708717691773;
   6534760520048565966532832578540012062796466133552970; 309721875892411573094415778923855883430866051820452;
   20839633708586914703243667945870678700595146396609253; 10019747091991300723328832257109083672135408572999704;
   25324080615336940431023065637710316017029288478666452; 1; 1695978773961353633375178184713604085928485624834250;
   9089300050971597541776346156348871196147379361960693; 435070645948322706626203122416083011003034841843112; 0;
   7472815185256859157989654829166107003591375143304889; 0; 10011633885849798922055960826254904445448825359495277; 1;
   12003592556163043672597708065924512465595447647841775; 546009786839164816844524592198046901319164579028792;
   5265975601722838311059227549792768881065605566901874; 1832218546235646755653656655580317022110883983710085; 0;
   24233061615585392374915794201390561060170447356233710; 9171324761864557944522182960333694277382933151167381; 1;
   5371485508283741157308818208832315483397595467823733; 21330377535112092238229544172108854371225920704273428;
   5550181559212176816517890974623144478863801533404434; 28919356297006203689690058380008472192700556894286;
   17533896365425004417524999920026953323075867080345693; 0; 467317041775853824998868399695872584022630888927504;
   25724273951298459354096280112728120462744753653723834; 38343932706689876216741884100455292537631867735393;
   16443664228387464407867174398477656086446480331457708; 25168369449305810048984829426801829596187013317737568;
   9673696988921643397023274842534702320621252059086120; 22071016118307575646995433783844715610054230102226979; 1;
   118485933350732623016173714980144621611601694321769; 10695797973123494372341909274963695994370950922601004; 1;
   8729416317598834515786737716887408776832090014155250; 0; 27191957717085854186524002229237547651357283181372307;
   729977502377141174887821419041416807517438881532178; 1173767855369366186628570880388977775586084639687258; 1;
   24949981014812841933837193375717898386937837922910394; 1; 4787441718332195542167791390901003940971535878254120; 1;
   11539320766008294305676306179048126535339343674954375; 26193113446072122334573567412859315502137708502246682; 0;
   20656540177399201021502189807292544954263538140380677; 360097264678222668200352816536696206967014648698242;
   13079099336931794319097455920147883088342951997073415; 8683478411121275995451640496669336839641361332915130;
   115433408502061718618652000633303485475637946740709; 0; 5263835592182862605711876951082201971231139645771197;
   279369360616394346760234894760427722947138343886609; 23989601445869953339357181880833339537321139137165932; 0;
   18529397354846666539681396381791699568353744208816521; 0; 7442418987585282803162181640275738877489853674130; 1;
   19439798128555179675953453917229108287026658519845953; 1; 23199674832045689463689276571574246161446467292529947; 1;
   17554827347602745405053713334296680406213417239517324; 1; 20233743937025528834479753865543752339036588551010992; 1;
   24539179311810914800817849556693469639568701924940176; 4037403286079567054569528554022283096259416381762463; 1;
   5671954731304058807045391437515119368134963190909018; 0; 17812492479390194395459868473094389930147775712198242;
   1643939432008717795092870094854921948956910324181157; 6952683456909157774554571230124339779315617421612013; 0;
   277880710369208386049512260484913773054515528726706; 13826603036449550120624249394057133980269629508415803; 1;
   2808265112548734297533717533573249903882310603646085; 21599732277696437802009731092951438151427812857439352; 0;
   14166387614753055996916715436204491763190370794317185; 11573481376989324342867794318048853881961649572481858; 0;
   5075237087425621226462646305424082548378303003792266; 0; 23766660520769174659364157621435602548722005716945524;
   19233442712239227736104464161297628987084125381575896; 0; 17505002343059262525342474507923526332088573441832656;
   11815970923138644206763398313546137351811266396659459; 0; 8768179402937475007260059563911320220757664448844332;
   190210802818969062828972650064387764392295099047966; 1; 15799835427006446357947220962316153755395768627728686;
   123065872052838493940749940494412015509147829110089; 0; 3646417494809763616869862980184987115679674472189079; 1;
   5858374313381527275830720064233486091836184745047867; 0; 8829882973070778279263206875210294934845678196414615; 1;
   18010261435038093229248173553548344688427897361527012; 3036246188498088981862283081157608821126656865163479; 0;
   2718060938116988328369005341513002051139645039366181; 0; 13959322820633777253264814640948551044468956904558268;
   14912379045203402007037064572356110218066402081344323; 0; 25963529692173886537003730035234698957062879924047960; 1;
   1751739867858533125718840300007894261840229205206204; 0; 4578128090043529364374325335222598707806191970809302;
   587684808572427332915688124148276621220883295544565; 7733833848741134059537434894210604171151507950583581;
   5423629110015423336633536236805381396281912490452580; 290577544686943717237783930721089349194561847014470;
   26623373663818373100549620945078441876486027868798076; 0; 1784073587045172525953271301901829498151888801731373;
   295268543606474635742721563103391912855871086841953; 0; 1925122750411344592894001109506536329298171987766446;
   460633192407359672301595161122394326560391280104547; 6799311945163101100790839743103413726933594023814158;
   429430944019481529447330902812718010288482739968972; 12008923609671639167469667040209215084304418520887657; 0;
   2423575003276069801818767923056564225479157619339489; 1; 12654609212799552161489684057860750118699199406151013;
   11662794915574447477106846975923993110946908338176571; 1524498180319587593027664719869518406612664135374247; 1;
   630064998700590315947691419015678069147738207070105; 1; 22115549720811950256107910941401079439924139873009509; 0;
   5291412939303668608760659055889741901899607437829828; 0; 11210919201628732147557038863573488614604031415385604;
   2410307037688956147628257364150435833167305943001829; 7225077738293515969906126758290311748606613369645344; 1;
   1173333873131214919373015107315307211078508021792271; 10170731075874586716775189100161387906517304523441044;
   1795926287746146156845476857824397149983472953881270; 1; 7183705150984584627381907431297588599933891815525081;
   27413359092552162435694767700453926735143482401279779].
Lemma prime_T1 : prime 27413359092552162435694767700453926735143482401279781.
Proof. apply (cert1_ok 27413359092552162435694767700453926735143482401279781 2 104719073621178708975837602950775180438320278101 4031111370769809914916647399004588060065488295890678 888337516786242510057151565229838612726306685133523 h0_T1 h1_T1 prime_T2). vm_compute. reflexivity. Qed.

Definition h0_Lt : list Z :=
  [0; 0; 0; 0; 0; 0; 0; 0; 0; 0; 0; 0; 0; 12554203470773361527671578846415332832252836138854485564107; 0;
   4666770659030197928534013050654755671259044352562354225845048525179301190;
   146162881662306111899759907509962825379508134442731244685011695412722749234;
   5895919308498998225326468956278178193373781921494861560524663296878878978606; 0;
   5941844290227223213112209321328116706808423542937616442000717447641974293224; 0;
   8070395690581715891918737540565721637661905539978286725682309688905430755300; 1;
   31007917726304891529040868323437395205891865222511703927491369784241793855;
   856459295140121746573172558286908081989028695978977880179702411034698234891;
   1292435647481007684423201619539900731794555190007719792055674144906196724929; 1;
   4797054488989482879975945572905648554183093477163832687331851123932996415155; 0;
   6171648361801736242370699793079434503891785058005966122303581348852895843; 0;
   12421956720127537526639096033818328382447152678032287881236226051057808599388;
   22936409128284173664473650436080231524679750638378584811771920450312998161; 0;
   7411014236263681558525538375961032244544506361088914078779489014097627552061;
   13873037347204168184763570177092530630346219838402074522839356543538313408876; 0;
   6974644788329326135811775354010232944183799744794688813145256178687242923898;
   193128298989624496119791216523511818291012036349291958849098088748509600562;
   12565345997613542585484525749366504523885446665059731906587665357321296791650; 1;
   11035436743268806240434918329654491645249590625946669771466283026772693179751; 1;
   287706467730160783781617210788255561191805525273932907610500240504055028215; 0;
   7327441985047931465882441249859156562645716994402999227708382273778861550023;
   11322220967691282663100739892690353530286136779108698932424385858567669055974;
   14016367611540891505997817327500920181823392355871382799520035289418147193230; 1;
   118278339776023099256708497517400624879331161854785346053208497307400467689; 1;
   12208331306298959247527574913304270704479328301887494066378023864397062952551; 0;
   8165079987363323380811097716767203370938187368006601444947987624256338678736; 0;
   11733933484696385994310039497489523891456551998944380055357369170943494589910;
   2017540071166693706238910209037998383482668962927334176423557918935381339472;
   78807011097830842567050890257183590887347908985696962864734617960703138761;
   13241561336662625262092429372334051215975595092682519580274960157310149258612; 0;
   4003846996510424023065522267565504764604344823936883125898890955932695645474; 1;
   5721307912985453458682215661529887590175357530707263223630486308110702692767; 0;
   2105939998722480900639236697485779301341514335484280855211624618829932528088;
   331990282187672207752792726713753692140477231266858056555595933496587621304;
   371378295766708430092372516036554606248399899695879582127064259974720728680;
   734839067950983344651288840074605667136049807304063497137517833109301241105;
   5015425495091565443314757851556229998561308779967867225837070664909554664307;
   2311860647785943611843525755736617614478720883616808321278802619010280567159;
   28725980284378418528320049829989992644660652713726703137398765975105971302; 1;
   7457338017841641154480359317143458157312378193158932760201075204875635652821; 1;
   10502751579725812834554162171833707141035111406573744872767243449390910958950; 0;
   4614596293944554346989498125198423354220533657613506132310052536162274333414;
   2085442618269182341529270197359035672370746212777499067527561392021848342925; 1;
   743389251388643231909863597916383015428205591629233505440355748171457588344; 1;
   2300978242295976719195140646466825535623583155608079659091768204409550109477;
   2694632775844407341278833246621601551272232837771446151613442698494273815073;
   5468874260072367869367174828391261509716419888023380286626823329974345850910;
   5428892789839394487873634139880971443827108003398635823966950122147405733827; 1;
   5309510747868643227098882639718866144231369306220013236958234093846751414823; 0;
   12179937877746823539196670393116232868144582208641366004335248646296704864491;
   111705990652369564793946129880131123914560609710562023724641495021790331439; 1;
   7078370177927589793485215576055027156274320096537495693690645324747705106237; 1;
   593122675211526267827895648027750597035994755645737721988401386497223485155;
   4320409974749340701283078794695922742061127243930668019172319306081594021912; 0;
   7359581763175547083172011792465806362807094014857515176078844795165060016625; 1;
   794527033181711656693201618795697840066313716158831425851960669971317342741;
   169502421170648931613272633722698660172931908756237832544222886724193527439;
   815943846618506184577981982334977016549989994933340776452935070777850507060; 1;
   3620668743199316424338867292605432850846408462858875125381836017301473027828; 1;
   10112790061666870560599720355607941066055036251599508642706300891418319573917; 1;
   6287178542864805456455643465006671755588403229642923937793093905175100470903;
   1129159263198692193638225590968721439872066895363976469441682399096464114033; 0;
   79191477682135258408922714073029356514730872513993542005702387936875598266;
   5353903479434844586044788621566784000422223137848427015751998199928111102; 0;
   416443774168470426012583078769777553968851996583691238742952386784869009084; 1;
   13975505197859098252527675035885504908907878539422052363721193707544207610273; 0;
   10586594968528601450052036970595168756157695500150622488503428989497662370664;
   2898823434322294094361178009317885553627177246120228204239546010983681933895; 0;
   732585340503354750032283875093141691895183594732882292937863042374444651373; 0;
   9270198828706353644126957716312676571423291696936186996251067819049920496866;
   6599076262836258700459932932964070458574958204065468537042554278049114235281].
Definition h1_Lt : list Z :=
  [0; 0; 0; 0; 0; 0; 0; 0; 0; 0; 0; 0; 2; 0; 3; 0;
   9408180227841554590785595702771275236355595346801026984434820331572032446926; 0;
   2717691765050984770127467258389533115262254408216353959574255284318751788558; 1;
   14426729755521390798693911574679826342094960842608566007943245015898309636209; 1;
   11362658372142734558752865634681483130961104507227793505611706849586323266567; 1;
   1127908598655130092666059272579570847167282387344878639053012064184099530236; 0;
   5770770448982213511269656087165493142026754113228630557165120410345437701686; 1;
   3297023632161942666216477981086314503708020072746573303470374272200272405336; 0;
   17747431256213091875018035598373736787692831718962315324675108511611859557; 1;
   4227185711015449261784064056576474108313767405035594548260801426059621960402; 1;
   4650137054214127909256304891064328431484093842910434310124249220523650676595; 0;
   90883355997328803956216139712334195583587189600412667955786143280644127575; 0;
   8761824413889873734600751018283600858207138302318583601089714119805295895263; 1;
   6994786893214064707356833362395694066482824853416092631701247209259881584091; 1;
   761309024930444526439525247232868331763057478200499554879867889644353142000; 0;
   133636692061226316794231062634003811141167057985956918303787063915497512574; 1;
   7059296103563359969855951269516058672378129071150254333433686700451844370400; 1;
   8341424340507479295272599484768350194358928515567921201274637961826261370106; 1;
   14248268564353583469486525957852591497522026407824421569327785230413873553900; 1;
   185827429928137748533391935442899496334745441326688333757351026621104057; 0;
   612949524250883621860422827960580106747270284343891368827708790508682736473; 0;
   3863807098793389992444065939576265151965500459269268310102122176824470664097; 0;
   9950858671231548387028732183172753174862175772751837351917009236383289683353; 0;
   5430416779677541056236421966456827858611360883735108773711767734322047713917; 1;
   10068534972767803696926314722197426775755334533760580960415197704381950876673; 0;
   92750220421220768670679880803014877264495026842068502770200193538030557453; 0;
   96890974178637821774869852068734831675191284347811066900783583573853107260; 1;
   179947773640606411950953639187816945101938009470025940888426351790511111091; 1;
   8548677809685930533795509569587966263617708264578883706846859589103594419305; 1;
   1341368021614622340313715066987960067014230224101598903747054180097438112525; 0;
   11229142730105558319402220564288778138660344950541998571341688881644975396597; 1;
   25328762749369818510414694131696406404418627197742354428391966501376325928; 0;
   292931069385370306700878505716400978840661536100920501676405566448022500361; 1;
   571138951794416933199553418975776656885763249663802775154122170274474456472; 1;
   7850508264760325470140006855867995550639747369575397208392521321572347631423; 0;
   4463634676764191329895025286044954823970420223449272277590753769585731176729; 1;
   3358390118634776100128940996899724696059107224707043341398732815242611802182; 1;
   4686486429794938043809631267344966709872052075260220064373233482350730354013; 1;
   7713432277301212520951944645629905568386074838257389857639671185464157973124; 1;
   2023404592120500783217294294416257511363248065722935555628172820478430973433; 0;
   9899532411426626697732663657782317202156525111039048320717321535191233061485; 0;
   2689087313638091912603244066734202925659442178626705780562209540927110628234; 1;
   256719035743809117222470740166380770922631331046369228186911830259859154995; 1;
   10769840896945455174863135322604849069462673693056002149178374317688450232679; 1;
   2088743484958539842778811280647550046160137293187752720923569600986406660531; 1;
   4588586922958021240387428165879571341444547132461476262451771044100344484279; 1;
   92411729452515545135924977556617182775966674953645482220939217422366009939; 1;
   5880794406117381488449185705303322788617156829558974584423928796869409029617; 0;
   5699327756383887287694031834720975876228389583912008723314233622953471439584; 0;
   7542685624010224919503967622624662073137262809668813087009507095922556593710; 1;
   6250020225992567759556607669616219552764403396589033632131294749086263306824; 1;
   1542384518007120111917265832768202289067722666519639394779062721189128081986; 1;
   13168617151733787693732627233809439714245386557327863256259315286821908700248; 1;
   668398873024973749297387242692323798583271302064000182028521154338969085466; 0;
   3695325391333852354697502621879153034695985282613006284374246244227055491216; 0;
   4550492967907415953462080206852434955037239445673711075379794091012891468288; 1;
   479066331469540473248246908262996991332574457232659715329918695971166025035; 1;
   4144709832259583867833544277166673346370508579317931679015215802695255415155; 0;
   818258283330427319228406164157236698004655065507660251251079637725596296160; 1;
   367328615501005857687583690164773022951082088451085197966586817557226963994; 0;
   2531697834991304176580760298285452007149938749422196202928943942662257428596; 0;
   1680272575615587163806009770195228826490525228175346522851873335274008202751; 0;
   2354778199135510641650781147675057345895253191130345436308995880514813911391; 1;
   442031195749910006741578253921240340607201364817873250366128024429563231921; 0;
   4021844757393458000539952749956887259994855406079538912710409591133054548203; 0;
   3614520017075707690400612186546544478558349407607747631391761846509245444915; 0;
   8048080797460026422416299627863746174800138264523993200981887005776600672175; 1;
   417319936476679173691251052601123261293595873523084286758392972328939553948; 1;
   8565628792996048646958122342234582805057893259750538004899525828853882630617; 0;
   3394347503532447170557694704481583625395957751884458195041282848273453325; 1;
   10915722506536773939871743283795957415850287373696160518683014617030382440910; 1;
   7695664012998044949598467824655451519284982672446475267838680803486062541407; 1;
   6316715715263075765489496193537153267309302543509081385357600791260010411471; 0;
   199651237484431427617416331579500037090240274047111807273361955763571426957; 1;
   3637404247890204808390271215400153215150489644644601578777747681402735550689; 1;
   11090006297630839441361875598501172905470245948080072371715353498776723596604; 0;
   9787517635302599185976020317495636771097237263606495424435131622448633980708; 0;
   744782734142682236132006145910856250910319697002625464818453815176331570367; 0;
   503700231586326395654800614513589720924457697382662204296284484111152942886; 0;
   4189627883254069753082495386254724638501297854898182840141582137621829337073; 0;
   1504466082313535490990333348694603037141278094916540328173773838532863022016; 1;
   822991314942478604210138374601693388304923760913310007801128020152518358631; 1;
   3641574248980439170588628870927260637884229479369809493088342419111512258069; 1;
   150157416773659245594506889692573450186068907434163252928659628721729180834; 0;
   2633213958289494836023123463993875749063647293759517446715855832212496444228; 1;
   3182722720680778572562638546025520094158635195746006244674342218197751847851; 0;
   6492121987146735539606356316664131703098802443985238569682180715373807715887; 0;
   4459224303510632620794992551721943618278957659301278906358634801967918355015; 1;
   2108276514694279224707340965039299857777566526203349522802060653311252186536; 1;
   13290897493625860412121197525272234412014283360960026456531067958377525837524; 0;
   2931590963199905322100506035494177656711256015828656216539580032587697020729; 1;
   713861206618650114360294341455855232627853689804598142229871363879491994; 0;
   3823928003069332189856212619562603388722909030890545725593542961839823491222; 1;
   325911589478291236020789252881023276051584188484014495922543207970883338559; 1;
   11010485840965034108052400864436151539611155956515539615316820081235331276939; 0;
   4759307919261133722628779269551041623911391261911888949655082241885073201856; 1;
   1342167063866991494129678698588222535252131448695215425295061551618493145099; 0;
   779743489387297508247717495379601216791412625115547586515384377841011939; 1;
   13285071092118987681242370785847616082052868993747070298323484197855207255622; 0;
   6263574697458394543385194166454652214271214019983101636821398580004821486016; 0;
   1870660244284777248051115015363061225388582025067029395355694657363929978403; 0;
   12448563622017151655933771115937422964014601945341733222597860282612656017981; 0;
   12613377125119360187872273865244317685645438377885622803548675144173390503226; 1;
   13371919650017690905137280169145943135507714423311614712565972811676213127280; 0;
   313455972810980006524427941269327475353646522508135294828730571200836947325; 1;
   2420955498355244974744219756481534475453295150677301933257072813692669831012; 0;
   5054648157508825807809354857914308410306202036761205111568963497204327195720; 1;
   2940682619897200938164307702992552566041173274760915149414211531119089925590; 0;
   9977240734377589437025207921248550943081923388918775659218573088395754812123; 0;
   4814615989955791075896355431933585297353737709014147460571773923494560911739; 1;
   4632843733282928234372193262445172022755502603386401398370765465554730404072; 1;
   1909072527257111739434944309545216941486536391781302756239520629292134785372; 0;
   2164219374158476772140265988179790013666236500117965407832201404723703941679; 1;
   1713506037031680034954110798974759653211534924408889523281680720269768217728; 0;
   12973530630578521455637353252648097150193145346394385824588670657612615741699; 0;
   9928514968635442736139503497792715634815647777814085843425850735698726947847; 0;
   1832217434043325052902090132393802142917081814264464034100857961458240046322; 0;
   5071607786955838501013271157074304307237468107742292481927549473016202068197; 1;
   2196974899581481576380861834771887435550607811842201251895761204079808284020; 1;
   11593552340559590478052566195899371607885740371315640312754537300670151152374;
   111793699065290475046479442433847389659062858066758423880820031823265785589; 0;
   359921421418133405437696947689258796540575267354653612618480209557625471745;
   6385631654820723771034961716773208557382076719383183251038878756124506354621; 1;
   3991915776928773285450336801210209439580582934411311925133727396300523546415; 0;
   2968176499449310828201328883171904011560318368070875717648318195260029776019;
   8784865303770682249955263587601123594516225073923370863516639912122631570052;
   14018777521292212061553026446898990231295987451292362849537875337723497678448; 0;
   6104523485903957948187741751643804212935506830401037165908750548085278604856;
   516659510138367584482592438273064784779131804643135274574183293541321656040;
   1983068426869317780909490276710275407101533095679812676881491808267191753530;
   4301351507906629723741254824905227746790872403081075620524270027901188970074;
   697363654290904862047777168168623660610209306406874064146445423769702391693; 0;
   915641682084634590708705207355274779398131134496460154031653106395895536803;
   13342525386080504800243982121035407074943871555746217211456496569125710412966;
   7786006753868735881757264026357935489954200282951727877623750530314026070215;
   438771886908911927304505108729932132927779526208326955260634223391077719606;
   7181411462805853764650663671870572511619855898408354244464888726469577098231;
   13990251180292861258963701990556160803871617212602235145511569036022984209363; 1;
   5036053379890997234830176025336513056240541791371120317525741057989697012081; 0;
   25489874519356373686616450010846212159464850179820194861953080694331391922;
   1021878680125930062649004177509914667017202835828631023825717864976642908175;
   8732258180004351569221546903660888292469615910159257071298008986394256871708;
   38593470125242863507155797517478209601601508529289093876700904302239590515; 0;
   2146872823916005046012675434305823293608009109644233691647567907070682358476;
   9709757370234481660421195597666426406406204763314083537221099734754736948595;
   9879716363098965023621342265163034057596372589771995895359063256194311895202;
   8172152864751714157068402905757154302779379281433881645575678638337115566244;
   10130599048790264674470209128700438161234144520917799397084011686137577331822; 1;
   3010376349783398507218782934821470224408630559947225799302709496811338115;
   12771977302297432604422206019239055419792790063062398665446604472470728153688; 0;
   5682946191034723189285005246518275765306151919136609768823522130780078641504;
   4121685396693869679552301164694909279262504818249110158959564508659243325631; 0;
   7412766402691008836021786315263303460242688225475346222519843165124341072424; 1;
   3825615550030542309513093588449251859542474577120703360169877422954947690523; 0;
   973488329241924510190823409646536053169625124448187557005905358329262903048;
   10417807080593197301120547803895965903325052088914333195776784277638171694134; 1;
   2540656449337552214980483336653285148991817180511095423345037828172913109253;
   5889492022869725634836615292755080497314795650987534295787323088108420968733;
   11435839880814550153898246274392844372079825857584522978261343374094245314729;
   2965321648955437582564931944262535757656938591427207647561059836515240084474;
   4019172570043733918598903266929455272472902242246603540049397388184312310948; 1;
   8670508532363944314878088177337029348644930117066177919356898912080778049458;
   192716401679033907322810909688991481293298279954937704601982016176274937217;
   7445465235182786186119405753457755236963255429997748865492783497768522872984;
   10282599992293652394047263613966584225529156684403873485701677787310836104261;
   8863545534705822184774582965486089509561893364805752757241263311760988692286; 1;
   7089689770301723891852853486987292744685492447578988354835415688937662615069; 0;
   13863723685317532388384085683980665298214122748648820563300016846890062190235;
   4551638168871006400764660356659448795710868716977539355454146472235057075246;
   881070026824472411519638972188980275890833730801356090523159814458344368292;
   105746025412952869834587908808766867838105028682831836478403802545341540; 0;
   4487622066520181013781170494617309097200695007286450355188318657779239219657; 1;
   164477824890469066885090888477645397907221109470772556769782915196682242636;
   184097740625533671557433263181345712318752075772294526227122890302157203179;
   6500847538570245838253271676878039378116667461139702747895441347586918685146; 1;
   3224473043952529474950910740894772015715372862700665976457198389332718046973;
   2239897393419980063646828085726022516713838662388479039351443221103149691; 0;
   766094470489705688758651435207452455875396996152368459591060131584967739452;
   13556651146891510861375086886271323970749597759438876054351964922830521048177;
   11367001058446470309417139730637165384447977353801635873996719493101490403358; 0;
   3678793978704139027723193303498866967725098111818253229036732565333569554825; 0;
   1661645187699130561716929491192390645883236495980049436483903877646394114406;
   14221051971839816668467234151263156100880745122974052734255535874570102497350; 0;
   8669525747891247372616682945760568725129114928941931980018356196095725846253;
   145656603966321609280567748577886501415967089522064126642071652319171994675;
   3744960054312072075255474536834456453321741346334933736020174064221731073512; 0;
   1450042714275264720288075359148915965655204909392304359079611261116734009; 1;
   8204389815853663776149855332087994136709115500310047577862446115371721535674; 0;
   392851239125110152317817847954554364535218039753796904319529104629250934363; 0;
   173443171181840234254912707024105912213827547336300566584411103644521931810; 0;
   999303623512080157725186847977503026224909862316894146100824646384199684000; 0;
   10640090768015804369814310208998681168562305874181260459298734619712934911764;
   9263385974395327403151415905779962085671429282846896982163716205135517491010; 0;
   13412176440312981091546303196594323420939487241102576946040412181884238969715; 0;
   4651528659117432897153072036054145257529489427863982954518929904316119499245;
   11461926582205428736803827765348832666470731489443961527519545100416976546024; 1;
   875231064134372654341487092995593942321176059786706305905236272617994302106; 1;
   3513407789956799535611801978149100405858456445678503698168216345219148141268;
   6135564739860442180088010432670471575108151377537660481595785744624910444101;
   9699444904157474005207240555960212190887616849065587967729050997833970459127; 1;
   2100960084110371287540309331865715006061361788769060642976009866554181600128; 0;
   1332029636574351988497301392820694884398893616214816547028732570684229716308; 0;
   1033192104901395435448888507449920055712243371858650161247308659237862653469;
   6160032221874021522376888018976417218289222721415914674041286325198823830572;
   1176256611700166530349023593591370763047167306300579106326952937183335034633; 1;
   6119597993371475347745986977902897580990144607694257576228616874056102966186; 0;
   7005525909059407121505198923566597280706534850031762692335345132005180692643; 0;
   7522166415154285919425547013953159585649018419980703665253847248271000128860;
   1497001587381408945870338949915504907588696150269490144845963130661346421671;
   9676313960098436728980292805972454937880806315956757135951378007878099745705; 1;
   6933497322103334431932366974156721993277490171432955953659506160236577767155;
   2775284223356065331019621234274796697869275903241603058191438482154624806370; 0;
   10317015280415027910414362342184201406750507271238331441752344627216398091941; 0;
   4171807057327605996241196970668616701697056090973384299278392012778919314;
   10418128126889972282697582597467954925025122916754135932502337315120145738791; 0;
   2064321365652381926102147390316949226523777187493333384642911550490966176339;
   7236344420529738479105669834618801357888388204951471327142540005006798807917;
   7585338481137396327657904209018119725065589883546962827062351788031863990169;
   75717287191995861275373715849918119854168005729134894016594517992466108256; 0;
   9569828583081355227519506274802218128801105149511395507219830144025180589984; 0;
   13524787196117684128301282342423151638326418336438693430937667693816336519940;
   10331259628806516326714470703870763597482497172237683521660157806268828306877;
   2943862631151313915360017951483752882190552094288001228415693151635844328943;
   195856536404304288210671631935774418748418490777480393034062211559058685345;
   195573364663545867745452899953843754350435457475819098735810969268003580627; 1;
   8027618053053754123424579052426242424231065361019212180499593439522702709456;
   13510807648679653109206186379123158919731913330053722613414899677987449275551; 0;
   2971912235651822191940805900593176172518180853440263856475458118762870872082;
   204754928014630832094250197218387950727092986019410340471706420072431082447;
   9476002179913781231693663832203995621240329182347614592139613988986648379657;
   11468899195630001030375405171503938483982362180370452142229817425483456679659; 1;
   12891208313859016072345808066140623586030804656369162583992532076543677449411;
   5107340746855990097136324386264832238797894409141495558850319790940182531427; 1;
   9875938014728977988280831906774121533036897938960533458593801636555060765263; 1;
   1528609279448188074879234699726114895161637301637784584238797591870112374434;
   8746491737402317971750817717254021329171974519646662069403915639783128857973;
   1147573187724772675310799740897516822223668140589132904146538251746938667572;
   8197589058934595970545970894230035824596719062617361076982010389058962699455;
   1843072827820937663393814371177430189808959436150124524372131881761918978767;
   4855211050704284049653502389819035027126008458958514830351007859885908033619;
   2831521837136723272627252039647835030575358280452072595046182614841172773049; 1;
   1291989356843028857991682873542025245311471932375953362466773942609335884779; 1;
   522715032822415663810627315918729828758367924451499736870531143851802706914; 0;
   5562483751763272335406400720122896224049024807457493665041165146051366383944;
   14474011154664524427946373126085988481603263447650325797860494125407373907995].
Lemma prime_Lt : prime Lt.
Proof. apply (cert1_ok Lt 2 27413359092552162435694767700453926735143482401279781 8307753089984235906883625319683110648166756904703804161871045904830952184079 2112400263758461602731756487927027975276927494283901731780012084745615468733 h0_Lt h1_Lt prime_T1). vm_compute. reflexivity. Qed.
