(** The primality certificate of L, the order of the base point (generated; checked by [cert1_ok], [cert2_ok]). *)
From Verif Require Import BaseFacts P_Slp P_Prime P_PrimeP S_Edwards.
From Coq Require Import Znumtheory.

Lemma prime_531581 : prime 531581. Proof. apply (trial_prime 800); [lia|vm_compute; reflexivity]. Qed.
Lemma prime_1224481 : prime 1224481. Proof. apply (trial_prime 1200); [lia|vm_compute; reflexivity]. Qed.

Definition h0_L5 : list Z :=
  [0; 0; 0; 0; 0; 0; 0; 916; 790093815442079; 167088844938363; 0; 51077719329760; 1; 196029934769052; 113422476565892].
Definition h1_L5 : list Z :=
  [638428130084199; 884227631812466; 392980019801444; 946260470023392; 508517899519603; 770315464155287; 57297457175285;
   748399871851476; 4429132789983; 37039355169341; 1045482682701281; 115493127321094; 308020495879238; 2188710397925;
   47295615310912; 61269322852049; 327077940370350; 208979344440189; 162797930455809; 41305671683594; 242473941289038;
   227584895171982; 499707482268100; 746811614851265; 604471164741695; 126459047175026; 63969274188503; 477735446496142].
Definition h2_L5 : list Z :=
  [638428130084199; 884227631812466; 392980019801444; 777251119297766; 141307404989460; 732446679325830; 640961513394258;
   968007202407291; 1037652428693835; 688465776835747; 319813763234634; 99780854394859; 773980064998386; 550928323440077;
   299293908326225; 477019618208316; 47952561705281; 46507341385882; 44622742175792; 170411392301; 1044031467234148;
   100325479884811; 818124576959382; 522826417408178; 36502412765750; 669852613407639; 1214409942205442; 18506206022856;
   242501085268548].
Definition h3_L5 : list Z :=
  [1033143659547655; 1033389706031293; 29434860469345; 344345522391675; 234571036879296; 898920601745929;
   1246741447942681; 531600156475240; 1176990609469456; 484375951480819; 898573991598234; 674900905946715;
   68725316284310; 577196500950127; 449888501215854; 130999306742224; 1035131492953797; 53444963531022; 765014309915066;
   346057153406898; 86637918199376; 28967883766854; 762409456937697; 969251077004364; 306338159612095; 804230350312;
   626686860596106; 379686329281139].
Lemma prime_L5 : prime 1257559732178653.
Proof. apply (cert2_ok 1257559732178653 2 1224481 531581 790900187493841 787868792026441 212927577457398 192995844966701 h0_L5 h1_L5 h2_L5 h3_L5 prime_1224481 prime_531581). vm_compute. reflexivity. Qed.

Definition h0_L4 : list Z :=
  [0; 0; 0; 0; 0; 0; 0; 0; 0; 292744397614004; 928038625432216325; 454092319897711611; 608175378743316196; 1;
   1086492094801039756; 0; 1726834767139209811].
Definition h1_L4 : list Z :=
  [0; 0; 0; 0; 0; 0; 0; 0; 0; 1199081052626962257; 1; 2318992027876307186; 9456145261043884; 3657742036708003773;
   2098782240201574208; 0; 4067222247339865112; 844776789448479468; 3283258388444744697; 0; 4224556308576883414;
   1298195913885902675; 0; 88605884077468052; 1252745949902718756; 961654648200725568; 1; 3228767138461943108;
   3241001394253523380; 719865387082793562; 1; 2720695262405364098; 239461313041045659; 39604288552435082;
   731802040192251845; 1610649288142773739; 0; 721989785650825608; 851749603107534874; 0; 457318390062520574;
   3780707875843658312; 3596184840738807529; 985512815414039659; 2538821067040673149; 1073637703742033546; 1;
   2912367782599272255; 0; 397591671819613927; 0; 494809493018409278; 1234812660735465643; 876012692185881009; 0;
   43414066173930388; 961438050618918859; 0; 4219895520882322354; 2470267082011003742; 0; 1042935530881059;
   3972323654692979907; 0; 169142522578158628; 3230898642109838806; 194357827872211827; 1; 38269149094776115; 1;
   2682306558867539131; 1929278918663334; 1; 658438077785594307; 0; 1598402053814204889; 1; 2229404542412414777; 0;
   944627877530663695; 0; 4109490649999605806; 1; 41321737996474687; 3204705863767081339; 0; 190260073396865802; 1;
   181731803506964511; 1; 0].
Lemma prime_L4 : prime 4434155615661930479.
Proof. apply (cert1_ok 4434155615661930479 2 1257559732178653 1010501025739283171 94754006754933215 h0_L4 h1_L4 prime_L5). vm_compute. reflexivity. Qed.

Definition h0_L3 : list Z :=
  [0; 0; 0; 0; 0; 0; 0; 0; 2073829677966472774; 5945665732273380560698350; 4896226848661359734432396;
   2280509885969109424278951; 130790614921432972698007344; 114790229982582456155186612; 503301867151590626831184; 0;
   82133495764408352887561335; 120989217545099543588439385; 47218051299916904018079417; 0; 100166145001173924076201018;
   25588256111379539769822923; 1; 3113899218594167203600917; 163028808286365832866562148; 0; 11584815471947457057136124;
   1; 4988141698745784251597480; 1; 4394650487145635868415162; 0; 75882946509272374081710185; 1;
   4877625889379437891713874].
Definition h1_L3 : list Z :=
  [0; 0; 0; 0; 0; 0; 0; 0; 0; 32403588718226137; 1607353413646725202964404; 54541681314455032074292220; 1;
   106957438679760198985055; 24666583615978366710146119; 1; 152415677272147289636874225; 38933994912024171843644822;
   14606124896705492504610781; 51750966067556476328589218; 0; 18199748798430966212595991; 0; 54620944742684428706249570;
   1; 49416794000424006111619240; 0; 121487294366468032484670749; 1; 4742306554368267035414877; 0;
   5042487862147320448264096; 59263488616163734866827992; 1; 26362581212803008616915188; 53621018717439318846156540;
   26220234573643529689115434; 757144214011008436545975; 0; 3371876471951393108789947; 1; 104183642702615272096977914; 1;
   39664878711033152656238948; 126241260244705826449167; 1; 141171554000017815831314475; 82675739246156327383345701;
   131747200992037194216111257; 0; 52962766854570663850; 8833405825239386454831921; 162033363482213550970643190; 1;
   42983266169696889701927693; 19458867210964704667701754; 68302164386500841653193699; 95517628770991642779254845;
   25686589911173309160624660; 8369093418888603291258318; 18420776746076400036162115; 2900043108430852858217128; 0;
   123873874249218368305935945; 1; 1211698723297346105934880; 0; 16608966966965129478635262; 1;
   31790798900765343408383281; 1; 54840563655606587711707009; 23079349165005244645249122; 86801804981574533982851643;
   163419540753734868445388218; 1; 679496867311732758050784; 88406621242403641541983861; 66056514713830189084666863; 1;
   2828124245576194362476589; 0; 60489159193674958697335560; 1; 23711152325822404868973243; 1;
   27372109508376046364867844; 0; 35746774604992143473563785; 1; 78868660153197042568838154; 96810201457713749208484853;
   49225866963124871805438404; 0; 100719618071807606500565762; 1; 7622077140871481595208886; 1;
   67296026330823997308110574; 6403229570101781422317725; 1; 11191365252605874666112726; 1; 19125324647247143993020184;
   1; 21026391936518527501466798; 0; 15216011520791808179267916; 90220823121150603052195699; 134373635868506307198183379;
   1; 18818534907602107471179697; 49088121595324869882118144; 0; 18461562357357000631801722; 20468777936511747744632327;
   156267641721811203970121198; 89003690974985465024795127; 0; 23058054405665403805498219; 6509422628705127954905746; 0;
   102071048279824450173692641; 1; 24267733026104122792163663; 3888480956679966491760812; 90794259174462198739751237;
   10351919613853603453141424; 0; 172054593956031949258510689].
Lemma prime_L3 : prime 172054593956031949258510691.
Proof. apply (cert1_ok 172054593956031949258510691 2 4434155615661930479 154275350521713489305385904 73510611687487158067405653 h0_L3 h1_L3 prime_L4). vm_compute. reflexivity. Qed.

Definition h0_L2 : list Z :=
  [0; 0; 0; 0; 0; 0; 0; 0; 20821443634461049522097; 17791363975874780569836092239253423999118; 1;
   19685280787277343650790919084414502207243; 0; 17280408984759717495443339153166951651993; 1;
   19293079453473215695698998085832837987456; 380288709916973613942502556697489333234;
   16635008556631933400475953206080385080329; 17907292299602302366417758034714585391413;
   14599048782307286849932576057763754948145; 485715841123822471004614345256312469363; 0;
   1370965788785077018286373018622158657; 2693029782297834319678592281953184878289; 0;
   621341792025825074763924189761980434907; 1; 2630382719010991443572685526520117421222;
   837263356213712444687325741322744717274; 5155195491443198442158526092245048909277; 0;
   793095410892489958220729624720341293921; 1; 7666898685170038292600220041457734787029;
   4586977729341583436068330096275624907348; 0; 14474487556995738480880359279125802512652; 0;
   7921587675025660510635613342582440063952; 0; 2659666646197729244138036022980969550938;
   10931878872139756447079595860793793847077; 1; 50695180837350458632971281200459796036; 1;
   1564287817366282619059731248455431668964; 14914390583757871482382153348021740317504; 1;
   2004491109024907095926051150151104034344; 0; 1315465279430743797455166017096987517963; 0;
   1395691641171629548326246902906297595646; 6607785709320182381223143520816606648848;
   6846331703076140755108023687774845741971; 0; 10300406029903040098874055550223465478731; 1;
   17369563211928101446291711985387282284901; 0; 19491737482358789991289569573383607547672;
   3748505885309745822216199319014899900862; 1; 7308585297401317084387724670572847442742;
   1582728664036369908457436297281939119257; 43636335472665227187268112103372379886; 0;
   1465126052215926352310822062081955600943; 1; 11899491259521033692969125360158426181743].
Definition h1_L2 : list Z :=
  [0; 0; 0; 0; 0; 0; 0; 0; 0; 349325857287178071418934062587; 132727081592145878700922027800538989798;
   19369316004619452272808222939004939638299; 6932337842201805131702634200677684137522; 0;
   18042808429509392667676956637854599635170; 0; 3391735565231221340876306152377989645586; 1;
   11597872928387666040035222680421492757241; 0; 9002294939394386293765257880500811325715; 1;
   14045737496631692934430897582843037169289; 1; 5466829426595511803713355242870585680599;
   4792831405920344425028051623995638830607; 3610222895783468269446270307527004129896;
   3033948965620230608190408766559355666510; 1444815222940371774340755587909243153466; 1;
   7832685248731715122618233785930155398723; 0; 801215831541741355132612946980309921424;
   8737421371497607503565649882257067184283; 0; 882392426435095576295974859025109826665; 0;
   2398890462556425039006310723064013584817; 425581879724678029498043171561441927793;
   12246218921381802092174339194336691120960; 1; 11888975057986099022149806758160868058575; 1;
   5667333884228681701216527552732780094571; 0; 9645289706436451213892704291826478318; 1;
   11518508290261150629243162578834001177521; 1; 6068807289572084979381716494949928633434;
   6918893061161812369743935775411396113362; 1; 7710019334583717246266502913964738656678; 1;
   8832044767152608856272969401556623527518; 1; 12520661903309848942476227545178781383219;
   8636566810961319601584751883887455264007; 14549223589154164445098491514360911613061; 0;
   5178894331441150491389490134003597415806; 1; 656971688075841165155433728070443937438; 0;
   12799780112571041438470002695927942973740; 1; 1241343984970157165950930951382113519902;
   17248954655615917600497788026957760565531; 478560377481259318552294620760140040205;
   6301730825411498617992850329882980148885; 2819345444128117761307069446012493621822; 0;
   1242386161306304316814947435997106597384; 0; 14648906327427743117192726035726830342279; 0;
   9650263391254732791632136016905304572234; 1; 5860639912053639162778156723572460425133; 1;
   461054256240220897361975738495503010537; 1; 170034891446799862265427041448199875658; 0;
   4058733005911060060372764315230480250; 0; 18001072013625309445392982645607419247134;
   4548694705883462977981585899980320355441; 3563314589035876754676145224631864458708;
   318968143364910229071008615537422987031; 11974377156141898652947298471265567563217; 0;
   8740695528960769785101481204935611563412; 37260361949815430171963145593661802219; 1;
   19450326195842929835955360675950763831445; 11545832931599078745574029588029197190330;
   590011160652810775395733326238007089068; 0; 6900993258136272264316925183357509507013;
   13790813319520514705651961428620124833416; 1; 3754474863374970729815614644136974986784; 0;
   4486457512736336997361831844319038098300; 9608532039992897547108135147124257992; 1;
   17837048803418192473220279548311854733676; 2367370581251278403722965816223282265;
   665350109660497077405722145502054899170; 1342074633185963699652324110467744524496;
   7734485053953270452265599274656577321604; 1; 69538303449728841210568287120873901460; 0;
   191958374616317038434423041488367153437; 0; 11103872731710052706152506819294476021121;
   18708219756114004283849530617886753548560; 1; 9863846734580902290299155554138059512982; 1;
   15229520380207042920296901863529580495159; 6038856774474190243868253469042272374055; 1;
   16583184502207937226642710525998636493420; 0; 1474511315530351631114481833479063396095;
   16474221397776311879920831178914924326715; 10286022100317472646128932109436410644666;
   3774368083820769808332372710458169806011; 13250472520857932259311165761601473782496; 0;
   3948280741196103345044652415908222198974; 683171564136809438145895856732239636820; 0;
   12473183216064643481203496543562803291545; 1; 527115294801837335384314394076250827690;
   1706979944781852908541666704435200725571; 143363431203567407571437881109704892168;
   9772078413442107360509595831368328635046; 1; 884643492405586911990499780794569209367; 1;
   10426022935937027635778052163086409133554; 10459014475374168293524465792665593472349; 0;
   19386987238692047015643716741047569909358; 0; 13598866866696748753999737946278859450552;
   6769269178722924331744814949244892785075; 1; 10256757424862135965427243733917374951473; 1;
   12891252744003494096171912175001820549893; 0; 15653592512014050829417362348024457330883; 1;
   7201897408477097058573010056984387861630; 0; 13942524741703729158142533548147500287;
   10763261521692813831232777509352609145494; 7612081617982375999688556402149779227729;
   5007450174469081418196467463253201501716; 12450075560551988474178611409082682878559; 0;
   908874842537483885434215906064937239181; 0; 11181516775575042234692148879173769995125;
   3577828414554956165570638043829062106; 3894863679747071770256829760512653083676;
   2614666576820434511794370425187651080615; 29096285005874626060779065015643383713; 0;
   5744821150879624889995136013396957740557; 1430201917322301569723119310857660392955;
   5836148953612870318294713348847888637576; 0; 6362009620342796317817042256771771609274;
   16307767176676938830744574323837634238668; 46419824673863824841607495119029624726; 0;
   491658490124056941445895834436107653143; 1; 2703240680597704194055351970970138592919; 0;
   7230047587877087878733696559106331029879; 1; 6311195413163708026102181825963380417354; 1;
   2954165402305846158919121272311289512766; 0; 76432388226052114724526162604356095735;
   7619265482004745560154399259635426915544; 1773066144693155787409705322267100686066; 0;
   13512284146189282403538369249584910365420; 0; 18435447484647749799414404734316296361536;
   11152770522280145523811701749013994537467; 16932653586525843289282695480417526430200; 0;
   19757330305831588566944191468367130476337].
Lemma prime_L2 : prime 19757330305831588566944191468367130476339.
Proof. apply (cert1_ok 19757330305831588566944191468367130476339 2 172054593956031949258510691 16371654433361644093796961727196399386194 7580999557119167215323054323116539631207 h0_L2 h1_L2 prime_L3). vm_compute. reflexivity. Qed.

Definition h0_L1 : list Z :=
  [0; 0; 0; 0; 0].
Definition h1_L1 : list Z :=
  [0; 0; 0; 0; 0; 0; 0; 0; 0; 23238218342032421341; 1; 17894553902857206055508041733161791055307;
   163801594517078895452742343591837327292910; 88640453581202786044539279840987789484414; 0;
   20926714838942794676651721399771743155611; 0; 109491176986473789992688937980024998301747;
   44553109586361099777216915436388347475100; 0; 43688412696254000047307845043396197372998; 1;
   741121083597828702376601203445569631398; 1; 7383685083569108084944879168518245679252;
   29761564342405130916628314076928722820248; 116249895136740743555536911280087471959577; 1;
   65149818628026690343745234418739555281871; 124574680760259051321085286824209396237895; 0;
   7810524741794540882184071639995880796346; 133195775834279823090320041230410411179746; 0;
   174927844726084176714883319013194739316798; 1; 227304800897166194669758452655395191842591; 0;
   177611632034100707782901762644040751908776; 0; 73975386838730306047397741885129980061703; 0;
   47131017823370624232475307672166544259170; 171218553435967397362170147266766574426226; 0;
   150046703735688744875885451878844131290845; 37581499290247329051717618686468095865951; 0;
   253533152018220728443929262958131020287975; 1; 194890785262411669326319936147758764593357; 1;
   237708492986367877696525933153093977528090; 103504925041145791903799772468411819718862;
   245459626396058473383071313182829868423563; 179041257488065071391916062420410446701673;
   22998957037389850139250528844617894999882; 1; 149061292865447710908122852357145068309308;
   9944872061057251691011184298105643053021; 0; 54638821870190009106684202424516419303517;
   61523581479699474756217370752331964617231; 0; 22121060031346326443549911877730009787815;
   64382827832946150187093290402215201292383; 70905857005181955889554342495527858938425; 0;
   105380214260364746409645880362397525076781; 18496537685667828735865799137818552333283; 1;
   21884839254477743073180943663802428834332; 0; 154068182833691180145453895463434914131538;
   66649314029270432127039157366053201468818; 0; 20493564186794619923037211628401293410008; 1;
   24543610089097070543554184907028634427250; 0; 65571720739324349088515665446564747955916; 1;
   160677152942416768712249116055021586425774; 0; 8539420249198644067693178334696677089898;
   212304799842107285817424104402172239223454; 162724057967471152684900980795503334744185; 0;
   3407207154725012632403458999169010124638; 80757007169718614445655159218202654624669; 1;
   194542079454920477286930578860262260505549; 7188610825707866754440682582293142412491;
   97528136497582873723384006656196812653251; 0; 231009893535950309810325312229730439568353;
   5917681984981655941697449426894753635760; 192907630955750628364155894284769403401068;
   10163526750559100613171704951530267700672; 91009522125253636412834316832396277018933; 1;
   128727881998367240653656394675218211680; 1; 206587517227841606377143897342263439187954; 1;
   9870949635405381435421312026957186038635; 276017510948016492722844727964248532601890; 1;
   77060325597026463265231388294144351375103; 0; 89310093119359453980928593665530791538975;
   6493597842855624084503741333218917850750; 1; 225907696425717667126543707693172417968621; 1;
   35642902864956763089276207272434024752896; 80578088601872375994142492825340900778894;
   158228678049367033768257324622799009695070; 0; 80768813312731271957579322694033490874967; 1;
   32880600715818453905025616211278149584786; 0; 194312166978804344435738188679906997648; 0;
   79421877945016141830743804987210433456708; 0; 204683657041137066777863639830708741149731; 0;
   32414921461102815934217836491641363069262; 7656871617604654507624078756204544426243; 0;
   132524190066404592566003687338241857439630; 71443185208543454119144706518019195906780; 0;
   116605410591968419672196325377345716375982; 69447989818932984077492409193238322022731;
   104377895459685469065691979624917330777764; 0; 241144211845980133103372766683837056129572; 1;
   1496479971161744414639507896214826429791; 59790001356860228890016760874844405905555; 1;
   118979709272325135335701771222131697513110; 0; 269096549056001727684877798892865335473781; 0;
   3230717468130204731060741740958324676606; 34561098606040142294320299600940895647650;
   7749068533895069243015504051663621348284; 155413981069358316342157950989114373392026;
   116701426691020094924660494941284623677561; 9744832898151118407665289329936950847207;
   190354815941563448168850417881308220348144; 502434827231545586123262162842020737054; 0;
   224507729062306903786052846311267151874010; 0; 396976520024994314101596180935554074049;
   127073412646984854702795316312381361818477; 4080199549571643245628889520767353355087; 1;
   213294729340656582484091472786845801695300; 121256632685360723093317741606477367460994; 0;
   1547710625605717342827232876951496275469; 157452423941207200063564743056128703992416; 1;
   154396950265527777006944181060052905779072; 4288240980442847474121917531218092707004; 1;
   123958677570074565892958707459774197497312; 13336451915951266473917107755378654049320; 0;
   68817849677509755252698048376318653319509; 23865813048853806969944922921693704246113;
   13520211357834348814835677796559495952905; 34197824451878734629881594509410819485862;
   10418131075810183904691659441242756537073; 80122998106191471235957918968950885892677;
   735321281353353708175577209738191207278; 1; 7887859501851512966122659782920135886906;
   36145909852022248807745037090270794728686; 1; 219278210744691455210205188993713241381192; 0;
   928247495464181694540504816070285253201; 1; 120228995011092717901681934939580758060541;
   121080873764105794267245984166381961970054; 1; 46509350671272293106756240480210335927388;
   18256453119280605310762522615481295765105; 475754118687142149100273548879626675437; 0;
   47037203495238288346858100940299890783310; 1; 2437576660071356325991488759172727315;
   45643378123907381296035709577603977715891; 1191436765259755282503014185761615346; 0;
   214325018063759033307653567637053343011797; 41547467897871206890849266182481117860716; 0;
   276602624281642239937218680557139826668745].
Lemma prime_L1 : prime 276602624281642239937218680557139826668747.
Proof. apply (cert1_ok 276602624281642239937218680557139826668747 2 19757330305831588566944191468367130476339 94074944912245044309966580483695483989395 5572 h0_L1 h1_L1 prime_L2). vm_compute. reflexivity. Qed.

Definition h0_L : list Z :=
  [0; 0; 0; 0; 0; 0; 0; 0; 0; 1180591620717411303423;
   7237005577332262148468490748552037267540307668870186080822129444820427749816;
   942589363549410365945703063068934356513084744409838477783095633668376283440; 0;
   2230230288759627000077307454041984854567991419081184616770743276079499765542; 1;
   4899025989171891639209397003187161588318791553488424785136978895232058777612; 1;
   1539642963378578556174315168629576682441745229306594841017503794013507750; 0;
   3220349355522119098003041695098035881653664793448607003376446374517592885384; 0;
   2007904495676897012902728017053565627373254847211179515839596671547031039538; 0;
   121519143698457150148402787929160464601486360567607496437357575251095675679;
   170273368890437570478638994432586996835040717097131015203934107560572018458; 0;
   1793236243103340414126070225649795135369080081690096111000907629793505025084;
   7016253630151781588002278827377174690965977742435972636204466652513986808610; 1;
   2411595352733617499697169254344826259840174598567644808208549653819047825033; 1;
   3207033544951858009056158839448426862777054053470724359593166971849725668695; 1;
   926824016018996741492745982727328680681246040877307214473319008780870580242; 1;
   4925537360523802348250306482711578556825987725710529495005551291821681464755;
   191066610328982834746374093136655894302694606187925785179162474035355085257;
   1918499835427985255930231457452197729189608629537182893618618577797591965733;
   1446193768160321056192111508599465381382692018603290509655761719511908233866; 0;
   4774714877260027565980190382735362296140544742120560639491632620593014551935; 0;
   280756686968156704846712376861593597182343207525296121786755047172131683050; 1;
   621363596808176124213104158369480103882669841277557863243014924301439452903;
   34478461010864486414164181832085669198682133974463180794621591967677196138; 0;
   179378352939275221605994312316747492950830748011258065255282512451272883394;
   285723025640923301885847356341468650211489386115224850691140514402050808681; 1;
   5949388472594630545332160709364568037935585371662691464790518652376255911686; 0;
   2816144901988471980501553293330247335125447417726807094060981947543618246968; 0;
   311086482016230172209207561675350120740479166990311197301052764926877404180; 1;
   1847973793100450425306685491289018232128916502312144300991235504254063972150; 0;
   3250769737430837463636531989155289931974283705300339131187315501167882311420;
   5278714859490606982664642978658975420830951120585002706238739648488892265624;
   1593702518527699478232578782661590362687633959821591661271486741547990292101;
   128840745678602467138405855220016468713737447078864761406083986047778074146; 0;
   4475876704338027998624871007508736375267014706290404123615121281778687730852; 0;
   3543305494050396454055854364688179089667019924342262674233141187569137097744; 1;
   1574901285426116034546009205495524138297729754386896180622023468516931474427;
   26248399910395354020782229867858275012688375227454362187330713354291711956;
   364422211618788128063474633165984783730450506736363556350818604514357633358; 0;
   6726550870117802156694097575714680960338312170546408278903856663146167036190; 1;
   5274956502438914085126430047546154230856629617472875915491162854315762654924; 1;
   658301527014451109829854691313452611944479704495209599478895788792184262840; 0;
   1150454081586262386348676895878636628212008360850242589283252171461166809912;
   3658791868794606438832004976534700331706402582304141592319406032491091711080;
   3108661678164168520737337316080342443339194705485222457090404415035264810710; 1;
   169500587358624656894155601945132501026775287867436996849383824928927785796; 1;
   4933410984810495884900883310532892374241443273171199011340747346120503123476;
   4292283841332098468300782335984846195238332294480339033367574273681282083519;
   197819584378172438452565870086241223158391154858942676408286465143828491188;
   5440469437448230911896072281930518227346105790091361431547023767154123331177; 0;
   1866205933956523713182962175897941732283868657505784705369032126012576891073; 0;
   3228622979208686183000597426975356931540080634704279063592100865512016026700; 1;
   4419649073775282851911850544639413680037464361129072120896031457692106535651;
   9859750200850392072067140964230658703600417092451912546770534483947423265; 1;
   470548160643909450458293598069275604735388097348512698308837971800601431403; 1;
   706090907097179247293550381561455402981165374157121861879889569193014078467; 0;
   1070413730959455653525368758291795756660876345783129608640980765195155138145;
   6249819215630905349406226164217829607423219158099593993524621257906390544111; 1;
   3058607878570191230669949440102892589465128853872380280159117960008522611124; 1;
   1055406577588106149488332422191575682362953718313826929550497532631790678098;
   4549728475112306675750671765248159351632932704229414878699194522252394264835; 1;
   2115616133945088716176048083183160267073797868878887239833124768577836567285;
   1472395895331971042961989665402837039929198251734146586546987691000124761101;
   6003901465870679390730458512419635627139022350360233728578549963586878628690;
   76386373446888563696907795802901235523895681745275726694886109721522686771;
   1690196543236141280905447628689239788262711520194952425797987134721873849448;
   1169685707078277049825647014580870589320017032034156495523015209584209846875; 0;
   1763620430272933119788907965765088727970825150503388170313453066208922855059;
   414365743233742665779160911601057711009836395510202707265620284724117782459;
   156410995667804080878366343374135399268399252916009773516485698474564425901;
   6819939870496095005322925672944012605034545869269518985248606905161258078528; 0;
   251292286585877793087818090015627266219856693543330817636923578853829306189; 0;
   1278887699568307342878325088615588218130071876500727340002880261332004012282; 0;
   251178990077172473357949892755059379440916442029337427493208113508133250603;
   5755300727473065329696992663537679875207143582674824096854580513059594407632; 0;
   2929292582547065039428247276158744096043704361985568080709066210623969999095;
   87627377815189135763551196719921277597252160498296968966491051925211186307;
   5302371019342069018214281194594999684423831177585825109857029367229435994749;
   530195062247937653007778490372419798165590255380640687448639360228105147594; 1;
   2152075528102047896035037974632440611038202141365445014781359757570724937172; 1;
   5896016387889827810156885668389368292044113528660142563938624360774503829329;
   6520153892830588173530737001770380532660938236562706778405053278242355480181; 1;
   1883363356155802282691409421920283036301105847505899145632917045284290179410;
   1209294805221729489259258784278661786725633062622095712627083604501905116778;
   2039806375805254549394386198168017080211824603363800363264229445800240052677; 1;
   6808794005067893418001365792221646053845783182317500270155761809772783997243;
   245498340487866880215618429837366470631266417091779108350769242608455356508;
   5614238870948737033508195673741085500858327650494163497212370002494426763410;
   1127093156573295002655926506521868716692431339208030398154422406438156775148; 0;
   1438097197205190575254445470863279863950619527388047697091426734385625251874; 0;
   1059179582302475562269853740525530299192733803870415800758982067796915118219;
   4762683734647311768470264414843641555356801115116255477675990479296423951281;
   259557693181198369648738819077756535156996077178825429362156898588489999; 1;
   204966443223482328464602730190048245463009713519627649140264438131951466846;
   660247428258664737497265892415661221428139336523939694372775909520031518; 0;
   1683049208251838519838532484307973073636472740648728926789370215163127538291;
   1327258994940687635222443791810248971963657050120301012717179684397186149945; 1;
   27763502303565549735555363852485162495366731108471674319496440843172763;
   2426625315568100738865681638335291178347260821598965599967635582388216765; 0;
   5783462129015891955269966291299480499029544717905330632872867950894482422534;
   3635657979810006127563023890795605377791458167194151074125861847802556028610;
   4115143857856858895954791169584997590115918389407396703617622322036876786367; 0;
   2481057857746939199964201523464926043590231971919656365295098640739305944251;
   1249793947744797067928801553195984031559706199141510056794080934292803457998;
   1754432258692898357239585418871764500034893269313110597920198388853503020434;
   1444442501200721247126845533749189300986483830306053656095124464167206734486; 0;
   18507836594118180807166378055642526409990205611621147499734710271072611193;
   1936176173352267343520497200905905078743049758970125478992980689367857384192].
Definition h1_L : list Z :=
  [0; 0; 0; 0; 0; 0; 0; 15; 7237005577332262213973186563042994239969362190503992292854688928977177499240;
   366098619717808128819716404516769999285687009209230871130201714971063287108;
   2749250827445665192446140270154516795078445639981165598865190313677752906816;
   5477992513560120794091624584356882757115879159076018145870596263255392560461;
   6455397486956186243939054146344199889966432884838984090389805380206955652528;
   6848222005804396403532409446759737605095915534899677084212128472147524458514;
   4404637533860566105224845558775561502567995599334282561130869252656244708216;
   6344952710459813663401061200246444799712370231571395486938305767254096773433;
   3163107197207370937930991316012012106014371812879058366484028739607151408778;
   2628189130059977259604009887393911648678018574174390891857497164229346540132;
   3580026414676122394183928986360043766884554686494593054927996580121262596083;
   7145125301357622140591966255111047871363928676335560979025758388457046542;
   1515022659095161548900299684217948022186501425454672017185996982379240606138;
   5004238144559635885309856792530035627214407298699067711348595712045700619772;
   6361169281223376129754080860584115998493510754666201571212199917201126649041;
   3788141946557211057232979619043239968366074548177822530131911716997283382082;
   58272111604074977346670768098860224042312863419570940591746295022589491978;
   1418268929545428020808796892624387889159162513634399091099428603123913991055;
   5015096101613392387313879377591511020302573455830953689339086832636222206622;
   112862514080225007213758983391407509839427967941092271776062268741101388053;
   3508290961168695654617931500777477337422909145233684818696301782414245582550;
   1162952297848897753561006296451807016629854512007663636735016971565896589250;
   3683821412237788459395340409318992124758409751528627494865108078682334947363;
   88805970674079735938139350135373028713269631928012987132793027312168982018;
   882446119489155019619427471450529950705933243102420410089804274243902482057;
   2339843117867339109358751222222393047407036896425305512903773409013182905290;
   1064055729410227555868913812154114098778045610653859872923133831392720518576;
   3187548639188564239291021907342051216725966550642248342513819099519254213907;
   378196952109680405488439724256051506715635609523665580363442045836367216054;
   769934405888589115162258549464431527665042676276394620316330391967670297713;
   4417403972987421051356363482232091307476451264533282013946035361398372730742;
   444576983841708039923907759923972463130844037138045986882061346158599622659;
   552305218422584814255837714583191643004819486592375678668581833631737114968;
   2142502202083746126790373097488306986624396283884547600603526589966585800559;
   1269271836615943992518934017810528121274611735274854711908701729216884331750;
   232347647351598085284573391833414518300859631034751207175070316754040126891;
   2581187900821675684808705644622435981219048268706815161287293937230503851;
   1781414204650243104157023672078993588233493503831220870032655247404226229008;
   3473654756403860370369952276065119666506368480716566826755720694999671289471;
   5081022895833437830707779944264570939889238735731304010309058550568013315033;
   2874918834892406057122680400571829481164099436581489108246196541762950865787;
   2235701014347501144551491374302573737602074563853514356871945551567919400190;
   4550739247055229395527306011770540945540358252041714054040504422027234857372;
   343562798744928680226326157874145223528923566439678599129360147608850065128;
   4589583017078137945073885316075168951650370439264340345229000808732033787672;
   617040910492287966847360910780666291541838171429730324583858830052056465657;
   3006546625787682408267960222263959120535579887220906941085114509984065197069;
   50559585514730526309468333045055157235061094560121531345488908613683552352;
   251579929714913647953866607325129006719690073408770390047581439344935923276;
   1003823108147302530705174551873390522180940744334328634643905535423179043149;
   4775006333496893297388294568409353766279116604947064423075045936215055400903;
   3960338622550643212623860077445943987021951095471274811298886453318305142551;
   1006780119609810597829075256124770821301930432436857407681664958636088446986;
   4166238563801900446761204423051479520121043807662739888967423843137916581605;
   2867054407278699166456624574815007264405049733773994256539717994792953592355;
   1908663609024597844698787339875401237475567677834140548365298299795744447157;
   1338829669934700050892845480995378192129845834615140146135348124917744138589;
   5447634765357526005473109885891474464039141980192716469631976701129507897750;
   4230021902216946829437423743755255216776754758622144647176317622013226990;
   3767687060475148103976842769588609008462146942726786594409099442186938613407;
   373084021360846956223288192432147711484334075415174954807874646198949968024;
   495421956777786667018549766997104802908328842141657291216835599164656281751;
   1989376929931884829546856454419667748963025122325407879095441307773245061383;
   47493208148645229379691690290545079405991123734819432938178754656191426063;
   4606157369340806584613763895433739512795140676705292238255420762098413272797;
   1183325610642282490843336503609556120120992117772879902602281040275346612052;
   3563510913959965262704127517259054092755368135625437338032052812729635611725;
   3764799315554267081882624116270822057826175125098769029647906944301981211295;
   319375559308628983155697962082615473687260046107089437207543726477497727710;
   199208753639950638420435835718056318846534885675814195114321985883514742448;
   5104424779348200040037676486045999342053117968617292633618365909056807499937;
   2119078797943476936188903322073701101054945468860107952904274823585017743193;
   6036164502801952199802136967430594362769365217300935457631900950011033107310;
   1135851932188162383121458795872507790055356116573102484390734182384235822092;
   903791592907115627561977526657093746325920868736150043114862348126510281746;
   7926107520988504206730777653511049135406213355518906886834908121614028470;
   6827706876569385569883199367751530024958933265021382768877415751661754914807;
   4612577820657270722347264030870846536419913927735641281487108361590963444688;
   3854432742148653186004824637757889194356861904535781002705670995096575029319;
   7253673877326188032161559302662706664948316392819412228616881873440862179;
   1597593181741941043220755343500328011110870376117980001866167804561082426800;
   1499943146676670184935008498744961287705370242488709964411428022657445866509;
   6156930553902381422914762610155927486919783357223050647992505083758239252055;
   5302730044100712108517502989217108554488927377259811470939161977346698063209;
   1067531095182327165696497720993927818696906233721263513275322696223842044918;
   3320088343440450045825756761238226744514279616272597511557210589627012710143;
   156871197280514472776279603596767705567258317462732490939645609002494291271;
   3851662871381573532341037996454240167816914668397061625233364405314108839732;
   140022049341937283012208358295545908362751529784108035526020792589181917415;
   2825416909219960025880796797012020217257692711451279682541226421409717536326;
   1079009879450428648654584439939912408840448126683122330644103138410297168063;
   2112235687410916670945605054302904976339289431275277014421481525688946125532;
   515367831931475040768056415954354812027150254955672514894509296672549910444;
   2750837392455731964840052843044144488425155985411964757765869503791866611288;
   836557540499796423405266095551284213250639024415798070437786383253582133457;
   5626567453254850051401070287785856585877929979429723999169022554707011444454;
   1801705591122906861964605961563647781682567574006683882043457801858247081610;
   2369828982899185248015565494918121864431027059699727244453043114990441239931;
   1461487111809893981783359087343299724023859942277389410295443544297397363843;
   239606265034245397954452989916436565021537011654581865425252670468738870628;
   12833206238152570694228999947486413903172079375490499389598184071204306251;
   4335058499205042049362759876350671564986994313320304864553971399845718595230;
   952925419617937790101762517816463092915007320438860251349679939340070239684;
   1064086006429545394315043222928690967872501519177599420349644432992296272098;
   3594390361019113693466200928758649705252185197778983533762305758699992837422;
   5832431647487564677703582192953771905822507757304168759649137513752033262377;
   4130994979898709939610137291401495673104954749406001905721929497073883125022;
   728235730657282476806371796397220838478671962600511124393991513611055534482;
   552764318352996615715132760962257648134142702611490887895819140114522581704;
   3941172597303890622482402542517241483995439813434489978069389265719303679144;
   11171138331647133502311251210497400467675368916099043978709852007578125133;
   4901960876205371316897491413634105695864029702242674389737346461463461343057;
   2039480427661440323138711856813373009164143598277519116380298299071336522586;
   3725916218372835489934028297384696002730442133873423967929123055573929237311;
   4590520053058154879197853946252538247946124883174056940299432034883294539;
   4783386312395135020870605330269019672318431825134295305137436913956776093551;
   6881334378232831913248478618206235428793286754850668119838972434323625879663;
   2093799635801560917771467374599641500453035779492095580363000365990190896296;
   3142909412857918883332269870547636673448531741128950517342155548214835371160;
   3563121973680281701187694719250939930469758904562401772675664677715189352046; 1;
   345077265582712608755432515067601426110098091761112356106779945722802183047;
   126076736488219523751692886120620552988324519185337871638111880261221970913; 1;
   3746955838407307484505956270406943960236505786185036557583176745305880161615;
   495228723028359574635543427561469583691821819958121386473865173979297142080;
   1032222775633262818642275810022517450023854839351574418111964796463708880399; 0;
   4063977148169723304088429460335455799059360481432921613747448674670219033391; 0;
   4181650569074710011424700486321793861597438795871318981300503915476507406033;
   42361599800551691439291841164603001757018406712069178026107224928251959199; 0;
   2153586427912546665065939679382689925450829321530867764078957838893203696516; 1;
   4722424206385238443355580553761064101162963487041631731597539218392925186902; 0;
   5364354329022470762733683493162678996114442384203914904013566794044371427258; 0;
   5788316241162426126038094172268646007650906769705341891109745581449072602556;
   3416837472820942027236574408392748544404140051121961783533039870009744988805; 0;
   576032595513537134297730800705033875828111848862956976179701679039392671021; 0;
   6313757356964784023728496318596292157654872781620090803721317571304257041025; 0;
   108114264186736572496449600207914484146502307136450321902665720821316127882; 0;
   1357485308961267285913892340399779896743236516538938589902976045014313229042; 1;
   2048515418483396076648218623922288477890702455293952291061185411211043046895;
   1377558948714950334175465765182751530151749828742252606536811150799370252276;
   998302224997187840401866378080692686164315678385697632778617688421611131661; 1;
   6931855857153208463765475023800521687568937017618996868546418206592194581746; 0;
   1409112309393836342992402717989196138735988337167854763452291306235666237425; 1;
   38871898066020901303410422871957081306020265386340569615844662380983659817;
   4293954306751902199342829725553804956205927142877826413056915711365527380020; 0;
   309133429403181012022755792672696813387742894157534212551590610240665442957; 1;
   5306748064731065407269780959019173574777880377739897444815682892873685760796; 0;
   3153770970845657446621745331159079824527682161262318641891475084313478717085; 0;
   954065859197096493311350662418292192615806600660501933438854785311305134099;
   1084589603551229645588042038396796770957665296490404900921084223009976262530; 1;
   673018169632212969639163024459880533043097753709639194291762976941569007984;
   261793366454447471735662904844322477351432083827924587307008276566916133544; 0;
   542654837211902388959030124483145335613993145046831063358957089311738537989;
   200249166696442363265970586544264097940452062029566471981183175501361482978;
   211851632839464392772094768258106436530881383296404650328133610497372242218;
   4684323380018402206483816918365076860462182529468187252479306013814096291122; 1;
   446273738775623970761337091787227857759547986951757001237713417745929257994;
   500362959340445470108276027301662442462180830024932212613074740149629314018; 0;
   2863178260997734333489176516455548296973343203308915978652305603740751662600; 0;
   6647650508640734854272895032983275220965896097991120865042239440895363101203; 0;
   2550434762302522537176458804046355335789451026343497855081311093329568943612; 0;
   3116996308106970215845590076866841312060289413821465369537120054492882793895;
   1589876429035094306008748752021256042304646838862356511929413649767633861973; 1;
   547909748935307644569455304149158431067995064344689612385660070321977868704; 0;
   1168551481131669446159511625195515464195815164980092331821440881796030270928; 1;
   358814932287996094846296205523409084942352429604974374216217520161306153372; 1;
   43609543192353349912728584070333082781320249216416258104834423552650389900;
   36062505962958643318204719200937865289850778755198753821284380483246339322;
   1522460654613251406264080697806156919613818796205900656211152176027865191504; 0;
   818683400103471571206185637277228715887092359587147693067578718935450870210; 0;
   136140915755320402354824774438629144723918923644957882379197158856222267301; 0;
   2027001126983461828391945561466319207949333186498938449058584284748971883625;
   5110629990138319183426983725887921106065042512267901794645106273387825408709;
   1315601501559066813967102855757643171986512482395884192348108416955813705156; 0;
   448669664436682232487335817291820725007992295800752360221709574074405179883; 1;
   2610751432830575997619445966957210491225610658653671049679895135276824920283;
   7102076560113835297377673193952932854921610906929250500761767841307437990045; 1;
   114933696236993950471995065112725229699201225861483063504225812751157007977;
   71105740239825573168214615567235658989374450955177014727347804322454048516; 1;
   4922083732226868105284682309778171975700216519968331124839259478820756380698; 1;
   4641678687386561343777072983215178119263328320262248395006721141319866691455;
   2084637883106558910684496544873192597853685690073899903007433019471901270147;
   5137312740365222975425525841989853174955564135207798346046202208314046604369; 1;
   261729290878924438106067528078841906307031281883557993741395504831826128689;
   6575202772512487213698746024667460783106046627226424307687617820123114192370; 0;
   6388981363541710264087667976277362177680279771523603867716549958196285707285; 0;
   3321154598374707462318437608720696850787097086925182372975648570955914873570;
   2123301711734786763912975141788298515979670242635090354002496563318389636;
   2270486301345296836878585829345854484375286321844726652256030107132645265886;
   511703004137156305417996270916492166563775036174553944258292265510840628721;
   1303951373063273800981209312782560116913861698713584368052892117300511609838;
   5123530551778949122423295587407871560929073510654679756477586856126778997361;
   381959956192020374136877539308070821173118555295456632814275138777346025668; 0;
   66684136227988461204858962626216572959061732580926224743526006951176397582;
   264735739886654715916059960546671996302629674644532695774424660553333841;
   6308398033038015862431976914898988829079434962429778777820319015102121093901; 1;
   1744950723259183122177357925329542688238741171039601873475542026070772306777;
   1042110512597933672269345094716121225765480538148000215833736282334930425516;
   1679362048978017697171045329526545398733298219849344240044754699227013428495; 1;
   3387683753777421434477863246495551906663848850935632648162832484367712521853; 1;
   4658934573541933200774887048370060818527328270047948881250152158703956704434;
   528164045674839196775837058964605716431510406570469546739057264413816729641;
   5772026633804048546405650502167982550796852884365293799763050850945138841854;
   302477376261224960195478813687129758120212452318673345102654000993430109830; 1;
   220647313418774552197093847350207639992319303417895018506032271302777438053; 1;
   816005136290311965279319651650910434288646144492422698848599475556187115904;
   33806388530569948999472969566113526286564077763275345286137652258021406893;
   5061890120916446342815476454643115019922328803584137529645769911696455702727;
   981371632688424160985896666576116067528348227600941112692649852160654389338; 0;
   3213408979951331190173172605185906902571801893532016833458564128368137627111; 0;
   1283314003965291149285808950439972273032714504855855327878885903202500596953;
   5005254575068345128041063561858992054704411399563799508341562545839540112985; 1;
   3764905444661031479172203694403656979167065126708938804194192067945929491539;
   1641376707864594015672902632839896326749105939399257895666961296211951486544;
   412361938696908435948295938595368090560876240844414094109913992018801070230; 0;
   122832416046843881312366268510369422497295368486195182099875161781444074146;
   263035973603612077742418882090739058867387821851013107274376648634941600927; 0;
   22564431735135371958299050893097378897236049420815252874225937797091840; 0;
   170720538093226201599958936554002259433969800290670629548962026286082991145; 1;
   5358002245281589939805744272044598056522800032165538054441582921088238052971;
   24773425338267497269080807348688559912889414888670886546215884906895403194;
   708298913118819089308995449455156442320703356702120467400290862120492141476; 0;
   2309701885111372904789210635698392153542288617069260869184988183967469829956; 1;
   1739789522554086543541720318616764483203097404528861216812031318962031230009; 0;
   6719684186482393393041338177129218504039287858189350146660348571087260744650; 0;
   6735627506613423768328207340092283028263934492348306977397830147896632233521;
   5014519252249938029413859155900753979724872925202582097758952630954698413730; 1;
   38756983092250552556924596288100256027801126768388047384381946326754662878;
   585041604977896495045147310013057278042667451986689162124483849210817710645; 1;
   37906491403822225613086077439656105669184357539892700255803852474377882109; 0;
   1369737506426363231745186113773056657757057369845681478324254733849256768915; 1;
   5367646325865200115650638284725490853820954516455919424212062079922671027280;
   1611963203838821162245610199012185656523637149741003830006339861755368349031; 1;
   58061951469045258524015422016540099069088898489234847151027529334013000049;
   517847483966457027496171379611095975093138551595522815913979512162029227379;
   2072699632599164126835766210424281892680956349564919437991187912365737052677; 1;
   2975290885484548604813666844084386223278535503433957958953680931264754784747; 1;
   576882884319840885557349165040525375167064591965500219716718426516545548907; 1;
   116351333403405909984610394328125407599794339118868706954941369971611239092; 1;
   5071185154258239999487510324959252306263526262341763389062501849152411727724; 0;
   4481939582230414648195234463942290385899500617864257846000284064835647828334;
   2408666682593366204317674424478167579235008646947695936579602372602797486582; 0;
   318125192477345477734357159591507181110489379440664010639159598923068831358; 0;
   2440208144321047936363710874419881381971939898365900573560926586293457786292;
   7237005577332262213973186563042994240857116359379907606001950938285454250987].
Lemma prime_L : prime L.
Proof. apply (cert1_ok L 2 276602624281642239937218680557139826668747 2233364593245673852815932892735013076939656528578070433728021143254617821614 918259049265850385831298250211759012539362291049224222049079815310237912731 h0_L h1_L prime_L1). vm_compute. reflexivity. Qed.
