(** The primality certificate of p = 2^255 - 19 (generated; checked by [cert1_ok], [cert2_ok]). *)
From Verif Require Import BaseFacts P_Slp P_Prime S_Field.
From Coq Require Import Znumtheory.

(** One prime factor [q] of [n - 1] with [q * q > n]. *)
Definition cert1 (n a q i k : Z) (h0 h1 : list Z) : bool :=
  let c := fst (pmh n a (Z.to_pos ((n - 1) / q)) h0) in
  (1 <? n) && ((n - 1) mod q =? 0) && (0 <? (n - 1) / q) && (n <? q * q) &&
  (fst (pmh n a (Z.to_pos (n - 1)) h1) =? 1) && ((c - 1) * i =? 1 + k * n).
Lemma cert1_ok n a q i k h0 h1 : prime q -> cert1 n a q i k h0 h1 = true -> prime n.
Proof.
  unfold cert1. intros Hq H. rewrite !andb_true_iff, !Z.ltb_lt, !Z.eqb_eq in H.
  destruct H as [ [ [ [ [H1 H2] H3] H4] H5] H6].
  apply (pocklington n a [q]); try assumption.
  - repeat constructor. intros [].
  - intros x [<-|[] ]; exact Hq.
  - cbn [zprod fold_right]. rewrite Z.mul_1_r. apply Z.mod_divide; [pose proof (prime_ge_2 q Hq); lia|exact H2].
  - cbn [zprod fold_right]. rewrite Z.mul_1_r. exact H4.
  - pose proof (pmh_ok n a (Z.to_pos (n - 1)) h1) as E. rewrite H5, Z2Pos.id in E by lia. now apply eqm_sym.
  - intros x [<-|[] ]. exists i.
    pose proof (pmh_ok n a (Z.to_pos ((n - 1) / q)) h0) as E. rewrite Z2Pos.id in E by lia.
    set (c := fst (pmh n a (Z.to_pos ((n - 1) / q)) h0)) in *.
    apply eqm_trans with (b := (c - 1) * i).
    + apply eqm_mul; [|apply eqm_refl]. apply eqm_sub; [now apply eqm_sym|apply eqm_refl].
    + rewrite H6. exists k. ring.
Qed.

(** Two distinct prime factors [q], [r] of [n - 1] with [(q * r)^2 > n]. *)
Definition cert2 (n a q r i k j l : Z) (h0 h1 h2 h3 : list Z) : bool :=
  let e := (n - 1) / (q * r) in
  let c := fst (pmh n a (Z.to_pos e) h0) in
  let cr := fst (pmh n c (Z.to_pos r) h1) in
  let cq := fst (pmh n c (Z.to_pos q) h2) in
  (1 <? n) && (n - 1 =? e * (q * r)) && (0 <? e) && (n <? (q * r) * (q * r)) && negb (q =? r) &&
  (fst (pmh n cq (Z.to_pos r) h3) =? 1) && ((cr - 1) * i =? 1 + k * n) && ((cq - 1) * j =? 1 + l * n).
Lemma cert2_ok n a q r i k j l h0 h1 h2 h3 : prime q -> prime r -> cert2 n a q r i k j l h0 h1 h2 h3 = true -> prime n.
Proof.
  unfold cert2. intros Hq Hr H. set (e := (n - 1) / (q * r)) in *. clearbody e.
  set (c := fst (pmh n a (Z.to_pos e) h0)) in *.
  set (cr := fst (pmh n c (Z.to_pos r) h1)) in *. set (cq := fst (pmh n c (Z.to_pos q) h2)) in *.
  rewrite !andb_true_iff, !Z.ltb_lt, !Z.eqb_eq, negb_true_iff, Z.eqb_neq in H.
  destruct H as [ [ [ [ [ [ [H1 H2] H3] H4] H5] H6] H7] H8].
  pose proof (prime_ge_2 q Hq). pose proof (prime_ge_2 r Hr).
  assert (Ec : eqm n c (a ^ e)) by (pose proof (pmh_ok n a (Z.to_pos e) h0) as E; rewrite Z2Pos.id in E by lia; exact E).
  assert (Er : eqm n cr (a ^ (e * r))).
  { pose proof (pmh_ok n c (Z.to_pos r) h1) as E. rewrite Z2Pos.id in E by lia. fold cr in E.
    eapply eqm_trans; [exact E|]. rewrite Z.pow_mul_r by lia. apply eqm_pow; [lia|exact Ec]. }
  assert (Eq : eqm n cq (a ^ (e * q))).
  { pose proof (pmh_ok n c (Z.to_pos q) h2) as E. rewrite Z2Pos.id in E by lia. fold cq in E.
    eapply eqm_trans; [exact E|]. rewrite Z.pow_mul_r by lia. apply eqm_pow; [lia|exact Ec]. }
  apply (pocklington n a [q; r]); try assumption.
  - constructor; [intros [E|[] ]; congruence|]. constructor; [intros []|constructor].
  - intros x [<-|[<-|[] ] ]; assumption.
  - cbn [zprod fold_right]. rewrite Z.mul_1_r. exists e. exact H2.
  - cbn [zprod fold_right]. rewrite Z.mul_1_r. exact H4.
  - pose proof (pmh_ok n cq (Z.to_pos r) h3) as E. rewrite H6, Z2Pos.id in E by lia. apply eqm_sym in E.
    eapply eqm_trans; [|exact E]. rewrite H2. replace (e * (q * r)) with (e * q * r) by ring.
    rewrite Z.pow_mul_r by lia. apply eqm_sym. apply eqm_pow; [lia|exact Eq].
  - intros x [<-|[<-|[] ] ].
    + exists i. replace ((n - 1) / q) with (e * r) by (rewrite H2; replace (e * (q * r)) with (e * r * q) by ring; symmetry; apply Z.div_mul; lia).
      apply eqm_trans with (b := (cr - 1) * i); [|rewrite H7; exists k; ring].
      apply eqm_mul; [|apply eqm_refl]. apply eqm_sub; [now apply eqm_sym|apply eqm_refl].
    + exists j. replace ((n - 1) / r) with (e * q) by (rewrite H2; replace (e * (q * r)) with (e * q * r) by ring; symmetry; apply Z.div_mul; lia).
      apply eqm_trans with (b := (cq - 1) * j); [|rewrite H8; exists l; ring].
      apply eqm_mul; [|apply eqm_refl]. apply eqm_sub; [now apply eqm_sym|apply eqm_refl].
Qed.

Lemma prime_127 : prime 127. Proof. apply (trial_prime 20); [lia|reflexivity]. Qed.
Lemma prime_353 : prime 353. Proof. apply (trial_prime 20); [lia|reflexivity]. Qed.
Lemma prime_75707 : prime 75707. Proof. apply (trial_prime 300); [lia|vm_compute; reflexivity]. Qed.
Lemma prime_8574133 : prime 8574133. Proof. apply (trial_prime 3000); [lia|vm_compute; reflexivity]. Qed.

Definition h0_q3 : list Z :=
  [0; 0; 0; 0; 0; 0; 2; 0; 920314958071172; 1; 17234880878448; 1; 453802016913990; 1416634798396968; 987343427641699; 1;
   478888398608285; 1350734087107426; 0; 1247727318074799; 1; 1703770961623607; 0; 637179460788402; 458247527309161; 1;
   1536932057127710; 1; 57589003071320; 0; 1447893738082336; 0; 66417359522449].
Definition h1_q3 : list Z :=
  [65483710742709; 153717968670962; 81263922900583; 161871982124147; 1876309915202121; 131391573091692; 87040015156283;
   221828987629001; 643238586587509; 73696995718674; 1581256871039299; 320847725722734].
Definition h2_q3 : list Z :=
  [65483710742709; 360841095049850; 177978047697117; 170442255758494; 1086449805246546; 1302931708151749;
   129469305574962; 412594229657409; 71065794889; 188111325290580; 103583606713124; 154768109866438; 843060372216743;
   1738363809053; 121575916949824; 564408530128393; 32113729371105; 81645756492672; 68139834226151; 1501606125650118;
   908047006454729; 76840050630612; 93847838601207; 60465252576424; 249978568487462; 19429705827679; 315314841057128;
   124857319569; 73959687547323; 267909951794175; 66235724277474; 221969716247403; 125731045820326].
Definition h3_q3 : list Z :=
  [173308554161386; 306463110284087; 960587928800259; 125455877672296; 300479663698404; 345150634565688; 3206582020358;
   538483156457196; 908483512977205; 15676062056764; 1494899165728531; 562065407042555].
Lemma prime_q3 : prime 1919519569386763.
Proof. apply (cert2_ok 1919519569386763 2 8574133 127 1290547218147893 712619969572013 1870148777187772 561939919808897 h0_q3 h1_q3 h2_q3 h3_q3 prime_8574133 prime_127). vm_compute. reflexivity. Qed.

Definition h0_q2 : list Z :=
  [0; 0; 0; 0; 0; 0; 0; 0; 0; 4; 12349624765068928822071100461047348; 33621021657992470949921926666643584;
   198272550659346190544036434471250; 33161880431896629406880514226607267; 67735504227689540650239390434184444; 0;
   38010132944748157004686329429770579; 6757454262519536577519879968744271; 0; 52556622857209532106916983826814681; 1;
   32797006851056560022478741577518788; 21584991346910975357618022011543365; 1; 5162944509729397956865657240755909; 0;
   12280910050073486657473092661313550; 200533801915441723342837470008825; 0; 10880577152216513409636735175183691;
   13869322501229781221908062829010038; 1; 4834261886431991532113450285083916; 66163063538035689667532748476696064; 1;
   22070548691964356040872921584905127; 17641429140131298247056658152274818; 451346578215798892337000178051555; 0;
   22025471719353923485131948917446885; 1; 49739499554289057084803866498933003; 49590713508212383818755104981310924;
   3707214621957937195652118938576320; 1; 7967522686072408972914671285352012; 27329065434080630702070526931383282; 1;
   52678962275720378011442067000199018; 1; 20164544008214924173599876583882804; 29886729814761123847178759570848205; 0;
   22088574111813538050909619891832601; 1; 8272739141192093119395283725614571; 1; 8094362227311141620579466518661863; 1;
   42777985851115273348228816930773228; 7653954588277878494899425458506429; 40235578030013307662494813746411801; 0;
   37017424174128059199461948225861894; 1; 31862758916252873545230899757471465; 1; 19442919668352252761838371693377040;
   2039337605904560067044421497963657; 9349552624780997057005442888305303; 46322679860453745416441923839267972;
   6823170906439983739697550396165898].
Definition h1_q2 : list Z :=
  [58842250582577660957808674959263795; 49277607181293684658487278668732724; 20792804794218124477549759331620377;
   45573502635159066496802492453984183; 34264366114740736728228295148725288; 55308738385377501861322062076548826;
   33277511765172175967067827271593117; 24554066944655073710512652985116739; 37069428853136772941826026957658442;
   20648599826289998966560573845388838; 2389818587429137053995243632048662; 17644785315377870751376766917454034;
   4313690737251073339501606674079175; 655581339902524250477991182396204; 23802933520765040364646328364950969;
   7686688053259589239514655201897544; 17889870372564286312661520823606471; 27376384864078846357046242122275821;
   9721945036911367082064396588131744; 46475125990091661216466832333406167; 56622285485986063393655880029815992;
   6540187841599358255157601886123663; 4968631075716634272112202820643200; 22986019810979142759375176031209601;
   607237164292971100644138481534254; 36770957181815892367486581571323762].
Definition h2_q2 : list Z :=
  [58842250582577660957808674959263795; 53847983340804058800347793890922021; 27566193260799120198874168234572465;
   33227500425692895239709379527680956; 3830856320660294510026167555816104; 33500287856121564718249384069288246;
   7856817389284286943787601010337071; 3005695843056614408798069223310651; 34343239504047278475359608932159069;
   22063487879510236306205653306859280; 5960765738996842509900349398755380; 509984214234388568663219653978768;
   3843367530206586859383942845989378; 3172410543641803288244086781995507; 33049648667387653573578381939394604;
   17753007872828846028305527217341166; 35536308151395294750355420663605406; 42714302213638494446885433130241126;
   43653198830164785657904205183640860; 57917368002672703301378141076431754; 11654005274549840315002594380601415;
   63597150140557214488257978921252224; 39587405192785570091189974579481118; 50832844096056554294805158564645367;
   178658374811427607911067797220977; 13241511206357500550664868382121834; 4376874449808655580297838594907539;
   26998125833172310471767545206709496; 19851295027103138394613052065447908; 58364066340595528314735362658300380;
   64582481502105171701194287398778424; 10267629542353421294331777892958017; 42621612245142870281384971719998493;
   8953386529388507915872260489149338; 38375363787970894897048008316661343; 544347107344650029095293954027446;
   56280281359802723576452327528594978; 25521279184298438336629115592594871; 320089025156895178526393904833417;
   31502567230262702214181806243828764; 20485111749409297922287802944089841; 181038990040417890693125162772337;
   32644796500979449692632660404359959; 33609473198928563722047436329839374; 9942550920765499542772274344601414;
   35471891924989508096901716920881511; 3519559028990619803787455643276467; 24471711909953285496171467412388200;
   9375924606438985601313574159946523; 64112334771380667273068461981315892; 2401235668431479151440349606284176;
   15259871322161733945086437567815535; 7631115603689164813401890003453432; 21879351062967507041606997578724785;
   48434487063893540707759175614720721; 52144056936439875185132715180166864; 49719941299137883512032637908754259;
   46402350272517750860006803485921268; 42485022590455403931470689781114579; 39384957200658474052683731592372158;
   21290227424152624337535068942657066; 7032123928200938099022897906086421; 26242659495394373807616204861039562;
   59742098291928826245762295056783788; 71287307507100075582670983059000424; 41339941566489123423730415445072236;
   60132202542692727066618230387573765; 66513699125609054793123719089409518; 971118853518548801508961449886;
   3170180510661357189084675385487937; 970991332609015759282308953103638; 26759583456799816701018512665086148;
   8651051551168209758188679927346166; 638933247366764501850946718990557; 56157034350162451906801603687616430].
Definition h3_q2 : list Z :=
  [45798343158407497127110698474487382; 4922914699937485409093593917388130; 1562407330492874243672395367803483;
   5594366890784051144258406127307009; 19000215729530029768929209346235067; 60296421032894417933556479848271721;
   6917569713853648614867514817242422; 39190283342360239958493722273490157; 2251123314352267030480506031871003;
   14610333115554965468130289858081024; 42156724831270544294755543110527998; 51524550823215985355971974326648900;
   25203992194771766636310515096247228; 9683021259943095362232876689344398; 22550685474687461188533698279991918;
   48152206643333589497237093668566556; 56647885753167783215514198391044019; 4263890881591438292096267642235410;
   21375277442470514930759641923292021; 3578369285089823813784694148513567; 30091345266560862173574969199297830;
   17743944855969348485054655524703778; 28827331252394096672055531469096956; 20847758858929449262312963289540681;
   10641487448721832804665174764400243; 48148993342020981095484227794596083].
Lemma prime_q2 : prime 75445702479781427272750846543864801.
Proof. apply (cert2_ok 75445702479781427272750846543864801 2 1919519569386763 75707 74602835786463724888147869570305675 56113048138023733339996598108928949 8986369574106813140303762220009459 7001513097443202581781503170404782 h0_q2 h1_q2 h2_q2 h3_q2 prime_q3 prime_75707). vm_compute. reflexivity. Qed.

Definition h0_q1 : list Z :=
  [0; 0; 0; 0; 0; 0; 0; 0; 0; 409869484032; 0; 0; 0; 0; 1153680034723157912762449920000000000000000; 0; 47050;
   37257341899152663814259047681784199971332896318810633619786351678224135; 0;
   15833985394330898980046317555477284167727483830796617933885360254580236;
   13387578746722292930565486069956613918599957639931046215667995530597567;
   28798471862629386574879206150713643282918428576479220203247974368127939;
   9080189614322433750829582967921197128335887699049152235907291494945036; 1;
   52236616334794912372667557700857629169983041818249363379651602635630071;
   68984859592579571926765790932667557713292862876420681792983511367858149; 0;
   11253777202433569499858238560597692136617690948375988532181244372669115;
   45005105075394565405159154107306140571667147667337755214465571624579384; 0;
   1019845758173425792160613518910973233501274652366784458546886605499851;
   63241264232239371989427656471684487970463732862923042063058843004238421; 1;
   34857826922768435286601435670915756747453828376053047666007790282519117;
   4652615969319802100910521539314224558962716021638591492116205887116838; 0;
   50937850608614194557756303716468573952610806193748460979923984930828300;
   58627968108130625824427696297408697832100500590074057607312147895691429;
   57258719227059873377327214619167964852376817810762522686960770297232037; 1;
   18496490569790767108139897894300223387490293605573614915693338368720194; 1;
   51936963390110033415046515193303051925222340628643772850151919474395075;
   64829797735367408336938128264506442211488073533623373734388672581655218;
   30909550183983038531725389044102465050411237911779736249727591262546778; 0;
   10535114162926070341944199506560134690713206625191787976652872271627773; 0;
   71800650921155543721836008415969047749546301175929470971967016416092242;
   1737823849521221757081651016581525832503706663476002270458589732250216; 1;
   10920945578224464024905951027696991655296017921979378417308267499560881;
   48605706732694083201267015193848850154276590430808360892311244705553096; 1;
   60027438333037277145031572038313034701215722295698694354011087386294252;
   1076463116447367480017635570288597550688326058669281790405063235050678; 0;
   6387301054451037766370777720132155505312341758189154413692192790725535;
   43627592954451721515827485123268165953969054726138033891420518691457481;
   70713089371471205841818283894551325070381026176820143489846442233473244;
   15395736410277050634681957941294729434635647826885745880357334695095584; 0;
   15008623437242923515008800396133713264128119193840867899013593503798;
   28708466027570650123237317015856636371160743423336165632204110614829506;
   9363572979269077916146750840637303230111050033174760063683756991493826; 0;
   7565119163115617732532039427537455990239232337230338293180515070624102;
   59059699098101813224757106192707270149710088068350595676346786773052206; 0;
   44836949579953446158047194178814084125237409573816803020668449668904594;
   6974681639058604228791051079785758913014943349539166009162208483249155;
   2053106296330756217657270560811385697387757487163701955732901138301; 0;
   12900135669699758867678218498424492682769511198719445453018367601542084; 1;
   38406353181464737402086878290810244269117168995743912259930129163795614;
   52297347016487045781323936900117974895175748363869297616152004428594791;
   65704446750413426790513511897263753271041613417462674802793524341242524;
   1561123032289261621435851273216833220121298842741037503089585373921036;
   9569622899880393046657509775519395900435653184790804305283120306782365; 1;
   34905929918125466390270737930381619062204072679339918141788681631929211; 1;
   7410340203873988115426569159530483860370488721952254381932306083155520; 1;
   11546877522033806521992673399350469056167081417192088265519330937693412;
   2112428876666864186618366406608840232754739355051487690330639024561011;
   936925176971437545934253778316882367604319837793024762012109768329024;
   32528405463418047372025748352914060657354662157711863772277457027345399; 1;
   9350878080952521875700497721291726840367470927039576971039258420993695;
   12496178491691305094411420599504672791102922482105625132020954112803990; 1;
   2492608699931162211755194687184631271541381178259953202629439204129484; 0;
   67112517010811635102488666427831865504924042628943042710094037915945346;
   7119022034201688269912468718298364471627450302934349249099683477227116; 1;
   5618666499691495807126396552912313084494090402336374094379632619271;
   3002634880709938373842672288820234184187305110933172279264717446639181; 1;
   6150767461446100152579644648174257589612248954686437645934383016225141; 0;
   14614061570837985551146186310053580810251969850995571653264054324197312;
   4669870996920546516564866923358677915813736172788585370533804869375870; 0;
   61720596519456371906226679973771663902469511722313115859970714777537237; 0;
   17231536015831336010306924346217424109935363509732175822342063766577771;
   36957248852675080073674727319777862858832527097108957866614873030565033; 1;
   11724263116488715034107377079593225867980834266221231586361239825455402; 0;
   53779039802651225978310137177803713446841671053959887229510142420881966; 1;
   10669335516963217801512426758036260305487329029436598548467856511786906;
   33199291542733855867636776619366790950931134537838898358134655462577416;
   46249214236126716055626380995784860615995483287735224546925028824837126; 0;
   16220726909678730973570882524412520859163052593356601918997330266751566;
   70848952503306944618306943384598906726154563054466229108556457852664690;
   572312909901846456439188098296762775905731481817672182514079326570406; 0;
   69220578912276195461413509505975552506984908009149598982072713839377318;
   72357789395748698281916504129766216838146155137180920065841511740346474;
   9183438652986877548778705698264296621334553505925992980805507118802335;
   37271308171276579580553807257154443377231952729369645311829116321723326;
   1334716512695490811252536554552264167714229292267801946722829484242223; 0;
   505524822452872296256377229402304846697284801980449932410514396809887; 0;
   34777987207461289769184166585085868396131147682416870197714274362547600;
   43668937203485388400029836962508406910442468667402465807203082517253937;
   30181106109092124690492697314651077390958482174880196689852138733837887; 1;
   56553593241821134336448118469142118248643599658825429086573035706646788;
   1201631508072985932720583430996806637768366279769545728389401439198892; 0;
   126200121106738344272058817232277011692061757938417029915314201635957;
   66224792750363879316349886255163887560291136590036514321837677332986299; 0;
   38533042994809127748855052068664085792197089007567559714674649299800082; 1;
   123466973582661991618571171662107689050774610421080249902474118493948; 1;
   1485969663572305481772776466971850962871585215923017519923560027583588; 0;
   20138558934554155475741643139855622411714457697623017798360554939884539; 0;
   4345383053851565141159188165363421769010875618129719844941364086816521; 1;
   688583612130728878213347396024141987849159607891891630103236462665195; 0;
   29313766342918937199157961658133500695343589402565071861925182636175802;
   31223184245823602440091854016470144240682611891634224781334463962737667; 1;
   614424843082132135648775999543683864240580576033304635453515047925487;
   319040684329621727833789683203207911286751979644457947308377029843281; 1;
   3666326164246346183012720482118194740317546314660472027792918941530735;
   51248410034525113979933739910748309628313583798150295520813207039703823; 1;
   3327397887921417304031829281087839545583407484674543942562647867227753].
Definition h1_q1 : list Z :=
  [8908868135619785355635835561760554916581680583022386454541910646600728;
   21394680706256391653772738587981889740256835741396897810390838937260990;
   14539285187754519973835762576431992967317854429353096549016226021804324;
   30526088725465375567708089242622356097570712153968773082607677235312927;
   20885670621306427089579025835068966905661895056100513109106005194861246;
   966522749157942967561712988976652524282342557212726590828093275951844;
   13508692255812283189457464848542721074899110681650959719292644752769394;
   376940827733328312781916256936884734008616669940870750866702116324930;
   11364995957461186655673396592087087969113192286024685136242924934061587;
   35877286075606686361035767978452768578899685388794657599296841205999601;
   7371269522867297349425841017487787929422473748271725562159849478889028].
Definition h2_q1 : list Z :=
  [8908868135619785355635835561760554916581680583022386454541910646600728;
   13805882413512255194642145080879652063773023491081789781688006780700132;
   24738055068437573470930350890481228183249891307046756258937194156139932;
   12313772472589010903707103112480395173613355786819305177458746685794262;
   2884373566949150479498426913170197455376795218438733909078238953481542;
   822217039625591968633181167611391282194924933089520897998446971542889;
   13694129037015104431113089271916369697772896124089900864563218858806950;
   7130955745493624510086305896735356460818663409008416182264440069038828;
   9672691082518409701161493130510988119769149304058287012895583910408193;
   16880523607394723514468743935356333886434205354150673650698794343037643;
   23244112781958384863016228822454812013564773636871793266267736378736476;
   633030490809562215491801616172115940996301127686007828567089089984484;
   23883051236644230325708462403863000735519821878228870266645393073044304;
   28715158655076790984216817848632843281325038092169198107135386705302376;
   11731418545232979197969089707462261677075522775429158539386592104088313;
   3701444553801492613514456234611247804991836742745152933850313678007563;
   11469377782256616327243274413000975780120761743223800241617862954299300;
   68027541964978704356225545800457142324316261800152738582898677038709050;
   3274210470841540014348621584550358539054808757035663158502802099173945;
   10133621491648794890309591774842942251438161139665640222612543551995827;
   3063183398874227945359050210951865087070490120464374308472261956447251;
   30338042938474885030901134236051630506116807570233398229316997445898249;
   62192657333188860192755474763953335797959269628881737915900412213687470;
   524116796371358039980106775898442810770105584504695717625798937451;
   3468669902444050573147376634960176487636819564640006334636041148215443;
   20549847803135942902371770110444598492561289686039039127362961650747412;
   7399398255131424987385518983859091791839679080828071906868895571558433;
   33497626588516087999032332267991691014051115429770301277415374821561399;
   4233186379276495178488524217481302782582637344188877123968548890849118;
   16740091962970820231612703777380280754845642948836111723777327906969488;
   820550536043041237996342293321063672532242979205373104921952240109178;
   2585545982056962236327416344510204709024225564865190476493413096832122;
   25531203090209351217695723554133035296572824030566858816290411295225127;
   48961367019934720050504104392348686916328658312888887153439430795722642;
   43634344005854264567384107483385442924698488823016102355790034726146085;
   3776992484224247396380682756343516384408777233627691970924719817504065;
   24107855865772997127573331105555964017165672241731615150702138176654484;
   2313157826647526307129999177112046209924290333940809508745553378622252;
   9143620705681927495327308213887791854485796413798644054607440975261063;
   40190355770521638452236108679637150837489685942679542628691526010445028;
   1555411384874624045908033019418865425970279636203565902345537711971241;
   17634796626678390256029860177765530811772409162061570710352455638939628;
   39489276016546541621887894086357821002120110628061737800249569177608723;
   15870506981659282333518053009658482022800022406121927341912342295458903;
   54683835440170952696212252586748526730951258913238152149878950344091687;
   5483134824686488855298425774246653960058620001034244730279566664865037;
   9822647451706256434180585675853971071015587069703513888409053270467294;
   71292978187621787621793537481775073510280960996536908006982721756037021;
   18201485805976666643293745242478716189744827904377557166085739916657533;
   19285186831708783179572920346963767950741089110350635110325250950456541;
   15580951814895446219460286788317849135907670663815913094347421933101525;
   6596796482030321035138760103422150228473481429686915843656590222659984;
   22281908203187482449708551419123256061857694482730143749322603704918448;
   73260662868047951632448465876851281468291567344228717438927281104599310;
   8920060076846515298425766832041945704186930242972977281828551047170322;
   13189146999199137436240279400685183941270088191180689238310666981641944;
   19840894487089994304603452603871814109591468704367373303883794604285478;
   5212856024093872929458058354226480545046857070179993944353632179091238;
   73893273658532077920708698759632768764525821332830503247537565232283416;
   12325440120807611814126833293035990476652709692729084056499526581548760;
   848462948250032565632500576418368588388810412660803819600553406461075;
   22322357081129217839581889885775900965172529823574621338296972557379830;
   15516482964536072385361147491850148466332390709157748939874014406515143;
   35156999587973596929750256616663133356976204546890728536795309639399855;
   43872078193456648151130210179967762896594541411409533845335097142527532;
   1921578496804641685642428922133960980417175054846430095692110117237955;
   3434335639723877554732079945091988135569959847981589236918155179982177;
   4653131933984062795082312161119256118070541841478993437280287919071129;
   60464836966106818511104654348987771981451815722292950894860983444546240;
   23127959911717298423877691398985517723391028512412948100107248863373094;
   24042205917774005707803127471974008256634101389994550806925657748129582;
   1051211561670283989109330868392842374307011803148843693825816517960320;
   12581775260839195070050290712524841109912377115305453205002216640862315;
   8246484587076347791610634162422801928496018142424892048600510756348;
   27419680845327196253283715511981953789749332924544497163537921082421724;
   13375973332347873205542224623480511705741253648992942775404937769699917;
   21787441845412068021373625538523775692879130841259464286279132817907919;
   18752361225873793533222747024292170425424329218467850597367295323483610;
   34846546668523013200608505610082414620900289051543503569769385584285775;
   1621708227266301075140856764088478573700112420188461280333967418;
   13689997289860444191749008335382453109449632150843200721450890407557450;
   14006274161629274604072279259679711050335377162173753653668182648988674;
   1072310707133842393638538230955041305509989547269921392620859682036743;
   20651746032137682892861776602426907619069238396099420588147295186298314;
   11457027965630331000511869693831435591958757767718960976249499085362332;
   52142869870559915351230927581245072700553875965691030265221857184695711;
   13609095703392163727385562079526891720952978822936686829834548336754647;
   40241463022284257326846569901900811414488537014661356269677972025071;
   2269723295727763949437766429023261736073745895320333952518084677398479;
   16594039336685635503029611440242158723214916298520601967601289478379517;
   10349852876776945403482215381758027644571936055592739828733642765373049;
   9355070703019987949910531451238906359632163937009589199474976469805959;
   47769887846361021373057175951417208353167359059841056609000450620423062;
   17827856274611225618187607836200067303364890784349627333575760205918132;
   2710643307101520080495494303340112588826678446784352485359078263168815;
   15003164113921531198432359630538463497490793873972380331092043076415852;
   51686091928131678860448741940416976539556501685084405654287000747516346;
   2573694231770470159116912717560857071793462346377107086049245249380628;
   43501088640033052399532824237861737655137607035387176063112683163416294;
   11201620762232835985163496093982859352990571371388844976031483118763506;
   53227599502684360459035848439965283696646537178332738174886782271759823;
   73696242313487324508437568305369435013879317397744425592198836868103412;
   13895205184483038434510772456851356006440427776273084011111636727260504;
   6812191466364575249289977937500582120720741276930261995541816590408656;
   10104265246033905320341790450722870055122639570324753704793956874057443;
   7925055389269156048894429114331151541224082251354232279621110843078297;
   643580596413748623336775000418865767840609798577104082876110717065621;
   41325300139405709829284804439841681608454971776382943562139823040976883;
   14956462726821131422869580741549585246111479668547634616777654758013807;
   2489570308568351855854591728340646125509757964048247089089805232439343;
   612947201537852224758681424834290878444151656292059866073832709531054;
   32868697759128589020818257048810414175636951464167024869924955232507499;
   2959830435776696611823016937857555467535983456739026242280118020886551;
   13397467966895307272182352570309293873265203771962923436977241587726702;
   18732988702039738013799278467300480833862761537505514201563419642265657;
   1309874676624412144283553284151471442223657046818659022511823688549120;
   68957537253493464381695485797523569537814689913857575043030259719712435;
   963337530912371073953917856718319123416882836481159856947889675928060;
   70553853628005623851428459890349044460855468919706645907978811512223495;
   13527175401147246201551695744868218759837010655427024081120361165083830;
   5486411585294977335446151361743444762804409109604914556137348312208629;
   46117897630221269260027438279492539790279673494331935546357125126442277;
   6629812809612322780058625756588251350254463235489557027332279486152541;
   11942115874334429244033248638786609223933596698668676592275637810909029;
   8473066790828053994226694943588888295555425822465496320768369476848593;
   53596540144023032646866085491572711285067073546594592770790608035695620;
   10502092906273291229163550284656359657540521239509265860349119924836882;
   63207981708061964389918049675970404438726757610174643083750147917161220;
   13995265065573322564202018434088032972741658479422462331506581235431156;
   41535689943442961056042017365674794036284450769443004232690100315383650;
   14848670253617728929073440410418731033997747441871437544490806445308168;
   7054446268232552790555110859821253627899869966555231810498674915984984;
   12556139473645297314290118514427815270253329385336247008116911202045191;
   12848689507497770424434271561781377767758614882378672980376733283962;
   6205919433444590803308721596636083275714441935668651631273486555348328;
   17900236174811815679710832915230527355632069265231203214087501560068508;
   24748064085518823686308281360359680889665376199365490392383318060149323;
   195784689561462047082744531554771061451994996508051612452551841419082;
   65273933237033234484881795051962205397791659537122607653142458714714730;
   3586301485415450345684960237484354486478757239490773775160471683533062;
   73869282160954435249238442391714808378844070623980394283551229072778674;
   612614008979862364909912761243796339862068297949369931579629231217442;
   13426721630152126009454967860687113770729867200503086442235536089088968;
   397759425504420011841010400719721301395962130067926043016562316254466;
   14925324241091872260391429257011821549293362305181059687344526726520484;
   579632037665189099100676911021428000190627783692483761238976884214165;
   7818451881430156926281288898569565508273019597072275975368911713155690;
   17312715997512110347615499874944519550597823381992675023704975053212213;
   8953445648855349432454977854077690654867458241106190401086533605785847;
   15697285726062706362152362335144400107537137927238366041253529279034918;
   4465863517770737120919392413630705127742368880515981751625612955656145;
   32347999321549093448092528577443997627248890941679907053368043134231274;
   68652043588985120156545853560713487346015897008787120448455775319168545;
   25064628191404356667386044646871505748533217082338934873385919913784283;
   4691996576966678049583647904272162820564334309674845646280465627396745;
   59865440428392259837493358323921566409504756373822529364185123592616088;
   61568889113932107347639572498936710394914622819563215911906359531190895;
   5756903330644333950536723770854899942275459167517528580477110504047073;
   11147874241864833781368844764450646918908260305004981574019488326176280;
   15922334813820548595118490711241727707672300379547140327357439693814626;
   8636883517860950988081136068740852704469421157527701837051314654871673;
   51101366080166751999636207937741260139559467332383471657748904609387573;
   17526332768313611300872357149470097994665843071330139659703329253795692;
   458981890777580165312237050352615426766059729261197250159307766674850;
   20121489687680673045075494002588779460611413226579793633758581678707610;
   4772893857180858595041512595755727245221956632013875062830608907192454;
   18061159791408370829999860683582668805270361854287299092053677567318445;
   2250046643045713204307098135692400015772840444034529349494842611395171;
   4745937861198174983095388860137087127119145126952011836814591594339652;
   62545721373045485262402437672854469285998174831778023368177817403928372;
   6663734959624097350420385483685894090076367048059965042470725861535580;
   66203296576652473769146651001086397443901280692112864691468442649629462;
   11207965578490010691720387104959295958617726938982817304037553207363600].
Definition h3_q1 : list Z :=
  [990079869685274089067819496795799193426049271434876125113348038497139;
   3523234067486837190167727816620328707138147160225995919857807195680933;
   6943902598427620566040507888544225490013296520125495564525126341218717;
   8555782696598372221507375289885155425853886992120632874908843432422649;
   7751844576858213551866358427525485044944268855197018995478577627578812;
   38476664613835196748834781468705115678974470112494513702026977008765452;
   27142819198696964090932012945428575420921880469737623229143591720974848;
   60850260036196156930366811057474256033212425607645421547079812641604177;
   20346677712519600861533358236967420646558390703252951092134017590391550;
   21078893406841075082597818872810546538805489190137209929913121615514;
   4024672412600698598173501434647204766160835522747065800799027201499393].
Lemma prime_q1 : prime 74058212732561358302231226437062788676166966415465897661863160754340907.
Proof. apply (cert2_ok 74058212732561358302231226437062788676166966415465897661863160754340907 2 75445702479781427272750846543864801 353 70463328703800545008217672123162676565183935400628861884889913886334520 66117633491858138461393741777649859022484251587227054915412604379442197 37940283535957283147790493383286696582099159842122763948555891970476459 4386812516739286907093083275457056104889941688880599415971985667035232 h0_q1 h1_q1 h2_q1 h3_q1 prime_q2 prime_353). vm_compute. reflexivity. Qed.

Definition h0_p : list Z :=
  [0; 0; 0; 0; 0; 0; 0; 0; 0; 0; 0; 0; 42535295865117307932921825928971026432; 0; 45; 0;
   3618502788666131106986593281521497120414687020801267626233049500247285302104;
   2035407818624698747679958720855842130233261449200713039756090343889099084589; 0;
   6533800445550465250799034157747312671530035450646038907133699743997849816392; 1;
   590038059651765437572058142766407967583679313528560775747282836245157005982; 1;
   1731074615247051634489172293683676124410868977223555680707173906843900652117;
   43324204993500061597826158612414131961250850909546105626879919447147686421064;
   3075446206036701470872393826992783401752763128678510908850634197157076446817;
   14548071881403119631352764353181880382398089989767971878400320788394391368918; 0;
   802028749036987574340757424989663227075669220565584140869463940457761020232;
   27665405654990747157847101006816744579137975244959593346139654333549227807747].
Definition h1_p : list Z :=
  [0; 0; 0; 0; 0; 0; 0; 0; 0; 0; 0; 0; 0; 1; 0; 0; 0; 0; 0; 0; 0; 0; 0; 0; 551367670776701298155427; 0;
   471414969316188648141848639006813204435988828222960066194344599217544846819; 0;
   3407866525535113841503589958590043906304684900224015490269592213704318216751; 1;
   57439662719915560291373545344443833537373646235871341729621994764941448309096; 1;
   681753867153464181348223837870738304785322068099057849246025648789500588844; 1;
   30140780313742161155396419962120358507516903967009827777469622225609662425203; 0;
   2665846952031364783018773992346036109755330739932224151481272086967524792203; 1;
   17532646752736644488336190803563533034752971851389345505774727054966930617267; 1;
   15509559174461008539748278554160429396862810706560140114212042739307338367687; 0;
   23928397935920379955512007785372125661117788988114052563415782363179742778646; 1;
   29995918788439421885777272135886007940012791219569977310675264767072719019753; 0;
   3560633884758025642783116627152126157595607415593531725726976969355407985118; 0;
   53923294150705828565368826338412799648856659163320307707260385703557986631583; 1;
   1235234172882584628249313673354012824984394170021116211577481021113809177623; 1;
   10563484444000787080455850838234529262504645344155767667428917929153249540107; 1;
   36064717420400496868797383468781490120752121379643404363755979831011341627; 0;
   11943372357400507443348253884768913886339676427623192579885771269647908609; 0;
   17118158802952081792840531496358459117685652362575403783107487690461445687328; 0;
   24709034407036513893469611482550692409285213297551637500997077279735405725131; 1;
   12444762835729318066524959310067099907997868637564430909268825779548056274978; 1;
   16954911944722734197908026556333291998674323778836775915075824716386807986028; 1;
   34352610009419735350854172045681890811915190498087363502535753245138100639; 1;
   16826676613930557735903622366421311519038917592729858495351001711235484241060; 1;
   92340478675085526800504084742116125932466276802044894788384080465255364319; 0;
   35279873049037812512565726277712980084699254382477131464931400566541688700090; 1;
   349835569185303571319079199780739689596192820108190978432828949262136140056; 1;
   22993364852554380946801808245168976975102678898950562889380534963287142231; 1;
   28830763700179775617594995080857797956077985964875443078573607651524637673933; 1;
   2797055126514170144399362458386044168724273961344527254055236037515789445727; 0;
   24862898105970042728676350278165755353319436010562400292967723280651932833644; 0;
   36756802728729600531726087272816562406879448001401373929296461274828077918209; 0;
   25353755948197279762666397291776098037850158119451351272397113091492710097640; 0;
   17267853914048470939510667104009318908096613854289526590354665844674996902411; 1;
   37878881788006300030445288744121134904456553040098412894109348162504968556389; 1;
   32694241610420042422251861122951185903324893975318323855256164497065771498028; 0;
   56545821938332486596338455774468401319511776608686621763375388645032594878943; 1;
   10975799456395812507397241022480449687004406884192803978230173285558504202747; 1;
   14955635226437396430402153010800040069223150184737950401518349924573864831844; 1;
   35049064865463872774667179110117118820951907059508573811110802264654073965184; 1;
   19447298753099445045266624378779526336736888194893200538196059327598470360114; 0;
   34422222935773790789221719152985076944217531422821043890868592406458989673625; 0;
   3416869186076979195408381920164290471325947390330921693883783041443971949873; 0;
   31018060762638393180564791363989257063490167008424270573819926845480746465267; 1;
   8244279646395915221718616788133255170661839671843952439445707160320597026071; 1;
   45337650413438285128982086794934816107775610526918214602437431979162391244879; 0;
   216993017772033689384262862465403142376815705483762393638856128480548642241; 0;
   2101788537048623504834225826970024310125226859702642337824896622666847082892; 0;
   8895849337796095116237439385236547701306024649220891067205138747842128736268; 1;
   13843786319297051527352961814461373358019786972149774702532048394340819540301; 0;
   28716442226719068658824201779832814513948555602308443333381501604034730554785; 1;
   15216957295603043327804147114381741638021873737356048762723977611561914079952; 0;
   6156117443938301231651341101675042404686267312950665644128134936757225832879; 1;
   44858114661869234178148964399991575260353105293497282818833096525639392082426; 1;
   36996289600990098088566976532462018208129054144927311919177150382540015711781; 1;
   31225245210360363182548236512687958730695150534851041615263258511598342993015; 0;
   2005854012335102823452386618730604052206372791465906569940142631229222519647; 0;
   56394399093030582784116056142707547306765342825094149589393312074902729611212; 1;
   17984292288347075365901105328956134908051212179861599288261440887958096603309; 0;
   16889268194537246083546811622875068817563320444935747414666215946854964529888; 0;
   20271194372806737709706397760980942583095928173480030371678826465406616475614; 1;
   18470423755380768524759651161880168284709457176877077409454806328160800159350; 1;
   741468330531982970754361881519117431185994018240333045173871706556405885482; 1;
   88648929047477289487111243874596381586229783180417793915837448436614265660; 0;
   8238681424565225299266751844842172828830319530783106852319391305803976409971; 0;
   5125327568877541968277300888667609251811230513338575116327133334009327585; 0;
   32810657055960282412915668423116061619604332494211937948208326053481635288382; 0;
   42478910719567388165630751140420056710130867903138243429110777701021205997733; 0;
   7441470672782062414033008806004242560997426410117646686610180934616964641086; 0;
   33083944380557139164680023649838723823417951100109305745401915458196770814132; 0;
   20495068566402154533996930702740369191874096542995655459154539015486809862467; 0;
   5246741201056289111024866886637622140431735845501473962723609422724845124280; 0;
   41443819575429813992847694542229700650807284257762212720407074675022320139488; 1;
   20170950242698253405313267443962526660499144515278700862905154055998028682597; 1;
   12174277950380678928359748829408470593476285554145203729363273671539020385; 0;
   16517996319079680939035277194410652253408612898022229499751467114015036503646; 0;
   1799340772909007023266297515174663813619483123011053940376182594260146381225; 0;
   1754630476524522313018920235930529268257876301723027533041273703982110211587; 0;
   10648461558475622927153850614471661281652948811336516426337006870186985945601; 0;
   1034271305318001520074328570813269074977029292833347339148016836995778925998; 1;
   13917576183450801434606887604435169071334650078203462365447956740147877245585; 0;
   38067900130695651748110003085237792188281905433617146035129549670715134913379; 0;
   53510761388665855266255731527967176842872209147895899016884270317280663115512; 1;
   6452500134285685584051015625883191233017407451713898791845602875273639794769; 0;
   44005011651842232519099550985716175337911880197539896439079776174424641785853; 1;
   16634318873373543324650453488739661093720122227926540638555137294578033938741; 1;
   21030035802856571126689419792466193616243153339009076325856992706267799199627; 0;
   19919691482104424180167033635695001762613040171910525325451729788372670287925; 0;
   51175435815910854108613489174731959111783900121188198938522937440608348970766; 1;
   10775612208481536965979086827984598251291729169529850033485814369813776459165; 1;
   34460336119800936063555219373758071689644608768054504466596342885380843124636; 0;
   33308572655475613267824929524615447545158404722743749667789010782257256126453; 1;
   57321461973078596589881473694837401284031183082609763144402973457167757206231; 1;
   2651078701522913340909963445686884778469291602657480224658873678479077475073; 0;
   55045489137399753797307129082151059155970630100215495574175533899729989412223; 1;
   12705366735425338807878452228648570761259659756644484150720585876974500801978; 0;
   1305356857864042216093128053004413470165559933737798444605362411755619934485; 1;
   886911899320074462485655455831715172404507549133964813313089228843265065179; 0;
   42822734160677456268782020039975479586999786062461677495271803848438877882926; 0;
   17479270358499966951829612130829889493870552014460528968525281941893056375130; 1;
   8269283905651079070705597456746497936400561552214083417079857293040528320240; 0;
   57280462650310105513029781631875530915670216750908601058308989745216453440192; 1;
   59263886623715842385250429463904328851837976803549306884465521943944998951; 0;
   155437939264828345724351925613946908598813954555858217016461531934135824660; 0;
   55610682512706337873978188305924908538426245872387794536059947164666703719215; 1;
   48487395028909860930912657133367596061898400429307182406276295950004693233733; 0;
   9491349428935541543091274868150239842983114647560533763528427765929777774290; 1;
   33773739942223710330393727030435301779400832448402398536485359657839624976810; 0;
   54045269050302048059152120362555340436145570186392158687151863763997198656325; 0;
   282381374628920295336720119864987421737720455350748927113257984068709065777; 1;
   15549584646399421811025348070478260725530196510919910901891089640209329113495; 0;
   7619079073400264538558131946985180192059335542748408178470356216476381908686; 1;
   5401452398078660195667632557630494837342912018018830410169340176934427160557; 1;
   19581169453013039667607667664152337172343815417783051552108111633941763077640; 0;
   2220394316333216009624907998909708589796079744530080656945614047445369212804; 0;
   44055594435348127377724776487204696907507211677472191898013562979475015236604; 1;
   12557451762293326913331157669484857331203261036770097494796029737875140579109; 0;
   302875889030172730835508257261864954711796571589235523116062309692813122094; 1;
   872432115734924987056177336061072530496776948103951588060341170229236816343; 0;
   15027475222894196806802994833546260369442219777489806240295755017393755663346; 1;
   43181665116713136698188955715367298198737136400026736929180695794292625843473; 1;
   16744129403857983848880883224029527869202234408615216835714324570386937728630; 0;
   37850068221095201532609376676004733302243943230204913968569519245682065798758; 0;
   27783503836313571807364827048261448516099795568732763446431612612964542792142; 0;
   19288325560055351098889800220833346942179413715957681929084313983125243625437; 1;
   5379880503608603015662645011603275270871747347862936585646052422776881928169; 1;
   2969883641676465715992858182867023188013124387053393547243056511855074948390; 1;
   13371936354456643101186921399860507608603025770859856301392683399373286973561; 1;
   7057754991910066312719021241026275583892148745792910899088197018028787708689; 0;
   1421292872991446808646562041911757268817083506367382179209222248878657864297; 1;
   16940990405518270736016949251736900332249812412177729217956439095135253022257; 0;
   31901151257899211189622793396592987097555832481685917612352131763529641104; 1;
   3581006348395142399199090156170830424737054952053116381839638324209366930550; 1;
   57180090737190906568920278713407716585513430123483498344643325457052638228632; 1;
   28397388997746788010120288781175245795404461247498157395448019787066029913299; 0;
   36503755027782280052174913481232021732654902378845063409453609783886748585528; 0;
   13237873840041991748115054468211995668817644001014138344461492588407372645449; 1;
   22083802961553281552094008111795423171972614510877806518147529432230595158987; 0;
   25108486629058182604762270031537733901708592328946374186925699484189209197230; 0;
   3337776304540138305622174871086675732482979236034894874141310488944279510669; 1;
   513862221556723360922574698963374218844709337260391032506806727898197464371; 1;
   52940261889387949324894721141935558497499586075030821149194200714525062094852; 1;
   8182224398707002008467721216908575577451536385589501723190639146609883214852; 1;
   814837354505072890783862455537010697418578298349000146755849739960538568166; 0;
   8013994009874995333984039403712644238391650748239393515630351795945873323694; 0;
   9385496614479507187584469048759426146413506831694861778511263412886577289468; 1;
   1492491473136353278865038247794101705871711909059171547512691974993202294582; 1;
   12028168302554133967131361106541335711110597152217697072855604135757257361578; 1;
   29859110114238887901715269932784988182246388782121032217376695927874080775770; 1;
   12204559049162550310342150530237665829074927673651941421712830138095960084116; 1;
   53376498681951113637923116555672486227874296169243416286995799017973545913985; 1;
   880117603630724050700458535054791890545038521341248147989132133754900587260; 1;
   7883022977623546853432583830024466241380435645787297700012473398221202950969; 1;
   13479290758655103539274013111791317852558241150374412919600780887088754389195; 0;
   21864989942314422257480581979992467344513913273228370487913995907076453880776; 0;
   57837776185654502373325086475270774786881495982195931778083657348047190318992; 1;
   32474809420744721242729531283519825114436460525674695294224115819169719552929; 1;
   4248916381885951387519045188649244076209307491911607757082007758231270047393; 1;
   40777322094351150943021912184370417759920186012382985939752721218442368815; 0;
   1788129736276094883269277072266192172362686574469800587421772222119860461196; 0;
   48961047126477420790218079424981091007995122616194173222455379438002112610048; 1;
   3398899746887470391157670614969521676539078835291630453772772893246103953723; 0;
   635446124032282505865965989614742290174211606865086957036102317609105133100; 0;
   4668783131598041720440118816469797946176876587635082111330651932063688609895; 0;
   662871824790663965045266821083179359229307001827533299905971075055140474104; 1;
   8095492746796962504169350804592242480315270392527643371529363499693560158; 1;
   51049375474192631807774339902978894389659290942252532444025867333186886931203; 1;
   29584616252783592152710584921613924578248142612472545122836982004889720930990; 1;
   49441934888995795846100201658037444048930550649111897559989518682795523584105; 0;
   15307365246307946825888782069074061503845253185377170402705130973837581168725; 0;
   736113097430203663969703056262875552398608309654522277504723814038480845259; 0;
   2853835703775373041814430622580177504821342000060573621834843227735012260527; 0;
   9968141293830594758694910010595223938172889029391105051455219086464298847516; 0;
   23656856626744453021404170365714492677656079249781751917588656858403608676649; 0;
   29002193769811042582141368991701903873985953348237497178160956160036688512245; 0;
   16025805420470702356980109020037825944744827483279515371612276817194112396895; 1;
   40313943010096725604978657066519115064450448772752759771083834588728587163151; 0;
   10143059592201156448079252101130233593246221336884982653971847570617487538313; 0;
   34269996010133816910242579591446204853061184422688904802319599167086009614733; 0;
   50033084588199673911362795555644721796856196302409271924337780299531018011640; 0;
   17753162181929155995660559730414894553899061379696090683567942518943299940293; 1;
   45123333897517496002146365200501894166590825725174564979134498200985678548707; 0;
   41056464178956021426237172540911978800556768914410975287109404695535889887707; 0;
   22668687174690027022148091007487442172845448044866169660372733519085068395032; 1;
   25903362345611556602350185493311707386778783350568718685551649468018491919741; 0;
   35725605773954585153145063544328669121686136131410331139299338493408085414441; 0;
   32157101960039852532919172217768695617160610907562041658670797021687981852936; 0;
   43527744272610477221211999656933677195064112105245543227958281890375059869743; 1;
   17830975233416458840558922693887061014927155157904067838837850249921974713727; 1;
   2111490717563912097146416840835614257594110674041268261542899297758636914347; 0;
   524289447139529778917793415707730929095413079782405100777026495409155843146; 1;
   26517566816462354567069292143190799371166365182157201151564094938096265070317; 1;
   16919805980330138813471674108096281338321907953621997941436402001618426624384; 1;
   4430862675806366589999777138736540462055490873201406554485523486290739888683; 1;
   814573483647853729916543883522152256717222885559289152403727339608340524824; 1;
   118919125117368502699720766645318730207407478380822292918531151451510408665; 1;
   12862865885897449683777373318762225905272488287763929343080205799553241388142; 0;
   10605825627066352951803434514399964308762033143118146136327543324251785925598; 0;
   33551778071489997975838705634357012806679398618112868929646474427764971831086; 0;
   56274508726450328418800403730263863898771161063705210646891764198179012486912; 0;
   162996856616292076201891652863387925010437948595685053996819233349703661271; 0;
   5076815061863441977300191284933751533628984561378253438405334233103365032924; 1;
   173118387392141024491143598253971343710024305382891046658014345443593318610; 0;
   51991457958631342045856910769726130599711200470649081369015971756292366147018; 0;
   25162183085703531035957969185654340311238534096717633862515072500407943831926; 1;
   28624016607073208339502447522523985442656821711648186554217440658225591322018; 0;
   2303228600572644604515441976407479583840467241749730231922181880756343400006; 0;
   1443758593206892706073693312445564359926385478822933483050614370520783624271; 1;
   411835771530711295269466736941711751549428244444664349807287502835999053759; 0;
   9809639751662067775868092497712082155571803445972882665476354908580563145197; 0;
   55555083487403914971962245366740448323310995147541568388744238947045138589601; 1;
   7848548512452245011657322428155540755695092003728040721540142662848135844649; 0;
   10457125170669700630404733762268851047827608662724064566027709665050957541279; 1;
   47952287254136167527364817374228602055575478964344435742379624018542151779471; 1;
   2625748989050924247962147908193502335475020836248935745885877350463653197723; 1;
   489089368520581831981221823733181162067762272436095115864495588177096581; 0;
   39441496655223303039759417915861689489363618844380879985731524478113090040804; 1;
   6569948996693813866186563993342092115179788708656831190911845142749028474803; 0;
   4890451554444173848410957734683484733226051917653238714885572708029795535170; 0;
   18456520398370488039843537567843724983955339456682546302112090673107915846248; 1;
   24560671024029498101409192014039894381796529323936523725532495340502637117851; 1;
   73148946875973043763945049487472204489997368460169253866132612661368775116; 0;
   7082043758824245724250220596714854179926743030333258907231048198507040482565; 0;
   31303950045713125514061803103590566770527472272055125651918955958412523154392; 0;
   510267628463283979229419957349098934725685364919538872042369683079085276097; 1;
   19828752345965033556457973704773249036435263245855922458473013709663383726348; 1;
   45144037633531199567604977608352691465566095671607702490554084595641157793117; 1;
   32263100127185969989696863398217510727881883296173420030945626229160108472455; 0;
   51378671528608940569087741980960467593970222348428561824640594976783518703756; 0;
   24355948021092395447979661187192218210830508252954296606083603713466683562101; 1;
   249926607672856961756551730160719850325956690093267497362037028807101497174; 0;
   253336106856337575822702567059325284535630038361273611531628918011000249141; 0;
   5588740563730558779593242541589981380428579260506075958851115525931187564087; 1;
   15908618963214150858240814599460018417688716622806265845449828260147920293585; 0;
   4156740446654141806491148504172307452323988466306753580168007149530713070092; 1;
   18566237442335113046999040178649889375261089450630111591423940033251326048036; 1;
   11395248118616388282373711563576680904769273097729715614726816996477730129580; 1;
   11596236460477929545566178131854128722048574112252601996863912492986552378007; 0;
   57488892892568471791421702514207109143894690784151447750986744052104094219481;
   9106281343991085101820925239539015584070553017230308605775087286567541147175; 1;
   25987193640288435910976862739541649081626749552148071297187051997361557318925; 0;
   6690407189080634018507799843845558368979872843924222843531373839242004886244;
   57896044618658097711785492504343953926634992332820282019728792003956564819947].
Lemma prime_p : prime p.
Proof. apply (cert1_ok p 2 74058212732561358302231226437062788676166966415465897661863160754340907 55540832096118778044507775605005710249233119951144946814680141076505643269084 409719996120619553712206717513598108624848060785013849502386565616653579131 h0_p h1_p prime_q1). vm_compute. reflexivity. Qed.
