(** Generated by tools/mkbase.py: the Niels coordinates of the first four doublings of the
    last entry of each row of the base point table; a certificate, models no code. *)
From Coq Require Import ZArith List.
Import ListNotations.
Open Scope Z_scope.

Definition base_dbls : list (list (Z * Z * Z)) := [
  [(9150700901396372002955937811386093231723774689136611388824386579046465544694, 34803470282035254167861749748857734223267880134292052229384783022034440302067, 15246610844507238436930587905379585262140699618205036629758710644752081668779);
   (56998634480820689224812234692604884713596111604412395994047877857290066665871, 4701998613811609213925887888520231796251786686876732362708225031217252696899, 39084889060773080097331385580401073267382287202622369888980025754481606748147);
   (30340318798711838421951331556490767266021685221295035303866716430611579841841, 24932384703262992566065740342801154389079494960625337105603301029363501065499, 34478880866989699027487267563044179959088701728826299758724493749787374435501);
   (43664744203255909200148347263385470436435959511557546844847502698877724353667, 51248953256284332391137700317245717899341492317885220006567182830270196459874, 52416873715390724420688512593524310454221391214893549367399461625876497067032)];
  [(39233217367744944082743727234989693259911533177309831461716904563803921446866, 41877302029680014373540696028369248887210931711892764634228302435410547329496, 6294266321284248804732561995749022315991294331658984711867651991737648589140);
   (4904412209339761180286532618738770454062008006295097537062582753237850945914, 41239042376942260444617941012969620388890361950357076602629139995446089147819, 4174173803425314901113953056859270183146891685173307298316612910587525204175);
   (55158454346054694268604020441458183612793129258730060795712830474277845193867, 48229813147520468874845442934964023824873336539479111945131626172356501781879, 56794712996622765697273472123852161834985848776045892863113866573885657877993);
   (12770184574188621644851783046033290637998250387524720053955675690325502037083, 45959164983013416229143330207580281711029926589895765798082217843103463476785, 4499058081301047894070537527562232730008026138381356706741189936783832037296)];
  [(6480549826064741809328337591895651998028096356534587962948998402906599594725, 419243865549101221419157110606488251204777884130019979821866502075098115851, 17815433694086510049431728277355479399098183181871690799482747222406837929850);
   (27018923029239457803657209244752977129985739328242490994714711393904947298267, 19632441190381254804107326885484740810708219443602643718345157432467126378702, 30589303925827520536793715297108584538347114326826589055198478607698762664536);
   (47749627333136099083567916553369945239553804462831484396119836325094428303541, 51659565042808725279805218003850710368305926169517330366945025475058608489002, 52283395279331046867525305158817553636318505072899773211906451286485730751782);
   (22496070466863838813376617589410879623201825320060904330061763859239383415207, 17351779753683168135768649016284636994486862692623638310352723970068194639084, 19034117806679893673560883158127950105158999319916380186464491956642213067121)];
  [(20228105077580605391615089861383477902948651093110614018006228601212829812897, 50739262438981618138604305768031224265085555730473399623413823829986446560312, 16318804841537916259510583342641839487626383856403967022900484921847210283169);
   (11885723816838583074018792554219779064684285046928521397444516138233066886525, 39531560762888920858585255896256030388577182770913576037217881623551806533277, 35832470649745908456551570209828092611012750716650358694600326446010171045887);
   (55309097900275244595540812102580096223347468140752878775874983984975695891697, 47208749773804116322606667033397203501950472200820296195288268210573616930236, 8083056208648668034144471534108745956945302194594924619158046927247603115253);
   (39919050734813992231405536031843928074009219071754640599537776056399933191789, 45945320156859477738353994360472793303317240314119916523532935872320061970583, 1326440030274893145679290745069684036509929880525724343952805285767500954786)];
  [(19238310624339690010350409627550275976108757237013722313670832090412456009909, 37855451600702306380738652731348760260954121750363421172459211694831619619074, 5270760469547992065599218398357713971129670419693111892076806973443950062927);
   (22958599478870231972095435491921071321727680888093042925691344798628485557660, 55915739696162086463960047236349335733189403447425121245282808522811266327585, 8489018637797290180647092275649531371269556915008225667859275867892496598912);
   (52019434033050880042442439734078393879024747597924613565229610236293041437434, 50920055369732224919232050349233188227485914693700981097206687687163029446124, 25784315766064683196108683254858871324434331305874443264195833957759107345473);
   (47093895857636168066134732782191630766523690668151907855819373751482162168301, 14762704846405861073613058002013227688437453808003631442089919367483943000822, 37822850639153158152736401727490247822116643143379073882836644145656179674949)];
  [(36918196726722101448933678860889797205635177955960663745753736684877656398356, 19792759282461516403059541435426745796444315754794010916384367072719942928773, 44417613354721438129686024789890274051639171060493222307024643320224730631337);
   (57726455918441732161374379422646745280029098034021934091605343996147553407603, 43139791409575482953749655001329897935535251830029924309400815164876474272278, 57270425352881444338406627247168408088892304444247498914410703008317439747845);
   (47063537400376592821060118630994932899449334552213294216292381919649384968588, 5893944201089945755336144099942436442471735737646293838675905175387005565628, 14952031796479317995362254922192902913867129475181991620864039957821380010987);
   (44259017990347534984166074681467696190053556812836312064916650787395165441259, 23885545767277264186013334580522072789574641086479308799797608612291276282014, 47868072440366689174941014035854791802437081917006869643575464266508214458699)];
  [(51956654281199107032646883520755456670397495165077329721678721562044747830153, 51577943930390623687170625002526342739440813934914707538124030955323570748481, 1619884466688399128777659121310493202520864569409051318977461518190682743568);
   (55114293388014710577873181270176368153397891935701164450115404901685262632356, 26793374489195845885521166144532151671940485951270675431551017925683726708212, 43812662911025766082129843976351189977534900321180007386411805426119737728373);
   (21808955024583456816737303744330158092622569902218896451330150923923000550685, 13672431629770178892865604500844231025015494962039128962368344144847035232979, 37928332563529951707491765249292792822944693942264091034036279681447408280988);
   (7968477510007827606435445207869657988360779403213970828173573668398676677500, 42216988583537334385361187201734478591033608839682085754733510060674011191937, 22874621506468870787739912786603253911216356036579474225175223628012295757133)];
  [(30093125196965367685981526264725504754332396466127285897228009251475038571580, 9052034251620205706827156185663229978504786077326025551089469078038877155903, 4902712566943950744199706082070683166550075840709357798969521122100385721661);
   (37269293509374695477101338646535471344399171896611579258055354116231451016863, 8000984971521348259300721087162075508022068305263762918653175743525410303157, 30709321957448063394588144500877317005345992180579716333782965449414860911430);
   (12579719060343104455282808057167670779768942604076651371217747838342772269098, 47702712675269339434589082051757801648304104337832424757743333112946205248406, 47903551559008303913687900647171278188590054532431085657312883140459997321634);
   (53546903703359431094648424818051869487029327402182101913279052438002554153131, 49829415220052758663960833463479664041993077134458006921345767835557035854439, 40053574824593079171141973951263233473218669461469752607151618528397986470559)];
  [(20020780039529006300845947799009066733379107699593845039647896546874224898398, 32980252754384554140471826446199976879444157450147215177201146178318733946092, 55993644306976304103344834056106200133776946408320313878767235168643373892415);
   (12404633805603550874724628254851313373558443696608222607569189903119233983682, 39447725265953999306382624543315991042556680675800157205432771446129763497561, 45221445778998025375833171184333576499365647634350017935692576545326646920856);
   (52398358348779610509342589685866162170873741105110226567791376330472334500349, 26973241560935523488720356593300373175214142520019630742708363487218803960237, 47075382832275808187039147293335414219983910690623414856082327892874193689270);
   (40557425522788986321441778293671640794084726215204064503883067145245730589812, 26520050914473004359684359514879290922112345566569427120432001634940482719187, 11035558072416893960732099966316874336089397763106644600542897114551980829733)];
  [(2713392604461861686723734081934261555305819703129594204603676725602510667418, 29050895300783521808049570404875149001510403583903130624611990717819265733359, 55254956941533252769359749600108426274006860018895847315137968625124374438201);
   (26149337995024683493709316671756158759073952828742209801586076066953975534338, 2279560492307930322974539460671633030905577003235254436334310157346744952968, 19611111560372529999436120374740400908244476924395900116058224790873926851447);
   (37350604812291711739792023108357612565341869762170544755481144045416640066852, 45755846414585105445672620688326532201349422910799802274291305585391877538109, 29238323153042543172713305036336280387169393128519978011901255481281355772454);
   (17530766338798746851383918061560411741631057273203184466619043942756004356822, 3251282321307115286448521645722997306489322493944037482195857979136664638322, 33390660389661148918291829114208683695083192707792623712484681142836128391925)];
  [(35905976425759216951032961192435556430844196618167511537329817914065114522144, 36398842653090509339062756880536732468749778493576125882477939014127250597385, 17110644016699134319165316291043465348041710489226873362876141884249697304116);
   (29627051913227713816332507458185230140323706499467651432590251247615080541013, 21540843015634029490841174471559232856665002667821908647205975174421615849839, 9895281481740137184170159382250087301103941079885107187823878055094047516123);
   (3768659024341117249491098723584122266706344333981622657919620339066347168351, 27729876039901811366790817540567895862704159966852391093122791842554353918162, 46841784738070153871786747209249356168801862172373981297620756285491055013145);
   (18483503046857252429375645563637754951587132532205348576753810508712804608332, 13324204498244154729700179562847089505007953015145942743907926454844256606482, 34505722344444351453194346731721085511704801912037622584435426310526413283140)];
  [(32364399508626710899416853671937516916518441965696484319950818283868609368731, 5040935096316101636470438701185741236436715863683671398107770716543173862999, 35183468570218605303335080881177580110510010843606522993988233066837433844416);
   (48730502736573766327320742472093931472030717953993328008002161838994460789109, 37268943610949337775671098878598508810882793289621511950706282659034249070262, 97787492866089091754221454824411310150020137928504154387103059499664346454);
   (56297996893969707610871067331604571443081171123708602659922814047193196201398, 1651466092629576823795517277661286170299574555301276048970089213918242743453, 19096275896652102887334728364500986376213425788592372741299480329572421147829);
   (16334867078389064885109837060467176931969929372189737577955599726276904395315, 6451277858413706921351461060238480843995938592018322958137771311960455654875, 13367948241636799057143437834641419209055427940465183989508185748330434548423)];
  [(26135278318867212160009877132759729477683821448533088453593545567162306742068, 26438595769799614534171280426746668914667059326668886443774027154481945892503, 5853414872288491317035286370487192970091429453870352486089087595085813673064);
   (42363118222225576852150967470876969773177173716850687553237061623958791951450, 55954407209457526793690411706780560375786115013801438265594667524299894869181, 49219053954548784427901631658030856800377595045088225681210984028582316086687);
   (41685755285441343534555699146164460473739804412644429165592581933281107039532, 12339900863810792922652965807427786040792475232367501540178739227893090482169, 15459181252117847875973832572244223826877252876963489309910495157142316005249);
   (41936275459278513892028662869335319825667417788472248668580578659898212719895, 14115791234651454395533986752642788355257831724545871947750268436768458849437, 56392202819701845307248331616619220756472864233606087015210541083076626721776)];
  [(55908560528115313337331192079572976987930751259182231978092407972406010699860, 47349562114064199049455505554885199492921087886151761769310924232981104345321, 20389120783135300269061822752274797201286801113084183102336892167256542399500);
   (24470320021653743288553553922194293610598963554618716086300327973575442987602, 48629386808616182719844028849663762289686733341344123443681278045224005122266, 48203973432746698438400961203686870591815746147904382364561534034586043073714);
   (17657945628621291754587269042775545983098884255332522933504015958020196600278, 9438494402160282901937930369681759573700187954581341631581855985215670587320, 11598894644876474819351421380637895738969317752102519526692567530505599593420);
   (38460449615910280820790371532023959880302718778121194725079464555426341357048, 33007988241098964107613687859081433524086423507854904238311567619436896863889, 39584939249630978671154511520263274840610269716264516148611131168718593553148)];
  [(10900974192870607829506680138321804199832223736972419587654320297717013979204, 29127498398513059995201066728023877036458859343387648328547598024354676306984, 24754430835806405268171313112177562712267050161795714394601374791967374061188);
   (54196495570350908130021642504342204676574505042192972847049886452688053817045, 30960394061703469359134176601206492187446853585948505493804462451446073650241, 20077999796832723164971637251057111942540952972305416429805009495227481560280);
   (11019345097139622798046187073698087066922447256226608826017397481896212846698, 5820588615245511894029881504402697299026606688306343668786589928163656000629, 28398715515598299711256704492693608540484447224998913572713495044732437646145);
   (18425506961570116601076841601121607329149390959536277088383869194530120247554, 24407579601905941680390411050991728340348529633567968510055614570053217688801, 26321907668377070402703837494117757940074133626581358149279061810724200087606)];
  [(37583486322670922385075650426941623920333460018406542018305976867658902089840, 27473891086016360242188172993954430383857498731478941302716607143545663554916, 55110123738315623061129399787308160687335628619758387800390915029019313954425);
   (55114361871029474583791782900429903947017484378419434410898145812375177598775, 48881569455427526330309077598344390060411467144275677227882526686965354578365, 22368405206115094894083602675978608088250481474645052283465798321615239852549);
   (2386219325892276317613181682198878642484654272120126591129717828453063674239, 32171283028294928957618712681864902579454458872470737206281973259095949669668, 31481560694343490410166779289160193539916948155213118208645763750937427601374);
   (11064828440827513439192054732080206607063733165148357433430908542043450520071, 42449541200173318588816647462408876714678726888269655963682424126372307544782, 40562028997808033122937839952877146977330732743456770140399198053816194584700)];
  [(20816729283658675737597874036244755459432213712673199674477249282347378100896, 2827949606557303530010123966069536093977590432613525199209174913470026768421, 18651662723270416745810916674523982158841053701046928562734332872960302115673);
   (36511472298295012127396655300198627608903407811442367844317986604725477306880, 2049459371736403135779843290437168998981580157757276183787500159891340169366, 33932875610175096313209349301639875228169000873301945780231530418536775829858);
   (18247548468777541579077707199359291630115284164425204758606959352497720204546, 55853818989352991694607642880542386300394405856725876217546564011271044744392, 36662023409796210738013574994432474231652270597715342181201515423176199334046);
   (34070137386085787140935864285329930047141558283481057533817158218051891634046, 3928786710474104009979167246778220749017877503289432662664261553658238913134, 6246117745815547459859072066610560193981368509132642046109822170199907679720)];
  [(55989946456375606165439889472714594603251474029621175557852958440037431409651, 4852155834875781035877814565700700976527240076930227074072174229123474226148, 1086909226028915294135441408166616601743915982790754087691304356824659712505);
   (15909809889005867367524421217021395611098073719597511194365816539458545952757, 52519748445570161924676083189383330091158973481611635475076288369743788279268, 1810932840068087007706309024173886885435578094294359647517356349380941040407);
   (6059527188866542658016599743332346683163647449751212243298345282584149418412, 4288220273164369139669691076631629742933809433970265176956193674551524398836, 57798977880495682664745312988149132967357577348661094705170667538320118634291);
   (33490582160136352298205960007176785250765553184288324526103394337424832587710, 48143600437069407810929624971159813590810271814525586759515201515080337562413, 47070639914548789394721843317041358909581008491336722878017782168955730350849)];
  [(17279665776878985509061503287402832131092299927060323084736802279902406091845, 3306260197984012910550852117722600455708043411683630074616054469981948222071, 42876870746295740312847812960305349944434638580913939582877300132110586845456);
   (1603252189693514200902836888633976284020425251894517618753390580396146059671, 25411064537158601855213970699620911270833333634014082500972018180278739139406, 15235042874160357901190380539248908526044989359106915060630758789669574299814);
   (20600504367505484203057461901161784472066241766941208779371989666659434493518, 7098305492863900506006884559307921724217379589603282693945235625946394799753, 4378491647088090945073935049939887721356433845954224811686234333583927119915);
   (40942007598391606525189171542550556186072591535757963615424431466718506100027, 4290193919999827367609371556414440590369856465845806411492607867449813086531, 4555442461374949979758370679457592722044255983104237966653378164827859162314)];
  [(18388968933670730423038532679662466194727041094044865682447630165559128990185, 31366969531515944374680028337748424705468284538110937420007479319937322716490, 25306896643361620258728198637714402509615298413337791717128543620189262028445);
   (21926981049716112996977877809627457639611289691445095337165325461747052687645, 7001130238901181337406480340068232848747667334478599866866138006533212958216, 38638186482142348011467228478090430994364992376933674012860599284488782306528);
   (39928331414003193465574104541805305912561569898010815477573106249439896683471, 6928194428071063405693926470819083986924596131671323649974629715273334255241, 5995436125497174617224171921444353777825305428456267155164530333859783411479);
   (2004007499212568899640847024972257222276518915814652305359330117853481912562, 13760699813379818001621948699440995358454632119560173289455180029817859405708, 56531143174574626063477452286893595374332505703241692398464030602252175083198)];
  [(15669390887261996972541097573251699316363194991460993510930253774376039431216, 6481441604434674251722151301237027149677047898677253351625433079023270820732, 29559271997178921624658306938798944204607329382926023026275824151898408070232);
   (2722968881390638976469219772442544614751530397103130960257335824061931079737, 9417721599045751748513382216692679512054964631246943476749673742477908188722, 51414521009672608788797834343360383246450971208790812791170716666390124855170);
   (23427663464890778024067346444622556718943200713457476888478104769170624042391, 44457564966178680015057142836551689365367193763011300229631294647466358217283, 51602809259559988046960385996573801297906341961078793728103909848725551409417);
   (23578284508170805760193573125312691893812639890759519912979700868185590011016, 31662223357703339344075706230948549309295719547938186608589445522277417090097, 41122580965092749884993609610835391289398208276111753684721525644388300908023)];
  [(39589652964703051311010156079938073430224213513671413038802504024600042758727, 33092651885666017551082980031645925108353432371575483520112963503106501512510, 34604550725988393431880393577285910237198751650080160786151009633890395751212);
   (54562577767967502916953760097564354441606670697613794243953460922464355435652, 4621653946844132742844938987227170627273714099982874117251665840039376566638, 51870230934038716992345780077164103392047224176409279899943295370367207495211);
   (18238172509766130572838371819374335860088620946317495108545814980343300822932, 21643524156319915059511342994765532945143539962542425124476409934529155488163, 45827925934113293354298179366630588035361714371671691237491128196586337179320);
   (52480799574212018296103641750962407459123884676888167027445524858425752156689, 14208282404154888024012111114010736524516613021305753100424949648820480726467, 21531103854009690623981581550647286456059934634937707999682589185058756094602)];
  [(4162636603363898912802506016734676141302414346069497572792082195277430623166, 29485708941827416286782376064401195135545585102276699998591977987442165037807, 3613692443149923792376614351232710419177537871069393272542298214079918597238);
   (584785219525950170676989274521865689357439769128629296953187445640918525891, 12718425858699363827577874084978253374127524126829559947396777360829723782093, 18588143614279976351068635712065470868823592706272611904784960828727513802348);
   (37882208947317627261499830191132446807833795029824373210256954531113040603046, 13795079075399559508321400535529164627214519095947643547813099448947406064111, 28307297613317703095807577801362252481222779978105713910175740288869985923007);
   (13164814998635651238619460631778212018370597159231378721179731891801191967134, 57733395054077155839536104799605618049007161755081628201792019399522427573739, 39072652196698510290792101474135294079536544463916243864774794134156229735967)];
  [(14433019317592528827773217842492832521107225826321098069369329761560858171167, 227672649292312309415764748418086519533207076911048037684098263976604341455, 1873027871472164474891178978745417228756770985297555047750065378531243509802);
   (3678591536329768490469544774394264647023667859065529436585204355656801411655, 7825969676466478768104460439023688335146841082429203154866743267161198034783, 12135289205507046471967598107420548526710480005123125908039823619206445526179);
   (29219774217519919237616767847596595986648303461023267385024025762354624769694, 4956209539947775781733061279772566262893608593857496887743827680501502625231, 46338231075521862916344238107645461816112384899349012302277688875595133428201);
   (12701313107394580236461066638023179145754036828323517951659941569561363932896, 13520382171601208384746513767643911738542836919401653198664014423115357059373, 42948948742580699712637038830317505862399260036007473968783911828705843368593)];
  [(37082884071409217501735151535403647570992630841419959116788654210139848164120, 31100210456026919531916348943250374513916212845570508096479695019665124044395, 49944555817011015782128986298666712262751965160005745312223671206413938633100);
   (43104885622705402498154505883974980259039242488210938263351972323294601588872, 20426769793430046937181187186233719697257896322123931651835130211853678797137, 46555300934813292684570057799775684937713105639819281948706365592227985969882);
   (16472312606931799614462687861414478365019134565195084351702505064177113490667, 1365701217766719994936920451083547902972126480076447240913237261518942286471, 17032824455551912013756679743968383750988213648374295751130192845416394150689);
   (3620847422797225669537487963319878510813625673143035314029197444558642153340, 36663129096830406075171095727813040888201913791218274335237952876157861170529, 16167626088967368373123861057636582937002343894624286670056332370721011323875)];
  [(38783356964219415375645781364262308018092770963392205222937967533997272217041, 22678533783332769283518066353569282344909020900274167896713555998620046295535, 53851163624984389547911593236143796203353534647246263749287417403601067916735);
   (10288109288710099540577935307677531526790485646522926317432048976807234400697, 4364922251525628581494613500081028063970727019104336939667859836206272383453, 3056150247089468790138748495322328532228621379580436388434266912861742118837);
   (15727983632476638182451520826513661402533897723074407862301705423650622255106, 45877133668321431389195312204756837428802659643331086295868502764495316201185, 5601609788235252381040085859682093905767654745188372813960213483574074902841);
   (28562869187466168498640582431584942987797415593409072045358731303432973060869, 15091173290662772602690633677319909585428287065061869122681204129258476992966, 9019040900321860156323379877113515895459526534712942848082160206060211335580)];
  [(43594231771136442136094965816583641298161020489686436999243863276263904089785, 33051610874198922080982482604453403334859782594328968818476959913458527014793, 48047461074141693679101135326997465499355226244746169925841543967728266700765);
   (14189163930693848432445340001705335395883947071273862638638669783718072458909, 30094033088927857442264362537016824592195079176139370639527272730208234435559, 16336519309234421961768443453196978473571735281279035003646882880577304578933);
   (32921006601579269615287127502588407560473237926026595130655884862625244837801, 24424008761609483666573175042797410838386815567707576163479997011583271966974, 30233687018078215115132328839262706807499570867406827669654173778801229849669);
   (33962611175564665715001837609414466463402438498159316145003109237055609177953, 27305339667428645735374322966654452619102130613795864263748104615612890625953, 44107165671059579973019331677534760205916752801709848194127625949616917263233)];
  [(27832854809531511662862783602714758429526164500954632379799562133232916579964, 51418622689808890706635443146519623072625554248459772765825419210408463641599, 23605753737898621896326753145261616824396777210336050903147268406015232497545);
   (49495772910442849424074451708097707017262194806722126632275873534327354241460, 4688470781828164278366985277933962825622285795353936395549900233168636985161, 23167428280392337362122243174523600323693870950832135378758716634290654839171);
   (12474331366584991714999019701053372545799100062343268005147684527042412626600, 20746308809766386159238458318721613872967392788396486019368163727586869430964, 49743297806639824806421461832639067963127059552102076843193444233280190612250);
   (1354421441581127864437143372844274388062292350084805047329018238299116064940, 4033167163859822565099887202523422255672122363891288449300509405037201589007, 21825061311012435233797487897412214964370135872308542285909639361736373430900)];
  [(49831265648554118747685820721973823458577493163060200746569221726630404071316, 23077157235356914378873484756453138728644366839534587614646314572727004430125, 31156591342929994802338966430289220398169529984119623573246002714316965631631);
   (49152655319555372452785886828827469752396599742259064798778741111564452654797, 52740450865667615695073023517436065028575728038533627196805527444393643652980, 48185674567357962503082120013584597167460573487595492325057423443823102647904);
   (37303035324417710806228205694856778879414324305008795273875467397309778274898, 1258535555772718541888056638049710647818343934237270462674396242496019157742, 40040891397499336784672922897750299595321317524308857831236717685685468531604);
   (30758531348217361450337043610517545298754540113453746274790369766109479450015, 24910881755874907419326692197349751587204977193176943348392000587523842645596, 3015521564741213537882979078086447435690420216295673460001670072705466833347)];
  [(6430532214216149554950348023358696084316799088601797015209567690648516583223, 30322201223122403826127455594300333551541257185699563395547082893827709249240, 3420210694878305147730235712627336337645932122717377764189868504132367112789);
   (17707678709431441740796312502228947141759712046994646886320995672656167807370, 42506015023840556909185188466364193940361381177434955063535640630236822343469, 30371912390013304529121358350932305556635110401351484625873557785984723651412);
   (42310777656441672165026492471518106159156591743132589613336444801957382778138, 37486352030118086490759872767898519986857419425356506178016422251200379369888, 2326414219916619012531357539422665168725229619622303876706971060602997109434);
   (39306634100331586063981346355324783787820955619114068241464364989442572759172, 26711796470308455756864362514543153807575698509175159871339700746320331655254, 3679826302817759524884614030442453240917032256809895269345503733773517044454)];
  [(9925372191369641625717209887142929829113479974540003484809610544838332465070, 45081291718892972053610960471043634902162773061177354597816898258512878818962, 3817139241469554203304537521585744314385711334688028768185155602684721034380);
   (43298818252979884458779503446001170792277737215950639946241576434297071735366, 32885302492636357337969651944743929671217233735528765023502806038958990179839, 6699759647053324201939625669951433590068217548488501229999560105457117043408);
   (40908834010304197468160851031127877424448257579320042728715265499429596528118, 17230079505965457121244686059484871101072114115972065439100393062802893693556, 54217758797191868246207596265738082048612473060243920122753484449968484469570);
   (43327427631895362924044267775937337724168450822941039679875606992270203484662, 10501226826826265774465717125561499058927078924957550610636003438377880931444, 2107097893582772223668329569477443873775344100741459465857509096640188092069)];
  [(33277189743094545303882532097907929966119417837421197542108392802026778269367, 53134630703095029691812158711319936722676724669092750862972130045271134203577, 44902613154292266956322238632998604235566196776878091782058500716747407657815);
   (28090120048100048398605124938049210595283164015013463570201052772271371382948, 38430772676882282169835417475706422173491793070590940069745464923091167995809, 20070941890954022666091399365395510771026657870269735202901963329782182231394);
   (39097314162016990660255057714010476369904684691109364898362995863073181779078, 34238387385703425688335445545091791060893275129803758953879391826914026502220, 19665295980646492374220223234515207188815537523246018902386511925877310821049);
   (37769465865260764488641341342657496572877821943635617017522361236405370170074, 21524189283659296697922248818038271190802922901738131595620300666771256994818, 53997091914390214056614165774909202835315194611060080325963205323482798329098)]
].
